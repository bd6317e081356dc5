(** The lanes of the four-way sponge are SHAKE (property C45). *)
From Coq Require Import Lia ZifyBool ZifyNat ZifyN.
From Verif.Model Require Import Base Sponge Sponge4.
From Verif.Spec Require Import KeccakSpec.
From Verif.Proof Require Import BaseProof ShakeRun Sponge4Proof.

Lemma run_4_shake sec pieces lens :
  Forall (fun m => length m = 4%nat /\ forall a b, In a m -> In b m -> lenN a = lenN b) pieces ->
  Forall (Forall (Forall (fun b => b < 256))) pieces -> Forall (Forall (fun m => lenN m + 200 <= 2 ^ 32)) pieces ->
  Forall (fun n => n + 200 <= 2 ^ 32) lens ->
  exists outs, hash_run_4 KeccakP1600_Permute_24rounds sec pieces lens = Ok outs /\ Forall (fun p => length p = 4%nat) outs /\
    forall j, j < 4 ->
      map (fun o => lenN (nth (N.to_nat j) o [])) outs = lens /\
      concat (map (fun o => nth (N.to_nat j) o []) outs) =
      shake sec (concat (map (fun m => nth (N.to_nat j) m []) pieces)) (fold_right N.add 0 lens).
Proof.
  intros He Hb Hl Hn. rewrite run_4 by exact He.
  assert (H4 : Forall (fun p : list bytes => length p = 4%nat) pieces) by (eapply Forall_impl; [|exact He]; intros m (H & _); exact H).
  destruct (run_x4 sec pieces lens H4 Hb Hl Hn) as (outs & E & Ho & L). exists outs. split; [exact E|]. split; [exact Ho|].
  intros j Hj. specialize (L j Hj).
  assert (IN : forall m, In m pieces -> In (nth (N.to_nat j) m []) m).
  { intros m Hm. apply nth_In. rewrite Forall_forall in H4. rewrite (H4 m Hm). lia. }
  destruct (run_ok sec (map (fun m => nth (N.to_nat j) m []) pieces) lens) as (o & R & RL & RS).
  - apply Forall_forall. intros x Hx. apply in_map_iff in Hx. destruct Hx as (m & <- & Hm).
    rewrite Forall_forall in Hb. specialize (Hb m Hm). rewrite Forall_forall in Hb. apply Hb, IN, Hm.
  - apply Forall_forall. intros x Hx. apply in_map_iff in Hx. destruct Hx as (m & <- & Hm).
    rewrite Forall_forall in Hl. specialize (Hl m Hm). rewrite Forall_forall in Hl. apply Hl, IN, Hm.
  - exact Hn.
  - assert (L' : Ok o = Ok (map (fun o : list bytes => nth (N.to_nat j) o []) outs)) by (rewrite <- R; exact L).
    injection L' as ->. split; [|exact RS]. rewrite <- RL, map_map. reflexivity.
Qed.
