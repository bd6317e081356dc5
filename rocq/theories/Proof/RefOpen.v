(** The translated opening of a vector commitment. *)
From Coq Require Import ZArith NArith List Bool FMapPositive Lia ZifyBool ZifyNat ZifyN.
From Verif Require Import Model.Base Proof.BaseProof Spec.VcSpec.
From Verif Require Proof.VcProof.
From Verif Require Import Model.CtLang Model.CtNames Model.CtVole Model.CtProgram Proof.RefLogic Proof.RefTac Proof.RefMem Proof.RefSnp Proof.RefSponge Proof.RefTree Proof.RefTree2 Proof.RefLeaf Proof.RefVc.
Import ListNotations.
Local Open Scope Z_scope.
Arguments wrap : simpl never.

Section Open.
Variables (d x : N).
Notation anc l := (ancestor d x l).
Notation sib l := (sibling (ancestor d x l)).
Notation bt l := (N.b2n (N.testbit x (d - (l + 1)))).
Lemma anc_step l : (l < d)%N -> (x < 2 ^ d)%N -> (d <= 24)%N -> anc (l + 1) = (2 * anc l + bt l)%N /\ sib (l + 1) = (2 * anc l + (1 - bt l))%N /\ (bt l <= 1)%N /\ (anc (l + 1) < 2 ^ (l + 1) /\ sib (l + 1) < 2 ^ (l + 1) /\ anc l < 2 ^ l /\ 2 ^ (l + 1) <= 16777216)%N.
Proof using.
  intros Hl Hx Hd. assert (E := VcProof.ancestor_S d x l Hl). assert (B := VcProof.ancestor_bound d x (l + 1) Hx ltac:(lia)). assert (B' := VcProof.ancestor_bound d x l Hx ltac:(lia)).
  assert (P : (2 ^ (l + 1) <= 2 ^ 24)%N) by (apply N.pow_le_mono_r; lia). change (2 ^ 24)%N with 16777216%N in P.
  assert (Sb : (sib (l + 1) < 2 * 2 ^ l)%N) by (apply VcProof.sibling_bound; rewrite N.pow_add_r in B; change (2 ^ 1)%N with 2%N in B; lia).
  assert (SE : sib (l + 1) = (2 * anc l + (1 - bt l))%N).
  { rewrite E. rewrite VcProof.sibling_bit. f_equal. destruct (N.testbit x (d - (l + 1))); reflexivity. }
  assert (T : (bt l <= 1)%N) by (destruct (N.testbit x (d - (l + 1))); cbn; lia). rewrite N.pow_add_r in *. change (2 ^ 1)%N with 2%N in *. splits; try assumption; lia.
Qed.
(* the byte of the index used on a level, and its negation *)
Lemma pe_bit e m bb bo i : holds m bb bo (bits_of x d) -> (d <= 24)%N -> 0 <= i < ofN d -> lookup e 3 = VPtr bb bo -> forall k, pe e m k (VInt (ofN d - (i + 1))) -> pe e m (ELoad 1 (EAt (EVar 3) 1 k)) (VInt (ofN (bt (Z.to_N i)))).
Proof using.
  intros HB HD Hi E k P. assert (LB := VcProof.lenN_bits_of x d). assert (I := holds_inb _ _ _ _ HB). rewrite LB in I.
  eapply pe_eq; [eapply pe_load1; [eapply pe_at; [apply pe_var, E|exact P]|eapply inb_sub; [exact I|lia|lia|lia]]|].
  f_equal. assert (X := proj2 HB (d - (Z.to_N i + 1))%N ltac:(lia)). rewrite VcProof.nthN_bits_of in X by lia. rewrite <- X. f_equal. lia.
Qed.

Lemma ref_vector_open lam (nod : N -> bytes) com m kb cb bb bo ob oo jb jo : lamb lam -> (1 <= d <= 24)%N -> (x < 2 ^ d)%N ->
  (forall i, (i < count d)%N -> holds m kb (ofN i * ofN (lam / 8)) (nod i) /\ lenN (nod i) = (lam / 8)%N) -> holds m cb (ofN x * (ofN (lam / 8) * 2)) com -> lenN com = (lam / 8 * 2)%N ->
  holds m bb bo (bits_of x d) -> inb m ob oo (ofN d * ofN (lam / 8)) -> inb m jb jo (ofN (lam / 8) * 2) -> sep ob oo (ofN d * ofN (lam / 8)) jb jo (ofN (lam / 8) * 2) ->
  ob <> kb -> ob <> cb -> ob <> bb ->
  calls code f_vector_open [VPtr kb 0; VPtr cb 0; VPtr bb bo; VPtr ob oo; VPtr jb jo; VInt (ofN d); VInt (ofN (lam / 8))] m (fun _ m' =>
    frame m m' (two ob oo (ofN d * ofN (lam / 8)) jb jo (ofN (lam / 8) * 2)) /\
    (forall l, (l < d)%N -> holds m' ob (oo + ofN l * ofN (lam / 8)) (nod (bfs (l + 1) (sib (l + 1))))) /\ holds m' jb jo com).
Proof using.
  intros HL HD HX HN HC LC HB IO IJ SP N1 N2 N3. destruct (lamb_b lam HL) as [B1 B2]. destruct (count_b d HD) as [C1 C2]. set (lb := ofN (lam / 8)) in *.
  assert (XB : ofN x < ofN (2 ^ d)) by lia.
  start code_vector_open.
  seq. eapply wp_callf; [evs|apply (ref_NumRec m d bb bo x); [lia|exact HB]|]. intros v m1 (-> & ->). cbn [set]. rewrite N.mod_small by exact HX.
  seq. eapply wp_set; [ev|]. seq. eapply wp_set; [ev|]. seq. eapply wp_set; [ev|].
  seq. eapply (wp_for _ 11%positive 32 _ (fun i e m' => frame m m' (at_ ob oo (ofN d * lb)) /\ (forall l, ofN l < i -> holds m' ob (oo + ofN l * lb) (nod (bfs (l + 1) (sib (l + 1))))) /\
    has e [(1%positive, VPtr kb 0); (2%positive, VPtr cb 0); (3%positive, VPtr bb bo); (4%positive, VPtr ob oo); (5%positive, VPtr jb jo); (6%positive, VInt (ofN d)); (7%positive, VInt lb);
      (9%positive, VInt (ofN x)); (10%positive, VInt (ofN (anc (Z.to_N i)))); (11%positive, VInt i)]) _ 0 (ofN d)); [lia|lia|lia| | |].
  - intros i e m' Hi (F & HP & HE). unhas. split; [look|]. split.
    { eexists. split; [ev|]. simp. rewrite truth_b. lia. }
    assert (HB' : holds m' bb bo (bits_of x d)) by (eapply off_block; [exact HB|exact F|congruence]).
    destruct (anc_step (Z.to_N i) ltac:(lia) HX ltac:(lia)) as (EA & ES & BT & BA & BS & BA' & BP). set (a := anc (Z.to_N i)) in *. set (t := bt (Z.to_N i)) in *.
    assert (PB : forall e', lookup e' 3 = VPtr bb bo -> lookup e' 6 = VInt (ofN d) -> lookup e' 11 = VInt i -> pe e' m' (ELoad 1 (EAt (EVar 3) 1 (EBin OSub u32 (EBin OSub u32 (EVar 6) (EInt 1)) (EVar 11)))) (VInt (ofN t))).
    { intros e' L3 L6 L11. apply (pe_bit e' m' bb bo i); [exact HB'|lia|exact Hi|exact L3|]. eapply pe_eq; [eapply pe_bin; [eapply pe_bin; [apply pe_var, L6|ev]|apply pe_var, L11]|]. simp. rewrite (wrap_u32 (ofN d - 1)) by lia. rewrite wrap_u32 by lia. f_equal. lia. }
    assert (EB : bfs (Z.to_N i + 1) (sib (Z.to_N i + 1)) = (2 ^ (Z.to_N i + 1) - 1 + sib (Z.to_N i + 1))%N) by reflexivity. set (sN := sib (Z.to_N i + 1)) in *.
    assert (PZ : ofN (2 ^ (Z.to_N i + 1)) = 2 ^ (i + 1)) by (rewrite pow_z; f_equal; lia).
    seq. eapply wp_callf with (vs := [VInt (i + 1); VInt (ofN sN)]).
    { eapply pes_cons; [eapply pe_eq; [ev|simp; rewrite wrap_u32 by lia; reflexivity]|]. eapply pes_cons; [|apply pes_nil]. eapply pe_eq; [eapply pe_bin; [ev|eapply pe_un, pe_un; apply PB; look]|].
      simp. rewrite (wrap_u32 (2 * ofN a)) by lia. assert (BB : 0 <= b2z (ofN t =? 0) <= 1) by (destruct (ofN t =? 0); cbn; lia). rewrite (wrap_u32 (b2z _)) by (clear - BB; lia). rewrite wrap_u32 by (clear - BB ES BS BP BT; lia). f_equal. unfold b2z. destruct (Z.eqb_spec (ofN t) 0); lia. }
    { apply (ref_getNodeIndex m' (i + 1) (ofN sN)); lia. }
    intros w m2 (-> & ->). cbn [set].
    assert (BF := VcProof.bfs_bound (Z.to_N i + 1) sN d ltac:(lia) BS). change (2 ^ (d + 1) - 1)%N with (count d) in BF. destruct (HN _ BF) as [HK LK].
    assert (HK' : holds m' kb (ofN (bfs (Z.to_N i + 1) sN) * lb) (nod (bfs (Z.to_N i + 1) sN))) by (eapply off_block; [exact HK|exact F|congruence]).
    assert (Q1 : (i + 1) * lb <= ofN d * lb) by (apply Z.mul_le_mono_nonneg_r; lia). assert (Q0 : 0 <= i * lb) by (apply Z.mul_nonneg_nonneg; lia).
    assert (IO' : inb m' ob (oo + i * lb) lb) by (eapply inb_sub; [eapply inb_frame; [exact F|exact IO]|lia|lia|lia]).
    assert (IK := holds_inb _ _ _ _ HK'). rewrite LK in IK. fold lb in IK. assert (EF : ofN (bfs (Z.to_N i + 1) sN) = 2 ^ (i + 1) - 1 + ofN sN) by (unfold bfs; lia).
    seq. eapply (wp_copy1 _ _ _ _ _ ob (oo + i * lb) kb (ofN (bfs (Z.to_N i + 1) sN) * lb) lb); [eapply pe_eq; [ev|]|eapply pe_eq; [ev|]|ev|exact IO'|exact IK|].
    { simp. rewrite wrap_u32 by nia. f_equal. lia. }
    { simp. rewrite EF. rewrite wrap_u64 by nia. f_equal. lia. }
    assert (F3 := frame_copy_at m' ob (oo + i * lb) kb (ofN (bfs (Z.to_N i + 1) sN) * lb) lb IO'). assert (C3 : holds (copy m' ob (oo + i * lb) kb (ofN (bfs (Z.to_N i + 1) sN) * lb) lb) ob (oo + i * lb) (nod (bfs (Z.to_N i + 1) sN))).
    { unfold lb at 3. rewrite <- LK. apply holds_copy; [exact HK'|rewrite LK; exact IO']. }
    generalize dependent (copy m' ob (oo + i * lb) kb (ofN (bfs (Z.to_N i + 1) sN) * lb) lb). intros m3 F3 C3.
    assert (HB3 : holds m3 bb bo (bits_of x d)) by (eapply off_block; [exact HB'|exact F3|congruence]).
    eapply wp_set; [eapply pe_bin; [ev|apply (pe_bit _ m3 bb bo i HB3); [lia|exact Hi|look|]]|].
    { eapply pe_eq; [ev|]. simp. rewrite (wrap_u32 (ofN d - 1)) by lia. rewrite wrap_u32 by lia. f_equal. lia. }
    fold t. simp. rewrite (wrap_u32 (2 * ofN a)) by lia. rewrite wrap_u32 by lia. split; [look|]. split; [|split].
    + eapply frame_comp; [exact F|exact F3|]. intros b o _ _ [-> Y]. split; [reflexivity|lia].
    + intros l Hl. destruct (Z.eqb_spec (ofN l) i) as [El|NE].
      * assert (l = Z.to_N i) as -> by lia. fold sN. rewrite Z2N.id by lia. exact C3.
      * assert (BS' : (bfs (l + 1) (sib (l + 1)) < count d)%N) by (apply VcProof.bfs_bound; [lia|apply anc_step; [lia|exact HX|lia]]).
        eapply holds_frame; [apply HP; lia|exact F3|]. rewrite (proj2 (HN _ BS')). fold lb. intros q Hq [_ Y]. assert ((ofN l + 1) * lb <= i * lb) by (apply Z.mul_le_mono_nonneg_r; lia). lia.
    + replace (Z.to_N (i + 1)) with (Z.to_N i + 1)%N by lia. rewrite EA. hasz.
  - intros e m' (F & HP & HE). unhas. split.
    { eexists. split; [ev|]. simp. rewrite truth_b. lia. }
    cbv beta iota. assert (HC' : holds m' cb (ofN x * (lb * 2)) com) by (eapply off_block; [exact HC|exact F|congruence]).
    assert (IC := holds_inb _ _ _ _ HC'). rewrite LC in IC. replace (ofN (lam / 8 * 2)) with (lb * 2) in IC by (unfold lb; lia).
    assert (IJ' : inb m' jb jo (lb * 2)) by (eapply inb_frame; eassumption).
    eapply (wp_copy1 _ _ _ _ _ jb jo cb (ofN x * (lb * 2)) (lb * 2)); [ev|eapply pe_eq; [ev|]|eapply pe_eq; [ev|simp; rewrite wrap_u32 by lia; reflexivity]|exact IJ'|exact IC|].
    { simp. rewrite (wrap_u64 (ofN x * lb)) by nia. rewrite wrap_u64 by nia. f_equal. lia. }
    assert (F3 := frame_copy_at m' jb jo cb (ofN x * (lb * 2)) (lb * 2) IJ'). split; [|split].
    + eapply frame_comp; [eapply frame_weak; [exact F|]|exact F3|]; intros b o _ _ Y; [left|right]; exact Y.
    + intros l Hl. assert (BS' : (bfs (l + 1) (sib (l + 1)) < count d)%N) by (apply VcProof.bfs_bound; [lia|apply anc_step; [exact Hl|exact HX|lia]]).
      eapply holds_frame; [apply HP; lia|exact F3|]. rewrite (proj2 (HN _ BS')). fold lb. intros q Hq [E Y]. assert ((ofN l + 1) * lb <= ofN d * lb) by (apply Z.mul_le_mono_nonneg_r; lia). assert (0 <= ofN l * lb) by (apply Z.mul_nonneg_nonneg; lia). destruct SP as [SP|SP]; [congruence|]. lia.
    + assert (E : lb * 2 = ofN (lenN com)) by (rewrite LC; unfold lb; lia). rewrite E. apply holds_copy; [rewrite <- E; exact HC'|rewrite <- E; exact IJ'].
  - split; [apply frame_refl|]. split; [intros l Hl; lia|]. change (Z.to_N 0) with 0%N. rewrite VcProof.ancestor_0 by exact HX. hass.
Qed.
End Open.
