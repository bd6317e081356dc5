(** Concrete memories that meet the hypotheses of C52. *)
From Coq Require Import ZArith List Bool FMapPositive Lia.
From Verif Require Import Model.CtLang Model.CtNames Model.CtProgram Spec.CtSpec.
Import ListNotations.
Local Open Scope Z_scope.

Lemma equal_but_add secret m1 m2 l1 l2 : equal_but secret m1 m2 -> length l1 = length l2 ->
  (secret (mnext m1) = false -> l1 = l2) -> equal_but secret (add_block m1 l1) (add_block m2 l2).
Proof.
  intros [E H] L S. unfold equal_but, add_block, fresh. cbn [mnext mblocks]. rewrite <- E, L. split; [reflexivity|].
  intros b Hb. destruct (Pos.eq_dec b (mnext m1)) as [->|D].
  - eexists; eexists. rewrite !PositiveMapAdditionalFacts.gsspec.
    destruct (PositiveMap.E.eq_dec (mnext m1) (mnext m1)); [|congruence].
    split; [reflexivity|]. split; [reflexivity|]. split; [reflexivity|]. intros F o _. rewrite (S F). reflexivity.
  - destruct (H b) as (k1 & k2 & A & B & C); [lia|]. exists k1, k2.
    rewrite !PositiveMap.gso by congruence. auto.
Qed.

Fixpoint same (secret : positive -> bool) (b : positive) (l1 l2 : list (list Z)) : Prop :=
  match l1, l2 with
  | [], [] => True
  | x :: l1, y :: l2 => length x = length y /\ (secret b = false -> x = y) /\ same secret (Pos.succ b) l1 l2
  | _, _ => False
  end.

Lemma fold_equal secret : forall l1 l2 m1 m2, same secret (mnext m1) l1 l2 -> equal_but secret m1 m2 ->
  equal_but secret (fold_left add_block l1 m1) (fold_left add_block l2 m2).
Proof.
  induction l1 as [|x l1 IH]; intros [|y l2] m1 m2 H E; cbn [same fold_left] in *; try contradiction; [exact E|].
  destruct H as (A & B & C). apply IH; [exact C|]. apply equal_but_add; assumption.
Qed.

Lemma fold_next : forall l m, mnext (fold_left add_block l m) = Pos.of_nat (Pos.to_nat (mnext m) + length l).
Proof.
  induction l as [|x l IH]; intros m; cbn [fold_left length]; [rewrite Nat.add_0_r, Pos2Nat.id; reflexivity|].
  rewrite IH. unfold add_block, fresh. cbn [mnext]. f_equal. lia.
Qed.

Lemma memory_start secret r1 r2 l1 l2 : (forall g, (g <= last_global)%positive -> secret g = Pos.eqb g tape) ->
  length r1 = length r2 -> same secret (last_global + 1) l1 l2 -> start secret (memory r1 l1) (memory r2 l2).
Proof.
  intros G R S.
  assert (T : secret 4%positive = false -> r1 = r2) by (rewrite G by (cbv; discriminate); discriminate).
  split; [|split; [|exact G]].
  - unfold memory. apply fold_equal.
    + cbn [mnext]. unfold globals. change (seq 0 (Pos.to_nat last_global)) with (seq 0 12).
      cbn [seq map app same].
      repeat (split; [first [reflexivity | exact R]|split; [first [reflexivity | exact T]|]]).
      exact S.
    + split; [reflexivity|]. intros b Hb. cbn [mnext] in Hb. lia.
  - unfold memory. rewrite fold_next, app_length. unfold globals. rewrite map_length, seq_length. cbn [mnext].
    rewrite Nat2Pos.inj_add by (cbv; lia). rewrite Pos2Nat.id. lia.
Qed.

(** A switch through a table, and a program that returns early: what the
    observer sees depends on the secret, and the checker refuses them. *)
Definition leaky_table : func := Func [1%positive; 2%positive] (SReturn (ELoad 1 (EAt (EVar 1) 1 (EVar 2)))).
Definition leaky_branch : func := Func [1%positive; 2%positive]
  (SSeq (SIf (EBin ONe u8 (ELoad 1 (EVar 1)) (ELoad 1 (EVar 2))) (SReturn (EInt 1)) SSkip) (SReturn (EInt 0))).
