(** The translated four-way hash functions, in terms of what stands in memory. *)
From Coq Require Import ZArith NArith List Bool FMapPositive Lia ZifyBool ZifyNat ZifyN.
From Verif Require Import Model.Base Proof.BaseProof.
From Verif Require Import Model.CtLang Model.CtNames Model.CtProgram Spec.RefSpec Spec.RefShakeSpec Proof.RefLogic Proof.RefTac Proof.RefMem Proof.RefProps Proof.RefKeccak Proof.RefSponge Proof.RefHash Proof.RefSponge4 Proof.RefHash4 Proof.RefShakeProps.
Import ListNotations.
Local Open Scope Z_scope.

Definition blk {A : Type} (l : list (positive * Z * A)) (j : Z) : positive := match nth_error l (Z.to_nat j) with Some (b, _, _) => b | None => 1%positive end.
Definition off {A : Type} (l : list (positive * Z * A)) (j : Z) : Z := match nth_error l (Z.to_nat j) with Some (_, o, _) => o | None => 0 end.
Lemma place_ptrs {A : Type} (l : list (positive * Z * A)) : length l = 4%nat -> map place_of l = ptrs (blk l) (off l).
Proof. destruct l as [|[[? ?] ?] [|[[? ?] ?] [|[[? ?] ?] [|[[? ?] ?] [|? ?]]]]]; try discriminate. reflexivity. Qed.
Lemma nth_four {A : Type} (l : list (positive * Z * A)) j : length l = 4%nat -> 0 <= j < 4 -> exists x, nth_error l (Z.to_nat j) = Some (blk l j, off l j, x).
Proof.
  intros E H. unfold blk, off. destruct (nth_error l (Z.to_nat j)) as [[[b o] x]|] eqn:X; [exists x; reflexivity|]. apply nth_error_None in X. lia.
Qed.
Lemma allocated_space4 m c : allocated_four m c -> space4 m (place c).
Proof.
  intros [A R]. apply allocated_space in A. destruct A as (ND & A & B & (_ & C)). split; [exact ND|]. split; [exact A|]. split; [exact B|]. split; [|exact C]. apply room_inb in R. exact R.
Qed.

Definition msg (is : list (N * list input)) (j : Z) : bytes := message_of (Z.to_nat j) is.
Definition datum (i : N * list input) (j : Z) : bytes := snd (nth (Z.to_nat j) (snd i) nowhere).
Lemma given_feed m c i : given_four m c i -> feed4 m (place c) (blk (snd i)) (off (snd i)) (datum i) (fst i) /\ (fst i + 200 <= 2 ^ 32)%N.
Proof.
  intros (E & H). assert (X : forall j, 0 <= j < 4 -> holds m (blk (snd i) j) (off (snd i) j) (datum i j) /\ bytes_ok (datum i j) /\ lenN (datum i j) = fst i /\ (lenN (datum i j) + 200 <= 2 ^ 32)%N /\ ~ In (blk (snd i) j) (blocks (place c))).
  { intros j Hj. destruct (nth_four _ j E Hj) as (d & D). unfold datum. rewrite (nth_error_nth _ _ nowhere D). cbn [snd].
    rewrite Forall_forall in H. destruct (H _ (nth_error_In _ _ D)) as (G & L). cbn [snd] in L. apply given_ready in G. destruct G as (G1 & G2 & G3 & G4).
    unfold lenN. auto. }
  split; [|destruct (X 0 ltac:(lia)) as (_ & _ & E0 & L0 & _); rewrite E0 in L0; exact L0]. intros j Hj. destruct (X j Hj) as (A & B & C & _ & D). auto.
Qed.
Definition ready4 (m : mem) (L : loc) (i : N * list input) : Prop := length (snd i) = 4%nat /\ feed4 m L (blk (snd i)) (off (snd i)) (datum i) (fst i) /\ (fst i + 200 <= 2 ^ 32)%N.
Lemma ready4_kept m m' L i : ready4 m L i -> frame m m' (foot L) -> ready4 m' L i.
Proof.
  intros (E & H & X) F. split; [exact E|]. split; [|exact X]. intros j Hj. destruct (H j Hj) as (A & B & C & D). split; [|auto].
  eapply off_set; [exact A|exact F|]. intros q Y. apply D. eapply foot_in, Y.
Qed.
Lemma absorbing4_ext m L sec D D' : absorbing4 m L sec D -> (forall j, 0 <= j < 4 -> D j = D' j) -> absorbing4 m L sec D'.
Proof.
  intros (B & k & E & C) X. split; [intros j Hj; rewrite <- X by exact Hj; auto|]. exists k. split; [intros j Hj; rewrite <- X by exact Hj; auto|].
  eapply ctx4_ext; [exact C|]. intros j Hj. cbv beta. rewrite X by exact Hj. reflexivity.
Qed.
Lemma feed4_runs c : forall is m sec D, absorbing4 m (place c) sec D -> Forall (ready4 m (place c)) is ->
  exists m', runs (map (feed_four_call f_H0_x4_update c) is) m m' /\ frame m m' (foot (place c)) /\ absorbing4 m' (place c) sec (fun j => D j ++ msg is j).
Proof.
  induction is as [|i is IH]; intros m sec D A I.
  - exists m. split; [apply runs_nil|]. split; [apply frame_refl|]. eapply absorbing4_ext; [exact A|]. intros j _. symmetry. apply app_nil_r.
  - inversion I as [|x y I1 I2]; subst. destruct I1 as (E1 & I1 & L1). destruct (calls_returns _ _ _ _ (ref_H0_x4_update m (place c) sec D _ _ _ _ A I1 L1)) as (v & m1 & R & F & A1).
    destruct (IH m1 sec _ A1) as (m2 & R2 & F2 & A2). { eapply Forall_impl; [|exact I2]. intros x X. eapply ready4_kept; eassumption. }
    exists m2. split; [|split].
    + cbn [map]. unfold feed_four_call at 1. rewrite place_ptrs by exact E1. eapply runs_cons; [|exact R2]. exact R.
    + eapply frame_comp; [exact F|exact F2|]. auto.
    + eapply absorbing4_ext; [exact A2|]. intros j _. cbv beta. rewrite <- app_assoc. reflexivity.
Qed.
Lemma pairs_nth (l : list output) i j u v : ForallOrdPairs apart l -> (i < j)%nat -> nth_error l i = Some u -> nth_error l j = Some v -> apart u v.
Proof.
  intros H. revert i j. induction H as [|a l A H IH]; intros i j L X Y; [destruct i; discriminate|]. destruct j as [|j]; [lia|]. destruct i as [|i].
  - injection X as <-. cbn [nth_error] in Y. rewrite Forall_forall in A. apply A. eapply nth_error_In, Y.
  - apply (IH i j); [lia|exact X|exact Y].
Qed.
Lemma vacant_room m c us n : vacant_four m c us n -> (0 < n)%N -> (forall i j u v, (i < j)%nat -> nth_error us i = Some u -> nth_error us j = Some v -> apart u v) ->
  room4 m (place c) (blk us) (off us) n /\ (n + 200 <= 2 ^ 32)%N /\ (forall j, 0 <= j < 4 -> nth_error us (Z.to_nat j) = Some (blk us j, off us j, n)).
Proof.
  intros (E & H) N0 AP. rewrite Forall_forall in H.
  assert (X : forall j, 0 <= j < 4 -> nth_error us (Z.to_nat j) = Some (blk us j, off us j, n)).
  { intros j Hj. destruct (nth_four _ j E Hj) as (n0 & D). destruct (H _ (nth_error_In _ _ D)) as (_ & L). cbn [snd] in L. subst n0. exact D. }
  assert (Y : forall j, 0 <= j < 4 -> ready_out m (place c) (blk us j, off us j, n)) by (intros j Hj; apply vacant_ready; apply (H _ (nth_error_In _ _ (X j Hj)))).
  split; [split|split; [apply (Y 0 ltac:(lia))|exact X]].
  - intros j Hj. destruct (Y j Hj) as (A & _ & B). auto.
  - intros i j (I & J). apply sep_disjoint; [exact N0|exact N0|]. apply (AP (Z.to_nat i) (Z.to_nat j) _ _ ltac:(lia) (X i ltac:(lia)) (X j ltac:(lia))).
Qed.
Lemma room4_kept m m' S L db dof n : room4 m L db dof n -> frame m m' S -> room4 m' L db dof n.
Proof. intros (X & Y) F. split; [|exact Y]. intros j Hj. destruct (X j Hj) as (U & W). split; [eapply inb_frame; [exact F|exact U]|exact W]. Qed.

Lemma H0_x4_runs m c sec is us n vs n' : loaded m -> allocated_four m c -> (sec < 2 ^ 32)%N -> Forall (given_four m c) is ->
  vacant_four m c us n -> vacant_four m c vs n' -> (0 < n)%N -> (0 < n')%N -> ForallOrdPairs apart (us ++ vs) ->
  exists m', runs (start_call f_H0_x4_init c sec :: map (feed_four_call f_H0_x4_update c) is ++ [take_four_call f_H0_x4_final c us n vs n']) m m' /\
    (forall j b o, nth_error us j = Some (b, o, n) -> stands m' b o (firstn (N.to_nat n) (shake sec (message_of j is ++ [0%N]) (n + n')))) /\
    (forall j b o, nth_error vs j = Some (b, o, n') -> stands m' b o (skipn (N.to_nat n) (shake sec (message_of j is ++ [0%N]) (n + n')))) /\
    unchanged m m' (touched c (us ++ vs)).
Proof.
  intros LD AL LS GI VU VV N0 N1 AP. assert (SP := allocated_space4 _ _ AL). assert (KC := loaded_kconst _ LD).
  assert (EU := proj1 VU). assert (EV := proj1 VV).
  destruct (sep_place m c 8 0 LD (proj1 AL)) as (NG & HG); [vm_compute; auto 20|discriminate|].
  destruct (vacant_room m c us n VU N0) as (RU & LU & XU).
  { intros i j u v L X Y. eapply (pairs_nth _ i j _ _ AP L); [rewrite nth_error_app1; [exact X|]|rewrite nth_error_app1; [exact Y|]]; apply nth_error_Some; congruence. }
  destruct (vacant_room m c vs n' VV N1) as (RV & LV & XV).
  { intros i j u v L X Y. eapply (pairs_nth _ (4 + i) (4 + j) _ _ AP); [lia|rewrite nth_error_app2 by lia; rewrite EU; replace (4 + i - 4)%nat with i by lia; exact X|rewrite nth_error_app2 by lia; rewrite EU; replace (4 + j - 4)%nat with j by lia; exact Y]. }
  assert (SX : forall i j, 0 <= i < 4 -> 0 <= j < 4 -> sep (blk us i) (off us i) (ofN n) (blk vs j) (off vs j) (ofN n')).
  { intros i j I J. apply sep_disjoint; [exact N0|exact N1|].
    apply (pairs_nth _ (Z.to_nat i) (4 + Z.to_nat j) (blk us i, off us i, n) (blk vs j, off vs j, n') AP); [lia|rewrite nth_error_app1 by lia; apply XU, I|].
    rewrite nth_error_app2 by lia. rewrite EU. replace (4 + Z.to_nat j - 4)%nat with (Z.to_nat j) by lia. apply XV, J. }
  destruct (calls_returns _ _ _ _ (ref_H0_x4_init m (place c) sec SP KC LS)) as (v & m1 & R1 & F1 & A1).
  assert (GI1 : Forall (ready4 m1 (place c)) is).
  { eapply Forall_impl; [|exact GI]. intros i X. eapply ready4_kept; [|exact F1]. split; [apply X|]. apply given_feed, X. }
  destruct (feed4_runs c is m1 sec (fun _ => []) A1 GI1) as (m2 & R2 & F2 & A2).
  assert (F02 : frame m m2 (foot (place c))) by (eapply frame_comp; [exact F1|exact F2|]; auto).
  destruct (calls_returns _ _ _ _ (ref_H0_x4_final m2 (place c) sec _ 0 (blk us) (off us) n (blk vs) (off vs) n' A2 (HG m2 F02) ltac:(lia) NG (room4_kept _ _ _ _ _ _ _ RU F02) LU (room4_kept _ _ _ _ _ _ _ RV F02) LV SX)) as (v3 & m3 & R3 & F3 & H3 & H4).
  exists m3. split; [|split; [|split]].
  - eapply runs_cons; [exact R1|]. eapply runs_app; [exact R2|]. unfold take_four_call. rewrite !place_ptrs by assumption. eapply runs_cons; [exact R3|apply runs_nil].
  - intros j b o J. assert (LJ : (j < 4)%nat) by (rewrite <- EU; apply nth_error_Some; congruence). specialize (XU (Z.of_nat j) ltac:(lia)). rewrite Nat2Z.id, J in XU. injection XU as -> ->.
    apply holds_stands. specialize (H3 (Z.of_nat j) ltac:(lia)). cbv beta in H3. unfold msg in H3. rewrite Nat2Z.id in H3. exact H3.
  - intros j b o J. assert (LJ : (j < 4)%nat) by (rewrite <- EV; apply nth_error_Some; congruence). specialize (XV (Z.of_nat j) ltac:(lia)). rewrite Nat2Z.id, J in XV. injection XV as -> ->.
    apply holds_stands. specialize (H4 (Z.of_nat j) ltac:(lia)). cbv beta in H4. unfold msg in H4. rewrite Nat2Z.id in H4. exact H4.
  - eapply frame_unchanged; [|intros b q X; exact X]. eapply frame_comp; [eapply frame_weak; [exact F02|]|exact F3|]; intros b q _ _ X; [left; exact X|].
    destruct X as [X|[(j & Hj & X)|(j & Hj & X)]]; [left; exact X|right..].
    + exists (blk us j), (off us j), n. split; [|exact X]. apply in_or_app. left. eapply nth_error_In, XU, Hj.
    + exists (blk vs j), (off vs j), n'. split; [|exact X]. apply in_or_app. right. eapply nth_error_In, XV, Hj.
Qed.
