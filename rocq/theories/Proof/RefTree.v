(** The translated functions of the GGM tree. *)
From Coq Require Import ZArith NArith List Bool FMapPositive Lia ZifyBool ZifyNat ZifyN.
From Verif Require Import Model.Base Proof.BaseProof Spec.VcSpec.
From Verif Require Proof.VcProof Proof.RefWin Proof.RefVoleHash Proof.RefOwf.
From Verif Require Import Model.CtLang Model.CtNames Model.CtVole Model.CtProgram Proof.RefLogic Proof.RefTac Proof.RefMem Proof.RefKeys Proof.RefPrg Proof.RefSnp Proof.RefKeccak Proof.RefSponge Proof.RefFresh.
Import ListNotations.
Local Open Scope Z_scope.
Arguments wrap : simpl never.

Lemma code_is_left_child : PositiveMap.find f_is_left_child code = Some c_is_left_child. Proof. vm_compute. reflexivity. Qed.
Lemma code_create_tree : PositiveMap.find f_create_tree code = Some c_create_tree. Proof. vm_compute. reflexivity. Qed.
Lemma code_get_parent : PositiveMap.find f_get_parent code = Some c_get_parent. Proof. vm_compute. reflexivity. Qed.
Lemma code_expand_seeds : PositiveMap.find f_expand_seeds code = Some c_expand_seeds. Proof. vm_compute. reflexivity. Qed.
Lemma code_generate_seeds : PositiveMap.find f_generate_seeds code = Some c_generate_seeds. Proof. vm_compute. reflexivity. Qed.
Lemma code_getBinaryTreeNodeCount : PositiveMap.find f_getBinaryTreeNodeCount code = Some c_getBinaryTreeNodeCount. Proof. vm_compute. reflexivity. Qed.
Lemma code_getNodeIndex : PositiveMap.find f_getNodeIndex code = Some c_getNodeIndex. Proof. vm_compute. reflexivity. Qed.
Lemma code_NumRec : PositiveMap.find f_NumRec code = Some c_NumRec. Proof. vm_compute. reflexivity. Qed.

(** ** Arithmetic *)
Lemma divu o w a b : 0 < w -> 0 <= a < 2 ^ w -> 0 < b -> CtLang.div o (IT false w) a b = match o with ODiv => a / b | OMod => a mod b end.
Proof.
  intros W A B. unfold CtLang.div. assert (X := Z.mod_pos_bound a b B). assert (Y := Z.div_pos a b ltac:(lia) B). assert (Z := Z.mod_le a b ltac:(lia) B). assert (U := Z.div_le_upper_bound a b a B ltac:(nia)).
  destruct o; [rewrite Z.quot_div_nonneg by lia|rewrite Z.rem_mod_nonneg by lia]; apply wrap_u; lia.
Qed.
Lemma shl1 n : 0 <= n <= 30 -> wrap s32 (Z.shiftl 1 n) = 2 ^ n.
Proof.
  intros H. rewrite Z.shiftl_mul_pow2 by lia. assert (X := Z.pow_le_mono_r 2 n 30 ltac:(lia) ltac:(lia)). assert (Y := Z.pow_pos_nonneg 2 n ltac:(lia) ltac:(lia)). change (2 ^ 30) with 1073741824 in X.
  rewrite Z.mul_1_l, wrap_s32 by lia. reflexivity.
Qed.
Lemma pow_b n k : 0 <= n <= k -> 0 < 2 ^ n <= 2 ^ k.
Proof. intros H. split; [apply Z.pow_pos_nonneg; lia|apply Z.pow_le_mono_r; lia]. Qed.

Lemma ref_is_left_child m n : 0 < n < 2 ^ 64 -> calls code f_is_left_child [VInt n] m (fun v m' => m' = m /\ v = VInt (b2z (n mod 2 =? 1))).
Proof.
  intros H. start code_is_left_child. seq. eapply wp_if; [ev|]. simp. rewrite truth_b. replace (n =? 0) with false by lia. cbv iota. apply wp_skip.
  eapply wp_return; [ev; lia|]. split; [reflexivity|]. simp. unfold u64. rewrite divu by lia. reflexivity.
Qed.
Lemma ref_get_parent m n : 0 < n < 2 ^ 64 -> calls code f_get_parent [VInt n] m (fun v m' => m' = m /\ v = VInt ((n - 1) / 2)).
Proof.
  intros H. start code_get_parent. seq. eapply wp_if; [ev|]. simp. rewrite truth_b. replace (n =? 0) with false by lia. cbv iota. apply wp_skip.
  seq. eapply wp_callf; [evs|apply (ref_is_left_child m n H)|]. intros v m1 (-> & ->). cbn [set]. seq. eapply wp_if; [ev|]. rewrite truth_b.
  destruct (n mod 2 =? 1) eqn:E; cbv iota.
  - eapply wp_return; [ev; lia|]. split; [reflexivity|]. simp. unfold u64. rewrite (wrap_u 64) by lia. rewrite divu by lia. reflexivity.
  - apply wp_skip. eapply wp_return; [ev; lia|]. split; [reflexivity|]. simp. unfold u64. assert (2 <= n) by (assert (n <> 1) by (intros ->; discriminate); lia). rewrite (wrap_u 64) by lia. rewrite divu by lia. f_equal. lia.
Qed.
Lemma ref_nodecount m d : 0 <= d <= 29 -> calls code f_getBinaryTreeNodeCount [VInt d] m (fun v m' => m' = m /\ v = VInt (2 ^ (d + 1) - 1)).
Proof.
  intros H. start code_getBinaryTreeNodeCount. eapply wp_return; [ev|]. split; [reflexivity|]. simp. rewrite (wrap_u32 (d + 1)) by lia. rewrite shl1 by lia.
  assert (X := pow_b (d + 1) 30 ltac:(lia)). change (2 ^ 30) with 1073741824 in X. rewrite wrap_s32 by lia. rewrite wrap_u64 by lia. reflexivity.
Qed.
Lemma ref_getNodeIndex m l j : 0 <= l <= 29 -> 0 <= j < 2 ^ l -> calls code f_getNodeIndex [VInt l; VInt j] m (fun v m' => m' = m /\ v = VInt (2 ^ l - 1 + j)).
Proof.
  intros H J. start code_getNodeIndex. seq. eapply wp_if; [ev|]. simp. rewrite truth_b. assert (X := pow_b l 30 ltac:(lia)). change (2 ^ 30) with 1073741824 in X. destruct (Z.eqb_spec l 0) as [->|E].
  - eapply wp_return; [ev|]. split; [reflexivity|]. f_equal. change (2 ^ 0) with 1 in *. lia.
  - apply wp_skip. eapply wp_return; [ev|]. split; [reflexivity|]. simp. rewrite (wrap_u64 (l - 1)) by lia. rewrite (wrap_u64 (j + 1)) by lia.
    rewrite Z.shiftl_mul_pow2 by lia. replace (2 * 2 ^ (l - 1)) with (2 ^ l) by (rewrite <- Z.pow_succ_r by lia; f_equal; lia). rewrite (wrap_s32 (2 ^ l)) by lia.
    assert (2 ^ 1 <= 2 ^ l) by (apply Z.pow_le_mono_r; lia). change (2 ^ 1) with 2 in *. rewrite (wrap_s32 (2 ^ l - 2)) by lia. rewrite (wrap_u64 (2 ^ l - 2)) by lia. rewrite wrap_u64 by lia. f_equal. lia.
Qed.
Lemma bits_b x d i : (i < d)%N -> 0 <= ofN (nthN (bits_of x d) i 0%N) < 2.
Proof. intros H. rewrite VcProof.nthN_bits_of by exact H. destruct (N.testbit x i); cbn; lia. Qed.
Lemma ref_NumRec m d bb bo x : (d <= 31)%N -> holds m bb bo (bits_of x d) -> calls code f_NumRec [VInt (ofN d); VPtr bb bo] m (fun v m' => m' = m /\ v = VInt (ofN (x mod 2 ^ d))).
Proof.
  intros D HB. start code_NumRec. seq. eapply wp_set; [ev|]. seq. eapply wp_set; [ev|]. assert (LB := VcProof.lenN_bits_of x d).
  seq. eapply (wp_for _ 4%positive 32 _ (fun i e m' => m' = m /\ has e [(1%positive, VInt (ofN d)); (2%positive, VPtr bb bo); (4%positive, VInt i); (3%positive, VInt (ofN (x mod 2 ^ Z.to_N i)))]) _ 0 (ofN d)).
  - lia.
  - lia.
  - lia.
  - intros i e m' Hi (-> & HE). unhas. split; [look|]. split.
    { eexists. split; [ev|]. simp. rewrite truth_b. lia. }
    assert (IB := holds_inb _ _ _ _ HB). rewrite LB in IB.
    eapply wp_set; [ev|]. simp. split; [look|]. split; [reflexivity|]. cbn [has]. splits; try look. rewrite lookup_add; cbn [Pos.eqb]. rewrite lookup_add; cbn [Pos.eqb]. f_equal.
    rewrite Z.mul_1_l. rewrite (holds_byte _ _ _ _ _ HB) by lia. assert (B := bits_b x d (Z.to_N i) ltac:(lia)). rewrite VcProof.nthN_bits_of in * by lia.
    assert (P := pow_b i 30 ltac:(lia)). change (2 ^ 30) with 1073741824 in P. rewrite Z.shiftl_mul_pow2 by lia.
    replace (Z.to_N (i + 1)) with (Z.to_N i + 1)%N by lia. rewrite VcProof.mod_pow2_S. assert (EP : ofN (2 ^ Z.to_N i) = 2 ^ i) by (rewrite N2Z.inj_pow, Z2N.id by lia; reflexivity).
    assert (M := N.mod_upper_bound x (2 ^ Z.to_N i) ltac:(lia)). assert (W : ofN (N.b2n (N.testbit x (Z.to_N i))) * 2 ^ i < 4294967296) by (destruct (N.testbit x (Z.to_N i)); cbn [N.b2n]; lia).
    rewrite (wrap_u32 (_ * 2 ^ i)) by nia. rewrite wrap_u32 by (destruct (N.testbit x (Z.to_N i)); cbn [N.b2n] in *; lia). nia.
  - intros e m' (-> & HE). unhas. split.
    { eexists. split; [ev|]. simp. rewrite truth_b. lia. }
    eapply wp_return; [ev|]. split; [reflexivity|]. rewrite N2Z.id. reflexivity.
  - split; [reflexivity|]. cbn [has]. splits; try look. rewrite !lookup_add; cbn [Pos.eqb]. rewrite N.mod_1_r. reflexivity.
Qed.

(** ** Trees *)
Record tloc := TLoc { tr : positive; nd : positive; ct : positive; lf : positive }.
Definition tblocks (T : tloc) : list positive := [tr T; nd T; ct T; lf T].
Definition tspace (m : mem) (T : tloc) : Prop := NoDup (tblocks T) /\ (ptr m (tr T) 0 (nd T) /\ ptr m (tr T) 1 (ct T) /\ ptr m (tr T) 2 (lf T)) /\ (inb m (nd T) 0 1 /\ inb m (ct T) 0 8 /\ inb m (lf T) 0 8).
Definition filled (m : mem) (T : tloc) (v : value) (c l : N) : Prop := tspace m T /\ to m (nd T) 0 v /\ holds m (ct T) 0 (le_bytes 8 c) /\ holds m (lf T) 0 (le_bytes 8 l).
Definition tfoot (T : tloc) (b : positive) (o : Z) : Prop := In b [nd T; ct T; lf T].
Definition code_tree (a b c d : positive) (s : stmt) : stmt :=
  SAlloc a (EInt 3) ;; SAlloc b (EInt 1) ;; SStoreF (EVar a) 3 0 (EVar b) ;; SAlloc c (EInt 8) ;; SStoreF (EVar a) 3 1 (EVar c) ;; SAlloc d (EInt 8) ;; SStoreF (EVar a) 3 2 (EVar d) ;; s.
Definition newt (m m' : mem) (T : tloc) : Prop := forall b, In b (tblocks T) -> (mnext m <= b < mnext m')%positive.
Lemma tspace_kept m m' S T : tspace m T -> frame m m' S -> (forall q, ~ S (tr T) q) -> tspace m' T.
Proof.
  intros (ND & (A & B & C) & (I1 & I2 & I3)) F D. split; [exact ND|]. split; [splits; (eapply ptr_at; [eassumption|exact F|apply D])|]. splits; (eapply inb_frame; [exact F|assumption]).
Qed.
Lemma filled_kept m m' S T v c l : filled m T v c l -> frame m m' S -> (forall b q, In b (tblocks T) -> ~ S b q) -> filled m' T v c l.
Proof.
  intros (A & B & C & D) F X. unfold tblocks in X. cbn [In] in X. split; [eapply tspace_kept; [exact A|exact F|intros q; apply X; auto]|].
  split; [eapply to_at; [exact B|exact F|apply X; auto]|]. split; (eapply off_set; [eassumption|exact F|intros q; apply X; auto]).
Qed.
Lemma pe_num8 e m p b v : pe e m p (VPtr b 0) -> holds m b 0 (le_bytes 8 v) -> (v < 2^64)%N -> pe e m (ELoad 8 p) (VInt (ofN v)).
Proof.
  intros E H L. eapply pe_eq; [eapply pe_load; [exact E|]|].
  - exact (holds_inb _ _ _ _ H).
  - f_equal. rewrite (decode8 _ _ _ _ H) by (rewrite lenN_le_bytes; reflexivity). f_equal. apply le_val_le_bytes. exact L.
Qed.
Lemma wp_tree a b c d s en m (Q : outcome -> env -> mem -> Prop) : NoDup [a; b; c; d] ->
  (forall m' T en', frame m m' nothing -> newt m m' T -> tspace m' T -> lookup en' a = VPtr (tr T) 0 -> (forall x, ~ In x [a; b; c; d] -> lookup en' x = lookup en x) -> wp code s en' m' Q) ->
  wp code (code_tree a b c d s) en m Q.
Proof.
  intros ND K. unfold code_tree.
  assert (NE : forall i j, (i < j < 4)%nat -> nth i [a; b; c; d] 1%positive <> nth j [a; b; c; d] 1%positive) by (intros i j X; apply nodup_ne; [exact ND|exact X]).
  assert (Eab := NE 0%nat 1%nat ltac:(lia)). assert (Eac := NE 0%nat 2%nat ltac:(lia)). assert (Ead := NE 0%nat 3%nat ltac:(lia)). cbn [nth] in Eab, Eac, Ead. clear NE.
  assert (LN : forall (E : env) x y v, y <> x -> lookup (PositiveMap.add x v E) y = lookup E y) by (intros E x y v X; rewrite lookup_add; destruct (Pos.eqb_spec y x); [contradiction|reflexivity]).
  assert (LE : forall (E : env) x v, lookup (PositiveMap.add x v E) x = v) by (intros E x v; rewrite lookup_add, Pos.eqb_refl; reflexivity).
  seq. apply (wp_new _ _ _ _ 3); [ev|lia|]. intros b1 m1 B1 X1 F1 I1. cbv iota.
  seq. apply (wp_new _ _ _ _ 1); [ev|lia|]. intros b2 m2 B2 X2 F2 I2. cbv iota.
  seq. eapply (wp_member _ _ _ _ _ _ b1 b2); [apply pe_var; rewrite !LN by auto; apply LE|apply pe_var; apply LE|inb_in|]. intros m4 X4 F4 P20. cbv iota.
  seq. apply (wp_new _ _ _ _ 8); [ev|lia|]. intros b4 m5 B4 X5 F5 I4. cbv iota.
  seq. eapply (wp_member _ _ _ _ _ _ b1 b4); [apply pe_var; rewrite !LN by auto; apply LE|apply pe_var; apply LE|inb_in|]. intros m6 X6 F6 P21. cbv iota.
  seq. apply (wp_new _ _ _ _ 8); [ev|lia|]. intros b5 m7 B5 X7 F7 I5. cbv iota.
  seq. eapply (wp_member _ _ _ _ _ _ b1 b5); [apply pe_var; rewrite !LN by auto; apply LE|apply pe_var; apply LE|inb_in|]. intros m8 X8 F8 P22. cbv iota.
  match goal with |- wp _ _ ?en' _ _ => apply (K m8 (TLoc b1 b2 b4 b5) en') end;
    [| | |cbn [tr]; rewrite !LN by auto; apply LE|intros x X; cbn [In] in X; rewrite !LN by intuition; reflexivity].
  all: clear Eab Eac Ead LN LE ND K;
    assert (G2 : b2 = Pos.succ b1) by congruence; assert (G3 : b4 = Pos.succ b2) by congruence; assert (G4 : b5 = Pos.succ b4) by congruence; assert (G9 : mnext m8 = Pos.succ b5) by congruence.
  all: clear B2 B4 B5 X1 X2 X4 X5 X6 X7 X8.
  - repeat (first [apply frame_refl | match goal with F : frame _ ?x _ |- frame _ ?x _ => eapply frame_comp; [|exact F|]; [|clear - B1 G2; intros ? ? ? ? []; lia] end]).
  - intros x X. cbn [In tblocks tr nd ct lf] in X. clear - B1 X G2 G3 G4 G9. lia.
  - split; [clear - G2 G3 G4 G9; unfold tblocks; cbn [tr nd ct lf]; repeat constructor; cbn [In]; lia|].
    splits; cbn [tr nd ct lf]; try inb_in;
    repeat (match goal with |- ptr ?m _ _ _ => first [assumption | match goal with F : frame _ m _ |- _ => eapply ptr_at; [|exact F|]; [|clear - G2; intros []; lia] end] end).
Qed.
(** the tree at [y] returned through [x] *)
Definition code_give (x y : positive) : stmt :=
  SStoreP (EField (EVar x) 3 0) (ELoadP (EField (EVar y) 3 0)) ;; SCopy (EField (EVar x) 3 1) (EField (EVar y) 3 1) (EInt 8) ;; SCopy (EField (EVar x) 3 2) (EField (EVar y) 3 2) (EInt 8) ;; SReturn (EInt 0).
Lemma wp_give x y e m R T v c l (Q : outcome -> env -> mem -> Prop) : lookup e x = VPtr (tr R) 0 -> lookup e y = VPtr (tr T) 0 -> tspace m R -> filled m T v c l ->
  (forall b, In b (tblocks R) -> ~ In b (tblocks T)) -> (forall m', frame m m' (tfoot R) -> filled m' R v c l -> Q (OReturn (VInt 0)) e m') -> wp code (code_give x y) e m Q.
Proof.
  intros EX EY SR FT DJ K. assert (X := SR). destruct X as (ND & (P0 & P1 & P2) & (I0 & I1 & I2)). unfold code_give.
  assert (D : forall b c, In b (tblocks R) -> In c (tblocks T) -> c <> b) by (intros b c' Hb Hc ->; exact (DJ _ Hb Hc)).
  assert (N1 := nodup_ne _ 0 1 ND ltac:(cbn; lia)). assert (N2 := nodup_ne _ 0 2 ND ltac:(cbn; lia)). assert (N3 := nodup_ne _ 0 3 ND ltac:(cbn; lia)).
  assert (N4 := nodup_ne _ 1 2 ND ltac:(cbn; lia)). assert (N5 := nodup_ne _ 1 3 ND ltac:(cbn; lia)). assert (N6 := nodup_ne _ 2 3 ND ltac:(cbn; lia)). cbn [nth tblocks] in *.
  assert (FK : forall m1 m2 b o n, filled m1 T v c l -> In b (tblocks R) -> frame m1 m2 (at_ b o n) -> filled m2 T v c l).
  { intros m1 m2 b o n A B F. eapply filled_kept; [exact A|exact F|]. intros b' q Hb [E _]. exact (D _ _ B Hb E). }
  assert (SK : forall m1 m2 b o n, tspace m1 R -> b <> tr R -> frame m1 m2 (at_ b o n) -> tspace m2 R).
  { intros m1 m2 b o n A B F. eapply tspace_kept; [exact A|exact F|]. intros q [E _]. congruence. }
  seq. eapply (wp_pointer _ _ _ _ (nd R) 0 v); [eapply pe_ptr; eassumption|eapply pe_to; [eapply pe_ptr; [eassumption|apply FT]|apply FT]|exact I0|]. intros m1 X1 F1 T1. cbv iota.
  assert (FT1 := FK _ _ (nd R) _ _ FT ltac:(cbn; auto) F1). assert (SR1 := SK _ _ (nd R) _ _ SR ltac:(congruence) F1). assert (H1 := proj1 (proj2 (proj2 FT1))). assert (ES1 := SR1); destruct ES1 as (_ & (P10 & P11 & P12) & (I10 & I11 & I12)).
  assert (L1 := lenN_le_bytes 8 c). change (N.of_nat 8) with 8%N in L1. assert (J1 := holds_inb _ _ _ _ H1). rewrite L1 in J1.
  seq. eapply (wp_copy1 _ _ _ _ _ (ct R) 0 (ct T) 0 8); [eapply pe_ptr; eassumption|eapply pe_ptr; [eassumption|apply FT1]|ev|exact I11|exact J1|].
  assert (F2 := frame_copy_at m1 (ct R) 0 (ct T) 0 8 I11). assert (C2 : holds (copy m1 (ct R) 0 (ct T) 0 8) (ct R) 0 (le_bytes 8 c)).
  { change 8 with (ofN 8). rewrite <- L1. apply holds_copy; [exact H1|rewrite L1; exact I11]. }
  generalize dependent (copy m1 (ct R) 0 (ct T) 0 8). intros m2 F2 C2.
  assert (FT2 := FK _ _ (ct R) _ _ FT1 ltac:(cbn; auto) F2). assert (SR2 := SK _ _ (ct R) _ _ SR1 ltac:(congruence) F2). assert (H2 := proj2 (proj2 (proj2 FT2))). assert (ES2 := SR2); destruct ES2 as (_ & (P20 & P21 & P22) & (I20 & I21 & I22)).
  assert (L2 := lenN_le_bytes 8 l). change (N.of_nat 8) with 8%N in L2. assert (J2 := holds_inb _ _ _ _ H2). rewrite L2 in J2.
  seq. eapply (wp_copy1 _ _ _ _ _ (lf R) 0 (lf T) 0 8); [eapply pe_ptr; eassumption|eapply pe_ptr; [eassumption|apply FT2]|ev|exact I22|exact J2|].
  assert (F3 := frame_copy_at m2 (lf R) 0 (lf T) 0 8 I22). assert (C3 : holds (copy m2 (lf R) 0 (lf T) 0 8) (lf R) 0 (le_bytes 8 l)).
  { change 8 with (ofN 8). rewrite <- L2. apply holds_copy; [exact H2|rewrite L2; exact I22]. }
  generalize dependent (copy m2 (lf R) 0 (lf T) 0 8). intros m3 F3 C3.
  eapply wp_return; [ev|]. apply K.
  - eapply frame_comp; [eapply frame_comp; [eapply frame_weak; [exact F1|]|exact F2|]|exact F3|]; intros b o _ _ [-> _]; unfold tfoot; cbn [In]; auto.
  - split; [apply (SK m2 m3 (lf R) 0 8 SR2); [congruence|exact F3]|]. split; [|split; [|exact C3]].
    + eapply to_at; [eapply to_at; [exact T1|exact F2|]|exact F3|]; intros [E _]; congruence.
    + eapply off_block; [exact C2|exact F3|congruence].
Qed.

(** the security level among the parameters *)
Definition parm (m : mem) (b : positive) (o : Z) (v : N) : Prop := holds m b o (le_bytes 2 v).
Lemma pe_parm e m p b o v : pe e m p (VPtr b o) -> parm m b o v -> (v < 2^16)%N -> pe e m (ELoad 2 p) (VInt (ofN v)).
Proof.
  intros E H L. eapply pe_eq; [eapply pe_load; [exact E|]|].
  - exact (holds_inb _ _ _ _ H).
  - f_equal. assert (L2 := lenN_le_bytes 2 v). change (N.of_nat 2) with 2%N in L2. assert (K := RefWin.holds_bytesat _ _ _ _ H 2 0%N ltac:(lia)). rewrite Z.add_0_r in K. rewrite K. rewrite RefWin.decode_ofN, dropN_0.
    rewrite takeN_all by lia. f_equal. apply le_val_le_bytes. exact L.
Qed.
Definition lamb (lam : N) : Prop := In lam [128; 192; 256]%N.
Lemma lamb_b lam : lamb lam -> 16 <= ofN (lam / 8) <= 32 /\ (128 <= lam <= 256)%N.
Proof. intros [<-|[<-|[<-|[]]]]; vm_compute; repeat split; discriminate. Qed.
Lemma pe_lambda e m p b o lam : pe e m p (VPtr b o) -> parm m b o lam -> lamb lam -> pe e m (EUn OCast u32 (EDiv ODiv s32 (ELoad 2 p) (EInt 8))) (VInt (ofN (lam / 8))).
Proof.
  intros E H L. eapply pe_eq; [eapply pe_un, pe_div; [eapply pe_parm; [exact E|exact H|]|ev|lia]|].
  - apply lamb_b in L. lia.
  - destruct L as [<-|[<-|[<-|[]]]]; reflexivity.
Qed.
