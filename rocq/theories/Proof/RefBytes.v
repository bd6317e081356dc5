(** What the translated functions on bytes compute: GF(256), the S-box, arrays of bytes. *)
From Coq Require Import ZArith NArith List Bool FMapPositive Lia.
From Verif Require Import Model.CtLang Model.CtNames Model.CtFields Model.CtAes Model.CtProgram Proof.RefLogic Proof.RefTac.
From Verif Require Model.Base Model.Fields Model.Aes Proof.BaseProof.
Import ListNotations.
Local Open Scope Z_scope.
Arguments wrap : simpl never.

Notation ofN := Z.of_N.

Lemma code_bf8_mul : PositiveMap.find f_bf8_mul code = Some c_bf8_mul. Proof. vm_compute. reflexivity. Qed.
Lemma code_bf8_square : PositiveMap.find f_bf8_square code = Some c_bf8_square. Proof. vm_compute. reflexivity. Qed.

Lemma land_1 x : Z.land x 1 = b2z (Z.testbit x 0).
Proof.
  change (Z.land x (Z.ones 1) = b2z (Z.testbit x 0)). rewrite Z.land_ones by lia. change (2 ^ 1) with 2. rewrite <- Z.bit0_mod.
  destruct (Z.testbit x 0); reflexivity.
Qed.
Lemma bit_N r i : Z.land (Z.shiftr (ofN r) (ofN i)) 1 = b2z (N.testbit r i).
Proof. rewrite land_1, Z.shiftr_spec by lia. rewrite Z.add_0_l, N2Z.inj_testbit. reflexivity. Qed.
Lemma mask_s32 b x : 0 <= x -> Z.land (wrap s32 (- b2z b)) x = if b then x else 0.
Proof. intros H. destruct b; [change (wrap s32 (- b2z true)) with (-1); apply Z.land_m1_l|reflexivity]. Qed.

Lemma ofN_lxor a b : Z.lxor (ofN a) (ofN b) = ofN (N.lxor a b).
Proof. destruct a, b; reflexivity. Qed.
Lemma ofN_land a b : Z.land (ofN a) (ofN b) = ofN (N.land a b).
Proof. destruct a, b; reflexivity. Qed.
Lemma ofN_lor a b : Z.lor (ofN a) (ofN b) = ofN (N.lor a b).
Proof. destruct a, b; reflexivity. Qed.
Lemma ofN_shiftl a b : Z.shiftl (ofN a) (ofN b) = ofN (N.shiftl a b).
Proof. rewrite Z.shiftl_mul_pow2, N.shiftl_mul_pow2, N2Z.inj_mul, N2Z.inj_pow by lia. reflexivity. Qed.
Lemma ofN_shiftr a b : Z.shiftr (ofN a) (ofN b) = ofN (N.shiftr a b).
Proof. rewrite Z.shiftr_div_pow2, N.shiftr_div_pow2, N2Z.inj_div, N2Z.inj_pow by lia. reflexivity. Qed.

Lemma lxor_byte x y : (x < 256 -> y < 256 -> N.lxor x y < 256)%N.
Proof. exact (BaseProof.lxor_lt x y 8). Qed.

(** ** GF(256) *)
Lemma dbl_check : forallb (fun n => wrap u8 (Z.lxor (wrap s32 (Z.shiftl (ofN n) 1)) (Z.land (wrap u8 (wrap s32 (- Z.land (Z.shiftr (ofN n) 7) 1))) 27))
   =? ofN (Fields.bf_dbl Fields.F8 n)) (Base.Nrange 256) = true.
Proof. vm_compute. reflexivity. Qed.
Lemma dbl_lt_check : forallb (fun n => (Fields.bf_dbl Fields.F8 n <? 256)%N) (Base.Nrange 256) = true.
Proof. vm_compute. reflexivity. Qed.
Lemma on_bytes (f : N -> bool) : forallb f (Base.Nrange 256) = true -> forall n, (n < 256)%N -> f n = true.
Proof. intros H n L. rewrite forallb_forall in H. apply H. apply BaseProof.In_Nrange. exact L. Qed.

Definition mul_state (a b k : N) : N * N :=
  fold_left (Fields.bf_mul_step Fields.F8 b) (Base.Nfromto 1 k) (a, if N.testbit b 0 then a else 0%N).
Lemma mul_state_lt a b : (a < 256)%N -> forall k, (1 <= k)%N -> (fst (mul_state a b k) < 256 /\ snd (mul_state a b k) < 256)%N.
Proof.
  intros A. apply (N.peano_ind (fun k => (1 <= k)%N -> (fst (mul_state a b k) < 256 /\ snd (mul_state a b k) < 256)%N)); [lia|].
  intros k IH L. destruct (N.eq_dec k 0) as [->|N].
  - change (mul_state a b (N.succ 0)) with (a, if N.testbit b 0 then a else 0%N). cbn [fst snd]. split; [exact A|]. destruct (N.testbit b 0); [exact A|lia].
  - unfold mul_state in *. rewrite <- N.add_1_r. rewrite BaseProof.Nfromto_succ by lia. rewrite fold_left_app. cbn [fold_left].
    destruct (IH ltac:(lia)) as [B C]. set (s := fold_left _ _ _) in *. unfold Fields.bf_mul_step. cbn [fst snd].
    assert (D : (Fields.bf_dbl Fields.F8 (fst s) < 256)%N) by (apply N.ltb_lt, (on_bytes _ dbl_lt_check), B).
    split; [exact D|]. apply lxor_byte; [exact C|]. destruct (N.testbit b k); [exact D|lia].
Qed.
Lemma mul_state_S a b k : (1 <= k)%N -> mul_state a b (k + 1) = Fields.bf_mul_step Fields.F8 b (mul_state a b k) k.
Proof. intros L. unfold mul_state. rewrite BaseProof.Nfromto_succ, fold_left_app by exact L. reflexivity. Qed.

Definition returns (f : positive) (vs : list value) (z : Z) : Prop :=
  forall m, calls code f vs m (fun v m' => v = VInt z /\ m' = m).

Lemma ref_bf8_mul a b : (a < 256)%N -> (b < 256)%N -> returns f_bf8_mul [VInt (ofN a); VInt (ofN b)] (ofN (Fields.bf8_mul a b)).
Proof.
  intros A B m. start code_bf8_mul.
  seq. eapply wp_set; [ev|]. seq. eapply wp_set; [ev|]. simp.
  seq. eapply (wp_for _ 4%positive 32 _ (fun i e m' => m' = m /\ has e [(1%positive, VInt (ofN (fst (mul_state a b (Z.to_N i))))); (2%positive, VInt (ofN b));
      (3%positive, VInt (ofN (snd (mul_state a b (Z.to_N i))))); (4%positive, VInt i)]) _ 1 8); try lia.
  - intros i e m' L [-> H]. unhas. split; [assumption|]. split.
    { eexists. split; [ev|]. simp. rewrite truth_b. lia. }
    assert (M := mul_state_lt a b A (Z.to_N i) ltac:(lia)). replace (Z.to_N (i + 1)) with (Z.to_N i + 1)%N by lia.
    rewrite mul_state_S by lia. set (s := mul_state a b (Z.to_N i)) in *.
    seq. eapply wp_set; [ev|]. seq. eapply wp_set; [ev|]. eapply wp_set; [ev|]. simp.
    pose proof (on_bytes _ dbl_check (fst s) (proj1 M)) as D. apply Z.eqb_eq in D. rewrite D.
    pose proof (bit_N b (Z.to_N i)) as Eb. rewrite Z2N.id in Eb by lia. rewrite Eb, mask_s32 by lia.
    split; [look|]. split; [reflexivity|]. cbn [has].
    unfold Fields.bf_mul_step. cbn [fst snd]. splits; try look; try exact I.
    repeat (rewrite lookup_add; cbn [Pos.eqb]). f_equal.
    assert (E : (if N.testbit b (Z.to_N i) then ofN (Fields.bf_dbl Fields.F8 (fst s)) else 0) = ofN (if N.testbit b (Z.to_N i) then Fields.bf_dbl Fields.F8 (fst s) else 0%N))
      by (destruct (N.testbit b (Z.to_N i)); reflexivity).
    rewrite E, ofN_lxor. apply wrap_u8.
    pose proof (mul_state_lt a b A (Z.to_N i + 1) ltac:(lia)) as M'. rewrite mul_state_S in M' by lia. cbn [Fields.bf_mul_step snd] in M'. fold s in M'. lia.
  - intros e m' [-> H]. unhas. split.
    { eexists. split; [ev|]. simp. rewrite truth_b. reflexivity. }
    eapply wp_return; [ev|]. split; [|reflexivity]. reflexivity.
  - split; [reflexivity|]. cbn [has]. splits; try look; try exact I. repeat (rewrite lookup_add; cbn [Pos.eqb]). f_equal.
    pose proof (bit_N b 0) as Hb. cbn [Z.of_N] in Hb. rewrite Z.shiftr_0_r in Hb. rewrite Hb, mask_s32 by lia.
    unfold mul_state. cbn. destruct (N.testbit b 0); rewrite wrap_u8 by lia; reflexivity.
Qed.

Lemma ref_bf8_square a : (a < 256)%N -> returns f_bf8_square [VInt (ofN a)] (ofN (Fields.bf8_square a)).
Proof.
  intros A m. start code_bf8_square.
  seq. eapply wp_set; [ev|]. seq. eapply wp_set; [ev|]. seq. eapply wp_set; [ev|]. simp.
  seq. eapply (wp_for _ 4%positive 32 _ (fun i e m' => m' = m /\ has e [(1%positive, VInt (ofN (fst (mul_state a a (Z.to_N i))))); (3%positive, VInt (ofN a));
      (2%positive, VInt (ofN (snd (mul_state a a (Z.to_N i))))); (4%positive, VInt i)]) _ 1 8); try lia.
  - intros i e m' L [-> H]. unhas. split; [assumption|]. split.
    { eexists. split; [ev|]. simp. rewrite truth_b. lia. }
    assert (M := mul_state_lt a a A (Z.to_N i) ltac:(lia)). replace (Z.to_N (i + 1)) with (Z.to_N i + 1)%N by lia.
    rewrite mul_state_S by lia. set (s := mul_state a a (Z.to_N i)) in *.
    seq. eapply wp_set; [ev|]. seq. eapply wp_set; [ev|]. eapply wp_set; [ev|]. simp.
    pose proof (on_bytes _ dbl_check (fst s) (proj1 M)) as D. apply Z.eqb_eq in D. rewrite D.
    pose proof (bit_N a (Z.to_N i)) as Eb. rewrite Z2N.id in Eb by lia. rewrite Eb, mask_s32 by lia.
    split; [look|]. split; [reflexivity|]. cbn [has].
    unfold Fields.bf_mul_step. cbn [fst snd]. splits; try look; try exact I.
    repeat (rewrite lookup_add; cbn [Pos.eqb]). f_equal.
    assert (E : (if N.testbit a (Z.to_N i) then ofN (Fields.bf_dbl Fields.F8 (fst s)) else 0) = ofN (if N.testbit a (Z.to_N i) then Fields.bf_dbl Fields.F8 (fst s) else 0%N))
      by (destruct (N.testbit a (Z.to_N i)); reflexivity).
    rewrite E, ofN_lxor. apply wrap_u8.
    pose proof (mul_state_lt a a A (Z.to_N i + 1) ltac:(lia)) as M'. rewrite mul_state_S in M' by lia. cbn [Fields.bf_mul_step snd] in M'. fold s in M'. lia.
  - intros e m' [-> H]. unhas. split.
    { eexists. split; [ev|]. simp. rewrite truth_b. reflexivity. }
    eapply wp_return; [ev|]. split; [|reflexivity]. reflexivity.
  - split; [reflexivity|]. cbn [has]. splits; try look; try exact I. repeat (rewrite lookup_add; cbn [Pos.eqb]). f_equal.
    pose proof (bit_N a 0) as Hb. cbn [Z.of_N] in Hb. rewrite Z.shiftr_0_r in Hb. rewrite Hb, mask_s32 by lia.
    unfold mul_state. cbn. destruct (N.testbit a 0); rewrite wrap_u8 by lia; reflexivity.
Qed.
Lemma bf8_mul_lt a b : (a < 256 -> Fields.bf8_mul a b < 256)%N.
Proof. intros A. apply (mul_state_lt a b A 8). lia. Qed.
Lemma bf8_square_lt a : (a < 256 -> Fields.bf8_square a < 256)%N.
Proof. intros A. apply (mul_state_lt a a A 8). lia. Qed.

#[local] Opaque Fields.bf8_mul Fields.bf8_square.
(** Use what is known about a function that leaves memory alone. *)
Ltac scall H := eapply wp_call; [evs|]; eapply calls_weak; [eapply H|let v := fresh "v" in let E := fresh "E" in intros v ? [E ->]; subst v; cbn [set]].

Lemma code_bf8_inv : PositiveMap.find f_bf8_inv code = Some c_bf8_inv. Proof. vm_compute. reflexivity. Qed.
Lemma bf8_inv_lt a : (a < 256 -> Fields.bf8_inv a < 256)%N.
Proof. intros A. unfold Fields.bf8_inv. repeat first [apply bf8_mul_lt | apply bf8_square_lt]. exact A. Qed.
Lemma ref_bf8_inv a : (a < 256)%N -> returns f_bf8_inv [VInt (ofN a)] (ofN (Fields.bf8_inv a)).
Proof.
  intros A m. start code_bf8_inv.
  repeat (seq; first [scall ref_bf8_square; [solve [repeat first [apply bf8_mul_lt | apply bf8_square_lt]; exact A]|]
    | scall ref_bf8_mul; [solve [repeat first [apply bf8_mul_lt | apply bf8_square_lt]; exact A]..|]
    | eapply wp_set; [ev|]]).
  eapply wp_return; [ev|]. split; reflexivity.
Qed.

#[local] Transparent Fields.bf8_mul Fields.bf8_square.
Lemma code_compute_sbox : PositiveMap.find f_compute_sbox code = Some c_compute_sbox. Proof. vm_compute. reflexivity. Qed.
Lemma code_contains_zero : PositiveMap.find f_contains_zero code = Some c_contains_zero. Proof. vm_compute. reflexivity. Qed.
Lemma bytes_eq (f g : N -> Z) n : (n < 256)%N -> forallb (fun n => f n =? g n) (Base.Nrange 256) = true -> f n = g n.
Proof. intros L H. apply Z.eqb_eq. exact (on_bytes _ H n L). Qed.
Ltac on_byte n := let f := fresh in let g := fresh in
  match goal with |- ?l = ?r =>
    let l' := eval pattern n in l in let r' := eval pattern n in r in
    match l' with ?f _ => match r' with ?g _ => apply (bytes_eq f g n); [assumption|vm_compute; reflexivity] end end end.
Lemma ref_compute_sbox a : (a < 256)%N -> returns f_compute_sbox [VInt (ofN a)] (ofN (Aes.compute_sbox a)).
Proof.
  intros A m. start code_compute_sbox. seq. scall ref_bf8_inv; [exact A|].
  repeat (seq; eapply wp_set; [ev|]). eapply wp_return; [ev|]. split; [|reflexivity]. f_equal. simp.
  assert (L := bf8_inv_lt a A). unfold Aes.compute_sbox. cbv zeta. generalize dependent (Fields.bf8_inv a). intros t L. on_byte t.
Qed.
