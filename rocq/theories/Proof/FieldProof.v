(** Field arithmetic of Model/Fields.v. *)
From Verif.Proof Require Import BaseProof.
From Verif.Proof Require Export PolyProof.
From Verif.Model Require Export Fields.

(** the modulus with its leading term *)
Definition f_poly (F : field) : N := N.lxor (2 ^ f_n F) (f_mod F).
Definition field_ok (F : field) : Prop := 1 < f_n F /\ f_mod F < 2 ^ f_n F.

Lemma f_poly_log2 F : field_ok F -> N.log2 (f_poly F) = f_n F.
Proof.
  intros [H1 H2]. unfold f_poly. rewrite N.lxor_comm.
  destruct (N.eq_dec (f_mod F) 0) as [->|Hm].
  - rewrite N.lxor_0_l. apply N.log2_pow2. lia.
  - rewrite log2_lxor_lt; rewrite N.log2_pow2 by lia; [reflexivity|].
    apply N.log2_lt_pow2; lia.
Qed.

Lemma mod_pow2_lt a n : a mod 2 ^ n < 2 ^ n.
Proof. apply N.mod_lt. apply N.pow_nonzero. lia. Qed.

Lemma bf_dbl_spec F x : field_ok F -> x < 2 ^ f_n F ->
  bf_dbl F x < 2 ^ f_n F /\ pcong (f_poly F) (2 * x) (bf_dbl F x).
Proof.
  intros HF Hx. pose proof HF as [H1 H2]. unfold bf_dbl.
  assert (E : N.shiftl x 1 = 2 * x) by (rewrite N.shiftl_mul_pow2; lia).
  destruct (N.testbit x (f_n F - 1)) eqn:T.
  - split; [apply lxor_lt; [apply mod_pow2_lt|assumption]|].
    exists 1. rewrite pmul_1_l. unfold f_poly.
    replace (N.shiftl x 1 mod 2 ^ f_n F) with (N.lxor (2 * x) (2 ^ f_n F)).
    + rewrite !N.lxor_assoc, lxor_cancel. reflexivity.
    + rewrite E. apply N.bits_inj. intros i. rewrite N.lxor_spec.
      rewrite N.pow2_bits_eqb.
      destruct (N.lt_ge_cases i (f_n F)).
      * rewrite N.mod_pow2_bits_low by assumption.
        replace (f_n F =? i) with false by lia. apply xorb_false_r.
      * rewrite N.mod_pow2_bits_high by assumption.
        destruct (N.eq_dec i (f_n F)) as [->|Hi].
        -- rewrite N.eqb_refl. replace (f_n F) with (N.succ (f_n F - 1)) by lia.
           rewrite N.double_bits_succ, T. reflexivity.
        -- replace (f_n F =? i) with false by lia.
           rewrite (testbit_high (2 * x) (f_n F + 1)); [reflexivity| |lia].
           rewrite N.pow_add_r. lia.
  - rewrite N.lxor_0_r. split; [apply mod_pow2_lt|].
    replace (N.shiftl x 1 mod 2 ^ f_n F) with (2 * x); [apply pcong_refl|].
    rewrite E. symmetry. apply N.mod_small.
    apply lt_pow2_bits. intros i Hi. replace i with (N.succ (i - 1)) by lia.
    rewrite N.double_bits_succ.
    destruct (N.eq_dec (i - 1) (f_n F - 1)) as [->|Hn]; [exact T|].
    apply (testbit_high x (f_n F)); [assumption|lia].
Qed.

(** low k bits of b *)
Lemma mod_pow2_succ b k : b mod 2 ^ (k + 1) = N.lxor (b mod 2 ^ k) (if N.testbit b k then 2 ^ k else 0).
Proof.
  apply N.bits_inj. intros i. rewrite N.lxor_spec.
  destruct (N.lt_ge_cases i (k + 1)).
  - rewrite N.mod_pow2_bits_low by assumption.
    destruct (N.eq_dec i k) as [->|Hi].
    + rewrite N.mod_pow2_bits_high by lia. destruct (N.testbit b k).
      * rewrite N.pow2_bits_true. reflexivity.
      * rewrite N.bits_0. reflexivity.
    + rewrite N.mod_pow2_bits_low by lia. destruct (N.testbit b k).
      * rewrite N.pow2_bits_false by lia. rewrite xorb_false_r. reflexivity.
      * rewrite N.bits_0, xorb_false_r. reflexivity.
  - rewrite !N.mod_pow2_bits_high by lia. destruct (N.testbit b k).
    + rewrite N.pow2_bits_false by lia. reflexivity.
    + rewrite N.bits_0. reflexivity.
Qed.

Lemma bf_mul_k_spec F k a b : field_ok F -> 0 < k -> a < 2 ^ f_n F ->
  bf_mul_k F k a b < 2 ^ f_n F /\ pcong (f_poly F) (pmul a (b mod 2 ^ k)) (bf_mul_k F k a b).
Proof.
  intros HF Hk Ha. unfold bf_mul_k.
  assert (G : forall m, 0 < m ->
    let st := fold_left (bf_mul_step F b) (Nfromto 1 m) (a, if N.testbit b 0 then a else 0) in
    fst st < 2 ^ f_n F /\ snd st < 2 ^ f_n F /\
    pcong (f_poly F) (pmul a (2 ^ (m - 1))) (fst st) /\
    pcong (f_poly F) (pmul a (b mod 2 ^ m)) (snd st)).
  { intros m. induction m using N.peano_ind; [lia|]. intros _.
    destruct (N.eq_dec m 0) as [->|Hm].
    - change (N.succ 0) with 1. rewrite Nfromto_empty by lia. cbn [fold_left fst snd].
      change (2 ^ (1 - 1)) with 1. rewrite pmul_1_r.
      assert (P : 0 < 2 ^ f_n F) by apply pow2_pos.
      repeat split; auto using pcong_refl.
      + destruct (N.testbit b 0); assumption.
      + change 1 with (0 + 1). rewrite mod_pow2_succ. change (2 ^ 0) with 1. rewrite N.mod_1_r, N.lxor_0_l.
        destruct (N.testbit b 0); [rewrite pmul_1_r|rewrite pmul_0_r]; apply pcong_refl.
    - destruct IHm as [I1 [I2 [I3 I4]]]; [lia|].
      replace (N.succ m) with (m + 1) by lia. rewrite Nfromto_succ by lia. rewrite fold_left_app.
      cbn [fold_left]. set (st := fold_left _ (Nfromto 1 m) _) in *.
      unfold bf_mul_step. cbn [fst snd].
      destruct (bf_dbl_spec F (fst st) HF I1) as [D1 D2].
      assert (D3 : pcong (f_poly F) (pmul a (2 ^ m)) (bf_dbl F (fst st))).
      { eapply pcong_trans; [|exact D2].
        replace (2 ^ m) with (2 * 2 ^ (m - 1)).
        - rewrite pmul_double. apply pcong_double. exact I3.
        - replace m with (1 + (m - 1)) at 2 by lia. rewrite N.pow_add_r. reflexivity. }
      replace (m + 1 - 1) with m by lia.
      repeat split; auto.
      + apply lxor_lt; [assumption|]. destruct (N.testbit b m); [assumption|apply pow2_pos].
      + rewrite mod_pow2_succ, pmul_lxor_r. apply pcong_lxor; [assumption|].
        destruct (N.testbit b m); [assumption|]. rewrite pmul_0_r. apply pcong_refl. }
  destruct (G k Hk) as [_ [G2 [_ G4]]]. split; assumption.
Qed.

Lemma bf_mul_spec F a b : field_ok F -> a < 2 ^ f_n F -> b < 2 ^ f_n F ->
  bf_mul F a b < 2 ^ f_n F /\ pcong (f_poly F) (pmul a b) (bf_mul F a b).
Proof.
  intros HF Ha Hb. unfold bf_mul. pose proof HF as [H1 _].
  destruct (bf_mul_k_spec F (f_n F) a b HF) as [A B]; [lia|assumption|].
  rewrite (N.mod_small b) in B by assumption. split; assumption.
Qed.

Lemma bf_mul_lt F a b : field_ok F -> a < 2 ^ f_n F -> b < 2 ^ f_n F -> bf_mul F a b < 2 ^ f_n F.
Proof. intros. apply bf_mul_spec; assumption. Qed.

Lemma bf_mul_unique F a b r : field_ok F -> a < 2 ^ f_n F -> b < 2 ^ f_n F -> r < 2 ^ f_n F ->
  pcong (f_poly F) (pmul a b) r -> bf_mul F a b = r.
Proof.
  intros HF Ha Hb Hr H. destruct (bf_mul_spec F a b HF Ha Hb) as [H1 H2].
  apply (pcong_unique (f_poly F) (f_n F)); auto.
  - apply f_poly_log2. assumption.
  - destruct HF. lia.
  - eapply pcong_trans; [apply pcong_sym; exact H2|exact H].
Qed.

Lemma bf_mul_comm F a b : field_ok F -> a < 2 ^ f_n F -> b < 2 ^ f_n F ->
  bf_mul F a b = bf_mul F b a.
Proof.
  intros HF Ha Hb. destruct (bf_mul_spec F b a HF Hb Ha) as [H1 H2].
  apply bf_mul_unique; auto. rewrite pmul_comm. exact H2.
Qed.
Lemma bf_mul_assoc F a b c : field_ok F ->
  a < 2 ^ f_n F -> b < 2 ^ f_n F -> c < 2 ^ f_n F ->
  bf_mul F (bf_mul F a b) c = bf_mul F a (bf_mul F b c).
Proof.
  intros HF Ha Hb Hc. destruct (bf_mul_spec F a b HF Ha Hb) as [H1 H2].
  destruct (bf_mul_spec F b c HF Hb Hc) as [H3 H4].
  destruct (bf_mul_spec F a (bf_mul F b c) HF Ha H3) as [H5 H6].
  apply bf_mul_unique; auto.
  eapply pcong_trans; [apply pcong_pmul_l; apply pcong_sym; exact H2|].
  rewrite pmul_assoc. eapply pcong_trans; [apply pcong_pmul_r; exact H4|]. exact H6.
Qed.
Lemma bf_mul_lxor_r F a b c : field_ok F ->
  a < 2 ^ f_n F -> b < 2 ^ f_n F -> c < 2 ^ f_n F ->
  bf_mul F a (N.lxor b c) = N.lxor (bf_mul F a b) (bf_mul F a c).
Proof.
  intros HF Ha Hb Hc. destruct (bf_mul_spec F a b HF Ha Hb) as [H1 H2].
  destruct (bf_mul_spec F a c HF Ha Hc) as [H3 H4].
  apply bf_mul_unique; auto using lxor_lt.
  rewrite pmul_lxor_r. apply pcong_lxor; assumption.
Qed.
Lemma bf_mul_lxor_l F a b c : field_ok F ->
  a < 2 ^ f_n F -> b < 2 ^ f_n F -> c < 2 ^ f_n F ->
  bf_mul F (N.lxor a b) c = N.lxor (bf_mul F a c) (bf_mul F b c).
Proof.
  intros. rewrite bf_mul_comm, bf_mul_lxor_r; auto using lxor_lt.
  f_equal; apply bf_mul_comm; auto.
Qed.
Lemma one_lt F : field_ok F -> 1 < 2 ^ f_n F.
Proof. intros [H _]. change 1 with (2 ^ 0). apply N.pow_lt_mono_r; lia. Qed.
Lemma two_lt F : field_ok F -> 2 < 2 ^ f_n F.
Proof. intros [H _]. change 2 with (2 ^ 1) at 1. apply N.pow_lt_mono_r; lia. Qed.
Lemma bf_mul_1_r F a : field_ok F -> a < 2 ^ f_n F -> bf_mul F a 1 = a.
Proof.
  intros. apply bf_mul_unique; auto using one_lt. rewrite pmul_1_r. apply pcong_refl.
Qed.
Lemma bf_mul_1_l F a : field_ok F -> a < 2 ^ f_n F -> bf_mul F 1 a = a.
Proof. intros. rewrite bf_mul_comm; auto using one_lt. apply bf_mul_1_r; auto. Qed.
Lemma bf_mul_0_r F a : field_ok F -> a < 2 ^ f_n F -> bf_mul F a 0 = 0.
Proof.
  intros. apply bf_mul_unique; auto using pow2_pos. rewrite pmul_0_r. apply pcong_refl.
Qed.
Lemma bf_mul_0_l F a : field_ok F -> a < 2 ^ f_n F -> bf_mul F 0 a = 0.
Proof. intros. rewrite bf_mul_comm; auto using pow2_pos. apply bf_mul_0_r; auto. Qed.
Lemma bf_dbl_mul F a : field_ok F -> a < 2 ^ f_n F -> bf_dbl F a = bf_mul F 2 a.
Proof.
  intros HF Ha. destruct (bf_dbl_spec F a HF Ha) as [H1 H2]. symmetry.
  apply bf_mul_unique; auto using two_lt.
  rewrite pmul_comm. change 2 with (2 * 1). rewrite pmul_double, pmul_1_r. exact H2.
Qed.
Lemma bf_mul_64_eq F a b : field_ok F -> 64 <= f_n F -> a < 2 ^ f_n F -> b < 2 ^ 64 ->
  bf_mul_64 F a b = bf_mul F a b.
Proof.
  intros HF Hn Ha Hb.
  assert (Hb' : b < 2 ^ f_n F) by (eapply N.lt_le_trans; [exact Hb|apply N.pow_le_mono_r; lia]).
  destruct (bf_mul_k_spec F 64 a b HF) as [A B]; [lia|assumption|].
  rewrite (N.mod_small b) in B by assumption. symmetry. apply bf_mul_unique; auto.
Qed.
Lemma bf_mul_bit_eq F a b : field_ok F -> a < 2 ^ f_n F ->
  bf_mul_bit a b = bf_mul F a (b mod 2).
Proof.
  intros HF Ha. unfold bf_mul_bit. rewrite <- N.bit0_mod.
  destruct (N.testbit b 0); cbn [N.b2n].
  - symmetry. apply bf_mul_1_r; auto.
  - symmetry. apply bf_mul_0_r; auto.
Qed.

Lemma F8_ok : field_ok F8. Proof. split; reflexivity. Qed.
Lemma F64_ok : field_ok F64. Proof. split; reflexivity. Qed.
Lemma F128_ok : field_ok F128. Proof. split; reflexivity. Qed.
Lemma F192_ok : field_ok F192. Proof. split; reflexivity. Qed.
Lemma F256_ok : field_ok F256. Proof. split; reflexivity. Qed.

(** * Every nonzero element is invertible *)

(** repeated squaring: x^(2^k) *)
Fixpoint frob (F : field) (k : nat) (x : N) : N :=
  match k with O => x | S k' => frob F k' (bf_mul F x x) end.

Lemma sq_lxor F a b : field_ok F -> a < 2 ^ f_n F -> b < 2 ^ f_n F ->
  bf_mul F (N.lxor a b) (N.lxor a b) = N.lxor (bf_mul F a a) (bf_mul F b b).
Proof.
  intros HF Ha Hb. rewrite bf_mul_lxor_l by auto using lxor_lt.
  rewrite !bf_mul_lxor_r by auto. rewrite (bf_mul_comm F b a) by auto.
  rewrite N.lxor_assoc. f_equal. rewrite <- N.lxor_assoc, N.lxor_nilpotent, N.lxor_0_l. reflexivity.
Qed.
Lemma sq_mul F a b : field_ok F -> a < 2 ^ f_n F -> b < 2 ^ f_n F ->
  bf_mul F (bf_mul F a b) (bf_mul F a b) = bf_mul F (bf_mul F a a) (bf_mul F b b).
Proof.
  intros HF Ha Hb. rewrite !bf_mul_assoc by auto using bf_mul_lt. f_equal.
  rewrite <- !bf_mul_assoc by auto using bf_mul_lt. f_equal. apply bf_mul_comm; auto.
Qed.
Lemma frob_lt F k a : field_ok F -> a < 2 ^ f_n F -> frob F k a < 2 ^ f_n F.
Proof. intros HF. revert a. induction k; intros; simpl; auto using bf_mul_lt. Qed.
Lemma frob_lxor F k a b : field_ok F -> a < 2 ^ f_n F -> b < 2 ^ f_n F ->
  frob F k (N.lxor a b) = N.lxor (frob F k a) (frob F k b).
Proof.
  intros HF. revert a b. induction k; intros a b Ha Hb; simpl; [reflexivity|].
  rewrite sq_lxor, IHk by auto using bf_mul_lt. reflexivity.
Qed.
Lemma frob_mul F k a b : field_ok F -> a < 2 ^ f_n F -> b < 2 ^ f_n F ->
  frob F k (bf_mul F a b) = bf_mul F (frob F k a) (frob F k b).
Proof.
  intros HF. revert a b. induction k; intros a b Ha Hb; simpl; [reflexivity|].
  rewrite sq_mul, IHk by auto using bf_mul_lt. reflexivity.
Qed.
Lemma frob_1 F k : field_ok F -> frob F k 1 = 1.
Proof.
  intros HF. induction k; simpl; [reflexivity|].
  rewrite bf_mul_1_r by auto using one_lt. exact IHk.
Qed.
Lemma frob_0 F k : field_ok F -> frob F k 0 = 0.
Proof.
  intros HF. induction k; simpl; [reflexivity|].
  rewrite bf_mul_0_r by auto using pow2_pos. exact IHk.
Qed.
Lemma mul_X_small F a : field_ok F -> 2 * a < 2 ^ f_n F -> bf_mul F 2 a = 2 * a.
Proof.
  intros HF H. apply bf_mul_unique; auto using two_lt; [lia|].
  rewrite pmul_comm. change 2 with (2 * 1) at 1. rewrite pmul_double, pmul_1_r. apply pcong_refl.
Qed.

(** if X^(2^k) = X then x^(2^k) = x for all x *)
Lemma frob_fix F k : field_ok F -> frob F k 2 = 2 ->
  forall a, a < 2 ^ f_n F -> frob F k a = a.
Proof.
  intros HF HX a. induction a using N_bin_ind; intros Ha.
  - apply frob_0. exact HF.
  - rewrite <- (mul_X_small F) by assumption.
    rewrite frob_mul, HX, IHa by (auto using two_lt; lia). reflexivity.
  - assert (2 * a < 2 ^ f_n F) by lia. rewrite succ_double_lxor.
    rewrite frob_lxor by auto using one_lt. rewrite frob_1 by assumption. f_equal.
    rewrite <- (mul_X_small F) by assumption.
    rewrite frob_mul, HX, IHa by (auto using two_lt; lia). reflexivity.
Qed.

(** a linear map given by its values on the bits 1, X, X^2, ... *)
Fixpoint lin_pos (cols : list N) (x : positive) : N :=
  match cols with
  | [] => 0
  | c :: cols' =>
      match x with
      | xH => c
      | xO x' => lin_pos cols' x'
      | xI x' => N.lxor c (lin_pos cols' x')
      end
  end.
Definition lin (cols : list N) (x : N) : N :=
  match x with 0 => 0 | Npos p => lin_pos cols p end.

Lemma lin_double c cols x : lin (c :: cols) (2 * x) = lin cols x.
Proof. destruct x; reflexivity. Qed.
Lemma lin_double_1 c cols x : lin (c :: cols) (2 * x + 1) = N.lxor c (lin cols x).
Proof. destruct x; simpl; [rewrite N.lxor_0_r|]; reflexivity. Qed.
Lemma lin_nil x : lin [] x = 0.
Proof. destruct x as [|[]]; reflexivity. Qed.
Lemma lin_lxor cols a b : lin cols (N.lxor a b) = N.lxor (lin cols a) (lin cols b).
Proof.
  revert a b. induction cols as [|c cols IH]; intros a b.
  - rewrite !lin_nil. reflexivity.
  - pose proof (N.div_mod a 2) as Ea. pose proof (N.div_mod b 2) as Eb.
    set (a' := a / 2) in *. set (b' := b / 2) in *.
    assert (Ra : a = 2 * a' \/ a = 2 * a' + 1) by lia.
    assert (Rb : b = 2 * b' \/ b = 2 * b' + 1) by lia.
    clearbody a' b'. clear Ea Eb.
    destruct Ra as [->| ->], Rb as [->| ->];
      rewrite <- ?double_lxor, ?double_inj_lxor_1, ?double_lxor_01, ?double_lxor_10,
              ?lin_double, ?lin_double_1, ?IH.
    + reflexivity.
    + rewrite <- !N.lxor_assoc. f_equal. apply N.lxor_comm.
    + rewrite !N.lxor_assoc. reflexivity.
    + rewrite lxor_swap4, N.lxor_nilpotent, N.lxor_0_l. reflexivity.
Qed.

(** x -> x^2 + x as a linear map *)
Definition sqx (F : field) (x : N) : N := N.lxor (bf_mul F x x) x.

Lemma sqx_lxor F a b : field_ok F -> a < 2 ^ f_n F -> b < 2 ^ f_n F ->
  sqx F (N.lxor a b) = N.lxor (sqx F a) (sqx F b).
Proof.
  intros. unfold sqx. rewrite sq_lxor by assumption. apply lxor_swap4.
Qed.

(** if L inverts x^2 + x on X, X^2, .., X^(n-1) then its kernel is {0, 1} *)
Definition sqx_check (F : field) (cols : list N) : bool :=
  forallb (fun i => lin cols (sqx F (2 ^ i)) =? 2 ^ i) (Nfromto 1 (f_n F)).

Lemma bits_ind (P : N -> Prop) n :
  P 0 -> (forall a i, i < n -> P a -> P (N.lxor (2 ^ i) a)) -> forall a, a < 2 ^ n -> P a.
Proof.
  intros H0 HS. revert HS. induction n using N.peano_ind; intros HS a Ha.
  - change (2 ^ 0) with 1 in Ha. replace a with 0 by lia. exact H0.
  - assert (HP : forall a, a < 2 ^ n -> P a) by (apply IHn; intros; apply HS; [lia|assumption]).
    rewrite <- (N.mod_small a (2 ^ N.succ n)) by assumption.
    rewrite <- N.add_1_r, mod_pow2_succ.
    assert (P (a mod 2 ^ n)) by (apply HP; apply mod_pow2_lt).
    destruct (N.testbit a n).
    + rewrite N.lxor_comm. apply HS; [lia|assumption].
    + rewrite N.lxor_0_r. assumption.
Qed.

Lemma sqx_kernel F cols : field_ok F -> sqx_check F cols = true ->
  forall a, a < 2 ^ f_n F -> bf_mul F a a = a -> a = 0 \/ a = 1.
Proof.
  intros HF HC. unfold sqx_check in HC. rewrite forallb_forall in HC.
  assert (G : forall a, a < 2 ^ f_n F -> lin cols (sqx F a) = a \/ lin cols (sqx F a) = N.lxor a 1).
  { assert (G' : forall a, a < 2 ^ f_n F ->
      a < 2 ^ f_n F /\ (lin cols (sqx F a) = a \/ lin cols (sqx F a) = N.lxor a 1)).
    { apply (bits_ind _ (f_n F)).
      - split; [apply pow2_pos|]. left. unfold sqx. rewrite bf_mul_0_r by auto using pow2_pos. reflexivity.
      - intros a i Hi [Ha IH].
        assert (Hp : 2 ^ i < 2 ^ f_n F) by (apply N.pow_lt_mono_r; lia).
        split; [apply lxor_lt; assumption|].
        rewrite sqx_lxor, lin_lxor by assumption.
        destruct (N.eq_dec i 0) as [->|Hi0].
        + change (2 ^ 0) with 1. unfold sqx at 1 3.
          rewrite bf_mul_1_r by auto using one_lt. rewrite N.lxor_nilpotent.
          change (lin cols 0) with 0. rewrite N.lxor_0_l.
          destruct IH as [->| ->].
          * right. rewrite N.lxor_comm, lxor_cancel. reflexivity || (rewrite N.lxor_assoc, N.lxor_comm, N.lxor_assoc, N.lxor_nilpotent, N.lxor_0_r; reflexivity).
          * left. apply N.lxor_comm.
        + assert (E : lin cols (sqx F (2 ^ i)) = 2 ^ i).
          { apply N.eqb_eq. apply HC. apply In_Nfromto. lia. }
          rewrite E. destruct IH as [->| ->].
          * left. reflexivity.
          * right. rewrite N.lxor_assoc. reflexivity. }
    intros a Ha. apply G'. exact Ha. }
  intros a Ha Hsq. destruct (G a Ha) as [E|E]; unfold sqx in E; rewrite Hsq, N.lxor_nilpotent in E;
    change (lin cols 0) with 0 in E.
  - left. congruence.
  - right. apply N.lxor_eq. congruence.
Qed.

(** a^(2^k - 1) for k >= 0, i.e. a * a^2 * a^4 * .. ; and a^(2^(k+1) - 2), its square *)
Fixpoint pow_ones (F : field) (k : nat) (a : N) : N :=
  match k with O => 1 | S k' => bf_mul F a (pow_ones F k' (bf_mul F a a)) end.

Lemma pow_ones_lt F k a : field_ok F -> a < 2 ^ f_n F -> pow_ones F k a < 2 ^ f_n F.
Proof. intros HF. revert a. induction k; intros; simpl; auto using bf_mul_lt, one_lt. Qed.
Lemma pow_ones_frob F k a : field_ok F -> a < 2 ^ f_n F ->
  bf_mul F a (pow_ones F k a) = frob F k a.
Proof.
  intros HF. revert a. induction k; intros a Ha; simpl.
  - apply bf_mul_1_r; assumption.
  - rewrite <- bf_mul_assoc by auto using bf_mul_lt, pow_ones_lt.
    rewrite IHk by auto using bf_mul_lt. reflexivity.
Qed.
Lemma pow_ones_mul F k a b : field_ok F -> a < 2 ^ f_n F -> b < 2 ^ f_n F ->
  pow_ones F k (bf_mul F a b) = bf_mul F (pow_ones F k a) (pow_ones F k b).
Proof.
  intros HF. revert a b. induction k; intros a b Ha Hb; simpl.
  - rewrite bf_mul_1_r; auto using one_lt.
  - rewrite sq_mul, IHk by auto using bf_mul_lt.
    rewrite !bf_mul_assoc by auto using bf_mul_lt, pow_ones_lt. f_equal.
    rewrite <- !bf_mul_assoc by auto using bf_mul_lt, pow_ones_lt. f_equal.
    apply bf_mul_comm; auto using bf_mul_lt, pow_ones_lt.
Qed.

Definition inverse (F : field) (a : N) : N := pow_ones F (N.to_nat (f_n F) - 1) (bf_mul F a a).

Lemma inverse_lt F a : field_ok F -> a < 2 ^ f_n F -> inverse F a < 2 ^ f_n F.
Proof. intros. apply pow_ones_lt; auto using bf_mul_lt. Qed.

(** the two facts about the modulus that make the ring a field *)
Definition field_facts (F : field) (cols : list N) : Prop :=
  field_ok F /\ frob F (N.to_nat (f_n F)) 2 = 2 /\ sqx_check F cols = true.

Lemma inverse_spec F cols a : field_facts F cols -> a < 2 ^ f_n F -> a <> 0 ->
  bf_mul F a (inverse F a) = 1.
Proof.
  intros [HF [HX HC]] Ha Hn.
  assert (E : bf_mul F a (inverse F a) = pow_ones F (N.to_nat (f_n F)) a).
  { unfold inverse. destruct HF as [H1 _].
    replace (N.to_nat (f_n F)) with (S (N.to_nat (f_n F) - 1)) at 2 by lia. reflexivity. }
  rewrite E. set (e := pow_ones F (N.to_nat (f_n F)) a).
  assert (He : e < 2 ^ f_n F) by (apply pow_ones_lt; assumption).
  assert (Hae : bf_mul F a e = a).
  { unfold e. rewrite pow_ones_frob by assumption. apply frob_fix; assumption. }
  assert (Hee : bf_mul F e e = e).
  { unfold e at 2. rewrite <- E. 
    rewrite (bf_mul_comm F a) by auto using inverse_lt.
    rewrite <- bf_mul_assoc by auto using inverse_lt.
    rewrite (bf_mul_comm F e) by auto using inverse_lt.
    rewrite bf_mul_assoc by auto using inverse_lt.
    rewrite (bf_mul_comm F e) by auto. rewrite Hae.
    rewrite (bf_mul_comm F _ a) by auto using inverse_lt. rewrite E. reflexivity. }
  destruct (sqx_kernel F cols HF HC e He Hee) as [H0|H1]; [|exact H1].
  exfalso. rewrite H0, bf_mul_0_r in Hae by assumption. congruence.
Qed.

Lemma bf_mul_integral F cols a b : field_facts F cols -> a < 2 ^ f_n F -> b < 2 ^ f_n F ->
  bf_mul F a b = 0 -> a = 0 \/ b = 0.
Proof.
  intros HFF Ha Hb H. destruct (N.eq_dec a 0) as [|Hn]; [left; assumption|right].
  pose proof HFF as [HF _].
  rewrite <- (bf_mul_1_l F b) by assumption.
  rewrite <- (inverse_spec F cols a HFF Ha Hn).
  rewrite (bf_mul_comm F a) by auto using inverse_lt.
  rewrite bf_mul_assoc, H by auto using inverse_lt. apply bf_mul_0_r; auto using inverse_lt.
Qed.

(** * A faster multiplication, for computing with concrete elements *)

Definition fdbl (F : field) (x : N) : N :=
  let y := N.double x in if N.testbit y (f_n F) then N.lxor y (f_poly F) else y.
Fixpoint fmul_pos (F : field) (a : N) (b : positive) : N :=
  match b with
  | xH => a
  | xO b' => fdbl F (fmul_pos F a b')
  | xI b' => N.lxor a (fdbl F (fmul_pos F a b'))
  end.
Definition fmul (F : field) (a b : N) : N := match b with 0 => 0 | Npos p => fmul_pos F a p end.

Lemma fdbl_spec F x : field_ok F -> x < 2 ^ f_n F ->
  fdbl F x < 2 ^ f_n F /\ pcong (f_poly F) (2 * x) (fdbl F x).
Proof.
  intros HF Hx. unfold fdbl. rewrite N.double_spec. pose proof HF as [H1 H2].
  assert (B : forall i, f_n F < i -> N.testbit (2 * x) i = false).
  { intros i Hi. apply (testbit_high _ (f_n F + 1)); [rewrite N.pow_add_r; lia|lia]. }
  destruct (N.testbit (2 * x) (f_n F)) eqn:T.
  - split.
    + apply lt_pow2_bits. intros i Hi. rewrite N.lxor_spec. unfold f_poly.
      rewrite N.lxor_spec, (testbit_high (f_mod F) (f_n F) i) by assumption.
      destruct (N.eq_dec i (f_n F)) as [->|Hn].
      * rewrite T, N.pow2_bits_true. reflexivity.
      * rewrite B by lia. rewrite N.pow2_bits_false by lia. reflexivity.
    + exists 1. rewrite pmul_1_l, lxor_cancel. reflexivity.
  - split; [|apply pcong_refl].
    apply lt_pow2_bits. intros i Hi. destruct (N.eq_dec i (f_n F)) as [->|Hn]; [exact T|].
    apply B. lia.
Qed.
Lemma fmul_eq F a b : field_ok F -> a < 2 ^ f_n F -> b < 2 ^ f_n F -> bf_mul F a b = fmul F a b.
Proof.
  intros HF Ha Hb.
  assert (G : fmul F a b < 2 ^ f_n F /\ pcong (f_poly F) (pmul a b) (fmul F a b)).
  { clear Hb. destruct b as [|p]; [split; [apply pow2_pos|apply pcong_refl]|].
    cbn [fmul pmul].
    induction p as [p IH|p IH|]; cbn [fmul_pos pmul_pos].
    - destruct IH as [I1 I2]. destruct (fdbl_spec F _ HF I1) as [D1 D2].
      split; [apply lxor_lt; assumption|].
      apply pcong_lxor; [apply pcong_refl|].
      eapply pcong_trans; [|exact D2]. rewrite N.shiftl_mul_pow2, N.mul_comm. apply pcong_double. exact I2.
    - destruct IH as [I1 I2]. destruct (fdbl_spec F _ HF I1) as [D1 D2].
      split; [assumption|].
      eapply pcong_trans; [|exact D2]. rewrite N.shiftl_mul_pow2, N.mul_comm. apply pcong_double. exact I2.
    - split; [assumption|apply pcong_refl]. }
  destruct G. apply bf_mul_unique; auto.
Qed.

Fixpoint frobf (F : field) (k : nat) (x : N) : N :=
  match k with O => x | S k' => frobf F k' (fmul F x x) end.
Lemma frobf_eq F k x : field_ok F -> x < 2 ^ f_n F -> frob F k x = frobf F k x.
Proof.
  intros HF. revert x. induction k; intros x Hx; simpl; [reflexivity|].
  rewrite <- fmul_eq by assumption. apply IHk. apply bf_mul_lt; assumption.
Qed.
Definition sqxf (F : field) (x : N) : N := N.lxor (fmul F x x) x.
Definition sqx_checkf (F : field) (cols : list N) : bool :=
  forallb (fun i => let p := N.shiftl 1 i in lin cols (sqxf F p) =? p) (Nfromto 1 (f_n F)).

(** Gaussian elimination computing the columns of an inverse of x^2 + x.  Only its result is
    used, through [sqx_check]. A row (v, w) records sqx(w) = v. *)
Fixpoint reduce_row (rows : list (N * N)) (r : N * N) : N * N :=
  match rows with
  | [] => r
  | (v, w) :: rows' =>
      let r' := if N.testbit (fst r) (N.log2 v) then (N.lxor (fst r) v, N.lxor (snd r) w) else r in
      reduce_row rows' r'
  end.
Definition gauss (F : field) : list (N * N) :=
  fold_left (fun rows i =>
               let r := reduce_row rows (sqxf F (N.shiftl 1 i), N.shiftl 1 i) in
               let p := N.log2 (fst r) in
               r :: map (fun q => if N.testbit (fst q) p
                                  then (N.lxor (fst q) (fst r), N.lxor (snd q) (snd r)) else q) rows)
            (Nfromto 1 (f_n F)) [].
Definition inv_cols (F : field) : list N :=
  let rows := gauss F in
  map (fun i => match find (fun r => N.log2 (fst r) =? i) rows with
                | Some r => snd r
                | None => 0
                end) (Nrange (f_n F)).

Lemma field_facts_check F :
  field_ok F -> frobf F (N.to_nat (f_n F)) 2 = 2 -> sqx_checkf F (inv_cols F) = true ->
  field_facts F (inv_cols F).
Proof.
  intros HF H1 H2. split; [exact HF|]. split.
  - rewrite frobf_eq by auto using two_lt. exact H1.
  - unfold sqx_check. unfold sqx_checkf in H2. rewrite forallb_forall in H2 |- *.
    intros i Hi. specialize (H2 i Hi). rewrite N.shiftl_1_l in H2.
    apply In_Nfromto in Hi.
    unfold sqx. rewrite fmul_eq; [exact H2|assumption| |]; apply N.pow_lt_mono_r; lia.
Qed.

Lemma F8_facts : field_facts F8 (inv_cols F8).
Proof. apply field_facts_check; [apply F8_ok|vm_compute; reflexivity..]. Qed.
Lemma F64_facts : field_facts F64 (inv_cols F64).
Proof. apply field_facts_check; [apply F64_ok|vm_compute; reflexivity..]. Qed.
Lemma F128_facts : field_facts F128 (inv_cols F128).
Proof. apply field_facts_check; [apply F128_ok|vm_compute; reflexivity..]. Qed.
Lemma F192_facts : field_facts F192 (inv_cols F192).
Proof. apply field_facts_check; [apply F192_ok|vm_compute; reflexivity..]. Qed.
Lemma F256_facts : field_facts F256 (inv_cols F256).
Proof. apply field_facts_check; [apply F256_ok|vm_compute; reflexivity..]. Qed.
