(** Polynomials over GF(2): ring laws of the product and uniqueness of remainders. *)
From Verif.Proof Require Import BaseProof.
From Verif.Spec Require Export Poly.

Lemma pmul_0_r a : pmul a 0 = 0.
Proof. reflexivity. Qed.
Lemma pmul_1_r a : pmul a 1 = a.
Proof. reflexivity. Qed.
Lemma pmul_double a b : pmul a (2 * b) = 2 * pmul a b.
Proof.
  destruct b; [reflexivity|]. change (2 * N.pos p) with (N.pos (xO p)). cbn [pmul pmul_pos].
  rewrite N.shiftl_mul_pow2. lia.
Qed.
Lemma pmul_double_1 a b : pmul a (2 * b + 1) = N.lxor a (2 * pmul a b).
Proof.
  destruct b.
  - change (pmul a (2 * 0 + 1)) with a. change (pmul a 0) with 0. rewrite N.mul_0_r, N.lxor_0_r. reflexivity.
  - change (2 * N.pos p + 1) with (N.pos (xI p)). cbn [pmul pmul_pos].
    rewrite N.shiftl_mul_pow2. f_equal. lia.
Qed.

Lemma double_lxor a b : 2 * N.lxor a b = N.lxor (2 * a) (2 * b).
Proof.
  replace (2 * N.lxor a b) with (N.shiftl (N.lxor a b) 1) by (rewrite N.shiftl_mul_pow2; lia).
  rewrite N.shiftl_lxor, !N.shiftl_mul_pow2. f_equal; lia.
Qed.
Lemma double_inj_lxor_1 a b : N.lxor (2 * a + 1) (2 * b + 1) = 2 * N.lxor a b.
Proof.
  apply N.bits_inj. intros i. rewrite N.lxor_spec.
  destruct (N.eq_dec i 0) as [->|Hi].
  - rewrite !N.testbit_odd_0, N.testbit_even_0. reflexivity.
  - replace i with (N.succ (i - 1)) by lia.
    rewrite !N.testbit_odd_succ, N.testbit_even_succ, N.lxor_spec by lia. reflexivity.
Qed.
Lemma double_lxor_01 a b : N.lxor (2 * a) (2 * b + 1) = 2 * N.lxor a b + 1.
Proof.
  apply N.bits_inj. intros i. rewrite N.lxor_spec.
  destruct (N.eq_dec i 0) as [->|Hi].
  - rewrite !N.testbit_odd_0, N.testbit_even_0. reflexivity.
  - replace i with (N.succ (i - 1)) by lia.
    rewrite !N.testbit_odd_succ, N.testbit_even_succ, N.lxor_spec by lia. reflexivity.
Qed.
Lemma double_lxor_10 a b : N.lxor (2 * a + 1) (2 * b) = 2 * N.lxor a b + 1.
Proof. rewrite N.lxor_comm, double_lxor_01, N.lxor_comm. reflexivity. Qed.

Lemma lxor_swap4 a b c d : N.lxor (N.lxor a b) (N.lxor c d) = N.lxor (N.lxor a c) (N.lxor b d).
Proof.
  rewrite !N.lxor_assoc. f_equal. rewrite <- !N.lxor_assoc. f_equal. apply N.lxor_comm.
Qed.
Lemma lxor_cancel a b : N.lxor a (N.lxor a b) = b.
Proof. rewrite <- N.lxor_assoc, N.lxor_nilpotent, N.lxor_0_l. reflexivity. Qed.
Lemma lxor_cancel_r a b : N.lxor (N.lxor a b) b = a.
Proof. rewrite N.lxor_assoc, N.lxor_nilpotent, N.lxor_0_r. reflexivity. Qed.

(** binary induction on N *)
Lemma N_bin_ind (P : N -> Prop) :
  P 0 -> (forall a, P a -> P (2 * a)) -> (forall a, P a -> P (2 * a + 1)) -> forall a, P a.
Proof.
  intros H0 H1 H2 [|p]; [exact H0|]. induction p as [p IH|p IH|].
  - change (N.pos (xI p)) with (2 * N.pos p + 1). auto.
  - change (N.pos (xO p)) with (2 * N.pos p). auto.
  - change 1 with (2 * 0 + 1). auto.
Qed.

Lemma pmul_0_l b : pmul 0 b = 0.
Proof.
  induction b using N_bin_ind; [reflexivity| |].
  - rewrite pmul_double, IHb. reflexivity.
  - rewrite pmul_double_1, IHb. reflexivity.
Qed.
Lemma pmul_double_l a b : pmul (2 * a) b = 2 * pmul a b.
Proof.
  induction b using N_bin_ind.
  - reflexivity.
  - rewrite !pmul_double, IHb. lia.
  - rewrite !pmul_double_1, IHb, double_lxor. reflexivity.
Qed.
Lemma pmul_lxor_l a a' b : pmul (N.lxor a a') b = N.lxor (pmul a b) (pmul a' b).
Proof.
  induction b using N_bin_ind.
  - reflexivity.
  - rewrite !pmul_double, IHb, double_lxor. reflexivity.
  - rewrite !pmul_double_1, IHb, double_lxor. apply lxor_swap4.
Qed.
Lemma pmul_1_l b : pmul 1 b = b.
Proof.
  induction b using N_bin_ind.
  - reflexivity.
  - rewrite pmul_double, IHb. reflexivity.
  - rewrite pmul_double_1, IHb.
    change (N.lxor 1 (2 * b)) with (N.lxor (2 * 0 + 1) (2 * b)).
    rewrite double_lxor_10, N.lxor_0_l. reflexivity.
Qed.
Lemma succ_double_lxor a : 2 * a + 1 = N.lxor (2 * a) 1.
Proof. change (N.lxor (2 * a) 1) with (N.lxor (2 * a) (2 * 0 + 1)). rewrite double_lxor_01, N.lxor_0_r. reflexivity. Qed.
Lemma pmul_comm a b : pmul a b = pmul b a.
Proof.
  revert b. induction a using N_bin_ind; intros b.
  - rewrite pmul_0_l. reflexivity.
  - rewrite pmul_double_l, pmul_double, IHa. reflexivity.
  - rewrite pmul_double_1, succ_double_lxor, pmul_lxor_l, pmul_double_l, pmul_1_l, IHa.
    apply N.lxor_comm.
Qed.
Lemma pmul_lxor_r a b b' : pmul a (N.lxor b b') = N.lxor (pmul a b) (pmul a b').
Proof. rewrite !(pmul_comm a). apply pmul_lxor_l. Qed.
Lemma pmul_assoc a b c : pmul (pmul a b) c = pmul a (pmul b c).
Proof.
  induction c using N_bin_ind.
  - reflexivity.
  - rewrite !pmul_double, IHc. reflexivity.
  - rewrite !pmul_double_1, pmul_lxor_r, pmul_double, IHc. reflexivity.
Qed.
Lemma pmul_shiftl_r a b k : pmul a (N.shiftl b k) = N.shiftl (pmul a b) k.
Proof.
  induction k using N.peano_ind.
  - rewrite !N.shiftl_0_r. reflexivity.
  - rewrite !N.shiftl_succ_r, <- IHk, !N.double_spec. apply pmul_double.
Qed.
Lemma pmul_pow2_r a k : pmul a (2 ^ k) = N.shiftl a k.
Proof.
  rewrite <- (N.shiftl_1_l k), pmul_shiftl_r, pmul_1_r. reflexivity.
Qed.

(** degrees *)
Lemma log2_lxor_lt a b : N.log2 a < N.log2 b -> N.log2 (N.lxor a b) = N.log2 b.
Proof.
  intros H. assert (b <> 0) by (intros ->; simpl in H; lia).
  apply N.log2_bits_unique.
  - rewrite N.lxor_spec, N.bit_log2 by assumption. rewrite N.bits_above_log2 by assumption. reflexivity.
  - intros m Hm. rewrite N.lxor_spec, !N.bits_above_log2; auto. lia.
Qed.
Lemma pmul_nonzero_log2 a b : a <> 0 -> b <> 0 ->
  pmul a b <> 0 /\ N.log2 (pmul a b) = N.log2 a + N.log2 b.
Proof.
  intros Ha. induction b using N_bin_ind; intros Hb.
  - lia.
  - assert (b <> 0) by lia. destruct (IHb H) as [H1 H2].
    rewrite pmul_double. split; [lia|].
    rewrite !N.log2_double, H2 by lia. lia.
  - destruct (N.eq_dec b 0) as [->|Hb'].
    + change (2 * 0 + 1) with 1. rewrite pmul_1_r. simpl. split; [assumption|].
      change (N.log2 1) with 0. lia.
    + destruct (IHb Hb') as [H1 H2]. rewrite pmul_double_1.
      assert (L : N.log2 (N.lxor a (2 * pmul a b)) = N.log2 (2 * pmul a b)).
      { apply log2_lxor_lt. rewrite N.log2_double, H2 by lia. lia. }
      rewrite N.log2_double, H2 in L by lia.
      split.
      * intros E. rewrite E in L. simpl in L. lia.
      * rewrite L, N.log2_succ_double by lia. lia.
Qed.

(** congruence *)
Lemma pcong_refl f a : pcong f a a.
Proof. exists 0. rewrite N.lxor_nilpotent, pmul_0_l. reflexivity. Qed.
Lemma pcong_sym f a b : pcong f a b -> pcong f b a.
Proof. intros [q H]. exists q. rewrite N.lxor_comm. exact H. Qed.
Lemma pcong_trans f a b c : pcong f a b -> pcong f b c -> pcong f a c.
Proof.
  intros [q H] [q' H']. exists (N.lxor q q'). rewrite pmul_lxor_l, <- H, <- H'.
  rewrite N.lxor_assoc, lxor_cancel. reflexivity.
Qed.
Lemma pcong_lxor f a a' b b' : pcong f a a' -> pcong f b b' -> pcong f (N.lxor a b) (N.lxor a' b').
Proof.
  intros [q H] [q' H']. exists (N.lxor q q'). rewrite pmul_lxor_l, <- H, <- H'.
  apply lxor_swap4.
Qed.
Lemma pcong_pmul_l f a a' b : pcong f a a' -> pcong f (pmul a b) (pmul a' b).
Proof.
  intros [q H]. exists (pmul q b). rewrite <- pmul_lxor_l, H.
  rewrite !pmul_assoc. f_equal. apply pmul_comm.
Qed.
Lemma pcong_pmul_r f a b b' : pcong f b b' -> pcong f (pmul a b) (pmul a b').
Proof. rewrite !(pmul_comm a). apply pcong_pmul_l. Qed.
Lemma pcong_pmul f a a' b b' : pcong f a a' -> pcong f b b' -> pcong f (pmul a b) (pmul a' b').
Proof. intros. eapply pcong_trans; [apply pcong_pmul_l|apply pcong_pmul_r]; assumption. Qed.
Lemma pcong_double f a b : pcong f a b -> pcong f (2 * a) (2 * b).
Proof. intros [q H]. exists (2 * q). rewrite <- double_lxor, H, pmul_double_l. reflexivity. Qed.
Lemma pcong_unique f n a b : N.log2 f = n -> 0 < n -> a < 2 ^ n -> b < 2 ^ n -> pcong f a b -> a = b.
Proof.
  intros Hf Hn Ha Hb [q H]. assert (f <> 0) by (intros ->; simpl in Hf; lia).
  destruct (N.eq_dec q 0) as [->|Hq].
  - rewrite pmul_0_l in H. apply N.lxor_eq. exact H.
  - exfalso. destruct (pmul_nonzero_log2 q f Hq H0) as [H1 H2].
    rewrite <- H in H1, H2. pose proof (lxor_lt a b n Ha Hb) as HL.
    apply N.log2_lt_pow2 in HL; lia.
Qed.
