(** The field constraint of a pair of bytes holds exactly when the pair is right. *)
From Verif.Model Require Import Aes FaestAes.
From Verif.Spec Require Import AesSpec OwfSpec ConstraintSpec ConstraintMap UHashSpec.
From Verif.Proof Require Import BaseProof PolyProof FieldProof EmbedProof AesProof UHashProof ClaimProof.
From Coq Require Import Lia ZifyBool ZifyNat ZifyN.

Lemma alpha_emb F : big_field F -> alpha F = emb F 2.
Proof.
  intros HF. pose proof (f_alpha_get F 1 HF ltac:(lia) ltac:(lia)) as E.
  rewrite N.sub_diag, N.pow_1_r in E. unfold aget in E. unfold alpha. cbn [N.to_nat] in E.
  revert E. generalize (emb F 2). intros e. destruct (f_alpha F) as [|a l]; intros E; cbv in E; [discriminate|]. cbn. congruence.
Qed.
Lemma gpow_alpha F i : big_field F -> i < 8 -> gpow F (alpha F) i = emb F (2 ^ i).
Proof.
  intros HF. rewrite alpha_emb by exact HF. induction i as [|i IH] using N.peano_ind; intros Hi.
  - rewrite gpow_0. symmetry. apply emb_1.
  - rewrite <- N.add_1_r in *. rewrite gpow_succ, IH by lia. rewrite <- emb_mul.
    + f_equal. assert (D : i = 0 \/ i = 1 \/ i = 2 \/ i = 3 \/ i = 4 \/ i = 5 \/ i = 6) by lia.
      repeat (destruct D as [-> | D]; [reflexivity|]). rewrite D. reflexivity.
    + exact HF.
    + change 256 with (2 ^ 8). apply N.pow_lt_mono_r; lia.
    + reflexivity.
Qed.

Lemma byte_bits x : x < 256 ->
  x = fold_right N.lxor 0 (map (fun i => if N.testbit x i then 2 ^ i else 0) (Nrange 8)).
Proof.
  intros H. apply N.eqb_eq. revert x H. apply forallb_lt. vm_compute. reflexivity.
Qed.

Lemma embed_emb F x : big_field F -> x < 256 -> embed F x = emb F x.
Proof.
  intros HF Hx. rewrite (byte_bits x Hx) at 2. unfold embed. rewrite nums_0.
  change (Nrange 8) with [0;1;2;3;4;5;6;7] in *.
  cbn [map fold_right]. rewrite !gpow_alpha by (try exact HF; reflexivity). rewrite !emb_lxor.
  assert (D : forall (b : bool) y, emb F (if b then y else 0) = if b then emb F y else 0).
  { intros [] y; [reflexivity|apply emb_0]. }
  rewrite !D, emb_0. reflexivity.
Qed.

Lemma InvAffine_eq y : y < 256 -> inv_affine y = InvAffine y.
Proof. intros H. apply N.eqb_eq. revert y H. apply forallb_lt. vm_compute. reflexivity. Qed.
Lemma InvAffine_lt y : y < 256 -> InvAffine y < 256.
Proof. intros H. apply N.ltb_lt. revert y H. apply forallb_lt. vm_compute. reflexivity. Qed.
Lemma InvAffine_sbox x : x < 256 -> InvAffine (SBOX x) = bf8_inv x.
Proof. intros H. apply N.eqb_eq. revert x H. apply forallb_lt. vm_compute. reflexivity. Qed.

(** the affine map of FIPS 197, inverse of InvAffine *)
Definition Affine (x : N) : N :=
  let bit i := N.testbit x (i mod 8) in
  fold_right N.lxor 0x63
    (map (fun i => if xorb (xorb (xorb (xorb (bit i) (bit (i + 4))) (bit (i + 5))) (bit (i + 6))) (bit (i + 7))
                   then 2 ^ i else 0) (Nrange 8)).
Lemma Affine_Inv y : y < 256 -> Affine (InvAffine y) = y.
Proof. intros H. apply N.eqb_eq. revert y H. apply forallb_lt. vm_compute. reflexivity. Qed.

Lemma bf8_mul_eq a b : bf8_mul a b = bf_mul F8 a b. Proof. reflexivity. Qed.
Lemma lt_F8 a : a < 256 -> a < 2 ^ f_n F8. Proof. intros H. exact H. Qed.

Lemma right_iff_inv x y : x < 256 -> y < 256 -> right (x, y) <-> bf8_mul x (InvAffine y) = 1.
Proof.
  intros Hx Hy. unfold right. cbn [fst snd]. pose proof (InvAffine_lt y Hy) as HA. split.
  - intros [H0 ->]. rewrite InvAffine_sbox by exact Hx. apply bf8_inv_r; assumption.
  - intros H. rewrite bf8_mul_eq in H. assert (H0 : x <> 0).
    { intros E. rewrite E, bf_mul_0_l in H by (first [exact F8_ok|apply lt_F8; exact HA]). discriminate. }
    split; [exact H0|].
    rewrite <- (Affine_Inv y Hy), <- (Affine_Inv (SBOX x)) by (apply sbox_lt, Hx). f_equal.
    rewrite InvAffine_sbox by exact Hx. pose proof (bf8_inv_r x Hx H0) as HI. rewrite bf8_mul_eq in HI.
    pose proof (bf8_inv_lt x Hx) as HL. apply lt_F8 in HL, HA, Hx.
    revert H HI HL HA. generalize (InvAffine y) (bf8_inv x). intros a b H HI HL HA.
    rewrite <- (bf_mul_1_r F8 b F8_ok HL), <- H, <- (bf_mul_assoc F8), (bf_mul_comm F8 b), HI by (first [exact F8_ok|assumption]).
    symmetry. apply bf_mul_1_l; [exact F8_ok|exact HA].
Qed.

Lemma factors_emb F x y : big_field F -> x < 256 -> y < 256 ->
  factors F (x, y) = (emb F x, emb F (inv_affine y)).
Proof.
  intros HF Hx Hy. unfold factors. cbn [fst snd]. rewrite InvAffine_eq by exact Hy.
  rewrite !embed_emb; auto using InvAffine_lt.
Qed.

Lemma defect_0 F x y : big_field F -> x < 256 -> y < 256 -> defect F (x, y) = 0 <-> right (x, y).
Proof.
  intros HF Hx Hy. rewrite right_iff_inv by assumption. unfold defect, factors. cbn [fst snd].
  pose proof (InvAffine_lt y Hy) as HA.
  rewrite !embed_emb by assumption. rewrite <- emb_mul by assumption.
  rewrite <- (emb_1 F), <- emb_lxor. rewrite <- (emb_0 F). split.
  - intros H. apply N.lxor_eq. apply (emb_inj F); try assumption; [|reflexivity].
    apply lxor_lt8; [apply bf8_mul_lt; assumption|reflexivity].
  - intros H. rewrite H. reflexivity.
Qed.
