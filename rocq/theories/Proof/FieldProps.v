(** The lemmas behind Props/C18 .. C21. *)
From Verif.Proof Require Import BaseProof.
From Verif.Proof Require Export EmbedProof.
From Verif.Spec Require Export FieldSpec.

Lemma fields_inv F g : In (F, g) fields -> field_ok F /\ fst g = f_n F /\ snd g = f_poly F.
Proof.
  intros H. repeat (destruct H as [H|H]; [injection H as <- <-|]); try contradiction;
  (split; [first [apply F8_ok|apply F64_ok|apply F128_ok|apply F192_ok|apply F256_ok]|]);
  (split; [reflexivity|vm_compute; reflexivity]).
Qed.

Lemma fields_facts F g : In (F, g) fields -> exists cols, field_facts F cols.
Proof.
  intros H. repeat (destruct H as [H|H]; [injection H as <- <-|]); try contradiction; eexists;
  [apply F8_facts|apply F64_facts|apply F128_facts|apply F192_facts|apply F256_facts].
Qed.

Lemma big_fields_in F g : In (F, g) big_fields -> In (F, g) fields /\ big_field F.
Proof.
  intros H. split; [right; right; exact H|].
  repeat (destruct H as [H|H]; [injection H as <- <-; unfold big_field; cbn; tauto|]). destruct H.
Qed.

Lemma mul_is_product_mod_f : forall F g, In (F, g) fields ->
  forall a b, elt g a -> elt g b ->
  is_gf_product g a b (bf_mul F a b) /\
  forall r, is_gf_product g a b r -> r = bf_mul F a b.
Proof.
  intros F g H a b Ha Hb. destruct (fields_inv F g H) as (HF & E1 & E2).
  unfold elt, is_gf_product in *. rewrite E1, E2 in *.
  split; [apply bf_mul_spec; assumption|].
  intros r [H1 H2]. symmetry. apply bf_mul_unique; assumption.
Qed.

Lemma commutative_ring : forall F g, In (F, g) fields ->
  forall a b c, elt g a -> elt g b -> elt g c ->
  elt g (bf_add a b) /\ elt g (bf_mul F a b) /\ elt g bf_zero /\ elt g bf_one /\
  bf_add a b = bf_add b a /\
  bf_add (bf_add a b) c = bf_add a (bf_add b c) /\
  bf_add a bf_zero = a /\
  bf_add a a = bf_zero /\
  bf_mul F a b = bf_mul F b a /\
  bf_mul F (bf_mul F a b) c = bf_mul F a (bf_mul F b c) /\
  bf_mul F a bf_one = a /\
  bf_mul F a (bf_add b c) = bf_add (bf_mul F a b) (bf_mul F a c).
Proof.
  intros F g H a b c. destruct (fields_inv F g H) as (HF & E1 & _).
  unfold elt, bf_add, bf_zero, bf_one. rewrite E1. intros Ha Hb Hc.
  split; [apply lxor_lt; assumption|].
  split; [apply bf_mul_lt; assumption|].
  split; [apply pow2_pos|].
  split; [apply one_lt, HF|].
  split; [apply N.lxor_comm|].
  split; [apply N.lxor_assoc|].
  split; [apply N.lxor_0_r|].
  split; [apply N.lxor_nilpotent|].
  split; [apply bf_mul_comm; assumption|].
  split; [apply bf_mul_assoc; assumption|].
  split; [apply bf_mul_1_r; assumption|].
  apply bf_mul_lxor_r; assumption.
Qed.

Lemma special_multiplications : forall F g, In (F, g) big_fields ->
  forall a b, elt g a ->
  (b < 2 ^ 64 -> bf_mul_64 F a b = bf_mul F a b) /\
  (b < 256 -> bf_mul_bit a b = bf_mul F a (bf_from_bit b)) /\
  bf_dbl F a = bf_mul F a 2.
Proof.
  intros F g H a b. destruct (big_fields_in F g H) as [H' HB].
  destruct (fields_inv F g H') as (HF & E1 & _). unfold elt. rewrite E1. intros Ha.
  split.
  { intros Hb. apply bf_mul_64_eq; try assumption.
    destruct HB as [<-|[<-|[<-|[]]]]; vm_compute; discriminate. }
  split.
  { intros Hb. rewrite (bf_mul_bit_eq F) by assumption. f_equal. unfold bf_from_bit.
    change 1 with (N.ones 1). rewrite N.land_ones. reflexivity. }
  rewrite bf_dbl_mul by assumption. apply bf_mul_comm; auto using two_lt.
Qed.

Lemma inverses_exist : forall F g, In (F, g) fields ->
  forall a, elt g a -> a <> 0 -> exists b, elt g b /\ bf_mul F a b = 1.
Proof.
  intros F g H a. destruct (fields_inv F g H) as (HF & E1 & _). unfold elt. rewrite E1.
  intros Ha H0. destruct (fields_facts F g H) as [cols FF].
  exists (inverse F a). split; [apply inverse_lt; assumption|].
  apply (inverse_spec F cols); assumption.
Qed.

Lemma no_zero_divisors : forall F g, In (F, g) fields ->
  forall a b, elt g a -> elt g b -> bf_mul F a b = 0 -> a = 0 \/ b = 0.
Proof.
  intros F g H a b. destruct (fields_inv F g H) as (HF & E1 & _). unfold elt. rewrite E1.
  destruct (fields_facts F g H) as [cols FF]. apply (bf_mul_integral F cols a b FF).
Qed.

Lemma moduli_irreducible : forall F g, In (F, g) fields ->
  forall a b, 0 < a -> elt g a -> 0 < b -> elt g b -> pmul a b <> snd g.
Proof.
  intros F g H a b Ha0 Ha Hb0 Hb E.
  assert (Z : bf_mul F a b = 0).
  { symmetry. apply (mul_is_product_mod_f F g H a b Ha Hb). split; [apply pow2_pos|].
    exists 1. rewrite pmul_1_l, N.lxor_0_r. exact E. }
  destruct (no_zero_divisors F g H a b Ha Hb Z); lia.
Qed.

Lemma bf8_inv_correct : bf8_inv 0 = 0 /\
  forall a, elt gf8 a -> a <> 0 -> elt gf8 (bf8_inv a) /\ is_gf_product gf8 a (bf8_inv a) 1.
Proof.
  split; [apply bf8_inv_0|]. intros a Ha H0. split; [apply bf8_inv_lt, Ha|].
  rewrite <- (bf8_inv_r a Ha H0).
  apply (mul_is_product_mod_f F8 gf8); [left; reflexivity|exact Ha|apply bf8_inv_lt, Ha].
Qed.

Lemma embedding : forall F g, In (F, g) big_fields ->
  exists e : N -> N,
    (forall x, elt gf8 x -> bf_byte_combine_bits F x = Ok (e x) /\ elt g (e x)) /\
    e 0 = 0 /\ e 1 = 1 /\
    (forall x y, elt gf8 x -> elt gf8 y -> e x = e y -> x = y) /\
    (forall x y, elt gf8 x -> elt gf8 y -> e (N.lxor x y) = N.lxor (e x) (e y)) /\
    (forall x y z, elt gf8 x -> elt gf8 y -> is_gf_product gf8 x y z ->
                   is_gf_product g (e x) (e y) (e z)).
Proof.
  intros F g H. destruct (big_fields_in F g H) as [H' HB].
  destruct (fields_inv F g H') as (HF & E1 & E2).
  assert (L : forall x, elt g (emb F x)) by (intros; unfold elt; rewrite E1; apply emb_lt, HB).
  exists (emb F).
  split; [intros x Hx; split; [apply byte_combine_bits_emb; assumption|apply L]|].
  split; [apply emb_0|]. split; [apply emb_1|].
  split; [intros x y Hx Hy; apply emb_inj; assumption|].
  split; [intros; apply emb_lxor|].
  intros x y z Hx Hy Hz.
  rewrite (proj2 (mul_is_product_mod_f F8 gf8 (or_introl eq_refl) x y Hx Hy) z Hz).
  change (bf_mul F8 x y) with (bf8_mul x y). rewrite emb_mul by assumption.
  apply (mul_is_product_mod_f F g H'); apply L.
Qed.

Lemma byte_combine_correct : forall F g, In (F, g) big_fields ->
  exists e : N -> N,
    (forall x, elt gf8 x -> bf_byte_combine_bits F x = Ok (e x)) /\
    (forall xs off, off + 8 <= lenN xs -> Forall (elt g) xs ->
       exists x0 x1 x2 x3 x4 x5 x6 x7,
         slice xs off 8 = Ok [x0; x1; x2; x3; x4; x5; x6; x7] /\
         bf_byte_combine F xs off =
         Ok (fold_left N.lxor
              (map (fun '(x, i) => bf_mul F x (e (2 ^ i)))
                   [(x0, 0); (x1, 1); (x2, 2); (x3, 3); (x4, 4); (x5, 5); (x6, 6); (x7, 7)]) 0)) /\
    (forall x, elt gf8 x ->
       bf_byte_combine F (map (fun i => if N.testbit x i then 1 else 0) [0; 1; 2; 3; 4; 5; 6; 7]) 0 =
       Ok (e x)).
Proof.
  intros F g H. destruct (big_fields_in F g H) as [H' HB].
  destruct (fields_inv F g H') as (HF & E1 & E2). exists (emb F).
  split; [intros x Hx; apply byte_combine_bits_emb; assumption|].
  split.
  - intros xs off Hl Hxs.
    rewrite (byte_combine_eq F xs off HB Hl).
    do 8 eexists. split.
    + rewrite slice_ok by exact Hl. f_equal.
      apply (list_ext 0).
      * rewrite lenN_takeN, lenN_dropN. change (lenN [_; _; _; _; _; _; _; _]) with 8. lia.
      * intros i Hi. rewrite lenN_takeN, lenN_dropN in Hi.
        rewrite nthN_takeN by lia. rewrite nthN_dropN by lia.
        assert (C : i < 8) by lia. clear Hi.
        destruct i as [|[[[]|[]|]|[[]|[]|]|]]; try lia; cbn; reflexivity.
    + f_equal. cbn [map fold_left]. rewrite N.lxor_0_l. unfold combine8.
      change (2 ^ 0) with 1. rewrite emb_1, bf_mul_1_r; [reflexivity|assumption|].
      rewrite Forall_forall in Hxs. rewrite <- E1. apply Hxs. rewrite N.add_0_r.
      apply nthN_In. lia.
  - intros x Hx. rewrite byte_combine_eq; [|assumption|vm_compute; discriminate].
    f_equal. rewrite <- (combine8_bits F x HB Hx). unfold combine8. cbn [map].
    assert (B : forall i, N.b2n (N.testbit x i) = if N.testbit x i then 1 else 0)
      by (intros; reflexivity).
    rewrite !B. reflexivity.
Qed.
