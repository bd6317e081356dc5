(** C18: finite-field multiplication is polynomial multiplication modulo the field polynomial. *)
From Verif.Model Require Import Fields.
From Verif.Spec Require Import FieldSpec.
From Verif.Proof Require Import FieldProps.

(** the product is the polynomial product reduced modulo the field polynomial, and the only such *)
Theorem C18_mul_is_product_mod_f : forall F g, In (F, g) fields ->
  forall a b, elt g a -> elt g b ->
  is_gf_product g a b (bf_mul F a b) /\
  forall r, is_gf_product g a b r -> r = bf_mul F a b.
Proof. exact mul_is_product_mod_f. Qed.
Print Assumptions C18_mul_is_product_mod_f.

Example C18_mul_case : In (F128, gf128) fields /\
  elt gf128 (2 ^ 127 + 5) /\ elt gf128 (2 ^ 127 + 2 ^ 64) /\
  is_gf_product gf128 (2 ^ 127 + 5) (2 ^ 127 + 2 ^ 64) (bf_mul F128 (2 ^ 127 + 5) (2 ^ 127 + 2 ^ 64)).
Proof.
  split; [cbn; tauto|]. split; [reflexivity|]. split; [reflexivity|].
  apply C18_mul_is_product_mod_f; [cbn; tauto|reflexivity|reflexivity].
Qed.

(** with addition [bf_add] the elements form a commutative ring with one, of characteristic 2 *)
Theorem C18_commutative_ring : forall F g, In (F, g) fields ->
  forall a b c, elt g a -> elt g b -> elt g c ->
  elt g (bf_add a b) /\ elt g (bf_mul F a b) /\ elt g bf_zero /\ elt g bf_one /\
  bf_add a b = bf_add b a /\
  bf_add (bf_add a b) c = bf_add a (bf_add b c) /\
  bf_add a bf_zero = a /\
  bf_add a a = bf_zero /\
  bf_mul F a b = bf_mul F b a /\
  bf_mul F (bf_mul F a b) c = bf_mul F a (bf_mul F b c) /\
  bf_mul F a bf_one = a /\
  bf_mul F a (bf_add b c) = bf_add (bf_mul F a b) (bf_mul F a c).
Proof. exact commutative_ring. Qed.
Print Assumptions C18_commutative_ring.

Example C18_ring_case : In (F256, gf256) fields /\ elt gf256 (2 ^ 255 + 3) /\
  bf_mul F256 (2 ^ 255 + 3) 1 = 2 ^ 255 + 3.
Proof. split; [cbn; tauto|]. split; [reflexivity|]. vm_compute. reflexivity. Qed.

(** multiplication by a 64-bit value, by a bit and by X agree with the general one *)
Theorem C18_special_multiplications : forall F g, In (F, g) big_fields ->
  forall a b, elt g a ->
  (b < 2 ^ 64 -> bf_mul_64 F a b = bf_mul F a b) /\
  (b < 256 -> bf_mul_bit a b = bf_mul F a (bf_from_bit b)) /\
  bf_dbl F a = bf_mul F a 2.
Proof. exact special_multiplications. Qed.
Print Assumptions C18_special_multiplications.

Example C18_special_case : In (F192, gf192) big_fields /\ elt gf192 (2 ^ 191 + 7) /\
  5 < 2 ^ 64 /\ bf_mul_64 F192 (2 ^ 191 + 7) 5 = bf_mul F192 (2 ^ 191 + 7) 5.
Proof. split; [cbn; tauto|]. split; [reflexivity|]. split; [reflexivity|]. vm_compute. reflexivity. Qed.
