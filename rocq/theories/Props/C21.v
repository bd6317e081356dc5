(** C21: GF(2^8) embeds in the big fields. *)
From Verif.Model Require Import Fields.
From Verif.Spec Require Import FieldSpec.
From Verif.Proof Require Import FieldProps.

(** the map computed by bf_byte_combine_bits is an injective ring homomorphism; multiplication on
    both sides is the one of the specification *)
Theorem C21_embedding : forall F g, In (F, g) big_fields ->
  exists e : N -> N,
    (forall x, elt gf8 x -> bf_byte_combine_bits F x = Ok (e x) /\ elt g (e x)) /\
    e 0 = 0 /\ e 1 = 1 /\
    (forall x y, elt gf8 x -> elt gf8 y -> e x = e y -> x = y) /\
    (forall x y, elt gf8 x -> elt gf8 y -> e (N.lxor x y) = N.lxor (e x) (e y)) /\
    (forall x y z, elt gf8 x -> elt gf8 y -> is_gf_product gf8 x y z ->
                   is_gf_product g (e x) (e y) (e z)).
Proof. exact embedding. Qed.
Print Assumptions C21_embedding.

Example C21_case : In (F128, gf128) big_fields /\
  is_gf_product gf8 0x57 0x83 0xc1 /\ exists y, bf_byte_combine_bits F128 0x57 = Ok y /\ y <> 0.
Proof.
  split; [cbn; tauto|]. split; [split; [reflexivity|exists 0x28; reflexivity]|].
  eexists. split; [vm_compute; reflexivity|discriminate].
Qed.

(** combining eight field elements: the sum of x_i times the image of the polynomial X^i; with
    x_i the bits of a byte it is the image of the byte *)
Theorem C21_byte_combine : forall F g, In (F, g) big_fields ->
  exists e : N -> N,
    (forall x, elt gf8 x -> bf_byte_combine_bits F x = Ok (e x)) /\
    (forall xs off, off + 8 <= lenN xs -> Forall (elt g) xs ->
       exists x0 x1 x2 x3 x4 x5 x6 x7,
         slice xs off 8 = Ok [x0; x1; x2; x3; x4; x5; x6; x7] /\
         bf_byte_combine F xs off =
         Ok (fold_left N.lxor
              (map (fun '(x, i) => bf_mul F x (e (2 ^ i)))
                   [(x0, 0); (x1, 1); (x2, 2); (x3, 3); (x4, 4); (x5, 5); (x6, 6); (x7, 7)]) 0)) /\
    (forall x, elt gf8 x ->
       bf_byte_combine F (map (fun i => if N.testbit x i then 1 else 0) [0; 1; 2; 3; 4; 5; 6; 7]) 0 =
       Ok (e x)).
Proof. exact byte_combine_correct. Qed.
Print Assumptions C21_byte_combine.

Example C21_combine_case : In (F256, gf256) big_fields /\ Forall (elt gf256) (Nrange 9) /\
  1 + 8 <= lenN (Nrange 9).
Proof. split; [cbn; tauto|]. split; [repeat constructor|]. vm_compute. discriminate. Qed.
