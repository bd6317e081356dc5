(** C44: the machine-word field code computes the field operations, in both builds. *)
From Verif.Model Require Import Base Fields Limbs.
From Verif.Spec Require Import FieldSpec WordSpec.
From Verif.Proof Require Import WordProof.

(** multiplication of arrays of 64-bit words is multiplication in GF(2^n) *)
Theorem C44_multiplication : forall b F g, In (F, g) big_fields ->
  forall u v, element b (f_n F) u -> element b (f_n F) v ->
  exists w, words_mul b F u v = Ok w /\ element b (f_n F) w /\
            is_gf_product g (words_value u) (words_value v) (words_value w).
Proof. exact word_multiplication. Qed.
Print Assumptions C44_multiplication.

Example C44_multiplication_case : In (F192, gf192) big_fields /\
  element Vectors (f_n F192) [2; 0; 2 ^ 63; 0] /\ element Vectors (f_n F192) [2; 0; 0; 0] /\
  words_mul Vectors F192 [2; 0; 2 ^ 63; 0] [2; 0; 0; 0] = Ok [131; 0; 0; 0].
Proof.
  split; [cbn; tauto|]. split; [split; [reflexivity|split; [repeat constructor|reflexivity]]|].
  split; [split; [reflexivity|split; [repeat constructor|reflexivity]]|]. vm_compute. reflexivity.
Qed.

(** every operation computes the one of Fields.v on the numbers represented *)
Theorem C44_operations : forall b F g, In (F, g) big_fields ->
  forall u v, element b (f_n F) u -> element b (f_n F) v ->
  computes b (f_n F) (Ok (words_add u v)) (bf_add (words_value u) (words_value v)) /\
  computes b (f_n F) (words_mul b F u v) (bf_mul F (words_value u) (words_value v)) /\
  computes b (f_n F) (words_dbl b F u) (bf_dbl F (words_value u)) /\
  (forall y, y < 2 ^ 64 -> computes b (f_n F) (words_mul_64 b F u y) (bf_mul_64 F (words_value u) y)) /\
  (forall y, y < 256 -> computes b (f_n F) (Ok (words_mul_bit u y)) (bf_mul_bit (words_value u) y)) /\
  (forall y, y < 256 -> computes b (f_n F) (words_from_bit b (f_n F) y) (bf_from_bit y)) /\
  computes b (f_n F) (Ok (words_zero b (f_n F))) bf_zero /\
  computes b (f_n F) (Ok (words_one b (f_n F))) bf_one.
Proof. exact word_operations. Qed.
Print Assumptions C44_operations.

Example C44_operations_case : In (F128, gf128) big_fields /\
  element Words (f_n F128) [2 ^ 63 + 1; 2 ^ 63] /\
  words_dbl Words F128 [2 ^ 63 + 1; 2 ^ 63] = Ok [133; 1].
Proof.
  split; [cbn; tauto|]. split; [split; [reflexivity|split; [repeat constructor|reflexivity]]|].
  vm_compute. reflexivity.
Qed.

(** the functions that combine arrays of elements *)
Theorem C44_combinations : forall b F g, In (F, g) big_fields ->
  (forall vs off, Forall (element b (f_n F)) vs -> off + f_n F <= lenN vs ->
     exists x, bf_sum_poly F (map words_value vs) off = Ok x /\
               computes b (f_n F) (words_sum_poly b F vs off) x) /\
  (forall vs off, Forall (element b (f_n F)) vs -> off + 8 <= lenN vs ->
     exists x, bf_byte_combine F (map words_value vs) off = Ok x /\
               computes b (f_n F) (words_byte_combine b F vs off) x) /\
  (forall y, y < 256 ->
     exists x, bf_byte_combine_bits F y = Ok x /\
               computes b (f_n F) (words_byte_combine_bits b F y) x).
Proof. exact word_combinations. Qed.
Print Assumptions C44_combinations.

Example C44_combinations_case : In (F256, gf256) big_fields /\
  Forall (element Words (f_n F256)) (repeat [1; 2; 3; 4] 9) /\ 1 + 8 <= lenN (repeat [1; 2; 3; 4] 9) /\
  words_byte_combine_bits Words F256 2 =
  Ok [0x969788420bdefee7; 0xbed68d38a0474e67; 0xdf229845f8f1e16a; 0x04c9a8cf20c95833].
Proof.
  split; [cbn; tauto|]. split.
  - repeat (constructor; [split; [reflexivity|split; [repeat constructor|reflexivity]]|]). constructor.
  - split; [vm_compute; discriminate|]. vm_compute. reflexivity.
Qed.

(** loading reads the little-endian number in the bytes, storing writes it *)
Theorem C44_load_store : forall b F g, In (F, g) big_fields ->
  (forall src off, bytes_ok src -> off + f_n F / 8 <= lenN src ->
     computes b (f_n F) (words_load b (f_n F) src off) (le_val (takeN (f_n F / 8) (dropN off src)))) /\
  (forall v, element b (f_n F) v ->
     exists s, words_store (f_n F) v = Ok s /\ bytes_ok s /\ lenN s = f_n F / 8 /\ le_val s = words_value v).
Proof. exact word_load_store. Qed.
Print Assumptions C44_load_store.

Example C44_load_store_case : In (F192, gf192) big_fields /\ bytes_ok (Nrange 25) /\
  1 + f_n F192 / 8 <= lenN (Nrange 25) /\
  words_load Vectors 192 (Nrange 25) 1 =
  Ok [0x0807060504030201; 0x100f0e0d0c0b0a09; 0x1817161514131211; 0].
Proof.
  split; [cbn; tauto|]. split; [repeat constructor|]. split; [vm_compute; discriminate|].
  vm_compute. reflexivity.
Qed.

(** the build does not show in the bytes produced: product of two stored elements *)
Theorem C44_builds_agree : forall F g, In (F, g) big_fields ->
  forall x y, bytes_ok x -> bytes_ok y -> lenN x = f_n F / 8 -> lenN y = f_n F / 8 ->
  exists z, bytes_ok z /\ lenN z = f_n F / 8 /\ is_gf_product g (le_val x) (le_val y) (le_val z) /\
    forall b, (let! u := words_load b (f_n F) x 0 in
               let! v := words_load b (f_n F) y 0 in
               let! w := words_mul b F u v in words_store (f_n F) w) = Ok z.
Proof. exact word_builds_agree. Qed.
Print Assumptions C44_builds_agree.

Example C44_builds_case : In (F128, gf128) big_fields /\ bytes_ok (Nrange 16) /\
  lenN (Nrange 16) = f_n F128 / 8.
Proof. split; [cbn; tauto|]. split; [repeat constructor|reflexivity]. Qed.

(** the 8-bit and 64-bit fields *)
Theorem C44_small_fields :
  (forall x y, elt gf8 x -> elt gf8 y -> is_gf_product gf8 x y (word8_mul x y)) /\
  (forall x y, elt gf64 x -> elt gf64 y -> is_gf_product gf64 x y (word64_mul x y)).
Proof. exact word_small_fields. Qed.
Print Assumptions C44_small_fields.

Example C44_small_case : elt gf8 0x57 /\ elt gf64 (2 ^ 63) /\ word8_mul 0x57 0x83 = 0xc1 /\
  word64_mul (2 ^ 63) 2 = 27.
Proof. repeat split. Qed.
