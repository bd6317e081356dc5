(** Finite field arithmetic: fields.h, fields.c.

    A field element of GF(2^n) is the [N] whose bit i is the coefficient of X^i.  In C it is an
    array of n/64 little-endian 64-bit limbs (bf8_t and bf64_t: one machine word); the limb-level
    code is modelled in Limbs.v and proved to refine the definitions below.
    The copies for n = 128, 192, 256 are equal up to n, the modulus and the table of constants,
    so one definition parameterised by a [field] models all of them. *)
From Verif.Model Require Export Base.

Record field := mkField {
  f_n : N;            (** number of bits *)
  f_mod : N;          (** modulus without its leading term *)
  f_alpha : list N    (** images of X, X^2, .., X^7 of GF(2^8) *)
}.

(** fields.c:12-21 moduli *)
Definition bf8_modulus : N := N.lor (N.shiftl 1 4) (N.lor (N.shiftl 1 3) (N.lor (N.shiftl 1 1) 1)).
Definition bf64_modulus : N := N.lor (N.shiftl 1 4) (N.lor (N.shiftl 1 3) (N.lor (N.shiftl 1 1) 1)).
Definition bf128_modulus : N := N.lor (N.shiftl 1 7) (N.lor (N.shiftl 1 2) (N.lor (N.shiftl 1 1) 1)).
Definition bf192_modulus : N := N.lor (N.shiftl 1 7) (N.lor (N.shiftl 1 2) (N.lor (N.shiftl 1 1) 1)).
Definition bf256_modulus : N := N.lor (N.shiftl 1 10) (N.lor (N.shiftl 1 5) (N.lor (N.shiftl 1 2) 1)).

(** fields.c:92-107 (each constant is the little-endian byte string of the source) *)
Definition bf128_alpha : list N :=
  [0x053d8555a9979a1ca13fe8ac5560ce0d;
   0x4cf4b7439cbfbb84ec7759ca3488aee1;
   0x35ad604f7d51d2c6bfcf02ae363946a8;
   0x0dcb364640a222fe6b8330483c2e9849;
   0x549810e11a88dea5252b49277b1b82b4;
   0xd681a5686c0c1f75c72bf2ef2521ff22;
   0x0950311a4fb78fe07a7a8e94e136f9bc].

(** fields.c:231-253 *)
Definition bf192_alpha : list N :=
  [0x310bc8140e6b3662e665d76c966ebdeaccc8a3d56f389763;
   0xda933726d491db347bf61f19d5633f26b233619e7cf450bb;
   0x0c3b0d703c754ef68232e37706328d199c6d2c13f5398a0d;
   0x45ec519c94bc12517a5542ab0058d22edd20747cbd2bf75d;
   0xd67d146a4ba6704508168cb767debe84d8d50ce28ace2bf8;
   0x29a6bd5f696cea43f3eaf7ae5fd72048970f9c76eed5e1ba;
   0xc77c56540f87c4b06019fd623906e9d3f5945dc265068571].

(** fields.c:383-412 *)
Definition bf256_alpha : list N :=
  [0x04c9a8cf20c95833df229845f8f1e16abed68d38a0474e67969788420bdefee7;
   0x064e4d699c5b4af1d14a0d376c00b0ea2ba5c48d2c42072fa95af52ad52289c1;
   0x6195e3db7011f68dfb96573fad3fac101771831e533b0f5755dab3833f809d1d;
   0x56c24fd64f7688382a0778b6489ea03f752758911a30e3f6de010519b01bcdd5;
   0x22270b6d71574ffc2fbe09947d49a9811bc4dbd440f1848298c2f529e98a30b6;
   0xc03d372fd1fa29f3f001253ff2991f7eaced66c666f1afbc9e75afb9de44670b;
   0x133eea09d26b7bb82f652b2af4e815455237c4d625b86f0dba43b698b332e88b].

Definition F8 : field := mkField 8 bf8_modulus [].
Definition F64 : field := mkField 64 bf64_modulus [].
Definition F128 : field := mkField 128 bf128_modulus bf128_alpha.
Definition F192 : field := mkField 192 bf192_modulus bf192_alpha.
Definition F256 : field := mkField 256 bf256_modulus bf256_alpha.

(** fields.h:199-206 (and 192, 256): bfN_add *)
Definition bf_add (a b : N) : N := N.lxor a b.

(** fields.c:213-219 bf128_dbl, 365-371 bf192_dbl, 536-546 bf256_dbl; also the body of the
    multiplication loops: shift left by one, dropping the top bit, and reduce. *)
Definition bf_dbl (F : field) (lhs : N) : N :=
  let mask := N.testbit lhs (f_n F - 1) in
  let lhs := N.shiftl lhs 1 mod 2 ^ f_n F in
  N.lxor lhs (if mask then f_mod F else 0).

(** one iteration of the multiplication loop: (lhs, result) *)
Definition bf_mul_step (F : field) (rhs : N) (st : N * N) (idx : N) : N * N :=
  let lhs := bf_dbl F (fst st) in
  (lhs, N.lxor (snd st) (if N.testbit rhs idx then lhs else 0)).

(** shift-and-add multiplication using the [k] low bits of rhs *)
Definition bf_mul_k (F : field) (k : N) (lhs rhs : N) : N :=
  snd (fold_left (bf_mul_step F rhs) (Nfromto 1 k) (lhs, if N.testbit rhs 0 then lhs else 0)).

(** fields.c:35-43 bf8_mul, 78-86 bf64_mul, 183-193 bf128_mul, 335-345 bf192_mul,
    492-509 bf256_mul *)
Definition bf_mul (F : field) (lhs rhs : N) : N := bf_mul_k F (f_n F) lhs rhs.

(** fields.c:195-205 bf128_mul_64, 347-357 bf192_mul_64, 511-528 bf256_mul_64 *)
Definition bf_mul_64 (F : field) (lhs rhs : N) : N := bf_mul_k F 64 lhs rhs.

(** fields.c:208-210, 360-362, 531-533; fields.h:212 etc.: bfN_mul_bit *)
Definition bf_mul_bit (lhs rhs : N) : N := if N.testbit rhs 0 then lhs else 0.

(** fields.h:180-182 etc.: bfN_from_bit *)
Definition bf_from_bit (b : N) : N := N.land b 1.

(** fields.h:184-192 etc. *)
Definition bf_zero : N := 0.
Definition bf_one : N := 1.

(** fields.h:144-154, 220-234, 299-309: bfN_load reads n/8 bytes, little endian;
    fields.h:106-113 bf64_load *)
Definition bf_load (F : field) (src : bytes) (off : N) : res N :=
  let! s := slice src off (f_n F / 8) in Ok (le_val s).

(** fields.h:156-166, 236-246, 311-321: bfN_store; fields.h:115-120 bf64_store *)
Definition bf_store (F : field) (x : N) : bytes := le_bytes (N.to_nat (f_n F / 8)) x.

(** fields.c:221-227 bf128_sum_poly, 373-379 bf192_sum_poly, 548-554 bf256_sum_poly;
    [xs] is the array, [off] the offset of the pointer passed *)
Definition bf_sum_poly (F : field) (xs : list N) (off : N) : res N :=
  let! ret := aget xs (off + (f_n F - 1)) in
  foldM (fun ret i =>
           let! x := aget xs (off + (f_n F - 1 - i)) in
           Ok (bf_add (bf_dbl F ret) x))
        (Nfromto 1 (f_n F)) ret.

(** fields.c:109-115 bf128_byte_combine, 255-261, 414-420 *)
Definition bf_byte_combine (F : field) (xs : list N) (off : N) : res N :=
  let! x0 := aget xs off in
  foldM (fun acc i =>
           let! x := aget xs (off + i) in
           let! a := aget (f_alpha F) (i - 1) in
           Ok (bf_add acc (bf_mul F x a)))
        (Nfromto 1 8) x0.

(** fields.c:117-133 bf128_byte_combine_bits, 263-279, 422-438 *)
Definition bf_byte_combine_bits (F : field) (x : N) : res N :=
  foldM (fun acc i =>
           let! a := aget (f_alpha F) (i - 1) in
           Ok (bf_add acc (bf_mul_bit a (get_bit x i))))
        (Nfromto 1 8) (bf_from_bit (N.land x 1)).

(** fields.c:35-43 *)
Definition bf8_mul (a b : N) : N := bf_mul F8 a b.

(** fields.c:45-54: bf8_mul with both operands equal, the loop reading the saved copy *)
Definition bf8_square (a : N) : N := bf_mul F8 a a.

(** fields.c:56-68 *)
Definition bf8_inv (x : N) : N :=
  let t2 := bf8_square x in
  let t3 := bf8_mul x t2 in
  let t5 := bf8_mul t3 t2 in
  let t7 := bf8_mul t5 t2 in
  let t14 := bf8_square t7 in
  let t28 := bf8_square t14 in
  let t56 := bf8_square t28 in
  let t63 := bf8_mul t56 t7 in
  let t126 := bf8_square t63 in
  let t252 := bf8_square t126 in
  bf8_mul t252 t2.

(** fields.c:78-86 *)
Definition bf64_mul (a b : N) : N := bf_mul F64 a b.
