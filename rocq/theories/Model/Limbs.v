(** Finite field arithmetic on machine words: fields.h, fields.c, in both builds.

    Fields.v describes a field element by one number.  Here it is what the C code works on: the
    array of 64-bit words inside bf128_t, bf192_t, bf256_t, for the build with vector types
    (HAVE_ATTR_VECTOR_SIZE, where bf192_t has a fourth word) and for the build without.
    Little-endian targets; on big-endian ones bfN_load and bfN_store swap the bytes of each word.
    That this code computes the operations of Fields.v is property C44. *)
From Verif.Model Require Export Base Fields.

(** fields.h:19-66: without and with HAVE_ATTR_VECTOR_SIZE *)
Inductive build := Words | Vectors.

(** fields.h:22-24, 39-49: the words of an element of GF(2^n) *)
Definition bf := list N.

(** number of words of bfN_t *)
Definition nwords (b : build) (n : N) : N :=
  match b with Words => n / 64 | Vectors => if n =? 128 then 2 else 4 end.

(** fields.h:30-35, 51-62: BF128C, BF192C, BF256C of n/64 words *)
Definition BFC (b : build) (n : N) (ws : list N) : bf :=
  match b with Words => ws | Vectors => if n =? 192 then ws ++ [0] else ws end.

(** x << k and -x on uint64_t *)
Definition shl64 (x k : N) : N := N.shiftl x k mod 2 ^ 64.
Definition neg64 (x : N) : N := (2 ^ 64 - x) mod 2 ^ 64.

(** fields.h:198-207, 277-286, 353-362: bfN_add, elementwise in both builds *)
Definition words_add (lhs rhs : bf) : bf := zipw N.lxor lhs rhs.

(** fields.c:141-151 (287-297, 446-456): bfN_and_64, elementwise in both builds *)
Definition words_and_64 (lhs : bf) (rhs : N) : bf := map (fun x => N.land x rhs) lhs.

(** fields.c:153-163, 299-311, 458-470: bfN_shift_right_64, which moves each word up one place (the
    name notwithstanding); the shuffle of the first branch picks the same words *)
Definition words_shift_right_64 (v : bf) : res bf :=
  match v with
  | [v0; _] => Ok [0; v0]
  | [v0; v1; _; _] => Ok [0; v0; v1; 0]
  | _ => UB
  end.
Definition words_shift_right_64_256 (v : bf) : res bf :=
  match v with [v0; v1; v2; _] => Ok [0; v0; v1; v2] | _ => UB end.

(** fields.c:165-173 bf128_shift_left_1, 314-325 bf192_shift_left_1, 472-482 bf256_shift_left_1 *)
Definition words_shift_left_1 (b : build) (n : N) (value : bf) : res bf :=
  match b with
  | Words =>
      match value with
      | [v0; v1] => Ok [shl64 v0 1; N.lor (shl64 v1 1) (N.shiftr v0 63)]
      | [v0; v1; v2] =>
          Ok [shl64 v0 1; N.lor (shl64 v1 1) (N.shiftr v0 63); N.lor (shl64 v2 1) (N.shiftr v1 63)]
      | [v0; v1; v2; v3] =>
          Ok [shl64 v0 1; N.lor (shl64 v1 1) (N.shiftr v0 63); N.lor (shl64 v2 1) (N.shiftr v1 63);
              N.lor (shl64 v3 1) (N.shiftr v2 63)]
      | _ => UB
      end
  | Vectors =>
      let carries := map (fun x => N.shiftr x 63) value in
      let! carries := (if n =? 256 then words_shift_right_64_256 carries
                       else words_shift_right_64 carries) in
      let shifted := zipw N.lor (map (fun x => shl64 x 1) value) carries in
      if n =? 192
      then Ok (zipw N.land shifted (BFC Vectors 192 [2 ^ 64 - 1; 2 ^ 64 - 1; 2 ^ 64 - 1]))
      else Ok shifted
  end.

(** fields.c:176-181, 327-333, 484-490: bfN_bit_to_uint64_mask *)
Definition words_bit_mask (value : bf) (bit : N) : res N :=
  let! w := aget value (bit / 64) in
  Ok (neg64 (N.land (N.shiftr w (bit mod 64)) 1)).

(** fields.c:88 bf64_bit_to_mask *)
Definition bf64_bit_to_mask (value bit : N) : N := neg64 (N.land (N.shiftr value bit) 1).

(** fields.c:188 (340, 500-504): add the modulus where the mask is set *)
Definition words_reduce (b : build) (F : field) (lhs : bf) (mask : N) : res bf :=
  match b, f_n F =? 256 with
  | Vectors, true => Ok (words_add lhs (words_and_64 [f_mod F; 0; 0; 0] mask))
  | _, _ => let! x := aget lhs 0 in aset lhs 0 (N.lxor x (N.land mask (f_mod F)))
  end.

(** fields.c:213-219, 365-371, 536-546: bfN_dbl; also the first part of the loop bodies of bfN_mul
    and bfN_mul_64 (fields.c:186-188, 338-340, 497-504) *)
Definition words_dbl (b : build) (F : field) (lhs : bf) : res bf :=
  let! mask := words_bit_mask lhs (f_n F - 1) in
  let! lhs := words_shift_left_1 b (f_n F) lhs in
  words_reduce b F lhs mask.

(** fields.c:183-193 bf128_mul, 335-345 bf192_mul, 492-509 bf256_mul *)
Definition words_mul (b : build) (F : field) (lhs rhs : bf) : res bf :=
  let! m0 := words_bit_mask rhs 0 in
  let! s := foldM (fun '(lhs, result) idx =>
                     let! lhs := words_dbl b F lhs in
                     let! m := words_bit_mask rhs idx in
                     Ok (lhs, words_add result (words_and_64 lhs m)))
                  (Nfromto 1 (f_n F)) (lhs, words_and_64 lhs m0) in
  Ok (snd s).

(** fields.c:195-205 bf128_mul_64, 347-357 bf192_mul_64, 511-528 bf256_mul_64 *)
Definition words_mul_64 (b : build) (F : field) (lhs : bf) (rhs : N) : res bf :=
  let! s := foldM (fun '(lhs, result) idx =>
                     let! lhs := words_dbl b F lhs in
                     Ok (lhs, words_add result (words_and_64 lhs (bf64_bit_to_mask rhs idx))))
                  (Nfromto 1 64) (lhs, words_and_64 lhs (bf64_bit_to_mask rhs 0)) in
  Ok (snd s).

(** fields.c:207-211, 359-363, 530-534; fields.h:211-215, 290-294, 366-370: bfN_mul_bit *)
Definition words_mul_bit (lhs : bf) (rhs : N) : bf := words_and_64 lhs (neg64 (N.land rhs 1)).

(** fields.h:174-182, 253-261, 329-337: bfN_from_bit (through bfN_from_bf8) *)
Definition words_from_bit (b : build) (n bit : N) : res bf :=
  aset (BFC b n (zeros (n / 64))) 0 (N.land bit 1).

(** fields.h:184-192, 263-271, 339-347: bfN_zero, bfN_one *)
Definition words_zero (b : build) (n : N) : bf := BFC b n (zeros (n / 64)).
Definition words_one (b : build) (n : N) : bf := BFC b n (1 :: zeros (n / 64 - 1)).

(** fields.h:144-155, 220-234, 299-310: bfN_load: memcpy of n/8 bytes into the first n/64 words; the
    fourth word of the vector bf192_t is set to 0 *)
Definition words_load (b : build) (n : N) (src : bytes) (off : N) : res bf :=
  let! ws := mapM (fun i => let! s := slice src (off + 8 * i) 8 in Ok (le_val s)) (Nrange (n / 64)) in
  Ok (match b with Words => ws | Vectors => if n =? 192 then ws ++ [0] else ws end).

(** fields.h:157-166, 236-245, 312-321: bfN_store: memcpy of n/8 bytes from the first n/64 words *)
Definition words_store (n : N) (v : bf) : res bytes :=
  let! bs := mapM (fun i => let! w := aget v i in Ok (le_bytes 8 w)) (Nrange (n / 64)) in
  Ok (concat bs).

(** fields.c:221-227, 373-379, 548-554: bfN_sum_poly *)
Definition words_sum_poly (b : build) (F : field) (xs : list bf) (off : N) : res bf :=
  let! ret := aget xs (off + (f_n F - 1)) in
  foldM (fun ret i =>
           let! d := words_dbl b F ret in
           let! x := aget xs (off + (f_n F - 1 - i)) in
           Ok (words_add d x))
        (Nfromto 1 (f_n F)) ret.

(** fields.c:92-107 bf128_alpha: the 64-bit words U64C(..) *)
Definition bf128_alpha_words : list (list N) :=
  [[0xa13fe8ac5560ce0d; 0x053d8555a9979a1c];
   [0xec7759ca3488aee1; 0x4cf4b7439cbfbb84];
   [0xbfcf02ae363946a8; 0x35ad604f7d51d2c6];
   [0x6b8330483c2e9849; 0x0dcb364640a222fe];
   [0x252b49277b1b82b4; 0x549810e11a88dea5];
   [0xc72bf2ef2521ff22; 0xd681a5686c0c1f75];
   [0x7a7a8e94e136f9bc; 0x0950311a4fb78fe0]].
(** fields.c:231-253 bf192_alpha: the 64-bit words U64C(..) *)
Definition bf192_alpha_words : list (list N) :=
  [[0xccc8a3d56f389763; 0xe665d76c966ebdea; 0x310bc8140e6b3662];
   [0xb233619e7cf450bb; 0x7bf61f19d5633f26; 0xda933726d491db34];
   [0x9c6d2c13f5398a0d; 0x8232e37706328d19; 0x0c3b0d703c754ef6];
   [0xdd20747cbd2bf75d; 0x7a5542ab0058d22e; 0x45ec519c94bc1251];
   [0xd8d50ce28ace2bf8; 0x08168cb767debe84; 0xd67d146a4ba67045];
   [0x970f9c76eed5e1ba; 0xf3eaf7ae5fd72048; 0x29a6bd5f696cea43];
   [0xf5945dc265068571; 0x6019fd623906e9d3; 0xc77c56540f87c4b0]].
(** fields.c:383-412 bf256_alpha: the 64-bit words U64C(..) *)
Definition bf256_alpha_words : list (list N) :=
  [[0x969788420bdefee7; 0xbed68d38a0474e67; 0xdf229845f8f1e16a; 0x04c9a8cf20c95833];
   [0xa95af52ad52289c1; 0x2ba5c48d2c42072f; 0xd14a0d376c00b0ea; 0x064e4d699c5b4af1];
   [0x55dab3833f809d1d; 0x1771831e533b0f57; 0xfb96573fad3fac10; 0x6195e3db7011f68d];
   [0xde010519b01bcdd5; 0x752758911a30e3f6; 0x2a0778b6489ea03f; 0x56c24fd64f768838];
   [0x98c2f529e98a30b6; 0x1bc4dbd440f18482; 0x2fbe09947d49a981; 0x22270b6d71574ffc];
   [0x9e75afb9de44670b; 0xaced66c666f1afbc; 0xf001253ff2991f7e; 0xc03d372fd1fa29f3];
   [0xba43b698b332e88b; 0x5237c4d625b86f0d; 0x2f652b2af4e81545; 0x133eea09d26b7bb8]].
Definition alpha_words (b : build) (n : N) : list bf :=
  map (BFC b n) (match n with 256 => bf256_alpha_words | 192 => bf192_alpha_words
                 | _ => bf128_alpha_words end).

(** fields.c:109-115, 255-261, 414-420: bfN_byte_combine *)
Definition words_byte_combine (b : build) (F : field) (xs : list bf) (off : N) : res bf :=
  let! x0 := aget xs off in
  foldM (fun acc i =>
           let! x := aget xs (off + i) in
           let! a := aget (alpha_words b (f_n F)) (i - 1) in
           let! m := words_mul b F x a in
           Ok (words_add acc m))
        (Nfromto 1 8) x0.

(** fields.c:117-133, 263-279, 422-438: bfN_byte_combine_bits (both branches add the same terms in
    the same order) *)
Definition words_byte_combine_bits (b : build) (F : field) (x : N) : res bf :=
  let! x0 := words_from_bit b (f_n F) (N.land x 1) in
  foldM (fun acc i =>
           let! a := aget (alpha_words b (f_n F)) (i - 1) in
           Ok (words_add acc (words_mul_bit a (N.land (N.shiftr x i) 1))))
        (Nfromto 1 8) x0.

(** fields.c:35-43 bf8_mul: uint8_t operands, promoted to int; assignments truncate to 8 bits *)
Definition neg8 (x : N) : N := (2 ^ 8 - x) mod 2 ^ 8.
Definition word8_mul (lhs rhs : N) : N :=
  snd (fold_left
         (fun '(lhs, result) idx =>
            let mask := neg8 (N.land (N.shiftr lhs 7) 1) in
            let lhs := N.lxor (N.shiftl lhs 1) (N.land mask bf8_modulus) mod 2 ^ 8 in
            (lhs, N.lxor result (N.land (neg8 (N.land (N.shiftr rhs idx) 1)) lhs)))
         (Nfromto 1 8) (lhs, N.land (neg8 (N.land rhs 1)) lhs)).

(** fields.c:78-86 bf64_mul *)
Definition word64_mul (lhs rhs : N) : N :=
  snd (fold_left
         (fun '(lhs, result) idx =>
            let mask := neg64 (N.land (N.shiftr lhs 63) 1) in
            let lhs := N.lxor (shl64 lhs 1) (N.land mask bf64_modulus) in
            (lhs, N.lxor result (N.land (neg64 (N.land (N.shiftr rhs idx) 1)) lhs)))
         (Nfromto 1 64) (lhs, N.land (neg64 (N.land rhs 1)) lhs)).
