(** Universal hashes: universal_hashing.c.  The copies for lambda = 128, 192, 256 are one
    definition over the field. *)
From Verif.Model Require Export Base Params Fields.

(** the field used for a security parameter (the switch of universal_hashing.c:146-156,
    faest_aes.c:2593-2614) *)
Definition field_of (lambda : N) : field :=
  match lambda with 256 => F256 | 192 => F192 | _ => F128 end.

(** number of bytes of the last block copied to tmp: universal_hashing.c:24-25, 52-55 *)
Definition last_block_len (lambda ell : N) : N :=
  if (ell + lambda) mod lambda =? 0 then lambda / 8 else ((ell + lambda) mod lambda) / 8.

(** uint8_t tmp[lambda_bytes] = {0}; memcpy(tmp, x + (length_lambda - 1) * lambda_bytes, ..) *)
Definition last_block (lambda ell : N) (x : bytes) : res bytes :=
  let length_lambda := (ell + lambda + lambda - 1) / lambda in
  let! s := slice x ((length_lambda - 1) * (lambda / 8)) (last_block_len lambda ell) in
  blit (zeros (lambda / 8)) 0 s.

(** universal_hashing.c:16-38: one iteration of the loops at 30 and 33; [buf] and [base]: the
    word loaded is at buf + base - i - 8.  State (h1, running_t). *)
Definition h1_step (b_t : N) (buf : bytes) (base : N) (s : N * N) (i : N) : res (N * N) :=
  let '(h1, running_t) := s in
  let! w := bf_load F64 buf (base - i - 8) in
  Ok (bf_add h1 (bf64_mul running_t w), bf64_mul running_t b_t).

(** universal_hashing.c:16-38; [t] is the array at pointer t *)
Definition compute_h1 (t x : bytes) (lambda ell : N) : res N :=
  let! b_t := bf_load F64 t 0 in
  let lambda_bytes := lambda / 8 in
  let length_lambda := (ell + lambda + lambda - 1) / lambda in
  let! tmp := last_block lambda ell x in
  let! s := foldM (fun s k => h1_step b_t tmp lambda_bytes s (8 * k))
                  (Nrange (lambda_bytes / 8)) (0, 1) in
  let! s := foldM (fun s k => h1_step b_t x (length_lambda * lambda_bytes) s (8 * k))
                  (Nfromto (lambda_bytes / 8) (length_lambda * (lambda_bytes / 8))) s in
  Ok (fst s).

(** universal_hashing.c:61-64: state (h0, running_s) *)
Definition h0_step (F : field) (b_s : N) (x : bytes) (length_lambda : N) (s : N * N) (i : N)
  : res (N * N) :=
  let '(h0, running_s) := s in
  let! b := bf_load F x ((length_lambda - 1 - i) * (f_n F / 8)) in
  Ok (bf_add h0 (bf_mul F running_s b), bf_mul F running_s b_s).

(** universal_hashing.c:40-73 vole_hash_128, 75-108 vole_hash_192, 110-143 vole_hash_256:
    the lambda_bytes + UNIVERSAL_HASH_B bytes written to h *)
Definition vole_hash_F (F : field) (sd x : bytes) (ell : N) : res bytes :=
  let nb := f_n F / 8 in
  let length_lambda := (ell + 2 * nb * 8 - 1) / (nb * 8) in
  let! tmp := last_block (nb * 8) ell x in
  let! h0 := bf_load F tmp 0 in
  let! b_s := bf_load F sd (4 * nb) in
  let! s := foldM (h0_step F b_s x length_lambda) (Nfromto 1 length_lambda) (h0, b_s) in
  let h0 := fst s in
  let! t := slice sd (5 * nb) 8 in
  let! h1 := compute_h1 t x (nb * 8) ell in
  let! r0 := bf_load F sd 0 in
  let! r1 := bf_load F sd (1 * nb) in
  let! r2 := bf_load F sd (2 * nb) in
  let! r3 := bf_load F sd (3 * nb) in
  let h2 := bf_add (bf_mul F r0 h0) (bf_mul_64 F r1 h1) in
  let h3 := bf_add (bf_mul F r2 h0) (bf_mul_64 F r3 h1) in
  let h := bf_store F h2 ++ takeN UNIVERSAL_HASH_B (bf_store F h3) in
  let! x1 := slice x ((ell + nb * 8) / 8) (nb + UNIVERSAL_HASH_B) in
  Ok (xor_bytes h x1).

(** universal_hashing.c:145-157 *)
Definition vole_hash (lambda : N) (sd x : bytes) (ell : N) : res bytes :=
  vole_hash_F (field_of lambda) sd x ell.

(** universal_hashing.h: zk_hash_N_ctx; the field [sd] of the C structure (a pointer to the
    challenge) is represented by r0 and r1, the two elements finalize loads from it *)
Record zk_ctx := mkZk { zk_h0 : N; zk_h1 : N; zk_s : N; zk_t : N; zk_r0 : N; zk_r1 : N }.

(** universal_hashing.c:159-168 zk_hash_128_init, 184-193, 209-218 *)
Definition zk_hash_init (F : field) (sd : bytes) : res zk_ctx :=
  let nb := f_n F / 8 in
  let! s := bf_load F sd (2 * nb) in
  let! t := bf_load F64 sd (3 * nb) in
  let! r0 := bf_load F sd 0 in
  let! r1 := bf_load F sd nb in
  Ok (mkZk 0 0 s t r0 r1).

(** universal_hashing.c:170-173, 195-198, 220-223 *)
Definition zk_hash_update (F : field) (c : zk_ctx) (v : N) : zk_ctx :=
  mkZk (bf_add (bf_mul F (zk_h0 c) (zk_s c)) v) (bf_add (bf_mul_64 F (zk_h1 c) (zk_t c)) v)
       (zk_s c) (zk_t c) (zk_r0 c) (zk_r1 c).

(** universal_hashing.c:175-182, 200-207, 225-232 *)
Definition zk_hash_finalize (F : field) (c : zk_ctx) (x1 : N) : bytes :=
  bf_store F (bf_add (bf_add (bf_mul F (zk_r0 c) (zk_h0 c)) (bf_mul F (zk_r1 c) (zk_h1 c))) x1).

(** universal_hashing.c:235-260 (tests only) zk_hash_128, zk_hash_192, zk_hash_256 *)
Definition zk_hash (F : field) (sd : bytes) (x : list N) (ell : N) : res bytes :=
  let! ctx := zk_hash_init F sd in
  let! ctx := foldM (fun c i => let! v := aget x i in Ok (zk_hash_update F c v)) (Nrange ell) ctx in
  let! x1 := aget x ell in
  Ok (zk_hash_finalize F ctx x1).
