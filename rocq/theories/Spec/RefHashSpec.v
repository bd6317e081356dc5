(** What the translated field multiplications and universal hashes do to memory. *)
From Coq Require Import ZArith NArith List Bool FMapPositive.
From Verif Require Import Model.Fields Model.UHash Spec.Poly Spec.UHashSpec Spec.RefSpec.
From Verif Require Import Model.CtLang Model.CtNames Model.CtProgram.
Import ListNotations.
Local Open Scope Z_scope.

(** The field of [lambda] bits. *)
Notation field_for := UHash.field_of.
Definition gf_for (lambda : N) : N * N := match lambda with 256%N => gf256 | 192%N => gf192 | _ => gf128 end.
(** The size of the C type of its elements: fields.h:24-46; the elements of GF(2^192) are in 32 bytes. *)
Definition type_size (lambda : N) : N := if (lambda =? 128)%N then 16%N else 32%N.
(** An element as it stands in memory, and as it is in a byte string. *)
Definition element (lambda x : N) : list N := to_bytes (type_size lambda) x.

(** The functions, by field. *)
Definition mul_of (lambda : N) : positive := match lambda with 256%N => f_bf256_mul | 192%N => f_bf192_mul | _ => f_bf128_mul end.
Definition mul_64_of (lambda : N) : positive := match lambda with 256%N => f_bf256_mul_64 | 192%N => f_bf192_mul_64 | _ => f_bf128_mul_64 end.
Definition init_of (lambda : N) : positive := match lambda with 256%N => f_zk_hash_256_init | 192%N => f_zk_hash_192_init | _ => f_zk_hash_128_init end.
Definition update_of (lambda : N) : positive := match lambda with 256%N => f_zk_hash_256_update | 192%N => f_zk_hash_192_update | _ => f_zk_hash_128_update end.
Definition finalize_of (lambda : N) : positive := match lambda with 256%N => f_zk_hash_256_finalize | 192%N => f_zk_hash_192_finalize | _ => f_zk_hash_128_finalize end.

(** An object of type zk_hash_N_ctx: a block with a cell for each of the members h0, h1, s, t and sd,
    and a block for each of these members. *)
Record object := Object { at_ctx : positive; at_h0 : positive; at_h1 : positive; at_s : positive; at_t : positive; at_sd : positive }.
Definition members (c : object) : list positive := [at_h0 c; at_h1 c; at_s c; at_t c; at_sd c].
Definition is_object (m : mem) (lambda : N) (c : object) : Prop :=
  NoDup (at_ctx c :: members c) /\
  points m (at_ctx c) 0 (at_h0 c) 0 /\ points m (at_ctx c) 1 (at_h1 c) 0 /\ points m (at_ctx c) 2 (at_s c) 0 /\ points m (at_ctx c) 3 (at_t c) 0 /\ points m (at_ctx c) 4 (at_sd c) 0 /\
  room m (at_h0 c) 0 (type_size lambda) /\ room m (at_h1 c) 0 (type_size lambda) /\ room m (at_s c) 0 (type_size lambda) /\ room m (at_t c) 0 8 /\ room m (at_sd c) 0 1.

(** x_0 a^(n-1) + .. + x_(n-1) *)
Definition poly_of (F : field) (a : N) (xs : list N) : N :=
  let n := N.of_nat (length xs) in gsum (fun k => bf_mul F (gpow F a k) (nth (N.to_nat (n - 1 - k)) xs 0%N)) n.

(** The object has taken in the elements [xs], with the key [sd] that stands at byte [os] of block [bs]. *)
Definition taken (m : mem) (lambda : N) (c : object) (bs : positive) (os : Z) (sd : list N) (xs : list N) : Prop :=
  is_object m lambda c /\ Forall (fun x => x < 2 ^ lambda)%N xs /\
  (let F := field_for lambda in let s := block F sd 2 in let t := num (sub sd (3 * (lambda / 8)) 8) in
   stands m (at_h0 c) 0 (element lambda (poly_of F s xs)) /\ stands m (at_h1 c) 0 (element lambda (poly_of F t xs)) /\
   stands m (at_s c) 0 (element lambda s) /\ stands m (at_t c) 0 (to_bytes 8 t) /\ points m (at_sd c) 0 bs os).
