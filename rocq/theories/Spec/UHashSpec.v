(** Specification of the two universal hashes (FAEST v1, section 5).  The multiplication of the
    field of n bits is [bf_mul F]; that it is multiplication in GF(2^n) is property C18. *)
From Coq Require Import List NArith.
From Verif.Model Require Import Fields.
From Verif.Spec Require Import FormatSpec VoleSpec.
Import ListNotations.
Local Open Scope N_scope.

(** value of a byte string, least significant byte first, and back *)
Fixpoint num (s : list N) : N := match s with [] => 0 | b :: s => b + 256 * num s end.
Definition to_bytes (n x : N) : list N := map (fun i => (x / 256 ^ i) mod 256) (upto n).

(** the [len] bytes of [s] from position [off] *)
Definition sub (s : list N) (off len : N) : list N := firstn (N.to_nat len) (skipn (N.to_nat off) s).

(** s^k and the sum f(0) + .. + f(m-1) *)
Definition gpow (F : field) (s k : N) : N := N.iter k (fun a => bf_mul F a s) 1.
Definition gsum (f : N -> N) (m : N) : N := fold_right N.lxor 0 (map f (upto m)).

(** sum of x_i * s^(n-1-i), x_i the i-th block of the size of the field *)
Definition block (F : field) (x : list N) (i : N) : N := num (sub x (i * (f_n F / 8)) (f_n F / 8)).
Definition poly_hash (F : field) (s : N) (x : list N) (n : N) : N :=
  gsum (fun k => bf_mul F (gpow F s k) (block F x (n - 1 - k))) n.

(** x_0: the first (ell + lambda)/8 bytes, padded with zeros to [n] bytes *)
Definition padded (x : list N) (len n : N) : list N := sub x 0 len ++ repeat 0 (N.to_nat (n - len)).

(** seed r0, r1, r2, r3, s of lambda/8 bytes each, then t of 8 bytes *)
Definition vole_hash_spec (F : field) (sd x : list N) (ell : N) : list N :=
  let nb := f_n F / 8 in
  let len := (ell + f_n F) / 8 in
  let n := (len + nb - 1) / nb in
  let x0 := padded x len (n * nb) in
  let x1 := sub x len (nb + 2) in
  let r i := block F sd i in
  let h0 := poly_hash F (block F sd 4) x0 n in
  let h1 := poly_hash F64 (num (sub sd (5 * nb) 8)) x0 (n * (nb / 8)) in
  let h2 := N.lxor (bf_mul F (r 0) h0) (bf_mul F (r 1) h1) in
  let h3 := N.lxor (bf_mul F (r 2) h0) (bf_mul F (r 3) h1) in
  xors (to_bytes nb h2 ++ to_bytes 2 h3) x1.

(** ZK hash: seed r0, r1, s of lambda/8 bytes each, then t of 8 bytes *)
Definition zk_hash_spec (F : field) (sd : list N) (xs : list N) (x1 : N) : N :=
  let n := N.of_nat (length xs) in
  let x i := nth (N.to_nat i) xs 0 in
  let s := block F sd 2 in
  let t := num (sub sd (3 * (f_n F / 8)) 8) in
  let h0 := gsum (fun k => bf_mul F (gpow F s k) (x (n - 1 - k))) n in
  let h1 := gsum (fun k => bf_mul F (gpow F t k) (x (n - 1 - k))) n in
  N.lxor (N.lxor (bf_mul F (block F sd 0) h0) (bf_mul F (block F sd 1) h1)) x1.
