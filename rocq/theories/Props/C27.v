(** C27: the ZK hash computes its specification and is linear over the big field. *)
From Verif.Model Require Import UHash.
From Verif.Spec Require Import UHashSpec UHashMap.
From Verif.Proof Require Import UHashProps.

(** initialise, update with the elements of [xs] in order, finalise with [x1] *)
Theorem C27_zk_hash_computes : forall lambda F sd xs x1, In (lambda, F) levels ->
  3 * (lambda / 8) + 8 <= lenN sd -> bytes_ok sd ->
  Forall (fun x => x < 2 ^ lambda) xs ->
  exists c, zk_hash_init F sd = Ok c /\
    zk_hash_finalize F (fold_left (zk_hash_update F) xs c) x1 = to_bytes (lambda / 8) (zk_hash_spec F sd xs x1).
Proof. exact zk_hash_computes. Qed.
Print Assumptions C27_zk_hash_computes.

(** hash (xs + c ys) = hash xs + c hash ys *)
Theorem C27_zk_hash_linear : forall lambda F sd xs ys x1 y1 c, In (lambda, F) levels ->
  3 * (lambda / 8) + 8 <= lenN sd -> bytes_ok sd ->
  Forall (fun x => x < 2 ^ lambda) xs -> Forall (fun x => x < 2 ^ lambda) ys -> length ys = length xs ->
  x1 < 2 ^ lambda -> y1 < 2 ^ lambda -> c < 2 ^ lambda ->
  exists ctx, zk_hash_init F sd = Ok ctx /\
    let hash zs z := num (zk_hash_finalize F (fold_left (zk_hash_update F) zs ctx) z) in
    hash (map (fun '(x, y) => N.lxor x (bf_mul F c y)) (combine xs ys)) (N.lxor x1 (bf_mul F c y1)) =
    N.lxor (hash xs x1) (bf_mul F c (hash ys y1)).
Proof. exact zk_hash_is_linear. Qed.
Print Assumptions C27_zk_hash_linear.

(** two elements, seed r0 = 1, r1 = 0, s = 2, t = 0: the hash is x_0 * 2 + x_1 + x *)
Example C27_case :
  let sd := (1 :: repeat 0 15) ++ repeat 0 16 ++ (2 :: repeat 0 15) ++ repeat 0 8 in
  (exists c, zk_hash_init F128 sd = Ok c /\
     zk_hash_finalize F128 (fold_left (zk_hash_update F128) [5; 16] c) 7 = to_bytes 16 (zk_hash_spec F128 sd [5; 16] 7)) /\
  zk_hash_spec F128 sd [5; 16] 7 = 29.
Proof.
  split; [|vm_compute; reflexivity].
  apply (C27_zk_hash_computes 128 F128); [left; reflexivity|discriminate|repeat constructor|repeat constructor].
Qed.
