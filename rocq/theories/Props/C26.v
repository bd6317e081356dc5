(** C26: the VOLE hash computes its specification and is linear. *)
From Verif.Model Require Import UHash.
From Verif.Spec Require Import VoleSpec UHashSpec UHashMap.
From Verif.Proof Require Import UHashProps.

(** for every input length [ell] that is a multiple of 8 bits *)
Theorem C26_vole_hash_computes : forall lambda F sd x ell, In (lambda, F) levels ->
  ell mod 8 = 0 ->
  5 * (lambda / 8) + 8 <= lenN sd -> bytes_ok sd ->
  (ell + 2 * lambda) / 8 + 2 <= lenN x -> bytes_ok x ->
  vole_hash lambda sd x ell = Ok (vole_hash_spec F sd x ell).
Proof. exact vole_hash_computes. Qed.
Print Assumptions C26_vole_hash_computes.

Theorem C26_vole_hash_linear : forall lambda F sd x y ell, In (lambda, F) levels ->
  ell mod 8 = 0 ->
  5 * (lambda / 8) + 8 <= lenN sd -> bytes_ok sd ->
  (ell + 2 * lambda) / 8 + 2 <= lenN x -> lenN y = lenN x -> bytes_ok x -> bytes_ok y ->
  exists hx hy, vole_hash lambda sd x ell = Ok hx /\ vole_hash lambda sd y ell = Ok hy /\
    vole_hash lambda sd (xors x y) ell = Ok (xors hx hy) /\
    lenN hx = lambda / 8 + 2 /\ lenN hy = lambda / 8 + 2.
Proof. exact vole_hash_is_linear. Qed.
Print Assumptions C26_vole_hash_linear.

(** ell = 1600 is not a multiple of 192; a 35-byte input has a nonzero hash *)
Example C26_case : vole_hash 192 (repeat 3 128) (repeat 5 250) 1600 = Ok (vole_hash_spec F192 (repeat 3 128) (repeat 5 250) 1600) /\
  1600 mod 192 <> 0.
Proof.
  split; [|discriminate].
  apply C26_vole_hash_computes; [right; left; reflexivity|reflexivity|discriminate|repeat constructor|discriminate|repeat constructor].
Qed.
Example C26_value : vole_hash_spec F128 ((1 :: repeat 0 15) ++ repeat 0 72) ((1 :: repeat 0 34)) 8 = repeat 0 18 /\
  vole_hash_spec F128 ((1 :: repeat 0 15) ++ repeat 0 72) (repeat 0 16 ++ 7 :: repeat 0 17 ++ [9]) 8 = 7 :: repeat 0 16 ++ [9].
Proof. vm_compute. split; reflexivity. Qed.
