(** What a verifier sees of a prover's values, for fixed challenges. *)
From Verif.Model Require Import Base Owf UHash FaestAes.
From Verif.Spec Require Import VoleSpec ProofSpec.

(** The prover holds the masks: a string [u] of l + 2 lambda + 16 bits and a matrix [V] of lambda
    columns of that length.  With the witness [w] and the three challenges it shows the masked
    witness [d], the hash [ut] of [u], the value [a], and, by its openings, the matrix
    Q = V + chall_3 u. *)
Definition shows (i : paramid) (w inp out chall_1 chall_2 chall_3 u : list N) (V : list (list N))
    (d ut a : list N) (Q : list (list N)) : Prop :=
  let p := param_of i in
  d = xors w (firstn (N.to_nat (p_l p / 8)) u) /\
  vole_hash (p_lambda p) chall_1 u (p_l p) = Ok ut /\
  (exists b, aes_prove p w u V inp out chall_2 = Ok (a, b)) /\
  correlated (p_lambda p) chall_3 u V Q.
