(** Matrices of columns, the VOLE correlation, and the polynomial of the challenge. *)
From Verif.Model Require Import Base Params Fields.
From Verif.Spec Require Import VoleSpec UHashSpec ConstraintSpec ConstraintMap.

(** [n] columns of [L] bytes *)
Definition matrix (n L : N) (V : list (list N)) : Prop :=
  N.of_nat (length V) = n /\
  forall j, j < n -> N.of_nat (length (nth (N.to_nat j) V [])) = L /\ Forall (fun b => b < 256) (nth (N.to_nat j) V []).
(** Q = V + delta u: column j of Q is column j of V plus bit j of delta times [u] *)
Definition correlated (n : N) (delta u : list N) (V Q : list (list N)) : Prop :=
  N.of_nat (length Q) = n /\
  forall j, j < n -> nth (N.to_nat j) Q [] = xors (nth (N.to_nat j) V []) (scale (bit_at delta j) u).

(** the aggregated defects of a witness *)
Definition defect_hash (i : paramid) (seed w inp out : list N) : N :=
  zk_hash_spec (F_of i) seed (map (defect (F_of i)) (claims i w inp out)) 0.

(** c0 + c1 D + (D^2 + D) c2 *)
Definition challenge_poly (F : field) (D c0 c1 c2 : N) : N :=
  N.lxor (N.lxor c0 (bf_mul F D c1)) (bf_mul F (N.lxor (bf_mul F D D) D) c2).
