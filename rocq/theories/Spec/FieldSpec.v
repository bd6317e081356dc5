(** Specification of the field arithmetic: which model field implements which quotient ring. *)
From Verif.Spec Require Export Poly.
From Verif.Model Require Import Fields.

(** a field of the library and the quotient ring GF(2)[X]/(f) it claims to implement *)
Definition fields : list (field * (N * N)) :=
  [(F8, gf8); (F64, gf64); (F128, gf128); (F192, gf192); (F256, gf256)].

(** the three large fields, the ones that the prover and the verifier work in *)
Definition big_fields : list (field * (N * N)) := [(F128, gf128); (F192, gf192); (F256, gf256)].

(** a is an element: a polynomial of degree < n *)
Definition elt (g : N * N) (a : N) : Prop := a < 2 ^ fst g.
