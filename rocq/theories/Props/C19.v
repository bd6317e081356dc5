(** C19: the fields are fields. *)
From Verif.Model Require Import Fields.
From Verif.Spec Require Import FieldSpec.
From Verif.Proof Require Import FieldProps.

Theorem C19_inverses_exist : forall F g, In (F, g) fields ->
  forall a, elt g a -> a <> 0 -> exists b, elt g b /\ bf_mul F a b = 1.
Proof. exact inverses_exist. Qed.
Print Assumptions C19_inverses_exist.

Theorem C19_no_zero_divisors : forall F g, In (F, g) fields ->
  forall a b, elt g a -> elt g b -> bf_mul F a b = 0 -> a = 0 \/ b = 0.
Proof. exact no_zero_divisors. Qed.
Print Assumptions C19_no_zero_divisors.

Example C19_case : In (F128, gf128) fields /\ elt gf128 2 /\ (2 : N) <> 0 /\
  bf_mul F128 2 (2 ^ 127 + 2 ^ 6 + 2 + 1) = 1.
Proof. split; [cbn; tauto|]. split; [reflexivity|]. split; [discriminate|]. vm_compute. reflexivity. Qed.

(** the same for the specification alone: GF(2)[X]/(f) has no zero divisors *)
Theorem C19_moduli_irreducible : forall F g, In (F, g) fields ->
  forall a b, 0 < a -> elt g a -> 0 < b -> elt g b -> pmul a b <> snd g.
Proof. exact moduli_irreducible. Qed.
Print Assumptions C19_moduli_irreducible.

Example C19_irreducible_case : In (F8, gf8) fields /\ 0 < 7 /\ elt gf8 7 /\ pmul 7 7 = 21.
Proof. repeat split; cbn; tauto. Qed.
