(** Counting. *)
From Coq Require Import List NArith.
Local Open Scope N_scope.

(** at most [n] things have the property [P]: no [n] + 1 different things have it *)
Definition at_most {A : Type} (n : N) (P : A -> Prop) : Prop :=
  forall l : list A, NoDup l -> Forall P l -> N.of_nat (length l) <= n.
