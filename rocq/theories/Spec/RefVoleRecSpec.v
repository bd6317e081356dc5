(** What the receiver rebuilds from the openings of all trees of a signature. *)
From Coq Require Import ZArith NArith List.
From Verif Require Import Spec.KeccakSpec Spec.VcSpec Spec.VoleSpec Spec.RefSpec Spec.RefVcSpec Spec.RefRecSpec Spec.RefVoleSpec.
From Verif Require Import Model.CtLang Model.CtNames Model.CtProgram.
Import ListNotations.
Local Open Scope N_scope.

(** The leaf of a tree that stays hidden: its number has the bits of the challenge that belong to the tree. *)
Definition hidden_leaf (chal : list N) (k0 t0 k1 tree leaf : N) : Prop :=
  leaf < 2 ^ bits_taken k0 t0 k1 tree /\ forall j, j < bits_taken k0 t0 k1 tree -> N.testbit leaf j = bit_at chal (bits_before k0 t0 k1 tree + j).
(** The seed of another leaf, and the hash of all commitments of the tree. *)
Definition received_seed (lam : N) (iv path : list N) (depth leaf j : N) : list N := leaf_seed shake lam (rebuilt lam iv path depth leaf (N.to_nat depth) j) iv.
Definition received_hash (lam : N) (iv path com : list N) (depth leaf : N) : list N := H1 shake lam (concat (map (rebuilt_com lam iv path com depth leaf) (each_leaf depth))).
(** Column [k] of the receiver: the sum over the leaves whose number differs from the hidden one in bit [k]. *)
Definition received_column (lam : N) (iv : list N) (n depth leaf : N) (seed : N -> list N) (k : N) : list N :=
  sum n (map (mask_of lam iv n seed) (filter (fun j => xorb (N.testbit j k) (N.testbit leaf k)) (each_leaf depth))).
(** The parameters that count here: those of the commitment, and t1. *)
Definition receiver_parameters (m : mem) (b : positive) (o : Z) (lam tau k0 k1 t0 t1 : N) : Prop := vole_parameters m b o lam tau k0 k1 t0 /\ number m b (o + 24) t1.
(** The columns, in [Qb], and the hash, in [hb], are apart from each other, and the columns from what is read: iv, challenge, the arrays of pointers to the openings,
    to the commitments and to the columns, and the openings and commitments themselves. *)
Definition receive_apart (tau : N) (pb cb : N -> positive) (ib gb db jb qb Qb hb : positive) : Prop :=
  (forall b, In b [ib; Qb; hb] -> (last_global < b)%positive) /\ Qb <> hb /\ ~ In Qb [ib; gb; db; jb; qb] /\ (forall t, t < tau -> ~ In Qb [pb t; cb t]).
