(** Columns, challenge bits and the correction of the VOLE correlation. *)
From Coq Require Import List NArith.
From Verif.Model Require Import Params.
Import ListNotations.
Local Open Scope N_scope.

(** bit [n] of a byte string: least significant bit of byte 0 first *)
Definition bit_at (s : list N) (n : N) : bool := N.testbit (nth (N.to_nat (n / 8)) s 0) (n mod 8).

(** tree which column [n] comes from: t0 trees give k0 columns each, the others k1 *)
Definition tree_of (p : param) (n : N) : N :=
  if n <? p_t0 p * p_k0 p then n / p_k0 p
  else p_t0 p + (n - p_t0 p * p_k0 p) / p_k1 p.

(** b * x, and the sum of two byte strings *)
Definition scale (b : bool) (x : list N) : list N := if b then x else map (fun _ => 0) x.
Fixpoint xors (x y : list N) : list N :=
  match x, y with
  | a :: x, b :: y => N.lxor a b :: xors x y
  | _, _ => []
  end.

(** correction of tree [t] in [c]: none for tree 0, block t - 1 of [L] bytes for the others *)
Definition correction (L : N) (c : list N) (t : N) : list N :=
  if t =? 0 then repeat 0 (N.to_nat L)
  else firstn (N.to_nat L) (skipn (N.to_nat ((t - 1) * L)) c).
