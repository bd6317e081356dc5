(** Specification of the GGM tree and of the all-but-one vector commitment (FAEST v1,
    section 4): independent of the flat node array and of the loops of the code. *)
From Coq Require Import List NArith.
From Verif.Spec Require Import OwfSpec.
Import ListNotations.
Local Open Scope N_scope.

(** the n bytes of AES-CTR under [key] starting at counter [iv] *)
Definition ctr_bytes (lambda : N) (key iv : list N) (n : N) : list N :=
  map (fun i => ctr_byte (aes_of lambda) key iv (N.of_nat i)) (seq 0 (N.to_nat n)).

(** the two children of a node of lambda/8 bytes *)
Definition child (lambda : N) (iv node : list N) (right : bool) : list N :=
  let out := ctr_bytes lambda node iv (2 * (lambda / 8)) in
  if right then skipn (N.to_nat (lambda / 8)) out else firstn (N.to_nat (lambda / 8)) out.

(** node number [pos] (from the left) of level [level] *)
Fixpoint ggm (lambda : N) (iv root : list N) (level : nat) (pos : N) : list N :=
  match level with
  | O => root
  | S l => child lambda iv (ggm lambda iv root l (pos / 2)) (N.odd pos)
  end.

(** position, on level [level], of the ancestor of leaf [leaf] in a tree of depth [depth] *)
Definition ancestor (depth leaf level : N) : N := leaf / 2 ^ (depth - level).

(** the other child of the same parent *)
Definition sibling (pos : N) : N := if N.even pos then pos + 1 else pos - 1.

(** the [n] low bits of [x], least significant first *)
Definition bits_of (x n : N) : list N :=
  map (fun i => N.b2n (N.testbit x (N.of_nat i))) (seq 0 (N.to_nat n)).

(** number of a node in breadth-first order *)
Definition bfs (level pos : N) : N := 2 ^ level - 1 + pos.

(** the digest, seeds and commitments of a leaf sequence: H0(leaf || iv || 0) and
    H1 of all commitments || 1.  [xof 128 data n], [xof 256 data n]: n bytes of SHAKE128,
    SHAKE256 on data. *)
Definition shake_of (lambda : N) : N := if lambda =? 128 then 128 else 256.

(** what is assumed of the XOF where it matters: it returns as many bytes as requested *)
Definition xof_sized (xof : N -> list N -> N -> list N) : Prop :=
  forall s data n, length (xof s data n) = N.to_nat n /\ Forall (fun b => b < 256) (xof s data n).

Section Xof.
Variable xof : N -> list N -> N -> list N.
Definition H0 (lambda : N) (leaf iv : list N) : list N :=
  xof (shake_of lambda) (leaf ++ iv ++ [0]) (lambda / 8 * 3).
Definition leaf_seed (lambda : N) (leaf iv : list N) : list N :=
  firstn (N.to_nat (lambda / 8)) (H0 lambda leaf iv).
Definition leaf_com (lambda : N) (leaf iv : list N) : list N :=
  skipn (N.to_nat (lambda / 8)) (H0 lambda leaf iv).
Definition H1 (lambda : N) (data : list N) : list N :=
  xof (shake_of lambda) (data ++ [1]) (lambda / 8 * 2).
End Xof.
