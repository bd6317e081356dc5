(** Where the parts of a vector commitment stand in memory, and what they are. *)
From Coq Require Import ZArith NArith List.
From Verif Require Import Spec.KeccakSpec Spec.VcSpec Spec.RefSpec.
From Verif Require Import Model.CtLang Model.CtNames Model.CtProgram.
Import ListNotations.
Local Open Scope Z_scope.

(** The blocks of a structure of type vec_com_t or vec_com_rec_t (vc.h:11-23), element [index] of an array of them:
    a structure is a block of pointers to its members, and these members are pointers themselves. *)
Record vec_com := VecCom { array : positive; index : Z; member_h : positive; member_k : positive; member_com : positive; member_sd : positive }.
Definition members (c : vec_com) : list positive := [member_h c; member_k c; member_com c; member_sd c].
Definition laid_out (m : mem) (c : vec_com) : Prop :=
  NoDup (array c :: members c) /\ (forall b, In b (array c :: members c) -> (last_global < b)%positive) /\
  points m (array c) (index c * 4) (member_h c) 0 /\ points m (array c) (index c * 4 + 1) (member_k c) 0 /\
  points m (array c) (index c * 4 + 2) (member_com c) 0 /\ points m (array c) (index c * 4 + 3) (member_sd c) 0 /\
  (forall b, In b (members c) -> room m b 0 1).
(** The members point to the starts of these blocks. *)
Definition member_blocks (m : mem) (c : vec_com) (h k com sd : positive) : Prop :=
  points m (member_h c) 0 h 0 /\ points m (member_k c) 0 k 0 /\ points m (member_com c) 0 com 0 /\ points m (member_sd c) 0 sd 0.

Definition security_level (lam : N) : Prop := lam = 128%N \/ lam = 192%N \/ lam = 256%N.
Definition byte_string (l : list N) (n : N) : Prop := N.of_nat (length l) = n /\ Forall (fun b => (b < 256)%N) l.
(** 16 bits, low byte first: the first member of the parameters is lambda. *)
Definition parameters (m : mem) (b : positive) (o : Z) (lam : N) : Prop := stands m b o [lam mod 256; lam / 256]%N.

(** Entry [i] of an array of entries of [size] bytes at [b]. *)
Definition entry (m : mem) (b : positive) (size i : N) (l : list N) : Prop := stands m b (Z.of_N (i * size)) l.
(** A tree: the node at each position of each level, in breadth-first order. *)
Definition tree (m : mem) (b : positive) (lam depth : N) (node : N -> N -> list N) : Prop :=
  forall level pos, (level <= depth)%N -> (pos < 2 ^ level)%N -> entry m b (lam / 8) (bfs level pos) (node level pos).
Definition each_leaf (depth : N) : list N := map N.of_nat (seq 0 (N.to_nat (2 ^ depth))).
(** The node at a position of a level of the tree that grows from [root]. *)
Definition grown (lam : N) (root iv : list N) (level pos : N) : list N := ggm lam iv root (N.to_nat level) pos.

(** What stands in memory after a commitment: the tree, seed and commitment of each leaf, and the hash of all commitments. *)
Definition commitment (m : mem) (h k com sd : positive) (lam depth : N) (root iv : list N) : Prop :=
  let leaf := grown lam root iv depth in
  tree m k lam depth (grown lam root iv) /\
  (forall j, (j < 2 ^ depth)%N -> entry m sd (lam / 8) j (leaf_seed shake lam (leaf j) iv) /\ entry m com (lam / 8 * 2) j (leaf_com shake lam (leaf j) iv)) /\
  stands m h 0 (H1 shake lam (concat (map (fun j => leaf_com shake lam (leaf j) iv) (each_leaf depth)))).
