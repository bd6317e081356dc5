(** What the receiver of an opened vector commitment rebuilds. *)
From Coq Require Import ZArith NArith List.
From Verif Require Import Spec.KeccakSpec Spec.VcSpec Spec.RefSpec Spec.RefVcSpec.
From Verif Require Import Model.CtLang Model.CtNames Model.CtProgram.
Import ListNotations.

(** The opening has one node for each level after the root: the sibling of the node on the path to the leaf. *)
Definition path_node (lam : N) (path : list N) (level : N) : list N := firstn (N.to_nat (lam / 8)) (skipn (N.to_nat (lam / 8 * level)) path).
(** A node is the one of the opening if its parent is on the path to the leaf, and grows from its parent if not. (Nodes on the path are not known.) *)
Fixpoint rebuilt (lam : N) (iv path : list N) (depth leaf : N) (level : nat) (pos : N) : list N :=
  match level with
  | O => []
  | S l => if (pos / 2 =? ancestor depth leaf (N.of_nat l))%N then path_node lam path (N.of_nat l)
           else child lam iv (rebuilt lam iv path depth leaf l (pos / 2)) (N.odd pos)
  end.
(** The commitment of a leaf: the one that was sent for the leaf that stays hidden, that of the rebuilt leaf for the others. *)
Definition rebuilt_com (lam : N) (iv path com : list N) (depth leaf j : N) : list N :=
  if (j =? leaf)%N then com else leaf_com shake lam (rebuilt lam iv path depth leaf (N.to_nat depth) j) iv.
(** A node of the tree in memory: those on the path are cleared. *)
Definition node_written (lam : N) (iv path : list N) (depth leaf level pos : N) : list N :=
  if (pos =? ancestor depth leaf level)%N then repeat 0%N (N.to_nat (lam / 8)) else rebuilt lam iv path depth leaf (N.to_nat level) pos.

(** The buffers of the structure of the receiver (vole.c:151-155): room for the hash, the tree, the commitments and the seeds, in blocks of their own. *)
Definition buffers (m : mem) (c : vec_com) (h k com sd : positive) (lam depth : N) (inputs : list positive) : Prop :=
  laid_out m c /\ member_blocks m c h k com sd /\ NoDup [h; k; com; sd] /\
  (forall b, In b [h; k; com; sd] -> (last_global < b)%positive /\ ~ In b (array c :: members c) /\ ~ In b inputs) /\
  room m h 0 (lam / 8 * 2) /\ room m k 0 ((2 ^ (depth + 1) - 1) * (lam / 8)) /\ room m com 0 (2 ^ depth * (lam / 8 * 2)) /\ room m sd 0 (2 ^ depth * (lam / 8)).
Definition buffer_bytes (h k com sd : positive) (lam depth : N) (b : positive) (q : Z) : Prop :=
  within h 0 (lam / 8 * 2) b q \/ within k 0 ((2 ^ (depth + 1) - 1) * (lam / 8)) b q \/ within com 0 (2 ^ depth * (lam / 8 * 2)) b q \/ within sd 0 (2 ^ depth * (lam / 8)) b q.
