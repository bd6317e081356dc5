(** The columns that come from the seeds of a tree, and the bits of the challenge that belong to a tree. *)
From Coq Require Import ZArith NArith List.
From Verif Require Import Spec.VcSpec Spec.VoleSpec Spec.RefSpec Spec.RefVcSpec.
From Verif Require Spec.KeccakSpec Model.CtLang Model.CtProgram.
Import ListNotations.
Local Open Scope N_scope.

(** The sum of byte strings of [n] bytes: exclusive or, position by position. *)
Definition sum (n : N) (l : list (list N)) : list N :=
  map (fun i => fold_right N.lxor 0 (map (fun s => nth i s 0) l)) (seq 0 (N.to_nat n)).
(** The [n] bytes that grow from the seed of a leaf. *)
Definition mask_of (lam : N) (iv : list N) (n : N) (seed : N -> list N) (leaf : N) : list N := ctr_bytes lam (seed leaf) iv n.
(** The mask of a tree: the sum over all leaves. *)
Definition all_masks (lam : N) (iv : list N) (n depth : N) (seed : N -> list N) : list N :=
  sum n (map (mask_of lam iv n seed) (each_leaf depth)).
(** Column [k] of a tree: the sum over the leaves whose number has bit [k]. *)
Definition column (lam : N) (iv : list N) (n depth : N) (seed : N -> list N) (k : N) : list N :=
  sum n (map (mask_of lam iv n seed) (filter (fun leaf => N.testbit leaf k) (each_leaf depth))).

(** Of the bits of the challenge, the first t0 trees take k0 each and the next t1 trees k1 each. *)
Definition bits_before (k0 t0 k1 tree : N) : N := if tree <? t0 then tree * k0 else t0 * k0 + (tree - t0) * k1.
Definition bits_taken (k0 t0 k1 tree : N) : N := if tree <? t0 then k0 else k1.
(** They are written one in a byte. *)
Definition challenge_bits (chal : list N) (first n : N) : list N :=
  map (fun j => N.b2n (bit_at chal (first + N.of_nat j))) (seq 0 (N.to_nat n)).

(** ** All trees of a signature *)
(** 16 bits, low byte first. *)
Definition number (m : CtLang.mem) (b : positive) (o : Z) (v : N) : Prop := stands m b o [v mod 256; v / 256].
(** The parameters that count here: lambda, tau, k0, k1, t0 (instances.h, faest_paramset_t). *)
Definition vole_parameters (m : CtLang.mem) (b : positive) (o : Z) (lam tau k0 k1 t0 : N) : Prop :=
  number m b o lam /\ number m b (o + 16) tau /\ number m b (o + 18) k0 /\ number m b (o + 20) k1 /\ number m b (o + 22) t0.
(** The root of a tree: its share of the key stream of the root key. *)
Definition tree_root (lam tau : N) (root iv : list N) (tree : N) : list N :=
  firstn (N.to_nat (lam / 8)) (skipn (N.to_nat (tree * (lam / 8))) (ctr_bytes lam root iv (tau * (lam / 8)))).
(** The seed of a leaf, and the hash of all commitments of a tree. *)
Definition tree_seed (lam : N) (root iv : list N) (depth leaf : N) : list N := leaf_seed KeccakSpec.shake lam (grown lam root iv depth leaf) iv.
Definition tree_hash (lam : N) (root iv : list N) (depth : N) : list N :=
  H1 KeccakSpec.shake lam (concat (map (fun leaf => leaf_com KeccakSpec.shake lam (grown lam root iv depth leaf) iv) (each_leaf depth))).
Definition trees (tau : N) : list N := map N.of_nat (seq 0 (N.to_nat tau)).
(** The places of the outputs are apart from one another and from what is read: an array of [tau] structures in block [ab], the array of
    pointers to the columns in [vb], the columns, the mask, the corrections and the hash in [Vb], [ub], [cb] and [hb]. *)
Definition commit_apart (tau : N) (c : N -> vec_com) (pb ib ab vb Vb ub cb hb : positive) : Prop :=
  (forall b, In b [pb; ib; ab; vb; Vb; ub; cb; hb] -> (CtProgram.last_global < b)%positive) /\
  NoDup [Vb; ub; cb; hb] /\ ~ In ab [ib; Vb; ub; cb; hb] /\ ~ In Vb [pb; ib; vb] /\
  (forall t b, t < tau -> In b (members (c t)) -> ~ In b [pb; ib; vb; Vb; ub; cb; hb]) /\
  (forall t t' b, t < tau -> t' < tau -> t <> t' -> In b (members (c t)) -> ~ In b (members (c t'))).
