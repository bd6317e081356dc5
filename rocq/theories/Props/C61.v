(** C61: the C text of the VOLE commitment commits to one tree after the other with the roots that the root key gives, writes the columns of all trees,
    the mask of the first tree, the differences of the other masks to it, and the hash of the hashes of the trees, for every root key, iv, parameters and length. *)
From Coq Require Import ZArith NArith List Bool FMapPositive Lia.
From Verif Require Import Spec.KeccakSpec Spec.VcSpec Spec.VoleSpec.
From Verif Require Import Model.CtLang Model.CtNames Model.CtProgram Spec.CtSpec Spec.RefSpec Spec.RefVcSpec Spec.RefVoleSpec Proof.RefProps Proof.RefVcProps Proof.RefCommitProps Props.C58.
Import ListNotations.
Local Open Scope Z_scope.

Theorem C61_commit : forall lam tau k0 k1 t0 ell root iv m c rb ro ib io pb po hb ho ab ao cb co ub uo vb vo Vb Vo,
  let n := ((ell + 7) / 8)%N in let depth := bits_taken k0 t0 k1 in let before := bits_before k0 t0 k1 in
  let root_of := tree_root lam tau root iv in let seed t := tree_seed lam (root_of t) iv (depth t) in let mask t := all_masks lam iv n (depth t) (seed t) in
  security_level lam -> (1 <= k0 <= 24)%N -> (1 <= k1 <= 24)%N -> (1 <= tau < 2 ^ 16)%N -> (t0 < 2 ^ 16)%N ->
  (1 <= ell)%N -> (ell + 7 < 2 ^ 32)%N -> (2 * 2 ^ k0 * n < 2 ^ 32)%N -> (2 * 2 ^ k1 * n < 2 ^ 32)%N -> (tau * n < 2 ^ 32)%N -> (before tau * n < 2 ^ 32)%N ->
  byte_string root (lam / 8) -> byte_string iv 16 -> loaded m -> vole_parameters m pb po lam tau k0 k1 t0 -> stands m rb ro root -> stands m ib io iv ->
  (forall t, (t < tau)%N -> laid_out m (c t) /\ array (c t) = ab /\ index (c t) = ao + Z.of_N t) ->
  (forall k, (k < before tau)%N -> points m vb (vo + Z.of_N k) Vb (Vo + Z.of_N (k * n))) ->
  room m Vb Vo (before tau * n) -> room m ub uo n -> room m cb co ((tau - 1) * n) -> room m hb ho (lam / 8 * 2) -> commit_apart tau c pb ib ab vb Vb ub cb hb ->
  exists v m', returns f_vole_commit [VPtr rb ro; VPtr ib io; VInt (Z.of_N ell); VPtr pb po; VPtr hb ho; VPtr ab ao; VPtr cb co; VPtr ub uo; VPtr vb vo] m v m' /\
    (forall t, (t < tau)%N -> exists h k com sd, member_blocks m' (c t) h k com sd /\ NoDup [h; k; com; sd] /\ (forall b, In b [h; k; com; sd] -> (mnext m <= b < mnext m')%positive) /\
       commitment m' h k com sd lam (depth t) (root_of t) iv) /\
    (forall t k, (t < tau)%N -> (k < depth t)%N -> stands m' Vb (Vo + Z.of_N ((before t + k) * n)) (column lam iv n (depth t) (seed t) k)) /\
    stands m' ub uo (mask 0%N) /\ (forall t, (1 <= t < tau)%N -> stands m' cb (co + Z.of_N ((t - 1) * n)) (sum n [mask 0%N; mask t])) /\
    stands m' hb ho (H1 shake lam (concat (map (fun t => tree_hash lam (root_of t) iv (depth t)) (trees tau)))) /\
    unchanged m m' (fun b q => (exists t, (t < tau)%N /\ In b (members (c t))) \/ within Vb Vo (before tau * n) b q \/ within ub uo n b q \/ within cb co ((tau - 1) * n) b q \/ within hb ho (lam / 8 * 2) b q).
Proof. exact vole_commit_returns. Qed.
Print Assumptions C61_commit.

(** ** A case *)
(** lambda is 192; two trees, of two bits and of one bit; 9 bits, which take 2 bytes: a root key, an iv, the parameters, the members of two structures, room for three columns,
    a mask, a correction and a hash, the array of the structures and that of the pointers to the columns *)
Definition commit_memory : mem :=
  add_cells (add_cells (memory [] [map Z.of_N (some_bytes 24); map Z.of_N (some_bytes 16); [192; 0] ++ repeat 0 14 ++ [2; 0; 2; 0; 1; 0; 1; 0; 1; 0];
      [0]; [0]; [0]; [0]; [0]; [0]; [0]; [0]; repeat 9 6; repeat 9 2; repeat 9 2; repeat 9 48])
    [(0, block 4); (1, block 5); (2, block 6); (3, block 7); (4, block 8); (5, block 9); (6, block 10); (7, block 11)] 8)
    [(0, VPtr (last_global + 12) 0); (1, VPtr (last_global + 12) 2); (2, VPtr (last_global + 12) 4)] 3.
Definition commit_structures (t : N) : vec_com :=
  if (t =? 0)%N then VecCom (last_global + 16) 0 (last_global + 4) (last_global + 5) (last_global + 6) (last_global + 7)
  else VecCom (last_global + 16) 1 (last_global + 8) (last_global + 9) (last_global + 10) (last_global + 11).
Notation root0 := (tree_root 192 2 (some_bytes 24) (some_bytes 16) 0).
Notation root1 := (tree_root 192 2 (some_bytes 24) (some_bytes 16) 1).
Notation seed0 := (tree_seed 192 root0 (some_bytes 16) 2).
Notation seed1 := (tree_seed 192 root1 (some_bytes 16) 1).
Lemma below2 (P : N -> Prop) : P 0%N -> P 1%N -> forall t, (t < 2)%N -> P t.
Proof. intros A B t H. assert (t = 0 \/ t = 1)%N as [->| ->] by lia; assumption. Qed.
Example C61_case : exists v m',
  returns f_vole_commit [block 1; block 2; VInt 9; block 3; block 15; block 16; block 14; block 13; block 17] commit_memory v m' /\
  stands m' (last_global + 12) 2 (column 192 (some_bytes 16) 2 2 seed0 1) /\ stands m' (last_global + 12) 4 (column 192 (some_bytes 16) 2 1 seed1 0) /\
  stands m' (last_global + 13) 0 (all_masks 192 (some_bytes 16) 2 2 seed0) /\
  stands m' (last_global + 14) 0 (sum 2 [all_masks 192 (some_bytes 16) 2 2 seed0; all_masks 192 (some_bytes 16) 2 1 seed1]) /\
  stands m' (last_global + 15) 0 (H1 shake 192 (tree_hash 192 root0 (some_bytes 16) 2 ++ tree_hash 192 root1 (some_bytes 16) 1 ++ [])) /\
  unchanged commit_memory m' (fun b _ => In b (map (fun k => last_global + k)%positive [4; 5; 6; 7; 8; 9; 10; 11; 12; 13; 14; 15]%positive)).
Proof.
  destruct (C61_commit 192 2 2 1 1 9 (some_bytes 24) (some_bytes 16) commit_memory commit_structures (last_global + 1) 0 (last_global + 2) 0 (last_global + 3) 0 (last_global + 15) 0 (last_global + 16) 0
    (last_global + 14) 0 (last_global + 13) 0 (last_global + 17) 0 (last_global + 12) 0) as (v & m' & R & _ & V & U & C & H & UN); try reflexivity; try (split; [vm_compute; discriminate|reflexivity || (vm_compute; discriminate)]).
  - right. left. reflexivity.
  - vm_compute. discriminate.
  - split; [reflexivity|apply bytes_in_ok; vm_compute; reflexivity].
  - split; [reflexivity|apply bytes_in_ok; vm_compute; reflexivity].
  - apply loadedb_ok. vm_compute. reflexivity.
  - repeat split; vm_compute; reflexivity.
  - apply (below2 (fun t => laid_out commit_memory (commit_structures t) /\ array (commit_structures t) = (last_global + 16)%positive /\ index (commit_structures t) = 0 + Z.of_N t));
      (split; [|split; reflexivity]); (split; [repeat constructor; cbn; intuition discriminate|]);
      (split; [intros b I; cbn in I; decompose [or] I; subst; try reflexivity; contradiction|]);
      repeat (split; [eapply points_by; [reflexivity|vm_compute; reflexivity|reflexivity|reflexivity]|]);
      intros b I; cbn in I; decompose [or] I; subst; try contradiction; vm_compute; discriminate.
  - intros k Hk. change (bits_before 2 1 1 2) with 3%N in Hk. assert (k = 0 \/ k = 1 \/ k = 2)%N as [->|[->| ->]] by lia; (eapply points_by; [reflexivity|vm_compute; reflexivity|reflexivity|reflexivity]).
  - vm_compute. discriminate.
  - vm_compute. discriminate.
  - vm_compute. discriminate.
  - vm_compute. discriminate.
  - split; [intros b I; cbn in I; decompose [or] I; subst; try reflexivity; contradiction|]. split; [repeat constructor; cbn; intuition discriminate|].
    split; [cbn; intuition discriminate|]. split; [cbn; intuition discriminate|]. split.
    + intros t b Ht I J. assert (t = 0 \/ t = 1)%N as [->| ->] by lia; cbn in I, J; decompose [or] I; subst; intuition discriminate.
    + intros t t' b Ht Ht' NE I J. assert (t = 0 /\ t' = 1 \/ t = 1 /\ t' = 0)%N as [[-> ->]|[-> ->]] by lia; cbn in I, J; decompose [or] I; subst; intuition discriminate.
  - exists v, m'. split; [exact R|]. split; [exact (V 0%N 1%N eq_refl eq_refl)|]. split; [exact (V 1%N 0%N eq_refl eq_refl)|]. split; [exact U|]. split; [exact (C 1%N ltac:(lia))|]. split; [exact H|].
    destruct UN as [UN1 UN2]. split; [exact UN1|]. intros b k o F B O. destruct (UN2 b k o F B O) as (k' & F' & S' & E'). exists k'. split; [exact F'|]. split; [exact S'|]. intros NE. apply E'. intros X. apply NE.
    destruct X as [(t & Ht & I)|[[-> _]|[[-> _]|[[-> _]|[-> _]]]]]; [|cbn; tauto..]. assert (t = 0 \/ t = 1)%N as [->| ->] by lia; cbn in I |- *; tauto.
Qed.
