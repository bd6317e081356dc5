(** C60: the C text that turns the seeds of a tree into columns writes in column k the sum of the masks of the leaves whose number has bit k, and the
    sum of all masks, and the C text that decodes the challenge writes the bits of the tree, for every iv, seeds, depth, length and challenge. *)
From Coq Require Import ZArith NArith List Bool FMapPositive Lia.
From Verif Require Import Spec.VcSpec Spec.VoleSpec.
From Verif Require Import Model.CtLang Model.CtNames Model.CtProgram Spec.CtSpec Spec.RefSpec Spec.RefVcSpec Spec.RefVoleSpec Proof.RefProps Proof.RefVcProps Proof.RefConvProps Props.C58.
Import ListNotations.
Local Open Scope Z_scope.

(** With [hidden] the seed of leaf 0 is not read, and the columns are those of the other leaves all the same (leaf 0 has no bit). *)
Theorem C60_convert : forall lam n depth iv seed hidden u m ib io sb so vb vo,
  security_level lam -> (1 <= depth <= 24)%N -> (1 <= n)%N -> (2 * 2 ^ depth * n < 2 ^ 32)%N -> byte_string iv 16 -> loaded m -> stands m ib io iv ->
  (forall leaf, (leaf < 2 ^ depth)%N -> hidden = false \/ leaf <> 0%N -> stands m sb (so + Z.of_N (leaf * (lam / 8))) (seed leaf) /\ byte_string (seed leaf) (lam / 8)) ->
  room m vb vo (depth * n) -> match u with Some (ub, uo) => room m ub uo n /\ disjoint ub uo n vb vo (depth * n) | None => True end ->
  exists v m', returns f_ConvertToVole [VPtr ib io; VPtr sb so; VInt (if hidden then 1 else 0); VInt (Z.of_N lam); VInt (Z.of_N depth); VInt (Z.of_N n);
                                        match u with Some (ub, uo) => VPtr ub uo | None => VNull end; VPtr vb vo] m v m' /\
    (forall k, (k < depth)%N -> stands m' vb (vo + Z.of_N (k * n)) (column lam iv n depth seed k)) /\
    (forall ub uo, u = Some (ub, uo) -> hidden = false -> stands m' ub uo (all_masks lam iv n depth seed)) /\
    unchanged m m' (fun b q => within vb vo (depth * n) b q \/ (exists ub uo, u = Some (ub, uo) /\ hidden = false /\ within ub uo n b q)).
Proof. exact convert_returns. Qed.
Print Assumptions C60_convert.

(** The bits of a tree, one in a byte, and 1 for the result; no bits and 0 if there is no such tree. *)
Theorem C60_decode : forall chal tree k0 t0 k1 t1 m cb co ob oo,
  let first := bits_before k0 t0 k1 tree in let n := bits_taken k0 t0 k1 tree in
  (tree < t0 + t1)%N -> (t0 + t1 < 2 ^ 31)%N -> (k0 < 2 ^ 31)%N -> (1 <= k0)%N -> (k1 < 2 ^ 31)%N -> (1 <= k1)%N -> (first + n < 2 ^ 31)%N -> (first + n <= 8 * N.of_nat (length chal))%N ->
  stands m cb co chal -> room m ob oo n -> disjoint ob oo n cb co (N.of_nat (length chal)) ->
  exists m', returns f_ChalDec [VPtr cb co; VInt (Z.of_N tree); VInt (Z.of_N k0); VInt (Z.of_N t0); VInt (Z.of_N k1); VInt (Z.of_N t1); VPtr ob oo] m (VInt 1) m' /\
    stands m' ob oo (challenge_bits chal first n) /\ unchanged m m' (within ob oo n).
Proof. exact decode_returns. Qed.
Print Assumptions C60_decode.
Theorem C60_no_tree : forall tree k0 t0 k1 t1 m v w, (t0 + t1 <= tree)%N -> (t0 + t1 < 2 ^ 31)%N ->
  returns f_ChalDec [v; VInt (Z.of_N tree); VInt (Z.of_N k0); VInt (Z.of_N t0); VInt (Z.of_N k1); VInt (Z.of_N t1); w] m (VInt 0) m.
Proof. exact decode_out_returns. Qed.
Print Assumptions C60_no_tree.

(** ** Cases *)
(** an iv, four seeds of 24 bytes, room for a mask and for two columns of 20 bytes *)
Definition case_seed (leaf : N) : list N := map (fun i => (N.of_nat i * 7 + leaf * 50 + 3) mod 256)%N (seq 0 24).
Definition convert_memory : mem := memory [] [map Z.of_N (some_bytes 16); map Z.of_N (flat_map case_seed [0; 1; 2; 3]%N); repeat 9 20; repeat 9 40].
(** column 0 is the sum of the masks of leaves 1 and 3, column 1 that of leaves 2 and 3 *)
Example C60_case : exists v m',
  returns f_ConvertToVole [block 1; block 2; VInt 0; VInt 192; VInt 2; VInt 20; block 3; block 4] convert_memory v m' /\
  stands m' (last_global + 4) 0 (sum 20 [mask_of 192 (some_bytes 16) 20 case_seed 1; mask_of 192 (some_bytes 16) 20 case_seed 3]) /\
  stands m' (last_global + 4) 20 (sum 20 [mask_of 192 (some_bytes 16) 20 case_seed 2; mask_of 192 (some_bytes 16) 20 case_seed 3]) /\
  stands m' (last_global + 3) 0 (sum 20 (map (mask_of 192 (some_bytes 16) 20 case_seed) [0; 1; 2; 3]%N)).
Proof.
  destruct (C60_convert 192 20 2 (some_bytes 16) case_seed false (Some ((last_global + 3)%positive, 0)) convert_memory (last_global + 1) 0 (last_global + 2) 0 (last_global + 4) 0) as (v & m' & R & C & U & _).
  - right. left. reflexivity.
  - split; vm_compute; discriminate.
  - vm_compute. discriminate.
  - reflexivity.
  - split; [reflexivity|apply bytes_in_ok; vm_compute; reflexivity].
  - apply loadedb_ok. vm_compute. reflexivity.
  - vm_compute. reflexivity.
  - intros x Hx _. assert (x = 0 \/ x = 1 \/ x = 2 \/ x = 3)%N as [->|[->|[->| ->]]] by (change (2 ^ 2)%N with 4%N in Hx; lia);
      (split; [vm_compute; reflexivity|split; [reflexivity|apply bytes_in_ok; vm_compute; reflexivity]]).
  - vm_compute. discriminate.
  - split; [vm_compute; discriminate|apply disjoint_blocks; discriminate].
  - exists v, m'. split; [exact R|]. split; [exact (C 0%N eq_refl)|]. split; [exact (C 1%N eq_refl)|]. exact (U _ _ eq_refl eq_refl).
Qed.
(** the verifier has no seed for leaf 0 *)
Example C60_case_hidden : exists v m', returns f_ConvertToVole [block 1; block 2; VInt 1; VInt 192; VInt 2; VInt 20; VNull; block 4] convert_memory v m' /\
  stands m' (last_global + 4) 20 (sum 20 [mask_of 192 (some_bytes 16) 20 case_seed 2; mask_of 192 (some_bytes 16) 20 case_seed 3]).
Proof.
  destruct (C60_convert 192 20 2 (some_bytes 16) case_seed true None convert_memory (last_global + 1) 0 (last_global + 2) 0 (last_global + 4) 0) as (v & m' & R & C & _).
  - right. left. reflexivity.
  - split; vm_compute; discriminate.
  - vm_compute. discriminate.
  - reflexivity.
  - split; [reflexivity|apply bytes_in_ok; vm_compute; reflexivity].
  - apply loadedb_ok. vm_compute. reflexivity.
  - vm_compute. reflexivity.
  - intros x Hx _. assert (x = 0 \/ x = 1 \/ x = 2 \/ x = 3)%N as [->|[->|[->| ->]]] by (change (2 ^ 2)%N with 4%N in Hx; lia);
      (split; [vm_compute; reflexivity|split; [reflexivity|apply bytes_in_ok; vm_compute; reflexivity]]).
  - vm_compute. discriminate.
  - exact I.
  - exists v, m'. split; [exact R|]. exact (C 1%N eq_refl).
Qed.
(** tree 3 of two trees with three bits and two with two: bits 8 and 9 *)
Example C60_case_decode : exists m', returns f_ChalDec [block 1; VInt 3; VInt 3; VInt 2; VInt 2; VInt 2; block 2] (memory [] [[177; 2]; [7; 7; 7]]) (VInt 1) m' /\ stands m' (last_global + 2) 0 [0; 1]%N.
Proof.
  destruct (C60_decode [177; 2]%N 3 3 2 2 2 (memory [] [[177; 2]; [7; 7; 7]]) (last_global + 1) 0 (last_global + 2) 0) as (m' & R & S & _);
    try reflexivity; try (vm_compute; discriminate); try (apply disjoint_blocks; discriminate).
  exists m'. split; [exact R|exact S].
Qed.
