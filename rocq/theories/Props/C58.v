(** C58: the C text of the vector commitment writes the tree, seeds, commitments and hash of FAEST, and the C text of the opening writes the
    sibling path, for every root key, iv, depth and leaf. *)
From Coq Require Import ZArith NArith List Bool FMapPositive Lia.
From Verif Require Import Spec.KeccakSpec Spec.VcSpec.
From Verif Require Import Model.CtLang Model.CtNames Model.CtProgram Spec.CtSpec Spec.RefSpec Spec.RefVcSpec Proof.RefProps Proof.RefVcProps.
Import ListNotations.
Local Open Scope Z_scope.

(** Committing gives the members of the structure four new blocks with the tree, the seeds, the commitments and the hash, and changes nothing else. *)
Theorem C58_commit : forall lam depth root iv m c rb ro ib io pb po,
  security_level lam -> (1 <= depth <= 24)%N -> byte_string root (lam / 8) -> byte_string iv 16 ->
  loaded m -> laid_out m c -> stands m rb ro root -> stands m ib io iv -> (last_global < ib)%positive -> ~ In ib (array c :: members c) -> parameters m pb po lam ->
  exists v m' h k com sd, returns f_vector_commitment [VPtr rb ro; VPtr ib io; VPtr pb po; VInt (Z.of_N lam); VPtr (array c) (index c); VInt (Z.of_N depth)] m v m' /\
    member_blocks m' c h k com sd /\ NoDup [h; k; com; sd] /\ (forall b, In b [h; k; com; sd] -> (mnext m <= b < mnext m')%positive) /\
    commitment m' h k com sd lam depth root iv /\ unchanged m m' (fun b _ => In b (members c)).
Proof. exact commitment_returns. Qed.
Print Assumptions C58_commit.

(** Opening a tree in memory at a leaf writes, for each level, the sibling of the node on the path to the leaf, and the commitment of the leaf. *)
Theorem C58_open : forall lam depth leaf node com m kb cb bb bo ob oo jb jo,
  security_level lam -> (1 <= depth <= 24)%N -> (leaf < 2 ^ depth)%N ->
  tree m kb lam depth node -> (forall level pos, N.of_nat (length (node level pos)) = (lam / 8)%N) ->
  entry m cb (lam / 8 * 2) leaf com -> N.of_nat (length com) = (lam / 8 * 2)%N ->
  stands m bb bo (bits_of leaf depth) -> room m ob oo (depth * (lam / 8)) -> room m jb jo (lam / 8 * 2) ->
  disjoint ob oo (depth * (lam / 8)) jb jo (lam / 8 * 2) -> ob <> kb -> ob <> cb -> ob <> bb ->
  exists v m', returns f_vector_open [VPtr kb 0; VPtr cb 0; VPtr bb bo; VPtr ob oo; VPtr jb jo; VInt (Z.of_N depth); VInt (Z.of_N (lam / 8))] m v m' /\
    (forall level, (level < depth)%N -> stands m' ob (oo + Z.of_N (level * (lam / 8))) (node (level + 1)%N (sibling (ancestor depth leaf (level + 1))))) /\
    stands m' jb jo com /\ unchanged m m' (fun b q => within ob oo (depth * (lam / 8)) b q \/ within jb jo (lam / 8 * 2) b q).
Proof. exact open_returns. Qed.
Print Assumptions C58_open.

(** ** Cases *)
(** a memory with a root key, an iv, parameters that start with lambda, four members, the bits of leaf 5, room for three nodes and a commitment,
    and an array of two structures, of which the second has the members *)
Definition some_bytes (n : nat) : list N := map (fun i => (N.of_nat i * 37 + 11) mod 256)%N (seq 0 n).
Definition add_cells (m : mem) (l : list (Z * value)) (n : Z) : mem := fresh m n (fold_left (fun c p => put c (fst p) (snd p)) l (PositiveMap.empty value)).
Definition case_memory : mem :=
  add_cells (memory [] [map Z.of_N (some_bytes 24); map Z.of_N (some_bytes 16); [192; 0]; [0]; [0]; [0]; [0]; [1; 0; 1]; repeat 7 72; repeat 7 48])
    [(4, block 4); (5, block 5); (6, block 6); (7, block 7)] 8.
Definition case_structure : vec_com := VecCom (last_global + 11) 1 (last_global + 4) (last_global + 5) (last_global + 6) (last_global + 7).
Lemma points_by m b i t o k : (b < mnext m)%positive -> PositiveMap.find b (mblocks m) = Some k -> (0 <=? i) && (i <? bsize k) = true -> get (bcells k) i = VPtr t o -> points m b i t o.
Proof. intros L F I G. apply andb_prop in I. destruct I as [I1 I2]. split; [exact L|]. exists k. split; [exact F|]. split; [|exact G]. split; [apply Z.leb_le, I1|apply Z.ltb_lt, I2]. Qed.
Lemma bytes_in_ok l : forallb (fun b => (b <? 256)%N) l = true -> Forall (fun b => (b < 256)%N) l.
Proof. intros H. apply Forall_forall. intros b I. apply N.ltb_lt. exact (proj1 (forallb_forall _ _) H b I). Qed.
Lemma case_laid_out : laid_out case_memory case_structure.
Proof.
  split; [repeat constructor; cbn; intuition discriminate|].
  split; [intros b I; cbn in I; decompose [or] I; subst; try reflexivity; contradiction|].
  repeat (split; [eapply points_by; [reflexivity|vm_compute; reflexivity|reflexivity|reflexivity]|]).
  intros b I; cbn in I; decompose [or] I; subst; try contradiction; vm_compute; discriminate.
Qed.
(** the commitment to eight leaves, and its opening at leaf 5: the siblings are nodes 0, 3 and 4 of levels 1, 2 and 3 *)
Example C58_case : exists v m1 k com w m2,
  returns f_vector_commitment [block 1; block 2; block 3; VInt 192; VPtr (last_global + 11) 1; VInt 3] case_memory v m1 /\
  points m1 (last_global + 5) 0 k 0 /\ points m1 (last_global + 6) 0 com 0 /\
  entry m1 com 48 7 (leaf_com shake 192 (grown 192 (some_bytes 24) (some_bytes 16) 3 7) (some_bytes 16)) /\
  returns f_vector_open [VPtr k 0; VPtr com 0; block 8; block 9; block 10; VInt 3; VInt 24] m1 w m2 /\
  stands m2 (last_global + 9) 0 (grown 192 (some_bytes 24) (some_bytes 16) 1 0) /\
  stands m2 (last_global + 9) 24 (grown 192 (some_bytes 24) (some_bytes 16) 2 3) /\
  stands m2 (last_global + 9) 48 (grown 192 (some_bytes 24) (some_bytes 16) 3 4) /\
  stands m2 (last_global + 10) 0 (leaf_com shake 192 (grown 192 (some_bytes 24) (some_bytes 16) 3 5) (some_bytes 16)).
Proof.
  destruct (C58_commit 192 3 (some_bytes 24) (some_bytes 16) case_memory case_structure (last_global + 1) 0 (last_global + 2) 0 (last_global + 3) 0) as (v & m1 & h & k & com & sd & R & (P0 & P1 & P2 & P3) & ND & FR & (T & LV & HH) & U).
  - right. left. reflexivity.
  - split; vm_compute; discriminate.
  - split; [reflexivity|apply bytes_in_ok; vm_compute; reflexivity].
  - split; [reflexivity|apply bytes_in_ok; vm_compute; reflexivity].
  - apply loadedb_ok. vm_compute. reflexivity.
  - exact case_laid_out.
  - vm_compute. reflexivity.
  - vm_compute. reflexivity.
  - reflexivity.
  - cbn. intuition discriminate.
  - vm_compute. reflexivity.
  - assert (B : forall b, In b [h; k; com; sd] -> (last_global + 11 < b)%positive) by (intros b I; apply FR in I; assert (mnext case_memory = last_global + 12)%positive by (vm_compute; reflexivity); lia).
    destruct (C58_open 192 3 5 (grown 192 (some_bytes 24) (some_bytes 16)) (leaf_com shake 192 (grown 192 (some_bytes 24) (some_bytes 16) 3 5) (some_bytes 16)) m1 k com
      (last_global + 8) 0 (last_global + 9) 0 (last_global + 10) 0) as (w & m2 & R2 & A & C & _).
    + right. left. reflexivity.
    + split; vm_compute; discriminate.
    + reflexivity.
    + exact T.
    + apply grown_length; [right; left; reflexivity|split; [reflexivity|apply bytes_in_ok; vm_compute; reflexivity]|split; [reflexivity|apply bytes_in_ok; vm_compute; reflexivity]].
    + apply (LV 5%N). reflexivity.
    + apply leaf_com_length.
    + eapply stands_kept; [|discriminate|exact U|]; [vm_compute; reflexivity|]. intros q _ I. cbn in I. intuition discriminate.
    + eapply room_kept; [|discriminate|exact U]. vm_compute. discriminate.
    + eapply room_kept; [|discriminate|exact U]. vm_compute. discriminate.
    + apply disjoint_blocks. discriminate.
    + intros E. assert (X := B k ltac:(cbn; auto)). rewrite <- E in X. vm_compute in X. discriminate.
    + intros E. assert (X := B com ltac:(cbn; auto)). rewrite <- E in X. vm_compute in X. discriminate.
    + discriminate.
    + exists v, m1, k, com, w, m2. split; [exact R|]. split; [exact P1|]. split; [exact P2|]. split; [apply (LV 7%N); reflexivity|]. split; [exact R2|].
      split; [exact (A 0%N eq_refl)|]. split; [exact (A 1%N eq_refl)|]. split; [exact (A 2%N eq_refl)|]. exact C.
Qed.
