(** C59: the C text of the reconstruction rebuilds, from the opening of a vector commitment at a leaf, the rest of the tree, the seeds of all
    other leaves and the hash, for every iv, opening, depth and leaf; from the opening of a commitment it is the hash and the seeds of that commitment. *)
From Coq Require Import ZArith NArith List Bool FMapPositive Lia.
From Verif Require Import Spec.KeccakSpec Spec.VcSpec.
From Verif Require Import Model.CtLang Model.CtNames Model.CtProgram Spec.CtSpec Spec.RefSpec Spec.RefVcSpec Spec.RefRecSpec Proof.RefProps Proof.RefVcProps Proof.RefRecProps Props.C58.
Import ListNotations.
Local Open Scope Z_scope.

(** Whatever nodes and commitment were received, they are what the tree and the hash are rebuilt from, and nothing but the four buffers changes. *)
Theorem C59_reconstruct : forall lam depth leaf iv path com m c h k cb sd ib io ob oo jb jo bb bo,
  security_level lam -> (1 <= depth <= 24)%N -> (leaf < 2 ^ depth)%N -> byte_string iv 16 -> byte_string path (lam / 8 * depth) -> byte_string com (lam / 8 * 2) ->
  loaded m -> buffers m c h k cb sd lam depth [ib; ob; jb; bb] -> (last_global < ib)%positive ->
  stands m ib io iv -> stands m ob oo path -> stands m jb jo com -> stands m bb bo (bits_of leaf depth) ->
  exists v m', returns f_vector_reconstruction [VPtr ib io; VPtr ob oo; VPtr jb jo; VPtr bb bo; VInt (Z.of_N lam); VInt (Z.of_N depth); VPtr (array c) (index c)] m v m' /\
    (forall level pos, (1 <= level <= depth)%N -> (pos < 2 ^ level)%N -> entry m' k (lam / 8) (bfs level pos) (node_written lam iv path depth leaf level pos)) /\
    (forall j, (j < 2 ^ depth)%N -> j <> leaf -> entry m' sd (lam / 8) j (leaf_seed shake lam (rebuilt lam iv path depth leaf (N.to_nat depth) j) iv)) /\
    (forall j, (j < 2 ^ depth)%N -> entry m' cb (lam / 8 * 2) j (rebuilt_com lam iv path com depth leaf j)) /\
    stands m' h 0 (VcSpec.H1 shake lam (concat (map (rebuilt_com lam iv path com depth leaf) (each_leaf depth)))) /\
    unchanged m m' (buffer_bytes h k cb sd lam depth).
Proof. exact reconstruction_returns. Qed.
Print Assumptions C59_reconstruct.

(** If they are the siblings and the commitment that opening writes (C58_open, after C58_commit), the seeds are those of the commitment, except that of the
    leaf that stays hidden, and the hash is that of the commitment. *)
Theorem C59_roundtrip : forall lam depth leaf root iv m c h k cb sd ib io ob oo jb jo bb bo,
  security_level lam -> (1 <= depth <= 24)%N -> (leaf < 2 ^ depth)%N -> byte_string root (lam / 8) -> byte_string iv 16 ->
  loaded m -> buffers m c h k cb sd lam depth [ib; ob; jb; bb] -> (last_global < ib)%positive -> stands m ib io iv -> stands m bb bo (bits_of leaf depth) ->
  (forall level, (level < depth)%N -> stands m ob (oo + Z.of_N (level * (lam / 8))) (grown lam root iv (level + 1) (sibling (ancestor depth leaf (level + 1))))) ->
  stands m jb jo (leaf_com shake lam (grown lam root iv depth leaf) iv) ->
  exists v m', returns f_vector_reconstruction [VPtr ib io; VPtr ob oo; VPtr jb jo; VPtr bb bo; VInt (Z.of_N lam); VInt (Z.of_N depth); VPtr (array c) (index c)] m v m' /\
    (forall j, (j < 2 ^ depth)%N -> j <> leaf -> entry m' sd (lam / 8) j (leaf_seed shake lam (grown lam root iv depth j) iv)) /\
    stands m' h 0 (VcSpec.H1 shake lam (concat (map (fun j => leaf_com shake lam (grown lam root iv depth j) iv) (each_leaf depth)))) /\
    unchanged m m' (buffer_bytes h k cb sd lam depth).
Proof. exact roundtrip_returns. Qed.
Print Assumptions C59_roundtrip.

(** ** Cases *)
(** the memory of C58 with the buffers of the receiver, in the first structure of an array of one *)
Definition rec_memory : mem :=
  let m0 := memory [] [map Z.of_N (some_bytes 24); map Z.of_N (some_bytes 16); [192; 0]; [0]; [0]; [0]; [0]; [1; 0; 1]; repeat 7 72; repeat 7 48;
                       repeat 7 48; repeat 7 360; repeat 7 384; repeat 7 192] in
  let m1 := add_cells (add_cells (add_cells (add_cells m0 [(0, block 11)] 1) [(0, block 12)] 1) [(0, block 13)] 1) [(0, block 14)] 1 in
  let m2 := add_cells m1 [(4, block 4); (5, block 5); (6, block 6); (7, block 7)] 8 in
  add_cells m2 [(0, block 15); (1, block 16); (2, block 17); (3, block 18)] 4.
Definition sender : vec_com := VecCom (last_global + 19) 1 (last_global + 4) (last_global + 5) (last_global + 6) (last_global + 7).
Definition receiver : vec_com := VecCom (last_global + 20) 0 (last_global + 15) (last_global + 16) (last_global + 17) (last_global + 18).
Ltac laid := split; [repeat constructor; cbn; intuition discriminate|];
  split; [intros b I; cbn in I; decompose [or] I; subst; try reflexivity; contradiction|];
  repeat (split; [eapply points_by; [reflexivity|vm_compute; reflexivity|reflexivity|reflexivity]|]);
  intros b I; cbn in I; decompose [or] I; subst; try contradiction; vm_compute; discriminate.
Lemma sender_laid_out : laid_out rec_memory sender.
Proof. laid. Qed.
Lemma receiver_buffers : buffers rec_memory receiver (last_global + 11) (last_global + 12) (last_global + 13) (last_global + 14) 192 3
  [last_global + 2; last_global + 9; last_global + 10; last_global + 8]%positive.
Proof.
  split; [laid|]. split; [repeat split; (eapply points_by; [reflexivity|vm_compute; reflexivity|reflexivity|reflexivity])|]. split; [repeat constructor; cbn; intuition discriminate|].
  split; [intros b I; cbn in I; decompose [or] I; subst; try contradiction; (split; [reflexivity|split; cbn; intuition discriminate])|].
  repeat split; vm_compute; discriminate.
Qed.
(** the sender commits to eight leaves and opens leaf 5, and the receiver gets the same hash, and the seed of leaf 2 *)
Example C59_case : exists v m1 h k com sd w m2 x m3 hash seed,
  returns f_vector_commitment [block 1; block 2; block 3; VInt 192; VPtr (last_global + 19) 1; VInt 3] rec_memory v m1 /\
  member_blocks m1 sender h k com sd /\ stands m1 h 0 hash /\ entry m1 sd 24 2 seed /\
  returns f_vector_open [VPtr k 0; VPtr com 0; block 8; block 9; block 10; VInt 3; VInt 24] m1 w m2 /\
  returns f_vector_reconstruction [block 2; block 9; block 10; block 8; VInt 192; VInt 3; VPtr (last_global + 20) 0] m2 x m3 /\
  stands m3 (last_global + 11) 0 hash /\ entry m3 (last_global + 14) 24 2 seed.
Proof.
  assert (BR : byte_string (some_bytes 24) (192 / 8)) by (split; [reflexivity|apply bytes_in_ok; vm_compute; reflexivity]).
  assert (BI : byte_string (some_bytes 16) 16) by (split; [reflexivity|apply bytes_in_ok; vm_compute; reflexivity]).
  assert (SL : security_level 192) by (right; left; reflexivity).
  assert (D3 : (1 <= 3 <= 24)%N) by (split; vm_compute; discriminate).
  assert (LD : loaded rec_memory) by (apply loadedb_ok; vm_compute; reflexivity).
  destruct (C58_commit 192 3 (some_bytes 24) (some_bytes 16) rec_memory sender (last_global + 1) 0 (last_global + 2) 0 (last_global + 3) 0) as (v & m1 & h & k & com & sd & R & MB & ND & FR & (T & LV & HH) & U).
  1-7: assumption || exact sender_laid_out || (vm_compute; reflexivity).
  - vm_compute. reflexivity.
  - reflexivity.
  - cbn. intuition discriminate.
  - vm_compute. reflexivity.
  - assert (B : forall b, In b [h; k; com; sd] -> (last_global + 20 < b)%positive) by (intros b I; apply FR in I; assert (mnext rec_memory = last_global + 21)%positive by (vm_compute; reflexivity); lia).
    assert (UM : forall b (q : Z), In b (members sender) -> (last_global < b)%positive) by (intros b q I; cbn in I; decompose [or] I; subst; try reflexivity; contradiction).
    assert (UR : forall b, In b (members sender) -> ~ In b (array receiver :: members receiver)) by (intros b I; cbn in I; decompose [or] I; subst; try contradiction; cbn; intuition discriminate).
    assert (LD1 := loaded_kept _ _ _ LD U UM). assert (BU1 := buffers_kept _ _ _ _ _ _ _ _ _ _ _ receiver_buffers U SL (fun b q => UR b)).
    assert (SI1 : stands m1 (last_global + 2) 0 (some_bytes 16)) by (eapply stands_kept; [|discriminate|exact U|]; [vm_compute; reflexivity|intros q _ I; cbn in I; intuition discriminate]).
    assert (SB1 : stands m1 (last_global + 8) 0 (bits_of 5 3)) by (eapply stands_kept; [|discriminate|exact U|]; [vm_compute; reflexivity|intros q _ I; cbn in I; intuition discriminate]).
    destruct (C58_open 192 3 5 (grown 192 (some_bytes 24) (some_bytes 16)) (leaf_com shake 192 (grown 192 (some_bytes 24) (some_bytes 16) 3 5) (some_bytes 16)) m1 k com
      (last_global + 8) 0 (last_global + 9) 0 (last_global + 10) 0) as (w & m2 & R2 & A & C & U2).
    + exact SL.
    + exact D3.
    + reflexivity.
    + exact T.
    + apply grown_length; assumption.
    + apply (LV 5%N). reflexivity.
    + apply leaf_com_length.
    + exact SB1.
    + eapply room_kept; [|discriminate|exact U]. vm_compute. discriminate.
    + eapply room_kept; [|discriminate|exact U]. vm_compute. discriminate.
    + apply disjoint_blocks. discriminate.
    + intros E. assert (X := B k ltac:(cbn; auto)). rewrite <- E in X. vm_compute in X. discriminate.
    + intros E. assert (X := B com ltac:(cbn; auto)). rewrite <- E in X. vm_compute in X. discriminate.
    + discriminate.
    + assert (LD2 : loaded m2) by (eapply loaded_kept; [exact LD1|exact U2|]; intros b q [[-> _]|[-> _]]; reflexivity).
      assert (BU2 : buffers m2 receiver (last_global + 11) (last_global + 12) (last_global + 13) (last_global + 14) 192 3 [last_global + 2; last_global + 9; last_global + 10; last_global + 8]%positive)
        by (eapply buffers_kept; [exact BU1|exact U2|exact SL|]; intros b q [[-> _]|[-> _]]; cbn; intuition discriminate).
      destruct (C59_roundtrip 192 3 5 (some_bytes 24) (some_bytes 16) m2 receiver (last_global + 11) (last_global + 12) (last_global + 13) (last_global + 14)
        (last_global + 2) 0 (last_global + 9) 0 (last_global + 10) 0 (last_global + 8) 0) as (x & m3 & R3 & SD & H3 & _).
      * exact SL.
      * exact D3.
      * reflexivity.
      * exact BR.
      * exact BI.
      * exact LD2.
      * exact BU2.
      * reflexivity.
      * eapply stands_kept; [exact SI1|discriminate|exact U2|]. intros q _ [[E _]|[E _]]; discriminate.
      * eapply stands_kept; [exact SB1|discriminate|exact U2|]. intros q _ [[E _]|[E _]]; discriminate.
      * exact A.
      * exact C.
      * exists v, m1, h, k, com, sd, w, m2, x, m3. do 2 eexists. split; [exact R|]. split; [exact MB|]. split; [exact HH|]. split; [apply (LV 2%N); reflexivity|].
        split; [exact R2|]. split; [exact R3|]. split; [exact H3|]. apply SD; [reflexivity|discriminate].
Qed.
