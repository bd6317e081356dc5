(** C62: the C text of the VOLE reconstruction rebuilds the columns of the receiver and the hash from the openings that the challenge asks for, for every iv, challenge, openings,
    parameters and length; from the openings of a VOLE commitment it is the hash of that commitment, and the columns are its columns plus the masks where the challenge has a bit. *)
From Coq Require Import ZArith NArith List Bool FMapPositive Lia.
From Verif Require Import Spec.KeccakSpec Spec.VcSpec Spec.VoleSpec.
From Verif Require Import Model.CtLang Model.CtNames Model.CtProgram Spec.CtSpec Spec.RefSpec Spec.RefVcSpec Spec.RefRecSpec Spec.RefVoleSpec Spec.RefVoleRecSpec Proof.RefProps Proof.RefVcProps Proof.RefRecProps Proof.RefVoleRecProps Props.C58 Props.C61.
Import ListNotations.
Local Open Scope Z_scope.

(** Whatever openings and commitments were received. *)
Theorem C62_reconstruct : forall lam tau k0 k1 t0 t1 ell iv chal path com leaf m ib io gb go db dof jb jo hb ho qb qo pb po Qb Qo Pb Po Cb Co,
  let n := ((ell + 7) / 8)%N in let depth := bits_taken k0 t0 k1 in let before := bits_before k0 t0 k1 in
  let seed t := received_seed lam iv (path t) (depth t) (leaf t) in
  security_level lam -> (1 <= k0 <= 12)%N -> (1 <= k1 <= 12)%N -> (1 <= tau < 2 ^ 16)%N -> (tau <= t0 + t1)%N -> (t0 < 2 ^ 16)%N -> (t1 < 2 ^ 16)%N ->
  (1 <= ell)%N -> (ell + 7 < 2 ^ 32)%N -> (2 * 2 ^ k0 * n < 2 ^ 32)%N -> (2 * 2 ^ k1 * n < 2 ^ 32)%N -> (before tau * n < 2 ^ 32)%N -> (before tau <= 8 * N.of_nat (length chal))%N ->
  byte_string iv 16 -> loaded m -> receiver_parameters m pb po lam tau k0 k1 t0 t1 -> stands m ib io iv -> stands m gb go chal ->
  (forall t, (t < tau)%N -> hidden_leaf chal k0 t0 k1 t (leaf t) /\ byte_string (path t) (lam / 8 * depth t) /\ byte_string (com t) (lam / 8 * 2) /\
     points m db (dof + Z.of_N t) (Pb t) (Po t) /\ stands m (Pb t) (Po t) (path t) /\ points m jb (jo + Z.of_N t) (Cb t) (Co t) /\ stands m (Cb t) (Co t) (com t)) ->
  (forall k, (k < before tau)%N -> points m qb (qo + Z.of_N k) Qb (Qo + Z.of_N (k * n))) ->
  room m Qb Qo (before tau * n) -> room m hb ho (lam / 8 * 2) -> receive_apart tau Pb Cb ib gb db jb qb Qb hb ->
  exists v m', returns f_vole_reconstruct [VPtr ib io; VPtr gb go; VPtr db dof; VPtr jb jo; VPtr hb ho; VPtr qb qo; VInt (Z.of_N ell); VPtr pb po] m v m' /\
    (forall t k, (t < tau)%N -> (k < depth t)%N -> stands m' Qb (Qo + Z.of_N ((before t + k) * n)) (received_column lam iv n (depth t) (leaf t) (seed t) k)) /\
    stands m' hb ho (H1 shake lam (concat (map (fun t => received_hash lam iv (path t) (com t) (depth t) (leaf t)) (trees tau)))) /\
    unchanged m m' (fun b q => within Qb Qo (before tau * n) b q \/ within hb ho (lam / 8 * 2) b q).
Proof. exact vole_reconstruct_returns. Qed.
Print Assumptions C62_reconstruct.

(** If they are the siblings and the commitments that opening writes (C58_open) for trees with the given roots: the columns and the hash of C61_commit. *)
Theorem C62_roundtrip : forall lam tau k0 k1 t0 t1 ell root_of iv chal leaf m ib io gb go db dof jb jo hb ho qb qo pb po Qb Qo Pb Po Cb Co,
  let n := ((ell + 7) / 8)%N in let depth := bits_taken k0 t0 k1 in let before := bits_before k0 t0 k1 in
  let seed t := tree_seed lam (root_of t) iv (depth t) in let mask t := all_masks lam iv n (depth t) (seed t) in
  security_level lam -> (1 <= k0 <= 12)%N -> (1 <= k1 <= 12)%N -> (1 <= tau < 2 ^ 16)%N -> (tau <= t0 + t1)%N -> (t0 < 2 ^ 16)%N -> (t1 < 2 ^ 16)%N ->
  (1 <= ell)%N -> (ell + 7 < 2 ^ 32)%N -> (2 * 2 ^ k0 * n < 2 ^ 32)%N -> (2 * 2 ^ k1 * n < 2 ^ 32)%N -> (before tau * n < 2 ^ 32)%N -> (before tau <= 8 * N.of_nat (length chal))%N ->
  byte_string iv 16 -> loaded m -> receiver_parameters m pb po lam tau k0 k1 t0 t1 -> stands m ib io iv -> stands m gb go chal ->
  (forall t, (t < tau)%N -> hidden_leaf chal k0 t0 k1 t (leaf t) /\ byte_string (root_of t) (lam / 8) /\ points m db (dof + Z.of_N t) (Pb t) (Po t) /\ points m jb (jo + Z.of_N t) (Cb t) (Co t) /\
     (forall level, (level < depth t)%N -> stands m (Pb t) (Po t + Z.of_N (level * (lam / 8))) (grown lam (root_of t) iv (level + 1) (sibling (ancestor (depth t) (leaf t) (level + 1))))) /\
     stands m (Cb t) (Co t) (leaf_com shake lam (grown lam (root_of t) iv (depth t) (leaf t)) iv)) ->
  (forall k, (k < before tau)%N -> points m qb (qo + Z.of_N k) Qb (Qo + Z.of_N (k * n))) ->
  room m Qb Qo (before tau * n) -> room m hb ho (lam / 8 * 2) -> receive_apart tau Pb Cb ib gb db jb qb Qb hb ->
  exists v m', returns f_vole_reconstruct [VPtr ib io; VPtr gb go; VPtr db dof; VPtr jb jo; VPtr hb ho; VPtr qb qo; VInt (Z.of_N ell); VPtr pb po] m v m' /\
    (forall t k, (t < tau)%N -> (k < depth t)%N -> stands m' Qb (Qo + Z.of_N ((before t + k) * n))
       (if bit_at chal (before t + k) then sum n [column lam iv n (depth t) (seed t) k; mask t] else column lam iv n (depth t) (seed t) k)) /\
    stands m' hb ho (H1 shake lam (concat (map (fun t => tree_hash lam (root_of t) iv (depth t)) (trees tau)))) /\
    unchanged m m' (fun b q => within Qb Qo (before tau * n) b q \/ within hb ho (lam / 8 * 2) b q).
Proof. exact vole_roundtrip_returns. Qed.
Print Assumptions C62_roundtrip.

(** ** A case *)
(** The memory of C61 with a challenge of the bits 0, 1, 1, those of the hidden leaves 2 and 1, and room for the openings, the columns of the receiver and the hash. *)
Definition vole_memory : mem :=
  let m0 := memory [] [map Z.of_N (some_bytes 24); map Z.of_N (some_bytes 16); [192; 0] ++ repeat 0 14 ++ [2; 0; 2; 0; 1; 0; 1; 0; 1; 0];
      [0]; [0]; [0]; [0]; [0]; [0]; [0]; [0]; repeat 9 6; repeat 9 2; repeat 9 2; repeat 9 48;
      [6]; [0; 1]; [1]; repeat 9 48; repeat 9 48; repeat 9 24; repeat 9 48; repeat 9 6; repeat 9 48] in
  let m1 := add_cells m0 [(0, block 4); (1, block 5); (2, block 6); (3, block 7); (4, block 8); (5, block 9); (6, block 10); (7, block 11)] 8 in
  let m2 := add_cells m1 [(0, VPtr (last_global + 12) 0); (1, VPtr (last_global + 12) 2); (2, VPtr (last_global + 12) 4)] 3 in
  let m3 := add_cells (add_cells m2 [(0, block 19); (1, block 21)] 2) [(0, block 20); (1, block 22)] 2 in
  add_cells m3 [(0, VPtr (last_global + 23) 0); (1, VPtr (last_global + 23) 2); (2, VPtr (last_global + 23) 4)] 3.
Definition vole_structures (t : N) : vec_com :=
  if (t =? 0)%N then VecCom (last_global + 25) 0 (last_global + 4) (last_global + 5) (last_global + 6) (last_global + 7)
  else VecCom (last_global + 25) 1 (last_global + 8) (last_global + 9) (last_global + 10) (last_global + 11).
Definition hidden (t : N) : N := if (t =? 0)%N then 2 else 1.
Definition opening_block (t : N) : positive := if (t =? 0)%N then (last_global + 19)%positive else (last_global + 21)%positive.
Definition com_block (t : N) : positive := if (t =? 0)%N then (last_global + 20)%positive else (last_global + 22)%positive.
Definition written_blocks : list positive := map (fun k => last_global + k)%positive [4; 5; 6; 7; 8; 9; 10; 11; 12; 13; 14; 15; 19; 20; 21; 22]%positive.
Ltac by_cases I := cbn in I; decompose [or] I; subst; try contradiction.
Lemma vole_structures_laid t : (t < 2)%N -> laid_out vole_memory (vole_structures t) /\ array (vole_structures t) = (last_global + 25)%positive /\ index (vole_structures t) = 0 + Z.of_N t.
Proof.
  intros H. assert (t = 0 \/ t = 1)%N as [->| ->] by lia; (split; [|split; reflexivity]); (split; [repeat constructor; cbn; intuition discriminate|]);
    (split; [intros b I; by_cases I; reflexivity|]); repeat (split; [eapply points_by; [reflexivity|vm_compute; reflexivity|reflexivity|reflexivity]|]);
    intros b I; by_cases I; vm_compute; discriminate.
Qed.
Lemma vole_commit_apart : commit_apart 2 vole_structures (last_global + 3) (last_global + 2) (last_global + 25) (last_global + 26) (last_global + 12) (last_global + 13) (last_global + 14) (last_global + 15).
Proof.
  split; [intros b I; by_cases I; reflexivity|]. split; [repeat constructor; cbn; intuition discriminate|]. split; [cbn; intuition discriminate|]. split; [cbn; intuition discriminate|]. split.
  - intros t b Ht I J. assert (t = 0 \/ t = 1)%N as [->| ->] by lia; cbn in I, J; decompose [or] I; subst; intuition discriminate.
  - intros t t' b Ht Ht' NE I J. assert (t = 0 /\ t' = 1 \/ t = 1 /\ t' = 0)%N as [[-> ->]|[-> ->]] by lia; cbn in I, J; decompose [or] I; subst; intuition discriminate.
Qed.
Lemma two_cases t : (t < 2)%N -> (t = 0 \/ t = 1)%N. Proof. lia. Qed.
Lemma three_cases t : (t < 3)%N -> (t = 0 \/ t = 1 \/ t = 2)%N. Proof. lia. Qed.
Lemma vole_pointers b t : In (b, t) [(last_global + 26, last_global + 12); (last_global + 29, last_global + 23)]%positive ->
  forall k, (k < bits_before 2 1 1 2)%N -> points vole_memory b (0 + Z.of_N k) t (0 + Z.of_N (k * ((9 + 7) / 8))).
Proof.
  intros I k Hk. change (bits_before 2 1 1 2) with 3%N in Hk. cbn [In] in I. destruct I as [E|[E|[]]]; injection E as <- <-;
    (destruct (three_cases k Hk) as [->|[->| ->]]; (eapply points_by; [reflexivity|vm_compute; reflexivity|reflexivity|reflexivity])).
Qed.
Lemma opening_pointers t : (t < 2)%N -> points vole_memory (last_global + 27) (0 + Z.of_N t) (opening_block t) 0 /\ points vole_memory (last_global + 28) (0 + Z.of_N t) (com_block t) 0.
Proof. intros Ht. destruct (two_cases t Ht) as [->| ->]; (split; (eapply points_by; [reflexivity|vm_compute; reflexivity|reflexivity|reflexivity])). Qed.
Lemma hidden_leaves t : (t < 2)%N -> hidden_leaf [6%N] 2 1 1 t (hidden t).
Proof.
  intros Ht. destruct (two_cases t Ht) as [->| ->]; (split; [reflexivity|]); intros j Hj.
  - change (bits_taken 2 1 1 0) with 2%N in Hj. destruct (two_cases j Hj) as [->| ->]; reflexivity.
  - change (bits_taken 2 1 1 1) with 1%N in Hj. apply N.lt_1_r in Hj. subst j. reflexivity.
Qed.
Lemma unchanged_weak m m' (S T : positive -> Z -> Prop) : unchanged m m' S -> (forall b q, S b q -> T b q) -> unchanged m m' T.
Proof. intros [N U] H. split; [exact N|]. intros b k o F L O. destruct (U b k o F L O) as (k' & F' & Z' & G). exists k'. split; [exact F'|]. split; [exact Z'|]. intros X. apply G. intros Y. apply X, H, Y. Qed.
Lemma not_nil (l : list N) n : N.of_nat (length l) = n -> n <> 0%N -> l <> []. Proof. intros <- X ->. exact (X eq_refl). Qed.
Notation root_of := (tree_root 192 2 (some_bytes 24) (some_bytes 16)).
(** The sender commits and opens both trees; the receiver gets the same hash, the first column of the sender, and the second with the mask added. *)
Example C62_case : exists v m1 h k com sd h' k' com' sd' w m2 x m3 y m4 hash column0 column1 mask,
  returns f_vole_commit [block 1; block 2; VInt 9; block 3; block 15; block 25; block 14; block 13; block 26] vole_memory v m1 /\
  stands m1 (last_global + 15) 0 hash /\ stands m1 (last_global + 12) 0 column0 /\ stands m1 (last_global + 12) 2 column1 /\ stands m1 (last_global + 13) 0 mask /\
  member_blocks m1 (vole_structures 0) h k com sd /\ member_blocks m1 (vole_structures 1) h' k' com' sd' /\
  returns f_vector_open [VPtr k 0; VPtr com 0; block 17; block 19; block 20; VInt 2; VInt 24] m1 w m2 /\
  returns f_vector_open [VPtr k' 0; VPtr com' 0; block 18; block 21; block 22; VInt 1; VInt 24] m2 x m3 /\
  returns f_vole_reconstruct [block 2; block 16; block 27; block 28; block 24; block 29; VInt 9; block 3] m3 y m4 /\
  stands m4 (last_global + 24) 0 hash /\ stands m4 (last_global + 23) 0 column0 /\ stands m4 (last_global + 23) 2 (sum 2 [column1; mask]).
Proof.
  assert (BR : byte_string (some_bytes 24) (192 / 8)) by (split; [reflexivity|apply bytes_in_ok; vm_compute; reflexivity]).
  assert (BI : byte_string (some_bytes 16) 16) by (split; [reflexivity|apply bytes_in_ok; vm_compute; reflexivity]).
  assert (SL : security_level 192) by (right; left; reflexivity).
  assert (LD : loaded vole_memory) by (apply loadedb_ok; vm_compute; reflexivity).
  assert (RO : forall t, (t < 2)%N -> byte_string (root_of t) (192 / 8)) by (intros t Ht; apply tree_root_ok; assumption).
  destruct (C61_commit 192 2 2 1 1 9 (some_bytes 24) (some_bytes 16) vole_memory vole_structures (last_global + 1) 0 (last_global + 2) 0 (last_global + 3) 0 (last_global + 15) 0 (last_global + 25) 0
    (last_global + 14) 0 (last_global + 13) 0 (last_global + 26) 0 (last_global + 12) 0) as (v & m1 & R1 & TR & V & U & _ & H & UN); try assumption; try reflexivity; try (split; [vm_compute; discriminate|reflexivity || (vm_compute; discriminate)]).
  - vm_compute. discriminate.
  - repeat split; vm_compute; reflexivity.
  - exact vole_structures_laid.
  - apply vole_pointers. left. reflexivity.
  - vm_compute. discriminate.
  - vm_compute. discriminate.
  - vm_compute. discriminate.
  - vm_compute. discriminate.
  - exact vole_commit_apart.
  - destruct (TR 0%N eq_refl) as (h & k & com & sd & MB & _ & FR & (T & LV & _)). destruct (TR 1%N eq_refl) as (h' & k' & com' & sd' & MB' & _ & FR' & (T' & LV' & _)). clear TR.
    assert (B : forall b, In b [h; k; com; sd] \/ In b [h'; k'; com'; sd'] -> (last_global + 29 < b)%positive)
      by (assert (H0 : mnext vole_memory = (last_global + 30)%positive) by (vm_compute; reflexivity); intros b [I|I]; [apply FR in I|apply FR' in I]; clear - H0 I; lia).
    assert (U1 : unchanged vole_memory m1 (fun b _ => In b written_blocks)).
    { eapply unchanged_weak; [exact UN|].
      intros b q X. destruct X as [(t & Ht & I)|[[-> _]|[[-> _]|[[-> _]|[-> _]]]]]; [|cbn; tauto..]. destruct (two_cases t Ht) as [->| ->]; cbn in I |- *; tauto. }
    assert (ST1 : forall b l, l <> [] -> stands vole_memory b 0 l -> ~ In b written_blocks -> stands m1 b 0 l) by (intros b l NE S X; eapply stands_kept; [exact S|exact NE|exact U1|intros q _; exact X]).
    assert (RM1 : forall b n, (n <> 0)%N -> room vole_memory b 0 n -> room m1 b 0 n) by (intros b n NE S; eapply room_kept; [exact S|exact NE|exact U1]).
    destruct (C58_open 192 2 2 (grown 192 (root_of 0%N) (some_bytes 16)) (leaf_com shake 192 (grown 192 (root_of 0%N) (some_bytes 16) 2 2) (some_bytes 16)) m1 k com
      (last_global + 17) 0 (last_global + 19) 0 (last_global + 20) 0) as (w & m2 & R2 & A2 & C2 & U2).
    + exact SL.
    + split; vm_compute; discriminate.
    + reflexivity.
    + exact T.
    + apply grown_length; [exact SL|apply RO; reflexivity|exact BI].
    + apply (LV 2%N). reflexivity.
    + apply leaf_com_length.
    + apply ST1; [discriminate|vm_compute; reflexivity|cbn; intuition discriminate].
    + apply RM1; vm_compute; discriminate.
    + apply RM1; vm_compute; discriminate.
    + apply disjoint_blocks. discriminate.
    + intros E. assert (X := B k ltac:(cbn; tauto)). rewrite <- E in X. vm_compute in X. discriminate.
    + intros E. assert (X := B com ltac:(cbn; tauto)). rewrite <- E in X. vm_compute in X. discriminate.
    + discriminate.
    + assert (U2' : unchanged vole_memory m2 (fun b _ => In b written_blocks)) by (eapply unchanged_trans; [exact U1|exact U2|intros b q X; exact X|intros b q [[-> _]|[-> _]]; cbn; tauto]).
      destruct (C58_open 192 1 1 (grown 192 (root_of 1%N) (some_bytes 16)) (leaf_com shake 192 (grown 192 (root_of 1%N) (some_bytes 16) 1 1) (some_bytes 16)) m2 k' com'
        (last_global + 18) 0 (last_global + 21) 0 (last_global + 22) 0) as (x & m3 & R3 & A3 & C3 & U3).
      * exact SL.
      * split; vm_compute; discriminate.
      * reflexivity.
      * intros l p Hl Hp. eapply stands_kept; [exact (T' l p Hl Hp)| |exact U2|].
        -- eapply not_nil; [apply grown_length; [exact SL|apply RO; reflexivity|exact BI]|discriminate].
        -- assert (X := B k' ltac:(cbn; tauto)). intros q _ [[-> _]|[-> _]]; vm_compute in X; discriminate X.
      * apply grown_length; [exact SL|apply RO; reflexivity|exact BI].
      * eapply stands_kept; [exact (proj2 (LV' 1%N eq_refl))| |exact U2|].
        -- eapply not_nil; [apply leaf_com_length|discriminate].
        -- assert (X := B com' ltac:(cbn; tauto)). intros q _ [[-> _]|[-> _]]; vm_compute in X; discriminate X.
      * apply leaf_com_length.
      * eapply (stands_kept vole_memory); [vm_compute; reflexivity|discriminate|exact U2'|intros q _; cbn; intuition discriminate].
      * eapply (room_kept vole_memory); [vm_compute; discriminate|discriminate|exact U2'].
      * eapply (room_kept vole_memory); [vm_compute; discriminate|discriminate|exact U2'].
      * apply disjoint_blocks. discriminate.
      * intros E. assert (X := B k' ltac:(cbn; tauto)). rewrite <- E in X. vm_compute in X. discriminate.
      * intros E. assert (X := B com' ltac:(cbn; tauto)). rewrite <- E in X. vm_compute in X. discriminate.
      * discriminate.
      * assert (U3' : unchanged vole_memory m3 (fun b _ => In b written_blocks)) by (eapply unchanged_trans; [exact U2'|exact U3|intros b q X; exact X|intros b q [[-> _]|[-> _]]; cbn; tauto]).
        assert (PT : forall b i t o, points vole_memory b i t o -> ~ In b written_blocks -> points m3 b i t o) by (intros b i t o S X; eapply points_kept; [exact S|exact U3'|exact X]).
        destruct (C62_roundtrip 192 2 2 1 1 1 9 root_of (some_bytes 16) [6%N] hidden m3 (last_global + 2) 0 (last_global + 16) 0 (last_global + 27) 0 (last_global + 28) 0 (last_global + 24) 0 (last_global + 29) 0
          (last_global + 3) 0 (last_global + 23) 0 opening_block (fun _ => 0) com_block (fun _ => 0)) as (y & m4 & R4 & Q & H4 & _); try assumption; try reflexivity; try (split; [vm_compute; discriminate|reflexivity || (vm_compute; discriminate)]).
        -- vm_compute. discriminate.
        -- vm_compute. discriminate.
        -- eapply loaded_kept; [exact LD|exact U3'|]. intros b q I. by_cases I; reflexivity.
        -- repeat split; (eapply (stands_kept vole_memory); [vm_compute; reflexivity|discriminate|exact U3'|intros q _; cbn; intuition discriminate]).
        -- eapply (stands_kept vole_memory); [vm_compute; reflexivity|discriminate|exact U3'|intros q _; cbn; intuition discriminate].
        -- eapply (stands_kept vole_memory); [vm_compute; reflexivity|discriminate|exact U3'|intros q _; cbn; intuition discriminate].
        -- intros t Ht. split; [exact (hidden_leaves t Ht)|]. split; [apply RO; exact Ht|].
           split; [apply PT; [exact (proj1 (opening_pointers t Ht))|cbn; intuition discriminate]|]. split; [apply PT; [exact (proj2 (opening_pointers t Ht))|cbn; intuition discriminate]|].
              destruct (two_cases t Ht) as [->| ->].
              ** split.
                 --- intros l Hl. eapply stands_kept; [exact (A2 l Hl)| |exact U3|intros q _ [[E _]|[E _]]; discriminate E].
                     eapply not_nil; [apply grown_length; [exact SL|apply RO; reflexivity|exact BI]|discriminate].
                 --- eapply stands_kept; [exact C2| |exact U3|intros q _ [[E _]|[E _]]; discriminate E].
                     eapply not_nil; [apply leaf_com_length|discriminate].
              ** split; [exact A3|exact C3].
        -- intros j Hj. apply PT; [apply vole_pointers; [right; left; reflexivity|exact Hj]|cbn; intuition discriminate].
        -- eapply (room_kept vole_memory); [vm_compute; discriminate|discriminate|exact U3'].
        -- eapply (room_kept vole_memory); [vm_compute; discriminate|discriminate|exact U3'].
        -- split; [intros b I; by_cases I; reflexivity|]. split; [discriminate|]. split; [cbn; intuition discriminate|]. intros t Ht. destruct (two_cases t Ht) as [->| ->]; cbn; intuition discriminate.
        -- exists v, m1, h, k, com, sd, h', k', com', sd', w, m2, x, m3, y, m4. do 4 eexists. split; [exact R1|]. split; [exact H|]. split; [exact (V 0%N 0%N eq_refl eq_refl)|]. split; [exact (V 0%N 1%N eq_refl eq_refl)|]. split; [exact U|].
           split; [exact MB|]. split; [exact MB'|]. split; [exact R2|]. split; [exact R3|]. split; [exact R4|]. split; [exact H4|]. split; [exact (Q 0%N 0%N eq_refl eq_refl)|exact (Q 0%N 1%N eq_refl eq_refl)].
Qed.
