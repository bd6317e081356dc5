(** C57: the C text of the hash functions computes SHAKE, for every sequence of pieces and outputs, ends, and stays within its memory. *)
From Coq Require Import ZArith NArith List Bool FMapPositive Lia.
From Verif Require Import Spec.KeccakSpec.
From Verif Require Import Model.CtLang Model.CtNames Model.CtProgram Spec.CtSpec Spec.RefSpec Spec.RefShakeSpec Proof.RefProps Proof.RefShakeProps Proof.RefShakeProps4.
Import ListNotations.
Local Open Scope Z_scope.

(** Start, any number of pieces, finish, any number of outputs: the outputs are consecutive
    parts of the SHAKE of the pieces put together. *)
Theorem C57_hash : forall m c sec is us, loaded m -> allocated m c -> (sec < 2 ^ 32)%N ->
  Forall (given m c) is -> Forall (vacant m c) us -> ForallOrdPairs apart us ->
  exists m', runs (start_call f_hash_init c sec :: map (feed_call f_hash_update c) is ++ [(f_hash_final, [VPtr (instance c) 0])] ++ map (take_call f_hash_squeeze c) us) m m' /\
    (forall b o l, In (b, o, l) (dealt (shake sec (message is) (total us)) us) -> stands m' b o l) /\ unchanged m m' (touched c us).
Proof. exact hash_runs. Qed.
Print Assumptions C57_hash.

(** The random oracles: a byte that tells them apart comes after the pieces. *)
Theorem C57_H0 : forall m c sec is b o n b' o' n', loaded m -> allocated m c -> (sec < 2 ^ 32)%N -> Forall (given m c) is ->
  vacant m c (b, o, n) -> vacant m c (b', o', n') -> apart (b, o, n) (b', o', n') ->
  exists m', runs (start_call f_H0_init c sec :: map (feed_call f_H0_update c) is ++ [(f_H0_final, [VPtr (instance c) 0; VPtr b o; VInt (Z.of_N n); VPtr b' o'; VInt (Z.of_N n')])]) m m' /\
    stands m' b o (firstn (N.to_nat n) (shake sec (message is ++ [0%N]) (n + n'))) /\ stands m' b' o' (skipn (N.to_nat n) (shake sec (message is ++ [0%N]) (n + n'))) /\
    unchanged m m' (touched c [(b, o, n); (b', o', n')]).
Proof. exact H0_runs. Qed.
Print Assumptions C57_H0.
Theorem C57_H1 : forall m c sec is b o n, loaded m -> allocated m c -> (sec < 2 ^ 32)%N -> Forall (given m c) is -> vacant m c (b, o, n) ->
  exists m', runs (start_call f_H1_init c sec :: map (feed_call f_H1_update c) is ++ [take_call f_H1_final c (b, o, n)]) m m' /\
    stands m' b o (shake sec (message is ++ [1%N]) n) /\ unchanged m m' (touched c [(b, o, n)]).
Proof. exact H1_runs. Qed.
Print Assumptions C57_H1.
Theorem C57_H2 : forall m c sec is b o n, loaded m -> allocated m c -> (sec < 2 ^ 32)%N -> Forall (given m c) is -> vacant m c (b, o, n) ->
  exists m', runs (start_call f_H2_init c sec :: map (feed_call f_H2_update c) is ++ [take_call f_H2_final c (b, o, n)]) m m' /\
    stands m' b o (shake sec (message is ++ [2%N]) n) /\ unchanged m m' (touched c [(b, o, n)]).
Proof. exact H2_runs. Qed.
Print Assumptions C57_H2.
Theorem C57_H3 : forall m c sec is b o n b' o', loaded m -> allocated m c -> (sec < 2 ^ 32)%N -> Forall (given m c) is ->
  vacant m c (b, o, n) -> vacant m c (b', o', 16%N) -> apart (b, o, n) (b', o', 16%N) ->
  exists m', runs (start_call f_H3_init c sec :: map (feed_call f_H3_update c) is ++ [(f_H3_final, [VPtr (instance c) 0; VPtr b o; VInt (Z.of_N n); VPtr b' o'])]) m m' /\
    stands m' b o (firstn (N.to_nat n) (shake sec (message is ++ [3%N]) (n + 16))) /\ stands m' b' o' (skipn (N.to_nat n) (shake sec (message is ++ [3%N]) (n + 16))) /\
    unchanged m m' (touched c [(b, o, n); (b', o', 16%N)]).
Proof. exact H3_runs. Qed.
Print Assumptions C57_H3.

(** Four at a time: each of the four gets what the one above would give it. *)
Theorem C57_H0_x4 : forall m c sec is us n vs n', loaded m -> allocated_four m c -> (sec < 2 ^ 32)%N -> Forall (given_four m c) is ->
  vacant_four m c us n -> vacant_four m c vs n' -> (0 < n)%N -> (0 < n')%N -> ForallOrdPairs apart (us ++ vs) ->
  exists m', runs (start_call f_H0_x4_init c sec :: map (feed_four_call f_H0_x4_update c) is ++ [take_four_call f_H0_x4_final c us n vs n']) m m' /\
    (forall j b o, nth_error us j = Some (b, o, n) -> stands m' b o (firstn (N.to_nat n) (shake sec (message_of j is ++ [0%N]) (n + n')))) /\
    (forall j b o, nth_error vs j = Some (b, o, n') -> stands m' b o (skipn (N.to_nat n) (shake sec (message_of j is ++ [0%N]) (n + n')))) /\
    unchanged m m' (touched c (us ++ vs)).
Proof. exact H0_x4_runs. Qed.
Print Assumptions C57_H0_x4.

(** ** Cases *)
(** a memory with the members of a context, three inputs and two outputs *)
Definition some_bytes (n : nat) : list N := map (fun i => (N.of_nat i * 37 + 11) mod 256)%N (seq 0 n).
Definition pointers (l : list positive) : list (Z * positive) := combine (map Z.of_nat (seq 0 (length l))) (map (fun i => (last_global + i)%positive) l).
Definition add_pointers (m : mem) (l : list positive) : mem :=
  fresh m (Z.of_nat (length l)) (fold_left (fun c p => put c (fst p) (VPtr (snd p) 0)) (pointers l) (PositiveMap.empty value)).
Definition case_context : hash_context := HashContext (last_global + 12) (last_global + 11) (last_global + 1) (last_global + 2) (last_global + 3) (last_global + 4) (last_global + 5) (last_global + 6).
Definition case_memory : mem :=
  add_pointers (add_pointers (memory [] [repeat 7 200; repeat 7 4; repeat 7 4; repeat 7 4; repeat 7 4; [7]; map Z.of_N (some_bytes 150); map Z.of_N (some_bytes 20); repeat 0 300; repeat 0 40]) [1; 2; 3; 4]%positive) [11; 5; 6]%positive.
Definition case_inputs : list input := [((last_global + 7)%positive, 0, some_bytes 150); ((last_global + 8)%positive, 0, []); ((last_global + 8)%positive, 0, some_bytes 20)].
Definition case_outputs : list output := [((last_global + 9)%positive, 1, 250%N); ((last_global + 10)%positive, 0, 16%N)].

Lemma points_by m b i t o k : (b < mnext m)%positive -> PositiveMap.find b (mblocks m) = Some k -> (0 <=? i) && (i <? bsize k) = true -> get (bcells k) i = VPtr t o -> points m b i t o.
Proof. intros L F I G. apply andb_prop in I. destruct I as [I1 I2]. split; [exact L|]. exists k. split; [exact F|]. split; [|exact G]. split; [apply Z.leb_le, I1|apply Z.ltb_lt, I2]. Qed.
Lemma bytes_in_ok l : forallb (fun b => (b <? 256)%N) l = true -> Forall (fun b => (b < 256)%N) l.
Proof. intros H. apply Forall_forall. intros b I. apply N.ltb_lt. exact (proj1 (forallb_forall _ _) H b I). Qed.
Lemma case_allocated : loaded case_memory /\ allocated case_memory case_context.
Proof.
  split; [apply loadedb_ok; vm_compute; reflexivity|].
  split; [repeat constructor; cbn; intuition discriminate|].
  split; [intros b I; cbn in I; decompose [or] I; subst; try reflexivity; contradiction|].
  repeat (split; [eapply points_by; [reflexivity|vm_compute; reflexivity|reflexivity|reflexivity]|]). repeat (split; [vm_compute; discriminate|]). vm_compute; discriminate.
Qed.
Lemma case_places : Forall (given case_memory case_context) case_inputs /\ Forall (vacant case_memory case_context) case_outputs /\ ForallOrdPairs apart case_outputs.
Proof.
  split; [|split].
  - repeat apply Forall_cons; try apply Forall_nil; (split; [vm_compute; reflexivity|]; split; [apply bytes_in_ok; vm_compute; reflexivity|]; split; [vm_compute; discriminate|]; split; [reflexivity|]; cbn; intuition discriminate).
  - repeat apply Forall_cons; try apply Forall_nil; (split; [vm_compute; discriminate|]; split; [vm_compute; discriminate|]; split; [reflexivity|]; cbn; intuition discriminate).
  - unfold case_outputs. repeat constructor. apply disjoint_blocks. discriminate.
Qed.
(** an input of more than one block in three pieces, one of them empty, and an output of more than one block in two *)
Example C57_case_hash : exists m',
  runs ((f_hash_init, [block 12; VInt 128]) :: (f_hash_update, [block 12; block 7; VInt 150]) :: (f_hash_update, [block 12; block 8; VInt 0]) :: (f_hash_update, [block 12; block 8; VInt 20]) ::
    (f_hash_final, [block 12]) :: (f_hash_squeeze, [block 12; VPtr (last_global + 9) 1; VInt 250]) :: (f_hash_squeeze, [block 12; block 10; VInt 16]) :: nil) case_memory m' /\
  stands m' (last_global + 10) 0 (firstn 16 (skipn 250 (shake 128 (some_bytes 150 ++ some_bytes 20) 266))).
Proof.
  destruct case_allocated as (L & A). destruct case_places as (I & U & P).
  destruct (C57_hash case_memory case_context 128 case_inputs case_outputs L A eq_refl I U P) as (m' & R & S & _). exists m'. split; [exact R|].
  apply S. unfold case_outputs, case_inputs. cbn [dealt In total fold_right snd message map concat app]. right. left. f_equal.
Qed.
Example C57_case_H0 : exists m',
  runs ((f_H0_init, [block 12; VInt 192]) :: (f_H0_update, [block 12; block 7; VInt 150]) :: (f_H0_update, [block 12; block 8; VInt 0]) :: (f_H0_update, [block 12; block 8; VInt 20]) ::
    (f_H0_final, [block 12; VPtr (last_global + 9) 1; VInt 250; block 10; VInt 16]) :: nil) case_memory m' /\
  stands m' (last_global + 10) 0 (skipn 250 (shake 192 (some_bytes 150 ++ some_bytes 20 ++ [0%N]) 266)).
Proof.
  destruct case_allocated as (L & A). destruct case_places as (I & U & P). inversion U as [|x y U1 U2]; subst. inversion U2 as [|x y U3 U4]; subst.
  destruct (C57_H0 case_memory case_context 192 case_inputs _ _ _ _ _ _ L A eq_refl I U1 U3) as (m' & R & _ & S & _); [apply disjoint_blocks; discriminate|]. exists m'. split; [exact R|].
  exact S.
Qed.
Example C57_case_H1 : exists m',
  runs ((f_H1_init, [block 12; VInt 256]) :: (f_H1_update, [block 12; block 7; VInt 150]) :: (f_H1_update, [block 12; block 8; VInt 0]) :: (f_H1_update, [block 12; block 8; VInt 20]) ::
    (f_H1_final, [block 12; VPtr (last_global + 9) 1; VInt 250]) :: nil) case_memory m' /\
  stands m' (last_global + 9) 1 (shake 256 (some_bytes 150 ++ some_bytes 20 ++ [1%N]) 250).
Proof.
  destruct case_allocated as (L & A). destruct case_places as (I & U & P). inversion U as [|x y U1 U2]; subst.
  destruct (C57_H1 case_memory case_context 256 case_inputs _ _ _ L A eq_refl I U1) as (m' & R & S & _). exists m'. split; [exact R|]. exact S.
Qed.
Example C57_case_H2 : exists m',
  runs ((f_H2_init, [block 12; VInt 128]) :: (f_H2_update, [block 12; block 7; VInt 150]) :: (f_H2_update, [block 12; block 8; VInt 0]) :: (f_H2_update, [block 12; block 8; VInt 20]) ::
    (f_H2_final, [block 12; VPtr (last_global + 9) 1; VInt 250]) :: nil) case_memory m' /\
  stands m' (last_global + 9) 1 (shake 128 (some_bytes 150 ++ some_bytes 20 ++ [2%N]) 250).
Proof.
  destruct case_allocated as (L & A). destruct case_places as (I & U & P). inversion U as [|x y U1 U2]; subst.
  destruct (C57_H2 case_memory case_context 128 case_inputs _ _ _ L A eq_refl I U1) as (m' & R & S & _). exists m'. split; [exact R|]. exact S.
Qed.
Example C57_case_H3 : exists m',
  runs ((f_H3_init, [block 12; VInt 128]) :: (f_H3_update, [block 12; block 7; VInt 150]) :: (f_H3_update, [block 12; block 8; VInt 0]) :: (f_H3_update, [block 12; block 8; VInt 20]) ::
    (f_H3_final, [block 12; VPtr (last_global + 9) 1; VInt 250; block 10]) :: nil) case_memory m' /\
  stands m' (last_global + 10) 0 (skipn 250 (shake 128 (some_bytes 150 ++ some_bytes 20 ++ [3%N]) 266)).
Proof.
  destruct case_allocated as (L & A). destruct case_places as (I & U & P). inversion U as [|x y U1 U2]; subst. inversion U2 as [|x y U3 U4]; subst.
  destruct (C57_H3 case_memory case_context 128 case_inputs _ _ _ _ _ L A eq_refl I U1 U3) as (m' & R & _ & S & _); [apply disjoint_blocks; discriminate|]. exists m'. split; [exact R|]. exact S.
Qed.
(** four inputs of one length in two pieces, the second the same for all, and four outputs that follow one another in one block beside four in another *)
Definition case4_memory : mem :=
  add_pointers (add_pointers (memory [] [repeat 7 800; repeat 7 4; repeat 7 4; repeat 7 4; repeat 7 4; [7]; map Z.of_N (some_bytes 600); map Z.of_N (some_bytes 20); repeat 0 128; repeat 0 256]) [1; 2; 3; 4]%positive) [11; 5; 6]%positive.
Definition piece (j : nat) : list N := firstn 150 (skipn (150 * j) (some_bytes 600)).
Definition case4_inputs : list (N * list input) :=
  [(150%N, [((last_global + 7)%positive, 0, piece 0); ((last_global + 7)%positive, 150, piece 1); ((last_global + 7)%positive, 300, piece 2); ((last_global + 7)%positive, 450, piece 3)]);
   (20%N, repeat ((last_global + 8)%positive, 0, some_bytes 20) 4)].
Definition case4_seeds : list output := map (fun j => ((last_global + 9)%positive, Z.of_nat (32 * j), 32%N)) (seq 0 4).
Definition case4_coms : list output := map (fun j => ((last_global + 10)%positive, Z.of_nat (64 * j), 64%N)) (seq 0 4).
Example C57_case_H0_x4 : exists m',
  runs ((f_H0_x4_init, [block 12; VInt 256]) :: (f_H0_x4_update, [block 12; block 7; VPtr (last_global + 7) 150; VPtr (last_global + 7) 300; VPtr (last_global + 7) 450; VInt 150]) ::
    (f_H0_x4_update, [block 12; block 8; block 8; block 8; block 8; VInt 20]) ::
    (f_H0_x4_final, [block 12; block 9; VPtr (last_global + 9) 32; VPtr (last_global + 9) 64; VPtr (last_global + 9) 96; VInt 32;
      block 10; VPtr (last_global + 10) 64; VPtr (last_global + 10) 128; VPtr (last_global + 10) 192; VInt 64]) :: nil) case4_memory m' /\
  stands m' (last_global + 10) 128 (skipn 32 (shake 256 (piece 2 ++ some_bytes 20 ++ [0%N]) 96)).
Proof.
  destruct (C57_H0_x4 case4_memory case_context 256 case4_inputs case4_seeds 32 case4_coms 64) as (m' & R & _ & S & _).
  - apply loadedb_ok; vm_compute; reflexivity.
  - split; [|vm_compute; discriminate]. split; [repeat constructor; cbn; intuition discriminate|].
    split; [intros b I; cbn in I; decompose [or] I; subst; try reflexivity; contradiction|].
    repeat (split; [eapply points_by; [reflexivity|vm_compute; reflexivity|reflexivity|reflexivity]|]). repeat (split; [vm_compute; discriminate|]). vm_compute; discriminate.
  - reflexivity.
  - repeat apply Forall_cons; try apply Forall_nil; (split; [reflexivity|]; repeat apply Forall_cons; try apply Forall_nil;
      (split; [|vm_compute; reflexivity]; split; [vm_compute; reflexivity|]; split; [apply bytes_in_ok; vm_compute; reflexivity|]; split; [vm_compute; discriminate|]; split; [reflexivity|]; cbn; intuition discriminate)).
  - split; [reflexivity|]. repeat apply Forall_cons; try apply Forall_nil; (split; [|reflexivity]; split; [vm_compute; discriminate|]; split; [vm_compute; discriminate|]; split; [reflexivity|]; cbn; intuition discriminate).
  - split; [reflexivity|]. repeat apply Forall_cons; try apply Forall_nil; (split; [|reflexivity]; split; [vm_compute; discriminate|]; split; [vm_compute; discriminate|]; split; [reflexivity|]; cbn; intuition discriminate).
  - reflexivity.
  - reflexivity.
  - unfold case4_seeds, case4_coms. cbn [map seq app]. repeat constructor; (apply disjoint_blocks; discriminate) || (intros b q [_ X] [_ Y]; cbn in X, Y; revert X Y; generalize q; clear; intros; lia).
  - exists m'. split; [exact R|]. exact (S 2%nat _ _ eq_refl).
Qed.
