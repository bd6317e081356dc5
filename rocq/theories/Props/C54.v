(** C54: the C text of the key functions computes the keys of the specification, ends, and stays within its memory. *)
From Coq Require Import ZArith NArith List Bool FMapPositive.
From Verif Require Import Model.Params Spec.OwfSpec Spec.KeySpec Proof.KeyCases.
From Verif Require Import Model.CtLang Model.CtNames Model.CtProgram Spec.CtSpec Spec.RefSpec Proof.RefProps.
Import ListNotations.
Local Open Scope Z_scope.

(** Key generation, in any memory with the constants of the library, room for the two keys outside of the
    library's own data, and a random source whose attempt number [k] is the first that is a valid private key. *)
Theorem C54_keygen : forall i m pb po sb so p random k,
  loaded m -> (last_global < pb)%positive -> (last_global < sb)%positive ->
  room m pb po (pk_bytes i) -> room m sb so (sk_bytes i) -> disjoint pb po (pk_bytes i) sb so (sk_bytes i) ->
  used m p -> stands m tape (Z.of_N p) random -> Forall (fun b => (b < 256)%N) random -> (p + N.of_nat (length random) < 2 ^ 64)%N ->
  ((k + 1) * sk_bytes i <= N.of_nat (length random))%N ->
  (forall j, (j < k)%N -> ~ valid_key i (attempt i random j)) -> valid_key i (attempt i random k) ->
  exists m', returns (keygen_of i) [VPtr pb po; VPtr sb so] m (VInt 0) m' /\
    stands m' sb so (attempt i random k) /\ stands m' pb po (public_of i (attempt i random k)) /\ used m' (p + (k + 1) * sk_bytes i) /\
    unchanged m m' (fun b q => within pb po (pk_bytes i) b q \/ within sb so (sk_bytes i) b q \/ b = tape_pos).
Proof. exact keygen_returns. Qed.
Print Assumptions C54_keygen.

Theorem C54_keygen_null : forall i m pk sk, pk = VNull \/ sk = VNull -> returns (keygen_of i) [pk; sk] m (VInt (-1)) m.
Proof. exact keygen_null. Qed.
Print Assumptions C54_keygen_null.

Theorem C54_validate_keypair : forall i m pb po sb so pk sk,
  loaded m -> stands m pb po pk -> stands m sb so sk -> Forall (fun b => (b < 256)%N) pk -> Forall (fun b => (b < 256)%N) sk ->
  N.of_nat (length pk) = pk_bytes i -> N.of_nat (length sk) = sk_bytes i ->
  exists v m', returns (validate_of i) [VPtr pb po; VPtr sb so] m v m' /\ unchanged m m' (fun _ _ => False) /\
    (~ valid_key i sk /\ v = VInt 1 \/ valid_key i sk /\ pk = public_of i sk /\ v = VInt 0 \/ valid_key i sk /\ pk <> public_of i sk /\ v = VInt 2).
Proof. exact validate_returns. Qed.
Print Assumptions C54_validate_keypair.

Theorem C54_validate_keypair_null : forall i m pk sk, pk = VNull \/ sk = VNull -> returns (validate_of i) [pk; sk] m (VInt (-1)) m.
Proof. exact validate_null. Qed.
Print Assumptions C54_validate_keypair_null.

Theorem C54_clear_private_key : forall i m b o, room m b o (sk_bytes i) ->
  exists v m', returns (clear_of i) [VPtr b o] m v m' /\ contents m' b o (N.to_nat (sk_bytes i)) = Some (repeat 0 (N.to_nat (sk_bytes i))) /\
    unchanged m m' (within b o (sk_bytes i)).
Proof. exact clear_returns. Qed.
Print Assumptions C54_clear_private_key.

(** a random source that yields first a private key that is not valid and then one that is *)
Example C54_case_keygen :
  let m := memory (map Z.of_N (zero_sk ++ demo_sk)) [repeat 0 40; repeat 9 32] in
  loaded m /\ room m (last_global + 1) 8 (pk_bytes FAEST_128S) /\ room m (last_global + 2) 0 (sk_bytes FAEST_128S) /\
  disjoint (last_global + 1) 8 (pk_bytes FAEST_128S) (last_global + 2) 0 (sk_bytes FAEST_128S) /\
  used m 0 /\ stands m tape 0 (zero_sk ++ demo_sk) /\
  ~ valid_key FAEST_128S (attempt FAEST_128S (zero_sk ++ demo_sk) 0) /\ valid_key FAEST_128S (attempt FAEST_128S (zero_sk ++ demo_sk) 1) /\
  exists m', returns f_faest_128s_keygen [VPtr (last_global + 1) 8; block 2] m (VInt 0) m' /\
    stands m' (last_global + 2) 0 demo_sk /\ stands m' (last_global + 1) 8 (public_of FAEST_128S demo_sk).
Proof.
  cbv zeta.
  assert (A0 : attempt FAEST_128S (zero_sk ++ demo_sk) 0 = zero_sk) by (vm_compute; reflexivity).
  assert (A1 : attempt FAEST_128S (zero_sk ++ demo_sk) 1 = demo_sk) by (vm_compute; reflexivity).
  assert (H1 : loaded (memory (map Z.of_N (zero_sk ++ demo_sk)) [repeat 0 40; repeat 9 32])) by (apply loadedb_ok; vm_compute; reflexivity).
  assert (H2 : room (memory (map Z.of_N (zero_sk ++ demo_sk)) [repeat 0 40; repeat 9 32]) (last_global + 1) 8 (pk_bytes FAEST_128S)) by (vm_compute; discriminate).
  assert (H3 : room (memory (map Z.of_N (zero_sk ++ demo_sk)) [repeat 0 40; repeat 9 32]) (last_global + 2) 0 (sk_bytes FAEST_128S)) by (vm_compute; discriminate).
  assert (H4 : disjoint (last_global + 1) 8 (pk_bytes FAEST_128S) (last_global + 2) 0 (sk_bytes FAEST_128S)) by (apply disjoint_blocks; discriminate).
  assert (H5 : used (memory (map Z.of_N (zero_sk ++ demo_sk)) [repeat 0 40; repeat 9 32]) 0) by (exists (repeat 0 8); split; vm_compute; reflexivity).
  assert (H6 : stands (memory (map Z.of_N (zero_sk ++ demo_sk)) [repeat 0 40; repeat 9 32]) tape 0 (zero_sk ++ demo_sk)) by (vm_compute; reflexivity).
  rewrite A0, A1. pose proof zero_invalid as NV. pose proof demo_valid as V.
  destruct (C54_keygen FAEST_128S _ (last_global + 1) 8 (last_global + 2) 0 0 (zero_sk ++ demo_sk) 1 H1 eq_refl eq_refl H2 H3 H4 H5 H6) as (m' & R & S1 & S2 & _).
  - apply Forall_app. split; [apply zeros_bytes|exact demo_bytes].
  - reflexivity.
  - discriminate.
  - intros j Hj. apply N.lt_1_r in Hj. subst j. rewrite A0. exact NV.
  - rewrite A1. exact V.
  - rewrite A1 in S1, S2. repeat (split; [assumption|]). exists m'. auto.
Qed.

(** validation of that key pair, and of the private key with another public key *)
Example C54_case_validate :
  let m := memory [] [map Z.of_N demo_pk; map Z.of_N demo_sk; repeat 0 32] in
  public_of FAEST_128S demo_sk = demo_pk /\
  exists m1 m2, returns f_faest_128s_validate_keypair [block 1; block 2] m (VInt 0) m1 /\
    returns f_faest_128s_validate_keypair [block 3; block 2] m (VInt 2) m2.
Proof.
  cbv zeta. pose proof demo_valid as V. pose proof demo_public as P.
  assert (B : Forall (fun b => (b < 256)%N) demo_pk) by (repeat (constructor; [reflexivity|]); constructor).
  set (m := memory [] [map Z.of_N demo_pk; map Z.of_N demo_sk; repeat 0 32]).
  assert (H1 : loaded m) by (apply loadedb_ok; vm_compute; reflexivity).
  assert (H2 : stands m (last_global + 1) 0 demo_pk) by (vm_compute; reflexivity).
  assert (H3 : stands m (last_global + 2) 0 demo_sk) by (vm_compute; reflexivity).
  assert (H4 : stands m (last_global + 3) 0 (repeat 0%N 32)) by (vm_compute; reflexivity).
  assert (NE : repeat 0%N 32 <> demo_pk) by discriminate. split; [exact P|].
  destruct (C54_validate_keypair FAEST_128S m _ _ _ _ _ _ H1 H2 H3 B demo_bytes eq_refl eq_refl) as (v1 & m1 & R1 & _ & [[X _]|[(_ & _ & ->)|(_ & X & _)]]); [contradiction| |congruence].
  destruct (C54_validate_keypair FAEST_128S m _ _ _ _ _ _ H1 H4 H3 (zeros_bytes 32) demo_bytes eq_refl eq_refl) as (v2 & m2 & R2 & _ & [[X _]|[(_ & X & _)|(_ & _ & ->)]]); [contradiction|congruence|].
  exists m1, m2. auto.
Qed.

(** reading or writing past the end of a block is not a return: a private key buffer that is too short *)
Example C54_case_outside :
  let m := memory [] [repeat 5 31] in
  snd (call code 300 f_faest_128f_clear_private_key [block 1] m) = RFail /\ ~ room m (last_global + 1) 0 (sk_bytes FAEST_128F).
Proof. cbv zeta. split; [vm_compute; reflexivity|]. vm_compute. intros H. apply H. reflexivity. Qed.
