(** C63: the C text of the hashes of the transcript: mu and the three challenges. *)
From Coq Require Import ZArith NArith List Bool FMapPositive Lia.
From Verif Require Import Spec.KeccakSpec Spec.VcSpec Spec.RunSpec Spec.CtSpec Spec.RefSpec Spec.RefVcSpec Spec.RefTranscriptSpec.
From Verif Require Import Model.CtLang Model.CtNames Model.CtProgram Proof.RefProps Proof.RefTranscript.
Import ListNotations.
Local Open Scope Z_scope.

(** mu: both halves of the public key, then the message. *)
Theorem C63_mu : forall lam m, security_level lam -> loaded m -> forall inp out msg b o,
  filled m inp -> filled m out -> filled m msg -> size_of out = size_of inp -> open_for m (b, o, lam / 8 * 2)%N ->
  exists v m', returns f_hash_mu [VPtr b o; pointer inp; pointer out; VInt (Z.of_N (size_of inp)); pointer msg; VInt (Z.of_N (size_of msg)); VInt (Z.of_N lam)] m v m' /\
    stands m' b o (H1 shake lam (bytes_in inp ++ bytes_in out ++ bytes_in msg)) /\ unchanged m m' (over (b, o, lam / 8 * 2)%N).
Proof. exact mu_returns. Qed.
Print Assumptions C63_mu.

(** The first challenge: mu, the hash of the commitments, all corrections, the iv. *)
Theorem C63_challenge_1 : forall lam m, security_level lam -> loaded m -> forall l tau mu hcom c iv b o,
  filled m mu -> filled m hcom -> filled m c -> filled m iv ->
  size_of mu = (2 * (lam / 8))%N -> size_of hcom = (2 * (lam / 8))%N -> size_of c = ((l / 8 + 2 * (lam / 8) + 2) * (tau - 1))%N -> size_of iv = 16%N ->
  (l < 2 ^ 32)%N -> (1 <= tau < 2 ^ 32)%N -> open_for m (b, o, 5 * (lam / 8) + 8)%N ->
  exists v m', returns f_hash_challenge_1 [VPtr b o; pointer mu; pointer hcom; pointer c; pointer iv; VInt (Z.of_N lam); VInt (Z.of_N l); VInt (Z.of_N tau)] m v m' /\
    stands m' b o (H2 shake lam (bytes_in mu ++ bytes_in hcom ++ bytes_in c ++ bytes_in iv) (5 * (lam / 8) + 8)) /\ unchanged m m' (over (b, o, 5 * (lam / 8) + 8)%N).
Proof. exact challenge_1_returns. Qed.
Print Assumptions C63_challenge_1.

(** The second challenge: the first, u-tilde, the hash of V-tilde, the masked witness. *)
Theorem C63_challenge_2 : forall lam m, security_level lam -> loaded m -> forall l chal u hv d b o,
  filled m chal -> filled m u -> filled m hv -> filled m d ->
  size_of chal = (5 * (lam / 8) + 8)%N -> size_of u = (lam / 8 + 2)%N -> size_of hv = (2 * (lam / 8))%N -> size_of d = (l / 8)%N ->
  (l < 2 ^ 32)%N -> open_for m (b, o, 3 * (lam / 8) + 8)%N ->
  exists v m', returns f_hash_challenge_2 [VPtr b o; pointer chal; pointer u; pointer hv; pointer d; VInt (Z.of_N lam); VInt (Z.of_N l)] m v m' /\
    stands m' b o (H2 shake lam (bytes_in chal ++ bytes_in u ++ bytes_in hv ++ bytes_in d) (3 * (lam / 8) + 8)) /\ unchanged m m' (over (b, o, 3 * (lam / 8) + 8)%N).
Proof. exact challenge_2_returns. Qed.
Print Assumptions C63_challenge_2.

(** The third challenge: the second, a-tilde, b-tilde. *)
Theorem C63_challenge_3 : forall lam m, security_level lam -> loaded m -> forall chal a b ub uo,
  filled m chal -> filled m a -> filled m b ->
  size_of chal = (3 * (lam / 8) + 8)%N -> size_of a = (lam / 8)%N -> size_of b = (lam / 8)%N -> open_for m (ub, uo, lam / 8)%N ->
  exists v m', returns f_hash_challenge_3 [VPtr ub uo; pointer chal; pointer a; pointer b; VInt (Z.of_N lam)] m v m' /\
    stands m' ub uo (H2 shake lam (bytes_in chal ++ bytes_in a ++ bytes_in b) (lam / 8)) /\ unchanged m m' (over (ub, uo, lam / 8)%N).
Proof. exact challenge_3_returns. Qed.
Print Assumptions C63_challenge_3.

(** ** Cases *)
Definition some_bytes (n : nat) : list N := map (fun i => (N.of_nat i * 37 + 11) mod 256)%N (seq 0 n).
(** the inputs, and room for an output *)
Definition case_memory (sizes : list nat) (room : nat) : mem := memory [] (map (fun n => map Z.of_N (some_bytes n)) sizes ++ [repeat 0 room]).
Definition buffer_at (i : positive) (n : nat) : buffer := ((last_global + i)%positive, 0, some_bytes n).
Definition loadedb (m : mem) : bool := forallb (fun '(g, l) => match contents m g 0 (length l) with Some l' => if list_eq_dec Z.eq_dec l' l then true else false | None => false end) constants.
Lemma loadedb_ok m : loadedb m = true -> loaded m.
Proof.
  unfold loadedb. rewrite forallb_forall. intros H g l I. specialize (H _ I). cbn beta iota in H. destruct (contents m g 0 (length l)) as [l'|]; [|discriminate]. destruct (list_eq_dec Z.eq_dec l' l); [congruence|discriminate].
Qed.
Definition filledb (m : mem) (x : buffer) : bool :=
  let '(b, o, l) := x in match contents m b o (length l) with Some l' => if list_eq_dec Z.eq_dec l' (map Z.of_N l) then true else false | None => false end &&
    forallb (fun v => (v <? 256)%N) l && (N.of_nat (length l) + 200 <=? 2 ^ 32)%N && (last_global <? b)%positive.
Lemma filledb_ok m x : filledb m x = true -> filled m x.
Proof.
  destruct x as [[b o] l]. unfold filledb, filled, stands. rewrite !andb_true_iff, forallb_forall. intros (((A & B) & C) & D). split; [|split; [|split]].
  - destruct (contents m b o (length l)) as [l'|]; [|discriminate]. destruct (list_eq_dec Z.eq_dec l' (map Z.of_N l)); [congruence|discriminate].
  - apply Forall_forall. intros v I. apply N.ltb_lt, B, I.
  - apply N.leb_le, C.
  - apply Pos.ltb_lt, D.
Qed.
(** EM-192 with a tenth of the witness and three trees; an empty message in the second case *)
Example C63_case :
  (exists v m', let m := case_memory [24; 24; 500]%nat 60 in
     returns f_hash_mu [VPtr (last_global + 4) 5; block 1; block 2; VInt 24; block 3; VInt 500; VInt 192] m v m' /\ stands m' (last_global + 4) 5 (H1 shake 192 (some_bytes 24 ++ some_bytes 24 ++ some_bytes 500))) /\
  (exists v m', let m := case_memory [24; 24; 0]%nat 48 in
     returns f_hash_mu [block 4; block 1; block 2; VInt 24; block 3; VInt 0; VInt 192] m v m' /\ stands m' (last_global + 4) 0 (H1 shake 192 (some_bytes 24 ++ some_bytes 24))) /\
  (exists v m', let m := case_memory [48; 48; 158; 16]%nat 128 in
     returns f_hash_challenge_1 [block 5; block 1; block 2; block 3; block 4; VInt 192; VInt 232; VInt 3] m v m' /\ stands m' (last_global + 5) 0 (H2 shake 192 (some_bytes 48 ++ some_bytes 48 ++ some_bytes 158 ++ some_bytes 16) 128)) /\
  (exists v m', let m := case_memory [128; 26; 48; 29]%nat 80 in
     returns f_hash_challenge_2 [block 5; block 1; block 2; block 3; block 4; VInt 192; VInt 232] m v m' /\ stands m' (last_global + 5) 0 (H2 shake 192 (some_bytes 128 ++ some_bytes 26 ++ some_bytes 48 ++ some_bytes 29) 80)) /\
  (exists v m', let m := case_memory [80; 24; 24]%nat 24 in
     returns f_hash_challenge_3 [block 4; block 1; block 2; block 3; VInt 192] m v m' /\ stands m' (last_global + 4) 0 (H2 shake 192 (some_bytes 80 ++ some_bytes 24 ++ some_bytes 24) 24)).
Proof.
  assert (SL : security_level 192) by (right; left; reflexivity). repeat split.
  - destruct (C63_mu 192 (case_memory [24; 24; 500]%nat 60) SL ltac:(apply loadedb_ok; vm_compute; reflexivity) (buffer_at 1 24) (buffer_at 2 24) (buffer_at 3 500) (last_global + 4) 5) as (v & m' & R & S & _);
      [apply filledb_ok; vm_compute; reflexivity..|reflexivity|split; [vm_compute; discriminate|reflexivity]|]. exists v, m'. split; [exact R|exact S].
  - destruct (C63_mu 192 (case_memory [24; 24; 0]%nat 48) SL ltac:(apply loadedb_ok; vm_compute; reflexivity) (buffer_at 1 24) (buffer_at 2 24) (buffer_at 3 0) (last_global + 4) 0) as (v & m' & R & S & _);
      [apply filledb_ok; vm_compute; reflexivity..|reflexivity|split; [vm_compute; discriminate|reflexivity]|]. exists v, m'. split; [exact R|exact S].
  - destruct (C63_challenge_1 192 (case_memory [48; 48; 158; 16]%nat 128) SL ltac:(apply loadedb_ok; vm_compute; reflexivity) 232 3 (buffer_at 1 48) (buffer_at 2 48) (buffer_at 3 158) (buffer_at 4 16) (last_global + 5) 0) as (v & m' & R & S & _);
      [apply filledb_ok; vm_compute; reflexivity..|reflexivity|reflexivity|reflexivity|reflexivity|reflexivity|split; [vm_compute; discriminate|reflexivity]|split; [vm_compute; discriminate|reflexivity]|]. exists v, m'. split; [exact R|exact S].
  - destruct (C63_challenge_2 192 (case_memory [128; 26; 48; 29]%nat 80) SL ltac:(apply loadedb_ok; vm_compute; reflexivity) 232 (buffer_at 1 128) (buffer_at 2 26) (buffer_at 3 48) (buffer_at 4 29) (last_global + 5) 0) as (v & m' & R & S & _);
      [apply filledb_ok; vm_compute; reflexivity..|reflexivity|reflexivity|reflexivity|reflexivity|reflexivity|split; [vm_compute; discriminate|reflexivity]|]. exists v, m'. split; [exact R|exact S].
  - destruct (C63_challenge_3 192 (case_memory [80; 24; 24]%nat 24) SL ltac:(apply loadedb_ok; vm_compute; reflexivity) (buffer_at 1 80) (buffer_at 2 24) (buffer_at 3 24) (last_global + 4) 0) as (v & m' & R & S & _);
      [apply filledb_ok; vm_compute; reflexivity..|reflexivity|reflexivity|reflexivity|split; [vm_compute; discriminate|reflexivity]|]. exists v, m'. split; [exact R|exact S].
Qed.
