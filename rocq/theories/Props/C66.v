(** C66: the C text of sign, sign_with_randomness and verify refuses wrong arguments and invalid keys, and writes nothing then. *)
From Coq Require Import ZArith NArith List FMapPositive.
From Verif Require Import Model.Params Spec.OwfSpec Spec.KeySpec Spec.CtSpec Spec.RefSpec Spec.RefRefuseSpec.
From Verif Require Import Model.CtLang Model.CtNames Model.CtProgram Proof.KeyCases Proof.RefProps Proof.RefRefuse.
Import ListNotations.
Local Open Scope Z_scope.

(** A NULL pointer or a buffer that is too small: the memory is the same, and no random bytes are taken. *)
Theorem C66_sign : forall i m sk msg len sig siglen, refused m i sk sig siglen -> returns (sign_of i) [sk; msg; len; sig; siglen] m (VInt (-1)) m.
Proof. exact sign_refused. Qed.
Print Assumptions C66_sign.

(** The same, or a randomness that is NULL but should have a length. *)
Theorem C66_sign_with_randomness : forall i m sk msg len rho rholen sig siglen,
  refused m i sk sig siglen \/ (exists n, size_at m siglen n) /\ rho = VNull /\ rholen <> 0 ->
  returns (sign_with_randomness_of i) [sk; msg; len; rho; VInt rholen; sig; siglen] m (VInt (-1)) m.
Proof. exact swr_refused. Qed.
Print Assumptions C66_sign_with_randomness.

Theorem C66_verify : forall i m pk msg len sig siglen, pk = VNull \/ sig = VNull \/ siglen <> Z.of_N (sig_size i) ->
  returns (verify_of i) [pk; msg; len; sig; VInt siglen] m (VInt (-1)) m.
Proof. exact verify_refused. Qed.
Print Assumptions C66_verify.

(** An invalid private key: neither the signature nor its length is written, whatever the other arguments are. *)
Theorem C66_invalid_key_with_randomness : forall i m sb so sk msg len rho rholen gb go siglen n,
  loaded m -> stands m sb so sk -> Forall (fun b => (b < 256)%N) sk -> N.of_nat (length sk) = sk_bytes i -> ~ valid_key i sk -> size_at m siglen n ->
  exists m', returns (sign_with_randomness_of i) [VPtr sb so; msg; len; rho; VInt rholen; VPtr gb go; siglen] m (VInt (-1)) m' /\ unchanged m m' (fun _ _ => False).
Proof. exact swr_invalid. Qed.
Print Assumptions C66_invalid_key_with_randomness.

(** sign may take random bytes before it finds out. *)
Theorem C66_invalid_key : forall i m sb so sk msg len gb go lb lo n p random,
  loaded m -> stands m sb so sk -> Forall (fun b => (b < 256)%N) sk -> N.of_nat (length sk) = sk_bytes i -> ~ valid_key i sk ->
  size_at m (VPtr lb lo) n -> (last_global < sb)%positive -> (last_global < lb)%positive ->
  used m p -> stands m tape (Z.of_N p) random -> Forall (fun b => (b < 256)%N) random -> N.of_nat (length random) = (p_lambda (param_of i) / 8)%N -> (p + N.of_nat (length random) < 2 ^ 64)%N ->
  exists m', returns (sign_of i) [VPtr sb so; msg; len; VPtr gb go; VPtr lb lo] m (VInt (-1)) m' /\ unchanged m m' (fun b _ => b = tape_pos).
Proof. exact sign_invalid. Qed.
Print Assumptions C66_invalid_key.

(** ** Cases *)
(** a length that is one byte too small; a signature that is one byte too long; a randomness that is NULL *)
Example C66_case_arguments :
  let m := memory [] [[142; 19; 0; 0; 0; 0; 0; 0]; [141; 19; 0; 0; 0; 0; 0; 0]] in
  (142 + 256 * 19 = Z.of_N (sig_size FAEST_128S)) /\
  returns f_faest_128s_sign [block 2; VNull; VInt 0; block 2; block 2] m (VInt (-1)) m /\
  returns f_faest_128s_verify [block 1; VNull; VInt 0; block 2; VInt 5007] m (VInt (-1)) m /\
  returns f_faest_128s_sign_with_randomness [block 1; VNull; VInt 0; VNull; VInt 4; block 2; block 1] m (VInt (-1)) m.
Proof.
  cbv zeta. split; [reflexivity|]. split; [|split].
  - apply (C66_sign FAEST_128S). right. right. right. exists 5005. split; [|reflexivity]. do 3 eexists. split; [reflexivity|]. split; vm_compute; reflexivity.
  - apply (C66_verify FAEST_128S). right. right. discriminate.
  - apply (C66_sign_with_randomness FAEST_128S). right. split; [|split; [reflexivity|discriminate]]. exists 5006. do 3 eexists. split; [reflexivity|]. split; vm_compute; reflexivity.
Qed.
(** the private key of zeros, with room for a signature as far as the length says *)
Example C66_case_key :
  let m := memory (repeat 3 16) [map Z.of_N zero_sk; repeat 9 40; [142; 19; 0; 0; 0; 0; 0; 0]] in
  ~ valid_key FAEST_128S zero_sk /\
  (exists m', returns f_faest_128s_sign [block 1; VNull; VInt 0; block 2; block 3] m (VInt (-1)) m' /\ contents m' (last_global + 2) 0 40 = Some (repeat 9 40)) /\
  exists m', returns f_faest_128s_sign_with_randomness [block 1; VNull; VInt 0; VNull; VInt 0; block 2; block 3] m (VInt (-1)) m' /\ contents m' (last_global + 2) 0 40 = Some (repeat 9 40).
Proof.
  cbv zeta. set (m := memory (repeat 3 16) [map Z.of_N zero_sk; repeat 9 40; [142; 19; 0; 0; 0; 0; 0; 0]]).
  assert (LD : loaded m) by (apply loadedb_ok; vm_compute; reflexivity). assert (S : stands m (last_global + 1) 0 zero_sk) by (vm_compute; reflexivity).
  assert (C : contents m (last_global + 2) 0 40 = Some (repeat 9 40)) by (vm_compute; reflexivity).
  assert (B : Forall (fun b => (b < 256)%N) zero_sk) by apply zeros_bytes. assert (L : N.of_nat (length zero_sk) = sk_bytes FAEST_128S) by (vm_compute; reflexivity).
  assert (Z : size_at m (VPtr (last_global + 3) 0) 5006) by (do 3 eexists; split; [reflexivity|]; split; vm_compute; reflexivity).
  split; [exact zero_invalid|]. split.
  - destruct (C66_invalid_key FAEST_128S m (last_global + 1) 0 zero_sk VNull (VInt 0) (last_global + 2) 0 (last_global + 3) 0 5006 0 (repeat 3%N 16) LD S B L zero_invalid Z) as (m' & R & U);
      [reflexivity|reflexivity|exists (repeat 0 8); split; vm_compute; reflexivity|vm_compute; reflexivity|repeat (constructor; [reflexivity|]); constructor|reflexivity|reflexivity|].
    exists m'. split; [exact R|]. eapply contents_kept; [exact C|discriminate|exact U|]. intros q _. discriminate.
  - destruct (C66_invalid_key_with_randomness FAEST_128S m (last_global + 1) 0 zero_sk VNull (VInt 0) VNull 0 (last_global + 2) 0 (VPtr (last_global + 3) 0) 5006 LD S B L zero_invalid Z) as (m' & R & U).
    exists m'. split; [exact R|]. eapply contents_kept; [exact C|discriminate|exact U|]. intros q _ [].
Qed.
