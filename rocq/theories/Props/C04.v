(** C04: argument contract of sign. *)
From Verif.Model Require Import Api.
From Verif.Spec Require Import VcSpec KeySpec.
From Verif.Proof Require Import BaseProof VerifyProps ApiProof ApiProps KeyCases.

Theorem C04_bad_arguments : forall xof i sk message mlen rho rlen signature siglen,
  sk = None \/ signature = None \/ siglen = None \/
  (exists n, siglen = Some n /\ n < sig_size i) \/ (rho = None /\ rlen <> 0) ->
  sign_with_randomness xof i sk message mlen rho rlen signature siglen = Ok ((-1)%Z, signature, siglen).
Proof. exact sign_arguments. Qed.
Print Assumptions C04_bad_arguments.

Theorem C04_invalid_key : forall xof i sk message mlen rho rlen buf siglen,
  sk_size i <= lenN sk -> Forall (fun b => b < 256) sk -> ~ valid_key i sk ->
  sign_with_randomness xof i (Some sk) message mlen rho rlen (Some buf) siglen = Ok ((-1)%Z, Some buf, siglen).
Proof. exact sign_invalid. Qed.
Print Assumptions C04_invalid_key.

(** [overwrite buf 0 S] is [buf] with its first [lenN S] bytes replaced by [S] *)
Theorem C04_success : forall xof i sk message mlen rho rlen buf n, xof_sized xof ->
  sk_size i <= lenN sk -> Forall (fun b => b < 256) sk -> valid_key i sk ->
  readable message mlen -> mlen + 168 <= 2 ^ 32 -> readable rho rlen -> rlen + 168 <= 2 ^ 32 ->
  sig_size i <= n -> n <= lenN buf -> Forall (fun b => b < 256) buf ->
  exists S, lenN S = sig_size i /\ Forall (fun b => b < 256) S /\
    sign_with_randomness xof i (Some sk) message mlen rho rlen (Some buf) (Some n) =
      Ok (0%Z, Some (overwrite buf 0 S), Some (sig_size i)).
Proof. exact sign_success. Qed.
Print Assumptions C04_success.

Example C04_cases : forall xof,
  sign_with_randomness xof FAEST_128S (Some demo_sk) None 0 None 0 (Some []) (Some 5005) = Ok ((-1)%Z, Some [], Some 5005) /\
  sign_with_randomness xof FAEST_128S (Some demo_sk) None 0 None 3 (Some []) (Some 5006) = Ok ((-1)%Z, Some [], Some 5006) /\
  sign_with_randomness xof FAEST_128S (Some zero_sk) None 0 None 0 (Some [9]) (Some 5006) = Ok ((-1)%Z, Some [9], Some 5006).
Proof.
  intros xof. split; [|split].
  - apply C04_bad_arguments. right. right. right. left. exists 5005. split; reflexivity.
  - apply C04_bad_arguments. right. right. right. right. split; [reflexivity|discriminate].
  - apply C04_invalid_key; [discriminate|apply zeros_bytes|exact zero_invalid].
Qed.
Example C04_success_case : exists S, lenN S = 5006 /\ Forall (fun b => b < 256) S /\
  sign_with_randomness zero_xof FAEST_128S (Some demo_sk) (Some [104; 105; 106]) 2 (Some [1; 2; 3]) 3 (Some (repeat 0 (N.to_nat 5010))) (Some 5010) =
    Ok (0%Z, Some (overwrite (repeat 0 (N.to_nat 5010)) 0 S), Some 5006).
Proof.
  apply (C04_success zero_xof FAEST_128S demo_sk (Some [104; 105; 106]) 2 (Some [1; 2; 3]) 3 (repeat 0 (N.to_nat 5010)) 5010 zero_sized);
    try exact demo_valid; try exact demo_bytes; try apply zeros_bytes; try (rewrite upto_length; discriminate); (discriminate || reflexivity).
Qed.
