(** C01: every honestly produced signature verifies. *)
From Verif.Model Require Import Api.
From Verif.Spec Require Import VcSpec KeySpec.
From Verif.Proof Require Import BaseProof VerifyProps ApiProps KeyCases.

(** [xof] is the extendable-output function (SHAKE): any function that returns as many bytes as
    asked for.  The signature is verified under the public key that belongs to [sk]. *)
Theorem C01_signatures_verify : forall xof i sk message mlen rho rlen buf n, xof_sized xof ->
  sk_size i <= lenN sk -> Forall (fun b => b < 256) sk -> valid_key i sk ->
  readable message mlen -> mlen + 168 <= 2 ^ 32 -> readable rho rlen -> rlen + 168 <= 2 ^ 32 ->
  sig_size i <= n -> n <= lenN buf -> Forall (fun b => b < 256) buf ->
  exists buf',
    sign_with_randomness xof i (Some sk) message mlen rho rlen (Some buf) (Some n) = Ok (0%Z, Some buf', Some (sig_size i)) /\
    verify xof i (Some (public_of i sk)) message mlen (Some buf') (sig_size i) = Ok 0%Z.
Proof. exact sign_verifies. Qed.
Print Assumptions C01_signatures_verify.

(** the same for [sign], which draws its randomness from the operating system *)
Theorem C01_randomised_signatures_verify : forall xof i os stack sk message mlen buf n, xof_sized xof -> fills os ->
  p_lambda (param_of i) / 8 <= lenN stack -> Forall (fun b => b < 256) stack ->
  sk_size i <= lenN sk -> Forall (fun b => b < 256) sk -> valid_key i sk ->
  readable message mlen -> mlen + 168 <= 2 ^ 32 ->
  sig_size i <= n -> n <= lenN buf -> Forall (fun b => b < 256) buf ->
  exists buf',
    sign xof i os stack (Some sk) message mlen (Some buf) (Some n) = Ok (0%Z, Some buf', Some (sig_size i)) /\
    verify xof i (Some (public_of i sk)) message mlen (Some buf') (sig_size i) = Ok 0%Z.
Proof. exact sign_random. Qed.
Print Assumptions C01_randomised_signatures_verify.

(** from key generation to verification *)
Theorem C01_generated_keys_sign : forall xof i fuel os pk sk ret pk' sk', xof_sized xof -> fills os ->
  pk_size i <= lenN pk -> sk_size i <= lenN sk -> Forall (fun b => b < 256) sk ->
  keygen i os fuel (Some pk) (Some sk) = Ok (Some (ret, pk', sk')) ->
  forall message mlen rho rlen buf n,
  readable message mlen -> mlen + 168 <= 2 ^ 32 -> readable rho rlen -> rlen + 168 <= 2 ^ 32 ->
  sig_size i <= n -> n <= lenN buf -> Forall (fun b => b < 256) buf ->
  exists buf',
    sign_with_randomness xof i sk' message mlen rho rlen (Some buf) (Some n) = Ok (0%Z, Some buf', Some (sig_size i)) /\
    verify xof i pk' message mlen (Some buf') (sig_size i) = Ok 0%Z.
Proof. exact keygen_sign_verify. Qed.
Print Assumptions C01_generated_keys_sign.

(** a concrete key, a message, no extra randomness, a buffer longer than a signature *)
Example C01_case : valid_key FAEST_128S demo_sk /\ exists buf',
    sign_with_randomness zero_xof FAEST_128S (Some demo_sk) (Some [104; 105]) 2 None 0 (Some (repeat 0 (N.to_nat 5010))) (Some 5010) =
      Ok (0%Z, Some buf', Some 5006) /\
    verify zero_xof FAEST_128S (Some (public_of FAEST_128S demo_sk)) (Some [104; 105]) 2 (Some buf') 5006 = Ok 0%Z.
Proof.
  split; [exact demo_valid|].
  apply (C01_signatures_verify zero_xof FAEST_128S demo_sk (Some [104; 105]) 2 None 0 (repeat 0 (N.to_nat 5010)) 5010 zero_sized);
    try exact demo_valid; try exact demo_bytes; try apply zeros_bytes; try (rewrite upto_length; discriminate); (discriminate || reflexivity).
Qed.
