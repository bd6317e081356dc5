(** C37: key generation and signing report a failing random source: they do not. *)
From Verif.Model Require Import Api.
From Verif.Spec Require Import VcSpec KeySpec.
From Verif.Proof Require Import BaseProof VerifyProps ApiProps KeyCases.

(** [broken os]: every call of the random source reports failure.  keygen returns 0 all the same,
    with the key that happened to be in the buffer. *)
Theorem C37_keygen_refuted : exists os, broken os /\ fills os /\
  forall i fuel pk sk, (0 < fuel)%nat -> pk_size i <= lenN pk -> sk_size i <= lenN sk -> Forall (fun b => b < 256) sk ->
  valid_key i (firstn (N.to_nat (sk_size i)) sk) ->
  keygen i os fuel (Some pk) (Some sk) = Ok (Some (0%Z, Some (overwrite pk 0 (public_of i sk)), Some sk)).
Proof. exact (ex_intro _ dead_os (conj dead_broken (conj dead_fills keygen_dead))). Qed.
Print Assumptions C37_keygen_refuted.

(** sign returns 0 all the same, and the signature is the one for the bytes that happened to be on
    the stack *)
Theorem C37_sign_refuted : exists os, broken os /\ fills os /\
  forall xof i stack sk message mlen buf n, xof_sized xof ->
  p_lambda (param_of i) / 8 <= lenN stack -> Forall (fun b => b < 256) stack ->
  sk_size i <= lenN sk -> Forall (fun b => b < 256) sk -> valid_key i sk -> readable message mlen -> mlen + 168 <= 2 ^ 32 ->
  sig_size i <= n -> n <= lenN buf -> Forall (fun b => b < 256) buf ->
  exists buf', sign xof i os stack (Some sk) message mlen (Some buf) (Some n) = Ok (0%Z, Some buf', Some (sig_size i)) /\
    sign_with_randomness xof i (Some sk) message mlen (Some stack) (p_lambda (param_of i) / 8) (Some buf) (Some n) =
      Ok (0%Z, Some buf', Some (sig_size i)).
Proof. exact (ex_intro _ dead_os (conj dead_broken (conj dead_fills sign_dead))). Qed.
Print Assumptions C37_sign_refuted.

Example C37_case : broken dead_os /\
  keygen FAEST_128S dead_os 1 (Some (repeat 0 32)) (Some demo_sk) =
    Ok (Some (0%Z, Some (public_of FAEST_128S demo_sk), Some demo_sk)).
Proof.
  split; [exact dead_broken|].
  rewrite (keygen_dead FAEST_128S 1 (repeat 0 32) demo_sk); [reflexivity|apply le_n|discriminate|discriminate|exact demo_bytes|exact demo_valid].
Qed.
