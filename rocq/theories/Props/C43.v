(** C43: the signature is the one of the specification. *)
From Verif.Model Require Import Api FaestAes.
From Verif.Spec Require Import OwfSpec VcSpec VoleSpec FormatSpec UHashSpec ConstraintSpec ConstraintMap ProofSpec RunSpec SignSpec KeySpec.
From Verif.Proof Require Import BaseProof VerifyProps ApiProof ApiProps KeyCases.

(** [signature_spec] (Spec/SignSpec.v) lists the parts of a signature, in terms of the GGM trees,
    the masks, the hashes and the order of the challenges, without reference to buffers, loops and
    offsets.  It uses the extended witness [w], described by C28 and C29 (the only one without
    defects that starts with the key), and the masked constraint polynomial [a], [b] of the
    witness, described by C30. *)
Theorem C43_signature_is_specified : forall xof i, xof_sized xof -> forall sk msg r,
  sk_size i <= lenN sk -> Forall (fun b => b < 256) sk -> valid_key i sk ->
  lenN msg + 168 <= 2 ^ 32 -> lenN r + 168 <= 2 ^ 32 ->
  let key := owf_key_of i sk in let inp := owf_input_of i sk in
  let out := owf_value i key inp in let pk := public_of i sk in
  exists w a b,
    aes_extend_witness i key inp = Ok w /\
    firstn (N.to_nat (owf_key_size i)) w = key /\
    Forall (fun xy => defect (F_of i) xy = 0) (claims i w inp out) /\
    aes_prove (param_of i) w (s_u xof i key pk msg r 0) (map (s_column xof i key pk msg r) (upto (p_lambda (param_of i)))) inp out
      (s_chall_2 xof i key pk msg r w) = Ok (a, b) /\
    let S := signature_spec xof i key pk msg r w a b in
    lenN S = sig_size i /\
    forall message mlen rho rlen buf n,
      readable message mlen -> given message mlen = msg -> readable rho rlen -> given rho rlen = r ->
      sig_size i <= n -> n <= lenN buf -> Forall (fun b => b < 256) buf ->
      sign_with_randomness xof i (Some sk) message mlen rho rlen (Some buf) (Some n) =
        Ok (0%Z, Some (overwrite buf 0 S), Some (sig_size i)).
Proof. exact sign_specified. Qed.
Print Assumptions C43_signature_is_specified.

Example C43_case : exists w a b,
  sign_with_randomness zero_xof FAEST_128S (Some demo_sk) (Some [1; 2; 3]) 3 None 0 (Some (repeat 0 (N.to_nat 5006))) (Some 5006) =
    Ok (0%Z, Some (overwrite (repeat 0 (N.to_nat 5006)) 0
      (signature_spec zero_xof FAEST_128S (owf_key_of FAEST_128S demo_sk) (public_of FAEST_128S demo_sk) [1; 2; 3] [] w a b)), Some 5006).
Proof.
  destruct (C43_signature_is_specified zero_xof FAEST_128S zero_sized demo_sk [1; 2; 3] []) as (w & a & b & _ & _ & _ & _ & _ & H);
    [discriminate|exact demo_bytes|exact demo_valid|discriminate|discriminate|].
  exists w, a, b. apply H; try apply zeros_bytes; try (rewrite upto_length; discriminate); (discriminate || reflexivity).
Qed.
