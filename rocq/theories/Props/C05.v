(** C05: signing is a function of key, message and rho only. *)
From Verif.Model Require Import Api.
From Verif.Spec Require Import VcSpec KeySpec.
From Verif.Proof Require Import BaseProof VerifyProps ApiProps KeyCases.

(** One string [S] for a key, a message and extra randomness: every call that is given these
    bytes, whatever lies behind them in memory and whatever the signature buffer contained,
    writes [S].  (Cells of malloc'd working memory that were not written have no value in the
    model: reading one is undefined behaviour, so the result cannot depend on them.) *)
Theorem C05_function_of_key_message_rho : forall xof i sk msg r, xof_sized xof ->
  lenN sk = sk_size i -> Forall (fun b => b < 256) sk -> valid_key i sk ->
  lenN msg + 168 <= 2 ^ 32 -> lenN r + 168 <= 2 ^ 32 ->
  exists S, lenN S = sig_size i /\ Forall (fun b => b < 256) S /\
  forall sk' message mlen rho rlen buf n,
    sk_size i <= lenN sk' -> firstn (N.to_nat (sk_size i)) sk' = sk ->
    readable message mlen -> given message mlen = msg -> readable rho rlen -> given rho rlen = r ->
    sig_size i <= n -> n <= lenN buf -> Forall (fun b => b < 256) buf ->
    sign_with_randomness xof i (Some sk') message mlen rho rlen (Some buf) (Some n) =
      Ok (0%Z, Some (overwrite buf 0 S), Some (sig_size i)).
Proof. exact sign_function. Qed.
Print Assumptions C05_function_of_key_message_rho.

(** [sign] is sign_with_randomness with the bytes it asked the operating system for, as many as the
    security parameter has, whatever the arguments.  ([stack] is what the local buffer contained
    before the system was asked to fill it.) *)
Theorem C05_sign_uses_system_randomness : forall xof i os stack sk message mlen signature siglen,
  p_lambda (param_of i) / 8 <= lenN stack ->
  sign xof i os stack sk message mlen signature siglen =
  sign_with_randomness xof i sk message mlen (Some (snd (os 0 (firstn (N.to_nat (p_lambda (param_of i) / 8)) stack))))
    (p_lambda (param_of i) / 8) signature siglen.
Proof. exact sign_draws. Qed.
Print Assumptions C05_sign_uses_system_randomness.

(** two calls that differ in everything but the bytes that count *)
Example C05_case : exists S, lenN S = 5006 /\
  sign_with_randomness zero_xof FAEST_128S (Some demo_sk) (Some [1; 2]) 2 None 0 (Some (repeat 0 (N.to_nat 5006))) (Some 5006) =
    Ok (0%Z, Some (overwrite (repeat 0 (N.to_nat 5006)) 0 S), Some 5006) /\
  sign_with_randomness zero_xof FAEST_128S (Some (demo_sk ++ [77])) (Some [1; 2; 3]) 2 (Some [9]) 0 (Some (repeat 0 (N.to_nat 6000))) (Some 5500) =
    Ok (0%Z, Some (overwrite (repeat 0 (N.to_nat 6000)) 0 S), Some 5006).
Proof.
  destruct (C05_function_of_key_message_rho zero_xof FAEST_128S demo_sk [1; 2] [] zero_sized) as (S & L & _ & F);
    [reflexivity|exact demo_bytes|exact demo_valid|discriminate|discriminate|]. exists S. split; [exact L|].
  split; apply F; try apply zeros_bytes; try (rewrite upto_length; discriminate); (discriminate || reflexivity).
Qed.
