(** C08: sign never leaves its buffers. *)
From Verif.Model Require Import Api.
From Verif.Spec Require Import VcSpec KeySpec.
From Verif.Proof Require Import BaseProof VerifyProps ApiProps KeyCases.

(** Out-of-bounds accesses, reads of unwritten working memory and overflowing shifts are the
    outcome [UB] of the model: it does not occur, whatever the arguments, as long as the buffers
    are as long as the API says. *)
Theorem C08_sign_is_defined : forall xof i sk message mlen rho rlen signature siglen, xof_sized xof ->
  match sk with Some s => sk_size i <= lenN s /\ Forall (fun b => b < 256) s | None => True end ->
  readable message mlen -> mlen + 168 <= 2 ^ 32 ->
  (rho = None \/ readable rho rlen) -> rlen + 168 <= 2 ^ 32 ->
  match signature, siglen with Some b, Some n => n <= lenN b /\ Forall (fun b => b < 256) b | _, _ => True end ->
  exists ret sg sl, sign_with_randomness xof i sk message mlen rho rlen signature siglen = Ok (ret, sg, sl) /\
    (ret = 0%Z \/ ret = (-1)%Z).
Proof. exact sign_defined. Qed.
Print Assumptions C08_sign_is_defined.

Example C08_case : exists ret sg sl,
  sign_with_randomness zero_xof FAEST_128S (Some demo_sk) (Some [104; 105; 106]) 2 (Some [1; 2; 3]) 3 (Some (repeat 0 (N.to_nat 5006))) (Some 5006) =
    Ok (ret, sg, sl) /\ (ret = 0%Z \/ ret = (-1)%Z).
Proof.
  apply C08_sign_is_defined; try (discriminate || apply zero_sized).
  - split; [discriminate|exact demo_bytes].
  - right. discriminate.
  - split; [rewrite upto_length; discriminate|apply zeros_bytes].
Qed.
