(** C42: messages of any length are hashed: they are not.  SpongeAbsorb keeps the number of bytes to
    absorb in an unsigned int (sha3/KeccakSponge.inc:187-189). *)
From Verif.Model Require Import Api Sponge.
From Verif.Spec Require Import VcSpec KeySpec.
From Verif.Proof Require Import BaseProof KeyCases ShakeRun LengthProps.

(** a message of 2^32 - 32 bytes: verification accesses memory out of bounds, whatever the key and
    the signature *)
Theorem C42_verify_refuted : exists msg, lenN msg < 2 ^ 64 /\ forall xof pk sig, xof_sized xof ->
  lenN pk = pk_size FAEST_128S -> Forall (fun b => b < 256) pk -> lenN sig = sig_size FAEST_128S -> Forall (fun b => b < 256) sig ->
  verify xof FAEST_128S (Some pk) (Some msg) (lenN msg) (Some sig) (sig_size FAEST_128S) = UB.
Proof. exact verify_refuted. Qed.
Print Assumptions C42_verify_refuted.

(** and so does signing, with every valid key *)
Theorem C42_sign_refuted : exists msg, lenN msg < 2 ^ 64 /\ forall xof sk buf, xof_sized xof ->
  sk_size FAEST_128S <= lenN sk -> Forall (fun b => b < 256) sk -> valid_key FAEST_128S sk ->
  sig_size FAEST_128S <= lenN buf -> Forall (fun b => b < 256) buf ->
  sign_with_randomness xof FAEST_128S (Some sk) (Some msg) (lenN msg) None 0 (Some buf) (Some (lenN buf)) = UB.
Proof. exact sign_refuted. Qed.
Print Assumptions C42_sign_refuted.

(** in the sponge: hashing a public key and that message *)
Theorem C42_sponge_refuted : exists msg, lenN msg < 2 ^ 64 /\ Forall (fun b => b < 256) msg /\
  forall pk n, lenN pk = 32 -> Forall (fun b => b < 256) pk ->
  hash_run KeccakP1600_Permute_24rounds 128 [pk; msg] [n] = UB.
Proof. exact sponge_refuted. Qed.
Print Assumptions C42_sponge_refuted.

(** exactly which lengths are handled: those whose low 32 bits do not overflow when the public key
    is added, and which are below 2^32 or fill the first block with their low 32 bits *)
Theorem C42_verify_exact : forall xof i pk msg sig, xof_sized xof ->
  lenN pk = pk_size i -> Forall (fun b => b < 256) pk -> lenN sig = sig_size i -> Forall (fun b => b < 256) sig ->
  verify xof i (Some pk) (Some msg) (lenN msg) (Some sig) (sig_size i) <> UB <->
  lenN msg mod 2 ^ 32 + pk_size i < 2 ^ 32 /\
  (lenN msg < 2 ^ 32 \/ (if p_lambda (param_of i) =? 128 then 168 else 136) <= lenN msg mod 2 ^ 32 + pk_size i).
Proof. exact verify_exact. Qed.
Print Assumptions C42_verify_exact.
Theorem C42_sign_exact : forall xof i sk message mlen buf n, xof_sized xof ->
  sk_size i <= lenN sk -> Forall (fun b => b < 256) sk -> valid_key i sk -> readable message mlen ->
  sig_size i <= n -> n <= lenN buf -> Forall (fun b => b < 256) buf ->
  sign_with_randomness xof i (Some sk) message mlen None 0 (Some buf) (Some n) <> UB <->
  mlen mod 2 ^ 32 + pk_size i < 2 ^ 32 /\
  (mlen < 2 ^ 32 \/ (if p_lambda (param_of i) =? 128 then 168 else 136) <= mlen mod 2 ^ 32 + pk_size i).
Proof. exact sign_exact_length. Qed.
Print Assumptions C42_sign_exact.

(** the hypotheses are met by a valid key; lengths on both sides of the boundary *)
Example C42_case : valid_key FAEST_128S demo_sk /\ pk_size FAEST_128S = 32 /\
  (2 ^ 32 - 33) mod 2 ^ 32 + pk_size FAEST_128S < 2 ^ 32 /\ ~ (2 ^ 32 - 32) mod 2 ^ 32 + pk_size FAEST_128S < 2 ^ 32.
Proof. split; [exact demo_valid|]. split; [reflexivity|]. split; [reflexivity|discriminate]. Qed.
