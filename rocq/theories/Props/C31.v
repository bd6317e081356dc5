(** C31: the same signature cannot serve two messages or two keys without a hash collision. *)
From Verif.Model Require Import Api.
From Verif.Spec Require Import VcSpec RunSpec.
From Verif.Proof Require Import VerifyProps.

Theorem C31_one_signature_one_statement : forall xof i pk msg pk' msg' sig, xof_sized xof ->
  lenN pk = pk_size i -> bytes_ok pk -> lenN pk' = pk_size i -> bytes_ok pk' -> lenN sig = sig_size i -> bytes_ok sig ->
  verify xof i (Some pk) (Some msg) (lenN msg) (Some sig) (sig_size i) = Ok 0%Z ->
  verify xof i (Some pk') (Some msg') (lenN msg') (Some sig) (sig_size i) = Ok 0%Z ->
  (pk, msg) <> (pk', msg') ->
  challenge_collision xof i pk msg sig pk' msg' sig.
Proof. exact same_signature. Qed.
Print Assumptions C31_one_signature_one_statement.

(** the hypotheses can be met (by a hash function full of collisions) *)
Example C31_case : challenge_collision zero_xof FAEST_128S
  (repeat 1 32) [7] (repeat 0 (N.to_nat 5006)) (repeat 1 32) [8; 9] (repeat 0 (N.to_nat 5006)).
Proof.
  assert (HB : bytes_ok (repeat 0 (N.to_nat 5006))) by (apply Forall_forall; intros b Hb; apply repeat_spec in Hb; subst; reflexivity).
  assert (HC : part_of FAEST_128S (repeat 0 (N.to_nat 5006)) FormatSpec.Challenge_3 = repeat 0 (N.to_nat 16)) by (vm_compute; reflexivity).
  assert (HL : lenN (repeat 0 (N.to_nat 5006)) = sig_size FAEST_128S) by (vm_compute; reflexivity).
  apply C31_one_signature_one_statement.
  - exact zero_sized.
  - reflexivity.
  - repeat constructor.
  - reflexivity.
  - repeat constructor.
  - exact HL.
  - exact HB.
  - apply zero_accepts; [reflexivity|repeat constructor|discriminate|exact HL|exact HB|exact HC].
  - apply zero_accepts; [reflexivity|repeat constructor|discriminate|exact HL|exact HB|exact HC].
  - discriminate.
Qed.
