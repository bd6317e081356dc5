(** C16: leaf index and bit decomposition are inverse. *)
From Verif.Model Require Import Vc.
From Verif.Proof Require Import VcProps.

Theorem C16_bitdec_numrec : forall depth idx, depth <= 31 -> idx < 2 ^ depth ->
  exists bits, BitDec idx depth = Ok (true, bits) /\ lenN bits = depth /\
    (forall i, i < depth -> nth (N.to_nat i) bits 2 = N.b2n (N.testbit idx i)) /\
    NumRec depth bits = Ok idx.
Proof. exact bitdec_numrec. Qed.
Print Assumptions C16_bitdec_numrec.

Theorem C16_bitdec_fails : forall depth idx, depth <= 31 -> 2 ^ depth <= idx ->
  BitDec idx depth = Ok (false, []).
Proof. exact bitdec_fails. Qed.
Print Assumptions C16_bitdec_fails.

Theorem C16_numrec_bitdec : forall depth bits,
  depth <= 31 -> lenN bits = depth -> Forall (fun b => b < 2) bits ->
  exists idx, NumRec depth bits = Ok idx /\ idx < 2 ^ depth /\ BitDec idx depth = Ok (true, bits).
Proof. exact numrec_bitdec. Qed.
Print Assumptions C16_numrec_bitdec.

Example C16_case : BitDec 2147483654 31 = Ok (false, []) /\ BitDec 11 4 = Ok (true, [1; 1; 0; 1]) /\
  NumRec 4 [1; 1; 0; 1] = Ok 11 /\ Forall (fun b => b < 2) [1; 1; 0; 1].
Proof. repeat split; try (vm_compute; reflexivity). repeat constructor. Qed.
