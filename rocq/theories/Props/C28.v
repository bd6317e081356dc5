(** C28: the prover's constraints hold for every valid key.  What [claims] are is defined in
    Spec/ConstraintMap.v; that the prover and the verifier evaluate exactly these constraints is C30. *)
From Verif.Model Require Import Owf FaestAes.
From Verif.Spec Require Import AesSpec OwfSpec ConstraintSpec ConstraintMap.
From Verif.Proof Require Import WitnessProps.

Theorem C28_witness_satisfies : forall i key inp out,
  lenN key = owf_key_size i -> bytes_ok key -> lenN inp = owf_input_size i -> bytes_ok inp ->
  owf i key inp = Ok (out, true) ->
  exists w, aes_extend_witness i key inp = Ok w /\ lenN w = p_l (param_of i) / 8 /\ bytes_ok w /\
    firstn (N.to_nat (owf_key_size i)) w = key /\
    Forall (fun xy => defect (F_of i) xy = 0) (claims i w inp out) /\
    Forall right (claims i w inp out).
Proof. exact witness_valid. Qed.
Print Assumptions C28_witness_satisfies.

(** an accepted key; the witness has 200 bytes, and the first of the 40 + 160 S-boxes maps the byte
    13 of the key to what the witness claims *)
Example C28_case : exists out, owf FAEST_128S (map (fun x => 7 * x + 9) (Nrange 16)) (Nrange 16) = Ok (out, true) /\
  exists w, aes_extend_witness FAEST_128S (map (fun x => 7 * x + 9) (Nrange 16)) (Nrange 16) = Ok w /\
    lenN w = 200 /\ hd (0, 0) (key_pairs AES128 (schedule AES128 w)) = (100, 67).
Proof. eexists. split; [vm_compute; reflexivity|]. eexists. split; [vm_compute; reflexivity|]. split; vm_compute; reflexivity. Qed.
