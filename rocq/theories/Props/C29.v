(** C29: only a preimage satisfies the constraints. *)
From Verif.Model Require Import Owf FaestAes.
From Verif.Spec Require Import OwfSpec ConstraintSpec ConstraintMap.
From Verif.Proof Require Import WitnessProps.

Theorem C29_only_preimages : forall i w inp out,
  lenN w = p_l (param_of i) / 8 -> bytes_ok w ->
  lenN inp = owf_input_size i -> bytes_ok inp -> lenN out = owf_input_size i -> bytes_ok out ->
  Forall (fun xy => defect (F_of i) xy = 0) (claims i w inp out) ->
  let key := firstn (N.to_nat (owf_key_size i)) w in
  owf i key inp = Ok (out, true) /\ aes_extend_witness i key inp = Ok w.
Proof. exact witness_sound. Qed.
Print Assumptions C29_only_preimages.

(** the hypotheses are met by the witness of any valid key (C28), and not by everything: the first
    constraint of the all-zero witness fails *)
Example C29_case : defect F128 (hd (0, 0) (claims FAEST_128F (repeat 0 200) (Nrange 16) (Nrange 16))) = 1 /\
  ~ Forall right (claims FAEST_EM_128F (repeat 0 160) (Nrange 16) (Nrange 16)).
Proof.
  split; [vm_compute; reflexivity|]. intros H. apply Forall_inv in H. apply (proj1 H). reflexivity.
Qed.
