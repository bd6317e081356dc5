(** C06: verify accepts only full-length signatures. *)
From Verif.Model Require Import Api.
From Verif.Proof Require Import VerifyProps.

(** whatever the buffers are (also empty ones: nothing is read) *)
Theorem C06_bad_arguments : forall xof i pk message mlen signature siglen,
  pk = None \/ signature = None \/ siglen <> sig_size i ->
  verify xof i pk message mlen signature siglen = Ok (-1)%Z.
Proof. exact verify_arguments. Qed.
Print Assumptions C06_bad_arguments.

Theorem C06_accepted_length : forall xof i pk message mlen signature siglen,
  verify xof i pk message mlen signature siglen = Ok 0%Z ->
  pk <> None /\ signature <> None /\ siglen = sig_size i.
Proof. exact verify_length. Qed.
Print Assumptions C06_accepted_length.

Example C06_case : sig_size FAEST_128S = 5006 /\
  verify zero_xof FAEST_128S (Some (repeat 1 32)) (Some [7]) 1 (Some []) 5005 = Ok (-1)%Z.
Proof. split; [reflexivity|]. apply C06_bad_arguments. right. right. discriminate. Qed.
Example C06_accepting_case :
  verify zero_xof FAEST_128S (Some (repeat 1 32)) (Some [7]) 1 (Some (repeat 0 (N.to_nat 5006))) 5006 = Ok 0%Z.
Proof.
  apply (zero_accepts FAEST_128S (repeat 1 32) [7] (repeat 0 (N.to_nat 5006))).
  - reflexivity.
  - repeat constructor.
  - discriminate.
  - vm_compute. reflexivity.
  - apply Forall_forall. intros b Hb. apply repeat_spec in Hb. subst. reflexivity.
  - vm_compute. reflexivity.
Qed.
