(** C07: verify never leaves its buffers, on any input. *)
From Verif.Model Require Import Api.
From Verif.Spec Require Import VcSpec RunSpec.
From Verif.Proof Require Import VerifyProps.

(** [verify] ends with 0 or -1 and without undefined behaviour for all objects of at least the
    documented sizes, whatever bytes they hold, for messages shorter than 2^32 - 168 bytes (the
    message pointer may be NULL when its length is 0) *)
Theorem C07_verify_defined : forall xof i pk message mlen sig siglen, xof_sized xof ->
  pk_size i <= lenN pk -> bytes_ok pk ->
  match message with Some m => mlen <= lenN m | None => mlen = 0 end ->
  mlen + 168 <= 2 ^ 32 ->
  sig_size i <= lenN sig -> bytes_ok sig ->
  exists r, verify xof i (Some pk) message mlen (Some sig) siglen = Ok r /\ (r = 0%Z \/ r = (-1)%Z).
Proof. exact verify_total. Qed.
Print Assumptions C07_verify_defined.

(** and it accepts exactly when the last challenge is the hash of the run described in
    Spec/RunSpec.v *)
Theorem C07_acceptance : forall xof i pk msg sig, xof_sized xof ->
  lenN pk = pk_size i -> bytes_ok pk -> lenN msg + 168 <= 2 ^ 32 -> lenN sig = sig_size i -> bytes_ok sig ->
  exists b, b_tilde xof i pk msg sig = Ok b /\
    (verify xof i (Some pk) (Some msg) (lenN msg) (Some sig) (sig_size i) = Ok 0%Z <-> accepts_with xof i pk msg sig b).
Proof. exact verify_criterion. Qed.
Print Assumptions C07_acceptance.

(** only the first pk_size, mlen and sig_size bytes matter *)
Theorem C07_reads : forall xof i pk message mlen sig,
  pk_size i <= lenN pk -> match message with Some m => mlen <= lenN m | None => mlen = 0 end -> sig_size i <= lenN sig ->
  exists m, lenN m = mlen /\ m = match message with Some m => takeN mlen m | None => [] end /\
    verify xof i (Some pk) message mlen (Some sig) (sig_size i) =
    verify xof i (Some (takeN (pk_size i) pk)) (Some m) (lenN m) (Some (takeN (sig_size i) sig)) (sig_size i).
Proof. exact verify_reads. Qed.
Print Assumptions C07_reads.

Example C07_case : exists r,
  verify zero_xof FAEST_EM_256S (Some (repeat 3 64)) None 0 (Some (repeat 0xff (N.to_nat 20956))) 20956 = Ok r /\ (r = 0%Z \/ r = (-1)%Z).
Proof.
  apply C07_verify_defined.
  - exact zero_sized.
  - vm_compute. discriminate.
  - repeat constructor.
  - reflexivity.
  - discriminate.
  - vm_compute. discriminate.
  - apply Forall_forall. intros b Hb. apply repeat_spec in Hb. subst. reflexivity.
Qed.
