(** C12: an opening at any index reconstructs the digest and all other seeds. *)
From Verif.Model Require Import Vc.
From Verif.Spec Require Import VcSpec.
From Verif.Proof Require Import VcProps.

Theorem C12_open_reconstruct : forall xof, xof_sized xof ->
  forall lambda, In lambda [128; 192; 256] ->
  forall rootKey iv depth idx vr,
  lambda / 8 <= lenN rootKey -> bytes_ok rootKey -> lenN iv = 16 -> bytes_ok iv ->
  1 <= depth <= 29 -> idx < 2 ^ depth ->
  2 ^ (depth + 1) - 1 <= lenN (vr_k vr) -> 2 ^ depth <= lenN (vr_s vr) -> 2 ^ depth <= lenN (vr_com vr) ->
  exists vc bits cop com_j vr',
    vector_commitment xof lambda rootKey iv depth = Ok vc /\
    BitDec idx depth = Ok (true, bits) /\
    vector_open (vc_k vc) (vc_com vc) bits depth = Ok (cop, com_j) /\
    vector_reconstruction xof lambda iv cop com_j bits depth vr = Ok vr' /\
    vr_h vr' = vc_h vc /\
    forall j, j < 2 ^ depth -> j <> idx ->
      exists sd, nth_error (vc_sd vc) (N.to_nat j) = Some sd /\
                 nth_error (vr_s vr') (N.to_nat j) = Some (Some sd).
Proof. exact open_reconstruct. Qed.
Print Assumptions C12_open_reconstruct.

(** the checking entry point (which allocates its own buffers) accepts every honest opening *)
Theorem C12_open_verifies : forall xof, xof_sized xof ->
  forall lambda, In lambda [128; 192; 256] ->
  forall rootKey iv depth idx vc bits cop com_j,
  lambda / 8 <= lenN rootKey -> bytes_ok rootKey -> lenN iv = 16 -> bytes_ok iv ->
  1 <= depth <= 29 -> idx < 2 ^ depth ->
  vector_commitment xof lambda rootKey iv depth = Ok vc ->
  BitDec idx depth = Ok (true, bits) ->
  vector_open (vc_k vc) (vc_com vc) bits depth = Ok (cop, com_j) ->
  exists vr', vector_verify xof lambda iv cop com_j bits depth (vc_h vc) = Ok (Some vr') /\
    forall j, j < 2 ^ depth -> j <> idx ->
      exists sd, nth_error (vc_sd vc) (N.to_nat j) = Some sd /\
                 nth_error (vr_s vr') (N.to_nat j) = Some (Some sd).
Proof. exact open_verifies. Qed.
Print Assumptions C12_open_verifies.

(** a toy XOF meets the hypothesis on the XOF, and the buffers the library allocates the one on
    the sizes *)
Definition toy_xof (s : N) (data : list N) (n : N) : list N :=
  map (fun i => (fold_left (fun a b => (a * 31 + b) mod 65521) data s + i) mod 256) (Nrange n).
Example C12_toy_xof : xof_sized toy_xof.
Proof.
  intros s data n. split.
  - unfold toy_xof. rewrite map_length. unfold Nrange. generalize 0 at 1. induction (N.to_nat n); intros a; cbn; auto.
  - apply Forall_forall. intros b Hb. apply in_map_iff in Hb. destruct Hb as (i & <- & _).
    apply N.mod_lt. discriminate.
Qed.
Example C12_case : exists vr vc cop com_j vr',
  vec_com_rec_alloc 128 3 = Ok vr /\ length (vr_s vr) = 8%nat /\
  vector_commitment toy_xof 128 (Nrange 16) (repeat 7 16) 2 = Ok vc /\
  vector_open (vc_k vc) (vc_com vc) [0; 1] 2 = Ok (cop, com_j) /\
  vector_reconstruction toy_xof 128 (repeat 7 16) cop com_j [0; 1] 2 vr = Ok vr' /\
  vr_h vr' = vc_h vc.
Proof.
  destruct (vec_com_rec_alloc 128 3) as [vr|] eqn:E; [|vm_compute in E; discriminate].
  assert (S1 : 2 ^ (2 + 1) - 1 <= lenN (vr_k vr)) by (injection E as <-; vm_compute; discriminate).
  assert (S2 : 2 ^ 2 <= lenN (vr_s vr)) by (injection E as <-; vm_compute; discriminate).
  assert (S3 : 2 ^ 2 <= lenN (vr_com vr)) by (injection E as <-; vm_compute; discriminate).
  assert (B1 : bytes_ok (Nrange 16)) by (repeat constructor).
  assert (B2 : bytes_ok (repeat 7 16)) by (repeat constructor).
  destruct (C12_open_reconstruct toy_xof C12_toy_xof 128 ltac:(left; reflexivity) (Nrange 16) (repeat 7 16) 2 2 vr
              ltac:(discriminate) B1 eq_refl B2 ltac:(split; discriminate) eq_refl S1 S2 S3)
    as (vc & bits & cop & com_j & vr' & A1 & A2 & A3 & A4 & A5 & _).
  vm_compute in A2. injection A2 as <-.
  exists vr, vc, cop, com_j, vr'. split; [reflexivity|]. split; [injection E as <-; reflexivity|].
  split; [exact A1|]. split; [exact A3|]. split; [exact A4|exact A5].
Qed.
