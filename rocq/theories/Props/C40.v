(** C40: signature bytes are bound by the last challenge. *)
From Verif.Model Require Import Api.
From Verif.Spec Require Import VcSpec FormatSpec RunSpec.
From Verif.Proof Require Import VerifyProps.

(** two accepted signatures with the same last challenge, for any two keys and messages: either
    keys, messages and signatures are all equal, or the runs exhibit a collision *)
Theorem C40_challenge_binds : forall xof, xof_sized xof -> forall i pk msg sig pk' msg' sig',
  lenN pk = pk_size i -> bytes_ok pk -> lenN sig = sig_size i -> bytes_ok sig ->
  lenN pk' = pk_size i -> bytes_ok pk' -> lenN sig' = sig_size i -> bytes_ok sig' ->
  verify xof i (Some pk) (Some msg) (lenN msg) (Some sig) (sig_size i) = Ok 0%Z ->
  verify xof i (Some pk') (Some msg') (lenN msg') (Some sig') (sig_size i) = Ok 0%Z ->
  part_of i sig Challenge_3 = part_of i sig' Challenge_3 ->
  (pk = pk' /\ msg = msg' /\ sig = sig') \/
  challenge_collision xof i pk msg sig pk' msg' sig' \/ commitment_collision xof i sig sig'.
Proof. exact binding. Qed.
Print Assumptions C40_challenge_binds.

(** the hypotheses can be met (by a hash function full of collisions): two signatures which
    differ in one byte *)
Example C40_case :
  let sig := repeat 0 (N.to_nat 5006) in let sig' := repeat 0 (N.to_nat 4600) ++ 1 :: repeat 0 (N.to_nat 405) in
  challenge_collision zero_xof FAEST_128S (repeat 1 32) [7] sig (repeat 1 32) [7] sig' \/ commitment_collision zero_xof FAEST_128S sig sig'.
Proof.
  cbv zeta.
  assert (HB : bytes_ok (repeat 0 (N.to_nat 5006))) by (apply Forall_forall; intros b Hb; apply repeat_spec in Hb; subst; reflexivity).
  assert (HC : part_of FAEST_128S (repeat 0 (N.to_nat 5006)) FormatSpec.Challenge_3 = repeat 0 (N.to_nat 16)) by (vm_compute; reflexivity).
  assert (HL : lenN (repeat 0 (N.to_nat 5006)) = sig_size FAEST_128S) by (vm_compute; reflexivity).
  assert (HB' : bytes_ok (repeat 0 (N.to_nat 4600) ++ 1 :: repeat 0 (N.to_nat 405))).
  { apply Forall_app. split; [|constructor; [reflexivity|]]; apply Forall_forall; intros b Hb; apply repeat_spec in Hb; subst; reflexivity. }
  assert (HC' : part_of FAEST_128S (repeat 0 (N.to_nat 4600) ++ 1 :: repeat 0 (N.to_nat 405)) FormatSpec.Challenge_3 = repeat 0 (N.to_nat 16)) by (vm_compute; reflexivity).
  assert (HL' : lenN (repeat 0 (N.to_nat 4600) ++ 1 :: repeat 0 (N.to_nat 405)) = sig_size FAEST_128S) by (vm_compute; reflexivity).
  destruct (C40_challenge_binds zero_xof zero_sized FAEST_128S (repeat 1 32) [7] (repeat 0 (N.to_nat 5006))
    (repeat 1 32) [7] (repeat 0 (N.to_nat 4600) ++ 1 :: repeat 0 (N.to_nat 405))) as [(_ & _ & E)|X].
  - reflexivity.
  - repeat constructor.
  - exact HL.
  - exact HB.
  - reflexivity.
  - repeat constructor.
  - exact HL'.
  - exact HB'.
  - apply zero_accepts; [reflexivity|repeat constructor|discriminate|exact HL|exact HB|exact HC].
  - apply zero_accepts; [reflexivity|repeat constructor|discriminate|exact HL'|exact HB'|exact HC'].
  - rewrite HC, HC'. reflexivity.
  - exfalso. apply (f_equal (fun l => nth (N.to_nat 4600) l 0)) in E. vm_compute in E. discriminate.
  - exact X.
Qed.
