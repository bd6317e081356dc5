(** Witness properties (C28, C29). *)
From Verif.Model Require Import Owf FaestAes.
From Verif.Spec Require Import AesSpec OwfSpec ConstraintSpec ConstraintMap UHashMap.
From Verif.Proof Require Import BaseProof EmbedProof AesProof PrgProof ClaimProof WitnessProof DefectProof.
From Coq Require Import Lia.

Lemma F_of_big i : big_field (F_of i).
Proof. destruct i; cbn; unfold big_field; cbn; tauto. Qed.

Lemma defects_iff i w inp out : bytes_ok w -> bytes_ok inp -> bytes_ok out ->
  Forall (fun xy => defect (F_of i) xy = 0) (claims i w inp out) <-> Forall right (claims i w inp out).
Proof.
  intros HW HI HO. pose proof (claims_small i w inp out HW HI HO) as HS. rewrite !Forall_forall in *.
  split; intros H [x y] Hx; destruct (HS _ Hx) as [H1 H2]; cbn [fst snd] in *;
    apply (defect_0 (F_of i)); auto using F_of_big; apply H, Hx.
Qed.

Lemma owf_value_facts i key inp : lenN key = owf_key_size i -> bytes_ok key ->
  lenN inp = owf_input_size i -> bytes_ok inp ->
  lenN (owf_value i key inp) = owf_input_size i /\ bytes_ok (owf_value i key inp).
Proof.
  intros HKL HKB HIL HIB.
  assert (HB : forall b, bytes_ok (block (cipher_of i) inp b)) by (intros; apply Forall_takeN, Forall_dropN, HIB).
  assert (L1 : forall k x, lenN (Cipher (cipher_of i) k x) = 4 * Nb (cipher_of i))
    by (intros; apply (Cipher_len_in (mcipher i)), mcipher_in).
  assert (HLK : 4 * c_kw (mcipher i) <= lenN key) by (destruct (shape_ok i); lia).
  assert (B1 : forall x, bytes_ok x -> bytes_ok (Cipher (cipher_of i) key x))
    by (intros; apply (Cipher_bytes_in (mcipher i)); auto using mcipher_in).
  assert (B2 : 4 * c_kw (mcipher i) <= lenN inp -> bytes_ok (Cipher (cipher_of i) inp key))
    by (intros; apply (Cipher_bytes_in (mcipher i)); auto using mcipher_in).
  destruct i; unfold owf_value; cbn [cipher_of] in *; cbv zeta; (split;
    [rewrite ?map_combine_zipw, ?lenN_app, ?lenN_xor, ?L1 by (rewrite L1, HKL; reflexivity); reflexivity|]);
    rewrite ?map_combine_zipw;
    first [apply bytes_ok_xor; [apply B2; rewrite HIL; vm_compute; discriminate|exact HKB]
          |apply Forall_app; split; apply B1, HB|apply B1, HB].
Qed.

Lemma witness_valid i key inp out : lenN key = owf_key_size i -> bytes_ok key ->
  lenN inp = owf_input_size i -> bytes_ok inp ->
  owf i key inp = Ok (out, true) ->
  exists w, aes_extend_witness i key inp = Ok w /\ lenN w = p_l (param_of i) / 8 /\ bytes_ok w /\
    firstn (N.to_nat (owf_key_size i)) w = key /\
    Forall (fun xy => defect (F_of i) xy = 0) (claims i w inp out) /\
    Forall right (claims i w inp out).
Proof.
  intros HKL HKB HIL HIB HO.
  destruct (owf_correct i key inp HKL HKB HIL HIB) as (ok & E & HZ). rewrite HO in E. injection E as -> <-.
  destruct (owf_value_facts i key inp HKL HKB HIL HIB) as [OL OB].
  destruct (witness_facts i key inp HKL HKB HIB) as (WL & WB & WK).
  assert (HR : Forall right (claims i (witness i key inp) inp (owf_value i key inp))).
  { apply claims_iff; try assumption. rewrite WK. split; [tauto|]. split; reflexivity. }
  exists (witness i key inp). split; [apply witness_ok; assumption|]. split; [exact WL|]. split; [exact WB|].
  split; [exact WK|]. split; [|exact HR]. apply defects_iff; assumption.
Qed.

Lemma witness_sound i w inp out : lenN w = p_l (param_of i) / 8 -> bytes_ok w ->
  lenN inp = owf_input_size i -> bytes_ok inp -> lenN out = owf_input_size i -> bytes_ok out ->
  Forall (fun xy => defect (F_of i) xy = 0) (claims i w inp out) ->
  let key := firstn (N.to_nat (owf_key_size i)) w in
  owf i key inp = Ok (out, true) /\ aes_extend_witness i key inp = Ok w.
Proof.
  intros HWL HWB HIL HIB HOL HOB HD key. apply defects_iff in HD; try assumption.
  apply claims_iff in HD; try assumption. destruct HD as (HZ & EW & EO).
  change (takeN (owf_key_size i) w) with key in *.
  assert (HKL : lenN key = owf_key_size i).
  { change key with (takeN (owf_key_size i) w). rewrite lenN_takeN, HWL. destruct i; reflexivity. }
  assert (HKB : bytes_ok key) by (apply Forall_takeN, HWB).
  destruct (owf_correct i key inp HKL HKB HIL HIB) as (ok & E & HK).
  split.
  - rewrite E, EO. repeat f_equal. apply HK, HZ.
  - rewrite EW at 1. apply witness_ok; assumption.
Qed.
