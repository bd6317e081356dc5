(** Every history of an implementation of the state returns what FIPS 202 says. *)
From Verif.Model Require Import Keccak Sponge Sponge4 Snp Keccak32 SpongeOn.
From Verif.Spec Require Import KeccakSpec StateSpec.
From Verif.Proof Require Import BaseProof KeccakProof CompatProof SpongeProof ShakeProof ShakeRun Sponge4Shake SnpProof SnpImpl SpongeOnProof.
From Coq Require Import Lia ZifyBool ZifyNat ZifyN.
Ltac Zify.zify_post_hook ::= Z.div_mod_to_equations.

Lemma lenN_repeat {A} (x : A) n : lenN (repeat x n) = N.of_nat n.
Proof. unfold lenN. rewrite repeat_length. reflexivity. Qed.
Lemma bit_zero n k : bit (zero_bits n) k = false.
Proof. unfold bit, zero_bits. generalize (N.to_nat k). generalize (N.to_nat n). intros a. induction a as [|a IH]; intros [|j]; cbn; try reflexivity. apply IH. Qed.
Lemma bit_app a b n : bit (a ++ b) n = if n <? lenN a then bit a n else bit b (n - lenN a).
Proof.
  unfold bit, lenN. destruct (n <? N.of_nat (length a)) eqn:E; [apply app_nth1; lia|]. rewrite app_nth2 by lia. f_equal. lia.
Qed.
Lemma xor_bits b off data : lenN b = 200 -> off + lenN data <= 200 -> xor_bits_at (bits_of_bytes b) off data = bits_of_bytes (xor_at b off data).
Proof.
  intros HL HO. unfold xor_bits_at. change (N.of_nat (length data)) with (lenN data).
  set (Z := zero_bits (8 * off) ++ bits_of_bytes data ++ zero_bits (1600 - 8 * off - 8 * lenN data)).
  assert (LZ : lenN Z = 1600). { subst Z. rewrite !lenN_app, bits_length. unfold zero_bits. rewrite !lenN_repeat. lia. }
  assert (LB : lenN (bits_of_bytes b) = 1600) by (rewrite bits_length; lia). assert (LX : lenN (xor_at b off data) = 200) by (rewrite xor_at_len; lia).
  apply bits_list_ext; [rewrite xor_strings_len by lia; rewrite !bits_length, LX; lia|]. intros n Hn. rewrite xor_strings_len in Hn by lia. rewrite LB in Hn.
  rewrite xor_strings_bit by lia. rewrite !bits_bit, HL, LX. replace (n <? 8 * 200) with true by lia. unfold sbit. rewrite xor_at_nth by lia.
  subst Z. rewrite !bit_app, !bit_zero, bits_length. 
  assert (LZO : lenN (zero_bits (8 * off)) = 8 * off) by (unfold zero_bits; rewrite lenN_repeat; apply N2Nat.id). rewrite LZO, bits_bit.
  destruct ((off <=? n / 8) && (n / 8 <? off + lenN data)) eqn:E.
  - replace (n <? 8 * off) with false by lia. replace (n - 8 * off <? 8 * lenN data) with true by lia. rewrite N.lxor_spec. unfold sbit.
    replace ((n - 8 * off) / 8) with (n / 8 - off) by lia. replace ((n - 8 * off) mod 8) with (n mod 8) by lia. reflexivity.
  - rewrite N.lxor_0_r. destruct (n <? 8 * off) eqn:E2; [apply xorb_false_r|]. replace (n - 8 * off <? 8 * lenN data) with false by lia. apply xorb_false_r.
Qed.
Lemma extract_bits b off n : lenN b = 200 -> bytes_ok b -> off + n <= 200 -> map (fun k => byte_of_bits (bits_of_bytes b) (off + k)) (below n) = takeN n (dropN off b).
Proof.
  intros HL HB HO. rewrite below_Nrange. apply (list_ext 0); [rewrite lenN_map, lenN_Nrange, lenN_takeN, lenN_dropN; lia|]. intros j Hj. rewrite lenN_map, lenN_Nrange in Hj.
  rewrite (nthN_map _ _ _ 0), nthN_Nrange, nthN_takeN, nthN_dropN by (rewrite ?lenN_Nrange; lia). apply byte_of_bits_spec.
  - apply nthN_byte, HB.
  - intros i Hi. rewrite bits_bit. replace (8 * (off + j) + i <? 8 * lenN b) with true by lia. unfold sbit.
    replace ((8 * (off + j) + i) / 8) with (off + j) by lia. replace ((8 * (off + j) + i) mod 8) with i by lia. reflexivity.
Qed.
Lemma history I R : implements I R -> forall h s b, R s b -> Forall op_in_range h -> performed I s h = Ok (described (bits_of_bytes b) h).
Proof.
  intros HI. induction h as [|o h IH]; intros s b HR HH; [reflexivity|]. inversion HH as [|? ? HO HH']; subst. destruct (im_bytes I R HI s b HR) as (HL & HB).
  destruct o as [off data|off x|off n|]; cbn [performed described op_in_range] in *.
  - destruct HO as (HO & HD). change (N.of_nat (length data)) with (lenN data) in HO. destruct (im_add_bytes I R HI s b data off HR HD HO) as (s' & -> & HR'). cbn [bind].
    rewrite xor_bits by lia. apply IH; assumption.
  - destruct HO as (HO & HD). destruct (im_add_byte I R HI s b x off HR HD HO) as (s' & -> & HR'). cbn [bind].
    rewrite xor_bits by (try assumption; change (lenN [x]) with 1; lia). apply IH; assumption.
  - rewrite (im_extract I R HI s b off n HR HO). cbn [bind]. rewrite (IH s b HR HH'). cbn [bind]. rewrite extract_bits by (try assumption; lia). reflexivity.
  - destruct (im_permute I R HI s b HR) as (s' & b' & -> & E & HR'). cbn [bind]. destruct (permute_ok b HL HB) as (b2 & E2 & _ & _ & E3). rewrite E in E2. injection E2 as <-.
    rewrite <- E3. apply IH; assumption.
Qed.
Lemma zero_state : bits_of_bytes (zeros 200) = zero_bits 1600.
Proof. reflexivity. Qed.

Definition builds : list snp := [opt64 LittleEndian; opt64 BigEndian; plain32 LittleEndian; plain32 BigEndian].
Lemma builds_implement I : In I builds -> exists R, implements I R.
Proof.
  intros H. cbn [In builds] in H. destruct H as [<- | [<- | [<- | [<- | []]]]];
    [exists RR64; apply opt64_implements|exists RR64; apply opt64_implements|exists RR32; apply plain32_implements|exists RR32; apply plain32_implements].
Qed.
Lemma history_all I h : In I builds -> Forall op_in_range h -> performed I (snp_init I) h = Ok (described (zero_bits 1600) h).
Proof.
  intros HI HH. destruct (builds_implement I HI) as (R & H). rewrite <- zero_state. apply (history I R H); [apply (im_init I R H)|exact HH].
Qed.
Lemma shake_all I sec pieces lens : In I builds ->
  Forall (Forall (fun b => b < 256)) pieces -> Forall (fun m => lenN m + 200 <= 2 ^ 32) pieces -> Forall (fun n => n + 200 <= 2 ^ 32) lens ->
  exists outs, hash_run_on I sec pieces lens = Ok outs /\ map lenN outs = lens /\ concat outs = shake sec (concat pieces) (fold_right N.add 0 lens).
Proof.
  intros HI HB HL HN. destruct (builds_implement I HI) as (R & H). destruct (run_ok sec pieces lens HB HL HN) as (outs & E & E1 & E2).
  destruct (sim_run I R H sec pieces lens HB outs E) as (o & Eo & ->). exists outs. split; [exact Eo|split; assumption].
Qed.
Lemma shake4_all I sec pieces lens : In I builds ->
  Forall (fun m => length m = 4%nat /\ forall a b, In a m -> In b m -> lenN a = lenN b) pieces ->
  Forall (Forall (Forall (fun b => b < 256))) pieces -> Forall (Forall (fun m => lenN m + 200 <= 2 ^ 32)) pieces ->
  Forall (fun n => n + 200 <= 2 ^ 32) lens ->
  exists outs, hash_run_4_on I sec pieces lens = Ok outs /\ Forall (fun p => length p = 4%nat) outs /\
    forall j, j < 4 ->
      map (fun o => lenN (nth (N.to_nat j) o [])) outs = lens /\
      concat (map (fun o => nth (N.to_nat j) o []) outs) =
      shake sec (concat (map (fun m => nth (N.to_nat j) m []) pieces)) (fold_right N.add 0 lens).
Proof.
  intros HI H4 HB HL HN. destruct (builds_implement I HI) as (R & H). destruct (run_4_shake sec pieces lens H4 HB HL HN) as (outs & E & E1 & E2).
  destruct (sim_run4 I R H sec pieces lens HB outs E) as (o & Eo & ->). exists outs. split; [exact Eo|split; assumption].
Qed.
(** whatever the sizes, where the little-endian byte model is defined, every build gives the same *)
Lemma same_all I sec pieces lens outs : In I builds -> Forall (Forall (fun b => b < 256)) pieces ->
  hash_run KeccakP1600_Permute_24rounds sec pieces lens = Ok outs -> hash_run_on I sec pieces lens = Ok outs.
Proof.
  intros HI HB E. destruct (builds_implement I HI) as (R & H). destruct (sim_run I R H sec pieces lens HB outs E) as (o & Eo & ->). exact Eo.
Qed.
