(** The statements of C50. *)
From Verif.Model Require Import Vole UHash Owf FaestAes Api Faest.
From Verif.Spec Require Import AesSpec OwfSpec ConstraintSpec ConstraintMap FormatSpec FormatMap UHashSpec UHashMap VoleSpec ProofSpec
  VcSpec RunSpec SoundSpec ViewSpec.
From Verif.Proof Require Import BaseProof FormatProof UHashProof UHashProps WitnessProps VoleProof VoleProps CorrectProof RowsProof ProveProof AgreeProof AgreeProps
  PrgProof VcProof VcProps VerifyProof VerifyProps SoundProps ViewProof.
From Coq Require Import Lia ZifyBool ZifyNat ZifyN.
Ltac Zify.zify_post_hook ::= Z.div_mod_to_equations.

Lemma view_one : forall i w inp out chall_1 chall_2 chall_3 d ut a Q,
  let p := param_of i in let n := p_lambda p in let l := p_l p in let L := (l + 2 * n + 16) / 8 in
  lenN w = l / 8 -> bytes_ok w ->
  lenN inp = owf_input_size i -> bytes_ok inp -> lenN out = owf_input_size i -> bytes_ok out ->
  lenN chall_1 = 5 * (n / 8) + 8 -> bytes_ok chall_1 -> lenN chall_2 = 3 * (n / 8) + 8 -> bytes_ok chall_2 ->
  lenN chall_3 = n / 8 -> bytes_ok chall_3 ->
  lenN d = l / 8 -> bytes_ok d -> lenN ut = n / 8 + 2 -> bytes_ok ut -> lenN a = n / 8 -> bytes_ok a -> matrix n L Q ->
  exists u V,
    (lenN u = L /\ bytes_ok u /\ matrix n L V /\ shows i w inp out chall_1 chall_2 chall_3 u V d ut a Q) /\
    forall u' V', lenN u' = L -> bytes_ok u' -> matrix n L V' -> shows i w inp out chall_1 chall_2 chall_3 u' V' d ut a Q -> u' = u /\ V' = V.
Proof.
  intros i w inp out ch1 ch2 ch3 d ut a Q p n l L LW BW LI BI LO BO LC1 BC1 LC2 BC2 LC3 BC3 LD BD LUT BUT LA BA MQ.
  exists (sol i w inp out ch1 ch2 ch3 d ut a Q), (mkV i ch3 (sol i w inp out ch1 ch2 ch3 d ut a Q) Q). split.
  - assert (H1 : lenN (sol i w inp out ch1 ch2 ch3 d ut a Q) = L) by (apply sol_len; assumption).
    assert (H2 : bytes_ok (sol i w inp out ch1 ch2 ch3 d ut a Q)) by (apply sol_bytes; assumption).
    split; [exact H1|]. split; [exact H2|]. split; [apply mkV_matrix; assumption|]. apply sol_shows; assumption.
  - intros u' V' LU BU MV SH. apply sol_unique; assumption.
Qed.

(** what the prover hashes besides, from what it shows *)
Lemma view_rest : forall i w inp out chall_1 chall_2 chall_3 u V d ut a Q,
  let p := param_of i in let n := p_lambda p in let l := p_l p in let L := (l + 2 * n + 16) / 8 in
  lenN w = l / 8 -> bytes_ok w ->
  lenN inp = owf_input_size i -> bytes_ok inp -> lenN out = owf_input_size i -> bytes_ok out ->
  lenN chall_1 = 5 * (n / 8) + 8 -> bytes_ok chall_1 -> lenN chall_2 = 3 * (n / 8) + 8 -> bytes_ok chall_2 ->
  lenN chall_3 = n / 8 -> bytes_ok chall_3 ->
  lenN u = L -> bytes_ok u -> matrix n L V -> shows i w inp out chall_1 chall_2 chall_3 u V d ut a Q ->
  (Forall (fun xy => defect (F_of i) xy = 0) (claims i w inp out) ->
   exists b, aes_prove p w u V inp out chall_2 = Ok (a, b) /\ aes_verify p d Q chall_2 chall_3 a inp out = Ok b) /\
  forall j, j < n -> exists h hq,
    vole_hash n chall_1 (nth (N.to_nat j) V []) l = Ok h /\ vole_hash n chall_1 (nth (N.to_nat j) Q []) l = Ok hq /\
    h = xors hq (scale (bit_at chall_3 j) ut).
Proof.
  intros i w inp out ch1 ch2 ch3 u V d ut a Q p n l L LW BW LI BI LO BO LC1 BC1 LC2 BC2 LC3 BC3 LU BU MV (S0 & S1 & (b & S2) & S3).
  pose proof (L_split i) as [E1 E2]. pose proof (set_ok i) as SF. pose proof (sf_l8 i SF) as H8l. pose proof (sf_n8 i SF) as H8n.
  cbv zeta in S0, S1, S2, S3. fold p n l L in S0, S1, S2, S3, E1, E2, H8l, H8n. split.
  - intros HZ. pose proof (zero_defects i ch2 w inp out BC2 HZ) as HD.
    assert (HU : l + n <= 8 * lenN u) by (rewrite LU; lia). assert (HC : 3 * (n / 8) + 8 <= lenN ch2) by (rewrite LC2; apply N.le_refl).
    assert (MV' : matrix n (lenN u) V) by (rewrite LU; exact MV).
    destruct (honest_agrees i w u V Q inp out ch2 ch3 LW BW LI BI LO BO HU BU MV' S3 HC BC2 LC3 BC3 HD) as (a1 & a0 & A1 & _ & _ & _ & _ & A2).
    fold p l in A1, A2. rewrite S2 in A1. injection A1 as <- <-. exists b. split; [exact S2|]. rewrite S0. exact A2.
  - intros j Hj. destruct MV as [LV HV]. destruct (HV j Hj) as [V1 V2]. destruct S3 as [LQ HQ]. specialize (HQ j Hj).
    pose proof (hash_ok i ch1 LC1 BC1 u LU BU) as HH. fold p n l in HH. rewrite HH in S1. injection S1 as S1.
    set (v := nth (N.to_nat j) V []) in *. set (q := nth (N.to_nat j) Q []) in *. change (N.of_nat (length v)) with (lenN v) in V1.
    rewrite xors_eq, (scale_eq L) in HQ by exact LU.
    assert (LS : lenN (sel L (bit_at ch3 j) u) = L) by (apply sel_len; exact LU).
    assert (BS : bytes_ok (sel L (bit_at ch3 j) u)) by (apply sel_bytes; exact BU).
    assert (Lq : lenN q = L) by (rewrite HQ, lenN_xor; [exact V1|rewrite LS; exact V1]).
    assert (Bq : bytes_ok q) by (rewrite HQ; apply bytes_ok_xor; assumption).
    exists (vole_hash_spec (F_of i) ch1 v l), (vole_hash_spec (F_of i) ch1 q l).
    split; [apply (hash_ok i ch1 LC1 BC1); assumption|]. split; [apply (hash_ok i ch1 LC1 BC1); assumption|].
    assert (HL : (l + f_n (F_of i)) / 8 + f_n (F_of i) / 8 + 2 <= L).
    { rewrite (sf_n i SF). fold p n. rewrite E2. lia. }
    assert (LH : lenN ut = n / 8 + 2) by (rewrite <- S1; apply hash_len_ok; [rewrite LU; exact E1|exact BU]).
    rewrite HQ, vole_spec_linear; try assumption; [|exact (sf_in i SF)|rewrite LS; exact V1|rewrite (sf_n i SF); exact (sf_64 i SF)|rewrite V1; exact HL].
    rewrite xors_eq, (scale_eq (n / 8 + 2)) by exact LH.
    assert (ES : vole_hash_spec (F_of i) ch1 (sel L (bit_at ch3 j) u) l = sel (n / 8 + 2) (bit_at ch3 j) ut).
    { unfold sel. destruct (bit_at ch3 j); [exact S1|].
      assert (EZ : zeros L = xor_bytes u u) by (rewrite xor_bytes_nilpotent, LU; reflexivity).
      rewrite EZ, vole_spec_linear; try assumption; [|exact (sf_in i SF)|reflexivity|rewrite (sf_n i SF); exact (sf_64 i SF)|rewrite LU; exact HL].
      rewrite S1, xor_bytes_nilpotent, LH. reflexivity. }
    rewrite ES, xor_bytes_cancel; [reflexivity|].
    assert (LV2 : lenN v = l / 8 + n / 8 + (n / 8 + 2)) by (rewrite V1; exact E1).
    pose proof (proj1 (hash_len_ok i ch1 v LV2 V2)) as HLv. fold p n l in HLv. rewrite HLv. unfold sel. destruct (bit_at ch3 j); [rewrite LH; reflexivity|rewrite lenN_zeros; reflexivity].
Qed.

Lemma simulation : forall xof i pk msg s,
  xof_sized xof -> lenN pk = pk_size i -> bytes_ok pk -> lenN s = sig_size i -> bytes_ok s -> lenN msg + 168 <= 2 ^ 32 ->
  exists q, forall x, xof_sized x -> reprogrammed q xof x ->
    last_query x i pk msg s q /\
    (verify x i (Some pk) (Some msg) (lenN msg) (Some s) (sig_size i) = Ok 0%Z <->
     H2 x (p_lambda (param_of i)) q (p_lambda (param_of i) / 8) = part_of i s Challenge_3).
Proof.
  intros xof i pk msg s HX LP BP LS BS HM.
  destruct (verify_api xof HX i pk msg s LP BP LS BS) as (b & Eb & Lb & _). exists (chall_3_in xof i pk msg s b). intros x HX' HR.
  assert (LQ : lenN (chall_3_in xof i pk msg s b) = 5 * (p_lambda (param_of i) / 8) + 8).
  { unfold chall_3_in, chall_2, H2. rewrite !lenN_app, (xof_len xof HX), Lb. rewrite (part_len i s LS) by (apply In_parts; exact I). cbn [part_size]. lia. }
  set (q := chall_3_in xof i pk msg s b) in *.
  assert (EB : b_tilde x i pk msg s = Ok b) by (rewrite (b_tilde_re xof x q HR i HX LQ pk msg s (conj LS BS)); exact Eb).
  assert (EQ : chall_3_in x i pk msg s b = q).
  { unfold q, chall_3_in. rewrite (chall_2_re xof x q HR i HX LQ pk msg s (conj LS BS)). reflexivity. }
  split; [exists b; auto|]. destruct (verify_api x HX' i pk msg s LP BP LS BS) as (b' & Eb' & _ & EV). rewrite EB in Eb'. injection Eb' as <-.
  rewrite EQ, (mu_short i (lenN msg) HM) in EV. rewrite EV. clear EV. destruct (bytes_eqb _ _) eqn:E.
  - split; intros _; [apply bytes_eqb_eq, E|reflexivity].
  - split; intros H; [discriminate H|]. rewrite (proj2 (bytes_eqb_eq _ _) H) in E. discriminate E.
Qed.
