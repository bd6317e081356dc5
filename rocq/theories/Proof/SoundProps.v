(** The extraction for oracles that differ at one query, and the honest signer. *)
From Verif.Model Require Import Api.
From Verif.Spec Require Import OwfSpec VcSpec VoleSpec VoleMap FormatSpec FormatMap UHashSpec UHashMap ConstraintSpec ConstraintMap ProofSpec RunSpec SignSpec KeySpec SoundSpec.
From Verif.Proof Require Import BaseProof PrgProof VcProof VcProps VoleProof VoleProps FormatProof CorrectProof UHashProof UHashProps
  WitnessProof WitnessProps RowsProof ProveProof AgreeProps VerifyProof VerifyProps SignProof HonestProof ApiProof ApiProps SoundProof.
From Coq Require Import Lia ZifyBool ZifyNat ZifyN.
Ltac Zify.zify_post_hook ::= Z.div_mod_to_equations.

Lemma extraction xof i pk msg s1 s2 s3 q : xof_sized xof -> lenN pk = pk_size i -> bytes_ok pk ->
  (forall s, In s [s1; s2; s3] -> run_ok i s /\ last_query xof i pk msg s q) ->
  NoDup (map (fun s => part_of i s Challenge_3) [s1; s2; s3]) ->
  (exists a a' t, In a [s1; s2; s3] /\ In a' [s1; s2; s3] /\ t < p_tau (param_of i) /\ leaf_hidden i a t <> leaf_hidden i a' t) /\
  forall a a' t, In a [s1; s2; s3] -> In a' [s1; s2; s3] -> t < p_tau (param_of i) -> leaf_hidden i a t <> leaf_hidden i a' t ->
    validate_keypair i (Some pk) (Some (known_sk xof i a a' t pk)) = Ok 0%Z \/
    zk_hash_miss xof i a a' t pk msg \/ vole_hash_miss xof i pk msg [s1; s2; s3] \/
    exists s s', In s [s1; s2; s3] /\ In s' [s1; s2; s3] /\ run_collision xof i pk msg s s'.
Proof.
  intros HX HPL HPB HS HND. split.
  { destruct (level_or N.eq_dec (leaf_hidden i s1) (leaf_hidden i s2) (p_tau (param_of i)) (fun _ => true)) as [Q|(t & T1 & _ & T2)].
    - exfalso. inversion HND as [|? ? N1 _]; subst. apply N1. left. symmetry. apply (hid_inj i); [apply HS; cbn; auto|apply HS; cbn; auto|].
      intros t Ht. apply (Q t Ht eq_refl).
    - exists s1, s2, t. cbn. auto. }
  intros a a' t Ia Ia' Ht Hne.
  assert (HB : exists b, (forall s, In s [s1; s2; s3] -> b_tilde xof i pk msg s = Ok b) /\ (forall s s', In s [s1; s2; s3] -> In s' [s1; s2; s3] -> same_prefix xof i pk msg s s') \/
      exists s s', In s [s1; s2; s3] /\ In s' [s1; s2; s3] /\ run_collision xof i pk msg s s').
  { assert (LB : forall s b, run_ok i s -> b_tilde xof i pk msg s = Ok b -> lenN b = p_lambda (param_of i) / 8).
    { intros s b [SL SB] E. destruct (verify_api xof HX i pk msg s HPL HPB SL SB) as (b' & E' & L' & _). rewrite E in E'. injection E' as ->. exact L'. }
    assert (D : forall s s', In s [s1; s2; s3] -> In s' [s1; s2; s3] ->
      (same_prefix xof i pk msg s s' /\ b_tilde xof i pk msg s = b_tilde xof i pk msg s') \/ run_collision xof i pk msg s s').
    { intros s s' Is Is'. destruct (HS s Is) as (R & b & E & Q). destruct (HS s' Is') as (R' & b' & E' & Q').
      destruct (same_or_collision xof HX i pk msg s s' b b' R R' (LB _ _ R E) (LB _ _ R' E') ltac:(congruence)) as [[A B]|A]; [left|right; exact A].
      split; [exact A|congruence]. }
    destruct (HS s1 ltac:(cbn; auto)) as (_ & b & E & _). exists b.
    assert (G : (forall s s', In s [s1; s2; s3] -> In s' [s1; s2; s3] -> same_prefix xof i pk msg s s' /\ b_tilde xof i pk msg s = b_tilde xof i pk msg s') \/
      exists s s', In s [s1; s2; s3] /\ In s' [s1; s2; s3] /\ run_collision xof i pk msg s s').
    { clear - D. generalize dependent [s1; s2; s3]. intros l D.
      assert (G : forall l1 l2, incl l1 l -> incl l2 l ->
        (forall s s', In s l1 -> In s' l2 -> same_prefix xof i pk msg s s' /\ b_tilde xof i pk msg s = b_tilde xof i pk msg s') \/
        exists s s', In s l /\ In s' l /\ run_collision xof i pk msg s s').
      { induction l1 as [|x l1 IH]; intros l2 H1 H2; [left; intros ? ? []|].
        destruct (IH l2 ltac:(intros y Hy; apply H1; right; exact Hy) H2) as [A|A]; [|auto].
        assert (B : (forall s', In s' l2 -> same_prefix xof i pk msg x s' /\ b_tilde xof i pk msg x = b_tilde xof i pk msg s') \/
          exists s s', In s l /\ In s' l /\ run_collision xof i pk msg s s').
        { assert (Hx : In x l) by (apply H1; left; reflexivity). clear - D H2 Hx. induction l2 as [|y l2 IH]; [left; intros ? []|].
          destruct (IH ltac:(intros z Hz; apply H2; right; exact Hz)) as [A|A]; [|auto]. assert (Hy : In y l) by (apply H2; left; reflexivity).
          destruct (D x y Hx Hy) as [B|B]; [|right; exists x, y; auto]. left. intros s' [<-|Hs]; [exact B|apply A, Hs]. }
        destruct B as [B|B]; [|auto]. left. intros s s' [<-|Hs] Hs'; [apply B, Hs'|apply A; assumption]. }
      apply (G l l); intros y Hy; exact Hy. }
    destruct G as [G|G]; [left|right; exact G]. split.
    - intros s Is. rewrite <- E. symmetry. apply G; [cbn; auto|exact Is].
    - intros s s' Is Is'. apply G; assumption. }
  destruct HB as (b & [[B1 B2]|C]); [|tauto].
  destruct (extract_two xof HX i pk msg HPL HPB s1 s2 s3 b (fun s Hs => proj1 (HS s Hs)) B1 B2 a a' t Ia Ia' Ht Hne HND) as [A|[A|A]]; tauto.
Qed.

(** * Oracles that differ at the last query only *)
Section Reprogram.
Variables xof xof' : N -> list N -> N -> list N.
Variable q : list N.
Hypothesis HR : reprogrammed q xof xof'.
Variable i : paramid.
Local Notation p := (param_of i).
Local Notation lambda := (p_lambda p).
Local Notation lb := (p_lambda p / 8).
Local Notation L := (ellhat_bytes p).

Lemma tag_neq d k : k <> 2 -> d ++ [k] <> q ++ [2].
Proof using. intros Hk E. apply app_inj_tail in E. destruct E as [_ E]. contradiction. Qed.
Lemma H1_re d : H1 xof' lambda d = H1 xof lambda d.
Proof using HR. apply HR, tag_neq. discriminate. Qed.
Lemma H3_re d : H3 xof' lambda d = H3 xof lambda d.
Proof using HR. apply HR, tag_neq. discriminate. Qed.
Lemma H0_re l iv : H0 xof' lambda l iv = H0 xof lambda l iv.
Proof using HR. unfold H0. rewrite app_assoc. apply HR, tag_neq. discriminate. Qed.
Lemma H2_re d n : lenN d <> lenN q -> H2 xof' lambda d n = H2 xof lambda d n.
Proof using HR. intros H. apply HR. intros E. apply app_inj_tail in E. destruct E as [-> _]. contradiction. Qed.
Lemma seed_re l iv : leaf_seed xof' lambda l iv = leaf_seed xof lambda l iv.
Proof using HR. unfold leaf_seed. rewrite H0_re. reflexivity. Qed.
Lemma com_re l iv : leaf_com xof' lambda l iv = leaf_com xof lambda l iv.
Proof using HR. unfold leaf_com. rewrite H0_re. reflexivity. Qed.

Lemma sizes_big : 5 * lb + 8 < 4 * lb + (p_tau p - 1) * L.
Proof using. destruct i; reflexivity. Qed.

Hypothesis HX : xof_sized xof.
Hypothesis HX' : xof_sized xof'.
Hypothesis HQ : lenN q = 5 * lb + 8.

(** ** the verifier *)
Variables pk msg : list N.
Section Verifier.
Variable sig : list N.
Hypothesis Rs : run_ok i sig.
Lemma mask_re t x : mask xof' i sig t x = mask xof i sig t x.
Proof using HR. unfold mask. cbv zeta. rewrite seed_re. reflexivity. Qed.
Lemma column_re n : column xof' i sig n = column xof i sig n.
Proof using HR.
  unfold column, raw_column. cbv zeta. f_equal. f_equal. apply map_ext. intros x. apply mask_re.
Qed.
Lemma hcom_in_re : hcom_in xof' i sig = hcom_in xof i sig.
Proof using HR.
  unfold hcom_in. f_equal. apply map_ext. intros t. rewrite H1_re. f_equal. unfold tree_in. cbv zeta. f_equal. apply map_ext. intros x.
  rewrite com_re. reflexivity.
Qed.
Lemma chall_1_in_re : chall_1_in xof' i pk msg sig = chall_1_in xof i pk msg sig.
Proof using HR. unfold chall_1_in. cbv zeta. rewrite !H1_re, hcom_in_re. reflexivity. Qed.
Lemma chall_1_re : chall_1 xof' i pk msg sig = chall_1 xof i pk msg sig.
Proof using HR HX HQ Rs.
  unfold chall_1. rewrite chall_1_in_re. apply H2_re. rewrite HQ. unfold chall_1_in. cbv zeta. rewrite !lenN_app, !(H1_len xof HX i), map_upto.
  destruct Rs as [SL SB].
  rewrite (concat_var_len (fun k => k * L)); [pose proof sizes_big; lia|reflexivity|].
  intros k Hk. rewrite (part_len i sig SL) by (apply In_parts; exact Hk). cbn [part_size]. rewrite L_eq. lia.
Qed.
Lemma hv_in_re : hv_in xof' i pk msg sig = hv_in xof i pk msg sig.
Proof using HR HX HQ Rs. unfold hv_in. cbv zeta. f_equal. apply map_ext. intros n. rewrite chall_1_re, column_re. reflexivity. Qed.
Lemma chall_2_re : chall_2 xof' i pk msg sig = chall_2 xof i pk msg sig.
Proof using HR HX HQ Rs.
  unfold chall_2. assert (E : chall_2_in xof' i pk msg sig = chall_2_in xof i pk msg sig).
  { unfold chall_2_in. cbv zeta. rewrite chall_1_re, hv_in_re, H1_re. reflexivity. }
  rewrite E. apply H2_re. rewrite HQ. unfold chall_2_in. cbv zeta. rewrite !lenN_app. unfold chall_1, H2. rewrite (xof_len xof HX), (H1_len xof HX i).
  assert (lb > 0) by (destruct i; reflexivity). lia.
Qed.
Lemma b_tilde_re : b_tilde xof' i pk msg sig = b_tilde xof i pk msg sig.
Proof using HR HX HQ Rs.
  unfold b_tilde. cbv zeta. rewrite chall_2_re. f_equal. apply map_ext. apply column_re.
Qed.
Lemma last_query_re q' : last_query xof' i pk msg sig q' -> last_query xof i pk msg sig q'.
Proof using HR HX HQ Rs. intros (b & E & Q). exists b. rewrite <- b_tilde_re. split; [exact E|]. unfold chall_3_in in *. rewrite <- chall_2_re. exact Q. Qed.
End Verifier.

(** ** the signer *)
Variables key r : list N.
Lemma mu_re : mu xof' i pk msg = mu xof i pk msg.
Proof using HR. apply H1_re. Qed.
Lemma root_iv_re : root_iv xof' i key pk msg r = root_iv xof i key pk msg r.
Proof using HR. unfold root_iv. rewrite mu_re. apply H3_re. Qed.
Lemma iv_re : s_iv xof' i key pk msg r = s_iv xof i key pk msg r.
Proof using HR. unfold s_iv. rewrite root_iv_re. reflexivity. Qed.
Lemma s_leaf_re t x : s_leaf xof' i key pk msg r t x = s_leaf xof i key pk msg r t x.
Proof using HR. unfold s_leaf, root, rootkey. rewrite iv_re, root_iv_re. reflexivity. Qed.
Lemma s_mask_re t x : s_mask xof' i key pk msg r t x = s_mask xof i key pk msg r t x.
Proof using HR. unfold s_mask. rewrite iv_re, s_leaf_re, seed_re. reflexivity. Qed.
Lemma s_u_re t : s_u xof' i key pk msg r t = s_u xof i key pk msg r t.
Proof using HR. unfold s_u. f_equal. apply map_ext. intros x. apply s_mask_re. Qed.
Lemma s_column_re n : s_column xof' i key pk msg r n = s_column xof i key pk msg r n.
Proof using HR. unfold s_column, s_v. f_equal. apply map_ext. intros x. apply s_mask_re. Qed.
Lemma s_chall_1_re : s_chall_1 xof' i key pk msg r = s_chall_1 xof i key pk msg r.
Proof using HR HX HQ.
  unfold s_chall_1. rewrite mu_re, iv_re.
  assert (E1 : s_hcom xof' i key pk msg r = s_hcom xof i key pk msg r).
  { unfold s_hcom. rewrite H1_re. f_equal. f_equal. apply map_ext. intros t. rewrite H1_re. f_equal. f_equal. apply map_ext. intros x.
    unfold s_com. rewrite s_leaf_re, iv_re. apply com_re. }
  assert (E2 : map (s_correction xof' i key pk msg r) (upto (p_tau p - 1)) = map (s_correction xof i key pk msg r) (upto (p_tau p - 1))).
  { apply map_ext. intros k. unfold s_correction. rewrite !s_u_re. reflexivity. }
  rewrite E1, E2. apply H2_re. rewrite HQ. unfold mu, s_hcom. rewrite !lenN_app, !(H1_len xof HX i), map_upto.
  rewrite (concat_var_len (fun k => k * L)); [pose proof sizes_big; lia|reflexivity|].
  intros k Hk. unfold s_correction. rewrite xors_eq. 
  assert (UL : forall t, lenN (s_u xof i key pk msg r t) = L).
  { intros t. unfold s_u. cbv zeta. rewrite xors_fold, L_eq, map_upto. apply Xs_len, all_len_tab. intros x _. unfold s_mask. cbv zeta.
    rewrite ctr_bytes_stream, stream_len. apply L_eq. }
  rewrite lenN_xor; rewrite !UL; lia.
Qed.
Lemma s_chall_2_re w : s_chall_2 xof' i key pk msg r w = s_chall_2 xof i key pk msg r w.
Proof using HR HX HQ.
  unfold s_chall_2, s_u_tilde, s_hv, s_d. rewrite !s_u_re, s_chall_1_re, H1_re.
  assert (E : map (fun n => vole_hash_spec (F_of i) (s_chall_1 xof i key pk msg r) (s_column xof' i key pk msg r n) (p_l p)) (upto lambda) =
              map (fun n => vole_hash_spec (F_of i) (s_chall_1 xof i key pk msg r) (s_column xof i key pk msg r n) (p_l p)) (upto lambda)).
  { apply map_ext. intros n. rewrite s_column_re. reflexivity. }
  rewrite E. apply H2_re. rewrite HQ, !lenN_app. unfold s_chall_1 at 1, H2. rewrite (xof_len xof HX), (H1_len xof HX i).
  assert (lb > 0) by (destruct i; reflexivity). lia.
Qed.
End Reprogram.

Lemma forking xof x1 x2 x3 i pk msg s1 s2 s3 q : xof_sized xof -> lenN pk = pk_size i -> bytes_ok pk ->
  (forall x s, In (x, s) [(x1, s1); (x2, s2); (x3, s3)] ->
     xof_sized x /\ reprogrammed q xof x /\ lenN s = sig_size i /\ bytes_ok s /\
     verify x i (Some pk) (Some msg) (lenN msg) (Some s) (sig_size i) = Ok 0%Z /\ last_query x i pk msg s q) ->
  NoDup (map (fun x => H2 x (p_lambda (param_of i)) q (p_lambda (param_of i) / 8)) [x1; x2; x3]) ->
  (exists a a' t, In a [s1; s2; s3] /\ In a' [s1; s2; s3] /\ t < p_tau (param_of i) /\ leaf_hidden i a t <> leaf_hidden i a' t) /\
  forall a a' t, In a [s1; s2; s3] -> In a' [s1; s2; s3] -> t < p_tau (param_of i) -> leaf_hidden i a t <> leaf_hidden i a' t ->
    validate_keypair i (Some pk) (Some (known_sk xof i a a' t pk)) = Ok 0%Z \/
    zk_hash_miss xof i a a' t pk msg \/ vole_hash_miss xof i pk msg [s1; s2; s3] \/
    exists s s', In s [s1; s2; s3] /\ In s' [s1; s2; s3] /\ run_collision xof i pk msg s s'.
Proof.
  intros HX HPL HPB HS HND.
  assert (G : forall x s, In (x, s) [(x1, s1); (x2, s2); (x3, s3)] ->
    run_ok i s /\ last_query xof i pk msg s q /\ part_of i s Challenge_3 = H2 x (p_lambda (param_of i)) q (p_lambda (param_of i) / 8)).
  { intros x s Hin. destruct (HS x s Hin) as (HX' & HR & SL & SB & HV & HL). split; [split; assumption|].
    destruct (accept_inv x HX' i pk msg s HPL HPB SL SB HV) as (b & Eb & Lb & E3). destruct HL as (b' & Eb' & EQ).
    rewrite Eb in Eb'. injection Eb' as <-. rewrite EQ in E3.
    assert (LQ : lenN q = 5 * (p_lambda (param_of i) / 8) + 8).
    { rewrite <- EQ. unfold chall_3_in, chall_2, H2. rewrite !lenN_app, (xof_len x HX'), Lb. rewrite (part_len i s SL) by (apply In_parts; exact I).
      cbn [part_size]. lia. }
    split; [|symmetry; exact E3]. apply (last_query_re xof x q HR i HX LQ pk msg s (conj SL SB)). exists b. auto. }
  destruct (G x1 s1 ltac:(cbn; auto)) as (R1 & Q1 & C1). destruct (G x2 s2 ltac:(cbn; auto)) as (R2 & Q2 & C2). destruct (G x3 s3 ltac:(cbn; auto)) as (R3 & Q3 & C3).
  apply (extraction xof i pk msg s1 s2 s3 q); try assumption.
  - intros s [<-|[<-|[<-|[]]]]; auto.
  - cbn [map] in *. rewrite C1, C2, C3. exact HND.
Qed.

(** * The honest signer *)
Section Honest.
Variable xof : N -> list N -> N -> list N.
Hypothesis HX : xof_sized xof.
Variable i : paramid.
Local Notation p := (param_of i).
Local Notation lambda := (p_lambda p).
Local Notation lb := (p_lambda p / 8).
Local Notation L := (ellhat_bytes p).
Variables key inp out msg r w a b : list N.
Local Notation pk := (inp ++ out).
Hypothesis Hw : lenN w = p_l p / 8 /\ bytes_ok w.
Hypothesis Ha : lenN a = lb /\ bytes_ok a.
Hypothesis Hb : lenN b = lb /\ bytes_ok b.
Local Notation S := (signature_spec xof i key pk msg r w a b).
Local Notation iv := (s_iv xof i key pk msg r).
Local Notation rk := (rootkey xof i key pk msg r).

Lemma leaf_honest t x : t < p_tau p -> x < 2 ^ tree_depth p t -> x <> leaf_hidden i S t -> leaf_of i S t x = s_leaf xof i key pk msg r t x.
Proof using HX Hw Ha Hb.
  intros Ht Hx Hne.
  pose proof (SL xof HX i key inp out msg r w a b Hw Ha Hb) as HL. pose proof (SB xof HX i key inp out msg r w a b Hw Ha Hb) as HB.
  destruct (iv_ok xof HX i key inp out msg r) as [I1 I2]. destruct (rk_ok xof HX i key inp out msg r) as [K1 K2].
  pose proof (vole_params_ok i) as VP. pose proof (depth_bound p VP t) as HD.
  unfold leaf_of, node_of. cbv zeta. change (depth_of p t) with (tree_depth p t).
  rewrite (SP0 xof HX i key inp out msg r w a b Hw Ha Hb Iv I). cbn [s_part].
  rewrite <- (opening_all i S HL t Ht). rewrite <- rtree_path by lia.
  rewrite (opened xof HX i key inp out msg r w a b Hw Ha Hb t Ht).
  pose proof (idx_hidden i S HL HB t Ht) as EI. rewrite <- EI. unfold leaf_hidden in Hne. rewrite <- EI in Hne.
  rewrite (rtree_co_path lambda iv (Hlam i) I1 xof).
  - unfold s_leaf. rewrite root_eq. reflexivity.
  - apply root_ok; try assumption; try apply Hlam; lia.
  - lia.
  - apply idx_bound.
  - lia.
  - rewrite N2Nat.id. exact Hx.
  - rewrite N2Nat.id, ancestor_top. exact Hne.
Qed.
Lemma mask_honest t x : t < p_tau p -> x < 2 ^ tree_depth p t -> x <> leaf_hidden i S t -> mask xof i S t x = s_mask xof i key pk msg r t x.
Proof using HX Hw Ha Hb.
  intros Ht Hx Hne. unfold mask. cbv zeta. rewrite leaf_honest by assumption.
  rewrite (SP0 xof HX i key inp out msg r w a b Hw Ha Hb Iv I). reflexivity.
Qed.

Hypothesis LI : lenN inp = owf_input_size i.
Hypothesis LO : lenN out = owf_input_size i.
Hypothesis BI : bytes_ok inp.
Hypothesis BO : bytes_ok out.
Hypothesis WD : Forall (fun xy => defect (F_of i) xy = 0) (claims i w inp out).
Hypothesis EP : aes_prove p w (s_u xof i key pk msg r 0) (map (s_column xof i key pk msg r) (upto lambda)) inp out (s_chall_2 xof i key pk msg r w) = Ok (a, b).

Lemma last_honest : last_query xof i pk msg S (s_chall_2 xof i key pk msg r w ++ a ++ b).
Proof using HX Hw Ha Hb LI LO BI BO WD EP.
  rewrite map_upto in EP.
  destruct (S_ok xof HX i key inp out msg r w a b Hw Ha Hb) as (SL & SB & SP).
  destruct (U_ok xof HX i key inp out msg r 0) as [U1 U2].
  destruct (ch2_ok xof HX i key inp out msg r w a b Hw Ha Hb) as [C2L C2B].
  destruct (honest_corr xof HX i key inp out msg r w a b Hw Ha Hb) as [M1 R1].
  destruct (ch3_ok xof HX i key inp out msg r w a b Hw Ha Hb) as [T3 T4].
  assert (HLU : p_l p + lambda <= 8 * lenN (s_u xof i key pk msg r 0)).
  { rewrite U1, <- L_eq. pose proof (ell8 i). pose proof (sf_n8 i (set_ok i)). lia. }
  pose proof (zero_defects i _ w inp out C2B WD) as HZ.
  pose proof (N.eq_le_incl _ _ (eq_sym C2L)) as C2L'.
  destruct (honest_agrees i w _ _ _ inp out _ _ (proj1 Hw) (proj2 Hw) LI BI LO BO HLU U2 M1 R1 C2L' C2B T3 T4 HZ) as (a' & b'' & EP' & _ & _ & _ & _ & EV).
  fold p in EP'. rewrite EP in EP'. injection EP' as <- <-. exists b. split.
  - unfold b_tilde. cbv zeta. rewrite map_upto, !sub_eq, dropN_0. fold (owf_input_size i).
    replace (takeN (owf_input_size i) (inp ++ out)) with inp by (rewrite <- LI at 1; rewrite takeN_app_exact; reflexivity).
    replace (takeN (owf_input_size i) (dropN (owf_input_size i) (inp ++ out))) with out
      by (rewrite <- LI at 2; rewrite dropN_app_exact, takeN_all by lia; reflexivity).
    rewrite (chall_2_same xof HX i key inp out msg r w a b Hw Ha Hb). rewrite !SP by (apply In_parts; exact I).
    cbn [s_part]. unfold s_d. cbv zeta. rewrite sub_eq, dropN_0. exact EV.
  - unfold chall_3_in. rewrite (chall_2_same xof HX i key inp out msg r w a b Hw Ha Hb). rewrite SP by (apply In_parts; exact I). reflexivity.
Qed.
End Honest.

Lemma honest_fork xof i sk msg r : xof_sized xof -> lenN sk = sk_size i -> bytes_ok sk -> valid_key i sk ->
  lenN msg + 168 <= 2 ^ 32 -> lenN r + 168 <= 2 ^ 32 ->
  exists q S, forall x, xof_sized x -> reprogrammed q xof x ->
    lenN (S x) = sig_size i /\ bytes_ok (S x) /\
    (forall buf, lenN buf = sig_size i -> bytes_ok buf ->
       sign_with_randomness x i (Some sk) (Some msg) (lenN msg) (Some r) (lenN r) (Some buf) (Some (sig_size i)) = Ok (0%Z, Some (S x), Some (sig_size i))) /\
    verify x i (Some (public_of i sk)) (Some msg) (lenN msg) (Some (S x)) (sig_size i) = Ok 0%Z /\
    last_query x i (public_of i sk) msg (S x) q /\
    forall x' t, xof_sized x' -> reprogrammed q xof x' -> t < p_tau (param_of i) -> leaf_hidden i (S x) t <> leaf_hidden i (S x') t ->
      known_sk xof i (S x) (S x') t (public_of i sk) = sk.
Proof.
  intros HX SKL SKB HV LM LR.
  destruct (sk_parts i sk ltac:(lia) SKB) as (A & B & LK & LI & BK & BI). destruct (owf_sk i sk ltac:(lia) SKB) as (ok & E & F & LO & BO).
  pose proof HV as HV'. apply F in HV'. subst ok. set (key := owf_key_of i sk) in *. set (inp := owf_input_of i sk) in *. set (out := owf_value i key inp) in *.
  destruct (witness_valid i key inp out LK BK LI BI E) as (w & EW & WL & WB & WK & WD & _).
  destruct (sign_valid xof i HX sk msg r ltac:(lia) SKB HV) as (w0 & a & b & EW0 & EP & _). cbv zeta in EP.
  fold key inp in EW0, EP. rewrite EW in EW0. injection EW0 as <-. change (public_of i sk) with (inp ++ out) in *. fold out in EP.
  assert (HAB : (lenN a = p_lambda (param_of i) / 8 /\ bytes_ok a) /\ (lenN b = p_lambda (param_of i) / 8 /\ bytes_ok b)).
  { destruct (sign_exact xof HX i key inp out msg r LK BK LI BI E) as (w1 & a1 & b1 & EW1 & EP1 & SL1 & SB1 & _).
    rewrite EW in EW1. injection EW1 as <-. rewrite EP in EP1. injection EP1 as <- <-.
    set (Z := zeros (p_lambda (param_of i) / 8)).
    assert (HZ : lenN Z = p_lambda (param_of i) / 8 /\ bytes_ok Z) by (split; [apply lenN_zeros|apply bytes_ok_zeros]).
    destruct (honest_corr xof HX i key inp out msg r w Z Z (conj WL WB) HZ HZ) as [M1 R1].
    destruct (ch2_ok xof HX i key inp out msg r w Z Z (conj WL WB) HZ HZ) as [C2L C2B].
    destruct (ch3_ok xof HX i key inp out msg r w Z Z (conj WL WB) HZ HZ) as [T3 T4].
    destruct (U_ok xof HX i key inp out msg r 0) as [U1 U2].
    assert (HLU : p_l (param_of i) + p_lambda (param_of i) <= 8 * lenN (s_u xof i key (inp ++ out) msg r 0)).
    { rewrite U1, <- L_eq. pose proof (ell8 i). pose proof (sf_n8 i (set_ok i)). lia. }
    pose proof (zero_defects i _ w inp out C2B WD) as HZ0.
    pose proof (N.eq_le_incl _ _ (eq_sym C2L)) as C2L'.
    destruct (honest_agrees i w _ _ _ inp out _ _ WL WB LI BI LO BO HLU U2 M1 R1 C2L' C2B T3 T4 HZ0) as (a' & b' & EP' & A1 & A2 & A3 & A4 & _).
    rewrite map_upto in EP. rewrite EP in EP'. injection EP' as <- <-. auto. }
  destruct HAB as [Ha Hb].
  set (q := s_chall_2 xof i key (inp ++ out) msg r w ++ a ++ b).
  assert (LQ : lenN q = 5 * (p_lambda (param_of i) / 8) + 8).
  { unfold q. rewrite !lenN_app. destruct (ch2_ok xof HX i key inp out msg r w a b (conj WL WB) Ha Hb) as [-> _]. lia. }
  exists q, (fun x => signature_spec x i key (inp ++ out) msg r w a b). intros x HX' HR.
  assert (EPx : aes_prove (param_of i) w (s_u x i key (inp ++ out) msg r 0) (map (s_column x i key (inp ++ out) msg r) (upto (p_lambda (param_of i)))) inp out (s_chall_2 x i key (inp ++ out) msg r w) = Ok (a, b)).
  { rewrite (s_u_re xof x q HR), (s_chall_2_re xof x q HR i HX LQ).
    rewrite (map_ext _ (s_column xof i key (inp ++ out) msg r)) by (intros n; apply (s_column_re xof x q HR)). exact EP. }
  destruct (sign_valid x i HX' sk msg r ltac:(lia) SKB HV) as (w1 & a1 & b1 & EW1 & EP1 & SL1 & SB1 & ES1 & EV1). cbv zeta in *.
  fold key inp in EW1, EP1, SL1, SB1, ES1, EV1. change (public_of i sk) with (inp ++ out) in *. fold out in EP1.
  rewrite EW in EW1. injection EW1 as <-. rewrite EPx in EP1. injection EP1 as <- <-.
  rewrite mu_short in EV1 by exact LM.
  split; [exact SL1|]. split; [exact SB1|]. split; [|split; [exact EV1|split]].
  - intros buf LB BB.
    assert (TA : forall (l : list N), firstn (N.to_nat (lenN l)) l = l) by (intros l; rewrite <- length_lenN, firstn_all; reflexivity).
    rewrite ES1; try assumption; try (cbn [readable given]; lia); try (cbn [given]; apply TA); try lia.
    rewrite mu_short by exact LM. cbn [andb].
    pose proof (rho_given i (Some r) (lenN r) ltac:(cbn [readable]; lia) LR) as HG. cbn [given] in HG. rewrite TA in HG. rewrite HG.
    f_equal. f_equal. f_equal. f_equal. unfold overwrite. change (firstn (N.to_nat 0) buf) with (@nil N). cbn [app].
    rewrite skipn_all2; [apply app_nil_r|]. rewrite SL1, <- LB. unfold lenN. lia.
  - pose proof (last_honest x HX' i key inp out msg r w a b (conj WL WB) Ha Hb LI LO BI BO WD EPx) as Q.
    rewrite (s_chall_2_re xof x q HR i HX LQ) in Q. exact Q.
  - intros x' t HX'' HR' Ht Hne.
    set (S := signature_spec x i key (inp ++ out) msg r w a b) in *. set (S' := signature_spec x' i key (inp ++ out) msg r w a b) in *.
    assert (EU : known_u xof i S S' t = s_u xof i key (inp ++ out) msg r 0).
    { rewrite known_u_eq.
      assert (EM : Xs (ellhat_bytes (param_of i)) (tab (2 ^ tree_depth (param_of i) t) (known_mask xof i S S' t)) = s_u xof i key (inp ++ out) msg r t).
      { unfold s_u. cbv zeta. rewrite xors_fold, L_eq, map_upto. f_equal. apply tab_ext. intros y Hy. unfold known_mask.
        destruct (y =? leaf_hidden i S t) eqn:EY.
        - rewrite <- (mask_re xof x' q HR'). unfold S'. rewrite mask_honest; try assumption; [|split; assumption|].
          + apply (s_mask_re xof x' q HR').
          + fold S'. apply N.eqb_eq in EY. congruence.
        - rewrite <- (mask_re xof x q HR). unfold S. rewrite mask_honest; try assumption; [|split; assumption|].
          + apply (s_mask_re xof x q HR).
          + fold S. apply N.eqb_neq in EY. exact EY. }
      rewrite EM. destruct (U_ok xof HX i key inp out msg r t) as [T1 T2]. destruct (U_ok xof HX i key inp out msg r 0) as [U1 U2].
      unfold corr. destruct (t =? 0) eqn:ET.
      - apply N.eqb_eq in ET. subst t. apply xor_bytes_zeros_r, U1.
      - unfold S. rewrite (SP0 x HX' i key inp out msg r w a b (conj WL WB) Ha Hb (Correction (t - 1))) by lia. cbn [s_part]. unfold s_correction.
        rewrite !(s_u_re xof x q HR). replace (t - 1 + 1) with t by lia. rewrite xors_eq, xor_bytes_comm. apply xor_bytes_cancel. congruence. }
    assert (EKW : known_witness xof i S S' t = w).
    { unfold known_witness. cbv zeta. rewrite EU. unfold S. rewrite (SP0 x HX' i key inp out msg r w a b (conj WL WB) Ha Hb D_masked_witness I).
      cbn [s_part]. unfold s_d. cbv zeta. rewrite (s_u_re xof x q HR), !xors_eq. apply xor_bytes_cancel. rewrite WL, sub_eq, dropN_0, lenN_takeN.
      destruct (U_ok xof HX i key inp out msg r 0) as [-> _]. rewrite <- L_eq. pose proof (ell8 i). lia. }
    unfold known_sk. rewrite EKW. rewrite !sub_eq, !dropN_0. rewrite <- LI, takeN_app_exact.
    change (takeN (owf_key_size i) w) with (firstn (N.to_nat (owf_key_size i)) w). rewrite WK.
    unfold inp, key, owf_input_of, owf_key_of. rewrite !sub_eq, dropN_0.
    rewrite (takeN_all (owf_key_size i)); [apply firstn_skipn|]. rewrite lenN_dropN, SKL. destruct (sk_sizes i) as (E1 & _). unfold sk_bytes in E1. cbv zeta in E1. lia.
Qed.

(** an oracle changed at one query *)
Definition reprogram (q c : list N) (xof : N -> list N -> N -> list N) (s : N) (data : list N) (n : N) : list N :=
  if list_eq_dec N.eq_dec data (q ++ [2]) then firstn (N.to_nat n) (c ++ repeat 0 (N.to_nat n)) else xof s data n.
Lemma reprogram_sized q c xof : xof_sized xof -> bytes_ok c -> xof_sized (reprogram q c xof).
Proof.
  intros HX HC s data n. unfold reprogram. destruct (list_eq_dec _ _ _); [|apply HX]. split.
  - rewrite firstn_length, app_length, repeat_length. lia.
  - apply (Forall_takeN _ n), Forall_app. split; [exact HC|]. apply Forall_forall. intros b Hb. apply repeat_spec in Hb. subst. reflexivity.
Qed.
Lemma reprogram_at q c xof : reprogrammed q xof (reprogram q c xof).
Proof. intros s data n H. unfold reprogram. destruct (list_eq_dec _ _ _); [contradiction|reflexivity]. Qed.
Lemma reprogram_answer q c xof lambda n : H2 (reprogram q c xof) lambda q n = firstn (N.to_nat n) (c ++ repeat 0 (N.to_nat n)).
Proof. unfold H2, reprogram. destruct (list_eq_dec _ _ _); [reflexivity|contradiction]. Qed.
