(** faest_sign computes the signature of Spec/SignSpec.v, whatever the buffer held before. *)
From Verif.Model Require Import Faest.
From Verif.Spec Require Import AesSpec OwfSpec VcSpec VoleSpec VoleMap FormatSpec FormatMap UHashSpec UHashMap ConstraintMap ProofSpec RunSpec SignSpec.
From Verif.Proof Require Import BaseProof PrgProof VcProof VcProps VoleProof VoleProps FormatProof CorrectProof UHashProof UHashProps
  WitnessProps RowsProof ProveProof AgreeProps VerifyProof.
From Coq Require Import Lia ZifyBool ZifyNat ZifyN.
Ltac Zify.zify_post_hook ::= Z.div_mod_to_equations.

(** * Writing parts of a signature *)
Lemma u_before i : (p_tau (param_of i) - 1) * ell_hat_bytes_of (param_of i) <= off_chall_3 (param_of i) /\
  (p_tau (param_of i) - 1) * ell_hat_bytes_of (param_of i) <= off_iv (param_of i).
Proof. destruct i; vm_compute; split; discriminate. Qed.

Section Write.
Variable i : paramid.
Local Notation p := (param_of i).

Lemma part_ext s f x : lenN s = p_sigSize p -> In x (parts p) -> lenN f = part_size p x ->
  (forall n, n < part_size p x -> nthN s (part_off p x + n) 0 = nthN f n 0) -> part_of i s x = f.
Proof.
  intros HS HI HF H. apply (list_ext 0); [rewrite (part_len i s HS x HI); lia|]. intros n Hn. rewrite (part_len i s HS x HI) in Hn.
  rewrite part_take, nthN_takeN, nthN_dropN by exact Hn. apply H, Hn.
Qed.
Lemma part_nth s x n : lenN s = p_sigSize p -> n < part_size p x -> nthN (part_of i s x) n 0 = nthN s (part_off p x + n) 0.
Proof. intros HS Hn. rewrite part_take, nthN_takeN, nthN_dropN by exact Hn. reflexivity. Qed.

Lemma write_part s x f : lenN s = p_sigSize p -> bytes_ok s -> In x (parts p) -> lenN f = part_size p x -> bytes_ok f ->
  exists s', blit s (part_off p x) f = Ok s' /\ lenN s' = p_sigSize p /\ bytes_ok s' /\ part_of i s' x = f /\
    forall y, In y (parts p) -> y <> x -> part_of i s' y = part_of i s y.
Proof.
  intros HS HB HI HF BF. pose proof (part_bound i x HI) as PB.
  eexists. split; [apply blit_ok; lia|]. set (s' := _ ++ _).
  assert (E : blit s (part_off p x) f = Ok s') by (apply blit_ok; lia).
  assert (HS' : lenN s' = p_sigSize p) by (rewrite (blit_len _ _ _ _ E); exact HS).
  split; [exact HS'|]. split; [|split].
  - subst s'. apply Forall_app. split; [apply Forall_takeN, HB|]. apply Forall_app. split; [exact BF|apply Forall_dropN, HB].
  - apply part_ext; try assumption. intros n Hn. rewrite (nthN_blit _ _ _ _ _ _ E).
    replace ((part_off p x <=? part_off p x + n) && (part_off p x + n <? part_off p x + lenN f)) with true by lia. f_equal. lia.
  - intros y Hy Hne. apply part_ext; try assumption; [apply part_len; assumption|]. intros n Hn. rewrite part_nth by assumption.
    rewrite (nthN_blit _ _ _ _ _ _ E). destruct (parts_disjoint i x y HI Hy ltac:(congruence)) as [D|D].
    + replace ((part_off p x <=? part_off p y + n) && (part_off p y + n <? part_off p x + lenN f)) with false by lia. reflexivity.
    + replace ((part_off p x <=? part_off p y + n) && (part_off p y + n <? part_off p x + lenN f)) with false by lia. reflexivity.
Qed.

(** the corrections in one go *)
Lemma write_corrections s g : lenN s = p_sigSize p -> bytes_ok s ->
  (forall k, k < p_tau p - 1 -> lenN (g k) = ellhat_bytes p /\ bytes_ok (g k)) ->
  exists s', blit s (off_c p 0) (concat (tab (p_tau p - 1) g)) = Ok s' /\ lenN s' = p_sigSize p /\ bytes_ok s' /\
    (forall k, k < p_tau p - 1 -> part_of i s' (Correction k) = g k) /\
    forall y, In y (parts p) -> (forall k, y <> Correction k) -> part_of i s' y = part_of i s y.
Proof.
  intros HS HB HG. destruct (sizes_ok i) as (E1 & _). set (L := ellhat_bytes p) in *.
  assert (HC : lenN (concat (tab (p_tau p - 1) g)) = (p_tau p - 1) * L).
  { apply (concat_var_len (fun k => k * L)); [reflexivity|]. intros k Hk. rewrite (proj1 (HG k Hk)). lia. }
  pose proof (part_bound i U_tilde ltac:(apply In_parts; exact I)) as PB. cbn [part_off part_size] in PB. unfold off_u_tilde in PB. rewrite E1 in PB. fold L in PB.
  assert (Hoff : off_c p 0 = 0) by (unfold off_c; lia).
  eexists. split; [apply blit_ok; lia|]. set (s' := _ ++ _).
  assert (E : blit s (off_c p 0) (concat (tab (p_tau p - 1) g)) = Ok s') by (apply blit_ok; lia).
  assert (HS' : lenN s' = p_sigSize p) by (rewrite (blit_len _ _ _ _ E); exact HS).
  assert (ES : part_size p (Correction 0) = L) by (apply L_eq).
  split; [exact HS'|]. split; [|split].
  - subst s'. apply Forall_app. split; [apply Forall_takeN, HB|]. apply Forall_app. split; [|apply Forall_dropN, HB].
    apply Forall_concat, Forall_forall. intros y Hy. unfold tab in Hy. apply in_map_iff in Hy. destruct Hy as (k & <- & Hk). apply HG, In_Nrange, Hk.
  - intros k Hk. destruct (HG k Hk) as [G1 G2]. apply part_ext; [exact HS'|apply In_parts; exact Hk|rewrite G1; symmetry; exact ES|].
    change (part_size p (Correction k)) with (part_size p (Correction 0)). rewrite ES. intros n Hn. cbn [part_off]. unfold off_c. rewrite E1. fold L.
    assert (HM : k * L + L <= (p_tau p - 1) * L).
    { replace (k * L + L) with ((k + 1) * L) by lia. apply N.mul_le_mono_r. lia. }
    rewrite (nthN_blit _ _ _ _ _ _ E), Hoff, HC. replace ((0 <=? k * L + n) && (k * L + n <? 0 + (p_tau p - 1) * L)) with true by lia.
    rewrite N.sub_0_r. apply (concat_var_nth 0 (fun k => k * L)); [reflexivity| |exact Hk|rewrite G1; exact Hn].
    intros k' Hk'. rewrite (proj1 (HG k' Hk')). lia.
  - intros y Hy Hne. apply part_ext; try assumption; [apply part_len; assumption|]. intros n Hn. rewrite part_nth by assumption.
    rewrite (nthN_blit _ _ _ _ _ _ E), Hoff, HC.
    assert (HO : (p_tau p - 1) * L <= part_off p y).
    { assert (U : (p_tau p - 1) * L = part_off p U_tilde) by (cbn [part_off]; unfold off_u_tilde; rewrite E1; reflexivity). rewrite U.
      clear - Hne. destruct y as [k| | | |t|t| |]; cbn [part_off]; unfold off_u_tilde, off_d, off_a_tilde, off_pdec, off_com, utilde_bytes_of; cbv zeta; try lia.
      - destruct (Hne k eq_refl).
      - destruct (_ <? _); rewrite <- !N.add_assoc; apply N.le_add_r.
      - destruct (_ <? _); rewrite <- !N.add_assoc; apply N.le_add_r.
      - apply u_before.
      - apply u_before. }
    replace ((0 <=? part_off p y + n) && (part_off p y + n <? 0 + (p_tau p - 1) * L)) with false by lia. reflexivity.
Qed.
End Write.

(** * The pieces in closed form *)
Definition rho_defined (i : paramid) (rho : option bytes) : bool :=
  match rho with
  | None => true
  | Some r => (lenN r =? 0) || absorb_defined (if p_lambda (param_of i) =? 128 then 168 else 136)
                ((3 * (p_lambda (param_of i) / 8)) mod (if p_lambda (param_of i) =? 128 then 168 else 136)) (lenN r)
  end.
Definition rho_bytes (rho : option bytes) : bytes := match rho with Some r => r | None => [] end.

Section Sign.
Variable xof : N -> list N -> N -> list N.
Hypothesis HX : xof_sized xof.
Variable i : paramid.
Local Notation p := (param_of i).
Local Notation lambda := (p_lambda p).
Local Notation lb := (p_lambda p / 8).
Local Notation L := (ellhat_bytes p).
Variables key inp out msg r : list N.
Local Notation pk := (inp ++ out).
Local Notation Mu := (mu xof i pk msg).
Local Notation iv := (s_iv xof i key pk msg r).
Local Notation rk := (rootkey xof i key pk msg r).
Local Notation U := (s_u xof i key pk msg r).
Local Notation Cor := (s_correction xof i key pk msg r).
Local Notation Col := (s_column xof i key pk msg r).
Local Notation hcom := (s_hcom xof i key pk msg r).
Local Notation ch1 := (s_chall_1 xof i key pk msg r).
Local Notation ut := (s_u_tilde xof i key pk msg r).
Local Notation hv := (s_hv xof i key pk msg r).

Lemma Hlam : In lambda [128; 192; 256].
Proof using. apply vp_lam, vole_params_ok. Qed.
Lemma iv_ok : lenN iv = 16 /\ bytes_ok iv.
Proof using HX.
  unfold s_iv. cbv zeta. rewrite sub_eq. split; [|apply Forall_takeN, Forall_dropN, (xof_bytes xof HX)].
  rewrite lenN_takeN, lenN_dropN. unfold root_iv, H3. rewrite (xof_len xof HX). cbv zeta. lia.
Qed.
Lemma rk_ok : lenN rk = lb /\ bytes_ok rk.
Proof using HX.
  unfold rootkey. cbv zeta. rewrite sub_eq. split; [|apply Forall_takeN, Forall_dropN, (xof_bytes xof HX)].
  rewrite lenN_takeN, lenN_dropN. unfold root_iv, H3. rewrite (xof_len xof HX). cbv zeta. lia.
Qed.
Lemma root_eq t : root xof i key pk msg r t = root_of lambda iv p rk t.
Proof using. unfold root. cbv zeta. rewrite sub_eq, ctr_bytes_stream. reflexivity. Qed.
Lemma mask_eq t x : s_mask xof i key pk msg r t x = r_p lambda iv xof L (tree_depth p t) (root_of lambda iv p rk t) x.
Proof using. unfold s_mask. cbv zeta. rewrite ctr_bytes_stream, L_eq. unfold r_p. rewrite <- root_eq. reflexivity. Qed.
Lemma mask_len t x : lenN (s_mask xof i key pk msg r t x) = L.
Proof using. rewrite mask_eq. apply r_p_len. Qed.
Lemma u_eq t : U t = u_p lambda iv xof p rk L t.
Proof using.
  unfold s_u. cbv zeta. rewrite xors_fold, L_eq, map_upto. unfold u_p, colsum. f_equal. apply tab_ext. intros x _. apply mask_eq.
Qed.
Lemma v_eq t j : s_v xof i key pk msg r t j = v_p lambda iv xof p rk L t j.
Proof using.
  unfold s_v. cbv zeta. rewrite xors_fold, L_eq. rewrite <- (Xs_filter L (fun x => N.testbit x j)) by (intros; apply mask_len).
  rewrite upto_eq. unfold v_p, col, tab. f_equal. apply map_ext. intros x. f_equal. apply mask_eq.
Qed.
Lemma col_eq n : Col n = v_p lambda iv xof p rk L (tree_of p n) (n - lo p (tree_of p n)).
Proof using. unfold s_column. cbv zeta. rewrite v_eq, start_lo. reflexivity. Qed.
Lemma cor_eq k : Cor k = xor_bytes (u_p lambda iv xof p rk L 0) (u_p lambda iv xof p rk L (k + 1)).
Proof using. unfold s_correction. rewrite xors_eq, !u_eq. reflexivity. Qed.

Lemma U_ok t : lenN (U t) = L /\ bytes_ok (U t).
Proof using HX.
  rewrite u_eq. split; [apply colsum_len; intros; apply r_p_len|]. apply colsum_bytes. intros. apply r_p_bytes; [apply Hlam|apply iv_ok|exact HX].
Qed.
Lemma Cor_ok k : lenN (Cor k) = L /\ bytes_ok (Cor k).
Proof using HX.
  unfold s_correction. rewrite xors_eq. destruct (U_ok 0), (U_ok (k + 1)). split; [rewrite lenN_xor; lia|apply bytes_ok_xor; assumption].
Qed.
Lemma Col_ok n : lenN (Col n) = L /\ bytes_ok (Col n).
Proof using HX.
  rewrite col_eq. split; [apply col_len; intros; apply r_p_len|]. apply col_bytes. intros. apply r_p_bytes; [apply Hlam|apply iv_ok|exact HX].
Qed.

Definition vcs : list vec_com := tab (p_tau p) (fun t => vc_of lambda iv xof (tree_depth p t) (root_of lambda iv p rk t)).
Lemma hcom_eq : hcom = H1 xof lambda (concat (tab (p_tau p) (fun t => vc_h (vc_of lambda iv xof (tree_depth p t) (root_of lambda iv p rk t))))).
Proof using.
  unfold s_hcom. cbv zeta. rewrite map_upto. f_equal. f_equal. apply tab_ext. intros t _. cbn [vc_of vc_h]. rewrite map_upto. f_equal. f_equal.
  apply tab_ext. intros x _. unfold s_com, s_leaf. cbv zeta. rewrite root_eq. reflexivity.
Qed.
Lemma commit_eq : vole_commit xof p rk iv (p_l p + lambda * 2 + UNIVERSAL_HASH_B_BITS) =
  Ok (hcom, vcs, concat (tab (p_tau p - 1) Cor), U 0, tab lambda Col).
Proof using HX.
  destruct iv_ok as [I1 I2]. destruct rk_ok as [K1 K2]. pose proof (vole_params_ok i) as VP.
  rewrite (vole_commit_ok lambda iv Hlam I1 I2 xof HX p VP eq_refl rk) by (try exact K2; lia). rewrite L_eq7.
  rewrite hcom_eq, u_eq. rewrite flat_cols by exact VP. rewrite (tab_ext lambda Col _ (fun n _ => col_eq n)).
  rewrite (tab_ext (p_tau p - 1) Cor _ (fun k _ => cor_eq k)). reflexivity.
Qed.

Lemma Mu_ok : lenN Mu = 2 * lb /\ bytes_ok Mu.
Proof using HX. split; [apply (H1_len xof HX i)|apply (xof_bytes xof HX)]. Qed.
Lemma hcom_ok' : lenN hcom = 2 * lb.
Proof using HX. apply (H1_len xof HX i). Qed.
Lemma ch1_ok : lenN ch1 = 5 * lb + 8 /\ bytes_ok ch1.
Proof using HX. split; [apply (xof_len xof HX)|apply (xof_bytes xof HX)]. Qed.
Lemma hash_ok x : lenN x = L -> bytes_ok x ->
  vole_hash lambda ch1 x (p_l p) = Ok (vole_hash_spec (F_of i) ch1 x (p_l p)) /\
  lenN (vole_hash_spec (F_of i) ch1 x (p_l p)) = lb + 2 /\ bytes_ok (vole_hash_spec (F_of i) ch1 x (p_l p)).
Proof using HX.
  intros HL HB. destruct ch1_ok as [C1 C2]. pose proof (ell8 i) as E8.
  assert (Hl : (p_l p + 2 * lambda) / 8 + 2 <= lenN x) by (rewrite HL, <- L_eq; lia).
  split; [|split].
  - apply vole_hash_computes; try assumption; [apply level_of|lia].
  - destruct (vole_hash_is_linear _ _ _ _ _ _ (level_of i) E8 (ltac:(lia) : 5 * lb + 8 <= lenN ch1) C2 Hl eq_refl HB HB) as (hx & _ & H1 & _ & _ & H2 & _).
    rewrite (vole_hash_computes _ _ _ _ _ (level_of i) E8 (ltac:(lia) : 5 * lb + 8 <= lenN ch1) C2 Hl HB) in H1. injection H1 as <-. exact H2.
  - apply vole_hash_spec_bytes, HB.
Qed.
Lemma hash_v_ok : hash_v xof p ch1 (tab lambda Col) = Ok hv.
Proof using HX.
  unfold hash_v. cbv zeta. unfold p_fits. destruct (lb_max i) as [B1 _].
  rewrite guard_true by (unfold MAX_LAMBDA_BYTES, UNIVERSAL_HASH_B; lia). cbn [bind].
  rewrite (hash_fold_ok (fun n => vole_hash_spec (F_of i) ch1 (Col n) (p_l p))).
  - cbn [bind]. unfold s_hv. cbv zeta. rewrite map_upto. reflexivity.
  - intros c j Hj. rewrite aget_tab by exact Hj. cbn [bind]. destruct (Col_ok j) as [C1 C2]. rewrite (proj1 (hash_ok _ C1 C2)). reflexivity.
Qed.
Lemma hv_ok : lenN hv = 2 * lb.
Proof using HX. apply (H1_len xof HX i). Qed.
Lemma ut_ok : lenN ut = lb + 2 /\ bytes_ok ut.
Proof using HX. destruct (U_ok 0) as [C1 C2]. apply (hash_ok _ C1 C2). Qed.

Lemma h3_ok rho : rho_bytes rho = r -> lenN key = lb ->
  (let h3 := H_update (H_update (H_init lambda) key) Mu in
   match rho with Some r => if lenN r =? 0 then Ok h3 else H_update_any h3 r | None => Ok h3 end) =
  if rho_defined i rho then Ok (mkH (shake_of lambda) (key ++ Mu ++ r)) else UB.
Proof using HX.
  intros <- HK. cbv zeta. rewrite H_update_app. unfold H_init, H_update at 1 2 3. cbn [h_data h_sec app].
  destruct rho as [r'|]; cbn [rho_defined rho_bytes].
  - destruct (lenN r' =? 0) eqn:E.
    + cbn [orb]. rewrite N.eqb_eq in E. destruct r'; [|rewrite lenN_cons in E; lia]. rewrite app_nil_r. reflexivity.
    + cbn [orb]. unfold H_update_any, H_update, h_rate. cbn [h_data h_sec].
      replace ((if lambda =? 128 then 128 else 256) =? 128) with (lambda =? 128) by (destruct (lambda =? 128); reflexivity).
      rewrite lenN_app, HK, (proj1 Mu_ok). replace (lb + 2 * lb) with (3 * lb) by lia.
      destruct (absorb_defined _ _ _); [|reflexivity]. cbn [guard bind]. rewrite <- app_assoc. reflexivity.
  - rewrite app_nil_r. reflexivity.
Qed.

Lemma s_root_ok t : t < p_tau p -> node_ok lambda (root xof i key pk msg r t).
Proof using HX.
  intros Ht. rewrite root_eq. destruct iv_ok as [I1 I2]. destruct rk_ok as [K1 K2].
  eapply VoleProof.root_ok; try apply Hlam; try apply vole_params_ok; try reflexivity; try exact HX; try exact I1; try exact I2; [lia|exact K2|exact Ht].
Qed.
Lemma depth_ok t : 1 <= tree_depth p t <= 29.
Proof using. pose proof (depth_bound p (vole_params_ok i) t). lia. Qed.

Variables w a b : list N.
Hypothesis Hw : lenN w = p_l p / 8 /\ bytes_ok w.
Hypothesis Ha : lenN a = lb /\ bytes_ok a.
Hypothesis Hb : lenN b = lb /\ bytes_ok b.
Local Notation d := (s_d xof i key pk msg r w).
Local Notation ch2 := (s_chall_2 xof i key pk msg r w).
Local Notation ch3 := (s_chall_3 xof i key pk msg r w a b).
Local Notation Part := (s_part xof i key pk msg r w a b).

Lemma u0_ok : lenN (sub (U 0) 0 (p_l p / 8)) = p_l p / 8 /\ bytes_ok (sub (U 0) 0 (p_l p / 8)) /\
  slice (U 0) 0 (p_l p / 8) = Ok (sub (U 0) 0 (p_l p / 8)).
Proof using HX Hw Ha Hb.
  destruct (U_ok 0) as [U1 U2]. destruct (sizes_ok i) as (E1 & E2 & E3 & E4 & E5).
  rewrite sub_eq, dropN_0. split; [rewrite lenN_takeN; lia|]. split; [apply Forall_takeN, U2|]. rewrite slice_ok by lia. rewrite dropN_0. reflexivity.
Qed.
Lemma d_ok : lenN d = p_l p / 8 /\ bytes_ok d.
Proof using HX Hw Ha Hb.
  destruct u0_ok as (A & B & _). unfold s_d. rewrite xors_eq. split; [rewrite lenN_xor; lia|apply bytes_ok_xor; [apply Hw|exact B]].
Qed.
Lemma ch2_ok : lenN ch2 = 3 * lb + 8 /\ bytes_ok ch2.
Proof using HX Hw Ha Hb. split; [apply (xof_len xof HX)|apply (xof_bytes xof HX)]. Qed.
Lemma ch3_ok : lenN ch3 = lb /\ bytes_ok ch3.
Proof using HX Hw Ha Hb. split; [apply (xof_len xof HX)|apply (xof_bytes xof HX)]. Qed.
Lemma hidden_lt t : hidden p ch3 t < 2 ^ tree_depth p t.
Proof using HX Hw Ha Hb. unfold hidden. apply N.mod_lt. pose proof (pow2_pos (depth_of p t)). lia. Qed.
Lemma opening_eq t : t < p_tau p ->
  s_opening xof i key pk msg r w a b t = co_path (tree_list lambda iv (root xof i key pk msg r t) (tree_depth p t)) (tree_depth p t) (hidden p ch3 t).
Proof using HX Hw Ha Hb.
  intros Ht. unfold s_opening. cbv zeta. rewrite map_upto. unfold co_path. f_equal. apply tab_ext. intros l Hl. unfold tree_list.
  assert (B : sibling (ancestor (tree_depth p t) (hidden p ch3 t) (l + 1)) < 2 ^ (l + 1)).
  { rewrite pow2_S. apply sibling_bound. rewrite <- pow2_S. apply ancestor_bound; [apply hidden_lt|]. change (depth_of p t) with (tree_depth p t) in Hl. lia. }
  rewrite nthN_tab.
  1: rewrite (ggm_flat_bfs lambda iv (proj1 iv_ok)) by exact B; reflexivity.
  1: unfold bfs. change (depth_of p t) with (tree_depth p t) in Hl.
    pose proof (N.pow_le_mono_r 2 (l + 1) (tree_depth p t) ltac:(lia) ltac:(lia)). rewrite (pow2_S (tree_depth p t)). lia.
Qed.
Lemma com_ok t x : lenN (s_com xof i key pk msg r t x) = 2 * lb /\ bytes_ok (s_com xof i key pk msg r t x).
Proof using HX Hw Ha Hb.
  unfold s_com, leaf_com. destruct (HX (shake_of lambda) (s_leaf xof i key pk msg r t x ++ iv ++ [0]) (lambda / 8 * 3)) as [A B]. split.
  - unfold lenN. rewrite skipn_length. unfold H0. rewrite A. lia.
  - apply (Forall_dropN _ (lambda / 8)). exact B.
Qed.
Lemma part_ok x : In x (parts p) -> lenN (Part x) = part_size p x /\ bytes_ok (Part x).
Proof using HX Hw Ha Hb.
  intros Hx. apply In_parts in Hx. destruct x as [k| | | |t|t| |]; cbn [s_part part_size].
  - rewrite L_eq. apply Cor_ok.
  - apply ut_ok.
  - apply d_ok.
  - exact Ha.
  - rewrite opening_eq by exact Hx. destruct iv_ok as [I1 I2].
    destruct (co_path_ok lambda iv Hlam I1 xof _ _ _ (s_root_ok t Hx) (depth_ok t) (hidden_lt t)) as [A B].
    change (depth_of p t) with (tree_depth p t). rewrite N.mul_comm. auto.
  - apply com_ok.
  - apply ch3_ok.
  - apply iv_ok.
Qed.

Local Notation S := (signature_spec xof i key pk msg r w a b).
Lemma S_ok : lenN S = p_sigSize p /\ bytes_ok S /\ forall x, In x (parts p) -> part_of i S x = Part x.
Proof using HX Hw Ha Hb.
  destruct (parse_serialised i Part (fun x Hx => proj1 (part_ok x Hx))) as [A B]. split; [exact A|]. split.
  - apply Forall_concat, Forall_forall. intros y Hy. apply in_map_iff in Hy. destruct Hy as (x & <- & Hx). apply part_ok, Hx.
  - intros x Hx. apply B in Hx. apply slice_inv in Hx. rewrite part_take. symmetry. apply Hx.
Qed.
Lemma S_parts s : lenN s = p_sigSize p -> (forall x, In x (parts p) -> part_of i s x = Part x) -> s = S.
Proof using HX Hw Ha Hb.
  intros HS H. apply parts_determine; [exact HS|]. intros x Hx. rewrite <- (H x Hx), part_take. apply slice_ok. rewrite HS. apply part_bound, Hx.
Qed.

(** a buffer in which the parts [D] have been written *)
Definition have (D : part -> Prop) (s : list N) : Prop :=
  lenN s = p_sigSize p /\ bytes_ok s /\ forall x, In x (parts p) -> D x -> part_of i s x = Part x.
Lemma part_dec (x y : part) : {x = y} + {x <> y}.
Proof using HX Hw Ha Hb. decide equality; apply N.eq_dec. Qed.
Lemma put (D : part -> Prop) x s : have D s -> In x (parts p) ->
  exists s', blit s (part_off p x) (Part x) = Ok s' /\ have (fun y => y = x \/ D y) s'.
Proof using HX Hw Ha Hb.
  intros (H1 & H2 & H3) Hx. destruct (part_ok x Hx) as [P1 P2]. destruct (write_part i s x (Part x) H1 H2 Hx P1 P2) as (s' & E & L' & B' & Q1 & Q2).
  exists s'. split; [exact E|]. split; [exact L'|]. split; [exact B'|]. intros y Hy [->|HD]; [exact Q1|].
  destruct (part_dec y x) as [->|Hne]; [exact Q1|]. rewrite Q2 by assumption. apply H3; assumption.
Qed.

Lemma chal_chall3 s t : have (eq Challenge_3) s -> t < p_tau p -> exists tail, from s (off_chall_3 p) = Ok tail /\
  ChalDec tail t (p_k0 p) (p_t0 p) (p_k1 p) (p_t1 p) = Ok (true, bits_of (hidden p ch3 t) (tree_depth p t)).
Proof using HX Hw Ha Hb.
  intros (H1 & H2 & H3) Ht. exists (dropN (off_chall_3 p) s). split.
  - apply (part_from i s H1 Challenge_3), In_parts. exact I.
  - rewrite ChalDec_ok.
    + rewrite (idx_hidden i s H1 H2) by exact Ht. rewrite H3 by (try reflexivity; apply In_parts; exact I). reflexivity.
    + apply vole_params_ok.
    + apply Forall_dropN, H2.
    + apply chalt_len, H1.
    + exact Ht.
Qed.
Lemma open_one (D : part -> Prop) s t : have D s -> D Challenge_3 -> t < p_tau p ->
  exists s', sign_open p vcs s t = Ok s' /\ have (fun y => y = Com t \/ y = Opening t \/ D y) s'.
Proof using HX Hw Ha Hb.
  intros HS HD Ht. unfold sign_open.
  destruct (chal_chall3 s t) as (tail & E1 & E2); [destruct HS as (A & B & C); split; [exact A|split; [exact B|]]; intros x Hx <-; apply C; assumption|exact Ht|].
  rewrite E1. cbn [bind]. rewrite E2. cbn [bind snd]. unfold vcs. rewrite aget_tab by exact Ht. cbn [bind vc_k vc_com vc_of].
  pose proof (depth_ok t) as HDp. rewrite <- root_eq.
  rewrite vector_open_ok; [|exact HDp|apply hidden_lt|unfold tree_list; rewrite lenN_tab; lia|rewrite lenN_tab; lia].
  cbn [bind fst snd]. rewrite nthN_tab by apply hidden_lt.
  destruct (put D (Opening t) s HS) as (s1 & F1 & G1); [apply In_parts; exact Ht|]. cbn [part_off s_part] in F1. rewrite opening_eq in F1 by exact Ht.
  rewrite F1. cbn [bind].
  destruct (put _ (Com t) s1 G1) as (s2 & F2 & G2); [apply In_parts; exact Ht|]. cbn [part_off s_part] in F2.
  exists s2. split; [exact F2|exact G2].
Qed.
Lemma open_all s : have (fun x => match x with Opening _ | Com _ => False | _ => True end) s ->
  foldM (sign_open p vcs) (Nrange (p_tau p)) s = Ok S.
Proof using HX Hw Ha Hb.
  intros HS.
  destruct (foldM_Nrange_inv (sign_open p vcs) (fun n s => have (fun x => match x with Opening t | Com t => t < n | _ => True end) s) (p_tau p) s) as (s' & E & H).
  - destruct HS as (A & B & C). split; [exact A|]. split; [exact B|]. intros x Hx HD. apply C; [exact Hx|]. destruct x; try exact I; lia.
  - intros t s1 Ht H1. destruct (open_one _ s1 t H1 I Ht) as (s2 & E2 & (A & B & C)). exists s2. split; [exact E2|].
    split; [exact A|]. split; [exact B|]. intros x Hx HD. apply C; [exact Hx|]. destruct x as [k| | | |t'|t'| |]; auto.
    + destruct (N.eq_dec t' t) as [->|]; auto. right. right. lia.
    + destruct (N.eq_dec t' t) as [->|]; auto. right. right. lia.
  - rewrite E. f_equal. destruct H as (A & _ & C). apply S_parts; [exact A|]. intros x Hx. apply C; [exact Hx|]. apply In_parts in Hx. destruct x; auto.
Qed.

Lemma challenge_1_sign s : have (fun x => match x with Correction _ | Iv => True | _ => False end) s ->
  hash_challenge_1 xof Mu hcom (dropN (off_c p 0) s) (dropN (off_iv p) s) lambda (p_l p) (p_tau p) = Ok ch1.
Proof using HX Hw Ha Hb.
  intros (H1 & H2 & H3). unfold hash_challenge_1. cbv zeta. rewrite !slice_full' by (rewrite ?(proj1 Mu_ok), ?hcom_ok'; lia). cbn [bind].
  pose proof (corrections_eq i s H1) as EC. destruct (sizes_ok i) as (E1 & E2 & E3 & E4 & E5).
  assert (EL : p_l p / 8 + lb * 2 + UNIVERSAL_HASH_B = L) by (unfold UNIVERSAL_HASH_B; lia). rewrite EL.
  rewrite slice_ok.
  2:{ pose proof (part_in i s H1 U_tilde ltac:(apply In_parts; exact I)) as HU. cbn [part_size part_off] in HU. unfold off_u_tilde in HU. rewrite E1 in HU.
      rewrite lenN_dropN. unfold off_c. rewrite (N.mul_comm L). lia. }
  cbn [bind]. rewrite dropN_0, (N.mul_comm L), <- EC. rewrite iv_tail by exact H1.
  rewrite (H3 Iv) by (try exact I; apply In_parts; exact I). cbn [s_part]. rewrite slice_full' by apply iv_ok. cbn [bind].
  unfold s_chall_1, RunSpec.H2. cbv zeta. unfold H2_final, H_squeeze. rewrite !H_update_app. unfold H_update, H_init. cbn [h_data h_sec app].
  unfold all_corrections. rewrite map_upto, <- !app_assoc.
  rewrite (tab_ext (p_tau p - 1) _ Cor) by (intros k Hk; apply (H3 (Correction k)); [apply In_parts; exact Hk|exact I]). reflexivity.
Qed.

Lemma challenge_2_sign s : have (fun x => match x with U_tilde | D_masked_witness => True | _ => False end) s ->
  hash_challenge_2 xof ch1 (dropN (off_u_tilde p) s) hv (dropN (off_d p) s) lambda (p_l p) = Ok ch2.
Proof using HX Hw Ha Hb.
  intros (H1 & H2 & H3). unfold hash_challenge_2. cbv zeta. rewrite slice_full' by apply ch1_ok. cbn [bind].
  change (lb + UNIVERSAL_HASH_B) with (part_size p U_tilde). change (p_l p / 8) with (part_size p D_masked_witness).
  rewrite (part_slice i s H1 U_tilde ltac:(apply In_parts; exact I) : slice (dropN (off_u_tilde p) s) _ _ = _). cbn [bind].
  rewrite slice_full' by apply hv_ok. cbn [bind].
  rewrite (part_slice i s H1 D_masked_witness ltac:(apply In_parts; exact I) : slice (dropN (off_d p) s) _ _ = _). cbn [bind].
  rewrite !H3 by (try exact I; apply In_parts; exact I). cbn [s_part].
  unfold s_chall_2, RunSpec.H2. cbv zeta. unfold H2_final, H_squeeze. rewrite !H_update_app. unfold H_update, H_init. cbn [h_data h_sec app].
  rewrite <- !app_assoc. reflexivity.
Qed.
Lemma challenge_3_sign s : have (eq A_tilde) s ->
  hash_challenge_3 xof ch2 (dropN (off_a_tilde p) s) b lambda = Ok ch3.
Proof using HX Hw Ha Hb.
  intros (H1 & H2 & H3). unfold hash_challenge_3. cbv zeta. rewrite slice_full' by apply ch2_ok. cbn [bind].
  pose proof (part_slice i s H1 A_tilde ltac:(apply In_parts; exact I)) as EA. cbn [part_off part_size] in EA. rewrite EA. cbn [bind].
  rewrite slice_full' by apply Hb. cbn [bind]. rewrite !H3 by (try reflexivity; apply In_parts; exact I). cbn [s_part].
  unfold s_chall_3, RunSpec.H2. cbv zeta. unfold H2_final, H_squeeze. rewrite !H_update_app. unfold H_update, H_init. cbn [h_data h_sec app].
  rewrite <- !app_assoc. reflexivity.
Qed.
Lemma weaken (D E : part -> Prop) s : have D s -> (forall x, E x -> D x) -> have E s.
Proof using HX Hw Ha Hb. intros (A & B & C) H. split; [exact A|]. split; [exact B|]. auto. Qed.

Lemma sign_run sig0 rho : lenN sig0 = p_sigSize p -> bytes_ok sig0 -> rho_bytes rho = r -> lenN key = lb ->
  lenN inp = owf_input_size i -> lenN out = owf_input_size i ->
  aes_extend_witness i key inp = Ok w -> aes_prove p w (U 0) (tab lambda Col) inp out ch2 = Ok (a, b) ->
  faest_sign xof i sig0 msg key inp out rho = if mu_defined i (lenN msg) && rho_defined i rho then Ok S else UB.
Proof using HX Hw Ha Hb.
  intros HL0 HB0 HR HK LI LO EW EP. destruct (lb_max i) as [HLM _].
  unfold faest_sign. cbv zeta. rewrite (hash_mu_ok xof i inp out msg) by assumption.
  destruct (mu_defined i (lenN msg)); [|reflexivity]. cbn [bind andb].
  change (H1 xof lambda (mu_in (inp ++ out) msg)) with Mu. unfold p_fits.
  rewrite guard_true by (rewrite (proj1 Mu_ok); unfold MAX_LAMBDA_BYTES; lia). cbn [bind].
  rewrite slice_full' by exact HK. cbn [bind]. rewrite slice_full' by (rewrite (proj1 Mu_ok); lia). cbn [bind].
  pose proof (h3_ok rho HR HK) as E3. cbv zeta in E3. rewrite E3. clear E3. destruct (rho_defined i rho); [|reflexivity]. cbn [bind].
  rewrite guard_true by (unfold MAX_LAMBDA_BYTES; lia). cbn [bind].
  unfold H3_final, H_squeeze, H_update at 1 2. cbn [h_data h_sec]. cbv beta iota zeta.
  change (xof (shake_of lambda) ((key ++ Mu ++ r) ++ [domain_sep_H3]) (lambda / 8 + 16)) with (root_iv xof i key pk msg r).
  assert (EK : takeN lb (root_iv xof i key pk msg r) = rk) by (unfold rootkey; cbv zeta; rewrite sub_eq, dropN_0; reflexivity).
  assert (EI : dropN lb (root_iv xof i key pk msg r) = iv).
  { unfold s_iv. cbv zeta. rewrite sub_eq, takeN_all; [reflexivity|]. rewrite lenN_dropN. unfold root_iv, H3. rewrite (xof_len xof HX). cbv zeta. lia. }
  rewrite EK, EI. clear EK EI.
  assert (G0 : have (fun _ => False) sig0) by (split; [exact HL0|]; split; [exact HB0|]; contradiction).
  destruct (put _ Iv sig0 G0) as (s1 & F1 & G1); [apply In_parts; exact I|]. cbn [part_off s_part] in F1. rewrite F1. cbn [bind]. clear F1 G0.
  assert (PF : forall D s x, have D s -> In x (parts p) -> from s (part_off p x) = Ok (dropN (part_off p x) s)).
  { intros D s x (A & _) Hx. apply part_from; assumption. }
  rewrite (PF _ _ Iv G1 ltac:(apply In_parts; exact I) : from s1 (off_iv p) = Ok (dropN (off_iv p) s1)). cbn [bind].
  rewrite iv_tail by apply G1. rewrite (proj2 (proj2 G1) Iv) by (try (left; reflexivity); apply In_parts; exact I). cbn [s_part].
  rewrite commit_eq. cbv beta iota. cbn [bind].
  rewrite guard_true by (rewrite hcom_ok'; unfold MAX_LAMBDA_BYTES; lia). cbn [bind].
  destruct (write_corrections i s1 Cor (proj1 G1) (proj1 (proj2 G1)) (fun k _ => Cor_ok k)) as (s2 & F2 & L2 & B2 & Q2 & R2).
  rewrite F2. cbn [bind].
  assert (G2 : have (fun x => match x with Correction _ | Iv => True | _ => False end) s2).
  { split; [exact L2|]. split; [exact B2|]. intros x Hx. destruct x as [k| | | |t|t| |]; try contradiction; intros _.
    - apply Q2. apply In_parts in Hx. exact Hx.
    - rewrite R2 by (try exact Hx; discriminate). apply G1; [exact Hx|left; reflexivity]. }
  rewrite (from_ok s2 (off_c p 0)) by (unfold off_c; lia). cbn [bind].
  rewrite (PF _ _ Iv G2 ltac:(apply In_parts; exact I) : from s2 (off_iv p) = Ok (dropN (off_iv p) s2)). cbn [bind].
  rewrite (challenge_1_sign s2 G2). cbn [bind].
  rewrite guard_true by (rewrite (proj1 ch1_ok); unfold MAX_LAMBDA_BYTES; lia). cbn [bind].
  destruct (U_ok 0) as [U1 U2]. rewrite (proj1 (hash_ok _ U1 U2)). cbn [bind].
  destruct (put _ U_tilde s2 G2) as (s3 & F3 & G3); [apply In_parts; exact I|]. cbn [part_off s_part] in F3. unfold s_u_tilde in F3. cbv zeta in F3. rewrite F3. cbn [bind].
  rewrite hash_v_ok. cbn [bind]. rewrite guard_true by (rewrite hv_ok; unfold MAX_LAMBDA_BYTES; lia). cbn [bind].
  rewrite EW. cbn [bind]. rewrite slice_full' by apply Hw. cbn [bind]. destruct u0_ok as (_ & _ & EU). rewrite EU. cbn [bind].
  rewrite <- xors_eq. fold d.
  destruct (put _ D_masked_witness s3 G3) as (s4 & F4 & G4); [apply In_parts; exact I|]. cbn [part_off s_part] in F4. rewrite F4. cbn [bind].
  rewrite (PF _ _ U_tilde G4 ltac:(apply In_parts; exact I) : from s4 (off_u_tilde p) = Ok (dropN (off_u_tilde p) s4)). cbn [bind].
  rewrite (PF _ _ D_masked_witness G4 ltac:(apply In_parts; exact I) : from s4 (off_d p) = Ok (dropN (off_d p) s4)). cbn [bind].
  rewrite challenge_2_sign by (apply (weaken _ _ _ G4); intros []; try contradiction; auto). cbn [bind].
  rewrite guard_true by (rewrite (proj1 ch2_ok); unfold MAX_LAMBDA_BYTES; lia). cbn [bind].
  rewrite EP. cbv beta iota. cbn [bind]. rewrite guard_true by (rewrite (proj1 Hb); unfold MAX_LAMBDA_BYTES; lia). cbn [bind].
  destruct (put _ A_tilde s4 G4) as (s5 & F5 & G5); [apply In_parts; exact I|]. cbn [part_off s_part] in F5. rewrite F5. cbn [bind].
  rewrite (PF _ _ A_tilde G5 ltac:(apply In_parts; exact I) : from s5 (off_a_tilde p) = Ok (dropN (off_a_tilde p) s5)). cbn [bind].
  rewrite challenge_3_sign by (apply (weaken _ _ _ G5); intros x <-; left; reflexivity). cbn [bind].
  destruct (put _ Challenge_3 s5 G5) as (s6 & F6 & G6); [apply In_parts; exact I|]. cbn [part_off s_part] in F6. rewrite F6. cbn [bind].
  apply open_all. apply (weaken _ _ _ G6). intros []; auto 10; contradiction.
Qed.
End Sign.
