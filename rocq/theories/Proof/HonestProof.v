(** An honestly produced signature verifies (C01). *)
From Verif.Model Require Import Faest.
From Verif.Spec Require Import AesSpec OwfSpec VcSpec VoleSpec VoleMap FormatSpec FormatMap UHashSpec UHashMap ConstraintMap ProofSpec RunSpec SignSpec.
From Verif.Proof Require Import BaseProof PrgProof VcProof VcProps VoleProof VoleProps FormatProof CorrectProof UHashProof UHashProps
  WitnessProps RowsProof ProveProof AgreeProps VerifyProof SignProof.
From Coq Require Import Lia ZifyBool ZifyNat ZifyN.
Ltac Zify.zify_post_hook ::= Z.div_mod_to_equations.

(** * The verifier's trees and columns from the parts alone *)
Section Exact.
Variable xof : N -> list N -> N -> list N.
Variable i : paramid.
Local Notation p := (param_of i).
Local Notation lambda := (p_lambda p).
Local Notation lb := (p_lambda p / 8).
Local Notation L := (ellhat_bytes p).
Variable sig : list N.
Hypothesis Hsl : lenN sig = p_sigSize p.
Hypothesis Hsb : bytes_ok sig.
Local Notation P := (part_of i sig).
Local Notation chalt := (dropN (off_chall_3 p) sig).
Local Notation iv := (P Iv).
Local Notation pdec := (tab (p_tau p) (fun t => P (Opening t))).
Local Notation com := (tab (p_tau p) (fun t => P (Com t))).

Lemma opening_all t : t < p_tau p -> takeN (tree_depth p t * lb) (P (Opening t)) = P (Opening t).
Proof using Hsl. intros Ht. apply takeN_all. rewrite part_len by (try exact Hsl; apply In_parts; exact Ht). apply N.le_refl. Qed.
Lemma hcom_exact : hcom_v lambda iv xof p chalt pdec com = H1 xof lambda (hcom_in xof i sig).
Proof using Hsb Hsl.
  unfold hcom_v, hcom_in. f_equal. f_equal. rewrite map_upto. apply tab_ext. intros t Ht. unfold h_v, tree_in. f_equal. f_equal.
  rewrite map_upto. rewrite !nthN_tab by exact Ht. rewrite (idx_hidden i sig Hsl Hsb) by exact Ht. apply tab_ext. intros j Hj.
  rewrite takeN_all by (rewrite part_len by (try exact Hsl; apply In_parts; exact Ht); cbn [part_size]; lia).
  destruct (j =? hidden p (P Challenge_3) t); [reflexivity|]. f_equal.
  rewrite rtree_path, opening_all by (try exact Ht; lia). reflexivity.
Qed.
Lemma raw_exact n : n < lambda ->
  q_v lambda iv xof p chalt pdec L (tree_of p n) (n - lo p (tree_of p n)) = raw_column xof i sig n.
Proof using Hsb Hsl.
  intros Hn. pose proof (vole_params_ok i) as VP. destruct (tree_of_ok p VP n Hn) as (A1 & A2 & A3).
  rewrite <- (raw_ok xof i sig Hsl Hsb n Hn). unfold q_v, col. f_equal. apply tab_ext. intros x Hx. f_equal.
  rewrite !nthN_tab by exact A1. unfold r_v. destruct (x =? 0); [reflexivity|]. f_equal. f_equal.
  rewrite !rtree_path by lia. rewrite opening_all, open_take by exact A1. reflexivity.
Qed.
End Exact.

Section Honest.
Variable xof : N -> list N -> N -> list N.
Hypothesis HX : xof_sized xof.
Variable i : paramid.
Local Notation p := (param_of i).
Local Notation lambda := (p_lambda p).
Local Notation lb := (p_lambda p / 8).
Local Notation L := (ellhat_bytes p).
Variables key inp out msg r w a b : list N.
Local Notation pk := (inp ++ out).
Hypothesis Hw : lenN w = p_l p / 8 /\ bytes_ok w.
Hypothesis Ha : lenN a = lb /\ bytes_ok a.
Hypothesis Hb : lenN b = lb /\ bytes_ok b.
Local Notation S := (signature_spec xof i key pk msg r w a b).
Local Notation Part := (s_part xof i key pk msg r w a b).
Local Notation iv := (s_iv xof i key pk msg r).
Local Notation rk := (rootkey xof i key pk msg r).
Local Notation ch3 := (s_chall_3 xof i key pk msg r w a b).
Local Notation chalt := (dropN (off_chall_3 p) S).
Local Notation U := (s_u xof i key pk msg r).
Local Notation Col := (s_column xof i key pk msg r).

Lemma SL : lenN S = p_sigSize p. Proof using HX Hw Ha Hb. apply S_ok; assumption. Qed.
Lemma SB : bytes_ok S. Proof using HX Hw Ha Hb. apply S_ok; assumption. Qed.
Lemma SP x : In x (parts p) -> part_of i S x = Part x. Proof using HX Hw Ha Hb. apply S_ok; assumption. Qed.
Lemma SP0 x : match x with Correction k => k < p_tau p - 1 | Opening t | Com t => t < p_tau p | _ => True end -> part_of i S x = Part x.
Proof using HX Hw Ha Hb. intros H. apply SP, In_parts, H. Qed.
Lemma opened t : t < p_tau p -> part_of i S (Opening t) =
  co_path (tree_list lambda iv (root_of lambda iv p rk t) (tree_depth p t)) (tree_depth p t) (idx_of p chalt t).
Proof using HX Hw Ha Hb.
  intros Ht. rewrite (SP0 (Opening t) Ht). cbn [s_part]. rewrite (opening_eq xof HX i key inp out msg r w a b Hw Ha Hb) by exact Ht. rewrite root_eq.
  rewrite (idx_hidden i S SL SB t Ht), (SP0 Challenge_3 I). reflexivity.
Qed.
Lemma digest_same : H1 xof lambda (hcom_in xof i S) = s_hcom xof i key pk msg r.
Proof using HX Hw Ha Hb.
  rewrite <- (hcom_exact xof i S SL SB), (SP0 Iv I). cbn [s_part]. rewrite hcom_eq.
  destruct (iv_ok xof HX i key inp out msg r) as [I1 I2]. destruct (rk_ok xof HX i key inp out msg r) as [K1 K2].
  apply (honest_digest lambda iv (Hlam i) I1 xof HX p (vole_params_ok i) eq_refl rk).
  - lia.
  - exact K2.
  - intros t Ht. rewrite nthN_tab by exact Ht. apply opened, Ht.
  - intros t Ht. rewrite nthN_tab by exact Ht. rewrite (SP0 (Com t) Ht). cbn [s_part]. unfold s_com, s_leaf. cbv zeta. rewrite root_eq.
    rewrite (idx_hidden i S SL SB t Ht), (SP0 Challenge_3 I). reflexivity.
Qed.
Lemma bit_ch3 n : n < lambda -> bit_at ch3 n = N.testbit (le_val chalt) n.
Proof using HX Hw Ha Hb.
  intros Hn. rewrite <- (chal_bit i S SL SB n Hn), (SP0 Challenge_3 I). reflexivity.
Qed.
Lemma column_same n : n < lambda -> column xof i S n = xors (Col n) (scale (bit_at ch3 n) (U 0)).
Proof using HX Hw Ha Hb.
  intros Hn. pose proof (vole_params_ok i) as VP. destruct (tree_of_ok p VP n Hn) as (A1 & A2 & A3).
  destruct (iv_ok xof HX i key inp out msg r) as [I1 I2]. destruct (rk_ok xof HX i key inp out msg r) as [K1 K2].
  unfold column. cbv zeta. rewrite <- (raw_exact xof i S SL SB n Hn). rewrite (SP0 Iv I), (SP0 Challenge_3 I). cbn [s_part]. rewrite L_eq.
  rewrite (honest_columns lambda iv (Hlam i) I1 xof p VP eq_refl rk chalt L (tree_of p n) (n - lo p (tree_of p n))); try assumption; try lia.
  2:{ rewrite nthN_tab by exact A1. apply opened, A1. }
  replace (lo p (tree_of p n) + (n - lo p (tree_of p n))) with n by lia. rewrite <- bit_ch3 by exact Hn.
  rewrite <- col_eq, <- u_eq, !xors_eq. set (t := tree_of p n) in *.
  destruct (Col_ok xof HX i key inp out msg r n) as [C1 C2]. destruct (U_ok xof HX i key inp out msg r 0) as [U1 U2]. destruct (U_ok xof HX i key inp out msg r t) as [T1 T2].
  rewrite (scale_eq L _ (U 0)) by exact U1. rewrite (scale_eq L).
  2:{ destruct (t =? 0) eqn:E; [apply lenN_zeros|]. rewrite SP0 by lia. apply (Cor_ok xof HX). }
  destruct (bit_at ch3 n); cbn [sel].
  - destruct (t =? 0) eqn:E.
    + replace t with 0 by lia. apply xor_bytes_zeros_r. rewrite lenN_xor by congruence. exact C1.
    + rewrite SP0 by lia. cbn [s_part]. unfold s_correction. replace (t - 1 + 1) with t by lia. rewrite xors_eq, xor_bytes_assoc. f_equal.
      rewrite xor_bytes_comm. apply xor_bytes_cancel. congruence.
  - rewrite !(xor_bytes_zeros_r (Col n) L) by exact C1. reflexivity.
Qed.

Lemma mu_same : H1 xof lambda (mu_in pk msg) = mu xof i pk msg.
Proof using. reflexivity. Qed.
Lemma chall_1_same : chall_1 xof i pk msg S = s_chall_1 xof i key pk msg r.
Proof using HX Hw Ha Hb.
  unfold chall_1, chall_1_in, s_chall_1. cbv zeta. rewrite digest_same, (SP0 Iv I), !map_upto. cbn [s_part].
  rewrite (tab_ext (p_tau p - 1) _ (s_correction xof i key pk msg r)) by (intros k Hk; apply (SP0 (Correction k) Hk)). reflexivity.
Qed.
Lemma hv_same : hv_in xof i pk msg S = concat (map (fun n => vole_hash_spec (F_of i) (s_chall_1 xof i key pk msg r) (Col n) (p_l p)) (upto lambda)).
Proof using HX Hw Ha Hb.
  unfold hv_in. cbv zeta. rewrite !map_upto. f_equal. apply tab_ext. intros n Hn. rewrite chall_1_same, column_same by exact Hn.
  rewrite (SP0 U_tilde I), (SP0 Challenge_3 I). cbn [s_part]. unfold s_u_tilde. cbv zeta.
  destruct (Col_ok xof HX i key inp out msg r n) as [C1 C2]. destruct (U_ok xof HX i key inp out msg r 0) as [U1 U2].
  destruct (hash_ok xof HX i key inp out msg r _ C1 C2) as (_ & H1 & H2). destruct (hash_ok xof HX i key inp out msg r _ U1 U2) as (_ & H3 & H4).
  set (c1 := s_chall_1 xof i key pk msg r) in *. rewrite !xors_eq. rewrite (scale_eq (lb + 2) _ (vole_hash_spec _ _ (U 0) _)) by exact H3. rewrite (scale_eq L _ (U 0)) by exact U1.
  pose proof (set_ok i) as SF. pose proof (sf_n i SF) as En. pose proof (sf_in i SF) as HIn. pose proof (sf_64 i SF) as H64.
  assert (CB : bytes_ok c1) by apply (ch1_ok xof HX).
  destruct (bit_at ch3 n); cbn [sel].
  - rewrite vole_spec_linear; try assumption; try congruence.
    + apply xor_bytes_cancel. congruence.
    + rewrite C1, <- L_eq, En. pose proof (ell8 i). pose proof (sf_n8 i SF). lia.
  - rewrite (xor_bytes_zeros_r (Col n) L) by exact C1. apply xor_bytes_zeros_r, H1.
Qed.
Lemma chall_2_same : chall_2 xof i pk msg S = s_chall_2 xof i key pk msg r w.
Proof using HX Hw Ha Hb.
  unfold chall_2, chall_2_in, s_chall_2. cbv zeta. rewrite chall_1_same, hv_same, (SP0 U_tilde I), (SP0 D_masked_witness I). reflexivity.
Qed.

Local Notation Q := (tab lambda (column xof i S)).
Lemma honest_corr : matrix lambda (lenN (U 0)) (tab lambda Col) /\ correlated lambda ch3 (U 0) (tab lambda Col) Q.
Proof using HX Hw Ha Hb.
  split.
  - split; [apply lenN_tab|]. intros j Hj. change (nth (N.to_nat j) (tab lambda Col) []) with (nthN (tab lambda Col) j []). rewrite nthN_tab by exact Hj.
    destruct (Col_ok xof HX i key inp out msg r j) as [C1 C2]. destruct (U_ok xof HX i key inp out msg r 0) as [U1 U2]. split; [|exact C2].
    change (lenN (Col j) = lenN (U 0)). congruence.
  - split; [apply lenN_tab|]. intros j Hj. change (nth (N.to_nat j) (tab lambda Col) []) with (nthN (tab lambda Col) j []).
    change (nth (N.to_nat j) Q []) with (nthN Q j []). rewrite !nthN_tab by exact Hj. apply column_same, Hj.
Qed.
End Honest.

(** what signing computes, for a valid key *)
Section Main.
Variable xof : N -> list N -> N -> list N.
Hypothesis HX : xof_sized xof.
Variable i : paramid.
Local Notation p := (param_of i).
Local Notation lambda := (p_lambda p).
Local Notation lb := (p_lambda p / 8).

Lemma key_lb : owf_key_size i = lb.
Proof using. destruct i; reflexivity. Qed.

Lemma sign_exact key inp out msg r :
  lenN key = owf_key_size i -> bytes_ok key -> lenN inp = owf_input_size i -> bytes_ok inp -> owf i key inp = Ok (out, true) ->
  exists w a b, 
    aes_extend_witness i key inp = Ok w /\
    aes_prove p w (s_u xof i key (inp ++ out) msg r 0) (map (s_column xof i key (inp ++ out) msg r) (upto lambda)) inp out (s_chall_2 xof i key (inp ++ out) msg r w) = Ok (a, b) /\
    let S := signature_spec xof i key (inp ++ out) msg r w a b in
    lenN S = p_sigSize p /\ bytes_ok S /\
    (forall sig0 rho, lenN sig0 = p_sigSize p -> bytes_ok sig0 -> rho_bytes rho = r ->
      faest_sign xof i sig0 msg key inp out rho = if mu_defined i (lenN msg) && rho_defined i rho then Ok S else UB) /\
    faest_verify xof i msg S inp out = if mu_defined i (lenN msg) then Ok true else UB.
Proof using HX.
  intros HKL HKB HIL HIB HO. destruct (witness_valid i key inp out HKL HKB HIL HIB HO) as (w & EW & WL & WB & _ & WD & _).
  destruct (owf_correct i key inp HKL HKB HIL HIB) as (ok & E & _). rewrite HO in E. injection E as EO _.
  destruct (owf_value_facts i key inp HKL HKB HIL HIB) as [OL OB]. rewrite <- EO in OL, OB. clear EO ok.
  set (U0 := s_u xof i key (inp ++ out) msg r 0). set (C := tab lambda (s_column xof i key (inp ++ out) msg r)).
  set (c2 := s_chall_2 xof i key (inp ++ out) msg r w).
  destruct (ch2_ok xof HX i key inp out msg r w (zeros lb) (zeros lb)) as [C2L C2B]; try (split; [apply lenN_zeros|apply bytes_ok_zeros]); [split; assumption|].
  fold c2 in C2L, C2B.
  destruct (U_ok xof HX i key inp out msg r 0) as [U1 U2]. fold U0 in U1, U2.
  assert (HLU : p_l p + lambda <= 8 * lenN U0).
  { rewrite U1, <- L_eq. pose proof (ell8 i). pose proof (sf_n8 i (set_ok i)). lia. }
  pose proof (zero_defects i c2 w inp out C2B WD) as HZ.
  assert (Z : lenN (zeros lb) = lb /\ bytes_ok (zeros lb)) by (split; [apply lenN_zeros|apply bytes_ok_zeros]).
  destruct (honest_corr xof HX i key inp out msg r w (zeros lb) (zeros lb) (conj WL WB) Z Z) as [M0 R0]. fold U0 C in M0, R0.
  destruct (ch3_ok xof HX i key inp out msg r w (zeros lb) (zeros lb) (conj WL WB) Z Z) as [T1 T2].
  destruct (honest_agrees i w U0 C _ inp out c2 _ WL WB HIL HIB OL OB HLU U2 M0 R0 ltac:(lia) C2B T1 T2 HZ) as (a & b & EP & LA & BA & LB & BB & _).
  exists w, a, b. split; [exact EW|]. rewrite map_upto. fold C U0 c2. split; [exact EP|]. intros S.
  assert (Hw : lenN w = p_l p / 8 /\ bytes_ok w) by (split; assumption).
  assert (Ha : lenN a = lb /\ bytes_ok a) by (split; assumption). assert (Hb : lenN b = lb /\ bytes_ok b) by (split; assumption).
  destruct (S_ok xof HX i key inp out msg r w a b Hw Ha Hb) as (SL & SB & SP). fold S in SL, SB, SP.
  split; [exact SL|]. split; [exact SB|]. split.
  - intros sig0 rho L0 B0 ER. apply (sign_run xof HX i key inp out msg r w a b Hw Ha Hb); try assumption.
  - destruct (verify_run xof HX i inp out msg S SL SB HIL HIB OL OB) as (b' & LB' & BB' & EB & ->).
    destruct (mu_defined i (lenN msg)); [|reflexivity]. f_equal.
    destruct (honest_corr xof HX i key inp out msg r w a b Hw Ha Hb) as [M1 R1]. fold U0 C S in M1, R1.
    destruct (ch3_ok xof HX i key inp out msg r w a b Hw Ha Hb) as [T3 T4].
    destruct (honest_agrees i w U0 C _ inp out c2 _ WL WB HIL HIB OL OB HLU U2 M1 R1 ltac:(lia) C2B T3 T4 HZ) as (a' & b'' & EP' & _ & _ & _ & _ & EV).
    fold p in EP'. rewrite EP in EP'. injection EP' as <- <-.
    assert (b' = b).
    { unfold b_tilde in EB. cbv zeta in EB. rewrite map_upto, !sub_eq, dropN_0 in EB. fold (owf_input_size i) in EB.
      replace (takeN (owf_input_size i) (inp ++ out)) with inp in EB by (rewrite <- HIL at 1; rewrite takeN_app_exact; reflexivity).
      replace (takeN (owf_input_size i) (dropN (owf_input_size i) (inp ++ out))) with out in EB
        by (rewrite <- HIL at 2; rewrite dropN_app_exact, takeN_all by lia; reflexivity).
      unfold S in EB. rewrite (chall_2_same xof HX i key inp out msg r w a b Hw Ha Hb) in EB. fold S c2 in EB. rewrite !SP in EB by (apply In_parts; exact I).
      cbn [s_part] in EB. unfold s_d in EB. cbv zeta in EB. rewrite sub_eq, dropN_0 in EB. fold U0 in EB.
      change (firstn (N.to_nat (p_l p / 8)) U0) with (takeN (p_l p / 8) U0) in EV. cbv zeta in EV. rewrite EV in EB. injection EB as <-. reflexivity. }
    subst b'. apply bytes_eqb_eq. unfold chall_3_in. unfold S at 1. rewrite (chall_2_same xof HX i key inp out msg r w a b Hw Ha Hb).
    fold S. rewrite !SP by (apply In_parts; exact I). reflexivity.
Qed.
End Main.
