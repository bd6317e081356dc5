(** The statements of C14 and C15 from Proof/VoleProof.v. *)
From Verif.Model Require Import Vole.
From Verif.Spec Require Import VcSpec VoleSpec VoleMap FormatSpec.
From Verif.Proof Require Import BaseProof PrgProof AesProps VcProof VcProps VoleProof.
From Coq Require Import Lia ZifyBool ZifyNat ZifyN.
Ltac Zify.zify_post_hook ::= Z.div_mod_to_equations.

Lemma xors_eq a b : xors a b = xor_bytes a b.
Proof. revert b. induction a as [|x a IH]; intros [|y b]; cbn; try reflexivity. f_equal. apply IH. Qed.
Lemma scale_eq L b x : lenN x = L -> scale b x = sel L b x.
Proof.
  intros <-. destruct b; [reflexivity|]. cbn. unfold zeros. rewrite <- length_lenN.
  induction x as [|y x IH]; cbn; [reflexivity|]. f_equal. exact IH.
Qed.
Lemma bit_at_le s n : bytes_ok s -> bit_at s n = N.testbit (le_val s) n.
Proof. intros H. rewrite le_val_testbit by exact H. reflexivity. Qed.

Section Cols.
Variable p : param.
Hypothesis VP : vole_params p.

Lemma tree_of_lo t j : t < p_tau p -> j < tree_depth p t -> tree_of p (lo p t + j) = t.
Proof.
  intros Ht Hj. destruct VP. unfold tree_of, lo, tree_depth in *. destruct (t <? p_t0 p) eqn:E.
  - assert (t * p_k0 p + j < p_t0 p * p_k0 p).
    { assert (t + 1 <= p_t0 p) by lia. assert ((t + 1) * p_k0 p <= p_t0 p * p_k0 p) by (apply N.mul_le_mono_r; assumption). lia. }
    replace (t * p_k0 p + j <? p_t0 p * p_k0 p) with true by lia.
    symmetry. apply (N.div_unique _ _ _ j); lia.
  - replace (p_t0 p * p_k0 p + (t - p_t0 p) * p_k1 p + j <? p_t0 p * p_k0 p) with false
      by (generalize (p_t0 p * p_k0 p) ((t - p_t0 p) * p_k1 p); clear; lia).
    replace (p_t0 p * p_k0 p + (t - p_t0 p) * p_k1 p + j - p_t0 p * p_k0 p) with (p_k1 p * (t - p_t0 p) + j)
      by (rewrite (N.mul_comm (p_k1 p)); generalize (p_t0 p * p_k0 p) ((t - p_t0 p) * p_k1 p); clear; lia).
    rewrite <- (N.div_unique _ (p_k1 p) (t - p_t0 p) j) by (try reflexivity; exact Hj). lia.
Qed.
Lemma tree_of_ok n : n < p_lambda p -> tree_of p n < p_tau p /\ lo p (tree_of p n) <= n /\
  n - lo p (tree_of p n) < tree_depth p (tree_of p n).
Proof.
  intros Hn. destruct (lo_find p VP n Hn) as (t & j & Ht & Hj & ->). rewrite tree_of_lo by assumption. lia.
Qed.

Lemma flat_cols {A} (f : N -> N -> A) :
  concat (tab (p_tau p) (fun t => tab (tree_depth p t) (f t))) =
  tab (p_lambda p) (fun n => f (tree_of p n) (n - lo p (tree_of p n))).
Proof.
  assert (HL : lenN (concat (tab (p_tau p) (fun t => tab (tree_depth p t) (f t)))) = p_lambda p).
  { rewrite (concat_var_len (lo p)); [apply lo_tau; assumption|apply lo_0|]. intros i Hi. rewrite lenN_tab. apply lo_succ. }
  pose proof (depth_bound p VP 0) as HD. pose proof (vp_tau1 p VP) as HT1.
  apply (list_ext (f 0 0)).
  - rewrite HL, lenN_tab. reflexivity.
  - intros n Hn. rewrite HL in Hn. destruct (tree_of_ok n Hn) as (A1 & A2 & A3).
    rewrite nthN_tab by exact Hn.
    replace n with (lo p (tree_of p n) + (n - lo p (tree_of p n))) at 1 by lia.
    rewrite (concat_var_nth _ (lo p)); [|apply lo_0| |exact A1|rewrite lenN_tab; exact A3].
    + rewrite nthN_tab by exact A3. reflexivity.
    + intros i Hi. rewrite lenN_tab. apply lo_succ.
Qed.

Lemma chunks_concat chal : bytes_ok chal ->
  concat (tab (p_tau p) (fun t => bits_of (idx_of p chal t) (tree_depth p t))) =
  map (fun n => N.b2n (bit_at chal n)) (upto (p_lambda p)).
Proof.
  intros HB. rewrite (tab_ext _ _ (fun t => tab (tree_depth p t) (fun j => N.b2n (N.testbit (le_val chal) (lo p t + j))))).
  2:{ intros t Ht. apply (list_ext 0); [rewrite lenN_bits_of, lenN_tab; reflexivity|]. intros j Hj.
      rewrite lenN_bits_of in Hj. rewrite nthN_bits_of, nthN_tab by lia. rewrite idx_bit by exact Hj. reflexivity. }
  rewrite flat_cols. unfold upto. rewrite map_map. apply (list_ext 0).
  - rewrite lenN_tab. unfold lenN. rewrite map_length, seq_length. lia.
  - rewrite lenN_tab. intros n Hn. rewrite nthN_tab by exact Hn. destruct (tree_of_ok n Hn) as (A1 & A2 & A3).
    replace (lo p (tree_of p n) + (n - lo p (tree_of p n))) with n by lia.
    unfold nthN. rewrite (nth_indep _ 0 (N.b2n (bit_at chal (N.of_nat 0)))) by (rewrite map_length, seq_length; lia).
    rewrite (map_nth (fun k => N.b2n (bit_at chal (N.of_nat k)))). rewrite seq_nth by lia. cbn [plus].
    rewrite N2Nat.id, bit_at_le by exact HB. reflexivity.
Qed.
End Cols.

Lemma chunks_ok i chal (p := param_of i) : bytes_ok chal -> p_lambda p / 8 <= lenN chal ->
  exists chunk : N -> list N,
    (forall t, t < p_tau p ->
       ChalDec chal t (p_k0 p) (p_t0 p) (p_k1 p) (p_t1 p) = Ok (true, chunk t) /\
       lenN (chunk t) = depth_of p t) /\
    concat (map chunk (upto (p_tau p))) = map (fun n => N.b2n (bit_at chal n)) (upto (p_lambda p)).
Proof.
  intros HB HL. pose proof (vole_params_ok i) as VP. fold p in VP.
  exists (fun t => bits_of (idx_of p chal t) (tree_depth p t)). split.
  - intros t Ht. split; [apply ChalDec_ok; assumption|]. rewrite lenN_bits_of. reflexivity.
  - rewrite <- chunks_concat by assumption. f_equal. unfold tab, upto, Nrange.
    generalize (fun t => bits_of (idx_of p chal t) (tree_depth p t)). intros f.
    rewrite map_map. change (Nseq 0) with (Nseq (N.of_nat 0)). generalize 0%nat.
    induction (N.to_nat (p_tau p)) as [|m IH]; intros k; cbn; [reflexivity|]. f_equal.
    replace (N.of_nat k + 1) with (N.of_nat (S k)) by lia. apply IH.
Qed.
Lemma chunk_out_of_range i chal t (p := param_of i) : p_tau p <= t ->
  ChalDec chal t (p_k0 p) (p_t0 p) (p_k1 p) (p_t1 p) = Ok (false, []).
Proof. apply ChalDec_fails, vole_params_ok. Qed.

Lemma map_tab {A B} (g : A -> B) n (f : N -> A) : map g (tab n f) = tab n (fun i => g (f i)).
Proof. unfold tab. apply map_map. Qed.

(** block t of the corrections *)
Lemma correction_block L (g : N -> list N) n t : (forall i, i < n -> lenN (g i) = L) -> t < n ->
  correction L (concat (tab n g)) (t + 1) = g t.
Proof.
  intros HL Ht. unfold correction. replace (t + 1 =? 0) with false by lia. replace (t + 1 - 1) with t by lia.
  change (takeN L (dropN (t * L) (concat (tab n g))) = g t).
  assert (HC : lenN (concat (tab n g)) = n * L).
  { apply (concat_var_len (fun i => i * L)); [reflexivity|]. intros i Hi. rewrite HL by exact Hi. lia. }
  assert (t * L + L <= n * L) by (clear - Ht; nia).
  apply (list_ext 0).
  - rewrite lenN_takeN, lenN_dropN, HC, HL by exact Ht. lia.
  - intros j Hj. rewrite lenN_takeN, lenN_dropN, HC in Hj. rewrite nthN_takeN, nthN_dropN by lia.
    apply (concat_var_nth 0 (fun i => i * L)); [reflexivity| |exact Ht|rewrite HL by exact Ht; lia].
    intros i Hi. rewrite HL by exact Hi. lia.
Qed.

Lemma vole_correlation xof : xof_sized xof ->
  forall i rootKey iv chal ellhat, let p := param_of i in let L := (ellhat + 7) / 8 in
  p_lambda p / 8 <= lenN rootKey -> bytes_ok rootKey -> 16 <= lenN iv -> bytes_ok iv ->
  p_lambda p / 8 <= lenN chal -> bytes_ok chal ->
  exists hcom vcs c u V opens q',
    vole_commit xof p rootKey iv ellhat = Ok (hcom, vcs, c, u, V) /\
    mapM (open_tree p chal vcs) (Nrange (p_tau p)) = Ok opens /\
    vole_reconstruct xof p iv chal (map fst opens) (map snd opens) ellhat = Ok (hcom, q') /\
    lenN V = p_lambda p /\ lenN q' = p_lambda p /\ lenN c = (p_tau p - 1) * L /\ lenN u = L /\
    forall n, n < p_lambda p ->
      lenN (nth (N.to_nat n) V []) = L /\ lenN (nth (N.to_nat n) q' []) = L /\
      xors (nth (N.to_nat n) q' []) (scale (bit_at chal n) (correction L c (tree_of p n))) =
      xors (nth (N.to_nat n) V []) (scale (bit_at chal n) u).
Proof.
  intros HX i rootKey iv0 chal ellhat p L HKL HKB HIL HIB HCL HCB.
  pose proof (vole_params_ok i) as VP. fold p in VP.
  setoid_rewrite <- (vole_reconstruct_iv xof p iv0); [|exact HIL].
  rewrite <- vole_commit_iv by exact HIL.
  set (iv := takeN 16 iv0). assert (Hiv : lenN iv = 16) by (subst iv; rewrite lenN_takeN; lia).
  assert (Hivb : bytes_ok iv) by (apply Forall_takeN, HIB).
  pose proof (vp_lam p VP) as Hlam. set (lambda := p_lambda p) in *.
  rewrite (vole_commit_ok lambda iv Hlam Hiv Hivb xof HX p VP eq_refl rootKey ellhat HKL HKB). fold L.
  set (R := root_of lambda iv p rootKey). set (dep := tree_depth p).
  set (ix := idx_of p chal).
  set (opens := tab (p_tau p) (fun t =>
    (co_path (tree_list lambda iv (R t) (dep t)) (dep t) (ix t),
     leaf_com xof lambda (leaf lambda iv (R t) (dep t) (ix t)) iv))).
  set (u := u_p lambda iv xof p rootKey L). set (v := v_p lambda iv xof p rootKey L).
  set (qq := q_v lambda iv xof p chal (map fst opens) L).
  assert (HR : forall t, t < p_tau p -> node_ok lambda (R t)) by (intros t Ht; apply root_ok; (assumption || reflexivity)).
  assert (HD : forall t, 1 <= dep t <= 12) by (intros; apply depth_bound, VP).
  assert (HI : forall t, ix t < 2 ^ dep t) by (intros; apply idx_bound).
  assert (HF : forall t, t < p_tau p -> nthN (map fst opens) t [] = co_path (tree_list lambda iv (R t) (dep t)) (dep t) (ix t)).
  { intros t Ht. unfold opens. rewrite map_tab. rewrite nthN_tab by exact Ht. reflexivity. }
  assert (HG : forall t, t < p_tau p -> nthN (map snd opens) t [] = leaf_com xof lambda (leaf lambda iv (R t) (dep t) (ix t)) iv).
  { intros t Ht. unfold opens. rewrite map_tab. rewrite nthN_tab by exact Ht. reflexivity. }
  assert (HU : forall t, lenN (u t) = L) by (intros; apply colsum_len; intros; apply r_p_len).
  do 4 eexists. exists (concat (tab (p_tau p) (fun t => tab (dep t) (v t)))), opens,
    (concat (tab (p_tau p) (fun t => tab (dep t) (qq t)))).
  split; [reflexivity|]. split; [|split; [|split; [|split; [|split; [|split]]]]].
  - apply mapM_tab. intros t Ht. unfold open_tree. rewrite ChalDec_ok by assumption. cbn [bind snd].
    rewrite aget_tab by exact Ht. cbn [bind vc_of vc_k vc_com]. pose proof (HD t).
    rewrite vector_open_ok.
    + rewrite nthN_tab by apply HI. reflexivity.
    + subst dep. cbv beta in *. lia.
    + apply HI.
    + unfold tree_list. rewrite lenN_tab. apply N.le_refl.
    + rewrite lenN_tab. apply N.le_refl.
  - rewrite (vole_reconstruct_ok lambda iv Hlam Hiv Hivb xof HX p VP eq_refl chal (map fst opens) (map snd opens) ellhat);
      try assumption.
    + fold L. f_equal. f_equal.
      apply (honest_digest lambda iv Hlam Hiv xof HX p VP eq_refl rootKey); assumption.
    + rewrite lenN_map. unfold opens. rewrite lenN_tab. lia.
    + rewrite lenN_map. unfold opens. rewrite lenN_tab. lia.
    + intros t Ht. rewrite HF by exact Ht. pose proof (HD t).
      destruct (co_path_ok lambda iv Hlam Hiv xof (R t) (dep t) (ix t)) as [C1 C2]; [apply HR, Ht|lia|apply HI|].
      split; [|exact C2]. rewrite C1. subst dep. cbv beta. lia.
    + intros t Ht. rewrite HG by exact Ht. rewrite leaf_com_len by exact HX. lia.
  - rewrite flat_cols by assumption. apply lenN_tab.
  - rewrite flat_cols by assumption. apply lenN_tab.
  - apply (concat_var_len (fun i => i * L)); [reflexivity|]. intros t Ht. rewrite lenN_xor; rewrite !HU; lia.
  - apply HU.
  - intros n Hn. rewrite !flat_cols by assumption.
    change (nth (N.to_nat n) ?l ?d) with (nthN l n d). rewrite !nthN_tab by exact Hn.
    destruct (tree_of_ok p VP n Hn) as (A1 & A2 & A3). set (t := tree_of p n) in *.
    split; [apply col_len; intros; apply r_p_len|]. split; [apply col_len; intros; apply r_v_len|].
    assert (HC : correction L (concat (tab (p_tau p - 1) (fun k => xor_bytes (u 0) (u (k + 1))))) t =
                 if t =? 0 then zeros L else xor_bytes (u 0) (u t)).
    { destruct (t =? 0) eqn:E; [unfold correction; rewrite E; reflexivity|].
      replace t with (t - 1 + 1) at 1 by lia. rewrite (correction_block L (fun k => xor_bytes (u 0) (u (k + 1)))).
      - f_equal. f_equal. lia.
      - intros k Hk. rewrite lenN_xor; rewrite !HU; reflexivity.
      - lia. }
    rewrite HC, !xors_eq, !(scale_eq L).
    2:{ apply HU. }
    2:{ destruct (t =? 0); [apply lenN_zeros|]. rewrite lenN_xor; rewrite !HU; reflexivity. }
    unfold qq. rewrite (honest_columns lambda iv Hlam Hiv xof p VP eq_refl rootKey chal L t _ HKL HKB A1 A3) by (apply HF, A1).
    fold v u. replace (lo p t + (n - lo p t)) with n by lia. rewrite bit_at_le by exact HCB.
    assert (HV : lenN (v t (n - lo p t)) = L) by (apply col_len; intros; apply r_p_len).
    destruct (N.testbit (le_val chal) n); cbn [sel].
    + destruct (t =? 0) eqn:E.
      * replace t with 0 by lia. rewrite xor_bytes_zeros_r; [reflexivity|]. replace t with 0 in HV by lia.
        rewrite lenN_xor; rewrite HV; [reflexivity|rewrite HU; reflexivity].
      * rewrite xor_bytes_assoc. f_equal. rewrite xor_bytes_comm. apply xor_bytes_cancel. rewrite !HU. reflexivity.
    + rewrite !(xor_bytes_zeros_r (v t _) L) by exact HV. reflexivity.
Qed.
