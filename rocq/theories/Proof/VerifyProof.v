(** faest_verify computes the run described in Spec/RunSpec.v. *)
From Verif.Model Require Import Faest.
From Verif.Spec Require Import AesSpec OwfSpec VcSpec VoleSpec FormatSpec FormatMap UHashSpec UHashMap ConstraintMap ProofSpec RunSpec.
From Verif.Proof Require Import BaseProof PrgProof VcProof VoleProof VoleProps FormatProof CorrectProof UHashProof UHashProps
  WitnessProps RowsProof ProveProof AgreeProps.
From Coq Require Import Lia ZifyBool ZifyNat ZifyN.
Ltac Zify.zify_post_hook ::= Z.div_mod_to_equations.

Lemma map_upto {A} (f : N -> A) n : map f (upto n) = tab n f.
Proof. rewrite upto_eq. reflexivity. Qed.
Lemma start_lo p t : start p t = lo p t.
Proof.
  unfold start. rewrite map_upto. induction t as [|t IH] using N.peano_ind; [rewrite lo_0; reflexivity|].
  rewrite <- N.add_1_r, tab_succ, fold_right_app. cbn [fold_right]. rewrite lo_succ, <- IH. unfold tree_depth, depth_of.
  generalize (if t <? p_t0 p then p_k0 p else p_k1 p). clear IH. intros d.
  induction (tab t (fun t => if t <? p_t0 p then p_k0 p else p_k1 p)) as [|x m IH]; cbn [fold_right]; lia.
Qed.

(** the parts of a signature as the code addresses them *)
Section Parts.
Variable i : paramid.
Local Notation p := (param_of i).
Variable sig : list N.
Hypothesis Hsl : lenN sig = p_sigSize p.
Hypothesis Hsb : bytes_ok sig.
Local Notation P := (part_of i sig).

Lemma part_take x : P x = takeN (part_size p x) (dropN (part_off p x) sig).
Proof. unfold part_of. apply sub_eq. Qed.
Lemma part_in x : In x (parts p) -> part_off p x + part_size p x <= lenN sig.
Proof. intros H. rewrite Hsl. apply part_bound, H. Qed.
Lemma part_len x : In x (parts p) -> lenN (P x) = part_size p x.
Proof. intros H. pose proof (part_in x H). rewrite part_take, lenN_takeN, lenN_dropN. lia. Qed.
Lemma part_bytes x : bytes_ok (P x).
Proof. rewrite part_take. apply Forall_takeN, Forall_dropN, Hsb. Qed.
Lemma part_from x : In x (parts p) -> from sig (part_off p x) = Ok (dropN (part_off p x) sig).
Proof. intros H. pose proof (part_in x H). apply from_ok. lia. Qed.
Lemma part_slice x : In x (parts p) -> slice (dropN (part_off p x) sig) 0 (part_size p x) = Ok (P x).
Proof. intros H. pose proof (part_in x H). rewrite slice_ok by (rewrite lenN_dropN; lia). rewrite part_take, dropN_0. reflexivity. Qed.

Lemma iv_tail : dropN (off_iv p) sig = P Iv.
Proof.
  rewrite part_take. cbn [part_size part_off]. symmetry. apply takeN_all. rewrite lenN_dropN.
  pose proof (part_in Iv ltac:(apply In_parts; exact I)) as H. cbn [part_size part_off] in H.
  unfold off_iv, IV_SIZE in *. lia.
Qed.
Lemma chal_take : P Challenge_3 = takeN (p_lambda p / 8) (dropN (off_chall_3 p) sig).
Proof. apply part_take. Qed.

(** the corrections together *)
Definition all_corrections : list N := concat (tab (p_tau p - 1) (fun k => P (Correction k))).
Lemma corrections_eq : all_corrections = takeN ((p_tau p - 1) * ellhat_bytes p) (dropN (off_c p 0) sig).
Proof.
  destruct (sizes_ok i) as (E1 & E2 & E3 & E4 & E5).
  assert (EL : part_size p (Correction 0) = ellhat_bytes p).
  { cbn [part_size]. unfold ellhat_bytes, UNIVERSAL_HASH_B_BITS. f_equal. lia. }
  assert (HP : forall k, k < p_tau p - 1 -> lenN (P (Correction k)) = ellhat_bytes p).
  { intros k Hk. rewrite part_len by (apply In_parts; exact Hk). exact EL. }
  assert (HL : lenN all_corrections = (p_tau p - 1) * ellhat_bytes p).
  { apply (concat_var_len (fun k => k * ellhat_bytes p)); [reflexivity|]. intros k Hk. rewrite HP by exact Hk. lia. }
  pose proof (part_in U_tilde ltac:(apply In_parts; exact I)) as HU. cbn [part_size part_off] in HU. unfold off_u_tilde in HU. rewrite E1 in HU.
  apply (list_ext 0); [rewrite HL, lenN_takeN, lenN_dropN; unfold off_c; lia|].
  intros n Hn. rewrite HL in Hn. set (L := ellhat_bytes p) in *.
  assert (HL0 : 0 < L) by (destruct (L =? 0) eqn:E; [replace L with 0 in Hn by lia; lia|lia]).
  pose proof (N.div_mod n L ltac:(lia)) as EQ. pose proof (N.mod_lt n L ltac:(lia)) as HM. set (k := n / L) in *. set (j := n mod L) in *.
  assert (Hk : k < p_tau p - 1) by (apply N.div_lt_upper_bound; lia).
  rewrite EQ. rewrite (N.mul_comm L k). unfold all_corrections.
  rewrite (concat_var_nth 0 (fun k => k * L)); [|reflexivity|intros; rewrite HP by assumption; lia|exact Hk|rewrite HP by exact Hk; exact HM].
  rewrite part_take. change (part_size p (Correction k)) with (part_size p (Correction 0)). rewrite EL. cbn [part_off].
  rewrite !nthN_takeN, !nthN_dropN by (try (rewrite (N.mul_comm k L), <- EQ; exact Hn); exact HM). unfold off_c. rewrite E1. fold L. f_equal; lia.
Qed.
End Parts.

Lemma take_bit s n m : bytes_ok s -> m < 8 * n -> bit_at (takeN n s) m = bit_at s m.
Proof.
  intros HB Hm. unfold bit_at. change (nth (N.to_nat (m / 8)) ?l 0) with (nthN l (m / 8) 0). rewrite nthN_takeN by lia. reflexivity.
Qed.

Lemma rtree_path lambda iv cop depth leaf : forall l j, N.of_nat l <= depth ->
  rtree lambda iv cop depth leaf l j = from_path lambda iv (takeN (depth * (lambda / 8)) cop) depth leaf l j.
Proof.
  induction l as [|l IH]; intros j Hl; [reflexivity|]. cbn [rtree from_path]. rewrite IH by lia.
  destruct (j / 2 =? ancestor depth leaf (N.of_nat l)); [|reflexivity]. rewrite sub_eq, take_drop_take; [reflexivity|].
  generalize (lambda / 8). intros q. replace (q * N.of_nat l + q) with (N.of_nat (S l) * q) by lia. apply N.mul_le_mono_r, Hl.
Qed.

Lemma xors_fold L l : fold_right xors (repeat 0 (N.to_nat L)) l = Xs L l.
Proof. induction l as [|x l IH]; [reflexivity|]. cbn [fold_right Xs]. rewrite xors_eq, IH. reflexivity. Qed.
Lemma Xs_filter L (f : N -> bool) (g : N -> list N) l : (forall x, lenN (g x) = L) ->
  Xs L (map (fun x => sel L (f x) (g x)) l) = Xs L (map g (filter f l)).
Proof.
  intros HG. induction l as [|x l IH]; [reflexivity|]. cbn [map filter Xs fold_right]. change (fold_right xor_bytes (zeros L)) with (Xs L).
  rewrite IH. destruct (f x); cbn [sel map Xs fold_right]; [reflexivity|].
  apply xor_bytes_zeros_l. apply Xs_len, Forall_forall. intros y Hy. apply in_map_iff in Hy. destruct Hy as (z & <- & _). apply HG.
Qed.

Lemma verify_prefix i d Q ch2 ch3 a inp out :
  bytes_ok inp -> bytes_ok out -> lenN inp = owf_input_size i -> lenN out = owf_input_size i ->
  bytes_ok d -> p_l (param_of i) / 8 <= lenN d ->
  cols_ok (p_lambda (param_of i)) (p_l (param_of i) + p_lambda (param_of i)) Q ->
  bytes_ok ch2 -> 3 * (p_lambda (param_of i) / 8) + 8 <= lenN ch2 ->
  bytes_ok ch3 -> p_lambda (param_of i) / 8 <= lenN ch3 -> p_lambda (param_of i) / 8 <= lenN a ->
  exists b, lenN b = p_lambda (param_of i) / 8 /\ bytes_ok b /\
    aes_verify (param_of i) d Q ch2 ch3 a inp out = Ok b /\
    aes_verify (param_of i) (takeN (p_l (param_of i) / 8) d) Q ch2 (takeN (p_lambda (param_of i) / 8) ch3)
      (takeN (p_lambda (param_of i) / 8) a) inp out = Ok b.
Proof.
  intros BI BO LI LO BD LD CQ BC LC BC3 LC3 LA.
  destruct (verify_ok i d Q ch2 ch3 a inp out BI BO LI LO BD LD CQ BC LC BC3 LC3 LA) as (Q1 & [L1 H1] & E1).
  destruct (verify_ok i (takeN (p_l (param_of i) / 8) d) Q ch2 (takeN (p_lambda (param_of i) / 8) ch3)
     (takeN (p_lambda (param_of i) / 8) a) inp out BI BO LI LO) as (Q2 & [L2 H2] & E2); try assumption.
  { apply Forall_takeN, BD. } { rewrite lenN_takeN. lia. } { apply Forall_takeN, BC3. } { rewrite lenN_takeN. lia. } { rewrite lenN_takeN. lia. }
  rewrite E1. cbv zeta in E2.
  assert (HQ : Q2 = Q1).
  { apply (list_ext []); [lia|]. intros j Hj. rewrite H1, H2. unfold mcol. rewrite takeN_takeN, N.min_id.
    destruct (j <? p_lambda (param_of i)) eqn:E; cbn [andb]; [|reflexivity]. rewrite take_bit; [reflexivity|exact BC3|].
    pose proof (sf_n8 i (set_ok i)). lia. }
  assert (HD : delta_of i (takeN (p_lambda (param_of i) / 8) ch3) = delta_of i ch3).
  { unfold delta_of. f_equal. rewrite !sub_eq, !dropN_0, takeN_takeN, N.min_id. reflexivity. }
  assert (HA : sub (takeN (p_lambda (param_of i) / 8) a) 0 (p_lambda (param_of i) / 8) = sub a 0 (p_lambda (param_of i) / 8)).
  { rewrite !sub_eq, !dropN_0, takeN_takeN, N.min_id. reflexivity. }
  rewrite HQ, HD, HA in E2. eexists. split; [|split; [|split; [reflexivity|exact E2]]].
  - apply lenN_to_bytes.
  - rewrite to_bytes_eq. apply bytes_ok_le_bytes.
Qed.

(** whether hashing the message is defined (property C42) *)
Definition mu_defined (i : paramid) (len : N) : bool :=
  absorb_defined (if p_lambda (param_of i) =? 128 then 168 else 136)
    (p_pkSize (param_of i) mod (if p_lambda (param_of i) =? 128 then 168 else 136)) len.

Lemma level_of i : In (p_lambda (param_of i), F_of i) levels.
Proof. destruct i; cbn; auto. Qed.

Section Run.
Variable xof : N -> list N -> N -> list N.
Hypothesis HX : xof_sized xof.
Variable i : paramid.
Local Notation p := (param_of i).
Local Notation lambda := (p_lambda p).
Local Notation lb := (p_lambda p / 8).

Lemma xof_len s d n : lenN (xof s d n) = n.
Proof using HX. destruct (HX s d n) as [H _]. unfold lenN. lia. Qed.
Lemma xof_bytes s d n : bytes_ok (xof s d n).
Proof using HX. apply HX. Qed.
Lemma H1_len d : lenN (H1 xof lambda d) = 2 * lb.
Proof using HX. unfold H1. rewrite xof_len. lia. Qed.
Lemma H1_final_H1 d : H1_final xof (mkH (shake_of lambda) d) (lb * 2) = H1 xof lambda d.
Proof using. reflexivity. Qed.
Lemma half_half : p_pkSize p / 2 + p_pkSize p / 2 = p_pkSize p.
Proof using. destruct i; reflexivity. Qed.

Local Notation L := (ellhat_bytes p).
Lemma L_eq : (p_l p + 2 * lambda + 16) / 8 = L.
Proof using. unfold ellhat_bytes, UNIVERSAL_HASH_B_BITS. f_equal. lia. Qed.
Lemma L_eq7 : (p_l p + lambda * 2 + UNIVERSAL_HASH_B_BITS + 7) / 8 = L.
Proof using. apply sizes_ok. Qed.

Lemma two_lambda_div : 2 * lambda / 8 = lb * 2.
Proof using. destruct i; reflexivity. Qed.
Lemma lb_max : lb <= 32 /\ p_tau p <= MAX_TAU.
Proof using. destruct i; vm_compute; split; discriminate. Qed.

Variables inp out msg sig : list N.
Hypothesis Hsl : lenN sig = p_sigSize p.
Hypothesis Hsb : bytes_ok sig.
Local Notation P := (part_of i sig).


Lemma hash_mu_ok : lenN inp = owf_input_size i -> lenN out = owf_input_size i ->
  hash_mu xof inp out (p_pkSize p / 2) msg lambda =
  if mu_defined i (lenN msg) then Ok (H1 xof lambda (mu_in (inp ++ out) msg)) else UB.
Proof using.
  intros LI LO.
  unfold hash_mu. rewrite !slice_full' by assumption. cbn [bind]. unfold H_update_any, mu_defined, h_rate.
  rewrite !H_update_app. unfold H_update at 1 2 3. unfold H_init. cbn [h_data h_sec app]. rewrite lenN_app, LI, LO.
  unfold owf_input_size. rewrite half_half.
  replace ((if lambda =? 128 then 128 else 256) =? 128) with (lambda =? 128) by (destruct (lambda =? 128); reflexivity).
  destruct (absorb_defined _ _ _); [|reflexivity]. cbn [guard bind]. rewrite two_lambda_div. unfold mu_in. reflexivity.
Qed.

Local Notation chalt := (dropN (off_chall_3 p) sig).
Local Notation iv := (P Iv).

Lemma chalt_len : lb <= lenN chalt.
Proof using Hsl.
  pose proof (part_in i sig Hsl Challenge_3 ltac:(apply In_parts; exact I)) as H. cbn [part_off part_size] in H. rewrite lenN_dropN. lia.
Qed.
Lemma chal_bit n : n < lambda -> bit_at (P Challenge_3) n = N.testbit (le_val chalt) n.
Proof using Hsb Hsl.
  intros Hn. rewrite chal_take, take_bit by (try (apply Forall_dropN, Hsb); pose proof (sf_n8 i (set_ok i)); lia).
  apply bit_at_le, Forall_dropN, Hsb.
Qed.
Lemma idx_hidden t : t < p_tau p -> idx_of p chalt t = hidden p (P Challenge_3) t.
Proof using Hsb Hsl.
  intros Ht. pose proof (vole_params_ok i) as VP. pose proof (lo_bound p VP t Ht) as HB. unfold hidden. rewrite start_lo, num_eq.
  change (depth_of p t) with (tree_depth p t).
  apply N.bits_inj. intros j. destruct (N.lt_ge_cases j (tree_depth p t)) as [H|H].
  - rewrite idx_bit by exact H. rewrite N.mod_pow2_bits_low by exact H. rewrite N.div_pow2_bits.
    rewrite <- !bit_at_le by (try (apply part_bytes, Hsb); apply Forall_dropN, Hsb).
    rewrite chal_take, take_bit by (try (apply Forall_dropN, Hsb); pose proof (sf_n8 i (set_ok i)); lia). f_equal. lia.
  - unfold idx_of. rewrite !N.mod_pow2_bits_high by exact H. reflexivity.
Qed.
Lemma open_take t : takeN (tree_depth p t * lb) (dropN (off_pdec p t) sig) = P (Opening t).
Proof using. rewrite part_take. reflexivity. Qed.
Lemma com_take t : takeN (lb * 2) (dropN (off_com p t) sig) = P (Com t).
Proof using. rewrite part_take. cbn [part_size part_off]. rewrite N.mul_comm. reflexivity. Qed.

Local Notation pdec := (tab (p_tau p) (fun t => dropN (off_pdec p t) sig)).
Local Notation com := (tab (p_tau p) (fun t => dropN (off_com p t) sig)).

Lemma hcom_ok : hcom_v lambda iv xof p chalt pdec com = H1 xof lambda (hcom_in xof i sig).
Proof using Hsb Hsl.
  unfold hcom_v, hcom_in. f_equal. f_equal. rewrite map_upto. apply tab_ext. intros t Ht. unfold h_v, tree_in. f_equal. f_equal.
  rewrite map_upto. rewrite !nthN_tab by exact Ht. rewrite idx_hidden by exact Ht. apply tab_ext. intros j Hj.
  rewrite com_take. destruct (j =? hidden p (P Challenge_3) t); [reflexivity|]. f_equal.
  rewrite rtree_path, open_take by lia. reflexivity.
Qed.

Lemma raw_ok n : n < lambda ->
  q_v lambda iv xof p chalt pdec L (tree_of p n) (n - lo p (tree_of p n)) = raw_column xof i sig n.
Proof using Hsb Hsl.
  intros Hn. pose proof (vole_params_ok i) as VP. destruct (tree_of_ok p VP n Hn) as (A1 & A2 & A3).
  unfold q_v, raw_column. cbv zeta. rewrite start_lo, xors_fold, L_eq. set (t := tree_of p n) in *. set (j := n - lo p t) in *.
  rewrite nthN_tab by exact A1. rewrite idx_hidden by exact A1. set (h := hidden p (P Challenge_3) t). change (depth_of p t) with (tree_depth p t).
  set (g := fun x => mask xof i sig t (N.lxor x h)).
  assert (HG : forall x, lenN (g x) = L).
  { intros x. subst g. cbv beta. unfold mask. cbv zeta. rewrite ctr_bytes_stream, stream_len. apply L_eq. }
  rewrite <- (Xs_filter L (fun x => N.testbit x j) g) by exact HG. rewrite upto_eq. unfold col, tab. f_equal. apply map_ext_in. intros x Hx.
  unfold r_v. destruct (x =? 0) eqn:E.
  - replace x with 0 by lia. rewrite N.bits_0. reflexivity.
  - f_equal. subst g. cbv beta. unfold mask. cbv zeta. rewrite ctr_bytes_stream, L_eq. rewrite rtree_path, open_take by lia. reflexivity.
Qed.

Lemma raw_len n : lenN (raw_column xof i sig n) = L.
Proof using.
  unfold raw_column. cbv zeta. rewrite xors_fold, L_eq. apply Xs_len, Forall_forall. intros y Hy. apply in_map_iff in Hy.
  destruct Hy as (z & <- & _). unfold mask. cbv zeta. rewrite ctr_bytes_stream, stream_len. apply L_eq.
Qed.
Lemma raw_bytes n : bytes_ok (raw_column xof i sig n).
Proof using HX Hsl.
  assert (Hiv : lenN iv = 16) by (apply part_len; [exact Hsl|apply In_parts; exact I]).
  pose proof (vole_params_ok i) as VP. pose proof (vp_lam p VP) as Hlam.
  unfold raw_column. cbv zeta. rewrite xors_fold. apply Xs_bytes, Forall_forall. intros y Hy. apply in_map_iff in Hy.
  destruct Hy as (z & <- & _). unfold mask. cbv zeta. rewrite ctr_bytes_stream. apply str_seed_bytes; assumption.
Qed.

Lemma correction_part t : t < p_tau p ->
  correction L (dropN (off_c p 0) sig) t = if t =? 0 then repeat 0 (N.to_nat L) else P (Correction (t - 1)).
Proof using Hsl.
  intros Ht. unfold correction. destruct (t =? 0) eqn:E; [reflexivity|]. rewrite part_take. cbn [part_off part_size]. rewrite L_eq.
  change (takeN L (dropN ((t - 1) * L) (dropN (off_c p 0) sig)) = takeN L (dropN (off_c p (t - 1)) sig)).
  rewrite dropN_dropN. unfold off_c. destruct (sizes_ok i) as (E1 & _). rewrite E1. reflexivity.
Qed.

Lemma column_ok qprime n : n < lambda -> nthN qprime n [] = raw_column xof i sig n -> q_fixed i sig qprime n = column xof i sig n.
Proof using Hsb Hsl.
  intros Hn HQ. pose proof (vole_params_ok i) as VP. destruct (tree_of_ok p VP n Hn) as (A1 & A2 & A3).
  unfold q_fixed, column. cbv zeta. rewrite xors_eq, HQ, L_eq, <- chal_bit by exact Hn. f_equal.
  rewrite <- correction_part by exact A1.
  destruct (correction_len i sig ltac:(rewrite Hsl; apply N.le_refl) Hsb (tree_of p n) A1) as [K1 K2].
  symmetry. apply scale_eq. exact K1.
Qed.
Lemma column_len n : n < lambda -> lenN (column xof i sig n) = L.
Proof using Hsb Hsl.
  intros Hn. rewrite <- (column_ok (tab lambda (raw_column xof i sig)) n Hn) by (rewrite nthN_tab by exact Hn; reflexivity).
  pose proof (vole_params_ok i) as VP. destruct (tree_of_ok p VP n Hn) as (A1 & A2 & A3).
  destruct (correction_len i sig ltac:(rewrite Hsl; apply N.le_refl) Hsb (tree_of p n) A1) as [K1 K2].
  unfold q_fixed. rewrite nthN_tab by exact Hn. rewrite lenN_xor; rewrite raw_len; [reflexivity|]. symmetry. apply sel_len, K1.
Qed.
Lemma column_bytes n : n < lambda -> bytes_ok (column xof i sig n).
Proof using HX Hsb Hsl.
  intros Hn. rewrite <- (column_ok (tab lambda (raw_column xof i sig)) n Hn) by (rewrite nthN_tab by exact Hn; reflexivity).
  pose proof (vole_params_ok i) as VP. destruct (tree_of_ok p VP n Hn) as (A1 & A2 & A3).
  destruct (correction_len i sig ltac:(rewrite Hsl; apply N.le_refl) Hsb (tree_of p n) A1) as [K1 K2].
  unfold q_fixed. rewrite nthN_tab by exact Hn. apply bytes_ok_xor; [apply raw_bytes|].
  destruct (N.testbit _ _); cbn [sel]; [exact K2|apply bytes_ok_zeros].
Qed.

Local Notation cols := (tab lambda (column xof i sig)).

Lemma from_part x : In x (parts p) -> from sig (part_off p x) = Ok (dropN (part_off p x) sig).
Proof using Hsl. apply part_from, Hsl. Qed.
Lemma in0 x : match x with Correction k => k < p_tau p - 1 | Opening t | Com t => t < p_tau p | _ => True end -> In x (parts p).
Proof using. apply In_parts. Qed.

Lemma fits : forall k, k <= 256 / 8 -> k <= MAX_LAMBDA_BYTES.
Proof using. intros k H. exact H. Qed.
Lemma ell8 : p_l p mod 8 = 0.
Proof using. apply (sf_l8 i (set_ok i)). Qed.

Lemma chall_1_ok : lenN (chall_1 xof i (inp ++ out) msg sig) = 5 * lb + 8 /\ bytes_ok (chall_1 xof i (inp ++ out) msg sig).
Proof using HX. split; [apply xof_len|apply xof_bytes]. Qed.
Lemma chall_2_ok : lenN (chall_2 xof i (inp ++ out) msg sig) = 3 * lb + 8 /\ bytes_ok (chall_2 xof i (inp ++ out) msg sig).
Proof using HX. split; [apply xof_len|apply xof_bytes]. Qed.

Lemma col_hash n : n < lambda -> vole_hash lambda (chall_1 xof i (inp ++ out) msg sig) (column xof i sig n) (p_l p) =
  Ok (vole_hash_spec (F_of i) (chall_1 xof i (inp ++ out) msg sig) (column xof i sig n) (p_l p)).
Proof using HX Hsb Hsl.
  intros Hn. destruct chall_1_ok as [C1 C2]. apply vole_hash_computes; try assumption; [apply level_of|apply ell8|lia| |apply column_bytes, Hn].
  rewrite column_len by exact Hn. rewrite <- L_eq. pose proof (sf_n8 i (set_ok i)). pose proof ell8. lia.
Qed.

Lemma hash_q_ok : hash_q xof p (chall_1 xof i (inp ++ out) msg sig) cols (tab lambda (d_tilde i sig)) =
  Ok (H1 xof lambda (hv_in xof i (inp ++ out) msg sig)).
Proof using HX Hsb Hsl.
  unfold hash_q. destruct lb_max as [HL _]. unfold p_fits. rewrite guard_true by (unfold MAX_LAMBDA_BYTES, UNIVERSAL_HASH_B; lia). cbn [bind].
  rewrite (hash_fold_ok (fun n => xors (vole_hash_spec (F_of i) (chall_1 xof i (inp ++ out) msg sig) (column xof i sig n) (p_l p)) (scale (bit_at (P Challenge_3) n) (P U_tilde)))).
  - cbn [bind]. unfold hv_in. cbv zeta. rewrite map_upto. reflexivity.
  - intros c j Hj. rewrite aget_tab by exact Hj. cbn [bind]. rewrite col_hash by exact Hj. cbn [bind]. rewrite aget_tab by exact Hj. cbn [bind].
    rewrite xors_eq. unfold d_tilde. rewrite chal_bit by exact Hj. rewrite (scale_eq (utilde_bytes_of p)).
    + rewrite part_take. cbn [part_off part_size]. reflexivity.
    + rewrite part_len by (try exact Hsl; apply in0; exact I). reflexivity.
Qed.

Lemma mid_app (a b c d : list N) : ((a ++ b) ++ c) ++ d = a ++ b ++ c ++ d.
Proof. rewrite <- !app_assoc. reflexivity. Qed.

Lemma challenge_1_ok : 
  hash_challenge_1 xof (H1 xof lambda (mu_in (inp ++ out) msg)) (H1 xof lambda (hcom_in xof i sig)) (dropN (off_c p 0) sig) iv lambda (p_l p) (p_tau p)
  = Ok (chall_1 xof i (inp ++ out) msg sig).
Proof using HX Hsl.
  unfold hash_challenge_1. cbv zeta. rewrite !slice_full' by (rewrite H1_len; lia). cbn [bind].
  pose proof (corrections_eq i sig Hsl) as EC. destruct (sizes_ok i) as (E1 & E2 & E3 & E4 & E5).
  assert (EL : p_l p / 8 + lb * 2 + UNIVERSAL_HASH_B = L) by (unfold UNIVERSAL_HASH_B; lia). rewrite EL.
  rewrite slice_ok.
  2:{ pose proof (part_in i sig Hsl U_tilde ltac:(apply in0; exact I)) as HU. cbn [part_size part_off] in HU. unfold off_u_tilde in HU. rewrite E1 in HU.
      rewrite lenN_dropN. unfold off_c. rewrite (N.mul_comm L). lia. }
  cbn [bind]. rewrite dropN_0, (N.mul_comm L), <- EC. rewrite slice_full' by (apply part_len; [exact Hsl|apply in0; exact I]). cbn [bind].
  unfold chall_1, H2, chall_1_in. cbv zeta. unfold H2_final, H_squeeze. rewrite !H_update_app. unfold H_update, H_init. cbn [h_data h_sec app].
  rewrite map_upto, <- !app_assoc. reflexivity.
Qed.

Lemma challenge_2_ok : 
  hash_challenge_2 xof (chall_1 xof i (inp ++ out) msg sig) (dropN (off_u_tilde p) sig) (H1 xof lambda (hv_in xof i (inp ++ out) msg sig)) (dropN (off_d p) sig) lambda (p_l p)
  = Ok (chall_2 xof i (inp ++ out) msg sig).
Proof using HX Hsl.
  unfold hash_challenge_2. cbv zeta. rewrite slice_full' by apply chall_1_ok. cbn [bind].
  pose proof (part_slice i sig Hsl U_tilde ltac:(apply in0; exact I)) as EU_tilde. cbn [part_off part_size] in EU_tilde. change (lb + UNIVERSAL_HASH_B) with (lb + 2). rewrite EU_tilde. cbn [bind]. rewrite slice_full' by apply H1_len. cbn [bind].
  pose proof (part_slice i sig Hsl D_masked_witness ltac:(apply in0; exact I)) as ED_masked_witness. cbn [part_off part_size] in ED_masked_witness. rewrite ED_masked_witness. cbn [bind].
  unfold chall_2, H2, chall_2_in. cbv zeta. unfold H2_final, H_squeeze. rewrite !H_update_app. unfold H_update, H_init. cbn [h_data h_sec app].
  rewrite <- !app_assoc. reflexivity.
Qed.

Lemma challenge_3_ok b : lenN b = lb ->
  hash_challenge_3 xof (chall_2 xof i (inp ++ out) msg sig) (dropN (off_a_tilde p) sig) b lambda
  = Ok (H2 xof lambda (chall_3_in xof i (inp ++ out) msg sig b) lb).
Proof using HX Hsl.
  intros HB. unfold hash_challenge_3. cbv zeta. rewrite slice_full' by apply chall_2_ok. cbn [bind].
  pose proof (part_slice i sig Hsl A_tilde ltac:(apply in0; exact I)) as EA_tilde. cbn [part_off part_size] in EA_tilde. rewrite EA_tilde. cbn [bind]. rewrite slice_full' by exact HB. cbn [bind].
  unfold H2, chall_3_in. unfold H2_final, H_squeeze. rewrite !H_update_app. unfold H_update, H_init. cbn [h_data h_sec app].
  rewrite <- !app_assoc. reflexivity.
Qed.

Lemma cols_good : cols_ok lambda (p_l p + lambda) cols.
Proof using HX Hsb Hsl.
  split; [rewrite lenN_tab; lia|]. intros j Hj. rewrite nthN_tab by exact Hj. split; [|apply column_bytes, Hj].
  rewrite column_len by exact Hj. rewrite <- L_eq. pose proof (sf_n8 i (set_ok i)). pose proof ell8. lia.
Qed.

Lemma verify_run : lenN inp = owf_input_size i -> bytes_ok inp -> lenN out = owf_input_size i -> bytes_ok out -> exists b, lenN b = lb /\ bytes_ok b /\
  b_tilde xof i (inp ++ out) msg sig = Ok b /\
  faest_verify xof i msg sig inp out =
    if mu_defined i (lenN msg) then Ok (bytes_eqb (H2 xof lambda (chall_3_in xof i (inp ++ out) msg sig b) lb) (P Challenge_3)) else UB.
Proof using HX Hsb Hsl.
  intros LI BI LO BO.
  pose proof (vole_params_ok i) as VP. pose proof (vp_lam p VP) as Hlam. destruct lb_max as [HLM HTM].
  assert (Hiv : lenN iv = 16 /\ bytes_ok iv) by (split; [apply part_len; [exact Hsl|apply in0; exact I]|apply part_bytes, Hsb]).
  destruct (chall_2_ok) as [C2L C2B].
  pose proof (part_in i sig Hsl D_masked_witness ltac:(apply in0; exact I)) as HDM. cbn [part_size part_off] in HDM.
  pose proof (part_in i sig Hsl A_tilde ltac:(apply in0; exact I)) as HAT. cbn [part_size part_off] in HAT.
  destruct (verify_prefix i (dropN (off_d p) sig) cols (chall_2 xof i (inp ++ out) msg sig) chalt (dropN (off_a_tilde p) sig) inp out) as (b & Lb & Bb & EV & EVP);
    try assumption.
  { apply Forall_dropN, Hsb. } { rewrite lenN_dropN. lia. } { apply cols_good. } { lia. } { apply Forall_dropN, Hsb. } { apply chalt_len. } { rewrite lenN_dropN. lia. }
  exists b. split; [exact Lb|]. split; [exact Bb|]. split.
  { unfold b_tilde. cbv zeta. rewrite map_upto, !sub_eq, dropN_0. fold (owf_input_size i).
    replace (takeN (owf_input_size i) (inp ++ out)) with inp by (rewrite <- LI at 1; rewrite takeN_app_exact; reflexivity).
    replace (takeN (owf_input_size i) (dropN (owf_input_size i) (inp ++ out))) with out
      by (rewrite <- LI at 2; rewrite dropN_app_exact, takeN_all by lia; reflexivity).
    rewrite !part_take; exact EVP. }
  unfold faest_verify. cbv zeta. rewrite hash_mu_ok by assumption. destruct (mu_defined i (lenN msg)); [|reflexivity]. cbn [bind]. unfold p_fits.
  rewrite guard_true by (rewrite H1_len; unfold MAX_LAMBDA_BYTES; lia). cbn [bind].
  rewrite guard_true by lia. cbn [bind].
  rewrite (mapM_tab _ (fun t => dropN (off_pdec p t) sig)) by (intros t Ht; apply (from_part (Opening t)), in0, Ht). cbn [bind].
  rewrite (mapM_tab _ (fun t => dropN (off_com p t) sig)) by (intros t Ht; apply (from_part (Com t)), in0, Ht). cbn [bind].
  rewrite (from_part Iv (in0 Iv I) : from sig (off_iv p) = Ok (dropN (off_iv p) sig)). cbn [bind]. rewrite iv_tail by exact Hsl.
  rewrite (from_part Challenge_3 (in0 Challenge_3 I) : from sig (off_chall_3 p) = Ok (dropN (off_chall_3 p) sig)). cbn [bind].
  rewrite (vole_reconstruct_ok lambda iv Hlam (proj1 Hiv) (proj2 Hiv) xof HX p VP eq_refl).
  2:{ apply Forall_dropN, Hsb. } 2:{ apply chalt_len. } 2,3: rewrite lenN_tab; lia.
  2:{ intros t Ht. rewrite nthN_tab by exact Ht. split; [|apply Forall_dropN, Hsb]. pose proof (part_in i sig Hsl (Opening t) ltac:(apply in0; exact Ht)) as H.
      cbn [part_size part_off] in H. change (depth_of p t) with (tree_depth p t) in H. rewrite lenN_dropN. lia. }
  2:{ intros t Ht. rewrite nthN_tab by exact Ht. pose proof (part_in i sig Hsl (Com t) ltac:(apply in0; exact Ht)) as H.
      cbn [part_size part_off] in H. rewrite lenN_dropN. lia. }
  cbn [bind]. rewrite hcom_ok, L_eq7. rewrite flat_cols by exact VP.
  rewrite guard_true by (rewrite H1_len; unfold MAX_LAMBDA_BYTES; lia). cbn [bind].
  rewrite (from_ok sig (off_c p 0)) by (unfold off_c; lia). cbn [bind].
  rewrite challenge_1_ok. cbn [bind]. destruct chall_1_ok as [C1L C1B].
  rewrite guard_true by (rewrite C1L; unfold MAX_LAMBDA_BYTES; lia). cbn [bind].
  rewrite (verify_correct_ok i sig).
  2:{ rewrite Hsl. apply N.le_refl. } 2:{ exact Hsb. } 2:{ apply lenN_tab. }
  2:{ intros n Hn. rewrite nthN_tab, raw_ok by exact Hn. apply raw_len. }
  cbn [bind].
  rewrite (tab_ext lambda (q_fixed i sig _) (column xof i sig)) by (intros n Hn; apply column_ok; [exact Hn|]; rewrite nthN_tab by exact Hn; apply raw_ok, Hn).
  rewrite hash_q_ok. cbn [bind]. rewrite guard_true by (rewrite H1_len; unfold MAX_LAMBDA_BYTES; lia). cbn [bind].
  rewrite (from_part U_tilde (in0 U_tilde I) : from sig (off_u_tilde p) = Ok (dropN (off_u_tilde p) sig)). cbn [bind].
  rewrite (from_part D_masked_witness (in0 D_masked_witness I) : from sig (off_d p) = Ok (dropN (off_d p) sig)). cbn [bind].
  rewrite challenge_2_ok. cbn [bind]. rewrite guard_true by (rewrite C2L; unfold MAX_LAMBDA_BYTES; lia). cbn [bind].
  rewrite (from_part A_tilde (in0 A_tilde I) : from sig (off_a_tilde p) = Ok (dropN (off_a_tilde p) sig)). cbn [bind].
  rewrite EV. cbn [bind]. rewrite challenge_3_ok by exact Lb. cbn [bind].
  rewrite (part_slice i sig Hsl Challenge_3 (in0 Challenge_3 I) : slice chalt 0 lb = Ok (P Challenge_3)). reflexivity.
Qed.
End Run.
