(** Extraction of the private key from three runs with the same last query. *)
From Verif.Model Require Import Api.
From Verif.Spec Require Import OwfSpec VcSpec VoleSpec VoleMap FormatSpec FormatMap UHashSpec UHashMap ConstraintSpec ConstraintMap ProofSpec RunSpec KeySpec SoundSpec.
From Verif.Proof Require Import BaseProof PrgProof VcProof VcProps VoleProof VoleProps FormatProof CorrectProof UHashProof UHashProps
  WitnessProof WitnessProps RowsProof ProveProof AgreeProps VerifyProof VerifyProps SignProof HonestProof ApiProof ApiProps.
From Coq Require Import Lia ZifyBool ZifyNat ZifyN.
Ltac Zify.zify_post_hook ::= Z.div_mod_to_equations.

Section Runs.
Variable xof : N -> list N -> N -> list N.
Hypothesis HX : xof_sized xof.
Variable i : paramid.
Local Notation p := (param_of i).
Local Notation lambda := (p_lambda p).
Local Notation lb := (p_lambda p / 8).
Local Notation L := (ellhat_bytes p).
Local Notation dep := (tree_depth p).
Variables pk msg : list N.
Local Notation eqd := (list_eq_dec N.eq_dec).
Local Notation hid := (leaf_hidden i).

Definition run_ok (s : list N) : Prop := lenN s = sig_size i /\ bytes_ok s.

(** commitment to leaf [x] of tree [t] *)
Definition com_at (s : list N) (t x : N) : list N :=
  if x =? hid s t then part_of i s (Com t) else leaf_com xof lambda (leaf_of i s t x) (part_of i s Iv).

Lemma in_parts0 x : match x with Opening _ | Com _ => False | Correction k => k < p_tau p - 1 | _ => True end -> In x (parts p).
Proof using. intros Hx. apply In_parts. destruct x; try exact I; [exact Hx|destruct Hx|destruct Hx]. Qed.

Record same_prefix (s s' : list N) : Prop := mkSame {
  sp_parts : forall x, match x with Opening _ | Com _ | Challenge_3 => False | Correction k => k < p_tau p - 1 | _ => True end ->
    part_of i s x = part_of i s' x;
  sp_ch2 : chall_2 xof i pk msg s = chall_2 xof i pk msg s';
  sp_ch1 : chall_1 xof i pk msg s = chall_1 xof i pk msg s';
  sp_hv : hv_in xof i pk msg s = hv_in xof i pk msg s';
  sp_leaf : forall t x, t < p_tau p -> x < 2 ^ depth_of p t -> x <> hid s t -> x <> hid s' t -> leaf_of i s t x = leaf_of i s' t x }.

Lemma same_or_collision s s' b b' : run_ok s -> run_ok s' -> lenN b = lb -> lenN b' = lb ->
  chall_3_in xof i pk msg s b = chall_3_in xof i pk msg s' b' ->
  (same_prefix s s' /\ b = b') \/ run_collision xof i pk msg s s'.
Proof using HX.
  intros [SL SB] [SL' SB'] Lb Lb' Q3.
  pose proof (part_len i s SL) as PL. pose proof (part_len i s' SL') as PL'. pose proof in_parts0 as IP.
  unfold run_collision. cbv zeta.
  unfold chall_3_in in Q3. apply app_inj in Q3; [|unfold chall_2, H2; rewrite !(xof_len xof HX); reflexivity].
  destruct Q3 as [QC2 Q3]. apply app_inj in Q3; [|rewrite PL, PL' by (apply IP; exact I); reflexivity]. destruct Q3 as [QA QB].
  destruct (eqd (chall_2_in xof i pk msg s) (chall_2_in xof i pk msg s')) as [Q2|N2].
  2:{ right. left. split; [exact N2|]. exact QC2. }
  unfold chall_2_in in Q2. cbv zeta in Q2. apply app_inj in Q2; [|unfold chall_1, H2; rewrite !(xof_len xof HX); reflexivity].
  destruct Q2 as [QC1 Q2]. apply app_inj in Q2; [|rewrite PL, PL' by (apply IP; exact I); reflexivity]. destruct Q2 as [QU Q2].
  apply app_inj in Q2; [|rewrite !(H1_len xof HX i); reflexivity]. destruct Q2 as [QHV QD].
  destruct (eqd (chall_1_in xof i pk msg s) (chall_1_in xof i pk msg s')) as [Q1|N1].
  2:{ right. right. left. split; [exact N1|]. exact QC1. }
  destruct (eqd (hv_in xof i pk msg s) (hv_in xof i pk msg s')) as [QV|NV].
  2:{ right. right. right. left. split; [exact NV|]. exact QHV. }
  unfold chall_1_in in Q1. cbv zeta in Q1. apply app_inj in Q1; [|rewrite !(H1_len xof HX i); reflexivity].
  destruct Q1 as [_ Q1]. apply app_inj in Q1; [|rewrite !(H1_len xof HX i); reflexivity]. destruct Q1 as [QH Q1]. rewrite !map_upto in Q1.
  assert (CL : forall s k, lenN s = sig_size i -> k < p_tau p - 1 -> lenN (part_of i s (Correction k)) = L).
  { intros s0 k Hs Hk. rewrite (part_len i s0 Hs) by (apply IP; exact Hk). apply L_eq. }
  assert (CC : forall s, lenN s = sig_size i -> lenN (concat (tab (p_tau p - 1) (fun k => part_of i s (Correction k)))) = (p_tau p - 1) * L).
  { intros s0 Hs. apply (concat_var_len (fun k => k * L)); [reflexivity|]. intros k Hk. rewrite CL by assumption. lia. }
  apply app_inj in Q1; [|rewrite !CC by assumption; reflexivity]. destruct Q1 as [QC QI].
  destruct (eqd (hcom_in xof i s) (hcom_in xof i s')) as [QH1|NH].
  2:{ right. right. right. right. left. split; [exact NH|exact QH]. }
  assert (ET : forall t, t < p_tau p -> H1 xof lambda (tree_in xof i s t) = H1 xof lambda (tree_in xof i s' t)).
  { intros t Ht. unfold hcom_in in QH1. rewrite !map_upto in QH1.
    apply (list_ext 0); [rewrite !(H1_len xof HX i); reflexivity|]. intros n Hn. rewrite (H1_len xof HX i) in Hn.
    pose proof (f_equal (fun l => nthN l (t * (2 * lb) + n) 0) QH1) as Q. cbv beta in Q.
    rewrite !(concat_var_nth 0 (fun k => k * (2 * lb))) in Q; try exact Q; try reflexivity; try exact Ht;
      try (intros; rewrite (H1_len xof HX i); lia); rewrite (H1_len xof HX i); exact Hn. }
  destruct (level_or eqd (tree_in xof i s) (tree_in xof i s') (p_tau p) (fun _ => true)) as [QT|(t & T1 & _ & T2)].
  2:{ right. right. right. right. right. left. exists t. split; [exact T1|]. split; [exact T2|apply ET, T1]. }
  assert (FL : forall s0 t x, lenN s0 = sig_size i -> t < p_tau p -> lenN (com_at s0 t x) = 2 * lb).
  { intros s0 t x Hs Ht. unfold com_at. destruct (x =? hid s0 t); [apply (part_len i s0 Hs), In_parts, Ht|].
    unfold leaf_com, H0. change (skipn (N.to_nat lb)) with (@dropN N lb). rewrite lenN_dropN, (xof_len xof HX). lia. }
  assert (FE : forall t x, t < p_tau p -> x < 2 ^ depth_of p t -> com_at s t x = com_at s' t x).
  { intros t x Ht Hx. specialize (QT t Ht eq_refl). unfold tree_in in QT. cbv zeta in QT. rewrite !map_upto in QT.
    change (concat (tab (2 ^ depth_of p t) (com_at s t)) = concat (tab (2 ^ depth_of p t) (com_at s' t))) in QT.
    apply (list_ext 0); [rewrite !FL by assumption; reflexivity|]. intros n Hn. rewrite FL in Hn by assumption.
    pose proof (f_equal (fun l => nthN l (x * (2 * lb) + n) 0) QT) as Q. cbv beta in Q.
    rewrite (concat_var_nth 0 (fun k => k * (2 * lb)) (com_at s t)) in Q; [|reflexivity|intros; rewrite FL by assumption; lia|exact Hx|rewrite FL by assumption; exact Hn].
    rewrite (concat_var_nth 0 (fun k => k * (2 * lb)) (com_at s' t)) in Q; [exact Q|reflexivity|intros; rewrite FL by assumption; lia|exact Hx|rewrite FL by assumption; exact Hn]. }
  set (G := fun s0 t => map (fun x => if (x =? hid s t) || (x =? hid s' t) then [] else leaf_of i s0 t x) (upto (2 ^ depth_of p t))).
  destruct (level_or (list_eq_dec eqd) (G s) (G s') (p_tau p) (fun _ => true)) as [QG|(t & T1 & _ & T2)].
  - left. split; [|exact QB]. constructor; try assumption.
    + intros x Hx. destruct x as [k| | | |t|t| |]; try assumption; try (exfalso; exact Hx).
      apply (list_ext 0); [rewrite !CL by assumption; reflexivity|]. intros j Hj. rewrite CL in Hj by assumption.
      pose proof (f_equal (fun l => nthN l (k * L + j) 0) QC) as Q. cbv beta in Q.
      rewrite !(concat_var_nth 0 (fun k => k * L)) in Q; try exact Q; try reflexivity; try exact Hx;
        try (intros; rewrite CL by assumption; lia); rewrite CL by assumption; exact Hj.
    + intros t x Ht Hx H1 H2. specialize (QG t Ht eq_refl). unfold G in QG. rewrite !map_upto in QG.
      apply (f_equal (fun l => nthN l x [])) in QG. rewrite !nthN_tab in QG by exact Hx.
      replace ((x =? hid s t) || (x =? hid s' t)) with false in QG by lia. exact QG.
  - right. right. right. right. right. right. exists t.
    destruct (level_or eqd (leaf_of i s t) (leaf_of i s' t) (2 ^ depth_of p t) (fun x => negb ((x =? hid s t) || (x =? hid s' t)))) as [QL|(x & J1 & J2 & J3)].
    + destruct T2. unfold G. rewrite !map_upto. apply tab_ext. intros x Hx. destruct ((x =? hid s t) || (x =? hid s' t)) eqn:E; [reflexivity|].
      apply QL; [exact Hx|]. rewrite E. reflexivity.
    + exists x. split; [exact T1|]. split; [exact J1|]. split; [lia|]. split; [lia|]. split; [exact J3|]. cbv beta.
      specialize (FE t x T1 J1). unfold com_at in FE. replace (x =? hid s t) with false in FE by lia. replace (x =? hid s' t) with false in FE by lia.
      rewrite <- QI in FE. exact FE.
Qed.

(** * The columns of the runs *)
Lemma mask_len s t x : lenN (mask xof i s t x) = L.
Proof using. unfold mask. cbv zeta. rewrite ctr_bytes_stream, stream_len. apply L_eq. Qed.
Lemma mask_bytes s t x : run_ok s -> bytes_ok (mask xof i s t x).
Proof using HX.
  intros [SL SB]. unfold mask. cbv zeta. rewrite ctr_bytes_stream. pose proof (vole_params_ok i) as VP. pose proof (vp_lam p VP) as Hlam.
  apply str_seed_bytes; try assumption. apply part_len; [exact SL|apply In_parts; exact I].
Qed.
Lemma hid_bound s t : hid s t < 2 ^ dep t.
Proof using. apply N.mod_lt. pose proof (pow2_pos (depth_of p t)). lia. Qed.
Lemma bit_hid s n : run_ok s -> n < lambda -> bit_at (part_of i s Challenge_3) n = N.testbit (hid s (tree_of p n)) (n - lo p (tree_of p n)).
Proof using.
  intros [SL SB] Hn. pose proof (vole_params_ok i) as VP. destruct (tree_of_ok p VP n Hn) as (A1 & A2 & A3).
  rewrite (chal_bit i s SL SB n Hn). unfold leaf_hidden. rewrite <- (idx_hidden i s SL SB _ A1). rewrite idx_bit by lia. f_equal. lia.
Qed.
Lemma hid_inj s s' : run_ok s -> run_ok s' -> (forall t, t < p_tau p -> hid s t = hid s' t) -> part_of i s Challenge_3 = part_of i s' Challenge_3.
Proof using.
  intros R R' H. pose proof (vole_params_ok i) as VP.
  assert (PL : forall s, run_ok s -> lenN (part_of i s Challenge_3) = lb) by (intros s0 [SL _]; apply (part_len i s0 SL), In_parts; exact I).
  assert (PB : forall s, run_ok s -> bytes_ok (part_of i s Challenge_3)) by (intros s0 [_ SB]; apply part_bytes, SB).
  apply le_val_inj; [apply PB, R|apply PB, R'|rewrite !PL by assumption; reflexivity|].
  apply N.bits_inj. intros n. rewrite <- !bit_at_le by (apply PB; assumption).
  destruct (N.lt_ge_cases n lambda) as [Hn|Hn].
  - rewrite !bit_hid by assumption. rewrite H; [reflexivity|]. apply (tree_of_ok p VP n Hn).
  - unfold bit_at. rewrite !nth_overflow; [reflexivity|..].
    + pose proof (PL s' R') as Q. unfold lenN in Q. pose proof (sf_n8 i (set_ok i)). lia.
    + pose proof (PL s R) as Q. unfold lenN in Q. pose proof (sf_n8 i (set_ok i)). lia.
Qed.

Definition corr (s : list N) (t : N) : list N := if t =? 0 then zeros L else part_of i s (Correction (t - 1)).
Lemma corr_len s t : run_ok s -> t < p_tau p -> lenN (corr s t) = L.
Proof using.
  intros [SL SB] Ht. unfold corr. destruct (t =? 0) eqn:E; [apply lenN_zeros|]. rewrite (part_len i s SL) by (apply In_parts; lia). apply L_eq.
Qed.
Lemma corr_bytes s t : run_ok s -> bytes_ok (corr s t).
Proof using. intros [SL SB]. unfold corr. destruct (t =? 0) eqn:E; [apply bytes_ok_zeros|]. apply part_bytes, SB. Qed.
Lemma corr_same s s' t : same_prefix s s' -> t < p_tau p -> corr s t = corr s' t.
Proof using. intros H Ht. unfold corr. destruct (t =? 0) eqn:E; [reflexivity|]. apply (sp_parts _ _ H). lia. Qed.

Lemma column_eq s n : run_ok s -> n < lambda ->
  column xof i s n = xor_bytes (raw_column xof i s n) (sel L (bit_at (part_of i s Challenge_3) n) (corr s (tree_of p n))).
Proof using.
  intros R Hn. pose proof (vole_params_ok i) as VP. destruct (tree_of_ok p VP n Hn) as (A1 & _).
  unfold column. cbv zeta. rewrite xors_eq, L_eq. f_equal. apply scale_eq. apply (corr_len s _ R A1).
Qed.

Lemma known_u_eq a a' t : known_u xof i a a' t = xor_bytes (Xs L (tab (2 ^ dep t) (known_mask xof i a a' t))) (corr a t).
Proof using. unfold known_u. cbv zeta. rewrite xors_eq, L_eq, xors_fold, map_upto. reflexivity. Qed.
Lemma known_mask_len a a' t x : lenN (known_mask xof i a a' t x) = L.
Proof using. apply mask_len. Qed.
Lemma known_u_len a a' t : run_ok a -> t < p_tau p -> lenN (known_u xof i a a' t) = L.
Proof using.
  intros R Ht. rewrite known_u_eq. assert (lenN (Xs L (tab (2 ^ dep t) (known_mask xof i a a' t))) = L).
  { apply Xs_len, all_len_tab. intros x _. apply mask_len. }
  rewrite lenN_xor; [assumption|]. rewrite corr_len by assumption. assumption.
Qed.
Lemma known_u_bytes a a' t : run_ok a -> run_ok a' -> bytes_ok (known_u xof i a a' t).
Proof using HX.
  intros R R'. rewrite known_u_eq. apply bytes_ok_xor; [|apply corr_bytes, R]. apply Xs_bytes, Forall_forall. intros y Hy.
  unfold tab in Hy. apply in_map_iff in Hy. destruct Hy as (x & <- & _). unfold known_mask. destruct (x =? hid a t); apply mask_bytes; assumption.
Qed.

(** the masks of any run are the known ones *)
Lemma known_mask_eq a a' c t x : t < p_tau p -> x < 2 ^ dep t -> hid a t <> hid a' t -> same_prefix a c -> same_prefix a' c ->
  x <> hid c t -> known_mask xof i a a' t x = mask xof i c t x.
Proof using.
  intros Ht Hx Hne S S' Hc. unfold known_mask. fold (hid a t). destruct (x =? hid a t) eqn:E.
  - unfold mask. cbv zeta. rewrite (sp_leaf _ _ S' t x Ht Hx) by (try exact Hc; lia). rewrite (sp_parts _ _ S' Iv I). reflexivity.
  - unfold mask. cbv zeta. rewrite (sp_leaf _ _ S t x Ht Hx) by (try exact Hc; lia). rewrite (sp_parts _ _ S Iv I). reflexivity.
Qed.

Definition raw_v (M : N -> list N) (d j : N) : list N := Xs L (tab (2 ^ d) (fun x => sel L (N.testbit x j) (M x))).
Lemma raw_masks s n : n < lambda -> let t := tree_of p n in
  raw_column xof i s n = Xs L (tab (2 ^ dep t) (fun x => sel L (N.testbit x (n - lo p t)) (if x =? 0 then zeros L else mask xof i s t (N.lxor x (hid s t))))).
Proof using.
  intros Hn t. unfold raw_column. cbv zeta. rewrite start_lo, xors_fold, L_eq. fold t.
  rewrite <- (Xs_filter L (fun x => N.testbit x (n - lo p t)) (fun x => mask xof i s t (N.lxor x (hidden p (part_of i s Challenge_3) t)))) by (intros; apply mask_len).
  rewrite map_upto. f_equal. apply tab_ext. intros x Hx. destruct (x =? 0) eqn:E; [|reflexivity]. replace x with 0 by lia. rewrite N.bits_0. reflexivity.
Qed.
Lemma lxor_self x h : N.lxor x h = h -> x = 0.
Proof. intros E. apply (f_equal (fun z => N.lxor z h)) in E. rewrite N.lxor_assoc, N.lxor_nilpotent, N.lxor_0_r in E. exact E. Qed.

Lemma column_open a a' c n : n < lambda -> run_ok a -> run_ok a' -> run_ok c -> let t := tree_of p n in
  hid a t <> hid a' t -> same_prefix a c -> same_prefix a' c ->
  column xof i c n = xor_bytes (raw_v (known_mask xof i a a' t) (dep t) (n - lo p t)) (sel L (bit_at (part_of i c Challenge_3) n) (known_u xof i a a' t)).
Proof using.
  intros Hn Ra Ra' Rc t Hne S S'. pose proof (vole_params_ok i) as VP. destruct (tree_of_ok p VP n Hn) as (A1 & A2 & A3). fold t in A1, A2, A3.
  rewrite column_eq by assumption. fold t. rewrite raw_masks by exact Hn. fold t. rewrite (bit_hid c n Rc Hn). fold t.
  rewrite (tab_ext _ _ (fun x => sel L (N.testbit x (n - lo p t)) (if x =? 0 then zeros L else known_mask xof i a a' t (N.lxor x (hid c t))))).
  2:{ intros x Hx. f_equal. destruct (x =? 0) eqn:E; [reflexivity|]. symmetry. apply known_mask_eq; try assumption.
      - apply lxor_lt; [exact Hx|apply hid_bound].
      - intros Q. apply lxor_self in Q. lia. }
  rewrite (vole_identity L (dep t) (hid c t) (n - lo p t) (known_mask xof i a a' t)); [|apply hid_bound|lia|intros; apply mask_len].
  rewrite xor_bytes_assoc. f_equal. rewrite known_u_eq, (corr_same a c t S A1).
  destruct (N.testbit (hid c t) (n - lo p t)); cbn [sel]; [reflexivity|]. apply xor_bytes_zeros_r, lenN_zeros.
Qed.

Lemma column_closed a c n : n < lambda -> run_ok a -> run_ok c -> hid a (tree_of p n) = hid c (tree_of p n) -> same_prefix a c ->
  column xof i c n = column xof i a n /\ bit_at (part_of i c Challenge_3) n = bit_at (part_of i a Challenge_3) n.
Proof using.
  intros Hn Ra Rc He S. pose proof (vole_params_ok i) as VP. destruct (tree_of_ok p VP n Hn) as (A1 & A2 & A3).
  assert (EB : bit_at (part_of i c Challenge_3) n = bit_at (part_of i a Challenge_3) n) by (rewrite !bit_hid by assumption; rewrite He; reflexivity).
  split; [|exact EB]. rewrite !column_eq by assumption. rewrite EB, (corr_same a c _ S A1). f_equal. rewrite !raw_masks by exact Hn.
  f_equal. apply tab_ext. intros x Hx. f_equal. destruct (x =? 0) eqn:E; [reflexivity|]. rewrite He. symmetry. unfold mask. cbv zeta.
  rewrite (sp_leaf _ _ S), (sp_parts _ _ S Iv I); try reflexivity; try exact A1.
  - apply lxor_lt; [exact Hx|]. apply hid_bound.
  - rewrite He. intros Q. apply lxor_self in Q. lia.
  - intros Q. apply lxor_self in Q. lia.
Qed.

(** * The hash of the known masks is the one in the signature *)
Local Notation VH sd x := (vole_hash_spec (F_of i) sd x (p_l p)).
Lemma VH_len sd x : lenN x = L -> lenN (VH sd x) = lb + 2.
Proof using.
  intros HL. pose proof (set_ok i) as SF. rewrite <- (sf_n i SF). apply vole_hash_spec_len; [apply (sf_in i SF)|destruct i; reflexivity|apply ell8|].
  rewrite HL, <- L_eq, (sf_n i SF). pose proof (ell8 i). pose proof (sf_n8 i SF). lia.
Qed.
Lemma VH_xor sd x y : bytes_ok sd -> lenN x = L -> lenN y = L -> bytes_ok x -> bytes_ok y -> VH sd (xor_bytes x y) = xor_bytes (VH sd x) (VH sd y).
Proof using.
  intros BS HL HL' BX BY. pose proof (set_ok i) as SF. apply vole_spec_linear; try assumption; [apply (sf_in i SF)|congruence|rewrite (sf_n i SF); apply (sf_64 i SF)|].
  rewrite HL, <- L_eq, (sf_n i SF). pose proof (ell8 i). pose proof (sf_n8 i SF). lia.
Qed.

Lemma xor_swap a b c d n : lenN a = n -> lenN b = n -> lenN c = n -> lenN d = n ->
  xor_bytes (xor_bytes a b) c = xor_bytes a d -> xor_bytes b c = d.
Proof.
  intros H1 H2 H3 H4 H. rewrite xor_bytes_assoc in H. apply (f_equal (xor_bytes a)) in H. rewrite <- !xor_bytes_assoc, xor_bytes_nilpotent in H.
  rewrite H1 in H. rewrite xor_bytes_assoc, !xor_bytes_zeros_l in H by (rewrite ?lenN_xor; congruence). exact H.
Qed.

Lemma tilde_hash a a' t : run_ok a -> run_ok a' -> t < p_tau p -> hid a t <> hid a' t -> same_prefix a a -> same_prefix a a' -> same_prefix a' a' -> same_prefix a' a ->
  VH (chall_1 xof i pk msg a) (known_u xof i a a' t) = part_of i a U_tilde.
Proof using HX.
  intros Ra Ra' Ht Hne Saa Sab Sbb Sba. pose proof (vole_params_ok i) as VP.
  assert (EX : exists j, j < dep t /\ N.testbit (hid a t) j <> N.testbit (hid a' t) j).
  { destruct (level_or Bool.bool_dec (N.testbit (hid a t)) (N.testbit (hid a' t)) (dep t) (fun _ => true)) as [Q|(j & J1 & _ & J2)]; [|exists j; auto].
    destruct Hne. apply N.bits_inj. intros j. destruct (N.lt_ge_cases j (dep t)) as [Hj|Hj]; [apply Q; [exact Hj|reflexivity]|].
    unfold leaf_hidden, hidden. change (depth_of p t) with (dep t). rewrite !N.mod_pow2_bits_high by exact Hj. reflexivity. }
  destruct EX as (j & Hj & HB). pose proof (lo_bound p VP t Ht) as HLB. set (n := lo p t + j).
  assert (Hn : n < lambda) by (unfold n; lia).
  assert (ET : tree_of p n = t).
  { destruct (tree_of_ok p VP n Hn) as (A1 & A2 & A3). destruct (N.lt_trichotomy (tree_of p n) t) as [H|[H|H]]; [|exact H|].
    - pose proof (lo_mono p (tree_of p n + 1) t ltac:(lia)) as Q. rewrite lo_succ in Q. unfold n in *. lia.
    - pose proof (lo_mono p (t + 1) (tree_of p n) ltac:(lia)) as Q. rewrite lo_succ in Q. unfold n in *. lia. }
  pose proof (sp_hv _ _ Sab) as QV. unfold hv_in in QV. cbv zeta in QV. rewrite !map_upto, <- (sp_ch1 _ _ Sab), <- (sp_parts _ _ Sab U_tilde I) in QV.
  set (sd := chall_1 xof i pk msg a) in *. assert (BS : bytes_ok sd) by apply (xof_bytes xof HX).
  set (ut := part_of i a U_tilde) in *.
  assert (LU : lenN ut = lb + 2) by (destruct Ra as [SL _]; apply (part_len i a SL), In_parts; exact I).
  assert (BL : forall s m, run_ok s -> m < lambda -> lenN (xors (VH sd (column xof i s m)) (scale (bit_at (part_of i s Challenge_3) m) ut)) = lb + 2).
  { intros s m [SL SB] Hm. rewrite xors_eq, (scale_eq (lb + 2)) by exact LU. rewrite lenN_xor; rewrite VH_len by (apply column_len; assumption); [reflexivity|].
    symmetry. apply sel_len, LU. }
  assert (EB : xors (VH sd (column xof i a n)) (scale (bit_at (part_of i a Challenge_3) n) ut) = xors (VH sd (column xof i a' n)) (scale (bit_at (part_of i a' Challenge_3) n) ut)).
  { apply (list_ext 0); [rewrite !BL by assumption; reflexivity|]. intros k Hk. rewrite BL in Hk by assumption.
    pose proof (f_equal (fun l => nthN l (n * (lb + 2) + k) 0) QV) as Q. cbv beta in Q.
    rewrite (concat_var_nth 0 (fun k => k * (lb + 2))) in Q; [|reflexivity|intros; rewrite BL by assumption; lia|exact Hn|rewrite BL by assumption; exact Hk].
    rewrite (concat_var_nth 0 (fun k => k * (lb + 2))) in Q; [exact Q|reflexivity|intros; rewrite BL by assumption; lia|exact Hn|rewrite BL by assumption; exact Hk]. }
  pose proof (column_open a a' a n Hn Ra Ra' Ra) as Ca. pose proof (column_open a a' a' n Hn Ra Ra' Ra') as Ca'. cbv zeta in Ca, Ca'. rewrite ET in Ca, Ca'.
  specialize (Ca Hne Saa Sba). specialize (Ca' Hne Sab Sbb).
  pose proof (bit_hid a n Ra Hn) as Ba. pose proof (bit_hid a' n Ra' Hn) as Ba'. rewrite ET in Ba, Ba'. replace (n - lo p t) with j in * by (unfold n; lia).
  set (V := raw_v (known_mask xof i a a' t) (dep t) j) in *. set (u := known_u xof i a a' t) in *.
  assert (LK : lenN u = L) by (apply known_u_len; assumption). assert (BK : bytes_ok u) by (apply known_u_bytes; assumption).
  assert (LV : lenN V = L) by (apply Xs_len, all_len_tab; intros x _; apply sel_len, mask_len).
  assert (BV : bytes_ok V).
  { apply Xs_bytes, Forall_forall. intros y Hy. unfold tab in Hy. apply in_map_iff in Hy. destruct Hy as (x & <- & _).
    destruct (N.testbit x j); cbn [sel]; [|apply bytes_ok_zeros]. unfold known_mask. destruct (x =? hid a t); apply mask_bytes; assumption. }
  rewrite !xors_eq, !(scale_eq (lb + 2)) in EB by exact LU. rewrite Ca, Ca', Ba, Ba' in EB. clear - EB HB LU LK BK LV BV BS.
  assert (Z : xor_bytes V (zeros L) = V) by (apply xor_bytes_zeros_r, LV).
  pose proof (VH_len sd V LV) as H1. pose proof (VH_len sd u LK) as H2.
  assert (G : xor_bytes (VH sd u) ut = zeros (lb + 2) -> VH sd u = ut).
  { intros G. apply (f_equal (fun x => xor_bytes x ut)) in G. rewrite xor_bytes_cancel in G by congruence. rewrite xor_bytes_zeros_l in G by exact LU. exact G. }
  apply G. destruct (N.testbit (hid a t) j), (N.testbit (hid a' t) j); try congruence; cbn [sel] in EB; rewrite ?Z in EB; rewrite VH_xor in EB by assumption.
  - apply (xor_swap (VH sd V) _ _ _ (lb + 2)); try assumption; try apply lenN_zeros.
  - symmetry in EB. apply (xor_swap (VH sd V) _ _ _ (lb + 2)); try assumption; try apply lenN_zeros.
Qed.

Definition pick (s1 s2 s3 : list N) (t : N) : option (list N * list N) :=
  if hid s1 t =? hid s2 t then if hid s1 t =? hid s3 t then None else Some (s1, s3) else Some (s1, s2).
Lemma pick_some s1 s2 s3 t a a' : pick s1 s2 s3 t = Some (a, a') -> In a [s1; s2; s3] /\ In a' [s1; s2; s3] /\ hid a t <> hid a' t.
Proof using.
  unfold pick. destruct (hid s1 t =? hid s2 t) eqn:E1; [destruct (hid s1 t =? hid s3 t) eqn:E2|]; [discriminate|..];
    intros H; injection H as <- <-; cbn; (split; [auto|]); (split; [auto|]); intros Q; rewrite Q, N.eqb_refl in *; discriminate.
Qed.
Lemma pick_none s1 s2 s3 t s : pick s1 s2 s3 t = None -> In s [s1; s2; s3] -> hid s1 t = hid s t.
Proof using.
  unfold pick. destruct (hid s1 t =? hid s2 t) eqn:E1; [destruct (hid s1 t =? hid s3 t) eqn:E2|]; try discriminate.
  intros _ [H|[H|[H|[]]]]; subst s; [reflexivity|apply N.eqb_eq, E1|apply N.eqb_eq, E2].
Qed.

(** * Three runs *)
Section Three.
Hypothesis HPL : lenN pk = pk_size i.
Hypothesis HPB : bytes_ok pk.
Variables s1 s2 s3 b : list N.
Local Notation runs := [s1; s2; s3].
Hypothesis HR : forall s, In s runs -> run_ok s.
Hypothesis HB : forall s, In s runs -> b_tilde xof i pk msg s = Ok b.
Hypothesis HS : forall s s', In s runs -> In s' runs -> same_prefix s s'.

Lemma known_same a a' t s s' r : In a runs -> In a' runs -> In s runs -> In s' runs -> t < p_tau p -> r < p_tau p ->
  hid a t <> hid a' t -> hid s r <> hid s' r ->
  VH (chall_1 xof i pk msg a) (known_u xof i a a' t) = VH (chall_1 xof i pk msg a) (known_u xof i s s' r).
Proof using HR HS HX.
  intros Ia Ia' Is Is' Ht Hr Na Ns. rewrite (tilde_hash a a' t) by auto. rewrite (sp_ch1 _ _ (HS a s Ia Is)), (tilde_hash s s' r) by auto.
  apply (sp_parts _ _ (HS a s Ia Is)). exact I.
Qed.

Lemma extract_two s s' t0 : In s runs -> In s' runs -> t0 < p_tau p -> hid s t0 <> hid s' t0 ->
  NoDup (map (fun s => part_of i s Challenge_3) runs) ->
  validate_keypair i (Some pk) (Some (known_sk xof i s s' t0 pk)) = Ok 0%Z \/
  zk_hash_miss xof i s s' t0 pk msg \/ vole_hash_miss xof i pk msg runs.
Proof using HPB HPL HB HR HS HX.
  intros Is Is' Ht0 Hne HND. set (u := known_u xof i s s' t0).
  pose proof (vole_params_ok i) as VP. pose proof (set_ok i) as SF.
  set (K := fun t => match pick s1 s2 s3 t with Some (a, a') => known_u xof i a a' t | None => u end).
  destruct (level_or eqd K (fun _ => u) (p_tau p) (fun _ => true)) as [QK|(t & T1 & _ & T2)].
  2:{ right. right. unfold K in T2. destruct (pick s1 s2 s3 t) as [[a a']|] eqn:EP; [|congruence]. destruct (pick_some _ _ _ t a a' EP) as (Ia & Ia' & Na).
      exists a, a', t, s, s', t0. repeat (split; [assumption|]). cbv beta. apply known_same; assumption. }
  assert (LU : lenN u = L) by (apply known_u_len; auto). assert (BU : bytes_ok u) by (apply known_u_bytes; auto).
  set (V := fun n => xor_bytes (column xof i s1 n) (sel L (bit_at (part_of i s1 Challenge_3) n) u)).
  assert (I1 : In s1 runs) by (left; reflexivity).
  assert (EC : forall c n, In c runs -> n < lambda -> column xof i c n = xors (V n) (scale (bit_at (part_of i c Challenge_3) n) u)).
  { intros c n Ic Hn. destruct (tree_of_ok p VP n Hn) as (A1 & A2 & A3). rewrite xors_eq, (scale_eq L) by exact LU. unfold V.
    assert (C1 : lenN (column xof i s1 n) = L) by (destruct (HR s1 I1); apply column_len; assumption).
    pose proof (QK (tree_of p n) A1 eq_refl) as Q. unfold K in Q. destruct (pick s1 s2 s3 (tree_of p n)) as [[a a']|] eqn:EP.
    - destruct (pick_some _ _ _ _ a a' EP) as (Ia & Ia' & Na).
      rewrite (column_open a a' c n Hn), (column_open a a' s1 n Hn) by auto. rewrite Q.
      assert (LW : lenN (raw_v (known_mask xof i a a' (tree_of p n)) (dep (tree_of p n)) (n - lo p (tree_of p n))) = L)
        by (apply Xs_len, all_len_tab; intros x _; apply sel_len, mask_len).
      rewrite xor_bytes_cancel; [reflexivity|]. rewrite LW. symmetry. apply sel_len, LU.
    - destruct (column_closed s1 c n Hn (HR s1 I1) (HR c Ic) (pick_none _ _ _ _ c EP Ic) (HS s1 c I1 Ic)) as [E1 E2]. rewrite E1, E2.
      symmetry. apply xor_bytes_cancel. rewrite C1. symmetry. apply sel_len, LU. }
  set (inp := sub pk 0 (p_pkSize p / 2)). set (out := sub pk (p_pkSize p / 2) (p_pkSize p / 2)).
  pose proof (half_half i) as HH. unfold pk_size in HPL.
  assert (LI : lenN inp = owf_input_size i) by (unfold inp; rewrite sub_eq, dropN_0, lenN_takeN, HPL; unfold owf_input_size; lia).
  assert (LO : lenN out = owf_input_size i) by (unfold out; rewrite sub_eq, lenN_takeN, lenN_dropN, HPL; unfold owf_input_size; lia).
  assert (BI : bytes_ok inp) by (unfold inp; rewrite sub_eq; apply Forall_takeN, Forall_dropN, HPB).
  assert (BO : bytes_ok out) by (unfold out; rewrite sub_eq; apply Forall_takeN, Forall_dropN, HPB).
  assert (HL8 : p_l p / 8 <= L) by (rewrite <- L_eq; pose proof (ell8 i); lia).
  set (w := known_witness xof i s s' t0).
  assert (LD : lenN (part_of i s D_masked_witness) = p_l p / 8) by (destruct (HR s Is) as [SL _]; apply (part_len i s SL), In_parts; exact I).
  assert (ES : sub u 0 (p_l p / 8) = takeN (p_l p / 8) u) by (rewrite sub_eq, dropN_0; reflexivity).
  assert (EW : w = xor_bytes (part_of i s D_masked_witness) (takeN (p_l p / 8) u)) by (unfold w, known_witness; cbv zeta; fold u; rewrite xors_eq, ES; reflexivity).
  assert (LW : lenN w = p_l p / 8) by (rewrite EW, lenN_xor; rewrite LD; [reflexivity|rewrite lenN_takeN; lia]).
  assert (BW : bytes_ok w) by (rewrite EW; apply bytes_ok_xor; [apply part_bytes, (HR s Is)|apply Forall_takeN, BU]).
  assert (ED : xors w (firstn (N.to_nat (p_l p / 8)) u) = part_of i s D_masked_witness).
  { change (firstn (N.to_nat (p_l p / 8)) u) with (takeN (p_l p / 8) u). rewrite xors_eq, EW. apply xor_bytes_cancel. rewrite lenN_takeN. lia. }
  set (c2 := chall_2 xof i pk msg s). set (at_ := part_of i s A_tilde).
  destruct (three_challenges i w u (tab lambda V) inp out c2 at_ b (part_of i s1 Challenge_3) (part_of i s2 Challenge_3) (part_of i s3 Challenge_3)) as [HZ _];
    try assumption.
  { rewrite LU, <- L_eq. pose proof (ell8 i). pose proof (sf_n8 i SF). lia. }
  { split; [apply lenN_tab|]. intros n Hn. change (nth (N.to_nat n) (tab lambda V) []) with (nthN (tab lambda V) n []). rewrite nthN_tab by exact Hn.
    destruct (HR s1 I1) as [SL SB]. assert (C1 : lenN (column xof i s1 n) = L) by (apply column_len; assumption).
    split; [|apply bytes_ok_xor; [apply column_bytes; assumption|destruct (bit_at _ _); cbn [sel]; [exact BU|apply bytes_ok_zeros]]].
    change (lenN (V n) = lenN u). unfold V. rewrite lenN_xor; rewrite C1; [symmetry; exact LU|]. symmetry. apply sel_len, LU. }
  { unfold c2, chall_2, H2. rewrite (xof_len xof HX). lia. } { apply (xof_bytes xof HX). }
  { destruct (HR s Is) as [SL _]; apply (part_len i s SL), In_parts; exact I. } { apply part_bytes, (HR s Is). }
  { intros c Hc. assert (HE : exists c', In c' runs /\ part_of i c' Challenge_3 = c).
    { destruct Hc as [<-|[<-|[<-|[]]]]; [exists s1|exists s2|exists s3]; cbn; auto. }
    destruct HE as (c' & Ic & <-). destruct (HR c' Ic) as [SL SB]. split; [apply (part_len i c' SL), In_parts; exact I|]. split; [apply part_bytes, SB|].
    exists (tab lambda (column xof i c')). split.
    - split; [apply lenN_tab|]. intros n Hn. change (nth (N.to_nat n) (tab lambda V) []) with (nthN (tab lambda V) n []).
      change (nth (N.to_nat n) (tab lambda (column xof i c')) []) with (nthN (tab lambda (column xof i c')) n []). rewrite !nthN_tab by exact Hn.
      apply EC; assumption.
    - cbv zeta. rewrite ED. pose proof (HB c' Ic) as Q. unfold b_tilde in Q. cbv zeta in Q. rewrite map_upto in Q. fold inp out in Q.
      rewrite <- (sp_ch2 _ _ (HS s c' Is Ic)), <- (sp_parts _ _ (HS s c' Is Ic) A_tilde I), <- (sp_parts _ _ (HS s c' Is Ic) D_masked_witness I) in Q. exact Q. }
  destruct (Forall_Exists_dec (fun xy => defect (F_of i) xy = 0) (fun xy => N.eq_dec _ _) (claims i w inp out)) as [QF|QE].
  2:{ right. left. unfold zk_hash_miss. cbv zeta. split; [exact QE|exact HZ]. }
  left. destruct (witness_sound i w inp out LW BW LI BI LO BO QF) as [EO _]. cbv zeta in EO.
  change (firstn (N.to_nat (owf_key_size i)) w) with (takeN (owf_key_size i) w) in EO.
  assert (ESK : known_sk xof i s s' t0 pk = inp ++ takeN (owf_key_size i) w).
  { unfold known_sk. fold w. unfold inp, owf_input_size. rewrite (sub_eq w), dropN_0. reflexivity. }
  rewrite ESK. set (key := takeN (owf_key_size i) w) in *.
  assert (HK : lenN key = owf_key_size i).
  { unfold key. rewrite lenN_takeN, LW. destruct i; reflexivity. }
  assert (EPK : inp ++ out = pk).
  { unfold inp, out. rewrite !sub_eq, dropN_0. rewrite (takeN_all (p_pkSize p / 2) (dropN _ _)) by (rewrite lenN_dropN, HPL; lia). apply firstn_skipn. }
  unfold validate_keypair, SK_KEY, SK_INPUT, half, pk_size. fold (owf_input_size i).
  rewrite key_lb in HK. rewrite <- LI. rewrite !slice_ok by (rewrite lenN_app; lia). cbn [bind]. rewrite dropN_0, takeN_app_exact, dropN_app_exact, <- HK, takeN_all by lia.
  cbn [bind]. rewrite EO. cbn [bind snd fst]. rewrite EPK.
  destruct (bcmp_ok pk pk (p_pkSize p) HPL ltac:(lia)) as (d & -> & Q). cbn [bind].
  replace (d =? 0) with true; [reflexivity|]. symmetry. apply N.eqb_eq, Q. apply takeN_all. lia.
Qed.
End Three.
End Runs.
