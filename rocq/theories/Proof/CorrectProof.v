(** The correction step of the verifier (faest.c:418-453). *)
From Verif.Model Require Import Faest.
From Verif.Spec Require Import VcSpec VoleSpec FormatSpec FormatMap.
From Verif.Proof Require Import BaseProof VcProof VoleProof VoleProps FormatProof.
From Coq Require Import Lia ZifyBool ZifyNat ZifyN.
Ltac Zify.zify_post_hook ::= Z.div_mod_to_equations.

Lemma from_ok {A} (l : list A) off : off <= lenN l -> from l off = Ok (dropN off l).
Proof. intros H. unfold from. rewrite guard_true by lia. reflexivity. Qed.

Lemma masked_xor_sel a b (x : bool) L : lenN a = L -> lenN b = L -> bytes_ok b ->
  masked_xor_bytes a b (N.b2n x) = xor_bytes a (sel L x b).
Proof.
  intros HA HB Hb. destruct x; cbn [N.b2n sel].
  - apply masked_xor_1; [exact Hb|lia|reflexivity].
  - rewrite xor_bytes_zeros_r by exact HA. apply masked_xor_0; [lia|reflexivity].
Qed.

Lemma take_drop_take (l : list N) a b n : b + a <= n -> takeN a (dropN b (takeN n l)) = takeN a (dropN b l).
Proof.
  intros H. apply (list_ext 0).
  - rewrite !lenN_takeN, !lenN_dropN, lenN_takeN. lia.
  - intros j Hj. rewrite lenN_takeN in Hj. rewrite !nthN_takeN, !nthN_dropN, nthN_takeN by lia. reflexivity.
Qed.

Lemma tab_lo_split {A} p t (f : N -> A) :
  tab (lo p (t + 1)) f = tab (lo p t) f ++ tab (tree_depth p t) (fun j => f (lo p t + j)).
Proof.
  rewrite lo_succ. generalize (tree_depth p t). intros d. induction d as [|d IH] using N.peano_ind.
  - rewrite N.add_0_r, tab_0, app_nil_r. reflexivity.
  - rewrite <- N.add_1_r, N.add_assoc, !tab_succ, IH, app_assoc. reflexivity.
Qed.

Definition ellhat_bytes (p : param) : N := (p_l p + p_lambda p * 2 + UNIVERSAL_HASH_B_BITS) / 8.

(** equalities between the sizes computed in different places *)
Lemma sizes_ok i (p := param_of i) :
  ell_hat_bytes_of p = ellhat_bytes p /\
  (p_l p + p_lambda p * 2 + UNIVERSAL_HASH_B_BITS + 7) / 8 = ellhat_bytes p /\
  ellhat_bytes p = p_l p / 8 + 2 * (p_lambda p / 8) + 2 /\ 8 * (p_lambda p / 8) = p_lambda p /\
  8 * (p_l p / 8) = p_l p.
Proof. subst p. destruct i; vm_compute; auto. Qed.

Section Correct.
Variable i : paramid.
Local Notation p := (param_of i).
Variable sig : list N.
Hypothesis Hsl : p_sigSize p <= lenN sig.
Hypothesis Hsb : bytes_ok sig.
Local Notation chal := (dropN (off_chall_3 p) sig).
Local Notation c := (dropN (off_c p 0) sig).
Local Notation ut := (takeN (utilde_bytes_of p) (dropN (off_u_tilde p) sig)).
Local Notation L := (ellhat_bytes p).

Lemma part_in_sig x : In x (parts p) -> part_off p x + part_size p x <= lenN sig.
Proof. intros H. pose proof (part_bound i x H). lia. Qed.

Lemma chal_ok : off_chall_3 p <= lenN sig /\ p_lambda p / 8 <= lenN chal /\ bytes_ok chal.
Proof.
  pose proof (part_in_sig Challenge_3 ltac:(apply In_parts; exact I)) as H. cbn [part_off part_size] in H.
  split; [lia|]. split; [rewrite lenN_dropN; lia|]. apply Forall_dropN, Hsb.
Qed.

Definition q_fixed (qprime : list (list N)) (n : N) : list N :=
  xor_bytes (nthN qprime n []) (sel L (N.testbit (le_val chal) n) (correction L c (tree_of p n))).
Definition d_tilde (n : N) : list N := sel (utilde_bytes_of p) (N.testbit (le_val chal) n) ut.

Lemma correction_len t : t < p_tau p -> lenN (correction L c t) = L /\ bytes_ok (correction L c t).
Proof.
  intros Ht. unfold correction. destruct (t =? 0) eqn:E.
  - split; [apply lenN_zeros|apply bytes_ok_zeros].
  - change (lenN (takeN L (dropN ((t - 1) * L) c)) = L /\ bytes_ok (takeN L (dropN ((t - 1) * L) c))).
    split; [|apply Forall_takeN, Forall_dropN, Forall_dropN, Hsb].
    rewrite lenN_takeN, dropN_dropN, lenN_dropN.
    pose proof (part_in_sig (Correction (t - 1)) ltac:(apply In_parts; lia)) as H. cbn [part_off part_size] in H.
    unfold off_c in *. destruct (sizes_ok i) as (E1 & E2 & E3 & E4 & E5). rewrite E1 in *.
    replace ((p_l p + 2 * p_lambda p + 16) / 8) with L in H by (unfold ellhat_bytes, UNIVERSAL_HASH_B_BITS; f_equal; lia).
    lia.
Qed.

Lemma verify_correct_ok qprime : lenN qprime = p_lambda p ->
  (forall n, n < p_lambda p -> lenN (nthN qprime n []) = L) ->
  foldM (verify_correct p sig qprime) (Nrange (p_tau p)) ([], []) =
  Ok (tab (p_lambda p) (q_fixed qprime), tab (p_lambda p) d_tilde).
Proof.
  intros HQ HQL. pose proof (vole_params_ok i) as VP. destruct chal_ok as (C0 & C1 & C2).
  destruct (sizes_ok i) as (E1 & E2 & E3 & E4 & E5).
  destruct (foldM_Nrange_inv (verify_correct p sig qprime) (fun t s => s = (tab (lo p t) (q_fixed qprime), tab (lo p t) d_tilde))
    (p_tau p) ([], [])) as (s & -> & ->).
  - rewrite lo_0. reflexivity.
  - intros t s Ht ->. eexists. split; [|reflexivity]. rewrite !tab_lo_split.
    pose proof (depth_bound p VP t) as HD. pose proof (lo_bound p VP t Ht) as HB.
    unfold verify_correct. cbv zeta. rewrite from_ok by exact C0. cbn [bind].
    rewrite ChalDec_ok by assumption. cbn [bind snd].
    pose proof (part_in_sig U_tilde ltac:(apply In_parts; exact I)) as HU. cbn [part_off part_size] in HU.
    rewrite slice_ok by (unfold utilde_bytes_of, UNIVERSAL_HASH_B; lia). cbn [bind].
    assert (HUL : lenN ut = utilde_bytes_of p).
    { rewrite lenN_takeN, lenN_dropN. unfold utilde_bytes_of, UNIVERSAL_HASH_B. lia. }
    assert (HUB : bytes_ok ut) by (apply Forall_takeN, Forall_dropN, Hsb).
    rewrite (mapM_tab _ (fun j => d_tilde (lo p t + j))).
    2:{ intros j Hj. rewrite lenN_tab, guard_true by lia. cbn [bind].
        rewrite (aget_ok _ _ 0) by (rewrite lenN_bits_of; exact Hj). cbn [bind].
        rewrite nthN_bits_of, idx_bit by exact Hj. f_equal.
        rewrite (masked_xor_sel _ _ _ (utilde_bytes_of p)) by (try apply lenN_zeros; assumption).
        apply xor_bytes_zeros_l. unfold d_tilde. apply sel_len. exact HUL. }
    cbn [bind]. rewrite lenN_tab.
    replace (if t =? 0 then _ else _) with (Ok (tab (tree_depth p t) (fun j => q_fixed qprime (lo p t + j)))); [reflexivity|].
    symmetry. destruct (t =? 0) eqn:Et.
    + rewrite slice_ok by lia. f_equal. apply (list_ext []).
      * rewrite lenN_takeN, lenN_dropN, lenN_tab. lia.
      * intros j Hj. rewrite lenN_takeN in Hj. rewrite nthN_takeN, nthN_dropN, nthN_tab by lia.
        unfold q_fixed. rewrite tree_of_lo by (try assumption; lia). unfold correction. rewrite Et.
        change (repeat 0 (N.to_nat L)) with (zeros L).
        replace (sel L (N.testbit (le_val chal) (lo p t + j)) (zeros L)) with (zeros L)
          by (destruct (N.testbit (le_val chal) (lo p t + j)); reflexivity).
        rewrite xor_bytes_zeros_r; [reflexivity|]. apply HQL. lia.
    + apply mapM_tab. intros j Hj. rewrite (aget_ok _ _ []) by lia. cbn [bind].
      fold (ellhat_bytes p). rewrite slice_full' by (apply HQL; lia). cbn [bind].
      destruct (correction_len t Ht) as [K1 K2].
      assert (HS : slice sig (off_c p (t - 1)) L = Ok (correction L c t)).
      { pose proof (part_in_sig (Correction (t - 1)) ltac:(apply In_parts; lia)) as H. cbn [part_off part_size] in H.
        replace ((p_l p + 2 * p_lambda p + 16) / 8) with L in H by (unfold ellhat_bytes, UNIVERSAL_HASH_B_BITS; f_equal; lia).
        rewrite slice_ok by exact H. f_equal. unfold correction. rewrite Et.
        change (takeN L (dropN (off_c p (t - 1)) sig) = takeN L (dropN ((t - 1) * L) (dropN (off_c p 0) sig))).
        rewrite dropN_dropN. unfold off_c. rewrite E1. reflexivity. }
      rewrite HS. cbn [bind]. rewrite (aget_ok _ _ 0) by (rewrite lenN_bits_of; exact Hj). cbn [bind].
      rewrite nthN_bits_of, idx_bit by exact Hj. f_equal. unfold q_fixed. rewrite tree_of_lo by assumption.
      apply masked_xor_sel; try assumption. apply HQL. lia.
  - rewrite lo_tau by assumption. reflexivity.
Qed.
End Correct.

Lemma corrected_columns i sig qprime (p := param_of i) : p_sigSize p <= lenN sig -> bytes_ok sig ->
  lenN qprime = p_lambda p ->
  let L := (p_l p + 2 * p_lambda p + 16) / 8 in
  (forall n, n < p_lambda p -> lenN (nth (N.to_nat n) qprime []) = L) ->
  exists q D chal c ut,
    slice sig (off_chall_3 p) (p_lambda p / 8) = Ok chal /\
    slice sig (off_c p 0) ((p_tau p - 1) * L) = Ok c /\
    slice sig (off_u_tilde p) (p_lambda p / 8 + 2) = Ok ut /\
    foldM (verify_correct p sig qprime) (Nrange (p_tau p)) ([], []) = Ok (q, D) /\
    lenN q = p_lambda p /\ lenN D = p_lambda p /\
    forall n, n < p_lambda p ->
      nth (N.to_nat n) q [] = xors (nth (N.to_nat n) qprime []) (scale (bit_at chal n) (correction L c (tree_of p n))) /\
      nth (N.to_nat n) D [] = scale (bit_at chal n) ut.
Proof.
  intros HL HB HQ L HQL. pose proof (vole_params_ok i) as VP. fold p in VP.
  assert (EL : ellhat_bytes p = L) by (unfold ellhat_bytes, UNIVERSAL_HASH_B_BITS; subst L; f_equal; lia).
  destruct (sizes_ok i) as (E1 & E2 & E3 & E4 & E5). fold p in E1, E2, E3, E4, E5.
  destruct (chal_ok i sig HL HB) as (C0 & C1 & C2). fold p in C0, C1, C2.
  pose proof (part_in_sig i sig HL U_tilde ltac:(apply In_parts; exact I)) as HU. cbn [part_off part_size] in HU. fold p in HU.
  set (chal := takeN (p_lambda p / 8) (dropN (off_chall_3 p) sig)).
  set (c := takeN ((p_tau p - 1) * L) (dropN (off_c p 0) sig)).
  exists (tab (p_lambda p) (q_fixed i sig qprime)), (tab (p_lambda p) (d_tilde i sig)), chal, c,
    (takeN (utilde_bytes_of p) (dropN (off_u_tilde p) sig)).
  split; [apply slice_ok; rewrite lenN_dropN in C1; lia|].
  split; [apply slice_ok; unfold off_u_tilde in HU; unfold off_c; rewrite E1, EL in HU; lia|].
  split; [rewrite slice_ok by lia; reflexivity|].
  split; [apply (verify_correct_ok i sig HL HB); [exact HQ|]; intros n Hn; fold p; rewrite EL; apply HQL, Hn|].
  split; [apply lenN_tab|]. split; [apply lenN_tab|].
  intros n Hn. change (nth (N.to_nat n) ?l ?d) with (nthN l n d). rewrite !nthN_tab by exact Hn.
  assert (HBit : bit_at chal n = N.testbit (le_val (dropN (off_chall_3 p) sig)) n).
  { rewrite <- bit_at_le by exact C2. unfold bit_at.
    change (nth (N.to_nat (n / 8)) ?l 0) with (nthN l (n / 8) 0). subst chal. rewrite nthN_takeN; [reflexivity|lia]. }
  destruct (tree_of_ok p VP n Hn) as (A1 & A2 & A3).
  assert (HC : correction L c (tree_of p n) = correction L (dropN (off_c p 0) sig) (tree_of p n)).
  { unfold correction. destruct (tree_of p n =? 0) eqn:E; [reflexivity|]. subst c.
    change (takeN L (dropN ((tree_of p n - 1) * L) (takeN ((p_tau p - 1) * L) (dropN (off_c p 0) sig))) =
            takeN L (dropN ((tree_of p n - 1) * L) (dropN (off_c p 0) sig))).
    assert ((tree_of p n - 1) * L + L <= (p_tau p - 1) * L).
    { clear - A1 E. assert (tree_of p n - 1 + 1 <= p_tau p - 1) by lia. nia. }
    apply take_drop_take. assumption. }
  destruct (correction_len i sig HL HB (tree_of p n) A1) as [K1 K2]. fold p in K1, K2. rewrite EL in K1.
  rewrite HBit, xors_eq. split.
  - rewrite HC, (scale_eq L) by exact K1. unfold q_fixed. fold p. rewrite EL. reflexivity.
  - unfold d_tilde. fold p. rewrite (scale_eq (utilde_bytes_of p)); [reflexivity|].
    rewrite lenN_takeN, lenN_dropN. unfold utilde_bytes_of, UNIVERSAL_HASH_B. lia.
Qed.
