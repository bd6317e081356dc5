(** The masks are in bijection with what the verifier sees; any string is a valid signature under
    some oracle. *)
From Verif.Model Require Import Vole UHash Owf FaestAes Api Faest.
From Verif.Spec Require Import AesSpec OwfSpec ConstraintSpec ConstraintMap FormatSpec FormatMap UHashSpec UHashMap VoleSpec ProofSpec
  VcSpec RunSpec SoundSpec ViewSpec.
From Verif.Proof Require Import BaseProof PolyProof FieldProof EmbedProof PrgProof UHashProof UHashProps ClaimProof WitnessProof DefectProof WitnessProps
  VoleProof VoleProps CorrectProof WireProof ConsProof KeyWireProof KeyBackProof ConstrProof FactorProof RowsProof ProveProof AgreeProof AgreeProps CountProof.
From Coq Require Import Lia ZifyBool ZifyNat ZifyN.
Ltac Zify.zify_post_hook ::= Z.div_mod_to_equations.

Lemma lenN_xor_bytes a b : lenN (xor_bytes a b) = N.min (lenN a) (lenN b).
Proof. apply lenN_zipw. Qed.
Lemma sub_app_l a b k : lenN a = k -> sub (a ++ b) 0 k = a.
Proof. intros <-. rewrite sub_eq. change (dropN 0 (a ++ b)) with (a ++ b). apply takeN_app_exact. Qed.
Lemma dropN_app_l {A} (a b : list A) k : lenN a = k -> dropN k (a ++ b) = b.
Proof. intros <-. unfold dropN. rewrite <- length_lenN. rewrite skipn_app, skipn_all, Nat.sub_diag. reflexivity. Qed.
Lemma sub_app_r a b k m : lenN a = k -> lenN b = m -> sub (a ++ b) k m = b.
Proof. intros Ha <-. rewrite sub_eq, dropN_app_l by exact Ha. unfold takeN. rewrite <- length_lenN. apply firstn_all. Qed.
Lemma split3 (u : list N) a b : u = takeN a u ++ sub u a b ++ dropN (a + b) u.
Proof. rewrite sub_split. symmetry. apply firstn_skipn. Qed.

Lemma vole_spec_mask F sd x z ell : lenN x = (ell + f_n F) / 8 -> lenN z = f_n F / 8 + 2 ->
  vole_hash_spec F sd (x ++ z) ell = xor_bytes (vole_hash_spec F sd (x ++ zeros (f_n F / 8 + 2)) ell) z.
Proof.
  intros Hx Hz. unfold vole_hash_spec. cbv zeta. unfold padded. rewrite !xors_eq, !sub_app_l by exact Hx.
  rewrite !(sub_app_r x) by (exact Hx || exact Hz || apply lenN_zeros).
  rewrite xor_bytes_assoc, xor_bytes_zeros_l by exact Hz. reflexivity.
Qed.
Lemma zk_spec_mask F sd xs z : zk_hash_spec F sd xs z = N.lxor (zk_hash_spec F sd xs 0) z.
Proof. unfold zk_hash_spec. rewrite N.lxor_0_r. reflexivity. Qed.

Section View.
Variable i : paramid.
Local Notation p := (param_of i).
Local Notation F := (F_of i).
Local Notation n := (p_lambda (param_of i)).
Local Notation l := (p_l (param_of i)).
Local Notation nb := (p_lambda (param_of i) / 8).
Local Notation l8 := (p_l (param_of i) / 8).
Local Notation L := ((p_l (param_of i) + 2 * p_lambda (param_of i) + 16) / 8).

Lemma L_split : L = l8 + nb + (nb + 2) /\ (l + n) / 8 = l8 + nb.
Proof. pose proof (sf_l8 i (set_ok i)). pose proof (sf_n8 i (set_ok i)). lia. Qed.

(** rows below l *)
Lemma pterms_ext inp out w V V' : (forall r, r < l -> rowv n V r = rowv n V' r) -> forall x,
  P_terms i inp out w (rowv n V) x = P_terms i inp out w (rowv n V') x.
Proof.
  intros H x. pose proof (big_field_ok _ (F_of_big i)) as HF. unfold P_terms. f_equal.
  destruct (val_T i 0 (pow2_pos _) inp out (trunc i (rowv n V)) (trunc i (rowv n V')) (bw w)) with (x := x) as [(A1 & A2 & A3) (A4 & A5 & A6)].
  { intros j. repeat split; [apply trunc_lt|apply bw_lt|]. rewrite bf_mul_0_l by (assumption || apply bw_lt). rewrite N.lxor_0_r.
    unfold trunc. destruct (j <? l) eqn:E; [apply H; lia|reflexivity]. }
  rewrite bf_mul_0_l, N.lxor_0_r in A3, A6 by assumption.
  rewrite (surjective_pairing (val i inp out (trunc i (rowv n V)) 0 x)), A3, A6. symmetry. apply surjective_pairing.
Qed.

Definition mkV (ch3 u : list N) (Q : list bytes) : list bytes := tab n (fun j => xor_bytes (nthN Q j []) (sel L (bit_at ch3 j) u)).

Lemma mkV_nth ch3 u Q j : j < n -> nthN (mkV ch3 u Q) j [] = xor_bytes (nthN Q j []) (sel L (bit_at ch3 j) u).
Proof. intros Hj. unfold mkV. rewrite nthN_tab by exact Hj. reflexivity. Qed.
Lemma sel_len b x : lenN x = L -> lenN (sel L b x) = L.
Proof. intros H. unfold sel. destruct b; [exact H|apply lenN_zeros]. Qed.
Lemma sel_bytes b x : bytes_ok x -> bytes_ok (sel L b x).
Proof. intros H. unfold sel. destruct b; [exact H|apply bytes_ok_zeros]. Qed.
Lemma mkV_matrix ch3 u Q : lenN u = L -> bytes_ok u -> matrix n L Q -> matrix n L (mkV ch3 u Q).
Proof.
  intros LU BU [LQ HQ]. split; [apply lenN_tab|]. intros j Hj. destruct (HQ j Hj) as [H1 H2].
  change (nth (N.to_nat j) (mkV ch3 u Q) []) with (nthN (mkV ch3 u Q) j []). rewrite mkV_nth by exact Hj. change (nth (N.to_nat j) Q []) with (nthN Q j []) in H1, H2.
  change (N.of_nat (length (nthN Q j []))) with (lenN (nthN Q j [])) in H1.
  split; [|apply bytes_ok_xor; [exact H2|apply sel_bytes, BU]].
  change (lenN (xor_bytes (nthN Q j []) (sel L (bit_at ch3 j) u)) = L). rewrite lenN_xor_bytes, H1, sel_len by exact LU. apply N.min_id.
Qed.
Lemma mkV_correlated ch3 u Q : lenN u = L -> matrix n L Q -> correlated n ch3 u (mkV ch3 u Q) Q.
Proof.
  intros LU [LQ HQ]. split; [exact LQ|]. intros j Hj. destruct (HQ j Hj) as [H1 _].
  change (nth (N.to_nat j) (mkV ch3 u Q) []) with (nthN (mkV ch3 u Q) j []). rewrite mkV_nth by exact Hj.
  change (nth (N.to_nat j) Q []) with (nthN Q j []) in H1 |- *. rewrite xors_eq, (scale_eq L) by exact LU.
  symmetry. apply xor_bytes_cancel. rewrite sel_len by exact LU. exact H1.
Qed.
Lemma correlated_mkV ch3 u V Q : lenN u = L -> matrix n L V -> correlated n ch3 u V Q -> V = mkV ch3 u Q.
Proof.
  intros LU [LV HV] [LQ HQ]. apply (list_ext []); [unfold mkV; rewrite lenN_tab; exact LV|]. intros j Hj.
  change (N.of_nat (length V)) with (lenN V) in LV. rewrite LV in Hj. rewrite mkV_nth by exact Hj. destruct (HV j Hj) as [H1 _]. specialize (HQ j Hj).
  change (nth (N.to_nat j) V []) with (nthN V j []) in H1, HQ. change (nth (N.to_nat j) Q []) with (nthN Q j []) in HQ.
  rewrite HQ, xors_eq, (scale_eq L) by exact LU. symmetry. apply xor_bytes_cancel. rewrite sel_len by exact LU. exact H1.
Qed.
Lemma bit_at_take u m j : j < 8 * m -> bit_at (takeN m u) j = bit_at u j.
Proof. intros H. rewrite !bit_at_nthN, nthN_takeN by lia. reflexivity. Qed.
Lemma mkV_rows ch3 u u' Q r : lenN u = L -> lenN u' = L -> matrix n L Q -> takeN l8 u = takeN l8 u' -> r < l ->
  rowv n (mkV ch3 u Q) r = rowv n (mkV ch3 u' Q) r.
Proof.
  intros LU LU' [LQ HQ] E Hr. apply N.bits_inj. intros j. rewrite !rowv_testbit. destruct (j <? n) eqn:Ej; [|reflexivity]. cbn [andb].
  rewrite !mkV_nth by lia. destruct (HQ j ltac:(lia)) as [H1 _].
  rewrite !bit_at_xor by (rewrite sel_len by assumption; exact H1). rewrite !bit_at_sel by assumption.
  pose proof (sf_l8 i (set_ok i)). rewrite <- (bit_at_take u l8), <- (bit_at_take u' l8), E by lia. reflexivity.
Qed.

Lemma matrix_cols V : matrix n L V -> cols_ok n (l + n) V.
Proof.
  intros [LV HV]. pose proof L_split as [EL _]. pose proof (sf_l8 i (set_ok i)). pose proof (sf_n8 i (set_ok i)).
  split; [change (N.of_nat (length V)) with (lenN V) in LV; lia|]. intros j Hj. destruct (HV j Hj) as [H1 H2].
  change (nth (N.to_nat j) V []) with (nthN V j []) in H1, H2. change (N.of_nat (length (nthN V j []))) with (lenN (nthN V j [])) in H1.
  split; [lia|exact H2].
Qed.

(** the solution *)
Section Solve.
Variables w inp out ch1 ch2 ch3 d ut a : list N.
Variable Q : list bytes.
Hypothesis LW : lenN w = l8. Hypothesis BW : bytes_ok w.
Hypothesis LI : lenN inp = owf_input_size i. Hypothesis BI : bytes_ok inp.
Hypothesis LO : lenN out = owf_input_size i. Hypothesis BO : bytes_ok out.
Hypothesis LC1 : lenN ch1 = 5 * nb + 8. Hypothesis BC1 : bytes_ok ch1.
Hypothesis LC2 : lenN ch2 = 3 * nb + 8. Hypothesis BC2 : bytes_ok ch2.
Hypothesis LC3 : lenN ch3 = nb. Hypothesis BC3 : bytes_ok ch3.
Hypothesis LD : lenN d = l8. Hypothesis BD : bytes_ok d.
Hypothesis LUT : lenN ut = nb + 2. Hypothesis BUT : bytes_ok ut.
Hypothesis LA : lenN a = nb. Hypothesis BA : bytes_ok a.
Hypothesis MQ : matrix n L Q.

Definition s0 : list N := xor_bytes w d.
Definition hv0 (u : list N) : N := hash_vals i ch2 (fun x => snd (P_terms i inp out w (rowv n (mkV ch3 u Q)) x)) 0.
Definition s1 : list N := to_bytes nb (N.lxor (hv0 (s0 ++ zeros (2 * nb + 2))) (num a)).
Definition s2 : list N := xor_bytes (vole_hash_spec F ch1 ((s0 ++ s1) ++ zeros (nb + 2)) l) ut.
Definition sol : list N := s0 ++ s1 ++ s2.

Lemma s0_len : lenN s0 = l8.
Proof using LW LD. unfold s0. rewrite lenN_xor_bytes, LW, LD. apply N.min_id. Qed.
Lemma s0_bytes : bytes_ok s0.
Proof using BW BD. apply bytes_ok_xor; assumption. Qed.
Lemma s1_len : lenN s1 = nb.
Proof using. apply lenN_to_bytes. Qed.
Lemma s1_bytes : bytes_ok s1.
Proof using. unfold s1. rewrite to_bytes_eq. apply bytes_ok_le_bytes. Qed.
Lemma hash_len_ok x : lenN x = l8 + nb + (nb + 2) -> bytes_ok x -> lenN (vole_hash_spec F ch1 x l) = nb + 2 /\ bytes_ok (vole_hash_spec F ch1 x l).
Proof using.
  intros HL HB. pose proof (sf_n i (set_ok i)) as En. pose proof L_split as [_ E2]. unfold vole_hash_spec. cbv zeta. rewrite xors_eq, En, E2.
  split.
  - rewrite lenN_xor_bytes, lenN_app, !lenN_to_bytes, sub_len by (clear - HL; lia). apply N.min_id.
  - apply bytes_ok_xor; [|apply sub_bytes, HB]. apply Forall_app. rewrite !to_bytes_eq. split; apply bytes_ok_le_bytes.
Qed.
Lemma pre_len : lenN ((s0 ++ s1) ++ zeros (nb + 2)) = l8 + nb + (nb + 2).
Proof using LW LD. rewrite !lenN_app, s0_len, s1_len, lenN_zeros. reflexivity. Qed.
Lemma pre_bytes : bytes_ok ((s0 ++ s1) ++ zeros (nb + 2)).
Proof using BW BD. apply Forall_app. split; [apply Forall_app; split; [exact s0_bytes|exact s1_bytes]|apply bytes_ok_zeros]. Qed.
Lemma s2_len : lenN s2 = nb + 2.
Proof using LW LD BW BD LUT. unfold s2. rewrite lenN_xor_bytes, (proj1 (hash_len_ok _ pre_len pre_bytes)), LUT. apply N.min_id. Qed.
Lemma s2_bytes : bytes_ok s2.
Proof using LW LD BW BD BUT. apply bytes_ok_xor; [apply hash_len_ok; [exact pre_len|exact pre_bytes]|exact BUT]. Qed.
Lemma sol_len : lenN sol = L.
Proof using LW LD BW BD LUT. unfold sol. rewrite !lenN_app, s0_len, s1_len, s2_len. pose proof L_split as [E _]. clear - E. lia. Qed.
Lemma sol_bytes : bytes_ok sol.
Proof using LW LD BW BD BUT. repeat (apply Forall_app; split); [exact s0_bytes|exact s1_bytes|exact s2_bytes]. Qed.

(** the masks with the given masked witness and Q: when they show [ut] and [a] *)
Lemma hv0_ext u u' : lenN u = L -> lenN u' = L -> takeN l8 u = takeN l8 u' -> hv0 u = hv0 u'.
Proof using MQ.
  intros H H' E. unfold hv0, hash_vals.
  rewrite (map_ext _ (fun x => snd (P_terms i inp out w (rowv n (mkV ch3 u' Q)) x))); [reflexivity|].
  intros x. rewrite (pterms_ext inp out w _ (mkV ch3 u' Q)); [reflexivity|]. intros r Hr. apply mkV_rows; assumption.
Qed.
Lemma hash_vals_lt u : hv0 u < 2 ^ f_n F.
Proof using BC2.
  pose proof (set_ok i) as SF. unfold hv0, hash_vals. apply zk_spec_lt; try exact BC2; [exact (sf_in i SF)|rewrite (sf_n i SF); exact (sf_64 i SF)| |apply pow2_pos].
  apply Forall_forall. intros v Hv. apply in_map_iff in Hv. destruct Hv as (x & <- & _). apply pterms_lt.
Qed.
Lemma prove_val u V : lenN u = L -> bytes_ok u -> V = mkV ch3 u Q ->
  exists b, aes_prove p w u V inp out ch2 = Ok (to_bytes nb (N.lxor (hv0 u) (num (sub u l8 nb))), b).
Proof using LW BW LI BI LO BO LC2 BC2 MQ.
  intros LU BU ->. eexists. rewrite (prove_ok i) by
    (first [exact BW|exact BI|exact BO|exact LI|exact LO|exact BC2|(apply matrix_cols, mkV_matrix; assumption)|
       (rewrite LW; pose proof (sf_l8 i (set_ok i)) as H8; clear - H8; lia)|(rewrite LC2; apply N.le_refl)|(rewrite LU; pose proof L_split as [E _]; clear - E; lia)]).
  unfold hash_vals at 1. rewrite zk_spec_mask. reflexivity.
Qed.

Lemma hash_ok u : lenN u = L -> bytes_ok u -> vole_hash n ch1 u l = Ok (vole_hash_spec F ch1 u l).
Proof using LC1 BC1.
  intros LU BU. pose proof (set_ok i) as SF. pose proof L_split as [E1 E2]. pose proof (sf_l8 i SF) as H1. pose proof (sf_n8 i SF) as H2.
  apply vole_hash_computes; try assumption; [clear; destruct i; cbn; auto|clear - LC1; lia|clear - LU E1 H1 H2; lia].
Qed.
Lemma sol_parts : takeN l8 sol = s0 /\ sub sol l8 nb = s1 /\ sol = (s0 ++ s1) ++ s2.
Proof using LW LD.
  unfold sol. split; [|split].
  - pose proof (takeN_app_exact s0 (s1 ++ s2)) as H. rewrite s0_len in H. exact H.
  - rewrite sub_eq, dropN_app_l by exact s0_len. pose proof (takeN_app_exact s1 s2) as H. rewrite s1_len in H. exact H.
  - symmetry. apply app_assoc_reverse.
Qed.
Lemma a_back x : to_bytes nb (N.lxor x (num (to_bytes nb (N.lxor x (num a))))) = a \/ ~ x < 2 ^ f_n F.
Proof using LA BA.
  destruct (N.lt_ge_cases x (2 ^ f_n F)) as [Hx|Hx]; [left|right; apply N.le_ngt, Hx]. pose proof (num_bound i a LA BA) as HA. pose proof (sf_n i (set_ok i)) as En. pose proof (sf_n8 i (set_ok i)) as H8.
  assert (HX2 : N.lxor x (num a) < 2 ^ f_n F) by (apply lxor_lt; assumption). rewrite En in HX2. rewrite (num_to_bytes i _ HX2).
  rewrite <- N.lxor_assoc, N.lxor_nilpotent, N.lxor_0_l. pose proof (to_bytes_num a 0 nb BA) as HT. rewrite LA in HT.
  pose proof (sub_app_l a [] nb LA) as HS. rewrite app_nil_r in HS. rewrite HS in HT. apply HT, N.le_refl.
Qed.
Lemma sol_shows : shows i w inp out ch1 ch2 ch3 sol (mkV ch3 sol Q) d ut a Q.
Proof using All.
  destruct sol_parts as (P0 & P1 & P2). unfold shows. cbv zeta. split; [|split; [|split]].
  - change (d = xors w (takeN l8 sol)). rewrite P0, xors_eq. unfold s0. rewrite <- xor_bytes_assoc, xor_bytes_nilpotent, LW. symmetry. apply xor_bytes_zeros_l, LD.
  - rewrite hash_ok by (exact sol_len || exact sol_bytes). f_equal. rewrite P2. rewrite vole_spec_mask.
    + rewrite (sf_n i (set_ok i)). unfold s2. rewrite <- xor_bytes_assoc, xor_bytes_nilpotent. apply xor_bytes_zeros_l.
      rewrite (proj1 (hash_len_ok _ pre_len pre_bytes)). exact LUT.
    + rewrite lenN_app, s0_len, s1_len, (sf_n i (set_ok i)). symmetry. apply L_split.
    + rewrite (sf_n i (set_ok i)). exact s2_len.
  - destruct (prove_val sol (mkV ch3 sol Q) sol_len sol_bytes eq_refl) as [b E]. exists b. rewrite E. f_equal. f_equal. rewrite P1. unfold s1 at 1.
    rewrite (hv0_ext sol (s0 ++ zeros (2 * nb + 2))).
    + destruct (a_back (hv0 (s0 ++ zeros (2 * nb + 2)))) as [H|H]; [exact H|destruct H; apply hash_vals_lt].
    + exact sol_len.
    + rewrite lenN_app, s0_len, lenN_zeros. pose proof L_split as [E1 _]. lia.
    + rewrite P0. pose proof (takeN_app_exact s0 (zeros (2 * nb + 2))) as H. rewrite s0_len in H. symmetry. exact H.
  - apply mkV_correlated; [exact sol_len|exact MQ].
Qed.
Lemma sol_unique u V : lenN u = L -> bytes_ok u -> matrix n L V -> shows i w inp out ch1 ch2 ch3 u V d ut a Q -> u = sol /\ V = mkV ch3 sol Q.
Proof using All.
  intros LU BU MV (S0 & S1 & (b & S2) & S3). assert (EV : V = mkV ch3 u Q) by (apply correlated_mkV; assumption).
  assert (EU : u = sol); [|subst u; split; [reflexivity|exact EV]].
  pose proof L_split as [E1 E2]. pose proof (sf_n i (set_ok i)) as En. pose proof (sf_n8 i (set_ok i)) as H8.
  assert (U0 : takeN l8 u = s0).
  { unfold s0. rewrite S0, xors_eq. change (firstn (N.to_nat l8) u) with (takeN l8 u).
    rewrite <- xor_bytes_assoc, xor_bytes_nilpotent, LW. symmetry. apply xor_bytes_zeros_l. rewrite lenN_takeN. lia. }
  assert (U1 : sub u l8 nb = s1).
  { destruct (prove_val u V LU BU EV) as [b' E]. rewrite S2 in E. injection E as E _. unfold s1.
    rewrite (hv0_ext (s0 ++ zeros (2 * nb + 2)) u).
    - apply (f_equal num) in E. assert (HN : num (sub u l8 nb) < 2 ^ f_n F) by (apply (num_bound i); [apply sub_len; lia|apply sub_bytes, BU]).
      assert (HX : N.lxor (hv0 u) (num (sub u l8 nb)) < 2 ^ f_n F) by (apply lxor_lt; [apply hash_vals_lt|exact HN]).
      rewrite En in HX. rewrite (num_to_bytes i _ HX) in E.
      rewrite E, <- N.lxor_assoc, N.lxor_nilpotent, N.lxor_0_l. symmetry. apply to_bytes_num; [exact BU|lia].
    - rewrite lenN_app, s0_len, lenN_zeros. lia.
    - exact LU.
    - rewrite U0. pose proof (takeN_app_exact s0 (zeros (2 * nb + 2))) as H. rewrite s0_len in H. exact H. }
  assert (US : u = (s0 ++ s1) ++ dropN (l8 + nb) u).
  { rewrite <- U0, <- U1 at 1. rewrite app_assoc_reverse. apply split3. }
  assert (U2 : dropN (l8 + nb) u = s2).
  { rewrite hash_ok in S1 by assumption. injection S1 as S1. assert (LD2 : lenN (dropN (l8 + nb) u) = nb + 2) by (rewrite lenN_dropN; lia).
    rewrite US in S1. rewrite vole_spec_mask in S1.
    - unfold s2. rewrite <- S1, En. rewrite <- xor_bytes_assoc, xor_bytes_nilpotent. symmetry. apply xor_bytes_zeros_l.
      rewrite (proj1 (hash_len_ok _ pre_len pre_bytes)). exact LD2.
    - rewrite lenN_app, s0_len, s1_len, En. symmetry. exact E2.
    - rewrite En. exact LD2. }
  rewrite US, U2. unfold sol. apply app_assoc_reverse.
Qed.
End Solve.
End View.
