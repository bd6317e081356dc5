(** The verifier's value is a0 + a1 D + a' D + (D^2 + D) h, with h the hash of the defects (C30, C38). *)
From Verif.Model Require Import Aes Vole UHash FaestAes.
From Verif.Spec Require Import AesSpec OwfSpec ConstraintSpec ConstraintMap UHashSpec UHashMap VoleSpec.
From Verif.Proof Require Import BaseProof PolyProof FieldProof EmbedProof PrgProof UHashProof ClaimProof WitnessProof DefectProof WitnessProps
  VoleProof VoleProps WireProof ConsProof ConstrProof FactorProof RowsProof ProveProof.
From Coq Require Import Lia ZifyBool ZifyNat ZifyN.
Ltac Zify.zify_post_hook ::= Z.div_mod_to_equations.

Section Id.
Variable F : field.
Hypothesis HB : big_field F.
Variable D : N.
Hypothesis HD : D < 2 ^ f_n F.
Local Notation M := (bf_mul F).

Lemma term_identity q q' v v' s s' : T F D q v s -> T F D q' v' s' ->
  vterm F D (q, q') =
  N.lxor (N.lxor (fst (pterms F (s, s') (v, v'))) (M D (snd (pterms F (s, s') (v, v')))))
         (M (N.lxor (M D D) D) (N.lxor (M s s') 1)).
Proof using HB HD.
  intros (Hv & Hs & ->) (Hv' & Hs' & ->). pose proof (big_field_ok F HB) as HF. pose proof (one_lt F HF) as H1.
  unfold vterm, pterms, prove_terms, bf_add. cbn [fst snd].
  assert (L : forall a b, a < 2 ^ f_n F -> b < 2 ^ f_n F -> M a b < 2 ^ f_n F) by (intros; apply bf_mul_lt; assumption).
  assert (X : forall a b, a < 2 ^ f_n F -> b < 2 ^ f_n F -> N.lxor a b < 2 ^ f_n F) by (intros; apply lxor_lt; assumption).
  rewrite !(bf_mul_lxor_r F), !(bf_mul_lxor_l F), !(bf_mul_lxor_r F) by auto 6.
  rewrite !(bf_mul_1_r F) by auto.
  assert (E1 : M v (M D s') = M D (M v s')).
  { rewrite <- (bf_mul_assoc F), (bf_mul_comm F v D), (bf_mul_assoc F) by auto. reflexivity. }
  assert (E2 : M (M D s) v' = M D (M s v')) by (apply bf_mul_assoc; auto).
  assert (E3 : M (M D s) (M D s') = M (M D D) (M s s')).
  { rewrite (bf_mul_assoc F D s), <- (bf_mul_assoc F s D), (bf_mul_comm F s D), (bf_mul_assoc F D s s'), <- (bf_mul_assoc F D D) by auto. reflexivity. }
  rewrite E1, E2, E3. xor_ac.
Qed.
End Id.

Lemma map_zip {A} (f g : A -> N) l : map (fun '(a, b) => N.lxor a b) (combine (map f l) (map g l)) = map (fun x => N.lxor (f x) (g x)) l.
Proof. induction l as [|x l IH]; cbn [map combine]; [reflexivity|]. f_equal. exact IH. Qed.

Section Agree.
Variable i : paramid.
Local Notation p := (param_of i).
Local Notation F := (F_of i).
Local Notation n := (p_lambda (param_of i)).
Local Notation l := (p_l (param_of i)).

Lemma hash_lin3 ch2 f g h D E z0 z1 : bytes_ok ch2 -> 3 * (n / 8) + 8 <= lenN ch2 ->
  D < 2 ^ n -> E < 2 ^ n -> (forall x, f x < 2 ^ n) -> (forall x, g x < 2 ^ n) -> (forall x, h x < 2 ^ n) -> z0 < 2 ^ n -> z1 < 2 ^ n ->
  hash_vals i ch2 (fun x => N.lxor (N.lxor (f x) (bf_mul F D (g x))) (bf_mul F E (h x))) (N.lxor z0 (bf_mul F D z1)) =
  N.lxor (N.lxor (hash_vals i ch2 f z0) (bf_mul F D (hash_vals i ch2 g z1))) (bf_mul F E (hash_vals i ch2 h 0)).
Proof.
  intros BC LC HD HE Hf Hg Hh H0 H1. pose proof (set_ok i) as SF. pose proof (sf_n i SF) as En. pose proof (sf_in i SF) as HIn. pose proof (sf_64 i SF) as H64.
  pose proof (big_field_ok _ (F_of_big i)) as HF.
  rewrite <- En in HD, HE, Hf, Hg, Hh, H0, H1, LC, H64.
  assert (SM : forall (f : ix -> N), (forall x, f x < 2 ^ f_n F) -> Forall (fun v => v < 2 ^ f_n F) (map f (ixs i))).
  { intros k Hk. apply Forall_forall. intros v Hv. apply in_map_iff in Hv. destruct Hv as (x & <- & _). apply Hk. }
  assert (LM : forall k k' : ix -> N, lenN (map k (ixs i)) = lenN (map k' (ixs i))) by (intros; rewrite !lenN_map; reflexivity).
  pose proof (pow2_pos (f_n F)) as HP.
  assert (L : forall a b, a < 2 ^ f_n F -> b < 2 ^ f_n F -> bf_mul F a b < 2 ^ f_n F) by (intros; apply bf_mul_lt; assumption).
  unfold hash_vals.
  rewrite <- (map_zip (fun x => N.lxor (f x) (bf_mul F D (g x))) (fun x => bf_mul F E (h x))).
  rewrite <- (N.lxor_0_r (N.lxor z0 _)).
  rewrite zk_spec_add; auto; try (apply SM; intros; try apply lxor_lt; auto); [|apply lxor_lt; auto].
  rewrite <- (map_zip f (fun x => bf_mul F D (g x))). rewrite zk_spec_add; auto.
  f_equal; [f_equal|].
  - rewrite <- zk_spec_mul by auto. rewrite map_map. reflexivity.
  - replace (zk_hash_spec F ch2 (map (fun x => bf_mul F E (h x)) (ixs i)) 0)
      with (zk_hash_spec F ch2 (map (fun x => bf_mul F E (h x)) (ixs i)) (bf_mul F E 0)) by (rewrite bf_mul_0_r by assumption; reflexivity).
    rewrite <- zk_spec_mul by auto. rewrite map_map. reflexivity.
Qed.

(** rows of the masked matrix *)
Lemma bit_at_nthN s j : bit_at s j = N.testbit (nthN s (j / 8) 0) (j mod 8).
Proof. reflexivity. Qed.
Lemma bit_at_xor a b j : lenN a = lenN b -> bit_at (xor_bytes a b) j = xorb (bit_at a j) (bit_at b j).
Proof. intros H. rewrite !bit_at_nthN, nthN_xor by exact H. apply N.lxor_spec. Qed.
Lemma bit_at_sel L b x j : lenN x = L -> bit_at (sel L b x) j = b && bit_at x j.
Proof.
  intros H. rewrite !bit_at_nthN. unfold sel. destruct b; [reflexivity|]. rewrite nthN_zeros. apply N.bits_0.
Qed.
Lemma bit_at_mcol d m b q j : m <= lenN d -> m <= lenN q ->
  bit_at (mcol d m b q) j = xorb (bit_at q j) (b && (j <? 8 * m) && bit_at d j).
Proof.
  intros H1 H2. unfold mcol. destruct b; cbn [andb]; [|rewrite Bool.xorb_false_r; reflexivity].
  assert (LX : lenN (xor_bytes (takeN m d) (takeN m q)) = m) by (rewrite lenN_xor, !lenN_takeN; rewrite ?lenN_takeN; lia).
  rewrite !bit_at_nthN. destruct (j <? 8 * m) eqn:E.
  - rewrite nthN_app_l by lia. rewrite nthN_xor by (rewrite !lenN_takeN; lia). rewrite !nthN_takeN by lia. rewrite N.lxor_spec. apply Bool.xorb_comm.
  - rewrite nthN_app_r by lia. rewrite nthN_dropN, LX. replace (m + (j / 8 - m)) with (j / 8) by lia. cbn [andb]. rewrite Bool.xorb_false_r. reflexivity.
Qed.
Lemma delta_bit ch3 j : bytes_ok ch3 -> j < n -> N.testbit (delta_of i ch3) j = bit_at ch3 j.
Proof.
  intros HB Hj. unfold delta_of. rewrite num_eq, sub_eq. rewrite <- bit_at_le by (apply Forall_takeN, Forall_dropN, HB).
  rewrite !bit_at_nthN. rewrite nthN_takeN by (pose proof (sf_n8 i (set_ok i)); lia). rewrite nthN_dropN. reflexivity.
Qed.

Lemma rows_T ch3 (D := delta_of i ch3) V Q' w u L r :
  bytes_ok ch3 -> (forall j, j < n -> lenN (nthN V j []) = L) -> lenN u = L -> l / 8 <= L -> lenN w = l / 8 ->
  (forall j, j < n -> nthN Q' j [] =
     mcol (xor_bytes w (takeN (l / 8) u)) (l / 8) (bit_at ch3 j) (xor_bytes (nthN V j []) (sel L (bit_at ch3 j) u))) ->
  T F D (rowv n Q' r) (rowv n V r) (if r <? l then bw w r else bw u r).
Proof.
  intros BC HV HU HL HW HQ. pose proof (set_ok i) as SF. pose proof (sf_n i SF) as En. pose proof (sf_l8 i SF) as Hl8.
  pose proof (big_field_ok _ (F_of_big i)) as HF.
  assert (HD : D < 2 ^ n) by (apply sub_lt; assumption).
  assert (LT : lenN (xor_bytes w (takeN (l / 8) u)) = l / 8) by (rewrite lenN_xor; rewrite ?lenN_takeN; lia).
  split; [rewrite En; apply rowv_lt|]. split; [destruct (r <? l); apply bw_lt|].
  assert (ES : (if r <? l then bw w r else bw u r) = if (if r <? l then bit_at w r else bit_at u r) then 1 else 0)
    by (destruct (r <? l); reflexivity).
  rewrite ES. set (s := if r <? l then bit_at w r else bit_at u r).
  assert (EM : forall s : bool, bf_mul F D (if s then 1 else 0) = if s then D else 0)
    by (intros []; [apply bf_mul_1_r; [assumption|rewrite En; assumption]|apply bf_mul_0_r; [assumption|rewrite En; assumption]]).
  rewrite EM. clear EM.
  apply N.bits_inj. intros j. rewrite N.lxor_spec, !rowv_testbit.
  destruct (j <? n) eqn:Hj; cbn [andb].
  2: { destruct s; [rewrite (testbit_high D n) by (assumption || lia)|rewrite N.bits_0]; reflexivity. }
  rewrite HQ by lia. specialize (HV j ltac:(lia)).
  assert (LS : lenN (sel L (bit_at ch3 j) u) = L) by (unfold sel; destruct (bit_at ch3 j); [exact HU|apply lenN_zeros]).
  rewrite bit_at_mcol by (rewrite ?LT, ?lenN_xor; lia).
  rewrite bit_at_xor by lia. rewrite bit_at_sel by exact HU. rewrite bit_at_xor by (rewrite lenN_takeN; lia).
  assert (EM : forall s : bool, N.testbit (if s then D else 0) j = s && bit_at ch3 j)
    by (intros []; [unfold D; rewrite delta_bit by (assumption || lia)|rewrite N.bits_0]; reflexivity).
  rewrite EM. clear EM.
  replace (8 * (l / 8)) with l by lia. unfold s. destruct (r <? l) eqn:Er.
  - replace (bit_at (takeN (l / 8) u) r) with (bit_at u r) by (rewrite !bit_at_nthN, nthN_takeN by lia; reflexivity).
    destruct (bit_at (nthN V j []) r), (bit_at ch3 j), (bit_at u r), (bit_at w r); reflexivity.
  - destruct (bit_at (nthN V j []) r), (bit_at ch3 j), (bit_at u r); reflexivity.
Qed.

Lemma bw_sub u j : bytes_ok u -> bw u (l + j) = if j <? n then bitw (num (sub u (l / 8) (n / 8))) j else bw u (l + j).
Proof.
  intros BU. destruct (j <? n) eqn:E; [|reflexivity]. pose proof (sf_l8 i (set_ok i)). pose proof (sf_n8 i (set_ok i)).
  unfold bw, bitw. rewrite num_eq, sub_eq, le_val_testbit by (apply Forall_takeN, Forall_dropN, BU).
  rewrite nthN_takeN, nthN_dropN by lia. replace (l / 8 + j / 8) with ((l + j) / 8) by lia. replace ((l + j) mod 8) with (j mod 8) by lia. reflexivity.
Qed.

Lemma map_defects w inp out : bytes_ok w -> bytes_ok inp -> bytes_ok out -> l <= 8 * lenN w ->
  lenN inp = owf_input_size i -> lenN out = owf_input_size i ->
  map (fun x => N.lxor (bf_mul F (fst (val i inp out (bw w) 1 x)) (snd (val i inp out (bw w) 1 x))) 1) (ixs i) =
  map (defect F) (claims i w inp out).
Proof.
  intros. rewrite <- (map_map (val i inp out (bw w) 1) (fun y => N.lxor (bf_mul F (fst y) (snd y)) 1)).
  rewrite val_bits by assumption. rewrite map_map. reflexivity.
Qed.

Lemma agree w u d V Q inp out ch2 ch3 a :
  let L := lenN u in
  lenN w = l / 8 -> bytes_ok w -> lenN inp = owf_input_size i -> bytes_ok inp -> lenN out = owf_input_size i -> bytes_ok out ->
  l + n <= 8 * L -> bytes_ok u ->
  lenN V = n -> (forall j, j < n -> lenN (nth (N.to_nat j) V []) = L /\ bytes_ok (nth (N.to_nat j) V [])) ->
  lenN Q = n -> (forall j, j < n -> nth (N.to_nat j) Q [] = xors (nth (N.to_nat j) V []) (scale (bit_at ch3 j) u)) ->
  d = xors w (firstn (N.to_nat (l / 8)) u) ->
  3 * (n / 8) + 8 <= lenN ch2 -> bytes_ok ch2 -> lenN ch3 = n / 8 -> bytes_ok ch3 -> lenN a = n / 8 -> bytes_ok a ->
  exists a1 a0 b,
    aes_prove p w u V inp out ch2 = Ok (a1, a0) /\ lenN a1 = n / 8 /\ bytes_ok a1 /\ lenN a0 = n / 8 /\ bytes_ok a0 /\
    aes_verify p d Q ch2 ch3 a inp out = Ok b /\ lenN b = n / 8 /\ bytes_ok b /\
    let D := num ch3 in
    let h := zk_hash_spec F ch2 (map (defect F) (claims i w inp out)) 0 in
    num b = N.lxor (N.lxor (num a0) (bf_mul F D (N.lxor (num a1) (num a)))) (bf_mul F (N.lxor (bf_mul F D D) D) h).
Proof.
  intros L LW BW LI BI LO BO HL BU LV HV LQ HQ Ed LC BC LC3 BC3 LA BA.
  pose proof (set_ok i) as SF. pose proof (sf_n i SF) as En. pose proof (sf_l8 i SF) as Hl8. pose proof (sf_n8 i SF) as Hn8.
  pose proof (F_of_big i) as HBig. pose proof (big_field_ok _ HBig) as HF. pose proof (sf_64 i SF) as H64. pose proof (sf_in i SF) as HIn.
  assert (LW' : l <= 8 * lenN w) by lia.
  assert (CV : cols_ok n (l + n) V).
  { split; [lia|]. intros j Hj. destruct (HV j Hj) as [H1 H2]. change (nth (N.to_nat j) V []) with (nthN V j []) in *. rewrite H1. auto. }
  assert (HQ' : forall j, j < n -> nthN Q j [] = xor_bytes (nthN V j []) (sel L (bit_at ch3 j) u)).
  { intros j Hj. change (nthN Q j []) with (nth (N.to_nat j) Q []). rewrite HQ by exact Hj. rewrite xors_eq, (scale_eq L) by reflexivity. reflexivity. }
  assert (LS : forall b, lenN (sel L b u) = L) by (intros; unfold sel; destruct b; [reflexivity|apply lenN_zeros]).
  assert (BS : forall b, bytes_ok (sel L b u)) by (intros; unfold sel; destruct b; [exact BU|apply bytes_ok_zeros]).
  assert (CQ : cols_ok n (l + n) Q).
  { split; [lia|]. intros j Hj. destruct (HV j Hj) as [H1 H2]. change (nth (N.to_nat j) V []) with (nthN V j []) in *.
    rewrite HQ' by exact Hj. rewrite lenN_xor by (rewrite LS; assumption). rewrite H1. split; [exact HL|]. apply bytes_ok_xor; auto. }
  assert (Ed' : d = xor_bytes w (takeN (l / 8) u)) by (rewrite Ed, xors_eq; reflexivity).
  assert (BD : bytes_ok d) by (rewrite Ed'; apply bytes_ok_xor; [exact BW|apply Forall_takeN, BU]).
  assert (LD : lenN d = l / 8) by (rewrite Ed', lenN_xor; rewrite ?lenN_takeN; lia).
  pose proof (prove_ok i w u V inp out ch2 BW LW' BI BO LI LO CV ltac:(lia) BC LC) as EP.
  destruct (verify_ok i d Q ch2 ch3 a inp out BI BO LI LO BD ltac:(lia) CQ BC LC BC3 ltac:(lia) ltac:(lia)) as (Qm & [_ HQm] & EV).
  cbv zeta in EV. set (D := delta_of i ch3) in *.
  assert (ED : num ch3 = D).
  { unfold D, delta_of. rewrite sub_eq. f_equal. apply (list_ext 0); [rewrite lenN_takeN, lenN_dropN; lia|]. intros j Hj.
    rewrite nthN_takeN, nthN_dropN by lia. reflexivity. }
  assert (EA : sub a 0 (n / 8) = a).
  { rewrite sub_eq. apply (list_ext 0); [rewrite lenN_takeN, lenN_dropN; lia|]. intros j Hj. rewrite lenN_takeN, lenN_dropN in Hj.
    rewrite nthN_takeN, nthN_dropN by lia. reflexivity. }
  assert (HD : D < 2 ^ n) by (apply sub_lt; assumption).
  assert (HD' : D < 2 ^ f_n F) by (rewrite En; exact HD).
  assert (HA : num a < 2 ^ n) by (rewrite <- EA; apply sub_lt; assumption).
  assert (TR : forall r, T F D (rowv n Qm r) (rowv n V r) (if r <? l then bw w r else bw u r)).
  { intros r. apply (rows_T ch3 V Qm w u L); try assumption; try reflexivity; try lia.
    - intros j Hj. apply (HV j Hj).
    - intros j Hj. rewrite HQm, HQ' by exact Hj. replace (j <? n) with true by lia. rewrite Ed'. reflexivity. }
  (* the two halves *)
  assert (TW : forall r, T F D (trunc i (rowv n Qm) r) (trunc i (rowv n V) r) (bw w r)).
  { intros r. specialize (TR r). unfold trunc. destruct (r <? l) eqn:Er; [exact TR|].
    replace (bw w r) with 0; [apply T_0; assumption|]. unfold bw. rewrite nthN_default by lia. reflexivity. }
  set (U := num (sub u (l / 8) (n / 8))) in *.
  assert (HU : U < 2 ^ n) by (apply sub_lt; assumption).
  assert (TS : T F D (sumpoly F (fun j => rowv n Qm (l + j))) (sumpoly F (fun j => rowv n V (l + j))) U).
  { assert (EU : sumpoly F (fun j => if j <? n then bw u (l + j) else bw u (l + j)) = U).
    { rewrite (sumpoly_ext F _ (fun j => bitw U j)); [apply sumpoly_bits; rewrite En; lia|lia|].
      intros j Hj. rewrite En in Hj. rewrite bw_sub by exact BU. replace (j <? n) with true by lia. reflexivity. }
    rewrite <- EU. apply T_sumpoly; try assumption. intros j. specialize (TR (l + j)). replace (l + j <? l) with false in TR by lia.
    destruct (j <? n); exact TR. }
  destruct TS as (HS1 & _ & ES). rewrite En in HS1.
  pose (cc := fun x : ix => N.lxor (bf_mul F (fst (val i inp out (bw w) 1 x)) (snd (val i inp out (bw w) 1 x))) 1).
  assert (HV1 : forall x, V_term i inp out D (rowv n Qm) x =
    N.lxor (N.lxor (fst (P_terms i inp out w (rowv n V) x)) (bf_mul F D (snd (P_terms i inp out w (rowv n V) x)))) (bf_mul F (N.lxor (bf_mul F D D) D) (cc x))).
  { intros x. destruct (val_T i D HD' inp out _ _ _ TW x) as [T1 T2]. unfold V_term, P_terms.
    pose proof (term_identity F HBig D HD' _ _ _ _ _ _ T1 T2) as E. rewrite <- !surjective_pairing in E. exact E. }
  assert (HE : N.lxor (bf_mul F D D) D < 2 ^ n) by (rewrite <- En; apply lxor_lt; [apply bf_mul_lt|]; assumption).
  assert (Hcc : forall x, cc x < 2 ^ n).
  { intros x. destruct (val_T i D HD' inp out _ _ _ TW x) as [(_ & T1 & _) (_ & T2 & _)]. rewrite <- En.
    unfold cc. apply lxor_lt; [apply bf_mul_lt; assumption|apply one_lt; assumption]. }
  assert (HP : forall x, fst (P_terms i inp out w (rowv n V) x) < 2 ^ n /\ snd (P_terms i inp out w (rowv n V) x) < 2 ^ n).
  { intros x. pose proof (pterms_lt i inp out w V x) as H. rewrite En in H. exact H. }
  assert (HH : hash_vals i ch2 (V_term i inp out D (rowv n Qm)) (sumpoly F (fun j => rowv n Qm (l + j))) =
    N.lxor (N.lxor (hash_vals i ch2 (fun x => fst (P_terms i inp out w (rowv n V) x)) (sumpoly F (fun j => rowv n V (l + j))))
                   (bf_mul F D (hash_vals i ch2 (fun x => snd (P_terms i inp out w (rowv n V) x)) U)))
           (bf_mul F (N.lxor (bf_mul F D D) D) (hash_vals i ch2 cc 0))).
  { rewrite <- hash_lin3; try assumption; try (intros; apply HP). rewrite ES. unfold hash_vals. f_equal. apply map_ext. exact HV1. }
  rewrite HH, EA in EV. clear HH.
  assert (ZL : forall f z, (forall x, f x < 2 ^ n) -> z < 2 ^ n -> hash_vals i ch2 f z < 2 ^ n).
  { intros f z Hf Hz. rewrite <- En. apply zk_spec_lt; try assumption; try (rewrite En; assumption). apply Forall_forall. intros v Hv. apply in_map_iff in Hv.
    destruct Hv as (x & <- & _). rewrite En. apply Hf. }
  set (A0 := hash_vals i ch2 (fun x => fst _) _) in *. set (A1 := hash_vals i ch2 (fun x => snd _) _) in *. set (H := hash_vals i ch2 cc 0) in *.
  assert (HA0 : A0 < 2 ^ n) by (apply ZL; [intros; apply HP|exact HS1]).
  assert (HA1 : A1 < 2 ^ n) by (apply ZL; [intros; apply HP|exact HU]).
  assert (HHH : H < 2 ^ n) by (apply ZL; [exact Hcc|apply pow2_pos]).
  assert (TB : forall x, lenN (to_bytes (n / 8) x) = n / 8 /\ bytes_ok (to_bytes (n / 8) x)).
  { intros x. rewrite to_bytes_eq. split; [unfold lenN; rewrite le_bytes_length; lia|apply bytes_ok_le_bytes]. }
  eexists _, _, _. split; [exact EP|]. split; [apply TB|]. split; [apply TB|]. split; [apply TB|]. split; [apply TB|].
  split; [exact EV|]. split; [apply TB|]. split; [apply TB|]. cbv zeta. rewrite ED.
  rewrite !num_to_bytes; try assumption.
  2: { clear - HF En HD HE HA0 HA1 HHH HA. clearbody H A0 A1 D. rewrite <- En in *. repeat first [apply lxor_lt|apply bf_mul_lt]; assumption. }
  replace (zk_hash_spec F ch2 (map (defect F) (claims i w inp out)) 0) with H
    by (unfold H, hash_vals; rewrite <- map_defects by assumption; reflexivity).
  rewrite (bf_mul_lxor_r F), (bf_mul_comm F (num a) D) by (rewrite ?En; assumption). xor_ac.
Qed.
End Agree.
