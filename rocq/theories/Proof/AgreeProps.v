(** The statements of C30 and C38. *)
From Verif.Model Require Import Vole UHash Owf FaestAes.
From Verif.Spec Require Import AesSpec OwfSpec ConstraintSpec ConstraintMap UHashSpec UHashMap VoleSpec ProofSpec.
From Verif.Proof Require Import BaseProof PolyProof FieldProof EmbedProof PrgProof UHashProof UHashProps ClaimProof WitnessProof WitnessProps
  VoleProof VoleProps WireProof RowsProof ProveProof AgreeProof.
From Coq Require Import Lia ZifyBool ZifyNat ZifyN.
Ltac Zify.zify_post_hook ::= Z.div_mod_to_equations.

Lemma polynomials_agree : forall i w u V Q inp out chall_2 chall_3 a,
  let p := param_of i in let n := p_lambda p in let l := p_l p in
  lenN w = l / 8 -> bytes_ok w ->
  lenN inp = owf_input_size i -> bytes_ok inp -> lenN out = owf_input_size i -> bytes_ok out ->
  l + n <= 8 * lenN u -> bytes_ok u -> matrix n (lenN u) V -> correlated n chall_3 u V Q ->
  3 * (n / 8) + 8 <= lenN chall_2 -> bytes_ok chall_2 ->
  lenN chall_3 = n / 8 -> bytes_ok chall_3 -> lenN a = n / 8 -> bytes_ok a ->
  exists a1 a0 b,
    aes_prove p w u V inp out chall_2 = Ok (a1, a0) /\
    aes_verify p (xors w (firstn (N.to_nat (l / 8)) u)) Q chall_2 chall_3 a inp out = Ok b /\
    lenN a1 = n / 8 /\ bytes_ok a1 /\ lenN a0 = n / 8 /\ bytes_ok a0 /\ lenN b = n / 8 /\ bytes_ok b /\
    num b = challenge_poly (F_of i) (num chall_3) (num a0) (N.lxor (num a1) (num a)) (defect_hash i chall_2 w inp out).
Proof.
  intros i w u V Q inp out ch2 ch3 a p n l LW BW LI BI LO BO HL BU [LV HV] [LQ HQ] LC BC LC3 BC3 LA BA.
  destruct (agree i w u (xors w (firstn (N.to_nat (l / 8)) u)) V Q inp out ch2 ch3 a LW BW LI BI LO BO HL BU LV HV LQ HQ eq_refl LC BC LC3 BC3 LA BA)
    as (a1 & a0 & b & A1 & A2 & A3 & A4 & A5 & A6 & A7 & A8 & A9).
  exists a1, a0, b. repeat (split; [assumption|]). exact A9.
Qed.

Lemma num_inj a b : bytes_ok a -> bytes_ok b -> lenN a = lenN b -> num a = num b -> a = b.
Proof. rewrite !num_eq. apply le_val_inj. Qed.
Lemma num_bound i a : lenN a = p_lambda (param_of i) / 8 -> bytes_ok a -> num a < 2 ^ f_n (F_of i).
Proof.
  intros LA BA. rewrite (sf_n i (set_ok i)), num_eq. eapply N.lt_le_trans; [apply le_val_bound2, BA|].
  apply N.pow_le_mono_r; [discriminate|]. pose proof (sf_n8 i (set_ok i)). lia.
Qed.

(** an honest prover: every challenge passes *)
Lemma honest_agrees : forall i w u V Q inp out chall_2 chall_3,
  let p := param_of i in let n := p_lambda p in let l := p_l p in
  lenN w = l / 8 -> bytes_ok w ->
  lenN inp = owf_input_size i -> bytes_ok inp -> lenN out = owf_input_size i -> bytes_ok out ->
  l + n <= 8 * lenN u -> bytes_ok u -> matrix n (lenN u) V -> correlated n chall_3 u V Q ->
  3 * (n / 8) + 8 <= lenN chall_2 -> bytes_ok chall_2 -> lenN chall_3 = n / 8 -> bytes_ok chall_3 ->
  defect_hash i chall_2 w inp out = 0 ->
  exists a1 a0, aes_prove p w u V inp out chall_2 = Ok (a1, a0) /\
    lenN a1 = n / 8 /\ bytes_ok a1 /\ lenN a0 = n / 8 /\ bytes_ok a0 /\
    aes_verify p (xors w (firstn (N.to_nat (l / 8)) u)) Q chall_2 chall_3 a1 inp out = Ok a0.
Proof.
  intros i w u V Q inp out ch2 ch3 p n l LW BW LI BI LO BO HL BU MV CQ LC BC LC3 BC3 HZ.
  assert (Hz : lenN (zeros (n / 8)) = n / 8 /\ bytes_ok (zeros (n / 8))) by (split; [apply lenN_zeros|apply bytes_ok_zeros]).
  destruct (polynomials_agree i w u V Q inp out ch2 ch3 (zeros (n / 8))) as (a1 & a0 & b0 & E1 & _ & L1 & B1 & L0 & B0 & _); try tauto.
  destruct (polynomials_agree i w u V Q inp out ch2 ch3 a1) as (a1' & a0' & b & E1' & EV & _ & _ & _ & _ & Lb & Bb & EQ); try tauto.
  fold p in E1, E1'. rewrite E1 in E1'. injection E1' as <- <-. exists a1, a0. repeat (split; [assumption|]).
  replace a0 with b; [exact EV|]. apply num_inj; try assumption; [rewrite Lb, L0; reflexivity|]. rewrite EQ, HZ. unfold challenge_poly.
  pose proof (big_field_ok _ (F_of_big i)) as HF. pose proof (num_bound i ch3 LC3 BC3) as HD.
  assert (HE : N.lxor (bf_mul (F_of i) (num ch3) (num ch3)) (num ch3) < 2 ^ f_n (F_of i)) by (apply lxor_lt; [apply bf_mul_lt|]; assumption).
  rewrite N.lxor_nilpotent, !bf_mul_0_r, !N.lxor_0_r by assumption. reflexivity.
Qed.

Lemma zero_defects i ch2 w inp out : bytes_ok ch2 ->
  Forall (fun xy => defect (F_of i) xy = 0) (claims i w inp out) -> defect_hash i ch2 w inp out = 0.
Proof.
  intros BC H. unfold defect_hash.
  assert (E : map (defect (F_of i)) (claims i w inp out) = map (bf_mul (F_of i) 0) (map (fun _ => 0) (claims i w inp out))).
  { pose proof (big_field_ok _ (F_of_big i)) as HF. rewrite map_map. induction H as [|x m Hx H IH]; [reflexivity|]. cbn [map].
    rewrite Hx, IH. f_equal. symmetry. apply bf_mul_0_r; [exact HF|apply pow2_pos]. }
  pose proof (big_field_ok _ (F_of_big i)) as HF. pose proof (pow2_pos (f_n (F_of i))) as HP.
  pose proof (set_ok i) as SF. pose proof (sf_in i SF) as HIn. pose proof (sf_64 i SF) as H64. rewrite <- (sf_n i SF) in H64.
  assert (HS : Forall (fun v => v < 2 ^ f_n (F_of i)) (map (fun _ : N * N => 0) (claims i w inp out))).
  { apply Forall_forall. intros v Hv. apply in_map_iff in Hv. destruct Hv as (x & <- & _). exact HP. }
  rewrite E. rewrite <- (bf_mul_0_r (F_of i) 0 HF HP) at 2.
  rewrite zk_spec_mul by assumption. apply bf_mul_0_l; [exact HF|]. apply zk_spec_lt; assumption.
Qed.

Ltac xor_ac0 :=
  apply N.bits_inj; let i := fresh "i" in intros i; rewrite N.bits_0, ?N.lxor_spec;
  repeat match goal with |- context [N.testbit ?x i] => generalize (N.testbit x i); intros [] end;
  reflexivity.

Section Three.
Variable F : field.
Hypothesis HB : big_field F.
Local Notation M := (bf_mul F).
Local Notation lt x := (x < 2 ^ f_n F).

Lemma lxor_0_eq a b : N.lxor a b = 0 -> a = b.
Proof. apply N.lxor_eq. Qed.
Lemma poly_diff D E c0 c1 c2 : lt D -> lt E -> lt c0 -> lt c1 -> lt c2 -> D <> E ->
  challenge_poly F D c0 c1 c2 = challenge_poly F E c0 c1 c2 -> N.lxor c1 c2 = M (N.lxor D E) c2.
Proof using HB.
  intros HD HE H0 H1 H2 Hne Eq. pose proof (big_field_ok F HB) as HF. destruct (big_field_facts F HB) as [cols FF].
  assert (L : forall a b, lt a -> lt b -> lt (M a b)) by (intros; apply bf_mul_lt; assumption).
  assert (X : forall a b, lt a -> lt b -> lt (N.lxor a b)) by (intros; apply lxor_lt; assumption).
  assert (Z : M (N.lxor D E) (N.lxor (N.lxor c1 c2) (M (N.lxor D E) c2)) = 0).
  { rewrite !(bf_mul_lxor_r F), !(bf_mul_lxor_l F), !(bf_mul_lxor_r F) by auto.
    unfold challenge_poly in Eq. rewrite !(bf_mul_lxor_l F) in Eq by auto.
    assert (E1 : M D (M E c2) = M E (M D c2)).
    { rewrite <- !(bf_mul_assoc F), (bf_mul_comm F D E) by auto. reflexivity. }
    rewrite !(bf_mul_assoc F) in Eq by auto. rewrite E1.
    apply (f_equal (fun x => N.lxor x (N.lxor c0 (N.lxor (M E c1) (N.lxor (M E (M E c2)) (M E c2)))))) in Eq.
    transitivity (N.lxor (N.lxor (N.lxor c0 (M D c1)) (N.lxor (M D (M D c2)) (M D c2)))
       (N.lxor c0 (N.lxor (M E c1) (N.lxor (M E (M E c2)) (M E c2))))); [xor_ac|]. rewrite Eq. xor_ac0. }
  apply (bf_mul_integral F cols) in Z; auto.
  destruct Z as [Z|Z]; apply lxor_0_eq in Z; [contradiction|exact Z].
Qed.

Lemma three_roots D E G c0 c1 c2 b : lt D -> lt E -> lt G -> lt c0 -> lt c1 -> lt c2 ->
  D <> E -> D <> G -> E <> G ->
  challenge_poly F D c0 c1 c2 = b -> challenge_poly F E c0 c1 c2 = b -> challenge_poly F G c0 c1 c2 = b ->
  c2 = 0 /\ c1 = 0 /\ c0 = b.
Proof using HB.
  intros HD HE HG H0 H1 H2 N1 N2 N3 E1 E2 E3. pose proof (big_field_ok F HB) as HF. destruct (big_field_facts F HB) as [cols FF].
  assert (A : N.lxor c1 c2 = M (N.lxor D E) c2) by (apply (poly_diff D E c0); congruence || assumption).
  assert (B : N.lxor c1 c2 = M (N.lxor D G) c2) by (apply (poly_diff D G c0); congruence || assumption).
  assert (X : forall a b, lt a -> lt b -> lt (N.lxor a b)) by (intros; apply lxor_lt; assumption).
  assert (Z : M (N.lxor E G) c2 = 0).
  { rewrite A in B. rewrite !(bf_mul_lxor_l F) in B by auto. rewrite (bf_mul_lxor_l F) by auto.
    apply (f_equal (N.lxor (M D c2))) in B.
    transitivity (N.lxor (N.lxor (M D c2) (N.lxor (M D c2) (M E c2))) (M G c2)); [xor_ac|]. rewrite B. xor_ac0. }
  apply (bf_mul_integral F cols) in Z; auto. destruct Z as [Z|Z]; [apply lxor_0_eq in Z; contradiction|]. subst c2.
  rewrite bf_mul_0_r, N.lxor_0_r in A by auto. subst c1. split; [reflexivity|]. split; [reflexivity|].
  rewrite <- E1. unfold challenge_poly. rewrite !bf_mul_0_r, !N.lxor_0_r by (auto using bf_mul_lt). reflexivity.
Qed.
End Three.

Lemma three_challenges : forall i w u V inp out chall_2 a b c1 c2 c3,
  let p := param_of i in let n := p_lambda p in let l := p_l p in
  lenN w = l / 8 -> bytes_ok w ->
  lenN inp = owf_input_size i -> bytes_ok inp -> lenN out = owf_input_size i -> bytes_ok out ->
  l + n <= 8 * lenN u -> bytes_ok u -> matrix n (lenN u) V ->
  3 * (n / 8) + 8 <= lenN chall_2 -> bytes_ok chall_2 -> lenN a = n / 8 -> bytes_ok a ->
  NoDup [c1; c2; c3] ->
  (forall c, In c [c1; c2; c3] -> lenN c = n / 8 /\ bytes_ok c /\
     exists Q, correlated n c u V Q /\ aes_verify p (xors w (firstn (N.to_nat (l / 8)) u)) Q chall_2 c a inp out = Ok b) ->
  defect_hash i chall_2 w inp out = 0 /\ aes_prove p w u V inp out chall_2 = Ok (a, b).
Proof.
  intros i w u V inp out ch2 a b c1 c2 c3 p n l LW BW LI BI LO BO HL BU MV LC BC LA BA ND HC.
  assert (G : forall c, In c [c1; c2; c3] -> num c < 2 ^ f_n (F_of i) /\ exists a1 a0,
     aes_prove p w u V inp out ch2 = Ok (a1, a0) /\ lenN a1 = n / 8 /\ bytes_ok a1 /\ lenN a0 = n / 8 /\ bytes_ok a0 /\ lenN b = n / 8 /\ bytes_ok b /\
     challenge_poly (F_of i) (num c) (num a0) (N.lxor (num a1) (num a)) (defect_hash i ch2 w inp out) = num b).
  { intros c Hc. destruct (HC c Hc) as (L & B & Q & HQ & HV). split; [apply num_bound; assumption|].
    destruct (polynomials_agree i w u V Q inp out ch2 c a) as (a1 & a0 & b' & E1 & E2 & A1 & A2 & A3 & A4 & A5 & A6 & E3); try assumption.
    fold p l in E1, E2. rewrite HV in E2. injection E2 as <-. exists a1, a0. repeat (split; [assumption|]). symmetry. exact E3. }
  destruct (G c1 ltac:(cbn; auto)) as (D1 & a1 & a0 & E & A1 & A2 & A3 & A4 & A5 & A6 & P1).
  destruct (G c2 ltac:(cbn; auto)) as (D2 & x1 & x0 & E2 & _ & _ & _ & _ & _ & _ & P2). rewrite E in E2. injection E2 as <- <-.
  destruct (G c3 ltac:(cbn; auto)) as (D3 & x1 & x0 & E2 & _ & _ & _ & _ & _ & _ & P3). rewrite E in E2. injection E2 as <- <-.
  assert (NE : forall c c', In c [c1; c2; c3] -> In c' [c1; c2; c3] -> c <> c' -> num c <> num c').
  { intros c c' H1 H2 Hne Eq. apply Hne. destruct (HC c H1) as (L1 & B1 & _), (HC c' H2) as (L2 & B2 & _).
    apply num_inj; try assumption. rewrite L1, L2. reflexivity. }
  inversion ND as [|? ? N1 ND']; subst. inversion ND' as [|? ? N2 ND'']; subst.
  assert (HH : defect_hash i ch2 w inp out < 2 ^ f_n (F_of i)).
  { unfold defect_hash. pose proof (set_ok i) as SF. pose proof (sf_64 i SF) as H64. rewrite <- (sf_n i SF) in H64.
    apply zk_spec_lt; try assumption; [apply (sf_in i SF)| |apply pow2_pos]. apply Forall_forall. intros v Hv. apply in_map_iff in Hv.
    destruct Hv as ([x y] & <- & Hx). pose proof (claims_small i w inp out BW BI BO) as HS. rewrite Forall_forall in HS. destruct (HS _ Hx) as [S1 S2].
    cbn [fst snd] in *. pose proof (F_of_big i) as HB. pose proof (big_field_ok _ HB) as HF. unfold defect.
    rewrite FactorProof.factors_small by assumption. cbn [fst snd].
    apply lxor_lt; [apply bf_mul_lt; try assumption; apply emb_lt; assumption|apply one_lt; assumption]. }
  destruct (three_roots (F_of i) (F_of_big i) (num c1) (num c2) (num c3) (num a0) (N.lxor (num a1) (num a)) (defect_hash i ch2 w inp out) (num b))
    as (Z2 & Z1 & Z0); try assumption.
  - apply num_bound; assumption.
  - apply lxor_lt; apply num_bound; assumption.
  - apply NE; cbn; auto. intros ->. apply N1. cbn. auto.
  - apply NE; cbn; auto. intros ->. apply N1. cbn. auto.
  - apply NE; cbn; auto. intros ->. apply N2. cbn. auto.
  - split; [exact Z2|]. apply lxor_0_eq in Z1. rewrite E. f_equal. f_equal; apply num_inj; try assumption; congruence.
Qed.

(** * C38 *)
Lemma transposed : forall lambda F V ell L, In (lambda, F) levels -> matrix lambda L V -> ell + lambda <= 8 * L ->
  exists rows, column_to_row_major F V ell = Ok rows /\ lenN rows = ell + lambda /\
    forall r, r < ell + lambda -> let x := nth (N.to_nat r) rows 0 in
      x < 2 ^ lambda /\ forall j, j < lambda -> N.testbit x j = bit_at (nth (N.to_nat j) V []) r.
Proof.
  intros lambda F V ell L HL [LV HV] HE. destruct (levels_facts _ _ HL) as (_ & En & _ & _ & _).
  assert (HB : big_field F) by (destruct HL as [E|[E|[E|[]]]]; injection E as _ <-; cbn; auto).
  clear HL. revert LV HV HE. rewrite <- En. clear lambda En. intros LV HV HE.
  exists (tab (ell + f_n F) (rowv (f_n F) V)). split; [|split; [apply lenN_tab|]].
  - apply column_to_row_ok; [exact HB|]. split; [unfold lenN; lia|]. intros j Hj. destruct (HV j Hj) as [H1 H2].
    split; [|exact H2]. unfold lenN, nthN. lia.
  - intros r Hr x. unfold x. change (nth (N.to_nat r) ?l 0) with (nthN l r 0). rewrite nthN_tab by exact Hr. split; [apply rowv_lt|].
    intros j Hj. rewrite rowv_testbit. replace (j <? f_n F) with true by lia. reflexivity.
Qed.
