(** The statements of C49 from Proof/CountProof.v. *)
From Verif.Model Require Import Base Params Fields UHash FaestAes.
From Verif.Spec Require Import FormatSpec VoleSpec OwfSpec UHashSpec UHashMap ConstraintSpec ConstraintMap ProofSpec CountSpec.
From Verif.Proof Require Import BaseProof PolyProof FieldProof EmbedProof VoleProps UHashProof UHashProps WitnessProof WitnessProps RowsProof ProveProof AgreeProps RootProof CountProof.
From Coq Require Import Lia ZifyBool ZifyNat ZifyN.
Ltac Zify.zify_post_hook ::= Z.div_mod_to_equations.

Lemma vole_number F ell : 64 <= f_n F -> In F fields_of -> ell <= 2 ^ 29 ->
  let Q := 2 ^ f_n F in let nb := f_n F / 8 in let n := ((ell + f_n F) / 8 + nb - 1) / nb in
  (Q * Q) * (Q * 2 ^ 64) * 2 ^ (f_n F - 16) + (Q * Q) * (Q * Q) * ((n - 1) * (n * (nb / 8) - 1)) <= 2 ^ (4 * f_n F + 49).
Proof.
  intros H64 HI He Q nb n. unfold Q.
  assert (B : (n - 1) * (n * (nb / 8) - 1) <= 2 ^ 48).
  { assert (n <= 2 ^ 23 + 4 /\ nb / 8 <= 4 /\ (8 <= nb / 8 * 4 -> n <= 2 ^ 22 + 4 \/ nb / 8 <= 2)) as (N1 & N2 & N3).
    { subst n nb. destruct HI as [<-|[<-|[<-|[<-|[]]]]]; cbn [f_n F64 F128 F192 F256] in *; try change (64 / 8) with 8; try change (128 / 8) with 16; try change (192 / 8) with 24; try change (256 / 8) with 32. all: lia. }
    clearbody n nb. clear - N1 N2 N3. generalize dependent (nb / 8). intros k N2 N3.
    assert (k <= 2 \/ k = 3 \/ k = 4) as [K|[->| ->]] by lia; nia. }
  replace (2 ^ f_n F * 2 ^ f_n F * (2 ^ f_n F * 2 ^ 64) * 2 ^ (f_n F - 16)) with (2 ^ (4 * f_n F) * 2 ^ 48).
  2:{ rewrite <- !N.pow_add_r. f_equal. lia. }
  replace (2 ^ f_n F * 2 ^ f_n F * (2 ^ f_n F * 2 ^ f_n F)) with (2 ^ (4 * f_n F)) by (rewrite <- !N.pow_add_r; f_equal; lia).
  rewrite N.pow_add_r. change (2 ^ 49) with (2 ^ 48 + 2 ^ 48). rewrite N.mul_add_distr_l. apply N.add_le_mono_l. apply N.mul_le_mono_l, B.
Qed.

Lemma vole_collisions : forall lambda F x y ell, In (lambda, F) levels -> ell mod 8 = 0 -> ell <= 2 ^ 29 ->
  lenN x = (ell + 2 * lambda) / 8 + 2 -> lenN y = (ell + 2 * lambda) / 8 + 2 -> bytes_ok x -> bytes_ok y -> x <> y ->
  at_most (2 ^ (4 * lambda + 49)) (fun sd => lenN sd = 5 * (lambda / 8) + 8 /\ bytes_ok sd /\
    exists h, vole_hash lambda sd x ell = Ok h /\ vole_hash lambda sd y ell = Ok h).
Proof.
  intros lambda F x y ell HL E8 HE LX LY BX BY NE. destruct (levels_facts _ _ HL) as (HI & En & H64 & _ & M8).
  destruct (level_field _ _ HL) as (cols & HFF). apply covered_at_most.
  assert (H64' : 64 <= f_n F) by lia.
  assert (LZ : lenN (xor_bytes x y) = (ell + f_n F) / 8 + f_n F / 8 + 2) by (rewrite lenN_xor by congruence; rewrite LX, En; lia).
  assert (NZ : ~ Forall (fun b => b = 0) (xor_bytes x y)) by (intros K; apply NE; apply zeros_xor; [congruence|exact K]).
  pose proof (vole_covered F cols HFF HI H64' ell (xor_bytes x y) LZ (bytes_ok_xor _ _ BX BY) NZ) as C.
  eapply covered_le; [|eapply covered_impl; [|exact C]].
  - rewrite <- En. apply vole_number; assumption.
  - cbn beta. rewrite En. intros sd (HS & HB & h & H1 & H2). split; [exact HS|]. split; [exact HB|].
    rewrite (vole_hash_computes lambda F) in H1, H2 by (try assumption; lia).
    rewrite vole_spec_linear by (try assumption; try congruence; rewrite En; lia).
    injection H1 as ->. injection H2 as ->. apply xor_self_zeros.
Qed.

Lemma zk_number Q m : m <= 2 ^ 32 -> Q * Q * 2 ^ 64 + Q * Q * ((m - 1) * (m - 1)) <= Q * Q * 2 ^ 65.
Proof.
  intros H. change (2 ^ 65) with (2 ^ 64 + 2 ^ 64). rewrite N.mul_add_distr_l. apply N.add_le_mono_l, N.mul_le_mono_l.
  change (2 ^ 64) with (2 ^ 32 * 2 ^ 32). apply N.mul_le_mono; lia.
Qed.

Lemma xor_zero xs ys : length xs = length ys -> Forall (fun v => v = 0) (map (fun '(a, b) => N.lxor a b) (combine xs ys)) -> xs = ys.
Proof.
  revert ys. induction xs as [|x xs IH]; intros [|y ys] HL HZ; cbn in HL; try lia; [reflexivity|].
  cbn [combine map] in HZ. inversion HZ as [|? ? A B]; subst. apply N.lxor_eq in A. subst. f_equal. apply IH; [lia|exact B].
Qed.

Lemma zk_collisions : forall lambda F xs ys x1 y1, In (lambda, F) levels ->
  length xs = length ys -> lenN xs <= 2 ^ 32 ->
  Forall (fun v => v < 2 ^ lambda) xs -> Forall (fun v => v < 2 ^ lambda) ys -> x1 < 2 ^ lambda -> y1 < 2 ^ lambda ->
  (xs, x1) <> (ys, y1) ->
  at_most (2 ^ (2 * lambda + 65)) (fun sd => lenN sd = 3 * (lambda / 8) + 8 /\ bytes_ok sd /\
    exists c, zk_hash_init F sd = Ok c /\
      zk_hash_finalize F (fold_left (zk_hash_update F) xs c) x1 = zk_hash_finalize F (fold_left (zk_hash_update F) ys c) y1).
Proof.
  intros lambda F xs ys x1 y1 HL LE LB SX SY H1 H2 NE. destruct (levels_facts _ _ HL) as (HI & En & H64 & _ & M8).
  destruct (level_field _ _ HL) as (cols & HFF). apply covered_at_most. assert (H64' : 64 <= f_n F) by lia.
  subst lambda.
  assert (LE' : lenN xs = lenN ys) by (unfold lenN; congruence).
  set (ds := map (fun '(a, b) => N.lxor a b) (combine xs ys)).
  assert (LD : lenN ds = lenN xs) by (unfold ds, lenN; rewrite map_length, combine_length; lia).
  assert (SD : Forall (fun v => v < 2 ^ f_n F) ds).
  { apply Forall_forall. intros v Hv. apply in_map_iff in Hv. destruct Hv as ((a, b) & <- & Hw).
    pose proof (in_combine_l _ _ _ _ Hw) as Ha. pose proof (in_combine_r _ _ _ _ Hw) as Hb. rewrite Forall_forall in SX, SY. apply lxor_lt; auto. }
  assert (K : forall sd, lenN sd = 3 * (f_n F / 8) + 8 -> bytes_ok sd ->
    (exists c, zk_hash_init F sd = Ok c /\
      zk_hash_finalize F (fold_left (zk_hash_update F) xs c) x1 = zk_hash_finalize F (fold_left (zk_hash_update F) ys c) y1) ->
    zk_hash_spec F sd ds (N.lxor x1 y1) = 0).
  { intros sd HS HB (c & E & EQ). assert (HS' : 3 * (f_n F / 8) + 8 <= lenN sd) by lia.
    destruct (zk_hash_ok F HI H64' sd HS' HB xs x1 SX) as (c1 & E1 & F1). destruct (zk_hash_ok F HI H64' sd HS' HB ys y1 SY) as (c2 & E2 & F2).
    rewrite E in E1, E2. injection E1 as <-. injection E2 as <-. rewrite F1, F2 in EQ.
    unfold ds. rewrite zk_spec_add by assumption. apply (f_equal num) in EQ. change num with le_val in EQ. rewrite !to_bytes_eq in EQ.
    destruct (nb_8 F HI) as (E8 & _).
    assert (P : 2 ^ f_n F <= 256 ^ N.of_nat (N.to_nat (f_n F / 8))).
    { change 256 with (2 ^ 8). rewrite <- N.pow_mul_r. apply N.pow_le_mono_r; [discriminate|]. lia. }
    rewrite !le_val_le_bytes in EQ by (eapply N.lt_le_trans; [apply zk_spec_lt; assumption|exact P]).
    rewrite EQ. apply N.lxor_nilpotent. }
  destruct (Forall_dec (fun v => v = 0) (fun v => N.eq_dec v 0) ds) as [Z|Z].
  - assert (EX : xs = ys) by (apply xor_zero; assumption). subst ys. exists []. split; [apply N.le_0_l|]. intros sd (HS & HB & HC).
    specialize (K sd HS HB HC). exfalso. apply NE. f_equal. apply N.lxor_eq. rewrite <- K. symmetry.
    rewrite (zk_spec_ev F cols HFF HI H64') by assumption.
    assert (EV : forall s, s < 2 ^ f_n F -> ev F s 0 ds = 0).
    { intros s Hs. unfold ev. clear - Z HFF Hs. induction Z as [|v l -> Z IH]; [reflexivity|]. cbn [fold_left]. rewrite bf_mul_0_l by (try exact (proj1 HFF); exact Hs). exact IH. }
    rewrite !EV by (try (apply block_lt; assumption); apply t_small; assumption).
    rewrite !bf_mul_0_r by (try exact (proj1 HFF); apply block_lt; assumption). apply N.lxor_0_l.
  - eapply covered_le; [|eapply covered_impl; [|exact (zk_covered F cols HFF HI H64' ds (N.lxor x1 y1) SD Z)]].
    + eapply N.le_trans; [apply zk_number; rewrite LD; exact LB|]. rewrite <- !N.pow_add_r. apply N.pow_le_mono_r; [discriminate|]. lia.
    + intros sd (HS & HB & HC). split; [exact HS|]. split; [exact HB|]. apply K; assumption.
Qed.

Lemma set_level i : In (p_lambda (param_of i), F_of i) levels.
Proof. destruct i; cbn; auto. Qed.
Lemma claims_number i : (lenN (ixs i) <=? 2 ^ 32) = true.
Proof. destruct i; vm_compute; reflexivity. Qed.
Lemma defects_small i w inp out : bytes_ok w -> bytes_ok inp -> bytes_ok out ->
  Forall (fun v => v < 2 ^ f_n (F_of i)) (map (defect (F_of i)) (claims i w inp out)).
Proof.
  intros BW BI BO. apply Forall_forall. intros v Hv. apply in_map_iff in Hv.
  destruct Hv as ([x y] & <- & Hx). pose proof (claims_small i w inp out BW BI BO) as HS. rewrite Forall_forall in HS. destruct (HS _ Hx) as [S1 S2].
  cbn [fst snd] in *. pose proof (F_of_big i) as HB. pose proof (big_field_ok _ HB) as HF. unfold defect.
  rewrite FactorProof.factors_small by assumption. cbn [fst snd].
  apply lxor_lt; [apply bf_mul_lt; try assumption; apply emb_lt; assumption|apply one_lt; assumption].
Qed.

Lemma witness_covered : forall i w inp out, lenN w = p_l (param_of i) / 8 -> bytes_ok w ->
  lenN inp = owf_input_size i -> bytes_ok inp -> lenN out = owf_input_size i -> bytes_ok out ->
  Exists (fun xy => defect (F_of i) xy <> 0) (claims i w inp out) ->
  covered (2 ^ (2 * p_lambda (param_of i) + 65)) (fun sd => lenN sd = 3 * (p_lambda (param_of i) / 8) + 8 /\ bytes_ok sd /\
    defect_hash i sd w inp out = 0).
Proof.
  intros i w inp out LW BW LI BI LO BO HE. pose proof (set_level i) as HL. destruct (levels_facts _ _ HL) as (HI & En & H64 & _ & _).
  destruct (level_field _ _ HL) as (cols & HFF). assert (H64' : 64 <= f_n (F_of i)) by lia.
  set (ds := map (defect (F_of i)) (claims i w inp out)).
  assert (LD : lenN ds <= 2 ^ 32).
  { pose proof (sf_l8 i (set_ok i)) as E8. pose proof (val_bits i w inp out BW BI BO ltac:(lia) LI LO) as E. apply (f_equal lenN) in E. rewrite !lenN_map in E.
    unfold ds. rewrite lenN_map, <- E. apply N.leb_le, claims_number. }
  assert (NZ : ~ Forall (fun v => v = 0) ds).
  { intros K. apply Exists_exists in HE. destruct HE as (xy & Hin & Hne). apply Hne. rewrite Forall_forall in K. apply K. unfold ds. apply in_map, Hin. }
  eapply covered_le; [|eapply covered_impl; [|exact (zk_covered (F_of i) cols HFF HI H64' ds 0 (defects_small i w inp out BW BI BO) NZ)]].
  - eapply N.le_trans; [apply zk_number, LD|]. rewrite <- !N.pow_add_r. apply N.pow_le_mono_r; [discriminate|]. lia.
  - intros sd (HS & HB & HC). rewrite En. auto.
Qed.
Lemma witness_misses : forall i w inp out, lenN w = p_l (param_of i) / 8 -> bytes_ok w ->
  lenN inp = owf_input_size i -> bytes_ok inp -> lenN out = owf_input_size i -> bytes_ok out ->
  Exists (fun xy => defect (F_of i) xy <> 0) (claims i w inp out) ->
  at_most (2 ^ (2 * p_lambda (param_of i) + 65)) (fun sd => lenN sd = 3 * (p_lambda (param_of i) / 8) + 8 /\ bytes_ok sd /\
    defect_hash i sd w inp out = 0).
Proof. intros. apply covered_at_most, witness_covered; assumption. Qed.

(** * Wrong witnesses in the proof of the constraints *)
Lemma covered_dep {A B} n m (P : A -> Prop) (Q : A -> B -> Prop) : covered n P -> (forall x, P x -> covered m (Q x)) ->
  (forall x, P x \/ ~ P x) -> covered (n * m) (fun xy => P (fst xy) /\ Q (fst xy) (snd xy)).
Proof.
  intros (L & HL & HI) HQ HD. assert (G : exists M, lenN M <= lenN L * m /\ forall x y, In x L -> P x -> Q x y -> In (x, y) M).
  { clear HL HI. induction L as [|x L (M & LM & HM)]; [exists []; split; [apply N.le_0_l|intros ? ? []]|].
    destruct (HD x) as [Px|Px].
    - destruct (HQ x Px) as (K & LK & HK). exists (map (pair x) K ++ M). split.
      + rewrite lenN_app, lenN_map, lenN_cons. clear - LK LM. nia.
      + intros x' y [<-|Hx] Px' Qy; apply in_or_app; [left; apply in_map, HK, Qy|right; apply HM; assumption].
    - exists M. split; [rewrite lenN_cons; clear - LM; nia|]. intros x' y [<-|Hx] Px' Qy; [contradiction|apply HM; assumption]. }
  destruct G as (M & LM & HM). exists M. split; [eapply N.le_trans; [exact LM|apply N.mul_le_mono_r, HL]|].
  intros [x y] [Px Qy]. cbn [fst snd] in *. apply HM; auto.
Qed.

Lemma poly_ev F cols (HFF : field_facts F cols) D c0 c1 c2 b : D < 2 ^ f_n F -> c0 < 2 ^ f_n F -> c1 < 2 ^ f_n F -> c2 < 2 ^ f_n F ->
  b = challenge_poly F D c0 c1 c2 -> ev F D 0 [c2; N.lxor c1 c2; N.lxor c0 b] = 0.
Proof.
  intros HD H0 H1 H2 ->. pose proof (proj1 HFF) as HF. unfold ev, challenge_poly. cbn [fold_left].
  assert (HDD : bf_mul F D D < 2 ^ f_n F) by (apply bf_mul_lt; assumption).
  assert (H2D : bf_mul F c2 D < 2 ^ f_n F) by (apply bf_mul_lt; assumption).
  rewrite (bf_mul_0_l F D HF HD), N.lxor_0_l.
  rewrite (bf_mul_comm F D c1), (bf_mul_lxor_l F (bf_mul F D D) D c2) by assumption.
  rewrite (bf_mul_lxor_l F (bf_mul F c2 D)) by (try assumption; apply lxor_lt; assumption).
  rewrite (bf_mul_lxor_l F c1 c2) by assumption. rewrite (bf_mul_assoc F c2 D D) by assumption.
  rewrite (bf_mul_comm F c2 (bf_mul F D D)), (bf_mul_comm F c2 D) by assumption.
  generalize (bf_mul F (bf_mul F D D) c2) (bf_mul F c1 D) (bf_mul F D c2). intros x y z.
  apply N.bits_inj. intros j. rewrite !N.lxor_spec, N.bits_0. do 4 (destruct (N.testbit _ _)); reflexivity.
Qed.

Lemma byte_dec (x : N) : {x < 256} + {~ x < 256}.
Proof. destruct (x <? 256) eqn:E; [left; apply N.ltb_lt, E|right; apply N.ltb_ge in E; lia]. Defined.

Lemma wrong_witness : forall i w u V inp out a b, let p := param_of i in let n := p_lambda p in let l := p_l p in
  lenN w = l / 8 -> bytes_ok w ->
  lenN inp = owf_input_size i -> bytes_ok inp -> lenN out = owf_input_size i -> bytes_ok out ->
  l + n <= 8 * lenN u -> bytes_ok u -> matrix n (lenN u) V ->
  (forall c, lenN (a c) = n / 8 /\ bytes_ok (a c)) ->
  Exists (fun xy => defect (F_of i) xy <> 0) (claims i w inp out) ->
  at_most (2 ^ (3 * n + 66)) (fun '(c2, c3) => lenN c2 = 3 * (n / 8) + 8 /\ bytes_ok c2 /\ lenN c3 = n / 8 /\ bytes_ok c3 /\
    exists Q, correlated n c3 u V Q /\ aes_verify p (xors w (firstn (N.to_nat (l / 8)) u)) Q c2 c3 (a c2) inp out = Ok (b c2)).
Proof.
  intros i w u V inp out a b p n l LW BW LI BI LO BO HL BU HV HA HE. pose proof (set_level i) as HLv. destruct (levels_facts _ _ HLv) as (HI & En & H64 & _ & M8).
  destruct (level_field _ _ HLv) as (cols & HFF). fold p n in HLv, En, M8. set (F := F_of i) in *. assert (HN : 8 * (n / 8) = n) by lia.
  assert (CB : forall k, covered (2 ^ (8 * k)) (fun c => lenN c = k /\ bytes_ok c)).
  { intros k. apply (covered_map _ (to_bytes k) (fun x => x < 2 ^ (8 * k))); [|apply covered_below].
    intros c [L B]. exists (num c). split.
    - rewrite num_eq, <- L. pose proof (le_val_bound2 c B) as K. eapply N.lt_le_trans; [exact K|]. apply N.le_refl.
    - pose proof (to_bytes_num c 0 k B ltac:(lia)) as K. rewrite sub_eq, dropN_0, takeN_all in K by lia. exact K. }
  set (h := fun c2 => defect_hash i c2 w inp out).
  set (P := fun c2 c => match aes_prove p w u V inp out c2 with
    | Ok (a1, a0) => (num a1 <? 2 ^ n) && (num a0 <? 2 ^ n) && (num (b c2) <? 2 ^ n) &&
        (ev F c 0 [h c2; N.lxor (N.lxor (num a1) (num (a c2))) (h c2); N.lxor (num a0) (num (b c2))] =? 0)
    | _ => false end).
  assert (HH : forall c2, bytes_ok c2 -> h c2 < 2 ^ n).
  { intros c2 B2. rewrite <- En. unfold h, defect_hash. fold F. apply zk_spec_lt; [exact HI|clear - H64; lia|exact B2|exact (defects_small i w inp out BW BI BO)|apply pow2_pos]. }
  assert (HAB : forall c, num (a c) < 2 ^ n) by (intros c; destruct (HA c); rewrite <- En; apply num_bound; assumption).
  (* what is accepted is a root *)
  assert (K : forall c2 c3 Q, lenN c2 = 3 * (n / 8) + 8 -> bytes_ok c2 -> lenN c3 = n / 8 -> bytes_ok c3 -> correlated n c3 u V Q ->
    aes_verify p (xors w (firstn (N.to_nat (l / 8)) u)) Q c2 c3 (a c2) inp out = Ok (b c2) -> P c2 (num c3) = true).
  { intros c2 c3 Q L2 B2 L3 B3 HQ EV. destruct (HA c2) as [LA BA].
    destruct (polynomials_agree i w u V Q inp out c2 c3 (a c2) LW BW LI BI LO BO HL BU HV HQ ltac:(fold p n; lia) B2 L3 B3 LA BA)
      as (a1 & a0 & b' & E1 & E2 & A1 & A2 & A3 & A4 & A5 & A6 & E3).
    fold p l in E1, E2. rewrite EV in E2. injection E2 as <-. unfold P. rewrite E1.
    pose proof (num_bound i a1 A1 A2) as N1. pose proof (num_bound i a0 A3 A4) as N0. pose proof (num_bound i (b c2) A5 A6) as Nb. pose proof (num_bound i c3 L3 B3) as N3.
    fold F in N1, N0, Nb, N3. rewrite En in N1, N0, Nb.
    rewrite !(proj2 (N.ltb_lt _ _)) by assumption. cbn [andb]. apply N.eqb_eq. apply (poly_ev F cols HFF); try assumption; rewrite En; try assumption; [apply lxor_lt; auto|apply HH; assumption]. }
  assert (R : forall c2, bytes_ok c2 -> h c2 <> 0 -> covered 2 (fun c3 => lenN c3 = n / 8 /\ bytes_ok c3 /\ P c2 (num c3) = true)).
  { intros c2 B2 NZ. apply (covered_map _ (to_bytes (n / 8)) (fun c => c < 2 ^ n /\ P c2 c = true)).
    - intros c3 (L3 & B3 & HP). exists (num c3). split; [split; [|exact HP]|].
      + pose proof (num_bound i c3 L3 B3) as N3. fold F in N3. rewrite En in N3. exact N3.
      + pose proof (to_bytes_num c3 0 (n / 8) B3 ltac:(lia)) as K'. rewrite sub_eq, dropN_0, takeN_all in K' by lia. exact K'.
    - unfold P. destruct (aes_prove p w u V inp out c2) as [[a1 a0]|]; [|exists []; split; [apply N.le_0_l|intros ? [_ X]; discriminate X]].
      destruct (num a1 <? 2 ^ n) eqn:T1; [|exists []; split; [apply N.le_0_l|intros ? [_ X]; discriminate X]].
      destruct (num a0 <? 2 ^ n) eqn:T2; [|exists []; split; [apply N.le_0_l|intros ? [_ X]; discriminate X]].
      destruct (num (b c2) <? 2 ^ n) eqn:T3; [|exists []; split; [apply N.le_0_l|intros ? [_ X]; discriminate X]].
      apply N.ltb_lt in T1, T2, T3. cbn [andb].
      pose proof (roots_covered F cols HFF n [h c2; N.lxor (N.lxor (num a1) (num (a c2))) (h c2); N.lxor (num a0) (num (b c2))]) as RC.
      apply RC; [rewrite En; apply N.le_refl| |intros X; inversion X; contradiction].
      rewrite En. pose proof (HH c2 B2) as T4. pose proof (HAB c2) as T5. clear - T1 T2 T3 T4 T5.
      apply Forall_cons; [exact T4|]. apply Forall_cons; [apply lxor_lt; [apply lxor_lt; assumption|exact T4]|].
      apply Forall_cons; [apply lxor_lt; assumption|apply Forall_nil]. }
  apply covered_at_most.
  assert (C1 := covered_prod _ _ _ _ (witness_covered i w inp out LW BW LI BI LO BO HE) (CB (n / 8))). cbn beta in C1. fold p n in C1.
  assert (C2 : covered (2 ^ (8 * (3 * (n / 8) + 8)) * 2) (fun cc => (lenN (fst cc) = 3 * (n / 8) + 8 /\ bytes_ok (fst cc) /\ h (fst cc) <> 0) /\
      (lenN (snd cc) = n / 8 /\ bytes_ok (snd cc) /\ P (fst cc) (num (snd cc)) = true))).
  { apply (covered_dep _ _ (fun c2 => lenN c2 = 3 * (n / 8) + 8 /\ bytes_ok c2 /\ h c2 <> 0) (fun c2 c3 => lenN c3 = n / 8 /\ bytes_ok c3 /\ P c2 (num c3) = true)).
    - refine (covered_impl _ _ _ _ (CB (3 * (n / 8) + 8))). tauto.
    - intros c2 (_ & B2 & NZ). apply R; assumption.
    - intros c2. destruct (N.eq_dec (lenN c2) (3 * (n / 8) + 8)) as [A|A]; [|right; tauto].
      destruct (Forall_dec (fun x => x < 256) byte_dec c2) as [B|B]; [|right; unfold bytes_ok; tauto].
      destruct (N.eq_dec (h c2) 0) as [C|C]; [right; tauto|left; auto]. }
  refine (covered_le _ _ _ _ (covered_impl _ _ _ _ (covered_or _ _ _ _ C1 C2))).
  - replace (8 * (3 * (n / 8) + 8)) with (3 * n + 64) by lia. rewrite HN.
    rewrite <- N.pow_add_r. replace (2 * n + 65 + n) with (3 * n + 64 + 1) by (clear; lia). replace (3 * n + 66) with (3 * n + 64 + 2) by (clear; lia).
    rewrite !(N.pow_add_r 2 (3 * n + 64)). generalize (2 ^ (3 * n + 64)). clear. intros X. change (2 ^ 1) with 2. change (2 ^ 2) with 4. lia.
  - intros [c2 c3] (L2 & B2 & L3 & B3 & Q & HQ & EV). cbn [fst snd]. destruct (N.eq_dec (h c2) 0) as [Z|Z]; [left|right]; [tauto|].
    split; [tauto|]. split; [exact L3|]. split; [exact B3|]. exact (K c2 c3 Q L2 B2 L3 B3 HQ EV).
Qed.
