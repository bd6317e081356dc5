(** The statements of C26 and C27 from Proof/UHashProof.v. *)
From Verif.Model Require Import UHash.
From Verif.Spec Require Import VoleSpec FormatSpec UHashSpec UHashMap.
From Verif.Proof Require Import BaseProof PolyProof FieldProof EmbedProof VoleProps UHashProof.
From Coq Require Import Lia ZifyBool ZifyNat ZifyN.
Ltac Zify.zify_post_hook ::= Z.div_mod_to_equations.

Lemma levels_facts lambda F : In (lambda, F) levels ->
  In F fields_of /\ f_n F = lambda /\ 64 < f_n F /\ field_of lambda = F /\ lambda mod 8 = 0.
Proof.
  intros [E | [E | [E | []]]]; injection E as <- <-; cbn; (split; [tauto|split; [reflexivity|split; [lia|split; reflexivity]]]).
Qed.

Lemma vole_hash_computes : forall lambda F sd x ell, In (lambda, F) levels ->
  ell mod 8 = 0 ->
  5 * (lambda / 8) + 8 <= lenN sd -> bytes_ok sd ->
  (ell + 2 * lambda) / 8 + 2 <= lenN x -> bytes_ok x ->
  vole_hash lambda sd x ell = Ok (vole_hash_spec F sd x ell).
Proof.
  intros lambda F sd x ell HL He H1 H2 H3 H4. destruct (levels_facts _ _ HL) as (A & B & C & D & E).
  unfold vole_hash. rewrite D. apply vole_hash_F_ok; try assumption; rewrite B; [|exact H1]. lia.
Qed.

Lemma xor4 a b c d : N.lxor (N.lxor a b) (N.lxor c d) = N.lxor (N.lxor a c) (N.lxor b d).
Proof. rewrite !N.lxor_assoc. f_equal. rewrite <- !N.lxor_assoc. f_equal. apply N.lxor_comm. Qed.

Lemma to_bytes_xor n a b : to_bytes n (N.lxor a b) = xor_bytes (to_bytes n a) (to_bytes n b).
Proof.
  unfold to_bytes. rewrite upto_eq. induction (Nrange n) as [|i l IH]; [reflexivity|].
  cbn [map xor_bytes zipw]. change (zipw N.lxor) with xor_bytes. f_equal; [|exact IH].
  change 256 with (2 ^ 8). rewrite <- N.pow_mul_r. rewrite <- !N.shiftr_div_pow2, N.shiftr_lxor.
  rewrite <- !N.land_ones. apply N.bits_inj. intros j. rewrite !N.land_spec, !N.lxor_spec, !N.land_spec.
  destruct (N.testbit (N.ones 8) j); rewrite ?andb_true_r, ?andb_false_r; reflexivity.
Qed.

Lemma lenN_to_bytes n a : lenN (to_bytes n a) = n.
Proof. rewrite to_bytes_eq, lenN_le_bytes. lia. Qed.

Lemma vole_spec_linear F sd x y ell : In F fields_of -> bytes_ok sd -> bytes_ok x -> bytes_ok y -> lenN x = lenN y -> 64 <= f_n F ->
  (ell + f_n F) / 8 + f_n F / 8 + 2 <= lenN x ->
  vole_hash_spec F sd (xor_bytes x y) ell = xor_bytes (vole_hash_spec F sd x ell) (vole_hash_spec F sd y ell).
Proof.
  intros HF HS HX HY HL H64 HB. destruct (nb_8 F HF) as (E & G & HO & _).
  unfold vole_hash_spec. cbv zeta. rewrite !xors_eq.
  set (len := (ell + f_n F) / 8) in *. set (n := (len + f_n F / 8 - 1) / (f_n F / 8)). set (nb := f_n F / 8) in *.
  rewrite padded_xor, sub_xor by exact HL.
  pose proof (padded_bytes x len (n * nb) HX) as PX. pose proof (padded_bytes y len (n * nb) HY) as PY.
  assert (PL : lenN (padded x len (n * nb)) = lenN (padded y len (n * nb))).
  { unfold padded. rewrite !lenN_app. f_equal. apply sub_len_eq, HL. }
  generalize dependent (padded x len (n * nb)). intros px PX. generalize dependent (padded y len (n * nb)). intros py PY PL.
  assert (T64 := num_lt64 sd (5 * nb) HS). assert (I64 : In F64 fields_of) by (left; reflexivity).
  rewrite (poly_hash_xor F64), (poly_hash_xor F) by (try assumption; try (apply block_lt; assumption)).
  assert (W : 2 ^ 64 <= 2 ^ f_n F) by (apply N.pow_le_mono_r; [discriminate|exact H64]).
  pose proof (poly_hash_lt F64 _ px (n * (nb / 8)) I64 T64 PX) as Q1. pose proof (poly_hash_lt F64 _ py (n * (nb / 8)) I64 T64 PY) as Q2.
  change (2 ^ f_n F64) with (2 ^ 64) in Q1, Q2.
  pose proof (poly_hash_lt F _ px n HF (block_lt F sd 4 HF HS) PX) as Q3. pose proof (poly_hash_lt F _ py n HF (block_lt F sd 4 HF HS) PY) as Q4.
  generalize dependent (poly_hash F64 (num (sub sd (5 * nb) 8)) px (n * (nb / 8))). intros a Q1.
  generalize dependent (poly_hash F64 (num (sub sd (5 * nb) 8)) py (n * (nb / 8))). intros b Q2.
  generalize dependent (poly_hash F (block F sd 4) px n). intros c Q3.
  generalize dependent (poly_hash F (block F sd 4) py n). intros d Q4.
  assert (a < 2 ^ f_n F) by (clear - Q1 W; lia). assert (b < 2 ^ f_n F) by (clear - Q2 W; lia).
  pose proof (block_lt F sd 0 HF HS). pose proof (block_lt F sd 1 HF HS). pose proof (block_lt F sd 2 HF HS). pose proof (block_lt F sd 3 HF HS).
  rewrite !bf_mul_lxor_r by assumption.
  rewrite (xor4 (bf_mul F (block F sd 0) c)), (xor4 (bf_mul F (block F sd 2) c)).
  generalize (N.lxor (bf_mul F (block F sd 0) c) (bf_mul F (block F sd 1) a)) (N.lxor (bf_mul F (block F sd 0) d) (bf_mul F (block F sd 1) b)).
  generalize (N.lxor (bf_mul F (block F sd 2) c) (bf_mul F (block F sd 3) a)) (N.lxor (bf_mul F (block F sd 2) d) (bf_mul F (block F sd 3) b)).
  intros u1 u2 u3 u4. rewrite !to_bytes_xor. rewrite <- xor_bytes_app by (rewrite !lenN_to_bytes; reflexivity).
  assert (LA : lenN (sub x len (nb + 2)) = nb + 2) by (apply sub_len; clear - HB; lia).
  assert (LB : lenN (sub y len (nb + 2)) = nb + 2) by (apply sub_len; rewrite <- HL; clear - HB; lia).
  assert (LC : forall p q, lenN (to_bytes nb p ++ to_bytes 2 q) = nb + 2) by (intros; rewrite lenN_app, !lenN_to_bytes; reflexivity).
  generalize dependent (sub x len (nb + 2)). intros sx LA. generalize dependent (sub y len (nb + 2)). intros sy LB.
  pose proof (LC u3 u1) as L1. pose proof (LC u4 u2) as L2.
  generalize dependent (to_bytes nb u3 ++ to_bytes 2 u1). intros p L1. generalize dependent (to_bytes nb u4 ++ to_bytes 2 u2). intros q L2.
  rewrite !xor_bytes_assoc. f_equal. rewrite <- !xor_bytes_assoc. f_equal. apply xor_bytes_comm.
Qed.

Lemma vole_hash_is_linear : forall lambda F sd x y ell, In (lambda, F) levels ->
  ell mod 8 = 0 ->
  5 * (lambda / 8) + 8 <= lenN sd -> bytes_ok sd ->
  (ell + 2 * lambda) / 8 + 2 <= lenN x -> lenN y = lenN x -> bytes_ok x -> bytes_ok y ->
  exists hx hy, vole_hash lambda sd x ell = Ok hx /\ vole_hash lambda sd y ell = Ok hy /\
    vole_hash lambda sd (xors x y) ell = Ok (xors hx hy) /\
    lenN hx = lambda / 8 + 2 /\ lenN hy = lambda / 8 + 2.
Proof.
  intros lambda F sd x y ell HL He H1 H2 H3 HXY H4 H5. destruct (levels_facts _ _ HL) as (A & B & C & D & E).
  assert (HLX : (ell + f_n F) / 8 + f_n F / 8 + 2 <= lenN x) by (rewrite B; lia).
  exists (vole_hash_spec F sd x ell), (vole_hash_spec F sd y ell). rewrite !xors_eq.
  split; [apply vole_hash_computes; assumption|]. split; [apply vole_hash_computes; try assumption; rewrite HXY; assumption|].
  split.
  - rewrite (vole_hash_computes lambda F) by (try assumption; rewrite ?lenN_xor by (symmetry; assumption); try assumption; apply bytes_ok_xor; assumption).
    f_equal. apply vole_spec_linear; try assumption; [symmetry; assumption|lia].
  - rewrite <- B. split; apply vole_hash_spec_len; try assumption. rewrite HXY. exact HLX.
Qed.

(** ** C27 *)
Lemma zk_hash_computes : forall lambda F sd xs x1, In (lambda, F) levels ->
  3 * (lambda / 8) + 8 <= lenN sd -> bytes_ok sd ->
  Forall (fun x => x < 2 ^ lambda) xs ->
  exists c, zk_hash_init F sd = Ok c /\
    zk_hash_finalize F (fold_left (zk_hash_update F) xs c) x1 = to_bytes (lambda / 8) (zk_hash_spec F sd xs x1).
Proof.
  intros lambda F sd xs x1 HL H1 H2 H3. destruct (levels_facts _ _ HL) as (A & B & C & D & E). subst lambda.
  apply zk_hash_ok; try assumption. lia.
Qed.

Lemma zk_hash_is_linear : forall lambda F sd xs ys x1 y1 c, In (lambda, F) levels ->
  3 * (lambda / 8) + 8 <= lenN sd -> bytes_ok sd ->
  Forall (fun x => x < 2 ^ lambda) xs -> Forall (fun x => x < 2 ^ lambda) ys -> length ys = length xs ->
  x1 < 2 ^ lambda -> y1 < 2 ^ lambda -> c < 2 ^ lambda ->
  exists ctx, zk_hash_init F sd = Ok ctx /\
    let hash zs z := num (zk_hash_finalize F (fold_left (zk_hash_update F) zs ctx) z) in
    hash (map (fun '(x, y) => N.lxor x (bf_mul F c y)) (combine xs ys)) (N.lxor x1 (bf_mul F c y1)) =
    N.lxor (hash xs x1) (bf_mul F c (hash ys y1)).
Proof.
  intros lambda F sd xs ys x1 y1 c HL H1 H2 H3 H4 H5 H6 H7 H8. destruct (levels_facts _ _ HL) as (A & B & C & D & E). subst lambda.
  destruct (nb_8 F A) as (Ea & G & HO & _). assert (C' : 64 <= f_n F) by lia.
  assert (HC : forall zs z, Forall (fun x => x < 2 ^ f_n F) zs -> z < 2 ^ f_n F ->
    num (zk_hash_finalize F (fold_left (zk_hash_update F) zs (mkZk 0 0 (block F sd 2) (num (sub sd (3 * (f_n F / 8)) 8)) (block F sd 0) (block F sd 1))) z) =
    zk_hash_spec F sd zs z).
  { intros zs z Hzs Hz. destruct (zk_hash_ok F A C' sd H1 H2 zs z Hzs) as (c' & E1 & E2).
    rewrite zk_init_ok in E1 by assumption. injection E1 as <-. rewrite E2, to_bytes_eq. change num with le_val. apply le_val_le_bytes.
    eapply N.lt_le_trans; [apply zk_spec_lt; assumption|]. change 256 with (2 ^ 8). rewrite <- N.pow_mul_r.
    apply N.pow_le_mono_r; [discriminate|]. lia. }
  eexists. split; [apply zk_init_ok; assumption|]. cbv zeta.
  assert (HM : Forall (fun x => x < 2 ^ f_n F) (map (bf_mul F c) ys)).
  { apply Forall_forall. intros v Hv. apply in_map_iff in Hv. destruct Hv as (w & <- & Hw). rewrite Forall_forall in H4.
    apply bf_mul_lt; auto. }
  assert (EM : map (fun '(x, y) => N.lxor x (bf_mul F c y)) (combine xs ys) =
               map (fun '(x, y) => N.lxor x y) (combine xs (map (bf_mul F c) ys))).
  { clear. revert ys. induction xs as [|x xs IH]; intros [|y ys]; cbn [combine map]; try reflexivity. f_equal. apply IH. }
  assert (HML : lenN xs = lenN (map (bf_mul F c) ys)) by (rewrite lenN_map; unfold lenN; rewrite H5; reflexivity).
  rewrite EM, !HC; try assumption.
  - rewrite zk_spec_add; try assumption; [|apply bf_mul_lt; assumption]. f_equal. apply zk_spec_mul; assumption.
  - apply Forall_forall. intros v Hv. apply in_map_iff in Hv. destruct Hv as ((a, b) & <- & Hw).
    pose proof (in_combine_l _ _ _ _ Hw) as Ha. pose proof (in_combine_r _ _ _ _ Hw) as Hb.
    rewrite Forall_forall in H3, HM. apply lxor_lt; auto.
  - apply lxor_lt; [assumption|apply bf_mul_lt; assumption].
Qed.
