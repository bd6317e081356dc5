(** The prover's and the verifier's values as hashes, and the relation between them. *)
From Verif.Model Require Import Aes Vole UHash FaestAes.
From Verif.Spec Require Import AesSpec OwfSpec ConstraintSpec ConstraintMap UHashSpec VoleSpec.
From Verif.Proof Require Import BaseProof PolyProof FieldProof EmbedProof AesProof PrgProof UHashProof ClaimProof WitnessProof DefectProof WitnessProps
  VoleProof VoleProps CorrectProof WireProof ConsProof KeyWireProof KeyBackProof ConstrProof FactorProof RowsProof.
From Coq Require Import Lia ZifyBool ZifyNat ZifyN.
Ltac Zify.zify_post_hook ::= Z.div_mod_to_equations.

Section Set_.
Variable i : paramid.
Local Notation p := (param_of i).
Local Notation R := (cipher_of i).
Local Notation F := (F_of i).
Local Notation n := (p_lambda (param_of i)).
Local Notation l := (p_l (param_of i)).

(** * Parameters *)
Record set_facts : Prop := mkSet {
  sf_n : f_n F = n; sf_F : field_of n = F; sf_in : In F fields_of; sf_64 : 64 <= n; sf_l8 : l mod 8 = 0; sf_n8 : n mod 8 = 0;
  sf_em : (p_Lke p =? 0) = is_em i; sf_lenc : is_em i = true -> p_Lenc p = l;
  sf_in_em : is_em i = true -> 4 * Nk R = owf_input_size i /\ 4 * Nb R = owf_input_size i;
  sf_in_aes : is_em i = false -> 16 * aes_blocks p = owf_input_size i }.
Lemma set_ok : set_facts.
Proof.
  destruct (field_of_in n) as (A & _ & _); [destruct i; cbn; tauto|].
  assert (E : field_of n = F) by (destruct i; reflexivity). rewrite E in A.
  constructor; [|exact E|exact A|..]; clear A; destruct i; first [reflexivity|discriminate|(intros E'; first [discriminate E'|split; reflexivity|reflexivity])].
Qed.

Definition val (inp out : list N) (W : N -> N) (k : N) (x : ix) : N * N :=
  if is_em i then eval F p R (concat (KeyExpansion R inp)) out W k x else aval F p R inp out W k x.
Definition ixs : list ix := if is_em i then eix R 0 else aix p R (groups i).

Lemma val_T D (HD : D < 2 ^ f_n F) inp out Q V S : (forall j, T F D (Q j) (V j) (S j)) -> forall x,
  T F D (fst (val inp out Q D x)) (fst (val inp out V 0 x)) (fst (val inp out S 1 x)) /\
  T F D (snd (val inp out Q D x)) (snd (val inp out V 0 x)) (snd (val inp out S 1 x)).
Proof.
  intros H x. pose proof (F_of_big i) as HB.
  assert (TK : forall y j, T F D (kwire D y j) (kwire 0 y j) (kwire 1 y j)) by (intros; apply T_bit, T_one; assumption).
  pose proof (T_one F HB D HD) as T1.
  unfold val. destruct (is_em i).
  - destruct x as [g r|b m c r]; cbn [eval fst snd]; [split; apply T_0; assumption|]. split.
    + apply T_fwd; auto.
    + apply T_bwd; auto. intros j. apply T_add; auto.
  - assert (TW : forall j, T F D (KW (Nk R) 32 Q j) (KW (Nk R) 32 V j) (KW (Nk R) 32 S j)) by (intros; apply T_KW; assumption).
    destruct x as [g r|b m c r]; cbn [aval fst snd]; split.
    + apply T_cmb; auto.
    + apply T_IA; auto. intros j Hj. unfold KX. apply T_add; auto. apply T_add; auto. apply T_bit; auto.
    + apply T_fwd; auto.
    + apply T_bwd; auto.
Qed.

Lemma val_bits w inp out : bytes_ok w -> bytes_ok inp -> bytes_ok out -> l <= 8 * lenN w ->
  lenN inp = owf_input_size i -> lenN out = owf_input_size i ->
  map (val inp out (bw w) 1) ixs = map (factors F) (claims i w inp out).
Proof.
  intros BW BI BO LW LI LO. pose proof (F_of_big i) as HB. pose proof set_ok as SF. unfold val, ixs. destruct (is_em i) eqn:EM.
  - destruct (sf_in_em SF EM). apply em_factors; try assumption; rewrite ?(sf_lenc SF EM); lia.
  - apply aes_factors; assumption.
Qed.

(** * Closed forms *)
Definition trunc (g : N -> N) (j : N) : N := if j <? l then g j else 0.
Definition P_terms (inp out w : list N) (W : N -> N) (x : ix) : N * N :=
  pterms F (val inp out (bw w) 1 x) (val inp out (trunc W) 0 x).

Lemma holds_rows m V : l <= m -> holds (tab m (rowv n V)) l (trunc (rowv n V)).
Proof.
  intros H. split; [rewrite lenN_tab; exact H|]. intros j Hj. rewrite nthN_tab by lia. unfold trunc. replace (j <? l) with true by lia. reflexivity.
Qed.
Lemma sum_rows V : bf_sum_poly F (tab (l + f_n F) (rowv n V)) l = Ok (sumpoly F (fun j => rowv n V (l + j))).
Proof.
  pose proof set_ok as SF. pose proof (sf_64 SF). pose proof (sf_n SF). rewrite sum_poly_ok by (rewrite ?lenN_tab; lia). f_equal.
  apply sumpoly_ext; [lia|]. intros j Hj. apply nthN_tab. lia.
Qed.
Lemma bw_lt w j : bw w j < 2 ^ f_n F.
Proof. pose proof (F_of_big i) as HB. unfold bw, bitw. destruct (N.testbit _ _); destruct HB as [<-|[<-|[<-|[]]]]; reflexivity. Qed.
Lemma trunc_lt V j : trunc (rowv n V) j < 2 ^ f_n F.
Proof. unfold trunc. rewrite (sf_n set_ok). destruct (j <? l); [apply rowv_lt|apply pow2_pos]. Qed.

Lemma pterms_lt (inp out w : list N) V x : fst (P_terms inp out w (rowv n V) x) < 2 ^ f_n F /\ snd (P_terms inp out w (rowv n V) x) < 2 ^ f_n F.
Proof.
  pose proof (F_of_big i) as HB. pose proof (big_field_ok _ HB) as HF.
  assert (H0 : 0 < 2 ^ f_n F) by apply pow2_pos.
  destruct (val_T 0 H0 inp out (trunc (rowv n V)) (trunc (rowv n V)) (bw w)) with (x := x) as [(A1 & A2 & _) (A3 & A4 & _)].
  { intros j. repeat split; [apply trunc_lt|apply bw_lt|]. rewrite bf_mul_0_l by (assumption || apply bw_lt). rewrite N.lxor_0_r. reflexivity. }
  assert (H1 : 1 < 2 ^ f_n F) by (apply one_lt; assumption).
  unfold P_terms, pterms, prove_terms, bf_add. cbn [fst snd].
  split; repeat first [apply lxor_lt|apply bf_mul_lt]; assumption.
Qed.

Definition hash_vals (ch2 : list N) (f : ix -> N) (z : N) : N := zk_hash_spec F ch2 (map f ixs) z.

Lemma prove_ok w u V inp out ch2 :
  bytes_ok w -> l <= 8 * lenN w -> bytes_ok inp -> bytes_ok out -> lenN inp = owf_input_size i -> lenN out = owf_input_size i ->
  cols_ok n (l + n) V -> l / 8 + n / 8 <= lenN u -> bytes_ok ch2 -> 3 * (n / 8) + 8 <= lenN ch2 ->
  aes_prove p w u V inp out ch2 =
  Ok (to_bytes (n / 8) (hash_vals ch2 (fun x => snd (P_terms inp out w (rowv n V) x)) (num (sub u (l / 8) (n / 8)))),
      to_bytes (n / 8) (hash_vals ch2 (fun x => fst (P_terms inp out w (rowv n V) x)) (sumpoly F (fun j => rowv n V (l + j))))).
Proof.
  intros BW LW BI BO LI LO HV HU BC LC. pose proof set_ok as SF. pose proof (F_of_big i) as HB.
  pose proof (sf_n SF) as En. pose proof (sf_in SF) as HIn. pose proof (sf_64 SF) as H64.
  assert (ZK : forall xs z, Forall (fun v => v < 2 ^ f_n F) xs -> exists c, zk_hash_init F ch2 = Ok c /\
    zk_hash_finalize F (fold_left (zk_hash_update F) xs c) z = to_bytes (n / 8) (zk_hash_spec F ch2 xs z)).
  { intros xs z Hxs. destruct (zk_hash_ok F HIn ltac:(lia) ch2 ltac:(rewrite En; exact LC) BC xs z Hxs) as (c & E1 & E2).
    exists c. rewrite En in E2. auto. }
  assert (SM : forall (f : ix -> N), (forall x, f x < 2 ^ f_n F) -> Forall (fun v => v < 2 ^ f_n F) (map f ixs)).
  { intros f Hf. apply Forall_forall. intros v Hv. apply in_map_iff in Hv. destruct Hv as (x & <- & _). apply Hf. }
  destruct (ZK (map (fun x => fst (P_terms inp out w (rowv n V) x)) ixs) (sumpoly F (fun j => rowv n V (l + j))))
    as (c & Ec & E0). { apply SM. intros x. apply pterms_lt. }
  destruct (ZK (map (fun x => snd (P_terms inp out w (rowv n V) x)) ixs) (num (sub u (l / 8) (n / 8))))
    as (c' & Ec' & E1). { apply SM. intros x. apply pterms_lt. }
  rewrite Ec in Ec'. injection Ec' as <-.
  assert (ER : column_to_row_major F V l = Ok (tab (l + f_n F) (rowv n V))).
  { rewrite column_to_row_ok by (rewrite ?En; assumption). rewrite En. reflexivity. }
  assert (HL : bf_load F u (l / 8) = Ok (num (sub u (l / 8) (n / 8)))).
  { rewrite bf_load_block by (rewrite En; exact HU). rewrite En. reflexivity. }
  unfold aes_prove. rewrite (sf_F SF), (sf_em SF). unfold hash_vals. unfold P_terms, val, ixs in E0, E1 |- *. destruct (is_em i) eqn:EM.
  - unfold em_prove_F. destruct (sf_in_em SF EM) as [H1 H2]. pose proof (sf_lenc SF EM) as El.
    destruct (em_expand_ok i inp EM BI ltac:(lia)) as (EX & LX & BX). rewrite EX. cbn [bind]. rewrite El, ER. cbn [bind]. rewrite Ec. cbn [bind].
    rewrite (em_constraints_0_ok F HB p R (em_shape_ok i EM) (concat (KeyExpansion R inp)) out w _ (trunc (rowv n V)) (c, c));
      try assumption; rewrite ?LX, ?El; try lia; [|apply holds_rows; lia].
    cbn [bind]. unfold pstepE. rewrite fold_upd2. cbn [fst snd]. rewrite HL. cbn [bind]. rewrite sum_rows. cbn [bind]. rewrite E0, E1. reflexivity.
  - unfold aes_prove_F. pose proof (sf_in_aes SF EM) as H1. rewrite ER. cbn [bind]. rewrite Ec. cbn [bind].
    pose proof (aes_constraints_0 F HB p R (groups i) (aes_shape_ok i EM) inp out w (tab (l + f_n F) (rowv n V)) (trunc (rowv n V)) (c, c)
      BI BO BW ltac:(lia) ltac:(lia) LW ltac:(apply holds_rows; lia)) as HC.
    destruct (ks_constraints_0 F p w _ (c, c)) as [[[ctxs k] vk]|]; cbn [bind] in HC |- *; [|discriminate HC].
    rewrite HC. cbn [bind]. unfold pstep. rewrite fold_upd2. cbn [fst snd]. rewrite HL. cbn [bind]. rewrite sum_rows. cbn [bind]. rewrite E0, E1. reflexivity.
Qed.

Definition V_term (inp out : list N) (D : N) (W : N -> N) (x : ix) : N := vterm F D (val inp out (trunc W) D x).
Lemma vterm_lt inp out D Q x : D < 2 ^ f_n F -> V_term inp out D (rowv n Q) x < 2 ^ f_n F.
Proof.
  intros HD. pose proof (F_of_big i) as HB. pose proof (big_field_ok _ HB) as HF.
  destruct (val_T D HD inp out (trunc (rowv n Q)) (trunc (rowv n Q)) (fun _ => 0)) with (x := x) as [A1 A2].
  { intros j. repeat split; [apply trunc_lt|apply pow2_pos|]. rewrite bf_mul_0_r by assumption. rewrite N.lxor_0_r. reflexivity. }
  apply (T_lt F HB D HD) in A1, A2. unfold V_term, vterm, bf_add. apply lxor_lt; apply bf_mul_lt; assumption.
Qed.

Lemma mcol_len d m b q : m <= lenN d -> m <= lenN q -> lenN (mcol d m b q) = lenN q.
Proof.
  intros H1 H2. unfold mcol. destruct b; [|reflexivity].
  rewrite lenN_app, lenN_xor, !lenN_takeN, lenN_dropN; rewrite ?lenN_takeN; lia.
Qed.
Lemma mcol_bytes d m b q : bytes_ok d -> bytes_ok q -> bytes_ok (mcol d m b q).
Proof.
  intros H1 H2. unfold mcol. destruct b; [|exact H2]. apply Forall_app. split; [apply bytes_ok_xor; apply Forall_takeN|apply Forall_dropN]; assumption.
Qed.

Definition delta_of (ch3 : list N) : N := num (sub ch3 0 (n / 8)).
Lemma sub_lt s off : bytes_ok s -> num (sub s off (n / 8)) < 2 ^ n.
Proof.
  intros H. rewrite num_eq, sub_eq. eapply N.lt_le_trans; [apply le_val_bound2, Forall_takeN, Forall_dropN, H|].
  apply N.pow_le_mono_r; [discriminate|]. rewrite lenN_takeN. pose proof (sf_n8 set_ok). lia.
Qed.

Lemma num_to_bytes x : x < 2 ^ n -> num (to_bytes (n / 8) x) = x.
Proof.
  intros H. rewrite to_bytes_eq, num_eq. apply le_val_le_bytes. eapply N.lt_le_trans; [exact H|]. change 256 with (2 ^ 8).
  rewrite <- N.pow_mul_r. apply N.pow_le_mono_r; [discriminate|]. pose proof (sf_n8 set_ok). lia.
Qed.
Lemma sub_to_bytes x : sub (to_bytes (n / 8) x) 0 (n / 8) = to_bytes (n / 8) x.
Proof.
  rewrite sub_eq. assert (L : lenN (to_bytes (n / 8) x) = n / 8) by (rewrite to_bytes_eq; unfold lenN; rewrite le_bytes_length; lia).
  apply (list_ext 0); [rewrite lenN_takeN, lenN_dropN; lia|]. intros j Hj. rewrite lenN_takeN, lenN_dropN in Hj.
  rewrite nthN_takeN, nthN_dropN by lia. f_equal.
Qed.

Lemma verify_ok d Q ch2 ch3 a inp out :
  bytes_ok inp -> bytes_ok out -> lenN inp = owf_input_size i -> lenN out = owf_input_size i ->
  bytes_ok d -> l / 8 <= lenN d -> cols_ok n (l + n) Q ->
  bytes_ok ch2 -> 3 * (n / 8) + 8 <= lenN ch2 -> bytes_ok ch3 -> n / 8 <= lenN ch3 -> n / 8 <= lenN a ->
  exists Q', (lenN Q' = lenN Q /\ forall j, nthN Q' j [] = mcol d (l / 8) ((j <? n) && bit_at ch3 j) (nthN Q j [])) /\
    let D := delta_of ch3 in
    aes_verify p d Q ch2 ch3 a inp out =
    Ok (to_bytes (n / 8) (N.lxor (hash_vals ch2 (V_term inp out D (rowv n Q')) (sumpoly F (fun j => rowv n Q' (l + j))))
                                 (bf_mul F (num (sub a 0 (n / 8))) D))).
Proof.
  intros BI BO LI LO BD LD [HQ HQc] BC LC BC3 LC3 LA. pose proof set_ok as SF. pose proof (F_of_big i) as HB.
  pose proof (sf_n SF) as En. pose proof (sf_in SF) as HIn. pose proof (sf_64 SF) as H64. pose proof (sf_l8 SF) as Hl8. pose proof (sf_n8 SF) as Hn8.
  pose proof (big_field_ok _ HB) as HF.
  destruct (mask_Q_ok p d (l / 8) Q ch3 (vole_params_ok i) LD HQ) as (Q' & EQ & LQ & HQ'); try assumption.
  { intros j Hj. destruct (HQc j Hj). lia. }
  exists Q'. split; [split; assumption|]. cbv zeta. set (D := delta_of ch3).
  assert (HD : D < 2 ^ f_n F) by (rewrite En; apply sub_lt; assumption).
  assert (HC' : cols_ok n (l + n) Q').
  { split; [lia|]. intros j Hj. rewrite HQ'. destruct (HQc j Hj). rewrite mcol_len by lia. split; [assumption|]. apply mcol_bytes; assumption. }
  assert (E7 : (l + 7) / 8 = l / 8) by lia.
  assert (SM : Forall (fun v => v < 2 ^ f_n F) (map (V_term inp out D (rowv n Q')) ixs)).
  { apply Forall_forall. intros v Hv. apply in_map_iff in Hv. destruct Hv as (x & <- & _). apply vterm_lt, HD. }
  destruct (zk_hash_ok F HIn ltac:(lia) ch2 ltac:(rewrite En; exact LC) BC _ (sumpoly F (fun j => rowv n Q' (l + j))) SM) as (c & Ec & E0).
  rewrite En in E0.
  assert (ER : column_to_row_major F Q' l = Ok (tab (l + f_n F) (rowv n Q'))).
  { rewrite column_to_row_ok by (rewrite ?En; assumption). rewrite En. reflexivity. }
  assert (EDL : bf_load F ch3 0 = Ok D) by (rewrite bf_load_block by (rewrite En; exact LC3); rewrite En; reflexivity).
  assert (HSP : sumpoly F (fun j => rowv n Q' (l + j)) < 2 ^ f_n F).
  { apply (T_lt F HB D HD _ (sumpoly F (fun j => rowv n Q' (l + j))) (sumpoly F (fun _ => 0))). apply T_sumpoly; try assumption.
    intros j. repeat split; [rewrite En; apply rowv_lt|apply pow2_pos|]. rewrite bf_mul_0_r by assumption. rewrite N.lxor_0_r. reflexivity. }
  assert (HV : forall qt, qt < 2 ^ n -> verify_final F (to_bytes (n / 8) qt) a D =
                Ok (to_bytes (n / 8) (N.lxor qt (bf_mul F (num (sub a 0 (n / 8))) D)))).
  { intros qt Hqt. unfold verify_final. rewrite !bf_load_block by (rewrite En; rewrite ?to_bytes_eq; unfold lenN; rewrite ?le_bytes_length; unfold lenN in LA; lia).
    cbn [bind]. rewrite En, sub_to_bytes, num_to_bytes by exact Hqt. unfold bf_store, bf_add. rewrite En, to_bytes_eq. reflexivity. }
  assert (HQT : hash_vals ch2 (V_term inp out D (rowv n Q')) (sumpoly F (fun j => rowv n Q' (l + j))) < 2 ^ n).
  { eapply N.lt_le_trans; [apply zk_spec_lt; try assumption; lia|]. rewrite En. apply N.le_refl. }
  unfold aes_verify. rewrite (sf_F SF), (sf_em SF). rewrite <- HV by exact HQT. unfold hash_vals in *.
  clearbody D. clear HV HQT.
  unfold V_term, val, ixs in E0 |- *. destruct (is_em i) eqn:EM.
  - unfold em_verify_F. destruct (sf_in_em SF EM) as [H1 H2]. pose proof (sf_lenc SF EM) as El.
    rewrite EDL. cbn [bind]. rewrite El, E7, EQ. cbn [bind]. rewrite ER. cbn [bind].
    destruct (em_expand_ok i inp EM BI ltac:(lia)) as (EX & LX & BX). rewrite EX. cbn [bind]. rewrite Ec. cbn [bind].
    rewrite (em_constraints_1_ok F HB p R (em_shape_ok i EM) (concat (KeyExpansion R inp)) out _ (trunc (rowv n Q')) D c);
      try assumption; rewrite ?LX, ?El; try lia; [|apply holds_rows; lia].
    cbn [bind]. rewrite sum_rows. cbn [bind]. rewrite <- E0, fold_left_map. reflexivity.
  - unfold aes_verify_F. pose proof (sf_in_aes SF EM) as H1. rewrite E7, EQ. cbn [bind]. rewrite ER. cbn [bind]. rewrite Ec. cbn [bind].
    rewrite EDL. cbn [bind].
    pose proof (aes_constraints_1 F HB p R (groups i) (aes_shape_ok i EM) inp out (tab (l + f_n F) (rowv n Q')) (trunc (rowv n Q')) D c
      ltac:(lia) ltac:(lia) ltac:(apply holds_rows; lia)) as HC.
    destruct (ks_constraints_1 F p _ D c) as [[b1 qk]|]; cbn [bind] in HC |- *; [|discriminate HC].
    rewrite HC. cbn [bind]. rewrite sum_rows. cbn [bind]. rewrite <- E0, fold_left_map. reflexivity.
Qed.
End Set_.
