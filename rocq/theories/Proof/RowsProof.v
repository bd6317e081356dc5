(** Rows of the transposed matrix, masking of the verifier's columns, and sums of powers of X. *)
From Verif.Model Require Import Vole FaestAes.
From Verif.Spec Require Import VoleSpec UHashSpec.
From Verif.Proof Require Import BaseProof PolyProof FieldProof EmbedProof UHashProof VcProof VoleProof VoleProps WireProof ConsProof.
From Coq Require Import Lia ZifyBool ZifyNat ZifyN.
Ltac Zify.zify_post_hook ::= Z.div_mod_to_equations.

(** * Numbers with given bits *)
Fixpoint bitsum (f : N -> bool) (n : nat) : N :=
  match n with
  | O => 0
  | S m => N.lxor (bitsum f m) (if f (N.of_nat m) then 2 ^ N.of_nat m else 0)
  end.
Lemma bitsum_testbit f n j : N.testbit (bitsum f n) j = (j <? N.of_nat n) && f j.
Proof.
  induction n as [|n IH]; cbn [bitsum]; [rewrite N.bits_0; destruct (j <? N.of_nat 0) eqn:E; [lia|reflexivity]|].
  rewrite N.lxor_spec, IH. destruct (N.eq_dec j (N.of_nat n)) as [->|H].
  - replace (N.of_nat n <? N.of_nat n) with false by lia. replace (N.of_nat n <? N.of_nat (S n)) with true by lia.
    cbn [andb]. rewrite Bool.xorb_false_l. destruct (f (N.of_nat n)); [apply N.pow2_bits_true|apply N.bits_0].
  - replace (N.testbit (if f (N.of_nat n) then 2 ^ N.of_nat n else 0) j) with false.
    + rewrite Bool.xorb_false_r. replace (j <? N.of_nat (S n)) with (j <? N.of_nat n) by lia. reflexivity.
    + destruct (f (N.of_nat n)); [rewrite N.pow2_bits_false by lia; reflexivity|rewrite N.bits_0; reflexivity].
Qed.
Lemma bitsum_lt f n : bitsum f n < 2 ^ N.of_nat n.
Proof. apply lt_pow2_bits. intros j Hj. rewrite bitsum_testbit. replace (j <? N.of_nat n) with false by lia. reflexivity. Qed.

(** * Transposition *)
Definition rowv (n : N) (V : list bytes) (r : N) : N := bitsum (fun j => bit_at (nthN V j []) r) (N.to_nat n).
Lemma rowv_testbit n V r j : N.testbit (rowv n V r) j = (j <? n) && bit_at (nthN V j []) r.
Proof. unfold rowv. rewrite bitsum_testbit, N2Nat.id. reflexivity. Qed.
Lemma rowv_lt n V r : rowv n V r < 2 ^ n.
Proof. unfold rowv. pose proof (bitsum_lt (fun j => bit_at (nthN V j []) r) (N.to_nat n)) as H. rewrite N2Nat.id in H. exact H. Qed.

Definition cols_ok (n L : N) (V : list bytes) : Prop :=
  n <= lenN V /\ forall j, j < n -> L <= 8 * lenN (nthN V j []) /\ bytes_ok (nthN V j []).

Lemma lor_bit_lt8 b v i : b < 256 -> v < 2 -> i < 8 -> N.lor b (N.shiftl v i) < 256.
Proof.
  intros Hb Hv Hi. change 256 with (2 ^ 8). apply lt_pow2_bits. intros j Hj. rewrite N.lor_spec.
  rewrite (testbit_high b 8 j) by assumption. rewrite N.shiftl_spec_high' by lia.
  apply (testbit_high v 1); [exact Hv|lia].
Qed.

Lemma transpose_row_ok F V r : big_field F -> cols_ok (f_n F) (r + 1) V -> transpose_row F V r = Ok (rowv (f_n F) V r).
Proof.
  intros HB [HL HC]. unfold transpose_row.
  assert (H8 : f_n F mod 8 = 0) by (destruct HB as [<-|[<-|[<-|[]]]]; reflexivity).
  set (n := f_n F) in *.
  destruct (foldM_Nrange_inv (fun new_row column => let! col := aget V column in let! b := ptr_get_bit col r in ptr_set_bit new_row b column)
    (fun c row => lenN row = n / 8 /\ bytes_ok row /\ forall j, bit_at row j = (j <? c) && bit_at (nthN V j []) r) n (zeros (n / 8)))
    as (row & E & LR & BR & HR).
  - split; [apply lenN_zeros|]. split; [apply bytes_ok_zeros|]. intros j. unfold bit_at.
    change (N.testbit (nthN (zeros (n / 8)) (j / 8) 0) (j mod 8) = (j <? 0) && bit_at (nthN V j []) r).
    rewrite nthN_zeros, N.bits_0. replace (j <? 0) with false by lia. reflexivity.
  - intros c row Hc (LR & BR & HR). destruct (HC c Hc) as [L1 L2].
    rewrite (aget_ok V c []) by lia. cbn [bind]. rewrite ptr_get_bit_ok by (assumption || lia). cbn [bind].
    rewrite <- bit_at_le by assumption. set (v := N.b2n (bit_at (nthN V c []) r)).
    assert (Hv : v < 2) by (unfold v; destruct (bit_at _ r); cbn; lia).
    unfold ptr_set_bit. rewrite (aget_ok row (c / 8) 0) by lia. cbn [bind]. rewrite aset_ok by lia.
    eexists. split; [reflexivity|]. split; [rewrite lenN_upd; exact LR|]. split.
    + apply Forall_upd; [exact BR|]. apply lor_bit_lt8; [apply nthN_byte, BR|exact Hv|lia].
    + intros j. change (bit_at (upd row (N.to_nat (c / 8)) (N.lor (nthN row (c / 8) 0) (N.shiftl v (c mod 8)))) j)
        with (N.testbit (nthN (upd row (N.to_nat (c / 8)) (N.lor (nthN row (c / 8) 0) (N.shiftl v (c mod 8)))) (j / 8) 0) (j mod 8)).
      specialize (HR j). change (bit_at row j) with (N.testbit (nthN row (j / 8) 0) (j mod 8)) in HR.
      destruct (N.lt_ge_cases (j / 8) (lenN row)) as [Hj|Hj].
      2: { rewrite nthN_default by (rewrite lenN_upd; exact Hj). rewrite nthN_default in HR by exact Hj. rewrite N.bits_0 in *.
           destruct (j <? c + 1) eqn:E1; [lia|reflexivity]. }
      rewrite nthN_upd by exact Hj. destruct (j / 8 =? c / 8) eqn:E1.
      * replace (c / 8) with (j / 8) by lia. rewrite N.lor_spec, HR.
        destruct (N.eq_dec j c) as [->|Hne].
        -- rewrite N.shiftl_spec_high' by lia. rewrite N.sub_diag. replace (c <? c) with false by lia. replace (c <? c + 1) with true by lia.
           unfold v. destruct (bit_at _ r); reflexivity.
        -- replace (j <? c + 1) with (j <? c) by lia.
           replace (N.testbit (N.shiftl v (c mod 8)) (j mod 8)) with false; [apply Bool.orb_false_r|].
           destruct (N.lt_ge_cases (j mod 8) (c mod 8)) as [H|H]; [rewrite N.shiftl_spec_low by exact H; reflexivity|].
           rewrite N.shiftl_spec_high' by exact H. symmetry. apply (testbit_high v 1); [exact Hv|lia].
      * rewrite HR. destruct (j <? c) eqn:E2, (j <? c + 1) eqn:E3; try reflexivity; lia.
  - cbv beta in E. rewrite E. cbn [bind]. unfold bf_load. fold n. rewrite slice_ok by lia. cbn [bind]. f_equal.
    assert (EQ : takeN (n / 8) (dropN 0 row) = row).
    { apply (list_ext 0); [rewrite lenN_takeN, lenN_dropN; lia|]. intros j Hj. rewrite lenN_takeN, lenN_dropN in Hj.
      rewrite nthN_takeN, nthN_dropN by lia. f_equal. }
    rewrite EQ. apply N.bits_inj. intros j. rewrite rowv_testbit, <- bit_at_le by exact BR. apply HR.
Qed.

Lemma column_to_row_ok F V ell : big_field F -> cols_ok (f_n F) (ell + f_n F) V ->
  column_to_row_major F V ell = Ok (tab (ell + f_n F) (rowv (f_n F) V)).
Proof.
  intros HB [HL HC]. unfold column_to_row_major. apply mapM_tab. intros r Hr. apply transpose_row_ok; [exact HB|].
  split; [exact HL|]. intros j Hj. destruct (HC j Hj). split; [lia|assumption].
Qed.

(** * Masking *)
Definition mcol (d : bytes) (dlen : N) (b : bool) (q : bytes) : bytes :=
  if b then xor_bytes (takeN dlen d) (takeN dlen q) ++ dropN dlen q else q.
Lemma mask_Q_ok p d dlen Q chal : vole_params p -> dlen <= lenN d -> p_lambda p <= lenN Q ->
  (forall n, n < p_lambda p -> dlen <= lenN (nthN Q n [])) ->
  bytes_ok chal -> p_lambda p / 8 <= lenN chal ->
  exists Q', mask_Q p d dlen Q chal = Ok Q' /\ lenN Q' = lenN Q /\
    forall n, nthN Q' n [] = mcol d dlen ((n <? p_lambda p) && bit_at chal n) (nthN Q n []).
Proof.
  intros VP Hd HQ HQn HB HL. unfold mask_Q.
  set (inv := fun (c : N) (s : list bytes * N) => snd s = c /\ lenN (fst s) = lenN Q /\
    forall n, nthN (fst s) n [] = mcol d dlen ((n <? c) && bit_at chal n) (nthN Q n [])).
  match goal with |- context[foldM ?f (Nrange (p_tau p)) (Q, 0)] =>
    destruct (foldM_Nrange_inv f (fun t => inv (lo p t)) (p_tau p) (Q, 0)) as (s & E & I1 & I2 & I3) end.
  - rewrite lo_0. split; [reflexivity|]. split; [reflexivity|]. intros n. replace (n <? 0) with false by lia. reflexivity.
  - intros t s Ht HI. rewrite ChalDec_ok by assumption. cbn [bind snd].
    match goal with |- context[foldM ?f (Nrange (tree_depth p t)) s] =>
      destruct (foldM_Nrange_inv f (fun j => inv (lo p t + j)) (tree_depth p t) s) as (s' & E & I') end.
    + rewrite N.add_0_r. exact HI.
    + intros j [q col] Hj (I1 & I2 & I3). cbn [fst snd] in I1, I2, I3. subst col.
      assert (Hc : lo p t + j < p_lambda p).
      { pose proof (lo_bound p VP t Ht) as HB1. lia. }
      rewrite (aget_ok _ j 0) by (rewrite lenN_bits_of; exact Hj). cbn [bind]. rewrite nthN_bits_of by exact Hj.
      rewrite idx_bit by exact Hj. rewrite <- bit_at_le by exact HB. set (c := lo p t + j) in *.
      assert (IC : nthN q c [] = nthN Q c []) by (rewrite I3; replace (c <? c) with false by lia; reflexivity).
      destruct (bit_at chal c) eqn:EB; cbn [N.b2n N.eqb Pos.eqb].
      * rewrite (aget_ok q c []) by lia. cbn [bind]. rewrite IC. specialize (HQn c Hc).
        rewrite !slice_ok by lia. cbn [bind].
        assert (LX : lenN (xor_bytes (takeN dlen (dropN 0 d)) (takeN dlen (dropN 0 (nthN Q c [])))) = dlen).
        { rewrite lenN_xor; rewrite !lenN_takeN, !lenN_dropN; lia. }
        rewrite blit_ok by lia. cbn [bind]. rewrite aset_ok by lia. cbn [bind].
        eexists. split; [reflexivity|]. unfold inv. cbn [fst snd]. split; [lia|]. split; [rewrite lenN_upd; exact I2|].
        intros n. destruct (N.lt_ge_cases n (lenN q)) as [Hn|Hn].
        2: { rewrite nthN_default by (rewrite lenN_upd; exact Hn). specialize (I3 n).
             rewrite nthN_default in I3 by exact Hn. replace (n <? c) with false in I3 by lia.
             replace (n <? lo p t + (j + 1)) with false by lia. exact I3. }
        rewrite nthN_upd by exact Hn. destruct (n =? c) eqn:En.
        -- assert (n = c) by lia. subst n. replace (c <? lo p t + (j + 1)) with true by lia. rewrite EB. cbn [andb mcol].
           rewrite LX, N.add_0_l. reflexivity.
        -- rewrite I3. replace (n <? lo p t + (j + 1)) with (n <? c) by lia. reflexivity.
      * eexists. split; [reflexivity|]. unfold inv. cbn [fst snd]. split; [lia|]. split; [exact I2|]. intros n. rewrite I3.
        destruct (N.eq_dec n c) as [->|Hn]; [rewrite EB, !Bool.andb_false_r; reflexivity|].
        replace (n <? lo p t + (j + 1)) with (n <? c) by lia. reflexivity.
    + eexists. split; [exact E|]. rewrite lo_succ. exact I'.
  - cbv beta in E. rewrite E. cbn [bind]. eexists. split; [reflexivity|]. rewrite lo_tau in I3 by exact VP. auto.
Qed.

(** * Sums of powers of X *)
Fixpoint horner (F : field) (g : N -> N) (top : N) (k : nat) : N :=
  match k with
  | O => g top
  | S m => N.lxor (bf_dbl F (horner F g top m)) (g (top - N.of_nat k))
  end.
Definition sumpoly (F : field) (g : N -> N) : N := horner F g (f_n F - 1) (N.to_nat (f_n F - 1)).
Lemma sum_poly_ok F xs off : 0 < f_n F -> off + f_n F <= lenN xs ->
  bf_sum_poly F xs off = Ok (sumpoly F (fun i => nthN xs (off + i) 0)).
Proof.
  intros Hn HL. unfold bf_sum_poly. rewrite (aget_ok xs _ 0) by lia. cbn [bind].
  match goal with |- foldM ?f _ ?s = _ =>
    destruct (foldM_Nfromto_inv f (fun i r => r = horner F (fun i => nthN xs (off + i) 0) (f_n F - 1) (N.to_nat (i - 1))) 1 (f_n F) s) as (r & E & Hr) end.
  - lia.
  - reflexivity.
  - intros i r Hi ->. rewrite (aget_ok xs _ 0) by lia. cbn [bind]. eexists. split; [reflexivity|].
    replace (N.to_nat (i + 1 - 1)) with (S (N.to_nat (i - 1))) by lia. cbn [horner]. unfold bf_add. do 2 f_equal. lia.
  - rewrite E. f_equal. exact Hr.
Qed.
Lemma horner_ext F g h top k : (forall i, i <= top -> g i = h i) -> horner F g top k = horner F h top k.
Proof. intros H. induction k as [|k IH]; cbn [horner]; [apply H; lia|]. rewrite IH, H by lia. reflexivity. Qed.
Lemma sumpoly_ext F g h : 0 < f_n F -> (forall i, i < f_n F -> g i = h i) -> sumpoly F g = sumpoly F h.
Proof. intros Hn H. apply horner_ext. intros. apply H. lia. Qed.

Lemma T_sumpoly F (HB : big_field F) D (HD : D < 2 ^ f_n F) q v s :
  (forall i, T F D (q i) (v i) (s i)) -> T F D (sumpoly F q) (sumpoly F v) (sumpoly F s).
Proof.
  intros H. unfold sumpoly. pose proof (big_field_ok F HB) as HF.
  assert (H2 : 2 < 2 ^ f_n F) by (destruct HB as [<-|[<-|[<-|[]]]]; reflexivity).
  induction (N.to_nat (f_n F - 1)) as [|k IH]; cbn [horner]; [apply H|].
  apply T_add; try assumption; [|apply H].
  rewrite !bf_dbl_mul by (try assumption; first [apply (T_lt F HB D HD _ _ _ IH)|destruct IH as (? & ? & _); assumption]).
  rewrite !(bf_mul_comm F 2) by (assumption || first [apply (T_lt F HB D HD _ _ _ IH)|destruct IH as (? & ? & _); assumption]).
  apply T_mul; assumption.
Qed.

Lemma sumpoly_bits F u : 1 < f_n F -> u < 2 ^ f_n F -> sumpoly F (fun i => bitw u i) = u.
Proof.
  intros Hn Hu. unfold sumpoly.
  assert (H : forall k, (N.of_nat k <= f_n F - 1) -> horner F (fun i => bitw u i) (f_n F - 1) k = N.shiftr u (f_n F - 1 - N.of_nat k)).
  { induction k as [|k IH]; intros Hk; cbn [horner].
    - rewrite N.sub_0_r. apply N.bits_inj. intros j. rewrite N.shiftr_spec'. unfold bitw.
      destruct (N.eq_dec j 0) as [->|Hj].
      + rewrite N.add_0_l. destruct (N.testbit u (f_n F - 1)); reflexivity.
      + rewrite (testbit_high u (f_n F) (j + (f_n F - 1))) by (assumption || lia). apply (testbit_high _ 1); [|lia]. destruct (N.testbit u (f_n F - 1)); reflexivity.
    - rewrite IH by lia. set (m := f_n F - 1 - N.of_nat (S k)). replace (f_n F - 1 - N.of_nat k) with (m + 1) by lia.
      apply N.bits_inj. intros j. rewrite N.lxor_spec. unfold bf_dbl.
      replace (N.testbit (N.shiftr u (m + 1)) (f_n F - 1)) with false
        by (rewrite N.shiftr_spec'; symmetry; apply (testbit_high u (f_n F)); [exact Hu|lia]).
      rewrite N.lxor_0_r, N.shiftr_spec'. destruct (N.lt_ge_cases j (f_n F)) as [Hj|Hj].
      + rewrite N.mod_pow2_bits_low by exact Hj. destruct (N.eq_dec j 0) as [->|Hj0].
        * rewrite N.shiftl_spec_low by lia. rewrite N.add_0_l. unfold bitw. destruct (N.testbit u m); reflexivity.
        * rewrite N.shiftl_spec_high', N.shiftr_spec' by lia. replace (j - 1 + (m + 1)) with (j + m) by lia.
          replace (N.testbit (bitw u m) j) with false; [apply Bool.xorb_false_r|].
          symmetry. apply (testbit_high _ 1); [|lia]. unfold bitw. destruct (N.testbit u m); reflexivity.
      + rewrite N.mod_pow2_bits_high by exact Hj. rewrite (testbit_high u (f_n F) (j + m)) by (assumption || lia).
        rewrite Bool.xorb_false_l. apply (testbit_high _ 1); [|lia]. unfold bitw. destruct (N.testbit u m); reflexivity. }
  rewrite H by lia. rewrite N2Nat.id, N.sub_diag. apply N.shiftr_0_r.
Qed.
