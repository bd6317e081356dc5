(** Proofs about the VOLE layer (Model/Vole.v). *)
From Verif.Model Require Import Vole.
From Verif.Spec Require Import VcSpec.
From Verif.Proof Require Import BaseProof PrgProof AesProps VcProof VcProps.
From Coq Require Import Lia ZifyBool ZifyNat ZifyN Permutation.
Ltac Zify.zify_post_hook ::= Z.div_mod_to_equations.

(** * Tables *)
Lemma tab_cons {A} n (f : N -> A) : tab (n + 1) f = f 0 :: tab n (fun i => f (i + 1)).
Proof.
  unfold tab, Nrange. replace (N.to_nat (n + 1)) with (S (N.to_nat n)) by lia. cbn [Nseq map].
  rewrite Nseq_shift, map_map. reflexivity.
Qed.
Lemma tab_0 {A} (f : N -> A) : tab 0 f = [].
Proof. reflexivity. Qed.

Lemma concat_var_len {A} (lo : N -> N) (f : N -> list A) n : lo 0 = 0 ->
  (forall i, i < n -> lo (i + 1) = lo i + lenN (f i)) -> lenN (concat (tab n f)) = lo n.
Proof.
  intros H0. induction n as [|n IH] using N.peano_ind; intros H; [rewrite H0; reflexivity|].
  rewrite <- N.add_1_r in *. rewrite tab_succ, concat_app, lenN_app. cbn [concat].
  rewrite app_nil_r, IH by (intros; apply H; lia). symmetry. apply H. lia.
Qed.
Lemma concat_var_nth {A} (d : A) (lo : N -> N) (f : N -> list A) n i j : lo 0 = 0 ->
  (forall i, i < n -> lo (i + 1) = lo i + lenN (f i)) -> i < n -> j < lenN (f i) ->
  nthN (concat (tab n f)) (lo i + j) d = nthN (f i) j d.
Proof.
  intros H0. induction n as [|n IH] using N.peano_ind; intros H Hi Hj; [lia|].
  rewrite <- N.add_1_r in *. rewrite tab_succ, concat_app. cbn [concat]. rewrite app_nil_r.
  assert (HL : lenN (concat (tab n f)) = lo n) by (apply concat_var_len; [exact H0|]; intros; apply H; lia).
  destruct (N.eq_dec i n) as [-> |Hne].
  - rewrite nthN_app_r by lia. f_equal. lia.
  - assert (HM : lo (i + 1) <= lo n).
    { rewrite <- HL, <- (concat_var_len lo f (i + 1) H0) by (intros; apply H; lia).
      unfold tab. rewrite !Nrange_Nfromto, (Nfromto_split 0 (i + 1) n) by lia.
      rewrite map_app, concat_app, lenN_app. lia. }
    rewrite H in HM by lia. rewrite nthN_app_l by lia. apply IH; [|lia|exact Hj]. intros; apply H; lia.
Qed.

(** * XOR sums *)
Section Xor.
Variable L : N.
Definition Xs (l : list (list N)) : list N := fold_right xor_bytes (zeros L) l.
Definition sel (b : bool) (x : list N) : list N := if b then x else zeros L.
Definition all_len (l : list (list N)) : Prop := Forall (fun x => lenN x = L) l.

Lemma Xs_len l : all_len l -> lenN (Xs l) = L.
Proof.
  induction 1 as [|x l Hx _ IH]; cbn [Xs fold_right]; [apply lenN_zeros|].
  change (fold_right xor_bytes (zeros L) l) with (Xs l). rewrite lenN_xor by congruence. exact Hx.
Qed.
Lemma sel_len b x : lenN x = L -> lenN (sel b x) = L.
Proof. destruct b; cbn; [auto|]. intros _. apply lenN_zeros. Qed.
Lemma all_len_tab n f : (forall i, i < n -> lenN (f i) = L) -> all_len (tab n f).
Proof.
  intros H. apply Forall_forall. intros x Hx. unfold tab in Hx. apply in_map_iff in Hx.
  destruct Hx as (i & <- & Hi). apply H, In_Nrange, Hi.
Qed.

Lemma Xs_perm l m : Permutation l m -> Xs l = Xs m.
Proof.
  induction 1 as [|x l m _ IH|x y l|l m k _ IH1 _ IH2]; cbn; [reflexivity|f_equal; exact IH| |congruence].
  rewrite <- !xor_bytes_assoc. f_equal. apply xor_bytes_comm.
Qed.

Lemma Xs_split n (f g : N -> list N) :
  (forall i, i < n -> lenN (f i) = L) -> (forall i, i < n -> lenN (g i) = L) ->
  Xs (tab n (fun i => xor_bytes (f i) (g i))) = xor_bytes (Xs (tab n f)) (Xs (tab n g)).
Proof.
  revert f g. induction n as [|n IH] using N.peano_ind; intros f g Hf Hg.
  - rewrite !tab_0. cbn. rewrite xor_bytes_zeros_r by apply lenN_zeros. reflexivity.
  - rewrite <- N.add_1_r in *. rewrite !tab_cons. cbn [Xs fold_right].
    change (fold_right xor_bytes (zeros L)) with Xs.
    rewrite (IH (fun i => f (i + 1)) (fun i => g (i + 1))) by (intros; apply Hf || apply Hg; lia).
    rewrite !xor_bytes_assoc. f_equal. rewrite <- !xor_bytes_assoc. f_equal. apply xor_bytes_comm.
Qed.

(** pairing up neighbours *)
Lemma Xs_pairs m : forall f, (forall i, i < 2 * m -> lenN (f i) = L) ->
  Xs (tab (2 * m) f) = Xs (tab m (fun i => xor_bytes (f (2 * i)) (f (2 * i + 1)))).
Proof.
  induction m as [|m IH] using N.peano_ind; intros f Hf; [reflexivity|].
  rewrite <- N.add_1_r in *. replace (2 * (m + 1)) with (2 * m + 1 + 1) in * by lia.
  rewrite !tab_cons. cbn [Xs fold_right]. change (fold_right xor_bytes (zeros L)) with Xs.
  rewrite IH by (intros; apply Hf; lia). rewrite <- xor_bytes_assoc. f_equal. f_equal.
  apply tab_ext. intros i Hi. f_equal; f_equal; lia.
Qed.

Lemma lxor_perm d idx : idx < 2 ^ d ->
  Permutation (Nrange (2 ^ d)) (map (fun x => N.lxor x idx) (Nrange (2 ^ d))).
Proof.
  intros Hi. apply NoDup_Permutation.
  - apply NoDup_Nseq.
  - apply FinFun.Injective_map_NoDup; [|apply NoDup_Nseq]. intros x y E.
    apply (f_equal (fun z => N.lxor z idx)) in E. rewrite !N.lxor_assoc, N.lxor_nilpotent, !N.lxor_0_r in E. exact E.
  - intros x. rewrite in_map_iff. split.
    + intros Hx. apply In_Nrange in Hx. exists (N.lxor x idx).
      rewrite N.lxor_assoc, N.lxor_nilpotent, N.lxor_0_r. split; [reflexivity|].
      apply In_Nrange, lxor_lt; assumption.
    + intros (y & <- & Hy). apply In_Nrange in Hy. apply In_Nrange, lxor_lt; assumption.
Qed.

Lemma Xs_lxor d idx (g : N -> list N) : idx < 2 ^ d ->
  Xs (tab (2 ^ d) (fun x => g (N.lxor x idx))) = Xs (tab (2 ^ d) g).
Proof.
  intros Hi. symmetry. unfold tab. rewrite (Xs_perm (map g (Nrange (2 ^ d)))
    (map g (map (fun x => N.lxor x idx) (Nrange (2 ^ d))))) by (apply Permutation_map, lxor_perm, Hi).
  rewrite map_map. reflexivity.
Qed.

(** * ConvertToVole *)
Lemma convert_level_ok m : forall f v, (forall i, i < 2 * m -> lenN (f i) = L) -> lenN v = L ->
  convert_level (tab (2 * m) f) v =
  Ok (tab m (fun i => xor_bytes (f (2 * i)) (f (2 * i + 1))),
      xor_bytes v (Xs (tab m (fun i => f (2 * i + 1))))).
Proof.
  induction m as [|m IH] using N.peano_ind; intros f v Hf Hv.
  - cbn. rewrite !tab_0. cbn. rewrite xor_bytes_zeros_r by exact Hv. reflexivity.
  - rewrite <- N.add_1_r in *. replace (2 * (m + 1)) with (2 * m + 1 + 1) in * by lia.
    rewrite !tab_cons. cbn [convert_level]. rewrite IH.
    + cbn [bind fst snd Xs fold_right]. change (fold_right xor_bytes (zeros L)) with Xs.
      rewrite <- xor_bytes_assoc. f_equal. f_equal.
      * f_equal. apply tab_ext. intros i Hi. f_equal; f_equal; lia.
      * f_equal. f_equal. apply tab_ext. intros i Hi. f_equal. lia.
    + intros; apply Hf; lia.
    + rewrite lenN_xor; [exact Hv|]. rewrite Hf by lia. exact Hv.
Qed.

Lemma testbit_2i i j : N.testbit (2 * i) (j + 1) = N.testbit i j.
Proof. rewrite N.add_1_r. apply N.testbit_even_succ. lia. Qed.
Lemma testbit_2i1 i j : N.testbit (2 * i + 1) (j + 1) = N.testbit i j.
Proof. rewrite (N.add_1_r j). apply N.testbit_odd_succ. lia. Qed.

Lemma convert_levels_ok d : forall f, (forall i, i < 2 ^ N.of_nat d -> lenN (f i) = L) ->
  convert_levels d L (tab (2 ^ N.of_nat d) f) =
  Ok ([Xs (tab (2 ^ N.of_nat d) f)],
      tab (N.of_nat d) (fun j => Xs (tab (2 ^ N.of_nat d) (fun x => sel (N.testbit x j) (f x))))).
Proof.
  induction d as [|d IH]; intros f Hf.
  - change (Ok (tab 1 f, tab 0 (fun j => Xs (tab 1 (fun x => sel (N.testbit x j) (f x)))))
            = Ok ([xor_bytes (f 0) (zeros L)], tab 0 (fun j => Xs (tab 1 (fun x => sel (N.testbit x j) (f x)))))).
    rewrite xor_bytes_zeros_r; [reflexivity|]. apply Hf. reflexivity.
  - replace (N.of_nat (S d)) with (N.of_nat d + 1) in * by lia. rewrite pow2_S in *.
    set (m := 2 ^ N.of_nat d) in *. cbn [convert_levels].
    rewrite convert_level_ok by (try assumption; apply lenN_zeros). cbn [bind fst snd].
    rewrite IH.
    2:{ intros i Hi. rewrite lenN_xor; rewrite !Hf by lia; reflexivity. }
    cbn [bind fst snd]. rewrite <- Xs_pairs by exact Hf. rewrite tab_cons. f_equal. f_equal. f_equal.
    + rewrite xor_bytes_zeros_l.
      2:{ apply Xs_len, all_len_tab. intros i Hi. apply Hf. lia. }
      rewrite Xs_pairs by (intros; apply sel_len, Hf; assumption).
      f_equal. apply tab_ext. intros i Hi. rewrite N.testbit_even_0, N.testbit_odd_0. cbn [sel].
      rewrite xor_bytes_zeros_l; [reflexivity|]. apply Hf. lia.
    + apply tab_ext. intros j Hj. rewrite Xs_pairs by (intros; apply sel_len, Hf; assumption).
      f_equal. apply tab_ext. intros i Hi. rewrite testbit_2i, testbit_2i1.
      destruct (N.testbit i j); cbn [sel]; [reflexivity|].
      rewrite xor_bytes_zeros_l by apply lenN_zeros. reflexivity.
Qed.

(** the correlation: columns of the prover from r, of the verifier from r moved by idx, without
    the term at idx *)
Lemma vole_identity d idx j (r : N -> list N) : idx < 2 ^ d -> j < d ->
  (forall i, i < 2 ^ d -> lenN (r i) = L) ->
  Xs (tab (2 ^ d) (fun x => sel (N.testbit x j) (if x =? 0 then zeros L else r (N.lxor x idx)))) =
  xor_bytes (Xs (tab (2 ^ d) (fun x => sel (N.testbit x j) (r x))))
            (sel (N.testbit idx j) (Xs (tab (2 ^ d) r))).
Proof.
  intros Hi Hj Hr.
  rewrite (tab_ext _ _ (fun x => (fun y => sel (xorb (N.testbit y j) (N.testbit idx j)) (r y)) (N.lxor x idx))).
  2:{ intros x Hx. cbv beta. rewrite N.lxor_spec, xorb_assoc, xorb_nilpotent, xorb_false_r.
      destruct (x =? 0) eqn:E; [|reflexivity]. replace x with 0 by lia. rewrite N.bits_0. reflexivity. }
  rewrite (Xs_lxor d idx (fun y => sel (xorb (N.testbit y j) (N.testbit idx j)) (r y)) Hi).
  destruct (N.testbit idx j).
  - rewrite (tab_ext _ _ (fun y => xor_bytes (sel (N.testbit y j) (r y)) (r y))).
    2:{ intros y Hy. rewrite xorb_true_r. destruct (N.testbit y j); cbn [negb sel].
        - rewrite xor_bytes_nilpotent, Hr by exact Hy. reflexivity.
        - rewrite xor_bytes_zeros_l by (apply Hr, Hy). reflexivity. }
    cbn [sel]. apply Xs_split; [|exact Hr]. intros y Hy. apply sel_len, Hr, Hy.
  - cbn [sel]. rewrite xor_bytes_zeros_r.
    + f_equal. apply tab_ext. intros y Hy. rewrite xorb_false_r. reflexivity.
    + apply Xs_len, all_len_tab. intros y Hy. apply sel_len, Hr, Hy.
Qed.
End Xor.

(** * Parameters *)
Record vole_params (p : param) : Prop := mkVP {
  vp_lam : In (p_lambda p) [128; 192; 256];
  vp_k0 : 1 <= p_k0 p <= 12; vp_k1 : 1 <= p_k1 p <= 12;
  vp_tau : p_t0 p + p_t1 p = p_tau p;
  vp_bits : p_t0 p * p_k0 p + p_t1 p * p_k1 p = p_lambda p;
  vp_tau1 : 1 <= p_tau p <= 32 }.
Lemma vole_params_ok i : vole_params (param_of i).
Proof. destruct i; split; cbn; (tauto || lia). Qed.

(** first challenge bit of tree [t] *)
Definition lo (p : param) (t : N) : N :=
  if t <? p_t0 p then t * p_k0 p else p_t0 p * p_k0 p + (t - p_t0 p) * p_k1 p.

Section Params.
Variable p : param.
Hypothesis VP : vole_params p.

Lemma lo_0 : lo p 0 = 0.
Proof. unfold lo. destruct (0 <? p_t0 p) eqn:E; [reflexivity|]. replace (p_t0 p) with 0 by lia. reflexivity. Qed.
Lemma lo_succ t : lo p (t + 1) = lo p t + tree_depth p t.
Proof.
  unfold lo, tree_depth. destruct (t <? p_t0 p) eqn:E1, (t + 1 <? p_t0 p) eqn:E2; try lia.
  - replace (t + 1 - p_t0 p) with 0 by lia. replace (p_t0 p) with (t + 1) by lia. lia.
  - replace (t + 1 - p_t0 p) with (t - p_t0 p + 1) by lia. lia.
Qed.
Lemma lo_tau : lo p (p_tau p) = p_lambda p.
Proof.
  destruct VP. unfold lo. replace (p_tau p <? p_t0 p) with false by lia.
  replace (p_tau p - p_t0 p) with (p_t1 p) by lia. exact vp_bits0.
Qed.
Lemma depth_bound t : 1 <= tree_depth p t <= 12.
Proof. destruct VP. unfold tree_depth. destruct (t <? p_t0 p); assumption. Qed.
Lemma lo_mono t s : t <= s -> lo p t <= lo p s.
Proof.
  intros H. replace s with (t + (s - t)) by lia. induction (s - t) as [|m IH] using N.peano_ind.
  - rewrite N.add_0_r. lia.
  - rewrite <- N.add_1_r, N.add_assoc, lo_succ. lia.
Qed.
Lemma lo_bound t : t < p_tau p -> lo p t + tree_depth p t <= p_lambda p.
Proof. intros H. rewrite <- lo_succ, <- lo_tau. apply lo_mono. lia. Qed.
Lemma lo_find c : c < p_lambda p -> exists t j, t < p_tau p /\ j < tree_depth p t /\ c = lo p t + j.
Proof.
  rewrite <- lo_tau. generalize (p_tau p) as n. induction n as [|n IH] using N.peano_ind.
  - rewrite lo_0. lia.
  - rewrite <- N.add_1_r, lo_succ. intros Hc. destruct (N.lt_ge_cases c (lo p n)) as [H|H].
    + destruct (IH H) as (t & j & A & B & C). exists t, j. split; [lia|]. split; assumption.
    + exists n, (c - lo p n). split; [lia|]. split; lia.
Qed.

(** index of the leaf of tree [t] hidden by the challenge *)
Definition idx_of (chal : list N) (t : N) : N := (le_val chal / 2 ^ lo p t) mod 2 ^ tree_depth p t.
Lemma idx_bound chal t : idx_of chal t < 2 ^ tree_depth p t.
Proof. apply N.mod_lt. pose proof (pow2_pos (tree_depth p t)). lia. Qed.
Lemma idx_bit chal t j : j < tree_depth p t -> N.testbit (idx_of chal t) j = N.testbit (le_val chal) (lo p t + j).
Proof.
  intros Hj. unfold idx_of. rewrite N.mod_pow2_bits_low by exact Hj. rewrite N.div_pow2_bits. f_equal. lia.
Qed.

Lemma ptr_get_bit_ok v j : bytes_ok v -> j < 8 * lenN v -> ptr_get_bit v j = Ok (N.b2n (N.testbit (le_val v) j)).
Proof.
  clear. intros HB Hj. unfold ptr_get_bit. rewrite (aget_ok _ _ 0) by lia. cbn [bind]. f_equal.
  rewrite le_val_testbit by exact HB. change 1 with (N.ones 1). rewrite N.land_ones. change (2 ^ 1) with 2.
  rewrite <- N.bit0_mod, N.shiftr_spec'. reflexivity.
Qed.

Lemma ChalDec_ok chal t : bytes_ok chal -> p_lambda p / 8 <= lenN chal -> t < p_tau p ->
  ChalDec chal t (p_k0 p) (p_t0 p) (p_k1 p) (p_t1 p) = Ok (true, bits_of (idx_of chal t) (tree_depth p t)).
Proof.
  intros HB HL Ht. pose proof (lo_bound t Ht) as HLB. pose proof (depth_bound t) as HD.
  pose proof (lo_succ t) as HS. destruct VP. unfold ChalDec. replace (p_t0 p + p_t1 p <=? t) with false by lia.
  assert (HP : (if t <? p_t0 p then (t * p_k0 p, (t + 1) * p_k0 p)
      else (p_t0 p * p_k0 p + (t - p_t0 p) * p_k1 p, p_t0 p * p_k0 p + (t - p_t0 p + 1) * p_k1 p))
    = (lo p t, lo p t + tree_depth p t)).
  { unfold lo, tree_depth. destruct (t <? p_t0 p); cbv zeta; f_equal; lia. }
  cbv zeta. rewrite HP. replace (lo p t + tree_depth p t - lo p t) with (tree_depth p t) by lia.
  rewrite guard_true by (unfold MAX_DEPTH; lia). cbn [bind].
  assert (HM : mapM (fun j => ptr_get_bit chal j) (Nfromto (lo p t) (lo p t + tree_depth p t))
     = Ok (bits_of (idx_of chal t) (tree_depth p t))).
  { rewrite (mapM_pure _ (fun j => N.b2n (N.testbit (le_val chal) j))).
    2:{ intros j Hj. apply In_Nfromto in Hj. apply ptr_get_bit_ok; [exact HB|].
        assert (8 * (p_lambda p / 8) = p_lambda p).
        { revert vp_lam0. clear. cbn [In]. intros [<- | [<- | [<- | []]]]; reflexivity. }
        lia. }
    f_equal. apply (list_ext 0).
    - rewrite lenN_map, lenN_Nfromto, lenN_bits_of. lia.
    - intros i Hi. rewrite lenN_map, lenN_Nfromto in Hi.
      rewrite (nthN_map _ _ _ 0) by (rewrite lenN_Nfromto; lia). rewrite nthN_Nfromto by lia.
      rewrite nthN_bits_of by lia. rewrite idx_bit by lia. reflexivity. }
  rewrite HM. reflexivity.
Qed.
Lemma ChalDec_fails chal t : p_tau p <= t -> ChalDec chal t (p_k0 p) (p_t0 p) (p_k1 p) (p_t1 p) = Ok (false, []).
Proof. intros H. destruct VP. unfold ChalDec. replace (p_t0 p + p_t1 p <=? t) with true by lia. reflexivity. Qed.
End Params.

(** * Only the first 16 bytes of the IV matter *)
Lemma slice16 (iv : list N) : 16 <= lenN iv -> slice (takeN 16 iv) 0 16 = slice iv 0 16.
Proof.
  intros H. rewrite !slice_ok by (rewrite ?lenN_takeN; lia). rewrite !dropN_0, takeN_takeN. reflexivity.
Qed.
Lemma prg_iv key iv s n : 16 <= lenN iv -> prg key (takeN 16 iv) s n = prg key iv s n.
Proof. intros H. unfold prg. rewrite slice16 by exact H. reflexivity. Qed.
Lemma bind_ext {A B} (m : res A) (f g : A -> res B) : (forall a, f a = g a) -> bind m f = bind m g.
Proof. intros H. destruct m; cbn; [apply H|reflexivity]. Qed.
Ltac bx := apply bind_ext; intros ?.

Lemma generate_seeds_iv lambda k iv d : 16 <= lenN iv ->
  generate_seeds lambda k (takeN 16 iv) d = generate_seeds lambda k iv d.
Proof.
  intros H. unfold generate_seeds, expand_seeds. bx. bx. bx.
  apply foldM_ext. intros st i _. unfold expand_node. bx. rewrite prg_iv by exact H. reflexivity.
Qed.
Lemma vector_commitment_iv xof lambda k iv d : 16 <= lenN iv ->
  vector_commitment xof lambda k (takeN 16 iv) d = vector_commitment xof lambda k iv d.
Proof.
  intros H. unfold vector_commitment. rewrite generate_seeds_iv, slice16 by exact H. reflexivity.
Qed.
Lemma ConvertToVole_iv lambda iv sd b d n : 16 <= lenN iv ->
  ConvertToVole lambda (takeN 16 iv) sd b d n = ConvertToVole lambda iv sd b d n.
Proof.
  intros H. unfold ConvertToVole. bx.
  replace (if b then Ok (zeros n) else let! s := aget sd 0 in prg s (takeN 16 iv) lambda n)
    with (if b then Ok (zeros n) else let! s := aget sd 0 in prg s iv lambda n).
  2:{ destruct b; [reflexivity|]. bx. symmetry. apply prg_iv, H. }
  bx. rewrite (mapM_ext _ (fun i => let! s := aget sd i in prg s iv lambda n)); [reflexivity|].
  intros i _. bx. apply prg_iv, H.
Qed.
Lemma vector_reconstruction_iv xof lambda iv cop cj b d vr : 16 <= lenN iv ->
  vector_reconstruction xof lambda (takeN 16 iv) cop cj b d vr = vector_reconstruction xof lambda iv cop cj b d vr.
Proof.
  intros H. unfold vector_reconstruction.
  bx. bx. rewrite (foldM_ext (rec_level lambda (takeN 16 iv) cop b d) (rec_level lambda iv cop b d)).
  2:{ intros [a2 k] i _. unfold rec_level. cbv zeta.
      repeat (bx; try (rewrite (foldM_ext (rec_expand lambda (takeN 16 iv) i a2) (rec_expand lambda iv i a2));
        [reflexivity|]; intros kk j _; unfold rec_expand; destruct (j =? a2); [reflexivity|];
        repeat (try (rewrite prg_iv by exact H); try reflexivity; bx))). }
  rewrite slice16 by exact H. reflexivity.
Qed.
Lemma vole_commit_iv xof p rk iv n : 16 <= lenN iv -> vole_commit xof p rk (takeN 16 iv) n = vole_commit xof p rk iv n.
Proof.
  intros H. unfold vole_commit. rewrite prg_iv by exact H. bx.
  match goal with |- bind (foldM ?f ?l ?s) _ = bind (foldM ?g _ _) _ => rewrite (foldM_ext f g) end; [reflexivity|].
  intros [[[ctx vcs] uis] v] i _. cbv zeta. bx. rewrite vector_commitment_iv by exact H. bx.
  rewrite ConvertToVole_iv by exact H. reflexivity.
Qed.
Lemma vole_reconstruct_iv xof p iv ch pd cj n : 16 <= lenN iv ->
  vole_reconstruct xof p (takeN 16 iv) ch pd cj n = vole_reconstruct xof p iv ch pd cj n.
Proof.
  intros H. unfold vole_reconstruct. bx. bx. bx.
  match goal with |- bind (foldM ?f ?l ?s) _ = bind (foldM ?g _ _) _ => rewrite (foldM_ext f g) end; [reflexivity|].
  intros [[[ctx vr'] sd'] q] i _. cbv zeta. bx. bx. bx. bx. bx. rewrite vector_reconstruction_iv by exact H.
  bx. bx. bx. rewrite ConvertToVole_iv by exact H. reflexivity.
Qed.

(** * The two sides in closed form *)
Definition colsum (L d : N) (r : N -> list N) : list N := Xs L (tab (2 ^ d) r).
Definition col (L d : N) (r : N -> list N) (j : N) : list N :=
  Xs L (tab (2 ^ d) (fun x => sel L (N.testbit x j) (r x))).

Lemma colsum_len L d r : (forall x, x < 2 ^ d -> lenN (r x) = L) -> lenN (colsum L d r) = L.
Proof. intros H. apply Xs_len, all_len_tab, H. Qed.
Lemma col_len L d r j : (forall x, x < 2 ^ d -> lenN (r x) = L) -> lenN (col L d r j) = L.
Proof. intros H. apply Xs_len, all_len_tab. intros x Hx. apply sel_len, H, Hx. Qed.
Lemma Xs_bytes L l : Forall bytes_ok l -> bytes_ok (Xs L l).
Proof. induction 1; cbn; [apply bytes_ok_zeros|apply bytes_ok_xor; assumption]. Qed.
Lemma colsum_bytes L d r : (forall x, x < 2 ^ d -> bytes_ok (r x)) -> bytes_ok (colsum L d r).
Proof.
  intros H. apply Xs_bytes, Forall_forall. intros y Hy. unfold tab in Hy. apply in_map_iff in Hy.
  destruct Hy as (x & <- & Hx). apply H, In_Nrange, Hx.
Qed.
Lemma col_bytes L d r j : (forall x, x < 2 ^ d -> bytes_ok (r x)) -> bytes_ok (col L d r j).
Proof.
  intros H. apply Xs_bytes, Forall_forall. intros y Hy. unfold tab in Hy. apply in_map_iff in Hy.
  destruct Hy as (x & <- & Hx). apply In_Nrange in Hx. destruct (N.testbit x j); cbn [sel]; [apply H, Hx|apply bytes_ok_zeros].
Qed.
Lemma col_ext L d r r' j : (forall x, x < 2 ^ d -> r x = r' x) -> col L d r j = col L d r' j.
Proof. intros H. unfold col. f_equal. apply tab_ext. intros x Hx. rewrite H by exact Hx. reflexivity. Qed.

Lemma tab_Nfromto1 {A} (f : N -> A) n : 1 <= n -> f 0 :: map f (Nfromto 1 n) = tab n f.
Proof.
  intros H. unfold tab. rewrite Nrange_Nfromto, (Nfromto_cons 0 n) by lia. reflexivity.
Qed.

Section Sides.
Variables (lambda : N) (iv : list N).
Hypothesis Hlam : In lambda [128; 192; 256].
Hypothesis Hiv : lenN iv = 16.
Hypothesis Hivb : bytes_ok iv.
Local Notation lb := (lambda / 8).
Local Notation str := (stream (aes_of lambda)).

Lemma ConvertToVole_prover sd d L : 1 <= d <= 29 -> 2 ^ d <= lenN sd ->
  (forall x, x < 2 ^ d -> node_ok lambda (nthN sd x [])) ->
  ConvertToVole lambda iv sd false d L =
  Ok (Some (colsum L d (fun x => str (nthN sd x []) iv L)), tab d (col L d (fun x => str (nthN sd x []) iv L))).
Proof.
  intros Hd HL HN. unfold ConvertToVole, one_shl. rewrite guard_true by lia. cbn [bind]. rewrite shiftl_1.
  pose proof (pow2_pos d) as Hp.
  assert (HP : forall x, x < 2 ^ d -> (let! s := aget sd x in prg s iv lambda L) = Ok (str (nthN sd x []) iv L)).
  { intros x Hx. rewrite (aget_ok _ _ []) by lia. cbn [bind]. apply prg_stream; try assumption. apply HN, Hx. }
  rewrite HP by lia. cbn [bind].
  rewrite (mapM_pure _ (fun x => str (nthN sd x []) iv L)).
  2:{ intros x Hx. apply In_Nfromto in Hx. apply HP. lia. }
  cbn [bind]. rewrite (tab_Nfromto1 (fun x => str (nthN sd x []) iv L)) by lia.
  rewrite <- (N2Nat.id d) at 2.
  rewrite convert_levels_ok by (intros; apply stream_len). rewrite N2Nat.id. reflexivity.
Qed.

Lemma ConvertToVole_verifier sd d L : 1 <= d <= 29 -> 2 ^ d <= lenN sd ->
  (forall x, 1 <= x < 2 ^ d -> node_ok lambda (nthN sd x [])) ->
  ConvertToVole lambda iv sd true d L =
  Ok (None, tab d (col L d (fun x => if x =? 0 then zeros L else str (nthN sd x []) iv L))).
Proof.
  intros Hd HL HN. unfold ConvertToVole, one_shl. rewrite guard_true by lia. cbn [bind]. rewrite shiftl_1.
  pose proof (pow2_pos d) as Hp. set (r := fun x => if x =? 0 then zeros L else str (nthN sd x []) iv L).
  rewrite (mapM_pure _ r).
  2:{ intros x Hx. apply In_Nfromto in Hx. subst r. cbv beta. replace (x =? 0) with false by lia.
      rewrite (aget_ok _ _ []) by lia. cbn [bind]. apply prg_stream; try assumption. apply HN. lia. }
  cbn [bind]. change (zeros L) with (r 0). rewrite (tab_Nfromto1 r) by lia.
  rewrite <- (N2Nat.id d) at 2.
  assert (HR : forall x, lenN (r x) = L).
  { intros x. subst r. cbv beta. destruct (x =? 0); [apply lenN_zeros|apply stream_len]. }
  rewrite convert_levels_ok by (intros; apply HR). rewrite N2Nat.id. reflexivity.
Qed.

Variable xof : N -> list N -> N -> list N.
Hypothesis HX : xof_sized xof.

Lemma seed_node_ok x : node_ok lambda (leaf_seed xof lambda x iv).
Proof. split; [apply leaf_seed_len, HX|apply leaf_seed_bytes, HX]. Qed.

(** prover: mask strings of the tree with root [root] *)
Definition r_p (L d : N) (root : list N) (x : N) : list N :=
  str (leaf_seed xof lambda (leaf lambda iv root d x) iv) iv L.
(** verifier: from the opened sibling path *)
Definition r_v (L d : N) (cop : list N) (idx x : N) : list N :=
  if x =? 0 then zeros L
  else str (leaf_seed xof lambda (rtree lambda iv cop d idx (N.to_nat d) (N.lxor x idx)) iv) iv L.
Definition vc_of (d : N) (root : list N) : vec_com :=
  mkVecCom (H1 xof lambda (concat (tab (2 ^ d) (fun j => leaf_com xof lambda (leaf lambda iv root d j) iv))))
        (tree_list lambda iv root d)
        (tab (2 ^ d) (fun j => leaf_com xof lambda (leaf lambda iv root d j) iv))
        (tab (2 ^ d) (fun j => leaf_seed xof lambda (leaf lambda iv root d j) iv)).
Definition h_v (d : N) (cop com_j : list N) (idx : N) : list N :=
  H1 xof lambda (concat (tab (2 ^ d) (fun j =>
      if j =? idx then takeN (lb * 2) com_j
      else leaf_com xof lambda (rtree lambda iv cop d idx (N.to_nat d) j) iv))).

Lemma r_p_len L d root x : lenN (r_p L d root x) = L.
Proof. apply stream_len. Qed.
Lemma r_v_len L d cop idx x : lenN (r_v L d cop idx x) = L.
Proof. unfold r_v. destruct (x =? 0); [apply lenN_zeros|apply stream_len]. Qed.
Lemma str_seed_bytes y L : bytes_ok (str (leaf_seed xof lambda y iv) iv L).
Proof.
  destruct (seed_node_ok y) as [A B]. apply stream_bytes; [|exact B]. rewrite prg_kw by exact Hlam. lia.
Qed.
Lemma r_p_bytes L d root x : bytes_ok (r_p L d root x).
Proof. apply str_seed_bytes. Qed.
Lemma r_v_bytes L d cop idx x : bytes_ok (r_v L d cop idx x).
Proof. unfold r_v. destruct (x =? 0); [apply bytes_ok_zeros|apply str_seed_bytes]. Qed.

Variable p : param.
Hypothesis VP : vole_params p.
Hypothesis Hpl : p_lambda p = lambda.
Local Notation dep := (tree_depth p).

Definition root_of (rootKey : list N) (t : N) : list N :=
  takeN lb (dropN (t * lb) (str rootKey iv (lb * p_tau p))).
Lemma root_ok rootKey t : lb <= lenN rootKey -> bytes_ok rootKey -> t < p_tau p -> node_ok lambda (root_of rootKey t).
Proof.
  intros HL HB Ht. split.
  - unfold root_of. rewrite lenN_takeN, lenN_dropN, stream_len.
    assert (t * lb + lb <= lb * p_tau p) by (generalize (p_tau p) lb t Ht; clear; intros; nia). lia.
  - apply Forall_takeN, Forall_dropN, stream_bytes; [|exact HB]. rewrite prg_kw by exact Hlam. lia.
Qed.

Definition u_p (rootKey : list N) (L t : N) : list N := colsum L (dep t) (r_p L (dep t) (root_of rootKey t)).
Definition v_p (rootKey : list N) (L t j : N) : list N := col L (dep t) (r_p L (dep t) (root_of rootKey t)) j.

Lemma guard_cols (g : N -> N -> list N) t : t < p_tau p ->
  lenN (concat (tab t (fun i => tab (dep i) (g i)))) + dep t <= lambda.
Proof.
  intros Ht. rewrite (concat_var_len (lo p)); [|apply lo_0; assumption|].
  - rewrite <- Hpl. apply lo_bound; assumption.
  - intros i Hi. rewrite lenN_tab. apply lo_succ.
Qed.

Lemma H_update_app c a b : H_update (H_update c a) b = H_update c (a ++ b).
Proof. clear. destruct c. unfold H_update. cbn. rewrite app_assoc. reflexivity. Qed.

Lemma vole_commit_ok rootKey ellhat (L := (ellhat + 7) / 8) : lb <= lenN rootKey -> bytes_ok rootKey ->
  vole_commit xof p rootKey iv ellhat =
  Ok (H1 xof lambda (concat (tab (p_tau p) (fun t => vc_h (vc_of (dep t) (root_of rootKey t))))),
      tab (p_tau p) (fun t => vc_of (dep t) (root_of rootKey t)),
      concat (tab (p_tau p - 1) (fun i => xor_bytes (u_p rootKey L 0) (u_p rootKey L (i + 1)))),
      u_p rootKey L 0,
      concat (tab (p_tau p) (fun t => tab (dep t) (v_p rootKey L t)))).
Proof.
  intros HL HB. unfold vole_commit. rewrite Hpl. fold L.
  rewrite prg_ok; try assumption.
  2:{ rewrite prg_kw by exact Hlam. lia. }
  cbn [bind].
  match goal with |- bind (foldM ?f _ _) _ = _ =>
    destruct (foldM_Nrange_inv f (fun t s => s =
      (H_update (H_init lambda) (concat (tab t (fun t => vc_h (vc_of (dep t) (root_of rootKey t))))),
       tab t (fun t => vc_of (dep t) (root_of rootKey t)),
       tab t (u_p rootKey L),
       concat (tab t (fun t => tab (dep t) (v_p rootKey L t))))) (p_tau p) (H_init lambda, [], [], []))
    as (s & -> & ->) end.
  - reflexivity.
  - intros t s Ht ->. pose proof (root_ok rootKey t HL HB Ht) as HR. pose proof (depth_bound p VP t) as HD.
    assert (HO : t * lb + lb <= lb * p_tau p) by (generalize (p_tau p) lb t Ht; clear; intros; nia).
    eexists. split; [|reflexivity]. cbv zeta.
    rewrite slice_ok by (rewrite stream_len; exact HO). cbn [bind].
    fold (root_of rootKey t).
    rewrite (vector_commitment_ok lambda iv Hlam Hiv Hivb xof _ (root_of rootKey t)).
    2:{ apply slice_full', HR. }
    2:{ apply HR. }
    2:{ lia. }
    cbn [bind vc_sd vc_h].
    rewrite ConvertToVole_prover; [|lia|rewrite lenN_tab; lia|].
    2:{ intros x Hx. rewrite nthN_tab by exact Hx. apply seed_node_ok. }
    cbn [bind fst snd]. rewrite guard_true.
    2:{ pose proof (guard_cols (v_p rootKey L) t Ht). lia. }
    cbn [bind]. rewrite !tab_succ, !concat_app. cbn [concat]. rewrite !app_nil_r, H_update_app. f_equal. f_equal.
    + f_equal. f_equal. f_equal. unfold u_p, colsum. f_equal. apply tab_ext. intros x Hx.
      rewrite nthN_tab by exact Hx. reflexivity.
    + f_equal. apply tab_ext. intros j Hj. apply col_ext. intros x Hx.
      rewrite nthN_tab by exact Hx. reflexivity.
  - cbn [bind]. pose proof (vp_tau1 p VP) as HT. rewrite aget_tab by lia. cbn [bind].
    rewrite (mapM_pure _ (fun i => xor_bytes (u_p rootKey L 0) (u_p rootKey L i))).
    2:{ intros i Hi. apply In_Nfromto in Hi. rewrite aget_tab by lia. reflexivity. }
    cbn [bind]. f_equal. f_equal. f_equal. f_equal. f_equal.
    unfold Nfromto, tab, Nrange. replace 1 with (0 + 1) by reflexivity.
    rewrite Nseq_shift, map_map. reflexivity.
Qed.

Lemma permute_seeds_ok (s sd : list (option bytes)) idx d (g : N -> bytes) :
  idx < 2 ^ d -> 2 ^ d <= lenN s -> 2 ^ d <= lenN sd ->
  (forall x, 1 <= x < 2 ^ d -> nthN s (N.lxor x idx) None = Some (g x)) ->
  exists sd', permute_seeds s idx (2 ^ d) sd = Ok sd' /\ lenN sd' = lenN sd /\
    (forall x, 1 <= x < 2 ^ d -> nthN sd' x None = Some (g x)) /\
    nthN sd' 0 None = nthN sd 0 None.
Proof.
  clear. intros Hi HS HD HG. unfold permute_seeds. pose proof (pow2_pos d) as Hp.
  match goal with |- exists sd', foldM ?f _ _ = _ /\ _ =>
    destruct (foldM_Nfromto_inv f (fun k sd' => lenN sd' = lenN sd /\
      (forall x, 1 <= x < k -> nthN sd' x None = Some (g x)) /\ nthN sd' 0 None = nthN sd 0 None) 1 (2 ^ d) sd)
      as (sd' & E & A & B & C) end.
  - lia.
  - repeat split. intros x Hx. lia.
  - intros x sd1 Hx (A & B & C).
    assert (HLX : N.lxor x idx < 2 ^ d) by (apply lxor_lt; lia).
    unfold ginit. rewrite (aget_ok _ _ None) by lia. cbn [bind]. rewrite HG by lia. cbn [bind].
    rewrite (aset_ok sd1 x (Some (g x))) by lia. eexists. split; [reflexivity|].
    split; [rewrite lenN_upd; exact A|]. split.
    + intros y Hy. rewrite nthN_upd by lia. destruct (y =? x) eqn:Ey; [f_equal; f_equal; lia|apply B; lia].
    + rewrite nthN_upd by lia. replace (0 =? x) with false by lia. exact C.
  - exists sd'. split; [exact E|]. split; [exact A|]. split; assumption.
Qed.

Lemma read_cells_ok (sd : list (option bytes)) n (g : N -> bytes) : n <= lenN sd ->
  (forall x, x < n -> nthN sd x None = Some (g x)) -> read_cells sd n = Ok (tab n g).
Proof.
  clear. intros HL HG. apply mapM_tab. intros i Hi. unfold ginit. rewrite (aget_ok _ _ None) by lia.
  cbn [bind]. rewrite HG by exact Hi. reflexivity.
Qed.

(** the columns and the digest computed by the verifier, for arbitrary openings *)
Definition q_v (chall : list N) (pdec : list (list N)) (L t j : N) : list N :=
  col L (dep t) (r_v L (dep t) (nthN pdec t []) (idx_of p chall t)) j.
Definition hcom_v (chall : list N) (pdec com_j : list (list N)) : list N :=
  H1 xof lambda (concat (tab (p_tau p) (fun t =>
    h_v (dep t) (nthN pdec t []) (nthN com_j t []) (idx_of p chall t)))).

Lemma vole_reconstruct_ok chall pdec com_j ellhat (L := (ellhat + 7) / 8) :
  bytes_ok chall -> lb <= lenN chall ->
  p_tau p <= lenN pdec -> p_tau p <= lenN com_j ->
  (forall t, t < p_tau p -> lb * dep t <= lenN (nthN pdec t []) /\ bytes_ok (nthN pdec t [])) ->
  (forall t, t < p_tau p -> lb * 2 <= lenN (nthN com_j t [])) ->
  vole_reconstruct xof p iv chall pdec com_j ellhat =
  Ok (hcom_v chall pdec com_j, concat (tab (p_tau p) (fun t => tab (dep t) (q_v chall pdec L t)))).
Proof.
  intros HCB HCL HPL HJL HP HJ. unfold vole_reconstruct. rewrite Hpl. fold L.
  set (maxk := N.max (p_k0 p) (p_k1 p)).
  assert (HK : 1 <= maxk <= 12) by (destruct VP; subst maxk; lia).
  assert (HDK : forall t, dep t <= maxk).
  { intros t. unfold tree_depth. subst maxk. destruct (t <? p_t0 p); lia. }
  unfold one_shl at 1. rewrite guard_true by lia. cbn [bind]. rewrite shiftl_1. pose proof (pow2_pos maxk) as Hpk.
  rewrite aset_ok by (unfold lenN; rewrite repeat_length; lia). cbn [bind].
  unfold vec_com_rec_alloc, getBinaryTreeNodeCount, one_shl. rewrite !guard_true by lia. cbn [bind].
  rewrite !shiftl_1.
  match goal with |- bind (foldM ?f _ (?c0, ?vr0, ?sd0, _)) _ = _ =>
    destruct (foldM_Nrange_inv f (fun t s => exists vr sd, s =
      (H_update (H_init lambda) (concat (tab t (fun t =>
         h_v (dep t) (nthN pdec t []) (nthN com_j t []) (idx_of p chall t)))), vr, sd,
       concat (tab t (fun t => tab (dep t) (q_v chall pdec L t)))) /\
      vr_fits maxk vr /\ lenN sd = 2 ^ maxk /\ nthN sd 0 None = Some (zeros lb)) (p_tau p) (c0, vr0, sd0, []))
    as (s & -> & vr & sd & -> & _) end.
  - do 2 eexists. split; [reflexivity|]. split; [|split].
    + unfold vr_fits. cbn [vr_k vr_s vr_com]. unfold lenN. rewrite !repeat_length. rewrite !N2Nat.id. lia.
    + rewrite lenN_upd. unfold lenN. rewrite repeat_length. lia.
    + rewrite (nthN_upd _ 0 0) by (unfold lenN; rewrite repeat_length; lia). reflexivity.
  - intros t s Ht (vr & sd & -> & (F1 & F2 & F3) & HSL & HS0). cbv zeta.
    pose proof (depth_bound p VP t) as HD. pose proof (HDK t) as HDt.
    pose proof (idx_bound p chall t) as HI.
    rewrite guard_true by lia. cbn [bind]. rewrite shiftl_1.
    rewrite ChalDec_ok by (rewrite ?Hpl; assumption). cbn [bind snd].
    rewrite NumRec_bits by lia. rewrite N.mod_small by exact HI. cbn [bind].
    rewrite !(aget_ok _ _ []) by lia. cbn [bind].
    assert (HM : 2 ^ dep t <= 2 ^ maxk) by (apply N.pow_le_mono_r; lia).
    assert (HM1 : 2 ^ (dep t + 1) <= 2 ^ (maxk + 1)) by (apply N.pow_le_mono_r; lia).
    destruct (HP t Ht) as [HP1 HP2].
    destruct (vector_reconstruction_ok lambda iv Hlam Hiv Hivb xof (nthN pdec t []) (nthN com_j t [])
      (dep t) (idx_of p chall t) vr) as (vr' & -> & A1 & A2 & A3 & A4 & A5 & A6); try assumption; try lia.
    { apply HJ, Ht. }
    cbn [bind].
    destruct (permute_seeds_ok (vr_s vr') sd (idx_of p chall t) (dep t) (fun x =>
      leaf_seed xof lambda (rtree lambda iv (nthN pdec t []) (dep t) (idx_of p chall t) (N.to_nat (dep t))
        (N.lxor x (idx_of p chall t))) iv)) as (sd' & -> & B1 & B2 & B3); try assumption; try lia.
    { intros x Hx. apply A5; [apply lxor_lt; lia|].
      intros E. assert (x = 0); [|lia]. apply (f_equal (fun y => N.lxor y (idx_of p chall t))) in E.
      rewrite N.lxor_assoc, N.lxor_nilpotent, N.lxor_0_r in E. exact E. }
    cbn [bind].
    rewrite (read_cells_ok sd' (2 ^ dep t) (fun x => if x =? 0 then zeros lb else
      leaf_seed xof lambda (rtree lambda iv (nthN pdec t []) (dep t) (idx_of p chall t) (N.to_nat (dep t))
        (N.lxor x (idx_of p chall t))) iv)).
    2:{ lia. }
    2:{ intros x Hx. destruct (x =? 0) eqn:Ex.
        - replace x with 0 by lia. rewrite B3. exact HS0.
        - apply B2. lia. }
    cbn [bind]. rewrite ConvertToVole_verifier; [|lia|rewrite lenN_tab; lia|].
    2:{ intros x Hx. rewrite nthN_tab by lia. replace (x =? 0) with false by lia. apply seed_node_ok. }
    cbn [bind snd]. rewrite guard_true.
    2:{ pose proof (guard_cols (q_v chall pdec L) t Ht). lia. }
    cbn [bind]. eexists. split; [reflexivity|]. exists vr', sd'. split; [|split; [|split]].
    + rewrite !tab_succ, !concat_app. cbn [concat]. rewrite !app_nil_r, H_update_app, A1. f_equal. f_equal.
      apply tab_ext. intros j Hj. apply col_ext. intros x Hx. rewrite nthN_tab by exact Hx. unfold r_v.
      destruct (x =? 0); reflexivity.
    + unfold vr_fits. rewrite A2, A3, A4. split; [|split]; assumption.
    + lia.
    + rewrite B3. exact HS0.
  - reflexivity.
Qed.

(** honest openings: the verifier's columns before and after correction *)
Lemma honest_columns rootKey chall L t j : lb <= lenN rootKey -> bytes_ok rootKey -> t < p_tau p -> j < dep t ->
  forall pdec, nthN pdec t [] =
    co_path (tree_list lambda iv (root_of rootKey t) (dep t)) (dep t) (idx_of p chall t) ->
  q_v chall pdec L t j =
  xor_bytes (v_p rootKey L t j)
    (sel L (N.testbit (le_val chall) (lo p t + j)) (u_p rootKey L t)).
Proof.
  intros HL HB Ht Hj pdec E. unfold q_v. rewrite E. pose proof (depth_bound p VP t) as HD.
  pose proof (idx_bound p chall t) as HI. pose proof (root_ok rootKey t HL HB Ht) as HR.
  rewrite <- idx_bit by exact Hj. unfold v_p, u_p, col, colsum.
  rewrite <- vole_identity by (try assumption; intros; apply r_p_len).
  f_equal. apply tab_ext. intros x Hx. unfold r_v, r_p. destruct (x =? 0) eqn:Ex; [reflexivity|]. f_equal. f_equal.
  rewrite (rtree_co_path lambda iv Hlam Hiv xof); try assumption; rewrite ?N2Nat.id.
  - reflexivity.
  - lia.
  - lia.
  - apply lxor_lt; assumption.
  - rewrite ancestor_top.
    intros E2. apply (f_equal (fun y => N.lxor y (idx_of p chall t))) in E2.
    rewrite N.lxor_assoc, N.lxor_nilpotent, N.lxor_0_r in E2. lia.
Qed.

Lemma honest_digest rootKey chall pdec com_j : lb <= lenN rootKey -> bytes_ok rootKey ->
  (forall t, t < p_tau p -> nthN pdec t [] =
    co_path (tree_list lambda iv (root_of rootKey t) (dep t)) (dep t) (idx_of p chall t)) ->
  (forall t, t < p_tau p -> nthN com_j t [] =
     leaf_com xof lambda (leaf lambda iv (root_of rootKey t) (dep t) (idx_of p chall t)) iv) ->
  hcom_v chall pdec com_j =
  H1 xof lambda (concat (tab (p_tau p) (fun t => vc_h (vc_of (dep t) (root_of rootKey t))))).
Proof.
  intros HL HB HP HJ. unfold hcom_v. f_equal. f_equal. apply tab_ext. intros t Ht.
  pose proof (depth_bound p VP t) as HD.
  pose proof (idx_bound p chall t) as HI. pose proof (root_ok rootKey t HL HB Ht) as HR.
  unfold h_v, vc_of. cbn [vc_h]. f_equal. f_equal. apply tab_ext. intros j Hj.
  rewrite HJ, HP by exact Ht. destruct (j =? idx_of p chall t) eqn:E.
  - replace j with (idx_of p chall t) by lia. apply takeN_all. rewrite leaf_com_len by exact HX. lia.
  - f_equal. rewrite (rtree_co_path lambda iv Hlam Hiv xof); try assumption; rewrite ?N2Nat.id; try lia.
    + reflexivity.
    + rewrite ancestor_top. lia.
Qed.
End Sides.
