(** The statements of C12, C13, C16, C17, C39 from Proof/VcProof.v. *)
From Verif.Model Require Import Vc.
From Verif.Spec Require Import VcSpec.
From Verif.Proof Require Import BaseProof PrgProof AesProps VcProof.
From Coq Require Import Lia ZifyBool ZifyNat ZifyN.
Ltac Zify.zify_post_hook ::= Z.div_mod_to_equations.

Lemma nth_error_nthN {A} (l : list A) i d : i < lenN l -> nth_error l (N.to_nat i) = Some (nthN l i d).
Proof. intros H. unfold nthN. apply nth_error_nth'. unfold lenN in H. lia. Qed.

Lemma xof_len xof s data n : xof_sized xof -> lenN (xof s data n) = n.
Proof. intros H. destruct (H s data n) as [A _]. unfold lenN. lia. Qed.

Lemma leaf_com_len xof lambda x iv : xof_sized xof -> lenN (leaf_com xof lambda x iv) = lambda / 8 * 2.
Proof.
  intros H. unfold leaf_com, H0. change (skipn (N.to_nat (lambda / 8))) with (@dropN N (lambda / 8)).
  rewrite lenN_dropN, xof_len by exact H. lia.
Qed.
Lemma leaf_seed_len xof lambda x iv : xof_sized xof -> lenN (leaf_seed xof lambda x iv) = lambda / 8.
Proof.
  intros H. unfold leaf_seed, H0. change (firstn (N.to_nat (lambda / 8))) with (@takeN N (lambda / 8)).
  rewrite lenN_takeN, xof_len by exact H. lia.
Qed.
Lemma leaf_seed_bytes xof lambda x iv : xof_sized xof -> bytes_ok (leaf_seed xof lambda x iv).
Proof. intros H. apply (Forall_takeN _ (lambda / 8)), H. Qed.
Lemma leaf_com_bytes xof lambda x iv : xof_sized xof -> bytes_ok (leaf_com xof lambda x iv).
Proof. intros H. apply (Forall_dropN _ (lambda / 8)), H. Qed.

Definition vr_fits (depth : N) (vr : vec_com_rec) : Prop :=
  2 ^ (depth + 1) - 1 <= lenN (vr_k vr) /\ 2 ^ depth <= lenN (vr_s vr) /\ 2 ^ depth <= lenN (vr_com vr).

(** an honest opening reconstructs to the committed values *)
Lemma open_reconstruct_core xof lambda iv root depth idx vr : xof_sized xof ->
  In lambda [128; 192; 256] -> lenN iv = 16 -> bytes_ok iv -> node_ok lambda root ->
  1 <= depth <= 29 -> idx < 2 ^ depth -> vr_fits depth vr ->
  exists vr', vector_reconstruction xof lambda iv (co_path (tree_list lambda iv root depth) depth idx)
                (leaf_com xof lambda (leaf lambda iv root depth idx) iv) (bits_of idx depth) depth vr = Ok vr' /\
    vr_h vr' = H1 xof lambda (concat (tab (2 ^ depth) (fun j => leaf_com xof lambda (leaf lambda iv root depth j) iv))) /\
    lenN (vr_k vr') = lenN (vr_k vr) /\ lenN (vr_s vr') = lenN (vr_s vr) /\
    lenN (vr_com vr') = lenN (vr_com vr) /\
    (forall j, j < 2 ^ depth -> j <> idx ->
       nthN (vr_s vr') j None = Some (leaf_seed xof lambda (leaf lambda iv root depth j) iv)).
Proof.
  intros HX Hlam Hiv Hivb HR Hd Hi (F1 & F2 & F3).
  destruct (co_path_ok lambda iv Hlam Hiv xof root depth idx HR Hd Hi) as [C1 C2].
  destruct (vector_reconstruction_ok lambda iv Hlam Hiv Hivb xof
    (co_path (tree_list lambda iv root depth) depth idx)
    (leaf_com xof lambda (leaf lambda iv root depth idx) iv) depth idx vr)
    as (vr' & E & A1 & A2 & A3 & A4 & A5 & A6); try assumption; try lia.
  { rewrite leaf_com_len by exact HX. lia. }
  assert (HT : forall j, j < 2 ^ depth -> j <> idx ->
    rtree lambda iv (co_path (tree_list lambda iv root depth) depth idx) depth idx (N.to_nat depth) j
    = leaf lambda iv root depth j).
  { intros j Hj Hne. apply rtree_co_path; try assumption; rewrite ?N2Nat.id, ?ancestor_top; try assumption; lia. }
  exists vr'. split; [exact E|]. split.
  - rewrite A1. f_equal. f_equal. apply tab_ext. intros j Hj. destruct (j =? idx) eqn:Ej.
    + replace j with idx by lia. apply takeN_all. rewrite leaf_com_len by exact HX. lia.
    + rewrite HT by lia. reflexivity.
  - repeat (split; [assumption|]). intros j Hj Hne. rewrite A5, HT by assumption. reflexivity.
Qed.

Lemma open_reconstruct xof : xof_sized xof ->
  forall lambda, In lambda [128; 192; 256] ->
  forall rootKey iv depth idx vr,
  lambda / 8 <= lenN rootKey -> bytes_ok rootKey -> lenN iv = 16 -> bytes_ok iv ->
  1 <= depth <= 29 -> idx < 2 ^ depth ->
  2 ^ (depth + 1) - 1 <= lenN (vr_k vr) -> 2 ^ depth <= lenN (vr_s vr) -> 2 ^ depth <= lenN (vr_com vr) ->
  exists vc bits cop com_j vr',
    vector_commitment xof lambda rootKey iv depth = Ok vc /\
    BitDec idx depth = Ok (true, bits) /\
    vector_open (vc_k vc) (vc_com vc) bits depth = Ok (cop, com_j) /\
    vector_reconstruction xof lambda iv cop com_j bits depth vr = Ok vr' /\
    vr_h vr' = vc_h vc /\
    forall j, j < 2 ^ depth -> j <> idx ->
      exists sd, nth_error (vc_sd vc) (N.to_nat j) = Some sd /\
                 nth_error (vr_s vr') (N.to_nat j) = Some (Some sd).
Proof.
  intros HX lambda Hlam rootKey iv depth idx vr HK HKB Hiv Hivb Hd Hi F1 F2 F3.
  set (root := takeN (lambda / 8) rootKey).
  assert (HS : slice rootKey 0 (lambda / 8) = Ok root) by (rewrite slice_ok by lia; rewrite dropN_0; reflexivity).
  assert (HRB : bytes_ok root) by (apply Forall_takeN, HKB).
  assert (HR : node_ok lambda root).
  { split; [|exact HRB]. subst root. rewrite lenN_takeN. lia. }
  destruct (open_reconstruct_core xof lambda iv root depth idx vr) as (vr' & E & A1 & A2 & A3 & A4 & A5);
    try assumption; [repeat split; assumption|].
  do 5 eexists. split; [apply (vector_commitment_ok lambda iv Hlam Hiv Hivb xof _ root); assumption|].
  split; [rewrite BitDec_ok by lia; replace (idx <? 2 ^ depth) with true by lia; reflexivity|].
  cbn [vc_k vc_com vc_h vc_sd]. split.
  { apply vector_open_ok; try assumption.
    - unfold tree_list. rewrite lenN_tab. lia.
    - rewrite lenN_tab. lia. }
  rewrite nthN_tab by exact Hi. split; [exact E|]. split; [exact A1|].
  intros j Hj Hne. exists (leaf_seed xof lambda (leaf lambda iv root depth j) iv). split.
  - rewrite (nth_error_nthN _ _ []) by (rewrite lenN_tab; exact Hj). rewrite nthN_tab by exact Hj. reflexivity.
  - rewrite (nth_error_nthN _ _ None) by lia. rewrite A5 by assumption. reflexivity.
Qed.

(** the checking function accepts an honest opening *)
Lemma bytes_eqb_refl a : bytes_eqb a a = true.
Proof. induction a as [|x a IH]; cbn [bytes_eqb]; [reflexivity|]. rewrite N.eqb_refl. exact IH. Qed.
Lemma bytes_eqb_eq a b : bytes_eqb a b = true <-> a = b.
Proof.
  split; [|intros ->; apply bytes_eqb_refl]. revert b. induction a as [|x a IH]; intros [|y b] H; cbn in H; try discriminate.
  - reflexivity.
  - apply andb_prop in H. destruct H as [H1 H2]. rewrite (IH _ H2). f_equal. lia.
Qed.

Lemma open_verifies xof : xof_sized xof ->
  forall lambda, In lambda [128; 192; 256] ->
  forall rootKey iv depth idx vc bits cop com_j,
  lambda / 8 <= lenN rootKey -> bytes_ok rootKey -> lenN iv = 16 -> bytes_ok iv ->
  1 <= depth <= 29 -> idx < 2 ^ depth ->
  vector_commitment xof lambda rootKey iv depth = Ok vc ->
  BitDec idx depth = Ok (true, bits) ->
  vector_open (vc_k vc) (vc_com vc) bits depth = Ok (cop, com_j) ->
  exists vr', vector_verify xof lambda iv cop com_j bits depth (vc_h vc) = Ok (Some vr') /\
    forall j, j < 2 ^ depth -> j <> idx ->
      exists sd, nth_error (vc_sd vc) (N.to_nat j) = Some sd /\
                 nth_error (vr_s vr') (N.to_nat j) = Some (Some sd).
Proof.
  intros HX lambda Hlam rootKey iv depth idx vc bits cop com_j HK HKB Hiv Hivb Hd Hi E1 E2 E3.
  unfold vector_verify, vec_com_rec_alloc, getBinaryTreeNodeCount, one_shl.
  rewrite !guard_true by lia. cbn [bind]. rewrite !shiftl_1.
  match goal with |- context [vector_reconstruction xof lambda iv cop com_j bits depth ?v] =>
    destruct (open_reconstruct xof HX lambda Hlam rootKey iv depth idx v)
      as (vc' & bits' & cop' & com_j' & vr' & A1 & A2 & A3 & A4 & A5 & A6); try assumption end;
    try (cbn [vr_k vr_s vr_com]; rewrite lenN_repeat; lia).
  rewrite E1 in A1. injection A1 as <-. rewrite E2 in A2. injection A2 as <-.
  rewrite E3 in A3. injection A3 as <- <-. rewrite A4. cbn [bind].
  assert (HL : lenN (vc_h vc) = lambda / 8 * 2).
  { rewrite (vector_commitment_ok lambda iv Hlam Hiv Hivb xof _ (takeN (lambda / 8) rootKey)) in E1.
    - injection E1 as <-. cbn [vc_h]. unfold H1. rewrite xof_len by exact HX. reflexivity.
    - rewrite slice_ok by lia. rewrite dropN_0. reflexivity.
    - apply Forall_takeN, HKB.
    - exact Hd. }
  rewrite slice_full' by exact HL. cbn [bind]. rewrite A5, bytes_eqb_refl.
  exists vr'. split; [reflexivity|exact A6].
Qed.

(** C13 *)
Lemma opening_is_copath : forall k com depth idx bits, 1 <= depth <= 29 ->
  BitDec idx depth = Ok (true, bits) ->
  2 ^ (depth + 1) - 1 <= lenN k -> 2 ^ depth <= lenN com ->
  vector_open k com bits depth =
    Ok (concat (map (fun l => nth (N.to_nat (bfs l (sibling (ancestor depth idx l)))) k [])
                    (map N.of_nat (seq 1 (N.to_nat depth)))),
        nth (N.to_nat idx) com []).
Proof.
  intros k com depth idx bits Hd E Hk Hc. rewrite BitDec_ok in E by lia.
  destruct (idx <? 2 ^ depth) eqn:Hi; [|discriminate]. injection E as <-.
  rewrite vector_open_ok by (try assumption; lia). f_equal. f_equal. unfold co_path. f_equal.
  unfold tab. rewrite Nrange_Nfromto.
  assert (G : forall n a, map (fun l => nthN k (bfs (l + 1) (sibling (ancestor depth idx (l + 1)))) []) (Nseq (N.of_nat a) n)
    = map (fun l => nth (N.to_nat (bfs l (sibling (ancestor depth idx l)))) k []) (map N.of_nat (seq (S a) n))).
  { induction n as [|n IH]; intros a; [reflexivity|]. cbn [Nseq seq map].
    replace (N.of_nat a + 1) with (N.of_nat (S a)) by lia. rewrite IH. reflexivity. }
  unfold Nfromto. rewrite (G _ 0%nat). f_equal. f_equal. f_equal. lia.
Qed.

Lemma sibling_not_ancestor : forall depth idx l, 1 <= l <= depth -> idx < 2 ^ depth ->
  sibling (ancestor depth idx l) < 2 ^ l /\ sibling (ancestor depth idx l) <> ancestor depth idx l.
Proof.
  intros depth idx l Hl Hi. split; [|apply sibling_neq].
  assert (E : 2 ^ l = 2 * 2 ^ (l - 1)) by (rewrite <- pow2_S; f_equal; lia).
  rewrite E. apply sibling_bound. rewrite <- E. apply ancestor_bound; [exact Hi|lia].
Qed.

Lemma opening_hides_path : forall k k' com com' depth idx bits, 1 <= depth <= 29 ->
  BitDec idx depth = Ok (true, bits) ->
  2 ^ (depth + 1) - 1 <= lenN k -> 2 ^ depth <= lenN com ->
  lenN k' = lenN k -> lenN com' = lenN com ->
  (forall l p, l <= depth -> p < 2 ^ l -> p <> ancestor depth idx l ->
     nth_error k' (N.to_nat (bfs l p)) = nth_error k (N.to_nat (bfs l p))) ->
  nth_error com' (N.to_nat idx) = nth_error com (N.to_nat idx) ->
  vector_open k' com' bits depth = vector_open k com bits depth.
Proof.
  intros k k' com com' depth idx bits Hd E Hk Hc Lk Lc Ek Ec.
  rewrite !(opening_is_copath _ _ depth idx) by (try assumption; lia).
  assert (Hi : idx < 2 ^ depth).
  { rewrite BitDec_ok in E by lia. destruct (idx <? 2 ^ depth) eqn:Hi; [lia|discriminate]. }
  rewrite (nth_error_nthN com idx []), (nth_error_nthN com' idx []) in Ec by lia.
  injection Ec as Ec. unfold nthN in Ec. rewrite Ec. f_equal. f_equal. f_equal. apply map_ext_in.
  intros l Hl. apply in_map_iff in Hl. destruct Hl as (m & <- & Hm). apply in_seq in Hm.
  destruct (sibling_not_ancestor depth idx (N.of_nat m)) as [S1 S2]; [lia|exact Hi|].
  specialize (Ek (N.of_nat m) _ ltac:(lia) S1 S2).
  pose proof (bfs_bound (N.of_nat m) _ depth ltac:(lia) S1).
  rewrite (nth_error_nthN k _ []), (nth_error_nthN k' _ []) in Ek by lia.
  injection Ek as Ek. exact Ek.
Qed.

(** C16 *)
Lemma bitdec_numrec : forall depth idx, depth <= 31 -> idx < 2 ^ depth ->
  exists bits, BitDec idx depth = Ok (true, bits) /\ lenN bits = depth /\
    (forall i, i < depth -> nth (N.to_nat i) bits 2 = N.b2n (N.testbit idx i)) /\
    NumRec depth bits = Ok idx.
Proof.
  intros depth idx Hd Hi. exists (bits_of idx depth). rewrite BitDec_ok by lia.
  replace (idx <? 2 ^ depth) with true by lia. split; [reflexivity|]. split; [apply lenN_bits_of|].
  split.
  - intros i H. change (nthN (bits_of idx depth) i 2 = N.b2n (N.testbit idx i)).
    rewrite (nthN_indep _ _ _ 0) by (rewrite lenN_bits_of; exact H). apply nthN_bits_of, H.
  - rewrite NumRec_bits by lia. rewrite N.mod_small by exact Hi. reflexivity.
Qed.
Lemma bitdec_fails : forall depth idx, depth <= 31 -> 2 ^ depth <= idx -> BitDec idx depth = Ok (false, []).
Proof.
  intros depth idx Hd Hi. rewrite BitDec_ok by lia. replace (idx <? 2 ^ depth) with false by lia. reflexivity.
Qed.
Lemma numrec_bitdec : forall depth bits, depth <= 31 -> lenN bits = depth -> Forall (fun b => b < 2) bits ->
  exists idx, NumRec depth bits = Ok idx /\ idx < 2 ^ depth /\ BitDec idx depth = Ok (true, bits).
Proof.
  intros depth bits Hd HL HB. destruct (NumRec_ok depth bits) as (x & Hx & E & EN); try assumption; [lia|].
  exists x. split; [exact EN|]. split; [exact Hx|]. rewrite BitDec_ok by lia.
  replace (x <? 2 ^ depth) with true by lia. rewrite <- E. reflexivity.
Qed.

(** C17 *)
Lemma node_count : forall depth, depth <= 29 -> getBinaryTreeNodeCount depth = Ok (2 ^ (depth + 1) - 1).
Proof.
  intros depth Hd. unfold getBinaryTreeNodeCount. rewrite guard_true by lia. cbn [bind]. rewrite shiftl_1. reflexivity.
Qed.
Lemma node_index_bijection : forall depth, depth <= 29 ->
  exists count, getBinaryTreeNodeCount depth = Ok count /\
  (forall l p, l <= depth -> p < 2 ^ l -> exists n, getNodeIndex l p = Ok n /\ n < count) /\
  (forall l p l' p' n, l <= depth -> l' <= depth -> p < 2 ^ l -> p' < 2 ^ l' ->
     getNodeIndex l p = Ok n -> getNodeIndex l' p' = Ok n -> l = l' /\ p = p') /\
  (forall n, n < count -> exists l p, l <= depth /\ p < 2 ^ l /\ getNodeIndex l p = Ok n).
Proof.
  intros depth Hd. exists (2 ^ (depth + 1) - 1). split; [apply node_count, Hd|].
  assert (OK : forall l p, l <= depth -> p < 2 ^ l -> getNodeIndex l p = Ok (bfs l p)).
  { intros l p Hl Hp. apply getNodeIndex_ok; [lia|]. intros ->. change (2 ^ 0) with 1 in Hp. lia. }
  split; [|split].
  - intros l p Hl Hp. exists (bfs l p). split; [apply OK; assumption|]. apply bfs_bound; assumption.
  - intros l p l' p' n Hl Hl' Hp Hp'. rewrite !OK by assumption. intros [= E] [= E'].
    apply bfs_inj; congruence.
  - intros n Hn. destruct (bfs_surj depth n Hn) as (l & p & Hl & Hp & ->).
    exists l, p. split; [exact Hl|]. split; [exact Hp|]. apply OK; assumption.
Qed.
Lemma node_children : forall l p n, l < 30 -> p < 2 ^ l -> getNodeIndex l p = Ok n ->
  getNodeIndex (l + 1) (2 * p) = Ok (2 * n + 1) /\ getNodeIndex (l + 1) (2 * p + 1) = Ok (2 * n + 2) /\
  get_parent (2 * n + 1) = n /\ get_parent (2 * n + 2) = n.
Proof.
  intros l p n Hl Hp E. rewrite getNodeIndex_ok in E by (try lia; intros ->; change (2 ^ 0) with 1 in Hp; lia).
  injection E as <-. rewrite !getNodeIndex_ok, bfs_left, bfs_right by lia.
  split; [reflexivity|]. split; [reflexivity|]. unfold get_parent, is_left_child.
  set (m := bfs l p). clearbody m.
  replace ((2 * m + 1) mod 2 =? 1) with true by lia. replace ((2 * m + 2) mod 2 =? 1) with false by lia.
  split; lia.
Qed.

(** C39 *)
Lemma commitment_leaves xof : forall lambda, In lambda [128; 192; 256] ->
  forall root iv depth, lenN root = lambda / 8 -> bytes_ok root -> lenN iv = 16 -> bytes_ok iv ->
  1 <= depth <= 29 ->
  exists vc, vector_commitment xof lambda root iv depth = Ok vc /\
    lenN (vc_sd vc) = 2 ^ depth /\ lenN (vc_com vc) = 2 ^ depth /\ lenN (vc_k vc) = 2 ^ (depth + 1) - 1 /\
    (forall l p, l <= depth -> p < 2 ^ l ->
       nth_error (vc_k vc) (N.to_nat (bfs l p)) = Some (ggm lambda iv root (N.to_nat l) p)) /\
    (forall j, j < 2 ^ depth ->
       let leaf := ggm lambda iv root (N.to_nat depth) j in
       nth_error (vc_sd vc) (N.to_nat j) = Some (leaf_seed xof lambda leaf iv) /\
       nth_error (vc_com vc) (N.to_nat j) = Some (leaf_com xof lambda leaf iv)) /\
    vc_h vc = H1 xof lambda (concat (vc_com vc)).
Proof.
  intros lambda Hlam root iv depth HL HB Hiv Hivb Hd.
  rewrite (vector_commitment_ok lambda iv Hlam Hiv Hivb xof root root)
    by (try assumption; apply slice_full', HL).
  eexists. split; [reflexivity|]. cbn [vc_sd vc_com vc_k vc_h]. unfold tree_list. rewrite !lenN_tab.
  split; [reflexivity|]. split; [reflexivity|]. split; [reflexivity|]. split; [|split; [|reflexivity]].
  - intros l p Hl Hp. rewrite (nth_error_nthN _ _ []) by (rewrite lenN_tab; apply bfs_bound; assumption).
    rewrite nthN_tab by (apply bfs_bound; assumption). rewrite ggm_flat_bfs by assumption. reflexivity.
  - intros j Hj. cbv zeta. rewrite !(nth_error_nthN _ _ []) by (rewrite lenN_tab; exact Hj).
    rewrite !nthN_tab by exact Hj. split; reflexivity.
Qed.

Lemma reconstruction_leaves xof : forall lambda iv k depth hidden n st, hidden < n ->
  rec_leaves xof lambda iv k depth hidden n st =
  foldM (fun st j => let! i := getNodeIndex depth j in
                     let! node := aget k i in
                     let! s := aset (fst st) j (Some (leaf_seed xof lambda node iv)) in
                     let! com := aset (snd st) j (Some (leaf_com xof lambda node iv)) in
                     Ok (s, com))
        (filter (fun j => negb (j =? hidden)) (Nrange n)) st.
Proof.
  intros lambda iv k depth hidden n st Hi. rewrite rec_leaves_eq by exact Hi.
  assert (F : filter (fun j => negb (j =? hidden)) (Nrange n) = Nfromto 0 hidden ++ Nfromto (hidden + 1) n).
  { rewrite Nrange_Nfromto, (Nfromto_split 0 hidden n), filter_app by lia.
    rewrite (Nfromto_cons hidden n) by lia. cbn [filter]. rewrite N.eqb_refl. cbn [negb].
    assert (G : forall l, (forall x, In x l -> x <> hidden) -> filter (fun j => negb (j =? hidden)) l = l).
    { induction l as [|x l IH]; intros H; [reflexivity|]. cbn [filter].
      replace (x =? hidden) with false by (specialize (H x ltac:(left; reflexivity)); lia).
      cbn [negb]. rewrite IH; [reflexivity|]. intros y Hy. apply H. right. exact Hy. }
    rewrite !G; [reflexivity| |]; intros x Hx; apply In_Nfromto in Hx; lia. }
  rewrite F. apply foldM_ext. intros s j Hj. unfold rec_leaf.
  destruct (getNodeIndex depth j) as [i|]; cbn [bind]; [|reflexivity].
  destruct (aget k i) as [nd|]; cbn [bind]; [|reflexivity].
  unfold rec_store, leaf_h0, H0_final, H_squeeze, leaf_seed, leaf_com, H0, H_update, H_init. cbn [h_sec h_data].
  change (shake_of lambda) with (if lambda =? 128 then 128 else 256).
  replace (lambda / 8 + lambda / 8 * 2) with (lambda / 8 * 3) by lia. rewrite <- !app_assoc. reflexivity.
Qed.
