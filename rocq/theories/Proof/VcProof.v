(** Proofs about the vector commitments (Model/Vc.v). *)
From Verif.Model Require Import Vc.
From Verif.Spec Require Import VcSpec.
From Verif.Proof Require Import BaseProof PrgProof AesProps.
From Coq Require Import Lia ZifyBool ZifyNat ZifyN.
Ltac Zify.zify_post_hook ::= Z.div_mod_to_equations.

Lemma lenN_1 {A} (x : A) : lenN [x] = 1.
Proof. reflexivity. Qed.

(** * Node numbering *)
Lemma shiftl_1 n : N.shiftl 1 n = 2 ^ n.
Proof. rewrite N.shiftl_mul_pow2. lia. Qed.

Lemma getNodeIndex_ok l j : l <= 30 -> (l = 0 -> j = 0) -> getNodeIndex l j = Ok (bfs l j).
Proof.
  intros Hl H0. unfold getNodeIndex, bfs. destruct (l =? 0) eqn:E.
  - rewrite H0 by lia. replace l with 0 by lia. reflexivity.
  - rewrite guard_true by lia. cbn [bind]. rewrite N.shiftl_mul_pow2.
    f_equal. pose proof (pow2_pos (l - 1)).
    replace (2 ^ l) with (2 * 2 ^ (l - 1)); [lia|].
    rewrite <- N.pow_succ_r'. f_equal. lia.
Qed.

Lemma pow2_S n : 2 ^ (n + 1) = 2 * 2 ^ n.
Proof. rewrite N.add_1_r, N.pow_succ_r'. reflexivity. Qed.

Lemma bfs_left l j : bfs (l + 1) (2 * j) = 2 * bfs l j + 1.
Proof. unfold bfs. rewrite pow2_S. pose proof (pow2_pos l). lia. Qed.
Lemma bfs_right l j : bfs (l + 1) (2 * j + 1) = 2 * bfs l j + 2.
Proof. unfold bfs. rewrite pow2_S. pose proof (pow2_pos l). lia. Qed.

Lemma bfs_bound l j d : l <= d -> j < 2 ^ l -> bfs l j < 2 ^ (d + 1) - 1.
Proof.
  intros H Hj. unfold bfs. assert (2 ^ l <= 2 ^ d) by (apply N.pow_le_mono_r; lia).
  rewrite pow2_S. lia.
Qed.

Lemma bfs_level l j : j < 2 ^ l -> N.log2 (bfs l j + 1) = l.
Proof.
  intros H. apply N.log2_unique; [lia|]. unfold bfs. rewrite N.pow_succ_r'.
  pose proof (pow2_pos l). lia.
Qed.

Lemma bfs_inj l j l' j' : j < 2 ^ l -> j' < 2 ^ l' -> bfs l j = bfs l' j' -> l = l' /\ j = j'.
Proof.
  intros H H' E. assert (l = l') as <-.
  { rewrite <- (bfs_level l j H), <- (bfs_level l' j' H'), E. reflexivity. }
  split; [reflexivity|]. unfold bfs in E. lia.
Qed.

Lemma bfs_surj d n : n < 2 ^ (d + 1) - 1 -> exists l j, l <= d /\ j < 2 ^ l /\ n = bfs l j.
Proof.
  intros H. exists (N.log2 (n + 1)), (n + 1 - 2 ^ N.log2 (n + 1)).
  destruct (N.log2_spec (n + 1)) as [A B]; [lia|]. rewrite N.pow_succ_r' in B. split.
  - apply N.lt_succ_r, N.log2_lt_pow2; [lia|]. rewrite <- N.add_1_r. lia.
  - split; [lia|]. unfold bfs. lia.
Qed.

(** * Bit decomposition *)
Lemma bitdec_loop_bits d : forall x, bitdec_loop d x = bits_of x (N.of_nat d).
Proof.
  unfold bits_of. setoid_rewrite Nnat.Nat2N.id.
  induction d as [|d IH]; intros x; [reflexivity|].
  cbn [bitdec_loop seq map]. rewrite IH. f_equal.
  - rewrite <- N.bit0_mod. reflexivity.
  - rewrite <- seq_shift, map_map. apply map_ext. intros i. f_equal.
    rewrite <- N.div2_div, N.div2_spec, N.shiftr_spec'. f_equal. lia.
Qed.

Lemma lenN_bits_of x n : lenN (bits_of x n) = n.
Proof. unfold lenN, bits_of. rewrite map_length, seq_length. lia. Qed.
Lemma nthN_bits_of x n i : i < n -> nthN (bits_of x n) i 0 = N.b2n (N.testbit x i).
Proof.
  intros H. unfold nthN, bits_of.
  rewrite (nth_indep _ 0 (N.b2n (N.testbit x (N.of_nat 0)))) by (rewrite map_length, seq_length; lia).
  rewrite (map_nth (fun i => N.b2n (N.testbit x (N.of_nat i)))), seq_nth by lia.
  f_equal. f_equal. lia.
Qed.

Lemma BitDec_ok x d : d < 32 -> BitDec x d = Ok (if x <? 2 ^ d then (true, bits_of x d) else (false, [])).
Proof.
  intros H. unfold BitDec. rewrite guard_true by lia. cbn [bind]. rewrite shiftl_1.
  rewrite bitdec_loop_bits, N2Nat.id. destruct (x <? 2 ^ d) eqn:E1, (2 ^ d <=? x) eqn:E2; try reflexivity; lia.
Qed.

Lemma mod_pow2_S x n : x mod 2 ^ (n + 1) = x mod 2 ^ n + 2 ^ n * N.b2n (N.testbit x n).
Proof.
  rewrite pow2_S, (N.mul_comm 2). rewrite N.mod_mul_r by (pose proof (pow2_pos n); lia).
  rewrite N.testbit_spec'. reflexivity.
Qed.

Lemma NumRec_bits d x : d <= 32 -> NumRec d (bits_of x d) = Ok (x mod 2 ^ d).
Proof.
  intros Hd. unfold NumRec.
  destruct (foldM_Nrange_inv (fun out i => let! b := aget (bits_of x d) i in
           let! _ := guard (i <? 32) in
           Ok ((out + N.shiftl b i mod 2 ^ 32) mod 2 ^ 32)) (fun k s => s = x mod 2 ^ k) d 0)
    as (s & E & ->); [| |exact E].
  - rewrite N.mod_1_r. reflexivity.
  - intros k s Hk ->. eexists. split.
    + rewrite (aget_ok _ _ 0) by (rewrite lenN_bits_of; lia). cbn [bind]. rewrite guard_true by lia.
      cbn [bind]. reflexivity.
    + rewrite nthN_bits_of by lia. rewrite mod_pow2_S, N.shiftl_mul_pow2.
      assert (A : 2 ^ (k + 1) <= 2 ^ 32) by (apply N.pow_le_mono_r; lia). rewrite pow2_S in A.
      assert (B : x mod 2 ^ k < 2 ^ k) by (apply N.mod_lt; pose proof (pow2_pos k); lia).
      assert (C : N.b2n (N.testbit x k) * 2 ^ k <= 2 ^ k) by (destruct (N.testbit x k); cbn [N.b2n]; lia).
      rewrite (N.mul_comm (2 ^ k)).
      set (p := 2 ^ k) in *. set (t := N.b2n (N.testbit x k) * p) in *. clearbody t p.
      rewrite (N.mod_small t) by lia. rewrite (N.mod_small (_ + t)) by lia. reflexivity.
Qed.

Lemma bits_of_mod x n : bits_of (x mod 2 ^ n) n = bits_of x n.
Proof.
  apply (list_ext 0); rewrite !lenN_bits_of; [reflexivity|]. intros i Hi.
  rewrite !nthN_bits_of by exact Hi. rewrite N.mod_pow2_bits_low by exact Hi. reflexivity.
Qed.

(** every list of bits is the decomposition of a number *)
Lemma bits_of_exists b : Forall (fun x => x < 2) b -> exists x, x < 2 ^ lenN b /\ b = bits_of x (lenN b).
Proof.
  induction b as [|y b IH] using rev_ind; intros H.
  - exists 0. split; [cbn; lia|reflexivity].
  - apply Forall_app in H. destruct H as [H1 H2]. inversion_clear H2 as [|? ? Hy _].
    destruct (IH H1) as (x & Hx & E). exists (x + 2 ^ lenN b * y).
    rewrite lenN_app. change (lenN [y]) with 1. rewrite pow2_S. split; [nia|].
    apply (list_ext 0).
    + rewrite lenN_app, lenN_bits_of. reflexivity.
    + intros i Hi. rewrite lenN_app in Hi. change (lenN [y]) with 1 in Hi.
      rewrite nthN_bits_of by lia. rewrite testbit_add_shift by exact Hx.
      destruct (N.ltb_spec i (lenN b)) as [L|L].
      * rewrite nthN_app_l by exact L. rewrite E at 1. rewrite nthN_bits_of by exact L. reflexivity.
      * rewrite nthN_app_r by exact L. replace (i - lenN b) with 0 by lia. cbn.
        assert (y = 0 \/ y = 1) as [-> | ->] by lia; reflexivity.
Qed.

Lemma NumRec_ok d b : d <= 32 -> lenN b = d -> Forall (fun x => x < 2) b ->
  exists x, x < 2 ^ d /\ b = bits_of x d /\ NumRec d b = Ok x.
Proof.
  intros Hd HL HB. destruct (bits_of_exists b HB) as (x & Hx & E). rewrite HL in *.
  exists x. split; [exact Hx|]. split; [exact E|]. rewrite E, NumRec_bits by exact Hd.
  rewrite N.mod_small by exact Hx. reflexivity.
Qed.

(** * Loops *)
Lemma for_while_1 {S} (body : S -> N -> res S) n : forall fuel j s, (N.to_nat (n - j) <= fuel)%nat ->
  for_while fuel (fun i => i <? n) 1 body j s =
  let! s' := foldM body (Nfromto j n) s in Ok (N.max j n, s').
Proof.
  induction fuel as [|f IH]; intros j s Hf; cbn [for_while].
  - replace (j <? n) with false by lia. rewrite Nfromto_empty by lia. cbn [foldM bind].
    f_equal. f_equal. lia.
  - destruct (j <? n) eqn:E.
    + rewrite (Nfromto_cons j n) by lia. cbn [foldM]. rewrite bind_assoc.
      destruct (body s j) as [s'|]; cbn [bind]; [|reflexivity].
      rewrite IH by lia. replace (N.max (j + 1) n) with (N.max j n) by lia. reflexivity.
    + rewrite Nfromto_empty by lia. cbn [foldM bind]. f_equal. f_equal. lia.
Qed.

Lemma for_while_4 {S} (body4 body : S -> N -> res S) n :
  (forall s j, j + 4 <= n -> body4 s j = foldM body [j; j + 1; j + 2; j + 3] s) -> n mod 4 = 0 ->
  forall fuel j s, (N.to_nat (n - j) <= fuel)%nat -> j mod 4 = 0 ->
  for_while fuel (fun i => i <? n) 4 body4 j s =
  let! s' := foldM body (Nfromto j n) s in Ok (N.max j n, s').
Proof.
  intros H4 Hn. induction fuel as [|f IH]; intros j s Hf Hj; cbn [for_while].
  - replace (j <? n) with false by lia. rewrite Nfromto_empty by lia. cbn [foldM bind].
    f_equal. f_equal. lia.
  - destruct (j <? n) eqn:E.
    + assert (j + 4 <= n) by lia.
      rewrite H4 by lia. rewrite (Nfromto_split j (j + 4) n) by lia. rewrite foldM_app, bind_assoc.
      replace (Nfromto j (j + 4)) with [j; j + 1; j + 2; j + 3].
      2:{ rewrite (Nfromto_cons j), (Nfromto_cons (j + 1)), (Nfromto_cons (j + 1 + 1)),
            (Nfromto_cons (j + 1 + 1 + 1)), (Nfromto_empty (j + 1 + 1 + 1 + 1)) by lia.
          replace (j + 1 + 1) with (j + 2) by lia. replace (j + 2 + 1) with (j + 3) by lia.
          reflexivity. }
      destruct (foldM body [j; j + 1; j + 2; j + 3] s) as [s'|]; cbn [bind]; [|reflexivity].
      assert (F : (N.to_nat (n - (j + 4)) <= f)%nat) by lia.
      assert (F' : (j + 4) mod 4 = 0) by lia.
      rewrite (IH _ _ F F'). replace (N.max (j + 4) n) with (N.max j n) by lia. reflexivity.
    + rewrite Nfromto_empty by lia. cbn [foldM bind]. f_equal. f_equal. lia.
Qed.

(** the loop of vc.c:241 stops at n or at the next multiple of 4 *)
Lemma for_while_align {S} (body : S -> N -> res S) n : forall fuel j s, (N.to_nat (n - j) <= fuel)%nat ->
  for_while fuel (fun i => (i <? n) && negb (i mod 4 =? 0)) 1 body j s =
  let e := N.max j (N.min n ((j + 3) / 4 * 4)) in
  let! s' := foldM body (Nfromto j e) s in Ok (e, s').
Proof.
  cbv zeta. induction fuel as [|f IH]; intros j s Hf; cbn [for_while].
  - replace (j <? n) with false by lia. cbn [andb].
    replace (N.max j (N.min n ((j + 3) / 4 * 4))) with j by lia.
    rewrite Nfromto_empty by lia. reflexivity.
  - destruct ((j <? n) && negb (j mod 4 =? 0)) eqn:E.
    + assert (A : j < n /\ j mod 4 <> 0) by lia.
      rewrite (Nfromto_cons j) by lia. cbn [foldM]. rewrite bind_assoc.
      destruct (body s j) as [s'|]; cbn [bind]; [|reflexivity].
      rewrite IH by lia.
      replace (N.max (j + 1) (N.min n ((j + 1 + 3) / 4 * 4)))
        with (N.max j (N.min n ((j + 3) / 4 * 4))) by lia. reflexivity.
    + assert (A : n <= j \/ j mod 4 = 0) by lia.
      replace (N.max j (N.min n ((j + 3) / 4 * 4))) with j by lia.
      rewrite Nfromto_empty by lia. reflexivity.
Qed.

(** * The GGM tree *)
Lemma ctr_bytes_stream lambda key iv n : ctr_bytes lambda key iv n = stream (aes_of lambda) key iv n.
Proof.
  apply (list_ext 0).
  - rewrite stream_len. unfold lenN, ctr_bytes. rewrite map_length, seq_length. lia.
  - intros i Hi. assert (H : i < n).
    { revert Hi. unfold lenN, ctr_bytes. rewrite map_length, seq_length. lia. }
    rewrite stream_nth by exact H. unfold ctr_bytes, nthN.
    rewrite (nth_indep _ 0 (ctr_byte (aes_of lambda) key iv (N.of_nat 0)))
      by (rewrite map_length, seq_length; lia).
    rewrite (map_nth (fun i => ctr_byte (aes_of lambda) key iv (N.of_nat i))), seq_nth by lia.
    f_equal. lia.
Qed.

Lemma lambda_le lambda : In lambda [128; 192; 256] -> lambda / 8 * 2 <= 2 * MAX_LAMBDA_BYTES.
Proof. cbn [In]. intros [<- | [<- | [<- | []]]]; vm_compute; discriminate. Qed.
Lemma lambda_pos lambda : In lambda [128; 192; 256] -> 0 < lambda / 8.
Proof. cbn [In]. intros [<- | [<- | [<- | []]]]; reflexivity. Qed.

Section Tree.
Variables (lambda : N) (iv : list N).
Hypothesis Hlam : In lambda [128; 192; 256].
Hypothesis Hiv : lenN iv = 16.
Hypothesis Hivb : bytes_ok iv.
Local Notation lb := (lambda / 8).

Definition node_ok (x : list N) : Prop := lenN x = lb /\ bytes_ok x.

Lemma prg_stream x n : node_ok x -> prg x iv lambda n = Ok (stream (aes_of lambda) x iv n).
Proof.
  intros [A B]. apply prg_ok; try assumption. rewrite prg_kw by exact Hlam. lia.
Qed.

Lemma child_ok x r : node_ok x -> node_ok (child lambda iv x r).
Proof.
  intros [A B]. unfold child. rewrite ctr_bytes_stream.
  assert (C : bytes_ok (stream (aes_of lambda) x iv (2 * lb)))
    by (apply stream_bytes; [rewrite prg_kw by exact Hlam; lia|exact B]).
  destruct r; split.
  - change (skipn (N.to_nat lb)) with (@dropN N lb). rewrite lenN_dropN, stream_len. lia.
  - apply (Forall_dropN _ lb), C.
  - change (firstn (N.to_nat lb)) with (@takeN N lb). rewrite lenN_takeN, stream_len. lia.
  - apply (Forall_takeN _ lb), C.
Qed.

Lemma prg_children x : node_ok x -> exists out, prg x iv lambda (lb * 2) = Ok out /\
  takeN lb out = child lambda iv x false /\ dropN lb out = child lambda iv x true.
Proof.
  intros H. exists (stream (aes_of lambda) x iv (lb * 2)). split; [apply prg_stream, H|].
  unfold child. rewrite !ctr_bytes_stream, N.mul_comm. split; reflexivity.
Qed.

Lemma ggm_ok root l : node_ok root -> forall j, node_ok (ggm lambda iv root l j).
Proof. intros H. induction l as [|l IH]; intros j; cbn [ggm]; [exact H|]. apply child_ok, IH. Qed.

(** node [i] in breadth-first order *)
Definition ggm_flat (root : list N) (i : N) : list N :=
  ggm lambda iv root (N.to_nat (N.log2 (i + 1))) (i + 1 - 2 ^ N.log2 (i + 1)).

Lemma ggm_flat_bfs root l j : j < 2 ^ l -> ggm_flat root (bfs l j) = ggm lambda iv root (N.to_nat l) j.
Proof.
  intros H. unfold ggm_flat. rewrite bfs_level by exact H. f_equal. unfold bfs.
  pose proof (pow2_pos l). lia.
Qed.

Lemma ggm_flat_left root i : ggm_flat root (2 * i + 1) = child lambda iv (ggm_flat root i) false.
Proof.
  destruct (bfs_surj (i + 1) i) as (l & j & _ & Hj & ->).
  { rewrite pow2_S. assert (i + 1 < 2 ^ (i + 1)) by (apply N.pow_gt_lin_r; lia). lia. }
  rewrite <- bfs_left, !ggm_flat_bfs by (rewrite ?pow2_S; lia).
  replace (N.to_nat (l + 1)) with (S (N.to_nat l)) by lia. cbn [ggm].
  replace (2 * j / 2) with j by lia. rewrite N.odd_mul. reflexivity.
Qed.

Lemma ggm_flat_right root i : ggm_flat root (2 * i + 2) = child lambda iv (ggm_flat root i) true.
Proof.
  destruct (bfs_surj (i + 1) i) as (l & j & _ & Hj & ->).
  { rewrite pow2_S. assert (i + 1 < 2 ^ (i + 1)) by (apply N.pow_gt_lin_r; lia). lia. }
  rewrite <- bfs_right, !ggm_flat_bfs by (rewrite ?pow2_S; lia).
  replace (N.to_nat (l + 1)) with (S (N.to_nat l)) by lia. cbn [ggm].
  replace ((2 * j + 1) / 2) with j by lia.
  rewrite N.add_comm, N.odd_add_mul_2. reflexivity.
Qed.

Definition tree_list (root : list N) (depth : N) : list (list N) :=
  tab (2 ^ (depth + 1) - 1) (ggm_flat root).

Lemma generate_seeds_ok rootKey root depth : slice rootKey 0 lb = Ok root -> bytes_ok root ->
  1 <= depth <= 29 -> generate_seeds lambda rootKey iv depth = Ok (tree_list root depth).
Proof.
  intros HS HB Hd. assert (HR : node_ok root).
  { split; [|exact HB]. apply slice_inv in HS. lia. }
  unfold generate_seeds, getBinaryTreeNodeCount.
  rewrite guard_true by lia. cbn [bind]. rewrite shiftl_1, HS.
  set (n := 2 ^ (depth + 1) - 1).
  assert (Hn : exists m, 1 <= m /\ n = 2 * m + 1).
  { exists (2 ^ depth - 1). subst n. rewrite pow2_S.
    assert (2 ^ 1 <= 2 ^ depth) by (apply N.pow_le_mono_r; lia). change (2 ^ 1) with 2 in *. lia. }
  destruct Hn as (m & Hm & En). cbn [bind].
  rewrite aset_ok by (rewrite lenN_repeat; lia). cbn [bind].
  unfold expand_seeds. rewrite lenN_upd, lenN_repeat.
  replace (get_parent (N.of_nat (N.to_nat n) - 1) + 1) with m.
  2:{ unfold get_parent, is_left_child. replace (N.of_nat (N.to_nat n) - 1) with (2 * m) by lia.
      replace ((2 * m) mod 2 =? 1) with false by lia. lia. }
  match goal with |- foldM ?f _ ?s0 = _ => destruct (foldM_Nrange_inv f
    (fun k s => lenN s = n /\ forall i, i < 2 * k + 1 -> nthN s i [] = ggm_flat root i) m s0)
    as (s & E & HL & HE) end.
  - split; [rewrite lenN_upd, lenN_repeat; lia|]. intros i Hi. replace i with 0 by lia.
    rewrite (nthN_upd _ 0) by (rewrite lenN_repeat; lia). reflexivity.
  - intros k s Hk (HL & HE). unfold expand_node.
    rewrite (aget_ok _ _ []) by lia. cbn [bind]. rewrite HE by lia.
    destruct (prg_children (ggm_flat root k)) as (out & -> & E1 & E2); [apply ggm_ok, HR|].
    cbn [bind]. rewrite E1, E2. rewrite aset_ok by lia. cbn [bind]. rewrite aset_ok by (rewrite lenN_upd; lia).
    eexists. split; [reflexivity|]. split; [rewrite !lenN_upd; exact HL|].
    intros i Hi. rewrite !nthN_upd by (rewrite ?lenN_upd; lia).
    destruct (i =? 2 * k + 2) eqn:E3; [replace i with (2 * k + 2) by lia; symmetry; apply ggm_flat_right|].
    destruct (i =? 2 * k + 1) eqn:E4; [replace i with (2 * k + 1) by lia; symmetry; apply ggm_flat_left|].
    apply HE. lia.
  - rewrite E. f_equal. apply (list_ext []).
    + unfold tree_list. rewrite lenN_tab. exact HL.
    + intros i Hi. unfold tree_list. fold n. rewrite nthN_tab by lia. apply HE. lia.
Qed.

(** * The commitment *)
Variable xof : N -> list N -> N -> list N.

Lemma leaf_h0_eq x : leaf_h0 xof lambda x iv = (leaf_seed xof lambda x iv, leaf_com xof lambda x iv).
Proof.
  unfold leaf_h0, H0_final, H_squeeze, leaf_seed, leaf_com, H0, H_update, H_init. cbn [h_sec h_data].
  change (shake_of lambda) with (if lambda =? 128 then 128 else 256).
  replace (lb + lb * 2) with (lb * 3) by lia. rewrite <- !app_assoc. reflexivity.
Qed.

Lemma hash_fold_ok (g : N -> list N) (f : hctx -> N -> res hctx) n c :
  (forall c j, j < n -> f c j = Ok (H_update c (g j))) ->
  foldM f (Nrange n) c = Ok (H_update c (concat (tab n g))).
Proof.
  intros H. destruct (foldM_Nrange_inv f (fun k s => s = H_update c (concat (tab k g))) n c)
    as (s & -> & ->); [| |reflexivity].
  - destruct c as [a d]. unfold H_update. cbn [h_sec h_data]. unfold tab. rewrite Nrange_0. cbn.
    rewrite app_nil_r. reflexivity.
  - intros k s Hk ->. eexists. split; [apply H, Hk|]. unfold H_update. cbn [h_sec h_data].
    rewrite tab_succ, concat_app. cbn [concat]. rewrite app_nil_r, app_assoc. reflexivity.
Qed.

Lemma H1_final_eq d : H1_final xof (H_update (H_init lambda) d) (lb * 2) = H1 xof lambda d.
Proof. reflexivity. Qed.

Definition leaf (root : list N) (depth j : N) : list N := ggm lambda iv root (N.to_nat depth) j.

Lemma vector_commitment_ok rootKey root depth : slice rootKey 0 lb = Ok root -> bytes_ok root ->
  1 <= depth <= 29 ->
  vector_commitment xof lambda rootKey iv depth =
  Ok (mkVecCom (H1 xof lambda (concat (tab (2 ^ depth) (fun j => leaf_com xof lambda (leaf root depth j) iv))))
        (tree_list root depth)
        (tab (2 ^ depth) (fun j => leaf_com xof lambda (leaf root depth j) iv))
        (tab (2 ^ depth) (fun j => leaf_seed xof lambda (leaf root depth j) iv))).
Proof.
  intros HS HB Hd. unfold vector_commitment, one_shl. rewrite guard_true by lia. cbn [bind].
  rewrite (generate_seeds_ok _ root) by assumption. cbn [bind]. rewrite !shiftl_1.
  rewrite slice_full' by exact Hiv. cbn [bind].
  set (n := 2 ^ depth).
  assert (Hn : 2 <= n).
  { subst n. assert (2 ^ 1 <= 2 ^ depth) by (apply N.pow_le_mono_r; lia). exact H. }
  assert (HT : lenN (tree_list root depth) = 2 * n - 1).
  { unfold tree_list. rewrite lenN_tab, pow2_S. reflexivity. }
  rewrite HT. replace (2 * n - 1 - n) with (n - 1) by lia.
  assert (HG : forall j, j < n -> aget (tree_list root depth) (n - 1 + j) = Ok (leaf root depth j)).
  { intros j Hj. unfold tree_list. rewrite aget_tab by (rewrite pow2_S; fold n; lia).
    f_equal. apply ggm_flat_bfs. exact Hj. }
  set (pr := fun j => (leaf_seed xof lambda (leaf root depth j) iv, leaf_com xof lambda (leaf root depth j) iv)).
  set (body := fun (acc : list (list N * list N)) i => let! nd := aget (tree_list root depth) (n - 1 + i) in
       let! _ := guard (lenN acc =? i) in Ok (acc ++ [leaf_h0 xof lambda nd iv])).
  rewrite (for_while_4 _ body).
  2:{ intros s j Hj. subst body. cbn [foldM]. rewrite <- !N.add_assoc, !HG by lia. cbn [bind].
      destruct (lenN s =? j) eqn:E; cbn [guard bind]; [|reflexivity].
      replace (lenN (s ++ _) =? j + 1) with true by (rewrite lenN_app, ?lenN_1; lia). cbn [guard bind].
      replace (lenN ((s ++ _) ++ _) =? j + 2) with true by (rewrite !lenN_app, ?lenN_1; lia). cbn [guard bind].
      replace (lenN (((s ++ _) ++ _) ++ _) =? j + 3) with true by (rewrite !lenN_app, ?lenN_1; lia).
      cbn [guard bind]. rewrite <- !app_assoc. reflexivity. }
  2:{ lia. } 2:{ lia. } 2:{ reflexivity. }
  assert (HF : forall a b, a <= b <= n -> foldM body (Nfromto a b) (tab a pr) = Ok (tab b pr)).
  { intros a b Hab. destruct (foldM_Nfromto_inv body (fun k s => s = tab k pr) a b (tab a pr))
      as (s & E & ->); [lia | reflexivity | | exact E].
    intros k s Hk ->. subst body. cbv beta. rewrite HG by lia. cbn [bind].
    rewrite lenN_tab, guard_true by lia. cbn [bind]. eexists. split; [reflexivity|].
    rewrite leaf_h0_eq, tab_succ. reflexivity. }
  change (@nil (list N * list N)) with (tab 0 pr). rewrite HF by lia. cbn [bind fst snd].
  rewrite for_while_1 by lia. replace (N.max 0 (n / 4 * 4)) with (n / 4 * 4) by lia.
  fold body. rewrite HF by lia. cbn [bind snd].
  rewrite (hash_fold_ok (fun j => leaf_com xof lambda (leaf root depth j) iv)).
  2:{ intros c j Hj. rewrite aget_tab by exact Hj. reflexivity. }
  cbn [bind]. rewrite H1_final_eq. unfold tab. rewrite !map_map. reflexivity.
Qed.

(** * Opening *)
Lemma ancestor_S d x l : l < d ->
  ancestor d x (l + 1) = 2 * ancestor d x l + N.b2n (N.testbit x (d - (l + 1))).
Proof.
  clear. intros H. unfold ancestor. replace (d - l) with (d - (l + 1) + 1) by lia.
  set (e := d - (l + 1)). rewrite pow2_S, (N.mul_comm 2 (2 ^ e)), <- N.div_div by (pose proof (pow2_pos e); lia).
  rewrite N.testbit_spec'. generalize (x / 2 ^ e). clear. intros y. lia.
Qed.
Lemma ancestor_0 d x : x < 2 ^ d -> ancestor d x 0 = 0.
Proof. clear. intros H. unfold ancestor. rewrite N.sub_0_r. apply N.div_small, H. Qed.
Lemma ancestor_top d x : ancestor d x d = x.
Proof. clear. unfold ancestor. rewrite N.sub_diag. apply N.div_1_r. Qed.
Lemma ancestor_bound d x l : x < 2 ^ d -> l <= d -> ancestor d x l < 2 ^ l.
Proof.
  clear. intros H Hl. unfold ancestor. apply N.div_lt_upper_bound; [pose proof (pow2_pos (d - l)); lia|].
  rewrite <- N.pow_add_r. replace (d - l + l) with d by lia. exact H.
Qed.
Lemma ancestor_half d x l : l < d -> ancestor d x (l + 1) / 2 = ancestor d x l.
Proof.
  clear. intros H. rewrite ancestor_S by exact H. destruct (N.testbit _ _); cbn [N.b2n]; lia.
Qed.

Lemma sibling_bit a c : sibling (2 * a + N.b2n c) = 2 * a + lnot (N.b2n c).
Proof.
  clear. unfold sibling. rewrite (N.add_comm (2 * a)), N.even_add_mul_2.
  destruct c; [change (lnot (N.b2n true)) with 0|change (lnot (N.b2n false)) with 1]; cbn [N.b2n];
    [change (N.even 1) with false|change (N.even 0) with true]; cbv iota; lia.
Qed.
Lemma sibling_half p : sibling p / 2 = p / 2.
Proof.
  clear. unfold sibling. destruct (N.even p) eqn:E.
  - apply N.even_spec in E. destruct E as [k ->]. lia.
  - rewrite <- N.negb_odd in E. apply Bool.negb_false_iff, N.odd_spec in E. destruct E as [k ->]. lia.
Qed.
Lemma sibling_neq p : sibling p <> p.
Proof.
  clear. unfold sibling. destruct (N.even p) eqn:E; [lia|].
  rewrite <- N.negb_odd in E. apply Bool.negb_false_iff, N.odd_spec in E. destruct E as [k ->]. lia.
Qed.
Lemma half_sibling p q : p / 2 = q / 2 -> p <> q -> p = sibling q.
Proof.
  clear. intros H Hn. unfold sibling. destruct (N.even q) eqn:E.
  - apply N.even_spec in E. destruct E as [k ->]. lia.
  - rewrite <- N.negb_odd in E. apply Bool.negb_false_iff, N.odd_spec in E. destruct E as [k ->]. lia.
Qed.
Lemma sibling_bound p n : p < 2 * n -> sibling p < 2 * n.
Proof.
  clear. intros H. unfold sibling. destruct (N.even p) eqn:E; [|lia].
  apply N.even_spec in E. destruct E as [k ->]. lia.
Qed.

(** the siblings of the path to leaf [idx], level by level *)
Definition co_path (k : list (list N)) (depth idx : N) : list N :=
  concat (tab depth (fun l => nthN k (bfs (l + 1) (sibling (ancestor depth idx (l + 1)))) [])).

Lemma vector_open_ok k com depth idx : 1 <= depth <= 29 -> idx < 2 ^ depth ->
  2 ^ (depth + 1) - 1 <= lenN k -> 2 ^ depth <= lenN com ->
  vector_open k com (bits_of idx depth) depth = Ok (co_path k depth idx, nthN com idx []).
Proof.
  clear. intros Hd Hi Hk Hc. unfold vector_open. rewrite NumRec_bits by lia. rewrite N.mod_small by exact Hi.
  cbn [bind].
  destruct (foldM_Nrange_inv (open_step k (bits_of idx depth) depth)
    (fun l s => s = (ancestor depth idx l,
       concat (tab l (fun l => nthN k (bfs (l + 1) (sibling (ancestor depth idx (l + 1)))) []))))
    depth (0, [])) as (s & -> & ->).
  - rewrite ancestor_0 by exact Hi. reflexivity.
  - intros l s Hl ->. unfold open_step. rewrite (aget_ok _ _ 0) by (rewrite lenN_bits_of; lia).
    cbn [bind]. rewrite nthN_bits_of by lia.
    replace (depth - 1 - l) with (depth - (l + 1)) by lia.
    rewrite <- sibling_bit, <- ancestor_S by exact Hl.
    assert (HB : ancestor depth idx (l + 1) < 2 ^ (l + 1)) by (apply ancestor_bound; [exact Hi|lia]).
    assert (HS : sibling (ancestor depth idx (l + 1)) < 2 ^ (l + 1))
      by (rewrite pow2_S in *; apply sibling_bound, HB).
    rewrite getNodeIndex_ok by lia. cbn [bind].
    pose proof (bfs_bound (l + 1) _ depth ltac:(lia) HS).
    rewrite (aget_ok _ _ []) by lia. cbn [bind]. eexists. split; [reflexivity|].
    rewrite tab_succ, concat_app. cbn [concat]. rewrite app_nil_r. reflexivity.
  - cbn [bind]. rewrite (aget_ok _ _ []) by lia. reflexivity.
Qed.

(** * Reconstruction: the tree computed from the co-path [cop] of leaf [idx] *)
Fixpoint rtree (cop : list N) (depth idx : N) (l : nat) (j : N) : list N :=
  match l with
  | O => []
  | S l' =>
      if j / 2 =? ancestor depth idx (N.of_nat l') then takeN lb (dropN (lb * N.of_nat l') cop)
      else child lambda iv (rtree cop depth idx l' (j / 2)) (N.odd j)
  end.

Lemma cop_chunk_ok cop depth l : lb * depth <= lenN cop -> bytes_ok cop -> l < depth ->
  node_ok (takeN lb (dropN (lb * l) cop)).
Proof.
  intros HL HB Hl. split.
  - rewrite lenN_takeN, lenN_dropN. nia.
  - apply Forall_takeN, Forall_dropN, HB.
Qed.

Lemma rtree_ok cop depth idx : lb * depth <= lenN cop -> bytes_ok cop -> idx < 2 ^ depth ->
  forall l j, (N.of_nat l <= depth) -> j < 2 ^ N.of_nat l -> j <> ancestor depth idx (N.of_nat l) ->
  node_ok (rtree cop depth idx l j).
Proof.
  intros HL HB Hi. induction l as [|l IH]; intros j Hl Hj Hn.
  - exfalso. apply Hn. change (N.of_nat 0) with 0. rewrite ancestor_0 by exact Hi.
    change (2 ^ N.of_nat 0) with 1 in Hj. lia.
  - cbn [rtree]. destruct (j / 2 =? ancestor depth idx (N.of_nat l)) eqn:E.
    + apply (cop_chunk_ok _ depth); try assumption. lia.
    + apply child_ok, IH; [lia| |lia].
      replace (N.of_nat (S l)) with (N.of_nat l + 1) in Hj by lia. rewrite pow2_S in Hj. lia.
Qed.

Lemma nthN_upd_bfs (k : list (list N)) i p x l j d : l <= d -> j < 2 ^ l -> p < 2 ^ i ->
  2 ^ (d + 1) - 1 <= lenN k ->
  nthN (upd k (N.to_nat (bfs i p)) x) (bfs l j) [] =
  if (l =? i) && (j =? p) then x else nthN k (bfs l j) [].
Proof.
  clear. intros Hl Hj Hp Hk. pose proof (bfs_bound l j d Hl Hj).
  rewrite nthN_upd by lia. destruct (bfs l j =? bfs i p) eqn:E.
  - apply N.eqb_eq in E. destruct (bfs_inj _ _ _ _ Hj Hp E) as [-> ->]. rewrite !N.eqb_refl. reflexivity.
  - destruct ((l =? i) && (j =? p)) eqn:E2; [|reflexivity].
    assert (l = i /\ j = p) as [-> ->] by lia. rewrite N.eqb_refl in E. discriminate.
Qed.

Definition levels_done cop depth idx (i : N) (k : list (list N)) : Prop :=
  forall l j, l < i -> j < 2 ^ l -> j <> ancestor depth idx l ->
    nthN k (bfs l j) [] = rtree cop depth idx (N.to_nat l) j.

Lemma rec_level_ok cop depth idx n i k : lb * depth <= lenN cop -> bytes_ok cop ->
  1 <= depth <= 29 -> idx < 2 ^ depth -> 2 ^ (depth + 1) - 1 <= n ->
  1 <= i <= depth -> lenN k = n -> levels_done cop depth idx i k ->
  exists k', rec_level lambda iv cop (bits_of idx depth) depth (ancestor depth idx (i - 1), k) i
    = Ok (ancestor depth idx i, k') /\ lenN k' = n /\ levels_done cop depth idx (i + 1) k'.
Proof.
  intros HCL HCB Hd Hi Hn Hil HK HD. unfold rec_level.
  rewrite (aget_ok _ _ 0) by (rewrite lenN_bits_of; lia). cbn [bind].
  rewrite nthN_bits_of by lia.
  pose proof (ancestor_S depth idx (i - 1) ltac:(lia)) as HA.
  replace (i - 1 + 1) with i in HA by lia.
  rewrite <- sibling_bit, <- HA.
  assert (HB : ancestor depth idx i < 2 ^ i) by (apply ancestor_bound; [exact Hi|lia]).
  assert (Ei : 2 ^ i = 2 * 2 ^ (i - 1)) by (rewrite <- pow2_S; f_equal; lia).
  assert (HS : sibling (ancestor depth idx i) < 2 ^ i)
    by (rewrite Ei in *; apply sibling_bound, HB).
  assert (HH : ancestor depth idx i / 2 = ancestor depth idx (i - 1))
    by (rewrite <- (ancestor_half depth idx (i - 1)) by lia; f_equal; f_equal; lia).
  rewrite getNodeIndex_ok by lia. cbn [bind].
  assert (HC : slice cop (lb * (i - 1)) lb = Ok (takeN lb (dropN (lb * (i - 1)) cop))).
  { apply slice_ok. nia. }
  rewrite HC. cbn [bind].
  pose proof (bfs_bound i _ depth ltac:(lia) HS). pose proof (bfs_bound i _ depth ltac:(lia) HB).
  rewrite aset_ok by lia. cbn [bind]. rewrite getNodeIndex_ok by lia. cbn [bind].
  rewrite aset_ok by (rewrite lenN_upd; lia). cbn [bind].
  unfold one_shl. rewrite guard_true by lia. cbn [bind]. rewrite shiftl_1.
  set (a := ancestor depth idx (i - 1)) in *. set (p := ancestor depth idx i) in *.
  assert (HP : p <> sibling p) by (intros F; apply (sibling_neq p); auto).
  assert (HSH : sibling p / 2 = a) by (rewrite sibling_half; exact HH).
  replace (a * 2 + N.b2n (N.testbit idx (depth - i))) with p by lia.
  match goal with |- context [foldM ?f (Nrange ?m0) ?s0] => destruct (foldM_Nrange_inv f
    (fun m k => lenN k = n /\ levels_done cop depth idx i k /\
       forall j, j < 2 ^ i -> j <> p -> (j / 2 < m \/ j / 2 = a) ->
         nthN k (bfs i j) [] = rtree cop depth idx (N.to_nat i) j) m0 s0)
    as (k' & E & HL' & HD' & HE') end.
  - split; [rewrite !lenN_upd; exact HK|]. split.
    + intros l j Hl Hj Hne. rewrite !(nthN_upd_bfs _ _ _ _ _ _ depth) by (rewrite ?lenN_upd; lia).
      replace (l =? i) with false by lia. cbn [andb]. apply HD; assumption.
    + intros j Hj Hne [F|F]; [lia|].
      assert (j = sibling p) as -> by (apply half_sibling; [rewrite HH; exact F|exact Hne]).
      rewrite !(nthN_upd_bfs _ _ _ _ _ _ depth) by (rewrite ?lenN_upd; lia).
      rewrite !N.eqb_refl. cbn [andb]. replace (sibling p =? p) with false by lia.
      replace (N.to_nat i) with (S (N.to_nat (i - 1))) by lia. cbn [rtree]. rewrite N2Nat.id.
      fold a. rewrite HSH, N.eqb_refl. reflexivity.
  - intros m k' Hm (HL' & HD' & HE'). unfold rec_expand. destruct (m =? a) eqn:E.
    + exists k'. split; [reflexivity|]. split; [exact HL'|]. split; [exact HD'|].
      intros j Hj Hne F. apply HE'; [exact Hj|exact Hne|]. lia.
    + rewrite getNodeIndex_ok by (try lia; intros F; rewrite F in Hm; change (2 ^ 0) with 1 in Hm; lia).
      cbn [bind]. pose proof (bfs_bound (i - 1) m depth ltac:(lia) Hm).
      rewrite (aget_ok _ _ []) by lia. cbn [bind].
      rewrite HD' by (fold a; lia).
      rewrite guard_true by (pose proof (lambda_le lambda Hlam); lia). cbn [bind].
      assert (OK : node_ok (rtree cop depth idx (N.to_nat (i - 1)) m)).
      { apply rtree_ok; try assumption; rewrite ?N2Nat.id; fold a; lia. }
      destruct (prg_children _ OK) as (out & -> & E1 & E2). cbn [bind]. rewrite E1, E2.
      rewrite getNodeIndex_ok by lia. cbn [bind].
      pose proof (bfs_bound i (2 * m) depth ltac:(lia) ltac:(lia)).
      pose proof (bfs_bound i (2 * m + 1) depth ltac:(lia) ltac:(lia)).
      rewrite aset_ok by lia. cbn [bind]. rewrite getNodeIndex_ok by lia. cbn [bind].
      rewrite aset_ok by (rewrite lenN_upd; lia).
      eexists. split; [reflexivity|]. split; [rewrite !lenN_upd; exact HL'|]. split.
      * intros l j Hl Hj Hne. rewrite !(nthN_upd_bfs _ _ _ _ _ _ depth) by (rewrite ?lenN_upd; lia).
        replace (l =? i) with false by lia. cbn [andb]. apply HD'; assumption.
      * intros j Hj Hne F. rewrite !(nthN_upd_bfs _ _ _ _ _ _ depth) by (rewrite ?lenN_upd; lia).
        rewrite N.eqb_refl. cbn [andb].
        destruct (N.eq_dec (j / 2) m) as [Ej|Ej].
        -- replace (N.to_nat i) with (S (N.to_nat (i - 1))) by lia. cbn [rtree]. rewrite N2Nat.id.
           fold a. rewrite Ej, E.
           destruct (j =? 2 * m + 1) eqn:F1.
           ++ replace j with (1 + 2 * m) by lia. rewrite N.odd_add_mul_2. reflexivity.
           ++ replace (j =? 2 * m) with true by lia. replace j with (0 + 2 * m) by lia.
              rewrite N.odd_add_mul_2. reflexivity.
        -- replace (j =? 2 * m + 1) with false by lia. replace (j =? 2 * m) with false by lia.
           apply HE'; [exact Hj|exact Hne|lia].
  - rewrite E. cbn [bind]. exists k'. split; [reflexivity|]. split; [exact HL'|].
    intros l j Hl Hj Hne. destruct (N.eq_dec l i) as [-> |Hli].
    + apply HE'; [exact Hj|exact Hne|]. left. lia.
    + apply HD'; [lia|exact Hj|exact Hne].
Qed.

(** the batched loops over the leaves are a plain loop that skips the hidden leaf *)
Lemma rec_leaf_x4_eq lam iv' k depth st j :
  rec_leaf_x4 xof lam iv' k depth st j = foldM (rec_leaf xof lam iv' k depth) [j; j + 1; j + 2; j + 3] st.
Proof.
  clear. unfold rec_leaf_x4, rec_leaf. cbn [foldM].
  destruct (getNodeIndex depth j) as [i0|]; cbn [bind]; [|reflexivity].
  destruct (aget k i0) as [n0|] eqn:E0; cbn [bind].
  2:{ destruct (getNodeIndex depth (j + 1)), (getNodeIndex depth (j + 2)), (getNodeIndex depth (j + 3));
      reflexivity. }
  destruct (getNodeIndex depth (j + 1)) as [i1|]; cbn [bind].
  2:{ destruct (rec_store st j _); reflexivity. }
  destruct (aget k i1) as [n1|] eqn:E1; cbn [bind].
  2:{ destruct (getNodeIndex depth (j + 2)), (getNodeIndex depth (j + 3)), (rec_store st j _); reflexivity. }
  destruct (getNodeIndex depth (j + 2)) as [i2|]; cbn [bind].
  2:{ destruct (rec_store st j _) as [s1|]; cbn [bind]; [destruct (rec_store s1 _ _)|]; reflexivity. }
  destruct (aget k i2) as [n2|] eqn:E2; cbn [bind].
  2:{ destruct (getNodeIndex depth (j + 3)), (rec_store st j _) as [s1|]; cbn [bind];
        try destruct (rec_store s1 _ _); reflexivity. }
  destruct (getNodeIndex depth (j + 3)) as [i3|]; cbn [bind].
  2:{ destruct (rec_store st j _) as [s1|]; cbn [bind]; [destruct (rec_store s1 _ _) as [s2|]; cbn [bind];
        [destruct (rec_store s2 _ _)|]|]; reflexivity. }
  destruct (aget k i3) as [n3|] eqn:E3; cbn [bind].
  2:{ destruct (rec_store st j _) as [s1|]; cbn [bind]; [destruct (rec_store s1 _ _) as [s2|]; cbn [bind];
        [destruct (rec_store s2 _ _)|]|]; reflexivity. }
  change (leaf_h0_x4 xof lam n0 n1 n2 n3 iv')
    with [leaf_h0 xof lam n0 iv'; leaf_h0 xof lam n1 iv'; leaf_h0 xof lam n2 iv'; leaf_h0 xof lam n3 iv'].
  generalize (leaf_h0 xof lam n0 iv') as y0, (leaf_h0 xof lam n1 iv') as y1,
    (leaf_h0 xof lam n2 iv') as y2, (leaf_h0 xof lam n3 iv') as y3. intros.
  change (aget [y0; y1; y2; y3] 0) with (Ok y0). change (aget [y0; y1; y2; y3] 1) with (Ok y1).
  change (aget [y0; y1; y2; y3] 2) with (Ok y2). change (aget [y0; y1; y2; y3] 3) with (Ok y3).
  cbn [bind]. destruct (rec_store st j y0) as [s1|]; cbn [bind]; [|reflexivity].
  destruct (rec_store s1 (j + 1) y1) as [s2|]; cbn [bind]; [|reflexivity].
  destruct (rec_store s2 (j + 2) y2) as [s3|]; cbn [bind]; [|reflexivity].
  destruct (rec_store s3 (j + 3) y3) as [s4|]; reflexivity.
Qed.

Lemma rec_leaves_eq lam iv' k depth idx n st : idx < n ->
  rec_leaves xof lam iv' k depth idx n st =
  foldM (rec_leaf xof lam iv' k depth) (Nfromto 0 idx ++ Nfromto (idx + 1) n) st.
Proof.
  clear. intros Hi. unfold rec_leaves.
  set (body := rec_leaf xof lam iv' k depth).
  rewrite (for_while_4 _ body) by (try (intros; apply rec_leaf_x4_eq); lia).
  rewrite bind_assoc. rewrite foldM_app.
  rewrite (Nfromto_split 0 (idx / 4 * 4) idx) by lia. rewrite foldM_app, bind_assoc.
  destruct (foldM body (Nfromto 0 (idx / 4 * 4)) st) as [s1|]; cbn [bind]; [|reflexivity].
  cbn [fst snd]. replace (N.max 0 (idx / 4 * 4)) with (idx / 4 * 4) by lia.
  rewrite for_while_1 by lia. rewrite bind_assoc.
  destruct (foldM body (Nfromto (idx / 4 * 4) idx) s1) as [s2|]; cbn [bind]; [|reflexivity].
  cbn [fst snd]. replace (N.max (idx / 4 * 4) idx) with idx by lia.
  rewrite for_while_align by lia. cbv zeta.
  set (e := N.max (idx + 1) (N.min n ((idx + 1 + 3) / 4 * 4))).
  assert (He : idx + 1 <= e <= n /\ (e mod 4 = 0 \/ e = n)) by (subst e; lia). clearbody e.
  rewrite bind_assoc. rewrite (Nfromto_split (idx + 1) e n) by lia. rewrite foldM_app.
  destruct (foldM body (Nfromto (idx + 1) e) s2) as [s3|]; cbn [bind fst snd]; [|reflexivity].
  destruct (N.leb_spec (n / 4 * 4) e) as [L|L].
  - assert (F4 : for_while (S (N.to_nat n)) (fun j => j <? n / 4 * 4) 4
               (rec_leaf_x4 xof lam iv' k depth) e s3 = Ok (e, s3)).
    { cbn [for_while]. replace (e <? n / 4 * 4) with false by lia. reflexivity. }
    rewrite F4. cbn [bind fst snd]. rewrite for_while_1 by lia. rewrite bind_assoc.
    destruct (foldM body (Nfromto e n) s3); reflexivity.
  - rewrite (for_while_4 _ body) by (try (intros; apply rec_leaf_x4_eq); lia).
    rewrite bind_assoc. rewrite (Nfromto_split e (n / 4 * 4) n) by lia. rewrite foldM_app.
    destruct (foldM body (Nfromto e (n / 4 * 4)) s3) as [s4|]; cbn [bind fst snd]; [|reflexivity].
    replace (N.max e (n / 4 * 4)) with (n / 4 * 4) by lia.
    rewrite for_while_1 by lia. rewrite bind_assoc.
    destruct (foldM body (Nfromto (n / 4 * 4) n) s4); reflexivity.
Qed.

(** what the leaf loops leave in the buffers *)
Lemma rec_leaves_ok (k : list (list N)) depth idx n (g : N -> list N) s com :
  n = 2 ^ depth -> 1 <= depth <= 29 -> idx < n -> n <= lenN s -> n <= lenN com ->
  2 ^ (depth + 1) - 1 <= lenN k ->
  (forall j, j < n -> j <> idx -> nthN k (bfs depth j) [] = g j) ->
  exists s' com', rec_leaves xof lambda iv k depth idx n (s, com) = Ok (s', com') /\
    lenN s' = lenN s /\ lenN com' = lenN com /\
    (forall j, j < n -> j <> idx -> nthN s' j None = Some (leaf_seed xof lambda (g j) iv)) /\
    (forall j, j < n -> j <> idx -> nthN com' j None = Some (leaf_com xof lambda (g j) iv)) /\
    (forall j, j = idx \/ n <= j -> nthN s' j None = nthN s j None /\ nthN com' j None = nthN com j None).
Proof.
  intros En Hd Hi Hs Hc Hk Hg. rewrite rec_leaves_eq by exact Hi. rewrite foldM_app.
  set (body := rec_leaf xof lambda iv k depth).
  set (P := fun (m : N) (st : list (option (list N)) * list (option (list N))) =>
    lenN (fst st) = lenN s /\ lenN (snd st) = lenN com /\
    (forall j, j < m -> j <> idx -> nthN (fst st) j None = Some (leaf_seed xof lambda (g j) iv)) /\
    (forall j, j < m -> j <> idx -> nthN (snd st) j None = Some (leaf_com xof lambda (g j) iv)) /\
    (forall j, j = idx \/ m <= j -> nthN (fst st) j None = nthN s j None /\ nthN (snd st) j None = nthN com j None)).
  assert (HB : forall m st, m < n -> m <> idx -> P m st -> exists st', body st m = Ok st' /\ P (m + 1) st').
  { intros m st Hm Hne (P1 & P2 & P3 & P4 & P5). unfold body, rec_leaf.
    rewrite getNodeIndex_ok by lia. cbn [bind].
    pose proof (bfs_bound depth m depth ltac:(lia) ltac:(lia)).
    rewrite (aget_ok _ _ []) by lia. cbn [bind]. rewrite Hg by assumption.
    unfold rec_store. rewrite leaf_h0_eq. cbn [fst snd].
    rewrite !aset_ok by lia. cbn [bind]. rewrite ?aset_ok by lia. cbn [bind].
    eexists. split; [reflexivity|]. unfold P. cbn [fst snd]. rewrite !lenN_upd.
    split; [exact P1|]. split; [exact P2|]. split; [|split].
    - intros j Hj Hnj. rewrite nthN_upd by lia. destruct (j =? m) eqn:E.
      + replace j with m by lia. reflexivity.
      + apply P3; lia.
    - intros j Hj Hnj. rewrite nthN_upd by lia. destruct (j =? m) eqn:E.
      + replace j with m by lia. reflexivity.
      + apply P4; lia.
    - intros j Hj. destruct (P5 j ltac:(lia)) as [P6 P7]. split.
      + destruct (N.ltb_spec j (lenN (fst st))) as [L|L].
        * rewrite nthN_upd by exact L. replace (j =? m) with false by lia. exact P6.
        * rewrite !nthN_default by (rewrite ?lenN_upd; lia). reflexivity.
      + destruct (N.ltb_spec j (lenN (snd st))) as [L|L].
        * rewrite nthN_upd by exact L. replace (j =? m) with false by lia. exact P7.
        * rewrite !nthN_default by (rewrite ?lenN_upd; lia). reflexivity. }
  destruct (foldM_Nfromto_inv body P 0 idx (s, com)) as (st1 & E1 & P1).
  - lia.
  - unfold P. cbn [fst snd]. repeat split; intros; lia.
  - intros i st Hil HP. apply HB; [lia|lia|exact HP].
  - rewrite E1. cbn [bind]. destruct (foldM_Nfromto_inv body P (idx + 1) n st1) as (st2 & E2 & P2).
    + lia.
    + destruct P1 as (Q1 & Q2 & Q3 & Q4 & Q5). unfold P. split; [exact Q1|]. split; [exact Q2|].
      split; [intros; apply Q3; lia|]. split; [intros; apply Q4; lia|]. intros; apply Q5; lia.
    + intros i st Hil HP. apply HB; [lia|lia|exact HP].
    + exists (fst st2), (snd st2). rewrite E2. split; [destruct st2; reflexivity|]. exact P2.
Qed.

Lemma vector_reconstruction_ok cop com_j depth idx vr :
  1 <= depth <= 29 -> idx < 2 ^ depth -> lb * depth <= lenN cop -> bytes_ok cop ->
  lb * 2 <= lenN com_j ->
  2 ^ (depth + 1) - 1 <= lenN (vr_k vr) -> 2 ^ depth <= lenN (vr_s vr) -> 2 ^ depth <= lenN (vr_com vr) ->
  exists vr', vector_reconstruction xof lambda iv cop com_j (bits_of idx depth) depth vr = Ok vr' /\
    vr_h vr' = H1 xof lambda (concat (tab (2 ^ depth) (fun j =>
      if j =? idx then takeN (lb * 2) com_j
      else leaf_com xof lambda (rtree cop depth idx (N.to_nat depth) j) iv))) /\
    lenN (vr_k vr') = lenN (vr_k vr) /\ lenN (vr_s vr') = lenN (vr_s vr) /\
    lenN (vr_com vr') = lenN (vr_com vr) /\
    (forall j, j < 2 ^ depth -> j <> idx ->
       nthN (vr_s vr') j None = Some (leaf_seed xof lambda (rtree cop depth idx (N.to_nat depth) j) iv)) /\
    (forall j, j = idx \/ 2 ^ depth <= j -> nthN (vr_s vr') j None = nthN (vr_s vr) j None).
Proof.
  intros Hd Hi HCL HCB HJ HK HS HC. unfold vector_reconstruction, one_shl.
  rewrite guard_true by lia. cbn [bind]. rewrite shiftl_1.
  rewrite NumRec_bits by lia. rewrite N.mod_small by exact Hi. cbn [bind].
  destruct (foldM_Nfromto_inv (rec_level lambda iv cop (bits_of idx depth) depth)
    (fun i s => fst s = ancestor depth idx (i - 1) /\ lenN (snd s) = lenN (vr_k vr) /\
                levels_done cop depth idx i (snd s)) 1 (depth + 1) (0, vr_k vr))
    as (st & -> & _ & HL & HD).
  - lia.
  - cbn [fst snd]. split; [symmetry; apply ancestor_0, Hi|]. split; [reflexivity|].
    intros l j Hl Hj Hne. exfalso. apply Hne. replace l with 0 in * by lia.
    rewrite ancestor_0 by exact Hi. change (2 ^ 0) with 1 in Hj. lia.
  - intros i [a k] Hil (H1 & H2 & H3). cbn [fst snd] in *. subst a.
    destruct (rec_level_ok cop depth idx (lenN (vr_k vr)) i k) as (k' & E & A & B); try assumption; try lia.
    rewrite E. eexists. split; [reflexivity|]. cbn [fst snd].
    split; [f_equal; lia|]. split; [exact A|exact B].
  - cbn [bind]. rewrite slice_full' by exact Hiv. cbn [bind]. set (n := 2 ^ depth) in *.
    destruct (rec_leaves_ok (snd st) depth idx n (rtree cop depth idx (N.to_nat depth)) (vr_s vr) (vr_com vr))
      as (s' & com' & -> & L1 & L2 & G1 & G2 & G3); try assumption; try reflexivity; try lia.
    { intros j Hj Hne. rewrite HD; [reflexivity|lia|exact Hj|]. rewrite ancestor_top. exact Hne. }
    cbn [bind]. rewrite slice_ok by lia. cbn [bind]. rewrite dropN_0.
    rewrite aset_ok by lia. cbn [bind].
    rewrite (hash_fold_ok (fun j => if j =? idx then takeN (lb * 2) com_j
      else leaf_com xof lambda (rtree cop depth idx (N.to_nat depth) j) iv)).
    2:{ intros c j Hj. unfold ginit. rewrite (aget_ok _ _ None) by (rewrite lenN_upd; lia). cbn [bind].
        rewrite nthN_upd by lia. destruct (j =? idx) eqn:E; [reflexivity|].
        rewrite G2 by lia. reflexivity. }
    cbn [bind]. eexists. split; [reflexivity|]. cbn [vr_h vr_k vr_s vr_com].
    split; [reflexivity|]. split; [exact HL|]. split; [exact L1|]. split; [rewrite lenN_upd; exact L2|].
    split; [exact G1|]. intros j Hj. apply G3, Hj.
Qed.

(** the tree computed from an honest co-path is the committed one *)
Lemma rtree_co_path root depth idx : node_ok root -> 1 <= depth <= 29 -> idx < 2 ^ depth ->
  forall l j, N.of_nat l <= depth -> j < 2 ^ N.of_nat l -> j <> ancestor depth idx (N.of_nat l) ->
  rtree (co_path (tree_list root depth) depth idx) depth idx l j = ggm lambda iv root l j.
Proof.
  intros HR Hd Hi. induction l as [|l IH]; intros j Hl Hj Hne.
  - exfalso. apply Hne. change (N.of_nat 0) with 0. rewrite ancestor_0 by exact Hi.
    change (2 ^ N.of_nat 0) with 1 in Hj. lia.
  - cbn [rtree ggm]. replace (N.of_nat (S l)) with (N.of_nat l + 1) in * by lia.
    pose proof (pow2_S (N.of_nat l)) as Ep. rewrite Ep in Hj.
    pose proof (ancestor_half depth idx (N.of_nat l) ltac:(lia)) as HH.
    destruct (j / 2 =? ancestor depth idx (N.of_nat l)) eqn:E.
    + assert (Ej : j = sibling (ancestor depth idx (N.of_nat l + 1))).
      { apply half_sibling; [|exact Hne]. lia. }
      set (cell := fun l => nthN (tree_list root depth) (bfs (l + 1) (sibling (ancestor depth idx (l + 1)))) []).
      assert (Hcell : forall m, m < depth -> cell m =
        ggm lambda iv root (N.to_nat (m + 1)) (sibling (ancestor depth idx (m + 1)))).
      { intros m Hm. unfold cell, tree_list.
        assert (B : sibling (ancestor depth idx (m + 1)) < 2 ^ (m + 1)).
        { rewrite pow2_S. apply sibling_bound. rewrite <- pow2_S. apply ancestor_bound; [exact Hi|lia]. }
        rewrite nthN_tab by (apply bfs_bound; [lia|exact B]). apply ggm_flat_bfs, B. }
      assert (Hlen : forall m, m <= depth -> lenN (concat (tab m cell)) = lb * m).
      { induction m as [|m IHm] using N.peano_ind; intros Hm; [rewrite N.mul_0_r; reflexivity|].
        rewrite <- N.add_1_r in *. rewrite tab_succ, concat_app, lenN_app. cbn [concat].
        rewrite app_nil_r, IHm, Hcell by lia.
        destruct (ggm_ok root (N.to_nat (m + 1)) HR (sibling (ancestor depth idx (m + 1)))) as [-> _]. lia. }
      unfold co_path. fold cell. unfold tab. rewrite Nrange_Nfromto.
      rewrite (Nfromto_split 0 (N.of_nat l) depth) by lia. rewrite map_app, concat_app.
      rewrite <- Nrange_Nfromto. fold (tab (N.of_nat l) cell).
      rewrite <- (Hlen (N.of_nat l)) by lia. rewrite dropN_app_exact.
      rewrite Nfromto_cons by lia. cbn [map concat]. rewrite Hcell by lia.
      destruct (ggm_ok root (N.to_nat (N.of_nat l + 1)) HR (sibling (ancestor depth idx (N.of_nat l + 1)))) as [<- _].
      rewrite takeN_app_exact. rewrite <- Ej.
      replace (N.to_nat (N.of_nat l + 1)) with (S l) by lia. reflexivity.
    + rewrite IH by lia. reflexivity.
Qed.

Lemma co_path_ok root depth idx : node_ok root -> 1 <= depth <= 29 -> idx < 2 ^ depth ->
  lenN (co_path (tree_list root depth) depth idx) = lb * depth /\
  bytes_ok (co_path (tree_list root depth) depth idx).
Proof.
  intros HR Hd Hi.
  set (cell := fun l => nthN (tree_list root depth) (bfs (l + 1) (sibling (ancestor depth idx (l + 1)))) []).
  assert (Hcell : forall m, m < depth -> node_ok (cell m)).
  { intros m Hm. unfold cell, tree_list.
    assert (B : sibling (ancestor depth idx (m + 1)) < 2 ^ (m + 1)).
    { rewrite pow2_S. apply sibling_bound. rewrite <- pow2_S. apply ancestor_bound; [exact Hi|lia]. }
    rewrite nthN_tab by (apply bfs_bound; [lia|exact B]). apply ggm_ok, HR. }
  unfold co_path. fold cell.
  assert (G : forall m, m <= depth -> lenN (concat (tab m cell)) = lb * m /\ bytes_ok (concat (tab m cell))).
  { induction m as [|m IHm] using N.peano_ind; intros Hm.
    - rewrite N.mul_0_r. split; [reflexivity|constructor].
    - rewrite <- N.add_1_r in *. destruct IHm as [I1 I2]; [lia|]. destruct (Hcell m ltac:(lia)) as [C1 C2].
      rewrite tab_succ, concat_app, lenN_app. cbn [concat]. rewrite app_nil_r, I1, C1.
      split; [lia|]. apply bytes_ok_app; assumption. }
  apply G. lia.
Qed.
End Tree.
