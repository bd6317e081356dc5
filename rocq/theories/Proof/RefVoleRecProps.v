(** The translated reconstruction of all columns, in terms of what stands in memory. *)
From Coq Require Import ZArith NArith List Bool FMapPositive Lia ZifyBool ZifyNat ZifyN Permutation.
From Coq Require FinFun.
From Verif Require Import Model.Base Proof.BaseProof Spec.VcSpec Spec.VoleSpec Spec.KeccakSpec.
From Verif Require Proof.PrgProof Proof.VcProof Proof.VoleProof Proof.PrgProof.
From Verif Require Import Model.CtLang Model.CtNames Model.CtProgram Spec.RefSpec Spec.RefVcSpec Spec.RefRecSpec Spec.RefVoleSpec Spec.RefVoleRecSpec Proof.RefLogic Proof.RefTac Proof.RefMem Proof.RefProps Proof.RefSponge Proof.RefShakeProps Proof.RefFresh Proof.RefTree Proof.RefTree2 Proof.RefLeaf Proof.RefVc Proof.RefVcProps Proof.RefRec Proof.RefRec2 Proof.RefRec3 Proof.RefRecProps Proof.RefConv Proof.RefConvProps Proof.RefChal Proof.RefVoleCommit Proof.RefCommitProps Proof.RefVoleRec.
Import ListNotations.
Local Open Scope Z_scope.

(** ** Sums *)
Lemma lxor_perm l l' : Permutation l l' -> fold_right N.lxor 0%N l = fold_right N.lxor 0%N l'.
Proof.
  induction 1 as [|x l l' P IH|x y l|l l' l'' P IH P' IH']; cbn [fold_right]; [reflexivity|congruence| |congruence]. rewrite <- !N.lxor_assoc, (N.lxor_comm y x). reflexivity.
Qed.
Lemma sum_perm n l l' : Permutation l l' -> sum n l = sum n l'.
Proof. intros P. unfold sum. apply map_ext. intros i. apply lxor_perm, Permutation_map, P. Qed.
Lemma in_leaf d x : In x (each_leaf d) <-> (x < 2 ^ d)%N.
Proof.
  unfold each_leaf. rewrite in_map_iff. split.
  - intros (i & <- & I). apply in_seq in I. lia.
  - intros H. exists (N.to_nat x). split; [lia|]. apply in_seq. lia.
Qed.
Lemma leaf_nodup d : NoDup (each_leaf d).
Proof. unfold each_leaf. apply FinFun.Injective_map_NoDup; [intros a b; lia|apply seq_NoDup]. Qed.
Lemma leaf_perm d x k : (x < 2 ^ d)%N ->
  Permutation (map (fun y => N.lxor y x) (filter (fun y => N.testbit y k) (each_leaf d))) (filter (fun j => xorb (N.testbit j k) (N.testbit x k)) (each_leaf d)).
Proof.
  intros X. apply NoDup_Permutation.
  - apply FinFun.Injective_map_NoDup; [|apply NoDup_filter, leaf_nodup]. intros a b E. assert (Y : N.lxor (N.lxor a x) x = N.lxor (N.lxor b x) x) by congruence. rewrite !N.lxor_assoc, N.lxor_nilpotent, !N.lxor_0_r in Y. exact Y.
  - apply NoDup_filter, leaf_nodup.
  - intros j. rewrite in_map_iff, filter_In, in_leaf. split.
    + intros (y & <- & I). apply filter_In in I. destruct I as [I B]. apply in_leaf in I. split; [apply lxor_lt; assumption|]. rewrite N.lxor_spec, B. destruct (N.testbit x k); reflexivity.
    + intros [I B]. exists (N.lxor j x). split; [rewrite N.lxor_assoc, N.lxor_nilpotent; apply N.lxor_0_r|]. apply filter_In. split; [apply in_leaf, lxor_lt; assumption|]. rewrite N.lxor_spec. exact B.
Qed.
Lemma column_received lam iv n d x seed k : (x < 2 ^ d)%N -> column lam iv n d (fun y => seed (N.lxor y x)) k = received_column lam iv n d x seed k.
Proof.
  intros X. unfold column, received_column. rewrite <- (sum_perm _ _ _ (Permutation_map (mask_of lam iv n seed) (leaf_perm d x k X))). rewrite map_map. reflexivity.
Qed.
Lemma received_same lam iv n d x seed seed' k : (forall j, (j < 2 ^ d)%N -> j <> x -> seed j = seed' j) -> received_column lam iv n d x seed k = received_column lam iv n d x seed' k.
Proof.
  intros H. unfold received_column. f_equal. apply map_ext_in. intros j I. apply filter_In in I. destruct I as [I B]. apply in_leaf in I. unfold mask_of. rewrite H; [reflexivity|exact I|]. intros ->. rewrite xorb_nilpotent in B. discriminate.
Qed.
Lemma lxor_filter {A} (f : A -> N) (p : A -> bool) l :
  fold_right N.lxor 0%N (map f (filter (fun x => negb (p x)) l)) = N.lxor (fold_right N.lxor 0%N (map f (filter p l))) (fold_right N.lxor 0%N (map f l)).
Proof.
  induction l as [|a l IH]; [reflexivity|]. cbn [filter map fold_right]. destruct (p a); cbn [negb map fold_right]; rewrite IH.
  - set (u := fold_right _ _ _). set (w := fold_right _ _ _). rewrite <- (N.lxor_assoc (N.lxor (f a) u)), (N.lxor_comm (N.lxor (f a) u)), <- N.lxor_assoc, N.lxor_nilpotent, N.lxor_0_l. reflexivity.
  - set (u := fold_right _ _ _). set (w := fold_right _ _ _). rewrite <- !N.lxor_assoc, (N.lxor_comm (f a) u). reflexivity.
Qed.
Lemma received_honest lam iv n d x seed k : received_column lam iv n d x seed k = if N.testbit x k then sum n [column lam iv n d seed k; all_masks lam iv n d seed] else column lam iv n d seed k.
Proof.
  unfold received_column. destruct (N.testbit x k).
  - apply (list_ext 0%N); [rewrite !sum_len; reflexivity|]. intros i Hi. rewrite sum_len in Hi. rewrite !sum_nth by exact Hi. cbn [map fold_right]. unfold column, all_masks. rewrite !sum_nth by exact Hi. rewrite N.lxor_0_r, !map_map.
    rewrite (filter_ext (fun j => xorb (N.testbit j k) true) (fun j => negb (N.testbit j k))) by (intros j; apply xorb_true_r). apply lxor_filter.
  - unfold column. rewrite (filter_ext (fun j => xorb (N.testbit j k) false) (fun j => N.testbit j k)) by (intros j; apply xorb_false_r). reflexivity.
Qed.
Lemma hidden_bits chal k0 t0 k1 t x : hidden_leaf chal k0 t0 k1 t x -> bits_of x (bits_taken k0 t0 k1 t) = chunk chal (bits_before k0 t0 k1 t) (bits_taken k0 t0 k1 t).
Proof. intros [_ H]. rewrite chunk_bits. unfold bits_of, challenge_bits. apply map_ext_in. intros i I. apply in_seq in I. rewrite H by lia. reflexivity. Qed.

(** ** In memory *)
Lemma vole_reconstruct_returns : forall lam tau k0 k1 t0 t1 ell iv chal path com leaf m ib io gb go db dof jb jo hb ho qb qo pb po Qb Qo Pb Po Cb Co,
  let n := ((ell + 7) / 8)%N in let depth := bits_taken k0 t0 k1 in let before := bits_before k0 t0 k1 in
  let seed t := received_seed lam iv (path t) (depth t) (leaf t) in
  security_level lam -> (1 <= k0 <= 12)%N -> (1 <= k1 <= 12)%N -> (1 <= tau < 2 ^ 16)%N -> (tau <= t0 + t1)%N -> (t0 < 2 ^ 16)%N -> (t1 < 2 ^ 16)%N ->
  (1 <= ell)%N -> (ell + 7 < 2 ^ 32)%N -> (2 * 2 ^ k0 * n < 2 ^ 32)%N -> (2 * 2 ^ k1 * n < 2 ^ 32)%N -> (before tau * n < 2 ^ 32)%N -> (before tau <= 8 * N.of_nat (length chal))%N ->
  byte_string iv 16 -> loaded m -> receiver_parameters m pb po lam tau k0 k1 t0 t1 -> stands m ib io iv -> stands m gb go chal ->
  (forall t, (t < tau)%N -> hidden_leaf chal k0 t0 k1 t (leaf t) /\ byte_string (path t) (lam / 8 * depth t) /\ byte_string (com t) (lam / 8 * 2) /\
     points m db (dof + Z.of_N t) (Pb t) (Po t) /\ stands m (Pb t) (Po t) (path t) /\ points m jb (jo + Z.of_N t) (Cb t) (Co t) /\ stands m (Cb t) (Co t) (com t)) ->
  (forall k, (k < before tau)%N -> points m qb (qo + Z.of_N k) Qb (Qo + Z.of_N (k * n))) ->
  room m Qb Qo (before tau * n) -> room m hb ho (lam / 8 * 2) -> receive_apart tau Pb Cb ib gb db jb qb Qb hb ->
  exists v m', returns f_vole_reconstruct [VPtr ib io; VPtr gb go; VPtr db dof; VPtr jb jo; VPtr hb ho; VPtr qb qo; VInt (Z.of_N ell); VPtr pb po] m v m' /\
    (forall t k, (t < tau)%N -> (k < depth t)%N -> stands m' Qb (Qo + Z.of_N ((before t + k) * n)) (received_column lam iv n (depth t) (leaf t) (seed t) k)) /\
    stands m' hb ho (H1 shake lam (concat (map (fun t => received_hash lam iv (path t) (com t) (depth t) (leaf t)) (trees tau)))) /\
    unchanged m m' (fun b q => within Qb Qo (before tau * n) b q \/ within hb ho (lam / 8 * 2) b q).
Proof.
  intros lam tau k0 k1 t0 t1 ell iv chal path com leaf m ib io gb go db dof jb jo hb ho qb qo pb po Qb Qo Pb Po Cb Co n depth before seed L K0 K1 T TT T0 T1 E1 E2 S0 S1 BN CH [LI BI] LD ((P1 & P2 & P3 & P4 & P5) & P6) SI SG OP PT RQ RH (G & NQ & NI & NO).
  assert (HL := level_lamb lam L). assert (N1 : (1 <= n)%N) by (unfold n; apply N.div_le_lower_bound; lia).
  assert (SZ : rsizes lam tau k0 k1 t0 t1 n iv chal path com leaf).
  { unfold rsizes, sized. splits; try assumption; try (apply K0); try (apply K1); try (apply T).
    - clear - K0. lia.
    - clear - K1. lia.
    - intros t Ht. destruct (OP t Ht) as (HH & [A B] & [C D] & _). assert (HB := hidden_bits _ _ _ _ _ _ HH). unfold comj_ok. splits; try assumption. exact (proj1 HH). }
  assert (CS : rstat tau k0 k1 t0 n iv chal path com ib gb db jb qb Qb io go dof jo qo Qo Pb Cb Po Co m).
  { split; [splits|split; [|split]].
    - apply holds_stands, SI.
    - apply holds_stands, SG.
    - apply loaded_kconst, LD.
    - apply loaded_rconst, LD.
    - exact (loaded_separator m 8 0 LD ltac:(vm_compute; auto 20)).
    - exact (loaded_separator m 9 1 LD ltac:(vm_compute; auto 20)).
    - intros t Ht. destruct (OP t Ht) as (_ & _ & _ & A & B & C & D). splits; (apply points_to || apply holds_stands); assumption.
    - intros k Hk. assert (Y := points_to _ _ _ _ _ (PT k Hk)). rewrite N2Z.inj_mul in Y. exact Y.
    - assert (Y := proj1 (room_inb _ _ _ _) RQ). rewrite N2Z.inj_mul in Y. exact Y. }
  assert (AP : rapart_all tau ib gb db jb qb Qb hb Pb Cb).
  { assert (GG : forall b, In b [ib; Qb; hb] -> (12 < b)%positive) by exact G. assert (GQ := GG Qb ltac:(cbn; tauto)). unfold rapart_all. splits.
    - intros b [I|(t & Ht & I)] ->; [|apply (NO t Ht); cbn; destruct I as [<-|<-]; tauto]. cbn [In] in I, NI. clear - I NI GQ. decompose [or] I; try (subst; tauto); lia.
    - exact GQ.
    - apply GG. cbn. tauto.
    - exact NQ.
    - assert (Y := GG ib ltac:(cbn; tauto)). clear - Y. lia. }
  apply room_inb in RH. replace (ofN (lam / 8 * 2)) with (ofN (lam / 8) * 2) in RH by lia.
  assert (B1 : (lam < 2 ^ 16)%N) by (destruct L as [->|[->| ->]]; reflexivity). assert (B2 : (tau < 2 ^ 16)%N) by apply T. assert (B3 : (k0 < 2 ^ 16)%N) by (clear - K0; lia). assert (B4 : (k1 < 2 ^ 16)%N) by (clear - K1; lia).
  destruct (calls_returns _ _ _ _ (ref_vole_reconstruct lam tau k0 k1 t0 t1 n iv chal path com leaf ib gb db jb qb Qb hb io go dof jo qo Qo ho Pb Cb Po Co ell pb po m SZ AP CS eq_refl E2
    (number_parm _ _ _ _ B1 P1) (number_parm _ _ _ _ B2 P2) (number_parm _ _ _ _ T0 P5) (number_parm _ _ _ _ T1 P6) (number_parm _ _ _ _ B3 P3) (number_parm _ _ _ _ B4 P4) RH)) as (v & m' & R & F & QC & HH).
  assert (EC : forall t j, acom lam iv (path t) (com t) (depth t) (leaf t) j = rebuilt_com lam iv (path t) (com t) (depth t) (leaf t) j).
  { intros t j. unfold acom, rebuilt_com, RefRec2.rcom, rleaf, rnode. rewrite rtree_rebuilt. reflexivity. }
  assert (LR : forall t x, lenN (rrows lam k0 k1 t0 n iv path leaf t x) = n) by (intros t x; unfold rrows, rowb; destruct (_ && _); [apply lenN_zeros|apply PrgProof.stream_len]).
  exists v, m'. split; [exact R|]. split; [|split].
  - intros t k Ht Hk. apply holds_stands. assert (Y := QC t k Ht Hk). replace (Qo + ofN ((before t + k) * n)) with (Qo + (ofN (low k0 k1 t0 t) + ofN k) * ofN n) by (rewrite low_before; fold before; lia).
    destruct (OP t Ht) as ([HX _] & _). rewrite <- column_received by exact HX. unfold qcol in Y. rewrite col_sum in Y by (intros x _; apply LR). unfold column. erewrite map_ext_in in Y; [exact Y|].
    intros x Ix. apply filter_In in Ix. destruct Ix as [_ Ix]. unfold rrows, rowb, mask_of. rewrite VcProof.ctr_bytes_stream. destruct (N.eqb_spec x 0) as [->|NE]; [discriminate|]. rewrite andb_false_r.
    unfold rsd, seed, received_seed, RefRec2.rseed, rleaf, rnode. rewrite rtree_rebuilt. reflexivity.
  - apply holds_stands. unfold trees. rewrite map_map, <- flat_map_concat_map. unfold rhashes in HH. erewrite flat_map_ext; [exact HH|]. intros t. unfold rhash, received_hash, each_leaf. rewrite map_map, <- flat_map_concat_map.
    unfold rcoms. f_equal. apply flat_map_ext. intros j. symmetry. apply EC.
  - eapply frame_unchanged; [exact F|]. intros b q [I|I].
    + left. apply (proj1 (within_at Qb Qo (before tau * n) b q)). rewrite N2Z.inj_mul. exact I.
    + right. apply (proj1 (within_at hb ho (lam / 8 * 2) b q)). replace (ofN (lam / 8 * 2)) with (ofN (lam / 8) * 2) by lia. exact I.
Qed.

(** ** With the openings of commitments *)
Lemma vole_roundtrip_returns : forall lam tau k0 k1 t0 t1 ell root_of iv chal leaf m ib io gb go db dof jb jo hb ho qb qo pb po Qb Qo Pb Po Cb Co,
  let n := ((ell + 7) / 8)%N in let depth := bits_taken k0 t0 k1 in let before := bits_before k0 t0 k1 in
  let seed t := tree_seed lam (root_of t) iv (depth t) in let mask t := all_masks lam iv n (depth t) (seed t) in
  security_level lam -> (1 <= k0 <= 12)%N -> (1 <= k1 <= 12)%N -> (1 <= tau < 2 ^ 16)%N -> (tau <= t0 + t1)%N -> (t0 < 2 ^ 16)%N -> (t1 < 2 ^ 16)%N ->
  (1 <= ell)%N -> (ell + 7 < 2 ^ 32)%N -> (2 * 2 ^ k0 * n < 2 ^ 32)%N -> (2 * 2 ^ k1 * n < 2 ^ 32)%N -> (before tau * n < 2 ^ 32)%N -> (before tau <= 8 * N.of_nat (length chal))%N ->
  byte_string iv 16 -> loaded m -> receiver_parameters m pb po lam tau k0 k1 t0 t1 -> stands m ib io iv -> stands m gb go chal ->
  (forall t, (t < tau)%N -> hidden_leaf chal k0 t0 k1 t (leaf t) /\ byte_string (root_of t) (lam / 8) /\ points m db (dof + Z.of_N t) (Pb t) (Po t) /\ points m jb (jo + Z.of_N t) (Cb t) (Co t) /\
     (forall level, (level < depth t)%N -> stands m (Pb t) (Po t + Z.of_N (level * (lam / 8))) (grown lam (root_of t) iv (level + 1) (sibling (ancestor (depth t) (leaf t) (level + 1))))) /\
     stands m (Cb t) (Co t) (leaf_com shake lam (grown lam (root_of t) iv (depth t) (leaf t)) iv)) ->
  (forall k, (k < before tau)%N -> points m qb (qo + Z.of_N k) Qb (Qo + Z.of_N (k * n))) ->
  room m Qb Qo (before tau * n) -> room m hb ho (lam / 8 * 2) -> receive_apart tau Pb Cb ib gb db jb qb Qb hb ->
  exists v m', returns f_vole_reconstruct [VPtr ib io; VPtr gb go; VPtr db dof; VPtr jb jo; VPtr hb ho; VPtr qb qo; VInt (Z.of_N ell); VPtr pb po] m v m' /\
    (forall t k, (t < tau)%N -> (k < depth t)%N -> stands m' Qb (Qo + Z.of_N ((before t + k) * n))
       (if bit_at chal (before t + k) then sum n [column lam iv n (depth t) (seed t) k; mask t] else column lam iv n (depth t) (seed t) k)) /\
    stands m' hb ho (H1 shake lam (concat (map (fun t => tree_hash lam (root_of t) iv (depth t)) (trees tau)))) /\
    unchanged m m' (fun b q => within Qb Qo (before tau * n) b q \/ within hb ho (lam / 8 * 2) b q).
Proof.
  intros lam tau k0 k1 t0 t1 ell root_of iv chal leaf m ib io gb go db dof jb jo hb ho qb qo pb po Qb Qo Pb Po Cb Co n depth before seed mask' L K0 K1 T TT T0 T1 E1 E2 S0 S1 BN CH I LD PA SI SG OP PT RQ RH AP.
  set (path := fun t => opened lam (root_of t) iv (depth t) (leaf t) (N.to_nat (depth t))). set (com := fun t => leaf_com shake lam (grown lam (root_of t) iv (depth t) (leaf t)) iv).
  assert (OP' : forall t, (t < tau)%N -> hidden_leaf chal k0 t0 k1 t (leaf t) /\ byte_string (path t) (lam / 8 * depth t) /\ byte_string (com t) (lam / 8 * 2) /\
     points m db (dof + Z.of_N t) (Pb t) (Po t) /\ stands m (Pb t) (Po t) (path t) /\ points m jb (jo + Z.of_N t) (Cb t) (Co t) /\ stands m (Cb t) (Co t) (com t)).
  { intros t Ht. destruct (OP t Ht) as (A & R & P & C & ST & SC). assert (B := opened_ok lam (root_of t) iv (depth t) (leaf t) (N.to_nat (depth t)) L R I). rewrite N2Nat.id in B.
    assert (D1 : (1 <= depth t)%N) by (unfold depth, bits_taken; clear - K0 K1; destruct (t <? t0)%N; lia).
    assert (RM : room m (Pb t) (Po t) 0).
    { apply room_inb. assert (Y := ST 0%N ltac:(lia)). apply holds_stands in Y. apply holds_inb in Y. eapply inb_sub; [exact Y|lia|lia|lia]. }
    splits; try assumption.
    - split; [apply leaf_com_length|apply out_ok].
    - apply opened_stands; try assumption. intros l Hl. apply ST. lia. }
  destruct (vole_reconstruct_returns lam tau k0 k1 t0 t1 ell iv chal path com leaf m ib io gb go db dof jb jo hb ho qb qo pb po Qb Qo Pb Po Cb Co L K0 K1 T TT T0 T1 E1 E2 S0 S1 BN CH I LD PA SI SG OP' PT RQ RH AP) as (v & m' & R & QC & HH & U).
  assert (G : forall t j, (t < tau)%N -> (j < 2 ^ depth t)%N -> j <> leaf t -> rebuilt lam iv (path t) (depth t) (leaf t) (N.to_nat (depth t)) j = grown lam (root_of t) iv (depth t) j).
  { intros t j Ht Hj NE. destruct (OP t Ht) as ([X _] & RR & _). assert (Y : forall p, p = N.of_nat (N.to_nat (depth t)) -> rebuilt lam iv (path t) (depth t) (leaf t) (N.to_nat (depth t)) j = grown lam (root_of t) iv p j); [intros p ->|apply Y; lia].
    apply rebuilt_grown; rewrite ?N2Nat.id; try assumption; [|lia|rewrite VcProof.ancestor_top; exact NE]. intros l Hl. apply opened_node; try assumption. lia. }
  exists v, m'. split; [exact R|]. split; [|split; [|exact U]].
  - intros t k Ht Hk. assert (Y := QC t k Ht Hk). destruct (OP t Ht) as ([X XB] & _).
    fold n depth before in Y. rewrite (received_same lam iv n (depth t) (leaf t) _ (seed t)) in Y; [|intros j Hj NE; unfold received_seed, seed, tree_seed; rewrite G by assumption; reflexivity].
    rewrite received_honest in Y. unfold before at 2. rewrite <- XB by exact Hk. exact Y.
  - erewrite map_ext_in; [exact HH|]. intros t It. unfold trees in It. apply in_map_iff in It. destruct It as (i & <- & Ii). apply in_seq in Ii. unfold tree_hash, received_hash. fold depth. do 2 f_equal. apply map_ext_in. intros j Ij. apply in_leaf in Ij.
    unfold rebuilt_com. destruct (N.eqb_spec j (leaf (N.of_nat i))) as [->|NE]; [reflexivity|]. rewrite G by (assumption || lia). reflexivity.
Qed.

(** ** For the case *)
Lemma tree_root_ok lam tau root iv t : security_level lam -> byte_string root (lam / 8) -> (t < tau)%N -> byte_string (tree_root lam tau root iv t) (lam / 8).
Proof.
  intros L [LR BR] Ht. assert (HL := level_lamb lam L). rewrite <- key_root. assert (E : lenN (key lam tau root iv t) = (lam / 8)%N) by (unfold key; rewrite lenN_takeN, lenN_dropN, keys_len; nia). split; [exact E|].
  unfold key. apply bytes_ok_part, bytes_ok_part. unfold keys. apply PrgProof.stream_bytes; [|exact BR]; unfold lenN; rewrite LR; destruct HL as [<-|[<-|[<-|[]]]]; cbn; lia.
Qed.
Lemma unchanged_trans m m' m'' (S S' T : positive -> Z -> Prop) : unchanged m m' S -> unchanged m' m'' S' -> (forall b q, S b q -> T b q) -> (forall b q, S' b q -> T b q) -> unchanged m m'' T.
Proof.
  intros [N1 U1] [N2 U2] A B. split; [lia|]. intros b k o F L O. destruct (U1 b k o F L O) as (k1 & F1 & Z1 & G1). destruct (U2 b k1 o F1 ltac:(lia) ltac:(lia)) as (k2 & F2 & Z2 & G2).
  exists k2. split; [exact F2|]. split; [congruence|]. intros X. rewrite G2, G1; [reflexivity|intros Y; apply X, A, Y|intros Y; apply X, B, Y].
Qed.
