(** The translated commitment to all columns, in terms of what stands in memory. *)
From Coq Require Import ZArith NArith List Bool FMapPositive Lia ZifyBool ZifyNat ZifyN.
From Verif Require Import Model.Base Proof.BaseProof Spec.VcSpec Spec.VoleSpec Spec.KeccakSpec.
From Verif Require Proof.PrgProof Proof.VcProof Proof.VoleProof.
From Verif Require Import Model.CtLang Model.CtNames Model.CtProgram Spec.RefSpec Spec.RefVcSpec Spec.RefVoleSpec Proof.RefLogic Proof.RefTac Proof.RefMem Proof.RefProps Proof.RefSponge Proof.RefShakeProps Proof.RefFresh Proof.RefTree Proof.RefTree2 Proof.RefLeaf Proof.RefVc Proof.RefVcProps Proof.RefConv Proof.RefConvProps Proof.RefVoleCommit.
Import ListNotations.
Local Open Scope Z_scope.

Lemma points_to m b i t o : points m b i t o -> to m b i (VPtr t o).
Proof. intros (L & k & F & I & G). unfold to, inb, size, cell. rewrite F. repeat split; (assumption || lia). Qed.
Lemma number_parm m b o v : (v < 2 ^ 16)%N -> number m b o v -> parm m b o v.
Proof.
  intros L H. unfold parm. apply holds_stands. replace (le_bytes 2 v) with [v mod 256; v / 256]%N; [exact H|]. unfold le_bytes. cbn. f_equal. f_equal.
  symmetry. apply N.mod_small. apply N.div_lt_upper_bound; [discriminate|exact L].
Qed.
Lemma sum_xor n a b : lenN a = n -> lenN b = n -> xor_bytes a b = sum n [a; b].
Proof.
  intros A B. apply (list_ext 0%N); [rewrite sum_len, lenN_xor; congruence|]. intros i Hi. rewrite lenN_xor in Hi by congruence. rewrite nthN_xor by congruence. rewrite sum_nth by congruence.
  cbn [map fold_right]. rewrite N.lxor_0_r. reflexivity.
Qed.
Lemma low_before k0 k1 t0 t : low k0 k1 t0 t = bits_before k0 t0 k1 t. Proof. reflexivity. Qed.
Lemma dep_taken k0 k1 t0 t : dep k0 k1 t0 t = bits_taken k0 t0 k1 t. Proof. reflexivity. Qed.
Lemma key_root lam tau root iv t : key lam tau root iv t = tree_root lam tau root iv t.
Proof. unfold key, keys, tree_root. rewrite VcProof.ctr_bytes_stream, (N.mul_comm (lam / 8) tau). reflexivity. Qed.
Lemma commitment_of lam root iv d m c hb kb cb sb : security_level lam -> (1 <= d <= 24)%N -> byte_string root (lam / 8) -> byte_string iv 16 -> committed lam root iv d m (vplace c) hb kb cb sb ->
  member_blocks m c hb kb cb sb /\ commitment m hb kb cb sb lam d root iv.
Proof.
  intros L D [LR BR] [LI BI] (VT & NO & LV & HH). assert (HL := level_lamb lam L). destruct (count_b d D) as [C1 C2]. split.
  - destruct VT as ([_ V0] & [_ V1] & [_ V2] & [_ V3]). unfold vplace in V0, V1, V2, V3. cbn [vp Z.eqb Pos.eqb] in V0, V1, V2, V3. unfold member_blocks; splits; apply to_points; assumption.
  - split; [|split].
    + intros l p Hl Hp. unfold entry, grown. apply holds_stands. rewrite <- (VcProof.ggm_flat_bfs lam) by (exact HL || exact Hp || exact LI || exact BI). rewrite N2Z.inj_mul. apply NO. apply N2Z.inj_lt.
      assert (B := VcProof.bfs_bound l p d). unfold count. apply B; [lia|exact Hp].
    + intros j Hj. destruct (LV j ltac:(lia)) as [A B]. unfold entry. rewrite !N2Z.inj_mul. split; apply holds_stands; assumption.
    + apply holds_stands. unfold each_leaf, grown. rewrite map_map, <- flat_map_concat_map. unfold coms, comof, leaf in HH. replace (Z.to_nat (ofN (2 ^ d))) with (N.to_nat (2 ^ d)) in HH by lia. exact HH.
Qed.
Lemma vole_commit_returns : forall lam tau k0 k1 t0 ell root iv m c rb ro ib io pb po hb ho ab ao cb co ub uo vb vo Vb Vo,
  let n := ((ell + 7) / 8)%N in let depth := bits_taken k0 t0 k1 in let before := bits_before k0 t0 k1 in
  let root_of := tree_root lam tau root iv in let seed t := tree_seed lam (root_of t) iv (depth t) in let mask t := all_masks lam iv n (depth t) (seed t) in
  security_level lam -> (1 <= k0 <= 24)%N -> (1 <= k1 <= 24)%N -> (1 <= tau < 2 ^ 16)%N -> (t0 < 2 ^ 16)%N ->
  (1 <= ell)%N -> (ell + 7 < 2 ^ 32)%N -> (2 * 2 ^ k0 * n < 2 ^ 32)%N -> (2 * 2 ^ k1 * n < 2 ^ 32)%N -> (tau * n < 2 ^ 32)%N -> (before tau * n < 2 ^ 32)%N ->
  byte_string root (lam / 8) -> byte_string iv 16 -> loaded m -> vole_parameters m pb po lam tau k0 k1 t0 -> stands m rb ro root -> stands m ib io iv ->
  (forall t, (t < tau)%N -> laid_out m (c t) /\ array (c t) = ab /\ index (c t) = ao + Z.of_N t) ->
  (forall k, (k < before tau)%N -> points m vb (vo + Z.of_N k) Vb (Vo + Z.of_N (k * n))) ->
  room m Vb Vo (before tau * n) -> room m ub uo n -> room m cb co ((tau - 1) * n) -> room m hb ho (lam / 8 * 2) -> commit_apart tau c pb ib ab vb Vb ub cb hb ->
  exists v m', returns f_vole_commit [VPtr rb ro; VPtr ib io; VInt (Z.of_N ell); VPtr pb po; VPtr hb ho; VPtr ab ao; VPtr cb co; VPtr ub uo; VPtr vb vo] m v m' /\
    (forall t, (t < tau)%N -> exists h k com sd, member_blocks m' (c t) h k com sd /\ NoDup [h; k; com; sd] /\ (forall b, In b [h; k; com; sd] -> (mnext m <= b < mnext m')%positive) /\
       commitment m' h k com sd lam (depth t) (root_of t) iv) /\
    (forall t k, (t < tau)%N -> (k < depth t)%N -> stands m' Vb (Vo + Z.of_N ((before t + k) * n)) (column lam iv n (depth t) (seed t) k)) /\
    stands m' ub uo (mask 0%N) /\ (forall t, (1 <= t < tau)%N -> stands m' cb (co + Z.of_N ((t - 1) * n)) (sum n [mask 0%N; mask t])) /\
    stands m' hb ho (H1 shake lam (concat (map (fun t => tree_hash lam (root_of t) iv (depth t)) (trees tau)))) /\
    unchanged m m' (fun b q => (exists t, (t < tau)%N /\ In b (members (c t))) \/ within Vb Vo (before tau * n) b q \/ within ub uo n b q \/ within cb co ((tau - 1) * n) b q \/ within hb ho (lam / 8 * 2) b q).
Proof.
  intros lam tau k0 k1 t0 ell root iv m c rb ro ib io pb po hb ho ab ao cb co ub uo vb vo Vb Vo n depth before root_of seed mask' L K0 K1 T T0 E1 E2 S0 S1 TN BN BR BI LD (P1 & P2 & P3 & P4 & P5) SR SI LO PT RV RU RC RH (G & ND & NA & NV & NM & NMM).
  assert (HL := level_lamb lam L). assert (N1 : (1 <= n)%N) by (unfold n; apply N.div_le_lower_bound; lia).
  set (mb := fun t => vp (vplace (c t))).
  assert (PL : forall t, (t < tau)%N -> vplace (c t) = place ab ao mb t) by (intros t Ht; destruct (LO t Ht) as (_ & A & B); unfold place, mb, vplace at 1; rewrite A, B; reflexivity).
  assert (MM : forall t, mems mb t = members (c t)) by reflexivity.
  assert (SZ : csizes lam tau k0 k1 t0 n root iv) by (unfold csizes, sized; destruct BR, BI; splits; (assumption || apply K0 || apply K1 || apply T)).
  assert (CS : cstat lam tau k0 k1 t0 n iv ab ao mb ib pb vb Vb io po vo Vo m).
  { split; [splits|split; [|split]].
    - apply number_parm; [destruct L as [->|[->| ->]]; reflexivity|exact P1].
    - apply holds_stands, SI.
    - apply loaded_kconst, LD.
    - apply loaded_rconst, LD.
    - exact (loaded_separator m 8 0 LD ltac:(vm_compute; auto 20)).
    - exact (loaded_separator m 9 1 LD ltac:(vm_compute; auto 20)).
    - intros t Ht. rewrite <- PL by exact Ht. apply laid_space, LO, Ht.
    - intros k Hk. assert (Y := points_to _ _ _ _ _ (PT k Hk)). rewrite N2Z.inj_mul in Y. exact Y.
    - assert (Y := proj1 (room_inb _ _ _ _) RV). rewrite N2Z.inj_mul in Y. exact Y. }
  assert (AP : capart tau ab mb ib pb vb Vb ub cb hb).
  { assert (GG : forall b, In b [pb; ib; ab; vb; Vb; ub; cb; hb] -> (12 < b)%positive) by exact G. unfold capart. split; [|split; [exact NMM|split; [|split; [|split; [|split; [exact ND|]]]]]].
    - intros t b Ht I. rewrite MM in I. assert (Y := NM t b Ht I). destruct (LO t Ht) as ((LN & LG & _) & A & _). split; [apply LG; right; exact I|]. rewrite A in LN. apply NoDup_cons_iff in LN. destruct LN as [LN _].
      cbn [In] in Y. split; [splits|splits]; intros ->; try tauto.
    - assert (I1 := GG ab ltac:(cbn; tauto)). assert (I2 := GG ib ltac:(cbn; tauto)). assert (I3 := GG pb ltac:(cbn; tauto)). assert (I4 := GG vb ltac:(cbn; tauto)). cbn [In] in NA. splits; try (clear - I1 I2 I3 I4; lia). intros ->. tauto.
    - cbn [In] in NA, NV. splits; intros ->; tauto.
    - cbn [In] in NA. splits; intros ->; tauto.
    - intros b I. apply GG. cbn [In] in *. tauto. }
  apply holds_stands in SR. apply room_inb in RU, RC, RH.
  assert (T1 : forall t, (1 <= t)%N -> ofN ((t - 1) * n) = (ofN t - 1) * ofN n) by (intros t Ht; rewrite N2Z.inj_mul, N2Z.inj_sub by exact Ht; reflexivity).
  rewrite T1 in RC by apply T. replace (ofN (lam / 8 * 2)) with (ofN (lam / 8) * 2) in RH by lia.
  assert (B2 : (tau < 2 ^ 16)%N) by apply T. assert (B3 : (k0 < 2 ^ 16)%N) by (clear - K0; lia). assert (B4 : (k1 < 2 ^ 16)%N) by (clear - K1; lia).
  destruct (calls_returns _ _ _ _ (ref_vole_commit lam tau k0 k1 t0 n root iv ab ao mb ib pb vb Vb ub cb hb io po vo Vo uo co ho ell rb ro m SZ AP CS eq_refl E2 B3 B4
    (number_parm _ _ _ _ B2 P2) (number_parm _ _ _ _ T0 P5) (number_parm _ _ _ _ B3 P3) (number_parm _ _ _ _ B4 P4) SR RU RC RH)) as (v & m' & R & F & DN & VC & HU & CR & HH).
  assert (DD : forall t, (1 <= depth t <= 24)%N) by (intros t; unfold depth, bits_taken; destruct (t <? t0)%N; assumption).
  assert (ES : forall t x, seeds lam tau k0 k1 t0 root iv t x = seed t x) by (intros t x; unfold seeds, seed, tree_seed, seedof, leaf, grown; rewrite key_root; reflexivity).
  assert (ER : forall t x, rows lam tau k0 k1 t0 n root iv t x = mask_of lam iv n (seed t) x) by (intros t x; unfold rows, rowb, mask_of; rewrite VcProof.ctr_bytes_stream, ES; reflexivity).
  assert (EM : forall t, mask lam tau k0 k1 t0 n root iv t = mask' t).
  { intros t. unfold mask, mask', all_masks. rewrite colsum_sum by (intros x _; apply rows_ok, SZ). f_equal. apply map_ext. apply ER. }
  exists v, m'. split; [exact R|]. split; [|split; [|split; [|split; [|split]]]].
  - intros t Ht. destruct (DN t Ht) as (h & k & com & sd & NDt & FR & CM). exists h, k, com, sd. rewrite <- PL in CM by exact Ht. rewrite key_root in CM.
    assert (KO := key_ok lam tau k0 k1 t0 n root iv mb t SZ Ht). rewrite key_root in KO. destruct (commitment_of _ _ _ _ _ _ _ _ _ _ L (DD t) KO BI CM) as [M C]. splits; assumption.
  - intros t k Ht Hk. apply holds_stands. assert (Y := VC t k Ht Hk). replace (Vo + ofN ((before t + k) * n)) with (Vo + (ofN (low k0 k1 t0 t) + ofN k) * ofN n) by (rewrite low_before; fold before; lia).
    unfold vcol in Y. rewrite col_sum in Y by (intros x _; apply rows_ok, SZ). unfold column. rewrite (map_ext _ (mask_of lam iv n (seed t)) (ER t)) in Y. exact Y.
  - apply holds_stands. rewrite <- EM. exact HU.
  - intros t Ht. apply holds_stands. rewrite T1 by apply Ht. assert (Y := CR t Ht). rewrite <- !EM. rewrite <- sum_xor by (apply mask_ok, SZ). exact Y.
  - apply holds_stands. unfold trees. rewrite map_map, <- flat_map_concat_map. unfold hashes in HH. erewrite flat_map_ext; [exact HH|]. intros t. unfold hash, tree_hash, each_leaf, grown, root_of. rewrite map_map, <- flat_map_concat_map, <- key_root.
    unfold coms, comof, leaf. replace (Z.to_nat (ofN (2 ^ dep k0 k1 t0 (N.of_nat t)))) with (N.to_nat (2 ^ dep k0 k1 t0 (N.of_nat t))) by lia. reflexivity.
  - eapply frame_unchanged; [exact F|]. intros b q [(t & Ht & I)|[I|[I|[I|I]]]].
    + left. exists t. split; [exact Ht|exact I].
    + right; left. apply (proj1 (within_at Vb Vo (before tau * n) b q)). rewrite N2Z.inj_mul. exact I.
    + right; right; left. exact (proj1 (within_at ub uo n b q) I).
    + right; right; right; left. apply (proj1 (within_at cb co ((tau - 1) * n) b q)). rewrite T1 by apply T. exact I.
    + right; right; right; right. apply (proj1 (within_at hb ho (lam / 8 * 2) b q)). replace (ofN (lam / 8 * 2)) with (ofN (lam / 8) * 2) by lia. exact I.
Qed.
