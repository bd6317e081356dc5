(** The portable aligned allocation (property C47). *)
From Coq Require Import Lia ZifyBool ZifyNat ZifyN.
From Verif.Model Require Import Base Compat.
From Verif.Proof Require Import BaseProof CompatProof.
Ltac Zify.zify_post_hook ::= Z.div_mod_to_equations.

Lemma pow2_pos k : 0 < 2 ^ k. Proof. apply N.neq_0_lt_0, N.pow_nonzero. lia. Qed.
Lemma land_low x k : N.land x (2 ^ k - 1) = x mod 2 ^ k.
Proof. rewrite <- N.land_ones. rewrite N.ones_equiv. f_equal. lia. Qed.

Lemma pow2_test a : 0 < a -> a < 2 ^ 64 -> (N.land a (usub 64 a 1) =? 0) = true <-> exists k, a = 2 ^ k.
Proof.
  intros H0 H. rewrite usub_ge by lia. rewrite N.eqb_eq. split.
  - intros E. set (k := N.log2 a). destruct (N.log2_spec a H0) as (L1 & L2). fold k in L1, L2.
    destruct (N.eq_dec a (2 ^ k)) as [Hn|Hn]; [exists k; exact Hn|]. exfalso.
    assert (B : N.testbit (N.land a (a - 1)) k = true).
    { rewrite N.land_spec. apply andb_true_iff. split.
      - apply N.bit_log2. lia.
      - replace k with (N.log2 (a - 1)); [apply N.bit_log2; pose proof (pow2_pos k); lia|].
        apply N.log2_unique; [apply N.le_0_l|]. lia. }
    rewrite E, N.bits_0 in B. discriminate.
  - intros (k & ->). rewrite land_low. apply N.mod_same, N.pow_nonzero. lia.
Qed.
Lemma args_ok k size : k < 64 -> alloc_args_ok (2 ^ k) size = (size mod 2 ^ k =? 0).
Proof.
  intros Hk. assert (B : 2 ^ k < 2 ^ 64) by (apply N.pow_lt_mono_r; lia). pose proof (pow2_pos k).
  unfold alloc_args_ok. rewrite (proj2 (pow2_test (2 ^ k) ltac:(lia) B)) by (exists k; reflexivity).
  rewrite usub_ge by lia. rewrite land_low. reflexivity.
Qed.
Lemma args_rejected alignment size : alignment < 2 ^ 64 -> size < 2 ^ 64 ->
  (forall k, alignment = 2 ^ k -> size mod alignment <> 0) -> 0 < size -> alloc_args_ok alignment size = false.
Proof.
  intros Ha Hs H H0. unfold alloc_args_ok. apply andb_false_iff.
  destruct (N.eq_dec alignment 0) as [->|Hn].
  - right. change (usub 64 0 1) with (2 ^ 64 - 1). rewrite land_low, N.mod_small by exact Hs. lia.
  - destruct (N.land alignment (usub 64 alignment 1) =? 0) eqn:E; [|left; reflexivity]. right.
    apply pow2_test in E; [|lia|exact Ha]. destruct E as (k & E). specialize (H k E).
    rewrite usub_ge by lia. rewrite E, land_low. apply N.eqb_neq. rewrite <- E. exact H.
Qed.
Lemma own_rejects malloc alignment size : alignment < 2 ^ 64 -> size < 2 ^ 64 ->
  (forall k, alignment = 2 ^ k -> size mod alignment <> 0) \/ size = 0 ->
  aligned_alloc_own malloc alignment size = AllocNull [].
Proof.
  intros Ha Hs H. unfold aligned_alloc_own. destruct (N.eq_dec size 0) as [->|H0].
  - destruct (negb (alloc_args_ok alignment 0)); reflexivity.
  - destruct H as [H|H]; [|contradiction]. rewrite args_rejected by (assumption || lia). reflexivity.
Qed.

Lemma mask_high x k : x < 2 ^ 64 -> k <= 64 -> N.land x (2 ^ 64 - 1 - (2 ^ k - 1)) = x - x mod 2 ^ k.
Proof.
  intros Hx Hk. assert (LE : 2 ^ k <= 2 ^ 64) by (apply N.pow_le_mono_r; lia). pose proof (pow2_pos k).
  assert (E : 2 ^ 64 - 1 - (2 ^ k - 1) = N.ldiff (N.ones 64) (N.ones k)).
  { rewrite N.ldiff_ones_r. rewrite (N.ones_equiv 64), N.shiftl_mul_pow2, N.shiftr_div_pow2.
    replace (N.pred (2 ^ 64)) with (2 ^ 64 - 1) by lia.
    replace (2 ^ 64) with (2 ^ (64 - k) * 2 ^ k) by (rewrite <- N.pow_add_r; f_equal; lia).
    assert (D : (2 ^ (64 - k) * 2 ^ k - 1) / 2 ^ k = 2 ^ (64 - k) - 1).
    { symmetry. apply N.div_unique with (2 ^ k - 1); [lia|]. pose proof (pow2_pos (64 - k)). nia. }
    rewrite D. nia. }
  rewrite E.
  assert (E2 : N.land x (N.ldiff (N.ones 64) (N.ones k)) = N.ldiff x (N.ones k)).
  { apply N.bits_inj. intros i. rewrite N.land_spec, !N.ldiff_spec. destruct (N.lt_ge_cases i 64) as [Hi|Hi].
    - rewrite (N.ones_spec_low 64) by exact Hi. reflexivity.
    - rewrite (tb_high x 64) by assumption. reflexivity. }
  rewrite E2, N.ldiff_ones_r, N.shiftl_mul_pow2, N.shiftr_div_pow2.
  pose proof (N.div_mod x (2 ^ k)) as D. specialize (D ltac:(lia)). clear - D. revert D.
  generalize (x / 2 ^ k). generalize (x mod 2 ^ k). generalize (2 ^ k). intros ? ? ? D. lia.
Qed.

Lemma own_ok malloc k size b : k < 64 -> 0 < size -> size mod 2 ^ k = 0 -> size + 2 ^ k < 2 ^ 64 ->
  malloc (size + 2 ^ k) = Some b -> b + (size + 2 ^ k) <= 2 ^ 64 ->
  (255 < 2 ^ k /\ aligned_alloc_own malloc (2 ^ k) size = AllocNull [b]) \/
  exists ptr v, aligned_alloc_own malloc (2 ^ k) size = AllocPtr ptr (size + 2 ^ k) (ptr - 1) v /\
    ptr mod 2 ^ k = 0 /\ b < ptr /\ ptr + size <= b + (size + 2 ^ k) /\
    v < 256 /\ aligned_free_own ptr v = b.
Proof.
  intros Hk H0 Hd Hf Hm Hb. pose proof (pow2_pos k) as HP.
  unfold aligned_alloc_own. rewrite args_ok by exact Hk. rewrite Hd. cbn [negb N.eqb].
  assert (Z : (size =? 0) = false) by lia. rewrite Z. clear Z.
  rewrite (usub_ge 64 (2 ^ k) 1) by lia. replace (2 ^ k - 1 + 1) with (2 ^ k) by lia.
  assert (S1 : sz (2 ^ k) = 2 ^ k) by (unfold sz; apply N.mod_small; lia). rewrite S1.
  assert (S2 : sz (size + 2 ^ k) = size + 2 ^ k) by (unfold sz; apply N.mod_small; lia). rewrite S2, Hm.
  assert (S3 : sz (b + 2 ^ k) = b + 2 ^ k) by (unfold sz; apply N.mod_small; lia). rewrite S3.
  rewrite mask_high by lia. cbv zeta.
  set (ptr := b + 2 ^ k - (b + 2 ^ k) mod 2 ^ k).
  assert (HM : (b + 2 ^ k) mod 2 ^ k < 2 ^ k) by (apply N.mod_lt; lia).
  assert (P1 : b < ptr /\ ptr <= b + 2 ^ k) by (unfold ptr; pose proof (N.mod_le (b + 2 ^ k) (2 ^ k)); lia).
  assert (P2 : ptr mod 2 ^ k = 0).
  { unfold ptr. pose proof (N.div_mod (b + 2 ^ k) (2 ^ k) ltac:(lia)) as D.
    replace (b + 2 ^ k - (b + 2 ^ k) mod 2 ^ k) with ((b + 2 ^ k) / 2 ^ k * 2 ^ k); [apply N.mod_mul; lia|].
    clear - D. revert D. generalize ((b + 2 ^ k) / 2 ^ k). generalize ((b + 2 ^ k) mod 2 ^ k). generalize (2 ^ k). intros ? ? ? D. lia. }
  clearbody ptr.
  destruct (255 <? Z.of_N ptr - Z.of_N b)%Z eqn:E.
  - left. split; [lia|reflexivity].
  - right. exists ptr, (ptr - b). rewrite (usub_ge 64 ptr 1) by lia.
    assert (V : Z.to_N ((Z.of_N ptr - Z.of_N b) mod 256) = ptr - b) by (rewrite Z.mod_small by lia; lia). rewrite V.
    split; [reflexivity|]. split; [exact P2|]. split; [lia|]. split; [lia|]. split; [lia|].
    unfold aligned_free_own. rewrite usub_ge by lia. lia.
Qed.
Lemma own_null malloc k size : k < 64 -> 0 < size -> size mod 2 ^ k = 0 -> size + 2 ^ k < 2 ^ 64 ->
  malloc (size + 2 ^ k) = None -> aligned_alloc_own malloc (2 ^ k) size = AllocNull [].
Proof.
  intros Hk H0 Hd Hf Hm. pose proof (pow2_pos k) as HP.
  unfold aligned_alloc_own. rewrite args_ok by exact Hk. rewrite Hd. cbn [negb N.eqb].
  assert (Z : (size =? 0) = false) by lia. rewrite Z. clear Z.
  rewrite (usub_ge 64 (2 ^ k) 1) by lia. replace (2 ^ k - 1 + 1) with (2 ^ k) by lia.
  assert (S1 : sz (2 ^ k) = 2 ^ k) by (unfold sz; apply N.mod_small; lia). rewrite S1.
  assert (S2 : sz (size + 2 ^ k) = size + 2 ^ k) by (unfold sz; apply N.mod_small; lia). rewrite S2, Hm. reflexivity.
Qed.

Lemma posix_ok k size : k < 64 -> size mod 2 ^ k = 0 -> size + 8 <= 2 ^ 64 ->
  exists j size', posix_memalign_args (2 ^ k) size = Some (2 ^ j, size') /\
    3 <= j /\ k <= j /\ size' mod 2 ^ j = 0 /\ size <= size' /\ size' < size + 8.
Proof.
  intros Hk Hd Hs. unfold posix_memalign_args. rewrite args_ok by exact Hk. rewrite Hd. cbn [negb N.eqb].
  destruct (2 ^ k <? 8) eqn:E.
  - assert (K3 : k < 3). { destruct (N.lt_ge_cases k 3) as [H|H]; [exact H|]. pose proof (N.pow_le_mono_r 2 3 k). change (2 ^ 3) with 8 in *. lia. }
    exists 3. eexists. split; [reflexivity|]. unfold sz. rewrite (N.mod_small (size + 8 - 1)) by lia.
    change (2 ^ 64 - 8) with (2 ^ 64 - 1 - (2 ^ 3 - 1)). rewrite mask_high by lia. change (2 ^ 3) with 8. lia.
  - assert (K3 : 3 <= k). { destruct (N.lt_ge_cases k 3) as [H|H]; [|exact H]. assert (C : k = 0 \/ k = 1 \/ k = 2) by lia. destruct C as [->|[->| ->]]; cbn in E; lia. }
    exists k, size. repeat split; try lia.
Qed.
Lemma posix_rejects alignment size : alignment < 2 ^ 64 -> size < 2 ^ 64 -> 0 < size ->
  (forall k, alignment = 2 ^ k -> size mod alignment <> 0) -> posix_memalign_args alignment size = None.
Proof. intros. unfold posix_memalign_args. rewrite args_rejected by assumption. reflexivity. Qed.

(** a request that wraps around *)
Lemma own_wraps : exists malloc ptr request cell v b,
  malloc request = Some b /\ aligned_alloc_own malloc 16 (2 ^ 64 - 16) = AllocPtr ptr request cell v /\ ~ (b <= cell < b + request).
Proof. exists (fun _ => Some 4096). eexists _, _, _, _, _. split; [reflexivity|]. split; [vm_compute; reflexivity|]. intros H. vm_compute in H. destruct H. discriminate. Qed.
