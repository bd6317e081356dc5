(** sha3/opt64 and sha3/plain32 implement the 200-byte state, on targets of both byte orders. *)
From Verif.Model Require Import Keccak Sponge Snp Keccak32.
From Verif.Spec Require Import KeccakSpec.
From Verif.Proof Require Import BaseProof KeccakProof CompatProof SpongeProof InterProof SnpProof.
From Coq Require Import Lia ZifyBool ZifyNat ZifyN.
Ltac Zify.zify_post_hook ::= Z.div_mod_to_equations.

Notation P := KeccakP1600_Permute_24rounds.

(** [R s b]: the state [s] holds the 200 bytes [b]; every operation keeps to what happens to the bytes *)
Record implements (I : snp) (R : snp_state I -> bytes -> Prop) : Prop := {
  im_bytes : forall s b, R s b -> lenN b = 200 /\ bytes_ok b;
  im_init : R (snp_init I) (zeros 200);
  im_add_byte : forall s b x off, R s b -> x < 256 -> off < 200 -> exists s', snp_add_byte I s x off = Ok s' /\ R s' (xor_at b off [x]);
  im_add_bytes : forall s b data off, R s b -> bytes_ok data -> off + lenN data < 200 ->
    exists s', snp_add_bytes I s data off = Ok s' /\ R s' (xor_at b off data);
  im_extract : forall s b off n, R s b -> off + n < 200 -> snp_extract I s off n = Ok (takeN n (dropN off b));
  im_permute : forall s b, R s b -> exists s' b', snp_permute I s = Ok s' /\ P b = Ok b' /\ R s' b';
  im_fast : match snp_fast_loop I with
    | None => True
    | Some fast => forall s b lanes data, R s b -> bytes_ok data -> 0 < lanes <= 25 ->
        exists s' b' rest n, fast s lanes data = Ok (s', n) /\ absorb_full P (length data) b (8 * lanes) data = Ok (b', rest) /\ R s' b' /\ rest = dropN n data
    end }.

(** * opt64 *)
Definition RR64 (s : list N) (b : bytes) : Prop := lenN b = 200 /\ bytes_ok b /\ s = map (lane_of b) (Nrange 25).

Lemma RR64_get s b i : RR64 s b -> i < 25 -> aget s i = Ok (lane_of b i).
Proof.
  intros (HL & HB & ->) Hi. rewrite (aget_ok _ _ 0) by (rewrite lenN_map, lenN_Nrange; exact Hi). rewrite (nthN_map _ _ _ 0) by (rewrite lenN_Nrange; exact Hi).
  rewrite nthN_Nrange by exact Hi. reflexivity.
Qed.
Lemma RR64_len s b : RR64 s b -> lenN s = 25.
Proof. intros (_ & _ & ->). reflexivity. Qed.
Lemma xor_lane_ok s b pos data off : RR64 s b -> pos < 25 -> off + lenN data <= 8 -> bytes_ok data ->
  exists s', xor_lane s pos (N.shiftl (le_val data) (8 * off)) = Ok s' /\ RR64 s' (xor_at b (8 * pos + off) data).
Proof.
  intros HR Hp HO HD. pose proof (RR64_len s b HR) as LS. unfold xor_lane. rewrite (RR64_get s b) by assumption. cbn [bind]. rewrite aset_ok by lia.
  eexists. split; [reflexivity|]. destruct HR as (HL & HB & ES). split; [rewrite xor_at_len; lia|]. split; [apply xor_at_bytes; assumption|].
  apply (list_ext 0); [rewrite lenN_upd, lenN_map, lenN_Nrange; exact LS|]. intros j Hj. rewrite lenN_upd, LS in Hj. rewrite nthN_upd by lia.
  rewrite (nthN_map _ _ _ 0), nthN_Nrange by (rewrite ?lenN_Nrange; exact Hj). rewrite lane_xor by assumption. destruct (j =? pos) eqn:E; [f_equal; apply N.eqb_eq in E; subst j; reflexivity|].
  rewrite ES, (nthN_map _ _ _ 0), nthN_Nrange by (rewrite ?lenN_Nrange; exact Hj). reflexivity.
Qed.

Lemma shl64_ok x n : n < 64 -> N.shiftl x n < 2 ^ 64 -> shl64 x n = Ok (N.shiftl x n).
Proof. intros Hn H. unfold shl64. rewrite guard_true by lia. cbn [bind]. rewrite N.mod_small by exact H. reflexivity. Qed.
Lemma take_succ (d : bytes) n : n < lenN d -> takeN (n + 1) d = takeN n d ++ [nthN d n 0].
Proof.
  intros H. rewrite takeN_split. f_equal. apply (list_ext 0); [rewrite lenN_takeN, lenN_dropN; change (lenN [nthN d n 0]) with 1; lia|].
  intros j Hj. rewrite lenN_takeN in Hj. replace j with 0 by lia. rewrite nthN_takeN, nthN_dropN, N.add_0_r by lia. reflexivity.
Qed.
Lemma or_bytes_ok d n off : bytes_ok d -> n <= lenN d -> off + n <= 8 -> or_bytes d n off = Ok (N.shiftl (le_val (takeN n d)) (8 * off)).
Proof.
  intros HD HN HO. unfold or_bytes.
  destruct (foldM_Nrange_inv (fun lane i => let! b := aget d i in let! x := shl64 b ((i + off) * 8) in Ok (N.lor lane x))
    (fun i lane => lane = N.shiftl (le_val (takeN i d)) (8 * off)) n 0) as (lane & E & ->).
  - rewrite takeN_0. cbn [le_val]. rewrite N.shiftl_0_l. reflexivity.
  - intros i lane Hi ->. rewrite (aget_ok _ _ 0) by lia. cbn [bind]. pose proof (nthN_byte d i HD) as Hb. unfold byte_ok in Hb.
    assert (B1 : N.shiftl (nthN d i 0) ((i + off) * 8) < 2 ^ 64).
    { apply shl_bound; [lia|]. eapply N.lt_le_trans; [exact Hb|]. change 256 with (2 ^ 8). apply N.pow_le_mono_r; lia. }
    rewrite shl64_ok by (exact B1 || lia). cbn [bind]. eexists. split; [reflexivity|].
    rewrite take_succ, le_val_app by lia. assert (LT : lenN (takeN i d) = i) by (rewrite lenN_takeN; lia). rewrite LT. cbn [le_val]. rewrite N.mul_0_r, N.add_0_r.
    assert (B2 : le_val (takeN i d) < 2 ^ (8 * i)) by (rewrite <- LT at 2; apply le_val_bound2, Forall_takeN, HD).
    rewrite add_shift_lor by exact B2. rewrite N.shiftl_lor, N.shiftl_shiftl. do 2 f_equal. lia.
  - exact E.
Qed.
Lemma blit_zero (d : bytes) n : lenN d <= n -> blit (zeros n) 0 d = Ok (d ++ zeros (n - lenN d)).
Proof.
  intros H. rewrite blit_ok by (rewrite lenN_zeros; lia). rewrite takeN_0, N.add_0_l. apply f_equal. cbn [app]. apply f_equal.
  apply (list_ext 0); [rewrite lenN_dropN, !lenN_zeros; reflexivity|]. intros j _. rewrite nthN_dropN, !nthN_zeros. reflexivity.
Qed.
Lemma take_1 (d : bytes) : 1 <= lenN d -> takeN 1 d = [nthN d 0 0].
Proof. destruct d; [unfold lenN; cbn; lia|reflexivity]. Qed.

Lemma AddBytesInLane64_ok e s b pos data off len : RR64 s b -> pos < 25 -> off < 8 -> off + len <= 8 -> len <= lenN data -> bytes_ok data ->
  exists s', AddBytesInLane64 e s pos data off len = Ok s' /\ RR64 s' (xor_at b (8 * pos + off) (takeN len data)).
Proof.
  intros HR Hp HO HN HD HB. assert (LT : lenN (takeN len data) = len) by (rewrite lenN_takeN; lia). assert (BT : bytes_ok (takeN len data)) by apply Forall_takeN, HB.
  destruct (xor_lane_ok s b pos (takeN len data) off HR Hp ltac:(lia) BT) as (s' & E & HR'). pose proof (shifted_lt (takeN len data) off BT ltac:(lia)) as BS.
  unfold AddBytesInLane64. destruct e.
  - destruct (len =? 0) eqn:E0.
    + exists s. split; [reflexivity|]. replace len with 0 by lia. rewrite takeN_0, xor_at_nil by (destruct HR as (-> & _); lia). exact HR.
    + exists s'. split; [|exact HR']. destruct (len =? 1) eqn:E1.
      * rewrite (aget_ok _ _ 0) by lia. cbn [bind]. replace len with 1 in * by lia. rewrite take_1 in * by lia. cbn [le_val] in BS, E. rewrite N.mul_0_r, N.add_0_r, N.mul_comm in BS, E.
        rewrite shl64_ok by (exact BS || lia). exact E.
      * rewrite slice_ok by lia. cbn [bind]. rewrite dropN_0. change (mem_of LittleEndian 8 0) with (zeros 8). rewrite blit_zero by lia. cbn [bind val_of].
        rewrite le_val_app, le_val_zeros, N.mul_0_r, N.add_0_r. rewrite N.mul_comm, shl64_ok by (exact BS || lia). exact E.
  - rewrite or_bytes_ok by (assumption || lia). cbn [bind]. exists s'. split; assumption.
Qed.
Lemma lane_data (data : bytes) i : 8 * i + 8 <= lenN data -> takeN (8 * (i + 1)) data = takeN (8 * i) data ++ takeN 8 (dropN (8 * i) data).
Proof. intros H. replace (8 * (i + 1)) with (8 * i + 8) by lia. apply takeN_split. Qed.
(** one lane more *)
Lemma next_lane s b data i : RR64 s (xor_at b 0 (takeN (8 * i) data)) -> lenN b = 200 -> i < 25 -> 8 * i + 8 <= lenN data -> bytes_ok data ->
  exists s', xor_lane s i (le_val (takeN 8 (dropN (8 * i) data))) = Ok s' /\ RR64 s' (xor_at b 0 (takeN (8 * (i + 1)) data)).
Proof.
  intros HR HL Hi HD HB. assert (L1 : lenN (takeN (8 * i) data) = 8 * i) by (rewrite lenN_takeN; lia). assert (L2 : lenN (takeN 8 (dropN (8 * i) data)) = 8) by (rewrite lenN_takeN, lenN_dropN; lia).
  destruct (xor_lane_ok s _ i (takeN 8 (dropN (8 * i) data)) 0 HR Hi ltac:(lia)) as (s' & E & R'); [apply Forall_takeN, Forall_dropN, HB|].
  change (8 * 0) with 0 in E. rewrite N.shiftl_0_r in E. exists s'. split; [exact E|]. rewrite lane_data by exact HD. rewrite <- xor_at_app by lia. rewrite L1, N.add_0_r in *. exact R'.
Qed.
Lemma word_le e data i : 8 * i + 8 <= lenN data -> word_at e data i = Ok (val_of e (takeN 8 (dropN (8 * i) data))).
Proof. intros H. unfold word_at. rewrite slice_ok by lia. reflexivity. Qed.

Lemma add_unrolled_ok k b data n fuel : 0 < k -> lenN b = 200 -> n <= 25 -> 8 * n <= lenN data -> bytes_ok data ->
  forall s i, i <= n -> n <= i + N.of_nat fuel -> RR64 s (xor_at b 0 (takeN (8 * i) data)) ->
  exists s' i', add_unrolled fuel k LittleEndian s data n i = Ok (s', i') /\ i <= i' <= n /\ n < i' + k /\ RR64 s' (xor_at b 0 (takeN (8 * i') data)).
Proof.
  intros Hk HL Hn HD HB. induction fuel as [|fuel IH]; intros s i Hi HF HR; cbn [add_unrolled].
  - replace (i + k <=? n) with false by lia. exists s, i. split; [reflexivity|]. split; [lia|]. split; [lia|exact HR].
  - destruct (i + k <=? n) eqn:E; [|exists s, i; split; [reflexivity|]; split; [lia|]; split; [lia|exact HR]].
    destruct (foldM_Nrange_inv (fun s j => let! w := word_at LittleEndian data (i + j) in xor_lane s (i + j) w) (fun j s => RR64 s (xor_at b 0 (takeN (8 * (i + j)) data))) k s) as (s1 & E1 & R1).
    + rewrite N.add_0_r. exact HR.
    + intros j s1 Hj R1. rewrite word_le by lia. cbn [bind val_of]. rewrite N.add_assoc. apply next_lane; (assumption || lia).
    + rewrite E1. cbn [bind]. destruct (IH s1 (i + k) ltac:(lia) ltac:(lia) R1) as (s' & i' & E2 & H1 & H2 & R2). exists s', i'. split; [exact E2|]. split; [lia|]. split; [lia|exact R2].
Qed.
Lemma AddLanes64_ok e s b data n : RR64 s b -> n <= 25 -> 8 * n <= lenN data -> bytes_ok data ->
  exists s', AddLanes64 e s data n = Ok s' /\ RR64 s' (xor_at b 0 (takeN (8 * n) data)).
Proof.
  intros HR Hn HD HB. assert (HL : lenN b = 200) by apply HR. assert (H0 : RR64 s (xor_at b 0 (takeN (8 * 0) data))) by (change (8 * 0) with 0; rewrite takeN_0, xor_at_nil by lia; exact HR).
  unfold AddLanes64. destruct e.
  - destruct (add_unrolled_ok 8 b data n (N.to_nat n) ltac:(lia) HL Hn HD HB s 0 ltac:(lia) ltac:(lia) H0) as (s1 & i1 & E1 & A1 & B1 & R1). rewrite E1. cbn [bind].
    destruct (add_unrolled_ok 4 b data n (N.to_nat n) ltac:(lia) HL Hn HD HB s1 i1 ltac:(lia) ltac:(lia) R1) as (s2 & i2 & E2 & A2 & B2 & R2). rewrite E2. cbn [bind].
    destruct (add_unrolled_ok 2 b data n (N.to_nat n) ltac:(lia) HL Hn HD HB s2 i2 ltac:(lia) ltac:(lia) R2) as (s3 & i3 & E3 & A3 & B3 & R3). rewrite E3. cbn [bind].
    destruct (i3 <? n) eqn:E.
    + rewrite word_le by lia. cbn [bind val_of]. replace n with (i3 + 1) by lia. apply next_lane; (assumption || lia).
    + exists s3. split; [reflexivity|]. replace n with i3 by lia. exact R3.
  - destruct (foldM_Nrange_inv (fun s i => let! d := slice data (8 * i) 8 in let! lane := or_bytes d 8 0 in xor_lane s i lane) (fun i s => RR64 s (xor_at b 0 (takeN (8 * i) data))) n s H0) as (s' & E & R').
    + intros i s1 Hi R1. rewrite slice_ok by lia. cbn [bind]. assert (L2 : lenN (takeN 8 (dropN (8 * i) data)) = 8) by (rewrite lenN_takeN, lenN_dropN; lia).
      rewrite or_bytes_ok by (apply Forall_takeN, Forall_dropN, HB || lia). cbn [bind]. rewrite takeN_all by lia. change (8 * 0) with 0. rewrite N.shiftl_0_r. apply next_lane; (assumption || lia).
    + exists s'. split; assumption.
Qed.
Lemma ExtractBytesInLane64_ok e s b pos off len : RR64 s b -> pos < 25 -> off < 8 -> off + len <= 8 ->
  ExtractBytesInLane64 e s pos off len = Ok (takeN len (dropN (8 * pos + off) b)).
Proof.
  intros HR Hp HO HN. unfold ExtractBytesInLane64. rewrite (RR64_get s b) by assumption. cbn [bind]. destruct HR as (HL & HB & _).
  assert (ET : takeN len (dropN off (le_bytes 8 (lane_of b pos))) = takeN len (dropN (8 * pos + off) b)).
  { rewrite lane_bytes by assumption. apply (list_ext 0); [rewrite !lenN_takeN, !lenN_dropN, lenN_takeN, lenN_dropN; lia|]. intros j Hj.
    assert (Hj2 : j < len) by (rewrite lenN_takeN in Hj; lia). rewrite !nthN_takeN, !nthN_dropN, nthN_takeN, nthN_dropN by lia. f_equal. lia. }
  destruct e.
  - cbn [mem_of]. rewrite slice_ok by (rewrite lenN_le_bytes; lia). rewrite ET. reflexivity.
  - unfold shr64. rewrite guard_true by lia. cbn [bind]. rewrite low_slice by exact HN. rewrite ET. reflexivity.
Qed.
Lemma ExtractLanes64_ok e s b n : RR64 s b -> n <= 25 -> ExtractLanes64 e s n = Ok (takeN (8 * n) b).
Proof.
  intros HR Hn. unfold ExtractLanes64. destruct e.
  - destruct HR as (HL & HB & ->). assert (EF : flat_map (mem_of LittleEndian 8) (map (lane_of b) (Nrange 25)) = b).
    { rewrite flat_map_concat_map, map_map. cbn [mem_of]. rewrite lanes_prefix by (assumption || lia). apply takeN_all. lia. }
    rewrite EF, slice_ok by lia. rewrite dropN_0, N.mul_comm. reflexivity.
  - rewrite (mapM_pure _ (fun i => le_bytes 8 (lane_of b i))); [|intros i Hi; apply In_Nrange in Hi; rewrite (RR64_get s b) by (assumption || lia); cbn [bind]; rewrite word_bytes; reflexivity].
    cbn [bind]. destruct HR as (HL & HB & _). rewrite lanes_prefix by (assumption || lia). reflexivity.
Qed.
Lemma AddByte64_ok e s b x off : RR64 s b -> x < 256 -> off < 200 -> exists s', AddByte64 e s x off = Ok s' /\ RR64 s' (xor_at b off [x]).
Proof.
  intros HR Hx HO. assert (BX : bytes_ok [x]) by (constructor; [exact Hx|constructor]). assert (LX : lenN [x] = 1) by reflexivity.
  assert (VX : le_val [x] = x) by (cbn [le_val]; lia). pose proof (RR64_len s b HR) as LS.
  destruct (xor_lane_ok s b (off / 8) [x] (off mod 8) HR ltac:(lia) ltac:(lia) BX) as (s' & E & R'). rewrite VX in E. replace (8 * (off / 8) + off mod 8) with off in R' by lia.
  pose proof (shifted_lt [x] (off mod 8) BX ltac:(lia)) as BS. rewrite VX in BS.
  exists s'. split; [|exact R']. unfold AddByte64. destruct e.
  - unfold xor_lane in E. rewrite (RR64_get s b) in E |- * by (assumption || lia). cbn [bind] in E |- *. cbn [mem_of val_of].
    rewrite (aget_ok _ _ 0) by (rewrite lenN_le_bytes; lia). cbn [bind]. rewrite aset_ok by (rewrite lenN_le_bytes; lia). cbn [bind]. rewrite upd_xor_at by (rewrite lenN_le_bytes; lia).
    rewrite le_val_xor_at by (apply bytes_ok_le_bytes || exact BX || (rewrite lenN_le_bytes; lia)). rewrite VX, le_val_le_bytes by (apply lane_lt, HR). exact E.
  - rewrite N.mul_comm, shl64_ok by (exact BS || lia). exact E.
Qed.

Lemma lanes_array s b : RR64 s b -> lanes_of_array s = Ok (lanes_of (lane_at b)).
Proof. intros (_ & _ & ->). reflexivity. Qed.
Lemma at_words b : bytes_ok b -> words (lane_at b).
Proof. intros HB x y _ _. apply (lane_lt b (5 * y + x)), HB. Qed.
(** after the rounds *)
Lemma rounds_bytes b : lenN b = 200 -> bytes_ok b ->
  exists M, rounds24 (lanes_of (lane_at b)) = Ok (lanes_of M) /\ words M /\ P b = Ok (copyToState (lanes_of M)) /\ RR64 (array_of_lanes (lanes_of M)) (copyToState (lanes_of M)).
Proof.
  intros HL HB. destruct (rounds_ok (lane_at b) (bits_of_bytes b)) as (M & E & HW & _); [split; [apply at_words, HB|intros; apply lane_bit; assumption]|].
  exists M. split; [exact E|]. split; [exact HW|]. split; [unfold KeccakP1600_Permute_24rounds; rewrite from_state by exact HL; cbn [bind]; rewrite E; reflexivity|].
  destruct (to_state_ok M) as [HL' HB']. split; [exact HL'|]. split; [exact HB'|].
  change (copyToState (lanes_of M)) with (flat_map (le_bytes 8) (array_of_lanes (lanes_of M))).
  assert (HF : Forall (fun w => w < 2 ^ 64) (array_of_lanes (lanes_of M))).
  { unfold array_of_lanes, lanes_of. repeat match goal with |- Forall _ (_ :: _) => constructor; [apply HW; reflexivity|] end. constructor. }
  apply (list_ext 0); [reflexivity|]. intros i Hi. change (lenN (array_of_lanes (lanes_of M))) with 25 in Hi.
  rewrite (nthN_map _ _ _ 0), nthN_Nrange by (rewrite ?lenN_Nrange; exact Hi). rewrite lane_flat by (exact HF || exact Hi). reflexivity.
Qed.
Lemma Permute64_ok s b : RR64 s b -> exists s' b', Permute64 s = Ok s' /\ P b = Ok b' /\ RR64 s' b'.
Proof.
  intros HR. unfold Permute64. rewrite (lanes_array s b HR). cbn [bind]. destruct HR as (HL & HB & _). destruct (rounds_bytes b HL HB) as (M & E & _ & E2 & R').
  rewrite E. cbn [bind]. eexists _, _. split; [reflexivity|]. split; [exact E2|exact R'].
Qed.

(** * the fast loop *)
Lemma addInput_order n : n < 26 -> addInput_lanes n = Nrange n.
Proof.
  revert n. apply concrete_bits. change (Nrange 26) with [0; 1; 2; 3; 4; 5; 6; 7; 8; 9; 10; 11; 12; 13; 14; 15; 16; 17; 18; 19; 20; 21; 22; 23; 24; 25].
  intros n Hn. cbn [In] in Hn. repeat (destruct Hn as [<- | Hn]; [reflexivity|]). destruct Hn.
Qed.
Lemma array_lanes A : lanes_of_array (array_of_lanes A) = Ok A.
Proof. destruct A. reflexivity. Qed.
Lemma lanes_of_array_inv s A : lanes_of_array s = Ok A -> array_of_lanes A = s.
Proof. intros H. do 26 (destruct s as [|? s]; [try discriminate H|]); [injection H as <-; reflexivity|discriminate H]. Qed.
Lemma addInput_ok e A b data n : RR64 (array_of_lanes A) b -> n <= 25 -> 8 * n <= lenN data -> bytes_ok data ->
  exists A', addInput e A data n = Ok A' /\ RR64 (array_of_lanes A') (xor_at b 0 (takeN (8 * n) data)).
Proof.
  intros HR Hn HD HB. unfold addInput. rewrite addInput_order by lia.
  destruct (foldM_Nrange_inv (fun s i => let! w := word_at e data i in xor_lane s i (le64 e w)) (fun i s => RR64 s (xor_at b 0 (takeN (8 * i) data))) n (array_of_lanes A)) as (s' & E & R').
  - change (8 * 0) with 0. rewrite takeN_0, xor_at_nil by lia. exact HR.
  - intros i s Hi R1. rewrite word_le by lia. cbn [bind]. rewrite le64_val; [|apply Forall_takeN, Forall_dropN, HB|rewrite lenN_takeN, lenN_dropN; lia].
    apply next_lane; (assumption || (destruct HR; lia) || lia).
  - rewrite E. cbn [bind]. rewrite (lanes_array s' _ R'). eexists. split; [reflexivity|]. rewrite (lanes_of_array_inv s' _ (lanes_array s' _ R')). exact R'.
Qed.
Lemma fast_loop_ok e n : 0 < n <= 25 -> forall fuel A b data len, len = lenN data -> bytes_ok data -> RR64 (array_of_lanes A) b -> lenN data <= N.of_nat fuel ->
  exists A' b' rest left, fast_loop fuel e A n data len = Ok (A', left) /\ absorb_full P fuel b (8 * n) data = Ok (b', rest) /\ RR64 (array_of_lanes A') b' /\
    left <= len /\ rest = dropN (len - left) data.
Proof.
  intros Hn. induction fuel as [|fuel IH]; intros A b data len -> HB HR HF; cbn [fast_loop absorb_full]; rewrite (N.mul_comm n 8).
  - replace (8 * n <=? lenN data) with false by lia. exists A, b, data, (lenN data). rewrite N.sub_diag, dropN_0. repeat split; (exact HR || apply N.le_refl || apply HR).
  - destruct (8 * n <=? lenN data) eqn:E; [|exists A, b, data, (lenN data); rewrite N.sub_diag, dropN_0; repeat split; (exact HR || apply N.le_refl || apply HR)].
    destruct (addInput_ok e A b data n HR ltac:(lia) ltac:(lia) HB) as (A1 & E1 & R1). rewrite E1. cbn [bind].
    assert (HL : lenN b = 200) by apply HR. assert (LT : lenN (takeN (8 * n) data) = 8 * n) by (rewrite lenN_takeN; lia).
    rewrite add_bytes by lia. cbn [bind]. pose proof (lanes_array _ _ R1) as EA. rewrite array_lanes in EA. injection EA as EA.
    destruct R1 as (HL1 & HB1 & R1). destruct (rounds_bytes _ HL1 HB1) as (M & E2 & _ & E3 & R2). rewrite <- EA in E2. rewrite E2, E3. cbn [bind].
    destruct (IH _ _ (dropN (8 * n) data) (lenN data - 8 * n) ltac:(rewrite lenN_dropN; reflexivity) (Forall_dropN _ _ _ HB) R2 ltac:(rewrite lenN_dropN; lia)) as (A' & b' & rest & left & F1 & F2 & F3 & F4 & F5).
    exists A', b', rest, left. split; [exact F1|]. split; [exact F2|]. split; [exact F3|]. split; [lia|]. rewrite F5, dropN_dropN. f_equal. lia.
Qed.
Lemma opt64_implements e : implements (opt64 e) RR64.
Proof.
  constructor; cbn [opt64 snp_state snp_init snp_add_byte snp_add_bytes snp_extract snp_permute snp_fast_loop].
  - intros s b (H1 & H2 & _). split; assumption.
  - split; [reflexivity|]. split; [apply bytes_ok_zeros|reflexivity].
  - intros s b x off. apply AddByte64_ok.
  - intros s b data off HR HB HO. apply (relaned_AddBytes_ok (list N) RR64 (AddLanes64 e) (AddBytesInLane64 e) (ExtractLanes64 e) (ExtractBytesInLane64 e)); try assumption.
    + intros ? ? (H & _). exact H.
    + intros ? ? ? ? ? ?. apply AddBytesInLane64_ok.
    + intros ? ? ? ?. apply AddLanes64_ok.
  - intros s b off n HR HO. apply (relaned_ExtractBytes_ok (list N) RR64 (AddLanes64 e) (AddBytesInLane64 e) (ExtractLanes64 e) (ExtractBytesInLane64 e)); try assumption.
    + intros ? ? (H & _). exact H.
    + intros ? ? ? ? ?. apply ExtractBytesInLane64_ok.
    + intros ? ? ?. apply ExtractLanes64_ok.
  - intros s b. apply Permute64_ok.
  - intros s b lanes data HR HB HN. unfold KeccakF1600_FastLoop_Absorb. rewrite (lanes_array s b HR). cbn [bind].
    assert (HA : RR64 (array_of_lanes (lanes_of (lane_at b))) b) by (rewrite (lanes_of_array_inv s _ (lanes_array s b HR)); exact HR).
    destruct (fast_loop_ok e lanes HN (length data) _ b data (lenN data) eq_refl HB HA ltac:(unfold lenN; lia)) as (A' & b' & rest & left & E1 & E2 & E3 & E4 & E5).
    rewrite E1. cbn [bind fst snd]. eexists _, b', rest, _. split; [reflexivity|]. split; [exact E2|]. split; [exact E3|exact E5].
Qed.

(** * plain32 *)
Definition RR32 (s : list N) (b : bytes) : Prop :=
  lenN b = 200 /\ bytes_ok b /\ lenN s = 50 /\ forall i, i < 25 -> rel (nthN s (2 * i) 0) (nthN s (2 * i + 1) 0) (lane_of b i).

Lemma xor_lane32_ok s b pos data off low high : RR32 s b -> pos < 25 -> off + lenN data <= 8 -> bytes_ok data -> low < 2 ^ 32 -> high < 2 ^ 32 ->
  join low high = N.shiftl (le_val data) (8 * off) -> exists s', xor_lane32 s pos low high = Ok s' /\ RR32 s' (xor_at b (8 * pos + off) data).
Proof.
  intros (HL & HB & HS & HR) Hp HO HD H1 H2 HJ. unfold xor_lane32. rewrite N.add_0_r. rewrite !(aget_ok s _ 0) by lia. cbn [bind].
  destruct (to_inter low high (nthN s (pos * 2) 0) (nthN s (pos * 2 + 1) 0) H1 H2) as (e & o & E & RE). rewrite E. rewrite aset_ok by lia. cbn [bind].
  rewrite aset_ok by (rewrite lenN_upd; lia). eexists. split; [reflexivity|]. split; [rewrite xor_at_len; lia|]. split; [apply xor_at_bytes; assumption|].
  split; [rewrite !lenN_upd; exact HS|]. intros i Hi. rewrite lane_xor by assumption. rewrite !nthN_upd by (rewrite ?lenN_upd; lia).
  replace (2 * i =? pos * 2 + 1) with false by lia. replace (2 * i + 1 =? pos * 2 + 1) with (i =? pos) by lia. replace (2 * i =? pos * 2) with (i =? pos) by lia.
  replace (2 * i + 1 =? pos * 2) with false by lia. destruct (i =? pos) eqn:EI; [|apply HR, Hi]. apply N.eqb_eq in EI. subst i. rewrite <- HJ. apply rel_xor; [|exact RE].
  rewrite (N.mul_comm pos 2). apply HR, Hi.
Qed.
Lemma w32_shl b n : b < 256 -> n <= 24 -> w32 (N.shiftl b n) = N.shiftl b n.
Proof.
  intros Hb Hn. unfold w32. apply N.mod_small. apply shl_bound; [lia|]. eapply N.lt_le_trans; [exact Hb|]. change 256 with (2 ^ 8). apply N.pow_le_mono_r; lia.
Qed.
Lemma four_bytes b0 b1 b2 b3 : b0 < 256 -> b1 < 256 -> b2 < 256 -> b3 < 256 ->
  N.lor (N.lor (N.lor b0 (w32 (N.shiftl b1 8))) (w32 (N.shiftl b2 16))) (w32 (N.shiftl b3 24)) = le_val [b0; b1; b2; b3].
Proof.
  intros. rewrite !w32_shl by lia. rewrite <- (add_shift_lor b0 b1 8) by assumption. change (2 ^ 8) with 256.
  rewrite <- (add_shift_lor _ b2 16) by (change (2 ^ 16) with 65536; lia). change (2 ^ 16) with 65536.
  rewrite <- (add_shift_lor _ b3 24) by (change (2 ^ 24) with 16777216; lia). change (2 ^ 24) with 16777216. cbn [le_val]. lia.
Qed.
Lemma load32_ok e l : lenN l = 8 -> bytes_ok l -> exists low high, load32 e l = Ok (low, high) /\ low < 2 ^ 32 /\ high < 2 ^ 32 /\ join low high = le_val l.
Proof.
  intros HL HB. assert (HX : exists b0 b1 b2 b3 b4 b5 b6 b7, l = [b0; b1; b2; b3; b4; b5; b6; b7]).
  { do 9 (destruct l as [|? l]; [try (unfold lenN in HL; cbn [length] in HL; lia)|]); [eexists _, _, _, _, _, _, _, _; reflexivity|unfold lenN in HL; cbn [length] in HL; lia]. }
  destruct HX as (b0 & b1 & b2 & b3 & b4 & b5 & b6 & b7 & ->). exists (le_val [b0; b1; b2; b3]), (le_val [b4; b5; b6; b7]).
  unfold bytes_ok in HB. rewrite !Forall_cons_iff in HB. unfold byte_ok in HB. destruct HB as (G0 & G1 & G2 & G3 & G4 & G5 & G6 & G7 & _).
  assert (H1 : le_val [b0; b1; b2; b3] < 2 ^ 32) by (cbn [le_val]; lia). assert (H2 : le_val [b4; b5; b6; b7] < 2 ^ 32) by (cbn [le_val]; lia).
  split; [|split; [exact H1|split; [exact H2|]]].
  - destruct e; [reflexivity|]. cbn [load32]. repeat match goal with |- context [aget ?x ?i] => let E := fresh in assert (E : aget x i = Ok (nthN x i 0)) by reflexivity; rewrite E; clear E; cbn [bind] end.
    unfold nthN. cbn [N.to_nat Pos.to_nat Pos.iter_op plus nth]. rewrite !four_bytes by assumption. reflexivity.
  - unfold join. rewrite <- add_shift_lor by exact H1. cbn [le_val]. lia.
Qed.
Lemma AddBytesInLane32_ok e s b pos data off len : RR32 s b -> pos < 25 -> off < 8 -> off + len <= 8 -> len <= lenN data -> bytes_ok data ->
  exists s', AddBytesInLane32 e s pos data off len = Ok s' /\ RR32 s' (xor_at b (8 * pos + off) (takeN len data)).
Proof.
  intros HR Hp HO HN HD HB. assert (LT : lenN (takeN len data) = len) by (rewrite lenN_takeN; lia). assert (BT : bytes_ok (takeN len data)) by apply Forall_takeN, HB.
  unfold AddBytesInLane32. rewrite slice_ok by lia. cbn [bind]. rewrite dropN_0.
  assert (EB : blit (zeros 8) off (takeN len data) = Ok (zeros off ++ takeN len data ++ zeros (8 - off - len))).
  { rewrite blit_ok by (rewrite lenN_zeros; lia). rewrite LT. apply f_equal. apply f_equal2; [|apply f_equal].
    - apply (list_ext 0); [rewrite lenN_takeN, !lenN_zeros; lia|]. intros j Hj. rewrite lenN_takeN in Hj. rewrite nthN_takeN by lia. rewrite !nthN_zeros. reflexivity.
    - apply (list_ext 0); [rewrite lenN_dropN, !lenN_zeros; lia|]. intros j _. rewrite nthN_dropN, !nthN_zeros. reflexivity. }
  rewrite EB. cbn [bind]. destruct (load32_ok e (zeros off ++ takeN len data ++ zeros (8 - off - len))) as (low & high & E & H1 & H2 & HJ).
  { rewrite !lenN_app, !lenN_zeros. lia. } { apply bytes_ok_app; [apply bytes_ok_zeros|apply bytes_ok_app; [exact BT|apply bytes_ok_zeros]]. }
  rewrite E. cbn [bind fst snd]. apply xor_lane32_ok; try assumption; [lia|]. rewrite HJ. rewrite !le_val_app, !le_val_zeros, lenN_zeros, N.mul_0_r, N.add_0_r, N.add_0_l.
  rewrite N.shiftl_mul_pow2. apply N.mul_comm.
Qed.
Lemma next_lane32 e s b data i : RR32 s (xor_at b 0 (takeN (8 * i) data)) -> lenN b = 200 -> i < 25 -> 8 * i + 8 <= lenN data -> bytes_ok data ->
  exists s', (let! lh := load32 e (takeN 8 (dropN (8 * i) data)) in xor_lane32 s i (fst lh) (snd lh)) = Ok s' /\ RR32 s' (xor_at b 0 (takeN (8 * (i + 1)) data)).
Proof.
  intros HR HL Hi HD HB. assert (L1 : lenN (takeN (8 * i) data) = 8 * i) by (rewrite lenN_takeN; lia). assert (L2 : lenN (takeN 8 (dropN (8 * i) data)) = 8) by (rewrite lenN_takeN, lenN_dropN; lia).
  assert (B2 : bytes_ok (takeN 8 (dropN (8 * i) data))) by apply Forall_takeN, Forall_dropN, HB. destruct (load32_ok e _ L2 B2) as (low & high & E & H1 & H2 & HJ). rewrite E. cbn [bind fst snd].
  destruct (xor_lane32_ok s _ i (takeN 8 (dropN (8 * i) data)) 0 low high HR Hi ltac:(lia) B2 H1 H2) as (s' & E' & R'); [change (8 * 0) with 0; rewrite N.shiftl_0_r; exact HJ|].
  exists s'. split; [exact E'|]. rewrite lane_data by exact HD. rewrite <- xor_at_app by lia. rewrite L1, N.add_0_r in *. exact R'.
Qed.
Lemma AddLanes32_ok e s b data n : RR32 s b -> n <= 25 -> 8 * n <= lenN data -> bytes_ok data ->
  exists s', AddLanes32 e s data n = Ok s' /\ RR32 s' (xor_at b 0 (takeN (8 * n) data)).
Proof.
  intros HR Hn HD HB. assert (HL : lenN b = 200) by apply HR. unfold AddLanes32.
  destruct (foldM_Nrange_inv (fun s i => let! laneAsBytes := slice data (i * 8) 8 in let! lh := load32 e laneAsBytes in xor_lane32 s i (fst lh) (snd lh))
    (fun i s => RR32 s (xor_at b 0 (takeN (8 * i) data))) n s) as (s' & E & R').
  - change (8 * 0) with 0. rewrite takeN_0, xor_at_nil by lia. exact HR.
  - intros i s1 Hi R1. rewrite (N.mul_comm i 8), slice_ok by lia. cbn [bind]. apply next_lane32; (assumption || lia).
  - exists s'. split; assumption.
Qed.
Lemma store32_ok e low high : low < 2 ^ 32 -> high < 2 ^ 32 -> store32 e low high = le_bytes 8 (join low high).
Proof.
  intros H1 H2. assert (E : le_bytes 4 low ++ le_bytes 4 high = le_bytes 8 (join low high)).
  { unfold join. rewrite <- add_shift_lor by exact H1. change 8%nat with (4 + 4)%nat. rewrite le_bytes_app. change (256 ^ N.of_nat 4) with (2 ^ 32).
    f_equal; [|f_equal; lia]. rewrite <- (le_bytes_mod 4 (low + 2 ^ 32 * high)). change (256 ^ N.of_nat 4) with (2 ^ 32). f_equal. lia. }
  destruct e; [exact E|]. rewrite <- E. cbn [store32 le_bytes app].
  assert (F : forall x k, N.land (N.shiftr x k) 0xFF = (x / 2 ^ k) mod 256) by (intros; rewrite (N.land_ones _ 8), N.shiftr_div_pow2; reflexivity).
  assert (F0 : forall x, N.land x 0xFF = x mod 256) by (intros; apply (N.land_ones _ 8)).
  rewrite !F, !F0. rewrite !N.div_div by discriminate. reflexivity.
Qed.
Lemma lane32 e s b i : RR32 s b -> i < 25 ->
  (let! even := aget s (i * 2) in let! odd := aget s (i * 2 + 1) in let '(low, high) := fromBitInterleaving even odd in Ok (store32 e low high)) = Ok (le_bytes 8 (lane_of b i)).
Proof.
  intros (HL & HB & HS & HR) Hi. rewrite !(aget_ok s _ 0) by lia. cbn [bind]. rewrite (N.mul_comm i 2). destruct (from_inter _ _ _ (HR i Hi)) as (low & high & E & HJ & H1 & H2).
  rewrite E, HJ, store32_ok by assumption. reflexivity.
Qed.
Lemma ExtractBytesInLane32_ok e s b pos off len : RR32 s b -> pos < 25 -> off < 8 -> off + len <= 8 ->
  ExtractBytesInLane32 e s pos off len = Ok (takeN len (dropN (8 * pos + off) b)).
Proof.
  intros HR Hp HO HN. pose proof (lane32 e s b pos HR Hp) as E. unfold ExtractBytesInLane32.
  destruct (aget s (pos * 2)) as [even|]; [|discriminate E]. cbn [bind] in E |- *. destruct (aget s (pos * 2 + 1)) as [odd|]; [|discriminate E]. cbn [bind] in E |- *.
  destruct (fromBitInterleaving even odd) as [low high]. assert (E2 : store32 e low high = le_bytes 8 (lane_of b pos)) by congruence. rewrite E2. destruct HR as (HL & HB & _).
  rewrite slice_ok by (rewrite lenN_le_bytes; lia). rewrite lane_bytes by assumption. apply f_equal. apply (list_ext 0); [rewrite !lenN_takeN, !lenN_dropN, lenN_takeN, lenN_dropN; lia|]. intros j Hj.
  assert (Hj2 : j < len) by (rewrite lenN_takeN in Hj; lia). rewrite !nthN_takeN, !nthN_dropN, nthN_takeN, nthN_dropN by lia. f_equal. lia.
Qed.
Lemma ExtractLanes32_ok e s b n : RR32 s b -> n <= 25 -> ExtractLanes32 e s n = Ok (takeN (8 * n) b).
Proof.
  intros HR Hn. unfold ExtractLanes32. rewrite (mapM_pure _ (fun i => le_bytes 8 (lane_of b i))); [|intros i Hi; apply In_Nrange in Hi; apply (lane32 e s b); (assumption || lia)].
  cbn [bind]. destruct HR as (HL & HB & _). rewrite lanes_prefix by (assumption || lia). reflexivity.
Qed.
Lemma AddByte32_ok s b x off : RR32 s b -> x < 256 -> off < 200 -> exists s', AddByte32 s x off = Ok s' /\ RR32 s' (xor_at b off [x]).
Proof.
  intros HR Hx HO. assert (BX : bytes_ok [x]) by (constructor; [exact Hx|constructor]). assert (LX : lenN [x] = 1) by reflexivity.
  assert (VX : le_val [x] = x) by (cbn [le_val]; lia). unfold AddByte32. cbv zeta.
  set (lh := if off mod 8 <? 4 then (w32 (N.shiftl x (off mod 8 * 8)), 0) else (0, w32 (N.shiftl x ((off mod 8 - 4) * 8)))).
  assert (HJ : join (fst lh) (snd lh) = N.shiftl (le_val [x]) (8 * (off mod 8)) /\ fst lh < 2 ^ 32 /\ snd lh < 2 ^ 32).
  { rewrite VX. subst lh. unfold join. destruct (off mod 8 <? 4) eqn:E; cbn [fst snd]; rewrite w32_shl by lia.
    - rewrite N.shiftl_0_l, N.lor_0_r, N.mul_comm. split; [reflexivity|]. split; [|reflexivity]. apply shl_bound; [lia|]. eapply N.lt_le_trans; [exact Hx|]. change 256 with (2 ^ 8). apply N.pow_le_mono_r; lia.
    - rewrite N.lor_0_l, N.shiftl_shiftl. split; [f_equal; lia|]. split; [reflexivity|]. apply shl_bound; [lia|]. eapply N.lt_le_trans; [exact Hx|]. change 256 with (2 ^ 8). apply N.pow_le_mono_r; lia. }
  destruct HJ as (HJ & H1 & H2). destruct lh as [low high]. cbn [fst snd] in HJ, H1, H2.
  destruct (xor_lane32_ok s b (off / 8) [x] (off mod 8) low high HR ltac:(lia) ltac:(lia) BX H1 H2 HJ) as (s' & E & R'). replace (8 * (off / 8) + off mod 8) with off in R' by lia.
  exists s'. split; assumption.
Qed.

Lemma fifty (s : list N) : lenN s = 50 -> exists S, halves_of_array s = Ok S /\ array_of_halves S = s.
Proof.
  intros H. unfold lenN in H. do 51 (destruct s as [|? s]; [try (cbn [length] in H; lia)|]); [eexists; split; reflexivity|cbn [length] in H; lia].
Qed.
Lemma Rel0_iff S A : Rel0 S A <-> forall i, i < 25 -> rel (nthN (array_of_halves S) (2 * i) 0) (nthN (array_of_halves S) (2 * i + 1) 0) (nthN (array_of_lanes A) i 0).
Proof.
  split.
  - intros H. apply concrete_bits. change (Nrange 25) with [0; 1; 2; 3; 4; 5; 6; 7; 8; 9; 10; 11; 12; 13; 14; 15; 16; 17; 18; 19; 20; 21; 22; 23; 24].
    destruct S, A. cbv [Rel0] in H. intros n Hn. cbn [In] in Hn.
    repeat (destruct Hn as [<- | Hn]; [apply H|]). destruct Hn.
  - intros H. destruct S, A. cbv [Rel0].
    repeat match goal with |- _ /\ _ => split end;
    [exact (H 0 eq_refl)|exact (H 1 eq_refl)|exact (H 2 eq_refl)|exact (H 3 eq_refl)|exact (H 4 eq_refl)|exact (H 5 eq_refl)|exact (H 6 eq_refl)|exact (H 7 eq_refl)|exact (H 8 eq_refl)
    |exact (H 9 eq_refl)|exact (H 10 eq_refl)|exact (H 11 eq_refl)|exact (H 12 eq_refl)|exact (H 13 eq_refl)|exact (H 14 eq_refl)|exact (H 15 eq_refl)|exact (H 16 eq_refl)
    |exact (H 17 eq_refl)|exact (H 18 eq_refl)|exact (H 19 eq_refl)|exact (H 20 eq_refl)|exact (H 21 eq_refl)|exact (H 22 eq_refl)|exact (H 23 eq_refl)|exact (H 24 eq_refl)].
Qed.
Lemma array_at b i : i < 25 -> nthN (array_of_lanes (lanes_of (lane_at b))) i 0 = lane_of b i.
Proof.
  intros Hi. change (array_of_lanes (lanes_of (lane_at b))) with (map (lane_of b) (Nrange 25)). rewrite (nthN_map _ _ _ 0), nthN_Nrange by (rewrite ?lenN_Nrange; exact Hi). reflexivity.
Qed.
Lemma Permute32_ok s b : RR32 s b -> exists s' b', Permute32 s = Ok s' /\ P b = Ok b' /\ RR32 s' b'.
Proof.
  intros (HL & HB & HS & HR). destruct (fifty s HS) as (S & ES & EA). unfold Permute32. rewrite ES. cbn [bind].
  destruct (permute32_rel S (lanes_of (lane_at b))) as (S' & E & A' & E2 & R').
  { apply Rel0_iff. intros i Hi. rewrite EA, array_at by exact Hi. apply HR, Hi. }
  rewrite E. cbn [bind]. destruct (rounds_bytes b HL HB) as (M & E3 & _ & E4 & HL' & HB' & R''). rewrite E3 in E2. injection E2 as <-.
  eexists _, _. split; [reflexivity|]. split; [exact E4|]. split; [exact HL'|]. split; [exact HB'|]. split; [destruct S'; reflexivity|].
  intros i Hi. pose proof (proj1 (Rel0_iff S' (lanes_of M)) R' i Hi) as H. rewrite R'' in H. rewrite (nthN_map _ _ _ 0), nthN_Nrange in H by (rewrite ?lenN_Nrange; exact Hi). exact H.
Qed.
Lemma plain32_implements e : implements (plain32 e) RR32.
Proof.
  constructor; cbn [plain32 snp_state snp_init snp_add_byte snp_add_bytes snp_extract snp_permute snp_fast_loop].
  - intros s b (H1 & H2 & _). split; assumption.
  - split; [reflexivity|]. split; [apply bytes_ok_zeros|]. split; [reflexivity|]. intros i Hi.
    assert (E1 : forall j, nthN init32 j 0 = 0) by (intros j; apply (nthN_zeros 50)). rewrite !E1.
    assert (E2 : lane_of (zeros 200) i = 0).
    { unfold lane_of. replace (takeN 8 (dropN (8 * i) (zeros 200))) with (zeros 8); [reflexivity|].
      apply (list_ext 0); [rewrite lenN_takeN, lenN_dropN, !lenN_zeros; lia|]. intros j Hj. rewrite lenN_zeros in Hj. rewrite nthN_takeN, nthN_dropN, !nthN_zeros by exact Hj. reflexivity. }
    rewrite E2. split; [reflexivity|split; reflexivity].
  - intros s b x off. apply AddByte32_ok.
  - intros s b data off HR HB HO. apply (relaned_AddBytes_ok (list N) RR32 (AddLanes32 e) (AddBytesInLane32 e) (ExtractLanes32 e) (ExtractBytesInLane32 e)); try assumption.
    + intros ? ? (H & _). exact H.
    + intros ? ? ? ? ? ?. apply AddBytesInLane32_ok.
    + intros ? ? ? ?. apply AddLanes32_ok.
  - intros s b off n HR HO. apply (relaned_ExtractBytes_ok (list N) RR32 (AddLanes32 e) (AddBytesInLane32 e) (ExtractLanes32 e) (ExtractBytesInLane32 e)); try assumption.
    + intros ? ? (H & _). exact H.
    + intros ? ? ? ? ?. apply ExtractBytesInLane32_ok.
    + intros ? ? ?. apply ExtractLanes32_ok.
  - intros s b. apply Permute32_ok.
  - exact I.
Qed.
