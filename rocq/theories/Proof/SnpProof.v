(** Access to the state through lanes is access to its 200 bytes, in both implementations and byte orders. *)
From Verif.Model Require Import Keccak Sponge Snp Keccak32.
From Verif.Spec Require Import KeccakSpec.
From Verif.Proof Require Import BaseProof KeccakProof CompatProof SpongeProof InterProof.
From Coq Require Import Lia ZifyBool ZifyNat ZifyN.
Ltac Zify.zify_post_hook ::= Z.div_mod_to_equations.

(** * adding bytes *)
Lemma xor_at_nil b k : k <= lenN b -> xor_at b k [] = b.
Proof.
  intros H. assert (L0 : lenN (@nil N) = 0) by reflexivity. apply (list_ext 0); [apply xor_at_len; lia|]. intros j Hj. rewrite xor_at_nth by lia.
  replace ((k <=? j) && (j <? k + lenN [])) with false by lia. apply N.lxor_0_r.
Qed.
Lemma xor_at_app b k d d' : k + lenN d + lenN d' <= lenN b -> xor_at (xor_at b k d) (k + lenN d) d' = xor_at b k (d ++ d').
Proof.
  intros H. apply (list_ext 0); [rewrite !xor_at_len; rewrite ?lenN_app; rewrite ?xor_at_len; try lia; reflexivity|]. intros j Hj.
  rewrite xor_at_nth by (rewrite xor_at_len; lia). rewrite !xor_at_nth by (rewrite ?lenN_app; lia). rewrite lenN_app, N.lxor_assoc. f_equal.
  destruct (N.lt_ge_cases j (k + lenN d)) as [Hl|Hl].
  - replace (k + lenN d <=? j) with false by lia. cbn [andb]. rewrite N.lxor_0_r. destruct (k <=? j) eqn:E; [|reflexivity].
    replace (j <? k + lenN d) with true by lia. replace (j <? k + (lenN d + lenN d')) with true by lia. cbn [andb]. rewrite nthN_app_l by lia. reflexivity.
  - replace (j <? k + lenN d) with false by lia. rewrite andb_false_r, N.lxor_0_l. replace (k + lenN d <=? j) with true by lia. replace (k <=? j) with true by lia. cbn [andb].
    replace (j <? k + lenN d + lenN d') with (j <? k + (lenN d + lenN d')) by lia. destruct (j <? _); [|reflexivity]. rewrite nthN_app_r by lia. f_equal. lia.
Qed.
Lemma le_val_xor_at m o d : bytes_ok m -> bytes_ok d -> o + lenN d <= lenN m ->
  le_val (xor_at m o d) = N.lxor (le_val m) (N.shiftl (le_val d) (8 * o)).
Proof.
  intros HM HD HL. apply N.bits_inj. intros z. rewrite N.lxor_spec, tb_shl, !le_val_testbit by (try apply xor_at_bytes; assumption).
  rewrite xor_at_nth by exact HL. rewrite N.lxor_spec. f_equal. destruct (z <? 8 * o) eqn:E.
  - replace (o <=? z / 8) with false by lia. apply N.bits_0.
  - replace (o <=? z / 8) with true by lia. cbn [andb]. replace ((z - 8 * o) / 8) with (z / 8 - o) by lia. replace ((z - 8 * o) mod 8) with (z mod 8) by lia.
    destruct (z / 8 <? o + lenN d) eqn:E2; [reflexivity|]. rewrite nthN_default by lia. reflexivity.
Qed.
Lemma slice_xor_at b p n o d : p + n <= lenN b -> o + lenN d <= n ->
  takeN n (dropN p (xor_at b (p + o) d)) = xor_at (takeN n (dropN p b)) o d.
Proof.
  intros HP HO. assert (L : lenN (takeN n (dropN p b)) = n) by (rewrite lenN_takeN, lenN_dropN; lia).
  apply (list_ext 0); [rewrite xor_at_len by lia; rewrite L, lenN_takeN, lenN_dropN, xor_at_len; lia|]. intros j Hj.
  assert (Hn : j < n) by (rewrite lenN_takeN in Hj; lia). rewrite nthN_takeN, nthN_dropN by exact Hn. rewrite !xor_at_nth by lia.
  rewrite nthN_takeN, nthN_dropN by exact Hn. f_equal. replace (p + o <=? p + j) with (o <=? j) by lia. replace (p + j <? p + o + lenN d) with (j <? o + lenN d) by lia.
  destruct (_ && _); [f_equal; lia|reflexivity].
Qed.
Lemma slice_xor_other b p n q d : p + n <= lenN b -> q + lenN d <= lenN b -> p + n <= q \/ q + lenN d <= p ->
  takeN n (dropN p (xor_at b q d)) = takeN n (dropN p b).
Proof.
  intros HP HQ HD. apply (list_ext 0); [rewrite !lenN_takeN, !lenN_dropN, xor_at_len by lia; reflexivity|]. intros j Hj.
  assert (Hn : j < n) by (rewrite lenN_takeN in Hj; lia). rewrite !nthN_takeN, !nthN_dropN by exact Hn. rewrite xor_at_nth by lia.
  replace ((q <=? p + j) && (p + j <? q + lenN d)) with false by lia. apply N.lxor_0_r.
Qed.

(** * the lanes of 200 bytes *)
Definition lane_of (b : bytes) (i : N) : N := le_val (takeN 8 (dropN (8 * i) b)).
Lemma lane_len (b : bytes) i : lenN b = 200 -> i < 25 -> lenN (takeN 8 (dropN (8 * i) b)) = 8.
Proof. intros. rewrite lenN_takeN, lenN_dropN. lia. Qed.
Lemma lane_lt b i : bytes_ok b -> lane_of b i < 2 ^ 64.
Proof.
  intros H. unfold lane_of. eapply N.lt_le_trans; [apply le_val_bound2, Forall_takeN, Forall_dropN, H|]. apply N.pow_le_mono_r; [discriminate|]. rewrite lenN_takeN. lia.
Qed.
Lemma lane_bytes b i : lenN b = 200 -> bytes_ok b -> i < 25 -> le_bytes 8 (lane_of b i) = takeN 8 (dropN (8 * i) b).
Proof. intros HL HB Hi. apply le_bytes_le_val; [apply Forall_takeN, Forall_dropN, HB|apply lane_len; assumption]. Qed.
Lemma lane_xor b data i off j : lenN b = 200 -> bytes_ok b -> bytes_ok data -> i < 25 -> j < 25 -> off + lenN data <= 8 ->
  lane_of (xor_at b (8 * i + off) data) j = if j =? i then N.lxor (lane_of b j) (N.shiftl (le_val data) (8 * off)) else lane_of b j.
Proof.
  intros HL HB HD Hi Hj HO. unfold lane_of. destruct (j =? i) eqn:E.
  - apply N.eqb_eq in E. subst j. rewrite slice_xor_at by lia. apply le_val_xor_at; [apply Forall_takeN, Forall_dropN, HB|exact HD|]. rewrite lane_len by assumption. exact HO.
  - f_equal. apply slice_xor_other; lia.
Qed.
Lemma shifted_lt d off : bytes_ok d -> off + lenN d <= 8 -> N.shiftl (le_val d) (8 * off) < 2 ^ 64.
Proof.
  intros HD HO. apply shl_bound; [lia|]. eapply N.lt_le_trans; [apply le_val_bound2, HD|]. apply N.pow_le_mono_r; [discriminate|lia].
Qed.

(** the lanes one after the other are the bytes *)
Lemma lanes_prefix b n : lenN b = 200 -> bytes_ok b -> n <= 25 -> concat (map (fun i => le_bytes 8 (lane_of b i)) (Nrange n)) = takeN (8 * n) b.
Proof.
  intros HL HB. induction n as [|n IH] using N.peano_ind; intros Hn; [reflexivity|]. rewrite <- N.add_1_r in *. rewrite Nrange_succ, map_app, concat_app, IH by lia.
  cbn [map concat]. rewrite app_nil_r, lane_bytes by (assumption || lia). replace (8 * (n + 1)) with (8 * n + 8) by lia. rewrite takeN_split. reflexivity.
Qed.
Lemma lane_flat l i : Forall (fun w => w < 2 ^ 64) l -> i < lenN l -> lane_of (flat_map (le_bytes 8) l) i = nthN l i 0.
Proof.
  intros HF. revert i. induction HF as [|w l Hw HF IH]; intros i Hi; [unfold lenN in Hi; cbn in Hi; lia|]. rewrite lenN_cons in Hi. unfold lane_of in *. cbn [flat_map].
  assert (L8 : lenN (le_bytes 8 w) = 8) by apply lenN_le_bytes. destruct (N.eq_dec i 0) as [->|Hz].
  - change (8 * 0) with 0. rewrite dropN_0, takeN_app by lia. rewrite takeN_all by lia. apply le_val_le_bytes, Hw.
  - rewrite dropN_app_ge by lia. rewrite L8. replace (8 * i - 8) with (8 * (i - 1)) by lia. rewrite IH by lia. replace i with (i - 1 + 1) at 2 by lia. rewrite nthN_cons_S. reflexivity.
Qed.
Lemma le_bytes_app a : forall c x, le_bytes (a + c) x = le_bytes a x ++ le_bytes c (x / 256 ^ N.of_nat a).
Proof.
  induction a as [|a IH]; intros c x; [cbn [le_bytes plus app]; change (256 ^ N.of_nat 0) with 1; rewrite N.div_1_r; reflexivity|].
  cbn [le_bytes plus app]. rewrite IH. do 3 f_equal. replace (N.of_nat (S a)) with (N.of_nat a + 1) by lia. rewrite N.pow_add_r, N.pow_1_r, N.mul_comm.
  rewrite N.div_div; [reflexivity|discriminate|apply N.pow_nonzero; discriminate].
Qed.
Lemma low_bytes_ok n : forall x, low_bytes n x = le_bytes n x.
Proof.
  induction n as [|n IH]; intros x; [reflexivity|]. cbn [low_bytes le_bytes]. rewrite IH. f_equal; [apply (N.land_ones x 8)|]. rewrite N.shiftr_div_pow2. reflexivity.
Qed.
Lemma low_slice x off n : off + n <= 8 -> low_bytes (N.to_nat n) (N.shiftr x (off * 8)) = takeN n (dropN off (le_bytes 8 x)).
Proof.
  intros H. rewrite low_bytes_ok. replace 8%nat with (N.to_nat off + (N.to_nat n + (8 - N.to_nat off - N.to_nat n)))%nat by lia.
  rewrite le_bytes_app. assert (L : lenN (le_bytes (N.to_nat off) x) = off) by (rewrite lenN_le_bytes; lia).
  rewrite dropN_app_ge by lia. rewrite L, N.sub_diag, dropN_0. rewrite le_bytes_app. assert (L2 : forall y, lenN (le_bytes (N.to_nat n) y) = n) by (intros; rewrite lenN_le_bytes; lia).
  rewrite takeN_app by (rewrite L2; lia). rewrite takeN_all by (rewrite L2; lia). f_equal. rewrite N.shiftr_div_pow2, N2Nat.id. f_equal.
  rewrite N.mul_comm, N.pow_mul_r. reflexivity.
Qed.
Lemma word_bytes w : fromWordToBytes w = le_bytes 8 w.
Proof.
  unfold fromWordToBytes. change (Nrange 8) with [0; 1; 2; 3; 4; 5; 6; 7]. cbn [map le_bytes].
  assert (E : forall k, N.land (N.shiftr w (8 * k)) 0xff = (w / 256 ^ k) mod 256).
  { intros k. rewrite (N.land_ones _ 8), N.shiftr_div_pow2, N.pow_mul_r. reflexivity. }
  rewrite !E. change (256 ^ 0) with 1. rewrite N.div_1_r. rewrite !N.div_div by discriminate. reflexivity.
Qed.

(** * the generic code of SnP-Relaned.h *)
Section Relaned.
Variable St : Type.
Variable RR : St -> bytes -> Prop.
Variable AddLanes : St -> bytes -> N -> res St.
Variable AddBytesInLane : St -> N -> bytes -> N -> N -> res St.
Variable ExtractLanes : St -> N -> res bytes.
Variable ExtractBytesInLane : St -> N -> N -> N -> res bytes.
Hypothesis RR_len : forall s b, RR s b -> lenN b = 200.
Hypothesis HAB : forall s b pos data off len, RR s b -> pos < 25 -> off < 8 -> off + len <= 8 -> len <= lenN data -> bytes_ok data ->
  exists s', AddBytesInLane s pos data off len = Ok s' /\ RR s' (xor_at b (8 * pos + off) (takeN len data)).
Hypothesis HAL : forall s b data n, RR s b -> n <= 25 -> 8 * n <= lenN data -> bytes_ok data ->
  exists s', AddLanes s data n = Ok s' /\ RR s' (xor_at b 0 (takeN (8 * n) data)).
Hypothesis HEB : forall s b pos off len, RR s b -> pos < 25 -> off < 8 -> off + len <= 8 ->
  ExtractBytesInLane s pos off len = Ok (takeN len (dropN (8 * pos + off) b)).
Hypothesis HEL : forall s b n, RR s b -> n <= 25 -> ExtractLanes s n = Ok (takeN (8 * n) b).

Lemma relaned_add_ok fuel : forall s b pos off data n, n <= N.of_nat fuel -> RR s b -> off < 8 -> 8 * pos + off + n <= 200 -> n <= lenN data -> bytes_ok data ->
  exists s', relaned_add St AddBytesInLane fuel s pos off data n = Ok s' /\ RR s' (xor_at b (8 * pos + off) (takeN n data)).
Proof using St RR AddLanes AddBytesInLane ExtractLanes ExtractBytesInLane RR_len HAB.
  induction fuel as [|fuel IH]; intros s b pos off data n HF HR HO HN HD HB; cbn [relaned_add]; pose proof (RR_len s b HR) as HL; clear HAL HEB HEL.
  - replace (n =? 0) with true by lia. exists s. split; [reflexivity|]. replace n with 0 by lia. rewrite takeN_0, xor_at_nil by lia. exact HR.
  - destruct (n =? 0) eqn:En.
    + exists s. split; [reflexivity|]. replace n with 0 by lia. rewrite takeN_0, xor_at_nil by lia. exact HR.
    + cbv zeta. set (k := if n <? 8 - off then n else 8 - off). assert (Hk : 0 < k /\ k <= n /\ off + k <= 8 /\ (k = n \/ off + k = 8)) by (subst k; destruct (n <? 8 - off) eqn:E; lia).
      destruct (HAB s b pos data off k HR ltac:(clear - HN Hk; lia) HO ltac:(clear - Hk; lia) ltac:(clear - Hk HD; lia) HB) as (s1 & E1 & R1). rewrite E1. cbn [bind].
      destruct (N.eq_dec k n) as [EK|EK].
      * rewrite EK, N.sub_diag in *. exists s1. split; [destruct fuel; reflexivity|exact R1].
      * destruct (IH s1 _ (pos + 1) 0 (dropN k data) (n - k) ltac:(clear - HF Hk; lia) R1 ltac:(reflexivity) ltac:(clear - HN Hk EK; lia) ltac:(rewrite lenN_dropN; clear - HD; lia) (Forall_dropN _ _ _ HB)) as (s2 & E2 & R2).
        exists s2. split; [exact E2|]. assert (LT : lenN (takeN k data) = k) by (rewrite lenN_takeN; clear - HD Hk; lia).
        replace (8 * (pos + 1) + 0) with (8 * pos + off + lenN (takeN k data)) in R2 by (clear - LT Hk EK; lia).
        rewrite xor_at_app in R2 by (rewrite LT, lenN_takeN, lenN_dropN; clear - HN HL Hk HD; lia). rewrite <- takeN_split in R2. replace (k + (n - k)) with n in R2 by (clear - Hk; lia). exact R2.
Qed.
Lemma relaned_AddBytes_ok s b data off : RR s b -> off + lenN data < 200 -> bytes_ok data ->
  exists s', relaned_AddBytes St AddLanes AddBytesInLane s data off (lenN data) = Ok s' /\ RR s' (xor_at b off data).
Proof using St RR AddLanes AddBytesInLane ExtractLanes ExtractBytesInLane RR_len HAB HAL.
  intros HR HO HB. pose proof (RR_len s b HR) as HL. unfold relaned_AddBytes. set (n := lenN data) in *. destruct (off =? 0) eqn:Eo.
  - apply N.eqb_eq in Eo. subst off. destruct (HAL s b data (n / 8) HR ltac:(clear - HO; lia) ltac:(clear; lia) HB) as (s1 & E1 & R1). rewrite E1. cbn [bind].
    destruct (HAB s1 _ (n / 8) (dropN (n / 8 * 8) data) 0 (n mod 8) R1 ltac:(clear - HO; lia) ltac:(reflexivity) ltac:(clear; lia) ltac:(rewrite lenN_dropN; fold n; clear; lia) (Forall_dropN _ _ _ HB)) as (s2 & E2 & R2).
    exists s2. split; [exact E2|]. assert (LT : lenN (takeN (8 * (n / 8)) data) = 8 * (n / 8)) by (rewrite lenN_takeN; fold n; clear; lia).
    replace (8 * (n / 8) + 0) with (0 + lenN (takeN (8 * (n / 8)) data)) in R2 by (clear - LT; lia). replace (n / 8 * 8) with (8 * (n / 8)) in R2 by (clear; lia).
    rewrite xor_at_app in R2 by (rewrite LT, lenN_takeN, lenN_dropN; fold n; clear - HO HL; lia). rewrite <- takeN_split in R2. rewrite takeN_all in R2 by (fold n; clear; lia). exact R2.
  - destruct (relaned_add_ok (N.to_nat n) s b (off / 8) (off mod 8) data n ltac:(clear; lia) HR ltac:(clear; lia) ltac:(clear - HO; lia) ltac:(apply N.le_refl) HB) as (s' & E & R').
    exists s'. split; [exact E|]. rewrite takeN_all in R' by (apply N.le_refl). replace (8 * (off / 8) + off mod 8) with off in R' by (clear; lia). exact R'.
Qed.
Lemma relaned_extract_ok fuel : forall s b pos off n, n <= N.of_nat fuel -> RR s b -> off < 8 -> 8 * pos + off + n <= 200 ->
  relaned_extract St ExtractBytesInLane fuel s pos off n = Ok (takeN n (dropN (8 * pos + off) b)).
Proof using St RR AddLanes AddBytesInLane ExtractLanes ExtractBytesInLane RR_len HEB.
  induction fuel as [|fuel IH]; intros s b pos off n HF HR HO HN; cbn [relaned_extract]; pose proof (RR_len s b HR) as HL; clear HAB HAL HEL.
  - replace (n =? 0) with true by lia. replace n with 0 by lia. rewrite takeN_0. reflexivity.
  - destruct (n =? 0) eqn:En; [replace n with 0 by lia; rewrite takeN_0; reflexivity|].
    cbv zeta. set (k := if n <? 8 - off then n else 8 - off). assert (Hk : 0 < k /\ k <= n /\ off + k <= 8 /\ (k = n \/ off + k = 8)) by (subst k; destruct (n <? 8 - off) eqn:E; lia).
    rewrite (HEB s b) by (assumption || (clear - HN Hk; lia)). cbn [bind]. destruct (N.eq_dec k n) as [EK|EK].
    + rewrite EK, N.sub_diag. destruct fuel; cbn [relaned_extract]; change (0 =? 0) with true; cbn [bind]; rewrite app_nil_r; reflexivity.
    + rewrite (IH s b) by (assumption || reflexivity || (clear - HF HN Hk EK; lia)). cbn [bind].
      replace n with (k + (n - k)) at 2 by (clear - Hk; lia). rewrite takeN_split, dropN_dropN. do 4 f_equal. clear - Hk EK. lia.
Qed.
Lemma relaned_ExtractBytes_ok s b off n : RR s b -> off + n < 200 -> relaned_ExtractBytes St ExtractLanes ExtractBytesInLane s off n = Ok (takeN n (dropN off b)).
Proof using St RR AddLanes AddBytesInLane ExtractLanes ExtractBytesInLane RR_len HEB HEL.
  intros HR HO. pose proof (RR_len s b HR) as HL. unfold relaned_ExtractBytes. destruct (off =? 0) eqn:Eo.
  - apply N.eqb_eq in Eo. subst off. rewrite (HEL s b) by (assumption || (clear - HO; lia)). cbn [bind]. rewrite (HEB s b) by (assumption || reflexivity || (clear - HO; lia)). cbn [bind].
    rewrite N.add_0_r, <- takeN_split, dropN_0. do 2 f_equal. clear; lia.
  - rewrite (relaned_extract_ok _ s b) by (assumption || (clear - HO; lia)). do 3 f_equal. clear; lia.
Qed.
End Relaned.
