(** The translated key schedule. *)
From Coq Require Import ZArith NArith List Bool FMapPositive Lia ZifyBool ZifyNat ZifyN.
From Verif Require Import Spec.AesSpec Model.Base Model.Aes Proof.BaseProof Proof.AesProof.
From Verif Require Import Model.CtLang Model.CtNames Model.CtFields Model.CtAes Model.CtProgram Proof.RefLogic Proof.RefTac Proof.RefMem Proof.RefBytes Proof.RefAes Proof.RefCipher.
Import ListNotations.
Local Open Scope Z_scope.
Arguments wrap : simpl never.

Lemma divN i n : 0 <= i < 65536 -> (n <> 0)%N -> div ODiv u32 i (ofN n) = ofN (Z.to_N i / n).
Proof.
  intros L N. unfold div. rewrite quot_N by lia. apply wrap_u32.
  assert (Z.to_N i / n <= Z.to_N i)%N by (apply N.div_le_upper_bound; [exact N|]; rewrite <- (N.mul_1_l (Z.to_N i)) at 1; apply N.mul_le_mono_r; lia). generalize dependent (Z.to_N i / n)%N. intros q Hq. lia.
Qed.
Lemma modN i n : 0 <= i < 65536 -> (n <> 0)%N -> div OMod u32 i (ofN n) = ofN (Z.to_N i mod n).
Proof.
  intros L N. unfold div. rewrite rem_N by lia. apply wrap_u32.
  assert (Z.to_N i mod n <= Z.to_N i)%N by (apply N.mod_le; exact N). generalize dependent (Z.to_N i mod n)%N. intros q Hq. lia.
Qed.

(** The round constants are in block 12. *)
Definition rconst (m : mem) : Prop := inb m 12 0 30 /\ forall j, (j < 30)%N -> byte m 12 (ofN j) = ofN (N.iter j xtime 1%N).
Lemma rconst_frame m m' (S : positive -> Z -> Prop) : rconst m -> frame m m' S -> (forall q, ~ S 12%positive q) -> rconst m'.
Proof.
  intros [I H] F N. split; [eapply inb_frame; eassumption|]. intros j L. rewrite <- H by exact L. eapply byte_kept; [exact F|exact I|lia|auto].
Qed.

Section Key.
Variable c : cipher.
Hypothesis CK : cipher_ok c.
Local Notation R := (mkRijndael (c_kw c) (c_bw c) (c_nr c)).
Local Notation kw := (c_kw c).
Local Notation bw := (c_bw c).
Local Notation nr := (c_nr c).

Definition adr (k : N) : Z := 32 * ofN (k / bw) + 4 * ofN (k mod bw).
Lemma bw_range : (4 <= bw <= 8)%N.
Proof. destruct (ck_bw c CK) as [->|[->| ->]]; lia. Qed.
Lemma kw_range : (4 <= kw <= 8)%N.
Proof. destruct (ck_kw c CK) as [->|[->| ->]]; lia. Qed.
Lemma total_range : (total c <= 120)%N.
Proof. assert (A := bw_range). assert (B := ck_nr c CK). unfold total. nia. Qed.
Lemma adr_in k : (k < total c)%N -> 0 <= adr k /\ adr k + 4 <= 480.
Proof.
  intros L. assert (B := bw_range). assert (NR := ck_nr c CK). assert (A : (k / bw < 15)%N).
  { apply N.div_lt_upper_bound; [lia|]. unfold total in L. nia. }
  assert (M := N.mod_lt k bw ltac:(lia)). unfold adr. generalize dependent (k / bw)%N. generalize dependent (k mod bw)%N. intros. lia.
Qed.
Lemma adr_apart j k : j <> k -> adr j + 4 <= adr k \/ adr k + 4 <= adr j.
Proof.
  intros D. unfold adr. assert (B := bw_range). assert (X := N.div_mod j bw ltac:(lia)). assert (Y := N.div_mod k bw ltac:(lia)).
  assert (MX := N.mod_lt j bw ltac:(lia)). assert (MY := N.mod_lt k bw ltac:(lia)).
  generalize dependent (j / bw)%N. generalize dependent (k / bw)%N. generalize dependent (j mod bw)%N. generalize dependent (k mod bw)%N.
  intros mk MY mj MX qk Y qj X. destruct (N.lt_trichotomy qj qk) as [Q|[->|Q]]; try lia. 
Qed.
Lemma ark_adr m b o w n : ark m b o bw w n <-> inb m b o 480 /\ forall k, (k < n)%N -> awd m b (o + adr k) (w k).
Proof. unfold ark, adr. split; intros [I H]; (split; [exact I|]; intros k Lk; specialize (H k Lk)); rewrite Z.add_assoc in *; exact H. Qed.
Lemma ark_step m m' b o w n : ark m b o bw w n -> (n < total c)%N -> frame m m' (at_ b (o + adr n) 4) -> awd m' b (o + adr n) (w n) -> ark m' b o bw w (n + 1).
Proof.
  rewrite !ark_adr. intros [I H] L F A. split; [eapply inb_frame; eassumption|]. intros k Lk. destruct (N.eq_dec k n) as [->|D]; [exact A|].
  eapply awd_frame; [apply H; lia|exact F|]. intros q Hq [_ X]. destruct (adr_apart k n D); lia.
Qed.
Lemma adr_eq i o : 0 <= i < 65536 -> o + 32 * div ODiv u32 i (ofN bw) + 4 * div OMod u32 i (ofN bw) = o + adr (Z.to_N i).
Proof. intros L. assert (B := bw_range). rewrite divN, modN by lia. unfold adr. lia. Qed.

Lemma zero_in w : length w = 4%nat -> (exists r, (r < 4)%N /\ AesSpec.at_ 0%N w r = 0%N) <-> In 0%N w.
Proof.
  intros L. destruct w as [|a0 [|a1 [|a2 [|a3 [|]]]]]; try discriminate L. cbn [In]. split.
  - intros (r & Hr & E). destruct (four r Hr) as [->|[->|[->| ->]]]; cbn in E; auto.
  - intros [->|[->|[->|[->|[]]]]]; [exists 0%N|exists 1%N|exists 2%N|exists 3%N]; split; lia || reflexivity.
Qed.
Lemma word_len w : word_ok w -> length w = 4%nat.
Proof. intros (a & b & x & d & -> & _). reflexivity. Qed.
Lemma awd_ok m b o w : awd m b o w -> length w = 4%nat -> word_ok w.
Proof. intros A L. destruct (proj1 (awd4 _ _ _ _ L) A) as (I & a0 & a1 & a2 & a3 & -> & (Y0 & Y1 & Y2 & Y3) & _). do 4 eexists. split; [reflexivity|]. auto. Qed.
Lemma awd_bytes m b o w : awd m b o w -> isbyte (byte m b o) /\ isbyte (byte m b (o + 1)) /\ isbyte (byte m b (o + 2)) /\ isbyte (byte m b (o + 3)).
Proof.
  intros [_ H]. unfold isbyte. destruct (H 0%N ltac:(lia)) as [X0 Y0]. destruct (H 1%N ltac:(lia)) as [X1 Y1]. destruct (H 2%N ltac:(lia)) as [X2 Y2]. destruct (H 3%N ltac:(lia)) as [X3 Y3].
  change (ofN 0) with 0 in X0. rewrite Z.add_0_r in X0. change (ofN 1) with 1 in X1. change (ofN 2) with 2 in X2. change (ofN 3) with 3 in X3. lia.
Qed.

(** Four bytes are written. *)
Lemma awd_set4 m b o w a0 a1 a2 a3 : inb m b o 4 -> (a0 < 256 /\ a1 < 256 /\ a2 < 256 /\ a3 < 256)%N -> w = [a0; a1; a2; a3] ->
  awd (set1 (set1 (set1 (set1 m b o (ofN a0)) b (o + 1) (ofN a1)) b (o + 2) (ofN a2)) b (o + 3) (ofN a3)) b o w.
Proof.
  intros I L ->. assert (PO := proj1 (proj2 I)). apply awd4; [reflexivity|]. split; [inb_in|]. exists a0, a1, a2, a3. split; [reflexivity|]. split; [exact L|].
  repeat split; rd; reflexivity.
Qed.

Variable key : bytes.
Hypothesis Hkl : lenN key = (4 * kw)%N.
Hypothesis Hkb : bytes_ok key.
Let Hkl' : (4 * kw <= lenN key)%N.
Proof. lia. Qed.
Definition wd (i : N) : list N := w_ c key i.
Definition subst_at (i : N) : Prop := (i mod kw = 0 \/ 6 < kw /\ i mod kw = 4)%N.
Definition zeros (k : N) : Prop := exists i, (kw <= i < k)%N /\ subst_at i /\ In 0%N (wd (i - 1)).

Definition step_body : stmt := match fbody c_expand_key with SSeq _ (SSeq _ (SSeq _ (SSeq _ (SSeq (SLoop _ _ s) _)))) => s | _ => SSkip end.

Lemma key_body i e m m0 b o kb ko z : holds m kb ko key -> inb m b o 480 -> b <> kb -> b <> 12%positive -> rconst m -> ofN kw <= i < ofN (total c) ->
  has e [(1%positive, VPtr b o); (2%positive, VPtr kb ko); (3%positive, VInt (ofN kw)); (4%positive, VInt (ofN bw)); (5%positive, VInt (ofN nr)); (6%positive, VInt (b2z z)); (12%positive, VInt i)] ->
  (z = true <-> zeros (Z.to_N i)) -> frame m m0 (at_ b o 480) -> ark m0 b o bw wd (Z.to_N i) ->
  wp code step_body e m0 (fun o' e m' => match o' with
       | ONormal | OContinue => lookup e 12 = VInt i /\ exists z, has (PositiveMap.add 12%positive (VInt (i + 1)) e) [(1%positive, VPtr b o); (2%positive, VPtr kb ko); (3%positive, VInt (ofN kw)); (4%positive, VInt (ofN bw)); (5%positive, VInt (ofN nr)); (6%positive, VInt (b2z z)); (12%positive, VInt (i + 1))] /\
       (z = true <-> zeros (Z.to_N (i + 1))) /\ frame m m' (at_ b o 480) /\ ark m' b o bw wd (Z.to_N (i + 1))
       | _ => False end).
Proof.
  intros H I D D12 RC Li E Z F A. unhas. assert (BW := bw_range). assert (KW := kw_range). assert (TR := total_range). assert (TK := ck_total c CK). assert (NR := ck_nr c CK). assert (RT := ck_rcon c CK).
  assert (PO := proj1 (proj2 I)). set (k := Z.to_N i) in *. assert (EK : i = ofN k) by (subst k; lia).
  unfold step_body, c_expand_key. cbn [fbody].
  assert (A0 := proj2 (proj1 (ark_adr _ _ _ _ _) A)). assert (I0 := proj1 A).
  set (nb := mnext m0) in *. assert (NB : b <> nb) by (intros ->; destruct I0 as [X _]; subst nb; lia).
  assert (N12 : nb <> 12%positive) by (destruct RC as [[X _] _]; destruct F as [Y _]; intros Q; subst nb; lia).
  assert (AE := fun i o => adr_eq i o). assert (DB : ofN bw <> 0) by lia. assert (DK : ofN kw <> 0) by lia.
  destruct (adr_in (k - 1) ltac:(lia)) as [P1 U1]. destruct (adr_in k ltac:(lia)) as [P2 U2]. destruct (adr_in (k - kw) ltac:(lia)) as [P3 U3].
  (* tmp = previous word *)
  seq. eapply wp_alloc; [ev|]. assert (F1 := frame_fresh m0 4 (PositiveMap.empty value) nothing). assert (I1 : inb (fresh m0 4 (PositiveMap.empty value)) nb 0 4) by (apply inb_fresh; lia).
  fold nb. generalize dependent (fresh m0 4 (PositiveMap.empty value)). intros m1 F1 I1.
  assert (E1 : bin OSub u32 i 1 = ofN (k - 1)) by (simp; wr; lia).
  assert (AE1 : o + 32 * div ODiv u32 (bin OSub u32 i 1) (ofN bw) + 4 * div OMod u32 (bin OSub u32 i 1) (ofN bw) = o + adr (k - 1)) by (rewrite E1, AE, N2Z.id by lia; reflexivity).
  seq. eapply wp_copy1; [ev|ev|ev|inb_in|rewrite AE1; inb_in|]. rewrite AE1.
  assert (W1 : word_ok (wd (k - 1))) by (apply w_ok; auto; lia). assert (L1 := word_len _ W1).
  assert (T1 : awd (copy m1 nb 0 b (o + adr (k - 1)) 4) nb 0 (wd (k - 1))).
  { assert (X : awd m1 b (o + adr (k - 1)) (wd (k - 1))) by (eapply awd_frame; [apply A0; lia|exact F1|intros q _ []]).
    split; [inb_in|]. intros r Hr. destruct (proj2 X r Hr) as [X1 X2]. split; [|exact X2]. rewrite byte_copy by (inb_in || lia). exact X1. }
  assert (F2 : frame m0 (copy m1 nb 0 b (o + adr (k - 1)) 4) nothing).
  { eapply frame_comp; [exact F1|apply frame_copy_at; inb_in|]. intros b' o' X _ [Y _]. subst nb. lia. }
  assert (NX : (nb < mnext (copy m1 nb 0 b (o + adr (k - 1)) 4))%positive) by (rewrite next_copy; apply I1).
  generalize dependent (copy m1 nb 0 b (o + adr (k - 1)) 4). intros m2 T1 F2 NX. clear m1 F1 I1.
  assert (R2 : rconst m2) by (eapply rconst_frame; [eapply rconst_frame; [exact RC|exact F|intros q [X _]; congruence]|exact F2|intros q []]).
  (* the first condition *)
  assert (M1 : div OMod u32 i (ofN kw) = ofN (k mod kw)) by (rewrite EK, modN, N2Z.id by lia; reflexivity).
  assert (M2 : div ODiv u32 i (ofN kw) = ofN (k / kw)) by (rewrite EK, divN, N2Z.id by lia; reflexivity).
  assert (MB := N.mod_lt k kw ltac:(lia)).
  assert (DB1 : (1 <= k / kw <= 30)%N).
  { split; [apply N.div_le_lower_bound; lia|]. assert (k / kw < 31)%N by (apply N.div_lt_upper_bound; lia). lia. }
  seq. apply wp_weak with (Q := fun o' e' m3 => o' = ONormal /\ exists z1, has e' [(1%positive, VPtr b o); (2%positive, VPtr kb ko); (3%positive, VInt (ofN kw)); (4%positive, VInt (ofN bw)); (5%positive, VInt (ofN nr)); (6%positive, VInt (b2z z1)); (12%positive, VInt i); (13%positive, VPtr nb 0)] /\
    frame m2 m3 (at_ nb 0 4) /\ awd m3 nb 0 (if (k mod kw =? 0)%N then xor_words (SubWord (RotWord (wd (k - 1)))) (Rcon (k / kw)) else wd (k - 1)) /\
    (z1 = true <-> z = true \/ (k mod kw = 0)%N /\ In 0%N (wd (k - 1)))).
  { eapply wp_if; [ev|]. simp. rewrite truth_b, M1. destruct (N.eqb_spec (k mod kw) 0) as [X|X].
    - rewrite X. cbn [Z.eqb Z.of_N].
      seq. eapply wp_call; [evs|]. eapply calls_weak; [apply (ref_rot_word _ _ _ _ T1 L1)|]. intros v3 m3 [F3 T3]. cbn [set].
      assert (W3 := RotWord_ok _ W1). assert (L3 := word_len _ W3).
      seq. eapply wp_call; [evs|]. eapply calls_weak; [apply (ref_contains_zero _ _ _ _ T3)|]. intros v4 ? (z4 & -> & -> & Z4). cbn [set].
      seq. eapply wp_set; [ev|]. simp. rewrite b2z_or.
      seq. eapply wp_call; [evs|]. eapply calls_weak; [apply (ref_sub_words _ _ _ _ T3 L3)|]. intros v5 m5 [F5 T5]. cbn [set].
      assert (W5 := SubWord_ok _ W3). assert (L5 := word_len _ W5). rewrite (zero_in _ L3), In_RotWord in Z4.
      destruct (proj1 (awd4 _ _ _ _ L5) T5) as (I5 & a0 & a1 & a2 & a3 & E5 & (Y0 & Y1 & Y2 & Y3) & X0 & X1 & X2 & X3).
      assert (R5 : rconst m5).
      { eapply rconst_frame; [eapply rconst_frame; [exact R2|exact F3|]|exact F5|]; intros q [Q _]; congruence. }
      assert (E6 : bin OSub u32 (div ODiv u32 i (ofN kw)) 1 = ofN (k / kw - 1)) by (rewrite M2; generalize dependent (k / kw)%N; intros; simp; wr; lia).
      assert (I5' : inb m5 12 (ofN (k / kw - 1)) 1) by (eapply inb_sub; [apply R5|generalize dependent (k / kw)%N; intros; lia..]).
      assert (V6 : byte m5 12 (ofN (k / kw - 1)) = ofN (N.iter (k / kw - 1) xtime 1%N)) by (apply R5; generalize dependent (k / kw)%N; intros; lia).
      assert (B6 := iter_xtime_lt (k / kw - 1)).
      assert (V7 : Z.lxor (ofN a0) (ofN (N.iter (k / kw - 1) xtime 1%N)) = ofN (N.lxor a0 (N.iter (k / kw - 1) xtime 1%N))) by apply ofN_lxor.
      assert (B7 := lxor_lt8 _ _ Y0 B6).
      eapply wp_store1; [ev|ev; rewrite E6, ?Z.add_0_l, ?Z.mul_1_l; inb_in|inb_in| |]; rewrite E6, ?Z.add_0_l, ?Z.mul_1_l, V6, X0; simp; rewrite V7, ?wrap_u8 by lia; [lia|].
      split; [reflexivity|]. exists (z || z4). split; [hass|]. split; [|split].
      + eapply frame_trans; [exact F3|]. eapply frame_trans; [exact F5|]. apply frame_set1; [inb_in|]. split; [reflexivity|lia].
      + apply awd4; [rewrite E5; reflexivity|]. split; [inb_in|]. rewrite E5. unfold Rcon. cbn [xor_words combine map].
        eexists _, _, _, _. split; [reflexivity|]. rewrite !N.lxor_0_r. split; [auto|]. clear - I5 X0 X1 X2 X3; repeat split; rd; assumption || reflexivity.
      + rewrite orb_true_iff, Z4. tauto.
    - replace (ofN (k mod kw) =? 0) with false by (symmetry; apply Z.eqb_neq; generalize dependent (k mod kw)%N; intros; lia).
      apply wp_skip. split; [reflexivity|]. exists z. split; [hass|]. split; [apply frame_refl|]. split; [exact T1|]. tauto. }
  intros ? e2 m3 (-> & z1 & E3 & F3 & T3 & Z1). clear T1.
  (* the second condition *)
  set (w1 := if (k mod kw =? 0)%N then xor_words (SubWord (RotWord (wd (k - 1)))) (Rcon (k / kw)) else wd (k - 1)) in *.
  assert (WW : word_ok w1) by (subst w1; destruct (k mod kw =? 0)%N; [apply xor_words_ok; [apply SubWord_ok, RotWord_ok, W1|apply Rcon_ok]|exact W1]).
  clear H0 H1 H2 H3 H4 H5 H6. unhas.
  seq. apply wp_weak with (Q := fun o' e' m3 => o' = ONormal /\ exists z2, has e' [(1%positive, VPtr b o); (2%positive, VPtr kb ko); (3%positive, VInt (ofN kw)); (4%positive, VInt (ofN bw)); (5%positive, VInt (ofN nr)); (6%positive, VInt (b2z z2)); (12%positive, VInt i); (13%positive, VPtr nb 0)] /\
    frame m2 m3 (at_ nb 0 4) /\ awd m3 nb 0 (temp_word kw k (wd (k - 1))) /\
    (z2 = true <-> z = true \/ subst_at k /\ In 0%N (wd (k - 1)))).
  { eapply wp_if.
    { eapply pe_cond; [ev|]. simp. rewrite truth_b. instantiate (1 := VInt (b2z ((6 <? kw) && (k mod kw =? 4))%N)).
      destruct (N.ltb_spec 6 kw) as [X|X].
      - replace (6 <? ofN kw) with true by lia. eapply pe_eq; [ev|]. rewrite M1. simp. replace (ofN (k mod kw) =? 4) with (k mod kw =? 4)%N by (generalize (k mod kw)%N; lia).
        destruct (k mod kw =? 4)%N; reflexivity.
      - replace (6 <? ofN kw) with false by lia. ev. }
    rewrite truth_b. destruct ((6 <? kw) && (k mod kw =? 4))%N eqn:Q.
    - apply andb_true_iff in Q as [Q1 Q2]. apply N.ltb_lt in Q1. apply N.eqb_eq in Q2.
      assert (EW : w1 = wd (k - 1)) by (subst w1; rewrite Q2; reflexivity). rewrite EW in *.
      seq. eapply wp_call; [evs|]. eapply calls_weak; [apply (ref_contains_zero _ _ _ _ T3)|]. intros v4 ? (z4 & -> & -> & Z4). cbn [set].
      seq. eapply wp_set; [ev|]. simp. rewrite b2z_or. rewrite (zero_in _ L1) in Z4.
      eapply wp_call; [evs|]. eapply calls_weak; [apply (ref_sub_words _ _ _ _ T3 L1)|]. intros v5 m5 [F5 T5]. cbn [set].
      split; [reflexivity|]. exists (z1 || z4). split; [hass|]. split; [eapply frame_trans; eassumption|]. split.
      + unfold temp_word. rewrite Q2. replace (6 <? kw)%N with true by lia. exact T5.
      + rewrite orb_true_iff, Z1, Z4. unfold subst_at. split.
        * intros [[X|[X _]]|X]; [left; exact X|lia|right; auto].
        * intros [X|[_ X]]; auto.
    - apply wp_skip. split; [reflexivity|]. exists z1. split; [hass|]. split; [exact F3|]. split.
      + unfold temp_word. rewrite Q. exact T3.
      + rewrite Z1. unfold subst_at. apply andb_false_iff in Q. rewrite N.ltb_ge, N.eqb_neq in Q. clear - Q. intuition lia. }
  intros ? e3 m4 (-> & z2 & E4 & F4 & T4 & Z2). clear H0 H1 H2 H3 H4 H5 H6 H7. clear w1 WW T3 Z1 F3 m3 z1. unhas.
  (* the new word *)
  assert (WT := temp_word_ok c k _ W1). assert (LT := word_len _ WT). destruct (proj1 (awd4 _ _ _ _ LT) T4) as (I4 & t0 & t1 & t2 & t3 & ET & (Y0 & Y1 & Y2 & Y3) & X0 & X1 & X2 & X3).
  assert (WO : word_ok (wd (k - kw))) by (apply w_ok; auto; lia). assert (LO := word_len _ WO).
  assert (F04 : frame m0 m4 nothing).
  { eapply frame_comp; [exact F2|exact F4|]. intros b' o' X _ [Y _]. subst nb. lia. }
  assert (A4 := ark_frame _ _ _ _ _ _ _ _ A F04 (fun q (X : False) => X)).
  assert (O4 : awd m4 b (o + adr (k - kw)) (wd (k - kw))) by (apply (proj2 (proj1 (ark_adr _ _ _ _ _) A4)); lia).
  destruct (proj1 (awd4 _ _ _ _ LO) O4) as (IO & s0 & s1 & s2 & s3 & EO & (V0 & V1 & V2 & V3) & U0' & U1' & U2' & U3').
  assert (SEP := adr_apart (k - kw) k ltac:(lia)).
  assert (WH := w_high c CK key Hkl' k ltac:(lia)). change (w_ c key) with wd in WH. rewrite EO, ET in WH. cbn [xor_words combine map] in WH.
  assert (AEk : o + 32 * div ODiv u32 i (ofN bw) + 4 * div OMod u32 i (ofN bw) = o + adr k) by (rewrite EK, AE, N2Z.id by lia; reflexivity).
  assert (AEm : o + 32 * div ODiv u32 (ofN (k - kw)) (ofN bw) + 4 * div OMod u32 (ofN (k - kw)) (ofN bw) = o + adr (k - kw)) by (rewrite AE, N2Z.id by lia; reflexivity).
  assert (ST := ark_step m4 (set1 (set1 (set1 (set1 m4 b (o + adr k) (ofN (N.lxor s0 t0))) b (o + adr k + 1) (ofN (N.lxor s1 t1))) b (o + adr k + 2) (ofN (N.lxor s2 t2))) b (o + adr k + 3) (ofN (N.lxor s3 t3))) b o wd k A4 ltac:(lia)).
  assert (I4b : inb m4 b (o + adr k) 4) by (eapply inb_sub; [exact (proj1 A4)|lia..]).
  assert (B0 := lxor_lt8 _ _ V0 Y0). assert (B1 := lxor_lt8 _ _ V1 Y1). assert (B2 := lxor_lt8 _ _ V2 Y2). assert (B3 := lxor_lt8 _ _ V3 Y3).
  assert (EM : bin OSub u32 i (ofN kw) = ofN (k - kw)) by (simp; wr; lia).
  assert (FM : frame m m4 (at_ b o 480)) by (eapply frame_comp; [exact F|exact F04|intros ? ? _ _ []]).
  assert (ZZ : z2 = true <-> zeros (k + 1)).
  { rewrite Z2, Z. unfold zeros. split.
    - intros [(j & X & Y)|[X Y]]; [exists j; split; [lia|exact Y]|exists k; split; [lia|auto]].
    - intros (j & X & Y). destruct (N.eq_dec j k) as [->|Dj]; [right; exact Y|left; exists j; split; [lia|exact Y]]. }
  clear Z Z2 A A0 A4 O4 T4 AE1 M1 M2 MB DB1 R2 RC F04 F4 F2.
  rewrite ?Z.add_0_l in X1, X2, X3. generalize dependent (adr k). generalize dependent (adr (k - kw)). intros am P3 U3 IO U0' U1' U2' U3' AEm ak P2 U2 SEP AEk ST I4b. clear AE P1 U1.
  assert (EI : Z.to_N (i + 1) = (k + 1)%N) by lia. clearbody nb. clear E1 TR TK NR RT BW KW Li EK W1 L1 LT WT.
  seq. eapply wp_set; [ev|]. rewrite EM.
  seq. eapply wp_store1; [ev|ev; rewrite AEm; inb_in|rewrite AEk; inb_in| |]; rewrite ?AEm, ?AEk, ?Z.add_0_l, ?Z.mul_1_l; simp; rd; rewrite U0', X0, ofN_lxor, wrap_u8 by lia; [lia|].
  seq. eapply wp_store1; [ev|ev; rewrite ?AEm; inb_in|rewrite AEk; inb_in| |]; rewrite ?AEm, ?AEk, ?Z.add_0_l, ?Z.mul_1_l; simp; rd; rewrite U1', X1, ofN_lxor, wrap_u8 by lia; [lia|].
  seq. eapply wp_store1; [ev|ev; rewrite ?AEm; inb_in|rewrite AEk; inb_in| |]; rewrite ?AEm, ?AEk, ?Z.add_0_l, ?Z.mul_1_l; simp; rd; rewrite U2', X2, ofN_lxor, wrap_u8 by lia; [lia|].
  eapply wp_store1; [ev|ev; rewrite ?AEm; inb_in|rewrite AEk; inb_in| |]; rewrite ?AEm, ?AEk, ?Z.add_0_l, ?Z.mul_1_l; simp; rd; rewrite U3', X3, ofN_lxor, wrap_u8 by lia; [lia|].
  split; [look|]. exists z2. rewrite EI. split; [hass|]. split; [exact ZZ|]. split; [fr|].
  apply ST; [fr|]. apply awd_set4; [exact I4b|auto|exact WH].
Qed.

Lemma ref_expand_key m b o kb ko : holds m kb ko key -> inb m b o 480 -> b <> kb -> b <> 12%positive -> rconst m ->
  calls code f_expand_key [VPtr b o; VPtr kb ko; VInt (ofN kw); VInt (ofN bw); VInt (ofN nr)] m
    (fun v m' => exists z, v = VInt (b2z z) /\ (z = true <-> zeros (total c)) /\ frame m m' (at_ b o 480) /\ ark m' b o bw wd (total c)).
Proof.
  intros H I D D12 RC. start code_expand_key. assert (BW := bw_range). assert (KW := kw_range). assert (TR := total_range). assert (TK := ck_total c CK). assert (NR := ck_nr c CK).
  assert (PO := proj1 (proj2 I)). assert (PK := proj1 (proj2 (proj1 H))).
  assert (H12 : (12 < mnext m)%positive) by apply RC.
  seq. eapply wp_set; [ev|]. seq. eapply wp_set; [ev|]. seq.
  eapply (wp_for _ 7%positive 32 _ (fun i e m' => has e [(1%positive, VPtr b o); (2%positive, VPtr kb ko); (3%positive, VInt (ofN kw)); (4%positive, VInt (ofN bw)); (5%positive, VInt (ofN nr)); (6%positive, VInt 0); (7%positive, VInt i)] /\
     frame m m' (at_ b o 480) /\ ark m' b o bw wd (Z.to_N i)) _ 0 (ofN kw)); [lia|lia|lia|..].
  - intros i e m' Li (E & F & A). unhas. split; [assumption|]. split.
    { eexists. split; [ev|]. simp. rewrite truth_b. lia. }
    assert (H' : holds m' kb ko key) by (eapply holds_frame; [exact H|exact F|in_at]).
    destruct (adr_in (Z.to_N i) ltac:(lia)) as [AL AU]. assert (AE := adr_eq i o ltac:(lia)).
    assert (B' := bw_range). assert (I' : inb m' b (o + adr (Z.to_N i)) 4) by (eapply inb_sub; [eapply inb_frame; [exact F|exact I]|lia..]).
    assert (RB : forall j, 0 <= j < 4 -> byte m' kb (ko + 1 * (4 * i + j)) = ofN (nthN key (4 * Z.to_N i + Z.to_N j) 0%N) /\ (nthN key (4 * Z.to_N i + Z.to_N j) 0 < 256)%N).
    { intros j Hj. split; [rewrite Z.mul_1_l, (holds_byte _ _ _ _ _ H') by lia; f_equal; f_equal; lia|apply nthN_byte, Hkb]. }
    assert (WL := w_low c key Hkl' (Z.to_N i) ltac:(lia)).
    unfold key_word in WL. rewrite !at_nthN in WL.
    destruct (RB 0 ltac:(lia)) as [R0 B0]. destruct (RB 1 ltac:(lia)) as [R1 B1]. destruct (RB 2 ltac:(lia)) as [R2 B2]. destruct (RB 3 ltac:(lia)) as [R3 B3]. clear RB.
    rewrite Z.add_0_r in R0. change (Z.to_N 0) with 0%N in *. change (Z.to_N 1) with 1%N in *. change (Z.to_N 2) with 2%N in *. change (Z.to_N 3) with 3%N in *. rewrite N.add_0_r in *.
    assert (ST := ark_step m' (set1 (set1 (set1 (set1 m' b (o + adr (Z.to_N i)) (ofN (nthN key (4 * Z.to_N i) 0%N))) b (o + adr (Z.to_N i) + 1) (ofN (nthN key (4 * Z.to_N i + 1) 0%N))) b (o + adr (Z.to_N i) + 2) (ofN (nthN key (4 * Z.to_N i + 2) 0%N))) b (o + adr (Z.to_N i) + 3) (ofN (nthN key (4 * Z.to_N i + 3) 0%N))) b o wd (Z.to_N i) A ltac:(lia)).
    generalize dependent (adr (Z.to_N i)). intros a AL AU AE I' ST.
    assert (DB : ofN bw <> 0) by lia.
    seq. eapply wp_call; [evs|]. simp. eapply calls_weak; [apply ref_bf8_load; wr; inb_in|]. intros v1 m1 [-> ->]. cbn [set]. wr. rewrite R0.
    seq. eapply wp_store1; [ev|ev|rewrite AE; inb_in|lia|]. rewrite AE.
    seq. eapply wp_call; [evs|]. simp. eapply calls_weak; [apply ref_bf8_load; wr; inb_in|]. intros v1 m1 [-> ->]. cbn [set]. wr. rd. rewrite R1.
    seq. eapply wp_store1; [ev|ev|rewrite AE; inb_in|lia|]. rewrite AE, Z.mul_1_l.
    seq. eapply wp_call; [evs|]. simp. eapply calls_weak; [apply ref_bf8_load; wr; inb_in|]. intros v1 m1 [-> ->]. cbn [set]. wr. rd. rewrite R2.
    seq. eapply wp_store1; [ev|ev|rewrite AE; inb_in|lia|]. rewrite AE, Z.mul_1_l.
    seq. eapply wp_call; [evs|]. simp. eapply calls_weak; [apply ref_bf8_load; wr; inb_in|]. intros v1 m1 [-> ->]. cbn [set]. wr. rd. rewrite R3.
    eapply wp_store1; [ev|ev|rewrite AE; inb_in|lia|]. rewrite AE, Z.mul_1_l.
    split; [look|]. split; [hass|]. split; [fr|]. replace (Z.to_N (i + 1)) with (Z.to_N i + 1)%N by lia. apply ST; [fr|].
    apply awd_set4; [exact I'|auto|exact WL].
  - intros e m' (E & F & A). unhas. split.
    { eexists. split; [ev|]. simp. rewrite truth_b. lia. }
    assert (ET : wrap u32 (ofN bw * wrap u32 (ofN nr + 1)) = ofN (total c)) by (rewrite (wrap_u32 (ofN nr + 1)) by lia; unfold total in *; rewrite wrap_u32; nia).
    seq. eapply wp_set; [ev|]. seq.
    eapply (wp_for _ 12%positive 32 _ (fun i e m' => exists z, has e [(1%positive, VPtr b o); (2%positive, VPtr kb ko); (3%positive, VInt (ofN kw)); (4%positive, VInt (ofN bw)); (5%positive, VInt (ofN nr)); (6%positive, VInt (b2z z)); (12%positive, VInt i)] /\
       (z = true <-> zeros (Z.to_N i)) /\ frame m m' (at_ b o 480) /\ ark m' b o bw wd (Z.to_N i)) _ (ofN kw) (ofN (total c))); [lia|lia|lia|..].
    + clear F A m' H6 H5 H4 H3 H2 H1 H0 e. intros i e m0 Li (z & E & Z & F & A). unhas. split; [assumption|]. split.
      { eexists. split; [ev|]. simp. rewrite truth_b, ET. lia. }
      eapply wp_weak; [apply (key_body i e m m0 b o kb ko z); try assumption; hass|]. intros [| | |v] e' m' X; [exact X|destruct X|exact X|destruct X].
    + clear F A m' H6 H5 H4 H3 H2 H1 H0 e. intros e m' (z & E & Z & F & A). unhas. split.
      { eexists. split; [ev|]. simp. rewrite truth_b, ET. lia. }
      eapply wp_return; [ev|]. exists z. rewrite N2Z.id in *. auto.
    + exists false. split; [hass|]. rewrite N2Z.id in *. split; [|split; assumption]. split; [discriminate|]. intros (i & X & _). lia.
  - split; [hass|]. split; [apply frame_refl|]. split; [exact I|]. intros k Lk. lia.
Qed.
End Key.
