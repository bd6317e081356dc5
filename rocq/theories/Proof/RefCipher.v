(** The translated ciphers: key schedule and encryption. *)
From Coq Require Import ZArith NArith List Bool FMapPositive Lia ZifyBool ZifyNat ZifyN.
From Verif Require Import Spec.AesSpec Model.Base Proof.BaseProof Proof.AesProof.
From Verif Require Import Model.CtLang Model.CtNames Model.CtFields Model.CtAes Model.CtProgram Proof.RefLogic Proof.RefTac Proof.RefMem Proof.RefBytes Proof.RefAes.
Import ListNotations.
Local Open Scope Z_scope.
Arguments wrap : simpl never.

Lemma code_aes_encrypt : PositiveMap.find f_aes_encrypt code = Some c_aes_encrypt. Proof. vm_compute. reflexivity. Qed.
Lemma code_load_state : PositiveMap.find f_load_state code = Some c_load_state. Proof. vm_compute. reflexivity. Qed.
Lemma code_store_state : PositiveMap.find f_store_state code = Some c_store_state. Proof. vm_compute. reflexivity. Qed.

Lemma ark_frame m m' S b o bw w n : ark m b o bw w n -> frame m m' S -> (forall q, ~ S b q) -> ark m' b o bw w n.
Proof. intros [I H] F N. split; [eapply inb_frame; eassumption|]. intros k Lk. eapply awd_frame; [apply H, Lk|exact F|]. intros. apply N. Qed.

Definition sizes_ok (R : rijndael) : Prop := (Nb R = 4 \/ Nb R = 6 \/ Nb R = 8)%N /\ (1 <= Nr R <= 14)%N.
Definition enc_state (R : rijndael) (ws : list (list N)) (s : cstate) : cstate :=
  AddRoundKey R ws (Nr R) (ShiftRows R (SubBytes (before_sub R ws s (N.to_nat (Nr R - 1))))).

Lemma ref_aes_encrypt R ws m b o kb ko s : sizes_ok R -> ast m b o (Nb R) s ->
  ark m kb ko (Nb R) (AesSpec.at_ [] ws) (Nb R * (Nr R + 1)) -> b <> kb ->
  calls code f_aes_encrypt [VPtr kb ko; VPtr b o; VInt (ofN (Nb R)); VInt (ofN (Nr R))] m
    (fun v m' => exists z, v = VInt (b2z z) /\ (z = true <-> exists n, (n < N.to_nat (Nr R))%nat /\ zst (Nb R) (before_sub R ws s n)) /\
       frame m m' (at_ b o (4 * ofN (Nb R))) /\ ast m' b o (Nb R) (enc_state R ws s)).
Proof.
  intros [W LR] A K D. start code_aes_encrypt. assert (BW : (4 <= Nb R <= 8)%N) by (clear - W; lia).
  assert (NK : forall q, ~ at_ b o (4 * ofN (Nb R)) kb q) by (intros q [X _]; congruence).
  seq. eapply wp_set; [ev|]. seq. eapply wp_call; [evs|].
  eapply calls_weak; [apply (ref_add_round_key m b o kb ko (Nb R) s (AesSpec.at_ [] ws) _ 0 A K)|]; [exact BW|lia|lia|exact D|].
  intros v m1 [F1 A1]. cbn [set]. seq. eapply wp_set; [ev|]. seq.
  assert (K1 := ark_frame _ _ _ _ _ _ _ _ K F1 NK).
  eapply (wp_for _ 6%positive 32 _ (fun i e m2 => exists z, has e [(1%positive, VPtr kb ko); (2%positive, VPtr b o); (3%positive, VInt (ofN (Nb R))); (4%positive, VInt (ofN (Nr R))); (5%positive, VInt (b2z z)); (6%positive, VInt i)] /\
     (z = true <-> exists n, (n < Z.to_nat (i - 1))%nat /\ zst (Nb R) (before_sub R ws s n)) /\
     frame m m2 (at_ b o (4 * ofN (Nb R))) /\ ast m2 b o (Nb R) (before_sub R ws s (Z.to_nat (i - 1)))) _ 1 (ofN (Nr R))); [lia|lia|lia|..].
  - intros i e m2 L (z & H & Z & F & J). unhas. split; [assumption|]. split.
    { eexists. split; [ev|]. simp. rewrite truth_b. lia. }
    seq. eapply wp_call; [evs|]. eapply calls_weak; [apply (ref_sub_bytes _ _ _ _ _ J BW)|]. intros v3 m3 (z3 & -> & Z3 & F3 & A3). cbn [set].
    seq. eapply wp_set; [ev|]. simp. rewrite b2z_or.
    seq. eapply wp_call; [evs|]. eapply calls_weak; [apply (ref_shift_row _ _ _ R _ A3 W)|]. intros v4 m4 [F4 A4]. cbn [set].
    seq. eapply wp_call; [evs|]. eapply calls_weak; [apply (ref_mix_column _ _ _ _ _ A4 BW)|]. intros v5 m5 [F5 A5]. cbn [set].
    assert (F' : frame m m5 (at_ b o (4 * ofN (Nb R)))) by (repeat (eapply frame_trans; [eassumption|]); apply frame_refl).
    eapply wp_call; [evs|]. replace i with (ofN (Z.to_N i)) at 1 by lia.
    eapply calls_weak; [apply (ref_add_round_key m5 b o kb ko (Nb R) _ (AesSpec.at_ [] ws) _ (Z.to_N i) A5 (ark_frame _ _ _ _ _ _ _ _ K F' NK))|]; [exact BW|lia|nia|exact D|].
    intros v6 m6 [F6 A6]. cbn [set]. split; [look|]. exists (z || z3). split; [hass|]. split; [|split; [eapply frame_trans; eassumption|]].
    + rewrite orb_true_iff, Z, Z3. split.
      * intros [(n & Hn & X)|X]; [exists n; split; [lia|exact X]|]. exists (Z.to_nat (i - 1)). split; [lia|exact X].
      * intros (n & Hn & X). destruct (Nat.eq_dec n (Z.to_nat (i - 1))) as [->|Dn]; [right; exact X|]. left. exists n. split; [lia|exact X].
    + replace (Z.to_nat (i + 1 - 1)) with (S (Z.to_nat (i - 1))) by lia. cbn [before_sub].
      replace (N.of_nat (S (Z.to_nat (i - 1)))) with (Z.to_N i) by lia. exact A6.
  - intros e m2 (z & H & Z & F & J). unhas. split.
    { eexists. split; [ev|]. simp. rewrite truth_b. lia. }
    replace (Z.to_nat (ofN (Nr R) - 1)) with (N.to_nat (Nr R - 1)) in * by lia.
    seq. eapply wp_call; [evs|]. eapply calls_weak; [apply (ref_sub_bytes _ _ _ _ _ J BW)|]. intros v3 m3 (z3 & -> & Z3 & F3 & A3). cbn [set].
    seq. eapply wp_set; [ev|]. simp. rewrite b2z_or.
    seq. eapply wp_call; [evs|]. eapply calls_weak; [apply (ref_shift_row _ _ _ R _ A3 W)|]. intros v4 m4 [F4 A4]. cbn [set].
    assert (F' : frame m m4 (at_ b o (4 * ofN (Nb R)))) by (repeat (eapply frame_trans; [eassumption|]); apply frame_refl).
    seq. eapply wp_call; [evs|].
    eapply calls_weak; [apply (ref_add_round_key m4 b o kb ko (Nb R) _ (AesSpec.at_ [] ws) _ (Nr R) A4 (ark_frame _ _ _ _ _ _ _ _ K F' NK))|]; [exact BW|lia|nia|exact D|].
    intros v6 m6 [F6 A6]. cbn [set]. eapply wp_return; [ev|]. exists (z || z3). split; [reflexivity|]. split; [|split; [eapply frame_trans; eassumption|exact A6]].
    rewrite orb_true_iff, Z, Z3. split.
    + intros [(n & Hn & X)|X]; [exists n; split; [lia|exact X]|]. exists (N.to_nat (Nr R - 1)). split; [lia|exact X].
    + intros (n & Hn & X). destruct (Nat.eq_dec n (N.to_nat (Nr R - 1))) as [->|Dn]; [right; exact X|]. left. exists n. split; [lia|exact X].
  - exists false. split; [hass|]. split; [|split; [exact F1|exact A1]]. split; [discriminate|]. intros (n & Hn & _). cbn in Hn. lia.
Qed.

Lemma idx4 i : 0 <= i < 65536 -> 4 * div ODiv u32 i 4 + div OMod u32 i 4 = i /\ 0 <= div ODiv u32 i 4 <= i /\ 0 <= div OMod u32 i 4 < 4.
Proof.
  intros L. unfold div. assert (A := Z.quot_rem' i 4). assert (B := Z.rem_bound_pos i 4 ltac:(lia) ltac:(lia)).
  assert (C := Z.quot_pos i 4 ltac:(lia) ltac:(lia)). generalize dependent (Z.quot i 4). generalize dependent (Z.rem i 4). intros r B q A C. wr. lia.
Qed.

Definition loaded (pt : bytes) : cstate := AesSpec.load pt.
Lemma loaded_at pt r j : loaded pt r j = nthN pt (r + 4 * j) 0%N.
Proof. reflexivity. Qed.

Lemma ref_load_state m b o sb so bw pt : inb m b o (4 * ofN bw) -> holds m sb so pt -> bytes_ok pt -> lenN pt = (4 * bw)%N -> (4 <= bw <= 8)%N -> b <> sb ->
  calls code f_load_state [VPtr b o; VPtr sb so; VInt (ofN bw)] m
    (fun _ m' => frame m m' (at_ b o (4 * ofN bw)) /\ ast m' b o bw (loaded pt)).
Proof.
  intros I H B L W D. start code_load_state. seq. eapply wp_set; [ev|].
  assert (PO := proj1 (proj2 I)). assert (PS := proj1 (proj2 (proj1 H))).
  eapply (wp_for _ 4%positive 32 _ (fun i e m' => has e [(1%positive, VPtr b o); (2%positive, VPtr sb so); (3%positive, VInt (ofN bw)); (4%positive, VInt i)] /\
     frame m m' (at_ b o (4 * ofN bw)) /\ forall q, 0 <= q < i -> byte m' b (o + q) = ofN (nthN pt (Z.to_N q) 0%N)) _ 0 (4 * ofN bw)); [lia|lia|lia|..].
  - intros i e m' Li (K & F & X). unhas. split; [assumption|]. split.
    { eexists. split; [ev|]. simp. rewrite truth_b. wr. lia. }
    assert (H' : holds m' sb so pt) by (eapply holds_frame; [exact H|exact F|in_at]).
    destruct (idx4 i ltac:(lia)) as (E & E1 & E2). remember (div ODiv u32 i 4) as q4 eqn:Q4. remember (div OMod u32 i 4) as r4 eqn:R4.
    seq. eapply wp_call; [evs|]. eapply calls_weak; [apply ref_bf8_load; inb_in|]. intros v1 m1 [-> ->]. cbn [set].
    rewrite Z.mul_1_l, (holds_byte _ _ _ _ i H') by lia. assert (BB := nthN_byte pt (Z.to_N i) B). unfold byte_ok in BB.
    assert (AD : o + 4 * q4 + 1 * r4 = o + i) by lia.
    eapply wp_store1; [ev|ev|rewrite <- Q4, <- R4, AD; inb_in|lia|]. rewrite <- Q4, <- R4, AD.
    split; [look|]. split; [hass|]. split; [fr|]. intros q Hq. destruct (Z.eq_dec q i) as [->|Dq]; [rd; reflexivity|]. rd. apply X. lia.
  - intros e m' (K & F & X). unhas. split.
    { eexists. split; [ev|]. simp. rewrite truth_b. wr. lia. }
    split; [exact F|]. split; [inb_in|]. intros r j Hr Hj. rewrite loaded_at. assert (BB := nthN_byte pt (r + 4 * j) B). unfold byte_ok in BB. split; [|exact BB].
    rewrite <- Z.add_assoc, X by lia. f_equal. f_equal. lia.
  - split; [hass|]. split; [apply frame_refl|]. intros. lia.
Qed.

Lemma store_at R s r j : (r < 4)%N -> (j < Nb R)%N -> nthN (AesSpec.store R s) (r + 4 * j) 0%N = s r j.
Proof.
  intros Hr Hj. unfold AesSpec.store, nthN.
  assert (G : forall n a (j : nat), (j < n)%nat -> nth (N.to_nat r + 4 * j) (concat (map (fun c => map (fun r => s (N.of_nat r) (N.of_nat c)) (List.seq 0 4)) (List.seq a n))) 0%N = s r (N.of_nat (a + j))).
  { induction n as [|n IH]; intros a k Hk; [lia|]. cbn [List.seq map concat]. destruct k as [|k].
    - rewrite app_nth1 by (cbn [length map List.seq]; lia). replace (N.to_nat r + 4 * 0)%nat with (N.to_nat r) by lia. replace (a + 0)%nat with a by lia. destruct (four r Hr) as [->|[->|[->| ->]]]; reflexivity.
    - rewrite app_nth2 by (cbn [length map List.seq]; lia). cbn [length map List.seq]. replace (N.to_nat r + 4 * S k - 4)%nat with (N.to_nat r + 4 * k)%nat by lia.
      rewrite IH by lia. f_equal. lia. }
  replace (N.to_nat (r + 4 * j)) with (N.to_nat r + 4 * N.to_nat j)%nat by lia. rewrite G by lia. f_equal. lia.
Qed.
Lemma store_len R s : lenN (AesSpec.store R s) = (4 * Nb R)%N.
Proof.
  unfold AesSpec.store, lenN. assert (G : forall n a, length (concat (map (fun c => map (fun r => s (N.of_nat r) (N.of_nat c)) (List.seq 0 4)) (List.seq a n))) = (4 * n)%nat).
  { induction n as [|n IH]; intros a; [reflexivity|]. cbn [List.seq map concat]. rewrite app_length, IH. cbn [length map List.seq]. lia. }
  rewrite G. lia.
Qed.
Lemma div_mod4 i : (i = i mod 4 + 4 * (i / 4))%N /\ (i mod 4 < 4)%N.
Proof. split; [rewrite N.add_comm; apply N.div_mod; lia|apply N.mod_lt; lia]. Qed.

Lemma ref_store_state R m b o sb so s : ast m sb so (Nb R) s -> inb m b o (4 * ofN (Nb R)) -> (4 <= Nb R <= 8)%N -> b <> sb ->
  calls code f_store_state [VPtr b o; VPtr sb so; VInt (ofN (Nb R))] m
    (fun _ m' => frame m m' (at_ b o (4 * ofN (Nb R))) /\ holds m' b o (AesSpec.store R s)).
Proof.
  intros A I W D. start code_store_state. seq. eapply wp_set; [ev|].
  assert (PO := proj1 (proj2 I)). assert (IS := proj1 A). assert (PS := proj1 (proj2 IS)).
  assert (RD : forall i, 0 <= i < 4 * ofN (Nb R) -> byte m sb (so + i) = ofN (nthN (AesSpec.store R s) (Z.to_N i) 0%N) /\ isbyte (byte m sb (so + i))).
  { intros i Hi. destruct (div_mod4 (Z.to_N i)) as [E Hr]. set (r := (Z.to_N i mod 4)%N) in *. set (j := (Z.to_N i / 4)%N) in *.
    assert (Hj : (j < Nb R)%N) by lia. rewrite E, store_at by assumption. destruct (proj2 A r j Hr Hj) as [X Y].
    replace (so + i) with (so + 4 * ofN j + ofN r) by lia. rewrite X. split; [reflexivity|]. unfold isbyte. lia. }
  eapply (wp_for _ 4%positive 32 _ (fun i e m' => has e [(1%positive, VPtr b o); (2%positive, VPtr sb so); (3%positive, VInt (ofN (Nb R))); (4%positive, VInt i)] /\
     frame m m' (at_ b o (4 * ofN (Nb R))) /\ forall q, 0 <= q < i -> byte m' b (o + q) = ofN (nthN (AesSpec.store R s) (Z.to_N q) 0%N)) _ 0 (4 * ofN (Nb R))); [lia|lia|lia|..].
  - intros i e m' Li (K & F & X). unhas. split; [assumption|]. split.
    { eexists. split; [ev|]. simp. rewrite truth_b. wr. lia. }
    destruct (idx4 i ltac:(lia)) as (E & E1 & E2). remember (div ODiv u32 i 4) as q4 eqn:Q4. remember (div OMod u32 i 4) as r4 eqn:R4.
    assert (AD : so + 4 * q4 + 1 * r4 = so + i) by lia. destruct (RD i ltac:(lia)) as [RD1 RD2].
    assert (KB : byte m' sb (so + i) = byte m sb (so + i)) by (eapply byte_frame; [exact F|exact (proj1 IS)|lia|in_at]).
    eapply wp_call; [evs; rewrite <- Q4, <- R4, AD; inb_in|]. rewrite <- Q4, <- R4, AD, KB, Z.mul_1_l.
    eapply calls_weak; [apply ref_bf8_store; [inb_in|exact RD2]|]. intros v1 m1 ->. cbn [set].
    split; [look|]. split; [hass|]. split; [fr|]. intros q Hq. destruct (Z.eq_dec q i) as [->|Dq]; [rd; exact RD1|]. rd. apply X. lia.
  - intros e m' (K & F & X). unhas. split.
    { eexists. split; [ev|]. simp. rewrite truth_b. wr. lia. }
    split; [exact F|]. split; [rewrite store_len; inb_in|]. intros i. rewrite store_len. intros Hi. rewrite X by lia. f_equal. f_equal. lia.
  - split; [hass|]. split; [apply frame_refl|]. intros. lia.
Qed.

(** ** Key schedule *)
Lemma code_sub_words : PositiveMap.find f_sub_words code = Some c_sub_words. Proof. vm_compute. reflexivity. Qed.
Lemma code_rot_word : PositiveMap.find f_rot_word code = Some c_rot_word. Proof. vm_compute. reflexivity. Qed.
Lemma code_expand_key : PositiveMap.find f_expand_key code = Some c_expand_key. Proof. vm_compute. reflexivity. Qed.

Lemma awd4 m b o w : length w = 4%nat -> awd m b o w <-> inb m b o 4 /\ exists a0 a1 a2 a3, w = [a0; a1; a2; a3] /\ (a0 < 256 /\ a1 < 256 /\ a2 < 256 /\ a3 < 256)%N /\
  byte m b o = ofN a0 /\ byte m b (o + 1) = ofN a1 /\ byte m b (o + 2) = ofN a2 /\ byte m b (o + 3) = ofN a3.
Proof.
  intros L. destruct w as [|a0 [|a1 [|a2 [|a3 [|]]]]]; try discriminate L. split.
  - intros [I H]. split; [exact I|]. exists a0, a1, a2, a3. split; [reflexivity|].
    destruct (H 0%N ltac:(lia)) as [X0 Y0]. destruct (H 1%N ltac:(lia)) as [X1 Y1]. destruct (H 2%N ltac:(lia)) as [X2 Y2]. destruct (H 3%N ltac:(lia)) as [X3 Y3].
    change (ofN 0) with 0 in X0. rewrite Z.add_0_r in X0. cbn in *. auto 10.
  - intros [I (x0 & x1 & x2 & x3 & [= <- <- <- <-] & (Y0 & Y1 & Y2 & Y3) & X0 & X1 & X2 & X3)]. split; [exact I|]. intros r Hr.
    destruct (four r Hr) as [->|[->|[->| ->]]]; split; try assumption. change (ofN 0) with 0. rewrite Z.add_0_r. exact X0.
Qed.

Lemma ref_sub_words m b o w : awd m b o w -> length w = 4%nat ->
  calls code f_sub_words [VPtr b o] m (fun _ m' => frame m m' (at_ b o 4) /\ awd m' b o (SubWord w)).
Proof.
  intros A L. destruct (proj1 (awd4 _ _ _ _ L) A) as (I & a0 & a1 & a2 & a3 & -> & (Y0 & Y1 & Y2 & Y3) & X0 & X1 & X2 & X3).
  assert (PO := proj1 (proj2 I)). assert (Z0 := sbox_lt _ Y0). assert (Z1 := sbox_lt _ Y1). assert (Z2 := sbox_lt _ Y2). assert (Z3 := sbox_lt _ Y3).
  assert (C0 := ref_sbox _ Y0). assert (C1 := ref_sbox _ Y1). assert (C2 := ref_sbox _ Y2). assert (C3 := ref_sbox _ Y3).
  cbn [SubWord map]. generalize dependent (SBOX a0). generalize dependent (SBOX a1). generalize dependent (SBOX a2). generalize dependent (SBOX a3).
  intros b3 Z3 C3 b2 Z2 C2 b1 Z1 C1 b0 Z0 C0.
  start code_sub_words. rewrite <- X0 in C0. rewrite <- X1 in C1. rewrite <- X2 in C2. rewrite <- X3 in C3.
  seq. eapply wp_call; [evs|]. eapply calls_weak; [eapply C0|intros vv ? [EV ->]; subst vv; cbn [set]]. seq. eapply wp_store1; [ev|ev|inb_in|lia|].
  seq. eapply wp_call; [evs|]. simp. rewrite ?Z.mul_1_l; rd. eapply calls_weak; [eapply C1|intros vv ? [EV ->]; subst vv; cbn [set]]. seq. eapply wp_store1; [ev|ev|inb_in|lia|]. simp; rewrite ?Z.mul_1_l.
  seq. eapply wp_call; [evs|]. simp. rewrite ?Z.mul_1_l; rd. eapply calls_weak; [eapply C2|intros vv ? [EV ->]; subst vv; cbn [set]]. seq. eapply wp_store1; [ev|ev|inb_in|lia|]. simp; rewrite ?Z.mul_1_l.
  seq. eapply wp_call; [evs|]. simp. rewrite ?Z.mul_1_l; rd. eapply calls_weak; [eapply C3|intros vv ? [EV ->]; subst vv; cbn [set]]. eapply wp_store1; [ev|ev|inb_in|lia|]. simp; rewrite ?Z.mul_1_l.
  split; [fr|]. apply awd4; [reflexivity|]. split; [inb_in|]. exists b0, b1, b2, b3. split; [reflexivity|]. split; [auto|]. repeat split; rd; reflexivity.
Qed.

Lemma ref_rot_word m b o w : awd m b o w -> length w = 4%nat ->
  calls code f_rot_word [VPtr b o] m (fun _ m' => frame m m' (at_ b o 4) /\ awd m' b o (RotWord w)).
Proof.
  intros A L. destruct (proj1 (awd4 _ _ _ _ L) A) as (I & a0 & a1 & a2 & a3 & -> & (Y0 & Y1 & Y2 & Y3) & X0 & X1 & X2 & X3).
  assert (PO := proj1 (proj2 I)). start code_rot_word.
  seq. eapply wp_set; [ev|].
  seq. eapply wp_store1; [ev|ev|inb_in|simp; rewrite ?Z.mul_1_l; rd; lia|]. simp; rewrite ?Z.mul_1_l; rd.
  seq. eapply wp_store1; [ev|ev|inb_in|simp; rewrite ?Z.mul_1_l; rd; lia|]. simp; rewrite ?Z.mul_1_l; rd.
  seq. eapply wp_store1; [ev|ev|inb_in|simp; rewrite ?Z.mul_1_l; rd; lia|]. simp; rewrite ?Z.mul_1_l; rd.
  eapply wp_store1; [ev|ev|inb_in|simp; rewrite ?Z.mul_1_l; rd; lia|]. simp; rewrite ?Z.mul_1_l; rd.
  split; [fr|]. apply awd4; [reflexivity|]. split; [inb_in|]. exists a1, a2, a3, a0. split; [reflexivity|]. split; [auto|]. repeat split; rd; assumption.
Qed.
