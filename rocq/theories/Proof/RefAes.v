(** The translated AES functions compute the rounds of FIPS 197. *)
From Coq Require Import ZArith NArith List Bool FMapPositive Lia ZifyBool ZifyNat ZifyN.
From Coq Require Import Btauto.
From Verif Require Import Spec.AesSpec Model.Base Proof.BaseProof Proof.AesProof.
From Verif Require Import Model.CtLang Model.CtNames Model.CtFields Model.CtAes Model.CtProgram Proof.RefLogic Proof.RefTac Proof.RefMem Proof.RefBytes.
Import ListNotations.
Local Open Scope Z_scope.
Arguments wrap : simpl never.

(** Words of the key schedule and states in memory. *)
Definition ast (m : mem) (b : positive) (o : Z) (bw : N) (s : cstate) : Prop :=
  inb m b o (4 * ofN bw) /\ forall r j, (r < 4)%N -> (j < bw)%N -> byte m b (o + 4 * ofN j + ofN r) = ofN (s r j) /\ (s r j < 256)%N.
Definition awd (m : mem) (b : positive) (o : Z) (w : list N) : Prop :=
  inb m b o 4 /\ forall r, (r < 4)%N -> byte m b (o + ofN r) = ofN (AesSpec.at_ 0%N w r) /\ (AesSpec.at_ 0%N w r < 256)%N.
Definition ark (m : mem) (b : positive) (o : Z) (bw : N) (w : N -> list N) (n : N) : Prop :=
  inb m b o 480 /\ forall k, (k < n)%N -> awd m b (o + 32 * ofN (k / bw) + 4 * ofN (k mod bw)) (w k).

Lemma ast_frame m m' S b o bw s : ast m b o bw s -> frame m m' S -> (forall q, o <= q < o + 4 * ofN bw -> ~ S b q) -> ast m' b o bw s.
Proof.
  intros [I H] F N. split; [eapply inb_frame; eassumption|]. intros r j Lr Lj. destruct (H r j Lr Lj) as [E B]. split; [|exact B].
  rewrite <- E. eapply byte_kept; [exact F|exact I|lia|exact N].
Qed.
Lemma awd_frame m m' S b o w : awd m b o w -> frame m m' S -> (forall q, o <= q < o + 4 -> ~ S b q) -> awd m' b o w.
Proof.
  intros [I H] F N. split; [eapply inb_frame; eassumption|]. intros r Lr. destruct (H r Lr) as [E B]. split; [|exact B].
  rewrite <- E. eapply byte_kept; [exact F|exact I|lia|exact N].
Qed.

Lemma four r : (r < 4 -> r = 0 \/ r = 1 \/ r = 2 \/ r = 3)%N.
Proof. lia. Qed.
Lemma ast_ext m b o bw s s' : ast m b o bw s -> (forall r j, (r < 4 -> j < bw -> s r j = s' r j)%N) -> ast m b o bw s'.
Proof. intros [I H] E. split; [exact I|]. intros r j Lr Lj. rewrite <- E by assumption. auto. Qed.
Lemma ast_upd m m' b o bw s (i : N) g : ast m b o bw s -> (i < bw)%N -> frame m m' (at_ b (o + 4 * ofN i) 4) ->
  (forall r, (r < 4)%N -> byte m' b (o + 4 * ofN i + ofN r) = ofN (g r) /\ (g r < 256)%N) ->
  ast m' b o bw (fun r j => if (j =? i)%N then g r else s r j).
Proof.
  intros [I H] Li F G. split; [eapply inb_frame; eassumption|]. intros r j Lr Lj. destruct (N.eqb_spec j i) as [->|D]; [apply G, Lr|].
  destruct (H r j Lr Lj) as [E B]. split; [|exact B]. rewrite <- E. destruct I as (I1 & I2 & I3).
  eapply byte_frame; [exact F|exact I1|lia|unfold at_; lia].
Qed.
Lemma ast_isbyte m b o bw s r j : ast m b o bw s -> (r < 4)%N -> (j < bw)%N -> isbyte (byte m b (o + 4 * ofN j + ofN r)).
Proof. intros [_ H] A B. destruct (H r j A B) as [E L]. rewrite E. unfold isbyte. lia. Qed.

(** The columns before [i] are done. *)
Definition upto (i : Z) (f s : cstate) : cstate := fun r j => if ofN j <? i then f r j else s r j.
Lemma ast_start m b o bw f s : ast m b o bw s -> ast m b o bw (upto 0 f s).
Proof. intros A. eapply ast_ext; [exact A|]. intros r j _ _. unfold upto. destruct (Z.ltb_spec (ofN j) 0); [lia|reflexivity]. Qed.
Lemma ast_end m b o bw f s : ast m b o bw (upto (ofN bw) f s) -> ast m b o bw f.
Proof. intros A. eapply ast_ext; [exact A|]. intros r j _ L. unfold upto. destruct (Z.ltb_spec (ofN j) (ofN bw)); [reflexivity|lia]. Qed.
Lemma ast_here m b o bw f s i r : ast m b o bw (upto i f s) -> 0 <= i < ofN bw -> (r < 4)%N ->
  byte m b (o + 4 * i + ofN r) = ofN (s r (Z.to_N i)) /\ (s r (Z.to_N i) < 256)%N.
Proof.
  intros [_ H] L R. destruct (H r (Z.to_N i) R ltac:(lia)) as [E B]. unfold upto in *. rewrite Z2N.id in * by lia. rewrite Z.ltb_irrefl in *. auto.
Qed.
Lemma ast_step m m' b o bw f s i : ast m b o bw (upto i f s) -> 0 <= i < ofN bw -> frame m m' (at_ b (o + 4 * i) 4) ->
  (forall r, (r < 4)%N -> byte m' b (o + 4 * i + ofN r) = ofN (f r (Z.to_N i)) /\ (f r (Z.to_N i) < 256)%N) ->
  ast m' b o bw (upto (i + 1) f s).
Proof.
  intros A L F G. eapply ast_ext; [eapply (ast_upd _ _ _ _ _ _ (Z.to_N i) (fun r => f r (Z.to_N i)) A)|]; rewrite ?Z2N.id by lia; [lia|exact F|exact G|].
  intros r j _ Hj. unfold upto. destruct (N.eqb_spec j (Z.to_N i)) as [->|D].
  - destruct (Z.ltb_spec (ofN (Z.to_N i)) (i + 1)); [reflexivity|lia].
  - destruct (Z.ltb_spec (ofN j) i), (Z.ltb_spec (ofN j) (i + 1)); try reflexivity; lia.
Qed.

(** ** Bytes and words *)
Lemma ref_sbox a : (a < 256)%N -> returns f_compute_sbox [VInt (ofN a)] (ofN (SBOX a)).
Proof. intros A. rewrite <- sbox_eq by exact A. apply ref_compute_sbox, A. Qed.

Lemma code_bf8_load : PositiveMap.find f_bf8_load code = Some c_bf8_load. Proof. vm_compute. reflexivity. Qed.
Lemma code_bf8_store : PositiveMap.find f_bf8_store code = Some c_bf8_store. Proof. vm_compute. reflexivity. Qed.
Lemma ref_bf8_load m b o : inb m b o 1 -> calls code f_bf8_load [VPtr b o] m (fun v m' => v = VInt (byte m b o) /\ m' = m).
Proof. intros I. start code_bf8_load. eapply wp_return; [ev|]. split; reflexivity. Qed.
Lemma ref_bf8_store m b o v : inb m b o 1 -> isbyte v -> calls code f_bf8_store [VPtr b o; VInt v] m (fun _ m' => m' = set1 m b o v).
Proof. intros I V. start code_bf8_store. eapply wp_store1; [ev|ev|exact I|exact V|]. reflexivity. Qed.

Lemma ref_contains_zero m b o w : awd m b o w -> calls code f_contains_zero [VPtr b o] m
  (fun v m' => exists z, v = VInt (b2z z) /\ m' = m /\ (z = true <-> exists r, (r < 4)%N /\ AesSpec.at_ 0%N w r = 0%N)).
Proof.
  intros [I H]. start code_contains_zero. eapply wp_return; [ev|]. simp.
  assert (H0 := H 0%N ltac:(lia)). assert (H1 := H 1%N ltac:(lia)). assert (H2 := H 2%N ltac:(lia)). assert (H3 := H 3%N ltac:(lia)).
  change (ofN 0) with 0 in H0. change (ofN 1) with 1 in H1. change (ofN 2) with 2 in H2. change (ofN 3) with 3 in H3.
  rewrite !Z.add_0_r in H0. rewrite !Z.mul_1_l, (proj1 H0), (proj1 H1), (proj1 H2), (proj1 H3).
  exists ((AesSpec.at_ 0%N w 0 =? 0) || (AesSpec.at_ 0%N w 1 =? 0) || (AesSpec.at_ 0%N w 2 =? 0) || (AesSpec.at_ 0%N w 3 =? 0))%N.
  split; [|split; [reflexivity|]].
  - f_equal. assert (E : forall x, (ofN x =? 0) = (x =? 0)%N) by (intros; lia). rewrite !E.
    destruct (AesSpec.at_ 0%N w 0 =? 0)%N, (AesSpec.at_ 0%N w 1 =? 0)%N, (AesSpec.at_ 0%N w 2 =? 0)%N, (AesSpec.at_ 0%N w 3 =? 0)%N; reflexivity.
  - rewrite !orb_true_iff, !N.eqb_eq. split.
    + intros [[[E|E]|E]|E]; [exists 0%N|exists 1%N|exists 2%N|exists 3%N]; split; try exact E; lia.
    + intros (r & L & E). destruct (four r L) as [->|[->|[->| ->]]]; auto.
Qed.

(** ** The steps of a round *)
Lemma code_add_round_key : PositiveMap.find f_add_round_key code = Some c_add_round_key. Proof. vm_compute. reflexivity. Qed.
Lemma code_sub_bytes : PositiveMap.find f_sub_bytes code = Some c_sub_bytes. Proof. vm_compute. reflexivity. Qed.
Lemma code_shift_row : PositiveMap.find f_shift_row code = Some c_shift_row. Proof. vm_compute. reflexivity. Qed.
Lemma code_mix_column : PositiveMap.find f_mix_column code = Some c_mix_column. Proof. vm_compute. reflexivity. Qed.

Definition xor_key (bw : N) (w : N -> list N) (round : N) (s : cstate) : cstate :=
  fun r c => N.lxor (s r c) (AesSpec.at_ 0%N (w (round * bw + c)%N) r).
Lemma ref_add_round_key m b o kb ko bw s w n round : ast m b o bw s -> ark m kb ko bw w n -> (4 <= bw <= 8)%N -> (round <= 14)%N -> (round * bw + bw <= n)%N -> b <> kb ->
  calls code f_add_round_key [VInt (ofN round); VPtr b o; VPtr kb ko; VInt (ofN bw)] m
    (fun _ m' => frame m m' (at_ b o (4 * ofN bw)) /\ ast m' b o bw (xor_key bw w round s)).
Proof.
  intros A K W Lr Ln D. start code_add_round_key. seq. eapply wp_set; [ev|].
  assert (IA := proj1 A). assert (IK := proj1 K). assert (PA := proj1 (proj2 IA)). assert (PK := proj1 (proj2 IK)).
  eapply (wp_for _ 5%positive 32 _ (fun i e m' => has e [(1%positive, VInt (ofN round)); (2%positive, VPtr b o); (3%positive, VPtr kb ko); (4%positive, VInt (ofN bw)); (5%positive, VInt i)] /\
     frame m m' (at_ b o (4 * ofN bw)) /\ ast m' b o bw (upto i (xor_key bw w round s) s)) _ 0 (ofN bw)); try lia.
  - intros i e m' L [H [F J]]. unhas. split; [assumption|]. split.
    { eexists. split; [ev|]. simp. rewrite truth_b. lia. }
    assert (Kw := proj2 K (round * bw + Z.to_N i)%N ltac:(lia)).
    rewrite N.add_comm, N.div_add, N.mod_add in Kw by lia. rewrite N.div_small, N.mod_small, N.add_0_l in Kw by lia. rewrite Z2N.id in Kw by lia.
    assert (Kw' := awd_frame _ _ _ _ _ _ Kw F ltac:(unfold at_; intros q _ [E _]; congruence)).
    destruct Kw' as [IW HW].
    eapply wp_call; [evs|]. eapply calls_weak; [eapply ref_xor_u8_array; try lia|].
    + inb_in.
    + eapply (inb_sub _ _ _ _ _ _ IW); lia.
    + inb_in.
    + right. left. congruence.
    + intros k Lk. destruct (ast_here _ _ _ _ _ _ i (Z.to_N k) J ltac:(lia) ltac:(lia)) as [E X]. rewrite Z2N.id in E by lia. rewrite E. unfold isbyte. lia.
    + intros k Lk. destruct (HW (Z.to_N k) ltac:(lia)) as [E X]. rewrite Z2N.id in E by lia. rewrite E. unfold isbyte. lia.
    + intros v m2 [F2 X]. cbn [set]. split; [assumption|]. split; [hass|]. split; [fr|].
      eapply ast_step; [exact J|lia|exact F2|]. intros r Hr. rewrite X by lia. destruct (HW r Hr) as [E B]. rewrite E.
      destruct (ast_here _ _ _ _ _ _ i r J ltac:(lia) Hr) as [E' B']. rewrite E', ofN_lxor. unfold xor_key.
      rewrite (N.add_comm (round * bw)%N). split; [reflexivity|apply lxor_lt8; assumption].
  - intros e m' [H [F J]]. unhas. split.
    { eexists. split; [ev|]. simp. rewrite truth_b. lia. }
    split; [exact F|]. eapply ast_end, J.
  - split; [hass|]. split; [apply frame_refl|]. apply ast_start, A.
Qed.

Lemma b2z_or x y : Z.lor (b2z x) (b2z y) = b2z (x || y).
Proof. destruct x, y; reflexivity. Qed.
Lemma awd_of_ast m b o bw f s i : ast m b o bw (upto i f s) -> 0 <= i < ofN bw ->
  awd m b (o + 4 * i) [s 0%N (Z.to_N i); s 1%N (Z.to_N i); s 2%N (Z.to_N i); s 3%N (Z.to_N i)].
Proof.
  intros A L. split; [eapply inb_sub; [exact (proj1 A)|lia..]|]. intros r Hr.
  destruct (ast_here _ _ _ _ _ _ i r A L Hr) as [E B]. destruct (four r Hr) as [->|[->|[->| ->]]]; split; assumption.
Qed.

Definition zst (bw : N) (s : cstate) : Prop := exists r j, (r < 4 /\ j < bw /\ s r j = 0)%N.
Lemma ref_sub_bytes m b o bw s : ast m b o bw s -> (4 <= bw <= 8)%N ->
  calls code f_sub_bytes [VPtr b o; VInt (ofN bw)] m
    (fun v m' => exists z, v = VInt (b2z z) /\ (z = true <-> zst bw s) /\ frame m m' (at_ b o (4 * ofN bw)) /\ ast m' b o bw (SubBytes s)).
Proof.
  intros A W. start code_sub_bytes. seq. eapply wp_set; [ev|]. seq. eapply wp_set; [ev|]. seq.
  assert (IA := proj1 A). assert (PA := proj1 (proj2 IA)).
  eapply (wp_for _ 4%positive 32 _ (fun i e m' => exists z, has e [(1%positive, VPtr b o); (2%positive, VInt (ofN bw)); (3%positive, VInt (b2z z)); (4%positive, VInt i)] /\
     (z = true <-> exists r j, (r < 4)%N /\ ofN j < i /\ s r j = 0%N) /\
     frame m m' (at_ b o (4 * ofN bw)) /\ ast m' b o bw (upto i (SubBytes s) s)) _ 0 (ofN bw)); try lia.
  - intros i e m' L (z & H & Z & F & J). unhas. split; [assumption|]. split.
    { eexists. split; [ev|]. simp. rewrite truth_b. lia. }
    seq. eapply wp_call; [evs|]. eapply calls_weak; [apply (ref_contains_zero _ _ _ _ (awd_of_ast _ _ _ _ _ _ i J L))|].
    intros v m2 (z' & -> & -> & Z'). cbn [set]. seq. eapply wp_set; [ev|]. simp. rewrite b2z_or. seq. eapply wp_set; [ev|].
    assert (I' : inb m' b o (4 * ofN bw)) by (exact (proj1 J)).
    eapply (wp_for _ 6%positive 32 _ (fun k e m2 => has e [(1%positive, VPtr b o); (2%positive, VInt (ofN bw)); (3%positive, VInt (b2z (z || z'))); (4%positive, VInt i); (6%positive, VInt k)] /\
      frame m' m2 (at_ b (o + 4 * i) 4) /\
      forall r, (r < 4)%N -> byte m2 b (o + 4 * i + ofN r) = ofN (if ofN r <? k then SBOX (s r (Z.to_N i)) else s r (Z.to_N i))) _ 0 4); try lia.
    + intros k e2 m2 Lk (H' & F2 & X). unhas. split; [assumption|]. split.
      { eexists. split; [ev|]. simp. rewrite truth_b. lia. }
      assert (Xk := X (Z.to_N k) ltac:(lia)). rewrite Z2N.id, Z.ltb_irrefl in Xk by lia.
      destruct (ast_here _ _ _ _ _ _ i (Z.to_N k) J ltac:(lia) ltac:(lia)) as [_ Bk].
      assert (SB := sbox_lt _ Bk).
      seq. eapply wp_call; [evs|]. rewrite Z.mul_1_l, Xk. eapply calls_weak; [apply ref_sbox; exact Bk|]. intros v m3 [-> ->]. cbn [set].
      eapply wp_store1; [ev|ev|inb_in|lia|]. rewrite Z.mul_1_l. split; [look|]. split; [hass|]. split; [fr|].
      intros r Hr. destruct (N.eq_dec r (Z.to_N k)) as [->|D].
      * rd. destruct (Z.ltb_spec (ofN (Z.to_N k)) (k + 1)); [reflexivity|lia].
      * rd. rewrite X by exact Hr. destruct (Z.ltb_spec (ofN r) k), (Z.ltb_spec (ofN r) (k + 1)); try reflexivity; lia.
    + intros e2 m2 (H' & F2 & X). unhas. split.
      { eexists. split; [ev|]. simp. rewrite truth_b. lia. }
      split; [assumption|]. exists (z || z'). split; [hass|]. split; [|split; [fr|]].
      * rewrite orb_true_iff, Z, Z'. split.
        -- intros [(r & j & Hr & Hj & E)|(r & Hr & E)]; [exists r, j; split; [exact Hr|]; split; [lia|exact E]|].
           exists r, (Z.to_N i). split; [exact Hr|]. split; [lia|]. destruct (four r Hr) as [->|[->|[->| ->]]]; exact E.
        -- intros (r & j & Hr & Hj & E). destruct (Z.eq_dec (ofN j) i) as [<-|D]; [right|left; exists r, j; split; [exact Hr|]; split; [lia|exact E]].
           exists r. split; [exact Hr|]. rewrite N2Z.id. destruct (four r Hr) as [->|[->|[->| ->]]]; exact E.
      * eapply ast_step; [exact J|lia|exact F2|]. intros r Hr. rewrite X by exact Hr. destruct (Z.ltb_spec (ofN r) 4); [|lia].
        split; [reflexivity|]. apply sbox_lt. apply (ast_here _ _ _ _ _ _ i r J ltac:(lia) Hr).
    + split; [hass|]. split; [apply frame_refl|]. intros r Hr. destruct (Z.ltb_spec (ofN r) 0); [lia|].
      apply (ast_here _ _ _ _ _ _ i r J ltac:(lia) Hr).
  - intros e m' (z & H & Z & F & J). unhas. split.
    { eexists. split; [ev|]. simp. rewrite truth_b. lia. }
    eapply wp_return; [ev|]. exists z. split; [reflexivity|]. split; [|split; [exact F|eapply ast_end, J]].
    rewrite Z. unfold zst. split; intros (r & j & Hr & Hj & E); exists r, j; (split; [exact Hr|]); split; try exact E; lia.
  - exists false. split; [hass|]. split; [|split; [apply frame_refl|apply ast_start, A]].
    split; [discriminate|]. intros (r & j & _ & Hj & _). lia.
Qed.

Ltac m4 := repeat match goal with |- context [((?a + ?b) mod 4)%N] => let v := eval vm_compute in ((a + b) mod 4)%N in change ((a + b) mod 4)%N with v end.
Ltac xors := apply N.bits_inj; intros ?; rewrite !N.lxor_spec; btauto.
Lemma ref_mix_column m b o bw s : ast m b o bw s -> (4 <= bw <= 8)%N ->
  calls code f_mix_column [VPtr b o; VInt (ofN bw)] m (fun _ m' => frame m m' (at_ b o (4 * ofN bw)) /\ ast m' b o bw (MixColumns s)).
Proof.
  intros A W. start code_mix_column. seq. eapply wp_set; [ev|].
  assert (IA := proj1 A). assert (PA := proj1 (proj2 IA)).
  eapply (wp_for _ 3%positive 32 _ (fun i e m' => has e [(1%positive, VPtr b o); (2%positive, VInt (ofN bw)); (3%positive, VInt i)] /\
     frame m m' (at_ b o (4 * ofN bw)) /\ ast m' b o bw (upto i (MixColumns s) s)) _ 0 (ofN bw)); try lia.
  - intros i e m' L (H & F & J). unhas. split; [assumption|]. split.
    { eexists. split; [ev|]. simp. rewrite truth_b. lia. }
    assert (I' : inb m' b o (4 * ofN bw)) by (exact (proj1 J)).
    assert (G0 := ast_here _ _ _ _ _ _ i 0 J L ltac:(lia)). assert (G1 := ast_here _ _ _ _ _ _ i 1 J L ltac:(lia)).
    assert (G2 := ast_here _ _ _ _ _ _ i 2 J L ltac:(lia)). assert (G3 := ast_here _ _ _ _ _ _ i 3 J L ltac:(lia)).
    change (ofN 0) with 0 in G0. change (ofN 1) with 1 in G1. change (ofN 2) with 2 in G2. change (ofN 3) with 3 in G3.
    rewrite Z.add_0_r in G0. remember (s 0%N (Z.to_N i)) as a0 eqn:Q0. remember (s 1%N (Z.to_N i)) as a1 eqn:Q1. remember (s 2%N (Z.to_N i)) as a2 eqn:Q2. remember (s 3%N (Z.to_N i)) as a3 eqn:Q3.
    destruct G0 as [E0 B0], G1 as [E1 B1], G2 as [E2 B2], G3 as [E3 B3].
Ltac mulc := eapply wp_call; [evs|]; rewrite ?Z.mul_1_l;
  match goal with
  | |- calls _ _ [VInt ?x; VInt 2] _ _ => change (VInt 2) with (VInt (ofN 2)) | |- calls _ _ [VInt ?x; VInt 3] _ _ => change (VInt 3) with (VInt (ofN 3)) end;
  match goal with E : ?x = ofN _ |- calls _ _ (VInt ?x :: _) _ _ => rewrite E at 1 end;
  eapply calls_weak; [apply ref_bf8_mul; [assumption|lia]|]; intros ? ? [-> ->]; cbn [set].
    do 12 (seq; first [mulc | eapply wp_set; [ev|]]).
    simp. rewrite !Z.mul_1_l, ?E0, ?E1, ?E2, ?E3, !ofN_lxor, !mul2_eq, !mul3_eq by assumption.
    assert (X0 := xtime_lt _ B0). assert (X1 := xtime_lt _ B1). assert (X2 := xtime_lt _ B2). assert (X3 := xtime_lt _ B3).
    repeat match goal with |- context [wrap u8 (ofN ?x)] =>
      let V := fresh "V" in assert (V : (x < 256)%N) by (repeat (apply lxor_lt8; [|assumption]); repeat apply lxor_lt8; assumption);
      rewrite (wrap_u8 (ofN x)) by (revert V; clear; lia) end.
    seq. eapply wp_store1; [ev|ev|inb_in|lia|]. seq. eapply wp_store1; [ev|ev|inb_in|lia|].
    seq. eapply wp_store1; [ev|ev|inb_in|lia|]. eapply wp_store1; [ev|ev|inb_in|lia|].
    rewrite ?Z.mul_1_l. split; [look|]. split; [hass|]. split; [fr|].
    eapply ast_step; [exact J|lia|fr|].
    assert (MX : forall r, (r < 4)%N -> (MixColumns s r (Z.to_N i) < 256)%N).
    { intros r Hr. unfold MixColumns. destruct (four r Hr) as [->|[->|[->| ->]]]; cbv beta zeta; m4; rewrite <- ?Q0, <- ?Q1, <- ?Q2, <- ?Q3;
        repeat apply lxor_lt8; assumption. }
    intros r Hr. split; [|apply MX, Hr]. unfold MixColumns.
    destruct (four r Hr) as [->|[->|[->| ->]]]; rd; f_equal; cbv beta zeta; m4; rewrite <- ?Q0, <- ?Q1, <- ?Q2, <- ?Q3; clear; xors.
  - intros e m' (H & F & J). unhas. split.
    { eexists. split; [ev|]. simp. rewrite truth_b. lia. }
    split; [exact F|]. eapply ast_end, J.
  - split; [hass|]. split; [apply frame_refl|]. apply ast_start, A.
Qed.

Lemma rem_N a n : 0 <= a -> (n <> 0)%N -> Z.rem a (ofN n) = ofN (Z.to_N a mod n).
Proof. intros A N. rewrite Z.rem_mod_nonneg by lia. rewrite N2Z.inj_mod by lia. rewrite Z2N.id by lia. reflexivity. Qed.
Lemma quot_N a n : 0 <= a -> (n <> 0)%N -> Z.quot a (ofN n) = ofN (Z.to_N a / n).
Proof. intros A N. rewrite Z.quot_div_nonneg by lia. rewrite N2Z.inj_div. rewrite Z2N.id by lia. reflexivity. Qed.

(** ShiftRows with the offsets as parameters. *)
Definition shifted (bw s2 s3 : N) (s : cstate) : cstate :=
  fun r j => s r ((j + match r with 0 => 0 | 1 => 1 | 2 => s2 | _ => s3 end) mod bw)%N.
Lemma shift_col R s r j : Nb R = 4%N \/ Nb R = 6%N \/ Nb R = 8%N -> (r < 4)%N ->
  ShiftRows R s r j = shifted (Nb R) (if (Nb R =? 8)%N then 3%N else 2%N) (if (Nb R =? 8)%N then 4%N else 3%N) s r j.
Proof.
  intros W Hr. unfold shifted, ShiftRows, shift_offset. destruct (Nb R =? 8)%N; destruct (four r Hr) as [->|[->|[->| ->]]]; reflexivity.
Qed.

Lemma shift_step m1 m' b o nb bw s s2 s3 i p1 p2 p3 : (0 < bw)%N -> ast m1 b o bw s -> inb m1 nb 0 32 -> b <> nb -> (bw <= 8)%N ->
  0 <= i < ofN bw -> frame m1 m' (at_ nb 0 32) ->
  (forall r j, (r < 4)%N -> ofN j < i -> byte m' nb (4 * ofN j + ofN r) = ofN (shifted bw s2 s3 s r j)) ->
  p1 = ofN ((Z.to_N i + 1) mod bw)%N -> p2 = ofN ((Z.to_N i + s2) mod bw)%N -> p3 = ofN ((Z.to_N i + s3) mod bw)%N ->
  inb m' b o (4 * ofN bw) /\ inb m' nb 0 32 /\
  (0 <= p1 < ofN bw /\ 0 <= p2 < ofN bw /\ 0 <= p3 < ofN bw) /\
  (isbyte (byte m' b (o + 4 * i)) /\ isbyte (byte m' b (o + 4 * p1 + 1)) /\ isbyte (byte m' b (o + 4 * p2 + 2)) /\ isbyte (byte m' b (o + 4 * p3 + 3))) /\
  forall m2, frame m' m2 (at_ nb (4 * i) 4) -> byte m2 nb (4 * i) = byte m' b (o + 4 * i) -> byte m2 nb (4 * i + 1) = byte m' b (o + 4 * p1 + 1) ->
     byte m2 nb (4 * i + 2) = byte m' b (o + 4 * p2 + 2) -> byte m2 nb (4 * i + 3) = byte m' b (o + 4 * p3 + 3) ->
     frame m1 m2 (at_ nb 0 32) /\ forall r j, (r < 4)%N -> ofN j < i + 1 -> byte m2 nb (4 * ofN j + ofN r) = ofN (shifted bw s2 s3 s r j).
Proof.
  intros W A1 I1 NB W8 L F H E1 E2 E3.
  assert (A' : ast m' b o bw s) by (eapply ast_frame; [exact A1|exact F|intros q _ [X _]; congruence]).
  assert (M : forall k, (k mod bw < bw)%N) by (intros; apply N.mod_lt; lia).
  assert (Li : (Z.to_N i < bw)%N) by lia. assert (N0 : (0 < 4)%N) by lia. assert (N1 : (1 < 4)%N) by lia. assert (N2 : (2 < 4)%N) by lia. assert (N3 : (3 < 4)%N) by lia.
  pose proof (M (Z.to_N i + 1)%N) as M1. pose proof (M (Z.to_N i + s2)%N) as M2. pose proof (M (Z.to_N i + s3)%N) as M3.
  assert (G0 := proj2 A' 0%N (Z.to_N i) N0 Li). rewrite Z2N.id in G0 by lia. rewrite Z.add_0_r in G0.
  assert (G1 := proj2 A' 1%N _ N1 M1). rewrite <- E1 in G1.
  assert (G2 := proj2 A' 2%N _ N2 M2). rewrite <- E2 in G2.
  assert (G3 := proj2 A' 3%N _ N3 M3). rewrite <- E3 in G3.
  change (ofN 1) with 1 in G1. change (ofN 2) with 2 in G2. change (ofN 3) with 3 in G3.
  destruct G0 as [V0 B0], G1 as [V1 B1], G2 as [V2 B2], G3 as [V3 B3].
  split; [exact (proj1 A')|]. split; [eapply inb_frame; [exact F|exact I1]|].
  split; [clear - M1 M2 M3 E1 E2 E3; subst; generalize dependent ((Z.to_N i + 1) mod bw)%N; generalize dependent ((Z.to_N i + s2) mod bw)%N; generalize dependent ((Z.to_N i + s3) mod bw)%N; intros; lia|].
  split.
  { unfold isbyte. rewrite V0, V1, V2, V3. clear - B0 B1 B2 B3. repeat split; lia. }
  intros m2 F2 X0 X1 X2 X3. split.
  { eapply frame_trans; [exact F|]. eapply frame_weak; [exact F2|]. clear - L W8. unfold at_. intros. lia. }
  intros r j Hr Hj. destruct (Z.eq_dec (ofN j) i) as [D|D].
  - assert (j = Z.to_N i) by (clear - D; lia). subst j. unfold shifted. rewrite D.
    destruct (four r Hr) as [->|[->|[->| ->]]]; cbn [Z.of_N].
    + rewrite Z.add_0_r, X0. rewrite N.add_0_r, N.mod_small by exact Li. exact V0.
    + rewrite X1. exact V1.
    + rewrite X2. exact V2.
    + rewrite X3. exact V3.
  - rewrite <- H by (assumption || (clear - Hj D; lia)). eapply byte_frame; [exact F2| |clear; lia|clear - Hr Hj D; unfold at_; lia].
    eapply Pos.lt_le_trans; [exact (proj1 I1)|exact (proj1 F)].
Qed.

Lemma ref_shift_row m b o R s : ast m b o (Nb R) s -> Nb R = 4%N \/ Nb R = 6%N \/ Nb R = 8%N ->
  calls code f_shift_row [VPtr b o; VInt (ofN (Nb R))] m (fun _ m' => frame m m' (at_ b o (4 * ofN (Nb R))) /\ ast m' b o (Nb R) (ShiftRows R s)).
Proof.
  intros A W. start code_shift_row. seq. eapply wp_alloc; [ev|]. seq. eapply wp_set; [ev|].
  set (m1 := fresh m 32 (PositiveMap.empty value)). set (nb := mnext m). assert (IA := proj1 A). assert (PA := proj1 (proj2 IA)).
  assert (NB : b <> nb) by (intros ->; destruct IA as [X _]; subst nb; lia).
  assert (F1 : frame m m1 nothing) by apply frame_fresh.
  assert (A1 : ast m1 b o (Nb R) s) by (eapply ast_frame; [exact A|exact F1|intros q _ []]).
  assert (I1 : inb m1 nb 0 32) by (apply inb_fresh; lia).
  assert (SH := fun r j => shift_col R s r j W). set (s2 := if (Nb R =? 8)%N then 3%N else 2%N) in *. set (s3 := if (Nb R =? 8)%N then 4%N else 3%N) in *.
  assert (BW : (4 <= Nb R <= 8)%N) by lia.
  assert (C : (Nb R = 4 \/ Nb R = 6)%N /\ s2 = 2%N /\ s3 = 3%N \/ Nb R = 8%N /\ s2 = 3%N /\ s3 = 4%N).
  { subst s2 s3. destruct W as [->|[->| ->]]; [left|left|right]; auto. }
  assert (NX : (nb < mnext m1)%positive) by apply I1.
  assert (ENB : nb = mnext m) by reflexivity. clearbody m1 s2 s3. clearbody nb. generalize dependent (Nb R). intros bw A W IA A1 SH BW C. clear W.
  pose (J := fun (x : positive) (i : Z) (e : env) (m' : mem) => has e [(1%positive, VPtr b o); (2%positive, VInt (ofN bw)); (3%positive, VPtr nb 0); (x, VInt i)] /\
     frame m1 m' (at_ nb 0 32) /\ forall r j, (r < 4)%N -> ofN j < i -> byte m' nb (4 * ofN j + ofN r) = ofN (shifted bw s2 s3 s r j)).
  seq. apply wp_weak with (Q := fun o' e m' => o' = ONormal /\ has e [(1%positive, VPtr b o); (2%positive, VInt (ofN bw)); (3%positive, VPtr nb 0)] /\
     frame m1 m' (at_ nb 0 32) /\ forall r j, (r < 4)%N -> ofN j < ofN bw -> byte m' nb (4 * ofN j + ofN r) = ofN (shifted bw s2 s3 s r j)).
  { destruct C as [(C & E2 & E3)|(C & E2 & E3)].
    - eapply wp_if.
      { eapply pe_cond; [ev|]. simp. rewrite truth_b. instantiate (1 := VInt 1). destruct C as [-> | ->]; [apply pe_int|change (ofN 6 =? 4) with false; cbv iota; eapply pe_eq; [ev|reflexivity]]. }
      clear C. cbn [truth int_of Z.eqb negb]. seq. eapply wp_set; [ev|].
      eapply (wp_for _ 5%positive 32 _ (J 5%positive) _ 0 (ofN bw)); [lia|lia|lia|..].
      + intros i e m' L (H & F & X). unhas. split; [assumption|]. split.
        { eexists. split; [ev|]. simp. rewrite truth_b. lia. }
        destruct (shift_step m1 m' b o nb bw s s2 s3 i (Z.rem (i + 1) (ofN bw)) (Z.rem (i + 2) (ofN bw)) (Z.rem (i + 3) (ofN bw))) as (IB & IN & (P1 & P2 & P3) & (Y0 & Y1 & Y2 & Y3) & K);
          try assumption; try lia; try (rewrite rem_N by lia; f_equal; f_equal; lia).
        unfold isbyte in *. remember (Z.rem (i + 1) (ofN bw)) as p1 eqn:Q1. remember (Z.rem (i + 2) (ofN bw)) as p2 eqn:Q2. remember (Z.rem (i + 3) (ofN bw)) as p3 eqn:Q3.
        assert (U1 : wrap u32 (i + 1) = i + 1) by (apply wrap_u32; clear - L BW; lia). assert (U2 : wrap u32 (i + 2) = i + 2) by (apply wrap_u32; clear - L BW; lia). assert (U3 : wrap u32 (i + 3) = i + 3) by (apply wrap_u32; clear - L BW; lia).
        assert (V1 : wrap u32 p1 = p1) by (apply wrap_u32; clear - P1 BW; lia).
        assert (V2 : wrap u32 p2 = p2) by (apply wrap_u32; clear - P2 BW; lia).
        assert (V3 : wrap u32 p3 = p3) by (apply wrap_u32; clear - P3 BW; lia).
        assert (D1 : div OMod u32 (bin OAdd u32 i 1) (ofN bw) = p1) by (simp; unfold div; rewrite U1, <- Q1; exact V1). assert (D2 : div OMod u32 (bin OAdd u32 i 2) (ofN bw) = p2) by (simp; unfold div; rewrite U2, <- Q2; exact V2). assert (D3 : div OMod u32 (bin OAdd u32 i 3) (ofN bw) = p3) by (simp; unfold div; rewrite U3, <- Q3; exact V3). clear Q1 Q2 Q3 U1 U2 U3 V1 V2 V3.
        assert (NEG : 0 <= i < 8) by (clear - L BW; lia). clear SH A IA X.
        seq. eapply wp_store1; [ev|ev|inb_in|assumption|].
        seq. eapply wp_store1; [ev|ev; rewrite D1; inb_in|inb_in|rewrite D1, Z.mul_1_l; rd; assumption|].
        rewrite D1, !Z.mul_1_l; rd.
        seq. eapply wp_store1; [ev|ev; rewrite D2; inb_in|inb_in|rewrite D2, Z.mul_1_l; rd; assumption|].
        rewrite D2, !Z.mul_1_l; rd.
        eapply wp_store1; [ev|ev; rewrite D3; inb_in|inb_in|rewrite D3, Z.mul_1_l; rd; assumption|].
        rewrite D3, !Z.mul_1_l; rd.
        rewrite Z.add_0_l. split; [look|]. split; [hass|]. apply K; [fr|rd; reflexivity..].
      + intros e m' (H & F & X). unhas. split.
        { eexists. split; [ev|]. simp. rewrite truth_b. lia. }
        split; [reflexivity|]. split; [hass|]. split; assumption.
      + split; [hass|]. split; [apply frame_refl|]. intros. lia.
    - eapply wp_if.
      { eapply pe_cond; [ev|]. simp. rewrite truth_b. instantiate (1 := VInt 0). rewrite C. change (ofN 8 =? 4) with false. cbv iota. eapply pe_eq; [ev|]. reflexivity. }
      cbn [truth int_of Z.eqb negb]. eapply wp_if; [ev|]. simp. rewrite truth_b, C. change (ofN 8 =? 8) with true. cbv iota. rewrite <- C.
      seq. eapply wp_set; [ev|].
      eapply (wp_for _ 6%positive 32 _ (J 6%positive) _ 0 (ofN bw)); [lia|lia|lia|..].
      + intros i e m' L (H & F & X). unhas. split; [assumption|]. split.
        { eexists. split; [ev|]. simp. rewrite truth_b. lia. }
        destruct (shift_step m1 m' b o nb bw s s2 s3 i (Z.rem (i + 1) 8) (Z.rem (i + 3) 8) (Z.rem (i + 4) 8)) as (IB & IN & (P1 & P2 & P3) & (Y0 & Y1 & Y2 & Y3) & K);
          try assumption; try lia; try (rewrite C; change 8 with (ofN 8); rewrite rem_N by lia; f_equal; f_equal; lia).
        unfold isbyte in *. remember (Z.rem (i + 1) 8) as p1 eqn:Q1. remember (Z.rem (i + 3) 8) as p2 eqn:Q2. remember (Z.rem (i + 4) 8) as p3 eqn:Q3.
        assert (U1 : wrap u32 (i + 1) = i + 1) by (apply wrap_u32; clear - L BW; lia). assert (U2 : wrap u32 (i + 3) = i + 3) by (apply wrap_u32; clear - L BW; lia). assert (U3 : wrap u32 (i + 4) = i + 4) by (apply wrap_u32; clear - L BW; lia).
        assert (V1 : wrap u32 p1 = p1) by (apply wrap_u32; clear - P1 BW; lia).
        assert (V2 : wrap u32 p2 = p2) by (apply wrap_u32; clear - P2 BW; lia).
        assert (V3 : wrap u32 p3 = p3) by (apply wrap_u32; clear - P3 BW; lia).
        assert (D1 : div OMod u32 (bin OAdd u32 i 1) 8 = p1) by (simp; unfold div; rewrite U1, <- Q1; exact V1). assert (D2 : div OMod u32 (bin OAdd u32 i 3) 8 = p2) by (simp; unfold div; rewrite U2, <- Q2; exact V2). assert (D3 : div OMod u32 (bin OAdd u32 i 4) 8 = p3) by (simp; unfold div; rewrite U3, <- Q3; exact V3). clear Q1 Q2 Q3 U1 U2 U3 V1 V2 V3.
        assert (NEG : 0 <= i < 8) by (clear - L BW; lia). clear SH A IA X.
        seq. eapply wp_store1; [ev|ev|inb_in|assumption|].
        seq. eapply wp_store1; [ev|ev; rewrite D1; inb_in|inb_in|rewrite D1, Z.mul_1_l; rd; assumption|].
        rewrite D1, !Z.mul_1_l; rd.
        seq. eapply wp_store1; [ev|ev; rewrite D2; inb_in|inb_in|rewrite D2, Z.mul_1_l; rd; assumption|].
        rewrite D2, !Z.mul_1_l; rd.
        eapply wp_store1; [ev|ev; rewrite D3; inb_in|inb_in|rewrite D3, Z.mul_1_l; rd; assumption|].
        rewrite D3, !Z.mul_1_l; rd.
        rewrite Z.add_0_l. split; [look|]. split; [hass|]. apply K; [fr|rd; reflexivity..].
      + intros e m' (H & F & X). unhas. split.
        { eexists. split; [ev|]. simp. rewrite truth_b. lia. }
        split; [reflexivity|]. split; [hass|]. split; assumption.
      + split; [hass|]. split; [apply frame_refl|]. intros. lia. }
  intros o' e m' (-> & H & F & X). unhas. seq. eapply wp_set; [ev|].
  assert (A' : ast m' b o bw s) by (eapply ast_frame; [exact A1|exact F|intros q _ [Y _]; congruence]).
  assert (IN : inb m' nb 0 32) by (eapply inb_frame; [exact F|exact I1]).
  eapply (wp_for _ 7%positive 32 _ (fun i e m2 => has e [(1%positive, VPtr b o); (2%positive, VInt (ofN bw)); (3%positive, VPtr nb 0); (7%positive, VInt i)] /\
     frame m' m2 (at_ b o (4 * ofN bw)) /\ ast m2 b o bw (upto i (shifted bw s2 s3 s) s)) _ 0 (ofN bw)); [lia|lia|lia|..].
  - intros i e2 m2 L (H' & F2 & J2). unhas. split; [assumption|]. split.
    { eexists. split; [ev|]. simp. rewrite truth_b. lia. }
    assert (I2 := proj1 J2).
    eapply wp_copy1; [ev|ev|ev|inb_in|inb_in|]. split; [look|]. split; [hass|]. split; [fr|].
    eapply ast_step; [exact J2|lia|fr|]. intros r Hr. rewrite byte_copy by (inb_in || lia).
    rewrite Z.add_0_l. assert (E : byte m2 nb (4 * i + ofN r) = byte m' nb (4 * i + ofN r)).
    { eapply byte_frame; [exact F2|exact (proj1 IN)|lia|unfold at_; intros [Y _]; congruence]. }
    rewrite E. assert (Xi := X r (Z.to_N i) Hr ltac:(lia)). rewrite Z2N.id in Xi by lia. split; [exact Xi|].
    unfold shifted. apply (proj2 A'); [exact Hr|apply N.mod_lt; lia].
  - intros e2 m2 (H' & F2 & J2). unhas. split.
    { eexists. split; [ev|]. simp. rewrite truth_b. lia. }
    split; [|eapply ast_ext; [eapply ast_end, J2|]; intros; symmetry; apply SH; assumption].
    fr.
  - split; [hass|]. split; [apply frame_refl|]. apply ast_start, A'.
Qed.
