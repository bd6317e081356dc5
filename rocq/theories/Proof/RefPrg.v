(** The translated pseudorandom generator. *)
From Coq Require Import ZArith NArith List Bool FMapPositive Lia ZifyBool ZifyNat ZifyN.
From Verif Require Import Spec.AesSpec Spec.OwfSpec Model.Base Model.Aes Proof.BaseProof Proof.AesProof Proof.PrgProof.
From Verif Require Import Model.CtLang Model.CtNames Model.CtFields Model.CtAes Model.CtProgram Proof.RefLogic Proof.RefTac Proof.RefMem Proof.RefAes Proof.RefCipher Proof.RefKeys Proof.RefOwf.
Import ListNotations.
Local Open Scope Z_scope.
Arguments wrap : simpl never.

Lemma code_aes_increment_iv : PositiveMap.find f_aes_increment_iv code = Some c_aes_increment_iv. Proof. vm_compute. reflexivity. Qed.
Lemma code_prg : PositiveMap.find f_prg code = Some c_prg. Proof. vm_compute. reflexivity. Qed.

Lemma holds_upd m b o l i v p : holds m b o l -> (i < lenN l)%N -> p = o + ofN i -> holds (set1 m b p (ofN v)) b o (upd l (N.to_nat i) v).
Proof.
  intros [I H] L ->. assert (PO := proj1 (proj2 I)). split; [rewrite lenN_upd; apply inb_set1; exact I|]. rewrite lenN_upd. intros k Lk.
  rewrite nthN_upd by exact Lk. destruct (N.eq_dec k i) as [->|D].
  - rewrite byte_set1_same by (reflexivity || inb_in). rewrite N.eqb_refl. reflexivity.
  - rewrite byte_set1_other by (inb_in || lia). rewrite H by exact Lk. destruct (N.eqb_spec k i); [contradiction|reflexivity].
Qed.

Lemma ref_aes_increment_iv m b o iv : holds m b o iv -> lenN iv = 16%N -> bytes_ok iv ->
  calls code f_aes_increment_iv [VPtr b o] m (fun _ m' => frame m m' (at_ b o 16) /\ holds m' b o (be_bytes 16 ((be_val iv + 1) mod 2 ^ 128)%N)).
Proof.
  intros H L B. assert (E := aes_increment_iv_ok iv L B). unfold aes_increment_iv in E.
  generalize dependent (be_bytes 16 ((be_val iv + 1) mod 2 ^ 128)%N). intros iv' E.
  start code_aes_increment_iv. seq. eapply wp_set; [ev|]. assert (PO := proj1 (proj2 (proj1 H))).
  eapply (wp_loop code _ _ _ (fun k e m' => has e [(1%positive, VPtr b o); (2%positive, VInt (Z.of_nat k))] /\ (k <= 16)%nat /\ frame m m' (at_ b o 16) /\
    exists cur, holds m' b o cur /\ lenN cur = 16%N /\ bytes_ok cur /\ aes_increment_iv_from k cur = Ok iv')) with (n := 16%nat).
  - intros k e m' (HE & LK & F & cur & HC & LC & BC & EC). unhas. split; [eexists; split; [ev|]; simp; rewrite truth_b; lia|].
    cbn [aes_increment_iv_from] in EC. rewrite (aget_ok _ _ 0%N) in EC by lia. cbn [Base.bind] in EC.
    set (x := nthN cur (N.of_nat k) 0%N) in *. assert (BX : byte_ok x) by (apply nthN_byte; exact BC). unfold byte_ok in BX.
    assert (W : wrap u32 (Z.of_nat (S k) - 1) = Z.of_nat k) by (rewrite wrap_u32; lia).
    assert (RX : byte m' b (o + Z.of_nat k) = ofN x).
    { rewrite (holds_byte _ _ _ _ _ HC) by lia. unfold x. do 2 f_equal. lia. }
    seq. eapply wp_if; [ev|]. { simp. rewrite W. inb_in. } simp. rewrite truth_b, W, Z.mul_1_l, RX.
    destruct (N.eqb_spec x 255) as [X|X].
    + rewrite aset_ok in EC by lia. cbn [Base.bind] in EC. destruct (Z.eqb_spec (ofN x) 255); [|lia].
      seq. eapply wp_store1; [ev|ev| |lia|]; simp; rewrite ?W, ?Z.mul_1_l; [inb_in|]. apply wp_continue. eapply wp_set; [ev|]. simp. rewrite W.
      split; [reflexivity|]. split; [hass|]. split; [lia|]. split; [fr|]. eexists. split; [eapply (holds_upd _ _ _ _ (N.of_nat k) 0%N); [exact HC|lia|lia]|].
      rewrite lenN_upd. split; [exact LC|]. split; [apply Forall_upd; [exact BC|unfold byte_ok; lia]|exact EC].
    + rewrite aset_ok in EC by lia. destruct (Z.eqb_spec (ofN x) 255); [lia|]. apply wp_skip.
      seq. eapply wp_set; [ev|]. simp. rewrite W, Z.mul_1_l. seq. eapply wp_store1; [ev|ev|inb_in| |]; simp; rewrite ?RX, ?wrap_s32, ?wrap_u8 by lia; [lia|].
      apply wp_break. injection EC as <-. split; [fr|]. replace (ofN x + 1) with (ofN (x + 1)) by lia. eapply holds_upd; [exact HC|lia|lia].
  - intros e m' (HE & LK & F & cur & HC & LC & BC & EC). unhas. split; [eexists; split; [ev|]; reflexivity|].
    cbn [aes_increment_iv_from] in EC. injection EC as <-. auto.
  - split; [hass|]. split; [lia|]. split; [apply frame_refl|]. exists iv. auto.
Qed.

(** ** The generator *)
Definition prg_arm (fi : positive) (nr : Z) (v1 v2 v3 : positive) : stmt :=
  SSeq (SCall None fi [EVar 7; EVar 1]) (
  SSeq (SLoop (EBin OGe s32 (EVar 5) (EInt 16))
    (SSeq (SSet 5 (EBin OSub u64 (EVar 5) (EInt 16))) (SSet 3 (EAt (EVar 3) 1 (EInt 16))))
    (SSeq (SAlloc v1 (EInt 32)) (
     SSeq (SCall None f_load_state [EVar v1; EVar 6; EInt 4]) (
     SSeq (SCall None f_aes_encrypt [EVar 7; EVar v1; EInt 4; EInt nr]) (
     SSeq (SCall None f_store_state [EVar 3; EVar v1; EInt 4])
     (SCall None f_aes_increment_iv [EVar 6])))))) (
  SSeq (SIf (EVar 5)
    (SSeq (SAlloc v2 (EInt 32)) (
     SSeq (SCall None f_load_state [EVar v2; EVar 6; EInt 4]) (
     SSeq (SCall None f_aes_encrypt [EVar 7; EVar v2; EInt 4; EInt nr]) (
     SSeq (SAlloc v3 (EInt 16)) (
     SSeq (SCall None f_store_state [EVar v3; EVar v2; EInt 4])
     (SCopy (EVar 3) (EVar v3) (EVar 5)))))))
    SSkip)
  (SReturn (EInt 0)))).

Section Arm.
Context (lam : N) (fi fe : positive).
Let c := prg_cipher lam.
Let R := aes_of lam.
Definition arm_ok (v1 v2 v3 : positive) : Prop := forall m0 m e kb ko key ib iv rb ob oo n,
  cipher_funs c fi fe -> holds m kb ko key -> lenN key = (4 * c_kw c)%N -> bytes_ok key -> holds m ib 0 iv -> lenN iv = 16%N -> bytes_ok iv ->
  inb m rb 0 480 -> inb m0 ob oo n -> 0 <= n < 2 ^ 64 -> rconst m -> frame m0 m nothing -> (mnext m0 <= ib)%positive -> (mnext m0 <= rb)%positive -> rb <> ib -> rb <> kb -> rb <> 12%positive ->
  has e [(1%positive, VPtr kb ko); (3%positive, VPtr ob oo); (5%positive, VInt n); (6%positive, VPtr ib 0); (7%positive, VPtr rb 0)] ->
  wp code (prg_arm fi (ofN (c_nr c)) v1 v2 v3) e m (fun o _ m' => o = OReturn (VInt 0) /\ frame m0 m' (at_ ob oo n) /\ holds m' ob oo (stream R key iv (Z.to_N n))).

Lemma R_rij : R = rij c.
Proof. exact (proj2 (ciphers_ok c R (prg_cipher_in lam))). Qed.
Lemma bw4 : c_bw c = 4%N.
Proof. exact (prg_cipher_bw lam). Qed.
Lemma aes_sizes : cipher_ok c -> sizes_ok R.
Proof. intros CK. rewrite R_rij. split; [exact (ck_bw c CK)|exact (ck_nr c CK)]. Qed.

(** encryption of the counter in a new block *)
Lemma wp_block v m nb ib iv rb key s e (Q : outcome -> env -> mem -> Prop) : cipher_ok c -> inb m nb 0 32 -> holds m ib 0 iv -> lenN iv = 16%N -> bytes_ok iv -> keyed m rb 0 c key ->
  nb <> ib -> nb <> rb -> lookup e v = VPtr nb 0 -> lookup e 6%positive = VPtr ib 0 -> lookup e 7%positive = VPtr rb 0 ->
  (forall m', frame m m' (at_ nb 0 16) -> ast m' nb 0 (Nb R) (enc_state R (KeyExpansion R key) (loaded iv)) -> wp code s e m' Q) ->
  wp code (SSeq (SCall None f_load_state [EVar v; EVar 6; EInt 4]) (SSeq (SCall None f_aes_encrypt [EVar 7; EVar v; EInt 4; EInt (ofN (c_nr c))]) s)) e m Q.
Proof.
  intros CK I H L B K DI DR E1 E6 E7 W. assert (B4 := bw4). assert (RR := R_rij).
  seq. eapply wp_call; [evs|]. eapply calls_weak; [apply (ref_load_state m nb 0 ib 0 4%N iv); [inb_in|exact H|exact B|exact L|lia|exact DI]|].
  intros v1 m1 [F1 A1]. cbn [set]. change (4 * ofN 4) with 16 in F1.
  assert (K1 : keyed m1 rb 0 c key) by (eapply ark_frame; [exact K|exact F1|intros q [X _]; congruence]).
  seq. eapply wp_call; [evs|]. replace 4 with (ofN (Nb R)) by (rewrite RR; cbn [Nb]; lia). replace (ofN (c_nr c)) with (ofN (Nr R)) by (rewrite RR; reflexivity).
  eapply calls_weak; [apply (ref_aes_encrypt R (KeyExpansion R key) m1 nb 0 rb 0 (loaded iv)); [exact (aes_sizes CK)| | |exact DR]|].
  - replace (Nb R) with 4%N by (rewrite RR; cbn [Nb]; lia). exact A1.
  - rewrite RR. exact K1.
  - intros v2 m2 (z & _ & _ & F2 & A2). cbn [set]. apply W; [|exact A2].
    replace (4 * ofN (Nb R)) with 16 in F2 by (rewrite RR; cbn [Nb]; lia). fr.
Qed.

Definition blocks (key iv : bytes) (j : N) : bytes := concat (tab j (ctr_block R key iv)).
Lemma blocks_len key iv j : lenN (blocks key iv j) = (16 * j)%N.
Proof. apply (concat_blocks_len _ 16). intros i. apply ctr_block_len. Qed.
Lemma blocks_succ key iv j : blocks key iv (j + 1) = blocks key iv j ++ ctr_block R key iv j.
Proof. unfold blocks. rewrite tab_succ, concat_app. cbn [concat]. rewrite app_nil_r. reflexivity. Qed.
Lemma stream_blocks key iv j r : (r < 16)%N -> stream R key iv (16 * j + r) = blocks key iv j ++ takeN r (ctr_block R key iv j).
Proof.
  intros L. unfold stream. change (concat (tab ?k (ctr_block R key iv))) with (blocks key iv k). destruct (N.eq_dec r 0) as [->|D].
  - replace ((16 * j + 0 + 15) / 16)%N with j by (apply (N.div_unique _ _ _ 15); lia).
    change (takeN 0 (ctr_block R key iv j)) with (@nil N). rewrite app_nil_r. apply takeN_all. rewrite blocks_len. lia.
  - replace ((16 * j + r + 15) / 16)%N with (j + 1)%N by (apply (N.div_unique _ _ _ (r - 1)); lia).
    rewrite blocks_succ, takeN_app_ge; rewrite blocks_len; [|lia]. do 2 f_equal. lia.
Qed.
Definition counter (iv : bytes) (j : N) : bytes := be_bytes 16 ((be_val iv + j) mod 2 ^ 128)%N.
Lemma counter_0 iv : lenN iv = 16%N -> bytes_ok iv -> counter iv 0 = iv.
Proof.
  intros L B. unfold counter. rewrite N.add_0_r. assert (X := be_val_bound iv B). rewrite L in X.
  rewrite N.mod_small by exact X. transitivity (be_bytes (length iv) (be_val iv)); [|apply be_bytes_be_val, B].
  f_equal. unfold lenN in L. lia.
Qed.
Lemma counter_next iv j : be_bytes 16 ((be_val (counter iv j) + 1) mod 2 ^ 128)%N = counter iv (j + 1).
Proof.
  unfold counter. rewrite be_val_be_bytes. change (256 ^ N.of_nat 16)%N with (2 ^ 128)%N. f_equal.
  rewrite N.mod_mod by discriminate. rewrite N.add_mod_idemp_l by discriminate. f_equal. lia.
Qed.
Lemma enc_block key iv j : AesSpec.store R (enc_state R (KeyExpansion R key) (loaded (counter iv j))) = ctr_block R key iv j.
Proof. reflexivity. Qed.
Definition inv (m0 : mem) ib rb ob oo n key iv (k : nat) (e : env) (m' : mem) : Prop :=
  exists j, (j = Z.to_N n / 16 - N.of_nat k)%N /\ (16 * (j + N.of_nat k) <= Z.to_N n)%N /\
    has e [(3%positive, VPtr ob (oo + ofN (16 * j))); (5%positive, VInt (n - ofN (16 * j))); (6%positive, VPtr ib 0); (7%positive, VPtr rb 0)] /\
    frame m0 m' (at_ ob oo n) /\ (ib < mnext m')%positive /\ (rb < mnext m')%positive /\
    keyed m' rb 0 c key /\ holds m' ib 0 (counter iv j) /\ holds m' ob oo (blocks key iv j).
End Arm.
Lemma counter_len iv j : lenN (counter iv j) = 16%N.
Proof. apply lenN_be_bytes. Qed.
Lemma counter_bytes iv j : bytes_ok (counter iv j).
Proof. apply be_bytes_ok. Qed.

(** the numbers of the variables play no role *)
Definition other (x v : positive) : Prop := Pos.eqb x v = false.
Definition apart (l : list positive) (v : positive) : Prop := Forall (fun x => other x v) l.
Ltac look ::= repeat (rewrite lookup_add; rewrite ?Pos.eqb_refl; repeat match goal with E : other ?x ?v |- _ => rewrite (E : Pos.eqb x v = false) end; cbn [Pos.eqb]); first [eassumption | reflexivity].
Ltac lookz ::= repeat (rewrite lookup_add; rewrite ?Pos.eqb_refl; repeat match goal with E : other ?x ?v |- _ => rewrite (E : Pos.eqb x v = false) end; cbn [Pos.eqb]); first [eassumption | reflexivity | f_equal; lia].
Lemma prg_arm_ok lam fi fe a1 a2 a3 : In lam [128; 192; 256]%N -> apart [3; 5; 6; 7]%positive a1 -> apart [3; 5; 6; 7]%positive a2 -> apart [3; 5; 6; 7; a2]%positive a3 -> arm_ok lam fi fe a1 a2 a3.
Proof.
  intros HL P1 P2 P3.
  repeat match goal with H : apart _ _ |- _ => unfold apart in H | H : Forall _ (_ :: _) |- _ => let K := fresh "E" in inversion_clear H as [|? ? K ?]; rename K into K | H : Forall _ [] |- _ => clear H end.
  intros m0 m e kb ko key ib iv rb ob oo n CF HK LK BK HI LI BI IR IO NN RC F0 NI NR DRI DRK D12 HE; unhas; unfold prg_arm;
  assert (CK := proj1 CF); assert (PO := proj1 (proj2 IO)); assert (LO := proj1 IO);
  seq; eapply wp_call; [evs|]; eapply calls_weak; [eapply (ref_init _ _ _ m rb 0 kb ko key CF HK LK BK IR DRK D12 RC)|];
  intros v1 m1 (z & -> & _ & F1 & K1); cbn [set];
  assert (HI1 : holds m1 ib 0 iv) by (eapply holds_frame; [exact HI|exact F1|intros q _ [X _]; congruence]);
  assert (F01 : frame m0 m1 nothing) by (eapply frame_comp; [exact F0|exact F1|intros b q X _ [Y _]; lia]);
  assert (NB : 4 * ofN (Nb (aes_of lam)) = 16) by (rewrite aes_of_Nb; reflexivity);
  seq; eapply (wp_loop code _ _ _ (inv lam m0 ib rb ob oo n key iv)) with (n := N.to_nat (Z.to_N n / 16));
  [ intros k e' m' (j & EJ & LJ & HE & F & XI & XR & KK & HC & HB); unhas; split;
    [ eexists; split; [ev|]; simp; rewrite truth_b; lia|];
    seq; eapply wp_alloc; [ev|]; set (nb := mnext m'); assert (G1 := frame_fresh m' 32 (PositiveMap.empty value) nothing);
    assert (J1 : inb (fresh m' 32 (PositiveMap.empty value)) nb 0 32) by (apply inb_fresh; lia);
    generalize dependent (fresh m' 32 (PositiveMap.empty value)); intros m2 G1 J1;
    assert (ENB : nb = mnext m') by reflexivity; clearbody nb;
    assert (LM := proj1 F); assert (LM1 := proj1 J1);
    assert (DI : nb <> ib) by lia; assert (DR : nb <> rb) by lia; assert (DO : nb <> ob) by lia;
    assert (HC2 : holds m2 ib 0 (counter iv j)) by (eapply holds_frame; [exact HC|exact G1|intros q _ []]);
    assert (K2 : keyed m2 rb 0 (prg_cipher lam) key) by (eapply ark_frame; [exact KK|exact G1|intros q []]);
    eapply (wp_block lam _ m2 nb ib _ rb key); [exact CK|exact J1|exact HC2|apply counter_len|apply counter_bytes|exact K2|exact DI|exact DR|look|look|look|];
    intros m3 F3 A3;
    seq; eapply wp_call; [evs|];
    replace (VInt 4) with (VInt (ofN (Nb (aes_of lam)))) by (rewrite aes_of_Nb; reflexivity);
    eapply calls_weak; [apply (ref_store_state (aes_of lam) m3 ob (oo + ofN (16 * j)) nb 0 _ A3); [rewrite NB; inb_in|rewrite aes_of_Nb; lia|congruence]|];
    rewrite NB; intros v4 m4 [F4 HX4]; cbn [set]; rewrite enc_block in HX4;
    assert (HC4 : holds m4 ib 0 (counter iv j)) by (eapply (holds_frame m3); [eapply (holds_frame m2); [exact HC2|exact F3|intros q _ [X _]; congruence]|exact F4|intros q _ [X _]; lia]);
    eapply wp_call; [evs|]; eapply calls_weak; [apply (ref_aes_increment_iv m4 ib 0 _ HC4 (counter_len iv j) (counter_bytes iv j))|];
    intros v5 m5 [F5 HX5]; rewrite counter_next in HX5; cbn [set];
    seq; eapply wp_set; [ev|]; simp; eapply wp_set; [ev|]; simp; rewrite wrap_u64 by lia; split; [reflexivity|];
    exists (j + 1)%N; split; [lia|]; split; [lia|]; split; [hasz|]; split; [fr|];
    assert (M3 := proj1 F3); assert (M4 := proj1 F4); assert (M5 := proj1 F5); assert (M2 := proj1 G1); split; [lia|]; split; [lia|];
    split; [|split; [exact HX5|]];
    [ repeat (eapply ark_frame; [|eassumption|intros q [X _]; first [congruence|lia]]); exact K2
    | rewrite blocks_succ; apply holds_app; rewrite ?blocks_len;
      [ repeat (eapply holds_frame; [|eassumption|intros q; rewrite blocks_len; unfold at_, nothing; lia]); exact HB
      | eapply holds_frame; [exact HX4|exact F5|intros q _ [X _]; lia]]]
  | intros e' m' (j & EJ & LJ & HE & F & XI & XR & KK & HC & HB); unhas; split;
    [ eexists; split; [ev|]; simp; rewrite truth_b; lia|];
    set (r := n - ofN (16 * j)) in *; assert (Lr : 0 <= r < 16) by lia;
    replace (Z.to_N n) with (16 * j + Z.to_N r)%N by lia; rewrite stream_blocks by lia;
    seq; eapply wp_if; [ev|]; unfold truth; cbn [int_of]; destruct (Z.eqb_spec r 0) as [Er|Er]; cbn [negb];
    [ apply wp_skip; eapply wp_return; [ev|]; split; [reflexivity|]; split; [exact F|];
      rewrite Er; change (takeN (Z.to_N 0) ?l) with (@nil N); rewrite app_nil_r; exact HB
    | seq; eapply wp_alloc; [ev|]; set (nb := mnext m'); assert (G1 := frame_fresh m' 32 (PositiveMap.empty value) nothing);
      assert (J1 : inb (fresh m' 32 (PositiveMap.empty value)) nb 0 32) by (apply inb_fresh; lia);
      generalize dependent (fresh m' 32 (PositiveMap.empty value)); intros m2 G1 J1;
      assert (ENB : nb = mnext m') by reflexivity; clearbody nb;
      assert (LM := proj1 F); assert (LM1 := proj1 J1);
      assert (DI : nb <> ib) by lia; assert (DR : nb <> rb) by lia; assert (DO : nb <> ob) by lia;
      assert (HC2 : holds m2 ib 0 (counter iv j)) by (eapply holds_frame; [exact HC|exact G1|intros q _ []]);
      assert (K2 : keyed m2 rb 0 (prg_cipher lam) key) by (eapply ark_frame; [exact KK|exact G1|intros q []]);
      eapply (wp_block lam _ m2 nb ib _ rb key); [exact CK|exact J1|exact HC2|apply counter_len|apply counter_bytes|exact K2|exact DI|exact DR|look|look|look|];
      intros m3 F3 A3;
      seq; eapply wp_alloc; [ev|]; set (tb := mnext m3); assert (G2 := frame_fresh m3 16 (PositiveMap.empty value) nothing);
      assert (J2 : inb (fresh m3 16 (PositiveMap.empty value)) tb 0 16) by (apply inb_fresh; lia);
      generalize dependent (fresh m3 16 (PositiveMap.empty value)); intros m4 G2 J2;
      assert (ETB : tb = mnext m3) by reflexivity; clearbody tb; assert (LM3 := proj1 F3); assert (LM2 := proj1 G1);
      assert (A4 : ast m4 nb 0 (Nb (aes_of lam)) (enc_state (aes_of lam) (KeyExpansion (aes_of lam) key) (loaded (counter iv j)))) by (eapply ast_frame; [exact A3|exact G2|intros q _ []]);
      seq; eapply wp_call; [evs|];
      replace (VInt 4) with (VInt (ofN (Nb (aes_of lam)))) by (rewrite aes_of_Nb; reflexivity);
    eapply calls_weak; [apply (ref_store_state (aes_of lam) m4 tb 0 nb 0 _ A4); [rewrite NB; inb_in|rewrite aes_of_Nb; lia|lia]|];
      rewrite NB; intros v5 m5 [F5 HX5]; cbn [set]; rewrite enc_block in HX5;
      assert (HT : holds m5 tb 0 (takeN (Z.to_N r) (ctr_block (aes_of lam) key iv j))) by (exact (holds_part m5 tb 0 _ 0 (Z.to_N r) HX5 ltac:(rewrite ctr_block_len; lia)));
      assert (LT : lenN (takeN (Z.to_N r) (ctr_block (aes_of lam) key iv j)) = Z.to_N r) by (rewrite lenN_takeN, ctr_block_len; lia);
      eapply wp_copy1; [ev|ev|ev|inb_in|inb_in|];
      eapply wp_return; [ev|]; split; [reflexivity|];
      assert (IT : inb m5 ob (oo + ofN (16 * j)) r) by inb_in;
      assert (FC := frame_copy_at m5 ob (oo + ofN (16 * j)) tb 0 r IT);
      assert (HX : holds (copy m5 ob (oo + ofN (16 * j)) tb 0 r) ob (oo + ofN (16 * j)) (takeN (Z.to_N r) (ctr_block (aes_of lam) key iv j)))
        by (replace r with (ofN (lenN (takeN (Z.to_N r) (ctr_block (aes_of lam) key iv j)))) at 1 by lia; apply holds_copy; [exact HT|rewrite LT, Z2N.id by lia; exact IT]);
      generalize dependent (copy m5 ob (oo + ofN (16 * j)) tb 0 r); intros m6 FC HX; split; [fr|];
      apply holds_app; rewrite ?blocks_len; [|exact HX];
      repeat (eapply holds_frame; [|eassumption|intros q; rewrite blocks_len; unfold at_, nothing; lia]); exact HB ]
  | exists 0%N; split; [lia|]; split; [lia|]; split; [cbn [has]; splits; [etransitivity; [eassumption|f_equal; lia]..|exact I]|]; split; [fr|]; assert (M1 := proj1 F1);
    split; [destruct (proj1 HI) as [X _]; lia|]; split; [destruct IR as [X _]; lia|]; split; [exact K1|];
    rewrite counter_0 by assumption; split; [exact HI1|]; split; [change (lenN (blocks lam key iv 0)) with 0%N; inb_in|intros i X; change (i < 0)%N in X; lia] ].
Qed.
Ltac look ::= repeat (rewrite lookup_add; cbn [Pos.eqb]); first [eassumption | reflexivity].
Ltac lookz ::= repeat (rewrite lookup_add; cbn [Pos.eqb]); first [eassumption | reflexivity | f_equal; lia].

Lemma ref_prg lam m kb ko key ib io iv ob oo n : In lam [128; 192; 256]%N -> holds m kb ko key -> lenN key = (lam / 8)%N -> bytes_ok key ->
  holds m ib io iv -> lenN iv = 16%N -> bytes_ok iv -> inb m ob oo n -> 0 <= n < 2 ^ 64 -> rconst m ->
  calls code f_prg [VPtr kb ko; VPtr ib io; VPtr ob oo; VInt (ofN lam); VInt n] m (fun v m' => v = VInt 0 /\ frame m m' (at_ ob oo n) /\
    holds m' ob oo (stream (aes_of lam) key iv (Z.to_N n))).
Proof.
  intros HL HK LK BK HI LI BI IO NN RC. start code_prg. assert (PO := proj1 (proj2 (proj1 HI))).
  seq. eapply wp_alloc; [ev|]. set (b1 := mnext m). assert (G1 := frame_fresh m 16 (PositiveMap.empty value) nothing).
  assert (J1 : inb (fresh m 16 (PositiveMap.empty value)) b1 0 16) by (apply inb_fresh; lia).
  assert (X1 : mnext (fresh m 16 (PositiveMap.empty value)) = Pos.succ b1) by reflexivity.
  generalize dependent (fresh m 16 (PositiveMap.empty value)). intros m1 G1 J1 X1. assert (EB : b1 = mnext m) by reflexivity. clearbody b1.
  assert (HK1 : holds m1 kb ko key) by (eapply holds_frame; [exact HK|exact G1|intros q _ []]).
  assert (HI1 : holds m1 ib io iv) by (eapply holds_frame; [exact HI|exact G1|intros q _ []]).
  assert (RC1 : rconst m1) by (eapply rconst_frame; [exact RC|exact G1|intros q []]).
  assert (VK := proj1 (proj1 HK)). assert (V12 := proj1 (proj1 RC)).
  assert (IC : inb m1 ib io 16) by inb_in.
  seq. eapply wp_copy1; [ev|ev|ev|exact J1|exact IC|].
  assert (F2 := frame_copy_at m1 b1 0 ib io 16 J1). assert (H2 : holds (copy m1 b1 0 ib io 16) b1 0 iv).
  { replace 16 with (ofN (lenN iv)) by lia. apply holds_copy; [exact HI1|inb_in]. }
  assert (X2 : mnext (copy m1 b1 0 ib io 16) = mnext m1) by apply next_copy.
  generalize dependent (copy m1 b1 0 ib io 16). intros m2 F2 H2 X2.
  assert (HK2 : holds m2 kb ko key) by (eapply holds_frame; [exact HK1|exact F2|intros q _ [Y _]; lia]).
  assert (RC2 : rconst m2) by (eapply rconst_frame; [exact RC1|exact F2|intros q [Y _]; lia]).
  seq. eapply wp_alloc; [ev|]. set (b2 := mnext m2). assert (G3 := frame_fresh m2 480 (PositiveMap.empty value) nothing).
  assert (J3 : inb (fresh m2 480 (PositiveMap.empty value)) b2 0 480) by (apply inb_fresh; lia).
  generalize dependent (fresh m2 480 (PositiveMap.empty value)). intros m3 G3 J3. assert (EB2 : b2 = mnext m2) by reflexivity. clearbody b2.
  assert (HK3 : holds m3 kb ko key) by (eapply holds_frame; [exact HK2|exact G3|intros q _ []]).
  assert (HI3 : holds m3 b1 0 iv) by (eapply holds_frame; [exact H2|exact G3|intros q _ []]).
  assert (RC3 : rconst m3) by (eapply rconst_frame; [exact RC2|exact G3|intros q []]).
  assert (F3 : frame m m3 nothing) by fr.
  seq. eapply wp_set; [ev|]. eapply wp_if; [ev|]. simp. rewrite truth_b.
  assert (ARM : forall fi fe a1 a2 a3, apart [3; 5; 6; 7]%positive a1 -> apart [3; 5; 6; 7]%positive a2 -> apart [3; 5; 6; 7; a2]%positive a3 ->
    cipher_funs (prg_cipher lam) fi fe -> forall e, has e [(1%positive, VPtr kb ko); (3%positive, VPtr ob oo); (5%positive, VInt n); (6%positive, VPtr b1 0); (7%positive, VPtr b2 0)] ->
    wp code (prg_arm fi (ofN (c_nr (prg_cipher lam))) a1 a2 a3) e m3 (fun o _ m' => o = OReturn (VInt 0) /\ frame m m' (at_ ob oo n) /\ holds m' ob oo (stream (aes_of lam) key iv (Z.to_N n)))).
  { intros fi fe a1 a2 a3 P1 P2 P3 CF e HE. eapply prg_arm_ok; try eassumption; try lia.
    destruct HL as [<-|[<-|[<-|[]]]]; exact LK. }
  eapply (wp_weak code _ _ _ (fun o _ m' => o = OReturn (VInt 0) /\ frame m m' (at_ ob oo n) /\ holds m' ob oo (stream (aes_of lam) key iv (Z.to_N n)))).
  2: { intros o e0 m' (-> & Y). split; [reflexivity|exact Y]. }
  assert (AP : forall l v, forallb (fun x => negb (Pos.eqb x v)) l = true -> apart l v).
  { intros l v T. rewrite forallb_forall in T. apply Forall_forall. intros x Hx. unfold other. apply negb_true_iff, T, Hx. }
  destruct HL as [<-|[<-|[<-|[]]]].
  - change (ofN 128 =? 256) with false. cbv iota. eapply wp_if; [ev|]. simp. rewrite truth_b. change (ofN 128 =? 192) with false. cbv iota.
    apply (ARM f_aes128_init_round_keys f_aes128_encrypt_block 22%positive 24%positive 26%positive); [apply AP; reflexivity..|exact funs_aes128|hass].
  - change (ofN 192 =? 256) with false. cbv iota. eapply wp_if; [ev|]. simp. rewrite truth_b. change (ofN 192 =? 192) with true. cbv iota.
    apply (ARM f_aes192_init_round_keys f_aes192_encrypt_block 16%positive 18%positive 20%positive); [apply AP; reflexivity..|exact funs_aes192|hass].
  - change (ofN 256 =? 256) with true. cbv iota.
    apply (ARM f_aes256_init_round_keys f_aes256_encrypt_block 10%positive 12%positive 14%positive); [apply AP; reflexivity..|exact funs_aes256|hass].
Qed.
