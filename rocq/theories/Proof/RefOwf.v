(** The translated block ciphers and one-way functions. *)
From Coq Require Import ZArith NArith List Bool FMapPositive Lia ZifyBool ZifyNat ZifyN.
From Verif Require Import Spec.AesSpec Model.Base Model.Aes Proof.BaseProof Proof.AesProof.
From Verif Require Import Model.CtLang Model.CtNames Model.CtFields Model.CtAes Model.CtFaest Model.CtProgram Proof.RefLogic Proof.RefTac Proof.RefMem Proof.RefBytes Proof.RefAes Proof.RefCipher Proof.RefKeys.
Import ListNotations.
Local Open Scope Z_scope.
Arguments wrap : simpl never.

Notation rij c := (mkRijndael (c_kw c) (c_bw c) (c_nr c)).

Definition enc_fun (bw nr : Z) : func := Func [1%positive; 2%positive; 3%positive] (
  SSeq (SAlloc 4 (EInt 32)) (
  SSeq (SCall None f_load_state [EVar 4; EVar 2; EInt bw]) (
  SSeq (SCall (Some 5%positive) f_aes_encrypt [EVar 1; EVar 4; EInt bw; EInt nr]) (
  SSeq (SSet 6 (EVar 5)) (
  SSeq (SCall None f_store_state [EVar 3; EVar 4; EInt bw])
  (SReturn (EVar 6))))))).
Definition init_fun (kw bw nr : Z) : func := Func [1%positive; 2%positive] (
  SSeq (SCall (Some 3%positive) f_expand_key [EVar 1; EVar 2; EInt kw; EInt bw; EInt nr]) (SReturn (EVar 3))).
Definition code_enc f bw nr : Prop := PositiveMap.find f code = Some (enc_fun bw nr).
Definition code_init f kw bw nr : Prop := PositiveMap.find f code = Some (init_fun kw bw nr).

(** The function which expands the key of a cipher, and the one which encrypts a block. *)
Definition cipher_funs (c : cipher) (fi fe : positive) : Prop :=
  cipher_ok c /\ code_init fi (ofN (c_kw c)) (ofN (c_bw c)) (ofN (c_nr c)) /\ code_enc fe (ofN (c_bw c)) (ofN (c_nr c)).
Ltac cfuns := split; [constructor; cbv; intuition congruence|split; vm_compute; reflexivity].
Lemma funs_aes128 : cipher_funs aes128 f_aes128_init_round_keys f_aes128_encrypt_block. Proof. cfuns. Qed.
Lemma funs_aes192 : cipher_funs aes192 f_aes192_init_round_keys f_aes192_encrypt_block. Proof. cfuns. Qed.
Lemma funs_aes256 : cipher_funs aes256 f_aes256_init_round_keys f_aes256_encrypt_block. Proof. cfuns. Qed.
Lemma funs_rijndael192 : cipher_funs rijndael192 f_rijndael192_init_round_keys f_rijndael192_encrypt_block. Proof. cfuns. Qed.
Lemma funs_rijndael256 : cipher_funs rijndael256 f_rijndael256_init_round_keys f_rijndael256_encrypt_block. Proof. cfuns. Qed.

(** Expanded keys in memory. *)
Definition keyed (m : mem) (b : positive) (o : Z) (c : cipher) (key : bytes) : Prop := ark m b o (c_bw c) (wd c key) (total c).

Lemma ref_init c fi fe m b o kb ko key : cipher_funs c fi fe -> holds m kb ko key -> lenN key = (4 * c_kw c)%N -> bytes_ok key ->
  inb m b o 480 -> b <> kb -> b <> 12%positive -> rconst m ->
  calls code fi [VPtr b o; VPtr kb ko] m
    (fun v m' => exists z, v = VInt (b2z z) /\ (z = true <-> zero_in_key_expansion (rij c) key) /\ frame m m' (at_ b o 480) /\ keyed m' b o c key).
Proof.
  intros (CK & CI & _) H L B I D D12 RC. unfold code_init in CI. apply (calls_intro code _ _ _ _ _ CI). unfold init_fun. cbn [fbody fparams bind_params].
  seq. eapply wp_call; [evs|]. eapply calls_weak; [apply (ref_expand_key c CK key L B m b o kb ko H I D D12 RC)|].
  intros v m' (z & -> & Z & F & A). cbn [set]. eapply wp_return; [ev|]. exists z. split; [reflexivity|]. split; [|auto].
  rewrite Z. reflexivity.
Qed.

Lemma ref_enc c fi fe m kb ko pb po ob oo key pt : cipher_funs c fi fe -> keyed m kb ko c key -> holds m pb po pt -> lenN pt = (4 * c_bw c)%N -> bytes_ok pt ->
  inb m ob oo (4 * ofN (c_bw c)) ->
  calls code fe [VPtr kb ko; VPtr pb po; VPtr ob oo] m
    (fun v m' => exists z, v = VInt (b2z z) /\ (z = true <-> zero_in_encryption (rij c) key pt) /\ frame m m' (at_ ob oo (4 * ofN (c_bw c))) /\ holds m' ob oo (Cipher (rij c) key pt)).
Proof.
  intros (CK & _ & CE) K H L B I. unfold code_enc in CE. apply (calls_intro code _ _ _ _ _ CE). unfold enc_fun. cbn [fbody fparams bind_params].
  assert (BW := bw_range c CK). assert (NR := ck_nr c CK).
  seq. eapply wp_alloc; [ev|]. set (nb := mnext m). assert (F1 := frame_fresh m 32 (PositiveMap.empty value) nothing).
  assert (I1 : inb (fresh m 32 (PositiveMap.empty value)) nb 0 (4 * ofN (c_bw c))) by (apply inb_fresh; lia).
  generalize dependent (fresh m 32 (PositiveMap.empty value)). intros m1 F1 I1.
  assert (H1 : holds m1 pb po pt) by (eapply holds_frame; [exact H|exact F1|intros q _ []]).
  assert (K1 := ark_frame _ _ _ _ _ _ _ _ K F1 (fun q X => X)).
  assert (DP : nb <> pb) by (intros <-; destruct (proj1 H) as [X _]; subst nb; lia).
  assert (DK : nb <> kb) by (intros <-; destruct (proj1 K) as [X _]; subst nb; lia).
  assert (DO : nb <> ob) by (intros <-; destruct I as [X _]; subst nb; lia).
  assert (ENB : nb = mnext m) by reflexivity. clearbody nb.
  seq. eapply wp_call; [evs|]. eapply calls_weak; [apply (ref_load_state m1 nb 0 pb po _ _ I1 H1 B L BW DP)|]. intros v2 m2 [F2 A2]. cbn [set].
  assert (NK : forall q, ~ at_ nb 0 (4 * ofN (c_bw c)) kb q) by (intros q [X _]; congruence).
  assert (K2 := ark_frame _ _ _ _ _ _ _ _ K1 F2 NK).
  seq. eapply wp_call; [evs|].
  eapply calls_weak; [apply (ref_aes_encrypt (rij c) (KeyExpansion (rij c) key) m2 nb 0 kb ko (loaded pt))|]; [split; [exact (ck_bw c CK)|exact NR]|exact A2|exact K2|exact DK|].
  intros v3 m3 (z & -> & Z & F3 & A3). cbn [set]. cbn [Nb Nr] in *.
  seq. eapply wp_set; [ev|]. seq. eapply wp_call; [evs|].
  eapply calls_weak; [apply (ref_store_state (rij c) m3 ob oo nb 0 _ A3)|]; [|exact BW|congruence|].
  { cbn [Nb]. inb_in. }
  intros v4 m4 [F4 H4]. cbn [set]. cbn [Nb Nr] in F4. eapply wp_return; [ev|]. exists z. split; [reflexivity|]. split; [|split; [fr|exact H4]].
  rewrite Z. unfold zst, zero_in_encryption. cbn [Nb Nr]. split.
  - intros (n & Hn & r & j & X & Y & W). exists n, r, j. auto.
  - intros (n & r & j & Hn & X & Y & W). exists n. split; [exact Hn|]. exists r, j. auto.
Qed.

(** Parts of arrays. *)
Lemma holds_app m b o l1 l2 : holds m b o l1 -> holds m b (o + ofN (lenN l1)) l2 -> holds m b o (l1 ++ l2).
Proof.
  intros [I1 H1] [I2 H2]. split.
  - destruct I1 as (A & B & C & D), I2 as (A' & B' & C' & D'). rewrite lenN_app. split; [exact A|]. lia.
  - intros i Hi. rewrite lenN_app in Hi. destruct (N.lt_ge_cases i (lenN l1)) as [X|X].
    + rewrite nthN_app_l by exact X. apply H1, X.
    + rewrite nthN_app_r by exact X. rewrite <- H2 by lia. f_equal. lia.
Qed.
Lemma holds_part m b o l k n : holds m b o l -> (k + n <= lenN l)%N -> holds m b (o + ofN k) (firstn (N.to_nat n) (skipn (N.to_nat k) l)).
Proof.
  intros [I H] L. change (firstn (N.to_nat n) (skipn (N.to_nat k) l)) with (takeN n (dropN k l)).
  assert (E : lenN (takeN n (dropN k l)) = n) by (rewrite lenN_takeN, lenN_dropN; lia). split.
  - rewrite E. eapply inb_sub; [exact I|lia..].
  - rewrite E. intros i Hi. rewrite nthN_takeN by exact Hi. rewrite nthN_dropN. rewrite <- H by lia. f_equal. lia.
Qed.

(** ** One-way functions *)
Definition owf1_fun (fi fe : positive) : func := Func [1%positive; 2%positive; 3%positive] (
  SSeq (SAlloc 4 (EInt 480)) (
  SSeq (SCall (Some 5%positive) fi [EVar 4; EVar 1]) (
  SSeq (SSet 6 (EVar 5)) (
  SSeq (SCall (Some 7%positive) fe [EVar 4; EVar 2; EVar 3]) (
  SSeq (SSet 6 (EBin OOr s32 (EVar 6) (EVar 7)))
  (SReturn (EBin ONe s32 (EBin OEq s32 (EVar 6) (EInt 0)) (EInt 0)))))))).
Definition owf2_fun (fi fe : positive) : func := Func [1%positive; 2%positive; 3%positive] (
  SSeq (SAlloc 4 (EInt 480)) (
  SSeq (SCall (Some 5%positive) fi [EVar 4; EVar 1]) (
  SSeq (SSet 6 (EVar 5)) (
  SSeq (SCall (Some 7%positive) fe [EVar 4; EVar 2; EVar 3]) (
  SSeq (SSet 6 (EBin OOr s32 (EVar 6) (EVar 7))) (
  SSeq (SCall (Some 8%positive) fe [EVar 4; EAt (EVar 2) 1 (EInt 16); EAt (EVar 3) 1 (EInt 16)]) (
  SSeq (SSet 6 (EBin OOr s32 (EVar 6) (EVar 8)))
  (SReturn (EBin ONe s32 (EBin OEq s32 (EVar 6) (EInt 0)) (EInt 0)))))))))).
Definition em_fun (fi fe : positive) (n : Z) : func := Func [1%positive; 2%positive; 3%positive] (
  SSeq (SAlloc 4 (EInt 480)) (
  SSeq (SCall None fi [EVar 4; EVar 2]) (
  SSeq (SCall (Some 6%positive) fe [EVar 4; EVar 1; EVar 3]) (
  SSeq (SSet 7 (EVar 6)) (
  SSeq (SSet 8 (EInt 0)) (
  SSeq (SLoop (EBin ONe s32 (EVar 8) (EInt n))
    (SSet 8 (EBin OAdd u32 (EVar 8) (EInt 1)))
    (SSeq (SSet 9 (EAt (EVar 3) 1 (EVar 8)))
    (SStore 1 (EVar 9) (EUn OCast u8 (EBin OXor s32 (ELoad 1 (EVar 9)) (ELoad 1 (EAt (EVar 1) 1 (EVar 8))))))))
  (SReturn (EBin ONe s32 (EBin OEq s32 (EVar 7) (EInt 0)) (EInt 0))))))))).

Lemma ret_zero b : bin ONe s32 (bin OEq s32 (b2z b) 0) 0 = b2z (negb b).
Proof. destruct b; reflexivity. Qed.

Record owf_args (m : mem) (kb : positive) (ko : Z) (ib : positive) (io : Z) (ob : positive) (oo : Z) (key inp : bytes) (n : Z) : Prop := {
  oa_key : holds m kb ko key; oa_inp : holds m ib io inp; oa_out : inb m ob oo n;
  oa_kbytes : bytes_ok key; oa_ibytes : bytes_ok inp;
  oa_ksep : sep ob oo n kb ko (ofN (lenN key)); oa_isep : sep ob oo n ib io (ofN (lenN inp)); oa_rc : rconst m }.

Section Owf.
Context (c : cipher) (fi fe f : positive) (CF : cipher_funs c fi fe).

(** the round keys of [key] are in a new block *)
Lemma ref_owf_keys m b kb ko key (Q : outcome -> env -> mem -> Prop) e x d s : b = mnext m -> holds m kb ko key -> lenN key = (4 * c_kw c)%N -> bytes_ok key -> rconst m ->
  (forall m1 z, frame m m1 nothing -> keyed m1 b 0 c key -> (b < mnext m1)%positive -> (z = true <-> zero_in_key_expansion (rij c) key) ->
     wp code s (set (PositiveMap.add 4%positive (VPtr b 0) e) d (VInt (b2z z))) m1 Q) ->
  lookup e x = VPtr kb ko -> x <> 4%positive ->
  wp code (SSeq (SAlloc 4 (EInt 480)) (SSeq (SCall d fi [EVar 4; EVar x]) s)) e m Q.
Proof.
  intros -> H L B RC K E NX. seq. eapply wp_alloc; [ev|]. assert (F1 := frame_fresh m 480 (PositiveMap.empty value) nothing).
  assert (I1 : inb (fresh m 480 (PositiveMap.empty value)) (mnext m) 0 480) by (apply inb_fresh; lia).
  generalize dependent (fresh m 480 (PositiveMap.empty value)). intros m1 F1 I1.
  assert (H1 : holds m1 kb ko key) by (eapply holds_frame; [exact H|exact F1|intros q _ []]).
  assert (R1 : rconst m1) by (eapply rconst_frame; [exact RC|exact F1|intros q []]).
  assert (DK : mnext m <> kb) by (intros X; destruct (proj1 H) as [Y _]; lia).
  assert (D12 : mnext m <> 12%positive) by (intros X; destruct (proj1 RC) as [Y _]; lia).
  seq. eapply wp_call.
  { eapply pes_cons; [ev|]. eapply pes_cons; [apply pe_var; rewrite lookup_add; destruct (Pos.eqb_spec x 4); [contradiction|exact E]|apply pes_nil]. }
  eapply calls_weak; [apply (ref_init c fi fe m1 (mnext m) 0 kb ko key CF H1 L B I1 DK D12 R1)|].
  intros v m2 (z & -> & Z & F2 & A2). apply K; [|exact A2| |exact Z].
  - eapply frame_comp; [exact F1|exact F2|]. intros b' o' X _ [Y _]. lia.
  - destruct F2 as [X _]. destruct I1 as [Y _]. lia.
Qed.

Lemma ref_owf1 m kb ko ib io ob oo key inp : PositiveMap.find f code = Some (owf1_fun fi fe) ->
  owf_args m kb ko ib io ob oo key inp (4 * ofN (c_bw c)) -> lenN key = (4 * c_kw c)%N -> lenN inp = (4 * c_bw c)%N ->
  calls code f [VPtr kb ko; VPtr ib io; VPtr ob oo] m (fun v m' => exists z, v = VInt (b2z z) /\
    (z = false <-> zero_in_key_expansion (rij c) key \/ zero_in_encryption (rij c) key inp) /\
    frame m m' (at_ ob oo (4 * ofN (c_bw c))) /\ holds m' ob oo (Cipher (rij c) key inp)).
Proof.
  intros CF1 [HK HI IO BK BI SK SI RC] LK LI. apply (calls_intro code _ _ _ _ _ CF1). unfold owf1_fun. cbn [fbody fparams bind_params].
  assert (BW := bw_range c (proj1 CF)).
  eapply (ref_owf_keys m (mnext m) kb ko key); [reflexivity|exact HK|exact LK|exact BK|exact RC| |look|discriminate].
  intros m1 z F1 K1 NX Z. cbn [set]. seq. eapply wp_set; [ev|].
  seq. eapply wp_call; [evs|]. eapply calls_weak; [apply (ref_enc c fi fe m1 (mnext m) 0 ib io ob oo key inp CF K1)|]; [eapply holds_frame; [exact HI|exact F1|intros q _ []]|exact LI|exact BI|inb_in|].
  intros v2 m2 (z2 & -> & Z2 & F2 & H2). cbn [set]. seq. eapply wp_set; [ev|]. simp. rewrite b2z_or.
  eapply wp_return; [ev|]. rewrite ret_zero. eexists. split; [reflexivity|]. split; [|split; [fr|exact H2]].
  rewrite negb_false_iff, orb_true_iff, Z, Z2. reflexivity.
Qed.

Lemma ref_owf2 m kb ko ib io ob oo key inp : PositiveMap.find f code = Some (owf2_fun fi fe) -> c_bw c = 4%N ->
  owf_args m kb ko ib io ob oo key inp 32 -> lenN key = (4 * c_kw c)%N -> lenN inp = 32%N ->
  let p k := firstn 16 (skipn k inp) in
  calls code f [VPtr kb ko; VPtr ib io; VPtr ob oo] m (fun v m' => exists z, v = VInt (b2z z) /\
    (z = false <-> (zero_in_key_expansion (rij c) key \/ zero_in_encryption (rij c) key (p 0%nat)) \/ zero_in_encryption (rij c) key (p 16%nat)) /\
    frame m m' (at_ ob oo 32) /\ holds m' ob oo (Cipher (rij c) key (p 0%nat) ++ Cipher (rij c) key (p 16%nat))).
Proof.
  intros CF1 B4 [HK HI IO BK BI SK SI RC] LK LI p. apply (calls_intro code _ _ _ _ _ CF1). unfold owf2_fun. cbn [fbody fparams bind_params].
  rewrite LI in SI. change (ofN 32) with 32 in SI.
  assert (HP0 := holds_part _ _ _ _ 0 16 HI ltac:(lia)). assert (HP1 := holds_part _ _ _ _ 16 16 HI ltac:(lia)).
  change (firstn (N.to_nat 16) (skipn (N.to_nat 0) inp)) with (p 0%nat) in HP0. change (firstn (N.to_nat 16) (skipn (N.to_nat 16) inp)) with (p 16%nat) in HP1.
  change (ofN 0) with 0 in HP0. rewrite Z.add_0_r in HP0. change (ofN 16) with 16 in HP1.
  assert (L0 : lenN (p 0%nat) = 16%N) by (unfold p, lenN in *; rewrite firstn_length, skipn_length; lia).
  assert (L1 : lenN (p 16%nat) = 16%N) by (unfold p, lenN in *; rewrite firstn_length, skipn_length; lia).
  assert (B0 : bytes_ok (p 0%nat)) by (apply (Forall_takeN _ 16), (Forall_dropN _ 0), BI).
  assert (B1 : bytes_ok (p 16%nat)) by (apply (Forall_takeN _ 16), (Forall_dropN _ 16), BI).
  assert (OK : ob <> mnext m) by (destruct IO as [X _]; intros ->; lia).
  assert (CL : forall q, lenN (Cipher (rij c) key q) = 16%N) by (intros q; unfold Cipher; rewrite store_len; cbn [Nb]; lia).
  clearbody p.
  eapply (ref_owf_keys m (mnext m) kb ko key); [reflexivity|exact HK|exact LK|exact BK|exact RC| |look|discriminate].
  intros m1 z F1 K1 NX Z. cbn [set]. seq. eapply wp_set; [ev|].
  seq. eapply wp_call; [evs|]. eapply calls_weak; [apply (ref_enc c fi fe m1 (mnext m) 0 ib io ob oo key (p 0%nat) CF K1)|]; [eapply holds_frame; [exact HP0|exact F1|intros q _ []]|lia|exact B0|rewrite B4; inb_in|].
  intros v2 m2 (z2 & -> & Z2 & F2 & H2). cbn [set]. seq. eapply wp_set; [ev|]. simp. rewrite b2z_or.
  rewrite B4 in F2. change (4 * ofN 4) with 16 in F2.
  assert (F12 : frame m m2 (at_ ob oo 16)) by fr.
  assert (K2 : keyed m2 (mnext m) 0 c key) by (eapply ark_frame; [exact K1|exact F2|intros q [X _]; congruence]).
  seq. eapply wp_call; [evs|]. rewrite Z.mul_1_l.
  eapply calls_weak; [apply (ref_enc c fi fe m2 (mnext m) 0 ib (io + 16) ob (oo + 16) key (p 16%nat) CF K2)|];
    [eapply holds_frame; [exact HP1|exact F12|rewrite L1; in_at]|lia|exact B1|rewrite B4; inb_in|].
  intros v3 m3 (z3 & -> & Z3 & F3 & H3). cbn [set]. seq. eapply wp_set; [ev|]. simp. rewrite b2z_or.
  rewrite B4 in F3. change (4 * ofN 4) with 16 in F3.
  eapply wp_return; [ev|]. rewrite ret_zero. eexists. split; [reflexivity|]. split; [|split; [fr|]].
  - rewrite negb_false_iff, !orb_true_iff, Z, Z2, Z3. reflexivity.
  - apply holds_app; [eapply holds_frame; [exact H2|exact F3|rewrite CL; in_at]|]. rewrite CL. exact H3.
Qed.

Lemma ref_em m kb ko ib io ob oo key inp : PositiveMap.find f code = Some (em_fun fi fe (4 * ofN (c_bw c))) ->
  owf_args m kb ko ib io ob oo key inp (4 * ofN (c_bw c)) -> lenN key = (4 * c_bw c)%N -> lenN inp = (4 * c_kw c)%N ->
  calls code f [VPtr kb ko; VPtr ib io; VPtr ob oo] m (fun v m' => exists z, v = VInt (b2z z) /\
    (z = false <-> zero_in_encryption (rij c) inp key) /\
    frame m m' (at_ ob oo (4 * ofN (c_bw c))) /\ holds m' ob oo (map (fun '(x, y) => N.lxor x y) (combine (Cipher (rij c) inp key) key))).
Proof.
  intros CF1 [HK HI IO BK BI SK SI RC] LK LI. apply (calls_intro code _ _ _ _ _ CF1). unfold em_fun. cbn [fbody fparams bind_params].
  assert (BW := bw_range c (proj1 CF)). rewrite LK in SK.
  eapply (ref_owf_keys m (mnext m) ib io inp); [reflexivity|exact HI|exact LI|exact BI|exact RC| |look|discriminate].
  intros m1 z F1 K1 NX Z. cbn [set].
  seq. eapply wp_call; [evs|]. eapply calls_weak; [apply (ref_enc c fi fe m1 (mnext m) 0 kb ko ob oo inp key CF K1)|]; [eapply holds_frame; [exact HK|exact F1|intros q _ []]|exact LK|exact BK|inb_in|].
  intros v2 m2 (z2 & -> & Z2 & F2 & H2). cbn [set]. seq. eapply wp_set; [ev|]. seq. eapply wp_set; [ev|].
  assert (F12 : frame m m2 (at_ ob oo (4 * ofN (c_bw c)))) by fr.
  assert (CL : lenN (Cipher (rij c) inp key) = (4 * c_bw c)%N) by (unfold Cipher; rewrite store_len; reflexivity).
  set (ct := Cipher (rij c) inp key) in *.
  assert (CB : forall i, 0 <= i < 4 * ofN (c_bw c) -> isbyte (ofN (nthN ct (Z.to_N i) 0%N))).
  { intros i Hi. assert (Y := Cipher_bytes c (proj1 CF) inp ltac:(lia) BI key BK). change (bytes_ok ct) in Y. assert (W := nthN_byte _ (Z.to_N i) Y). unfold byte_ok, isbyte in *. lia. }
  assert (PO := proj1 (proj2 IO)). assert (PK := proj1 (proj2 (proj1 HK))).
  seq. eapply (wp_for _ 8%positive 32 _ (fun i e m' => has e [(1%positive, VPtr kb ko); (3%positive, VPtr ob oo); (7%positive, VInt (b2z z2)); (8%positive, VInt i)] /\
     frame m m' (at_ ob oo (4 * ofN (c_bw c))) /\ (forall q, 0 <= q < i -> byte m' ob (oo + q) = ofN (N.lxor (nthN ct (Z.to_N q) 0%N) (nthN key (Z.to_N q) 0%N))) /\
     (forall q, i <= q < 4 * ofN (c_bw c) -> byte m' ob (oo + q) = ofN (nthN ct (Z.to_N q) 0%N))) _ 0 (4 * ofN (c_bw c))); [lia|lia|lia|..].
  - intros i e m' Li (E & F & X & Y). unhas. split; [assumption|]. split.
    { eexists. split; [ev|]. simp. rewrite truth_b. lia. }
    assert (HK' : holds m' kb ko key) by (eapply holds_frame; [exact HK|exact F|rewrite LK; in_at]).
    seq. eapply wp_set; [ev|]. assert (VK := holds_byte _ _ _ _ i HK' ltac:(lia)). assert (VO := Y i ltac:(lia)).
    assert (BX := CB i ltac:(lia)). assert (BY := nthN_byte _ (Z.to_N i) BK). unfold byte_ok, isbyte in *.
    assert (BZ := lxor_lt8 (nthN ct (Z.to_N i) 0%N) (nthN key (Z.to_N i) 0%N) ltac:(lia) BY).
    eapply wp_store1; [ev|ev|inb_in| |]; rewrite !Z.mul_1_l, VK, VO; simp; rewrite ofN_lxor, wrap_u8 by lia; [lia|].
    split; [look|]. split; [hass|]. split; [fr|]. split.
    + intros q Hq. destruct (Z.eq_dec q i) as [->|Dq]; [rd; reflexivity|]. rd. apply X. lia.
    + intros q Hq. rd. apply Y. lia.
  - intros e m' (E & F & X & Y). unhas. split.
    { eexists. split; [ev|]. simp. rewrite truth_b. lia. }
    eapply wp_return; [ev|]. rewrite ret_zero. eexists. split; [reflexivity|]. split; [rewrite negb_false_iff; exact Z2|]. split; [exact F|].
    assert (LZ : lenN (map (fun '(x, y) => N.lxor x y) (combine ct key)) = (4 * c_bw c)%N).
    { rewrite lenN_map. unfold lenN in *. rewrite combine_length. lia. }
    split; [rewrite LZ; inb_in|]. rewrite LZ. intros i Hi. rewrite X by lia. rewrite N2Z.id. f_equal.
    unfold nthN. symmetry. etransitivity; [exact (map_nth (fun '(x, y) => N.lxor x y) (combine ct key) (0%N, 0%N) (N.to_nat i))|]. rewrite combine_nth; [reflexivity|]. unfold lenN in *. lia.
  - split; [hass|]. split; [exact F12|]. split; [intros; lia|]. intros q Hq. rewrite (holds_byte _ _ _ _ _ H2) by lia. reflexivity.
Qed.
End Owf.
