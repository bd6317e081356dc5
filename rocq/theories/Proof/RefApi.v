(** The translated key functions of the API. *)
From Coq Require Import ZArith NArith List Bool FMapPositive Lia ZifyBool ZifyNat ZifyN.
From Verif Require Import Spec.AesSpec Model.Base Model.Aes Proof.BaseProof Proof.AesProof.
From Verif Require Import Spec.OwfSpec Spec.KeySpec.
From Verif Require Spec.UHashSpec Proof.WitnessProps Spec.RefSpec.
Notation attempt := RefSpec.attempt.
From Verif Require Import Model.CtLang Model.CtNames Model.CtFields Model.CtAes Model.CtFaest Model.CtApi Model.CtProgram Proof.RefLogic Proof.RefTac Proof.RefMem Proof.RefBytes Proof.RefAes Proof.RefCipher Proof.RefKeys Proof.RefOwf.
Import ListNotations.
Local Open Scope Z_scope.
Arguments wrap : simpl never.

Definition owf_fn (i : paramid) : positive :=
  match i with
  | FAEST_128S | FAEST_128F => f_owf_128
  | FAEST_192S | FAEST_192F => f_owf_192
  | FAEST_256S | FAEST_256F => f_owf_256
  | FAEST_EM_128S | FAEST_EM_128F => f_owf_em_128
  | FAEST_EM_192S | FAEST_EM_192F => f_owf_em_192
  | FAEST_EM_256S | FAEST_EM_256F => f_owf_em_256
  end.

Lemma ref_owf i m kb ko ib io ob oo key inp : owf_args m kb ko ib io ob oo key inp (ofN (owf_input_size i)) ->
  lenN key = owf_key_size i -> lenN inp = owf_input_size i ->
  calls code (owf_fn i) [VPtr kb ko; VPtr ib io; VPtr ob oo] m (fun v m' => exists z, v = VInt (b2z z) /\ (z = false <-> owf_zero i key inp) /\
    frame m m' (at_ ob oo (ofN (owf_input_size i))) /\ holds m' ob oo (owf_value i key inp)).
Proof.
  intros A LK LI.
  assert (B0 : forall n, lenN inp = N.of_nat n -> firstn n (skipn 0 inp) = inp) by (intros n L; cbn [skipn]; apply firstn_all2; unfold lenN in L; lia).
  destruct i; cbn [owf_fn];
    first [ eapply calls_weak; [apply (ref_owf1 aes128 _ _ f_owf_128 funs_aes128); [vm_compute; reflexivity|exact A|exact LK|exact LI]|];
            unfold owf_zero, owf_value, block; change (N.to_nat (4 * Nb AES128)) with 16%nat; change (N.to_nat (4 * Nb AES128 * 0)) with 0%nat; rewrite (B0 16%nat LI); auto
          | eapply calls_weak; [apply (ref_owf2 aes192 _ _ f_owf_192 funs_aes192); [vm_compute; reflexivity|reflexivity|exact A|exact LK|exact LI]|]; intros v m' X; exact X
          | eapply calls_weak; [apply (ref_owf2 aes256 _ _ f_owf_256 funs_aes256); [vm_compute; reflexivity|reflexivity|exact A|exact LK|exact LI]|]; intros v m' X; exact X
          | eapply calls_weak; [apply (ref_em aes128 _ _ f_owf_em_128 funs_aes128); [vm_compute; reflexivity|exact A|exact LK|exact LI]|]; intros v m' X; exact X
          | eapply calls_weak; [apply (ref_em rijndael192 _ _ f_owf_em_192 funs_rijndael192); [vm_compute; reflexivity|exact A|exact LK|exact LI]|]; intros v m' X; exact X
          | eapply calls_weak; [apply (ref_em rijndael256 _ _ f_owf_em_256 funs_rijndael256); [vm_compute; reflexivity|exact A|exact LK|exact LI]|]; intros v m' X; exact X ].
Qed.

(** ** The random source *)
Definition pos_at (m : mem) (p : Z) : Prop := inb m 3 0 8 /\ decode (bytesat m 3 0 8) = p.
Lemma bytesat_frame m m' (S : positive -> Z -> Prop) b : forall n o, frame m m' S -> inb m b o (Z.of_nat n) -> (forall q, o <= q < o + Z.of_nat n -> ~ S b q) -> bytesat m' b o n = bytesat m b o n.
Proof.
  induction n as [|n IH]; intros o F I N; [reflexivity|]. cbn [bytesat]. destruct I as (A & B & C & D). f_equal.
  - eapply byte_frame; [exact F|exact A|lia|apply N; lia].
  - apply IH; [exact F|split; [exact A|lia]|intros; apply N; lia].
Qed.
Lemma pos_frame m m' (S : positive -> Z -> Prop) p : pos_at m p -> frame m m' S -> (forall q, ~ S 3%positive q) -> pos_at m' p.
Proof. intros [I E] F N. split; [eapply inb_frame; eassumption|]. rewrite (bytesat_frame m m' S 3 8 0 F I); auto. Qed.
Lemma decode_encode : forall n v, 0 <= v < 256 ^ Z.of_nat n -> decode (encode n v) = v.
Proof.
  induction n as [|n IH]; intros v L; [cbn in *; lia|]. cbn [encode decode]. change 255 with (Z.ones 8). rewrite Z.land_ones by lia. rewrite Z.shiftr_div_pow2 by lia.
  rewrite IH; [|rewrite Nat2Z.inj_succ, Z.pow_succ_r in L by lia; change (2 ^ 8) with 256; split; [apply Z.div_pos; lia|apply Z.div_lt_upper_bound; lia]].
  change (2 ^ 8) with 256. rewrite Z.add_comm, <- Z.div_mod by lia. reflexivity.
Qed.
Lemma encode_length n : forall v, length (encode n v) = n.
Proof. induction n as [|n IH]; intros v; [reflexivity|]. cbn. rewrite IH. reflexivity. Qed.
Lemma bytesat_list m b l : forall o, (forall i, (i < length l)%nat -> byte m b (o + Z.of_nat i) = nth i l 0) -> bytesat m b o (length l) = l.
Proof.
  induction l as [|x l IH]; intros o H; [reflexivity|]. cbn [length bytesat]. f_equal; [specialize (H 0%nat); cbn in H; rewrite Z.add_0_r in H; apply H; lia|].
  apply IH. intros i Hi. specialize (H (S i)). cbn [nth length] in H. rewrite <- H by lia. f_equal. lia.
Qed.
Lemma bytesat_setb m b o l n : inb m b o (Z.of_nat (length l)) -> length l = n -> bytesat (setb m b o l) b o n = l.
Proof.
  intros I <-. apply bytesat_list. intros i Hi. assert (PO := proj1 (proj2 I)). rewrite byte_setb by (assumption || lia). rewrite Pos.eqb_refl.
  destruct (Z.leb_spec o (o + Z.of_nat i)); [|lia]. destruct (Z.ltb_spec (o + Z.of_nat i) (o + Z.of_nat (length l))); [|lia]. cbn [andb]. f_equal. lia.
Qed.

Lemma code_rand_bytes : PositiveMap.find f_rand_bytes code = Some c_rand_bytes. Proof. vm_compute. reflexivity. Qed.
Lemma ref_rand_bytes m b o p d : pos_at m p -> holds m 4 p d -> bytes_ok d -> inb m b o (ofN (lenN d)) -> b <> 3%positive -> b <> 4%positive -> 0 <= p -> p + ofN (lenN d) < 2 ^ 64 ->
  calls code f_rand_bytes [VPtr b o; VInt (ofN (lenN d))] m (fun _ m' =>
    frame m m' (fun b' q => at_ b o (ofN (lenN d)) b' q \/ b' = 3%positive) /\ holds m' b o d /\ pos_at m' (p + ofN (lenN d))).
Proof.
  intros PP H B I D3 D4 P0 PM. start code_rand_bytes. assert (PO := proj1 (proj2 I)). seq. eapply wp_set; [ev|]. seq.
  eapply (wp_for _ 3%positive 64 _ (fun i e m' => has e [(1%positive, VPtr b o); (2%positive, VInt (ofN (lenN d))); (3%positive, VInt i)] /\
     frame m m' (at_ b o (ofN (lenN d))) /\ forall q, 0 <= q < i -> byte m' b (o + q) = ofN (nthN d (Z.to_N q) 0%N)) _ 0 (ofN (lenN d))); [lia|lia|lia|..].
  - intros i e m' Li (E & F & X). unhas. split; [assumption|]. split.
    { eexists. split; [ev|]. simp. rewrite truth_b. lia. }
    assert (PP' : pos_at m' p) by (eapply pos_frame; [exact PP|exact F|intros q [Y _]; congruence]). destruct PP' as [I3 E3].
    assert (H' : holds m' 4 p d) by (eapply holds_frame; [exact H|exact F|intros q _ [Y _]; congruence]).
    assert (BB := nthN_byte d (Z.to_N i) B). unfold byte_ok in BB.
    eapply wp_store1; [ev|ev|inb_in| |]; rewrite ?E3; simp; rewrite ?wrap_u64 by lia; rewrite ?Z.add_0_l, ?Z.mul_1_l, ?(holds_byte _ _ _ _ i H') by lia; [inb_in|lia|].
    split; [look|]. split; [hass|]. split; [fr|]. intros q Hq. destruct (Z.eq_dec q i) as [->|Dq]; [rd; reflexivity|]. rd. apply X. lia.
  - intros e m' (E & F & X). unhas. split.
    { eexists. split; [ev|]. simp. rewrite truth_b. lia. }
    assert (PP' : pos_at m' p) by (eapply pos_frame; [exact PP|exact F|intros q [Y _]; congruence]). destruct PP' as [I3 E3].
    seq. eapply wp_store; [ev|ev|inb_in|]. rewrite E3. simp. rewrite wrap_u64 by lia. eapply wp_return; [ev|].
    assert (I3' : inb m' 3 0 (Z.of_nat (length (encode 8 (p + ofN (lenN d)))))) by (rewrite encode_length; exact I3).
    assert (F4 : frame m' (setb m' 3 0 (encode 8 (p + ofN (lenN d)))) (fun b' _ => b' = 3%positive)).
    { eapply frame_weak; [apply frame_setb; exact I3'|]. intros b' q _ _ [-> _]. reflexivity. }
    split; [|split; [|split]].
    + eapply frame_comp; [eapply frame_weak; [exact F|auto]|exact F4|auto].
    + eapply holds_frame; [|exact F4|intros q _ Y; congruence]. split; [inb_in|]. intros q Hq. rewrite X by lia. f_equal. f_equal. lia.
    + unfold setb. apply setc_inb. exact I3.
    + rewrite bytesat_setb by (exact I3' || apply encode_length). apply decode_encode. change (256 ^ Z.of_nat 8) with (2 ^ 64). lia.
  - split; [hass|]. split; [apply frame_refl|]. intros. lia.
Qed.

(** ** Key functions *)
Definition null_check (x y : positive) : stmt :=
  SIf (ECond (EIsNull (EVar x)) (EInt 1) (EBin ONe s32 (EIsNull (EVar y)) (EInt 0))) (SReturn (EInt (-1))) SSkip.
Definition keygen_fun (i : paramid) : func := let h := ofN (owf_input_size i) in Func [1%positive; 2%positive] (
  SSeq (null_check 1 2) (
  SSeq (SSet 3 (EInt 0)) (
  SSeq (SLoop (EUn OLNot s32 (EVar 3)) SSkip (
    SSeq (SCall None f_rand_bytes [EVar 2; EInt (ofN (sk_bytes i))]) (
    SSeq (SCall (Some 5%positive) (owf_fn i) [EAt (EVar 2) 1 (EInt h); EVar 2; EAt (EVar 1) 1 (EInt h)]) (
    SSeq (SShow 6 (EVar 5))
    (SSet 3 (EVar 6)))))) (
  SSeq (SCopy (EVar 1) (EVar 2) (EInt h))
  (SReturn (EInt 0)))))).
Definition validate_fun (i : paramid) : func := let h := ofN (owf_input_size i) in Func [1%positive; 2%positive] (
  SSeq (null_check 2 1) (
  SSeq (SAlloc 3 (EInt (2 * h))) (
  SSeq (SCall (Some 4%positive) (owf_fn i) [EAt (EVar 2) 1 (EInt h); EVar 2; EAt (EVar 3) 1 (EInt h)]) (
  SSeq (SShow 5 (EVar 4)) (
  SSeq (SIf (EUn OLNot s32 (EVar 5)) (SReturn (EInt 1)) SSkip) (
  SSeq (SCopy (EVar 3) (EVar 2) (EInt h)) (
  SSeq (SCall (Some 6%positive) f_faest_timingsafe_bcmp [EVar 3; EVar 1; EInt (2 * h)]) (
  SSeq (SShow 7 (EBin OEq s32 (EVar 6) (EInt 0)))
  (SReturn (ECond (EVar 7) (EInt 0) (EInt 2))))))))))).
Definition clear_fun (i : paramid) : func := Func [1%positive] (SCall None f_faest_explicit_bzero [EVar 1; EInt (ofN (sk_bytes i))]).

Ltac tr := cbn iota; change (truth (VInt 1)) with true; change (truth (VInt 0)) with false; cbn iota.
Lemma wp_null_check x y e m vx vy s (Q : outcome -> env -> mem -> Prop) : lookup e x = vx -> lookup e y = vy ->
  match vx, vy with VPtr _ _, VPtr _ _ => wp code s e m Q | _, _ => Q (OReturn (VInt (-1))) e m end ->
  wp code (SSeq (null_check x y) s) e m Q.
Proof.
  intros X Y H. seq. destruct vx.
  1, 3: (eapply wp_if; [eapply pe_cond; [ev|tr; ev]|]; tr; eapply wp_return; [ev|]; exact H).
  destruct vy.
  1, 3: (eapply wp_if; [eapply pe_cond; [ev|tr; ev]|]; simp; change (1 =? 0) with false; cbn [negb]; tr; eapply wp_return; [ev|]; exact H).
  eapply wp_if; [eapply pe_cond; [ev|tr; ev]|]. simp. change (0 =? 0) with true. cbn [negb]. tr. apply wp_skip. exact H.
Qed.

Lemma sizes i : (0 < owf_input_size i <= 32)%N /\ (0 < owf_key_size i <= 32)%N.
Proof. destruct i; vm_compute; split; split; (reflexivity || discriminate). Qed.

Lemma lenN_sub l a n : (a + n <= lenN l)%N -> lenN (UHashSpec.sub l a n) = n.
Proof. unfold UHashSpec.sub, lenN. intros. rewrite firstn_length, skipn_length. lia. Qed.
Lemma sub_bytes l a n : bytes_ok l -> bytes_ok (UHashSpec.sub l a n).
Proof. intros B. apply (Forall_takeN _ n), (Forall_dropN _ a), B. Qed.

(** The one-way function on the two parts of a private key. *)
Lemma ref_owf_sk i m sb so pb po sk : holds m sb so sk -> bytes_ok sk -> lenN sk = sk_bytes i -> inb m pb po (ofN (owf_input_size i)) ->
  sep pb po (ofN (owf_input_size i)) sb so (ofN (sk_bytes i)) -> rconst m ->
  calls code (owf_fn i) [VPtr sb (so + ofN (owf_input_size i)); VPtr sb so; VPtr pb po] m (fun v m' => exists z, v = VInt (b2z z) /\ (z = true <-> valid_key i sk) /\
    frame m m' (at_ pb po (ofN (owf_input_size i))) /\ holds m' pb po (owf_value i (owf_key_of i sk) (owf_input_of i sk))).
Proof.
  intros H B L I SP RC. destruct (sizes i) as [SI SK]. unfold sk_bytes in *.
  assert (LI : lenN (owf_input_of i sk) = owf_input_size i) by (apply lenN_sub; lia).
  assert (LK : lenN (owf_key_of i sk) = owf_key_size i) by (apply lenN_sub; lia).
  eapply calls_weak; [apply (ref_owf i m sb (so + ofN (owf_input_size i)) sb so pb po (owf_key_of i sk) (owf_input_of i sk)); [|exact LK|exact LI]|].
  - split; [apply (holds_part _ _ _ _ (owf_input_size i) (owf_key_size i) H); lia| |exact I|apply sub_bytes, B|apply sub_bytes, B| | |exact RC].
    + replace so with (so + ofN 0) by lia. apply (holds_part _ _ _ _ 0 (owf_input_size i) H). lia.
    + rewrite LK. unfold sep in *. lia.
    + rewrite LI. unfold sep in *. lia.
  - intros v m' (z & -> & Z & F & O). exists z. split; [reflexivity|]. split; [|auto]. unfold valid_key. destruct z; [split; [intros _ X; apply Z in X; discriminate|reflexivity]|].
    split; [discriminate|]. intros N. exfalso. apply N, Z. reflexivity.
Qed.
Lemma owf_sk_facts i sk : bytes_ok sk -> lenN sk = sk_bytes i -> lenN (owf_input_of i sk) = owf_input_size i /\ bytes_ok (owf_input_of i sk) /\
  lenN (owf_value i (owf_key_of i sk) (owf_input_of i sk)) = owf_input_size i /\ bytes_ok (owf_value i (owf_key_of i sk) (owf_input_of i sk)).
Proof.
  intros B L. unfold sk_bytes in L. assert (LI : lenN (owf_input_of i sk) = owf_input_size i) by (apply lenN_sub; lia). split; [exact LI|]. split; [apply sub_bytes, B|].
  apply WitnessProps.owf_value_facts; [apply lenN_sub; lia|apply sub_bytes, B|exact LI|apply sub_bytes, B].
Qed.

(** *** Clearing *)
Lemma ref_clear i f m b o : PositiveMap.find f code = Some (clear_fun i) -> inb m b o (ofN (sk_bytes i)) ->
  calls code f [VPtr b o] m (fun _ m' => frame m m' (at_ b o (ofN (sk_bytes i))) /\ forall q, 0 <= q < ofN (sk_bytes i) -> byte m' b (o + q) = 0).
Proof.
  intros C I. apply (calls_intro code _ _ _ _ _ C). unfold clear_fun. cbn [fbody fparams bind_params]. destruct (sizes i) as [SI SK].
  eapply wp_call; [evs|]. eapply calls_weak; [apply ref_faest_explicit_bzero; [unfold sk_bytes; lia|exact I]|]. intros v m' X. exact X.
Qed.

(** *** Validation *)
Lemma holds_ext m b o l l' b' o' : holds m b o l -> holds m b' o' l' -> lenN l = lenN l' -> (l = l' <-> forall q, 0 <= q < ofN (lenN l) -> byte m b (o + q) = byte m b' (o' + q)).
Proof.
  intros [I H] [I' H'] L. split.
  - intros <- q Hq. replace q with (ofN (Z.to_N q)) by lia. rewrite H, H' by lia. reflexivity.
  - intros E. apply (list_ext 0%N); [exact L|]. intros k Hk. specialize (E (ofN k) ltac:(lia)). rewrite H, H' in E by lia. lia.
Qed.
Lemma ref_validate i f m pb po sb so pk sk : PositiveMap.find f code = Some (validate_fun i) ->
  holds m pb po pk -> holds m sb so sk -> bytes_ok pk -> bytes_ok sk -> lenN pk = (2 * owf_input_size i)%N -> lenN sk = sk_bytes i -> rconst m ->
  calls code f [VPtr pb po; VPtr sb so] m (fun v m' => frame m m' nothing /\
    (~ valid_key i sk /\ v = VInt 1 \/ valid_key i sk /\ pk = public_of i sk /\ v = VInt 0 \/ valid_key i sk /\ pk <> public_of i sk /\ v = VInt 2)).
Proof.
  intros C HP HS BP BS LP LS RC. apply (calls_intro code _ _ _ _ _ C). unfold validate_fun. cbn [fbody fparams bind_params]. destruct (sizes i) as [SI SK].
  destruct (owf_sk_facts i sk BS LS) as (LI & BI & LV & BV).
  eapply wp_null_check; [look|look|]. seq. eapply wp_alloc; [ev|]. assert (F1 := frame_fresh m (2 * ofN (owf_input_size i)) (PositiveMap.empty value) nothing).
  assert (I1 : inb (fresh m (2 * ofN (owf_input_size i)) (PositiveMap.empty value)) (mnext m) 0 (2 * ofN (owf_input_size i))) by (apply inb_fresh; lia).
  generalize dependent (fresh m (2 * ofN (owf_input_size i)) (PositiveMap.empty value)). intros m1 F1 I1.
  assert (DS : mnext m <> sb) by (intros X; destruct (proj1 HS) as [Y _]; lia). assert (DP : mnext m <> pb) by (intros X; destruct (proj1 HP) as [Y _]; lia).
  assert (NB : forall q, ~ at_ (mnext m) 0 (2 * ofN (owf_input_size i)) sb q) by (intros q [X _]; congruence).
  assert (HS1 : holds m1 sb so sk) by (eapply holds_frame; [exact HS|exact F1|intros q _ []]).
  assert (RC1 : rconst m1) by (eapply rconst_frame; [exact RC|exact F1|intros q []]).
  seq. eapply wp_call; [evs|]. rewrite !Z.mul_1_l, Z.add_0_l.
  eapply calls_weak; [apply (ref_owf_sk i m1 sb so (mnext m) (ofN (owf_input_size i)) sk HS1 BS LS); [inb_in|left; exact DS|exact RC1]|].
  intros v m2 (z & -> & Z & F2 & H2). cbn [set].
  assert (F02 : frame m m2 nothing) by (eapply frame_comp; [exact F1|exact F2|intros b' o' X _ [Y _]; lia]).
  seq. eapply wp_show; [ev|]. seq. eapply wp_if; [ev|]. destruct z; cbn [b2z un Z.eqb]; tr.
  2: { eapply wp_return; [ev|]. split; [exact F02|]. left. split; [|reflexivity]. intros X. apply Z in X. discriminate. }
  assert (VK : valid_key i sk) by (apply Z; reflexivity). apply wp_skip.
  assert (HS2 : holds m2 sb so sk) by (eapply holds_frame; [exact HS|exact F02|intros q _ []]).
  assert (HP2 : holds m2 pb po pk) by (eapply holds_frame; [exact HP|exact F02|intros q _ []]).
  assert (HI2 : holds m2 sb so (owf_input_of i sk)).
  { replace so with (so + ofN 0) by lia. apply (holds_part _ _ _ _ 0 (owf_input_size i) HS2). rewrite LS. unfold sk_bytes. lia. }
  assert (I2 : inb m2 (mnext m) 0 (2 * ofN (owf_input_size i))) by inb_in.
  seq. eapply wp_copy1; [ev|ev|ev|inb_in|rewrite <- LI; exact (proj1 HI2)|].
  assert (F3 : frame m2 (copy m2 (mnext m) 0 sb so (ofN (owf_input_size i))) (at_ (mnext m) 0 (ofN (owf_input_size i)))) by fr.
  assert (H3 : holds (copy m2 (mnext m) 0 sb so (ofN (owf_input_size i))) (mnext m) 0 (owf_input_of i sk)).
  { rewrite <- LI at 1. apply holds_copy; [exact HI2|rewrite LI; inb_in]. }
  generalize dependent (copy m2 (mnext m) 0 sb so (ofN (owf_input_size i))). intros m3 F3 H3.
  assert (HV3 : holds m3 (mnext m) (ofN (owf_input_size i)) (owf_value i (owf_key_of i sk) (owf_input_of i sk))) by (eapply holds_frame; [exact H2|exact F3|rewrite LV; in_at]).
  assert (HK3 : holds m3 (mnext m) 0 (public_of i sk)) by (apply holds_app; [exact H3|rewrite LI; exact HV3]).
  assert (HP3 : holds m3 pb po pk) by (eapply holds_frame; [exact HP2|exact F3|intros q _ [X _]; congruence]).
  assert (LPK : lenN (public_of i sk) = (2 * owf_input_size i)%N) by (unfold public_of; rewrite lenN_app, LI, LV; lia).
  assert (BPK : bytes_ok (public_of i sk)) by (apply Forall_app; auto).
  seq. eapply wp_call; [evs|]. assert (LP' : 2 * ofN (owf_input_size i) = ofN (lenN pk)) by lia. rewrite LP'.
  eapply calls_weak; [apply (ref_faest_timingsafe_bcmp m3 (mnext m) 0 pb po); [lia|rewrite LP, <- LPK; exact (proj1 HK3)|exact (proj1 HP3)| |]|].
  - intros q Hq. eapply holds_isbyte; [exact HK3|exact BPK|lia].
  - intros q Hq. eapply holds_isbyte; [exact HP3|exact BP|lia].
  - intros v m4 [-> (r & -> & R)]. cbn [set]. seq. eapply wp_show; [ev|]. simp.
    assert (F03 : frame m m3 nothing) by (eapply frame_comp; [exact F02|exact F3|intros b' o' X _ [Y _]; lia]).
    assert (EQ : r = 0 <-> pk = public_of i sk).
    { rewrite R, (holds_ext _ _ _ _ _ _ _ HP3 HK3 ltac:(lia)). split; intros X q Hq; symmetry; apply X, Hq. }
    destruct (Z.eqb_spec r 0) as [E|E]; cbn [b2z]; (eapply wp_return; [eapply pe_cond; [ev|tr; ev]|]); (split; [exact F03|]); right.
    + left. split; [exact VK|]. split; [apply EQ, E|reflexivity].
    + right. split; [exact VK|]. split; [intros X; apply E, EQ, X|reflexivity].
Qed.

(** *** Key generation *)
Lemma ref_keygen i f m pb po sb so p tp k : PositiveMap.find f code = Some (keygen_fun i) ->
  inb m pb po (2 * ofN (owf_input_size i)) -> inb m sb so (ofN (sk_bytes i)) -> sep pb po (2 * ofN (owf_input_size i)) sb so (ofN (sk_bytes i)) -> rconst m ->
  (pb <> 3 /\ pb <> 4 /\ pb <> 12 /\ sb <> 3 /\ sb <> 4 /\ sb <> 12)%positive ->
  pos_at m p -> 0 <= p -> holds m 4 p tp -> bytes_ok tp -> p + ofN (lenN tp) < 2 ^ 64 ->
  ((k + 1) * sk_bytes i <= lenN tp)%N -> (forall j, (j < k)%N -> ~ valid_key i (attempt i tp j)) -> valid_key i (attempt i tp k) ->
  calls code f [VPtr pb po; VPtr sb so] m (fun v m' => v = VInt 0 /\
    holds m' sb so (attempt i tp k) /\ holds m' pb po (public_of i (attempt i tp k)) /\ pos_at m' (p + ofN ((k + 1) * sk_bytes i)) /\
    frame m m' (fun b q => at_ pb po (2 * ofN (owf_input_size i)) b q \/ at_ sb so (ofN (sk_bytes i)) b q \/ b = 3%positive)).
Proof.
  intros C IP IS SP RC (P3 & P4 & P12 & S3 & S4 & S12) PP P0 HT BT PM LT NV V. apply (calls_intro code _ _ _ _ _ C). unfold keygen_fun. cbn [fbody fparams bind_params].
  destruct (sizes i) as [SI SK]. set (n := sk_bytes i) in *. set (h := owf_input_size i) in *. assert (NE : (n = h + owf_key_size i)%N) by reflexivity.
  eapply wp_null_check; [look|look|]. seq. eapply wp_set; [ev|]. seq.
  set (S := fun (b : positive) (q : Z) => at_ pb po (2 * ofN h) b q \/ at_ sb so (ofN n) b q \/ b = 3%positive).
  assert (AL : forall j, (j <= k)%N -> lenN (attempt i tp j) = n) by (intros j Hj; apply lenN_sub; fold n; nia).
  eapply (wp_loop code _ _ _ (fun c e m' => has e [(1%positive, VPtr pb po); (2%positive, VPtr sb so); (3%positive, VInt (b2z (Nat.eqb c 0)))] /\ (N.of_nat c <= k + 1)%N /\
     frame m m' S /\ pos_at m' (p + ofN ((k + 1 - N.of_nat c) * n)) /\
     (c = O -> holds m' sb so (attempt i tp k) /\ holds m' pb (po + ofN h) (owf_value i (owf_key_of i (attempt i tp k)) (owf_input_of i (attempt i tp k)))))) with (n := N.to_nat (k + 1)).
  - intros c e m' (E & L & F & PT & _). unhas. split; [eexists; split; [ev|]; reflexivity|].
    set (j := (k - N.of_nat c)%N) in *. replace (k + 1 - N.of_nat (Datatypes.S c))%N with j in PT by lia.
    assert (LJ := AL j ltac:(lia)). assert (JN : (j * n + n <= lenN tp)%N) by nia.
    assert (HT' : holds m' 4 p tp) by (eapply holds_frame; [exact HT|exact F|unfold S, at_; intros q _ [[X _]|[[X _]|X]]; congruence]).
    assert (HJ : holds m' 4 (p + ofN (j * n)) (attempt i tp j)) by (apply holds_part; [exact HT'|exact JN]).
    assert (BJ : bytes_ok (attempt i tp j)) by (apply sub_bytes, BT).
    seq. eapply wp_call; [evs|]. rewrite <- LJ at 1.
    eapply calls_weak; [apply (ref_rand_bytes m' sb so (p + ofN (j * n)) (attempt i tp j) PT HJ BJ); [rewrite LJ; inb_in|exact S3|exact S4|lia|rewrite LJ; lia]|].
    rewrite LJ. intros v m1 (F1 & HH1 & PT1). cbn [set].
    assert (F01 : frame m m1 S).
    { eapply frame_comp; [exact F|exact F1|]. unfold S. intros b q _ _ [X|X]; auto. }
    assert (RC1 : rconst m1) by (eapply rconst_frame; [exact RC|exact F01|unfold S, at_; intros q [[X _]|[[X _]|X]]; congruence]).
    seq. eapply wp_call; [evs|]. rewrite !Z.mul_1_l.
    eapply calls_weak; [apply (ref_owf_sk i m1 sb so pb (po + ofN h) (attempt i tp j) HH1 BJ LJ); [fold h; inb_in|fold n h; unfold sep in *; lia|exact RC1]|].
    intros v2 m2 (z & -> & Z & F2 & HH2). fold h in F2. cbn [set]. seq. eapply wp_show; [ev|]. eapply wp_set; [ev|]. apply wp_skip. split; [reflexivity|].
    assert (ZC : z = Nat.eqb c 0).
    { destruct (Nat.eqb_spec c 0) as [EC|EC].
      - apply Z. replace j with k by lia. exact V.
      - destruct z; [|reflexivity]. exfalso. apply (NV j); [lia|]. apply Z. reflexivity. }
    rewrite <- ZC. split; [hass|]. split; [lia|]. split; [|split].
    + eapply frame_comp; [exact F01|exact F2|]. unfold S, at_. intros b q _ _ [X Y]. left. split; [exact X|lia].
    + eapply pos_frame; [|exact F2|intros q [X _]; congruence]. replace ((k + 1 - N.of_nat c) * n)%N with (j * n + n)%N by nia. replace (p + ofN (j * n + n)) with (p + ofN (j * n) + ofN n) by lia. exact PT1.
    + intros EC. replace k with j by lia. split; [|exact HH2]. eapply holds_frame; [exact HH1|exact F2|]. rewrite LJ. intros q Hq [X Y]. unfold sep in SP. destruct SP as [W|W]; [congruence|lia].
  - intros e m' (E & L & F & PT & H). unhas. split; [eexists; split; [ev|]; reflexivity|]. destruct (H eq_refl) as [HS HV]. clear H.
    assert (LK := AL k ltac:(lia)). assert (BK : bytes_ok (attempt i tp k)) by (apply sub_bytes, BT).
    destruct (owf_sk_facts i _ BK LK) as (LI & BI & LV & BV). fold h in LI, LV.
    assert (HI : holds m' sb so (owf_input_of i (attempt i tp k))).
    { replace so with (so + ofN 0) by lia. apply (holds_part _ _ _ _ 0 h HS). lia. }
    seq. eapply wp_copy1; [ev|ev|ev|inb_in|rewrite <- LI; exact (proj1 HI)|].
    assert (F3 : frame m' (copy m' pb po sb so (ofN h)) (at_ pb po (ofN h))) by fr.
    assert (HH3 : holds (copy m' pb po sb so (ofN h)) pb po (owf_input_of i (attempt i tp k))).
    { rewrite <- LI at 1. apply holds_copy; [exact HI|rewrite LI; inb_in]. }
    generalize dependent (copy m' pb po sb so (ofN h)). intros m3 F3 HH3.
    eapply wp_return; [ev|]. split; [reflexivity|]. split; [|split; [|split]].
    + eapply holds_frame; [exact HS|exact F3|]. rewrite LK. intros q Hq [X Y]. unfold sep in SP. destruct SP as [W|W]; [congruence|lia].
    + apply holds_app; [exact HH3|]. rewrite LI. eapply holds_frame; [exact HV|exact F3|]. rewrite LV. in_at.
    + eapply pos_frame; [|exact F3|intros q [X _]; congruence]. replace (k + 1)%N with (k + 1 - N.of_nat 0)%N by lia. exact PT.
    + eapply frame_comp; [exact F|exact F3|]. unfold S, at_. intros b q _ _ [X Y]. left. split; [exact X|lia].
  - replace (Nat.eqb (N.to_nat (k + 1)) 0) with false by (symmetry; apply Nat.eqb_neq; lia). split; [hass|]. split; [lia|]. split; [apply frame_refl|]. split; [|lia].
    replace (k + 1 - N.of_nat (N.to_nat (k + 1)))%N with 0%N by lia. replace (p + ofN (0 * n)) with p by lia. exact PP.
Qed.
