(** Properties of the API functions. *)
From Verif.Model Require Import Api.
From Verif.Spec Require Import OwfSpec VcSpec VoleSpec FormatSpec FormatMap UHashSpec ConstraintMap RunSpec SignSpec KeySpec.
From Verif.Proof Require Import BaseProof PrgProof VcProof VcProps VoleProof VoleProps FormatProof CorrectProof UHashProof UHashProps WitnessProps
  VerifyProof VerifyProps SignProof HonestProof ApiProof.
From Coq Require Import Lia ZifyBool ZifyNat ZifyN.
Ltac Zify.zify_post_hook ::= Z.div_mod_to_equations.

Lemma given_len ptr n : readable ptr n -> lenN (given ptr n) = n.
Proof. destruct ptr; cbn [readable given]; intros H; [|subst; reflexivity]. change (lenN (takeN n l) = n). rewrite lenN_takeN. lia. Qed.
Lemma rho_given i rho n : readable rho n -> n + 168 <= 2 ^ 32 ->
  rho_defined i (match rho with Some _ => Some (given rho n) | None => None end) = true.
Proof. intros H L. apply rho_short. pose proof (given_len rho n H). destruct rho; cbn [rho_bytes]; [lia|]. discriminate. Qed.
Lemma overwrite_len mem pos b : pos + lenN b <= lenN mem -> lenN (overwrite mem pos b) = lenN mem.
Proof. intros H. eapply blit_len, overwrite_blit, H. Qed.
Lemma overwrite_bytes mem pos b : bytes_ok mem -> bytes_ok b -> bytes_ok (overwrite mem pos b).
Proof. intros H1 H2. unfold overwrite. apply Forall_app. split; [apply (Forall_takeN _ pos), H1|]. apply Forall_app. split; [exact H2|apply (Forall_dropN _ (pos + lenN b)), H1]. Qed.
Lemma take_overwrite mem b : lenN b <= lenN mem -> takeN (lenN b) (overwrite mem 0 b) = b.
Proof. intros H. unfold overwrite. rewrite N.add_0_l. change (firstn (N.to_nat 0) mem) with (@nil N). cbn [app]. apply takeN_app_exact. Qed.

Lemma sign_verifies xof i sk message mlen rho rlen buf n : xof_sized xof ->
  sk_size i <= lenN sk -> bytes_ok sk -> valid_key i sk ->
  readable message mlen -> mlen + 168 <= 2 ^ 32 -> readable rho rlen -> rlen + 168 <= 2 ^ 32 ->
  sig_size i <= n -> n <= lenN buf -> bytes_ok buf ->
  exists buf', sign_with_randomness xof i (Some sk) message mlen rho rlen (Some buf) (Some n) = Ok (0%Z, Some buf', Some (sig_size i)) /\
    verify xof i (Some (public_of i sk)) message mlen (Some buf') (sig_size i) = Ok 0%Z.
Proof.
  intros HX HL HB HV HM LM HR LR Hn Hb BB.
  destruct (sign_valid xof i HX sk (given message mlen) (given rho rlen) HL HB HV) as (w & a & b & _ & _ & SL & SB & ES & EV).
  set (S := signature_spec _ _ _ _ _ _ _ _ _) in *.
  exists (overwrite buf 0 S). split.
  - rewrite ES by (assumption || reflexivity). rewrite mu_short, rho_given by assumption. reflexivity.
  - destruct (public_ok i sk HL HB) as [PL PB].
    destruct (verify_reads xof i (public_of i sk) message mlen (overwrite buf 0 S)) as (m & Lm & Vm & E); [lia|exact HM|rewrite overwrite_len; lia|].
    rewrite E. rewrite takeN_all by lia. rewrite <- SL at 1. rewrite take_overwrite by lia.
    replace m with (given message mlen) by (rewrite Vm; destruct message; reflexivity). rewrite EV, mu_short; [reflexivity|].
    rewrite given_len by exact HM. exact LM.
Qed.

Lemma sign_prefix xof i sk message mlen rho rlen buf n : sk_size i <= lenN sk ->
  sign_with_randomness xof i (Some (takeN (sk_size i) sk)) message mlen rho rlen buf n =
  sign_with_randomness xof i (Some sk) message mlen rho rlen buf n.
Proof.
  intros HL. unfold sign_with_randomness. destruct buf as [buf|], n as [n|]; try reflexivity. destruct (_ || _); [reflexivity|].
  destruct (sk_sizes i) as (E1 & E2 & E3 & _). unfold sk_bytes in E1.
  assert (S1 : SK_KEY i (takeN (sk_size i) sk) = SK_KEY i sk).
  { unfold SK_KEY. rewrite E2, E3. rewrite !slice_ok by (rewrite ?lenN_takeN; lia). rewrite take_drop_take by lia. reflexivity. }
  assert (S2 : SK_INPUT i (takeN (sk_size i) sk) = SK_INPUT i sk).
  { unfold SK_INPUT. rewrite E2. rewrite !slice_ok by (rewrite ?lenN_takeN; lia). rewrite !dropN_0, takeN_takeN.
    replace (N.min (owf_input_size i) (sk_size i)) with (owf_input_size i) by lia. reflexivity. }
  rewrite S1, S2. reflexivity.
Qed.

Lemma sign_function xof i sk msg r : xof_sized xof -> lenN sk = sk_size i -> bytes_ok sk -> valid_key i sk ->
  lenN msg + 168 <= 2 ^ 32 -> lenN r + 168 <= 2 ^ 32 ->
  exists S, lenN S = sig_size i /\ bytes_ok S /\
  forall sk' message mlen rho rlen buf n,
    sk_size i <= lenN sk' -> firstn (N.to_nat (sk_size i)) sk' = sk ->
    readable message mlen -> given message mlen = msg -> readable rho rlen -> given rho rlen = r ->
    sig_size i <= n -> n <= lenN buf -> bytes_ok buf ->
    sign_with_randomness xof i (Some sk') message mlen rho rlen (Some buf) (Some n) = Ok (0%Z, Some (overwrite buf 0 S), Some (sig_size i)).
Proof.
  intros HX HL HB HV LM LR. destruct (sign_valid xof i HX sk msg r ltac:(lia) HB HV) as (w & a & b & _ & _ & SL & SB & ES & EV).
  eexists. split; [exact SL|]. split; [exact SB|]. intros sk' message mlen rho rlen buf n HL' EK HM EM HR ER Hn Hb BB.
  change (takeN (sk_size i) sk' = sk) in EK. rewrite <- sign_prefix, EK by exact HL'. rewrite ES by assumption.
  pose proof (given_len message mlen HM). pose proof (given_len rho rlen HR). rewrite mu_short by congruence. rewrite <- ER. rewrite rho_given by (assumption || congruence). reflexivity.
Qed.

Lemma sign_defined xof i sk message mlen rho rlen signature siglen : xof_sized xof ->
  match sk with Some s => sk_size i <= lenN s /\ bytes_ok s | None => True end ->
  readable message mlen -> mlen + 168 <= 2 ^ 32 ->
  (rho = None \/ readable rho rlen) -> rlen + 168 <= 2 ^ 32 ->
  match signature, siglen with Some b, Some n => n <= lenN b /\ bytes_ok b | _, _ => True end ->
  exists ret sg sl, sign_with_randomness xof i sk message mlen rho rlen signature siglen = Ok (ret, sg, sl) /\ (ret = 0%Z \/ ret = (-1)%Z).
Proof.
  intros HX HK HM LM HR LR HS.
  destruct sk as [sk|]; [|rewrite sign_arguments by auto; eauto 10].
  destruct signature as [buf|]; [|rewrite sign_arguments by auto; eauto 10].
  destruct siglen as [n|]; [|rewrite sign_arguments by auto; eauto 10].
  destruct (N.lt_ge_cases n (sig_size i)) as [Hn|Hn]; [rewrite sign_arguments by eauto 10; eauto 10|].
  destruct HK as [HL HB], HS as [Hb BB].
  destruct (valid_dec i sk HL HB) as [HV|HV]; [|rewrite sign_invalid by assumption; eauto 10].
  assert (HR' : readable rho rlen \/ rho = None /\ rlen <> 0).
  { destruct HR as [->|HR]; [|auto]. destruct (N.eq_dec rlen 0); [left; exact e|auto]. }
  destruct HR' as [HR'|HR']; [|rewrite sign_arguments by auto 10; eauto 10].
  destruct (sign_verifies xof i sk message mlen rho rlen buf n) as (buf' & -> & _); try assumption. eauto 10.
Qed.

(** * Keys *)
Lemma bcmp_or a b k r : k <= lenN a -> k <= lenN b ->
  exists d, foldM (fun r i => let! x := aget a i in let! y := aget b i in Ok (N.lor r (N.lxor x y))) (Nrange k) r = Ok d /\
    (d = 0 <-> r = 0 /\ forall j, j < k -> nthN a j 0 = nthN b j 0).
Proof.
  intros HA HB. match goal with |- exists d, foldM ?f _ _ = _ /\ _ =>
    destruct (foldM_Nrange_inv f (fun n s => s = 0 <-> r = 0 /\ forall j, j < n -> nthN a j 0 = nthN b j 0) k r) as (d & E & H) end.
  - split; [|tauto]. intros ->. split; [reflexivity|]. intros; lia.
  - intros n s Hn H. rewrite !(aget_ok _ _ 0) by lia. cbn [bind]. eexists. split; [reflexivity|]. rewrite N.lor_eq_0_iff, N.lxor_eq_0_iff, H. clear E H || clear H. split.
    + intros [[-> H] E]. split; [reflexivity|]. intros j Hj. destruct (N.eq_dec j n) as [->|]; [exact E|apply H; lia].
    + intros [-> H]. split; [split; [reflexivity|]|]; [intros; apply H; lia|apply H; lia].
  - eauto.
Qed.
Lemma bcmp_ok a b n : lenN a = n -> n <= lenN b -> exists d, timingsafe_bcmp a b n = Ok d /\ (d = 0 <-> takeN n b = a).
Proof.
  intros HA HB. destruct (bcmp_or a b n 0 ltac:(lia) HB) as (d & E & H). exists d. split; [exact E|]. rewrite H. split.
  - intros [_ Q]. apply (list_ext 0); [rewrite lenN_takeN; lia|]. intros j Hj. rewrite lenN_takeN in Hj. rewrite nthN_takeN by lia. symmetry. apply Q. lia.
  - intros <-. split; [reflexivity|]. intros j Hj. rewrite nthN_takeN by exact Hj. reflexivity.
Qed.

Lemma validate_ok i pk sk : pk_size i <= lenN pk -> sk_size i <= lenN sk -> bytes_ok sk ->
  (~ valid_key i sk /\ validate_keypair i (Some pk) (Some sk) = Ok 1%Z) \/
  (valid_key i sk /\ firstn (N.to_nat (pk_size i)) pk = public_of i sk /\ validate_keypair i (Some pk) (Some sk) = Ok 0%Z) \/
  (valid_key i sk /\ firstn (N.to_nat (pk_size i)) pk <> public_of i sk /\ validate_keypair i (Some pk) (Some sk) = Ok 2%Z).
Proof.
  intros HP HL HB. unfold validate_keypair. destruct (sk_parts i sk HL HB) as (A & B & LK & LI & BK & BI). destruct (owf_sk i sk HL HB) as (ok & E & F & LO & BO).
  rewrite A, B. cbn [bind]. rewrite E. cbn [bind snd]. destruct ok.
  - assert (HV : valid_key i sk) by (apply F; reflexivity). right.
    unfold SK_INPUT in B. rewrite B. cbn [bind fst]. change (owf_input_of i sk ++ owf_value i (owf_key_of i sk) (owf_input_of i sk)) with (public_of i sk).
    destruct (bcmp_ok (public_of i sk) pk (pk_size i)) as (d & -> & Q); [apply public_ok; assumption|exact HP|]. cbn [bind].
    destruct (d =? 0) eqn:D.
    + left. split; [exact HV|]. split; [apply Q; lia|reflexivity].
    + right. split; [exact HV|]. split; [intros H; apply Q in H; lia|reflexivity].
  - left. split; [|reflexivity]. intros H. apply F in H. discriminate.
Qed.

Section Keygen.
Variable i : paramid.
Variable os : rng.
Hypothesis HO : fills os.

Lemma draw_ok old k : lenN old = sk_size i -> bytes_ok old -> lenN (draw os old k) = sk_size i /\ bytes_ok (draw os old k).
Proof using HO.
  intros HL HB. induction k as [|k [IH1 IH2]].
  - cbn [draw]. destruct (HO 0 old HB) as [A B]. split; [|exact B]. unfold lenN in *. lia.
  - cbn [draw]. destruct (HO (N.of_nat (S k)) (draw os old k) IH2) as [A B]. split; [|exact B]. unfold lenN in *. lia.
Qed.

Lemma draw_shift old k : draw (fun n => os (n + 1)) (snd (os 0 old)) k = draw os old (S k).
Proof using.
  induction k as [|k IH]; [reflexivity|]. cbn [draw] in *. rewrite IH. f_equal. f_equal. lia.
Qed.
End Keygen.

Lemma keygen_loop_shift i os fuel : forall k pk sk,
  keygen_loop i os fuel (k + 1) pk sk = 
  (let! r := keygen_loop i (fun n => os (n + 1)) fuel k pk sk in Ok (match r with Some (n, a, b) => Some (n + 1, a, b) | None => None end)).
Proof.
  induction fuel as [|fuel IH]; intros k pk sk; [reflexivity|]. cbn [keygen_loop].
  destruct (slice sk 0 (sk_size i)) as [old|]; [|reflexivity]. cbn [bind]. destruct (blit sk 0 _) as [sk'|]; [|reflexivity]. cbn [bind].
  destruct (SK_KEY i sk') as [key|]; [|reflexivity]. cbn [bind]. destruct (SK_INPUT i sk') as [inp|]; [|reflexivity]. cbn [bind].
  destruct (owf i key inp) as [r|]; [|reflexivity]. cbn [bind]. destruct (blit pk _ _) as [pk'|]; [|reflexivity]. cbn [bind].
  destruct (snd r); [reflexivity|]. apply IH.
Qed.

Lemma overwrite_take mem b n : lenN b = n -> n <= lenN mem -> takeN n (overwrite mem 0 b) = b.
Proof. intros <- H. apply take_overwrite, H. Qed.
Lemma overwrite_twice mem pos b c : lenN b = lenN c -> pos + lenN b <= lenN mem -> overwrite (overwrite mem pos b) pos c = overwrite mem pos c.
Proof.
  intros HL HM. unfold overwrite. rewrite <- HL.
  change (takeN pos (takeN pos mem ++ b ++ dropN (pos + lenN b) mem) ++ c ++ dropN (pos + lenN b) (takeN pos mem ++ b ++ dropN (pos + lenN b) mem) =
          takeN pos mem ++ c ++ dropN (pos + lenN b) mem).
  assert (HT : lenN (takeN pos mem) = pos) by (rewrite lenN_takeN; lia).
  rewrite <- HT at 1. rewrite takeN_app_exact. f_equal. f_equal. rewrite app_assoc.
  replace (pos + lenN b) with (lenN (takeN pos mem ++ b)) at 1 by (rewrite lenN_app, HT; reflexivity). apply dropN_app_exact.
Qed.

(** the loop: [None] while no draw is valid, else it stops at the first valid one *)
Lemma keygen_loop_ok i fuel : forall os pk sk, fills os -> pk_size i <= lenN pk -> sk_size i <= lenN sk -> bytes_ok sk ->
  let d := draw os (takeN (sk_size i) sk) in
  ((forall j, (j < fuel)%nat -> ~ valid_key i (d j)) /\ keygen_loop i os fuel 0 pk sk = Ok None) \/
  (exists k, (k < fuel)%nat /\ valid_key i (d k) /\ (forall j, (j < k)%nat -> ~ valid_key i (d j)) /\
     keygen_loop i os fuel 0 pk sk =
       Ok (Some (N.of_nat k + 1, overwrite pk (half i) (owf_value i (owf_key_of i (d k)) (owf_input_of i (d k))), overwrite sk 0 (d k)))).
Proof.
  induction fuel as [|fuel IH]; intros os pk sk HO HP HL HB d; [left; split; [intros; lia|reflexivity]|].
  destruct (sk_sizes i) as (E1 & E2 & E3 & E4).
  cbn [keygen_loop]. rewrite slice_ok by lia. cbn [bind]. rewrite dropN_0. set (old := takeN (sk_size i) sk) in *.
  assert (HOL : lenN old = sk_size i) by (subst old; rewrite lenN_takeN; lia).
  assert (HOB : bytes_ok old) by (apply Forall_takeN, HB).
  destruct (draw_ok i os HO old 0 HOL HOB) as [D1 D2]. cbn [draw] in D1, D2. set (d0 := snd (os 0 old)) in *.
  rewrite overwrite_blit by lia. cbn [bind]. set (sk1 := overwrite sk 0 d0).
  assert (L1 : lenN sk1 = lenN sk) by (apply overwrite_len; lia).
  assert (B1 : bytes_ok sk1) by (apply overwrite_bytes; assumption).
  assert (T1 : takeN (sk_size i) sk1 = d0) by (apply overwrite_take; [exact D1|lia]).
  assert (K1 : owf_key_of i sk1 = owf_key_of i d0 /\ owf_input_of i sk1 = owf_input_of i d0).
  { rewrite <- T1. unfold owf_key_of, owf_input_of. rewrite !sub_eq, !dropN_0, takeN_takeN. unfold sk_bytes in E1.
    rewrite take_drop_take by lia. replace (N.min (owf_input_size i) (sk_size i)) with (owf_input_size i) by lia. auto. }
  destruct K1 as [K1 K2].
  destruct (sk_parts i sk1 ltac:(lia) B1) as (A & B & _). rewrite A, B. cbn [bind].
  destruct (owf_sk i sk1 ltac:(lia) B1) as (ok & E & F & LO & BO). rewrite E. cbn [bind fst snd].
  assert (VK : valid_key i sk1 <-> valid_key i (d 0%nat)) by (unfold valid_key; rewrite K1, K2; tauto).
  assert (HPB : half i + lenN (owf_value i (owf_key_of i sk1) (owf_input_of i sk1)) <= lenN pk) by (rewrite LO, E2; lia).
  rewrite overwrite_blit by exact HPB. cbn [bind]. rewrite K1, K2.
  destruct ok.
  - right. exists 0%nat. split; [lia|]. split; [apply VK, F; reflexivity|]. split; [intros; lia|].
    reflexivity.
  - assert (NV : ~ valid_key i (d 0%nat)) by (intros H; apply VK, F in H; discriminate).
    rewrite <- (N.add_0_l 1), keygen_loop_shift, N.add_0_l.
    set (pk1 := overwrite pk (half i) _). 
    assert (HP1 : lenN pk1 = lenN pk) by (apply overwrite_len; rewrite <- K1, <- K2; exact HPB).
    assert (HO1 : fills (fun n => os (n + 1))) by (intros k o Ho; apply HO, Ho).
    assert (DS : forall j, draw (fun n => os (n + 1)) d0 j = d (S j)) by (intros j; apply draw_shift).
    destruct (IH (fun n => os (n + 1)) pk1 sk1 HO1 ltac:(lia) ltac:(lia) B1) as [[NF ->]|(k & Hk & Vk & NVk & ->)]; cbn [bind].
    + left. split; [|reflexivity]. clear DS. intros [|j] Hj; [exact NV|]. unfold d. rewrite <- draw_shift. rewrite T1 in NF. apply NF. lia.
    + right. rewrite T1 in Vk, NVk |- *. rewrite !DS in Vk |- *. exists (S k). split; [lia|]. split; [exact Vk|]. split.
      { intros [|j] Hj; [exact NV|]. rewrite <- DS. apply NVk. lia. }
      destruct (draw_ok i os HO old (S k) HOL HOB) as [DK1 DK2]. fold d in DK1, DK2.
      assert (DKB : sk_size i <= lenN (d (S k))) by lia. destruct (owf_sk i (d (S k)) DKB DK2) as (_ & _ & _ & LOK & _).
      unfold sk1, pk1. rewrite (overwrite_twice sk) by lia. rewrite overwrite_twice; [|congruence|rewrite <- K1, <- K2; exact HPB].
      repeat f_equal. lia.
Qed.

Lemma split_overwrite mem a b : lenN a + lenN b <= lenN mem -> overwrite (overwrite mem (lenN a) b) 0 a = overwrite mem 0 (a ++ b).
Proof.
  intros HL. unfold overwrite. rewrite !N.add_0_l. change (firstn (N.to_nat 0) ?x) with (@nil N). cbn [app]. rewrite <- app_assoc. f_equal.
  change (dropN (lenN a) (takeN (lenN a) mem ++ b ++ dropN (lenN a + lenN b) mem) = b ++ dropN (lenN (a ++ b)) mem).
  rewrite <- (lenN_takeN (lenN a) mem) at 1 || idtac. rewrite lenN_app.
  assert (HT : lenN (takeN (lenN a) mem) = lenN a) by (rewrite lenN_takeN; lia). rewrite <- HT at 1. apply dropN_app_exact.
Qed.
Lemma pk_written i pk d : pk_size i <= lenN pk -> lenN d = sk_size i -> bytes_ok d ->
  overwrite (overwrite pk (half i) (owf_value i (owf_key_of i d) (owf_input_of i d))) 0 (owf_input_of i d) = overwrite pk 0 (public_of i d).
Proof.
  intros HP HD HB. destruct (sk_parts i d ltac:(lia) HB) as (_ & _ & _ & LI & _). destruct (owf_sk i d ltac:(lia) HB) as (_ & _ & _ & LO & _).
  destruct (sk_sizes i) as (E1 & E2 & E3 & E4). rewrite E2, <- LI at 1. apply split_overwrite. rewrite LI, LO. lia.
Qed.

Lemma keygen_ok i fuel os pk sk : fills os -> pk_size i <= lenN pk -> sk_size i <= lenN sk -> bytes_ok sk ->
  let d := draw os (firstn (N.to_nat (sk_size i)) sk) in
  ((forall j, (j < fuel)%nat -> ~ valid_key i (d j)) /\ keygen i os fuel (Some pk) (Some sk) = Ok None) \/
  (exists k, (k < fuel)%nat /\ valid_key i (d k) /\ (forall j, (j < k)%nat -> ~ valid_key i (d j)) /\
     keygen i os fuel (Some pk) (Some sk) = Ok (Some (0%Z, Some (overwrite pk 0 (public_of i (d k))), Some (overwrite sk 0 (d k))))).
Proof.
  intros HO HP HL HB d. unfold keygen. change d with (draw os (takeN (sk_size i) sk)). clear d. set (old := takeN (sk_size i) sk).
  assert (HOL : lenN old = sk_size i) by (subst old; rewrite lenN_takeN; lia).
  assert (HOB : bytes_ok old) by (apply Forall_takeN, HB).
  destruct (keygen_loop_ok i fuel os pk sk HO HP HL HB) as [[NF ->]|(k & Hk & Vk & NV & ->)]; cbn [bind].
  - left. split; [exact NF|reflexivity].
  - right. exists k. split; [exact Hk|]. split; [exact Vk|]. split; [exact NV|]. fold old.
    destruct (draw_ok i os HO old k HOL HOB) as [D1 D2]. set (d := draw os old k) in *.
    assert (L1 : lenN (overwrite sk 0 d) = lenN sk) by (apply overwrite_len; lia).
    rewrite slice_ok by (destruct (sk_sizes i) as (E1 & E2 & _); unfold sk_bytes in E1; lia). cbn [bind].
    assert (EI : takeN (half i) (dropN 0 (overwrite sk 0 d)) = owf_input_of i d).
    { destruct (sk_sizes i) as (E1 & E2 & _). unfold sk_bytes in E1. rewrite dropN_0, E2.
      rewrite <- (overwrite_take sk d (sk_size i) D1 HL) at 2. unfold owf_input_of. rewrite sub_eq, dropN_0, takeN_takeN. f_equal. lia. }
    rewrite EI. destruct (sk_parts i d ltac:(lia) D2) as (_ & _ & _ & LI & _). destruct (owf_sk i d ltac:(lia) D2) as (_ & _ & _ & LO & _).
    destruct (sk_sizes i) as (E1 & E2 & E3 & E4).
    rewrite overwrite_blit by (rewrite overwrite_len; rewrite ?LI, ?LO, ?E2; lia). cbn [bind]. rewrite pk_written by assumption. reflexivity.
Qed.

Lemma keygen_null i os fuel pk sk : pk = None \/ sk = None -> keygen i os fuel pk sk = Ok (Some ((-1)%Z, pk, sk)).
Proof. intros [->| ->]; [reflexivity|]. destruct pk; reflexivity. Qed.

Lemma overwrite_keys i mem d n : lenN d = sk_size i -> sk_size i <= lenN mem -> n = overwrite mem 0 d ->
  owf_key_of i n = owf_key_of i d /\ owf_input_of i n = owf_input_of i d.
Proof.
  intros HD HM ->. destruct (sk_sizes i) as (E1 & E2 & E3 & E4). unfold sk_bytes in E1.
  rewrite <- (overwrite_take mem d (sk_size i) HD HM) at 2 4. unfold owf_key_of, owf_input_of. rewrite !sub_eq, !dropN_0, takeN_takeN.
  rewrite take_drop_take by lia. replace (N.min (owf_input_size i) (sk_size i)) with (owf_input_size i) by lia. auto.
Qed.

(** the pair written by keygen is a valid one *)
Lemma keygen_valid i fuel os pk sk ret pk' sk' : fills os -> pk_size i <= lenN pk -> sk_size i <= lenN sk -> bytes_ok sk ->
  keygen i os fuel (Some pk) (Some sk) = Ok (Some (ret, pk', sk')) ->
  exists pkb skb, ret = 0%Z /\ pk' = Some pkb /\ sk' = Some skb /\ lenN pkb = lenN pk /\ lenN skb = lenN sk /\ bytes_ok skb /\
    valid_key i skb /\ firstn (N.to_nat (pk_size i)) pkb = public_of i skb /\ validate_keypair i pk' sk' = Ok 0%Z.
Proof.
  intros HO HP HL HB E.
  destruct (keygen_ok i fuel os pk sk HO HP HL HB) as [[_ E2]|(k & _ & Vk & _ & E2)]; rewrite E2 in E; [discriminate|].
  injection E as <- <- <-. change (firstn (N.to_nat (sk_size i)) sk) with (takeN (sk_size i) sk) in *. set (old := takeN (sk_size i) sk) in *.
  assert (HOL : lenN old = sk_size i) by (subst old; rewrite lenN_takeN; lia).
  assert (HOB : bytes_ok old) by (apply Forall_takeN, HB).
  destruct (draw_ok i os HO old k HOL HOB) as [D1 D2]. set (d := draw os old k) in *.
  destruct (public_ok i d ltac:(lia) D2) as [PL PB].
  assert (L1 : lenN (overwrite sk 0 d) = lenN sk) by (apply overwrite_len; lia).
  assert (B1 : bytes_ok (overwrite sk 0 d)) by (apply overwrite_bytes; assumption).
  destruct (overwrite_keys i sk d _ D1 HL eq_refl) as [K1 K2].
  assert (V1 : valid_key i (overwrite sk 0 d)) by (unfold valid_key; rewrite K1, K2; exact Vk).
  assert (EP : public_of i (overwrite sk 0 d) = public_of i d) by (unfold public_of; rewrite K1, K2; reflexivity).
  assert (EF : firstn (N.to_nat (pk_size i)) (overwrite pk 0 (public_of i d)) = public_of i (overwrite sk 0 d)).
  { rewrite EP. apply (overwrite_take pk); assumption. }
  do 2 eexists. split; [reflexivity|]. split; [reflexivity|]. split; [reflexivity|].
  split; [apply overwrite_len; lia|]. split; [exact L1|]. split; [exact B1|]. split; [exact V1|]. split; [exact EF|].
  destruct (validate_ok i (overwrite pk 0 (public_of i d)) (overwrite sk 0 d)) as [[H _]|[[_ [_ H]]|[_ [H _]]]]; try contradiction; try exact H; try exact B1.
  - rewrite overwrite_len; lia.
  - lia.
Qed.

(** * sign with randomness from the operating system *)
Lemma sign_os xof i os stack sk message mlen signature siglen :
  sk <> None -> signature <> None -> (exists n, siglen = Some n /\ sig_size i <= n) -> p_lambda (param_of i) / 8 <= lenN stack ->
  sign xof i os stack sk message mlen signature siglen =
  sign_with_randomness xof i sk message mlen (Some (snd (os 0 (takeN (p_lambda (param_of i) / 8) stack)))) (p_lambda (param_of i) / 8) signature siglen.
Proof.
  intros H1 H2 (n & -> & H3) H4. unfold sign. destruct sk; [|congruence]. destruct signature; [|congruence].
  replace (n <? sig_size i) with false by lia. rewrite slice_ok by lia. cbn [bind]. rewrite dropN_0. reflexivity.
Qed.
Lemma sign_draws xof i os stack sk message mlen signature siglen : p_lambda (param_of i) / 8 <= lenN stack ->
  sign xof i os stack sk message mlen signature siglen =
  sign_with_randomness xof i sk message mlen (Some (snd (os 0 (firstn (N.to_nat (p_lambda (param_of i) / 8)) stack)))) (p_lambda (param_of i) / 8) signature siglen.
Proof.
  intros HL. destruct sk as [sk|], signature as [sg|], siglen as [n|]; try reflexivity.
  destruct (n <? sig_size i) eqn:E.
  - cbn [sign sign_with_randomness]. rewrite E. reflexivity.
  - apply sign_os; [discriminate|discriminate| |exact HL]. exists n. split; [reflexivity|]. clear - E. lia.
Qed.
Lemma lb_small i : p_lambda (param_of i) / 8 + 168 <= 2 ^ 32.
Proof. destruct i; discriminate. Qed.

Lemma rho_drawn i os stack : fills os -> p_lambda (param_of i) / 8 <= lenN stack -> bytes_ok stack ->
  readable (Some (snd (os 0 (takeN (p_lambda (param_of i) / 8) stack)))) (p_lambda (param_of i) / 8).
Proof.
  intros HO HL HB. cbn [readable]. destruct (HO 0 (takeN (p_lambda (param_of i) / 8) stack)) as [A _]; [apply Forall_takeN, HB|].
  unfold lenN. rewrite A. fold (lenN (takeN (p_lambda (param_of i) / 8) stack)). rewrite lenN_takeN. lia.
Qed.

(** * crypto_sign *)
Lemma overwrite_sub mem pos b : pos + lenN b <= lenN mem -> sub (overwrite mem pos b) pos (lenN b) = b.
Proof.
  intros H. unfold overwrite. rewrite sub_eq. change (firstn (N.to_nat pos) mem) with (takeN pos mem).
  assert (HT : lenN (takeN pos mem) = pos) by (rewrite lenN_takeN; lia). rewrite <- HT at 1. rewrite dropN_app_exact. apply takeN_app_exact.
Qed.
Lemma overwrite_append mem pos a b : pos + lenN a + lenN b <= lenN mem -> overwrite (overwrite mem pos a) (pos + lenN a) b = overwrite mem pos (a ++ b).
Proof.
  intros H. unfold overwrite. rewrite lenN_app.
  change (takeN (pos + lenN a) (takeN pos mem ++ a ++ dropN (pos + lenN a) mem) ++ b ++ dropN (pos + lenN a + lenN b) (takeN pos mem ++ a ++ dropN (pos + lenN a) mem) =
    takeN pos mem ++ (a ++ b) ++ dropN (pos + (lenN a + lenN b)) mem).
  assert (HT : lenN (takeN pos mem ++ a) = pos + lenN a) by (rewrite lenN_app, lenN_takeN; lia).
  rewrite (app_assoc (takeN pos mem)). rewrite <- HT at 1. rewrite takeN_app_exact. rewrite <- !app_assoc. f_equal. f_equal. f_equal.
  rewrite app_assoc, <- (dropN_dropN (lenN b) (pos + lenN a)). rewrite <- HT at 1. rewrite dropN_app_exact, dropN_dropN. f_equal. lia.
Qed.

Section Crypto.
Variable xof : N -> list N -> N -> list N.
Hypothesis HX : xof_sized xof.
Variable i : paramid.

Lemma crypto_sign_ok os stack mem sm m mlen sk :
  fills os -> p_lambda (param_of i) / 8 <= lenN stack -> bytes_ok stack -> bytes_ok mem ->
  m + mlen <= lenN mem -> sm + mlen + sig_size i <= lenN mem ->
  sk_size i <= lenN sk -> bytes_ok sk -> valid_key i sk -> mlen + 168 <= 2 ^ 32 ->
  let msg := sub mem m mlen in
  exists S, lenN S = sig_size i /\ bytes_ok S /\ lenN msg = mlen /\
    crypto_sign xof i os stack mem sm m mlen sk = Ok (0%Z, overwrite mem sm (msg ++ S), mlen + sig_size i) /\
    verify xof i (Some (public_of i sk)) (Some msg) mlen (Some S) (sig_size i) = Ok 0%Z /\
    forall buf, lenN buf = sig_size i -> bytes_ok buf ->
      sign xof i os stack (Some sk) (Some msg) mlen (Some buf) (Some (sig_size i)) = Ok (0%Z, Some S, Some (sig_size i)).
Proof using HX.
  intros HO HSL HSB HMB HM HSM HL HB HV LM msg.
  assert (ML : lenN msg = mlen) by (subst msg; rewrite sub_eq, lenN_takeN, lenN_dropN; lia).
  assert (MB : bytes_ok msg) by (subst msg; rewrite sub_eq; apply Forall_takeN, Forall_dropN, HMB).
  set (rho := snd (os 0 (takeN (p_lambda (param_of i) / 8) stack))).
  pose proof (rho_drawn i os stack HO HSL HSB) as HR. fold rho in HR.
  destruct (sign_valid xof i HX sk msg (given (Some rho) (p_lambda (param_of i) / 8)) HL HB HV) as (w & a & b & _ & _ & SL & SB & ES & EV).
  set (S := signature_spec _ _ _ _ _ _ _ _ _) in *. exists S. split; [exact SL|]. split; [exact SB|]. split; [exact ML|].
  assert (G : forall buf, lenN buf = sig_size i -> bytes_ok buf ->
    sign xof i os stack (Some sk) (Some msg) mlen (Some buf) (Some (sig_size i)) = Ok (0%Z, Some S, Some (sig_size i))).
  { intros buf BL BB.
    rewrite sign_os; [|discriminate|discriminate|exists (sig_size i); split; [reflexivity|lia]|exact HSL]. fold rho.
    rewrite ES; try reflexivity; try assumption; try lia.
    2:{ cbn [readable]. lia. }
    2:{ cbn [given]. apply (takeN_all mlen). lia. }
    rewrite mu_short by exact LM. 
    pose proof (rho_given i _ _ HR (lb_small i)) as HRD. cbn beta iota in HRD. rewrite HRD.
    cbn [andb]. assert (EB : overwrite buf 0 S = S).
    { unfold overwrite. rewrite N.add_0_l, SL, <- BL. change (firstn (N.to_nat 0) buf) with (@nil N). cbn [app].
      change (S ++ dropN (lenN buf) buf = S). rewrite dropN_all by lia. apply app_nil_r. }
    rewrite EB. reflexivity. }
  split; [|split; [|exact G]].
  - unfold crypto_sign, memmove. rewrite slice_ok by lia. cbn [bind].
    assert (EM : takeN mlen (dropN m mem) = msg) by (symmetry; apply sub_eq). rewrite EM.
    rewrite overwrite_blit by lia. cbn [bind].
    assert (LM1 : lenN (overwrite mem sm msg) = lenN mem) by (apply overwrite_len; lia).
    rewrite slice_ok by lia. cbn [bind].
    assert (EN : takeN mlen (dropN sm (overwrite mem sm msg)) = msg).
    { rewrite <- sub_eq, <- ML. apply overwrite_sub. lia. }
    rewrite EN.
    rewrite slice_ok by lia. cbn [bind]. set (buf := takeN (sig_size i) _).
    assert (BL : lenN buf = sig_size i) by (subst buf; rewrite lenN_takeN, lenN_dropN; lia).
    assert (BB : bytes_ok buf) by (apply Forall_takeN, Forall_dropN, overwrite_bytes; assumption).
    rewrite G by assumption. cbn [bind]. rewrite overwrite_blit by lia. cbn [bind]. 
    replace (overwrite (overwrite mem sm msg) (sm + mlen) S) with (overwrite mem sm (msg ++ S)); [reflexivity|].
    rewrite <- ML. symmetry. apply overwrite_append. lia.
  - rewrite <- ML at 1. rewrite EV, mu_short; [reflexivity|]. rewrite ML. exact LM.
Qed.

Lemma crypto_open_cases mem m mlen0 sm smlen pk : bytes_ok mem -> sm + smlen <= lenN mem -> m + (smlen - sig_size i) <= lenN mem ->
  pk_size i <= lenN pk -> bytes_ok pk -> smlen - sig_size i + 168 <= 2 ^ 32 ->
  let n := smlen - sig_size i in let msg := sub mem sm n in let sg := sub mem (sm + n) (sig_size i) in
  (crypto_sign_open xof i mem m mlen0 sm smlen pk = Ok ((-1)%Z, mem, mlen0) /\
   (smlen < sig_size i \/ verify xof i (Some pk) (Some msg) n (Some sg) (sig_size i) = Ok (-1)%Z)) \/
  (crypto_sign_open xof i mem m mlen0 sm smlen pk = Ok (0%Z, overwrite mem m msg, n) /\
   sig_size i <= smlen /\ lenN msg = n /\ verify xof i (Some pk) (Some msg) n (Some sg) (sig_size i) = Ok 0%Z).
Proof using HX.
  intros HMB HSM HM HP BP LM n msg sg. unfold crypto_sign_open. destruct (smlen <? sig_size i) eqn:E; [left; split; [reflexivity|lia]|].
  cbv zeta. fold n. rewrite slice_ok by lia. cbn [bind]. rewrite slice_ok by lia. cbn [bind].
  assert (EM : takeN n (dropN sm mem) = msg) by (symmetry; apply sub_eq).
  assert (EG : takeN (sig_size i) (dropN (sm + n) mem) = sg) by (symmetry; apply sub_eq). rewrite EM, EG.
  assert (ML : lenN msg = n) by (rewrite <- EM, lenN_takeN, lenN_dropN; lia).
  destruct (verify_total xof i pk (Some msg) n sg (sig_size i) HX HP BP) as (r & ER & [->| ->]).
  { lia. } { exact LM. } { rewrite <- EG, lenN_takeN, lenN_dropN. lia. } { rewrite <- EG. apply Forall_takeN, Forall_dropN, HMB. }
  - rewrite ER. cbn [bind Z.eqb negb]. right. unfold memmove. rewrite slice_ok by lia. cbn [bind]. rewrite EM. rewrite overwrite_blit by lia. cbn [bind].
    split; [reflexivity|]. split; [lia|]. split; [exact ML|reflexivity].
  - rewrite ER. cbn [bind Z.eqb negb]. left. split; [reflexivity|]. right. reflexivity.
Qed.

Lemma crypto_round_trip os stack mem sm m mlen sk :
  fills os -> p_lambda (param_of i) / 8 <= lenN stack -> bytes_ok stack -> bytes_ok mem ->
  m + mlen <= lenN mem -> sm + mlen + sig_size i <= lenN mem ->
  sk_size i <= lenN sk -> bytes_ok sk -> valid_key i sk -> mlen + 168 <= 2 ^ 32 ->
  let msg := sub mem m mlen in
  exists signed, lenN signed = mlen + sig_size i /\ firstn (N.to_nat mlen) signed = msg /\
    crypto_sign xof i os stack mem sm m mlen sk = Ok (0%Z, overwrite mem sm signed, mlen + sig_size i) /\
    (forall buf, lenN buf = sig_size i -> bytes_ok buf ->
      sign xof i os stack (Some sk) (Some msg) mlen (Some buf) (Some (sig_size i)) = Ok (0%Z, Some (skipn (N.to_nat mlen) signed), Some (sig_size i))) /\
    (forall mem2 m2 mlen2 sm2, bytes_ok mem2 -> sm2 + lenN signed <= lenN mem2 -> m2 + mlen <= lenN mem2 ->
      sub mem2 sm2 (lenN signed) = signed ->
      crypto_sign_open xof i mem2 m2 mlen2 sm2 (lenN signed) (public_of i sk) = Ok (0%Z, overwrite mem2 m2 msg, mlen)).
Proof using HX.
  intros HO HSL HSB HMB HM HSM HL HB HV LM msg.
  destruct (crypto_sign_ok os stack mem sm m mlen sk HO HSL HSB HMB HM HSM HL HB HV LM) as (S & SL & SB & ML & EC & EV & ES).
  fold msg in ML, EC, EV, ES. exists (msg ++ S). rewrite lenN_app, ML, SL. split; [reflexivity|].
  split; [change (takeN mlen (msg ++ S) = msg); rewrite <- ML; apply takeN_app_exact|]. split; [exact EC|].
  split; [change (skipn (N.to_nat mlen) (msg ++ S)) with (dropN mlen (msg ++ S)); replace (dropN mlen (msg ++ S)) with S by (rewrite <- ML; symmetry; apply dropN_app_exact); exact ES|].
  intros mem2 m2 mlen2 sm2 B2 L2 LM2 E2. destruct (public_ok i sk HL HB) as [PL PB].
  assert (S1 : sub mem2 sm2 mlen = msg /\ sub mem2 (sm2 + mlen) (sig_size i) = S).
  { rewrite sub_eq in E2. assert (E3 := E2). apply (f_equal (takeN mlen)) in E2. apply (f_equal (dropN mlen)) in E3.
    rewrite takeN_takeN in E2. replace (N.min mlen (mlen + sig_size i)) with mlen in E2 by lia. rewrite <- ML in E2 at 2. rewrite takeN_app_exact in E2.
    rewrite <- ML in E3 at 3. rewrite dropN_app_exact in E3. rewrite !sub_eq. split; [exact E2|]. rewrite <- E3.
    apply (list_ext 0); [rewrite !lenN_dropN, !lenN_takeN, !lenN_dropN; lia|]. intros n Hn. rewrite lenN_takeN, lenN_dropN in Hn.
    rewrite nthN_takeN, !nthN_dropN by lia. rewrite nthN_takeN, nthN_dropN by lia. f_equal. lia. }
  destruct S1 as [S1 S2].
  pose proof (crypto_open_cases mem2 m2 mlen2 sm2 (mlen + sig_size i) (public_of i sk) B2 ltac:(lia)) as H.
  replace (mlen + sig_size i - sig_size i) with mlen in H by lia. cbv zeta in H. rewrite S1, S2 in H.
  destruct (H ltac:(lia) ltac:(lia) PB ltac:(lia)) as [[_ [K|K]]|[K _]]; [lia|rewrite EV in K; discriminate|exact K].
Qed.
End Crypto.

(** * End to end *)
Lemma verify_pk_prefix xof i pk message mlen sig : pk_size i <= lenN pk -> readable message mlen -> sig_size i <= lenN sig ->
  verify xof i (Some pk) message mlen (Some sig) (sig_size i) = verify xof i (Some (firstn (N.to_nat (pk_size i)) pk)) message mlen (Some sig) (sig_size i).
Proof.
  intros HP HM HS. change (firstn (N.to_nat (pk_size i)) pk) with (takeN (pk_size i) pk).
  destruct (verify_reads xof i pk message mlen sig HP HM HS) as (m & Lm & Vm & ->).
  destruct (verify_reads xof i (takeN (pk_size i) pk) message mlen sig) as (m' & Lm' & Vm' & ->); [rewrite lenN_takeN; lia|exact HM|exact HS|].
  rewrite takeN_takeN, N.min_id. rewrite Vm, Vm'. reflexivity.
Qed.
Lemma keygen_sign_verify xof i fuel os pk sk ret pk' sk' : xof_sized xof ->
  fills os -> pk_size i <= lenN pk -> sk_size i <= lenN sk -> bytes_ok sk ->
  keygen i os fuel (Some pk) (Some sk) = Ok (Some (ret, pk', sk')) ->
  forall message mlen rho rlen buf n,
  readable message mlen -> mlen + 168 <= 2 ^ 32 -> readable rho rlen -> rlen + 168 <= 2 ^ 32 ->
  sig_size i <= n -> n <= lenN buf -> bytes_ok buf ->
  exists buf', sign_with_randomness xof i sk' message mlen rho rlen (Some buf) (Some n) = Ok (0%Z, Some buf', Some (sig_size i)) /\
    verify xof i pk' message mlen (Some buf') (sig_size i) = Ok 0%Z.
Proof.
  intros HX HO HP HL HB E message mlen rho rlen buf n HM LM HR LR Hn Hb BB.
  destruct (keygen_valid i fuel os pk sk ret pk' sk' HO HP HL HB E) as (pkb & skb & _ & -> & -> & LP & LS & BS & HV & EP & _).
  destruct (sign_function xof i (takeN (sk_size i) skb) (given message mlen) (given rho rlen) HX) as (S & SL & SB & F).
  - rewrite lenN_takeN. lia.
  - apply Forall_takeN, BS.
  - assert (LT : lenN (takeN (sk_size i) skb) = sk_size i) by (rewrite lenN_takeN; lia).
    assert (EO : skb = overwrite skb 0 (takeN (sk_size i) skb)).
    { unfold overwrite. rewrite LT, N.add_0_l. symmetry. apply firstn_skipn. }
    destruct (overwrite_keys i skb (takeN (sk_size i) skb) skb LT ltac:(lia) EO) as [K1 K2]. unfold valid_key in *. rewrite <- K1, <- K2. exact HV.
  - rewrite given_len by exact HM. exact LM.
  - rewrite given_len by exact HR. exact LR.
  - assert (ES := F skb message mlen rho rlen buf n ltac:(lia) eq_refl HM eq_refl HR eq_refl Hn Hb BB).
    destruct (sign_verifies xof i skb message mlen rho rlen buf n) as (buf' & E1 & E2); try assumption; [lia|].
    exists buf'. split; [exact E1|]. rewrite E1 in ES. injection ES as ->. rewrite verify_pk_prefix; [rewrite EP; exact E2|lia|exact HM|].
    rewrite overwrite_len; lia.
Qed.

Lemma sign_random xof i os stack sk message mlen buf n : xof_sized xof -> fills os ->
  p_lambda (param_of i) / 8 <= lenN stack -> bytes_ok stack ->
  sk_size i <= lenN sk -> bytes_ok sk -> valid_key i sk -> readable message mlen -> mlen + 168 <= 2 ^ 32 ->
  sig_size i <= n -> n <= lenN buf -> bytes_ok buf ->
  exists buf', sign xof i os stack (Some sk) message mlen (Some buf) (Some n) = Ok (0%Z, Some buf', Some (sig_size i)) /\
    verify xof i (Some (public_of i sk)) message mlen (Some buf') (sig_size i) = Ok 0%Z.
Proof.
  intros HX HO HSL HSB HL HB HV HM LM Hn Hb BB. rewrite sign_os; [|discriminate|discriminate|eauto|exact HSL].
  apply sign_verifies; try assumption; [apply rho_drawn; assumption|apply lb_small].
Qed.

Lemma sign_success xof i sk message mlen rho rlen buf n : xof_sized xof ->
  sk_size i <= lenN sk -> bytes_ok sk -> valid_key i sk ->
  readable message mlen -> mlen + 168 <= 2 ^ 32 -> readable rho rlen -> rlen + 168 <= 2 ^ 32 ->
  sig_size i <= n -> n <= lenN buf -> bytes_ok buf ->
  exists S, lenN S = sig_size i /\ Forall (fun b => b < 256) S /\
    sign_with_randomness xof i (Some sk) message mlen rho rlen (Some buf) (Some n) = Ok (0%Z, Some (overwrite buf 0 S), Some (sig_size i)).
Proof.
  intros HX HL HB HV HM LM HR LR Hn Hb BB.
  destruct (sign_valid xof i HX sk (given message mlen) (given rho rlen) HL HB HV) as (w & a & b & _ & _ & SL & SB & ES & EV).
  eexists. split; [exact SL|]. split; [exact SB|]. rewrite ES by (assumption || reflexivity). rewrite mu_short, rho_given by assumption. reflexivity.
Qed.
Lemma validate_null i pk sk : pk = None \/ sk = None -> validate_keypair i pk sk = Ok (-1)%Z.
Proof. intros [->| ->]; [|reflexivity]. destruct sk; reflexivity. Qed.

Lemma sign_specified xof i : xof_sized xof -> forall sk msg r,
  sk_size i <= lenN sk -> bytes_ok sk -> valid_key i sk ->
  lenN msg + 168 <= 2 ^ 32 -> lenN r + 168 <= 2 ^ 32 ->
  let key := owf_key_of i sk in let inp := owf_input_of i sk in
  let out := owf_value i key inp in let pk := public_of i sk in
  exists w a b,
    aes_extend_witness i key inp = Ok w /\
    firstn (N.to_nat (owf_key_size i)) w = key /\
    Forall (fun xy => defect (F_of i) xy = 0) (claims i w inp out) /\
    aes_prove (param_of i) w (s_u xof i key pk msg r 0) (map (s_column xof i key pk msg r) (upto (p_lambda (param_of i)))) inp out
      (s_chall_2 xof i key pk msg r w) = Ok (a, b) /\
    let S := signature_spec xof i key pk msg r w a b in
    lenN S = sig_size i /\
    forall message mlen rho rlen buf n,
      readable message mlen -> given message mlen = msg -> readable rho rlen -> given rho rlen = r ->
      sig_size i <= n -> n <= lenN buf -> bytes_ok buf ->
      sign_with_randomness xof i (Some sk) message mlen rho rlen (Some buf) (Some n) =
        Ok (0%Z, Some (overwrite buf 0 S), Some (sig_size i)).
Proof.
  intros HX sk msg r HL HB HV LM LR key inp out pk.
  destruct (sign_valid xof i HX sk msg r HL HB HV) as (w & a & b & EW & EP & SL & SB & ES & EV).
  destruct (sk_parts i sk HL HB) as (A & B & LK & LI & BK & BI). destruct (owf_sk i sk HL HB) as (ok & E & F & LO & BO).
  apply F in HV. subst ok. destruct (witness_valid i _ _ _ LK BK LI BI E) as (w' & EW' & _ & _ & K & D & _).
  rewrite EW in EW'. injection EW' as <-. exists w, a, b. split; [exact EW|]. split; [exact K|]. split; [exact D|]. split; [exact EP|]. intros S. split; [exact SL|].
  intros message mlen rho rlen buf n HM EM HR ER Hn Hb BB. rewrite ES by assumption.
  pose proof (given_len message mlen HM). pose proof (given_len rho rlen HR). rewrite mu_short by congruence. assert (HD := rho_given i rho rlen HR ltac:(congruence)). rewrite ER in HD. rewrite HD. reflexivity.
Qed.
