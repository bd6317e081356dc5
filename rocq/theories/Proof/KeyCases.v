(** Concrete keys for the examples. *)
From Verif.Model Require Import Api.
From Verif.Spec Require Import OwfSpec VcSpec UHashSpec KeySpec.
From Verif.Proof Require Import BaseProof ApiProof ApiProps VerifyProps.

Definition demo_sk : list N := map N.of_nat (seq 0 16) ++ map (fun x => N.of_nat x * 17 mod 251) (seq 1 16).
Definition zero_sk : list N := repeat 0 32.

Lemma demo_size : lenN demo_sk = sk_size FAEST_128S. Proof. reflexivity. Qed.
Lemma demo_bytes : bytes_ok demo_sk. Proof. unfold demo_sk. repeat (constructor; [reflexivity|]). constructor. Qed.
Lemma zero_size : lenN zero_sk = sk_size FAEST_128S. Proof. reflexivity. Qed.
Lemma zeros_bytes n : bytes_ok (repeat 0 n).
Proof. apply Forall_forall. intros b Hb. apply repeat_spec in Hb. subst. reflexivity. Qed.
Lemma zeros_len n : lenN (repeat 0 n) = N.of_nat n.
Proof. unfold lenN. rewrite repeat_length. reflexivity. Qed.
Lemma upto_length n : lenN (repeat 0 (N.to_nat n)) = n.
Proof. rewrite zeros_len. apply Nnat.N2Nat.id. Qed.

Definition owf_ok (i : paramid) (sk : list N) : bool :=
  match owf i (owf_key_of i sk) (owf_input_of i sk) with Ok r => snd r | UB => false end.
Lemma owf_ok_valid i sk : sk_size i <= lenN sk -> bytes_ok sk -> (owf_ok i sk = true <-> valid_key i sk).
Proof.
  intros HL HB. destruct (owf_sk i sk HL HB) as (ok & E & F & _). unfold owf_ok. rewrite E. exact F.
Qed.
Lemma demo_valid : valid_key FAEST_128S demo_sk.
Proof. apply owf_ok_valid; [rewrite demo_size; apply N.le_refl|exact demo_bytes|]. vm_compute. reflexivity. Qed.
Lemma zero_invalid : ~ valid_key FAEST_128S zero_sk.
Proof.
  intros H. apply owf_ok_valid in H; [|rewrite zero_size; apply N.le_refl|apply zeros_bytes].
  assert (E : owf_ok FAEST_128S zero_sk = false) by (vm_compute; reflexivity). congruence.
Qed.

(** a source whose first draw is an invalid key and whose later draws are a valid one *)
Definition demo_os : rng := fun k old =>
  (true, if lenN old =? 32 then if k =? 0 then zero_sk else demo_sk else repeat 7 (length old)).
Lemma demo_fills : fills demo_os.
Proof.
  intros k old HB. unfold demo_os, snd. destruct (lenN old =? 32) eqn:E.
  - apply N.eqb_eq in E. unfold lenN in E. assert (length old = 32%nat) as -> by (apply Nnat.Nat2N.inj; exact E).
    destruct (k =? 0); split; try reflexivity; [apply zeros_bytes|exact demo_bytes].
  - split; [apply repeat_length|]. apply Forall_forall. intros b Hb. apply repeat_spec in Hb. subst. reflexivity.
Qed.

(** a source that always fails and writes nothing *)
Definition dead_os : rng := fun _ old => (false, old).
Lemma dead_broken : broken dead_os. Proof. intros k old. reflexivity. Qed.
Lemma dead_fills : fills dead_os. Proof. intros k old H. split; [reflexivity|exact H]. Qed.

(** keygen and sign with a dead source *)
Lemma keygen_dead i fuel pk sk : (0 < fuel)%nat -> pk_size i <= lenN pk -> sk_size i <= lenN sk -> bytes_ok sk ->
  valid_key i (firstn (N.to_nat (sk_size i)) sk) ->
  keygen i dead_os fuel (Some pk) (Some sk) = Ok (Some (0%Z, Some (overwrite pk 0 (public_of i sk)), Some sk)).
Proof.
  intros HF HP HL HB HV. destruct (keygen_ok i fuel dead_os pk sk dead_fills HP HL HB) as [[H _]|(k & Hk & Vk & NV & E)].
  - destruct (H 0%nat HF HV).
  - rewrite E. destruct k; [|destruct (NV 0%nat (PeanoNat.Nat.lt_0_succ k) HV)]. cbn [draw dead_os snd].
    change (firstn (N.to_nat (sk_size i)) sk) with (takeN (sk_size i) sk).
    assert (LT : lenN (takeN (sk_size i) sk) = sk_size i) by (rewrite lenN_takeN; apply N.min_l; exact HL).
    assert (EO : overwrite sk 0 (takeN (sk_size i) sk) = sk).
    { unfold overwrite. rewrite LT, N.add_0_l. apply firstn_skipn. }
    rewrite EO. destruct (overwrite_keys i sk (takeN (sk_size i) sk) sk LT HL (eq_sym EO)) as [K1 K2].
    unfold public_of. rewrite K1, K2. reflexivity.
Qed.
Lemma sign_dead xof i stack sk message mlen buf n : xof_sized xof ->
  p_lambda (param_of i) / 8 <= lenN stack -> bytes_ok stack ->
  sk_size i <= lenN sk -> bytes_ok sk -> valid_key i sk -> readable message mlen -> mlen + 168 <= 2 ^ 32 ->
  sig_size i <= n -> n <= lenN buf -> bytes_ok buf ->
  exists buf', sign xof i dead_os stack (Some sk) message mlen (Some buf) (Some n) = Ok (0%Z, Some buf', Some (sig_size i)) /\
    sign_with_randomness xof i (Some sk) message mlen (Some stack) (p_lambda (param_of i) / 8) (Some buf) (Some n) =
      Ok (0%Z, Some buf', Some (sig_size i)).
Proof.
  intros HX HS BS HL HB HV HM LM Hn Hb BB.
  assert (R1 : readable (Some stack) (p_lambda (param_of i) / 8)) by exact HS.
  assert (R2 := rho_drawn i dead_os stack dead_fills HS BS). cbn [dead_os snd] in R2.
  destruct (sign_function xof i (takeN (sk_size i) sk) (given message mlen) (given (Some stack) (p_lambda (param_of i) / 8)) HX) as (S & SL & SB & F).
  - rewrite lenN_takeN. apply N.min_l. exact HL.
  - apply Forall_takeN, HB.
  - assert (LT : lenN (takeN (sk_size i) sk) = sk_size i) by (rewrite lenN_takeN; apply N.min_l; exact HL).
    assert (EO : sk = overwrite sk 0 (takeN (sk_size i) sk)).
    { unfold overwrite. rewrite LT, N.add_0_l. symmetry. apply firstn_skipn. }
    destruct (overwrite_keys i sk (takeN (sk_size i) sk) sk LT HL EO) as [K1 K2]. unfold valid_key in *. rewrite <- K1, <- K2. exact HV.
  - rewrite given_len by exact HM. exact LM.
  - rewrite given_len by exact HS. apply lb_small.
  - exists (overwrite buf 0 S). split.
    + rewrite sign_os; [|discriminate|discriminate|eauto|exact HS]. cbn [dead_os snd].
      apply F; try assumption; try reflexivity. cbn [given]. change (takeN (p_lambda (param_of i) / 8) (takeN (p_lambda (param_of i) / 8) stack) = takeN (p_lambda (param_of i) / 8) stack).
      rewrite takeN_takeN, N.min_id. reflexivity.
    + apply F; try assumption; reflexivity.
Qed.

Lemma validate_cases :
  validate_keypair FAEST_128S (Some (repeat 0 32)) (Some zero_sk) = Ok 1%Z /\
  validate_keypair FAEST_128S (Some (public_of FAEST_128S demo_sk)) (Some demo_sk) = Ok 0%Z /\
  validate_keypair FAEST_128S (Some (repeat 0 32)) (Some demo_sk) = Ok 2%Z.
Proof.
  assert (L : lenN (public_of FAEST_128S demo_sk) = pk_size FAEST_128S).
  { apply public_ok; [discriminate|exact demo_bytes]. }
  assert (D : nth 1 (public_of FAEST_128S demo_sk) 0 = 1).
  { unfold public_of. rewrite app_nth1; [reflexivity|]. vm_compute. repeat constructor. }
  assert (E : firstn (N.to_nat (pk_size FAEST_128S)) (public_of FAEST_128S demo_sk) = public_of FAEST_128S demo_sk).
  { apply (takeN_all (pk_size FAEST_128S)). rewrite L. apply N.le_refl. }
  assert (P1 : pk_size FAEST_128S <= lenN (repeat 0 32)) by (rewrite zeros_len; discriminate).
  assert (S1 : sk_size FAEST_128S <= lenN demo_sk) by (rewrite demo_size; apply N.le_refl).
  assert (S2 : sk_size FAEST_128S <= lenN zero_sk) by (rewrite zero_size; apply N.le_refl).
  pose proof demo_valid as HV. pose proof zero_invalid as NV.
  split; [|split].
  - destruct (validate_ok FAEST_128S (repeat 0 32) zero_sk P1 S2 (zeros_bytes 32)) as [[_ H]|[[H _]|[H _]]]; [exact H|destruct (NV H)|destruct (NV H)].
  - destruct (validate_ok FAEST_128S (public_of FAEST_128S demo_sk) demo_sk) as [[H _]|[(_ & _ & H)|(_ & H & _)]];
      [rewrite L; apply N.le_refl|exact S1|exact demo_bytes|destruct (H HV)|exact H|destruct (H E)].
  - destruct (validate_ok FAEST_128S (repeat 0 32) demo_sk P1 S1 demo_bytes) as [[H _]|[(_ & H & _)|(_ & _ & H)]]; [destruct (H HV)| |exact H].
    exfalso. rewrite <- H in D. revert D. vm_compute. discriminate.
Qed.

Lemma crypto_case : let mem := [0; 10; 20; 30] ++ repeat 0 (N.to_nat 5010) in
  exists mem1, crypto_sign zero_xof FAEST_128S demo_os (repeat 0 16) mem 2 1 3 demo_sk = Ok (0%Z, mem1, 5009) /\
    crypto_sign_open zero_xof FAEST_128S mem1 0 99 2 5009 (public_of FAEST_128S demo_sk) = Ok (0%Z, overwrite mem1 0 [10; 20; 30], 3).
Proof.
  intros mem. assert (LM : lenN mem = 5014) by (unfold mem; rewrite lenN_app, upto_length; reflexivity).
  assert (BM : bytes_ok mem) by (apply Forall_app; split; [repeat (constructor; [reflexivity|]); constructor|apply zeros_bytes]).
  assert (EM : sub mem 1 3 = [10; 20; 30]) by reflexivity. clearbody mem.
  destruct (crypto_sign_ok zero_xof zero_sized FAEST_128S demo_os (repeat 0 16) mem 2 1 3 demo_sk demo_fills) as (S & LS & BS & _ & E & EV & _).
  { discriminate. } { apply zeros_bytes. } { exact BM. } { rewrite LM. discriminate. } { rewrite LM. discriminate. }
  { discriminate. } { exact demo_bytes. } { exact demo_valid. } { discriminate. }
  destruct (crypto_round_trip zero_xof zero_sized FAEST_128S demo_os (repeat 0 16) mem 2 1 3 demo_sk demo_fills) as (sg & LG & _ & E2 & _ & R).
  { discriminate. } { apply zeros_bytes. } { exact BM. } { rewrite LM. discriminate. } { rewrite LM. discriminate. }
  { discriminate. } { exact demo_bytes. } { exact demo_valid. } { discriminate. }
  rewrite E in E2. assert (E3 : overwrite mem 2 (sub mem 1 3 ++ S) = overwrite mem 2 sg) by congruence. clear E2.
  exists (overwrite mem 2 sg). rewrite E, E3. split; [reflexivity|].
  assert (LG' : lenN sg = 5009) by (rewrite LG; reflexivity).
  assert (LO : lenN (overwrite mem 2 sg) = 5014) by (rewrite overwrite_len; [exact LM|rewrite LM, LG'; discriminate]).
  rewrite LG' in R. rewrite <- EM. apply R.
  - rewrite <- E3. apply overwrite_bytes; [exact BM|]. apply Forall_app. split; [|exact BS]. rewrite EM. repeat (constructor; [reflexivity|]). constructor.
  - rewrite LO. discriminate.
  - rewrite LO. discriminate.
  - rewrite <- LG' at 1. apply overwrite_sub. rewrite LM, LG'. discriminate.
Qed.

Lemma open_case : let mem := [7] ++ repeat 0 (N.to_nat 5006) in
  crypto_sign_open zero_xof FAEST_128S mem 3 99 0 5007 (repeat 1 32) = Ok (0%Z, overwrite mem 3 [7], 1).
Proof.
  intros mem. assert (LM : lenN mem = 5007) by (unfold mem; rewrite lenN_app, upto_length; reflexivity).
  assert (BM : bytes_ok mem) by (apply Forall_app; split; [repeat (constructor; [reflexivity|]); constructor|apply zeros_bytes]).
  assert (EM : sub mem 0 1 = [7]) by reflexivity.
  assert (EG : sub mem 1 5006 = repeat 0 (N.to_nat 5006)).
  { unfold mem, sub. change (N.to_nat 1) with 1%nat. cbn [app skipn]. apply firstn_all2. rewrite repeat_length. apply le_n. }
  clearbody mem.
  assert (HB1 : bytes_ok (repeat 1 32)) by (apply Forall_forall; intros b Hb; apply repeat_spec in Hb; subst; reflexivity).
  pose proof (crypto_open_cases zero_xof zero_sized FAEST_128S mem 3 99 0 5007 (repeat 1 32) BM) as H. cbv zeta in H.
  change (sig_size FAEST_128S) with 5006 in H. change (5007 - 5006) with 1 in H. change (0 + 1) with 1 in H. rewrite EM, EG in H.
  destruct H as [[_ [H|H]]|[H _]]; [rewrite LM; discriminate|rewrite LM; discriminate|discriminate|exact HB1|discriminate|discriminate| |exact H].
  exfalso. revert H. pose proof (zero_accepts FAEST_128S (repeat 1 32) [7] (repeat 0 (N.to_nat 5006))) as Z.
  change (lenN [7]) with 1 in Z. change (sig_size FAEST_128S) with 5006 in Z. rewrite Z; [discriminate|..].
  - reflexivity.
  - exact HB1.
  - discriminate.
  - vm_compute. reflexivity.
  - apply zeros_bytes.
  - vm_compute. reflexivity.
Qed.
