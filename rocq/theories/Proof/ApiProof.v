(** The API on top of faest_sign and faest_verify. *)
From Verif.Model Require Import Api.
From Verif.Spec Require Import OwfSpec VcSpec VoleSpec FormatSpec FormatMap UHashSpec ConstraintMap RunSpec SignSpec KeySpec.
From Verif.Proof Require Import BaseProof PrgProof VcProof VcProps VoleProof VoleProps FormatProof CorrectProof UHashProof UHashProps WitnessProps
  VerifyProof VerifyProps SignProof HonestProof.
From Coq Require Import Lia ZifyBool ZifyNat ZifyN.
Ltac Zify.zify_post_hook ::= Z.div_mod_to_equations.

Lemma sk_sizes i : sk_size i = sk_bytes i /\ half i = owf_input_size i /\ p_lambda (param_of i) / 8 = owf_key_size i /\
  pk_size i = owf_input_size i + owf_input_size i.
Proof. destruct i; repeat split. Qed.

Section Keys.
Variable i : paramid.
Variable sk : list N.
Hypothesis HL : sk_size i <= lenN sk.
Hypothesis HB : bytes_ok sk.
Local Notation key := (owf_key_of i sk).
Local Notation inp := (owf_input_of i sk).

Lemma sk_parts : SK_KEY i sk = Ok key /\ SK_INPUT i sk = Ok inp /\ lenN key = owf_key_size i /\ lenN inp = owf_input_size i /\
  bytes_ok key /\ bytes_ok inp.
Proof using HL HB.
  destruct (sk_sizes i) as (E1 & E2 & E3 & _). unfold sk_bytes in E1. rewrite E1 in HL. unfold SK_KEY, SK_INPUT, owf_key_of, owf_input_of. rewrite E2, E3, !sub_eq.
  rewrite !slice_ok by lia. rewrite dropN_0, !lenN_takeN, lenN_dropN.
  repeat split; try lia; try (apply Forall_takeN, HB). apply Forall_takeN, Forall_dropN, HB.
Qed.
Lemma owf_sk : exists ok, owf i key inp = Ok (owf_value i key inp, ok) /\ (ok = true <-> valid_key i sk) /\
  lenN (owf_value i key inp) = owf_input_size i /\ bytes_ok (owf_value i key inp).
Proof using HL HB.
  destruct sk_parts as (_ & _ & A & B & C & D). destruct (owf_correct i key inp A C B D) as (ok & E & F).
  exists ok. split; [exact E|]. split; [exact F|]. apply owf_value_facts; assumption.
Qed.
Lemma valid_dec : {valid_key i sk} + {~ valid_key i sk}.
Proof using HL HB.
  destruct (owf i key inp) as [[o [|]]|] eqn:E.
  - left. destruct owf_sk as (ok & E' & F & _). rewrite E in E'. injection E' as _ <-. apply F. reflexivity.
  - right. destruct owf_sk as (ok & E' & F & _). rewrite E in E'. injection E' as _ <-. intros H. apply F in H. discriminate.
  - left. destruct owf_sk as (ok & E' & F & _). rewrite E in E'. discriminate.
Qed.
Lemma public_ok : lenN (public_of i sk) = pk_size i /\ bytes_ok (public_of i sk).
Proof using HL HB.
  destruct sk_parts as (_ & _ & A & B & C & D). destruct owf_sk as (ok & _ & _ & F & G). destruct (sk_sizes i) as (_ & _ & _ & E). unfold public_of.
  split; [rewrite lenN_app, B, F; symmetry; exact E|apply Forall_app; auto].
Qed.
End Keys.

Lemma rho_short i rho : lenN (rho_bytes rho) + 168 <= 2 ^ 32 -> rho_defined i rho = true.
Proof.
  destruct rho as [r|]; cbn [rho_bytes rho_defined]; intros H; [|reflexivity]. rewrite absorb_short; [apply orb_true_r|..].
  - apply N.mod_lt. destruct (_ =? _); lia.
  - destruct (_ =? _); lia.
  - exact H.
Qed.

Lemma overwrite_blit mem pos b : pos + lenN b <= lenN mem -> blit mem pos b = Ok (overwrite mem pos b).
Proof. intros H. rewrite blit_ok by exact H. reflexivity. Qed.

Section Sign.
Variable xof : N -> list N -> N -> list N.
Variable i : paramid.
Local Notation p := (param_of i).

Lemma sign_arguments sk message mlen rho rlen signature siglen :
  sk = None \/ signature = None \/ siglen = None \/ (exists n, siglen = Some n /\ n < sig_size i) \/ (rho = None /\ rlen <> 0) ->
  sign_with_randomness xof i sk message mlen rho rlen signature siglen = Ok ((-1)%Z, signature, siglen).
Proof using.
  unfold sign_with_randomness. destruct sk as [s|], signature as [g|], siglen as [n|]; try reflexivity.
  intros [H|[H|[H|[(n' & H & Hn)|[-> H]]]]]; try discriminate.
  - injection H as ->. replace (n' <? sig_size i) with true by lia. reflexivity.
  - replace (rlen =? 0) with false by lia. cbn [negb]. rewrite orb_true_r. reflexivity.
Qed.
Lemma sign_invalid sk message mlen rho rlen buf n : sk_size i <= lenN sk -> bytes_ok sk -> ~ valid_key i sk ->
  sign_with_randomness xof i (Some sk) message mlen rho rlen (Some buf) n = Ok ((-1)%Z, Some buf, n).
Proof using.
  intros HL HB HV. unfold sign_with_randomness. destruct n as [n|]; [|reflexivity]. destruct (_ || _); [reflexivity|].
  destruct (sk_parts i sk HL HB) as (A & B & _). rewrite A, B. cbn [bind]. destruct (owf_sk i sk HL HB) as (ok & E & F & _). rewrite E. cbn [bind snd].
  destruct ok; [|reflexivity]. destruct HV. apply F. reflexivity.
Qed.

Hypothesis HX : xof_sized xof.
(** the signature of a message by a valid key *)
Lemma sign_valid sk msg r : sk_size i <= lenN sk -> bytes_ok sk -> valid_key i sk -> 
  exists w a b, let key := owf_key_of i sk in let inp := owf_input_of i sk in let pk := public_of i sk in
    aes_extend_witness i key inp = Ok w /\
    aes_prove p w (s_u xof i key pk msg r 0) (map (s_column xof i key pk msg r) (upto (p_lambda p))) inp
      (owf_value i key inp) (s_chall_2 xof i key pk msg r w) = Ok (a, b) /\
    let S := signature_spec xof i key pk msg r w a b in
    lenN S = sig_size i /\ bytes_ok S /\
    (forall message mlen rho rlen buf n, sig_size i <= n -> n <= lenN buf -> bytes_ok buf ->
       readable message mlen -> given message mlen = msg -> readable rho rlen -> given rho rlen = r ->
       sign_with_randomness xof i (Some sk) message mlen rho rlen (Some buf) (Some n) =
       if mu_defined i mlen && rho_defined i (match rho with Some _ => Some r | None => None end)
       then Ok (0%Z, Some (overwrite buf 0 S), Some (sig_size i)) else UB) /\
    verify xof i (Some pk) (Some msg) (lenN msg) (Some S) (sig_size i) = if mu_defined i (lenN msg) then Ok 0%Z else UB.
Proof using HX.
  intros HL HB HV. destruct (sk_parts i sk HL HB) as (A & B & LK & LI & BK & BI). destruct (owf_sk i sk HL HB) as (ok & E & F & LO & BO).
  apply F in HV. subst ok. destruct (sign_exact xof HX i _ _ _ msg r LK BK LI BI E) as (w & a & b & EW & EP & SL & SB & ES & EV).
  exists w, a, b. intros key inp pk. split; [exact EW|]. split; [exact EP|]. intros S. split; [exact SL|]. split; [exact SB|]. split.
  - intros message mlen rho rlen buf n Hn Hbuf BB HM EM HR ER. unfold sign_with_randomness. 
    replace (n <? sig_size i) with false by lia. replace (match rho with None => negb (rlen =? 0) | Some _ => false end) with false.
    2:{ destruct rho; [reflexivity|]. cbn [readable] in HR. subst rlen. reflexivity. }
    cbn [orb]. rewrite A, B. cbn [bind]. rewrite E. cbn [bind snd fst].
    destruct (read_msg_ok message mlen HM) as (m & Lm & Em & Vm). rewrite Em. cbn [bind].
    assert (m = msg) by (rewrite Vm, <- EM; destruct message; reflexivity). clear Vm. subst m.
    assert (ERH : (match rho with Some rb => let! x := slice rb 0 rlen in Ok (Some x) | None => Ok None end) =
                  Ok (match rho with Some _ => Some r | None => None end)).
    { destruct rho as [rb|]; [|reflexivity]. cbn [readable given] in *. rewrite slice_ok by lia. rewrite dropN_0. cbn [bind]. rewrite <- ER. reflexivity. }
    rewrite ERH. cbn [bind]. rewrite slice_ok by lia. cbn [bind]. rewrite dropN_0.
    rewrite (ES _ (match rho with Some _ => Some r | None => None end)).
    2:{ rewrite lenN_takeN. unfold sig_size in *. lia. } 2:{ apply Forall_takeN, BB. }
    2:{ destruct rho; [reflexivity|]. exact ER. }
    rewrite Lm. destruct (_ && _); [|reflexivity]. cbn [bind]. change (signature_spec _ _ _ _ _ _ _ _ _) with S.
    assert (SL' : lenN S = sig_size i) by exact SL. rewrite overwrite_blit by lia. reflexivity.
  - unfold verify. rewrite N.eqb_refl. cbn [negb read_msg]. rewrite slice_full' by reflexivity. cbn [bind].
    rewrite slice_full' by exact SL. cbn [bind]. destruct (sk_sizes i) as (_ & E2 & _ & E4). unfold PK_INPUT, PK_OUTPUT. rewrite E2.
    unfold pk, public_of. fold key inp. fold key inp in LI, LO, EV. fold key inp in EV. rewrite !slice_ok by (rewrite lenN_app, LI, LO; lia). cbn [bind]. rewrite dropN_0.
    rewrite <- LI at 1. rewrite takeN_app_exact. rewrite <- LI at 2. rewrite dropN_app_exact. rewrite takeN_all by (rewrite LO; lia).
    change S with (signature_spec xof i key (inp ++ owf_value i key inp) msg r w a b). rewrite EV. destruct (mu_defined _ _); reflexivity.
Qed.
End Sign.
