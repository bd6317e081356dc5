(** The translated hashes of the transcript: faest.c, hash_mu, hash_challenge_1, hash_challenge_2 and hash_challenge_3. *)
From Coq Require Import ZArith NArith List Bool FMapPositive Lia ZifyBool ZifyNat ZifyN.
From Verif Require Import Model.Base Proof.BaseProof Spec.KeccakSpec Spec.VcSpec Spec.RunSpec Spec.RefTranscriptSpec.
From Verif Require Import Model.CtLang Model.CtNames Model.CtFaest Model.CtProgram Spec.RefSpec Spec.RefVcSpec Proof.RefLogic Proof.RefTac Proof.RefMem Proof.RefProps Proof.RefSnp Proof.RefKeccak Proof.RefSponge Proof.RefHash Proof.RefFresh Proof.RefLeaf Proof.RefShakeProps.
Import ListNotations.
Local Open Scope Z_scope.
Arguments wrap : simpl never.

Lemma code_hash_mu : PositiveMap.find f_hash_mu code = Some c_hash_mu. Proof. vm_compute. reflexivity. Qed.
Lemma code_hash_challenge_1 : PositiveMap.find f_hash_challenge_1 code = Some c_hash_challenge_1. Proof. vm_compute. reflexivity. Qed.
Lemma code_hash_challenge_2 : PositiveMap.find f_hash_challenge_2 code = Some c_hash_challenge_2. Proof. vm_compute. reflexivity. Qed.
Lemma code_hash_challenge_3 : PositiveMap.find f_hash_challenge_3 code = Some c_hash_challenge_3. Proof. vm_compute. reflexivity. Qed.
Lemma code_H2_init : PositiveMap.find f_H2_init code = Some code_init. Proof. vm_compute. reflexivity. Qed.
Lemma code_H2_update : PositiveMap.find f_H2_update code = Some code_update. Proof. vm_compute. reflexivity. Qed.
Lemma code_H2_final : PositiveMap.find f_H2_final code = Some (code_final1 10). Proof. vm_compute. reflexivity. Qed.

(** ** Feeding a list of buffers *)
(** a variable that points to a buffer, the expression for its length, the buffer and what is in it *)
Record feed := Feed { fvar : positive; fsize : expr; fblock : positive; foff : Z; fdata : list N }.
Fixpoint feeds (f a : positive) (l : list feed) (s : stmt) : stmt :=
  match l with [] => s | x :: r => SCall None f [EVar a; EVar (fvar x); fsize x] ;; feeds f a r s end.
Definition fed (en : env) (x : feed) : Prop := lookup en (fvar x) = VPtr (fblock x) (foff x) /\ forall m, pe en m (fsize x) (VInt (ofN (lenN (fdata x)))).
Definition edible (m : mem) (x : feed) : Prop := holds m (fblock x) (foff x) (fdata x) /\ bytes_ok (fdata x) /\ (lenN (fdata x) + 200 <= 2 ^ 32)%N /\ spot m (fblock x).
Definition meal (l : list feed) : list N := concat (map fdata l).

Lemma wp_feeds f a s en L lam (Q : outcome -> env -> mem -> Prop) : PositiveMap.find f code = Some code_update -> lookup en a = VPtr (cx L) 0 ->
  forall l m D, absorbing m L lam D -> Forall (fed en) l -> Forall (fun x => edible m x /\ ~ In (fblock x) (blocks L)) l ->
  (forall m', frame m m' (foot L) -> absorbing m' L lam (D ++ meal l) -> wp code s en m' Q) -> wp code (feeds f a l s) en m Q.
Proof.
  intros FC EA. induction l as [|x l IH]; intros m D AB FE ED K; cbn [feeds].
  - apply K; [apply frame_refl|]. unfold meal. cbn [map concat]. rewrite app_nil_r. exact AB.
  - inversion FE as [|? ? [F1 F2] FR]. subst. inversion ED as [|? ? [(E1 & E2 & E3 & E4) E5] ER]. subst. seq.
    eapply wp_callf; [eapply pes_cons; [apply pe_var, EA|eapply pes_cons; [apply pe_var, F1|eapply pes_cons; [apply F2|apply pes_nil]]]|apply (ref_H_update f m L lam D); assumption|].
    intros v m1 (G1 & AB1). cbn [set]. assert (M := proj1 G1). eapply IH; [exact AB1|exact FR| |].
    + rewrite Forall_forall in ER |- *. intros y I. destruct (ER y I) as ((Y1 & Y2 & Y3 & Y4) & Y5). split; [|exact Y5]. split; [|split; [exact Y2|split; [exact Y3|]]].
      * eapply off_set; [exact Y1|exact G1|]. intros q Z. apply foot_in in Z. exact (Y5 Z).
      * destruct Y4 as [Y4 Y6]. split; [lia|exact Y6].
    + intros m2 G2 AB2. apply K; [eapply frame_comp; [exact G1|exact G2|intros b q _ _ Z; exact Z]|]. unfold meal in *. cbn [map concat]. rewrite app_assoc. exact AB2.
Qed.

(** A context, the buffers, and the output. *)
Lemma wp_hashed fi fu ff gl kl a b c d e g h i lv l ob oo sz n en m lam (Q : outcome -> env -> mem -> Prop) :
  PositiveMap.find fi code = Some code_init -> PositiveMap.find fu code = Some code_update -> PositiveMap.find ff code = Some (code_final1 gl) ->
  holds m gl 0 [kl] -> (kl < 256)%N -> spot m gl -> NoDup [a; b; c; d; e; g; h; i] -> ~ In lv [a; b; c; d; e; g; h; i] -> kconst m -> lookup en lv = VInt (ofN lam) -> (lam < 2 ^ 32)%N ->
  Forall (edible m) l -> (forall en', agree [a; b; c; d; e; g; h; i] en en' -> Forall (fed en') l) -> inb m ob oo (ofN n) -> spot m ob -> (n + 200 <= 2 ^ 32)%N ->
  (forall en' m', agree [a; b; c; d; e; g; h; i] en en' -> exists x y, sz = [x; y] /\ pe en' m' x (VPtr ob oo) /\ pe en' m' y (VInt (ofN n))) ->
  (forall en' m', frame m m' (at_ ob oo (ofN n)) -> holds m' ob oo (shake lam (meal l ++ [kl]) n) -> Q ONormal en' m') ->
  wp code (code_context a b c d e g h i 200 (SCall None fi [EVar a; EVar lv] ;; feeds fu a l (SCall None ff (EVar a :: sz)))) en m Q.
Proof.
  intros CI CU CF HG KL SG ND NV KC EL LL ED FE IO SO LN SZ K. eapply (wp_started fi); try eassumption.
  intros m1 L e1 F1 NW NB AB EA AG. assert (M1 := proj1 F1).
  assert (OFF : forall x, spot m x -> ~ In x (blocks L)) by (intros x; apply (off_new m m1 L x NW)).
  eapply (wp_feeds fu a); [exact CU|exact EA|exact AB|apply FE, AG| |].
  { rewrite Forall_forall in ED |- *. intros y I. destruct (ED y I) as (Y1 & Y2 & Y3 & Y4). split; [|apply OFF, Y4]. split; [eapply off_set; [exact Y1|exact F1|intros q []]|]. split; [exact Y2|]. split; [exact Y3|]. destruct Y4 as [Y4 Y5]. split; [lia|exact Y5]. }
  intros m2 F2 AB2. cbn [app] in AB2.
  destruct (SZ e1 m2 AG) as (x & y & -> & X & Y).
  assert (FN : forall b, spot m b -> forall q, ~ foot L b q) by (intros z Z q W; apply foot_in in W; exact (OFF z Z W)).
  eapply wp_callf; [eapply pes_cons; [apply pe_var, EA|eapply pes_cons; [exact X|eapply pes_cons; [exact Y|apply pes_nil]]]| |].
  { apply (ref_H_final1 ff gl kl m2 L lam (meal l) ob oo n); [exact CF|exact AB2| |exact KL|apply OFF, SG| |apply OFF, SO|exact LN].
    - eapply off_set; [eapply off_set; [exact HG|exact F1|intros q []]|exact F2|apply FN, SG].
    - eapply inb_frame; [exact F2|]. eapply inb_frame; [exact F1|exact IO]. }
  intros v m3 (F3 & H3). cbn [set]. apply K; [|exact H3].
  eapply frame_comp; [eapply frame_comp; [eapply frame_weak; [exact F1|intros z q _ _ []]|exact F2|]|exact F3|].
  - intros z q I _ W. exfalso. exact (foot_new m m1 L z q NW NB W I).
  - intros z q I _ [W|W]; [exfalso; exact (foot_new m m1 L z q NW NB W I)|exact W].
Qed.

(** ** The hashes of the transcript *)
Definition as_feed (x : positive) (s : expr) (u : buffer) : feed := let '(b, o, l) := u in Feed x s b o l.
Lemma as_feed_data x s u : fdata (as_feed x s u) = bytes_in u. Proof. destruct u as [[b o] l]. reflexivity. Qed.
Lemma filled_edible m x s u : filled m u -> edible m (as_feed x s u).
Proof.
  destruct u as [[b o] l]. intros (A & B & C & D). unfold edible. cbn [as_feed fdata fblock foff]. split; [apply holds_stands, A|]. split; [exact B|]. split; [exact C|].
  assert (D' : (12 < b)%positive) by exact D. clear D. split; [|lia]. apply holds_stands in A. exact (proj1 (proj1 A)).
Qed.
Lemma fed_as en x s u : lookup en x = pointer u -> (forall m, pe en m s (VInt (ofN (size_of u)))) -> fed en (as_feed x s u).
Proof. destruct u as [[b o] l]. intros A B. split; [exact A|]. exact B. Qed.
Lemma separator_spot m g k : loaded m -> In (g, [Z.of_N k]) constants -> g <> 1%positive -> spot m g.
Proof. intros L I N. split; [exact (proj1 (proj1 (loaded_separator m g k L I)))|exact N]. Qed.
Lemma open_spot m b o n : open_for m (b, o, n) -> inb m b o (ofN n) /\ spot m b.
Proof. intros [R G]. assert (G' : (12 < b)%positive) by exact G. apply room_inb in R. split; [exact R|]. split; [exact (proj1 R)|clear - G'; lia]. Qed.

Ltac nodup := repeat (apply NoDup_cons; [cbn [In]; intuition discriminate|]); apply NoDup_nil.
Ltac notin := cbn [In]; intuition discriminate.
Ltac agl AG := match goal with |- lookup _ ?x = _ => rewrite (AG x ltac:(notin)); look end.
Ltac ag AG := apply pe_var; agl AG.

(** The arguments that point to the buffers, and their lengths. *)
Ltac fed_by AG := repeat (apply Forall_cons; [apply fed_as; [agl AG|intros m0; cbv beta]|]); [..|apply Forall_nil].

Section Hashes.
Variables (lam : N) (m : mem).
Hypothesis HL : security_level lam.
Hypothesis LD : loaded m.
Lemma lam_small : (0 < lam / 8 /\ lam / 8 < 2 ^ 16 /\ lam < 2 ^ 16 /\ 2 * lam / 8 = lam / 8 * 2)%N.
Proof. destruct HL as [->|[->| ->]]; vm_compute; auto. Qed.

Lemma mu_returns inp out msg ub uo : filled m inp -> filled m out -> filled m msg -> size_of out = size_of inp -> open_for m (ub, uo, lam / 8 * 2)%N ->
  exists v m', returns f_hash_mu [VPtr ub uo; pointer inp; pointer out; VInt (Z.of_N (size_of inp)); pointer msg; VInt (Z.of_N (size_of msg)); VInt (Z.of_N lam)] m v m' /\
    stands m' ub uo (H1 shake lam (bytes_in inp ++ bytes_in out ++ bytes_in msg)) /\ unchanged m m' (over (ub, uo, lam / 8 * 2)%N).
Proof.
  intros F1 F2 F3 ES OP. destruct lam_small as (S0 & S1 & S2 & S3). destruct (open_spot _ _ _ _ OP) as [IO SO].
  enough (C : calls code f_hash_mu [VPtr ub uo; pointer inp; pointer out; VInt (Z.of_N (size_of inp)); pointer msg; VInt (Z.of_N (size_of msg)); VInt (Z.of_N lam)] m
    (fun _ m' => frame m m' (at_ ub uo (ofN (lam / 8 * 2))) /\ holds m' ub uo (H1 shake lam (bytes_in inp ++ bytes_in out ++ bytes_in msg)))).
  { destruct (calls_returns _ _ _ _ C) as (v & m' & R & F & H). exists v, m'. split; [exact R|]. split; [apply holds_stands, H|]. eapply frame_unchanged; [exact F|]. intros b q X. exact X. }
  destruct inp as [[ib io] il], out as [[tb to] tl], msg as [[gb go] gl]. start code_hash_mu.
  eapply (wp_hashed f_H1_init f_H1_update f_H1_final 9 1 8 9 10 11 12 13 14 15 7 [as_feed 2 (EVar 4) (ib, io, il); as_feed 3 (EVar 4) (tb, to, tl); as_feed 5 (EVar 6) (gb, go, gl)] ub uo _ (lam / 8 * 2) _ m lam);
    [exact code_H1_init|exact code_H1_update|exact code_H1_final|exact (loaded_separator m 9 1 LD ltac:(vm_compute; auto 20))|reflexivity|exact (separator_spot m 9 1 LD ltac:(vm_compute; auto 20) ltac:(discriminate))|nodup|notin|apply loaded_kconst, LD|look|lia| | |exact IO|exact SO|lia| |].
  - repeat (apply Forall_cons; [apply filled_edible; assumption|]). apply Forall_nil.
  - intros en' AG. fed_by AG.
    + ag AG.
    + rewrite ES. ag AG.
    + ag AG.
  - intros en' m' AG. eexists _, _. split; [reflexivity|]. split; [ag AG|].
    assert (E7 : lookup en' 7%positive = VInt (ofN lam)) by agl AG. eapply pe_eq; [ev|]. simp. rewrite wrap_u32 by lia. replace (2 * ofN lam) with (ofN (2 * lam)) by lia. rewrite div8 by lia. rewrite S3. reflexivity.
  - intros en' m' F H. split; [exact F|]. unfold H1. rewrite shake_level. unfold meal in H. cbn [map as_feed fdata concat bytes_in snd] in *. rewrite app_nil_r in H. exact H.
Qed.

Lemma challenge_3_returns chal a b ub uo : filled m chal -> filled m a -> filled m b -> size_of chal = (3 * (lam / 8) + 8)%N -> size_of a = (lam / 8)%N -> size_of b = (lam / 8)%N -> open_for m (ub, uo, lam / 8)%N ->
  exists v m', returns f_hash_challenge_3 [VPtr ub uo; pointer chal; pointer a; pointer b; VInt (Z.of_N lam)] m v m' /\
    stands m' ub uo (H2 shake lam (bytes_in chal ++ bytes_in a ++ bytes_in b) (lam / 8)) /\ unchanged m m' (over (ub, uo, lam / 8)%N).
Proof.
  intros F1 F2 F3 E1 E2 E3 OP. destruct lam_small as (S0 & S1 & S2 & S3). destruct (open_spot _ _ _ _ OP) as [IO SO].
  enough (C : calls code f_hash_challenge_3 [VPtr ub uo; pointer chal; pointer a; pointer b; VInt (Z.of_N lam)] m
    (fun _ m' => frame m m' (at_ ub uo (ofN (lam / 8))) /\ holds m' ub uo (H2 shake lam (bytes_in chal ++ bytes_in a ++ bytes_in b) (lam / 8)))).
  { destruct (calls_returns _ _ _ _ C) as (v & m' & R & F & H). exists v, m'. split; [exact R|]. split; [apply holds_stands, H|]. eapply frame_unchanged; [exact F|]. intros c q X. exact X. }
  destruct chal as [[cb co] cl], a as [[ab ao] al], b as [[bb bo] bl]. start code_hash_challenge_3.
  seq. eapply wp_set; [eapply pe_eq; [ev|simp; rewrite div8 by lia; reflexivity]|].
  eapply (wp_hashed f_H2_init f_H2_update f_H2_final 10 2 7 8 9 10 11 12 13 14 5 [as_feed 2 (EBin OAdd u32 (EBin OMul u32 (EInt 3) (EVar 6)) (EInt 8)) (cb, co, cl); as_feed 3 (EVar 6) (ab, ao, al); as_feed 4 (EVar 6) (bb, bo, bl)] ub uo _ (lam / 8) _ m lam);
    [exact code_H2_init|exact code_H2_update|exact code_H2_final|exact (loaded_separator m 10 2 LD ltac:(vm_compute; auto 20))|reflexivity|exact (separator_spot m 10 2 LD ltac:(vm_compute; auto 20) ltac:(discriminate))|nodup|notin|apply loaded_kconst, LD|look|lia| | |exact IO|exact SO|lia| |].
  - repeat (apply Forall_cons; [apply filled_edible; assumption|]). apply Forall_nil.
  - intros en' AG. assert (E6 : lookup en' 6%positive = VInt (ofN (lam / 8))) by agl AG. fed_by AG.
    + rewrite E1. eapply pe_eq; [ev|]. simp. rewrite !wrap_u32 by (rewrite ?wrap_u32; lia). f_equal. lia.
    + rewrite E2. ag AG.
    + rewrite E3. ag AG.
  - intros en' m' AG. eexists _, _. split; [reflexivity|]. split; ag AG.
  - intros en' m' F H. split; [exact F|]. unfold H2. rewrite shake_level. unfold meal in H. cbn [map as_feed fdata concat bytes_in snd] in *. rewrite app_nil_r in H. exact H.
Qed.

Lemma challenge_2_returns ell chal u hv d ub uo : filled m chal -> filled m u -> filled m hv -> filled m d ->
  size_of chal = (5 * (lam / 8) + 8)%N -> size_of u = (lam / 8 + 2)%N -> size_of hv = (2 * (lam / 8))%N -> size_of d = (ell / 8)%N -> (ell < 2 ^ 32)%N -> open_for m (ub, uo, 3 * (lam / 8) + 8)%N ->
  exists v m', returns f_hash_challenge_2 [VPtr ub uo; pointer chal; pointer u; pointer hv; pointer d; VInt (Z.of_N lam); VInt (Z.of_N ell)] m v m' /\
    stands m' ub uo (H2 shake lam (bytes_in chal ++ bytes_in u ++ bytes_in hv ++ bytes_in d) (3 * (lam / 8) + 8)) /\ unchanged m m' (over (ub, uo, 3 * (lam / 8) + 8)%N).
Proof.
  intros F1 F2 F3 F4 E1 E2 E3 E4 EL OP. destruct lam_small as (S0 & S1 & S2 & S3). destruct (open_spot _ _ _ _ OP) as [IO SO].
  enough (C : calls code f_hash_challenge_2 [VPtr ub uo; pointer chal; pointer u; pointer hv; pointer d; VInt (Z.of_N lam); VInt (Z.of_N ell)] m
    (fun _ m' => frame m m' (at_ ub uo (ofN (3 * (lam / 8) + 8))) /\ holds m' ub uo (H2 shake lam (bytes_in chal ++ bytes_in u ++ bytes_in hv ++ bytes_in d) (3 * (lam / 8) + 8)))).
  { destruct (calls_returns _ _ _ _ C) as (v & m' & R & F & H). exists v, m'. split; [exact R|]. split; [apply holds_stands, H|]. eapply frame_unchanged; [exact F|]. intros c q X. exact X. }
  destruct chal as [[cb co] cl], u as [[ab ao] al], hv as [[bb bo] bl], d as [[db dof] dl]. start code_hash_challenge_2.
  seq. eapply wp_set; [eapply pe_eq; [ev|simp; rewrite div8 by lia; reflexivity]|].
  seq. eapply wp_set; [eapply pe_eq; [ev|simp; rewrite div8 by lia; reflexivity]|].
  seq. eapply wp_set; [eapply pe_eq; [ev|simp; rewrite wrap_u32 by lia; reflexivity]|].
  eapply (wp_hashed f_H2_init f_H2_update f_H2_final 10 2 11 12 13 14 15 16 17 18 6 [as_feed 2 (EBin OAdd u32 (EBin OMul u32 (EInt 5) (EVar 8)) (EInt 8)) (cb, co, cl); as_feed 3 (EVar 10) (ab, ao, al);
      as_feed 4 (EBin OMul u32 (EInt 2) (EVar 8)) (bb, bo, bl); as_feed 5 (EVar 9) (db, dof, dl)] ub uo _ (3 * (lam / 8) + 8) _ m lam);
    [exact code_H2_init|exact code_H2_update|exact code_H2_final|exact (loaded_separator m 10 2 LD ltac:(vm_compute; auto 20))|reflexivity|exact (separator_spot m 10 2 LD ltac:(vm_compute; auto 20) ltac:(discriminate))|nodup|notin|apply loaded_kconst, LD|look|lia| | |exact IO|exact SO|lia| |].
  - repeat (apply Forall_cons; [apply filled_edible; assumption|]). apply Forall_nil.
  - intros en' AG. assert (E8 : lookup en' 8%positive = VInt (ofN (lam / 8))) by agl AG. fed_by AG.
    + rewrite E1. eapply pe_eq; [ev|]. simp. rewrite !wrap_u32 by (rewrite ?wrap_u32; lia). f_equal. lia.
    + rewrite E2. eapply pe_eq; [ag AG|]. f_equal. lia.
    + rewrite E3. eapply pe_eq; [ev|]. simp. rewrite wrap_u32 by lia. f_equal. lia.
    + rewrite E4. ag AG.
  - intros en' m' AG. assert (E8 : lookup en' 8%positive = VInt (ofN (lam / 8))) by agl AG. eexists _, _. split; [reflexivity|]. split; [ag AG|].
    eapply pe_eq; [ev|]. simp. rewrite !wrap_u32 by (rewrite ?wrap_u32; lia). f_equal. lia.
  - intros en' m' F H. split; [exact F|]. unfold H2. rewrite shake_level. unfold meal in H. cbn [map as_feed fdata concat bytes_in snd] in *. rewrite app_nil_r in H. exact H.
Qed.

Lemma challenge_1_returns ell tau mu hcom c iv ub uo : filled m mu -> filled m hcom -> filled m c -> filled m iv ->
  size_of mu = (2 * (lam / 8))%N -> size_of hcom = (2 * (lam / 8))%N -> size_of c = ((ell / 8 + 2 * (lam / 8) + 2) * (tau - 1))%N -> size_of iv = 16%N -> (ell < 2 ^ 32)%N -> (1 <= tau < 2 ^ 32)%N ->
  open_for m (ub, uo, 5 * (lam / 8) + 8)%N ->
  exists v m', returns f_hash_challenge_1 [VPtr ub uo; pointer mu; pointer hcom; pointer c; pointer iv; VInt (Z.of_N lam); VInt (Z.of_N ell); VInt (Z.of_N tau)] m v m' /\
    stands m' ub uo (H2 shake lam (bytes_in mu ++ bytes_in hcom ++ bytes_in c ++ bytes_in iv) (5 * (lam / 8) + 8)) /\ unchanged m m' (over (ub, uo, 5 * (lam / 8) + 8)%N).
Proof.
  intros F1 F2 F3 F4 E1 E2 E3 E4 EL ET OP. destruct lam_small as (S0 & S1 & S2 & S3). destruct (open_spot _ _ _ _ OP) as [IO SO].
  enough (C : calls code f_hash_challenge_1 [VPtr ub uo; pointer mu; pointer hcom; pointer c; pointer iv; VInt (Z.of_N lam); VInt (Z.of_N ell); VInt (Z.of_N tau)] m
    (fun _ m' => frame m m' (at_ ub uo (ofN (5 * (lam / 8) + 8))) /\ holds m' ub uo (H2 shake lam (bytes_in mu ++ bytes_in hcom ++ bytes_in c ++ bytes_in iv) (5 * (lam / 8) + 8)))).
  { destruct (calls_returns _ _ _ _ C) as (v & m' & R & F & H). exists v, m'. split; [exact R|]. split; [apply holds_stands, H|]. eapply frame_unchanged; [exact F|]. intros z q X. exact X. }
  assert (SC : (size_of c + 200 <= 2 ^ 32)%N) by (destruct c as [[cb co] cl]; exact (proj1 (proj2 (proj2 F3)))). rewrite E3 in SC.
  assert (L8 : (ell / 8 < 2 ^ 29)%N) by (apply N.div_lt_upper_bound; lia).
  destruct mu as [[cb co] cl], hcom as [[ab ao] al], c as [[bb bo] bl], iv as [[db dof] dl]. start code_hash_challenge_1.
  seq. eapply wp_set; [eapply pe_eq; [ev|simp; rewrite div8 by lia; reflexivity]|].
  seq. eapply wp_set; [eapply pe_eq; [ev|simp; rewrite div8 by lia; rewrite !wrap_u32 by (rewrite ?wrap_u32; rewrite ?wrap_u32; lia); reflexivity]|].
  eapply (wp_hashed f_H2_init f_H2_update f_H2_final 10 2 11 12 13 14 15 16 17 18 6 [as_feed 2 (EBin OMul u32 (EVar 9) (EInt 2)) (cb, co, cl); as_feed 3 (EBin OMul u32 (EVar 9) (EInt 2)) (ab, ao, al);
      as_feed 4 (EBin OMul u32 (EVar 10) (EBin OSub u32 (EVar 8) (EInt 1))) (bb, bo, bl); as_feed 5 (EInt 16) (db, dof, dl)] ub uo _ (5 * (lam / 8) + 8) _ m lam);
    [exact code_H2_init|exact code_H2_update|exact code_H2_final|exact (loaded_separator m 10 2 LD ltac:(vm_compute; auto 20))|reflexivity|exact (separator_spot m 10 2 LD ltac:(vm_compute; auto 20) ltac:(discriminate))|nodup|notin|apply loaded_kconst, LD|look|lia| | |exact IO|exact SO|lia| |].
  - repeat (apply Forall_cons; [apply filled_edible; assumption|]). apply Forall_nil.
  - intros en' AG. assert (E8 : lookup en' 8%positive = VInt (ofN tau)) by agl AG. assert (E9 : lookup en' 9%positive = VInt (ofN (lam / 8))) by agl AG.
    assert (E10 : lookup en' 10%positive = VInt (ofN (ell / 8) + ofN (lam / 8) * 2 + 2)) by agl AG. fed_by AG.
    + rewrite E1. eapply pe_eq; [ev|]. simp. rewrite wrap_u32 by lia. f_equal. lia.
    + rewrite E2. eapply pe_eq; [ev|]. simp. rewrite wrap_u32 by lia. f_equal. lia.
    + rewrite E3. eapply pe_eq; [ev|]. simp. rewrite (wrap_u32 (ofN tau - 1)) by lia.
      replace ((ofN (ell / 8) + ofN (lam / 8) * 2 + 2) * (ofN tau - 1)) with (ofN ((ell / 8 + 2 * (lam / 8) + 2) * (tau - 1))) by (rewrite N2Z.inj_mul, N2Z.inj_sub by lia; rewrite !N2Z.inj_add, N2Z.inj_mul; f_equal; lia).
      clear - SC. revert SC. generalize ((ell / 8 + 2 * (lam / 8) + 2) * (tau - 1))%N. intros z SC. rewrite wrap_u32 by lia. reflexivity.
    + rewrite E4. ev.
  - intros en' m' AG. assert (E9 : lookup en' 9%positive = VInt (ofN (lam / 8))) by agl AG. eexists _, _. split; [reflexivity|]. split; [ag AG|].
    eapply pe_eq; [ev|]. simp. rewrite !wrap_u32 by (rewrite ?wrap_u32; lia). f_equal. lia.
  - intros en' m' F H. split; [exact F|]. unfold H2. rewrite shake_level. unfold meal in H. cbn [map as_feed fdata concat bytes_in snd] in *. rewrite app_nil_r in H. exact H.
Qed.
End Hashes.
