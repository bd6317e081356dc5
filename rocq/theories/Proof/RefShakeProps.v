(** The translated hash functions, in terms of what stands in memory. *)
From Coq Require Import ZArith NArith List Bool FMapPositive Lia ZifyBool ZifyNat ZifyN.
From Verif Require Import Model.Base Proof.BaseProof.
From Verif Require Import Model.CtLang Model.CtNames Model.CtProgram Spec.RefSpec Spec.RefShakeSpec Proof.RefLogic Proof.RefTac Proof.RefMem Proof.RefProps Proof.RefKeccak Proof.RefSponge Proof.RefHash.
Import ListNotations.
Local Open Scope Z_scope.

Lemma runs_app a b m1 m2 m3 : runs a m1 m2 -> runs b m2 m3 -> runs (a ++ b) m1 m3.
Proof. intros H K. induction H; [exact K|]. cbn [app]. eapply runs_cons; [eassumption|]. apply IHruns, K. Qed.

Definition place (c : hash_context) : loc := Loc (instance c) (sponge_instance c) (state c) (rate c) (byte_index c) (phase c) (fixed_length c) (suffix c).
Lemma points_ptr m b i t : points m b i t 0 -> ptr m b i t.
Proof. intros (L & k & F & I & G). unfold ptr, inb, size, cell. rewrite F. repeat split; (assumption || lia). Qed.
Lemma place_blocks c b : In b (blocks (place c)) <-> b = 1%positive \/ In b (context_blocks c).
Proof. unfold blocks, place, context_blocks, fields. cbn [In cx sp stb rtb ixb sqb flb dsb]. split; intros H; decompose [or] H; subst; tauto. Qed.
Lemma allocated_space m c : allocated m c -> space m (place c).
Proof.
  intros (ND & G & P1 & P2 & P3 & P4 & P5 & P6 & P7 & R1 & R2 & R3 & R4 & R5 & R6). split.
  - change (blocks (place c)) with (1%positive :: context_blocks c). constructor; [|exact ND]. intros I. apply G in I. unfold last_global in I. lia.
  - splits; try (apply points_ptr; assumption); match goal with R : room _ ?b _ _ |- inb _ ?b _ _ => apply room_inb in R; exact R end.
Qed.
Lemma loaded_kconst m : loaded m -> kconst m.
Proof.
  intros H. apply holds_stands. specialize (H 1%positive g_KeccakF1600RoundConstants ltac:(vm_compute; auto 20)). unfold stands.
  assert (E : map Z.of_N consts = g_KeccakF1600RoundConstants) by (vm_compute; reflexivity). rewrite E, <- (map_length Z.of_N consts), E. exact H.
Qed.
Lemma loaded_separator m g k : loaded m -> In (g, [Z.of_N k]) constants -> holds m g 0 [k].
Proof. intros H I. apply holds_stands. exact (H g _ I). Qed.

(** ** Feeding *)
Definition ready_in (m : mem) (L : loc) (i : input) : Prop := let '(b, o, l) := i in holds m b o l /\ bytes_ok l /\ (lenN l + 200 <= 2 ^ 32)%N /\ ~ In b (blocks L).
Lemma given_ready m c i : given m c i -> ready_in m (place c) i.
Proof.
  destruct i as [[b o] l]. intros (S & B & Ln & G & NI). split; [apply holds_stands, S|]. split; [exact B|]. split; [exact Ln|]. rewrite place_blocks. intros [->|I]; [unfold last_global in G; lia|exact (NI I)].
Qed.
Lemma ready_kept m m' L i : ready_in m L i -> frame m m' (foot L) -> ready_in m' L i.
Proof.
  destruct i as [[b o] l]. intros (S & B & Ln & NI) F. split; [|auto]. eapply off_set; [exact S|exact F|]. intros q X. apply NI. eapply foot_in, X.
Qed.
Definition fed (f : positive) (c : hash_context) := forall m sec D b o l, absorbing m (place c) sec D -> ready_in m (place c) (b, o, l) ->
  calls code f [VPtr (instance c) 0; VPtr b o; VInt (ofN (lenN l))] m (fun _ m' => frame m m' (foot (place c)) /\ absorbing m' (place c) sec (D ++ l)).
Lemma feed_runs f c : fed f c -> forall is m sec D, absorbing m (place c) sec D -> Forall (ready_in m (place c)) is ->
  exists m', runs (map (feed_call f c) is) m m' /\ frame m m' (foot (place c)) /\ absorbing m' (place c) sec (D ++ message is).
Proof.
  intros FD. induction is as [|[[b o] l] is IH]; intros m sec D A I.
  - exists m. split; [apply runs_nil|]. split; [apply frame_refl|]. cbn [message map concat]. rewrite app_nil_r. exact A.
  - inversion I as [|x y I1 I2]; subst. destruct (calls_returns _ _ _ _ (FD m sec D b o l A I1)) as (v & m1 & R & F & A1).
    destruct (IH m1 sec _ A1) as (m2 & R2 & F2 & A2). { eapply Forall_impl; [|exact I2]. intros i X. eapply ready_kept; eassumption. }
    exists m2. split; [|split].
    + cbn [map feed_call]. eapply runs_cons; [|exact R2]. unfold lenN in R. rewrite nat_N_Z in R. exact R.
    + eapply frame_comp; [exact F|exact F2|]. auto.
    + unfold message in *. cbn [map concat snd]. rewrite app_assoc. exact A2.
Qed.

(** ** Taking *)
Definition ready_out (m : mem) (L : loc) (u : output) : Prop := let '(b, o, n) := u in inb m b o (ofN n) /\ (n + 200 <= 2 ^ 32)%N /\ ~ In b (blocks L).
Lemma vacant_ready m c u : vacant m c u -> ready_out m (place c) u.
Proof.
  destruct u as [[b o] n]. intros (R & Ln & G & NI). split; [apply room_inb, R|]. split; [exact Ln|]. rewrite place_blocks. intros [->|I]; [unfold last_global in G; lia|exact (NI I)].
Qed.
Lemma out_kept m m' S L u : ready_out m L u -> frame m m' S -> ready_out m' L u.
Proof. destruct u as [[b o] n]. intros (R & X) F. split; [eapply inb_frame; eassumption|exact X]. Qed.
Lemma shake_len sec D n : bytes_ok D -> lenN (shake sec D n) = n.
Proof. intros B. rewrite <- final_shake by exact B. apply pulls_len. Qed.
Lemma shake_prefix sec D n t : bytes_ok D -> takeN n (shake sec D (n + t)) = shake sec D n.
Proof.
  intros BD. rewrite <- !final_shake by exact BD. rewrite pulls_add. cbn [fst]. assert (E := pulls_len (Sponge.shake_rate sec) n (final_state sec D, 0%N)).
  revert E. generalize (fst (pulls (Sponge.shake_rate sec) n (final_state sec D, 0%N))). intros l <-. apply takeN_app_exact.
Qed.
Lemma take_runs c sec D : bytes_ok D -> forall us m p, squeezing m (place c) sec D p -> Forall (ready_out m (place c)) us -> ForallOrdPairs apart us ->
  exists m', runs (map (take_call f_hash_squeeze c) us) m m' /\ frame m m' (touched c us) /\
    forall b o l, In (b, o, l) (dealt (dropN p (shake sec D (p + total us))) us) -> holds m' b o l.
Proof.
  intros BD. induction us as [|[[b o] n] us IH]; intros m p S I A.
  - exists m. split; [apply runs_nil|]. split; [apply frame_refl|]. intros b o l [].
  - inversion I as [|x y I0 I4]; subst. destruct I0 as (I1 & I2 & I3). inversion A as [|x y A1 A2]; subst.
    destruct (calls_returns _ _ _ _ (ref_hash_squeeze m (place c) sec D p b o n S I1 I3 I2)) as (v & m1 & R & F & S1 & H).
    destruct (IH m1 (p + n)%N S1) as (m2 & R2 & F2 & H2). { eapply Forall_impl; [|exact I4]. intros u X. eapply out_kept; eassumption. } { exact A2. }
    exists m2. split; [cbn [map take_call]; eapply runs_cons; [exact R|exact R2]|]. split.
    + eapply frame_comp; [eapply frame_weak; [exact F|]|exact F2|].
      * intros b0 q _ _ [X|X]; [left; exact X|]. right. exists b, o, n. split; [left; reflexivity|exact X].
      * intros b0 q _ _ [X|(b1 & o1 & n1 & J & X)]; [left; exact X|]. right. exists b1, o1, n1. split; [right; exact J|exact X].
    + cbn [total fold_right snd]. fold (total us). intros b' o' l. cbn [dealt]. intros [E|J].
      * injection E as <- <- <-. assert (E : firstn (N.to_nat n) (dropN p (shake sec D (p + (n + total us)))) = dropN p (shake sec D (p + n))).
        { unfold dropN. rewrite firstn_skipn_comm. rewrite <- N2Nat.inj_add. rewrite N.add_assoc. change (firstn (N.to_nat (p + n)) (shake sec D (p + n + total us))) with (takeN (p + n) (shake sec D (p + n + total us))).
          rewrite shake_prefix by exact BD. reflexivity. }
        rewrite E. eapply holds_frame; [exact H|exact F2|]. intros q Q [X|(b1 & o1 & n1 & J & X)].
        { apply I3. rewrite place_blocks. right. right. right. exact X. }
        rewrite Forall_forall in A1. apply (A1 _ J b q); [|exact X]. split; [reflexivity|]. rewrite lenN_dropN, shake_len in Q by exact BD. lia.
      * apply H2. revert J. rewrite N.add_assoc. match goal with |- context [skipn (N.to_nat n) ?x] => change (skipn (N.to_nat n) x) with (dropN n x) end. rewrite dropN_dropN. exact (fun x => x).
Qed.

(** ** The whole hash *)
Lemma hash_runs m c sec is us : loaded m -> allocated m c -> (sec < 2 ^ 32)%N -> Forall (given m c) is -> Forall (vacant m c) us -> ForallOrdPairs apart us ->
  exists m', runs (start_call f_hash_init c sec :: map (feed_call f_hash_update c) is ++ [(f_hash_final, [VPtr (instance c) 0])] ++ map (take_call f_hash_squeeze c) us) m m' /\
    (forall b o l, In (b, o, l) (dealt (shake sec (message is) (total us)) us) -> stands m' b o l) /\ unchanged m m' (touched c us).
Proof.
  intros LD AL LS GI VU AP. assert (SP := allocated_space _ _ AL). assert (KC := loaded_kconst _ LD).
  destruct (calls_returns _ _ _ _ (ref_hash_init m (place c) sec SP KC LS)) as (v & m1 & R1 & F1 & A1).
  assert (GI1 : Forall (ready_in m1 (place c)) is) by (eapply Forall_impl; [|exact GI]; intros i X; eapply ready_kept; [apply given_ready, X|exact F1]).
  destruct (feed_runs f_hash_update c) with (is := is) (m := m1) (sec := sec) (D := @nil N) as (m2 & R2 & F2 & A2); try assumption.
  { intros m0 s0 D0 b o l A (X1 & X2 & X3 & X4). apply (ref_hash_update m0 (place c) s0 D0 b o l A X1 X2 X4 X3). }
  cbn [app] in A2. destruct (calls_returns _ _ _ _ (ref_hash_final m2 (place c) sec _ A2)) as (v3 & m3 & R3 & F3 & S3).
  assert (VU3 : Forall (ready_out m3 (place c)) us) by (eapply Forall_impl; [|exact VU]; intros u X; apply vacant_ready in X; do 3 (eapply out_kept; [|eassumption]); exact X).
  destruct (take_runs c sec _ (proj1 S3) us m3 0%N S3 VU3 AP) as (m4 & R4 & F4 & H4).
  exists m4. split; [|split].
  - eapply runs_cons; [exact R1|]. eapply runs_app; [exact R2|]. eapply runs_cons; [exact R3|exact R4].
  - intros b o l J. apply holds_stands, H4. rewrite dropN_0, N.add_0_l. exact J.
  - eapply frame_unchanged; [|intros b q X; exact X].
    eapply frame_comp; [eapply frame_comp; [eapply frame_comp; [eapply frame_weak; [exact F1|]|exact F2|]|exact F3|]|exact F4|]; intros b q _ _ X; try (left; exact X); exact X.
Qed.
(** One that ends with a function that writes all outputs *)
Lemma oracle_runs m c sec is fi fu ff args (S : positive -> Z -> Prop) (P : mem -> Prop) : loaded m -> allocated m c -> (sec < 2 ^ 32)%N -> Forall (given m c) is ->
  PositiveMap.find fi code = Some code_init -> PositiveMap.find fu code = Some code_update ->
  (forall m1, frame m m1 (foot (place c)) -> absorbing m1 (place c) sec (message is) -> calls code ff args m1 (fun _ m' => frame m1 m' S /\ P m')) ->
  (forall b q, foot (place c) b q -> S b q) ->
  exists m', runs (start_call fi c sec :: map (feed_call fu c) is ++ [(ff, args)]) m m' /\ P m' /\ unchanged m m' S.
Proof.
  intros LD AL LS GI CI CU FF SS. assert (SP := allocated_space _ _ AL). assert (KC := loaded_kconst _ LD).
  destruct (calls_returns _ _ _ _ (ref_H_init fi m (place c) sec CI SP KC LS)) as (v & m1 & R1 & F1 & A1).
  assert (GI1 : Forall (ready_in m1 (place c)) is) by (eapply Forall_impl; [|exact GI]; intros i X; eapply ready_kept; [apply given_ready, X|exact F1]).
  destruct (feed_runs fu c) with (is := is) (m := m1) (sec := sec) (D := @nil N) as (m2 & R2 & F2 & A2); try assumption.
  { intros m0 s0 D0 b o l A (X1 & X2 & X3 & X4). apply (ref_H_update fu m0 (place c) s0 D0 b o l CU A X1 X2 X4 X3). }
  assert (F12 : frame m m2 (foot (place c))) by (eapply frame_comp; [exact F1|exact F2|]; auto).
  destruct (calls_returns _ _ _ _ (FF m2 F12 A2)) as (v3 & m3 & R3 & F3 & H3).
  exists m3. split; [|split].
  - eapply runs_cons; [exact R1|]. eapply runs_app; [exact R2|]. eapply runs_cons; [exact R3|apply runs_nil].
  - exact H3.
  - eapply frame_unchanged; [|intros b q X; exact X]. eapply frame_comp; [eapply frame_weak; [exact F12|]|exact F3|]; intros b q _ _ X; [apply SS, X|exact X].
Qed.
Lemma sep_place m c g k : loaded m -> allocated m c -> In (g, [Z.of_N k]) constants -> g <> 1%positive -> ~ In g (blocks (place c)) /\ forall m1, frame m m1 (foot (place c)) -> holds m1 g 0 [k].
Proof.
  intros LD AL I N1. assert (NI : ~ In g (blocks (place c))).
  { rewrite place_blocks. intros [E|X]; [contradiction|]. destruct AL as (_ & G & _). apply G in X.
    assert (A : forallb (fun x => Pos.leb (fst x) last_global) constants = true) by (vm_compute; reflexivity). rewrite forallb_forall in A. specialize (A _ I). cbn [fst] in A. apply Pos.leb_le in A. lia. }
  split; [exact NI|]. intros m1 F. eapply off_set; [apply loaded_separator; [exact LD|exact I]|exact F|]. intros q X. apply NI. eapply foot_in, X.
Qed.
Lemma touched_one m m' c b o n : unchanged m m' (outfoot (place c) b o (ofN n)) -> unchanged m m' (touched c [(b, o, n)]).
Proof.
  intros [U1 U2]. split; [exact U1|]. intros b0 k0 o0 J1 J2 J3. destruct (U2 b0 k0 o0 J1 J2 J3) as (k' & K1 & K2 & K3). exists k'. split; [exact K1|]. split; [exact K2|].
  intros X. apply K3. intros [Y|Y]; apply X; [left; exact Y|right]. exists b, o, n. split; [left; reflexivity|exact Y].
Qed.
Lemma one_output_runs m c sec is b o n g k fi fu ff : loaded m -> allocated m c -> (sec < 2 ^ 32)%N -> Forall (given m c) is -> vacant m c (b, o, n) ->
  PositiveMap.find fi code = Some code_init -> PositiveMap.find fu code = Some code_update -> PositiveMap.find ff code = Some (code_final1 g) ->
  In (g, [Z.of_N k]) constants -> g <> 1%positive -> (k < 256)%N ->
  exists m', runs (start_call fi c sec :: map (feed_call fu c) is ++ [take_call ff c (b, o, n)]) m m' /\
    stands m' b o (shake sec (message is ++ [k]) n) /\ unchanged m m' (touched c [(b, o, n)]).
Proof.
  intros LD AL LS GI VU CI CU CF IG N1 Lk. destruct (sep_place m c g k LD AL IG N1) as (NG & HG). apply vacant_ready in VU. destruct VU as (V1 & V2 & V3).
  destruct (oracle_runs m c sec is fi fu ff (snd (take_call ff c (b, o, n))) (outfoot (place c) b o (ofN n)) (fun m' => holds m' b o (shake sec (message is ++ [k]) n)) LD AL LS GI CI CU) as (m' & R & H & U).
  - intros m1 F A. apply (ref_H_final1 ff g k m1 (place c) sec _ b o n CF A (HG m1 F) Lk NG); [eapply inb_frame; eassumption|exact V3|exact V2].
  - intros b0 q X. left. exact X.
  - exists m'. split; [exact R|]. split; [apply holds_stands, H|]. apply touched_one, U.
Qed.
Definition code_final2 (g : positive) (x4 x5 : expr) (ps : list positive) : func := Func ps (
  SCall None f_hash_update [(EVar 1); (EGlob g); (EInt 1)] ;; SCall None f_hash_final [(EVar 1)] ;;
  SCall None f_hash_squeeze [(EVar 1); (EVar 2); (EVar 3)] ;; SCall None f_hash_squeeze [(EVar 1); x4; x5]).
Lemma two_outputs_runs m c sec is b o n b' o' n' g k fi fu ff args e x5 ps : loaded m -> allocated m c -> (sec < 2 ^ 32)%N -> Forall (given m c) is ->
  vacant m c (b, o, n) -> vacant m c (b', o', n') -> apart (b, o, n) (b', o', n') ->
  PositiveMap.find fi code = Some code_init -> PositiveMap.find fu code = Some code_update -> PositiveMap.find ff code = Some (code_final2 g (EVar 4) x5 ps) ->
  In (g, [Z.of_N k]) constants -> g <> 1%positive -> (k < 256)%N ->
  e = bind_params ps args (PositiveMap.empty value) -> lookup e 1 = VPtr (instance c) 0 -> lookup e 2 = VPtr b o -> lookup e 3 = VInt (ofN n) -> lookup e 4 = VPtr b' o' -> (forall m, pe e m x5 (VInt (ofN n'))) ->
  exists m', runs (start_call fi c sec :: map (feed_call fu c) is ++ [(ff, args)]) m m' /\
    stands m' b o (firstn (N.to_nat n) (shake sec (message is ++ [k]) (n + n'))) /\ stands m' b' o' (skipn (N.to_nat n) (shake sec (message is ++ [k]) (n + n'))) /\
    unchanged m m' (touched c [(b, o, n); (b', o', n')]).
Proof.
  intros LD AL LS GI VU VU' AP CI CU CF IG N1 Lk EE E1 E2 E3 E4 E5. destruct (sep_place m c g k LD AL IG N1) as (NG & HG).
  apply vacant_ready in VU. destruct VU as (V1 & V2 & V3). apply vacant_ready in VU'. destruct VU' as (V1' & V2' & V3').
  destruct (oracle_runs m c sec is fi fu ff args (touched c [(b, o, n); (b', o', n')])
    (fun m' => holds m' b o (takeN n (shake sec (message is ++ [k]) (n + n'))) /\ holds m' b' o' (dropN n (shake sec (message is ++ [k]) (n + n')))) LD AL LS GI CI CU) as (m' & R & (H1 & H2) & U).
  - intros m1 F A. apply (calls_intro code _ _ _ _ _ CF). cbn [fbody fparams code_final2]. rewrite <- EE.
    eapply wp_separate; [exact A|exact (HG m1 F)|exact Lk|exact NG|exact E1|]. intros m2 F2 S2.
    eapply (wp_squeeze2 m2 (place c) sec _ b o n b' o' n' _ _ _ _ _ _ S2); try assumption.
    + eapply inb_frame; [exact F2|]. eapply inb_frame; eassumption.
    + eapply inb_frame; [exact F2|]. eapply inb_frame; eassumption.
    + intros q X Y. exact (AP b q X Y).
    + intros m0. apply pe_var. exact E2.
    + intros m0. apply pe_var. exact E3.
    + intros m0. apply pe_var. exact E4.
    + intros m3 F3 K1 K2. cbv beta iota. split; [|split; assumption].
      eapply frame_comp; [eapply frame_weak; [exact F2|]|exact F3|].
      * intros b0 q _ _ X. left. exact X.
      * intros b0 q _ _ [X|[X|X]]; [left; exact X|right; exists b, o, n|right; exists b', o', n']; (split; [cbn [In]; auto|exact X]).
  - intros b0 q X. left. exact X.
  - exists m'. split; [exact R|]. split; [apply holds_stands, H1|]. split; [apply holds_stands, H2|]. exact U.
Qed.

Lemma H0_runs m c sec is b o n b' o' n' : loaded m -> allocated m c -> (sec < 2 ^ 32)%N -> Forall (given m c) is ->
  vacant m c (b, o, n) -> vacant m c (b', o', n') -> apart (b, o, n) (b', o', n') ->
  exists m', runs (start_call f_H0_init c sec :: map (feed_call f_H0_update c) is ++ [(f_H0_final, [VPtr (instance c) 0; VPtr b o; VInt (Z.of_N n); VPtr b' o'; VInt (Z.of_N n')])]) m m' /\
    stands m' b o (firstn (N.to_nat n) (shake sec (message is ++ [0%N]) (n + n'))) /\ stands m' b' o' (skipn (N.to_nat n) (shake sec (message is ++ [0%N]) (n + n'))) /\
    unchanged m m' (touched c [(b, o, n); (b', o', n')]).
Proof.
  intros LD AL LS GI V V' AP. eapply (two_outputs_runs m c sec is b o n b' o' n' 8 0 _ _ _ _ _ (EVar 5) [1; 2; 3; 4; 5]%positive LD AL LS GI V V' AP);
    [vm_compute; reflexivity..|vm_compute; auto 20|discriminate|lia|reflexivity|reflexivity|reflexivity|reflexivity|reflexivity|]. intros m0. apply pe_var. reflexivity.
Qed.
Lemma H1_runs m c sec is b o n : loaded m -> allocated m c -> (sec < 2 ^ 32)%N -> Forall (given m c) is -> vacant m c (b, o, n) ->
  exists m', runs (start_call f_H1_init c sec :: map (feed_call f_H1_update c) is ++ [take_call f_H1_final c (b, o, n)]) m m' /\
    stands m' b o (shake sec (message is ++ [1%N]) n) /\ unchanged m m' (touched c [(b, o, n)]).
Proof.
  intros LD AL LS GI V. eapply (one_output_runs m c sec is b o n 9 1 _ _ _ LD AL LS GI V); [vm_compute; reflexivity..|vm_compute; auto 20|discriminate|lia].
Qed.
Lemma H2_runs m c sec is b o n : loaded m -> allocated m c -> (sec < 2 ^ 32)%N -> Forall (given m c) is -> vacant m c (b, o, n) ->
  exists m', runs (start_call f_H2_init c sec :: map (feed_call f_H2_update c) is ++ [take_call f_H2_final c (b, o, n)]) m m' /\
    stands m' b o (shake sec (message is ++ [2%N]) n) /\ unchanged m m' (touched c [(b, o, n)]).
Proof.
  intros LD AL LS GI V. eapply (one_output_runs m c sec is b o n 10 2 _ _ _ LD AL LS GI V); [vm_compute; reflexivity..|vm_compute; auto 20|discriminate|lia].
Qed.
Lemma H3_runs m c sec is b o n b' o' : loaded m -> allocated m c -> (sec < 2 ^ 32)%N -> Forall (given m c) is ->
  vacant m c (b, o, n) -> vacant m c (b', o', 16%N) -> apart (b, o, n) (b', o', 16%N) ->
  exists m', runs (start_call f_H3_init c sec :: map (feed_call f_H3_update c) is ++ [(f_H3_final, [VPtr (instance c) 0; VPtr b o; VInt (Z.of_N n); VPtr b' o'])]) m m' /\
    stands m' b o (firstn (N.to_nat n) (shake sec (message is ++ [3%N]) (n + 16))) /\ stands m' b' o' (skipn (N.to_nat n) (shake sec (message is ++ [3%N]) (n + 16))) /\
    unchanged m m' (touched c [(b, o, n); (b', o', 16%N)]).
Proof.
  intros LD AL LS GI V V' AP. eapply (two_outputs_runs m c sec is b o n b' o' 16 11 3 _ _ _ _ _ (EInt 16) [1; 2; 3; 4]%positive LD AL LS GI V V' AP);
    [vm_compute; reflexivity..|vm_compute; auto 20|discriminate|lia|reflexivity|reflexivity|reflexivity|reflexivity|reflexivity|]. intros m0. apply pe_int.
Qed.
