(** The hashing of the leaves in the translated vector commitment functions. *)
From Coq Require Import ZArith NArith List Bool FMapPositive Lia ZifyBool ZifyNat ZifyN.
From Verif Require Import Model.Base Proof.BaseProof Spec.VcSpec Spec.KeccakSpec.
From Verif Require Import Model.CtLang Model.CtNames Model.CtProgram Proof.RefLogic Proof.RefTac Proof.RefMem Proof.RefSnp Proof.RefKeccak Proof.RefSponge Proof.RefSponge4 Proof.RefHash Proof.RefHash4 Proof.RefFresh Proof.RefTree.
From Verif Require Proof.RefShakeProps.
Import ListNotations.
Local Open Scope Z_scope.
Arguments wrap : simpl never.

Lemma shake_level lam : shake (shake_of lam) = shake lam.
Proof. unfold shake, shake_of. destruct (lam =? 128)%N; reflexivity. Qed.
Lemma code_H0_init : PositiveMap.find f_H0_init code = Some code_init. Proof. vm_compute. reflexivity. Qed.
Lemma code_H1_init : PositiveMap.find f_H1_init code = Some code_init. Proof. vm_compute. reflexivity. Qed.
Lemma code_H0_update : PositiveMap.find f_H0_update code = Some code_update. Proof. vm_compute. reflexivity. Qed.
Lemma code_H1_update : PositiveMap.find f_H1_update code = Some code_update. Proof. vm_compute. reflexivity. Qed.
Lemma code_H0_final : PositiveMap.find f_H0_final code = Some (RefShakeProps.code_final2 8 (EVar 4) (EVar 5) [1; 2; 3; 4; 5]%positive). Proof. vm_compute. reflexivity. Qed.
Lemma code_H1_final : PositiveMap.find f_H1_final code = Some (code_final1 9). Proof. vm_compute. reflexivity. Qed.

Lemma ref_H0_final m L sec D k db dof n cb cof n' : absorbing m L sec D -> holds m 8 0 [k] -> (k < 256)%N -> ~ In 8%positive (blocks L) ->
  inb m db dof (ofN n) -> ~ In db (blocks L) -> (n + 200 <= 2^32)%N -> inb m cb cof (ofN n') -> ~ In cb (blocks L) -> (n' + 200 <= 2^32)%N -> db <> cb ->
  calls code f_H0_final [VPtr (cx L) 0; VPtr db dof; VInt (ofN n); VPtr cb cof; VInt (ofN n')] m (fun _ m' => frame m m' (outfoot2 L db dof (ofN n) cb cof (ofN n')) /\
    holds m' db dof (takeN n (shake sec (D ++ [k]) (n + n'))) /\ holds m' cb cof (dropN n (shake sec (D ++ [k]) (n + n')))).
Proof.
  intros A HG Lk NG I1 N1 L1 I2 N2 L2 DJ. apply (calls_intro code _ _ _ _ _ code_H0_final). cbn [fbody fparams RefShakeProps.code_final2 bind_params].
  eapply (wp_separate m L sec D 8%positive k); [exact A|exact HG|exact Lk|exact NG|look|]. intros m1 F1 S1.
  assert (FN : forall b, ~ In b (blocks L) -> forall q, ~ foot L b q) by (intros b X q Y; apply X, (foot_in L b q), Y).
  eapply (wp_squeeze2 m1 L sec (D ++ [k]) db dof n cb cof n'); [exact S1|eapply inb_frame; eassumption|exact N1|exact L1|eapply inb_frame; eassumption|exact N2|exact L2|intros o _ [E _]; congruence|look|intros; ev|intros; ev|intros; ev|intros; ev|].
  intros m2 F2 H1 H2. split; [|split; assumption]. eapply frame_comp; [eapply frame_weak; [exact F1|]|exact F2|intros b o _ _ X; exact X]. intros b o _ _ X. left. exact X.
Qed.

(** ** A context started in new memory *)
Definition spot (m : mem) (b : positive) : Prop := (b < mnext m)%positive /\ b <> 1%positive.
Lemma off_new m0 m L b : newer m0 m L -> spot m0 b -> ~ In b (blocks L).
Proof. intros NW [A B] I. assert (Y := NW b I B). lia. Qed.
Lemma foot_new m0 m L b o : newer m0 m L -> NoDup (blocks L) -> foot L b o -> ~ (b < mnext m0)%positive.
Proof. intros NW ND I A. assert (X := foot_blocks L ND b o I). apply foot_in in I. assert (Y := NW b I (proj1 X)). lia. Qed.
Lemma newer_next m0 m m' S L : newer m0 m L -> frame m m' S -> newer m0 m' L.
Proof. intros NW F b I X. specialize (NW b I X). assert (Y := proj1 F). lia. Qed.
Definition agree (l : list positive) (e e' : env) : Prop := forall x, ~ In x l -> lookup e' x = lookup e x.
Lemma wp_started f a b c d e g h i lv s en m lam (Q : outcome -> env -> mem -> Prop) : PositiveMap.find f code = Some code_init -> NoDup [a; b; c; d; e; g; h; i] -> ~ In lv [a; b; c; d; e; g; h; i] -> kconst m ->
  lookup en lv = VInt (ofN lam) -> (lam < 2^32)%N ->
  (forall m' L en', frame m m' nothing -> newer m m' L -> NoDup (blocks L) -> absorbing m' L lam [] -> lookup en' a = VPtr (cx L) 0 -> agree [a; b; c; d; e; g; h; i] en en' -> wp code s en' m' Q) ->
  wp code (code_context a b c d e g h i 200 (SCall None f [EVar a; EVar lv] ;; s)) en m Q.
Proof.
  intros FC ND NV KC EL LL K. apply wp_context; [exact ND|lia|exact KC|]. intros m1 L e1 F1 NW SP EA EO.
  assert (SP' : space m1 L) by exact SP.
  assert (KC1 : kconst m1) by (eapply off_set; [exact KC|exact F1|intros q []]).
  seq. eapply wp_callf; [eapply pes_cons; [apply pe_var; exact EA|eapply pes_cons; [apply pe_var; rewrite EO by exact NV; exact EL|apply pes_nil]]|apply (ref_H_init f m1 L lam); assumption|].
  intros v m2 (F2 & A2). cbn [set]. assert (NB := proj1 SP').
  apply (K m2 L e1); [|eapply newer_next; eassumption|exact NB|exact A2|exact EA|exact EO].
  eapply frame_comp; [exact F1|exact F2|]. intros b' o X _ Y. destruct (foot_new _ _ _ _ _ NW NB Y X).
Qed.
Lemma wp_started4 a b c d e g h i lv s en m lam (Q : outcome -> env -> mem -> Prop) : NoDup [a; b; c; d; e; g; h; i] -> ~ In lv [a; b; c; d; e; g; h; i] -> kconst m ->
  lookup en lv = VInt (ofN lam) -> (lam < 2^32)%N ->
  (forall m' L en', frame m m' nothing -> newer m m' L -> NoDup (blocks L) -> absorbing4 m' L lam (fun _ => []) -> lookup en' a = VPtr (cx L) 0 -> agree [a; b; c; d; e; g; h; i] en en' -> wp code s en' m' Q) ->
  wp code (code_context a b c d e g h i 800 (SCall None f_H0_x4_init [EVar a; EVar lv] ;; s)) en m Q.
Proof.
  intros ND NV KC EL LL K. apply wp_context; [exact ND|lia|exact KC|]. intros m1 L e1 F1 NW SP EA EO.
  assert (SP' : space4 m1 L) by exact SP.
  assert (KC1 : kconst m1) by (eapply off_set; [exact KC|exact F1|intros q []]).
  seq. eapply wp_callf; [eapply pes_cons; [apply pe_var; exact EA|eapply pes_cons; [apply pe_var; rewrite EO by exact NV; exact EL|apply pes_nil]]|apply (ref_H0_x4_init m1 L lam); assumption|].
  intros v m2 (F2 & A2). cbn [set]. assert (NB := proj1 SP').
  apply (K m2 L e1); [|eapply newer_next; eassumption|exact NB|exact A2|exact EA|exact EO].
  eapply frame_comp; [exact F1|exact F2|]. intros b' o X _ Y. destruct (foot_new _ _ _ _ _ NW NB Y X).
Qed.

(** ** One leaf *)
Notation lseed := (leaf_seed shake).
Notation lcom := (leaf_com shake).
Definition two (b1 : positive) (o1 n1 : Z) (b2 : positive) (o2 n2 : Z) (b : positive) (o : Z) : Prop := at_ b1 o1 n1 b o \/ at_ b2 o2 n2 b o.
Definition code_tail1 (a : positive) (x : expr) (lbv ivv : positive) (y z : expr) : stmt :=
  SCall None f_H0_update [EVar a; x; EVar lbv] ;; SCall None f_H0_update [EVar a; EVar ivv; EInt 16] ;; SCall None f_H0_final [EVar a; y; EVar lbv; z; EBin OMul u32 (EVar lbv) (EInt 2)].
Lemma leaf_out lam node iv : takeN (lam / 8) (shake lam ((([] ++ node) ++ iv) ++ [0%N]) (lam / 8 + lam / 8 * 2)) = lseed lam node iv /\ dropN (lam / 8) (shake lam ((([] ++ node) ++ iv) ++ [0%N]) (lam / 8 + lam / 8 * 2)) = lcom lam node iv.
Proof. unfold leaf_seed, leaf_com, H0. rewrite shake_level. cbn [app]. rewrite <- app_assoc. replace (lam / 8 + lam / 8 * 2)%N with (lam / 8 * 3)%N by lia. split; reflexivity. Qed.
Lemma wp_tail1 a x lbv ivv y z e m0 m L lam nb no node ib io iv sb so cb co (Q : outcome -> env -> mem -> Prop) :
  lamb lam -> frame m0 m nothing -> newer m0 m L -> NoDup (blocks L) -> absorbing m L lam [] -> lookup e a = VPtr (cx L) 0 -> lookup e lbv = VInt (ofN (lam / 8)) -> lookup e ivv = VPtr ib io ->
  (forall m', frame m0 m' nothing -> pe e m' x (VPtr nb no)) -> (forall m', frame m0 m' nothing -> pe e m' y (VPtr sb so)) -> (forall m', frame m0 m' nothing -> pe e m' z (VPtr cb co)) ->
  holds m0 nb no node -> lenN node = (lam / 8)%N -> bytes_ok node -> holds m0 ib io iv -> lenN iv = 16%N -> bytes_ok iv -> holds m0 8 0 [0%N] ->
  inb m0 sb so (ofN (lam / 8)) -> inb m0 cb co (ofN (lam / 8) * 2) -> sb <> cb -> nb <> 1%positive -> ib <> 1%positive -> sb <> 1%positive -> cb <> 1%positive ->
  (forall m', frame m0 m' (two sb so (ofN (lam / 8)) cb co (ofN (lam / 8) * 2)) -> holds m' sb so (lseed lam node iv) -> holds m' cb co (lcom lam node iv) -> Q ONormal e m') ->
  wp code (code_tail1 a x lbv ivv y z) e m Q.
Proof.
  intros HL F0 NW ND A EA EL EI PX PY PZ HN LN BN HI LI BI H8 IS IC SC N1 N2 N3 N4 K. destruct (lamb_b lam HL) as [B1 B2]. unfold code_tail1.
  assert (FN := fun b o => foot_new m0 m L b o NW ND).
  assert (FF : forall m1 m2, frame m0 m1 nothing -> frame m1 m2 (foot L) -> frame m0 m2 nothing) by (intros m1 m2 F1 F2; eapply frame_comp; [exact F1|exact F2|intros b o X _ Y; destruct (FN _ _ Y X)]).
  assert (ON : forall b o l, holds m0 b o l -> b <> 1%positive -> ~ In b (blocks L)) by (intros b o l H X; eapply off_new; [exact NW|split; [exact (proj1 (proj1 H))|exact X]]).
  assert (OM : forall m' b o l, frame m0 m' nothing -> holds m0 b o l -> holds m' b o l) by (intros m' b o l F H; eapply off_set; [exact H|exact F|intros q []]).
  seq. eapply wp_callf with (vs := [VPtr (cx L) 0; VPtr nb no; VInt (ofN (lenN node))]); [eapply pes_cons; [ev|eapply pes_cons; [apply PX; exact F0|eapply pes_cons; [rewrite LN; ev|apply pes_nil]]]|eapply ref_H_update; [exact code_H0_update|exact A|apply OM; eassumption|exact BN|eapply ON; eassumption|lia]|].
  intros v1 m1 (F1 & A1). cbn [set]. assert (G1 := FF _ _ F0 F1).
  seq. eapply wp_callf with (vs := [VPtr (cx L) 0; VPtr ib io; VInt (ofN (lenN iv))]); [rewrite LI; evs|eapply ref_H_update; [exact code_H0_update|exact A1|apply OM; eassumption|exact BI|eapply ON; eassumption|lia]|].
  intros v2 m2 (F2 & A2). cbn [set]. assert (G2 := FF _ _ G1 F2).
  eapply wp_callf with (vs := [VPtr (cx L) 0; VPtr sb so; VInt (ofN (lam / 8)); VPtr cb co; VInt (ofN (lam / 8 * 2))]).
  { eapply pes_cons; [ev|]. eapply pes_cons; [apply PY; exact G2|]. eapply pes_cons; [ev|]. eapply pes_cons; [apply PZ; exact G2|]. eapply pes_cons; [eapply pe_eq; [ev|simp; rewrite wrap_u32 by lia; f_equal; lia]|apply pes_nil]. }
  { apply ref_H0_final with (k := 0%N); [exact A2|apply OM; assumption|lia|eapply ON; [exact H8|lia]|eapply inb_frame; eassumption|eapply off_new; [exact NW|split; [exact (proj1 IS)|exact N3]]|lia| |eapply off_new; [exact NW|split; [exact (proj1 IC)|exact N4]]|lia|exact SC].
    eapply inb_frame; [exact G2|]. replace (ofN (lam / 8 * 2)) with (ofN (lam / 8) * 2) by lia. exact IC. }
  intros v3 m3 (F3 & H1 & H2). cbn [set]. destruct (leaf_out lam node iv) as [E1 E2]. apply K.
  - eapply frame_comp; [eapply frame_weak; [exact G2|intros b o _ _ []]|exact F3|]. intros b o X _ [Y|[Y|Y]]; [destruct (FN _ _ Y X)|left; exact Y|right]. destruct Y as [-> Y]. split; [reflexivity|lia].
  - rewrite <- E1. exact H1.
  - rewrite <- E2. exact H2.
Qed.

(** ** Four leaves *)
Definition code_tail4 (a : positive) (x0 x1 x2 x3 : expr) (lbv ivv : positive) (y0 y1 y2 y3 z0 z1 z2 z3 : expr) : stmt :=
  SCall None f_H0_x4_update [EVar a; x0; x1; x2; x3; EVar lbv] ;; SCall None f_H0_x4_update [EVar a; EVar ivv; EVar ivv; EVar ivv; EVar ivv; EInt 16] ;;
  SCall None f_H0_x4_final [EVar a; y0; y1; y2; y3; EVar lbv; z0; z1; z2; z3; EBin OMul u32 (EVar lbv) (EInt 2)].
Definition four (e : env) (m : mem) (x0 x1 x2 x3 : expr) (b : positive) (f : Z -> Z) : Prop := pe e m x0 (VPtr b (f 0)) /\ pe e m x1 (VPtr b (f 1)) /\ pe e m x2 (VPtr b (f 2)) /\ pe e m x3 (VPtr b (f 3)).
Lemma pes_four e m x0 x1 x2 x3 b f l vs : four e m x0 x1 x2 x3 b f -> pes e m l vs -> pes e m ([x0; x1; x2; x3] ++ l) (ptrs (fun _ : Z => b) f ++ vs).
Proof. intros (A & B & C & D) H. cbn [app]. repeat (apply pes_cons; [assumption|]). exact H. Qed.
Lemma wp_tail4 a x0 x1 x2 x3 lbv ivv y0 y1 y2 y3 z0 z1 z2 z3 e m0 m L lam nb nof node ib io iv sb so cb co (Q : outcome -> env -> mem -> Prop) :
  lamb lam -> frame m0 m nothing -> newer m0 m L -> NoDup (blocks L) -> absorbing4 m L lam (fun _ => []) -> lookup e a = VPtr (cx L) 0 -> lookup e lbv = VInt (ofN (lam / 8)) -> lookup e ivv = VPtr ib io ->
  (forall m', frame m0 m' nothing -> four e m' x0 x1 x2 x3 nb nof) ->
  (forall m', frame m0 m' nothing -> four e m' y0 y1 y2 y3 sb (fun j => so + j * ofN (lam / 8))) ->
  (forall m', frame m0 m' nothing -> four e m' z0 z1 z2 z3 cb (fun j => co + j * (ofN (lam / 8) * 2))) ->
  (forall j, 0 <= j < 4 -> holds m0 nb (nof j) (node j) /\ lenN (node j) = (lam / 8)%N /\ bytes_ok (node j)) -> holds m0 ib io iv -> lenN iv = 16%N -> bytes_ok iv -> holds m0 8 0 [0%N] ->
  inb m0 sb so (ofN (lam / 8) * 4) -> inb m0 cb co (ofN (lam / 8) * 8) -> sb <> cb -> nb <> 1%positive -> ib <> 1%positive -> sb <> 1%positive -> cb <> 1%positive ->
  (forall m', frame m0 m' (two sb so (ofN (lam / 8) * 4) cb co (ofN (lam / 8) * 8)) ->
    (forall j, 0 <= j < 4 -> holds m' sb (so + j * ofN (lam / 8)) (lseed lam (node j) iv) /\ holds m' cb (co + j * (ofN (lam / 8) * 2)) (lcom lam (node j) iv)) -> Q ONormal e m') ->
  wp code (code_tail4 a x0 x1 x2 x3 lbv ivv y0 y1 y2 y3 z0 z1 z2 z3) e m Q.
Proof.
  intros HL F0 NW ND A EA EL EI PX PY PZ HN HI LI BI H8 IS IC SC N1 N2 N3 N4 K. destruct (lamb_b lam HL) as [B1 B2]. unfold code_tail4.
  assert (FN := fun b o => foot_new m0 m L b o NW ND).
  assert (FF : forall m1 m2, frame m0 m1 nothing -> frame m1 m2 (foot L) -> frame m0 m2 nothing) by (intros m1 m2 F1 F2; eapply frame_comp; [exact F1|exact F2|intros b o X _ Y; destruct (FN _ _ Y X)]).
  assert (ON : forall b o l, holds m0 b o l -> b <> 1%positive -> ~ In b (blocks L)) by (intros b o l H X; eapply off_new; [exact NW|split; [exact (proj1 (proj1 H))|exact X]]).
  assert (OM : forall m' b o l, frame m0 m' nothing -> holds m0 b o l -> holds m' b o l) by (intros m' b o l F H; eapply off_set; [exact H|exact F|intros q []]).
  seq. eapply wp_callf with (vs := VPtr (cx L) 0 :: ptrs (fun _ => nb) nof ++ [VInt (ofN (lam / 8))]); [apply pes_cons; [ev|apply (pes_four _ _ x0 x1 x2 x3 nb nof); [apply PX; exact F0|evs]]|apply (ref_H0_x4_update m L lam (fun _ => []) (fun _ => nb) nof node (lam / 8)%N); [exact A| |lia]|].
  { intros j Hj. destruct (HN j Hj) as (X & Y & Z). split; [apply OM; assumption|]. split; [exact Z|]. split; [exact Y|]. eapply ON; eassumption. }
  intros v1 m1 (F1 & A1). cbn [set]. assert (G1 := FF _ _ F0 F1).
  seq. eapply wp_callf with (vs := VPtr (cx L) 0 :: ptrs (fun _ => ib) (fun _ => io) ++ [VInt (ofN 16)]); [cbn [app]; evs|apply (ref_H0_x4_update m1 L lam (fun j => [] ++ node j) (fun _ => ib) (fun _ => io) (fun _ => iv) 16%N); [exact A1| |lia]|].
  { intros j Hj. split; [apply OM; assumption|]. split; [exact BI|]. split; [exact LI|]. eapply ON; eassumption. }
  intros v2 m2 (F2 & A2). cbn [set]. assert (G2 := FF _ _ G1 F2).
  assert (E2 : ofN (lam / 8 * 2) = ofN (lam / 8) * 2) by lia.
  eapply wp_callf with (vs := VPtr (cx L) 0 :: ptrs (fun _ => sb) (fun j => so + j * ofN (lam / 8)) ++ [VInt (ofN (lam / 8))] ++ ptrs (fun _ => cb) (fun j => co + j * (ofN (lam / 8) * 2)) ++ [VInt (ofN (lam / 8 * 2))]).
  { apply pes_cons; [ev|]. apply (pes_four _ _ y0 y1 y2 y3 sb (fun j => so + j * ofN (lam / 8))); [apply PY; exact G2|]. cbn [app]. apply pes_cons; [ev|]. apply (pes_four _ _ z0 z1 z2 z3 cb (fun j => co + j * (ofN (lam / 8) * 2))); [apply PZ; exact G2|].
    eapply pes_cons; [eapply pe_eq; [ev|simp; rewrite wrap_u32 by lia; f_equal; lia]|apply pes_nil]. }
  { apply (ref_H0_x4_final m2 L lam (fun j => ([] ++ node j) ++ iv) 0%N (fun _ => sb) (fun j => so + j * ofN (lam / 8)) (lam / 8)%N (fun _ => cb) (fun j => co + j * (ofN (lam / 8) * 2)) (lam / 8 * 2)%N); [exact A2|apply OM; assumption|lia|eapply ON; [exact H8|lia]| |lia| |lia|].
    - split.
      + intros j Hj. split; [eapply inb_frame; [exact G2|]; eapply inb_sub; [exact IS|nia|nia|nia]|eapply off_new; [exact NW|split; [exact (proj1 IS)|exact N3]]].
      + intros i j Hij. unfold sep. right. nia.
    - split.
      + intros j Hj. rewrite E2. split; [eapply inb_frame; [exact G2|]; eapply inb_sub; [exact IC|nia|nia|nia]|eapply off_new; [exact NW|split; [exact (proj1 IC)|exact N4]]].
      + intros i j Hij. unfold sep. right. rewrite E2. nia.
    - intros i j _ _. left. exact SC. }
  intros v3 m3 (F3 & W1 & W2). cbn [set]. apply K.
  - eapply frame_comp; [eapply frame_weak; [exact G2|intros b o _ _ []]|exact F3|]. intros b o X _ [Y|[(j & Hj & -> & Y)|(j & Hj & -> & Y)]]; [destruct (FN _ _ Y X)|left|right]; split; try reflexivity; nia.
  - intros j Hj. destruct (leaf_out lam (node j) iv) as [EA1 EA2]. split; [rewrite <- EA1; exact (W1 j Hj)|rewrite <- EA2; exact (W2 j Hj)].
Qed.
