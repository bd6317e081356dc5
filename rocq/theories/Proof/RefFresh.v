(** Structures that a translated function allocates, and hash contexts among them. *)
From Coq Require Import ZArith NArith List Bool FMapPositive Lia ZifyBool ZifyNat ZifyN.
From Verif Require Import Model.Base Proof.BaseProof.
From Verif Require Import Model.CtLang Model.CtNames Model.CtProgram Proof.RefLogic Proof.RefTac Proof.RefMem Proof.RefSnp Proof.RefKeccak Proof.RefSponge Proof.RefSponge4 Proof.RefHash Proof.RefHash4.
Import ListNotations.
Local Open Scope Z_scope.
Arguments wrap : simpl never.

(** ** Allocation and members *)
Lemma wp_new x a e m n (Q : outcome -> env -> mem -> Prop) : pe e m a (VInt n) -> 0 <= n ->
  (forall b m', mnext m = b -> mnext m' = Pos.succ b -> frame m m' nothing -> inb m' b 0 n -> Q ONormal (PositiveMap.add x (VPtr b 0) e) m') -> wp code (SAlloc x a) e m Q.
Proof.
  intros E N0 K. eapply wp_alloc; [exact E|]. apply K; [reflexivity|reflexivity|apply frame_fresh|]. apply inb_fresh; lia.
Qed.
Lemma ptr_at m m' S b i t : ptr m b i t -> frame m m' S -> ~ S b i -> ptr m' b i t.
Proof. intros [I C] F D. split; [eapply inb_frame; eassumption|]. rewrite <- C. destruct F as (_ & _ & F). apply F; [exact (proj1 I)|destruct I as (_ & I & _); exact I|apply D]. Qed.
Lemma wp_member p nf f a e m b t (Q : outcome -> env -> mem -> Prop) : pe e m p (VPtr b 0) -> pe e m a (VPtr t 0) -> inb m b f 1 ->
  (forall m', mnext m' = mnext m -> frame m m' (at_ b f 1) -> ptr m' b f t -> Q ONormal e m') -> wp code (SStoreF p nf f a) e m Q.
Proof.
  intros E A I K. assert (I' : inb m b (0 * nf + f) 1) by (rewrite Z.mul_0_l, Z.add_0_l; exact I).
  eapply wp_storef; [exact E|exact A|exact I'|]. rewrite Z.mul_0_l, Z.add_0_l. apply K; [apply setc_next|apply frame_setv, I|].
  split; [apply setc_inb, I|]. rewrite cell_setv; [|exact I|apply I]. rewrite Pos.eqb_refl, Z.eqb_refl. reflexivity.
Qed.
(** a pointer stored *)
Definition to (m : mem) (b : positive) (i : Z) (v : value) : Prop := inb m b i 1 /\ cell m b i = v.
Lemma to_at m m' S b i t : to m b i t -> frame m m' S -> ~ S b i -> to m' b i t.
Proof. intros [I C] F D. split; [eapply inb_frame; eassumption|]. rewrite <- C. destruct F as (_ & _ & F). apply F; [exact (proj1 I)|destruct I as (_ & I & _); exact I|apply D]. Qed.
Lemma wp_pointer p a e m b o v (Q : outcome -> env -> mem -> Prop) : pe e m p (VPtr b o) -> pe e m a v -> inb m b o 1 ->
  (forall m', mnext m' = mnext m -> frame m m' (at_ b o 1) -> to m' b o v -> Q ONormal e m') -> wp code (SStoreP p a) e m Q.
Proof.
  intros E A I K. eapply wp_storep; [exact E|exact A|exact I|]. apply K; [apply setc_next|apply frame_setv, I|].
  split; [apply setc_inb, I|]. rewrite cell_setv; [|exact I|apply I]. rewrite Pos.eqb_refl, Z.eqb_refl. reflexivity.
Qed.
Lemma pe_to e m p b o v : pe e m p (VPtr b o) -> to m b o v -> pe e m (ELoadP p) v.
Proof. intros E [I C]. eapply pe_eq; [eapply pe_loadp; [exact E|exact I]|exact C]. Qed.

(** ** Contexts *)
Definition spaces (n : Z) (m : mem) (L : loc) : Prop := NoDup (blocks L) /\
  (ptr m (cx L) 0 (sp L) /\ ptr m (cx L) 1 (flb L) /\ ptr m (cx L) 2 (dsb L)) /\
  (ptr m (sp L) 0 (stb L) /\ ptr m (sp L) 1 (rtb L) /\ ptr m (sp L) 2 (ixb L) /\ ptr m (sp L) 3 (sqb L)) /\
  (inb m (stb L) 0 n /\ inb m (rtb L) 0 4 /\ inb m (ixb L) 0 4 /\ inb m (sqb L) 0 4 /\ inb m (flb L) 0 4 /\ inb m (dsb L) 0 1).
Definition code_context (a b c d e f g h : positive) (n : Z) (s : stmt) : stmt :=
  SAlloc a (EInt 3) ;; SAlloc b (EInt 4) ;; SAlloc c (EInt n) ;; SStoreF (EVar b) 4 0 (EVar c) ;; SAlloc d (EInt 4) ;; SStoreF (EVar b) 4 1 (EVar d) ;;
  SAlloc e (EInt 4) ;; SStoreF (EVar b) 4 2 (EVar e) ;; SAlloc f (EInt 4) ;; SStoreF (EVar b) 4 3 (EVar f) ;; SStoreF (EVar a) 3 0 (EVar b) ;;
  SAlloc g (EInt 4) ;; SStoreF (EVar a) 3 1 (EVar g) ;; SAlloc h (EInt 1) ;; SStoreF (EVar a) 3 2 (EVar h) ;; s.
(** all blocks of the context are new *)
Definition newer (m m' : mem) (L : loc) : Prop := forall b, In b (blocks L) -> b <> 1%positive -> (mnext m <= b < mnext m')%positive.
Lemma wp_context a b c d e f g h n s en m (Q : outcome -> env -> mem -> Prop) : NoDup [a; b; c; d; e; f; g; h] -> 0 <= n -> kconst m ->
  (forall m' L en', frame m m' nothing -> newer m m' L -> spaces n m' L -> lookup en' a = VPtr (cx L) 0 -> (forall x, ~ In x [a; b; c; d; e; f; g; h] -> lookup en' x = lookup en x) -> wp code s en' m' Q) ->
  wp code (code_context a b c d e f g h n s) en m Q.
Proof.
  intros ND N0 KC K. unfold code_context.
  assert (NE : forall i j, (i < j < 8)%nat -> nth i [a; b; c; d; e; f; g; h] 1%positive <> nth j [a; b; c; d; e; f; g; h] 1%positive) by (intros i j X; apply nodup_ne; [exact ND|exact X]).
  assert (K1 : (1 < mnext m)%positive) by (destruct KC as ((L & _) & _); exact L).
  assert (Eab := NE 0%nat 1%nat ltac:(lia)). assert (Ebc := NE 1%nat 2%nat ltac:(lia)). assert (Eac := NE 0%nat 2%nat ltac:(lia)). assert (Ebd := NE 1%nat 3%nat ltac:(lia)). assert (Ead := NE 0%nat 3%nat ltac:(lia)).
  assert (Ebe := NE 1%nat 4%nat ltac:(lia)). assert (Eae := NE 0%nat 4%nat ltac:(lia)). assert (Ebf := NE 1%nat 5%nat ltac:(lia)). assert (Eaf := NE 0%nat 5%nat ltac:(lia)). assert (Eag := NE 0%nat 6%nat ltac:(lia)). assert (Eah := NE 0%nat 7%nat ltac:(lia)).
  cbn [nth] in Eab, Ebc, Eac, Ebd, Ead, Ebe, Eae, Ebf, Eaf, Eag, Eah. clear NE.
  assert (LN : forall (E : env) x y v, y <> x -> lookup (PositiveMap.add x v E) y = lookup E y) by (intros E x y v X; rewrite lookup_add; destruct (Pos.eqb_spec y x); [contradiction|reflexivity]).
  assert (LE : forall (E : env) x v, lookup (PositiveMap.add x v E) x = v) by (intros E x v; rewrite lookup_add, Pos.eqb_refl; reflexivity).
  seq. apply (wp_new _ _ _ _ 3); [ev|lia|]. intros b1 m1 B1 X1 F1 I1. cbv iota.
  seq. apply (wp_new _ _ _ _ 4); [ev|lia|]. intros b2 m2 B2 X2 F2 I2. cbv iota.
  seq. apply (wp_new _ _ _ _ n); [ev|lia|]. intros b3 m3 B3 X3 F3 I3. cbv iota.
  seq. eapply (wp_member _ _ _ _ _ _ b2 b3); [apply pe_var; rewrite !LN by auto; apply LE|apply pe_var; apply LE|inb_in|]. intros m4 X4 F4 P20. cbv iota.
  seq. apply (wp_new _ _ _ _ 4); [ev|lia|]. intros b4 m5 B4 X5 F5 I4. cbv iota.
  seq. eapply (wp_member _ _ _ _ _ _ b2 b4); [apply pe_var; rewrite !LN by auto; apply LE|apply pe_var; apply LE|inb_in|]. intros m6 X6 F6 P21. cbv iota.
  seq. apply (wp_new _ _ _ _ 4); [ev|lia|]. intros b5 m7 B5 X7 F7 I5. cbv iota.
  seq. eapply (wp_member _ _ _ _ _ _ b2 b5); [apply pe_var; rewrite !LN by auto; apply LE|apply pe_var; apply LE|inb_in|]. intros m8 X8 F8 P22. cbv iota.
  seq. apply (wp_new _ _ _ _ 4); [ev|lia|]. intros b6 m9 B6 X9 F9 I6. cbv iota.
  seq. eapply (wp_member _ _ _ _ _ _ b2 b6); [apply pe_var; rewrite !LN by auto; apply LE|apply pe_var; apply LE|inb_in|]. intros m10 X10 F10 P23. cbv iota.
  seq. eapply (wp_member _ _ _ _ _ _ b1 b2); [apply pe_var; rewrite !LN by auto; apply LE|apply pe_var; rewrite !LN by auto; apply LE|inb_in|]. intros m11 X11 F11 P10. cbv iota.
  seq. apply (wp_new _ _ _ _ 4); [ev|lia|]. intros b7 m12 B7 X12 F12 I7. cbv iota.
  seq. eapply (wp_member _ _ _ _ _ _ b1 b7); [apply pe_var; rewrite !LN by auto; apply LE|apply pe_var; apply LE|inb_in|]. intros m13 X13 F13 P11. cbv iota.
  seq. apply (wp_new _ _ _ _ 1); [ev|lia|]. intros b8 m14 B8 X14 F14 I8. cbv iota.
  seq. eapply (wp_member _ _ _ _ _ _ b1 b8); [apply pe_var; rewrite !LN by auto; apply LE|apply pe_var; apply LE|inb_in|]. intros m15 X15 F15 P12. cbv iota.
  match goal with |- wp _ _ ?en' _ _ => apply (K m15 (Loc b1 b2 b3 b4 b5 b6 b7 b8) en') end;
    [| | |cbn [cx]; rewrite !LN by auto; apply LE|intros x X; cbn [In] in X; rewrite !LN by intuition; reflexivity].
  all: clear Eab Ebc Eac Ebd Ead Ebe Eae Ebf Eaf Eag Eah LN LE ND K; rewrite B1 in K1;
    assert (G2 : b2 = Pos.succ b1) by congruence; assert (G3 : b3 = Pos.succ b2) by congruence; assert (G4 : b4 = Pos.succ b3) by congruence; assert (G5 : b5 = Pos.succ b4) by congruence;
    assert (G6 : b6 = Pos.succ b5) by congruence; assert (G7 : b7 = Pos.succ b6) by congruence; assert (G8 : b8 = Pos.succ b7) by congruence; assert (G9 : mnext m15 = Pos.succ b8) by congruence.
  all: clear B2 B3 B4 B5 B6 B7 B8 X1 X2 X3 X4 X5 X6 X7 X8 X9 X10 X11 X12 X13 X14 X15.
  - repeat (first [apply frame_refl | match goal with F : frame _ ?x _ |- frame _ ?x _ => eapply frame_comp; [|exact F|]; [|clear - B1 G2; intros ? ? ? ? []; lia] end]).
  - intros x X NX. cbn [In blocks cx sp stb rtb ixb sqb flb dsb] in X. clear - B1 X NX G2 G3 G4 G5 G6 G7 G8 G9. lia.
  - split; [clear - K1 G2 G3 G4 G5 G6 G7 G8 G9; unfold blocks; cbn [cx sp stb rtb ixb sqb flb dsb]; repeat constructor; cbn [In]; lia|].
    splits; cbn [cx sp stb rtb ixb sqb flb dsb]; try inb_in;
    repeat (match goal with |- ptr ?m _ _ _ => first [assumption | match goal with F : frame _ m _ |- _ => eapply ptr_at; [|exact F|]; [|clear - G2; intros []; lia] end] end).
Qed.
