(** The translated sponge functions. *)
From Coq Require Import ZArith NArith List Bool FMapPositive Lia ZifyBool ZifyNat ZifyN.
From Verif Require Import Model.Base Proof.BaseProof.
From Verif Require Model.Hash Model.Sponge Spec.KeccakSpec Spec.VcSpec Proof.KeccakProof Proof.RefWin Proof.RefOwf Proof.RefPrg Proof.RefVoleHash Proof.SpongeProof Proof.ShakeProof Proof.SnpProof.
From Verif Require Import Model.CtLang Model.CtNames Model.CtKeccakP Model.CtKeccak Model.CtProgram Proof.RefLogic Proof.RefTac Proof.RefMem Proof.RefReg Proof.RefKeccak Proof.RefFast Proof.RefSnp.
Import ListNotations.
Local Open Scope Z_scope.
Arguments wrap : simpl never.

(** ** Contexts in memory *)
Record loc := Loc { cx : positive; sp : positive; stb : positive; rtb : positive; ixb : positive; sqb : positive; flb : positive; dsb : positive }.
Definition blocks (L : loc) : list positive := [1%positive; cx L; sp L; stb L; rtb L; ixb L; sqb L; flb L; dsb L].
Definition ptr (m : mem) (b : positive) (i : Z) (t : positive) : Prop := inb m b i 1 /\ cell m b i = VPtr t 0.
Definition space (m : mem) (L : loc) : Prop := NoDup (blocks L) /\
  (ptr m (cx L) 0 (sp L) /\ ptr m (cx L) 1 (flb L) /\ ptr m (cx L) 2 (dsb L)) /\
  (ptr m (sp L) 0 (stb L) /\ ptr m (sp L) 1 (rtb L) /\ ptr m (sp L) 2 (ixb L) /\ ptr m (sp L) 3 (sqb L)) /\
  (inb m (stb L) 0 200 /\ inb m (rtb L) 0 4 /\ inb m (ixb L) 0 4 /\ inb m (sqb L) 0 4 /\ inb m (flb L) 0 4 /\ inb m (dsb L) 0 1).
Definition num (m : mem) (b : positive) (v : N) : Prop := holds m b 0 (le_bytes 4 v).
Definition ctx (m : mem) (L : loc) (s : bytes) (rate k q : N) : Prop := space m L /\ kconst m /\
  (lenN s = 200%N /\ bytes_ok s /\ holds m (stb L) 0 s) /\ (num m (rtb L) (8 * rate) /\ num m (ixb L) k /\ num m (sqb L) q) /\
  (num m (flb L) 0 /\ holds m (dsb L) 0 [31%N]).
(** what the functions write *)
Definition foot (L : loc) (b : positive) (o : Z) : Prop := In b [stb L; rtb L; ixb L; sqb L; flb L; dsb L].

Lemma nodup_ne (l : list positive) i j : NoDup l -> (i < j < length l)%nat -> nth i l 1%positive <> nth j l 1%positive.
Proof. intros H L E. assert (X := proj1 (NoDup_nth l 1%positive) H i j ltac:(lia) ltac:(lia) E). lia. Qed.
Lemma ne L i j : NoDup (blocks L) -> (i < j < 9)%nat -> nth i (blocks L) 1%positive <> nth j (blocks L) 1%positive.
Proof. intros H X. apply nodup_ne; [exact H|cbn [blocks length]; lia]. Qed.
Lemma off_block m m' b o n c p l : holds m b o l -> frame m m' (at_ c p n) -> b <> c -> holds m' b o l.
Proof. intros H F D. eapply holds_frame; [exact H|exact F|]. intros q _ [E _]. exact (D E). Qed.
Lemma off_set m m' S b o l : holds m b o l -> frame m m' S -> (forall q, ~ S b q) -> holds m' b o l.
Proof. intros H F D. eapply holds_frame; [exact H|exact F|]. intros q _. apply D. Qed.
Lemma ptr_kept m m' S b i t : ptr m b i t -> frame m m' S -> (forall q, ~ S b q) -> ptr m' b i t.
Proof. intros [I C] F D. split; [eapply inb_frame; eassumption|]. rewrite <- C. destruct F as (_ & _ & F). apply F; [exact (proj1 I)|destruct I as (_ & I & _); exact I|apply D]. Qed.
Lemma foot_blocks L : NoDup (blocks L) -> forall b q, foot L b q -> b <> 1%positive /\ b <> cx L /\ b <> sp L.
Proof.
  intros ND b q H. unfold blocks in ND. repeat rewrite NoDup_cons_iff in ND. destruct ND as (A & B & C & _). unfold foot in H.
  split; [|split]; intros ->; [apply A|apply B|apply C]; cbn [In] in *; tauto.
Qed.
Lemma foot_in L b q : foot L b q -> In b (blocks L).
Proof. unfold foot, blocks. cbn [In]. tauto. Qed.
Lemma space_kept m m' S L : space m L -> frame m m' S -> (forall q, ~ S (cx L) q) -> (forall q, ~ S (sp L) q) -> space m' L.
Proof.
  intros (ND & (A1 & A2 & A3) & (B1 & B2 & B3 & B4) & (C1 & C2 & C3 & C4 & C5 & C6)) F D1 D2.
  split; [exact ND|]. splits; try (eapply inb_frame; [exact F|]; assumption); try (eapply ptr_kept; [eassumption|exact F|assumption]).
Qed.
Lemma kconst_kept m m' S : kconst m -> frame m m' S -> (forall q, ~ S 1%positive q) -> kconst m'.
Proof. intros H F D. eapply off_set; [exact H|exact F|exact D]. Qed.
Lemma ctx_kept m m' S L s rate k q : ctx m L s rate k q -> frame m m' S -> (forall b o, S b o -> ~ In b (blocks L)) -> ctx m' L s rate k q.
Proof.
  intros (SP & KC & (LS & BS & HS) & (HR & HI & HQ) & (HF & HD)) F D.
  assert (X : forall b, In b (blocks L) -> forall p, ~ S b p) by (intros b I p Y; exact (D _ _ Y I)).
  split; [eapply space_kept; [exact SP|exact F|apply X; unfold blocks; cbn [In]; tauto..]|].
  split; [eapply kconst_kept; [exact KC|exact F|apply X; unfold blocks; cbn [In]; tauto]|].
  splits; try assumption; (eapply off_set; [eassumption|exact F|apply X; unfold blocks; cbn [In]; tauto]).
Qed.
Lemma ctx_state m m' L s rate k q s' : ctx m L s rate k q -> frame m m' (at_ (stb L) 0 200) -> holds m' (stb L) 0 s' -> lenN s' = 200%N -> bytes_ok s' -> ctx m' L s' rate k q.
Proof.
  intros (SP & KC & (LS & BS & HS) & (HR & HI & HQ) & (HF & HD)) F H' L' B'. assert (ND := proj1 SP).
  assert (N1 : 1%positive <> stb L) by (apply (ne L 0 3 ND); cbn; lia). assert (N2 : cx L <> stb L) by (apply (ne L 1 3 ND); cbn; lia). assert (N3 : sp L <> stb L) by (apply (ne L 2 3 ND); cbn; lia). 
  assert (N4 : rtb L <> stb L) by (apply not_eq_sym, (ne L 3 4 ND); cbn; lia). assert (N5 : ixb L <> stb L) by (apply not_eq_sym, (ne L 3 5 ND); cbn; lia). assert (N6 : sqb L <> stb L) by (apply not_eq_sym, (ne L 3 6 ND); cbn; lia).
  assert (N7 : flb L <> stb L) by (apply not_eq_sym, (ne L 3 7 ND); cbn; lia). assert (N8 : dsb L <> stb L) by (apply not_eq_sym, (ne L 3 8 ND); cbn; lia).
  split; [eapply space_kept; [exact SP|exact F|intros p [E _]; tauto..]|]. split; [eapply kconst_kept; [exact KC|exact F|intros p [E _]; tauto]|].
  split; [auto|]. split; [split; [|split]|split]; eapply off_block; eauto.
Qed.
Lemma ctx_index m m' L s rate k q k' : ctx m L s rate k q -> frame m m' (at_ (ixb L) 0 4) -> num m' (ixb L) k' -> ctx m' L s rate k' q.
Proof.
  intros (SP & KC & (LS & BS & HS) & (HR & HI & HQ) & (HF & HD)) F H'. assert (ND := proj1 SP).
  assert (N1 : 1%positive <> ixb L) by (apply (ne L 0 5 ND); cbn; lia). assert (N2 : cx L <> ixb L) by (apply (ne L 1 5 ND); cbn; lia). assert (N3 : sp L <> ixb L) by (apply (ne L 2 5 ND); cbn; lia). 
  assert (N4 : rtb L <> ixb L) by (apply (ne L 4 5 ND); cbn; lia). assert (N5 : stb L <> ixb L) by (apply (ne L 3 5 ND); cbn; lia). assert (N6 : sqb L <> ixb L) by (apply not_eq_sym, (ne L 5 6 ND); cbn; lia).
  assert (N7 : flb L <> ixb L) by (apply not_eq_sym, (ne L 5 7 ND); cbn; lia). assert (N8 : dsb L <> ixb L) by (apply not_eq_sym, (ne L 5 8 ND); cbn; lia).
  split; [eapply space_kept; [exact SP|exact F|intros p [E _]; tauto..]|]. split; [eapply kconst_kept; [exact KC|exact F|intros p [E _]; tauto]|].
  split; [split; [exact LS|split; [exact BS|eapply off_block; eauto]]|]. split; [split; [|split]|split]; try exact H'; eapply off_block; eauto.
Qed.
Lemma ctx_phase m m' L s rate k q q' : ctx m L s rate k q -> frame m m' (at_ (sqb L) 0 4) -> num m' (sqb L) q' -> ctx m' L s rate k q'.
Proof.
  intros (SP & KC & (LS & BS & HS) & (HR & HI & HQ) & (HF & HD)) F H'. assert (ND := proj1 SP).
  assert (N1 : 1%positive <> sqb L) by (apply (ne L 0 6 ND); cbn; lia). assert (N2 : cx L <> sqb L) by (apply (ne L 1 6 ND); cbn; lia). assert (N3 : sp L <> sqb L) by (apply (ne L 2 6 ND); cbn; lia). 
  assert (N4 : rtb L <> sqb L) by (apply (ne L 4 6 ND); cbn; lia). assert (N5 : stb L <> sqb L) by (apply (ne L 3 6 ND); cbn; lia). assert (N6 : ixb L <> sqb L) by (apply (ne L 5 6 ND); cbn; lia).
  assert (N7 : flb L <> sqb L) by (apply not_eq_sym, (ne L 6 7 ND); cbn; lia). assert (N8 : dsb L <> sqb L) by (apply not_eq_sym, (ne L 6 8 ND); cbn; lia).
  split; [eapply space_kept; [exact SP|exact F|intros p [E _]; tauto..]|]. split; [eapply kconst_kept; [exact KC|exact F|intros p [E _]; tauto]|].
  split; [split; [exact LS|split; [exact BS|eapply off_block; eauto]]|]. split; [split; [|split]|split]; try exact H'; eapply off_block; eauto.
Qed.

(** ** Reading and writing numbers *)
Lemma decode4 m b v : num m b v -> (v < 2^32)%N -> decode (bytesat m b 0 4) = ofN v.
Proof.
  intros H L. assert (L4 := lenN_le_bytes 4 v). change (N.of_nat 4) with 4%N in L4.
  assert (K := RefWin.holds_bytesat _ _ _ _ H 4 0%N ltac:(lia)). rewrite Z.add_0_r in K. rewrite K. rewrite RefWin.decode_ofN. rewrite dropN_0.
  rewrite takeN_all by lia. rewrite le_val_le_bytes by exact L. reflexivity.
Qed.
Lemma wp_store4 p a e m b v (Q : outcome -> env -> mem -> Prop) : pe e m p (VPtr b 0) -> pe e m a (VInt (ofN v)) -> inb m b 0 4 ->
  (forall m', frame m m' (at_ b 0 4) -> num m' b v -> Q ONormal e m') -> wp code (SStore 4 p a) e m Q.
Proof.
  intros A B I K. eapply wp_store; [exact A|exact B|exact I|]. rewrite encode_le. assert (L8 := lenN_le_bytes 4 v). change (N.of_nat 4) with 4%N in L8. apply K.
  - replace 4 with (Z.of_nat (length (map ofN (le_bytes 4 v)))) at 3 by (rewrite map_length; unfold lenN in L8; lia). apply frame_setb.
    rewrite map_length. eapply inb_sub; [exact I|unfold lenN in L8; lia..].
  - apply holds_setb. rewrite L8. exact I.
Qed.
Lemma pe_ptr e m x nf f b t : lookup e x = VPtr b 0 -> ptr m b f t -> pe e m (EField (EVar x) nf f) (VPtr t 0).
Proof. intros E [I C]. eapply pe_eq; [eapply pe_field; [apply pe_var; exact E|]|]; rewrite Z.mul_0_l, Z.add_0_l; [exact I|exact C]. Qed.
Lemma pe_num e m p b v : pe e m p (VPtr b 0) -> num m b v -> (v < 2^32)%N -> pe e m (ELoad 4 p) (VInt (ofN v)).
Proof.
  intros E H L. eapply pe_eq; [eapply pe_load; [exact E|]|].
  - exact (holds_inb _ _ _ _ H).
  - f_equal. apply decode4; assumption.
Qed.
Section Fields.
Context (m : mem) (L : loc) (s : bytes) (rate k q : N) (H : ctx m L s rate k q) (e : env) (x : positive) (E : lookup e x = VPtr (sp L) 0).
Lemma f_state : pe e m (EField (EVar x) 4 0) (VPtr (stb L) 0).
Proof using H E. destruct H as ((_ & _ & P & _) & _). eapply pe_ptr; [exact E|apply P]. Qed.
Lemma f_ratep : pe e m (EField (EVar x) 4 1) (VPtr (rtb L) 0).
Proof using H E. destruct H as ((_ & _ & P & _) & _). eapply pe_ptr; [exact E|apply P]. Qed.
Lemma f_indexp : pe e m (EField (EVar x) 4 2) (VPtr (ixb L) 0).
Proof using H E. destruct H as ((_ & _ & P & _) & _). eapply pe_ptr; [exact E|apply P]. Qed.
Lemma f_phasep : pe e m (EField (EVar x) 4 3) (VPtr (sqb L) 0).
Proof using H E. destruct H as ((_ & _ & P & _) & _). eapply pe_ptr; [exact E|apply P]. Qed.
Lemma f_rate : (rate < 200)%N -> pe e m (ELoad 4 (EField (EVar x) 4 1)) (VInt (ofN (8 * rate))).
Proof using H E. intros R. eapply pe_num; [apply f_ratep|destruct H as (_ & _ & _ & (P & _) & _); exact P|lia]. Qed.
Lemma f_index : (k < 2^32)%N -> pe e m (ELoad 4 (EField (EVar x) 4 2)) (VInt (ofN k)).
Proof using H E. intros R. eapply pe_num; [apply f_indexp|destruct H as (_ & _ & _ & (_ & P & _) & _); exact P|exact R]. Qed.
Lemma f_phase : (q < 2^32)%N -> pe e m (ELoad 4 (EField (EVar x) 4 3)) (VInt (ofN q)).
Proof using H E. intros R. eapply pe_num; [apply f_phasep|destruct H as (_ & _ & _ & (_ & _ & P) & _); exact P|exact R]. Qed.
End Fields.
Ltac lk := look.
Ltac ev ::=
  lazymatch goal with
  | |- pe _ _ (EInt _) _ => apply pe_int
  | |- pe _ _ (EVar _) _ => apply pe_var; look
  | |- pe _ _ (EGlob _) _ => apply pe_glob
  | |- pe _ _ ENull _ => apply pe_null
  | |- pe _ _ (EUn _ _ _) _ => eapply pe_un; ev
  | |- pe _ _ (EBin _ _ _ _) _ => eapply pe_bin; [ev|ev]
  | |- pe _ _ (EDiv _ _ _ _) _ => eapply pe_div; [ev|ev|try lia]
  | |- pe _ _ (EAt _ _ _) _ => eapply pe_at; [ev|ev]
  | |- pe _ _ (EIsNull _) _ => eapply pe_isnull; ev
  | |- pe _ ?m (EField (EVar _) 4 0) _ => match goal with H : ctx m _ _ _ _ _ |- _ => eapply (f_state _ _ _ _ _ _ H); lk end
  | |- pe _ ?m (EField (EVar _) 4 1) _ => match goal with H : ctx m _ _ _ _ _ |- _ => eapply (f_ratep _ _ _ _ _ _ H); lk end
  | |- pe _ ?m (EField (EVar _) 4 2) _ => match goal with H : ctx m _ _ _ _ _ |- _ => eapply (f_indexp _ _ _ _ _ _ H); lk end
  | |- pe _ ?m (EField (EVar _) 4 3) _ => match goal with H : ctx m _ _ _ _ _ |- _ => eapply (f_phasep _ _ _ _ _ _ H); lk end
  | |- pe _ ?m (ELoad 4 (EField (EVar _) 4 1)) _ => match goal with H : ctx m _ _ _ _ _ |- _ => eapply (f_rate _ _ _ _ _ _ H); [lk|lia] end
  | |- pe _ ?m (ELoad 4 (EField (EVar _) 4 2)) _ => match goal with H : ctx m _ _ _ _ _ |- _ => eapply (f_index _ _ _ _ _ _ H); [lk|lia] end
  | |- pe _ ?m (ELoad 4 (EField (EVar _) 4 3)) _ => match goal with H : ctx m _ _ _ _ _ |- _ => eapply (f_phase _ _ _ _ _ _ H); [lk|lia] end
  | |- pe _ _ (ELoad 1 _) _ => eapply pe_load1; [ev|try inb_in]
  | |- pe _ _ (ELoad _ _) _ => eapply pe_load; [ev|try inb_in]
  | |- pe _ _ (ELoadP _) _ => eapply pe_loadp; [ev|try inb_in]
  | |- pe _ _ (EField _ _ _) _ => eapply pe_field; [ev|try inb_in]
  | |- _ => idtac
  end.

(** ** Initialization *)
Lemma code_Initialize : PositiveMap.find f_KeccakP1600_Initialize code = Some c_KeccakP1600_Initialize. Proof. vm_compute. reflexivity. Qed.
Lemma code_SpongeInitialize : PositiveMap.find f_KeccakWidth1600_SpongeInitialize code = Some c_KeccakWidth1600_SpongeInitialize. Proof. vm_compute. reflexivity. Qed.
Lemma map_repeat {A B} (f : A -> B) x n : map f (repeat x n) = repeat (f x) n.
Proof. induction n as [|n IH]; cbn; [reflexivity|]. rewrite IH. reflexivity. Qed.
Lemma ref_Initialize m b o : inb m b o 200 ->
  calls code f_KeccakP1600_Initialize [VPtr b o] m (fun _ m' => frame m m' (at_ b o 200) /\ holds m' b o (zeros 200)).
Proof.
  intros I. start code_Initialize. eapply wp_fill; [ev|ev|ev|exact I|].
  change (repeat 0 (Z.to_nat 200)) with (map ofN (zeros 200)). split.
  - exact (frame_setb m b o (map ofN (zeros 200)) I).
  - apply holds_setb. exact I.
Qed.
Lemma ref_SpongeInitialize m L rate : space m L -> (rate = 136 \/ rate = 168)%N ->
  calls code f_KeccakWidth1600_SpongeInitialize [VPtr (sp L) 0; VInt (ofN (8 * rate)); VInt (ofN (1600 - 8 * rate))] m (fun v m' =>
    v = VInt 0 /\ frame m m' (foot L) /\ holds m' (stb L) 0 (zeros 200) /\ num m' (rtb L) (8 * rate) /\ num m' (ixb L) 0 /\ num m' (sqb L) 0).
Proof.
  intros SP R. assert (X := SP). destruct X as (ND & _ & (P1 & P2 & P3 & P4) & (I1 & I2 & I3 & I4 & _)). start code_SpongeInitialize.
  seq. eapply wp_if; [ev|]. simp. rewrite truth_b, wrap_u32 by lia. destruct (Z.eqb_spec (ofN (8 * rate) + ofN (1600 - 8 * rate)) 1600) as [E|E]; [|lia]. cbn [negb]. apply wp_skip.
  seq. eapply wp_if.
  { eapply pe_cond.
    - eapply pe_cond; [ev|]. simp. rewrite truth_b. replace (ofN (8 * rate) <=? 0) with false by lia. cbv iota. ev.
    - simp. rewrite truth_b. replace (1600 <? ofN (8 * rate)) with false by lia. cbn [b2z]. change (0 =? 0) with true. cbn [negb]. cbv iota. ev. }
  simp. rewrite mod8. replace (8 * rate)%N with (0 + rate * 8)%N at 1 by lia. rewrite N.mod_add by lia. change (truth _) with false. cbv iota. apply wp_skip.
  assert (D13 := ne L 3 4 ND ltac:(lia)). assert (D14 := ne L 3 5 ND ltac:(lia)). assert (D15 := ne L 3 6 ND ltac:(lia)). assert (D16 := ne L 4 5 ND ltac:(lia)).
  assert (D17 := ne L 4 6 ND ltac:(lia)). assert (D18 := ne L 5 6 ND ltac:(lia)). 
  assert (D1 := ne L 2 3 ND ltac:(lia)). assert (D2 := ne L 2 4 ND ltac:(lia)). assert (D3 := ne L 2 5 ND ltac:(lia)). assert (D4 := ne L 2 6 ND ltac:(lia)). cbn [nth blocks] in *.
  seq. eapply wp_callf; [eapply pes_cons; [eapply pe_ptr; [look|exact P1]|apply pes_nil]|apply ref_Initialize; exact I1|]. intros w1 m1 (F1 & H1). cbn [set].
  assert (Q2 : ptr m1 (sp L) 1 (rtb L)) by (eapply ptr_kept; [exact P2|exact F1|intros q [Y _]; tauto]).
  assert (Q3 : ptr m1 (sp L) 2 (ixb L)) by (eapply ptr_kept; [exact P3|exact F1|intros q [Y _]; tauto]).
  assert (Q4 : ptr m1 (sp L) 3 (sqb L)) by (eapply ptr_kept; [exact P4|exact F1|intros q [Y _]; tauto]).
  seq. eapply (wp_store4 _ _ _ _ (rtb L) (8 * rate)); [eapply pe_ptr; [look|exact Q2]|ev|eapply inb_frame; [exact F1|exact I2]|]. intros m2 F2 H2.
  assert (R3 : ptr m2 (sp L) 2 (ixb L)) by (eapply ptr_kept; [exact Q3|exact F2|intros q [Y _]; tauto]).
  assert (R4 : ptr m2 (sp L) 3 (sqb L)) by (eapply ptr_kept; [exact Q4|exact F2|intros q [Y _]; tauto]).
  seq. eapply (wp_store4 _ _ _ _ (ixb L) 0); [eapply pe_ptr; [look|exact R3]|ev|eapply inb_frame; [exact F2|]; eapply inb_frame; [exact F1|exact I3]|]. intros m3 F3 H3.
  assert (T4 : ptr m3 (sp L) 3 (sqb L)) by (eapply ptr_kept; [exact R4|exact F3|intros q [Y _]; tauto]).
  seq. eapply (wp_store4 _ _ _ _ (sqb L) 0); [eapply pe_ptr; [look|exact T4]|ev|eapply inb_frame; [exact F3|]; eapply inb_frame; [exact F2|]; eapply inb_frame; [exact F1|exact I4]|]. intros m4 F4 H4.
  eapply wp_return; [ev|]. split; [reflexivity|]. split.
  { assert (W : forall b n a c x, (In b [stb L; rtb L; ixb L; sqb L; flb L; dsb L]) -> at_ b a n c x -> foot L c x) by (intros b n a c x Y [-> _]; exact Y).
    eapply frame_comp; [eapply frame_comp; [eapply frame_comp; [eapply frame_weak; [exact F1|]|exact F2|]|exact F3|]|exact F4|]; intros b o' _ _; apply W; cbn [In]; tauto. }
  split; [eapply off_block; [eapply off_block; [eapply off_block; [exact H1|exact F2|exact D13]|exact F3|exact D14]|exact F4|exact D15]|].
  split; [eapply off_block; [eapply off_block; [exact H2|exact F3|exact D16]|exact F4|exact D17]|].
  split; [eapply off_block; [exact H3|exact F4|exact D18]|exact H4].
Qed.

(** ** Absorbing *)
Lemma code_SpongeAbsorb : PositiveMap.find f_KeccakWidth1600_SpongeAbsorb code = Some c_KeccakWidth1600_SpongeAbsorb. Proof. vm_compute. reflexivity. Qed.
Definition rate_of (rate : N) : Prop := (rate = 136 \/ rate = 168)%N.
Lemma foot_st L n a b o : at_ (stb L) a n b o -> foot L b o.
Proof. intros [-> _]. unfold foot. cbn [In]. tauto. Qed.
Lemma foot_ix L n a b o : at_ (ixb L) a n b o -> foot L b o.
Proof. intros [-> _]. unfold foot. cbn [In]. tauto. Qed.
Lemma foot_sq L n a b o : at_ (sqb L) a n b o -> foot L b o.
Proof. intros [-> _]. unfold foot. cbn [In]. tauto. Qed.
Lemma ctx_in m L s rate k q : ctx m L s rate k q -> inb m (ixb L) 0 4 /\ inb m (sqb L) 0 4.
Proof. intros ((_ & _ & _ & (_ & _ & A & B & _)) & _). split; assumption. Qed.
Lemma ref_Permute_ctx m L s rate k q : ctx m L s rate k q ->
  calls code f_KeccakP1600_Permute_24rounds [VPtr (stb L) 0] m (fun _ m' => frame m m' (at_ (stb L) 0 200) /\ ctx m' L (pm s) rate k q).
Proof.
  intros C. assert (X := C). destruct X as (_ & KC & (LS & BS & HS) & _). eapply calls_weak; [apply (ref_Permute m (stb L) 0 s); assumption|].
  intros v m' (F & H). rewrite pm_permuted by exact LS. split; [exact F|]. eapply ctx_state; [exact C|exact F|exact H|apply permuted_len|apply permuted_ok].
Qed.
Lemma rate_r rate : rate_of rate -> (1 < rate < 200)%N.
Proof. intros [-> | ->]; lia. Qed.
Lemma feeds_app rate a b s : feeds rate (a ++ b) s = feeds rate b (feeds rate a s).
Proof. apply fold_left_app. Qed.
Lemma feed_part rate d s k : rate_of rate -> lenN s = 200%N -> (k < rate)%N -> (k + lenN d <= rate)%N -> d <> [] ->
  feeds rate d (s, k) = if (k + lenN d =? rate)%N then (pm (xor_at s k d), 0%N) else (xor_at s k d, (k + lenN d)%N).
Proof. intros R. exact (SpongeProof.feed_part Keccak.KeccakP1600_Permute_24rounds pm ShakeProof.perm_ok rate (rate_r rate R) d s k). Qed.
Lemma ref_SpongeAbsorb m L s rate k db dof d : ctx m L s rate k 0 -> rate_of rate -> (k < rate)%N -> holds m db dof d -> bytes_ok d -> ~ In db (blocks L) -> (lenN d + 200 <= 2^32)%N ->
  calls code f_KeccakWidth1600_SpongeAbsorb [VPtr (sp L) 0; VPtr db dof; VInt (ofN (lenN d))] m (fun v m' =>
    v = VInt 0 /\ frame m m' (foot L) /\ exists s' k', ctx m' L s' rate k' 0 /\ (k' < rate)%N /\ feeds rate d (s, k) = (s', k')).
Proof.
  intros C R Lk HD BD NI LD. assert (R' := rate_r rate R). start code_SpongeAbsorb.
  seq. eapply wp_set; [ev|]. rewrite div8 by lia. replace (8 * rate)%N with (rate * 8)%N by lia. rewrite N.div_mul by lia.
  seq. eapply wp_if; [ev|]. change (truth _) with false. cbv iota. apply wp_skip.
  seq. eapply wp_set; [ev|]. seq. eapply wp_set; [ev|]. seq.
  eapply (wp_while code _ _ _ (fun n e m' => exists i s' k', n = N.to_nat (lenN d - i) /\ (i <= lenN d)%N /\ (k' < rate)%N /\
    feeds rate (takeN i d) (s, k) = (s', k') /\ ctx m' L s' rate k' 0 /\ frame m m' (foot L) /\
    has e [(1%positive, VPtr (sp L) 0); (3%positive, VInt (ofN (lenN d))); (4%positive, VInt (ofN i)); (7%positive, VPtr db (dof + ofN i)); (8%positive, VInt (ofN rate))]))
    with (n := N.to_nat (lenN d)).
  2:{ exists 0%N, s, k. split; [f_equal; lia|]. split; [lia|]. split; [exact Lk|]. split; [reflexivity|]. split; [exact C|]. split; [apply frame_refl|]. hasz. }
  intros n e m' (i & s' & k' & -> & Li & Lk' & FD & C' & F & HE). unhas. eexists. split; [ev|]. simp. rewrite truth_b.
  assert (HD' : holds m' db dof d) by (eapply off_set; [exact HD|exact F|intros q Y; exact (NI (foot_in _ _ _ Y))]).
  assert (NS : db <> stb L) by (intros ->; apply NI; unfold blocks; cbn [In]; tauto).
  destruct (Z.ltb_spec (ofN i) (ofN (lenN d))) as [G|G].
  2:{ eapply wp_return; [ev|]. split; [reflexivity|]. split; [exact F|]. exists s', k'. split; [exact C'|]. split; [exact Lk'|]. rewrite takeN_all in FD by lia. exact FD. }
  assert (X := C'). destruct X as (SP & KC & (LS & BS & HS) & _).
  eapply wp_if.
  { eapply pe_cond; [ev|]. simp. rewrite truth_b. 
    instantiate (1 := VInt (b2z ((k' =? 0)%N && (rate <=? lenN d - i)%N))). destruct (N.eqb_spec k' 0) as [Z|Z].
    - rewrite Z. change (ofN 0 =? 0) with true. cbv iota. eapply pe_eq; [ev|]. simp. rewrite wrap_u64 by lia. cbn [andb].
      destruct (Z.leb_spec (ofN i + ofN rate) (ofN (lenN d))), (N.leb_spec rate (lenN d - i)); try lia; reflexivity.
    - replace (ofN k' =? 0) with false by lia. cbv iota. ev. }
  rewrite truth_b. destruct ((k' =? 0)%N && (rate <=? lenN d - i)%N) eqn:B.
  - apply andb_prop in B. destruct B as [B1 B2]. apply N.eqb_eq in B1. apply N.leb_le in B2. subst k'.
    eapply wp_if; [ev|]. simp. rewrite mod8, truth_b. replace (rate mod 8)%N with 0%N by (destruct R as [-> | ->]; reflexivity). change (ofN 0 =? 0) with true. cbv iota.
    assert (LT : lenN (dropN i d) = (lenN d - i)%N) by apply lenN_dropN.
    assert (CT := ref_FastLoop (rate / 8) rate m' (stb L) 0 db (dof + ofN i) s' (dropN i d) ltac:(destruct R as [-> | ->]; [left|right]; reflexivity) ltac:(destruct R as [-> | ->]; reflexivity)
      HS LS BS KC (holds_from _ _ _ _ _ HD' Li) (Forall_dropN _ _ _ BD) ltac:(lia)). rewrite LT in CT.
    seq. eapply wp_callf; [evs|..].
    { simp. rewrite div8, wrap_u64 by lia. replace (ofN (lenN d) - ofN i) with (ofN (lenN d - i)) by lia. exact CT. }
    intros v m2 (-> & F2 & s2 & K2 & L2 & B2' & FD2). cbn [set]. set (p := (rate * ((lenN d - i) / rate))%N) in *.
    assert (PB : (rate <= p <= lenN d - i)%N).
    { assert (Y := N.div_mod (lenN d - i) rate ltac:(lia)). assert (W := N.mod_lt (lenN d - i) rate ltac:(lia)). fold p in Y. assert (U : (1 <= (lenN d - i) / rate)%N) by (apply N.div_le_lower_bound; lia). unfold p in *. nia. }
    clearbody p. assert (C2 := ctx_state _ _ _ _ _ _ _ _ C' F2 K2 L2 B2').
    seq. eapply wp_set; [ev|]. seq. eapply wp_set; [ev|]. eapply wp_set; [ev|]. simp. apply wp_skip. split; [reflexivity|]. rewrite wrap_u64 by lia.
    exists (N.to_nat (lenN d - (i + p))). split; [lia|]. exists (i + p)%N, s2, 0%N. split; [reflexivity|]. split; [lia|]. split; [lia|].
    split; [rewrite takeN_split, feeds_app, FD; exact FD2|]. split; [exact C2|].
    split; [eapply frame_comp; [exact F|exact F2|intros b' o' _ _; apply foot_st]|]. hasz.
  - assert (B' : k' <> 0%N \/ (lenN d - i < rate)%N) by (destruct (N.eqb_spec k' 0), (N.leb_spec rate (lenN d - i)); try discriminate; tauto). clear B.
    set (p := N.min (lenN d - i) (rate - k')). assert (EP : p = N.min (lenN d - i) (rate - k')) by reflexivity. clearbody p.
    seq. eapply wp_set; [ev|]. simp. rewrite wrap_u64, wrap_u32 by lia. seq.
    eapply (wp_weak code _ _ _ (fun out e2 m2 => out = ONormal /\ m2 = m' /\ has e2 [(1%positive, VPtr (sp L) 0); (3%positive, VInt (ofN (lenN d))); (4%positive, VInt (ofN i)); (7%positive, VPtr db (dof + ofN i)); (8%positive, VInt (ofN rate)); (6%positive, VInt (ofN p))])).
    { eapply wp_if; [ev|]. simp. rewrite truth_b. rewrite wrap_u32 by lia. destruct (Z.ltb_spec (ofN rate) (ofN (lenN d) - ofN i + ofN k')) as [W|W].
      - eapply wp_set; [ev|]. simp. rewrite !wrap_u32 by lia. split; [reflexivity|]. split; [reflexivity|]. hasz.
      - apply wp_skip. split; [reflexivity|]. split; [reflexivity|]. hasz. }
    intros out e2 m2 (-> & -> & HE2). unhas. seq. eapply wp_set; [ev|]. simp. rewrite wrap_u64 by lia.
    assert (LC : lenN (takeN p (dropN i d)) = p) by (rewrite lenN_takeN, lenN_dropN; lia).
    assert (HX : holds m' db (dof + ofN i) (takeN p (dropN i d))) by (apply RefVoleHash.holds_sub; [exact HD'|lia]).
    assert (CT := ref_AddBytes m' (stb L) 0 s' db (dof + ofN i) (takeN p (dropN i d)) k' HS LS BS HX ltac:(apply Forall_takeN, Forall_dropN, BD) ltac:(left; exact NS) ltac:(lia)).
    rewrite LC in CT.
    seq. eapply wp_callf; [evs|exact CT|]. intros w2 m2 (F2 & K2). cbn [set].
    assert (C2 : ctx m2 L (xor_at s' k' (takeN p (dropN i d))) rate k' 0).
    { eapply ctx_state; [exact C'|exact F2|exact K2|rewrite SpongeProof.xor_at_len; lia|apply SpongeProof.xor_at_bytes; [exact BS|apply Forall_takeN, Forall_dropN, BD]]. }
    assert (FP := feed_part rate (takeN p (dropN i d)) s' k' R LS Lk' ltac:(lia) ltac:(intros Y; rewrite Y in LC; unfold lenN in LC; cbn in LC; lia)). rewrite LC in FP.
    assert (FS : feeds rate (takeN (i + p) d) (s, k) = feeds rate (takeN p (dropN i d)) (s', k')) by (rewrite takeN_split, feeds_app, FD; reflexivity).
    rewrite FP in FS. clear FP. set (s2 := xor_at s' k' (takeN p (dropN i d))) in *. clearbody s2.
    seq. eapply wp_set; [ev|]. seq. eapply wp_set; [ev|]. simp. seq.
    eapply (wp_store4 _ _ _ _ (ixb L) (k' + p)); [ev|eapply pe_eq; [eapply pe_bin; [eapply pe_num; [ev|exact (proj1 (proj2 (proj1 (proj2 (proj2 (proj2 C2))))))|lia]|ev]|]|exact (proj1 (ctx_in _ _ _ _ _ _ C2))|].
    { simp. rewrite wrap_u32 by lia. f_equal. lia. }
    intros m3 F3 K3. assert (C3 := ctx_index _ _ _ _ _ _ _ _ C2 F3 K3).
    assert (F03 : frame m m3 (foot L)).
    { eapply frame_comp; [eapply frame_comp; [exact F|exact F2|intros b' o' _ _; apply foot_st]|exact F3|intros b' o' _ _; apply foot_ix]. }
    eapply wp_if; [ev|]. simp. rewrite truth_b. destruct (Z.eqb_spec (ofN (k' + p)) (ofN rate)) as [W|W].
    + replace (k' + p =? rate)%N with true in FS by lia.
      seq. eapply wp_callf; [evs|apply (ref_Permute_ctx _ _ _ _ _ _ C3)|]. intros w4 m4 (F4 & C4). cbn [set].
      eapply (wp_store4 _ _ _ _ (ixb L) 0); [ev|ev|exact (proj1 (ctx_in _ _ _ _ _ _ C4))|]. intros m5 F5 K5. assert (C5 := ctx_index _ _ _ _ _ _ _ _ C4 F5 K5).
      apply wp_skip. split; [reflexivity|]. exists (N.to_nat (lenN d - (i + p))). split; [lia|]. exists (i + p)%N, (pm s2), 0%N. split; [reflexivity|]. split; [lia|]. split; [lia|]. split; [exact FS|]. split; [exact C5|].
      split; [eapply frame_comp; [eapply frame_comp; [exact F03|exact F4|intros b' o' _ _; apply foot_st]|exact F5|intros b' o' _ _; apply foot_ix]|]. hasz.
    + replace (k' + p =? rate)%N with false in FS by lia. apply wp_skip. apply wp_skip. split; [reflexivity|]. exists (N.to_nat (lenN d - (i + p))). split; [lia|]. exists (i + p)%N, s2, (k' + p)%N.
      split; [reflexivity|]. split; [lia|]. split; [lia|]. split; [exact FS|]. split; [exact C3|]. split; [exact F03|]. hasz.
Qed.

(** ** Padding *)
Lemma code_LastFewBits : PositiveMap.find f_KeccakWidth1600_SpongeAbsorbLastFewBits code = Some c_KeccakWidth1600_SpongeAbsorbLastFewBits. Proof. vm_compute. reflexivity. Qed.
Definition padded (rate : N) (s : bytes) (k : N) : bytes := pm (xor_at (xor_at s k [31%N]) (rate - 1) [128%N]).
Lemma ctx_byte m L s rate k q i x m' : ctx m L s rate k q -> (i < 200)%N -> (x < 256)%N -> m' = set1 m (stb L) (ofN i) (ofN (N.lxor (nthN s i 0%N) x)) ->
  frame m m' (at_ (stb L) 0 200) /\ ctx m' L (xor_at s i [x]) rate k q.
Proof.
  intros C I X ->. assert (Y := C). destruct Y as (_ & _ & (LS & BS & HS) & _). assert (IB : inb m (stb L) (ofN i) 1) by (eapply inb_sub; [exact (holds_inb _ _ _ _ HS)|lia..]).
  assert (F : frame m (set1 m (stb L) (ofN i) (ofN (N.lxor (nthN s i 0%N) x))) (at_ (stb L) 0 200)) by (apply frame_set1; [exact IB|split; [reflexivity|lia]]).
  split; [exact F|]. eapply ctx_state; [exact C|exact F| |rewrite SpongeProof.xor_at_len; [exact LS|unfold lenN at 1; cbn; lia]|apply SpongeProof.xor_at_bytes; [exact BS|repeat constructor; exact X]].
  rewrite <- SpongeProof.upd_xor_at by lia. apply (RefPrg.holds_upd m (stb L) 0 s i); [exact HS|lia|lia].
Qed.
Lemma ref_LastFewBits m L s rate k : ctx m L s rate k 0 -> rate_of rate -> (k < rate)%N ->
  calls code f_KeccakWidth1600_SpongeAbsorbLastFewBits [VPtr (sp L) 0; VInt 31] m (fun v m' =>
    v = VInt 0 /\ frame m m' (foot L) /\ ctx m' L (padded rate s k) rate 0 1).
Proof.
  intros C R Lk. assert (R' := rate_r rate R). start code_LastFewBits.
  seq. eapply wp_set; [ev|]. rewrite div8 by lia. replace (8 * rate)%N with (rate * 8)%N by lia. rewrite N.div_mul by lia.
  seq. eapply wp_if; [ev|]. simp. rewrite truth_b. change (31 =? 0) with false. cbv iota. apply wp_skip.
  seq. eapply wp_if; [ev|]. change (truth _) with false. cbv iota. apply wp_skip.
  seq. eapply wp_set; [ev|]. assert (Y := C). destruct Y as (_ & _ & (LS & BS & HS) & _).
  assert (BK := nthN_byte s k BS). unfold byte_ok in BK.
  assert (XB : forall a b, (a < 256)%N -> (b < 256)%N -> wrap u8 (Z.lxor (ofN a) (ofN b)) = ofN (N.lxor a b) /\ 0 <= ofN (N.lxor a b) < 256).
  { intros a b Ha Hb. assert (W := lxor_isbyte (ofN a) (ofN b) ltac:(unfold isbyte; lia) ltac:(unfold isbyte; lia)). unfold isbyte in W. rewrite wrap_u8 by exact W. rewrite lxor_ofN in *. split; [reflexivity|exact W]. }
  seq. eapply (wp_store1 _ _ _ _ (stb L) (ofN k) (ofN (N.lxor (nthN s k 0%N) 31))); [eapply pe_eq; [ev|f_equal; lia]|eapply pe_eq; [ev|]|eapply inb_sub; [exact (holds_inb _ _ _ _ HS)|lia..]|apply XB; [exact BK|lia]|].
  { simp. f_equal. replace (0 + 1 * ofN k) with (0 + ofN k) by lia. rewrite (holds_byte _ _ _ _ _ HS) by lia. rewrite N2Z.id. change 31 with (ofN 31). apply XB; [exact BK|lia]. }
  match goal with |- wp _ _ _ ?mm _ => destruct (ctx_byte m L s rate k 0 k 31 mm C ltac:(lia) ltac:(lia) eq_refl) as (F1 & C1); set (m1 := mm) in * end. clearbody m1.
  set (s1 := xor_at s k [31%N]) in *.
  seq. eapply wp_if; [eapply pe_cond; [ev|]; simp; rewrite truth_b; change (128 <=? 31) with false; cbv iota; ev|]. change (truth _) with false. cbv iota. apply wp_skip.
  seq. eapply wp_set; [ev|]. simp. rewrite wrap_u32 by lia. assert (Y := C1). destruct Y as (_ & _ & (LS1 & BS1 & HS1) & _).
  assert (BK1 := nthN_byte s1 (rate - 1) BS1). unfold byte_ok in BK1.
  seq. eapply (wp_store1 _ _ _ _ (stb L) (ofN (rate - 1)) (ofN (N.lxor (nthN s1 (rate - 1) 0%N) 128))); [eapply pe_eq; [ev|f_equal; lia]|eapply pe_eq; [ev|]|eapply inb_sub; [exact (holds_inb _ _ _ _ HS1)|lia..]|apply XB; [exact BK1|lia]|].
  { simp. f_equal. replace (0 + 1 * (ofN rate - 1)) with (0 + ofN (rate - 1)) by lia. rewrite (holds_byte _ _ _ _ _ HS1) by lia. rewrite N2Z.id. change 128 with (ofN 128). apply XB; [exact BK1|lia]. }
  match goal with |- wp _ _ _ ?mm _ => destruct (ctx_byte m1 L s1 rate k 0 (rate - 1) 128 mm C1 ltac:(lia) ltac:(lia) eq_refl) as (F2 & C2); set (m2 := mm) in * end. clearbody m2.
  seq. eapply wp_callf; [evs|apply (ref_Permute_ctx _ _ _ _ _ _ C2)|]. intros w3 m3 (F3 & C3). cbn [set].
  seq. eapply (wp_store4 _ _ _ _ (ixb L) 0); [ev|ev|exact (proj1 (ctx_in _ _ _ _ _ _ C3))|]. intros m4 F4 K4. assert (C4 := ctx_index _ _ _ _ _ _ _ _ C3 F4 K4).
  seq. eapply (wp_store4 _ _ _ _ (sqb L) 1); [ev|ev|exact (proj2 (ctx_in _ _ _ _ _ _ C4))|]. intros m5 F5 K5. assert (C5 := ctx_phase _ _ _ _ _ _ _ _ C4 F5 K5).
  eapply wp_return; [ev|]. split; [reflexivity|]. split; [|exact C5].
  eapply frame_comp; [eapply frame_comp; [eapply frame_comp; [eapply frame_comp; [eapply frame_weak; [exact F1|]|exact F2|]|exact F3|]|exact F4|]|exact F5|]; intros b' o' _ _; first [apply foot_st|apply foot_ix|apply foot_sq].
Qed.

(** ** Squeezing *)
Notation pulls rate n := (SpongeProof.pulls pm rate (N.to_nat n)).
Lemma code_SpongeSqueeze : PositiveMap.find f_KeccakWidth1600_SpongeSqueeze code = Some c_KeccakWidth1600_SpongeSqueeze. Proof. vm_compute. reflexivity. Qed.
Lemma pulls_add rate a b s : pulls rate (a + b) s = (fst (pulls rate a s) ++ fst (pulls rate b (snd (pulls rate a s))), snd (pulls rate b (snd (pulls rate a s)))).
Proof. rewrite N2Nat.inj_add. apply SpongeProof.pulls_app. Qed.
Lemma pulls_piece rate n s k : rate_of rate -> lenN s = 200%N -> (k + n <= rate)%N -> pulls rate n (s, k) = (takeN n (dropN k s), (s, (k + n)%N)).
Proof. intros R L H. assert (X := SpongeProof.pulls_part Keccak.KeccakP1600_Permute_24rounds pm ShakeProof.perm_ok rate (rate_r rate R) (N.to_nat n) s k L). rewrite N2Nat.id in X. apply X, H. Qed.
Lemma pulls_next rate n s : rate_of rate -> lenN s = 200%N -> bytes_ok s -> (1 <= n)%N -> pulls rate n (s, rate) = pulls rate n (pm s, 0%N).
Proof. intros R L B H. apply (SpongeProof.pulls_block Keccak.KeccakP1600_Permute_24rounds pm ShakeProof.perm_ok rate (rate_r rate R)); [exact L|exact B|lia]. Qed.
Lemma pulls_len rate n s : lenN (fst (pulls rate n s)) = n.
Proof. unfold lenN. rewrite SpongeProof.pulls_length. lia. Qed.
Definition outfoot (L : loc) (db : positive) (dof n : Z) (b : positive) (o : Z) : Prop := foot L b o \/ at_ db dof n b o.

(** one piece of output *)
Lemma ref_Extract m L s rate k q db dof n p i t : ctx m L s rate k q -> rate_of rate -> (k + p <= rate)%N -> (i + p <= n)%N -> inb m db dof (ofN n) -> ~ In db (blocks L) ->
  holds m db dof (fst (pulls rate i t)) -> snd (pulls rate i t) = (s, k) \/ (k = 0%N /\ (1 <= p)%N /\ exists s0, lenN s0 = 200%N /\ bytes_ok s0 /\ s = pm s0 /\ snd (pulls rate i t) = (s0, rate)) ->
  calls code f_KeccakP1600_ExtractBytes [VPtr (stb L) 0; VPtr db (dof + ofN i); VInt (ofN k); VInt (ofN p)] m (fun _ m' =>
    frame m m' (at_ db dof (ofN n)) /\ ctx m' L s rate k q /\ holds m' db dof (fst (pulls rate (i + p) t)) /\ snd (pulls rate (i + p) t) = (s, (k + p)%N)).
Proof.
  intros C R Lk Li ID NI HO T. assert (R' := rate_r rate R). assert (Y := C). destruct Y as (_ & _ & (LS & BS & HS) & _).
  assert (NS : db <> stb L) by (intros ->; apply NI; unfold blocks; cbn [In]; tauto).
  eapply calls_weak; [apply (ref_ExtractBytes m (stb L) 0 s db (dof + ofN i) k p); [exact HS|exact LS|exact BS|eapply inb_sub; [exact ID|lia..]|left; exact NS|lia]|].
  intros v m' (F & H). assert (F' : frame m m' (at_ db dof (ofN n))) by (eapply frame_weak; [exact F|in_at]).
  split; [exact F'|]. split; [eapply ctx_kept; [exact C|exact F|intros b o [-> _]; exact NI]|].
  assert (E : pulls rate p (snd (pulls rate i t)) = (takeN p (dropN k s), (s, (k + p)%N))).
  { destruct T as [-> | (-> & Lp & s0 & L0 & B0 & -> & ->)]; [apply pulls_piece; assumption|]. rewrite pulls_next by assumption. apply pulls_piece; assumption. }
  rewrite pulls_add. cbn [fst snd]. rewrite E. cbn [fst snd]. split; [|reflexivity]. apply RefOwf.holds_app.
  - eapply holds_frame; [exact HO|exact F|]. rewrite pulls_len. in_at.
  - rewrite pulls_len. exact H.
Qed.
Lemma ref_SpongeSqueeze0 m L s rate k v0 : ctx m L s rate k 1 -> rate_of rate -> (k <= rate)%N ->
  calls code f_KeccakWidth1600_SpongeSqueeze [VPtr (sp L) 0; v0; VInt 0] m (fun v m' => v = VInt 0 /\ m' = m).
Proof.
  intros C R Lk. assert (R' := rate_r rate R). start code_SpongeSqueeze.
  seq. eapply wp_set; [ev|]. seq. eapply wp_if; [ev|]. change (truth _) with false. cbv iota. apply wp_skip.
  seq. eapply wp_set; [ev|]. seq. eapply wp_set; [ev|]. seq.
  eapply (wp_while code _ _ _ (fun n e m' => n = O /\ m' = m /\ has e [(3%positive, VInt 0); (4%positive, VInt 0)])) with (n := O); [|split; [reflexivity|split; [reflexivity|hasz]]].
  intros n e m' (-> & -> & HE). unhas. eexists. split; [ev|]. change (truth _) with false. cbv iota. eapply wp_return; [ev|]. split; reflexivity.
Qed.
Lemma foot_not_db L db dof n b o : NoDup (blocks L) -> ~ In db (blocks L) -> outfoot L db dof n b o -> b <> 1%positive /\ b <> cx L /\ b <> sp L \/ b = db.
Proof. intros ND NI [H|[H _]]; [left; eapply foot_blocks; eassumption|right; exact H]. Qed.
Lemma ref_SpongeSqueeze m L s rate k db dof n : ctx m L s rate k 1 -> rate_of rate -> (k <= rate)%N -> inb m db dof (ofN n) -> ~ In db (blocks L) -> (n + 200 <= 2^32)%N ->
  calls code f_KeccakWidth1600_SpongeSqueeze [VPtr (sp L) 0; VPtr db dof; VInt (ofN n)] m (fun v m' =>
    v = VInt 0 /\ frame m m' (outfoot L db dof (ofN n)) /\ holds m' db dof (fst (pulls rate n (s, k))) /\
    exists s' k', ctx m' L s' rate k' 1 /\ (k' <= rate)%N /\ snd (pulls rate n (s, k)) = (s', k')).
Proof.
  intros C R Lk ID NI LN. assert (R' := rate_r rate R). start code_SpongeSqueeze.
  seq. eapply wp_set; [ev|]. rewrite div8 by lia. replace (8 * rate)%N with (rate * 8)%N by lia. rewrite N.div_mul by lia.
  seq. eapply wp_if; [ev|]. change (truth _) with false. cbv iota. apply wp_skip.
  seq. eapply wp_set; [ev|]. seq. eapply wp_set; [ev|]. seq.
  assert (NN : forall m', frame m m' (outfoot L db dof (ofN n)) -> inb m' db dof (ofN n)) by (intros m' F; eapply inb_frame; [exact F|exact ID]).
  assert (W1 : forall b o, at_ (stb L) 0 200 b o -> outfoot L db dof (ofN n) b o) by (intros b o X; left; eapply foot_st; exact X).
  assert (W2 : forall b o, at_ (ixb L) 0 4 b o -> outfoot L db dof (ofN n) b o) by (intros b o X; left; eapply foot_ix; exact X).
  assert (W3 : forall b o, at_ db dof (ofN n) b o -> outfoot L db dof (ofN n) b o) by (intros b o X; right; exact X).
  assert (KH : forall m1 m2 S l, holds m1 db dof l -> frame m1 m2 S -> (forall b o, S b o -> foot L b o) -> holds m2 db dof l).
  { intros m1 m2 S l H F X. eapply off_set; [exact H|exact F|]. intros q Y. exact (NI (foot_in _ _ _ (X _ _ Y))). }
  set (t := (s, k)) in *.
  eapply (wp_while code _ _ _ (fun w e m' => exists i s' k', w = N.to_nat (n - i) /\ (i <= n)%N /\ (k' <= rate)%N /\
    snd (pulls rate i t) = (s', k') /\ holds m' db dof (fst (pulls rate i t)) /\ ctx m' L s' rate k' 1 /\ frame m m' (outfoot L db dof (ofN n)) /\
    has e [(1%positive, VPtr (sp L) 0); (3%positive, VInt (ofN n)); (4%positive, VInt (ofN i)); (8%positive, VPtr db (dof + ofN i)); (7%positive, VInt (ofN rate))]))
    with (n := N.to_nat n).
  2:{ exists 0%N, s, k. split; [f_equal; lia|]. split; [lia|]. split; [exact Lk|]. split; [reflexivity|].
      split; [split; [eapply inb_sub; [exact ID|change (lenN (fst (pulls rate 0 t))) with 0%N; lia..]|intros i Hi; change (lenN (fst (pulls rate 0 t))) with 0%N in Hi; lia]|]. split; [exact C|]. split; [apply frame_refl|]. hasz. }
  intros w e m' (i & s' & k' & -> & Li & Lk' & PL & HO & C' & F & HE). unhas. eexists. split; [ev|]. simp. rewrite truth_b.
  destruct (Z.ltb_spec (ofN i) (ofN n)) as [G|G].
  2:{ eapply wp_return; [ev|]. assert (i = n) as -> by lia. split; [reflexivity|]. split; [exact F|]. split; [exact HO|]. exists s', k'. auto. }
  assert (X := C'). destruct X as (SP & KC & (LS & BS & HS) & _).
  eapply wp_if.
  { eapply pe_cond; [ev|]. simp. rewrite truth_b. 
    instantiate (1 := VInt (b2z ((k' =? rate)%N && (rate <=? n - i)%N))). destruct (N.eqb_spec k' rate) as [Z|Z].
    - rewrite Z. rewrite Z.eqb_refl. eapply pe_eq; [ev|]. simp. rewrite wrap_u64 by lia. cbn [andb].
      destruct (Z.leb_spec (ofN i + ofN rate) (ofN n)), (N.leb_spec rate (n - i)); try lia; reflexivity.
    - replace (ofN k' =? ofN rate) with false by lia. cbv iota. ev. }
  rewrite truth_b. destruct ((k' =? rate)%N && (rate <=? n - i)%N) eqn:B.
  - apply andb_prop in B. destruct B as [B1 B2]. apply N.eqb_eq in B1. apply N.leb_le in B2. subst k'.
    seq. eapply wp_set; [ev|]. simp. rewrite wrap_u64 by lia. seq.
    eapply (wp_while code _ _ _ (fun w e2 m2 => exists j s2, w = N.to_nat (n - j) /\ (j <= n)%N /\ (i < j \/ i = j)%N /\
      snd (pulls rate j t) = (s2, rate) /\ holds m2 db dof (fst (pulls rate j t)) /\ ctx m2 L s2 rate rate 1 /\ frame m m2 (outfoot L db dof (ofN n)) /\
      has e2 [(1%positive, VPtr (sp L) 0); (3%positive, VInt (ofN n)); (5%positive, VInt (ofN (n - j))); (8%positive, VPtr db (dof + ofN j)); (7%positive, VInt (ofN rate))]))
      with (n := N.to_nat (n - i)).
    2:{ exists i, s'. split; [f_equal; lia|]. split; [lia|]. split; [right; reflexivity|]. split; [exact PL|]. split; [exact HO|]. split; [exact C'|]. split; [exact F|]. hasz. }
    intros w2 e2 m2 (j & s2 & -> & Lj & Lij & PL2 & HO2 & C2 & F2 & HE2). unhas. eexists. split; [ev|]. simp. rewrite truth_b.
    destruct (Z.leb_spec (ofN rate) (ofN (n - j))) as [G2|G2].
    2:{ eapply wp_set; [ev|]. simp. rewrite wrap_u64 by lia. apply wp_skip. split; [reflexivity|]. exists (N.to_nat (n - j)). split; [lia|]. exists j, s2, rate.
        split; [reflexivity|]. split; [exact Lj|]. split; [lia|]. split; [exact PL2|]. split; [exact HO2|]. split; [exact C2|]. split; [exact F2|]. hasz. }
    assert (X2 := C2). destruct X2 as (_ & _ & (LS2 & BS2 & HS2) & _).
    seq. eapply wp_callf; [evs|apply (ref_Permute_ctx _ _ _ _ _ _ C2)|]. intros w3 m3 (F3 & C3). cbn [set].
    assert (HO3 : holds m3 db dof (fst (pulls rate j t))) by (eapply KH; [exact HO2|exact F3|intros b o; apply foot_st]).
    (* the index in memory is the rate, but the bytes are taken from the start *)
    assert (F03 : frame m m3 (outfoot L db dof (ofN n))) by (eapply frame_comp; [exact F2|exact F3|intros b o _ _; apply W1]).
    assert (CT : calls code f_KeccakP1600_ExtractBytes [VPtr (stb L) 0; VPtr db (dof + ofN j); VInt (ofN 0); VInt (ofN rate)] m3 (fun _ m4 =>
      frame m3 m4 (at_ db dof (ofN n)) /\ ctx m4 L (pm s2) rate rate 1 /\ holds m4 db dof (fst (pulls rate (j + rate) t)) /\ snd (pulls rate (j + rate) t) = (pm s2, rate))).
    { assert (X3 := C3). destruct X3 as (_ & _ & (LS3 & BS3 & HS3) & _). assert (NS : db <> stb L) by (intros ->; apply NI; unfold blocks; cbn [In]; tauto).
      eapply calls_weak; [apply (ref_ExtractBytes m3 (stb L) 0 (pm s2) db (dof + ofN j) 0 rate); [exact HS3|exact LS3|exact BS3|eapply inb_sub; [exact (NN _ F03)|lia..]|left; exact NS|lia]|].
      intros v m4 (F4 & K4). split; [eapply frame_weak; [exact F4|in_at]|]. split; [eapply ctx_kept; [exact C3|exact F4|intros b o [-> _]; exact NI]|].
      rewrite pulls_add. cbn [fst snd]. rewrite PL2. rewrite pulls_next by (assumption || lia). rewrite pulls_piece by (assumption || lia). cbn [fst snd]. split; [|reflexivity]. apply RefOwf.holds_app.
      - eapply holds_frame; [exact HO3|exact F4|]. rewrite pulls_len. in_at.
      - rewrite pulls_len. exact K4. }
    seq. eapply wp_callf; [evs|exact CT|]. intros w4 m4 (F4 & C4 & HO4 & PL4). cbn [set].
    eapply wp_set; [ev|]. eapply wp_set; [ev|]. simp. rewrite wrap_u64 by lia. split; [reflexivity|]. exists (N.to_nat (n - (j + rate))). split; [lia|]. exists (j + rate)%N, (pm s2).
    split; [reflexivity|]. split; [lia|]. split; [lia|]. split; [exact PL4|]. split; [exact HO4|]. split; [exact C4|]. split; [eapply frame_comp; [exact F03|exact F4|intros b o _ _; apply W3]|]. hasz.
  - assert (B' : k' <> rate \/ (n - i < rate)%N) by (destruct (N.eqb_spec k' rate), (N.leb_spec rate (n - i)); try discriminate; tauto). clear B.
    seq.
    eapply (wp_weak code _ _ _ (fun out e2 m2 => out = ONormal /\ frame m m2 (outfoot L db dof (ofN n)) /\ holds m2 db dof (fst (pulls rate i t)) /\
      has e2 [(1%positive, VPtr (sp L) 0); (3%positive, VInt (ofN n)); (4%positive, VInt (ofN i)); (8%positive, VPtr db (dof + ofN i)); (7%positive, VInt (ofN rate))] /\
      exists s2 k2, ctx m2 L s2 rate k2 1 /\ (k2 < rate)%N /\
        (snd (pulls rate i t) = (s2, k2) \/ (k2 = 0%N /\ exists s0, lenN s0 = 200%N /\ bytes_ok s0 /\ s2 = pm s0 /\ snd (pulls rate i t) = (s0, rate))))).
    { eapply wp_if; [ev|]. simp. rewrite truth_b. destruct (Z.eqb_spec (ofN k') (ofN rate)) as [W|W].
      - assert (k' = rate) as -> by lia. seq. eapply wp_callf; [evs|apply (ref_Permute_ctx _ _ _ _ _ _ C')|]. intros w3 m3 (F3 & C3). cbn [set].
        eapply (wp_store4 _ _ _ _ (ixb L) 0); [ev|ev|exact (proj1 (ctx_in _ _ _ _ _ _ C3))|]. intros m4 F4 K4. assert (C4 := ctx_index _ _ _ _ _ _ _ _ C3 F4 K4).
        split; [reflexivity|]. split; [eapply frame_comp; [eapply frame_comp; [exact F|exact F3|intros b o _ _; apply W1]|exact F4|intros b o _ _; apply W2]|].
        split; [eapply KH; [eapply KH; [exact HO|exact F3|intros b o; apply foot_st]|exact F4|intros b o; apply foot_ix]|]. split; [hass|].
        exists (pm s'), 0%N. split; [exact C4|]. split; [lia|]. right. split; [reflexivity|]. exists s'. auto.
      - apply wp_skip. split; [reflexivity|]. split; [exact F|]. split; [exact HO|]. split; [hass|]. exists s', k'. split; [exact C'|]. split; [lia|]. left. exact PL. }
    intros out e2 m2 (-> & F2 & HO2 & HE2 & s2 & k2 & C2 & Lk2 & T2). unhas.
    set (p := N.min (n - i) (rate - k2)). assert (EP : p = N.min (n - i) (rate - k2)) by reflexivity. clearbody p.
    seq. eapply wp_set; [ev|]. simp. rewrite wrap_u64, wrap_u32 by lia. seq.
    eapply (wp_weak code _ _ _ (fun out e3 m3 => out = ONormal /\ m3 = m2 /\ has e3 [(1%positive, VPtr (sp L) 0); (3%positive, VInt (ofN n)); (4%positive, VInt (ofN i)); (8%positive, VPtr db (dof + ofN i)); (7%positive, VInt (ofN rate)); (6%positive, VInt (ofN p))])).
    { eapply wp_if; [ev|]. simp. rewrite truth_b. rewrite wrap_u32 by lia. destruct (Z.ltb_spec (ofN rate) (ofN n - ofN i + ofN k2)) as [W|W].
      - eapply wp_set; [ev|]. simp. rewrite !wrap_u32 by lia. split; [reflexivity|]. split; [reflexivity|]. hasz.
      - apply wp_skip. split; [reflexivity|]. split; [reflexivity|]. hasz. }
    intros out e3 m3 (-> & -> & HE3). unhas. seq. eapply wp_set; [ev|]. simp. rewrite wrap_u64 by lia.
    assert (CT := ref_Extract m2 L s2 rate k2 1 db dof n p i t C2 R ltac:(lia) ltac:(lia) (NN _ F2) NI HO2 ltac:(destruct T2 as [T2 | (T2 & T3)]; [left; exact T2|right; split; [exact T2|split; [lia|exact T3]]])).
    seq. eapply wp_callf; [evs|exact CT|]. intros w4 m4 (F4 & C4 & HO4 & PL4). cbn [set].
    seq. eapply wp_set; [ev|]. seq. eapply wp_set; [ev|]. simp.
    eapply (wp_store4 _ _ _ _ (ixb L) (k2 + p)); [ev|eapply pe_eq; [eapply pe_bin; [eapply pe_num; [ev|exact (proj1 (proj2 (proj1 (proj2 (proj2 (proj2 C4))))))|lia]|ev]|]|exact (proj1 (ctx_in _ _ _ _ _ _ C4))|].
    { simp. rewrite wrap_u32 by lia. f_equal. lia. }
    intros m5 F5 K5. assert (C5 := ctx_index _ _ _ _ _ _ _ _ C4 F5 K5). apply wp_skip. split; [reflexivity|]. exists (N.to_nat (n - (i + p))). split; [lia|].
    exists (i + p)%N, s2, (k2 + p)%N. split; [reflexivity|]. split; [lia|]. split; [lia|]. split; [exact PL4|]. split; [eapply KH; [exact HO4|exact F5|intros b o; apply foot_ix]|].
    split; [exact C5|]. split; [eapply frame_comp; [eapply frame_comp; [exact F2|exact F4|intros b o _ _; apply W3]|exact F5|intros b o _ _; apply W2]|]. hasz.
Qed.
