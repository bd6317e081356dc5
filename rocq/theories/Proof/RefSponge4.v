(** The translated sponge functions over four states. *)
From Coq Require Import ZArith NArith List Bool FMapPositive Lia ZifyBool ZifyNat ZifyN.
From Verif Require Import Model.Base Proof.BaseProof.
From Verif Require Model.Hash Model.Sponge Spec.KeccakSpec Spec.VcSpec Proof.KeccakProof Proof.RefWin Proof.RefOwf Proof.RefPrg Proof.RefVoleHash Proof.SpongeProof Proof.ShakeProof Proof.SnpProof.
From Verif Require Import Model.CtLang Model.CtNames Model.CtKeccakP Model.CtKeccak Model.CtProgram Proof.RefLogic Proof.RefTac Proof.RefMem Proof.RefReg Proof.RefKeccak Proof.RefFast Proof.RefSnp Proof.RefSponge.
Import ListNotations.
Local Open Scope Z_scope.
Arguments wrap : simpl never.

(** ** Four states in one block *)
Definition st4 (m : mem) (b : positive) (s : Z -> bytes) : Prop := forall j, 0 <= j < 4 -> lenN (s j) = 200%N /\ bytes_ok (s j) /\ holds m b (200 * j) (s j).
Definition upto (i : Z) (f g : Z -> bytes) (j : Z) : bytes := if j <? i then f j else g j.
Lemma st4_ext m b s s' : st4 m b s -> (forall j, 0 <= j < 4 -> s j = s' j) -> st4 m b s'.
Proof. intros H E j Hj. rewrite <- E by exact Hj. exact (H j Hj). Qed.
Lemma st4_kept m m' S b s : st4 m b s -> frame m m' S -> (forall q, ~ S b q) -> st4 m' b s.
Proof. intros H F D j Hj. destruct (H j Hj) as (A & B & C). split; [exact A|]. split; [exact B|]. eapply off_set; eassumption. Qed.
Lemma st4_step m m' b f s i : 0 <= i < 4 -> st4 m b (upto i f s) -> frame m m' (at_ b (200 * i) 200) -> lenN (f i) = 200%N -> bytes_ok (f i) -> holds m' b (200 * i) (f i) -> st4 m' b (upto (i + 1) f s).
Proof.
  intros Hi H F L B K j Hj. unfold upto. destruct (Z.ltb_spec j (i + 1)) as [G|G].
  - destruct (Z.eq_dec j i) as [->|N]; [auto|]. destruct (H j Hj) as (X & Y & W). unfold upto in X, Y, W. replace (j <? i) with true in * by lia.
    split; [exact X|]. split; [exact Y|]. eapply holds_frame; [exact W|exact F|]. rewrite X. in_at.
  - destruct (H j Hj) as (X & Y & W). unfold upto in X, Y, W. replace (j <? i) with false in * by lia.
    split; [exact X|]. split; [exact Y|]. eapply holds_frame; [exact W|exact F|]. rewrite X. in_at.
Qed.
Lemma st4_0 m b f s : st4 m b s -> st4 m b (upto 0 f s).
Proof. intros H. eapply st4_ext; [exact H|]. intros j Hj. unfold upto. replace (j <? 0) with false by lia. reflexivity. Qed.
Lemma st4_4 m b f s : st4 m b (upto 4 f s) -> st4 m b f.
Proof. intros H. eapply st4_ext; [exact H|]. intros j Hj. unfold upto. replace (j <? 4) with true by lia. reflexivity. Qed.
Lemma upto_at i f s : upto i f s i = s i.
Proof. unfold upto. rewrite Z.ltb_irrefl. reflexivity. Qed.

Lemma code_PermuteAll : PositiveMap.find f_KeccakP1600times4_PermuteAll_24rounds code = Some c_KeccakP1600times4_PermuteAll_24rounds. Proof. vm_compute. reflexivity. Qed.
Lemma code_InitializeAll : PositiveMap.find f_KeccakP1600times4_InitializeAll code = Some c_KeccakP1600times4_InitializeAll. Proof. vm_compute. reflexivity. Qed.
Lemma code_AddByte4 : PositiveMap.find f_KeccakP1600times4_AddByte code = Some c_KeccakP1600times4_AddByte. Proof. vm_compute. reflexivity. Qed.
Lemma code_AddBytes4 : PositiveMap.find f_KeccakP1600times4_AddBytes code = Some c_KeccakP1600times4_AddBytes. Proof. vm_compute. reflexivity. Qed.
Lemma code_ExtractBytes4 : PositiveMap.find f_KeccakP1600times4_ExtractBytes code = Some c_KeccakP1600times4_ExtractBytes. Proof. vm_compute. reflexivity. Qed.
Lemma code_StaticInitialize4 : PositiveMap.find f_KeccakP1600times4_StaticInitialize code = Some c_KeccakP1600times4_StaticInitialize. Proof. vm_compute. reflexivity. Qed.

Lemma mul200 i : 0 <= i < 4 -> wrap u32 (i * 200) = 200 * i.
Proof. intros H. rewrite wrap_u32 by lia. lia. Qed.
Lemma pm_good s : lenN s = 200%N -> lenN (pm s) = 200%N /\ bytes_ok (pm s).
Proof. intros H. rewrite pm_permuted by exact H. split; [apply permuted_len|apply permuted_ok]. Qed.
Lemma ref_PermuteAll m b s : st4 m b s -> kconst m -> b <> 1%positive ->
  calls code f_KeccakP1600times4_PermuteAll_24rounds [VPtr b 0] m (fun _ m' => frame m m' (at_ b 0 800) /\ st4 m' b (fun j => pm (s j))).
Proof.
  intros H KC NB. start code_PermuteAll. seq. eapply wp_set; [ev|].
  eapply (wp_for _ 2 32 _ (fun i e m' => has e [(1%positive, VPtr b 0); (2%positive, VInt i)] /\ frame m m' (at_ b 0 800) /\ st4 m' b (upto i (fun j => pm (s j)) s)) _ 0 4); [lia|lia|lia|..].
  - intros i e m' Hi (HE & F & K). unhas. split; [eassumption|]. split; [eexists; split; [ev|]; simp; rewrite truth_b; lia|].
    destruct (K i ltac:(lia)) as (L & B & HS). rewrite upto_at in *.
    eapply wp_callf; [evs|..].
    { simp. rewrite mul200 by lia. replace (0 + 1 * (200 * i)) with (200 * i) by lia. apply (ref_Permute m' b (200 * i) (s i) HS L B). eapply kconst_kept; [exact KC|exact F|intros q [Y _]; congruence]. }
    intros v m2 (F2 & K2). cbn [set]. split; [eassumption|]. split; [hass|]. split; [eapply frame_comp; [exact F|exact F2|in_at]|].
    eapply st4_step; [lia|exact K|exact F2|apply pm_good, L|apply pm_good, L|]. rewrite pm_permuted by exact L. exact K2.
  - intros e m' (HE & F & K). unhas. split; [eexists; split; [ev|]; simp; rewrite truth_b; lia|]. split; [exact F|]. eapply st4_4; exact K.
  - split; [hass|]. split; [apply frame_refl|]. apply st4_0, H.
Qed.
Lemma ref_InitializeAll m b : inb m b 0 800 ->
  calls code f_KeccakP1600times4_InitializeAll [VPtr b 0] m (fun _ m' => frame m m' (at_ b 0 800) /\ st4 m' b (fun _ => zeros 200)).
Proof.
  intros I. start code_InitializeAll. seq. eapply wp_set; [ev|].
  eapply (wp_for _ 2 32 _ (fun i e m' => has e [(1%positive, VPtr b 0); (2%positive, VInt i)] /\ frame m m' (at_ b 0 800) /\ forall j, 0 <= j < i -> holds m' b (200 * j) (zeros 200)) _ 0 4); [lia|lia|lia|..].
  - intros i e m' Hi (HE & F & K). unhas. split; [eassumption|]. split; [eexists; split; [ev|]; simp; rewrite truth_b; lia|].
    eapply wp_callf; [evs|..].
    { simp. rewrite mul200 by lia. replace (0 + 1 * (200 * i)) with (200 * i) by lia. apply (ref_Initialize m' b (200 * i)). eapply inb_sub; [eapply inb_frame; [exact F|exact I]|lia..]. }
    intros v m2 (F2 & K2). cbn [set]. split; [eassumption|]. split; [hass|]. split; [eapply frame_comp; [exact F|exact F2|in_at]|].
    intros j Hj. destruct (Z.eq_dec j i) as [->|N]; [exact K2|]. eapply holds_frame; [exact (K j ltac:(lia))|exact F2|]. change (lenN (zeros 200)) with 200%N. in_at.
  - intros e m' (HE & F & K). unhas. split; [eexists; split; [ev|]; simp; rewrite truth_b; lia|]. split; [exact F|]. intros j Hj. split; [reflexivity|]. split; [apply bytes_ok_zeros|]. exact (K j Hj).
  - split; [hass|]. split; [apply frame_refl|]. intros j Hj. lia.
Qed.
Lemma ref_AddByte4 m b s i x k : 0 <= i < 4 -> lenN s = 200%N -> bytes_ok s -> holds m b (200 * i) s -> (k < 200)%N -> (x < 256)%N ->
  calls code f_KeccakP1600times4_AddByte [VPtr b 0; VInt i; VInt (ofN x); VInt (ofN k)] m (fun _ m' => frame m m' (at_ b (200 * i) 200) /\ holds m' b (200 * i) (xor_at s k [x])).
Proof.
  intros Hi L B H Lk Lx. start code_AddByte4. seq. eapply wp_set; [ev|]. simp. rewrite mul200 by lia. replace (0 + 1 * (200 * i) + 1 * ofN k) with (200 * i + ofN k) by lia.
  assert (BK := nthN_byte s k B). unfold byte_ok in BK.
  assert (W := lxor_isbyte (ofN (nthN s k 0%N)) (ofN x) ltac:(unfold isbyte; lia) ltac:(unfold isbyte; lia)). unfold isbyte in W.
  assert (IB : inb m b (200 * i + ofN k) 1) by (eapply inb_sub; [exact (holds_inb _ _ _ _ H)|lia..]).
  eapply (wp_store1 _ _ _ _ b (200 * i + ofN k) (ofN (N.lxor (nthN s k 0%N) x))); [ev|eapply pe_eq; [ev|]|exact IB|rewrite <- lxor_ofN; exact W|].
  { simp. f_equal. rewrite (holds_byte _ _ _ _ _ H) by lia. rewrite N2Z.id, wrap_u8 by exact W. apply lxor_ofN. }
  split; [apply frame_set1; [exact IB|split; [reflexivity|lia]]|]. rewrite <- SpongeProof.upd_xor_at by lia. apply (RefPrg.holds_upd m b (200 * i) s k); [exact H|lia|].
  rewrite lxor_ofN in W. lia.
Qed.
Lemma ref_AddBytes4 m b s i db dof d off : 0 <= i < 4 -> lenN s = 200%N -> bytes_ok s -> holds m b (200 * i) s -> holds m db dof d -> bytes_ok d -> db <> b -> (off + lenN d < 200)%N ->
  calls code f_KeccakP1600times4_AddBytes [VPtr b 0; VInt i; VPtr db dof; VInt (ofN off); VInt (ofN (lenN d))] m (fun _ m' => frame m m' (at_ b (200 * i) 200) /\ holds m' b (200 * i) (xor_at s off d)).
Proof.
  intros Hi L B H HD BD N LO. start code_AddBytes4. eapply wp_callf; [evs|..].
  { simp. rewrite mul200 by lia. replace (0 + 1 * (200 * i)) with (200 * i) by lia. apply (ref_AddBytes m b (200 * i) s db dof d off); try assumption. left. exact N. }
  intros v m' X. exact X.
Qed.
Lemma ref_ExtractBytes4 m b s i db dof off n : 0 <= i < 4 -> lenN s = 200%N -> bytes_ok s -> holds m b (200 * i) s -> inb m db dof (ofN n) -> db <> b -> (off + n < 200)%N ->
  calls code f_KeccakP1600times4_ExtractBytes [VPtr b 0; VInt i; VPtr db dof; VInt (ofN off); VInt (ofN n)] m (fun _ m' => frame m m' (at_ db dof (ofN n)) /\ holds m' db dof (takeN n (dropN off s))).
Proof.
  intros Hi L B H ID N LO. start code_ExtractBytes4. eapply wp_callf; [evs|..].
  { simp. rewrite mul200 by lia. replace (0 + 1 * (200 * i)) with (200 * i) by lia. apply (ref_ExtractBytes m b (200 * i) s db dof off n); try assumption. left. exact N. }
  intros v m' X. exact X.
Qed.

(** ** Contexts in memory *)
Definition space4 (m : mem) (L : loc) : Prop := NoDup (blocks L) /\
  (ptr m (cx L) 0 (sp L) /\ ptr m (cx L) 1 (flb L) /\ ptr m (cx L) 2 (dsb L)) /\
  (ptr m (sp L) 0 (stb L) /\ ptr m (sp L) 1 (rtb L) /\ ptr m (sp L) 2 (ixb L) /\ ptr m (sp L) 3 (sqb L)) /\
  (inb m (stb L) 0 800 /\ inb m (rtb L) 0 4 /\ inb m (ixb L) 0 4 /\ inb m (sqb L) 0 4 /\ inb m (flb L) 0 4 /\ inb m (dsb L) 0 1).
Definition ctx4 (m : mem) (L : loc) (s : Z -> bytes) (rate k q : N) : Prop := space4 m L /\ kconst m /\ st4 m (stb L) s /\
  (num m (rtb L) (8 * rate) /\ num m (ixb L) k /\ num m (sqb L) q) /\ (num m (flb L) 0 /\ holds m (dsb L) 0 [31%N]).
Lemma space4_kept m m' S L : space4 m L -> frame m m' S -> (forall q, ~ S (cx L) q) -> (forall q, ~ S (sp L) q) -> space4 m' L.
Proof.
  intros (ND & (A1 & A2 & A3) & (B1 & B2 & B3 & B4) & (C1 & C2 & C3 & C4 & C5 & C6)) F D1 D2.
  split; [exact ND|]. splits; try (eapply inb_frame; [exact F|]; assumption); try (eapply ptr_kept; [eassumption|exact F|assumption]).
Qed.
Lemma ctx4_kept m m' S L s rate k q : ctx4 m L s rate k q -> frame m m' S -> (forall b o, S b o -> ~ In b (blocks L)) -> ctx4 m' L s rate k q.
Proof.
  intros (SP & KC & HS & (HR & HI & HQ) & (HF & HD)) F D.
  assert (X : forall b, In b (blocks L) -> forall p, ~ S b p) by (intros b I p Y; exact (D _ _ Y I)).
  split; [eapply space4_kept; [exact SP|exact F|apply X; unfold blocks; cbn [In]; tauto..]|].
  split; [eapply kconst_kept; [exact KC|exact F|apply X; unfold blocks; cbn [In]; tauto]|].
  split; [eapply st4_kept; [exact HS|exact F|apply X; unfold blocks; cbn [In]; tauto]|].
  splits; try assumption; (eapply off_set; [eassumption|exact F|apply X; unfold blocks; cbn [In]; tauto]).
Qed.
Lemma ctx4_ext m L s s' rate k q : ctx4 m L s rate k q -> (forall j, 0 <= j < 4 -> s j = s' j) -> ctx4 m L s' rate k q.
Proof. intros (SP & KC & HS & X) E. split; [exact SP|]. split; [exact KC|]. split; [eapply st4_ext; eassumption|exact X]. Qed.
Lemma ctx4_state m m' L s rate k q s' o n : ctx4 m L s rate k q -> frame m m' (at_ (stb L) o n) -> st4 m' (stb L) s' -> ctx4 m' L s' rate k q.
Proof.
  intros (SP & KC & HS & (HR & HI & HQ) & (HF & HD)) F H'. assert (ND := proj1 SP).
  assert (N1 : 1%positive <> stb L) by (apply (ne L 0 3 ND); cbn; lia). assert (N2 : cx L <> stb L) by (apply (ne L 1 3 ND); cbn; lia). assert (N3 : sp L <> stb L) by (apply (ne L 2 3 ND); cbn; lia). 
  assert (N4 : rtb L <> stb L) by (apply not_eq_sym, (ne L 3 4 ND); cbn; lia). assert (N5 : ixb L <> stb L) by (apply not_eq_sym, (ne L 3 5 ND); cbn; lia). assert (N6 : sqb L <> stb L) by (apply not_eq_sym, (ne L 3 6 ND); cbn; lia).
  assert (N7 : flb L <> stb L) by (apply not_eq_sym, (ne L 3 7 ND); cbn; lia). assert (N8 : dsb L <> stb L) by (apply not_eq_sym, (ne L 3 8 ND); cbn; lia).
  split; [eapply space4_kept; [exact SP|exact F|intros p [E _]; tauto..]|]. split; [eapply kconst_kept; [exact KC|exact F|intros p [E _]; tauto]|].
  split; [exact H'|]. split; [split; [|split]|split]; eapply off_block; eauto.
Qed.
Lemma ctx4_index m m' L s rate k q k' : ctx4 m L s rate k q -> frame m m' (at_ (ixb L) 0 4) -> num m' (ixb L) k' -> ctx4 m' L s rate k' q.
Proof.
  intros (SP & KC & HS & (HR & HI & HQ) & (HF & HD)) F H'. assert (ND := proj1 SP).
  assert (N1 : 1%positive <> ixb L) by (apply (ne L 0 5 ND); cbn; lia). assert (N2 : cx L <> ixb L) by (apply (ne L 1 5 ND); cbn; lia). assert (N3 : sp L <> ixb L) by (apply (ne L 2 5 ND); cbn; lia). 
  assert (N4 : rtb L <> ixb L) by (apply (ne L 4 5 ND); cbn; lia). assert (N5 : stb L <> ixb L) by (apply (ne L 3 5 ND); cbn; lia). assert (N6 : sqb L <> ixb L) by (apply not_eq_sym, (ne L 5 6 ND); cbn; lia).
  assert (N7 : flb L <> ixb L) by (apply not_eq_sym, (ne L 5 7 ND); cbn; lia). assert (N8 : dsb L <> ixb L) by (apply not_eq_sym, (ne L 5 8 ND); cbn; lia).
  split; [eapply space4_kept; [exact SP|exact F|intros p [E _]; tauto..]|]. split; [eapply kconst_kept; [exact KC|exact F|intros p [E _]; tauto]|].
  split; [eapply st4_kept; [exact HS|exact F|intros p [E _]; tauto]|]. split; [split; [|split]|split]; try exact H'; eapply off_block; eauto.
Qed.
Lemma ctx4_phase m m' L s rate k q q' : ctx4 m L s rate k q -> frame m m' (at_ (sqb L) 0 4) -> num m' (sqb L) q' -> ctx4 m' L s rate k q'.
Proof.
  intros (SP & KC & HS & (HR & HI & HQ) & (HF & HD)) F H'. assert (ND := proj1 SP).
  assert (N1 : 1%positive <> sqb L) by (apply (ne L 0 6 ND); cbn; lia). assert (N2 : cx L <> sqb L) by (apply (ne L 1 6 ND); cbn; lia). assert (N3 : sp L <> sqb L) by (apply (ne L 2 6 ND); cbn; lia). 
  assert (N4 : rtb L <> sqb L) by (apply (ne L 4 6 ND); cbn; lia). assert (N5 : stb L <> sqb L) by (apply (ne L 3 6 ND); cbn; lia). assert (N6 : ixb L <> sqb L) by (apply (ne L 5 6 ND); cbn; lia).
  assert (N7 : flb L <> sqb L) by (apply not_eq_sym, (ne L 6 7 ND); cbn; lia). assert (N8 : dsb L <> sqb L) by (apply not_eq_sym, (ne L 6 8 ND); cbn; lia).
  split; [eapply space4_kept; [exact SP|exact F|intros p [E _]; tauto..]|]. split; [eapply kconst_kept; [exact KC|exact F|intros p [E _]; tauto]|].
  split; [eapply st4_kept; [exact HS|exact F|intros p [E _]; tauto]|]. split; [split; [|split]|split]; try exact H'; eapply off_block; eauto.
Qed.
Lemma ctx4_in m L s rate k q : ctx4 m L s rate k q -> inb m (ixb L) 0 4 /\ inb m (sqb L) 0 4.
Proof. intros ((_ & _ & _ & (_ & _ & A & B & _)) & _). split; assumption. Qed.
Lemma ctx4_old m L s rate k q b : ctx4 m L s rate k q -> In b (blocks L) -> (b < mnext m)%positive.
Proof.
  intros ((ND & ((A1 & _) & _) & ((B1 & _) & _) & (C1 & C2 & C3 & C4 & C5 & C6)) & KC & _) I. unfold blocks in I. cbn [In] in I.
  destruct I as [<-|[<-|[<-|[<-|[<-|[<-|[<-|[<-|[<-|[]]]]]]]]]]; first [exact (proj1 (holds_inb _ _ _ _ KC))|match goal with H : inb _ _ _ _ |- _ => exact (proj1 H) end].
Qed.
Section Fields4.
Context (m : mem) (L : loc) (s : Z -> bytes) (rate k q : N) (H : ctx4 m L s rate k q) (e : env) (x : positive) (E : lookup e x = VPtr (sp L) 0).
Lemma g_state : pe e m (EField (EVar x) 4 0) (VPtr (stb L) 0).
Proof using H E. destruct H as ((_ & _ & P & _) & _). eapply pe_ptr; [exact E|apply P]. Qed.
Lemma g_ratep : pe e m (EField (EVar x) 4 1) (VPtr (rtb L) 0).
Proof using H E. destruct H as ((_ & _ & P & _) & _). eapply pe_ptr; [exact E|apply P]. Qed.
Lemma g_indexp : pe e m (EField (EVar x) 4 2) (VPtr (ixb L) 0).
Proof using H E. destruct H as ((_ & _ & P & _) & _). eapply pe_ptr; [exact E|apply P]. Qed.
Lemma g_phasep : pe e m (EField (EVar x) 4 3) (VPtr (sqb L) 0).
Proof using H E. destruct H as ((_ & _ & P & _) & _). eapply pe_ptr; [exact E|apply P]. Qed.
Lemma g_rate : (rate < 200)%N -> pe e m (ELoad 4 (EField (EVar x) 4 1)) (VInt (ofN (8 * rate))).
Proof using H E. intros R. eapply pe_num; [apply g_ratep|destruct H as (_ & _ & _ & (P & _) & _); exact P|lia]. Qed.
Lemma g_index : (k < 2^32)%N -> pe e m (ELoad 4 (EField (EVar x) 4 2)) (VInt (ofN k)).
Proof using H E. intros R. eapply pe_num; [apply g_indexp|destruct H as (_ & _ & _ & (_ & P & _) & _); exact P|exact R]. Qed.
Lemma g_phase : (q < 2^32)%N -> pe e m (ELoad 4 (EField (EVar x) 4 3)) (VInt (ofN q)).
Proof using H E. intros R. eapply pe_num; [apply g_phasep|destruct H as (_ & _ & _ & (_ & _ & P) & _); exact P|exact R]. Qed.
End Fields4.
Ltac ev ::=
  lazymatch goal with
  | |- pe _ _ (EInt _) _ => apply pe_int
  | |- pe _ _ (EVar _) _ => apply pe_var; look
  | |- pe _ _ (EGlob _) _ => apply pe_glob
  | |- pe _ _ ENull _ => apply pe_null
  | |- pe _ _ (EUn _ _ _) _ => eapply pe_un; ev
  | |- pe _ _ (EBin _ _ _ _) _ => eapply pe_bin; [ev|ev]
  | |- pe _ _ (EDiv _ _ _ _) _ => eapply pe_div; [ev|ev|try lia]
  | |- pe _ _ (EAt _ _ _) _ => eapply pe_at; [ev|ev]
  | |- pe _ _ (EIsNull _) _ => eapply pe_isnull; ev
  | |- pe _ ?m (EField (EVar _) 4 0) _ => match goal with H : ctx4 m _ _ _ _ _ |- _ => eapply (g_state _ _ _ _ _ _ H); lk end
  | |- pe _ ?m (EField (EVar _) 4 1) _ => match goal with H : ctx4 m _ _ _ _ _ |- _ => eapply (g_ratep _ _ _ _ _ _ H); lk end
  | |- pe _ ?m (EField (EVar _) 4 2) _ => match goal with H : ctx4 m _ _ _ _ _ |- _ => eapply (g_indexp _ _ _ _ _ _ H); lk end
  | |- pe _ ?m (EField (EVar _) 4 3) _ => match goal with H : ctx4 m _ _ _ _ _ |- _ => eapply (g_phasep _ _ _ _ _ _ H); lk end
  | |- pe _ ?m (ELoad 4 (EField (EVar _) 4 1)) _ => match goal with H : ctx4 m _ _ _ _ _ |- _ => eapply (g_rate _ _ _ _ _ _ H); [lk|lia] end
  | |- pe _ ?m (ELoad 4 (EField (EVar _) 4 2)) _ => match goal with H : ctx4 m _ _ _ _ _ |- _ => eapply (g_index _ _ _ _ _ _ H); [lk|lia] end
  | |- pe _ ?m (ELoad 4 (EField (EVar _) 4 3)) _ => match goal with H : ctx4 m _ _ _ _ _ |- _ => eapply (g_phase _ _ _ _ _ _ H); [lk|lia] end
  | |- pe _ _ (ELoad 1 _) _ => eapply pe_load1; [ev|try inb_in]
  | |- pe _ _ (ELoad _ _) _ => eapply pe_load; [ev|try inb_in]
  | |- pe _ _ (ELoadP _) _ => eapply pe_loadp; [ev|try inb_in]
  | |- pe _ _ (EField _ _ _) _ => eapply pe_field; [ev|try inb_in]
  | |- _ => idtac
  end.
Lemma ctx4_stb m L s rate k q : ctx4 m L s rate k q -> stb L <> 1%positive.
Proof. intros (SP & _). apply not_eq_sym, (ne L 0 3 (proj1 SP)). cbn; lia. Qed.
Lemma ref_PermuteAll_ctx m L s rate k q : ctx4 m L s rate k q ->
  calls code f_KeccakP1600times4_PermuteAll_24rounds [VPtr (stb L) 0] m (fun _ m' => frame m m' (at_ (stb L) 0 800) /\ ctx4 m' L (fun j => pm (s j)) rate k q).
Proof.
  intros C. assert (X := C). destruct X as (_ & KC & HS & _). eapply calls_weak; [apply (ref_PermuteAll m (stb L) s HS KC), (ctx4_stb _ _ _ _ _ _ C)|].
  intros v m' (F & H). split; [exact F|]. eapply ctx4_state; [exact C|exact F|exact H].
Qed.

(** ** Loops over the four states *)
Definition cells (m : mem) (b : positive) (o : Z) (p : Z -> value) : Prop := forall j, 0 <= j < 4 -> inb m b (o + j) 1 /\ cell m b (o + j) = p j.
Definition agree (X : list positive) (e e' : env) : Prop := forall z, ~ In z X -> lookup e' z = lookup e z.
Lemma lookup_eq e x v : lookup (PositiveMap.add x v e) x = v.
Proof. rewrite lookup_add, Pos.eqb_refl. reflexivity. Qed.
Lemma lookup_ne e x v z : z <> x -> lookup (PositiveMap.add x v e) z = lookup e z.
Proof. intros H. rewrite lookup_add. destruct (Pos.eqb_spec z x); [contradiction|reflexivity]. Qed.
Lemma agree_add X e e' x v : agree X e e' -> In x X -> agree X e (PositiveMap.add x v e').
Proof. intros A I z N. rewrite lookup_ne by (intros ->; exact (N I)). apply A, N. Qed.
Lemma agree_refl X e : agree X e e.
Proof. intros z _. reflexivity. Qed.
Lemma cells_kept m m' S b o p : cells m b o p -> frame m m' S -> (forall q, ~ S b q) -> cells m' b o p.
Proof.
  intros H F D j Hj. destruct (H j Hj) as [I C]. split; [eapply inb_frame; eassumption|]. rewrite <- C. destruct F as (_ & _ & F). apply F; [exact (proj1 I)|destruct I as (_ & I & _); exact I|apply D].
Qed.
Definition each (x : positive) (body : stmt) : stmt := SLoop (EBin OLt s32 (EVar x) (EInt 4)) (SSet x (EBin OAdd u32 (EVar x) (EInt 1))) body.
Lemma wp_each x X body (J : Z -> mem -> Prop) e m (Q : outcome -> env -> mem -> Prop) : In x X -> lookup e x = VInt 0 ->
  (forall i e' m', 0 <= i < 4 -> agree X e e' -> lookup e' x = VInt i -> J i m' -> wp code body e' m' (fun o e2 m2 => o = ONormal /\ agree X e e2 /\ lookup e2 x = VInt i /\ J (i + 1) m2)) ->
  (forall e' m', agree X e e' -> J 4 m' -> Q ONormal e' m') -> J 0 m -> wp code (each x body) e m Q.
Proof.
  intros I Ex HB HQ H0. unfold each.
  eapply (wp_for _ x 32 _ (fun i e' m' => agree X e e' /\ lookup e' x = VInt i /\ J i m') _ 0 4); [lia|lia|lia|..].
  - intros i e' m' Hi (A & E & H). split; [exact E|]. split; [eexists; split; [eapply pe_bin; [apply pe_var; exact E|ev]|]; simp; rewrite truth_b; lia|].
    eapply wp_weak; [exact (HB i e' m' Hi A E H)|]. intros o e2 m2 (-> & A2 & E2 & H2). split; [exact E2|]. split; [apply agree_add; assumption|]. split; [apply lookup_eq|exact H2].
  - intros e' m' (A & E & H). split; [eexists; split; [eapply pe_bin; [apply pe_var; exact E|ev]|]; simp; rewrite truth_b; lia|]. apply HQ; assumption.
  - split; [apply agree_refl|]. split; [exact Ex|exact H0].
Qed.
Lemma wp_ptrs m e x y w pb po cd p (Q : outcome -> env -> mem -> Prop) : cells m pb po p -> inb m cd 0 4 -> pb <> cd -> y <> x -> w <> x -> lookup e x = VInt 0 -> lookup e w = VPtr pb po -> lookup e y = VPtr cd 0 ->
  (forall e' m', agree [x] e e' -> frame m m' (at_ cd 0 4) -> cells m' cd 0 p -> Q ONormal e' m') ->
  wp code (each x (SStoreP (EAt (EVar y) 1 (EVar x)) (ELoadP (EAt (EVar w) 1 (EVar x))))) e m Q.
Proof.
  intros H I N Ny Nw Ex Ew Ey K. assert (NI : forall z, z <> x -> ~ In z [x]) by (intros z A [B|[]]; congruence).
  eapply (wp_each x [x] _ (fun i m' => frame m m' (at_ cd 0 4) /\ forall j, 0 <= j < i -> cell m' cd j = p j)); [left; reflexivity|exact Ex|..].
  - intros i e' m' Hi A E (F & C).
    assert (H' : cells m' pb po p) by (eapply cells_kept; [exact H|exact F|intros q [Y _]; exact (N Y)]). destruct (H' i Hi) as [I1 C1].
    assert (I' : inb m' cd i 1) by (eapply inb_sub; [eapply inb_frame; [exact F|exact I]|lia..]).
    eapply wp_storep.
    + eapply pe_eq; [eapply pe_at; [apply pe_var; rewrite A by (apply NI; assumption); exact Ey|apply pe_var; exact E]|]. instantiate (1 := i). instantiate (1 := cd). f_equal. lia.
    + eapply pe_eq; [eapply pe_loadp; [eapply pe_eq; [eapply pe_at; [apply pe_var; rewrite A by (apply NI; assumption); exact Ew|apply pe_var; exact E]|reflexivity]|]|].
      * eapply inb_sub; [exact I1|lia..].
      * replace (po + 1 * i) with (po + i) by lia. exact C1.
    + exact I'.
    + split; [reflexivity|]. split; [exact A|]. split; [exact E|]. split; [eapply frame_comp; [exact F|apply frame_setv; exact I'|in_at]|].
      intros j Hj. rewrite cell_setv by (exact I' || lia). rewrite Pos.eqb_refl. cbn [andb]. destruct (Z.eqb_spec j i) as [->|Y]; [reflexivity|]. apply C. lia.
  - intros e' m' A (F & C). apply K; [exact A|exact F|]. intros j Hj. split; [eapply inb_sub; [eapply inb_frame; [exact F|exact I]|lia..]|]. rewrite Z.add_0_l. apply C. exact Hj.
  - split; [apply frame_refl|]. intros j Hj. lia.
Qed.
(** the data pointers, [n] bytes further from the [i]th on *)
Definition moved (db : Z -> positive) (dof : Z -> Z) (n i : Z) (j : Z) : value := VPtr (db j) (dof j + if j <? i then n else 0).
Lemma moved_step m cd db dof n i : 0 <= i < 4 -> cells m cd 0 (moved db dof n i) -> cells (setv m cd i (VPtr (db i) (dof i + n))) cd 0 (moved db dof n (i + 1)).
Proof.
  intros Hi H. assert (I := proj1 (H i Hi)). rewrite Z.add_0_l in I. intros j Hj. destruct (H j Hj) as [J C]. split; [unfold setv; rewrite setc_inb; exact J|].
  rewrite cell_setv by (exact I || lia). rewrite Pos.eqb_refl. cbn [andb]. rewrite Z.add_0_l in *. unfold moved in *. destruct (Z.eqb_spec j i) as [->|Y].
  - replace (i <? i + 1) with true by lia. reflexivity.
  - rewrite C. replace (j <? i + 1) with (j <? i) by lia. reflexivity.
Qed.
Definition adds (f x y c : positive) (xo xl : expr) : stmt := each x (
  SCall None f [(EField (EVar 1) 4 0); (EVar x); (ELoadP (EAt (EVar c) 1 (EVar x))); xo; xl] ;; SSet y (EAt (EVar c) 1 (EVar x)) ;; SStoreP (EVar y) (EAt (ELoadP (EVar y)) 1 xl)).
Definition feetc (L : loc) (cd b : positive) (o : Z) : Prop := at_ (stb L) 0 800 b o \/ at_ cd 0 4 b o.
Lemma xor_at_good s off d : lenN s = 200%N -> bytes_ok s -> bytes_ok d -> (off + lenN d <= 200)%N -> lenN (xor_at s off d) = 200%N /\ bytes_ok (xor_at s off d).
Proof. intros L B D O. split; [rewrite SpongeProof.xor_at_len; lia|apply SpongeProof.xor_at_bytes; assumption]. Qed.
Lemma wp_add4 x y c xo xl m L s rate k q cd db dof d off n e (Q : outcome -> env -> mem -> Prop) : ctx4 m L s rate k q -> ~ In cd (blocks L) -> cells m cd 0 (fun j => VPtr (db j) (dof j)) ->
  (forall j, 0 <= j < 4 -> holds m (db j) (dof j) (d j) /\ bytes_ok (d j) /\ lenN (d j) = n /\ ~ In (db j) (cd :: blocks L)) -> (off + n < 200)%N -> x <> y -> ~ In 1%positive [x; y] -> ~ In c [x; y] ->
  lookup e x = VInt 0 -> lookup e 1 = VPtr (sp L) 0 -> lookup e c = VPtr cd 0 ->
  (forall e' m' s', agree [x; y] e e' -> ctx4 m' L s' rate k q -> pe e' m' xo (VInt (ofN off))) -> (forall e' m', agree [x; y] e e' -> pe e' m' xl (VInt (ofN n))) ->
  (forall e' m', agree [x; y] e e' -> frame m m' (feetc L cd) -> ctx4 m' L (fun j => xor_at (s j) off (d j)) rate k q -> cells m' cd 0 (fun j => VPtr (db j) (dof j + ofN n)) -> Q ONormal e' m') ->
  wp code (adds f_KeccakP1600times4_AddBytes x y c xo xl) e m Q.
Proof.
  intros C NC HC HD LO Nxy N1 Nc Ex E1 Ec Po Pl K. unfold adds. set (f := fun j => xor_at (s j) off (d j)).
  assert (NS : stb L <> cd) by (intros <-; apply NC; unfold blocks; cbn [In]; tauto).
  eapply (wp_each x [x; y] _ (fun i m' => frame m m' (feetc L cd) /\ ctx4 m' L (upto i f s) rate k q /\ cells m' cd 0 (moved db dof (ofN n) i))); [left; reflexivity|exact Ex|..].
  - intros i e' m' Hi A E (F & C' & M). assert (X := C'). destruct X as (_ & _ & S4 & _). destruct (S4 i Hi) as (LS & BS & HS). rewrite upto_at in *.
    destruct (HD i Hi) as (HD0 & BD & LD & ND). assert (ND1 : db i <> stb L) by (intros Y; apply ND; rewrite Y; unfold blocks; cbn [In]; tauto). assert (ND2 : db i <> cd) by (intros Y; apply ND; left; auto).
    assert (HD' : holds m' (db i) (dof i) (d i)) by (eapply off_set; [exact HD0|exact F|intros p [[Y _]|[Y _]]; tauto]).
    destruct (M i Hi) as (MI & MC). rewrite Z.add_0_l in MI, MC. unfold moved in MC. rewrite Z.ltb_irrefl, Z.add_0_r in MC.
    assert (E1' : lookup e' 1 = VPtr (sp L) 0) by (rewrite A by exact N1; exact E1). assert (Ec' : lookup e' c = VPtr cd 0) by (rewrite A by exact Nc; exact Ec).
    destruct (xor_at_good (s i) off (d i) LS BS BD ltac:(lia)) as (GL & GB).
    seq. eapply wp_callf with (vs := [VPtr (stb L) 0; VInt i; VPtr (db i) (dof i); VInt (ofN off); VInt (ofN (lenN (d i)))]).
    { eapply pes_cons; [eapply (g_state _ _ _ _ _ _ C'); exact E1'|]. eapply pes_cons; [apply pe_var; exact E|]. eapply pes_cons.
      { eapply pe_eq; [eapply pe_loadp; [eapply pe_eq; [eapply pe_at; [apply pe_var; exact Ec'|apply pe_var; exact E]|]|exact MI]|exact MC]. f_equal. lia. }
      eapply pes_cons; [eapply Po; eassumption|]. eapply pes_cons; [rewrite LD; apply Pl; exact A|apply pes_nil]. }
    { apply (ref_AddBytes4 m' (stb L) (s i) i (db i) (dof i) (d i) off); try assumption; lia. }
    intros v m2 (F2 & H2). cbn [set].
    assert (C2 : ctx4 m2 L (upto (i + 1) f s) rate k q) by (eapply ctx4_state; [exact C'|exact F2|eapply st4_step; [exact Hi|exact S4|exact F2|exact GL|exact GB|exact H2]]).
    assert (M2 : cells m2 cd 0 (moved db dof (ofN n) i)) by (eapply cells_kept; [exact M|exact F2|intros p [Y _]; congruence]).
    destruct (M2 i Hi) as (MI2 & MC2). rewrite Z.add_0_l in MI2, MC2. unfold moved in MC2. rewrite Z.ltb_irrefl, Z.add_0_r in MC2.
    seq. eapply wp_set; [eapply pe_at; [apply pe_var; exact Ec'|apply pe_var; exact E]|]. replace (0 + 1 * i) with i by lia.
    assert (A2 : agree [x; y] e (PositiveMap.add y (VPtr cd i) e')) by (apply agree_add; [exact A|right; left; reflexivity]).
    eapply wp_storep; [apply pe_var, lookup_eq|eapply pe_at; [eapply pe_eq; [eapply pe_loadp; [apply pe_var, lookup_eq|exact MI2]|exact MC2]|apply Pl; exact A2]|exact MI2|].
    split; [reflexivity|]. split; [exact A2|]. split; [rewrite lookup_ne by exact Nxy; exact E|]. replace (dof i + 1 * ofN n) with (dof i + ofN n) by lia.
    split; [eapply frame_comp; [eapply frame_comp; [exact F|exact F2|]|apply frame_setv; exact MI2|]; unfold feetc; [intros b o _ _ [-> Y]; left; split; [reflexivity|lia]|intros b o _ _ [-> Y]; right; split; [reflexivity|lia]]|].
    split; [eapply ctx4_kept; [exact C2|apply frame_setv; exact MI2|intros b o [-> _]; exact NC]|]. apply moved_step; assumption.
  - intros e' m' A (F & C' & M). apply K; [exact A|exact F| |].
    + eapply ctx4_ext; [exact C'|]. intros j Hj. unfold upto. replace (j <? 4) with true by lia. reflexivity.
    + intros j Hj. destruct (M j Hj) as [I Y]. split; [exact I|]. rewrite Y. unfold moved. replace (j <? 4) with true by lia. reflexivity.
  - split; [apply frame_refl|]. split.
    + eapply ctx4_ext; [exact C|]. intros j Hj. unfold upto. replace (j <? 0) with false by lia. reflexivity.
    + intros j Hj. destruct (HC j Hj) as [I Y]. split; [exact I|]. rewrite Y. unfold moved. replace (j <? 0) with false by lia. rewrite Z.add_0_r. reflexivity.
Qed.
Definition outs (db : Z -> positive) (dof : Z -> Z) (n : Z) (b : positive) (o : Z) : Prop := exists j, 0 <= j < 4 /\ at_ (db j) (dof j) n b o.
Definition outsc (db : Z -> positive) (dof : Z -> Z) (n : Z) (cd b : positive) (o : Z) : Prop := outs db dof n b o \/ at_ cd 0 4 b o.
Lemma wp_ext4 x y c xo xl m L s rate k q cd db dof off n e (Q : outcome -> env -> mem -> Prop) : ctx4 m L s rate k q -> ~ In cd (blocks L) -> cells m cd 0 (fun j => VPtr (db j) (dof j)) ->
  (forall j, 0 <= j < 4 -> inb m (db j) (dof j) (ofN n) /\ ~ In (db j) (cd :: blocks L)) -> (forall i j, 0 <= i < j /\ j < 4 -> sep (db i) (dof i) (ofN n) (db j) (dof j) (ofN n)) ->
  (off + n < 200)%N -> x <> y -> ~ In 1%positive [x; y] -> ~ In c [x; y] -> lookup e x = VInt 0 -> lookup e 1 = VPtr (sp L) 0 -> lookup e c = VPtr cd 0 ->
  (forall e' m' s', agree [x; y] e e' -> ctx4 m' L s' rate k q -> pe e' m' xo (VInt (ofN off))) -> (forall e' m', agree [x; y] e e' -> pe e' m' xl (VInt (ofN n))) ->
  (forall e' m', agree [x; y] e e' -> frame m m' (outsc db dof (ofN n) cd) -> ctx4 m' L s rate k q -> cells m' cd 0 (fun j => VPtr (db j) (dof j + ofN n)) ->
     (forall j, 0 <= j < 4 -> holds m' (db j) (dof j) (takeN n (dropN off (s j)))) -> Q ONormal e' m') ->
  wp code (adds f_KeccakP1600times4_ExtractBytes x y c xo xl) e m Q.
Proof.
  intros C NC HC HD DJ LO Nxy N1 Nc Ex E1 Ec Po Pl K. unfold adds.
  assert (NS : stb L <> cd) by (intros <-; apply NC; unfold blocks; cbn [In]; tauto).
  eapply (wp_each x [x; y] _ (fun i m' => frame m m' (outsc db dof (ofN n) cd) /\ ctx4 m' L s rate k q /\ cells m' cd 0 (moved db dof (ofN n) i) /\
    forall j, 0 <= j < i -> holds m' (db j) (dof j) (takeN n (dropN off (s j))))); [left; reflexivity|exact Ex|..].
  - intros i e' m' Hi A E (F & C' & M & HO). assert (X := C'). destruct X as (_ & _ & S4 & _). destruct (S4 i Hi) as (LS & BS & HS).
    destruct (HD i Hi) as (HD0 & ND). assert (ND1 : db i <> stb L) by (intros Y; apply ND; rewrite Y; unfold blocks; cbn [In]; tauto). assert (ND2 : db i <> cd) by (intros Y; apply ND; left; auto).
    assert (LT : forall j, 0 <= j < 4 -> lenN (takeN n (dropN off (s j))) = n) by (intros j Hj; destruct (S4 j Hj) as (Y & _); rewrite lenN_takeN, lenN_dropN; lia).
    assert (HD' : inb m' (db i) (dof i) (ofN n)) by (eapply inb_frame; [exact F|exact HD0]).
    destruct (M i Hi) as (MI & MC). rewrite Z.add_0_l in MI, MC. unfold moved in MC. rewrite Z.ltb_irrefl, Z.add_0_r in MC.
    assert (E1' : lookup e' 1 = VPtr (sp L) 0) by (rewrite A by exact N1; exact E1). assert (Ec' : lookup e' c = VPtr cd 0) by (rewrite A by exact Nc; exact Ec).
    seq. eapply wp_callf with (vs := [VPtr (stb L) 0; VInt i; VPtr (db i) (dof i); VInt (ofN off); VInt (ofN n)]).
    { eapply pes_cons; [eapply (g_state _ _ _ _ _ _ C'); exact E1'|]. eapply pes_cons; [apply pe_var; exact E|]. eapply pes_cons.
      { eapply pe_eq; [eapply pe_loadp; [eapply pe_eq; [eapply pe_at; [apply pe_var; exact Ec'|apply pe_var; exact E]|]|exact MI]|exact MC]. f_equal. lia. }
      eapply pes_cons; [eapply Po; eassumption|]. eapply pes_cons; [apply Pl; exact A|apply pes_nil]. }
    { apply (ref_ExtractBytes4 m' (stb L) (s i) i (db i) (dof i) off n); try assumption; lia. }
    intros v m2 (F2 & H2). cbn [set].
    assert (C2 : ctx4 m2 L s rate k q) by (eapply ctx4_kept; [exact C'|exact F2|intros b o [-> _] Y; apply ND; right; exact Y]).
    assert (M2 : cells m2 cd 0 (moved db dof (ofN n) i)) by (eapply cells_kept; [exact M|exact F2|intros p [Y _]; congruence]).
    destruct (M2 i Hi) as (MI2 & MC2). rewrite Z.add_0_l in MI2, MC2. unfold moved in MC2. rewrite Z.ltb_irrefl, Z.add_0_r in MC2.
    seq. eapply wp_set; [eapply pe_at; [apply pe_var; exact Ec'|apply pe_var; exact E]|]. replace (0 + 1 * i) with i by lia.
    assert (A2 : agree [x; y] e (PositiveMap.add y (VPtr cd i) e')) by (apply agree_add; [exact A|right; left; reflexivity]).
    eapply wp_storep; [apply pe_var, lookup_eq|eapply pe_at; [eapply pe_eq; [eapply pe_loadp; [apply pe_var, lookup_eq|exact MI2]|exact MC2]|apply Pl; exact A2]|exact MI2|].
    split; [reflexivity|]. split; [exact A2|]. split; [rewrite lookup_ne by exact Nxy; exact E|]. replace (dof i + 1 * ofN n) with (dof i + ofN n) by lia.
    split; [eapply frame_comp; [eapply frame_comp; [exact F|exact F2|]|apply frame_setv; exact MI2|]; unfold outsc; [intros b o _ _ Y; left; exists i; auto|intros b o _ _ [-> Y]; right; split; [reflexivity|lia]]|].
    split; [eapply ctx4_kept; [exact C2|apply frame_setv; exact MI2|intros b o [-> _]; exact NC]|]. split; [apply moved_step; assumption|].
    intros j Hj. eapply off_block; [|apply frame_setv; exact MI2|intros Y; apply (proj2 (HD j ltac:(lia))); left; auto].
    destruct (Z.eq_dec j i) as [->|Y]; [exact H2|]. eapply holds_frame; [exact (HO j ltac:(lia))|exact F2|]. rewrite LT by lia. assert (W := DJ j i ltac:(lia)). in_at.
  - intros e' m' A (F & C' & M & HO). apply K; [exact A|exact F|exact C'| |exact HO].
    intros j Hj. destruct (M j Hj) as [I Y]. split; [exact I|]. rewrite Y. unfold moved. replace (j <? 4) with true by lia. reflexivity.
  - split; [apply frame_refl|]. split; [exact C|]. split; [|intros j Hj; lia].
    intros j Hj. destruct (HC j Hj) as [I Y]. split; [exact I|]. rewrite Y. unfold moved. replace (j <? 0) with false by lia. rewrite Z.add_0_r. reflexivity.
Qed.

Ltac notin := cbn [In]; intuition discriminate.
Ltac hask A := cbn [has]; splits; [(rewrite A by notin; lookz)..|exact Logic.I].

(** ** Initialization *)
Lemma code_SpongeInitialize4 : PositiveMap.find f_KeccakWidth1600times4_SpongeInitialize code = Some c_KeccakWidth1600times4_SpongeInitialize. Proof. vm_compute. reflexivity. Qed.
Lemma ref_StaticInitialize4 m : calls code f_KeccakP1600times4_StaticInitialize [] m (fun _ m' => m' = m).
Proof. start code_StaticInitialize4. apply wp_skip. reflexivity. Qed.
Lemma ref_SpongeInitialize4 m L rate : space4 m L -> (rate = 136 \/ rate = 168)%N ->
  calls code f_KeccakWidth1600times4_SpongeInitialize [VPtr (sp L) 0; VInt (ofN (8 * rate)); VInt (ofN (1600 - 8 * rate))] m (fun v m' =>
    v = VInt 0 /\ frame m m' (foot L) /\ st4 m' (stb L) (fun _ => zeros 200) /\ num m' (rtb L) (8 * rate) /\ num m' (ixb L) 0 /\ num m' (sqb L) 0).
Proof.
  intros SP R. assert (X := SP). destruct X as (ND & _ & (P1 & P2 & P3 & P4) & (I1 & I2 & I3 & I4 & _)). start code_SpongeInitialize4.
  seq. eapply wp_if; [ev|]. simp. rewrite truth_b, wrap_u32 by lia. destruct (Z.eqb_spec (ofN (8 * rate) + ofN (1600 - 8 * rate)) 1600) as [E|E]; [|lia]. cbn [negb]. apply wp_skip.
  seq. eapply wp_if.
  { eapply pe_cond.
    - eapply pe_cond; [ev|]. simp. rewrite truth_b. replace (ofN (8 * rate) <=? 0) with false by lia. cbv iota. ev.
    - simp. rewrite truth_b. replace (1600 <? ofN (8 * rate)) with false by lia. cbn [b2z]. change (0 =? 0) with true. cbn [negb]. cbv iota. ev. }
  simp. rewrite mod8. replace (8 * rate)%N with (0 + rate * 8)%N at 1 by lia. rewrite N.mod_add by lia. change (truth _) with false. cbv iota. apply wp_skip.
  assert (D13 := ne L 3 4 ND ltac:(lia)). assert (D14 := ne L 3 5 ND ltac:(lia)). assert (D15 := ne L 3 6 ND ltac:(lia)). assert (D16 := ne L 4 5 ND ltac:(lia)).
  assert (D17 := ne L 4 6 ND ltac:(lia)). assert (D18 := ne L 5 6 ND ltac:(lia)). 
  assert (D1 := ne L 2 3 ND ltac:(lia)). assert (D2 := ne L 2 4 ND ltac:(lia)). assert (D3 := ne L 2 5 ND ltac:(lia)). assert (D4 := ne L 2 6 ND ltac:(lia)). cbn [nth blocks] in *.
  seq. eapply wp_callf; [apply pes_nil|apply ref_StaticInitialize4|]. intros w0 m0 ->. cbn [set].
  seq. eapply wp_callf; [eapply pes_cons; [eapply pe_ptr; [look|exact P1]|apply pes_nil]|apply ref_InitializeAll; exact I1|]. intros w1 m1 (F1 & H1). cbn [set].
  assert (Q2 : ptr m1 (sp L) 1 (rtb L)) by (eapply ptr_kept; [exact P2|exact F1|intros q [Y _]; tauto]).
  assert (Q3 : ptr m1 (sp L) 2 (ixb L)) by (eapply ptr_kept; [exact P3|exact F1|intros q [Y _]; tauto]).
  assert (Q4 : ptr m1 (sp L) 3 (sqb L)) by (eapply ptr_kept; [exact P4|exact F1|intros q [Y _]; tauto]).
  seq. eapply (wp_store4 _ _ _ _ (rtb L) (8 * rate)); [eapply pe_ptr; [look|exact Q2]|ev|eapply inb_frame; [exact F1|exact I2]|]. intros m2 F2 H2.
  assert (R3 : ptr m2 (sp L) 2 (ixb L)) by (eapply ptr_kept; [exact Q3|exact F2|intros q [Y _]; tauto]).
  assert (R4 : ptr m2 (sp L) 3 (sqb L)) by (eapply ptr_kept; [exact Q4|exact F2|intros q [Y _]; tauto]).
  seq. eapply (wp_store4 _ _ _ _ (ixb L) 0); [eapply pe_ptr; [look|exact R3]|ev|eapply inb_frame; [exact F2|]; eapply inb_frame; [exact F1|exact I3]|]. intros m3 F3 H3.
  assert (T4 : ptr m3 (sp L) 3 (sqb L)) by (eapply ptr_kept; [exact R4|exact F3|intros q [Y _]; tauto]).
  seq. eapply (wp_store4 _ _ _ _ (sqb L) 0); [eapply pe_ptr; [look|exact T4]|ev|eapply inb_frame; [exact F3|]; eapply inb_frame; [exact F2|]; eapply inb_frame; [exact F1|exact I4]|]. intros m4 F4 H4.
  eapply wp_return; [ev|]. split; [reflexivity|]. split.
  { assert (W : forall b n a c x, (In b [stb L; rtb L; ixb L; sqb L; flb L; dsb L]) -> at_ b a n c x -> foot L c x) by (intros b n a c x Y [-> _]; exact Y).
    eapply frame_comp; [eapply frame_comp; [eapply frame_comp; [eapply frame_weak; [exact F1|]|exact F2|]|exact F3|]|exact F4|]; intros b o' _ _; apply W; cbn [In]; tauto. }
  split; [eapply st4_kept; [eapply st4_kept; [eapply st4_kept; [exact H1|exact F2|intros q [Y _]; tauto]|exact F3|intros q [Y _]; tauto]|exact F4|intros q [Y _]; tauto]|].
  split; [eapply off_block; [eapply off_block; [exact H2|exact F3|exact D16]|exact F4|exact D17]|].
  split; [eapply off_block; [exact H3|exact F4|exact D18]|exact H4].
Qed.

(** ** Absorbing *)
Lemma code_SpongeAbsorb4 : PositiveMap.find f_KeccakWidth1600times4_SpongeAbsorb code = Some c_KeccakWidth1600times4_SpongeAbsorb. Proof. vm_compute. reflexivity. Qed.
Lemma cells_ext m b o p p' : cells m b o p -> (forall j, 0 <= j < 4 -> p j = p' j) -> cells m b o p'.
Proof. intros H E j Hj. destruct (H j Hj) as [I C]. split; [exact I|]. rewrite C. apply E, Hj. Qed.
Lemma ref_SpongeAbsorb4 m L s rate k pb po db dof d n : ctx4 m L s rate k 0 -> rate_of rate -> (k < rate)%N -> cells m pb po (fun j => VPtr (db j) (dof j)) ->
  (forall j, 0 <= j < 4 -> holds m (db j) (dof j) (d j) /\ bytes_ok (d j) /\ lenN (d j) = n /\ ~ In (db j) (blocks L)) -> (n + 200 <= 2^32)%N ->
  calls code f_KeccakWidth1600times4_SpongeAbsorb [VPtr (sp L) 0; VPtr pb po; VInt (ofN n)] m (fun v m' =>
    v = VInt 0 /\ frame m m' (foot L) /\ exists s' k', ctx4 m' L s' rate k' 0 /\ (k' < rate)%N /\ forall j, 0 <= j < 4 -> feeds rate (d j) (s j, k) = (s' j, k')).
Proof.
  intros C R Lk HP HD LD. assert (R' := rate_r rate R). start code_SpongeAbsorb4.
  seq. eapply wp_alloc; [ev|]. set (cd := mnext m). set (m1 := fresh m _ _).
  assert (F1 : frame m m1 nothing) by apply frame_fresh.
  assert (I1 : inb m1 cd 0 4) by (apply inb_fresh; lia).
  assert (NC : ~ In cd (blocks L)) by (intros Y; assert (W := ctx4_old _ _ _ _ _ _ _ C Y); unfold cd in W; lia).
  assert (NP : pb <> cd) by (intros ->; assert (W := proj1 (proj1 (HP 0 ltac:(lia)))); unfold cd in W; lia).
  assert (C1 : ctx4 m1 L s rate k 0) by (eapply ctx4_kept; [exact C|exact F1|intros b o []]).
  assert (HP1 : cells m1 pb po (fun j => VPtr (db j) (dof j))) by (eapply cells_kept; [exact HP|exact F1|intros q []]).
  assert (HD1 : forall j, 0 <= j < 4 -> holds m1 (db j) (dof j) (d j) /\ bytes_ok (d j) /\ lenN (d j) = n /\ ~ In (db j) (cd :: blocks L)).
  { intros j Hj. destruct (HD j Hj) as (A & B & D & E). split; [eapply off_set; [exact A|exact F1|intros q []]|]. split; [exact B|]. split; [exact D|]. intros [Y|Y]; [|exact (E Y)].
    assert (W := proj1 (holds_inb _ _ _ _ A)). rewrite <- Y in W. unfold cd in W. lia. }
  assert (M1 : mnext m = cd) by reflexivity. clearbody m1 cd.
  assert (FO : forall m', frame m1 m' (fun b o => foot L b o \/ at_ cd 0 4 b o) -> frame m m' (foot L)).
  { intros m' F. eapply frame_comp; [eapply frame_weak; [exact F1|intros b o _ _ []]|exact F|]. intros b o Y _ [W|[-> _]]; [exact W|lia]. }
  seq. eapply wp_set; [ev|]. rewrite div8 by lia. replace (8 * rate)%N with (rate * 8)%N by lia. rewrite N.div_mul by lia.
  seq. eapply wp_if; [ev|]. change (truth _) with false. cbv iota. apply wp_skip.
  seq. eapply wp_set; [ev|]. seq.
  eapply (wp_weak code _ _ _ (fun out e m2 => out = ONormal /\ frame m1 m2 (at_ cd 0 4) /\ (0 < n -> cells m2 cd 0 (fun j => VPtr (db j) (dof j)))%N /\
    has e [(1%positive, VPtr (sp L) 0); (3%positive, VInt (ofN n)); (4%positive, VInt 0); (7%positive, VPtr cd 0); (8%positive, VInt (ofN rate))])).
  { eapply wp_if; [ev|]. simp. rewrite truth_b. destruct (Z.ltb_spec 0 (ofN n)) as [G|G].
    - seq. eapply wp_set; [ev|]. eapply (wp_ptrs _ _ 9 7 2 pb po cd); [exact HP1|exact I1|exact NP|discriminate|discriminate|look|look|look|].
      intros e' m' A F K. split; [reflexivity|]. split; [exact F|]. split; [intros _; exact K|]. hask A.
    - apply wp_skip. split; [reflexivity|]. split; [apply frame_refl|]. split; [lia|]. hasz. }
  intros out e0 m2 (-> & F2 & CE2 & HE0). unhas.
  assert (C2 : ctx4 m2 L s rate k 0) by (eapply ctx4_kept; [exact C1|exact F2|intros b o [-> _]; exact NC]).
  seq.
  eapply (wp_while code _ _ _ (fun w e m' => exists i s' k', w = N.to_nat (n - i) /\ (i <= n)%N /\ (k' < rate)%N /\
    (forall j, 0 <= j < 4 -> feeds rate (takeN i (d j)) (s j, k) = (s' j, k')) /\ ctx4 m' L s' rate k' 0 /\ frame m1 m' (fun b o => foot L b o \/ at_ cd 0 4 b o) /\
    (i < n -> cells m' cd 0 (fun j => VPtr (db j) (dof j + ofN i)))%N /\
    has e [(1%positive, VPtr (sp L) 0); (3%positive, VInt (ofN n)); (4%positive, VInt (ofN i)); (7%positive, VPtr cd 0); (8%positive, VInt (ofN rate))]))
    with (n := N.to_nat n).
  2:{ exists 0%N, s, k. split; [f_equal; lia|]. split; [lia|]. split; [exact Lk|]. split; [reflexivity|]. split; [exact C2|]. split; [eapply frame_weak; [exact F2|intros b o _ _ Y; right; exact Y]|].
      split; [|hasz]. intros G. eapply cells_ext; [exact (CE2 G)|]. intros j _. cbv beta. f_equal. lia. }
  intros w e m' (i & s' & k' & -> & Li & Lk' & FD & C' & F & CE & HE). unhas. eexists. split; [ev|]. simp. rewrite truth_b.
  destruct (Z.ltb_spec (ofN i) (ofN n)) as [G|G].
  2:{ eapply wp_return; [ev|]. split; [reflexivity|]. split; [apply FO; exact F|]. exists s', k'. split; [exact C'|]. split; [exact Lk'|].
      intros j Hj. assert (Y := FD j Hj). destruct (HD1 j Hj) as (_ & _ & W & _). rewrite takeN_all in Y by lia. exact Y. }
  assert (CE' := CE ltac:(lia)). clear CE.
  assert (HD' : forall m3 i p, frame m1 m3 (fun b o => foot L b o \/ at_ cd 0 4 b o) -> (i + p <= n)%N -> forall j, 0 <= j < 4 -> holds m3 (db j) (dof j + ofN i) (takeN p (dropN i (d j))) /\ bytes_ok (takeN p (dropN i (d j))) /\
    lenN (takeN p (dropN i (d j))) = p /\ ~ In (db j) (cd :: blocks L)).
  { intros m3 i' p F3 Lp j Hj. destruct (HD1 j Hj) as (A & B & D & E). split.
    - apply RefVoleHash.holds_sub; [|lia]. eapply off_set; [exact A|exact F3|]. intros q [Y|[Y _]]; [apply E; right; exact (foot_in _ _ _ Y)|apply E; left; auto].
    - split; [apply Forall_takeN, Forall_dropN, B|]. split; [rewrite lenN_takeN, lenN_dropN; lia|exact E]. }
  eapply wp_if.
  { eapply pe_cond; [ev|]. simp. rewrite truth_b. 
    instantiate (1 := VInt (b2z ((k' =? 0)%N && (rate <=? n - i)%N))). destruct (N.eqb_spec k' 0) as [Z|Z].
    - rewrite Z. change (ofN 0 =? 0) with true. cbv iota. eapply pe_eq; [ev|]. simp. rewrite wrap_u64 by lia. cbn [andb].
      destruct (Z.leb_spec (ofN i + ofN rate) (ofN n)), (N.leb_spec rate (n - i)); try lia; reflexivity.
    - replace (ofN k' =? 0) with false by lia. cbv iota. ev. }
  rewrite truth_b. destruct ((k' =? 0)%N && (rate <=? n - i)%N) eqn:B.
  - apply andb_prop in B. destruct B as [B1 B2]. apply N.eqb_eq in B1. apply N.leb_le in B2. subst k'.
    seq. eapply wp_set; [ev|]. simp. rewrite wrap_u64 by lia. seq.
    eapply (wp_while code _ _ _ (fun w e3 m3 => exists a s3, w = N.to_nat (n - a) /\ (a <= n)%N /\ (i < a \/ i = a)%N /\
      (forall j, 0 <= j < 4 -> feeds rate (takeN a (d j)) (s j, k) = (s3 j, 0%N)) /\ ctx4 m3 L s3 rate 0 0 /\ frame m1 m3 (fun b o => foot L b o \/ at_ cd 0 4 b o) /\ cells m3 cd 0 (fun j => VPtr (db j) (dof j + ofN a)) /\
      has e3 [(1%positive, VPtr (sp L) 0); (3%positive, VInt (ofN n)); (5%positive, VInt (ofN (n - a))); (7%positive, VPtr cd 0); (8%positive, VInt (ofN rate))]))
      with (n := N.to_nat (n - i)).
    2:{ exists i, s'. split; [f_equal; lia|]. split; [lia|]. split; [right; reflexivity|]. split; [exact FD|]. split; [exact C'|]. split; [exact F|]. split; [exact CE'|]. hasz. }
    intros w3 e3 m3 (a & s3 & -> & La & Lia & FD3 & C3 & F3 & CE3 & HE3). unhas. eexists. split; [ev|]. simp. rewrite truth_b.
    destruct (Z.leb_spec (ofN rate) (ofN (n - a))) as [G3|G3].
    2:{ assert (i < a)%N by lia. eapply wp_set; [ev|]. simp. rewrite wrap_u64 by lia. apply wp_skip. split; [reflexivity|]. exists (N.to_nat (n - a)). split; [lia|]. exists a, s3, 0%N.
        split; [reflexivity|]. split; [exact La|]. split; [lia|]. split; [exact FD3|]. split; [exact C3|]. split; [exact F3|]. split; [intros _; exact CE3|]. hasz. }
    seq. eapply wp_set; [ev|]. seq.
    eapply (wp_add4 10 11 7 _ _ m3 L s3 rate 0 0 cd db (fun j => dof j + ofN a) (fun j => takeN rate (dropN a (d j))) 0 rate); [exact C3|exact NC|exact CE3|apply HD'; [exact F3|lia]|lia|discriminate|notin|notin|look|look|look|..].
    { intros e' m9 s4 A _. ev. }
    { intros e' m9 A. apply pe_var. rewrite A by notin. look. }
    intros e4 m4 A F4 C4 CE4.
    assert (E1 : lookup e4 1 = VPtr (sp L) 0) by (rewrite A by notin; look). assert (E3 : lookup e4 3 = VInt (ofN n)) by (rewrite A by notin; look). assert (E5 : lookup e4 5 = VInt (ofN (n - a))) by (rewrite A by notin; look).
    assert (E7 : lookup e4 7 = VPtr cd 0) by (rewrite A by notin; look). assert (E8 : lookup e4 8 = VInt (ofN rate)) by (rewrite A by notin; look).
    eapply wp_callf; [evs|apply (ref_PermuteAll_ctx _ _ _ _ _ _ C4)|]. intros w5 m5 (F5 & C5). cbn [set]. eapply wp_set; [ev|]. simp. rewrite wrap_u64 by lia.
    split; [reflexivity|]. exists (N.to_nat (n - (a + rate))). split; [lia|]. eexists (a + rate)%N, _. split; [reflexivity|]. split; [lia|]. split; [lia|]. split; [|split; [exact C5|]].
    { intros j Hj. destruct (HD' m3 a rate F3 ltac:(lia) j Hj) as (_ & _ & W & _). rewrite takeN_split, feeds_app, (FD3 j Hj).
      rewrite (feed_part rate _ _ 0 R (proj1 (proj1 (proj2 (proj2 C3)) j Hj))) by (lia || (intros Y; rewrite Y in W; unfold lenN in W; cbn in W; lia)). rewrite W, N.add_0_l, N.eqb_refl. reflexivity. }
    split; [eapply frame_comp; [eapply frame_comp; [exact F3|exact F4|]|exact F5|]; [intros b o _ _ [Y|Y]; [left; eapply foot_st; exact Y|right; exact Y]|intros b o _ _ Y; left; eapply foot_st; exact Y]|].
    split; [|hasz]. eapply cells_ext; [eapply cells_kept; [exact CE4|exact F5|intros q [Y _]; apply NC; rewrite Y; unfold blocks; cbn [In]; tauto]|]. intros j _. cbv beta. f_equal. lia.
  - assert (B' : k' <> 0%N \/ (n - i < rate)%N) by (destruct (N.eqb_spec k' 0), (N.leb_spec rate (n - i)); try discriminate; tauto). clear B.
    set (p := N.min (n - i) (rate - k')). assert (EP : p = N.min (n - i) (rate - k')) by reflexivity. clearbody p.
    seq. eapply wp_set; [ev|]. simp. rewrite wrap_u64, wrap_u32 by lia. seq.
    eapply (wp_weak code _ _ _ (fun out e2 m2 => out = ONormal /\ m2 = m' /\ has e2 [(1%positive, VPtr (sp L) 0); (3%positive, VInt (ofN n)); (4%positive, VInt (ofN i)); (7%positive, VPtr cd 0); (8%positive, VInt (ofN rate)); (6%positive, VInt (ofN p))])).
    { eapply wp_if; [ev|]. simp. rewrite truth_b. rewrite wrap_u32 by lia. destruct (Z.ltb_spec (ofN rate) (ofN n - ofN i + ofN k')) as [W|W].
      - eapply wp_set; [ev|]. simp. rewrite !wrap_u32 by lia. split; [reflexivity|]. split; [reflexivity|]. hasz.
      - apply wp_skip. split; [reflexivity|]. split; [reflexivity|]. hasz. }
    intros out e2 m3 (-> & -> & HE2). unhas. seq. eapply wp_set; [ev|]. simp. rewrite wrap_u64 by lia.
    seq. eapply wp_set; [ev|]. seq.
    eapply (wp_add4 12 13 7 _ _ m' L s' rate k' 0 cd db (fun j => dof j + ofN i) (fun j => takeN p (dropN i (d j))) k' p); [exact C'|exact NC|exact CE'|apply HD'; [exact F|lia]|lia|discriminate|notin|notin|look|look|look|..].
    { intros e' m3 s4 A C4. eapply (g_index _ _ _ _ _ _ C4); [rewrite A by notin; look|lia]. }
    { intros e' m3 A. apply pe_var. rewrite A by notin. look. }
    intros e4 m3 A F3 C3 CE3.
    assert (E1 : lookup e4 1 = VPtr (sp L) 0) by (rewrite A by notin; look). assert (E3 : lookup e4 3 = VInt (ofN n)) by (rewrite A by notin; look). assert (E4 : lookup e4 4 = VInt (ofN (i + p))) by (rewrite A by notin; lookz).
    assert (E7 : lookup e4 7 = VPtr cd 0) by (rewrite A by notin; look). assert (E8 : lookup e4 8 = VInt (ofN rate)) by (rewrite A by notin; look). assert (E6 : lookup e4 6 = VInt (ofN p)) by (rewrite A by notin; look).
    assert (FS : forall j, 0 <= j < 4 -> feeds rate (takeN (i + p) (d j)) (s j, k) = if (k' + p =? rate)%N then (pm (xor_at (s' j) k' (takeN p (dropN i (d j)))), 0%N) else (xor_at (s' j) k' (takeN p (dropN i (d j))), (k' + p)%N)).
    { intros j Hj. destruct (HD' m' i p F ltac:(lia) j Hj) as (_ & _ & W & _). rewrite takeN_split, feeds_app, (FD j Hj).
      rewrite (feed_part rate _ _ k' R (proj1 (proj1 (proj2 (proj2 C')) j Hj))) by (lia || (intros Y; rewrite Y in W; unfold lenN in W; cbn in W; lia)). rewrite W. reflexivity. }
    seq. eapply wp_set; [ev|]. seq.
    eapply (wp_store4 _ _ _ _ (ixb L) (k' + p)); [ev|eapply pe_eq; [eapply pe_bin; [eapply pe_num; [ev|exact (proj1 (proj2 (proj1 (proj2 (proj2 (proj2 C3))))))|lia]|ev]|]|exact (proj1 (ctx4_in _ _ _ _ _ _ C3))|].
    { simp. rewrite wrap_u32 by lia. f_equal. lia. }
    intros m4 F4 K4. assert (C4 := ctx4_index _ _ _ _ _ _ _ _ C3 F4 K4).
    assert (F04 : frame m1 m4 (fun b o => foot L b o \/ at_ cd 0 4 b o)).
    { eapply frame_comp; [eapply frame_comp; [exact F|exact F3|]|exact F4|]; [intros b o _ _ [Y|Y]; [left; eapply foot_st; exact Y|right; exact Y]|intros b o _ _ Y; left; eapply foot_ix; exact Y]. }
    assert (CE4 : cells m4 cd 0 (fun j => VPtr (db j) (dof j + ofN (i + p)))).
    { eapply cells_ext; [eapply cells_kept; [exact CE3|exact F4|intros q [Y _]; apply NC; rewrite Y; unfold blocks; cbn [In]; tauto]|]. intros j _. cbv beta. f_equal. lia. }
    eapply wp_if; [ev|]. simp. rewrite truth_b. destruct (Z.eqb_spec (ofN (k' + p)) (ofN rate)) as [W|W].
    + replace (k' + p =? rate)%N with true in FS by lia.
      seq. eapply wp_callf; [evs|apply (ref_PermuteAll_ctx _ _ _ _ _ _ C4)|]. intros w5 m5 (F5 & C5). cbn [set].
      eapply (wp_store4 _ _ _ _ (ixb L) 0); [ev|ev|exact (proj1 (ctx4_in _ _ _ _ _ _ C5))|]. intros m6 F6 K6. assert (C6 := ctx4_index _ _ _ _ _ _ _ _ C5 F6 K6).
      apply wp_skip. split; [reflexivity|]. exists (N.to_nat (n - (i + p))). split; [lia|]. eexists (i + p)%N, _, 0%N. split; [reflexivity|]. split; [lia|]. split; [lia|]. split; [exact FS|]. split; [exact C6|].
      split; [eapply frame_comp; [eapply frame_comp; [exact F04|exact F5|intros b' o' _ _ Y; left; eapply foot_st; exact Y]|exact F6|intros b' o' _ _ Y; left; eapply foot_ix; exact Y]|].
      split; [intros _; eapply cells_kept; [eapply cells_kept; [exact CE4|exact F5|]|exact F6|]; intros q [Y _]; apply NC; rewrite Y; unfold blocks; cbn [In]; tauto|]. hasz.
    + replace (k' + p =? rate)%N with false in FS by lia. apply wp_skip. apply wp_skip. split; [reflexivity|]. exists (N.to_nat (n - (i + p))). split; [lia|]. eexists (i + p)%N, _, (k' + p)%N.
      split; [reflexivity|]. split; [lia|]. split; [lia|]. split; [exact FS|]. split; [exact C4|]. split; [exact F04|]. split; [intros _; exact CE4|]. hasz.
Qed.

(** ** Padding *)
Lemma code_LastFewBits4 : PositiveMap.find f_KeccakWidth1600times4_SpongeAbsorbLastFewBits code = Some c_KeccakWidth1600times4_SpongeAbsorbLastFewBits. Proof. vm_compute. reflexivity. Qed.
Lemma wp_byte4 x xb xo m L s rate k q v off e (Q : outcome -> env -> mem -> Prop) : ctx4 m L s rate k q -> (off < 200)%N -> (v < 256)%N -> 1%positive <> x -> lookup e x = VInt 0 -> lookup e 1 = VPtr (sp L) 0 ->
  (forall e' m', agree [x] e e' -> pe e' m' xb (VInt (ofN v))) -> (forall e' m' s', agree [x] e e' -> ctx4 m' L s' rate k q -> pe e' m' xo (VInt (ofN off))) ->
  (forall e' m', agree [x] e e' -> frame m m' (at_ (stb L) 0 800) -> ctx4 m' L (fun j => xor_at (s j) off [v]) rate k q -> Q ONormal e' m') ->
  wp code (each x (SCall None f_KeccakP1600times4_AddByte [(EField (EVar 1) 4 0); (EVar x); xb; xo])) e m Q.
Proof.
  intros C LO LV N1 Ex E1 Pb Po K. set (f := fun j => xor_at (s j) off [v]).
  eapply (wp_each x [x] _ (fun i m' => frame m m' (at_ (stb L) 0 800) /\ ctx4 m' L (upto i f s) rate k q)); [left; reflexivity|exact Ex|..].
  - intros i e' m' Hi A E (F & C'). assert (X := C'). destruct X as (_ & _ & S4 & _). destruct (S4 i Hi) as (LS & BS & HS). rewrite upto_at in *.
    assert (E1' : lookup e' 1 = VPtr (sp L) 0) by (rewrite A by (intros [Y|[]]; congruence); exact E1).
    destruct (xor_at_good (s i) off [v] LS BS ltac:(apply Forall_cons; [exact LV|apply Forall_nil]) ltac:(change (lenN [v]) with 1%N; lia)) as (GL & GB).
    eapply wp_callf with (vs := [VPtr (stb L) 0; VInt i; VInt (ofN v); VInt (ofN off)]).
    { eapply pes_cons; [eapply (g_state _ _ _ _ _ _ C'); exact E1'|]. eapply pes_cons; [apply pe_var; exact E|]. eapply pes_cons; [apply Pb; exact A|]. eapply pes_cons; [eapply Po; eassumption|apply pes_nil]. }
    { apply (ref_AddByte4 m' (stb L) (s i) i v off); assumption. }
    intros w m2 (F2 & H2). cbn [set]. split; [reflexivity|]. split; [exact A|]. split; [exact E|]. split; [eapply frame_comp; [exact F|exact F2|in_at]|].
    eapply ctx4_state; [exact C'|exact F2|]. eapply st4_step; [exact Hi|exact S4|exact F2|exact GL|exact GB|exact H2].
  - intros e' m' A (F & C'). apply K; [exact A|exact F|]. eapply ctx4_ext; [exact C'|]. intros j Hj. unfold upto. replace (j <? 4) with true by lia. reflexivity.
  - split; [apply frame_refl|]. eapply ctx4_ext; [exact C|]. intros j Hj. unfold upto. replace (j <? 0) with false by lia. reflexivity.
Qed.
Lemma ref_LastFewBits4 m L s rate k : ctx4 m L s rate k 0 -> rate_of rate -> (k < rate)%N ->
  calls code f_KeccakWidth1600times4_SpongeAbsorbLastFewBits [VPtr (sp L) 0; VInt 31] m (fun v m' =>
    v = VInt 0 /\ frame m m' (foot L) /\ ctx4 m' L (fun j => padded rate (s j) k) rate 0 1).
Proof.
  intros C R Lk. assert (R' := rate_r rate R). start code_LastFewBits4.
  seq. eapply wp_set; [ev|]. rewrite div8 by lia. replace (8 * rate)%N with (rate * 8)%N by lia. rewrite N.div_mul by lia.
  seq. eapply wp_if; [ev|]. simp. rewrite truth_b. change (31 =? 0) with false. cbv iota. apply wp_skip.
  seq. eapply wp_if; [ev|]. change (truth _) with false. cbv iota. apply wp_skip.
  seq. eapply wp_set; [ev|]. seq. eapply (wp_byte4 4 _ _ m L s rate k 0 31 k); [exact C|lia|lia|discriminate|look|look|..].
  { intros e' m' A. apply pe_var. rewrite A by notin. look. }
  { intros e' m' s' A C'. eapply (g_index _ _ _ _ _ _ C'); [rewrite A by notin; look|lia]. }
  intros e1 m1 A1 F1 C1. 
  assert (E1 : lookup e1 1 = VPtr (sp L) 0) by (rewrite A1 by notin; look). assert (E2 : lookup e1 2 = VInt 31) by (rewrite A1 by notin; look). assert (E3 : lookup e1 3 = VInt (ofN rate)) by (rewrite A1 by notin; look).
  seq. eapply wp_if; [eapply pe_cond; [ev|]; simp; rewrite truth_b; change (128 <=? 31) with false; cbv iota; ev|]. change (truth _) with false. cbv iota. apply wp_skip.
  seq. eapply wp_set; [ev|]. seq. eapply (wp_byte4 5 _ _ m1 L _ rate k 0 128 (rate - 1)); [exact C1|lia|lia|discriminate|look|look|..].
  { intros e' m' A. ev. }
  { intros e' m' s' A C'. eapply pe_eq; [eapply pe_bin; [apply pe_var; rewrite A by notin; look|ev]|]. simp. rewrite wrap_u32 by lia. f_equal. lia. }
  intros e2 m2 A2 F2 C2. assert (E1' : lookup e2 1 = VPtr (sp L) 0) by (rewrite A2 by notin; look).
  seq. eapply wp_callf; [evs|apply (ref_PermuteAll_ctx _ _ _ _ _ _ C2)|]. intros w3 m3 (F3 & C3). cbn [set].
  seq. eapply (wp_store4 _ _ _ _ (ixb L) 0); [ev|ev|exact (proj1 (ctx4_in _ _ _ _ _ _ C3))|]. intros m4 F4 K4. assert (C4 := ctx4_index _ _ _ _ _ _ _ _ C3 F4 K4).
  seq. eapply (wp_store4 _ _ _ _ (sqb L) 1); [ev|ev|exact (proj2 (ctx4_in _ _ _ _ _ _ C4))|]. intros m5 F5 K5. assert (C5 := ctx4_phase _ _ _ _ _ _ _ _ C4 F5 K5).
  eapply wp_return; [ev|]. split; [reflexivity|]. split; [|exact C5].
  eapply frame_comp; [eapply frame_comp; [eapply frame_comp; [eapply frame_comp; [eapply frame_weak; [exact F1|]|exact F2|]|exact F3|]|exact F4|]|exact F5|]; intros b' o' _ _; first [apply foot_st|apply foot_ix|apply foot_sq].
Qed.

(** ** Squeezing *)
Lemma code_SpongeSqueeze4 : PositiveMap.find f_KeccakWidth1600times4_SpongeSqueeze code = Some c_KeccakWidth1600times4_SpongeSqueeze. Proof. vm_compute. reflexivity. Qed.
Definition outfoot4 (L : loc) (db : Z -> positive) (dof : Z -> Z) (n : Z) (b : positive) (o : Z) : Prop := foot L b o \/ outs db dof n b o.
Lemma inb_setv m b o v c p k : inb m c p k -> inb (setv m b o v) c p k.
Proof. intros H. unfold setv. rewrite setc_inb. exact H. Qed.
Definition inits (c : positive) (s : stmt) : stmt := SStoreP (EVar c) ENull ;; SStoreP (EAt (EVar c) 1 (EInt 1)) ENull ;; SStoreP (EAt (EVar c) 1 (EInt 2)) ENull ;; SStoreP (EAt (EVar c) 1 (EInt 3)) ENull ;; s.
Lemma wp_inits c s e m cd (Q : outcome -> env -> mem -> Prop) : lookup e c = VPtr cd 0 -> inb m cd 0 4 -> (forall m', frame m m' (at_ cd 0 4) -> wp code s e m' Q) -> wp code (inits c s) e m Q.
Proof.
  intros E I K. unfold inits. assert (J : forall o, 0 <= o < 4 -> forall m', inb m' cd 0 4 -> inb m' cd o 1) by (intros o Ho m' X; eapply inb_sub; [exact X|lia..]).
  assert (W : forall m0 m' o v, frame m0 m' (at_ cd 0 4) -> inb m0 cd 0 4 -> 0 <= o < 4 -> frame m0 (setv m' cd o v) (at_ cd 0 4)).
  { intros m0 m' o v F X Ho. eapply frame_comp; [exact F|apply frame_setv; apply J; [exact Ho|eapply inb_frame; [exact F|exact X]]|in_at]. }
  seq. eapply wp_storep; [apply pe_var; exact E|ev|apply J; [lia|exact I]|].
  seq. eapply wp_storep; [eapply pe_at; [apply pe_var; exact E|ev]|ev|apply inb_setv, J; [lia|exact I]|].
  seq. eapply wp_storep; [eapply pe_at; [apply pe_var; exact E|ev]|ev|apply inb_setv, inb_setv, J; [lia|exact I]|].
  seq. eapply wp_storep; [eapply pe_at; [apply pe_var; exact E|ev]|ev|apply inb_setv, inb_setv, inb_setv, J; [lia|exact I]|].
  apply K. apply W; [|exact I|lia]. apply W; [|exact I|lia]. apply W; [|exact I|lia]. apply W; [|exact I|lia]. apply frame_refl.
Qed.
Lemma ref_SpongeSqueeze40 m L s rate k v0 : ctx4 m L s rate k 1 -> rate_of rate -> (k <= rate)%N ->
  calls code f_KeccakWidth1600times4_SpongeSqueeze [VPtr (sp L) 0; v0; VInt 0] m (fun v m' => v = VInt 0 /\ frame m m' nothing).
Proof.
  intros C R Lk. assert (R' := rate_r rate R). start code_SpongeSqueeze4.
  seq. eapply wp_set; [ev|]. seq. eapply wp_alloc; [ev|]. set (cd := mnext m). set (m1 := fresh m _ _).
  assert (F1 : frame m m1 nothing) by apply frame_fresh. assert (I1 : inb m1 cd 0 4) by (apply inb_fresh; lia).
  assert (M1 : mnext m = cd) by reflexivity. assert (NC : ~ In cd (blocks L)) by (intros Y; assert (W := ctx4_old _ _ _ _ _ _ _ C Y); lia). clearbody m1 cd.
  eapply (wp_inits 8); [look|exact I1|]. intros m2 F2.
  assert (F02 : frame m m2 nothing) by (eapply frame_comp; [exact F1|exact F2|]; intros b o Y _ [-> _]; lia).
  assert (C2 : ctx4 m2 L s rate k 1) by (eapply ctx4_kept; [exact C|exact F02|intros b o []]).
  seq. eapply wp_if; [ev|]. change (truth _) with false. cbv iota. apply wp_skip.
  seq. eapply wp_set; [ev|]. seq. eapply wp_if; [ev|]. change (truth _) with false. cbv iota. apply wp_skip. seq.
  eapply (wp_while code _ _ _ (fun n e m' => n = O /\ m' = m2 /\ has e [(3%positive, VInt 0); (4%positive, VInt 0)])) with (n := O); [|split; [reflexivity|split; [reflexivity|hasz]]].
  intros n e m' (-> & -> & HE). unhas. eexists. split; [ev|]. change (truth _) with false. cbv iota. eapply wp_return; [ev|]. split; [reflexivity|exact F02].
Qed.
(** the outputs, [i] bytes of which are written *)
Definition given4 (m : mem) (db : Z -> positive) (dof : Z -> Z) (rate i : N) (s : Z -> bytes) (k : N) : Prop := forall j, 0 <= j < 4 -> holds m (db j) (dof j) (fst (pulls rate i (s j, k))).
Lemma given4_kept m m' S db dof rate i s k : given4 m db dof rate i s k -> frame m m' S -> (forall j q, 0 <= j < 4 -> ~ S (db j) q) -> given4 m' db dof rate i s k.
Proof. intros H F D j Hj. eapply off_set; [exact (H j Hj)|exact F|]. intros q. apply D, Hj. Qed.
Lemma given4_piece m m' cd db dof rate i p n s k s2 k2 : given4 m db dof rate i s k -> frame m m' (outsc db (fun j => dof j + ofN i) (ofN p) cd) -> rate_of rate ->
  (forall j, 0 <= j < 4 -> db j <> cd) -> (forall i j, 0 <= i < j /\ j < 4 -> sep (db i) (dof i) (ofN n) (db j) (dof j) (ofN n)) -> (i + p <= n)%N -> (k2 + p <= rate)%N -> (1 <= p)%N ->
  (forall j, 0 <= j < 4 -> lenN (s2 j) = 200%N /\ (snd (pulls rate i (s j, k)) = (s2 j, k2) \/ (k2 = 0%N /\ exists s0, lenN s0 = 200%N /\ bytes_ok s0 /\ s2 j = pm s0 /\ snd (pulls rate i (s j, k)) = (s0, rate)))) ->
  (forall j, 0 <= j < 4 -> holds m' (db j) (dof j + ofN i) (takeN p (dropN k2 (s2 j)))) ->
  given4 m' db dof rate (i + p) s k /\ forall j, 0 <= j < 4 -> snd (pulls rate (i + p) (s j, k)) = (s2 j, (k2 + p)%N).
Proof.
  intros H F R NC DJ Ln Lk Lp T K.
  assert (E : forall j, 0 <= j < 4 -> pulls rate p (snd (pulls rate i (s j, k))) = (takeN p (dropN k2 (s2 j)), (s2 j, (k2 + p)%N))).
  { intros j Hj. destruct (T j Hj) as (LS & [-> | (-> & s0 & L0 & B0 & E0 & ->)]); [apply pulls_piece; assumption|]. rewrite pulls_next by assumption. rewrite <- E0. apply pulls_piece; assumption. }
  split; intros j Hj; rewrite pulls_add; cbn [fst snd]; rewrite (E j Hj); cbn [fst snd]; [|reflexivity]. apply RefOwf.holds_app.
  - eapply holds_frame; [exact (H j Hj)|exact F|]. rewrite pulls_len. intros q Hq [(t & Ht & Y)|[Y _]]; [|exact (NC j Hj Y)]. destruct (Z.eq_dec j t) as [->|N]; [in_at|].
    destruct (Z.ltb_spec j t) as [G|G]; [assert (W := DJ j t ltac:(lia))|assert (W := DJ t j ltac:(lia))]; in_at.
  - rewrite pulls_len. exact (K j Hj).
Qed.
Lemma ref_SpongeSqueeze4 m L s rate k pb po db dof n : ctx4 m L s rate k 1 -> rate_of rate -> (k <= rate)%N -> cells m pb po (fun j => VPtr (db j) (dof j)) ->
  (forall j, 0 <= j < 4 -> inb m (db j) (dof j) (ofN n) /\ ~ In (db j) (blocks L)) -> (forall i j, 0 <= i < j /\ j < 4 -> sep (db i) (dof i) (ofN n) (db j) (dof j) (ofN n)) -> (n + 200 <= 2^32)%N ->
  calls code f_KeccakWidth1600times4_SpongeSqueeze [VPtr (sp L) 0; VPtr pb po; VInt (ofN n)] m (fun v m' =>
    v = VInt 0 /\ frame m m' (outfoot4 L db dof (ofN n)) /\ given4 m' db dof rate n s k /\
    exists s' k', ctx4 m' L s' rate k' 1 /\ (k' <= rate)%N /\ forall j, 0 <= j < 4 -> snd (pulls rate n (s j, k)) = (s' j, k')).
Proof.
  intros C R Lk HP HD DJ LN. assert (R' := rate_r rate R). start code_SpongeSqueeze4.
  seq. eapply wp_set; [ev|]. rewrite div8 by lia. replace (8 * rate)%N with (rate * 8)%N by lia. rewrite N.div_mul by lia.
  seq. eapply wp_alloc; [ev|]. set (cd := mnext m). set (m0 := fresh m _ _).
  assert (F0 : frame m m0 nothing) by apply frame_fresh. assert (I0 : inb m0 cd 0 4) by (apply inb_fresh; lia).
  assert (M1 : mnext m = cd) by reflexivity. assert (NC : ~ In cd (blocks L)) by (intros Y; assert (W := ctx4_old _ _ _ _ _ _ _ C Y); lia). clearbody m0 cd.
  eapply (wp_inits 8); [look|exact I0|]. intros m1 F1'.
  assert (F1 : frame m m1 nothing) by (eapply frame_comp; [exact F0|exact F1'|]; intros b o Y _ [-> _]; lia).
  assert (I1 : inb m1 cd 0 4) by (eapply inb_frame; [exact F1'|exact I0]). clear m0 F0 I0 F1'.
  assert (NP : pb <> cd) by (intros ->; assert (W := proj1 (proj1 (HP 0 ltac:(lia)))); lia).
  assert (C1 : ctx4 m1 L s rate k 1) by (eapply ctx4_kept; [exact C|exact F1|intros b o []]).
  assert (HP1 : cells m1 pb po (fun j => VPtr (db j) (dof j))) by (eapply cells_kept; [exact HP|exact F1|intros q []]).
  assert (HD1 : forall j, 0 <= j < 4 -> inb m1 (db j) (dof j) (ofN n) /\ ~ In (db j) (cd :: blocks L)).
  { intros j Hj. destruct (HD j Hj) as (A & E). split; [eapply inb_frame; [exact F1|exact A]|]. intros [Y|Y]; [|exact (E Y)]. assert (W := proj1 A). lia. }
  assert (ND : forall j, 0 <= j < 4 -> db j <> cd) by (intros j Hj Y; apply (proj2 (HD1 j Hj)); left; auto).
  set (T := fun b o => outfoot4 L db dof (ofN n) b o \/ at_ cd 0 4 b o).
  assert (FO : forall m', frame m1 m' T -> frame m m' (outfoot4 L db dof (ofN n))).
  { intros m' F. eapply frame_comp; [eapply frame_weak; [exact F1|intros b o _ _ []]|exact F|]. intros b o Y _ [W|[-> _]]; [exact W|lia]. }
  assert (W1 : forall b o, at_ (stb L) 0 800 b o -> T b o) by (intros b o X; left; left; eapply foot_st; exact X).
  assert (W2 : forall b o, at_ (ixb L) 0 4 b o -> T b o) by (intros b o X; left; left; eapply foot_ix; exact X).
  assert (W3 : forall i p, (i + p <= n)%N -> forall b o, outsc db (fun j => dof j + ofN i) (ofN p) cd b o -> T b o).
  { intros i p Lp b o [(j & Hj & X)|X]; [left; right; exists j; split; [exact Hj|in_at]|right; exact X]. }
  assert (NI : forall m3 i p, frame m1 m3 T -> (i + p <= n)%N -> forall j, 0 <= j < 4 -> inb m3 (db j) (dof j + ofN i) (ofN p) /\ ~ In (db j) (cd :: blocks L)).
  { intros m3 i p F3 Lp j Hj. destruct (HD1 j Hj) as (A & E). split; [|exact E]. eapply inb_sub; [eapply inb_frame; [exact F3|exact A]|lia..]. }
  assert (DJ' : forall i p, (i + p <= n)%N -> forall a b, 0 <= a < b /\ b < 4 -> sep (db a) (dof a + ofN i) (ofN p) (db b) (dof b + ofN i) (ofN p)).
  { intros i p Lp a b Hab. assert (X := DJ a b Hab). unfold sep in *. lia. }
  assert (KH : forall m2 m3 S i, given4 m2 db dof rate i s k -> frame m2 m3 S -> (forall b o, S b o -> foot L b o) -> given4 m3 db dof rate i s k).
  { intros m2 m3 S i H F X. eapply given4_kept; [exact H|exact F|]. intros j q Hj Y. apply (proj2 (HD j Hj)). exact (foot_in _ _ _ (X _ _ Y)). }
  assert (CK : forall m2 m3 S i, cells m2 cd 0 (fun j => VPtr (db j) (dof j + ofN i)) -> frame m2 m3 S -> (forall b o, S b o -> foot L b o) -> cells m3 cd 0 (fun j => VPtr (db j) (dof j + ofN i))).
  { intros m2 m3 S i H F X. eapply cells_kept; [exact H|exact F|]. intros q Y. apply NC. exact (foot_in _ _ _ (X _ _ Y)). }
  seq. eapply wp_if; [ev|]. change (truth _) with false. cbv iota. apply wp_skip.
  seq. eapply wp_set; [ev|]. seq.
  eapply (wp_weak code _ _ _ (fun out e m2 => out = ONormal /\ frame m1 m2 (at_ cd 0 4) /\ (0 < n -> cells m2 cd 0 (fun j => VPtr (db j) (dof j)))%N /\
    has e [(1%positive, VPtr (sp L) 0); (3%positive, VInt (ofN n)); (4%positive, VInt 0); (8%positive, VPtr cd 0); (7%positive, VInt (ofN rate))])).
  { eapply wp_if; [ev|]. simp. rewrite truth_b. destruct (Z.ltb_spec 0 (ofN n)) as [G|G].
    - seq. eapply wp_set; [ev|]. eapply (wp_ptrs _ _ 10 8 2 pb po cd); [exact HP1|exact I1|exact NP|discriminate|discriminate|look|look|look|].
      intros e' m' A F K. split; [reflexivity|]. split; [exact F|]. split; [intros _; exact K|]. hask A.
    - apply wp_skip. split; [reflexivity|]. split; [apply frame_refl|]. split; [lia|]. hasz. }
  intros out e0 m2 (-> & F2 & CE2 & HE0). unhas.
  assert (C2 : ctx4 m2 L s rate k 1) by (eapply ctx4_kept; [exact C1|exact F2|intros b o [-> _]; exact NC]).
  seq.
  eapply (wp_while code _ _ _ (fun w e m' => exists i s' k', w = N.to_nat (n - i) /\ (i <= n)%N /\ (k' <= rate)%N /\
    (forall j, 0 <= j < 4 -> snd (pulls rate i (s j, k)) = (s' j, k')) /\ given4 m' db dof rate i s k /\ ctx4 m' L s' rate k' 1 /\ frame m1 m' T /\
    (i < n -> cells m' cd 0 (fun j => VPtr (db j) (dof j + ofN i)))%N /\
    has e [(1%positive, VPtr (sp L) 0); (3%positive, VInt (ofN n)); (4%positive, VInt (ofN i)); (8%positive, VPtr cd 0); (7%positive, VInt (ofN rate))]))
    with (n := N.to_nat n).
  2:{ exists 0%N, s, k. split; [f_equal; lia|]. split; [lia|]. split; [exact Lk|]. split; [reflexivity|].
      split. { intros j Hj. split; [eapply inb_sub; [eapply inb_frame; [exact F2|exact (proj1 (HD1 j Hj))]|change (lenN (fst (pulls rate 0 (s j, k)))) with 0%N; lia..]|intros i Hi; change (lenN (fst (pulls rate 0 (s j, k)))) with 0%N in Hi; lia]. }
      split; [exact C2|]. split; [eapply frame_weak; [exact F2|intros b o _ _ Y; right; exact Y]|]. split; [|hasz]. intros G. eapply cells_ext; [exact (CE2 G)|]. intros j _. cbv beta. f_equal. lia. }
  intros w e m' (i & s' & k' & -> & Li & Lk' & PL & HO & C' & F & CE & HE). unhas. eexists. split; [ev|]. simp. rewrite truth_b.
  destruct (Z.ltb_spec (ofN i) (ofN n)) as [G|G].
  2:{ eapply wp_return; [ev|]. assert (i = n) as -> by lia. split; [reflexivity|]. split; [apply FO; exact F|]. split; [exact HO|]. exists s', k'. auto. }
  assert (CE' := CE ltac:(lia)). clear CE.
  eapply wp_if.
  { eapply pe_cond; [ev|]. simp. rewrite truth_b. 
    instantiate (1 := VInt (b2z ((k' =? rate)%N && (rate <=? n - i)%N))). destruct (N.eqb_spec k' rate) as [Z|Z].
    - rewrite Z. rewrite Z.eqb_refl. eapply pe_eq; [ev|]. simp. rewrite wrap_u64 by lia. cbn [andb].
      destruct (Z.leb_spec (ofN i + ofN rate) (ofN n)), (N.leb_spec rate (n - i)); try lia; reflexivity.
    - replace (ofN k' =? ofN rate) with false by lia. cbv iota. ev. }
  rewrite truth_b. destruct ((k' =? rate)%N && (rate <=? n - i)%N) eqn:B.
  - apply andb_prop in B. destruct B as [B1 B2]. apply N.eqb_eq in B1. apply N.leb_le in B2. subst k'.
    seq. eapply wp_set; [ev|]. simp. rewrite wrap_u64 by lia. seq.
    eapply (wp_while code _ _ _ (fun w e3 m3 => exists a s3, w = N.to_nat (n - a) /\ (a <= n)%N /\ (i < a \/ i = a)%N /\
      (forall j, 0 <= j < 4 -> snd (pulls rate a (s j, k)) = (s3 j, rate)) /\ given4 m3 db dof rate a s k /\ ctx4 m3 L s3 rate rate 1 /\ frame m1 m3 T /\ cells m3 cd 0 (fun j => VPtr (db j) (dof j + ofN a)) /\
      has e3 [(1%positive, VPtr (sp L) 0); (3%positive, VInt (ofN n)); (5%positive, VInt (ofN (n - a))); (8%positive, VPtr cd 0); (7%positive, VInt (ofN rate))]))
      with (n := N.to_nat (n - i)).
    2:{ exists i, s'. split; [f_equal; lia|]. split; [lia|]. split; [right; reflexivity|]. split; [exact PL|]. split; [exact HO|]. split; [exact C'|]. split; [exact F|]. split; [exact CE'|]. hasz. }
    intros w3 e3 m3 (a & s3 & -> & La & Lia & PL3 & HO3 & C3 & F3 & CE3 & HE3). unhas. eexists. split; [ev|]. simp. rewrite truth_b.
    destruct (Z.leb_spec (ofN rate) (ofN (n - a))) as [G3|G3].
    2:{ assert (i < a)%N by lia. eapply wp_set; [ev|]. simp. rewrite wrap_u64 by lia. apply wp_skip. split; [reflexivity|]. exists (N.to_nat (n - a)). split; [lia|]. exists a, s3, rate.
        split; [reflexivity|]. split; [exact La|]. split; [lia|]. split; [exact PL3|]. split; [exact HO3|]. split; [exact C3|]. split; [exact F3|]. split; [intros _; exact CE3|]. hasz. }
    seq. eapply wp_callf; [evs|apply (ref_PermuteAll_ctx _ _ _ _ _ _ C3)|]. intros w4 m4 (F4 & C4). cbn [set].
    assert (HO4 := KH _ _ _ _ HO3 F4 ltac:(intros b o; apply foot_st)). assert (CE4 := CK _ _ _ _ CE3 F4 ltac:(intros b o; apply foot_st)).
    assert (F04 : frame m1 m4 T) by (eapply frame_comp; [exact F3|exact F4|intros b o _ _; apply W1]).
    seq. eapply wp_set; [ev|].
    eapply (wp_ext4 11 12 8 _ _ m4 L (fun j => pm (s3 j)) rate rate 1 cd db (fun j => dof j + ofN a) 0 rate); [exact C4|exact NC|exact CE4|apply NI; [exact F04|lia]|apply DJ'; lia|lia|discriminate|notin|notin|look|look|look|..].
    { intros e' m9 s4 A _. ev. }
    { intros e' m9 A. apply pe_var. rewrite A by notin. look. }
    intros e5 m5 A F5 C5 CE5 HP5.
    destruct (given4_piece m4 m5 cd db dof rate a rate n s k (fun j => pm (s3 j)) 0 HO4 F5 R ND DJ ltac:(lia) ltac:(lia) ltac:(lia)) as (HO5 & PL5); [|exact HP5|].
    { intros j Hj. destruct (proj1 (proj2 (proj2 C3)) j Hj) as (L3 & B3 & _). split; [apply pm_good, L3|]. right. split; [reflexivity|]. exists (s3 j). split; [exact L3|]. split; [exact B3|]. split; [reflexivity|]. exact (PL3 j Hj). }
    assert (E1 : lookup e5 1 = VPtr (sp L) 0) by (rewrite A by notin; look). assert (E3 : lookup e5 3 = VInt (ofN n)) by (rewrite A by notin; look). assert (E5 : lookup e5 5 = VInt (ofN (n - a))) by (rewrite A by notin; look).
    assert (E7 : lookup e5 8 = VPtr cd 0) by (rewrite A by notin; look). assert (E8 : lookup e5 7 = VInt (ofN rate)) by (rewrite A by notin; look).
    eapply wp_set; [ev|]. simp. rewrite wrap_u64 by lia.
    split; [reflexivity|]. exists (N.to_nat (n - (a + rate))). split; [lia|]. eexists (a + rate)%N, _. split; [reflexivity|]. split; [lia|]. split; [lia|]. split; [exact PL5|]. split; [exact HO5|].
    split; [exact C5|]. split; [eapply frame_comp; [exact F04|exact F5|intros b o _ _; apply W3; lia]|]. split; [|hasz].
    eapply cells_ext; [exact CE5|]. intros j _. cbv beta. f_equal. lia.
  - assert (B' : k' <> rate \/ (n - i < rate)%N) by (destruct (N.eqb_spec k' rate), (N.leb_spec rate (n - i)); try discriminate; tauto). clear B.
    seq.
    eapply (wp_weak code _ _ _ (fun out e2 m2 => out = ONormal /\ frame m1 m2 T /\ given4 m2 db dof rate i s k /\ cells m2 cd 0 (fun j => VPtr (db j) (dof j + ofN i)) /\
      has e2 [(1%positive, VPtr (sp L) 0); (3%positive, VInt (ofN n)); (4%positive, VInt (ofN i)); (8%positive, VPtr cd 0); (7%positive, VInt (ofN rate))] /\
      exists s2 k2, ctx4 m2 L s2 rate k2 1 /\ (k2 < rate)%N /\ forall j, 0 <= j < 4 -> lenN (s2 j) = 200%N /\
        (snd (pulls rate i (s j, k)) = (s2 j, k2) \/ (k2 = 0%N /\ exists s0, lenN s0 = 200%N /\ bytes_ok s0 /\ s2 j = pm s0 /\ snd (pulls rate i (s j, k)) = (s0, rate))))).
    { eapply wp_if; [ev|]. simp. rewrite truth_b. destruct (Z.eqb_spec (ofN k') (ofN rate)) as [W|W].
      - assert (k' = rate) as -> by lia. seq. eapply wp_callf; [evs|apply (ref_PermuteAll_ctx _ _ _ _ _ _ C')|]. intros w3 m3 (F3 & C3). cbn [set].
        eapply (wp_store4 _ _ _ _ (ixb L) 0); [ev|ev|exact (proj1 (ctx4_in _ _ _ _ _ _ C3))|]. intros m4 F4 K4. assert (C4 := ctx4_index _ _ _ _ _ _ _ _ C3 F4 K4).
        split; [reflexivity|]. split; [eapply frame_comp; [eapply frame_comp; [exact F|exact F3|intros b o _ _; apply W1]|exact F4|intros b o _ _; apply W2]|].
        split; [eapply KH; [eapply KH; [exact HO|exact F3|intros b o; apply foot_st]|exact F4|intros b o; apply foot_ix]|].
        split; [eapply CK; [eapply CK; [exact CE'|exact F3|intros b o; apply foot_st]|exact F4|intros b o; apply foot_ix]|]. split; [hass|].
        eexists _, 0%N. split; [exact C4|]. split; [lia|]. intros j Hj. destruct (proj1 (proj2 (proj2 C')) j Hj) as (L3 & B3 & _). split; [apply pm_good, L3|]. right. split; [reflexivity|]. exists (s' j).
        split; [exact L3|]. split; [exact B3|]. split; [reflexivity|]. exact (PL j Hj).
      - apply wp_skip. split; [reflexivity|]. split; [exact F|]. split; [exact HO|]. split; [exact CE'|]. split; [hass|]. exists s', k'. split; [exact C'|]. split; [lia|].
        intros j Hj. split; [exact (proj1 (proj1 (proj2 (proj2 C')) j Hj))|]. left. exact (PL j Hj). }
    intros out e2 m3 (-> & F3 & HO3 & CE3 & HE2 & s2 & k2 & C3 & Lk2 & T3). unhas.
    set (p := N.min (n - i) (rate - k2)). assert (EP : p = N.min (n - i) (rate - k2)) by reflexivity. clearbody p.
    seq. eapply wp_set; [ev|]. simp. rewrite wrap_u64, wrap_u32 by lia. seq.
    eapply (wp_weak code _ _ _ (fun out e3 m4 => out = ONormal /\ m4 = m3 /\ has e3 [(1%positive, VPtr (sp L) 0); (3%positive, VInt (ofN n)); (4%positive, VInt (ofN i)); (8%positive, VPtr cd 0); (7%positive, VInt (ofN rate)); (6%positive, VInt (ofN p))])).
    { eapply wp_if; [ev|]. simp. rewrite truth_b. rewrite wrap_u32 by lia. destruct (Z.ltb_spec (ofN rate) (ofN n - ofN i + ofN k2)) as [W|W].
      - eapply wp_set; [ev|]. simp. rewrite !wrap_u32 by lia. split; [reflexivity|]. split; [reflexivity|]. hasz.
      - apply wp_skip. split; [reflexivity|]. split; [reflexivity|]. hasz. }
    intros out e3 m4 (-> & -> & HE3). unhas. seq. eapply wp_set; [ev|]. simp. rewrite wrap_u64 by lia.
    seq. eapply wp_set; [ev|]. seq.
    eapply (wp_ext4 13 14 8 _ _ m3 L s2 rate k2 1 cd db (fun j => dof j + ofN i) k2 p); [exact C3|exact NC|exact CE3|apply NI; [exact F3|lia]|apply DJ'; lia|lia|discriminate|notin|notin|look|look|look|..].
    { intros e' m9 s4 A C4. eapply (g_index _ _ _ _ _ _ C4); [rewrite A by notin; look|lia]. }
    { intros e' m9 A. apply pe_var. rewrite A by notin. look. }
    intros e5 m5 A F5 C5 CE5 HP5.
    destruct (given4_piece m3 m5 cd db dof rate i p n s k s2 k2 HO3 F5 R ND DJ ltac:(lia) ltac:(lia) ltac:(lia) T3 HP5) as (HO5 & PL5).
    assert (E1 : lookup e5 1 = VPtr (sp L) 0) by (rewrite A by notin; look). assert (E3 : lookup e5 3 = VInt (ofN n)) by (rewrite A by notin; look). assert (E4 : lookup e5 4 = VInt (ofN (i + p))) by (rewrite A by notin; lookz).
    assert (E7 : lookup e5 8 = VPtr cd 0) by (rewrite A by notin; look). assert (E8 : lookup e5 7 = VInt (ofN rate)) by (rewrite A by notin; look). assert (E6 : lookup e5 6 = VInt (ofN p)) by (rewrite A by notin; look).
    seq. eapply wp_set; [ev|].
    eapply (wp_store4 _ _ _ _ (ixb L) (k2 + p)); [ev|eapply pe_eq; [eapply pe_bin; [eapply pe_num; [ev|exact (proj1 (proj2 (proj1 (proj2 (proj2 (proj2 C5))))))|lia]|ev]|]|exact (proj1 (ctx4_in _ _ _ _ _ _ C5))|].
    { simp. rewrite wrap_u32 by lia. f_equal. lia. }
    intros m6 F6 K6. assert (C6 := ctx4_index _ _ _ _ _ _ _ _ C5 F6 K6). apply wp_skip. split; [reflexivity|]. exists (N.to_nat (n - (i + p))). split; [lia|].
    exists (i + p)%N, s2, (k2 + p)%N. split; [reflexivity|]. split; [lia|]. split; [lia|]. split; [exact PL5|]. split; [eapply KH; [exact HO5|exact F6|intros b o; apply foot_ix]|].
    split; [exact C6|]. split; [eapply frame_comp; [eapply frame_comp; [exact F3|exact F5|intros b o _ _; apply W3; lia]|exact F6|intros b o _ _; apply W2]|]. split; [|hasz].
    intros _. eapply CK; [|exact F6|intros b o; apply foot_ix]. eapply cells_ext; [exact CE5|]. intros j _. cbv beta. f_equal. lia.
Qed.
