(** The translated reconstruction of a vector commitment: the leaves. *)
From Coq Require Import ZArith NArith List Bool FMapPositive Lia ZifyBool ZifyNat ZifyN.
From Verif Require Import Model.Base Proof.BaseProof Spec.VcSpec Spec.KeccakSpec.
From Verif Require Proof.VcProof.
From Verif Require Import Model.CtLang Model.CtNames Model.CtVole Model.CtProgram Proof.RefLogic Proof.RefTac Proof.RefMem Proof.RefKeys Proof.RefSnp Proof.RefKeccak Proof.RefSponge Proof.RefSponge4 Proof.RefHash Proof.RefHash4 Proof.RefFresh Proof.RefTree Proof.RefTree2 Proof.RefLeaf Proof.RefVc Proof.RefOpen Proof.RefRec.
Import ListNotations.
Local Open Scope Z_scope.
Arguments wrap : simpl never.

Section Rec.
Variables (lam : N) (iv cop : bytes) (d x : N).
Variables (V : vloc) (kb cb sb ib jb : positive) (io jo : Z).
Notation lb := (ofN (lam / 8)).
Notation n := (ofN (2 ^ d)).
Notation rinputs := (rinputs lam iv cop d x).
Notation known := (known lam iv cop d x kb).
Definition rleaf (j : N) : bytes := rnode lam iv cop d x d j.
Definition rseed (j : N) : bytes := lseed lam (rleaf j) iv.
Definition rcom (j : N) : bytes := lcom lam (rleaf j) iv.
Definition rleaves (m : mem) (i : Z) : Prop := forall j, ofN j < i -> j <> x -> holds m sb (ofN j * lb) (rseed j) /\ holds m cb (ofN j * (lb * 2)) (rcom j).
Definition rstage (m : mem) : Prop :=
  (vto m V 1 (VPtr kb 0) /\ vto m V 2 (VPtr cb 0) /\ vto m V 3 (VPtr sb 0)) /\ (holds m ib io iv /\ holds m 8 0 [0%N] /\ kconst m) /\ known m (d + 1) /\ (inb m sb 0 (n * lb) /\ inb m cb 0 (n * (lb * 2))).
Definition raway (b : positive) : Prop := (b <> vv V /\ b <> vp V 1 /\ b <> vp V 2 /\ b <> vp V 3) /\ (b <> ib /\ b <> 8%positive /\ b <> 1%positive /\ b <> kb).
Lemma rstage_kept m m' S : rstage m -> frame m m' S -> (forall b o, S b o -> raway b) -> rstage m'.
Proof using.
  intros ((A1 & A2 & A3) & (C1 & C2 & C3) & D & (E1 & E2)) F X. split; [|split; [|split]].
  - splits; (eapply vto_kept; [eassumption|exact F|..]; intros q Y; destruct (X _ _ Y) as ((Z1 & Z2 & Z3 & Z4) & _); congruence).
  - splits; (eapply off_set; [eassumption|exact F|]; intros q Y; destruct (X _ _ Y) as (_ & (Z1 & Z2 & Z3 & Z4)); congruence).
  - intros l p Hl Hp. eapply off_set; [apply D; assumption|exact F|]. intros q Y. destruct (X _ _ Y) as (_ & (Z1 & Z2 & Z3 & Z4)). congruence.
  - split; (eapply inb_frame; [exact F|assumption]).
Qed.
Lemma rstage_leaf m j : rstage m -> rinputs -> (j < 2 ^ d)%N -> j <> x -> holds m kb ((n - 1 + ofN j) * lb) (rleaf j).
Proof using.
  intros (_ & _ & D & _) (HL & HD & _) Hj NE. destruct (count_b d HD) as [C1 C2]. assert (X := D d j ltac:(lia) Hj). unfold rslot in X. rewrite VcProof.ancestor_top in X. replace (j =? x)%N with false in X by lia.
  replace (ofN (bfs d j)) with (n - 1 + ofN j) in X by (unfold bfs; lia). exact X.
Qed.
Lemma rleaf_ok j : rinputs -> (j < 2 ^ d)%N -> j <> x -> lenN (rleaf j) = (lam / 8)%N /\ bytes_ok (rleaf j).
Proof using. intros RI Hj NE. apply (rnode_ok lam iv cop d x d j RI); [lia|exact Hj|rewrite VcProof.ancestor_top; exact NE]. Qed.
Lemma rleaves_step m m' i o1 n1 o2 n2 : sb <> cb -> rleaves m i -> frame m m' (two sb o1 n1 cb o2 n2) -> i * lb <= o1 -> i * (lb * 2) <= o2 -> rleaves m' i.
Proof using.
  intros SC L F H1 H2 j Hj NE. destruct (L j Hj NE) as [A B]. destruct (out_ok lam iv (rleaf j)) as (L1 & L2 & _). assert (0 <= lb) by lia.
  assert ((ofN j + 1) * lb <= i * lb) by (apply Z.mul_le_mono_nonneg_r; lia).
  split; (eapply holds_frame; [eassumption|exact F|]); unfold rseed, rcom; rewrite ?L1, ?L2; intros q Hq [[E X]|[E X]]; try congruence; lia.
Qed.

Definition lvars (e : env) (i : Z) : Prop :=
  has e [(1%positive, VPtr ib io); (3%positive, VPtr jb jo); (5%positive, VInt (ofN lam)); (6%positive, VInt (ofN d)); (7%positive, VPtr (vv V) (vx V)); (8%positive, VInt lb); (9%positive, VInt n); (11%positive, VInt (ofN x)); (22%positive, VInt i)].
Lemma lvars_agree l e e' i : lvars e i -> agree l e e' -> (forall v, In v l -> (22 < v)%positive) -> lvars e' i.
Proof using. unfold lvars. intros H A X. unhas. cbn [has]. splits; try exact Logic.I; (rewrite A; [assumption|intros I; apply X in I; lia]). Qed.
Lemma lvars_add e i v w : lvars e i -> (22 < v)%positive -> lvars (PositiveMap.add v w e) i.
Proof using. intros H X. eapply (lvars_agree [v]); [exact H| |intros u [<-|[]]; exact X]. intros u I. apply lookup_ne. intros ->. apply I. left. reflexivity. Qed.
Definition rnode_e (k : expr) : expr := EAt (ELoadP (EField (EVar 7) 4 1)) 1 (EBin OMul u64 k (EVar 8)).
Definition rseed_e (i : expr) : expr := EAt (ELoadP (EField (EVar 7) 4 3)) 1 (EBin OMul u32 i (EVar 8)).
Definition rcom_e (i : expr) : expr := EAt (ELoadP (EField (EVar 7) 4 2)) 1 (EBin OMul u32 (EBin OMul u32 i (EVar 8)) (EInt 2)).
Lemma pe_rnode e m i k j : rinputs -> lvars e i -> rstage m -> 0 <= j < 2 * n -> pe e m k (VInt j) -> pe e m (rnode_e k) (VPtr kb (j * lb)).
Proof using.
  intros (HL & HD & _) H ((D & _ & _) & _) Hj E. destruct (lamb_b lam HL) as [B1 B2]. destruct (count_b d HD) as [C1 C2]. unfold lvars in H. unhas. apply pe_at0; [eapply pe_vto; eassumption|].
  eapply pe_eq; [eapply pe_bin; [exact E|ev]|]. simp. rewrite wrap_u64 by nia. reflexivity.
Qed.
Lemma pe_rseed e m i k j : rinputs -> lvars e i -> rstage m -> 0 <= j <= n -> pe e m k (VInt j) -> pe e m (rseed_e k) (VPtr sb (j * lb)).
Proof using.
  intros (HL & HD & _) H ((_ & _ & D) & _) Hj E. destruct (lamb_b lam HL) as [B1 B2]. destruct (count_b d HD) as [C1 C2]. unfold lvars in H. unhas. apply pe_at0; [eapply pe_vto; eassumption|].
  eapply pe_eq; [eapply pe_bin; [exact E|ev]|]. simp. rewrite wrap_u32 by nia. reflexivity.
Qed.
Lemma pe_rcom e m i k j : rinputs -> lvars e i -> rstage m -> 0 <= j <= n -> pe e m k (VInt j) -> pe e m (rcom_e k) (VPtr cb (j * (lb * 2))).
Proof using.
  intros (HL & HD & _) H ((_ & D & _) & _) Hj E. destruct (lamb_b lam HL) as [B1 B2]. destruct (count_b d HD) as [C1 C2]. unfold lvars in H. unhas. apply pe_at0; [eapply pe_vto; eassumption|].
  eapply pe_eq; [eapply pe_bin; [eapply pe_bin; [exact E|ev]|ev]|]. simp. rewrite (wrap_u32 (j * lb)) by nia. rewrite wrap_u32 by nia. f_equal. lia.
Qed.
Definition lapart : Prop := raway sb /\ raway cb /\ sb <> cb /\ kb <> 1%positive /\ ib <> 1%positive.
Lemma two_raway o1 n1 o2 n2 : lapart -> forall b o, two sb o1 n1 cb o2 n2 b o -> raway b.
Proof using. intros (A & B & _) b o [[-> _]|[-> _]]; assumption. Qed.

(** one leaf *)
Definition code_rleaf1 (a b c g h i j k y : positive) : stmt := code_context a b c g h i j k 200 (SCall None f_H0_init [EVar a; EVar 5] ;;
  SCall (Some y) f_getNodeIndex [EVar 6; EVar 22] ;; code_tail1 a (rnode_e (EVar y)) 8 1 (rseed_e (EVar 22)) (rcom_e (EVar 22))).
Lemma wp_rleaf1 a1 a2 a3 a4 a5 a6 a7 a8 y e m i (Q : outcome -> env -> mem -> Prop) : NoDup [a1; a2; a3; a4; a5; a6; a7; a8] -> (forall v, In v [a1; a2; a3; a4; a5; a6; a7; a8] -> (22 < v)%positive) -> (22 < y)%positive -> y <> a1 ->
  rinputs -> lvars e i -> rstage m -> lapart -> rleaves m i -> 0 <= i < n -> i <> ofN x ->
  (forall e' m', lvars e' i -> rstage m' -> frame m m' (two sb (i * lb) lb cb (i * (lb * 2)) (lb * 2)) -> rleaves m' (i + 1) -> Q ONormal e' m') ->
  wp code (code_rleaf1 a1 a2 a3 a4 a5 a6 a7 a8 y) e m Q.
Proof using.
  intros VN VB YB YN IN VA ST AP LV Hi NX K. assert (X := IN). destruct X as (HL & HD & HX & LC & BC & LI & BI). destruct (lamb_b lam HL) as [B1 B2]. destruct (count_b d HD) as [C1 C2]. assert (X := ST). destruct X as (_ & (HI & H8 & KC) & _ & (IS & IC)).
  assert (X := AP). destruct X as ((_ & (_ & _ & S1 & _)) & (_ & (_ & _ & S2 & _)) & SC & KB & IB).
  unfold code_rleaf1. apply (wp_started f_H0_init) with (lam := lam); [exact code_H0_init|exact VN|intros I; apply VB in I; lia|exact KC|unfold lvars in VA; unhas; assumption|lia|].
  intros m1 L e1 F1 NW ND A EA EO. assert (VA0 : lvars e1 i) by (eapply lvars_agree; [exact VA|exact EO|exact VB]).
  assert (SK : forall m', frame m m' nothing -> rstage m') by (intros m' F; eapply rstage_kept; [exact ST|exact F|intros b o []]).
  seq. eapply wp_callf with (vs := [VInt (ofN d); VInt i]); [unfold lvars in VA0; unhas; evs|apply ref_getNodeIndex; [lia|rewrite <- pow_z; lia]|]. intros w m1' (-> & ->). cbn [set]. rewrite <- pow_z.
  assert (VA1 := lvars_add e1 i y (VInt (n - 1 + i)) VA0 YB). assert (EY : lookup (PositiveMap.add y (VInt (n - 1 + i)) e1) y = VInt (n - 1 + i)) by apply lookup_eq.
  assert (EA1 : lookup (PositiveMap.add y (VInt (n - 1 + i)) e1) a1 = VPtr (cx L) 0) by (rewrite lookup_ne; [exact EA|congruence]).
  assert (Q1 : (i + 1) * lb <= n * lb) by (apply Z.mul_le_mono_nonneg_r; lia).
  assert (HN := rstage_leaf m (Z.to_N i) ST IN ltac:(lia) ltac:(lia)). rewrite Z2N.id in HN by lia. destruct (rleaf_ok (Z.to_N i) IN ltac:(lia) ltac:(lia)) as [LN BN].
  assert (VA1' := VA1). unfold lvars in VA1'. generalize dependent (PositiveMap.add y (VInt (n - 1 + i)) e1). intros e2 VA1 EY EA1 VA1'. unhas.
  eapply wp_tail1 with (m0 := m) (node := rleaf (Z.to_N i)) (so := i * lb) (co := i * (lb * 2)); [exact HL|exact F1|exact NW|exact ND|exact A|exact EA1|eassumption|eassumption| | | |exact HN|exact LN|exact BN|exact HI|exact LI|exact BI|exact H8|eapply inb_sub; [exact IS|nia|lia|lia]|eapply inb_sub; [exact IC|nia|lia|lia]|exact SC|exact KB|exact IB|exact S1|exact S2|].
  - intros m' F. eapply pe_rnode; [exact IN|exact VA1|apply SK, F| |apply pe_var, EY]. lia.
  - intros m' F. eapply pe_rseed; [exact IN|exact VA1|apply SK, F|lia|ev].
  - intros m' F. eapply pe_rcom; [exact IN|exact VA1|apply SK, F|lia|ev].
  - intros m2 F2 G1 G2. apply K; [exact VA1|eapply rstage_kept; [exact ST|exact F2|apply two_raway; exact AP]|exact F2|].
    intros j Hj NE'. destruct (Z.eqb_spec (ofN j) i) as [<-|NE]; [|].
    + rewrite N2Z.id in G1, G2. split; assumption.
    + exact (rleaves_step _ _ _ _ _ _ _ SC LV F2 ltac:(lia) ltac:(lia) j ltac:(lia) NE').
Qed.
(** four leaves *)
Notation ix k := (EBin OAdd u32 (EVar 22) (EInt k)).
Definition code_rleaf4 (a b c g h i j k y0 y1 y2 y3 : positive) : stmt := code_context a b c g h i j k 800 (SCall None f_H0_x4_init [EVar a; EVar 5] ;;
  SCall (Some y0) f_getNodeIndex [EVar 6; EVar 22] ;; SCall (Some y1) f_getNodeIndex [EVar 6; ix 1] ;; SCall (Some y2) f_getNodeIndex [EVar 6; ix 2] ;; SCall (Some y3) f_getNodeIndex [EVar 6; ix 3] ;;
  code_tail4 a (rnode_e (EVar y0)) (rnode_e (EVar y1)) (rnode_e (EVar y2)) (rnode_e (EVar y3)) 8 1
    (rseed_e (EVar 22)) (rseed_e (ix 1)) (rseed_e (ix 2)) (rseed_e (ix 3)) (rcom_e (EVar 22)) (rcom_e (ix 1)) (rcom_e (ix 2)) (rcom_e (ix 3))).
Lemma wp_rleaf4 a1 a2 a3 a4 a5 a6 a7 a8 y0 y1 y2 y3 e m i (Q : outcome -> env -> mem -> Prop) : NoDup [a1; a2; a3; a4; a5; a6; a7; a8] -> (forall v, In v [a1; a2; a3; a4; a5; a6; a7; a8] -> (22 < v)%positive) -> (forall v, In v [y0; y1; y2; y3] -> (22 < v)%positive /\ v <> a1) -> NoDup [y0; y1; y2; y3] ->
  rinputs -> lvars e i -> rstage m -> lapart -> rleaves m i -> 0 <= i -> i + 4 <= n -> ~ (i <= ofN x < i + 4) ->
  (forall e' m', lvars e' i -> rstage m' -> frame m m' (two sb (i * lb) (lb * 4) cb (i * (lb * 2)) (lb * 8)) -> rleaves m' (i + 4) -> Q ONormal e' m') ->
  wp code (code_rleaf4 a1 a2 a3 a4 a5 a6 a7 a8 y0 y1 y2 y3) e m Q.
Proof using.
  intros VN VB YB YN IN VA ST AP LV Hi Hn NX K. assert (X := IN). destruct X as (HL & HD & HX & LC & BC & LI & BI). destruct (lamb_b lam HL) as [B1 B2]. destruct (count_b d HD) as [C1 C2]. assert (X := ST). destruct X as (_ & (HI & H8 & KC) & _ & (IS & IC)).
  assert (U0 := proj1 (YB y0 ltac:(cbn; auto))). assert (U1 := proj1 (YB y1 ltac:(cbn; auto))). assert (U2 := proj1 (YB y2 ltac:(cbn; auto))). assert (U3 := proj1 (YB y3 ltac:(cbn; auto 6))).
  unfold code_rleaf4. apply wp_started4 with (lam := lam); [exact VN|intros I; apply VB in I; lia|exact KC|unfold lvars in VA; unhas; assumption|lia|].
  intros m1 L e1 F1 NW ND A EA EO. assert (VA0 : lvars e1 i) by (eapply lvars_agree; [exact VA|exact EO|exact VB]).
  assert (SK : forall m', frame m m' nothing -> rstage m') by (intros m' F; eapply rstage_kept; [exact ST|exact F|intros b o []]).
  assert (PW : n = 2 ^ ofN d) by apply pow_z.
  assert (PI : forall e' k, lvars e' i -> 0 <= k -> i + k <= n -> pes e' m1 [EVar 6; ix k] [VInt (ofN d); VInt (i + k)]).
  { intros e' k W Hk Hk'. unfold lvars in W. unhas. eapply pes_cons; [ev|eapply pes_cons; [eapply pe_eq; [ev|simp; rewrite wrap_u32 by lia; reflexivity]|apply pes_nil]]. }
  seq. eapply wp_callf with (vs := [VInt (ofN d); VInt i]); [unfold lvars in VA0; unhas; evs|apply ref_getNodeIndex; lia|]. intros w m1' (-> & ->). cbn [set]. rewrite <- PW.
  assert (VA1 := lvars_add e1 i y0 (VInt (n - 1 + i)) VA0 U0).
  seq. eapply wp_callf with (vs := [VInt (ofN d); VInt (i + 1)]); [eapply PI; [exact VA1|lia|lia]|apply ref_getNodeIndex; lia|]. intros w m1' (-> & ->). cbn [set]. rewrite <- PW.
  assert (VA2 := lvars_add _ i y1 (VInt (n - 1 + (i + 1))) VA1 U1).
  seq. eapply wp_callf with (vs := [VInt (ofN d); VInt (i + 2)]); [eapply PI; [exact VA2|lia|lia]|apply ref_getNodeIndex; lia|]. intros w m1' (-> & ->). cbn [set]. rewrite <- PW.
  assert (VA3 := lvars_add _ i y2 (VInt (n - 1 + (i + 2))) VA2 U2).
  seq. eapply wp_callf with (vs := [VInt (ofN d); VInt (i + 3)]); [eapply PI; [exact VA3|lia|lia]|apply ref_getNodeIndex; lia|]. intros w m1' (-> & ->). cbn [set]. rewrite <- PW.
  assert (VA4 := lvars_add _ i y3 (VInt (n - 1 + (i + 3))) VA3 U3).
  set (e2 := PositiveMap.add y3 (VInt (n - 1 + (i + 3))) (PositiveMap.add y2 (VInt (n - 1 + (i + 2))) (PositiveMap.add y1 (VInt (n - 1 + (i + 1))) (PositiveMap.add y0 (VInt (n - 1 + i)) e1)))) in *.
  assert (Q1 : (i + 4) * lb <= n * lb) by (apply Z.mul_le_mono_nonneg_r; lia).
  assert (IS4 : inb m sb (i * lb) (lb * 4)) by (clear - IS Q1 Hi B1; eapply inb_sub; [exact IS|nia|lia|lia]). assert (IC4 : inb m cb (i * (lb * 2)) (lb * 8)) by (clear - IC Q1 Hi B1; eapply inb_sub; [exact IC|nia|lia|lia]).
  clear U0 U1 U2 U3.
  assert (NY : y0 <> y1 /\ y0 <> y2 /\ y0 <> y3 /\ y1 <> y2 /\ y1 <> y3 /\ y2 <> y3).
  { assert (W1 := nodup_ne _ 0 1 YN ltac:(cbn; lia)). assert (W2 := nodup_ne _ 0 2 YN ltac:(cbn; lia)). assert (W3 := nodup_ne _ 0 3 YN ltac:(cbn; lia)). assert (W4 := nodup_ne _ 1 2 YN ltac:(cbn; lia)). assert (W5 := nodup_ne _ 1 3 YN ltac:(cbn; lia)). assert (W6 := nodup_ne _ 2 3 YN ltac:(cbn; lia)). cbn [nth] in *. splits; assumption. }
  assert (A0 := proj2 (YB y0 ltac:(cbn; auto))). assert (A1 := proj2 (YB y1 ltac:(cbn; auto))). assert (A2 := proj2 (YB y2 ltac:(cbn; auto))). assert (A3 := proj2 (YB y3 ltac:(cbn; auto 6))).
  destruct NY as (N01 & N02 & N03 & N12 & N13 & N23).
  assert (EY3 : lookup e2 y3 = VInt (n - 1 + (i + 3))) by apply lookup_eq. assert (EY2 : lookup e2 y2 = VInt (n - 1 + (i + 2))) by (unfold e2; rewrite lookup_ne by congruence; apply lookup_eq).
  assert (EY1 : lookup e2 y1 = VInt (n - 1 + (i + 1))) by (unfold e2; rewrite !lookup_ne by congruence; apply lookup_eq). assert (EY0 : lookup e2 y0 = VInt (n - 1 + (i + 0))) by (unfold e2; rewrite !lookup_ne by congruence; rewrite lookup_eq; f_equal; clear; lia).
  assert (EA2 : lookup e2 a1 = VPtr (cx L) 0) by (unfold e2; rewrite !lookup_ne by congruence; exact EA).
  clear N01 N02 N03 N12 N13 N23 A0 A1 A2 A3 YB VB.
  clear VA0 VA1 VA2 VA3. assert (VA4' := VA4). unfold lvars in VA4'. clearbody e2. unhas.
  assert (X := AP). destruct X as ((_ & (_ & _ & S1 & _)) & (_ & (_ & _ & S2 & _)) & SC & KB & IB).
  eapply wp_tail4 with (m0 := m) (node := fun j => rleaf (Z.to_N (i + j))) (nof := fun j => (n - 1 + (i + j)) * lb) (so := i * lb) (co := i * (lb * 2));
    [exact HL|exact F1|exact NW|exact ND|exact A|exact EA2|eassumption|eassumption| | | | |exact HI|exact LI|exact BI|exact H8|exact IS4|exact IC4|exact SC|exact KB|exact IB|exact S1|exact S2|].
  - clear S1 S2 SC KB IB NX. intros m' F. unfold four. splits; (eapply pe_rnode; [exact IN|exact VA4|apply SK, F| |apply pe_var; eassumption]); lia.
  - clear S1 S2 SC KB IB NX. intros m' F. unfold four. splits; (eapply pe_eq; [eapply pe_rseed; [exact IN|exact VA4|apply SK, F| |eapply pe_eq; [ev|simp; unwrap; reflexivity]]|]); try lia; f_equal; lia.
  - clear S1 S2 SC KB IB NX. intros m' F. unfold four. splits; (eapply pe_eq; [eapply pe_rcom; [exact IN|exact VA4|apply SK, F| |eapply pe_eq; [ev|simp; unwrap; reflexivity]]|]); try lia; f_equal; lia.
  - clear S1 S2 SC KB IB. intros j Hj. assert (HN := rstage_leaf m (Z.to_N (i + j)) ST IN ltac:(lia) ltac:(lia)). rewrite Z2N.id in HN by lia. destruct (rleaf_ok (Z.to_N (i + j)) IN ltac:(lia) ltac:(lia)) as [LN BN]. split; [exact HN|split; assumption].
  - intros m2 F2 G. apply K; [exact VA4|eapply rstage_kept; [exact ST|exact F2|apply two_raway; exact AP]|exact F2|].
    intros j Hj NE. destruct (Z.ltb_spec (ofN j) i) as [LT|GE].
    + clear S1 S2 KB IB. refine (rleaves_step _ _ _ _ _ _ _ SC LV F2 _ _ j LT NE); clear - Hi; lia.
    + clear S1 S2 SC KB IB NX NE. destruct (G (ofN j - i) ltac:(lia)) as [G1 G2]. replace (i + (ofN j - i)) with (ofN j) in G1, G2 by lia. rewrite N2Z.id in G1, G2. clear - G1 G2.
      replace (i * lb + (ofN j - i) * lb) with (ofN j * lb) in G1 by lia. replace (i * (lb * 2) + (ofN j - i) * (lb * 2)) with (ofN j * (lb * 2)) in G2 by lia. split; assumption.
Qed.

(** runs of leaves *)
Definition ready (m0 : mem) (i : Z) (e : env) (m : mem) : Prop := lvars e i /\ rstage m /\ frame m0 m (two sb 0 (n * lb) cb 0 (n * (lb * 2))) /\ rleaves m i.
Lemma ready_frame m0 m m' i k : 0 <= i -> 0 <= k -> i + k <= n -> frame m0 m (two sb 0 (n * lb) cb 0 (n * (lb * 2))) -> frame m m' (two sb (i * lb) (lb * k) cb (i * (lb * 2)) (lb * (2 * k))) -> frame m0 m' (two sb 0 (n * lb) cb 0 (n * (lb * 2))).
Proof using.
  intros Hi Hk Hik F F'. eapply frame_comp; [exact F|exact F'|]. assert (W : (i + k) * lb <= n * lb) by (apply Z.mul_le_mono_nonneg_r; lia). assert (W' : 0 <= i * lb) by (apply Z.mul_nonneg_nonneg; lia). clear - W W'.
  intros b o _ _ [[-> Y]|[-> Y]]; [left|right]; (split; [reflexivity|]); lia.
Qed.
Lemma wp_ones c a1 a2 a3 a4 a5 a6 a7 a8 y lo hi e m0 m (Q : outcome -> env -> mem -> Prop) : NoDup [a1; a2; a3; a4; a5; a6; a7; a8] -> (forall v, In v [a1; a2; a3; a4; a5; a6; a7; a8] -> (22 < v)%positive) -> (22 < y)%positive -> y <> a1 ->
  rinputs -> lapart -> 0 <= lo <= hi -> hi <= n -> ~ (lo <= ofN x < hi) -> ready m0 lo e m ->
  (forall i e m, lo <= i <= hi -> lvars e i -> exists v, pe e m c v /\ truth v = (i <? hi)) ->
  (forall e m, ready m0 hi e m -> Q ONormal e m) ->
  wp code (SLoop c (SSet 22 (EBin OAdd u32 (EVar 22) (EInt 1))) (code_rleaf1 a1 a2 a3 a4 a5 a6 a7 a8 y)) e m Q.
Proof using.
  intros VN VB YB YN IN AP Hlo Hhi NX RD C K. destruct (count_b d (proj1 (proj2 IN))) as [C1 C2]. eapply (wp_for _ 22%positive 32 _ (ready m0) _ lo hi); [lia|lia|lia| | |exact RD].
  - intros i e' m' Hi (VA & SS & FF & LV). split; [unfold lvars in VA; unhas; assumption|]. split.
    { destruct (C i e' m' ltac:(lia) VA) as (v & P & T). exists v. split; [exact P|]. rewrite T. lia. }
    eapply wp_rleaf1; try eassumption; [lia|lia|]. intros e'' m'' VA' SS' FF' LV'. split; [unfold lvars in VA'; unhas; assumption|].
    split; [unfold lvars in VA' |- *; clear - VA'; unhas; hass|]. split; [exact SS'|]. split; [|exact LV']. eapply (ready_frame m0 m' m'' i 1); [lia|lia|lia|exact FF|]. replace (lb * 1) with lb by lia. replace (lb * (2 * 1)) with (lb * 2) by lia. exact FF'.
  - intros e' m' RD'. split; [|apply K, RD']. destruct (C hi e' m' ltac:(lia) (proj1 RD')) as (v & P & T). exists v. split; [exact P|]. rewrite T. lia.
Qed.
Lemma wp_fours c a1 a2 a3 a4 a5 a6 a7 a8 y0 y1 y2 y3 lo k e m0 m (Q : outcome -> env -> mem -> Prop) : NoDup [a1; a2; a3; a4; a5; a6; a7; a8] -> (forall v, In v [a1; a2; a3; a4; a5; a6; a7; a8] -> (22 < v)%positive) -> (forall v, In v [y0; y1; y2; y3] -> (22 < v)%positive /\ v <> a1) -> NoDup [y0; y1; y2; y3] ->
  rinputs -> lapart -> 0 <= lo -> 0 <= k -> lo + 4 * k <= n -> ~ (lo <= ofN x < lo + 4 * k) -> ready m0 lo e m ->
  (forall i e m, lo <= i <= lo + 4 * k -> (i - lo) mod 4 = 0 -> lvars e i -> exists v, pe e m c v /\ truth v = (i <? lo + 4 * k)) ->
  (forall e m, ready m0 (lo + 4 * k) e m -> Q ONormal e m) ->
  wp code (SLoop c (SSet 22 (EBin OAdd u32 (EVar 22) (EInt 4))) (code_rleaf4 a1 a2 a3 a4 a5 a6 a7 a8 y0 y1 y2 y3)) e m Q.
Proof using.
  intros VN VB YB YN IN AP Hlo Hk Hhi NX RD C K. destruct (count_b d (proj1 (proj2 IN))) as [C1 C2]. eapply (wp_by4 _ 22%positive _ (fun i e m => (i - lo) mod 4 = 0 /\ ready m0 i e m) _ lo k); [lia|lia|lia| | |split; [rewrite Z.sub_diag; reflexivity|exact RD]].
  - intros i e' m' Hi Hi4 (MD & VA & SS & FF & LV). split; [unfold lvars in VA; unhas; assumption|]. split.
    { destruct (C i e' m' ltac:(lia) MD VA) as (v & P & T). exists v. split; [exact P|]. rewrite T. lia. }
    eapply wp_rleaf4; try eassumption; [lia|lia|lia|]. intros e'' m'' VA' SS' FF' LV'. split; [unfold lvars in VA'; unhas; assumption|].
    split; [clear - MD; lia|]. split; [unfold lvars in VA' |- *; clear - VA'; unhas; hass|]. split; [exact SS'|]. split; [|exact LV']. eapply (ready_frame m0 m' m'' i 4); [lia|lia|lia|exact FF|exact FF'].
  - intros e' m' (MD & RD'). split; [|apply K, RD']. destruct (C (lo + 4 * k) e' m' ltac:(lia) MD (proj1 RD')) as (v & P & T). exists v. split; [exact P|]. rewrite T. lia.
Qed.
End Rec.
