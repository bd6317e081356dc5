(** The translated vector commitment functions. *)
From Coq Require Import ZArith NArith List Bool FMapPositive Lia ZifyBool ZifyNat ZifyN.
From Verif Require Import Model.Base Proof.BaseProof Spec.VcSpec Spec.KeccakSpec.
From Verif Require Proof.VcProof.
From Verif Require Import Model.CtLang Model.CtNames Model.CtVole Model.CtProgram Proof.RefLogic Proof.RefTac Proof.RefMem Proof.RefKeys Proof.RefSnp Proof.RefKeccak Proof.RefSponge Proof.RefSponge4 Proof.RefHash Proof.RefHash4 Proof.RefFresh Proof.RefTree Proof.RefTree2 Proof.RefLeaf.
From Verif Require Proof.ShakeRun.
Import ListNotations.
Local Open Scope Z_scope.
Arguments wrap : simpl never.

Lemma code_vector_commitment : PositiveMap.find f_vector_commitment code = Some c_vector_commitment. Proof. vm_compute. reflexivity. Qed.
Lemma code_vector_open : PositiveMap.find f_vector_open code = Some c_vector_open. Proof. vm_compute. reflexivity. Qed.
Lemma code_vector_reconstruction : PositiveMap.find f_vector_reconstruction code = Some c_vector_reconstruction. Proof. vm_compute. reflexivity. Qed.

Ltac unwrap := repeat match goal with
  | |- context [wrap u64 ?z] => lazymatch z with context [wrap _ _] => fail | _ => rewrite (wrap_u64 z) by (lia || nia) end
  | |- context [wrap u32 ?z] => lazymatch z with context [wrap _ _] => fail | _ => rewrite (wrap_u32 z) by (lia || nia) end
  end.

(** a loop that advances by four *)
Lemma wp_by4 c x body (J : Z -> env -> mem -> Prop) (Q : outcome -> env -> mem -> Prop) lo k e m : 0 <= lo -> 0 <= k -> lo + 4 * k < 4294967296 ->
  (forall i e m, lo <= i -> i + 4 <= lo + 4 * k -> J i e m -> lookup e x = VInt i /\ (exists v, pe e m c v /\ truth v = true) /\
     wp code body e m (fun o e m => match o with
       | ONormal | OContinue => lookup e x = VInt i /\ J (i + 4) (PositiveMap.add x (VInt (i + 4)) e) m
       | OBreak => Q ONormal e m
       | OReturn _ => Q o e m end)) ->
  (forall e m, J (lo + 4 * k) e m -> (exists v, pe e m c v /\ truth v = false) /\ Q ONormal e m) ->
  J lo e m -> wp code (SLoop c (SSet x (EBin OAdd u32 (EVar x) (EInt 4))) body) e m Q.
Proof.
  intros L K B Hs H0 HJ.
  apply (wp_loop code c _ body (fun n e m => exists i, Z.of_nat n * 4 = lo + 4 * k - i /\ lo <= i /\ J i e m) Q) with (n := Z.to_nat k).
  - intros n e0 m0 (i & En & Li & Ki). destruct (Hs i e0 m0 ltac:(lia) ltac:(lia) Ki) as (Ex & Ec & Wb). split; [exact Ec|].
    eapply wp_weak; [exact Wb|]. intros o e1 m1 R. destruct o; auto.
    + destruct R as [R1 R2]. eapply wp_set; [eapply pe_bin; [apply pe_var; exact R1|apply pe_int]|]. split; [reflexivity|].
      exists (i + 4). split; [lia|]. split; [lia|]. cbn [bin]. rewrite wrap_u32 by lia. exact R2.
    + destruct R as [R1 R2]. eapply wp_set; [eapply pe_bin; [apply pe_var; exact R1|apply pe_int]|]. split; [reflexivity|].
      exists (i + 4). split; [lia|]. split; [lia|]. cbn [bin]. rewrite wrap_u32 by lia. exact R2.
  - intros e0 m0 (i & En & Li & Ki). apply H0. replace (lo + 4 * k) with i by lia. exact Ki.
  - exists lo. split; [lia|]. split; [lia|exact HJ].
Qed.

(** ** Structures of four members *)
Record vloc := VLoc { vv : positive; vx : Z; vp : Z -> positive }.
Definition member (m : mem) (V : vloc) (f : Z) : Prop := ptr m (vv V) (vx V * 4 + f) (vp V f) /\ inb m (vp V f) 0 1.
Definition vto (m : mem) (V : vloc) (f : Z) (v : value) : Prop := ptr m (vv V) (vx V * 4 + f) (vp V f) /\ to m (vp V f) 0 v.
Lemma pe_member e m x V f : lookup e x = VPtr (vv V) (vx V) -> ptr m (vv V) (vx V * 4 + f) (vp V f) -> pe e m (EField (EVar x) 4 f) (VPtr (vp V f) 0).
Proof. intros E [I C]. rewrite <- C. apply pe_field; [apply pe_var, E|exact I]. Qed.
Lemma pe_vto e m x V f v : lookup e x = VPtr (vv V) (vx V) -> vto m V f v -> pe e m (ELoadP (EField (EVar x) 4 f)) v.
Proof. intros E [P T]. eapply pe_to; [apply pe_member; eassumption|exact T]. Qed.
Lemma vto_kept m m' S V f v : vto m V f v -> frame m m' S -> (forall q, ~ S (vv V) q) -> (forall q, ~ S (vp V f) q) -> vto m' V f v.
Proof. intros [P T] F A B. split; [eapply ptr_at; [exact P|exact F|apply A]|eapply to_at; [exact T|exact F|apply B]]. Qed.
Lemma member_kept m m' S V f : member m V f -> frame m m' S -> (forall q, ~ S (vv V) q) -> member m' V f.
Proof. intros [P T] F A. split; [eapply ptr_at; [exact P|exact F|apply A]|eapply inb_frame; [exact F|exact T]]. Qed.
Lemma vto_member m V f v : vto m V f v -> member m V f.
Proof. intros [P [I _]]. split; assumption. Qed.

Lemma bytes_ok_part k (l : bytes) : bytes_ok l -> bytes_ok (takeN k l) /\ bytes_ok (dropN k l).
Proof. unfold bytes_ok, takeN, dropN. intros H. rewrite <- (firstn_skipn (N.to_nat k) l) in H. apply Forall_app in H. exact H. Qed.
Lemma out_ok lam iv node : lenN (lseed lam node iv) = (lam / 8)%N /\ lenN (lcom lam node iv) = (lam / 8 * 2)%N /\ bytes_ok (lseed lam node iv) /\ bytes_ok (lcom lam node iv).
Proof.
  unfold leaf_seed, leaf_com, H0. destruct (ShakeRun.shake_sized (shake_of lam) (node ++ iv ++ [0%N]) (lam / 8 * 3)%N) as [L B]. destruct (bytes_ok_part (lam / 8) _ B) as [B1 B2].
  assert (L' : lenN (shake (shake_of lam) (node ++ iv ++ [0%N]) (lam / 8 * 3)) = (lam / 8 * 3)%N) by (unfold lenN; lia).
  splits; [change (lenN (takeN (lam / 8) (shake (shake_of lam) (node ++ iv ++ [0%N]) (lam / 8 * 3))) = (lam / 8)%N); rewrite lenN_takeN; lia|change (lenN (dropN (lam / 8) (shake (shake_of lam) (node ++ iv ++ [0%N]) (lam / 8 * 3))) = (lam / 8 * 2)%N); rewrite lenN_dropN; lia|exact B1|exact B2].
Qed.

Section Vc.
Variables (lam : N) (root iv : bytes) (d : N).
Notation lb := (ofN (lam / 8)).
Notation n := (ofN (2 ^ d)).
Definition leaf (j : N) : bytes := ggm lam iv root (N.to_nat d) j.
Definition seedof (j : N) : bytes := lseed lam (leaf j) iv.
Definition comof (j : N) : bytes := lcom lam (leaf j) iv.
(* what is known of the level, the root and the iv *)
Definition inputs : Prop := lamb lam /\ (1 <= d <= 24)%N /\ lenN root = (lam / 8)%N /\ bytes_ok root /\ lenN iv = 16%N /\ bytes_ok iv.
Lemma leaf_ok : inputs -> forall j, lenN (leaf j) = (lam / 8)%N /\ bytes_ok (leaf j).
Proof using. intros (HL & HD & LR & BR & LI & BI) j. apply VcProof.ggm_ok; try assumption. split; assumption. Qed.

Definition leaves (m : mem) (sb cb : positive) (i : Z) : Prop := forall j, ofN j < i -> holds m sb (ofN j * lb) (seedof j) /\ holds m cb (ofN j * (lb * 2)) (comof j).
Definition stage (m : mem) (V : vloc) (T : tloc) (kb cb sb ib : positive) (io : Z) : Prop :=
  filled m T (VPtr kb 0) (count d) (2 ^ d) /\ (vto m V 2 (VPtr cb 0) /\ vto m V 3 (VPtr sb 0)) /\ (holds m ib io iv /\ holds m 8 0 [0%N] /\ kconst m) /\ nodes lam root iv m kb (ofN (count d)) /\
  (inb m sb 0 (n * lb) /\ inb m cb 0 (n * (lb * 2))).
Definition away (V : vloc) (T : tloc) (kb ib b : positive) : Prop := ~ In b (tblocks T) /\ (b <> vv V /\ b <> vp V 2 /\ b <> vp V 3) /\ (b <> ib /\ b <> 8%positive /\ b <> 1%positive /\ b <> kb).
Lemma stage_kept m m' S V T kb cb sb ib io : stage m V T kb cb sb ib io -> frame m m' S -> (forall b o, S b o -> away V T kb ib b) -> stage m' V T kb cb sb ib io.
Proof using.
  intros (A & (B1 & B2) & (C1 & C2 & C3) & D & (E1 & E2)) F X. split; [|split; [|split; [|split]]].
  - eapply filled_kept; [exact A|exact F|]. intros b q I Y. destruct (X _ _ Y) as (Z & _). contradiction.
  - split; (eapply vto_kept; [eassumption|exact F|..]; intros q Y; destruct (X _ _ Y) as (_ & (Z1 & Z2 & Z3) & _); congruence).
  - splits; (eapply off_set; [eassumption|exact F|]; intros q Y; destruct (X _ _ Y) as (_ & _ & (Z1 & Z2 & Z3 & Z4)); congruence).
  - intros i Hi. eapply off_set; [apply D, Hi|exact F|]. intros q Y. destruct (X _ _ Y) as (_ & _ & (Z1 & Z2 & Z3 & Z4)). congruence.
  - split; (eapply inb_frame; [exact F|assumption]).
Qed.
Lemma stage_leaf m V T kb cb sb ib io j : stage m V T kb cb sb ib io -> inputs -> (j < 2 ^ d)%N -> holds m kb ((n - 1 + ofN j) * lb) (leaf j).
Proof using.
  intros (_ & _ & _ & D & _) (HL & HD & LR & BR & LI & BI) Hj. destruct (count_b d HD) as [C1 C2]. unfold leaf. rewrite <- VcProof.ggm_flat_bfs by assumption.
  assert (X := D (bfs d j)). replace (ofN (bfs d j)) with (n - 1 + ofN j) in X by (unfold bfs; lia). apply X. lia.
Qed.
Lemma leaves_step m m' sb cb i o1 n1 o2 n2 : sb <> cb -> leaves m sb cb i -> frame m m' (two sb o1 n1 cb o2 n2) -> i * lb <= o1 -> i * (lb * 2) <= o2 -> leaves m' sb cb i.
Proof using.
  intros SC L F H1 H2 j Hj. destruct (L j Hj) as [A B]. destruct (out_ok lam iv (leaf j)) as (L1 & L2 & _). assert (0 <= lb) by lia.
  assert ((ofN j + 1) * lb <= i * lb) by (apply Z.mul_le_mono_nonneg_r; lia).
  split; (eapply holds_frame; [eassumption|exact F|]); unfold seedof, comof; rewrite ?L1, ?L2; intros q Hq [[E X]|[E X]]; try congruence; lia.
Qed.

(** the leaves of [vector_commitment] *)
Definition node_e (k : expr) : expr := EAt (ELoadP (EField (EVar 9) 3 0)) 1 (EBin OMul u64 k (EVar 7)).
Definition seed_e (i : expr) : expr := EAt (ELoadP (EField (EVar 5) 4 3)) 1 (EBin OMul u32 i (EVar 7)).
Definition com_e (i : expr) : expr := EAt (ELoadP (EField (EVar 5) 4 2)) 1 (EBin OMul u32 (EBin OMul u32 i (EVar 7)) (EInt 2)).
Definition com_e1 (i : expr) : expr := EAt (ELoadP (EField (EVar 5) 4 2)) 1 (EBin OMul u32 i (EBin OMul u32 (EVar 7) (EInt 2))).
Notation nx0 := (EBin OAdd u64 (EVar 16) (EVar 17)).
Notation ix k := (EBin OAdd u32 (EVar 17) (EInt k)).
Definition code_leaf4 : stmt := code_context 18 19 20 21 22 23 24 25 800 (SCall None f_H0_x4_init [(EVar 18); (EVar 4)] ;;
  code_tail4 18 (node_e nx0) (node_e (EBin OAdd u64 nx0 (EInt 1))) (node_e (EBin OAdd u64 nx0 (EInt 2))) (node_e (EBin OAdd u64 nx0 (EInt 3))) 7 2
    (seed_e (EVar 17)) (seed_e (ix 1)) (seed_e (ix 2)) (seed_e (ix 3)) (com_e (EVar 17)) (com_e (ix 1)) (com_e (ix 2)) (com_e (ix 3))).
Definition code_leaf1 : stmt := code_context 26 27 28 29 30 31 32 33 200 (SCall None f_H0_init [(EVar 26); (EVar 4)] ;; code_tail1 26 (node_e nx0) 7 2 (seed_e (EVar 17)) (com_e1 (EVar 17))).
Definition vars (e : env) (V : vloc) (T : tloc) (ib : positive) (io i : Z) : Prop :=
  has e [(2%positive, VPtr ib io); (4%positive, VInt (ofN lam)); (5%positive, VPtr (vv V) (vx V)); (7%positive, VInt lb); (8%positive, VInt n); (9%positive, VPtr (tr T) 0); (16%positive, VInt (n - 1)); (17%positive, VInt i)].
Lemma vars_agree l e e' V T ib io i : vars e V T ib io i -> agree l e e' -> (forall x, In x [2; 4; 5; 7; 8; 9; 16; 17]%positive -> ~ In x l) -> vars e' V T ib io i.
Proof using. unfold vars. intros H A X. unhas. cbn [has]. splits; try exact Logic.I; (rewrite A; [assumption|apply X; cbn; tauto]). Qed.
Lemma pe_at0 e m p k b v : pe e m p (VPtr b 0) -> pe e m k (VInt v) -> pe e m (EAt p 1 k) (VPtr b v).
Proof using. intros A B. eapply pe_eq; [eapply pe_at; eassumption|]. f_equal. lia. Qed.
Lemma pe_node e m V T kb cb sb ib io i k j : inputs -> vars e V T ib io i -> stage m V T kb cb sb ib io -> 0 <= j < 2 * n -> pe e m k (VInt j) -> pe e m (node_e k) (VPtr kb (j * lb)).
Proof using.
  intros (HL & HD & _) H (((_ & (P & _) & _) & D & _) & _) Hj E. destruct (lamb_b lam HL) as [B1 B2]. destruct (count_b d HD) as [C1 C2]. unfold vars in H. unhas. apply pe_at0; [eapply pe_to; [eapply pe_ptr; eassumption|exact D]|].
  eapply pe_eq; [eapply pe_bin; [exact E|ev]|]. simp. rewrite wrap_u64 by nia. reflexivity.
Qed.
Lemma pe_seed e m V T kb cb sb ib io i k j : inputs -> vars e V T ib io i -> stage m V T kb cb sb ib io -> 0 <= j <= n -> pe e m k (VInt j) -> pe e m (seed_e k) (VPtr sb (j * lb)).
Proof using.
  intros (HL & HD & _) H (_ & (_ & D) & _) Hj E. destruct (lamb_b lam HL) as [B1 B2]. destruct (count_b d HD) as [C1 C2]. unfold vars in H. unhas. apply pe_at0; [eapply pe_vto; eassumption|].
  eapply pe_eq; [eapply pe_bin; [exact E|ev]|]. simp. rewrite wrap_u32 by nia. reflexivity.
Qed.
Lemma pe_com e m V T kb cb sb ib io i k j : inputs -> vars e V T ib io i -> stage m V T kb cb sb ib io -> 0 <= j <= n -> pe e m k (VInt j) -> pe e m (com_e k) (VPtr cb (j * (lb * 2))) /\ pe e m (com_e1 k) (VPtr cb (j * (lb * 2))).
Proof using.
  intros (HL & HD & _) H (_ & (D & _) & _) Hj E. destruct (lamb_b lam HL) as [B1 B2]. destruct (count_b d HD) as [C1 C2]. unfold vars in H. unhas. split; (apply pe_at0; [eapply pe_vto; eassumption|]).
  - eapply pe_eq; [eapply pe_bin; [eapply pe_bin; [exact E|ev]|ev]|]. simp. rewrite (wrap_u32 (j * lb)) by nia. rewrite wrap_u32 by nia. f_equal. lia.
  - eapply pe_eq; [eapply pe_bin; [exact E|ev]|]. simp. rewrite (wrap_u32 (lb * 2)) by nia. rewrite wrap_u32 by nia. reflexivity.
Qed.
Definition apart (V : vloc) (T : tloc) (kb cb sb ib : positive) : Prop := away V T kb ib sb /\ away V T kb ib cb /\ sb <> cb /\ kb <> 1%positive /\ ib <> 1%positive.
Lemma two_away V T kb cb sb ib o1 n1 o2 n2 : apart V T kb cb sb ib -> forall b o, two sb o1 n1 cb o2 n2 b o -> away V T kb ib b.
Proof using. intros (A & B & _) b o [[-> _]|[-> _]]; assumption. Qed.
Lemma wp_leaf1 e m V T kb cb sb ib io i (Q : outcome -> env -> mem -> Prop) : inputs -> vars e V T ib io i -> stage m V T kb cb sb ib io -> apart V T kb cb sb ib -> leaves m sb cb i -> 0 <= i < n ->
  (forall e' m', lookup e' 17 = VInt i -> vars e' V T ib io i -> stage m' V T kb cb sb ib io -> frame m m' (two sb (i * lb) lb cb (i * (lb * 2)) (lb * 2)) -> leaves m' sb cb (i + 1) -> Q ONormal e' m') ->
  wp code code_leaf1 e m Q.
Proof using.
  intros IN VA ST AP LV Hi K. assert (X := IN). destruct X as (HL & HD & LR & BR & LI & BI). destruct (lamb_b lam HL) as [B1 B2]. destruct (count_b d HD) as [C1 C2]. assert (X := ST). destruct X as (_ & _ & (HI & H8 & KC) & _ & (IS & IC)).
  assert (X := AP). destruct X as ((_ & _ & (_ & _ & S1 & _)) & (_ & _ & (_ & _ & S2 & _)) & SC & KB & IB).
  unfold code_leaf1. apply (wp_started f_H0_init) with (lam := lam); [exact code_H0_init|repeat constructor; cbn; lia|cbn; lia|exact KC|unfold vars in VA; unhas; assumption|lia|].
  intros m1 L e1 F1 NW ND A EA EO. assert (VA1 : vars e1 V T ib io i) by (eapply vars_agree; [exact VA|exact EO|intros x I J; cbn in I, J; lia]).
  assert (SK : forall m', frame m m' nothing -> stage m' V T kb cb sb ib io) by (intros m' F; eapply stage_kept; [exact ST|exact F|intros b o []]).
  assert (Q1 : (i + 1) * lb <= n * lb) by (apply Z.mul_le_mono_nonneg_r; lia).
  assert (HN := stage_leaf _ _ _ _ _ _ _ _ (Z.to_N i) ST IN ltac:(lia)). rewrite Z2N.id in HN by lia. destruct (leaf_ok IN (Z.to_N i)) as [LN BN].
  assert (VA1' := VA1). unfold vars in VA1'. unhas.
  eapply wp_tail1 with (m0 := m) (node := leaf (Z.to_N i)) (so := i * lb) (co := i * (lb * 2)); [exact HL|exact F1|exact NW|exact ND|exact A|exact EA|eassumption|eassumption| | | |exact HN|exact LN|exact BN|exact HI|exact LI|exact BI|exact H8|eapply inb_sub; [exact IS|nia|lia|lia]|eapply inb_sub; [exact IC|nia|lia|lia]|exact SC|exact KB|exact IB|exact S1|exact S2|].
  - intros m' F. eapply pe_node; [exact IN|exact VA1|apply SK, F| |eapply pe_eq; [ev|simp; rewrite wrap_u64 by lia; reflexivity]]. lia.
  - intros m' F. eapply pe_seed; [exact IN|exact VA1|apply SK, F|lia|ev].
  - intros m' F. eapply pe_com; [exact IN|exact VA1|apply SK, F|lia|ev].
  - intros m2 F2 G1 G2. apply K; [assumption|exact VA1|eapply stage_kept; [exact ST|exact F2|apply two_away; exact AP]|exact F2|].
    intros j Hj. destruct (Z.eqb_spec (ofN j) i) as [<-|NE]; [|].
    + rewrite N2Z.id in G1, G2. split; assumption.
    + revert j Hj NE. assert (Y := leaves_step _ _ _ _ _ _ _ _ _ SC LV F2 ltac:(lia) ltac:(lia)). intros j Hj NE. apply Y. lia.
Qed.
Lemma wp_leaf4 e m V T kb cb sb ib io i (Q : outcome -> env -> mem -> Prop) : inputs -> vars e V T ib io i -> stage m V T kb cb sb ib io -> apart V T kb cb sb ib -> leaves m sb cb i -> 0 <= i -> i + 4 <= n ->
  (forall e' m', lookup e' 17 = VInt i -> vars e' V T ib io i -> stage m' V T kb cb sb ib io -> frame m m' (two sb (i * lb) (lb * 4) cb (i * (lb * 2)) (lb * 8)) -> leaves m' sb cb (i + 4) -> Q ONormal e' m') ->
  wp code code_leaf4 e m Q.
Proof using.
  intros IN VA ST AP LV Hi Hn K. assert (X := IN). destruct X as (HL & HD & LR & BR & LI & BI). destruct (lamb_b lam HL) as [B1 B2]. destruct (count_b d HD) as [C1 C2]. assert (X := ST). destruct X as (_ & _ & (HI & H8 & KC) & _ & (IS & IC)).
  assert (X := AP). destruct X as ((_ & _ & (_ & _ & S1 & _)) & (_ & _ & (_ & _ & S2 & _)) & SC & KB & IB).
  unfold code_leaf4. apply wp_started4 with (lam := lam); [repeat constructor; cbn; lia|cbn; lia|exact KC|unfold vars in VA; unhas; assumption|lia|].
  intros m1 L e1 F1 NW ND A EA EO. assert (VA1 : vars e1 V T ib io i) by (eapply vars_agree; [exact VA|exact EO|intros x I J; cbn in I, J; lia]).
  assert (SK : forall m', frame m m' nothing -> stage m' V T kb cb sb ib io) by (intros m' F; eapply stage_kept; [exact ST|exact F|intros b o []]).
  assert (Q1 : (i + 4) * lb <= n * lb) by (apply Z.mul_le_mono_nonneg_r; lia).
  assert (VA1' := VA1). unfold vars in VA1'. unhas.
  eapply wp_tail4 with (m0 := m) (node := fun j => leaf (Z.to_N (i + j))) (nof := fun j => (n - 1 + (i + j)) * lb) (so := i * lb) (co := i * (lb * 2));
    [exact HL|exact F1|exact NW|exact ND|exact A|exact EA|eassumption|eassumption| | | | |exact HI|exact LI|exact BI|exact H8|eapply inb_sub; [exact IS|nia|lia|lia]|eapply inb_sub; [exact IC|nia|lia|lia]|exact SC|exact KB|exact IB|exact S1|exact S2|].
  - intros m' F. unfold four. splits; (eapply pe_node; [exact IN|exact VA1|apply SK, F| |eapply pe_eq; [ev|simp; unwrap; f_equal; lia]]); lia.
  - intros m' F. unfold four. splits; (eapply pe_eq; [eapply pe_seed; [exact IN|exact VA1|apply SK, F| |eapply pe_eq; [ev|simp; unwrap; reflexivity]]|]); try lia; f_equal; lia.
  - intros m' F. unfold four. splits; (eapply pe_eq; [eapply pe_com; [exact IN|exact VA1|apply SK, F| |eapply pe_eq; [ev|simp; unwrap; reflexivity]]|]); try lia; f_equal; lia.
  - intros j Hj. assert (HN := stage_leaf _ _ _ _ _ _ _ _ (Z.to_N (i + j)) ST IN ltac:(lia)). rewrite Z2N.id in HN by lia. destruct (leaf_ok IN (Z.to_N (i + j))) as [LN BN]. split; [exact HN|split; assumption].
  - intros m2 F2 G. apply K; [assumption|exact VA1|eapply stage_kept; [exact ST|exact F2|apply two_away; exact AP]|exact F2|].
    intros j Hj. destruct (Z.ltb_spec (ofN j) i) as [LT|GE].
    + exact (leaves_step _ _ _ _ _ _ _ _ _ SC LV F2 ltac:(lia) ltac:(lia) j LT).
    + destruct (G (ofN j - i) ltac:(lia)) as [G1 G2]. replace (i + (ofN j - i)) with (ofN j) in G1, G2 by lia. rewrite N2Z.id in G1, G2.
      replace (i * lb + (ofN j - i) * lb) with (ofN j * lb) in G1 by lia. replace (i * (lb * 2) + (ofN j - i) * (lb * 2)) with (ofN j * (lb * 2)) in G2 by lia. split; assumption.
Qed.

(** ** The commitment *)
Definition coms (k : nat) : bytes := flat_map (fun j => comof (N.of_nat j)) (List.seq 0 k).
Lemma coms_S k : coms (S k) = coms k ++ comof (N.of_nat k).
Proof using. unfold coms. rewrite seq_S, flat_map_app. cbn [flat_map Nat.add]. rewrite app_nil_r. reflexivity. Qed.
Definition vblocks (V : vloc) : list positive := [vv V; vp V 0; vp V 1; vp V 2; vp V 3].
Definition vspace (m : mem) (V : vloc) : Prop := NoDup (vblocks V) /\ (forall f, 0 <= f <= 3 -> member m V f).
Definition vfoot (V : vloc) (b : positive) (o : Z) : Prop := In b [vp V 0; vp V 1; vp V 2; vp V 3].
Definition committed (m : mem) (V : vloc) (hb kb cb sb : positive) : Prop :=
  (vto m V 0 (VPtr hb 0) /\ vto m V 1 (VPtr kb 0) /\ vto m V 2 (VPtr cb 0) /\ vto m V 3 (VPtr sb 0)) /\
  nodes lam root iv m kb (ofN (count d)) /\ leaves m sb cb n /\ holds m hb 0 (VcSpec.H1 shake lam (coms (Z.to_nat n))).
Lemma ref_vector_commitment m V rb ro ib io pb po : inputs -> vspace m V -> holds m rb ro root -> holds m ib io iv -> parm m pb po lam -> rconst m -> kconst m -> holds m 8 0 [0%N] -> holds m 9 0 [1%N] ->
  (forall b, In b (vblocks V) -> (12 < b)%positive /\ b <> ib) -> ib <> 1%positive ->
  calls code f_vector_commitment [VPtr rb ro; VPtr ib io; VPtr pb po; VInt (ofN lam); VPtr (vv V) (vx V); VInt (ofN d)] m (fun _ m' => frame m m' (vfoot V) /\
    exists hb kb cb sb, NoDup [hb; kb; cb; sb] /\ (forall b, In b [hb; kb; cb; sb] -> (mnext m <= b < mnext m')%positive) /\ committed m' V hb kb cb sb).
Proof using.
  intros IN VS HR HI PM RC KC H8 H9 VB IB. assert (X := IN). destruct X as (HL & HD & LR & BR & LI & BI). destruct (lamb_b lam HL) as [B1 B2]. destruct (count_b d HD) as [C1 C2].
  assert (NL : n * lb <= 536870912) by nia. assert (N0 : 0 <= n * lb) by nia.
  start code_vector_commitment. seq. seq.
  eapply wp_set; [eapply pe_eq; [eapply pe_div; [ev|ev|lia]|unfold u32; rewrite divu by lia; instantiate (1 := VInt lb); rewrite N2Z.inj_div; reflexivity]|].
  seq. eapply wp_set; [eapply pe_eq; [ev|]|].
  { simp. rewrite shl1 by lia. rewrite <- pow_z. rewrite wrap_u32 by lia. reflexivity. }
  eapply (wp_tree 9 10 11 12)%positive; [repeat constructor; cbn; lia|]. intros m1 T e1 F1 NT ST E9 EO.
  assert (E : has e1 [(1%positive, VPtr rb ro); (2%positive, VPtr ib io); (3%positive, VPtr pb po); (4%positive, VInt (ofN lam)); (5%positive, VPtr (vv V) (vx V)); (6%positive, VInt (ofN d)); (7%positive, VInt lb); (8%positive, VInt n)]).
  { cbn [has]. splits; try exact Logic.I; (rewrite EO by (cbn; lia); look). }
  clear EO. unhas.
  seq. eapply wp_callf; [evs|apply (ref_generate_seeds lam root iv m1 T rb ro ib io pb po d); try assumption|].
  { eapply off_set; [exact HR|exact F1|intros q []]. }
  { eapply off_set; [exact HI|exact F1|intros q []]. }
  { eapply off_set; [exact PM|exact F1|intros q []]. }
  { eapply rconst_frame; [exact RC|exact F1|intros q []]. }
  intros v m2 (-> & F2 & kb & NK & FT & IK & NN). cbn [set].
  assert (M1 := proj1 F1). assert (M2 := proj1 F2).
  assert (NT2 : forall b, In b (tblocks T) -> (mnext m <= b < mnext m2)%positive) by (intros b I; apply NT in I; lia).
  assert (G2 : frame m m2 (vfoot V)).
  { eapply frame_comp; [eapply frame_weak; [exact F1|intros b o _ _ []]|exact F2|]. intros b o L _ Y. assert (Z : In b (tblocks T)) by (right; exact Y). apply NT in Z. lia. }
  destruct VS as (VD & VM). assert (VN : forall f g, 0 <= f < g /\ g <= 3 -> vp V f <> vp V g).
  { intros f g Hfg. unfold vblocks in VD. assert (W1 := nodup_ne _ 1 2 VD ltac:(cbn; lia)). assert (W2 := nodup_ne _ 1 3 VD ltac:(cbn; lia)). assert (W3 := nodup_ne _ 1 4 VD ltac:(cbn; lia)). assert (W4 := nodup_ne _ 2 3 VD ltac:(cbn; lia)). assert (W5 := nodup_ne _ 2 4 VD ltac:(cbn; lia)). assert (W6 := nodup_ne _ 3 4 VD ltac:(cbn; lia)). cbn [nth] in *.
    assert ((f = 0 /\ g = 1) \/ (f = 0 /\ g = 2) \/ (f = 0 /\ g = 3) \/ (f = 1 /\ g = 2) \/ (f = 1 /\ g = 3) \/ (f = 2 /\ g = 3)) as [(-> & ->)|[(-> & ->)|[(-> & ->)|[(-> & ->)|[(-> & ->)|(-> & ->)]]]]] by (clear - Hfg; lia); assumption. }
  assert (VV : forall q, ~ vfoot V (vv V) q) by (intros q Y; unfold vblocks in VD; apply NoDup_cons_iff in VD; destruct VD as [VD _]; exact (VD Y)).
  assert (VO : forall b, In b (vblocks V) -> (b < mnext m)%positive).
  { intros b I. assert (W := fun f H => proj1 (proj2 (VM f H))). assert (W' := proj1 (proj1 (proj1 (VM 0 ltac:(lia))))). unfold vblocks in I. cbn [In] in I. destruct I as [<-|[<-|[<-|[<-|[<-|[]]]]]]; [exact W'|apply W; lia..]. }
  assert (MK : forall m', frame m m' (vfoot V) -> forall f, 0 <= f <= 3 -> member m' V f) by (intros m' F f Hf; eapply member_kept; [apply VM, Hf|exact F|exact VV]).
  assert (GA : forall m' m'', frame m m' (vfoot V) -> frame m' m'' nothing -> frame m m'' (vfoot V)) by (intros m' m'' F F'; eapply frame_comp; [exact F|exact F'|intros b o _ _ []]).
  assert (GS : forall f m' m'', 0 <= f <= 3 -> frame m m' (vfoot V) -> frame m' m'' (at_ (vp V f) 0 1) -> frame m m'' (vfoot V)).
  { intros f m' m'' Hf F F'. eapply frame_comp; [exact F|exact F'|]. intros b o _ _ [-> _]. unfold vfoot. cbn [In]. assert (f = 0 \/ f = 1 \/ f = 2 \/ f = 3) as [->|[->|[->| ->]]] by (clear - Hf; lia); auto. }
  seq. apply (wp_new _ _ _ _ (lb * 2)); [eapply pe_eq; [ev|simp; rewrite wrap_u32 by lia; reflexivity]|lia|]. intros hb m3 B3 X3 F3 IH. cbv iota. assert (G3 := GA _ _ G2 F3).
  seq. eapply (wp_pointer _ _ _ _ (vp V 0) 0 (VPtr hb 0)); [eapply pe_member; [look|apply (MK _ G3 0); lia]|ev|apply (MK _ G3 0); lia|]. intros m4 X4 F4 T4. cbv iota. assert (G4 := GS 0 _ _ ltac:(lia) G3 F4).
  seq. apply (wp_new _ _ _ _ (n * (lb * 2))); [eapply pe_eq; [ev|simp; rewrite (wrap_u32 (n * lb)) by lia; rewrite wrap_u32 by lia; f_equal; lia]|lia|]. intros cb m5 B5 X5 F5 IC. cbv iota. assert (G5 := GA _ _ G4 F5).
  seq. eapply (wp_pointer _ _ _ _ (vp V 2) 0 (VPtr cb 0)); [eapply pe_member; [look|apply (MK _ G5 2); lia]|ev|apply (MK _ G5 2); lia|]. intros m6 X6 F6 T6. cbv iota. assert (G6 := GS 2 _ _ ltac:(lia) G5 F6).
  seq. apply (wp_new _ _ _ _ (n * lb)); [eapply pe_eq; [ev|simp; rewrite wrap_u32 by lia; reflexivity]|lia|]. intros sb m7 B7 X7 F7 IS. cbv iota. assert (G7 := GA _ _ G6 F7).
  seq. eapply (wp_pointer _ _ _ _ (vp V 3) 0 (VPtr sb 0)); [eapply pe_member; [look|apply (MK _ G7 3); lia]|ev|apply (MK _ G7 3); lia|]. intros m8 X8 F8 T8. cbv iota. assert (G8 := GS 3 _ _ ltac:(lia) G7 F8).
  assert (F28 : frame m2 m8 (vfoot V)).
  { clear - F3 F4 F5 F6 F7 F8. assert (W : forall f, In f [0; 2; 3] -> forall b o, at_ (vp V f) 0 1 b o -> vfoot V b o) by (intros f I b o [-> _]; unfold vfoot; cbn [In] in *; destruct I as [<-|[<-|[<-|[]]]]; auto).
    eapply frame_comp; [eapply frame_comp; [eapply frame_comp; [eapply frame_comp; [eapply frame_comp; [eapply frame_weak; [exact F3|intros b o _ _ []]|exact F4|]|exact F5|intros b o _ _ []]|exact F6|]|exact F7|intros b o _ _ []]|exact F8|]; intros b o _ _ Y; eapply W; try exact Y; cbn; auto. }
  assert (TV : forall b q, In b (tblocks T) -> ~ vfoot V b q).
  { intros b q I Y. apply NT2 in I. assert (Z : In b (vblocks V)) by (right; exact Y). apply VO in Z. lia. }
  assert (FT8 : filled m8 T (VPtr kb 0) (count d) (2 ^ d)) by (eapply filled_kept; [exact FT|exact F28|exact TV]).
  assert (X := FT8). destruct X as ((_ & (P80 & P81 & P82) & _) & T80 & L8c & L8l).
  seq. eapply (wp_pointer _ _ _ _ (vp V 1) 0 (VPtr kb 0)); [eapply pe_member; [look|apply (MK _ G8 1); lia]|eapply pe_at0; [eapply pe_to; [eapply pe_ptr; [look|exact P80]|exact T80]|eapply pe_eq; [ev|simp; rewrite wrap_u32 by lia; reflexivity]]|apply (MK _ G8 1); lia|].
  intros m9 X9 F9 T9. cbv iota. assert (G9 := GS 1 _ _ ltac:(lia) G8 F9).
  assert (D1 : cb = Pos.succ hb) by congruence. assert (D2 : sb = Pos.succ cb) by congruence. assert (D3 : mnext m9 = Pos.succ sb) by congruence. clear X3 X4 B5 X5 X6 B7 X7 X8 X9.
  assert (VQ : forall b q, vfoot V b q -> (12 < b < mnext m)%positive /\ b <> ib) by (intros b q Y; assert (Z : In b (vblocks V)) by (right; exact Y); assert (Z1 := VB b Z); assert (Z2 := VO b Z); clear - Z1 Z2; lia).
  assert (FT9 : filled m9 T (VPtr kb 0) (count d) (2 ^ d)).
  { eapply filled_kept; [exact FT8|exact F9|]. intros b q I [-> _]. apply (TV _ 0 I). unfold vfoot. cbn. auto. }
  assert (F29 : frame m2 m9 (vfoot V)) by (eapply frame_comp; [exact F28|exact F9|intros b o _ _ [-> _]; unfold vfoot; cbn; auto]).
  assert (V0 : vto m9 V 0 (VPtr hb 0)).
  { split; [apply (MK _ G9 0); lia|]. clear - T4 F5 F6 F7 F8 F9 VN. assert (W1 := VN 0 1 ltac:(lia)). assert (W2 := VN 0 2 ltac:(lia)). assert (W3 := VN 0 3 ltac:(lia)).
    eapply to_at; [eapply to_at; [eapply to_at; [eapply to_at; [eapply to_at; [exact T4|exact F5|intros []]|exact F6|]|exact F7|intros []]|exact F8|]|exact F9|]; intros [Y _]; congruence. }
  assert (V2 : vto m9 V 2 (VPtr cb 0)).
  { split; [apply (MK _ G9 2); lia|]. clear - T6 F7 F8 F9 VN. assert (W1 := VN 1 2 ltac:(lia)). assert (W2 := VN 2 3 ltac:(lia)).
    eapply to_at; [eapply to_at; [eapply to_at; [exact T6|exact F7|intros []]|exact F8|]|exact F9|]; intros [Y _]; congruence. }
  assert (V3 : vto m9 V 3 (VPtr sb 0)).
  { split; [apply (MK _ G9 3); lia|]. clear - T8 F9 VN. assert (W1 := VN 1 3 ltac:(lia)). eapply to_at; [exact T8|exact F9|]; intros [Y _]; congruence. }
  assert (V1 : vto m9 V 1 (VPtr kb 0)) by (split; [apply (MK _ G9 1); lia|exact T9]).
  assert (NV : ~ (12 < kb < mnext m)%positive) by (clear - NK M1; lia).
  assert (IB' : (ib < mnext m)%positive) by exact (proj1 (proj1 HI)).
  assert (SG : stage m9 V T kb cb sb ib io).
  { split; [exact FT9|]. split; [split; assumption|]. split; [splits; (eapply off_set; [eassumption|exact G9|intros q Y; apply VQ in Y; destruct Y as [Y1 Y2]; (congruence || lia)])|]. split.
    - intros i Hi. eapply off_set; [apply NN, Hi|exact F29|]. intros q Y. apply VQ in Y. destruct Y as [Y _]. exact (NV Y).
    - split; [eapply inb_frame; [exact F9|]; eapply inb_frame; [exact F8|exact IS]|]. eapply inb_frame; [exact F9|]. eapply inb_frame; [exact F8|]. eapply inb_frame; [exact F7|]. eapply inb_frame; [exact F6|exact IC]. }
  assert (IH9 : inb m9 hb 0 (lb * 2)) by (eapply inb_frame; [exact F9|]; eapply inb_frame; [exact F8|]; eapply inb_frame; [exact F7|]; eapply inb_frame; [exact F6|]; eapply inb_frame; [exact F5|]; eapply inb_frame; [exact F4|exact IH]).
  assert (H99 : holds m9 9 0 [1%N]) by (eapply off_set; [exact H9|exact G9|intros q Y; apply VQ in Y; lia]).
  assert (K1' : (1 < mnext m)%positive) by exact (proj1 (proj1 KC)). assert (K8' : (8 < mnext m)%positive) by exact (proj1 (proj1 H8)).
  assert (AW : forall b, (mnext m2 <= b)%positive -> away V T kb ib b).
  { intros b Lb. assert (W1 := VO (vv V) ltac:(cbn; auto)). assert (W2 := VO (vp V 2) ltac:(cbn; auto)). assert (W3 := VO (vp V 3) ltac:(cbn; auto 6)). clear - Lb NT2 NK M1 M2 W1 W2 W3 K1' K8' IB'.
    split; [intros I; apply NT2 in I; lia|]. split; splits; intros ->; lia. }
  assert (AP : apart V T kb cb sb ib).
  { clear - AW D1 D2 B3 NK M1 IB K1'. split; [apply AW; lia|]. split; [apply AW; lia|]. split; [lia|]. split; [intros ->; lia|exact IB]. }
  clear T4 T6 T8 T9 F3 F4 F5 F6 F7 F8 F9 F28 G3 G4 G5 G6 G7 G8 IH IC IS FT FT8 P80 P81 P82 T80 NN IK GS GA ST F1 F2.
  assert (X := FT9). destruct X as ((_ & (P90 & P91 & P92) & _) & T90 & L9c & L9l).
  seq. eapply wp_set; [eapply pe_eq; [eapply pe_bin; [eapply pe_num8; [eapply pe_ptr; [look|exact P91]|exact L9c|lia]|eapply pe_num8; [eapply pe_ptr; [look|exact P92]|exact L9l|lia]]|simp; rewrite wrap_u64 by lia; reflexivity]|].
  replace (ofN (count d) - n) with (n - 1) by lia. seq. eapply wp_set; [ev|].
  set (J := fun i e m' => vars e V T ib io i /\ stage m' V T kb cb sb ib io /\ frame m9 m' (two sb 0 (n * lb) cb 0 (n * (lb * 2))) /\ leaves m' sb cb i).
  assert (ND4 : 0 <= n / 4 /\ 4 * (n / 4) <= n < 4 * (n / 4) + 4) by (assert (Y := Z.div_mod n 4 ltac:(lia)); assert (Z := Z.mod_pos_bound n 4 ltac:(lia)); lia).
  assert (FG : forall m' m'' i k, 0 <= i -> 0 <= k -> i + k <= n -> frame m9 m' (two sb 0 (n * lb) cb 0 (n * (lb * 2))) -> frame m' m'' (two sb (i * lb) (lb * k) cb (i * (lb * 2)) (lb * (2 * k))) -> frame m9 m'' (two sb 0 (n * lb) cb 0 (n * (lb * 2)))).
  { intros m' m'' i k Hi Hk Hik F F'. eapply frame_comp; [exact F|exact F'|]. assert (W : (i + k) * lb <= n * lb) by (apply Z.mul_le_mono_nonneg_r; lia). assert (W' : 0 <= i * lb) by (apply Z.mul_nonneg_nonneg; lia). clear - W W'.
    intros b o _ _ [[-> Y]|[-> Y]]; [left|right]; (split; [reflexivity|]); lia. }
  eapply (wp_by4 _ 17%positive _ J _ 0 (n / 4)); [lia|lia|lia| | |].
  - intros i e m' Hi Hi4 (VA & SS & FF & LV). assert (VA' := VA). unfold vars in VA'. unhas. split; [assumption|]. split.
    { eexists. split; [eapply pe_bin; [ev|eapply pe_bin; [eapply pe_div; [ev|ev|lia]|ev]]|]. simp. rewrite truth_b. unfold u32 at 2. rewrite divu by lia. rewrite wrap_u32 by lia. lia. }
    eapply (wp_leaf4 e m' V T kb cb sb ib io i); [exact IN|exact VA|exact SS|exact AP|exact LV|lia|lia|].
    intros e' m'' E17 VA'' SS' FF' LV'. split; [exact E17|]. split; [|split; [exact SS'|split; [|exact LV']]].
    + unfold vars in VA''. unhas. unfold vars. hass.
    + eapply FG; [| | |exact FF|exact FF']; lia.
  - intros e m' (VA & SS & FF & LV). assert (VA' := VA). unfold vars in VA'. unhas. split.
    { eexists. split; [eapply pe_bin; [ev|eapply pe_bin; [eapply pe_div; [ev|ev|lia]|ev]]|]. simp. rewrite truth_b. unfold u32 at 2. rewrite divu by lia. rewrite wrap_u32 by lia. lia. }
    cbv beta iota. rewrite Z.add_0_l in *. seq. eapply (wp_for _ 17%positive 32 _ J _ (4 * (n / 4)) n); [lia|lia|lia| | |].
    + clear VA SS FF LV. repeat match goal with H : lookup e _ = _ |- _ => clear H end. clear e m'. intros i e m' Hi (VA & SS & FF & LV). assert (VA' := VA). unfold vars in VA'. unhas. split; [assumption|]. split.
      { eexists. split; [ev|]. simp. rewrite truth_b. lia. }
      eapply (wp_leaf1 e m' V T kb cb sb ib io i); [exact IN|exact VA|exact SS|exact AP|exact LV|lia|].
      intros e' m'' E17 VA'' SS' FF' LV'. split; [exact E17|]. split; [|split; [exact SS'|split; [|exact LV']]].
      * unfold vars in VA''. unhas. unfold vars. hass.
      * eapply (FG m' m'' i 1); [lia|lia|lia|exact FF|]. replace (lb * 1) with lb by lia. replace (lb * (2 * 1)) with (lb * 2) by lia. exact FF'.
    + clear VA SS FF LV. repeat match goal with H : lookup e _ = _ |- _ => clear H end. clear e m'. intros e m10 (VA & SS & FF & LV). assert (VA' := VA). unfold vars in VA'. unhas. split.
      { eexists. split; [ev|]. simp. rewrite truth_b. lia. }
      cbv beta iota. clear J FG ND4. assert (X := SS). destruct X as (FT10 & (V210 & V310) & (HI10 & H810 & KC10) & NN10 & _). assert (X := FT10). destruct X as ((_ & (P100 & _) & (I100 & _)) & _).
      assert (NTD : (mnext m <= nd T < mnext m2)%positive) by (apply NT2; cbn; auto).
      seq. eapply (wp_pointer _ _ _ _ (nd T) 0 VNull); [eapply pe_ptr; [look|exact P100]|apply pe_null|exact I100|]. intros m11 X11 F11 T11. cbv iota.
      assert (W1 := VO (vv V) ltac:(cbn; auto)). assert (W2 := fun f Hf => proj1 (proj2 (VM f Hf))).
      assert (TN : forall b o, two sb 0 (n * lb) cb 0 (n * (lb * 2)) b o -> b = sb \/ b = cb) by (intros b o [[-> _]|[-> _]]; auto).
      assert (B3' : (mnext m2 <= hb /\ mnext m2 <= cb /\ mnext m2 <= sb)%positive) by (clear - B3 D1 D2; lia). assert (NE3 : hb <> cb /\ hb <> sb /\ cb <> sb) by (clear - D1 D2; lia).
      assert (NK' : (mnext m <= kb < mnext m2)%positive) by (clear - NK M1; lia).
      assert (VK : forall f v, 0 <= f <= 3 -> vto m9 V f v -> vto m11 V f v).
      { intros f v Hf VT. assert (Y := W2 f Hf). eapply vto_kept; [eapply vto_kept; [exact VT|exact FF|..]|exact F11|..]; intros q Z; [apply TN in Z|apply TN in Z|destruct Z as [Z _]|destruct Z as [Z _]]; revert Z; clear - W1 Y NTD B3' M1 M2; intros Z; lia. }
      assert (KC11 : kconst m11) by (eapply off_block; [exact KC10|exact F11|clear - NTD K1'; lia]).
      assert (H911 : holds m11 9 0 [1%N]).
      { eapply off_block; [eapply off_set; [exact H99|exact FF|]|exact F11|]; [intros q Z; apply TN in Z|]; assert (Y := proj1 (proj1 H9)); clear - Z Y NTD B3' M1 M2 || clear - Y NTD; lia. }
      assert (LV11 : leaves m11 sb cb n).
      { intros j Hj. destruct (LV j Hj) as [Y Z]. split; (eapply off_block; [eassumption|exact F11|clear - NTD B3'; lia]). }
      assert (NN11 : nodes lam root iv m11 kb (ofN (count d))).
      { intros j Hj. eapply off_block; [apply NN10, Hj|exact F11|]. assert (Y := NT (nd T) ltac:(cbn; auto)). clear - Y NK. lia. }
      assert (M11 : (mnext m9 <= mnext m11)%positive) by (assert (Y := proj1 FF); clear - Y X11; lia).
      apply (wp_started f_H1_init) with (lam := lam); [exact code_H1_init|repeat constructor; cbn; lia|cbn; lia|exact KC11|look|lia|]. intros m12 L e12 F12 NW ND12 A12 EA EO.
      assert (E : has e12 [(5%positive, VPtr (vv V) (vx V)); (7%positive, VInt lb); (8%positive, VInt n)]) by (cbn [has]; splits; try exact Logic.I; (rewrite EO by (cbn; lia); look)). clear EO.
      assert (FN := fun b o => foot_new m11 m12 L b o NW ND12).
      assert (FK : forall m', frame m12 m' (foot L) -> frame m11 m' nothing) by (intros m' F; eapply frame_comp; [exact F12|exact F|intros b o Y _ Z; destruct (FN _ _ Z Y)]).
      repeat match goal with H : lookup e _ = _ |- _ => clear H end. clear VA. unhas. seq. eapply wp_set; [ev|].
      seq. eapply (wp_for _ 42%positive 32 _ (fun i e m' => frame m12 m' (foot L) /\ absorbing m' L lam (coms (Z.to_nat i)) /\ has e [(5%positive, VPtr (vv V) (vx V)); (7%positive, VInt lb); (8%positive, VInt n); (34%positive, VPtr (cx L) 0); (42%positive, VInt i)]) _ 0 n); [lia|lia|lia| | |].
      * intros i e' m' Hi (F & AB & HE). unhas. split; [look|]. split.
        { eexists. split; [ev|]. simp. rewrite truth_b. lia. }
        assert (FF' := FK _ F). destruct (out_ok lam iv (leaf (Z.to_N i))) as (_ & OL & _ & OB). destruct (LV11 (Z.to_N i) ltac:(lia)) as [_ HC]. rewrite Z2N.id in HC by lia.
        eapply wp_callf with (vs := [VPtr (cx L) 0; VPtr cb (i * (lb * 2)); VInt (ofN (lenN (comof (Z.to_N i))))]).
        { eapply pes_cons; [ev|]. eapply pes_cons; [|eapply pes_cons; [|apply pes_nil]].
          - eapply pe_at0; [eapply pe_vto; [look|eapply vto_kept; [apply (VK 2 _ ltac:(lia) V2)|exact FF'|intros q []|intros q []]]|]. eapply pe_eq; [ev|]. simp. rewrite (wrap_u32 (lb * 2)) by lia. rewrite wrap_u32 by nia. reflexivity.
          - unfold comof. rewrite OL. eapply pe_eq; [ev|]. simp. rewrite wrap_u32 by lia. f_equal. lia. }
        { apply (ref_H_update f_H1_update m' L lam (coms (Z.to_nat i)) cb (i * (lb * 2)) (comof (Z.to_N i))); [exact code_H1_update|exact AB|eapply off_set; [exact HC|exact FF'|intros q []]|exact OB| |unfold comof; rewrite OL; lia].
          eapply off_new; [exact NW|]. split; [clear - M11 D3 D2; lia|clear - B3' K1' M1 M2; lia]. }
        intros w m'' (F' & AB'). cbn [set]. split; [look|]. split; [eapply frame_comp; [exact F|exact F'|intros b o _ _ Y; exact Y]|]. split; [|hass].
        replace (Z.to_nat (i + 1)) with (S (Z.to_nat i)) by lia. rewrite coms_S. replace (N.of_nat (Z.to_nat i)) with (Z.to_N i) by lia. exact AB'.
      * intros e' m' (F & AB & HE). unhas. split.
        { eexists. split; [ev|]. simp. rewrite truth_b. lia. }
        cbv beta iota. assert (FF' := FK _ F).
        assert (VK' : forall f v, 0 <= f <= 3 -> vto m9 V f v -> vto m' V f v) by (intros f v Hf VT; eapply vto_kept; [apply VK; [exact Hf|exact VT]|exact FF'|intros q []|intros q []]).
        assert (SH : forall b, b = 9%positive \/ b = hb -> spot m11 b) by (intros b Hb; split; assert (Y := proj1 (proj1 H9)); clear - Hb Y M11 D1 D2 D3 B3' M1 M2 K1' ; lia).
        assert (IH' : inb m' hb 0 (ofN (lam / 8 * 2))).
        { replace (ofN (lam / 8 * 2)) with (lb * 2) by lia. eapply inb_frame; [exact FF'|]. eapply inb_frame; [exact F11|]. eapply inb_frame; [exact FF|exact IH9]. }
        eapply wp_callf with (vs := [VPtr (cx L) 0; VPtr hb 0; VInt (ofN (lam / 8 * 2))]).
        { eapply pes_cons; [ev|]. eapply pes_cons; [eapply pe_vto; [look|apply (VK' 0 _ ltac:(lia) V0)]|]. eapply pes_cons; [eapply pe_eq; [ev|simp; rewrite wrap_u32 by lia; f_equal; lia]|apply pes_nil]. }
        { apply (ref_H_final1 f_H1_final 9 1 m' L lam (coms (Z.to_nat n)) hb 0 (lam / 8 * 2)); [exact code_H1_final|exact AB|eapply off_set; [exact H911|exact FF'|intros q []]|lia|eapply off_new; [exact NW|apply SH; auto]|exact IH'|eapply off_new; [exact NW|apply SH; auto]|lia]. }
        intros w m13 (F13 & HH). cbn [set].
        assert (F1113 : frame m11 m13 (at_ hb 0 (ofN (lam / 8 * 2)))).
        { eapply frame_comp; [eapply frame_weak; [exact FF'|intros b o _ _ []]|exact F13|]. intros b o Y _ [Z|Z]; [destruct (FN _ _ Z Y)|exact Z]. }
        split; [|exists hb, kb, cb, sb; split; [|split]].
        -- eapply frame_comp; [eapply frame_comp; [eapply frame_comp; [exact G9|exact FF|]|exact F11|]|exact F1113|]; intros b o Y _ Z; [apply TN in Z|destruct Z as [Z _]|destruct Z as [Z _]]; exfalso; revert Y Z; clear - NTD B3' M1 M2; intros Y Z; lia.
        -- clear - NE3 B3' NK'. repeat constructor; cbn [In]; lia.
        -- assert (Y := proj1 F1113). intros b I. cbn [In] in I. clear - I Y M11 D1 D2 D3 B3' NK' M1 M2. lia.
        -- assert (HV : forall f, 0 <= f <= 3 -> vp V f <> hb) by (intros f Hf; assert (Y := W2 f Hf); clear - Y B3' M1 M2; lia). assert (HV' : vv V <> hb) by (clear - W1 B3' M1 M2; lia).
           assert (VK2 : forall f v, 0 <= f <= 3 -> vto m9 V f v -> vto m13 V f v) by (intros f v Hf VT; eapply vto_kept; [apply VK; [exact Hf|exact VT]|exact F1113|intros q [Y _]; exact (HV' Y)|intros q [Y _]; exact (HV f Hf Y)]).
           split; [splits; apply VK2; try assumption; lia|]. split; [|split].
           ++ intros j Hj. eapply off_block; [apply NN11, Hj|exact F1113|clear - NK' B3'; lia].
           ++ intros j Hj. destruct (LV11 j Hj) as [Y Z]. split; (eapply off_block; [eassumption|exact F1113|clear - NE3; lia]).
           ++ unfold VcSpec.H1. rewrite shake_level. exact HH.
      * split; [apply frame_refl|]. split; [exact A12|hass].
    + split; [exact VA|]. split; [exact SS|]. split; assumption.
  - split; [unfold vars; hass|]. split; [exact SG|]. split; [apply frame_refl|]. intros j Hj. lia.
Qed.
End Vc.
