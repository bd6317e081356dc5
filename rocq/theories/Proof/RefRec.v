(** The translated reconstruction of a vector commitment: the levels of the tree. *)
From Coq Require Import ZArith NArith List Bool FMapPositive Lia ZifyBool ZifyNat ZifyN.
From Verif Require Import Model.Base Proof.BaseProof Spec.VcSpec Spec.OwfSpec.
From Verif Require Proof.VcProof Proof.RefVoleHash.
From Verif Require Import Proof.PrgProof.
From Verif Require Import Model.CtLang Model.CtNames Model.CtVole Model.CtProgram Proof.RefLogic Proof.RefTac Proof.RefMem Proof.RefKeys Proof.RefSnp Proof.RefKeccak Proof.RefSponge Proof.RefPrg Proof.RefFresh Proof.RefTree Proof.RefTree2 Proof.RefLeaf Proof.RefVc Proof.RefOpen.
Import ListNotations.
Local Open Scope Z_scope.
Arguments wrap : simpl never.

Section Rec.
Variables (lam : N) (iv cop : bytes) (d x : N).
Variables (V : vloc) (kb ib ob jb bb : positive) (io oo jo bo : Z).
Notation lb := (ofN (lam / 8)).
Notation n := (ofN (2 ^ d)).
Notation anc l := (ancestor d x l).
Notation sib l := (sibling (ancestor d x l)).
Notation bt l := (N.b2n (N.testbit x (d - (l + 1)))).
Definition rnode (l p : N) : bytes := VcProof.rtree lam iv cop d x (N.to_nat l) p.
Definition rinputs : Prop := lamb lam /\ (1 <= d <= 24)%N /\ (x < 2 ^ d)%N /\ (lenN cop = lam / 8 * d)%N /\ bytes_ok cop /\ lenN iv = 16%N /\ bytes_ok iv.
Lemma rnode_ok l p : rinputs -> (l <= d)%N -> (p < 2 ^ l)%N -> p <> anc l -> VcProof.node_ok lam (rnode l p).
Proof using.
  intros (HL & HD & HX & LC & BC & LI & BI) Hl Hp NE. unfold rnode. apply (VcProof.rtree_ok lam iv HL LI (fun _ _ _ => [])); rewrite ?N2Nat.id; try assumption. lia.
Qed.
Lemma rnode_S l p : rnode (l + 1) p = if (p / 2 =? anc l)%N then takeN (lam / 8) (dropN (lam / 8 * l) cop) else child lam iv (rnode l (p / 2)) (N.odd p).
Proof using. unfold rnode. replace (N.to_nat (l + 1)) with (S (N.to_nat l)) by lia. cbn [VcProof.rtree]. rewrite N2Nat.id. reflexivity. Qed.
(* what the slot of a node holds: the nodes on the path are cleared *)
Definition rslot (l p : N) : bytes := if (p =? anc l)%N then repeat 0%N (N.to_nat (lam / 8)) else rnode l p.
Lemma rslot_len l p : rinputs -> (l <= d)%N -> (p < 2 ^ l)%N -> lenN (rslot l p) = (lam / 8)%N.
Proof using. intros RI Hl Hp. unfold rslot. destruct (N.eqb_spec p (anc l)) as [E|E]; [unfold lenN; rewrite repeat_length; lia|apply (rnode_ok l p RI Hl Hp E)]. Qed.
(* the nodes of the levels below [i] *)
Definition known (m : mem) (i : N) : Prop := forall l p, (1 <= l < i)%N -> (p < 2 ^ l)%N -> holds m kb (ofN (bfs l p) * lb) (rslot l p).
Lemma node_off m m' a b l : lamb lam -> holds m kb (ofN a * lb) l -> lenN l = (lam / 8)%N -> frame m m' (at_ kb (ofN b * lb) lb) -> a <> b -> holds m' kb (ofN a * lb) l.
Proof using.
  intros HL H L F NE. destruct (lamb_b lam HL) as [B1 _]. eapply holds_frame; [exact H|exact F|]. rewrite L. intros q Hq [_ Y].
  assert (ofN a < ofN b \/ ofN b < ofN a) as [C|C] by lia.
  - assert ((ofN a + 1) * lb <= ofN b * lb) by (apply Z.mul_le_mono_nonneg_r; lia). lia.
  - assert ((ofN b + 1) * lb <= ofN a * lb) by (apply Z.mul_le_mono_nonneg_r; lia). lia.
Qed.

(* what the levels read *)
Definition rgiven (m : mem) : Prop := vto m V 1 (VPtr kb 0) /\ holds m ob oo cop /\ holds m bb bo (bits_of x d) /\ holds m ib io iv /\ rconst m /\ inb m kb 0 (ofN (count d) * lb).
Definition rapart : Prop := kb <> vv V /\ kb <> vp V 1 /\ kb <> ob /\ kb <> bb /\ kb <> ib /\ kb <> 12%positive.
Lemma rgiven_kept m m' S : rapart -> rgiven m -> frame m m' S -> (forall b o, (b < mnext m)%positive -> S b o -> b = kb) -> rgiven m'.
Proof using.
  intros (N1 & N2 & N3 & N4 & N5 & N6) ((P & T) & B & C & D & E & G) F X. 
  assert (F' : frame m m' (fun b _ => b = kb)) by (eapply frame_weak; [exact F|intros b o L _ Y; exact (X b o L Y)]).
  split; [eapply vto_kept; [split; eassumption|exact F'|intros q Y; congruence..]|]. splits; try (eapply off_set; [eassumption|exact F'|intros q Y; congruence]).
  - eapply rconst_frame; [exact E|exact F'|intros q Y; congruence].
  - eapply inb_frame; eassumption.
Qed.
Lemma pe_k e m k j : lookup e 7 = VPtr (vv V) (vx V) -> vto m V 1 (VPtr kb 0) -> pe e m k (VInt j) -> pe e m (EAt (ELoadP (EField (EVar 7) 4 1)) 1 k) (VPtr kb j).
Proof using. intros E T P. apply pe_at0; [eapply pe_vto; eassumption|exact P]. Qed.
Lemma pe_bitr e m l k : holds m bb bo (bits_of x d) -> (d <= 24)%N -> (l < d)%N -> lookup e 4 = VPtr bb bo -> pe e m k (VInt (ofN d - (ofN l + 1))) -> pe e m (ELoad 1 (EAt (EVar 4) 1 k)) (VInt (ofN (bt l))).
Proof using.
  intros HB HD Hl E P. assert (LB := VcProof.lenN_bits_of x d). assert (I := holds_inb _ _ _ _ HB). rewrite LB in I.
  eapply pe_eq; [eapply pe_load1; [eapply pe_at; [apply pe_var, E|exact P]|eapply inb_sub; [exact I|lia|lia|lia]]|].
  f_equal. assert (X := proj2 HB (d - (l + 1))%N ltac:(lia)). rewrite VcProof.nthN_bits_of in X by lia. rewrite <- X. f_equal. lia.
Qed.
Definition rvars (e : env) (a i : Z) : Prop := has e [(1%positive, VPtr ib io); (2%positive, VPtr ob oo); (3%positive, VPtr jb jo); (4%positive, VPtr bb bo); (5%positive, VInt (ofN lam)); (6%positive, VInt (ofN d)); (7%positive, VPtr (vv V) (vx V));
  (8%positive, VInt lb); (9%positive, VInt n); (11%positive, VInt (ofN x)); (12%positive, VInt a); (13%positive, VInt i)].

(** one node is expanded *)
Definition k_at (k : expr) : expr := EAt (ELoadP (EField (EVar 7) 4 1)) 1 (EBin OMul u64 (EVar 8) k).
Definition code_expand : stmt :=
  SIf (EBin OEq s32 (EVar 17) (EVar 12)) SContinue SSkip ;;
  SAlloc 18 (EInt 64) ;;
  SCall (Some 19%positive) f_getNodeIndex [(EBin OSub u32 (EVar 13) (EInt 1)); (EVar 17)] ;;
  SCall None f_prg [k_at (EVar 19); (EVar 1); (EVar 18); (EVar 5); (EBin OMul u32 (EVar 8) (EInt 2))] ;;
  SCall (Some 20%positive) f_getNodeIndex [(EVar 13); (EBin OMul u32 (EInt 2) (EVar 17))] ;;
  SCopy (k_at (EVar 20)) (EVar 18) (EVar 8) ;;
  SCall (Some 21%positive) f_getNodeIndex [(EVar 13); (EBin OAdd u32 (EBin OMul u32 (EInt 2) (EVar 17)) (EInt 1))] ;;
  SCopy (k_at (EVar 21)) (EAt (EVar 18) 1 (EVar 8)) (EVar 8).
(* the nodes of level [l + 1] whose parents are before [j], or on the path *)
Definition half (m : mem) (l : N) (j : Z) : Prop := forall p, (p < 2 ^ (l + 1))%N -> ofN (p / 2) < j \/ (p / 2 = anc l)%N -> holds m kb (ofN (bfs (l + 1) p) * lb) (rslot (l + 1) p).
Lemma wp_expand e m l j (Q : outcome -> env -> mem -> Prop) : rinputs -> rapart -> rgiven m -> (l < d)%N -> 0 <= j < ofN (2 ^ l) -> rvars e (ofN (anc l)) (ofN l + 1) -> lookup e 17 = VInt j -> known m (l + 1) -> half m l j ->
  (forall e' m' o, o = ONormal \/ o = OContinue -> lookup e' 17 = VInt j -> lookup e' 16 = lookup e 16 -> rvars e' (ofN (anc l)) (ofN l + 1) -> rgiven m' -> frame m m' (at_ kb 0 (ofN (count d) * lb)) -> known m' (l + 1) -> half m' l (j + 1) -> Q o e' m') ->
  wp code code_expand e m Q.
Proof using.
  intros RI RA RG Hl Hj VA E17 KN HF K. assert (X := RI). destruct X as (HL & HD & HX & LC & BC & LI & BI). destruct (lamb_b lam HL) as [B1 B2]. destruct (count_b d HD) as [C1 C2].
  destruct (anc_step d x l Hl HX ltac:(lia)) as (EA & ES & BT & BA & BS & BA' & BP). assert (PS : (2 ^ (l + 1) = 2 * 2 ^ l)%N) by (rewrite N.pow_add_r; lia).
  assert (P1 : ofN (2 ^ l) = 2 ^ ofN l) by apply pow_z. assert (P2 : ofN (2 ^ (l + 1)) = 2 ^ (ofN l + 1)) by (rewrite pow_z; f_equal; lia).
  assert (VA' := VA). unfold rvars in VA'. unhas. unfold code_expand.
  seq. eapply wp_if; [ev|]. simp. rewrite truth_b. destruct (Z.eqb_spec j (ofN (anc l))) as [EJ|NJ].
  - apply wp_continue. apply K; [right; reflexivity|assumption|reflexivity|exact VA|exact RG|apply frame_refl|exact KN|]. intros p Hp HP. apply HF; [exact Hp|]. clear - HP EJ. destruct HP as [HP|HP]; [|right; exact HP]. destruct (Z.eqb_spec (ofN (p / 2)) j); [right|left]; lia.
  - apply wp_skip. seq. apply (wp_new _ _ _ _ 64); [ev|lia|]. intros tb m1 T1 T2 F1 IT. cbv iota.
    assert (TK : tb <> kb /\ (forall b o l', holds m b o l' -> tb <> b)). { split; [destruct RG as (_ & _ & _ & _ & _ & (Y & _)); lia|intros b o l' [(Y & _) _]; lia]. }
    assert (RG1 : rgiven m1) by (eapply rgiven_kept; [exact RA|exact RG|exact F1|intros b o _ []]).
    set (q := Z.to_N j). assert (Eq : j = ofN q) by lia. assert (Hq : (q < 2 ^ l)%N) by lia. assert (NQ : q <> anc l) by lia.
    seq. eapply wp_callf with (vs := [VInt (ofN l); VInt j]); [eapply pes_cons; [eapply pe_eq; [ev|simp; rewrite wrap_u32 by lia; f_equal; lia]|evs]|apply ref_getNodeIndex; lia|]. intros w m1' (-> & ->). cbn [set].
    replace (2 ^ ofN l - 1 + j) with (ofN (bfs l q)) by (unfold bfs; lia).
    assert (BQ := VcProof.bfs_bound l q d ltac:(lia) Hq). change (2 ^ (d + 1) - 1)%N with (count d) in BQ.
    assert (HQ : holds m1 kb (ofN (bfs l q) * lb) (rnode l q)) by (eapply off_set; [|exact F1|intros o []]; assert (Y := KN l q); unfold rslot in Y; replace (q =? anc l)%N with false in Y by lia; apply Y; [|exact Hq]; assert (l <> 0%N) by (intros ->; rewrite VcProof.ancestor_0 in NQ by exact HX; change (2 ^ 0)%N with 1%N in Hq; lia); lia).
    destruct (rnode_ok l q RI ltac:(lia) Hq NQ) as [LQ BQ'].
    assert (IT2 : inb m1 tb 0 (lb * 2)) by (eapply inb_sub; [exact IT|lia|lia|lia]).
    assert (X := RG1). destruct X as (VT1 & HO1 & HB1 & HI1 & RC1 & IK1).
    assert (NODE : forall b, (b < count d)%N -> 0 <= ofN b * lb /\ ofN b * lb + lb <= ofN (count d) * lb).
    { intros b Hb. assert ((ofN b + 1) * lb <= ofN (count d) * lb) by (apply Z.mul_le_mono_nonneg_r; lia). assert (0 <= ofN b * lb) by (apply Z.mul_nonneg_nonneg; lia). lia. }
    assert (CB : ofN (count d) * lb <= 33554432 * 32) by (apply Z.mul_le_mono_nonneg; lia). assert (NQ' := NODE _ BQ).
    seq. eapply wp_callf with (vs := [VPtr kb (ofN (bfs l q) * lb); VPtr ib io; VPtr tb 0; VInt (ofN lam); VInt (lb * 2)]).
    { eapply pes_cons; [eapply pe_k; [look|exact VT1|eapply pe_eq; [ev|simp; rewrite Z.mul_comm, wrap_u64 by lia; reflexivity]]|]. eapply pes_cons; [ev|]. eapply pes_cons; [ev|]. eapply pes_cons; [ev|]. eapply pes_cons; [eapply pe_eq; [ev|simp; rewrite wrap_u32 by lia; reflexivity]|apply pes_nil]. }
    { apply (ref_prg lam m1 kb (ofN (bfs l q) * lb) (rnode l q) ib io iv tb 0 (lb * 2)); try assumption; lia. }
    intros w m2 (-> & F2 & HW). cbn [set].
    assert (F02 : frame m m2 nothing) by (eapply frame_comp; [exact F1|exact F2|intros b o L _ [-> _]; lia]).
    assert (RG2 : rgiven m2) by (eapply rgiven_kept; [exact RA|exact RG|exact F02|intros b o _ []]).
    destruct (VcProof.prg_children lam iv HL LI BI (rnode l q) (conj LQ BQ')) as (out & E & EL & ER). rewrite VcProof.prg_stream in E by (assumption || exact (conj LQ BQ')). injection E as <-.
    replace (lam / 8 * 2)%N with (Z.to_N (lb * 2)) in EL, ER by lia. set (st := stream (aes_of lam) (rnode l q) iv (Z.to_N (lb * 2))) in *.
    assert (LS : lenN st = (2 * (lam / 8))%N) by (unfold st; rewrite stream_len; lia).
    assert (HL2 : holds m2 tb 0 (child lam iv (rnode l q) false)).
    { rewrite <- EL. rewrite <- (dropN_0 st). change 0 with (0 + ofN 0). apply RefVoleHash.holds_sub; [exact HW|rewrite LS; lia]. }
    assert (HR2 : holds m2 tb lb (child lam iv (rnode l q) true)).
    { rewrite <- ER. replace lb with (0 + lb) at 1 by lia. apply holds_from; [exact HW|rewrite LS; lia]. }
    destruct (VcProof.child_ok lam iv HL LI (rnode l q) false (conj LQ BQ')) as [LL _]. destruct (VcProof.child_ok lam iv HL LI (rnode l q) true (conj LQ BQ')) as [LR _].
    assert (HcL : (2 * q < 2 ^ (l + 1))%N) by lia. assert (HcR : (2 * q + 1 < 2 ^ (l + 1))%N) by lia.
    assert (BL := VcProof.bfs_bound (l + 1) (2 * q) d ltac:(lia) HcL). assert (BR := VcProof.bfs_bound (l + 1) (2 * q + 1) d ltac:(lia) HcR). change (2 ^ (d + 1) - 1)%N with (count d) in BL, BR.
    assert (NL := NODE _ BL). assert (NR := NODE _ BR).
    seq. eapply wp_callf with (vs := [VInt (ofN l + 1); VInt (2 * j)]); [eapply pes_cons; [ev|eapply pes_cons; [eapply pe_eq; [ev|simp; rewrite wrap_u32 by lia; reflexivity]|apply pes_nil]]|apply ref_getNodeIndex; lia|]. intros w m2' (-> & ->). cbn [set].
    replace (2 ^ (ofN l + 1) - 1 + 2 * j) with (ofN (bfs (l + 1) (2 * q))) by (unfold bfs; lia).
    assert (X := RG2). destruct X as (VT2 & HO2 & HB2 & HI2 & RC2 & IK2).
    assert (J2 : inb m2 kb (ofN (bfs (l + 1) (2 * q)) * lb) lb) by (eapply inb_sub; [exact IK2|lia|lia|lia]).
    assert (J2' : inb m2 tb 0 lb) by (assert (Y := holds_inb _ _ _ _ HL2); rewrite LL in Y; exact Y).
    seq. eapply (wp_copy1 _ _ _ _ _ kb (ofN (bfs (l + 1) (2 * q)) * lb) tb 0 lb); [eapply pe_k; [look|exact VT2|eapply pe_eq; [ev|simp; rewrite Z.mul_comm, wrap_u64 by lia; reflexivity]]|ev|ev|exact J2|exact J2'|].
    assert (F3 := frame_copy_at m2 kb (ofN (bfs (l + 1) (2 * q)) * lb) tb 0 lb J2). assert (C3 : holds (copy m2 kb (ofN (bfs (l + 1) (2 * q)) * lb) tb 0 lb) kb (ofN (bfs (l + 1) (2 * q)) * lb) (child lam iv (rnode l q) false)).
    { rewrite <- LL. apply holds_copy; [exact HL2|rewrite LL; exact J2]. }
    generalize dependent (copy m2 kb (ofN (bfs (l + 1) (2 * q)) * lb) tb 0 lb). intros m3 F3 C3.
    assert (RG3 : rgiven m3) by (eapply rgiven_kept; [exact RA|exact RG2|exact F3|intros b o _ [-> _]; reflexivity]).
    assert (HR3 : holds m3 tb lb (child lam iv (rnode l q) true)) by (eapply off_block; [exact HR2|exact F3|apply TK]).
    seq. eapply wp_callf with (vs := [VInt (ofN l + 1); VInt (2 * j + 1)]); [eapply pes_cons; [ev|eapply pes_cons; [eapply pe_eq; [ev|simp; rewrite (wrap_u32 (2 * j)) by lia; rewrite wrap_u32 by lia; reflexivity]|apply pes_nil]]|apply ref_getNodeIndex; lia|]. intros w m3' (-> & ->). cbn [set].
    replace (2 ^ (ofN l + 1) - 1 + (2 * j + 1)) with (ofN (bfs (l + 1) (2 * q + 1))) by (unfold bfs; lia).
    assert (X := RG3). destruct X as (VT3 & HO3 & HB3 & HI3 & RC3 & IK3).
    assert (J3 : inb m3 kb (ofN (bfs (l + 1) (2 * q + 1)) * lb) lb) by (eapply inb_sub; [exact IK3|lia|lia|lia]).
    assert (J3' : inb m3 tb lb lb) by (assert (Y := holds_inb _ _ _ _ HR3); rewrite LR in Y; exact Y).
    eapply (wp_copy1 _ _ _ _ _ kb (ofN (bfs (l + 1) (2 * q + 1)) * lb) tb lb lb); [eapply pe_k; [look|exact VT3|eapply pe_eq; [ev|simp; rewrite Z.mul_comm, wrap_u64 by lia; reflexivity]]|apply pe_at0; ev|ev|exact J3|exact J3'|].
    assert (F4 := frame_copy_at m3 kb (ofN (bfs (l + 1) (2 * q + 1)) * lb) tb lb lb J3). assert (C4 : holds (copy m3 kb (ofN (bfs (l + 1) (2 * q + 1)) * lb) tb lb lb) kb (ofN (bfs (l + 1) (2 * q + 1)) * lb) (child lam iv (rnode l q) true)).
    { assert (Y := holds_copy m3 kb (ofN (bfs (l + 1) (2 * q + 1)) * lb) tb lb _ HR3). rewrite LR in Y. exact (Y J3). }
    generalize dependent (copy m3 kb (ofN (bfs (l + 1) (2 * q + 1)) * lb) tb lb lb). intros m4 F4 C4.
    assert (OFF : forall a l', holds m kb (ofN a * lb) l' -> lenN l' = (lam / 8)%N -> a <> bfs (l + 1) (2 * q) -> a <> bfs (l + 1) (2 * q + 1) -> holds m4 kb (ofN a * lb) l').
    { intros a l' HH L1 N1 N2. eapply node_off; [exact HL|eapply node_off; [exact HL|eapply off_set; [exact HH|exact F02|intros o []]|exact L1|exact F3|exact N1]|exact L1|exact F4|exact N2]. }
    assert (NB : forall l' p', (l' <= l)%N -> (p' < 2 ^ l')%N -> forall p, bfs l' p' <> bfs (l + 1) p).
    { intros l' p' Hl' Hp' p. assert (Y := VcProof.bfs_bound l' p' l Hl' Hp'). unfold bfs at 2. lia. }
    apply K; [left; reflexivity|look|look|unfold rvars; hass|eapply rgiven_kept; [exact RA|exact RG3|exact F4|intros b o _ [-> _]; reflexivity]| | |].
    + eapply frame_comp; [eapply frame_comp; [eapply frame_weak; [exact F02|intros b o _ _ []]|exact F3|]|exact F4|]; intros b o _ _ [-> Y]; (split; [reflexivity|lia]).
    + intros l' p Hl' Hp. assert (LP := rslot_len l' p RI ltac:(lia) Hp). apply OFF; [apply KN; assumption|exact LP|apply NB; [lia|exact Hp]|apply NB; [lia|exact Hp]].
    + intros p Hp HP. destruct (N.eq_dec (p / 2) q) as [E2|N2].
      * unfold rslot. assert (NP : p <> anc (l + 1)) by (intros ->; apply NQ; rewrite <- E2; apply VcProof.ancestor_half; exact Hl). replace (p =? anc (l + 1))%N with false by lia. rewrite rnode_S. rewrite E2. replace (q =? anc l)%N with false by lia. assert (p = 2 * q \/ p = 2 * q + 1)%N as [->| ->] by lia.
        -- replace (N.odd (2 * q)) with false by (rewrite N.odd_mul; reflexivity). eapply node_off; [exact HL|exact C3|exact LL|exact F4|unfold bfs; lia].
        -- replace (N.odd (2 * q + 1)) with true by (rewrite N.odd_add, N.odd_mul; reflexivity). exact C4.
      * assert (LP := rslot_len (l + 1) p RI ltac:(lia) Hp). apply OFF; [apply HF; [exact Hp|clear - HP N2 Eq; lia]|exact LP|unfold bfs; lia|unfold bfs; lia].
Qed.

(** one level *)
Definition bit_e : expr := ELoad 1 (EAt (EVar 4) 1 (EBin OSub u32 (EVar 6) (EVar 13))).
Definition code_level : stmt :=
  SCall (Some 14%positive) f_getNodeIndex [(EVar 13); (EBin OAdd u32 (EBin OMul u32 (EInt 2) (EVar 12)) (EUn OCast u32 (EUn OLNot s32 bit_e)))] ;;
  SCopy (k_at (EVar 14)) (EAt (EVar 2) 1 (EBin OMul u32 (EVar 8) (EBin OSub u32 (EVar 13) (EInt 1)))) (EVar 8) ;;
  SCall (Some 15%positive) f_getNodeIndex [(EVar 13); (EBin OAdd u32 (EBin OMul u32 (EInt 2) (EVar 12)) bit_e)] ;;
  SFill (k_at (EVar 15)) (EInt 0) (EVar 8) ;;
  SSet 16 (EUn OCast u32 (EBin OShl s32 (EInt 1) (EBin OSub u32 (EVar 13) (EInt 1)))) ;;
  SSet 17 (EInt 0) ;;
  SLoop (EBin OLt s32 (EVar 17) (EVar 16)) (SSet 17 (EBin OAdd u32 (EVar 17) (EInt 1))) code_expand ;;
  SSet 12 (EBin OAdd u32 (EBin OMul u32 (EVar 12) (EInt 2)) bit_e).
Lemma wp_level e m l (Q : outcome -> env -> mem -> Prop) : rinputs -> rapart -> rgiven m -> (l < d)%N -> rvars e (ofN (anc l)) (ofN l + 1) -> known m (l + 1) ->
  (forall e' m', rvars e' (ofN (anc (l + 1))) (ofN l + 1) -> rgiven m' -> frame m m' (at_ kb 0 (ofN (count d) * lb)) -> known m' (l + 2) -> Q ONormal e' m') ->
  wp code code_level e m Q.
Proof using.
  intros RI RA RG Hl VA KN K. assert (X := RI). destruct X as (HL & HD & HX & LC & BC & LI & BI). destruct (lamb_b lam HL) as [B1 B2]. destruct (count_b d HD) as [C1 C2].
  destruct (anc_step d x l Hl HX ltac:(lia)) as (EA & ES & BT & BA & BS & BA' & BP). assert (PS : (2 ^ (l + 1) = 2 * 2 ^ l)%N) by (rewrite N.pow_add_r; lia).
  assert (P1 : ofN (2 ^ l) = 2 ^ ofN l) by apply pow_z. assert (P2 : ofN (2 ^ (l + 1)) = 2 ^ (ofN l + 1)) by (rewrite pow_z; f_equal; lia).
  assert (NODE : forall b, (b < count d)%N -> 0 <= ofN b * lb /\ ofN b * lb + lb <= ofN (count d) * lb).
  { intros b Hb. assert ((ofN b + 1) * lb <= ofN (count d) * lb) by (apply Z.mul_le_mono_nonneg_r; lia). assert (0 <= ofN b * lb) by (apply Z.mul_nonneg_nonneg; lia). lia. }
  assert (CB : ofN (count d) * lb <= 33554432 * 32) by (apply Z.mul_le_mono_nonneg; lia).
  assert (BSi := VcProof.bfs_bound (l + 1) (sib (l + 1)) d ltac:(lia) BS). assert (BAn := VcProof.bfs_bound (l + 1) (anc (l + 1)) d ltac:(lia) BA). change (2 ^ (d + 1) - 1)%N with (count d) in BSi, BAn.
  assert (NS := NODE _ BSi). assert (NA := NODE _ BAn).
  assert (PB : forall e' m', rvars e' (ofN (anc l)) (ofN l + 1) -> rgiven m' -> pe e' m' bit_e (VInt (ofN (bt l)))).
  { intros e' m' VA' (_ & _ & HB & _). unfold rvars in VA'. unhas. eapply pe_bitr; [exact HB|lia|exact Hl|look|]. eapply pe_eq; [ev|simp; rewrite wrap_u32 by lia; reflexivity]. }
  assert (BIT := PB e m VA RG). assert (VA' := VA). unfold rvars in VA'. unhas. unfold code_level.
  assert (X := RG). destruct X as (VT & HO & HB & HI & RC & IK).
  seq. eapply wp_callf with (vs := [VInt (ofN l + 1); VInt (ofN (sib (l + 1)))]).
  { eapply pes_cons; [ev|eapply pes_cons; [|apply pes_nil]]. eapply pe_eq; [eapply pe_bin; [ev|eapply pe_un; eapply pe_un; exact BIT]|]. cbn [un bin]. simp. rewrite (wrap_u32 (2 * ofN (anc l))) by lia.
    rewrite (wrap_u32 (b2z (ofN (bt l) =? 0))) by (unfold b2z; destruct (ofN (bt l) =? 0); lia). replace (b2z (ofN (bt l) =? 0)) with (1 - ofN (bt l)) by (unfold b2z; destruct (Z.eqb_spec (ofN (bt l)) 0); lia). rewrite wrap_u32 by lia. rewrite ES. f_equal. lia. }
  { apply ref_getNodeIndex; lia. }
  intros w m' (-> & ->). cbn [set]. replace (2 ^ (ofN l + 1) - 1 + ofN (sib (l + 1))) with (ofN (bfs (l + 1) (sib (l + 1)))) by (unfold bfs; lia).
  assert (CP : (lam / 8 * l + lam / 8 <= lam / 8 * d)%N) by (assert (lam / 8 * (l + 1) <= lam / 8 * d)%N by (apply N.mul_le_mono_l; lia); lia).
  assert (CD : (lam / 8 * d <= 32 * 24)%N) by (apply N.mul_le_mono; lia).
  assert (HC : holds m ob (oo + lb * ofN l) (takeN (lam / 8) (dropN (lam / 8 * l) cop))).
  { replace (lb * ofN l) with (ofN (lam / 8 * l)) by lia. apply RefVoleHash.holds_sub; [exact HO|rewrite LC; exact CP]. }
  assert (LT : lenN (takeN (lam / 8) (dropN (lam / 8 * l) cop)) = (lam / 8)%N) by (rewrite lenN_takeN, lenN_dropN; lia).
  assert (J1 : inb m kb (ofN (bfs (l + 1) (sib (l + 1))) * lb) lb) by (eapply inb_sub; [exact IK|lia|lia|lia]).
  assert (J1' : inb m ob (oo + lb * ofN l) lb) by (assert (Y := holds_inb _ _ _ _ HC); rewrite LT in Y; exact Y).
  seq. eapply (wp_copy1 _ _ _ _ _ kb (ofN (bfs (l + 1) (sib (l + 1))) * lb) ob (oo + lb * ofN l) lb); [eapply pe_k; [look|exact VT|eapply pe_eq; [ev|simp; rewrite Z.mul_comm, wrap_u64 by lia; reflexivity]]| |ev|exact J1|exact J1'|].
  { eapply pe_eq; [eapply pe_at; [ev|ev]|]. simp. rewrite (wrap_u32 (ofN l + 1 - 1)) by lia. rewrite wrap_u32 by nia. f_equal. lia. }
  assert (F1 := frame_copy_at m kb (ofN (bfs (l + 1) (sib (l + 1))) * lb) ob (oo + lb * ofN l) lb J1).
  assert (HS1 : holds (copy m kb (ofN (bfs (l + 1) (sib (l + 1))) * lb) ob (oo + lb * ofN l) lb) kb (ofN (bfs (l + 1) (sib (l + 1))) * lb) (takeN (lam / 8) (dropN (lam / 8 * l) cop))).
  { assert (Y := holds_copy m kb (ofN (bfs (l + 1) (sib (l + 1))) * lb) ob (oo + lb * ofN l) _ HC). rewrite LT in Y. exact (Y J1). }
  generalize dependent (copy m kb (ofN (bfs (l + 1) (sib (l + 1))) * lb) ob (oo + lb * ofN l) lb). intros m1 F1 HS1.
  assert (RG1 : rgiven m1) by (eapply rgiven_kept; [exact RA|exact RG|exact F1|intros b o _ [-> _]; reflexivity]).
  assert (VA1 : rvars (PositiveMap.add 14%positive (VInt (ofN (bfs (l + 1) (sib (l + 1))))) e) (ofN (anc l)) (ofN l + 1)) by (unfold rvars; hass).
  assert (BIT1 := PB _ _ VA1 RG1). assert (X := RG1). destruct X as (VT1 & _ & _ & _ & _ & IK1).
  seq. eapply wp_callf with (vs := [VInt (ofN l + 1); VInt (ofN (anc (l + 1)))]).
  { eapply pes_cons; [ev|eapply pes_cons; [|apply pes_nil]]. eapply pe_eq; [eapply pe_bin; [ev|exact BIT1]|]. simp. rewrite (wrap_u32 (2 * ofN (anc l))) by lia. rewrite wrap_u32 by lia. f_equal. lia. }
  { apply ref_getNodeIndex; lia. }
  intros w m' (-> & ->). cbn [set]. replace (2 ^ (ofN l + 1) - 1 + ofN (anc (l + 1))) with (ofN (bfs (l + 1) (anc (l + 1)))) by (unfold bfs; lia).
  assert (J2 : inb m1 kb (ofN (bfs (l + 1) (anc (l + 1))) * lb) lb) by (eapply inb_sub; [exact IK1|lia|lia|lia]).
  seq. eapply (wp_fill _ _ _ _ _ _ kb (ofN (bfs (l + 1) (anc (l + 1))) * lb) 0 lb); [eapply pe_k; [look|exact VT1|eapply pe_eq; [ev|simp; rewrite Z.mul_comm, wrap_u64 by lia; reflexivity]]|ev|ev|exact J2|].
  assert (ER : repeat 0 (Z.to_nat lb) = map ofN (repeat 0%N (N.to_nat (lam / 8)))) by (rewrite map_repeat; f_equal; lia). rewrite ER.
  assert (LZ : lenN (repeat 0%N (N.to_nat (lam / 8))) = (lam / 8)%N) by (unfold lenN; rewrite repeat_length; lia).
  assert (HZ : holds (setb m1 kb (ofN (bfs (l + 1) (anc (l + 1))) * lb) (map ofN (repeat 0%N (N.to_nat (lam / 8))))) kb (ofN (bfs (l + 1) (anc (l + 1))) * lb) (repeat 0%N (N.to_nat (lam / 8)))).
  { apply holds_setb. rewrite LZ. exact J2. }
  assert (F2 : frame m1 (setb m1 kb (ofN (bfs (l + 1) (anc (l + 1))) * lb) (map ofN (repeat 0%N (N.to_nat (lam / 8))))) (at_ kb (ofN (bfs (l + 1) (anc (l + 1))) * lb) lb)).
  { assert (Y := frame_setb m1 kb (ofN (bfs (l + 1) (anc (l + 1))) * lb) (map ofN (repeat 0%N (N.to_nat (lam / 8))))). rewrite map_length, repeat_length in Y. replace (Z.of_nat (N.to_nat (lam / 8))) with lb in Y by lia. exact (Y J2). }
  generalize dependent (setb m1 kb (ofN (bfs (l + 1) (anc (l + 1))) * lb) (map ofN (repeat 0%N (N.to_nat (lam / 8))))). intros m2 HZ F2.
  assert (RG2 : rgiven m2) by (eapply rgiven_kept; [exact RA|exact RG1|exact F2|intros b o _ [-> _]; reflexivity]).
  assert (F02 : frame m m2 (at_ kb 0 (ofN (count d) * lb))).
  { eapply frame_comp; [eapply frame_weak; [exact F1|]|exact F2|]; intros b o _ _ [-> Y]; (split; [reflexivity|lia]). }
  assert (SN := VcProof.sibling_neq (anc (l + 1))).
  assert (KN2 : known m2 (l + 1)).
  { intros l' p Hl' Hp. assert (LP := rslot_len l' p RI ltac:(lia) Hp). assert (Y := VcProof.bfs_bound l' p l ltac:(lia) Hp).
    eapply node_off; [exact HL|eapply node_off; [exact HL|apply KN; assumption|exact LP|exact F1|unfold bfs at 2; lia]|exact LP|exact F2|unfold bfs at 2; lia]. }
  assert (HF2 : half m2 l 0).
  { intros p Hp [HP|HP]; [lia|]. unfold rslot. destruct (N.eqb_spec p (anc (l + 1))) as [->|NE]; [exact HZ|].
    assert (Y : p = sib (l + 1)) by (apply VcProof.half_sibling; [rewrite VcProof.ancestor_half by exact Hl; exact HP|exact NE]). rewrite rnode_S, HP, N.eqb_refl. rewrite Y in *. eapply node_off; [exact HL|exact HS1|exact LT|exact F2|unfold bfs; lia]. }
  seq. eapply wp_set; [eapply pe_eq; [ev|]|].
  { simp. rewrite (wrap_u32 (ofN l + 1 - 1)) by lia. replace (ofN l + 1 - 1) with (ofN l) by lia. rewrite shl1 by lia. rewrite <- P1. rewrite wrap_u32 by lia. reflexivity. }
  seq. eapply wp_set; [ev|].
  eapply wp_seq. eapply (wp_for _ 17%positive 32 _ (fun j e' m' => rvars e' (ofN (anc l)) (ofN l + 1) /\ lookup e' 16 = VInt (ofN (2 ^ l)) /\ lookup e' 17 = VInt j /\ rgiven m' /\ frame m m' (at_ kb 0 (ofN (count d) * lb)) /\ known m' (l + 1) /\ half m' l j) _ 0 (ofN (2 ^ l))); [lia|lia|lia| | |].
  - intros j e3 m3 Hj (VA3 & E16 & E17 & RG3 & F3 & KN3 & HF3). split; [exact E17|]. split; [eexists; split; [ev|]; simp; rewrite truth_b; lia|].
    apply (wp_expand e3 m3 l j); try assumption. intros e4 m4 o Ho E17' E16' VA4 RG4 F4 KN4 HF4.
    assert (Z : lookup e4 17 = VInt j /\ (rvars (PositiveMap.add 17%positive (VInt (j + 1)) e4) (ofN (anc l)) (ofN l + 1) /\ lookup (PositiveMap.add 17%positive (VInt (j + 1)) e4) 16 = VInt (ofN (2 ^ l)) /\ lookup (PositiveMap.add 17%positive (VInt (j + 1)) e4) 17 = VInt (j + 1) /\ rgiven m4 /\ frame m m4 (at_ kb 0 (ofN (count d) * lb)) /\ known m4 (l + 1) /\ half m4 l (j + 1))).
    { split; [exact E17'|]. rewrite E16 in E16'. unfold rvars in VA4 |- *. clear - VA4 E16' RG4 F3 F4 KN4 HF4. unhas. split; [hass|]. split; [look|]. split; [look|]. split; [exact RG4|]. split; [eapply frame_comp; [exact F3|exact F4|intros b o _ _ Y; exact Y]|]. split; assumption. }
    destruct Ho as [->| ->]; exact Z.
  - intros e3 m3 (VA3 & E16 & E17 & RG3 & F3 & KN3 & HF3). split; [eexists; split; [ev|]; simp; rewrite truth_b; lia|]. cbv beta iota.
    assert (BIT3 := PB _ _ VA3 RG3). unfold rvars in VA3. repeat match goal with H : lookup e _ = _ |- _ => clear H end. clear VA. unhas.
    eapply wp_set; [eapply pe_eq; [eapply pe_bin; [ev|exact BIT3]|]|].
    { simp. rewrite (wrap_u32 (ofN (anc l) * 2)) by lia. rewrite wrap_u32 by lia. instantiate (1 := VInt (ofN (anc (l + 1)))). f_equal. lia. }
    apply K; [unfold rvars; hass|exact RG3|exact F3|]. intros l' p Hl' Hp. destruct (N.eq_dec l' (l + 1)) as [->|NE]; [|apply KN3; [lia|exact Hp]].
    apply HF3; [exact Hp|]. left. lia.
  - split; [unfold rvars; hass|]. split; [look|]. split; [look|]. split; [exact RG2|]. split; [exact F02|]. split; assumption.
Qed.
Definition code_levels : stmt := SLoop (EBin OLe s32 (EVar 13) (EVar 6)) (SSet 13 (EBin OAdd u32 (EVar 13) (EInt 1))) code_level.
Lemma wp_levels e m (Q : outcome -> env -> mem -> Prop) : rinputs -> rapart -> rgiven m -> rvars e 0 1 ->
  (forall e' m' a i, rvars e' a i -> rgiven m' -> frame m m' (at_ kb 0 (ofN (count d) * lb)) -> known m' (d + 1) -> Q ONormal e' m') ->
  wp code code_levels e m Q.
Proof using.
  intros RI RA RG VA K. assert (X := RI). destruct X as (HL & HD & HX & LC & BC & LI & BI). 
  unfold code_levels. eapply (wp_for _ 13%positive 32 _ (fun i e' m' => rvars e' (ofN (anc (Z.to_N (i - 1)))) i /\ rgiven m' /\ frame m m' (at_ kb 0 (ofN (count d) * lb)) /\ known m' (Z.to_N i)) _ 1 (ofN d + 1)); [lia|lia|lia| | |].
  - intros i e1 m1 Hi (VA1 & RG1 & F1 & KN1). assert (VA' := VA1). unfold rvars in VA'. unhas. split; [assumption|]. split; [eexists; split; [ev|]; simp; rewrite truth_b; lia|].
    set (l := Z.to_N (i - 1)) in *. assert (Ei : i = ofN l + 1) by lia. rewrite Ei in VA1. replace (Z.to_N i) with (l + 1)%N in KN1 by lia.
    apply (wp_level e1 m1 l); try assumption; [lia|]. intros e2 m2 VA2 RG2 F2 KN2. rewrite <- Ei in VA2. split; [unfold rvars in VA2; unhas; assumption|].
    replace (Z.to_N (i + 1 - 1)) with (l + 1)%N by lia. replace (Z.to_N (i + 1)) with (l + 2)%N by lia. split; [unfold rvars in VA2 |- *; clear - VA2; unhas; hass|]. split; [exact RG2|]. split; [eapply frame_comp; [exact F1|exact F2|intros b o _ _ Y; exact Y]|exact KN2].
  - intros e1 m1 (VA1 & RG1 & F1 & KN1). assert (VA' := VA1). unfold rvars in VA'. unhas. split; [eexists; split; [ev|]; simp; rewrite truth_b; lia|].
    eapply K; [exact VA1|exact RG1|exact F1|]. replace (d + 1)%N with (Z.to_N (ofN d + 1)) by lia. exact KN1.
  - change (Z.to_N (1 - 1)) with 0%N. rewrite VcProof.ancestor_0 by exact HX. split; [exact VA|]. split; [exact RG|]. split; [apply frame_refl|]. intros l p Hl. lia.
Qed.
End Rec.
