(** The translated functions of the GGM tree: allocation and expansion. *)
From Coq Require Import ZArith NArith List Bool FMapPositive Lia ZifyBool ZifyNat ZifyN.
From Verif Require Import Model.Base Proof.BaseProof Spec.OwfSpec Spec.VcSpec.
From Verif Require Import Proof.PrgProof.
From Verif Require Proof.VcProof Proof.RefWin Proof.RefVoleHash Proof.RefOwf.
From Verif Require Import Model.CtLang Model.CtNames Model.CtVole Model.CtProgram Proof.RefLogic Proof.RefTac Proof.RefMem Proof.RefKeys Proof.RefPrg Proof.RefSnp Proof.RefKeccak Proof.RefSponge Proof.RefFresh Proof.RefTree.
Import ListNotations.
Local Open Scope Z_scope.
Arguments wrap : simpl never.

Definition count (d : N) : N := (2 ^ (d + 1) - 1)%N.
Lemma count_z d : ofN (count d) = 2 ^ (ofN d + 1) - 1.
Proof. unfold count. assert (0 < 2 ^ (d + 1))%N by (apply N.neq_0_lt_0, N.pow_nonzero; lia). rewrite N2Z.inj_sub by lia. rewrite N2Z.inj_pow. rewrite N2Z.inj_add. reflexivity. Qed.
Lemma pow_z d : ofN (2 ^ d) = 2 ^ ofN d.
Proof. rewrite N2Z.inj_pow. reflexivity. Qed.
Lemma count_b d : (1 <= d <= 24)%N -> ofN (count d) = 2 * ofN (2 ^ d) - 1 /\ 2 <= ofN (2 ^ d) <= 16777216.
Proof.
  intros H. rewrite count_z, pow_z. rewrite Z.pow_add_r by lia. change (2 ^ 1) with 2. assert (X := pow_b (ofN d) 24 ltac:(lia)). change (2 ^ 24) with 16777216 in X.
  assert (Y := Z.pow_le_mono_r 2 1 (ofN d) ltac:(lia) ltac:(lia)). change (2 ^ 1) with 2 in Y. lia.
Qed.
Lemma in_old m b n o T m' : inb m b o n -> newt m m' T -> ~ In b (tblocks T).
Proof. intros (L & _) NT I. apply NT in I. lia. Qed.

Lemma ref_create_tree m R pb po lam d : tspace m R -> parm m pb po lam -> lamb lam -> (1 <= d <= 24)%N ->
  calls code f_create_tree [VPtr (tr R) 0; VPtr pb po; VInt (ofN d)] m (fun v m' => v = VInt 0 /\ frame m m' (tfoot R) /\ exists kb, (mnext m <= kb < mnext m')%positive /\
    filled m' R (VPtr kb 0) (count d) (2 ^ d) /\ inb m' kb 0 (ofN (count d) * ofN (lam / 8))).
Proof.
  intros SR PM HL HD. destruct (lamb_b lam HL) as [B1 B2]. destruct (count_b d HD) as [C1 C2].
  start code_create_tree. eapply (wp_tree 4 5 6 7)%positive; [repeat constructor; cbn; lia|]. intros m1 T e1 F1 NT ST E4 EO.
  assert (E1 : lookup e1 1 = VPtr (tr R) 0) by (rewrite EO by (cbn; lia); look). assert (E2 : lookup e1 2 = VPtr pb po) by (rewrite EO by (cbn; lia); look). assert (E3 : lookup e1 3 = VInt (ofN d)) by (rewrite EO by (cbn; lia); look).
  assert (PM1 : parm m1 pb po lam) by (eapply off_set; [exact PM|exact F1|intros q []]).
  assert (SR1 : tspace m1 R) by (eapply tspace_kept; [exact SR|exact F1|intros q []]).
  assert (DJ : forall b, In b (tblocks R) -> ~ In b (tblocks T)).
  { destruct SR as (_ & ((A1 & _) & (A2 & _) & (A3 & _)) & (A4 & A5 & A6)). intros b I. unfold tblocks in I. cbn [In] in I. destruct I as [<-|[<-|[<-|[<-|[]]]]]; eapply in_old; eassumption. }
  clear EO. seq. eapply wp_set; [eapply pe_lambda; [ev|exact PM1|exact HL]|].
  seq. eapply wp_callf; [evs|apply (ref_nodecount m1 (ofN d)); lia|]. intros v m1' (-> & ->). cbn [set]. rewrite <- count_z.
  assert (X := ST). destruct X as (ND & (P0 & P1 & P2) & (I0 & I1 & I2)).
  assert (N1 := nodup_ne _ 0 1 ND ltac:(cbn; lia)). assert (N2 := nodup_ne _ 0 2 ND ltac:(cbn; lia)). assert (N3 := nodup_ne _ 0 3 ND ltac:(cbn; lia)).
  assert (N4 := nodup_ne _ 1 2 ND ltac:(cbn; lia)). assert (N5 := nodup_ne _ 1 3 ND ltac:(cbn; lia)). assert (N6 := nodup_ne _ 2 3 ND ltac:(cbn; lia)). cbn [nth tblocks] in *.
  seq. eapply (wp_store8 _ _ _ _ (ct T) 0 (count d)); [eapply pe_ptr; [look|exact P1]|ev|exact I1|]. intros m2 F2 H2. cbv iota.
  assert (ST2 : tspace m2 T) by (eapply tspace_kept; [exact ST|exact F2|intros q [E _]; congruence]).
  assert (X := ST2). destruct X as (_ & (P20 & P21 & P22) & (I20 & I21 & I22)).
  seq. eapply (wp_store8 _ _ _ _ (lf T) 0 (2 ^ d)); [eapply pe_ptr; [look|exact P22]|eapply pe_eq; [ev|]|exact I22|].
  { simp. rewrite Z.shiftl_mul_pow2 by lia. rewrite Z.mul_1_l, <- pow_z. rewrite wrap_u64 by lia. reflexivity. }
  intros m3 F3 H3. cbv iota.
  assert (ST3 : tspace m3 T) by (eapply tspace_kept; [exact ST2|exact F3|intros q [E _]; congruence]).
  assert (H2' : holds m3 (ct T) 0 (le_bytes 8 (count d))) by (eapply off_block; [exact H2|exact F3|congruence]).
  assert (X := ST3). destruct X as (_ & (P30 & P31 & P32) & (I30 & I31 & I32)).
  seq. apply (wp_new _ _ _ _ (ofN (count d) * ofN (lam / 8))); [eapply pe_eq; [eapply pe_bin; [eapply pe_num8; [eapply pe_ptr; [look|exact P31]|exact H2'|lia]|ev]|]|nia|].
  { simp. rewrite wrap_u64 by nia. reflexivity. }
  intros kb m4 B4 X4 F4 IK. cbv iota.
  assert (ST4 : tspace m4 T) by (eapply tspace_kept; [exact ST3|exact F4|intros q []]).
  assert (X := ST4). destruct X as (_ & (P40 & P41 & P42) & (I40 & I41 & I42)).
  seq. eapply (wp_pointer _ _ _ _ (nd T) 0 (VPtr kb 0)); [eapply pe_ptr; [look|exact P40]|ev|exact I40|]. intros m5 X5 F5 T5. cbv iota.
  assert (F05 : frame m m5 nothing).
  { eapply frame_comp; [eapply frame_comp; [eapply frame_comp; [eapply frame_comp; [exact F1|exact F2|]|exact F3|]|exact F4|]|exact F5|]; intros b o L _ Y; try (destruct Y as [-> _]; assert (Z := NT (ct T) ltac:(cbn; auto)); assert (Z' := NT (lf T) ltac:(cbn; auto)); assert (Z'' := NT (nd T) ltac:(cbn; auto)); lia). exact Y. }
  assert (M12 := proj1 F1). assert (M23 := proj1 F2). assert (M34 := proj1 F3).
  eapply (wp_give 1 4); [look|look|eapply tspace_kept; [exact SR|exact F05|intros q []]| |exact DJ|].
  { split; [eapply tspace_kept; [exact ST4|exact F5|intros q [E _]; congruence]|]. split; [exact T5|]. split; (eapply off_block; [|exact F5|congruence]); (eapply off_set; [|exact F4|intros q []]); [exact H2'|exact H3]. }
  intros m6 F6 FL. split; [reflexivity|]. split; [eapply frame_comp; [eapply frame_weak; [exact F05|intros b o _ _ []]|exact F6|intros b o _ _ Y; exact Y]|].
  exists kb. split; [assert (Y := proj1 F6); lia|]. split; [exact FL|]. eapply inb_frame; [exact F6|]. eapply inb_frame; [exact F5|]. exact IK.
Qed.

(** ** Expansion *)
Section Expand.
Variables (lam : N) (root iv : bytes).
Notation lb := (ofN (lam / 8)).
Notation flat := (VcProof.ggm_flat lam iv root).
Definition nodes (m : mem) (kb : positive) (n : Z) : Prop := forall i, (ofN i < n) -> holds m kb (ofN i * lb) (flat i).
Lemma ref_expand_seeds m T kb ib io pb po d : lamb lam -> (1 <= d <= 24)%N -> filled m T (VPtr kb 0) (count d) (2 ^ d) -> inb m kb 0 (ofN (count d) * lb) ->
  holds m kb 0 root -> lenN root = (lam / 8)%N -> bytes_ok root -> holds m ib io iv -> lenN iv = 16%N -> bytes_ok iv -> parm m pb po lam -> rconst m ->
  kb <> 12%positive -> kb <> ib -> kb <> pb -> ~ In kb (tblocks T) ->
  calls code f_expand_seeds [VPtr (tr T) 0; VPtr ib io; VPtr pb po] m (fun v m' => frame m m' (at_ kb 0 (ofN (count d) * lb)) /\ nodes m' kb (ofN (count d))).
Proof using.
  intros HL HD FT IK HR LR BR HI LI BI PM RC N12 NI NP NT. destruct (lamb_b lam HL) as [B1 B2]. destruct (count_b d HD) as [C1 C2]. start code_expand_seeds.
  assert (NR : VcProof.node_ok lam root) by (split; assumption).
  assert (NK : forall i, VcProof.node_ok lam (flat i)) by (intros i; apply VcProof.ggm_ok; assumption).
  seq. eapply wp_set; [eapply pe_lambda; [ev|exact PM|exact HL]|].
  assert (PC : forall e m', lookup e 1 = VPtr (tr T) 0 -> filled m' T (VPtr kb 0) (count d) (2 ^ d) -> pe e m' (ELoad 8 (EField (EVar 1) 3 1)) (VInt (ofN (count d)))).
  { intros e m' E ((_ & (_ & P1 & _) & _) & _ & H1 & _). eapply pe_num8; [eapply pe_ptr; [exact E|exact P1]|exact H1|lia]. }
  assert (PN : forall e m', lookup e 1 = VPtr (tr T) 0 -> filled m' T (VPtr kb 0) (count d) (2 ^ d) -> pe e m' (ELoadP (EField (EVar 1) 3 0)) (VPtr kb 0)).
  { intros e m' E ((_ & (P0 & _ & _) & _) & H1 & _). eapply pe_to; [eapply pe_ptr; [exact E|exact P0]|exact H1]. }
  seq. eapply wp_callf with (vs := [VInt (ofN (count d) - 1)]); [eapply pes_cons; [eapply pe_eq; [eapply pe_bin; [apply PC; [look|exact FT]|ev]|simp; rewrite wrap_u64 by lia; reflexivity]|apply pes_nil]|apply ref_get_parent; lia|].
  intros v m1 (-> & ->). cbn [set]. replace ((ofN (count d) - 1 - 1) / 2) with (ofN (2 ^ d) - 2) by (apply Z.div_unique with (r := 1); lia).
  seq. eapply wp_set; [ev|]. seq. eapply wp_if; [eapply pe_bin; [ev|apply PC; [look|exact FT]]|]. simp. rewrite truth_b. rewrite (wrap_u64 (2 * _)) by lia. rewrite wrap_u64 by lia.
  replace (_ <? _) with true by lia. cbv iota. apply wp_skip. seq. eapply wp_set; [ev|].
  eapply (wp_for _ 7%positive 64 _ (fun i e m' => frame m m' (at_ kb 0 (ofN (count d) * lb)) /\ nodes m' kb (2 * i + 1) /\
    has e [(1%positive, VPtr (tr T) 0); (2%positive, VPtr ib io); (3%positive, VPtr pb po); (4%positive, VInt lb); (6%positive, VInt (ofN (2 ^ d) - 2)); (7%positive, VInt i)]) _ 0 (ofN (2 ^ d) - 1)).
  - lia.
  - lia.
  - lia.
  - intros i e m' Hi (F & NN & HE). unhas. split; [look|]. split.
    { eexists. split; [ev|]. simp. rewrite truth_b. lia. }
    assert (FT' : filled m' T (VPtr kb 0) (count d) (2 ^ d)) by (eapply filled_kept; [exact FT|exact F|intros b q Hb [-> _]; contradiction]).
    assert (HK : holds m' kb (i * lb) (flat (Z.to_N i))) by (assert (X := NN (Z.to_N i) ltac:(lia)); rewrite Z2N.id in X by lia; exact X).
    assert (HI' : holds m' ib io iv) by (eapply off_block; [exact HI|exact F|congruence]).
    assert (PM' : parm m' pb po lam) by (eapply off_block; [exact PM|exact F|congruence]).
    assert (RC' : rconst m') by (eapply rconst_frame; [exact RC|exact F|intros q [Y _]; congruence]).
    assert (IK' : inb m' kb 0 (ofN (count d) * lb)) by (eapply inb_frame; eassumption).
    assert (Q1 : (2 * i + 3) * lb <= ofN (count d) * lb) by (apply Z.mul_le_mono_nonneg_r; lia). assert (Q2 : 0 <= i * lb) by nia. assert (Q3 : (2 * i + 3) * lb = (2 * i + 1) * lb + lb * 2) by lia.
    assert (IO : inb m' kb ((2 * i + 1) * lb) (lb * 2)) by (eapply inb_sub; [exact IK'|nia|lia|lia]).
    eapply wp_callf with (vs := [VPtr kb (i * lb); VPtr ib io; VPtr kb ((2 * i + 1) * lb); VInt (ofN lam); VInt (lb * 2)]).
    { eapply pes_cons; [eapply pe_eq; [eapply pe_at; [apply PN; [look|exact FT']|ev]|simp; rewrite wrap_u64 by nia; f_equal; lia]|].
      eapply pes_cons; [ev|]. eapply pes_cons; [eapply pe_eq; [eapply pe_at; [apply PN; [look|exact FT']|ev]|]|].
      { simp. rewrite (wrap_u64 (2 * i)) by lia. rewrite (wrap_u64 (2 * i + 1)) by lia. rewrite wrap_u64 by nia. f_equal. lia. }
      eapply pes_cons; [eapply pe_parm; [ev|exact PM'|lia]|]. eapply pes_cons; [eapply pe_eq; [ev|simp; rewrite wrap_u32 by lia; reflexivity]|apply pes_nil]. }
    { apply (ref_prg lam m' kb (i * lb) (flat (Z.to_N i)) ib io iv kb ((2 * i + 1) * lb) (lb * 2)); try assumption; try lia; apply NK. }
    intros v2 m2 (-> & F2 & HW). cbn [set]. split; [look|]. split; [|split].
    + eapply frame_comp; [exact F|exact F2|]. intros b o _ _ [-> Y]. split; [reflexivity|]. nia.
    + destruct (VcProof.prg_children lam iv HL LI BI (flat (Z.to_N i)) (NK _)) as (out & E & EL & ER). rewrite VcProof.prg_stream in E by (assumption || apply NK). injection E as <-.
      replace (lam / 8 * 2)%N with (Z.to_N (lb * 2)) in EL, ER by lia.
      assert (LS : lenN (stream (aes_of lam) (flat (Z.to_N i)) iv (Z.to_N (lb * 2))) = (2 * (lam / 8))%N) by (rewrite stream_len; lia).
      intros j Hj. destruct (Z.ltb_spec (ofN j) (2 * i + 1)) as [LJ|LJ].
      * eapply holds_frame; [apply NN; exact LJ|exact F2|]. rewrite (proj1 (NK j)). intros q Hq [_ Y]. assert ((ofN j + 1) * lb <= (2 * i + 1) * lb) by (apply Z.mul_le_mono_nonneg_r; lia). lia.
      * assert (j = (2 * Z.to_N i + 1)%N \/ j = (2 * Z.to_N i + 2)%N) as [->| ->] by lia.
        -- rewrite VcProof.ggm_flat_left, <- EL by assumption. replace (ofN (2 * Z.to_N i + 1) * lb) with ((2 * i + 1) * lb + ofN 0) by lia.
           rewrite <- (dropN_0 (stream (aes_of lam) (flat (Z.to_N i)) iv (Z.to_N (lb * 2)))). apply RefVoleHash.holds_sub; [exact HW|rewrite LS; lia].
        -- rewrite VcProof.ggm_flat_right, <- ER by assumption. replace (ofN (2 * Z.to_N i + 2) * lb) with ((2 * i + 1) * lb + lb) by lia.
           apply holds_from; [exact HW|rewrite LS; lia].
    + hass.
  - intros e m' (F & NN & HE). unhas. split.
    { eexists. split; [ev|]. simp. rewrite truth_b. lia. }
    split; [exact F|]. replace (ofN (count d)) with (2 * (ofN (2 ^ d) - 1) + 1) by lia. exact NN.
  - split; [apply frame_refl|]. split; [|hass]. intros i Hi. replace i with 0%N by lia. exact HR.
Qed.

Lemma ref_generate_seeds m R rb ro ib io pb po d : lamb lam -> (1 <= d <= 24)%N -> tspace m R ->
  holds m rb ro root -> lenN root = (lam / 8)%N -> bytes_ok root -> holds m ib io iv -> lenN iv = 16%N -> bytes_ok iv -> parm m pb po lam -> rconst m ->
  calls code f_generate_seeds [VPtr (tr R) 0; VPtr rb ro; VPtr ib io; VPtr pb po; VInt (ofN d)] m (fun v m' => v = VInt 0 /\ frame m m' (tfoot R) /\ exists kb, (mnext m <= kb < mnext m')%positive /\
    filled m' R (VPtr kb 0) (count d) (2 ^ d) /\ inb m' kb 0 (ofN (count d) * lb) /\ nodes m' kb (ofN (count d))).
Proof using.
  intros HL HD SR HR LR BR HI LI BI PM RC. destruct (lamb_b lam HL) as [B1 B2]. destruct (count_b d HD) as [C1 C2]. start code_generate_seeds.
  seq. eapply wp_set; [eapply pe_lambda; [ev|exact PM|exact HL]|].
  eapply (wp_tree 7 8 9 10)%positive; [repeat constructor; cbn; lia|]. intros m1 T e1 F1 NT ST E7 EO.
  assert (E1 : lookup e1 1 = VPtr (tr R) 0) by (rewrite EO by (cbn; lia); look). assert (E2 : lookup e1 2 = VPtr rb ro) by (rewrite EO by (cbn; lia); look). assert (E3 : lookup e1 3 = VPtr ib io) by (rewrite EO by (cbn; lia); look).
  assert (E4 : lookup e1 4 = VPtr pb po) by (rewrite EO by (cbn; lia); look). assert (E5 : lookup e1 5 = VInt (ofN d)) by (rewrite EO by (cbn; lia); look). assert (E6 : lookup e1 6 = VInt lb) by (rewrite EO by (cbn; lia); look). clear EO.
  assert (DJ : forall b, In b (tblocks R) -> ~ In b (tblocks T)).
  { destruct SR as (_ & ((A1 & _) & (A2 & _) & (A3 & _)) & (A4 & A5 & A6)). intros b I. unfold tblocks in I. cbn [In] in I. destruct I as [<-|[<-|[<-|[<-|[]]]]]; eapply in_old; eassumption. }
  assert (PM1 : parm m1 pb po lam) by (eapply off_set; [exact PM|exact F1|intros q []]).
  seq. eapply wp_callf; [evs|apply (ref_create_tree m1 T pb po lam d); assumption|]. intros v m2 (-> & F2 & kb & NK & FT & IK). cbn [set].
  assert (OT : forall b, (b < mnext m)%positive -> ~ In b (tblocks T)) by (intros b L I; apply NT in I; lia).
  assert (M1 := proj1 F1).
  assert (F02 : frame m m2 nothing).
  { eapply frame_comp; [exact F1|exact F2|]. intros b o L _ Y. apply (OT b L). right. exact Y. }
  assert (OK : forall b o d', holds m b o d' -> (0 < lenN d')%N -> b <> kb) by (intros b o d' H L E; destruct (holds_inb _ _ _ _ H) as (Y & _); lia).
  assert (NB : ~ In kb (tblocks T)) by (intros I; apply NT in I; lia).
  assert (LP := lenN_le_bytes 2 lam). change (N.of_nat 2) with 2%N in LP.
  assert (K1 := OK _ _ _ HR ltac:(lia)). assert (K2 := OK _ _ _ HI ltac:(lia)). assert (K3 := OK _ _ _ PM ltac:(lia)). assert (K4 : 12%positive <> kb) by (destruct RC as ((L & _) & _); intros <-; lia).
  assert (X := FT). destruct X as (ST2 & T2 & _ & _). assert (X := ST2). destruct X as (_ & (P0 & P1 & P2) & _).
  assert (HR2 : holds m2 rb ro root) by (eapply off_set; [exact HR|exact F02|intros q []]).
  assert (IK1 : inb m2 kb 0 lb) by (eapply inb_sub; [exact IK|lia|lia|nia]).
  assert (J1 := holds_inb _ _ _ _ HR2). rewrite LR in J1.
  seq. eapply (wp_copy1 _ _ _ _ _ kb 0 rb ro lb); [eapply pe_eq; [eapply pe_at; [eapply pe_to; [eapply pe_ptr; [look|exact P0]|exact T2]|ev]|simp; rewrite wrap_u32 by lia; f_equal; lia]|ev|ev|exact IK1|exact J1|].
  assert (F3 := frame_copy_at m2 kb 0 rb ro lb IK1). assert (C3 : holds (copy m2 kb 0 rb ro lb) kb 0 root).
  { rewrite <- LR. apply holds_copy; [exact HR2|rewrite LR; exact IK1]. }
  generalize dependent (copy m2 kb 0 rb ro lb). intros m3 F3 C3.
  assert (FT3 : filled m3 T (VPtr kb 0) (count d) (2 ^ d)) by (eapply filled_kept; [exact FT|exact F3|intros b q I [-> _]; contradiction]).
  assert (F03 : frame m m3 nothing) by (eapply frame_comp; [exact F02|exact F3|intros b o L _ [-> _]; lia]).
  seq. eapply wp_callf; [evs|apply (ref_expand_seeds m3 T kb ib io pb po d); try assumption; try congruence|].
  { eapply inb_frame; [exact F3|exact IK]. }
  { eapply off_set; [exact HI|exact F03|intros q []]. }
  { eapply off_set; [exact PM|exact F03|intros q []]. }
  { eapply rconst_frame; [exact RC|exact F03|intros q []]. }
  intros w m4 (F4 & NN). cbn [set].
  assert (F04 : frame m m4 nothing) by (eapply frame_comp; [exact F03|exact F4|intros b o L _ [-> _]; lia]).
  assert (FT4 : filled m4 T (VPtr kb 0) (count d) (2 ^ d)) by (eapply filled_kept; [exact FT3|exact F4|intros b q I [-> _]; contradiction]).
  assert (SR4 : tspace m4 R) by (eapply tspace_kept; [exact SR|exact F04|intros q []]).
  eapply (wp_give 1 7); [look|look|exact SR4|exact FT4|exact DJ|].
  intros m5 F5 FR. split; [reflexivity|]. split; [eapply frame_comp; [eapply frame_weak; [exact F04|intros b o _ _ []]|exact F5|intros b o _ _ Y; exact Y]|].
  assert (NR : ~ In kb (tblocks R)).
  { destruct SR as (_ & (((A1 & _) & _) & _) & ((A4 & _) & (A5 & _) & (A6 & _))). intros I. unfold tblocks in I. cbn [In] in I. clear - I A1 A4 A5 A6 NK M1. lia. }
  assert (M3 := proj1 F3). assert (M4 := proj1 F4). assert (M5 := proj1 F5).
  exists kb. split; [clear - NK M1 M3 M4 M5; lia|]. split; [exact FR|]. split; [eapply inb_frame; [exact F5|]; eapply inb_frame; [exact F4|]; eapply inb_frame; [exact F3|]; exact IK|].
  intros i Hi. eapply off_set; [apply NN, Hi|exact F5|]. intros q Y. apply NR. right. exact Y.
Qed.
End Expand.
