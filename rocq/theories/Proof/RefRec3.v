(** The translated reconstruction of a vector commitment. *)
From Coq Require Import ZArith NArith List Bool FMapPositive Lia ZifyBool ZifyNat ZifyN.
From Verif Require Import Model.Base Proof.BaseProof Spec.VcSpec Spec.KeccakSpec.
From Verif Require Proof.VcProof Proof.RefOwf.
From Verif Require Import Model.CtLang Model.CtNames Model.CtVole Model.CtProgram Proof.RefLogic Proof.RefTac Proof.RefMem Proof.RefKeys Proof.RefSnp Proof.RefKeccak Proof.RefSponge Proof.RefSponge4 Proof.RefHash Proof.RefHash4 Proof.RefPrg Proof.RefFresh Proof.RefTree Proof.RefTree2 Proof.RefLeaf Proof.RefVc Proof.RefOpen Proof.RefRec Proof.RefRec2.
Import ListNotations.
Local Open Scope Z_scope.
Arguments wrap : simpl never.

Section Rec.
Variables (lam : N) (iv cop comj : bytes) (d x : N).
Variables (V : vloc) (hb kb cb sb ib ob jb bb : positive) (io oo jo bo : Z).
Notation lb := (ofN (lam / 8)).
Notation n := (ofN (2 ^ d)).
Notation rinputs := (rinputs lam iv cop d x).
Notation known := (known lam iv cop d x kb).
Notation rseed := (rseed lam iv cop d x).
Notation rcom := (rcom lam iv cop d x).
Notation rleaves := (rleaves lam iv cop d x cb sb).
Definition acom (j : N) : bytes := if (j =? x)%N then comj else rcom j.
Definition rcoms (k : nat) : bytes := flat_map (fun j => acom (N.of_nat j)) (List.seq 0 k).
Lemma rcoms_S k : rcoms (S k) = rcoms k ++ acom (N.of_nat k).
Proof using. unfold rcoms. rewrite seq_S, flat_map_app. cbn [flat_map Nat.add]. rewrite app_nil_r. reflexivity. Qed.
Definition comj_ok : Prop := lenN comj = (lam / 8 * 2)%N /\ bytes_ok comj.
Lemma acom_ok j : comj_ok -> lenN (acom j) = (lam / 8 * 2)%N /\ bytes_ok (acom j).
Proof using. intros [L B]. unfold acom. destruct (j =? x)%N; [split; assumption|]. destruct (out_ok lam iv (rleaf lam iv cop d x j)) as (_ & A & _ & C). split; assumption. Qed.
Lemma rcoms_ok k : comj_ok -> lenN (rcoms k) = (lam / 8 * 2 * N.of_nat k)%N /\ bytes_ok (rcoms k).
Proof using.
  intros C. induction k as [|k [L B]]; [split; [rewrite N.mul_0_r; reflexivity|constructor]|]. rewrite rcoms_S. destruct (acom_ok (N.of_nat k) C) as [L' B']. split.
  - rewrite lenN_app, L, L'. lia.
  - apply Forall_app. split; assumption.
Qed.
Lemma rcoms_held m k : comj_ok -> inb m cb 0 0 -> (forall j, (j < N.of_nat k)%N -> holds m cb (ofN j * (lb * 2)) (acom j)) -> holds m cb 0 (rcoms k).
Proof using.
  intros C I. induction k as [|k IH]; intros H.
  - split; [exact I|]. intros i Hi. change (lenN (rcoms 0)) with 0%N in Hi. lia.
  - rewrite rcoms_S. apply RefOwf.holds_app; [apply IH; intros j Hj; apply H; lia|]. rewrite (proj1 (rcoms_ok k C)). replace (0 + ofN (lam / 8 * 2 * N.of_nat k)) with (ofN (N.of_nat k) * (lb * 2)) by lia. apply H. lia.
Qed.

Definition outs (b : positive) (o : Z) : Prop := at_ kb 0 (ofN (count d) * lb) b o \/ two sb 0 (n * lb) cb 0 (n * (lb * 2)) b o \/ at_ hb 0 (lb * 2) b o.
Definition others : list positive := [vv V; vp V 0; vp V 1; vp V 2; vp V 3; ib; ob; jb; bb; 1; 8; 9; 12]%positive.
Definition rsetting (m : mem) : Prop :=
  (vto m V 0 (VPtr hb 0) /\ vto m V 1 (VPtr kb 0) /\ vto m V 2 (VPtr cb 0) /\ vto m V 3 (VPtr sb 0)) /\
  (inb m hb 0 (lb * 2) /\ inb m kb 0 (ofN (count d) * lb) /\ inb m cb 0 (n * (lb * 2)) /\ inb m sb 0 (n * lb)) /\
  (holds m ib io iv /\ holds m ob oo cop /\ holds m jb jo comj /\ holds m bb bo (bits_of x d)) /\
  (rconst m /\ kconst m /\ holds m 8 0 [0%N] /\ holds m 9 0 [1%N]).
Lemma ref_vector_reconstruction m : rinputs -> comj_ok -> rsetting m -> NoDup [hb; kb; cb; sb] -> (forall b, In b [hb; kb; cb; sb] -> ~ In b others) -> ib <> 1%positive ->
  calls code f_vector_reconstruction [VPtr ib io; VPtr ob oo; VPtr jb jo; VPtr bb bo; VInt (ofN lam); VInt (ofN d); VPtr (vv V) (vx V)] m (fun _ m' => frame m m' outs /\ known m' (d + 1) /\
    (forall j, (j < 2 ^ d)%N -> holds m' cb (ofN j * (lb * 2)) (acom j) /\ (j <> x -> holds m' sb (ofN j * lb) (rseed j))) /\ holds m' hb 0 (VcSpec.H1 shake lam (rcoms (N.to_nat (2 ^ d))))).
Proof using.
  intros IN CJ ((V0 & V1 & V2 & V3) & (IH & IK & IC & IS) & (HI & HO & HJ & HB) & (RC & KC & H8 & H9)) ND NO IB. assert (X := IN). destruct X as (HL & HD & HX & LC & BC & LI & BI). destruct (lamb_b lam HL) as [B1 B2]. destruct (count_b d HD) as [C1 C2].
  assert (NL : 0 <= n * lb <= 536870912) by (clear - B1 C2; nia).
  assert (D4 : hb <> kb /\ hb <> cb /\ hb <> sb /\ kb <> cb /\ kb <> sb /\ cb <> sb).
  { assert (W1 := nodup_ne _ 0 1 ND ltac:(cbn; lia)). assert (W2 := nodup_ne _ 0 2 ND ltac:(cbn; lia)). assert (W3 := nodup_ne _ 0 3 ND ltac:(cbn; lia)). assert (W4 := nodup_ne _ 1 2 ND ltac:(cbn; lia)). assert (W5 := nodup_ne _ 1 3 ND ltac:(cbn; lia)). assert (W6 := nodup_ne _ 2 3 ND ltac:(cbn; lia)). cbn [nth] in *. splits; assumption. }
  assert (NO' : forall b c, In b [hb; kb; cb; sb] -> In c others -> b <> c) by (intros b c I J E; rewrite E in I; exact (NO c I J)).
  assert (OV : forall c, In c [vv V; vp V 0; vp V 1; vp V 2; vp V 3; ib; ob; jb; bb; 1; 8; 9; 12]%positive -> In c others) by (intros c J; exact J).
  destruct D4 as (D01 & D02 & D03 & D12 & D13 & D23).
  start code_vector_reconstruction. seq.
  eapply wp_set; [eapply pe_eq; [eapply pe_div; [ev|ev|lia]|unfold u32; rewrite divu by lia; instantiate (1 := VInt lb); rewrite N2Z.inj_div; reflexivity]|].
  seq. eapply wp_set; [eapply pe_eq; [ev|]|].
  { simp. rewrite shl1 by lia. rewrite <- pow_z. rewrite wrap_u32 by lia. reflexivity. }
  seq. eapply wp_callf; [evs|apply (ref_NumRec m d bb bo x); [lia|exact HB]|]. intros w m' (-> & ->). cbn [set]. rewrite N.mod_small by exact HX.
  seq. eapply wp_set; [ev|]. seq. eapply wp_set; [ev|]. seq. eapply wp_set; [ev|].
  assert (RA : rapart V kb ib ob bb) by (unfold rapart; splits; apply NO'; cbn; tauto).
  eapply wp_seq. eapply (wp_levels lam iv cop d x V kb ib ob jb bb io oo jo bo); [exact IN|exact RA|unfold rgiven; splits; assumption|unfold rvars; hass|].
  intros e1 m1 a i VA1 RG1 F1 KN1. cbv beta iota.
  assert (AW : forall b, In b [kb; cb; sb; hb] -> In b [hb; kb; cb; sb]) by (intros b; cbn; tauto).
  assert (V1K : forall f v, 0 <= f <= 3 -> vto m V f v -> vto m1 V f v).
  { intros f v Hf T. eapply vto_kept; [exact T|exact F1|intros q [Y _]; revert Y; apply not_eq_sym, NO'; cbn; tauto|intros q [Y _]; revert Y; apply not_eq_sym, NO'; [cbn; tauto|]].
    assert (f = 0 \/ f = 1 \/ f = 2 \/ f = 3) as [->|[->|[->| ->]]] by (clear - Hf; lia); cbn; tauto. }
  assert (KP : forall b o l, holds m b o l -> b <> kb -> holds m1 b o l) by (intros b o l H NE; eapply off_block; [exact H|exact F1|congruence]).
  assert (SG : rstage lam iv cop d x V kb cb sb ib io m1).
  { split; [splits; apply V1K; try assumption; lia|]. split; [splits; (apply KP; [assumption|]); apply not_eq_sym, NO'; cbn; tauto|]. split; [exact KN1|]. split; (eapply inb_frame; [exact F1|assumption]). }
  assert (AP : lapart V kb cb sb ib).
  { unfold lapart, raway. splits; try (apply NO'; cbn; tauto); try congruence. }
  assert (VL : lvars lam d x V ib jb io jo (PositiveMap.add 22%positive (VInt 0) e1) 0) by (unfold rvars in VA1; unhas; unfold lvars; hass).
  seq. eapply wp_set; [ev|].
  assert (RD : ready lam iv cop d x V kb cb sb ib jb io jo m1 0 (PositiveMap.add 22%positive (VInt 0) e1) m1).
  { split; [exact VL|]. split; [exact SG|]. split; [apply frame_refl|]. intros j Hj. lia. }
  generalize dependent (PositiveMap.add 22%positive (VInt 0) e1). clear VA1 e1. intros e1 VL RD.
  assert (X4 : 0 <= ofN x / 4 /\ 4 * (ofN x / 4) <= ofN x < 4 * (ofN x / 4) + 4) by (clear; lia).
  assert (N4 : n = 2 \/ n mod 4 = 0).
  { destruct (N.eq_dec d 1) as [->|]; [left; reflexivity|right]. replace d with (2 + (d - 2))%N by lia. rewrite N.pow_add_r. change (2 ^ 2)%N with 4%N. clear. lia. }
  assert (LN : ofN x < n) by lia.
  eapply wp_seq. eapply (wp_fours lam iv cop d x V kb cb sb ib jb io jo _ 23 24 25 26 27 28 29 30 31 32 33 34 0 (ofN x / 4));
    [repeat constructor; cbn; lia|cbn; lia|cbn; lia|repeat constructor; cbn; lia|exact IN|exact AP|lia|lia|lia|lia|exact RD| |].
  { intros j e m' Hj Mj VA. unfold lvars in VA. unhas. eexists. split; [eapply pe_bin; [ev|eapply pe_bin; [eapply pe_div; [ev|ev|lia]|ev]]|]. simp. rewrite truth_b. unfold u64 at 2. rewrite divu by lia. rewrite wrap_u64 by lia. lia. }
  clear RD VL e1. rewrite Z.add_0_l. intros e2 m2 RD2. cbv beta iota.
  eapply wp_seq. eapply (wp_ones lam iv cop d x V kb cb sb ib jb io jo _ 35 36 37 38 39 40 41 42 43 (4 * (ofN x / 4)) (ofN x));
    [repeat constructor; cbn; lia|cbn; lia|lia|lia|exact IN|exact AP|lia|lia|lia|exact RD2| |].
  { intros j e m' Hj VA. unfold lvars in VA. unhas. eexists. split; [ev|]. simp. rewrite truth_b. reflexivity. }
  clear RD2 e2 m2. intros e2 m2 (VA2 & SS2 & FF2 & LV2). cbv beta iota.
  assert (VL : lvars lam d x V ib jb io jo (PositiveMap.add 22%positive (VInt (ofN x + 1)) e2) (ofN x + 1)) by (unfold lvars in VA2; unhas; unfold lvars; hass).
  seq. eapply wp_set; [unfold lvars in VA2; unhas; eapply pe_eq; [ev|simp; rewrite wrap_u32 by lia; reflexivity]|].
  assert (RD : ready lam iv cop d x V kb cb sb ib jb io jo m1 (ofN x + 1) (PositiveMap.add 22%positive (VInt (ofN x + 1)) e2) m2).
  { split; [exact VL|]. split; [exact SS2|]. split; [exact FF2|]. intros j Hj NE. apply LV2; [lia|exact NE]. }
  generalize dependent (PositiveMap.add 22%positive (VInt (ofN x + 1)) e2). clear VA2 SS2 FF2 LV2 e2. intros e2 VL RD.
  set (h := Z.min n (4 * ((ofN x + 4) / 4))). assert (Hh : ofN x + 1 <= h <= n) by (clear - LN; subst h; lia).
  eapply wp_seq. eapply (wp_ones lam iv cop d x V kb cb sb ib jb io jo _ 44 45 46 47 48 49 50 51 52 (ofN x + 1) h);
    [repeat constructor; cbn; lia|cbn; lia|lia|lia|exact IN|exact AP|lia|lia|lia|exact RD| |].
  { intros j e m' Hj VA. unfold lvars in VA. unhas. destruct (Z.ltb_spec j n) as [EN|EN].
    - exists (VInt (b2z (negb (j mod 4 =? 0)))). split; [|rewrite truth_b; clear - Hj EN; subst h; lia]. eapply pe_cond; [ev|]. simp. rewrite truth_b. replace (j <? n) with true by lia.
      eapply pe_eq; [eapply pe_bin; [eapply pe_div; [ev|ev|lia]|ev]|]. cbn [bin]. unfold u32 at 1. rewrite divu by lia. reflexivity.
    - exists (VInt 0). split; [|clear - Hj EN; cbn; lia]. eapply pe_cond; [ev|]. simp. rewrite truth_b. replace (j <? n) with false by lia. ev. }
  clear RD VL e2 m2. intros e2 m2 RD2. cbv beta iota.
  set (k := (n - h) / 4). assert (Hk : 0 <= k /\ h + 4 * k <= n < h + 4 * k + 4) by (clear - Hh; subst k; lia).
  assert (HM : h mod 4 = 0 \/ n = 2 /\ h = 2) by (clear - N4 LN; subst h; lia).
  eapply wp_seq. eapply (wp_fours lam iv cop d x V kb cb sb ib jb io jo _ 53 54 55 56 57 58 59 60 61 62 63 64 h k);
    [repeat constructor; cbn; lia|cbn; lia|cbn; lia|repeat constructor; cbn; lia|exact IN|exact AP|lia|lia|lia|lia|exact RD2| |].
  { intros j e m' Hj Mj VA. unfold lvars in VA. unhas. eexists. split; [eapply pe_bin; [ev|eapply pe_bin; [eapply pe_div; [ev|ev|lia]|ev]]|]. simp. rewrite truth_b. unfold u32 at 2. rewrite divu by lia. rewrite wrap_u32 by lia. clear - Hj Mj HM Hk N4 C2. lia. }
  clear RD2 e2 m2. intros e2 m2 RD2. cbv beta iota.
  eapply wp_seq. eapply (wp_ones lam iv cop d x V kb cb sb ib jb io jo _ 65 66 67 68 69 70 71 72 73 (h + 4 * k) n);
    [repeat constructor; cbn; lia|cbn; lia|lia|lia|exact IN|exact AP|lia|lia|lia|exact RD2| |].
  { intros j e m' Hj VA. unfold lvars in VA. unhas. eexists. split; [ev|]. simp. rewrite truth_b. reflexivity. }
  clear RD2 e2 m2 Hk HM k Hh h X4 N4. intros e m2 (VA & SS & FF & LV). cbv beta iota.
  assert (X := SS). destruct X as ((_ & V2' & _) & (_ & _ & KC2) & KN2 & (IS2 & IC2)). destruct CJ as [LJ BJ].
  assert (TN : forall b o, two sb 0 (n * lb) cb 0 (n * (lb * 2)) b o -> b = sb \/ b = cb) by (intros b o [[-> _]|[-> _]]; auto).
  assert (HJ2 : holds m2 jb jo comj).
  { eapply off_set; [apply KP; [exact HJ|apply not_eq_sym, NO'; cbn; tauto]|exact FF|]. intros q Y. apply TN in Y. destruct Y as [Y|Y]; revert Y; apply not_eq_sym, NO'; cbn; tauto. }
  assert (Q1 : (ofN x + 1) * lb <= n * lb) by (apply Z.mul_le_mono_nonneg_r; lia).
  assert (J2 : inb m2 cb (ofN x * (lb * 2)) (lb * 2)) by (clear - IC2 Q1 B1; eapply inb_sub; [exact IC2|nia|lia|lia]).
  assert (J2' : inb m2 jb jo (lb * 2)) by (assert (Y := holds_inb _ _ _ _ HJ2); rewrite LJ in Y; replace (lb * 2) with (ofN (lam / 8 * 2)) by lia; exact Y).
  assert (VA' := VA). unfold lvars in VA'. unhas.
  seq. eapply (wp_copy1 _ _ _ _ _ cb (ofN x * (lb * 2)) jb jo (lb * 2)); [eapply pe_at0; [eapply pe_vto; [look|exact V2']|eapply pe_eq; [ev|]]|ev|eapply pe_eq; [ev|simp; rewrite wrap_u32 by lia; reflexivity]|exact J2|exact J2'|].
  { simp. rewrite (wrap_u32 (lb * 2)) by lia. rewrite Z.mul_comm, wrap_u64 by lia. reflexivity. }
  assert (F3 := frame_copy_at m2 cb (ofN x * (lb * 2)) jb jo (lb * 2) J2).
  assert (HX3 : holds (copy m2 cb (ofN x * (lb * 2)) jb jo (lb * 2)) cb (ofN x * (lb * 2)) comj).
  { assert (Y := holds_copy m2 cb (ofN x * (lb * 2)) jb jo comj HJ2). rewrite LJ in Y. replace (ofN (lam / 8 * 2)) with (lb * 2) in Y by lia. exact (Y J2). }
  generalize dependent (copy m2 cb (ofN x * (lb * 2)) jb jo (lb * 2)). intros m3 F3 HX3.
  assert (KN3 : known m3 (d + 1)) by (intros l p Hl Hp; eapply off_block; [apply KN2; assumption|exact F3|congruence]).
  assert (CM3 : forall j, (j < 2 ^ d)%N -> holds m3 cb (ofN j * (lb * 2)) (acom j)).
  { intros j Hj. unfold acom. destruct (N.eqb_spec j x) as [->|NE]; [exact HX3|]. destruct (LV j ltac:(lia) NE) as [_ Y]. eapply holds_frame; [exact Y|exact F3|]. unfold RefRec2.rcom. rewrite (proj1 (proj2 (out_ok lam iv (rleaf lam iv cop d x j)))).
    intros q Hq [_ Z]. clear - Hq Z NE B1. assert (ofN j < ofN x \/ ofN x < ofN j) as [L|L] by lia; [assert ((ofN j + 1) * (lb * 2) <= ofN x * (lb * 2)) by (apply Z.mul_le_mono_nonneg_r; lia)|assert ((ofN x + 1) * (lb * 2) <= ofN j * (lb * 2)) by (apply Z.mul_le_mono_nonneg_r; lia)]; lia. }
  assert (SD3 : forall j, (j < 2 ^ d)%N -> j <> x -> holds m3 sb (ofN j * lb) (rseed j)).
  { intros j Hj NE. destruct (LV j ltac:(lia) NE) as [Y _]. eapply off_block; [exact Y|exact F3|congruence]. }
  set (S3 := fun b o => at_ kb 0 (ofN (count d) * lb) b o \/ two sb 0 (n * lb) cb 0 (n * (lb * 2)) b o).
  assert (F03 : frame m m3 S3).
  { eapply frame_comp; [eapply frame_comp; [eapply frame_weak; [exact F1|intros b o _ _ Y; left; exact Y]|exact FF|intros b o _ _ Y; right; exact Y]|exact F3|]. intros b o _ _ [-> Y]. right. right. split; [reflexivity|]. clear - Y Q1 B1. nia. }
  assert (SB : forall b o, S3 b o -> In b [kb; cb; sb]) by (intros b o [[-> _]|Y]; [cbn; auto|apply TN in Y; destruct Y as [->| ->]; cbn; auto]).
  assert (SO : forall c q, In c others -> ~ S3 c q) by (intros c q I Y; apply SB in Y; revert I; apply NO; cbn in Y |- *; tauto).
  assert (VK3 : forall f v, 0 <= f <= 3 -> vto m V f v -> vto m3 V f v).
  { intros f v Hf T. eapply vto_kept; [exact T|exact F03|intros q; apply SO; cbn; tauto|intros q; apply SO]. assert (f = 0 \/ f = 1 \/ f = 2 \/ f = 3) as [->|[->|[->| ->]]] by (clear - Hf; lia); cbn; tauto. }
  assert (KC3 : kconst m3) by (eapply off_set; [exact KC|exact F03|intros q; apply SO; cbn; tauto]).
  assert (H93 : holds m3 9 0 [1%N]) by (eapply off_set; [exact H9|exact F03|intros q; apply SO; cbn; tauto]).
  assert (IH3 : inb m3 hb 0 (lb * 2)) by (eapply inb_frame; [exact F03|exact IH]).
  assert (IC3 : inb m3 cb 0 (n * (lb * 2))) by (eapply inb_frame; [exact F3|exact IC2]).
  clear V2' KC2 KN2 IS2 IC2 HJ2 J2 J2' HX3 F3 SS LV FF SG KN1 RG1 V1K.
  assert (CJ : comj_ok) by (split; assumption). destruct (rcoms_ok (N.to_nat (2 ^ d)) CJ) as [LR BR]. rewrite N2Nat.id in LR.
  assert (HR : holds m3 cb 0 (rcoms (N.to_nat (2 ^ d)))) by (apply rcoms_held; [exact CJ|eapply inb_sub; [exact IC3|lia|lia|lia]|intros j Hj; apply CM3; lia]).
  apply (wp_started f_H1_init) with (lam := lam); [exact code_H1_init|repeat constructor; cbn; lia|cbn; lia|exact KC3|look|lia|]. intros m4 L e4 F4 NW ND4 A4 EA EO.
  assert (E : has e4 [(7%positive, VPtr (vv V) (vx V)); (8%positive, VInt lb); (9%positive, VInt n)]) by (cbn [has]; splits; try exact Logic.I; (rewrite EO by (cbn; lia); look)). clear EO.
  assert (FN := fun b o => foot_new m3 m4 L b o NW ND4).
  assert (FK : forall m', frame m4 m' (foot L) -> frame m3 m' nothing) by (intros m' F; eapply frame_comp; [exact F4|exact F|intros b o Y _ Z; destruct (FN _ _ Z Y)]).
  repeat match goal with H : lookup e _ = _ |- _ => clear H end. clear VA. unhas.
  assert (VK4 : forall f v m', frame m3 m' nothing -> 0 <= f <= 3 -> vto m V f v -> vto m' V f v) by (intros f v m' F Hf T; eapply vto_kept; [apply VK3; eassumption|exact F|intros q []|intros q []]).
  assert (LRz : ofN (lenN (rcoms (N.to_nat (2 ^ d)))) = lb * 2 * n) by (rewrite LR; clear; lia).
  assert (N1 : forall c, In c [hb; kb; cb; sb] -> c <> 1%positive) by (intros c I; apply NO'; [exact I|cbn; tauto]).
  seq. eapply wp_callf with (vs := [VPtr (cx L) 0; VPtr cb 0; VInt (ofN (lenN (rcoms (N.to_nat (2 ^ d)))))]).
  { eapply pes_cons; [ev|]. eapply pes_cons; [eapply pe_vto; [look|apply (VK4 2); [exact F4|lia|exact V2]]|]. eapply pes_cons; [|apply pes_nil]. rewrite LRz. eapply pe_eq; [ev|]. simp. rewrite (wrap_u32 (lb * 2)) by lia. rewrite wrap_u32 by lia. reflexivity. }
  { apply (ref_H_update f_H1_update m4 L lam [] cb 0 (rcoms (N.to_nat (2 ^ d)))); [exact code_H1_update|exact A4|eapply off_set; [exact HR|exact F4|intros q []]|exact BR| |lia].
    eapply off_new; [exact NW|]. split; [exact (proj1 IC3)|apply N1; cbn; tauto]. }
  intros w m5 (F5 & A5). cbn [set app] in A5 |- *. assert (G5 := FK _ F5).
  eapply wp_callf with (vs := [VPtr (cx L) 0; VPtr hb 0; VInt (ofN (lam / 8 * 2))]).
  { eapply pes_cons; [ev|]. eapply pes_cons; [eapply pe_vto; [look|apply (VK4 0); [exact G5|lia|exact V0]]|]. eapply pes_cons; [eapply pe_eq; [ev|simp; rewrite wrap_u32 by lia; f_equal; lia]|apply pes_nil]. }
  { apply (ref_H_final1 f_H1_final 9 1 m5 L lam (rcoms (N.to_nat (2 ^ d))) hb 0 (lam / 8 * 2)); [exact code_H1_final|exact A5|eapply off_set; [exact H93|exact G5|intros q []]|lia|eapply off_new; [exact NW|split; [exact (proj1 (proj1 H93))|lia]]| |eapply off_new; [exact NW|split; [exact (proj1 IH3)|apply N1; cbn; tauto]]|lia].
    replace (ofN (lam / 8 * 2)) with (lb * 2) by lia. eapply inb_frame; [exact G5|exact IH3]. }
  intros w' m6 (F6 & HH). cbn [set].
  assert (F36 : frame m3 m6 (at_ hb 0 (lb * 2))).
  { eapply frame_comp; [eapply frame_weak; [exact G5|intros b o _ _ []]|exact F6|]. intros b o Y _ [Z|Z]; [destruct (FN _ _ Z Y)|]. destruct Z as [-> Z]. split; [reflexivity|lia]. }
  split; [|split; [|split]].
  - eapply frame_comp; [eapply frame_weak; [exact F03|]|exact F36|]; intros b o _ _ Y; [destruct Y as [Y|Y]; [left; exact Y|right; left; exact Y]|right; right; exact Y].
  - intros l p Hl Hp. eapply off_block; [apply KN3; assumption|exact F36|congruence].
  - intros j Hj. split; [eapply off_block; [apply CM3, Hj|exact F36|congruence]|]. intros NE. eapply off_block; [apply SD3; [exact Hj|exact NE]|exact F36|congruence].
  - unfold VcSpec.H1. rewrite shake_level. exact HH.
Qed.
End Rec.
