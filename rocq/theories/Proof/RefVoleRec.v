(** The translated reconstruction of all the columns: vole.c, vole_reconstruct. *)
From Coq Require Import ZArith NArith List Bool FMapPositive Lia ZifyBool ZifyNat ZifyN.
From Verif Require Import Model.Base Proof.BaseProof Spec.OwfSpec Spec.VcSpec Spec.KeccakSpec.
From Verif Require Import Proof.PrgProof.
From Verif Require Proof.VcProof Proof.VoleProof Proof.RefOwf Proof.ShakeRun Proof.RefBytes.
From Verif Require Import Model.CtLang Model.CtNames Model.CtVole Model.CtProgram Proof.RefLogic Proof.RefTac Proof.RefMem Proof.RefKeys Proof.RefPrg Proof.RefSnp Proof.RefKeccak Proof.RefSponge Proof.RefHash Proof.RefFresh Proof.RefTree Proof.RefTree2 Proof.RefLeaf Proof.RefVc Proof.RefRec Proof.RefRec2 Proof.RefRec3 Proof.RefConv Proof.RefChal Proof.RefVoleCommit.
Import ListNotations.
Local Open Scope Z_scope.
Arguments wrap : simpl never.

Lemma code_vole_reconstruct : PositiveMap.find f_vole_reconstruct code = Some c_vole_reconstruct. Proof. vm_compute. reflexivity. Qed.
Lemma lxor_lt d x y : (x < 2 ^ d)%N -> (y < 2 ^ d)%N -> (N.lxor x y < 2 ^ d)%N.
Proof.
  intros A B. assert (E : (N.lxor x y = N.lxor x y mod 2 ^ d)%N); [|rewrite E; apply N.mod_lt, N.pow_nonzero; discriminate].
  apply N.bits_inj. intros i. destruct (N.ltb_spec i d).
  - rewrite N.mod_pow2_bits_low by assumption. reflexivity.
  - rewrite N.mod_pow2_bits_high by assumption. rewrite <- (N.mod_small x (2 ^ d)), <- (N.mod_small y (2 ^ d)) by assumption. rewrite N.lxor_spec, !N.mod_pow2_bits_high by assumption. reflexivity.
Qed.
Lemma low_max k0 k1 t0 t : (k0 <= 12)%N -> (k1 <= 12)%N -> (low k0 k1 t0 t <= t * 12)%N.
Proof. intros A B. induction t as [|t IH] using N.peano_ind; [rewrite low_0; lia|]. rewrite <- N.add_1_r, low_S. unfold dep. destruct (t <? t0)%N; lia. Qed.
Lemma rnums (w d W l : N) : (w + d <= W)%N -> (1 <= l)%N -> (W * l < 2 ^ 32)%N ->
  (ofN w + ofN d) * ofN l <= ofN W * ofN l /\ 0 <= ofN w * ofN l /\ 0 <= ofN d * ofN l /\ ofN W * ofN l < 4294967296 /\ ofN W <= ofN W * ofN l.
Proof.
  intros A C F. splits; try lia; try (apply Z.mul_le_mono_nonneg_r; lia); try (apply Z.mul_nonneg_nonneg; lia).
  rewrite <- (Z.mul_1_r (ofN W)) at 1. apply Z.mul_le_mono_nonneg_l; lia.
Qed.
Lemma count12 d : (1 <= d <= 12)%N -> 2 <= ofN (2 ^ d) <= 4096 /\ ofN (count d) = 2 * ofN (2 ^ d) - 1.
Proof.
  intros H. destruct (count_b d ltac:(lia)) as [A B]. split; [|exact A]. split; [lia|]. assert (X := N.pow_le_mono_r 2 d 12 ltac:(lia) ltac:(lia)). change (2 ^ 12)%N with 4096%N in X. lia.
Qed.

(** ** A context whose code is split *)
Definition code_context1 (a b c d e f g h : positive) (n : Z) : stmt :=
  SAlloc a (EInt 3) ;; SAlloc b (EInt 4) ;; SAlloc c (EInt n) ;; SStoreF (EVar b) 4 0 (EVar c) ;; SAlloc d (EInt 4) ;; SStoreF (EVar b) 4 1 (EVar d) ;;
  SAlloc e (EInt 4) ;; SStoreF (EVar b) 4 2 (EVar e) ;; SAlloc f (EInt 4) ;; SStoreF (EVar b) 4 3 (EVar f) ;; SStoreF (EVar a) 3 0 (EVar b) ;;
  SAlloc g (EInt 4) ;; SStoreF (EVar a) 3 1 (EVar g) ;; SAlloc h (EInt 1).
Lemma wp_context2 a b c d e f g h n s en m (Q : outcome -> env -> mem -> Prop) : NoDup [a; b; c; d; e; f; g; h] -> 0 <= n -> kconst m ->
  (forall m' L en', frame m m' nothing -> newer m m' L -> spaces n m' L -> lookup en' a = VPtr (cx L) 0 -> (forall x, ~ In x [a; b; c; d; e; f; g; h] -> lookup en' x = lookup en x) -> wp code s en' m' Q) ->
  wp code (code_context1 a b c d e f g h n) en m (fun o e' m' => match o with ONormal => wp code (SStoreF (EVar a) 3 2 (EVar h) ;; s) e' m' Q | _ => Q o e' m' end).
Proof.
  intros ND N0 KC K. unfold code_context1.
  assert (NE : forall i j, (i < j < 8)%nat -> nth i [a; b; c; d; e; f; g; h] 1%positive <> nth j [a; b; c; d; e; f; g; h] 1%positive) by (intros i j X; apply nodup_ne; [exact ND|exact X]).
  assert (K1 : (1 < mnext m)%positive) by (destruct KC as ((L & _) & _); exact L).
  assert (Eab := NE 0%nat 1%nat ltac:(lia)). assert (Ebc := NE 1%nat 2%nat ltac:(lia)). assert (Eac := NE 0%nat 2%nat ltac:(lia)). assert (Ebd := NE 1%nat 3%nat ltac:(lia)). assert (Ead := NE 0%nat 3%nat ltac:(lia)).
  assert (Ebe := NE 1%nat 4%nat ltac:(lia)). assert (Eae := NE 0%nat 4%nat ltac:(lia)). assert (Ebf := NE 1%nat 5%nat ltac:(lia)). assert (Eaf := NE 0%nat 5%nat ltac:(lia)). assert (Eag := NE 0%nat 6%nat ltac:(lia)). assert (Eah := NE 0%nat 7%nat ltac:(lia)).
  cbn [nth] in Eab, Ebc, Eac, Ebd, Ead, Ebe, Eae, Ebf, Eaf, Eag, Eah. clear NE.
  assert (LN : forall (E : env) x y v, y <> x -> lookup (PositiveMap.add x v E) y = lookup E y) by (intros E x y v X; rewrite lookup_add; destruct (Pos.eqb_spec y x); [contradiction|reflexivity]).
  assert (LE : forall (E : env) x v, lookup (PositiveMap.add x v E) x = v) by (intros E x v; rewrite lookup_add, Pos.eqb_refl; reflexivity).
  seq. apply (wp_new _ _ _ _ 3); [ev|lia|]. intros b1 m1 B1 X1 F1 I1. cbv iota.
  seq. apply (wp_new _ _ _ _ 4); [ev|lia|]. intros b2 m2 B2 X2 F2 I2. cbv iota.
  seq. apply (wp_new _ _ _ _ n); [ev|lia|]. intros b3 m3 B3 X3 F3 I3. cbv iota.
  seq. eapply (wp_member _ _ _ _ _ _ b2 b3); [apply pe_var; rewrite !LN by auto; apply LE|apply pe_var; apply LE|inb_in|]. intros m4 X4 F4 P20. cbv iota.
  seq. apply (wp_new _ _ _ _ 4); [ev|lia|]. intros b4 m5 B4 X5 F5 I4. cbv iota.
  seq. eapply (wp_member _ _ _ _ _ _ b2 b4); [apply pe_var; rewrite !LN by auto; apply LE|apply pe_var; apply LE|inb_in|]. intros m6 X6 F6 P21. cbv iota.
  seq. apply (wp_new _ _ _ _ 4); [ev|lia|]. intros b5 m7 B5 X7 F7 I5. cbv iota.
  seq. eapply (wp_member _ _ _ _ _ _ b2 b5); [apply pe_var; rewrite !LN by auto; apply LE|apply pe_var; apply LE|inb_in|]. intros m8 X8 F8 P22. cbv iota.
  seq. apply (wp_new _ _ _ _ 4); [ev|lia|]. intros b6 m9 B6 X9 F9 I6. cbv iota.
  seq. eapply (wp_member _ _ _ _ _ _ b2 b6); [apply pe_var; rewrite !LN by auto; apply LE|apply pe_var; apply LE|inb_in|]. intros m10 X10 F10 P23. cbv iota.
  seq. eapply (wp_member _ _ _ _ _ _ b1 b2); [apply pe_var; rewrite !LN by auto; apply LE|apply pe_var; rewrite !LN by auto; apply LE|inb_in|]. intros m11 X11 F11 P10. cbv iota.
  seq. apply (wp_new _ _ _ _ 4); [ev|lia|]. intros b7 m12 B7 X12 F12 I7. cbv iota.
  seq. eapply (wp_member _ _ _ _ _ _ b1 b7); [apply pe_var; rewrite !LN by auto; apply LE|apply pe_var; apply LE|inb_in|]. intros m13 X13 F13 P11. cbv iota.
  apply (wp_new _ _ _ _ 1); [ev|lia|]. intros b8 m14 B8 X14 F14 I8. cbv iota.
  seq. eapply (wp_member _ _ _ _ _ _ b1 b8); [apply pe_var; rewrite !LN by auto; apply LE|apply pe_var; apply LE|inb_in|]. intros m15 X15 F15 P12. cbv iota.
  match goal with |- wp _ _ ?en' _ _ => apply (K m15 (Loc b1 b2 b3 b4 b5 b6 b7 b8) en') end;
    [| | |cbn [cx]; rewrite !LN by auto; apply LE|intros x X; cbn [In] in X; rewrite !LN by intuition; reflexivity].
  all: clear Eab Ebc Eac Ebd Ead Ebe Eae Ebf Eaf Eag Eah LN LE ND K; rewrite B1 in K1;
    assert (G2 : b2 = Pos.succ b1) by congruence; assert (G3 : b3 = Pos.succ b2) by congruence; assert (G4 : b4 = Pos.succ b3) by congruence; assert (G5 : b5 = Pos.succ b4) by congruence;
    assert (G6 : b6 = Pos.succ b5) by congruence; assert (G7 : b7 = Pos.succ b6) by congruence; assert (G8 : b8 = Pos.succ b7) by congruence; assert (G9 : mnext m15 = Pos.succ b8) by congruence.
  all: clear B2 B3 B4 B5 B6 B7 B8 X1 X2 X3 X4 X5 X6 X7 X8 X9 X10 X11 X12 X13 X14 X15.
  - repeat (first [apply frame_refl | match goal with F : frame _ ?x _ |- frame _ ?x _ => eapply frame_comp; [|exact F|]; [|clear - B1 G2; intros ? ? ? ? []; lia] end]).
  - intros x X NX. cbn [In blocks cx sp stb rtb ixb sqb flb dsb] in X. clear - B1 X NX G2 G3 G4 G5 G6 G7 G8 G9. lia.
  - split; [clear - K1 G2 G3 G4 G5 G6 G7 G8 G9; unfold blocks; cbn [cx sp stb rtb ixb sqb flb dsb]; repeat constructor; cbn [In]; lia|].
    splits; cbn [cx sp stb rtb ixb sqb flb dsb]; try inb_in;
    repeat (match goal with |- ptr ?m _ _ _ => first [assumption | match goal with F : frame _ m _ |- _ => eapply ptr_at; [|exact F|]; [|clear - G2; intros []; lia] end] end).
Qed.

Lemma wp_started2 f a b c d e g h i lv s en m lam (Q : outcome -> env -> mem -> Prop) : PositiveMap.find f code = Some code_init -> NoDup [a; b; c; d; e; g; h; i] -> ~ In lv [a; b; c; d; e; g; h; i] -> kconst m ->
  lookup en lv = VInt (ofN lam) -> (lam < 2^32)%N ->
  (forall m' L en', frame m m' nothing -> newer m m' L -> NoDup (blocks L) -> absorbing m' L lam [] -> lookup en' a = VPtr (cx L) 0 -> agree [a; b; c; d; e; g; h; i] en en' -> wp code s en' m' Q) ->
  wp code (code_context1 a b c d e g h i 200) en m (fun o e' m' => match o with ONormal => wp code (SStoreF (EVar a) 3 2 (EVar i) ;; SCall None f [EVar a; EVar lv] ;; s) e' m' Q | _ => Q o e' m' end).
Proof.
  intros FC ND NV KC EL LL K. apply wp_context2; [exact ND|lia|exact KC|]. intros m1 L e1 F1 NW SP EA EO.
  assert (SP' : space m1 L) by exact SP.
  assert (KC1 : kconst m1) by (eapply off_set; [exact KC|exact F1|intros q []]).
  seq. eapply wp_callf; [eapply pes_cons; [apply pe_var; exact EA|eapply pes_cons; [apply pe_var; rewrite EO by exact NV; exact EL|apply pes_nil]]|apply (ref_H_init f m1 L lam); assumption|].
  intros v m2 (F2 & A2). cbn [set]. assert (NB := proj1 SP').
  apply (K m2 L e1); [|eapply newer_next; eassumption|exact NB|exact A2|exact EA|exact EO].
  eapply frame_comp; [exact F1|exact F2|]. intros b' o X _ Y. destruct (foot_new _ _ _ _ _ NW NB Y X).
Qed.
(** ** The structure of the receiver *)
Definition code_struct (s : stmt) : stmt :=
  SAlloc 27 (EInt 4) ;; SAlloc 28 (EInt 1) ;; SStoreF (EVar 27) 4 0 (EVar 28) ;; SAlloc 29 (EInt 1) ;; SStoreF (EVar 27) 4 1 (EVar 29) ;;
  SAlloc 30 (EInt 1) ;; SStoreF (EVar 27) 4 2 (EVar 30) ;; SAlloc 31 (EInt 1) ;; SStoreF (EVar 27) 4 3 (EVar 31) ;; s.
Lemma wp_struct s en m (Q : outcome -> env -> mem -> Prop) :
  (forall m' V en', frame m m' nothing -> vx V = 0 -> (mnext m <= vv V /\ vv V < vp V 0 /\ vp V 0 < vp V 1 /\ vp V 1 < vp V 2 /\ vp V 2 < vp V 3 /\ vp V 3 < mnext m')%positive ->
    member m' V 0 /\ member m' V 1 /\ member m' V 2 /\ member m' V 3 -> lookup en' 27 = VPtr (vv V) 0 -> agree [27; 28; 29; 30; 31]%positive en en' -> wp code s en' m' Q) ->
  wp code (code_struct s) en m Q.
Proof.
  intros K. unfold code_struct.
  seq. apply (wp_new _ _ _ _ 4); [ev|lia|]. intros b m1 B1 X1 F1 I1. cbv iota.
  seq. apply (wp_new _ _ _ _ 1); [ev|lia|]. intros b0 m2 B2 X2 F2 I2. cbv iota.
  seq. eapply (wp_member _ _ _ _ _ _ b b0); [ev|ev|inb_in|]. intros m3 X3 F3 P0. cbv iota.
  seq. apply (wp_new _ _ _ _ 1); [ev|lia|]. intros b1 m4 B4 X4 F4 I4. cbv iota.
  seq. eapply (wp_member _ _ _ _ _ _ b b1); [ev|ev|inb_in|]. intros m5 X5 F5 P1. cbv iota.
  seq. apply (wp_new _ _ _ _ 1); [ev|lia|]. intros b2 m6 B6 X6 F6 I6. cbv iota.
  seq. eapply (wp_member _ _ _ _ _ _ b b2); [ev|ev|inb_in|]. intros m7 X7 F7 P2. cbv iota.
  seq. apply (wp_new _ _ _ _ 1); [ev|lia|]. intros b3 m8 B8 X8 F8 I8. cbv iota.
  seq. eapply (wp_member _ _ _ _ _ _ b b3); [ev|ev|inb_in|]. intros m9 X9 F9 P3. cbv iota.
  match goal with |- wp _ _ ?en' _ _ => apply (K m9 (VLoc b 0 (fun f => if f =? 0 then b0 else if f =? 1 then b1 else if f =? 2 then b2 else b3)) en') end; cbn [vv vx vp Z.eqb Pos.eqb].
  - repeat (first [apply frame_refl | match goal with F : frame _ ?x _ |- frame _ ?x _ => eapply frame_comp; [|exact F|]; [|clear - B1; intros ? ? ? ? []; lia] end]).
  - reflexivity.
  - clear - B1 X1 B2 X2 X3 B4 X4 X5 B6 X6 X7 B8 X8 X9. lia.
  - unfold member; cbn [vv vx vp Z.eqb Pos.eqb Z.mul Z.add]. splits; try inb_in;
    repeat (match goal with |- ptr ?m _ _ _ => first [assumption | match goal with F : frame _ m _ |- _ => eapply ptr_at; [|exact F|]; [|intros []; lia] end] end).
  - look.
  - intros x X. cbn [In] in X. rewrite !lookup_add. repeat (match goal with |- context [(?u =? ?w)%positive] => destruct (Pos.eqb_spec u w); [exfalso; clear - X e; intuition|] end). reflexivity.
Qed.
Lemma code_vec_com_rec_clear : PositiveMap.find f_vec_com_rec_clear code = Some c_vec_com_rec_clear. Proof. vm_compute. reflexivity. Qed.
Lemma ref_rec_clear m V a0 a1 a2 a3 : vto m V 0 a0 -> vto m V 1 a1 -> vto m V 2 a2 -> vto m V 3 a3 -> calls code f_vec_com_rec_clear [VPtr (vv V) (vx V)] m (fun _ m' => m' = m).
Proof.
  intros V0 V1 V2 V3. start code_vec_com_rec_clear. seq. eapply wp_eval; [eapply pe_vto; [look|eassumption]|]. cbv iota. seq. eapply wp_eval; [eapply pe_vto; [look|eassumption]|]. cbv iota.
  seq. eapply wp_eval; [eapply pe_vto; [look|eassumption]|]. cbv iota. eapply wp_eval; [eapply pe_vto; [look|eassumption]|]. reflexivity.
Qed.

Section VoleR.
Variables (lam tau k0 k1 t0 t1 L : N) (iv chal : bytes) (path com : N -> bytes) (idx : N -> N).
Variables (ib gb db jb vb Vb hb : positive) (io go dof jo vo Vo ho : Z).
Variables (Pb Cb : N -> positive) (Po Co : N -> Z).
Notation lb := (ofN (lam / 8)).
Notation Lz := (ofN L).
Notation dep := (dep k0 k1 t0).
Notation low := (low k0 k1 t0).
Notation kk := (N.max k0 k1).
Definition rsd (t y : N) : bytes := rseed lam iv (path t) (dep t) (idx t) (N.lxor y (idx t)).
Definition rrows (t : N) : N -> bytes := rowb lam L iv true (rsd t).
Definition qcol (t k : N) : bytes := VoleProof.col L (dep t) (rrows t) k.
Definition rhash (t : N) : bytes := VcSpec.H1 shake lam (rcoms lam iv (path t) (com t) (dep t) (idx t) (N.to_nat (2 ^ dep t))).
Definition rhashes (n : nat) : bytes := flat_map (fun t => rhash (N.of_nat t)) (List.seq 0 n).
Lemma rhashes_S n : rhashes (S n) = rhashes n ++ rhash (N.of_nat n).
Proof. unfold rhashes. rewrite seq_S, flat_map_app. cbn [flat_map Nat.add]. rewrite app_nil_r. reflexivity. Qed.

Definition rsizes : Prop := lamb lam /\ (sized L k0 /\ sized L k1) /\ ((k0 <= 12)%N /\ (k1 <= 12)%N) /\ ((1 <= tau < 2 ^ 16)%N /\ (tau <= t0 + t1)%N /\ (t0 < 2 ^ 16)%N /\ (t1 < 2 ^ 16)%N) /\ (low tau * L < 2 ^ 32)%N /\
  (lenN iv = 16%N /\ bytes_ok iv) /\ (low tau <= 8 * lenN chal)%N /\
  (forall t, (t < tau)%N -> lenN (path t) = (lam / 8 * dep t)%N /\ bytes_ok (path t) /\ comj_ok lam (com t) /\ (idx t < 2 ^ dep t)%N /\ bits_of (idx t) (dep t) = chunk chal (low t) (dep t)).
Definition rstat (m : mem) : Prop := (holds m ib io iv /\ holds m gb go chal /\ kconst m /\ rconst m /\ holds m 8 0 [0%N] /\ holds m 9 0 [1%N]) /\
  (forall t, (t < tau)%N -> (to m db (dof + ofN t) (VPtr (Pb t) (Po t)) /\ holds m (Pb t) (Po t) (path t)) /\ (to m jb (jo + ofN t) (VPtr (Cb t) (Co t)) /\ holds m (Cb t) (Co t) (com t))) /\
  (forall k, (k < low tau)%N -> to m vb (vo + ofN k) (VPtr Vb (Vo + ofN k * Lz))) /\ inb m Vb Vo (ofN (low tau) * Lz).
Definition reads (b : positive) : Prop := In b [ib; gb; db; jb; vb; 1%positive; 8%positive; 9%positive; 12%positive] \/ exists t, (t < tau)%N /\ (b = Pb t \/ b = Cb t).
Lemma rstat_kept m m' S : rstat m -> frame m m' S -> (forall b q, reads b -> ~ S b q) -> rstat m'.
Proof.
  intros ((A1 & A2 & A3 & A4 & A5 & A6) & B & C & D) F X. split; [splits|split; [|split]].
  - eapply off_set; [exact A1|exact F|intros q; apply X; left; cbn; tauto].
  - eapply off_set; [exact A2|exact F|intros q; apply X; left; cbn; tauto].
  - eapply off_set; [exact A3|exact F|intros q; apply X; left; cbn; tauto].
  - eapply rconst_frame; [exact A4|exact F|intros q; apply X; left; cbn; tauto].
  - eapply off_set; [exact A5|exact F|intros q; apply X; left; cbn; tauto].
  - eapply off_set; [exact A6|exact F|intros q; apply X; left; cbn; tauto].
  - intros t Ht. destruct (B t Ht) as ((B1 & B2) & (B3 & B4)). split; split.
    + eapply to_at; [exact B1|exact F|apply X; left; cbn; tauto].
    + eapply off_set; [exact B2|exact F|intros q; apply X; right; exists t; tauto].
    + eapply to_at; [exact B3|exact F|apply X; left; cbn; tauto].
    + eapply off_set; [exact B4|exact F|intros q; apply X; right; exists t; tauto].
  - intros k Hk. eapply to_at; [apply C, Hk|exact F|apply X; left; cbn; tauto].
  - eapply inb_frame; eassumption.
Qed.
Definition rapart_all : Prop := (forall b, reads b -> b <> Vb) /\ (12 < Vb)%positive /\ (12 < hb)%positive /\ Vb <> hb /\ ib <> 1%positive.

Section Loop.
Variables (n0 : positive) (m1 : mem) (Lc : loc) (V : vloc) (sdb hB kB cB sB : positive).
Definition rspace (m : mem) : Prop := (vto m V 0 (VPtr hB 0) /\ vto m V 1 (VPtr kB 0) /\ vto m V 2 (VPtr cB 0) /\ vto m V 3 (VPtr sB 0)) /\
  (inb m hB 0 (lb * 2) /\ inb m kB 0 (ofN (count kk) * lb) /\ inb m cB 0 (ofN (2 ^ kk) * (lb * 2)) /\ inb m sB 0 (ofN (2 ^ kk) * lb) /\ inb m sdb 0 (ofN (2 ^ kk) * lb)).
Lemma rspace_kept m m' S : rspace m -> frame m m' S -> (forall b q, In b (vblocks V) -> ~ S b q) -> rspace m'.
Proof.
  intros ((A0 & A1 & A2 & A3) & (I0 & I1 & I2 & I3 & I4)) F X. split; splits; try (eapply inb_frame; eassumption);
    (eapply vto_kept; [eassumption|exact F|intros q; apply X; cbn; tauto|intros q; apply X; cbn; tauto]).
Qed.
(* the blocks in the order in which they were allocated *)
Definition order : Prop := (n0 <= sdb)%positive /\ (forall b, In b (blocks Lc) -> b <> 1%positive -> (sdb < b < vv V)%positive) /\
  ((sdb < vv V)%positive /\ (vv V < vp V 0)%positive /\ (vp V 0 < vp V 1)%positive /\ (vp V 1 < vp V 2)%positive /\ (vp V 2 < vp V 3)%positive /\ (vp V 3 < hB)%positive) /\
  ((hB < kB)%positive /\ (kB < cB)%positive /\ (cB < sB)%positive /\ (sB < mnext m1)%positive).
Definition rsetup : Prop := rstat m1 /\ rspace m1 /\ NoDup (blocks Lc) /\ order /\ (forall b, reads b -> (b < n0)%positive) /\ ((Vb < n0)%positive /\ (hb < n0)%positive).
Definition rfoot (b : positive) (o : Z) : Prop := In b [sdb; hB; kB; cB; sB] \/ b = Vb /\ Vo <= o < Vo + ofN (low tau) * Lz \/ foot Lc b o.
Definition qcols (m : mem) (i : N) : Prop := forall t k, (t < i)%N -> (k < dep t)%N -> holds m Vb (Vo + (ofN (low t) + ofN k) * Lz) (qcol t k).
Definition rstate (i : N) (m : mem) : Prop := frame m1 m rfoot /\ absorbing m Lc lam (rhashes (N.to_nat i)) /\ qcols m i.
Definition rvars (e : env) (i : N) : Prop := has e [(1%positive, VPtr ib io); (2%positive, VPtr gb go); (3%positive, VPtr db dof); (4%positive, VPtr jb jo); (5%positive, VPtr hb ho); (6%positive, VPtr vb vo);
  (9%positive, VInt (ofN lam)); (10%positive, VInt lb); (11%positive, VInt Lz); (12%positive, VInt (ofN tau)); (13%positive, VInt (ofN t0)); (14%positive, VInt (ofN t1)); (15%positive, VInt (ofN k0)); (16%positive, VInt (ofN k1));
  (18%positive, VPtr sdb 0); (19%positive, VPtr (cx Lc) 0); (27%positive, VPtr (vv V) (vx V)); (37%positive, VInt (ofN (low i))); (38%positive, VInt (ofN i))].
Definition rtree_code : stmt :=
    SSet 39 (ECond (EBin OLt s32 (EVar 38) (EVar 13)) (EVar 15) (EVar 16)) ;;
    SSet 40 (EUn OCast u32 (EBin OShl s32 (EInt 1) (EVar 39))) ;;
    SAlloc 41 (EInt 12) ;;
    SCall None f_ChalDec [(EVar 2); (EVar 38); (EVar 15); (EVar 13); (EVar 16); (EVar 14); (EVar 41)] ;;
    SCall (Some 43%positive) f_NumRec [(EVar 39); (EVar 41)] ;;
    SSet 44 (EVar 43) ;;
    SCall None f_vector_reconstruction [(EVar 1); (ELoadP (EAt (EVar 3) 1 (EVar 38))); (ELoadP (EAt (EVar 4) 1 (EVar 38))); (EVar 41); (EVar 9); (EVar 39); (EVar 27)] ;;
    SSet 45 (EInt 1) ;;
    SLoop (EBin OLt s32 (EVar 45) (EVar 40))
      (
      SSet 45 (EBin OAdd u32 (EVar 45) (EInt 1)))
      (
      SCopy (EAt (EVar 18) 1 (EBin OMul u32 (EVar 45) (EVar 10))) (EAt (ELoadP (EField (EVar 27) 4 3)) 1 (EBin OMul u32 (EVar 10) (EBin OXor u32 (EVar 45) (EVar 44)))) (EVar 10)) ;;
    SCall None f_ConvertToVole [(EVar 1); (EVar 18); (EInt 1); (EVar 9); (EVar 39); (EVar 11); ENull; (ELoadP (EAt (EVar 6) 1 (EVar 37)))] ;;
    SSet 37 (EBin OAdd u32 (EVar 37) (EVar 39)) ;;
    SCall None f_H1_update [(EVar 19); (ELoadP (EField (EVar 27) 4 0)); (EBin OMul u32 (EVar 10) (EInt 2))].

Lemma rsd_ok t y : VcProof.node_ok lam (rsd t y).
Proof. unfold rsd, rseed. destruct (out_ok lam iv (rleaf lam iv (path t) (dep t) (idx t) (N.lxor y (idx t)))) as (A & _ & B & _). split; assumption. Qed.
Lemma rrows_ok t x : rsizes -> lenN (rrows t x) = L /\ bytes_ok (rrows t x).
Proof. intros C. apply (rowb_ok lam L iv true (rsd t) x (proj1 C)); [intros _ _; apply rsd_ok|intros E; discriminate E]. Qed.
Lemma qcol_ok t k : rsizes -> lenN (qcol t k) = L /\ bytes_ok (qcol t k).
Proof. intros C. split; [apply VoleProof.col_len|apply VoleProof.col_bytes]; intros x _; apply rrows_ok, C. Qed.
Lemma rdep_sized t : rsizes -> sized L (dep t) /\ (dep t <= 12)%N /\ (dep t <= kk)%N.
Proof. intros (_ & (A & B) & (C & D) & _). unfold RefVoleCommit.dep. destruct (t <? t0)%N; (split; [assumption|lia]). Qed.
Lemma rfoot_off b q : rapart_all -> rsetup -> (reads b \/ In b (vblocks V)) -> ~ rfoot b q.
Proof.
  intros (A1 & A2 & _) (_ & _ & ND & (N1 & N2 & N3 & N4) & O1 & O2) I Y.
  assert (I' : (b < n0)%positive /\ b <> Vb \/ In b (vblocks V)) by (destruct I as [I|I]; [left; split; [apply O1, I|apply A1, I]|right; exact I]). clear I.
  assert (X12 := O1 12%positive ltac:(left; cbn; tauto)).
  destruct Y as [Y|[[Y _]|Y]].
  - cbn [In vblocks] in I', Y. clear - I' Y N1 N3 N4. lia.
  - cbn [In vblocks] in I'. clear - I' Y N1 N3 N4 O2. lia.
  - assert (Y1 := foot_blocks Lc ND b q Y). apply foot_in in Y. assert (Y2 := N2 b Y (proj1 Y1)). cbn [In vblocks] in I'. clear - Y2 I' N1 N3 N4. lia.
Qed.

Lemma wp_rtree i e m (Q : outcome -> env -> mem -> Prop) : rsizes -> rapart_all -> rsetup -> (i < tau)%N -> rvars e i -> rstate i m ->
  (forall e' m', rvars (PositiveMap.add 38%positive (VInt (ofN i + 1)) e') (i + 1) -> lookup e' 38 = VInt (ofN i) -> rstate (i + 1) m' -> Q ONormal e' m') -> wp code rtree_code e m Q.
Proof.
  intros SZ AP SU Hi CV (F & AB & VC) K. assert (LO := fun b q => rfoot_off b q AP SU).
  assert (X := AP). destruct X as (A1 & A2 & _ & _ & A5). change (hid (ib <> 1%positive)) in A5.
  assert (X := SU). destruct X as (CS1 & RS1 & ND & OR & O1 & (OV & OH)).
  assert (X := SZ). destruct X as (HL & _ & (K0 & K1) & (TB & TT & T0B & T1B) & VL & (LI & BI) & LC & PT). destruct (lamb_b lam HL) as [B1 B2].
  destruct (PT i Hi) as (PL & PB & CJ & XL & XB). clear PT.
  assert (X12 := O1 12%positive ltac:(left; cbn; tauto)).
  assert (CS : rstat m) by (eapply rstat_kept; [exact CS1|exact F|intros b q I; apply LO; left; exact I]).
  assert (RS : rspace m) by (eapply rspace_kept; [exact RS1|exact F|intros b q I; apply LO; right; exact I]).
  destruct (rdep_sized i SZ) as (DS & D12 & DK). assert (DS' := DS). destruct DS' as (D1 & D2 & D3).
  assert (LE := low_next k0 k1 t0 i tau Hi). destruct (rnums (low i) (dep i) (low tau) L LE D2 VL) as (LX & L0 & LD & LOW & LOWB).
  assert (LM := low_max k0 k1 t0 tau K0 K1). destruct (count12 (dep i) ltac:(lia)) as [P12 CD].
  assert (KK : (1 <= kk <= 12)%N) by (clear - D1 DK K0 K1; lia). destruct (count12 kk KK) as [P12' CD'].
  assert (PK : ofN (2 ^ dep i) <= ofN (2 ^ kk)) by (assert (Y := N.pow_le_mono_r 2 (dep i) kk ltac:(lia) DK); lia).
  assert (SB : ofN (2 ^ dep i) * lb <= ofN (2 ^ kk) * lb) by (apply Z.mul_le_mono_nonneg_r; lia).
  assert (SB2 : ofN (2 ^ dep i) * (lb * 2) <= ofN (2 ^ kk) * (lb * 2)) by (apply Z.mul_le_mono_nonneg_r; lia).
  assert (SB3 : ofN (count (dep i)) * lb <= ofN (count kk) * lb) by (apply Z.mul_le_mono_nonneg_r; lia).
  assert (SBM : ofN (2 ^ dep i) * lb <= 131072) by (apply (Z.mul_le_mono_nonneg (ofN (2 ^ dep i)) 4096 lb 32); lia).
  assert (SB0 : 0 <= ofN (2 ^ dep i) * lb) by (apply Z.mul_nonneg_nonneg; lia).
  unfold rvars in CV. unhas. unfold rtree_code.
  seq. eapply (wp_set _ _ _ _ _ (VInt (ofN (dep i)))).
  { eapply pe_cond; [ev|]. simp. rewrite truth_b. unfold RefVoleCommit.dep. destruct (N.ltb_spec i t0).
    - replace (ofN i <? ofN t0) with true by lia. cbv iota. ev.
    - replace (ofN i <? ofN t0) with false by lia. cbv iota. ev. }
  seq. eapply wp_set; [eapply pe_eq; [ev|]|].
  { simp. rewrite shl1 by lia. rewrite <- pow_z. rewrite wrap_u32 by lia. reflexivity. }
  seq. apply (wp_new _ _ _ _ 12); [ev|lia|]. intros xb m2 BX X2 F2 IX. cbv iota.
  assert (MX : (mnext m1 <= xb)%positive) by (assert (Y := proj1 F); clear - Y BX; lia).
  assert (NX : forall b, (b < mnext m1)%positive -> b <> xb) by (intros b Y; clear - Y MX; lia).
  assert (OL : (n0 < mnext m1)%positive) by (clear - OR; unfold order in OR; lia).
  assert (CS2 : rstat m2) by (eapply rstat_kept; [exact CS|exact F2|intros b q _ []]).
  destruct CS2 as ((C21 & C22 & C23 & C24 & C25 & C26) & CT2 & CP2 & CI2).
  (* the number of the leaf *)
  seq. eapply wp_callf; [evs| |].
  { apply (ref_ChalDec m2 chal gb go i k0 t0 k1 t1 xb 0); try assumption; change (if (i <? t0)%N then (i * k0)%N else (t0 * k0 + (i - t0) * k1)%N) with (low i); change (if (i <? t0)%N then k0 else k1) with (dep i); try lia.
    - eapply inb_sub; [exact IX|lia|lia|lia].
    - left. apply not_eq_sym, NX. assert (Y := O1 gb ltac:(left; cbn; tauto)). clear - Y OL. lia. }
  change (if (i <? t0)%N then (i * k0)%N else (t0 * k0 + (i - t0) * k1)%N) with (low i). change (if (i <? t0)%N then k0 else k1) with (dep i).
  intros w3 m3 (_ & F3 & HC3). cbn [set]. rewrite <- XB in HC3.
  assert (G3 : frame m m3 nothing). { eapply frame_comp; [exact F2|exact F3|]. intros b o Y _ [-> _]. clear - Y BX. lia. }
  seq. eapply wp_callf; [evs|apply (ref_NumRec m3 (dep i) xb 0 (idx i)); [lia|exact HC3]|]. intros w m' (-> & ->). cbn [set]. rewrite N.mod_small by exact XL.
  seq. eapply wp_set; [ev|].
  assert (CS3 : rstat m3) by (eapply rstat_kept; [exact CS|exact G3|intros b q _ []]).
  assert (RS3 : rspace m3) by (eapply rspace_kept; [exact RS|exact G3|intros b q _ []]).
  assert (X := CS3). destruct X as ((C31 & C32 & C33 & C34 & C35 & C36) & CT3 & CP3 & CI3). assert (X := RS3). destruct X as (VT3 & (I31 & I32 & I33 & I34 & I35)). destruct (CT3 i Hi) as ((T31 & T32) & (T33 & T34)).
  assert (OT : forall b, In b [hB; kB; cB; sB] -> (n0 < b < mnext m1)%positive /\ ~ In b (vblocks V)).
  { intros b I. clear - I OR. unfold order in OR. cbn [In vblocks] in *. lia. }
  seq. eapply wp_callf with (vs := [VPtr ib io; VPtr (Pb i) (Po i); VPtr (Cb i) (Co i); VPtr xb 0; VInt (ofN lam); VInt (ofN (dep i)); VPtr (vv V) (vx V)]).
  { eapply pes_cons; [ev|]. eapply pes_cons; [eapply pe_to; [eapply pe_eq; [ev|f_equal; lia]|]; rewrite Z.mul_1_l; exact T31|]. eapply pes_cons; [eapply pe_to; [eapply pe_eq; [ev|f_equal; lia]|]; rewrite Z.mul_1_l; exact T33|]. evs. }
  { apply (ref_vector_reconstruction lam iv (path i) (com i) (dep i) (idx i) V hB kB cB sB ib (Pb i) (Cb i) xb io (Po i) (Co i) 0 m3).
    - unfold rinputs. splits; try assumption; apply D1.
    - exact CJ.
    - split; [exact VT3|]. split; [|split; [splits; assumption|splits; assumption]]. splits; [exact I31|eapply inb_sub; [exact I32|lia|lia|lia]|eapply inb_sub; [exact I33|lia|lia|lia]|eapply inb_sub; [exact I34|lia|lia|lia]].
    - clear - OR. unfold order in OR. repeat constructor; cbn [In]; lia.
    - intros b I J. destruct (OT b I) as [Y1 Y2]. unfold others in J. cbn [In] in J. cbn [In vblocks] in Y2.
      assert (Z : b = xb \/ (b < n0)%positive); [|clear - Y1 Z MX; lia].
      repeat (destruct J as [J|J]; [try (exfalso; clear - Y2 J; tauto); try (left; symmetry; exact J); right; rewrite <- J; apply O1; first [left; cbn; tauto|right; exists i; tauto]|]). contradiction.
    - exact A5. }
  intros w4 m4 (F4 & _ & LV4 & HH4). cbn [set]. fold (rhash i) in HH4. assert (M3 := proj1 G3). assert (M4 := proj1 F4). assert (M1 := proj1 F).
  assert (FO4 : forall b q, outs lam (dep i) hB kB cB sB b q -> In b [hB; kB; cB; sB]) by (intros b q [[Y _]|[[[Y _]|[Y _]]|[Y _]]]; rewrite Y; cbn; tauto).
  assert (G4 : frame m m4 (fun b _ => In b [hB; kB; cB; sB])). { eapply frame_comp; [eapply frame_weak; [exact G3|intros b o _ _ []]|exact F4|]. intros b o _ _ Y. exact (FO4 b o Y). }
  assert (VT4 : vto m4 V 3 (VPtr sB 0) /\ vto m4 V 0 (VPtr hB 0)).
  { destruct VT3 as (Y0 & _ & _ & Y3). split; (eapply vto_kept; [eassumption|exact F4|intros q Y; apply FO4, OT in Y; destruct Y as [_ Y]; apply Y; cbn; tauto|intros q Y; apply FO4, OT in Y; destruct Y as [_ Y]; apply Y; cbn; tauto]). }
  destruct VT4 as [VT43 VT40].
  seq. eapply wp_set; [ev|].
  (* the seeds in their places *)
  assert (I45 : inb m4 sdb 0 (ofN (2 ^ kk) * lb)) by (eapply inb_frame; [exact F4|exact I35]).
  assert (SN : In sdb (vblocks V) -> False) by (intros Y; clear - Y OR; unfold order in OR; cbn [In vblocks] in Y; lia).
  assert (SS : sdb <> sB /\ sdb <> hB /\ (n0 <= sdb < mnext m1)%positive) by (clear - OR; unfold order in OR; lia). destruct SS as (SS1 & SS2 & SS3). change (hid (sdb <> sB)) in SS1. change (hid (sdb <> hB)) in SS2.
  seq. eapply (wp_for _ 45%positive 32 _ (fun y e m' => has e [(1%positive, VPtr ib io); (2%positive, VPtr gb go); (3%positive, VPtr db dof); (4%positive, VPtr jb jo); (5%positive, VPtr hb ho); (6%positive, VPtr vb vo);
    (9%positive, VInt (ofN lam)); (10%positive, VInt lb); (11%positive, VInt Lz); (12%positive, VInt (ofN tau)); (13%positive, VInt (ofN t0)); (14%positive, VInt (ofN t1)); (15%positive, VInt (ofN k0)); (16%positive, VInt (ofN k1));
    (18%positive, VPtr sdb 0); (19%positive, VPtr (cx Lc) 0); (27%positive, VPtr (vv V) (vx V)); (37%positive, VInt (ofN (low i))); (38%positive, VInt (ofN i)); (39%positive, VInt (ofN (dep i))); (40%positive, VInt (ofN (2 ^ dep i))); (44%positive, VInt (ofN (idx i))); (45%positive, VInt y)] /\
    frame m4 m' (at_ sdb 0 (ofN (2 ^ dep i) * lb)) /\ (forall z, (1 <= z)%N -> ofN z < y -> holds m' sdb (ofN z * lb) (rsd i z))) _ 1 (ofN (2 ^ dep i))); [lia|lia|lia| | |].
  - intros y e' m' Hy (V' & F' & DN). repeat match goal with X : lookup e _ = _ |- _ => clear X end. unhas. split; [assumption|]. split.
    { eexists. split; [ev|]. simp. rewrite truth_b. lia. }
    assert (P1 : (y + 1) * lb <= ofN (2 ^ dep i) * lb) by (apply Z.mul_le_mono_nonneg_r; lia). assert (P2 : 0 <= y * lb) by (apply Z.mul_nonneg_nonneg; lia).
    set (z := N.lxor (Z.to_N y) (idx i)). assert (ZL : (z < 2 ^ dep i)%N) by (apply lxor_lt; [clear - Hy; lia|exact XL]).
    assert (ZE : Z.lxor y (ofN (idx i)) = ofN z) by (unfold z; rewrite <- RefBytes.ofN_lxor, Z2N.id by lia; reflexivity).
    assert (ZN : z <> idx i). { unfold z. intros E. apply (f_equal (fun a => N.lxor a (idx i))) in E. rewrite N.lxor_assoc, N.lxor_nilpotent, N.lxor_0_r in E. clear - E Hy. lia. }
    assert (P3 : (ofN z + 1) * lb <= ofN (2 ^ dep i) * lb) by (apply Z.mul_le_mono_nonneg_r; lia). assert (P4 : 0 <= ofN z * lb) by (apply Z.mul_nonneg_nonneg; lia).
    assert (HZ := proj2 (LV4 z ZL) ZN). assert (RL : lenN (rsd i (Z.to_N y)) = (lam / 8)%N) by apply rsd_ok. change (rseed lam iv (path i) (dep i) (idx i) z) with (rsd i (Z.to_N y)) in HZ.
    assert (HZ' : holds m' sB (ofN z * lb) (rsd i (Z.to_N y))) by (eapply off_block; [exact HZ|exact F'|apply not_eq_sym; exact SS1]).
    assert (VT' : vto m' V 3 (VPtr sB 0)) by (eapply vto_kept; [exact VT43|exact F'|intros q [Y _]; apply SN; rewrite <- Y; cbn; tauto|intros q [Y _]; apply SN; rewrite <- Y; cbn; tauto]).
    assert (ID : inb m' sdb (y * lb) lb) by (eapply inb_sub; [eapply inb_frame; [exact F'|exact I45]|lia|lia|lia]).
    eapply (wp_copy1 _ _ _ _ _ sdb (y * lb) sB (ofN z * lb) lb).
    + eapply pe_eq; [ev|]. simp. rewrite wrap_u32 by lia. f_equal. lia.
    + eapply pe_eq; [eapply pe_at; [eapply pe_vto; [eassumption|exact VT']|ev]|]. simp. rewrite ZE. rewrite wrap_u32 by lia. f_equal. lia.
    + ev.
    + exact ID.
    + apply holds_inb in HZ'. rewrite RL in HZ'. exact HZ'.
    + assert (FC : frame m' (copy m' sdb (y * lb) sB (ofN z * lb) lb) (at_ sdb (y * lb) lb)) by (apply frame_copy_at; exact ID).
      assert (HCp : holds (copy m' sdb (y * lb) sB (ofN z * lb) lb) sdb (y * lb) (rsd i (Z.to_N y))) by (assert (Y := holds_copy m' sdb (y * lb) sB (ofN z * lb) (rsd i (Z.to_N y)) HZ'); rewrite RL in Y; exact (Y ID)).
      revert FC HCp. generalize (copy m' sdb (y * lb) sB (ofN z * lb) lb). intros m5 FC HCp. split; [look|]. split; [hass|]. split.
      * eapply frame_comp; [exact F'|exact FC|]. intros b o _ _ [-> Y]. split; [reflexivity|lia].
      * intros x X1 X3. assert (ofN x = y \/ ofN x < y) as [E|E] by lia; [rewrite E; replace x with (Z.to_N y) by lia; exact HCp|].
        eapply holds_frame; [apply DN; assumption|exact FC|]. rewrite (proj1 (rsd_ok i x)). intros q Hq [_ Y]. assert ((ofN x + 1) * lb <= y * lb) by (apply Z.mul_le_mono_nonneg_r; lia). lia.
  - intros e' m5 (V' & F5 & DN). repeat match goal with X : lookup e _ = _ |- _ => clear X end. unhas. split.
    { eexists. split; [ev|]. simp. rewrite truth_b. lia. }
    cbv beta iota. assert (M5 := proj1 F5).
    assert (G5 : frame m m5 (fun b _ => In b [sdb; hB; kB; cB; sB])).
    { eapply frame_comp; [eapply frame_weak; [exact G4|intros b o _ _ Y; right; exact Y]|exact F5|]. intros b o _ _ [-> _]. left. reflexivity. }
    assert (OW : forall b, In b [sdb; hB; kB; cB; sB] -> (n0 <= b < mnext m1)%positive /\ ~ In b (vblocks V)).
    { intros b [<-|I]; [split; [exact SS3|intros Y; exact (SN Y)]|]. destruct (OT b I) as [Y1 Y2]. split; [clear - Y1; lia|exact Y2]. }
    assert (CS5 : rstat m5) by (eapply rstat_kept; [exact CS|exact G5|intros b q I Y; apply OW in Y; apply O1 in I; clear - I Y; lia]).
    destruct CS5 as ((C51 & _ & _ & C54 & _) & _ & CP5 & CI5).
    assert (VT50 : vto m5 V 0 (VPtr hB 0)) by (eapply vto_kept; [exact VT40|exact F5|intros q [Y _]; apply SN; rewrite <- Y; cbn; tauto|intros q [Y _]; apply SN; rewrite <- Y; cbn; tauto]).
    assert (HH5 : holds m5 hB 0 (rhash i)) by (eapply off_block; [exact HH4|exact F5|apply not_eq_sym; exact SS2]).
    (* the columns *)
    seq. eapply wp_callf with (vs := [VPtr ib io; VPtr sdb 0; VInt (b2z true); VInt (ofN lam); VInt (ofN (dep i)); VInt Lz; uval None; VPtr Vb (Vo + ofN (low i) * Lz)]).
    { do 6 (eapply pes_cons; [ev|]). eapply pes_cons; [ev|]. eapply pes_cons; [|apply pes_nil]. eapply pe_to; [eapply pe_eq; [ev|f_equal; lia]|]. rewrite Z.mul_1_l. apply CP5. lia. }
    { apply (ref_ConvertToVole lam L (dep i) iv (rsd i) true None m5 ib io sdb 0 Vb (Vo + ofN (low i) * Lz)); try assumption.
      - intros x Hx NX0. split; [|apply rsd_ok]. rewrite Z.add_0_l. apply DN; [specialize (NX0 eq_refl); clear - NX0; lia|clear - Hx; lia].
      - eapply inb_sub; [exact CI5|lia|lia|lia].
      - exact Logic.I. }
    intros w6 m6 (F6 & VC6 & _). cbn [set]. cbv beta in F6. assert (M6 := proj1 F6). fold (rrows i) in VC6.
    assert (FO6 : forall b q, at_ Vb (Vo + ofN (low i) * Lz) (ofN (dep i) * Lz) b q \/ uat L true None b q -> b = Vb /\ Vo + ofN (low i) * Lz <= q < Vo + ofN (low i) * Lz + ofN (dep i) * Lz).
    { intros b q [[-> Y]|Y]; [split; [reflexivity|lia]|exfalso; cbn in Y; tauto]. }
    assert (NV : ~ In Vb (vblocks V)) by (clear - OV OR; unfold order in OR; cbn [In vblocks]; lia).
    assert (VT60 : vto m6 V 0 (VPtr hB 0)).
    { eapply vto_kept; [exact VT50|exact F6|intros q Y; apply FO6 in Y; destruct Y as [Y _]; apply NV; rewrite <- Y; cbn; tauto|intros q Y; apply FO6 in Y; destruct Y as [Y _]; apply NV; rewrite <- Y; cbn; tauto]. }
    assert (HH6 : holds m6 hB 0 (rhash i)).
    { eapply off_set; [exact HH5|exact F6|]. intros q Y. apply FO6 in Y. destruct (OW hB ltac:(cbn; tauto)) as [Z _]. clear - Y Z OV. lia. }
    assert (LB : forall b, In b (blocks Lc) -> b <> 1%positive -> (sdb < b < vv V)%positive) by apply OR.
    assert (LB' : forall b, In b (blocks Lc) -> b <> Vb /\ ~ In b [sdb; hB; kB; cB; sB]).
    { intros b I. destruct (Pos.eq_dec b 1) as [->|NE].
      - split; [clear - A2; lia|]. intros Y. apply OW in Y. clear - Y X12. lia.
      - assert (Y := LB b I NE). clear - Y OR OV. unfold order in OR. cbn [In]. lia. }
    assert (AB6 : absorbing m6 Lc lam (rhashes (N.to_nat i))).
    { eapply absorbing_off; [eapply absorbing_off; [exact AB|exact G5|]|exact F6|].
      - intros b q Y I. exact (proj2 (LB' b I) Y).
      - intros b q Y I. apply FO6 in Y. exact (proj1 (LB' b I) (proj1 Y)). }
    seq. eapply wp_set; [ev|]. simp. rewrite wrap_u32 by lia. replace (ofN (low i) + ofN (dep i)) with (ofN (low (i + 1))) by (rewrite low_S; lia).
    destruct (H1_ok lam (rcoms lam iv (path i) (com i) (dep i) (idx i) (N.to_nat (2 ^ dep i)))) as [HLen HB]. fold (rhash i) in HLen, HB.
    eapply wp_callf with (vs := [VPtr (cx Lc) 0; VPtr hB 0; VInt (ofN (lenN (rhash i)))]).
    { eapply pes_cons; [ev|]. eapply pes_cons; [eapply pe_vto; [look|exact VT60]|]. eapply pes_cons; [|apply pes_nil]. rewrite HLen. eapply pe_eq; [ev|]. simp. rewrite wrap_u32 by lia. f_equal. lia. }
    { apply (ref_H_update f_H1_update m6 Lc lam (rhashes (N.to_nat i)) hB 0 (rhash i)); [exact code_H1_update|exact AB6|exact HH6|exact HB| |lia].
      intros I. apply (proj2 (LB' hB I)). cbn. tauto. }
    intros w7 m7 (F7 & AB7). cbn [set].
    assert (FO7 : forall b q, foot Lc b q -> (sdb < b < vv V)%positive) by (intros b q Y; assert (Y' := foot_blocks Lc ND b q Y); apply foot_in in Y; apply LB; tauto).
    apply K; [unfold rvars; hasz|look|].
    split; [|split].
    + eapply frame_comp; [eapply frame_comp; [eapply frame_comp; [exact F|exact G5|]|exact F6|]|exact F7|]; intros b q _ _ Y; unfold rfoot.
      * left. exact Y.
      * apply FO6 in Y. destruct Y as [-> Y]. right. left. split; [reflexivity|lia].
      * right. right. exact Y.
    + replace (N.to_nat (i + 1)) with (S (N.to_nat i)) by lia. rewrite rhashes_S, N2Nat.id. exact AB7.
    + assert (OLD : forall q, ~ foot Lc Vb q) by (intros q Y; apply FO7 in Y; clear - Y OV SS3; lia).
      intros t k Ht Hk. eapply off_set; [|exact F7|exact OLD]. assert (t = i \/ t < i)%N as [->|Ht'] by lia.
      * replace (Vo + (ofN (low i) + ofN k) * Lz) with (Vo + ofN (low i) * Lz + ofN k * Lz) by lia. apply VC6, Hk.
      * eapply holds_frame; [eapply off_set; [apply VC; assumption|exact G5|]|exact F6|].
        -- intros q Y. apply OW in Y. clear - Y OV. lia.
        -- rewrite (proj1 (qcol_ok t k SZ)). intros q Hq Y. apply FO6 in Y. assert (LN := low_next k0 k1 t0 t i Ht'). assert ((ofN (low t) + ofN k + 1) * Lz <= ofN (low i) * Lz) by (apply Z.mul_le_mono_nonneg_r; lia). lia.
  - split; [hass|]. split; [apply frame_refl|]. intros z A B. lia.
Qed.
End Loop.
Definition qfoot (b : positive) (o : Z) : Prop := at_ Vb Vo (ofN (low tau) * Lz) b o \/ at_ hb ho (lb * 2) b o.
Lemma ref_vole_reconstruct ell pb po m : rsizes -> rapart_all -> rstat m -> L = ((ell + 7) / 8)%N -> (ell + 7 < 2 ^ 32)%N ->
  parm m pb po lam -> parm m pb (po + 16) tau -> parm m pb (po + 22) t0 -> parm m pb (po + 24) t1 -> parm m pb (po + 18) k0 -> parm m pb (po + 20) k1 -> inb m hb ho (lb * 2) ->
  calls code f_vole_reconstruct [VPtr ib io; VPtr gb go; VPtr db dof; VPtr jb jo; VPtr hb ho; VPtr vb vo; VInt (ofN ell); VPtr pb po] m (fun _ m' =>
    frame m m' qfoot /\ qcols m' tau /\ holds m' hb ho (VcSpec.H1 shake lam (rhashes (N.to_nat tau)))).
Proof.
  intros SZ AP CS EL LE16 PL PT P0 P1 PK0 PK1 IH.
  assert (X := AP). destruct X as (A1 & A2 & A3 & A4 & A5). change (hid (Vb <> hb)) in A4. change (hid (ib <> 1%positive)) in A5.
  assert (X := SZ). destruct X as (HL & (SK0 & SK1) & (K0 & K1) & (TB & TT & T0B & T1B) & VL & (LI & BI) & LC & PTH). destruct (lamb_b lam HL) as [B1 B2].
  assert (KK : (1 <= kk <= 12)%N) by (assert (Y := proj1 SK0); clear - Y K0 K1; lia). destruct (count12 kk KK) as [P12 CD].
  assert (SBM : ofN (2 ^ kk) * lb <= 131072) by (apply (Z.mul_le_mono_nonneg (ofN (2 ^ kk)) 4096 lb 32); lia).
  assert (SB0 : 0 <= ofN (2 ^ kk) * lb) by (apply Z.mul_nonneg_nonneg; lia).
  assert (SB1 : lb <= ofN (2 ^ kk) * lb) by (rewrite <- (Z.mul_1_l lb) at 1; apply Z.mul_le_mono_nonneg_r; lia).
  assert (CK : ofN (count kk) * lb = 2 * (ofN (2 ^ kk) * lb) - lb) by (rewrite CD; ring).
  assert (LTP : (0 < low tau)%N) by (assert (Y := low_next k0 k1 t0 0 tau ltac:(lia)); assert (Z := proj1 (proj1 (rdep_sized 0 SZ))); lia).
  assert (O1 : forall b, reads b -> (b < mnext m)%positive).
  { destruct CS as ((C1 & C2 & C3 & C4 & C5 & C6) & CT & CP & CI). intros b [I|(t & Ht & [->| ->])].
    - cbn [In] in I. destruct I as [<-|[<-|[<-|[<-|[<-|[<-|[<-|[<-|[<-|[]]]]]]]]]].
      + exact (proj1 (proj1 C1)).
      + exact (proj1 (proj1 C2)).
      + exact (proj1 (proj1 (proj1 (proj1 (CT 0%N ltac:(lia)))))).
      + exact (proj1 (proj1 (proj1 (proj2 (CT 0%N ltac:(lia)))))).
      + exact (proj1 (proj1 (CP 0%N LTP))).
      + exact (proj1 (proj1 C3)).
      + exact (proj1 (proj1 C5)).
      + exact (proj1 (proj1 C6)).
      + exact (proj1 (proj1 C4)).
    - exact (proj1 (proj1 (proj2 (proj1 (CT t Ht))))).
    - exact (proj1 (proj1 (proj2 (proj2 (CT t Ht))))). }
  assert (OV : (Vb < mnext m)%positive) by exact (proj1 (proj2 (proj2 (proj2 CS)))). assert (OH := proj1 IH).
  assert (X12 := O1 12%positive ltac:(left; cbn; tauto)).
  assert (PM : forall e m, lookup e 15 = VInt (ofN k0) -> lookup e 16 = VInt (ofN k1) -> pe e m (ECond (EBin OGt s32 (EVar 15) (EVar 16)) (EVar 15) (EVar 16)) (VInt (ofN kk))).
  { intros e0 m0 E15 E16. eapply pe_cond; [ev|]. simp. rewrite truth_b. destruct (N.ltb_spec k1 k0).
    - match goal with |- context [if ?c then _ else _] => replace c with true by lia end. cbv iota. replace kk with k0 by lia. ev.
    - match goal with |- context [if ?c then _ else _] => replace c with false by lia end. cbv iota. replace kk with k1 by lia. ev. }
  assert (PP : forall e m, lookup e 15 = VInt (ofN k0) -> lookup e 16 = VInt (ofN k1) -> pe e m (EUn OCast u32 (EBin OShl s32 (EInt 1) (ECond (EBin OGt s32 (EVar 15) (EVar 16)) (EVar 15) (EVar 16)))) (VInt (ofN (2 ^ kk)))).
  { intros e0 m0 E15 E16. eapply pe_eq; [eapply pe_un, pe_bin; [ev|apply PM; assumption]|]. simp. rewrite shl1 by lia. rewrite <- pow_z. rewrite wrap_u32 by lia. reflexivity. }
  start code_vole_reconstruct. seq.
  seq. eapply wp_set; [apply (pe_parm _ _ _ pb po lam); [ev|exact PL|lia]|].
  seq. eapply wp_set; [eapply pe_eq; [eapply pe_div; [ev|ev|lia]|unfold u32; rewrite divu by lia; instantiate (1 := VInt lb); rewrite N2Z.inj_div; reflexivity]|].
  seq. eapply wp_set; [eapply pe_eq; [eapply pe_div; [ev|ev|lia]|]|].
  { simp. rewrite wrap_u32 by lia. unfold u32. rewrite divu by lia. instantiate (1 := VInt Lz). f_equal. rewrite EL, N2Z.inj_div. f_equal. lia. }
  seq. eapply wp_set; [apply (pe_parm _ _ _ pb (po + 16) tau); [eapply pe_eq; [ev|f_equal; lia]|exact PT|lia]|].
  seq. eapply wp_set; [apply (pe_parm _ _ _ pb (po + 22) t0); [eapply pe_eq; [ev|f_equal; lia]|exact P0|lia]|].
  seq. eapply wp_set; [apply (pe_parm _ _ _ pb (po + 24) t1); [eapply pe_eq; [ev|f_equal; lia]|exact P1|lia]|].
  seq. eapply wp_set; [apply (pe_parm _ _ _ pb (po + 18) k0); [eapply pe_eq; [ev|f_equal; lia]|exact PK0|lia]|].
  seq. eapply wp_set; [apply (pe_parm _ _ _ pb (po + 20) k1); [eapply pe_eq; [ev|f_equal; lia]|exact PK1|lia]|].
  seq. apply (wp_new _ _ _ _ (ofN (2 ^ kk) * lb)); [eapply pe_eq; [eapply pe_bin; [apply PP; look|ev]|simp; rewrite wrap_u32 by lia; reflexivity]|lia|]. intros sdb m1 BS X1 F1 IS. cbv iota. seq. eapply wp_set; [ev|].
  assert (ISl : inb m1 sdb 0 lb) by (eapply inb_sub; [exact IS|lia|lia|lia]).
  seq. eapply wp_fill; [ev|ev|ev|exact ISl|]. cbv iota.
  assert (F2 : frame m1 (setb m1 sdb 0 (repeat 0 (Z.to_nat lb))) (at_ sdb 0 lb)) by (assert (Y := frame_setb m1 sdb 0 (repeat 0 (Z.to_nat lb))); rewrite repeat_length, Z2Nat.id in Y by lia; exact (Y ISl)).
  revert F2. generalize (setb m1 sdb 0 (repeat 0 (Z.to_nat lb))). intros m2 F2. assert (M2 := proj1 F2).
  assert (G2 : frame m m2 nothing). { eapply frame_comp; [exact F1|exact F2|]. intros b o Y _ [-> _]. clear - Y BS. lia. }
  assert (KC2 : kconst m2) by (eapply off_set; [exact (proj1 (proj2 (proj2 (proj1 CS))))|exact G2|intros q []]).
  apply (wp_started2 f_H1_init) with (lam := lam); [exact code_H1_init|repeat constructor; cbn; lia|cbn; lia|exact KC2|look|lia|]. intros m3 Lc e3 F3 NW ND3 AB EA EO.
  assert (M3 := proj1 F3). assert (G3 : frame m m3 nothing) by (eapply frame_comp; [exact G2|exact F3|intros b o _ _ []]).
  assert (E : has e3 [(1%positive, VPtr ib io); (2%positive, VPtr gb go); (3%positive, VPtr db dof); (4%positive, VPtr jb jo); (5%positive, VPtr hb ho); (6%positive, VPtr vb vo);
    (9%positive, VInt (ofN lam)); (10%positive, VInt lb); (11%positive, VInt Lz); (12%positive, VInt (ofN tau)); (13%positive, VInt (ofN t0)); (14%positive, VInt (ofN t1)); (15%positive, VInt (ofN k0)); (16%positive, VInt (ofN k1)); (18%positive, VPtr sdb 0); (19%positive, VPtr (cx Lc) 0)]).
  { cbn [has]. splits; try exact Logic.I; try exact EA; (rewrite EO by (cbn; lia); look). }
  clear EO. apply wp_struct. intros m4 V e4 F4 EX OV4 (ME0 & ME1 & ME2 & ME3) EV EO.
  assert (M4 := proj1 F4). assert (G4 : frame m m4 nothing) by (eapply frame_comp; [exact G3|exact F4|intros b o _ _ []]).
  assert (E' : has e4 [(1%positive, VPtr ib io); (2%positive, VPtr gb go); (3%positive, VPtr db dof); (4%positive, VPtr jb jo); (5%positive, VPtr hb ho); (6%positive, VPtr vb vo);
    (9%positive, VInt (ofN lam)); (10%positive, VInt lb); (11%positive, VInt Lz); (12%positive, VInt (ofN tau)); (13%positive, VInt (ofN t0)); (14%positive, VInt (ofN t1)); (15%positive, VInt (ofN k0)); (16%positive, VInt (ofN k1)); (18%positive, VPtr sdb 0); (19%positive, VPtr (cx Lc) 0)]).
  { unhas. cbn [has]. splits; try exact Logic.I; (rewrite EO by (cbn; lia); assumption). }
  clear EO E EA. rewrite <- EX in EV. unhas.
  seq. apply (wp_new _ _ _ _ (lb * 2)); [eapply pe_eq; [ev|simp; rewrite wrap_u32 by lia; reflexivity]|lia|]. intros hB m5 BH X5 F5 IHb. cbv iota.
  seq. eapply (wp_pointer _ _ _ _ (vp V 0) 0 (VPtr hB 0)); [apply pe_member; [look|eapply ptr_at; [exact (proj1 ME0)|exact F5|intros []]]|ev|eapply inb_frame; [exact F5|exact (proj2 ME0)]|]. intros m6 X6 F6 T0. cbv iota.
  seq. eapply wp_callf with (vs := [VInt (ofN kk)]); [eapply pes_cons; [apply PM; look|apply pes_nil]|apply (ref_nodecount m6 (ofN kk)); lia|]. intros w m' (-> & ->). cbn [set]. rewrite <- count_z.
  seq. apply (wp_new _ _ _ _ (ofN (count kk) * lb)); [eapply pe_eq; [ev|simp; rewrite wrap_u64 by lia; reflexivity]|lia|]. intros kB m7 BK X7 F7 IK. cbv iota.
  seq. eapply (wp_pointer _ _ _ _ (vp V 1) 0 (VPtr kB 0)).
  { apply pe_member; [look|]. eapply ptr_at; [eapply ptr_at; [eapply ptr_at; [exact (proj1 ME1)|exact F5|intros []]|exact F6|]|exact F7|intros []]. intros [Y _]. clear - Y OV4. lia. }
  { ev. }
  { eapply inb_frame; [exact F7|]. eapply inb_frame; [exact F6|]. eapply inb_frame; [exact F5|exact (proj2 ME1)]. }
  intros m8 X8 F8 T1. cbv iota.
  seq. apply (wp_new _ _ _ _ (ofN (2 ^ kk) * (lb * 2))).
  { eapply pe_eq; [eapply pe_bin; [eapply pe_bin; [apply PP; look|ev]|ev]|]. simp. rewrite (wrap_u32 (ofN (2 ^ kk) * lb)) by lia. rewrite wrap_u32 by lia. f_equal. lia. }
  { lia. }
  intros cB m9 BC X9 F9 IC. cbv iota.
  assert (G9 : frame m4 m9 (fun b _ => b = vp V 0 \/ b = vp V 1)).
  { eapply frame_comp; [eapply frame_comp; [eapply frame_comp; [eapply frame_comp; [eapply frame_weak; [exact F5|intros b o _ _ []]|exact F6|]|exact F7|]|exact F8|]|exact F9|]; intros b o _ _ Y; try (destruct Y; fail); destruct Y as [Y _]; tauto. }
  seq. eapply (wp_pointer _ _ _ _ (vp V 2) 0 (VPtr cB 0)).
  { apply pe_member; [look|]. eapply ptr_at; [exact (proj1 ME2)|exact G9|]. cbv beta. clear - OV4. lia. }
  { ev. }
  { eapply inb_frame; [exact G9|exact (proj2 ME2)]. }
  intros m10 X10 F10 T2. cbv iota.
  seq. apply (wp_new _ _ _ _ (ofN (2 ^ kk) * lb)); [eapply pe_eq; [eapply pe_bin; [apply PP; look|ev]|simp; rewrite wrap_u32 by lia; reflexivity]|lia|]. intros sB m11 BB X11 F11 ISB. cbv iota.
  assert (G11 : frame m4 m11 (fun b _ => b = vp V 0 \/ b = vp V 1 \/ b = vp V 2)).
  { eapply frame_comp; [eapply frame_comp; [eapply frame_weak; [exact G9|intros b o _ _ [Y|Y]; [left|right; left]; exact Y]|exact F10|]|exact F11|]; intros b o _ _ Y; [right; right; exact (proj1 Y)|destruct Y]. }
  seq. eapply (wp_pointer _ _ _ _ (vp V 3) 0 (VPtr sB 0)).
  { apply pe_member; [look|]. eapply ptr_at; [exact (proj1 ME3)|exact G11|]. cbv beta. clear - OV4. lia. }
  { ev. }
  { eapply inb_frame; [exact G11|exact (proj2 ME3)]. }
  intros m12 X12' F12 T3. cbv iota.
  assert (G12 : frame m4 m12 (fun b _ => In b [vp V 0; vp V 1; vp V 2; vp V 3])).
  { eapply frame_comp; [eapply frame_weak; [exact G11|intros b o _ _ [Y|[Y|Y]]; rewrite Y; cbn; tauto]|exact F12|]. intros b o _ _ [-> _]. cbn. tauto. }
  assert (OR : order (mnext m) m12 Lc V sdb hB kB cB sB).
  { assert (N2 : (sdb < mnext m2)%positive) by (clear - BS X1 M2; lia). unfold order. split; [clear - BS; lia|]. split; [intros b I NB; assert (Y := NW b I NB); clear - Y OV4 N2; lia|].
    split; clear - OV4 N2 M3 BH X5 X6 BK X7 X8 BC X9 X10 BB X11 X12'; lia. }
  assert (MO : forall b, (b < mnext m)%positive -> ~ In b [vp V 0; vp V 1; vp V 2; vp V 3]) by (intros b Y; clear - Y OR; unfold order in OR; cbn [In]; lia).
  assert (GG : frame m m12 nothing). { eapply frame_comp; [exact G4|exact G12|]. intros b o Y _ Z. exact (MO b Y Z). }
  assert (SU : rsetup (mnext m) m12 Lc V sdb hB kB cB sB).
  { split; [eapply rstat_kept; [exact CS|exact GG|intros b q _ []]|]. split; [|split; [exact ND3|split; [exact OR|split; [exact O1|split; assumption]]]].
    assert (NP : vv V <> vp V 0 /\ vv V <> vp V 1 /\ vv V <> vp V 2 /\ vv V <> vp V 3) by (clear - OV4; lia).
    assert (PV : forall f, ptr m4 (vv V) (vx V * 4 + f) (vp V f) -> ptr m12 (vv V) (vx V * 4 + f) (vp V f)) by (intros f Y; eapply ptr_at; [exact Y|exact G12|cbn [In]; clear - NP; intuition]).
    split.
    - splits; (split; [apply PV; first [exact (proj1 ME0)|exact (proj1 ME1)|exact (proj1 ME2)|exact (proj1 ME3)]|]).
      + eapply to_at; [eapply to_at; [eapply to_at; [eapply to_at; [eapply to_at; [eapply to_at; [exact T0|exact F7|intros []]|exact F8|]|exact F9|intros []]|exact F10|]|exact F11|intros []]|exact F12|]; intros [Y _]; clear - Y OV4; lia.
      + eapply to_at; [eapply to_at; [eapply to_at; [eapply to_at; [exact T1|exact F9|intros []]|exact F10|]|exact F11|intros []]|exact F12|]; intros [Y _]; clear - Y OV4; lia.
      + eapply to_at; [eapply to_at; [exact T2|exact F11|intros []]|exact F12|]; intros [Y _]; clear - Y OV4; lia.
      + exact T3.
    - splits.
      + eapply inb_frame; [exact F12|]. eapply inb_frame; [exact F11|]. eapply inb_frame; [exact F10|]. eapply inb_frame; [exact F9|]. eapply inb_frame; [exact F8|]. eapply inb_frame; [exact F7|]. eapply inb_frame; [exact F6|exact IHb].
      + eapply inb_frame; [exact F12|]. eapply inb_frame; [exact F11|]. eapply inb_frame; [exact F10|]. eapply inb_frame; [exact F9|]. eapply inb_frame; [exact F8|exact IK].
      + eapply inb_frame; [exact F12|]. eapply inb_frame; [exact F11|]. eapply inb_frame; [exact F10|exact IC].
      + eapply inb_frame; [exact F12|exact ISB].
      + eapply inb_frame; [exact G12|]. eapply inb_frame; [exact F4|]. eapply inb_frame; [exact F3|]. eapply inb_frame; [exact F2|exact IS]. }
  assert (AB12 : absorbing m12 Lc lam []).
  { eapply absorbing_off; [eapply absorbing_off; [exact AB|exact F4|intros b q []]|exact G12|]. intros b q Y I. destruct (Pos.eq_dec b 1) as [->|NE]; [apply (MO 1%positive); [clear - X12; lia|exact Y]|].
    assert (Z := proj1 (proj2 OR) b I NE). clear - Y Z OV4. cbn [In] in Y. lia. }
  seq. eapply wp_set; [ev|]. seq. eapply wp_set; [ev|].
  seq. eapply (wp_for _ 38%positive 32 _ (fun i e m' => rvars Lc V sdb e (Z.to_N i) /\ rstate m12 Lc sdb hB kB cB sB (Z.to_N i) m') _ 0 (ofN tau)); [lia|lia|lia| | |].
  - intros i e' m' Hi (CVs & ST). assert (CVs' := CVs). unfold rvars in CVs'. repeat match goal with X : lookup e4 _ = _ |- _ => clear X end. unhas. rewrite Z2N.id in * by lia. split; [assumption|]. split.
    { eexists. split; [ev|]. simp. rewrite truth_b. lia. }
    eapply (wp_rtree (mnext m) m12 Lc V sdb hB kB cB sB (Z.to_N i)); [exact SZ|exact AP|exact SU|lia|exact CVs|exact ST|].
    intros e5 m5' CV5 E5 ST5. rewrite Z2N.id in * by lia. split; [exact E5|]. replace (Z.to_N (i + 1)) with (Z.to_N i + 1)%N by lia. split; assumption.
  - intros e' m13 (CVs & ST). rewrite N2Z.id in *. unfold rvars in CVs. repeat match goal with X : lookup e4 _ = _ |- _ => clear X end. unhas. split.
    { eexists. split; [ev|]. simp. rewrite truth_b. lia. }
    cbv beta iota. destruct ST as (F13 & AB13 & VC13).
    assert (LO := fun b q => rfoot_off (mnext m) m12 Lc V sdb hB kB cB sB b q AP SU).
    assert (RS13 : rspace V sdb hB kB cB sB m13) by (eapply rspace_kept; [exact (proj1 (proj2 SU))|exact F13|intros b q I; apply LO; right; exact I]).
    assert (CS13 : rstat m13) by (eapply rstat_kept; [exact (proj1 SU)|exact F13|intros b q I; apply LO; left; exact I]).
    destruct RS13 as ((U0 & U1 & U2 & U3) & _).
    seq. eapply wp_callf with (vs := [VPtr (vv V) (vx V)]); [evs|eapply ref_rec_clear; eassumption|]. intros w' m' ->. cbn [set].
    seq. eapply wp_eval; [ev|]. cbv iota.
    assert (LB := proj1 (proj2 OR)).
    assert (BL : forall b, (b < mnext m)%positive -> b <> 1%positive -> ~ In b (blocks Lc)) by (intros b Y Y1 I; assert (Z := LB b I Y1); clear - Y Z OR; unfold order in OR; lia).
    assert (G13 : frame m m13 qfoot).
    { eapply frame_comp; [eapply frame_weak; [exact GG|intros b o _ _ []]|exact F13|]. intros b o Y _ [Z|[Z|Z]].
      - exfalso. clear - Y Z OR. unfold order in OR. cbn [In] in Z. lia.
      - left. exact Z.
      - exfalso. assert (Z' := foot_blocks Lc ND3 b o Z). apply foot_in in Z. exact (BL b Y (proj1 Z') Z). }
    eapply wp_callf with (vs := [VPtr (cx Lc) 0; VPtr hb ho; VInt (ofN (lam / 8 * 2))]).
    { eapply pes_cons; [ev|]. eapply pes_cons; [ev|]. eapply pes_cons; [eapply pe_eq; [ev|simp; rewrite wrap_u32 by lia; f_equal; lia]|apply pes_nil]. }
    { apply (ref_H_final1 f_H1_final 9 1 m13 Lc lam (rhashes (N.to_nat tau)) hb ho (lam / 8 * 2)); [exact code_H1_final|exact AB13|exact (proj2 (proj2 (proj2 (proj2 (proj2 (proj1 CS13))))))|lia|apply BL; [clear - X12; lia|lia]| |apply BL; [exact OH|clear - A3; lia]|lia].
      replace (ofN (lam / 8 * 2)) with (lb * 2) by lia. eapply inb_frame; [exact G13|exact IH]. }
    intros w14 m14 (F14 & HH). cbn [set]. replace (ofN (lam / 8 * 2)) with (lb * 2) in F14 by lia.
    assert (FO : forall b q, (b < mnext m)%positive -> outfoot Lc hb ho (lb * 2) b q -> at_ hb ho (lb * 2) b q).
    { intros b q Y [Z|Z]; [exfalso|exact Z]. assert (Z' := foot_blocks Lc ND3 b q Z). apply foot_in in Z. exact (BL b Y (proj1 Z') Z). }
    split; [|split].
    + eapply frame_comp; [exact G13|exact F14|]. intros b q Y _ Z. right. exact (FO b q Y Z).
    + intros t k Ht Hk. eapply off_set; [apply VC13; assumption|exact F14|]. intros q Y. apply FO in Y; [|exact OV]. destruct Y as [Y _]. exact (A4 Y).
    + unfold VcSpec.H1. rewrite shake_level. exact HH.
  - change (Z.to_N 0) with 0%N. split; [unfold rvars; rewrite low_0; hass|]. split; [apply frame_refl|]. split; [exact AB12|]. intros t k Ht. lia.
Qed.
End VoleR.
