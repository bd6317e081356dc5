(** The translated hash functions over four states. *)
From Coq Require Import ZArith NArith List Bool FMapPositive Lia ZifyBool ZifyNat ZifyN.
From Verif Require Import Model.Base Proof.BaseProof.
From Verif Require Model.Hash Model.Sponge Spec.KeccakSpec Proof.KeccakProof Proof.RefWin Proof.RefOwf Proof.RefVoleHash Proof.SpongeProof Proof.ShakeProof Proof.ShakeRun.
From Verif Require Import Model.CtLang Model.CtNames Model.CtKeccakP Model.CtKeccak Model.CtProgram Proof.RefLogic Proof.RefTac Proof.RefMem Proof.RefReg Proof.RefKeccak Proof.RefFast Proof.RefSnp Proof.RefSponge Proof.RefHash Proof.RefSponge4.
Import ListNotations.
Local Open Scope Z_scope.
Arguments wrap : simpl never.

Definition absorbing4 (m : mem) (L : loc) (sec : N) (D : Z -> bytes) : Prop := (forall j, 0 <= j < 4 -> bytes_ok (D j)) /\
  exists k, (forall j, 0 <= j < 4 -> snd (after sec (D j)) = k) /\ ctx4 m L (fun j => fst (after sec (D j))) (shake_rate sec) k 0.
Definition squeezing4 (m : mem) (L : loc) (sec : N) (D : Z -> bytes) (p : N) : Prop := (forall j, 0 <= j < 4 -> bytes_ok (D j)) /\
  exists s k, ctx4 m L s (shake_rate sec) k 1 /\ (k <= shake_rate sec)%N /\ forall j, 0 <= j < 4 -> snd (pulls (shake_rate sec) p (final_state sec (D j), 0%N)) = (s j, k).

Lemma code_HashInitialize4 : PositiveMap.find f_Keccak_HashInitializetimes4 code = Some c_Keccak_HashInitializetimes4. Proof. vm_compute. reflexivity. Qed.
Lemma code_HashUpdate4 : PositiveMap.find f_Keccak_HashUpdatetimes4 code = Some c_Keccak_HashUpdatetimes4. Proof. vm_compute. reflexivity. Qed.
Lemma code_HashFinal4 : PositiveMap.find f_Keccak_HashFinaltimes4 code = Some c_Keccak_HashFinaltimes4. Proof. vm_compute. reflexivity. Qed.
Lemma code_HashSqueeze4 : PositiveMap.find f_Keccak_HashSqueezetimes4 code = Some c_Keccak_HashSqueezetimes4. Proof. vm_compute. reflexivity. Qed.
Lemma code_hash_init_x4 : PositiveMap.find f_hash_init_x4 code = Some c_hash_init_x4. Proof. vm_compute. reflexivity. Qed.
Lemma code_hash_update_x4 : PositiveMap.find f_hash_update_x4 code = Some c_hash_update_x4. Proof. vm_compute. reflexivity. Qed.
Lemma code_hash_update_x4_4 : PositiveMap.find f_hash_update_x4_4 code = Some c_hash_update_x4_4. Proof. vm_compute. reflexivity. Qed.
Lemma code_hash_update_x4_1 : PositiveMap.find f_hash_update_x4_1 code = Some c_hash_update_x4_1. Proof. vm_compute. reflexivity. Qed.
Lemma code_hash_final_x4 : PositiveMap.find f_hash_final_x4 code = Some c_hash_final_x4. Proof. vm_compute. reflexivity. Qed.
Lemma code_hash_squeeze_x4 : PositiveMap.find f_hash_squeeze_x4 code = Some c_hash_squeeze_x4. Proof. vm_compute. reflexivity. Qed.
Lemma code_hash_squeeze_x4_4 : PositiveMap.find f_hash_squeeze_x4_4 code = Some c_hash_squeeze_x4_4. Proof. vm_compute. reflexivity. Qed.
Lemma code_H0_x4_init : PositiveMap.find f_H0_x4_init code = Some c_H0_x4_init. Proof. vm_compute. reflexivity. Qed.
Lemma code_H0_x4_update : PositiveMap.find f_H0_x4_update code = Some c_H0_x4_update. Proof. vm_compute. reflexivity. Qed.
Lemma code_H0_x4_final : PositiveMap.find f_H0_x4_final code = Some c_H0_x4_final. Proof. vm_compute. reflexivity. Qed.

Lemma ref_HashInitialize4 m L rate : space4 m L -> kconst m -> (rate = 136 \/ rate = 168)%N ->
  calls code f_Keccak_HashInitializetimes4 [VPtr (cx L) 0; VInt (ofN (8 * rate)); VInt (ofN (1600 - 8 * rate)); VInt 0; VInt 31] m (fun v m' =>
    frame m m' (foot L) /\ ctx4 m' L (fun _ => zeros 200) rate 0 0).
Proof.
  intros SP KC R. assert (X := SP). destruct X as (ND & (P1 & P2 & P3) & _ & (_ & _ & _ & _ & I5 & I6)). start code_HashInitialize4.
  seq. eapply wp_if; [ev|]. simp. rewrite truth_b. change (31 =? 0) with false. cbv iota. apply wp_skip.
  seq. eapply wp_callf; [eapply pes_cons; [eapply pe_ptr; [look|exact P1]|evs]|apply (ref_SpongeInitialize4 m L rate SP R)|]. intros v m1 (-> & F1 & K1 & K2 & K3 & K4). cbn [set].
  assert (FB := foot_blocks L ND).
  assert (SP1 : space4 m1 L) by (eapply space4_kept; [exact SP|exact F1|intros q Y; apply FB in Y; tauto..]).
  assert (KC1 : kconst m1) by (eapply kconst_kept; [exact KC|exact F1|intros q Y; apply FB in Y; tauto]).
  assert (X1 := SP1). destruct X1 as (_ & (Q1 & Q2 & Q3) & _ & (_ & _ & _ & _ & J5 & J6)).
  seq. eapply wp_set; [ev|]. seq. eapply wp_if; [ev|]. change (truth _) with false. cbv iota. apply wp_skip.
  seq. eapply (wp_store4 _ _ _ _ (flb L) 0); [eapply pe_ptr; [look|exact Q2]|ev|exact J5|]. intros m2 F2 K5.
  assert (D1 := ne L 0 7 ND ltac:(lia)). assert (D2 := ne L 1 7 ND ltac:(lia)). assert (D3 := ne L 2 7 ND ltac:(lia)). assert (D4 := ne L 3 7 ND ltac:(lia)). assert (D5 := ne L 4 7 ND ltac:(lia)).
  assert (D6 := ne L 5 7 ND ltac:(lia)). assert (D7 := ne L 6 7 ND ltac:(lia)). assert (D8 := ne L 7 8 ND ltac:(lia)).
  assert (E1 := ne L 0 8 ND ltac:(lia)). assert (E2 := ne L 1 8 ND ltac:(lia)). assert (E3 := ne L 2 8 ND ltac:(lia)). assert (E4 := ne L 3 8 ND ltac:(lia)). assert (E5 := ne L 4 8 ND ltac:(lia)).
  assert (E6 := ne L 5 8 ND ltac:(lia)). assert (E7 := ne L 6 8 ND ltac:(lia)). cbn [nth blocks] in *.
  assert (SP2 : space4 m2 L) by (eapply space4_kept; [exact SP1|exact F2|intros q [Y _]; tauto..]).
  assert (X2 := SP2). destruct X2 as (_ & (T1 & T2 & T3) & _ & (_ & _ & _ & _ & U5 & U6)).
  seq. eapply (wp_store1 _ _ _ _ (dsb L) 0 31); [eapply pe_ptr; [look|exact T3]|ev|exact U6|lia|]. set (m3 := set1 m2 (dsb L) 0 31).
  assert (F3 : frame m2 m3 (at_ (dsb L) 0 1)) by (apply frame_set1_at; exact U6).
  assert (K6 : holds m3 (dsb L) 0 [31%N]).
  { split; [apply inb_set1; exact U6|]. intros i Hi. replace i with 0%N by (change (lenN [31%N]) with 1%N in Hi; lia). unfold m3. rewrite byte_set1_same by (exact U6 || lia). reflexivity. }
  clearbody m3. eapply wp_return; [ev|]. split.
  { eapply frame_comp; [eapply frame_comp; [exact F1|exact F2|]|exact F3|]; intros b o _ _ [-> _]; unfold foot; cbn [In]; tauto. }
  split; [eapply space4_kept; [exact SP2|exact F3|intros q [Y _]; tauto..]|].
  split; [eapply kconst_kept; [eapply kconst_kept; [exact KC1|exact F2|intros q [Y _]; tauto]|exact F3|intros q [Y _]; tauto]|].
  split; [eapply st4_kept; [eapply st4_kept; [exact K1|exact F2|intros q [Y _]; tauto]|exact F3|intros q [Y _]; tauto]|].
  split; [split; [|split]|split]; try exact K6; (eapply off_block; [|exact F3|assumption]); try exact K5; (eapply off_block; [|exact F2|assumption]); assumption.
Qed.
Lemma ref_hash_init_x4 m L sec : space4 m L -> kconst m -> (sec < 2^32)%N ->
  calls code f_hash_init_x4 [VPtr (cx L) 0; VInt (ofN sec)] m (fun _ m' => frame m m' (foot L) /\ absorbing4 m' L sec (fun _ => [])).
Proof.
  intros SP KC LS. start code_hash_init_x4. eapply wp_if; [ev|]. simp. rewrite truth_b. unfold absorbing4.
  assert (E : after sec [] = (zeros 200, 0%N)) by reflexivity. rewrite E. cbn [fst snd]. unfold Sponge.shake_rate.
  destruct (Z.eqb_spec (ofN sec) 128) as [Z|Z].
  - replace (sec =? 128)%N with true by lia. eapply wp_callf; [evs|apply (ref_HashInitialize4 m L 168 SP KC); auto|]. intros v m' (F & C). split; [exact F|]. split; [constructor|]. exists 0%N. split; [reflexivity|exact C].
  - replace (sec =? 128)%N with false by lia. eapply wp_callf; [evs|apply (ref_HashInitialize4 m L 136 SP KC); auto|]. intros v m' (F & C). split; [exact F|]. split; [constructor|]. exists 0%N. split; [reflexivity|exact C].
Qed.
Lemma g_sponge m L s rate k q e x : ctx4 m L s rate k q -> lookup e x = VPtr (cx L) 0 -> pe e m (EField (EVar x) 3 0) (VPtr (sp L) 0).
Proof. intros ((_ & (P & _) & _) & _) E. eapply pe_ptr; [exact E|exact P]. Qed.
Lemma g_fixed m L s rate k q e x : ctx4 m L s rate k q -> lookup e x = VPtr (cx L) 0 -> pe e m (ELoad 4 (EField (EVar x) 3 1)) (VInt 0).
Proof. intros ((_ & (_ & P & _) & _) & _ & _ & _ & (C & _)) E. apply (pe_num _ _ _ (flb L) 0); [eapply pe_ptr; [exact E|exact P]|exact C|lia]. Qed.
Lemma g_delim m L s rate k q e x : ctx4 m L s rate k q -> lookup e x = VPtr (cx L) 0 -> pe e m (ELoad 1 (EField (EVar x) 3 2)) (VInt 31).
Proof.
  intros ((_ & (_ & _ & P) & _) & _ & _ & _ & (_ & C)) E. eapply pe_eq; [eapply pe_load1; [eapply pe_ptr; [exact E|exact P]|exact (holds_inb _ _ _ _ C)]|].
  f_equal. exact (proj2 C 0%N eq_refl).
Qed.
Definition feed4 (m : mem) (L : loc) (db : Z -> positive) (dof : Z -> Z) (d : Z -> bytes) (n : N) : Prop := forall j, 0 <= j < 4 -> holds m (db j) (dof j) (d j) /\ bytes_ok (d j) /\ lenN (d j) = n /\ ~ In (db j) (blocks L).
Lemma ref_hash_update_x4 m L sec D pb po db dof d n : absorbing4 m L sec D -> cells m pb po (fun j => VPtr (db j) (dof j)) -> feed4 m L db dof d n -> (n + 200 <= 2^32)%N ->
  calls code f_hash_update_x4 [VPtr (cx L) 0; VPtr pb po; VInt (ofN n)] m (fun _ m' => frame m m' (foot L) /\ absorbing4 m' L sec (fun j => D j ++ d j)).
Proof.
  intros (BD & k & Ek & C) HP HD LD. assert (R := shake_rate_of sec). start code_hash_update_x4. eapply wp_callf; [evs|..].
  { simp. rewrite bits8 by lia. 
    instantiate (1 := fun _ m' => frame m m' (foot L) /\ absorbing4 m' L sec (fun j => D j ++ d j)). start code_HashUpdate4.
    seq. eapply wp_if; [ev|]. simp. rewrite mod8b by lia. change (truth _) with false. cbv iota. apply wp_skip.
    seq. eapply wp_callf; [eapply pes_cons; [eapply (g_sponge _ _ _ _ _ _ _ _ C); look|evs]|..].
    { rewrite div8b by lia. apply (ref_SpongeAbsorb4 m L _ _ _ pb po db dof d n C R); try assumption. rewrite <- (Ek 0) by lia. apply (ShakeRun.after_good sec (D 0)). apply BD. lia. }
    intros v m' (-> & F & s' & k' & C' & Lk & FE). cbn [set]. eapply wp_return; [ev|]. split; [exact F|].
    assert (AE : forall j, 0 <= j < 4 -> after sec (D j ++ d j) = (s' j, k')).
    { intros j Hj. rewrite <- ShakeRun.after_app. rewrite <- (FE j Hj). assert (X := Ek j Hj). destruct (after sec (D j)) as [s0 k0]. cbn [fst snd] in *. subst k0. reflexivity. }
    split; [intros j Hj; apply bytes_ok_app; [apply BD; exact Hj|apply HD; exact Hj]|]. exists k'. split; [intros j Hj; rewrite (AE j Hj); reflexivity|].
    eapply ctx4_ext; [exact C'|]. intros j Hj. rewrite (AE j Hj). reflexivity. }
  intros v m' H. exact H.
Qed.
Lemma ref_hash_final_x4 m L sec D : absorbing4 m L sec D ->
  calls code f_hash_final_x4 [VPtr (cx L) 0] m (fun _ m' => frame m m' (foot L) /\ squeezing4 m' L sec D 0).
Proof.
  intros (BD & k & Ek & C). assert (R := shake_rate_of sec). assert (R' := rate_r _ R).
  assert (HK : (k < shake_rate sec)%N) by (rewrite <- (Ek 0) by lia; apply (ShakeRun.after_good sec (D 0)), BD; lia). start code_hash_final_x4. eapply wp_callf; [evs|..].
  { instantiate (1 := fun _ m' => frame m m' (foot L) /\ squeezing4 m' L sec D 0). start code_HashFinal4.
    seq. eapply wp_callf; [eapply pes_cons; [eapply (g_sponge _ _ _ _ _ _ _ _ C); look|eapply pes_cons; [eapply (g_delim _ _ _ _ _ _ _ _ C); look|apply pes_nil]]|apply (ref_LastFewBits4 m L _ _ _ C R HK)|].
    intros v m1 (-> & F1 & C1). cbn [set]. seq. eapply wp_set; [ev|]. eapply wp_if; [ev|]. change (truth _) with true. cbv iota.
    seq. eapply wp_callf; [eapply pes_cons; [eapply (g_sponge _ _ _ _ _ _ _ _ C1); look|eapply pes_cons; [ev|eapply pes_cons; [eapply pe_div; [eapply (g_fixed _ _ _ _ _ _ _ _ C1); look|ev|lia]|apply pes_nil]]]|..].
    { change (CtLang.div ODiv u32 0 8) with 0. apply (ref_SpongeSqueeze40 m1 L _ _ _ VNull C1 R). lia. }
    intros v m2 (-> & F2). cbn [set]. eapply wp_return; [ev|]. split; [eapply frame_comp; [exact F1|exact F2|intros b o _ _ []]|]. split; [exact BD|].
    eexists. eexists. split; [eapply ctx4_kept; [exact C1|exact F2|intros b o []]|]. split; [lia|]. intros j Hj. unfold final_state. rewrite (Ek j Hj). reflexivity. }
  intros v m' H. exact H.
Qed.
Definition room4 (m : mem) (L : loc) (db : Z -> positive) (dof : Z -> Z) (n : N) : Prop := (forall j, 0 <= j < 4 -> inb m (db j) (dof j) (ofN n) /\ ~ In (db j) (blocks L)) /\
  (forall i j, 0 <= i < j /\ j < 4 -> sep (db i) (dof i) (ofN n) (db j) (dof j) (ofN n)).
Definition wrote4 (m : mem) (db : Z -> positive) (dof : Z -> Z) (l : Z -> bytes) : Prop := forall j, 0 <= j < 4 -> holds m (db j) (dof j) (l j).
Lemma ref_hash_squeeze_x4 m L sec D p pb po db dof n : squeezing4 m L sec D p -> cells m pb po (fun j => VPtr (db j) (dof j)) -> room4 m L db dof n -> (n + 200 <= 2^32)%N ->
  calls code f_hash_squeeze_x4 [VPtr (cx L) 0; VPtr pb po; VInt (ofN n)] m (fun _ m' => frame m m' (outfoot4 L db dof (ofN n)) /\ squeezing4 m' L sec D (p + n) /\
    wrote4 m' db dof (fun j => dropN p (shake sec (D j) (p + n)))).
Proof.
  intros (BD & s & k & C & Lk & PL) HP (HD & DJ) LN. assert (R := shake_rate_of sec). start code_hash_squeeze_x4. eapply wp_callf; [evs|..].
  { simp. rewrite bits8 by lia. instantiate (1 := fun _ m' => frame m m' (outfoot4 L db dof (ofN n)) /\ squeezing4 m' L sec D (p + n) /\ wrote4 m' db dof (fun j => dropN p (shake sec (D j) (p + n)))). start code_HashSqueeze4.
    seq. eapply wp_if; [ev|]. simp. rewrite mod8b by lia. change (truth _) with false. cbv iota. apply wp_skip.
    seq. eapply wp_callf; [eapply pes_cons; [eapply (g_sponge _ _ _ _ _ _ _ _ C); look|evs]|..].
    { rewrite div8b by lia. apply (ref_SpongeSqueeze4 m L s _ k pb po db dof n C R); assumption. }
    intros v m1 (-> & F1 & HO & s' & k' & C1 & Lk1 & PL1). cbn [set]. eapply wp_return; [ev|]. split; [exact F1|]. split.
    - split; [exact BD|]. exists s', k'. split; [exact C1|]. split; [exact Lk1|]. intros j Hj. rewrite pulls_add. cbn [snd]. rewrite (PL j Hj). exact (PL1 j Hj).
    - intros j Hj. rewrite <- squeezed_part by (apply BD; exact Hj). rewrite (PL j Hj). exact (HO j Hj). }
  intros v m' H. exact H.
Qed.

(** ** The variants with the four pointers as arguments *)
Definition pick {A : Type} (a b c d : A) (j : Z) : A := if j =? 0 then a else if j =? 1 then b else if j =? 2 then c else d.
Definition loads (x : positive) (a b c d : expr) (s : stmt) : stmt :=
  SAlloc x (EInt 4) ;; SStoreP (EVar x) a ;; SStoreP (EAt (EVar x) 1 (EInt 1)) b ;; SStoreP (EAt (EVar x) 1 (EInt 2)) c ;; SStoreP (EAt (EVar x) 1 (EInt 3)) d ;; s.
Lemma wp_loads x a b c d s e m va vb vc vd (Q : outcome -> env -> mem -> Prop) :
  (forall b' m, pe (PositiveMap.add x (VPtr b' 0) e) m a va) -> (forall b' m, pe (PositiveMap.add x (VPtr b' 0) e) m b vb) ->
  (forall b' m, pe (PositiveMap.add x (VPtr b' 0) e) m c vc) -> (forall b' m, pe (PositiveMap.add x (VPtr b' 0) e) m d vd) ->
  (forall m', frame m m' nothing -> cells m' (mnext m) 0 (pick va vb vc vd) -> wp code s (PositiveMap.add x (VPtr (mnext m) 0) e) m' Q) -> wp code (loads x a b c d s) e m Q.
Proof.
  intros Pa Pb Pc Pd K. unfold loads. apply wp_seq. eapply wp_alloc; [ev|]. set (pb := mnext m). set (m0 := fresh m _ _).
  assert (F0 : frame m m0 nothing) by apply frame_fresh. assert (I0 : inb m0 pb 0 4) by (apply inb_fresh; lia).
  assert (M1 : mnext m = pb) by reflexivity. clearbody m0 pb. rewrite M1 in K.
  assert (I : forall o m', inb m' pb 0 4 -> 0 <= o < 4 -> inb m' pb o 1) by (intros o m' X Ho; eapply inb_sub; [exact X|lia..]).
  apply wp_seq. eapply wp_storep; [apply pe_var, lookup_eq|apply Pa|apply I; [exact I0|lia]|].
  apply wp_seq. eapply wp_storep; [eapply pe_at; [apply pe_var, lookup_eq|ev]|apply Pb|apply inb_setv, I; [exact I0|lia]|].
  apply wp_seq. eapply wp_storep; [eapply pe_at; [apply pe_var, lookup_eq|ev]|apply Pc|apply inb_setv, inb_setv, I; [exact I0|lia]|].
  apply wp_seq. eapply wp_storep; [eapply pe_at; [apply pe_var, lookup_eq|ev]|apply Pd|apply inb_setv, inb_setv, inb_setv, I; [exact I0|lia]|].
  change (0 + 1 * 1) with 1. change (0 + 1 * 2) with 2. change (0 + 1 * 3) with 3.
  assert (I1 : inb (setv m0 pb 0 va) pb 0 4) by (apply inb_setv, I0). assert (I2 : inb (setv (setv m0 pb 0 va) pb 1 vb) pb 0 4) by (apply inb_setv, I1).
  assert (I3 : inb (setv (setv (setv m0 pb 0 va) pb 1 vb) pb 2 vc) pb 0 4) by (apply inb_setv, I2).
  apply K.
  - eapply frame_comp with (S1 := at_ pb 0 4); [exact F0| |intros b0 o Y _ [-> _]; lia].
assert (W : forall m' o v, frame m0 m' (at_ pb 0 4) -> inb m' pb 0 4 -> 0 <= o < 4 -> frame m0 (setv m' pb o v) (at_ pb 0 4)).
    { intros m' o v F X Ho. eapply frame_comp; [exact F|apply frame_setv; apply I; assumption|in_at]. }
    apply W; [|exact I3|lia]. apply W; [|exact I2|lia]. apply W; [|exact I1|lia]. apply W; [|exact I0|lia]. apply frame_refl.
  - intros j Hj. split; [apply inb_setv, I; [exact I3|lia]|]. rewrite Z.add_0_l.
    rewrite cell_setv by first [apply I; [exact I3|lia]|lia]. rewrite cell_setv by first [apply I; [exact I2|lia]|lia]. rewrite cell_setv by first [apply I; [exact I1|lia]|lia]. rewrite cell_setv by first [apply I; [exact I0|lia]|lia].
    rewrite Pos.eqb_refl. cbn [andb]. unfold pick. assert (j = 0 \/ j = 1 \/ j = 2 \/ j = 3) as [->|[->|[->| ->]]] by lia; reflexivity.
Qed.
Lemma absorbing4_kept m m' L sec D : absorbing4 m L sec D -> frame m m' nothing -> absorbing4 m' L sec D.
Proof. intros (B & k & E & C) F. split; [exact B|]. exists k. split; [exact E|]. eapply ctx4_kept; [exact C|exact F|intros b o []]. Qed.
Lemma squeezing4_kept m m' L sec D p : squeezing4 m L sec D p -> frame m m' nothing -> squeezing4 m' L sec D p.
Proof. intros (B & s & k & C & X) F. split; [exact B|]. exists s, k. split; [eapply ctx4_kept; [exact C|exact F|intros b o []]|exact X]. Qed.
Lemma feed4_kept m m' L db dof d n : feed4 m L db dof d n -> frame m m' nothing -> feed4 m' L db dof d n.
Proof. intros H F j Hj. destruct (H j Hj) as (A & B). split; [eapply off_set; [exact A|exact F|intros q []]|exact B]. Qed.
Lemma pick_ptr db dof : forall j, 0 <= j < 4 -> pick (VPtr (db 0) (dof 0)) (VPtr (db 1) (dof 1)) (VPtr (db 2) (dof 2)) (VPtr (db 3) (dof 3)) j = VPtr (db j) (dof j).
Proof. intros j Hj. assert (j = 0 \/ j = 1 \/ j = 2 \/ j = 3) as [->|[->|[->| ->]]] by lia; reflexivity. Qed.
Notation ptrs db dof := ([VPtr (db 0) (dof 0); VPtr (db 1) (dof 1); VPtr (db 2) (dof 2); VPtr (db 3) (dof 3)]).
Lemma ref_hash_update_x4_4 m L sec D db dof d n : absorbing4 m L sec D -> feed4 m L db dof d n -> (n + 200 <= 2^32)%N ->
  calls code f_hash_update_x4_4 (VPtr (cx L) 0 :: ptrs db dof ++ [VInt (ofN n)]) m (fun _ m' => frame m m' (foot L) /\ absorbing4 m' L sec (fun j => D j ++ d j)).
Proof.
  intros A HD LD. cbn [app]. start code_hash_update_x4_4. eapply (wp_loads 7%positive); [intros; ev|intros; ev|intros; ev|intros; ev|]. intros m1 F1 K1. set (pb := mnext m) in *.
  eapply wp_callf; [evs|apply (ref_hash_update_x4 m1 L sec D pb 0 db dof d n); [eapply absorbing4_kept; eassumption|eapply cells_ext; [exact K1|apply pick_ptr]|eapply feed4_kept; eassumption|exact LD]|].
  intros v m2 (F2 & A2). split; [|exact A2]. eapply frame_comp; [eapply frame_weak; [exact F1|intros b o _ _ []]|exact F2|intros b o _ _ X; exact X].
Qed.
Lemma ref_hash_update_x4_1 m L sec D db dof d : absorbing4 m L sec D -> holds m db dof d -> bytes_ok d -> ~ In db (blocks L) -> (lenN d + 200 <= 2^32)%N ->
  calls code f_hash_update_x4_1 [VPtr (cx L) 0; VPtr db dof; VInt (ofN (lenN d))] m (fun _ m' => frame m m' (foot L) /\ absorbing4 m' L sec (fun j => D j ++ d)).
Proof.
  intros A HD BD NI LD. start code_hash_update_x4_1. eapply (wp_loads 4%positive); [intros; ev|intros; ev|intros; ev|intros; ev|]. intros m1 F1 K1. set (pb := mnext m) in *.
  eapply wp_callf; [evs|apply (ref_hash_update_x4 m1 L sec D pb 0 (fun _ => db) (fun _ => dof) (fun _ => d) (lenN d)); [eapply absorbing4_kept; eassumption|eapply cells_ext; [exact K1|apply (pick_ptr (fun _ => db) (fun _ => dof))]|..]|].
  { intros j Hj. split; [eapply off_set; [exact HD|exact F1|intros q []]|]. auto. }
  { exact LD. }
  intros v m2 (F2 & A2). split; [|exact A2]. eapply frame_comp; [eapply frame_weak; [exact F1|intros b o _ _ []]|exact F2|intros b o _ _ X; exact X].
Qed.
Lemma ref_hash_squeeze_x4_4 m L sec D p db dof n : squeezing4 m L sec D p -> room4 m L db dof n -> (n + 200 <= 2^32)%N ->
  calls code f_hash_squeeze_x4_4 (VPtr (cx L) 0 :: ptrs db dof ++ [VInt (ofN n)]) m (fun _ m' => frame m m' (outfoot4 L db dof (ofN n)) /\ squeezing4 m' L sec D (p + n) /\
    wrote4 m' db dof (fun j => dropN p (shake sec (D j) (p + n)))).
Proof.
  intros A (HD & DJ) LD. cbn [app]. start code_hash_squeeze_x4_4. eapply (wp_loads 7%positive); [intros; ev|intros; ev|intros; ev|intros; ev|]. intros m1 F1 K1. set (pb := mnext m) in *.
  eapply wp_callf; [evs|apply (ref_hash_squeeze_x4 m1 L sec D p pb 0 db dof n); [eapply squeezing4_kept; eassumption|eapply cells_ext; [exact K1|apply pick_ptr]|split; [|exact DJ]|exact LD]|].
  { intros j Hj. destruct (HD j Hj) as (X & Y). split; [eapply inb_frame; [exact F1|exact X]|exact Y]. }
  intros v m2 (F2 & A2). split; [|exact A2]. eapply frame_comp; [eapply frame_weak; [exact F1|intros b o _ _ []]|exact F2|intros b o _ _ X; exact X].
Qed.

(** ** The random oracle *)
Lemma absorbing4_level m L sec D : absorbing4 m L (if (sec =? 128)%N then 128%N else 256%N) D -> absorbing4 m L sec D.
Proof. unfold absorbing4, ShakeRun.after, Sponge.shake_rate. destruct (sec =? 128)%N; exact (fun x => x). Qed.
Lemma ref_H0_x4_init m L sec : space4 m L -> kconst m -> (sec < 2^32)%N ->
  calls code f_H0_x4_init [VPtr (cx L) 0; VInt (ofN sec)] m (fun _ m' => frame m m' (foot L) /\ absorbing4 m' L sec (fun _ => [])).
Proof.
  intros SP KC LS. start code_H0_x4_init.
  eapply wp_callf with (R := fun _ m' => frame m m' (foot L) /\ absorbing4 m' L (if (sec =? 128)%N then 128%N else 256%N) (fun _ => [])) (vs := [VPtr (cx L) 0; VInt (ofN (if (sec =? 128)%N then 128%N else 256%N))]).
  { eapply pes_cons; [ev|]. eapply pes_cons; [|apply pes_nil]. eapply pe_eq; [eapply pe_un; eapply pe_cond; [ev|]|]; simp; rewrite ?truth_b.
    - replace (ofN sec =? 128) with (sec =? 128)%N by lia. instantiate (1 := ofN (if (sec =? 128)%N then 128%N else 256%N)). destruct (sec =? 128)%N; ev.
    - destruct (sec =? 128)%N; reflexivity. }
  { destruct (sec =? 128)%N; [apply (ref_hash_init_x4 m L 128 SP KC)|apply (ref_hash_init_x4 m L 256 SP KC)]; lia. }
  intros v m' (F & A). split; [exact F|]. apply absorbing4_level, A.
Qed.
Lemma ref_H0_x4_update m L sec D db dof d n : absorbing4 m L sec D -> feed4 m L db dof d n -> (n + 200 <= 2^32)%N ->
  calls code f_H0_x4_update (VPtr (cx L) 0 :: ptrs db dof ++ [VInt (ofN n)]) m (fun _ m' => frame m m' (foot L) /\ absorbing4 m' L sec (fun j => D j ++ d j)).
Proof.
  intros A HD LD. cbn [app]. start code_H0_x4_update. eapply wp_callf; [evs|apply (ref_hash_update_x4_4 m L sec D db dof d n A HD LD)|]. intros v m' H. exact H.
Qed.
Definition outfoots (L : loc) (db : Z -> positive) (dof : Z -> Z) (n : Z) (cb : Z -> positive) (cof : Z -> Z) (n' : Z) (b : positive) (o : Z) : Prop := foot L b o \/ outs db dof n b o \/ outs cb cof n' b o.
Lemma ref_H0_x4_final m L sec D k db dof n cb cof n' : absorbing4 m L sec D -> holds m 8 0 [k] -> (k < 256)%N -> ~ In 8%positive (blocks L) ->
  room4 m L db dof n -> (n + 200 <= 2^32)%N -> room4 m L cb cof n' -> (n' + 200 <= 2^32)%N -> (forall i j, 0 <= i < 4 -> 0 <= j < 4 -> sep (db i) (dof i) (ofN n) (cb j) (cof j) (ofN n')) ->
  calls code f_H0_x4_final (VPtr (cx L) 0 :: ptrs db dof ++ [VInt (ofN n)] ++ ptrs cb cof ++ [VInt (ofN n')]) m (fun _ m' => frame m m' (outfoots L db dof (ofN n) cb cof (ofN n')) /\
    wrote4 m' db dof (fun j => takeN n (shake sec (D j ++ [k]) (n + n'))) /\ wrote4 m' cb cof (fun j => dropN n (shake sec (D j ++ [k]) (n + n')))).
Proof.
  intros A HG Lk NG R1 L1 R2 L2 DJ. cbn [app]. start code_H0_x4_final.
  seq. eapply wp_callf; [evs|apply (ref_hash_update_x4_1 m L sec D 8 0 [k] A HG); [apply Forall_cons; [exact Lk|apply Forall_nil]|exact NG|change (lenN [k]) with 1%N; lia]|]. intros v1 m1 (F1 & A1). cbn [set].
  seq. eapply wp_callf; [evs|apply (ref_hash_final_x4 m1 L sec _ A1)|]. intros v2 m2 (F2 & S2). cbn [set]. assert (BD := proj1 S2).
  assert (F02 : frame m m2 (foot L)) by (eapply frame_comp; [exact F1|exact F2|intros b o _ _ X; exact X]).
  assert (RK : forall m' S db dof n, room4 m L db dof n -> frame m m' S -> room4 m' L db dof n).
  { intros m' T db' dof' l (X & Y) F. split; [|exact Y]. intros j Hj. destruct (X j Hj) as (U & W). split; [eapply inb_frame; [exact F|exact U]|exact W]. }
  seq. eapply wp_callf; [evs|apply (ref_hash_squeeze_x4_4 m2 L sec _ 0 db dof n S2); [eapply RK; eassumption|exact L1]|]. intros v3 m3 (F3 & S3 & W3). cbn [set]. rewrite N.add_0_l in *.
  assert (F03 : frame m m3 (outfoots L db dof (ofN n) cb cof (ofN n'))).
  { eapply frame_comp; [eapply frame_weak; [exact F02|intros b o _ _ X; left; exact X]|exact F3|]. intros b o _ _ [X|X]; [left; exact X|right; left; exact X]. }
  eapply wp_callf; [evs|apply (ref_hash_squeeze_x4_4 m3 L sec _ n cb cof n' S3); [eapply RK; eassumption|exact L2]|]. intros v4 m4 (F4 & S4 & W4). cbn [set].
  split; [eapply frame_comp; [exact F03|exact F4|]; intros b o _ _ [X|X]; [left; exact X|right; right; exact X]|]. split; [|exact W4].
  intros j Hj. assert (H := W3 j Hj). cbv beta in H. rewrite dropN_0 in H. assert (BJ := BD j Hj). cbv beta in BJ.
  assert (E : takeN n (shake sec (D j ++ [k]) (n + n')) = shake sec (D j ++ [k]) n).
  { rewrite <- !final_shake by exact BJ. rewrite pulls_add. cbn [fst]. assert (E := pulls_len (shake_rate sec) n (final_state sec (D j ++ [k]), 0%N)).
    revert E. generalize (fst (pulls (shake_rate sec) n (final_state sec (D j ++ [k]), 0%N))). intros l <-. apply takeN_app_exact. }
  rewrite E. eapply holds_frame; [exact H|exact F4|]. intros o X Y. assert (LE : lenN (shake sec (D j ++ [k]) n) = n) by (rewrite <- final_shake by exact BJ; apply pulls_len). rewrite LE in X.
  destruct Y as [Y|(i & Hi & Y)]; [apply (proj2 (proj1 R1 j Hj)), (foot_in _ _ _ Y)|]. assert (Z := DJ j i Hj Hi). in_at.
Qed.
