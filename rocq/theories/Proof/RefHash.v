(** The translated hash functions. *)
From Coq Require Import ZArith NArith List Bool FMapPositive Lia ZifyBool ZifyNat ZifyN.
From Verif Require Import Model.Base Proof.BaseProof.
From Verif Require Model.Hash Model.Sponge Spec.KeccakSpec Proof.KeccakProof Proof.RefWin Proof.RefOwf Proof.RefVoleHash Proof.SpongeProof Proof.ShakeProof Proof.ShakeRun.
From Verif Require Import Model.CtLang Model.CtNames Model.CtKeccakP Model.CtKeccak Model.CtProgram Proof.RefLogic Proof.RefTac Proof.RefMem Proof.RefReg Proof.RefKeccak Proof.RefFast Proof.RefSnp Proof.RefSponge.
Import ListNotations.
Local Open Scope Z_scope.
Arguments wrap : simpl never.
Notation shake := KeccakSpec.shake.
Notation after := ShakeRun.after.
Notation shake_rate := Sponge.shake_rate.

(** ** What a context stands for *)
Definition final_state (sec : N) (D : bytes) : bytes := padded (shake_rate sec) (fst (after sec D)) (snd (after sec D)).
Lemma shake_rate_of sec : rate_of (shake_rate sec).
Proof. unfold rate_of, Sponge.shake_rate. destruct (sec =? 128)%N; auto. Qed.
Lemma final_model sec D : bytes_ok D -> Sponge.hash_final Keccak.KeccakP1600_Permute_24rounds (ShakeRun.ready sec D) = Ok (SpongeProof.of_pair (shake_rate sec) (final_state sec D, 0%N) true).
Proof.
  intros HD. assert (R := rate_r _ (shake_rate_of sec)). destruct (ShakeRun.after_good sec D HD) as (HL & HB & HK). unfold ShakeRun.ready, final_state, padded.
  destruct (after sec D) as [st k]. cbn [fst snd] in *.
  unfold Sponge.hash_final, Sponge.SpongeAbsorbLastFewBits, SpongeProof.of_pair. cbn [fst snd Sponge.sp_squeezing Sponge.sp_rate Sponge.sp_state Sponge.sp_idx].
  change (Sponge.shake_suffix =? 0)%N with false. cbv iota. assert (L1 : forall b : N, lenN [b] = 1%N) by reflexivity.
  unfold Sponge.SnP_AddByte. rewrite (aget_ok st _ 0%N) by lia. cbn [Base.bind]. rewrite aset_ok by lia. cbn [Base.bind]. rewrite SpongeProof.upd_xor_at by lia.
  change (128 <=? Sponge.shake_suffix)%N with false. cbn [andb Base.bind].
  assert (LX : lenN (xor_at st k [Sponge.shake_suffix]) = 200%N) by (rewrite SpongeProof.xor_at_len; rewrite ?L1; lia).
  rewrite (aget_ok _ _ 0%N) by lia. cbn [Base.bind]. rewrite aset_ok by lia. cbn [Base.bind]. rewrite SpongeProof.upd_xor_at by lia.
  change Sponge.shake_suffix with 31%N in *.
  assert (LY : lenN (xor_at (xor_at st k [31%N]) (shake_rate sec - 1) [128%N]) = 200%N) by (rewrite SpongeProof.xor_at_len; rewrite ?L1; lia).
  assert (BY : bytes_ok (xor_at (xor_at st k [31%N]) (shake_rate sec - 1) [128%N])) by (repeat apply SpongeProof.xor_at_bytes; [exact HB|repeat constructor|repeat constructor]).
  destruct (ShakeProof.perm_ok _ LY BY) as (-> & _ & _). cbn [Base.bind fst snd]. rewrite N.eqb_refl. reflexivity.
Qed.
Lemma final_shake sec D n : bytes_ok D -> fst (pulls (shake_rate sec) n (final_state sec D, 0%N)) = shake sec D n.
Proof.
  intros HD. destruct (ShakeRun.final_ok sec D HD) as (st & E1 & E2 & E3 & E4). rewrite final_model in E1 by exact HD. injection E1 as E5. rewrite E5.
  apply ShakeRun.shake_output; assumption.
Qed.
Definition absorbing (m : mem) (L : loc) (sec : N) (D : bytes) : Prop :=
  bytes_ok D /\ ctx m L (fst (after sec D)) (shake_rate sec) (snd (after sec D)) 0.
Definition squeezing (m : mem) (L : loc) (sec : N) (D : bytes) (p : N) : Prop :=
  bytes_ok D /\ exists s k, ctx m L s (shake_rate sec) k 1 /\ (k <= shake_rate sec)%N /\ snd (pulls (shake_rate sec) p (final_state sec D, 0%N)) = (s, k).
Lemma squeezed_part sec D p n : bytes_ok D -> fst (pulls (shake_rate sec) n (snd (pulls (shake_rate sec) p (final_state sec D, 0%N)))) = dropN p (shake sec D (p + n)).
Proof.
  intros B. rewrite <- final_shake by exact B. rewrite pulls_add. cbn [fst]. assert (E := pulls_len (shake_rate sec) p (final_state sec D, 0%N)).
  revert E. generalize (fst (pulls (shake_rate sec) p (final_state sec D, 0%N))). intros l <-. symmetry. apply dropN_app_exact.
Qed.

(** ** The functions *)
Lemma code_HashInitialize : PositiveMap.find f_Keccak_HashInitialize code = Some c_Keccak_HashInitialize. Proof. vm_compute. reflexivity. Qed.
Lemma code_HashUpdate : PositiveMap.find f_Keccak_HashUpdate code = Some c_Keccak_HashUpdate. Proof. vm_compute. reflexivity. Qed.
Lemma code_HashFinal : PositiveMap.find f_Keccak_HashFinal code = Some c_Keccak_HashFinal. Proof. vm_compute. reflexivity. Qed.
Lemma code_HashSqueeze : PositiveMap.find f_Keccak_HashSqueeze code = Some c_Keccak_HashSqueeze. Proof. vm_compute. reflexivity. Qed.
Lemma code_hash_init : PositiveMap.find f_hash_init code = Some c_hash_init. Proof. vm_compute. reflexivity. Qed.
Lemma code_hash_update : PositiveMap.find f_hash_update code = Some c_hash_update. Proof. vm_compute. reflexivity. Qed.
Lemma code_hash_final : PositiveMap.find f_hash_final code = Some c_hash_final. Proof. vm_compute. reflexivity. Qed.
Lemma code_hash_squeeze : PositiveMap.find f_hash_squeeze code = Some c_hash_squeeze. Proof. vm_compute. reflexivity. Qed.

Lemma ref_HashInitialize m L rate : space m L -> kconst m -> (rate = 136 \/ rate = 168)%N ->
  calls code f_Keccak_HashInitialize [VPtr (cx L) 0; VInt (ofN (8 * rate)); VInt (ofN (1600 - 8 * rate)); VInt 0; VInt 31] m (fun v m' =>
    frame m m' (foot L) /\ ctx m' L (zeros 200) rate 0 0).
Proof.
  intros SP KC R. assert (X := SP). destruct X as (ND & (P1 & P2 & P3) & _ & (_ & _ & _ & _ & I5 & I6)). start code_HashInitialize.
  seq. eapply wp_if; [ev|]. simp. rewrite truth_b. change (31 =? 0) with false. cbv iota. apply wp_skip.
  seq. eapply wp_callf; [eapply pes_cons; [eapply pe_ptr; [look|exact P1]|evs]|apply (ref_SpongeInitialize m L rate SP R)|]. intros v m1 (-> & F1 & K1 & K2 & K3 & K4). cbn [set].
  assert (FB := foot_blocks L ND).
  assert (SP1 : space m1 L) by (eapply space_kept; [exact SP|exact F1|intros q Y; apply FB in Y; tauto..]).
  assert (KC1 : kconst m1) by (eapply kconst_kept; [exact KC|exact F1|intros q Y; apply FB in Y; tauto]).
  assert (X1 := SP1). destruct X1 as (_ & (Q1 & Q2 & Q3) & _ & (_ & _ & _ & _ & J5 & J6)).
  seq. eapply wp_set; [ev|]. seq. eapply wp_if; [ev|]. change (truth _) with false. cbv iota. apply wp_skip.
  seq. eapply (wp_store4 _ _ _ _ (flb L) 0); [eapply pe_ptr; [look|exact Q2]|ev|exact J5|]. intros m2 F2 K5.
  assert (D1 := ne L 0 7 ND ltac:(lia)). assert (D2 := ne L 1 7 ND ltac:(lia)). assert (D3 := ne L 2 7 ND ltac:(lia)). assert (D4 := ne L 3 7 ND ltac:(lia)). assert (D5 := ne L 4 7 ND ltac:(lia)).
  assert (D6 := ne L 5 7 ND ltac:(lia)). assert (D7 := ne L 6 7 ND ltac:(lia)). assert (D8 := ne L 7 8 ND ltac:(lia)).
  assert (E1 := ne L 0 8 ND ltac:(lia)). assert (E2 := ne L 1 8 ND ltac:(lia)). assert (E3 := ne L 2 8 ND ltac:(lia)). assert (E4 := ne L 3 8 ND ltac:(lia)). assert (E5 := ne L 4 8 ND ltac:(lia)).
  assert (E6 := ne L 5 8 ND ltac:(lia)). assert (E7 := ne L 6 8 ND ltac:(lia)). cbn [nth blocks] in *.
  assert (SP2 : space m2 L) by (eapply space_kept; [exact SP1|exact F2|intros q [Y _]; tauto..]).
  assert (X2 := SP2). destruct X2 as (_ & (T1 & T2 & T3) & _ & (_ & _ & _ & _ & U5 & U6)).
  seq. eapply (wp_store1 _ _ _ _ (dsb L) 0 31); [eapply pe_ptr; [look|exact T3]|ev|exact U6|lia|]. set (m3 := set1 m2 (dsb L) 0 31).
  assert (F3 : frame m2 m3 (at_ (dsb L) 0 1)) by (apply frame_set1_at; exact U6).
  assert (K6 : holds m3 (dsb L) 0 [31%N]).
  { split; [apply inb_set1; exact U6|]. intros i Hi. replace i with 0%N by (change (lenN [31%N]) with 1%N in Hi; lia). unfold m3. rewrite byte_set1_same by (exact U6 || lia). reflexivity. }
  clearbody m3. eapply wp_return; [ev|]. split.
  { eapply frame_comp; [eapply frame_comp; [exact F1|exact F2|]|exact F3|]; intros b o _ _ [-> _]; unfold foot; cbn [In]; tauto. }
  split; [eapply space_kept; [exact SP2|exact F3|intros q [Y _]; tauto..]|].
  split; [eapply kconst_kept; [eapply kconst_kept; [exact KC1|exact F2|intros q [Y _]; tauto]|exact F3|intros q [Y _]; tauto]|].
  split; [split; [reflexivity|split; [apply bytes_ok_zeros|]]|split; [split; [|split]|split]]; try exact K6;
    (eapply off_block; [|exact F3|assumption]); try exact K5; (eapply off_block; [|exact F2|assumption]); assumption.
Qed.
Lemma ref_hash_init m L sec : space m L -> kconst m -> (sec < 2^32)%N ->
  calls code f_hash_init [VPtr (cx L) 0; VInt (ofN sec)] m (fun _ m' => frame m m' (foot L) /\ absorbing m' L sec []).
Proof.
  intros SP KC LS. start code_hash_init. eapply wp_if; [ev|]. simp. rewrite truth_b. unfold absorbing.
  assert (E : after sec [] = (zeros 200, 0%N)) by reflexivity. rewrite E. cbn [fst snd]. unfold Sponge.shake_rate.
  destruct (Z.eqb_spec (ofN sec) 128) as [Z|Z].
  - replace (sec =? 128)%N with true by lia. eapply wp_callf; [evs|apply (ref_HashInitialize m L 168 SP KC); auto|]. intros v m' (F & C). split; [exact F|]. split; [constructor|exact C].
  - replace (sec =? 128)%N with false by lia. eapply wp_callf; [evs|apply (ref_HashInitialize m L 136 SP KC); auto|]. intros v m' (F & C). split; [exact F|]. split; [constructor|exact C].
Qed.
Lemma bits8 n : (n < 2^61)%N -> wrap u64 (Z.shiftl (ofN n) 3) = ofN (n * 8).
Proof. intros H. rewrite Z.shiftl_mul_pow2 by lia. change (2 ^ 3) with 8. rewrite wrap_u64 by lia. lia. Qed.
Lemma div8b n : (n < 2^61)%N -> CtLang.div ODiv u64 (ofN (n * 8)) 8 = ofN n.
Proof. intros L. unfold CtLang.div. replace (ofN (n * 8)) with (ofN n * 8) by lia. rewrite Z.quot_mul by lia. rewrite wrap_u64 by lia. reflexivity. Qed.
Lemma mod8b n : (n < 2^61)%N -> CtLang.div OMod u64 (ofN (n * 8)) 8 = 0.
Proof. intros L. unfold CtLang.div. replace (ofN (n * 8)) with (ofN n * 8) by lia. rewrite Z.rem_mul by lia. reflexivity. Qed.
Lemma f_sponge m L s rate k q e x : ctx m L s rate k q -> lookup e x = VPtr (cx L) 0 -> pe e m (EField (EVar x) 3 0) (VPtr (sp L) 0).
Proof. intros ((_ & (P & _) & _) & _) E. eapply pe_ptr; [exact E|exact P]. Qed.
Lemma f_fixed m L s rate k q e x : ctx m L s rate k q -> lookup e x = VPtr (cx L) 0 -> pe e m (ELoad 4 (EField (EVar x) 3 1)) (VInt 0).
Proof. intros ((_ & (_ & P & _) & _) & _ & _ & _ & (C & _)) E. apply (pe_num _ _ _ (flb L) 0); [eapply pe_ptr; [exact E|exact P]|exact C|lia]. Qed.
Lemma f_delim m L s rate k q e x : ctx m L s rate k q -> lookup e x = VPtr (cx L) 0 -> pe e m (ELoad 1 (EField (EVar x) 3 2)) (VInt 31).
Proof.
  intros ((_ & (_ & _ & P) & _) & _ & _ & _ & (_ & C)) E. eapply pe_eq; [eapply pe_load1; [eapply pe_ptr; [exact E|exact P]|exact (holds_inb _ _ _ _ C)]|].
  f_equal. exact (proj2 C 0%N eq_refl).
Qed.
Lemma ref_hash_update m L sec D db dof d : absorbing m L sec D -> holds m db dof d -> bytes_ok d -> ~ In db (blocks L) -> (lenN d + 200 <= 2^32)%N ->
  calls code f_hash_update [VPtr (cx L) 0; VPtr db dof; VInt (ofN (lenN d))] m (fun _ m' => frame m m' (foot L) /\ absorbing m' L sec (D ++ d)).
Proof.
  intros (BD & C) HD B NI LD. assert (R := shake_rate_of sec). start code_hash_update. eapply wp_callf; [evs|..].
  { simp. rewrite bits8 by lia. 
    instantiate (1 := fun _ m' => frame m m' (foot L) /\ absorbing m' L sec (D ++ d)). start code_HashUpdate.
    eapply wp_if; [ev|]. simp. rewrite mod8b by lia. change (truth _) with true. cbv iota.
    seq. eapply wp_callf; [eapply pes_cons; [eapply (f_sponge _ _ _ _ _ _ _ _ C); look|evs]|..].
    { rewrite div8b by lia. apply (ref_SpongeAbsorb m L _ _ _ db dof d C R); try assumption. apply (ShakeRun.after_good sec D BD). }
    intros v m' (-> & F & s' & k' & C' & Lk & FE). cbn [set]. eapply wp_return; [ev|]. split; [exact F|]. split; [apply bytes_ok_app; assumption|].
    rewrite <- ShakeRun.after_app. destruct (after sec D) as [s0 k0]. cbn [fst snd] in FE. rewrite FE. exact C'. }
  intros v m' H. exact H.
Qed.
Lemma ref_hash_final m L sec D : absorbing m L sec D ->
  calls code f_hash_final [VPtr (cx L) 0] m (fun _ m' => frame m m' (foot L) /\ squeezing m' L sec D 0).
Proof.
  intros (BD & C). assert (R := shake_rate_of sec). assert (R' := rate_r _ R). destruct (ShakeRun.after_good sec D BD) as (_ & _ & HK). start code_hash_final. eapply wp_callf; [evs|..].
  { instantiate (1 := fun _ m' => frame m m' (foot L) /\ squeezing m' L sec D 0). start code_HashFinal.
    seq. eapply wp_callf; [eapply pes_cons; [eapply (f_sponge _ _ _ _ _ _ _ _ C); look|eapply pes_cons; [eapply (f_delim _ _ _ _ _ _ _ _ C); look|apply pes_nil]]|apply (ref_LastFewBits m L _ _ _ C R HK)|].
    intros v m1 (-> & F1 & C1). cbn [set]. seq. eapply wp_set; [ev|]. eapply wp_if; [ev|]. change (truth _) with true. cbv iota.
    seq. eapply wp_callf; [eapply pes_cons; [eapply (f_sponge _ _ _ _ _ _ _ _ C1); look|eapply pes_cons; [ev|eapply pes_cons; [eapply pe_div; [eapply (f_fixed _ _ _ _ _ _ _ _ C1); look|ev|lia]|apply pes_nil]]]|..].
    { change (CtLang.div ODiv u32 0 8) with 0. apply (ref_SpongeSqueeze0 m1 L _ _ _ VNull C1 R). lia. }
    intros v m2 (-> & ->). cbn [set]. eapply wp_return; [ev|]. split; [exact F1|]. split; [exact BD|]. eexists. eexists. split; [exact C1|]. split; [lia|]. reflexivity. }
  intros v m' H. exact H.
Qed.
Lemma ref_hash_squeeze m L sec D p db dof n : squeezing m L sec D p -> inb m db dof (ofN n) -> ~ In db (blocks L) -> (n + 200 <= 2^32)%N ->
  calls code f_hash_squeeze [VPtr (cx L) 0; VPtr db dof; VInt (ofN n)] m (fun _ m' => frame m m' (outfoot L db dof (ofN n)) /\ squeezing m' L sec D (p + n) /\
    holds m' db dof (dropN p (shake sec D (p + n)))).
Proof.
  intros (BD & s & k & C & Lk & PL) ID NI LN. assert (R := shake_rate_of sec). start code_hash_squeeze. eapply wp_callf; [evs|..].
  { simp. rewrite bits8 by lia. instantiate (1 := fun _ m' => frame m m' (outfoot L db dof (ofN n)) /\ squeezing m' L sec D (p + n) /\ holds m' db dof (dropN p (shake sec D (p + n)))). start code_HashSqueeze.
    seq. eapply wp_if; [ev|]. simp. rewrite mod8b by lia. change (truth _) with false. cbv iota. apply wp_skip.
    seq. eapply wp_callf; [eapply pes_cons; [eapply (f_sponge _ _ _ _ _ _ _ _ C); look|evs]|..].
    { rewrite div8b by lia. apply (ref_SpongeSqueeze m L s _ k db dof n C R); assumption. }
    intros v m1 (-> & F1 & HO & s' & k' & C1 & Lk1 & PL1). cbn [set]. eapply wp_return; [ev|]. split; [exact F1|].
    rewrite <- PL in HO, PL1. rewrite squeezed_part in HO by exact BD. split; [|exact HO]. split; [exact BD|]. exists s', k'. split; [exact C1|]. split; [exact Lk1|].
    rewrite pulls_add. exact PL1. }
  intros v m' H. exact H.
Qed.

(** ** The random oracles *)
Lemma absorbing_level m L sec D : absorbing m L (if (sec =? 128)%N then 128%N else 256%N) D -> absorbing m L sec D.
Proof. unfold absorbing, ShakeRun.after, Sponge.shake_rate. destruct (sec =? 128)%N; exact (fun x => x). Qed.
Definition code_init : func := Func [1%positive; 2%positive] (SCall None f_hash_init [(EVar 1); (EUn OCast u32 (ECond (EBin OEq s32 (EVar 2) (EInt 128)) (EInt 128) (EInt 256)))]).
Definition code_update : func := Func [1%positive; 2%positive; 3%positive] (SCall None f_hash_update [(EVar 1); (EVar 2); (EVar 3)]).
Definition code_final1 (g : positive) : func := Func [1%positive; 2%positive; 3%positive] (
  SCall None f_hash_update [(EVar 1); (EGlob g); (EInt 1)] ;; SCall None f_hash_final [(EVar 1)] ;; SCall None f_hash_squeeze [(EVar 1); (EVar 2); (EVar 3)]).
Lemma ref_H_init f m L sec : PositiveMap.find f code = Some code_init -> space m L -> kconst m -> (sec < 2^32)%N ->
  calls code f [VPtr (cx L) 0; VInt (ofN sec)] m (fun _ m' => frame m m' (foot L) /\ absorbing m' L sec []).
Proof.
  intros FC SP KC LS. apply (calls_intro code _ _ _ _ _ FC). cbn [fbody fparams code_init bind_params].
  eapply wp_callf with (R := fun _ m' => frame m m' (foot L) /\ absorbing m' L (if (sec =? 128)%N then 128%N else 256%N) []) (vs := [VPtr (cx L) 0; VInt (ofN (if (sec =? 128)%N then 128%N else 256%N))]).
  { eapply pes_cons; [ev|]. eapply pes_cons; [|apply pes_nil]. eapply pe_eq; [eapply pe_un; eapply pe_cond; [ev|]|]; simp; rewrite ?truth_b.
    - replace (ofN sec =? 128) with (sec =? 128)%N by lia. instantiate (1 := ofN (if (sec =? 128)%N then 128%N else 256%N)). destruct (sec =? 128)%N; ev.
    - destruct (sec =? 128)%N; reflexivity. }
  { destruct (sec =? 128)%N; [apply (ref_hash_init m L 128 SP KC)|apply (ref_hash_init m L 256 SP KC)]; lia. }
  intros v m' (F & A). split; [exact F|]. apply absorbing_level, A.
Qed.
Lemma ref_H_update f m L sec D db dof d : PositiveMap.find f code = Some code_update -> absorbing m L sec D -> holds m db dof d -> bytes_ok d -> ~ In db (blocks L) -> (lenN d + 200 <= 2^32)%N ->
  calls code f [VPtr (cx L) 0; VPtr db dof; VInt (ofN (lenN d))] m (fun _ m' => frame m m' (foot L) /\ absorbing m' L sec (D ++ d)).
Proof.
  intros FC A HD B NI LD. apply (calls_intro code _ _ _ _ _ FC). cbn [fbody fparams code_update bind_params].
  eapply wp_callf; [evs|apply (ref_hash_update m L sec D db dof d A); assumption|]. intros v m' H. exact H.
Qed.
Lemma wp_separate m L sec D g k s (Q : outcome -> env -> mem -> Prop) e : absorbing m L sec D -> holds m g 0 [k] -> (k < 256)%N -> ~ In g (blocks L) -> lookup e 1 = VPtr (cx L) 0 ->
  (forall m', frame m m' (foot L) -> squeezing m' L sec (D ++ [k]) 0 -> wp code s e m' Q) ->
  wp code (SCall None f_hash_update [(EVar 1); (EGlob g); (EInt 1)] ;; SCall None f_hash_final [(EVar 1)] ;; s) e m Q.
Proof.
  intros A HG Lk NI E1 W. apply wp_seq.
  eapply wp_callf; [evs|apply (ref_hash_update m L sec D g 0 [k] A HG); [apply Forall_cons; [exact Lk|apply Forall_nil]|exact NI|change (lenN [k]) with 1%N; lia]|]. intros v1 m1 (F1 & A1). cbn [set]. apply wp_seq.
  eapply wp_callf; [evs|apply (ref_hash_final m1 L sec _ A1)|]. intros v2 m2 (F2 & A2). cbn [set]. apply W; [|exact A2]. eapply frame_comp; [exact F1|exact F2|]. intros b o _ _ X. exact X.
Qed.
Lemma ref_H_final1 f g k m L sec D db dof n : PositiveMap.find f code = Some (code_final1 g) -> absorbing m L sec D -> holds m g 0 [k] -> (k < 256)%N -> ~ In g (blocks L) ->
  inb m db dof (ofN n) -> ~ In db (blocks L) -> (n + 200 <= 2^32)%N ->
  calls code f [VPtr (cx L) 0; VPtr db dof; VInt (ofN n)] m (fun _ m' => frame m m' (outfoot L db dof (ofN n)) /\ holds m' db dof (shake sec (D ++ [k]) n)).
Proof.
  intros FC A HG Lk NG ID NI LN. apply (calls_intro code _ _ _ _ _ FC). cbn [fbody fparams code_final1 bind_params].
  eapply wp_separate; [exact A|exact HG|exact Lk|exact NG|look|]. intros m1 F1 S1.
  eapply wp_callf; [evs|apply (ref_hash_squeeze m1 L sec _ 0 db dof n S1); [eapply inb_frame; eassumption|exact NI|exact LN]|]. intros v m2 (F2 & S2 & H). split.
  { eapply frame_comp; [eapply frame_weak; [exact F1|]|exact F2|]; intros b o _ _ X; [left; exact X|exact X]. }
  rewrite dropN_0, N.add_0_l in H. exact H.
Qed.
Definition outfoot2 (L : loc) (db : positive) (dof n : Z) (cb : positive) (cof n' : Z) (b : positive) (o : Z) : Prop := foot L b o \/ at_ db dof n b o \/ at_ cb cof n' b o.
Lemma wp_squeeze2 m L sec D db dof n cb cof n' x1 x2 x3 x4 e (Q : outcome -> env -> mem -> Prop) : squeezing m L sec D 0 ->
  inb m db dof (ofN n) -> ~ In db (blocks L) -> (n + 200 <= 2^32)%N -> inb m cb cof (ofN n') -> ~ In cb (blocks L) -> (n' + 200 <= 2^32)%N -> (forall o, at_ db dof (ofN n) db o -> at_ cb cof (ofN n') db o -> False) ->
  lookup e 1 = VPtr (cx L) 0 -> (forall m, pe e m x1 (VPtr db dof)) -> (forall m, pe e m x2 (VInt (ofN n))) -> (forall m, pe e m x3 (VPtr cb cof)) -> (forall m, pe e m x4 (VInt (ofN n'))) ->
  (forall m', frame m m' (outfoot2 L db dof (ofN n) cb cof (ofN n')) -> holds m' db dof (takeN n (shake sec D (n + n'))) -> holds m' cb cof (dropN n (shake sec D (n + n'))) -> Q ONormal e m') ->
  wp code (SCall None f_hash_squeeze [(EVar 1); x1; x2] ;; SCall None f_hash_squeeze [(EVar 1); x3; x4]) e m Q.
Proof.
  intros S0 I1 N1 L1 I2 N2 L2 DJ E1 P1 P2 P3 P4 W. apply wp_seq. assert (BD := proj1 S0).
  eapply wp_callf; [eapply pes_cons; [ev|eapply pes_cons; [apply P1|eapply pes_cons; [apply P2|apply pes_nil]]]|apply (ref_hash_squeeze m L sec D 0 db dof n S0 I1 N1 L1)|].
  intros v1 m1 (F1 & S1 & H1). cbn [set]. rewrite N.add_0_l, dropN_0 in *.
  eapply wp_callf; [eapply pes_cons; [ev|eapply pes_cons; [apply P3|eapply pes_cons; [apply P4|apply pes_nil]]]|apply (ref_hash_squeeze m1 L sec D n cb cof n' S1); [eapply inb_frame; eassumption|assumption..]|].
  intros v2 m2 (F2 & S2 & H2). cbn [set]. apply W; [| |exact H2].
  { eapply frame_comp; [eapply frame_weak; [exact F1|]|exact F2|]; intros b o _ _ X; unfold outfoot, outfoot2 in *; tauto. }
  assert (E : takeN n (shake sec D (n + n')) = shake sec D n).
  { rewrite <- !final_shake by exact BD. rewrite pulls_add. cbn [fst]. assert (E := pulls_len (shake_rate sec) n (final_state sec D, 0%N)).
    revert E. generalize (fst (pulls (shake_rate sec) n (final_state sec D, 0%N))). intros l <-. apply takeN_app_exact. }
  rewrite E. eapply holds_frame; [exact H1|exact F2|]. intros o X Y. assert (LE : lenN (shake sec D n) = n) by (rewrite <- final_shake by exact BD; apply pulls_len). rewrite LE in X.
  destruct Y as [Y|Y]; [apply N1, (foot_in _ _ _ Y)|]. apply (DJ o); [split; [reflexivity|lia]|exact Y].
Qed.
