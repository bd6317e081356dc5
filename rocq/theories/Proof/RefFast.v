(** The translated loop over whole blocks of input of the Keccak sponge. *)
From Coq Require Import ZArith NArith List Bool FMapPositive Lia ZifyBool ZifyNat ZifyN.
From Verif Require Import Model.Base Model.Keccak Proof.BaseProof.
From Verif Require Proof.KeccakProof Proof.RefWin Proof.RefOwf Proof.RefVoleHash Proof.SpongeProof Proof.ShakeProof Proof.SnpProof.
From Verif Require Import Model.CtLang Model.CtNames Model.CtKeccakP Model.CtProgram Proof.RefLogic Proof.RefTac Proof.RefMem Proof.RefReg Proof.RefKeccak.
Import ListNotations.
Local Open Scope Z_scope.
Arguments wrap : simpl never.

Notation xor_at := SpongeProof.xor_at.
Notation pm := ShakeProof.perm.
Lemma pm_permuted st : lenN st = 200%N -> pm st = permuted st.
Proof. intros L. unfold ShakeProof.perm. rewrite permuted_eq by exact L. reflexivity. Qed.

(** ** Lanes *)
Lemma lanesl_at st : lanesl (lanes_at st) = map (fun i => lane_of st (N.of_nat i)) (List.seq 0 25).
Proof. reflexivity. Qed.
Lemma xor_at_xor st k d : (k + lenN d <= lenN st)%N -> takeN (lenN d) (dropN k (xor_at st k d)) = xor_bytes (takeN (lenN d) (dropN k st)) d.
Proof.
  intros L. assert (L2 : lenN (takeN (lenN d) (dropN k st)) = lenN d) by (rewrite lenN_takeN, lenN_dropN; lia).
  apply (list_ext 0%N); [rewrite lenN_xor by exact L2; rewrite !lenN_takeN, !lenN_dropN, SpongeProof.xor_at_len; lia|].
  intros j Hj. rewrite lenN_takeN in Hj. rewrite nthN_xor by exact L2. rewrite !nthN_takeN, !nthN_dropN by lia. rewrite SpongeProof.xor_at_nth by exact L.
  replace ((k <=? k + j) && (k + j <? k + lenN d))%N with true by lia. do 2 f_equal. lia.
Qed.
Lemma lane_absorb st d i : lenN st = 200%N -> bytes_ok st -> bytes_ok d -> (i < 25)%N -> (lenN d <= 200)%N -> (8 * i + 8 <= lenN d \/ lenN d <= 8 * i)%N ->
  lane_of (xor_at st 0 d) i = if (8 * i <? lenN d)%N then N.lxor (lane_of st i) (lane_of d i) else lane_of st i.
Proof.
  intros L B D I LD C. unfold lane_of. destruct (N.ltb_spec (8 * i) (lenN d)) as [H|H].
  - assert (LX : lenN (takeN 8 (dropN (8 * i) st)) = lenN (takeN 8 (dropN (8 * i) d))) by (rewrite !lenN_takeN, !lenN_dropN; lia).
    rewrite <- le_val_xor; [|apply Forall_takeN, Forall_dropN; assumption..|exact LX]. f_equal.
    apply (list_ext 0%N); [rewrite lenN_xor by exact LX; rewrite !lenN_takeN, !lenN_dropN, SpongeProof.xor_at_len; lia|].
    intros j Hj. rewrite lenN_takeN in Hj. rewrite nthN_xor by exact LX. rewrite !nthN_takeN, !nthN_dropN by lia. rewrite SpongeProof.xor_at_nth by lia.
    replace ((0 <=? 8 * i + j) && (8 * i + j <? 0 + lenN d))%N with true by lia. do 2 f_equal. lia.
  - f_equal. apply (list_ext 0%N); [rewrite !lenN_takeN, !lenN_dropN, SpongeProof.xor_at_len; lia|].
    intros j Hj. rewrite lenN_takeN in Hj. rewrite !nthN_takeN, !nthN_dropN by lia. rewrite SpongeProof.xor_at_nth by lia.
    replace ((0 <=? 8 * i + j) && (8 * i + j <? 0 + lenN d))%N with false by lia. apply N.lxor_0_r.
Qed.
Definition absT (n : nat) : list term := map (fun i => if Nat.ltb i n then TXor (TV (Pos.of_succ_nat i)) (TLd (BV 92) (N.of_nat i)) else TV (Pos.of_succ_nat i)) (List.seq 0 25).
Lemma abs_eq st d n ld : lenN st = 200%N -> bytes_ok st -> bytes_ok d -> lenN d = (8 * N.of_nat n)%N -> (n <= 25)%nat -> (forall i, ld (BV 92%positive) i = lane_of d i) ->
  map (dt (sgl (lanesl (lanes_at st))) ld) (absT n) = lanesl (lanes_at (xor_at st 0 d)).
Proof.
  intros L B D LD Hn H. rewrite !lanesl_at. unfold absT. rewrite map_map. apply map_ext_in. intros i Hi. apply in_seq in Hi.
  rewrite lane_absorb by (assumption || lia).
  assert (S : sgl (map (fun i => lane_of st (N.of_nat i)) (List.seq 0 25)) (Pos.of_succ_nat i) = lane_of st (N.of_nat i)).
  { unfold sgl. rewrite SuccNat2Pos.id_succ. cbn [Nat.sub]. rewrite Nat.sub_0_r.
    rewrite (nth_indep _ 0%N (lane_of st (N.of_nat 0))) by (rewrite map_length, seq_length; lia). rewrite (map_nth (fun i => lane_of st (N.of_nat i))), seq_nth by lia. reflexivity. }
  destruct (Nat.ltb_spec i n).
  - replace (8 * N.of_nat i <? lenN d)%N with true by lia. cbn [dt]. rewrite S, H. reflexivity.
  - replace (8 * N.of_nat i <? lenN d)%N with false by lia. exact S.
Qed.
Lemma lane_flat l : forall i, (i < length l)%nat -> Forall word l -> lane_of (flat_map (le_bytes 8) l) (N.of_nat i) = nth i l 0%N.
Proof.
  induction l as [|x l IH]; intros i Hi W; [cbn in Hi; lia|]. inversion W as [|? ? W1 W2]; subst. cbn [flat_map]. unfold lane_of. destruct i as [|i].
  - cbn [nth]. change (8 * N.of_nat 0)%N with 0%N. rewrite dropN_0. replace 8%N with (lenN (le_bytes 8 x)) by (rewrite lenN_le_bytes; reflexivity). rewrite takeN_app_exact.
    apply le_val_le_bytes. exact W1.
  - cbn [nth]. rewrite dropN_app_ge by (rewrite lenN_le_bytes; lia). rewrite lenN_le_bytes. replace (8 * N.of_nat (S i) - N.of_nat 8)%N with (8 * N.of_nat i)%N by lia. apply IH; [cbn in Hi; lia|exact W2].
Qed.
Lemma lanesl_inj A B : lanesl A = lanesl B -> A = B.
Proof. destruct A, B. cbn [lanesl]. intros H. injection H. intros. subst. reflexivity. Qed.
Lemma lanes_copy B : Forall word (lanesl B) -> lanes_at (copyToState B) = B.
Proof.
  intros W. apply lanesl_inj. rewrite lanesl_at, copy_lanes. assert (L : length (lanesl B) = 25%nat) by (destruct B; reflexivity).
  apply (nth_ext _ _ 0%N 0%N); [rewrite map_length, seq_length, L; reflexivity|]. intros i Hi. rewrite map_length, seq_length in Hi.
  set (f := fun i => lane_of (flat_map (le_bytes 8) (lanesl B)) (N.of_nat i)). rewrite (nth_indep _ 0%N (f 0%nat)) by (rewrite map_length, seq_length; lia). rewrite (map_nth f), seq_nth by lia.
  apply lane_flat; [rewrite L; exact Hi|exact W].
Qed.
Lemma regs_words e xs l : regs e xs l -> Forall word l.
Proof. induction 1 as [|x n xs l [_ W] _ IH]; constructor; assumption. Qed.
Lemma regs_add e xs l x v : existsb (Pos.eqb x) xs = false -> regs e xs l -> regs (PositiveMap.add x v e) xs l.
Proof.
  intros N R. induction R as [|y n xs l [A W] _ IH]; [constructor|]. cbn [existsb] in N. apply orb_false_elim in N. destruct N as [N1 N2].
  constructor; [|apply IH, N2]. split; [|exact W]. rewrite lookup_add, Pos.eqb_sym, N1. exact A.
Qed.
Lemma lanes_bytes st : lenN st = 200%N -> bytes_ok st -> flat_map (le_bytes 8) (lanesl (lanes_at st)) = st.
Proof.
  intros L B. assert (K := SnpProof.lanes_prefix st 25 L B ltac:(lia)). rewrite takeN_all in K by lia. rewrite <- K at 2.
  rewrite flat_map_concat_map. reflexivity.
Qed.
Lemma lanes_permuted st : Forall word (lanesl (RefKeccak.perm (lanes_at st))) -> lanes_at (permuted st) = RefKeccak.perm (lanes_at st).
Proof. intros W. unfold permuted. apply lanes_copy, W. Qed.

(** ** The text *)
Definition fastF : list stmt := Eval vm_compute in flat (fbody c_KeccakF1600_FastLoop_Absorb).
Definition loopB : stmt := Eval vm_compute in match nth 28 fastF SSkip with SLoop _ _ b => b | _ => SSkip end.
Definition loopF : list stmt := Eval vm_compute in flat loopB.
Definition fbnd (n : N) : base -> N := fun q => match q with BG => 24 | BV p => if Pos.eqb p 92 then n else if Pos.eqb p 91 then 25 else 0 end%N.
Definition fkv (n : N) : option (positive * Z) := Some (2%positive, ofN n).
Definition fast_ok (n : N) : bool :=
  seg_ok (inrange 6) (fbnd n) (fkv n) (seg loopF 0 1) (fileA 6 false) (fileA 6 false) (absT (N.to_nat n)) && rounds_ok 6 (fbnd n) (fkv n) loopF 1.
Lemma fast_ok_17 : fast_ok 17 = true.
Proof. vm_compute. reflexivity. Qed.
Lemma fast_ok_21 : fast_ok 21 = true.
Proof. vm_compute. reflexivity. Qed.
Definition fast (n : N) : Prop := fast_ok n = true.
Lemma fast_loads_ok : seg_ok (inrange 6) (fbnd 0) None (seg fastF 3 25) [] (fileA 6 false) (loadT 91 25) = true.
Proof. vm_compute. reflexivity. Qed.
Lemma fast_first : fastF = SSet 5 (EVar 4) :: SSet 91 (EVar 1) :: SSet 92 (EVar 3) :: skipn 3 fastF.
Proof. reflexivity. Qed.
Lemma fast_last : skipn 28 fastF = SLoop (EBin OGe s32 (EVar 4) (EBin OMul u32 (EVar 2) (EInt 8))) SSkip loopB ::
  sts 91 0 (fileA 6 false) ++ [SReturn (EBin OSub u64 (EVar 5) (EVar 4))].
Proof. vm_compute. reflexivity. Qed.
Lemma loop_last : skipn (1 + 2524) loopF = [SSet 92 (EAt (EVar 92) 8 (EVar 2)); SSet 4 (EBin OSub u64 (EVar 4) (EBin OMul u32 (EVar 2) (EInt 8)))].
Proof. vm_compute. reflexivity. Qed.
Lemma code_FastLoop : PositiveMap.find f_KeccakF1600_FastLoop_Absorb code = Some c_KeccakF1600_FastLoop_Absorb. Proof. vm_compute. reflexivity. Qed.

(** ** The loop *)
Notation feeds rate := (fold_left (SpongeProof.feed pm rate)).
Lemma feed_block rate st d : (1 < rate < 200)%N -> lenN st = 200%N -> lenN d = rate -> feeds rate d (st, 0%N) = (pm (xor_at st 0 d), 0%N).
Proof.
  intros R L D. rewrite (SpongeProof.feed_part KeccakP1600_Permute_24rounds pm ShakeProof.perm_ok rate R); [|exact L|lia|lia|intros X; rewrite X in D; unfold lenN in D; cbn in D; lia].
  rewrite D. replace (0 + rate =? rate)%N with true by lia. reflexivity.
Qed.
Lemma ref_FastLoop n rate m b o db dof st data : (n = 17 \/ n = 21)%N -> rate = (8 * n)%N ->
  holds m b o st -> lenN st = 200%N -> bytes_ok st -> kconst m -> holds m db dof data -> bytes_ok data -> (lenN data < 2 ^ 64)%N ->
  calls code f_KeccakF1600_FastLoop_Absorb [VPtr b o; VInt (ofN n); VPtr db dof; VInt (ofN (lenN data))] m (fun v m' =>
    v = VInt (ofN (rate * (lenN data / rate))) /\ frame m m' (at_ b o 200) /\
    exists st', holds m' b o st' /\ lenN st' = 200%N /\ bytes_ok st' /\ feeds rate (takeN (rate * (lenN data / rate)) data) (st, 0%N) = (st', 0%N)).
Proof.
  intros Hn Hr H L B C HD BD LD. assert (OK : fast n) by (destruct Hn as [-> | ->]; [exact fast_ok_17|exact fast_ok_21]).
  assert (R : (1 < rate < 200)%N) by lia.
  eapply calls_intro; [exact code_FastLoop|]. cbn [fparams c_KeccakF1600_FastLoop_Absorb bind_params].
  apply wp_flat. change (flat (fbody c_KeccakF1600_FastLoop_Absorb)) with fastF. rewrite fast_first. cbn [wps].
  eapply wp_set; [apply pe_var; reflexivity|]. eapply wp_set; [apply pe_var; reflexivity|]. eapply wp_set; [apply pe_var; reflexivity|].
  match goal with |- wps _ _ ?x _ _ => set (e := x) end.
  assert (E : has e [(2%positive, VInt (ofN n)); (4%positive, VInt (ofN (lenN data))); (5%positive, VInt (ofN (lenN data))); (91%positive, VPtr b o); (92%positive, VPtr db dof)]) by (repeat split).
  clearbody e.
  assert (LD0 : ldok (inrange 6) (fbnd 0) (ld2 91 91 st []) e m).
  { destruct E as (_ & _ & _ & E & _). intros [|p] i Hi _; cbn [fbnd] in Hi.
    - exists 1%positive, 0. split; [split; reflexivity|]. apply (holds_lane m 1 0 consts i C consts_ok). change (lenN consts) with 192%N. lia.
    - destruct (Pos.eqb_spec p 92) as [->|]; [lia|]. destruct (Pos.eqb_spec p 91) as [->|]; [|lia]. exists b, o. split; [exact E|]. apply (holds_lane m b o st i H B). lia. }
  rewrite (seg_split fastF 3 25). eapply seg_wp; [exact fast_loads_ok|constructor|exact LD0|exact Logic.I|]. intros e1 R1 S1. clear LD0.
  rewrite (load_eq _ _ _ st) in R1 by reflexivity. change (3 + 25)%nat with 28%nat. rewrite fast_last.
  assert (E1 : has e1 [(2%positive, VInt (ofN n)); (4%positive, VInt (ofN (lenN data))); (5%positive, VInt (ofN (lenN data))); (91%positive, VPtr b o); (92%positive, VPtr db dof)]).
  { destruct E as (Ea & Eb & Ec & Ed & Ee & _). repeat split; (rewrite S1 by (left; reflexivity)); assumption. }
  clear e E S1. cbn [wps]. set (J := (lenN data / rate)%N). assert (JB : (rate * J <= lenN data < rate * J + rate)%N).
  { pose proof (N.div_mod (lenN data) rate ltac:(lia)) as X. pose proof (N.mod_lt (lenN data) rate ltac:(lia)) as Y. fold J in X. lia. }
  assert (WR : wrap u32 (ofN n * 8) = ofN rate) by (rewrite wrap_u32; lia).
  eapply (wp_loop code _ _ _ (fun k e m' => m' = m /\ exists j stj, (N.of_nat k + j = J)%N /\
     has e [(2%positive, VInt (ofN n)); (4%positive, VInt (ofN (lenN data - rate * j))); (5%positive, VInt (ofN (lenN data))); (91%positive, VPtr b o); (92%positive, VPtr db (dof + ofN (rate * j)))] /\
     regs e (fileA 6 false) (lanesl (lanes_at stj)) /\ lenN stj = 200%N /\ bytes_ok stj /\ feeds rate (takeN (rate * j) data) (st, 0%N) = (stj, 0%N))) with (n := N.to_nat J).
  - intros k e m' (-> & j & stj & Ej & HE & RE & Lj & Bj & Fj). assert (JJ : (rate * j + rate <= lenN data)%N) by nia.
    split. { unhas. eexists. split; [ev|]. simp. rewrite truth_b, WR. lia. }
    apply wp_flat. change (flat loopB) with loopF. set (blk := takeN rate (dropN (rate * j) data)).
    assert (LB : lenN blk = rate) by (unfold blk; rewrite lenN_takeN, lenN_dropN; lia).
    assert (BB : bytes_ok blk) by (apply Forall_takeN, Forall_dropN, BD).
    assert (HB : holds m db (dof + ofN (rate * j)) blk) by (apply RefVoleHash.holds_sub; [exact HD|lia]).
    assert (LDJ : ldok (inrange 6) (fbnd n) (ld2 91 92 st blk) e m).
    { destruct HE as (_ & _ & _ & E91 & E92 & _). intros [|p] i Hi _; cbn [fbnd] in Hi.
      - exists 1%positive, 0. split; [split; reflexivity|]. apply (holds_lane m 1 0 consts i C consts_ok). change (lenN consts) with 192%N. lia.
      - destruct (Pos.eqb_spec p 92) as [->|].
        + exists db, (dof + ofN (rate * j)). split; [exact E92|]. cbn [ld2]. change (Pos.eqb 92 91) with false. cbv iota. apply (holds_lane m db _ blk i HB BB). lia.
        + destruct (Pos.eqb_spec p 91) as [->|]; [|lia]. exists b, o. split; [exact E91|]. apply (holds_lane m b o st i H B). lia. }
    assert (KN : known (fkv n) e) by (exact (proj1 HE)).
    change loopF with (skipn 0 loopF) at 1. rewrite (seg_split loopF 0 1). eapply seg_wp; [exact (proj1 (andb_prop _ _ OK))|exact RE|exact LDJ|exact KN|]. intros e2 R2 S2.
    rewrite (abs_eq stj blk) in R2 by (assumption || lia || reflexivity). change (0 + 1)%nat with 1%nat.
    eapply (rounds_wp 6 (fbnd n) (fkv n) (ld2 91 92 st blk)); [exact (proj2 (andb_prop _ _ OK))|intros i Hi; exact (consts_lane i Hi)|exact R2|eapply ldok_same; eassumption|eapply known_same; eassumption|].
    intros e3 R3 S3. rewrite loop_last. clear LDJ KN.
    assert (E3 : has e3 [(2%positive, VInt (ofN n)); (4%positive, VInt (ofN (lenN data - rate * j))); (5%positive, VInt (ofN (lenN data))); (91%positive, VPtr b o); (92%positive, VPtr db (dof + ofN (rate * j)))]).
    { destruct HE as (Ea & Eb & Ec & Ed & Ee & _). repeat split; (rewrite S3, S2 by (left; reflexivity)); assumption. }
    unhas. cbn [wps]. eapply wp_set; [ev|]. eapply wp_set; [ev|]. simp. rewrite WR. apply wp_skip. split; [reflexivity|]. split; [reflexivity|].
    assert (LX : lenN (xor_at stj 0 blk) = 200%N) by (rewrite SpongeProof.xor_at_len; lia).
    exists (j + 1)%N, (permuted (xor_at stj 0 blk)). split; [lia|]. split.
    { rewrite wrap_u64 by lia. hasz. }
    split. { rewrite lanes_permuted by (eapply regs_words; exact R3). apply regs_add; [reflexivity|]. apply regs_add; [reflexivity|]. exact R3. }
    split; [apply permuted_len|]. split; [apply permuted_ok|].
    replace (rate * (j + 1))%N with (rate * j + rate)%N by lia. rewrite takeN_split, fold_left_app, Fj. fold blk. rewrite feed_block by assumption. rewrite pm_permuted by exact LX. reflexivity.
  - intros e m' (-> & j & stj & Ej & HE & RE & Lj & Bj & Fj). replace j with J in * by lia. clear j Ej.
    split. { unhas. eexists. split; [ev|]. simp. rewrite truth_b, WR. lia. }
    unhas. assert (LL : lenN (lanesl (lanes_at stj)) = 25%N) by reflexivity.
    eapply (stores_wp code 91%positive _ e _ b o ltac:(assumption) _ _ 0%nat m RE); rewrite LL.
    + eapply inb_sub; [exact (holds_inb _ _ _ _ H)|lia..].
    + intros m' F K. cbn [wps]. rewrite Z.mul_0_r, Z.add_0_r in *. eapply wp_return; [ev|]. simp. rewrite wrap_u64 by lia. split; [f_equal; lia|]. split; [exact F|].
      exists stj. split; [|auto]. replace stj with (flat_map (le_bytes 8) (lanesl (lanes_at stj))) at 1; [exact K|]. apply lanes_bytes; assumption.
  - split; [reflexivity|]. exists 0%N, st. rewrite N.mul_0_r. split; [lia|]. split; [rewrite N.sub_0_r, Z.add_0_r; exact E1|]. split; [exact R1|]. split; [exact L|]. split; [exact B|]. reflexivity.
Qed.
