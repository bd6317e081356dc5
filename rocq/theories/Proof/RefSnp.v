(** The translated access to the state of the Keccak permutation. *)
From Coq Require Import ZArith NArith List Bool FMapPositive Lia ZifyBool ZifyNat ZifyN.
From Verif Require Import Model.Base Proof.BaseProof.
From Verif Require Proof.KeccakProof Proof.RefWin Proof.RefOwf Proof.RefVoleHash Proof.SpongeProof Proof.ShakeProof Proof.SnpProof.
From Verif Require Import Model.CtLang Model.CtNames Model.CtKeccakP Model.CtProgram Proof.RefLogic Proof.RefTac Proof.RefMem Proof.RefReg Proof.RefKeccak Proof.RefFast.
Import ListNotations.
Local Open Scope Z_scope.
Arguments wrap : simpl never.

(** Loops whose number of iterations is only bounded. *)
Lemma wp_while P c inc body (J : nat -> env -> mem -> Prop) (Q : outcome -> env -> mem -> Prop) :
  (forall n e m, J n e m -> exists v, pe e m c v /\ if truth v then
     wp P body e m (fun o e m => match o with
       | ONormal | OContinue => wp P inc e m (fun o e m => o = ONormal /\ exists k, (k < n)%nat /\ J k e m)
       | OBreak => Q ONormal e m
       | OReturn _ => Q o e m end) else Q ONormal e m) ->
  forall n e m, J n e m -> wp P (SLoop c inc body) e m Q.
Proof.
  intros Hs n. induction n as [n IH] using (well_founded_induction lt_wf). intros e m HI.
  destruct (Hs n e m HI) as (v & E & K). eapply wp_of; [reflexivity|]. eapply ends_bind, ends_pure; [exact E|].
  eapply ends_bind, ends_pure; [apply yields_tell|]. destruct (truth v); [|apply ends_ret; exact K]. apply ends_bind. eapply ends_weak; [exact K|].
  assert (N : forall e' m', wp P inc e' m' (fun o e m => o = ONormal /\ exists k, (k < n)%nat /\ J k e m) ->
    ends (fun k => do (o, e, m) <- exec P k inc e' m'; match o with ONormal => exec P k (SLoop c inc body) e m | _ => fail end)
         (fun '(o, e, m) => Q o e m)).
  { intros e' m' W. apply ends_bind. eapply ends_weak; [exact W|]. intros [[o e2] m2] (-> & k & Lk & J2). apply (IH k Lk). exact J2. }
  intros [[o e'] m'] W. destruct o; [apply N; exact W|apply ends_ret; exact W|apply N; exact W|apply ends_ret; exact W].
Qed.

(** ** Parts of arrays *)
Definition put (l : bytes) (k : N) (d : bytes) : bytes := takeN k l ++ d ++ dropN (k + lenN d) l.
Lemma put_len l k d : (k + lenN d <= lenN l)%N -> lenN (put l k d) = lenN l.
Proof. intros H. unfold put. rewrite !lenN_app, lenN_takeN, lenN_dropN. lia. Qed.
Lemma put_ok l k d : bytes_ok l -> bytes_ok d -> bytes_ok (put l k d).
Proof. intros H D. unfold put. apply bytes_ok_app; [apply Forall_takeN, H|]. apply bytes_ok_app; [exact D|apply Forall_dropN, H]. Qed.
Lemma put_nth l k d i : (k + lenN d <= lenN l)%N -> nthN (put l k d) i 0%N = if ((k <=? i) && (i <? k + lenN d))%N then nthN d (i - k) 0%N else nthN l i 0%N.
Proof.
  intros H. unfold put. assert (L1 : lenN (takeN k l) = k) by (rewrite lenN_takeN; lia). destruct (N.leb_spec k i) as [A|A]; cbn [andb].
  - rewrite nthN_app_r by lia. rewrite L1. destruct (N.ltb_spec i (k + lenN d)) as [B|B].
    + rewrite nthN_app_l by lia. reflexivity.
    + rewrite nthN_app_r by lia. rewrite nthN_dropN. f_equal. lia.
  - rewrite nthN_app_l by lia. apply nthN_takeN. exact A.
Qed.
Lemma holds_put m m' b o l k d p : holds m b o l -> (k + lenN d <= lenN l)%N -> p = o + ofN k -> frame m m' (at_ b p (ofN (lenN d))) -> holds m' b p d ->
  holds m' b o (put l k d).
Proof.
  intros [I H] L -> F [I' H']. split; [rewrite put_len by exact L; eapply inb_frame; eassumption|]. rewrite put_len by exact L. intros i Hi. rewrite put_nth by exact L.
  destruct ((k <=? i) && (i <? k + lenN d))%N eqn:E.
  - rewrite <- H' by lia. f_equal. lia.
  - rewrite <- H by exact Hi. eapply byte_frame; [exact F|exact (proj1 I)|destruct I as (_ & I & _); lia|]. unfold at_. intros [_ X]. lia.
Qed.
Lemma lane_of_put l i v : lenN l = 200%N -> (i < 25)%N -> word v -> lane_of (put l (8 * i) (le_bytes 8 v)) i = v.
Proof.
  intros L I V. unfold lane_of, put. assert (L1 : lenN (takeN (8 * i) l) = (8 * i)%N) by (rewrite lenN_takeN; lia).
  rewrite dropN_app_ge by lia. rewrite L1, N.sub_diag, dropN_0. rewrite takeN_app by (rewrite lenN_le_bytes; lia). rewrite takeN_all by (rewrite lenN_le_bytes; lia).
  apply le_val_le_bytes. exact V.
Qed.
(** Adding to one lane. *)
Lemma xor_at_put st i off d : lenN st = 200%N -> bytes_ok st -> bytes_ok d -> (i < 25)%N -> (off + lenN d <= 8)%N ->
  put st (8 * i) (le_bytes 8 (N.lxor (lane_of st i) (N.shiftl (le_val d) (8 * off)))) = xor_at st (8 * i + off) d.
Proof.
  intros L B D I O. assert (X := SnpProof.lane_xor st d i off i L B D I I O). rewrite N.eqb_refl in X. change (SnpProof.lane_of st i) with (lane_of st i) in X. rewrite <- X.
  assert (LX : lenN (xor_at st (8 * i + off) d) = 200%N) by (rewrite SpongeProof.xor_at_len; lia).
  rewrite SnpProof.lane_bytes by (assumption || (apply SpongeProof.xor_at_bytes; assumption)).
  assert (L8 : lenN (takeN 8 (dropN (8 * i) (xor_at st (8 * i + off) d))) = 8%N) by (rewrite lenN_takeN, lenN_dropN; lia).
  apply (list_ext 0%N); [rewrite put_len; lia|]. intros j Hj. rewrite put_len in Hj by lia. rewrite put_nth by lia. rewrite L8.
  destruct ((8 * i <=? j) && (j <? 8 * i + 8))%N eqn:E.
  - rewrite nthN_takeN, nthN_dropN by lia. f_equal. lia.
  - rewrite SpongeProof.xor_at_nth by lia. replace ((8 * i + off <=? j) && (j <? 8 * i + off + lenN d))%N with false by lia. rewrite N.lxor_0_r. reflexivity.
Qed.
Lemma decode8 m b o l : holds m b o l -> lenN l = 8%N -> decode (bytesat m b o 8) = ofN (le_val l).
Proof.
  intros H L. assert (K := RefWin.holds_bytesat _ _ _ _ H 8 0%N ltac:(lia)). rewrite Z.add_0_r in K. rewrite K. rewrite RefWin.decode_ofN. rewrite dropN_0.
  rewrite takeN_all by lia. reflexivity.
Qed.
Lemma wp_store8 p a e m b o v (Q : outcome -> env -> mem -> Prop) : pe e m p (VPtr b o) -> pe e m a (VInt (ofN v)) -> inb m b o 8 ->
  (forall m', frame m m' (at_ b o 8) -> holds m' b o (le_bytes 8 v) -> Q ONormal e m') -> wp code (SStore 8 p a) e m Q.
Proof.
  intros A B I K. eapply wp_store; [exact A|exact B|exact I|]. rewrite encode_le. assert (L8 := lenN_le_bytes 8 v). change (N.of_nat 8) with 8%N in L8. apply K.
  - replace 8 with (Z.of_nat (length (map ofN (le_bytes 8 v)))) at 3 by (rewrite map_length; unfold lenN in L8; lia). apply frame_setb.
    rewrite map_length. eapply inb_sub; [exact I|unfold lenN in L8; lia..].
  - apply holds_setb. rewrite L8. exact I.
Qed.

Lemma code_AddBytesInLane : PositiveMap.find f_KeccakP1600_AddBytesInLane code = Some c_KeccakP1600_AddBytesInLane. Proof. vm_compute. reflexivity. Qed.
Lemma ref_AddBytesInLane m b o st db dof d i off : holds m b o st -> lenN st = 200%N -> bytes_ok st -> holds m db dof d -> bytes_ok d ->
  (i < 25)%N -> (off + lenN d <= 8)%N ->
  calls code f_KeccakP1600_AddBytesInLane [VPtr b o; VInt (ofN i); VPtr db dof; VInt (ofN off); VInt (ofN (lenN d))] m (fun _ m' =>
    frame m m' (at_ b o 200) /\ holds m' b o (xor_at st (8 * i + off) d)).
Proof.
  intros H L B HD BD Hi HO. start code_AddBytesInLane. seq. eapply wp_alloc; [ev|]. set (nb := mnext m). set (m1 := fresh m _ _).
  assert (NB : nb <> b) by (destruct H as [[X _] _]; unfold nb; lia). assert (ND : nb <> db) by (destruct HD as [[X _] _]; unfold nb; lia).
  assert (F1 : forall S, frame m m1 S) by (intros; apply frame_fresh).
  assert (I1 : inb m1 nb 0 8) by (apply inb_fresh; lia). assert (HD1 : holds m1 db dof d) by (eapply holds_frame; [exact HD|apply (F1 nothing)|unfold nothing; auto]).
  assert (NX : (nb < mnext m1)%positive) by exact (proj1 I1).
  assert (EN : nb = mnext m) by reflexivity. clearbody m1 nb. seq. eapply wp_if; [ev|]. simp. rewrite truth_b.
  destruct (Z.eqb_spec (ofN (lenN d)) 0) as [Z|Z].
  { eapply wp_return; [ev|]. split; [apply F1|]. assert (d = []) as -> by (destruct d; [reflexivity|rewrite lenN_cons in Z; lia]).
    rewrite SnpProof.xor_at_nil by lia. eapply holds_frame; [exact H|apply (F1 nothing)|unfold nothing; auto]. }
  apply wp_skip. seq.
  (* the bytes in a lane *)
  eapply (wp_weak code _ _ _ (fun out e m2 => out = ONormal /\ has e [(1%positive, VPtr b o); (2%positive, VInt (ofN i)); (4%positive, VInt (ofN off)); (6%positive, VPtr nb 0)] /\
    frame m1 m2 (at_ nb 0 8) /\ exists l, holds m2 nb 0 l /\ lenN l = 8%N /\ le_val l = le_val d)).
  { eapply wp_if; [ev|]. simp. rewrite truth_b. destruct (Z.eqb_spec (ofN (lenN d)) 1) as [Y|Y].
    - destruct d as [|x [|y d]]; [discriminate Y| |rewrite !lenN_cons in Y; lia]. eapply (wp_store8 _ _ _ _ nb 0 x); [ev|eapply pe_eq; [ev|f_equal]|exact I1|].
      { rewrite <- (Z.add_0_r dof). rewrite (holds_byte _ _ _ _ 0 HD1) by lia. reflexivity. }
      intros m2 F2 H2. split; [reflexivity|]. split; [hass|]. split; [exact F2|]. exists (le_bytes 8 x). split; [exact H2|]. split; [apply lenN_le_bytes|].
      inversion BD as [|? ? X _]; subst. unfold byte_ok in X. rewrite le_val_le_bytes by lia. cbn [le_val]. lia.
    - seq. eapply (wp_store8 _ _ _ _ nb 0 0); [ev|ev|exact I1|]. intros m2 F2 H2. assert (HD2 : holds m2 db dof d) by (eapply holds_frame; [exact HD1|exact F2|in_at]).
      eapply wp_copy1; [ev|ev|ev|..]; [inb_in|exact (holds_inb _ _ _ _ HD2)|]. split; [reflexivity|]. split; [hass|]. split; [fr|].
      exists (put (le_bytes 8 0) 0 d). split; [|split].
      + eapply (holds_put m2); [exact H2|rewrite lenN_le_bytes; lia|reflexivity|apply frame_copy_at; inb_in|]. apply holds_copy; [exact HD2|inb_in].
      + rewrite put_len; rewrite lenN_le_bytes; lia.
      + unfold put. change (takeN 0 (le_bytes 8 0)) with (@nil N). cbn [app]. rewrite N.add_0_l. rewrite le_val_app.
        replace (dropN (lenN d) (le_bytes 8 0)) with (zeros (8 - lenN d)).
        * rewrite le_val_zeros. lia.
        * apply (list_ext 0%N); [rewrite lenN_zeros, lenN_dropN, lenN_le_bytes; lia|]. intros j _. rewrite nthN_dropN, nthN_zeros. change (le_bytes 8 0) with (zeros 8). rewrite nthN_zeros. reflexivity. }
  intros out e m2 (-> & HE & F2 & l & H2 & L2 & E2). unhas.
  assert (SH : wrap u64 (Z.shiftl (ofN (le_val d)) (wrap u32 (ofN off * 8))) = ofN (N.shiftl (le_val d) (8 * off))).
  { rewrite wrap_u32 by lia. replace (ofN off * 8) with (ofN (8 * off)) by lia. rewrite shl_ofN. f_equal. apply N.mod_small. apply SnpProof.shifted_lt; assumption. }
  seq. eapply (wp_store8 _ _ _ _ nb 0 (N.shiftl (le_val d) (8 * off))); [ev|eapply pe_eq; [ev|]|inb_in|].
  { simp. rewrite (decode8 _ _ _ _ H2 L2), E2, SH. reflexivity. }
  intros m3 F3 K3. seq. eapply wp_set; [ev|].
  assert (F13 : frame m m3 (at_ b o 200)).
  { eapply frame_comp; [eapply frame_comp; [apply F1|exact F2|in_at]|exact F3|in_at]. }
  assert (K4 : holds m3 b o st) by (eapply holds_frame; [eapply holds_frame; [eapply holds_frame; [exact H|apply (F1 nothing)|unfold nothing; auto]|exact F2|in_at]|exact F3|in_at]).
  destruct (holds_lane m3 b o st i K4 B ltac:(lia)) as (IL & EL & WL).
  eapply (wp_store8 _ _ _ _ b (o + 8 * ofN i) (N.lxor (lane_of st i) (N.shiftl (le_val d) (8 * off)))); [ev|eapply pe_eq; [ev|]|exact IL|].
  { simp. rewrite EL, (decode8 _ _ _ _ K3) by apply lenN_le_bytes. rewrite le_val_le_bytes by (apply SnpProof.shifted_lt; assumption). rewrite lxor_ofN. reflexivity. }
  intros m4 F4 K5. split; [eapply frame_comp; [exact F13|exact F4|in_at]|]. rewrite <- xor_at_put by assumption.
  eapply (holds_put m3); [exact K4|rewrite lenN_le_bytes; lia| |rewrite lenN_le_bytes; exact F4|exact K5]. lia.
Qed.

(** ** Whole lanes *)
Definition lpair (x : positive) (c : Z) : list stmt :=
  [SSet x (EAt (EVar 1) 8 (EBin OAdd u32 (EVar 4) (EInt c)));
   SStore 8 (EVar x) (EBin OXor u64 (ELoad 8 (EVar x)) (ELoad 8 (EAt (EVar 2) 8 (EBin OAdd u32 (EVar 4) (EInt c)))))].
Section Lanes.
Variables (m : mem) (b : positive) (o : Z) (st : bytes) (db : positive) (dof : Z) (d : bytes) (n : N).
Definition linv (j i : N) (e : env) (m' : mem) : Prop :=
  has e [(1%positive, VPtr b o); (2%positive, VPtr db dof); (3%positive, VInt (ofN n)); (4%positive, VInt (ofN j))] /\ frame m m' (at_ b o 200) /\
  holds m' b o (xor_at st 0 (takeN (8 * i) d)).
Lemma lane_step x c j i rest e m' Q : holds m b o st -> lenN st = 200%N -> bytes_ok st -> holds m db dof d -> bytes_ok d -> sep db dof (ofN (lenN d)) b o 200 ->
  (4 < x)%positive -> 0 <= c -> ofN i = ofN j + c -> (8 * i + 8 <= lenN d)%N -> (i < 25)%N ->
  linv j i e m' -> (forall e m', linv j (i + 1) e m' -> wps code rest e m' Q) -> wps code (lpair x c ++ rest) e m' Q.
Proof.
  intros H L B HD BD SP X C IJ LD Hi (HE & F & HS) K. cbn [lpair app wps]. unhas.
  assert (W : wrap u32 (ofN j + c) = ofN i) by (rewrite wrap_u32; lia).
  assert (LT : lenN (takeN (8 * i) d) = (8 * i)%N) by (rewrite lenN_takeN; lia).
  assert (LX : lenN (xor_at st 0 (takeN (8 * i) d)) = 200%N) by (rewrite SpongeProof.xor_at_len; lia).
  assert (BX : bytes_ok (xor_at st 0 (takeN (8 * i) d))) by (apply SpongeProof.xor_at_bytes; [exact B|apply Forall_takeN, BD]).
  eapply wp_set; [ev|]. simp. rewrite W.
  destruct (holds_lane m' b o _ i HS BX ltac:(lia)) as (IL & EL & WL).
  assert (HD' : holds m' db dof d) by (eapply holds_frame; [exact HD|exact F|in_at]).
  destruct (holds_lane m' db dof d i HD' BD LD) as (ID & ED & WD).
  assert (XN : x <> 1%positive /\ x <> 2%positive /\ x <> 3%positive /\ x <> 4%positive) by lia. destruct XN as (X1 & X2 & X3 & X4).
  set (e' := PositiveMap.add x _ e).
  assert (E' : has e' [(1%positive, VPtr b o); (2%positive, VPtr db dof); (3%positive, VInt (ofN n)); (4%positive, VInt (ofN j)); (x, VPtr b (o + 8 * ofN i))]).
  { unfold e'. cbn [has]. rewrite !lookup_add, Pos.eqb_refl. repeat split; (destruct (Pos.eqb_spec 1 x), (Pos.eqb_spec 2 x), (Pos.eqb_spec 3 x), (Pos.eqb_spec 4 x); congruence). }
  clearbody e'. cbn [has] in E'. destruct E' as (E1 & E2 & E3 & E4 & E5 & _).
  eapply (wp_store8 _ _ _ _ b (o + 8 * ofN i) (N.lxor (lane_of (xor_at st 0 (takeN (8 * i) d)) i) (lane_of d i))); [apply pe_var; exact E5| |exact IL|].
  { eapply pe_eq; [eapply pe_bin; [eapply pe_load; [apply pe_var; exact E5|exact IL]|eapply pe_load; [eapply pe_at; [ev|ev]|]]|]; simp; rewrite ?W; [exact ID|].
    rewrite EL, ED, lxor_ofN. reflexivity. }
  intros m2 F2 K2. apply K. split; [hass|]. split; [eapply frame_comp; [exact F|exact F2|in_at]|].
  assert (LB : lenN (takeN 8 (dropN (8 * i) d)) = 8%N) by (rewrite lenN_takeN, lenN_dropN; lia).
  assert (XP := xor_at_put (xor_at st 0 (takeN (8 * i) d)) i 0 (takeN 8 (dropN (8 * i) d)) LX BX ltac:(apply Forall_takeN, Forall_dropN, BD) Hi ltac:(lia)).
  rewrite N.mul_0_r, N.shiftl_0_r, N.add_0_r in XP. assert (XA := SnpProof.xor_at_app st 0 (takeN (8 * i) d) (takeN 8 (dropN (8 * i) d)) ltac:(lia)).
  rewrite LT, N.add_0_l, <- takeN_split in XA. rewrite XA in XP. replace (8 * (i + 1))%N with (8 * i + 8)%N by lia. rewrite <- XP.
  eapply (holds_put m'); [exact HS|rewrite lenN_le_bytes; lia| |rewrite lenN_le_bytes; exact F2|exact K2]. lia.
Qed.
Fixpoint lpairs (x : positive) (c : Z) (k : nat) : list stmt := match k with O => [] | S k => lpair x c ++ lpairs (x + 1) (c + 1) k end.
Lemma lane_steps k : forall x c j i rest e m' Q, holds m b o st -> lenN st = 200%N -> bytes_ok st -> holds m db dof d -> bytes_ok d -> sep db dof (ofN (lenN d)) b o 200 ->
  (4 < x)%positive -> 0 <= c -> ofN i = ofN j + c -> (8 * i + 8 * N.of_nat k <= lenN d)%N -> (i + N.of_nat k <= 25)%N ->
  linv j i e m' -> (forall e m', linv j (i + N.of_nat k) e m' -> wps code rest e m' Q) -> wps code (lpairs x c k ++ rest) e m' Q.
Proof.
  induction k as [|k IH]; intros x c j i rest e m' Q H L B HD BD SP X C IJ LD Hi HI K; cbn [lpairs].
  - apply K. change (N.of_nat 0) with 0%N. rewrite N.add_0_r. exact HI.
  - rewrite <- app_assoc. eapply lane_step; try eassumption; [lia|lia|]. intros e1 m1 HI1. eapply IH; try eassumption; try lia.
    intros e2 m2 HI2. apply K. replace (i + N.of_nat (S k))%N with (i + 1 + N.of_nat k)%N by lia. exact HI2.
Qed.
Lemma lane_loop w x body e m' (Q : outcome -> env -> mem -> Prop) : flat body = lpairs x 0 w -> (0 < w)%nat -> (w <= 8)%nat ->
  holds m b o st -> lenN st = 200%N -> bytes_ok st -> holds m db dof d -> bytes_ok d -> sep db dof (ofN (lenN d)) b o 200 -> (4 < x)%positive -> (8 * n <= lenN d)%N -> (n <= 25)%N ->
  (exists j, (j <= n)%N /\ linv j j e m') -> (forall e m' j, (j <= n < j + N.of_nat w)%N -> linv j j e m' -> Q ONormal e m') ->
  wp code (SLoop (EBin OLe s32 (EBin OAdd u32 (EVar 4) (EInt (Z.of_nat w))) (EVar 3)) (SSet 4 (EBin OAdd u32 (EVar 4) (EInt (Z.of_nat w)))) body) e m' Q.
Proof.
  intros EB W1 W8 H L B HD BD SP X LD Hn (j0 & Hj0 & HI0) K.
  eapply (wp_while code _ _ _ (fun k e m' => exists j, (j <= n)%N /\ k = N.to_nat (n - j) /\ linv j j e m')) with (n := N.to_nat (n - j0)); [|exists j0; auto].
  intros k e1 m1 (j & Hj & -> & HI). assert (HE := proj1 HI). unhas. eexists. split; [ev|]. simp. rewrite truth_b. rewrite wrap_u32 by lia.
  destruct (Z.leb_spec (ofN j + Z.of_nat w) (ofN n)) as [G|G].
  - apply wp_flat. rewrite EB, <- (app_nil_r (lpairs x 0 w)). eapply lane_steps; try eassumption; try lia. intros e2 m2 HI2. cbn [wps].
    destruct HI2 as (HE2 & F2 & HS2). unhas. eapply wp_set; [ev|]. simp. split; [reflexivity|]. exists (N.to_nat (n - (j + N.of_nat w))). split; [lia|].
    exists (j + N.of_nat w)%N. split; [lia|]. split; [reflexivity|]. split; [rewrite wrap_u32 by lia; hasz|]. split; [exact F2|exact HS2].
  - apply (K _ _ j); [lia|exact HI].
Qed.
End Lanes.
Lemma code_AddLanes : PositiveMap.find f_KeccakP1600_AddLanes code = Some c_KeccakP1600_AddLanes. Proof. vm_compute. reflexivity. Qed.
Lemma ref_AddLanes m b o st db dof d n : holds m b o st -> lenN st = 200%N -> bytes_ok st -> holds m db dof d -> bytes_ok d -> sep db dof (ofN (lenN d)) b o 200 ->
  (8 * n <= lenN d)%N -> (n <= 25)%N ->
  calls code f_KeccakP1600_AddLanes [VPtr b o; VPtr db dof; VInt (ofN n)] m (fun _ m' =>
    frame m m' (at_ b o 200) /\ holds m' b o (xor_at st 0 (takeN (8 * n) d))).
Proof.
  intros H L B HD BD SP LD Hn. start code_AddLanes. seq. eapply wp_set; [ev|].
  seq. eapply (lane_loop m b o st db dof d n 8 5); try eassumption; try lia; [reflexivity| |].
  { exists 0%N. split; [lia|]. split; [hass|]. split; [apply frame_refl|]. change (takeN (8 * 0) d) with (@nil N). rewrite SnpProof.xor_at_nil by lia. exact H. }
  intros e1 m1 j1 J1 I1. seq. eapply (lane_loop m b o st db dof d n 4 13); try eassumption; try lia; [reflexivity|exists j1; split; [lia|exact I1]|].
  intros e2 m2 j2 J2 I2. seq. eapply (lane_loop m b o st db dof d n 2 17); try eassumption; try lia; [reflexivity|exists j2; split; [lia|exact I2]|].
  intros e3 m3 j3 J3 I3. assert (HE := proj1 I3). unhas. eapply wp_if; [ev|]. simp. rewrite truth_b. destruct (Z.ltb_spec (ofN j3) (ofN n)) as [G|G].
  - apply wp_flat. cbn [flat app]. eapply (lane_steps m b o st db dof d n 1 19 0 j3 j3 []); try eassumption; try lia. intros e4 m4 (_ & F4 & H4). cbn [wps].
    replace n with (j3 + 1)%N by lia. split; [exact F4|exact H4].
  - apply wp_skip. destruct I3 as (_ & F3 & K3). replace n with j3 by lia. split; [exact F3|exact K3].
Qed.

(** ** Bytes anywhere *)
Lemma code_AddBytes : PositiveMap.find f_KeccakP1600_AddBytes code = Some c_KeccakP1600_AddBytes. Proof. vm_compute. reflexivity. Qed.
Lemma wp_callf d f args vs e m (Q : outcome -> env -> mem -> Prop) (R : value -> mem -> Prop) : pes e m args vs -> calls code f vs m R ->
  (forall v m', R v m' -> Q ONormal (set e d v) m') -> wp code (SCall d f args) e m Q.
Proof. intros A B C. eapply wp_call; [exact A|]. eapply calls_weak; [exact B|exact C]. Qed.
Lemma div8 n : (n < 2^32)%N -> CtLang.div ODiv u32 (ofN n) 8 = ofN (n / 8).
Proof.
  intros L. unfold CtLang.div. rewrite Z.quot_div_nonneg, N2Z.inj_div by lia. change (ofN 8) with 8. assert (X := Z.div_le_upper_bound (ofN n) 8 (2^32) ltac:(lia) ltac:(lia)).
  assert (Y := Z.div_pos (ofN n) 8 ltac:(lia) ltac:(lia)). assert (Z := Z.div_mod (ofN n) 8 ltac:(lia)). assert (U := Z.mod_pos_bound (ofN n) 8 ltac:(lia)). rewrite wrap_u32 by lia. reflexivity.
Qed.
Lemma mod8 n : CtLang.div OMod u32 (ofN n) 8 = ofN (n mod 8).
Proof.
  unfold CtLang.div. rewrite Z.rem_mod_nonneg, N2Z.inj_mod by lia. change (ofN 8) with 8. assert (U := Z.mod_pos_bound (ofN n) 8 ltac:(lia)). rewrite wrap_u32 by lia. reflexivity.
Qed.
Lemma holds_from m b o l p : holds m b o l -> (p <= lenN l)%N -> holds m b (o + ofN p) (dropN p l).
Proof.
  intros H L. replace (dropN p l) with (takeN (lenN l - p) (dropN p l)) by (apply takeN_all; rewrite lenN_dropN; lia). apply RefVoleHash.holds_sub; [exact H|lia].
Qed.
Lemma ref_AddBytes m b o st db dof d off : holds m b o st -> lenN st = 200%N -> bytes_ok st -> holds m db dof d -> bytes_ok d -> sep db dof (ofN (lenN d)) b o 200 ->
  (off + lenN d < 200)%N ->
  calls code f_KeccakP1600_AddBytes [VPtr b o; VPtr db dof; VInt (ofN off); VInt (ofN (lenN d))] m (fun _ m' =>
    frame m m' (at_ b o 200) /\ holds m' b o (xor_at st off d)).
Proof.
  intros H L B HD BD SP LO. start code_AddBytes. eapply wp_if; [ev|]. simp. rewrite truth_b.
  assert (DM := N.div_mod (lenN d) 8 ltac:(lia)). assert (ML := N.mod_lt (lenN d) 8 ltac:(lia)).
  destruct (Z.eqb_spec (ofN off) 0) as [Z|Z].
  - replace off with 0%N in * by lia. set (q := (lenN d / 8)%N) in *. set (r := (lenN d mod 8)%N) in *.
    seq. eapply wp_callf; [evs|..].
    { rewrite div8 by lia. fold q. apply (ref_AddLanes m b o st db dof d q); (assumption || lia). }
    intros w1 m1 (F1 & H1). cbn [set]. assert (HD1 : holds m1 db dof d) by (eapply holds_frame; [exact HD|exact F1|in_at]).
    assert (LT : lenN (takeN (8 * q) d) = (8 * q)%N) by (rewrite lenN_takeN; lia). assert (LR : lenN (dropN (8 * q) d) = r) by (rewrite lenN_dropN; lia).
    eapply wp_callf; [evs|..].
    { rewrite div8, mod8 by lia. simp. fold q r. rewrite wrap_u32 by lia.
      replace (dof + 1 * (ofN q * 8)) with (dof + ofN (8 * q)) by lia. rewrite <- LR. change 0 with (ofN 0) at 1.
      apply (ref_AddBytesInLane m1 b o (xor_at st 0 (takeN (8 * q) d)) db (dof + ofN (8 * q)) (dropN (8 * q) d) q 0); rewrite ?LR; try lia.
      - exact H1.
      - rewrite SpongeProof.xor_at_len; lia.
      - apply SpongeProof.xor_at_bytes; [exact B|apply Forall_takeN, BD].
      - apply holds_from; [exact HD1|lia].
      - apply Forall_dropN, BD. }
    intros w2 m2 (F2 & H2). split; [eapply frame_comp; [exact F1|exact F2|in_at]|].
    assert (XA := SnpProof.xor_at_app st 0 (takeN (8 * q) d) (dropN (8 * q) d) ltac:(lia)). rewrite LT, N.add_0_l, take_drop in XA. rewrite N.add_0_r, XA in H2. exact H2.
  - seq. eapply wp_set; [ev|]. seq. eapply wp_set; [ev|]. seq. eapply wp_set; [ev|]. seq. eapply wp_set; [ev|].
    rewrite div8, mod8 by lia. assert (DO := N.div_mod off 8 ltac:(lia)). assert (MO := N.mod_lt off 8 ltac:(lia)).
    eapply (wp_while code _ _ _ (fun k e m' => exists p l q, k = N.to_nat (lenN d - p) /\ (p <= lenN d)%N /\ (q < 8)%N /\ (p = lenN d \/ 8 * l + q = off + p)%N /\ (l < 50)%N /\
       has e [(1%positive, VPtr b o); (5%positive, VInt (ofN (lenN d - p))); (6%positive, VInt (ofN l)); (7%positive, VInt (ofN q)); (8%positive, VPtr db (dof + ofN p))] /\
       frame m m' (at_ b o 200) /\ holds m' b o (xor_at st off (takeN p d)))) with (n := N.to_nat (lenN d)).
    + intros k e m' (p & l & q & -> & Lp & Lq & EP & Ll & HE & F & HS). unhas. eexists. split; [ev|]. simp. rewrite truth_b.
      destruct (Z.ltb_spec 0 (ofN (lenN d - p))) as [G|G].
      2:{ split; [exact F|]. rewrite takeN_all in HS by lia. exact HS. }
      destruct EP as [EP|EP]; [lia|]. seq. eapply wp_set; [ev|]. simp. rewrite wrap_u32 by lia.
      set (c := N.min (8 - q) (lenN d - p)). assert (EC : c = N.min (8 - q) (lenN d - p)) by reflexivity. clearbody c. seq.
      eapply (wp_weak code _ _ _ (fun out e m2 => out = ONormal /\ m2 = m' /\ has e [(1%positive, VPtr b o); (5%positive, VInt (ofN (lenN d - p))); (6%positive, VInt (ofN l)); (7%positive, VInt (ofN q)); (8%positive, VPtr db (dof + ofN p)); (9%positive, VInt (ofN c))])).
      { eapply wp_if; [ev|]. simp. rewrite truth_b. destruct (Z.ltb_spec (ofN (lenN d - p)) (8 - ofN q)) as [W|W].
        - eapply wp_set; [ev|]. split; [reflexivity|]. split; [reflexivity|]. hasz.
        - apply wp_skip. split; [reflexivity|]. split; [reflexivity|]. hasz. }
      intros out e2 m2 (-> & -> & HE2). unhas. clear e H0 H1 H2 H3 H4. 
      assert (LT : lenN (takeN p d) = p) by (rewrite lenN_takeN; lia).
      assert (LC : lenN (takeN c (dropN p d)) = c) by (rewrite lenN_takeN, lenN_dropN; lia).
      assert (HD' : holds m' db dof d) by (eapply holds_frame; [exact HD|exact F|in_at]).
      assert (XA := SnpProof.xor_at_app st off (takeN p d) (takeN c (dropN p d)) ltac:(lia)). rewrite LT, <- takeN_split, <- EP in XA.
      seq. match goal with K : lookup e2 9 = _ |- _ => rewrite <- LC in K end. eapply wp_callf; [evs|..].
      { apply (ref_AddBytesInLane m' b o (xor_at st off (takeN p d)) db (dof + ofN p) (takeN c (dropN p d)) l q); rewrite ?LC; try lia.
        - exact HS.
        - rewrite SpongeProof.xor_at_len; lia.
        - apply SpongeProof.xor_at_bytes; [exact B|apply Forall_takeN, BD].
        - apply RefVoleHash.holds_sub; [exact HD'|lia].
        - apply Forall_takeN, Forall_dropN, BD. }
      intros w3 m3 (F3 & H3). cbn [set]. rewrite XA in H3. match goal with K : lookup e2 9 = _ |- _ => rewrite LC in K end.
      seq. eapply wp_set; [ev|]. seq. eapply wp_set; [ev|]. seq. eapply wp_set; [ev|]. eapply wp_set; [ev|]. simp. apply wp_skip. split; [reflexivity|].
      rewrite !wrap_u32 by lia. exists (N.to_nat (lenN d - (p + c))). split; [lia|]. exists (p + c)%N, (l + 1)%N, 0%N. split; [reflexivity|]. split; [lia|]. split; [lia|].
      split; [lia|]. split; [lia|]. split; [hasz|]. split; [eapply frame_comp; [exact F|exact F3|in_at]|exact H3].
    + exists 0%N, (off / 8)%N, (off mod 8)%N. split; [f_equal; lia|]. split; [lia|]. split; [lia|]. split; [right; lia|]. split; [lia|].
      split; [hasz|]. split; [apply frame_refl|]. change (takeN 0 d) with (@nil N). rewrite SnpProof.xor_at_nil by lia. exact H.
Qed.

(** ** Reading *)
Lemma code_ExtractBytesInLane : PositiveMap.find f_KeccakP1600_ExtractBytesInLane code = Some c_KeccakP1600_ExtractBytesInLane. Proof. vm_compute. reflexivity. Qed.
Lemma code_ExtractLanes : PositiveMap.find f_KeccakP1600_ExtractLanes code = Some c_KeccakP1600_ExtractLanes. Proof. vm_compute. reflexivity. Qed.
Lemma code_ExtractBytes : PositiveMap.find f_KeccakP1600_ExtractBytes code = Some c_KeccakP1600_ExtractBytes. Proof. vm_compute. reflexivity. Qed.
Lemma ref_ExtractBytesInLane m b o st db dof i off n : holds m b o st -> lenN st = 200%N -> bytes_ok st -> inb m db dof (ofN n) ->
  (i < 25)%N -> (off + n <= 8)%N ->
  calls code f_KeccakP1600_ExtractBytesInLane [VPtr b o; VInt (ofN i); VPtr db dof; VInt (ofN off); VInt (ofN n)] m (fun _ m' =>
    frame m m' (at_ db dof (ofN n)) /\ holds m' db dof (takeN n (dropN (8 * i + off) st))).
Proof.
  intros H L B ID Hi HO. start code_ExtractBytesInLane. destruct (holds_lane m b o st i H B ltac:(lia)) as (IL & EL & WL).
  seq. eapply wp_set; [ev|]. seq. eapply wp_alloc; [ev|]. set (nb := mnext m). set (m1 := fresh m _ _).
  assert (ND : nb <> db) by (destruct ID as [X _]; unfold nb; lia). assert (F1 : forall S, frame m m1 S) by (intros; apply frame_fresh).
  assert (I1 : inb m1 nb 0 8) by (apply inb_fresh; lia). assert (EN : nb = mnext m) by reflexivity. clearbody m1 nb.
  seq. eapply (wp_store8 _ _ _ _ nb 0 (lane_of st i)); [ev|eapply pe_eq; [ev|f_equal; exact EL]|exact I1|]. intros m2 F2 H2.
  rewrite SnpProof.lane_bytes in H2 by assumption.
  assert (L8 : lenN (takeN 8 (dropN (8 * i) st)) = 8%N) by (rewrite lenN_takeN, lenN_dropN; lia).
  assert (LN : lenN (takeN n (dropN (8 * i + off) st)) = n) by (rewrite lenN_takeN, lenN_dropN; lia).
  assert (H3 : holds m2 nb (0 + ofN off) (takeN n (dropN (8 * i + off) st))).
  { replace (takeN n (dropN (8 * i + off) st)) with (takeN n (dropN off (takeN 8 (dropN (8 * i) st)))); [apply RefVoleHash.holds_sub; [exact H2|lia]|].
    rewrite takeN_dropN, takeN_takeN, N.min_l by lia. rewrite <- takeN_dropN, dropN_dropN. reflexivity. }
  assert (I2 : inb m2 db dof (ofN n)) by (eapply inb_frame; [exact F2|]; eapply inb_frame; [apply (F1 nothing)|]; exact ID).
  eapply wp_copy1; [ev|ev|ev|exact I2|..]; simp; rewrite ?Z.mul_1_l.
  - assert (X := holds_inb _ _ _ _ H3). rewrite LN in X. exact X.
  - split.
    + eapply frame_comp; [eapply frame_comp; [apply F1|exact F2|in_at]|apply frame_copy_at; exact I2|in_at].
    + rewrite <- LN at 1. apply holds_copy; [exact H3|rewrite LN; exact I2].
Qed.
Lemma ref_ExtractLanes m b o st db dof n : holds m b o st -> lenN st = 200%N -> inb m db dof (ofN (8 * n)) -> (n <= 25)%N ->
  calls code f_KeccakP1600_ExtractLanes [VPtr b o; VPtr db dof; VInt (ofN n)] m (fun _ m' =>
    frame m m' (at_ db dof (ofN (8 * n))) /\ holds m' db dof (takeN (8 * n) st)).
Proof.
  intros H L ID Hn. start code_ExtractLanes. assert (LN : lenN (takeN (8 * n) st) = (8 * n)%N) by (rewrite lenN_takeN; lia).
  assert (W : wrap u32 (ofN n * 8) = ofN (8 * n)) by (rewrite wrap_u32; lia).
  eapply wp_copy1; [ev|ev|ev|..]; simp; rewrite W; [exact ID|inb_in|]. split; [apply frame_copy_at; exact ID|].
  rewrite <- LN at 1. apply holds_copy; [|rewrite LN; exact ID]. replace (takeN (8 * n) st) with (takeN (8 * n) (dropN 0 st)) by (rewrite dropN_0; reflexivity).
  rewrite <- (Z.add_0_r o). apply (RefVoleHash.holds_sub m b o st 0); [exact H|lia].
Qed.
Lemma ref_ExtractBytes m b o st db dof off n : holds m b o st -> lenN st = 200%N -> bytes_ok st -> inb m db dof (ofN n) -> sep db dof (ofN n) b o 200 ->
  (off + n < 200)%N ->
  calls code f_KeccakP1600_ExtractBytes [VPtr b o; VPtr db dof; VInt (ofN off); VInt (ofN n)] m (fun _ m' =>
    frame m m' (at_ db dof (ofN n)) /\ holds m' db dof (takeN n (dropN off st))).
Proof.
  intros H L B ID SP LO. start code_ExtractBytes. eapply wp_if; [ev|]. simp. rewrite truth_b.
  assert (DM := N.div_mod n 8 ltac:(lia)). assert (ML := N.mod_lt n 8 ltac:(lia)).
  destruct (Z.eqb_spec (ofN off) 0) as [Z|Z].
  - replace off with 0%N in * by lia. set (q := (n / 8)%N) in *. set (r := (n mod 8)%N) in *.
    seq. eapply wp_callf; [evs|..].
    { rewrite div8 by lia. fold q. apply (ref_ExtractLanes m b o st db dof q); [exact H|exact L|eapply inb_sub; [exact ID|lia..]|lia]. }
    intros w1 m1 (F1 & H1). cbn [set]. assert (HS1 : holds m1 b o st) by (eapply holds_frame; [exact H|exact F1|in_at]).
    assert (LT : lenN (takeN (8 * q) st) = (8 * q)%N) by (rewrite lenN_takeN; lia).
    eapply wp_callf; [evs|..].
    { rewrite div8, mod8 by lia. simp. fold q r. rewrite wrap_u32 by lia.
      replace (dof + 1 * (ofN q * 8)) with (dof + ofN (8 * q)) by lia. change 0 with (ofN 0) at 1.
      apply (ref_ExtractBytesInLane m1 b o st db (dof + ofN (8 * q)) q 0 r); try assumption; try lia.
      eapply inb_frame; [exact F1|]. eapply inb_sub; [exact ID|lia..]. }
    intros w2 m2 (F2 & H2). split; [eapply frame_comp; [eapply frame_weak; [exact F1|in_at]|exact F2|in_at]|]. rewrite dropN_0.
    replace n with (8 * q + r)%N at 1 by lia. rewrite takeN_split. rewrite N.add_0_r in H2. apply RefOwf.holds_app; [eapply holds_frame; [exact H1|exact F2|in_at]|].
    rewrite LT. exact H2.
  - seq. eapply wp_set; [ev|]. seq. eapply wp_set; [ev|]. seq. eapply wp_set; [ev|]. seq. eapply wp_set; [ev|].
    rewrite div8, mod8 by lia. assert (DO := N.div_mod off 8 ltac:(lia)). assert (MO := N.mod_lt off 8 ltac:(lia)).
    eapply (wp_while code _ _ _ (fun k e m' => exists p l q, k = N.to_nat (n - p) /\ (p <= n)%N /\ (q < 8)%N /\ (p = n \/ 8 * l + q = off + p)%N /\ (l < 50)%N /\
       has e [(1%positive, VPtr b o); (5%positive, VInt (ofN (n - p))); (6%positive, VInt (ofN l)); (7%positive, VInt (ofN q)); (8%positive, VPtr db (dof + ofN p))] /\
       frame m m' (at_ db dof (ofN n)) /\ holds m' db dof (takeN p (dropN off st)))) with (n := N.to_nat n).
    + intros k e m' (p & l & q & -> & Lp & Lq & EP & Ll & HE & F & HS). unhas. eexists. split; [ev|]. simp. rewrite truth_b.
      destruct (Z.ltb_spec 0 (ofN (n - p))) as [G|G].
      2:{ split; [exact F|]. replace n with p by lia. exact HS. }
      destruct EP as [EP|EP]; [lia|]. seq. eapply wp_set; [ev|]. simp. rewrite wrap_u32 by lia.
      set (c := N.min (8 - q) (n - p)). assert (EC : c = N.min (8 - q) (n - p)) by reflexivity. clearbody c. seq.
      eapply (wp_weak code _ _ _ (fun out e m2 => out = ONormal /\ m2 = m' /\ has e [(1%positive, VPtr b o); (5%positive, VInt (ofN (n - p))); (6%positive, VInt (ofN l)); (7%positive, VInt (ofN q)); (8%positive, VPtr db (dof + ofN p)); (9%positive, VInt (ofN c))])).
      { eapply wp_if; [ev|]. simp. rewrite truth_b. destruct (Z.ltb_spec (ofN (n - p)) (8 - ofN q)) as [W|W].
        - eapply wp_set; [ev|]. split; [reflexivity|]. split; [reflexivity|]. hasz.
        - apply wp_skip. split; [reflexivity|]. split; [reflexivity|]. hasz. }
      intros out e2 m2 (-> & -> & HE2). unhas. clear e H0 H1 H2 H3 H4.
      assert (LT : lenN (takeN p (dropN off st)) = p) by (rewrite lenN_takeN, lenN_dropN; lia).
      assert (HS' : holds m' b o st) by (eapply holds_frame; [exact H|exact F|in_at]).
      seq. eapply wp_callf; [evs|..].
      { apply (ref_ExtractBytesInLane m' b o st db (dof + ofN p) l q c); try assumption; try lia. eapply inb_frame; [exact F|]. eapply inb_sub; [exact ID|lia..]. }
      intros w3 m3 (F3 & H3). cbn [set]. rewrite EP in H3.
      seq. eapply wp_set; [ev|]. seq. eapply wp_set; [ev|]. seq. eapply wp_set; [ev|]. eapply wp_set; [ev|]. simp. apply wp_skip. split; [reflexivity|].
      rewrite !wrap_u32 by lia. exists (N.to_nat (n - (p + c))). split; [lia|]. exists (p + c)%N, (l + 1)%N, 0%N. split; [reflexivity|]. split; [lia|]. split; [lia|].
      split; [lia|]. split; [lia|]. split; [hasz|]. split; [eapply frame_comp; [exact F|exact F3|in_at]|].
      rewrite takeN_split. apply RefOwf.holds_app; [eapply holds_frame; [exact HS|exact F3|rewrite LT; in_at]|]. rewrite LT, dropN_dropN. exact H3.
    + exists 0%N, (off / 8)%N, (off mod 8)%N. split; [f_equal; lia|]. split; [lia|]. split; [lia|]. split; [right; lia|]. split; [lia|].
      split; [hasz|]. split; [apply frame_refl|]. change (takeN 0 (dropN off st)) with (@nil N). split; [eapply inb_sub; [exact ID|change (lenN (@nil N)) with 0%N; lia..]|].
      intros j Hj. change (lenN (@nil N)) with 0%N in Hj. lia.
Qed.
