(** The translated commitment to all the columns: vole.c, vole_commit. *)
From Coq Require Import ZArith NArith List Bool FMapPositive Lia ZifyBool ZifyNat ZifyN.
From Verif Require Import Model.Base Proof.BaseProof Spec.OwfSpec Spec.VcSpec Spec.KeccakSpec.
From Verif Require Import Proof.PrgProof.
From Verif Require Proof.VcProof Proof.VoleProof Proof.RefOwf Proof.ShakeRun.
From Verif Require Import Model.CtLang Model.CtNames Model.CtVole Model.CtProgram Proof.RefLogic Proof.RefTac Proof.RefMem Proof.RefKeys Proof.RefPrg Proof.RefSnp Proof.RefKeccak Proof.RefSponge Proof.RefHash Proof.RefFresh Proof.RefTree Proof.RefTree2 Proof.RefLeaf Proof.RefVc Proof.RefConv.
Import ListNotations.
Local Open Scope Z_scope.
Arguments wrap : simpl never.

Lemma code_vole_commit : PositiveMap.find f_vole_commit code = Some c_vole_commit. Proof. vm_compute. reflexivity. Qed.

(** ** What stays under a frame *)
Lemma absorbing_off m m' S L sec D : absorbing m L sec D -> frame m m' S -> (forall b o, S b o -> ~ In b (blocks L)) -> absorbing m' L sec D.
Proof. intros [B C] F X. split; [exact B|]. eapply ctx_kept; eassumption. Qed.
Lemma committed_kept lam root iv d m m' S V hb kb cb sb : committed lam root iv d m V hb kb cb sb -> frame m m' S -> (forall b q, In b (vblocks V ++ [hb; kb; cb; sb]) -> ~ S b q) -> committed lam root iv d m' V hb kb cb sb.
Proof.
  intros ((A0 & A1 & A2 & A3) & N & LV & H) F X. split; [splits|split; [|split]].
  - eapply vto_kept; [exact A0|exact F|intros q; apply X; cbn; tauto..].
  - eapply vto_kept; [exact A1|exact F|intros q; apply X; cbn; tauto..].
  - eapply vto_kept; [exact A2|exact F|intros q; apply X; cbn; tauto..].
  - eapply vto_kept; [exact A3|exact F|intros q; apply X; cbn; tauto..].
  - intros i Hi. eapply off_set; [apply N, Hi|exact F|intros q; apply X; cbn; tauto].
  - intros j Hj. destruct (LV j Hj) as [Y Z]. split; (eapply off_set; [eassumption|exact F|intros q; apply X; cbn; tauto]).
  - eapply off_set; [exact H|exact F|intros q; apply X; cbn; tauto].
Qed.
Lemma vspace_kept m m' S V : vspace m V -> frame m m' S -> (forall q, ~ S (vv V) q) -> vspace m' V.
Proof. intros [ND M] F X. split; [exact ND|]. intros f Hf. eapply member_kept; [apply M, Hf|exact F|exact X]. Qed.
Lemma pe_vtox e m x V f v : pe e m x (VPtr (vv V) (vx V)) -> vto m V f v -> pe e m (ELoadP (EField x 4 f)) v.
Proof. intros E [[I C] T]. eapply pe_to; [|exact T]. rewrite <- C. apply pe_field; [exact E|exact I]. Qed.
Lemma H1_ok lam D : lenN (VcSpec.H1 shake lam D) = (lam / 8 * 2)%N /\ bytes_ok (VcSpec.H1 shake lam D).
Proof. unfold VcSpec.H1. destruct (ShakeRun.shake_sized (shake_of lam) (D ++ [1%N]) (lam / 8 * 2)%N) as [L B]. split; [unfold lenN; lia|exact B]. Qed.

(** ** How the columns are shared out *)
Section Shares.
Variables (k0 k1 t0 : N).
Definition dep (t : N) : N := (if t <? t0 then k0 else k1)%N.
Definition low (t : N) : N := (if t <? t0 then t * k0 else t0 * k0 + (t - t0) * k1)%N.
Lemma low_0 : low 0 = 0%N.
Proof. unfold low. destruct (N.ltb_spec 0 t0); lia. Qed.
Lemma low_S t : low (t + 1) = (low t + dep t)%N.
Proof. unfold low, dep. destruct (N.ltb_spec t t0), (N.ltb_spec (t + 1) t0); try lia. - assert (t0 = t + 1)%N by lia. subst t0. rewrite N.sub_diag. lia. - replace (t + 1 - t0)%N with (t - t0 + 1)%N by lia. lia. Qed.
Lemma low_le : forall t t', (t <= t')%N -> (low t <= low t')%N.
Proof. intros t t' H. replace t' with (t + (t' - t))%N by lia. generalize (t' - t)%N as k. induction k as [|k IH] using N.peano_ind; [rewrite N.add_0_r; lia|]. rewrite <- N.add_1_r, N.add_assoc, low_S. lia. Qed.
Lemma low_next t t' : (t < t')%N -> (low t + dep t <= low t')%N.
Proof. intros H. rewrite <- low_S. apply low_le. lia. Qed.
End Shares.

Lemma nums (w d W i T l k : N) : (w + d <= W)%N -> (i < T)%N -> (1 <= l)%N -> (T < 65536)%N -> (k <= 32)%N -> (W * l < 2 ^ 32)%N -> (T * l < 2 ^ 32)%N ->
  ((ofN w + ofN d) * ofN l <= ofN W * ofN l /\ 0 <= ofN w * ofN l /\ 0 <= ofN d * ofN l /\ ofN W * ofN l < 4294967296 /\ ofN W <= ofN W * ofN l) /\
  ((ofN i + 1) * ofN l <= ofN T * ofN l /\ 0 <= ofN i * ofN l /\ ofN T * ofN l < 4294967296) /\
  ((ofN i + 1) * ofN k <= ofN T * ofN k /\ ofN T * ofN k <= 2097152 /\ 0 <= ofN i * ofN k).
Proof.
  intros A B C D E F G. splits; try lia; try (apply Z.mul_le_mono_nonneg_r; lia); try (apply Z.mul_nonneg_nonneg; lia).
  - rewrite <- (Z.mul_1_r (ofN W)) at 1. apply Z.mul_le_mono_nonneg_l; lia.
  - apply (Z.mul_le_mono_nonneg (ofN T) 65536 (ofN k) 32); lia.
Qed.
(* keeps disequalities away from the decision procedures *)
Definition hid (P : Prop) : Prop := P.
Section Vole.
Variables (lam tau k0 k1 t0 L : N) (root iv : bytes).
Variables (ab : positive) (ao : Z) (mb : N -> Z -> positive).
Variables (ib pb vb Vb ub cb hb : positive) (io po vo Vo uo co ho : Z).
Notation lb := (ofN (lam / 8)).
Notation Lz := (ofN L).
Notation dep := (dep k0 k1 t0).
Notation low := (low k0 k1 t0).
Definition place (t : N) : vloc := VLoc ab (ao + ofN t) (mb t).
Definition mems (t : N) : list positive := [mb t 0; mb t 1; mb t 2; mb t 3].
Definition keys : bytes := stream (aes_of lam) root iv (lam / 8 * tau).
Definition key (t : N) : bytes := takeN (lam / 8) (dropN (t * (lam / 8)) keys).
Definition seeds (t x : N) : bytes := seedof lam (key t) iv (dep t) x.
Definition rows (t : N) : N -> bytes := rowb lam L iv false (seeds t).
Definition mask (t : N) : bytes := VoleProof.colsum L (dep t) (rows t).
Definition vcol (t k : N) : bytes := VoleProof.col L (dep t) (rows t) k.
Definition hash (t : N) : bytes := VcSpec.H1 shake lam (coms lam (key t) iv (dep t) (Z.to_nat (ofN (2 ^ dep t)))).
Definition hashes (n : nat) : bytes := flat_map (fun t => hash (N.of_nat t)) (List.seq 0 n).
Lemma hashes_S n : hashes (S n) = hashes n ++ hash (N.of_nat n).
Proof. unfold hashes. rewrite seq_S, flat_map_app. cbn [flat_map Nat.add]. rewrite app_nil_r. reflexivity. Qed.

Definition csizes : Prop := lamb lam /\ (sized L k0 /\ sized L k1) /\ (1 <= tau < 2 ^ 16)%N /\ (t0 < 2 ^ 16)%N /\ (tau * L < 2 ^ 32)%N /\ (low tau * L < 2 ^ 32)%N /\
  lenN root = (lam / 8)%N /\ bytes_ok root /\ lenN iv = 16%N /\ bytes_ok iv.
Definition cstat (m : mem) : Prop := (parm m pb po lam /\ holds m ib io iv /\ kconst m /\ rconst m /\ holds m 8 0 [0%N] /\ holds m 9 0 [1%N]) /\
  (forall t, (t < tau)%N -> vspace m (place t)) /\ (forall k, (k < low tau)%N -> to m vb (vo + ofN k) (VPtr Vb (Vo + ofN k * Lz))) /\ inb m Vb Vo (ofN (low tau) * Lz).
Lemma cstat_kept m m' S : cstat m -> frame m m' S -> (forall b q, In b [pb; ib; vb; ab; 1%positive; 8%positive; 9%positive; 12%positive] -> ~ S b q) -> cstat m'.
Proof.
  intros ((A1 & A2 & A3 & A4 & A5 & A6) & B & C & D) F X. split; [splits|split; [|split]].
  - eapply off_set; [exact A1|exact F|intros q; apply X; cbn; tauto].
  - eapply off_set; [exact A2|exact F|intros q; apply X; cbn; tauto].
  - eapply off_set; [exact A3|exact F|intros q; apply X; cbn; tauto].
  - eapply rconst_frame; [exact A4|exact F|intros q; apply X; cbn; tauto].
  - eapply off_set; [exact A5|exact F|intros q; apply X; cbn; tauto].
  - eapply off_set; [exact A6|exact F|intros q; apply X; cbn; tauto].
  - intros t Ht. eapply vspace_kept; [apply B, Ht|exact F|intros q; apply X; cbn; tauto].
  - intros k Hk. eapply to_at; [apply C, Hk|exact F|apply X; cbn; tauto].
  - eapply inb_frame; eassumption.
Qed.
(** the places are apart *)
Definition capart : Prop :=
  (forall t b, (t < tau)%N -> In b (mems t) -> (12 < b)%positive /\ (b <> pb /\ b <> ib /\ b <> vb /\ b <> ab) /\ (b <> Vb /\ b <> ub /\ b <> cb /\ b <> hb)) /\
  (forall t t' b, (t < tau)%N -> (t' < tau)%N -> t <> t' -> In b (mems t) -> ~ In b (mems t')) /\
  ((12 < ab)%positive /\ ab <> ib /\ ib <> 1%positive /\ pb <> 1%positive /\ vb <> 1%positive) /\
  (Vb <> pb /\ Vb <> ib /\ Vb <> vb /\ Vb <> ab) /\ (ub <> ab /\ cb <> ab /\ hb <> ab) /\
  NoDup [Vb; ub; cb; hb] /\ (forall b, In b [Vb; ub; cb; hb] -> (12 < b)%positive).

Definition done (m1 m : mem) (i : N) : Prop := forall t, (t < i)%N -> exists sh sk sc ss, NoDup [sh; sk; sc; ss] /\ (forall b, In b [sh; sk; sc; ss] -> (mnext m1 <= b < mnext m)%positive) /\ committed lam (key t) iv (dep t) m (place t) sh sk sc ss.
Definition vcols (m : mem) (i : N) : Prop := forall t k, (t < i)%N -> (k < dep t)%N -> holds m Vb (Vo + (ofN (low t) + ofN k) * Lz) (vcol t k).
Definition masks (m : mem) (xb : positive) (i : N) : Prop := forall t, (t < i)%N -> holds m xb (ofN t * Lz) (mask t).
Definition lfoot (Lc : loc) (xb b : positive) (o : Z) : Prop := (exists t, (t < tau)%N /\ In b (mems t)) \/ b = Vb /\ Vo <= o < Vo + ofN (low tau) * Lz \/ foot Lc b o \/ b = xb.
Definition state (m1 : mem) (Lc : loc) (xb : positive) (i : N) (m : mem) : Prop := frame m1 m (lfoot Lc xb) /\ absorbing m Lc lam (hashes (N.to_nat i)) /\ masks m xb i /\ vcols m i /\ done m1 m i.
Definition cvars (e : env) (Lc : loc) (xb kb : positive) (i : N) : Prop := has e [(2%positive, VPtr ib io); (4%positive, VPtr pb po); (5%positive, VPtr hb ho); (6%positive, VPtr ab ao); (7%positive, VPtr cb co); (8%positive, VPtr ub uo); (9%positive, VPtr vb vo);
  (10%positive, VInt (ofN lam)); (11%positive, VInt lb); (12%positive, VInt Lz); (13%positive, VInt (ofN tau)); (14%positive, VInt (ofN t0)); (15%positive, VInt (ofN k0)); (16%positive, VInt (ofN k1)); (18%positive, VPtr xb 0); (20%positive, VPtr kb 0); (21%positive, VPtr (cx Lc) 0);
  (29%positive, VInt (ofN (low i))); (30%positive, VInt (ofN i))].
Definition tree_code : stmt :=
    SSet 31 (ECond (EBin OLt s32 (EVar 30) (EVar 14)) (EVar 15) (EVar 16)) ;;
    SCall None f_vector_commitment [(EAt (EVar 20) 1 (EBin OMul u32 (EVar 30) (EVar 11))); (EVar 2); (EVar 4); (EVar 10); (EAt (EVar 6) 1 (EVar 30)); (EVar 31)] ;;
    SCall None f_ConvertToVole [(EVar 2); (ELoadP (EField (EAt (EVar 6) 1 (EVar 30)) 4 3)); (EInt 0); (EVar 10); (EVar 31); (EVar 12); (EAt (EVar 18) 1 (EBin OMul u32 (EVar 30) (EVar 12))); (ELoadP (EAt (EVar 9) 1 (EVar 29)))] ;;
    SSet 29 (EBin OAdd u32 (EVar 29) (EVar 31)) ;;
    SCall None f_H1_update [(EVar 21); (ELoadP (EField (EAt (EVar 6) 1 (EVar 30)) 4 0)); (EBin OMul u32 (EVar 11) (EInt 2))].

Lemma keys_len : lenN keys = (lam / 8 * tau)%N.
Proof. apply stream_len. Qed.
Lemma key_ok t : csizes -> (t < tau)%N -> lenN (key t) = (lam / 8)%N /\ bytes_ok (key t).
Proof.
  intros (HL & _ & _ & _ & _ & _ & LR & BR & LI & BI) Ht. assert (E : lenN (key t) = (lam / 8)%N). { unfold key. rewrite lenN_takeN, lenN_dropN, keys_len. nia. } split; [exact E|].
  unfold key. apply bytes_ok_part, bytes_ok_part. unfold keys. apply stream_bytes; [|exact BR]; rewrite LR; destruct HL as [<-|[<-|[<-|[]]]]; cbn; lia.
Qed.
Lemma seeds_ok t x : csizes -> VcProof.node_ok lam (seeds t x).
Proof. intros _. unfold seeds, seedof. destruct (out_ok lam iv (leaf lam (key t) iv (dep t) x)) as (A & _ & B & _). split; assumption. Qed.
Lemma rows_ok t x : csizes -> lenN (rows t x) = L /\ bytes_ok (rows t x).
Proof. intros C. apply (rowb_ok lam L iv false (seeds t) x (proj1 C)); [intros E; discriminate E|intros _; exact (seeds_ok t x C)]. Qed.
Lemma mask_ok t : csizes -> lenN (mask t) = L /\ bytes_ok (mask t).
Proof. intros C. split; [apply VoleProof.colsum_len|apply VoleProof.colsum_bytes]; intros x _; apply rows_ok, C. Qed.
Lemma vcol_ok t k : csizes -> lenN (vcol t k) = L /\ bytes_ok (vcol t k).
Proof. intros C. split; [apply VoleProof.col_len|apply VoleProof.col_bytes]; intros x _; apply rows_ok, C. Qed.
Lemma dep_sized t : csizes -> sized L (dep t).
Proof. intros (_ & (A & B) & _). unfold RefVoleCommit.dep. destruct (t <? t0)%N; assumption. Qed.
Lemma hash_ok t : lenN (hash t) = (lam / 8 * 2)%N /\ bytes_ok (hash t).
Proof. apply H1_ok. Qed.
Lemma place_off t b : (t < tau)%N -> vfoot (place t) b 0 <-> In b (mems t).
Proof. intros _. reflexivity. Qed.

(** blocks allocated by [vole_commit] itself come after [n0] *)
Definition setup (n0 : positive) (m1 : mem) (Lc : loc) (xb kb : positive) : Prop := cstat m1 /\ holds m1 kb 0 keys /\ inb m1 xb 0 (ofN tau * Lz) /\ NoDup (blocks Lc) /\
  ((n0 <= xb)%positive /\ (xb < kb)%positive /\ (kb < mnext m1)%positive /\ (forall b, In b (blocks Lc) -> b <> 1%positive -> (kb < b < mnext m1)%positive)) /\
  ((forall b, In b [pb; ib; vb; ab; Vb; ub; cb; hb; 12%positive] -> (b < n0)%positive) /\ (forall t b, (t < tau)%N -> In b (mems t) -> (b < n0)%positive)).
Lemma lfoot_off n0 m1 Lc xb kb b q : capart -> setup n0 m1 Lc xb kb -> (b = kb \/ In b [pb; ib; vb; ab; 1%positive; 8%positive; 9%positive; 12%positive]) -> ~ lfoot Lc xb b q.
Proof.
  intros (A1 & _ & (A3 & A3') & A4 & _ & _ & A7) (_ & _ & _ & ND & (N1 & N2 & N3 & N4) & (O1 & O2)) I Y.
  assert (X12 := O1 12%positive ltac:(cbn; tauto)).
  assert (I' : b = kb \/ (b < n0)%positive) by (destruct I as [->|I]; [left; reflexivity|right]; cbn [In] in I; destruct I as [<-|[<-|[<-|[<-|[<-|[<-|[<-|[<-|[]]]]]]]]]; try lia; apply O1; cbn; tauto).
  destruct Y as [(t & Ht & Y)|[[Y _]|[Y| ->]]].
  - assert (Y1 := A1 t b Ht Y). assert (Y2 := O2 t b Ht Y). clear - Y1 Y2 I N1 N2 N3. cbn [In] in I. lia.
  - assert (Y1 := A7 Vb ltac:(cbn; tauto)). assert (Y2 := O1 Vb ltac:(cbn; tauto)). clear - Y Y1 Y2 I N1 N2 N3 A4. cbn [In] in I. lia.
  - assert (Y1 := foot_blocks Lc ND b q Y). apply foot_in in Y. assert (Y2 := N4 b Y (proj1 Y1)). clear - Y2 I' N1 N2 N3. lia.
  - clear - I' N1 N2. lia.
Qed.
Lemma wp_tree n0 m1 Lc xb kb i e m (Q : outcome -> env -> mem -> Prop) : csizes -> capart -> setup n0 m1 Lc xb kb -> (i < tau)%N -> cvars e Lc xb kb i -> state m1 Lc xb i m ->
  (forall e' m', cvars (PositiveMap.add 30%positive (VInt (ofN i + 1)) e') Lc xb kb (i + 1) -> lookup e' 30 = VInt (ofN i) -> state m1 Lc xb (i + 1) m' -> Q ONormal e' m') -> wp code tree_code e m Q.
Proof.
  intros SZ AP SU Hi CV (F & AB & MK & VC & DN) K. assert (LO := fun b q => lfoot_off n0 m1 Lc xb kb b q AP SU).
  assert (X := AP). destruct X as (A1 & A2 & (A3 & A3') & A4 & A5 & A6 & A7). assert (X := SU). destruct X as (CS1 & HK & IX & ND & (N1 & N2 & N3 & N4) & (O1 & O2)).
  assert (X := SZ). destruct X as (HL & _ & TB & T0B & TL & VL & LR & BR & LI & BI). destruct (lamb_b lam HL) as [B1 B2].
  change (hid (ab <> ib /\ ib <> 1%positive /\ pb <> 1%positive /\ vb <> 1%positive)) in A3'. change (hid (Vb <> pb /\ Vb <> ib /\ Vb <> vb /\ Vb <> ab)) in A4. change (hid (ub <> ab /\ cb <> ab /\ hb <> ab)) in A5.
  assert (X12 := O1 12%positive ltac:(cbn; tauto)). assert (XV := O1 Vb ltac:(cbn; tauto)). assert (XA := O1 ab ltac:(cbn; tauto)). assert (A7V := A7 Vb ltac:(cbn; tauto)).
  assert (CS : cstat m) by (eapply cstat_kept; [exact CS1|exact F|intros b q I; apply LO; right; exact I]).
  assert (HK' : holds m kb 0 keys) by (eapply off_set; [exact HK|exact F|intros q; apply LO; left; reflexivity]).
  assert (X := CS). destruct X as ((C1 & C2 & C3 & C4 & C5 & C6) & CV' & CT & CI).
  assert (DS := dep_sized i SZ). assert (DS' := DS). destruct DS' as (D1 & D2 & D3). destruct (key_ok i SZ Hi) as [KL KB].
  assert (LE := low_next k0 k1 t0 i tau Hi). destruct (nums (low i) (dep i) (low tau) i tau L (lam / 8) LE Hi D2 ltac:(lia) ltac:(lia) VL TL) as ((LX & L0 & LD & LOW & LOWB) & (LT & LI0 & TL') & (TLB & TLB' & TLB0)).
  unfold cvars in CV. unhas. unfold tree_code.
  seq. eapply (wp_set _ _ _ _ _ (VInt (ofN (dep i)))).
  { eapply pe_cond; [ev|]. simp. rewrite truth_b. unfold RefVoleCommit.dep. destruct (N.ltb_spec i t0).
    - replace (ofN i <? ofN t0) with true by lia. cbv iota. ev.
    - replace (ofN i <? ofN t0) with false by lia. cbv iota. ev. }
  assert (MI : forall b q, vfoot (place i) b q -> In b (mems i)) by (intros b q Y; exact Y).
  (* the commitment *)
  seq. eapply wp_callf with (vs := [VPtr kb (ofN i * lb); VPtr ib io; VPtr pb po; VInt (ofN lam); VPtr (vv (place i)) (vx (place i)); VInt (ofN (dep i))]).
  { eapply pes_cons; [eapply pe_eq; [ev|simp; rewrite wrap_u32 by lia; f_equal; lia]|]. evs. eapply pes_cons; [|evs]. eapply pe_eq; [ev|]. unfold place; cbn [vv vx]. f_equal. lia. }
  { apply (ref_vector_commitment lam (key i) iv (dep i) m (place i) kb (ofN i * lb) ib io pb po); try assumption.
    - split; [exact HL|]. splits; try assumption; lia.
    - apply CV', Hi.
    - assert (Y := RefVoleHash.holds_sub m kb 0 keys (i * (lam / 8)) (lam / 8) HK'). rewrite keys_len in Y. specialize (Y ltac:(nia)). replace (0 + ofN (i * (lam / 8))) with (ofN i * lb) in Y by lia. exact Y.
    - intros b I. cbn [vblocks In] in I. destruct I as [<-|I]; [change (vv (place i)) with ab; unfold hid in A3'; tauto|]. assert (Y := A1 i b Hi I). tauto.
    - unfold hid in A3'. tauto. }
  intros w2 m2 (F2 & sh & sk & sc & ss & ND2 & FR & CM). cbn [set]. assert (M01 := proj1 F). assert (M2 := proj1 F2).
  assert (O2i : forall b q, vfoot (place i) b q -> (12 < b < n0)%positive /\ (b <> pb /\ b <> ib /\ b <> vb /\ b <> ab) /\ b <> Vb) by (intros b q Y; apply MI in Y; assert (Y1 := A1 i b Hi Y); assert (Y2 := O2 i b Hi Y); tauto).
  assert (CS2 : cstat m2).
  { eapply cstat_kept; [exact CS|exact F2|]. intros b q I Y. apply O2i in Y. clear - Y I. cbn [In] in I. lia. }
  destruct CS2 as ((C21 & C22 & C23 & C24 & C25 & C26) & CV2 & CT2 & CI2).
  assert (CM' := CM). destruct CM' as ((_ & _ & _ & VT3) & _ & LV & _).
  assert (FRs : forall b, In b [sh; sk; sc; ss] -> (mnext m1 <= b)%positive) by (intros b I; apply FR in I; clear - I M01; lia).
  assert (M1n : (n0 < mnext m1)%positive) by (clear - N1 N2 N3; lia).
  (* the columns *)
  seq. eapply wp_callf with (vs := [VPtr ib io; VPtr ss 0; VInt (b2z false); VInt (ofN lam); VInt (ofN (dep i)); VInt Lz; uval (Some (xb, ofN i * Lz)); VPtr Vb (Vo + ofN (low i) * Lz)]).
  { eapply pes_cons; [ev|]. eapply pes_cons; [eapply (pe_vtox _ _ _ (place i)); [eapply pe_eq; [ev|unfold place; cbn [vv vx]; f_equal; lia]|exact VT3]|]. do 4 (eapply pes_cons; [ev|]).
    eapply pes_cons; [eapply pe_eq; [ev|simp; rewrite wrap_u32 by lia; cbn [uval]; f_equal; lia]|]. eapply pes_cons; [|apply pes_nil].
    eapply pe_to; [eapply pe_eq; [ev|f_equal; lia]|]. rewrite Z.mul_1_l. apply CT2. lia. }
  { apply (ref_ConvertToVole lam L (dep i) iv (seeds i) false (Some (xb, ofN i * Lz)) m2 ib io ss 0 Vb (Vo + ofN (low i) * Lz)); try assumption.
    - intros x Hx _. split; [apply (LV x); lia|apply seeds_ok, SZ].
    - eapply inb_sub; [exact CI2|lia|lia|lia].
    - split; [eapply inb_sub; [eapply inb_frame; [exact F2|eapply inb_frame; [exact F|exact IX]]|lia|lia|lia]|]. left. clear - XV N1. lia. }
  intros w3 m3 (F3 & VC3 & MK3). cbn [set]. specialize (MK3 eq_refl). cbv beta in F3. assert (M3 := proj1 F3).
  assert (FO3 : forall b q, at_ Vb (Vo + ofN (low i) * Lz) (ofN (dep i) * Lz) b q \/ uat L false (Some (xb, ofN i * Lz)) b q -> b = Vb /\ Vo + ofN (low i) * Lz <= q < Vo + ofN (low i) * Lz + ofN (dep i) * Lz \/ b = xb /\ ofN i * Lz <= q < ofN i * Lz + Lz).
  { intros b q [[-> Y]|[_ [-> Y]]]; [left|right]; split; (reflexivity || lia). }
  assert (CM3 : committed lam (key i) iv (dep i) m3 (place i) sh sk sc ss).
  { eapply committed_kept; [exact CM|exact F3|]. intros b q I Y. apply FO3 in Y. assert (Y' : b = Vb \/ b = xb) by tauto. clear Y. apply in_app_iff in I. destruct I as [[<-|I]|I].
    - change (vv (place i)) with ab in Y'. clear - Y' XA N1 A4. unfold hid in A4. lia.
    - assert (I1 := A1 i b Hi I). assert (I2 := O2 i b Hi I). clear - Y' I1 I2 N1. lia.
    - apply FRs in I. clear - Y' I M1n XV N2 N3. lia. }
  assert (AB3 : absorbing m3 Lc lam (hashes (N.to_nat i))).
  { eapply absorbing_off; [eapply absorbing_off; [exact AB|exact F2|]|exact F3|].
    - intros b q Y I. apply O2i in Y. assert (I' := N4 b I ltac:(lia)). clear - Y I' N1 N2. lia.
    - intros b q Y I. apply FO3 in Y. assert (Y' : b = Vb \/ b = xb) by tauto. assert (I' := N4 b I ltac:(clear - Y' A7V N1 X12; lia)). clear - Y' I' XV N1 N2. lia. }
  seq. eapply wp_set; [ev|]. simp. rewrite wrap_u32 by lia. replace (ofN (low i) + ofN (dep i)) with (ofN (low (i + 1))) by (rewrite low_S; lia).
  destruct (hash_ok i) as [HLen HB]. assert (CM3' := CM3). destruct CM3' as ((VT0 & _) & _ & _ & HH).
  eapply wp_callf with (vs := [VPtr (cx Lc) 0; VPtr sh 0; VInt (ofN (lenN (hash i)))]).
  { eapply pes_cons; [ev|]. eapply pes_cons; [eapply (pe_vtox _ _ _ (place i)); [eapply pe_eq; [ev|unfold place; cbn [vv vx]; f_equal; lia]|exact VT0]|]. eapply pes_cons; [|apply pes_nil]. rewrite HLen. eapply pe_eq; [ev|]. simp. rewrite wrap_u32 by lia. f_equal. lia. }
  { apply (ref_H_update f_H1_update m3 Lc lam (hashes (N.to_nat i)) sh 0 (hash i)); [exact code_H1_update|exact AB3|exact HH|exact HB| |lia].
    intros I. assert (Y := FRs sh ltac:(cbn; tauto)). assert (I' := N4 sh I ltac:(clear - Y M1n X12; lia)). clear - Y I'. lia. }
  intros w4 m4 (F4 & AB4). cbn [set]. assert (M4 := proj1 F4).
  assert (FO4 : forall b q, foot Lc b q -> (kb < b < mnext m1)%positive) by (intros b q Y; assert (Y' := foot_blocks Lc ND b q Y); apply foot_in in Y; apply N4; tauto).
  apply K; [unfold cvars; hasz|look|].
  assert (OLD : forall b, (b < n0)%positive -> forall q, ~ foot Lc b q) by (intros b I q Y; apply FO4 in Y; clear - Y I N1 N2; lia).
  split; [|split; [|split; [|split]]].
  - eapply frame_comp; [eapply frame_comp; [eapply frame_comp; [exact F|exact F2|]|exact F3|]|exact F4|]; intros b q _ _ Y; unfold lfoot.
    + left. exists i. split; [exact Hi|exact Y].
    + apply FO3 in Y. destruct Y as [[-> Y]|[-> Y]]; [right; left; split; [reflexivity|lia]|tauto].
    + tauto.
  - replace (N.to_nat (i + 1)) with (S (N.to_nat i)) by lia. rewrite hashes_S, N2Nat.id. exact AB4.
  - assert (XF : forall q, ~ foot Lc xb q) by (intros q Y; apply FO4 in Y; clear - Y N2; lia).
    intros t Ht. assert (t = i \/ t < i)%N as [->|Ht'] by lia; [eapply off_set; [exact MK3|exact F4|exact XF]|].
    eapply off_set; [|exact F4|exact XF]. eapply holds_frame; [eapply off_set; [apply MK, Ht'|exact F2|]|exact F3|].
    + intros q Y. apply O2i in Y. clear - Y N1. lia.
    + rewrite (proj1 (mask_ok t SZ)). intros q Hq Y. apply FO3 in Y. assert ((ofN t + 1) * Lz <= ofN i * Lz) by (apply Z.mul_le_mono_nonneg_r; lia). destruct Y as [[Y _]|[_ Y]]; [clear - Y XV N1; lia|lia].
  - intros t k Ht Hk. eapply off_set; [|exact F4|apply OLD, XV]. assert (t = i \/ t < i)%N as [->|Ht'] by lia.
    + replace (Vo + (ofN (low i) + ofN k) * Lz) with (Vo + ofN (low i) * Lz + ofN k * Lz) by lia. apply VC3, Hk.
    + eapply holds_frame; [eapply off_set; [apply VC; assumption|exact F2|]|exact F3|].
      * intros q Y. apply O2i in Y. clear - Y. lia.
      * rewrite (proj1 (vcol_ok t k SZ)). intros q Hq Y. apply FO3 in Y. assert (LN := low_next k0 k1 t0 t i Ht'). assert ((ofN (low t) + ofN k + 1) * Lz <= ofN (low i) * Lz) by (apply Z.mul_le_mono_nonneg_r; lia). destruct Y as [[_ Y]|[Y _]]; [lia|clear - Y XV N1; lia].
  - intros t Ht. assert (t = i \/ t < i)%N as [->|Ht'] by lia.
    + exists sh, sk, sc, ss. split; [exact ND2|]. split; [intros b I; assert (Y := FR b I); clear - Y M01 M3 M4; lia|].
      eapply committed_kept; [exact CM3|exact F4|]. intros b q I Y. apply FO4 in Y. apply in_app_iff in I. destruct I as [[<-|I]|I].
      * change (vv (place i)) with ab in Y. clear - Y XA N1 N2. lia.
      * assert (I2 := O2 i b Hi I). clear - Y I2 N1 N2. lia.
      * apply FRs in I. clear - Y I. lia.
    + assert (Htt : (t < tau)%N) by (clear - Ht' Hi; lia). assert (Hti : t <> i) by (clear - Ht'; lia). destruct (DN t Ht') as (sh' & sk' & sc' & ss' & ND' & FR' & CM''). exists sh', sk', sc', ss'. split; [exact ND'|]. split; [intros b I; assert (Y := FR' b I); clear - Y M2 M3 M4; lia|].
      assert (IB : forall b, In b (vblocks (place t) ++ [sh'; sk'; sc'; ss']) -> b = ab \/ In b (mems t) \/ (mnext m1 <= b)%positive).
      { intros b I. apply in_app_iff in I. destruct I as [[<-|I]|I]; [left; reflexivity|right; left; exact I|right; right; apply FR', I]. }
      assert (IB2 : forall b, In b (vblocks (place t) ++ [sh'; sk'; sc'; ss']) -> b <> Vb /\ b <> xb /\ ((b < n0)%positive \/ (mnext m1 <= b)%positive)).
      { intros b I. apply IB in I. destruct I as [->|[I|I]].
        - clear - A4 XA N1. unfold hid in A4. lia.
        - assert (I1 := A1 t b Htt I). assert (I2 := O2 t b Htt I). clear - I1 I2 N1. lia.
        - clear - I M1n XV N2 N3. lia. }
      eapply committed_kept; [eapply committed_kept; [eapply committed_kept; [exact CM''|exact F2|]|exact F3|]|exact F4|].
      * intros b q I Y. assert (Y' := O2i b q Y). apply MI in Y. apply IB in I. destruct I as [->|[I|I]]; [clear - Y'; lia|exact (A2 t i b Htt Hi Hti I Y)|clear - I Y' M1n; lia].
      * intros b q I Y. apply IB2 in I. apply FO3 in Y. clear - I Y. tauto.
      * intros b q I Y. apply IB2 in I. apply FO4 in Y. clear - I Y N1 N2. lia.
Qed.

Definition cfoot (b : positive) (o : Z) : Prop := (exists t, (t < tau)%N /\ In b (mems t)) \/ at_ Vb Vo (ofN (low tau) * Lz) b o \/ at_ ub uo Lz b o \/ at_ cb co ((ofN tau - 1) * Lz) b o \/ at_ hb ho (lb * 2) b o.
Definition corrs (m : mem) (i : N) : Prop := forall t, (1 <= t < i)%N -> holds m cb (co + (ofN t - 1) * Lz) (xor_bytes (mask 0) (mask t)).
Lemma ref_vole_commit ell rb ro m : csizes -> capart -> cstat m -> L = ((ell + 7) / 8)%N -> (ell + 7 < 2 ^ 32)%N -> (k0 < 2 ^ 16)%N -> (k1 < 2 ^ 16)%N ->
  parm m pb (po + 16) tau -> parm m pb (po + 22) t0 -> parm m pb (po + 18) k0 -> parm m pb (po + 20) k1 ->
  holds m rb ro root -> inb m ub uo Lz -> inb m cb co ((ofN tau - 1) * Lz) -> inb m hb ho (lb * 2) ->
  calls code f_vole_commit [VPtr rb ro; VPtr ib io; VInt (ofN ell); VPtr pb po; VPtr hb ho; VPtr ab ao; VPtr cb co; VPtr ub uo; VPtr vb vo] m (fun _ m' =>
    frame m m' cfoot /\ done m m' tau /\ vcols m' tau /\ holds m' ub uo (mask 0) /\ corrs m' tau /\ holds m' hb ho (VcSpec.H1 shake lam (hashes (N.to_nat tau)))).
Proof.
  intros SZ AP CS EL LE16 K016 K116 PT P0 PK0 PK1 HRt IU IC IH.
  assert (X := AP). destruct X as (A1 & A2 & (A3 & A3') & A4 & A5 & A6 & A7).
  change (hid (ab <> ib /\ ib <> 1%positive /\ pb <> 1%positive /\ vb <> 1%positive)) in A3'. change (hid (Vb <> pb /\ Vb <> ib /\ Vb <> vb /\ Vb <> ab)) in A4. change (hid (ub <> ab /\ cb <> ab /\ hb <> ab)) in A5.
  assert (X := SZ). destruct X as (HL & (SK0 & _) & TB & T0B & TL & VL & LR & BR & LI & BI). destruct (lamb_b lam HL) as [B1 B2]. destruct SK0 as (_ & L1 & _).
  assert (X := CS). destruct X as ((C1 & C2 & C3 & C4 & C5 & C6) & CV & CT & CI).
  assert (LN := low_next k0 k1 t0 0 tau ltac:(lia)). assert (DS := dep_sized 0 SZ).
  destruct (nums (low 0) (dep 0) (low tau) 0 tau L (lam / 8) LN ltac:(lia) L1 ltac:(lia) ltac:(lia) VL TL) as ((LX & L0 & LD & LOW & LOWB) & (LT & LI0 & TL') & (TLB & TLB' & TLB0)).
  assert (LTP : (0 < low tau)%N) by (assert (Y := proj1 DS); lia).
  assert (O1 : forall b, In b [pb; ib; vb; ab; Vb; ub; cb; hb; 12%positive] -> (b < mnext m)%positive).
  { intros b I. cbn [In] in I. destruct I as [<-|[<-|[<-|[<-|[<-|[<-|[<-|[<-|[<-|[]]]]]]]]]].
    - exact (proj1 (proj1 C1)).
    - exact (proj1 (proj1 C2)).
    - exact (proj1 (proj1 (CT 0%N LTP))).
    - exact (proj1 (proj1 (proj1 (proj2 (CV 0%N ltac:(lia)) 0 ltac:(lia))))).
    - exact (proj1 CI).
    - exact (proj1 IU).
    - exact (proj1 IC).
    - exact (proj1 IH).
    - exact (proj1 (proj1 C4)). }
  assert (O2 : forall t b, (t < tau)%N -> In b (mems t) -> (b < mnext m)%positive).
  { intros t b Ht I. assert (Y := fun f H => proj1 (proj2 (proj2 (CV t Ht) f H))). cbn [mems In] in I. destruct I as [<-|[<-|[<-|[<-|[]]]]]; apply Y; lia. }
  assert (X12 := O1 12%positive ltac:(cbn; tauto)).
  start code_vole_commit.
  seq. eapply wp_set; [apply (pe_parm _ _ _ pb po lam); [ev|exact C1|lia]|].
  seq. eapply wp_set; [eapply pe_eq; [eapply pe_div; [ev|ev|lia]|unfold u32; rewrite divu by lia; instantiate (1 := VInt lb); rewrite N2Z.inj_div; reflexivity]|].
  seq. eapply wp_set; [eapply pe_eq; [eapply pe_div; [ev|ev|lia]|]|].
  { simp. rewrite wrap_u32 by lia. unfold u32. rewrite divu by lia. instantiate (1 := VInt Lz). f_equal. rewrite EL, N2Z.inj_div. f_equal. lia. }
  seq. eapply wp_set; [apply (pe_parm _ _ _ pb (po + 16) tau); [eapply pe_eq; [ev|f_equal; lia]|exact PT|lia]|].
  seq. eapply wp_set; [apply (pe_parm _ _ _ pb (po + 22) t0); [eapply pe_eq; [ev|f_equal; lia]|exact P0|lia]|].
  seq. eapply wp_set; [apply (pe_parm _ _ _ pb (po + 18) k0); [eapply pe_eq; [ev|f_equal; lia]|exact PK0|lia]|].
  seq. eapply wp_set; [apply (pe_parm _ _ _ pb (po + 20) k1); [eapply pe_eq; [ev|f_equal; lia]|exact PK1|lia]|].
  seq. apply (wp_new _ _ _ _ (ofN tau * Lz)); [eapply pe_eq; [ev|simp; rewrite wrap_u32 by lia; reflexivity]|lia|]. intros xb m1 BX X1 F1 IX. cbv iota. seq. eapply wp_set; [ev|].
  seq. apply (wp_new _ _ _ _ (ofN tau * lb)); [eapply pe_eq; [ev|simp; rewrite wrap_u32 by lia; reflexivity]|lia|]. intros kb m2 BK X2 F2 IK. cbv iota. seq. eapply wp_set; [ev|].
  assert (G2 : frame m m2 nothing) by (eapply frame_comp; [exact F1|exact F2|intros b o _ _ []]).
  seq. eapply wp_callf with (vs := [VPtr rb ro; VPtr ib io; VPtr kb 0; VInt (ofN lam); VInt (ofN tau * lb)]).
  { evs. eapply pes_cons; [eapply pe_eq; [ev|]|apply pes_nil]. simp. rewrite wrap_u32 by lia. f_equal. lia. }
  { apply (ref_prg lam m2 rb ro root ib io iv kb 0 (ofN tau * lb)); try assumption; try lia.
    - eapply off_set; [exact HRt|exact G2|intros q []].
    - eapply off_set; [exact C2|exact G2|intros q []].
    - eapply rconst_frame; [exact C4|exact G2|intros q []]. }
  intros w3 m3 (_ & F3 & HK). cbn [set]. replace (Z.to_N (ofN tau * lb)) with (lam / 8 * tau)%N in HK by lia. fold keys in HK.
  assert (M2 := proj1 F2). assert (M3 := proj1 F3).
  assert (G3 : frame m m3 nothing). { eapply frame_comp; [exact G2|exact F3|]. intros b o Y _ [-> _]. clear - Y BX BK X1. lia. }
  assert (KC3 : kconst m3) by (eapply off_set; [exact C3|exact G3|intros q []]).
  apply (wp_started f_H1_init) with (lam := lam); [exact code_H1_init|repeat constructor; cbn; lia|cbn; lia|exact KC3|look|lia|]. intros m4 Lc e4 F4 NW ND4 AB EA EO.
  assert (M4 := proj1 F4). assert (G4 : frame m m4 nothing) by (eapply frame_comp; [exact G3|exact F4|intros b o _ _ []]).
  assert (SU : setup (mnext m) m4 Lc xb kb).
  { split; [eapply cstat_kept; [exact CS|exact G4|intros b q _ []]|]. split; [eapply off_set; [exact HK|exact F4|intros q []]|]. split.
    { eapply inb_frame; [exact F4|]. eapply inb_frame; [exact F3|]. eapply inb_frame; [exact F2|exact IX]. }
    split; [exact ND4|]. split; [|split; assumption]. split; [clear - BX; lia|]. split; [clear - BX X1 BK; lia|]. split; [clear - BK X2 M3 M4; lia|].
    intros b I NB. assert (Y := NW b I NB). clear - Y BK X2 M3. lia. }
  assert (E : has e4 [(2%positive, VPtr ib io); (4%positive, VPtr pb po); (5%positive, VPtr hb ho); (6%positive, VPtr ab ao); (7%positive, VPtr cb co); (8%positive, VPtr ub uo); (9%positive, VPtr vb vo);
    (10%positive, VInt (ofN lam)); (11%positive, VInt lb); (12%positive, VInt Lz); (13%positive, VInt (ofN tau)); (14%positive, VInt (ofN t0)); (15%positive, VInt (ofN k0)); (16%positive, VInt (ofN k1)); (18%positive, VPtr xb 0); (20%positive, VPtr kb 0)]).
  { cbn [has]. splits; try exact Logic.I; (rewrite EO by (cbn; lia); look). }
  clear EO. unhas. seq. eapply wp_set; [ev|]. seq. eapply wp_set; [ev|].
  seq. eapply (wp_for _ 30%positive 32 _ (fun i e m' => cvars e Lc xb kb (Z.to_N i) /\ state m4 Lc xb (Z.to_N i) m') _ 0 (ofN tau)); [lia|lia|lia| | |].
  - intros i e' m' Hi (CVs & ST). assert (CVs' := CVs). unfold cvars in CVs'. repeat match goal with X : lookup e4 _ = _ |- _ => clear X end. unhas. rewrite Z2N.id in * by lia. split; [assumption|]. split.
    { eexists. split; [ev|]. simp. rewrite truth_b. lia. }
    eapply (wp_tree (mnext m) m4 Lc xb kb (Z.to_N i)); [exact SZ|exact AP|exact SU|lia|exact CVs|exact ST|].
    intros e5 m5 CV5 E5 ST5. rewrite Z2N.id in * by lia. split; [exact E5|]. replace (Z.to_N (i + 1)) with (Z.to_N i + 1)%N by lia. split; assumption.
  - intros e' m5 (CVs & ST). rewrite N2Z.id in *. unfold cvars in CVs. repeat match goal with X : lookup e4 _ = _ |- _ => clear X end. unhas. split.
    { eexists. split; [ev|]. simp. rewrite truth_b. lia. }
    cbv beta iota. destruct ST as (F5 & AB5 & MK5 & VC5 & DN5). assert (M5 := proj1 F5).
    assert (X := SU). destruct X as (CS4 & _ & IX4 & _ & (N1 & N2 & N3 & N4) & _).
    assert (IX5 : inb m5 xb 0 (ofN tau * Lz)) by (eapply inb_frame; [exact F5|exact IX4]).
    assert (G5 : frame m m5 cfoot).
    { eapply frame_comp; [eapply frame_weak; [exact G4|intros b o _ _ []]|exact F5|]. intros b o Y _ [Z|[Z|[Z|Z]]]; [left; exact Z|right; left; exact Z| |].
      - destruct (foot_new _ _ _ _ _ NW ND4 Z). clear - Y M2 M3 BX X1 BK. lia.
      - clear - Y Z BX. lia. }
    assert (LO := fun b q => lfoot_off (mnext m) m4 Lc xb kb b q AP SU).
    assert (H95 : holds m5 9 0 [1%N]) by (eapply off_set; [exact (proj2 (proj2 (proj2 (proj2 (proj2 (proj1 CS4))))))|exact F5|intros q; apply LO; cbn; tauto]).
    destruct (mask_ok 0 SZ) as [ML0 MB0].
    assert (W : Vb <> ub /\ Vb <> cb /\ Vb <> hb /\ ub <> cb /\ ub <> hb /\ cb <> hb).
    { assert (W1 := nodup_ne _ 0 1 A6 ltac:(cbn; lia)). assert (W2 := nodup_ne _ 0 2 A6 ltac:(cbn; lia)). assert (W3 := nodup_ne _ 0 3 A6 ltac:(cbn; lia)). assert (W4 := nodup_ne _ 1 2 A6 ltac:(cbn; lia)). assert (W5 := nodup_ne _ 1 3 A6 ltac:(cbn; lia)). assert (W6 := nodup_ne _ 2 3 A6 ltac:(cbn; lia)). cbn [nth] in *. splits; assumption. }
    change (hid (Vb <> ub /\ Vb <> cb /\ Vb <> hb /\ ub <> cb /\ ub <> hb /\ cb <> hb)) in W.
    assert (XU := O1 ub ltac:(cbn; tauto)). assert (XC := O1 cb ltac:(cbn; tauto)). assert (XH := O1 hb ltac:(cbn; tauto)). assert (XV := O1 Vb ltac:(cbn; tauto)). assert (XA := O1 ab ltac:(cbn; tauto)).
    assert (AU := A7 ub ltac:(cbn; tauto)). assert (AC := A7 cb ltac:(cbn; tauto)). assert (AH := A7 hb ltac:(cbn; tauto)).
    seq. eapply wp_eval; [ev|]. cbv iota.
    assert (IU5 : inb m5 ub uo Lz) by (eapply inb_frame; [exact G5|exact IU]).
    assert (MK0 := MK5 0%N ltac:(lia)). change (ofN 0 * Lz) with 0 in MK0.
    seq. eapply (wp_copy1 _ _ _ _ _ ub uo xb 0 Lz); [ev|ev|ev|exact IU5|eapply inb_sub; [exact IX5|lia..]|].
    assert (CP : frame m5 (copy m5 ub uo xb 0 Lz) (at_ ub uo Lz) /\ holds (copy m5 ub uo xb 0 Lz) ub uo (mask 0)).
    { split; [apply frame_copy_at; exact IU5|]. rewrite <- ML0 in IU5 |- *. apply holds_copy; [exact MK0|exact IU5]. }
    destruct CP as [F6 HU6]. revert F6 HU6. generalize (copy m5 ub uo xb 0 Lz). intros m6 F6 HU6.
    seq. eapply wp_set; [ev|].
    seq. eapply (wp_for _ 32%positive 32 _ (fun i e m' => has e [(5%positive, VPtr hb ho); (7%positive, VPtr cb co); (8%positive, VPtr ub uo); (11%positive, VInt lb); (12%positive, VInt Lz); (13%positive, VInt (ofN tau)); (18%positive, VPtr xb 0); (21%positive, VPtr (cx Lc) 0); (32%positive, VInt i)] /\
      frame m6 m' (at_ cb co ((ofN tau - 1) * Lz)) /\ corrs m' (Z.to_N i)) _ 1 (ofN tau)); [lia|lia|lia| | |].
    + intros i e7 m7 Hi (CV7 & F7 & CR). repeat match goal with X : lookup e' _ = _ |- _ => clear X end. unhas. split; [assumption|]. split.
      { eexists. split; [ev|]. simp. rewrite truth_b. lia. }
      assert (P1 : (i - 1 + 1) * Lz <= (ofN tau - 1) * Lz) by (apply Z.mul_le_mono_nonneg_r; lia). assert (P2 : 0 <= (i - 1) * Lz) by (apply Z.mul_nonneg_nonneg; lia).
      destruct (mask_ok (Z.to_N i) SZ) as [MLi MBi]. assert (MKi := MK5 (Z.to_N i) ltac:(lia)). rewrite Z2N.id in MKi by lia.
      eapply wp_callf with (vs := [VPtr ub uo; VPtr xb (i * Lz); VPtr cb (co + (i - 1) * Lz); VInt Lz]).
      { eapply pes_cons; [ev|]. eapply pes_cons; [eapply pe_eq; [ev|simp; rewrite wrap_u32 by lia; f_equal; lia]|]. eapply pes_cons; [eapply pe_eq; [ev|simp; rewrite (wrap_u32 (i - 1)) by lia; rewrite wrap_u32 by lia; f_equal; lia]|]. evs. }
      { apply (ref_xor m7 ub uo (mask 0) xb (i * Lz) (mask (Z.to_N i)) cb (co + (i - 1) * Lz) L); try assumption.
        - eapply off_block; [exact HU6|exact F7|unfold hid in W; tauto].
        - eapply off_block; [eapply off_block; [exact MKi|exact F6|]|exact F7|]; [clear - XU BX|clear - XC BX]; lia.
        - eapply inb_sub; [eapply inb_frame; [exact F7|eapply inb_frame; [exact F6|eapply inb_frame; [exact G5|exact IC]]]|lia..].
        - nia.
        - right. left. unfold hid in W. tauto.
        - right. left. clear - XC BX. lia. }
      intros w8 m8 (F8 & HX8). cbn [set]. split; [look|]. split; [hass|]. split.
      * eapply frame_comp; [exact F7|exact F8|]. intros b o _ _ [-> Y]. split; [reflexivity|lia].
      * intros t Ht. assert (t = Z.to_N i \/ t < Z.to_N i)%N as [->|Ht'] by lia; [rewrite Z2N.id by lia; exact HX8|].
        eapply holds_frame; [apply CR; lia|exact F8|]. rewrite lenN_xor; rewrite ?ML0, ?(proj1 (mask_ok t SZ)); [|reflexivity]. intros q Hq [_ Y]. assert ((ofN t - 1 + 1) * Lz <= (i - 1) * Lz) by (apply Z.mul_le_mono_nonneg_r; lia). lia.
    + intros e7 m7 (CV7 & F7 & CR). rewrite N2Z.id in CR. repeat match goal with X : lookup e' _ = _ |- _ => clear X end. unhas. split.
      { eexists. split; [ev|]. simp. rewrite truth_b. lia. }
      cbv beta iota. assert (M6 := proj1 F6). assert (M7 := proj1 F7).
      seq. eapply wp_eval; [ev|]. cbv iota.
      assert (BL : forall b, (b < mnext m)%positive -> b <> 1%positive -> ~ In b (blocks Lc)) by (intros b Y Y1 I; assert (Z := N4 b I Y1); clear - Y Z N1 N2; lia).
      assert (AB7 : absorbing m7 Lc lam (hashes (N.to_nat tau))).
      { eapply absorbing_off; [eapply absorbing_off; [exact AB5|exact F6|]|exact F7|]; intros b o [-> _]; apply BL; lia. }
      eapply wp_callf with (vs := [VPtr (cx Lc) 0; VPtr hb ho; VInt (ofN (lam / 8 * 2))]).
      { eapply pes_cons; [ev|]. eapply pes_cons; [ev|]. eapply pes_cons; [eapply pe_eq; [ev|simp; rewrite wrap_u32 by lia; f_equal; lia]|apply pes_nil]. }
      { apply (ref_H_final1 f_H1_final 9 1 m7 Lc lam (hashes (N.to_nat tau)) hb ho (lam / 8 * 2)); [exact code_H1_final|exact AB7| |lia|apply BL; lia| |apply BL; lia|lia].
        - eapply off_block; [eapply off_block; [exact H95|exact F6|]|exact F7|]; lia.
        - replace (ofN (lam / 8 * 2)) with (lb * 2) by lia. eapply inb_frame; [exact F7|]. eapply inb_frame; [exact F6|]. eapply inb_frame; [exact G5|exact IH]. }
      intros w8 m8 (F8 & HH). cbn [set]. assert (M8 := proj1 F8). replace (ofN (lam / 8 * 2)) with (lb * 2) in F8 by lia.
      assert (FO8 : forall b q, outfoot Lc hb ho (lb * 2) b q -> (mnext m <= b < mnext m4)%positive \/ at_ hb ho (lb * 2) b q).
      { intros b q [Y|Y]; [left|right; exact Y]. assert (Y' := foot_blocks Lc ND4 b q Y). apply foot_in in Y. assert (Z := N4 b Y (proj1 Y')). clear - Z N1 N2. lia. }
      assert (OFF : forall b q, (b < mnext m)%positive -> b <> hb -> ~ outfoot Lc hb ho (lb * 2) b q) by (intros b q Y Y1 Z; apply FO8 in Z; destruct Z as [Z|[Z _]]; [clear - Y Z; lia|exact (Y1 Z)]).
      unfold hid in W. destruct W as (W1 & W2 & W3 & W4 & W5 & W6). split; [|split; [|split; [|split; [|split]]]].
      * eapply frame_comp; [eapply frame_comp; [eapply frame_comp; [exact G5|exact F6|]|exact F7|]|exact F8|]; intros b q Y _ Z; unfold cfoot; [tauto|tauto|]. apply FO8 in Z. destruct Z as [Z|Z]; [clear - Y Z; lia|tauto].
      * intros t Ht. destruct (DN5 t Ht) as (sh & sk & sc & ss & NDt & FRt & CMt). exists sh, sk, sc, ss. split; [exact NDt|]. split; [intros b I; assert (Y := FRt b I); clear - Y M2 M3 M4 M5 M6 M7 M8 BX X1 BK; lia|].
        assert (IB : forall b, In b (vblocks (place t) ++ [sh; sk; sc; ss]) -> (b < mnext m \/ mnext m4 <= b)%positive /\ b <> ub /\ b <> cb /\ b <> hb).
        { intros b I. apply in_app_iff in I. destruct I as [[<-|I]|I].
          - change (vv (place t)) with ab. unfold hid in A5. clear - A5 XA. split; [lia|]. destruct A5 as (P1 & P2 & P3). splits; congruence.
          - assert (I1 := A1 t b Ht I). assert (I2 := O2 t b Ht I). clear - I1 I2. tauto.
          - apply FRt in I. clear - I XU XC XH M2 M3 M4 BX X1 BK. lia. }
        eapply committed_kept; [eapply committed_kept; [eapply committed_kept; [exact CMt|exact F6|]|exact F7|]|exact F8|]; intros b q I Z; apply IB in I; [destruct Z as [Z _]; tauto|destruct Z as [Z _]; tauto|]. apply FO8 in Z. destruct Z as [Z|[Z _]]; [clear - I Z; lia|tauto].
      * intros t k Ht Hk. eapply off_set; [eapply off_block; [eapply off_block; [apply VC5; assumption|exact F6|exact W1]|exact F7|exact W2]|exact F8|]. intros q. apply OFF; assumption.
      * eapply off_set; [eapply off_block; [exact HU6|exact F7|exact W4]|exact F8|]. intros q. apply OFF; assumption.
      * intros t Ht. eapply off_set; [apply CR, Ht|exact F8|]. intros q. apply OFF; assumption.
      * unfold VcSpec.H1. rewrite shake_level. exact HH.
    + split; [hass|]. split; [apply frame_refl|]. intros t Ht. lia.
  - change (Z.to_N 0) with 0%N. split; [unfold cvars; rewrite low_0; hass|]. split; [apply frame_refl|]. split; [exact AB|]. split; [intros t Ht; lia|]. split; [intros t k Ht; lia|intros t Ht; lia].
Qed.
End Vole.
