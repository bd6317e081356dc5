(** The translated vector commitment functions, in terms of what stands in memory. *)
From Coq Require Import ZArith NArith List Bool FMapPositive Lia ZifyBool ZifyNat ZifyN.
From Verif Require Import Model.Base Proof.BaseProof Spec.VcSpec Spec.KeccakSpec.
From Verif Require Proof.VcProof Proof.ShakeRun.
From Verif Require Import Model.CtLang Model.CtNames Model.CtProgram Spec.RefSpec Spec.RefVcSpec Proof.RefLogic Proof.RefTac Proof.RefMem Proof.RefProps Proof.RefSponge Proof.RefShakeProps Proof.RefFresh Proof.RefTree Proof.RefTree2 Proof.RefLeaf Proof.RefVc Proof.RefOpen.
Import ListNotations.
Local Open Scope Z_scope.

Lemma level_lamb lam : security_level lam -> lamb lam.
Proof. unfold security_level, lamb. cbn [In]. intuition. Qed.
Definition vplace (c : vec_com) : vloc := VLoc (array c) (index c) (fun f => if f =? 0 then member_h c else if f =? 1 then member_k c else if f =? 2 then member_com c else member_sd c).
Lemma vplace_blocks c : vblocks (vplace c) = array c :: members c. Proof. reflexivity. Qed.
Lemma laid_space m c : laid_out m c -> vspace m (vplace c).
Proof.
  intros (ND & G & P0 & P1 & P2 & P3 & R). split; [rewrite vplace_blocks; exact ND|].
  intros f Hf. assert (f = 0 \/ f = 1 \/ f = 2 \/ f = 3) as [->|[->|[->| ->]]] by lia; unfold member, vplace; cbn [vv vx vp Z.eqb Pos.eqb];
    (split; [apply points_ptr; rewrite ?Z.add_0_r; assumption|]; apply (proj1 (room_inb _ _ _ 1%N)), R; unfold members; cbn [In]; auto).
Qed.
Lemma to_points m b t : to m b 0 (VPtr t 0) -> points m b 0 t 0.
Proof.
  intros [(A & B & C & D) E]. unfold points, size, cell in *. split; [exact A|]. destruct (PositiveMap.find b (mblocks m)) as [k|]; [|lia]. exists k. split; [reflexivity|]. split; [lia|exact E].
Qed.
Lemma parameters_parm m b o lam : security_level lam -> parameters m b o lam -> parm m b o lam.
Proof. intros L H. unfold parm. apply holds_stands. destruct L as [->|[->| ->]]; exact H. Qed.

Lemma commitment_returns : forall lam depth root iv m c rb ro ib io pb po,
  security_level lam -> (1 <= depth <= 24)%N -> byte_string root (lam / 8) -> byte_string iv 16 ->
  loaded m -> laid_out m c -> stands m rb ro root -> stands m ib io iv -> (last_global < ib)%positive -> ~ In ib (array c :: members c) -> parameters m pb po lam ->
  exists v m' h k com sd, returns f_vector_commitment [VPtr rb ro; VPtr ib io; VPtr pb po; VInt (Z.of_N lam); VPtr (array c) (index c); VInt (Z.of_N depth)] m v m' /\
    member_blocks m' c h k com sd /\ NoDup [h; k; com; sd] /\ (forall b, In b [h; k; com; sd] -> (mnext m <= b < mnext m')%positive) /\
    commitment m' h k com sd lam depth root iv /\ unchanged m m' (fun b _ => In b (members c)).
Proof.
  intros lam d root iv m c rb ro ib io pb po L D [LR BR] [LI BI] LD LO SR SI GI NI PM.
  assert (HL := level_lamb lam L). assert (IN : inputs lam root iv d) by (unfold inputs; splits; assumption || apply D).
  assert (G : forall b, In b (array c :: members c) -> (last_global < b)%positive) by apply LO.
  assert (Z1 : forall b, In b (vblocks (vplace c)) -> (12 < b)%positive /\ b <> ib) by (rewrite vplace_blocks; intros b I; split; [apply G, I|intros ->; exact (NI I)]).
  assert (Z2 : ib <> 1%positive) by (intros ->; unfold last_global in GI; lia).
  destruct (calls_returns _ _ _ _ (ref_vector_commitment lam root iv d m (vplace c) rb ro ib io pb po IN (laid_space m c LO) (proj2 (holds_stands _ _ _ _) SR) (proj2 (holds_stands _ _ _ _) SI)
    (parameters_parm _ _ _ _ L PM) (loaded_rconst m LD) (loaded_kconst m LD) (loaded_separator m 8 0 LD ltac:(vm_compute; auto 20)) (loaded_separator m 9 1 LD ltac:(vm_compute; auto 20)) Z1 Z2))
    as (v & m' & R & F & h & k & com & sd & ND & FR & VT & NO & LV & HH).
  destruct (count_b d D) as [C1 C2].
  exists v, m', h, k, com, sd. split; [exact R|]. split; [|split; [exact ND|split; [exact FR|split; [|]]]].
  - destruct VT as ([_ V0] & [_ V1] & [_ V2] & [_ V3]). unfold vplace in V0, V1, V2, V3. cbn [vp Z.eqb Pos.eqb] in V0, V1, V2, V3. unfold member_blocks; splits; apply to_points; assumption.
  - split; [|split].
    + intros l p Hl Hp. unfold entry, grown. apply holds_stands. rewrite <- (VcProof.ggm_flat_bfs lam) by (exact HL || exact Hp || exact LI || exact BI). rewrite N2Z.inj_mul. apply NO. apply N2Z.inj_lt.
      assert (B := VcProof.bfs_bound l p d). unfold count. apply B; [lia|exact Hp].
    + intros j Hj. destruct (LV j ltac:(lia)) as [A B]. unfold entry. rewrite !N2Z.inj_mul. split; apply holds_stands; assumption.
    + apply holds_stands. unfold each_leaf, grown. rewrite map_map, <- flat_map_concat_map. unfold coms, comof, leaf in HH. replace (Z.to_nat (ofN (2 ^ d))) with (N.to_nat (2 ^ d)) in HH by lia. exact HH.
  - eapply frame_unchanged; [exact F|]. intros b q I. exact I.
Qed.

(** ** Opening *)
Lemma bfs_inv i d : (i < count d)%N -> exists l p, (l <= d)%N /\ (p < 2 ^ l)%N /\ i = bfs l p /\ l = N.log2 (i + 1) /\ p = (i + 1 - 2 ^ N.log2 (i + 1))%N.
Proof.
  unfold count. intros H. exists (N.log2 (i + 1)), (i + 1 - 2 ^ N.log2 (i + 1))%N. assert (S := N.log2_spec (i + 1) ltac:(lia)). rewrite N.pow_succ_r' in S.
  assert (Q : (N.log2 (i + 1) < d + 1)%N) by (apply N.log2_lt_pow2; lia). unfold bfs. splits; lia.
Qed.
Lemma bfs_log l p : (p < 2 ^ l)%N -> N.log2 (bfs l p + 1) = l /\ (bfs l p + 1 - 2 ^ N.log2 (bfs l p + 1))%N = p.
Proof.
  intros H. assert (P : (2 ^ l <> 0)%N) by (apply N.pow_nonzero; lia). assert (E : N.log2 (bfs l p + 1) = l) by (unfold bfs; apply N.log2_unique; [lia|rewrite N.pow_succ_r'; lia]).
  rewrite E. unfold bfs. lia.
Qed.

Lemma open_returns : forall lam depth leaf node com m kb cb bb bo ob oo jb jo,
  security_level lam -> (1 <= depth <= 24)%N -> (leaf < 2 ^ depth)%N ->
  tree m kb lam depth node -> (forall level pos, N.of_nat (length (node level pos)) = (lam / 8)%N) ->
  entry m cb (lam / 8 * 2) leaf com -> N.of_nat (length com) = (lam / 8 * 2)%N ->
  stands m bb bo (bits_of leaf depth) -> room m ob oo (depth * (lam / 8)) -> room m jb jo (lam / 8 * 2) ->
  disjoint ob oo (depth * (lam / 8)) jb jo (lam / 8 * 2) -> ob <> kb -> ob <> cb -> ob <> bb ->
  exists v m', returns f_vector_open [VPtr kb 0; VPtr cb 0; VPtr bb bo; VPtr ob oo; VPtr jb jo; VInt (Z.of_N depth); VInt (Z.of_N (lam / 8))] m v m' /\
    (forall level, (level < depth)%N -> stands m' ob (oo + Z.of_N (level * (lam / 8))) (node (level + 1)%N (sibling (ancestor depth leaf (level + 1))))) /\
    stands m' jb jo com /\ unchanged m m' (fun b q => within ob oo (depth * (lam / 8)) b q \/ within jb jo (lam / 8 * 2) b q).
Proof.
  intros lam d x node com m kb cb bb bo ob oo jb jo L D X T TL HC LC HB RO RJ DJ N1 N2 N3. assert (HL := level_lamb lam L). destruct (lamb_b lam HL) as [B1 B2].
  assert (B0 : (lam / 8 <> 0)%N) by (destruct L as [->|[->| ->]]; vm_compute; discriminate).
  assert (Y1 : forall i, (i < count d)%N -> holds m kb (ofN i * ofN (lam / 8)) (node (N.log2 (i + 1)) (i + 1 - 2 ^ N.log2 (i + 1))%N) /\ lenN (node (N.log2 (i + 1)) (i + 1 - 2 ^ N.log2 (i + 1))%N) = (lam / 8)%N).
  { intros i Hi. split; [|apply TL]. destruct (bfs_inv i d Hi) as (l & p & Hl & Hp & E & <- & <-). assert (Y := T l p Hl Hp). unfold entry in Y. rewrite N2Z.inj_mul, <- E in Y. apply holds_stands, Y. }
  assert (Y2 : holds m cb (ofN x * (ofN (lam / 8) * 2)) com) by (unfold entry in HC; rewrite !N2Z.inj_mul in HC; apply holds_stands; exact HC).
  assert (Y3 := proj2 (holds_stands _ _ _ _) HB).
  assert (Y4 := proj1 (room_inb _ _ _ _) RO). rewrite N2Z.inj_mul in Y4.
  assert (Y5 := proj1 (room_inb _ _ _ _) RJ). rewrite N2Z.inj_mul in Y5.
  assert (W1 : (0 < d * (lam / 8))%N) by (apply N.mul_pos_pos; [clear - D|clear - B0]; lia). assert (W2 : (0 < lam / 8 * 2)%N) by (clear - B0; lia).
  assert (Y6 := sep_disjoint _ _ _ _ _ _ W1 W2 DJ). rewrite !N2Z.inj_mul in Y6.
  destruct (calls_returns _ _ _ _ (ref_vector_open d x lam (fun i => node (N.log2 (i + 1)) (i + 1 - 2 ^ N.log2 (i + 1))%N) com m kb cb bb bo ob oo jb jo HL D X Y1 Y2 LC Y3 Y4 Y5 Y6 N1 N2 N3)) as (v & m' & R & F & A & C).
  exists v, m'. split; [exact R|]. split; [|split; [apply holds_stands, C|]].
  - intros l Hl. destruct (anc_step d x l Hl X ltac:(lia)) as (_ & _ & _ & _ & SB & _). assert (Y := A l Hl). cbn beta in Y. destruct (bfs_log _ _ SB) as [E1 E2]. rewrite E2, E1 in Y. rewrite N2Z.inj_mul. apply holds_stands, Y.
  - eapply frame_unchanged; [exact F|]. intros b q [I|I]; [left|right]; unfold within; rewrite ?N2Z.inj_mul; exact I.
Qed.

(** ** For the cases *)
Lemma grown_length lam root iv : security_level lam -> byte_string root (lam / 8) -> byte_string iv 16 -> forall level pos, N.of_nat (length (grown lam root iv level pos)) = (lam / 8)%N.
Proof.
  intros L [LR BR] [LI BI] l p. unfold grown. assert (HL := level_lamb lam L). eapply (VcProof.ggm_ok lam); (exact HL || exact LI || exact BI || exact (conj LR BR)).
Qed.
Lemma leaf_com_length lam leaf iv : N.of_nat (length (leaf_com shake lam leaf iv)) = (lam / 8 * 2)%N.
Proof. unfold leaf_com, H0. rewrite skipn_length. destruct (Proof.ShakeRun.shake_sized (shake_of lam) (leaf ++ iv ++ [0%N]) (lam / 8 * 3)%N) as [-> _]. lia. Qed.
