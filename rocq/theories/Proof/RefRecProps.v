(** The translated reconstruction of a vector commitment, in terms of what stands in memory. *)
From Coq Require Import ZArith NArith List Bool FMapPositive Lia ZifyBool ZifyNat ZifyN.
From Verif Require Import Model.Base Proof.BaseProof Spec.VcSpec Spec.KeccakSpec.
From Verif Require Proof.VcProof Proof.ShakeRun Proof.RefOwf.
From Verif Require Import Model.CtLang Model.CtNames Model.CtProgram Spec.RefSpec Spec.RefVcSpec Spec.RefRecSpec Proof.RefLogic Proof.RefTac Proof.RefMem Proof.RefProps Proof.RefSponge Proof.RefShakeProps Proof.RefFresh Proof.RefTree Proof.RefTree2 Proof.RefLeaf Proof.RefVc Proof.RefOpen Proof.RefVcProps Proof.RefRec Proof.RefRec2 Proof.RefRec3.
Import ListNotations.
Local Open Scope Z_scope.

Lemma rtree_rebuilt lam iv path d x l p : VcProof.rtree lam iv path d x l p = rebuilt lam iv path d x l p.
Proof. revert p. induction l as [|l IH]; intros p; [reflexivity|]. cbn [VcProof.rtree rebuilt]. rewrite IH. reflexivity. Qed.
Lemma vto_points m c f b t : (f = 0 /\ b = member_h c) \/ (f = 1 /\ b = member_k c) \/ (f = 2 /\ b = member_com c) \/ (f = 3 /\ b = member_sd c) -> laid_out m c -> points m b 0 t 0 -> vto m (vplace c) f (VPtr t 0).
Proof.
  intros C (ND & G & P0 & P1 & P2 & P3 & R) P. rewrite <- (Z.add_0_r (index c * 4)) in P0. apply points_ptr in P, P0, P1, P2, P3.
  destruct C as [(-> & ->)|[(-> & ->)|[(-> & ->)|(-> & ->)]]]; (split; [assumption|exact P]).
Qed.

Lemma reconstruction_returns : forall lam depth leaf iv path com m c h k cb sd ib io ob oo jb jo bb bo,
  security_level lam -> (1 <= depth <= 24)%N -> (leaf < 2 ^ depth)%N -> byte_string iv 16 -> byte_string path (lam / 8 * depth) -> byte_string com (lam / 8 * 2) ->
  loaded m -> buffers m c h k cb sd lam depth [ib; ob; jb; bb] -> (last_global < ib)%positive ->
  stands m ib io iv -> stands m ob oo path -> stands m jb jo com -> stands m bb bo (bits_of leaf depth) ->
  exists v m', returns f_vector_reconstruction [VPtr ib io; VPtr ob oo; VPtr jb jo; VPtr bb bo; VInt (Z.of_N lam); VInt (Z.of_N depth); VPtr (array c) (index c)] m v m' /\
    (forall level pos, (1 <= level <= depth)%N -> (pos < 2 ^ level)%N -> entry m' k (lam / 8) (bfs level pos) (node_written lam iv path depth leaf level pos)) /\
    (forall j, (j < 2 ^ depth)%N -> j <> leaf -> entry m' sd (lam / 8) j (leaf_seed shake lam (rebuilt lam iv path depth leaf (N.to_nat depth) j) iv)) /\
    (forall j, (j < 2 ^ depth)%N -> entry m' cb (lam / 8 * 2) j (rebuilt_com lam iv path com depth leaf j)) /\
    stands m' h 0 (VcSpec.H1 shake lam (concat (map (rebuilt_com lam iv path com depth leaf) (each_leaf depth)))) /\
    unchanged m m' (buffer_bytes h k cb sd lam depth).
Proof.
  intros lam d x iv path com m c h k cb sd ib io ob oo jb jo bb bo L D X [LI BI] [LP BP] [LC BC] LD (LO & (M0 & M1 & M2 & M3) & ND & SB & RH & RK & RC & RS) GI SI SO SJ SBt.
  assert (HL := level_lamb lam L). assert (IN : rinputs lam iv path d x) by (unfold rinputs; splits; try assumption; apply D). destruct (count_b d D) as [C1 C2].
  assert (Y1 : comj_ok lam com) by (split; assumption).
  assert (Y2 : rsetting lam iv path com d x (vplace c) h k cb sd ib ob jb bb io oo jo bo m).
  { apply room_inb in RH, RK, RC, RS. rewrite N2Z.inj_mul in RH, RK, RS. rewrite N2Z.inj_mul, (N2Z.inj_mul (lam / 8)) in RC. unfold rsetting. split; [|split; [|split]].
    - splits; (eapply vto_points; [|exact LO|eassumption]); auto.
    - splits; [exact RH|exact RK|exact RC|exact RS].
    - splits; apply holds_stands; assumption.
    - splits; [apply loaded_rconst; exact LD|apply loaded_kconst; exact LD|apply (loaded_separator m 8 0 LD); vm_compute; auto 20|apply (loaded_separator m 9 1 LD); vm_compute; auto 20]. }
  assert (Y3 : forall b, In b [h; k; cb; sd] -> ~ In b (others (vplace c) ib ob jb bb)).
  { intros b I J. destruct (SB b I) as (G & A & B). unfold last_global in G. change (others (vplace c) ib ob jb bb) with ((array c :: members c) ++ [ib; ob; jb; bb] ++ [1; 8; 9; 12]%positive) in J.
    apply in_app_or in J. destruct J as [J|J]; [exact (A J)|]. apply in_app_or in J. destruct J as [J|J]; [exact (B J)|]. cbn [In] in J. clear - J G. lia. }
  assert (Y4 : ib <> 1%positive) by (intros ->; unfold last_global in GI; lia).
  destruct (calls_returns _ _ _ _ (ref_vector_reconstruction lam iv path com d x (vplace c) h k cb sd ib ob jb bb io oo jo bo m IN Y1 Y2 ND Y3 Y4)) as (v & m' & R & F & KN & LV & HH).
  assert (EC : forall j, acom lam iv path com d x j = rebuilt_com lam iv path com d x j).
  { intros j. unfold acom, rebuilt_com, RefRec2.rcom, rleaf, rnode. rewrite rtree_rebuilt. reflexivity. }
  exists v, m'. split; [exact R|]. split; [|split; [|split; [|split]]].
  - intros l p Hl Hp. unfold entry. rewrite N2Z.inj_mul. apply holds_stands. assert (Y := KN l p ltac:(lia) Hp). unfold rslot, rnode in Y. rewrite rtree_rebuilt in Y. exact Y.
  - intros j Hj NE. unfold entry. rewrite N2Z.inj_mul. apply holds_stands. assert (Y := proj2 (LV j Hj) NE). unfold RefRec2.rseed, rleaf, rnode in Y. rewrite rtree_rebuilt in Y. exact Y.
  - intros j Hj. unfold entry. rewrite !N2Z.inj_mul. apply holds_stands. rewrite <- EC. exact (proj1 (LV j Hj)).
  - apply holds_stands. unfold each_leaf. rewrite map_map, <- flat_map_concat_map. unfold rcoms in HH. erewrite flat_map_ext; [exact HH|]. intros j. symmetry. apply EC.
  - eapply frame_unchanged; [exact F|]. unfold outs, buffer_bytes, within. rewrite !N2Z.inj_mul. change (ofN 2) with 2. fold (count d). intros b q [I|[[I|I]|I]]; [right; left|right; right; right|right; right; left|left]; exact I.
Qed.

(** ** With the opening of a commitment *)
Lemma rebuilt_grown lam root iv path d x : (x < 2 ^ d)%N -> (forall l, (l < d)%N -> path_node lam path l = grown lam root iv (l + 1) (sibling (ancestor d x (l + 1)))) ->
  forall l p, (N.of_nat l <= d)%N -> (p < 2 ^ N.of_nat l)%N -> p <> ancestor d x (N.of_nat l) -> rebuilt lam iv path d x l p = grown lam root iv (N.of_nat l) p.
Proof.
  intros X P. induction l as [|l IH]; intros p Hl Hp NE.
  - exfalso. apply NE. rewrite VcProof.ancestor_0 by exact X. change (2 ^ N.of_nat 0)%N with 1%N in Hp. lia.
  - replace (N.of_nat (S l)) with (N.of_nat l + 1)%N in * by lia. cbn [rebuilt]. assert (H := VcProof.ancestor_half d x (N.of_nat l) ltac:(lia)). rewrite N.pow_add_r in Hp. change (2 ^ 1)%N with 2%N in Hp. destruct (N.eqb_spec (p / 2) (ancestor d x (N.of_nat l))) as [E|E].
    + rewrite P by lia. f_equal. symmetry. apply VcProof.half_sibling; [lia|exact NE].
    + rewrite IH by lia. unfold grown. replace (N.to_nat (N.of_nat l + 1)) with (S (N.to_nat (N.of_nat l))) by lia. reflexivity.
Qed.
Definition opened (lam : N) (root iv : bytes) (d x : N) (k : nat) : bytes := flat_map (fun l => grown lam root iv (N.of_nat l + 1) (sibling (ancestor d x (N.of_nat l + 1)))) (List.seq 0 k).
Lemma opened_S lam root iv d x k : opened lam root iv d x (S k) = opened lam root iv d x k ++ grown lam root iv (N.of_nat k + 1) (sibling (ancestor d x (N.of_nat k + 1))).
Proof. unfold opened. rewrite seq_S, flat_map_app. cbn [flat_map Nat.add]. rewrite app_nil_r. reflexivity. Qed.
Lemma opened_ok lam root iv d x k : security_level lam -> byte_string root (lam / 8) -> byte_string iv 16 -> byte_string (opened lam root iv d x k) (lam / 8 * N.of_nat k).
Proof.
  intros L R I. induction k as [|k [A B]]; [split; [rewrite N.mul_0_r; reflexivity|constructor]|]. rewrite opened_S. 
  assert (Y : VcProof.node_ok lam (grown lam root iv (N.of_nat k + 1) (sibling (ancestor d x (N.of_nat k + 1))))).
  { assert (HL := level_lamb lam L). unfold grown. eapply (VcProof.ggm_ok lam); (exact HL || exact (proj1 I) || exact (proj2 I) || exact (conj (proj1 R) (proj2 R))). }
  destruct Y as [C E]. unfold lenN in C. split.
  - rewrite app_length. lia.
  - apply Forall_app. split; [exact B|exact E].
Qed.
Lemma opened_node lam root iv d x k l : security_level lam -> byte_string root (lam / 8) -> byte_string iv 16 -> (l < N.of_nat k)%N -> path_node lam (opened lam root iv d x k) l = grown lam root iv (l + 1) (sibling (ancestor d x (l + 1))).
Proof.
  intros L R I. induction k as [|k IH]; intros Hl; [lia|]. rewrite opened_S. destruct (opened_ok lam root iv d x k L R I) as [A _]. unfold path_node in *. rewrite skipn_app, firstn_app, skipn_length.
  assert (G := grown_length lam root iv L R I). destruct (N.eq_dec l (N.of_nat k)) as [->|NE].
  - rewrite skipn_all2 by lia. replace (N.to_nat (lam / 8 * N.of_nat k) - length (opened lam root iv d x k))%nat with 0%nat by lia. cbn [skipn]. rewrite firstn_nil. cbn [app]. apply firstn_all2. specialize (G (N.of_nat k + 1)%N (sibling (ancestor d x (N.of_nat k + 1)))). lia.
  - rewrite IH by lia. assert (B : (lam / 8 * l + lam / 8 <= lam / 8 * N.of_nat k)%N) by nia. match goal with |- _ ++ firstn ?n _ = _ => replace n with 0%nat by lia end. cbn [firstn]. apply app_nil_r.
Qed.
Lemma opened_stands lam root iv d x m b o k : security_level lam -> byte_string root (lam / 8) -> byte_string iv 16 -> room m b o 0 ->
  (forall l, (l < N.of_nat k)%N -> stands m b (o + Z.of_N (l * (lam / 8))) (grown lam root iv (l + 1) (sibling (ancestor d x (l + 1))))) -> stands m b o (opened lam root iv d x k).
Proof.
  intros L R I RM H. apply holds_stands. induction k as [|k IH].
  - split; [apply room_inb in RM; exact RM|]. intros i Hi. change (lenN (opened lam root iv d x 0)) with 0%N in Hi. lia.
  - rewrite opened_S. apply RefOwf.holds_app; [apply IH; intros l Hl; apply H; lia|]. destruct (opened_ok lam root iv d x k L R I) as [A _]. unfold lenN. rewrite A. replace (lam / 8 * N.of_nat k)%N with (N.of_nat k * (lam / 8))%N by lia. apply holds_stands, H. lia.
Qed.

Lemma roundtrip_returns : forall lam depth leaf root iv m c h k cb sd ib io ob oo jb jo bb bo,
  security_level lam -> (1 <= depth <= 24)%N -> (leaf < 2 ^ depth)%N -> byte_string root (lam / 8) -> byte_string iv 16 ->
  loaded m -> buffers m c h k cb sd lam depth [ib; ob; jb; bb] -> (last_global < ib)%positive -> stands m ib io iv -> stands m bb bo (bits_of leaf depth) ->
  (forall level, (level < depth)%N -> stands m ob (oo + Z.of_N (level * (lam / 8))) (grown lam root iv (level + 1) (sibling (ancestor depth leaf (level + 1))))) ->
  stands m jb jo (leaf_com shake lam (grown lam root iv depth leaf) iv) ->
  exists v m', returns f_vector_reconstruction [VPtr ib io; VPtr ob oo; VPtr jb jo; VPtr bb bo; VInt (Z.of_N lam); VInt (Z.of_N depth); VPtr (array c) (index c)] m v m' /\
    (forall j, (j < 2 ^ depth)%N -> j <> leaf -> entry m' sd (lam / 8) j (leaf_seed shake lam (grown lam root iv depth j) iv)) /\
    stands m' h 0 (VcSpec.H1 shake lam (concat (map (fun j => leaf_com shake lam (grown lam root iv depth j) iv) (each_leaf depth)))) /\
    unchanged m m' (buffer_bytes h k cb sd lam depth).
Proof.
  intros lam d x root iv m c h k cb sd ib io ob oo jb jo bb bo L D X R I LD BU GI SI SBt SO SJ.
  assert (P := opened_ok lam root iv d x (N.to_nat d) L R I). rewrite N2Nat.id in P.
  assert (RM : room m ob oo 0).
  { apply room_inb. assert (Y := SO 0%N ltac:(lia)). apply holds_stands in Y. apply holds_inb in Y. eapply inb_sub; [exact Y|lia|lia|lia]. }
  assert (SP : stands m ob oo (opened lam root iv d x (N.to_nat d))) by (apply opened_stands; try assumption; intros l Hl; apply SO; lia).
  assert (BC : byte_string (leaf_com shake lam (grown lam root iv d x) iv) (lam / 8 * 2)) by (split; [apply leaf_com_length|apply out_ok]).
  destruct (reconstruction_returns lam d x iv _ _ m c h k cb sd ib io ob oo jb jo bb bo L D X I P BC LD BU GI SI SP SJ SBt) as (v & m' & RR & _ & SD & _ & HH & U).
  assert (G : forall j, (j < 2 ^ d)%N -> j <> x -> rebuilt lam iv (opened lam root iv d x (N.to_nat d)) d x (N.to_nat d) j = grown lam root iv d j).
  { intros j Hj NE. assert (Y : forall p, p = N.of_nat (N.to_nat d) -> rebuilt lam iv (opened lam root iv d x (N.to_nat d)) d x (N.to_nat d) j = grown lam root iv p j); [intros p ->|apply Y; lia]. apply rebuilt_grown; rewrite ?N2Nat.id; try assumption; [|lia|rewrite VcProof.ancestor_top; exact NE]. intros l Hl. apply opened_node; try assumption. lia. }
  exists v, m'. split; [exact RR|]. split; [|split; [|exact U]].
  - intros j Hj NE. rewrite <- G by assumption. apply SD; assumption.
  - erewrite map_ext_in; [exact HH|]. intros j Ij. unfold each_leaf in Ij. apply in_map_iff in Ij. destruct Ij as (i & <- & Ii). apply in_seq in Ii. unfold rebuilt_com. destruct (N.eqb_spec (N.of_nat i) x) as [->|NE]; [reflexivity|]. rewrite G by (assumption || lia). reflexivity.
Qed.

(** ** What stays when other places change *)
Lemma loaded_kept m m' S : loaded m -> unchanged m m' S -> (forall b q, S b q -> (last_global < b)%positive) -> loaded m'.
Proof.
  intros L U X g l I. assert (C : forallb (fun '(g, l) => (g <=? last_global)%positive && negb (Nat.eqb (length l) 0)) constants = true) by (vm_compute; reflexivity).
  rewrite forallb_forall in C. specialize (C _ I). cbn beta iota in C. apply andb_prop in C as [C1 C2].
  eapply contents_kept; [exact (L g l I)|intros E; rewrite E in C2; discriminate|exact U|]. intros q _ Y. apply X in Y. apply Pos.leb_le in C1. lia.
Qed.
Lemma buffers_kept m m' S c h k com sd lam d ins : buffers m c h k com sd lam d ins -> unchanged m m' S -> security_level lam -> (forall b q, S b q -> ~ In b (array c :: members c)) -> buffers m' c h k com sd lam d ins.
Proof.
  intros ((A1 & A2 & A3 & A4 & A5 & A6 & A7) & (M0 & M1 & M2 & M3) & ND & SB & RH & RK & RC & RS) U L X.
  assert (Z0 : (lam / 8 <> 0)%N) by (destruct L as [->|[->| ->]]; discriminate). assert (Z1 : (2 ^ d <> 0)%N) by (apply N.pow_nonzero; lia).
  assert (Z2 : (2 ^ (d + 1) - 1 <> 0)%N) by (rewrite N.add_1_r, N.pow_succ_r'; lia).
  assert (Y : forall b q, In b (array c :: members c) -> ~ S b q) by (intros b q I J; exact (X b q J I)).
  split; [|split; [|split; [exact ND|split; [exact SB|]]]].
  - split; [exact A1|]. split; [exact A2|]. repeat (split; [eapply points_kept; [eassumption|exact U|apply Y; left; reflexivity]|]). intros b I. eapply room_kept; [exact (A7 b I)|discriminate|exact U].
  - repeat split; (eapply points_kept; [eassumption|exact U|apply Y; cbn; auto 10]).
  - split; [eapply room_kept; [exact RH|nia|exact U]|]. split; [eapply room_kept; [exact RK|nia|exact U]|]. split; [eapply room_kept; [exact RC|nia|exact U]|]. eapply room_kept; [exact RS|nia|exact U].
Qed.
