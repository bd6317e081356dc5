(** The translated conversion of seeds to columns and decoding of the challenge, in terms of what stands in memory. *)
From Coq Require Import ZArith NArith List Bool FMapPositive Lia ZifyBool ZifyNat ZifyN.
From Verif Require Import Model.Base Proof.BaseProof Spec.VcSpec Spec.VoleSpec.
From Verif Require Proof.PrgProof Proof.VcProof Proof.VoleProof.
From Verif Require Import Model.CtLang Model.CtNames Model.CtProgram Spec.RefSpec Spec.RefVcSpec Spec.RefVoleSpec Proof.RefLogic Proof.RefTac Proof.RefMem Proof.RefProps Proof.RefSponge Proof.RefTree Proof.RefTree2 Proof.RefVcProps Proof.RefConv Proof.RefChal.
Import ListNotations.
Local Open Scope Z_scope.

(** ** Sums *)
Lemma nth_Xs L l i : VoleProof.all_len L l -> nthN (VoleProof.Xs L l) i 0%N = fold_right N.lxor 0%N (map (fun s => nthN s i 0%N) l).
Proof.
  induction 1 as [|x l Hx HL IH]; cbn [VoleProof.Xs fold_right map]; [apply nthN_zeros|]. change (fold_right xor_bytes (Base.zeros L) l) with (VoleProof.Xs L l).
  assert (E := VoleProof.Xs_len L l HL). rewrite nthN_xor by congruence. rewrite IH. reflexivity.
Qed.
Lemma sum_nth n l i : (i < n)%N -> nthN (sum n l) i 0%N = fold_right N.lxor 0%N (map (fun s => nthN s i 0%N) l).
Proof.
  intros H. unfold sum, nthN. rewrite (nth_indep _ 0%N (fold_right N.lxor 0%N (map (fun s => nth 0 s 0%N) l))) by (rewrite map_length, seq_length; lia).
  rewrite (map_nth (fun i => fold_right N.lxor 0%N (map (fun s => nth i s 0%N) l))), seq_nth by lia. reflexivity.
Qed.
Lemma sum_len n l : lenN (sum n l) = n.
Proof. unfold sum, lenN. rewrite map_length, seq_length. lia. Qed.
Lemma Xs_sum L l : VoleProof.all_len L l -> VoleProof.Xs L l = sum L l.
Proof.
  intros H. apply (list_ext 0%N); [rewrite sum_len; apply VoleProof.Xs_len, H|]. intros i Hi. rewrite (VoleProof.Xs_len L l H) in Hi. rewrite nth_Xs by exact H. rewrite sum_nth by exact Hi. reflexivity.
Qed.
Lemma Nseq_map a n : Nseq a n = map (fun i => (a + N.of_nat i)%N) (List.seq 0 n).
Proof.
  revert a. induction n as [|n IH]; intros a; [reflexivity|]. cbn [Nseq List.seq map]. rewrite IH, <- seq_shift, map_map. f_equal; [lia|]. apply map_ext. intros i. lia.
Qed.
Lemma each_leaf_Nrange d : each_leaf d = Nrange (2 ^ d).
Proof. unfold each_leaf, Nrange. rewrite Nseq_map. apply map_ext. intros i. lia. Qed.
Lemma colsum_sum L d r : (forall x, (x < 2 ^ d)%N -> lenN (r x) = L) -> VoleProof.colsum L d r = sum L (map r (each_leaf d)).
Proof. intros H. unfold VoleProof.colsum. rewrite Xs_sum by (apply VoleProof.all_len_tab; exact H). rewrite each_leaf_Nrange. reflexivity. Qed.
Lemma col_sum L d r k : (forall x, (x < 2 ^ d)%N -> lenN (r x) = L) -> VoleProof.col L d r k = sum L (map r (filter (fun x => N.testbit x k) (each_leaf d))).
Proof.
  intros H. unfold VoleProof.col. rewrite Xs_sum by (apply VoleProof.all_len_tab; intros x Hx; apply VoleProof.sel_len, H, Hx). rewrite each_leaf_Nrange. unfold tab.
  unfold sum. apply map_ext. intros i. induction (Nrange (2 ^ d)) as [|x l IH]; [reflexivity|]. cbn [map fold_right filter]. rewrite IH. destruct (N.testbit x k); cbn [VoleProof.sel map fold_right]; [reflexivity|].
  assert (E : nth i (Base.zeros L) 0%N = 0%N) by (assert (Y := nthN_zeros L (N.of_nat i)); unfold nthN in Y; rewrite Nat2N.id in Y; exact Y). rewrite E. apply N.lxor_0_l.
Qed.

(** ** In memory *)
Lemma convert_returns : forall lam n depth iv seed hidden u m ib io sb so vb vo,
  security_level lam -> (1 <= depth <= 24)%N -> (1 <= n)%N -> (2 * 2 ^ depth * n < 2 ^ 32)%N -> byte_string iv 16 -> loaded m -> stands m ib io iv ->
  (forall leaf, (leaf < 2 ^ depth)%N -> hidden = false \/ leaf <> 0%N -> stands m sb (so + Z.of_N (leaf * (lam / 8))) (seed leaf) /\ byte_string (seed leaf) (lam / 8)) ->
  room m vb vo (depth * n) -> match u with Some (ub, uo) => room m ub uo n /\ disjoint ub uo n vb vo (depth * n) | None => True end ->
  exists v m', returns f_ConvertToVole [VPtr ib io; VPtr sb so; VInt (if hidden then 1 else 0); VInt (Z.of_N lam); VInt (Z.of_N depth); VInt (Z.of_N n);
                                        match u with Some (ub, uo) => VPtr ub uo | None => VNull end; VPtr vb vo] m v m' /\
    (forall k, (k < depth)%N -> stands m' vb (vo + Z.of_N (k * n)) (column lam iv n depth seed k)) /\
    (forall ub uo, u = Some (ub, uo) -> hidden = false -> stands m' ub uo (all_masks lam iv n depth seed)) /\
    unchanged m m' (fun b q => within vb vo (depth * n) b q \/ (exists ub uo, u = Some (ub, uo) /\ hidden = false /\ within ub uo n b q)).
Proof.
  intros lam n d iv seed hid u m ib io sb so vb vo L D N1 NB [LI BI] LD SI SS RV RU. assert (HL := level_lamb lam L).
  assert (SZ : sized n d) by (unfold sized; splits; assumption || apply D).
  assert (HS : forall x, (x < 2 ^ d)%N -> (hid = true -> x <> 0%N) -> holds m sb (so + ofN x * ofN (lam / 8)) (seed x) /\ VcProof.node_ok lam (seed x)).
  { intros x Hx NX. destruct (SS x Hx) as [A [B C]]; [destruct hid; [right; apply NX; reflexivity|left; reflexivity]|]. split; [apply holds_stands; rewrite <- N2Z.inj_mul; exact A|split; assumption]. }
  assert (RV' := RV). apply room_inb in RV'. rewrite N2Z.inj_mul in RV'.
  assert (HU : match u with Some (ub, uo) => inb m ub uo (ofN n) /\ sep ub uo (ofN n) vb vo (ofN d * ofN n) | None => True end).
  { destruct u as [[ub uo]|]; [|exact Logic.I]. destruct RU as [A B]. split; [apply room_inb; exact A|]. rewrite <- N2Z.inj_mul. apply sep_disjoint; [lia|nia|exact B]. }
  apply holds_stands in SI. assert (EB : VInt (if hid then 1 else 0) = VInt (b2z hid)) by (destruct hid; reflexivity). rewrite EB.
  destruct (calls_returns _ _ _ _ (ref_ConvertToVole lam n d iv seed hid u m ib io sb so vb vo HL SZ SI LI BI (loaded_rconst m LD) HS RV' HU)) as (v & m' & R & F & C & U).
  assert (LR : forall x, lenN (rowb lam n iv hid seed x) = n) by (intros x; unfold rowb; destruct (_ && _); [apply lenN_zeros|apply PrgProof.stream_len]).
  exists v, m'. split; [exact R|]. split; [|split].
  - intros k Hk. apply holds_stands. rewrite N2Z.inj_mul. assert (Y := C k Hk). rewrite col_sum in Y by (intros x _; apply LR). erewrite map_ext_in in Y; [exact Y|].
    intros x Ix. apply filter_In in Ix. destruct Ix as [_ Ix]. unfold rowb, mask_of. rewrite VcProof.ctr_bytes_stream. destruct (N.eqb_spec x 0) as [->|NE]; [discriminate|]. rewrite andb_false_r. reflexivity.
  - intros ub uo -> E. cbn beta iota in U. apply holds_stands. assert (Y := U E). rewrite colsum_sum in Y by (intros x _; apply LR). erewrite map_ext in Y; [exact Y|]. intros x. unfold rowb, mask_of. rewrite VcProof.ctr_bytes_stream, E. reflexivity.
  - eapply frame_unchanged; [exact F|]. intros b q [I|I]; [left; apply (proj1 (within_at vb vo (d * n) b q)); rewrite N2Z.inj_mul; exact I|right]. destruct u as [[ub uo]|]; [|contradiction]. exists ub, uo. destruct I as [I1 I2]. split; [reflexivity|]. split; [exact I1|]. exact (proj1 (within_at ub uo n b q) I2).
Qed.
Lemma chunk_bits chal lo k : chunk chal lo k = challenge_bits chal lo k.
Proof. unfold chunk, challenge_bits, tab, Nrange. rewrite Nseq_map, map_map. apply map_ext. intros j. do 3 f_equal. Qed.
Lemma decode_returns : forall chal tree k0 t0 k1 t1 m cb co ob oo,
  let first := bits_before k0 t0 k1 tree in let n := bits_taken k0 t0 k1 tree in
  (tree < t0 + t1)%N -> (t0 + t1 < 2 ^ 31)%N -> (k0 < 2 ^ 31)%N -> (1 <= k0)%N -> (k1 < 2 ^ 31)%N -> (1 <= k1)%N -> (first + n < 2 ^ 31)%N -> (first + n <= 8 * N.of_nat (length chal))%N ->
  stands m cb co chal -> room m ob oo n -> disjoint ob oo n cb co (N.of_nat (length chal)) ->
  exists m', returns f_ChalDec [VPtr cb co; VInt (Z.of_N tree); VInt (Z.of_N k0); VInt (Z.of_N t0); VInt (Z.of_N k1); VInt (Z.of_N t1); VPtr ob oo] m (VInt 1) m' /\
    stands m' ob oo (challenge_bits chal first n) /\ unchanged m m' (within ob oo n).
Proof.
  intros chal i k0 t0 k1 t1 m cb co ob oo lo n HI HT K0 Z0 K1 Z1 HB HC SC RO DJ. apply holds_stands in SC. apply room_inb in RO.
  assert (NZ : (1 <= n)%N) by (unfold n, bits_taken; destruct (i <? t0)%N; assumption).
  assert (LC : (1 <= lenN chal)%N) by (unfold lenN; lia).
  assert (SP : sep ob oo (ofN n) cb co (ofN (lenN chal))) by (apply sep_disjoint; [lia|lia|exact DJ]).
  destruct (calls_returns _ _ _ _ (ref_ChalDec m chal cb co i k0 t0 k1 t1 ob oo HI HT HC HB K0 K1 SC RO SP)) as (v & m' & R & -> & F & H).
  exists m'. split; [exact R|]. split; [apply holds_stands; rewrite <- chunk_bits; exact H|]. eapply frame_unchanged; [exact F|]. intros b q I. exact (proj1 (within_at ob oo n b q) I).
Qed.
Lemma decode_out_returns : forall tree k0 t0 k1 t1 m v w, (t0 + t1 <= tree)%N -> (t0 + t1 < 2 ^ 31)%N ->
  returns f_ChalDec [v; VInt (Z.of_N tree); VInt (Z.of_N k0); VInt (Z.of_N t0); VInt (Z.of_N k1); VInt (Z.of_N t1); w] m (VInt 0) m.
Proof.
  intros i k0 t0 k1 t1 m v w HI HT. destruct (calls_returns _ _ _ _ (ref_ChalDec_out m v i k0 t0 k1 t1 w HI HT)) as (x & m' & R & -> & ->). exact R.
Qed.
