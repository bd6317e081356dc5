(** The translated conversion of seeds to columns: vole.c, ConvertToVole. *)
From Coq Require Import ZArith NArith List Bool FMapPositive Lia ZifyBool ZifyNat ZifyN Permutation.
From Verif Require Import Model.Base Proof.BaseProof Spec.OwfSpec.
From Verif Require Import Proof.PrgProof.
From Verif Require Proof.VcProof Proof.VoleProof Proof.RefWin Proof.RefVoleHash Proof.RefOwf Proof.RefBytes.
From Verif Require Import Model.CtLang Model.CtNames Model.CtVole Model.CtProgram Proof.RefLogic Proof.RefTac Proof.RefMem Proof.RefKeys Proof.RefPrg Proof.RefSnp Proof.RefKeccak Proof.RefSponge Proof.RefFresh Proof.RefTree Proof.RefTree2.
Import ListNotations.
Local Open Scope Z_scope.
Arguments wrap : simpl never.

Lemma code_ConvertToVole : PositiveMap.find f_ConvertToVole code = Some c_ConvertToVole. Proof. vm_compute. reflexivity. Qed.

(** ** Rows *)
Lemma pow_half d j : (j < d)%N -> (2 ^ (d - j) = 2 * 2 ^ (d - (j + 1)))%N.
Proof. intros H. replace (d - j)%N with (N.succ (d - (j + 1))) by lia. apply N.pow_succ_r'. Qed.
Section Rows.
Variables (L d : N) (r : N -> bytes).
Hypothesis HR : forall x, (x < 2 ^ d)%N -> lenN (r x) = L /\ bytes_ok (r x).
Fixpoint rown (j : nat) (i : N) : bytes := match j with O => r i | S j => xor_bytes (rown j (2 * i)) (rown j (2 * i + 1)) end.
Definition row (j i : N) : bytes := rown (N.to_nat j) i.
Lemma row_S j i : row (j + 1) i = xor_bytes (row j (2 * i)) (row j (2 * i + 1)).
Proof using. unfold row. rewrite N2Nat.inj_add, Nat.add_1_r. reflexivity. Qed.
Lemma row_ok : forall j i, (j <= d)%N -> (i < 2 ^ (d - j))%N -> lenN (row j i) = L /\ bytes_ok (row j i).
Proof using HR.
  induction j as [|j IH] using N.peano_ind; intros i Hj Hi.
  - change (row 0 i) with (r i). apply HR. rewrite N.sub_0_r in Hi. exact Hi.
  - rewrite <- N.add_1_r in *. rewrite row_S. assert (P := pow_half d j ltac:(lia)). destruct (IH (2 * i)%N ltac:(lia) ltac:(lia)) as [A1 A2]. destruct (IH (2 * i + 1)%N ltac:(lia) ltac:(lia)) as [B1 B2].
    split; [rewrite lenN_xor by congruence; exact A1|apply bytes_ok_xor; assumption].
Qed.
(** the sum of the first odd entries of a row *)
Definition acc (j n : N) : bytes := VoleProof.Xs L (tab n (fun i => row j (2 * i + 1))).
Lemma acc_0 j : acc j 0 = Base.zeros L.
Proof using. reflexivity. Qed.
Lemma acc_S j n : acc j (n + 1) = xor_bytes (acc j n) (row j (2 * n + 1)).
Proof using.
  unfold acc. rewrite tab_succ. rewrite (VoleProof.Xs_perm L _ _ (Permutation_sym (Permutation_cons_append _ _))). cbn [VoleProof.Xs fold_right]. apply xor_bytes_comm.
Qed.
Lemma acc_ok j n : (j < d)%N -> (n <= 2 ^ (d - (j + 1)))%N -> lenN (acc j n) = L /\ bytes_ok (acc j n).
Proof using HR.
  intros Hj. assert (P := pow_half d j Hj). induction n as [|n IH] using N.peano_ind; intros Hn; [rewrite acc_0; split; [apply lenN_zeros|apply bytes_ok_zeros]|].
  rewrite <- N.add_1_r in *. rewrite acc_S. destruct (IH ltac:(lia)) as [A1 A2]. destruct (row_ok j (2 * n + 1)%N ltac:(lia) ltac:(lia)) as [B1 B2].
  split; [rewrite lenN_xor by congruence; exact A1|apply bytes_ok_xor; assumption].
Qed.
Lemma row_cols : forall j k, (j + k < d)%N -> VoleProof.Xs L (tab (2 ^ (d - j)) (fun i => VoleProof.sel L (N.testbit i k) (row j i))) = VoleProof.col L d r (j + k).
Proof using HR.
  induction j as [|j IH] using N.peano_ind; intros k Hk.
  - rewrite N.sub_0_r. reflexivity.
  - rewrite <- N.add_1_r in *. replace (j + 1 + k)%N with (j + (k + 1))%N by lia. rewrite <- IH by lia. assert (P := pow_half d j ltac:(lia)). rewrite P.
    assert (O : forall i, (i < 2 * 2 ^ (d - (j + 1)))%N -> lenN (row j i) = L) by (intros i Hi; apply row_ok; [lia|rewrite P; exact Hi]).
    rewrite (VoleProof.Xs_pairs L _ (fun i => VoleProof.sel L (N.testbit i (k + 1)) (row j i))) by (intros; apply VoleProof.sel_len, O; assumption).
    f_equal. apply tab_ext. intros i Hi. rewrite VoleProof.testbit_2i, VoleProof.testbit_2i1, row_S. destruct (N.testbit i k); cbn [VoleProof.sel]; [reflexivity|]. rewrite xor_bytes_zeros_l by apply lenN_zeros. reflexivity.
Qed.
Lemma acc_col j : (j < d)%N -> acc j (2 ^ (d - (j + 1))) = VoleProof.col L d r j.
Proof using HR.
  intros Hj. replace j with (j + 0)%N at 3 by lia. rewrite <- row_cols by lia. assert (P := pow_half d j ltac:(lia)). rewrite P.
  assert (O : forall i, (i < 2 * 2 ^ (d - (j + 1)))%N -> lenN (row j i) = L) by (intros i Hi; apply row_ok; [lia|rewrite P; exact Hi]).
  rewrite (VoleProof.Xs_pairs L _ (fun i => VoleProof.sel L (N.testbit i 0) (row j i))) by (intros; apply VoleProof.sel_len, O; assumption).
  unfold acc. f_equal. apply tab_ext. intros i Hi. rewrite N.testbit_even_0, N.testbit_odd_0. cbn [VoleProof.sel]. rewrite xor_bytes_zeros_l; [reflexivity|]. apply O. lia.
Qed.
Lemma row_sum : forall j, (j <= d)%N -> VoleProof.Xs L (tab (2 ^ (d - j)) (row j)) = VoleProof.colsum L d r.
Proof using HR.
  induction j as [|j IH] using N.peano_ind; intros Hj; [rewrite N.sub_0_r; reflexivity|].
  rewrite <- N.add_1_r in *. rewrite <- IH by lia. assert (P := pow_half d j ltac:(lia)). rewrite P.
  rewrite (VoleProof.Xs_pairs L _ (row j)) by (intros i Hi; apply row_ok; [lia|rewrite P; exact Hi]). f_equal. apply tab_ext. intros i Hi. apply row_S.
Qed.
Lemma row_top : row d 0 = VoleProof.colsum L d r.
Proof using HR.
  rewrite <- (row_sum d) by lia. rewrite N.sub_diag. change (VoleProof.Xs L (tab (2 ^ 0) (row d))) with (xor_bytes (row d 0) (Base.zeros L)).
  symmetry. apply xor_bytes_zeros_r. apply row_ok; [lia|]. rewrite N.sub_diag. reflexivity.
Qed.
End Rows.

(** ** Sums of byte strings in memory *)
Lemma ref_xor m b1 o1 x b2 o2 y b3 o3 n : holds m b1 o1 x -> holds m b2 o2 y -> lenN x = n -> lenN y = n -> bytes_ok x -> bytes_ok y -> inb m b3 o3 (ofN n) -> (n < 2 ^ 32)%N ->
  (b1 = b3 /\ o1 = o3 \/ sep b1 o1 (ofN n) b3 o3 (ofN n)) -> (b2 = b3 /\ o2 = o3 \/ sep b2 o2 (ofN n) b3 o3 (ofN n)) ->
  calls code f_xor_u8_array [VPtr b1 o1; VPtr b2 o2; VPtr b3 o3; VInt (ofN n)] m (fun _ m' => frame m m' (at_ b3 o3 (ofN n)) /\ holds m' b3 o3 (xor_bytes x y)).
Proof.
  intros HX HY LX LY BX BY I3 N3 S1 S2. assert (I1 := holds_inb _ _ _ _ HX). assert (I2 := holds_inb _ _ _ _ HY). rewrite LX in I1. rewrite LY in I2.
  eapply calls_weak; [apply (ref_xor_u8_array m b1 o1 b2 o2 b3 o3 (ofN n)); try assumption; [lia| |]|].
  - intros i Hi. eapply holds_isbyte; [exact HX|exact BX|lia].
  - intros i Hi. eapply holds_isbyte; [exact HY|exact BY|lia].
  - intros v m' (F & K). split; [exact F|]. split; [rewrite lenN_xor by congruence; rewrite LX; eapply inb_frame; eassumption|].
    intros i Hi. rewrite lenN_xor in Hi by congruence. rewrite K by lia. rewrite (proj2 HX), (proj2 HY) by lia. rewrite nthN_xor by lia. rewrite RefBytes.ofN_lxor. reflexivity.
Qed.
Lemma holds_zeros m b o n p k : holds m b o (Base.zeros n) -> (p + k <= n)%N -> holds m b (o + ofN p) (Base.zeros k).
Proof.
  intros [I H] B. rewrite lenN_zeros in *. split; [rewrite lenN_zeros; eapply inb_sub; [exact I|lia..]|]. rewrite lenN_zeros. intros i Hi.
  replace (o + ofN p + ofN i) with (o + ofN (p + i)) by lia. rewrite H by lia. rewrite !nthN_zeros. reflexivity.
Qed.

(** ** The loops *)
Section Convert.
Variables (L d : N) (r : N -> bytes) (rb vb : positive) (vo : Z) (v3 v7 : value).
Notation Lz := (ofN L).
Notation Nz := (ofN (2 ^ d)).
Definition sized : Prop := (1 <= d <= 24)%N /\ (1 <= L)%N /\ (2 * 2 ^ d * L < 2 ^ 32)%N.
Definition R (p c : N) : Z := (ofN p * Nz + ofN c) * Lz.
Lemma sized_b : sized -> 2 <= Nz <= 16777216 /\ 1 <= Lz < 2 ^ 31 /\ 2 * Nz * Lz < 4294967296 /\ ofN d * Lz <= Nz * Lz /\ 0 <= ofN d * Lz.
Proof.
  intros (D & L1 & B). destruct (count_b d D) as [_ C]. assert (P := N.pow_gt_lin_r 2 d ltac:(lia)). assert (B' : 2 * Nz * Lz < 4294967296) by lia. clear B. split; [exact C|]. nia.
Qed.
Lemma R_b p c : sized -> (p <= 1)%N -> (c < 2 ^ d)%N -> 0 <= R p c /\ R p c + Lz <= 2 * Nz * Lz.
Proof. intros S P C. destruct (sized_b S) as (N1 & L1 & _). unfold R. split; [nia|]. replace ((ofN p * Nz + ofN c) * Lz + Lz) with ((ofN p * Nz + ofN c + 1) * Lz) by lia. apply Z.mul_le_mono_nonneg_r; [lia|nia]. Qed.
Lemma R_sep p c p' c' : sized -> (p <= 1)%N -> (c < 2 ^ d)%N -> (p' <= 1)%N -> (c' < 2 ^ d)%N -> p <> p' \/ c <> c' -> R p c + Lz <= R p' c' \/ R p' c' + Lz <= R p c.
Proof.
  intros S P C P' C' NE. destruct (sized_b S) as (N1 & L1 & _). unfold R. set (x := ofN p * Nz + ofN c). set (y := ofN p' * Nz + ofN c').
  assert (X : x <> y) by (unfold x, y; assert (p = 0 \/ p = 1)%N as [->| ->] by lia; assert (p' = 0 \/ p' = 1)%N as [->| ->] by lia; lia). clearbody x y.
  assert (x < y \/ y < x) as [Y|Y] by lia; [left|right]; [replace (x * Lz + Lz) with ((x + 1) * Lz) by lia|replace (y * Lz + Lz) with ((y + 1) * Lz) by lia]; apply Z.mul_le_mono_nonneg_r; lia.
Qed.
Lemma pe_R e m a c p k : sized -> lookup e 6 = VInt Lz -> lookup e 9 = VInt Nz -> lookup e 12 = VPtr rb 0 -> pe e m a (VInt (ofN p)) -> pe e m c (VInt (ofN k)) -> (p <= 1)%N -> (k < 2 ^ d)%N ->
  pe e m (EAt (EVar 12) 1 (EBin OMul u32 (EBin OAdd u32 (EBin OMul u32 a (EVar 9)) c) (EVar 6))) (VPtr rb (R p k)).
Proof.
  intros S E6 E9 E12 A C P K. destruct (sized_b S) as (N1 & L1 & N2 & _). destruct (R_b p k S P K) as [R1 R2]. unfold R in *.
  eapply pe_eq; [eapply pe_at; [apply pe_var, E12|eapply pe_bin; [eapply pe_bin; [eapply pe_bin; [exact A|apply pe_var, E9]|exact C]|apply pe_var, E6]]|].
  simp. rewrite (wrap_u32 (ofN p * Nz)) by nia. rewrite (wrap_u32 (_ + _)) by nia. rewrite wrap_u32 by lia. f_equal. lia.
Qed.
Lemma pe_V e m k : sized -> lookup e 6 = VInt Lz -> lookup e 8 = VPtr vb vo -> lookup e 14 = VInt (ofN k) -> (k < d)%N -> pe e m (EAt (EVar 8) 1 (EBin OMul u32 (EVar 14) (EVar 6))) (VPtr vb (vo + ofN k * Lz)).
Proof.
  intros S E6 E8 E14 K. destruct (sized_b S) as (N1 & L1 & N2 & N3 & N4). assert (ofN k * Lz <= ofN d * Lz) by (apply Z.mul_le_mono_nonneg_r; lia). assert (0 <= ofN k * Lz) by nia.
  eapply pe_eq; [ev|]. simp. rewrite wrap_u32 by lia. f_equal. lia.
Qed.

Definition live (m : mem) (j n : N) : Prop := forall c, (c < n)%N -> holds m rb (R (j mod 2) c) (row r j c).
Definition part (j i k : N) : N := if (k <? j)%N then (2 ^ (d - (k + 1)))%N else if (k =? j)%N then i else 0%N.
Definition cols (m : mem) (j i : N) : Prop := forall k, (k < d)%N -> holds m vb (vo + ofN k * Lz) (acc L r k (part j i k)).
Definition work (b : positive) (o : Z) : Prop := b = rb \/ at_ vb vo (ofN d * Lz) b o.
Definition cvars (e : env) (j : N) : Prop :=
  has e [(3%positive, v3); (5%positive, VInt (ofN d)); (6%positive, VInt Lz); (7%positive, v7); (8%positive, VPtr vb vo); (9%positive, VInt Nz); (12%positive, VPtr rb 0); (14%positive, VInt (ofN j))].
Hypothesis HR : forall x, (x < 2 ^ d)%N -> lenN (r x) = L /\ bytes_ok (r x).
Lemma part_b j i k : (i <= 2 ^ (d - (j + 1)))%N -> (part j i k <= 2 ^ (d - (k + 1)))%N.
Proof. clear HR. intros H. unfold part. destruct (N.ltb_spec k j); [lia|]. destruct (N.eqb_spec k j) as [->|]; lia. Qed.
Lemma cols_next m j : cols m j (2 ^ (d - (j + 1))) -> cols m (j + 1) 0.
Proof.
  clear HR. intros C k Hk. replace (part (j + 1) 0 k) with (part j (2 ^ (d - (j + 1))) k); [apply C, Hk|]. unfold part.
  destruct (N.ltb_spec k j), (N.eqb_spec k j), (N.ltb_spec k (j + 1)), (N.eqb_spec k (j + 1)); try lia. subst. reflexivity.
Qed.
Lemma mod2_b j : (j mod 2 <= 1)%N.
Proof. assert (X := N.mod_lt j 2 ltac:(discriminate)). clear - X. lia. Qed.
Lemma mod2_ne j : (j mod 2 <> (j + 1) mod 2)%N.
Proof. clear. lia. Qed.
Lemma pe_mod2 e m x j : pe e m x (VInt (ofN j)) -> (j < 2 ^ 31)%N -> pe e m (EDiv OMod u32 x (EInt 2)) (VInt (ofN (j mod 2))).
Proof. clear. intros P J. eapply pe_eq; [eapply pe_div; [exact P|ev|lia]|]. unfold u32. rewrite divu by lia. f_equal. lia. Qed.

Definition pair_code : stmt :=
  SCall None f_xor_u8_array [(EAt (EVar 8) 1 (EBin OMul u32 (EVar 14) (EVar 6))); (EAt (EVar 12) 1 (EBin OMul u32 (EBin OAdd u32 (EBin OMul u32 (EDiv OMod u32 (EVar 14) (EInt 2)) (EVar 9)) (EBin OAdd u32 (EBin OMul u32 (EInt 2) (EVar 16)) (EInt 1))) (EVar 6))); (EAt (EVar 8) 1 (EBin OMul u32 (EVar 14) (EVar 6))); (EVar 6)] ;;
  SCall None f_xor_u8_array [(EAt (EVar 12) 1 (EBin OMul u32 (EBin OAdd u32 (EBin OMul u32 (EDiv OMod u32 (EVar 14) (EInt 2)) (EVar 9)) (EBin OMul u32 (EInt 2) (EVar 16))) (EVar 6))); (EAt (EVar 12) 1 (EBin OMul u32 (EBin OAdd u32 (EBin OMul u32 (EDiv OMod u32 (EVar 14) (EInt 2)) (EVar 9)) (EBin OAdd u32 (EBin OMul u32 (EInt 2) (EVar 16)) (EInt 1))) (EVar 6))); (EAt (EVar 12) 1 (EBin OMul u32 (EBin OAdd u32 (EBin OMul u32 (EDiv OMod u32 (EBin OAdd u32 (EVar 14) (EInt 1)) (EInt 2)) (EVar 9)) (EVar 16)) (EVar 6))); (EVar 6)].
Lemma wp_pair j i e m (Q : outcome -> env -> mem -> Prop) : sized -> (j < d)%N -> (i < 2 ^ (d - (j + 1)))%N -> vb <> rb -> inb m rb 0 (2 * Nz * Lz) -> inb m vb vo (ofN d * Lz) ->
  cvars e j -> lookup e 16 = VInt (ofN i) -> live m j (2 ^ (d - j)) -> live m (j + 1) i -> cols m j i ->
  (forall m', frame m m' work -> live m' j (2 ^ (d - j)) -> live m' (j + 1) (i + 1) -> cols m' j (i + 1) -> Q ONormal e m') -> wp code pair_code e m Q.
Proof.
  intros S Hj Hi NE IR IV HE E16 LV LN CO K. destruct (sized_b S) as (N1 & L1 & N2 & N3 & N4). assert (D := proj1 S). unfold cvars in HE. unhas.
  assert (P := pow_half d j Hj). assert (P2 : (2 ^ (d - j) <= 2 ^ d)%N) by (apply N.pow_le_mono_r; lia).
  assert (M0 := mod2_b j). assert (M1 := mod2_b (j + 1)). assert (MN := mod2_ne j).
  assert (C0 : (2 * i < 2 ^ (d - j))%N) by lia. assert (C1 : (2 * i + 1 < 2 ^ (d - j))%N) by lia. assert (BI : ofN i < 16777216) by lia.
  assert (Rk : forall j' c, (c < 2 ^ d)%N -> inb m rb (R (j' mod 2) c) Lz).
  { intros j' c Hc. destruct (R_b (j' mod 2) c S (mod2_b j') Hc) as [B1 B2]. eapply inb_sub; [exact IR|lia..]. }
  assert (Q1 : (ofN j + 1) * Lz <= ofN d * Lz) by (apply Z.mul_le_mono_nonneg_r; lia). assert (Q0 : 0 <= ofN j * Lz) by (apply Z.mul_nonneg_nonneg; lia).
  assert (IVj : inb m vb (vo + ofN j * Lz) Lz) by (eapply inb_sub; [exact IV|lia..]).
  assert (HV := CO j Hj). unfold part in HV. rewrite N.ltb_irrefl, N.eqb_refl in HV.
  destruct (acc_ok L d r HR j i Hj ltac:(lia)) as [A1 A2]. destruct (row_ok L d r HR j (2 * i)%N ltac:(lia) ltac:(lia)) as [X1 X2]. destruct (row_ok L d r HR j (2 * i + 1)%N ltac:(lia) ltac:(lia)) as [Y1 Y2].
  assert (PO : forall m', pe e m' (EBin OMul u32 (EInt 2) (EVar 16)) (VInt (ofN (2 * i)))) by (intros m'; eapply pe_eq; [ev|simp; rewrite wrap_u32 by lia; f_equal; lia]).
  assert (PP : forall m', pe e m' (EBin OAdd u32 (EBin OMul u32 (EInt 2) (EVar 16)) (EInt 1)) (VInt (ofN (2 * i + 1)))) by (intros m'; eapply pe_eq; [eapply pe_bin; [apply PO|ev]|simp; rewrite wrap_u32 by lia; f_equal; lia]).
  assert (PJ : forall m', pe e m' (EDiv OMod u32 (EVar 14) (EInt 2)) (VInt (ofN (j mod 2)))) by (intros m'; apply pe_mod2; [ev|lia]).
  assert (PK : forall m', pe e m' (EDiv OMod u32 (EBin OAdd u32 (EVar 14) (EInt 1)) (EInt 2)) (VInt (ofN ((j + 1) mod 2)))) by (intros m'; apply pe_mod2; [eapply pe_eq; [ev|simp; rewrite wrap_u32 by lia; f_equal; lia]|lia]).
  unfold pair_code. seq. eapply wp_callf with (vs := [VPtr vb (vo + ofN j * Lz); VPtr rb (R (j mod 2) (2 * i + 1)); VPtr vb (vo + ofN j * Lz); VInt Lz]).
  { eapply pes_cons; [apply pe_V; assumption|]. eapply pes_cons; [apply pe_R; try assumption; [apply PJ|apply PP|lia]|]. eapply pes_cons; [apply pe_V; assumption|]. evs. }
  { eapply (ref_xor m vb _ (acc L r j i) rb _ (row r j (2 * i + 1)) vb); try assumption; [apply LV, C1|lia|left; split; reflexivity|right; left; congruence]. }
  intros w1 m1 (F1 & H1'). cbn [set]. rewrite <- acc_S in H1'.
  assert (LV1 : live m1 j (2 ^ (d - j))) by (intros c Hc; eapply off_block; [apply LV, Hc|exact F1|congruence]).
  assert (LN1 : live m1 (j + 1) i) by (intros c Hc; eapply off_block; [apply LN, Hc|exact F1|congruence]).
  eapply wp_callf with (vs := [VPtr rb (R (j mod 2) (2 * i)); VPtr rb (R (j mod 2) (2 * i + 1)); VPtr rb (R ((j + 1) mod 2) i); VInt Lz]).
  { eapply pes_cons; [apply pe_R; try assumption; [apply PJ|apply PO|lia]|]. eapply pes_cons; [apply pe_R; try assumption; [apply PJ|apply PP|lia]|].
    eapply pes_cons; [apply pe_R; try assumption; [apply PK|ev|lia]|]. evs. }
  { eapply (ref_xor m1 rb _ (row r j (2 * i)) rb _ (row r j (2 * i + 1)) rb); try assumption; [apply LV1, C0|apply LV1, C1|eapply inb_frame; [exact F1|apply Rk; lia]|lia| |]; right; right; apply R_sep; try assumption; try lia. }
  intros w2 m2 (F2 & H2'). cbn [set]. rewrite <- row_S in H2'.
  apply K.
  - eapply frame_comp; [eapply frame_weak; [exact F1|]|exact F2|]; intros b o _ _ [-> Y]; [right; split; [reflexivity|lia]|left; reflexivity].
  - intros c Hc. eapply holds_frame; [apply LV1, Hc|exact F2|]. destruct (row_ok L d r HR j c ltac:(lia) Hc) as [-> _]. intros q Hq [_ Y].
    destruct (R_sep (j mod 2) c ((j + 1) mod 2) i S M0 ltac:(lia) M1 ltac:(lia) (or_introl MN)); lia.
  - intros c Hc. destruct (N.eq_dec c i) as [->|NC]; [exact H2'|]. eapply holds_frame; [apply LN1; lia|exact F2|]. destruct (row_ok L d r HR (j + 1) c ltac:(lia) ltac:(lia)) as [-> _]. intros q Hq [_ Y].
    destruct (R_sep ((j + 1) mod 2) c ((j + 1) mod 2) i S M1 ltac:(lia) M1 ltac:(lia) (or_intror NC)); lia.
  - intros k Hk. eapply (off_block m1); [|exact F2|exact NE]. destruct (N.eq_dec k j) as [->|NK].
    + unfold part. rewrite N.ltb_irrefl, N.eqb_refl. exact H1'.
    + replace (part j (i + 1) k) with (part j i k) by (unfold part; destruct (N.eqb_spec k j); [lia|reflexivity]).
      eapply holds_frame; [apply CO, Hk|exact F1|]. destruct (acc_ok L d r HR k (part j i k) Hk ltac:(apply part_b; lia)) as [-> _]. intros q Hq [_ Y].
      assert (ofN k < ofN j \/ ofN j < ofN k) as [Z|Z] by lia; [assert ((ofN k + 1) * Lz <= ofN j * Lz)|assert ((ofN j + 1) * Lz <= ofN k * Lz)]; try (apply Z.mul_le_mono_nonneg_r; lia); lia.
Qed.

Definition levels_code : stmt :=
  SLoop (EBin OLt s32 (EVar 14) (EVar 5)) (SSet 14 (EBin OAdd u32 (EVar 14) (EInt 1)))
    (SSet 15 (EBin OShr u32 (EVar 9) (EBin OAdd u32 (EVar 14) (EInt 1))) ;; SSet 16 (EInt 0) ;;
     SLoop (EBin OLt s32 (EVar 16) (EVar 15)) (SSet 16 (EBin OAdd u32 (EVar 16) (EInt 1))) pair_code).
Lemma cvars_frame e j x v : cvars e j -> ~ In x [3; 5; 6; 7; 8; 9; 12; 14]%positive -> cvars (PositiveMap.add x v e) j.
Proof.
  clear HR. intros H N. unfold cvars in *. unhas. cbn [In] in N.
  assert (X : forall y w, lookup e y = w -> x <> y -> lookup (PositiveMap.add x v e) y = w) by (intros y w E Y; rewrite lookup_add; destruct (Pos.eqb_spec y x); [congruence|exact E]).
  cbn [has]. splits; try exact Logic.I; apply X; try assumption; intros ->; apply N; auto 20.
Qed.
Lemma wp_levels e m (Q : outcome -> env -> mem -> Prop) : sized -> vb <> rb -> inb m rb 0 (2 * Nz * Lz) -> inb m vb vo (ofN d * Lz) ->
  cvars e 0 -> live m 0 (2 ^ d) -> cols m 0 0 ->
  (forall e' m', cvars e' d -> frame m m' work -> live m' d 1 -> cols m' d 0 -> Q ONormal e' m') -> wp code levels_code e m Q.
Proof.
  intros S NE IR IV HE LV CO K. destruct (sized_b S) as (N1 & L1 & N2 & N3 & N4). assert (D := proj1 S). unfold levels_code.
  eapply (wp_for _ 14%positive 32 _ (fun j e m' => frame m m' work /\ live m' (Z.to_N j) (2 ^ (d - Z.to_N j)) /\ cols m' (Z.to_N j) 0 /\ cvars e (Z.to_N j)) _ 0 (ofN d)); [lia|lia|lia| | |].
  - intros jz e1 m1 Hj (F & LJ & CJ & VE). assert (EJ : jz = ofN (Z.to_N jz)) by lia. set (j := Z.to_N jz) in *. clearbody j. subst jz. assert (Hjd : (j < d)%N) by lia.
    assert (VE' := VE). unfold cvars in VE'. unhas. split; [assumption|]. split.
    { eexists. split; [ev|]. simp. rewrite truth_b. lia. }
    assert (P := pow_half d j Hjd). assert (P2 : (2 ^ (d - j) <= 2 ^ d)%N) by (apply N.pow_le_mono_r; lia). assert (P3 : (0 < 2 ^ (d - (j + 1)))%N) by (apply N.neq_0_lt_0, N.pow_nonzero; lia).
    seq. eapply wp_set; [ev|]. simp. rewrite (wrap_u32 (ofN j + 1)) by lia. rewrite Z.shiftr_div_pow2 by lia.
    replace (Nz / 2 ^ (ofN j + 1)) with (ofN (2 ^ (d - (j + 1)))).
    2:{ change 1 with (ofN 1). rewrite <- N2Z.inj_add, <- pow_z, <- N2Z.inj_div. f_equal. symmetry. replace d with (d - (j + 1) + (j + 1))%N at 1 by lia. rewrite N.pow_add_r. apply N.div_mul. apply N.pow_nonzero. lia. }
    seq. eapply wp_set; [ev|]. set (n := (2 ^ (d - (j + 1)))%N) in *.
    match goal with |- wp _ _ ?en _ _ => assert (VE2 : cvars en j) by (apply cvars_frame; [apply cvars_frame; [exact VE|cbn [In]; lia]|cbn [In]; lia]); assert (E15 : lookup en 15 = VInt (ofN n)) by look; assert (E16 : lookup en 16 = VInt (ofN 0)) by look; generalize dependent en end.
    intros e2 VE2 E15 E16.
    eapply (wp_for _ 16%positive 32 _ (fun i e m' => frame m1 m' work /\ live m' j (2 ^ (d - j)) /\ live m' (j + 1) (Z.to_N i) /\ cols m' j (Z.to_N i) /\ cvars e j /\ lookup e 15 = VInt (ofN n) /\ lookup e 16 = VInt i) _ 0 (ofN n)); [lia|lia|lia| | |].
    + intros iz e3 m3 Hi (F3 & LV3 & LN3 & C3 & V3 & E15' & E16'). assert (EI : iz = ofN (Z.to_N iz)) by lia. set (i := Z.to_N iz) in *. clearbody i. subst iz. split; [exact E16'|]. split.
      { eexists. split; [eapply pe_bin; apply pe_var; [exact E16'|exact E15']|]. simp. rewrite truth_b. lia. }
      eapply (wp_pair j i); try eassumption; [fold n; lia|eapply inb_frame; [exact F3|]; eapply inb_frame; [exact F|exact IR]|eapply inb_frame; [exact F3|]; eapply inb_frame; [exact F|exact IV]|].
      intros m4 F4 LV4 LN4 C4. cbv iota. split; [exact E16'|]. replace (Z.to_N (ofN i + 1)) with (i + 1)%N by lia. splits; try assumption.
      * eapply frame_comp; [exact F3|exact F4|]. intros b o _ _ Y. exact Y.
      * apply cvars_frame; [exact V3|cbn [In]; lia].
      * rewrite lookup_add. cbn [Pos.eqb]. exact E15'.
      * rewrite lookup_add. cbn [Pos.eqb]. reflexivity.
    + intros e3 m3 (F3 & LV3 & LN3 & C3 & V3 & E15' & E16'). split.
      { eexists. split; [eapply pe_bin; apply pe_var; [exact E16'|exact E15']|]. simp. rewrite truth_b. lia. }
      cbv iota. assert (V3' := V3). unfold cvars in V3'. unhas. split; [assumption|]. replace (Z.to_N (ofN j + 1)) with (j + 1)%N by lia. rewrite N2Z.id in LN3, C3. splits.
      * eapply frame_comp; [exact F|exact F3|]. intros b o _ _ Y. exact Y.
      * exact LN3.
      * apply cols_next. exact C3.
      * unfold cvars. replace (VInt (ofN (j + 1))) with (VInt (ofN j + 1)) by (f_equal; lia). hass.
    + splits; try assumption; [apply frame_refl|intros c Hc; change (Z.to_N 0) with 0%N in Hc; lia].
  - intros e1 m1 (F & LJ & CJ & VE). rewrite N2Z.id in *. rewrite N.sub_diag in LJ. split.
    { assert (VE' := VE). unfold cvars in VE'. unhas. eexists. split; [ev|]. simp. rewrite truth_b. lia. }
    apply K; assumption.
  - change (Z.to_N 0) with 0%N. rewrite N.sub_0_r. splits; try assumption. apply frame_refl.
Qed.
End Convert.

(** ** The function *)
Lemma wp_calloc x a e m n (Q : outcome -> env -> mem -> Prop) : pe e m a (VInt n) -> 0 <= n ->
  (forall b m', mnext m = b -> mnext m' = Pos.succ b -> frame m m' nothing -> holds m' b 0 (Base.zeros (Z.to_N n)) -> Q ONormal (PositiveMap.add x (VPtr b 0) e) m') -> wp code (SAlloc x a) e m Q.
Proof.
  intros E N0 K. eapply wp_alloc; [exact E|]. apply K; [reflexivity|reflexivity|apply frame_fresh|]. split; [rewrite lenN_zeros; apply inb_fresh; lia|].
  intros i _. rewrite nthN_zeros. unfold byte, cell, fresh. cbn [mblocks]. rewrite PositiveMap.gss. cbn [bcells]. unfold get. rewrite PositiveMap.gempty. reflexivity.
Qed.
Definition rowb (lam L : N) (iv : bytes) (bot : bool) (sd : N -> bytes) (x : N) : bytes := if bot && (x =? 0)%N then Base.zeros L else stream (aes_of lam) (sd x) iv L.
Lemma rowb_ok lam L iv bot sd x : lamb lam -> (bot = true -> x <> 0%N -> VcProof.node_ok lam (sd x)) -> (bot = false -> VcProof.node_ok lam (sd x)) -> lenN (rowb lam L iv bot sd x) = L /\ bytes_ok (rowb lam L iv bot sd x).
Proof.
  intros HL A B. unfold rowb. assert (X : bot && (x =? 0)%N = true \/ VcProof.node_ok lam (sd x)) by (destruct bot; [destruct (N.eqb_spec x 0); [left; reflexivity|right; apply A; auto]|right; apply B; reflexivity]).
  destruct (bot && (x =? 0)%N); [split; [apply lenN_zeros|apply bytes_ok_zeros]|]. destruct X as [X|X]; [discriminate X|].
  split; [apply stream_len|apply stream_bytes; [|apply X]]; rewrite (proj1 X); destruct HL as [<-|[<-|[<-|[]]]]; cbn; lia.
Qed.
Definition uval (u : option (positive * Z)) : value := match u with Some (b, o) => VPtr b o | None => VNull end.
Definition uat (L : N) (bot : bool) (u : option (positive * Z)) (b : positive) (o : Z) : Prop := match u with Some (ub, uo) => bot = false /\ at_ ub uo (ofN L) b o | None => False end.
Lemma ref_ConvertToVole lam L d iv sd bot u m ib io sb so vb vo : lamb lam -> sized L d -> holds m ib io iv -> lenN iv = 16%N -> bytes_ok iv -> rconst m ->
  (forall x, (x < 2 ^ d)%N -> (bot = true -> x <> 0%N) -> holds m sb (so + ofN x * ofN (lam / 8)) (sd x) /\ VcProof.node_ok lam (sd x)) ->
  inb m vb vo (ofN d * ofN L) -> match u with Some (ub, uo) => inb m ub uo (ofN L) /\ sep ub uo (ofN L) vb vo (ofN d * ofN L) | None => True end ->
  calls code f_ConvertToVole [VPtr ib io; VPtr sb so; VInt (b2z bot); VInt (ofN lam); VInt (ofN d); VInt (ofN L); uval u; VPtr vb vo] m (fun _ m' =>
    frame m m' (fun b o => at_ vb vo (ofN d * ofN L) b o \/ uat L bot u b o) /\
    (forall k, (k < d)%N -> holds m' vb (vo + ofN k * ofN L) (VoleProof.col L d (rowb lam L iv bot sd) k)) /\
    match u with Some (ub, uo) => bot = false -> holds m' ub uo (VoleProof.colsum L d (rowb lam L iv bot sd)) | None => True end).
Proof.
  intros HL SZ HI LI BI RC HS IV HU. set (r := rowb lam L iv bot sd).
  destruct (sized_b L d r SZ) as (N1 & L1 & N2 & N3 & N4). destruct (lamb_b lam HL) as [B1 B2]. assert (D := proj1 SZ).
  assert (HR : forall x, (x < 2 ^ d)%N -> lenN (r x) = L /\ bytes_ok (r x)) by (intros x Hx; apply rowb_ok; [exact HL|intros E NE; apply HS; auto|intros E; apply HS; [exact Hx|congruence]]).
  start code_ConvertToVole.
  seq. eapply wp_set; [ev|]. simp. rewrite shl1 by lia. rewrite <- pow_z. rewrite wrap_u32 by lia.
  seq. eapply wp_set; [ev; lia|]. unfold u32. rewrite divu by lia. fold u32. replace (ofN lam / 8) with (ofN (lam / 8)) by (rewrite N2Z.inj_div; reflexivity).
  seq. apply (wp_calloc _ _ _ _ (2 * ofN (2 ^ d) * ofN L)); [eapply pe_eq; [ev|simp; rewrite (wrap_u32 (2 * _)) by lia; rewrite wrap_u64 by lia; reflexivity]|lia|].
  intros rb m1 B3 X1 F1 Z1. cbv iota. seq. eapply wp_set; [ev|].
  assert (IR1 : inb m1 rb 0 (2 * ofN (2 ^ d) * ofN L)) by (assert (Y := holds_inb _ _ _ _ Z1); rewrite lenN_zeros, Z2N.id in Y by lia; exact Y).
  assert (RI : rb <> ib) by (destruct (holds_inb _ _ _ _ HI) as (Y & _); lia). assert (RV : vb <> rb) by (destruct IV as (Y & _); lia). assert (R12 : 12%positive <> rb) by (destruct RC as ((Y & _) & _); lia).
  assert (RS : sb <> rb) by (destruct (holds_inb _ _ _ _ (proj1 (HS 1%N ltac:(lia) ltac:(discriminate)))) as (Y & _); lia).
  set (vars := fun e : env => has e [(1%positive, VPtr ib io); (2%positive, VPtr sb so); (3%positive, VInt (b2z bot)); (4%positive, VInt (ofN lam)); (5%positive, VInt (ofN d)); (6%positive, VInt (ofN L)); (7%positive, uval u); (8%positive, VPtr vb vo);
    (9%positive, VInt (ofN (2 ^ d))); (10%positive, VInt (ofN (lam / 8))); (12%positive, VPtr rb 0)]).
  match goal with |- wp _ _ ?en _ _ => assert (VE : vars en) by (unfold vars; hass); generalize dependent en end. intros e1 VE.
  (* one call of the generator *)
  assert (GEN : forall e m' x a q (Q : outcome -> env -> mem -> Prop), vars e -> frame m1 m' (at_ rb 0 (2 * ofN (2 ^ d) * ofN L)) -> (x < 2 ^ d)%N -> (bot = true -> x <> 0%N) ->
    pe e m' a (VPtr sb (so + ofN x * ofN (lam / 8))) -> pe e m' q (VPtr rb (R L d 0 x)) -> live L d r rb m' 0 x ->
    (forall m'', frame m1 m'' (at_ rb 0 (2 * ofN (2 ^ d) * ofN L)) -> live L d r rb m'' 0 (x + 1) -> Q ONormal e m'') ->
    wp code (SCall None f_prg [a; EVar 1; q; EVar 4; EVar 6]) e m' Q).
  { intros e m' x a q Q V F Hx NX A AQ LV K. destruct (R_b L d r 0 x SZ ltac:(lia) Hx) as [RB1 RB2]. destruct (HS x Hx NX) as [HX NK]. unfold vars in V. unhas.
    eapply wp_callf with (vs := [VPtr sb (so + ofN x * ofN (lam / 8)); VPtr ib io; VPtr rb (R L d 0 x); VInt (ofN lam); VInt (ofN L)]).
    { eapply pes_cons; [exact A|]. eapply pes_cons; [ev|]. eapply pes_cons; [exact AQ|]. evs. }
    { apply (ref_prg lam m' sb (so + ofN x * ofN (lam / 8)) (sd x) ib io iv rb (R L d 0 x) (ofN L)); try assumption; try lia.
      - eapply off_block; [eapply off_set; [exact HX|exact F1|intros z []]|exact F|exact RS].
      - apply NK.
      - apply NK.
      - eapply off_block; [eapply off_set; [exact HI|exact F1|intros z []]|exact F|congruence].
      - eapply inb_sub; [eapply inb_frame; [exact F|exact IR1]|lia|lia|lia].
      - eapply rconst_frame; [eapply rconst_frame; [exact RC|exact F1|intros z []]|exact F|intros z [Y _]; congruence]. }
    intros w m2 (-> & F2 & H2'). rewrite N2Z.id in H2'. cbn [set]. apply K.
    - eapply frame_comp; [exact F|exact F2|]. intros b o _ _ [-> Y]. split; [reflexivity|lia].
    - intros c Hc. change (0 mod 2)%N with 0%N. change (row r 0 c) with (r c). destruct (N.eq_dec c x) as [->|NC].
      + unfold r, rowb. replace (bot && (x =? 0)%N) with false; [exact H2'|]. symmetry. destruct bot; [|reflexivity]. cbn [andb]. apply N.eqb_neq, NX. reflexivity.
      + eapply holds_frame; [apply (LV c); lia|exact F2|]. change (row r 0 c) with (r c). rewrite (proj1 (HR c ltac:(lia))). change (0 mod 2)%N with 0%N. intros z Hz [_ Y].
        destruct (R_sep L d r 0 c 0 x SZ ltac:(lia) ltac:(lia) ltac:(lia) Hx (or_intror NC)); lia. }
  seq. eapply (wp_weak _ _ _ _ (fun o e m' => o = ONormal /\ vars e /\ frame m1 m' (at_ rb 0 (2 * ofN (2 ^ d) * ofN L)) /\ live L d r rb m' 0 1)).
  { eapply wp_if; [assert (V' := VE); unfold vars in V'; unhas; ev|]. simp. rewrite truth_b. destruct bot eqn:EB; cbn [b2z]; cbv iota.
    - change (1 =? 0) with false. cbv iota. apply wp_skip. splits; [reflexivity|exact VE|apply frame_refl|]. intros c Hc. replace c with 0%N by lia. change (row r 0 0) with (r 0%N). unfold r, rowb. cbn [andb N.eqb].
      change (R L d (0 mod 2) 0) with (0 + ofN 0 * ofN L). assert (Y : (0 + L <= Z.to_N (2 * ofN (2 ^ d) * ofN L))%N) by (assert (1 * ofN L <= 2 * ofN (2 ^ d) * ofN L) by (apply Z.mul_le_mono_nonneg_r; lia); lia). exact (holds_zeros m1 rb 0 _ 0 L Z1 Y).
    - change (0 =? 0) with true. cbv iota. eapply (GEN e1 m1 0%N); [exact VE|apply frame_refl|lia|discriminate| | |intros c Hc; lia|].
      + assert (V' := VE). unfold vars in V'. unhas. eapply pe_eq; [ev|]. f_equal. lia.
      + assert (V' := VE). unfold vars in V'. unhas. apply (pe_R L d r rb e1 m1 (EInt 0) (EInt 0) 0 0 SZ); try assumption; try (apply pe_int); lia.
      + intros m'' F LV. splits; [reflexivity|exact VE|exact F|exact LV]. }
  intros o2 e2 m2 (-> & VE2 & F2 & LV2). cbv iota. clear e1 VE. seq. eapply wp_set; [ev|].
  match goal with |- wp _ _ ?en _ _ => assert (VE : vars en) by (unfold vars in *; unhas; hass); assert (E13 : lookup en 13 = VInt 1) by look; generalize dependent en end. intros e1 VE E13.
  seq. eapply (wp_for _ 13%positive 32 _ (fun i e m' => vars e /\ lookup e 13 = VInt i /\ frame m1 m' (at_ rb 0 (2 * ofN (2 ^ d) * ofN L)) /\ live L d r rb m' 0 (Z.to_N i)) _ 1 (ofN (2 ^ d))); [lia|lia|lia| | |].
  - intros iz e m' Hi (V & E & F & LV). assert (EI : iz = ofN (Z.to_N iz)) by lia. set (i := Z.to_N iz) in *. clearbody i. subst iz. split; [exact E|]. assert (V' := V). unfold vars in V'. unhas. split.
    { eexists. split; [ev|]. simp. rewrite truth_b. lia. }
    eapply (GEN e m' i); [exact V|exact F|lia|lia| | |exact LV|].
    + eapply pe_eq; [ev|]. simp. rewrite wrap_u32 by nia. f_equal. lia.
    + apply (pe_R L d r rb e m' (EInt 0) (EVar 13) 0 i SZ); try assumption; try (apply pe_int); try (apply pe_var; assumption); lia.
    + intros m'' F' LV'. split; [exact E|]. replace (Z.to_N (ofN i + 1)) with (i + 1)%N by lia. splits; [unfold vars; hass|look|exact F'|exact LV'].
  - intros e m3 (V & E & F & LV). rewrite N2Z.id in LV. assert (V' := V). unfold vars in V'. unhas. split.
    { eexists. split; [ev|]. simp. rewrite truth_b. lia. }
    cbv iota. assert (IV3 : inb m3 vb vo (ofN d * ofN L)) by (eapply inb_frame; [exact F|]; eapply inb_frame; [exact F1|exact IV]).
    seq. eapply (wp_fill _ _ _ _ _ _ vb vo 0 (ofN d * ofN L)); [ev|ev|eapply pe_eq; [ev|simp; rewrite wrap_u32 by lia; reflexivity]|exact IV3|].
    assert (ER : repeat 0 (Z.to_nat (ofN d * ofN L)) = map ofN (Base.zeros (d * L))).
    { unfold Base.zeros. replace (Z.to_nat (ofN d * ofN L)) with (N.to_nat (d * L)) by lia. generalize (N.to_nat (d * L)). intros k. induction k as [|k IHk]; [reflexivity|]. cbn [repeat map]. rewrite IHk. reflexivity. }
    rewrite ER. assert (F4 := frame_setb m3 vb vo (map ofN (Base.zeros (d * L)))). rewrite map_length in F4. replace (Z.of_nat (length (Base.zeros (d * L)))) with (ofN d * ofN L) in F4 by (rewrite length_lenN, lenN_zeros; lia). specialize (F4 IV3).
    assert (HZ4 := holds_setb m3 vb vo (Base.zeros (d * L))). rewrite lenN_zeros in HZ4. replace (ofN (d * L)) with (ofN d * ofN L) in HZ4 by lia. specialize (HZ4 IV3).
    generalize dependent (setb m3 vb vo (map ofN (Base.zeros (d * L)))). intros m4 F4 HZ4.
    seq. eapply wp_set; [ev|]. seq. fold (levels_code). unfold pair_code.
    eapply (wp_levels L d r rb vb vo (VInt (b2z bot)) (uval u) HR _ m4); [exact SZ|exact RV|eapply inb_frame; [exact F4|]; eapply inb_frame; [exact F|exact IR1]|eapply inb_frame; [exact F4|exact IV3]|unfold cvars; hass| | |].
    + intros c Hc. eapply off_block; [apply LV, Hc|exact F4|congruence].
    + intros k Hk. replace (part d 0 0 k) with 0%N by (unfold part; destruct (N.ltb_spec k 0); [lia|destruct (k =? 0)%N; reflexivity]). rewrite acc_0. replace (ofN k * ofN L) with (ofN (k * L)) by lia. eapply holds_zeros; [exact HZ4|nia].
    + intros e5 m5 V5 F5 L5 C5. cbv iota. unfold cvars in V5. unhas.
      assert (F05 : frame m m5 (at_ vb vo (ofN d * ofN L))).
      { eapply frame_comp; [eapply frame_comp; [eapply frame_comp; [eapply frame_weak; [exact F1|intros b o _ _ []]|exact F|]|exact F4|]|exact F5|].
        - intros b o Lb _ [-> _]. lia.
        - intros b o _ _ Y. exact Y.
        - intros b o Lb _ [->|Y]; [lia|exact Y]. }
      assert (CC : forall k, (k < d)%N -> holds m5 vb (vo + ofN k * ofN L) (VoleProof.col L d r k)).
      { intros k Hk. assert (Y := C5 k Hk). unfold part in Y. replace (k <? d)%N with true in Y by lia. rewrite (acc_col L d r HR k Hk) in Y. exact Y. }
      assert (TOP : holds m5 rb (R L d (d mod 2) 0) (VoleProof.colsum L d r)) by (rewrite <- (row_top L d r HR); apply L5; lia).
      seq. eapply (wp_weak _ _ _ _ (fun o e m' => o = ONormal /\ lookup e 12 = VPtr rb 0 /\ frame m m' (fun b o => at_ vb vo (ofN d * ofN L) b o \/ uat L bot u b o) /\
        (forall k, (k < d)%N -> holds m' vb (vo + ofN k * ofN L) (VoleProof.col L d r k)) /\ match u with Some (ub, uo) => bot = false -> holds m' ub uo (VoleProof.colsum L d r) | None => True end)).
      2:{ intros o6 e6 m6 (-> & E12 & Y). cbv iota. eapply wp_eval; [ev|]. exact Y. }
      assert (CND : pe e5 m5 (ECond (EUn OLNot s32 (EVar 3)) (EBin ONe s32 (EBin OEq s32 (EIsNull (EVar 7)) (EInt 0)) (EInt 0)) (EInt 0)) (VInt (b2z (negb bot && match u with Some _ => true | None => false end)))).
      { eapply pe_cond; [ev|]. simp. rewrite truth_b. destruct bot; cbn [b2z negb andb]; [change (1 =? 0) with false; cbv iota; apply pe_int|change (0 =? 0) with true; cbv iota]. eapply pe_eq; [ev|]. destruct u as [[ub uo]|]; reflexivity. }
      eapply wp_if; [exact CND|]. rewrite truth_b. destruct bot, u as [[ub uo]|]; cbn [negb andb]; cbv iota.
      1, 2, 4: apply wp_skip; splits; [reflexivity|assumption|eapply frame_weak; [exact F05|intros b o _ _ Y; left; exact Y]|exact CC|try discriminate; try exact Logic.I].
      destruct HU as [IU SU]. assert (IU5 : inb m5 ub uo (ofN L)) by (eapply inb_frame; [exact F05|exact IU]). assert (LT : lenN (VoleProof.colsum L d r) = L) by (apply VoleProof.colsum_len; intros x Hx; apply HR, Hx).
      assert (IT := holds_inb _ _ _ _ TOP). rewrite LT in IT.
      eapply (wp_copy1 _ _ _ _ _ ub uo rb (R L d (d mod 2) 0) (ofN L)); [ev|apply (pe_R L d r rb e5 m5 (EDiv OMod u32 (EVar 5) (EInt 2)) (EInt 0) (d mod 2) 0 SZ); try assumption; [apply pe_mod2; [ev|lia]|apply pe_int|apply mod2_b|lia]|ev|exact IU5|exact IT|].
      assert (F6 := frame_copy_at m5 ub uo rb (R L d (d mod 2) 0) (ofN L) IU5). assert (HU6 : holds (copy m5 ub uo rb (R L d (d mod 2) 0) (ofN L)) ub uo (VoleProof.colsum L d r)).
      { assert (Y := holds_copy m5 ub uo rb (R L d (d mod 2) 0) _ TOP). rewrite LT in Y. exact (Y IU5). }
      generalize dependent (copy m5 ub uo rb (R L d (d mod 2) 0) (ofN L)). intros m6 F6 HU6. splits; [reflexivity|assumption| | |intros _; exact HU6].
      * eapply frame_comp; [eapply frame_weak; [exact F05|intros b o _ _ Y; left; exact Y]|exact F6|]. intros b o _ _ Y. right. split; [reflexivity|exact Y].
      * intros k Hk. eapply holds_frame; [apply CC, Hk|exact F6|]. rewrite VoleProof.col_len by (intros x Hx; apply HR, Hx). intros q Hq [E' Y]. assert ((ofN k + 1) * ofN L <= ofN d * ofN L) by (apply Z.mul_le_mono_nonneg_r; lia). assert (0 <= ofN k * ofN L) by nia.
        destruct SU as [SU|SU]; [congruence|lia].
  - splits; [exact VE|exact E13|exact F2|exact LV2].
Qed.
