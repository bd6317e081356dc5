(** The linear algebra behind the constraint system: wires, their combination to bytes, and the two
    factors of every S-box as functions of the wires and of the value [kappa] standing for one. *)
From Verif.Model Require Import Aes FaestAes.
From Verif.Spec Require Import AesSpec OwfSpec ConstraintSpec ConstraintMap UHashSpec.
From Verif.Proof Require Import BaseProof PolyProof FieldProof EmbedProof AesProof UHashProof ClaimProof DefectProof.
From Coq Require Import Lia ZifyBool ZifyNat ZifyN.
Ltac Zify.zify_post_hook ::= Z.div_mod_to_equations.

(** equality of exclusive ors up to order *)
Ltac xor_ac :=
  apply N.bits_inj; let i := fresh "i" in intros i; rewrite ?N.lxor_spec;
  repeat match goal with |- context [N.testbit ?x i] => generalize (N.testbit x i); intros [] end;
  reflexivity.

Ltac nat_lits := repeat match goal with |- context [N.to_nat ?k] =>
  let v := eval vm_compute in (N.to_nat k) in change (N.to_nat k) with v end.

(** the eight wires of byte [pos] *)
Definition cmb (F : field) (W : N -> N) (pos : N) : N := combine8 F (fun i => W (8 * pos + i)).

Definition invaff (x : N -> N) (k i : N) : N :=
  let y := N.lxor (N.lxor (x ((i + 7) mod 8)) (x ((i + 5) mod 8))) (x ((i + 2) mod 8)) in
  if (i =? 0) || (i =? 2) then N.lxor y k else y.
Definition IA (F : field) (x : N -> N) (k : N) : N := combine8 F (invaff x k).

Definition mixv (F : field) (x k : N -> N) (r : N) : N :=
  nthN (mix_wires F (emb F 2) (emb F 3) (x 0) (x 1) (x 2) (x 3) (k 0) (k 1) (k 2) (k 3)) r 0.

(** first factor of the S-box in round n, column c, row r: wires of the input, of the round keys and
    of the states after ShiftRows *)
Definition fwd (F : field) (R : rijndael) (I K X : N -> N) (n c r : N) : N :=
  if n =? 0 then N.lxor (cmb F I (4 * c + r)) (cmb F K (4 * c + r))
  else mixv F (fun k => cmb F X (4 * Nb R * (n - 1) + 4 * c + k)) (fun k => cmb F K (4 * Nb R * n + 4 * c + k)) r.
(** second factor; O: the wires of the output *)
Definition spos (R : rijndael) (c r : N) : N := 4 * ((c + (Nb R - shift_offset R r)) mod Nb R) + r.
Definition bwd (F : field) (R : rijndael) (X O K : N -> N) (k n c r : N) : N :=
  IA F (fun i => if n <? Nr R - 1 then X (8 * (4 * Nb R * n + spos R c r) + i)
                 else N.lxor (O (8 * spos R c r + i)) (K (8 * (4 * Nb R * Nr R + spos R c r) + i))) k.

Lemma combine8_ext F x y : (forall i, i < 8 -> x i = y i) -> combine8 F x = combine8 F y.
Proof. intros H. unfold combine8. rewrite !H by reflexivity. reflexivity. Qed.
Lemma invaff_ext x y k i : i < 8 -> (forall i, i < 8 -> x i = y i) -> invaff x k i = invaff y k i.
Proof. intros Hi H. unfold invaff. rewrite !H by (apply N.mod_lt; discriminate). reflexivity. Qed.
Lemma IA_ext F x y k : (forall i, i < 8 -> x i = y i) -> IA F x k = IA F y k.
Proof. intros H. apply combine8_ext. intros i Hi. apply invaff_ext; assumption. Qed.
Lemma cmb_ext F V W pos : (forall i, V i = W i) -> cmb F V pos = cmb F W pos.
Proof. intros H. apply combine8_ext. intros. apply H. Qed.
Lemma mixv_ext F x y k l r : (forall i, i < 4 -> x i = y i) -> (forall i, i < 4 -> k i = l i) -> mixv F x k r = mixv F y l r.
Proof. intros H G. unfold mixv. rewrite !H, !G by reflexivity. reflexivity. Qed.

(** * Relation of verifier, tag and witness wires *)
Section Triple.
Variable F : field.
Hypothesis HB : big_field F.
Variable D : N.
Hypothesis HD : D < 2 ^ f_n F.
Let HF : field_ok F := big_field_ok F HB.

Definition T (q v s : N) : Prop := v < 2 ^ f_n F /\ s < 2 ^ f_n F /\ q = N.lxor v (bf_mul F D s).

Lemma T_0 : T 0 0 0.
Proof. split; [apply pow2_pos|]. split; [apply pow2_pos|]. rewrite bf_mul_0_r by assumption. reflexivity. Qed.
Lemma T_one : T D 0 1.
Proof. split; [apply pow2_pos|]. split; [apply one_lt, HF|]. rewrite bf_mul_1_r by assumption. reflexivity. Qed.
Lemma T_add q v s q' v' s' : T q v s -> T q' v' s' -> T (N.lxor q q') (N.lxor v v') (N.lxor s s').
Proof.
  intros (A1 & A2 & ->) (B1 & B2 & ->). split; [apply lxor_lt; assumption|]. split; [apply lxor_lt; assumption|].
  rewrite bf_mul_lxor_r by assumption. rewrite !N.lxor_assoc. f_equal. rewrite <- !N.lxor_assoc. f_equal. apply N.lxor_comm.
Qed.
Lemma T_mul q v s e : e < 2 ^ f_n F -> T q v s -> T (bf_mul F q e) (bf_mul F v e) (bf_mul F s e).
Proof.
  intros He (A1 & A2 & ->). split; [apply bf_mul_lt; assumption|]. split; [apply bf_mul_lt; assumption|].
  rewrite bf_mul_lxor_l, bf_mul_assoc by auto using bf_mul_lt. reflexivity.
Qed.
Lemma T_bit b q v s : T q v s -> T (bf_mul_bit q b) (bf_mul_bit v b) (bf_mul_bit s b).
Proof. unfold bf_mul_bit. destruct (N.testbit b 0); [tauto|]. intros _. apply T_0. Qed.
Lemma T_lt q v s : T q v s -> q < 2 ^ f_n F.
Proof. intros (A1 & A2 & ->). apply lxor_lt; [|apply bf_mul_lt]; assumption. Qed.

Lemma T_combine8 q v s : (forall i, i < 8 -> T (q i) (v i) (s i)) -> T (combine8 F q) (combine8 F v) (combine8 F s).
Proof.
  intros H. unfold combine8.
  repeat (apply T_add; [|apply T_mul; [apply emb_lt, HB|apply H; reflexivity]]). apply H; reflexivity.
Qed.
Lemma T_cmb q v s pos : (forall i, T (q i) (v i) (s i)) -> T (cmb F q pos) (cmb F v pos) (cmb F s pos).
Proof. intros H. apply T_combine8. intros. apply H. Qed.
Lemma T_invaff q v s kq kv ks i : (forall i, i < 8 -> T (q i) (v i) (s i)) -> T kq kv ks ->
  T (invaff q kq i) (invaff v kv i) (invaff s ks i).
Proof.
  intros H HK. assert (M : forall x, x mod 8 < 8) by (intros; apply N.mod_lt; discriminate).
  unfold invaff. destruct (_ || _); repeat apply T_add; auto.
Qed.
Lemma T_IA q v s kq kv ks : (forall i, i < 8 -> T (q i) (v i) (s i)) -> T kq kv ks ->
  T (IA F q kq) (IA F v kv) (IA F s ks).
Proof. intros H HK. apply T_combine8. intros. apply T_invaff; assumption. Qed.
Lemma T_mixv q v s kq kv ks r : (forall i, T (q i) (v i) (s i)) -> (forall i, T (kq i) (kv i) (ks i)) ->
  T (mixv F q kq r) (mixv F v kv r) (mixv F s ks r).
Proof.
  intros H HK. unfold mixv.
  assert (E : r = 0 \/ r = 1 \/ r = 2 \/ r = 3 \/ 4 <= r) by lia.
  destruct E as [->|[->|[->|[->|E]]]].
  5: { unfold nthN. rewrite !nth_overflow by (cbn; lia). apply T_0. }
  all: unfold nthN, mix_wires, bf_add; nat_lits; cbn [nth]; repeat apply T_add; auto; apply T_mul; auto using emb_lt.
Qed.

Lemma T_fwd R Iq Iv Is Kq Kv Ks Xq Xv Xs n c r :
  (forall i, T (Iq i) (Iv i) (Is i)) -> (forall i, T (Kq i) (Kv i) (Ks i)) -> (forall i, T (Xq i) (Xv i) (Xs i)) ->
  T (fwd F R Iq Kq Xq n c r) (fwd F R Iv Kv Xv n c r) (fwd F R Is Ks Xs n c r).
Proof.
  intros HI HK HX. unfold fwd. destruct (n =? 0).
  - apply T_add; apply T_cmb; assumption.
  - apply T_mixv; intros; apply T_cmb; assumption.
Qed.
Lemma T_bwd R Xq Xv Xs Oq Ov Os Kq Kv Ks kq kv ks n c r :
  (forall i, T (Xq i) (Xv i) (Xs i)) -> (forall i, T (Oq i) (Ov i) (Os i)) -> (forall i, T (Kq i) (Kv i) (Ks i)) ->
  T kq kv ks ->
  T (bwd F R Xq Oq Kq kq n c r) (bwd F R Xv Ov Kv kv n c r) (bwd F R Xs Os Ks ks n c r).
Proof.
  intros HX HO HK Hk. unfold bwd. apply T_IA; [|exact Hk]. intros i _. destruct (n <? Nr R - 1); [apply HX|]. apply T_add; auto.
Qed.
End Triple.

(** * Wires carrying the bits of bytes *)
Section Bits.
Variable F : field.
Hypothesis HB : big_field F.
Definition bitw (b : N) (i : N) : N := N.b2n (N.testbit b i).
Definition carries (W : N -> N) (b : N -> N) : Prop :=
  forall p, b p < 256 /\ forall i, i < 8 -> W (8 * p + i) = bitw (b p) i.

Lemma bitw_lxor a b i : bitw (N.lxor a b) i = N.lxor (bitw a i) (bitw b i).
Proof. unfold bitw. rewrite N.lxor_spec. destruct (N.testbit a i), (N.testbit b i); reflexivity. Qed.

Lemma cmb_bits W b p : carries W b -> cmb F W p = emb F (b p).
Proof.
  intros H. destruct (H p) as [H1 H2]. unfold cmb. rewrite <- (combine8_bits F (b p) HB H1). apply combine8_ext. exact H2.
Qed.
Lemma invaff_bits y i : y < 256 -> i < 8 -> invaff (bitw y) 1 i = bitw (InvAffine y) i.
Proof.
  intros Hy Hi. apply N.eqb_eq.
  refine (forallb_lt (fun i => invaff (bitw y) 1 i =? bitw (InvAffine y) i) 8 _ i Hi).
  refine (forallb_lt (fun y => forallb (fun i => invaff (bitw y) 1 i =? bitw (InvAffine y) i) (Nrange 8)) 256 _ y Hy).
  vm_compute. reflexivity.
Qed.
Lemma IA_bits x y : y < 256 -> (forall i, i < 8 -> x i = bitw y i) -> IA F x 1 = emb F (InvAffine y).
Proof.
  intros Hy Hx. unfold IA. rewrite <- (combine8_bits F (InvAffine y) HB) by (apply InvAffine_lt, Hy).
  apply combine8_ext. intros i Hi. rewrite (invaff_ext x (bitw y)) by assumption. apply invaff_bits; assumption.
Qed.

Lemma xtime_mul a : a < 256 -> xtime a = bf8_mul a 2.
Proof. intros H. apply N.eqb_eq. revert a H. apply forallb_lt. vm_compute. reflexivity. Qed.
Lemma xtime3_mul a : a < 256 -> N.lxor (xtime a) a = bf8_mul a 3.
Proof. intros H. apply N.eqb_eq. revert a H. apply forallb_lt. vm_compute. reflexivity. Qed.

Lemma mixv_bits (s k : N -> N) (st : cstate) c r : r < 4 -> (forall i, i < 4 -> st i c < 256) ->
  (forall i, i < 4 -> s i = emb F (st i c)) ->
  mixv F s (fun i => emb F (k i)) r = emb F (N.lxor (MixColumns st r c) (k r)).
Proof.
  intros Hr HS Hs. unfold MixColumns.
  assert (E : r = 0 \/ r = 1 \/ r = 2 \/ r = 3) by lia.
  destruct E as [->|[->|[->| ->]]]; cbn [N.add N.modulo N.div_eucl N.pos_div_eucl snd Pos.add]; 
  unfold mixv, nthN, mix_wires, bf_add; nat_lits; cbn [nth];
  rewrite !Hs by reflexivity; rewrite <- !emb_mul by (first [exact HB|apply HS; reflexivity|reflexivity]);
  rewrite <- !emb_lxor; f_equal.
  all: repeat match goal with |- context [N.modulo (?a + ?b) 4] =>
         let v := eval vm_compute in (N.modulo (a + b) 4) in change (N.modulo (a + b) 4) with v end;
    rewrite ?xtime3_mul, xtime_mul by (apply HS; reflexivity); xor_ac.
Qed.
Lemma at_piece l off len i : i < len -> at_ 0 (piece l off len) i = at_ 0 l (off + i).
Proof.
  intros H. rewrite piece_eq, !at_nthN, nthN_takeN, nthN_dropN by exact H. reflexivity.
Qed.

Variable R : rijndael.
Hypothesis HNb : In (Nb R) [4; 6; 8].
Variables (ws : list (list N)) (inp wit out : list N).
Variables I K X O kb : N -> N.
Hypothesis HI : carries I (at_ 0 inp).
Hypothesis HX : carries X (at_ 0 wit).
Hypothesis HO : carries O (at_ 0 out).
Hypothesis HK : carries K kb.
Hypothesis Hkb : forall m r, r < 4 -> kb (4 * m + r) = at_ 0 (at_ [] ws m) r.

Lemma fwd_bits n c r : c < Nb R -> r < 4 -> fwd F R I K X n c r = emb F (state_in R ws inp wit n r c).
Proof.
  intros Hc Hr. unfold fwd, state_in, AddRoundKey. destruct (N.eqb_spec n 0) as [->|Hn].
  - rewrite !(cmb_bits I (at_ 0 inp)), !(cmb_bits K kb) by assumption. rewrite Hkb by exact Hr.
    rewrite <- emb_lxor. unfold load. rewrite (N.add_comm r (4 * c)). reflexivity.
  - assert (G : forall i, i < 4 -> at_ 0 wit (4 * Nb R * (n - 1) + 4 * c + i) =
                load (piece wit (4 * Nb R * (n - 1)) (4 * Nb R)) i c).
    { intros i Hi. unfold load. rewrite at_piece by lia. f_equal. lia. }
    rewrite (mixv_ext F _ (fun k => emb F (load (piece wit (4 * Nb R * (n - 1)) (4 * Nb R)) k c))
               _ (fun k => emb F (at_ 0 (at_ [] ws (n * Nb R + c)) k))).
    + apply (mixv_bits _ _ (load (piece wit (4 * Nb R * (n - 1)) (4 * Nb R)))); [exact Hr| |reflexivity].
      intros i Hi. rewrite <- G by exact Hi. apply HX.
    + intros i Hi. rewrite (cmb_bits X (at_ 0 wit)) by exact HX. f_equal. apply G, Hi.
    + intros i Hi. rewrite (cmb_bits K kb) by exact HK. f_equal. rewrite <- Hkb by exact Hi. f_equal. lia.
Qed.

Lemma spos_lt c r : r < 4 -> spos R c r < 4 * Nb R.
Proof using HNb.
  clear Hkb. intros Hr. unfold spos. assert (H : (c + (Nb R - shift_offset R r)) mod Nb R < Nb R).
  { apply N.mod_lt. destruct HNb as [<-|[<-|[<-|[]]]]; discriminate. }
  lia.
Qed.

Lemma bwd_bits n c r : c < Nb R -> r < 4 -> bwd F R X O K 1 n c r = emb F (InvAffine (state_out R ws wit out n r c)).
Proof.
  intros Hc Hr. unfold bwd, state_out, InvShiftRows.
  pose proof (spos_lt c r Hr) as HS. set (c' := (c + (Nb R - shift_offset R r)) mod Nb R) in *.
  assert (ES : spos R c r = 4 * c' + r) by reflexivity. rewrite ES in *.
  destruct (n <? Nr R - 1).
  - unfold load. rewrite at_piece by lia.
    replace (4 * Nb R * n + (r + 4 * c')) with (4 * Nb R * n + (4 * c' + r)) by lia.
    apply IA_bits; [apply HX|]. intros i Hi. apply HX, Hi.
  - unfold AddRoundKey. rewrite <- Hkb by exact Hr. unfold load.
    apply IA_bits.
    + apply lxor_lt8; [apply HO|apply HK].
    + intros i Hi. rewrite bitw_lxor, (proj2 (HO _) i Hi), (proj2 (HK _) i Hi).
      do 2 f_equal; f_equal; lia.
Qed.
End Bits.
