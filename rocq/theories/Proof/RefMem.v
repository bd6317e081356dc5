(** Arrays of bytes in the memory of the translated program. *)
From Coq Require Import ZArith NArith List Bool FMapPositive Lia.
From Verif Require Import Model.Base Proof.BaseProof.
From Verif Require Import Model.CtLang Model.CtNames Model.CtFields Model.CtProgram Proof.RefLogic Proof.RefTac.
Import ListNotations.
Local Open Scope Z_scope.
Notation ofN := Z.of_N.

(** One byte. *)
Definition set1 (m : mem) (b : positive) (o v : Z) : mem := setb m b o [v].
Lemma byte_set1 m b o v b' p : inb m b o 1 -> 0 <= p -> byte (set1 m b o v) b' p = if Pos.eqb b' b && (p =? o) then v else byte m b' p.
Proof.
  intros I P. unfold byte, set1. rewrite cell_setb by assumption. change (Z.of_nat (length [v])) with 1.
  destruct (Pos.eqb_spec b' b), (Z.leb_spec o p), (Z.ltb_spec p (o + 1)), (Z.eqb_spec p o); cbn [andb int_of]; try reflexivity; try lia.
  subst p. rewrite Z.sub_diag. reflexivity.
Qed.
Lemma byte_set1_same m b o v p : inb m b o 1 -> p = o -> byte (set1 m b o v) b p = v.
Proof. intros I ->. rewrite byte_set1 by (exact I || (destruct I; lia)). rewrite Pos.eqb_refl, Z.eqb_refl. reflexivity. Qed.
Lemma byte_set1_other m b o v b' p : inb m b o 1 -> 0 <= p -> b' <> b \/ p <> o -> byte (set1 m b o v) b' p = byte m b' p.
Proof.
  intros I P D. rewrite byte_set1 by assumption. destruct (Pos.eqb_spec b' b), (Z.eqb_spec p o); cbn [andb]; try reflexivity. exfalso. tauto.
Qed.
Lemma inb_set1 m b o v b' p n : inb (set1 m b o v) b' p n <-> inb m b' p n.
Proof. apply setc_inb. Qed.
Lemma next_set1 m b o v : mnext (set1 m b o v) = mnext m.
Proof. apply setc_next. Qed.
Lemma frame_set1 m b o v (S : positive -> Z -> Prop) : inb m b o 1 -> S b o -> frame m (set1 m b o v) S.
Proof.
  intros I HS. eapply frame_weak; [apply frame_setb; exact I|]. intros b' p _ _ [-> L]. cbn [length] in L. replace p with o by lia. exact HS.
Qed.
Lemma frame_set1_at m b o v : inb m b o 1 -> frame m (set1 m b o v) (at_ b o 1).
Proof. intros I. apply frame_setb. exact I. Qed.
Lemma wp_store1 p a e m b o v (Q : outcome -> env -> mem -> Prop) : pe e m p (VPtr b o) -> pe e m a (VInt v) ->
  inb m b o 1 -> 0 <= v < 256 -> Q ONormal e (set1 m b o v) -> wp code (SStore 1 p a) e m Q.
Proof.
  intros H K I V R. eapply wp_store; [exact H|exact K|exact I|]. unfold set1 in R. cbn [encode].
  change 255 with (Z.ones 8). rewrite Z.land_ones by lia. rewrite Z.mod_small by exact V. exact R.
Qed.

(** The array at [o] of block [b] starts with [l]. *)
Definition holds (m : mem) (b : positive) (o : Z) (l : bytes) : Prop :=
  inb m b o (ofN (lenN l)) /\ forall i, (i < lenN l)%N -> byte m b (o + ofN i) = ofN (nthN l i 0%N).
Definition sep (b : positive) (o n : Z) (b' : positive) (o' n' : Z) : Prop := b <> b' \/ o + n <= o' \/ o' + n' <= o.

Lemma byte_kept m m' S b p n o : frame m m' S -> inb m b o n -> o <= p < o + n -> (forall q, o <= q < o + n -> ~ S b q) ->
  byte m' b p = byte m b p.
Proof. intros F (A & B & C & D) P N. eapply byte_frame; [exact F|exact A|lia|]. apply N. exact P. Qed.
Lemma holds_frame m m' S b o l : holds m b o l -> frame m m' S -> (forall q, o <= q < o + ofN (lenN l) -> ~ S b q) -> holds m' b o l.
Proof.
  intros [I H] F N. split; [eapply inb_frame; eassumption|]. intros i L. rewrite <- H by exact L.
  eapply byte_kept; [exact F|exact I|lia|exact N].
Qed.
Lemma holds_inb m b o l : holds m b o l -> inb m b o (ofN (lenN l)).
Proof. intros [I _]. exact I. Qed.
Lemma holds_byte m b o l i : holds m b o l -> 0 <= i < ofN (lenN l) -> byte m b (o + i) = ofN (nthN l (Z.to_N i) 0%N).
Proof. intros [_ H] L. rewrite <- H by lia. f_equal. lia. Qed.

Definition isbyte (z : Z) : Prop := 0 <= z < 256.
Lemma holds_isbyte m b o l p : holds m b o l -> bytes_ok l -> o <= p < o + ofN (lenN l) -> isbyte (byte m b p).
Proof.
  intros H B L. replace p with (o + (p - o)) by lia. rewrite (holds_byte _ _ _ _ _ H) by lia.
  assert (K := nthN_byte l (Z.to_N (p - o)) B). unfold byte_ok in K. unfold isbyte. lia.
Qed.
Lemma lxor_isbyte a b : isbyte a -> isbyte b -> isbyte (Z.lxor a b).
Proof.
  unfold isbyte. intros A B. assert (L : 0 <= Z.lxor a b) by (apply Z.lxor_nonneg; lia). split; [exact L|].
  destruct (Z.eq_dec (Z.lxor a b) 0) as [->|N]; [lia|]. change 256 with (2 ^ 8). apply Z.log2_lt_pow2; [lia|].
  pose proof (Z.log2_lxor a b ltac:(lia) ltac:(lia)) as X.
  assert (U : forall z, 0 <= z < 256 -> Z.log2 z <= 7).
  { intros z Hz. destruct (Z.eq_dec z 0) as [->|]; [vm_compute; discriminate|]. assert (Z.log2 z < 8) by (apply Z.log2_lt_pow2; [lia|exact (proj2 Hz)]). lia. }
  pose proof (U a A). pose proof (U b B). lia.
Qed.

(** In bounds, also in memories that were written to. *)
Ltac inb_in ::=
  lazymatch goal with
  | |- inb (set1 _ _ _ _) _ _ _ => apply inb_set1; inb_in
  | |- inb (setb _ _ _ _) _ _ _ => unfold setb at 1; apply setc_inb; inb_in
  | |- inb (setv _ _ _ _) _ _ _ => unfold setv at 1; apply setc_inb; inb_in
  | |- inb (fresh ?m _ _) (mnext ?m) _ _ => apply inb_fresh; lia
  | |- inb (fresh ?m _ _) _ _ _ => eapply inb_frame; [apply (frame_fresh m _ _ nothing)|]; inb_in
  | |- inb ?m ?b _ _ =>
      match goal with
      | H : inb m b _ _ |- _ => eapply (inb_sub _ _ _ _ _ _ H); lia
      | H : holds m b _ _ |- _ => eapply (inb_sub _ _ _ _ _ _ (holds_inb _ _ _ _ H)); lia
      | F : frame ?m0 m _ |- _ => apply (inb_frame _ _ _ _ _ _ F); inb_in
      end
  end.

Lemma frame_comp m m1 m2 (S1 T : positive -> Z -> Prop) : frame m m1 T -> frame m1 m2 S1 ->
  (forall b o, (b < mnext m)%positive -> 0 <= o -> S1 b o -> T b o) -> frame m m2 T.
Proof.
  intros (A1 & A2 & A3) (B1 & B2 & B3) H. split; [lia|]. split.
  - intros b L. rewrite B2, A2; auto; lia.
  - intros b o L O N. rewrite B3, A3; auto; lia.
Qed.
(** Frames of memories that were written to; the sets are left to [lia]. *)
Ltac in_at := unfold at_, nothing, sep in *; intros; lia.
Ltac fr :=
  lazymatch goal with
  | |- frame ?m ?m _ => apply frame_refl
  | |- frame _ (set1 _ _ _ _) _ => eapply frame_comp; [|apply frame_set1_at; inb_in|in_at]; fr
  | |- frame _ (setb _ _ _ _) _ => eapply frame_comp; [|apply frame_setb; inb_in|in_at]; fr
  | |- frame _ (fresh _ _ _) _ => eapply frame_trans; [|apply frame_fresh]; fr
  | |- frame ?m ?m' _ =>
      match goal with
      | F : frame m m' _ |- _ => eapply (frame_weak _ _ _ _ F); in_at
      | F : frame _ m' _ |- _ => eapply frame_comp; [|exact F|in_at]; fr
      end
  end.
Ltac rd := repeat match goal with
  | |- context [byte (set1 ?m ?b ?o ?v) ?b ?p] =>
      first [rewrite (byte_set1_same m b o v p) by (inb_in || lia) | rewrite (byte_set1_other m b o v b p) by (inb_in || lia)]
  | |- context [byte (set1 ?m ?b ?o ?v) ?b' ?p] => rewrite (byte_set1_other m b o v b' p) by (inb_in || lia)
  end.

Lemma code_xor_u8_array : PositiveMap.find f_xor_u8_array code = Some c_xor_u8_array. Proof. vm_compute. reflexivity. Qed.
Lemma ref_xor_u8_array m b1 o1 b2 o2 b3 o3 n : 0 <= n < 2 ^ 64 -> inb m b1 o1 n -> inb m b2 o2 n -> inb m b3 o3 n ->
  (b1 = b3 /\ o1 = o3 \/ sep b1 o1 n b3 o3 n) -> (b2 = b3 /\ o2 = o3 \/ sep b2 o2 n b3 o3 n) ->
  (forall i, 0 <= i < n -> isbyte (byte m b1 (o1 + i))) -> (forall i, 0 <= i < n -> isbyte (byte m b2 (o2 + i))) ->
  calls code f_xor_u8_array [VPtr b1 o1; VPtr b2 o2; VPtr b3 o3; VInt n] m (fun _ m' =>
    frame m m' (at_ b3 o3 n) /\ forall i, 0 <= i < n -> byte m' b3 (o3 + i) = Z.lxor (byte m b1 (o1 + i)) (byte m b2 (o2 + i))).
Proof.
  intros N I1 I2 I3 S1 S2 B1 B2. start code_xor_u8_array. seq. eapply wp_set; [ev|].
  assert (P1 := proj1 (proj2 I1)). assert (P2 := proj1 (proj2 I2)). assert (P3 := proj1 (proj2 I3)).
  eapply (wp_for _ 5%positive 64 _ (fun i e m' => has e [(1%positive, VPtr b1 o1); (2%positive, VPtr b2 o2); (3%positive, VPtr b3 o3); (4%positive, VInt n); (5%positive, VInt i)] /\
     frame m m' (at_ b3 o3 i) /\ forall k, 0 <= k < i -> byte m' b3 (o3 + k) = Z.lxor (byte m b1 (o1 + k)) (byte m b2 (o2 + k))) _ 0 n); try lia.
  - intros i e m' L [H [F K]]. unhas. split; [assumption|]. split.
    { eexists. split; [ev|]. simp. rewrite truth_b. lia. }
    assert (R1 : byte m' b1 (o1 + i) = byte m b1 (o1 + i)) by (eapply byte_frame; [exact F|exact (proj1 I1)|lia|in_at]).
    assert (R2 : byte m' b2 (o2 + i) = byte m b2 (o2 + i)) by (eapply byte_frame; [exact F|exact (proj1 I2)|lia|in_at]).
    eapply wp_store1; [ev|ev|inb_in| |]; simp; rewrite !Z.mul_1_l, R1, R2.
    { rewrite wrap_u8; apply lxor_isbyte; auto. }
    rewrite wrap_u8 by (apply lxor_isbyte; auto).
    split; [look|]. split; [hass|]. split; [fr|]. intros k Lk.
    destruct (Z.eq_dec k i) as [->|D]; [rd; reflexivity|]. rd. apply K. lia.
  - intros e m' [H [F K]]. unhas. split.
    { eexists. split; [ev|]. simp. rewrite truth_b. lia. }
    split; assumption.
  - split; [hass|]. split; [apply frame_refl|]. intros. lia.
Qed.

Lemma lor_isbyte a b : isbyte a -> isbyte b -> isbyte (Z.lor a b).
Proof.
  unfold isbyte. intros A B. assert (L : 0 <= Z.lor a b) by (apply Z.lor_nonneg; lia). split; [exact L|].
  destruct (Z.eq_dec (Z.lor a b) 0) as [->|N]; [lia|]. change 256 with (2 ^ 8). apply Z.log2_lt_pow2; [lia|].
  rewrite Z.log2_lor by lia.
  assert (U : forall z, 0 <= z < 256 -> Z.log2 z < 8).
  { intros z Hz. destruct (Z.eq_dec z 0) as [->|]; [vm_compute; reflexivity|]. apply Z.log2_lt_pow2; [lia|exact (proj2 Hz)]. }
  pose proof (U a A). pose proof (U b B). lia.
Qed.

(** Comparison: zero exactly if the arrays agree. *)
Lemma code_faest_timingsafe_bcmp : PositiveMap.find f_faest_timingsafe_bcmp code = Some c_faest_timingsafe_bcmp. Proof. vm_compute. reflexivity. Qed.
Lemma ref_faest_timingsafe_bcmp m b1 o1 b2 o2 n : 0 <= n < 2 ^ 64 -> inb m b1 o1 n -> inb m b2 o2 n ->
  (forall i, 0 <= i < n -> isbyte (byte m b1 (o1 + i))) -> (forall i, 0 <= i < n -> isbyte (byte m b2 (o2 + i))) ->
  calls code f_faest_timingsafe_bcmp [VPtr b1 o1; VPtr b2 o2; VInt n] m (fun v m' =>
    m' = m /\ exists r, v = VInt r /\ (r = 0 <-> forall i, 0 <= i < n -> byte m b1 (o1 + i) = byte m b2 (o2 + i))).
Proof.
  intros N I1 I2 B1 B2. start code_faest_timingsafe_bcmp.
  seq. eapply wp_set; [ev|]. seq. eapply wp_set; [ev|]. seq. eapply wp_set; [ev|]. seq.
  eapply (wp_loop code _ _ _ (fun k e m' => m' = m /\ exists r, has e [(3%positive, VInt (Z.of_nat k)); (4%positive, VPtr b1 (o1 + (n - Z.of_nat k)));
     (5%positive, VPtr b2 (o2 + (n - Z.of_nat k))); (6%positive, VInt r)] /\ Z.of_nat k <= n /\ isbyte r /\
     (r = 0 <-> forall i, 0 <= i < n - Z.of_nat k -> byte m b1 (o1 + i) = byte m b2 (o2 + i)))) with (n := Z.to_nat n).
  - intros k e m' [-> (r & H & L & B & E)]. unhas. split.
    { eexists. split; [ev|]. unfold truth. cbn [int_of]. lia. }
    eapply wp_set; [ev|]. simp. seq. eapply wp_set; [ev|]. seq. eapply wp_set; [ev|]. eapply wp_set; [ev|]. simp.
    split; [reflexivity|]. split; [reflexivity|].
    set (i := n - Z.of_nat (S k)) in *. assert (X := lxor_isbyte _ _ (B1 i ltac:(lia)) (B2 i ltac:(lia))).
    eexists. split; [|split; [lia|]].
    { cbn [has]. splits; [| | |look|exact I]; repeat (rewrite lookup_add; cbn [Pos.eqb]); f_equal; try lia. rewrite wrap_u64; lia. }
    rewrite wrap_u32 by (unfold isbyte in X; lia). split; [apply lor_isbyte; assumption|].
    rewrite Z.lor_eq_0_iff, Z.lxor_eq_0_iff, E. split.
    + intros [A D] q Hq. destruct (Z.eq_dec q i) as [->|]; [exact D|]. apply A. lia.
    + intros A. split; [intros q Hq; apply A; lia|apply A; lia].
  - intros e m' [-> (r & H & L & B & E)]. unhas. split.
    { eexists. split; [ev|]. reflexivity. }
    eapply wp_return; [ev|]. simp. split; [reflexivity|]. eexists. split; [reflexivity|].
    rewrite wrap_s32 by (unfold isbyte in B; lia). rewrite E. replace (n - Z.of_nat 0) with n by lia. reflexivity.
  - split; [reflexivity|]. exists 0. split; [|split; [lia|]].
    { cbn [has]. splits; [| | |look|exact I]; repeat (rewrite lookup_add; cbn [Pos.eqb]); f_equal; lia. }
    split; [unfold isbyte; lia|]. split; [lia|reflexivity].
Qed.

(** Erasure. *)
Lemma code_faest_explicit_bzero : PositiveMap.find f_faest_explicit_bzero code = Some c_faest_explicit_bzero. Proof. vm_compute. reflexivity. Qed.
Lemma ref_faest_explicit_bzero m b o n : 0 <= n < 2 ^ 64 -> inb m b o n ->
  calls code f_faest_explicit_bzero [VPtr b o; VInt n] m (fun v m' =>
    frame m m' (at_ b o n) /\ forall i, 0 <= i < n -> byte m' b (o + i) = 0).
Proof.
  intros N I. start code_faest_explicit_bzero. seq. eapply wp_set; [ev|].
  eapply (wp_loop code _ _ _ (fun k e m' => has e [(2%positive, VInt (Z.of_nat k)); (3%positive, VPtr b (o + (n - Z.of_nat k)))] /\
     Z.of_nat k <= n /\ frame m m' (at_ b o n) /\ forall i, 0 <= i < n - Z.of_nat k -> byte m' b (o + i) = 0)) with (n := Z.to_nat n).
  - intros k e m' (H & L & F & Z). unhas. split.
    { eexists. split; [ev|]. unfold truth. cbn [int_of]. lia. }
    assert (P := proj1 (proj2 I)).
    eapply wp_store1; [ev|ev|inb_in|lia|]. seq. eapply wp_set; [ev|]. eapply wp_set; [ev|]. simp.
    split; [reflexivity|]. split.
    { cbn [has]. splits; [| |exact Logic.I]; repeat (rewrite lookup_add; cbn [Pos.eqb]); f_equal; try lia. rewrite wrap_u64; lia. }
    split; [lia|]. split; [fr|]. intros i Hi. destruct (Z.eq_dec i (n - Z.of_nat (S k))) as [->|D]; rd; [reflexivity|]. apply Z. lia.
  - intros e m' (H & L & F & Z). unhas. split.
    { eexists. split; [ev|]. reflexivity. }
    split; [exact F|]. intros i Hi. apply Z. lia.
  - split.
    { cbn [has]. splits; [| |exact Logic.I]; repeat (rewrite lookup_add; cbn [Pos.eqb]); f_equal; lia. }
    split; [lia|]. split; [apply frame_refl|]. intros. lia.
Qed.

(** Copies. *)
Lemma bytesat_length m b : forall n o, length (bytesat m b o n) = n.
Proof. induction n as [|n IH]; intros o; cbn; [reflexivity|]. rewrite IH. reflexivity. Qed.
Lemma nth_bytesat m b : forall n o k, (k < n)%nat -> nth k (bytesat m b o n) 0 = byte m b (o + Z.of_nat k).
Proof.
  induction n as [|n IH]; intros o k L; [lia|]. destruct k as [|k]; cbn [bytesat nth]; [f_equal; lia|]. rewrite IH by lia. f_equal. lia.
Qed.
Definition copy (m : mem) (b : positive) (o : Z) (b' : positive) (o' n : Z) : mem := setb m b o (bytesat m b' o' (Z.to_nat n)).
Lemma byte_setb m b o l b' p : inb m b o (Z.of_nat (length l)) -> 0 <= p -> byte (setb m b o l) b' p =
  if Pos.eqb b' b && (o <=? p) && (p <? o + Z.of_nat (length l)) then nth (Z.to_nat (p - o)) l 0 else byte m b' p.
Proof. intros I P. unfold byte. rewrite cell_setb by assumption. destruct (_ && _); reflexivity. Qed.
Lemma inb_copy m b o b' o' n c p k : inb (copy m b o b' o' n) c p k <-> inb m c p k.
Proof. apply setc_inb. Qed.
Lemma next_copy m b o b' o' n : mnext (copy m b o b' o' n) = mnext m.
Proof. apply setc_next. Qed.
Lemma byte_copy m b o b' o' n k : inb m b o n -> 0 <= k < n -> byte (copy m b o b' o' n) b (o + k) = byte m b' (o' + k).
Proof.
  intros I L. unfold copy. assert (P := proj1 (proj2 I)). rewrite byte_setb; rewrite ?bytesat_length; [|rewrite Z2Nat.id by lia; exact I|lia].
  rewrite Pos.eqb_refl. destruct (Z.leb_spec o (o + k)); [|lia]. destruct (Z.ltb_spec (o + k) (o + Z.of_nat (Z.to_nat n))); [|lia]. cbn [andb].
  rewrite nth_bytesat by lia. f_equal. lia.
Qed.
Lemma byte_copy_other m b o b' o' n c p : inb m b o n -> 0 <= p -> c <> b \/ p < o \/ o + n <= p -> byte (copy m b o b' o' n) c p = byte m c p.
Proof.
  intros I P D. assert (N := proj1 (proj2 (proj2 I))). unfold copy. rewrite byte_setb; rewrite ?bytesat_length; [|rewrite Z2Nat.id by lia; exact I|lia].
  destruct (Pos.eqb_spec c b), (Z.leb_spec o p), (Z.ltb_spec p (o + Z.of_nat (Z.to_nat n))); cbn [andb]; try reflexivity. exfalso. lia.
Qed.
Lemma frame_copy m b o b' o' n (S : positive -> Z -> Prop) : inb m b o n -> (forall p, o <= p < o + n -> S b p) -> frame m (copy m b o b' o' n) S.
Proof.
  intros I H. assert (N := proj1 (proj2 (proj2 I))). eapply frame_weak; [apply frame_setb; rewrite bytesat_length, Z2Nat.id by lia; exact I|].
  rewrite bytesat_length, Z2Nat.id by lia. intros c p _ _ [-> L]. apply H, L.
Qed.
Lemma frame_copy_at m b o b' o' n : inb m b o n -> frame m (copy m b o b' o' n) (at_ b o n).
Proof. intros I. apply frame_copy; [exact I|]. intros p L. split; [reflexivity|exact L]. Qed.
Lemma wp_copy1 d s n e m b o b' o' k (Q : outcome -> env -> mem -> Prop) : pe e m d (VPtr b o) -> pe e m s (VPtr b' o') -> pe e m n (VInt k) ->
  inb m b o k -> inb m b' o' k -> Q ONormal e (copy m b o b' o' k) -> wp code (SCopy d s n) e m Q.
Proof. apply wp_copy. Qed.
Lemma holds_copy m b o b' o' l : holds m b' o' l -> inb m b o (ofN (lenN l)) -> holds (copy m b o b' o' (ofN (lenN l))) b o l.
Proof. intros [I H] J. split; [apply inb_copy, J|]. intros i L. rewrite byte_copy by (assumption || lia). apply H, L. Qed.

Ltac inb_in ::=
  lazymatch goal with
  | |- inb (set1 _ _ _ _) _ _ _ => apply inb_set1; inb_in
  | |- inb (copy _ _ _ _ _ _) _ _ _ => apply inb_copy; inb_in
  | |- inb (setb _ _ _ _) _ _ _ => unfold setb at 1; apply setc_inb; inb_in
  | |- inb (setv _ _ _ _) _ _ _ => unfold setv at 1; apply setc_inb; inb_in
  | |- inb (fresh ?m _ _) (mnext ?m) _ _ => apply inb_fresh; lia
  | |- inb (fresh ?m _ _) _ _ _ => eapply inb_frame; [apply (frame_fresh m _ _ nothing)|]; inb_in
  | |- inb ?m ?b _ _ =>
      match goal with
      | H : inb m b _ _ |- _ => eapply (inb_sub _ _ _ _ _ _ H); lia
      | H : holds m b _ _ |- _ => eapply (inb_sub _ _ _ _ _ _ (holds_inb _ _ _ _ H)); lia
      | F : frame ?m0 m _ |- _ => apply (inb_frame _ _ _ _ _ _ F); inb_in
      end
  end.
Ltac fr ::=
  lazymatch goal with
  | |- frame ?m ?m _ => apply frame_refl
  | |- frame _ (set1 _ _ _ _) _ => eapply frame_comp; [|apply frame_set1_at; inb_in|in_at]; fr
  | |- frame _ (copy _ _ _ _ _ _) _ => eapply frame_comp; [|apply frame_copy_at; inb_in|in_at]; fr
  | |- frame _ (setb _ _ _ _) _ => eapply frame_comp; [|apply frame_setb; inb_in|in_at]; fr
  | |- frame _ (fresh _ _ _) _ => eapply frame_trans; [|apply frame_fresh]; fr
  | |- frame ?m ?m' _ =>
      match goal with
      | F : frame m m' _ |- _ => eapply (frame_weak _ _ _ _ F); in_at
      | F : frame _ m' _ |- _ => eapply frame_comp; [|exact F|in_at]; fr
      end
  end.
