(** The word-level field code computes the operations of the model (property C44). *)
From Coq Require Import Lia ZifyBool ZifyNat ZifyN.
From Verif.Model Require Import Base Fields Limbs.
From Verif.Spec Require Import FieldSpec WordSpec.
From Verif.Proof Require Import BaseProof FieldProof FieldProps.
Ltac Zify.zify_post_hook ::= Z.div_mod_to_equations.

Definition words_ok (ws : list N) : Prop := Forall (fun w => w < 2 ^ 64) ws.

Lemma value_testbit l i : words_ok l ->
  N.testbit (words_value l) i = N.testbit (nthN l (i / 64) 0) (i mod 64).
Proof.
  intros H. revert i. induction H; intros i; cbn [words_value].
  - unfold nthN. destruct (N.to_nat (i / 64)); simpl; rewrite !N.bits_0; reflexivity.
  - rewrite testbit_add_shift by exact H.
    destruct (i <? 64) eqn:E.
    + replace (i / 64) with 0 by lia. replace (i mod 64) with i by lia. reflexivity.
    + rewrite IHForall. replace (i / 64) with ((i - 64) / 64 + 1) by lia.
      replace (i mod 64) with ((i - 64) mod 64) by lia. rewrite nthN_cons_S. reflexivity.
Qed.

Lemma words_ok_zipw (f : N -> N -> N) a b :
  (forall x y, x < 2 ^ 64 -> y < 2 ^ 64 -> f x y < 2 ^ 64) ->
  words_ok a -> words_ok b -> words_ok (zipw f a b).
Proof.
  intros Hf Ha. revert b. induction Ha; intros [|y b] Hb; simpl; try constructor.
  - inversion Hb; subst. apply Hf; assumption.
  - inversion Hb; subst. apply IHHa. assumption.
Qed.

Lemma words_ok_add a b : words_ok a -> words_ok b -> words_ok (words_add a b).
Proof. apply words_ok_zipw. intros. apply lxor_lt; assumption. Qed.

Lemma lenN_words_add a b : lenN a = lenN b -> lenN (words_add a b) = lenN a.
Proof. intros H. unfold words_add. rewrite lenN_zipw, H. lia. Qed.

Lemma value_add a b : words_ok a -> words_ok b -> lenN a = lenN b ->
  words_value (words_add a b) = N.lxor (words_value a) (words_value b).
Proof.
  intros Ha Hb HL. apply N.bits_inj. intros i.
  rewrite N.lxor_spec, !value_testbit; auto using words_ok_add.
  destruct (N.lt_ge_cases (i / 64) (lenN a)) as [L|L].
  - unfold words_add. rewrite (nthN_zipw _ _ _ _ 0 0) by lia. apply N.lxor_spec.
  - rewrite !nthN_default by (rewrite ?lenN_words_add; lia). rewrite N.bits_0. reflexivity.
Qed.

Lemma element_add b n u v : element b n u -> element b n v -> element b n (words_add u v).
Proof.
  intros (Lu & Wu & Vu) (Lv & Wv & Vv). split; [|split].
  - rewrite lenN_words_add; congruence.
  - apply words_ok_add; assumption.
  - rewrite value_add by (assumption || congruence). apply lxor_lt; assumption.
Qed.
Lemma element_value_add b n u v : element b n u -> element b n v ->
  words_value (words_add u v) = N.lxor (words_value u) (words_value v).
Proof. intros (Lu & Wu & _) (Lv & Wv & _). apply value_add; auto; congruence. Qed.

(** masks *)
Lemma bit_b2n w k : N.land (N.shiftr w k) 1 = b2n (N.testbit w k).
Proof.
  replace (N.testbit w k) with (N.testbit (N.shiftr w k) 0)
    by (rewrite N.shiftr_spec', N.add_0_l; reflexivity).
  destruct (N.shiftr w k) as [|[p|p|]]; reflexivity.
Qed.
Lemma odd_b2n w : N.land w 1 = b2n (N.testbit w 0).
Proof. rewrite <- bit_b2n, N.shiftr_0_r. reflexivity. Qed.

Lemma land_mask w t : w < 2 ^ 64 -> N.land w (neg64 (b2n t)) = if t then w else 0.
Proof.
  intros H. destruct t.
  - change (neg64 (b2n true)) with (N.ones 64). rewrite N.land_ones. apply N.mod_small. exact H.
  - change (neg64 (b2n false)) with 0. apply N.land_0_r.
Qed.
Lemma and_mask v t : words_ok v ->
  words_and_64 v (neg64 (b2n t)) = if t then v else repeat 0 (length v).
Proof.
  intros H. unfold words_and_64. induction H; simpl.
  - destruct t; reflexivity.
  - rewrite land_mask by assumption. rewrite IHForall. destruct t; reflexivity.
Qed.
Lemma value_repeat0 k : words_value (repeat 0 k) = 0.
Proof. induction k; cbn [repeat words_value]; [reflexivity|]. rewrite IHk. reflexivity. Qed.
Lemma words_ok_repeat0 k : words_ok (repeat 0 k).
Proof. apply Forall_forall. intros x Hx. apply repeat_spec in Hx. subst. reflexivity. Qed.

Lemma element_and b n v t : element b n v ->
  element b n (words_and_64 v (neg64 (b2n t))) /\
  words_value (words_and_64 v (neg64 (b2n t))) = if t then words_value v else 0.
Proof.
  intros (L & W & V). rewrite and_mask by exact W. destruct t.
  - split; [split; [|split]; assumption|reflexivity].
  - rewrite value_repeat0. split; [|reflexivity]. split; [|split].
    + rewrite lenN_repeat. exact L.
    + apply words_ok_repeat0.
    + rewrite value_repeat0. apply pow2_pos.
Qed.

Lemma bit_mask v bit : words_ok v -> bit / 64 < lenN v ->
  words_bit_mask v bit = Ok (neg64 (b2n (N.testbit (words_value v) bit))).
Proof.
  intros W H. unfold words_bit_mask. rewrite (aget_ok _ _ 0) by exact H. cbn [bind].
  rewrite bit_b2n, value_testbit by exact W. reflexivity.
Qed.

(** one word of a shifted element *)
Lemma shl64_1 v : shl64 v 1 = 2 * v mod 2 ^ 64.
Proof. unfold shl64. rewrite N.shiftl_mul_pow2. f_equal. lia. Qed.
Lemma shr63 v : N.shiftr v 63 = v / 2 ^ 63.
Proof. apply N.shiftr_div_pow2. Qed.
Lemma lor_carry v c : c < 2 -> N.lor (2 * v mod 2 ^ 64) c = 2 * v mod 2 ^ 64 + c.
Proof.
  intros H. replace (2 * v mod 2 ^ 64) with (2 * (v mod 2 ^ 63)).
  2:{ change (2 ^ 64) with (2 * 2 ^ 63). rewrite N.mul_mod_distr_l by lia. reflexivity. }
  pose proof (add_shift_lor c (v mod 2 ^ 63) 1) as E. change (2 ^ 1) with 2 in E.
  rewrite N.add_comm, (E H), N.lor_comm, N.shiftl_mul_pow2. f_equal. apply N.mul_comm.
Qed.
Lemma carry_lt v : v < 2 ^ 64 -> v / 2 ^ 63 < 2.
Proof. intros H. apply N.div_lt_upper_bound; [lia|]. exact H. Qed.
Lemma shift_word v c : v < 2 ^ 64 -> c < 2 -> 2 * v mod 2 ^ 64 + c < 2 ^ 64.
Proof. intros. change (2 ^ 64) with 18446744073709551616 in *. lia. Qed.
Lemma half_split v : v < 2 ^ 64 -> 2 * v = 2 * v mod 2 ^ 64 + 2 ^ 64 * (v / 2 ^ 63).
Proof.
  intros. change (2 ^ 63) with 9223372036854775808. change (2 ^ 64) with 18446744073709551616 in *. lia.
Qed.
Lemma shl_lt v : 2 * v mod 2 ^ 64 < 2 ^ 64.
Proof. apply N.mod_lt. discriminate. Qed.

Lemma words2 (v : list N) : lenN v = 2 -> exists a b, v = [a; b].
Proof. intros H. destruct v as [|a [|b [|]]]; try (rewrite ?lenN_cons in H; unfold lenN in H; simpl in H; lia). eauto. Qed.
Lemma words3 (v : list N) : lenN v = 3 -> exists a b c, v = [a; b; c].
Proof. intros H. destruct v as [|a [|b [|c [|]]]]; try (rewrite ?lenN_cons in H; unfold lenN in H; simpl in H; lia). eauto. Qed.
Lemma words4 (v : list N) : lenN v = 4 -> exists a b c d, v = [a; b; c; d].
Proof. intros H. destruct v as [|a [|b [|c [|d [|]]]]]; try (rewrite ?lenN_cons in H; unfold lenN in H; simpl in H; lia). eauto 6. Qed.

Lemma mod_unique a n r q : r < 2 ^ n -> a = r + 2 ^ n * q -> a mod 2 ^ n = r.
Proof. intros H E. symmetry. apply (N.mod_unique _ _ q); [exact H|]. lia. Qed.

Lemma land_ones64 x : x < 2 ^ 64 -> N.land x (2 ^ 64 - 1) = x.
Proof. intros H. change (2 ^ 64 - 1) with (N.ones 64). rewrite N.land_ones. apply N.mod_small, H. Qed.

(** shifting a word list left by one bit, carry in [c] *)
Fixpoint shl_list (c : N) (l : list N) : list N :=
  match l with [] => [] | v :: r => (2 * v mod 2 ^ 64 + c) :: shl_list (v / 2 ^ 63) r end.
Fixpoint carry_out (c : N) (l : list N) : N :=
  match l with [] => c | v :: r => carry_out (v / 2 ^ 63) r end.

Lemma pow64_cons (x : N) l : 2 ^ (64 * lenN (x :: l)) = 2 ^ 64 * 2 ^ (64 * lenN l).
Proof. rewrite <- N.pow_add_r, lenN_cons. f_equal. lia. Qed.
Lemma words_value_lt l : words_ok l -> words_value l < 2 ^ (64 * lenN l).
Proof.
  induction 1; cbn [words_value]; [reflexivity|].
  rewrite pow64_cons.
  revert IHForall. generalize (2 ^ (64 * lenN l)), (words_value l). intros p q Hq. nia.
Qed.
Lemma words_value_app a b : words_value (a ++ b) = words_value a + 2 ^ (64 * lenN a) * words_value b.
Proof.
  induction a as [|x a IH]; cbn [words_value app].
  - change (2 ^ (64 * lenN (@nil N))) with 1. lia.
  - rewrite IH, pow64_cons.
    generalize (2 ^ (64 * lenN a)), (2 ^ 64). intros. lia.
Qed.

Lemma shl_list_ok l : words_ok l -> forall c, c < 2 -> words_ok (shl_list c l).
Proof.
  induction 1; intros c Hc; cbn [shl_list]; constructor.
  - apply shift_word; assumption.
  - apply IHForall. apply carry_lt. assumption.
Qed.
Lemma shl_list_len l c : lenN (shl_list c l) = lenN l.
Proof. revert c. induction l; intros c; cbn [shl_list]; [reflexivity|]. rewrite !lenN_cons, IHl. reflexivity. Qed.
Lemma shl_list_value l : words_ok l -> forall c,
  2 * words_value l + c = words_value (shl_list c l) + 2 ^ (64 * lenN l) * carry_out c l.
Proof.
  induction 1; intros c; cbn [shl_list words_value carry_out].
  - change (2 ^ (64 * lenN (@nil N))) with 1. lia.
  - rewrite pow64_cons.
    specialize (IHForall (x / 2 ^ 63)). pose proof (half_split _ H).
    revert IHForall H1. generalize (words_value (shl_list (x / 2 ^ 63) l)) (carry_out (x / 2 ^ 63) l).
    generalize (2 * x mod 2 ^ 64) (words_value l) (2 ^ (64 * lenN l)) (2 ^ 64) (x / 2 ^ 63). intros. nia.
Qed.
Lemma shl_list_mod l : words_ok l ->
  words_value (shl_list 0 l) = 2 * words_value l mod 2 ^ (64 * lenN l).
Proof.
  intros H. symmetry. apply (mod_unique _ _ _ (carry_out 0 l)).
  - rewrite <- (shl_list_len l 0). apply words_value_lt, shl_list_ok; [exact H|reflexivity].
  - rewrite <- shl_list_value by exact H. lia.
Qed.

Ltac split_words :=
  repeat match goal with
  | H : words_ok (_ :: _) |- _ => inversion H; subst; clear H
  | H : Forall _ (_ :: _) |- _ => inversion H; subst; clear H
  | H : words_ok [] |- _ => clear H
  | H : Forall _ [] |- _ => clear H
  end.

Lemma big_cases F g : In (F, g) big_fields -> F = F128 \/ F = F192 \/ F = F256.
Proof. intros H. simpl in H. destruct H as [H|[H|[H|[]]]]; inversion H; auto. Qed.

(** the top word of bf192_t in the vector build *)
Lemma top_word a b c d : words_value [a; b; c; d] < 2 ^ 192 -> d = 0.
Proof.
  cbn [words_value]. change (2 ^ 192) with (2 ^ 64 * (2 ^ 64 * 2 ^ 64)).
  intros H. destruct (N.eq_dec d 0) as [E|E]; [exact E|]. exfalso.
  assert (1 <= d) by lia. revert H. generalize (2 ^ 64). intros p H. nia.
Qed.

Lemma shift_left b F v : F = F128 \/ F = F192 \/ F = F256 -> element b (f_n F) v ->
  exists v', words_shift_left_1 b (f_n F) v = Ok v' /\ element b (f_n F) v' /\
             words_value v' = 2 * words_value v mod 2 ^ f_n F.
Proof.
  intros HF (L & W & V).
  assert (K : forall l, words_ok l -> 64 * lenN l = f_n F -> nwords b (f_n F) = lenN l ->
            element b (f_n F) (shl_list 0 l) /\
            words_value (shl_list 0 l) = 2 * words_value l mod 2 ^ f_n F).
  { intros l Wl E E'. rewrite <- E, <- shl_list_mod by exact Wl. split; [|reflexivity]. split; [|split].
    - rewrite shl_list_len, E. congruence.
    - apply shl_list_ok; [exact Wl|reflexivity].
    - rewrite shl_list_mod by exact Wl. apply N.mod_lt. pose proof (pow2_pos (64 * lenN l)). lia. }
  destruct HF as [->|[->| ->]]; destruct b;
    cbn [f_n F128 F192 F256] in *; change (nwords Words 128) with 2 in *;
    change (nwords Words 192) with 3 in *; change (nwords Words 256) with 4 in *;
    change (nwords Vectors 128) with 2 in *; change (nwords Vectors 192) with 4 in *;
    change (nwords Vectors 256) with 4 in *.
  - destruct (words2 _ L) as (v0 & v1 & ->). split_words. exists (shl_list 0 [v0; v1]). split.
    + cbn [words_shift_left_1 shl_list]. rewrite ?shl64_1, ?shr63, ?N.add_0_r, ?lor_carry by (apply carry_lt; assumption). reflexivity.
    + apply K; [repeat constructor; assumption|reflexivity|reflexivity].
  - destruct (words2 _ L) as (v0 & v1 & ->). split_words. exists (shl_list 0 [v0; v1]). split.
    + cbv [words_shift_left_1 shl_list map words_shift_right_64 bind zipw N.eqb Pos.eqb].
      rewrite ?shl64_1, ?shr63, ?N.add_0_r, ?N.lor_0_r, ?lor_carry by (apply carry_lt; assumption). reflexivity.
    + apply K; [repeat constructor; assumption|reflexivity|reflexivity].
  - destruct (words3 _ L) as (v0 & v1 & v2 & ->). split_words. exists (shl_list 0 [v0; v1; v2]). split.
    + cbn [words_shift_left_1 shl_list]. rewrite ?shl64_1, ?shr63, ?N.add_0_r, ?lor_carry by (apply carry_lt; assumption). reflexivity.
    + apply K; [repeat constructor; assumption|reflexivity|reflexivity].
  - destruct (words4 _ L) as (v0 & v1 & v2 & v3 & ->). pose proof (top_word _ _ _ _ V) as ->.
    split_words. exists (shl_list 0 [v0; v1; v2] ++ [0]). split.
    + cbv [words_shift_left_1 shl_list map words_shift_right_64 bind zipw N.eqb Pos.eqb BFC app].
      rewrite ?shl64_1, ?shr63, ?N.add_0_r, ?N.lor_0_r, ?lor_carry by (apply carry_lt; assumption).
      rewrite !land_ones64 by (apply shl_lt || (apply shift_word; [assumption|apply carry_lt; assumption])).
      rewrite N.land_0_r. reflexivity.
    + assert (Wl : words_ok [v0; v1; v2]) by (repeat constructor; assumption).
      assert (Hm := shl_list_mod _ Wl). change (64 * lenN [v0; v1; v2]) with 192 in Hm.
      assert (Z : forall l, words_value (l ++ [0]) = words_value l).
      { intros l. rewrite words_value_app. cbn [words_value]. lia. }
      rewrite (Z (shl_list 0 [v0; v1; v2])), Hm.
      change [v0; v1; v2; 0] with ([v0; v1; v2] ++ [0]). rewrite (Z [v0; v1; v2]).
      split; [|reflexivity]. split; [|split].
      * rewrite lenN_app, shl_list_len. reflexivity.
      * apply Forall_app. split; [apply shl_list_ok; [exact Wl|reflexivity]|repeat constructor].
      * rewrite (Z (shl_list 0 [v0; v1; v2])), Hm. apply N.mod_lt. discriminate.
  - destruct (words4 _ L) as (v0 & v1 & v2 & v3 & ->). split_words. exists (shl_list 0 [v0; v1; v2; v3]). split.
    + cbn [words_shift_left_1 shl_list]. rewrite ?shl64_1, ?shr63, ?N.add_0_r, ?lor_carry by (apply carry_lt; assumption). reflexivity.
    + apply K; [repeat constructor; assumption|reflexivity|reflexivity].
  - destruct (words4 _ L) as (v0 & v1 & v2 & v3 & ->). split_words. exists (shl_list 0 [v0; v1; v2; v3]). split.
    + cbv [words_shift_left_1 shl_list map words_shift_right_64_256 bind zipw N.eqb Pos.eqb].
      rewrite ?shl64_1, ?shr63, ?N.add_0_r, ?N.lor_0_r, ?lor_carry by (apply carry_lt; assumption). reflexivity.
    + apply K; [repeat constructor; assumption|reflexivity|reflexivity].
Qed.

Definition big (F : field) : Prop := F = F128 \/ F = F192 \/ F = F256.

(** adding the modulus to the lowest word *)
Lemma set0_value x v m : words_ok (x :: v) -> m < 2 ^ 64 ->
  words_ok (N.lxor x m :: v) /\ words_value (N.lxor x m :: v) = N.lxor (words_value (x :: v)) m.
Proof.
  intros W Hm. inversion W as [|? ? Hx Wv]; subst.
  assert (W' : words_ok (N.lxor x m :: v)) by (constructor; [apply lxor_lt; assumption|assumption]).
  split; [exact W'|]. apply N.bits_inj. intros i. rewrite N.lxor_spec, !value_testbit by assumption.
  destruct (N.lt_ge_cases i 64) as [L|L].
  - replace (i / 64) with 0 by lia. replace (i mod 64) with i by lia. unfold nthN. simpl. apply N.lxor_spec.
  - replace (i / 64) with ((i - 64) / 64 + 1) by lia. rewrite !nthN_cons_S.
    rewrite (testbit_high m 64 i Hm L).
    rewrite xorb_false_r. reflexivity.
Qed.

Lemma f_mod_lt F : big F -> f_mod F < 2 ^ 64 /\ f_mod F < 2 ^ f_n F /\ 64 <= f_n F.
Proof. intros [->|[->| ->]]; repeat split; vm_compute; (reflexivity || discriminate). Qed.
Lemma nwords_pos b F : big F -> 0 < nwords b (f_n F).
Proof. intros [->|[->| ->]]; destruct b; reflexivity. Qed.
Lemma nwords_top b F i : big F -> i < f_n F -> i / 64 < nwords b (f_n F).
Proof.
  intros H Hi. assert (f_n F / 64 <= nwords b (f_n F) /\ f_n F mod 64 = 0).
  { destruct H as [->|[->| ->]]; destruct b; split; (reflexivity || (vm_compute; discriminate)). }
  lia.
Qed.

Lemma reduce b F v t : big F -> element b (f_n F) v ->
  computes b (f_n F) (words_reduce b F v (neg64 (b2n t)))
    (N.lxor (words_value v) (if t then f_mod F else 0)).
Proof.
  intros HF (L & W & V). destruct (f_mod_lt _ HF) as (M1 & M2 & _).
  assert (Hm : (if t then f_mod F else 0) < 2 ^ 64) by (destruct t; [exact M1|reflexivity]).
  assert (Hm2 : (if t then f_mod F else 0) < 2 ^ f_n F) by (destruct t; [exact M2|apply pow2_pos]).
  assert (G : computes b (f_n F)
     (let! x := aget v 0 in aset v 0 (N.lxor x (N.land (neg64 (b2n t)) (f_mod F))))
     (N.lxor (words_value v) (if t then f_mod F else 0))).
  { rewrite N.land_comm, land_mask by exact M1.
    destruct v as [|x v]; [pose proof (nwords_pos b F HF); rewrite <- L in H; inversion H|].
    destruct (set0_value x v _ W Hm) as (W' & V').
    exists (N.lxor x (if t then f_mod F else 0) :: v). split; [reflexivity|]. split; [|exact V'].
    split; [|split].
    - rewrite <- L, !lenN_cons. reflexivity.
    - exact W'.
    - rewrite V'. apply lxor_lt; assumption. }
  unfold words_reduce. destruct b; [exact G|].
  destruct (f_n F =? 256) eqn:E; [|exact G]. clear G.
  assert (F = F256) as -> by (destruct HF as [->|[->| ->]]; [discriminate|discriminate|reflexivity]).
  assert (Ec : element Vectors (f_n F256) [f_mod F256; 0; 0; 0]).
  { split; [|split].
    - reflexivity.
    - repeat constructor.
    - reflexivity. }
  destruct (element_and _ _ _ t Ec) as (Ea & Va).
  eexists. split; [reflexivity|]. split.
  - apply element_add; [|exact Ea]. split; [|split]; assumption.
  - rewrite (element_value_add Vectors (f_n F256)); [|split; [|split]; assumption|exact Ea].
    rewrite Va. destruct t; reflexivity.
Qed.

Lemma dbl b F v : big F -> element b (f_n F) v ->
  computes b (f_n F) (words_dbl b F v) (bf_dbl F (words_value v)).
Proof.
  intros HF Hv. pose proof Hv as (L & W & V). unfold words_dbl.
  destruct (f_mod_lt _ HF) as (_ & _ & Hn).
  rewrite bit_mask; [|exact W|rewrite L; apply nwords_top; [exact HF|lia]]. cbn [bind].
  destruct (shift_left b F v HF Hv) as (v' & -> & E' & V'). cbn [bind].
  unfold bf_dbl. rewrite N.shiftl_mul_pow2, N.pow_1_r, (N.mul_comm _ 2), <- V'.
  apply reduce; assumption.
Qed.

Lemma dbl_lt F x : big F -> x < 2 ^ f_n F -> bf_dbl F x < 2 ^ f_n F.
Proof.
  intros HF H. unfold bf_dbl. apply lxor_lt; [apply mod_pow2_lt|].
  destruct (f_mod_lt _ HF) as (_ & M & _). destruct N.testbit; [exact M|apply pow2_pos].
Qed.

(** loops that follow one another *)
Lemma foldM_sim {S T A} (R : S -> T -> Prop) (f : S -> A -> res S) (g : T -> A -> T) l :
  (forall x s t, In x l -> R s t -> exists s', f s x = Ok s' /\ R s' (g t x)) ->
  forall s t, R s t -> exists s', foldM f l s = Ok s' /\ R s' (fold_left g l t).
Proof.
  induction l as [|x l IH]; intros H s t HR; simpl.
  - exists s. split; [reflexivity|exact HR].
  - destruct (H x s t (or_introl eq_refl) HR) as (s1 & -> & H1). cbn [bind].
    apply IH; [|exact H1]. intros y u w Hy. apply H. right. exact Hy.
Qed.
Lemma foldM_simM {S T A} (R : S -> T -> Prop) (f : S -> A -> res S) (g : T -> A -> res T) l :
  (forall x s t t', In x l -> R s t -> g t x = Ok t' -> exists s', f s x = Ok s' /\ R s' t') ->
  forall s t t', R s t -> foldM g l t = Ok t' -> exists s', foldM f l s = Ok s' /\ R s' t'.
Proof.
  induction l as [|x l IH]; intros H s t t' HR; simpl.
  - intros E. inversion E; subst. exists s. split; [reflexivity|exact HR].
  - destruct (g t x) as [t1|] eqn:G; cbn [bind]; try discriminate. intros E.
    destruct (H x s t t1 (or_introl eq_refl) HR G) as (s1 & -> & H1). cbn [bind].
    apply (IH) with (t := t1); [|exact H1|exact E]. intros y u w w' Hy. apply H. right. exact Hy.
Qed.

(** the C value [v] represents [x] *)
Definition rep b n (v : bf) (x : N) : Prop := element b n v /\ words_value v = x.
Lemma rep_add b n u v x y : rep b n u x -> rep b n v y -> rep b n (words_add u v) (N.lxor x y).
Proof. intros (E & <-) (E' & <-). split; [apply element_add; assumption|apply (element_value_add b n); assumption]. Qed.
Lemma rep_and b n v x t : rep b n v x ->
  rep b n (words_and_64 v (neg64 (b2n t))) (if t then x else 0).
Proof. intros (E & <-). destruct (element_and b n v t E) as (E' & V'). split; assumption. Qed.
Lemma rep_lt b n v x : rep b n v x -> x < 2 ^ n.
Proof. intros ((_ & _ & V) & <-). exact V. Qed.

Lemma mul_k b F k u (m : N -> res N) y : big F -> 0 < k ->
  (forall i, i < k -> m i = Ok (neg64 (b2n (N.testbit y i)))) ->
  element b (f_n F) u ->
  computes b (f_n F)
    (let! m0 := m 0 in
     let! s := foldM (fun '(lhs, result) idx =>
                     let! lhs := words_dbl b F lhs in
                     let! m := m idx in
                     Ok (lhs, words_add result (words_and_64 lhs m)))
                  (Nfromto 1 k) (u, words_and_64 u m0) in
     Ok (snd s))
    (bf_mul_k F k (words_value u) y).
Proof.
  intros HF Hk Hm Hu. rewrite Hm by lia. cbn [bind].
  set (R := fun (s : bf * bf) (t : N * N) => rep b (f_n F) (fst s) (fst t) /\ rep b (f_n F) (snd s) (snd t)).
  match goal with |- context [foldM ?f ?l ?s0] =>
    assert (K : exists s', foldM f l s0 = Ok s' /\
      R s' (fold_left (bf_mul_step F y) l (words_value u, if N.testbit y 0 then words_value u else 0)))
  end.
  { apply foldM_sim.
    - intros i [l r] [x z] Hi (Hl & Hr). cbn [fst snd] in *. apply In_Nfromto in Hi.
      destruct Hl as (El & <-). destruct (dbl b F l HF El) as (l' & -> & El' & Vl'). cbn [bind].
      rewrite Hm by lia. cbn [bind]. eexists. split; [reflexivity|].
      assert (Hl' : rep b (f_n F) l' (bf_dbl F (words_value l))) by (split; assumption).
      split; cbn [fst snd bf_mul_step]; [exact Hl'|]. apply rep_add; [exact Hr|]. apply rep_and. exact Hl'.
    - split; cbn [fst snd]; [split; [exact Hu|reflexivity]|]. apply rep_and. split; [exact Hu|reflexivity]. }
  destruct K as (s' & -> & _ & E & V). cbn [bind]. exists (snd s'). split; [reflexivity|].
  split; [exact E|exact V].
Qed.

Lemma mul b F u v : big F -> element b (f_n F) u -> element b (f_n F) v ->
  computes b (f_n F) (words_mul b F u v) (bf_mul F (words_value u) (words_value v)).
Proof.
  intros HF Hu (L & W & V). unfold words_mul.
  apply (mul_k b F (f_n F) u (words_bit_mask v)); [exact HF|destruct (f_mod_lt _ HF) as (_ & _ & H); lia| |exact Hu].
  intros i Hi. apply bit_mask; [exact W|]. rewrite L. apply nwords_top; assumption.
Qed.

Lemma mul_64 b F u y : big F -> element b (f_n F) u ->
  computes b (f_n F) (words_mul_64 b F u y) (bf_mul_64 F (words_value u) y).
Proof.
  intros HF Hu. unfold words_mul_64.
  apply (mul_k b F 64 u (fun i => Ok (bf64_bit_to_mask y i))); [exact HF|lia| |exact Hu].
  intros i Hi. unfold bf64_bit_to_mask. rewrite bit_b2n. reflexivity.
Qed.

Lemma mul_bit b n u y : element b n u ->
  element b n (words_mul_bit u y) /\ words_value (words_mul_bit u y) = bf_mul_bit (words_value u) y.
Proof. intros Hu. unfold words_mul_bit, bf_mul_bit. rewrite odd_b2n. apply element_and. exact Hu. Qed.

Lemma from_bit b F y : big F -> computes b (f_n F) (words_from_bit b (f_n F) y) (bf_from_bit y).
Proof.
  intros HF. unfold words_from_bit, bf_from_bit. rewrite odd_b2n.
  destruct HF as [->|[->| ->]]; destruct b; destruct (N.testbit y 0); 
    (eexists; split; [reflexivity|]; split; [split; [|split]|]; 
     [reflexivity|repeat constructor|reflexivity|reflexivity]).
Qed.
Lemma zero b F : big F -> computes b (f_n F) (Ok (words_zero b (f_n F))) 0.
Proof.
  intros HF. destruct HF as [->|[->| ->]]; destruct b; 
    (eexists; split; [reflexivity|]; split; [split; [|split]|]; 
     [reflexivity|repeat constructor|reflexivity|reflexivity]).
Qed.
Lemma one b F : big F -> computes b (f_n F) (Ok (words_one b (f_n F))) 1.
Proof.
  intros HF. destruct HF as [->|[->| ->]]; destruct b; 
    (eexists; split; [reflexivity|]; split; [split; [|split]|]; 
     [reflexivity|repeat constructor|reflexivity|reflexivity]).
Qed.

(** loading and storing *)
Lemma load_words src : bytes_ok src -> forall k a off,
  off + 8 * (a + N.of_nat k) <= lenN src ->
  exists ws, mapM (fun i => let! s := slice src (off + 8 * i) 8 in Ok (le_val s)) (Nseq a k) = Ok ws /\
    lenN ws = N.of_nat k /\ words_ok ws /\
    words_value ws = le_val (takeN (8 * N.of_nat k) (dropN (off + 8 * a) src)).
Proof.
  intros Hs. induction k as [|k IH]; intros a off H; cbn [Nseq mapM].
  - exists []. split; [reflexivity|]. split; [reflexivity|]. split; [constructor|]. reflexivity.
  - rewrite slice_ok by lia. cbn [bind].
    destruct (IH (a + 1) off) as (ws & -> & L & W & V); [lia|]. cbn [bind].
    set (s := takeN 8 (dropN (off + 8 * a) src)).
    assert (Ls : lenN s = 8) by (unfold s; rewrite lenN_takeN, lenN_dropN; lia).
    assert (Hb : le_val s < 2 ^ 64).
    { replace (2 ^ 64) with (2 ^ (8 * lenN s)) by (rewrite Ls; reflexivity). apply le_val_bound2. apply Forall_takeN, Forall_dropN, Hs. }
    eexists. split; [reflexivity|]. split; [rewrite lenN_cons, L; lia|]. split; [constructor; assumption|].
    cbn [words_value]. rewrite V.
    replace (8 * N.of_nat (S k)) with (8 + 8 * N.of_nat k) by lia.
    rewrite takeN_split, le_val_app. fold s. rewrite Ls. change (2 ^ (8 * 8)) with (2 ^ 64).
    do 2 f_equal. rewrite dropN_dropN. do 3 f_equal. lia.
Qed.

Lemma load b F src off : big F -> bytes_ok src -> off + f_n F / 8 <= lenN src ->
  exists x, bf_load F src off = Ok x /\ computes b (f_n F) (words_load b (f_n F) src off) x.
Proof.
  intros HF Hs H. unfold bf_load. rewrite slice_ok by exact H. cbn [bind]. eexists. split; [reflexivity|].
  assert (E : f_n F / 8 = 8 * (f_n F / 64) /\ 64 * (f_n F / 64) = f_n F).
  { destruct HF as [->|[->| ->]]; split; reflexivity. }
  destruct E as (E & E2).
  destruct (load_words src Hs (N.to_nat (f_n F / 64)) 0 off) as (ws & Hw & L & W & V); [lia|].
  rewrite Nnat.N2Nat.id, N.mul_0_r, N.add_0_r, <- E in V. rewrite Nnat.N2Nat.id in L.
  assert (B : words_value ws < 2 ^ f_n F).
  { rewrite <- E2. rewrite <- L. apply words_value_lt. exact W. }
  unfold words_load, Nrange. rewrite Hw. cbn [bind].
  assert (Z : words_value (ws ++ [0]) = words_value ws) by (rewrite words_value_app; cbn [words_value]; lia).
  destruct b; [|destruct (f_n F =? 192) eqn:E3].
  - exists ws. split; [reflexivity|]. split; [|exact V]. split; [|split]; assumption.
  - exists (ws ++ [0]). split; [reflexivity|]. rewrite <- V. split; [|exact Z]. split; [|split].
    + rewrite lenN_app, L. apply N.eqb_eq in E3. rewrite E3. reflexivity.
    + apply Forall_app. split; [exact W|repeat constructor].
    + rewrite Z. exact B.
  - exists ws. split; [reflexivity|]. split; [|exact V]. split; [|split]; try assumption.
    rewrite L. destruct HF as [->|[->| ->]]; [reflexivity|discriminate|reflexivity].
Qed.

Lemma le_val_8 w : w < 2 ^ 64 -> le_val (le_bytes 8 w) = w.
Proof. intros H. apply le_val_le_bytes. exact H. Qed.
Lemma store b F v : big F -> element b (f_n F) v ->
  words_store (f_n F) v = Ok (bf_store F (words_value v)).
Proof.
  intros HF (L & W & V). 
  assert (K : forall ws m, words_ok ws -> m = (8 * length ws)%nat ->
             le_bytes m (words_value ws) = concat (map (le_bytes 8) ws)).
  { intros ws m Hw ->.
    assert (Q : le_val (concat (map (le_bytes 8) ws)) = words_value ws /\
                lenN (concat (map (le_bytes 8) ws)) = N.of_nat (8 * length ws) /\
                bytes_ok (concat (map (le_bytes 8) ws))).
    { induction Hw; [repeat split; constructor|]. destruct IHHw as (Q1 & Q2 & Q3).
      cbn [map concat]. rewrite le_val_app, lenN_app, lenN_le_bytes, Q1, Q2, le_val_8 by assumption.
      split; [reflexivity|]. split; [cbn [length]; lia|]. apply Forall_app. split; [apply bytes_ok_le_bytes|exact Q3]. }
    destruct Q as (Q1 & Q2 & Q3). rewrite <- Q1. apply le_bytes_le_val; assumption. }
  unfold bf_store.
  destruct HF as [->|[->| ->]]; destruct b;
    cbn [f_n F128 F192 F256] in *; change (nwords Words 128) with 2 in *;
    change (nwords Words 192) with 3 in *; change (nwords Words 256) with 4 in *;
    change (nwords Vectors 128) with 2 in *; change (nwords Vectors 192) with 4 in *;
    change (nwords Vectors 256) with 4 in *.
  - destruct (words2 _ L) as (v0 & v1 & ->). rewrite (K _ _ W) by reflexivity. reflexivity.
  - destruct (words2 _ L) as (v0 & v1 & ->). rewrite (K _ _ W) by reflexivity. reflexivity.
  - destruct (words3 _ L) as (v0 & v1 & v2 & ->). rewrite (K _ _ W) by reflexivity. reflexivity.
  - destruct (words4 _ L) as (v0 & v1 & v2 & v3 & ->). pose proof (top_word _ _ _ _ V) as ->.
    change [v0; v1; v2; 0] with ([v0; v1; v2] ++ [0]) in *.
    rewrite words_value_app. cbn [words_value]. rewrite N.mul_0_r, !N.add_0_r.
    apply Forall_app in W. destruct W as (W & _).
    assert (K' := K [v0; v1; v2] _ W eq_refl). cbn [words_value] in K'. rewrite N.mul_0_r, !N.add_0_r in K'.
    change (N.to_nat (192 / 8)) with (8 * length [v0; v1; v2])%nat. rewrite K'. reflexivity.
  - destruct (words4 _ L) as (v0 & v1 & v2 & v3 & ->). rewrite (K _ _ W) by reflexivity. reflexivity.
  - destruct (words4 _ L) as (v0 & v1 & v2 & v3 & ->). rewrite (K _ _ W) by reflexivity. reflexivity.
Qed.

(** arrays of elements *)
Lemma aget_map_inv {A B} (f : A -> B) l i x d : aget (map f l) i = Ok x ->
  aget l i = Ok (nthN l i d) /\ x = f (nthN l i d) /\ i < lenN l.
Proof.
  intros H. apply (aget_inv _ _ _ (f d)) in H. rewrite lenN_map in H. destruct H as (H & ->).
  split; [apply aget_ok; exact H|]. split; [|exact H]. unfold nthN. apply map_nth.
Qed.
Lemma aget_value (vs : list bf) i x : aget (map words_value vs) i = Ok x ->
  @aget bf vs i = Ok (@nthN bf vs i []) /\ x = words_value (@nthN bf vs i []) /\ i < lenN vs.
Proof. exact (aget_map_inv words_value vs i x []). Qed.
Lemma elements_nth b n (vs : list bf) i : Forall (element b n) vs -> i < lenN vs -> element b n (nthN vs i []).
Proof.
  intros H Hi. rewrite Forall_forall in H. apply H. unfold nthN. apply nth_In. unfold lenN in Hi. lia.
Qed.

Lemma sum_poly b F vs off x : big F -> Forall (element b (f_n F)) vs ->
  bf_sum_poly F (map words_value vs) off = Ok x ->
  computes b (f_n F) (words_sum_poly b F vs off) x.
Proof.
  intros HF Hvs. unfold bf_sum_poly, words_sum_poly.
  destruct (aget (map words_value vs) (off + (f_n F - 1))) as [r|] eqn:E; cbn [bind]; [|discriminate].
  destruct (aget_value _ _ _ E) as (-> & -> & Hi). cbn [bind]. intros H.
  assert (K := @foldM_simM bf N N (rep b (f_n F))).
  edestruct K as (s & Hs & Es & Vs); [|split; [apply (elements_nth b (f_n F) vs _ Hvs Hi)|reflexivity]|exact H|].
  2:{ exists s. split; [exact Hs|]. split; assumption. }
  intros i v y y' Hi' (Ev & <-) Hg.
  destruct (aget (map words_value vs) (off + (f_n F - 1 - i))) as [z|] eqn:E2; cbn [bind] in Hg; [|discriminate].
  destruct (aget_value _ _ _ E2) as (E3 & -> & Hz). inversion Hg; subst; clear Hg.
  destruct (dbl b F v HF Ev) as (v' & -> & Ev' & Vv'). cbn [bind]. rewrite E3. cbn [bind].
  eexists. split; [reflexivity|]. rewrite <- Vv'. apply rep_add; split; auto. apply elements_nth; assumption.
Qed.

Lemma alpha_rep b F i : big F -> i < 7 -> exists a x, aget (alpha_words b (f_n F)) i = Ok a /\
  aget (f_alpha F) i = Ok x /\ rep b (f_n F) a x.
Proof.
  intros HF Hi.
  assert (A : map words_value (alpha_words b (f_n F)) = f_alpha F /\
              Forall (element b (f_n F)) (alpha_words b (f_n F)) /\ lenN (alpha_words b (f_n F)) = 7).
  { destruct HF as [->|[->| ->]]; destruct b; (split; [vm_compute; reflexivity|]; split; [|reflexivity];
      repeat (constructor; [split; [reflexivity|split; [repeat constructor|reflexivity]]|]); constructor). }
  destruct A as (A1 & A2 & A3).
  exists (nthN (alpha_words b (f_n F)) i []), (words_value (nthN (alpha_words b (f_n F)) i [])).
  split; [apply aget_ok; lia|]. split.
  - rewrite <- A1. rewrite (aget_ok _ _ (words_value [])) by (rewrite lenN_map; change (@lenN (list N)) with (@lenN bf); lia). f_equal.
    unfold nthN. apply map_nth.
  - split; [|reflexivity]. apply elements_nth; [exact A2|lia].
Qed.

Lemma byte_combine b F vs off x : big F -> Forall (element b (f_n F)) vs ->
  bf_byte_combine F (map words_value vs) off = Ok x ->
  computes b (f_n F) (words_byte_combine b F vs off) x.
Proof.
  intros HF Hvs. unfold bf_byte_combine, words_byte_combine.
  destruct (aget (map words_value vs) off) as [r|] eqn:E; cbn [bind]; [|discriminate].
  destruct (aget_value _ _ _ E) as (-> & -> & Hi). cbn [bind]. intros H.
  assert (K := @foldM_simM bf N N (rep b (f_n F))).
  edestruct K as (s & Hs & Es & Vs); [|split; [apply (elements_nth b (f_n F) vs _ Hvs Hi)|reflexivity]|exact H|].
  2:{ exists s. split; [exact Hs|]. split; assumption. }
  intros i v y y' Hi' Hv Hg. cbv beta in Hg |- *. apply In_Nfromto in Hi'.
  destruct (aget (map words_value vs) (off + i)) as [z|] eqn:E2; cbn [bind] in Hg; [|discriminate].
  destruct (aget_value _ _ _ E2) as (E3 & -> & Hz). rewrite E3. cbn [bind].
  destruct (alpha_rep b F (i - 1) HF) as (a & ax & -> & Ha & Ea & <-); [lia|]. rewrite Ha in Hg.
  cbn [bind] in Hg. inversion Hg; subst; clear Hg. cbn [bind].
  destruct (mul b F _ a HF (elements_nth _ _ _ _ Hvs Hz) Ea) as (p & -> & Ep & Vp). cbn [bind].
  eexists. split; [reflexivity|]. rewrite <- Vp. apply rep_add; [exact Hv|]. split; auto.
Qed.

Lemma byte_combine_bits b F y x : big F ->
  bf_byte_combine_bits F y = Ok x -> computes b (f_n F) (words_byte_combine_bits b F y) x.
Proof.
  intros HF H. unfold bf_byte_combine_bits in H. unfold words_byte_combine_bits.
  destruct (from_bit b F (N.land y 1) HF) as (v0 & -> & E0 & V0). cbn [bind]. rewrite <- V0 in H.
  assert (K := @foldM_simM bf N N (rep b (f_n F))).
  edestruct K as (s & Hs & Es & Vs); [|split; [exact E0|reflexivity]|exact H|].
  2:{ exists s. split; [exact Hs|]. split; assumption. }
  intros i v z z' Hi' Hv Hg. cbv beta in Hg |- *. apply In_Nfromto in Hi'.
  destruct (alpha_rep b F (i - 1) HF) as (a & ax & -> & Ha & Ea & <-); [lia|]. rewrite Ha in Hg.
  cbn [bind] in Hg. inversion Hg; subst; clear Hg. cbn [bind].
  destruct (mul_bit b (f_n F) a (N.land (N.shiftr y i) 1) Ea) as (Em & Vm).
  eexists. split; [reflexivity|]. apply rep_add; [exact Hv|]. split; [exact Em|]. rewrite Vm. reflexivity.
Qed.

(** GF(2^8) and GF(2^64) *)
Lemma word8_step l m : l < 2 ^ 8 ->
  N.lxor (N.shiftl l 1) (N.land (neg8 (N.land (N.shiftr l 7) 1)) bf8_modulus) mod 2 ^ 8 = bf_dbl F8 l /\
  bf_dbl F8 l < 2 ^ 8 /\
  N.land (neg8 (b2n m)) (bf_dbl F8 l) = if m then bf_dbl F8 l else 0.
Proof.
  intros H. rewrite bit_b2n. unfold bf_dbl. change (f_n F8 - 1) with 7. change (f_n F8) with 8.
  change (f_mod F8) with bf8_modulus.
  assert (M : N.land (neg8 (b2n (N.testbit l 7))) bf8_modulus = if N.testbit l 7 then bf8_modulus else 0).
  { destruct (N.testbit l 7); reflexivity. }
  assert (B : (if N.testbit l 7 then bf8_modulus else 0) < 2 ^ 8) by (destruct (N.testbit l 7); reflexivity).
  assert (Q : N.lxor (N.shiftl l 1 mod 2 ^ 8) (if N.testbit l 7 then bf8_modulus else 0) < 2 ^ 8).
  { apply lxor_lt; [apply mod_pow2_lt|exact B]. }
  split; [|split; [exact Q|]].
  - rewrite M. apply N.bits_inj. intros i. destruct (N.lt_ge_cases i 8) as [L|L].
    + rewrite N.mod_pow2_bits_low, !N.lxor_spec, N.mod_pow2_bits_low by exact L. reflexivity.
    + rewrite N.mod_pow2_bits_high by exact L. symmetry. apply (testbit_high _ 8); assumption.
  - destruct m; [|reflexivity]. change (neg8 (b2n true)) with (N.ones 8).
    rewrite N.land_comm, N.land_ones. apply N.mod_small. exact Q.
Qed.

Lemma fold_sim {S T A} (R : S -> T -> Prop) (f : S -> A -> S) (g : T -> A -> T) l :
  (forall x s t, In x l -> R s t -> R (f s x) (g t x)) ->
  forall s t, R s t -> R (fold_left f l s) (fold_left g l t).
Proof.
  induction l as [|x l IH]; intros H s t HR; simpl; [exact HR|].
  apply IH; [intros y u w Hy; apply H; right; exact Hy|]. apply H; [left; reflexivity|exact HR].
Qed.

Lemma word8 u v : u < 2 ^ 8 -> word8_mul u v = bf8_mul u v.
Proof.
  intros Hu. unfold word8_mul, bf8_mul, bf_mul, bf_mul_k. change (f_n F8) with 8.
  set (R := fun (s t : N * N) => s = t /\ fst t < 2 ^ 8).
  match goal with |- snd ?a = snd ?b => assert (K : R a b) end; [|destruct K as (-> & _); reflexivity].
  apply fold_sim.
  - intros i [l r] t _ (<- & Hl). cbn [fst] in Hl. unfold R, bf_mul_step. cbn [fst snd].
    rewrite (bit_b2n v i). destruct (word8_step l (N.testbit v i) Hl) as (E1 & E2 & E3).
    rewrite E1, E3. split; [reflexivity|exact E2].
  - split; [|exact Hu]. rewrite odd_b2n. f_equal. destruct (N.testbit v 0); [|reflexivity].
    change (neg8 (b2n true)) with (N.ones 8). rewrite N.land_comm, N.land_ones. apply N.mod_small. exact Hu.
Qed.

Lemma word64 u v : u < 2 ^ 64 -> word64_mul u v = bf64_mul u v.
Proof.
  intros Hu. unfold word64_mul, bf64_mul, bf_mul, bf_mul_k. change (f_n F64) with 64.
  set (R := fun (s t : N * N) => s = t /\ fst t < 2 ^ 64).
  match goal with |- snd ?a = snd ?b => assert (K : R a b) end; [|destruct K as (-> & _); reflexivity].
  apply fold_sim.
  - intros i [l r] t _ (<- & Hl). cbn [fst] in Hl. unfold R, bf_mul_step. cbn [fst snd].
    rewrite !bit_b2n.
    assert (E : N.lxor (shl64 l 1) (N.land (neg64 (b2n (N.testbit l 63))) bf64_modulus) = bf_dbl F64 l).
    { rewrite N.land_comm, land_mask by reflexivity. reflexivity. }
    assert (B : bf_dbl F64 l < 2 ^ 64).
    { apply lxor_lt; [apply mod_pow2_lt|]. destruct N.testbit; reflexivity. }
    rewrite E, N.land_comm, land_mask by exact B. split; [reflexivity|exact B].
  - split; [|exact Hu]. rewrite odd_b2n, N.land_comm, land_mask by exact Hu. reflexivity.
Qed.

(** the statements of property C44 *)
Lemma in_big F g : In (F, g) big_fields -> big F.
Proof. apply big_cases. Qed.
Lemma elt_n F g x : In (F, g) big_fields -> x < 2 ^ f_n F -> elt g x.
Proof. intros H Hx. simpl in H. destruct H as [H|[H|[H|[]]]]; inversion H; subst; exact Hx. Qed.

Lemma word_multiplication : forall b F g, In (F, g) big_fields ->
  forall u v, element b (f_n F) u -> element b (f_n F) v ->
  exists w, words_mul b F u v = Ok w /\ element b (f_n F) w /\
            is_gf_product g (words_value u) (words_value v) (words_value w).
Proof.
  intros b F g HF u v Hu Hv. destruct (mul b F u v (in_big _ _ HF) Hu Hv) as (w & E & Ew & V).
  exists w. split; [exact E|]. split; [exact Ew|]. rewrite V.
  destruct (big_fields_in _ _ HF) as (HF' & _).
  apply (mul_is_product_mod_f F g HF').
  - apply (elt_n F g _ HF). apply Hu.
  - apply (elt_n F g _ HF). apply Hv.
Qed.

Lemma word_operations : forall b F g, In (F, g) big_fields ->
  forall u v, element b (f_n F) u -> element b (f_n F) v ->
  computes b (f_n F) (Ok (words_add u v)) (bf_add (words_value u) (words_value v)) /\
  computes b (f_n F) (words_mul b F u v) (bf_mul F (words_value u) (words_value v)) /\
  computes b (f_n F) (words_dbl b F u) (bf_dbl F (words_value u)) /\
  (forall y, y < 2 ^ 64 -> computes b (f_n F) (words_mul_64 b F u y) (bf_mul_64 F (words_value u) y)) /\
  (forall y, y < 256 -> computes b (f_n F) (Ok (words_mul_bit u y)) (bf_mul_bit (words_value u) y)) /\
  (forall y, y < 256 -> computes b (f_n F) (words_from_bit b (f_n F) y) (bf_from_bit y)) /\
  computes b (f_n F) (Ok (words_zero b (f_n F))) bf_zero /\
  computes b (f_n F) (Ok (words_one b (f_n F))) bf_one.
Proof.
  intros b F g HF u v Hu Hv. pose proof (in_big _ _ HF) as B. repeat apply conj.
  - eexists. split; [reflexivity|]. split; [apply element_add; assumption|].
    apply (element_value_add b (f_n F)); assumption.
  - apply mul; assumption.
  - apply dbl; assumption.
  - intros y _. apply mul_64; assumption.
  - intros y _. destruct (mul_bit b (f_n F) u y Hu) as (E & V). eexists. split; [reflexivity|]. split; assumption.
  - intros y _. apply from_bit; assumption.
  - apply zero; assumption.
  - apply one; assumption.
Qed.

Lemma word_combinations : forall b F g, In (F, g) big_fields ->
  (forall vs off, Forall (element b (f_n F)) vs -> off + f_n F <= lenN vs ->
     exists x, bf_sum_poly F (map words_value vs) off = Ok x /\
               computes b (f_n F) (words_sum_poly b F vs off) x) /\
  (forall vs off, Forall (element b (f_n F)) vs -> off + 8 <= lenN vs ->
     exists x, bf_byte_combine F (map words_value vs) off = Ok x /\
               computes b (f_n F) (words_byte_combine b F vs off) x) /\
  (forall y, y < 256 ->
     exists x, bf_byte_combine_bits F y = Ok x /\
               computes b (f_n F) (words_byte_combine_bits b F y) x).
Proof.
  intros b F g HF. pose proof (in_big _ _ HF) as B. repeat apply conj.
  - intros vs off Hvs HL.
    assert (E : exists x, bf_sum_poly F (map words_value vs) off = Ok x).
    { unfold bf_sum_poly. destruct (f_mod_lt _ B) as (_ & _ & Hn).
      rewrite (aget_ok _ _ 0) by (rewrite lenN_map; change (@lenN (list N)) with (@lenN bf); lia). cbn [bind].
      match goal with |- exists x, foldM ?f ?l ?s = Ok x =>
        destruct (foldM_Nfromto_inv f (fun _ _ => True) 1 (f_n F) s) as (x & Hx & _) end; [lia|exact I| |eauto].
      intros i s Hi _. rewrite (aget_ok _ _ 0) by (rewrite lenN_map; change (@lenN (list N)) with (@lenN bf); lia).
      cbn [bind]. eauto. }
    destruct E as (x & E). exists x. split; [exact E|]. apply sum_poly; assumption.
  - intros vs off Hvs HL.
    assert (E : exists x, bf_byte_combine F (map words_value vs) off = Ok x).
    { unfold bf_byte_combine.
      rewrite (aget_ok _ _ 0) by (rewrite lenN_map; change (@lenN (list N)) with (@lenN bf); lia). cbn [bind].
      match goal with |- exists x, foldM ?f ?l ?s = Ok x =>
        destruct (foldM_Nfromto_inv f (fun _ _ => True) 1 8 s) as (x & Hx & _) end; [lia|exact I| |eauto].
      intros i s Hi _. rewrite (aget_ok _ _ 0) by (rewrite lenN_map; change (@lenN (list N)) with (@lenN bf); lia).
      cbn [bind]. destruct (alpha_rep b F (i - 1) B) as (a & ax & _ & -> & _); [lia|]. cbn [bind]. eauto. }
    destruct E as (x & E). exists x. split; [exact E|]. apply byte_combine; assumption.
  - intros y Hy.
    assert (E : exists x, bf_byte_combine_bits F y = Ok x).
    { unfold bf_byte_combine_bits.
      match goal with |- exists x, foldM ?f ?l ?s = Ok x =>
        destruct (foldM_Nfromto_inv f (fun _ _ => True) 1 8 s) as (x & Hx & _) end; [lia|exact I| |eauto].
      intros i s Hi _. destruct (alpha_rep b F (i - 1) B) as (a & ax & _ & -> & _); [lia|]. cbn [bind]. eauto. }
    destruct E as (x & E). exists x. split; [exact E|]. apply byte_combine_bits; assumption.
Qed.

Lemma word_load_store : forall b F g, In (F, g) big_fields ->
  (forall src off, bytes_ok src -> off + f_n F / 8 <= lenN src ->
     computes b (f_n F) (words_load b (f_n F) src off) (le_val (takeN (f_n F / 8) (dropN off src)))) /\
  (forall v, element b (f_n F) v ->
     exists s, words_store (f_n F) v = Ok s /\ bytes_ok s /\ lenN s = f_n F / 8 /\ le_val s = words_value v).
Proof.
  intros b F g HF. pose proof (in_big _ _ HF) as B. split.
  - intros src off Hs HL. destruct (load b F src off B Hs HL) as (x & Hx & C).
    unfold bf_load in Hx. rewrite slice_ok in Hx by exact HL. cbn [bind] in Hx. inversion Hx; subst. exact C.
  - intros v Hv. exists (bf_store F (words_value v)). split; [apply (store b F v B Hv)|].
    unfold bf_store. split; [apply bytes_ok_le_bytes|]. rewrite lenN_le_bytes, Nnat.N2Nat.id. split; [reflexivity|].
    apply le_val_le_bytes. rewrite Nnat.N2Nat.id. destruct Hv as (_ & _ & V).
    replace (256 ^ (f_n F / 8)) with (2 ^ f_n F); [exact V|].
    destruct B as [->|[->| ->]]; reflexivity.
Qed.

Lemma word_builds_agree : forall F g, In (F, g) big_fields ->
  forall x y, bytes_ok x -> bytes_ok y -> lenN x = f_n F / 8 -> lenN y = f_n F / 8 ->
  exists z, bytes_ok z /\ lenN z = f_n F / 8 /\ is_gf_product g (le_val x) (le_val y) (le_val z) /\
    forall b, (let! u := words_load b (f_n F) x 0 in
               let! v := words_load b (f_n F) y 0 in
               let! w := words_mul b F u v in words_store (f_n F) w) = Ok z.
Proof.
  intros F g HF x y Hx Hy Lx Ly.
  assert (K : forall b, exists w, (let! u := words_load b (f_n F) x 0 in
               let! v := words_load b (f_n F) y 0 in
               let! w := words_mul b F u v in words_store (f_n F) w) = Ok (bf_store F (words_value w)) /\
               element b (f_n F) w /\
               words_value w = bf_mul F (le_val x) (le_val y)).
  { intros b. destruct (word_load_store b F g HF) as (HL & HS).
    destruct (HL x 0 Hx) as (u & -> & Eu & Vu); [lia|]. destruct (HL y 0 Hy) as (v & -> & Ev & Vv); [lia|].
    cbn [bind]. destruct (mul b F u v (in_big _ _ HF) Eu Ev) as (w & -> & Ew & Vw). cbn [bind].
    exists w. split; [apply (store b F w (in_big _ _ HF) Ew)|]. split; [exact Ew|].
    rewrite Vw, Vu, Vv. rewrite !dropN_0, !takeN_all by lia. reflexivity. }
  destruct (K Words) as (w & _ & Ew & Vw). destruct (word_load_store Words F g HF) as (_ & HS).
  destruct (HS w Ew) as (z & Hz & Bz & Lz & Vz). exists z. split; [exact Bz|]. split; [exact Lz|]. split.
  - rewrite Vz, Vw. destruct (big_fields_in _ _ HF) as (HF' & _). 
    assert (P : forall q, bytes_ok q -> lenN q = f_n F / 8 -> elt g (le_val q)).
    { intros q Hq Lq. apply (elt_n F g _ HF).
      replace (2 ^ f_n F) with (2 ^ (8 * lenN q)); [apply le_val_bound2; exact Hq|]. rewrite Lq.
      destruct (in_big _ _ HF) as [->|[->| ->]]; reflexivity. }
    apply (mul_is_product_mod_f F g HF'); apply P; assumption.
  - intros b. destruct (K b) as (w' & -> & _ & V'). f_equal. rewrite V', <- Vw.
    pose proof (store Words F w (in_big _ _ HF) Ew) as H1. rewrite Hz in H1. inversion H1. reflexivity.
Qed.

Lemma word_small_fields :
  (forall x y, elt gf8 x -> elt gf8 y -> is_gf_product gf8 x y (word8_mul x y)) /\
  (forall x y, elt gf64 x -> elt gf64 y -> is_gf_product gf64 x y (word64_mul x y)).
Proof.
  split; intros x y Hx Hy.
  - rewrite word8 by exact Hx. apply (mul_is_product_mod_f F8 gf8); [cbn; tauto|exact Hx|exact Hy].
  - rewrite word64 by exact Hx. apply (mul_is_product_mod_f F64 gf64); [cbn; tauto|exact Hx|exact Hy].
Qed.
