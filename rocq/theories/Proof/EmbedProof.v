(** bf8_inv, and the embedding of GF(2^8) into the big fields. *)
From Verif.Proof Require Import BaseProof.
From Verif.Proof Require Export FieldProof.

Ltac Zify.zify_post_hook ::= Z.div_mod_to_equations.

Lemma forallb_lt (P : N -> bool) n : forallb P (Nrange n) = true -> forall x, x < n -> P x = true.
Proof. intros H x Hx. rewrite forallb_forall in H. apply H, In_Nrange, Hx. Qed.

(** * bf8 *)

Lemma bf8_mul_lt a b : a < 256 -> b < 256 -> bf8_mul a b < 256.
Proof. intros. apply (bf_mul_lt F8 a b F8_ok); assumption. Qed.

Lemma bf8_inv_lt_check : forallb (fun a => bf8_inv a <? 256) (Nrange 256) = true.
Proof. vm_compute. reflexivity. Qed.
Lemma bf8_inv_lt a : a < 256 -> bf8_inv a < 256.
Proof. intros H. pose proof (forallb_lt _ _ bf8_inv_lt_check a H) as C. cbv beta in C. lia. Qed.

Lemma bf8_inv_0 : bf8_inv 0 = 0.
Proof. vm_compute. reflexivity. Qed.

Lemma bf8_inv_check :
  forallb (fun a => (a =? 0) || (bf8_mul a (bf8_inv a) =? 1)) (Nrange 256) = true.
Proof. vm_compute. reflexivity. Qed.

Lemma bf8_inv_r a : a < 256 -> a <> 0 -> bf8_mul a (bf8_inv a) = 1.
Proof.
  intros H H0. pose proof (forallb_lt _ _ bf8_inv_check a H) as C. cbv beta in C. lia.
Qed.

(** * The embedding *)

(** sum of the images of the bits *)
Definition emb (F : field) (x : N) : N := lin (1 :: f_alpha F) x.

Definition big_field (F : field) : Prop := In F [F128; F192; F256].

Lemma big_field_ok F : big_field F -> field_ok F.
Proof.
  intros [<-|[<-|[<-|[]]]]; [apply F128_ok|apply F192_ok|apply F256_ok].
Qed.
Lemma big_field_facts F : big_field F -> exists cols, field_facts F cols.
Proof.
  intros [<-|[<-|[<-|[]]]]; eexists; [apply F128_facts|apply F192_facts|apply F256_facts].
Qed.
#[global] Hint Resolve big_field_ok : core.

Lemma lin_lt cols n x : Forall (fun c => c < 2 ^ n) cols -> lin cols x < 2 ^ n.
Proof.
  revert x. induction cols as [|c cols IH]; intros x H.
  - rewrite lin_nil. apply pow2_pos.
  - inversion_clear H as [|? ? Hc Hcs].
    destruct (N.even x) eqn:E.
    + apply N.even_spec in E. destruct E as [k ->]. rewrite lin_double. apply IH, Hcs.
    + assert (O : N.odd x = true) by (rewrite <- N.negb_even, E; reflexivity).
      apply N.odd_spec in O. destruct O as [k ->]. rewrite lin_double_1.
      apply lxor_lt; [exact Hc|apply IH, Hcs].
Qed.

Lemma emb_lt F x : big_field F -> emb F x < 2 ^ f_n F.
Proof.
  intros HF. apply lin_lt. constructor; [apply one_lt; auto|].
  destruct HF as [<-|[<-|[<-|[]]]]; repeat constructor.
Qed.

Lemma emb_lxor F x y : emb F (N.lxor x y) = N.lxor (emb F x) (emb F y).
Proof. apply lin_lxor. Qed.
Lemma emb_0 F : emb F 0 = 0.
Proof. reflexivity. Qed.
Lemma emb_1 F : emb F 1 = 1.
Proof. reflexivity. Qed.

Definition res_eqb (r : res N) (y : N) : bool := match r with Ok x => x =? y | UB => false end.
Lemma res_eqb_true r y : res_eqb r y = true -> r = Ok y.
Proof. destruct r; simpl; intros; [f_equal; lia|discriminate]. Qed.

Definition emb_bits_check (F : field) : bool :=
  forallb (fun x => res_eqb (bf_byte_combine_bits F x) (emb F x)) (Nrange 256).
Definition emb_inj_check (F : field) : bool :=
  forallb (fun x => (x =? 0) || negb (emb F x =? 0)) (Nrange 256).
Definition emb_mul_check (F : field) : bool :=
  forallb (fun i => forallb (fun j =>
    fmul F (emb F (2 ^ i)) (emb F (2 ^ j)) =? emb F (fmul F8 (2 ^ i) (2 ^ j))) (Nrange 8)) (Nrange 8).

Lemma emb_checks F : big_field F ->
  emb_bits_check F = true /\ emb_inj_check F = true /\ emb_mul_check F = true.
Proof.
  intros [<-|[<-|[<-|[]]]]; (split; [|split]); vm_compute; reflexivity.
Qed.

Lemma byte_combine_bits_emb F x : big_field F -> x < 256 ->
  bf_byte_combine_bits F x = Ok (emb F x).
Proof.
  intros HF Hx. apply res_eqb_true.
  exact (forallb_lt _ _ (proj1 (emb_checks F HF)) x Hx).
Qed.

Lemma emb_zero F x : big_field F -> x < 256 -> emb F x = 0 -> x = 0.
Proof.
  intros HF Hx E. pose proof (forallb_lt _ _ (proj1 (proj2 (emb_checks F HF))) x Hx) as C.
  cbv beta in C. lia.
Qed.

Lemma emb_inj F x y : big_field F -> x < 256 -> y < 256 -> emb F x = emb F y -> x = y.
Proof.
  intros HF Hx Hy E. apply N.lxor_eq. apply (emb_zero F); [assumption| |].
  - apply (lxor_lt x y 8); assumption.
  - rewrite emb_lxor, E. apply N.lxor_nilpotent.
Qed.

Lemma pow2_lt8 k : k < 8 -> 2 ^ k < 2 ^ f_n F8.
Proof. intros H. apply N.pow_lt_mono_r; [lia|exact H]. Qed.

Lemma emb_mul_basis F i j : big_field F -> i < 8 -> j < 8 ->
  emb F (bf_mul F8 (2 ^ i) (2 ^ j)) = bf_mul F (emb F (2 ^ i)) (emb F (2 ^ j)).
Proof.
  intros HF Hi Hj. pose proof (proj2 (proj2 (emb_checks F HF))) as C.
  pose proof (forallb_lt _ _ C i Hi) as Ci. cbv beta in Ci.
  pose proof (forallb_lt _ _ Ci j Hj) as Cij. cbv beta in Cij. clear C Ci.
  apply N.eqb_eq in Cij.
  rewrite (fmul_eq F8) by (auto using F8_ok, pow2_lt8).
  rewrite (fmul_eq F) by (auto using emb_lt). congruence.
Qed.

Lemma emb_mul_basis_l F i y : big_field F -> i < 8 -> y < 2 ^ f_n F8 ->
  emb F (bf_mul F8 (2 ^ i) y) = bf_mul F (emb F (2 ^ i)) (emb F y).
Proof.
  intros HF Hi Hy. pose proof (pow2_lt8 i Hi) as Hp.
  enough (G : y < 2 ^ f_n F8 /\
              emb F (bf_mul F8 (2 ^ i) y) = bf_mul F (emb F (2 ^ i)) (emb F y)) by apply G.
  pattern y. revert y Hy. apply (bits_ind _ (f_n F8)).
  - split; [reflexivity|].
    rewrite (bf_mul_0_r F8) by (auto using F8_ok). rewrite emb_0, (bf_mul_0_r F); auto using emb_lt.
  - intros b j Hj [Hb IH]. pose proof (pow2_lt8 j Hj) as Hq.
    split; [apply lxor_lt; assumption|].
    rewrite (bf_mul_lxor_r F8) by (auto using F8_ok).
    rewrite !emb_lxor, (bf_mul_lxor_r F) by (auto using emb_lt).
    rewrite IH, emb_mul_basis by assumption. reflexivity.
Qed.

Lemma emb_mul F x y : big_field F -> x < 256 -> y < 256 ->
  emb F (bf8_mul x y) = bf_mul F (emb F x) (emb F y).
Proof.
  intros HF Hx Hy. unfold bf8_mul. change 256 with (2 ^ f_n F8) in Hx, Hy.
  enough (G : x < 2 ^ f_n F8 /\
              emb F (bf_mul F8 x y) = bf_mul F (emb F x) (emb F y)) by apply G.
  pattern x. revert x Hx. apply (bits_ind _ (f_n F8)).
  - split; [reflexivity|].
    rewrite (bf_mul_0_l F8) by (auto using F8_ok). rewrite emb_0, (bf_mul_0_l F); auto using emb_lt.
  - intros b j Hj [Hb IH]. pose proof (pow2_lt8 j Hj) as Hq.
    split; [apply lxor_lt; assumption|].
    rewrite (bf_mul_lxor_l F8) by (auto using F8_ok).
    rewrite !emb_lxor, (bf_mul_lxor_l F) by (auto using emb_lt).
    rewrite IH, emb_mul_basis_l by assumption. reflexivity.
Qed.

(** * Combining eight field elements *)

Definition combine8 (F : field) (x : N -> N) : N :=
  N.lxor (N.lxor (N.lxor (N.lxor (N.lxor (N.lxor (N.lxor (x 0)
    (bf_mul F (x 1) (emb F 2))) (bf_mul F (x 2) (emb F 4))) (bf_mul F (x 3) (emb F 8)))
    (bf_mul F (x 4) (emb F 16))) (bf_mul F (x 5) (emb F 32))) (bf_mul F (x 6) (emb F 64)))
    (bf_mul F (x 7) (emb F 128)).

Lemma f_alpha_get F i : big_field F -> 1 <= i -> i < 8 -> aget (f_alpha F) (i - 1) = Ok (emb F (2 ^ i)).
Proof.
  intros HF H1 H2.
  assert (C : forallb (fun i => res_eqb (aget (f_alpha F) (i - 1)) (emb F (2 ^ i))) (Nfromto 1 8) = true).
  { destruct HF as [<-|[<-|[<-|[]]]]; vm_compute; reflexivity. }
  rewrite forallb_forall in C. apply res_eqb_true, C, In_Nfromto. lia.
Qed.

Lemma byte_combine_eq F xs off : big_field F -> off + 8 <= lenN xs ->
  bf_byte_combine F xs off = Ok (combine8 F (fun i => nthN xs (off + i) 0)).
Proof.
  intros HF H. unfold bf_byte_combine.
  rewrite (aget_ok xs off 0) by lia. cbn [bind].
  change (Nfromto 1 8) with [1; 2; 3; 4; 5; 6; 7].
  cbn [foldM].
  repeat (rewrite (aget_ok xs _ 0) by lia; cbn [bind]; rewrite f_alpha_get by (assumption || lia);
          cbn [bind]).
  unfold combine8, bf_add. rewrite N.add_0_r. reflexivity.
Qed.

Lemma combine8_lt F x : field_ok F -> big_field F -> (forall i, i < 8 -> x i < 2 ^ f_n F) ->
  combine8 F x < 2 ^ f_n F.
Proof.
  intros HF HB H. unfold combine8.
  repeat (apply lxor_lt; [|apply bf_mul_lt; auto using emb_lt; apply H; lia]). apply H; lia.
Qed.

(** bits as field elements are combined to the image of the byte *)
Lemma combine8_bits F x : big_field F -> x < 256 ->
  combine8 F (fun i => N.b2n (N.testbit x i)) = emb F x.
Proof.
  intros HF Hx. unfold combine8.
  assert (E : forall b e, e < 2 ^ f_n F -> bf_mul F (N.b2n b) e = if b then e else 0).
  { intros b e He. destruct b; cbn [N.b2n]; [rewrite bf_mul_1_l|rewrite bf_mul_0_l]; auto. }
  rewrite !E by (apply emb_lt; assumption).
  assert (C : forallb (fun x =>
     N.lxor (N.lxor (N.lxor (N.lxor (N.lxor (N.lxor (N.lxor (N.b2n (N.testbit x 0))
       (if N.testbit x 1 then emb F 2 else 0)) (if N.testbit x 2 then emb F 4 else 0))
       (if N.testbit x 3 then emb F 8 else 0)) (if N.testbit x 4 then emb F 16 else 0))
       (if N.testbit x 5 then emb F 32 else 0)) (if N.testbit x 6 then emb F 64 else 0))
       (if N.testbit x 7 then emb F 128 else 0) =? emb F x) (Nrange 256) = true).
  { destruct HF as [<-|[<-|[<-|[]]]]; vm_compute; reflexivity. }
  pose proof (forallb_lt _ _ C x Hx) as Cx. cbv beta in Cx. apply N.eqb_eq in Cx. exact Cx.
Qed.
