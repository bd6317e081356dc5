(** Roots of polynomials over the fields, and counting. *)
From Verif.Model Require Import Base Fields UHash.
From Verif.Spec Require Import FormatSpec VoleSpec UHashSpec CountSpec.
From Verif.Proof Require Import BaseProof PolyProof FieldProof EmbedProof UHashProof.
From Coq Require Import Lia ZifyBool ZifyNat ZifyN.
Ltac Zify.zify_post_hook ::= Z.div_mod_to_equations.

(** * Counting through lists that contain everything *)
Definition covered {A : Type} (n : N) (P : A -> Prop) : Prop := exists L, lenN L <= n /\ forall x, P x -> In x L.

Lemma covered_at_most {A} n (P : A -> Prop) : covered n P -> at_most n P.
Proof.
  intros (L & HL & HI) l HN HP. rewrite Forall_forall in HP.
  assert (H : (length l <= length L)%nat) by (apply NoDup_incl_length; [exact HN|intros x Hx; apply HI, HP, Hx]).
  unfold lenN in HL. lia.
Qed.
Lemma covered_le {A} n m (P : A -> Prop) : n <= m -> covered n P -> covered m P.
Proof. intros H (L & HL & HI). exists L. split; [lia|exact HI]. Qed.
Lemma covered_impl {A} n (P Q : A -> Prop) : (forall x, Q x -> P x) -> covered n P -> covered n Q.
Proof. intros H (L & HL & HI). exists L. split; [exact HL|]. intros x Hx. apply HI, H, Hx. Qed.
Lemma covered_or {A} n m (P Q : A -> Prop) : covered n P -> covered m Q -> covered (n + m) (fun x => P x \/ Q x).
Proof.
  intros (L & HL & HI) (M & HM & HJ). exists (L ++ M). split; [rewrite lenN_app; lia|].
  intros x [H|H]; apply in_or_app; auto.
Qed.
Lemma covered_map {A B} n (f : A -> B) (P : A -> Prop) (Q : B -> Prop) : (forall y, Q y -> exists x, P x /\ f x = y) -> covered n P -> covered n Q.
Proof.
  intros H (L & HL & HI). exists (map f L). split; [rewrite lenN_map; exact HL|].
  intros y Hy. destruct (H y Hy) as (x & Hx & <-). apply in_map, HI, Hx.
Qed.
Lemma covered_prod {A B} n m (P : A -> Prop) (Q : B -> Prop) : covered n P -> covered m Q -> covered (n * m) (fun xy => P (fst xy) /\ Q (snd xy)).
Proof.
  intros (L & HL & HI) (M & HM & HJ). exists (list_prod L M). split.
  - unfold lenN in *. rewrite prod_length. rewrite Nnat.Nat2N.inj_mul. apply N.mul_le_mono; assumption.
  - intros [x y] [H1 H2]. apply in_prod; [apply HI, H1|apply HJ, H2].
Qed.
Lemma covered_below n : covered n (fun x => x < n).
Proof. exists (Nrange n). split; [rewrite lenN_Nrange; lia|]. intros x Hx. apply In_Nrange, Hx. Qed.
(** what is at most [n] below a bound is covered *)
Lemma NoDup_Nrange n : NoDup (Nrange n).
Proof.
  unfold Nrange. generalize 0. induction (N.to_nat n) as [|m IH]; intros k; cbn [Nseq]; constructor; [|apply IH].
  assert (H : forall m k x, In x (Nseq k m) -> k <= x).
  { clear. induction m as [|m IH]; intros k x; cbn [Nseq]; intros []; [lia|]. pose proof (IH _ _ H). lia. }
  intros HI. apply H in HI. lia.
Qed.
Lemma at_most_covered n m (P : N -> bool) : at_most n (fun x => x < m /\ P x = true) -> covered n (fun x => x < m /\ P x = true).
Proof.
  intros H. exists (filter P (Nrange m)). split.
  - apply H; [apply NoDup_filter, NoDup_Nrange|]. apply Forall_forall. intros x Hx. apply filter_In in Hx. destruct Hx as [Hx Px].
    split; [apply In_Nrange, Hx|exact Px].
  - intros x [Hx Px]. apply filter_In. split; [apply In_Nrange, Hx|exact Px].
Qed.

(** * Roots *)
Section Roots.
Variable F : field.
Variable cols : list N.
Hypothesis HFF : field_facts F cols.
Let HF : field_ok F := proj1 HFF.
Local Notation small := (Forall (fun v => v < 2 ^ f_n F)).
Local Infix "*f" := (bf_mul F) (at level 40).
Local Infix "+f" := N.lxor (at level 50).

(** value at [s] of acc X^n + x_1 X^(n-1) + .. + x_n *)
Definition ev (s acc : N) (xs : list N) : N := fold_left (fun h v => (h *f s) +f v) xs acc.
Fixpoint quo (a acc : N) (xs : list N) : list N :=
  match xs with [] => [] | x :: xs => acc :: quo a ((acc *f a) +f x) xs end.

Lemma ev_lt s acc xs : s < 2 ^ f_n F -> acc < 2 ^ f_n F -> small xs -> ev s acc xs < 2 ^ f_n F.
Proof using HFF.
  unfold ev. intros Hs Ha HX. revert acc Ha. induction HX as [|x xs Hx HX IH]; intros acc Ha; [exact Ha|].
  cbn [fold_left]. apply IH. apply lxor_lt; [apply bf_mul_lt; assumption|exact Hx].
Qed.
Lemma quo_small a acc xs : a < 2 ^ f_n F -> acc < 2 ^ f_n F -> small xs -> small (quo a acc xs).
Proof using HFF.
  intros Hs Ha HX. revert acc Ha. induction HX as [|x xs Hx HX IH]; intros acc Ha; cbn [quo]; constructor; [exact Ha|].
  apply IH. apply lxor_lt; [apply bf_mul_lt; assumption|exact Hx].
Qed.
Lemma quo_length a acc xs : length (quo a acc xs) = length xs.
Proof. revert acc. induction xs as [|x xs IH]; intros acc; cbn [quo length]; [reflexivity|]. rewrite IH. reflexivity. Qed.
Lemma ev_cons s acc x xs : ev s acc (x :: xs) = ev s ((acc *f s) +f x) xs.
Proof. reflexivity. Qed.

Lemma ev_quo s a xs : s < 2 ^ f_n F -> a < 2 ^ f_n F -> small xs -> forall q acc, q < 2 ^ f_n F -> acc < 2 ^ f_n F ->
  ev s (((s +f a) *f q) +f acc) xs = ((s +f a) *f ev s q (quo a acc xs)) +f ev a acc xs.
Proof using HFF.
  intros Hs Ha HX. induction HX as [|x xs Hx HX IH]; intros q acc Hq Hacc; [reflexivity|].
  cbn [quo]. rewrite !ev_cons.
  assert (L1 : q *f s < 2 ^ f_n F) by (apply bf_mul_lt; assumption).
  assert (L2 : acc *f a < 2 ^ f_n F) by (apply bf_mul_lt; assumption).
  assert (L3 : acc *f s < 2 ^ f_n F) by (apply bf_mul_lt; assumption).
  assert (L4 : s +f a < 2 ^ f_n F) by (apply lxor_lt; assumption).
  rewrite <- IH by (try apply lxor_lt; assumption). f_equal.
  rewrite (bf_mul_lxor_r F _ _ _ HF L4 L1 Hacc).
  rewrite (bf_mul_lxor_l F ((s +f a) *f q) acc s HF) by (try assumption; apply bf_mul_lt; assumption).
  rewrite (bf_mul_assoc F (s +f a) q s HF L4 Hq Hs).
  rewrite (bf_mul_lxor_l F s a acc HF Hs Ha Hacc). rewrite (bf_mul_comm F s acc HF Hs Hacc), (bf_mul_comm F a acc HF Ha Hacc).
  generalize ((s +f a) *f (q *f s)) (acc *f s) (acc *f a). intros u v w.
  apply N.bits_inj. intros k. rewrite !N.lxor_spec. destruct (N.testbit u k), (N.testbit v k), (N.testbit w k), (N.testbit x k); reflexivity.
Qed.

Lemma quo_zero a xs : a < 2 ^ f_n F -> small xs -> forall acc, acc < 2 ^ f_n F ->
  Forall (fun v => v = 0) (quo a acc xs) -> ev a acc xs = 0 -> acc = 0 /\ Forall (fun v => v = 0) xs.
Proof using HFF.
  intros Ha HX. induction HX as [|x xs Hx HX IH]; intros acc Hacc HQ HE; [split; [exact HE|constructor]|].
  cbn [quo] in HQ. inversion HQ as [|? ? Z1 Z2]; subst. rewrite ev_cons in HE. rewrite bf_mul_0_l in * by assumption.
  rewrite N.lxor_0_l in *. destruct (IH x Hx Z2 HE) as [-> Z3]. split; [reflexivity|constructor; [reflexivity|exact Z3]].
Qed.

(** a polynomial with n coefficients, not all zero, has at most n - 1 roots *)
Lemma roots : forall xs, small xs -> ~ Forall (fun v => v = 0) xs ->
  at_most (lenN xs - 1) (fun s => s < 2 ^ f_n F /\ ev s 0 xs = 0).
Proof using HFF.
  intros xs. remember (length xs) as n eqn:En. revert xs En.
  induction n as [|n IH]; intros xs En HX HZ; [destruct xs; [exfalso; apply HZ; constructor|discriminate]|].
  destruct xs as [|x xs]; [discriminate|]. injection En as En. inversion HX as [|? ? Hx HX']; subst.
  intros l HN HP. destruct l as [|a l]; [apply N.le_0_l|]. inversion HN as [|? ? Hna HN']; subst. inversion HP as [|? ? [Ha Ea] HP']; subst.
  assert (E0 : forall s, s < 2 ^ f_n F -> ev s 0 (x :: xs) = ev s x xs).
  { intros s Hs. rewrite ev_cons, bf_mul_0_l, N.lxor_0_l by assumption. reflexivity. }
  rewrite E0 in Ea by exact Ha.
  assert (HQ : small (quo a x xs)) by (apply quo_small; assumption).
  assert (NZ : ~ Forall (fun v => v = 0) (quo a x xs)).
  { intros Z. destruct (quo_zero a xs Ha HX' x Hx Z Ea) as [-> Z2]. apply HZ. constructor; [reflexivity|exact Z2]. }
  assert (LQ : length (quo a x xs) = length xs) by apply quo_length.
  specialize (IH (quo a x xs) (eq_sym LQ) HQ NZ l HN').
  assert (HR : Forall (fun s => s < 2 ^ f_n F /\ ev s 0 (quo a x xs) = 0) l).
  { apply Forall_forall. intros s Hs. rewrite Forall_forall in HP'. destruct (HP' s Hs) as [Ls Es]. split; [exact Ls|]. rewrite E0 in Es by exact Ls.
    pose proof (ev_quo s a xs Ls Ha HX' 0 x (pow2_pos _) Hx) as K.
    rewrite bf_mul_0_r in K by (try assumption; apply lxor_lt; assumption). rewrite N.lxor_0_l, Es, Ea, N.lxor_0_r in K.
    destruct (bf_mul_integral F cols _ _ HFF (lxor_lt _ _ _ Ls Ha) (ev_lt s 0 _ Ls (pow2_pos _) HQ) (eq_sym K)) as [Z|Z]; [|exact Z].
    exfalso. apply N.lxor_eq in Z. subst s. contradiction. }
  specialize (IH HR). unfold lenN in *. cbn [length]. rewrite LQ in IH.
  destruct xs as [|x' xs]; [exfalso; apply NZ; constructor|]. cbn [length] in *. lia.
Qed.

Lemma roots_covered m xs : m <= f_n F -> small xs -> ~ Forall (fun v => v = 0) xs ->
  covered (lenN xs - 1) (fun s => s < 2 ^ m /\ (ev s 0 xs =? 0) = true).
Proof using HFF.
  intros Hm HX HZ. apply at_most_covered. intros l HN HP. apply (roots xs HX HZ l HN).
  rewrite Forall_forall in *. intros s Hs. destruct (HP s Hs) as [A B]. split; [|lia].
  eapply N.lt_le_trans; [exact A|]. apply N.pow_le_mono_r; [discriminate|exact Hm].
Qed.
End Roots.
