(** The offset helpers of faest.c against the format of Spec/FormatSpec.v. *)
From Verif.Model Require Import Faest.
From Verif.Spec Require Import FormatSpec FormatMap.
From Verif.Proof Require Import BaseProof.
From Coq Require Import Lia ZifyBool ZifyNat ZifyN.
Ltac Zify.zify_post_hook ::= Z.div_mod_to_equations.

Fixpoint offs (p : param) (acc : N) (l : list part) : list (N * N) :=
  match l with
  | [] => []
  | x :: l => (acc, part_off p x) :: offs p (acc + part_size p x) l
  end.
Definition layout_check (i : paramid) : bool :=
  let p := param_of i in
  forallb (fun '(a, b) => a =? b) (offs p 0 (parts p)) && (total p (parts p) =? p_sigSize p).
Lemma layout_checked i : layout_check i = true.
Proof. destruct i; vm_compute; reflexivity. Qed.

Lemma offs_split p pre x post : forall acc,
  forallb (fun '(a, b) => a =? b) (offs p acc (pre ++ x :: post)) = true ->
  part_off p x = acc + total p pre.
Proof.
  induction pre as [|y pre IH]; intros acc H; cbn [offs app forallb] in H; apply andb_prop in H; destruct H as [H1 H2].
  - unfold total. cbn. lia.
  - rewrite (IH _ H2). unfold total. cbn. lia.
Qed.

Lemma total_app p a b : total p (a ++ b) = total p a + total p b.
Proof. unfold total. induction a as [|x a IH]; cbn; [lia|]. cbn in IH. lia. Qed.
Lemma total_cons p x b : total p (x :: b) = part_size p x + total p b.
Proof. reflexivity. Qed.

Lemma layout_split i pre x post : parts (param_of i) = pre ++ x :: post ->
  part_off (param_of i) x = total (param_of i) pre.
Proof.
  intros E. pose proof (layout_checked i) as H. unfold layout_check in H. apply andb_prop in H. destruct H as [H _].
  rewrite E in H. apply offs_split in H. lia.
Qed.
Lemma layout_total i : total (param_of i) (parts (param_of i)) = p_sigSize (param_of i).
Proof. pose proof (layout_checked i) as H. unfold layout_check in H. apply andb_prop in H. destruct H as [_ H]. lia. Qed.

Lemma part_bound i x : In x (parts (param_of i)) ->
  part_off (param_of i) x + part_size (param_of i) x <= p_sigSize (param_of i).
Proof.
  intros H. apply in_split in H. destruct H as (pre & post & E).
  rewrite (layout_split i pre x post E), <- layout_total, E, total_app, total_cons. lia.
Qed.

(** two parts at different places of the list do not overlap *)
Lemma parts_ordered i a x b y c : parts (param_of i) = a ++ x :: b ++ y :: c ->
  part_off (param_of i) x + part_size (param_of i) x <= part_off (param_of i) y.
Proof.
  intros E. rewrite (layout_split i a x (b ++ y :: c) E).
  rewrite (layout_split i (a ++ x :: b) y c); [|rewrite E, <- app_assoc; reflexivity].
  rewrite total_app, total_cons. lia.
Qed.

Definition disjoint_ranges (a n b m : N) : Prop := a + n <= b \/ b + m <= a.
Lemma parts_disjoint i x y : In x (parts (param_of i)) -> In y (parts (param_of i)) -> x <> y ->
  disjoint_ranges (part_off (param_of i) x) (part_size (param_of i) x) (part_off (param_of i) y) (part_size (param_of i) y).
Proof.
  intros Hx Hy Hne. apply in_split in Hx. destruct Hx as (a & b & E). rewrite E in Hy.
  apply in_app_or in Hy. destruct Hy as [Hy|[Hy|Hy]].
  - apply in_split in Hy. destruct Hy as (a1 & a2 & ->). right. apply (parts_ordered i a1 y a2 x b).
    rewrite E, <- app_assoc. reflexivity.
  - contradiction.
  - apply in_split in Hy. destruct Hy as (b1 & b2 & ->). left. exact (parts_ordered i a x b1 y b2 E).
Qed.

Lemma parts_cover i n : n < p_sigSize (param_of i) -> exists x, In x (parts (param_of i)) /\
  part_off (param_of i) x <= n < part_off (param_of i) x + part_size (param_of i) x.
Proof.
  intros Hn. rewrite <- layout_total in Hn.
  assert (G : forall post pre, parts (param_of i) = pre ++ post -> total (param_of i) pre <= n ->
    n < total (param_of i) pre + total (param_of i) post -> exists x, In x (parts (param_of i)) /\
    part_off (param_of i) x <= n < part_off (param_of i) x + part_size (param_of i) x).
  { induction post as [|x post IH]; intros pre E H1 H2; [unfold total in H2 at 2; cbn in H2; lia|].
    rewrite total_cons in H2. destruct (N.lt_ge_cases n (total (param_of i) pre + part_size (param_of i) x)) as [H|H].
    - exists x. rewrite (layout_split i pre x post E). split; [|lia]. rewrite E. apply in_or_app. right. left. reflexivity.
    - apply (IH (pre ++ [x])).
      + rewrite <- app_assoc. exact E.
      + rewrite total_app, total_cons. unfold total at 2. cbn. lia.
      + rewrite total_app, total_cons. unfold total at 2. cbn. lia. }
  apply (G (parts (param_of i)) []); [reflexivity| |]; unfold total at 1; cbn; lia.
Qed.

Lemma concat_len_total p (f : part -> list N) l : (forall x, In x l -> lenN (f x) = part_size p x) ->
  lenN (concat (map f l)) = total p l.
Proof.
  induction l as [|x l IH]; intros H; [reflexivity|]. cbn [map concat]. rewrite lenN_app, total_cons.
  rewrite H by (left; reflexivity). rewrite IH; [reflexivity|]. intros y Hy. apply H. right. exact Hy.
Qed.

Lemma parse_serialised i (f : part -> list N) :
  (forall x, In x (parts (param_of i)) -> lenN (f x) = part_size (param_of i) x) ->
  lenN (concat (map f (parts (param_of i)))) = p_sigSize (param_of i) /\
  forall x, In x (parts (param_of i)) ->
    slice (concat (map f (parts (param_of i)))) (part_off (param_of i) x) (part_size (param_of i) x) = Ok (f x).
Proof.
  intros Hf. assert (HL : lenN (concat (map f (parts (param_of i)))) = p_sigSize (param_of i)).
  { rewrite (concat_len_total (param_of i)) by exact Hf. apply layout_total. }
  split; [exact HL|]. intros x Hx. rewrite slice_ok by (rewrite HL; apply part_bound, Hx). f_equal.
  apply in_split in Hx. destruct Hx as (a & b & E). rewrite (layout_split i a x b E). rewrite E in *.
  rewrite map_app. cbn [map]. rewrite concat_app. cbn [concat].
  rewrite <- (concat_len_total (param_of i) f a) by (intros y Hy; apply Hf, in_or_app; left; exact Hy).
  rewrite dropN_app_exact. rewrite <- (Hf x) by (apply in_or_app; right; left; reflexivity). apply takeN_app_exact.
Qed.

(** a buffer is determined by its parts *)
Lemma parts_determine i (sig : list N) (f : part -> list N) : lenN sig = p_sigSize (param_of i) ->
  (forall x, In x (parts (param_of i)) ->
     slice sig (part_off (param_of i) x) (part_size (param_of i) x) = Ok (f x)) ->
  sig = concat (map f (parts (param_of i))).
Proof.
  intros HL HS.
  assert (Hf : forall x, In x (parts (param_of i)) -> lenN (f x) = part_size (param_of i) x).
  { intros x Hx. pose proof (HS x Hx) as H. apply slice_inv in H. apply H. }
  destruct (parse_serialised i f Hf) as [H1 H2].
  apply (list_ext 0); [lia|]. intros n Hn. rewrite HL in Hn.
  destruct (parts_cover i n Hn) as (x & Hx & Hr).
  replace n with (part_off (param_of i) x + (n - part_off (param_of i) x)) by lia.
  rewrite <- (nthN_slice _ _ _ _ _ 0 (HS x Hx)) by lia.
  rewrite <- (nthN_slice _ _ _ _ _ 0 (H2 x Hx)) by lia. reflexivity.
Qed.

(** membership *)
Lemma In_upto n t : In t (upto n) <-> t < n.
Proof.
  unfold upto. rewrite in_map_iff. split.
  - intros (k & <- & H). apply in_seq in H. lia.
  - intros H. exists (N.to_nat t). split; [lia|]. apply in_seq. lia.
Qed.
Lemma In_parts p x : In x (parts p) <->
  match x with
  | Correction i => i < p_tau p - 1
  | Opening t | Com t => t < p_tau p
  | _ => True
  end.
Proof.
  unfold parts. rewrite !in_app_iff, in_map_iff, in_flat_map. destruct x; cbn [In];
    split; intros H; try tauto;
    repeat match goal with
    | H : _ \/ _ |- _ => destruct H
    | H : exists _, _ |- _ => destruct H
    | H : _ /\ _ |- _ => destruct H
    | H : In _ (upto _) |- _ => apply In_upto in H
    | H : False |- _ => destruct H
    end; try discriminate; try congruence.
  - left. exists i. split; [reflexivity|]. apply In_upto, H.
  - do 2 right. left. exists t. split; [apply In_upto, H|]. tauto.
  - do 2 right. left. exists t. split; [apply In_upto, H|]. tauto.
Qed.
