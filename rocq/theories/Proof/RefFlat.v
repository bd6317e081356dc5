(** Sequences may be regrouped. *)
From Coq Require Import ZArith List Bool FMapPositive Lia Arith.
From Verif Require Import Model.CtLang Proof.RefLogic.
Import ListNotations.
Local Open Scope Z_scope.

Definition done {A} (r : run A) : Prop := exists t a, r = (t, RDone a).
(** more fuel changes nothing once the end is reached *)
Lemma bind_mono {A B} (r r' : run A) (k k' : A -> run B) : (done r -> r' = r) -> (forall a, done (k a) -> k' a = k a) -> done (bind r k) -> bind r' k' = bind r k.
Proof.
  intros H K (t & b & E). destruct r as [t1 [a| |]]; cbn [bind] in E; try discriminate E. rewrite H by (eexists _, _; reflexivity). cbn [bind].
  rewrite K; [reflexivity|]. destruct (k a) as [t2 [b'| |]]; try discriminate E. eexists _, _. reflexivity.
Qed.
Lemma exec_step P k k1 : (forall s e m, done (exec P k s e m) -> exec P k1 s e m = exec P k s e m) -> forall s e m, done (exec P (S k) s e m) -> exec P (S k1) s e m = exec P (S k) s e m.
Proof.
  intros IH s e m H.
  assert (B : forall s e m (f g : outcome * env * mem -> run (outcome * env * mem)), (forall a, done (g a) -> f a = g a) -> done (bind (exec P k s e m) g) -> bind (exec P k1 s e m) f = bind (exec P k s e m) g).
  { intros. apply bind_mono; [apply IH|assumption|assumption]. }
  assert (C : forall A (r : run A) (f g : A -> run (outcome * env * mem)), (forall a, done (g a) -> f a = g a) -> done (bind r g) -> bind r f = bind r g).
  { intros. apply bind_mono; [reflexivity|assumption|assumption]. }
  destruct s; cbn [exec] in *; try reflexivity.
  - apply B; [|exact H]. intros [[o e'] m'] D. destruct o; [apply IH, D|reflexivity..].
  - apply C; [|exact H]. intros v D. apply C; [|exact D]. intros [] D'. destruct (truth v); apply IH, D'.
  - apply C; [|exact H]. intros v D. apply C; [|exact D]. intros [] D'. destruct (truth v); [|reflexivity]. apply B; [|exact D']. intros [[o e'] m'] D2.
    destruct o; try reflexivity; (apply B; [|exact D2]); intros [[o e''] m''] D3; destruct o; try reflexivity; apply IH, D3.
  - apply C; [|exact H]. intros vs D. apply C; [|exact D]. intros [] D'. destruct (PositiveMap.find f P); [|reflexivity]. apply B; [|exact D']. intros [[o e''] m''] D3. reflexivity.
Qed.
Lemma exec_mono P : forall k s e m, done (exec P k s e m) -> exec P (S k) s e m = exec P k s e m.
Proof. induction k as [|k IH]; intros s e m H; [destruct H as (? & ? & H); discriminate H|]. apply exec_step; assumption. Qed.
Lemma exec_more P k k' s e m t a : (k <= k')%nat -> exec P k s e m = (t, RDone a) -> exec P k' s e m = (t, RDone a).
Proof. intros L E. induction L as [|k' L IH]; [exact E|]. rewrite exec_mono; [exact IH|]. eexists _, _. exact IH. Qed.

Section Flat.
Context (P : program).
Lemma wp_seq_inv a b e m (Q : outcome -> env -> mem -> Prop) : wp P (SSeq a b) e m Q -> wp P a e m (fun o e m => match o with ONormal => wp P b e m Q | _ => Q o e m end).
Proof.
  intros (n & r & H & K). destruct (H (S n) ltac:(lia)) as [t E]. cbn [exec] in E. destruct (exec P n a e m) as [t1 [[[o e1] m1]| |]] eqn:Ea; cbn [bind] in E; try discriminate E.
  exists n, (o, e1, m1). split; [intros k L; exists t1; eapply exec_more; eassumption|].
  destruct o; try (cbn [ret] in E; injection E as _ <-; exact K).
  destruct (exec P n b e1 m1) as [t2 [r'| |]] eqn:Eb; try discriminate E. injection E as _ ->. exists n, r. split; [intros k L; exists t2; eapply exec_more; eassumption|exact K].
Qed.
Fixpoint cat (a c : stmt) : stmt := match a with SSeq x y => SSeq x (cat y c) | _ => SSeq a c end.
Lemma wp_cat c : forall a e m (Q : outcome -> env -> mem -> Prop), wp P (cat a c) e m Q -> wp P (SSeq a c) e m Q.
Proof.
  induction a; intros e0 m0 Q H; try exact H. cbn [cat] in H. apply wp_seq_inv in H. apply wp_seq, wp_seq. eapply wp_weak; [exact H|]. intros o e1 m1 K.
  destruct o; try exact K. apply IHa2 in K. apply wp_seq_inv in K. exact K.
Qed.
Fixpoint flat (s : stmt) : stmt := match s with SSeq a b => cat (flat a) (flat b) | _ => s end.
Theorem wp_flat : forall s e m (Q : outcome -> env -> mem -> Prop), wp P (flat s) e m Q -> wp P s e m Q.
Proof.
  induction s; intros e0 m0 Q H; try exact H. cbn [flat] in H. apply wp_cat, wp_seq_inv in H. apply wp_seq. apply IHs1. eapply wp_weak; [exact H|]. intros o e1 m1 K.
  destruct o; try exact K. apply IHs2, K.
Qed.
End Flat.
