(** Functions that publish nothing. *)
From Coq Require Import ZArith List Bool FMapPositive Lia.
From Verif Require Import Model.CtLang Model.CtNames Model.CtProgram Spec.CtSpec Proof.CtTable.
Import ListNotations.
Local Open Scope Z_scope.

(** The functions a statement calls. *)
Fixpoint calls (s : stmt) : list positive :=
  match s with
  | SSeq a b | SIf _ a b | SLoop _ a b => calls a ++ calls b
  | SCall _ f _ => [f]
  | _ => []
  end.

Definition quiet_stmt (fs : list positive) (s : stmt) : Prop := publications s = [] /\ incl (calls s) fs.
Definition quiet_set (P : program) (fs : list positive) : Prop :=
  forall f fn, In f fs -> PositiveMap.find f P = Some fn -> quiet_stmt fs (fbody fn).

Lemma pub_bind {A B} (m : run A) (k : A -> run B) :
  published (fst m) = [] -> (forall a, snd m = RDone a -> published (fst (k a)) = []) -> published (fst (bind m k)) = [].
Proof.
  destruct m as [t [a| |]]; cbn [bind fst snd]; intros H K; try exact H. rewrite published_app, H, K by reflexivity. reflexivity.
Qed.

Ltac qb := repeat first
  [ reflexivity | assumption
  | match goal with
    | |- published (fst (bind _ _)) = [] => apply pub_bind; [|intros]
    | |- published (fst (match ?x with _ => _ end)) = [] => destruct x
    | |- published (fst (if ?x then _ else _)) = [] => destruct x
    end ].

Lemma load_quiet m p n : published (fst (load m p n)) = [].
Proof. unfold load. qb. Qed.
Lemma store_quiet m p n w : published (fst (store m p n w)) = [].
Proof. unfold store. qb. Qed.

Lemma eval_quiet e m : forall a, published (fst (eval e m a)) = [].
Proof. induction a; cbn [eval]; qb; apply load_quiet. Qed.
Lemma evals_quiet e m : forall l, published (fst (evals e m l)) = [].
Proof. induction l; cbn [evals]; qb. apply eval_quiet. Qed.

Lemma exec_quiet P fs : quiet_set P fs -> forall fuel s e m, quiet_stmt fs s -> published (fst (exec P fuel s e m)) = [].
Proof.
  intros Q. induction fuel as [|fuel IH]; intros s e m [U V]; [reflexivity|].
  assert (W : forall a b, publications a ++ publications b = [] -> incl (calls a ++ calls b) fs -> quiet_stmt fs a /\ quiet_stmt fs b).
  { intros a b X Y. apply app_eq_nil in X as [X1 X2]. split; split; auto; intros z Hz; apply Y, in_or_app; auto. }
  destruct s; cbn [exec]; cbn [publications calls] in U, V; try discriminate U.
  - reflexivity.
  - destruct (W _ _ U V). qb; apply IH; assumption.
  - qb; apply eval_quiet.
  - qb; first [apply eval_quiet | apply store_quiet].
  - qb; first [apply eval_quiet | apply store_quiet].
  - qb; first [apply eval_quiet | apply store_quiet].
  - destruct (W _ _ U V). qb; first [apply eval_quiet | apply IH; assumption].
  - destruct (W _ _ U V). qb; first [apply eval_quiet | apply IH; first [assumption | split; assumption]].
  - reflexivity.
  - reflexivity.
  - qb; apply eval_quiet.
  - apply pub_bind; [apply evals_quiet|intros vs _]. apply pub_bind; [reflexivity|intros _ _].
    destruct (PositiveMap.find f P) as [fn|] eqn:F; [|reflexivity].
    apply pub_bind; [apply IH; apply (Q f fn); [apply V; left; reflexivity|exact F]|intros]. qb.
  - qb; apply eval_quiet.
  - qb; first [apply eval_quiet | apply load_quiet | apply store_quiet].
  - qb; first [apply eval_quiet | apply load_quiet | apply store_quiet].
  - reflexivity.
  - qb; apply eval_quiet.
Qed.

Lemma call_quiet P fs : quiet_set P fs -> forall fuel f args m, In f fs -> published (fst (call P fuel f args m)) = [].
Proof.
  intros Q fuel f args m I. unfold call. destruct (PositiveMap.find f P) as [fn|] eqn:F; [|reflexivity].
  apply pub_bind; [apply (exec_quiet P fs Q); apply (Q f fn I F)|intros]. qb.
Qed.

Definition quietb (P : program) (fs : list positive) : bool :=
  forallb (fun f => match PositiveMap.find f P with
                    | Some fn => match publications (fbody fn) with [] => forallb (fun g => existsb (Pos.eqb g) fs) (calls (fbody fn)) | _ => false end
                    | None => true
                    end) fs.
Lemma quietb_ok P fs : quietb P fs = true -> quiet_set P fs.
Proof.
  intros H f fn I F. unfold quietb in H. rewrite forallb_forall in H. specialize (H f I). rewrite F in H.
  destruct (publications (fbody fn)) eqn:E; [|discriminate]. split; [exact E|].
  rewrite forallb_forall in H. intros g G. specialize (H g G). apply existsb_exists in H as (x & X & Y). apply Pos.eqb_eq in Y. congruence.
Qed.

Lemma clears_quiet : quietb code (f_faest_explicit_bzero :: clears) = true.
Proof. vm_compute. reflexivity. Qed.

Theorem clear_alike_always : forall f secret m1 m2 sk fuel, In f clears -> start secret m1 m2 -> points_to m1 secret true sk ->
  alike secret (mnext m1) (call code fuel f [sk] m1) (call code fuel f [sk] m2).
Proof.
  intros f secret m1 m2 sk fuel I S T. apply alike_published; [apply clear_alike; assumption|].
  rewrite !(call_quiet code _ (quietb_ok _ _ clears_quiet)) by (right; exact I). reflexivity.
Qed.
