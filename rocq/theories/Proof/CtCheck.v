(** Which data may depend on secrets: types for the language of Model/CtLang,
    their checker, and the proof that a program accepted by the checker shows the
    same events whatever the secrets are. *)
From Coq Require Import ZArith List Bool FMapPositive Lia.
From Verif Require Import Model.CtLang.
Import ListNotations.
Local Open Scope Z_scope.

(** [true]: may depend on secrets. *)
Definition lab := bool.

Inductive pty := PBytes (l : lab) | PPtrs (t : pty) | PStruct (ts : ptys)
with ptys := PNil | PCons (t : pty) (ts : ptys).

Inductive vt := TInt (l : lab) | TPtr (t : pty) | TNull.

Fixpoint pty_eqb (a b : pty) : bool :=
  match a, b with
  | PBytes x, PBytes y => Bool.eqb x y
  | PPtrs x, PPtrs y => pty_eqb x y
  | PStruct x, PStruct y => ptys_eqb x y
  | _, _ => false
  end
with ptys_eqb (a b : ptys) : bool :=
  match a, b with
  | PNil, PNil => true
  | PCons x xs, PCons y ys => pty_eqb x y && ptys_eqb xs ys
  | _, _ => false
  end.

Scheme pty_mind := Induction for pty Sort Prop
with ptys_mind := Induction for ptys Sort Prop.

Lemma pty_eqb_eq : forall a b, pty_eqb a b = true -> a = b.
Proof.
  apply (pty_mind (fun a => forall b, pty_eqb a b = true -> a = b) (fun a => forall b, ptys_eqb a b = true -> a = b)).
  - intros l [] H; cbn in H; try discriminate. apply eqb_prop in H. congruence.
  - intros t IH [] H; cbn in H; try discriminate. f_equal. auto.
  - intros t IH [] H; cbn in H; try discriminate. f_equal. auto.
  - intros [] H; cbn in H; congruence.
  - intros t IH ts IHs [] H; cbn in H; try discriminate. apply andb_prop in H as [A B]. f_equal; auto.
Qed.

Fixpoint plen (ts : ptys) : Z := match ts with PNil => 0 | PCons _ ts => 1 + plen ts end.
Fixpoint pnth (ts : ptys) (n : nat) : option pty :=
  match ts, n with
  | PNil, _ => None
  | PCons t _, O => Some t
  | PCons _ ts, S n => pnth ts n
  end.

Definition lle (a b : lab) : bool := implb a b.
Definition tsub (a b : vt) : bool :=
  match a, b with
  | TInt x, TInt y => lle x y
  | TPtr x, TPtr y => pty_eqb x y
  | TNull, TPtr _ => true
  | TNull, TNull => true
  | _, _ => false
  end.

(** The type of a variable: what is said of it, or an integer free of secrets. *)
Definition gamma := PositiveMap.t vt.

Section Typing.
Variable G : positive -> option lab.          (* the global blocks: bytes *)
Variable C : gamma.

Definition tjoin (a b : vt) : option vt :=
  match a, b with
  | TInt x, TInt y => Some (TInt (x || y))
  | TNull, _ => match b with TInt _ => None | _ => Some b end
  | _, TNull => match a with TInt _ => None | _ => Some a end
  | TPtr x, TPtr y => if pty_eqb x y then Some a else None
  | _, _ => None
  end.

Fixpoint texpr (a : expr) : option vt :=
  match a with
  | EInt _ => Some (TInt false)
  | EVar x => PositiveMap.find x C
  | EGlob g => match G g with Some l => Some (TPtr (PBytes l)) | None => None end
  | ENull => Some TNull
  | EUn _ _ a => match texpr a with Some (TInt l) => Some (TInt l) | _ => None end
  | EBin _ _ a b =>
      match texpr a, texpr b with Some (TInt l), Some (TInt l') => Some (TInt (l || l')) | _, _ => None end
  | EDiv _ _ a b =>
      match texpr a, texpr b with Some (TInt false), Some (TInt false) => Some (TInt false) | _, _ => None end
  | ECond c a b =>
      match texpr c, texpr a, texpr b with
      | Some (TInt false), Some t, Some t' => tjoin t t'
      | _, _, _ => None
      end
  | ELoad _ p => match texpr p with Some (TPtr (PBytes l)) => Some (TInt l) | _ => None end
  | ELoadP p => match texpr p with Some (TPtr (PPtrs t)) => Some (TPtr t) | _ => None end
  | EAt p _ i => match texpr p, texpr i with Some (TPtr t), Some (TInt false) => Some (TPtr t) | _, _ => None end
  | EField p nf f =>
      match texpr p with
      | Some (TPtr (PStruct ts)) =>
          if (plen ts =? nf) && (0 <=? f) && (f <? nf)
          then match pnth ts (Z.to_nat f) with Some t => Some (TPtr t) | None => None end
          else None
      | _ => None
      end
  | EIsNull p => match texpr p with Some (TPtr _) => Some (TInt false) | _ => None end
  end.

Definition lo (a : expr) : bool := match texpr a with Some (TInt false) => true | _ => false end.
Definition bytes_at (a : expr) : option lab := match texpr a with Some (TPtr (PBytes l)) => Some l | _ => None end.
Definition int_at (a : expr) : option lab := match texpr a with Some (TInt l) => Some l | _ => None end.
Definition ole (a b : option lab) : bool := match a, b with Some x, Some y => lle x y | _, _ => false end.

Fixpoint targs (l : list expr) (ts : list vt) : bool :=
  match l, ts with
  | [], [] => true
  | a :: l, t :: ts => match texpr a with Some t' => tsub t' t && targs l ts | None => false end
  | _, _ => false
  end.

(** The signatures of the functions. *)
Record sig := Sig { s_args : list vt; s_ret : vt }.
Variable S : PositiveMap.t (list sig).
Variable R : vt.                               (* the result of the function being checked *)

Definition has (x : positive) (t : vt) : bool :=
  match PositiveMap.find x C with Some t' => tsub t t' | None => false end.

Fixpoint cstmt (s : stmt) : bool :=
  match s with
  | SSkip | SBreak | SContinue | SFail => true
  | SSeq a b => cstmt a && cstmt b
  | SSet x a => match texpr a with Some t => has x t | None => false end
  | SStore _ p a => ole (int_at a) (bytes_at p)
  | SStoreP p a =>
      match texpr p, texpr a with Some (TPtr (PPtrs t)), Some t' => tsub t' (TPtr t) | _, _ => false end
  | SStoreF p nf f a =>
      match texpr p, texpr a with
      | Some (TPtr (PStruct ts)), Some t' =>
          (plen ts =? nf) && (0 <=? f) && (f <? nf) &&
          match pnth ts (Z.to_nat f) with Some t => tsub t' (TPtr t) | None => false end
      | _, _ => false
      end
  | SIf c a b => lo c && cstmt a && cstmt b
  | SLoop c i b => lo c && cstmt i && cstmt b
  | SReturn a => match texpr a with Some t => tsub t R | None => false end
  | SCall d f args =>
      match PositiveMap.find f S with
      | Some l => existsb (fun s => targs args (s_args s) &&
                                    match d with Some x => has x (s_ret s) | None => true end) l
      | None => false
      end
  | SAlloc x n =>
      lo n && match PositiveMap.find x C with Some (TPtr _) => true | _ => false end
  | SCopy d s n => lo n && ole (bytes_at s) (bytes_at d)
  | SFill d a n => lo n && ole (int_at a) (bytes_at d)
  | SPublic x p n =>
      lo n && match bytes_at p with Some _ => true | None => false end &&
      match PositiveMap.find x C with Some (TPtr (PBytes _)) => true | _ => false end
  | SShow x a => match int_at a with Some _ => true | None => false end &&
                 match PositiveMap.find x C with Some (TInt _) => true | _ => false end
  | SEval a => match texpr a with Some _ => true | None => false end
  end.
End Typing.

(** An entry of the table: a function at certain types of its arguments. *)
Record entry := Entry { e_fun : positive; e_sig : sig; e_vars : list (positive * vt) }.

Definition gamma_of (l : list (positive * vt)) : gamma :=
  fold_right (fun '(x, t) c => PositiveMap.add x t c) (PositiveMap.empty vt) l.

Fixpoint params_ok (C : gamma) (ps : list positive) (ts : list vt) : bool :=
  match ps, ts with
  | [], [] => true
  | p :: ps, t :: ts => match PositiveMap.find p C with Some t' => tsub t t' | None => false end && params_ok C ps ts
  | _, _ => false
  end.

Definition centry (P : program) (G : positive -> option lab) (S : PositiveMap.t (list sig)) (i : entry) : bool :=
  match PositiveMap.find (e_fun i) P with
  | Some fn =>
      let C := gamma_of (e_vars i) in
      params_ok C (fparams fn) (s_args (e_sig i)) && cstmt G C S (s_ret (e_sig i)) (fbody fn)
  | None => false
  end.

Definition sigs_of (l : list entry) : PositiveMap.t (list sig) :=
  fold_right (fun i m => PositiveMap.add (e_fun i)
     (e_sig i :: match PositiveMap.find (e_fun i) m with Some k => k | None => [] end) m) (PositiveMap.empty _) l.

Definition cprogram (P : program) (G : positive -> option lab) (l : list entry) : bool :=
  let S := sigs_of l in forallb (centry P G S) l.
