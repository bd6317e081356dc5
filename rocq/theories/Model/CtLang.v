(** A small C: the language into which tools/ctc translates the C sources,
    with a semantics that records what an observer of the running program can
    see.

    This file models no particular function of /repo; it gives the meaning of
    the programs in Model/CtCode*.v, which are translations of the functions in
    /repo.

    What the observer sees (the events below): the outcome of every branch, the
    address of every load and store, the operands of every division, the
    addresses and lengths of copies and fills, the sizes of allocations and the
    functions called.  Additions, multiplications, shifts and logical operations
    are taken to need the same time for all operands.

    Memory consists of blocks of cells.  A block holds bytes (one per cell), or
    pointers (one per cell), or structures whose fields are tracked one by one
    (one cell per field, which points to a block for that field).  Fresh memory
    reads as zero.  An access outside its block, or through something that is
    not a pointer, ends the run ([RFail]).

    Simplifications: signed arithmetic wraps around; shifts by more than the
    width are computed over the integers; [free] does nothing. *)
From Coq Require Import ZArith List Bool FMapPositive.
Import ListNotations.
Local Open Scope Z_scope.

Inductive value := VInt (z : Z) | VPtr (b : positive) (o : Z) | VNull.

(** An integer type: whether it is signed, and its width in bits. *)
Inductive ity := IT (signed : bool) (bits : Z).

Inductive unop := ONeg | ONot | OLNot | OCast | OParity.
Inductive binop := OAdd | OSub | OMul | OAnd | OOr | OXor | OShl | OShr | OLt | OLe | OGt | OGe | OEq | ONe.
Inductive divop := ODiv | OMod.

Inductive expr :=
| EInt (z : Z)
| EVar (x : positive)
| EGlob (g : positive)                                  (* address of a global *)
| ENull
| EUn (o : unop) (t : ity) (a : expr)
| EBin (o : binop) (t : ity) (a b : expr)
| EDiv (o : divop) (t : ity) (a b : expr)
| ECond (c a b : expr)                                  (* c ? a : b *)
| ELoad (n : nat) (p : expr)                            (* n bytes, little endian *)
| ELoadP (p : expr)                                     (* a pointer *)
| EAt (p : expr) (scale : Z) (i : expr)                 (* p + scale * i *)
| EField (p : expr) (nf f : Z)                          (* field f of nf *)
| EIsNull (p : expr).

Inductive stmt :=
| SSkip
| SSeq (a b : stmt)
| SSet (x : positive) (e : expr)
| SStore (n : nat) (p e : expr)
| SStoreP (p e : expr)
| SStoreF (p : expr) (nf f : Z) (e : expr)
| SIf (c : expr) (a b : stmt)
| SLoop (c : expr) (inc body : stmt)                    (* for (; c; inc) body *)
| SBreak
| SContinue
| SReturn (e : expr)
| SCall (d : option positive) (f : positive) (args : list expr)
| SAlloc (x : positive) (n : expr)
| SCopy (d s n : expr)
| SFill (d v n : expr)
| SPublic (x : positive) (p n : expr)                   (* x := a copy of n bytes at p, which become public *)
| SShow (x : positive) (e : expr)                       (* x := e, which becomes public *)
| SFail
| SEval (e : expr).

Record func := Func { fparams : list positive; fbody : stmt }.
Definition program := PositiveMap.t func.

Inductive event :=
| EvBranch (taken : bool)
| EvDiv (a b : Z)
| EvLoad (b : positive) (o n : Z)
| EvStore (b : positive) (o n : Z)
| EvAlloc (n : Z)
| EvCall (f : positive)
| EvReturn
| EvPublic (l : list Z).

Record blk := Blk { bsize : Z; bcells : PositiveMap.t value }.
Record mem := Mem { mnext : positive; mblocks : PositiveMap.t blk }.
Definition env := PositiveMap.t value.

Inductive outcome := ONormal | OBreak | OContinue | OReturn (v : value).

Inductive result (A : Type) := RDone (a : A) | RFail | RFuel.
Arguments RDone {A} _.
Arguments RFail {A}.
Arguments RFuel {A}.

(** A run: what was observed, and how it ended. *)
Definition run (A : Type) := (list event * result A)%type.

Definition ret {A} (a : A) : run A := ([], RDone a).
Definition fail {A} : run A := ([], RFail).
Definition tell (e : event) : run unit := ([e], RDone tt).
Definition bind {A B} (m : run A) (k : A -> run B) : run B :=
  match m with
  | (t, RDone a) => let r := k a in (t ++ fst r, snd r)
  | (t, RFail) => (t, RFail)
  | (t, RFuel) => (t, RFuel)
  end.
Notation "'do' x <- m ; k" := (bind m (fun x => k)) (at level 200, x pattern, m at level 100, k at level 200).

Definition int_of (v : value) : Z := match v with VInt z => z | _ => 0 end.
Definition truth (v : value) : bool := negb (int_of v =? 0).
Definition b2z (b : bool) : Z := if b then 1 else 0.

Definition wrap (t : ity) (z : Z) : Z :=
  let 'IT s w := t in
  let m := Z.land z (Z.ones w) in
  if s && Z.testbit m (w - 1) then m - 2 ^ w else m.

Fixpoint parity_pos (p : positive) : bool :=
  match p with xH => true | xO q => parity_pos q | xI q => negb (parity_pos q) end.
Definition parity (z : Z) : bool := match z with Zpos p => parity_pos p | _ => false end.

Definition un (o : unop) (t : ity) (a : Z) : Z :=
  match o with
  | ONeg => wrap t (- a)
  | ONot => wrap t (Z.lnot a)
  | OLNot => b2z (a =? 0)
  | OCast => wrap t a
  | OParity => b2z (parity a)
  end.

Definition bin (o : binop) (t : ity) (a b : Z) : Z :=
  match o with
  | OAdd => wrap t (a + b)
  | OSub => wrap t (a - b)
  | OMul => wrap t (a * b)
  | OAnd => Z.land a b
  | OOr => Z.lor a b
  | OXor => Z.lxor a b
  | OShl => wrap t (Z.shiftl a b)
  | OShr => Z.shiftr a b
  | OLt => b2z (a <? b)
  | OLe => b2z (a <=? b)
  | OGt => b2z (b <? a)
  | OGe => b2z (b <=? a)
  | OEq => b2z (a =? b)
  | ONe => b2z (negb (a =? b))
  end.

Definition div (o : divop) (t : ity) (a b : Z) : Z :=
  wrap t (match o with ODiv => Z.quot a b | OMod => Z.rem a b end).

(** Cells.  Offsets are not negative when these are used. *)
Definition key (o : Z) : positive := Z.to_pos (o + 1).
Definition get (c : PositiveMap.t value) (o : Z) : value :=
  match PositiveMap.find (key o) c with Some v => v | None => VNull end.
Definition put (c : PositiveMap.t value) (o : Z) (v : value) : PositiveMap.t value := PositiveMap.add (key o) v c.

Fixpoint get_bytes (c : PositiveMap.t value) (o : Z) (n : nat) : list Z :=
  match n with O => [] | S n => int_of (get c o) :: get_bytes c (o + 1) n end.
Fixpoint put_bytes (c : PositiveMap.t value) (o : Z) (l : list Z) : PositiveMap.t value :=
  match l with [] => c | z :: l => put_bytes (put c o (VInt z)) (o + 1) l end.

Fixpoint decode (l : list Z) : Z := match l with [] => 0 | z :: l => z + 256 * decode l end.
Fixpoint encode (n : nat) (z : Z) : list Z := match n with O => [] | S n => Z.land z 255 :: encode n (Z.shiftr z 8) end.

(** The block, if [n] cells from offset [o] are inside it. *)
Definition access (m : mem) (b : positive) (o n : Z) : option blk :=
  match PositiveMap.find b (mblocks m) with
  | Some k => if (0 <=? o) && (0 <=? n) && (o + n <=? bsize k) then Some k else None
  | None => None
  end.

Definition update (m : mem) (b : positive) (k : blk) (c : PositiveMap.t value) : mem :=
  Mem (mnext m) (PositiveMap.add b (Blk (bsize k) c) (mblocks m)).

Definition load (m : mem) (p : value) (n : Z) : run (PositiveMap.t value * Z) :=
  match p with
  | VPtr b o => match access m b o n with
                | Some k => do _ <- tell (EvLoad b o n); ret (bcells k, o)
                | None => fail
                end
  | _ => fail
  end.

(** The new cells are computed from the old ones by [w]. *)
Definition store (m : mem) (p : value) (n : Z) (w : PositiveMap.t value -> Z -> PositiveMap.t value) : run mem :=
  match p with
  | VPtr b o => match access m b o n with
                | Some k => do _ <- tell (EvStore b o n); ret (update m b k (w (bcells k) o))
                | None => fail
                end
  | _ => fail
  end.

Definition lookup (e : env) (x : positive) : value :=
  match PositiveMap.find x e with Some v => v | None => VNull end.

Fixpoint eval (e : env) (m : mem) (a : expr) : run value :=
  match a with
  | EInt z => ret (VInt z)
  | EVar x => ret (lookup e x)
  | EGlob g => ret (VPtr g 0)
  | ENull => ret VNull
  | EUn o t a => do v <- eval e m a; ret (VInt (un o t (int_of v)))
  | EBin o t a b => do v <- eval e m a; do w <- eval e m b; ret (VInt (bin o t (int_of v) (int_of w)))
  | EDiv o t a b =>
      do v <- eval e m a; do w <- eval e m b;
      do _ <- tell (EvDiv (int_of v) (int_of w));
      if int_of w =? 0 then fail else ret (VInt (div o t (int_of v) (int_of w)))
  | ECond c a b =>
      do v <- eval e m c; do _ <- tell (EvBranch (truth v));
      if truth v then eval e m a else eval e m b
  | ELoad n p => do v <- eval e m p; do (c, o) <- load m v (Z.of_nat n); ret (VInt (decode (get_bytes c o n)))
  | ELoadP p => do v <- eval e m p; do (c, o) <- load m v 1; ret (get c o)
  | EAt p s i =>
      do v <- eval e m p; do w <- eval e m i;
      match v with VPtr b o => ret (VPtr b (o + s * int_of w)) | _ => if int_of w =? 0 then ret v else fail end
  | EField p nf f =>
      do v <- eval e m p;
      match v with
      | VPtr b o => do (c, o) <- load m (VPtr b (o * nf + f)) 1; ret (get c o)
      | _ => fail
      end
  | EIsNull p => do v <- eval e m p; ret (VInt (match v with VPtr _ _ => 0 | _ => 1 end))
  end.

Fixpoint evals (e : env) (m : mem) (l : list expr) : run (list value) :=
  match l with
  | [] => ret []
  | a :: l => do v <- eval e m a; do vs <- evals e m l; ret (v :: vs)
  end.

Fixpoint bind_params (ps : list positive) (vs : list value) (e : env) : env :=
  match ps, vs with p :: ps, v :: vs => bind_params ps vs (PositiveMap.add p v e) | _, _ => e end.

(** A fresh block of [n] cells. *)
Definition fresh (m : mem) (n : Z) (c : PositiveMap.t value) : mem :=
  Mem (Pos.succ (mnext m)) (PositiveMap.add (mnext m) (Blk n c) (mblocks m)).

Definition set (e : env) (d : option positive) (v : value) : env :=
  match d with Some x => PositiveMap.add x v e | None => e end.

(** [fuel] bounds the depth of the recursion; a run that needs more is [RFuel]. *)
Fixpoint exec (P : program) (fuel : nat) (s : stmt) (e : env) (m : mem) : run (outcome * env * mem) :=
  match fuel with
  | O => ([], RFuel)
  | S fuel =>
    match s with
    | SSkip => ret (ONormal, e, m)
    | SSeq a b =>
        do (o, e, m) <- exec P fuel a e m;
        match o with ONormal => exec P fuel b e m | _ => ret (o, e, m) end
    | SSet x a => do v <- eval e m a; ret (ONormal, PositiveMap.add x v e, m)
    | SStore n p a =>
        do q <- eval e m p; do v <- eval e m a;
        do m <- store m q (Z.of_nat n) (fun c o => put_bytes c o (encode n (int_of v)));
        ret (ONormal, e, m)
    | SStoreP p a =>
        do q <- eval e m p; do v <- eval e m a;
        do m <- store m q 1 (fun c o => put c o v);
        ret (ONormal, e, m)
    | SStoreF p nf f a =>
        do q <- eval e m p; do v <- eval e m a;
        match q with
        | VPtr b o => do m <- store m (VPtr b (o * nf + f)) 1 (fun c o => put c o v); ret (ONormal, e, m)
        | _ => fail
        end
    | SIf c a b =>
        do v <- eval e m c; do _ <- tell (EvBranch (truth v));
        if truth v then exec P fuel a e m else exec P fuel b e m
    | SLoop c inc body =>
        do v <- eval e m c; do _ <- tell (EvBranch (truth v));
        if truth v then
          do (o, e, m) <- exec P fuel body e m;
          match o with
          | OBreak => ret (ONormal, e, m)
          | OReturn _ => ret (o, e, m)
          | _ =>
              do (o, e, m) <- exec P fuel inc e m;
              match o with ONormal => exec P fuel (SLoop c inc body) e m | _ => fail end
          end
        else ret (ONormal, e, m)
    | SBreak => ret (OBreak, e, m)
    | SContinue => ret (OContinue, e, m)
    | SReturn a => do v <- eval e m a; ret (OReturn v, e, m)
    | SCall d f args =>
        do vs <- evals e m args;
        do _ <- tell (EvCall f);
        match PositiveMap.find f P with
        | Some fn =>
            do (o, _, m) <- exec P fuel (fbody fn) (bind_params (fparams fn) vs (PositiveMap.empty value)) m;
            do _ <- tell EvReturn;
            match o with
            | OReturn v => ret (ONormal, set e d v, m)
            | ONormal => ret (ONormal, set e d VNull, m)
            | _ => fail
            end
        | None => fail
        end
    | SAlloc x n =>
        do v <- eval e m n;
        do _ <- tell (EvAlloc (int_of v));
        ret (ONormal, PositiveMap.add x (VPtr (mnext m) 0) e, fresh m (int_of v) (PositiveMap.empty value))
    | SCopy d s n =>
        do q <- eval e m d; do r <- eval e m s; do v <- eval e m n;
        do (c, o) <- load m r (int_of v);
        do m <- store m q (int_of v) (fun c' o' => put_bytes c' o' (get_bytes c o (Z.to_nat (int_of v))));
        ret (ONormal, e, m)
    | SFill d a n =>
        do q <- eval e m d; do w <- eval e m a; do v <- eval e m n;
        do m <- store m q (int_of v) (fun c o => put_bytes c o (repeat (int_of w) (Z.to_nat (int_of v))));
        ret (ONormal, e, m)
    | SPublic x p n =>
        do q <- eval e m p; do v <- eval e m n;
        do (c, o) <- load m q (int_of v);
        let l := get_bytes c o (Z.to_nat (int_of v)) in
        do _ <- tell (EvPublic l);
        ret (ONormal, PositiveMap.add x (VPtr (mnext m) 0) e,
             fresh m (int_of v) (put_bytes (PositiveMap.empty value) 0 l))
    | SShow x a =>
        do v <- eval e m a;
        do _ <- tell (EvPublic [int_of v]);
        ret (ONormal, PositiveMap.add x v e, m)
    | SFail => fail
    | SEval a => do _ <- eval e m a; ret (ONormal, e, m)
    end
  end.

(** A call of [f] from outside. *)
Definition call (P : program) (fuel : nat) (f : positive) (args : list value) (m : mem) : run (value * mem) :=
  match PositiveMap.find f P with
  | Some fn =>
      do (o, _, m) <- exec P fuel (fbody fn) (bind_params (fparams fn) args (PositiveMap.empty value)) m;
      match o with OReturn v => ret (v, m) | ONormal => ret (VNull, m) | _ => fail end
  | None => fail
  end.
