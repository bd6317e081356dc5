(** Rules for proving what a function of the translated program computes.
    [wp] says that a statement ends, without touching memory out of bounds, in
    a state with the given property. *)
From Coq Require Import ZArith List Bool FMapPositive Lia.
From Verif Require Import Model.CtLang.
Import ListNotations.
Local Open Scope Z_scope.

(** With enough fuel the run ends in [a], and [Q a]. *)
Definition ends {A} (r : nat -> run A) (Q : A -> Prop) : Prop :=
  exists n a, (forall k, (n <= k)%nat -> exists t, r k = (t, RDone a)) /\ Q a.

Definition wp (P : program) (s : stmt) (e : env) (m : mem) (Q : outcome -> env -> mem -> Prop) : Prop :=
  ends (fun k => exec P k s e m) (fun '(o, e, m) => Q o e m).

(** The call of a function of the program. *)
Definition calls (P : program) (f : positive) (vs : list value) (m : mem) (Q : value -> mem -> Prop) : Prop :=
  ends (fun k => call P k f vs m) (fun '(v, m) => Q v m).

(** ** Expressions *)
Definition yields {A} (r : run A) (a : A) : Prop := exists t, r = (t, RDone a).
Definition pe (e : env) (m : mem) (x : expr) (v : value) : Prop := yields (eval e m x) v.
Definition pes (e : env) (m : mem) (l : list expr) (vs : list value) : Prop := yields (evals e m l) vs.

Lemma yields_bind {A B} (r : run A) (k : A -> run B) a b : yields r a -> yields (k a) b -> yields (bind r k) b.
Proof. intros [t ->] [u E]. cbn [bind]. rewrite E. eexists. reflexivity. Qed.
Lemma yields_ret {A} (a : A) : yields (ret a) a.
Proof. eexists. reflexivity. Qed.
Lemma yields_tell e : yields (tell e) tt.
Proof. eexists. reflexivity. Qed.

(** ** Memory *)
Definition size (m : mem) (b : positive) : Z :=
  match PositiveMap.find b (mblocks m) with Some k => bsize k | None => -1 end.
Definition cell (m : mem) (b : positive) (o : Z) : value :=
  match PositiveMap.find b (mblocks m) with Some k => get (bcells k) o | None => VNull end.
Definition byte (m : mem) (b : positive) (o : Z) : Z := int_of (cell m b o).
Fixpoint bytesat (m : mem) (b : positive) (o : Z) (n : nat) : list Z :=
  match n with O => [] | S n => byte m b o :: bytesat m b (o + 1) n end.
Definition inb (m : mem) (b : positive) (o n : Z) : Prop :=
  (b < mnext m)%positive /\ 0 <= o /\ 0 <= n /\ o + n <= size m b.

Lemma access_inb m b o n : inb m b o n -> exists k, PositiveMap.find b (mblocks m) = Some k /\ access m b o n = Some k.
Proof.
  intros (_ & A & B & C). unfold size in C. unfold access.
  destruct (PositiveMap.find b (mblocks m)) as [k|]; [|lia]. exists k. split; [reflexivity|].
  destruct (Z.leb_spec 0 o); [|lia]. destruct (Z.leb_spec 0 n); [|lia]. destruct (Z.leb_spec (o + n) (bsize k)); [|lia]. reflexivity.
Qed.

Lemma get_bytes_at m b k : PositiveMap.find b (mblocks m) = Some k -> forall n o, get_bytes (bcells k) o n = bytesat m b o n.
Proof. intros F. induction n as [|n IH]; intros o; cbn [get_bytes bytesat]; [reflexivity|]. unfold byte, cell. rewrite F, IH. reflexivity. Qed.

(** Memory with [l] written at [o] of block [b]. *)
Definition setc (m : mem) (b : positive) (w : PositiveMap.t value -> PositiveMap.t value) : mem :=
  match PositiveMap.find b (mblocks m) with Some k => update m b k (w (bcells k)) | None => m end.
Definition setb (m : mem) (b : positive) (o : Z) (l : list Z) : mem := setc m b (fun c => put_bytes c o l).
Definition setv (m : mem) (b : positive) (o : Z) (v : value) : mem := setc m b (fun c => put c o v).

Lemma setc_next m b w : mnext (setc m b w) = mnext m.
Proof. unfold setc. destruct (PositiveMap.find b (mblocks m)); reflexivity. Qed.
Lemma setc_size m b w b' : size (setc m b w) b' = size m b'.
Proof.
  unfold setc. destruct (PositiveMap.find b (mblocks m)) as [k|] eqn:F; [|reflexivity].
  unfold size, update. cbn [mblocks]. rewrite PositiveMapAdditionalFacts.gsspec.
  destruct (PositiveMap.E.eq_dec b' b) as [->|]; [rewrite F; reflexivity|reflexivity].
Qed.
Lemma setc_inb m b w b' o n : inb (setc m b w) b' o n <-> inb m b' o n.
Proof. unfold inb. rewrite setc_next, setc_size. reflexivity. Qed.
Lemma setc_other m b w b' o : b' <> b -> cell (setc m b w) b' o = cell m b' o.
Proof.
  intros N. unfold setc. destruct (PositiveMap.find b (mblocks m)) as [k|] eqn:F; [|reflexivity].
  unfold cell, update. cbn [mblocks]. rewrite PositiveMap.gso by exact N. reflexivity.
Qed.
Lemma setc_same m b w o : 0 <= size m b -> cell (setc m b w) b o = get (w (match PositiveMap.find b (mblocks m) with Some k => bcells k | None => PositiveMap.empty value end)) o.
Proof.
  unfold setc, size. destruct (PositiveMap.find b (mblocks m)) as [k|] eqn:F; [|lia]. intros _.
  unfold cell, update. cbn [mblocks]. rewrite PositiveMap.gss. reflexivity.
Qed.

Lemma key_inj o p : 0 <= o -> 0 <= p -> key o = key p -> o = p.
Proof. unfold key. intros A B E. apply (f_equal Z.pos) in E. rewrite !Z2Pos.id in E by lia. lia. Qed.
Lemma get_put c o v p : 0 <= o -> 0 <= p -> get (put c o v) p = if Z.eqb p o then v else get c p.
Proof.
  intros A B. unfold get, put. destruct (Z.eqb_spec p o) as [->|N]; [rewrite PositiveMap.gss; reflexivity|].
  rewrite PositiveMap.gso; [reflexivity|]. intros E. apply N, key_inj; auto.
Qed.
Lemma get_put_bytes : forall l c o p, 0 <= o -> 0 <= p ->
  get (put_bytes c o l) p = if (o <=? p) && (p <? o + Z.of_nat (length l)) then VInt (nth (Z.to_nat (p - o)) l 0) else get c p.
Proof.
  induction l as [|z l IH]; intros c o p A B; cbn [put_bytes length].
  - destruct (Z.leb_spec o p), (Z.ltb_spec p (o + Z.of_nat 0)); cbn; try reflexivity; lia.
  - rewrite IH by lia. rewrite get_put by lia.
    destruct (Z.leb_spec (o + 1) p), (Z.ltb_spec p (o + 1 + Z.of_nat (length l))), (Z.leb_spec o p), (Z.ltb_spec p (o + Z.of_nat (S (length l)))),
      (Z.eqb_spec p o); cbn [andb]; try reflexivity; try lia.
    + replace (Z.to_nat (p - o)) with (S (Z.to_nat (p - (o + 1)))) by lia. reflexivity.
    + subst. rewrite Z.sub_diag. reflexivity.
Qed.

Lemma cell_setb m b o l b' p : inb m b o (Z.of_nat (length l)) -> 0 <= p ->
  cell (setb m b o l) b' p =
  if Pos.eqb b' b && (o <=? p) && (p <? o + Z.of_nat (length l)) then VInt (nth (Z.to_nat (p - o)) l 0) else cell m b' p.
Proof.
  intros (A & B & C & D) Hp. unfold setb. destruct (Pos.eqb_spec b' b) as [->|N]; [|apply setc_other; exact N].
  rewrite setc_same by lia. rewrite get_put_bytes by lia. cbn [andb].
  destruct ((o <=? p) && (p <? o + Z.of_nat (length l))); [reflexivity|]. unfold cell, size in *.
  destruct (PositiveMap.find b (mblocks m)); [reflexivity|lia].
Qed.
Lemma cell_setv m b o v b' p : inb m b o 1 -> 0 <= p -> cell (setv m b o v) b' p = if Pos.eqb b' b && (p =? o) then v else cell m b' p.
Proof.
  intros (A & B & C & D) Hp. unfold setv. destruct (Pos.eqb_spec b' b) as [->|N]; [|apply setc_other; exact N].
  rewrite setc_same by lia. rewrite get_put by lia. cbn [andb].
  destruct (p =? o); [reflexivity|]. unfold cell, size in *. destruct (PositiveMap.find b (mblocks m)); [reflexivity|lia].
Qed.

(** Old memory is the same outside of [S]. *)
Definition frame (m m' : mem) (S : positive -> Z -> Prop) : Prop :=
  (mnext m <= mnext m')%positive /\
  (forall b, (b < mnext m)%positive -> size m' b = size m b) /\
  (forall b o, (b < mnext m)%positive -> 0 <= o -> ~ S b o -> cell m' b o = cell m b o).
Definition nothing (b : positive) (o : Z) : Prop := False.
Definition at_ (b : positive) (o n : Z) (b' : positive) (o' : Z) : Prop := b' = b /\ o <= o' < o + n.

Lemma frame_refl m S : frame m m S.
Proof. repeat split; auto; lia. Qed.
Lemma frame_trans m1 m2 m3 (S : positive -> Z -> Prop) : frame m1 m2 S -> frame m2 m3 S -> frame m1 m3 S.
Proof.
  intros (A1 & A2 & A3) (B1 & B2 & B3). split; [lia|]. split.
  - intros b L. rewrite B2, A2; auto; lia.
  - intros b o L O N. rewrite B3, A3; auto; lia.
Qed.
Lemma frame_weak m1 m2 (S T : positive -> Z -> Prop) : frame m1 m2 S ->
  (forall b o, (b < mnext m1)%positive -> 0 <= o -> S b o -> T b o) -> frame m1 m2 T.
Proof. intros (A1 & A2 & A3) H. split; [exact A1|]. split; [exact A2|]. intros b o L O N. apply A3; auto. Qed.
Lemma frame_setc m b w S : (forall o, 0 <= o -> ~ S b o -> cell (setc m b w) b o = cell m b o) -> frame m (setc m b w) S.
Proof.
  intros H. split; [rewrite setc_next; lia|]. split; [intros; apply setc_size|]. intros b' o L O N.
  destruct (Pos.eq_dec b' b) as [->|D]; [apply H; assumption|apply setc_other; exact D].
Qed.
Lemma frame_setb m b o l : inb m b o (Z.of_nat (length l)) -> frame m (setb m b o l) (at_ b o (Z.of_nat (length l))).
Proof.
  intros I. apply frame_setc. intros p Hp N. change (cell (setb m b o l) b p = cell m b p). rewrite cell_setb by assumption.
  rewrite Pos.eqb_refl. cbn [andb]. destruct (Z.leb_spec o p), (Z.ltb_spec p (o + Z.of_nat (length l))); cbn [andb]; try reflexivity.
  exfalso. apply N. split; [reflexivity|lia].
Qed.
Lemma frame_setv m b o v : inb m b o 1 -> frame m (setv m b o v) (at_ b o 1).
Proof.
  intros I. apply frame_setc. intros p Hp N. change (cell (setv m b o v) b p = cell m b p). rewrite cell_setv by assumption.
  rewrite Pos.eqb_refl. cbn [andb]. destruct (Z.eqb_spec p o); try reflexivity.
  exfalso. apply N. split; [reflexivity|lia].
Qed.
Lemma frame_fresh m n c S : frame m (fresh m n c) S.
Proof.
  split; [cbn; lia|]. split.
  - intros b L. unfold size, fresh. cbn [mblocks]. rewrite PositiveMap.gso by lia. reflexivity.
  - intros b o L O N. unfold cell, fresh. cbn [mblocks]. rewrite PositiveMap.gso by lia. reflexivity.
Qed.
Lemma inb_frame m m' S b o n : frame m m' S -> inb m b o n -> inb m' b o n.
Proof. intros (A & B & _) (I & J). split; [lia|]. rewrite B by exact I. exact J. Qed.
Lemma inb_fresh m n c o k : 0 <= o -> 0 <= k -> o + k <= n -> inb (fresh m n c) (mnext m) o k.
Proof.
  intros A B C. split; [cbn; lia|]. split; [exact A|]. split; [exact B|].
  unfold size, fresh. cbn [mblocks]. rewrite PositiveMap.gss. exact C.
Qed.
Lemma inb_sub m b o n o' n' : inb m b o n -> o <= o' -> 0 <= n' -> o' + n' <= o + n -> inb m b o' n'.
Proof. intros (A & B & C & D) H1 H2 H3. split; [exact A|]. lia. Qed.
Lemma byte_frame m m' S b o : frame m m' S -> (b < mnext m)%positive -> 0 <= o -> ~ S b o -> byte m' b o = byte m b o.
Proof. intros (_ & _ & F) L O N. unfold byte. rewrite F; auto. Qed.

(** ** Evaluation *)
Lemma lookup_add e x v y : lookup (PositiveMap.add x v e) y = if Pos.eqb y x then v else lookup e y.
Proof.
  unfold lookup. destruct (Pos.eqb_spec y x) as [->|N]; [rewrite PositiveMap.gss; reflexivity|].
  rewrite PositiveMap.gso by exact N. reflexivity.
Qed.

Lemma pe_int e m z : pe e m (EInt z) (VInt z).
Proof. apply yields_ret. Qed.
Lemma pe_var e m x v : lookup e x = v -> pe e m (EVar x) v.
Proof. intros <-. apply yields_ret. Qed.
Lemma pe_glob e m g : pe e m (EGlob g) (VPtr g 0).
Proof. apply yields_ret. Qed.
Lemma pe_null e m : pe e m ENull VNull.
Proof. apply yields_ret. Qed.
Lemma pe_un e m o t a x : pe e m a (VInt x) -> pe e m (EUn o t a) (VInt (un o t x)).
Proof. intros H. eapply yields_bind; [exact H|]. apply yields_ret. Qed.
Lemma pe_bin e m o t a b x y : pe e m a (VInt x) -> pe e m b (VInt y) -> pe e m (EBin o t a b) (VInt (bin o t x y)).
Proof. intros H K. eapply yields_bind; [exact H|]. eapply yields_bind; [exact K|]. apply yields_ret. Qed.
Lemma pe_div e m o t a b x y : pe e m a (VInt x) -> pe e m b (VInt y) -> y <> 0 -> pe e m (EDiv o t a b) (VInt (div o t x y)).
Proof.
  intros H K N. eapply yields_bind; [exact H|]. eapply yields_bind; [exact K|]. eapply yields_bind; [apply yields_tell|].
  cbn [int_of]. destruct (Z.eqb_spec y 0); [contradiction|]. apply yields_ret.
Qed.
Lemma pe_cond e m c a b v w : pe e m c v -> pe e m (if truth v then a else b) w -> pe e m (ECond c a b) w.
Proof. intros H K. eapply yields_bind; [exact H|]. eapply yields_bind; [apply yields_tell|]. destruct (truth v); exact K. Qed.
Lemma pe_at_null e m p s i : pe e m p VNull -> pe e m i (VInt 0) -> pe e m (EAt p s i) VNull.
Proof. intros H K. eapply yields_bind; [exact H|]. eapply yields_bind; [exact K|]. apply yields_ret. Qed.
Lemma pe_at e m p s i b o x : pe e m p (VPtr b o) -> pe e m i (VInt x) -> pe e m (EAt p s i) (VPtr b (o + s * x)).
Proof. intros H K. eapply yields_bind; [exact H|]. eapply yields_bind; [exact K|]. apply yields_ret. Qed.
Lemma pe_isnull e m p v : pe e m p v -> pe e m (EIsNull p) (VInt (match v with VPtr _ _ => 0 | _ => 1 end)).
Proof. intros H. eapply yields_bind; [exact H|]. apply yields_ret. Qed.

Lemma yields_load m b o n : inb m b o n -> exists k, PositiveMap.find b (mblocks m) = Some k /\ yields (load m (VPtr b o) n) (bcells k, o).
Proof.
  intros I. destruct (access_inb _ _ _ _ I) as (k & F & A). exists k. split; [exact F|]. cbn [load]. rewrite A.
  eexists. reflexivity.
Qed.
Lemma pe_load e m n p b o : pe e m p (VPtr b o) -> inb m b o (Z.of_nat n) -> pe e m (ELoad n p) (VInt (decode (bytesat m b o n))).
Proof.
  intros H I. destruct (yields_load _ _ _ _ I) as (k & F & Y). eapply yields_bind; [exact H|].
  eapply yields_bind; [exact Y|]. rewrite <- (get_bytes_at m b k F). apply yields_ret.
Qed.
Lemma pe_load1 e m p b o : pe e m p (VPtr b o) -> inb m b o 1 -> pe e m (ELoad 1 p) (VInt (byte m b o)).
Proof. intros H I. pose proof (pe_load e m 1 p b o H I) as K. cbn [bytesat decode] in K. rewrite Z.mul_0_r, Z.add_0_r in K. exact K. Qed.
Lemma pe_loadp e m p b o : pe e m p (VPtr b o) -> inb m b o 1 -> pe e m (ELoadP p) (cell m b o).
Proof.
  intros H I. destruct (yields_load _ _ _ _ I) as (k & F & Y). eapply yields_bind; [exact H|].
  eapply yields_bind; [exact Y|]. unfold cell. rewrite F. apply yields_ret.
Qed.
Lemma pe_field e m p nf f b o : pe e m p (VPtr b o) -> inb m b (o * nf + f) 1 -> pe e m (EField p nf f) (cell m b (o * nf + f)).
Proof.
  intros H I. destruct (yields_load _ _ _ _ I) as (k & F & Y). eapply yields_bind; [exact H|].
  eapply yields_bind; [exact Y|]. unfold cell. rewrite F. apply yields_ret.
Qed.
Lemma pe_eq e m x v w : pe e m x v -> v = w -> pe e m x w.
Proof. intros H <-. exact H. Qed.

Lemma pes_nil e m : pes e m [] [].
Proof. apply yields_ret. Qed.
Lemma pes_cons e m x l v vs : pe e m x v -> pes e m l vs -> pes e m (x :: l) (v :: vs).
Proof. intros H K. eapply yields_bind; [exact H|]. eapply yields_bind; [exact K|]. apply yields_ret. Qed.

(** ** Statements *)
Lemma ends_weak {A} r (Q R : A -> Prop) : ends r Q -> (forall a, Q a -> R a) -> ends r R.
Proof. intros (n & a & H & K) I. exists n, a. auto. Qed.

(** the body of one step of [exec] *)
Lemma wp_of P s e m Q (r : nat -> run (outcome * env * mem)) : (forall k, exec P (S k) s e m = r k) -> ends r (fun '(o, e, m) => Q o e m) ->
  wp P s e m Q.
Proof.
  intros E (n & a & H & K). exists (S n), a. split; [|exact K]. intros [|k] L; [lia|]. rewrite E. apply H. lia.
Qed.
Lemma ends_bind {A B} (r : nat -> run A) (k : nat -> A -> run B) Q :
  ends r (fun a => ends (fun n => k n a) Q) -> ends (fun n => bind (r n) (k n)) Q.
Proof.
  intros (n & a & H & n' & b & H' & K). exists (Nat.max n n'), b. split; [|exact K]. intros i L.
  destruct (H i) as [t E]; [lia|]. destruct (H' i) as [u F]; [lia|]. rewrite E. cbn [bind]. rewrite F. eexists. reflexivity.
Qed.
Lemma ends_pure {A} (r : run A) a (Q : A -> Prop) : yields r a -> Q a -> ends (fun _ => r) Q.
Proof. intros [t E] H. exists O, a. split; [|exact H]. intros. exists t. exact E. Qed.
Lemma ends_ret {A} (a : A) (Q : A -> Prop) : Q a -> ends (fun _ => ret a) Q.
Proof. apply ends_pure, yields_ret. Qed.

Section Rules.
Context (P : program).

Lemma wp_weak s e m (Q R : outcome -> env -> mem -> Prop) : wp P s e m Q -> (forall o e m, Q o e m -> R o e m) -> wp P s e m R.
Proof. intros H K. eapply ends_weak; [exact H|]. intros [[o e'] m']. apply K. Qed.

Lemma wp_skip e m (Q : outcome -> env -> mem -> Prop) : Q ONormal e m -> wp P SSkip e m Q.
Proof. intros H. eapply wp_of; [reflexivity|]. apply ends_ret. exact H. Qed.
Lemma wp_seq a b e m Q :
  wp P a e m (fun o e m => match o with ONormal => wp P b e m Q | _ => Q o e m end) -> wp P (SSeq a b) e m Q.
Proof.
  intros H. eapply wp_of; [reflexivity|]. apply ends_bind. eapply ends_weak; [exact H|]. intros [[o e'] m'] K.
  destruct o; [exact K| | |]; apply ends_ret; exact K.
Qed.
Lemma wp_set x a e m v (Q : outcome -> env -> mem -> Prop) : pe e m a v -> Q ONormal (PositiveMap.add x v e) m -> wp P (SSet x a) e m Q.
Proof. intros H K. eapply wp_of; [reflexivity|]. eapply ends_bind, ends_pure; [exact H|]. apply ends_ret. exact K. Qed.

Lemma yields_store m b o n w : inb m b o n -> yields (store m (VPtr b o) n w) (setc m b (fun c => w c o)).
Proof.
  intros I. destruct (access_inb _ _ _ _ I) as (k & F & A). cbn [store]. rewrite A. unfold setc. rewrite F. eexists. reflexivity.
Qed.
Lemma wp_store n p a e m b o v (Q : outcome -> env -> mem -> Prop) : pe e m p (VPtr b o) -> pe e m a (VInt v) ->
  inb m b o (Z.of_nat n) -> Q ONormal e (setb m b o (encode n v)) -> wp P (SStore n p a) e m Q.
Proof.
  intros H K I R. eapply wp_of; [reflexivity|]. eapply ends_bind, ends_pure; [exact H|]. eapply ends_bind, ends_pure; [exact K|].
  eapply ends_bind, ends_pure; [apply yields_store; exact I|]. apply ends_ret. exact R.
Qed.
Lemma wp_storep p a e m b o v (Q : outcome -> env -> mem -> Prop) : pe e m p (VPtr b o) -> pe e m a v ->
  inb m b o 1 -> Q ONormal e (setv m b o v) -> wp P (SStoreP p a) e m Q.
Proof.
  intros H K I R. eapply wp_of; [reflexivity|]. eapply ends_bind, ends_pure; [exact H|]. eapply ends_bind, ends_pure; [exact K|].
  eapply ends_bind, ends_pure; [apply yields_store; exact I|]. apply ends_ret. exact R.
Qed.
Lemma wp_storef p nf f a e m b o v (Q : outcome -> env -> mem -> Prop) : pe e m p (VPtr b o) -> pe e m a v ->
  inb m b (o * nf + f) 1 -> Q ONormal e (setv m b (o * nf + f) v) -> wp P (SStoreF p nf f a) e m Q.
Proof.
  intros H K I R. eapply wp_of; [reflexivity|]. eapply ends_bind, ends_pure; [exact H|]. eapply ends_bind, ends_pure; [exact K|].
  eapply ends_bind, ends_pure; [apply yields_store; exact I|]. apply ends_ret. exact R.
Qed.
Lemma wp_if c a b e m v Q : pe e m c v -> wp P (if truth v then a else b) e m Q -> wp P (SIf c a b) e m Q.
Proof.
  intros H K. eapply wp_of; [reflexivity|]. eapply ends_bind, ends_pure; [exact H|]. eapply ends_bind, ends_pure; [apply yields_tell|].
  destruct (truth v); exact K.
Qed.
Lemma wp_break e m (Q : outcome -> env -> mem -> Prop) : Q OBreak e m -> wp P SBreak e m Q.
Proof. intros H. eapply wp_of; [reflexivity|]. apply ends_ret. exact H. Qed.
Lemma wp_continue e m (Q : outcome -> env -> mem -> Prop) : Q OContinue e m -> wp P SContinue e m Q.
Proof. intros H. eapply wp_of; [reflexivity|]. apply ends_ret. exact H. Qed.
Lemma wp_return a e m v (Q : outcome -> env -> mem -> Prop) : pe e m a v -> Q (OReturn v) e m -> wp P (SReturn a) e m Q.
Proof. intros H K. eapply wp_of; [reflexivity|]. eapply ends_bind, ends_pure; [exact H|]. apply ends_ret. exact K. Qed.
Lemma wp_eval a e m v (Q : outcome -> env -> mem -> Prop) : pe e m a v -> Q ONormal e m -> wp P (SEval a) e m Q.
Proof. intros H K. eapply wp_of; [reflexivity|]. eapply ends_bind, ends_pure; [exact H|]. apply ends_ret. exact K. Qed.
Lemma wp_show x a e m v (Q : outcome -> env -> mem -> Prop) : pe e m a v -> Q ONormal (PositiveMap.add x v e) m -> wp P (SShow x a) e m Q.
Proof.
  intros H K. eapply wp_of; [reflexivity|]. eapply ends_bind, ends_pure; [exact H|]. eapply ends_bind, ends_pure; [apply yields_tell|].
  apply ends_ret. exact K.
Qed.
Lemma wp_alloc x a e m n (Q : outcome -> env -> mem -> Prop) : pe e m a (VInt n) ->
  Q ONormal (PositiveMap.add x (VPtr (mnext m) 0) e) (fresh m n (PositiveMap.empty value)) -> wp P (SAlloc x a) e m Q.
Proof.
  intros H K. eapply wp_of; [reflexivity|]. eapply ends_bind, ends_pure; [exact H|]. eapply ends_bind, ends_pure; [apply yields_tell|].
  apply ends_ret. exact K.
Qed.
Lemma wp_copy d s n e m b o b' o' k (Q : outcome -> env -> mem -> Prop) : pe e m d (VPtr b o) -> pe e m s (VPtr b' o') -> pe e m n (VInt k) ->
  inb m b o k -> inb m b' o' k -> Q ONormal e (setb m b o (bytesat m b' o' (Z.to_nat k))) -> wp P (SCopy d s n) e m Q.
Proof.
  intros H1 H2 H3 I I' R. eapply wp_of; [reflexivity|]. eapply ends_bind, ends_pure; [exact H1|]. eapply ends_bind, ends_pure; [exact H2|].
  eapply ends_bind, ends_pure; [exact H3|]. destruct (yields_load _ _ _ _ I') as (c & F & Y).
  eapply ends_bind, ends_pure; [exact Y|]. cbn [int_of]. eapply ends_bind, ends_pure; [apply yields_store; exact I|].
  apply ends_ret. cbv beta. rewrite (get_bytes_at m b' c F). exact R.
Qed.
Lemma wp_fill d a n e m b o v k (Q : outcome -> env -> mem -> Prop) : pe e m d (VPtr b o) -> pe e m a (VInt v) -> pe e m n (VInt k) ->
  inb m b o k -> Q ONormal e (setb m b o (repeat v (Z.to_nat k))) -> wp P (SFill d a n) e m Q.
Proof.
  intros H1 H2 H3 I R. eapply wp_of; [reflexivity|]. eapply ends_bind, ends_pure; [exact H1|]. eapply ends_bind, ends_pure; [exact H2|].
  eapply ends_bind, ends_pure; [exact H3|]. cbn [int_of]. eapply ends_bind, ends_pure; [apply yields_store; exact I|].
  apply ends_ret. exact R.
Qed.
Lemma wp_public x p n e m b o k (Q : outcome -> env -> mem -> Prop) : pe e m p (VPtr b o) -> pe e m n (VInt k) -> inb m b o k ->
  Q ONormal (PositiveMap.add x (VPtr (mnext m) 0) e)
    (fresh m k (put_bytes (PositiveMap.empty value) 0 (bytesat m b o (Z.to_nat k)))) -> wp P (SPublic x p n) e m Q.
Proof.
  intros H1 H2 I R. eapply wp_of; [reflexivity|]. eapply ends_bind, ends_pure; [exact H1|]. eapply ends_bind, ends_pure; [exact H2|].
  destruct (yields_load _ _ _ _ I) as (c & F & Y). eapply ends_bind, ends_pure; [exact Y|]. cbn [int_of]. cbv zeta.
  eapply ends_bind, ends_pure; [apply yields_tell|]. apply ends_ret. rewrite (get_bytes_at m b c F). exact R.
Qed.

(** A call returns what the body returns. *)
Lemma calls_intro f fn vs m (Q : value -> mem -> Prop) : PositiveMap.find f P = Some fn ->
  wp P (fbody fn) (bind_params (fparams fn) vs (PositiveMap.empty value)) m
    (fun o _ m' => match o with OReturn v => Q v m' | ONormal => Q VNull m' | _ => False end) -> calls P f vs m Q.
Proof.
  intros F H. unfold calls, call. rewrite F. apply ends_bind. eapply ends_weak; [exact H|]. intros [[o e'] m'] K.
  destruct o; try contradiction; apply ends_ret; exact K.
Qed.
Lemma calls_weak f vs m (Q R : value -> mem -> Prop) : calls P f vs m Q -> (forall v m, Q v m -> R v m) -> calls P f vs m R.
Proof. intros H K. eapply ends_weak; [exact H|]. intros [v m']. apply K. Qed.
Lemma wp_call d f args vs e m (Q : outcome -> env -> mem -> Prop) : pes e m args vs ->
  calls P f vs m (fun v m' => Q ONormal (set e d v) m') -> wp P (SCall d f args) e m Q.
Proof.
  intros H (n & [v m'] & K & R). exists (S n), (ONormal, set e d v, m'). split; [|exact R].
  intros [|k] L; [lia|]. cbn [exec]. destruct (K k) as [t E]; [lia|]. unfold call in E.
  destruct H as [t0 ->]. cbn [bind tell fst snd app]. destruct (PositiveMap.find f P) as [fn|]; [|discriminate].
  destruct (exec P k (fbody fn) (bind_params (fparams fn) vs (PositiveMap.empty value)) m) as [u [[[o e'] m2]| |]]; cbn [bind] in E;
    try discriminate.
  destruct o; cbn [bind tell ret fst snd] in *; try discriminate; injection E as <- <- <-; eexists; reflexivity.
Qed.

(** Loops, by the number of iterations that remain. *)
Lemma wp_loop c inc body (I : nat -> env -> mem -> Prop) (Q : outcome -> env -> mem -> Prop) :
  (forall n e m, I (S n) e m -> (exists v, pe e m c v /\ truth v = true) /\
     wp P body e m (fun o e m => match o with
       | ONormal | OContinue => wp P inc e m (fun o e m => o = ONormal /\ I n e m)
       | OBreak => Q ONormal e m
       | OReturn _ => Q o e m end)) ->
  (forall e m, I O e m -> (exists v, pe e m c v /\ truth v = false) /\ Q ONormal e m) ->
  forall n e m, I n e m -> wp P (SLoop c inc body) e m Q.
Proof.
  intros Hs H0. induction n as [|n IH]; intros e m HI.
  - destruct (H0 e m HI) as ((v & E & T) & K). eapply wp_of; [reflexivity|]. eapply ends_bind, ends_pure; [exact E|].
    eapply ends_bind, ends_pure; [apply yields_tell|]. rewrite T. apply ends_ret. exact K.
  - destruct (Hs n e m HI) as ((v & E & T) & K). eapply wp_of; [reflexivity|]. eapply ends_bind, ends_pure; [exact E|].
    eapply ends_bind, ends_pure; [apply yields_tell|]. rewrite T. apply ends_bind. eapply ends_weak; [exact K|].
    assert (N : forall e' m', wp P inc e' m' (fun o e m => o = ONormal /\ I n e m) ->
      ends (fun k => do (o, e, m) <- exec P k inc e' m'; match o with ONormal => exec P k (SLoop c inc body) e m | _ => fail end)
           (fun '(o, e, m) => Q o e m)).
    { intros e' m' W. apply ends_bind. eapply ends_weak; [exact W|]. intros [[o e2] m2] [-> J]. apply IH. exact J. }
    intros [[o e'] m'] W. destruct o; [apply N; exact W|apply ends_ret; exact W|apply N; exact W|apply ends_ret; exact W].
Qed.
End Rules.
