(** Programs accepted by the checker of Proof/CtCheck show the same events
    whatever the secrets are. *)
From Coq Require Import ZArith List Bool FMapPositive Lia.
From Verif Require Import Model.CtLang Proof.CtCheck.
Import ListNotations.
Local Open Scope Z_scope.

(** ** Runs that agree up to the first difference in what is made public *)
Definition parted (t1 t2 : list event) : Prop :=
  exists p l1 l2 s1 s2, t1 = p ++ EvPublic l1 :: s1 /\ t2 = p ++ EvPublic l2 :: s2 /\ l1 <> l2.

Definition same_end {A} (Q : A -> A -> Prop) (r1 r2 : result A) : Prop :=
  match r1, r2 with
  | RDone a, RDone b => Q a b
  | RFail, RFail => True
  | RFuel, RFuel => True
  | _, _ => False
  end.

Definition rrel {A} (Q : A -> A -> Prop) (r1 r2 : run A) : Prop :=
  (fst r1 = fst r2 /\ same_end Q (snd r1) (snd r2)) \/ parted (fst r1) (fst r2).

Lemma parted_app t1 t2 x y : parted t1 t2 -> parted (t1 ++ x) (t2 ++ y).
Proof.
  intros (p & l1 & l2 & s1 & s2 & -> & -> & N).
  exists p, l1, l2, (s1 ++ x), (s2 ++ y). rewrite <- !app_assoc. auto.
Qed.

Lemma parted_pre t x y : parted x y -> parted (t ++ x) (t ++ y).
Proof.
  intros (p & l1 & l2 & s1 & s2 & -> & -> & N).
  exists (t ++ p), l1, l2, s1, s2. rewrite <- !app_assoc. auto.
Qed.

Lemma rrel_ret {A} (Q : A -> A -> Prop) a b : Q a b -> rrel Q (ret a) (ret b).
Proof. intros H. left. split; [reflexivity | exact H]. Qed.

Lemma rrel_fail {A} (Q : A -> A -> Prop) : rrel Q fail fail.
Proof. left. split; [reflexivity | exact I]. Qed.

Lemma rrel_bind {A B} (Q : A -> A -> Prop) (Q' : B -> B -> Prop) m1 m2 k1 k2 :
  rrel Q m1 m2 -> (forall a b, Q a b -> rrel Q' (k1 a) (k2 b)) -> rrel Q' (bind m1 k1) (bind m2 k2).
Proof.
  destruct m1 as [t1 r1], m2 as [t2 r2]. intros [[E H]|H] K; cbn in *.
  - subst t2. destruct r1 as [a| |], r2 as [b| |]; cbn in H; try contradiction.
    + destruct (K a b H) as [[E' H']|H'].
      * left. cbn. split; [congruence | exact H'].
      * right. cbn. apply parted_pre. exact H'.
    + left. cbn. auto.
    + left. cbn. auto.
  - right. destruct r1 as [a| |], r2 as [b| |]; cbn;
      repeat match goal with |- context [fst ?x] => generalize (fst x); intro end;
      try (apply parted_app; exact H);
      try exact H.
    + rewrite <- (app_nil_r t2). apply parted_app. exact H.
    + rewrite <- (app_nil_r t2). apply parted_app. exact H.
    + rewrite <- (app_nil_r t1). apply parted_app. exact H.
    + rewrite <- (app_nil_r t1). apply parted_app. exact H.
Qed.

Lemma rrel_tell e : rrel eq (tell e) (tell e).
Proof. left. split; reflexivity. Qed.

Lemma rrel_public l1 l2 : rrel (fun _ _ => l1 = l2) (tell (EvPublic l1)) (tell (EvPublic l2)).
Proof.
  destruct (list_eq_dec Z.eq_dec l1 l2) as [->|N].
  - left. split; reflexivity.
  - right. exists [], l1, l2, [], []. auto.
Qed.

Lemma rrel_impl {A} (Q Q' : A -> A -> Prop) r1 r2 : (forall a b, Q a b -> Q' a b) -> rrel Q r1 r2 -> rrel Q' r1 r2.
Proof.
  intros H [[E F]|F]; [left | right; exact F]. split; [exact E|].
  destruct (snd r1), (snd r2); cbn in *; auto.
Qed.

(** ** Related states *)
Definition world := positive -> option pty.
Definition ext (w w' : world) : Prop := forall b p, w b = Some p -> w' b = Some p.

Definition vok (w : world) (t : vt) (v1 v2 : value) : Prop :=
  match t with
  | TInt true => True
  | TInt false => int_of v1 = int_of v2
  | TNull => v1 = VNull /\ v2 = VNull
  | TPtr p => v1 = v2 /\ forall b o, v1 = VPtr b o -> w b = Some p
  end.

Definition cells_ok (w : world) (p : pty) (c1 c2 : PositiveMap.t value) : Prop :=
  match p with
  | PBytes true => True
  | PBytes false => forall o, 0 <= o -> int_of (get c1 o) = int_of (get c2 o)
  | PPtrs t => forall o, 0 <= o -> vok w (TPtr t) (get c1 o) (get c2 o)
  | PStruct ts => forall o f t, 0 <= o * plen ts + f -> 0 <= f < plen ts -> pnth ts (Z.to_nat f) = Some t ->
                  vok w (TPtr t) (get c1 (o * plen ts + f)) (get c2 (o * plen ts + f))
  end.

Definition mok (w : world) (m1 m2 : mem) : Prop :=
  mnext m1 = mnext m2 /\
  forall b p, w b = Some p ->
    (b < mnext m1)%positive /\
    exists k1 k2, PositiveMap.find b (mblocks m1) = Some k1 /\ PositiveMap.find b (mblocks m2) = Some k2 /\
      bsize k1 = bsize k2 /\ cells_ok w p (bcells k1) (bcells k2).

Definition eok (w : world) (C : gamma) (e1 e2 : env) : Prop :=
  forall x t, PositiveMap.find x C = Some t -> vok w t (lookup e1 x) (lookup e2 x).

Lemma ext_refl w : ext w w. Proof. intros b p H. exact H. Qed.
Lemma ext_trans w1 w2 w3 : ext w1 w2 -> ext w2 w3 -> ext w1 w3.
Proof. intros A B b p H. apply B, A, H. Qed.

Lemma vok_ext w w' t v1 v2 : ext w w' -> vok w t v1 v2 -> vok w' t v1 v2.
Proof.
  intros E. destruct t as [[]|p|]; cbn; auto. intros [A B]. split; [exact A|]. intros b o H. apply E, (B b o H).
Qed.

Lemma cells_ok_ext w w' p c1 c2 : ext w w' -> cells_ok w p c1 c2 -> cells_ok w' p c1 c2.
Proof.
  intros E. destruct p as [[]|t|ts]; cbn -[vok]; auto.
  - intros H o O. exact (vok_ext _ _ _ _ _ E (H o O)).
  - intros H o f t A B D. exact (vok_ext _ _ _ _ _ E (H o f t A B D)).
Qed.

Lemma eok_ext w w' C e1 e2 : ext w w' -> eok w C e1 e2 -> eok w' C e1 e2.
Proof. intros E H x t F. exact (vok_ext _ _ _ _ _ E (H x t F)). Qed.

Lemma vok_null w t : vok w t VNull VNull.
Proof. destruct t as [[]|p|]; cbn; auto. split; [reflexivity | discriminate]. Qed.

Lemma vok_sub w a b v1 v2 : tsub a b = true -> vok w a v1 v2 -> vok w b v1 v2.
Proof.
  destruct a as [x|x|], b as [y|y|]; cbn; try discriminate; intros H.
  - destruct x, y; cbn in H; try discriminate; auto.
  - apply pty_eqb_eq in H. subst y. auto.
  - intros [-> ->]. split; [reflexivity | discriminate].
  - auto.
Qed.

Lemma lookup_add x v e y : lookup (PositiveMap.add x v e) y = if Pos.eq_dec y x then v else lookup e y.
Proof.
  unfold lookup. destruct (Pos.eq_dec y x) as [->|N].
  - rewrite PositiveMap.gss. reflexivity.
  - rewrite PositiveMap.gso by exact N. reflexivity.
Qed.

Lemma eok_add w C e1 e2 x t v1 v2 :
  PositiveMap.find x C = Some t -> vok w t v1 v2 -> eok w C e1 e2 ->
  eok w C (PositiveMap.add x v1 e1) (PositiveMap.add x v2 e2).
Proof.
  intros F V E y u Y. rewrite !lookup_add. destruct (Pos.eq_dec y x) as [->|N].
  - congruence.
  - exact (E y u Y).
Qed.

Lemma get_put c o v o' : 0 <= o -> 0 <= o' -> get (put c o v) o' = if Z.eq_dec o' o then v else get c o'.
Proof.
  intros A B. unfold get, put, key. destruct (Z.eq_dec o' o) as [->|N].
  - rewrite PositiveMap.gss. reflexivity.
  - rewrite PositiveMap.gso by lia. reflexivity.
Qed.

Lemma get_bytes_eq c1 c2 o n : 0 <= o ->
  (forall o, 0 <= o -> int_of (get c1 o) = int_of (get c2 o)) -> get_bytes c1 o n = get_bytes c2 o n.
Proof.
  intros O H. revert o O. induction n as [|n IH]; intros o O; cbn; [reflexivity|].
  rewrite (H o O), (IH (o + 1)) by lia. reflexivity.
Qed.

Lemma put_bytes_eq l c1 c2 o : 0 <= o ->
  (forall o, 0 <= o -> int_of (get c1 o) = int_of (get c2 o)) ->
  forall o', 0 <= o' -> int_of (get (put_bytes c1 o l) o') = int_of (get (put_bytes c2 o l) o').
Proof.
  revert c1 c2 o. induction l as [|z l IH]; intros c1 c2 o O H o' O'; cbn; [exact (H o' O')|].
  apply IH; [lia| |lia]. intros q Q. rewrite !get_put by assumption.
  destruct (Z.eq_dec q o); [reflexivity | exact (H q Q)].
Qed.

(** ** Memory operations *)
Lemma access_rel w p m1 m2 b o n : mok w m1 m2 -> w b = Some p ->
  match access m1 b o n, access m2 b o n with
  | Some k1, Some k2 => 0 <= o /\ 0 <= n /\ bsize k1 = bsize k2 /\ cells_ok w p (bcells k1) (bcells k2)
  | None, None => True
  | _, _ => False
  end.
Proof.
  intros [N H] W. destruct (H b p W) as (L & k1 & k2 & F1 & F2 & Z & K).
  unfold access. rewrite F1, F2, <- Z.
  destruct ((0 <=? o) && (0 <=? n) && (o + n <=? bsize k1)) eqn:E; [|exact I].
  apply andb_prop in E as [E _]. apply andb_prop in E as [E1 E2]. repeat split; try assumption; lia.
Qed.

Lemma load_rel w t m1 m2 v1 v2 n : mok w m1 m2 -> vok w (TPtr t) v1 v2 ->
  rrel (fun a b => snd a = snd b /\ 0 <= snd a /\ cells_ok w t (fst a) (fst b)) (load m1 v1 n) (load m2 v2 n).
Proof.
  intros M [-> W]. destruct v2 as [|b o|]; try apply rrel_fail.
  cbn. pose proof (access_rel w t m1 m2 b o n M (W b o eq_refl)) as A.
  destruct (access m1 b o n) as [k1|], (access m2 b o n) as [k2|]; try contradiction; [|apply rrel_fail].
  destruct A as (A1 & A2 & A3 & A4). left. cbn. auto.
Qed.

Lemma update_rel w p m1 m2 b k1 k2 c1 c2 : mok w m1 m2 -> w b = Some p -> bsize k1 = bsize k2 ->
  cells_ok w p c1 c2 -> mok w (update m1 b k1 c1) (update m2 b k2 c2).
Proof.
  intros [N H] W Z K. split; [exact N|]. intros b' p' W'. destruct (H b' p' W') as (L & x1 & x2 & F1 & F2 & Z' & K').
  split; [exact L|]. cbn. destruct (Pos.eq_dec b' b) as [->|E].
  - rewrite !PositiveMap.gss. exists (Blk (bsize k1) c1), (Blk (bsize k2) c2). cbn.
    replace p' with p by congruence. auto.
  - rewrite !PositiveMap.gso by exact E. exists x1, x2. auto.
Qed.

Lemma store_rel w t m1 m2 v1 v2 n f1 f2 : mok w m1 m2 -> vok w (TPtr t) v1 v2 ->
  (forall c1 c2 b o, 0 <= o -> v1 = VPtr b o -> cells_ok w t c1 c2 -> cells_ok w t (f1 c1 o) (f2 c2 o)) ->
  rrel (mok w) (store m1 v1 n f1) (store m2 v2 n f2).
Proof.
  intros M [-> W] F. destruct v2 as [|b o|]; try apply rrel_fail.
  cbn. pose proof (access_rel w t m1 m2 b o n M (W b o eq_refl)) as A.
  destruct (access m1 b o n) as [k1|], (access m2 b o n) as [k2|]; try contradiction; [|apply rrel_fail].
  destruct A as (A1 & A2 & A3 & A4). left. cbn. split; [reflexivity|].
  apply (update_rel w t); auto; [exact (W b o eq_refl)|]. apply (F _ _ b o); auto.
Qed.

Lemma store_bytes_rel w l m1 m2 v1 v2 n (f1 f2 : Z -> list Z) : mok w m1 m2 -> vok w (TPtr (PBytes l)) v1 v2 ->
  (l = false -> forall o, f1 o = f2 o) ->
  rrel (mok w) (store m1 v1 n (fun c o => put_bytes c o (f1 o))) (store m2 v2 n (fun c o => put_bytes c o (f2 o))).
Proof.
  intros M V F. apply (store_rel w (PBytes l)); auto. intros c1 c2 b o O E K. destruct l; cbn in *; [exact I|].
  intros q Q. rewrite (F eq_refl). apply put_bytes_eq; auto.
Qed.

Lemma fresh_rel w m1 m2 n p c1 c2 : mok w m1 m2 -> cells_ok w p c1 c2 ->
  exists w', ext w w' /\ mok w' (fresh m1 n c1) (fresh m2 n c2) /\ w' (mnext m1) = Some p.
Proof.
  intros [N H] K.
  set (w' := fun b => if Pos.eq_dec b (mnext m1) then Some p else w b).
  assert (E : ext w w').
  { intros b q B. unfold w'. destruct (Pos.eq_dec b (mnext m1)) as [->|_]; [|exact B].
    destruct (H _ _ B) as [L _]. lia. }
  exists w'. split; [exact E|]. split.
  - split; [cbn; congruence|]. intros b q B. unfold w' in B. cbn.
    destruct (Pos.eq_dec b (mnext m1)) as [->|D].
    + injection B as <-. split; [lia|]. rewrite <- N, !PositiveMap.gss. eexists _, _. repeat split; try reflexivity.
      cbn. exact (cells_ok_ext _ _ _ _ _ E K).
    + destruct (H b q B) as (L & k1 & k2 & F1 & F2 & Z & K'). split; [lia|].
      rewrite <- N, !PositiveMap.gso by exact D. exists k1, k2. repeat split; auto. exact (cells_ok_ext _ _ _ _ _ E K').
  - unfold w'. destruct (Pos.eq_dec (mnext m1) (mnext m1)); [reflexivity | contradiction].
Qed.

Lemma cells_ok_empty w p : cells_ok w p (PositiveMap.empty value) (PositiveMap.empty value).
Proof.
  destruct p as [[]|t|ts]; cbn -[get vok]; auto.
  - intros o O. unfold get. rewrite PositiveMap.gempty. apply vok_null.
  - intros o f t A B D. unfold get. rewrite PositiveMap.gempty. apply vok_null.
Qed.

(** ** Expressions *)
Section Expr.
Variable G : positive -> option lab.
Variable C : gamma.

Definition gok (w : world) : Prop := forall g l, G g = Some l -> w g = Some (PBytes l).

Ltac inv H := injection H as <-.

Lemma tjoin_l a b t : tjoin a b = Some t -> tsub a t = true.
Proof.
  destruct a as [x|x|], b as [y|y|]; cbn; intros H; try discriminate;
    try (destruct (pty_eqb x y) eqn:E; [|discriminate]); inv H; cbn; auto.
  - destruct x, y; reflexivity.
  - apply pty_eqb_eq in E. subst. clear. revert y.
    apply (pty_mind (fun a => pty_eqb a a = true) (fun a => ptys_eqb a a = true)); cbn; auto.
    + intros []; reflexivity.
    + intros t -> ts ->. reflexivity.
  - clear. revert x.
    apply (pty_mind (fun a => pty_eqb a a = true) (fun a => ptys_eqb a a = true)); cbn; auto.
    + intros []; reflexivity.
    + intros t -> ts ->. reflexivity.
Qed.

Lemma pty_eqb_refl a : pty_eqb a a = true.
Proof.
  revert a. apply (pty_mind (fun a => pty_eqb a a = true) (fun a => ptys_eqb a a = true)); cbn; auto.
  + intros []; reflexivity.
  + intros t -> ts ->. reflexivity.
Qed.

Lemma tjoin_r a b t : tjoin a b = Some t -> tsub b t = true.
Proof.
  destruct a as [x|x|], b as [y|y|]; cbn; intros H; try discriminate;
    try (destruct (pty_eqb x y) eqn:E; [|discriminate]); inv H; cbn; auto using pty_eqb_refl.
  - destruct x, y; reflexivity.
  - apply pty_eqb_eq in E. subst. apply pty_eqb_refl.
Qed.

Lemma eval_rel w e1 e2 m1 m2 a t : gok w -> eok w C e1 e2 -> mok w m1 m2 -> texpr G C a = Some t ->
  rrel (vok w t) (eval e1 m1 a) (eval e2 m2 a).
Proof.
  intros GO E M. revert t.
  induction a as [z|x|g| |o ty a IHa|o ty a IHa b IHb|o ty a IHa b IHb|c IHc a IHa b IHb|n p IHp|p IHp|p IHp s i IHi|p IHp nf f|p IHp];
    intros t T; cbn [texpr] in T; cbn [eval].
  - inv T. apply rrel_ret. reflexivity.
  - apply rrel_ret. exact (E x t T).
  - destruct (G g) as [l|] eqn:Gg; [|discriminate]. inv T. apply rrel_ret. cbn. split; [reflexivity|].
    intros b o H. injection H as <- _. exact (GO _ _ Gg).
  - inv T. apply rrel_ret. cbn. auto.
  - destruct (texpr G C a) as [[l|p|]|] eqn:Ta; try discriminate. inv T.
    eapply rrel_bind; [exact (IHa _ eq_refl)|]. intros v1 v2 V. apply rrel_ret.
    destruct l; cbn in *; [exact I | congruence].
  - destruct (texpr G C a) as [[l|p|]|] eqn:Ta; try discriminate.
    destruct (texpr G C b) as [[l'|p|]|] eqn:Tb; try discriminate. inv T.
    eapply rrel_bind; [exact (IHa _ eq_refl)|]. intros v1 v2 V.
    eapply rrel_bind; [exact (IHb _ eq_refl)|]. intros u1 u2 U. apply rrel_ret.
    destruct l, l'; cbn in *; try exact I. congruence.
  - destruct (texpr G C a) as [[[]|p|]|] eqn:Ta; try discriminate.
    destruct (texpr G C b) as [[[]|p|]|] eqn:Tb; try discriminate. inv T.
    eapply rrel_bind; [exact (IHa _ eq_refl)|]. intros v1 v2 V.
    eapply rrel_bind; [exact (IHb _ eq_refl)|]. intros u1 u2 U. cbn in V, U. rewrite V, U.
    eapply rrel_bind; [apply rrel_tell|]. intros _ _ _.
    destruct (int_of u2 =? 0); [apply rrel_fail | apply rrel_ret; reflexivity].
  - destruct (texpr G C c) as [[[]|p|]|] eqn:Tc; try discriminate.
    destruct (texpr G C a) as [ta|] eqn:Ta; try discriminate.
    destruct (texpr G C b) as [tb|] eqn:Tb; try discriminate.
    eapply rrel_bind; [exact (IHc _ eq_refl)|]. intros v1 v2 V. cbn in V. unfold truth. rewrite V.
    eapply rrel_bind; [apply rrel_tell|]. intros _ _ _.
    destruct (negb (int_of v2 =? 0)).
    + eapply rrel_impl; [|exact (IHa _ eq_refl)]. intros x y. apply vok_sub. exact (tjoin_l _ _ _ T).
    + eapply rrel_impl; [|exact (IHb _ eq_refl)]. intros x y. apply vok_sub. exact (tjoin_r _ _ _ T).
  - destruct (texpr G C p) as [[|[l|q|q]|]|] eqn:Tp; try discriminate. inv T.
    eapply rrel_bind; [exact (IHp _ eq_refl)|]. intros v1 v2 V.
    eapply rrel_bind; [exact (load_rel w _ m1 m2 v1 v2 _ M V)|]. intros [c1 o1] [c2 o2] (O & P & K). cbn in O, P, K. subst o2.
    apply rrel_ret. destruct l; cbn in *; [exact I|]. f_equal. apply get_bytes_eq; auto.
  - destruct (texpr G C p) as [[|[l|q|q]|]|] eqn:Tp; try discriminate. inv T.
    eapply rrel_bind; [exact (IHp _ eq_refl)|]. intros v1 v2 V.
    eapply rrel_bind; [exact (load_rel w _ m1 m2 v1 v2 _ M V)|]. intros [c1 o1] [c2 o2] (O & P & K). cbn in O, P, K. subst o2.
    apply rrel_ret. apply K. exact P.
  - destruct (texpr G C p) as [[|q|]|] eqn:Tp; try discriminate.
    destruct (texpr G C i) as [[[]|p'|]|] eqn:Ti; try discriminate. inv T.
    eapply rrel_bind; [exact (IHp _ eq_refl)|]. intros v1 v2 V.
    eapply rrel_bind; [exact (IHi _ eq_refl)|]. intros u1 u2 U. cbn in U. rewrite U. destruct V as [-> V].
    destruct v2 as [z|b o|].
    + destruct (int_of u2 =? 0); [|apply rrel_fail]. apply rrel_ret. cbn. split; [reflexivity|discriminate].
    + apply rrel_ret. cbn. split; [reflexivity|]. intros b' o' H. injection H as <- _. exact (V b o eq_refl).
    + destruct (int_of u2 =? 0); [|apply rrel_fail]. apply rrel_ret. cbn. split; [reflexivity|discriminate].
  - destruct (texpr G C p) as [[|[l|q|ts]|]|] eqn:Tp; try discriminate.
    destruct ((plen ts =? nf) && (0 <=? f) && (f <? nf)) eqn:B; [|discriminate].
    destruct (pnth ts (Z.to_nat f)) as [t'|] eqn:Nt; [|discriminate]. inv T.
    apply andb_prop in B as [B B3]. apply andb_prop in B as [B1 B2].
    assert (nf = plen ts) by lia. subst nf.
    eapply rrel_bind; [exact (IHp _ eq_refl)|]. intros v1 v2 [-> V].
    destruct v2 as [z|b o|]; try apply rrel_fail.
    cbn [load].
    pose proof (access_rel w _ m1 m2 b (o * plen ts + f) 1 M (V b o eq_refl)) as A.
    destruct (access m1 b _ 1) as [k1|], (access m2 b _ 1) as [k2|]; try contradiction.
    2:{ cbn. left. cbn. auto. }
    destruct A as (A1 & A2 & A3 & A4). left. split; [reflexivity|]. cbn -[vok] in *. apply (A4 o f t' A1); auto. lia.
  - destruct (texpr G C p) as [[|q|]|] eqn:Tp; try discriminate. inv T.
    eapply rrel_bind; [exact (IHp _ eq_refl)|]. intros v1 v2 [-> V]. apply rrel_ret. reflexivity.
Qed.

Fixpoint vsok (w : world) (ts : list vt) (l1 l2 : list value) : Prop :=
  match ts, l1, l2 with
  | [], [], [] => True
  | t :: ts, v1 :: l1, v2 :: l2 => vok w t v1 v2 /\ vsok w ts l1 l2
  | _, _, _ => False
  end.

Lemma evals_rel w e1 e2 m1 m2 l ts : gok w -> eok w C e1 e2 -> mok w m1 m2 -> targs G C l ts = true ->
  rrel (vsok w ts) (evals e1 m1 l) (evals e2 m2 l).
Proof.
  intros GO E M. revert ts. induction l as [|a l IH]; intros [|t ts] T; cbn in T; try discriminate; cbn [evals].
  - apply rrel_ret. exact I.
  - destruct (texpr G C a) as [t'|] eqn:Ta; [|discriminate]. apply andb_prop in T as [T1 T2].
    eapply rrel_bind; [exact (eval_rel w e1 e2 m1 m2 a t' GO E M Ta)|]. intros v1 v2 V.
    eapply rrel_bind; [exact (IH ts T2)|]. intros l1 l2 L. apply rrel_ret. cbn. split; [|exact L].
    exact (vok_sub w t' t v1 v2 T1 V).
Qed.

Lemma lo_rel w e1 e2 m1 m2 a : gok w -> eok w C e1 e2 -> mok w m1 m2 -> lo G C a = true ->
  rrel (vok w (TInt false)) (eval e1 m1 a) (eval e2 m2 a).
Proof.
  intros GO E M L. unfold lo in L. destruct (texpr G C a) as [[[]|p|]|] eqn:T; try discriminate.
  exact (eval_rel w e1 e2 m1 m2 a _ GO E M T).
Qed.
End Expr.

Lemma bind_params_ok w C : forall ps ts vs1 vs2 e1 e2,
  params_ok C ps ts = true -> vsok w ts vs1 vs2 -> eok w C e1 e2 ->
  eok w C (bind_params ps vs1 e1) (bind_params ps vs2 e2).
Proof.
  induction ps as [|p ps IH]; intros [|t ts] [|v1 vs1] [|v2 vs2] e1 e2 P V E; cbn in P, V; try discriminate; try contradiction.
  - exact E.
  - apply andb_prop in P as [P1 P2]. destruct V as [V1 V2]. cbn.
    destruct (PositiveMap.find p C) as [t'|] eqn:F; [|discriminate].
    apply (IH ts); auto. apply (eok_add w C e1 e2 p t'); auto. exact (vok_sub _ _ _ _ _ P1 V1).
Qed.

Lemma field_eq a b n f g : a * n + f = b * n + g -> 0 <= f < n -> 0 <= g < n -> f = g.
Proof.
  intros H F K. assert (A : (f + a * n) mod n = (g + b * n) mod n) by (f_equal; lia).
  rewrite !Z_mod_plus_full, !Z.mod_small in A; assumption.
Qed.

(** ** Statements *)
Section Stmt.
Variable P : program.
Variable G : positive -> option lab.
Variable S : PositiveMap.t (list sig).

(** Every signature of a function comes with types for its variables. *)
Definition valid : Prop := forall f l s, PositiveMap.find f S = Some l -> In s l ->
  exists fn C, PositiveMap.find f P = Some fn /\ params_ok C (fparams fn) (s_args s) = true /\
               cstmt G C S (s_ret s) (fbody fn) = true.

Definition ook (w : world) (R : vt) (o1 o2 : outcome) : Prop :=
  match o1, o2 with
  | ONormal, ONormal => True
  | OBreak, OBreak => True
  | OContinue, OContinue => True
  | OReturn v1, OReturn v2 => vok w R v1 v2
  | _, _ => False
  end.

Definition sok (w : world) (C : gamma) (R : vt) (a b : outcome * env * mem) : Prop :=
  let '(o1, e1, m1) := a in let '(o2, e2, m2) := b in
  exists w', ext w w' /\ ook w' R o1 o2 /\ eok w' C e1 e2 /\ mok w' m1 m2.

Lemma gok_ext w w' : ext w w' -> gok G w -> gok G w'.
Proof. intros E H g l L. apply E, (H g l L). Qed.

Lemma sok_ext w w' C R a b : ext w w' -> sok w' C R a b -> sok w C R a b.
Proof.
  destruct a as [[o1 e1] m1], b as [[o2 e2] m2]. intros E (w2 & X & H). exists w2. split; [exact (ext_trans _ _ _ E X) | exact H].
Qed.

Lemma ook_ext w w' R o1 o2 : ext w w' -> ook w R o1 o2 -> ook w' R o1 o2.
Proof. intros E. destruct o1, o2; cbn; auto. exact (vok_ext w w' R v v0 E). Qed.

Lemma sok_here w C R o1 o2 e1 e2 m1 m2 : ook w R o1 o2 -> eok w C e1 e2 -> mok w m1 m2 ->
  rrel (sok w C R) (ret (o1, e1, m1)) (ret (o2, e2, m2)).
Proof. intros O E M. apply rrel_ret. exists w. auto using ext_refl. Qed.

Lemma has_rel w C e1 e2 x t v1 v2 : has C x t = true -> vok w t v1 v2 -> eok w C e1 e2 ->
  eok w C (PositiveMap.add x v1 e1) (PositiveMap.add x v2 e2).
Proof.
  unfold has. destruct (PositiveMap.find x C) as [t'|] eqn:F; [|discriminate]. intros H V E.
  apply (eok_add w C e1 e2 x t'); auto. exact (vok_sub _ _ _ _ _ H V).
Qed.

Lemma bytes_rel w C e1 e2 m1 m2 a l : gok G w -> eok w C e1 e2 -> mok w m1 m2 -> bytes_at G C a = Some l ->
  rrel (vok w (TPtr (PBytes l))) (eval e1 m1 a) (eval e2 m2 a).
Proof.
  intros GO E M L. unfold bytes_at in L. destruct (texpr G C a) as [[|[]|]|] eqn:T; try discriminate.
  injection L as <-. exact (eval_rel G C w e1 e2 m1 m2 a _ GO E M T).
Qed.

Lemma int_rel w C e1 e2 m1 m2 a l : gok G w -> eok w C e1 e2 -> mok w m1 m2 -> int_at G C a = Some l ->
  rrel (vok w (TInt l)) (eval e1 m1 a) (eval e2 m2 a).
Proof.
  intros GO E M L. unfold int_at in L. destruct (texpr G C a) as [[|[]|]|] eqn:T; try discriminate.
  injection L as <-. exact (eval_rel G C w e1 e2 m1 m2 a _ GO E M T).
Qed.

Lemma exec_rel : valid -> forall fuel s w C R e1 e2 m1 m2,
  gok G w -> cstmt G C S R s = true -> eok w C e1 e2 -> mok w m1 m2 ->
  rrel (sok w C R) (exec P fuel s e1 m1) (exec P fuel s e2 m2).
Proof.
  intros V. induction fuel as [|fuel IH]; intros s w C R e1 e2 m1 m2 GO K E M.
  { left. cbn. auto. }
  destruct s as [|a b|x a|n p a|p a|p nf f a|c a b|c inc body| | |a|d f args|x n|d s n|d a n|x p n|x a| |a];
    cbn [cstmt] in K; cbn [exec].
  - apply sok_here; cbn; auto.
  - apply andb_prop in K as [K1 K2]. eapply rrel_bind; [exact (IH a w C R e1 e2 m1 m2 GO K1 E M)|].
    intros [[o1 f1] n1] [[o2 f2] n2] (w' & X & O & E' & M').
    destruct o1, o2; cbn in O; try contradiction.
    + eapply rrel_impl; [intros ? ?; apply (sok_ext w w'); exact X|]. apply IH; auto. exact (gok_ext _ _ X GO).
    + apply rrel_ret. exists w'. cbn. auto.
    + apply rrel_ret. exists w'. cbn. auto.
    + apply rrel_ret. exists w'. cbn. auto.
  - destruct (texpr G C a) as [t|] eqn:T; [|discriminate].
    eapply rrel_bind; [exact (eval_rel G C w e1 e2 m1 m2 a t GO E M T)|]. intros v1 v2 Hv.
    apply sok_here; [exact I | | exact M]. exact (has_rel _ _ _ _ _ _ _ _ K Hv E).
  - destruct (int_at G C a) as [l|] eqn:Ta; [|discriminate]. destruct (bytes_at G C p) as [l'|] eqn:Tp; [|discriminate].
    eapply rrel_bind; [exact (bytes_rel w C e1 e2 m1 m2 p l' GO E M Tp)|]. intros q1 q2 Hq.
    eapply rrel_bind; [exact (int_rel w C e1 e2 m1 m2 a l GO E M Ta)|]. intros v1 v2 Hv.
    eapply rrel_bind.
    { apply (store_bytes_rel w l' m1 m2 q1 q2 (Z.of_nat n) (fun _ => encode n (int_of v1)) (fun _ => encode n (int_of v2)) M Hq).
      intros -> _. destruct l; [discriminate|]. cbn in Hv. rewrite Hv. reflexivity. }
    intros n1 n2 M'. apply sok_here; [exact I | exact E | exact M'].
  - destruct (texpr G C p) as [[|[|t|]|]|] eqn:Tp; try discriminate.
    destruct (texpr G C a) as [t'|] eqn:Ta; [|discriminate].
    eapply rrel_bind; [exact (eval_rel G C w e1 e2 m1 m2 p _ GO E M Tp)|]. intros q1 q2 Hq.
    eapply rrel_bind; [exact (eval_rel G C w e1 e2 m1 m2 a _ GO E M Ta)|]. intros v1 v2 Hv.
    apply (vok_sub _ _ _ _ _ K) in Hv.
    eapply rrel_bind.
    { apply (store_rel w (PPtrs t) m1 m2 q1 q2 1 _ _ M Hq). intros c1 c2 b o O _ H q Q. cbn -[vok] in H.
      rewrite !get_put by assumption. destruct (Z.eq_dec q o); [exact Hv | exact (H q Q)]. }
    intros n1 n2 M'. apply sok_here; [exact I | exact E | exact M'].
  - destruct (texpr G C p) as [[|[| |ts]|]|] eqn:Tp; try discriminate.
    destruct (texpr G C a) as [t'|] eqn:Ta; [|discriminate].
    apply andb_prop in K as [K K4]. apply andb_prop in K as [K K3]. apply andb_prop in K as [K1 K2].
    destruct (pnth ts (Z.to_nat f)) as [t|] eqn:Nt; [|discriminate].
    assert (nf = plen ts) by lia. subst nf.
    eapply rrel_bind; [exact (eval_rel G C w e1 e2 m1 m2 p _ GO E M Tp)|]. intros q1 q2 Hq.
    eapply rrel_bind; [exact (eval_rel G C w e1 e2 m1 m2 a _ GO E M Ta)|]. intros v1 v2 Hv.
    apply (vok_sub _ _ _ _ _ K4) in Hv. destruct Hq as [-> Hq].
    destruct q2 as [z|b o|]; try apply rrel_fail.
    eapply rrel_bind.
    { apply (store_rel w (PStruct ts) m1 m2 (VPtr b (o * plen ts + f)) (VPtr b (o * plen ts + f)) 1 _ _ M).
      - split; [reflexivity|]. intros b' o' H. injection H as <- _. exact (Hq b o eq_refl).
      - intros c1 c2 b' o' O H0 H o2 f2 t2 A B D. injection H0 as <- <-. cbn -[vok] in H.
        rewrite !get_put by assumption. destruct (Z.eq_dec (o2 * plen ts + f2) (o * plen ts + f)) as [Q|Q].
        + assert (f2 = f) by (apply (field_eq o2 o (plen ts)); lia). subst f2. replace t2 with t by congruence. exact Hv.
        + exact (H o2 f2 t2 A B D). }
    intros n1 n2 M'. apply sok_here; [exact I | exact E | exact M'].
  - apply andb_prop in K as [K K3]. apply andb_prop in K as [K1 K2].
    eapply rrel_bind; [exact (lo_rel G C w e1 e2 m1 m2 c GO E M K1)|]. intros v1 v2 Hv. cbn in Hv. unfold truth. rewrite Hv.
    eapply rrel_bind; [apply rrel_tell|]. intros _ _ _.
    destruct (negb (int_of v2 =? 0)); apply IH; auto.
  - assert (K' := K). apply andb_prop in K as [K K3]. apply andb_prop in K as [K1 K2].
    eapply rrel_bind; [exact (lo_rel G C w e1 e2 m1 m2 c GO E M K1)|]. intros v1 v2 Hv. cbn in Hv. unfold truth. rewrite Hv.
    eapply rrel_bind; [apply rrel_tell|]. intros _ _ _.
    destruct (negb (int_of v2 =? 0)); [|apply sok_here; cbn; auto].
    eapply rrel_bind; [exact (IH body w C R e1 e2 m1 m2 GO K3 E M)|].
    intros [[o1 f1] n1] [[o2 f2] n2] (w' & X & O & E' & M').
    assert (N : rrel (sok w C R)
      (do (o, e, m) <- exec P fuel inc f1 n1; match o with ONormal => exec P fuel (SLoop c inc body) e m | _ => fail end)
      (do (o, e, m) <- exec P fuel inc f2 n2; match o with ONormal => exec P fuel (SLoop c inc body) e m | _ => fail end)).
    { eapply rrel_impl; [intros ? ?; apply (sok_ext w w'); exact X|].
      eapply rrel_bind; [exact (IH inc w' C R f1 f2 n1 n2 (gok_ext _ _ X GO) K2 E' M')|].
      intros [[o1' g1] n1'] [[o2' g2] n2'] (w2 & X2 & O2 & E2 & M2).
      destruct o1', o2'; cbn in O2; try contradiction; try apply rrel_fail.
      eapply rrel_impl; [intros ? ?; apply (sok_ext w' w2); exact X2|]. apply IH; auto.
      exact (gok_ext _ _ X2 (gok_ext _ _ X GO)). }
    destruct o1, o2; cbn in O; try contradiction.
    + exact N.
    + apply rrel_ret. exists w'. cbn. auto.
    + exact N.
    + apply rrel_ret. exists w'. cbn. auto.
  - apply sok_here; cbn; auto.
  - apply sok_here; cbn; auto.
  - destruct (texpr G C a) as [t|] eqn:T; [|discriminate].
    eapply rrel_bind; [exact (eval_rel G C w e1 e2 m1 m2 a t GO E M T)|]. intros v1 v2 Hv.
    apply sok_here; cbn; auto. exact (vok_sub _ _ _ _ _ K Hv).
  - destruct (PositiveMap.find f S) as [l|] eqn:F; [|discriminate].
    apply existsb_exists in K as (s & Hs & K). apply andb_prop in K as [K1 K2].
    destruct (V f l s F Hs) as (fn & C' & Ff & Pp & Kb). rewrite Ff.
    eapply rrel_bind; [exact (evals_rel G C w e1 e2 m1 m2 args _ GO E M K1)|]. intros vs1 vs2 Hvs.
    eapply rrel_bind; [apply rrel_tell|]. intros _ _ _.
    eapply rrel_bind.
    { apply (IH (fbody fn) w C' (s_ret s)); [exact GO | exact Kb | | exact M].
      apply (bind_params_ok w C' _ (s_args s)); auto.
      intros y t Y. unfold lookup. rewrite PositiveMap.gempty. apply vok_null. }
    intros [[o1 f1] n1] [[o2 f2] n2] (w' & X & O & E' & M').
    eapply rrel_bind; [apply rrel_tell|]. intros _ _ _.
    assert (N : forall v1 v2, vok w' (s_ret s) v1 v2 ->
      rrel (sok w C R) (ret (ONormal, set e1 d v1, n1)) (ret (ONormal, set e2 d v2, n2))).
    { intros v1 v2 Hv. apply rrel_ret. exists w'. split; [exact X|]. split; [exact I|]. split; [|exact M'].
      pose proof (eok_ext _ _ _ _ _ X E) as E2.
      destruct d as [x|]; cbn; [|exact E2]. exact (has_rel _ _ _ _ _ _ _ _ K2 Hv E2). }
    destruct o1, o2; cbn in O; try contradiction; try apply rrel_fail.
    + apply N, vok_null.
    + apply N, O.
  - apply andb_prop in K as [K1 K2]. destruct (PositiveMap.find x C) as [[|t|]|] eqn:F; try discriminate.
    eapply rrel_bind; [exact (lo_rel G C w e1 e2 m1 m2 n GO E M K1)|]. intros v1 v2 Hv. cbn in Hv. rewrite Hv.
    eapply rrel_bind; [apply rrel_tell|]. intros _ _ _.
    destruct (fresh_rel w m1 m2 (int_of v2) t _ _ M (cells_ok_empty w t)) as (w' & X & M' & N).
    apply rrel_ret. exists w'. split; [exact X|]. split; [exact I|]. split; [|exact M'].
    apply (eok_add w' C e1 e2 x (TPtr t)); [exact F | | exact (eok_ext _ _ _ _ _ X E)].
    destruct M as [NE _]. cbn. rewrite <- NE. split; [reflexivity|]. intros b o H. injection H as <- _. exact N.
  - apply andb_prop in K as [K1 K2].
    destruct (bytes_at G C s) as [l|] eqn:Ts; [|discriminate]. destruct (bytes_at G C d) as [l'|] eqn:Td; [|discriminate].
    eapply rrel_bind; [exact (bytes_rel w C e1 e2 m1 m2 d l' GO E M Td)|]. intros q1 q2 Hq.
    eapply rrel_bind; [exact (bytes_rel w C e1 e2 m1 m2 s l GO E M Ts)|]. intros r1 r2 Hr.
    eapply rrel_bind; [exact (lo_rel G C w e1 e2 m1 m2 n GO E M K1)|]. intros v1 v2 Hv. cbn in Hv. rewrite Hv.
    eapply rrel_bind; [exact (load_rel w _ m1 m2 r1 r2 _ M Hr)|]. intros [c1 o1] [c2 o2] (O & Po & Kc). cbn in O, Po, Kc. subst o2.
    eapply rrel_bind.
    { apply (store_bytes_rel w l' m1 m2 q1 q2 (int_of v2) (fun _ => get_bytes c1 o1 (Z.to_nat (int_of v2))) (fun _ => get_bytes c2 o1 (Z.to_nat (int_of v2))) M Hq).
      intros -> _. destruct l; [discriminate|]. apply get_bytes_eq; auto. }
    intros n1 n2 M'. apply sok_here; [exact I | exact E | exact M'].
  - apply andb_prop in K as [K1 K2].
    destruct (int_at G C a) as [l|] eqn:Ta; [|discriminate]. destruct (bytes_at G C d) as [l'|] eqn:Td; [|discriminate].
    eapply rrel_bind; [exact (bytes_rel w C e1 e2 m1 m2 d l' GO E M Td)|]. intros q1 q2 Hq.
    eapply rrel_bind; [exact (int_rel w C e1 e2 m1 m2 a l GO E M Ta)|]. intros u1 u2 Hu.
    eapply rrel_bind; [exact (lo_rel G C w e1 e2 m1 m2 n GO E M K1)|]. intros v1 v2 Hv. cbn in Hv. rewrite Hv.
    eapply rrel_bind.
    { apply (store_bytes_rel w l' m1 m2 q1 q2 (int_of v2) (fun _ => repeat (int_of u1) (Z.to_nat (int_of v2))) (fun _ => repeat (int_of u2) (Z.to_nat (int_of v2))) M Hq).
      intros -> _. destruct l; [discriminate|]. cbn in Hu. rewrite Hu. reflexivity. }
    intros n1 n2 M'. apply sok_here; [exact I | exact E | exact M'].
  - apply andb_prop in K as [K K3]. apply andb_prop in K as [K1 K2].
    destruct (bytes_at G C p) as [l|] eqn:Tp; [|discriminate].
    destruct (PositiveMap.find x C) as [[|[l'| |]|]|] eqn:F; try discriminate.
    eapply rrel_bind; [exact (bytes_rel w C e1 e2 m1 m2 p l GO E M Tp)|]. intros q1 q2 Hq.
    eapply rrel_bind; [exact (lo_rel G C w e1 e2 m1 m2 n GO E M K1)|]. intros v1 v2 Hv. cbn in Hv. rewrite Hv.
    eapply rrel_bind; [exact (load_rel w _ m1 m2 q1 q2 _ M Hq)|]. intros [c1 o1] [c2 o2] (O & Po & Kc). cbn in O, Po, Kc. subst o2.
    cbv zeta.
    eapply rrel_bind; [apply rrel_public|]. intros u1 u2 Q; cbn beta in Q; clear u1 u2. rewrite Q.
    destruct (fresh_rel w m1 m2 (int_of v2) (PBytes l') (put_bytes (PositiveMap.empty value) 0 (get_bytes c2 o1 (Z.to_nat (int_of v2))))
               (put_bytes (PositiveMap.empty value) 0 (get_bytes c2 o1 (Z.to_nat (int_of v2)))) M) as (w' & X & M' & N).
    { destruct l'; cbn; auto. }
    apply rrel_ret. exists w'. split; [exact X|]. split; [exact I|]. split; [|exact M'].
    apply (eok_add w' C e1 e2 x (TPtr (PBytes l'))); [exact F | | exact (eok_ext _ _ _ _ _ X E)].
    destruct M as [NE _]. cbn. rewrite <- NE. split; [reflexivity|]. intros b o H. injection H as <- _. exact N.
  - apply andb_prop in K as [K1 K2]. destruct (int_at G C a) as [l|] eqn:Ta; [|discriminate].
    destruct (PositiveMap.find x C) as [[l'| |]|] eqn:F; try discriminate.
    eapply rrel_bind; [exact (int_rel w C e1 e2 m1 m2 a l GO E M Ta)|]. intros v1 v2 Hv.
    eapply rrel_bind; [apply rrel_public|]. intros u1 u2 Q; cbn beta in Q; clear u1 u2.
    apply sok_here; [exact I | | exact M]. apply (eok_add w C e1 e2 x (TInt l')); auto.
    destruct l'; cbn; [exact I | congruence].
  - apply rrel_fail.
  - destruct (texpr G C a) as [t|] eqn:T; [|discriminate].
    eapply rrel_bind; [exact (eval_rel G C w e1 e2 m1 m2 a t GO E M T)|]. intros v1 v2 Hv.
    apply sok_here; cbn; auto.
Qed.
End Stmt.
