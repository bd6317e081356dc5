(** Which blocks a program may read and write: a checker for the types of
    Proof/CtCheck, in which the label of a block of bytes now says whether it
    may be written, and the proof that a program accepted by it accesses nothing
    else. *)
From Coq Require Import ZArith List Bool FMapPositive Lia.
From Verif Require Import Model.CtLang Proof.CtCheck Proof.CtSound.
Import ListNotations.
Local Open Scope Z_scope.

Section Typing.
Variable G : positive -> option bool.         (* the global blocks that may be read, and whether they may be written *)
Variable C : gamma.

Fixpoint wexpr (a : expr) : option vt :=
  match a with
  | EInt _ => Some (TInt false)
  | EVar x => PositiveMap.find x C
  | EGlob g => match G g with Some l => Some (TPtr (PBytes l)) | None => None end
  | ENull => Some TNull
  | EUn _ _ a => match wexpr a with Some (TInt _) => Some (TInt false) | _ => None end
  | EBin _ _ a b | EDiv _ _ a b =>
      match wexpr a, wexpr b with Some (TInt _), Some (TInt _) => Some (TInt false) | _, _ => None end
  | ECond c a b =>
      match wexpr c, wexpr a, wexpr b with
      | Some (TInt _), Some t, Some t' => tjoin t t'
      | _, _, _ => None
      end
  | ELoad _ p => match wexpr p with Some (TPtr (PBytes _)) => Some (TInt false) | _ => None end
  | ELoadP p => match wexpr p with Some (TPtr (PPtrs t)) => Some (TPtr t) | _ => None end
  | EAt p _ i => match wexpr p, wexpr i with Some (TPtr t), Some (TInt _) => Some (TPtr t) | _, _ => None end
  | EField p nf f =>
      match wexpr p with
      | Some (TPtr (PStruct ts)) =>
          if (plen ts =? nf) && (0 <=? f) && (f <? nf)
          then match pnth ts (Z.to_nat f) with Some t => Some (TPtr t) | None => None end
          else None
      | _ => None
      end
  | EIsNull p => match wexpr p with Some (TPtr _) => Some (TInt false) | _ => None end
  end.

Definition wint (a : expr) : bool := match wexpr a with Some (TInt _) => true | _ => false end.
Definition wbytes (a : expr) : option bool := match wexpr a with Some (TPtr (PBytes l)) => Some l | _ => None end.
Definition wout (a : expr) : bool := match wbytes a with Some true => true | _ => false end.
Definition win (a : expr) : bool := match wbytes a with Some _ => true | _ => false end.

Fixpoint wargs (l : list expr) (ts : list vt) : bool :=
  match l, ts with
  | [], [] => true
  | a :: l, t :: ts => match wexpr a with Some t' => tsub t' t && wargs l ts | None => false end
  | _, _ => false
  end.

Variable S : PositiveMap.t (list sig).
Variable R : vt.

Fixpoint wstmt (s : stmt) : bool :=
  match s with
  | SSkip | SBreak | SContinue | SFail => true
  | SSeq a b => wstmt a && wstmt b
  | SSet x a => match wexpr a with Some t => has C x t | None => false end
  | SStore _ p a => wint a && wout p
  | SStoreP p a =>
      match wexpr p, wexpr a with Some (TPtr (PPtrs t)), Some t' => tsub t' (TPtr t) | _, _ => false end
  | SStoreF p nf f a =>
      match wexpr p, wexpr a with
      | Some (TPtr (PStruct ts)), Some t' =>
          (plen ts =? nf) && (0 <=? f) && (f <? nf) &&
          match pnth ts (Z.to_nat f) with Some t => tsub t' (TPtr t) | None => false end
      | _, _ => false
      end
  | SIf c a b => wint c && wstmt a && wstmt b
  | SLoop c i b => wint c && wstmt i && wstmt b
  | SReturn a => match wexpr a with Some t => tsub t R | None => false end
  | SCall d f args =>
      match PositiveMap.find f S with
      | Some l => existsb (fun s => wargs args (s_args s) &&
                                    match d with Some x => has C x (s_ret s) | None => true end) l
      | None => false
      end
  | SAlloc x n => wint n && match PositiveMap.find x C with Some (TPtr _) => true | _ => false end
  | SCopy d s n => wint n && win s && wout d
  | SFill d a n => wint n && wint a && wout d
  | SPublic x p n => wint n && win p && match PositiveMap.find x C with Some (TPtr (PBytes _)) => true | _ => false end
  | SShow x a => wint a && match PositiveMap.find x C with Some (TInt _) => true | _ => false end
  | SEval a => match wexpr a with Some _ => true | None => false end
  end.
End Typing.

Definition wentry (P : program) (G : positive -> option bool) (S : PositiveMap.t (list sig)) (i : entry) : bool :=
  match PositiveMap.find (e_fun i) P with
  | Some fn =>
      let C := gamma_of (e_vars i) in
      params_ok C (fparams fn) (s_args (e_sig i)) && wstmt G C S (s_ret (e_sig i)) (fbody fn)
  | None => false
  end.

Definition wprogram (P : program) (G : positive -> option bool) (l : list entry) : bool :=
  let S := sigs_of l in forallb (wentry P G S) l.

(** ** What the types mean *)
Definition okv (w : world) (t : vt) (v : value) : Prop :=
  match t with
  | TInt _ => True
  | TNull => v = VNull
  | TPtr p => forall b o, v = VPtr b o -> w b = Some p
  end.

Definition okc (w : world) (p : pty) (c : PositiveMap.t value) : Prop :=
  match p with
  | PBytes _ => True
  | PPtrs t => forall o, 0 <= o -> okv w (TPtr t) (get c o)
  | PStruct ts => forall o f t, 0 <= o * plen ts + f -> 0 <= f < plen ts -> pnth ts (Z.to_nat f) = Some t ->
                  okv w (TPtr t) (get c (o * plen ts + f))
  end.

(** What the events may touch. *)
Definition okt (w : world) (t : list event) : Prop :=
  Forall (fun e => match e with
                   | EvLoad b _ _ => w b <> None
                   | EvStore b _ _ => exists p, w b = Some p /\ p <> PBytes false
                   | _ => True
                   end) t.

Section Sound.
Variable n0 : positive.                       (* the first block that did not exist at the start *)

Definition grows (w w' : world) : Prop := ext w w' /\ forall b, (b < n0)%positive -> w' b = w b.

Definition okm (w : world) (m : mem) : Prop :=
  (n0 <= mnext m)%positive /\
  forall b p, w b = Some p -> (b < mnext m)%positive /\
    forall k, PositiveMap.find b (mblocks m) = Some k -> okc w p (bcells k).

Definition oke (w : world) (C : gamma) (e : env) : Prop :=
  forall x t, PositiveMap.find x C = Some t -> okv w t (lookup e x).

(** A run that touches what it may and, if it ends, ends well. *)
Definition good {A} (w : world) (Q : world -> A -> Prop) (r : run A) : Prop :=
  exists w', grows w w' /\ okt w' (fst r) /\ forall a, snd r = RDone a -> Q w' a.

Lemma grows_refl w : grows w w. Proof. split; [apply ext_refl | reflexivity]. Qed.
Lemma grows_trans a b c : grows a b -> grows b c -> grows a c.
Proof.
  intros [A1 A2] [B1 B2]. split; [exact (ext_trans _ _ _ A1 B1)|]. intros x X. rewrite B2, A2 by exact X. reflexivity.
Qed.

Lemma okt_grows w w' t : grows w w' -> okt w t -> okt w' t.
Proof.
  intros [E _]. unfold okt. apply Forall_impl. intros [| |b o n|b o n| | | |] H; auto.
  - destruct (w b) as [p|] eqn:W; [|contradiction]. rewrite (E b p W). discriminate.
  - destruct H as (p & W & N). exists p. auto.
Qed.

Lemma good_ret {A} w (Q : world -> A -> Prop) a : Q w a -> good w Q (ret a).
Proof. intros H. exists w. split; [apply grows_refl|]. split; [constructor|]. intros b E. injection E as <-. exact H. Qed.

Lemma good_fail {A} w (Q : world -> A -> Prop) : good w Q fail.
Proof. exists w. split; [apply grows_refl|]. split; [constructor|]. discriminate. Qed.

Lemma good_bind {A B} w (Q : world -> A -> Prop) (Q' : world -> B -> Prop) m k :
  good w Q m -> (forall w' a, grows w w' -> Q w' a -> good w' Q' (k a)) -> good w Q' (bind m k).
Proof.
  destruct m as [t r]. intros (w1 & G1 & T1 & K1) H. cbn [fst snd] in *. destruct r as [a| |].
  - destruct (H w1 a G1 (K1 a eq_refl)) as (w2 & G2 & T2 & K2). exists w2.
    split; [exact (grows_trans _ _ _ G1 G2)|]. cbn [bind fst snd]. split; [|exact K2].
    apply Forall_app. split; [exact (okt_grows _ _ _ G2 T1) | exact T2].
  - exists w1. split; [exact G1|]. split; [exact T1|]. discriminate.
  - exists w1. split; [exact G1|]. split; [exact T1|]. discriminate.
Qed.

Lemma good_tell w e : okt w [e] -> good w (fun _ _ => True) (tell e).
Proof. intros H. exists w. split; [apply grows_refl|]. split; [exact H|]. auto. Qed.

Lemma good_impl {A} w (Q Q' : world -> A -> Prop) r : (forall w' a, grows w w' -> Q w' a -> Q' w' a) -> good w Q r -> good w Q' r.
Proof. intros H (w' & X & T & K). exists w'. split; [exact X|]. split; [exact T|]. intros a E. apply H; auto. Qed.

Lemma okv_grows w w' t v : grows w w' -> okv w t v -> okv w' t v.
Proof. intros [E _]. destruct t; cbn; auto. intros H b o V. apply E, (H b o V). Qed.

Lemma okc_grows w w' p c : grows w w' -> okc w p c -> okc w' p c.
Proof.
  intros E. destruct p as [|t|ts]; cbn -[okv]; auto.
  - intros H o O. exact (okv_grows _ _ _ _ E (H o O)).
  - intros H o f t A B D. exact (okv_grows _ _ _ _ E (H o f t A B D)).
Qed.

Lemma oke_grows w w' C e : grows w w' -> oke w C e -> oke w' C e.
Proof. intros E H x t F. exact (okv_grows _ _ _ _ E (H x t F)). Qed.

Lemma okv_null w t : okv w t VNull.
Proof. destruct t; cbn; auto. discriminate. Qed.

Lemma okv_sub w a b v : tsub a b = true -> okv w a v -> okv w b v.
Proof.
  destruct a as [x|x|], b as [y|y|]; cbn; try discriminate; intros H; auto.
  - apply pty_eqb_eq in H. subst y. auto.
  - intros ->. discriminate.
Qed.

Lemma oke_add w C e x t v : PositiveMap.find x C = Some t -> okv w t v -> oke w C e -> oke w C (PositiveMap.add x v e).
Proof.
  intros F V E y u Y. rewrite lookup_add. destruct (Pos.eq_dec y x) as [->|N]; [congruence | exact (E y u Y)].
Qed.

Lemma load_good w t m v n : okm w m -> okv w (TPtr t) v ->
  good w (fun w' a => w' = w /\ 0 <= snd a /\ okc w t (fst a)) (load m v n).
Proof.
  intros [_ M] W. destruct v as [|b o|]; try apply good_fail. cbn [load]. unfold access.
  destruct (PositiveMap.find b (mblocks m)) as [k|] eqn:F; [|apply good_fail].
  destruct ((0 <=? o) && (0 <=? n) && (o + n <=? bsize k)) eqn:E; [|apply good_fail].
  apply andb_prop in E as [E _]. apply andb_prop in E as [E1 E2].
  specialize (W b o eq_refl). destruct (M b t W) as [_ K]. specialize (K k F).
  exists w. split; [apply grows_refl|]. split.
  - constructor; [|constructor]. rewrite W. discriminate.
  - intros a A. injection A as <-. cbn. repeat split; auto. lia.
Qed.

Lemma update_good w p m b k c : okm w m -> w b = Some p -> okc w p c -> okm w (update m b k c).
Proof.
  intros [N H] W K. split; [exact N|]. intros b' p' W'. destruct (H b' p' W') as [L X]. split; [exact L|].
  intros k' F. cbn in F. destruct (Pos.eq_dec b' b) as [->|D].
  - rewrite PositiveMap.gss in F. injection F as <-. cbn. replace p' with p by congruence. exact K.
  - rewrite PositiveMap.gso in F by exact D. exact (X k' F).
Qed.

Lemma store_good w t m v n f : okm w m -> okv w (TPtr t) v -> t <> PBytes false ->
  (forall c b o, 0 <= o -> v = VPtr b o -> okc w t c -> okc w t (f c o)) ->
  good w (fun w' m' => w' = w /\ okm w m') (store m v n f).
Proof.
  intros M W T F. destruct v as [|b o|]; try apply good_fail. cbn [store]. unfold access.
  destruct (PositiveMap.find b (mblocks m)) as [k|] eqn:B; [|apply good_fail].
  destruct ((0 <=? o) && (0 <=? n) && (o + n <=? bsize k)) eqn:E; [|apply good_fail].
  apply andb_prop in E as [E _]. apply andb_prop in E as [E1 E2].
  specialize (W b o eq_refl). destruct (proj2 M b t W) as [_ K]. specialize (K k B).
  exists w. split; [apply grows_refl|]. split.
  - constructor; [|constructor]. exists t. auto.
  - intros a A. injection A as <-. split; [reflexivity|]. apply (update_good w t); auto. apply (F _ b o); auto. lia.
Qed.

Lemma fresh_good w m n p c : okm w m -> okc w p c ->
  exists w', grows w w' /\ okm w' (fresh m n c) /\ w' (mnext m) = Some p.
Proof.
  intros [N H] K.
  set (w' := fun b => if Pos.eq_dec b (mnext m) then Some p else w b).
  assert (E : grows w w').
  { split.
    - intros b q B. unfold w'. destruct (Pos.eq_dec b (mnext m)) as [->|_]; [|exact B]. destruct (H _ _ B) as [L _]. lia.
    - intros b B. unfold w'. destruct (Pos.eq_dec b (mnext m)) as [->|_]; [lia|reflexivity]. }
  exists w'. split; [exact E|]. split.
  - split; [cbn; lia|]. intros b q B. unfold w' in B. cbn [mnext mblocks fresh].
    destruct (Pos.eq_dec b (mnext m)) as [->|D].
    + injection B as <-. split; [lia|]. intros k. rewrite PositiveMap.gss. intros F. injection F as <-.
      exact (okc_grows _ _ _ _ E K).
    + destruct (H b q B) as [L X]. split; [lia|]. intros k. rewrite PositiveMap.gso by exact D.
      intros F. exact (okc_grows _ _ _ _ E (X k F)).
  - unfold w'. destruct (Pos.eq_dec (mnext m) (mnext m)); [reflexivity | contradiction].
Qed.

Lemma okc_empty w p : okc w p (PositiveMap.empty value).
Proof.
  destruct p as [|t|ts]; cbn -[get okv]; auto.
  - intros o O. unfold get. rewrite PositiveMap.gempty. apply okv_null.
  - intros o f t A B D. unfold get. rewrite PositiveMap.gempty. apply okv_null.
Qed.

Variable G : positive -> option bool.
Definition okg (w : world) : Prop := forall g l, G g = Some l -> w g = Some (PBytes l).
Lemma okg_grows w w' : grows w w' -> okg w -> okg w'.
Proof. intros [E _] H g l L. apply E, (H g l L). Qed.

Ltac inv H := injection H as <-.

(** Evaluation changes nothing. *)
Lemma eval_good C w e m a t : okg w -> oke w C e -> okm w m -> wexpr G C a = Some t ->
  good w (fun w' v => w' = w /\ okv w t v) (eval e m a).
Proof.
  intros GO E M. revert t.
  induction a as [z|x|g| |o ty a IHa|o ty a IHa b IHb|o ty a IHa b IHb|c IHc a IHa b IHb|n p IHp|p IHp|p IHp s i IHi|p IHp nf f|p IHp];
    intros t T; cbn [wexpr] in T; cbn [eval].
  - inv T. apply good_ret. cbn. auto.
  - apply good_ret. split; [reflexivity|]. exact (E x t T).
  - destruct (G g) as [l|] eqn:Gg; [|discriminate]. inv T. apply good_ret. split; [reflexivity|].
    intros b o H. injection H as <- _. exact (GO _ _ Gg).
  - inv T. apply good_ret. cbn. auto.
  - destruct (wexpr G C a) as [[l|p|]|] eqn:Ta; try discriminate. inv T.
    eapply good_bind; [exact (IHa _ eq_refl)|]. intros w' v _ [-> _]. apply good_ret. cbn. auto.
  - destruct (wexpr G C a) as [[l|p|]|] eqn:Ta; try discriminate.
    destruct (wexpr G C b) as [[l'|p|]|] eqn:Tb; try discriminate. inv T.
    eapply good_bind; [exact (IHa _ eq_refl)|]. intros w' v _ [-> _].
    eapply good_bind; [exact (IHb _ eq_refl)|]. intros w' u _ [-> _]. apply good_ret. cbn. auto.
  - destruct (wexpr G C a) as [[l|p|]|] eqn:Ta; try discriminate.
    destruct (wexpr G C b) as [[l'|p|]|] eqn:Tb; try discriminate. inv T.
    eapply good_bind; [exact (IHa _ eq_refl)|]. intros w' v _ [-> _].
    eapply good_bind; [exact (IHb _ eq_refl)|]. intros w' u _ [-> _].
    exists w. split; [apply grows_refl|]. cbn [bind tell fst snd].
    destruct (int_of u =? 0); (split; [repeat constructor|]); intros x X; try discriminate X. injection X as <-. cbn. auto.
  - destruct (wexpr G C c) as [[l|p|]|] eqn:Tc; try discriminate.
    destruct (wexpr G C a) as [ta|] eqn:Ta; try discriminate.
    destruct (wexpr G C b) as [tb|] eqn:Tb; try discriminate.
    eapply good_bind; [exact (IHc _ eq_refl)|]. intros w' v _ [-> _].
    eapply (good_bind _ (fun w' _ => w' = w)).
    { exists w. split; [apply grows_refl|]. split; [repeat constructor|]. auto. }
    intros w' _ _ ->. destruct (truth v).
    + eapply good_impl; [|exact (IHa _ eq_refl)]. intros w' x _ [-> X]. split; [reflexivity|].
      exact (okv_sub _ _ _ _ (tjoin_l _ _ _ T) X).
    + eapply good_impl; [|exact (IHb _ eq_refl)]. intros w' x _ [-> X]. split; [reflexivity|].
      exact (okv_sub _ _ _ _ (tjoin_r _ _ _ T) X).
  - destruct (wexpr G C p) as [[|[l|q|q]|]|] eqn:Tp; try discriminate. inv T.
    eapply good_bind; [exact (IHp _ eq_refl)|]. intros w' v _ [-> V].
    eapply good_bind; [exact (load_good w _ m v _ M V)|]. intros w' [c o] _ (-> & _). apply good_ret. cbn. auto.
  - destruct (wexpr G C p) as [[|[l|q|q]|]|] eqn:Tp; try discriminate. inv T.
    eapply good_bind; [exact (IHp _ eq_refl)|]. intros w' v _ [-> V].
    eapply good_bind; [exact (load_good w _ m v _ M V)|]. intros w' [c o] _ (-> & O & K). apply good_ret.
    split; [reflexivity|]. apply K. exact O.
  - destruct (wexpr G C p) as [[|q|]|] eqn:Tp; try discriminate.
    destruct (wexpr G C i) as [[l|p'|]|] eqn:Ti; try discriminate. inv T.
    eapply good_bind; [exact (IHp _ eq_refl)|]. intros w' v _ [-> V].
    eapply good_bind; [exact (IHi _ eq_refl)|]. intros w' u _ [-> _].
    destruct v as [z|b o|].
    + destruct (int_of u =? 0); [|apply good_fail]. apply good_ret. split; [reflexivity|discriminate].
    + apply good_ret. split; [reflexivity|]. intros b' o' H. injection H as <- _. exact (V b o eq_refl).
    + destruct (int_of u =? 0); [|apply good_fail]. apply good_ret. split; [reflexivity|discriminate].
  - destruct (wexpr G C p) as [[|[l|q|ts]|]|] eqn:Tp; try discriminate.
    destruct ((plen ts =? nf) && (0 <=? f) && (f <? nf)) eqn:B; [|discriminate].
    destruct (pnth ts (Z.to_nat f)) as [t'|] eqn:Nt; [|discriminate]. inv T.
    apply andb_prop in B as [B B3]. apply andb_prop in B as [B1 B2].
    assert (nf = plen ts) by lia. subst nf.
    eapply good_bind; [exact (IHp _ eq_refl)|]. intros w' v _ [-> V].
    destruct v as [z|b o|]; try apply good_fail.
    cbn [load]. unfold access.
    destruct (PositiveMap.find b (mblocks m)) as [k|] eqn:F; [|apply good_fail].
    destruct ((0 <=? o * plen ts + f) && (0 <=? 1) && (o * plen ts + f + 1 <=? bsize k)) eqn:X; [|apply good_fail].
    apply andb_prop in X as [X _]. apply andb_prop in X as [X1 X2].
    specialize (V b o eq_refl). destruct (proj2 M b _ V) as [_ K]. specialize (K k F).
    exists w. split; [apply grows_refl|]. split.
    + constructor; [|constructor]. rewrite V. discriminate.
    + intros a A. injection A as <-. split; [reflexivity|]. apply (K o f t'); auto; lia.
  - destruct (wexpr G C p) as [[|q|]|] eqn:Tp; try discriminate. inv T.
    eapply good_bind; [exact (IHp _ eq_refl)|]. intros w' v _ [-> V]. apply good_ret. cbn. auto.
Qed.

Fixpoint okvs (w : world) (ts : list vt) (l : list value) : Prop :=
  match ts, l with
  | [], [] => True
  | t :: ts, v :: l => okv w t v /\ okvs w ts l
  | _, _ => False
  end.

Lemma evals_good C w e m l ts : okg w -> oke w C e -> okm w m -> wargs G C l ts = true ->
  good w (fun w' vs => w' = w /\ okvs w ts vs) (evals e m l).
Proof.
  intros GO E M. revert ts. induction l as [|a l IH]; intros [|t ts] T; cbn in T; try discriminate; cbn [evals].
  - apply good_ret. cbn. auto.
  - destruct (wexpr G C a) as [t'|] eqn:Ta; [|discriminate]. apply andb_prop in T as [T1 T2].
    eapply good_bind; [exact (eval_good C w e m a t' GO E M Ta)|]. intros w' v _ [-> V].
    eapply good_bind; [exact (IH ts T2)|]. intros w' vs _ [-> L]. apply good_ret. split; [reflexivity|]. cbn. split; [|exact L].
    exact (okv_sub w t' t v T1 V).
Qed.

Lemma wint_good C w e m a : okg w -> oke w C e -> okm w m -> wint G C a = true ->
  good w (fun w' _ => w' = w) (eval e m a).
Proof.
  intros GO E M L. unfold wint in L. destruct (wexpr G C a) as [t|] eqn:T; [|discriminate].
  eapply good_impl; [|exact (eval_good C w e m a _ GO E M T)]. intros w' v _ [-> _]. reflexivity.
Qed.

Lemma wout_good C w e m a : okg w -> oke w C e -> okm w m -> wout G C a = true ->
  good w (fun w' v => w' = w /\ okv w (TPtr (PBytes true)) v) (eval e m a).
Proof.
  intros GO E M L. unfold wout, wbytes in L. destruct (wexpr G C a) as [[|[[]| |]|]|] eqn:T; try discriminate.
  exact (eval_good C w e m a _ GO E M T).
Qed.

Lemma win_good C w e m a : okg w -> oke w C e -> okm w m -> win G C a = true ->
  good w (fun w' v => w' = w /\ exists l, okv w (TPtr (PBytes l)) v) (eval e m a).
Proof.
  intros GO E M L. unfold win, wbytes in L. destruct (wexpr G C a) as [[|[l| |]|]|] eqn:T; try discriminate.
  eapply good_impl; [|exact (eval_good C w e m a _ GO E M T)]. intros w' v _ [-> V]. split; [reflexivity|]. exists l. exact V.
Qed.

Lemma bind_params_good w C : forall ps ts vs e, params_ok C ps ts = true -> okvs w ts vs -> oke w C e ->
  oke w C (bind_params ps vs e).
Proof.
  induction ps as [|p ps IH]; intros [|t ts] [|v vs] e P V E; cbn in P, V; try discriminate; try contradiction.
  - exact E.
  - apply andb_prop in P as [P1 P2]. destruct V as [V1 V2]. cbn.
    destruct (PositiveMap.find p C) as [t'|] eqn:F; [|discriminate].
    apply (IH ts); auto. apply (oke_add w C e p t'); auto. exact (okv_sub _ _ _ _ P1 V1).
Qed.

Variable P : program.
Variable S : PositiveMap.t (list sig).
Definition wvalid : Prop := forall f l s, PositiveMap.find f S = Some l -> In s l ->
  exists fn C, PositiveMap.find f P = Some fn /\ params_ok C (fparams fn) (s_args s) = true /\
               wstmt G C S (s_ret s) (fbody fn) = true.

Definition fine (C : gamma) (R : vt) (w : world) (a : outcome * env * mem) : Prop :=
  let '(o, e, m) := a in (forall v, o = OReturn v -> okv w R v) /\ oke w C e /\ okm w m.

Lemma has_good w C e x t v : has C x t = true -> okv w t v -> oke w C e -> oke w C (PositiveMap.add x v e).
Proof.
  unfold has. destruct (PositiveMap.find x C) as [t'|] eqn:F; [|discriminate]. intros H V E.
  apply (oke_add w C e x t'); auto. exact (okv_sub _ _ _ _ H V).
Qed.

Lemma tell_same w e : okt w [e] -> good w (fun w' _ => w' = w) (tell e).
Proof. intros H. exists w. split; [apply grows_refl|]. split; [exact H|]. auto. Qed.

Lemma exec_good : wvalid -> forall fuel s w C R e m, okg w -> wstmt G C S R s = true -> oke w C e -> okm w m ->
  good w (fine C R) (exec P fuel s e m).
Proof.
  intros V. induction fuel as [|fuel IH]; intros s w C R e m GO K E M.
  { exists w. split; [apply grows_refl|]. split; [constructor|]. discriminate. }
  assert (Here : forall o, (forall v, o <> OReturn v) -> good w (fine C R) (ret (o, e, m))).
  { intros o O. apply good_ret. split; [|auto]. intros v ->. contradiction (O v). reflexivity. }
  destruct s as [|a b|x a|n p a|p a|p nf f a|c a b|c inc body| | |a|d f args|x n|d s n|d a n|x p n|x a| |a];
    cbn [wstmt] in K; cbn [exec].
  - apply Here; discriminate.
  - apply andb_prop in K as [K1 K2]. eapply good_bind; [exact (IH a w C R e m GO K1 E M)|].
    intros w' [[o e'] m'] X (O & E' & M').
    destruct o; try (apply good_ret; split; [exact O|split; [exact E'|exact M']]).
    apply IH; auto. exact (okg_grows _ _ X GO).
  - destruct (wexpr G C a) as [t|] eqn:T; [|discriminate].
    eapply good_bind; [exact (eval_good C w e m a t GO E M T)|]. intros w' v _ [-> Hv].
    apply good_ret. split; [discriminate|]. split; [|exact M]. exact (has_good _ _ _ _ _ _ K Hv E).
  - apply andb_prop in K as [K1 K2].
    eapply good_bind; [exact (wout_good C w e m p GO E M K2)|]. intros w' q _ [-> Hq].
    eapply good_bind; [exact (wint_good C w e m a GO E M K1)|]. intros w' v _ ->.
    eapply good_bind; [apply (store_good w (PBytes true) m q _ _ M Hq); [discriminate|cbn; auto]|].
    intros w' m' _ [-> M']. apply good_ret. split; [discriminate|auto].
  - destruct (wexpr G C p) as [[|[|t|]|]|] eqn:Tp; try discriminate.
    destruct (wexpr G C a) as [t'|] eqn:Ta; [|discriminate].
    eapply good_bind; [exact (eval_good C w e m p _ GO E M Tp)|]. intros w' q _ [-> Hq].
    eapply good_bind; [exact (eval_good C w e m a _ GO E M Ta)|]. intros w' v _ [-> Hv].
    apply (okv_sub _ _ _ _ K) in Hv.
    eapply good_bind.
    { apply (store_good w (PPtrs t) m q 1 _ M Hq); [discriminate|]. intros c b o O _ H q' Q. cbn -[okv] in H.
      rewrite get_put by assumption. destruct (Z.eq_dec q' o); [exact Hv | exact (H q' Q)]. }
    intros w' m' _ [-> M']. apply good_ret. split; [discriminate|auto].
  - destruct (wexpr G C p) as [[|[| |ts]|]|] eqn:Tp; try discriminate.
    destruct (wexpr G C a) as [t'|] eqn:Ta; [|discriminate].
    apply andb_prop in K as [K K4]. apply andb_prop in K as [K K3]. apply andb_prop in K as [K1 K2].
    destruct (pnth ts (Z.to_nat f)) as [t|] eqn:Nt; [|discriminate].
    assert (nf = plen ts) by lia. subst nf.
    eapply good_bind; [exact (eval_good C w e m p _ GO E M Tp)|]. intros w' q _ [-> Hq].
    eapply good_bind; [exact (eval_good C w e m a _ GO E M Ta)|]. intros w' v _ [-> Hv].
    apply (okv_sub _ _ _ _ K4) in Hv.
    destruct q as [z|b o|]; try apply good_fail.
    eapply good_bind.
    { apply (store_good w (PStruct ts) m (VPtr b (o * plen ts + f)) 1 _ M).
      - intros b' o' H. injection H as <- _. exact (Hq b o eq_refl).
      - discriminate.
      - intros c b' o' O H0 H o2 f2 t2 A B D. injection H0 as <- <-. cbn -[okv] in H.
        rewrite get_put by assumption. destruct (Z.eq_dec (o2 * plen ts + f2) (o * plen ts + f)) as [Q|Q].
        + assert (f2 = f) by (apply (field_eq o2 o (plen ts)); lia). subst f2. replace t2 with t by congruence. exact Hv.
        + exact (H o2 f2 t2 A B D). }
    intros w' m' _ [-> M']. apply good_ret. split; [discriminate|auto].
  - apply andb_prop in K as [K K3]. apply andb_prop in K as [K1 K2].
    eapply good_bind; [exact (wint_good C w e m c GO E M K1)|]. intros w' v _ ->.
    eapply good_bind; [apply tell_same; repeat constructor|]. intros w' _ _ ->.
    destruct (truth v); apply IH; auto.
  - assert (K' := K). apply andb_prop in K as [K K3]. apply andb_prop in K as [K1 K2].
    eapply good_bind; [exact (wint_good C w e m c GO E M K1)|]. intros w' v _ ->.
    eapply good_bind; [apply tell_same; repeat constructor|]. intros w' _ _ ->.
    destruct (truth v); [|apply Here; discriminate].
    eapply good_bind; [exact (IH body w C R e m GO K3 E M)|].
    intros w' [[o e'] m'] X (O & E' & M').
    assert (N : good w' (fine C R)
      (do (o, e, m) <- exec P fuel inc e' m'; match o with ONormal => exec P fuel (SLoop c inc body) e m | _ => fail end)).
    { eapply good_bind; [exact (IH inc w' C R e' m' (okg_grows _ _ X GO) K2 E' M')|].
      intros w2 [[o2 e2] m2] X2 (O2 & E2 & M2).
      destruct o2; try apply good_fail. apply IH; auto. exact (okg_grows _ _ X2 (okg_grows _ _ X GO)). }
    destruct o; [exact N| |exact N|]; apply good_ret; (split; [|split; [exact E'|exact M']]); [discriminate|exact O].
  - apply Here; discriminate.
  - apply Here; discriminate.
  - destruct (wexpr G C a) as [t|] eqn:T; [|discriminate].
    eapply good_bind; [exact (eval_good C w e m a t GO E M T)|]. intros w' v _ [-> Hv].
    apply good_ret. split; [|auto]. intros u U. injection U as <-. exact (okv_sub _ _ _ _ K Hv).
  - destruct (PositiveMap.find f S) as [l|] eqn:F; [|discriminate].
    apply existsb_exists in K as (s & Hs & K). apply andb_prop in K as [K1 K2].
    destruct (V f l s F Hs) as (fn & C' & Ff & Pp & Kb). rewrite Ff.
    eapply good_bind; [exact (evals_good C w e m args _ GO E M K1)|]. intros w' vs _ [-> Hvs].
    eapply good_bind; [apply tell_same; repeat constructor|]. intros w' _ _ ->.
    eapply good_bind.
    { apply (IH (fbody fn) w C' (s_ret s)); [exact GO | exact Kb | | exact M].
      apply (bind_params_good w C' _ (s_args s)); auto.
      intros y t Y. unfold lookup. rewrite PositiveMap.gempty. apply okv_null. }
    intros w' [[o e'] m'] X (O & E' & M').
    eapply good_bind; [apply tell_same; repeat constructor|]. intros w2 _ _ ->.
    assert (N : forall v, okv w' (s_ret s) v -> good w' (fine C R) (ret (ONormal, set e d v, m'))).
    { intros v Hv. apply good_ret. split; [discriminate|]. split; [|exact M'].
      pose proof (oke_grows _ _ _ _ X E) as E2.
      destruct d as [x|]; cbn; [|exact E2]. exact (has_good _ _ _ _ _ _ K2 Hv E2). }
    destruct o; try apply good_fail.
    + apply N, okv_null.
    + apply N, O. reflexivity.
  - apply andb_prop in K as [K1 K2]. destruct (PositiveMap.find x C) as [[|t|]|] eqn:F; try discriminate.
    eapply good_bind; [exact (wint_good C w e m n GO E M K1)|]. intros w' v _ ->.
    eapply good_bind; [apply tell_same; repeat constructor|]. intros w' _ _ ->.
    destruct (fresh_good w m (int_of v) t _ M (okc_empty w t)) as (w' & X & M' & N).
    exists w'. split; [exact X|]. split; [constructor|]. intros a A. injection A as <-.
    split; [discriminate|]. split; [|exact M'].
    apply (oke_add w' C e x (TPtr t)); [exact F | | exact (oke_grows _ _ _ _ X E)].
    intros b o H. injection H as <- _. exact N.
  - apply andb_prop in K as [K K3]. apply andb_prop in K as [K1 K2].
    eapply good_bind; [exact (wout_good C w e m d GO E M K3)|]. intros w' q _ [-> Hq].
    eapply good_bind; [exact (win_good C w e m s GO E M K2)|]. intros w' r _ [-> [l Hr]].
    eapply good_bind; [exact (wint_good C w e m n GO E M K1)|]. intros w' v _ ->.
    eapply good_bind; [exact (load_good w _ m r _ M Hr)|]. intros w' [c o] _ (-> & _).
    eapply good_bind; [apply (store_good w (PBytes true) m q _ _ M Hq); [discriminate|cbn; auto]|].
    intros w' m' _ [-> M']. apply good_ret. split; [discriminate|auto].
  - apply andb_prop in K as [K K3]. apply andb_prop in K as [K1 K2].
    eapply good_bind; [exact (wout_good C w e m d GO E M K3)|]. intros w' q _ [-> Hq].
    eapply good_bind; [exact (wint_good C w e m a GO E M K2)|]. intros w' r _ ->.
    eapply good_bind; [exact (wint_good C w e m n GO E M K1)|]. intros w' v _ ->.
    eapply good_bind; [apply (store_good w (PBytes true) m q _ _ M Hq); [discriminate|cbn; auto]|].
    intros w' m' _ [-> M']. apply good_ret. split; [discriminate|auto].
  - apply andb_prop in K as [K K3]. apply andb_prop in K as [K1 K2].
    destruct (PositiveMap.find x C) as [[|[l'| |]|]|] eqn:F; try discriminate.
    eapply good_bind; [exact (win_good C w e m p GO E M K2)|]. intros w' q _ [-> [l Hq]].
    eapply good_bind; [exact (wint_good C w e m n GO E M K1)|]. intros w' v _ ->.
    eapply good_bind; [exact (load_good w _ m q _ M Hq)|]. intros w' [c o] _ (-> & _).
    cbv zeta. eapply good_bind; [apply tell_same; repeat constructor|]. intros w' _ _ ->.
    destruct (fresh_good w m (int_of v) (PBytes l') (put_bytes (PositiveMap.empty value) 0 (get_bytes c o (Z.to_nat (int_of v)))) M I)
      as (w' & X & M' & N).
    exists w'. split; [exact X|]. split; [constructor|]. intros a A. injection A as <-.
    split; [discriminate|]. split; [|exact M'].
    apply (oke_add w' C e x (TPtr (PBytes l'))); [exact F | | exact (oke_grows _ _ _ _ X E)].
    intros b o' H. injection H as <- _. exact N.
  - apply andb_prop in K as [K1 K2].
    destruct (PositiveMap.find x C) as [[l'| |]|] eqn:F; try discriminate.
    eapply good_bind; [exact (wint_good C w e m a GO E M K1)|]. intros w' v _ ->.
    eapply good_bind; [apply tell_same; repeat constructor|]. intros w' _ _ ->.
    apply good_ret. split; [discriminate|]. split; [|exact M]. apply (oke_add w C e x (TInt l')); auto. exact I.
  - apply good_fail.
  - destruct (wexpr G C a) as [t|] eqn:T; [|discriminate].
    eapply good_bind; [exact (eval_good C w e m a t GO E M T)|]. intros w' v _ [-> _]. apply Here; discriminate.
Qed.

Lemma call_good : wvalid -> forall f l s w vs m fuel,
  PositiveMap.find f S = Some l -> In s l -> okg w -> okvs w (s_args s) vs -> okm w m ->
  good w (fun _ _ => True) (call P fuel f vs m).
Proof.
  intros V f l s w vs m fuel F I GO A M. destruct (V f l s F I) as (fn & C & Ff & Pp & Kb). unfold call. rewrite Ff.
  eapply good_bind.
  { apply (exec_good V fuel (fbody fn) w C (s_ret s)); [exact GO | exact Kb | | exact M].
    apply (bind_params_good w C _ (s_args s)); auto.
    intros y t Y. unfold lookup. rewrite PositiveMap.gempty. apply okv_null. }
  intros w' [[o e'] m'] X _. destruct o; try apply good_fail; apply good_ret; exact Logic.I.
Qed.
End Sound.
