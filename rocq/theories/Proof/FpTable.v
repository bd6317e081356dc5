(** The table of footprints is right for the translated program, and what
    follows for the functions of the API. *)
From Coq Require Import ZArith List Bool FMapPositive Lia.
From Verif Require Import Model.CtLang Model.CtNames Model.CtProgram Spec.CtSpec Spec.FpSpec Proof.CtCheck Proof.CtSound Proof.CtTable
  Proof.FpCheck Proof.FpEntries.
Import ListNotations.
Local Open Scope Z_scope.

(** ** Memory changes only where a store is seen *)
Definition kept (m : mem) (t : list event) (m' : mem) : Prop :=
  (mnext m <= mnext m')%positive /\
  forall b, (b < mnext m)%positive -> ~ writes t b -> PositiveMap.find b (mblocks m') = PositiveMap.find b (mblocks m).

Lemma kept_refl m t : kept m t m.
Proof. split; [lia|]. auto. Qed.
Lemma writes_app t u b : writes (t ++ u) b <-> writes t b \/ writes u b.
Proof.
  unfold writes. split.
  - intros (o & n & H). apply in_app_or in H as [H|H]; [left|right]; exists o, n; exact H.
  - intros [(o & n & H)|(o & n & H)]; exists o, n; apply in_or_app; auto.
Qed.
Lemma kept_trans m1 m2 m3 t u : kept m1 t m2 -> kept m2 u m3 -> kept m1 (t ++ u) m3.
Proof.
  intros [A1 A2] [B1 B2]. split; [lia|]. intros b L W. rewrite writes_app in W. rewrite B2, A2; auto; lia.
Qed.

Lemma store_kept m p n w m' : snd (store m p n w) = RDone m' -> kept m (fst (store m p n w)) m'.
Proof.
  destruct p as [|b o|]; try discriminate. cbn [store]. destruct (access m b o n) as [k|]; [|discriminate].
  cbn. intros E. injection E as <-. split; [cbn; lia|]. intros b' L W. cbn. apply PositiveMap.gso. intros ->.
  apply W. exists o, n. left. reflexivity.
Qed.

Lemma fresh_kept m n c t : kept m t (fresh m n c).
Proof. split; [cbn; lia|]. intros b L W. cbn. apply PositiveMap.gso. lia. Qed.

Definition keeps {A} (m : mem) (f : A -> mem) (r : run A) : Prop := forall a, snd r = RDone a -> kept m (fst r) (f a).

Lemma keeps_bind {A B} m (f : A -> mem) (g : B -> mem) (x : run A) (k : A -> run B) :
  keeps m f x -> (forall a, keeps (f a) g (k a)) -> keeps m g (bind x k).
Proof.
  destruct x as [t [a| |]]; intros H K b E; cbn [bind fst snd] in *; try discriminate.
  apply (kept_trans m (f a)); [exact (H a eq_refl)|]. apply K. exact E.
Qed.
Lemma keeps_pure {A} m (r : run A) : keeps m (fun _ => m) r.
Proof. intros a _. apply kept_refl. Qed.
Lemma keeps_ret {A} m (f : A -> mem) a : f a = m -> keeps m f (ret a).
Proof. intros E b H. injection H as <-. rewrite E. apply kept_refl. Qed.
Lemma keeps_fail {A} m (f : A -> mem) : keeps m f fail.
Proof. intros b H. discriminate. Qed.

Lemma exec_keeps P : forall fuel s e m, keeps m (fun a => snd a) (exec P fuel s e m).
Proof.
  induction fuel as [|fuel IH]; intros s e m; [intros a H; discriminate|].
  destruct s as [|a b|x a|n p a|p a|p nf f a|c a b|c inc body| | |a|d f args|x n|d s n|d a n|x p n|x a| |a]; cbn [exec];
    try (apply keeps_ret; reflexivity);
    repeat match goal with
           | |- keeps _ _ (bind (eval _ _ _) _) => apply (keeps_bind m (fun _ => m)); [apply keeps_pure|intros ?]
           | |- keeps _ _ (bind (evals _ _ _) _) => apply (keeps_bind m (fun _ => m)); [apply keeps_pure|intros ?]
           | |- keeps _ _ (bind (load _ _ _) _) => apply (keeps_bind m (fun _ => m)); [apply keeps_pure|intros ?]
           | |- keeps _ _ (bind (tell (EvBranch _)) _) => apply (keeps_bind m (fun _ => m)); [apply keeps_pure|intros ?]
           | |- keeps _ _ (bind (tell (EvCall _)) _) => apply (keeps_bind m (fun _ => m)); [apply keeps_pure|intros ?]
           | |- keeps _ _ (bind (tell (EvAlloc _)) _) => apply (keeps_bind m (fun _ => m)); [apply keeps_pure|intros ?]
           | |- keeps _ _ (bind (tell (EvPublic _)) _) => apply (keeps_bind m (fun _ => m)); [apply keeps_pure|intros ?]
           end;
    try (apply keeps_ret; reflexivity).
  - eapply keeps_bind; [apply IH|]. intros [[o e'] m']. cbn [snd]. destruct o; try (apply keeps_ret; reflexivity). apply IH.
  - apply (keeps_bind m (fun m => m)); [intros m' E; apply store_kept; exact E|]. intros m'. apply keeps_ret. reflexivity.
  - apply (keeps_bind m (fun m => m)); [intros m' E; apply store_kept; exact E|]. intros m'. apply keeps_ret. reflexivity.
  - destruct a0 as [z|b o|]; try apply keeps_fail.
    apply (keeps_bind m (fun m => m)); [intros m' E; apply store_kept; exact E|]. intros m'. apply keeps_ret. reflexivity.
  - destruct (truth a0); apply IH.
  - destruct (truth a); [|apply keeps_ret; reflexivity]. eapply keeps_bind; [apply IH|]. intros [[o e'] m']. cbn [snd].
    assert (N : keeps m' (fun a => snd a)
      (do (o, e, m) <- exec P fuel inc e' m'; match o with ONormal => exec P fuel (SLoop c inc body) e m | _ => fail end)).
    { eapply keeps_bind; [apply IH|]. intros [[o2 e2] m2]. cbn [snd]. destruct o2; try apply keeps_fail. apply IH. }
    destruct o; try exact N; apply keeps_ret; reflexivity.
  - destruct (PositiveMap.find f P) as [fn|]; [|apply keeps_fail].
    eapply keeps_bind; [apply IH|]. intros [[o e'] m']. cbn [snd].
    apply (keeps_bind m' (fun _ => m')); [apply keeps_pure|]. intros _.
    destruct o; try apply keeps_fail; apply keeps_ret; reflexivity.
  - intros r E. injection E as <-. apply fresh_kept.
  - destruct a2 as [c o]. apply (keeps_bind m (fun m => m)); [intros m' E; apply store_kept; exact E|]. intros m'. apply keeps_ret. reflexivity.
  - apply (keeps_bind m (fun m => m)); [intros m' E; apply store_kept; exact E|]. intros m'. apply keeps_ret. reflexivity.
  - destruct a1 as [c o]. apply (keeps_bind m (fun _ => m)); [apply keeps_pure|]. intros _. intros r E. injection E as <-. apply fresh_kept.
  - apply keeps_fail.
Qed.

Lemma call_keeps P fuel f args m : keeps m (fun a => snd a) (call P fuel f args m).
Proof.
  unfold call. destruct (PositiveMap.find f P) as [fn|]; [|apply keeps_fail].
  eapply keeps_bind; [apply exec_keeps|]. intros [[o e'] m']. cbn [snd].
  destruct o; try apply keeps_fail; apply keeps_ret; reflexivity.
Qed.

(** ** The tables *)
Definition global_use (random : bool) (g : positive) : option bool :=
  if Pos.leb g last_global then
    if Pos.eqb g tape_pos then (if random then Some true else None)
    else if Pos.eqb g tape then (if random then Some false else None)
    else Some false
  else None.

(** Without the functions that use the random source. *)
Definition plain_entries : list entry :=
  filter (fun i => negb (existsb (Pos.eqb (e_fun i)) (f_rand_bytes :: keygens ++ signs))) entries.
Definition table (random : bool) : list entry := if random then entries else plain_entries.

Lemma footprints_ok random : wprogram code (global_use random) (table random) = true.
Proof. destruct random; vm_compute; reflexivity. Qed.

Lemma wvalid_of P G es : wprogram P G es = true -> wvalid G P (sigs_of es).
Proof.
  intros H f l s F I. destruct (sigs_of_in f l s es F I) as (i & A & <- & <-).
  unfold wprogram in H. rewrite forallb_forall in H. specialize (H i A). unfold wentry in H.
  destruct (PositiveMap.find (e_fun i) P) as [fn|]; [|discriminate].
  apply andb_prop in H as [H1 H2]. exists fn, (gamma_of (e_vars i)). auto.
Qed.

(** ** The start of a call *)
Definition intob (vs : list value) (b : positive) : bool :=
  existsb (fun v => match v with VPtr c _ => Pos.eqb c b | _ => false end) vs.
Lemma intob_spec vs b : intob vs b = true <-> into vs b.
Proof.
  unfold intob, into. rewrite existsb_exists. split.
  - intros ([|c o|] & I & H); try discriminate. apply Pos.eqb_eq in H. subst c. exists o. exact I.
  - intros (o & I). exists (VPtr b o). split; [exact I | apply Pos.eqb_refl].
Qed.

Definition w1 (random : bool) (inputs outputs : list value) : world := fun b =>
  if intob outputs b then Some (PBytes true)
  else if intob inputs b then Some (PBytes false)
  else match global_use random b with Some l => Some (PBytes l) | None => None end.

Lemma w1_okm random m ins outs : apart m ins outs -> okm (mnext m) (w1 random ins outs) m.
Proof.
  intros (L & B & D). split; [lia|]. intros b p W. unfold w1 in W.
  assert (X : into (ins ++ outs) b -> (b < mnext m)%positive) by (intros X; apply B in X; lia).
  destruct (intob outs b) eqn:O.
  { injection W as <-. apply intob_spec in O. destruct O as [o O]. split; [apply X; exists o; apply in_or_app; auto|cbn; auto]. }
  destruct (intob ins b) eqn:I.
  { injection W as <-. apply intob_spec in I. destruct I as [o I]. split; [apply X; exists o; apply in_or_app; auto|cbn; auto]. }
  unfold global_use in W. destruct (Pos.leb_spec b last_global); [|discriminate].
  split; [lia|]. intros k _. destruct (Pos.eqb b tape_pos), (Pos.eqb b tape), random; inversion W; exact Logic.I.
Qed.

Lemma w1_okg random m ins outs : apart m ins outs -> okg (global_use random) (w1 random ins outs).
Proof.
  intros (L & B & D) g l E. unfold w1.
  assert (X : (g <= last_global)%positive) by (unfold global_use in E; destruct (Pos.leb_spec g last_global); [assumption|discriminate]).
  assert (N : forall vs, (forall b, into vs b -> into (ins ++ outs) b) -> intob vs g = false).
  { intros vs H. destruct (intob vs g) eqn:I; [|reflexivity]. apply intob_spec, H, B in I. lia. }
  rewrite !N, E; [reflexivity| |]; intros b [o I]; exists o; apply in_or_app; auto.
Qed.

Lemma w1_in random m ins outs v : apart m ins outs -> In v ins -> okv (w1 random ins outs) (TPtr (PBytes false)) v.
Proof.
  intros (L & B & D) I b o ->. unfold w1. destruct (intob outs b) eqn:O.
  - apply intob_spec in O. exfalso. apply (D b); [exists o; exact I | exact O].
  - assert (J : intob ins b = true) by (apply intob_spec; exists o; exact I). rewrite J. reflexivity.
Qed.
Lemma w1_out random ins outs v : In v outs -> okv (w1 random ins outs) (TPtr (PBytes true)) v.
Proof.
  intros I b o ->. unfold w1. assert (J : intob outs b = true) by (apply intob_spec; exists o; exact I). rewrite J. reflexivity.
Qed.

Definition listed (random : bool) (fs : list positive) (args : list vt) : bool :=
  let S := sigs_of (table random) in
  forallb (fun f => match PositiveMap.find f S with
                    | Some l => existsb (fun s => vts_eqb (s_args s) args) l
                    | None => false
                    end) fs.

Lemma api_confined random fs args : listed random fs args = true -> forall f m ins outs vs fuel,
  In f fs -> apart m ins outs -> okvs (w1 random ins outs) args vs -> confined random m ins outs (call code fuel f vs m).
Proof.
  intros H f m ins outs vs fuel I A V. unfold listed in H. cbv zeta in H. rewrite forallb_forall in H. specialize (H f I).
  destruct (PositiveMap.find f (sigs_of (table random))) as [l|] eqn:F; [|discriminate].
  apply existsb_exists in H as (s & Hs & H). apply vts_eqb_eq in H. rewrite <- H in V.
  destruct (call_good (mnext m) (global_use random) code (sigs_of (table random)) (wvalid_of _ _ _ (footprints_ok random))
     f l s (w1 random ins outs) vs m fuel F Hs (w1_okg random m ins outs A) V (w1_okm random m ins outs A)) as (w' & [X Y] & T & _).
  assert (W : forall b, writes (fst (call code fuel f vs m)) b ->
    into outs b \/ (mnext m <= b)%positive \/ (random = true /\ b = tape_pos)).
  { intros b (o & n & E). unfold okt in T. rewrite Forall_forall in T. specialize (T _ E). cbn in T. destruct T as (p & Wb & Np).
    destruct (Pos.ltb_spec b (mnext m)) as [L|L]; [|auto]. rewrite (Y b L) in Wb. unfold w1 in Wb.
    destruct (intob outs b) eqn:O; [left; apply intob_spec; exact O|].
    destruct (intob ins b); [injection Wb as <-; contradiction|]. unfold global_use in Wb.
    destruct (Pos.leb b last_global); [|discriminate].
    destruct (Pos.eqb_spec b tape_pos) as [->|_]; [destruct random; [auto|discriminate]|].
    destruct (Pos.eqb b tape); [destruct random; [injection Wb as <-; contradiction|discriminate]|injection Wb as <-; contradiction]. }
  split; [exact W|]. split.
  - intros b (o & n & E). unfold okt in T. rewrite Forall_forall in T. specialize (T _ E). cbn in T.
    destruct (Pos.ltb_spec b (mnext m)) as [L|L]; [|auto]. rewrite (Y b L) in T. unfold w1 in T.
    destruct (intob outs b) eqn:O.
    { left. apply intob_spec in O. destruct O as [q O]. exists q. apply in_or_app. auto. }
    destruct (intob ins b) eqn:J.
    { left. apply intob_spec in J. destruct J as [q J]. exists q. apply in_or_app. auto. }
    unfold global_use in T. destruct (Pos.leb_spec b last_global) as [G|G]; [|contradiction].
    destruct (Pos.eqb_spec b tape_pos) as [->|N1]; [destruct random; [auto 6|contradiction]|].
    destruct (Pos.eqb_spec b tape) as [->|N2]; [destruct random; [auto 6|contradiction]|].
    right. left. repeat split; assumption.
  - intros v m' E b L O Rn. apply (call_keeps code fuel f vs m (v, m') E); [exact L|]. intros Wb.
    destruct (W b Wb) as [?|[?|[R1 R2]]]; [contradiction|lia|]. exact (Rn R1 R2).
Qed.

Notation IN := (TPtr (PBytes false)).
Notation OUT := (TPtr (PBytes true)).
Notation NUM := (TInt false).

Ltac place := cbn [okvs]; repeat (split; [first [exact Logic.I | eapply w1_in; [eassumption|cbn; tauto] | apply w1_out; cbn; tauto]|]); exact Logic.I.

Theorem keygen_confined : forall f m pk sk fuel, In f keygens -> apart m [] [pk; sk] ->
  confined true m [] [pk; sk] (call code fuel f [pk; sk] m).
Proof. intros. apply (api_confined true keygens [OUT; OUT]); [vm_compute; reflexivity|assumption|assumption|place]. Qed.
Theorem sign_confined : forall f m sk msg len sig siglen fuel, In f signs -> apart m [sk; msg] [sig; siglen] ->
  confined true m [sk; msg] [sig; siglen] (call code fuel f [sk; msg; VInt len; sig; siglen] m).
Proof. intros. apply (api_confined true signs [IN; IN; NUM; OUT; OUT]); [vm_compute; reflexivity|assumption|assumption|place]. Qed.
Theorem sign_with_randomness_confined : forall f m sk msg len rho rholen sig siglen fuel, In f signs_with_randomness ->
  apart m [sk; msg; rho] [sig; siglen] ->
  confined false m [sk; msg; rho] [sig; siglen] (call code fuel f [sk; msg; VInt len; rho; VInt rholen; sig; siglen] m).
Proof. intros. apply (api_confined false signs_with_randomness [IN; IN; NUM; IN; NUM; OUT; OUT]); [vm_compute; reflexivity|assumption|assumption|place]. Qed.
Theorem verify_confined : forall f m pk msg len sig siglen fuel, In f verifies -> apart m [pk; msg; sig] [] ->
  confined false m [pk; msg; sig] [] (call code fuel f [pk; msg; VInt len; sig; VInt siglen] m).
Proof. intros. apply (api_confined false verifies [IN; IN; NUM; IN; NUM]); [vm_compute; reflexivity|assumption|assumption|place]. Qed.
Theorem validate_confined : forall f m pk sk fuel, In f validates -> apart m [pk; sk] [] ->
  confined false m [pk; sk] [] (call code fuel f [pk; sk] m).
Proof. intros. apply (api_confined false validates [IN; IN]); [vm_compute; reflexivity|assumption|assumption|place]. Qed.
Theorem clear_confined : forall f m sk fuel, In f clears -> apart m [] [sk] ->
  confined false m [] [sk] (call code fuel f [sk] m).
Proof. intros. apply (api_confined false clears [OUT]); [vm_compute; reflexivity|assumption|assumption|place]. Qed.

(** Calls that share inputs only do not race. *)
Lemma into_app a b x : into (a ++ b) x <-> into a x \/ into b x.
Proof.
  unfold into. split.
  - intros [o H]. apply in_app_or in H as [H|H]; [left|right]; exists o; exact H.
  - intros [[o H]|[o H]]; exists o; apply in_or_app; auto.
Qed.

Theorem no_race : forall r1 r2 m i1 o1 i2 o2 x1 x2, apart m i1 o1 -> apart m i2 o2 ->
  confined r1 m i1 o1 x1 -> confined r2 m i2 o2 x2 -> (forall b, into o1 b -> ~ into (i2 ++ o2) b) ->
  forall b, (b < mnext m)%positive -> b <> tape_pos -> writes (fst x1) b -> ~ reads (fst x2) b /\ ~ writes (fst x2) b.
Proof.
  intros r1 r2 m i1 o1 i2 o2 x1 x2 (L & B1 & _) (_ & B2 & _) (W1 & _) (W2 & R2 & _) D b Lb Nb W.
  destruct (W1 b W) as [O|[?|[_ ?]]]; [|lia|contradiction].
  assert (G : (last_global < b)%positive) by (apply B1, into_app; auto).
  split; intros H.
  - apply R2 in H as [H|[(C & _)|[?|[_ [->| ->]]]]]; [exact (D b O H)|lia|lia|cbv in G; discriminate|contradiction].
  - apply W2 in H as [H|[?|[_ ?]]]; [|lia|contradiction]. apply (D b O), into_app. auto.
Qed.
