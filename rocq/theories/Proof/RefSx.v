(** Working with the symbolic executor: states over the integers, templates, and the step from a template to a template. *)
From Coq Require Import ZArith NArith List Bool FMapPositive Lia ZifyBool Arith.
From Verif Require Import Model.CtLang Model.CtNames Model.CtProgram Proof.RefLogic Proof.RefTac Proof.RefMem Proof.RefSe.
Import ListNotations.
Local Open Scope Z_scope.

Notation "'let*' x := o 'in' k" := (olet o (fun x => k)) (at level 200, x pattern, o at level 100, k at level 200).
Ltac osp := repeat match goal with
  | H : olet ?o _ = Some _ |- _ => let v := fresh "v" in let E := fresh "E" in destruct o as [v|] eqn:E; [cbn [olet] in H|discriminate H]
  end.

(** ** Change of values *)
Section Map.
Context {X Y : Type} (f : Y -> Z) (g : X -> Y) (L : locs).
Lemma cv_map v : cv f L (mapv g v) = cv (fun x => f (g x)) L v. Proof. destruct v; reflexivity. Qed.
Lemma okv_map v : okv L (mapv g v) <-> okv L v. Proof. destruct v; cbn; tauto. Qed.
Lemma piece_map m b base size p : piece_ok f L m b base size (mapp g p) <-> piece_ok (fun x => f (g x)) L m b base size p.
Proof. destruct p; cbn [mapp piece_ok]; [tauto|]. rewrite okv_map, cv_map. tauto. Qed.
Lemma Forall_map_iff {A B} (h : A -> B) P l : Forall P (map h l) <-> Forall (fun x => P (h x)) l.
Proof. induction l; cbn; split; intros H; inversion_clear H; constructor; tauto. Qed.
Lemma Forall_iff {A} (P Q : A -> Prop) l : (forall x, P x <-> Q x) -> Forall P l <-> Forall Q l.
Proof. intros H. split; apply Forall_impl; apply H. Qed.
Lemma loc_map m bb l : loc_ok f L m bb (mapl g l) <-> loc_ok (fun x => f (g x)) L m bb l.
Proof.
  unfold loc_ok. cbn [mapl lsize lz lps]. rewrite Forall_map_iff. rewrite (Forall_iff _ _ _ (piece_map m (fst bb) (snd bb) (lsize l))). tauto.
Qed.
Lemma assoc_map {A B} (h : A -> B) x l : assoc x (map (fun '(x, v) => (x, h v)) l) = option_map h (assoc x l).
Proof. induction l as [|[y v] l IH]; cbn; [reflexivity|]. destruct (Pos.eqb x y); [reflexivity|exact IH]. Qed.
Lemma nth_map_loc i (h : list (loc X)) : nth i (map (mapl g) h) (Loc false false 0 []) = mapl g (nth i h (Loc false false 0 [])).
Proof. revert i. induction h; intros [|i]; cbn; auto. Qed.
Lemma F2_map_r {A B C} (R : A -> C -> Prop) (h : B -> C) l l' : Forall2 R l (map h l') <-> Forall2 (fun a b => R a (h b)) l l'.
Proof.
  revert l'. induction l as [|a l IH]; intros [|b l']; split; intros H; inversion H; subst; try constructor; auto.
  - apply IH. assumption.
  - apply IH. assumption.
Qed.
Lemma F2_iff {A B} (R R' : A -> B -> Prop) l l' : (forall a b, R a b <-> R' a b) -> Forall2 R l l' <-> Forall2 R' l l'.
Proof. intros H. split; apply F2_impl; intros; apply H; assumption. Qed.
Lemma sat_map s e m : sat f L (mapst g s) e m <-> sat (fun x => f (g x)) L s e m.
Proof.
  split; intros [A B C D E]; (constructor; cbn [mapst genv gglob galias gheap] in *).
  - intros x v H. destruct (A x (mapv g v)) as [O K]; [rewrite assoc_map, H; reflexivity|]. rewrite okv_map in O. rewrite cv_map in K. tauto.
  - apply Forall_map_iff in B. eapply Forall_impl; [|exact B]. intros [y v]. rewrite okv_map, cv_map. tauto.
  - apply Forall_map_iff in C. eapply Forall_impl; [|exact C]. intros a. cbn [mapa al av ao asc ax]. rewrite okv_map, cv_map. tauto.
  - apply (F2_map_r _ (mapl g)) in D. eapply F2_impl; [|exact D]. intros bb l. cbv beta. rewrite loc_map. tauto.
  - intros i j Hi Hj N. specialize (E i j). rewrite map_length, !nth_map_loc in E. apply E; assumption.
  - intros x v H. rewrite assoc_map in H. destruct (assoc x (genv s)) as [w|] eqn:Q; [|discriminate]. injection H as <-.
    destruct (A x w Q). rewrite okv_map, cv_map. tauto.
  - apply Forall_map_iff. eapply Forall_impl; [|exact B]. intros [y v]. rewrite okv_map, cv_map. tauto.
  - apply Forall_map_iff. eapply Forall_impl; [|exact C]. intros a. cbn [mapa al av ao asc ax]. rewrite okv_map, cv_map. tauto.
  - apply (F2_map_r _ (mapl g)). eapply F2_impl; [|exact D]. intros bb l. cbv beta. rewrite loc_map. tauto.
  - intros i j Hi Hj N. rewrite !nth_map_loc. rewrite map_length in Hi, Hj. apply (E i j); assumption.
Qed.
End Map.

(** ** Seeing only a part of a state *)
Definition shape := gst unit.
Definition okn {X} (n : nat) (v : gv X) : bool := match v with GPtr l _ => Nat.ltb l n | _ => true end.
Section View.
Context {X Y : Type} (n : nat).
Fixpoint view_env (t : list (positive * gv Y)) (s : list (positive * gv X)) : option (list (positive * gv X)) :=
  match t with
  | [] => Some []
  | (x, _) :: t => let* v := assoc x s in if okn n v then let* r := view_env t s in Some ((x, v) :: r) else None
  end.
Fixpoint view_ps (t : list (piece Y)) (s : list (piece X)) : option (list (piece X)) :=
  match t with
  | [] => Some []
  | PI o w _ :: t => let* x := find_pi o w s in let* r := view_ps t s in Some (PI o w x :: r)
  | PP o _ :: t => let* v := find_pp o s in if okn n v then let* r := view_ps t s in Some (PP o v :: r) else None
  end.
Fixpoint view_heap (t : list (loc Y)) (s : list (loc X)) : option (list (loc X)) :=
  match t, s with
  | [], _ => Some []
  | lt :: t, ls :: s =>
      if implb (lz lt) (lz ls) && implb (lro ls) (lro lt) && (lsize lt =? lsize ls)
      then let* ps := view_ps (lps lt) (lps ls) in let* r := view_heap t s in Some (Loc (lz lt) (lro lt) (lsize lt) ps :: r)
      else None
  | _ :: _, [] => None
  end.
End View.
Definition view {X Y} (t : gst Y) (s : gst X) : option (gst X) :=
  let n := length (gheap t) in
  let* e := view_env n (genv t) (genv s) in
  let* g := view_env n (gglob t) (gglob s) in
  let* h := view_heap n (gheap t) (gheap s) in
  Some (St e g [] h).

Section ViewOk.
Context {X Y : Type} (f : X -> Z) (L : locs).
Lemma lat_firstn n l : (l < n)%nat -> lat (firstn n L) l = lat L l.
Proof. unfold lat. intros H. revert n l H. induction L as [|x R IH]; intros [|n] [|l] H; cbn; try lia; try reflexivity. apply IH. lia. Qed.
Lemma okn_ok n (v : gv X) : okn n v = true -> okv L v -> okv (firstn n L) v.
Proof. destruct v; cbn [okn okv]; auto. rewrite Nat.ltb_lt, firstn_length. lia. Qed.
Lemma cv_firstn n (v : gv X) : okn n v = true -> cv f (firstn n L) v = cv f L v.
Proof. destruct v; cbn [okn cv]; auto. rewrite Nat.ltb_lt. intros H. rewrite lat_firstn by exact H. reflexivity. Qed.
Lemma view_env_in n (t : list (positive * gv Y)) (s r : list (positive * gv X)) x v : view_env n t s = Some r -> assoc x r = Some v -> assoc x s = Some v /\ okn n v = true.
Proof.
  revert r. induction t as [|[y w] t IH]; intros r E; cbn [view_env] in E; [injection E as <-; discriminate|].
  osp. destruct (okn n v0) eqn:K; [|discriminate]. osp. injection E as <-. cbn [assoc]. destruct (Pos.eqb_spec x y) as [->|]; [|apply IH; reflexivity].
  intros Q. injection Q as <-. auto.
Qed.
Lemma view_env_all n (P : positive -> gv X -> Prop) (t : list (positive * gv Y)) (s r : list (positive * gv X)) : view_env n t s = Some r ->
  Forall (fun '(g, v) => P g v) s -> Forall (fun '(g, v) => P g v /\ okn n v = true) r.
Proof.
  revert r. induction t as [|[y w] t IH]; intros r E F; cbn [view_env] in E; [injection E as <-; constructor|].
  osp. destruct (okn n v) eqn:K; [|discriminate]. osp. injection E as <-. constructor; [|apply IH; auto]. split; [|exact K].
  exact (assoc_ok P _ _ _ F E0).
Qed.
Lemma find_pi_ok' m b base size o n ps x : Forall (piece_ok f L m b base size) ps -> find_pi o n ps = Some x ->
  piece_ok f L m b base size (PI o n x).
Proof.
  induction ps as [|p ps IH]; cbn [find_pi]; [discriminate|]. intros H. inversion_clear H. destruct p as [o' n' y|o' v]; [|auto].
  destruct ((o =? o') && (Nat.eqb n n')) eqn:E; [|auto]. apply andb_true_iff in E. destruct E as [E1 E2].
  apply Z.eqb_eq in E1. apply Nat.eqb_eq in E2. subst o' n'. intros F. injection F as <-. assumption.
Qed.
Lemma find_pp_ok' m b base size o ps v : Forall (piece_ok f L m b base size) ps -> find_pp o ps = Some v ->
  piece_ok f L m b base size (PP o v).
Proof.
  induction ps as [|p ps IH]; cbn [find_pp]; [discriminate|]. intros H. inversion_clear H. destruct p as [o' n' y|o' w]; [auto|].
  destruct (Z.eqb_spec o o') as [->|]; [|auto]. intros F. injection F as <-. assumption.
Qed.
Lemma view_ps_ok n m b base size (t : list (piece Y)) (s r : list (piece X)) : view_ps n t s = Some r ->
  Forall (piece_ok f L m b base size) s -> Forall (piece_ok f (firstn n L) m b base size) r.
Proof.
  revert r. induction t as [|[o w y|o y] t IH]; intros r E F; cbn [view_ps] in E; [injection E as <-; constructor| |].
  - osp. injection E as <-. constructor; [|apply IH; auto]. exact (find_pi_ok' _ _ _ _ _ _ _ _ F E0).
  - osp. destruct (okn n v) eqn:K; [|discriminate]. osp. injection E as <-. constructor; [|apply IH; auto].
    destruct (find_pp_ok' _ _ _ _ _ _ _ F E0) as (A & B & C). cbn [piece_ok]. rewrite cv_firstn by exact K. split; [exact A|]. split; [apply okn_ok; assumption|exact C].
Qed.
Lemma view_heap_ok n m (t : list (loc Y)) : forall L0 (s r : list (loc X)), view_heap n t s = Some r ->
  Forall2 (loc_ok f L m) L0 s -> Forall2 (loc_ok f (firstn n L) m) (firstn (length t) L0) r.
Proof.
  induction t as [|lt t IH]; intros L0 s r E F; cbn [view_heap] in E; [destruct s; injection E as <-; constructor|].
  destruct s as [|ls s]; [discriminate|]. inversion F as [|bb ? L1 ? H F']; subst.
  destruct (implb (lz lt) (lz ls) && implb (lro ls) (lro lt) && (lsize lt =? lsize ls)) eqn:K; [|discriminate]. osp. injection E as <-.
  cbn [length firstn]. constructor; [|eapply IH; eauto]. destruct H as (A & B & C). assert (Z1 : lsize lt = lsize ls) by (destruct (implb (lz lt) (lz ls)), (implb (lro ls) (lro lt)); cbn in K; lia).
  split; cbn [lsize lz lps]; [rewrite Z1; exact A|]. split; [intros Q; rewrite Q in K; apply B; destruct (lz ls); [reflexivity|discriminate]|].
  rewrite Z1. eapply view_ps_ok; eassumption.
Qed.
Lemma view_heap_nth n (t : list (loc Y)) : forall (s r : list (loc X)) i, view_heap n t s = Some r -> (i < length r)%nat ->
  (i < length s)%nat /\ (i < length t)%nat /\ lsize (nth i r (Loc false false 0 [])) = lsize (nth i s (Loc false false 0 [])) /\
  (lro (nth i r (Loc false false 0 [])) = false -> lro (nth i s (Loc false false 0 [])) = false).
Proof.
  induction t as [|lt t IH]; intros s r i E H; cbn [view_heap] in E; [destruct s; injection E as <-; cbn in H; lia|].
  destruct s as [|ls s]; [discriminate|].
  destruct (implb (lz lt) (lz ls) && implb (lro ls) (lro lt) && (lsize lt =? lsize ls)) eqn:K; [|discriminate]. osp. injection E as <-.
  destruct i as [|i]; cbn [nth length] in *.
  - split; [lia|]. split; [lia|]. cbn [lsize lro]. destruct (lro lt), (lro ls), (lz lt), (lz ls); cbn in K; split; try lia; auto.
  - destruct (IH _ _ i E1 ltac:(lia)) as (A & B & C). split; [lia|]. split; [lia|]. exact C.
Qed.
Lemma sat_view (t : gst Y) (s s' : gst X) e m : sat f L s e m -> view t s = Some s' -> sat f (firstn (length (gheap t)) L) s' e m.
Proof.
  intros S E. unfold view in E. osp. injection E as <-. constructor; cbn [genv gglob galias gheap].
  - intros x w Q. destruct (view_env_in _ _ _ _ _ _ E0 Q) as [Q1 Q2]. destruct (sat_env _ _ _ _ _ S _ _ Q1) as [O C].
    split; [apply okn_ok; assumption|]. rewrite cv_firstn by exact Q2. exact C.
  - pose proof (view_env_all _ (fun g v => okv L v /\ cv f L v = VPtr g 0) _ _ _ E1 (sat_glob _ _ _ _ _ S)) as F.
    eapply Forall_impl; [|exact F]. intros [g w] [[A B] C]. rewrite cv_firstn by exact C. split; [apply okn_ok; assumption|exact B].
  - constructor.
  - eapply view_heap_ok; [exact E2|exact (sat_heap _ _ _ _ _ S)].
  - intros i j Hi Hj N R. destruct (view_heap_nth _ _ _ _ _ E2 Hi) as (A1 & A2 & A3 & A4). destruct (view_heap_nth _ _ _ _ _ E2 Hj) as (B1 & B2 & B3 & B4).
    rewrite A3, B3, !lat_firstn by assumption. apply (sat_apart _ _ _ _ _ S); try assumption.
    apply andb_false_iff in R. destruct R as [R|R]; [rewrite (A4 R); reflexivity|rewrite (B4 R); apply andb_false_r].
Qed.
End ViewOk.

(** ** Fitting a state to a template *)
Fixpoint sub (sg : nat -> sx) (x : sx) : sx :=
  match x with
  | SC z => SC z
  | SV i => sg i
  | SU o t a => SU o t (sub sg a)
  | SB o t a b => SB o t (sub sg a) (sub sg b)
  | SD o t a b => SD o t (sub sg a) (sub sg b)
  | SA f k l => SA f k (map (sub sg) l)
  end.
Lemma den_sub phi rho sg : forall x, den phi rho (sub sg x) = den phi (fun i => den phi rho (sg i)) x.
Proof.
  fix IH 1. destruct x as [z|i|o t a|o t a b|o t a b|f k l]; cbn [sub den]; try reflexivity; rewrite ?IH; try reflexivity.
  f_equal. f_equal. induction l as [|x l IHl]; cbn [map]; [reflexivity|]. rewrite IH, IHl. reflexivity.
Qed.
Definition gv_eqb (a b : gv sx) : bool :=
  match a, b with
  | GInt x, GInt y => sx_eqb x y
  | GPtr l o, GPtr l' o' => Nat.eqb l l' && (o =? o')
  | GNull, GNull => true
  | _, _ => false
  end.
Definition piece_eqb (a b : piece sx) : bool :=
  match a, b with
  | PI o n x, PI o' n' x' => (o =? o') && Nat.eqb n n' && sx_eqb x x'
  | PP o v, PP o' v' => (o =? o') && gv_eqb v v'
  | _, _ => false
  end.
Fixpoint list_eqb {A} (e : A -> A -> bool) (l l' : list A) : bool :=
  match l, l' with [], [] => true | a :: l, b :: l' => e a b && list_eqb e l l' | _, _ => false end.
Definition loc_eqb (a b : loc sx) : bool :=
  Bool.eqb (lz a) (lz b) && Bool.eqb (lro a) (lro b) && (lsize a =? lsize b) && list_eqb piece_eqb (lps a) (lps b).
Definition bnd_eqb (a b : positive * gv sx) : bool := Pos.eqb (fst a) (fst b) && gv_eqb (snd a) (snd b).
Definition st_eqb (a b : gst sx) : bool :=
  list_eqb bnd_eqb (genv a) (genv b) && list_eqb bnd_eqb (gglob a) (gglob b) && list_eqb loc_eqb (gheap a) (gheap b) &&
  match galias a, galias b with [], [] => true | _, _ => false end.
Ltac brk := repeat match goal with
  | H : _ && _ = true |- _ => apply andb_true_iff in H; destruct H
  | H : Nat.eqb _ _ = true |- _ => apply Nat.eqb_eq in H
  | H : Pos.eqb _ _ = true |- _ => apply Pos.eqb_eq in H
  | H : (_ =? _) = true |- _ => apply Z.eqb_eq in H
  | H : Bool.eqb _ _ = true |- _ => apply Bool.eqb_prop in H
  | H : sx_eqb _ _ = true |- _ => apply sx_eqb_eq in H
  end.
Lemma gv_eqb_eq a b : gv_eqb a b = true -> a = b.
Proof. destruct a, b; cbn; intros; try discriminate; brk; subst; reflexivity. Qed.
Lemma piece_eqb_eq a b : piece_eqb a b = true -> a = b.
Proof. destruct a, b; cbn; intros; try discriminate; brk; try (match goal with H : gv_eqb _ _ = true |- _ => apply gv_eqb_eq in H end); subst; reflexivity. Qed.
Lemma list_eqb_eq {A} (e : A -> A -> bool) : (forall a b, e a b = true -> a = b) -> forall l l', list_eqb e l l' = true -> l = l'.
Proof. intros H. induction l as [|a l IH]; intros [|b l']; cbn; intros E; try discriminate; [reflexivity|]. brk. f_equal; auto. Qed.
Lemma loc_eqb_eq a b : loc_eqb a b = true -> a = b.
Proof. destruct a as [a1 a2 a3 a4], b as [b1 b2 b3 b4]. unfold loc_eqb. cbn [lz lro lsize lps]. intros. brk. apply (list_eqb_eq _ piece_eqb_eq) in H0. subst. reflexivity. Qed.
Lemma bnd_eqb_eq a b : bnd_eqb a b = true -> a = b.
Proof. destruct a, b. unfold bnd_eqb. cbn [fst snd]. intros. brk. apply gv_eqb_eq in H0. subst. reflexivity. Qed.
Lemma st_eqb_eq a b : st_eqb a b = true -> a = b.
Proof.
  destruct a as [a1 a2 a3 a4], b as [b1 b2 b3 b4]. unfold st_eqb. cbn [genv gglob galias gheap]. intros. brk. destruct a3, b3; try discriminate.
  apply (list_eqb_eq _ bnd_eqb_eq) in H, H2. apply (list_eqb_eq _ loc_eqb_eq) in H1. subst. reflexivity.
Qed.

Definition leaves_v {X} (v : gv X) : list X := match v with GInt x => [x] | _ => [] end.
Definition leaves {X} (s : gst X) : list X :=
  flat_map (fun b => leaves_v (snd b)) (genv s) ++
  flat_map (fun l => flat_map (fun p => match p with PI _ _ x => [x] | PP _ v => leaves_v v end) (lps l)) (gheap s).
Fixpoint collect (t s : list sx) (acc : list sx) : list sx :=
  match t, s with
  | SV i :: t, x :: s => collect t s (setnth acc i x)
  | _ :: t, _ :: s => collect t s acc
  | _, _ => acc
  end.
Definition nvars (l : list sx) : nat := fold_right (fun x n => match x with SV i => Nat.max (S i) n | _ => n end) 0%nat l.
(** The values of the variables of template [t] in state [s], and whether that makes the template the state. *)
Definition fit (t s : gst sx) : option (list sx) :=
  let sg := collect (leaves t) (leaves s) (repeat (SC 0) (nvars (leaves t))) in
  if st_eqb (mapst (sub (fun i => nth i sg (SC 0))) t) s then Some sg else None.
Definition vals (phi : nat -> list Z -> list Z) (rho : nat -> Z) (sg : list sx) : nat -> Z := fun i => den phi rho (nth i sg (SC 0)).
Lemma mapst_ext {X Y} (f g : X -> Y) s : (forall x, f x = g x) -> mapst f s = mapst g s.
Proof.
  intros H. assert (V : forall v, mapv f v = mapv g v) by (intros []; cbn; rewrite ?H; reflexivity).
  unfold mapst. f_equal.
  - apply map_ext. intros [x v]. rewrite V. reflexivity.
  - apply map_ext. intros [x v]. rewrite V. reflexivity.
  - apply map_ext. intros a. unfold mapa. rewrite H, V. reflexivity.
  - apply map_ext. intros l. unfold mapl. f_equal. apply map_ext. intros []; cbn [mapp]; rewrite ?H, ?V; reflexivity.
Qed.
Lemma mapst_mapst {X Y W} (g : Y -> W) (f : X -> Y) s : mapst g (mapst f s) = mapst (fun x => g (f x)) s.
Proof.
  assert (V : forall v, mapv g (mapv f v) = mapv (fun x => g (f x)) v) by (intros []; reflexivity).
  unfold mapst. cbn [genv gglob galias gheap]. rewrite !map_map. f_equal.
  - apply map_ext. intros [x v]. rewrite V. reflexivity.
  - apply map_ext. intros [x v]. rewrite V. reflexivity.
  - apply map_ext. intros a. unfold mapa. cbn. rewrite V. reflexivity.
  - apply map_ext. intros l. unfold mapl. cbn. rewrite map_map. f_equal. apply map_ext. intros []; cbn [mapp]; rewrite ?V; reflexivity.
Qed.
Lemma fit_ok phi rho t s sg : fit t s = Some sg -> mapst (den phi rho) s = mapst (den phi (vals phi rho sg)) t.
Proof.
  unfold fit. match goal with |- (if ?c then _ else _) = _ -> _ => destruct c eqn:E; [|discriminate] end. intros Q. injection Q as <-.
  apply st_eqb_eq in E. rewrite <- E at 1. rewrite mapst_mapst. apply mapst_ext. intros x. apply den_sub.
Qed.

(** ** Running from a template to a template *)
Definition zsat (phi : nat -> list Z -> list Z) (rho : nat -> Z) (L : locs) (t : gst sx) (e : env) (m : mem) : Prop := sat (den phi rho) L t e m.
Definition trip (sums : list (positive * summary)) (fuel : nat) (t : gst sx) (c : stmt) (t' : gst sx) : option (sout * list sx * writes) :=
  let* (o, s, w) := se sums fuel t c in
  let* s' := view t' s in
  let* sg := fit t' s' in
  if forallb is64 sg then Some (o, sg, w) else None.
Lemma fit_sat phi rho L t s sg e m : sat (den phi rho) L s e m -> fit t s = Some sg -> sat (den phi (vals phi rho sg)) L t e m.
Proof.
  intros S F. pose proof (fit_ok phi rho _ _ _ F) as E.
  assert (A : sat (fun z : Z => z) L (mapst (den phi rho) s) e m) by (apply sat_map; exact S).
  rewrite E in A. apply sat_map in A. exact A.
Qed.
Definition covered (n : nat) (w W : writes) : bool :=
  forallb (fun '(l, o, z) => Nat.leb n l || existsb (fun '(l', o', z') => Nat.eqb l l' && (o' <=? o) && (o + z <=? o' + z')) W) w.
Lemma covered_ok n w W L b p : covered n w W = true -> (length L <= n)%nat -> wset L w b p -> wset L W b p.
Proof.
  intros C Hn (l & o & z & I & N & A). unfold covered in C. rewrite forallb_forall in C. specialize (C _ I). cbn in C.
  apply orb_true_iff in C. destruct C as [C|C]; [apply Nat.leb_le in C; lia|]. apply existsb_exists in C. destruct C as ([[l' o'] z'] & I' & C).
  brk. subst l'. exists l, o', z'. split; [exact I'|]. split; [exact N|]. unfold at_ in *. lia.
Qed.
Lemma sat_length {X} (f : X -> Z) L s e m : sat f L s e m -> length L = length (gheap s).
Proof. intros S. exact (F2_length _ _ _ (sat_heap _ _ _ _ _ S)). Qed.
Lemma firstn_ext m L L' : ext m L L' -> firstn (length L) L' = L.
Proof. intros (R & -> & _). rewrite firstn_app, Nat.sub_diag, firstn_all, firstn_O. apply app_nil_r. Qed.

Section Trip.
Context (phi : nat -> list Z -> list Z) (Hphi : forall f xs k, word (nth k (phi f xs) 0)) (sums : list (positive * summary)) (SP : Forall (spec_ok phi) sums).
Definition words (rho : nat -> Z) : Prop := forall i, word (rho i).
Lemma vals_words rho sg : words rho -> forallb is64 sg = true -> words (vals phi rho sg).
Proof.
  intros W H i. unfold vals. destruct (Nat.ltb_spec i (length sg)) as [N|N].
  - rewrite forallb_forall in H. apply is64_ok; [exact Hphi|exact W|]. apply H, nth_In, N.
  - rewrite nth_overflow by exact N. unfold word. cbn. lia.
Qed.
Theorem trip_ok rho fuel t c t' o sg w L e m : words rho -> trip sums fuel t c t' = Some (o, sg, w) ->
  sat (den phi rho) L t e m ->
  wp code c e m (fun o' e' m' => exists L', ext m L L' /\ words (vals phi rho sg) /\ sat (den phi (vals phi rho sg)) (firstn (length (gheap t')) L') t' e' m' /\
    frame m m' (wset L w) /\ oko L' o /\ o' = co phi rho L' o).
Proof.
  intros Wr E S. unfold trip in E. osp. destruct v as [[o1 s1] w1]. osp. destruct (forallb is64 v0) eqn:K; [|discriminate]. injection E as <- <- <-.
  eapply wp_weak; [eapply se_ok; [exact Hphi|exact Wr|exact SP|exact S|exact E0]|]. intros o' e' m' (L' & X & S' & F & O & ->).
  exists L'. split; [exact X|]. split; [apply vals_words; assumption|]. split; [eapply fit_sat; [|exact E2]; eapply sat_view; eassumption|]. auto.
Qed.

(** ** Loops *)
Definition turn (fuel : nat) (t : gst sx) (inc body : stmt) (t' : gst sx) : option (list sx * writes) :=
  let* (o, s, w) := se sums fuel t body in
  match o with
  | SoN | SoC =>
      let* (o2, s2, w2) := se sums fuel s inc in
      match o2 with
      | SoN => let* s' := view t' s2 in let* sg := fit t' s' in if forallb is64 sg then Some (sg, w ++ w2) else None
      | _ => None
      end
  | _ => None
  end.
Theorem loop_ok (n : nat) (T : Z -> gst sx) (sg : Z -> list sx) (W : writes) (I : Z -> (nat -> Z) -> Prop) (cx : Z -> sx) fuel c inc body a b :
  a <= b ->
  (forall i, length (gheap (T i)) = n) ->
  (forall i, a <= i <= b -> sev (T i) c = Some (GInt (cx i))) ->
  (forall i, a <= i < b -> exists w, turn fuel (T i) inc body (T (i + 1)) = Some (sg i, w) /\ covered n w W = true) ->
  (forall i rho, a <= i < b -> words rho -> I i rho -> den phi rho (cx i) <> 0 /\ I (i + 1) (vals phi rho (sg i))) ->
  (forall rho, words rho -> I b rho -> den phi rho (cx b) = 0) ->
  forall L e m rho (Q : outcome -> env -> mem -> Prop), sat (den phi rho) L (T a) e m -> words rho -> I a rho ->
  (forall rho' e' m', words rho' -> I b rho' -> sat (den phi rho') L (T b) e' m' -> frame m m' (wset L W) -> Q ONormal e' m') ->
  wp code (SLoop c inc body) e m Q.
Proof.
  intros Hab Hn Hc Ht Hi Hb.
  assert (G : forall k i L e m rho (Q : outcome -> env -> mem -> Prop), a <= i -> b - i = Z.of_nat k -> sat (den phi rho) L (T i) e m -> words rho -> I i rho ->
    (forall rho' e' m', words rho' -> I b rho' -> sat (den phi rho') L (T b) e' m' -> frame m m' (wset L W) -> Q ONormal e' m') ->
    wp code (SLoop c inc body) e m Q).
  { induction k as [|k IH]; intros i L e m rho Q Hi0 Ek S Wr Hr HQ.
    - assert (i = b) by lia. subst i. destruct (sev_ok phi rho _ _ _ _ S _ _ (Hc b ltac:(lia))) as [_ P]. eapply wp_unroll; [exact P|].
      cbn [cv]. rewrite Hb by assumption. cbn. eapply HQ; [exact Wr|exact Hr|exact S|apply frame_refl].
    - destruct (sev_ok phi rho _ _ _ _ S _ _ (Hc i ltac:(lia))) as [_ P]. eapply wp_unroll; [exact P|].
      destruct (Hi i rho ltac:(lia) Wr Hr) as [Nz Hr']. cbn [cv]. unfold truth. cbn [int_of]. destruct (Z.eqb_spec (den phi rho (cx i)) 0); [contradiction|]. cbn [negb].
      destruct (Ht i ltac:(lia)) as (w & E & Cw). unfold turn in E. osp. destruct v as [[o1 s1] w1].
      assert (LL : length L = n) by (rewrite (sat_length _ _ _ _ _ S); apply Hn).
      eapply wp_weak; [eapply se_ok; [exact Hphi|exact Wr|exact SP|exact S|exact E0]|]. intros o' e1 m1 (L1 & X1 & S1 & F1 & O1 & ->).
      assert (K : (let* (o2, s2, w2) := se sums fuel s1 inc in match o2 with
          | SoN => let* s' := view (T (i + 1)) s2 in let* sg := fit (T (i + 1)) s' in if forallb is64 sg then Some (sg, w1 ++ w2) else None
          | _ => None end) = Some (sg i, w) ->
        wp code inc e1 m1 (fun o e2 m2 => o = ONormal /\ wp code (SLoop c inc body) e2 m2 Q)).
      { clear E. intros E. osp. destruct v as [[o2 s2] w2]. destruct o2; try discriminate. osp. destruct (forallb is64 v0) eqn:K; [|discriminate]. injection E as -> <-.
        eapply wp_weak; [eapply se_ok; [exact Hphi|exact Wr|exact SP|exact S1|exact E1]|]. intros o' e2 m2 (L2 & X2 & S2 & F2 & O2 & ->). split; [reflexivity|].
        assert (X12 : ext m L L2) by (eapply ext_trans; [apply F1|exact X1|exact X2]).
        assert (F12 : frame m m2 (wset L W)).
        { eapply frame_weak; [eapply frame_wset; [exact X1|exact F1|exact F2]|]. intros b0 p0 _ _ H. eapply covered_ok; [exact Cw|lia|exact H]. }
        pose proof (sat_view _ _ _ _ _ _ _ S2 E2) as S3. rewrite Hn, <- LL, (firstn_ext _ _ _ X12) in S3.
        eapply (IH (i + 1)); [lia|lia|eapply fit_sat; [exact S3|exact E3]|apply vals_words; assumption|exact Hr'|].
        intros rho' e' m' Wr' Ib S' F'. eapply HQ; [exact Wr'|exact Ib|exact S'|]. eapply frame_comp; [exact F12|exact F'|]. intros; assumption. }
      destruct o1; cbn [co]; try discriminate E; apply K, E. }
  intros L e m rho Q. apply (G (Z.to_nat (b - a))); lia.
Qed.

(** ** The first statements of a sequence *)
Fixpoint suf (n : nat) (c : stmt) : stmt := match n, c with S n, SSeq a b => suf n b | _, _ => c end.
Fixpoint sen (fuel n : nat) (s : gst sx) (c : stmt) : option (gst sx * writes) :=
  match n with
  | O => Some (s, [])
  | S n =>
      match c with
      | SSeq a b =>
          let* (o, s, w) := se sums fuel s a in
          match o with SoN => let* (s', w') := sen fuel n s b in Some (s', w ++ w') | _ => None end
      | _ => None
      end
  end.
Lemma sen_ok fuel rho : words rho -> forall n s c s' w L e m (Q : outcome -> env -> mem -> Prop), sen fuel n s c = Some (s', w) -> sat (den phi rho) L s e m ->
  (forall L' e' m', ext m L L' -> sat (den phi rho) L' s' e' m' -> frame m m' (wset L w) -> wp code (suf n c) e' m' Q) -> wp code c e m Q.
Proof.
  intros Wr. induction n as [|n IH]; intros s c s' w L e m Q E S H; cbn [sen] in E.
  - injection E as <- <-. assert (K : wp code (suf 0 c) e m Q) by (eapply H; [apply ext_refl|exact S|apply frame_refl]). destruct c; exact K.
  - destruct c; try discriminate. osp. destruct v as [[o1 s1] w1]. destruct o1; try discriminate. osp. destruct v as [s2 w2]. injection E as <- <-.
    apply wp_seq. eapply wp_weak; [eapply se_ok; [exact Hphi|exact Wr|exact SP|exact S|exact E0]|]. intros o' e1 m1 (L1 & X1 & S1 & F1 & O1 & ->). cbn [co].
    eapply IH; [exact E1|exact S1|]. intros L2 e2 m2 X2 S2 F2. cbn [suf] in H. eapply H; [eapply ext_trans; [apply F1|exact X1|exact X2]|exact S2|].
    eapply frame_wset; eassumption.
Qed.
Definition lead (fuel n : nat) (t : gst sx) (c : stmt) (t' : gst sx) : option (list sx * writes) :=
  let* (s, w) := sen fuel n t c in
  let* s' := view t' s in
  let* sg := fit t' s' in
  if forallb is64 sg then Some (sg, w) else None.
Theorem lead_ok rho fuel n t c t' sg w L e m (Q : outcome -> env -> mem -> Prop) : words rho -> lead fuel n t c t' = Some (sg, w) ->
  sat (den phi rho) L t e m ->
  (forall L' e' m', ext m L L' -> words (vals phi rho sg) -> sat (den phi (vals phi rho sg)) (firstn (length (gheap t')) L') t' e' m' ->
    frame m m' (wset L w) -> wp code (suf n c) e' m' Q) ->
  wp code c e m Q.
Proof.
  intros Wr E S H. unfold lead in E. osp. destruct v as [s1 w1]. osp. destruct (forallb is64 v0) eqn:K; [|discriminate]. injection E as <- <-.
  eapply sen_ok; [exact Wr|exact E0|exact S|]. intros L' e' m' X S' F. eapply H; [exact X|apply vals_words; assumption| |exact F].
  eapply fit_sat; [|exact E2]. eapply sat_view; eassumption.
Qed.

End Trip.

(** ** Contracts *)
Fixpoint var_ps (k : nat) (o : Z) (ws : list nat) : list (piece sx) :=
  match ws with [] => [] | w :: ws => PI o w (SV k) :: var_ps (S k) (o + Z.of_nat w) ws end.
Fixpoint con_ps (o : Z) (ws : list nat) (cs : list Z) : list (piece sx) :=
  match ws, cs with w :: ws, c :: cs => PI o w (SC c) :: con_ps (o + Z.of_nat w) ws cs | _, _ => [] end.
(** what the parameters point to, and their values *)
Fixpoint entry (l k : nat) (ps : list par) : list (gv sx) * list (positive * gv sx) * list (loc sx) :=
  match ps with
  | [] => ([], [], [])
  | PInt :: ps => let '(vs, gs, ls) := entry l (S k) ps in (GInt (SV k) :: vs, gs, ls)
  | PIn ws :: ps => let '(vs, gs, ls) := entry (S l) (k + length ws) ps in (GPtr l 0 :: vs, gs, Loc false true (total ws) (var_ps k 0 ws) :: ls)
  | PGlob g ws cs :: ps => let '(vs, gs, ls) := entry (S l) k ps in (vs, (g, GPtr l 0) :: gs, Loc false true (total ws) (con_ps 0 ws cs) :: ls)
  end.
Definition entry_st (fn : func) (sm : summary) : option (gst sx) :=
  match sm_out sm with
  | Some ws =>
      let '(vs, gs, ls) := entry 1 0 (sm_pars sm) in
      let* ps := zip_params (fparams fn) (GPtr 0 0 :: vs) [] in
      Some (St ps gs [] (Loc false false (total ws) [] :: ls))
  | None =>
      let '(vs, gs, ls) := entry 0 0 (sm_pars sm) in
      let* ps := zip_params (fparams fn) vs [] in
      Some (St ps gs [] ls)
  end.
Definition out_st (ws : list nat) : gst sx := St [] [] [] [Loc false false (total ws) (var_ps 0 0 ws)].
Definition rho_of (xs : list Z) : nat -> Z := fun i => nth i xs 0.
Fixpoint widths (ps : list par) : list nat :=
  match ps with [] => [] | PInt :: ps => 8%nat :: widths ps | PIn ws :: ps => ws ++ widths ps | PGlob _ _ _ :: ps => widths ps end.
Definition fits (w : nat) (x : Z) : Prop := 0 <= x < 2 ^ (8 * Z.of_nat w).

Lemma decode_bound l : Forall isbyte l -> 0 <= decode l < 2 ^ (8 * Z.of_nat (length l)).
Proof.
  induction 1 as [|x l H F IH]; cbn [decode length]; [cbn; lia|]. unfold isbyte in H.
  replace (8 * Z.of_nat (S (length l))) with (8 + 8 * Z.of_nat (length l)) by lia. rewrite Z.pow_add_r by lia. change (2 ^ 8) with 256. nia.
Qed.
Lemma decode_fits m b o w : isbytes m b o (Z.of_nat w) -> fits w (decode (bytesat m b o w)).
Proof.
  intros H. unfold fits. pose proof (decode_bound (bytesat m b o w)) as G. rewrite bytesat_length in G. apply G. apply Forall_forall. intros x Hx.
  apply (In_nth _ _ 0) in Hx. destruct Hx as (i & Hi & <-). rewrite bytesat_length in Hi. rewrite nth_bytesat by exact Hi. apply H. lia.
Qed.
Lemma arr_fits m b o ws xs : arr m b o ws xs -> Forall2 fits ws xs.
Proof.
  revert o xs. induction ws as [|w ws IH]; intros o [|x xs] A; cbn [arr] in A; try contradiction; [constructor|].
  destruct A as (_ & A2 & <- & A4). constructor; [apply decode_fits; exact A2|eapply IH; exact A4].
Qed.
Lemma total_cons w ws : total (w :: ws) = Z.of_nat w + total ws.
Proof. unfold total. change (list_sum (w :: ws)) with (w + list_sum ws)%nat. lia. Qed.
Lemma total_nonneg ws : 0 <= total ws. Proof. unfold total. lia. Qed.
Lemma arr_inb m b o ws xs : arr m b o ws xs -> ws <> [] -> inb m b o (total ws).
Proof.
  revert o xs. induction ws as [|w ws IH]; intros o [|x xs] A N; cbn [arr] in A; try contradiction.
  destruct A as (A1 & _ & _ & A4). rewrite total_cons. destruct ws as [|w' ws].
  - cbn. rewrite Z.add_0_r. exact A1.
  - specialize (IH _ _ A4 ltac:(discriminate)). pose proof (total_nonneg (w' :: ws)). destruct A1 as (B1 & B2 & B3 & B4), IH as (C1 & C2 & C3 & C4).
    repeat split; try assumption; lia.
Qed.
Lemma var_ps_ok rho L m b base size xs : forall ws k o ys, 0 <= o -> o + total ws <= size -> arr m b (base + o) ws ys ->
  (forall i, (i < length ws)%nat -> rho (k + i)%nat = nth i ys 0) -> Forall (piece_ok (den xs rho) L m b base size) (var_ps k o ws).
Proof.
  induction ws as [|w ws IH]; intros k o [|y ys] Ho Hs A H; cbn [arr] in A; try contradiction; cbn [var_ps]; [constructor|].
  destruct A as (A1 & A2 & A3 & A4). rewrite total_cons in Hs. pose proof (total_nonneg ws). constructor.
  - cbn [piece_ok den]. split; [exact Ho|]. split; [lia|]. split; [exact A2|]. rewrite A3. specialize (H 0%nat ltac:(cbn; lia)). rewrite Nat.add_0_r in H. symmetry. exact H.
  - eapply IH; [lia|lia|rewrite Z.add_assoc; exact A4|]. intros i Hi. specialize (H (S i) ltac:(cbn; lia)). rewrite <- Nat.add_succ_comm in H. exact H.
Qed.

Lemma con_ps_ok phi rho L m b base size : forall ws o cs, 0 <= o -> o + total ws <= size -> arr m b (base + o) ws cs ->
  Forall (piece_ok (den phi rho) L m b base size) (con_ps o ws cs).
Proof.
  induction ws as [|w ws IH]; intros o [|y ys] Ho Hs A; cbn [arr] in A; try contradiction; cbn [con_ps]; [constructor|].
  destruct A as (A1 & A2 & A3 & A4). rewrite total_cons in Hs. pose proof (total_nonneg ws). constructor.
  - cbn [piece_ok den]. split; [exact Ho|]. split; [lia|]. split; [exact A2|exact A3].
  - eapply IH; [lia|lia|rewrite Z.add_assoc; exact A4].
Qed.
Lemma entry_ok phi m out : forall ps vs xs l k rho L0 Lr, ins_ok m out ps vs xs ->
  (forall i, (i < length xs)%nat -> rho (k + i)%nat = nth i xs 0) -> Forall (fun p => match p with PIn [] | PGlob _ [] _ => False | _ => True end) ps -> length L0 = l ->
  exists L, length L = length (snd (entry l k ps)) /\
    (map (cv (den phi rho) (L0 ++ L ++ Lr)) (fst (fst (entry l k ps))) = vs) /\
    Forall (okv (L0 ++ L ++ Lr)) (fst (fst (entry l k ps))) /\
    Forall2 (loc_ok (den phi rho) (L0 ++ L ++ Lr) m) L (snd (entry l k ps)) /\
    Forall (fun lc => lro lc = true) (snd (entry l k ps)) /\
    Forall2 (fun bb lc => match out with Some (b', o', n) => sep (fst bb) (snd bb) (lsize lc) b' o' n | None => True end) L (snd (entry l k ps)) /\
    Forall2 fits (widths ps) xs /\
    Forall (fun '(g, v) => okv (L0 ++ L ++ Lr) v /\ cv (den phi rho) (L0 ++ L ++ Lr) v = VPtr g 0) (snd (fst (entry l k ps))).
Proof.
  induction ps as [|p ps IH]; intros vs xs l k rho L0 Lr H R NE EL; cbn [ins_ok] in H.
  - destruct vs; [|contradiction]. subst xs. exists []. cbn. repeat split; constructor.
  - inversion_clear NE. destruct p as [ws| |g ws cs].
    + destruct vs as [|[|b o|] vs]; try contradiction. destruct H as (ys & r & -> & A & Sp & Hr).
      assert (Ly : length ys = length ws) by (symmetry; apply (F2_length _ _ _ (arr_fits _ _ _ _ _ A))).
      assert (NEw : ws <> []) by (destruct ws; [contradiction|discriminate]).
      cbn [entry widths]. destruct (entry (S l) (k + length ws) ps) as [[vs0 gs0] ls0] eqn:En.
      destruct (IH vs r (S l) (k + length ws)%nat rho (L0 ++ [(b, o)]) Lr Hr) as (L & Q1 & Q2 & Q3 & Q4 & Q5 & Q6 & Q7 & Q8).
      { intros i Hi. specialize (R (length ws + i)%nat). rewrite app_length, Ly in R. specialize (R ltac:(lia)).
        rewrite app_nth2 in R by lia. rewrite Ly in R. replace (length ws + i - length ws)%nat with i in R by lia. rewrite <- R. f_equal. lia. }
      { assumption. } { rewrite app_length. cbn. lia. }
      rewrite En in *. cbn [fst snd] in *. exists ((b, o) :: L). rewrite <- app_assoc in Q2, Q3, Q4, Q8. cbn [app] in *.
      assert (La : lat (L0 ++ (b, o) :: L ++ Lr) l = (b, o)) by (unfold lat; rewrite app_nth2, EL, Nat.sub_diag by lia; reflexivity).
      split; [cbn; lia|]. split; [cbn [map cv]; rewrite La, Q2; cbn; rewrite Z.add_0_r; reflexivity|].
      split; [constructor; [cbn [okv]; rewrite app_length; cbn; lia|exact Q3]|].
      split. { constructor; [|exact Q4]. split; cbn [fst snd lsize lz lps]; [eapply arr_inb; eassumption|]. split; [discriminate|].
        eapply var_ps_ok; [lia|lia|rewrite Z.add_0_r; exact A|]. intros i Hi. specialize (R i). rewrite app_length in R. specialize (R ltac:(lia)). rewrite app_nth1 in R by lia. exact R. }
      split; [constructor; [reflexivity|exact Q5]|]. split; [constructor; [cbn [fst snd lsize]; exact Sp|exact Q6]|].
      split; [apply Forall2_app; [eapply arr_fits; exact A|exact Q7]|exact Q8].
    + destruct vs as [|[z| |] vs]; try contradiction. destruct H as (r & -> & W & Hr). cbn [entry widths].
      destruct (entry l (S k) ps) as [[vs0 gs0] ls0] eqn:En.
      destruct (IH vs r l (S k) rho L0 Lr Hr) as (L & Q1 & Q2 & Q3 & Q4 & Q5 & Q6 & Q7 & Q8).
      { intros i Hi. specialize (R (S i) ltac:(cbn; lia)). cbn [nth] in R. rewrite <- R. f_equal. lia. } { assumption. } { assumption. }
      rewrite En in *. cbn [fst snd] in *. exists L. split; [exact Q1|].
      specialize (R 0%nat ltac:(cbn; lia)). rewrite Nat.add_0_r in R. cbn [nth] in R.
      split; [cbn [map cv den]; rewrite Q2, R; reflexivity|]. split; [constructor; [exact I|exact Q3]|]. repeat (split; [assumption|]).
      split; [constructor; [unfold fits; exact W|exact Q7]|exact Q8].
    + assert (H' : arr m g 0 ws cs /\ match out with Some (b', o', n) => sep g 0 (total ws) b' o' n | None => True end /\ ins_ok m out ps vs xs)
        by (destruct vs as [|[]]; exact H). clear H. destruct H' as (A & Sp & Hr).
      assert (NEw : ws <> []) by (destruct ws; [contradiction|discriminate]).
      cbn [entry widths]. destruct (entry (S l) k ps) as [[vs0 gs0] ls0] eqn:En.
      destruct (IH vs xs (S l) k rho (L0 ++ [(g, 0)]) Lr Hr) as (L & Q1 & Q2 & Q3 & Q4 & Q5 & Q6 & Q7 & Q8).
      { exact R. } { assumption. } { rewrite app_length. cbn. lia. }
      rewrite En in *. cbn [fst snd] in *. exists ((g, 0) :: L). rewrite <- app_assoc in Q2, Q3, Q4, Q8. cbn [app] in *.
      assert (La : lat (L0 ++ (g, 0) :: L ++ Lr) l = (g, 0)) by (unfold lat; rewrite app_nth2, EL, Nat.sub_diag by lia; reflexivity).
      split; [cbn; lia|]. split; [exact Q2|]. split; [exact Q3|].
      split. { constructor; [|exact Q4]. split; cbn [fst snd lsize lz lps]; [eapply arr_inb; eassumption|]. split; [discriminate|].
        eapply con_ps_ok; [lia|lia|rewrite Z.add_0_r; exact A]. }
      split; [constructor; [reflexivity|exact Q5]|]. split; [constructor; [cbn [fst snd lsize]; exact Sp|exact Q6]|].
      split; [exact Q7|]. constructor; [|exact Q8]. cbn [okv cv]. rewrite La. split; [rewrite app_length; cbn; lia|reflexivity].
Qed.
Lemma env_entry phi rho L ps vs l : zip_params ps vs [] = Some l -> Forall (okv L) vs ->
  env_ok (den phi rho) L (bind_params ps (map (cv (den phi rho) L) vs) (PositiveMap.empty value)) l.
Proof. intros E O. eapply zip_ok; [exact E|exact O|]. intros ? ? Q. discriminate. Qed.
Definition ok_pars (ps : list par) : bool := forallb (fun p => match p with PIn [] | PGlob _ [] _ => false | _ => true end) ps && forallb (fun w => Nat.leb w 8) (widths ps).
Lemma fits_word w x : (w <= 8)%nat -> fits w x -> word x.
Proof. unfold fits, word. intros H K. pose proof (Z.pow_le_mono_r 2 (8 * Z.of_nat w) 64 ltac:(lia) ltac:(lia)). lia. Qed.
Lemma words_rho_of ws xs : forallb (fun w => Nat.leb w 8) ws = true -> Forall2 fits ws xs -> words (rho_of xs).
Proof.
  intros H F i. unfold rho_of. destruct (Nat.ltb_spec i (length xs)) as [N|N].
  - rewrite <- (F2_length _ _ _ F) in N. pose proof (F2_elim _ _ _ 0%nat 0 F i N) as K. rewrite forallb_forall in H.
    specialize (H (nth i ws 0%nat) (nth_In _ _ N)). apply Nat.leb_le in H. eapply fits_word; eassumption.
  - rewrite nth_overflow by exact N. unfold word. cbn. lia.
Qed.
Lemma ok_pars_ne ps : ok_pars ps = true -> Forall (fun p => match p with PIn [] | PGlob _ [] _ => False | _ => True end) ps.
Proof.
  intros H. apply andb_true_iff in H. destruct H as [H _]. rewrite forallb_forall in H. apply Forall_forall. intros p Hp. specialize (H p Hp).
  destruct p as [[|]| |? [|] ?]; try discriminate; exact I.
Qed.

Theorem contract_out phi f sm ws fn t0 : sm_out sm = Some ws -> PositiveMap.find f code = Some fn -> entry_st fn sm = Some t0 -> ok_pars (sm_pars sm) = true ->
  (forall xs m L e, Forall2 fits (widths (sm_pars sm)) xs -> words (rho_of xs) -> sat (den phi (rho_of xs)) L t0 e m ->
    wp code (fbody fn) e m (fun o e' m' => (o = ONormal \/ exists v, o = OReturn v) /\ frame m m' (wset L [(0%nat, 0, total ws)]) /\
      exists rho' e', sat (den phi rho') (firstn 1 L) (out_st ws) e' m' /\ forall k, (k < length ws)%nat -> rho' k = nth k (phi (sm_fid sm) xs) 0)) ->
  spec_ok phi (f, sm).
Proof.
  intros Ho Hf He Hp H. unfold spec_ok. rewrite Ho. intros m b o vs xs Ib In.
  unfold entry_st in He. rewrite Ho in He. destruct (entry 1 0 (sm_pars sm)) as [[vs0 gs0] ls] eqn:En.
  destruct (entry_ok phi m (Some (b, o, total ws)) (sm_pars sm) vs xs 1%nat 0%nat (rho_of xs) [(b, o)] [] In) as (L & Q1 & Q2 & Q3 & Q4 & Q5 & Q6 & Q7 & Q8).
  { intros i Hi. reflexivity. } { apply ok_pars_ne, Hp. } { reflexivity. }
  rewrite En in *. cbn [fst snd] in *. rewrite app_nil_r in Q2, Q3, Q4, Q8. cbn [app] in *. osp. injection He as <-.
  assert (L0 : lat ((b, o) :: L) 0 = (b, o)) by reflexivity.
  eapply calls_intro; [exact Hf|]. eapply wp_weak; [apply (H xs m ((b, o) :: L)); [exact Q7| |]|].
  - apply andb_true_iff in Hp. eapply words_rho_of; [apply Hp|exact Q7].
  - constructor; cbn [genv gglob galias gheap].
    + replace (VPtr b o :: vs) with (map (cv (den phi (rho_of xs)) ((b, o) :: L)) (GPtr 0 0 :: vs0)).
      * apply env_entry; [exact E|]. constructor; [cbn; lia|exact Q3].
      * cbn [map cv]. rewrite Q2, L0. cbn. rewrite Z.add_0_r. reflexivity.
    + exact Q8.
    + constructor.
    + constructor; [|exact Q4]. split; [exact Ib|]. split; [discriminate|constructor].
    + assert (G : forall i, (i < length ls)%nat -> sep (fst (lat L i)) (snd (lat L i)) (lsize (nth i ls (Loc false false 0 []))) b o (total ws)).
      { intros i Hi. exact (F2_elim _ _ _ (1%positive, 0) (Loc false false 0 []) Q6 i ltac:(lia)). }
      intros [|i] [|j] Hi Hj N R; cbn [length] in Hi, Hj; try lia; cbn [nth lsize lro] in *.
      * specialize (G j ltac:(lia)). unfold sep, lat in *. cbn [nth fst snd]. destruct G as [G|G]; [left; congruence|right; lia].
      * exact (G i ltac:(lia)).
      * exfalso. rewrite Forall_forall in Q5. rewrite !Q5 in R by (apply nth_In; lia). discriminate.
  - intros o' e' m' (Oo & F & rho' & e2 & S & Hr).
    assert (G : frame m m' (at_ b o (total ws)) /\ arr m' b o ws (map (fun k => nth k (phi (sm_fid sm) xs) 0) (seq 0 (length ws)))).
    { split.
      - eapply frame_weak; [exact F|]. intros c p _ _ (l & o1 & n & I1 & I2 & A). destruct I1 as [I1|[]]. injection I1 as <- <- <-. cbn [lat nth fst snd] in A.
        rewrite Z.add_0_r in A. exact A.
      - pose proof (sat_heap _ _ _ _ _ S) as HH. cbn [firstn] in HH. inversion HH as [|? ? ? ? (I1 & _ & P) _]; subst. cbn [out_st gheap lps lsize fst snd] in *.
        clear - I1 P Hr. assert (K : forall ws' k o1, 0 <= o1 -> o1 + total ws' <= total ws -> (forall i, (i < length ws')%nat -> rho' (k + i)%nat = nth (k + i) (phi (sm_fid sm) xs) 0) ->
           Forall (piece_ok (den phi rho') [(b, o)] m' b o (total ws)) (var_ps k o1 ws') -> arr m' b (o + o1) ws' (map (fun k => nth k (phi (sm_fid sm) xs) 0) (seq k (length ws')))).
        { induction ws' as [|w ws' IH]; intros k o1 A1 A2 A3 A4; cbn [seq map arr length]; [exact I|]. inversion_clear A4 as [|? ? B1 B2]. destruct B1 as (C1 & C2 & C3 & C4).
          rewrite total_cons in A2. pose proof (total_nonneg ws').
          split; [eapply inb_sub; [exact I1|lia..]|]. split; [exact C3|]. split; [rewrite C4; cbn [den]; specialize (A3 0%nat ltac:(cbn; lia)); rewrite Nat.add_0_r in A3; exact A3|].
          rewrite <- Z.add_assoc. apply IH; [lia|lia| |exact B2]. intros i Hi. specialize (A3 (S i) ltac:(cbn; lia)). rewrite <- Nat.add_succ_comm in A3. exact A3. }
        specialize (K ws 0%nat 0 ltac:(lia) ltac:(lia)). rewrite Z.add_0_r in K. apply K; [intros i Hi; apply Hr; exact Hi|exact P]. }
    destruct Oo as [->|[v0 ->]]; exact G.
Qed.
Theorem contract_val phi f sm fn t0 : sm_out sm = None -> PositiveMap.find f code = Some fn -> entry_st fn sm = Some t0 -> ok_pars (sm_pars sm) = true ->
  (forall xs m L e, Forall2 fits (widths (sm_pars sm)) xs -> words (rho_of xs) -> sat (den phi (rho_of xs)) L t0 e m ->
    wp code (fbody fn) e m (fun o e' m' => frame m m' nothing /\ o = OReturn (VInt (nth 0 (phi (sm_fid sm) xs) 0)))) ->
  spec_ok phi (f, sm).
Proof.
  intros Ho Hf He Hp H. unfold spec_ok. rewrite Ho. intros m vs xs In.
  unfold entry_st in He. rewrite Ho in He. destruct (entry 0 0 (sm_pars sm)) as [[vs0 gs0] ls] eqn:En.
  destruct (entry_ok phi m None (sm_pars sm) vs xs 0%nat 0%nat (rho_of xs) [] [] In) as (L & Q1 & Q2 & Q3 & Q4 & Q5 & Q6 & Q7 & Q8).
  { intros i Hi. reflexivity. } { apply ok_pars_ne, Hp. } { reflexivity. }
  rewrite En in *. cbn [fst snd] in *. rewrite app_nil_r in Q2, Q3, Q4, Q8. cbn [app] in *. osp. injection He as <-.
  eapply calls_intro; [exact Hf|]. eapply wp_weak; [apply (H xs m L); [exact Q7| |]|].
  - apply andb_true_iff in Hp. eapply words_rho_of; [apply Hp|exact Q7].
  - constructor; cbn [genv gglob galias gheap].
    + rewrite <- Q2. apply env_entry; assumption.
    + exact Q8.
    + constructor.
    + exact Q4.
    + intros i j Hi Hj N R. exfalso. rewrite Forall_forall in Q5. rewrite !Q5 in R by (apply nth_In; lia). discriminate.
  - intros o' e' m' [F ->]. split; [exact F|reflexivity].
Qed.

(** ** Functions without loops that have to be understood *)
Definition whole (sums : list (positive * summary)) (fuel : nat) (t : gst sx) (c : stmt) (ws : list nat) : option (list sx) :=
  let* (o, sg, w) := trip sums fuel t c (out_st ws) in
  match o with
  | SoN | SoR _ => if covered (length (gheap t)) w [(0%nat, 0, total ws)] then Some sg else None
  | _ => None
  end.
Theorem whole_ok phi sums f sm ws fn t0 fuel sg : (forall f xs k, word (nth k (phi f xs) 0)) -> Forall (spec_ok phi) sums ->
  sm_out sm = Some ws -> PositiveMap.find f code = Some fn -> entry_st fn sm = Some t0 -> ok_pars (sm_pars sm) = true ->
  whole sums fuel t0 (fbody fn) ws = Some sg ->
  (forall xs, Forall2 fits (widths (sm_pars sm)) xs -> words (rho_of xs) -> forall k, (k < length ws)%nat -> den phi (rho_of xs) (nth k sg (SC 0)) = nth k (phi (sm_fid sm) xs) 0) ->
  spec_ok phi (f, sm).
Proof.
  intros Hphi SP Ho Hf He Hp E H. eapply contract_out; try eassumption. intros xs m L e Fx Wx S.
  unfold whole in E. osp. destruct v as [[o1 sg1] w1].
  assert (C : covered (length (gheap t0)) w1 [(0%nat, 0, total ws)] = true /\ sg1 = sg /\ (o1 = SoN \/ exists v, o1 = SoR v)).
  { destruct o1; try discriminate; destruct (covered (length (gheap t0)) w1 [(0%nat, 0, total ws)]); try discriminate; injection E as <-; split; eauto. }
  destruct C as (C & -> & Oo). pose proof (sat_length _ _ _ _ _ S) as LL.
  eapply wp_weak; [eapply trip_ok; [exact Hphi|exact SP|exact Wx|exact E0|exact S]|].
  intros o' e' m' (L' & X & Wv & S' & F & _ & ->). split; [|split].
  - destruct Oo as [->|[v ->]]; cbn [co]; eauto.
  - eapply frame_weak; [exact F|]. intros c p _ _ K. eapply covered_ok; [exact C|lia|exact K].
  - exists (vals phi (rho_of xs) sg), e'. split; [|intros k Hk; apply H; assumption].
    assert (NE : (0 < length L)%nat).
    { rewrite LL. unfold entry_st in He. rewrite Ho in He. destruct (entry 1 0 (sm_pars sm)) as [[? ?] ?]. osp. injection He as <-. cbn. lia. }
    replace (firstn 1 L) with (firstn (length (gheap (out_st ws))) L'); [exact S'|]. cbn [out_st gheap length]. destruct X as (R & -> & _).
    destruct L; [cbn in NE; lia|]. reflexivity.
Qed.
