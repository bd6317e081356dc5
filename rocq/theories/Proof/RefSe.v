(** Symbolic execution of the translated program: straight-line code with known addresses is run once
    on symbolic values; what it computes then holds for all values. *)
From Coq Require Import ZArith NArith List Bool FMapPositive Lia ZifyBool Arith.
From Verif Require Import Model.CtLang Model.CtNames Model.CtProgram Proof.RefLogic Proof.RefTac Proof.RefMem.
Import ListNotations.
Local Open Scope Z_scope.

(** ** Symbolic integers *)
Inductive sx :=
| SC (z : Z)
| SV (i : nat)
| SU (o : unop) (t : ity) (a : sx)
| SB (o : binop) (t : ity) (a b : sx)
| SD (o : divop) (t : ity) (a b : sx)
| SA (f k : nat) (l : list sx).

Section Den.
Context (phi : nat -> list Z -> list Z) (rho : nat -> Z).
Fixpoint den (x : sx) : Z :=
  match x with
  | SC z => z
  | SV i => rho i
  | SU o t a => un o t (den a)
  | SB o t a b => bin o t (den a) (den b)
  | SD o t a b => div o t (den a) (den b)
  | SA f k l => nth k (phi f (map den l)) 0
  end.
End Den.

Definition mku o t a := match a with SC x => SC (un o t x) | _ => SU o t a end.
Definition mkb o t a b := match a, b with SC x, SC y => SC (bin o t x y) | _, _ => SB o t a b end.
Definition mkd o t a b := match a, b with SC x, SC y => SC (div o t x y) | _, _ => SD o t a b end.
Lemma den_mku phi rho o t a : den phi rho (mku o t a) = un o t (den phi rho a).
Proof. destruct a; reflexivity. Qed.
Lemma den_mkb phi rho o t a b : den phi rho (mkb o t a b) = bin o t (den phi rho a) (den phi rho b).
Proof. destruct a; try reflexivity. destruct b; reflexivity. Qed.
Lemma den_mkd phi rho o t a b : den phi rho (mkd o t a b) = div o t (den phi rho a) (den phi rho b).
Proof. destruct a; try reflexivity. destruct b; reflexivity. Qed.

Definition unop_eqb (a b : unop) : bool :=
  match a, b with ONeg, ONeg | ONot, ONot | OLNot, OLNot | OCast, OCast | OParity, OParity => true | _, _ => false end.
Definition binop_eqb (a b : binop) : bool :=
  match a, b with
  | OAdd, OAdd | OSub, OSub | OMul, OMul | OAnd, OAnd | OOr, OOr | OXor, OXor | OShl, OShl | OShr, OShr | OLt, OLt | OLe, OLe
  | OGt, OGt | OGe, OGe | OEq, OEq | ONe, ONe => true
  | _, _ => false
  end.
Definition divop_eqb (a b : divop) : bool := match a, b with ODiv, ODiv | OMod, OMod => true | _, _ => false end.
Definition ity_eqb (a b : ity) : bool := let 'IT s w := a in let 'IT s' w' := b in Bool.eqb s s' && Z.eqb w w'.
Fixpoint sx_eqb (a b : sx) : bool :=
  match a, b with
  | SC x, SC y => Z.eqb x y
  | SV i, SV j => Nat.eqb i j
  | SU o t a, SU o' t' a' => unop_eqb o o' && ity_eqb t t' && sx_eqb a a'
  | SB o t a b, SB o' t' a' b' => binop_eqb o o' && ity_eqb t t' && sx_eqb a a' && sx_eqb b b'
  | SD o t a b, SD o' t' a' b' => divop_eqb o o' && ity_eqb t t' && sx_eqb a a' && sx_eqb b b'
  | SA f k l, SA f' k' l' =>
      Nat.eqb f f' && Nat.eqb k k' &&
      (fix go (l l' : list sx) : bool := match l, l' with [], [] => true | x :: l, y :: l' => sx_eqb x y && go l l' | _, _ => false end) l l'
  | _, _ => false
  end.
Lemma unop_eqb_eq a b : unop_eqb a b = true -> a = b. Proof. destruct a, b; intros; try discriminate; reflexivity. Qed.
Lemma binop_eqb_eq a b : binop_eqb a b = true -> a = b. Proof. destruct a, b; intros; try discriminate; reflexivity. Qed.
Lemma divop_eqb_eq a b : divop_eqb a b = true -> a = b. Proof. destruct a, b; intros; try discriminate; reflexivity. Qed.
Lemma ity_eqb_eq a b : ity_eqb a b = true -> a = b.
Proof. destruct a, b. cbn. rewrite andb_true_iff, Bool.eqb_true_iff, Z.eqb_eq. intros [-> ->]. reflexivity. Qed.
Fixpoint sx_eqb_eq (a : sx) : forall b, sx_eqb a b = true -> a = b.
Proof.
  destruct a as [x|i|o t x|o t x y|o t x y|f k l]; intros [x'|i'|o' t' x'|o' t' x' y'|o' t' x' y'|f' k' l']; cbn [sx_eqb]; try discriminate;
    rewrite ?andb_true_iff.
  - intros H. apply Z.eqb_eq in H. congruence.
  - intros H. apply Nat.eqb_eq in H. congruence.
  - intros [[A B] C]. apply unop_eqb_eq in A. apply ity_eqb_eq in B. apply sx_eqb_eq in C. congruence.
  - intros [[[A B] C] D]. apply binop_eqb_eq in A. apply ity_eqb_eq in B. apply sx_eqb_eq in C. apply sx_eqb_eq in D. congruence.
  - intros [[[A B] C] D]. apply divop_eqb_eq in A. apply ity_eqb_eq in B. apply sx_eqb_eq in C. apply sx_eqb_eq in D. congruence.
  - intros [[A B] C]. apply Nat.eqb_eq in A, B. subst f' k'. f_equal. revert l' C.
    induction l as [|x l IH]; intros [|y l']; try discriminate; [reflexivity|]. rewrite andb_true_iff. intros [D E].
    apply sx_eqb_eq in D. rewrite (IH _ E), D. reflexivity.
Qed.

(** ** Symbolic states, over any kind of integers *)
Inductive gv (X : Type) := GInt (x : X) | GPtr (l : nat) (o : Z) | GNull.
Arguments GInt {X} _.
Arguments GPtr {X} _ _.
Arguments GNull {X}.
(** [n] bytes at [o] that hold the integer, or a cell with a pointer *)
Inductive piece (X : Type) := PI (o : Z) (n : nat) (x : X) | PP (o : Z) (v : gv X).
Arguments PI {X} _ _ _.
Arguments PP {X} _ _.
(** an array: whether it starts its block, whether it is only read (such arrays may overlap), its size, its known contents *)
Record loc (X : Type) := Loc { lz : bool; lro : bool; lsize : Z; lps : list (piece X) }.
Arguments Loc {X} _ _ _ _.
Arguments lz {X} _.
Arguments lro {X} _.
Arguments lsize {X} _.
Arguments lps {X} _.
(** a pointer with a symbolic offset that is the start of another array: l, o, scale, index *)
Record alias (X : Type) := Alias { al : nat; ao : Z; asc : Z; ax : X; av : gv X }.
Arguments Alias {X} _ _ _ _ _.
Arguments al {X} _.
Arguments ao {X} _.
Arguments asc {X} _.
Arguments ax {X} _.
Arguments av {X} _.
Record gst (X : Type) := St { genv : list (positive * gv X); gglob : list (positive * gv X); galias : list (alias X); gheap : list (loc X) }.
Arguments St {X} _ _ _ _.
Arguments genv {X} _.
Arguments gglob {X} _.
Arguments galias {X} _.
Arguments gheap {X} _.

Definition mapv {X Y} (f : X -> Y) (v : gv X) : gv Y := match v with GInt x => GInt (f x) | GPtr l o => GPtr l o | GNull => GNull end.
Definition mapp {X Y} (f : X -> Y) (p : piece X) : piece Y := match p with PI o n x => PI o n (f x) | PP o v => PP o (mapv f v) end.
Definition mapl {X Y} (f : X -> Y) (l : loc X) : loc Y := Loc (lz l) (lro l) (lsize l) (map (mapp f) (lps l)).
Definition mapa {X Y} (f : X -> Y) (a : alias X) : alias Y := Alias (al a) (ao a) (asc a) (f (ax a)) (mapv f (av a)).
Definition mapst {X Y} (f : X -> Y) (s : gst X) : gst Y :=
  St (map (fun '(x, v) => (x, mapv f v)) (genv s)) (map (fun '(x, v) => (x, mapv f v)) (gglob s)) (map (mapa f) (galias s)) (map (mapl f) (gheap s)).

Fixpoint assoc {A} (x : positive) (l : list (positive * A)) : option A :=
  match l with [] => None | (y, v) :: l => if Pos.eqb x y then Some v else assoc x l end.

Definition locs := list (positive * Z).
Definition lat (L : locs) (l : nat) : positive * Z := nth l L (1%positive, 0).

Section Sat.
Context {X : Type} (f : X -> Z) (L : locs).
Definition cv (v : gv X) : value :=
  match v with GInt x => VInt (f x) | GPtr l o => VPtr (fst (lat L l)) (snd (lat L l) + o) | GNull => VNull end.
Definition okv (v : gv X) : Prop := match v with GPtr l _ => (l < length L)%nat | _ => True end.
Definition isbytes (m : mem) (b : positive) (o : Z) (n : Z) : Prop := forall i, o <= i < o + n -> isbyte (byte m b i).
Definition piece_ok (m : mem) (b : positive) (base size : Z) (p : piece X) : Prop :=
  match p with
  | PI o n x => 0 <= o /\ o + Z.of_nat n <= size /\ isbytes m b (base + o) (Z.of_nat n) /\ decode (bytesat m b (base + o) n) = f x
  | PP o v => 0 <= o < size /\ okv v /\ cell m b (base + o) = cv v
  end.
Definition loc_ok (m : mem) (bb : positive * Z) (l : loc X) : Prop :=
  inb m (fst bb) (snd bb) (lsize l) /\ (lz l = true -> snd bb = 0) /\ Forall (piece_ok m (fst bb) (snd bb) (lsize l)) (lps l).
Definition env_ok (e : env) (l : list (positive * gv X)) : Prop := forall x v, assoc x l = Some v -> okv v /\ lookup e x = cv v.
Definition apart (l : list (loc X)) : Prop :=
  forall i j, (i < length l)%nat -> (j < length l)%nat -> i <> j ->
    lro (nth i l (Loc false false 0 [])) && lro (nth j l (Loc false false 0 [])) = false ->
    sep (fst (lat L i)) (snd (lat L i)) (lsize (nth i l (Loc false false 0 []))) (fst (lat L j)) (snd (lat L j)) (lsize (nth j l (Loc false false 0 []))).
Record sat (s : gst X) (e : env) (m : mem) : Prop := {
  sat_env : env_ok e (genv s);
  sat_glob : Forall (fun '(g, v) => okv v /\ cv v = VPtr g 0) (gglob s);
  sat_alias : Forall (fun a => (al a < length L)%nat /\ okv (av a) /\
    cv (av a) = VPtr (fst (lat L (al a))) (snd (lat L (al a)) + ao a + asc a * f (ax a))) (galias s);
  sat_heap : Forall2 (loc_ok m) L (gheap s);
  sat_apart : apart (gheap s) }.
End Sat.

(** ** Evaluation *)
Fixpoint find_pi {X} (o : Z) (n : nat) (l : list (piece X)) : option X :=
  match l with
  | [] => None
  | PI o' n' x :: l => if (o =? o') && Nat.eqb n n' then Some x else find_pi o n l
  | _ :: l => find_pi o n l
  end.
Fixpoint find_pp {X} (o : Z) (l : list (piece X)) : option (gv X) :=
  match l with
  | [] => None
  | PP o' v :: l => if o =? o' then Some v else find_pp o l
  | _ :: l => find_pp o l
  end.
Fixpoint find_al (l : nat) (o sc : Z) (x : sx) (a : list (alias sx)) : option (gv sx) :=
  match a with
  | [] => None
  | Alias l' o' sc' x' v :: a => if Nat.eqb l l' && (o =? o') && (sc =? sc') && sx_eqb x x' then Some v else find_al l o sc x a
  end.
Definition locat {X} (s : gst X) (l : nat) : option (loc X) := nth_error (gheap s) l.
Definition olet {A B} (o : option A) (k : A -> option B) : option B := match o with Some a => k a | None => None end.
Notation "'let*' x := o 'in' k" := (olet o (fun x => k)) (at level 200, x pattern, o at level 100, k at level 200).
Definition as_int (v : gv sx) : option sx := match v with GInt x => Some x | _ => None end.
Definition as_con (v : gv sx) : option Z := match v with GInt (SC z) => Some z | _ => None end.

Fixpoint sev (s : gst sx) (a : expr) : option (gv sx) :=
  match a with
  | EInt z => Some (GInt (SC z))
  | EVar x => assoc x (genv s)
  | EGlob g => assoc g (gglob s)
  | ENull => Some GNull
  | EUn o t a => let* v := sev s a in let* x := as_int v in Some (GInt (mku o t x))
  | EBin o t a b =>
      let* v := sev s a in let* x := as_int v in let* w := sev s b in let* y := as_int w in Some (GInt (mkb o t x y))
  | EDiv o t a b =>
      let* v := sev s a in let* x := as_int v in let* w := sev s b in let* y := as_con w in
      if y =? 0 then None else Some (GInt (mkd o t x (SC y)))
  | ECond c a b => let* v := sev s c in let* x := as_con v in if x =? 0 then sev s b else sev s a
  | ELoad n p =>
      let* v := sev s p in
      match v with GPtr l o => let* lc := locat s l in let* x := find_pi o n (lps lc) in Some (GInt x) | _ => None end
  | ELoadP p =>
      let* v := sev s p in
      match v with GPtr l o => let* lc := locat s l in find_pp o (lps lc) | _ => None end
  | EAt p sc i =>
      let* v := sev s p in let* w := sev s i in let* x := as_int w in
      match v with
      | GPtr l o => match x with SC z => Some (GPtr l (o + sc * z)) | _ => find_al l o sc x (galias s) end
      | _ => None
      end
  | EField p nf f =>
      let* v := sev s p in
      match v with
      | GPtr l o => let* lc := locat s l in if lz lc then find_pp (o * nf + f) (lps lc) else None
      | _ => None
      end
  | EIsNull p => let* v := sev s p in match v with GPtr _ _ => Some (GInt (SC 0)) | GNull => Some (GInt (SC 1)) | _ => None end
  end.

Section Sound.
Context (phi : nat -> list Z -> list Z) (rho : nat -> Z).
Let D := den phi rho.

Lemma assoc_ok {A} (P : positive -> A -> Prop) x l v : Forall (fun '(x, v) => P x v) l -> assoc x l = Some v -> P x v.
Proof.
  induction l as [|[y w] l IH]; cbn; [discriminate|]. intros H. inversion_clear H. destruct (Pos.eqb_spec x y) as [->|]; [|auto].
  intros E. injection E as <-. assumption.
Qed.
Lemma F2_length {A B} (R : A -> B -> Prop) l l' : Forall2 R l l' -> length l = length l'.
Proof. induction 1; cbn; congruence. Qed.
Lemma F2_nth {A B} (R : A -> B -> Prop) l l' d i y : Forall2 R l l' -> nth_error l' i = Some y -> (i < length l)%nat /\ R (nth i l d) y.
Proof.
  intros F. revert i. induction F; intros [|i] E; cbn in *; try discriminate.
  - injection E as <-. split; [lia|assumption].
  - destruct (IHF _ E). split; [lia|assumption].
Qed.
Lemma locat_ok L (s : gst sx) e m l lc : sat D L s e m -> locat s l = Some lc -> (l < length L)%nat /\ loc_ok D L m (lat L l) lc.
Proof. intros H E. exact (F2_nth _ _ _ _ _ _ (sat_heap _ _ _ _ _ H) E). Qed.
Lemma find_pi_ok L m b base size o n ps x : Forall (piece_ok D L m b base size) ps -> find_pi o n ps = Some x ->
  piece_ok D L m b base size (PI o n x).
Proof.
  induction ps as [|p ps IH]; cbn [find_pi]; [discriminate|]. intros H. inversion_clear H. destruct p as [o' n' y|o' v]; [|auto].
  destruct ((o =? o') && (Nat.eqb n n')) eqn:E; [|auto]. apply andb_true_iff in E. destruct E as [E1 E2].
  apply Z.eqb_eq in E1. apply Nat.eqb_eq in E2. subst o' n'. intros F. injection F as <-. assumption.
Qed.
Lemma find_pp_ok L m b base size o ps v : Forall (piece_ok D L m b base size) ps -> find_pp o ps = Some v ->
  piece_ok D L m b base size (PP o v).
Proof.
  induction ps as [|p ps IH]; cbn [find_pp]; [discriminate|]. intros H. inversion_clear H. destruct p as [o' n' y|o' w]; [auto|].
  destruct (Z.eqb_spec o o') as [->|]; [|auto]. intros F. injection F as <-. assumption.
Qed.
Lemma find_al_ok L l o sc x a v : Forall (fun a => (al a < length L)%nat /\ okv L (av a) /\
    cv D L (av a) = VPtr (fst (lat L (al a))) (snd (lat L (al a)) + ao a + asc a * D (ax a))) a ->
  find_al l o sc x a = Some v -> okv L v /\ cv D L v = VPtr (fst (lat L l)) (snd (lat L l) + o + sc * D x).
Proof.
  induction a as [|[l' o' sc' x' w] a IH]; cbn [find_al]; [discriminate|]. intros H. inversion_clear H.
  destruct (Nat.eqb l l' && (o =? o') && (sc =? sc') && sx_eqb x x') eqn:E; [|auto].
  apply andb_true_iff in E. destruct E as [E E4]. apply andb_true_iff in E. destruct E as [E E3]. apply andb_true_iff in E. destruct E as [E1 E2].
  apply Nat.eqb_eq in E1. apply Z.eqb_eq in E2, E3. apply sx_eqb_eq in E4. subst. intros F. injection F as <-. cbn in H0. tauto.
Qed.

Ltac osp := repeat match goal with
  | H : olet ?o _ = Some _ |- _ => let v := fresh "v" in let E := fresh "E" in destruct o as [v|] eqn:E; [cbn [olet] in H|discriminate H]
  | H : as_int ?v = Some _ |- _ => destruct v; try discriminate H; cbn in H; injection H as H; subst
  | H : as_con ?v = Some _ |- _ => destruct v as [[]| |]; try discriminate H; cbn in H; injection H as H; subst
  end.

Lemma sev_ok L s e m : sat D L s e m -> forall a v, sev s a = Some v -> okv L v /\ pe e m a (cv D L v).
Proof.
  intros S. induction a; intros v E; cbn [sev] in E.
  - injection E as <-. split; [exact I|]. apply pe_int.
  - pose proof (sat_env _ _ _ _ _ S _ _ E) as [A B]. split; [exact A|]. apply pe_var. exact B.
  - pose proof (assoc_ok (fun g v => okv L v /\ cv D L v = VPtr g 0) _ _ _ (sat_glob _ _ _ _ _ S) E) as [A B]. split; [exact A|]. rewrite B. apply pe_glob.
  - injection E as <-. split; [exact I|]. apply pe_null.
  - osp. injection E as <-. split; [exact I|]. cbn [cv]. unfold D. rewrite den_mku. apply pe_un. apply (IHa _ eq_refl).
  - osp. injection E as <-. split; [exact I|]. cbn [cv]. unfold D. rewrite den_mkb. apply pe_bin; [apply (IHa1 _ eq_refl)|apply (IHa2 _ eq_refl)].
  - osp. match type of E with context [?z =? 0] => destruct (Z.eqb_spec z 0); [discriminate|] end. injection E as <-. split; [exact I|]. cbn [cv]. unfold D. rewrite den_mkd.
    apply pe_div; [apply (IHa1 _ eq_refl)|apply (IHa2 _ eq_refl)|assumption].
  - osp. destruct (IHa1 _ eq_refl) as [_ P1]. cbn in P1. match type of E with context [?z =? 0] => destruct (Z.eqb_spec z 0) as [E2|N]; [rewrite E2 in *|] end.
    + destruct (IHa3 _ E) as [O P]. split; [exact O|]. eapply pe_cond; [exact P1|]. exact P.
    + destruct (IHa2 _ E) as [O P]. split; [exact O|]. eapply pe_cond; [exact P1|]. unfold truth. cbn [int_of].
      match goal with |- context [?z =? 0] => destruct (Z.eqb_spec z 0); [contradiction|] end. exact P.
  - osp. destruct v0 as [|l o|]; try discriminate. osp. injection E as <-. split; [exact I|].
    destruct (locat_ok _ _ _ _ _ _ S E1) as (_ & I1 & _ & I2). destruct (find_pi_ok _ _ _ _ _ _ _ _ _ I2 E2) as (A & B & _ & K). cbn [cv]. rewrite <- K.
    apply pe_load; [apply (IHa _ eq_refl)|]. eapply inb_sub; [exact I1|lia..].
  - osp. destruct v0 as [|l o|]; try discriminate. osp.
    destruct (locat_ok _ _ _ _ _ _ S E1) as (_ & I1 & _ & I2). destruct (find_pp_ok _ _ _ _ _ _ _ _ I2 E) as (A & B & K). split; [exact B|]. rewrite <- K.
    apply pe_loadp; [apply (IHa _ eq_refl)|]. eapply inb_sub; [exact I1|lia..].
  - osp. destruct v0 as [|l o|]; try discriminate. destruct (IHa1 _ eq_refl) as [O1 P1]. destruct (IHa2 _ eq_refl) as [O2 P2].
    assert (K : (exists z, v2 = SC z /\ v = GPtr l (o + scale * z)) \/ find_al l o scale v2 (galias s) = Some v).
    { destruct v2; auto. left. eexists. split; [reflexivity|]. congruence. }
    destruct K as [(z & -> & ->)|K].
    + split; [exact O1|]. cbn [cv]. eapply pe_eq; [eapply pe_at; [exact P1|exact P2]|]. cbn. f_equal. lia.
    + destruct (find_al_ok _ _ _ _ _ _ _ (sat_alias _ _ _ _ _ S) K) as [O3 C]. split; [exact O3|]. rewrite C.
      eapply pe_eq; [eapply pe_at; [exact P1|exact P2]|]. reflexivity.
  - osp. destruct v0 as [|l o|]; try discriminate. osp. destruct (lz v0) eqn:Z0; [|discriminate].
    destruct (locat_ok _ _ _ _ _ _ S E1) as (_ & I1 & I0 & I2). specialize (I0 Z0).
    destruct (find_pp_ok _ _ _ _ _ _ _ _ I2 E) as (A & B & K). split; [exact B|]. rewrite <- K. rewrite I0 in *.
    destruct (IHa _ eq_refl) as [_ P]. cbn [cv] in P. rewrite I0 in P. replace (0 + (o * nf + f)) with ((0 + o) * nf + f) by lia.
    apply pe_field; [exact P|]. eapply inb_sub; [exact I1|lia..].
  - osp. destruct (IHa _ eq_refl) as [_ P]. destruct v0 as [|l o|]; try discriminate; injection E as <-; (split; [exact I|]);
      exact (pe_isnull _ _ _ _ P).
Qed.
End Sound.

(** ** Statements *)
Definition prange {X} (p : piece X) : Z * Z := match p with PI o n _ => (o, Z.of_nat n) | PP o _ => (o, 1) end.
Definition away {X} (o n : Z) (p : piece X) : bool := let '(o', n') := prange p in (o' + n' <=? o) || (o + n <=? o').
Fixpoint setnth {A} (l : list A) (i : nat) (x : A) : list A :=
  match l, i with [], _ => [] | _ :: l, O => x :: l | y :: l, S i => y :: setnth l i x end.
(** Pieces [np] replace what was at [o], [n] of location [l]. *)
Definition put_ps (s : gst sx) (l : nat) (o n : Z) (np : list (piece sx)) : option (gst sx) :=
  let* lc := locat s l in
  if (0 <=? o) && (0 <=? n) && (o + n <=? lsize lc) && negb (lro lc)
  then Some (St (genv s) (gglob s) (galias s) (setnth (gheap s) l (Loc (lz lc) (lro lc) (lsize lc) (np ++ filter (away o n) (lps lc)))))
  else None.
Definition set_env {X} (s : gst X) (x : positive) (v : gv X) : gst X := St ((x, v) :: genv s) (gglob s) (galias s) (gheap s).
Definition with_env {X} (s : gst X) (l : list (positive * gv X)) : gst X := St l (gglob s) (galias s) (gheap s).
Fixpoint zps (k w : nat) (o : Z) (x : sx) : list (piece sx) :=
  match k with O => [] | S k => PI o w x :: zps k w (o + Z.of_nat w) x end.
Definition zeros (o n : Z) : list (piece sx) :=
  if 2048 <? n then [] else if n mod 8 =? 0 then zps (Z.to_nat (n / 8)) 8 o (SC 0) else zps (Z.to_nat n) 1 o (SC 0).
Fixpoint copied (o n o' : Z) (ps : list (piece sx)) : list (piece sx) :=
  match ps with
  | [] => []
  | PI q w x :: ps => if (o <=? q) && (q + Z.of_nat w <=? o + n) then PI (q - o + o') w x :: copied o n o' ps else copied o n o' ps
  | _ :: ps => copied o n o' ps
  end.

(** Values that are certainly 64-bit words, if the variables and the results of functions are *)
Definition word (z : Z) : Prop := 0 <= z < 2 ^ 64.
Fixpoint is64 (x : sx) : bool :=
  match x with
  | SC z => (0 <=? z) && (z <? 2 ^ 64)
  | SV _ | SA _ _ _ => true
  | SU (ONeg | ONot | OCast) (IT s w) _ => negb s && (0 <=? w) && (w <=? 64)
  | SU (OLNot | OParity) _ _ => true
  | SB (OAdd | OSub | OMul | OShl) (IT s w) _ _ => negb s && (0 <=? w) && (w <=? 64)
  | SB (OAnd | OOr | OXor | OShr) _ a b => is64 a && is64 b
  | SB (OLt | OLe | OGt | OGe | OEq | ONe) _ _ _ => true
  | SD _ (IT s w) _ _ => negb s && (0 <=? w) && (w <=? 64)
  end.

(** Functions that are not run but replaced by function symbols: the parameters after the result, and where the result goes. *)
(** A parameter is an array of words, or a word; a function may also use a constant. *)
Inductive par := PIn (ws : list nat) | PInt | PGlob (g : positive) (ws : list nat) (cs : list Z).
Record summary := Sum { sm_out : option (list nat); sm_pars : list par; sm_fid : nat }.
Definition total (ws : list nat) : Z := Z.of_nat (list_sum ws).
Fixpoint read_ws (ps : list (piece sx)) (o : Z) (ws : list nat) : option (list sx) :=
  match ws with
  | [] => Some []
  | w :: ws => let* x := find_pi o w ps in let* r := read_ws ps (o + Z.of_nat w) ws in Some (x :: r)
  end.
Fixpoint lsx_eqb (l l' : list sx) : bool := match l, l' with [], [] => true | x :: l, y :: l' => sx_eqb x y && lsx_eqb l l' | _, _ => false end.
Lemma lsx_eqb_eq l : forall l', lsx_eqb l l' = true -> l = l'.
Proof. induction l as [|x l IH]; intros [|y l']; cbn; try discriminate; [reflexivity|]. rewrite andb_true_iff. intros [A B]. apply sx_eqb_eq in A. rewrite A, (IH _ B). reflexivity. Qed.
(** [out]: the location, offset and size of the result *)
Fixpoint sum_ins (s : gst sx) (out : option (nat * Z * Z)) (ps : list par) (args : list (gv sx)) : option (list sx) :=
  match ps, args with
  | [], [] => Some []
  | PInt :: ps, v :: args => let* x := as_int v in if is64 x then let* r := sum_ins s out ps args in Some (x :: r) else None
  | PIn ws :: ps, GPtr l o :: args =>
      let* lc := locat s l in
      if (0 <=? o) && (o + total ws <=? lsize lc) &&
         match out with Some (l', o', n) => negb (Nat.eqb l l') || (o + total ws <=? o') || (o' + n <=? o) | None => true end
      then let* xs := read_ws (lps lc) o ws in let* r := sum_ins s out ps args in Some (xs ++ r)
      else None
  | PGlob g ws cs :: ps, args =>
      let* v := assoc g (gglob s) in
      match v with
      | GPtr l 0 =>
          let* lc := locat s l in
          if (total ws <=? lsize lc) && match out with Some (l', _, _) => negb (Nat.eqb l l') | None => true end
          then let* xs := read_ws (lps lc) 0 ws in
            if lsx_eqb xs (map SC cs) then sum_ins s out ps args else None
          else None
      | _ => None
      end
  | _, _ => None
  end.
Fixpoint out_ps (f k : nat) (ins : list sx) (o : Z) (ws : list nat) : list (piece sx) :=
  match ws with [] => [] | w :: ws => PI o w (SA f k ins) :: out_ps f (S k) ins (o + Z.of_nat w) ws end.

Inductive sout := SoN | SoB | SoC | SoR (v : gv sx).
Definition writes := list (nat * Z * Z).

Fixpoint mapo {A B} (f : A -> option B) (l : list A) : option (list B) :=
  match l with [] => Some [] | x :: l => let* y := f x in let* r := mapo f l in Some (y :: r) end.
Fixpoint zip_params (ps : list positive) (vs : list (gv sx)) (acc : list (positive * gv sx)) : option (list (positive * gv sx)) :=
  match ps, vs with [], [] => Some acc | p :: ps, v :: vs => zip_params ps vs ((p, v) :: acc) | _, _ => None end.
Definition set_opt (s : gst sx) (d : option positive) (v : gv sx) : gst sx := match d with Some x => set_env s x v | None => s end.

Definition summarise (s : gst sx) (sm : summary) (args : list (gv sx)) : option (gv sx * gst sx * writes) :=
  match sm_out sm with
  | None => let* ins := sum_ins s None (sm_pars sm) args in Some (GInt (SA (sm_fid sm) 0 ins), s, [])
  | Some ws =>
      match args with
      | GPtr l o :: args =>
          let* ins := sum_ins s (Some (l, o, total ws)) (sm_pars sm) args in
          let* s' := put_ps s l o (total ws) (out_ps (sm_fid sm) 0 ins o ws) in
          Some (GInt (SC 0), s', [(l, o, total ws)])
      | _ => None
      end
  end.

Fixpoint se (sums : list (positive * summary)) (fuel : nat) (s : gst sx) (c : stmt) : option (sout * gst sx * writes) :=
  match fuel with
  | O => None
  | S fuel =>
    match c with
    | SSkip => Some (SoN, s, [])
    | SSeq a b =>
        let* (o, s, w) := se sums fuel s a in
        match o with SoN => let* (o, s, w') := se sums fuel s b in Some (o, s, w ++ w') | _ => Some (o, s, w) end
    | SSet x a | SShow x a => let* v := sev s a in Some (SoN, set_env s x v, [])
    | SStore n p a =>
        let* q := sev s p in let* v := sev s a in let* x := as_int v in
        match q with
        | GPtr l o => let* s' := put_ps s l o (Z.of_nat n) [PI o n (mku OCast (IT false (8 * Z.of_nat n)) x)] in Some (SoN, s', [(l, o, Z.of_nat n)])
        | _ => None
        end
    | SStoreP p a =>
        let* q := sev s p in let* v := sev s a in
        match q with
        | GPtr l o => let* s' := put_ps s l o 1 [PP o v] in Some (SoN, s', [(l, o, 1)])
        | _ => None
        end
    | SStoreF p nf f a =>
        let* q := sev s p in let* v := sev s a in
        match q with
        | GPtr l o =>
            let* lc := locat s l in
            if lz lc then let* s' := put_ps s l (o * nf + f) 1 [PP (o * nf + f) v] in Some (SoN, s', [(l, o * nf + f, 1)]) else None
        | _ => None
        end
    | SIf c a b => let* v := sev s c in let* x := as_con v in if x =? 0 then se sums fuel s b else se sums fuel s a
    | SLoop c inc body =>
        let* v := sev s c in let* x := as_con v in
        if x =? 0 then Some (SoN, s, [])
        else
          let* (o, s, w) := se sums fuel s body in
          match o with
          | SoB => Some (SoN, s, w)
          | SoR _ => Some (o, s, w)
          | _ =>
              let* (o, s, w') := se sums fuel s inc in
              match o with
              | SoN => let* (o, s, w'') := se sums fuel s (SLoop c inc body) in Some (o, s, w ++ w' ++ w'')
              | _ => None
              end
          end
    | SBreak => Some (SoB, s, [])
    | SContinue => Some (SoC, s, [])
    | SReturn a => let* v := sev s a in Some (SoR v, s, [])
    | SCall d f args =>
        let* vs := mapo (sev s) args in
        match assoc f sums with
        | Some sm =>
            match d, sm_out sm with
            | Some _, Some _ => None
            | _, _ => let* (v, s', w) := summarise s sm vs in Some (SoN, set_opt s' d v, w)
            end
        | None =>
            let* fn := PositiveMap.find f code in
            let* ps := zip_params (fparams fn) vs [] in
            let* (o, s', w) := se sums fuel (with_env s ps) (fbody fn) in
            match o with
            | SoR v => Some (SoN, set_opt (with_env s' (genv s)) d v, w)
            | SoN => Some (SoN, set_opt (with_env s' (genv s)) d GNull, w)
            | _ => None
            end
        end
    | SAlloc x n =>
        let* v := sev s n in let* z := as_con v in
        if 0 <=? z
        then Some (SoN, St ((x, GPtr (length (gheap s)) 0) :: genv s) (gglob s) (galias s) (gheap s ++ [Loc true false z (zeros 0 z)]), [])
        else None
    | SCopy d p n =>
        let* q := sev s d in let* r := sev s p in let* v := sev s n in let* z := as_con v in
        match q, r with
        | GPtr l o, GPtr l' o' =>
            let* lc := locat s l' in
            if (0 <=? o') && (0 <=? z) && (o' + z <=? lsize lc)
            then let* s' := put_ps s l o z (copied o' z o (lps lc)) in Some (SoN, s', [(l, o, z)])
            else None
        | _, _ => None
        end
    | SFill d a n =>
        let* q := sev s d in let* v := sev s a in let* x := as_con v in let* w := sev s n in let* z := as_con w in
        match q with
        | GPtr l o =>
            if x =? 0 then let* s' := put_ps s l o z (zeros o z) in Some (SoN, s', [(l, o, z)]) else None
        | _ => None
        end
    | SEval a => let* v := sev s a in Some (SoN, s, [])
    | SPublic _ _ _ | SFail => None
    end
  end.

Lemma decode_encode n v : decode (encode n v) = wrap (IT false (8 * Z.of_nat n)) v.
Proof.
  unfold wrap. cbn [andb]. rewrite Z.land_ones by lia. revert v. induction n as [|n IH]; intros v; cbn [encode decode].
  - cbn. symmetry. apply Z.mod_1_r.
  - rewrite IH. change 255 with (Z.ones 8). rewrite Z.land_ones by lia. rewrite Z.shiftr_div_pow2 by lia.
    replace (8 * Z.of_nat (S n)) with (8 + 8 * Z.of_nat n) by lia. rewrite Z.pow_add_r by lia. change (2 ^ 8) with 256.
    rewrite Z.rem_mul_r by (try lia; apply Z.pow_pos_nonneg; lia). reflexivity.
Qed.
Lemma encode_length n v : length (encode n v) = n.
Proof. revert v. induction n as [|n IH]; intros v; cbn; [reflexivity|]. rewrite IH. reflexivity. Qed.
Lemma encode_bytes n : forall v i, isbyte (nth i (encode n v) 0).
Proof.
  induction n as [|n IH]; intros v i; cbn [encode]; [destruct i; cbn; unfold isbyte; lia|].
  destruct i; cbn [nth]; [|apply IH]. change 255 with (Z.ones 8). rewrite Z.land_ones by lia. unfold isbyte.
  apply Z.mod_pos_bound. lia.
Qed.
Lemma bytesat_eq m m' b o b' o' n : (forall i, 0 <= i < Z.of_nat n -> byte m b (o + i) = byte m' b' (o' + i)) -> bytesat m b o n = bytesat m' b' o' n.
Proof.
  revert o o'. induction n as [|n IH]; intros o o' H; cbn [bytesat]; [reflexivity|]. f_equal.
  - specialize (H 0 ltac:(lia)). rewrite !Z.add_0_r in H. exact H.
  - apply IH. intros i Hi. specialize (H (i + 1) ltac:(lia)). replace (o + 1 + i) with (o + (i + 1)) by lia. replace (o' + 1 + i) with (o' + (i + 1)) by lia. exact H.
Qed.
Lemma bytesat_setb m b o l : inb m b o (Z.of_nat (length l)) -> bytesat (setb m b o l) b o (length l) = l.
Proof.
  intros I. apply (nth_ext _ _ 0 0); [apply bytesat_length|]. rewrite bytesat_length. intros i Hi. rewrite nth_bytesat by exact Hi.
  pose proof I as (_ & P & _). rewrite byte_setb by (assumption || lia). rewrite Pos.eqb_refl.
  destruct (Z.leb_spec o (o + Z.of_nat i)); [|lia]. destruct (Z.ltb_spec (o + Z.of_nat i) (o + Z.of_nat (length l))); [|lia]. cbn [andb].
  f_equal. lia.
Qed.

Section Exec.
Context (phi : nat -> list Z -> list Z) (rho : nat -> Z).
Let D := den phi rho.

Lemma wrap_word w z : 0 <= w -> w <= 64 -> word (wrap (IT false w) z).
Proof.
  intros A B. unfold wrap, word. cbn [andb]. rewrite Z.land_ones by exact A. pose proof (Z.mod_pos_bound z (2 ^ w) ltac:(apply Z.pow_pos_nonneg; lia)).
  pose proof (Z.pow_le_mono_r 2 w 64 ltac:(lia) B). lia.
Qed.
Lemma b2z_word b : word (b2z b). Proof. destruct b; unfold word, b2z; lia. Qed.
Lemma word_mod z : word z <-> z mod 2 ^ 64 = z.
Proof.
  unfold word. split; [apply Z.mod_small|]. intros <-. apply Z.mod_pos_bound. lia.
Qed.
Lemma word_testbit z : 0 <= z -> (forall i, 64 <= i -> Z.testbit z i = false) -> word z.
Proof.
  intros A H. apply word_mod. rewrite <- Z.land_ones by lia. apply Z.bits_inj'. intros i Hi. rewrite Z.land_spec.
  destruct (Z.ltb_spec i 64); [rewrite Z.ones_spec_low by lia; apply andb_true_r|]. rewrite H by lia. reflexivity.
Qed.
Lemma testbit_word z i : word z -> 64 <= i -> Z.testbit z i = false.
Proof. intros W H. apply word_mod in W. rewrite <- W, <- Z.land_ones by lia. rewrite Z.land_spec, (Z.ones_spec_high 64 i) by lia. apply andb_false_r. Qed.
Lemma is64_ok (Hphi : forall f xs k, word (nth k (phi f xs) 0)) (Hrho : forall i, word (rho i)) x : is64 x = true -> word (D x).
Proof.
  unfold D. induction x as [z|i|o [s w] a IH|o [s w] a IHa b IHb|o [s w] a IHa b IHb|f k l]; cbn [is64 den]; intros H.
  - unfold word. lia.
  - apply Hrho.
  - destruct o; cbn [un]; try apply b2z_word; (destruct s; [discriminate|]; apply wrap_word; lia).
  - destruct o; cbn [bin]; try apply b2z_word; try (destruct s; [discriminate|]; apply wrap_word; lia);
      apply andb_true_iff in H; destruct H as [H1 H2]; specialize (IHa H1); specialize (IHb H2); unfold word in IHa, IHb;
      (apply word_testbit; [first [apply Z.land_nonneg; lia|apply Z.lor_nonneg; lia|apply Z.lxor_nonneg; lia|apply Z.shiftr_nonneg; lia]|]); intros i Hi;
      rewrite ?Z.land_spec, ?Z.lor_spec, ?Z.lxor_spec, ?Z.shiftr_spec by lia; rewrite !testbit_word by (assumption || lia); reflexivity.
  - unfold div. destruct s; [discriminate|]. apply wrap_word; lia.
  - apply Hphi.
Qed.

Lemma piece_frame L m m' S b base size p : 0 <= base -> frame m m' S -> (b < mnext m)%positive ->
  (forall q, base + fst (prange p) <= q < base + fst (prange p) + snd (prange p) -> ~ S b q) ->
  piece_ok D L m b base size p -> piece_ok D L m' b base size p.
Proof.
  intros B F N H. destruct p as [o n x|o v]; cbn [piece_ok prange fst snd] in *.
  - intros (P1 & P2 & P3 & P4).
    assert (E : forall i, base + o <= i < base + o + Z.of_nat n -> byte m' b i = byte m b i).
    { intros i Hi. eapply byte_frame; [exact F|exact N|lia|]. apply H. exact Hi. }
    split; [exact P1|]. split; [exact P2|]. split.
    + intros i Hi. rewrite E by exact Hi. apply P3. exact Hi.
    + rewrite <- P4. f_equal. apply bytesat_eq. intros i Hi. apply E. lia.
  - intros (P1 & P2 & P3). split; [exact P1|]. split; [exact P2|]. rewrite <- P3. destruct F as (_ & _ & F). apply F; [exact N|lia|]. apply H. lia.
Qed.
Lemma setnth_length {A} (l : list A) i x : length (setnth l i x) = length l.
Proof. revert i. induction l; intros [|i]; cbn; auto. Qed.
Lemma nth_setnth {A} (l : list A) i x j d : (i < length l)%nat -> nth j (setnth l i x) d = if Nat.eqb j i then x else nth j l d.
Proof.
  revert i j. induction l as [|y l IH]; intros i j H; cbn in H; [lia|]. destruct i, j; cbn; try reflexivity. apply IH. lia.
Qed.
Lemma nth_nth_error {A} (l : list A) i x d : nth_error l i = Some x -> nth i l d = x.
Proof. revert i. induction l; intros [|i]; cbn; try discriminate; intros E; [congruence|auto]. Qed.
Lemma F2_intro {A B} (R : A -> B -> Prop) l l' d d' : length l = length l' -> (forall i, (i < length l)%nat -> R (nth i l d) (nth i l' d')) -> Forall2 R l l'.
Proof.
  revert l'. induction l as [|x l IH]; intros [|y l'] E H; cbn in E; try discriminate; [constructor|]. constructor.
  - apply (H 0%nat). cbn. lia.
  - apply IH; [lia|]. intros i Hi. apply (H (S i)). cbn. lia.
Qed.
Lemma F2_impl {A B} (R R' : A -> B -> Prop) l l' : (forall a b, R a b -> R' a b) -> Forall2 R l l' -> Forall2 R' l l'.
Proof. intros H. induction 1; constructor; auto. Qed.
Lemma F2_elim {A B} (R : A -> B -> Prop) l l' d d' : Forall2 R l l' -> forall i, (i < length l)%nat -> R (nth i l d) (nth i l' d').
Proof. induction 1; intros [|i] Hi; cbn in *; try lia; auto. apply IHForall2. lia. Qed.

Lemma loc_frame L m m' S bb lc : frame m m' S -> (forall q, snd bb <= q < snd bb + lsize lc -> ~ S (fst bb) q) ->
  loc_ok D L m bb lc -> loc_ok D L m' bb lc.
Proof.
  intros F H (I & Z0 & P). pose proof I as (N & B & _). split; [eapply inb_frame; eassumption|]. split; [exact Z0|].
  eapply Forall_impl; [|exact P]. intros p K. eapply piece_frame; [exact B|exact F|exact N| |exact K].
  intros q Hq. apply H. destruct p; cbn in *; destruct K as (K1 & K2 & _); lia.
Qed.

Lemma put_ok L s e m m' l o n np s' : sat D L s e m -> put_ps s l o n np = Some s' ->
  frame m m' (at_ (fst (lat L l)) (snd (lat L l) + o) n) ->
  (forall lc, locat s l = Some lc -> Forall (piece_ok D L m' (fst (lat L l)) (snd (lat L l)) (lsize lc)) np) ->
  sat D L s' e m' /\ (l < length L)%nat.
Proof.
  intros S E F H. unfold put_ps in E. destruct (locat s l) as [lc|] eqn:El; [|discriminate]. cbn [olet] in E.
  destruct ((0 <=? o) && (0 <=? n) && (o + n <=? lsize lc) && negb (lro lc)) eqn:R; [|discriminate]. injection E as <-.
  destruct (locat_ok _ _ _ _ _ _ _ _ S El) as [Nl Ol]. split; [|exact Nl]. pose proof (H _ eq_refl) as Hnp.
  pose proof (sat_heap _ _ _ _ _ S) as Hh. pose proof (F2_length _ _ _ Hh) as Elen.
  assert (Enth : nth l (gheap s) (Loc false false 0 []) = lc) by (apply nth_nth_error; exact El).
  constructor; cbn [genv gglob galias gheap].
  - exact (sat_env _ _ _ _ _ S).
  - exact (sat_glob _ _ _ _ _ S).
  - exact (sat_alias _ _ _ _ _ S).
  - apply (F2_intro _ _ _ (1%positive, 0) (Loc false false 0 [])); [rewrite setnth_length; exact Elen|]. intros i Hi.
    rewrite nth_setnth by lia. destruct (Nat.eqb_spec i l) as [->|N].
    + destruct Ol as (I & Z0 & P). pose proof I as (Nx & B & _). split; [eapply inb_frame; eassumption|]. split; [exact Z0|].
      cbn [lps lsize]. apply Forall_app. split; [exact Hnp|]. apply Forall_forall. intros p Hp. apply filter_In in Hp. destruct Hp as [Hp A].
      rewrite Forall_forall in P. specialize (P _ Hp). eapply piece_frame; [exact B|exact F|exact Nx| |exact P].
      unfold away in A. destruct p; cbn [prange fst snd] in *; unfold at_; intros q Hq [_ Hq2]; unfold lat in *; lia.
    + pose proof (F2_elim _ _ _ (1%positive, 0) (Loc false false 0 []) Hh i Hi) as K. eapply loc_frame; [exact F| |exact K].
      pose proof (sat_apart _ _ _ _ _ S i l ltac:(lia) ltac:(lia) N) as A. rewrite Enth in A.
      specialize (A ltac:(destruct (lro lc); [lia|apply andb_false_r])). unfold sep, lat in A. unfold at_, lat.
      intros q Hq [Q1 Q2]. destruct A as [A|A]; [congruence|]. lia.
  - intros i j Hi Hj N. rewrite setnth_length in Hi, Hj. pose proof (sat_apart _ _ _ _ _ S i j Hi Hj N) as A.
    rewrite !nth_setnth by lia. destruct (Nat.eqb_spec i l) as [->|], (Nat.eqb_spec j l) as [->|]; cbn [lsize lro]; rewrite ?Enth in A; exact A.
Qed.

Lemma set_env_ok L s e m x v : sat D L s e m -> okv L v -> sat D L (set_env s x v) (PositiveMap.add x (cv D L v) e) m.
Proof.
  intros S O. constructor; cbn [set_env genv gglob galias gheap]; try apply S. intros y w. cbn [assoc]. rewrite lookup_add.
  destruct (Pos.eqb_spec y x) as [->|N]; [|apply (sat_env _ _ _ _ _ S)]. intros E. injection E as <-. split; [exact O|reflexivity].
Qed.

(** more memory *)
Definition ext (m : mem) (L L' : locs) : Prop := exists R, L' = L ++ R /\ Forall (fun bb => (mnext m <= fst bb)%positive) R.
Lemma ext_refl m L : ext m L L.
Proof. exists []. rewrite app_nil_r. split; [reflexivity|constructor]. Qed.
Lemma ext_trans m m1 L L1 L2 : (mnext m <= mnext m1)%positive -> ext m L L1 -> ext m1 L1 L2 -> ext m L L2.
Proof.
  intros H (R & -> & F) (R' & -> & F'). exists (R ++ R'). rewrite app_assoc. split; [reflexivity|]. apply Forall_app. split; [exact F|].
  eapply Forall_impl; [|exact F']. intros bb K. cbn in *. lia.
Qed.
Lemma lat_ext m L L' l : ext m L L' -> (l < length L)%nat -> lat L' l = lat L l.
Proof. intros (R & -> & _) H. unfold lat. apply app_nth1. exact H. Qed.
Lemma okv_ext {X} m L L' (v : gv X) : ext m L L' -> okv L v -> okv L' v.
Proof. intros (R & -> & _). destruct v; cbn; auto. rewrite app_length. lia. Qed.
Lemma cv_ext m L L' v : ext m L L' -> okv L v -> cv D L' v = cv D L v.
Proof. intros E. destruct v; cbn; auto. intros H. rewrite (lat_ext _ _ _ _ E H). reflexivity. Qed.
Lemma env_ext m L L' e l : ext m L L' -> env_ok D L e l -> env_ok D L' e l.
Proof. intros E H x v A. destruct (H x v A) as [O C]. split; [eapply okv_ext; eassumption|]. rewrite (cv_ext _ _ _ _ E O). exact C. Qed.
Lemma piece_ext m0 L L' m b base size p : ext m0 L L' -> piece_ok D L m b base size p -> piece_ok D L' m b base size p.
Proof.
  intros E. destruct p as [|o v]; cbn [piece_ok]; auto. intros (A & B & C). split; [exact A|]. split; [eapply okv_ext; eassumption|].
  rewrite (cv_ext _ _ _ _ E B). exact C.
Qed.

Definition wset (L : locs) (w : writes) (b : positive) (p : Z) : Prop :=
  exists l o n, In (l, o, n) w /\ (l < length L)%nat /\ at_ (fst (lat L l)) (snd (lat L l) + o) n b p.
Lemma wset_app L w w' b p : wset L (w ++ w') b p <-> wset L w b p \/ wset L w' b p.
Proof.
  unfold wset. split.
  - intros (l & o & n & H & K). apply in_app_iff in H. destruct H as [H|H]; [left|right]; exists l, o, n; auto.
  - intros [(l & o & n & H & K)|(l & o & n & H & K)]; exists l, o, n; (split; [apply in_app_iff; auto|exact K]).
Qed.
Lemma wset_ext m L L' w b p : ext m L L' -> (b < mnext m)%positive -> wset L' w b p -> wset L w b p.
Proof.
  intros E B (l & o & n & H & K & A). exists l, o, n. split; [exact H|]. destruct (Nat.ltb_spec l (length L)) as [N|N].
  - rewrite (lat_ext _ _ _ _ E N) in A. split; [exact N|exact A].
  - exfalso. destruct E as (R & -> & F). unfold lat in A. rewrite app_nth2 in A by lia. rewrite app_length in K.
    rewrite Forall_forall in F. specialize (F (nth (l - length L) R (1%positive, 0)) ltac:(apply nth_In; lia)). destruct A as [A _]. lia.
Qed.
Lemma frame_wset m m1 m2 L L1 w w' : ext m L L1 -> frame m m1 (wset L w) -> frame m1 m2 (wset L1 w') -> frame m m2 (wset L (w ++ w')).
Proof.
  intros E F F'. eapply frame_comp; [eapply frame_weak; [exact F|]|exact F'|].
  - intros b o _ _ H. apply wset_app. left. exact H.
  - intros b o B _ H. apply wset_app. right. eapply wset_ext; eassumption.
Qed.

(** new arrays *)
Lemma zps_ok L m b base size w : 0 <= base -> (forall i, base <= i -> byte m b i = 0) -> forall k o, 0 <= o -> o + Z.of_nat k * Z.of_nat w <= size ->
  Forall (piece_ok D L m b base size) (zps k w o (SC 0)).
Proof.
  intros B H. assert (Z0 : forall n o, base <= o -> decode (bytesat m b o n) = 0).
  { induction n as [|n IH]; intros o Ho; cbn [bytesat decode]; [reflexivity|]. rewrite IH, H by lia. reflexivity. }
  induction k as [|k IH]; intros o Ho Hs; cbn [zps]; constructor.
  - split; [exact Ho|]. split; [nia|]. split; [|apply Z0; lia]. intros i Hi. rewrite H by lia. unfold isbyte. lia.
  - apply IH; [lia|]. nia.
Qed.
Lemma zeros_ok L m b base size o n : 0 <= base -> (forall i, base + o <= i < base + o + n -> byte m b i = 0) -> 0 <= o -> 0 <= n -> o + n <= size ->
  Forall (piece_ok D L m b base size) (zeros o n).
Proof.
  intros B H O N S. unfold zeros. destruct (2048 <? n); [constructor|].
  assert (G : forall w k o', o <= o' -> o' + Z.of_nat k * Z.of_nat w <= o + n -> Forall (piece_ok D L m b base size) (zps k w o' (SC 0))).
  { intros w k. assert (Z0 : forall j q, base + o <= q -> q + Z.of_nat j <= base + o + n -> decode (bytesat m b q j) = 0).
    { induction j as [|j IH]; intros q Hq Hq'; cbn [bytesat decode]; [reflexivity|]. rewrite IH, H by lia. reflexivity. }
    induction k as [|k IH]; intros o' Ho Hs; cbn [zps]; constructor.
    - split; [lia|]. split; [nia|]. split; [|apply Z0; nia]. intros i Hi. rewrite H by nia. unfold isbyte. lia.
    - apply IH; nia. }
  destruct (Z.eqb_spec (n mod 8) 0) as [M|M].
  - apply G; [lia|]. pose proof (Z.div_mod n 8 ltac:(lia)). assert (0 <= n / 8) by (apply Z.div_pos; lia). lia.
  - apply G; lia.
Qed.
Lemma alloc_ok L s e m x z : sat D L s e m -> 0 <= z ->
  sat D (L ++ [(mnext m, 0)]) (St ((x, GPtr (length (gheap s)) 0) :: genv s) (gglob s) (galias s) (gheap s ++ [Loc true false z (zeros 0 z)]))
    (PositiveMap.add x (VPtr (mnext m) 0) e) (fresh m z (PositiveMap.empty value)).
Proof.
  intros S Z0. set (m' := fresh m z (PositiveMap.empty value)).
  assert (E : ext m L (L ++ [(mnext m, 0)])) by (eexists; split; [reflexivity|]; repeat constructor; cbn; lia).
  pose proof (sat_heap _ _ _ _ _ S) as Hh. pose proof (F2_length _ _ _ Hh) as El.
  assert (La : lat (L ++ [(mnext m, 0)]) (length L) = (mnext m, 0)) by (unfold lat; rewrite app_nth2, Nat.sub_diag by lia; reflexivity).
  assert (F : frame m m' nothing) by apply frame_fresh.
  constructor; cbn [genv gglob galias gheap].
  - intros y w. cbn [assoc]. rewrite lookup_add. destruct (Pos.eqb_spec y x) as [->|N].
    + intros Q. injection Q as <-. cbn [okv cv]. rewrite app_length. cbn [length]. split; [lia|]. rewrite <- El, La. reflexivity.
    + apply (env_ext _ _ _ _ _ E (sat_env _ _ _ _ _ S)).
  - eapply Forall_impl; [|exact (sat_glob _ _ _ _ _ S)]. intros [g v] [O C]. split; [eapply okv_ext; eassumption|]. rewrite (cv_ext _ _ _ _ E O). exact C.
  - eapply Forall_impl; [|exact (sat_alias _ _ _ _ _ S)]. intros a (A & O & C). rewrite app_length. split; [lia|]. split; [eapply okv_ext; eassumption|].
    rewrite (cv_ext _ _ _ _ E O), (lat_ext _ _ _ _ E A). exact C.
  - apply Forall2_app.
    + eapply F2_impl; [|exact Hh]. cbv beta. intros bb lc K. eapply loc_frame in K; [|exact F|intros ? ? []].
      destruct K as (K1 & K2 & K3). split; [exact K1|]. split; [exact K2|]. eapply Forall_impl; [|exact K3]. intros p. eapply piece_ext. exact E.
    + constructor; [|constructor]. split; [apply inb_fresh; cbn; lia|]. split; [reflexivity|]. cbn [lps lsize fst snd].
      apply zeros_ok; try lia. intros i Hi. unfold byte, cell, m', fresh. cbn [mblocks]. rewrite PositiveMap.gss. unfold get. cbn [bcells].
      rewrite PositiveMap.gempty. reflexivity.
  - intros i j Hi Hj N. rewrite app_length in Hi, Hj. cbn [length] in Hi, Hj.
    assert (O : forall i, (i < length L)%nat -> (fst (lat L i) < mnext m)%positive).
    { intros k Hk. destruct (F2_elim _ _ _ (1%positive, 0) (Loc false false 0 []) Hh k Hk) as ((Q & _) & _). exact Q. }
    destruct (Nat.ltb_spec i (length L)), (Nat.ltb_spec j (length L)).
    + rewrite !(lat_ext _ _ _ _ E) by assumption. rewrite !app_nth1 by lia. apply (sat_apart _ _ _ _ _ S); lia.
    + left. replace j with (length L) by lia. rewrite La, (lat_ext _ _ _ _ E) by assumption. specialize (O i ltac:(assumption)). cbn. lia.
    + left. replace i with (length L) by lia. rewrite La, (lat_ext _ _ _ _ E) by assumption. specialize (O j ltac:(assumption)). cbn. lia.
    + lia.
Qed.

(** ** Summaries *)
Fixpoint arr (m : mem) (b : positive) (o : Z) (ws : list nat) (xs : list Z) : Prop :=
  match ws, xs with
  | [], [] => True
  | w :: ws, x :: xs => inb m b o (Z.of_nat w) /\ isbytes m b o (Z.of_nat w) /\ decode (bytesat m b o w) = x /\ arr m b (o + Z.of_nat w) ws xs
  | _, _ => False
  end.
Fixpoint ins_ok (m : mem) (out : option (positive * Z * Z)) (ps : list par) (vs : list value) (xs : list Z) : Prop :=
  match ps, vs with
  | [], [] => xs = []
  | PInt :: ps, VInt z :: vs => exists r, xs = z :: r /\ word z /\ ins_ok m out ps vs r
  | PIn ws :: ps, VPtr b o :: vs =>
      exists ys r, xs = ys ++ r /\ arr m b o ws ys /\
        (match out with Some (b', o', n) => sep b o (total ws) b' o' n | None => True end) /\ ins_ok m out ps vs r
  | PGlob g ws cs :: ps, vs =>
      arr m g 0 ws cs /\ (match out with Some (b', o', n) => sep g 0 (total ws) b' o' n | None => True end) /\ ins_ok m out ps vs xs
  | _, _ => False
  end.
Definition spec_ok (fs : positive * summary) : Prop :=
  let '(f, sm) := fs in
  match sm_out sm with
  | None => forall m vs xs, ins_ok m None (sm_pars sm) vs xs ->
      calls code f vs m (fun v m' => frame m m' nothing /\ v = VInt (nth 0 (phi (sm_fid sm) xs) 0))
  | Some ws => forall m b o vs xs, inb m b o (total ws) -> ins_ok m (Some (b, o, total ws)) (sm_pars sm) vs xs ->
      calls code f (VPtr b o :: vs) m (fun v m' => frame m m' (at_ b o (total ws)) /\
        arr m' b o ws (map (fun k => nth k (phi (sm_fid sm) xs) 0) (seq 0 (length ws))))
  end.

Ltac osp := repeat match goal with
  | H : olet ?o _ = Some _ |- _ => let v := fresh "v" in let E := fresh "E" in destruct o as [v|] eqn:E; [cbn [olet] in H|discriminate H]
  end.

Lemma read_ws_ok L m b base size ps : inb m b base size -> Forall (piece_ok D L m b base size) ps -> forall ws o xs, read_ws ps o ws = Some xs ->
  arr m b (base + o) ws (map D xs).
Proof.
  intros I F. induction ws as [|w ws IH]; intros o xs E; cbn [read_ws] in E; [injection E as <-; exact Logic.I|].
  osp. injection E as <-. destruct (find_pi_ok _ _ _ _ _ _ _ _ _ _ _ F E0) as (A & B & C & G). cbn [arr map].
  split; [eapply inb_sub; [exact I|lia..]|]. split; [exact C|]. split; [exact G|]. rewrite <- Z.add_assoc. apply IH. exact E1.
Qed.
Lemma glob_ok L s e m out : sat D L s e m ->
  (forall l o n, out = Some (l, o, n) -> exists lc, locat s l = Some lc /\ 0 <= o /\ o + n <= lsize lc /\ lro lc = false) ->
  forall g ws cs ps args ins,
  (forall args ins, sum_ins s out ps args = Some ins -> ins_ok m (match out with Some (l, o, n) => Some (fst (lat L l), snd (lat L l) + o, n) | None => None end) ps (map (cv D L) args) (map D ins)) ->
  sum_ins s out (PGlob g ws cs :: ps) args = Some ins ->
  ins_ok m (match out with Some (l, o, n) => Some (fst (lat L l), snd (lat L l) + o, n) | None => None end) (PGlob g ws cs :: ps) (map (cv D L) args) (map D ins).
Proof.
  intros S Ho g ws cs ps args ins IH E. cbn [sum_ins] in E.
  assert (E' : (let* v := assoc g (gglob s) in match v with
      | GPtr l 0 => let* lc := locat s l in
          if (total ws <=? lsize lc) && match out with Some (l', _, _) => negb (Nat.eqb l l') | None => true end
          then let* xs := read_ws (lps lc) 0 ws in if lsx_eqb xs (map SC cs) then sum_ins s out ps args else None else None
      | _ => None end) = Some ins) by (destruct args as [|[]]; exact E).
  clear E. rename E' into E. osp. pose proof (assoc_ok (fun g v => okv L v /\ cv D L v = VPtr g 0) _ _ _ (sat_glob _ _ _ _ _ S) E0) as [_ B].
  destruct v as [|l [| |]|]; try discriminate. osp.
  match type of E with (if ?c then _ else _) = _ => destruct c eqn:C; [|discriminate] end. osp.
  destruct (lsx_eqb v0 (map SC cs)) eqn:Q; [|discriminate]. apply lsx_eqb_eq in Q. subst v0.
  destruct (locat_ok _ _ _ _ _ _ _ _ S E1) as (Nl & I & _ & F). cbn [cv] in B. injection B as B1 B2.
  assert (G : arr m g 0 ws cs).
  { pose proof (read_ws_ok _ _ _ _ _ _ I F _ _ _ E2) as G. rewrite B1, B2 in G. rewrite map_map in G. replace (map (fun x => D (SC x)) cs) with cs in G by (symmetry; apply map_id). exact G. }
  assert (G2 : match out with Some (l', o, n) => sep g 0 (total ws) (fst (lat L l')) (snd (lat L l') + o) n | None => True end).
  { destruct out as [[[l' o'] n]|]; [|exact Logic.I]. destruct (Ho _ _ _ eq_refl) as (lc' & El' & P1 & P2 & P3).
    apply andb_true_iff in C. destruct C as [C1 C2]. apply negb_true_iff, Nat.eqb_neq in C2. pose proof (F2_length _ _ _ (sat_heap _ _ _ _ _ S)) as El.
    destruct (locat_ok _ _ _ _ _ _ _ _ S El') as (Nl' & _). pose proof (sat_apart _ _ _ _ _ S l l' ltac:(lia) ltac:(lia) C2) as A.
    rewrite (nth_nth_error _ _ _ _ E1), (nth_nth_error _ _ _ _ El'), P3, andb_false_r in A. specialize (A eq_refl). unfold sep in *.
    rewrite B1 in A. destruct A as [A|A]; [left; exact A|right; lia]. }
  specialize (IH _ _ E). cbn [ins_ok]. destruct out as [[[l' o'] n]|]; destruct (map (cv D L) args) as [|[]]; repeat split; assumption.
Qed.
Lemma sum_ins_ok (Hphi : forall f xs k, word (nth k (phi f xs) 0)) (Hrho : forall i, word (rho i)) L s e m out : sat D L s e m ->
  (forall l o n, out = Some (l, o, n) -> exists lc, locat s l = Some lc /\ 0 <= o /\ o + n <= lsize lc /\ lro lc = false) ->
  forall ps args ins, sum_ins s out ps args = Some ins ->
  ins_ok m (match out with Some (l, o, n) => Some (fst (lat L l), snd (lat L l) + o, n) | None => None end) ps (map (cv D L) args) (map D ins).
Proof.
  intros S Ho. induction ps as [|p ps IH]; intros [|v args] ins E; cbn [sum_ins] in E; try discriminate.
  - injection E as <-. reflexivity.
  - destruct p; try discriminate. eapply glob_ok; eassumption.
  - destruct p as [ws| |g ws cs]; [| |eapply glob_ok; eassumption].
    + destruct v as [|l o|]; try discriminate. osp.
      match type of E with (if ?c then _ else _) = _ => destruct c eqn:C; [|discriminate] end. osp. injection E as <-.
      destruct (locat_ok _ _ _ _ _ _ _ _ S E0) as (Nl & I & _ & F). cbn [map cv ins_ok].
      exists (map D v0), (map D v1). split; [apply map_app|]. split; [eapply read_ws_ok; eassumption|]. split; [|apply IH; assumption].
      destruct out as [[[l' o'] n]|]; [|exact Logic.I]. destruct (Ho _ _ _ eq_refl) as (lc' & El' & P1 & P2 & P3).
      apply andb_true_iff in C. destruct C as [C1 C2]. apply orb_true_iff in C2. destruct C2 as [C2|C2].
      * apply orb_true_iff in C2. destruct C2 as [C2|C2].
        -- apply negb_true_iff, Nat.eqb_neq in C2. pose proof (F2_length _ _ _ (sat_heap _ _ _ _ _ S)) as El.
           destruct (locat_ok _ _ _ _ _ _ _ _ S El') as (Nl' & _).
           pose proof (sat_apart _ _ _ _ _ S l l' ltac:(lia) ltac:(lia) C2) as A.
           rewrite (nth_nth_error _ _ _ _ E0), (nth_nth_error _ _ _ _ El'), P3, andb_false_r in A. specialize (A eq_refl). unfold sep in *. destruct A as [A|A]; [left; exact A|right; lia].
        -- unfold sep. destruct (Nat.eq_dec l l') as [<-|N]; [right; lia|].
           pose proof (F2_length _ _ _ (sat_heap _ _ _ _ _ S)) as El. destruct (locat_ok _ _ _ _ _ _ _ _ S El') as (Nl' & _).
           pose proof (sat_apart _ _ _ _ _ S l l' ltac:(lia) ltac:(lia) N) as A.
           rewrite (nth_nth_error _ _ _ _ E0), (nth_nth_error _ _ _ _ El'), P3, andb_false_r in A. specialize (A eq_refl). unfold sep in *. destruct A as [A|A]; [left; exact A|right; lia].
      * unfold sep. destruct (Nat.eq_dec l l') as [<-|N]; [right; lia|].
        pose proof (F2_length _ _ _ (sat_heap _ _ _ _ _ S)) as El. destruct (locat_ok _ _ _ _ _ _ _ _ S El') as (Nl' & _).
        pose proof (sat_apart _ _ _ _ _ S l l' ltac:(lia) ltac:(lia) N) as A.
        rewrite (nth_nth_error _ _ _ _ E0), (nth_nth_error _ _ _ _ El'), P3, andb_false_r in A. specialize (A eq_refl). unfold sep in *. destruct A as [A|A]; [left; exact A|right; lia].
    + osp. destruct v; try discriminate. cbn in E0. injection E0 as ->. destruct (is64 v0) eqn:W; [|discriminate]. osp. injection E as <-. cbn [map cv ins_ok].
      eexists. split; [reflexivity|]. split; [apply is64_ok; assumption|]. apply IH. exact E0.
Qed.
Lemma out_ps_ok L m b base size f ins : forall ws k o, 0 <= o -> o + total ws <= size ->
  arr m b (base + o) ws (map (fun k => nth k (phi f (map D ins)) 0) (seq k (length ws))) ->
  Forall (piece_ok D L m b base size) (out_ps f k ins o ws).
Proof.
  unfold total. induction ws as [|w ws IH]; intros k o P Q A; cbn [out_ps]; [constructor|].
  cbn [list_sum length seq map arr fold_right] in *. destruct A as (A1 & A2 & A3 & A4). constructor.
  - cbn [piece_ok]. split; [exact P|]. split; [lia|]. split; [exact A2|]. rewrite A3. reflexivity.
  - apply IH; [lia| |]. { change (fold_right Init.Nat.add 0%nat ws) with (list_sum ws) in Q. lia. } rewrite Z.add_assoc. exact A4.
Qed.

Definition co (L : locs) (o : sout) : outcome :=
  match o with SoN => ONormal | SoB => OBreak | SoC => OContinue | SoR v => OReturn (cv D L v) end.
Definition oko (L : locs) (o : sout) : Prop := match o with SoR v => okv L v | _ => True end.

Lemma copied_ok L m m' b base size b' base' size' o n o' ps : inb m b base size -> inb m b' base' size' -> 0 <= o -> 0 <= o' -> o' + n <= size' ->
  (forall i, 0 <= i < n -> byte m' b' (base' + o' + i) = byte m b (base + o + i)) ->
  Forall (piece_ok D L m b base size) ps -> Forall (piece_ok D L m' b' base' size') (copied o n o' ps).
Proof.
  intros I I' O O' S H. induction ps as [|p ps IH]; intros F; cbn [copied]; [constructor|]. inversion F as [|? ? Hp F']; subst.
  destruct p as [q w x|]; [|auto]. destruct ((o <=? q) && (q + Z.of_nat w <=? o + n)) eqn:C; [|auto]. constructor; [|auto].
  destruct Hp as (A & B & C1 & C2). cbn [piece_ok]. split; [lia|]. split; [lia|].
  assert (E : forall i, 0 <= i < Z.of_nat w -> byte m' b' (base' + (q - o + o') + i) = byte m b (base + q + i)).
  { intros i Hi. specialize (H (q - o + i) ltac:(lia)). replace (base' + (q - o + o') + i) with (base' + o' + (q - o + i)) by lia. rewrite H. f_equal. lia. }
  split.
  - intros i Hi. replace i with (base' + (q - o + o') + (i - (base' + (q - o + o')))) by lia. rewrite E by lia. apply C1. lia.
  - rewrite <- C2. f_equal. apply bytesat_eq. exact E.
Qed.

Lemma mapo_ok L s e m : sat D L s e m -> forall args vs, mapo (sev s) args = Some vs -> Forall (okv L) vs /\ pes e m args (map (cv D L) vs).
Proof.
  intros S. induction args as [|a args IH]; intros vs E; cbn [mapo] in E; [injection E as <-; split; [constructor|apply pes_nil]|].
  osp. injection E as <-. destruct (sev_ok _ _ _ _ _ _ S _ _ E0) as [O P]. destruct (IH _ eq_refl) as [Os Ps]. split; [constructor; assumption|].
  apply pes_cons; assumption.
Qed.
Lemma zip_ok L : forall ps vs acc e l, zip_params ps vs acc = Some l -> Forall (okv L) vs -> env_ok D L e acc ->
  env_ok D L (bind_params ps (map (cv D L) vs) e) l.
Proof.
  induction ps as [|p ps IH]; intros [|v vs] acc e l E O H; cbn [zip_params] in E; try discriminate; [injection E as <-; exact H|].
  inversion O; subst. cbn [map bind_params]. eapply IH; [exact E|assumption|]. intros y w. cbn [assoc]. rewrite lookup_add.
  destruct (Pos.eqb_spec y p) as [->|N]; [|apply H]. intros Q. injection Q as <-. split; [assumption|reflexivity].
Qed.
Lemma with_env_ok L s e m e' l : sat D L s e m -> env_ok D L e' l -> sat D L (with_env s l) e' m.
Proof. intros S H. constructor; cbn [with_env genv gglob galias gheap]; try apply S. exact H. Qed.
Lemma frame_wset1 m m' L l o n : (l < length L)%nat -> frame m m' (at_ (fst (lat L l)) (snd (lat L l) + o) n) -> frame m m' (wset L [(l, o, n)]).
Proof. intros N F. eapply frame_weak; [exact F|]. intros b p _ _ H. exists l, o, n. split; [left; reflexivity|]. split; assumption. Qed.
Lemma put_loc s l o n np s' : put_ps s l o n np = Some s' -> exists lc, locat s l = Some lc /\ 0 <= o /\ 0 <= n /\ o + n <= lsize lc /\ lro lc = false.
Proof.
  intros E. unfold put_ps in E. osp. match type of E with (if ?c then _ else _) = _ => destruct c eqn:C; [|discriminate] end.
  exists v. split; [reflexivity|]. destruct (lro v); [lia|]. lia.
Qed.
Lemma set_opt_ok L s e m d v : sat D L s e m -> okv L v -> sat D L (set_opt s d v) (set e d (cv D L v)) m.
Proof. intros S O. destruct d; cbn [set_opt set]; [apply set_env_ok; assumption|exact S]. Qed.

Lemma sat_frame L s e m m' : sat D L s e m -> frame m m' nothing -> sat D L s e m'.
Proof.
  intros S F. constructor; try apply S. eapply F2_impl; [|exact (sat_heap _ _ _ _ _ S)]. intros bb lc K.
  eapply loc_frame; [exact F|intros ? ? []|exact K].
Qed.
Lemma wp_unroll c inc body e m v Q : pe e m c v ->
  (if truth v then wp code body e m (fun o e m => match o with
       | ONormal | OContinue => wp code inc e m (fun o e m => o = ONormal /\ wp code (SLoop c inc body) e m Q)
       | OBreak => Q ONormal e m
       | OReturn _ => Q o e m end)
   else Q ONormal e m) -> wp code (SLoop c inc body) e m Q.
Proof.
  intros E H. eapply wp_of; [reflexivity|]. eapply ends_bind, ends_pure; [exact E|]. eapply ends_bind, ends_pure; [apply yields_tell|].
  destruct (truth v); [|apply ends_ret; exact H]. apply ends_bind. eapply ends_weak; [exact H|].
  assert (N : forall e' m', wp code inc e' m' (fun o e m => o = ONormal /\ wp code (SLoop c inc body) e m Q) ->
      ends (fun k => do (o, e, m) <- exec code k inc e' m'; match o with ONormal => exec code k (SLoop c inc body) e m | _ => fail end)
           (fun '(o, e, m) => Q o e m)).
  { intros e' m' W. apply ends_bind. eapply ends_weak; [exact W|]. intros [[o e2] m2] [-> J]. exact J. }
  intros [[o e'] m'] W. destruct o; [apply N; exact W|apply ends_ret; exact W|apply N; exact W|apply ends_ret; exact W].
Qed.

Theorem se_ok (Hphi : forall f xs k, word (nth k (phi f xs) 0)) (Hrho : forall i, word (rho i)) sums : Forall spec_ok sums -> forall fuel s c L e m o s' w, sat D L s e m -> se sums fuel s c = Some (o, s', w) ->
  wp code c e m (fun o' e' m' => exists L', ext m L L' /\ sat D L' s' e' m' /\ frame m m' (wset L w) /\ oko L' o /\ o' = co L' o).
Proof.
  intros SP. induction fuel as [|fuel IH]; intros s c L e m o s' w S E; [discriminate|].
  assert (T : forall a v, sev s a = Some v -> okv L v /\ pe e m a (cv D L v)) by (apply sev_ok; exact S).
  destruct c; cbn [se] in E.
  - (* skip *) injection E as <- <- <-. apply wp_skip. exists L. split; [apply ext_refl|]. split; [exact S|]. split; [apply frame_refl|]. split; [exact I|reflexivity].
  - (* sequence *)
    destruct (se sums fuel s c1) as [[[o1 s1] w1]|] eqn:E1; [|discriminate]. cbn [olet] in E. apply wp_seq.
    eapply wp_weak; [eapply IH; eassumption|]. intros o' e' m' (L1 & X1 & S1 & F1 & O1 & ->).
    destruct o1; cbn [co] in *; try (injection E as <- <- <-; exists L1; auto; fail).
    destruct (se sums fuel s1 c2) as [[[o2 s2] w2]|] eqn:E2; [|discriminate]. cbn [olet] in E. injection E as <- <- <-.
    eapply wp_weak; [eapply IH; eassumption|]. intros o' e2 m2 (L2 & X2 & S2 & F2 & O2 & ->). exists L2.
    split; [eapply ext_trans; [apply F1|exact X1|exact X2]|]. split; [exact S2|]. split; [eapply frame_wset; eassumption|]. auto.
  - (* assignment *) osp. injection E as <- <- <-. destruct (T _ _ E0) as [O P]. eapply wp_set; [exact P|]. exists L. split; [apply ext_refl|].
    split; [apply set_env_ok; assumption|]. split; [apply frame_refl|]. split; [exact I|reflexivity].
  - (* store *) osp. destruct v as [|l o0|]; try discriminate. osp. injection E as <- <- <-. destruct v0 as [x0| |]; try discriminate. cbn in E2. injection E2 as ->.
    destruct (T _ _ E0) as [_ P1]. destruct (T _ _ E1) as [_ P2]. destruct (put_loc _ _ _ _ _ _ E3) as (lc & El & B1 & B2 & B3 & B4).
    destruct (locat_ok _ _ _ _ _ _ _ _ S El) as (Nl & Il & _).
    assert (J : inb m (fst (lat L l)) (snd (lat L l) + o0) (Z.of_nat n)) by (eapply inb_sub; [exact Il|lia..]).
    eapply wp_store; [exact P1|exact P2|exact J|].
    assert (F : frame m (setb m (fst (lat L l)) (snd (lat L l) + o0) (encode n (D v1))) (at_ (fst (lat L l)) (snd (lat L l) + o0) (Z.of_nat n))).
    { pose proof (frame_setb m (fst (lat L l)) (snd (lat L l) + o0) (encode n (D v1))) as G. rewrite encode_length in G. apply G, J. }
    exists L. split; [apply ext_refl|]. split; [|split; [apply frame_wset1; assumption|split; [exact I|reflexivity]]].
    eapply put_ok; [exact S|exact E3|exact F|]. intros lc' Q. replace lc' with lc by congruence. constructor; [|constructor].
    assert (Ev : bytesat (setb m (fst (lat L l)) (snd (lat L l) + o0) (encode n (D v1))) (fst (lat L l)) (snd (lat L l) + o0) n = encode n (D v1)).
    { rewrite <- (encode_length n (D v1)) at 2. apply bytesat_setb. rewrite encode_length. exact J. }
    cbn [piece_ok]. split; [exact B1|]. split; [exact B3|]. split.
    + intros i Hi. replace i with (snd (lat L l) + o0 + Z.of_nat (Z.to_nat (i - (snd (lat L l) + o0)))) by lia.
      rewrite <- (nth_bytesat _ _ n) by lia. rewrite Ev. apply encode_bytes.
    + rewrite Ev, decode_encode. unfold D. rewrite den_mku. reflexivity.
  - (* store of a pointer *) osp. destruct v as [|l o0|]; try discriminate. osp. injection E as <- <- <-.
    destruct (T _ _ E0) as [_ P1]. destruct (T _ _ E1) as [O2 P2]. destruct (put_loc _ _ _ _ _ _ E2) as (lc & El & B1 & B2 & B3 & B4).
    destruct (locat_ok _ _ _ _ _ _ _ _ S El) as (Nl & Il & _). pose proof Il as (_ & Pb & _).
    assert (J : inb m (fst (lat L l)) (snd (lat L l) + o0) 1) by (eapply inb_sub; [exact Il|lia..]).
    eapply wp_storep; [exact P1|exact P2|exact J|].
    exists L. split; [apply ext_refl|]. assert (F := frame_setv _ _ _ (cv D L v0) J).
    split; [|split; [apply frame_wset1; assumption|split; [exact I|reflexivity]]].
    eapply put_ok; [exact S|exact E2|exact F|]. intros lc' Q. replace lc' with lc by congruence. constructor; [|constructor].
    cbn [piece_ok]. split; [lia|]. split; [exact O2|]. rewrite cell_setv by (exact J || lia). rewrite Pos.eqb_refl, Z.eqb_refl. reflexivity.
  - (* store in a field *) osp. destruct v as [|l o0|]; try discriminate. osp. destruct (lz v) eqn:Z0; [|discriminate]. osp. injection E as <- <- <-.
    destruct (T _ _ E0) as [_ P1]. destruct (T _ _ E1) as [O2 P2]. destruct (put_loc _ _ _ _ _ _ E3) as (lc & El & B1 & B2 & B3 & B4).
    replace lc with v in * by congruence.
    destruct (locat_ok _ _ _ _ _ _ _ _ S El) as (Nl & Il & I0 & _). specialize (I0 Z0). pose proof Il as (_ & Pb & _).
    assert (J : inb m (fst (lat L l)) (snd (lat L l) + (o0 * nf + f)) 1) by (eapply inb_sub; [exact Il|lia..]).
    assert (EQ : snd (lat L l) + (o0 * nf + f) = (snd (lat L l) + o0) * nf + f) by lia.
    eapply wp_storef; [exact P1|exact P2|rewrite <- EQ; exact J|]. rewrite <- EQ.
    exists L. split; [apply ext_refl|]. assert (F := frame_setv _ _ _ (cv D L v0) J).
    split; [|split; [apply frame_wset1; assumption|split; [exact I|reflexivity]]].
    eapply put_ok; [exact S|exact E3|exact F|]. intros lc' Q. replace lc' with v by congruence. constructor; [|constructor].
    cbn [piece_ok]. split; [lia|]. split; [exact O2|]. rewrite cell_setv by (exact J || lia). rewrite Pos.eqb_refl, Z.eqb_refl. reflexivity.
  - (* if *) osp. destruct v as [[z| | | | |]| |]; try discriminate. cbn in E1. injection E1 as ->. destruct (T _ _ E0) as [_ P1].
    eapply wp_if; [exact P1|]. cbn [cv]. unfold truth. cbn [int_of]. change (D (SC v0)) with v0.
    destruct (v0 =? 0); eapply IH; eassumption.
  - (* loop *) osp. destruct v as [[z| | | | |]| |]; try discriminate. cbn in E1. injection E1 as ->. destruct (T _ _ E0) as [_ P1].
    eapply wp_unroll; [exact P1|]. cbn [cv]. unfold truth. cbn [int_of]. change (D (SC v0)) with v0. destruct (v0 =? 0); cbn [negb].
    { injection E as <- <- <-. exists L. split; [apply ext_refl|]. split; [exact S|]. split; [apply frame_refl|]. split; [exact I|reflexivity]. }
    destruct (se sums fuel s c3) as [[[o1 s1] w1]|] eqn:Eb; [|discriminate]. cbn [olet] in E.
    eapply wp_weak; [eapply IH; eassumption|]. intros o' e1 m1 (L1 & X1 & S1 & F1 & O1 & ->).
    assert (K : (let* (o, s, w') := se sums fuel s1 c2 in
              match o with
              | SoN => let* (o, s, w'') := se sums fuel s (SLoop c1 c2 c3) in Some (o, s, w1 ++ w' ++ w'')
              | _ => None
              end) = Some (o, s', w) ->
        wp code c2 e1 m1 (fun o2 e2 m2 => o2 = ONormal /\ wp code (SLoop c1 c2 c3) e2 m2 (fun o' e' m' =>
          exists L', ext m L L' /\ sat D L' s' e' m' /\ frame m m' (wset L w) /\ oko L' o /\ o' = co L' o))).
    { clear E. intros E. destruct (se sums fuel s1 c2) as [[[o2 s2] w2]|] eqn:Ei; [|discriminate]. cbn [olet] in E.
      eapply wp_weak; [eapply IH; eassumption|]. intros o' e2 m2 (L2 & X2 & S2 & F2 & O2 & ->).
      destruct o2; try discriminate. split; [reflexivity|].
      destruct (se sums fuel s2 (SLoop c1 c2 c3)) as [[[o3 s3] w3]|] eqn:El; [|discriminate]. cbn [olet] in E. injection E as <- <- <-.
      eapply wp_weak; [eapply IH; eassumption|]. intros o' e3 m3 (L3 & X3 & S3 & F3 & O3 & ->). exists L3.
      assert (X12 : ext m L L2) by (eapply ext_trans; [apply F1|exact X1|exact X2]).
      assert (F12 : frame m m2 (wset L (w1 ++ w2))) by (eapply frame_wset; [exact X1|exact F1|exact F2]).
      split; [eapply ext_trans; [apply F12|exact X12|exact X3]|]. split; [exact S3|].
      split; [rewrite app_assoc; eapply frame_wset; [exact X12|exact F12|exact F3]|]. auto. }
    destruct o1; cbn [co] in *.
    + apply K, E.
    + injection E as <- <- <-. exists L1. auto.
    + apply K, E.
    + injection E as <- <- <-. exists L1. auto.
  - (* break *) injection E as <- <- <-. apply wp_break. exists L. split; [apply ext_refl|]. split; [exact S|]. split; [apply frame_refl|]. split; [exact I|reflexivity].
  - (* continue *) injection E as <- <- <-. apply wp_continue. exists L. split; [apply ext_refl|]. split; [exact S|]. split; [apply frame_refl|]. split; [exact I|reflexivity].
  - (* return *) osp. injection E as <- <- <-. destruct (T _ _ E0) as [O P]. eapply wp_return; [exact P|]. exists L. split; [apply ext_refl|].
    split; [exact S|]. split; [apply frame_refl|]. split; [exact O|reflexivity].
  - (* call *) destruct (mapo (sev s) args) as [vs|] eqn:Ea; [|discriminate]. cbn [olet] in E. destruct (mapo_ok _ _ _ _ S _ _ Ea) as [Os Ps].
    eapply wp_call; [exact Ps|]. destruct (assoc f sums) as [sm|] eqn:Es.
    + assert (SPf : spec_ok (f, sm)).
      { pose proof (assoc_ok (fun f sm => spec_ok (f, sm)) f sums sm) as G. apply G; [|exact Es]. eapply Forall_impl; [|exact SP]. intros [? ?] H. exact H. }
      assert (E' : (let* (v, s', w) := summarise s sm vs in Some (SoN, set_opt s' d v, w)) = Some (o, s', w) /\ (d = None \/ sm_out sm = None)).
      { destruct d, (sm_out sm); try discriminate; auto. }
      clear E. destruct E' as [E Ed]. destruct (summarise s sm vs) as [[[v s1] w1]|] eqn:Em; [|discriminate]. cbn [olet] in E. injection E as <- <- <-.
      unfold summarise in Em. unfold spec_ok in SPf. destruct (sm_out sm) as [ws|] eqn:Eo.
      * destruct Ed as [->|]; [|discriminate]. destruct vs as [|[|l o0|] vs]; try discriminate. osp. injection Em as <- <- <-.
        destruct (put_loc _ _ _ _ _ _ E0) as (lc & El & B1 & B2 & B3 & B4). destruct (locat_ok _ _ _ _ _ _ _ _ S El) as (Nl & Il & _).
        cbn [map cv]. eapply calls_weak; [apply SPf; [eapply inb_sub; [exact Il|lia..]|]|].
        { apply (sum_ins_ok Hphi Hrho L s e m (Some (l, o0, total ws)) S); [|exact E]. intros ? ? ? Q. injection Q as <- <- <-. eauto. }
        intros v' m' [F A]. exists L. split; [apply ext_refl|]. split; [|split; [apply frame_wset1; assumption|split; [exact I|reflexivity]]].
        cbn [set_opt set]. eapply put_ok; [exact S|exact E0|exact F|]. intros lc' Q. replace lc' with lc by congruence.
        apply out_ps_ok; [exact B1|exact B3|exact A].
      * osp. injection Em as <- <- <-. eapply calls_weak; [apply SPf; apply (sum_ins_ok Hphi Hrho L s e m None S); [discriminate|exact E]|].
        intros v' m' [F ->]. exists L. split; [apply ext_refl|]. split; [|split; [|split; [exact I|reflexivity]]].
        -- exact (set_opt_ok L _ e m' d (GInt (SA (sm_fid sm) 0 _)) (sat_frame _ _ _ _ _ S F) I).
        -- eapply frame_weak; [exact F|]. intros ? ? _ _ [].
    + destruct (PositiveMap.find f code) as [fn|] eqn:Ef; [|discriminate]. cbn [olet] in E.
      destruct (zip_params (fparams fn) vs []) as [ps|] eqn:Ez; [|discriminate]. cbn [olet] in E.
      destruct (se sums fuel (with_env s ps) (fbody fn)) as [[[o1 s1] w1]|] eqn:Eb; [|discriminate]. cbn [olet] in E.
      eapply calls_intro; [exact Ef|]. eapply wp_weak; [eapply IH; [|exact Eb]|].
      { eapply with_env_ok; [exact S|]. eapply zip_ok; [exact Ez|exact Os|]. intros ? ? Q. discriminate. }
      intros o' e' m' (L1 & X1 & S1 & F1 & O1 & ->).
      assert (S2 : sat D L1 (with_env s1 (genv s)) e m') by (eapply with_env_ok; [exact S1|]; eapply env_ext; [exact X1|apply S]).
      destruct o1 as [| | |v]; try discriminate; injection E as <- <- <-; cbn [co]; exists L1; (split; [exact X1|]); (split; [|split; [exact F1|split; [exact I|reflexivity]]]).
      * exact (set_opt_ok _ _ _ _ d GNull S2 I).
      * exact (set_opt_ok _ _ _ _ d v S2 O1).
  - (* alloc *) osp. destruct v as [[z| | | | |]| |]; try discriminate. cbn in E1. injection E1 as ->. destruct (T _ _ E0) as [_ P1].
    destruct (Z.leb_spec 0 v0); [|discriminate]. injection E as <- <- <-. eapply wp_alloc; [exact P1|]. change (D (SC v0)) with v0.
    exists (L ++ [(mnext m, 0)]). split; [eexists; split; [reflexivity|repeat constructor; cbn; lia]|].
    split; [apply alloc_ok; assumption|]. split; [apply frame_fresh|]. split; [exact I|reflexivity].
  - (* copy *) osp. destruct v1 as [[z| | | | |]| |]; try discriminate. cbn in E3. injection E3 as ->.
    destruct v as [|l o0|]; try discriminate. destruct v0 as [|l' o'|]; try discriminate. osp.
    match type of E with (if ?c then _ else _) = _ => destruct c eqn:C; [|discriminate] end. osp. injection E as <- <- <-.
    destruct (T _ _ E0) as [_ P1]. destruct (T _ _ E1) as [_ P2]. destruct (T _ _ E2) as [_ P3].
    destruct (put_loc _ _ _ _ _ _ E4) as (lc & El & B1 & B2 & B3 & B4). destruct (locat_ok _ _ _ _ _ _ _ _ S El) as (Nl & Il & _).
    destruct (locat_ok _ _ _ _ _ _ _ _ S E3) as (Nl' & Il' & _ & Fp). pose proof Il as (_ & Pb & _). pose proof Il' as (_ & Pb' & _).
    assert (J : inb m (fst (lat L l)) (snd (lat L l) + o0) v2) by (eapply inb_sub; [exact Il|lia..]).
    eapply (wp_copy1 _ _ _ _ _ _ _ _ _ v2); [exact P1|exact P2|exact P3|exact J|eapply inb_sub; [exact Il'|lia..]|].
    exists L. split; [apply ext_refl|]. assert (F := frame_copy_at m (fst (lat L l)) (snd (lat L l) + o0) (fst (lat L l')) (snd (lat L l') + o') v2 J).
    split; [|split; [apply frame_wset1; assumption|split; [exact I|reflexivity]]].
    eapply put_ok; [exact S|exact E4|exact F|]. intros lc' Q. replace lc' with lc by congruence.
    eapply copied_ok; [exact Il'|exact Il|lia|lia|lia| |exact Fp]. intros i Hi. apply byte_copy; [exact J|exact Hi].
  - (* fill *) osp. destruct v1 as [[z| | | | |]| |]; try discriminate. cbn in E2. injection E2 as ->.
    destruct v3 as [[z'| | | | |]| |]; try discriminate. cbn in E4. injection E4 as ->. destruct v0 as [|l o0|]; try discriminate.
    destruct (Z.eqb_spec v2 0) as [->|]; [|discriminate]. osp. injection E as <- <- <-.
    destruct (T _ _ E0) as [_ P1]. destruct (T _ _ E1) as [_ P2]. destruct (T _ _ E3) as [_ P3].
    destruct (put_loc _ _ _ _ _ _ E2) as (lc & El & B1 & B2 & B3 & B4). destruct (locat_ok _ _ _ _ _ _ _ _ S El) as (Nl & Il & _). pose proof Il as (_ & Pb & _).
    assert (J : inb m (fst (lat L l)) (snd (lat L l) + o0) v4) by (eapply inb_sub; [exact Il|lia..]).
    eapply (wp_fill _ _ _ _ _ _ _ _ 0 v4); [exact P1|exact P2|exact P3|exact J|].
    assert (Len : Z.of_nat (length (repeat 0 (Z.to_nat v4))) = v4) by (rewrite repeat_length; lia).
    exists L. split; [apply ext_refl|].
    assert (F := frame_setb m (fst (lat L l)) (snd (lat L l) + o0) (repeat 0 (Z.to_nat v4))). rewrite Len in F. specialize (F J).
    split; [|split; [apply frame_wset1; assumption|split; [exact I|reflexivity]]].
    eapply put_ok; [exact S|exact E2|exact F|]. intros lc' Q. replace lc' with lc by congruence.
    apply zeros_ok; [exact Pb| |lia|lia|lia]. intros i Hi. rewrite byte_setb by (rewrite ?Len; (exact J || lia)). rewrite Pos.eqb_refl, Len.
    destruct (Z.leb_spec (snd (lat L l) + o0) i); [|lia]. destruct (Z.ltb_spec i (snd (lat L l) + o0 + v4)); [|lia]. cbn [andb]. apply nth_repeat.
  - discriminate.
  - (* show *) osp. injection E as <- <- <-. destruct (T _ _ E0) as [O P]. eapply wp_show; [exact P|]. exists L. split; [apply ext_refl|].
    split; [apply set_env_ok; assumption|]. split; [apply frame_refl|]. split; [exact I|reflexivity].
  - discriminate.
  - (* eval *) osp. injection E as <- <- <-. destruct (T _ _ E0) as [O P]. eapply wp_eval; [exact P|]. exists L. split; [apply ext_refl|].
    split; [exact S|]. split; [apply frame_refl|]. split; [exact I|reflexivity].
Qed.
End Exec.
