(** Code that works on words in variables: a symbolic executor for long sequences of assignments. *)
From Coq Require Import ZArith NArith List Bool FMapPositive Lia.
From Verif Require Import Model.CtLang Model.CtNames Model.CtProgram Proof.RefLogic Proof.RefTac.
From Verif Require Model.Base Proof.BaseProof Proof.KeccakProof Proof.RefWord.
Import ListNotations.
Local Open Scope Z_scope.
Local Notation ofN := Z.of_N.

(** ** Sequences *)
Fixpoint flat (s : stmt) : list stmt := match s with SSeq a b => flat a ++ flat b | SSkip => [] | _ => [s] end.
Fixpoint wps (P : program) (l : list stmt) (e : env) (m : mem) (Q : outcome -> env -> mem -> Prop) : Prop :=
  match l with
  | [] => Q ONormal e m
  | s :: l => wp P s e m (fun o e m => match o with ONormal => wps P l e m Q | _ => Q o e m end)
  end.
Lemma wps_flat P s : forall l e m Q, wps P (flat s ++ l) e m Q -> wp P s e m (fun o e m => match o with ONormal => wps P l e m Q | _ => Q o e m end).
Proof.
  induction s; intros l e' m' Q H; cbn [flat app] in H; try exact H.
  - apply wp_skip. exact H.
  - rewrite <- app_assoc in H. apply wp_seq. eapply wp_weak; [apply IHs1; exact H|]. intros o e2 m2 K.
    destruct o; [apply IHs2; exact K| | |]; exact K.
Qed.
Lemma wp_flat P s e m Q : wps P (flat s) e m Q -> wp P s e m Q.
Proof.
  intros H. eapply wp_weak; [apply (wps_flat P s [] e m Q); rewrite app_nil_r; exact H|]. intros o e2 m2 K. destruct o; exact K.
Qed.

(** ** Terms *)
Inductive base := BG | BV (p : positive).
Inductive term := TV (x : positive) | TLd (q : base) (i : N) | TXor (a b : term) | TAnd (a b : term) | TNot (a : term) | TShl (a : term) (k : N) | TShr (a : term) (k : N).
Fixpoint dt (sg : positive -> N) (ld : base -> N -> N) (t : term) : N :=
  match t with
  | TV x => sg x
  | TLd q i => ld q i
  | TXor a b => N.lxor (dt sg ld a) (dt sg ld b)
  | TAnd a b => N.land (dt sg ld a) (dt sg ld b)
  | TNot a => N.lnot (dt sg ld a) 64
  | TShl a k => (N.shiftl (dt sg ld a) k mod 2 ^ 64)%N
  | TShr a k => N.shiftr (dt sg ld a) k
  end.
Definition base_eqb (a b : base) : bool := match a, b with BG, BG => true | BV p, BV q => Pos.eqb p q | _, _ => false end.
Fixpoint term_eqb (a b : term) : bool :=
  match a, b with
  | TV x, TV y => Pos.eqb x y
  | TLd q i, TLd r j => base_eqb q r && N.eqb i j
  | TXor a b, TXor c d => term_eqb a c && term_eqb b d
  | TAnd a b, TAnd c d => term_eqb a c && term_eqb b d
  | TNot a, TNot c => term_eqb a c
  | TShl a k, TShl c l => term_eqb a c && N.eqb k l
  | TShr a k, TShr c l => term_eqb a c && N.eqb k l
  | _, _ => false
  end.
Lemma base_eqb_ok a b : base_eqb a b = true -> a = b.
Proof. destruct a, b; cbn; intros H; try discriminate; [reflexivity|]. apply Pos.eqb_eq in H. subst. reflexivity. Qed.
Lemma term_eqb_ok a : forall b, term_eqb a b = true -> a = b.
Proof.
  induction a; intros [] H; cbn in H; try discriminate; repeat (apply andb_prop in H; destruct H as [H ?]); f_equal; auto using base_eqb_ok;
    try (apply Pos.eqb_eq; assumption); try (apply N.eqb_eq; assumption); apply base_eqb_ok; assumption.
Qed.

Definition word (n : N) : Prop := (n < 2 ^ 64)%N.
Lemma land_word a b : word a -> word (N.land a b).
Proof. unfold word. intros H. rewrite N.land_comm. apply KeccakProof.land_lt, H. Qed.
Lemma lnot_word a : word a -> word (N.lnot a 64).
Proof. unfold word, N.lnot. intros H. apply BaseProof.lxor_lt; [exact H|reflexivity]. Qed.
Lemma shr_word a k : word a -> word (N.shiftr a k).
Proof.
  unfold word. intros H. rewrite N.shiftr_div_pow2. eapply N.le_lt_trans; [|exact H].
  apply N.div_le_upper_bound; [apply N.pow_nonzero; discriminate|]. assert (0 < 2 ^ k)%N by apply BaseProof.pow2_pos. nia.
Qed.

(** ** Expressions *)
Lemma lxor_ofN a b : Z.lxor (ofN a) (ofN b) = ofN (N.lxor a b). Proof. destruct a, b; reflexivity. Qed.
Lemma land_ofN a b : Z.land (ofN a) (ofN b) = ofN (N.land a b). Proof. destruct a, b; reflexivity. Qed.
Lemma shl_ofN a k : wrap u64 (Z.shiftl (ofN a) (ofN k)) = ofN (N.shiftl a k mod 2 ^ 64).
Proof.
  rewrite Z.shiftl_mul_pow2 by lia. rewrite N.shiftl_mul_pow2. change 2 with (ofN 2) at 1. rewrite <- N2Z.inj_pow, <- N2Z.inj_mul.
  unfold u64. rewrite RefWord.wrap_mod by lia. reflexivity.
Qed.
Lemma shr_ofN a k : Z.shiftr (ofN a) (ofN k) = ofN (N.shiftr a k).
Proof.
  rewrite Z.shiftr_div_pow2 by lia. rewrite N.shiftr_div_pow2, N2Z.inj_div, N2Z.inj_pow. reflexivity.
Qed.
Lemma not_ofN a : word a -> wrap u64 (Z.lnot (ofN a)) = ofN (N.lnot a 64).
Proof.
  unfold word. intros H. assert (E : N.lnot a 64 = (N.ones 64 - a)%N).
  { destruct (N.eq_dec a 0) as [->|Z]; [reflexivity|]. apply N.lnot_sub_low. apply N.log2_lt_pow2; [lia|exact H]. }
  rewrite E. unfold wrap, u64. cbn [andb]. rewrite Z.land_ones by lia. unfold Z.lnot. change (N.ones 64) with 18446744073709551615%N.
  change (2 ^ 64)%N with 18446744073709551616%N in H. change (2 ^ 64) with 18446744073709551616.
  symmetry. apply Z.mod_unique with (-1); lia.
Qed.

Section Run.
(** Which variables may change, how many words may be read from where, and possibly a variable whose value is known. *)
Definition isk (kv : option (positive * Z)) (x : positive) : bool := match kv with Some (y, _) => Pos.eqb x y | None => false end.
Variable inr : positive -> bool.
Variable bnd : base -> N.
Variable kv : option (positive * Z).

Definition aload (s : PositiveMap.t term) (a : expr) : option term :=
  match a with
  | EGlob 1 => if (0 <? bnd BG)%N then Some (TLd BG 0) else None
  | EVar p => if negb (inr p) && (0 <? bnd (BV p))%N then Some (TLd (BV p) 0) else None
  | EAt (EGlob 1) 8 (EInt i) => if (0 <=? i) && (Z.to_N i <? bnd BG)%N then Some (TLd BG (Z.to_N i)) else None
  | EAt (EVar p) 8 (EInt i) => if negb (inr p) && (0 <=? i) && (Z.to_N i <? bnd (BV p))%N then Some (TLd (BV p) (Z.to_N i)) else None
  | _ => None
  end.
Fixpoint aeval (s : PositiveMap.t term) (a : expr) : option term :=
  match a with
  | EVar x => PositiveMap.find x s
  | ELoad 8 a => aload s a
  | EBin OXor (IT false 64) a b => match aeval s a, aeval s b with Some t, Some u => Some (TXor t u) | _, _ => None end
  | EBin OAnd (IT false 64) a b => match aeval s a, aeval s b with Some t, Some u => Some (TAnd t u) | _, _ => None end
  | EBin OShl (IT false 64) a (EInt k) => if 0 <=? k then match aeval s a with Some t => Some (TShl t (Z.to_N k)) | _ => None end else None
  | EBin OShr (IT false 64) a (EInt k) => if 0 <=? k then match aeval s a with Some t => Some (TShr t (Z.to_N k)) | _ => None end else None
  | EUn ONot (IT false 64) a => match aeval s a with Some t => Some (TNot t) | _ => None end
  | _ => None
  end.
(** The value of a condition on the known variable. *)
Definition acond (c : expr) : option bool :=
  match c with
  | EBin OLt (IT true 32) (EVar x) (EInt k) => match kv with Some (y, n) => if Pos.eqb x y then Some (n <? k) else None | None => None end
  | EBin OEq (IT true 32) (EVar x) (EInt k) => match kv with Some (y, n) => if Pos.eqb x y then Some (n =? k) else None | None => None end
  | _ => None
  end.
Fixpoint astep (c : stmt) (s : PositiveMap.t term) : option (PositiveMap.t term) :=
  match c with
  | SSkip => Some s
  | SSeq a b => match astep a s with Some s => astep b s | None => None end
  | SSet x a => if inr x && negb (isk kv x) then match aeval s a with Some t => Some (PositiveMap.add x t s) | None => None end else None
  | SIf g a b => match acond g with Some true => astep a s | Some false => astep b s | None => None end
  | _ => None
  end.
Fixpoint asteps (l : list stmt) (s : PositiveMap.t term) : option (PositiveMap.t term) :=
  match l with [] => Some s | c :: l => match astep c s with Some s => asteps l s | None => None end end.

Variable sg : positive -> N.
Variable ld : base -> N -> N.
Definition rel (s : PositiveMap.t term) (e : env) : Prop :=
  forall x t, PositiveMap.find x s = Some t -> lookup e x = VInt (ofN (dt sg ld t)) /\ word (dt sg ld t).
Definition ptr_is (e : env) (q : base) (b : positive) (o : Z) : Prop :=
  match q with BG => b = 1%positive /\ o = 0 | BV p => lookup e p = VPtr b o end.
Definition ldok (e : env) (m : mem) : Prop := forall q i, (i < bnd q)%N -> match q with BV p => inr p = false | BG => True end ->
  exists b o, ptr_is e q b o /\ inb m b (o + 8 * ofN i) 8 /\ decode (bytesat m b (o + 8 * ofN i) 8) = ofN (ld q i) /\ word (ld q i).
Definition known (e : env) : Prop := match kv with Some (x, n) => lookup e x = VInt n | None => True end.
Definition same_out (e e' : env) : Prop := forall x, inr x = false \/ isk kv x = true -> lookup e' x = lookup e x.

Lemma aload_ok s a t e m : aload s a = Some t -> ldok e m -> pe e m (ELoad 8 a) (VInt (ofN (dt sg ld t))) /\ word (dt sg ld t).
Proof.
  intros H L. assert (G : forall q i a, (i < bnd q)%N -> match q with BV p => inr p = false | BG => True end ->
    (forall b o, ptr_is e q b o -> pe e m a (VPtr b (o + 8 * ofN i))) -> pe e m (ELoad 8 a) (VInt (ofN (ld q i))) /\ word (ld q i)).
  { intros q i a' Hi Hq K. destruct (L q i Hi Hq) as (b & o & P & I & E & W). split; [|exact W]. rewrite <- E.
    apply pe_load; [apply K, P|exact I]. }
  destruct a as [| |g| | | | | | | |p sc i| |]; try discriminate H.
  - cbn [aload] in H. destruct (negb (inr x) && (0 <? bnd (BV x))%N) eqn:E; [|discriminate]. injection H as <-. apply andb_prop in E. destruct E as [E1 E2].
    cbn [dt]. apply G; [apply N.ltb_lt, E2|apply negb_true_iff, E1|]. intros b o P. rewrite Z.mul_0_r, Z.add_0_r. apply pe_var, P.
  - destruct g; try discriminate H. cbn [aload] in H. destruct ((0 <? bnd BG)%N) eqn:E; [|discriminate]. injection H as <-.
    cbn [dt]. apply G; [apply N.ltb_lt, E|exact Logic.I|]. intros b o [-> ->]. apply pe_glob.
  - destruct p as [|x|g| | | | | | | | | |]; try discriminate H.
    + destruct sc as [|[[[[]|[]|]|[[]|[]|]|]|[[[]|[]|]|[[]|[]|]|]|]|]; try discriminate H; destruct i; try discriminate H. cbn [aload] in H.
      destruct (negb (inr x) && (0 <=? z) && (Z.to_N z <? bnd (BV x))%N) eqn:E; [|discriminate]. injection H as <-. apply andb_prop in E. destruct E as [E1 E2]. apply andb_prop in E1. destruct E1 as [E1 E3].
      cbn [dt]. apply G; [apply N.ltb_lt, E2|apply negb_true_iff, E1|]. intros b o P. apply Z.leb_le in E3. rewrite Z2N.id by exact E3. apply pe_at; [apply pe_var, P|apply pe_int].
    + destruct g; try discriminate H. destruct sc as [|[[[[]|[]|]|[[]|[]|]|]|[[[]|[]|]|[[]|[]|]|]|]|]; try discriminate H; destruct i; try discriminate H. cbn [aload] in H.
      destruct ((0 <=? z) && (Z.to_N z <? bnd BG)%N) eqn:E; [|discriminate]. injection H as <-. apply andb_prop in E. destruct E as [E3 E2].
      cbn [dt]. apply G; [apply N.ltb_lt, E2|exact Logic.I|]. intros b o [-> ->]. apply Z.leb_le in E3. rewrite Z2N.id by exact E3. apply pe_at; [apply pe_glob|apply pe_int].
Qed.
Lemma aeval_ok e m s : rel s e -> ldok e m -> forall a t, aeval s a = Some t -> pe e m a (VInt (ofN (dt sg ld t))) /\ word (dt sg ld t).
Proof.
  intros R L. induction a; intros t' H; try discriminate H.
  - cbn [aeval] in H. destruct (R x t' H) as [A B]. split; [apply pe_var, A|exact B].
  - destruct o; try discriminate H. destruct t as [[] w]; try discriminate H. destruct (Z.eq_dec w 64) as [->|Nw].
    2:{ exfalso. cbn [aeval] in H. destruct w as [|w|]; try discriminate H. repeat (destruct w as [w|w|]; try discriminate H). apply Nw. reflexivity. }
    cbn [aeval] in H. destruct (aeval s a) as [u|]; [|discriminate]. injection H as <-. destruct (IHa u eq_refl) as [A B].
    cbn [dt]. split; [|apply lnot_word, B]. eapply pe_eq; [apply pe_un, A|]. cbn [un]. rewrite not_ofN by exact B. reflexivity.
  - destruct t as [[] w]; [destruct o; discriminate H|]. destruct (Z.eq_dec w 64) as [->|Nw].
    2:{ exfalso. destruct o; cbn [aeval] in H; try discriminate H; destruct w as [|w|]; try discriminate H; repeat (destruct w as [w|w|]; try discriminate H); apply Nw; reflexivity. }
    destruct o; try discriminate H; cbn [aeval] in H.
    + destruct (aeval s a1) as [u|]; [|discriminate]. destruct (aeval s a2) as [v|]; [|discriminate]. injection H as <-.
      destruct (IHa1 u eq_refl) as [A B], (IHa2 v eq_refl) as [C D]. cbn [dt]. split; [|apply land_word, B]. eapply pe_eq; [apply pe_bin; [exact A|exact C]|]. cbn [bin]. rewrite land_ofN. reflexivity.
    + destruct (aeval s a1) as [u|]; [|discriminate]. destruct (aeval s a2) as [v|]; [|discriminate]. injection H as <-.
      destruct (IHa1 u eq_refl) as [A B], (IHa2 v eq_refl) as [C D]. cbn [dt]. split; [|apply BaseProof.lxor_lt; assumption]. eapply pe_eq; [apply pe_bin; [exact A|exact C]|]. cbn [bin]. rewrite lxor_ofN. reflexivity.
    + destruct a2; try discriminate H. destruct (Z.leb_spec 0 z) as [Hz|]; [|discriminate]. destruct (aeval s a1) as [u|]; [|discriminate]. injection H as <-.
      destruct (IHa1 u eq_refl) as [A B]. cbn [dt]. split; [|apply N.mod_lt; discriminate]. eapply pe_eq; [apply pe_bin; [exact A|apply pe_int]|]. cbn [bin].
      rewrite <- (Z2N.id z Hz) at 1. change (IT false 64) with u64. rewrite shl_ofN. reflexivity.
    + destruct a2; try discriminate H. destruct (Z.leb_spec 0 z) as [Hz|]; [|discriminate]. destruct (aeval s a1) as [u|]; [|discriminate]. injection H as <-.
      destruct (IHa1 u eq_refl) as [A B]. cbn [dt]. split; [|apply shr_word, B]. eapply pe_eq; [apply pe_bin; [exact A|apply pe_int]|]. cbn [bin].
      rewrite <- (Z2N.id z Hz) at 1. rewrite shr_ofN. reflexivity.
  - destruct n as [|[|[|[|[|[|[|[|[|n]]]]]]]]]; try discriminate H. cbn [aeval] in H. eapply aload_ok; [exact H|exact L].
Qed.
Lemma acond_ok e m c v : acond c = Some v -> known e -> pe e m c (VInt (b2z v)).
Proof.
  unfold acond, known. intros H K. destruct kv as [[y n]|]; [|exfalso; destruct c; try discriminate H; destruct o; try discriminate H; destruct t as [[] w]; try discriminate H; destruct w as [|w|]; try discriminate H; repeat (destruct w as [w|w|]; try discriminate H); destruct c1; try discriminate H; destruct c2; discriminate H].
  destruct c; try discriminate H. destruct t as [[] w]; [|destruct o; discriminate H]. destruct o; try discriminate H;
  (destruct w as [|w|]; try discriminate H; repeat (destruct w as [w|w|]; try discriminate H)); destruct c1; try discriminate H; destruct c2; try discriminate H;
  (destruct (Pos.eqb_spec x y) as [->|]; [|discriminate H]); injection H as <-; (eapply pe_eq; [apply pe_bin; [apply pe_var, K|apply pe_int]|reflexivity]).
Qed.
Lemma same_out_trans e1 e2 e3 : same_out e1 e2 -> same_out e2 e3 -> same_out e1 e3.
Proof. intros A B x H. rewrite (B x H). apply A, H. Qed.
Lemma ldok_same e e' m : ldok e m -> same_out e e' -> ldok e' m.
Proof.
  intros L S q i Hi Hq. destruct (L q i Hi Hq) as (b & o & P & K). exists b, o. split; [|exact K]. destruct q; [exact P|]. cbn [ptr_is] in *. rewrite S by auto. exact P.
Qed.
Lemma known_same e e' : known e -> same_out e e' -> known e'.
Proof. unfold known, same_out, isk. destruct kv as [[y n]|]; [|auto]. intros K S. rewrite S; [exact K|]. right. apply Pos.eqb_refl. Qed.
Lemma astep_ok P m c : forall s s' e, astep c s = Some s' -> rel s e -> ldok e m -> known e ->
  wp P c e m (fun o e' m' => o = ONormal /\ m' = m /\ rel s' e' /\ same_out e e').
Proof.
  induction c; intros s0 s' e' H R L K; try discriminate H.
  - injection H as <-. apply wp_skip. split; [reflexivity|]. split; [reflexivity|]. split; [exact R|]. intros x _. reflexivity.
  - cbn [astep] in H. destruct (astep c1 s0) as [s1|] eqn:E; [|discriminate]. apply wp_seq. eapply wp_weak; [apply (IHc1 _ _ _ E R L K)|].
    intros o e1 m1 (-> & -> & R1 & S1). eapply wp_weak; [apply (IHc2 _ _ _ H R1); [eapply ldok_same; eassumption|]|].
    { eapply known_same; eassumption. }
    intros o e2 m2 (-> & -> & R2 & S2). split; [reflexivity|]. split; [reflexivity|]. split; [exact R2|]. eapply same_out_trans; eassumption.
  - cbn [astep] in H. destruct (inr x && negb (isk kv x)) eqn:I; [|discriminate]. apply andb_prop in I. destruct I as [I J]. apply negb_true_iff in J.
    destruct (aeval s0 e) as [t|] eqn:E; [|discriminate]. injection H as <-. destruct (aeval_ok e' m s0 R L _ _ E) as [A B].
    eapply wp_set; [exact A|]. split; [reflexivity|]. split; [reflexivity|]. split.
    + intros y u F. rewrite PositiveMapAdditionalFacts.gsspec in F. destruct (PositiveMap.E.eq_dec y x) as [->|N].
      * injection F as <-. split; [rewrite lookup_add, Pos.eqb_refl; reflexivity|exact B].
      * destruct (R y u F) as [C D]. split; [|exact D]. rewrite lookup_add. destruct (Pos.eqb_spec y x); [contradiction|exact C].
    + intros y O. rewrite lookup_add. destruct (Pos.eqb_spec y x) as [->|]; [|reflexivity]. destruct O as [O|O]; [rewrite I in O; discriminate|]. rewrite J in O. discriminate.
  - cbn [astep] in H. destruct (acond c1) as [v|] eqn:E; [|discriminate].
    eapply wp_if; [apply (acond_ok _ _ _ _ E K)|]. rewrite truth_b. destruct v; [apply (IHc1 _ _ _ H R L)|apply (IHc2 _ _ _ H R L)]; exact K.
Qed.
Lemma asteps_ok P m l : forall rest s s' e Q, asteps l s = Some s' -> rel s e -> ldok e m -> known e ->
  (forall e', rel s' e' -> same_out e e' -> wps P rest e' m Q) -> wps P (l ++ rest) e m Q.
Proof.
  induction l as [|c l IH]; intros rest s s' e Q H R L K W.
  - injection H as <-. apply W; [exact R|]. intros x _. reflexivity.
  - cbn [asteps] in H. destruct (astep c s) as [s1|] eqn:E; [|discriminate]. cbn [app wps]. eapply wp_weak; [apply (astep_ok P m c _ _ _ E R L K)|].
    intros o e1 m1 (-> & -> & R1 & S1). eapply IH; [exact H|exact R1|eapply ldok_same; eassumption| |].
    + eapply known_same; eassumption.
    + intros e2 R2 S2. apply W; [exact R2|]. eapply same_out_trans; eassumption.
Qed.
End Run.
