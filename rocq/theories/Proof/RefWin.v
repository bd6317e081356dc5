(** Running code over arrays of any length: at each place the part of an array that is used is made
    known to the symbolic execution as an array of its own. *)
From Coq Require Import ZArith NArith List Bool FMapPositive Lia ZifyBool ZifyNat ZifyN Arith.
From Verif Require Import Model.CtLang Model.CtNames Model.CtProgram Proof.RefLogic Proof.RefTac Proof.RefMem Proof.RefSe Proof.RefSx Proof.RefWord.
Import ListNotations.
Local Open Scope Z_scope.
Notation ofN := Z.of_N.

(** ** States described by a template and the values of its variables *)
Definition rhoN (l : list N) (k : nat) : Z := ofN (nth k l 0%N).
Lemma rhoN_holds l : holdsN (rhoN l) l. Proof. intros k. reflexivity. Qed.
Lemma sat_eq (f g : sx -> Z) L t e m : mapst f t = mapst g t -> sat g L t e m -> sat f L t e m.
Proof.
  intros E S. assert (A : sat (fun z : Z => z) L (mapst g t) e m) by (apply sat_map; exact S). rewrite <- E in A. apply sat_map in A. exact A.
Qed.
Lemma sat_rho (p : nat -> list N -> list N) L t e m rho l : holdsN rho l -> sat (den (phi_of p) rho) L t e m -> sat (den (phi_of p) (rhoN l)) L t e m.
Proof.
  intros H S. eapply sat_eq; [|exact S]. apply mapst_ext.
  fix IH 1. destruct x as [z|i|o ty a|o ty a b|o ty a b|f k xs]; cbn [den]; rewrite ?IH; try reflexivity.
  - rewrite H. reflexivity.
  - f_equal. f_equal. induction xs as [|x xs IHx]; cbn [map]; [reflexivity|]. rewrite IH, IHx. reflexivity.
Qed.
Section Win.
Context (p : nat -> list N -> list N) (sums : list (positive * summary)) (SP : Forall (spec_ok (phi_of p)) sums).
Notation D l := (den (phi_of p) (rhoN l)).
Definition stN (L : locs) (t : gst sx) (l : list N) (e : env) (m : mem) : Prop := small l /\ sat (D l) L t e m.
Lemma stN_words L t l e m : stN L t l e m -> words (rhoN l).
Proof. intros [S _]. exact (holdsN_words _ _ S (rhoN_holds l)). Qed.
Lemma stN_vals L t l e m sg : small l -> forallb okN sg = true -> forallb is64 sg = true ->
  sat (den (phi_of p) (vals (phi_of p) (rhoN l) sg)) L t e m -> stN L t (evs_ p l sg) e m.
Proof.
  intros S O I H. split; [eapply evs_small; [exact S|exact (rhoN_holds l)|exact O|exact I]|].
  eapply sat_rho; [apply evs_holds; [exact S|exact (rhoN_holds l)|exact O]|exact H].
Qed.
(** some statements of a sequence *)
Definition lead_chk (fuel n : nat) (t : gst sx) (c : stmt) (t' : gst sx) (sg : list sx) (W : writes) : bool :=
  match lead sums fuel n t c t' with Some (sg', w) => same sg' sg && covered (length (gheap t)) w W | None => false end.
Theorem stN_lead fuel n t c t' sg W l L e m (Q : outcome -> env -> mem -> Prop) : lead_chk fuel n t c t' sg W = true -> stN L t l e m ->
  (forall L' e' m', ext m L L' -> stN (firstn (length (gheap t')) L') t' (evs_ p l sg) e' m' -> frame m m' (wset L W) -> wp code (suf n c) e' m' Q) ->
  wp code c e m Q.
Proof.
  intros C S H. unfold lead_chk in C. destruct (lead sums fuel n t c t') as [[sg' w]|] eqn:E; [|discriminate]. brk.
  apply same_ok in H0. destruct H0 as (-> & O & I). eapply lead_ok; [exact (phi_word p)|exact SP|exact (stN_words _ _ _ _ _ S)|exact E|exact (proj2 S)|].
  intros L' e' m' X _ S' F. eapply H; [exact X| |].
  - apply stN_vals; [exact (proj1 S)|exact O|exact I|exact S'].
  - eapply frame_weak; [exact F|]. intros b q _ _ K. eapply covered_ok; [exact H1| |exact K]. rewrite (sat_length _ _ _ _ _ (proj2 S)). lia.
Qed.
(** the rest of a function *)
Definition trip_chk (fuel : nat) (t : gst sx) (c : stmt) (t' : gst sx) (sg : list sx) (W : writes) : option sout :=
  match trip sums fuel t c t' with Some (o, sg', w) => if same sg' sg && covered (length (gheap t)) w W then Some o else None | None => None end.
Theorem stN_trip fuel t c t' sg W o l L e m (Q : outcome -> env -> mem -> Prop) : trip_chk fuel t c t' sg W = Some o -> stN L t l e m ->
  (forall L' e' m', ext m L L' -> stN (firstn (length (gheap t')) L') t' (evs_ p l sg) e' m' -> frame m m' (wset L W) -> oko L' o -> Q (co (phi_of p) (rhoN l) L' o) e' m') ->
  wp code c e m Q.
Proof.
  intros C S H. unfold trip_chk in C. destruct (trip sums fuel t c t') as [[[o' sg'] w]|] eqn:E; [|discriminate].
  destruct (same sg' sg && covered (length (gheap t)) w W) eqn:K; [|discriminate]. injection C as ->. brk.
  apply same_ok in H0. destruct H0 as (-> & O & I). eapply wp_weak; [eapply trip_ok; [exact (phi_word p)|exact SP|exact (stN_words _ _ _ _ _ S)|exact E|exact (proj2 S)]|].
  intros o' e' m' (L' & X & _ & S' & F & Oo & ->). eapply H; [exact X| | |exact Oo].
  - apply stN_vals; [exact (proj1 S)|exact O|exact I|exact S'].
  - eapply frame_weak; [exact F|]. intros b q _ _ B. eapply covered_ok; [exact H1| |exact B]. rewrite (sat_length _ _ _ _ _ (proj2 S)). lia.
Qed.

(** ** A part of an array as an array of its own *)
Record win := Win { w_l : nat; w_o : Z; w_sc : Z; w_x : sx; w_ws : list nat }.
Definition add_win (t : gst sx) (k : nat) (w : win) : gst sx :=
  St (genv t) (gglob t) (Alias (w_l w) (w_o w) (w_sc w) (w_x w) (GPtr (length (gheap t)) 0) :: galias t)
     (gheap t ++ [Loc false true (total (w_ws w)) (var_ps k 0 (w_ws w))]).
(** only the first variables occur *)
Fixpoint below (n : nat) (x : sx) : bool :=
  match x with
  | SC _ => true
  | SV i => Nat.ltb i n
  | SU _ _ a => below n a
  | SB _ _ a b | SD _ _ a b => below n a && below n b
  | SA _ _ l => forallb (below n) l
  end.
Definition below_v (n : nat) (v : gv sx) : bool := match v with GInt x => below n x | _ => true end.
Definition below_p (n : nat) (q : piece sx) : bool := match q with PI _ _ x => below n x | PP _ v => below_v n v end.
Definition below_st (n : nat) (t : gst sx) : bool :=
  forallb (fun b => below_v n (snd b)) (genv t) && forallb (fun b => below_v n (snd b)) (gglob t) &&
  forallb (fun a => below n (ax a) && below_v n (av a)) (galias t) && forallb (fun l => forallb (below_p n) (lps l)) (gheap t).
Lemma below_den l ys : forall x, below (length l) x = true -> D (l ++ ys) x = D l x.
Proof.
  fix IH 1. destruct x as [z|i|o ty a|o ty a b|o ty a b|f k xs]; cbn [below den]; intros H; brk; rewrite ?IH by assumption; try reflexivity.
  - unfold rhoN. rewrite app_nth1 by lia. reflexivity.
  - f_equal. f_equal. induction xs as [|x xs IHx]; cbn [map forallb] in *; [reflexivity|]. brk. rewrite IH, IHx by assumption. reflexivity.
Qed.
Lemma map_ext_b {A B} (f g : A -> B) (c : A -> bool) l : forallb c l = true -> (forall x, c x = true -> f x = g x) -> map f l = map g l.
Proof. intros H E. apply map_ext_in. intros x Hx. apply E. rewrite forallb_forall in H. apply H, Hx. Qed.
Lemma below_map l ys t : below_st (length l) t = true -> mapst (D (l ++ ys)) t = mapst (D l) t.
Proof.
  intros H. unfold below_st in H. brk.
  assert (V : forall v, below_v (length l) v = true -> mapv (D (l ++ ys)) v = mapv (D l) v) by (intros [] B; cbn [below_v mapv] in *; rewrite ?below_den by exact B; reflexivity).
  unfold mapst. f_equal.
  - eapply map_ext_b; [exact H|]. intros [x v] B. cbn [snd] in B. rewrite V by exact B. reflexivity.
  - eapply map_ext_b; [exact H2|]. intros [x v] B. cbn [snd] in B. rewrite V by exact B. reflexivity.
  - eapply map_ext_b; [exact H1|]. intros a B. cbn beta in B. brk. unfold mapa. rewrite below_den, V by assumption. reflexivity.
  - eapply map_ext_b; [exact H0|]. intros lc B. unfold mapl. f_equal. eapply map_ext_b; [exact B|].
    intros [] C; cbn [below_p mapp] in *; rewrite ?below_den, ?V by exact C; reflexivity.
Qed.
Lemma stN_more L t l ys e m : stN L t l e m -> below_st (length l) t = true -> small ys -> stN L t (l ++ ys) e m.
Proof.
  intros [S A] B Y. split; [apply Forall_app; split; assumption|]. eapply sat_eq; [apply below_map; exact B|exact A].
Qed.
Lemma var_ps_ok L l m b base size : forall ws k o xs, 0 <= o -> o + total ws <= size -> arr m b (base + o) ws xs ->
  (forall i, (i < length ws)%nat -> rhoN l (k + i) = nth i xs 0) -> Forall (piece_ok (D l) L m b base size) (var_ps k o ws).
Proof.
  induction ws as [|w ws IH]; intros k o xs Ho Hs A Hx; cbn [var_ps]; [constructor|]. destruct xs as [|x xs]; [destruct A|]. destruct A as (I & B & C & A).
  unfold total in *. cbn [list_sum fold_right] in Hs. change (fold_right Nat.add 0%nat ws) with (list_sum ws) in Hs. constructor.
  - cbn [piece_ok]. split; [exact Ho|]. split; [lia|]. split; [exact B|]. cbn [den]. specialize (Hx 0%nat ltac:(cbn; lia)). rewrite Nat.add_0_r in Hx. rewrite Hx. exact C.
  - eapply IH; [lia|lia| |]; [replace (base + (o + Z.of_nat w)) with (base + o + Z.of_nat w) by lia; exact A|].
    intros i Hi. replace (S k + i)%nat with (k + S i)%nat by lia. apply (Hx (S i)). cbn. lia.
Qed.
Lemma lat_app L bb l : (l < length L)%nat -> lat (L ++ [bb]) l = lat L l.
Proof. intros H. unfold lat. apply app_nth1, H. Qed.
Lemma lat_last L bb : lat (L ++ [bb]) (length L) = bb.
Proof. unfold lat. rewrite app_nth2, Nat.sub_diag by lia. reflexivity. Qed.
Lemma cv_app {X} (f : X -> Z) L bb v : okv L v -> cv f (L ++ [bb]) v = cv f L v /\ okv (L ++ [bb]) v.
Proof. destruct v; cbn; intros H; [auto| |auto]. rewrite lat_app by exact H. split; [reflexivity|]. rewrite app_length. cbn. lia. Qed.
Lemma piece_app {X} (f : X -> Z) L bb m b base size q : piece_ok f L m b base size q -> piece_ok f (L ++ [bb]) m b base size q.
Proof. destruct q; cbn [piece_ok]; [auto|]. intros (A & B & C). destruct (cv_app f L bb v B) as [E O]. rewrite E. auto. Qed.
Theorem stN_win L t l e m w b o ys : stN L t l e m -> below_st (length l) t = true -> (w_l w < length L)%nat ->
  (b, o) = (fst (lat L (w_l w)), snd (lat L (w_l w)) + w_o w + w_sc w * D l (w_x w)) -> below (length l) (w_x w) = true ->
  (forall j lj, nth_error (gheap t) j = Some lj -> lro lj = false -> sep b o (total (w_ws w)) (fst (lat L j)) (snd (lat L j)) (lsize lj)) ->
  arr m b o (w_ws w) (map ofN ys) -> length ys = length (w_ws w) -> small ys -> inb m b o (total (w_ws w)) ->
  stN (L ++ [(b, o)]) (add_win t (length l) w) (l ++ ys) e m.
Proof.
  intros S B Hl E Bx Ro0 A Ly Sy Ib. destruct (stN_more _ _ _ ys _ _ S B Sy) as [S' A']. split; [exact S'|]. pose proof (sat_length _ _ _ _ _ A') as LL.
  injection E as E1 E2.
  constructor; cbn [add_win genv gglob galias gheap].
  - intros x v Q. destruct (sat_env _ _ _ _ _ A' _ _ Q) as [O C]. destruct (cv_app (D (l ++ ys)) L (b, o) v O) as [-> O']. auto.
  - eapply Forall_impl; [|exact (sat_glob _ _ _ _ _ A')]. intros [g v] [O C]. destruct (cv_app (D (l ++ ys)) L (b, o) v O) as [-> O']. auto.
  - constructor.
    + cbn [al ao asc ax av okv cv]. rewrite <- LL, lat_last, (lat_app _ _ _ Hl). rewrite app_length. cbn [fst snd length]. split; [lia|]. split; [lia|].
      rewrite below_den by exact Bx. f_equal; [exact E1|]. lia.
    + eapply Forall_impl; [|exact (sat_alias _ _ _ _ _ A')]. intros a (O1 & O & C). destruct (cv_app (D (l ++ ys)) L (b, o) (av a) O) as [-> O'].
      rewrite app_length, lat_app by exact O1. cbn. split; [lia|]. auto.
  - apply Forall2_app.
    + eapply F2_impl; [|exact (sat_heap _ _ _ _ _ A')]. intros bb lc' (I1 & I2 & I3). split; [exact I1|]. split; [exact I2|].
      eapply Forall_impl; [|exact I3]. intros q. apply piece_app.
    + constructor; [|constructor]. split; [exact Ib|]. split; [discriminate|]. cbn [lps lsize fst snd]. eapply (var_ps_ok _ _ _ _ _ _ _ _ _ (map ofN ys)); [lia|lia| |].
      * rewrite Z.add_0_r. exact A.
      * intros i Hi. unfold rhoN. rewrite app_nth2, Nat.add_comm, Nat.add_sub by lia. exact (eq_sym (map_nth ofN ys 0%N i)).
  - assert (Ro : forall j lj, (j < length L)%nat -> nth j (gheap t) (Loc false false 0 []) = lj -> lro lj = false -> sep b o (total (w_ws w)) (fst (lat L j)) (snd (lat L j)) (lsize lj)).
    { intros j lj Hj Ej Rj. apply Ro0; [|exact Rj]. rewrite <- Ej. apply nth_error_nth'. lia. }
    intros i j Hi Hj N1 Rn. rewrite app_length in Hi, Hj. cbn [length] in Hi, Hj.
    assert (Ci : (i < length L \/ i = length L)%nat) by lia. assert (Cj : (j < length L \/ j = length L)%nat) by lia.
    destruct Ci as [Ci| ->], Cj as [Cj| ->].
    + rewrite !app_nth1 in * by lia. rewrite !lat_app by assumption. apply (sat_apart _ _ _ _ _ A'); (lia || assumption).
    + rewrite lat_last, lat_app by assumption. rewrite (app_nth1 _ _ _ (n := i)) in * by lia. rewrite (app_nth2 _ _ _ (n := length L)) in * by lia. rewrite LL, Nat.sub_diag in *. cbn [nth lro lsize fst snd] in *.
      rewrite andb_true_r in Rn. specialize (Ro i _ ltac:(lia) eq_refl Rn). unfold sep in *. destruct Ro as [Ro|Ro]; [left; congruence|right; lia].
    + rewrite lat_last, lat_app by assumption. rewrite (app_nth1 _ _ _ (n := j)) in * by lia. rewrite (app_nth2 _ _ _ (n := length L)) in * by lia. rewrite LL, Nat.sub_diag in *. cbn [nth lro lsize fst snd] in *.
      apply (Ro j _ ltac:(lia) eq_refl Rn).
    + contradiction.
Qed.

(** ** Loops *)
Definition turn_chk (fuel : nat) (tw : gst sx) (inc body : stmt) (t : gst sx) (sg : list sx) (W : writes) : bool :=
  match turn sums fuel tw inc body t with
  | Some (sg', w) => same sg' sg && covered (length (gheap tw)) w W && forallb (fun '(l, _, _) => Nat.ltb l (length (gheap t))) W
  | None => false
  end.
Lemma wset_app_l L R W b q : forallb (fun '(l, _, _) => Nat.ltb l (length L)) W = true -> wset (L ++ R) W b q -> wset L W b q.
Proof.
  intros H (l & o & z & I & N & A). rewrite forallb_forall in H. specialize (H _ I). cbn beta iota in H. apply Nat.ltb_lt in H. exists l, o, z. split; [exact I|]. split; [exact H|].
  unfold lat in *. rewrite app_nth1 in A by exact H. exact A.
Qed.
Theorem stN_loop fuel t tw c cx inc body sg W (J : Z -> list N -> Prop) (K : mem -> Prop) a b L : a <= b ->
  sev t c = Some (GInt cx) -> turn_chk fuel tw inc body t sg W = true ->
  (forall i l, a <= i < b -> small l -> J i l -> D l cx <> 0) -> (forall l, small l -> J b l -> D l cx = 0) ->
  (forall i l e m, a <= i < b -> J i l -> K m -> stN L t l e m -> exists L2 ys, stN (L ++ L2) tw (l ++ ys) e m /\ J (i + 1) (evs_ p (l ++ ys) sg)) ->
  (forall m m', frame m m' (wset L W) -> K m -> K m') ->
  forall l e m (Q : outcome -> env -> mem -> Prop), stN L t l e m -> J a l -> K m ->
  (forall l' e' m', stN L t l' e' m' -> J b l' -> K m' -> frame m m' (wset L W) -> Q ONormal e' m') ->
  wp code (SLoop c inc body) e m Q.
Proof.
  intros Hab Hc Ht H1 H0 Hw HK. unfold turn_chk in Ht. destruct (turn sums fuel tw inc body t) as [[sg' w]|] eqn:E; [|discriminate].
  apply andb_true_iff in Ht. destruct Ht as [Ht Wl]. apply andb_true_iff in Ht. destruct Ht as [Sg Cv]. apply same_ok in Sg. destruct Sg as (-> & O & I).
  assert (G : forall k i l e m (Q : outcome -> env -> mem -> Prop), a <= i -> b - i = Z.of_nat k -> stN L t l e m -> J i l -> K m ->
    (forall l' e' m', stN L t l' e' m' -> J b l' -> K m' -> frame m m' (wset L W) -> Q ONormal e' m') -> wp code (SLoop c inc body) e m Q).
  { induction k as [|k IH]; intros i l e m Q Hi0 Ek S Hr Km HQ.
    - assert (i = b) by lia. subst i. destruct (sev_ok _ _ _ _ _ _ (proj2 S) _ _ Hc) as [_ P]. eapply wp_unroll; [exact P|].
      cbn [cv]. rewrite (H0 l (proj1 S) Hr). cbn. eapply HQ; [exact S|exact Hr|exact Km|apply frame_refl].
    - destruct (sev_ok _ _ _ _ _ _ (proj2 S) _ _ Hc) as [_ P]. eapply wp_unroll; [exact P|].
      pose proof (H1 i l ltac:(lia) (proj1 S) Hr) as Nz. cbn [cv]. unfold truth. cbn [int_of]. destruct (Z.eqb_spec (D l cx) 0); [contradiction|]. cbn [negb].
      destruct (Hw i l e m ltac:(lia) Hr Km S) as (L2 & ys & Sw & Jn). clear Hr. pose proof (stN_words _ _ _ _ _ Sw) as Wr.
      pose proof (sat_length _ _ _ _ _ (proj2 S)) as LL. pose proof (sat_length _ _ _ _ _ (proj2 Sw)) as LW. unfold turn in E.
      destruct (se sums fuel tw body) as [[[o1 s1] w1]|] eqn:E0; [cbn [olet] in E|discriminate E].
      eapply wp_weak; [eapply se_ok; [exact (phi_word p)|exact Wr|exact SP|exact (proj2 Sw)|exact E0]|]. intros o' e1 m1 (L1 & X1 & S1 & F1 & O1 & ->).
      assert (KK : (let* (o2, s2, w2) := se sums fuel s1 inc in match o2 with
          | SoN => let* s' := view t s2 in let* sg := fit t s' in if forallb is64 sg then Some (sg, w1 ++ w2) else None
          | _ => None end) = Some (sg, w) ->
        wp code inc e1 m1 (fun o e2 m2 => o = ONormal /\ wp code (SLoop c inc body) e2 m2 Q)).
      { clear E. intros E. osp. destruct v as [[o2 s2] w2]. destruct o2; try discriminate. osp. destruct (forallb is64 v0) eqn:K0; [|discriminate]. injection E as -> <-.
        eapply wp_weak; [eapply se_ok; [exact (phi_word p)|exact Wr|exact SP|exact S1|exact E1]|]. intros o' e2 m2 (L3 & X3 & S3 & F3 & O3 & ->). split; [reflexivity|].
        assert (X13 : ext m (L ++ L2) L3) by (eapply ext_trans; [apply F1|exact X1|exact X3]).
        assert (F13 : frame m m2 (wset L W)).
        { eapply frame_weak; [eapply frame_wset; [exact X1|exact F1|exact F3]|]. intros b0 p0 _ _ H. eapply wset_app_l; [rewrite LL; exact Wl|].
          eapply covered_ok; [exact Cv| |exact H]. lia. }
        pose proof (sat_view _ _ _ _ _ _ _ S3 E2) as S4.
        replace (firstn (length (gheap t)) L3) with L in S4.
        2:{ destruct X13 as (R & -> & _). rewrite <- LL, <- app_assoc, firstn_app, Nat.sub_diag, firstn_all, firstn_O, app_nil_r. reflexivity. }
        eapply (IH (i + 1)); [lia|lia|apply stN_vals; [exact (proj1 Sw)|exact O|exact I|eapply fit_sat; [exact S4|exact E3]]|exact Jn|eapply HK; [exact F13|exact Km]|].
        intros l' e' m' S' J' K' F'. eapply HQ; [exact S'|exact J'|exact K'|]. eapply frame_comp; [exact F13|exact F'|]. intros; assumption. }
      destruct o1; cbn [co]; try discriminate E; apply KK, E. }
  intros l e m Q. apply (G (Z.to_nat (b - a))); lia.
Qed.
End Win.

(** ** Arrays of bytes as words *)
Definition wat (x : list N) (o : N) (w : nat) : N := Base.le_val (Base.takeN (N.of_nat w) (Base.dropN o x)).
Fixpoint words_of (x : list N) (o : N) (ws : list nat) : list N :=
  match ws with [] => [] | w :: ws => wat x o w :: words_of x (o + N.of_nat w) ws end.
Lemma decode_ofN l : decode (map ofN l) = ofN (Base.le_val l).
Proof. induction l as [|x l IH]; cbn [map decode Base.le_val]; [reflexivity|]. rewrite IH. lia. Qed.
Lemma le_val_bound l : Base.bytes_ok l -> (Base.le_val l < 256 ^ Base.lenN l)%N.
Proof.
  induction 1 as [|x l H F IH]; cbn [Base.le_val]; [reflexivity|]. rewrite BaseProof.lenN_cons, N.pow_add_r. unfold Base.byte_ok in H.
  change (256 ^ 1)%N with 256%N. nia.
Qed.
Lemma holds_bytesat m b o x : holds m b o x -> forall w off, (off + N.of_nat w <= Base.lenN x)%N -> bytesat m b (o + ofN off) w = map ofN (Base.takeN (N.of_nat w) (Base.dropN off x)).
Proof.
  intros H w off B. apply (nth_ext _ _ 0 0).
  - rewrite bytesat_length, map_length. pose proof (BaseProof.lenN_takeN (N.of_nat w) (Base.dropN off x)) as E. rewrite BaseProof.lenN_dropN in E. unfold Base.lenN in *. lia.
  - intros k Hk. rewrite bytesat_length in Hk. rewrite nth_bytesat by exact Hk. replace (o + ofN off + Z.of_nat k) with (o + ofN (off + N.of_nat k)) by lia.
    rewrite (proj2 H) by lia. rewrite <- BaseProof.nthN_dropN. rewrite <- (BaseProof.nthN_takeN _ (N.of_nat w)) by lia. unfold BaseProof.nthN. rewrite Nat2N.id.
    exact (eq_sym (map_nth ofN _ 0%N k)).
Qed.
Lemma holds_arr m b o x : holds m b o x -> Base.bytes_ok x -> forall ws off, (ofN off + total ws <= ofN (Base.lenN x)) -> arr m b (o + ofN off) ws (map ofN (words_of x off ws)).
Proof.
  intros H B. induction ws as [|w ws IH]; intros off L; cbn [arr words_of map]; [exact I|]. unfold total in *. cbn [list_sum fold_right] in L. change (fold_right Nat.add 0%nat ws) with (list_sum ws) in L.
  split; [eapply inb_sub; [exact (proj1 H)|lia..]|]. split; [intros i Hi; eapply holds_isbyte; [exact H|exact B|lia]|]. split.
  - rewrite (holds_bytesat _ _ _ _ H) by lia. apply decode_ofN.
  - replace (o + ofN off + Z.of_nat w) with (o + ofN (off + N.of_nat w)) by lia. apply IH. lia.
Qed.
Lemma words_of_small x : Base.bytes_ok x -> forall ws off, forallb (fun w => Nat.leb w 8) ws = true -> small (words_of x off ws).
Proof.
  intros B. induction ws as [|w ws IH]; intros off H; cbn [words_of]; constructor; cbn [forallb] in H; brk; [|apply IH; assumption].
  unfold wat. eapply N.lt_le_trans; [apply le_val_bound|].
  - apply BaseProof.Forall_takeN, BaseProof.Forall_dropN, B.
  - change (2 ^ 64)%N with (256 ^ 8)%N. apply N.pow_le_mono_r; [discriminate|]. rewrite BaseProof.lenN_takeN. apply Nat.leb_le in H. lia.
Qed.
Lemma words_of_length x ws : forall off, length (words_of x off ws) = length ws.
Proof. induction ws as [|w ws IH]; intros off; cbn; [reflexivity|]. rewrite IH. reflexivity. Qed.
Lemma ext_firstn m L L' n : ext m L L' -> (length L <= n)%nat -> ext m L (firstn n L').
Proof.
  intros (R & -> & F) H. exists (firstn (n - length L) R). rewrite firstn_app, firstn_all2 by exact H. split; [reflexivity|].
  rewrite <- (firstn_skipn (n - length L) R) in F. apply Forall_app in F. apply F.
Qed.
Lemma ext_fresh m L L' j : ext m L L' -> (length L <= j < length L')%nat -> (mnext m <= fst (lat L' j))%positive.
Proof.
  intros (R & -> & F) H. rewrite app_length in H. unfold lat. rewrite app_nth2 by lia. rewrite Forall_forall in F. apply F, nth_In. lia.
Qed.
(** a part of an array of bytes that is not written: [L0] are the arrays there at the start, in memory [m0] *)
Theorem stN_bytes p m0 L0 L t l e m w b o x off : stN p L t l e m -> below_st (length l) t = true -> ext m0 L0 L -> (w_l w < length L0)%nat ->
  lat L0 (w_l w) = (b, o) -> w_o w + w_sc w * den (phi_of p) (rhoN l) (w_x w) = ofN off -> below (length l) (w_x w) = true ->
  (forall j lj, (j < length L0)%nat -> nth_error (gheap t) j = Some lj -> lro lj = false -> sep b o (ofN (Base.lenN x)) (fst (lat L0 j)) (snd (lat L0 j)) (lsize lj)) ->
  holds m0 b o x -> holds m b o x -> Base.bytes_ok x -> ofN off + total (w_ws w) <= ofN (Base.lenN x) -> forallb (fun w => Nat.leb w 8) (w_ws w) = true ->
  stN p (L ++ [(b, o + ofN off)]) (add_win t (length l) w) (l ++ words_of x off (w_ws w)) e m.
Proof.
  intros S B X Hl E V Bx Ro H0 H Bo L1 W8. assert (T0 : 0 <= total (w_ws w)) by (unfold total; lia). pose proof X as (R & EL & _).
  assert (Hl' : (w_l w < length L)%nat) by (rewrite EL, app_length; lia).
  eapply stN_win; try eassumption; rewrite ?(lat_ext _ _ _ _ X) by exact Hl; rewrite ?E; cbn [fst snd].
  - f_equal. lia.
  - intros j lj Ej Rj. pose proof (sat_length _ _ _ _ _ (proj2 S)) as LL. assert (Hj : (j < length L)%nat) by (rewrite LL; apply nth_error_Some; rewrite Ej; discriminate).
    destruct (Nat.ltb_spec j (length L0)) as [J|J].
    + specialize (Ro j lj J Ej Rj). rewrite (lat_ext _ _ _ _ X J). unfold sep in *. destruct Ro as [Ro|Ro]; [left; exact Ro|right; lia].
    + left. pose proof (ext_fresh _ _ _ j X ltac:(lia)) as Fr. pose proof (proj1 (proj1 H0)). lia.
  - apply holds_arr; assumption.
  - apply words_of_length.
  - apply words_of_small; assumption.
  - eapply inb_sub; [exact (proj1 H)|lia..].
Qed.
(** an array has been filled by other means *)
Theorem stN_put p L t l e m m' i ws ys t' : stN p L t l e m -> below_st (length l) t = true ->
  put_ps t i 0 (total ws) (var_ps (length l) 0 ws) = Some t' ->
  frame m m' (at_ (fst (lat L i)) (snd (lat L i)) (total ws)) -> arr m' (fst (lat L i)) (snd (lat L i)) ws (map ofN ys) -> length ys = length ws -> small ys ->
  stN p L t' (l ++ ys) e m'.
Proof.
  intros S B E F A Ly Sy. destruct (stN_more p L t l ys e m S B Sy) as [S1 S2]. split; [exact S1|]. eapply put_ok; [exact S2|exact E| |].
  - rewrite Z.add_0_r. exact F.
  - intros lc El. eapply (var_ps_ok p _ _ _ _ _ _ _ _ _ (map ofN ys)); [lia| |rewrite Z.add_0_r; exact A|].
    + unfold put_ps in E. rewrite El in E. cbn [olet] in E. destruct ((0 <=? 0) && (0 <=? total ws) && (0 + total ws <=? lsize lc) && negb (lro lc)) eqn:K; [lia|discriminate].
    + intros k Hk. unfold rhoN. rewrite app_nth2, Nat.add_comm, Nat.add_sub by lia. exact (eq_sym (map_nth ofN ys 0%N k)).
Qed.
(** what a place of the heap holds, as bytes *)
Fixpoint contig (o : Z) (ps : list (piece sx)) : option (list (nat * sx)) :=
  match ps with
  | [] => Some []
  | PI o' n x :: ps => if o' =? o then let* l := contig (o + Z.of_nat n) ps in Some ((n, x) :: l) else None
  | _ => None
  end.
Lemma contig_arr (f : sx -> Z) L m b base size : inb m b base size -> forall ps o l, contig o ps = Some l -> Forall (piece_ok f L m b base size) ps -> 0 <= o ->
  arr m b (base + o) (map fst l) (map (fun q => f (snd q)) l).
Proof.
  intros I. induction ps as [|[o' n x|o' v'] ps IH]; intros o l E F O; cbn [contig] in E; try discriminate E.
  - injection E as <-. exact Logic.I.
  - destruct (Z.eqb_spec o' o) as [->|]; [|discriminate E]. destruct (contig (o + Z.of_nat n) ps) as [l'|] eqn:E'; cbn [olet] in E; [|discriminate E]. injection E as <-.
    inversion F as [|? ? P F']; subst. cbn [piece_ok] in P. destruct P as (P1 & P2 & P3 & P4). cbn [map fst snd arr].
    split; [eapply inb_sub; [exact I|lia..]|]. split; [exact P3|]. split; [exact P4|]. replace (base + o + Z.of_nat n) with (base + (o + Z.of_nat n)) by lia. apply IH; [assumption..|lia].
Qed.
Fixpoint bytes_of (ws : list nat) (ys : list N) : list N :=
  match ws, ys with w :: ws, y :: ys => Base.le_bytes w y ++ bytes_of ws ys | _, _ => [] end.
Lemma isbytes_of m b : forall n o, isbytes m b o (Z.of_nat n) -> bytesat m b o n = map ofN (Base.le_bytes n (Z.to_N (decode (bytesat m b o n)))).
Proof.
  induction n as [|n IH]; intros o H; cbn [bytesat Base.le_bytes map decode]; [reflexivity|].
  assert (B : isbyte (byte m b o)) by (apply H; lia). assert (H' : isbytes m b (o + 1) (Z.of_nat n)) by (intros i Hi; apply H; lia). specialize (IH (o + 1) H').
  pose proof (decode_fits m b (o + 1) n H') as Fd. unfold fits in Fd. set (d := decode (bytesat m b (o + 1) n)) in *. unfold isbyte in B. f_equal.
  - rewrite N2Z.inj_mod. rewrite Z2N.id by lia. change (ofN 256) with 256. replace (byte m b o + 256 * d) with (byte m b o + d * 256) by lia. rewrite Z.mod_add, Z.mod_small by lia. reflexivity.
  - rewrite IH. do 2 f_equal. replace (Z.to_N (byte m b o + 256 * d)) with (Z.to_N (byte m b o) + Z.to_N d * 256)%N by lia.
    rewrite N.div_add, N.div_small by lia. reflexivity.
Qed.
Lemma holds_app m b o x y : holds m b o x -> holds m b (o + ofN (Base.lenN x)) y -> holds m b o (x ++ y).
Proof.
  intros [I1 H1] [I2 H2]. split.
  - rewrite BaseProof.lenN_app. destruct I1 as (A1 & A2 & A3 & A4), I2 as (B1 & B2 & B3 & B4). split; [exact A1|]. lia.
  - intros i Hi. rewrite BaseProof.lenN_app in Hi. destruct (N.ltb_spec i (Base.lenN x)) as [L|L].
    + rewrite BaseProof.nthN_app_l by exact L. apply H1, L.
    + rewrite BaseProof.nthN_app_r by exact L. rewrite <- H2 by lia. f_equal. lia.
Qed.
Lemma holds_nil m b o : inb m b o 0 -> holds m b o [].
Proof. intros I. split; [exact I|]. intros i Hi. unfold Base.lenN in Hi. cbn in Hi. lia. Qed.
Lemma arr_inb m b : forall ws o xs, arr m b o ws xs -> inb m b o 0 -> inb m b o (total ws).
Proof.
  induction ws as [|w ws IH]; intros o xs A I; [exact I|]. destruct xs as [|x xs]; [destruct A|]. destruct A as (I1 & _ & _ & A). unfold total in *. cbn [list_sum fold_right].
  change (fold_right Nat.add 0%nat ws) with (list_sum ws). specialize (IH _ _ A). destruct I1 as (A1 & A2 & A3 & A4). destruct IH as (B1 & B2 & B3 & B4).
  { split; [exact A1|]. lia. }
  split; [exact A1|]. lia.
Qed.
Lemma arr_holds m b : forall ws o ys, arr m b o ws (map ofN ys) -> inb m b o 0 -> holds m b o (bytes_of ws ys).
Proof.
  induction ws as [|w ws IH]; intros o ys A I; [apply holds_nil, I|]. destruct ys as [|y ys]; [destruct A|]. destruct A as (I1 & B & E & A). cbn [bytes_of].
  assert (Ey : y = Z.to_N (decode (bytesat m b o w))) by lia. apply holds_app.
  - split; [rewrite BaseProof.lenN_le_bytes; replace (ofN (N.of_nat w)) with (Z.of_nat w) by lia; exact I1|]. intros i Hi. rewrite BaseProof.lenN_le_bytes in Hi.
    pose proof (isbytes_of m b w o B) as K. rewrite <- Ey in K. apply (f_equal (fun l => nth (N.to_nat i) l 0)) in K. rewrite nth_bytesat in K by lia.
    replace (o + ofN i) with (o + Z.of_nat (N.to_nat i)) by lia. rewrite K. exact (map_nth ofN _ 0%N _).
  - rewrite BaseProof.lenN_le_bytes. replace (ofN (N.of_nat w)) with (Z.of_nat w) by lia. apply IH; [exact A|]. destruct I1 as (A1 & A2 & A3 & A4). split; [exact A1|]. lia.
Qed.
Lemma stN_holds p L t l e m i lc q : stN p L t l e m -> nth_error (gheap t) i = Some lc -> contig 0 (lps lc) = Some q -> forallb okN (map snd q) = true ->
  holds m (fst (lat L i)) (snd (lat L i)) (bytes_of (map fst q) (evs_ p l (map snd q))).
Proof.
  intros S E C O. destruct (locat_ok (phi_of p) (rhoN l) _ _ _ _ _ _ (proj2 S) E) as (_ & I & _ & F). apply arr_holds; [|eapply inb_sub; [exact I|pose proof (proj1 (proj2 (proj2 I))); lia..]].
  pose proof (contig_arr _ _ _ _ _ _ I _ _ _ C F ltac:(lia)) as A. rewrite Z.add_0_r in A. replace (map ofN (evs_ p l (map snd q))) with (map (fun x => den (phi_of p) (rhoN l) (snd x)) q); [exact A|].
  unfold evs_. rewrite !map_map. apply map_ext_in. intros x Hx. apply denN_ok; [exact (rhoN_holds l)|exact (stN_words _ _ _ _ _ _ S)|].
  rewrite forallb_forall in O. apply O, in_map, Hx.
Qed.
(** an array of zeros has been filled in part *)
Definition padded (x : list N) (off n lb : N) : list N := Base.takeN n (Base.dropN off x) ++ Base.zeros (lb - n).
Lemma padded_bytes x off n lb : Base.bytes_ok x -> Base.bytes_ok (padded x off n lb).
Proof.
  intros B. apply Forall_app. split; [apply BaseProof.Forall_takeN, BaseProof.Forall_dropN, B|]. apply Forall_forall. intros y Hy. apply repeat_spec in Hy. subst. reflexivity.
Qed.
Lemma padded_len x off n lb : (off + n <= Base.lenN x)%N -> (n <= lb)%N -> Base.lenN (padded x off n lb) = lb.
Proof. intros H1 H2. unfold padded. rewrite BaseProof.lenN_app, BaseProof.lenN_takeN, BaseProof.lenN_dropN, BaseProof.lenN_zeros. lia. Qed.
Lemma copy_padded m b o z bx ox x off n lb : holds m b o (Base.zeros z) -> holds m bx ox x -> (off + n <= Base.lenN x)%N -> (n <= lb)%N -> (lb <= z)%N ->
  holds (copy m b o bx (ox + ofN off) (ofN n)) b o (padded x off n lb).
Proof.
  intros [I0 H0] [I1 H1] Hx Hn Hz. rewrite BaseProof.lenN_zeros in I0, H0. split.
  - rewrite padded_len by assumption. apply inb_copy. eapply inb_sub; [exact I0|lia..].
  - intros i Hi. rewrite padded_len in Hi by assumption. unfold padded. destruct (N.ltb_spec i n) as [L|L].
    + rewrite byte_copy by (lia || (eapply inb_sub; [exact I0|lia..])). rewrite BaseProof.nthN_app_l by (rewrite BaseProof.lenN_takeN, BaseProof.lenN_dropN; lia).
      rewrite BaseProof.nthN_takeN, BaseProof.nthN_dropN by lia. rewrite <- H1 by lia. f_equal. lia.
    + rewrite byte_copy_other by ((eapply inb_sub; [exact I0|lia..]) || (destruct I0; lia)). rewrite H0 by lia. rewrite BaseProof.nthN_zeros.
      rewrite BaseProof.nthN_app_r by (rewrite BaseProof.lenN_takeN, BaseProof.lenN_dropN; lia). rewrite BaseProof.nthN_zeros. reflexivity.
Qed.
Theorem stN_fill p L t l e m i z bx ox x off n ws t' : stN p L t l e m -> below_st (length l) t = true ->
  holds m (fst (lat L i)) (snd (lat L i)) (Base.zeros z) -> holds m bx ox x -> Base.bytes_ok x -> (off + n <= Base.lenN x)%N -> (n <= Z.to_N (total ws) <= z)%N ->
  forallb (fun w => Nat.leb w 8) ws = true -> put_ps t i 0 (total ws) (var_ps (length l) 0 ws) = Some t' ->
  stN p L t' (l ++ words_of (padded x off n (Z.to_N (total ws))) 0 ws) e (copy m (fst (lat L i)) (snd (lat L i)) bx (ox + ofN off) (ofN n)).
Proof.
  intros S B H0 H1 Bx Hx Hn W8 Pt. assert (T0 : 0 <= total ws) by (unfold total; lia). pose proof (proj1 H0) as I0. rewrite BaseProof.lenN_zeros in I0.
  eapply stN_put; [exact S|exact B|exact Pt| | | |].
  - apply frame_copy; [eapply inb_sub; [exact I0|lia..]|]. unfold at_. intros; lia.
  - assert (K : holds (copy m (fst (lat L i)) (snd (lat L i)) bx (ox + ofN off) (ofN n)) (fst (lat L i)) (snd (lat L i)) (padded x off n (Z.to_N (total ws)))) by (eapply copy_padded; [exact H0|exact H1|lia..]).
    pose proof (holds_arr _ _ _ _ K (padded_bytes _ _ _ _ Bx) ws 0%N) as A. rewrite Z.add_0_r in A. apply A. rewrite padded_len by lia. lia.
  - apply words_of_length.
  - apply words_of_small; [apply padded_bytes, Bx|exact W8].
Qed.
(** values of variables *)
Lemma stN_env p L t l e m x v : stN p L t l e m -> assoc x (genv t) = Some v -> lookup e x = cv (den (phi_of p) (rhoN l)) L v.
Proof. intros S E. apply (sat_env _ _ _ _ _ (proj2 S) _ _ E). Qed.
(** the state at the start of a function *)
Lemma env_intro {X} (f : X -> Z) L e l : Forall (fun '(x, v) => okv L v /\ lookup e x = cv f L v) l -> env_ok f L e l.
Proof.
  intros H x v E. induction H as [|[y w] l A F IH]; cbn [assoc] in E; [discriminate|]. destruct (Pos.eqb_spec x y) as [->|N]; [injection E as <-; exact A|apply IH, E].
Qed.
(** at most the first place is written to *)
Lemma apart_first {X} L (l0 : loc X) ls : forallb lro ls = true ->
  (lro l0 = false -> forall j lj, nth_error ls j = Some lj -> sep (fst (lat L 0)) (snd (lat L 0)) (lsize l0) (fst (lat L (S j))) (snd (lat L (S j))) (lsize lj)) -> apart L (l0 :: ls).
Proof.
  intros H S i j Hi Hj N R. rewrite forallb_forall in H. cbn [length] in Hi, Hj. destruct i as [|i], j as [|j]; [contradiction| | |]; cbn [nth] in *.
  - assert (Rj : lro (nth j ls (Loc false false 0 [])) = true) by (apply H, nth_In; lia). rewrite Rj, andb_true_r in R. apply S; [exact R|]. apply nth_error_nth'. lia.
  - assert (Ri : lro (nth i ls (Loc false false 0 [])) = true) by (apply H, nth_In; lia). rewrite Ri in R. cbn [andb] in R.
    assert (K := S R i (nth i ls (Loc false false 0 [])) ltac:(apply nth_error_nth'; lia)). unfold sep in *. destruct K as [K|K]; [left; congruence|right; lia].
  - rewrite (H (nth i ls (Loc false false 0 []))), (H (nth j ls (Loc false false 0 []))) in R by (apply nth_In; lia). discriminate.
Qed.
(** 32-bit numbers *)
Lemma nadd a b : (a + b < 2 ^ 32)%N -> bin OAdd u32 (ofN a) (ofN b) = ofN (a + b)%N.
Proof. intros H. cbn [bin]. rewrite wrap_u32 by lia. lia. Qed.
Lemma nsub a b : (b <= a)%N -> (a < 2 ^ 32)%N -> bin OSub u32 (ofN a) (ofN b) = ofN (a - b)%N.
Proof. intros H K. cbn [bin]. rewrite wrap_u32 by lia. lia. Qed.
Lemma nmul a b : (a * b < 2 ^ 32)%N -> bin OMul u32 (ofN a) (ofN b) = ofN (a * b)%N.
Proof. intros H. cbn [bin]. rewrite <- N2Z.inj_mul. apply wrap_u32. lia. Qed.
Lemma ndiv a b : (0 < b)%N -> (a < 2 ^ 32)%N -> div ODiv u32 (ofN a) (ofN b) = ofN (a / b)%N.
Proof.
  intros H K. unfold div. rewrite Z.quot_div_nonneg by lia. rewrite <- N2Z.inj_div. apply wrap_u32.
  pose proof (N.mul_div_le a b ltac:(lia)) as Q. generalize dependent (a / b)%N. intros q Q. assert (q <= a)%N by nia. lia.
Qed.
Lemma nmod a b : (0 < b)%N -> (b < 2 ^ 32)%N -> div OMod u32 (ofN a) (ofN b) = ofN (a mod b)%N.
Proof. intros H B. unfold div. rewrite Z.rem_mod_nonneg by lia. rewrite <- N2Z.inj_mod. pose proof (N.mod_lt a b ltac:(lia)) as Q. apply wrap_u32. generalize dependent (a mod b)%N. intros q Q. lia. Qed.
(** the next statement *)
Definition head (n : nat) (c : stmt) : option stmt := match suf n c with SSeq a _ => Some a | _ => None end.
Lemma suf_S : forall n c a b, suf n c = SSeq a b -> suf (S n) c = b.
Proof.
  induction n as [|n IH]; intros c a b E; [cbn [suf] in E; subst c; reflexivity|]. destruct c; cbn [suf] in *; try discriminate E. apply (IH _ _ _ E).
Qed.
Lemma wp_head n c a e m (Q : outcome -> env -> mem -> Prop) : head n c = Some a ->
  wp code a e m (fun o e m => match o with ONormal => wp code (suf (S n) c) e m Q | _ => Q o e m end) -> wp code (suf n c) e m Q.
Proof.
  unfold head. destruct (suf n c) as [|x y| | | | | | | | | | | | | | | | |] eqn:E; try discriminate. intros [= ->] H. apply wp_seq. rewrite (suf_S _ _ _ _ E) in H. exact H.
Qed.
