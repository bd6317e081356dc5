(** What symbolic integers denote when everything is a natural number. *)
From Coq Require Import ZArith NArith List Bool FMapPositive Lia ZifyBool Arith.
From Verif Require Import Model.CtLang Model.CtNames Model.CtProgram Proof.RefLogic Proof.RefTac Proof.RefBytes Proof.RefMem Proof.RefSe Proof.RefSx.
From Verif Require Model.Base Model.Limbs.
Import ListNotations.
Local Open Scope Z_scope.

Definition phi_of (p : nat -> list N -> list N) (f : nat) (xs : list Z) : list Z :=
  map (fun n => ofN (n mod 2 ^ 64)) (p f (map Z.to_N xs)).
Lemma phi_word p f xs k : word (nth k (phi_of p f xs) 0).
Proof.
  unfold phi_of. destruct (Nat.ltb_spec k (length (p f (map Z.to_N xs)))) as [H|H].
  - rewrite (nth_indep _ 0 (ofN (0 mod 2 ^ 64))) by (rewrite map_length; exact H). rewrite (map_nth (fun n => ofN (n mod 2 ^ 64))).
    pose proof (N.mod_lt (nth k (p f (map Z.to_N xs)) 0%N) (2 ^ 64) ltac:(discriminate)). unfold word. lia.
  - rewrite nth_overflow by (rewrite map_length; exact H). unfold word. lia.
Qed.
Lemma phi_nth p f xs k : nth k (phi_of p f xs) 0 = ofN (nth k (p f (map Z.to_N xs)) 0%N mod 2 ^ 64).
Proof.
  unfold phi_of. destruct (Nat.ltb_spec k (length (p f (map Z.to_N xs)))) as [H|H].
  - rewrite (nth_indep _ 0 (ofN (0 mod 2 ^ 64))) by (rewrite map_length; exact H). apply (map_nth (fun n => ofN (n mod 2 ^ 64))).
  - rewrite !nth_overflow by (rewrite ?map_length; exact H). reflexivity.
Qed.

Definition b2n (b : bool) : N := if b then 1%N else 0%N.
Section DenN.
Context (p : nat -> list N -> list N) (r : nat -> N).
Fixpoint denN (x : sx) : N :=
  match x with
  | SC z => Z.to_N z
  | SV i => r i
  | SU OCast (IT _ w) a => if is64 a && (w =? 64) then denN a else (denN a mod 2 ^ Z.to_N w)%N
  | SU ONeg _ a => Limbs.neg64 (denN a)
  | SB OAnd _ a b => N.land (denN a) (denN b)
  | SB OOr _ a b => N.lor (denN a) (denN b)
  | SB OXor _ a b => N.lxor (denN a) (denN b)
  | SB OShl _ a b => Limbs.shl64 (denN a) (denN b)
  | SB OShr _ a b => N.shiftr (denN a) (denN b)
  | SB o t a b => Z.to_N (bin o t (ofN (denN a)) (ofN (denN b)))
  | SD o t a b => Z.to_N (div o t (ofN (denN a)) (ofN (denN b)))
  | SA f k l => (nth k (p f (map denN l)) 0 mod 2 ^ 64)%N
  | _ => 0%N
  end.
Fixpoint okN (x : sx) : bool :=
  match x with
  | SC z => 0 <=? z
  | SV i => true
  | SU OCast (IT s w) a => negb s && (0 <? w) && okN a
  | SU ONeg (IT s w) a => negb s && (w =? 64) && is64 a && okN a
  | SB (OAnd | OOr | OXor | OShr) _ a b => okN a && okN b
  | SB OShl (IT s w) a b => negb s && (w =? 64) && okN a && okN b
  | SB (OAdd | OSub | OMul | OLt | OLe | OGt | OGe | OEq | ONe) _ a b => okN a && okN b && is64 x
  | SD _ _ a b => okN a && okN b && is64 x
  | SA f k l => forallb okN l
  | _ => false
  end.
Lemma wrap_mod w n : 0 < w -> wrap (IT false w) (ofN n) = ofN (n mod 2 ^ Z.to_N w).
Proof. intros H. unfold wrap. cbn [andb]. rewrite Z.land_ones by lia. rewrite N2Z.inj_mod, N2Z.inj_pow, Z2N.id by lia. reflexivity. Qed.
Lemma wrap_neg n : (n < 2 ^ 64)%N -> wrap u64 (- ofN n) = ofN (Limbs.neg64 n).
Proof.
  intros H. unfold wrap, u64, Limbs.neg64. cbn [andb]. rewrite Z.land_ones by lia. rewrite N2Z.inj_mod, N2Z.inj_sub, N2Z.inj_pow by lia.
  replace (2 ^ 64 - ofN n) with (- ofN n + 1 * 2 ^ 64) by lia. change (ofN 2 ^ ofN 64) with (2 ^ 64). replace (2 ^ 64 - ofN n) with (- ofN n + 1 * 2 ^ 64) by lia.
  rewrite Z.mod_add by lia. reflexivity.
Qed.
Lemma denN_ok rho (Hr : forall i, rho i = ofN (r i)) : words rho -> forall x, okN x = true -> den (phi_of p) rho x = ofN (denN x).
Proof.
  intros W. fix IH 1. intros [z|i|o t a|o t a b|o t a b|f k l]; cbn [okN den denN].
  all: try match goal with |- context [div] => intros H; brk; pose proof (is64_ok (phi_of p) rho (phi_word p) W _ H0) as B; cbn [den] in B;
    rewrite (IH a H), (IH b H1) in *; unfold word in B; rewrite Z2N.id by lia; reflexivity end.
  - intros H. rewrite Z2N.id by lia. reflexivity.
  - intros _. apply Hr.
  - destruct o; try discriminate; destruct t as [s w]; intros H; brk.
    + apply Z.eqb_eq in H2 || idtac. assert (E : IT s w = u64) by (destruct s; [discriminate|]; unfold u64; f_equal; lia). rewrite E. cbn [un].
      pose proof (is64_ok (phi_of p) rho (phi_word p) W a H1) as B. rewrite (IH a H0) in *. apply wrap_neg. unfold word in B. lia.
    + destruct s; [discriminate|]. cbn [un]. rewrite (IH a H0). destruct (is64 a && (w =? 64)) eqn:C.
      * brk. subst w. pose proof (is64_ok (phi_of p) rho (phi_word p) W a H2) as B. rewrite (IH a H0) in B. apply wrap_u64. unfold word in B. lia.
      * apply wrap_mod. lia.
  - destruct o; try discriminate; intros H.
    all: try (match type of H with context [is64] => idtac end; brk; pose proof (is64_ok (phi_of p) rho (phi_word p) W _ H0) as B; cbn [den] in B;
      rewrite (IH a H), (IH b H1) in *; unfold word in B; rewrite Z2N.id by lia; reflexivity).
    + brk. cbn [bin]. rewrite (IH a H), (IH b H0). apply ofN_land.
    + brk. cbn [bin]. rewrite (IH a H), (IH b H0). apply ofN_lor.
    + brk. cbn [bin]. rewrite (IH a H), (IH b H0). apply ofN_lxor.
    + destruct t as [s w]. brk. destruct s; [discriminate|]. subst w. cbn [bin]. rewrite (IH a H1), (IH b H0), ofN_shiftl, wrap_mod by lia. reflexivity.
    + brk. cbn [bin]. rewrite (IH a H), (IH b H0). apply ofN_shiftr.
  - intros H. rewrite phi_nth. do 4 f_equal. rewrite map_map. clear k. induction l as [|x l IHl]; cbn [map forallb] in *; [reflexivity|].
    brk. rewrite (IH x H), N2Z.id, IHl by exact H0. reflexivity.
Qed.
End DenN.

(** ** Functions with one counting loop *)
Definition evs_ (p : nat -> list N -> list N) (l : list N) (sg : list sx) : list N := map (denN p (fun k => nth k l 0%N)) sg.
Definition small (l : list N) : Prop := Forall (fun n => (n < 2 ^ 64)%N) l.
Definition holdsN (rho : nat -> Z) (l : list N) : Prop := forall k, rho k = ofN (nth k l 0%N).
Lemma small_nth l k : small l -> (nth k l 0 < 2 ^ 64)%N.
Proof.
  intros H. destruct (Nat.ltb_spec k (length l)) as [L|L]; [|rewrite nth_overflow by exact L; reflexivity].
  eapply (proj1 (Forall_forall _ _) H). apply nth_In, L.
Qed.
Lemma holdsN_words rho l : small l -> holdsN rho l -> words rho.
Proof. intros S H k. rewrite H. pose proof (small_nth l k S). unfold word. lia. Qed.
Lemma evs_nth p l sg k : nth k (evs_ p l sg) 0%N = denN p (fun k => nth k l 0%N) (nth k sg (SC 0)).
Proof. exact (map_nth (denN p (fun k => nth k l 0%N)) sg (SC 0) k). Qed.
Lemma evs_holds p rho l sg : small l -> holdsN rho l -> forallb okN sg = true -> holdsN (vals (phi_of p) rho sg) (evs_ p l sg).
Proof.
  intros S H O k. rewrite evs_nth. unfold vals. apply denN_ok; [exact H|eapply holdsN_words; eassumption|].
  destruct (Nat.ltb_spec k (length sg)) as [L|L]; [|rewrite nth_overflow by exact L; reflexivity].
  rewrite forallb_forall in O. apply O, nth_In, L.
Qed.
Lemma evs_small p rho l sg : small l -> holdsN rho l -> forallb okN sg = true -> forallb is64 sg = true -> small (evs_ p l sg).
Proof.
  intros S H O Q. pose proof (evs_holds p rho l sg S H O) as E. pose proof (vals_words (phi_of p) (phi_word p) rho sg (holdsN_words _ _ S H) Q) as W.
  apply Forall_forall. intros x Hx. apply (In_nth _ _ 0%N) in Hx. destruct Hx as (k & _ & <-). specialize (E k). specialize (W k). unfold word in W. lia.
Qed.

Definition same (a b : list sx) : bool := list_eqb sx_eqb a b && forallb okN a && forallb is64 a.
Lemma same_ok a b : same a b = true -> a = b /\ forallb okN a = true /\ forallb is64 a = true.
Proof. unfold same. intros H. brk. split; [apply (list_eqb_eq _ sx_eqb_eq); assumption|]. auto. Qed.
Definition Zs (a b : Z) : list Z := map (fun k => a + Z.of_nat k) (seq 0 (Z.to_nat (b - a))).
Lemma In_Zs a b i : a <= i < b -> In i (Zs a b).
Proof. intros H. unfold Zs. apply in_map_iff. exists (Z.to_nat (i - a)). split; [lia|]. apply in_seq. lia. Qed.
Record loopy := Loopy { y_n0 : nat; y_a : Z; y_b : Z; y_T : Z -> gst sx; y_sg0 : list sx; y_sg : Z -> list sx; y_W : writes; y_end : list sx }.
Definition loop_chk (sums : list (positive * summary)) (fuel : nat) (t0 : gst sx) (body : stmt) (n : nat) (y : loopy) (k : gst sx -> stmt -> bool) : bool :=
  match suf (y_n0 y) body with
  | SSeq (SLoop c inc bd) rest =>
      match lead sums fuel (y_n0 y) t0 body (y_T y (y_a y)) with
      | Some (sg, w) => same sg (y_sg0 y) && covered (length (gheap t0)) w [] | None => false end &&
      forallb (fun i => match sev (y_T y i) c with Some (GInt (SC 1)) => true | _ => false end &&
        match turn sums fuel (y_T y i) inc bd (y_T y (i + 1)) with Some (sg, w) => same sg (y_sg y i) && covered n w (y_W y) | None => false end) (Zs (y_a y) (y_b y)) &&
      covered (length (gheap t0)) (y_W y) [] &&
      match sev (y_T y (y_b y)) c with Some (GInt (SC 0)) => true | _ => false end && k (y_T y (y_b y)) rest
  | _ => false
  end.
Lemma wset_firstn n L w b p : wset (firstn n L) w b p -> wset L w b p.
Proof.
  intros (l & o & z & I & H & A). exists l, o, z. split; [exact I|]. rewrite <- (firstn_skipn n L). split; [rewrite app_length; lia|].
  unfold lat in *. rewrite app_nth1 by exact H. exact A.
Qed.
Lemma loop_run p sums fuel t0 body n y k (Jn : Z -> list N -> Prop) xs rho L e m (Q : outcome -> env -> mem -> Prop) :
  Forall (spec_ok (phi_of p)) sums -> y_a y <= y_b y -> (forall i, length (gheap (y_T y i)) = n) -> loop_chk sums fuel t0 body n y k = true ->
  small xs -> holdsN rho xs -> sat (den (phi_of p) rho) L t0 e m ->
  (length (gheap t0) <= n)%nat ->
  Jn (y_a y) (evs_ p xs (y_sg0 y)) ->
  (forall i l, y_a y <= i < y_b y -> small l -> Jn i l -> Jn (i + 1) (evs_ p l (y_sg y i))) ->
  (forall rest L' l rho' e' m', k (y_T y (y_b y)) rest = true -> ext m L L' -> small l -> holdsN rho' l -> Jn (y_b y) l -> sat (den (phi_of p) rho') L' (y_T y (y_b y)) e' m' ->
     frame m m' nothing -> wp code rest e' m' Q) ->
  wp code body e m Q.
Proof.
  intros SP Hab Hn C Sx Hx S Hle J0 J1 HQ. unfold loop_chk in C. destruct (suf (y_n0 y) body) eqn:Eb; try discriminate C.
  match type of C with match ?s with _ => _ end = true => destruct s eqn:Es; try discriminate C end. subst. brk.
  rename s3 into inc, s4 into bd, s2 into rest.
  destruct (lead sums fuel (y_n0 y) t0 body (y_T y (y_a y))) as [[sg0 w0]|] eqn:El; [|discriminate]. brk. apply same_ok in H. destruct H as (-> & O0 & I0).
  pose proof (holdsN_words _ _ Sx Hx) as Wr. pose proof (sat_length _ _ _ _ _ S) as LL.
  eapply lead_ok; [exact (phi_word p)|exact SP|exact Wr|exact El|exact S|]. intros L1 e1 m1 X1 W1 S1 F1. rewrite Eb, Hn in *. apply wp_seq.
  assert (L1n : (n <= length L1)%nat).
  { pose proof (sat_length _ _ _ _ _ S1) as K. rewrite Hn, firstn_length in K. lia. }
  assert (X1' : ext m L (firstn n L1)).
  { destruct X1 as (R & -> & FR). exists (firstn (n - length L) R). split; [rewrite firstn_app, firstn_all2 by lia; reflexivity|]. apply Forall_forall. intros z Hz.
    rewrite Forall_forall in FR. apply FR. rewrite <- (firstn_skipn (n - length L) R). apply in_or_app. left. exact Hz. }
  eapply (loop_ok (phi_of p) (phi_word p) sums SP n (y_T y) (y_sg y) (y_W y) (fun i rho => exists l, small l /\ holdsN rho l /\ Jn i l) (fun i => if i =? y_b y then SC 0 else SC 1) fuel c inc bd (y_a y) (y_b y)).
  - exact Hab.
  - exact Hn.
  - intros i Hi. destruct (Z.eqb_spec i (y_b y)) as [->|N].
    + destruct (sev (y_T y (y_b y)) c) as [[[[| |]| | | | |]| |]|]; try discriminate. reflexivity.
    + rewrite forallb_forall in H3. specialize (H3 i (In_Zs (y_a y) (y_b y) i ltac:(lia))). brk. destruct (sev (y_T y i) c) as [[[[|[| |]|]| | | | |]| |]|]; try discriminate. reflexivity.
  - intros i Hi. rewrite forallb_forall in H3. specialize (H3 i (In_Zs (y_a y) (y_b y) i ltac:(lia))). brk.
    destruct (turn sums fuel (y_T y i) inc bd (y_T y (i + 1))) as [[sg w]|] eqn:Et; [|discriminate]. brk. match goal with H : same _ _ = true |- _ => apply same_ok in H; destruct H as (-> & _) end. eauto.
  - intros i rho1 Hi Wr1 (l & Sl & Hl & Jl). destruct (Z.eqb_spec i (y_b y)) as [->|N]; [lia|]. split; [discriminate|].
    rewrite forallb_forall in H3. specialize (H3 i (In_Zs (y_a y) (y_b y) i ltac:(lia))). brk.
    destruct (turn sums fuel (y_T y i) inc bd (y_T y (i + 1))) as [[sg w]|] eqn:Et; [|discriminate]. brk. match goal with H : same _ _ = true |- _ => apply same_ok in H; destruct H as (-> & O & Q64) end.
    exists (evs_ p l (y_sg y i)). split; [eapply evs_small; eassumption|]. split; [apply evs_holds; assumption|]. apply J1; assumption.
  - intros rho1 _ _. rewrite Z.eqb_refl. reflexivity.
  - exact S1.
  - exact W1.
  - exists (evs_ p xs (y_sg0 y)). split; [eapply evs_small; eassumption|]. split; [apply evs_holds; assumption|exact J0].
  - intros rho' e' m' Wr' (l & Sl & Hl & Jl) S' F'. eapply (HQ rest); try eassumption.
    eapply frame_weak; [eapply frame_wset; [exact X1'|exact F1|exact F']|]. intros b q B1 B2 B3. apply wset_app in B3.
    assert (B : wset L [] b q) by (destruct B3 as [B3|B3]; [eapply covered_ok; [exact H4|lia|exact B3]|eapply covered_ok; [exact H2|lia|exact B3]]).
    destruct B as (? & ? & ? & [] & _).
Qed.

(** what is left after the loop, for a result in memory and for a value *)
Definition tail_out (sums : list (positive * summary)) (fuel n0 : nat) (ws : list nat) (sg : list sx) (t : gst sx) (rest : stmt) : bool :=
  match trip sums fuel t rest (out_st ws) with
  | Some ((SoN | SoR _), sg', w) => same sg' sg && covered n0 w [(0%nat, 0, total ws)]
  | _ => false
  end.
Definition tail_val (sums : list (positive * summary)) (fuel n0 : nat) (x : sx) (t : gst sx) (rest : stmt) : bool :=
  match se sums fuel t rest with
  | Some (SoR (GInt x'), _, w) => same [x'] [x] && covered n0 w []
  | _ => false
  end.
Lemma small_of ws xs : forallb (fun w => Nat.leb w 8) ws = true -> Forall2 fits ws xs -> small (map Z.to_N xs) /\ holdsN (rho_of xs) (map Z.to_N xs).
Proof.
  intros H F. pose proof (words_rho_of _ _ H F) as W. split.
  - apply Forall_forall. intros x Hx. apply in_map_iff in Hx. destruct Hx as (z & <- & Hz). apply (In_nth _ _ 0) in Hz. destruct Hz as (k & _ & <-). specialize (W k). unfold rho_of, word in W. lia.
  - intros k. specialize (W k). unfold rho_of in *. change 0%N with (Z.to_N 0). rewrite map_nth, Z2N.id by apply W. reflexivity.
Qed.
(** the arguments, as natural numbers *)
Definition fitsN (w : nat) (n : N) : Prop := (n < 2 ^ (8 * N.of_nat w))%N.
Lemma fits_N ws xs : Forall2 fits ws xs -> Forall2 fitsN ws (map Z.to_N xs).
Proof.
  induction 1 as [|w x ws xs H F IH]; cbn [map]; constructor; [|exact IH]. unfold fits, fitsN in *. apply N2Z.inj_lt. rewrite N2Z.inj_pow, N2Z.inj_mul, Z2N.id by lia.
  rewrite nat_N_Z. apply H.
Qed.
Theorem loop_out p sums f sm ws fn t0 fuel n y (J : list N -> Z -> list N -> Prop) : Forall (spec_ok (phi_of p)) sums ->
  sm_out sm = Some ws -> PositiveMap.find f code = Some fn -> entry_st fn sm = Some t0 -> ok_pars (sm_pars sm) = true ->
  y_a y <= y_b y -> (forall i, length (gheap (y_T y i)) = n) -> Nat.leb (length (gheap t0)) n = true ->
  loop_chk sums fuel t0 (fbody fn) n y (tail_out sums fuel (length (gheap t0)) ws (y_end y)) = true ->
  (forall xs, Forall2 fitsN (widths (sm_pars sm)) xs -> J xs (y_a y) (evs_ p xs (y_sg0 y))) ->
  (forall xs i l, Forall2 fitsN (widths (sm_pars sm)) xs -> y_a y <= i < y_b y -> small l -> J xs i l -> J xs (i + 1) (evs_ p l (y_sg y i))) ->
  (forall xs l, Forall2 fitsN (widths (sm_pars sm)) xs -> small l -> J xs (y_b y) l ->
     forall k, (k < length ws)%nat -> nth k (evs_ p l (y_end y)) 0%N = nth k (p (sm_fid sm) xs) 0%N) ->
  spec_ok (phi_of p) (f, sm).
Proof.
  intros SP Ho Hf He Hp Hab Hn Hle C J0 J1 J2. eapply contract_out; try eassumption. intros xs m L e Fx Wx S. apply Nat.leb_le in Hle.
  destruct (small_of (widths (sm_pars sm)) xs) as [Sx Hx]; [apply andb_true_iff in Hp; apply Hp|exact Fx|]. pose proof (fits_N _ _ Fx) as FN.
  pose proof (sat_length _ _ _ _ _ S) as LL.
  eapply (loop_run p sums fuel t0 (fbody fn) n y _ (J (map Z.to_N xs)) (map Z.to_N xs)); try eassumption; [apply J0; exact FN|intros; apply J1; assumption|].
  intros rest L1 l rho1 e1 m1 K X1 Sl Hl Jl S1 F1. unfold tail_out in K.
  destruct (trip sums fuel (y_T y (y_b y)) rest (out_st ws)) as [[[o sg] w]|] eqn:Et; [|discriminate].
  assert (K' : same sg (y_end y) && covered (length (gheap t0)) w [(0%nat, 0, total ws)] = true /\ (o = SoN \/ exists v, o = SoR v)).
  { destruct o; try discriminate K; split; eauto. }
  clear K. destruct K' as [K Oo]. brk. apply same_ok in H. destruct H as (-> & O1 & I1).
  eapply wp_weak; [eapply trip_ok; [exact (phi_word p)|exact SP|exact (holdsN_words _ _ Sl Hl)|exact Et|exact S1]|].
  intros o' e2 m2 (L2 & X2 & Wv & S2 & F2 & _ & ->). split; [|split].
  - destruct Oo as [->|[v ->]]; cbn [co]; eauto.
  - eapply frame_comp; [eapply frame_weak; [exact F1|intros ? ? _ _ []]|exact F2|]. intros b q B1 B2 B3.
    eapply covered_ok; [exact H0|lia|]. eapply wset_ext; [exact X1|exact B1|exact B3].
  - exists (vals (phi_of p) rho1 (y_end y)), e2. split.
    + assert (NE : (0 < length L)%nat).
      { rewrite LL. unfold entry_st in He. rewrite Ho in He. destruct (entry 1 0 (sm_pars sm)) as [[? ?] ?]. osp. injection He as <-. cbn. lia. }
      replace (firstn 1 L) with (firstn (length (gheap (out_st ws))) L2); [exact S2|]. cbn [out_st gheap length].
      destruct X1 as (R1 & -> & _), X2 as (R2 & -> & _). destruct L; [cbn in NE; lia|]. reflexivity.
    + intros k Hk. rewrite (evs_holds p rho1 l _ Sl Hl O1 k), phi_nth. rewrite (J2 _ l FN Sl Jl k Hk). f_equal. symmetry. apply N.mod_small.
      rewrite <- (J2 _ l FN Sl Jl k Hk). apply small_nth. eapply evs_small; eassumption.
Qed.
Theorem loop_val p sums f sm fn t0 fuel n y x (J : list N -> Z -> list N -> Prop) : Forall (spec_ok (phi_of p)) sums ->
  sm_out sm = None -> PositiveMap.find f code = Some fn -> entry_st fn sm = Some t0 -> ok_pars (sm_pars sm) = true ->
  y_a y <= y_b y -> (forall i, length (gheap (y_T y i)) = n) -> Nat.leb (length (gheap t0)) n = true ->
  loop_chk sums fuel t0 (fbody fn) n y (tail_val sums fuel (length (gheap t0)) x) = true ->
  (forall xs, Forall2 fitsN (widths (sm_pars sm)) xs -> J xs (y_a y) (evs_ p xs (y_sg0 y))) ->
  (forall xs i l, Forall2 fitsN (widths (sm_pars sm)) xs -> y_a y <= i < y_b y -> small l -> J xs i l -> J xs (i + 1) (evs_ p l (y_sg y i))) ->
  (forall xs l, Forall2 fitsN (widths (sm_pars sm)) xs -> small l -> J xs (y_b y) l -> nth 0 (evs_ p l [x]) 0%N = nth 0 (p (sm_fid sm) xs) 0%N) ->
  spec_ok (phi_of p) (f, sm).
Proof.
  intros SP Ho Hf He Hp Hab Hn Hle C J0 J1 J2. eapply contract_val; try eassumption. intros xs m L e Fx Wx S. apply Nat.leb_le in Hle.
  destruct (small_of (widths (sm_pars sm)) xs) as [Sx Hx]; [apply andb_true_iff in Hp; apply Hp|exact Fx|]. pose proof (fits_N _ _ Fx) as FN.
  pose proof (sat_length _ _ _ _ _ S) as LL.
  eapply (loop_run p sums fuel t0 (fbody fn) n y _ (J (map Z.to_N xs)) (map Z.to_N xs)); try eassumption; [apply J0; exact FN|intros; apply J1; assumption|].
  intros rest L1 l rho1 e1 m1 K X1 Sl Hl Jl S1 F1. unfold tail_val in K.
  destruct (se sums fuel (y_T y (y_b y)) rest) as [[[o s] w]|] eqn:Et; [|discriminate]. destruct o as [| | |[x'| |]]; try discriminate. brk.
  apply same_ok in H. destruct H as (E & O1 & I1). injection E as ->.
  eapply wp_weak; [eapply se_ok; [exact (phi_word p)|exact (holdsN_words _ _ Sl Hl)|exact SP|exact S1|exact Et]|].
  intros o' e2 m2 (L2 & X2 & S2 & F2 & _ & ->). split.
  - eapply frame_comp; [exact F1|exact F2|]. intros b q B1 B2 B3.
    assert (B : wset L [] b q) by (eapply covered_ok; [exact H0|lia|]; eapply wset_ext; [exact X1|exact B1|exact B3]). destruct B as (? & ? & ? & [] & _).
  - cbn [co cv]. do 2 f_equal. rewrite phi_nth. pose proof (evs_holds p rho1 l [x] Sl Hl O1 0%nat) as E. unfold vals in E. cbn [nth] in E. rewrite E.
    rewrite (J2 _ l FN Sl Jl). f_equal. symmetry. apply N.mod_small. rewrite <- (J2 _ l FN Sl Jl). apply small_nth. eapply evs_small; eassumption.
Qed.
(** functions without a loop that has to be understood *)
Definition whole_chk (sums : list (positive * summary)) (fuel : nat) (t0 : gst sx) (body : stmt) (ws : list nat) (sg : list sx) : bool :=
  match whole sums fuel t0 body ws with Some sg' => same sg' sg | None => false end.
Theorem line_out p sums f sm ws fn t0 fuel sg : Forall (spec_ok (phi_of p)) sums ->
  sm_out sm = Some ws -> PositiveMap.find f code = Some fn -> entry_st fn sm = Some t0 -> ok_pars (sm_pars sm) = true ->
  whole_chk sums fuel t0 (fbody fn) ws sg = true ->
  (forall xs, Forall2 fitsN (widths (sm_pars sm)) xs -> forall k, (k < length ws)%nat -> nth k (evs_ p xs sg) 0%N = nth k (p (sm_fid sm) xs) 0%N) ->
  spec_ok (phi_of p) (f, sm).
Proof.
  intros SP Ho Hf He Hp C H. unfold whole_chk in C. destruct (whole sums fuel t0 (fbody fn) ws) as [sg'|] eqn:E; [|discriminate]. apply same_ok in C. destruct C as (-> & O1 & I1).
  eapply whole_ok; try eassumption; [exact (phi_word p)|]. intros xs Fx Wx k Hk.
  destruct (small_of (widths (sm_pars sm)) xs) as [Sx Hx]; [apply andb_true_iff in Hp; apply Hp|exact Fx|]. pose proof (fits_N _ _ Fx) as FN.
  change (den (phi_of p) (rho_of xs) (nth k sg (SC 0))) with (vals (phi_of p) (rho_of xs) sg k).
  rewrite (evs_holds p _ _ _ Sx Hx O1 k), phi_nth, (H _ FN k Hk). f_equal. symmetry. apply N.mod_small. rewrite <- (H _ FN k Hk). apply small_nth. eapply evs_small; eassumption.
Qed.
