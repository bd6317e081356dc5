(** Lemmas about the common vocabulary of Model/Base.v. *)
From Coq Require Export Lia ZifyBool ZifyNat ZifyN.
From Verif.Model Require Export Base.

Ltac Zify.zify_post_hook ::= Z.div_mod_to_equations.

#[global] Arguments N.min : simpl never.
#[global] Arguments N.max : simpl never.
#[global] Arguments N.add : simpl never.
#[global] Arguments N.sub : simpl never.
#[global] Arguments N.mul : simpl never.
#[global] Arguments N.div : simpl never.
#[global] Arguments N.modulo : simpl never.
#[global] Arguments N.pow : simpl never.
#[global] Arguments N.shiftl : simpl never.
#[global] Arguments N.shiftr : simpl never.
#[global] Arguments N.lxor : simpl never.
#[global] Arguments N.land : simpl never.
#[global] Arguments N.lor : simpl never.
#[global] Arguments N.testbit : simpl never.
#[global] Arguments N.to_nat : simpl never.
#[global] Arguments N.of_nat : simpl never.
#[global] Arguments N.eqb : simpl never.
#[global] Arguments N.ltb : simpl never.
#[global] Arguments N.leb : simpl never.

(** * bind *)

Lemma bind_Ok {A B} (a : A) (f : A -> res B) : bind (Ok a) f = f a.
Proof. reflexivity. Qed.

Lemma bind_inv {A B} (x : res A) (f : A -> res B) b :
  bind x f = Ok b -> exists a, x = Ok a /\ f a = Ok b.
Proof. destruct x; simpl; [eauto | discriminate]. Qed.

Lemma bind_eq {A B} (x : res A) a (f : A -> res B) : x = Ok a -> bind x f = f a.
Proof. intros ->. reflexivity. Qed.

Lemma bind_assoc {A B C} (x : res A) (f : A -> res B) (g : B -> res C) :
  bind (bind x f) g = bind x (fun a => bind (f a) g).
Proof. destruct x; reflexivity. Qed.

Lemma guard_true b : b = true -> guard b = Ok tt.
Proof. intros ->. reflexivity. Qed.

Lemma guard_inv b u : guard b = Ok u -> b = true.
Proof. destruct b; [reflexivity | discriminate]. Qed.

Lemma Ok_inj {A} (a b : A) : Ok a = Ok b -> a = b.
Proof. congruence. Qed.

(** * lengths and index lists *)

Lemma lenN_nil {A} : lenN (@nil A) = 0.
Proof. reflexivity. Qed.
Lemma lenN_cons {A} (x : A) l : lenN (x :: l) = lenN l + 1.
Proof. unfold lenN. simpl. lia. Qed.
Lemma lenN_app {A} (l m : list A) : lenN (l ++ m) = lenN l + lenN m.
Proof. unfold lenN. rewrite app_length. lia. Qed.
Lemma lenN_map {A B} (f : A -> B) l : lenN (map f l) = lenN l.
Proof. unfold lenN. rewrite map_length. reflexivity. Qed.
Lemma lenN_rev {A} (l : list A) : lenN (rev l) = lenN l.
Proof. unfold lenN. rewrite rev_length. reflexivity. Qed.
Lemma lenN_repeat {A} (x : A) n : lenN (repeat x n) = N.of_nat n.
Proof. unfold lenN. rewrite repeat_length. reflexivity. Qed.
Lemma lenN_zeros n : lenN (zeros n) = n.
Proof. unfold zeros. rewrite lenN_repeat. lia. Qed.
Lemma lenN_takeN {A} n (l : list A) : lenN (takeN n l) = N.min n (lenN l).
Proof. unfold lenN, takeN. rewrite firstn_length. lia. Qed.
Lemma lenN_dropN {A} n (l : list A) : lenN (dropN n l) = lenN l - n.
Proof. unfold lenN, dropN. rewrite skipn_length. lia. Qed.
Lemma lenN_0 {A} (l : list A) : lenN l = 0 -> l = [].
Proof. destruct l; [reflexivity | rewrite lenN_cons; lia]. Qed.
Lemma length_lenN {A} (l : list A) : length l = N.to_nat (lenN l).
Proof. unfold lenN. lia. Qed.

Lemma Nseq_length a n : length (Nseq a n) = n.
Proof. revert a. induction n; simpl; intros; auto. Qed.
Lemma lenN_Nrange n : lenN (Nrange n) = n.
Proof. unfold lenN, Nrange. rewrite Nseq_length. lia. Qed.
Lemma lenN_Nfromto a b : lenN (Nfromto a b) = b - a.
Proof. unfold lenN, Nfromto. rewrite Nseq_length. lia. Qed.
Lemma In_Nseq a n x : In x (Nseq a n) <-> a <= x < a + N.of_nat n.
Proof.
  revert a. induction n; intros a; simpl.
  - lia.
  - rewrite IHn. lia.
Qed.
Lemma In_Nrange n x : In x (Nrange n) <-> x < n.
Proof. unfold Nrange. rewrite In_Nseq. lia. Qed.
Lemma In_Nfromto a b x : In x (Nfromto a b) <-> a <= x < b.
Proof. unfold Nfromto. rewrite In_Nseq. lia. Qed.
Lemma nth_error_Nseq a n i : (i < n)%nat -> nth_error (Nseq a n) i = Some (a + N.of_nat i).
Proof.
  revert a i. induction n; intros a i H; [lia|].
  destruct i; simpl; [f_equal; lia|].
  rewrite IHn by lia. f_equal. lia.
Qed.
Lemma Nseq_app a n m : Nseq a (n + m) = Nseq a n ++ Nseq (a + N.of_nat n) m.
Proof.
  revert a. induction n; intros a; simpl.
  - f_equal. lia.
  - rewrite IHn. do 2 f_equal. f_equal. lia.
Qed.
Lemma Nseq_S_r a n : Nseq a (S n) = Nseq a n ++ [a + N.of_nat n].
Proof. replace (S n) with (n + 1)%nat by lia. rewrite Nseq_app. reflexivity. Qed.
Lemma Nseq_shift a n k : Nseq (a + k) n = map (fun i => i + k) (Nseq a n).
Proof.
  revert a. induction n; intros a; simpl; [reflexivity|].
  f_equal. rewrite <- IHn. f_equal. lia.
Qed.
Lemma Nrange_succ n : Nrange (n + 1) = Nrange n ++ [n].
Proof.
  unfold Nrange. replace (N.to_nat (n + 1)) with (S (N.to_nat n)) by lia.
  rewrite Nseq_S_r. do 2 f_equal. lia.
Qed.
Lemma Nrange_0 : Nrange 0 = [].
Proof. reflexivity. Qed.
Lemma Nfromto_succ a b : a <= b -> Nfromto a (b + 1) = Nfromto a b ++ [b].
Proof.
  intros H. unfold Nfromto. replace (N.to_nat (b + 1 - a)) with (S (N.to_nat (b - a))) by lia.
  rewrite Nseq_S_r. do 2 f_equal. lia.
Qed.
Lemma Nfromto_empty a b : b <= a -> Nfromto a b = [].
Proof. intros. unfold Nfromto. replace (N.to_nat (b - a)) with 0%nat by lia. reflexivity. Qed.
Lemma Nfromto_cons a b : a < b -> Nfromto a b = a :: Nfromto (a + 1) b.
Proof.
  intros H. unfold Nfromto. replace (N.to_nat (b - a)) with (S (N.to_nat (b - (a + 1)))) by lia.
  reflexivity.
Qed.
Lemma Nfromto_split a b c : a <= b <= c -> Nfromto a c = Nfromto a b ++ Nfromto b c.
Proof.
  intros H. unfold Nfromto.
  replace (N.to_nat (c - a)) with (N.to_nat (b - a) + N.to_nat (c - b))%nat by lia.
  rewrite Nseq_app. do 2 f_equal. lia.
Qed.
Lemma Nrange_Nfromto n : Nrange n = Nfromto 0 n.
Proof. unfold Nrange, Nfromto. do 2 f_equal. lia. Qed.
Lemma NoDup_Nseq a n : NoDup (Nseq a n).
Proof.
  revert a. induction n; intros a; simpl; constructor.
  - rewrite In_Nseq. lia.
  - apply IHn.
Qed.

(** * nth on N indices *)

Definition nthN {A} (l : list A) (i : N) (d : A) : A := nth (N.to_nat i) l d.

Lemma aget_ok {A} (l : list A) i d : i < lenN l -> aget l i = Ok (nthN l i d).
Proof.
  unfold aget, lenN, nthN. intros H.
  rewrite (nth_error_nth' l d) by lia. reflexivity.
Qed.
Lemma aget_inv {A} (l : list A) i x d : aget l i = Ok x -> i < lenN l /\ x = nthN l i d.
Proof.
  unfold aget, lenN, nthN. destruct (nth_error l (N.to_nat i)) eqn:E; [|discriminate].
  intros [= <-]. split.
  - assert (N.to_nat i < length l)%nat by (apply nth_error_Some; congruence). lia.
  - symmetry. apply nth_error_nth. exact E.
Qed.
Lemma aget_UB {A} (l : list A) i : lenN l <= i -> aget l i = UB.
Proof.
  unfold aget, lenN. intros H. replace (nth_error l (N.to_nat i)) with (@None A); auto.
  symmetry. apply nth_error_None. lia.
Qed.
Lemma nthN_app_l {A} (l m : list A) i d : i < lenN l -> nthN (l ++ m) i d = nthN l i d.
Proof. unfold nthN, lenN. intros. apply app_nth1. lia. Qed.
Lemma nthN_app_r {A} (l m : list A) i d : lenN l <= i -> nthN (l ++ m) i d = nthN m (i - lenN l) d.
Proof.
  unfold nthN, lenN. intros. rewrite app_nth2 by lia. f_equal. lia.
Qed.
Lemma nthN_default {A} (l : list A) i d : lenN l <= i -> nthN l i d = d.
Proof. unfold nthN, lenN. intros. apply nth_overflow. lia. Qed.
Lemma nthN_cons_0 {A} (x : A) l d : nthN (x :: l) 0 d = x.
Proof. reflexivity. Qed.
Lemma nthN_cons_S {A} (x : A) l i d : nthN (x :: l) (i + 1) d = nthN l i d.
Proof. unfold nthN. replace (N.to_nat (i + 1)) with (S (N.to_nat i)) by lia. reflexivity. Qed.
Lemma nthN_indep {A} (l : list A) i d d' : i < lenN l -> nthN l i d = nthN l i d'.
Proof. unfold nthN, lenN. intros. apply nth_indep. lia. Qed.
Lemma nthN_In {A} (l : list A) i d : i < lenN l -> In (nthN l i d) l.
Proof. unfold nthN, lenN. intros. apply nth_In. lia. Qed.
Lemma In_nthN {A} (l : list A) x d : In x l -> exists i, i < lenN l /\ nthN l i d = x.
Proof.
  intros H. destruct (In_nth l x d H) as [n [H1 H2]].
  exists (N.of_nat n). unfold lenN, nthN. rewrite Nnat.Nat2N.id. split; [lia | exact H2].
Qed.
Lemma nthN_map {A B} (f : A -> B) l i d d' : i < lenN l -> nthN (map f l) i d' = f (nthN l i d).
Proof.
  unfold nthN, lenN. intros. rewrite (nth_indep _ d' (f d)) by (rewrite map_length; lia).
  apply map_nth.
Qed.
Lemma nthN_Nrange n i d : i < n -> nthN (Nrange n) i d = i.
Proof.
  unfold nthN, Nrange. intros. apply nth_error_nth. rewrite nth_error_Nseq by lia. f_equal. lia.
Qed.
Lemma nthN_Nfromto a b i d : i < b - a -> nthN (Nfromto a b) i d = a + i.
Proof.
  unfold nthN, Nfromto. intros. apply nth_error_nth. rewrite nth_error_Nseq by lia. f_equal. lia.
Qed.
Lemma nthN_takeN {A} (l : list A) n i d : i < n -> nthN (takeN n l) i d = nthN l i d.
Proof.
  unfold nthN, takeN. intros H.
  assert (G : forall (l : list A) m k, (k < m)%nat -> nth k (firstn m l) d = nth k l d).
  { clear. induction l; intros m k H; destruct m; try lia; simpl.
    - reflexivity.
    - destruct k; [reflexivity|]. apply IHl. lia. }
  apply G. lia.
Qed.
Lemma nthN_dropN {A} (l : list A) n i d : nthN (dropN n l) i d = nthN l (n + i) d.
Proof.
  unfold nthN, dropN.
  assert (G : forall (l : list A) m k, nth k (skipn m l) d = nth (m + k) l d).
  { clear. induction l; intros m k; destruct m; simpl; auto. destruct k; auto. }
  rewrite G. f_equal. lia.
Qed.
Lemma list_ext {A} (d : A) (l m : list A) :
  lenN l = lenN m -> (forall i, i < lenN l -> nthN l i d = nthN m i d) -> l = m.
Proof.
  unfold lenN, nthN. intros H1 H2. apply (nth_ext l m d d); [lia|].
  intros n Hn. specialize (H2 (N.of_nat n)). rewrite Nnat.Nat2N.id in H2. apply H2. lia.
Qed.
Lemma nthN_zeros n i : nthN (zeros n) i 0 = 0.
Proof.
  unfold nthN, zeros. destruct (Nat.lt_ge_cases (N.to_nat i) (N.to_nat n)) as [H|H].
  - apply nth_repeat.
  - apply nth_overflow. rewrite repeat_length. lia.
Qed.
Lemma nthN_repeat {A} (x : A) n i d : i < N.of_nat n -> nthN (repeat x n) i d = x.
Proof.
  intros H. unfold nthN. rewrite (nth_indep _ d x) by (rewrite repeat_length; lia).
  apply nth_repeat.
Qed.

(** * take / drop *)

Lemma takeN_all {A} n (l : list A) : lenN l <= n -> takeN n l = l.
Proof. unfold takeN, lenN. intros. apply firstn_all2. lia. Qed.
Lemma dropN_all {A} n (l : list A) : lenN l <= n -> dropN n l = [].
Proof. unfold dropN, lenN. intros. apply skipn_all2. lia. Qed.
Lemma takeN_0 {A} (l : list A) : takeN 0 l = [].
Proof. reflexivity. Qed.
Lemma dropN_0 {A} (l : list A) : dropN 0 l = l.
Proof. reflexivity. Qed.
Lemma take_drop {A} n (l : list A) : takeN n l ++ dropN n l = l.
Proof. apply firstn_skipn. Qed.
Lemma takeN_app {A} n (l m : list A) : n <= lenN l -> takeN n (l ++ m) = takeN n l.
Proof.
  unfold takeN, lenN. intros. rewrite firstn_app.
  replace (N.to_nat n - length l)%nat with 0%nat by lia. rewrite firstn_O, app_nil_r. reflexivity.
Qed.
Lemma takeN_app_exact {A} (l m : list A) : takeN (lenN l) (l ++ m) = l.
Proof. rewrite takeN_app by lia. apply takeN_all. lia. Qed.
Lemma takeN_app_ge {A} n (l m : list A) : lenN l <= n -> takeN n (l ++ m) = l ++ takeN (n - lenN l) m.
Proof.
  unfold takeN, lenN. intros. rewrite firstn_app. f_equal.
  - apply firstn_all2. lia.
  - f_equal. lia.
Qed.
Lemma dropN_app_ge {A} n (l m : list A) : lenN l <= n -> dropN n (l ++ m) = dropN (n - lenN l) m.
Proof.
  unfold dropN, lenN. intros. rewrite skipn_app. rewrite skipn_all2 by lia. simpl. f_equal. lia.
Qed.
Lemma dropN_app_le {A} n (l m : list A) : n <= lenN l -> dropN n (l ++ m) = dropN n l ++ m.
Proof.
  unfold dropN, lenN. intros. rewrite skipn_app. f_equal.
  replace (N.to_nat n - length l)%nat with 0%nat by lia. reflexivity.
Qed.
Lemma dropN_app_exact {A} (l m : list A) : dropN (lenN l) (l ++ m) = m.
Proof. rewrite dropN_app_ge by lia. rewrite N.sub_diag. apply dropN_0. Qed.
Lemma dropN_dropN {A} a b (l : list A) : dropN a (dropN b l) = dropN (b + a) l.
Proof.
  unfold dropN. rewrite Nnat.N2Nat.inj_add.
  generalize (N.to_nat a) (N.to_nat b). clear. intros a b. revert l.
  induction b; intros l; simpl; [reflexivity|]. destruct l; [apply skipn_nil|apply IHb].
Qed.
Lemma takeN_takeN {A} a b (l : list A) : takeN a (takeN b l) = takeN (N.min a b) l.
Proof. unfold takeN. rewrite firstn_firstn. f_equal. lia. Qed.
Lemma takeN_dropN {A} a b (l : list A) : takeN a (dropN b l) = dropN b (takeN (b + a) l).
Proof.
  unfold takeN, dropN. rewrite Nnat.N2Nat.inj_add. rewrite firstn_skipn_comm. reflexivity.
Qed.
Lemma takeN_split {A} a b (l : list A) : takeN (a + b) l = takeN a l ++ takeN b (dropN a l).
Proof.
  unfold takeN, dropN. rewrite Nnat.N2Nat.inj_add.
  generalize (N.to_nat a) (N.to_nat b). clear. intros a b. revert l.
  induction a; intros l; simpl; [reflexivity|]. destruct l; simpl.
  - rewrite firstn_nil. reflexivity.
  - f_equal. apply IHa.
Qed.
Lemma Forall_takeN {A} (P : A -> Prop) n l : Forall P l -> Forall P (takeN n l).
Proof.
  unfold takeN. intros H. rewrite <- (firstn_skipn (N.to_nat n) l) in H.
  apply Forall_app in H. apply H.
Qed.
Lemma Forall_dropN {A} (P : A -> Prop) n l : Forall P l -> Forall P (dropN n l).
Proof.
  unfold dropN. intros H. rewrite <- (firstn_skipn (N.to_nat n) l) in H.
  apply Forall_app in H. apply H.
Qed.

(** * slice, upd, aset, blit *)

Lemma slice_ok {A} (l : list A) off len :
  off + len <= lenN l -> slice l off len = Ok (takeN len (dropN off l)).
Proof.
  intros H. unfold slice. rewrite lenN_takeN, lenN_dropN.
  rewrite N.min_l by lia. rewrite N.eqb_refl. reflexivity.
Qed.
Lemma slice_inv {A} (l : list A) off len s :
  slice l off len = Ok s -> lenN s = len /\ s = takeN len (dropN off l).
Proof.
  unfold slice. destruct (_ =? _) eqn:E; [|discriminate]. intros [= <-].
  apply N.eqb_eq in E. auto.
Qed.
Lemma slice_UB {A} (l : list A) off len :
  lenN l < off + len -> 0 < len -> slice l off len = UB.
Proof.
  intros H H0. unfold slice. rewrite lenN_takeN, lenN_dropN.
  destruct (_ =? _) eqn:E; [|reflexivity]. apply N.eqb_eq in E. lia.
Qed.
Lemma slice_full {A} (l : list A) : slice l 0 (lenN l) = Ok l.
Proof. rewrite slice_ok by lia. rewrite dropN_0, takeN_all by lia. reflexivity. Qed.
Lemma slice_full' {A} (l : list A) n : lenN l = n -> slice l 0 n = Ok l.
Proof. intros <-. apply slice_full. Qed.

Lemma upd_length {A} (l : list A) i x : length (upd l i x) = length l.
Proof. revert i. induction l; intros [|i]; simpl; auto. Qed.
Lemma nth_upd {A} (l : list A) i j x d :
  (j < length l)%nat -> nth j (upd l i x) d = if Nat.eqb j i then x else nth j l d.
Proof.
  revert i j. induction l; intros i j H; simpl in *; [lia|].
  destruct i, j; simpl; auto. apply IHl. lia.
Qed.
Lemma aset_ok {A} (l : list A) i x : i < lenN l -> aset l i x = Ok (upd l (N.to_nat i) x).
Proof. intros H. unfold aset. destruct (i <? lenN l) eqn:E; [reflexivity|lia]. Qed.
Lemma aset_inv {A} (l m : list A) i x :
  aset l i x = Ok m -> i < lenN l /\ m = upd l (N.to_nat i) x.
Proof. unfold aset. destruct (i <? lenN l) eqn:E; [|discriminate]. intros [= <-]. split; [lia|auto]. Qed.
Lemma lenN_upd {A} (l : list A) i x : lenN (upd l i x) = lenN l.
Proof. unfold lenN. rewrite upd_length. reflexivity. Qed.
Lemma nthN_upd {A} (l : list A) i j x d :
  j < lenN l -> nthN (upd l (N.to_nat i) x) j d = if j =? i then x else nthN l j d.
Proof.
  intros H. unfold nthN. rewrite nth_upd by (unfold lenN in H; lia).
  destruct (Nat.eqb _ _) eqn:E1, (j =? i) eqn:E2; auto; lia.
Qed.
Lemma Forall_upd {A} (P : A -> Prop) l i x : Forall P l -> P x -> Forall P (upd l i x).
Proof.
  intros H Hx. revert i. induction H; intros [|i]; simpl; constructor; auto.
Qed.

Lemma blit_ok {A} (l : list A) off src :
  off + lenN src <= lenN l ->
  blit l off src = Ok (takeN off l ++ src ++ dropN (off + lenN src) l).
Proof. intros H. unfold blit. destruct (_ <=? _) eqn:E; [reflexivity|lia]. Qed.
Lemma blit_inv {A} (l m : list A) off src :
  blit l off src = Ok m ->
  off + lenN src <= lenN l /\ m = takeN off l ++ src ++ dropN (off + lenN src) l.
Proof. unfold blit. destruct (_ <=? _) eqn:E; [|discriminate]. intros [= <-]. split; [lia|auto]. Qed.
Lemma blit_len {A} (l m : list A) off src : blit l off src = Ok m -> lenN m = lenN l.
Proof.
  intros H. apply blit_inv in H. destruct H as [H ->].
  rewrite !lenN_app, lenN_takeN, lenN_dropN. lia.
Qed.
Lemma nthN_blit {A} (l m : list A) off src i d :
  blit l off src = Ok m ->
  nthN m i d = if (off <=? i) && (i <? off + lenN src) then nthN src (i - off) d else nthN l i d.
Proof.
  intros H. apply blit_inv in H. destruct H as [H ->].
  destruct (off <=? i) eqn:E1; simpl.
  - rewrite nthN_app_r by (rewrite lenN_takeN; lia).
    rewrite lenN_takeN. replace (i - N.min off (lenN l)) with (i - off) by lia.
    destruct (i <? off + lenN src) eqn:E2.
    + rewrite nthN_app_l by lia. reflexivity.
    + rewrite nthN_app_r by lia. rewrite nthN_dropN. f_equal. lia.
  - rewrite nthN_app_l by (rewrite lenN_takeN; lia).
    rewrite nthN_takeN by lia. reflexivity.
Qed.
Lemma nthN_slice {A} (l s : list A) off len i d :
  slice l off len = Ok s -> i < len -> nthN s i d = nthN l (off + i) d.
Proof.
  intros H Hi. apply slice_inv in H. destruct H as [_ ->].
  rewrite nthN_takeN by lia. apply nthN_dropN.
Qed.
(** reading back exactly what was written *)
Lemma slice_blit_same {A} (l m : list A) off src :
  blit l off src = Ok m -> slice m off (lenN src) = Ok src.
Proof.
  intros H. pose proof (blit_len _ _ _ _ H) as HL. apply blit_inv in H. destruct H as [H E].
  rewrite slice_ok by lia. f_equal. subst m.
  rewrite dropN_app_ge by (rewrite lenN_takeN; lia).
  rewrite lenN_takeN. replace (off - N.min off (lenN l)) with 0 by lia. rewrite dropN_0.
  apply takeN_app_exact.
Qed.
(** reading a range disjoint from the one written *)
Lemma slice_blit_other {A} (l m : list A) off src off' len :
  blit l off src = Ok m -> off' + len <= off \/ off + lenN src <= off' ->
  off' + len <= lenN l ->
  slice m off' len = slice l off' len.
Proof.
  intros H D Hl. pose proof (blit_len _ _ _ _ H) as HL.
  rewrite !slice_ok by lia. f_equal.
  destruct l as [|x l0] eqn:El.
  { assert (m = []) by (apply lenN_0; rewrite HL; reflexivity). subst. reflexivity. }
  rewrite <- El in *. apply (list_ext x).
  - rewrite !lenN_takeN, !lenN_dropN. lia.
  - intros i Hi. rewrite lenN_takeN, lenN_dropN in Hi.
    rewrite !nthN_takeN, !nthN_dropN by lia.
    rewrite (nthN_blit _ _ _ _ _ _ H).
    destruct (off <=? off' + i) eqn:E1; [|reflexivity].
    destruct (off' + i <? off + lenN src) eqn:E2; [|reflexivity]. lia.
Qed.
Lemma Forall_blit {A} (P : A -> Prop) l off src m :
  blit l off src = Ok m -> Forall P l -> Forall P src -> Forall P m.
Proof.
  intros H Hl Hs. apply blit_inv in H. destruct H as [_ ->].
  apply Forall_app; split; [apply Forall_takeN; auto|].
  apply Forall_app; split; [auto|apply Forall_dropN; auto].
Qed.

(** * mapM / foldM *)

Lemma mapM_pure {A B} (f : A -> res B) (g : A -> B) l :
  (forall x, In x l -> f x = Ok (g x)) -> mapM f l = Ok (map g l).
Proof.
  induction l; intros H; simpl; [reflexivity|].
  rewrite H by (left; reflexivity). simpl.
  rewrite IHl by (intros; apply H; right; assumption). reflexivity.
Qed.
Lemma mapM_len {A B} (f : A -> res B) l ys : mapM f l = Ok ys -> lenN ys = lenN l.
Proof.
  revert ys. induction l; intros ys H; simpl in H.
  - injection H as <-. reflexivity.
  - apply bind_inv in H. destruct H as [y [H1 H]]. apply bind_inv in H.
    destruct H as [ys' [H2 H]]. injection H as <-. rewrite !lenN_cons, (IHl ys' H2). reflexivity.
Qed.
Lemma mapM_nth {A B} (f : A -> res B) l ys i dx dy :
  mapM f l = Ok ys -> i < lenN l -> f (nthN l i dx) = Ok (nthN ys i dy).
Proof.
  revert ys i. induction l; intros ys i H Hi; simpl in H.
  - rewrite lenN_nil in Hi. lia.
  - apply bind_inv in H. destruct H as [y [H1 H]]. apply bind_inv in H.
    destruct H as [ys' [H2 H]]. injection H as <-.
    rewrite lenN_cons in Hi. destruct (N.eq_dec i 0) as [->|Hn].
    + exact H1.
    + replace i with ((i - 1) + 1) by lia. rewrite !nthN_cons_S. apply IHl; [exact H2|lia].
Qed.
Lemma mapM_ok {A B} (f : A -> res B) l :
  (forall x, In x l -> exists y, f x = Ok y) -> exists ys, mapM f l = Ok ys.
Proof.
  induction l; intros H; simpl; [eauto|].
  destruct (H a) as [y Hy]; [left; reflexivity|]. rewrite Hy. simpl.
  destruct IHl as [ys Hys]; [intros; apply H; right; assumption|]. rewrite Hys. simpl. eauto.
Qed.
Lemma mapM_ext {A B} (f g : A -> res B) l :
  (forall x, In x l -> f x = g x) -> mapM f l = mapM g l.
Proof.
  induction l; intros H; simpl; [reflexivity|].
  rewrite H by (left; reflexivity). rewrite IHl by (intros; apply H; right; assumption).
  reflexivity.
Qed.

Lemma foldM_app {S A} (f : S -> A -> res S) l m s :
  foldM f (l ++ m) s = bind (foldM f l s) (foldM f m).
Proof.
  revert s. induction l; intros s; simpl; [reflexivity|].
  destruct (f s a); simpl; auto.
Qed.
Lemma foldM_pure {S A} (f : S -> A -> res S) (g : S -> A -> S) l s :
  (forall s x, In x l -> f s x = Ok (g s x)) -> foldM f l s = Ok (fold_left g l s).
Proof.
  revert s. induction l; intros s H; simpl; [reflexivity|].
  rewrite H by (left; reflexivity). simpl. apply IHl. intros. apply H. right. assumption.
Qed.
Lemma foldM_ext {S A} (f g : S -> A -> res S) l s :
  (forall s x, In x l -> f s x = g s x) -> foldM f l s = foldM g l s.
Proof.
  revert s. induction l; intros s H; simpl; [reflexivity|].
  rewrite H by (left; reflexivity). destruct (g s a); simpl; [|reflexivity].
  apply IHl. intros. apply H. right. assumption.
Qed.
(** invariant rule for a loop over a .. a+n-1 *)
Lemma foldM_Nseq_inv {S} (f : S -> N -> res S) (P : N -> S -> Prop) a n s :
  P a s ->
  (forall i s, a <= i < a + N.of_nat n -> P i s -> exists s', f s i = Ok s' /\ P (i + 1) s') ->
  exists s', foldM f (Nseq a n) s = Ok s' /\ P (a + N.of_nat n) s'.
Proof.
  revert a s. induction n; intros a s H0 Hs; simpl.
  - exists s. split; [reflexivity|]. replace (a + N.of_nat 0) with a by lia. exact H0.
  - destruct (Hs a s) as [s1 [E1 P1]]; [lia|exact H0|]. rewrite E1. simpl.
    destruct (IHn (a + 1) s1 P1) as [s2 [E2 P2]].
    + intros i s' Hi. apply Hs. lia.
    + exists s2. split; [exact E2|]. replace (a + N.of_nat (Datatypes.S n)) with (a + 1 + N.of_nat n) by lia.
      exact P2.
Qed.
Lemma foldM_Nrange_inv {S} (f : S -> N -> res S) (P : N -> S -> Prop) n s :
  P 0 s ->
  (forall i s, i < n -> P i s -> exists s', f s i = Ok s' /\ P (i + 1) s') ->
  exists s', foldM f (Nrange n) s = Ok s' /\ P n s'.
Proof.
  intros H0 Hs. unfold Nrange.
  destruct (foldM_Nseq_inv f P 0 (N.to_nat n) s H0) as [s' [E P']].
  - intros i s' Hi. apply Hs. lia.
  - exists s'. split; [exact E|]. replace n with (0 + N.of_nat (N.to_nat n)) at 1 by lia. exact P'.
Qed.
Lemma foldM_Nfromto_inv {S} (f : S -> N -> res S) (P : N -> S -> Prop) a b s :
  a <= b ->
  P a s ->
  (forall i s, a <= i < b -> P i s -> exists s', f s i = Ok s' /\ P (i + 1) s') ->
  exists s', foldM f (Nfromto a b) s = Ok s' /\ P b s'.
Proof.
  intros Hab H0 Hs. unfold Nfromto.
  destruct (foldM_Nseq_inv f P a (N.to_nat (b - a)) s H0) as [s' [E P']].
  - intros i s' Hi. apply Hs. lia.
  - exists s'. split; [exact E|]. replace b with (a + N.of_nat (N.to_nat (b - a))) at 1 by lia. exact P'.
Qed.
(** invariant of a loop that is known to succeed *)
Lemma foldM_inv {S A} (f : S -> A -> res S) (P : S -> Prop) l s s' :
  (forall s x s', In x l -> P s -> f s x = Ok s' -> P s') ->
  P s -> foldM f l s = Ok s' -> P s'.
Proof.
  revert s. induction l; intros s Hs H0 E; simpl in E.
  - injection E as <-. exact H0.
  - apply bind_inv in E. destruct E as [s1 [E1 E2]].
    apply (IHl s1); [|eapply Hs; eauto; left; reflexivity|exact E2].
    intros. eapply Hs; eauto. right. assumption.
Qed.

(** * tab *)

Lemma lenN_tab {A} n (f : N -> A) : lenN (tab n f) = n.
Proof. unfold tab. rewrite lenN_map, lenN_Nrange. reflexivity. Qed.
Lemma nthN_tab {A} n (f : N -> A) i d : i < n -> nthN (tab n f) i d = f i.
Proof.
  intros. unfold tab. rewrite (nthN_map f _ i 0) by (rewrite lenN_Nrange; lia).
  rewrite nthN_Nrange by lia. reflexivity.
Qed.
Lemma mapM_tab {A} (f : N -> res A) (g : N -> A) n :
  (forall i, i < n -> f i = Ok (g i)) -> mapM f (Nrange n) = Ok (tab n g).
Proof. intros H. apply mapM_pure. intros x Hx. apply H, In_Nrange, Hx. Qed.
Lemma aget_tab {A} n (f : N -> A) i : i < n -> aget (tab n f) i = Ok (f i).
Proof.
  intros. rewrite (aget_ok _ _ (f i)) by (rewrite lenN_tab; lia). rewrite nthN_tab by lia. reflexivity.
Qed.
Lemma tab_ext {A} n (f g : N -> A) : (forall i, i < n -> f i = g i) -> tab n f = tab n g.
Proof.
  intros H. unfold tab. apply map_ext_in. intros i Hi. apply H. apply In_Nrange. exact Hi.
Qed.
Lemma tab_nth {A} (l : list A) d : tab (lenN l) (fun i => nthN l i d) = l.
Proof.
  apply (list_ext d); rewrite lenN_tab; [reflexivity|]. intros i Hi. rewrite nthN_tab by lia. reflexivity.
Qed.
Lemma tab_succ {A} n (f : N -> A) : tab (n + 1) f = tab n f ++ [f n].
Proof. unfold tab. rewrite Nrange_succ, map_app. reflexivity. Qed.

(** * zipw and xor *)

Lemma lenN_zipw {A B C} (f : A -> B -> C) a b : lenN (zipw f a b) = N.min (lenN a) (lenN b).
Proof.
  revert b. induction a as [|x a IHa]; intros [|y b]; cbn [zipw]; rewrite ?lenN_cons; rewrite ?(@lenN_nil A), ?(@lenN_nil B), ?(@lenN_nil C); try lia.
  rewrite IHa. lia.
Qed.
Lemma nthN_zipw {A B C} (f : A -> B -> C) a b i da db dc :
  i < lenN a -> i < lenN b -> nthN (zipw f a b) i dc = f (nthN a i da) (nthN b i db).
Proof.
  revert b i. induction a as [|x a IHa]; intros [|y b] i Ha Hb; rewrite ?lenN_cons in *; rewrite ?(@lenN_nil A), ?(@lenN_nil B) in *; try lia.
  simpl. destruct (N.eq_dec i 0) as [->|Hn]; [reflexivity|].
  replace i with ((i - 1) + 1) by lia. rewrite !nthN_cons_S. apply IHa; lia.
Qed.
Lemma lenN_xor a b : lenN a = lenN b -> lenN (xor_bytes a b) = lenN a.
Proof. intros. unfold xor_bytes. rewrite lenN_zipw. lia. Qed.
Lemma nthN_xor a b i : lenN a = lenN b ->
  nthN (xor_bytes a b) i 0 = N.lxor (nthN a i 0) (nthN b i 0).
Proof.
  intros H. destruct (N.lt_ge_cases i (lenN a)).
  - apply nthN_zipw; lia.
  - rewrite !nthN_default; try lia. reflexivity. rewrite lenN_xor; lia.
Qed.
Lemma xor_bytes_comm a b : xor_bytes a b = xor_bytes b a.
Proof.
  revert b. induction a as [|x a IHa]; intros [|y b]; simpl; auto. unfold xor_bytes in *. simpl.
  rewrite N.lxor_comm, IHa. reflexivity.
Qed.
Lemma xor_bytes_assoc a b c :
  xor_bytes (xor_bytes a b) c = xor_bytes a (xor_bytes b c).
Proof.
  revert b c. induction a as [|x a IHa]; intros [|y b] [|z c]; auto. unfold xor_bytes in *. simpl.
  rewrite N.lxor_assoc, IHa. reflexivity.
Qed.
Lemma xor_bytes_nilpotent a : xor_bytes a a = zeros (lenN a).
Proof.
  unfold zeros. rewrite <- length_lenN. induction a as [|x a IHa]; simpl; auto. unfold xor_bytes in *. simpl.
  rewrite N.lxor_nilpotent, IHa. reflexivity.
Qed.
Lemma xor_bytes_zeros_r a n : lenN a = n -> xor_bytes a (zeros n) = a.
Proof.
  intros <-. unfold zeros. rewrite <- length_lenN. induction a as [|x a IHa]; simpl; auto.
  unfold xor_bytes in *. simpl. rewrite N.lxor_0_r, IHa. reflexivity.
Qed.
Lemma xor_bytes_zeros_l a n : lenN a = n -> xor_bytes (zeros n) a = a.
Proof. intros. rewrite xor_bytes_comm. apply xor_bytes_zeros_r. assumption. Qed.
Lemma xor_bytes_cancel a b : lenN a = lenN b -> xor_bytes (xor_bytes a b) b = a.
Proof.
  intros. rewrite xor_bytes_assoc, xor_bytes_nilpotent. apply xor_bytes_zeros_r. assumption.
Qed.
Lemma xor_bytes_app a b c d : lenN a = lenN c ->
  xor_bytes (a ++ b) (c ++ d) = xor_bytes a c ++ xor_bytes b d.
Proof.
  revert c. induction a as [|x a IHa]; intros [|z c] H; rewrite ?lenN_cons, ?lenN_nil in H; try lia; simpl; auto.
  unfold xor_bytes in *. simpl. rewrite IHa; auto. lia.
Qed.
Lemma takeN_xor n a b : takeN n (xor_bytes a b) = xor_bytes (takeN n a) (takeN n b).
Proof.
  unfold takeN. generalize (N.to_nat n). clear. intros n. revert a b.
  induction n; intros a b; simpl; [reflexivity|]. destruct a, b; simpl; auto.
  unfold xor_bytes in *. simpl. rewrite IHn. reflexivity.
Qed.
Lemma dropN_xor n a b : lenN a = lenN b -> dropN n (xor_bytes a b) = xor_bytes (dropN n a) (dropN n b).
Proof.
  intros H. apply (list_ext 0).
  - rewrite lenN_dropN, !lenN_xor, lenN_dropN; auto. rewrite !lenN_dropN. lia.
  - intros i _. rewrite nthN_dropN, !nthN_xor, !nthN_dropN; auto. rewrite !lenN_dropN. lia.
Qed.

Lemma lxor_byte a b : byte_ok a -> byte_ok b -> byte_ok (N.lxor a b).
Proof.
  unfold byte_ok. intros Ha Hb. change 256 with (2 ^ 8) in *.
  destruct (N.eq_dec (N.lxor a b) 0) as [->|Hn]; [reflexivity|].
  apply N.log2_lt_pow2; [lia|].
  eapply N.le_lt_trans; [apply N.log2_lxor|].
  apply N.max_lub_lt.
  - destruct (N.eq_dec a 0) as [->|]; [reflexivity|]. apply N.log2_lt_pow2; lia.
  - destruct (N.eq_dec b 0) as [->|]; [reflexivity|]. apply N.log2_lt_pow2; lia.
Qed.
Lemma bytes_ok_xor a b : bytes_ok a -> bytes_ok b -> bytes_ok (xor_bytes a b).
Proof.
  unfold bytes_ok. intros Ha. revert b. induction Ha; intros [|y b] Hb; simpl; try constructor.
  - inversion Hb; subst. apply lxor_byte; auto.
  - inversion Hb; subst. apply IHHa. auto.
Qed.
Lemma bytes_ok_zeros n : bytes_ok (zeros n).
Proof.
  unfold bytes_ok, zeros. apply Forall_forall. intros x Hx. apply repeat_spec in Hx. subst.
  unfold byte_ok. lia.
Qed.
Lemma bytes_ok_app a b : bytes_ok a -> bytes_ok b -> bytes_ok (a ++ b).
Proof. intros. apply Forall_app; auto. Qed.
Lemma nthN_byte l i : bytes_ok l -> byte_ok (nthN l i 0).
Proof.
  intros H. destruct (N.lt_ge_cases i (lenN l)) as [Hi|Hi].
  - apply (proj1 (Forall_forall _ _) H). apply nthN_In. exact Hi.
  - rewrite nthN_default by exact Hi. unfold byte_ok. lia.
Qed.
Lemma bytes_ok_nth l : (forall i, i < lenN l -> byte_ok (nthN l i 0)) -> bytes_ok l.
Proof.
  intros H. apply Forall_forall. intros x Hx. destruct (In_nthN l x 0 Hx) as [i [Hi <-]]. auto.
Qed.

Lemma land_255 x : byte_ok x -> N.land x 255 = x.
Proof.
  unfold byte_ok. intros. change 255 with (N.ones 8). rewrite N.land_ones.
  apply N.mod_small. exact H.
Qed.
Lemma masked_xor_1 a b m : bytes_ok b -> lenN a = lenN b -> N.odd m = true ->
  masked_xor_bytes a b m = xor_bytes a b.
Proof.
  intros Hb HL Hm. unfold masked_xor_bytes, xor_bytes.
  replace (N.land m 1) with 1.
  2:{ change 1 with (N.ones 1) at 2. rewrite N.land_ones. rewrite <- N.bit0_mod, N.bit0_odd, Hm. reflexivity. }
  change (1 =? 1) with true. cbv iota.
  revert b Hb HL. induction a as [|x a IHa]; intros [|y b] Hb HL; simpl; auto.
  inversion Hb; subst. rewrite land_255 by assumption. f_equal. apply IHa; auto.
  rewrite !lenN_cons in HL. lia.
Qed.
Lemma masked_xor_0 a b m : lenN a = lenN b -> N.odd m = false -> masked_xor_bytes a b m = a.
Proof.
  intros HL Hm. unfold masked_xor_bytes.
  replace (N.land m 1) with 0.
  2:{ change 1 with (N.ones 1). rewrite N.land_ones. rewrite <- N.bit0_mod, N.bit0_odd, Hm. reflexivity. }
  change (0 =? 1) with false. cbv iota.
  revert b HL. induction a as [|x a IHa]; intros [|y b] HL; simpl; auto.
  - rewrite lenN_cons, lenN_nil in HL. lia.
  - rewrite N.land_0_r, N.lxor_0_r. f_equal. apply IHa. rewrite !lenN_cons in HL. lia.
Qed.
Lemma lenN_masked_xor a b m : lenN a = lenN b -> lenN (masked_xor_bytes a b m) = lenN a.
Proof. intros. unfold masked_xor_bytes. rewrite lenN_zipw. lia. Qed.

(** * little-endian values *)

Lemma le_val_bound l : bytes_ok l -> le_val l < 256 ^ lenN l.
Proof.
  induction 1; simpl.
  - reflexivity.
  - rewrite lenN_cons, N.pow_add_r, N.pow_1_r. unfold byte_ok in H. nia.
Qed.
Lemma le_val_bound2 l : bytes_ok l -> le_val l < 2 ^ (8 * lenN l).
Proof. intros. rewrite N.pow_mul_r. apply le_val_bound. assumption. Qed.
Lemma le_bytes_length n x : length (le_bytes n x) = n.
Proof. revert x. induction n; intros; simpl; auto. Qed.
Lemma lenN_le_bytes n x : lenN (le_bytes n x) = N.of_nat n.
Proof. unfold lenN. rewrite le_bytes_length. reflexivity. Qed.
Lemma bytes_ok_le_bytes n x : bytes_ok (le_bytes n x).
Proof.
  revert x. induction n; intros; simpl; constructor; auto.
  - unfold byte_ok. apply N.mod_lt. lia.
  - apply IHn.
Qed.
Lemma le_bytes_le_val l n : bytes_ok l -> lenN l = N.of_nat n -> le_bytes n (le_val l) = l.
Proof.
  intros H. revert n. induction H; intros n Hn.
  - rewrite lenN_nil in Hn. replace n with 0%nat by lia. reflexivity.
  - rewrite lenN_cons in Hn. destruct n; [lia|]. simpl. unfold byte_ok in H.
    replace ((x + 256 * le_val l) mod 256) with x.
    2:{ rewrite N.mul_comm, N.mod_add by lia. rewrite N.mod_small by lia. reflexivity. }
    replace ((x + 256 * le_val l) / 256) with (le_val l).
    2:{ rewrite N.mul_comm, N.div_add by lia. rewrite N.div_small by lia. lia. }
    f_equal. apply IHForall. lia.
Qed.
Lemma le_val_le_bytes n x : x < 256 ^ N.of_nat n -> le_val (le_bytes n x) = x.
Proof.
  revert x. induction n; intros x H; simpl.
  - change (N.of_nat 0) with 0 in H. rewrite N.pow_0_r in H. lia.
  - rewrite IHn.
    + pose proof (N.div_mod x 256). lia.
    + replace (N.of_nat (S n)) with (N.of_nat n + 1) in H by lia.
      rewrite N.pow_add_r, N.pow_1_r in H.
      apply N.div_lt_upper_bound; lia.
Qed.
Lemma le_val_inj a b : bytes_ok a -> bytes_ok b -> lenN a = lenN b -> le_val a = le_val b -> a = b.
Proof.
  intros Ha Hb HL HE.
  rewrite <- (le_bytes_le_val a (length a)) by (auto; unfold lenN; lia).
  rewrite <- (le_bytes_le_val b (length a)) by (auto; rewrite <- HL; unfold lenN; lia).
  rewrite HE. reflexivity.
Qed.
Lemma le_val_app a b : le_val (a ++ b) = le_val a + 2 ^ (8 * lenN a) * le_val b.
Proof.
  induction a as [|x a IH]; simpl.
  - change (2 ^ (8 * lenN (@nil N))) with 1. lia.
  - rewrite IH, lenN_cons. replace (8 * (lenN a + 1)) with (8 + 8 * lenN a) by lia.
    rewrite N.pow_add_r. change (2 ^ 8) with 256. lia.
Qed.
Lemma le_val_zeros n : le_val (zeros n) = 0.
Proof. unfold zeros. induction (N.to_nat n) as [|k IH]; simpl; auto. rewrite IH. reflexivity. Qed.

(** addition of disjoint bit ranges *)
Lemma add_shift_lor a b n : a < 2 ^ n -> a + 2 ^ n * b = N.lor a (N.shiftl b n).
Proof.
  intros H. rewrite N.shiftl_mul_pow2.
  assert (D : N.land a (b * 2 ^ n) = 0).
  { apply N.bits_inj. intros i. rewrite N.land_spec, N.bits_0.
    destruct (N.lt_ge_cases i n).
    - rewrite N.mul_pow2_bits_low by assumption. apply andb_false_r.
    - replace (N.testbit a i) with false; [reflexivity|].
      symmetry. destruct (N.eq_dec a 0) as [->|Ha]; [apply N.bits_0|].
      apply N.bits_above_log2. apply N.log2_lt_pow2; [lia|].
      eapply N.lt_le_trans; [exact H|]. apply N.pow_le_mono_r; lia. }
  rewrite <- N.lxor_lor by exact D. rewrite <- N.add_nocarry_lxor by exact D. lia.
Qed.
Lemma testbit_high a n i : a < 2 ^ n -> n <= i -> N.testbit a i = false.
Proof.
  intros H Hi. destruct (N.eq_dec a 0) as [->|Ha]; [apply N.bits_0|].
  apply N.bits_above_log2. apply N.log2_lt_pow2; [lia|].
  eapply N.lt_le_trans; [exact H|]. apply N.pow_le_mono_r; lia.
Qed.
Lemma lt_pow2_bits a n : (forall i, n <= i -> N.testbit a i = false) -> a < 2 ^ n.
Proof.
  intros H. destruct (N.eq_dec a 0) as [->|Ha].
  - apply N.neq_0_lt_0. apply N.pow_nonzero. lia.
  - apply N.log2_lt_pow2; [lia|]. destruct (N.lt_ge_cases (N.log2 a) n) as [|Hn]; [assumption|].
    specialize (H _ Hn). rewrite N.bit_log2 in H by assumption. discriminate.
Qed.
Lemma testbit_add_shift a b n i : a < 2 ^ n ->
  N.testbit (a + 2 ^ n * b) i = if i <? n then N.testbit a i else N.testbit b (i - n).
Proof.
  intros H. rewrite add_shift_lor by assumption. rewrite N.lor_spec.
  destruct (i <? n) eqn:E.
  - rewrite N.shiftl_spec_low by lia. apply orb_false_r.
  - rewrite (testbit_high a n i) by (assumption || lia). rewrite N.shiftl_spec_high' by lia. reflexivity.
Qed.
Lemma le_val_testbit l i : bytes_ok l ->
  N.testbit (le_val l) i = N.testbit (nthN l (i / 8) 0) (i mod 8).
Proof.
  intros H. revert i. induction H; intros i; simpl.
  - unfold nthN. destruct (N.to_nat (i / 8)); simpl; rewrite !N.bits_0; reflexivity.
  - change 256 with (2 ^ 8). rewrite testbit_add_shift by exact H.
    destruct (i <? 8) eqn:E.
    + replace (i / 8) with 0 by lia. replace (i mod 8) with i by lia. reflexivity.
    + rewrite IHForall. replace (i / 8) with ((i - 8) / 8 + 1) by lia.
      replace (i mod 8) with ((i - 8) mod 8) by lia. rewrite nthN_cons_S. reflexivity.
Qed.
Lemma le_val_xor a b : bytes_ok a -> bytes_ok b -> lenN a = lenN b ->
  le_val (xor_bytes a b) = N.lxor (le_val a) (le_val b).
Proof.
  intros Ha Hb HL. apply N.bits_inj. intros i.
  rewrite N.lxor_spec, !le_val_testbit; auto using bytes_ok_xor.
  rewrite nthN_xor by assumption. rewrite N.lxor_spec. reflexivity.
Qed.
Lemma pow2_pos n : 0 < 2 ^ n.
Proof. apply N.neq_0_lt_0. apply N.pow_nonzero. lia. Qed.
Lemma lxor_lt a b n : a < 2 ^ n -> b < 2 ^ n -> N.lxor a b < 2 ^ n.
Proof.
  intros Ha Hb. apply lt_pow2_bits. intros i Hi.
  rewrite N.lxor_spec, !(testbit_high _ n i) by assumption. reflexivity.
Qed.
Lemma le_bytes_mod n x : le_bytes n (x mod 256 ^ N.of_nat n) = le_bytes n x.
Proof.
  revert x. induction n; intros x; simpl; [reflexivity|].
  replace (N.of_nat (S n)) with (N.of_nat n + 1) by lia.
  rewrite N.pow_add_r, N.pow_1_r, (N.mul_comm (256 ^ N.of_nat n)).
  assert (256 ^ N.of_nat n <> 0) by (apply N.pow_nonzero; lia).
  rewrite (N.mod_mul_r x 256 (256 ^ N.of_nat n)) by lia. f_equal.
  - rewrite N.mul_comm, N.mod_add by lia. rewrite N.mod_mod by lia. reflexivity.
  - rewrite N.mul_comm, N.div_add by lia.
    rewrite (N.div_small (x mod 256)) by (apply N.mod_lt; lia). rewrite N.add_0_l. apply IHn.
Qed.
