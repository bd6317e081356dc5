(** The table of types is right for the translated program, and what follows
    for the functions of the API. *)
From Coq Require Import ZArith List Bool FMapPositive Lia.
From Verif Require Import Model.CtLang Model.CtNames Model.CtProgram Spec.CtSpec Proof.CtCheck Proof.CtSound Proof.CtEntries.
Import ListNotations.
Local Open Scope Z_scope.

(** The constants do not depend on secrets, the random bytes do. *)
Definition global_label (g : positive) : option lab :=
  if Pos.leb g last_global then Some (Pos.eqb g tape) else None.

Lemma table_ok : cprogram code global_label entries = true.
Proof. vm_compute. reflexivity. Qed.

Lemma sigs_of_in f l s : forall es, PositiveMap.find f (sigs_of es) = Some l -> In s l ->
  exists i, In i es /\ e_fun i = f /\ e_sig i = s.
Proof.
  intros es. revert l s. induction es as [|i es IH]; intros l s F I; cbn in F.
  - rewrite PositiveMap.gempty in F. discriminate.
  - destruct (Pos.eq_dec f (e_fun i)) as [->|N].
    + rewrite PositiveMap.gss in F. injection F as <-. destruct I as [<-|I].
      * exists i. cbn. auto.
      * destruct (PositiveMap.find (e_fun i) (fold_right _ _ es)) as [k|] eqn:K; [|destruct I].
        destruct (IH k s K I) as (j & A & B & D). exists j. cbn. auto.
    + rewrite PositiveMap.gso in F by exact N. destruct (IH l s F I) as (j & A & B & D). exists j. cbn. auto.
Qed.

Lemma valid_of P G es : cprogram P G es = true -> valid P G (sigs_of es).
Proof.
  intros H f l s F I. destruct (sigs_of_in f l s es F I) as (i & A & <- & <-).
  unfold cprogram in H. rewrite forallb_forall in H. specialize (H i A). unfold centry in H.
  destruct (PositiveMap.find (e_fun i) P) as [fn|]; [|discriminate].
  apply andb_prop in H as [H1 H2]. exists fn, (gamma_of (e_vars i)). auto.
Qed.

Lemma call_rel P G S : valid P G S -> forall f l s w vs1 vs2 m1 m2 fuel,
  PositiveMap.find f S = Some l -> In s l -> gok G w -> vsok w (s_args s) vs1 vs2 -> mok w m1 m2 ->
  rrel (fun a b => exists w', ext w w' /\ vok w' (s_ret s) (fst a) (fst b) /\ mok w' (snd a) (snd b))
       (call P fuel f vs1 m1) (call P fuel f vs2 m2).
Proof.
  intros V f l s w vs1 vs2 m1 m2 fuel F I GO A M. destruct (V f l s F I) as (fn & C & Ff & Pp & K).
  unfold call. rewrite Ff. eapply rrel_bind.
  { apply (exec_rel P G S V fuel (fbody fn) w C (s_ret s)); [exact GO | exact K | | exact M].
    apply (bind_params_ok w C _ (s_args s)); auto.
    intros y t Y. unfold lookup. rewrite PositiveMap.gempty. apply vok_null. }
  intros [[o1 e1] n1] [[o2 e2] n2] (w' & X & O & _ & M').
  destruct o1, o2; cbn in O; try contradiction; try apply rrel_fail; apply rrel_ret; exists w'; cbn [fst snd]; auto using vok_null.
Qed.

(** The types of blocks at the start of a call. *)
Definition w0 (secret : positive -> bool) (m : mem) : world :=
  fun b => if Pos.ltb b (mnext m) then Some (PBytes (secret b)) else None.

Lemma start_mok secret m1 m2 : start secret m1 m2 -> mok (w0 secret m1) m1 m2.
Proof.
  intros ((N & H) & L & S). split; [exact N|]. intros b p W. unfold w0 in W.
  destruct (Pos.ltb_spec b (mnext m1)) as [B|]; [|discriminate]. injection W as <-. split; [exact B|].
  destruct (H b B) as (k1 & k2 & F1 & F2 & Z & K). exists k1, k2. repeat split; auto.
  destruct (secret b); cbn; auto.
Qed.

Lemma start_gok secret m1 m2 : start secret m1 m2 -> gok global_label (w0 secret m1).
Proof.
  intros (_ & L & S) g l G. unfold global_label in G. destruct (Pos.leb_spec g last_global) as [B|]; [|discriminate].
  injection G as <-. unfold w0. destruct (Pos.ltb_spec g (mnext m1)); [|lia]. rewrite (S g B). reflexivity.
Qed.

Lemma points_vok secret m h v : points_to m secret h v -> vok (w0 secret m) (TPtr (PBytes h)) v v.
Proof.
  intros [->|(b & o & -> & B & S)]; [apply vok_null|]. split; [reflexivity|]. intros b' o' E. injection E as <- <-.
  unfold w0. destruct (Pos.ltb_spec b (mnext m)); [|lia]. rewrite S. reflexivity.
Qed.

Definition vt_eqb (a b : vt) : bool :=
  match a, b with
  | TInt x, TInt y => Bool.eqb x y
  | TPtr x, TPtr y => pty_eqb x y
  | TNull, TNull => true
  | _, _ => false
  end.
Fixpoint vts_eqb (a b : list vt) : bool :=
  match a, b with [], [] => true | x :: a, y :: b => vt_eqb x y && vts_eqb a b | _, _ => false end.

Lemma vt_eqb_eq a b : vt_eqb a b = true -> a = b.
Proof.
  destruct a, b; cbn; try discriminate; try reflexivity; intros H.
  - apply eqb_prop in H. congruence.
  - apply pty_eqb_eq in H. congruence.
Qed.
Lemma vts_eqb_eq : forall a b, vts_eqb a b = true -> a = b.
Proof.
  induction a as [|x a IH]; intros [|y b] H; cbn in H; try discriminate; [reflexivity|].
  apply andb_prop in H as [A B]. apply vt_eqb_eq in A. apply IH in B. congruence.
Qed.

(** The functions [fs] are in the table with these arguments and a result that is not secret. *)
Definition present (fs : list positive) (args : list vt) : bool :=
  let S := sigs_of entries in
  forallb (fun f => match PositiveMap.find f S with
                    | Some l => existsb (fun s => vts_eqb (s_args s) args && vt_eqb (s_ret s) (TInt false)) l
                    | None => false
                    end) fs.

Lemma parted_spec t1 t2 : parted t1 t2 ->
  exists before l1 l2 after1 after2, t1 = before ++ EvPublic l1 :: after1 /\ t2 = before ++ EvPublic l2 :: after2 /\ l1 <> l2.
Proof. exact (fun H => H). Qed.

Lemma api_alike fs args : present fs args = true -> forall f secret m1 m2 vs fuel,
  In f fs -> start secret m1 m2 -> vsok (w0 secret m1) args vs vs ->
  alike_until_published secret (mnext m1) (call code fuel f vs m1) (call code fuel f vs m2).
Proof.
  intros H f secret m1 m2 vs fuel I St A. unfold present in H. cbv zeta in H. rewrite forallb_forall in H. specialize (H f I).
  destruct (PositiveMap.find f (sigs_of entries)) as [l|] eqn:F; [|discriminate].
  apply existsb_exists in H as (s & Hs & H). apply andb_prop in H as [H1 H2].
  apply vts_eqb_eq in H1. apply vt_eqb_eq in H2. rewrite <- H1 in A.
  destruct (call_rel code global_label (sigs_of entries) (valid_of _ _ _ table_ok) f l s (w0 secret m1) vs vs m1 m2 fuel F Hs
              (start_gok _ _ _ St) A (start_mok _ _ _ St)) as [[E R]|R]; [left|right; exact (parted_spec _ _ R)].
  split; [exact E|]. destruct (snd (call code fuel f vs m1)) as [[v1 n1]| |], (snd (call code fuel f vs m2)) as [[v2 n2]| |];
    cbn [same_end] in R; try contradiction; try exact I; auto.
  destruct R as (w' & X & V & M). cbn [fst snd] in V, M. rewrite H2 in V. split; [exact V|].
  intros b B. destruct M as [_ M].
  assert (W : w' b = Some (PBytes (secret b))).
  { apply X. unfold w0. destruct (Pos.ltb_spec b (mnext m1)); [reflexivity | lia]. }
  destruct (M b _ W) as (_ & k1 & k2 & F1 & F2 & Z & K). exists k1, k2. repeat split; auto.
  intros Sb. rewrite Sb in K. exact K.
Qed.

Lemma published_app a b : published (a ++ b) = published a ++ published b.
Proof. unfold published. apply flat_map_app. Qed.

Lemma alike_published secret old r1 r2 : alike_until_published secret old r1 r2 ->
  published (fst r1) = published (fst r2) -> alike secret old r1 r2.
Proof.
  intros [H|(p & l1 & l2 & s1 & s2 & E1 & E2 & N)] P; [exact H|]. exfalso. rewrite E1, E2 in P.
  rewrite !published_app in P. apply app_inv_head in P. cbn in P. congruence.
Qed.

Definition P := TPtr (PBytes true).
Definition L := TPtr (PBytes false).
Definition N := TInt false.

Lemma present_keygen : present keygens [P; P] = true. Proof. vm_compute. reflexivity. Qed.
Lemma present_sign : present signs [P; P; N; P; L] = true. Proof. vm_compute. reflexivity. Qed.
Lemma present_sign_r : present signs_with_randomness [P; P; N; P; N; P; L] = true. Proof. vm_compute. reflexivity. Qed.
Lemma present_validate : present validates [P; P] = true. Proof. vm_compute. reflexivity. Qed.
Lemma present_clear : present clears [P] = true. Proof. vm_compute. reflexivity. Qed.

Theorem keygen_alike : forall f secret m1 m2 pk sk fuel, In f keygens -> start secret m1 m2 ->
  points_to m1 secret true pk -> points_to m1 secret true sk ->
  alike_until_published secret (mnext m1) (call code fuel f [pk; sk] m1) (call code fuel f [pk; sk] m2).
Proof. intros. apply (api_alike _ _ present_keygen); auto. cbn [vsok]; repeat (split; [apply points_vok; assumption|]). exact I. Qed.

Theorem sign_alike : forall f secret m1 m2 sk msg len sig siglen fuel, In f signs -> start secret m1 m2 ->
  points_to m1 secret true sk -> points_to m1 secret true msg -> points_to m1 secret true sig -> points_to m1 secret false siglen ->
  alike_until_published secret (mnext m1) (call code fuel f [sk; msg; VInt len; sig; siglen] m1)
    (call code fuel f [sk; msg; VInt len; sig; siglen] m2).
Proof.
  intros. apply (api_alike _ _ present_sign); auto. cbn [vsok].
  repeat (split; [first [apply points_vok; assumption | reflexivity]|]). exact I.
Qed.

Theorem sign_with_randomness_alike : forall f secret m1 m2 sk msg len rho rholen sig siglen fuel,
  In f signs_with_randomness -> start secret m1 m2 ->
  points_to m1 secret true sk -> points_to m1 secret true msg -> points_to m1 secret true rho ->
  points_to m1 secret true sig -> points_to m1 secret false siglen ->
  alike_until_published secret (mnext m1) (call code fuel f [sk; msg; VInt len; rho; VInt rholen; sig; siglen] m1)
    (call code fuel f [sk; msg; VInt len; rho; VInt rholen; sig; siglen] m2).
Proof.
  intros. apply (api_alike _ _ present_sign_r); auto. cbn [vsok].
  repeat (split; [first [apply points_vok; assumption | reflexivity]|]). exact I.
Qed.

Theorem validate_alike : forall f secret m1 m2 pk sk fuel, In f validates -> start secret m1 m2 ->
  points_to m1 secret true pk -> points_to m1 secret true sk ->
  alike_until_published secret (mnext m1) (call code fuel f [pk; sk] m1) (call code fuel f [pk; sk] m2).
Proof. intros. apply (api_alike _ _ present_validate); auto. cbn [vsok]; repeat (split; [apply points_vok; assumption|]). exact I. Qed.

Theorem clear_alike : forall f secret m1 m2 sk fuel, In f clears -> start secret m1 m2 -> points_to m1 secret true sk ->
  alike_until_published secret (mnext m1) (call code fuel f [sk] m1) (call code fuel f [sk] m2).
Proof. intros. apply (api_alike _ _ present_clear); auto. cbn [vsok]; repeat (split; [apply points_vok; assumption|]). exact I. Qed.
