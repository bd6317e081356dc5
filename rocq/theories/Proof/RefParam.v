(** The translated choice of a parameter set: instances.c, faest_get_paramset. *)
From Coq Require Import ZArith NArith List Bool FMapPositive Lia ZifyBool ZifyNat ZifyN.
From Verif Require Import Model.Base Model.Params Proof.BaseProof Spec.FormatSpec.
From Verif Require Import Model.CtLang Model.CtNames Model.CtFaest Model.CtProgram Spec.RefSpec Spec.RefVoleSpec Spec.RefPartsSpec Spec.RefParamSpec Proof.RefLogic Proof.RefTac Proof.RefMem Proof.RefProps Proof.RefOwf Proof.RefParts.
Import ListNotations.
Local Open Scope Z_scope.
Arguments wrap : simpl never.

(** ** A structure filled member by member *)
Definition entry : Type := nat * Z * Z.
Definition place (x : positive) (o : Z) : expr := if o =? 0 then EVar x else EAt (EVar x) 1 (EInt o).
Fixpoint fill (x : positive) (l : list entry) (s : stmt) : stmt :=
  match l with [] => s | (n, o, v) :: r => SStore n (place x o) (EInt v) ;; fill x r s end.
Definition answer (x : positive) (l : list entry) : stmt := SAlloc x (EInt 36) ;; fill x l (SCopy (EVar 1) (EVar x) (EInt 36) ;; SReturn (EInt 0)).
(** what 36 bytes hold afterwards *)
Definition patch (f : Z -> Z) (e : entry) (i : Z) : Z := let '(n, o, v) := e in if (o <=? i) && (i <? o + Z.of_nat n) then nth (Z.to_nat (i - o)) (encode n v) 0 else f i.
Definition inside (e : entry) : bool := let '(n, o, v) := e in (0 <=? o) && (o + Z.of_nat n <=? 36).

Lemma encode_len n v : length (encode n v) = n.
Proof. revert v. induction n as [|n IH]; intros v; cbn; [reflexivity|]. rewrite IH. reflexivity. Qed.
Lemma wp_fill_in x s en nb (Q : outcome -> env -> mem -> Prop) : lookup en x = VPtr nb 0 ->
  forall l m f, inb m nb 0 36 -> (forall i, 0 <= i < 36 -> byte m nb i = f i) -> forallb inside l = true ->
  (forall m', frame m m' (at_ nb 0 36) -> (forall i, 0 <= i < 36 -> byte m' nb i = fold_left patch l f i) -> wp code s en m' Q) -> wp code (fill x l s) en m Q.
Proof.
  intros EX. induction l as [|[[n o] v] l IH]; intros m f I B C K; cbn [fill].
  - apply K; [apply frame_refl|exact B].
  - cbn [forallb inside] in C. apply andb_true_iff in C. destruct C as [C1 C]. apply andb_true_iff in C1. destruct C1 as [C1 C2]. apply Z.leb_le in C1, C2.
    assert (J : inb m nb o (Z.of_nat n)) by (eapply inb_sub; [exact I|lia..]).
    seq. eapply (wp_store _ n _ _ _ _ nb o v); [|apply pe_int|exact J|].
    { unfold place. destruct (Z.eqb_spec o 0) as [->|N]; [apply pe_var, EX|]. eapply pe_eq; [eapply pe_at; [apply pe_var, EX|apply pe_int]|]. f_equal. lia. }
    assert (J' : inb m nb o (Z.of_nat (length (encode n v)))) by (rewrite encode_len; exact J).
    apply (IH _ (patch f (n, o, v))).
    + apply setc_inb, I.
    + intros i Hi. rewrite byte_setb by (exact J' || lia). rewrite Pos.eqb_refl, encode_len. cbn [andb patch]. destruct (_ && _); [reflexivity|]. apply B, Hi.
    + exact C.
    + intros m' F B'. apply K; [|exact B']. eapply frame_comp; [eapply frame_weak; [apply frame_setb, J'|]|exact F|intros c q _ _ Z; exact Z].
      intros c q _ _ [-> Hq]. rewrite encode_len in Hq. split; [reflexivity|lia].
Qed.

Lemma wp_answer x l en m b o (Q : outcome -> env -> mem -> Prop) : lookup en 1%positive = VPtr b o -> x <> 1%positive -> inb m b o 36 -> forallb inside l = true ->
  (forall en' m', frame m m' (at_ b o 36) -> (forall i, 0 <= i < 36 -> byte m' b (o + i) = fold_left patch l (fun _ => 0) i) -> Q (OReturn (VInt 0)) en' m') ->
  wp code (answer x l) en m Q.
Proof.
  intros E1 NX I C K. unfold answer. seq. eapply wp_alloc; [apply pe_int|].
  assert (NB : b <> mnext m) by (destruct I as [I _]; lia).
  eapply (wp_fill_in x _ _ (mnext m)) with (f := fun _ => 0); [rewrite lookup_add, Pos.eqb_refl; reflexivity|apply inb_fresh; lia| |exact C|].
  { intros i _. unfold byte, cell, fresh. cbn [mblocks]. rewrite PositiveMap.gss. cbn [bcells]. unfold get. destruct i; try reflexivity; rewrite PositiveMap.gempty; reflexivity. }
  intros m1 F1 B1. assert (I1 : inb m1 b o 36) by (eapply inb_frame; [exact F1|]; eapply inb_frame; [apply (frame_fresh m _ _ nothing)|exact I]).
  seq. eapply wp_copy1; [apply pe_var; rewrite lookup_add; destruct (Pos.eqb_spec 1 x); [congruence|exact E1]|apply pe_var; rewrite lookup_add, Pos.eqb_refl; reflexivity|apply pe_int|exact I1| |].
  { eapply inb_frame; [exact F1|]. apply inb_fresh; lia. }
  eapply wp_return; [apply pe_int|]. apply K.
  - eapply frame_comp; [eapply frame_comp; [apply frame_fresh|exact F1|]|apply frame_copy_at, I1|]; cbv beta.
    + intros c q L _ [-> _]. exfalso. lia.
    + intros c q L _ Z. exact Z.
  - intros i Hi. rewrite byte_copy by assumption. rewrite Z.add_0_l. apply B1, Hi.
Qed.

(** ** The switch *)
Fixpoint switch (l : list (Z * positive * list entry)) (x : positive) (d : list entry) : stmt :=
  match l with [] => answer x d | (k, y, t) :: r => SIf (EBin OEq s32 (EVar 3) (EInt k)) (answer y t) (switch r x d) end.
Fixpoint chosen (l : list (Z * positive * list entry)) (d : list entry) (z : Z) : list entry :=
  match l with [] => d | (k, _, t) :: r => if z =? k then t else chosen r d z end.
Definition cases : list (Z * positive * list entry) := [
  (1, 4%positive, [(2%nat, 0, 128); (2%nat, 2, 4); (2%nat, 4, 40); (2%nat, 6, 10); (2%nat, 8, 160); (2%nat, 10, 1600); (2%nat, 12, 448); (2%nat, 14, 1152); (2%nat, 16, 11); (2%nat, 18, 12); (2%nat, 20, 11); (2%nat, 22, 7); (2%nat, 24, 4); (2%nat, 26, 5006); (2%nat, 28, 32); (4%nat, 32, 1)]);
  (2, 5%positive, [(2%nat, 0, 128); (2%nat, 2, 4); (2%nat, 4, 40); (2%nat, 6, 10); (2%nat, 8, 160); (2%nat, 10, 1600); (2%nat, 12, 448); (2%nat, 14, 1152); (2%nat, 16, 16); (2%nat, 18, 8); (2%nat, 20, 8); (2%nat, 24, 16); (2%nat, 26, 6336); (2%nat, 28, 32); (4%nat, 32, 2)]);
  (7, 6%positive, [(2%nat, 0, 128); (2%nat, 2, 4); (2%nat, 6, 10); (2%nat, 8, 160); (2%nat, 10, 1280); (2%nat, 14, 1280); (2%nat, 16, 11); (2%nat, 18, 12); (2%nat, 20, 11); (2%nat, 22, 7); (2%nat, 24, 4); (2%nat, 26, 4566); (2%nat, 28, 32); (4%nat, 32, 7)]);
  (8, 7%positive, [(2%nat, 0, 128); (2%nat, 2, 4); (2%nat, 6, 10); (2%nat, 8, 160); (2%nat, 10, 1280); (2%nat, 14, 1280); (2%nat, 16, 16); (2%nat, 18, 8); (2%nat, 20, 8); (2%nat, 24, 16); (2%nat, 26, 5696); (2%nat, 28, 32); (4%nat, 32, 8)]);
  (3, 8%positive, [(2%nat, 0, 192); (2%nat, 2, 6); (2%nat, 4, 32); (2%nat, 6, 12); (2%nat, 8, 192); (2%nat, 10, 3264); (2%nat, 12, 448); (2%nat, 14, 1408); (2%nat, 16, 16); (2%nat, 18, 12); (2%nat, 20, 12); (2%nat, 24, 16); (2%nat, 26, 12744); (2%nat, 28, 64); (4%nat, 32, 3)]);
  (4, 9%positive, [(2%nat, 0, 192); (2%nat, 2, 6); (2%nat, 4, 32); (2%nat, 6, 12); (2%nat, 8, 192); (2%nat, 10, 3264); (2%nat, 12, 448); (2%nat, 14, 1408); (2%nat, 16, 24); (2%nat, 18, 8); (2%nat, 20, 8); (2%nat, 24, 24); (2%nat, 26, 16792); (2%nat, 28, 64); (4%nat, 32, 4)]);
  (9, 10%positive, [(2%nat, 0, 192); (2%nat, 2, 6); (2%nat, 6, 12); (2%nat, 8, 288); (2%nat, 10, 2304); (2%nat, 14, 2304); (2%nat, 16, 16); (2%nat, 18, 12); (2%nat, 20, 12); (2%nat, 24, 16); (2%nat, 26, 10824); (2%nat, 28, 48); (4%nat, 32, 9)]);
  (10, 11%positive, [(2%nat, 0, 192); (2%nat, 2, 6); (2%nat, 6, 12); (2%nat, 8, 288); (2%nat, 10, 2304); (2%nat, 14, 2304); (2%nat, 16, 24); (2%nat, 18, 8); (2%nat, 20, 8); (2%nat, 24, 24); (2%nat, 26, 13912); (2%nat, 28, 48); (4%nat, 32, 10)]);
  (5, 12%positive, [(2%nat, 0, 256); (2%nat, 2, 8); (2%nat, 4, 52); (2%nat, 6, 14); (2%nat, 8, 224); (2%nat, 10, 4000); (2%nat, 12, 672); (2%nat, 14, 1664); (2%nat, 16, 22); (2%nat, 18, 12); (2%nat, 20, 11); (2%nat, 22, 14); (2%nat, 24, 8); (2%nat, 26, 22100); (2%nat, 28, 64); (4%nat, 32, 5)]);
  (6, 13%positive, [(2%nat, 0, 256); (2%nat, 2, 8); (2%nat, 4, 52); (2%nat, 6, 14); (2%nat, 8, 224); (2%nat, 10, 4000); (2%nat, 12, 672); (2%nat, 14, 1664); (2%nat, 16, 32); (2%nat, 18, 8); (2%nat, 20, 8); (2%nat, 24, 32); (2%nat, 26, 28400); (2%nat, 28, 64); (4%nat, 32, 6)]);
  (11, 14%positive, [(2%nat, 0, 256); (2%nat, 2, 8); (2%nat, 6, 14); (2%nat, 8, 448); (2%nat, 10, 3584); (2%nat, 14, 3584); (2%nat, 16, 22); (2%nat, 18, 12); (2%nat, 20, 11); (2%nat, 22, 14); (2%nat, 24, 8); (2%nat, 26, 20956); (2%nat, 28, 64); (4%nat, 32, 11)]);
  (12, 15%positive, [(2%nat, 0, 256); (2%nat, 2, 8); (2%nat, 6, 14); (2%nat, 8, 448); (2%nat, 10, 3584); (2%nat, 14, 3584); (2%nat, 16, 32); (2%nat, 18, 8); (2%nat, 20, 8); (2%nat, 24, 32); (2%nat, 26, 26736); (2%nat, 28, 64); (4%nat, 32, 12)])].
Definition default : list entry := [(4%nat, 32, 0)].
Lemma code_get_paramset : PositiveMap.find f_faest_get_paramset code = Some (Func [1%positive; 2%positive] (SSet 3 (EVar 2) ;; switch cases 16 default)).
Proof. vm_compute. reflexivity. Qed.

Lemma wp_switch x d z en m b o (Q : outcome -> env -> mem -> Prop) : lookup en 1%positive = VPtr b o -> lookup en 3%positive = VInt z -> x <> 1%positive -> inb m b o 36 -> forallb inside d = true ->
  forall l, forallb (fun '(_, y, t) => negb (Pos.eqb y 1) && forallb inside t) l = true ->
  (forall en' m', frame m m' (at_ b o 36) -> (forall i, 0 <= i < 36 -> byte m' b (o + i) = fold_left patch (chosen l d z) (fun _ => 0) i) -> Q (OReturn (VInt 0)) en' m') ->
  wp code (switch l x d) en m Q.
Proof.
  intros E1 E3 NX I D. induction l as [|[[k y] t] l IH]; cbn [switch chosen forallb]; intros C K.
  - eapply wp_answer; eassumption.
  - apply andb_true_iff in C. destruct C as [C1 C]. apply andb_true_iff in C1. destruct C1 as [NY CT]. eapply wp_if; [eapply pe_bin; [apply pe_var, E3|apply pe_int]|]. simp. rewrite truth_b.
    destruct (Z.eqb_spec z k) as [->|N]; [|apply IH; assumption]. eapply wp_answer; try eassumption. intros ->. discriminate.
Qed.
Lemma get_paramset_calls m b o z : inb m b o 36 ->
  calls code f_faest_get_paramset [VPtr b o; VInt z] m (fun _ m' => frame m m' (at_ b o 36) /\ forall i, 0 <= i < 36 -> byte m' b (o + i) = fold_left patch (chosen cases default z) (fun _ => 0) i).
Proof.
  intros I. apply (calls_intro code _ _ _ _ _ code_get_paramset). cbn [fparams fbody bind_params]. seq. eapply wp_set; [apply pe_var; look|].
  apply (wp_switch 16 default z _ m b o); [look|look|discriminate|exact I|vm_compute; reflexivity|vm_compute; reflexivity|]. intros en' m' F B. split; [exact F|exact B].
Qed.

(** ** What is in the structure *)
Lemma bytes_holds m b o l f k : inb m b o 36 -> (forall i, 0 <= i < 36 -> byte m b (o + i) = f i) -> 0 <= k -> k + Z.of_nat (length l) <= 36 ->
  map (fun i => f (k + Z.of_nat i)) (seq 0 (length l)) = map Z.of_N l -> stands m b (o + k) l.
Proof.
  intros I B K L E. apply holds_stands. split; [eapply inb_sub; [exact I|unfold lenN; lia..]|]. intros i Hi. unfold lenN in Hi. rewrite <- Z.add_assoc, B by lia.
  assert (X := f_equal (fun q => nth (N.to_nat i) q 0) E). cbn beta in X. rewrite (nth_indep _ 0 ((fun i => f (k + Z.of_nat i)) O)) in X by (rewrite map_length, seq_length; lia).
  rewrite (map_nth (fun i => f (k + Z.of_nat i))), seq_nth in X by lia. change 0 with (Z.of_N 0) in X. rewrite (map_nth Z.of_N) in X. unfold nthN. rewrite <- X. f_equal. lia.
Qed.
Lemma get_paramset_returns i m b o : room m b o paramset_bytes ->
  exists v m', returns f_faest_get_paramset [VPtr b o; VInt (Z.of_N (paramid_to_N i))] m v m' /\ parameter_set m' b o (param_of i) (paramid_to_N i) /\ unchanged m m' (within b o paramset_bytes).
Proof.
  intros R. apply room_inb in R. destruct (calls_returns _ _ _ _ (get_paramset_calls m b o (Z.of_N (paramid_to_N i)) R)) as (v & m' & C & F & B). exists v, m'. split; [exact C|].
  assert (I := inb_frame _ _ _ _ _ _ F R). split; [|eapply frame_unchanged; [exact F|intros c q X; exact X]]. split.
  - rewrite <- (Z.add_0_r o). eapply bytes_holds; [exact I|exact B|lia| |]; destruct i; vm_compute; (reflexivity || discriminate).
  - eapply bytes_holds; [exact I|exact B|lia| |]; destruct i; vm_compute; (reflexivity || discriminate).
Qed.
Lemma no_case z : (forall i, z <> Z.of_N (paramid_to_N i)) -> chosen cases default z = default.
Proof.
  intros N. unfold cases. cbn [chosen].
  rewrite (proj2 (Z.eqb_neq z 1) (N FAEST_128S)), (proj2 (Z.eqb_neq z 2) (N FAEST_128F)), (proj2 (Z.eqb_neq z 3) (N FAEST_192S)), (proj2 (Z.eqb_neq z 4) (N FAEST_192F)), (proj2 (Z.eqb_neq z 5) (N FAEST_256S)), (proj2 (Z.eqb_neq z 6) (N FAEST_256F)),
    (proj2 (Z.eqb_neq z 7) (N FAEST_EM_128S)), (proj2 (Z.eqb_neq z 8) (N FAEST_EM_128F)), (proj2 (Z.eqb_neq z 9) (N FAEST_EM_192S)), (proj2 (Z.eqb_neq z 10) (N FAEST_EM_192F)), (proj2 (Z.eqb_neq z 11) (N FAEST_EM_256S)), (proj2 (Z.eqb_neq z 12) (N FAEST_EM_256F)). reflexivity.
Qed.
Lemma get_paramset_unknown z m b o : (forall i, z <> Z.of_N (paramid_to_N i)) -> room m b o paramset_bytes ->
  exists v m', returns f_faest_get_paramset [VPtr b o; VInt z] m v m' /\ parameter_set m' b o (mkParam 0 0 0 0 0 0 0 0 0 0 0 0 0 0 0) 0 /\ unchanged m m' (within b o paramset_bytes).
Proof.
  intros N R. apply room_inb in R. destruct (calls_returns _ _ _ _ (get_paramset_calls m b o z R)) as (v & m' & C & F & B). exists v, m'. split; [exact C|]. rewrite (no_case z N) in B.
  assert (I := inb_frame _ _ _ _ _ _ F R). split; [|eapply frame_unchanged; [exact F|intros c q X; exact X]]. split.
  - rewrite <- (Z.add_0_r o). eapply bytes_holds; [exact I|exact B|lia|vm_compute; discriminate|vm_compute; reflexivity].
  - eapply bytes_holds; [exact I|exact B|lia|vm_compute; discriminate|vm_compute; reflexivity].
Qed.

(** ** Its use *)
Lemma member m b o p n k v : parameter_set m b o p n -> (k < 15)%N -> nth (N.to_nat k) (members p) 0%N = v -> number m b (o + 2 * Z.of_N k) v.
Proof.
  intros [S _] K E. apply holds_stands in S. assert (P := holds_part m b o _ (2 * k) 2 S). unfold lenN in P. cbn [members flat_map app length] in P. specialize (P ltac:(lia)). apply holds_stands.
  replace (o + 2 * Z.of_N k) with (o + ofN (2 * k)) by lia. revert P. subst v. clear S.
  assert (X : (k = 0 \/ k = 1 \/ k = 2 \/ k = 3 \/ k = 4 \/ k = 5 \/ k = 6 \/ k = 7 \/ k = 8 \/ k = 9 \/ k = 10 \/ k = 11 \/ k = 12 \/ k = 13 \/ k = 14)%N) by lia.
  repeat (destruct X as [->|X]; [intros P; exact P|]). subst k. intros P. exact P.
Qed.
Lemma set_signature m b o p n : parameter_set m b o p n -> signature_parameters m b o p.
Proof.
  intros S. unfold signature_parameters. split; [rewrite <- (Z.add_0_r o); exact (member m b o p n 0 _ S eq_refl eq_refl)|].
  split; [exact (member m b o p n 5 _ S eq_refl eq_refl)|]. split; [exact (member m b o p n 8 _ S eq_refl eq_refl)|]. split; [exact (member m b o p n 9 _ S eq_refl eq_refl)|].
  split; [exact (member m b o p n 10 _ S eq_refl eq_refl)|]. split; [exact (member m b o p n 11 _ S eq_refl eq_refl)|exact (member m b o p n 13 _ S eq_refl eq_refl)].
Qed.
Lemma set_vole m b o p n : parameter_set m b o p n -> vole_parameters m b o (p_lambda p) (p_tau p) (p_k0 p) (p_k1 p) (p_t0 p).
Proof.
  intros S. apply set_signature in S. destruct S as (A & _ & B & C & D & E & _). repeat (split; [assumption|]). assumption.
Qed.
Lemma get_paramset_layout i m b o sb so : room m b o paramset_bytes ->
  exists v m', returns f_faest_get_paramset [VPtr b o; VInt (Z.of_N (paramid_to_N i))] m v m' /\
    vole_parameters m' b o (p_lambda (param_of i)) (p_tau (param_of i)) (p_k0 (param_of i)) (p_k1 (param_of i)) (p_t0 (param_of i)) /\
    forall verifier before x after, parts (param_of i) = before ++ x :: after ->
      returns (place_function verifier x) (place_arguments (VPtr sb so) x (VPtr b o)) m' (VPtr sb (so + Z.of_N (total (param_of i) before))) m'.
Proof.
  intros R. destruct (get_paramset_returns i m b o R) as (v & m' & C & S & _). exists v, m'. split; [exact C|]. split; [exact (set_vole _ _ _ _ _ S)|].
  intros verifier before x after E. eapply place_returns; [exact E|exact (set_signature _ _ _ _ _ S)].
Qed.
Lemma part_contents m b o p n k l : parameter_set m b o p n -> (k + l <= 30)%N ->
  contents m b (o + Z.of_N k) (length (firstn (N.to_nat l) (skipn (N.to_nat k) (flat_map (fun v => [v mod 256; v / 256]%N) (members p))))) =
    Some (map Z.of_N (firstn (N.to_nat l) (skipn (N.to_nat k) (flat_map (fun v => [v mod 256; v / 256]%N) (members p))))).
Proof. intros [S _] L. apply holds_stands in S. apply holds_stands. apply holds_part; [exact S|]. exact L. Qed.
