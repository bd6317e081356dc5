(** Tactics for [wp], and lemmas about the integers of C. *)
From Coq Require Import ZArith NArith List Bool FMapPositive Lia.
From Verif Require Import Model.CtLang Model.CtNames Model.CtProgram Proof.RefLogic.
From Verif Require Model.Base Model.Fields.
Import ListNotations.
Local Open Scope Z_scope.

(** ** Integers *)
Lemma wrap_u w z : 0 < w -> 0 <= z < 2 ^ w -> wrap (IT false w) z = z.
Proof. intros W H. unfold wrap. cbn [andb]. rewrite Z.land_ones by lia. apply Z.mod_small. exact H. Qed.
Lemma wrap_u8 z : 0 <= z < 256 -> wrap u8 z = z.
Proof. intros H. apply wrap_u; [lia|exact H]. Qed.
Lemma wrap_u16 z : 0 <= z < 65536 -> wrap u16 z = z.
Proof. intros H. apply wrap_u; [lia|exact H]. Qed.
Lemma wrap_u32 z : 0 <= z < 4294967296 -> wrap u32 z = z.
Proof. intros H. apply wrap_u; [lia|exact H]. Qed.
Lemma wrap_u64 z : 0 <= z < 18446744073709551616 -> wrap u64 z = z.
Proof. intros H. apply wrap_u; [lia|exact H]. Qed.
Lemma wrap_s32 z : -2147483648 <= z < 2147483648 -> wrap s32 z = z.
Proof.
  intros H. unfold wrap, s32. cbv zeta. rewrite Z.land_ones by lia. cbn [andb].
  assert (M := Z.mod_pos_bound z (2 ^ 32) ltac:(lia)).
  destruct (Z.testbit (z mod 2 ^ 32) (32 - 1)) eqn:T.
  - assert (N : z < 0).
    { destruct (Z.ltb_spec z 0); [assumption|]. rewrite Z.mod_small in T by (change (2 ^ 32) with 4294967296; lia).
      rewrite Z.testbit_true in T by lia. rewrite Z.div_small in T by (change (2 ^ (32 - 1)) with 2147483648; lia). discriminate. }
    rewrite <- (Z_mod_plus_full z 1 (2 ^ 32)). rewrite Z.mod_small by (change (2 ^ 32) with 4294967296; lia).
    change (2 ^ 32) with 4294967296. lia.
  - assert (N : 0 <= z).
    { destruct (Z.ltb_spec z 0); [|assumption]. exfalso. rewrite <- (Z_mod_plus_full z 1 (2 ^ 32)) in T.
      rewrite Z.mod_small in T by (change (2 ^ 32) with 4294967296; lia).
      rewrite Z.testbit_false in T by lia. change (2 ^ 32) with 4294967296 in T. change (2 ^ (32 - 1)) with 2147483648 in T.
      assert (E : (z + 1 * 4294967296) / 2147483648 = 1) by (symmetry; apply Z.div_unique with (r := z + 2147483648); lia).
      rewrite E in T. discriminate. }
    apply Z.mod_small. change (2 ^ 32) with 4294967296. lia.
Qed.
Lemma truth_b b : truth (VInt (b2z b)) = b.
Proof. destruct b; reflexivity. Qed.

(** ** Environments *)
Fixpoint has (e : env) (l : list (positive * value)) : Prop :=
  match l with [] => True | (x, v) :: l => lookup e x = v /\ has e l end.

Ltac look := repeat (rewrite lookup_add; cbn [Pos.eqb]); first [eassumption | reflexivity].

Ltac splits := repeat match goal with |- _ /\ _ => split end.
Ltac unhas := repeat match goal with
  | H : has _ (_ :: _) |- _ => destruct H as [? H]
  | H : has _ [] |- _ => clear H
  end.
Ltac hass := cbn [has]; splits; [look..|exact Logic.I].
Ltac lookz := repeat (rewrite lookup_add; cbn [Pos.eqb]); first [eassumption | reflexivity | f_equal; lia].
Ltac hasz := cbn [has]; splits; [lookz..|exact Logic.I].

(** Pointers in bounds: look for a known array that contains them. *)
Ltac inb_in :=
  lazymatch goal with
  | |- inb (setb _ _ _ _) _ _ _ => unfold setb at 1; rewrite setc_inb; inb_in
  | |- inb (setv _ _ _ _) _ _ _ => unfold setv at 1; rewrite setc_inb; inb_in
  | |- inb (fresh ?m _ _) (mnext ?m) _ _ => apply inb_fresh; lia
  | |- inb (fresh ?m _ _) _ _ _ => eapply inb_frame; [apply (frame_fresh m _ _ nothing)|]; inb_in
  | |- inb ?m ?b _ _ =>
      match goal with
      | H : inb m b _ _ |- _ => eapply (inb_sub _ _ _ _ _ _ H); lia
      | F : frame ?m0 m _ |- _ => apply (inb_frame _ _ _ _ _ _ F); inb_in
      end
  end.

(** Evaluate an expression; what cannot be decided is left. *)
Ltac ev :=
  lazymatch goal with
  | |- pe _ _ (EInt _) _ => apply pe_int
  | |- pe _ _ (EVar _) _ => apply pe_var; look
  | |- pe _ _ (EGlob _) _ => apply pe_glob
  | |- pe _ _ ENull _ => apply pe_null
  | |- pe _ _ (EUn _ _ _) _ => eapply pe_un; ev
  | |- pe _ _ (EBin _ _ _ _) _ => eapply pe_bin; [ev|ev]
  | |- pe _ _ (EDiv _ _ _ _) _ => eapply pe_div; [ev|ev|try lia]
  | |- pe _ _ (EAt _ _ _) _ => eapply pe_at; [ev|ev]
  | |- pe _ _ (EIsNull _) _ => eapply pe_isnull; ev
  | |- pe _ _ (ELoad 1 _) _ => eapply pe_load1; [ev|try inb_in]
  | |- pe _ _ (ELoad _ _) _ => eapply pe_load; [ev|try inb_in]
  | |- pe _ _ (ELoadP _) _ => eapply pe_loadp; [ev|try inb_in]
  | |- pe _ _ (EField _ _ _) _ => eapply pe_field; [ev|try inb_in]
  | |- _ => idtac
  end.
Ltac evs := repeat (apply pes_nil || (eapply pes_cons; [ev|])).

(** Evaluate and state the value. *)
Ltac ev_as v := eapply pe_eq; [ev|try reflexivity].

Ltac start F := apply (calls_intro code _ _ _ _ _ F);
  match type of F with _ = Some ?c => unfold c end; cbn [fparams fbody bind_params].
Ltac seq := apply wp_seq.
Ltac simp := cbn [bin un div b2z set].
Ltac wr := repeat match goal with
  | |- context [wrap u8 ?z] => rewrite (wrap_u8 z) by lia
  | |- context [wrap u16 ?z] => rewrite (wrap_u16 z) by lia
  | |- context [wrap u32 ?z] => rewrite (wrap_u32 z) by lia
  | |- context [wrap u64 ?z] => rewrite (wrap_u64 z) by lia
  | |- context [wrap s32 ?z] => rewrite (wrap_s32 z) by lia
  end.

(** Counting loops: [x] runs from [lo] to [hi]. *)
Lemma wp_for c x w body (J : Z -> env -> mem -> Prop) (Q : outcome -> env -> mem -> Prop) lo hi e m :
  0 < w -> 0 <= lo <= hi -> hi < 2 ^ w ->
  (forall i e m, lo <= i < hi -> J i e m -> lookup e x = VInt i /\ (exists v, pe e m c v /\ truth v = true) /\
     wp code body e m (fun o e m => match o with
       | ONormal | OContinue => lookup e x = VInt i /\ J (i + 1) (PositiveMap.add x (VInt (i + 1)) e) m
       | OBreak => Q ONormal e m
       | OReturn _ => Q o e m end)) ->
  (forall e m, J hi e m -> (exists v, pe e m c v /\ truth v = false) /\ Q ONormal e m) ->
  J lo e m -> wp code (SLoop c (SSet x (EBin OAdd (IT false w) (EVar x) (EInt 1))) body) e m Q.
Proof.
  intros W L B Hs H0 HJ.
  apply (wp_loop code c _ body (fun n e m => exists i, Z.of_nat n = hi - i /\ lo <= i /\ J i e m) Q) with (n := Z.to_nat (hi - lo)).
  - intros n e0 m0 (i & En & Li & K). destruct (Hs i e0 m0 ltac:(lia) K) as (Ex & Ec & Wb). split; [exact Ec|].
    eapply wp_weak; [exact Wb|]. intros o e1 m1 R. destruct o; auto.
    + destruct R as [R1 R2]. eapply wp_set; [eapply pe_bin; [apply pe_var; exact R1|apply pe_int]|]. split; [reflexivity|].
      exists (i + 1). split; [lia|]. split; [lia|]. cbn [bin]. rewrite wrap_u by lia. exact R2.
    + destruct R as [R1 R2]. eapply wp_set; [eapply pe_bin; [apply pe_var; exact R1|apply pe_int]|]. split; [reflexivity|].
      exists (i + 1). split; [lia|]. split; [lia|]. cbn [bin]. rewrite wrap_u by lia. exact R2.
  - intros e0 m0 (i & En & Li & K). apply H0. replace hi with i by lia. exact K.
  - exists lo. split; [lia|]. split; [lia|exact HJ].
Qed.
