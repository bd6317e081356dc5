(** Concrete memories and programs for the cases of C53. *)
From Coq Require Import ZArith List Bool FMapPositive Lia.
From Verif Require Import Model.CtLang Model.CtNames Model.CtProgram Spec.CtSpec Spec.FpSpec Proof.FpTable.
Import ListNotations.
Local Open Scope Z_scope.

Definition stores (t : list event) : list positive := flat_map (fun e => match e with EvStore b _ _ => [b] | _ => [] end) t.
Definition loads (t : list event) : list positive := flat_map (fun e => match e with EvLoad b _ _ => [b] | _ => [] end) t.

Lemma stores_writes t b : existsb (Pos.eqb b) (stores t) = true -> writes t b.
Proof.
  intros H. apply existsb_exists in H as (c & I & E). apply Pos.eqb_eq in E. subst c.
  unfold stores in I. apply in_flat_map in I as (e & I & J). destruct e; try contradiction. destruct J as [->|[]].
  do 2 eexists. exact I.
Qed.

Lemma apart_of m ins outs :
  Pos.ltb last_global (mnext m) &&
  forallb (fun v => match v with VPtr b _ => Pos.ltb last_global b && Pos.ltb b (mnext m) | _ => true end) (ins ++ outs) &&
  forallb (fun v => match v with VPtr b _ => negb (intob outs b) | _ => true end) ins = true -> apart m ins outs.
Proof.
  intros H. apply andb_prop in H as [H H3]. apply andb_prop in H as [H1 H2]. rewrite forallb_forall in H2, H3.
  split; [apply Pos.ltb_lt; exact H1|]. split.
  - intros b (o & I). specialize (H2 _ I). cbn in H2. apply andb_prop in H2 as [A B]. apply Pos.ltb_lt in A, B. auto.
  - intros b (o & I) J. specialize (H3 _ I). cbn in H3. apply intob_spec in J. rewrite J in H3. discriminate.
Qed.

Lemma escapes m ins outs r b :
  existsb (Pos.eqb b) (stores (fst r)) && negb (intob outs b) && Pos.ltb b (mnext m) = true -> ~ confined false m ins outs r.
Proof.
  intros H (W & _). apply andb_prop in H as [H H3]. apply andb_prop in H as [H1 H2].
  destruct (W b (stores_writes _ _ H1)) as [I|[L|[R _]]]; [|apply Pos.ltb_lt in H3; lia|discriminate].
  apply intob_spec in I. rewrite I in H2. discriminate.
Qed.

(** Writes to its first argument; adds one to a byte of a global block. *)
Definition writes_input : func := Func [1%positive; 2%positive] (SSeq (SStore 1 (EVar 1) (ELoad 1 (EVar 2))) (SReturn (EInt 0))).
Definition counts_calls : func := Func [1%positive; 2%positive]
  (SSeq (SStore 1 (EGlob 1) (EBin OAdd u8 (ELoad 1 (EGlob 1)) (EInt 1))) (SReturn (EInt 0))).
