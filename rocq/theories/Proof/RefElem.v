(** Field elements as machine words: what the words of a symbolic execution stand for. *)
From Coq Require Import ZArith NArith List Bool Lia ZifyBool ZifyNat ZifyN Arith.
From Verif Require Import Model.CtLang Model.CtNames Proof.RefLogic Proof.RefMem Proof.RefSe Proof.RefSx Proof.RefWord Proof.RefFields Proof.RefWin.
From Verif Require Spec.WordSpec Model.UHash Proof.FieldProof Proof.WordProof Proof.UHashProof.
Import ListNotations.
Local Open Scope N_scope.

(** [n] stands for the field: 0, 1, 2 for 128, 192, 256 bits *)
Definition nq (n : nat) : nat := match n with O => 2 | 1 => 3 | _ => 4 end%nat.
Definition nb (n : nat) : Z := 8 * Z.of_nat (nq n).
Definition lm (n : nat) : N := 64 * N.of_nat (nq n).
Definition qs (n : nat) : list nat := repeat 8%nat (nq n).
Definition el (n a : nat) : list sx := vars a (nq n) ++ repeat (SC 0) (nw n - nq n).
Definition app_ (n f : nat) (xs : list sx) : list sx := map (fun j => SA (10 * n + f) j xs) (seq 0 (nw n)).
Definition xor_ (a b : list sx) : list sx := map (fun '(x, y) => cast (x64 OXor x y)) (combine a b).

(** the words [ws] stand for the element [x] *)
Definition E (n : nat) (ws : list N) (x : N) : Prop := WordProof.rep Vec (lm n) ws x.
Lemma lm_fld n : (n <= 2)%nat -> Fields.f_n (fld n) = lm n /\ WordProof.big (fld n) /\ Fields.f_n (fld n) / 8 = 8 * N.of_nat (nq n).
Proof. intros H. destruct n as [|[|[|n]]]; [..|lia]; (split; [reflexivity|]; split; [unfold WordProof.big; tauto|reflexivity]). Qed.
Lemma nwords_n n : (n <= 2)%nat -> Limbs.nwords Vec (lm n) = N.of_nat (nw n).
Proof. intros H. destruct n as [|[|[|n]]]; [..|lia]; reflexivity. Qed.
Lemma E_len n ws x : (n <= 2)%nat -> E n ws x -> length ws = nw n.
Proof. intros H ((L & _) & _). rewrite nwords_n in L by exact H. unfold Base.lenN in L. lia. Qed.
Lemma E_small n ws x : E n ws x -> small ws.
Proof. intros ((_ & W & _) & _). exact W. Qed.
Lemma E_lt n ws x : E n ws x -> x < 2 ^ lm n.
Proof. apply WordProof.rep_lt. Qed.

Section Ev.
Context (l : list N).
Notation ev := (evs_ P l).
Lemma ev_app a b : ev (a ++ b) = ev a ++ ev b. Proof. apply map_app. Qed.
Lemma ev_zeros k : ev (repeat (SC 0) k) = repeat 0 k. Proof. unfold evs_. induction k as [|k IH]; cbn [repeat map]; [reflexivity|]. f_equal. exact IH. Qed.
Lemma ev_vars a k : ev (vars a k) = map (fun i => nth i l 0) (seq a k).
Proof. unfold evs_, vars. rewrite map_map. reflexivity. Qed.
Lemma ev_el n a : ev (el n a) = map (fun i => nth i l 0) (seq a (nq n)) ++ repeat 0 (nw n - nq n).
Proof. unfold el. rewrite ev_app, ev_vars, ev_zeros. reflexivity. Qed.
Lemma ev_app_ n f xs : ev (app_ n f xs) = map (fun j => nth j (P (10 * n + f) (ev xs)) 0 mod 2 ^ 64) (seq 0 (nw n)).
Proof. unfold evs_, app_. rewrite map_map. reflexivity. Qed.
Lemma ev_xor_ a b : small (ev a) -> small (ev b) -> ev (xor_ a b) = Limbs.words_add (ev a) (ev b).
Proof.
  revert b. induction a as [|x a IH]; intros [|y b] Sa Sb; try reflexivity. unfold xor_. cbn [combine map evs_] in *. inversion Sa. inversion Sb. subst. unfold Limbs.words_add. cbn [Base.zipw]. f_equal.
  - unfold cast, x64. cbn [denN u64]. assert (Q : N.lxor (denN P (fun k => nth k l 0) x) (denN P (fun k => nth k l 0) y) < 2 ^ 64) by (apply BaseProof.lxor_lt; assumption).
    match goal with |- context [if ?c then _ else _] => destruct c end; [reflexivity|]. apply N.mod_small, Q.
  - apply IH; assumption.
Qed.
End Ev.
Lemma nth_seg (A B C : list N) : map (fun i => nth i (A ++ B ++ C) 0) (seq (length A) (length B)) = B.
Proof.
  apply (nth_ext _ _ 0 0); [rewrite map_length, seq_length; reflexivity|]. rewrite map_length, seq_length. intros k Hk.
  set (f := fun i => nth i (A ++ B ++ C) 0). rewrite (nth_indep _ 0 (f 0%nat)) by (rewrite map_length, seq_length; exact Hk). rewrite map_nth, seq_nth by exact Hk. unfold f.
  rewrite app_nth2 by lia. replace (length A + k - length A)%nat with k by lia. apply app_nth1, Hk.
Qed.
Lemma seg l A B C a k : l = A ++ B ++ C -> a = length A -> k = length B -> map (fun i => nth i l 0) (seq a k) = B.
Proof. intros -> -> ->. apply nth_seg. Qed.

(** ** Loading and storing *)
Lemma words_of_value x : Base.bytes_ok x -> forall k off, off + 8 * N.of_nat k <= Base.lenN x ->
  WordSpec.words_value (words_of x off (repeat 8%nat k)) = Base.le_val (Base.takeN (8 * N.of_nat k) (Base.dropN off x)).
Proof.
  intros B. induction k as [|k IH]; intros off H; [reflexivity|]. cbn [repeat words_of WordSpec.words_value]. rewrite IH by lia.
  replace (8 * N.of_nat (S k)) with (8 + 8 * N.of_nat k) by lia. rewrite (BaseProof.takeN_split 8 (8 * N.of_nat k) (Base.dropN off x)).
  rewrite BaseProof.le_val_app, BaseProof.dropN_dropN. rewrite BaseProof.lenN_takeN, BaseProof.lenN_dropN. replace (N.min 8 (Base.lenN x - off)) with 8 by lia. reflexivity.
Qed.
Lemma words_value_zeros a k : WordSpec.words_value (a ++ repeat 0 k) = WordSpec.words_value a.
Proof. rewrite WordProof.words_value_app, WordProof.value_repeat0. lia. Qed.
Lemma E_load n x off v : (n <= 2)%nat -> Base.bytes_ok x -> Fields.bf_load (fld n) x off = Base.Ok v ->
  off + 8 * N.of_nat (nq n) <= Base.lenN x /\ E n (words_of x off (qs n) ++ repeat 0 (nw n - nq n)) v.
Proof.
  intros Hn B H. destruct (lm_fld n Hn) as (F1 & F2 & F3). unfold Fields.bf_load in H. rewrite F3 in H.
  destruct (Base.slice x off (8 * N.of_nat (nq n))) as [s|] eqn:S; [|discriminate]. cbn [Base.bind] in H. injection H as <-. apply BaseProof.slice_inv in S. destruct S as [L ->].
  rewrite BaseProof.lenN_takeN, BaseProof.lenN_dropN in L. assert (L' : off + 8 * N.of_nat (nq n) <= Base.lenN x) by (destruct n as [|[|n]]; cbn [nq] in *; lia).
  split; [exact L'|]. assert (V : WordSpec.words_value (words_of x off (qs n) ++ repeat 0 (nw n - nq n)) = Base.le_val (Base.takeN (8 * N.of_nat (nq n)) (Base.dropN off x))).
  { rewrite words_value_zeros. apply words_of_value; assumption. }
  assert (W : small (words_of x off (qs n))) by (apply words_of_small; [exact B|destruct n as [|[|n]]; reflexivity]).
  split; [|exact V]. split; [|split].
  - rewrite nwords_n by exact Hn. unfold Base.lenN. rewrite app_length, words_of_length, repeat_length. unfold qs. rewrite repeat_length. destruct n as [|[|[|n]]]; [..|lia]; reflexivity.
  - apply Forall_app. split; [exact W|apply WordProof.words_ok_repeat0].
  - rewrite words_value_zeros. pose proof (WordProof.words_value_lt _ W) as Q. unfold Base.lenN in Q. rewrite words_of_length in Q. unfold qs in Q at 2. rewrite repeat_length in Q. exact Q.
Qed.
Lemma E_store n ws x : (n <= 2)%nat -> E n ws x -> bytes_of (qs n) (firstn (nq n) ws) = Fields.bf_store (fld n) x.
Proof.
  intros Hn H. destruct (lm_fld n Hn) as (F1 & F2 & F3). pose proof (E_len n ws x Hn H) as L. destruct H as [El <-]. rewrite <- F1 in El. pose proof (WordProof.store Vec _ _ F2 El) as S.
  destruct n as [|[|[|n]]]; [..|lia]; cbn [nw] in L; destruct ws as [|a [|b [|c [|d [|e ws]]]]]; try discriminate L; apply (f_equal okl) in S; exact S.
Qed.

(** ** Arithmetic *)
Lemma P_n n f xs : (n <= 2)%nat -> (f <= 2)%nat -> P (10 * n + f) xs = fop n f xs.
Proof. intros A B. destruct n as [|[|[|n]]]; [..|lia]; (destruct f as [|[|[|f]]]; [..|lia]); reflexivity. Qed.
Lemma nth_map_small (v : list N) k : small v -> length v = k -> map (fun j => nth j v 0 mod 2 ^ 64) (seq 0 k) = v.
Proof.
  intros S <-. transitivity (map (fun i => nth i ([] ++ v ++ []) 0) (seq 0 (length v))); [|exact (nth_seg [] v [])]. cbn [app]. rewrite app_nil_r. apply map_ext_in. intros j Hj. apply in_seq in Hj. apply N.mod_small.
  unfold small in S. rewrite Forall_forall in S. apply S, nth_In. lia.
Qed.
Lemma E_add n u v x y : E n u x -> E n v y -> E n (Limbs.words_add u v) (N.lxor x y).
Proof. apply WordProof.rep_add. Qed.
Lemma firstn_app_l {A} (u v : list A) k : length u = k -> firstn k (u ++ v) = u /\ skipn k (u ++ v) = v.
Proof. intros <-. rewrite firstn_app, skipn_app, Nat.sub_diag, firstn_all, skipn_all, app_nil_r. split; reflexivity. Qed.
Lemma E_mul n u v x y : (n <= 2)%nat -> E n u x -> E n v y -> E n (map (fun j => nth j (P (10 * n + 0) (u ++ v)) 0 mod 2 ^ 64) (seq 0 (nw n))) (Fields.bf_mul (fld n) x y).
Proof.
  intros Hn Eu Ev. destruct (lm_fld n Hn) as (F1 & F2 & F3). pose proof (E_len n u x Hn Eu) as Lu. rewrite P_n by lia. unfold fop. destruct (firstn_app_l u v _ Lu) as [-> ->].
  destruct Eu as [Eu <-]. destruct Ev as [Ev <-]. rewrite <- F1 in Eu, Ev. destruct (WordProof.mul Vec _ _ _ F2 Eu Ev) as (w & Ew & R). rewrite Ew. cbn [okl]. rewrite F1 in R.
  rewrite nth_map_small; [exact R|exact (proj1 (proj2 (proj1 R)))|]. apply (E_len n w (WordSpec.words_value w) Hn). split; [apply R|reflexivity].
Qed.
Lemma E_mul_64 n u x y : (n <= 2)%nat -> E n u x -> E n (map (fun j => nth j (P (10 * n + 1) (u ++ [y])) 0 mod 2 ^ 64) (seq 0 (nw n))) (Fields.bf_mul_64 (fld n) x y).
Proof.
  intros Hn Eu. destruct (lm_fld n Hn) as (F1 & F2 & F3). pose proof (E_len n u x Hn Eu) as Lu. rewrite P_n by lia. unfold fop. rewrite app_nth2, Lu, Nat.sub_diag by lia. destruct (firstn_app_l u [y] _ Lu) as [-> _].
  destruct Eu as [Eu <-]. rewrite <- F1 in Eu. destruct (WordProof.mul_64 Vec _ _ y F2 Eu) as (w & Ew & R). cbn [nth]. rewrite Ew. cbn [okl]. rewrite F1 in R.
  rewrite nth_map_small; [exact R|exact (proj1 (proj2 (proj1 R)))|]. apply (E_len n w (WordSpec.words_value w) Hn). split; [apply R|reflexivity].
Qed.
