(** What the translated ZK hash computes. *)
From Coq Require Import ZArith NArith List Bool FMapPositive Lia ZifyBool ZifyNat ZifyN Arith.
From Verif Require Import Model.CtLang Model.CtNames Model.CtFields Model.CtZkHash Model.CtProgram Proof.RefLogic Proof.RefTac Proof.RefMem Proof.RefSe Proof.RefSx Proof.RefWord Proof.RefFields Proof.RefWin Proof.RefFlat Proof.RefElem Proof.RefVoleHash.
From Verif Require Model.UHash Proof.UHashProof Proof.FieldProof Proof.WordProof Proof.RefBytes.
Import ListNotations.
Local Open Scope Z_scope.

Definition fI (n : nat) : positive := match n with O => f_zk_hash_128_init | 1%nat => f_zk_hash_192_init | _ => f_zk_hash_256_init end.
Definition fU (n : nat) : positive := match n with O => f_zk_hash_128_update | 1%nat => f_zk_hash_192_update | _ => f_zk_hash_256_update end.
Definition fF (n : nat) : positive := match n with O => f_zk_hash_128_finalize | 1%nat => f_zk_hash_192_finalize | _ => f_zk_hash_256_finalize end.
Definition cI (n : nat) : func := match n with O => c_zk_hash_128_init | 1%nat => c_zk_hash_192_init | _ => c_zk_hash_256_init end.
Definition cU (n : nat) : func := match n with O => c_zk_hash_128_update | 1%nat => c_zk_hash_192_update | _ => c_zk_hash_256_update end.
Definition cF (n : nat) : func := match n with O => c_zk_hash_128_finalize | 1%nat => c_zk_hash_192_finalize | _ => c_zk_hash_256_finalize end.

(** without a cast *)
Definition xorr (a b : list sx) : list sx := map (fun '(x, y) => x64 OXor x y) (combine a b).
Definition room8 (k : Z) : loc sx := Loc false false k [].
Definition TI0 (n : nat) : gst sx := St [(1%positive, GPtr 0 0); (2%positive, GPtr 6 0)] [] []
  [Loc true true 5 [PP 0 (GPtr 1 0); PP 1 (GPtr 2 0); PP 2 (GPtr 3 0); PP 3 (GPtr 4 0); PP 4 (GPtr 5 0)];
   room8 (8 * Z.of_nat (nw n)); room8 (8 * Z.of_nat (nw n)); room8 (8 * Z.of_nat (nw n)); room8 8; room8 1;
   Loc false true (3 * nb n + 8) (var_ps 0 0 (repeat 8%nat (3 * nq n + 1)))].
Definition TI1 (n : nat) : gst sx := St [] [] []
  [Loc true true 5 []; wloc false 0 (nw n); wloc false (nw n) (nw n); wloc false (2 * nw n) (nw n); wloc false (3 * nw n) 1; Loc false false 1 [PP 0 (GPtr 6 0)];
   Loc false true (3 * nb n + 8) []].
Definition sgI (n : nat) : list sx := repeat (SC 0) (nw n) ++ repeat (SC 0) (nw n) ++ el n (2 * nq n) ++ [cast (SV (3 * nq n))].
Definition WI (n : nat) : writes := [(1%nat, 0, 8 * Z.of_nat (nw n)); (2%nat, 0, 8 * Z.of_nat (nw n)); (3%nat, 0, 8 * Z.of_nat (nw n)); (4%nat, 0, 8); (5%nat, 0, 1)].

Definition TU0 (n : nat) : gst sx := St [(1%positive, GPtr 0 0); (2%positive, GPtr 5 0)] [] []
  [Loc true true 5 [PP 0 (GPtr 1 0); PP 1 (GPtr 2 0); PP 2 (GPtr 3 0); PP 3 (GPtr 4 0)];
   wloc false 0 (nw n); wloc false (nw n) (nw n); Loc false true (8 * Z.of_nat (nw n)) (var_ps (2 * nw n) 0 (ww n)); Loc false true 8 (var_ps (3 * nw n) 0 [8%nat]);
   Loc false true (8 * Z.of_nat (nw n)) (var_ps (3 * nw n + 1) 0 (ww n))].
Definition TU1 (n : nat) : gst sx := St [] [] [] [Loc true true 5 []; wloc false 0 (nw n); wloc false (nw n) (nw n)].
Definition sgU (n : nat) : list sx := xor_ (app_ n 0 (vars 0 (nw n) ++ vars (2 * nw n) (nw n))) (vars (3 * nw n + 1) (nw n)) ++ xor_ (app_ n 1 (vars (nw n) (nw n) ++ [SV (3 * nw n)])) (vars (3 * nw n + 1) (nw n)).
Definition WU (n : nat) : writes := [(1%nat, 0, 8 * Z.of_nat (nw n)); (2%nat, 0, 8 * Z.of_nat (nw n))].

Definition TF0 (n : nat) : gst sx := St [(1%positive, GPtr 0 0); (2%positive, GPtr 1 0); (3%positive, GPtr 6 0)] [] []
  [Loc false false (nb n) []; Loc true true 5 [PP 0 (GPtr 2 0); PP 1 (GPtr 3 0); PP 4 (GPtr 4 0)]; Loc false true (8 * Z.of_nat (nw n)) (var_ps 0 0 (ww n)); Loc false true (8 * Z.of_nat (nw n)) (var_ps (nw n) 0 (ww n));
   Loc false true 1 [PP 0 (GPtr 5 0)]; Loc false true (2 * nb n) (var_ps (2 * nw n) 0 (repeat 8%nat (2 * nq n))); Loc false true (8 * Z.of_nat (nw n)) (var_ps (2 * nw n + 2 * nq n) 0 (ww n))].
Definition TF1 (n : nat) : gst sx := St [] [] [] [Loc false false (nb n) (var_ps 0 0 (qs n))].
Definition sgF (n : nat) : list sx := firstn (nq n) (xor_ (xorr (app_ n 0 (el n (2 * nw n) ++ vars 0 (nw n))) (app_ n 0 (el n (2 * nw n + nq n) ++ vars (nw n) (nw n)))) (vars (2 * nw n + 2 * nq n) (nw n))).
Definition WF (n : nat) : writes := [(0%nat, 0, nb n)].
Definition okZ (n : nat) : bool :=
  match trip_chk (sumsV n) 100 (TI0 n) (fbody (cI n)) (TI1 n) (sgI n) (WI n), trip_chk (sumsV n) 100 (TU0 n) (fbody (cU n)) (TU1 n) (sgU n) (WU n), trip_chk (sumsV n) 100 (TF0 n) (fbody (cF n)) (TF1 n) (sgF n) (WF n) with
  | Some SoN, Some SoN, Some SoN => true | _, _, _ => false
  end.
Lemma okZ_n n : (n <= 2)%nat -> trip_chk (sumsV n) 100 (TI0 n) (fbody (cI n)) (TI1 n) (sgI n) (WI n) = Some SoN /\ trip_chk (sumsV n) 100 (TU0 n) (fbody (cU n)) (TU1 n) (sgU n) (WU n) = Some SoN /\
  trip_chk (sumsV n) 100 (TF0 n) (fbody (cF n)) (TF1 n) (sgF n) (WF n) = Some SoN.
Proof. intros H. destruct n as [|[|[|n]]]; [split; [|split]; vm_compute; reflexivity..|lia]. Qed.
Lemma code_Z n : (n <= 2)%nat -> PositiveMap.find (fI n) code = Some (cI n) /\ PositiveMap.find (fU n) code = Some (cU n) /\ PositiveMap.find (fF n) code = Some (cF n).
Proof. intros H. destruct n as [|[|[|n]]]; [split; [|split]; vm_compute; reflexivity..|lia]. Qed.

(** ** Elements in memory *)
Definition elb (n : nat) (x : N) : list N := Base.le_bytes (8 * nw n) x.
Definition W (n : nat) (x : N) : list N := words_of (elb n x) 0 (ww n).
Lemma elb_len n x : Base.lenN (elb n x) = (8 * N.of_nat (nw n))%N.
Proof. unfold elb. rewrite BaseProof.lenN_le_bytes. lia. Qed.
Lemma elb_ok n x : Base.bytes_ok (elb n x).
Proof. apply BaseProof.bytes_ok_le_bytes. Qed.
Lemma W_len n x : length (W n x) = nw n.
Proof. unfold W. rewrite words_of_length. unfold ww. apply repeat_length. Qed.
Lemma W_E n x : (n <= 2)%nat -> (x < 2 ^ lm n)%N -> E n (W n x) x.
Proof.
  intros Hn Hx. assert (V : WordSpec.words_value (W n x) = x).
  { unfold W, ww. rewrite words_of_value; [|apply elb_ok|rewrite elb_len; lia]. change (Base.dropN 0 (elb n x)) with (elb n x). rewrite BaseProof.takeN_all by (rewrite elb_len; lia). apply BaseProof.le_val_le_bytes.
    eapply N.lt_le_trans; [exact Hx|]. destruct n as [|[|[|k]]]; [..|lia]; vm_compute; discriminate. }
  split; [|exact V]. split; [rewrite nwords_n by exact Hn; unfold Base.lenN; rewrite W_len; reflexivity|]. split; [|rewrite V; exact Hx].
  apply words_of_small; [apply elb_ok|]. unfold ww. clear. induction (nw n) as [|k IH]; [reflexivity|exact IH].
Qed.
Lemma bytes_of_value : forall ws, small ws -> Base.le_val (bytes_of (repeat 8%nat (length ws)) ws) = WordSpec.words_value ws /\ Base.bytes_ok (bytes_of (repeat 8%nat (length ws)) ws) /\ Base.lenN (bytes_of (repeat 8%nat (length ws)) ws) = (8 * N.of_nat (length ws))%N.
Proof.
  induction ws as [|w ws IH]; intros H; [split; [reflexivity|split; [constructor|reflexivity]]|]. inversion H as [|? ? A B]. subst. destruct (IH B) as (I1 & I2 & I3). cbn [length repeat bytes_of WordSpec.words_value].
  split; [|split].
  - rewrite BaseProof.le_val_app, BaseProof.lenN_le_bytes, I1, BaseProof.le_val_le_bytes by exact A. reflexivity.
  - apply Forall_app. split; [apply BaseProof.bytes_ok_le_bytes|exact I2].
  - rewrite BaseProof.lenN_app, BaseProof.lenN_le_bytes, I3. lia.
Qed.
Lemma E_elb n ws x : (n <= 2)%nat -> E n ws x -> bytes_of (ww n) ws = elb n x.
Proof.
  intros Hn H. pose proof (E_len _ _ _ Hn H) as L. destruct (bytes_of_value ws (E_small _ _ _ H)) as (A & B & C). rewrite L in A, B, C. unfold ww, elb. rewrite <- (proj2 H), <- A. symmetry. apply BaseProof.le_bytes_le_val; [exact B|]. rewrite C. lia.
Qed.
Lemma ev_xorr l a b : small (evs_ P l a) -> small (evs_ P l b) -> evs_ P l (xorr a b) = Limbs.words_add (evs_ P l a) (evs_ P l b).
Proof.
  revert b. induction a as [|x a IH]; intros [|y b] Sa Sb; try reflexivity. unfold xorr. cbn [combine map evs_] in *. inversion Sa. inversion Sb. subst. unfold Limbs.words_add. cbn [Base.zipw]. f_equal.
  exact (IH b ltac:(assumption) ltac:(assumption)).
Qed.

(** ** Places *)
Lemma loc_arr L l m b o z ro sz ws k x A C : holds m b o x -> Base.bytes_ok x -> total ws <= sz <= ofN (Base.lenN x) -> (z = true -> o = 0) -> l = A ++ words_of x 0 ws ++ C -> k = length A ->
  loc_ok (den (phi_of P) (rhoN l)) L m (b, o) (Loc z ro sz (var_ps k 0 ws)).
Proof.
  intros H B T Z0 -> ->. assert (T0 : 0 <= total ws) by (unfold total; lia). split; [eapply inb_sub; [exact (proj1 H)|cbn [fst snd lsize]; lia..]|]. split; [exact Z0|]. cbn [fst snd lsize lps].
  apply (var_ps_ok P L _ m b o sz ws (length A) 0 (map ofN (words_of x 0 ws))); [lia|lia| |].
  - rewrite Z.add_0_r. pose proof (holds_arr _ _ _ _ H B ws 0%N) as Q. rewrite Z.add_0_r in Q. apply Q. lia.
  - intros i Hi. unfold rhoN. rewrite app_nth2 by lia. replace (length A + i - length A)%nat with i by lia. rewrite app_nth1 by (rewrite words_of_length; exact Hi). symmetry. exact (map_nth ofN _ 0%N _).
Qed.
Lemma loc_room L (f : sx -> Z) m b o z ro sz : inb m b o sz -> (z = true -> o = 0) -> loc_ok f L m (b, o) (Loc z ro sz []).
Proof. intros I Z0. split; [exact I|]. split; [exact Z0|constructor]. Qed.
Lemma apart_ord {X} L (ls : list (loc X)) : (forall i j li lj, (i < j)%nat -> nth_error ls i = Some li -> nth_error ls j = Some lj -> lro li && lro lj = false ->
  sep (fst (lat L i)) (snd (lat L i)) (lsize li) (fst (lat L j)) (snd (lat L j)) (lsize lj)) -> apart L ls.
Proof.
  intros H i j Hi Hj N R. destruct (Nat.lt_ge_cases i j) as [K|K].
  - apply (H i j); [exact K|apply nth_error_nth'; assumption..|exact R].
  - assert (S : sep (fst (lat L j)) (snd (lat L j)) (lsize (nth j ls (Loc false false 0 []))) (fst (lat L i)) (snd (lat L i)) (lsize (nth i ls (Loc false false 0 [])))).
    { apply (H j i); [lia|apply nth_error_nth'; assumption..|rewrite andb_comm; exact R]. }
    unfold sep in *. destruct S as [S|S]; [left; congruence|right; lia].
Qed.

Lemma apart_blocks {X} L (ls : list (loc X)) : (forall i j li lj, (i < j)%nat -> nth_error ls i = Some li -> nth_error ls j = Some lj -> lro li && lro lj = false -> fst (lat L i) <> fst (lat L j)) -> apart L ls.
Proof. intros H. apply apart_ord. intros i j li lj A B C D. left. exact (H i j li lj A B C D). Qed.
Lemma nodup_ne (l : list positive) : NoDup l -> forall i j a b, nth_error l i = Some a -> nth_error l j = Some b -> i <> j -> a <> b.
Proof. intros H i j a b A B N <-. apply N. eapply NoDup_nth_error; [exact H|apply nth_error_Some; rewrite A; discriminate|rewrite A, B; reflexivity]. Qed.

Lemma contig_vars : forall k a o, contig o (var_ps a o (repeat 8%nat k)) = Some (combine (repeat 8%nat k) (vars a k)).
Proof. induction k as [|k IH]; intros a o; [reflexivity|]. cbn [repeat var_ps contig]. rewrite Z.eqb_refl, IH. reflexivity. Qed.
Lemma combine_fst {A B} : forall (a : list A) (b : list B), length a = length b -> map fst (combine a b) = a /\ map snd (combine a b) = b.
Proof. induction a as [|x a IH]; intros [|y b] H; try discriminate; [split; reflexivity|]. cbn [combine map fst snd]. injection H as H. destruct (IH b H) as [-> ->]. split; reflexivity. Qed.
Lemma place_words L t l e m i z ro sz a k A B C : stN P L t l e m -> nth_error (gheap t) i = Some (Loc z ro sz (var_ps a 0 (repeat 8%nat k))) -> l = A ++ B ++ C -> a = length A -> k = length B ->
  holds m (fst (lat L i)) (snd (lat L i)) (bytes_of (repeat 8%nat k) B).
Proof.
  intros S E El Ea Ek. destruct (combine_fst (repeat 8%nat k) (vars a k)) as [H1 H2]; [unfold vars; rewrite repeat_length, map_length, seq_length; reflexivity|].
  pose proof (stN_holds _ _ _ _ _ _ i _ _ S E (contig_vars k a 0)) as K. rewrite H1, H2, ev_vars, (seg l A B C a k El Ea Ek) in K. apply K. clear. unfold vars. apply forallb_forall. intros x Hx. apply in_map_iff in Hx. destruct Hx as (y & <- & _). reflexivity.
Qed.
Lemma seg_w n x r k : (r * nq n + nq n <= k)%nat -> map (fun i => nth i (words_of x 0 (repeat 8%nat k)) 0%N) (seq (r * nq n) (nq n)) = words_of x (N.of_nat r * (8 * N.of_nat (nq n))) (qs n).
Proof.
  intros H. replace k with (r * nq n + (nq n + (k - r * nq n - nq n)))%nat by lia. rewrite !repeat_app, !words_of_app, sum_rep.
  apply (seg _ (words_of x 0 (repeat 8%nat (r * nq n))) _ (words_of x (0 + N.of_nat (8 * (r * nq n)) + N.of_nat (list_sum (repeat 8%nat (nq n)))) (repeat 8%nat (k - r * nq n - nq n)))).
  - f_equal. unfold qs. f_equal; f_equal; lia.
  - rewrite words_of_length, repeat_length. lia.
  - rewrite words_of_length. unfold qs. rewrite repeat_length. reflexivity.
Qed.

Definition cells (m : mem) (c q0 q1 q2 q3 q4 : positive) : Prop := inb m c 0 5 /\ cell m c 0 = VPtr q0 0 /\ cell m c 1 = VPtr q1 0 /\ cell m c 2 = VPtr q2 0 /\ cell m c 3 = VPtr q3 0 /\ cell m c 4 = VPtr q4 0.
Lemma cells_frame m m' S c q0 q1 q2 q3 q4 : cells m c q0 q1 q2 q3 q4 -> frame m m' S -> (forall q, ~ S c q) -> cells m' c q0 q1 q2 q3 q4.
Proof.
  intros (I & C0 & C1 & C2 & C3 & C4) F N. split; [eapply inb_frame; eassumption|]. destruct F as (_ & _ & F). pose proof (proj1 I) as Lc. repeat split; rewrite F by (exact Lc || lia || apply N); assumption.
Qed.
(** the structure stands for the state [z] *)
Definition zk_at (n : nat) (m : mem) (c q0 q1 q2 q3 q4 bs : positive) (os : Z) (z : UHash.zk_ctx) : Prop :=
  cells m c q0 q1 q2 q3 q4 /\ holds m q0 0 (elb n (UHash.zk_h0 z)) /\ holds m q1 0 (elb n (UHash.zk_h1 z)) /\ holds m q2 0 (elb n (UHash.zk_s z)) /\ holds m q3 0 (Base.le_bytes 8 (UHash.zk_t z)) /\
  inb m q4 0 1 /\ cell m q4 0 = VPtr bs os /\
  (UHash.zk_h0 z < 2 ^ lm n)%N /\ (UHash.zk_h1 z < 2 ^ lm n)%N /\ (UHash.zk_s z < 2 ^ lm n)%N /\ (UHash.zk_t z < 2 ^ 64)%N.

Ltac heap2 := repeat (apply Forall2_cons; [|]); try apply Forall2_nil.
Ltac sides Nd := intros [|[|[|[|[|[|[|i]]]]]]] [|[|[|[|[|[|[|j]]]]]]] li lj Hij Ei Ej R; try (exfalso; clear -Hij; lia); cbn [nth_error TI0 TU0 TF0 gheap] in Ei, Ej; try discriminate Ei; try discriminate Ej; try (destruct i; discriminate Ei); try (destruct j; discriminate Ej); injection Ei as <-; injection Ej as <-; try discriminate R; cbn [lat nth fst snd];
  try match type of Hij with (?i0 < ?j0)%nat => solve [apply (nodup_ne _ Nd i0 j0); [reflexivity|reflexivity|discriminate]] end.

Theorem ref_zk_init n m c q0 q1 q2 q3 q4 bs os sd z : (n <= 2)%nat -> cells m c q0 q1 q2 q3 q4 -> NoDup [c; q0; q1; q2; q3; q4] ->
  inb m q0 0 (8 * Z.of_nat (nw n)) -> inb m q1 0 (8 * Z.of_nat (nw n)) -> inb m q2 0 (8 * Z.of_nat (nw n)) -> inb m q3 0 8 -> inb m q4 0 1 ->
  holds m bs os sd -> Base.bytes_ok sd -> ~ In bs [q0; q1; q2; q3; q4] -> UHash.zk_hash_init (fld n) sd = Base.Ok z ->
  calls code (fI n) [VPtr c 0; VPtr bs os] m (fun _ m' => frame m m' (fun b _ => In b [q0; q1; q2; q3; q4]) /\ zk_at n m' c q0 q1 q2 q3 q4 bs os z).
Proof.
  intros Hn Hc Nd I0 I1 I2 I3 I4 Hs Bs Nb H. destruct (lm_fld n Hn) as (F1 & F2 & F3). destruct (lamz_lm n Hn) as (C & L8 & Nb8). unfold UHash.zk_hash_init in H. rewrite F3 in H.
  destruct (Fields.bf_load (fld n) sd (2 * (8 * N.of_nat (nq n)))) as [vs|] eqn:Es; [|discriminate]. cbn [Base.bind] in H.
  destruct (Fields.bf_load Fields.F64 sd (3 * (8 * N.of_nat (nq n)))) as [vt|] eqn:Et; [|discriminate]. cbn [Base.bind] in H.
  destruct (Fields.bf_load (fld n) sd 0) as [r0|] eqn:E0; [|discriminate]. cbn [Base.bind] in H.
  destruct (Fields.bf_load (fld n) sd (8 * N.of_nat (nq n))) as [r1|] eqn:E1; [|discriminate]. cbn [Base.bind] in H. injection H as <-.
  apply RefUHash.load64_inv in Et. destruct Et as [Lt ->].
  apply (calls_intro code _ _ _ _ _ (proj1 (code_Z n Hn))). set (e0 := bind_params _ _ _). set (L := [(c, 0); (q0, 0); (q1, 0); (q2, 0); (q3, 0); (q4, 0); (bs, os)]).
  set (l0 := words_of sd 0 (repeat 8%nat (3 * nq n + 1))).
  assert (S0 : stN P L (TI0 n) l0 e0 m).
  { split; [apply words_of_small; [exact Bs|clear; induction (3 * nq n + 1)%nat; [reflexivity|assumption]]|]. constructor.
    - apply env_intro. unfold e0. replace (fparams (cI n)) with [1%positive; 2%positive] by (clear -Hn; destruct n as [|[|[|k]]]; [reflexivity..|lia]). clear. repeat constructor; cbn; try lia; f_equal; lia.
    - constructor.
    - constructor.
    - heap2; try (apply loc_room; [assumption|reflexivity]).
      + destruct Hc as (Ic & C0 & C1 & C2 & C3 & C4). split; [exact Ic|]. split; [reflexivity|]. cbn [fst snd lsize lps]. repeat (apply Forall_cons; [cbn [piece_ok]; split; [lia|split; [cbn; lia|cbn; assumption]]|]). apply Forall_nil.
      + apply (loc_arr L l0 m bs os false true (3 * nb n + 8) (repeat 8%nat (3 * nq n + 1)) 0 sd [] []); [exact Hs|exact Bs|rewrite total_rep; clear -Lt Nb8; lia|discriminate|rewrite app_nil_r; reflexivity|reflexivity].
    - apply apart_blocks. sides Nd; intros K; apply Nb; change (fst (lat L 6)) with bs in K; rewrite <- K; cbn; clear; tauto. }
  eapply (stN_trip P _ (SPV n Hn)); [exact (proj1 (okZ_n n Hn))|exact S0|]. intros L' e1 m1 X1 S1 Fr1 _. cbn [co].
  assert (Fr : frame m m1 (fun b _ => In b [q0; q1; q2; q3; q4])).
  { eapply frame_weak; [exact Fr1|]. intros b q _ _ (i & o & k & [Il|[Il|[Il|[Il|[Il|[]]]]]] & _ & [-> _]); injection Il as <- <- <-; cbn; tauto. }
  split; [exact Fr|]. destruct (E_load _ _ _ _ Hn Bs Es) as [_ Evs]. set (pad := repeat 0%N (nw n - nq n)) in *.
  assert (V : evs_ P l0 (sgI n) = repeat 0%N (nw n) ++ repeat 0%N (nw n) ++ (words_of sd (2 * (8 * N.of_nat (nq n))) (qs n) ++ pad) ++ [wat sd (3 * (8 * N.of_nat (nq n))) 8]).
  { unfold sgI. rewrite !ev_app, !ev_zeros, ev_el. fold pad. do 3 f_equal; [f_equal; unfold l0; apply (seg_w n sd 2); lia|]. cbn [evs_ map]. unfold cast. cbn [denN]. f_equal.
    replace (nth (3 * nq n) l0 0%N) with (wat sd (3 * (8 * N.of_nat (nq n))) 8).
    - reflexivity.
    - unfold l0. rewrite repeat_app, words_of_app, app_nth2; rewrite words_of_length, repeat_length; [|lia]. rewrite Nat.sub_diag, sum_rep. cbn [repeat words_of nth]. f_equal. lia. }
  rewrite V in S1. clear V. set (sw := words_of sd _ (qs n) ++ pad) in *. set (tw := wat sd _ 8) in *. assert (Lz : length (repeat 0%N (nw n)) = nw n) by apply repeat_length.
  pose proof (E_len _ _ _ Hn Evs) as Lsw. assert (Ez : E n (repeat 0%N (nw n)) 0) by (clear -Hn; destruct n as [|[|[|k]]]; [split; [split; [reflexivity|split; [repeat constructor|reflexivity]]|reflexivity]..|lia]).
  change (length (gheap (TI1 n))) with 7%nat in S1. destruct X1 as (R & -> & _). change (firstn 7 (L ++ R)) with L in S1.
  pose proof (place_words L (TI1 n) _ e1 m1 1 _ _ _ _ _ [] (repeat 0%N (nw n)) _ S1 eq_refl eq_refl eq_refl (eq_sym Lz)) as H1.
  pose proof (place_words L (TI1 n) _ e1 m1 2 _ _ _ _ _ (repeat 0%N (nw n)) (repeat 0%N (nw n)) _ S1 eq_refl eq_refl (eq_sym Lz) (eq_sym Lz)) as H2.
  pose proof (place_words L (TI1 n) _ e1 m1 3 _ _ _ _ _ (repeat 0%N (nw n) ++ repeat 0%N (nw n)) sw [tw] S1 eq_refl ltac:(rewrite <- app_assoc; reflexivity) ltac:(rewrite app_length, Lz; lia) (eq_sym Lsw)) as H3.
  pose proof (place_words L (TI1 n) _ e1 m1 4 _ _ _ _ _ (repeat 0%N (nw n) ++ repeat 0%N (nw n) ++ sw) [tw] [] S1 eq_refl ltac:(rewrite <- !app_assoc; reflexivity) ltac:(rewrite !app_length, Lz, Lsw; lia) eq_refl) as H4.
  fold (ww n) in H1, H2, H3. rewrite (E_elb _ _ _ Hn Ez) in H1, H2. rewrite (E_elb _ _ _ Hn Evs) in H3. cbn [repeat bytes_of] in H4. rewrite app_nil_r in H4. cbn [L lat nth fst snd] in H1, H2, H3, H4.
  destruct (locat_ok _ _ L (TI1 n) e1 m1 5 _ (proj2 S1) eq_refl) as (_ & I5 & _ & F5). inversion F5 as [|? ? K5 _]. destruct K5 as (_ & _ & K5). cbn in K5. rewrite Z.add_0_r in K5.
  split; [eapply cells_frame; [exact Hc|exact Fr|]; intros q K; inversion Nd; contradiction|]. split; [exact H1|]. split; [exact H2|]. split; [exact H3|]. split; [exact H4|]. split; [exact I5|]. split; [exact K5|].
  cbn [UHash.zk_h0 UHash.zk_h1 UHash.zk_s UHash.zk_t]. split; [exact (E_lt _ _ _ Ez)|]. split; [exact (E_lt _ _ _ Ez)|]. split; [exact (E_lt _ _ _ Evs)|]. apply RefUHash.wat_small, Bs.
Qed.

Lemma word_t t : (t < 2 ^ 64)%N -> words_of (Base.le_bytes 8 t) 0 [8%nat] = [t].
Proof. intros H. cbn [words_of]. f_equal. unfold wat. change (Base.dropN 0 (Base.le_bytes 8 t)) with (Base.le_bytes 8 t). rewrite BaseProof.takeN_all by (rewrite BaseProof.lenN_le_bytes; lia). apply BaseProof.le_val_le_bytes. exact H. Qed.
Theorem ref_zk_update n m c q0 q1 q2 q3 q4 bs os z bv ov v : (n <= 2)%nat -> zk_at n m c q0 q1 q2 q3 q4 bs os z -> NoDup [c; q0; q1; q2; q3; q4] ->
  holds m bv ov (elb n v) -> (v < 2 ^ lm n)%N -> ~ In bv [q0; q1] ->
  calls code (fU n) [VPtr c 0; VPtr bv ov] m (fun _ m' => frame m m' (fun b _ => In b [q0; q1]) /\ zk_at n m' c q0 q1 q2 q3 q4 bs os (UHash.zk_hash_update (fld n) z v)).
Proof.
  intros Hn (Hc & Z0 & Z1 & Z2 & Z3 & I4 & Z4 & B0 & B1 & B2 & B3) Nd Hv Bv Nv. destruct z as [h0 h1 vs vt r0 r1]. cbn [UHash.zk_h0 UHash.zk_h1 UHash.zk_s UHash.zk_t] in *.
  apply (calls_intro code _ _ _ _ _ (proj1 (proj2 (code_Z n Hn)))). set (e0 := bind_params _ _ _). set (L := [(c, 0); (q0, 0); (q1, 0); (q2, 0); (q3, 0); (bv, ov)]).
  set (l0 := W n h0 ++ W n h1 ++ W n vs ++ [vt] ++ W n v).
  pose proof (W_E n h0 Hn B0) as E0. pose proof (W_E n h1 Hn B1) as E1. pose proof (W_E n vs Hn B2) as Es. pose proof (W_E n v Hn Bv) as Ev.
  assert (Tw : total (ww n) = 8 * Z.of_nat (nw n)) by apply total_rep.
  assert (S0 : stN P L (TU0 n) l0 e0 m).
  { split; [repeat (apply Forall_app; split); [exact (E_small _ _ _ E0)|exact (E_small _ _ _ E1)|exact (E_small _ _ _ Es)|constructor; [exact B3|constructor]|exact (E_small _ _ _ Ev)]|]. constructor.
    - apply env_intro. unfold e0. replace (fparams (cU n)) with [1%positive; 2%positive] by (clear -Hn; destruct n as [|[|[|k]]]; [reflexivity..|lia]). clear. repeat constructor; cbn; try lia; f_equal; lia.
    - constructor.
    - constructor.
    - heap2.
      + destruct Hc as (Ic & C0 & C1 & C2 & C3 & C4). split; [exact Ic|]. split; [reflexivity|]. cbn [fst snd lsize lps]. repeat (apply Forall_cons; [cbn [piece_ok]; split; [lia|split; [cbn; lia|cbn; assumption]]|]). apply Forall_nil.
      + apply (loc_arr L l0 m q0 0 false false _ (ww n) 0 (elb n h0) [] (W n h1 ++ W n vs ++ [vt] ++ W n v)); [exact Z0|apply elb_ok|rewrite Tw, elb_len; lia|reflexivity|reflexivity|reflexivity].
      + apply (loc_arr L l0 m q1 0 false false _ (ww n) (nw n) (elb n h1) (W n h0) (W n vs ++ [vt] ++ W n v)); [exact Z1|apply elb_ok|rewrite Tw, elb_len; lia|reflexivity|reflexivity|symmetry; apply W_len].
      + apply (loc_arr L l0 m q2 0 false true _ (ww n) _ (elb n vs) (W n h0 ++ W n h1) ([vt] ++ W n v)); [exact Z2|apply elb_ok|rewrite Tw, elb_len; lia|reflexivity|unfold l0; rewrite <- !app_assoc; reflexivity|rewrite app_length, !W_len; lia].
      + apply (loc_arr L l0 m q3 0 false true _ [8%nat] _ (Base.le_bytes 8 vt) (W n h0 ++ W n h1 ++ W n vs) (W n v)); [exact Z3|apply BaseProof.bytes_ok_le_bytes|rewrite BaseProof.lenN_le_bytes; cbn; lia|reflexivity|unfold l0; rewrite word_t, <- !app_assoc by exact B3; reflexivity|rewrite !app_length, !W_len; lia].
      + apply (loc_arr L l0 m bv ov false true _ (ww n) _ (elb n v) (W n h0 ++ W n h1 ++ W n vs ++ [vt]) []); [exact Hv|apply elb_ok|rewrite Tw, elb_len; lia|discriminate|unfold l0; rewrite app_nil_r, <- !app_assoc; reflexivity|rewrite !app_length, !W_len; cbn [length]; lia].
    - apply apart_blocks. sides Nd; intros K; apply Nv; change (fst (lat L 5)) with bv in K; rewrite <- K; cbn; clear; tauto. }
  eapply (stN_trip P _ (SPV n Hn)); [exact (proj1 (proj2 (okZ_n n Hn)))|exact S0|]. intros L' e1 m1 X1 S1 Fr1 _. cbn [co].
  assert (Fr : frame m m1 (fun b _ => In b [q0; q1])).
  { eapply frame_weak; [exact Fr1|]. intros b q _ _ (i & o & k & [Il|[Il|[]]] & _ & [-> _]); injection Il as <- <- <-; cbn; tauto. }
  split; [exact Fr|].
  assert (Q0 : evs_ P l0 (vars 0 (nw n)) = W n h0) by (rewrite ev_vars; apply (seg l0 [] (W n h0) (W n h1 ++ W n vs ++ [vt] ++ W n v)); [reflexivity|reflexivity|symmetry; apply W_len]).
  assert (Q1 : evs_ P l0 (vars (nw n) (nw n)) = W n h1) by (rewrite ev_vars; apply (seg l0 (W n h0) (W n h1) (W n vs ++ [vt] ++ W n v)); [reflexivity|symmetry; apply W_len|symmetry; apply W_len]).
  assert (Q2 : evs_ P l0 (vars (2 * nw n) (nw n)) = W n vs) by (rewrite ev_vars; apply (seg l0 (W n h0 ++ W n h1) (W n vs) ([vt] ++ W n v)); [unfold l0; rewrite <- !app_assoc; reflexivity|rewrite app_length, !W_len; lia|symmetry; apply W_len]).
  assert (Q4 : evs_ P l0 (vars (3 * nw n + 1) (nw n)) = W n v) by (rewrite ev_vars; apply (seg l0 (W n h0 ++ W n h1 ++ W n vs ++ [vt]) (W n v) []); [unfold l0; rewrite app_nil_r, <- !app_assoc; reflexivity|rewrite !app_length, !W_len; cbn [length]; lia|symmetry; apply W_len]).
  assert (Q3 : evs_ P l0 [SV (3 * nw n)] = [vt]).
  { cbn [evs_ map denN]. f_equal. unfold l0. rewrite !app_assoc, <- app_assoc. rewrite app_nth2; rewrite !app_length, !W_len; [|lia]. match goal with |- nth ?x _ _ = _ => replace x with O by lia end. reflexivity. }
  assert (R0 : E n (Limbs.words_add (mulm n 0 (W n h0 ++ W n vs)) (W n v)) (N.lxor (Fields.bf_mul (fld n) h0 vs) v)) by exact (E_add n _ _ _ _ (E_mul n _ _ _ _ Hn E0 Es) Ev). assert (R1 : E n (Limbs.words_add (mulm n 1 (W n h1 ++ [vt])) (W n v)) (N.lxor (Fields.bf_mul_64 (fld n) h1 vt) v)) by exact (E_add n _ _ _ _ (E_mul_64 n _ _ vt Hn E1) Ev).
  assert (V : evs_ P l0 (sgU n) = Limbs.words_add (mulm n 0 (W n h0 ++ W n vs)) (W n v) ++ Limbs.words_add (mulm n 1 (W n h1 ++ [vt])) (W n v)).
  { unfold sgU. rewrite ev_app, !ev_xor_; rewrite ?ev_app_, ?(ev_app l0 (vars 0 (nw n))), ?(ev_app l0 (vars (nw n) (nw n))), ?Q0, ?Q1, ?Q2, ?Q3, ?Q4; [reflexivity|..].
    - exact (E_small _ _ _ (E_mul_64 n _ _ vt Hn E1)).
    - exact (E_small _ _ _ Ev).
    - exact (E_small _ _ _ (E_mul n _ _ _ _ Hn E0 Es)).
    - exact (E_small _ _ _ Ev). }
  rewrite V in S1. clear V. change (length (gheap (TU1 n))) with 3%nat in S1. destruct X1 as (R & -> & _). change (firstn 3 (L ++ R)) with [(c, 0); (q0, 0); (q1, 0)] in S1.
  pose proof (E_len _ _ _ Hn R0) as Lr0. pose proof (E_len _ _ _ Hn R1) as Lr1.
  pose proof (place_words _ (TU1 n) _ e1 m1 1 _ _ _ _ _ [] _ _ S1 eq_refl eq_refl eq_refl (eq_sym Lr0)) as H1.
  pose proof (place_words _ (TU1 n) _ e1 m1 2 _ _ _ _ _ _ _ [] S1 eq_refl ltac:(rewrite app_nil_r; reflexivity) (eq_sym Lr0) (eq_sym Lr1)) as H2.
  fold (ww n) in H1, H2. rewrite (E_elb _ _ _ Hn R0) in H1. rewrite (E_elb _ _ _ Hn R1) in H2. cbn [L lat nth fst snd] in H1, H2.
  assert (Kp : forall q, q = c \/ q = q2 \/ q = q3 \/ q = q4 -> ~ In q [q0; q1]).
  { intros q Hq [<-|[<-|[]]]; destruct Hq as [K|[K|[K|K]]]; revert K;
     [apply (nodup_ne _ Nd 1 0)|apply (nodup_ne _ Nd 1 3)|apply (nodup_ne _ Nd 1 4)|apply (nodup_ne _ Nd 1 5)|apply (nodup_ne _ Nd 2 0)|apply (nodup_ne _ Nd 2 3)|apply (nodup_ne _ Nd 2 4)|apply (nodup_ne _ Nd 2 5)]; reflexivity || discriminate. }
  split; [eapply cells_frame; [exact Hc|exact Fr|]; intros q; apply Kp; tauto|]. split; [exact H1|]. split; [exact H2|].
  split; [eapply holds_frame; [exact Z2|exact Fr|intros q _; apply Kp; tauto]|]. split; [eapply holds_frame; [exact Z3|exact Fr|intros q _; apply Kp; tauto]|]. split; [eapply inb_frame; [exact Fr|exact I4]|].
  split; [destruct Fr as (_ & _ & F); rewrite F; [exact Z4|exact (proj1 I4)|lia|apply Kp; tauto]|]. cbn [UHash.zk_hash_update UHash.zk_h0 UHash.zk_h1 UHash.zk_s UHash.zk_t]. split; [exact (E_lt _ _ _ R0)|]. split; [exact (E_lt _ _ _ R1)|]. split; assumption.
Qed.

Theorem ref_zk_finalize n m c q0 q1 q2 q3 q4 bs os z bh oh bx ox x sd : (n <= 2)%nat -> zk_at n m c q0 q1 q2 q3 q4 bs os z -> inb m bh oh (nb n) -> ~ In bh [c; q0; q1; q4] ->
  holds m bs os sd -> Base.bytes_ok sd -> Fields.bf_load (fld n) sd 0 = Base.Ok (UHash.zk_r0 z) -> Fields.bf_load (fld n) sd (8 * N.of_nat (nq n)) = Base.Ok (UHash.zk_r1 z) -> sep bh oh (nb n) bs os (ofN (Base.lenN sd)) ->
  holds m bx ox (elb n x) -> (x < 2 ^ lm n)%N -> sep bh oh (nb n) bx ox (8 * Z.of_nat (nw n)) ->
  calls code (fF n) [VPtr bh oh; VPtr c 0; VPtr bx ox] m (fun _ m' => frame m m' (at_ bh oh (nb n)) /\ holds m' bh oh (UHash.zk_hash_finalize (fld n) z x)).
Proof.
  intros Hn (Hc & Z0 & Z1 & Z2 & Z3 & I4 & Z4 & B0 & B1 & B2 & B3) Ih Nh Hs Bs L0 L1 Sp1 Hx Bx Sp2. destruct (lamz_lm n Hn) as (_ & _ & Nb8). destruct z as [h0 h1 vs vt r0 r1]. cbn [UHash.zk_h0 UHash.zk_h1 UHash.zk_s UHash.zk_t UHash.zk_r0 UHash.zk_r1] in *.
  apply (calls_intro code _ _ _ _ _ (proj2 (proj2 (code_Z n Hn)))). set (e0 := bind_params _ _ _). set (L := [(bh, oh); (c, 0); (q0, 0); (q1, 0); (q4, 0); (bs, os); (bx, ox)]).
  set (sw := words_of sd 0 (repeat 8%nat (2 * nq n))). set (l0 := W n h0 ++ W n h1 ++ sw ++ W n x). assert (Lsw : length sw = (2 * nq n)%nat) by (unfold sw; rewrite words_of_length; apply repeat_length).
  pose proof (W_E n h0 Hn B0) as E0. pose proof (W_E n h1 Hn B1) as E1. pose proof (W_E n x Hn Bx) as Ex.
  destruct (E_load _ _ _ _ Hn Bs L0) as [_ Er0]. destruct (E_load _ _ _ _ Hn Bs L1) as [Ls Er1]. set (pad := repeat 0%N (nw n - nq n)) in *.
  assert (Tw : total (ww n) = 8 * Z.of_nat (nw n)) by apply total_rep.
  assert (S0 : stN P L (TF0 n) l0 e0 m).
  { split; [repeat (apply Forall_app; split); [exact (E_small _ _ _ E0)|exact (E_small _ _ _ E1)|apply words_of_small; [exact Bs|clear; induction (2 * nq n)%nat; [reflexivity|assumption]]|exact (E_small _ _ _ Ex)]|]. constructor.
    - apply env_intro. unfold e0. replace (fparams (cF n)) with [1%positive; 2%positive; 3%positive] by (clear -Hn; destruct n as [|[|[|k]]]; [reflexivity..|lia]). clear. repeat constructor; cbn; try lia; f_equal; lia.
    - constructor.
    - constructor.
    - heap2.
      + apply loc_room; [exact Ih|discriminate].
      + destruct Hc as (Ic & C0 & C1 & C2 & C3 & C4). split; [exact Ic|]. split; [reflexivity|]. cbn [fst snd lsize lps]. repeat (apply Forall_cons; [cbn [piece_ok]; split; [lia|split; [cbn; lia|cbn; assumption]]|]). apply Forall_nil.
      + apply (loc_arr L l0 m q0 0 false true _ (ww n) 0 (elb n h0) [] (W n h1 ++ sw ++ W n x)); [exact Z0|apply elb_ok|rewrite Tw, elb_len; lia|reflexivity|reflexivity|reflexivity].
      + apply (loc_arr L l0 m q1 0 false true _ (ww n) (nw n) (elb n h1) (W n h0) (sw ++ W n x)); [exact Z1|apply elb_ok|rewrite Tw, elb_len; lia|reflexivity|reflexivity|symmetry; apply W_len].
      + split; [exact I4|]. split; [discriminate|]. cbn [fst snd lsize lps]. apply Forall_cons; [|apply Forall_nil]. cbn [piece_ok]. split; [lia|]. split; [cbn; lia|]. cbn. rewrite Z.add_0_r. exact Z4.
      + apply (loc_arr L l0 m bs os false true _ (repeat 8%nat (2 * nq n)) _ sd (W n h0 ++ W n h1) (W n x)); [exact Hs|exact Bs|rewrite total_rep; lia|discriminate|unfold l0; rewrite <- !app_assoc; reflexivity|rewrite app_length, !W_len; lia].
      + apply (loc_arr L l0 m bx ox false true _ (ww n) _ (elb n x) (W n h0 ++ W n h1 ++ sw) []); [exact Hx|apply elb_ok|rewrite Tw, elb_len; lia|discriminate|unfold l0; rewrite app_nil_r, <- !app_assoc; reflexivity|rewrite !app_length, !W_len, Lsw; lia].
    - apply apart_first; [reflexivity|]. intros _ j lj Ej. destruct j as [|[|[|[|[|[|j]]]]]]; cbn [nth_error] in Ej; [injection Ej as <-..|destruct j; discriminate Ej]; cbn [lat nth L fst snd lsize].
      + left. intros ->. apply Nh. cbn. tauto.
      + left. intros ->. apply Nh. cbn. tauto.
      + left. intros ->. apply Nh. cbn. tauto.
      + left. intros ->. apply Nh. cbn. tauto.
      + change (sep bh oh (nb n) bs os (2 * nb n)). clear -Sp1 Ls. unfold sep, nb in *. lia.
      + exact Sp2. }
  eapply (stN_trip P _ (SPV n Hn)); [exact (proj2 (proj2 (okZ_n n Hn)))|exact S0|]. intros L' e1 m1 X1 S1 Fr1 _. cbn [co]. split.
  { eapply frame_weak; [exact Fr1|]. intros b q _ _ (i & o & k & [Il|[]] & _ & K); injection Il as <- <- <-. cbn [L lat nth fst snd] in K. unfold at_ in *. lia. }
  assert (Q0 : evs_ P l0 (vars 0 (nw n)) = W n h0) by (rewrite ev_vars; apply (seg l0 [] (W n h0) (W n h1 ++ sw ++ W n x)); [reflexivity|reflexivity|symmetry; apply W_len]).
  assert (Q1 : evs_ P l0 (vars (nw n) (nw n)) = W n h1) by (rewrite ev_vars; apply (seg l0 (W n h0) (W n h1) (sw ++ W n x)); [reflexivity|symmetry; apply W_len|symmetry; apply W_len]).
  assert (Q2 : evs_ P l0 (vars (2 * nw n + 2 * nq n) (nw n)) = W n x) by (rewrite ev_vars; apply (seg l0 (W n h0 ++ W n h1 ++ sw) (W n x) []); [unfold l0; rewrite app_nil_r, <- !app_assoc; reflexivity|rewrite !app_length, !W_len, Lsw; lia|symmetry; apply W_len]).
  assert (Sw : sw = words_of sd 0 (qs n) ++ words_of sd (8 * N.of_nat (nq n)) (qs n)).
  { unfold sw, qs. replace (2 * nq n)%nat with (nq n + nq n)%nat by lia. rewrite repeat_app, words_of_app, sum_rep. f_equal. f_equal. lia. }
  assert (Lq : forall o, length (words_of sd o (qs n)) = nq n) by (intros o; rewrite words_of_length; unfold qs; apply repeat_length).
  assert (Q3 : evs_ P l0 (el n (2 * nw n)) = words_of sd 0 (qs n) ++ pad).
  { rewrite ev_el. fold pad. f_equal. apply (seg l0 (W n h0 ++ W n h1) _ (words_of sd (8 * N.of_nat (nq n)) (qs n) ++ W n x)); [unfold l0; rewrite Sw, <- !app_assoc; reflexivity|rewrite app_length, !W_len; lia|symmetry; apply Lq]. }
  assert (Q4 : evs_ P l0 (el n (2 * nw n + nq n)) = words_of sd (8 * N.of_nat (nq n)) (qs n) ++ pad).
  { rewrite ev_el. fold pad. f_equal. apply (seg l0 (W n h0 ++ W n h1 ++ words_of sd 0 (qs n)) _ (W n x)); [unfold l0; rewrite Sw, <- !app_assoc; reflexivity|rewrite !app_length, !W_len, Lq; lia|symmetry; apply Lq]. }
  assert (M0 : E n (mulm n 0 ((words_of sd 0 (qs n) ++ pad) ++ W n h0)) (Fields.bf_mul (fld n) r0 h0)) by exact (E_mul n _ _ _ _ Hn Er0 E0).
  assert (M1 : E n (mulm n 0 ((words_of sd (8 * N.of_nat (nq n)) (qs n) ++ pad) ++ W n h1)) (Fields.bf_mul (fld n) r1 h1)) by exact (E_mul n _ _ _ _ Hn Er1 E1).
  pose proof (E_add n _ _ _ _ M0 M1) as M2. pose proof (E_add n _ _ _ _ M2 Ex) as M3.
  match type of M2 with E _ ?w _ => assert (V2 : evs_ P l0 (xorr (app_ n 0 (el n (2 * nw n) ++ vars 0 (nw n))) (app_ n 0 (el n (2 * nw n + nq n) ++ vars (nw n) (nw n)))) = w) end.
  { rewrite ev_xorr; rewrite !ev_app_, ?(ev_app l0 (el n (2 * nw n))), ?(ev_app l0 (el n (2 * nw n + nq n))), ?Q0, ?Q1, ?Q3, ?Q4; [reflexivity|exact (E_small _ _ _ M0)|exact (E_small _ _ _ M1)]. }
  match type of M3 with E _ ?w _ => assert (V : evs_ P l0 (sgF n) = firstn (nq n) w) end.
  { unfold sgF. rewrite ev_firstn, ev_xor_; rewrite ?V2, ?Q2; [reflexivity|exact (E_small _ _ _ M2)|exact (E_small _ _ _ Ex)]. }
  rewrite V in S1. change (length (gheap (TF1 n))) with 1%nat in S1. destruct X1 as (R & -> & _). change (firstn 1 (L ++ R)) with [(bh, oh)] in S1. pose proof (E_len _ _ _ Hn M3) as L3.
  assert (Nqw : (nq n <= nw n)%nat) by (clear -Hn; destruct n as [|[|[|k]]]; cbn; lia).
  match type of V with _ = ?B => set (fw := B) in * end. assert (Lf : nq n = length fw) by (unfold fw; rewrite firstn_length, L3; lia).
  pose proof (place_words _ (TF1 n) _ e1 m1 0 _ _ _ _ (nq n) [] fw [] S1 eq_refl ltac:(rewrite app_nil_r; reflexivity) eq_refl Lf) as H1.
  cbn [lat nth fst snd] in H1. replace (UHash.zk_hash_finalize _ _ _) with (bytes_of (repeat 8%nat (nq n)) fw); [exact H1|]. exact (E_store n _ _ Hn M3).
Qed.
