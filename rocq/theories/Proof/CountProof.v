(** How many seeds make the universal hashes collide. *)
From Verif.Model Require Import Base Fields UHash.
From Verif.Spec Require Import FormatSpec VoleSpec UHashSpec UHashMap CountSpec.
From Verif.Proof Require Import BaseProof PolyProof FieldProof EmbedProof VoleProps UHashProof UHashProps RootProof.
From Coq Require Import Lia ZifyBool ZifyNat ZifyN.
Ltac Zify.zify_post_hook ::= Z.div_mod_to_equations.

Lemma sub_split s a b : sub s a b ++ dropN (a + b) s = dropN a s.
Proof. rewrite sub_eq, <- dropN_dropN. apply firstn_skipn. Qed.
Lemma to_bytes_num s off n : bytes_ok s -> off + n <= lenN s -> to_bytes n (num (sub s off n)) = sub s off n.
Proof.
  intros HB HL. rewrite to_bytes_eq, num_eq. apply le_bytes_le_val; [apply sub_bytes, HB|]. rewrite sub_len by exact HL. lia.
Qed.
Lemma num_zero s : num s = 0 -> Forall (fun b => b = 0) s.
Proof. induction s as [|b s IH]; intros H; constructor; cbn [num] in H; [lia|apply IH; lia]. Qed.
Lemma zero_num s : Forall (fun b => b = 0) s -> num s = 0.
Proof. induction 1 as [|b s H HS IH]; cbn [num]; [reflexivity|]. rewrite IH. lia. Qed.
Lemma zeros_xor a b : lenN a = lenN b -> Forall (fun v => v = 0) (xor_bytes a b) -> a = b.
Proof.
  revert b. induction a as [|x a IH]; intros [|y b] HL HZ; unfold lenN in HL; cbn [length] in HL; try lia; [reflexivity|].
  cbn [xor_bytes zipw] in HZ. inversion HZ as [|? ? H1 H2]; subst. apply N.lxor_eq in H1. subst y. f_equal.
  apply IH; [unfold lenN; lia|exact H2].
Qed.
Lemma xor_self_zeros a : Forall (fun v => v = 0) (xor_bytes a a).
Proof. induction a as [|x a IH]; cbn [xor_bytes zipw]; constructor; [apply N.lxor_nilpotent|exact IH]. Qed.

(** * One linear equation *)
Section Solve.
Variable F : field.
Variable cols : list N.
Hypothesis HFF : field_facts F cols.
Let HF : field_ok F := proj1 HFF.
Definition solve (h0 h1 e r : N) : N * N :=
  if h0 =? 0 then (r, bf_mul F e (inverse F h1)) else (bf_mul F (N.lxor e (bf_mul F r h1)) (inverse F h0), r).
Lemma divide a h e : a < 2 ^ f_n F -> h < 2 ^ f_n F -> h <> 0 -> bf_mul F a h = e -> bf_mul F e (inverse F h) = a.
Proof using HFF.
  intros Ha Hh Hn <-. rewrite bf_mul_assoc by (try assumption; apply inverse_lt; assumption).
  rewrite (inverse_spec F cols h HFF Hh Hn). apply bf_mul_1_r; assumption.
Qed.
Lemma solve_ok h0 h1 e r0 r1 : h0 < 2 ^ f_n F -> h1 < 2 ^ f_n F -> r0 < 2 ^ f_n F -> r1 < 2 ^ f_n F -> ~ (h0 = 0 /\ h1 = 0) ->
  N.lxor (bf_mul F r0 h0) (bf_mul F r1 h1) = e -> exists r, r < 2 ^ f_n F /\ solve h0 h1 e r = (r0, r1).
Proof using HFF.
  intros A B C D NZ E. unfold solve. destruct (h0 =? 0) eqn:Z.
  - apply N.eqb_eq in Z. subst h0. exists r0. split; [exact C|]. f_equal. rewrite bf_mul_0_r, N.lxor_0_l in E by assumption.
    apply divide; try assumption. intros ->. apply NZ. split; reflexivity.
  - apply N.eqb_neq in Z. exists r1. split; [exact D|]. f_equal. apply divide; try assumption. rewrite <- E.
    rewrite N.lxor_assoc, N.lxor_nilpotent, N.lxor_0_r. reflexivity.
Qed.
End Solve.

Lemma level_field lambda F : In (lambda, F) levels -> exists cols, field_facts F cols.
Proof.
  intros [E | [E | [E | []]]]; injection E as _ <-; eexists; [exact F128_facts|exact F192_facts|exact F256_facts].
Qed.

(** * The ZK hash *)
Definition enc3 (nb : N) (x : (N * N) * (N * N)) : list N :=
  let '((r0, r1), (s, t)) := x in to_bytes nb r0 ++ to_bytes nb r1 ++ to_bytes nb s ++ to_bytes 8 t.
Lemma enc3_ok nb sd : lenN sd = 3 * nb + 8 -> bytes_ok sd ->
  enc3 nb (num (sub sd 0 nb), num (sub sd nb nb), (num (sub sd (2 * nb) nb), num (sub sd (3 * nb) 8))) = sd.
Proof.
  intros HL HB. unfold enc3. rewrite !to_bytes_num by (try exact HB; lia).
  pose proof (sub_split sd 0 nb) as E1. pose proof (sub_split sd nb nb) as E2. pose proof (sub_split sd (2 * nb) nb) as E3. pose proof (sub_split sd (3 * nb) 8) as E4.
  rewrite dropN_all, app_nil_r in E4 by lia. rewrite dropN_0 in E1. rewrite N.add_0_l in E1.
  replace (nb + nb) with (2 * nb) in E2 by lia. replace (2 * nb + nb) with (3 * nb) in E3 by lia.
  rewrite E4, E3, E2, E1. reflexivity.
Qed.

Section ZkCount.
Variable F : field.
Variable cols : list N.
Hypothesis HFF : field_facts F cols.
Hypothesis HI : In F fields_of.
Hypothesis H64 : 64 <= f_n F.
Let HF : field_ok F := proj1 HFF.
Local Notation small := (Forall (fun v => v < 2 ^ f_n F)).
Let nb := f_n F / 8.
Let Q := 2 ^ f_n F.

Lemma t_small sd off : bytes_ok sd -> num (sub sd off 8) < 2 ^ f_n F.
Proof using H64. intros H. eapply N.lt_le_trans; [apply num_lt64, H|apply N.pow_le_mono_r; [discriminate|exact H64]]. Qed.

Lemma zk_spec_ev sd ds e : bytes_ok sd -> small ds ->
  zk_hash_spec F sd ds e = N.lxor (N.lxor (bf_mul F (block F sd 0) (ev F (block F sd 2) 0 ds)) (bf_mul F (block F sd 1) (ev F (num (sub sd (3 * nb) 8)) 0 ds))) e.
Proof using HFF HI H64.
  intros HB HD. unfold zk_hash_spec, ev. cbv zeta. fold (lenN ds).
  rewrite !horner by (try assumption; try (apply block_lt; assumption); apply t_small; assumption). reflexivity.
Qed.

Lemma zk_covered ds e : small ds -> ~ Forall (fun v => v = 0) ds ->
  covered (Q * Q * 2 ^ 64 + Q * Q * ((lenN ds - 1) * (lenN ds - 1)))
    (fun sd => lenN sd = 3 * nb + 8 /\ bytes_ok sd /\ zk_hash_spec F sd ds e = 0).
Proof using HFF HI H64.
  intros HD NZ.
  pose proof (roots_covered F cols HFF (f_n F) ds ltac:(apply N.le_refl) HD NZ) as RS.
  pose proof (roots_covered F cols HFF 64 ds H64 HD NZ) as RT.
  set (Ps := fun s => s < 2 ^ f_n F /\ (ev F s 0 ds =? 0) = true) in *.
  set (Pt := fun s => s < 2 ^ 64 /\ (ev F s 0 ds =? 0) = true) in *.
  (* both polynomials vanish, or the equation for r0, r1 is not trivial *)
  assert (C1 : covered (Q * Q * 2 ^ 64) (fun sd => lenN sd = 3 * nb + 8 /\ bytes_ok sd /\ zk_hash_spec F sd ds e = 0 /\
     ~ (ev F (block F sd 2) 0 ds = 0 /\ ev F (num (sub sd (3 * nb) 8)) 0 ds = 0))).
  { apply (covered_map _ (fun x : N * N * N => let '(r, s, t) := x in enc3 nb (solve F (ev F s 0 ds) (ev F t 0 ds) e r, (s, t)))
      (fun x => (fst (fst x) < Q /\ snd (fst x) < Q) /\ snd x < 2 ^ 64)).
    2:{ apply (covered_prod (Q * Q) (2 ^ 64) (fun x : N * N => fst x < Q /\ snd x < Q) (fun t => t < 2 ^ 64)); [|apply covered_below].
        apply (covered_prod Q Q (fun x => x < Q) (fun x => x < Q)); apply covered_below. }
    intros sd (HL & HB & HE & NT). rewrite zk_spec_ev in HE by assumption. apply N.lxor_eq in HE.
    pose proof (block_lt F sd 2 HI HB) as L2. pose proof (t_small sd (3 * nb) HB) as LT.
    destruct (solve_ok F cols HFF _ _ e _ _ (ev_lt F cols HFF _ 0 ds L2 (pow2_pos _) HD) (ev_lt F cols HFF _ 0 ds LT (pow2_pos _) HD)
      (block_lt F sd 0 HI HB) (block_lt F sd 1 HI HB) NT HE) as (r & Hr & Er).
    exists (r, block F sd 2, num (sub sd (3 * nb) 8)). cbn [fst snd]. split; [split; [split; [exact Hr|exact L2]|apply num_lt64, HB]|].
    rewrite Er. pose proof (enc3_ok nb sd HL HB) as K. unfold block. fold nb. rewrite N.mul_0_l, N.mul_1_l. exact K. }
  assert (C2 : covered (Q * Q * ((lenN ds - 1) * (lenN ds - 1))) (fun sd => lenN sd = 3 * nb + 8 /\ bytes_ok sd /\
     ev F (block F sd 2) 0 ds = 0 /\ ev F (num (sub sd (3 * nb) 8)) 0 ds = 0)).
  { apply (covered_map _ (enc3 nb) (fun x => (fst (fst x) < Q /\ snd (fst x) < Q) /\ (Ps (fst (snd x)) /\ Pt (snd (snd x))))).
    2:{ apply (covered_prod (Q * Q) _ (fun x : N * N => fst x < Q /\ snd x < Q) (fun x : N * N => Ps (fst x) /\ Pt (snd x)));
        [apply (covered_prod Q Q (fun x => x < Q) (fun x => x < Q)); apply covered_below|apply covered_prod; assumption]. }
    intros sd (HL & HB & Z1 & Z2). eexists (_, _, (_, _)). split; [|exact (enc3_ok nb sd HL HB)]. cbn [fst snd]. unfold Ps, Pt.
    split; [split; apply (sub_num_lt F); assumption|]. split; [split; [apply (sub_num_lt F); assumption|apply N.eqb_eq, Z1]|].
    split; [apply num_lt64, HB|apply N.eqb_eq, Z2]. }
  refine (covered_impl _ _ _ _ (covered_or _ _ _ _ C1 C2)). intros sd (HL & HB & HE).
  destruct (N.eq_dec (ev F (block F sd 2) 0 ds) 0) as [Z1|Z1]; [destruct (N.eq_dec (ev F (num (sub sd (3 * nb) 8)) 0 ds) 0) as [Z2|Z2]|].
  - right. auto.
  - left. split; [exact HL|]. split; [exact HB|]. split; [exact HE|]. intros [_ K]. contradiction.
  - left. split; [exact HL|]. split; [exact HB|]. split; [exact HE|]. intros [K _]. contradiction.
Qed.
End ZkCount.

(** * The VOLE hash *)
Definition enc5 (nb : N) (x : (N * N) * (N * N) * (N * N)) : list N :=
  let '((r0, r1), (r2, r3), (s, t)) := x in
  to_bytes nb r0 ++ to_bytes nb r1 ++ to_bytes nb r2 ++ to_bytes nb r3 ++ to_bytes nb s ++ to_bytes 8 t.
Lemma enc5_ok nb sd : lenN sd = 5 * nb + 8 -> bytes_ok sd ->
  enc5 nb ((num (sub sd 0 nb), num (sub sd nb nb)), (num (sub sd (2 * nb) nb), num (sub sd (3 * nb) nb)), (num (sub sd (4 * nb) nb), num (sub sd (5 * nb) 8))) = sd.
Proof.
  intros HL HB. unfold enc5. rewrite !to_bytes_num by (try exact HB; lia).
  pose proof (sub_split sd 0 nb) as E1. pose proof (sub_split sd nb nb) as E2. pose proof (sub_split sd (2 * nb) nb) as E3.
  pose proof (sub_split sd (3 * nb) nb) as E4. pose proof (sub_split sd (4 * nb) nb) as E5. pose proof (sub_split sd (5 * nb) 8) as E6.
  rewrite dropN_all, app_nil_r in E6 by lia. rewrite dropN_0 in E1. rewrite N.add_0_l in E1.
  replace (nb + nb) with (2 * nb) in E2 by lia. replace (2 * nb + nb) with (3 * nb) in E3 by lia.
  replace (3 * nb + nb) with (4 * nb) in E4 by lia. replace (4 * nb + nb) with (5 * nb) in E5 by lia.
  rewrite E6, E5, E4, E3, E2, E1. reflexivity.
Qed.

Definition blocks (F : field) (x : list N) (n : N) : list N := map (block F x) (Nrange n).
Lemma blocks_len F x n : lenN (blocks F x n) = n.
Proof. unfold blocks. rewrite lenN_map. apply lenN_Nrange. Qed.
Lemma blocks_small F x n : In F fields_of -> bytes_ok x -> Forall (fun v => v < 2 ^ f_n F) (blocks F x n).
Proof. intros H HB. apply Forall_forall. intros v Hv. apply in_map_iff in Hv. destruct Hv as (k & <- & _). apply block_lt; assumption. Qed.
Lemma poly_hash_ev F s x n : In F fields_of -> s < 2 ^ f_n F -> bytes_ok x -> poly_hash F s x n = ev F s 0 (blocks F x n).
Proof.
  intros HI Hs HB. destruct (nb_8 F HI) as (_ & _ & HO & _). unfold ev. rewrite (horner F s (blocks F x n) HO Hs (blocks_small F x n HI HB)).
  rewrite blocks_len. unfold poly_hash. apply gsum_ext. intros k Hk. f_equal. unfold blocks.
  symmetry. change (nthN (map (block F x) (Nrange n)) (n - 1 - k) 0 = block F x (n - 1 - k)).
  rewrite (nthN_map _ _ _ 0) by (rewrite lenN_Nrange; lia). rewrite nthN_Nrange by lia. reflexivity.
Qed.
(** all blocks zero means all bytes zero *)
Lemma blocks_zero F x n : In F fields_of -> lenN x = n * (f_n F / 8) -> Forall (fun v => v = 0) (blocks F x n) -> Forall (fun b => b = 0) x.
Proof.
  intros HI HL HZ. destruct (nb_8 F HI) as (E & G & HO & _). apply Forall_forall. intros b Hb. destruct (In_nth _ _ 0 Hb) as (j' & Hj' & <-).
  change (nth j' x 0) with (nth j' x 0). rewrite <- (Nnat.Nat2N.id j'). change (nthN x (N.of_nat j') 0 = 0).
  assert (Hj : N.of_nat j' < lenN x) by (unfold lenN; lia). generalize dependent (N.of_nat j'). intros j Hj. clear j' Hj' Hb.
  set (nb := f_n F / 8) in *. assert (Hk : j / nb < n) by (apply N.div_lt_upper_bound; [lia|]; rewrite N.mul_comm, <- HL; exact Hj).
  rewrite Forall_forall in HZ. assert (Z : block F x (j / nb) = 0) by (apply HZ; unfold blocks; apply in_map, In_Nrange, Hk).
  unfold block in Z. fold nb in Z. apply num_zero in Z. 
  assert (LS : lenN (sub x (j / nb * nb) nb) = nb).
  { apply sub_len. rewrite HL. rewrite <- N.mul_succ_l. apply N.mul_le_mono_r. lia. }
  pose proof (N.mod_lt j nb ltac:(lia)) as Hm. pose proof (N.div_mod j nb ltac:(lia)) as Ej.
  assert (Y : nthN (sub x (j / nb * nb) nb) (j mod nb) 0 = 0).
  { rewrite Forall_forall in Z. apply Z. unfold nthN. apply nth_In. unfold lenN in LS. lia. }
  rewrite sub_eq, nthN_takeN, nthN_dropN in Y by exact Hm. transitivity (nthN x (j / nb * nb + j mod nb) 0); [f_equal; lia|exact Y].
Qed.

Section VoleCount.
Variable F : field.
Variable cols : list N.
Hypothesis HFF : field_facts F cols.
Hypothesis HI : In F fields_of.
Hypothesis H64 : 64 <= f_n F.
Let HF : field_ok F := proj1 HFF.
Let nb := f_n F / 8.
Let Q := 2 ^ f_n F.
Variable ell : N.
Let len := (ell + f_n F) / 8.
Let n := (len + nb - 1) / nb.
Variable z : list N.
Hypothesis HZL : lenN z = len + nb + 2.
Hypothesis HZB : bytes_ok z.
Let x0 := padded z len (n * nb).
Let x1 := sub z len (nb + 2).
Let h0 sd := ev F (block F sd 4) 0 (blocks F x0 n).
Let h1 sd := ev F64 (num (sub sd (5 * nb) 8)) 0 (blocks F64 x0 (n * (nb / 8))).
Let e2 := num (sub x1 0 nb).
Let e3 := num (sub x1 nb 2).

Lemma len_n : len <= n * nb.
Proof.
  destruct (nb_8 F HI) as (E & G & _). fold nb in E, G. unfold n. pose proof (N.div_mod (len + nb - 1) nb ltac:(lia)) as K.
  pose proof (N.mod_lt (len + nb - 1) nb ltac:(lia)). rewrite (N.mul_comm _ nb). lia.
Qed.
Lemma x0_len : lenN x0 = n * nb.
Proof. apply padded_len; [lia|apply len_n]. Qed.
Lemma x0_bytes : bytes_ok x0.
Proof. apply padded_bytes, HZB. Qed.
Lemma x1_len : lenN x1 = nb + 2.
Proof. unfold x1. apply sub_len. lia. Qed.
Lemma h0_lt sd : bytes_ok sd -> h0 sd < 2 ^ f_n F.
Proof. intros HB. apply (ev_lt F cols HFF); [apply block_lt; assumption|apply pow2_pos|apply blocks_small; [exact HI|exact x0_bytes]]. Qed.
Lemma h1_lt sd : bytes_ok sd -> h1 sd < 2 ^ f_n F.
Proof.
  intros HB.
  pose proof (ev_lt F64 _ F64_facts (num (sub sd (5 * nb) 8)) 0 (blocks F64 x0 (n * (nb / 8))) (num_lt64 sd (5 * nb) HB) (pow2_pos _)
    (blocks_small F64 x0 (n * (nb / 8)) (or_introl eq_refl) x0_bytes)) as K.
  eapply N.lt_le_trans; [exact K|apply N.pow_le_mono_r; [discriminate|exact H64]].
Qed.

(** the hash of [z] is zero *)
Lemma vole_zero sd : bytes_ok sd -> Forall (fun b => b = 0) (vole_hash_spec F sd z ell) ->
  N.lxor (bf_mul F (block F sd 0) (h0 sd)) (bf_mul F (block F sd 1) (h1 sd)) = e2 /\
  N.lxor (bf_mul F (block F sd 2) (h0 sd)) (bf_mul F (block F sd 3) (h1 sd)) mod 2 ^ 16 = e3.
Proof.
  intros HB HZ. unfold vole_hash_spec in HZ. cbv zeta in HZ. fold nb len in HZ. fold n in HZ. fold x0 x1 in HZ.
  rewrite (poly_hash_ev F), (poly_hash_ev F64) in HZ by (try assumption; try exact x0_bytes; try (left; reflexivity); try (apply block_lt; assumption); apply num_lt64, HB).
  fold (h0 sd) (h1 sd) in HZ. pose proof (h0_lt sd HB) as L0. pose proof (h1_lt sd HB) as L1.
  assert (LA : forall a b, a < 2 ^ f_n F -> b < 2 ^ f_n F -> N.lxor (bf_mul F a (h0 sd)) (bf_mul F b (h1 sd)) < 2 ^ f_n F).
  { intros a b Ha Hb. apply lxor_lt; apply bf_mul_lt; assumption. }
  pose proof (LA _ _ (block_lt F sd 0 HI HB) (block_lt F sd 1 HI HB)) as LH2.
  generalize dependent (N.lxor (bf_mul F (block F sd 0) (h0 sd)) (bf_mul F (block F sd 1) (h1 sd))). intros a HZ La.
  generalize dependent (N.lxor (bf_mul F (block F sd 2) (h0 sd)) (bf_mul F (block F sd 3) (h1 sd))). intros b HZ.
  rewrite xors_eq in HZ. destruct (nb_8 F HI) as (E & G & _). fold nb in E, G.
  apply zeros_xor in HZ; [|rewrite lenN_app, !lenN_to_bytes, x1_len; reflexivity].
  pose proof (takeN_app_exact (to_bytes nb a) (to_bytes 2 b)) as T. pose proof (dropN_app_exact (to_bytes nb a) (to_bytes 2 b)) as D.
  rewrite lenN_to_bytes in T, D.
  unfold e2, e3. rewrite <- HZ. rewrite !sub_eq, dropN_0, T, D. split.
  - rewrite to_bytes_eq, num_eq, le_val_le_bytes; [reflexivity|].
    eapply N.lt_le_trans; [exact La|]. change 256 with (2 ^ 8). rewrite <- N.pow_mul_r. apply N.pow_le_mono_r; [discriminate|]. lia.
  - rewrite takeN_all by (rewrite lenN_to_bytes; lia).
    rewrite to_bytes_eq, num_eq. rewrite <- le_bytes_mod. rewrite le_val_le_bytes; [reflexivity|]. apply N.mod_lt. discriminate.
Qed.

(** x0 is not zero *)
Lemma vole_covered_0 : ~ Forall (fun b => b = 0) x0 ->
  covered ((Q * Q) * (Q * 2 ^ 64) * 2 ^ (f_n F - 16) + (Q * Q) * (Q * Q) * ((n - 1) * (n * (nb / 8) - 1)))
    (fun sd => lenN sd = 5 * nb + 8 /\ bytes_ok sd /\ Forall (fun b => b = 0) (vole_hash_spec F sd z ell)).
Proof.
  intros NZ. destruct (nb_8 F HI) as (E & G & _ & M8). fold nb in E, G, M8.
  assert (I64 : In F64 fields_of) by (left; reflexivity).
  assert (NS : ~ Forall (fun v => v = 0) (blocks F x0 n)) by (intros K; apply NZ; exact (blocks_zero F x0 n HI x0_len K)).
  assert (NT : ~ Forall (fun v => v = 0) (blocks F64 x0 (n * (nb / 8)))).
  { intros K. apply NZ. refine (blocks_zero F64 x0 (n * (nb / 8)) I64 _ K). rewrite x0_len. change (f_n F64 / 8) with 8.
    rewrite <- N.mul_assoc. f_equal. clear - M8. lia. }
  pose proof (roots_covered F cols HFF (f_n F) _ (N.le_refl _) (blocks_small F x0 n HI x0_bytes) NS) as RS.
  pose proof (roots_covered F64 _ F64_facts 64 _ (N.le_refl 64) (blocks_small F64 x0 (n * (nb / 8)) I64 x0_bytes) NT) as RT.
  rewrite !blocks_len in RS, RT.
  set (Ps := fun s => s < 2 ^ f_n F /\ (ev F s 0 (blocks F x0 n) =? 0) = true) in *.
  set (Pt := fun s => s < 2 ^ 64 /\ (ev F64 s 0 (blocks F64 x0 (n * (nb / 8))) =? 0) = true) in *.
  assert (C1 : covered ((Q * Q) * (Q * 2 ^ 64) * 2 ^ (f_n F - 16)) (fun sd => lenN sd = 5 * nb + 8 /\ bytes_ok sd /\
     Forall (fun b => b = 0) (vole_hash_spec F sd z ell) /\ ~ (h0 sd = 0 /\ h1 sd = 0))).
  { apply (covered_map _ (fun x : (N * N) * (N * N) * N => let '((r, r'), (s, t), v) := x in
        let a := ev F s 0 (blocks F x0 n) in let b := ev F64 t 0 (blocks F64 x0 (n * (nb / 8))) in
        enc5 nb (solve F a b e2 r, solve F a b (2 ^ 16 * v + e3) r', (s, t)))
      (fun x => ((fst (fst (fst x)) < Q /\ snd (fst (fst x)) < Q) /\ (fst (snd (fst x)) < Q /\ snd (snd (fst x)) < 2 ^ 64)) /\ snd x < 2 ^ (f_n F - 16))).
    2:{ apply (covered_prod _ _ (fun x : (N * N) * (N * N) => (fst (fst x) < Q /\ snd (fst x) < Q) /\ (fst (snd x) < Q /\ snd (snd x) < 2 ^ 64)) (fun v => v < 2 ^ (f_n F - 16))); [|apply covered_below].
        apply (covered_prod _ _ (fun x : N * N => fst x < Q /\ snd x < Q) (fun x : N * N => fst x < Q /\ snd x < 2 ^ 64)).
        - apply (covered_prod Q Q (fun x => x < Q) (fun x => x < Q)); apply covered_below.
        - apply (covered_prod Q (2 ^ 64) (fun x => x < Q) (fun x => x < 2 ^ 64)); apply covered_below. }
    intros sd (HL & HB & HE & NZ'). destruct (vole_zero sd HB HE) as (E2 & E3).
    pose proof (block_lt F sd 0 HI HB) as L0. pose proof (block_lt F sd 1 HI HB) as L1. pose proof (block_lt F sd 2 HI HB) as L2.
    pose proof (block_lt F sd 3 HI HB) as L3. pose proof (block_lt F sd 4 HI HB) as L4. pose proof (num_lt64 sd (5 * nb) HB) as LT.
    pose proof (h0_lt sd HB) as LH0. pose proof (h1_lt sd HB) as LH1.
    destruct (solve_ok F cols HFF _ _ _ _ _ LH0 LH1 L0 L1 NZ' E2) as (r & Hr & Er).
    destruct (solve_ok F cols HFF _ _ _ _ _ LH0 LH1 L2 L3 NZ' eq_refl) as (r' & Hr' & Er').
    assert (LW : N.lxor (bf_mul F (block F sd 2) (h0 sd)) (bf_mul F (block F sd 3) (h1 sd)) < 2 ^ f_n F) by (apply lxor_lt; apply bf_mul_lt; assumption).
    set (w := N.lxor (bf_mul F (block F sd 2) (h0 sd)) (bf_mul F (block F sd 3) (h1 sd))) in *.
    exists ((r, r'), (block F sd 4, num (sub sd (5 * nb) 8)), w / 2 ^ 16). cbn [fst snd]. split.
    - split; [split; [split; [exact Hr|exact Hr']|split; [exact L4|exact LT]]|]. apply N.div_lt_upper_bound; [discriminate|].
      rewrite <- N.pow_add_r. replace (16 + (f_n F - 16)) with (f_n F) by (clear - H64; lia). exact LW.
    - fold (h0 sd) (h1 sd). rewrite <- E3. rewrite <- (N.div_mod w (2 ^ 16)) by discriminate. rewrite Er, Er'.
      pose proof (enc5_ok nb sd HL HB) as K. unfold block. fold nb. rewrite N.mul_0_l, N.mul_1_l. exact K. }
  assert (C2 : covered ((Q * Q) * (Q * Q) * ((n - 1) * (n * (nb / 8) - 1))) (fun sd => lenN sd = 5 * nb + 8 /\ bytes_ok sd /\ h0 sd = 0 /\ h1 sd = 0)).
  { apply (covered_map _ (enc5 nb) (fun x => ((fst (fst (fst x)) < Q /\ snd (fst (fst x)) < Q) /\ (fst (snd (fst x)) < Q /\ snd (snd (fst x)) < Q)) /\ (Ps (fst (snd x)) /\ Pt (snd (snd x))))).
    2:{ apply (covered_prod _ _ (fun x : (N * N) * (N * N) => (fst (fst x) < Q /\ snd (fst x) < Q) /\ (fst (snd x) < Q /\ snd (snd x) < Q)) (fun x : N * N => Ps (fst x) /\ Pt (snd x)));
        [|apply covered_prod; assumption].
        apply (covered_prod _ _ (fun x : N * N => fst x < Q /\ snd x < Q) (fun x : N * N => fst x < Q /\ snd x < Q));
          apply (covered_prod Q Q (fun x => x < Q) (fun x => x < Q)); apply covered_below. }
    intros sd (HL & HB & Z1 & Z2). eexists ((_, _), (_, _), (_, _)). split; [|exact (enc5_ok nb sd HL HB)]. cbn [fst snd]. unfold Ps, Pt.
    split; [split; split; apply (sub_num_lt F); assumption|]. split; [split; [apply (sub_num_lt F); assumption|apply N.eqb_eq, Z1]|].
    split; [apply num_lt64, HB|apply N.eqb_eq, Z2]. }
  refine (covered_impl _ _ _ _ (covered_or _ _ _ _ C1 C2)). intros sd (HL & HB & HE).
  destruct (N.eq_dec (h0 sd) 0) as [Z1|Z1]; [destruct (N.eq_dec (h1 sd) 0) as [Z2|Z2]|].
  - right. auto.
  - left. split; [exact HL|]. split; [exact HB|]. split; [exact HE|]. intros [_ K]. contradiction.
  - left. split; [exact HL|]. split; [exact HB|]. split; [exact HE|]. intros [K _]. contradiction.
Qed.

(** x0 is zero and z is not: never *)
Lemma vole_never sd : Forall (fun b => b = 0) x0 -> ~ Forall (fun b => b = 0) z -> bytes_ok sd ->
  ~ Forall (fun b => b = 0) (vole_hash_spec F sd z ell).
Proof.
  intros Z0 NZ HB HE. destruct (vole_zero sd HB HE) as (E2 & E3). apply NZ.
  assert (BZ : forall G m, Forall (fun v => v = 0) (blocks G x0 m)).
  { intros G m. apply Forall_forall. intros v Hv. apply in_map_iff in Hv. destruct Hv as (k & <- & _). unfold block. apply zero_num.
    rewrite sub_eq. apply Forall_takeN, Forall_dropN, Z0. }
  assert (EV : forall G s xs, field_ok G -> s < 2 ^ f_n G -> Forall (fun v => v = 0) xs -> ev G s 0 xs = 0).
  { intros G s xs HG Hs HX. unfold ev. induction HX as [|v xs -> HX IH]; [reflexivity|]. cbn [fold_left]. rewrite bf_mul_0_l by assumption. exact IH. }
  assert (Y0 : h0 sd = 0) by (apply EV; [exact HF|apply block_lt; assumption|apply BZ]).
  assert (Y1 : h1 sd = 0) by (apply EV; [exact F64_ok|apply num_lt64, HB|apply BZ]).
  rewrite Y0, Y1, !bf_mul_0_r, N.lxor_0_l in E2, E3 by (try exact HF; apply block_lt; assumption).
  change (0 mod 2 ^ 16) with 0 in E3. symmetry in E2, E3. apply num_zero in E2, E3.
  assert (X1 : x1 = sub x1 0 nb ++ sub x1 nb 2).
  { pose proof (sub_split x1 0 nb) as K1. pose proof (sub_split x1 nb 2) as K2. rewrite dropN_all, app_nil_r in K2 by (rewrite x1_len; lia).
    rewrite dropN_0, N.add_0_l in K1. rewrite K2, K1. reflexivity. }
  assert (ZZ : z = sub z 0 len ++ x1).
  { pose proof (sub_split z 0 len) as K1. pose proof (sub_split z len (nb + 2)) as K2. rewrite dropN_all, app_nil_r in K2 by (rewrite HZL; lia).
    rewrite dropN_0, N.add_0_l in K1. unfold x1. rewrite K2, K1. reflexivity. }
  rewrite ZZ. apply Forall_app. split.
  - unfold x0, padded in Z0. apply Forall_app in Z0. apply Z0.
  - rewrite X1. apply Forall_app. split; assumption.
Qed.

Lemma vole_covered : ~ Forall (fun b => b = 0) z ->
  covered ((Q * Q) * (Q * 2 ^ 64) * 2 ^ (f_n F - 16) + (Q * Q) * (Q * Q) * ((n - 1) * (n * (nb / 8) - 1)))
    (fun sd => lenN sd = 5 * nb + 8 /\ bytes_ok sd /\ Forall (fun b => b = 0) (vole_hash_spec F sd z ell)).
Proof.
  intros NZ. destruct (Forall_dec (fun b => b = 0) (fun b => N.eq_dec b 0) x0) as [Z|Z]; [|apply vole_covered_0, Z].
  exists []. split; [apply N.le_0_l|]. intros sd (_ & HB & HE). exact (vole_never sd Z NZ HB HE).
Qed.
End VoleCount.
