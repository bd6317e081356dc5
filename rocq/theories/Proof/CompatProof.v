(** The portable replacements (property C47). *)
From Coq Require Import Lia ZifyBool ZifyNat ZifyN.
From Verif.Model Require Import Base Compat.
From Verif.Proof Require Import BaseProof.
Ltac Zify.zify_post_hook ::= Z.div_mod_to_equations.

Lemma usub_ge n a b : a < 2 ^ n -> b <= a -> usub n a b = a - b.
Proof.
  intros H1 H2. unfold usub. replace (a + 2 ^ n - b) with (a - b + 1 * 2 ^ n) by lia.
  rewrite N.mod_add by (apply N.pow_nonzero; lia). apply N.mod_small. lia.
Qed.
Lemma usub_lt n a b : a < b -> b <= 2 ^ n -> usub n a b = a + 2 ^ n - b.
Proof. intros H1 H2. unfold usub. apply N.mod_small. lia. Qed.

Lemma sub_overflow_ok x y : x < 2 ^ 64 -> y < 2 ^ 64 ->
  sub_overflow_size_t x y = (x <? y, Z.to_N ((Z.of_N x - Z.of_N y) mod 2 ^ 64)).
Proof.
  intros Hx Hy. unfold sub_overflow_size_t. f_equal. destruct (N.lt_ge_cases x y) as [H|H].
  - rewrite usub_lt by lia. rewrite <- (Z.mod_add _ 1) by lia. rewrite Z.mod_small by lia. lia.
  - rewrite usub_ge by lia. rewrite Z.mod_small by lia. lia.
Qed.

(** * rotations *)
Lemma low3 c : N.land c 7 = c mod 8.
Proof. change 7 with (N.ones 3). rewrite N.land_ones. reflexivity. Qed.
Lemma rot_checked :
  forallb (fun n => forallb (fun c =>
    let l := rotl8 n c in let r := rotr8_c n c in
    (l <? 256) && (r =? rotr8 n c) &&
    forallb (fun i => let k := (i + c) mod 8 in
      Bool.eqb (N.testbit l k) (N.testbit n i) && Bool.eqb (N.testbit r i) (N.testbit n k))
    (Nrange 8)) (Nrange 8)) (Nrange 256) = true.
Proof. vm_compute. reflexivity. Qed.
Lemma rot_low n c : rotl8 n c = rotl8 n (c mod 8) /\ rotr8_c n c = rotr8_c n (c mod 8) /\ rotr8 n c = rotr8 n (c mod 8).
Proof.
  unfold rotl8, rotr8_c, rotr8. rewrite (low3 c), (low3 (c mod 8)). 
  replace ((c mod 8) mod 8) with (c mod 8) by (symmetry; apply N.mod_small, N.mod_lt; discriminate).
  repeat split; reflexivity.
Qed.
Lemma rot_all n c i : n < 256 -> i < 8 ->
  N.testbit (rotl8 n c) ((i + c) mod 8) = N.testbit n i /\ rotl8 n c < 256 /\
  N.testbit (rotr8_c n c) i = N.testbit n ((i + c) mod 8) /\ rotr8_c n c = rotr8 n c.
Proof.
  intros Hn Hi. destruct (rot_low n c) as (-> & -> & ->).
  assert (EM : (i + c) mod 8 = (i + c mod 8) mod 8) by (rewrite N.add_mod_idemp_r; [reflexivity|discriminate]).
  rewrite EM. assert (Hc : c mod 8 < 8) by (apply N.mod_lt; discriminate). revert Hc. generalize (c mod 8). clear c EM. intros c Hc.
  pose proof rot_checked as K. rewrite forallb_forall in K. specialize (K n). rewrite In_Nrange in K. specialize (K Hn).
  rewrite forallb_forall in K. specialize (K c). rewrite In_Nrange in K. specialize (K Hc).
  cbv zeta in K. rewrite !andb_true_iff in K. destruct K as ((K2 & K4) & K).
  rewrite forallb_forall in K. specialize (K i). rewrite In_Nrange in K. specialize (K Hi).
  rewrite !andb_true_iff in K. destruct K as (K1 & K3).
  apply Bool.eqb_prop in K1. apply Bool.eqb_prop in K3. repeat split; assumption || lia.
Qed.

(** * leading zeros *)
Lemma shift_step x s : 0 < x -> x < 2 ^ (32 - s) -> s <= 32 ->
  ui (N.shiftl x s) = x * 2 ^ s /\ N.log2 (x * 2 ^ s) = N.log2 x + s /\ x * 2 ^ s < 2 ^ 32.
Proof.
  intros H0 H1 Hs. assert (B : x * 2 ^ s < 2 ^ 32).
  { replace (2 ^ 32) with (2 ^ (32 - s) * 2 ^ s) by (rewrite <- N.pow_add_r; f_equal; lia).
    apply N.mul_lt_mono_pos_r; [|exact H1]. apply N.neq_0_lt_0, N.pow_nonzero. lia. }
  unfold ui. rewrite N.shiftl_mul_pow2, N.mod_small by exact B. split; [reflexivity|]. split; [|exact B].
  rewrite <- N.shiftl_mul_pow2. apply N.log2_shiftl. lia.
Qed.
Lemma shiftr_zero x k : (N.shiftr x k =? 0) = (x <? 2 ^ k).
Proof.
  rewrite N.shiftr_div_pow2. assert (P : 2 ^ k <> 0) by (apply N.pow_nonzero; lia).
  destruct (x <? 2 ^ k) eqn:E.
  - apply N.eqb_eq, N.div_small. lia.
  - apply N.eqb_neq. intros H. apply N.div_small_iff in H; [lia|exact P].
Qed.
(** one step: [n - log2 x] is kept, and [x] grows *)
Lemma clz_step n x k s lo : k + s = 32 -> lo + s >= k -> 0 < x -> 2 ^ lo <= x < 2 ^ 32 ->
  exists n' x', (if N.shiftr x k =? 0 then (n + s, ui (N.shiftl x s)) else (n, x)) = (n', x') /\
    n' + N.log2 x = n + N.log2 x' /\ 2 ^ k <= x' < 2 ^ 32.
Proof.
  intros Hk Hl H0 Hx. rewrite shiftr_zero. destruct (x <? 2 ^ k) eqn:E.
  - destruct (shift_step x s H0) as (E1 & E2 & E3); [replace (32 - s) with k by lia; lia|lia|].
    exists (n + s), (x * 2 ^ s). rewrite E1, E2. split; [reflexivity|]. split; [lia|]. split; [|exact E3].
    apply N.le_trans with (2 ^ lo * 2 ^ s).
    + rewrite <- N.pow_add_r. apply N.pow_le_mono_r; lia.
    + apply N.mul_le_mono_r. lia.
  - exists n, x. split; [reflexivity|]. split; [reflexivity|lia].
Qed.
Lemma clz_ok x : x < 2 ^ 32 -> clz x = if x =? 0 then 32 else 31 - N.log2 x.
Proof.
  intros Hx. unfold clz. destruct (x =? 0) eqn:E0; [reflexivity|]. cbv zeta.
  destruct (clz_step 1 x 16 16 0) as (n1 & x1 & -> & A1 & B1); [lia|lia|lia|change (2 ^ 0) with 1; lia|].
  assert (P1 : 0 < x1) by (change (2 ^ 16) with 65536 in B1; lia).
  destruct (clz_step n1 x1 24 8 16) as (n2 & x2 & -> & A2 & B2); [lia|lia|exact P1|exact B1|].
  assert (P2 : 0 < x2) by (change (2 ^ 24) with 16777216 in B2; lia).
  destruct (clz_step n2 x2 28 4 24) as (n3 & x3 & -> & A3 & B3); [lia|lia|exact P2|exact B2|].
  assert (P3 : 0 < x3) by (change (2 ^ 28) with 268435456 in B3; lia).
  destruct (clz_step n3 x3 30 2 28) as (n4 & x4 & -> & A4 & B4); [lia|lia|exact P3|exact B3|].
  assert (L4 : N.shiftr x4 31 + 30 = N.log2 x4).
  { rewrite N.shiftr_div_pow2. change (2 ^ 31) with 2147483648. change (2 ^ 30) with 1073741824 in B4. change (2 ^ 32) with 4294967296 in B4.
    destruct (N.lt_ge_cases x4 2147483648) as [H|H].
    - rewrite N.div_small by exact H. symmetry. apply N.log2_unique; [lia|].
      change (2 ^ (0 + 30)) with 1073741824. change (2 ^ N.succ (0 + 30)) with 2147483648. lia.
    - assert (D : x4 / 2147483648 = 1) by lia. rewrite D. symmetry. apply N.log2_unique; [lia|].
      change (2 ^ (1 + 30)) with 2147483648. change (2 ^ N.succ (1 + 30)) with 4294967296. lia. }
  assert (LX : N.log2 x < 32) by (apply N.log2_lt_pow2; lia).
  rewrite usub_ge; [lia| |].
  - change (2 ^ 32) with 4294967296. assert (N.log2 x4 < 32) by (apply N.log2_lt_pow2; lia). lia.
  - lia.
Qed.
Lemma ceil_log2_ok x : x < 2 ^ 32 -> ceil_log2 x = N.log2_up x.
Proof.
  intros Hx. unfold ceil_log2. destruct (x =? 0) eqn:E0.
  - assert (x = 0) by lia. subst x. reflexivity.
  - rewrite (usub_ge 32 x 1) by lia. rewrite clz_ok by lia.
    destruct (x - 1 =? 0) eqn:E1.
    + assert (x = 1) by lia. subst x. reflexivity.
    + assert (LX : N.log2 (x - 1) < 32) by (apply N.log2_lt_pow2; lia).
      rewrite usub_ge by (change (2 ^ 32) with 4294967296; lia). rewrite N.log2_up_eqn by lia.
      replace (N.pred x) with (x - 1) by lia. lia.
Qed.
Lemma ceil_log2_least x : 0 < x < 2 ^ 32 -> x <= 2 ^ ceil_log2 x /\ forall j, x <= 2 ^ j -> ceil_log2 x <= j.
Proof.
  intros Hx. rewrite ceil_log2_ok by lia. split.
  - destruct (N.eq_dec x 1) as [->|H]; [reflexivity|]. apply N.log2_up_spec. lia.
  - intros j Hj. apply N.log2_up_le_pow2; [lia|exact Hj].
Qed.

(** * parity *)
Lemma parity_checked : forallb (fun n => parity8 n =? (fold_right (fun i a => N.b2n (N.testbit n i) + a) 0 (Nrange 8)) mod 2) (Nrange 256) = true.
Proof. vm_compute. reflexivity. Qed.
Lemma parity_ok n : n < 256 -> parity8 n = (fold_right (fun i a => N.b2n (N.testbit n i) + a) 0 (Nrange 8)) mod 2.
Proof.
  intros Hn. pose proof parity_checked as K. rewrite forallb_forall in K. specialize (K n). rewrite In_Nrange in K. apply N.eqb_eq, K, Hn.
Qed.

(** * byte order *)
Lemma tb_shl a n m : N.testbit (N.shiftl a n) m = if m <? n then false else N.testbit a (m - n).
Proof.
  destruct (m <? n) eqn:E; [apply N.shiftl_spec_low; lia|apply N.shiftl_spec_high'; lia].
Qed.
Lemma concrete_bits (P : N -> Prop) k : (forall i, In i (Nrange k) -> P i) -> forall i, i < k -> P i.
Proof. intros H i Hi. apply H, In_Nrange, Hi. Qed.
Lemma tb_high x k i : x < 2 ^ k -> k <= i -> N.testbit x i = false.
Proof.
  intros H Hi. destruct (N.eq_dec x 0) as [->|H0]; [apply N.bits_0|]. apply N.bits_above_log2.
  apply N.lt_le_trans with k; [|exact Hi]. apply N.log2_lt_pow2; lia.
Qed.
Ltac bits_case x :=
  rewrite ?N.lor_spec, ?N.shiftr_spec', ?tb_shl, ?N.land_spec;
  set (T := N.testbit x);
  cbv [N.ltb N.compare Pos.compare Pos.compare_cont N.add Pos.add Pos.succ Pos.add_carry N.sub Pos.sub_mask Pos.succ_double_mask Pos.double_mask Pos.double_pred_mask Pos.pred_double N.testbit Pos.testbit Pos.pred_N N.mul Pos.mul N.div N.div_eucl N.pos_div_eucl N.leb N.succ_double N.double fst snd N.modulo];
  rewrite ?andb_false_r, ?andb_true_r, ?orb_false_r, ?orb_false_l; try reflexivity.
Lemma bswap64_bits x i : i < 64 -> N.testbit (bswap64 x) i = N.testbit x (8 * (7 - i / 8) + i mod 8).
Proof.
  revert i. apply concrete_bits. intros i Hi. unfold bswap64. vm_compute in Hi.
  repeat (destruct Hi as [Hi|Hi]; [subst i; bits_case x|]). destruct Hi.
Qed.
Lemma bswap32_bits x i : i < 32 -> N.testbit (bswap32 x) i = N.testbit x (8 * (3 - i / 8) + i mod 8).
Proof.
  revert i. apply concrete_bits. intros i Hi. unfold bswap32. vm_compute in Hi.
  repeat (destruct Hi as [Hi|Hi]; [subst i; bits_case x|]). destruct Hi.
Qed.
Lemma bswap16_bits x i : i < 16 -> N.testbit (bswap16 x) i = N.testbit x (8 * (1 - i / 8) + i mod 8).
Proof.
  revert i. apply concrete_bits. intros i Hi. unfold bswap16. vm_compute in Hi.
  repeat (destruct Hi as [Hi|Hi]; [subst i; bits_case x|]). destruct Hi.
Qed.

Lemma nthN_rev (l : bytes) i : i < lenN l -> nthN (rev l) i 0 = nthN l (lenN l - 1 - i) 0.
Proof. intros H. unfold nthN, lenN in *. rewrite rev_nth by lia. f_equal. lia. Qed.
Lemma rev_bits k x i : x < 256 ^ N.of_nat k -> i < 8 * N.of_nat k ->
  N.testbit (le_val (rev (le_bytes k x))) i = N.testbit x (8 * (N.of_nat k - 1 - i / 8) + i mod 8).
Proof.
  intros Hx Hi. assert (B : bytes_ok (le_bytes k x)) by apply bytes_ok_le_bytes.
  rewrite le_val_testbit by (apply Forall_rev, B). rewrite nthN_rev by (rewrite lenN_le_bytes; lia). rewrite lenN_le_bytes.
  rewrite <- (le_val_le_bytes k x Hx) at 2. rewrite le_val_testbit by exact B.
  assert (E1 : (8 * (N.of_nat k - 1 - i / 8) + i mod 8) / 8 = N.of_nat k - 1 - i / 8) by lia.
  assert (E2 : (8 * (N.of_nat k - 1 - i / 8) + i mod 8) mod 8 = i mod 8) by lia.
  rewrite E1, E2. reflexivity.
Qed.
Lemma rev_bound k x : le_val (rev (le_bytes k x)) < 256 ^ N.of_nat k.
Proof.
  pose proof (le_val_bound (rev (le_bytes k x))) as H. unfold lenN in H at 1. rewrite rev_length, le_bytes_length in H.
  apply H. apply Forall_rev, bytes_ok_le_bytes.
Qed.
(** a swap given by its bits is the reversal of the bytes *)
Lemma swap_is_rev k f x : x < 256 ^ N.of_nat k -> f < 256 ^ N.of_nat k ->
  (forall i, i < 8 * N.of_nat k -> N.testbit f i = N.testbit x (8 * (N.of_nat k - 1 - i / 8) + i mod 8)) ->
  f = le_val (rev (le_bytes k x)).
Proof.
  intros Hx Hf H. apply N.bits_inj. intros i.
  assert (E : 256 ^ N.of_nat k = 2 ^ (8 * N.of_nat k)) by (rewrite N.pow_mul_r; reflexivity).
  destruct (N.lt_ge_cases i (8 * N.of_nat k)) as [Hi|Hi].
  - rewrite H, rev_bits by assumption. reflexivity.
  - rewrite (tb_high f (8 * N.of_nat k)), (tb_high _ (8 * N.of_nat k)); try assumption; try reflexivity; rewrite <- E; [apply rev_bound|exact Hf].
Qed.
Lemma lor_bound a b k : a < 2 ^ k -> b < 2 ^ k -> N.lor a b < 2 ^ k.
Proof.
  intros Ha Hb. destruct (N.eq_dec (N.lor a b) 0) as [->|H0]; [apply N.neq_0_lt_0, N.pow_nonzero; lia|].
  apply N.log2_lt_pow2; [lia|]. rewrite N.log2_lor.
  destruct (N.eq_dec k 0) as [->|Hk].
  { change (2 ^ 0) with 1 in *. assert (a = 0) by lia. assert (b = 0) by lia. subst. contradiction H0. reflexivity. }
  assert (N.log2 a < k) by (destruct (N.eq_dec a 0) as [->|]; [cbn; lia|apply N.log2_lt_pow2; lia]).
  assert (N.log2 b < k) by (destruct (N.eq_dec b 0) as [->|]; [cbn; lia|apply N.log2_lt_pow2; lia]). lia.
Qed.
Lemma land_bound x m k : m < 2 ^ k -> N.land x m < 2 ^ k.
Proof.
  intros H. destruct (N.eq_dec (N.land x m) 0) as [->|H0]; [apply N.neq_0_lt_0, N.pow_nonzero; lia|].
  destruct (N.eq_dec k 0) as [->|Hk].
  { change (2 ^ 0) with 1 in *. assert (m = 0) by lia. subst m. rewrite N.land_0_r in H0. contradiction H0. reflexivity. }
  apply N.log2_lt_pow2; [lia|]. pose proof (N.log2_land x m).
  assert (N.log2 m < k) by (destruct (N.eq_dec m 0) as [->|]; [cbn; lia|apply N.log2_lt_pow2; lia]). lia.
Qed.
Lemma shr_bound y s k : y < 2 ^ k -> N.shiftr y s < 2 ^ k.
Proof.
  intros H. rewrite N.shiftr_div_pow2. assert (P : 2 ^ s <> 0) by (apply N.pow_nonzero; lia).
  pose proof (N.div_le_upper_bound y (2 ^ s) y P) as Q. assert (1 <= 2 ^ s) by lia.
  assert (y <= 2 ^ s * y) by (rewrite <- (N.mul_1_l y) at 1; apply N.mul_le_mono_r; lia). lia.
Qed.
Lemma shl_bound y s k : s <= k -> y < 2 ^ (k - s) -> N.shiftl y s < 2 ^ k.
Proof.
  intros Hs H. rewrite N.shiftl_mul_pow2. replace (2 ^ k) with (2 ^ (k - s) * 2 ^ s) by (rewrite <- N.pow_add_r; f_equal; lia).
  apply N.mul_lt_mono_pos_r; [|exact H]. apply N.neq_0_lt_0, N.pow_nonzero. lia.
Qed.
Ltac swap_bound :=
  repeat apply lor_bound; (apply shr_bound, land_bound; reflexivity) || (apply shl_bound; [discriminate|]; apply land_bound; reflexivity).
Lemma bswap64_ok x : x < 2 ^ 64 -> bswap64 x = le_val (rev (le_bytes 8 x)).
Proof.
  intros Hx. apply swap_is_rev; [exact Hx| |].
  - change (256 ^ N.of_nat 8) with (2 ^ 64). unfold bswap64. swap_bound.
  - exact (bswap64_bits x).
Qed.
Lemma bswap32_ok x : x < 2 ^ 32 -> bswap32 x = le_val (rev (le_bytes 4 x)).
Proof.
  intros Hx. apply swap_is_rev; [exact Hx| |].
  - change (256 ^ N.of_nat 4) with (2 ^ 32). unfold bswap32. swap_bound.
  - exact (bswap32_bits x).
Qed.
Lemma bswap16_ok x : x < 2 ^ 16 -> bswap16 x = le_val (rev (le_bytes 2 x)).
Proof.
  intros Hx. apply swap_is_rev; [exact Hx| |].
  - change (256 ^ N.of_nat 2) with (2 ^ 16). unfold bswap16. swap_bound.
  - exact (bswap16_bits x).
Qed.

(** a word in memory, after the conversion *)
Lemma val_ok s k : bytes_ok s -> lenN s = N.of_nat k -> le_val s < 256 ^ N.of_nat k.
Proof. intros B L. rewrite <- L. apply le_val_bound, B. Qed.
Lemma le64_val e s : bytes_ok s -> lenN s = 8 -> le64 e (val_of e s) = le_val s.
Proof.
  intros B L. destruct e; [reflexivity|]. cbn [le64 val_of].
  assert (BR : bytes_ok (rev s)) by (apply Forall_rev, B).
  assert (LR : lenN (rev s) = N.of_nat 8) by (unfold lenN in *; rewrite rev_length; lia).
  rewrite bswap64_ok by (exact (val_ok _ 8 BR LR)). rewrite le_bytes_le_val by assumption. rewrite rev_involutive. reflexivity.
Qed.
Lemma mem_le64 e w : w < 2 ^ 64 -> mem_of e 8 (le64 e w) = le_bytes 8 w.
Proof.
  intros H. destruct e; [reflexivity|]. cbn [mem_of le64]. rewrite bswap64_ok by exact H.
  rewrite le_bytes_le_val.
  - apply rev_involutive.
  - apply Forall_rev, bytes_ok_le_bytes.
  - unfold lenN. rewrite rev_length, le_bytes_length. reflexivity.
Qed.
Lemma mem_le16 e w : w < 2 ^ 16 -> uint16_le_on e w = [w mod 256; w / 256].
Proof.
  intros H. unfold uint16_le_on. assert (E : le_bytes 2 w = [w mod 256; w / 256]).
  { cbn [le_bytes]. change (2 ^ 16) with 65536 in H. rewrite (N.mod_small (w / 256) 256) by lia. reflexivity. }
  destruct e; [exact E|]. cbn [mem_of le16]. rewrite bswap16_ok by exact H. rewrite le_bytes_le_val.
  - rewrite rev_involutive. exact E.
  - apply Forall_rev, bytes_ok_le_bytes.
  - unfold lenN. rewrite rev_length, le_bytes_length. reflexivity.
Qed.

Lemma bf64_load_ok e src off : bytes_ok src -> off + 8 <= lenN src ->
  bf64_load_on e src off = Ok (le_val (takeN 8 (dropN off src))).
Proof.
  intros B H. unfold bf64_load_on. rewrite slice_ok by exact H. cbn [bind]. f_equal.
  assert (BS : bytes_ok (takeN 8 (dropN off src))) by (apply Forall_takeN, Forall_dropN, B).
  assert (LS : lenN (takeN 8 (dropN off src)) = 8) by (rewrite lenN_takeN, lenN_dropN; lia).
  destruct e; [reflexivity|]. exact (le64_val BigEndian _ BS LS).
Qed.
Lemma bf64_store_ok e w : w < 2 ^ 64 -> bf64_store_on e w = le_bytes 8 w.
Proof. intros H. unfold bf64_store_on. destruct e; [reflexivity|]. exact (mem_le64 BigEndian w H). Qed.

Lemma words_load_on_ok e b n src off : n mod 64 = 0 -> bytes_ok src -> off + n / 8 <= lenN src ->
  words_load_on e b n src off = words_load b n src off.
Proof.
  intros Hn B H. unfold words_load_on, words_load. f_equal. destruct e.
  - rewrite slice_ok by exact H. cbn [bind]. symmetry. rewrite (mapM_ext _ (fun i => Ok (le_val (takeN 8 (dropN (8 * i) (takeN (n / 8) (dropN off src))))))).
    + apply mapM_pure. reflexivity.
    + intros i Hi. apply In_Nrange in Hi. rewrite slice_ok by lia. cbn [bind]. do 2 f_equal.
      rewrite <- dropN_dropN. set (m := dropN off src).
      rewrite !takeN_dropN, takeN_takeN. do 2 f_equal. lia.
  - apply mapM_ext. intros i Hi. apply In_Nrange in Hi. rewrite slice_ok by lia. cbn [bind]. f_equal.
    apply le64_val; [apply Forall_takeN, Forall_dropN, B|]. rewrite lenN_takeN, lenN_dropN. lia.
Qed.
Lemma flat_map_take {A B} (f : A -> list B) c l : (forall x, In x l -> lenN (f x) = c) -> forall k, k <= lenN l ->
  takeN (c * k) (flat_map f l) = concat (map f (takeN k l)).
Proof.
  intros H k. revert l H. induction k as [|k IH] using N.peano_ind; intros l H Hk.
  - rewrite N.mul_0_r, !takeN_0. reflexivity.
  - destruct l as [|x l]; [rewrite lenN_nil in Hk; lia|]. rewrite lenN_cons in Hk.
    cbn [flat_map]. rewrite takeN_app_ge by (rewrite (H x (or_introl eq_refl)); lia).
    rewrite (H x (or_introl eq_refl)). replace (c * N.succ k - c) with (c * k) by lia.
    rewrite IH by (try lia; intros y Hy; apply H; right; exact Hy).
    replace (takeN (N.succ k) (x :: l)) with (x :: takeN k l) by (unfold takeN; rewrite N2Nat.inj_succ; reflexivity).
    reflexivity.
Qed.
Lemma words_store_on_ok e n v : n mod 64 = 0 -> Forall (fun w => w < 2 ^ 64) v -> n / 64 <= lenN v ->
  words_store_on e n v = words_store n v.
Proof.
  intros Hn B H. unfold words_store_on, words_store. destruct e.
  - assert (HS : mapM (fun i => let! w := aget v i in Ok (le_bytes 8 w)) (Nrange (n / 64)) = Ok (map (le_bytes 8) (takeN (n / 64) v))).
    { rewrite (mapM_ext _ (fun i => Ok (le_bytes 8 (nthN v i 0)))).
      - rewrite (mapM_pure _ (fun i => le_bytes 8 (nthN v i 0))) by reflexivity. f_equal. apply (list_ext []).
        + rewrite !lenN_map, lenN_Nrange, lenN_takeN. lia.
        + intros i Hi. rewrite lenN_map, lenN_Nrange in Hi. rewrite (nthN_map _ _ _ 0) by (rewrite lenN_Nrange; exact Hi).
          rewrite nthN_Nrange by exact Hi. rewrite (nthN_map _ _ _ 0) by (rewrite lenN_takeN; lia). rewrite nthN_takeN by exact Hi. reflexivity.
      - intros i Hi. apply In_Nrange in Hi. rewrite (aget_ok _ _ 0) by lia. reflexivity. }
    rewrite HS. cbn [bind].
    assert (C8 : forall x, In x v -> lenN (mem_of LittleEndian 8 x) = 8) by (intros; apply lenN_le_bytes).
    assert (LF : lenN (flat_map (mem_of LittleEndian 8) v) = 8 * lenN v).
    { clear - C8. induction v as [|x v IH]; [reflexivity|]. cbn [flat_map]. rewrite lenN_app, lenN_cons, IH, (C8 x (or_introl eq_refl)); [lia|].
      intros y Hy. apply C8. right. exact Hy. }
    rewrite slice_ok by lia. f_equal. rewrite dropN_0. replace (n / 8) with (8 * (n / 64)) by lia.
    apply flat_map_take; [exact C8|exact H].
  - f_equal. apply mapM_ext. intros i Hi. apply In_Nrange in Hi. rewrite (aget_ok _ _ 0) by lia. cbn [bind].
    f_equal. apply (mem_le64 BigEndian). rewrite Forall_forall in B. apply B, nthN_In. lia.
Qed.
