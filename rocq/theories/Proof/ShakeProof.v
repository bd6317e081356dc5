(** The sponge code computes SHAKE of FIPS 202 of the concatenation of the pieces absorbed. *)
From Verif.Model Require Import Sponge Hash.
From Verif.Spec Require Import KeccakSpec.
From Verif.Proof Require Import BaseProof PrgProof KeccakProof SpongeProof.
From Coq Require Import Lia ZifyBool ZifyNat ZifyN.
Ltac Zify.zify_post_hook ::= Z.div_mod_to_equations.

Definition perm (st : bytes) : bytes := match KeccakP1600_Permute_24rounds st with Ok st' => st' | UB => [] end.
Lemma perm_ok st : lenN st = 200 -> bytes_ok st ->
  KeccakP1600_Permute_24rounds st = Ok (perm st) /\ lenN (perm st) = 200 /\ bytes_ok (perm st).
Proof. intros HL HB. destruct (permute_ok st HL HB) as (st' & E & A & B & _). unfold perm. rewrite E. auto. Qed.
Lemma perm_bits st : lenN st = 200 -> bytes_ok st -> bits_of_bytes (perm st) = keccak_f (bits_of_bytes st).
Proof. intros HL HB. destruct (permute_ok st HL HB) as (st' & E & _ & _ & D). unfold perm. rewrite E. exact D. Qed.

Lemma bits_app a b : bits_of_bytes (a ++ b) = bits_of_bytes a ++ bits_of_bytes b.
Proof. unfold bits_of_bytes. apply flat_map_app. Qed.

(** *** padding *)
Definition padding (m : N) : bytes := xor_at (xor_at (zeros m) 0 [31]) (m - 1) [128].
Lemma padding_len m : 0 < m -> lenN (padding m) = m.
Proof.
  intros H. assert (L1 : forall b : N, lenN [b] = 1) by reflexivity. unfold padding. rewrite !xor_at_len; rewrite ?xor_at_len; rewrite ?L1, ?lenN_zeros; lia.
Qed.
Lemma padding_nth m i : i < m -> nthN (padding m) i 0 = N.lxor (if i =? 0 then 31 else 0) (if i =? m - 1 then 128 else 0).
Proof.
  intros H. assert (L1 : forall b : N, lenN [b] = 1) by reflexivity. unfold padding. rewrite xor_at_nth by (rewrite xor_at_len; rewrite ?L1, ?lenN_zeros; lia).
  rewrite xor_at_nth by (rewrite ?L1, ?lenN_zeros; lia). rewrite nthN_zeros, !L1, N.lxor_0_l.
  replace ((0 <=? i) && (i <? 0 + 1)) with (i =? 0) by lia. replace ((m - 1 <=? i) && (i <? m - 1 + 1)) with (i =? m - 1) by lia.
  f_equal.
  - destruct (i =? 0) eqn:E; [|reflexivity]. replace (i - 0) with 0 by lia. reflexivity.
  - destruct (i =? m - 1) eqn:E; [|reflexivity]. replace (i - (m - 1)) with 0 by lia. reflexivity.
Qed.
Lemma padding_bytes m : 0 < m -> bytes_ok (padding m).
Proof. intros H. unfold padding. repeat apply xor_at_bytes; [apply bytes_ok_zeros|repeat constructor|repeat constructor]. Qed.

Lemma xor_strings_len a b : lenN a = lenN b -> lenN (xor_strings a b) = lenN a.
Proof. intros H. unfold xor_strings, lenN in *. rewrite map_length, combine_length. lia. Qed.
Lemma xor_strings_bit a b n : lenN a = lenN b -> n < lenN a -> bit (xor_strings a b) n = xorb (bit a n) (bit b n).
Proof.
  intros H Hn. unfold bit, xor_strings. rewrite (nth_indep _ false (xorb (fst (false, false)) (snd (false, false)))) by (rewrite map_length, combine_length; unfold lenN in *; lia).
  rewrite (map_nth (fun p => xorb (fst p) (snd p))). rewrite combine_nth by (unfold lenN in *; lia). reflexivity.
Qed.
Lemma below_succ n : below (n + 1) = below n ++ [n].
Proof. rewrite !below_Nrange. apply Nrange_succ. Qed.
Lemma In_below i n : In i (below n) <-> i < n.
Proof. rewrite below_Nrange. apply In_Nrange. Qed.
Lemma bits_sub d a n : bits_of_bytes (takeN n (dropN a d)) = substring (bits_of_bytes d) (8 * a) (8 * n).
Proof.
  change (substring (bits_of_bytes d) (8 * a) (8 * n)) with (takeN (8 * n) (dropN (8 * a) (bits_of_bytes d))).
  assert (LA : lenN (takeN n (dropN a d)) = N.min n (lenN d - a)) by (rewrite lenN_takeN, lenN_dropN; reflexivity).
  apply bits_list_ext; [rewrite bits_length, LA, lenN_takeN, lenN_dropN, bits_length; lia|].
  intros k Hk. rewrite bits_length, LA in Hk. rewrite bits_bit, LA. replace (k <? 8 * N.min n (lenN d - a)) with true by lia.
  change (bit (takeN (8 * n) (dropN (8 * a) (bits_of_bytes d))) k) with (nthN (takeN (8 * n) (dropN (8 * a) (bits_of_bytes d))) k false).
  rewrite nthN_takeN by lia. rewrite nthN_dropN. rewrite bits_nth by lia. unfold sbit. rewrite nthN_takeN by lia. rewrite nthN_dropN.
  f_equal; [f_equal|]; lia.
Qed.
Lemma byte_of_bits_spec s k b : b < 256 -> (forall j, j < 8 -> bit s (8 * k + j) = N.testbit b j) -> byte_of_bits s k = b.
Proof.
  intros Hb H. unfold byte_of_bits. cbn [below N.to_nat map seq]. 
  change (below 8) with [0; 1; 2; 3; 4; 5; 6; 7]. cbn [fold_right]. rewrite !H by reflexivity. clear H.
  assert (F : forallb (fun b => (if N.testbit b 0 then 2 ^ 0 else 0) + ((if N.testbit b 1 then 2 ^ 1 else 0) + ((if N.testbit b 2 then 2 ^ 2 else 0) + ((if N.testbit b 3 then 2 ^ 3 else 0) +
     ((if N.testbit b 4 then 2 ^ 4 else 0) + ((if N.testbit b 5 then 2 ^ 5 else 0) + ((if N.testbit b 6 then 2 ^ 6 else 0) + ((if N.testbit b 7 then 2 ^ 7 else 0) + 0))))))) =? b) (Nrange 256) = true) by (vm_compute; reflexivity).
  rewrite forallb_forall in F. apply N.eqb_eq. apply F. apply In_Nrange, Hb.
Qed.
Lemma fold_ext {A B} (f g : A -> B -> A) l : (forall k, In k l -> forall z, f z k = g z k) -> forall z, fold_left f l z = fold_left g l z.
Proof.
  induction l as [|k l IH]; intros H z; [reflexivity|]. cbn [fold_left]. rewrite H by (left; reflexivity). apply IH. intros k' Hk'. apply H. right. exact Hk'.
Qed.
Local Opaque keccak_f.

Section Rate.
Variable rate : N.
Hypothesis Hr : 1 < rate < 200.
Notation feed := (SpongeProof.feed perm rate).
Notation pulls := (SpongeProof.pulls perm rate).
Notation pull := (SpongeProof.pull perm rate).
Notation good := (SpongeProof.good rate).

Lemma padding_bits L : 
  bits_of_bytes (padding (rate - L mod rate)) = [true; true; true; true] ++ pad10star1 (8 * rate) (8 * L + 4).
Proof using Hr.
  set (m := rate - L mod rate). assert (HM : 0 < m <= rate) by (subst m; pose proof (N.mod_lt L rate ltac:(lia)); lia).
  unfold pad10star1. set (j := (8 * rate * (8 * L + 4 + 2) - (8 * L + 4) - 2) mod (8 * rate)).
  assert (EJ : j = 8 * m - 6).
  { subst j. symmetry. pose proof (N.div_mod L rate ltac:(lia)) as DM. apply (N.mod_unique _ _ (8 * L + 6 - L / rate - 1)); [lia|]. subst m.
    pose proof (N.mod_lt L rate ltac:(lia)) as ML. set (q := L / rate) in *. set (t := L mod rate) in *. clearbody q t.
    assert (HQ : q <= L) by nia. nia. }
  clearbody j. subst j. clearbody m.
  assert (LR : lenN (repeat false (N.to_nat (8 * m - 6))) = 8 * m - 6) by (unfold lenN; rewrite repeat_length; lia).
  apply bits_list_ext.
  { rewrite bits_length, padding_len by lia. cbn [app]. rewrite !lenN_cons, lenN_app, LR. change (lenN [true]) with 1. lia. }
  intros n Hn. rewrite bits_length, padding_len in Hn by lia. rewrite bits_bit, padding_len by lia. replace (n <? 8 * m) with true by lia.
  unfold sbit. rewrite padding_nth by lia. rewrite N.lxor_spec.
  change (true :: repeat false (N.to_nat (8 * m - 6)) ++ [true]) with ([true] ++ repeat false (N.to_nat (8 * m - 6)) ++ [true]). rewrite app_assoc.
  change (bit (([true; true; true; true] ++ [true]) ++ repeat false (N.to_nat (8 * m - 6)) ++ [true]) n) with (nthN (([true; true; true; true] ++ [true]) ++ repeat false (N.to_nat (8 * m - 6)) ++ [true]) n false).
  change ([true; true; true; true] ++ [true]) with (repeat true 5).
  assert (B31 : forall i, i < 8 -> N.testbit 31 i = (i <? 5)).
  { intros i Hi. assert (Q : i = 0 \/ i = 1 \/ i = 2 \/ i = 3 \/ i = 4 \/ i = 5 \/ i = 6 \/ i = 7) by lia. destruct Q as [-> |[-> |[-> |[-> |[-> |[-> |[-> | ->]]]]]]]; reflexivity. }
  assert (B128 : forall i, i < 8 -> N.testbit 128 i = (i =? 7)).
  { intros i Hi. assert (Q : i = 0 \/ i = 1 \/ i = 2 \/ i = 3 \/ i = 4 \/ i = 5 \/ i = 6 \/ i = 7) by lia. destruct Q as [-> |[-> |[-> |[-> |[-> |[-> |[-> | ->]]]]]]]; reflexivity. }
  assert (L5 : lenN (repeat true 5) = 5) by reflexivity.
  assert (E1 : N.testbit (if n / 8 =? 0 then 31 else 0) (n mod 8) = (n <? 5)).
  { destruct (n / 8 =? 0) eqn:E; [rewrite B31 by lia; lia|]. rewrite N.bits_0. lia. }
  assert (E2 : N.testbit (if n / 8 =? m - 1 then 128 else 0) (n mod 8) = (n =? 8 * m - 1)).
  { destruct (n / 8 =? m - 1) eqn:E; [rewrite B128 by lia; lia|]. rewrite N.bits_0. lia. }
  rewrite E1, E2. destruct (N.lt_ge_cases n 5) as [Q|Q].
  - rewrite nthN_app_l by lia. rewrite nthN_repeat by lia. replace (n <? 5) with true by lia. replace (n =? 8 * m - 1) with false by lia. reflexivity.
  - rewrite nthN_app_r by lia. rewrite L5. replace (n <? 5) with false by lia. destruct (N.lt_ge_cases (n - 5) (8 * m - 6)) as [Q2|Q2].
    + rewrite nthN_app_l by lia. rewrite nthN_repeat by lia. replace (n =? 8 * m - 1) with false by lia. reflexivity.
    + rewrite nthN_app_r by lia. rewrite LR. replace (n - 5 - (8 * m - 6)) with 0 by lia. replace (n =? 8 * m - 1) with true by lia. reflexivity.
Qed.

(** *** absorbing whole blocks *)
Lemma block_bits st d : lenN st = 200 -> lenN d = rate ->
  bits_of_bytes (xor_at st 0 d) = xor_strings (bits_of_bytes st) (bits_of_bytes d ++ zero_bits (1600 - 8 * rate)).
Proof using Hr.
  intros HS HD. assert (LZ : lenN (zero_bits (1600 - 8 * rate)) = 1600 - 8 * rate) by (unfold zero_bits, lenN; rewrite repeat_length; lia).
  assert (L2 : lenN (bits_of_bytes st) = lenN (bits_of_bytes d ++ zero_bits (1600 - 8 * rate))) by (rewrite lenN_app, !bits_length, LZ; lia).
  apply bits_list_ext; [rewrite xor_strings_len, !bits_length, xor_at_len by (exact L2 || lia); reflexivity|].
  intros n Hn. rewrite bits_length, xor_at_len in Hn by lia. rewrite xor_strings_bit by (exact L2 || rewrite bits_length; lia).
  rewrite !bits_bit, xor_at_len by lia. replace (n <? 8 * lenN st) with true by lia.
  unfold sbit at 1. rewrite xor_at_nth by lia. rewrite N.lxor_spec. unfold sbit. f_equal.
  change (bit (bits_of_bytes d ++ zero_bits (1600 - 8 * rate)) n) with (nthN (bits_of_bytes d ++ zero_bits (1600 - 8 * rate)) n false).
  destruct (N.lt_ge_cases n (8 * rate)) as [Q|Q].
  - replace ((0 <=? n / 8) && (n / 8 <? 0 + lenN d)) with true by lia. rewrite nthN_app_l by (rewrite bits_length; lia).
    rewrite bits_nth by lia. unfold sbit. f_equal. f_equal. lia.
  - replace ((0 <=? n / 8) && (n / 8 <? 0 + lenN d)) with false by lia. rewrite N.bits_0. rewrite nthN_app_r by (rewrite bits_length; lia).
    symmetry. apply nthN_repeat. rewrite bits_length. lia.
Qed.


Lemma absorb_blocks q : forall D, lenN D = rate * q -> bytes_ok D ->
  exists st, fold_left feed D (zeros 200, 0) = (st, 0) /\ lenN st = 200 /\ bytes_ok st /\ bits_of_bytes st = absorbed (8 * rate) (bits_of_bytes D).
Proof using Hr.
  induction q as [|q IH] using N.peano_ind; intros D HL HB.
  - assert (D = []) by (apply lenN_0; lia). subst D. exists (zeros 200). split; [reflexivity|]. split; [apply lenN_zeros|]. split; [apply bytes_ok_zeros|].
    unfold absorbed. change (N.of_nat (length (bits_of_bytes [])) / (8 * rate)) with 0. reflexivity.
  - assert (HQ : rate * N.succ q = rate * q + rate) by lia. rewrite HQ in HL.
    destruct (IH (takeN (rate * q) D)) as (st & E1 & E2 & E3 & E4); [rewrite lenN_takeN; lia|apply Forall_takeN, HB|].
    assert (LD : lenN (dropN (rate * q) D) = rate) by (rewrite lenN_dropN; lia).
    assert (BD : bytes_ok (dropN (rate * q) D)) by apply Forall_dropN, HB.
    assert (L1 : lenN (xor_at st 0 (dropN (rate * q) D)) = 200) by (rewrite xor_at_len; lia).
    assert (B1 : bytes_ok (xor_at st 0 (dropN (rate * q) D))) by (apply xor_at_bytes; assumption).
    exists (perm (xor_at st 0 (dropN (rate * q) D))). destruct (perm_ok _ L1 B1) as (_ & L2 & B2). split; [|split; [exact L2|split; [exact B2|]]].
    + transitivity (fold_left feed (takeN (rate * q) D ++ dropN (rate * q) D) (zeros 200, 0)); [rewrite take_drop; reflexivity|].
      rewrite fold_left_app, E1. rewrite (feed_part _ perm perm_ok rate Hr) by (try lia; intros Z; rewrite Z in LD; change (lenN (@nil N)) with 0 in LD; lia).
      rewrite LD, N.add_0_l, N.eqb_refl. reflexivity.
    + rewrite perm_bits by assumption. rewrite block_bits by assumption. rewrite E4. unfold absorbed.
      change (N.of_nat (length (bits_of_bytes D))) with (lenN (bits_of_bytes D)). change (N.of_nat (length (bits_of_bytes (takeN (rate * q) D)))) with (lenN (bits_of_bytes (takeN (rate * q) D))).
      rewrite !bits_length, lenN_takeN. replace (N.min (rate * q) (lenN D)) with (rate * q) by lia. rewrite HL.
      replace (8 * (rate * q) / (8 * rate)) with q by (rewrite N.mul_assoc, N.mul_comm, N.div_mul by lia; reflexivity).
      replace (8 * (rate * q + rate) / (8 * rate)) with (q + 1) by (replace (8 * (rate * q + rate)) with ((q + 1) * (8 * rate)) by lia; rewrite N.div_mul by lia; reflexivity).
      rewrite below_succ, fold_left_app. cbn [fold_left].
      assert (SB : forall k, k < q -> substring (bits_of_bytes (takeN (rate * q) D)) (k * (8 * rate)) (8 * rate) = substring (bits_of_bytes D) (k * (8 * rate)) (8 * rate)).
      { intros k Hk. replace (k * (8 * rate)) with (8 * (rate * k)) by lia. rewrite <- !bits_sub. f_equal.
        apply (list_ext 0); [rewrite !lenN_takeN, !lenN_dropN, lenN_takeN; nia|]. intros i Hi. rewrite !lenN_takeN, !lenN_dropN in Hi.
        rewrite !nthN_takeN, !nthN_dropN by lia. apply nthN_takeN. nia. }
      apply (f_equal keccak_f), (f_equal2 xor_strings).
      * apply fold_ext. intros k Hk z. rewrite SB by (apply In_below, Hk). reflexivity.
      * apply (f_equal2 (@app bool)); [|reflexivity]. replace (q * (8 * rate)) with (8 * (rate * q)) by lia. rewrite <- bits_sub. rewrite takeN_all by lia. reflexivity.
Qed.

(** *** squeezing *)
Definition norm (s : bytes * N) : bytes * N := if snd s =? rate then (perm (fst s), 0) else s.
Lemma pull_norm s : pull s = (nthN (fst (norm s)) (snd (norm s)) 0, (fst (norm s), snd (norm s) + 1)).
Proof using. unfold SpongeProof.pull, norm. destruct (snd s =? rate); [reflexivity|]. destruct s; reflexivity. Qed.
Lemma pulls_norm k : forall st, norm (snd (pulls k (st, 0))) = (Nat.iter (N.to_nat (N.of_nat k / rate)) perm st, N.of_nat k mod rate).
Proof using Hr.
  induction k as [|k IH]; intros st.
  - cbn [SpongeProof.pulls snd]. unfold norm. cbn [snd]. replace (0 =? rate) with false by lia. change (N.of_nat 0) with 0. rewrite N.div_0_l, N.mod_0_l by lia. reflexivity.
  - replace (S k) with (k + 1)%nat by lia. rewrite pulls_app. cbn [snd]. rewrite pulls_S. cbn [SpongeProof.pulls snd]. rewrite pull_norm. cbn [snd]. rewrite IH. cbn [fst snd].
    unfold norm. cbn [fst snd]. replace (N.of_nat (k + 1)) with (N.of_nat k + 1) by lia. pose proof (N.mod_lt (N.of_nat k) rate ltac:(lia)) as ML. pose proof (N.div_mod (N.of_nat k) rate ltac:(lia)) as DM.
    destruct (N.of_nat k mod rate + 1 =? rate) eqn:E.
    + assert (E1 : (N.of_nat k + 1) / rate = N.of_nat k / rate + 1) by (symmetry; apply (N.div_unique _ _ _ 0); [lia|]; lia).
      assert (E2 : (N.of_nat k + 1) mod rate = 0) by (symmetry; apply (N.mod_unique _ _ (N.of_nat k / rate + 1)); [lia|]; lia).
      rewrite E1, E2. replace (N.to_nat (N.of_nat k / rate + 1)) with (S (N.to_nat (N.of_nat k / rate))) by lia. reflexivity.
    + assert (E1 : (N.of_nat k + 1) / rate = N.of_nat k / rate) by (symmetry; apply (N.div_unique _ _ _ (N.of_nat k mod rate + 1)); [lia|]; lia).
      assert (E2 : (N.of_nat k + 1) mod rate = N.of_nat k mod rate + 1) by (symmetry; apply (N.mod_unique _ _ (N.of_nat k / rate)); [lia|]; lia).
      rewrite E1, E2. reflexivity.
Qed.
Lemma pulls_nth n k st : k < N.of_nat n -> nthN (fst (pulls n (st, 0))) k 0 = nthN (Nat.iter (N.to_nat (k / rate)) perm st) (k mod rate) 0.
Proof using Hr.
  intros H. replace n with (N.to_nat k + S (n - N.to_nat k - 1))%nat by lia. rewrite pulls_app. cbn [fst].
  assert (LK : lenN (fst (pulls (N.to_nat k) (st, 0))) = k) by (unfold lenN; rewrite pulls_length; lia).
  rewrite nthN_app_r by lia. rewrite LK, N.sub_diag, pulls_S. cbn [fst]. rewrite nthN_cons_0, pull_norm. cbn [fst]. rewrite pulls_norm. cbn [fst snd]. rewrite N2Nat.id. reflexivity.
Qed.
Lemma iter_ok k st : lenN st = 200 -> bytes_ok st -> lenN (Nat.iter k perm st) = 200 /\ bytes_ok (Nat.iter k perm st) /\ bits_of_bytes (Nat.iter k perm st) = Nat.iter k keccak_f (bits_of_bytes st).
Proof using.
  intros HL HB. induction k as [|k (A & B & C)]; [auto|]. cbn [Nat.iter nat_rect]. destruct (perm_ok _ A B) as (_ & D & E). split; [exact D|split; [exact E|]].
  change (nat_rect (fun _ => bytes) st (fun _ => perm) k) with (Nat.iter k perm st). rewrite perm_bits by assumption. rewrite C. reflexivity.
Qed.

Lemma squeezed_bit S d n : lenN S = 1600 -> n < d -> bit (squeezed (8 * rate) S d) n = bit (Nat.iter (N.to_nat (n / (8 * rate))) keccak_f S) (n mod (8 * rate)).
Proof using Hr.
  intros HS Hn. unfold squeezed. set (bl := fun k => firstn (N.to_nat (8 * rate)) (Nat.iter (N.to_nat k) keccak_f S)).
  assert (LB : forall k, lenN (bl k) = 8 * rate).
  { intros k. change (bl k) with (takeN (8 * rate) (Nat.iter (N.to_nat k) keccak_f S)). rewrite lenN_takeN.
    assert (LI : forall j, lenN (Nat.iter j keccak_f S) = 1600) by (induction j as [|j IHj]; [exact HS|]; cbn; apply keccak_f_length, IHj). rewrite LI. lia. }
  rewrite below_Nrange. change (map bl (Nrange (d / (8 * rate) + 1))) with (tab (d / (8 * rate) + 1) bl).
  change (bit (firstn (N.to_nat d) (concat (tab (d / (8 * rate) + 1) bl))) n) with (nthN (takeN d (concat (tab (d / (8 * rate) + 1) bl))) n false).
  rewrite nthN_takeN by exact Hn. rewrite (concat_blocks_nth false bl (8 * rate)) by (try exact LB; try lia; pose proof (N.div_mod d (8 * rate) ltac:(lia)); pose proof (N.mod_lt d (8 * rate) ltac:(lia)); nia).
  change (nthN (takeN (8 * rate) (Nat.iter (N.to_nat (n / (8 * rate))) keccak_f S)) (n mod (8 * rate)) false = nthN (Nat.iter (N.to_nat (n / (8 * rate))) keccak_f S) (n mod (8 * rate)) false).
  apply nthN_takeN. apply N.mod_lt. lia.
Qed.


Lemma squeeze_bytes st n : lenN st = 200 -> bytes_ok st ->
  fst (pulls (N.to_nat n) (st, 0)) = map (byte_of_bits (squeezed (8 * rate) (bits_of_bytes st) (8 * n))) (below n).
Proof using Hr.
  intros HL HB. assert (LP : lenN (fst (pulls (N.to_nat n) (st, 0))) = n) by (unfold lenN; rewrite pulls_length; lia).
  apply (list_ext 0); [rewrite lenN_map, below_Nrange, lenN_Nrange; exact LP|]. intros i Hi. rewrite LP in Hi. rewrite pulls_nth by lia.
  rewrite (nthN_map _ _ _ 0) by (rewrite below_Nrange, lenN_Nrange; exact Hi). rewrite below_Nrange, nthN_Nrange by exact Hi.
  destruct (iter_ok (N.to_nat (i / rate)) st HL HB) as (LI & BI & CI). pose proof (N.mod_lt i rate ltac:(lia)) as IM.
  symmetry. apply byte_of_bits_spec; [refine (proj1 (Forall_forall _ _) BI _ (nthN_In _ _ 0 _)); rewrite LI; clear - IM Hr; lia|].
  intros j Hj. rewrite squeezed_bit by (rewrite ?bits_length; lia).
  pose proof (N.div_mod i rate ltac:(lia)) as DM.
  assert (Q1 : (8 * i + j) / (8 * rate) = i / rate) by (symmetry; apply (N.div_unique _ _ _ (8 * (i mod rate) + j)); lia).
  assert (Q2 : (8 * i + j) mod (8 * rate) = 8 * (i mod rate) + j) by (symmetry; apply (N.mod_unique _ _ (i / rate)); lia).
  rewrite Q1, Q2, <- CI, bits_bit, LI.
  assert (QL : (8 * (i mod rate) + j <? 8 * 200) = true) by (apply N.ltb_lt; clear - IM Hj Hr; lia). rewrite QL. unfold sbit.
  replace ((8 * (i mod rate) + j) / 8) with (i mod rate) by (apply (N.div_unique _ _ _ j); lia). replace ((8 * (i mod rate) + j) mod 8) with j by (apply (N.mod_unique _ _ (i mod rate)); lia). reflexivity.
Qed.
End Rate.
