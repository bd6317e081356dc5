(** The key schedule of the constraint system: closed form of the forward direction. *)
From Verif.Model Require Import Aes FaestAes.
From Verif.Spec Require Import AesSpec OwfSpec ConstraintSpec ConstraintMap UHashSpec.
From Verif.Proof Require Import BaseProof PolyProof FieldProof EmbedProof AesProof PrgProof UHashProof ClaimProof DefectProof WireProof ConsProof.
From Coq Require Import Lia ZifyBool ZifyNat ZifyN.
Ltac Zify.zify_post_hook ::= Z.div_mod_to_equations.

(** number of S-box words before word j *)
Definition cnt (nk j : N) : N := lenN (filter (is_sub nk) (nums nk j)).

Lemma nums_succ a b : a <= b -> nums a (b + 1) = nums a b ++ [b].
Proof.
  intros H. unfold nums. replace (N.to_nat (b + 1 - a)) with (N.to_nat (b - a) + 1)%nat by lia.
  rewrite seq_app, map_app. cbn [seq map]. do 2 f_equal. lia.
Qed.
Lemma cnt_succ nk j : nk <= j -> cnt nk (j + 1) = cnt nk j + (if is_sub nk j then 1 else 0).
Proof.
  intros H. unfold cnt. rewrite nums_succ by exact H. rewrite filter_app, lenN_app. cbn [filter].
  destruct (is_sub nk j); reflexivity.
Qed.
Lemma cnt_0 nk : cnt nk nk = 0.
Proof. unfold cnt, nums. rewrite N.sub_diag. reflexivity. Qed.
Lemma cnt_mono nk i j : nk <= i -> i <= j -> cnt nk i <= cnt nk j.
Proof.
  intros H1. induction j as [|j IH] using N.peano_ind; intros H2; [replace i with 0 by lia; lia|].
  destruct (N.eq_dec i (N.succ j)) as [->|E]; [lia|]. rewrite <- N.add_1_r, cnt_succ by lia.
  specialize (IH ltac:(lia)). destruct (is_sub nk j); lia.
Qed.

(** cell i of word j; words have [sz] cells *)
Fixpoint kf (nk sz : N) (X : N -> N) (fuel : nat) (j i : N) : N :=
  match fuel with
  | O => 0
  | S f =>
      if j <? nk then X (sz * j + i)
      else if is_sub nk j then X (sz * (nk + cnt nk j) + i)
      else N.lxor (kf nk sz X f (j - nk) i) (kf nk sz X f (j - 1) i)
  end.
Definition kw (nk sz : N) (X : N -> N) (j i : N) : N := kf nk sz X (S (N.to_nat j)) j i.
Definition KW (nk sz : N) (X : N -> N) (q : N) : N := kw nk sz X (q / sz) (q mod sz).

Lemma kf_fuel nk sz X i : 0 < nk -> forall f g j, (N.to_nat j < f)%nat -> (N.to_nat j < g)%nat ->
  kf nk sz X f j i = kf nk sz X g j i.
Proof.
  intros Hnk. induction f as [|f IH]; intros g j Hf Hg; [lia|]. destruct g as [|g]; [lia|]. cbn [kf].
  destruct (N.ltb_spec j nk); [reflexivity|]. destruct (is_sub nk j); [reflexivity|]. f_equal; apply IH; lia.
Qed.
Lemma kw_eq nk sz X j i : 0 < nk -> kw nk sz X j i =
  if j <? nk then X (sz * j + i)
  else if is_sub nk j then X (sz * (nk + cnt nk j) + i)
  else N.lxor (kw nk sz X (j - nk) i) (kw nk sz X (j - 1) i).
Proof.
  intros Hnk. unfold kw at 1. cbn [kf]. destruct (N.ltb_spec j nk); [reflexivity|].
  destruct (is_sub nk j); [reflexivity|]. unfold kw. f_equal; apply kf_fuel; lia.
Qed.
Lemma KW_eq nk sz X q j i : q = sz * j + i -> i < sz -> KW nk sz X q = kw nk sz X j i.
Proof.
  intros -> Hi. unfold KW. rewrite (N.mul_comm sz), N.div_add_l, N.div_small, N.add_0_r by lia.
  rewrite N.add_comm, N.mod_add, N.mod_small by lia. reflexivity.
Qed.

Lemma T_kf F (HB : big_field F) D (HD : D < 2 ^ f_n F) nk sz q v s : (forall i, T F D (q i) (v i) (s i)) ->
  forall f j i, T F D (kf nk sz q f j i) (kf nk sz v f j i) (kf nk sz s f j i).
Proof.
  intros H. induction f as [|f IH]; intros j i; cbn [kf]; [apply T_0; assumption|].
  destruct (j <? nk); [apply H|]. destruct (is_sub nk j); [apply H|]. apply T_add; auto.
Qed.
Lemma T_KW F (HB : big_field F) D (HD : D < 2 ^ f_n F) nk sz q v s i : (forall i, T F D (q i) (v i) (s i)) ->
  T F D (KW nk sz q i) (KW nk sz v i) (KW nk sz s i).
Proof. intros H. apply T_kf; assumption. Qed.

(** bytes and their bits *)
Lemma kf_bits nk W b : carries W b -> forall f j r i, r < 4 -> i < 8 ->
  kf nk 4 b f j r < 256 /\ kf nk 32 W f j (8 * r + i) = bitw (kf nk 4 b f j r) i.
Proof.
  intros H. induction f as [|f IH]; intros j r i Hr Hi; cbn [kf]; [split; [reflexivity|]; unfold bitw; rewrite N.bits_0; reflexivity|].
  destruct (j <? nk); [|destruct (is_sub nk j)].
  - split; [apply H|]. rewrite <- (proj2 (H _)) by exact Hi. f_equal. lia.
  - split; [apply H|]. rewrite <- (proj2 (H _)) by exact Hi. f_equal. lia.
  - split; [apply lxor_lt8; apply (IH _ r i Hr Hi)|]. rewrite bitw_lxor. f_equal; apply IH; assumption.
Qed.
Lemma KW_carries nk W b : carries W b -> carries (KW nk 32 W) (KW nk 4 b).
Proof.
  intros H q. unfold KW, kw. split.
  - apply (kf_bits nk W b H _ _ _ 0); [apply N.mod_lt; discriminate|reflexivity].
  - intros i Hi. replace ((8 * q + i) / 32) with (q / 4) by lia.
    replace ((8 * q + i) mod 32) with (8 * (q mod 4) + i) by lia.
    apply kf_bits; [exact H|apply N.mod_lt; discriminate|exact Hi].
Qed.

(** * The specification *)
Lemma at_xor_words a b r : lenN a = lenN b -> at_ 0 (xor_words a b) r = N.lxor (at_ 0 a r) (at_ 0 b r).
Proof.
  unfold xor_words. rewrite map_combine_zipw, !at_nthN. apply nthN_xor.
Qed.

Section Spec.
Variable nk : N.
Hypothesis Hnk : 0 < nk.
Variable w : list N.
Lemma claimed_at n : forall ws, nk <= lenN ws ->
  (forall j, j < lenN ws -> lenN (at_ [] ws j) = 4) ->
  (forall j r, j < lenN ws -> r < 4 -> at_ 0 (at_ [] ws j) r = kw nk 4 (at_ 0 w) j r) ->
  4 * (nk + cnt nk (lenN ws + N.of_nat n)) <= lenN w ->
  forall j r, j < lenN ws + N.of_nat n -> r < 4 ->
    lenN (at_ [] (claimed_words nk n ws (dropN (4 * (nk + cnt nk (lenN ws))) w)) j) = 4 /\
    at_ 0 (at_ [] (claimed_words nk n ws (dropN (4 * (nk + cnt nk (lenN ws))) w)) j) r = kw nk 4 (at_ 0 w) j r.
Proof.
  induction n as [|n IH]; intros ws HL H4 HW HC j r Hj Hr; cbn [claimed_words].
  - split; [apply H4; lia|]. apply HW; [lia|exact Hr].
  - change (N.of_nat (length ws)) with (lenN ws).
    pose proof (cnt_mono nk (lenN ws + 1) (lenN ws + N.of_nat (S n)) ltac:(lia) ltac:(lia)) as HM.
    pose proof (cnt_succ nk (lenN ws) HL) as HS.
    assert (L1 : forall x : list N, lenN (ws ++ [x]) = lenN ws + 1) by (intros; rewrite lenN_app; reflexivity).
    destruct (is_sub nk (lenN ws)) eqn:ES.
    + change (firstn 4 ?x) with (takeN 4 x). change (skipn 4 ?x) with (dropN 4 x).
      rewrite dropN_dropN.
      replace (4 * (nk + cnt nk (lenN ws)) + 4) with (4 * (nk + cnt nk (lenN ws + 1))) by lia.
      rewrite <- (L1 (takeN 4 (dropN (4 * (nk + cnt nk (lenN ws))) w))). apply IH; try (rewrite ?L1; lia); try exact Hr.
      * intros k Hk. rewrite L1 in Hk. rewrite at_nthN. destruct (N.eq_dec k (lenN ws)) as [->|E].
        -- rewrite nthN_app_r, N.sub_diag by lia. change (nthN [?x] 0 []) with x.
           rewrite lenN_takeN, lenN_dropN. lia.
        -- rewrite nthN_app_l, <- at_nthN by lia. apply H4. lia.
      * intros k q Hk Hq. rewrite L1 in Hk. rewrite (at_nthN [] (_ ++ _)). destruct (N.eq_dec k (lenN ws)) as [->|E].
        -- rewrite nthN_app_r, N.sub_diag by lia. change (nthN [?x] 0 []) with x.
           rewrite kw_eq, ES by exact Hnk. destruct (N.ltb_spec (lenN ws) nk); [lia|].
           rewrite !at_nthN, nthN_takeN, nthN_dropN by exact Hq. reflexivity.
        -- rewrite nthN_app_l, <- (at_nthN []) by lia. apply HW; lia.
      * rewrite L1. replace (lenN ws + 1 + N.of_nat n) with (lenN ws + N.of_nat (S n)) by lia. exact HC.
    + replace (cnt nk (lenN ws)) with (cnt nk (lenN ws + 1)) by lia.
      set (x := xor_words (at_ [] ws (lenN ws - nk)) (at_ [] ws (lenN ws - 1))).
      rewrite <- (L1 x). apply IH; try (rewrite ?L1; lia); try exact Hr.
      * intros k Hk. rewrite L1 in Hk. rewrite at_nthN. destruct (N.eq_dec k (lenN ws)) as [->|E].
        -- rewrite nthN_app_r, N.sub_diag by lia. change (nthN [x] 0 []) with x. unfold x, xor_words.
           rewrite map_combine_zipw, lenN_xor, H4 by (rewrite ?H4 by lia; lia). reflexivity.
        -- rewrite nthN_app_l, <- at_nthN by lia. apply H4. lia.
      * intros k q Hk Hq. rewrite L1 in Hk. rewrite (at_nthN [] (_ ++ _)). destruct (N.eq_dec k (lenN ws)) as [->|E].
        -- rewrite nthN_app_r, N.sub_diag by lia. change (nthN [x] 0 []) with x. unfold x.
           rewrite kw_eq, ES by exact Hnk. destruct (N.ltb_spec (lenN ws) nk); [lia|].
           rewrite at_xor_words by (rewrite !H4 by lia; reflexivity). rewrite !HW by lia. reflexivity.
        -- rewrite nthN_app_l, <- (at_nthN []) by lia. apply HW; lia.
      * rewrite L1. replace (lenN ws + 1 + N.of_nat n) with (lenN ws + N.of_nat (S n)) by lia. exact HC.
Qed.
End Spec.

Lemma schedule_at R w : 0 < Nk R -> Nk R <= Nb R * (Nr R + 1) ->
  4 * (Nk R + cnt (Nk R) (Nb R * (Nr R + 1))) <= lenN w ->
  forall j r, j < Nb R * (Nr R + 1) -> r < 4 ->
    lenN (at_ [] (schedule R w) j) = 4 /\ at_ 0 (at_ [] (schedule R w) j) r = kw (Nk R) 4 (at_ 0 w) j r.
Proof.
  intros Hnk HL HW j r Hj Hr. unfold schedule.
  set (ws := map (key_word w) (nums 0 (Nk R))).
  assert (L0 : lenN ws = Nk R) by (unfold ws; rewrite lenN_map, nums_0, lenN_Nrange; reflexivity).
  assert (A0 : forall k, k < Nk R -> at_ [] ws k = key_word w k).
  { intros k Hk. unfold ws. rewrite at_nthN, nums_0. fold (tab (Nk R) (key_word w)). apply nthN_tab, Hk. }
  change (skipn (N.to_nat (4 * Nk R)) w) with (dropN (4 * Nk R) w).
  replace (4 * Nk R) with (4 * (Nk R + cnt (Nk R) (lenN ws))) by (rewrite L0, cnt_0; lia).
  assert (LE : lenN ws + N.of_nat (N.to_nat (Nb R * (Nr R + 1) - Nk R)) = Nb R * (Nr R + 1)) by lia.
  apply claimed_at; try assumption; try (rewrite ?LE; lia).
  - intros k Hk. rewrite A0 by lia. reflexivity.
  - intros k q Hk Hq. rewrite A0 by lia. rewrite kw_eq by exact Hnk. destruct (N.ltb_spec k (Nk R)); [|lia].
    unfold key_word. assert (E : q = 0 \/ q = 1 \/ q = 2 \/ q = 3) by lia.
    destruct E as [->|[->|[->| ->]]]; [rewrite N.add_0_r|..]; reflexivity.
Qed.

(** * The model *)
Section Forward.
Variable p : param.
Variable R : rijndael.
Hypothesis Hnk : 0 < Nk R.
Hypothesis HNb : Nb R = 4.
Hypothesis HpR : p_R p = Nr R.
Hypothesis HpN : p_Nwd p = Nk R.
Hypothesis HpL : p_lambda p = 32 * Nk R.
Let nk := Nk R.
Let total := 4 * (Nr R + 1).
Hypothesis Htot : nk <= total.

Lemma kw_head sz X j i : j < nk -> kw nk sz X j i = X (sz * j + i).
Proof. intros H. rewrite kw_eq by exact Hnk. destruct (N.ltb_spec j nk); [reflexivity|lia]. Qed.
Lemma kw_sub sz X j i : nk <= j -> is_sub nk j = true -> kw nk sz X j i = X (sz * (nk + cnt nk j) + i).
Proof. intros H E. rewrite kw_eq, E by exact Hnk. destruct (N.ltb_spec j nk); [lia|reflexivity]. Qed.
Lemma kw_lin sz X j i : nk <= j -> is_sub nk j = false ->
  kw nk sz X j i = N.lxor (kw nk sz X (j - nk) i) (kw nk sz X (j - 1) i).
Proof. intros H E. rewrite kw_eq, E by exact Hnk. destruct (N.ltb_spec j nk); [lia|reflexivity]. Qed.

Lemma ks_forward_ok v V : holds v (32 * (nk + cnt nk total)) V ->
  exists vk, ks_forward p v = Ok vk /\ lenN vk = 32 * total /\ holds vk (32 * total) (KW nk 32 V).
Proof.
  intros [HV1 HV2]. unfold ks_forward. rewrite HpR, HpN, HpL. fold nk total.
  rewrite slice_ok by lia. cbn [bind].
  destruct (foldM_Nfromto_inv (ks_forward_step p v)
    (fun j s => lenN (fst s) = 32 * j /\ snd s = 32 * (nk + cnt nk j) /\
                forall q, q < 32 * j -> nthN (fst s) q 0 = KW nk 32 V q) nk total
    (takeN (32 * nk) (dropN 0 v), 32 * nk) Htot) as ([vk iw] & E & A1 & A2 & A3).
  - cbn [fst snd]. rewrite cnt_0, lenN_takeN, lenN_dropN. split; [lia|]. split; [lia|].
    intros q Hq. rewrite nthN_takeN, nthN_dropN, HV2 by lia. rewrite (KW_eq _ _ _ _ (q / 32) (q mod 32)) by lia.
    rewrite kw_head by lia. f_equal. lia.
  - intros j [out iw] Hj (B1 & B2 & B3). cbn [fst snd] in *. unfold ks_forward_step.
    rewrite B1, N.eqb_refl. cbn [guard bind]. rewrite HpN. fold nk. change (is_sbox_word nk j) with (is_sub nk j).
    pose proof (cnt_succ nk j ltac:(lia)) as CS. pose proof (cnt_mono nk (j + 1) total ltac:(lia) ltac:(lia)) as CM.
    destruct (is_sub nk j) eqn:ES.
    + rewrite slice_ok by lia. cbn [bind]. eexists. split; [reflexivity|]. cbn [fst snd].
      split; [rewrite lenN_app, lenN_takeN, lenN_dropN; lia|]. split; [lia|].
      intros q Hq. destruct (N.lt_ge_cases q (32 * j)) as [Hl|Hg].
      * rewrite nthN_app_l by lia. apply B3, Hl.
      * rewrite nthN_app_r, nthN_takeN, nthN_dropN, HV2 by lia. rewrite (KW_eq _ _ _ _ j (q - 32 * j)) by lia.
        rewrite kw_sub by (assumption || lia). f_equal. lia.
    + rewrite (mapM_tab _ (fun i => kw nk 32 V j i)).
      * cbn [bind]. eexists. split; [reflexivity|]. cbn [fst snd].
        split; [rewrite lenN_app, lenN_tab; lia|]. split; [lia|].
        intros q Hq. destruct (N.lt_ge_cases q (32 * j)) as [Hl|Hg].
        -- rewrite nthN_app_l by lia. apply B3, Hl.
        -- rewrite nthN_app_r, nthN_tab by lia. rewrite (KW_eq _ _ _ _ j (q - 32 * j)) by lia. f_equal. lia.
      * intros i Hi. rewrite !(aget_ok out _ 0) by lia. cbn [bind]. rewrite !B3 by lia.
        rewrite (KW_eq _ _ _ _ (j - nk) i), (KW_eq _ _ _ _ (j - 1) i) by lia.
        rewrite (kw_lin 32 V j) by (assumption || lia). reflexivity.
  - cbn [fst snd] in *. rewrite E. cbn [bind fst]. exists vk. split; [reflexivity|]. split; [exact A1|].
    split; [lia|exact A3].
Qed.

Lemma foldM_8 {S} (f : S -> N -> res S) (P : N -> S -> Prop) s :
  P 0 s -> (forall r s, r < 4 -> P r s -> exists s', f s (8 * r) = Ok s' /\ P (r + 1) s') ->
  exists s', foldM f [0; 8; 16; 24] s = Ok s' /\ P 4 s'.
Proof.
  intros H0 HS. destruct (HS 0 s ltac:(lia) H0) as (s1 & E1 & P1). destruct (HS 1 s1 ltac:(lia) P1) as (s2 & E2 & P2).
  destruct (HS 2 s2 ltac:(lia) P2) as (s3 & E3 & P3). destruct (HS 3 s3 ltac:(lia) P3) as (s4 & E4 & P4).
  exists s4. split; [|exact P4]. cbn [foldM]. change (8 * 0) with 0 in E1. change (8 * 1) with 8 in E2.
  change (8 * 2) with 16 in E3. change (8 * 3) with 24 in E4. rewrite E1. cbn [bind]. rewrite E2. cbn [bind].
  rewrite E3. cbn [bind]. rewrite E4. reflexivity.
Qed.

Lemma ks_forward_1_ok w : 4 * (nk + cnt nk total) <= lenN w ->
  exists k, ks_forward_1 p w = Ok k /\ lenN k = 4 * total /\
            forall q, q < 4 * total -> nthN k q 0 = KW nk 4 (at_ 0 w) q.
Proof.
  intros HV. unfold ks_forward_1. rewrite HpR, HpN, HpL. fold nk total. cbv zeta.
  replace (32 * nk / 8) with (4 * nk) by lia. replace ((Nr R + 1) * 128 / 8) with (4 * total) by (unfold total; lia).
  rewrite slice_ok by lia. cbn [bind].
  destruct (foldM_Nfromto_inv (ks_forward_1_step p w)
    (fun j s => lenN (fst s) = 4 * total /\ snd s = 32 * (nk + cnt nk j) /\
                (forall q, q < 4 * j -> nthN (fst s) q 0 = KW nk 4 (at_ 0 w) q) /\
                (forall q, 4 * j <= q -> nthN (fst s) q 0 = 0)) nk total
    (takeN (4 * nk) (dropN 0 w) ++ zeros (4 * total - 4 * nk), 32 * nk) Htot) as ([vk iw] & E & A1 & A2 & A3 & A4).
  - cbn [fst snd]. assert (L0 : lenN (takeN (4 * nk) (dropN 0 w)) = 4 * nk) by (rewrite lenN_takeN, lenN_dropN; lia).
    rewrite cnt_0, lenN_app, lenN_zeros, L0. split; [lia|]. split; [lia|]. split.
    + intros q Hq. rewrite nthN_app_l, nthN_takeN, nthN_dropN by lia. rewrite (KW_eq _ _ _ _ (q / 4) (q mod 4)) by lia.
      rewrite kw_head, at_nthN by lia. f_equal. lia.
    + intros q Hq. rewrite nthN_app_r by lia. apply nthN_zeros.
  - intros j [out iw] Hj (B1 & B2 & B3 & B4). cbn [fst snd] in *. unfold ks_forward_1_step.
    rewrite HpN. fold nk. change (is_sbox_word nk j) with (is_sub nk j).
    pose proof (cnt_succ nk j ltac:(lia)) as CS. pose proof (cnt_mono nk (j + 1) total ltac:(lia) ltac:(lia)) as CM.
    destruct (is_sub nk j) eqn:ES.
    + replace (iw / 8) with (4 * (nk + cnt nk j)) by lia. replace (32 * j / 8) with (4 * j) by lia.
      rewrite slice_ok by lia. cbn [bind].
      set (c := takeN 4 (dropN (4 * (nk + cnt nk j)) w)).
      assert (Lc : lenN c = 4) by (unfold c; rewrite lenN_takeN, lenN_dropN; lia).
      destruct (blit out (4 * j) c) as [out'|] eqn:EB; [|rewrite blit_ok in EB by lia; discriminate]. cbn [bind].
      eexists. split; [reflexivity|]. cbn [fst snd].
      split; [rewrite (blit_len _ _ _ _ EB); exact B1|]. split; [lia|]. split.
      * intros q Hq. rewrite (nthN_blit _ _ _ _ q 0 EB), Lc.
        destruct (N.leb_spec (4 * j) q) as [Hg|Hl]; cbn [andb]; [|apply B3, Hl].
        destruct (N.ltb_spec q (4 * j + 4)); [|lia]. unfold c. rewrite nthN_takeN, nthN_dropN by lia.
        rewrite (KW_eq _ _ _ _ j (q - 4 * j)) by lia.
        rewrite kw_sub, at_nthN by (assumption || lia). f_equal.
      * intros q Hq. rewrite (nthN_blit _ _ _ _ q 0 EB), Lc.
        destruct (N.leb_spec (4 * j) q); cbn [andb]; [|lia]. destruct (N.ltb_spec q (4 * j + 4)); [lia|].
        apply B4. lia.
    + match goal with |- context [foldM ?f [0; 8; 16; 24] out] =>
        destruct (foldM_8 f (fun r o => lenN o = 4 * total /\
          (forall q, q < 4 * j + r -> nthN o q 0 = KW nk 4 (at_ 0 w) q) /\
          (forall q, 4 * j + r <= q -> nthN o q 0 = 0)) out) as (out' & EO & C1 & C2 & C3) end.
      * split; [exact B1|]. split; intros q Hq; [apply B3; lia|apply B4; lia].
      * intros r o Hr (C1 & C2 & C3).
        replace ((32 * (j - nk) + 8 * r) / 8) with (4 * (j - nk) + r) by lia.
        replace ((32 * (j - 1) + 8 * r) / 8) with (4 * (j - 1) + r) by lia.
        replace ((32 * j + 8 * r) / 8) with (4 * j + r) by lia.
        rewrite !(aget_ok o _ 0) by lia. cbn [bind]. rewrite (C3 (4 * j + r)), N.lor_0_l by lia.
        rewrite !C2 by lia. rewrite aset_ok by lia. eexists. split; [reflexivity|].
        rewrite lenN_upd. split; [exact C1|].
        assert (EK : N.lxor (KW nk 4 (at_ 0 w) (4 * (j - nk) + r)) (KW nk 4 (at_ 0 w) (4 * (j - 1) + r)) =
                     KW nk 4 (at_ 0 w) (4 * j + r)).
        { rewrite (KW_eq _ _ _ _ (j - nk) r), (KW_eq _ _ _ _ (j - 1) r), (KW_eq _ _ _ (4 * j + r) j r) by lia.
          rewrite (kw_lin 4 _ j) by (assumption || lia). reflexivity. }
        rewrite EK. split; intros q Hq.
        -- rewrite nthN_upd by lia. destruct (N.eqb_spec q (4 * j + r)) as [->|]; [reflexivity|]. apply C2. lia.
        -- destruct (N.lt_ge_cases q (lenN o)) as [Hl|Hg].
           ++ rewrite nthN_upd by exact Hl. destruct (N.eqb_spec q (4 * j + r)) as [->|]; [lia|]. apply C3. lia.
           ++ apply nthN_default. rewrite lenN_upd. exact Hg.
      * rewrite EO. cbn [bind]. eexists. split; [reflexivity|]. cbn [fst snd]. split; [exact C1|]. split; [lia|].
        split; intros q Hq; [apply C2; lia|apply C3; lia].
  - cbn [fst snd] in *. rewrite E. cbn [bind fst]. exists vk. auto.
Qed.
End Forward.
