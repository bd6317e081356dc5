(** The sponge absorbs and squeezes byte by byte, however the calls split the data. *)
From Verif.Model Require Import Sponge Hash.
From Verif.Proof Require Import BaseProof.
From Coq Require Import Lia ZifyBool ZifyNat ZifyN.
Ltac Zify.zify_post_hook ::= Z.div_mod_to_equations.

(** [st] with [data] added from position [k] on *)
Definition xor_at (st : bytes) (k : N) (data : bytes) : bytes :=
  takeN k st ++ xor_bytes (takeN (lenN data) (dropN k st)) data ++ dropN (k + lenN data) st.
Lemma xor_at_len st k data : k + lenN data <= lenN st -> lenN (xor_at st k data) = lenN st.
Proof.
  intros H. unfold xor_at. rewrite !lenN_app. rewrite lenN_xor by (rewrite lenN_takeN, lenN_dropN; lia). rewrite !lenN_takeN, !lenN_dropN. lia.
Qed.
Lemma xor_at_nth st k data j : k + lenN data <= lenN st ->
  nthN (xor_at st k data) j 0 = N.lxor (nthN st j 0) (if (k <=? j) && (j <? k + lenN data) then nthN data (j - k) 0 else 0).
Proof.
  intros H. unfold xor_at. assert (L1 : lenN (takeN k st) = k) by (rewrite lenN_takeN; lia).
  assert (L2 : lenN (takeN (lenN data) (dropN k st)) = lenN data) by (rewrite lenN_takeN, lenN_dropN; lia).
  destruct (N.lt_ge_cases j k) as [Hj|Hj].
  - rewrite nthN_app_l by lia. rewrite nthN_takeN by exact Hj. replace (k <=? j) with false by lia. symmetry. apply N.lxor_0_r.
  - rewrite nthN_app_r by lia. rewrite L1. destruct (N.lt_ge_cases j (k + lenN data)) as [Hj2|Hj2].
    + rewrite nthN_app_l by (rewrite lenN_xor by exact L2; lia). rewrite nthN_xor by exact L2. rewrite nthN_takeN, nthN_dropN by lia.
      replace ((k <=? j) && (j <? k + lenN data)) with true by lia. replace (k + (j - k)) with j by lia. reflexivity.
    + rewrite nthN_app_r by (rewrite lenN_xor by exact L2; lia). rewrite lenN_xor by exact L2. rewrite L2, nthN_dropN.
      replace ((k <=? j) && (j <? k + lenN data)) with false by lia. rewrite N.lxor_0_r. f_equal. lia.
Qed.
Lemma add_bytes st k data : k + lenN data <= lenN st -> SnP_AddBytes st data k = Ok (xor_at st k data).
Proof.
  intros H. unfold SnP_AddBytes. rewrite slice_ok by exact H. cbn [bind].
  assert (L : lenN (xor_bytes (takeN (lenN data) (dropN k st)) data) = lenN data) by (rewrite lenN_xor; rewrite lenN_takeN, lenN_dropN; lia).
  rewrite blit_ok by lia. rewrite L. reflexivity.
Qed.
Lemma xor_at_bytes st k data : bytes_ok st -> bytes_ok data -> bytes_ok (xor_at st k data).
Proof.
  intros H1 H2. unfold xor_at. repeat apply bytes_ok_app; [apply Forall_takeN, H1| |apply Forall_dropN, H1].
  apply bytes_ok_xor; [apply Forall_takeN, Forall_dropN, H1|exact H2].
Qed.
Lemma upd_xor_at st k b : k < lenN st -> upd st (N.to_nat k) (N.lxor (nthN st k 0) b) = xor_at st k [b].
Proof.
  intros H. assert (L1 : lenN [b] = 1) by reflexivity. apply (list_ext 0); [rewrite lenN_upd, xor_at_len by lia; reflexivity|]. intros j Hj. rewrite lenN_upd in Hj.
  rewrite xor_at_nth by lia. rewrite nthN_upd by exact Hj. rewrite L1. destruct (N.eq_dec j k) as [->|E].
  - rewrite N.eqb_refl. replace ((k <=? k) && (k <? k + 1)) with true by lia. rewrite N.sub_diag. reflexivity.
  - replace (j =? k) with false by lia. replace ((k <=? j) && (j <? k + 1)) with false by lia. symmetry. apply N.lxor_0_r.
Qed.

Section Bytes.
Variable permute : bytes -> res bytes.
Variable f : bytes -> bytes.
Hypothesis Hf : forall st, lenN st = 200 -> bytes_ok st -> permute st = Ok (f st) /\ lenN (f st) = 200 /\ bytes_ok (f st).
Variable rate : N.
Hypothesis Hr : 1 < rate < 200.

(** absorbing one byte *)
Definition feed (s : bytes * N) (b : N) : bytes * N :=
  let '(st, k) := s in
  let st' := xor_at st k [b] in if k + 1 =? rate then (f st', 0) else (st', k + 1).
Definition good (s : bytes * N) : Prop := lenN (fst s) = 200 /\ bytes_ok (fst s) /\ snd s < rate.

Lemma feed_good s b : good s -> byte_ok b -> good (feed s b).
Proof using Hf Hr.
  destruct s as [st k]. intros (HL & HB & Hk) Hb. cbn [fst snd] in *. unfold feed. assert (L1 : lenN [b] = 1) by reflexivity.
  assert (LX : lenN (xor_at st k [b]) = 200) by (rewrite xor_at_len; lia).
  assert (BX : bytes_ok (xor_at st k [b])) by (apply xor_at_bytes; [exact HB|constructor; [exact Hb|constructor]]).
  destruct (k + 1 =? rate) eqn:E; unfold good; cbn [fst snd]; [|split; [exact LX|split; [exact BX|lia]]].
  destruct (Hf _ LX BX) as (_ & A & B). split; [exact A|split; [exact B|lia]].
Qed.
Lemma feeds_good data : forall s, good s -> bytes_ok data -> good (fold_left feed data s).
Proof using Hf Hr.
  induction data as [|b data IH]; intros s HS HB; [exact HS|]. inversion HB; subst. cbn [fold_left]. apply IH; [apply feed_good; assumption|assumption].
Qed.
Lemma feed_index s b : snd (feed s b) = if snd s + 1 =? rate then 0 else snd s + 1.
Proof using. destruct s as [st k]. unfold feed. cbn [snd]. destruct (_ =? _); reflexivity. Qed.
Lemma feeds_index data : forall s, snd s < rate -> snd (fold_left feed data s) = (snd s + lenN data) mod rate.
Proof using Hf Hr.
  induction data as [|b data IH]; intros s Hs.
  - cbn [fold_left]. rewrite lenN_nil, N.add_0_r, N.mod_small by exact Hs. reflexivity.
  - cbn [fold_left]. rewrite IH by (rewrite feed_index; destruct (_ =? _) eqn:E; lia). rewrite feed_index, lenN_cons. destruct (_ =? _) eqn:E.
    + rewrite N.add_0_l. replace (snd s + (lenN data + 1)) with (lenN data + 1 * rate) by lia. rewrite N.mod_add by lia. reflexivity.
    + f_equal. lia.
Qed.

Lemma feed_part data : forall st k, lenN st = 200 -> k < rate -> k + lenN data <= rate -> data <> [] ->
  fold_left feed data (st, k) =
  if k + lenN data =? rate then (f (xor_at st k data), 0) else (xor_at st k data, k + lenN data).
Proof using Hf Hr.
  induction data as [|b data IH]; intros st k HL Hk HD HN; [contradiction|]. clear HN. rewrite lenN_cons in HD |- *. cbn [fold_left feed].
  assert (L1 : lenN [b] = 1) by reflexivity.
  destruct data as [|c data].
  - change (lenN (@nil N)) with 0; rewrite N.add_0_l. cbn [fold_left]. reflexivity.
  - assert (D0 : 0 < lenN (c :: data)) by (rewrite lenN_cons; lia). replace (k + 1 =? rate) with false by lia.
    assert (LX : lenN (xor_at st k [b]) = 200) by (rewrite xor_at_len; lia).
    rewrite IH by (lia || discriminate). replace (k + 1 + lenN (c :: data)) with (k + (lenN (c :: data) + 1)) by lia.
    assert (E : xor_at (xor_at st k [b]) (k + 1) (c :: data) = xor_at st k (b :: c :: data)).
    { pose proof (lenN_cons b (c :: data)) as LL. apply (list_ext 0); [rewrite !xor_at_len; lia|]. intros j Hj. rewrite !xor_at_len in Hj by lia.
      rewrite !xor_at_nth by lia. rewrite N.lxor_assoc. f_equal. rewrite L1, LL. destruct (N.eq_dec j k) as [->|Ej].
      - replace ((k <=? k) && (k <? k + 1)) with true by lia. replace ((k + 1 <=? k) && (k <? k + 1 + lenN (c :: data))) with false by lia.
        replace ((k <=? k) && (k <? k + (lenN (c :: data) + 1))) with true by lia. rewrite N.sub_diag. apply N.lxor_0_r.
      - replace ((k <=? j) && (j <? k + 1)) with false by lia. rewrite N.lxor_0_l.
        replace ((k <=? j) && (j <? k + (lenN (c :: data) + 1))) with ((k + 1 <=? j) && (j <? k + 1 + lenN (c :: data))) by lia.
        destruct ((k + 1 <=? j) && (j <? k + 1 + lenN (c :: data))) eqn:Q; [|reflexivity].
        replace (j - k) with (j - (k + 1) + 1) by lia. symmetry. apply nthN_cons_S. }
    rewrite E. reflexivity.
Qed.

Definition of_pair (s : bytes * N) (sq : bool) : sponge := mkSponge (fst s) rate (snd s) sq.

Lemma absorb_full_ok fuel : forall st data, lenN data <= N.of_nat fuel -> lenN st = 200 -> bytes_ok st -> bytes_ok data ->
  exists st' rest, absorb_full permute fuel st rate data = Ok (st', rest) /\ lenN st' = 200 /\ bytes_ok st' /\ bytes_ok rest /\ lenN rest < rate /\
    fold_left feed data (st, 0) = fold_left feed rest (st', 0).
Proof using Hf Hr.
  induction fuel as [|fuel IH]; intros st data Hfu HL HB HD; cbn [absorb_full].
  - replace (rate <=? lenN data) with false by lia. exists st, data. repeat (split; [assumption || reflexivity || lia|]). reflexivity.
  - destruct (rate <=? lenN data) eqn:E.
    2:{ exists st, data. repeat (split; [assumption || reflexivity || lia|]). reflexivity. }
    assert (LT : lenN (takeN rate data) = rate) by (rewrite lenN_takeN; lia).
    rewrite add_bytes by lia. cbn [bind].
    assert (LX : lenN (xor_at st 0 (takeN rate data)) = 200) by (rewrite xor_at_len; lia).
    assert (BX : bytes_ok (xor_at st 0 (takeN rate data))) by (apply xor_at_bytes; [exact HB|apply Forall_takeN, HD]).
    destruct (Hf _ LX BX) as (-> & L2 & B2). cbn [bind].
    destruct (IH (f (xor_at st 0 (takeN rate data))) (dropN rate data)) as (st' & rest & E1 & E2 & E3 & E4 & E5 & E6).
    + rewrite lenN_dropN. lia.
    + exact L2.
    + exact B2.
    + apply Forall_dropN, HD.
    + exists st', rest. repeat (split; [assumption|]). rewrite <- E6. rewrite <- (take_drop rate data) at 1. rewrite fold_left_app.
      rewrite feed_part; [|exact HL|lia|lia|]. 2:{ intros Q. rewrite Q in LT. rewrite lenN_nil in LT. lia. }
      replace (0 + lenN (takeN rate data) =? rate) with true by lia. reflexivity.
Qed.

(** from the start of a block, everything is absorbed *)
Lemma absorb_start fuel st data sq : (data = [] \/ (1 <= fuel)%nat /\ lenN data < rate \/ (2 <= fuel)%nat) -> lenN st = 200 -> bytes_ok st -> bytes_ok data -> 
  absorb_loop permute fuel (mkSponge st rate 0 sq) data = Ok (of_pair (fold_left feed data (st, 0)) sq).
Proof using Hf Hr.
  intros Hfu HL HB HD. destruct data as [|b data]; [destruct fuel; reflexivity|]. destruct Hfu as [Hfu|Hfu]; [discriminate|].
  set (d := b :: data) in *.
  assert (HP : forall fu d, d <> [] -> lenN d < rate -> forall st, lenN st = 200 ->
     absorb_loop permute (S fu) (mkSponge st rate 0 sq) d = Ok (of_pair (fold_left feed d (st, 0)) sq)).
  { clear - Hr Hf. intros fu d HN HL2 st0 HS. destruct d as [|c d]; [contradiction|]. set (d' := c :: d) in *. cbn [absorb_loop]. unfold d' at 1. fold d'. cbn [sp_rate sp_idx sp_state sp_squeezing].
    replace ((0 =? 0) && (rate <=? lenN d')) with false by lia. unfold u32. rewrite (N.mod_small (lenN d')) by lia. rewrite N.add_0_r, N.mod_small by lia.
    replace (rate <? lenN d') with false by lia. assert (D0 : lenN d' <> 0) by (unfold d'; rewrite lenN_cons; lia).
    replace (lenN d' =? 0) with false by lia. cbn [negb guard bind]. rewrite takeN_all by lia. rewrite add_bytes by lia. cbn [bind]. rewrite N.add_0_l.
    replace (lenN d' =? rate) with false by lia. rewrite dropN_all by lia. rewrite feed_part by (assumption || lia). rewrite N.add_0_l.
    replace (lenN d' =? rate) with false by lia. destruct fu; reflexivity. }
  destruct (N.lt_ge_cases (lenN d) rate) as [HS|HS].
  - destruct fuel as [|fu]; [lia|]. apply HP; [discriminate|exact HS|exact HL].
  - destruct fuel as [|fu]; [lia|]. cbn [absorb_loop]. unfold d at 1. fold d. cbn [sp_rate sp_idx sp_state sp_squeezing].
    replace ((0 =? 0) && (rate <=? lenN d)) with true by lia.
    destruct (absorb_full_ok (length d) st d) as (st' & rest & E1 & E2 & E3 & E4 & E5 & E6); [unfold lenN; lia|assumption|assumption|assumption|].
    rewrite E1. cbn [bind fst snd]. rewrite E6. destruct rest as [|c rest]; [destruct fu; reflexivity|]. destruct fu as [|fu]; [lia|].
    apply HP; [discriminate|exact E5|exact E2].
Qed.

Lemma absorb_ok s data sq : good s -> bytes_ok data -> absorb_defined rate (snd s) (lenN data) = true ->
  absorb_loop permute (length data) (of_pair s sq) data = Ok (of_pair (fold_left feed data s) sq).
Proof using Hf Hr.
  destruct s as [st k]. intros (HL & HB & Hk) HD HA. cbn [fst snd] in *. unfold of_pair at 1. cbn [fst snd].
  destruct data as [|b data]; [reflexivity|]. set (d := b :: data) in *. assert (D0 : lenN d <> 0) by (unfold d; rewrite lenN_cons; lia).
  assert (FL : length d = N.to_nat (lenN d)) by apply length_lenN.
  destruct (N.eq_dec k 0) as [->|K0].
  { apply absorb_start; try assumption. right. lia. }
  rewrite FL. replace (N.to_nat (lenN d)) with (S (N.to_nat (lenN d - 1))) by lia. cbn [absorb_loop]. unfold d at 1. fold d. cbn [sp_rate sp_idx sp_state sp_squeezing].
  replace (k =? 0) with false by lia. cbn [andb]. unfold u32. unfold absorb_defined in HA. replace (k =? 0) with false in HA by lia. cbn [orb] in HA. cbv zeta in HA.
  set (r := lenN d mod 2 ^ 32) in *. assert (RL : r <= lenN d) by (subst r; apply N.mod_le; discriminate). assert (RB : r < 2 ^ 32) by (subst r; apply N.mod_lt; discriminate).
  assert (HP : rate - k <= lenN d -> (rate <? (r + k) mod 2 ^ 32 = true \/ r = rate - k) ->
    (let! _ := guard (negb ((if rate <? (r + k) mod 2 ^ 32 then rate - k else r) =? 0)) in
     let! st0 := SnP_AddBytes st (takeN (if rate <? (r + k) mod 2 ^ 32 then rate - k else r) d) k in
     if k + (if rate <? (r + k) mod 2 ^ 32 then rate - k else r) =? rate
     then let! st1 := permute st0 in
        absorb_loop permute (N.to_nat (lenN d - 1)) (mkSponge st1 rate 0 sq) (dropN (if rate <? (r + k) mod 2 ^ 32 then rate - k else r) d)
     else absorb_loop permute (N.to_nat (lenN d - 1)) (mkSponge st0 rate (k + (if rate <? (r + k) mod 2 ^ 32 then rate - k else r)) sq)
            (dropN (if rate <? (r + k) mod 2 ^ 32 then rate - k else r) d)) = Ok (of_pair (fold_left feed d (st, k)) sq)).
  { intros HPL HPR. assert (EP : (if rate <? (r + k) mod 2 ^ 32 then rate - k else r) = rate - k) by (destruct HPR as [-> | ->]; [reflexivity|destruct (_ <? _); reflexivity]).
    rewrite EP. replace (rate - k =? 0) with false by lia. cbn [negb guard bind]. assert (LT : lenN (takeN (rate - k) d) = rate - k) by (rewrite lenN_takeN; lia).
    rewrite add_bytes by lia. cbn [bind]. replace (k + (rate - k) =? rate) with true by lia.
    assert (LX : lenN (xor_at st k (takeN (rate - k) d)) = 200) by (rewrite xor_at_len; lia).
    assert (BX : bytes_ok (xor_at st k (takeN (rate - k) d))) by (apply xor_at_bytes; [exact HB|apply Forall_takeN, HD]).
    destruct (Hf _ LX BX) as (-> & L2 & B2). cbn [bind]. rewrite absorb_start; [|rewrite <- (N2Nat.id (lenN (dropN (rate - k) d))) || idtac|exact L2|exact B2|apply Forall_dropN, HD].
    - f_equal. f_equal. transitivity (fold_left feed (takeN (rate - k) d ++ dropN (rate - k) d) (st, k)); [|rewrite take_drop; reflexivity]. rewrite fold_left_app. rewrite (feed_part (takeN (rate - k) d) st k); [|exact HL|lia|lia|].
      2:{ intros Q. rewrite Q, lenN_nil in LT. lia. }
      rewrite LT. replace (k + (rate - k) =? rate) with true by lia. reflexivity.
    - destruct (N.eq_dec (lenN d) (rate - k)) as [Q|Q]; [left; apply lenN_0; rewrite lenN_dropN; lia|right].
      destruct (N.lt_ge_cases (lenN (dropN (rate - k) d)) rate) as [Q2|Q2]; [left|right]; rewrite lenN_dropN in *; lia. }
  destruct (rate <? (r + k) mod 2 ^ 32) eqn:E1.
  { apply HP; [|left; reflexivity]. pose proof (N.mod_le (r + k) (2 ^ 32) ltac:(discriminate)). lia. }
  cbn [orb] in HA. apply andb_prop in HA. destruct HA as [HA1 HA2]. destruct (N.eq_dec (r + k) rate) as [ER|ER].
  { apply HP; [lia|right; lia]. }
  assert (ED : lenN d < 2 ^ 32) by (apply orb_prop in HA2; destruct HA2 as [Q|Q]; [apply N.ltb_lt in Q; exact Q|apply N.eqb_eq in Q; contradiction]).
  assert (Er : r = lenN d) by (subst r; apply N.mod_small, ED). clear HP. rewrite Er in *. clearbody r.
  replace (lenN d =? 0) with false by lia. cbn [negb guard bind]. rewrite takeN_all by lia. rewrite add_bytes by lia. cbn [bind].
  replace (k + lenN d =? rate) with false by lia. rewrite dropN_all by lia. rewrite feed_part; [|exact HL|lia|lia|discriminate]. replace (k + lenN d =? rate) with false by lia.
  destruct (N.to_nat (lenN d - 1)); reflexivity.
Qed.

Lemma absorb_step fu st k sq d : k <> 0 -> d <> [] ->
  absorb_loop permute (S fu) (mkSponge st rate k sq) d =
  (let p := if rate <? (lenN d mod 2 ^ 32 + k) mod 2 ^ 32 then rate - k else lenN d mod 2 ^ 32 in
   let! _ := guard (negb (p =? 0)) in
   let! st0 := SnP_AddBytes st (takeN p d) k in
   if k + p =? rate
   then let! st1 := permute st0 in absorb_loop permute fu (mkSponge st1 rate 0 sq) (dropN p d)
   else absorb_loop permute fu (mkSponge st0 rate (k + p) sq) (dropN p d)).
Proof using.
  intros HK HD. destruct d as [|b d]; [contradiction|]. cbn [absorb_loop sp_rate sp_idx sp_state sp_squeezing]. apply N.eqb_neq in HK. rewrite HK. reflexivity.
Qed.

(** only the low 32 bits of the length count: nothing left to absorb, the loop does not end *)
Lemma absorb_stuck fu st k sq d : k <> 0 -> k <= rate -> d <> [] -> lenN d mod 2 ^ 32 = 0 ->
  absorb_loop permute (S fu) (mkSponge st rate k sq) d = UB.
Proof using Hr.
  intros HK HR HD HM. rewrite absorb_step by assumption. rewrite HM, N.add_0_l. cbv zeta.
  assert (K2 : k < 2 ^ 32) by (apply N.le_lt_trans with 200; [clear - HR Hr; lia|reflexivity]). rewrite (N.mod_small _ _ K2).
  apply N.ltb_ge in HR. rewrite HR. reflexivity.
Qed.

Lemma absorb_undefined s data sq : good s -> absorb_defined rate (snd s) (lenN data) = false ->
  absorb_loop permute (length data) (of_pair s sq) data = UB.
Proof using Hr.
  destruct s as [st k]. intros (HL & HB & Hk) HA. unfold of_pair. cbn [fst snd] in *.
  unfold absorb_defined in HA. cbv zeta in HA. apply orb_false_elim in HA. destruct HA as [HA HA3]. apply orb_false_elim in HA. destruct HA as [HA1 HA2].
  apply N.eqb_neq in HA1. apply N.ltb_ge in HA2.
  assert (DN : data <> []).
  { intros ->. change (lenN (@nil N) mod 2 ^ 32) with 0 in HA3. rewrite N.add_0_l in HA3. apply N.lt_le_incl, N.leb_le in Hk. rewrite Hk in HA3. discriminate. }
  assert (D0 : lenN data <> 0) by (intros Q; apply DN, lenN_0, Q). 
  assert (FL : exists fu, length data = S fu) by (destruct data; [contradiction|eexists; reflexivity]). destruct FL as (fu & FL). rewrite FL.
  rewrite absorb_step by assumption. set (r := lenN data mod 2 ^ 32) in *. cbv zeta. pose proof HA2 as HA2'. apply N.ltb_ge in HA2'. rewrite HA2'.
  assert (RL : r <= lenN data) by (subst r; apply N.mod_le; discriminate).
  assert (LT : lenN (takeN r data) = r) by (rewrite lenN_takeN; apply N.min_l, RL).
  destruct (r =? 0) eqn:R0; [reflexivity|]. apply N.eqb_neq in R0. cbn [negb guard bind].
  destruct (N.le_gt_cases (r + k) rate) as [Q|Q].
  - pose proof Q as Q'. apply N.leb_le in Q'. rewrite Q' in HA3. cbn [andb] in HA3. apply orb_false_elim in HA3. destruct HA3 as [HA4 HA5].
    apply N.ltb_ge in HA4. rewrite (N.add_comm k r), HA5. apply N.eqb_neq in HA5.
    assert (LD : lenN (dropN r data) = lenN data - r) by apply lenN_dropN.
    assert (EM : lenN (dropN r data) mod 2 ^ 32 = 0).
    { rewrite LD. subst r. rewrite (N.div_mod (lenN data) (2 ^ 32)) at 1 by discriminate. rewrite N.add_sub, N.mul_comm. apply N.mod_mul. discriminate. }
    assert (R2 : r < 2 ^ 32) by (subst r; apply N.mod_lt; discriminate).
    assert (NE : dropN r data <> []).
    { intros Z. rewrite Z in LD. change (lenN (@nil N)) with 0 in LD. apply (N.lt_irrefl (2 ^ 32)). apply N.le_lt_trans with (lenN data); [exact HA4|].
      apply N.le_lt_trans with r; [|exact R2]. apply N.sub_0_le. symmetry. exact LD. }
    assert (F1 : exists fu', fu = S fu').
    { destruct fu as [|fu]; [|eexists; reflexivity]. exfalso. assert (lenN data = 1) by (unfold lenN; rewrite FL; reflexivity). rewrite H in HA4. apply HA4. reflexivity. }
    destruct F1 as (fu' & ->). clearbody r. rewrite add_bytes by (clear - HL LT Q Hr; lia). cbn [bind].
    apply absorb_stuck; [clear - R0 HA1; lia|exact Q|exact NE|exact EM].
  - clearbody r. unfold SnP_AddBytes. rewrite LT. assert (QQ : 200 < k + r).
    { destruct (N.lt_ge_cases (r + k) (2 ^ 32)) as [Q2|Q2].
      - rewrite N.mod_small in HA2 by exact Q2. exfalso. exact (N.lt_irrefl _ (N.lt_le_trans _ _ _ Q HA2)).
      - clear - Q2. change (2 ^ 32) with 4294967296 in Q2. lia. }
    rewrite slice_UB by (clear - QQ HL R0; lia). reflexivity.
Qed.

(** squeezing one byte *)
Definition pull (s : bytes * N) : N * (bytes * N) :=
  let '(st, k) := if snd s =? rate then (f (fst s), 0) else s in (nthN st k 0, (st, k + 1)).
Fixpoint pulls (n : nat) (s : bytes * N) : bytes * (bytes * N) :=
  match n with
  | O => ([], s)
  | S n => let '(b, s) := pull s in let '(bs, s) := pulls n s in (b :: bs, s)
  end.
Definition fine (s : bytes * N) : Prop := lenN (fst s) = 200 /\ bytes_ok (fst s) /\ snd s <= rate.

Lemma pull_fine s : fine s -> fine (snd (pull s)).
Proof using Hf Hr.
  destruct s as [st k]. intros (HL & HB & Hk). cbn [fst snd] in *. unfold pull. cbn [fst snd]. destruct (k =? rate) eqn:E; unfold fine; cbn [fst snd].
  - destruct (Hf _ HL HB) as (_ & A & B). split; [exact A|split; [exact B|lia]].
  - split; [exact HL|split; [exact HB|lia]].
Qed.
Lemma pulls_S n s : pulls (S n) s = (fst (pull s) :: fst (pulls n (snd (pull s))), snd (pulls n (snd (pull s)))).
Proof using. cbn [pulls]. destruct (pull s) as [b s1]. cbn [fst snd]. destruct (pulls n s1). reflexivity. Qed.
Lemma pulls_fine n : forall s, fine s -> fine (snd (pulls n s)).
Proof using Hf Hr. induction n as [|n IH]; intros s HS; [exact HS|]. rewrite pulls_S. cbn [snd]. apply IH, pull_fine, HS. Qed.
Lemma pulls_length n : forall s, length (fst (pulls n s)) = n.
Proof using. induction n as [|n IH]; intros s; [reflexivity|]. rewrite pulls_S. cbn [fst length]. rewrite IH. reflexivity. Qed.
Lemma pulls_app a : forall b s, pulls (a + b) s = (fst (pulls a s) ++ fst (pulls b (snd (pulls a s))), snd (pulls b (snd (pulls a s)))).
Proof using.
  induction a as [|a IH]; intros b s; [cbn; destruct (pulls b s); reflexivity|]. cbn [Nat.add]. rewrite !pulls_S, IH. reflexivity.
Qed.
Lemma pulls_part n : forall st k, lenN st = 200 -> k + N.of_nat n <= rate ->
  pulls n (st, k) = (takeN (N.of_nat n) (dropN k st), (st, k + N.of_nat n)).
Proof using Hf Hr.
  induction n as [|n IH]; intros st k HL Hk.
  - change (N.of_nat 0) with 0. rewrite takeN_0, N.add_0_r. reflexivity.
  - rewrite pulls_S. assert (EP : pull (st, k) = (nthN st k 0, (st, k + 1))) by (unfold pull; cbn [fst snd]; replace (k =? rate) with false by lia; reflexivity).
    rewrite EP. cbn [fst snd]. rewrite IH by lia. cbn [fst snd]. f_equal; [|f_equal; lia].
    apply (list_ext 0); [rewrite lenN_cons, !lenN_takeN, !lenN_dropN; lia|]. intros j Hj. rewrite lenN_cons, lenN_takeN, lenN_dropN in Hj.
    rewrite (nthN_takeN (dropN k st)) by lia. rewrite nthN_dropN. destruct (N.eq_dec j 0) as [->|Ej]; [rewrite nthN_cons_0, N.add_0_r; reflexivity|].
    replace j with (j - 1 + 1) at 1 by lia. rewrite nthN_cons_S, nthN_takeN by lia. rewrite nthN_dropN. f_equal. lia.
Qed.
Lemma pulls_block st n : lenN st = 200 -> bytes_ok st -> (1 <= n)%nat -> pulls n (st, rate) = pulls n (f st, 0).
Proof using Hf Hr.
  intros HL HB Hn. destruct n as [|n]; [lia|]. rewrite !pulls_S. assert (E : pull (st, rate) = pull (f st, 0)).
  { unfold pull. cbn [fst snd]. rewrite N.eqb_refl. replace (0 =? rate) with false by lia. reflexivity. }
  rewrite E. reflexivity.
Qed.

Lemma squeeze_full_ok fuel : forall st n, n <= N.of_nat fuel -> lenN st = 200 -> bytes_ok st ->
  exists st' out n', squeeze_full permute fuel st rate n = Ok (st', out, n') /\ lenN st' = 200 /\ bytes_ok st' /\ n' < rate /\ n' <= n /\
    (rate <= n -> n' < n) /\ 
    forall m, pulls (N.to_nat n + m) (st, rate) = (out ++ fst (pulls (N.to_nat n' + m) (st', rate)), snd (pulls (N.to_nat n' + m) (st', rate))).
Proof using Hf Hr.
  induction fuel as [|fuel IH]; intros st n Hfu HL HB; cbn [squeeze_full].
  - replace (rate <=? n) with false by lia. exists st, [], n. repeat (split; [assumption || reflexivity || lia|]). intros m. destruct (pulls _ _); reflexivity.
  - destruct (rate <=? n) eqn:E.
    2:{ exists st, [], n. repeat (split; [assumption || reflexivity || lia|]). intros m. destruct (pulls _ _); reflexivity. }
    destruct (Hf _ HL HB) as (-> & L2 & B2). cbn [bind]. unfold SnP_ExtractBytes. rewrite slice_ok by lia. cbn [bind].
    destruct (IH (f st) (n - rate)) as (st' & out & n' & E1 & E2 & E3 & E4 & E5 & E6 & E7); [lia|exact L2|exact B2|].
    rewrite E1. cbn [bind fst snd]. exists st', (takeN rate (dropN 0 (f st)) ++ out), n'. repeat (split; [assumption || reflexivity || lia|]). intros m.
    replace (N.to_nat n + m)%nat with (N.to_nat rate + (N.to_nat (n - rate) + m))%nat by lia.
    rewrite pulls_app. rewrite pulls_block by (assumption || lia). rewrite pulls_part by lia. cbn [fst snd]. rewrite !N2Nat.id, N.add_0_l, E7. cbn [fst snd]. rewrite app_assoc. reflexivity.
Qed.

Lemma squeeze_ok fuel : forall s n sq, n <= N.of_nat fuel -> n + rate <= 2 ^ 32 -> fine s -> 
  squeeze_loop permute fuel (of_pair s sq) n = Ok (of_pair (snd (pulls (N.to_nat n) s)) sq, fst (pulls (N.to_nat n) s)).
Proof using Hf Hr.
  induction fuel as [|fuel IH]; intros s n sq Hfu Hn HS; cbn [squeeze_loop].
  - replace (n =? 0) with true by lia. replace n with 0 by lia. reflexivity.
  - destruct (n =? 0) eqn:E0; [replace n with 0 by lia; reflexivity|]. destruct s as [st k]. destruct HS as (HL & HB & Hk). cbn [fst snd] in *.
    change (of_pair (st, k) sq) with (mkSponge st rate k sq). cbn [sp_rate sp_idx sp_state sp_squeezing].
    destruct ((k =? rate) && (rate <=? n)) eqn:E1.
    + apply andb_prop in E1. destruct E1 as [E1 E2]. apply N.eqb_eq in E1. subst k. 
      destruct (squeeze_full_ok (N.to_nat n) st n) as (st' & out & n' & F1 & F2 & F3 & F4 & F5 & F6 & F7); [lia|exact HL|exact HB|].
      rewrite F1. cbn [bind fst snd]. specialize (F6 ltac:(lia)).
      change (mkSponge st' rate rate sq) with (of_pair (st', rate) sq). rewrite IH; [|lia|lia|unfold fine; cbn [fst snd]; split; [exact F2|split; [exact F3|lia]]].
      cbn [bind fst snd]. specialize (F7 O). rewrite !Nat.add_0_r in F7. rewrite F7. reflexivity.
    + assert (HH : exists st1 k1, (if k =? rate then let! st0 := permute st in Ok (st0, 0) else Ok (st, k)) = Ok (st1, k1) /\ lenN st1 = 200 /\ bytes_ok st1 /\ k1 < rate /\
        forall m, (1 <= m)%nat -> pulls m (st, k) = pulls m (st1, k1)).
      { destruct (k =? rate) eqn:E2.
        - apply N.eqb_eq in E2. subst k. destruct (Hf _ HL HB) as (-> & L2 & B2). cbn [bind]. exists (f st), 0. repeat (split; [assumption || reflexivity || lia|]). 
          intros m Hm. apply pulls_block; assumption.
        - exists st, k. repeat (split; [assumption || reflexivity || lia|]). reflexivity. }
      destruct HH as (st1 & k1 & -> & L1 & B1 & K1 & HP). cbn [bind]. rewrite HP by lia. clear HP. unfold u32. rewrite (N.mod_small n) by lia. rewrite N.mod_small by lia.
      set (p := if rate <? n + k1 then rate - k1 else n).
      assert (P1 : 0 < p /\ p <= n /\ k1 + p <= rate) by (subst p; destruct (rate <? n + k1) eqn:Q; lia).
      replace (p =? 0) with false by lia. cbn [negb guard bind]. unfold SnP_ExtractBytes. rewrite slice_ok by lia. cbn [bind].
      change (mkSponge st1 rate (k1 + p) sq) with (of_pair (st1, k1 + p) sq). rewrite IH; [|lia|lia|unfold fine; cbn [fst snd]; split; [exact L1|split; [exact B1|lia]]].
      cbn [bind fst snd]. replace (N.to_nat n) with (N.to_nat p + N.to_nat (n - p))%nat by lia. rewrite pulls_app, (pulls_part (N.to_nat p)) by lia. cbn [fst snd]. rewrite !N2Nat.id. reflexivity.
Qed.
End Bytes.
