(** The model of aes.c computes the ciphers of Spec/AesSpec.v. *)
From Verif.Proof Require Import BaseProof.
From Verif.Proof Require Import EmbedProof.
From Verif.Model Require Export Aes.
From Verif.Spec Require Export AesSpec OwfSpec.

Ltac Zify.zify_post_hook ::= Z.div_mod_to_equations.

Lemma at_nthN {A} (d : A) l i : at_ d l i = nthN l i d.
Proof. reflexivity. Qed.

Lemma Nseq_seq a n : Nseq (N.of_nat a) n = map N.of_nat (seq a n).
Proof.
  revert a. induction n as [|n IH]; intros a; cbn [Nseq seq map]; [reflexivity|].
  f_equal. rewrite <- IH. f_equal. lia.
Qed.
Lemma Nrange_seq n : Nrange n = map N.of_nat (seq 0 (N.to_nat n)).
Proof. unfold Nrange. exact (Nseq_seq 0 (N.to_nat n)). Qed.

(** * Bytes *)

Lemma sbox_check : forallb (fun x => (compute_sbox x =? SBOX x) && (SBOX x <? 256)) (Nrange 256) = true.
Proof. vm_compute. reflexivity. Qed.
Lemma sbox_eq x : x < 256 -> compute_sbox x = SBOX x.
Proof. intros H. pose proof (forallb_lt _ _ sbox_check x H) as C. cbv beta in C. lia. Qed.
Lemma sbox_lt x : x < 256 -> SBOX x < 256.
Proof. intros H. pose proof (forallb_lt _ _ sbox_check x H) as C. cbv beta in C. lia. Qed.

Lemma xtime_check :
  forallb (fun x => (bf8_mul x 2 =? xtime x) && (bf8_mul x 3 =? N.lxor (xtime x) x) && (xtime x <? 256))
          (Nrange 256) = true.
Proof. vm_compute. reflexivity. Qed.
Lemma mul2_eq x : x < 256 -> bf8_mul x 2 = xtime x.
Proof. intros H. pose proof (forallb_lt _ _ xtime_check x H) as C. cbv beta in C. lia. Qed.
Lemma mul3_eq x : x < 256 -> bf8_mul x 3 = N.lxor (xtime x) x.
Proof. intros H. pose proof (forallb_lt _ _ xtime_check x H) as C. cbv beta in C. lia. Qed.
Lemma xtime_lt x : x < 256 -> xtime x < 256.
Proof. intros H. pose proof (forallb_lt _ _ xtime_check x H) as C. cbv beta in C. lia. Qed.

Lemma lxor_lt8 a b : a < 256 -> b < 256 -> N.lxor a b < 256.
Proof. apply (lxor_lt a b 8). Qed.

Lemma lenN_concat4 {A} (ls : list (list A)) : Forall (fun l => lenN l = 4) ls ->
  lenN (concat ls) = 4 * lenN ls.
Proof.
  induction 1 as [|l ls H _ IH]; [reflexivity|].
  cbn [concat]. rewrite lenN_app, lenN_cons, IH, H. lia.
Qed.

(** * Words *)

Definition word_ok (l : list N) : Prop :=
  exists a b c d, l = [a; b; c; d] /\ a < 256 /\ b < 256 /\ c < 256 /\ d < 256.

Definition toW (l : list N) : word := W (at_ 0 l 0) (at_ 0 l 1) (at_ 0 l 2) (at_ 0 l 3).

Lemma word_bytes_toW l : word_ok l -> word_bytes (toW l) = l.
Proof. intros (a & b & c & d & -> & _). reflexivity. Qed.

Lemma xor_words_ok v w : word_ok v -> word_ok w -> word_ok (xor_words v w).
Proof.
  intros (a & b & c & d & -> & ? & ? & ? & ?) (a' & b' & c' & d' & -> & ? & ? & ? & ?).
  do 4 eexists. split; [reflexivity|]. auto using lxor_lt8.
Qed.
Lemma toW_xor v w : word_ok v -> word_ok w -> toW (xor_words v w) = xor_word (toW v) (toW w).
Proof.
  intros (a & b & c & d & -> & ? & ? & ? & ?) (a' & b' & c' & d' & -> & ? & ? & ? & ?). reflexivity.
Qed.
Lemma SubWord_ok w : word_ok w -> word_ok (SubWord w).
Proof.
  intros (a & b & c & d & -> & ? & ? & ? & ?). do 4 eexists. split; [reflexivity|]. auto using sbox_lt.
Qed.
Lemma toW_SubWord w : word_ok w -> toW (SubWord w) = sub_word (toW w).
Proof.
  intros (a & b & c & d & -> & ? & ? & ? & ?). unfold SubWord.
  change (toW (map SBOX [a; b; c; d])) with (W (SBOX a) (SBOX b) (SBOX c) (SBOX d)).
  rewrite <- !sbox_eq by assumption. reflexivity.
Qed.
Lemma RotWord_ok w : word_ok w -> word_ok (RotWord w).
Proof. intros (a & b & c & d & -> & ? & ? & ? & ?). do 4 eexists. split; [reflexivity|]. auto. Qed.
Lemma toW_RotWord w : word_ok w -> toW (RotWord w) = rot_word (toW w).
Proof. intros (a & b & c & d & -> & ? & ? & ? & ?). reflexivity. Qed.
Lemma contains_zero_toW w : word_ok w -> contains_zero (toW w) = true <-> In 0 w.
Proof.
  intros (a & b & c & d & -> & ? & ? & ? & ?). unfold contains_zero, toW, at_. cbn.
  rewrite !orb_true_iff, !N.eqb_eq. tauto.
Qed.
Lemma In_RotWord w x : In x (RotWord w) <-> In x w.
Proof. destruct w as [|a [|b [|c [|d [|]]]]]; cbn; tauto. Qed.

Lemma iter_xtime_lt n : N.iter n xtime 1 < 256.
Proof.
  induction n as [|n IH] using N.peano_ind; [reflexivity|].
  rewrite N.iter_succ. apply xtime_lt, IH.
Qed.
Lemma Rcon_ok j : word_ok (Rcon j).
Proof. do 4 eexists. split; [reflexivity|]. repeat split; try reflexivity. apply iter_xtime_lt. Qed.

Lemma round_constants_check :
  forallb (fun j => res_eqb (aget round_constants j) (N.iter j xtime 1)) (Nrange 30) = true.
Proof. vm_compute. reflexivity. Qed.
Lemma round_constants_get j : j < 30 -> aget round_constants j = Ok (N.iter j xtime 1).
Proof. intros H. apply res_eqb_true. exact (forallb_lt _ _ round_constants_check j H). Qed.

(** * The specified key schedule, by recurrence *)

Lemma expand_length nk n ws : length (expand nk n ws) = (length ws + n)%nat.
Proof.
  revert ws. induction n as [|n IH]; intros ws; cbn [expand]; [lia|].
  rewrite IH, app_length. cbn [length]. lia.
Qed.
Lemma expand_prefix nk n ws i : i < lenN ws -> nthN (expand nk n ws) i [] = nthN ws i [].
Proof.
  revert ws. induction n as [|n IH]; intros ws Hi; cbn [expand]; [reflexivity|].
  rewrite IH by (rewrite lenN_app; lia). apply nthN_app_l, Hi.
Qed.

(** what is xored to word i - Nk, from word i - 1 *)
Definition temp_word (nk i : N) (temp : list N) : list N :=
  if i mod nk =? 0 then xor_words (SubWord (RotWord temp)) (Rcon (i / nk))
  else if (6 <? nk) && (i mod nk =? 4) then SubWord temp
  else temp.

Lemma expand_nth nk n ws i : 0 < nk <= lenN ws -> lenN ws <= i < lenN ws + N.of_nat n ->
  nthN (expand nk n ws) i [] =
  xor_words (nthN (expand nk n ws) (i - nk) []) (temp_word nk i (nthN (expand nk n ws) (i - 1) [])).
Proof.
  revert ws. induction n as [|n IH]; intros ws Hk Hi; cbn [expand]; [lia|].
  destruct (N.eq_dec i (lenN ws)) as [->|Hne].
  - assert (L : lenN (ws ++ [next_word nk ws]) = lenN ws + 1)
      by (rewrite lenN_app, lenN_cons; reflexivity).
    rewrite !expand_prefix by lia.
    rewrite (nthN_app_l _ _ (lenN ws - nk)), (nthN_app_l _ _ (lenN ws - 1)) by lia.
    rewrite nthN_app_r by lia. rewrite N.sub_diag. reflexivity.
  - apply IH; rewrite lenN_app, lenN_cons; change (lenN (@nil (list N))) with 0; lia.
Qed.

Definition total (c : cipher) : N := c_bw c * (c_nr c + 1).

(** facts about the five ciphers *)
Record cipher_ok (c : cipher) : Prop := {
  ck_kw : c_kw c = 4 \/ c_kw c = 6 \/ c_kw c = 8;
  ck_bw : c_bw c = 4 \/ c_bw c = 6 \/ c_bw c = 8;
  ck_nr : 1 <= c_nr c <= 14;
  ck_total : c_kw c <= total c;
  ck_rcon : total c <= 31 * c_kw c
}.

Lemma ciphers_ok c R : In (c, R) ciphers ->
  cipher_ok c /\ R = mkRijndael (c_kw c) (c_bw c) (c_nr c).
Proof.
  intros H. repeat (destruct H as [H|H]; [injection H as <- <-; split; [|reflexivity];
     constructor; unfold total; cbn; lia|]). destruct H.
Qed.

Section Cipher.
Variable c : cipher.
Hypothesis CK : cipher_ok c.
Local Notation R := (mkRijndael (c_kw c) (c_bw c) (c_nr c)).
Local Notation kw := (c_kw c).
Local Notation bw := (c_bw c).
Local Notation nr := (c_nr c).

Local Ltac ck := destruct CK as [CKkw CKbw CKnr CKt CKr].

Section Key.
Variable key : list N.
Hypothesis Hkl : 4 * kw <= lenN key.
Hypothesis Hkb : bytes_ok key.

Definition w_ (i : N) : list N := nthN (KeyExpansion R key) i [].

Lemma w_len : lenN (KeyExpansion R key) = total c.
Proof.
  unfold KeyExpansion, lenN. rewrite expand_length, map_length, seq_length.
  cbn [Nk Nb Nr]. pose proof (ck_total c CK). unfold total in *. lia.
Qed.

Lemma nthN_seq n i : i < n -> nthN (map N.of_nat (seq 0 (N.to_nat n))) i 0 = i.
Proof. intros H. rewrite <- Nrange_seq. apply nthN_Nrange, H. Qed.

Lemma w_low i : i < kw -> w_ i = key_word key i.
Proof.
  intros H. unfold w_, KeyExpansion. cbn [Nk].
  assert (L : lenN (map (fun i => key_word key (N.of_nat i)) (seq 0 (N.to_nat kw))) = kw).
  { rewrite lenN_map. unfold lenN. rewrite seq_length. lia. }
  rewrite expand_prefix by lia.
  rewrite <- (map_map N.of_nat (key_word key)), <- Nrange_seq.
  rewrite (nthN_map _ _ _ 0) by (rewrite lenN_Nrange; exact H).
  rewrite nthN_Nrange by exact H. reflexivity.
Qed.

Lemma w_high i : kw <= i < total c -> w_ i = xor_words (w_ (i - kw)) (temp_word kw i (w_ (i - 1))).
Proof.
  intros H. unfold w_, KeyExpansion. cbn [Nk].
  assert (L : lenN (map (fun i => key_word key (N.of_nat i)) (seq 0 (N.to_nat kw))) = kw).
  { rewrite lenN_map. unfold lenN. rewrite seq_length. lia. }
  apply expand_nth; rewrite L; [ck; lia|].
  cbn [Nb Nr]. unfold total in H. lia.
Qed.

Lemma temp_word_ok i w : word_ok w -> word_ok (temp_word kw i w).
Proof.
  intros H. unfold temp_word. destruct (i mod kw =? 0).
  - apply xor_words_ok; [apply SubWord_ok, RotWord_ok, H|apply Rcon_ok].
  - destruct ((6 <? kw) && (i mod kw =? 4)); [apply SubWord_ok|]; exact H.
Qed.

Lemma key_word_ok i : word_ok (key_word key i).
Proof.
  do 4 eexists. split; [reflexivity|]. rewrite !at_nthN.
  repeat split; apply nthN_byte, Hkb.
Qed.

Lemma w_ok i : i < total c -> word_ok (w_ i).
Proof.
  induction i as [i IH] using (well_founded_induction N.lt_wf_0). intros H.
  destruct (N.lt_ge_cases i kw) as [Hi|Hi].
  - rewrite w_low by exact Hi. apply key_word_ok.
  - rewrite w_high by lia. apply xor_words_ok; [|apply temp_word_ok]; apply IH; ck; lia.
Qed.

(** * expand_key *)

Definition rk_ok (rk : round_keys) (n : N) : Prop :=
  lenN rk = 120 /\ forall k, k < n -> rk_get rk (k / bw) (k mod bw) = Ok (toW (w_ k)).

Lemma cell_inj q m q' m' : m < 8 -> m' < 8 -> 8 * q + m = 8 * q' + m' -> q = q' /\ m = m'.
Proof. lia. Qed.

Lemma rk_cell k : k < total c -> k / bw < 15 /\ k mod bw < 8.
Proof.
  intros H. destruct CK as [_ CKbw CKnr _ _]. split.
  - apply N.div_lt_upper_bound; [lia|]. unfold total in H. nia.
  - assert (k mod bw < bw) by (apply N.mod_lt; lia). lia.
Qed.

Lemma rk_get_eq rk q m : lenN rk = 120 -> q < 15 -> m < 8 ->
  rk_get rk q m = match nthN rk (8 * q + m) None with Some w => Ok w | None => UB end.
Proof.
  intros HL Hq Hm. unfold rk_get. rewrite guard_true by lia. cbn [bind]. unfold ginit.
  rewrite (aget_ok _ _ None) by lia. reflexivity.
Qed.

Lemma rk_set_ok rk n : n < total c -> rk_ok rk n ->
  exists rk', rk_set rk (n / bw) (n mod bw) (toW (w_ n)) = Ok rk' /\ rk_ok rk' (n + 1).
Proof.
  intros Hn [HL HR]. unfold rk_set.
  destruct (rk_cell n Hn) as [B M].
  assert (B0 : bw <> 0) by (destruct CK; lia).
  set (q := n / bw) in *. set (m := n mod bw) in *.
  rewrite guard_true by (clearbody q m; lia). cbn [bind].
  rewrite aset_ok by (clearbody q m; lia). eexists. split; [reflexivity|].
  split; [rewrite lenN_upd; exact HL|].
  intros k Hk. destruct (rk_cell k) as [Bk Mk]; [clear - Hn Hk; lia|].
  rewrite rk_get_eq by (try assumption; rewrite lenN_upd; exact HL).
  rewrite nthN_upd by (clear - HL Bk Mk; set (k / bw) in *; set (k mod bw) in *; lia).
  destruct (N.eq_dec k n) as [->|Hne]; [subst q m; rewrite N.eqb_refl; reflexivity|].
  assert (Hd : (8 * (k / bw) + k mod bw =? 8 * q + m) = false).
  { apply N.eqb_neq. intros E. apply cell_inj in E; [|assumption|assumption].
    destruct E as [E1 E2]. apply Hne.
    rewrite (N.div_mod k bw B0), (N.div_mod n bw B0), E1, E2. reflexivity. }
  rewrite Hd. rewrite <- rk_get_eq by assumption.
  apply HR. clear - Hk Hne. lia.
Qed.

Lemma load_word_ok src off : off + 4 <= lenN src ->
  load_word src off =
  Ok (W (nthN src off 0) (nthN src (off + 1) 0) (nthN src (off + 2) 0) (nthN src (off + 3) 0)).
Proof.
  intros H. unfold load_word. rewrite !(aget_ok _ _ 0) by lia. reflexivity.
Qed.

(** the S-boxes of the schedule up to word k see a zero byte *)
Definition key_zero (k : N) : Prop :=
  exists i, kw <= i < k /\ (i mod kw = 0 \/ 6 < kw /\ i mod kw = 4) /\ In 0 (w_ (i - 1)).

Lemma expand_key_step_ok rk ret k : kw <= k < total c -> rk_ok rk k ->
  (ret = true <-> key_zero k) ->
  exists rk' ret', expand_key_step kw bw (rk, ret) k = Ok (rk', ret') /\ rk_ok rk' (k + 1) /\
                   (ret' = true <-> key_zero (k + 1)).
Proof.
  intros Hk HR Hret. assert (K0 : 4 <= kw <= 8) by (ck; lia).
  unfold expand_key_step.
  rewrite (proj2 HR (k - 1)) by lia. cbn [bind].
  assert (W1 : word_ok (w_ (k - 1))) by (apply w_ok; lia).
  assert (W2 : word_ok (w_ (k - kw))) by (apply w_ok; lia).
  (* the zero flag *)
  assert (Z : forall b : bool, (b = true <-> (k mod kw = 0 \/ 6 < kw /\ k mod kw = 4) /\ In 0 (w_ (k - 1))) ->
              ((ret || b)%bool = true <-> key_zero (k + 1))).
  { intros b Hb. rewrite orb_true_iff, Hret, Hb. split.
    - intros [(i & Hi & H)|[H1 H2]]; [exists i; split; [lia|exact H]|].
      exists k. split; [lia|]. split; assumption.
    - intros (i & Hi & H). destruct (N.eq_dec i k) as [->|Hne]; [right; exact H|].
      left. exists i. split; [lia|exact H]. }
  assert (S : exists b, (b = true <-> (k mod kw = 0 \/ 6 < kw /\ k mod kw = 4) /\ In 0 (w_ (k - 1))) /\
    (let! tr1 :=
      (if k mod kw =? 0
       then let tmp := rot_word (toW (w_ (k - 1))) in
            let ret := (ret || contains_zero tmp)%bool in
            let tmp := sub_word tmp in
            let! rc := aget round_constants (k / kw - 1) in
            Ok (xor_word tmp (W rc 0 0 0), ret)
       else Ok (toW (w_ (k - 1)), ret)) in
     let '(tmp, ret) := tr1 in
     let '(tmp, ret) :=
       (if (6 <? kw) && (k mod kw =? 4)
        then (sub_word tmp, (ret || contains_zero tmp)%bool)
        else (tmp, ret)) in
     Ok (tmp, ret)) = Ok (toW (temp_word kw k (w_ (k - 1))), (ret || b)%bool)).
  { unfold temp_word. destruct (k mod kw =? 0) eqn:E0.
    - exists (contains_zero (rot_word (toW (w_ (k - 1))))).
      rewrite <- toW_RotWord by exact W1. split.
      + rewrite contains_zero_toW by (apply RotWord_ok, W1). rewrite In_RotWord.
        split; [intros; split; [left; lia|assumption]|tauto].
      + assert (Hd : 1 <= k / kw <= 30) by (ck; nia).
        rewrite round_constants_get by lia. cbn [bind].
        replace (k mod kw =? 4) with false by lia. rewrite andb_false_r.
        rewrite toW_xor by (auto using Rcon_ok, SubWord_ok, RotWord_ok).
        rewrite toW_SubWord by (auto using RotWord_ok). reflexivity.
    - cbn [bind]. destruct ((6 <? kw) && (k mod kw =? 4)) eqn:E4.
      + exists (contains_zero (toW (w_ (k - 1)))). split.
        * rewrite contains_zero_toW by exact W1.
          split; [intros; split; [right; lia|assumption]|tauto].
        * rewrite toW_SubWord by exact W1. reflexivity.
      + exists false. split; [|rewrite orb_false_r; reflexivity].
        split; [discriminate|]. intros [[H|H] _]; lia. }
  destruct S as (b & Hb & HS).
  apply bind_inv in HS. destruct HS as [[tmp1 ret1] [S1 S2]]. cbv zeta in S1. rewrite S1. cbn [bind].
  destruct ((6 <? kw) && (k mod kw =? 4)); injection S2 as -> ->;
    rewrite (proj2 HR (k - kw)) by lia; cbn [bind];
    rewrite <- toW_xor by (auto using temp_word_ok); rewrite <- w_high by exact Hk;
    destruct (rk_set_ok rk k ltac:(lia) HR) as (rk' & E & HR'); rewrite E; cbn [bind];
    do 2 eexists; (split; [reflexivity|]); (split; [exact HR'|]); apply Z; exact Hb.
Qed.

Lemma expand_key_ok :
  exists rk ret, expand_key key kw bw nr = Ok (rk, ret) /\ rk_ok rk (total c) /\
                 (ret = true <-> zero_in_key_expansion R key).
Proof.
  unfold expand_key.
  destruct (foldM_Nrange_inv (expand_key_copy key bw) (fun k rk => rk_ok rk k) kw rk_empty)
    as (rk & E & HR).
  - split; [reflexivity|]. intros k Hk. lia.
  - intros k rk Hk HR. unfold expand_key_copy.
    rewrite load_word_ok by lia. cbn [bind].
    assert (Hkt : k < total c) by (ck; lia).
    destruct (rk_set_ok rk k Hkt HR) as (rk' & E & HR').
    exists rk'. split; [|exact HR'].
    rewrite w_low in E by exact Hk. exact E.
  - rewrite E. cbn [bind].
    destruct (foldM_Nfromto_inv (expand_key_step kw bw)
       (fun k s => rk_ok (fst s) k /\ (snd s = true <-> key_zero k)) kw (bw * (nr + 1)) (rk, false))
      as ([rk' ret'] & E' & HR' & HZ').
    + exact (ck_total c CK).
    + split; [exact HR|]. split; [discriminate|]. intros (i & Hi & _). lia.
    + intros k [rk1 ret1] Hk [H1 H2]. cbn [fst snd] in H1, H2.
      destruct (expand_key_step_ok rk1 ret1 k Hk H1 H2) as (rk2 & ret2 & E2 & H3 & H4).
      exists (rk2, ret2). split; [exact E2|]. split; assumption.
    + exists rk', ret'. split; [exact E'|]. split; [exact HR'|]. exact HZ'.
Qed.

(** * Encryption *)

Definition colW (s : cstate) (j : N) : word := W (s 0 j) (s 1 j) (s 2 j) (s 3 j).
Definition stW (s : cstate) : state := tab bw (colW s).
Definition st_ok (s : cstate) : Prop := forall r j, r < 4 -> j < bw -> s r j < 256.

Lemma lt4 r : r < 4 -> r = 0 \/ r = 1 \/ r = 2 \/ r = 3.
Proof. lia. Qed.

Variable rk : round_keys.
Hypothesis HRK : rk_ok rk (total c).

Notation ws := (KeyExpansion R key).

Lemma bw_pos : 4 <= bw <= 8.
Proof. ck; lia. Qed.

Lemma round_word round j : round <= nr -> j < bw ->
  round * bw + j < total c /\ (round * bw + j) / bw = round /\ (round * bw + j) mod bw = j.
Proof.
  intros H1 H2. pose proof bw_pos. split; [unfold total; nia|].
  split.
  - rewrite N.div_add_l by lia. rewrite N.div_small by lia. lia.
  - rewrite N.add_comm, N.mod_add by lia. apply N.mod_small. lia.
Qed.

Lemma add_round_key_ok round s : round <= nr ->
  add_round_key round (stW s) rk bw = Ok (stW (AddRoundKey R ws round s)).
Proof.
  intros Hr. unfold add_round_key, stW.
  apply mapM_tab. intros j Hj.
  rewrite aget_tab by exact Hj. cbn [bind].
  destruct (round_word round j Hr Hj) as (H1 & H2 & H3).
  pose proof (proj2 HRK (round * bw + j) H1) as E. rewrite H2, H3 in E. rewrite E. cbn [bind].
  reflexivity.
Qed.

Lemma AddRoundKey_st_ok round s : round <= nr -> st_ok s -> st_ok (AddRoundKey R ws round s).
Proof.
  intros Hr Hs r j H1 H2. unfold AddRoundKey. cbn [Nb].
  apply lxor_lt8; [apply Hs; assumption|].
  destruct (round_word round j Hr H2) as (H & _).
  destruct (w_ok _ H) as (a & b & d & e & E & ? & ? & ? & ?).
  change (at_ [] ws (round * bw + j)) with (w_ (round * bw + j)). rewrite E.
  destruct (lt4 r H1) as [-> | [-> | [-> | ->]]]; assumption.
Qed.

Definition zero_state (s : cstate) : Prop := exists r j, r < 4 /\ j < bw /\ s r j = 0.

Lemma sub_bytes_ok s : st_ok s ->
  exists z, sub_bytes (stW s) bw = Ok (stW (SubBytes s), z) /\ (z = true <-> zero_state s).
Proof.
  intros Hs. unfold sub_bytes.
  destruct (foldM_Nrange_inv (fun '(acc, ret) c0 =>
      let! s := aget (stW s) c0 in
      Ok (acc ++ [sub_word s], ret || contains_zero s))
     (fun k st => fst st = tab k (colW (SubBytes s)) /\
                  (snd st = true <-> exists r j, r < 4 /\ j < k /\ s r j = 0)) bw ([], false))
    as ([acc z] & E & HA & HZ).
  - split; [reflexivity|]. split; [discriminate|]. intros (r & j & _ & H & _). lia.
  - intros k [acc ret] Hk [HA HZ]. cbn [fst snd] in HA, HZ.
    unfold stW at 1. rewrite aget_tab by exact Hk. cbn [bind].
    eexists. split; [reflexivity|]. cbn [fst snd]. split.
    + rewrite tab_succ, HA. do 2 f_equal. unfold sub_word, colW, SubBytes.
      rewrite !sbox_eq by (apply Hs; lia). reflexivity.
    + rewrite orb_true_iff, HZ. unfold contains_zero, colW.
      rewrite !orb_true_iff, !N.eqb_eq. split.
      * intros [(r & j & H1 & H2 & H3)|H].
        -- exists r, j. repeat split; try assumption. lia.
        -- destruct H as [[[H|H]|H]|H]; eexists _, k; (split; [|split; [|exact H]]); lia.
      * intros (r & j & H1 & H2 & H3). destruct (N.eq_dec j k) as [->|Hne].
        -- right. destruct (lt4 r H1) as [-> | [-> | [-> | ->]]]; tauto.
        -- left. exists r, j. repeat split; try assumption. lia.
  - cbn [fst snd] in HA, HZ. exists z. rewrite E, HA. split; [reflexivity|exact HZ].
Qed.

Lemma SubBytes_st_ok s : st_ok s -> st_ok (SubBytes s).
Proof. intros H r j H1 H2. apply sbox_lt, H; assumption. Qed.

Lemma shift_row_ok s : shift_row (stW s) bw = Ok (stW (ShiftRows R s)).
Proof.
  unfold shift_row.
  assert (E : (match bw with 4 | 6 => Ok (1, 2, 3) | 8 => Ok (1, 3, 4) | _ => UB end)
              = Ok (shift_offset R 1, shift_offset R 2, shift_offset R 3)).
  { unfold shift_offset. cbn [Nb].
    destruct (ck_bw c CK) as [H|[H|H]]; rewrite H; reflexivity. }
  rewrite E. cbn [bind]. unfold stW.
  apply mapM_tab. intros j Hj. pose proof bw_pos.
  rewrite !aget_tab by (try exact Hj; apply N.mod_lt; lia). cbn [bind].
  unfold colW, ShiftRows, byte0, byte1, byte2, byte3. cbn [Nb].
  assert (Z : shift_offset R 0 = 0) by (unfold shift_offset; destruct (Nb R =? 8); reflexivity).
  rewrite Z, N.add_0_r, (N.mod_small j bw) by exact Hj. reflexivity.
Qed.

Lemma ShiftRows_st_ok s : st_ok s -> st_ok (ShiftRows R s).
Proof.
  intros H r j H1 H2. apply H; [exact H1|]. cbn [Nb]. apply N.mod_lt.
  pose proof bw_pos. lia.
Qed.

Lemma mix_word_ok s j : st_ok s -> j < bw -> mix_word (colW s j) = colW (MixColumns s) j.
Proof.
  intros Hs Hj. unfold mix_word, colW, MixColumns.
  change ((0 + 0) mod 4) with 0. change ((0 + 1) mod 4) with 1.
  change ((0 + 2) mod 4) with 2. change ((0 + 3) mod 4) with 3.
  change ((1 + 0) mod 4) with 1. change ((1 + 1) mod 4) with 2.
  change ((1 + 2) mod 4) with 3. change ((1 + 3) mod 4) with 0.
  change ((2 + 0) mod 4) with 2. change ((2 + 1) mod 4) with 3.
  change ((2 + 2) mod 4) with 0. change ((2 + 3) mod 4) with 1.
  change ((3 + 0) mod 4) with 3. change ((3 + 1) mod 4) with 0.
  change ((3 + 2) mod 4) with 1. change ((3 + 3) mod 4) with 2.
  rewrite !mul2_eq, !mul3_eq by (apply Hs; lia).
  set (a := s 0 j). set (b := s 1 j). set (d := s 2 j). set (e := s 3 j).
  f_equal; apply N.bits_inj; intros i; rewrite ?N.lxor_spec;
    repeat match goal with |- context [N.testbit ?x i] => destruct (N.testbit x i) end; reflexivity.
Qed.

Lemma mix_column_ok s : st_ok s -> mix_column (stW s) bw = Ok (stW (MixColumns s)).
Proof.
  intros Hs. unfold mix_column, stW. apply mapM_tab. intros j Hj.
  rewrite aget_tab by exact Hj. cbn [bind]. rewrite mix_word_ok by assumption. reflexivity.
Qed.

Lemma MixColumns_st_ok s : st_ok s -> st_ok (MixColumns s).
Proof.
  intros H r j H1 H2. unfold MixColumns.
  assert (B : forall k, s ((r + k) mod 4) j < 256) by (intros; apply H; [apply N.mod_lt; lia|exact H2]).
  auto using lxor_lt8, xtime_lt.
Qed.

Lemma before_sub_st_ok s n : (n < N.to_nat nr)%nat -> st_ok s -> st_ok (before_sub R ws s n).
Proof.
  intros Hn Hs. induction n as [|n IH]; cbn [before_sub].
  - apply AddRoundKey_st_ok; [lia|exact Hs].
  - apply AddRoundKey_st_ok; [lia|].
    apply MixColumns_st_ok, ShiftRows_st_ok, SubBytes_st_ok, IH. lia.
Qed.

Lemma rounds_ok s : st_ok s ->
  exists z, foldM (aes_round rk bw) (Nfromto 1 nr) (stW (before_sub R ws s 0), false) =
            Ok (stW (before_sub R ws s (N.to_nat (nr - 1))), z) /\
            (z = true <-> exists n, (n < N.to_nat (nr - 1))%nat /\ zero_state (before_sub R ws s n)).
Proof.
  intros Hs. assert (Hnr : 1 <= nr) by (ck; lia).
  destruct (foldM_Nfromto_inv (aes_round rk bw)
     (fun k st => fst st = stW (before_sub R ws s (N.to_nat (k - 1))) /\
                  (snd st = true <-> exists n, (n < N.to_nat (k - 1))%nat /\ zero_state (before_sub R ws s n)))
     1 nr (stW (before_sub R ws s 0), false)) as ([st z] & E & H1 & H2).
  - exact Hnr.
  - split; [reflexivity|]. split; [discriminate|]. intros (n & H & _). lia.
  - intros k [st ret] Hk [H1 H2]. cbn [fst snd] in H1, H2. unfold aes_round. rewrite H1.
    assert (HB : st_ok (before_sub R ws s (N.to_nat (k - 1)))) by (apply before_sub_st_ok; [lia|exact Hs]).
    destruct (sub_bytes_ok _ HB) as (z & E & HZ). rewrite E. cbn [bind].
    rewrite shift_row_ok. cbn [bind].
    rewrite mix_column_ok by (apply ShiftRows_st_ok, SubBytes_st_ok, HB). cbn [bind].
    rewrite add_round_key_ok by lia. cbn [bind].
    eexists. split; [reflexivity|]. cbn [fst snd].
    replace (N.to_nat (k + 1 - 1)) with (S (N.to_nat (k - 1))) by lia. split.
    + cbn [before_sub]. replace (N.of_nat (S (N.to_nat (k - 1)))) with k by lia. reflexivity.
    + rewrite orb_true_iff, H2, HZ. split.
      * intros [(n & Hn & H)|H]; [exists n; split; [lia|exact H]|].
        exists (N.to_nat (k - 1)). split; [lia|exact H].
      * intros (n & Hn & H). destruct (Nat.eq_dec n (N.to_nat (k - 1))) as [->|Hne]; [right; exact H|].
        left. exists n. split; [lia|exact H].
  - cbn [fst snd] in H1, H2. exists z. rewrite E, H1. split; [reflexivity|exact H2].
Qed.

Definition cipher_state (s : cstate) : cstate :=
  AddRoundKey R ws nr (ShiftRows R (SubBytes (before_sub R ws s (N.to_nat (nr - 1))))).

Lemma aes_encrypt_ok s : st_ok s ->
  exists z, aes_encrypt rk (stW s) bw nr = Ok (stW (cipher_state s), z) /\
            (z = true <-> exists n, (n < N.to_nat nr)%nat /\ zero_state (before_sub R ws s n)).
Proof.
  intros Hs. unfold aes_encrypt. rewrite add_round_key_ok by lia. cbn [bind].
  destruct (rounds_ok s Hs) as (z1 & E1 & H1).
  cbn [before_sub] in E1. rewrite E1. cbn [bind].
  assert (Hnr : 1 <= nr) by (ck; lia).
  assert (HB : st_ok (before_sub R ws s (N.to_nat (nr - 1)))) by (apply before_sub_st_ok; [lia|exact Hs]).
  destruct (sub_bytes_ok _ HB) as (z & E & HZ). rewrite E. cbn [bind].
  rewrite shift_row_ok. cbn [bind]. rewrite add_round_key_ok by lia. cbn [bind].
  eexists. split; [reflexivity|].
  rewrite orb_true_iff, H1, HZ. split.
  - intros [(n & Hn & H)|H]; [exists n; split; [lia|exact H]|].
    exists (N.to_nat (nr - 1)). split; [lia|exact H].
  - intros (n & Hn & H). destruct (Nat.eq_dec n (N.to_nat (nr - 1))) as [->|Hne]; [right; exact H|].
    left. exists n. split; [lia|exact H].
Qed.

Lemma load_state_ok pt off : off + 4 * bw <= lenN pt ->
  load_state pt off bw = Ok (stW (load (takeN (4 * bw) (dropN off pt)))).
Proof.
  intros H. unfold load_state, stW. apply mapM_tab. intros j Hj.
  rewrite load_word_ok by lia. f_equal. unfold colW, load. rewrite !at_nthN.
  rewrite !nthN_takeN by lia. rewrite !nthN_dropN.
  f_equal; f_equal; lia.
Qed.

Lemma store_state_ok s : store_state (stW s) = store R s.
Proof.
  unfold store_state, stW, tab, store. cbn [Nb].
  rewrite map_map, Nrange_seq, map_map. reflexivity.
Qed.

Lemma load_st_ok inp : bytes_ok inp -> st_ok (load inp).
Proof. intros H r j _ _. unfold load. apply nthN_byte, H. Qed.

Lemma encrypt_block_ok pt off : off + 4 * bw <= lenN pt -> bytes_ok pt ->
  exists z, encrypt_block c rk pt off =
            Ok (Cipher R key (takeN (4 * bw) (dropN off pt)), z) /\
            (z = true <-> zero_in_encryption R key (takeN (4 * bw) (dropN off pt))).
Proof.
  intros Hl Hb. unfold encrypt_block.
  rewrite load_state_ok by exact Hl. cbn [bind].
  destruct (aes_encrypt_ok (load (takeN (4 * bw) (dropN off pt)))) as (z & E & HZ).
  { apply load_st_ok, Forall_takeN, Forall_dropN, Hb. }
  rewrite E. cbn [bind fst snd]. exists z. split.
  - rewrite store_state_ok. reflexivity.
  - rewrite HZ. unfold zero_in_encryption, zero_state. cbn [Nb Nr].
    split.
    + intros (n & Hn & r & j & H). exists n, r, j. tauto.
    + intros (n & r & j & Hn & H). exists n. split; [exact Hn|]. exists r, j. exact H.
Qed.

Lemma cipher_state_ok s : st_ok s -> st_ok (cipher_state s).
Proof.
  intros Hs. apply AddRoundKey_st_ok; [lia|].
  apply ShiftRows_st_ok, SubBytes_st_ok, before_sub_st_ok; [ck; lia|exact Hs].
Qed.

Lemma Cipher_len inp : lenN (Cipher R key inp) = 4 * bw.
Proof.
  clear Hkl Hkb HRK rk CK.
  unfold Cipher, store. rewrite lenN_concat4.
  - rewrite lenN_map. unfold lenN. rewrite seq_length. cbn [Nb]. lia.
  - apply Forall_forall. intros l Hl. apply in_map_iff in Hl. destruct Hl as (x & <- & _).
    reflexivity.
Qed.

Lemma Cipher_bytes inp : bytes_ok inp -> bytes_ok (Cipher R key inp).
Proof.
  intros H. unfold Cipher, store. apply Forall_concat. apply Forall_forall.
  intros l Hl. apply in_map_iff in Hl. destruct Hl as (x & <- & Hx). apply in_seq in Hx.
  cbn [Nb] in Hx.
  apply Forall_forall. intros y Hy. apply in_map_iff in Hy. destruct Hy as (r & <- & Hr).
  apply in_seq in Hr.
  apply (cipher_state_ok (load inp) (load_st_ok inp H)); lia.
Qed.

End Key.
End Cipher.
