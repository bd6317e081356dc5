(** The S-box claims of a witness (Spec/ConstraintSpec.v) are right exactly for the honest witness. *)
From Verif.Model Require Import Aes.
From Verif.Spec Require Import AesSpec OwfSpec ConstraintSpec.
From Verif.Proof Require Import BaseProof EmbedProof AesProof PrgProof.
From Coq Require Import Lia ZifyBool ZifyNat ZifyN.
Ltac Zify.zify_post_hook ::= Z.div_mod_to_equations.

Lemma nums_eq a b : nums a b = Nfromto a b.
Proof. unfold nums, Nfromto. rewrite <- Nseq_seq. f_equal. lia. Qed.
Lemma nums_0 n : nums 0 n = Nrange n.
Proof. rewrite nums_eq. symmetry. apply Nrange_Nfromto. Qed.
Lemma piece_eq s off len : piece s off len = takeN len (dropN off s).
Proof. reflexivity. Qed.
Lemma In_nums a b x : In x (nums a b) <-> a <= x < b.
Proof. rewrite nums_eq. apply In_Nfromto. Qed.

(** ** encryption *)
Definition seqv (R : rijndael) (s t : cstate) : Prop := forall r c, r < 4 -> c < Nb R -> s r c = t r c.

Lemma seqv_refl R s : seqv R s s.
Proof. intros r c _ _. reflexivity. Qed.
Lemma seqv_sym R s t : seqv R s t -> seqv R t s.
Proof. intros H r c Hr Hc. symmetry. apply H; assumption. Qed.
Lemma seqv_trans R s t u : seqv R s t -> seqv R t u -> seqv R s u.
Proof. intros H1 H2 r c Hr Hc. rewrite H1, H2 by assumption. reflexivity. Qed.
Lemma seqv_ark R ws n s t : seqv R s t -> seqv R (AddRoundKey R ws n s) (AddRoundKey R ws n t).
Proof. intros H r c Hr Hc. unfold AddRoundKey. rewrite H by assumption. reflexivity. Qed.
Lemma seqv_sub R s t : seqv R s t -> seqv R (SubBytes s) (SubBytes t).
Proof. intros H r c Hr Hc. unfold SubBytes. rewrite H by assumption. reflexivity. Qed.
Lemma seqv_mix R s t : seqv R s t -> seqv R (MixColumns s) (MixColumns t).
Proof.
  intros H r c Hr Hc. unfold MixColumns. rewrite !(H (_ mod 4)) by (try assumption; apply N.mod_lt; discriminate). reflexivity.
Qed.
Lemma seqv_shift R s t : 0 < Nb R -> seqv R s t -> seqv R (ShiftRows R s) (ShiftRows R t).
Proof. intros HB H r c Hr Hc. unfold ShiftRows. apply H; [exact Hr|]. apply N.mod_lt. lia. Qed.
Lemma seqv_inv R s t : 0 < Nb R -> seqv R s t -> seqv R (InvShiftRows R s) (InvShiftRows R t).
Proof. intros HB H r c Hr Hc. unfold InvShiftRows. apply H; [exact Hr|]. apply N.mod_lt. lia. Qed.

Lemma shift_offset_le R r : 4 <= Nb R -> r < 4 -> shift_offset R r < Nb R.
Proof.
  intros HB Hr. unfold shift_offset. destruct (Nb R =? 8) eqn:E; [|lia].
  assert (r = 0 \/ r = 1 \/ r = 2 \/ r = 3) as [-> | [-> | [-> | ->]]] by lia; lia.
Qed.
Lemma mod_back a b n : a < n -> b <= n -> ((a + (n - b)) mod n + b) mod n = a.
Proof.
  intros Ha Hb. rewrite N.add_mod_idemp_l by lia. replace (a + (n - b) + b) with (a + 1 * n) by lia.
  rewrite N.mod_add by lia. apply N.mod_small, Ha.
Qed.
Lemma mod_forth a b n : a < n -> b <= n -> ((a + b) mod n + (n - b)) mod n = a.
Proof.
  intros Ha Hb. rewrite N.add_mod_idemp_l by lia. replace (a + b + (n - b)) with (a + 1 * n) by lia.
  rewrite N.mod_add by lia. apply N.mod_small, Ha.
Qed.
Lemma shift_inv R s : 4 <= Nb R -> seqv R (ShiftRows R (InvShiftRows R s)) s.
Proof.
  intros HB r c Hr Hc. pose proof (shift_offset_le R r HB Hr). unfold ShiftRows, InvShiftRows.
  rewrite mod_forth by lia. reflexivity.
Qed.
Lemma inv_shift R s : 4 <= Nb R -> seqv R (InvShiftRows R (ShiftRows R s)) s.
Proof.
  intros HB r c Hr Hc. pose proof (shift_offset_le R r HB Hr). unfold ShiftRows, InvShiftRows.
  rewrite mod_back by lia. reflexivity.
Qed.
Lemma inv_shift_iff R x s : 4 <= Nb R -> seqv R (InvShiftRows R x) s <-> seqv R x (ShiftRows R s).
Proof.
  intros HB. split; intros H.
  - eapply seqv_trans; [apply seqv_sym, shift_inv, HB|]. apply seqv_shift; [lia|exact H].
  - eapply seqv_trans; [apply seqv_inv; [lia|exact H]|]. apply inv_shift, HB.
Qed.
Lemma ark_ark R ws n s : seqv R (AddRoundKey R ws n (AddRoundKey R ws n s)) s.
Proof. intros r c Hr Hc. unfold AddRoundKey. rewrite N.lxor_assoc, N.lxor_nilpotent, N.lxor_0_r. reflexivity. Qed.

Lemma store_tab R s : store R s = concat (tab (Nb R) (fun c => tab 4 (fun r => s r c))).
Proof.
  unfold store. f_equal. unfold tab at 1. rewrite Nrange_seq.
  rewrite map_map. reflexivity.
Qed.
Lemma store_len R s : lenN (store R s) = 4 * Nb R.
Proof. rewrite store_tab. apply concat_blocks_len. intros. apply lenN_tab. Qed.
Lemma store_nth R s i : i < 4 * Nb R -> nthN (store R s) i 0 = s (i mod 4) (i / 4).
Proof.
  intros Hi. rewrite store_tab, (concat_blocks_nth 0 _ 4) by (try lia; intros; apply lenN_tab).
  rewrite nthN_tab by (apply N.mod_lt; discriminate). reflexivity.
Qed.
Lemma load_store R s : seqv R (load (store R s)) s.
Proof.
  intros r c Hr Hc. unfold load. rewrite at_nthN, store_nth by lia. f_equal; lia.
Qed.
Lemma store_load R l s : lenN l = 4 * Nb R -> seqv R (load l) s -> l = store R s.
Proof.
  intros HL H. apply (list_ext 0); [rewrite store_len; exact HL|]. intros i Hi. rewrite HL in Hi.
  rewrite store_nth by exact Hi. rewrite <- H by lia. unfold load. rewrite at_nthN. f_equal. lia.
Qed.
Lemma store_bytes R s : (forall r c, r < 4 -> c < Nb R -> s r c < 256) -> bytes_ok (store R s).
Proof.
  intros H. apply bytes_ok_nth. intros i Hi. rewrite store_len in Hi. rewrite store_nth by exact Hi. apply H; lia.
Qed.
Lemma store_ext R s t : seqv R s t -> store R s = store R t.
Proof. intros H. apply store_load; [apply store_len|]. eapply seqv_trans; [apply load_store|exact H]. Qed.

Section Enc.
Variable R : rijndael.
Hypothesis HNb : 4 <= Nb R.
Hypothesis HNr : 2 <= Nr R.
Variables (ws : list (list N)) (inp : list N).

Definition after_shift (n : N) : cstate := ShiftRows R (SubBytes (before_sub R ws (load inp) (N.to_nat n))).
Definition enc_wit : list N := concat (tab (Nr R - 1) (fun n => store R (after_shift n))).
Definition enc_out : list N := store R (AddRoundKey R ws (Nr R) (after_shift (Nr R - 1))).
Definition no_zero : Prop := forall n r c, n < Nr R -> r < 4 -> c < Nb R ->
  before_sub R ws (load inp) (N.to_nat n) r c <> 0.

Lemma enc_wit_len : lenN enc_wit = 4 * Nb R * (Nr R - 1).
Proof. apply concat_blocks_len. intros. apply store_len. Qed.
Lemma enc_out_len : lenN enc_out = 4 * Nb R.
Proof. apply store_len. Qed.
Lemma enc_wit_piece n : n < Nr R - 1 -> piece enc_wit (4 * Nb R * n) (4 * Nb R) = store R (after_shift n).
Proof.
  intros Hn. assert (HB : 4 * Nb R * n + 4 * Nb R <= 4 * Nb R * (Nr R - 1)).
  { replace (4 * Nb R * n + 4 * Nb R) with (4 * Nb R * (n + 1)) by lia. apply N.mul_le_mono_l. lia. }
  apply (list_ext 0).
  - rewrite piece_eq, lenN_takeN, lenN_dropN, enc_wit_len, store_len. lia.
  - intros i Hi. rewrite piece_eq, lenN_takeN, lenN_dropN, enc_wit_len in Hi.
    rewrite piece_eq, nthN_takeN, nthN_dropN by lia. unfold enc_wit.
    rewrite (concat_blocks_nth 0 _ (4 * Nb R)) by (try lia; intros; apply store_len).
    assert (E1 : (4 * Nb R * n + i) / (4 * Nb R) = n) by (symmetry; apply (N.div_unique _ _ _ i); lia).
    assert (E2 : (4 * Nb R * n + i) mod (4 * Nb R) = i) by (symmetry; apply (N.mod_unique _ _ n); lia).
    rewrite E1, E2. reflexivity.
Qed.

Variables (wit out : list N).
Hypothesis Hwl : lenN wit = 4 * Nb R * (Nr R - 1).
Hypothesis Hol : lenN out = 4 * Nb R.

Definition x_out (n : N) : cstate :=
  if n <? Nr R - 1 then load (piece wit (4 * Nb R * n) (4 * Nb R)) else AddRoundKey R ws (Nr R) (load out).

Lemma enc_pairs_all (P : N * N -> Prop) : Forall P (enc_pairs R ws inp wit out) <->
  forall n r c, n < Nr R -> r < 4 -> c < Nb R -> P (state_in R ws inp wit n r c, state_out R ws wit out n r c).
Proof.
  unfold enc_pairs. rewrite Forall_flat_map, Forall_forall. split.
  - intros H n r c Hn Hr Hc. specialize (H n). rewrite In_nums in H. specialize (H ltac:(lia)).
    rewrite Forall_flat_map, Forall_forall in H. specialize (H c). rewrite In_nums in H. specialize (H ltac:(lia)).
    rewrite Forall_map, Forall_forall in H. apply H. apply In_nums. lia.
  - intros H n Hn. rewrite In_nums in Hn. rewrite Forall_flat_map, Forall_forall. intros c Hc. rewrite In_nums in Hc.
    rewrite Forall_map, Forall_forall. intros r Hr. rewrite In_nums in Hr. apply H; lia.
Qed.

Lemma enc_right_iff : Forall right (enc_pairs R ws inp wit out) <->
  no_zero /\ wit = enc_wit /\ out = enc_out.
Proof.
  rewrite enc_pairs_all. split.
  - intros H.
    assert (HX : forall n, n < Nr R -> seqv R (x_out n) (ShiftRows R (SubBytes (state_in R ws inp wit n)))).
    { intros n Hn. apply inv_shift_iff; [exact HNb|]. intros r c Hr Hc. apply (H n r c Hn Hr Hc). }
    assert (HS : forall n, n < Nr R -> seqv R (state_in R ws inp wit n) (before_sub R ws (load inp) (N.to_nat n))).
    { induction n as [|n IH] using N.peano_ind; intros Hn; [apply seqv_refl|].
      unfold state_in. replace (N.succ n =? 0) with false by lia. replace (N.succ n - 1) with n by lia.
      rewrite N2Nat.inj_succ. cbn [before_sub]. replace (N.of_nat (S (N.to_nat n))) with (N.succ n) by lia.
      apply seqv_ark, seqv_mix. pose proof (HX n ltac:(lia)) as HXn. unfold x_out in HXn.
      replace (n <? Nr R - 1) with true in HXn by lia. eapply seqv_trans; [exact HXn|].
      apply seqv_shift; [lia|]. apply seqv_sub, IH. lia. }
    assert (HXB : forall n, n < Nr R -> seqv R (x_out n) (after_shift n)).
    { intros n Hn. eapply seqv_trans; [apply HX, Hn|]. apply seqv_shift; [lia|]. apply seqv_sub, HS, Hn. }
    split; [|split].
    + intros n r c Hn Hr Hc. rewrite <- HS by assumption. apply (H n r c Hn Hr Hc).
    + apply (list_ext 0); [rewrite enc_wit_len; exact Hwl|]. intros i Hi. rewrite Hwl in Hi.
      unfold enc_wit. rewrite (concat_blocks_nth 0 _ (4 * Nb R)) by (try lia; intros; apply store_len).
      set (n := i / (4 * Nb R)). assert (Hn : n < Nr R - 1) by (apply N.div_lt_upper_bound; lia).
      assert (Hm : i = 4 * Nb R * n + i mod (4 * Nb R)) by (apply N.div_mod; lia).
      assert (Hm2 : i mod (4 * Nb R) < 4 * Nb R) by (apply N.mod_lt; lia).
      pose proof (HXB n ltac:(lia)) as E. unfold x_out in E. replace (n <? Nr R - 1) with true in E by lia.
      apply store_load in E.
      * rewrite <- E, piece_eq, nthN_takeN, nthN_dropN by exact Hm2. rewrite <- Hm. reflexivity.
      * rewrite piece_eq, lenN_takeN, lenN_dropN, Hwl.
        apply N.min_l. apply N.le_add_le_sub_l. rewrite <- N.mul_succ_r. apply N.mul_le_mono_l.
        clear - Hn. lia.
    + pose proof (HXB (Nr R - 1) ltac:(lia)) as E. unfold x_out in E. rewrite N.ltb_irrefl in E.
      apply store_load; [exact Hol|]. eapply seqv_trans; [apply seqv_sym, (ark_ark R ws (Nr R))|]. apply seqv_ark, E.
  - intros (HZ & EW & EO).
    assert (HXB : forall n, n < Nr R -> seqv R (x_out n) (after_shift n)).
    { intros n Hn. unfold x_out. destruct (n <? Nr R - 1) eqn:E.
      - rewrite EW, enc_wit_piece by lia. apply load_store.
      - rewrite EO. replace n with (Nr R - 1) by lia. unfold enc_out.
        eapply seqv_trans; [apply seqv_ark, load_store|]. apply ark_ark. }
    assert (HS : forall n, n < Nr R -> seqv R (state_in R ws inp wit n) (before_sub R ws (load inp) (N.to_nat n))).
    { intros n Hn. destruct n as [|q] eqn:En; [apply seqv_refl|]. rewrite <- En in *. clear En.
      unfold state_in. destruct (n =? 0) eqn:E0; [replace n with 0 by lia; apply seqv_refl|].
      replace (N.to_nat n) with (S (N.to_nat (n - 1))) by lia. cbn [before_sub].
      replace (N.of_nat (S (N.to_nat (n - 1)))) with n by lia.
      apply seqv_ark, seqv_mix. pose proof (HXB (n - 1) ltac:(lia)) as E. unfold x_out in E.
      replace (n - 1 <? Nr R - 1) with true in E by lia. exact E. }
    intros n r c Hn Hr Hc. split; cbn [fst snd].
    + rewrite HS by assumption. apply HZ; assumption.
    + assert (E : seqv R (state_out R ws wit out n) (SubBytes (state_in R ws inp wit n))).
      { apply inv_shift_iff; [exact HNb|]. eapply seqv_trans; [apply HXB, Hn|]. apply seqv_shift; [lia|].
        apply seqv_sub, seqv_sym, HS, Hn. }
      apply E; assumption.
Qed.
End Enc.

(** ** key schedule *)
Lemma nums_cons a n : nums a (a + N.of_nat (S n)) = a :: nums (a + 1) (a + 1 + N.of_nat n).
Proof.
  unfold nums. replace (N.to_nat (a + N.of_nat (S n) - a)) with (S n) by lia.
  replace (N.to_nat (a + 1 + N.of_nat n - (a + 1))) with n by lia. cbn [seq map].
  f_equal; [lia|]. do 2 f_equal. lia.
Qed.

Lemma claimed_length nk n : forall ws rest, length (claimed_words nk n ws rest) = (length ws + n)%nat.
Proof.
  induction n as [|n IH]; intros ws rest; cbn [claimed_words]; [lia|]. destruct (is_sub nk _);
    rewrite IH, app_length; cbn [length]; lia.
Qed.
Lemma claimed_prefix nk n : forall ws rest i, i < lenN ws ->
  nthN (claimed_words nk n ws rest) i [] = nthN ws i [].
Proof.
  induction n as [|n IH]; intros ws rest i Hi; cbn [claimed_words]; [reflexivity|].
  destruct (is_sub nk _); rewrite IH by (rewrite lenN_app; lia); apply nthN_app_l, Hi.
Qed.

Lemma word_ok_len w : word_ok w -> length w = 4%nat.
Proof. intros (a & b & c & d & -> & _). reflexivity. Qed.
Lemma word_ok_intro w : lenN w = 4 -> bytes_ok w -> word_ok w.
Proof.
  intros HL HB. destruct w as [|a [|b [|c [|d [|]]]]]; try (cbv in HL; discriminate).
  - do 4 eexists. split; [reflexivity|].
    assert (forall x, In x [a; b; c; d] -> x < 256) as H by (apply Forall_forall, HB).
    repeat split; apply H; cbn; tauto.
  - exfalso. unfold lenN in HL. cbn [length] in HL. lia.
Qed.

(** the pairs of word i *)
Definition pairs_of (nk : N) (ws : list (list N)) (i : N) : list (N * N) :=
  let prev := at_ [] ws (i - 1) in
  let diff := xor_words (at_ [] ws i) (at_ [] ws (i - nk)) in
  if i mod nk =? 0 then combine (RotWord prev) (xor_words diff (Rcon (i / nk)))
  else combine prev diff.

Lemma right_words a b : length a = length b -> Forall right (combine a b) <-> ~ In 0 a /\ b = SubWord a.
Proof.
  revert b. induction a as [|x a IH]; intros [|y b] H; cbn [length] in H; try discriminate; cbn [combine SubWord map In].
  - split; [intros _; split; [tauto|reflexivity]|constructor].
  - rewrite Forall_cons_iff, IH by lia. unfold right. cbn [fst snd]. unfold SubWord. split.
    + intros ((Hx & Hy) & HZ & HB). split; [intros [H0|H0]; [congruence|tauto]|congruence].
    + intros (HZ & HB). injection HB as H1 H2. repeat split; try assumption; tauto.
Qed.

Lemma eq4 (a b c d a' b' c' d' : N) : a = a' -> b = b' -> c = c' -> d = d' -> [a; b; c; d] = [a'; b'; c'; d'].
Proof. congruence. Qed.
Lemma xorw_cancel a b c : word_ok a -> word_ok b -> word_ok c -> xor_words a b = c <-> a = xor_words b c.
Proof.
  intros (a1 & a2 & a3 & a4 & -> & _) (b1 & b2 & b3 & b4 & -> & _) (c1 & c2 & c3 & c4 & -> & _).
  unfold xor_words. cbn [combine map].
  split; intros H; injection H as H1 H2 H3 H4; subst; apply eq4;
    rewrite ?(N.lxor_comm b1), ?(N.lxor_comm b2), ?(N.lxor_comm b3), ?(N.lxor_comm b4);
    rewrite ?N.lxor_assoc, ?N.lxor_nilpotent, ?N.lxor_0_r; reflexivity.
Qed.

Lemma pairs_right nk ws i : is_sub nk i = true -> word_ok (at_ [] ws i) -> word_ok (at_ [] ws (i - nk)) ->
  word_ok (at_ [] ws (i - 1)) ->
  Forall right (pairs_of nk ws i) <->
  ~ In 0 (at_ [] ws (i - 1)) /\ at_ [] ws i = xor_words (at_ [] ws (i - nk)) (temp_word nk i (at_ [] ws (i - 1))).
Proof.
  intros HS H1 H2 H3. unfold pairs_of, temp_word. unfold is_sub in HS. cbv zeta.
  destruct (i mod nk =? 0) eqn:E0.
  - pose proof (xor_words_ok _ _ H1 H2) as H12. pose proof (RotWord_ok _ H3) as H4.
    pose proof (SubWord_ok _ H4) as H5. pose proof (Rcon_ok (i / nk)) as H6.
    rewrite right_words by (rewrite !word_ok_len by (try assumption; apply xor_words_ok; assumption); reflexivity).
    rewrite In_RotWord. rewrite xorw_cancel by assumption.
    rewrite xorw_cancel by (try assumption; apply xor_words_ok; assumption).
    assert (EC : xor_words (Rcon (i / nk)) (SubWord (RotWord (at_ [] ws (i - 1)))) =
                 xor_words (SubWord (RotWord (at_ [] ws (i - 1)))) (Rcon (i / nk))).
    { destruct H5 as (s1 & s2 & s3 & s4 & -> & _). unfold Rcon, xor_words. cbn [combine map].
      rewrite (N.lxor_comm _ s1), (N.lxor_comm _ s2), (N.lxor_comm _ s3), (N.lxor_comm _ s4). reflexivity. }
    rewrite EC. reflexivity.
  - cbn [orb] in HS. rewrite HS.
    pose proof (xor_words_ok _ _ H1 H2) as H12. pose proof (SubWord_ok _ H3) as H5.
    rewrite right_words by (rewrite !word_ok_len by assumption; reflexivity).
    rewrite xorw_cancel by assumption. reflexivity.
Qed.

Section Sched.
Variable nk : N.
Hypothesis Hnk : 0 < nk.
Local Notation sub_list k n := (filter (is_sub nk) (nums k (k + N.of_nat n))).
Local Notation words_ok := (Forall word_ok).

Lemma words_at ws i : words_ok ws -> i < lenN ws -> word_ok (at_ [] ws i).
Proof. intros H Hi. rewrite Forall_forall in H. apply H. apply nth_In. unfold lenN in Hi. lia. Qed.
Lemma temp_ok i w : word_ok w -> word_ok (temp_word nk i w).
Proof.
  intros H. unfold temp_word. destruct (i mod nk =? 0).
  - apply xor_words_ok; [apply SubWord_ok, RotWord_ok, H|apply Rcon_ok].
  - destruct ((6 <? nk) && (i mod nk =? 4)); [apply SubWord_ok|]; exact H.
Qed.
Lemma next_word_eq ws : next_word nk ws =
  xor_words (at_ [] ws (lenN ws - nk)) (temp_word nk (lenN ws) (at_ [] ws (lenN ws - 1))).
Proof. reflexivity. Qed.
Lemma next_ok ws : words_ok ws -> nk <= lenN ws -> word_ok (next_word nk ws).
Proof.
  intros H HL. rewrite next_word_eq. apply xor_words_ok; [|apply temp_ok]; apply words_at; auto; lia.
Qed.
Lemma expand_ok n : forall ws, words_ok ws -> nk <= lenN ws -> words_ok (expand nk n ws).
Proof.
  induction n as [|n IH]; intros ws H HL; cbn [expand]; [exact H|]. apply IH.
  - apply Forall_app. split; [exact H|]. constructor; [apply next_ok; assumption|constructor].
  - rewrite lenN_app. lia.
Qed.
Lemma not_sub_temp i w : is_sub nk i = false -> temp_word nk i w = w.
Proof.
  unfold is_sub, temp_word. intros H. apply orb_false_iff in H. destruct H as [-> ->]. reflexivity.
Qed.
Lemma concat_words ws : words_ok ws -> lenN (concat ws) = 4 * lenN ws.
Proof.
  induction 1 as [|w ws Hw _ IH]; [reflexivity|]. cbn [concat]. rewrite lenN_app, lenN_cons, IH.
  unfold lenN at 1. rewrite (word_ok_len _ Hw). lia.
Qed.

(** honest witness: the claimed schedule is the schedule *)
Lemma claimed_honest n : forall ws, words_ok ws -> nk <= lenN ws ->
  claimed_words nk n ws (concat (map (at_ [] (expand nk n ws)) (sub_list (lenN ws) n))) = expand nk n ws.
Proof.
  induction n as [|n IH]; intros ws H HL; cbn [claimed_words expand]; [reflexivity|].
  rewrite nums_cons. cbn [filter]. fold (lenN ws).
  set (ws1 := ws ++ [next_word nk ws]).
  assert (L1 : lenN ws1 = lenN ws + 1) by (unfold ws1; rewrite lenN_app; reflexivity).
  assert (O1 : words_ok ws1).
  { apply Forall_app. split; [exact H|]. constructor; [apply next_ok; assumption|constructor]. }
  specialize (IH ws1 O1 ltac:(lia)). rewrite L1 in IH.
  assert (EN : at_ [] (expand nk n ws1) (lenN ws) = next_word nk ws).
  { rewrite at_nthN, expand_prefix by lia. unfold ws1. rewrite nthN_app_r by lia. rewrite N.sub_diag. reflexivity. }
  destruct (is_sub nk (lenN ws)) eqn:ES.
  - cbn [map concat]. rewrite EN.
    pose proof (word_ok_len _ (next_ok ws H HL)) as LN.
    replace (firstn 4 _) with (next_word nk ws).
    + replace (skipn 4 _) with (concat (map (at_ [] (expand nk n ws1)) (sub_list (lenN ws + 1) n))); [exact IH|].
      rewrite skipn_app, LN. rewrite skipn_all2 by lia. reflexivity.
    + rewrite firstn_app, LN, firstn_all2 by lia. cbn [Nat.sub firstn]. rewrite app_nil_r. reflexivity.
  - replace (xor_words _ _) with (next_word nk ws); [exact IH|]. rewrite next_word_eq, not_sub_temp by exact ES. reflexivity.
Qed.

(** right claims: the schedule is the schedule, and the witness holds its words *)
Lemma claimed_right n : forall ws rest, words_ok ws -> nk <= lenN ws -> bytes_ok rest ->
  lenN rest = 4 * lenN (sub_list (lenN ws) n) ->
  Forall right (flat_map (pairs_of nk (claimed_words nk n ws rest)) (sub_list (lenN ws) n)) ->
  claimed_words nk n ws rest = expand nk n ws /\
  rest = concat (map (at_ [] (expand nk n ws)) (sub_list (lenN ws) n)) /\
  (forall i, In i (sub_list (lenN ws) n) -> ~ In 0 (at_ [] (expand nk n ws) (i - 1))).
Proof.
  induction n as [|n IH]; intros ws rest H HL HB HR HF.
  { cbn [claimed_words expand]. replace (nums (lenN ws) (lenN ws + N.of_nat 0)) with (@nil N) in *
      by (unfold nums; rewrite N.add_0_r, N.sub_diag; reflexivity).
    cbn [filter map concat lenN length] in *. repeat split; [|intros i []].
    apply length_zero_iff_nil. unfold lenN in HR. cbn in HR. lia. }
  revert HR HF. rewrite nums_cons. cbn [filter claimed_words expand]. fold (lenN ws).
  destruct (is_sub nk (lenN ws)) eqn:ES.
  - intros HR HF. cbn [flat_map] in HF. apply Forall_app in HF. destruct HF as [HF0 HF]. rewrite lenN_cons in HR.
    set (x := firstn 4 rest) in *. set (rest1 := skipn 4 rest) in *.
    assert (ER : rest = x ++ rest1) by (symmetry; apply firstn_skipn).
    assert (HBR : bytes_ok x /\ bytes_ok rest1) by (rewrite ER in HB; apply Forall_app in HB; exact HB).
    assert (HLR : lenN x = 4 /\ lenN rest1 = 4 * lenN (sub_list (lenN ws + 1) n)).
    { unfold x, rest1, lenN in *. rewrite firstn_length, skipn_length. lia. }
    assert (HX : word_ok x) by (apply word_ok_intro; tauto).
    set (W := claimed_words nk n (ws ++ [x]) rest1) in *.
    assert (E1 : at_ [] W (lenN ws) = x).
    { unfold W. rewrite at_nthN, claimed_prefix by (rewrite lenN_app, lenN_cons; lia). rewrite nthN_app_r by lia.
      rewrite N.sub_diag. reflexivity. }
    assert (E2 : forall i, i < lenN ws -> at_ [] W i = at_ [] ws i).
    { intros i Hi. unfold W. rewrite !at_nthN, claimed_prefix by (rewrite lenN_app; lia). apply nthN_app_l, Hi. }
    apply (pairs_right nk W (lenN ws) ES) in HF0; try (rewrite ?E1, ?E2 by lia; try apply words_at; auto; lia).
    rewrite E1, !E2 in HF0 by lia. destruct HF0 as [HZ0 EX]. rewrite <- next_word_eq in EX.
    assert (L1 : lenN (ws ++ [x]) = lenN ws + 1) by (rewrite lenN_app; reflexivity).
    specialize (IH (ws ++ [x]) rest1). rewrite L1 in IH.
    destruct IH as (I1 & I2 & I3); try tauto; try lia.
    { apply Forall_app. split; [exact H|]. constructor; [exact HX|constructor]. }
    rewrite EX in I1, I2, I3. rewrite <- EX in I1 at 1. fold W in I1.
    assert (EN : at_ [] (expand nk n (ws ++ [next_word nk ws])) (lenN ws) = x).
    { rewrite <- I1. exact E1. }
    split; [|split].
    + exact I1.
    + cbn [map concat]. rewrite EN, <- I2. exact ER.
    + intros i [<-|Hi]; [|apply I3, Hi]. rewrite <- I1, E2 by lia. exact HZ0.
  - intros HR HF.
    assert (EX : xor_words (at_ [] ws (lenN ws - nk)) (at_ [] ws (lenN ws - 1)) = next_word nk ws).
    { rewrite next_word_eq, not_sub_temp by exact ES. reflexivity. }
    rewrite EX in *.
    assert (L1 : lenN (ws ++ [next_word nk ws]) = lenN ws + 1) by (rewrite lenN_app; reflexivity).
    specialize (IH (ws ++ [next_word nk ws]) rest). rewrite L1 in IH. apply IH; try assumption; try lia.
    apply Forall_app. split; [exact H|]. constructor; [apply next_ok; assumption|constructor].
Qed.
End Sched.
