(** Closed form of aes_extend_witness, and the witness relation (C28, C29). *)
From Verif.Model Require Import Aes Owf.
From Verif.Spec Require Import AesSpec OwfSpec ConstraintSpec ConstraintMap.
From Verif.Proof Require Import BaseProof EmbedProof AesProof PrgProof ClaimProof.
From Coq Require Import Lia ZifyBool ZifyNat ZifyN.
Ltac Zify.zify_post_hook ::= Z.div_mod_to_equations.

Lemma w_append_ok cap w x : lenN w + lenN x <= cap -> w_append cap w x = Ok (w ++ x).
Proof. intros H. unfold w_append. rewrite guard_true by (apply N.leb_le; exact H). reflexivity. Qed.

Lemma nth4_0 (a b c d : N) : nthN [a; b; c; d] 0 0 = a. Proof. reflexivity. Qed.
Lemma nth4_1 (a b c d : N) : nthN [a; b; c; d] 1 0 = b. Proof. reflexivity. Qed.
Lemma nth4_2 (a b c d : N) : nthN [a; b; c; d] 2 0 = c. Proof. reflexivity. Qed.
Lemma nth4_3 (a b c d : N) : nthN [a; b; c; d] 3 0 = d. Proof. reflexivity. Qed.

Section Cipher.
Variable c : cipher.
Hypothesis CK : cipher_ok c.
Local Notation R := (mkRijndael (c_kw c) (c_bw c) (c_nr c)).
Variable key : list N.
Hypothesis Hkl : 4 * c_kw c <= lenN key.
Hypothesis Hkb : bytes_ok key.
Variable rk : round_keys.
Hypothesis HRK : rk_ok c key rk (total c).
Local Notation ws := (KeyExpansion R key).

Lemma witness_block_ok pt off cap w : off + 4 * c_bw c <= lenN pt -> bytes_ok pt ->
  lenN w + 4 * c_bw c * (c_nr c - 1) <= cap ->
  (let! st := load_state pt off (c_bw c) in
   let! st := add_round_key 0 st rk (c_bw c) in
   let! s := foldM (witness_round rk (c_bw c) cap) (Nfromto 1 (c_nr c)) (st, w) in
   Ok (snd s)) = Ok (w ++ enc_wit R ws (takeN (4 * c_bw c) (dropN off pt))).
Proof.
  intros HL HB HC. rewrite (load_state_ok c key Hkl) by exact HL. cbn [bind].
  rewrite (add_round_key_ok c CK key) by (try assumption; apply N.le_0_l). cbn [bind].
  set (s := load (takeN (4 * c_bw c) (dropN off pt))).
  assert (Hs : st_ok c s) by (apply load_st_ok, Forall_takeN, Forall_dropN, HB).
  assert (Hnr : 1 <= c_nr c) by (destruct CK; lia).
  destruct (foldM_Nfromto_inv (witness_round rk (c_bw c) cap)
     (fun k st => fst st = stW c (before_sub R ws s (N.to_nat (k - 1))) /\
                  snd st = w ++ concat (tab (k - 1) (fun n => store R (ShiftRows R (SubBytes (before_sub R ws s (N.to_nat n)))))))
     1 (c_nr c) (stW c (AddRoundKey R ws 0 s), w)) as ([st w'] & E & H1 & H2).
  - exact Hnr.
  - cbn [fst snd]. split; [reflexivity|]. rewrite N.sub_diag. symmetry. apply app_nil_r.
  - intros k [st w'] Hk [H1 H2]. cbn [fst snd] in H1, H2. unfold witness_round. rewrite H1.
    assert (HBS : st_ok c (before_sub R ws s (N.to_nat (k - 1)))) by (apply (before_sub_st_ok c CK key); try assumption; lia).
    destruct (sub_bytes_ok c key Hkl _ HBS) as (z & E & HZ). rewrite E. cbn [bind fst].
    rewrite (shift_row_ok c CK key Hkl). cbn [bind].
    rewrite w_append_ok.
    + cbn [bind]. rewrite (mix_column_ok c key Hkl) by (apply (ShiftRows_st_ok c CK key Hkl), SubBytes_st_ok, HBS). cbn [bind].
      rewrite (add_round_key_ok c CK key) by (try assumption; lia). cbn [bind].
      eexists. split; [reflexivity|]. cbn [fst snd].
      replace (k + 1 - 1) with (k - 1 + 1) by lia. split.
      * replace (N.to_nat (k - 1 + 1)) with (S (N.to_nat (k - 1))) by lia. cbn [before_sub].
        replace (N.of_nat (S (N.to_nat (k - 1)))) with k by lia. reflexivity.
      * rewrite tab_succ, concat_app, H2. cbn [concat]. rewrite app_nil_r, <- app_assoc.
        rewrite (store_state_ok c). reflexivity.
    + rewrite (store_state_ok c), H2, lenN_app, store_len.
      rewrite (concat_blocks_len _ (4 * c_bw c)) by (intros; apply store_len). cbn [Nb].
      etransitivity; [|exact HC]. rewrite <- N.add_assoc. apply N.add_le_mono_l.
      rewrite <- N.mul_succ_r. apply N.mul_le_mono_l. lia.
  - cbn [fst snd] in H1, H2. rewrite E. cbn [bind snd]. rewrite H2. reflexivity.
Qed.

(** the first words of the schedule are the key *)
Lemma key_words_concat : lenN key = 4 * c_kw c -> concat (tab (c_kw c) (fun i => w_ c key i)) = key.
Proof.
  intros HL. apply (list_ext 0).
  - rewrite HL. rewrite (tab_ext _ _ (key_word key)) by (intros; apply w_low; assumption).
    apply concat_blocks_len. reflexivity.
  - intros i Hi.
    rewrite (tab_ext _ _ (key_word key)) in * by (intros; apply w_low; assumption).
    rewrite (concat_blocks_len _ 4) in Hi by reflexivity.
    rewrite (concat_blocks_nth 0 _ 4) by (try lia; reflexivity).
    unfold key_word. rewrite !at_nthN. assert (Hm : i mod 4 < 4) by (apply N.mod_lt; discriminate).
    destruct (lt4 c key Hkl (i mod 4) Hm) as [E|[E|[E|E]]]; rewrite E; rewrite ?nth4_0, ?nth4_1, ?nth4_2, ?nth4_3; f_equal; clear - E; lia.
Qed.
End Cipher.

(** ** the witness *)
Definition witness (i : paramid) (key inp : list N) : list N :=
  let R := cipher_of i in
  if is_em i then key ++ enc_wit R (KeyExpansion R inp) key
  else key ++ concat (map (at_ [] (KeyExpansion R key)) (subs R)) ++
       concat (tab (blocks_of i) (fun b => enc_wit R (KeyExpansion R key) (block R inp b))).

Definition mcipher (i : paramid) : cipher :=
  match i with
  | FAEST_128S | FAEST_128F | FAEST_EM_128S | FAEST_EM_128F => aes128
  | FAEST_192S | FAEST_192F => aes192
  | FAEST_256S | FAEST_256F => aes256
  | FAEST_EM_192S | FAEST_EM_192F => rijndael192
  | FAEST_EM_256S | FAEST_EM_256F => rijndael256
  end.
Lemma mcipher_in i : In (mcipher i, cipher_of i) ciphers.
Proof. destruct i; cbn; tauto. Qed.

Definition step_of (i : paramid) : N := if p_lambda (param_of i) =? 192 then 6 else 4.

(** per-set facts *)
Record shape (i : paramid) : Prop := {
  sh_key : owf_key_size i = p_lambda (param_of i) / 8;
  sh_ws : witness_shape i = (c_bw (mcipher i), blocks_of i);
  sh_wc : witness_cipher (p_lambda (param_of i)) (c_bw (mcipher i)) = mcipher i;
  sh_R : p_R (param_of i) = c_nr (mcipher i);
  sh_em : is_em i = (p_Lke (param_of i) =? 0);
  sh_lam : p_lambda (param_of i) / 8 = 4 * c_kw (mcipher i);
  sh_cap : (p_l (param_of i) + 7) / 8 = p_l (param_of i) / 8;
  sh_Nr : 2 <= c_nr (mcipher i)
}.
Lemma shape_ok i : shape i.
Proof. destruct i; constructor; reflexivity || (cbn; lia). Qed.

Record aes_shape (i : paramid) : Prop := {
  as_bw : c_bw (mcipher i) = 4;
  as_inp : owf_input_size i = 16 * blocks_of i;
  as_Nwd : p_Nwd (param_of i) = c_kw (mcipher i);
  as_subs : subs (cipher_of i) = tab (p_Ske (param_of i) / 4) (fun t => c_kw (mcipher i) + step_of i * t);
  as_last : c_kw (mcipher i) + step_of i * (p_Ske (param_of i) / 4 - 1) < total (mcipher i);
  as_cap : 4 * c_kw (mcipher i) + 4 * (p_Ske (param_of i) / 4) +
           4 * c_bw (mcipher i) * (c_nr (mcipher i) - 1) * blocks_of i = p_l (param_of i) / 8
}.
Lemma aes_shape_ok i : is_em i = false -> aes_shape i.
Proof. destruct i; intros H; try discriminate H; constructor; reflexivity. Qed.

Record em_shape (i : paramid) : Prop := {
  es_kb : c_kw (mcipher i) = c_bw (mcipher i);
  es_inp : owf_input_size i = 4 * c_kw (mcipher i);
  es_blocks : blocks_of i = 1;
  es_cap : 4 * c_bw (mcipher i) + 4 * c_bw (mcipher i) * (c_nr (mcipher i) - 1) = p_l (param_of i) / 8
}.
Lemma em_shape_ok i : is_em i = true -> em_shape i.
Proof. destruct i; intros H; try discriminate H; constructor; reflexivity. Qed.

Lemma foldM_blocks (f : list N -> N -> res (list N)) (g : N -> list N) w n :
  (forall b w', b < n -> w' = w ++ concat (tab b g) -> f w' b = Ok (w' ++ g b)) ->
  foldM f (Nrange n) w = Ok (w ++ concat (tab n g)).
Proof.
  intros H. destruct (foldM_Nrange_inv f (fun k s => s = w ++ concat (tab k g)) n w) as (s & E & HS).
  - symmetry. apply app_nil_r.
  - intros k s Hk HS. rewrite (H k s Hk HS). eexists. split; [reflexivity|].
    rewrite tab_succ, concat_app, HS. cbn [concat]. rewrite app_nil_r, app_assoc. reflexivity.
  - rewrite E, HS. reflexivity.
Qed.

Lemma toW_bytes w : word_ok w -> word_bytes (toW w) = w.
Proof. intros (a & b & c & d & -> & _). reflexivity. Qed.

Lemma map_at_tab {A B} (f : A -> B) n g : map f (tab n g) = tab n (fun i => f (g i)).
Proof. unfold tab. apply map_map. Qed.

Lemma witness_ok i key inp : lenN key = owf_key_size i -> bytes_ok key ->
  lenN inp = owf_input_size i -> bytes_ok inp ->
  aes_extend_witness i key inp = Ok (witness i key inp).
Proof.
  intros HKL HKB HIL HIB. destruct (shape_ok i) as [Hkey Hws Hwc HR Hem Hlam Hcap HNr].
  destruct (ciphers_ok _ _ (mcipher_in i)) as [CK EC].
  unfold aes_extend_witness, witness. rewrite Hws, <- Hem, Hcap. cbv beta iota zeta.
  destruct (is_em i) eqn:EM.
  - destruct (em_shape_ok i EM) as [EKB EIN EBL ECAP]. rewrite Hwc.
    replace (0 <? p_Lke (param_of i)) with false by lia.
    destruct (expand_key_ok (mcipher i) CK inp) as (rk & ret & E & HRK & HZ); [lia|exact HIB|].
    unfold init_round_keys. rewrite E. cbn [bind fst].
    rewrite slice_full' by lia. cbn [bind]. rewrite w_append_ok.
    2:{ change (lenN (@nil N)) with 0. rewrite HKL, Hkey, Hlam, <- ECAP, EKB, N.add_0_l. apply N.le_add_r. }
    cbn [bind app]. rewrite EBL. change (Nrange 1) with [0]. cbn [foldM].
    rewrite HR. rewrite (witness_block_ok (mcipher i) CK inp); try assumption; try lia.
    cbn [bind]. rewrite N.mul_0_r, dropN_0, takeN_all by lia. rewrite EC. reflexivity.
  - destruct (aes_shape_ok i EM) as [EBW EIN ENW ESUB ELAST ECAP]. rewrite Hwc.
    replace (0 <? p_Lke (param_of i)) with true by lia.
    destruct (expand_key_ok (mcipher i) CK key) as (rk & ret & E & HRK & HZ); [lia|exact HKB|].
    unfold init_round_keys. rewrite E. cbn [bind fst].
    assert (HK0 : 0 < c_kw (mcipher i)) by (destruct CK; lia).
    assert (GET : forall k, k < total (mcipher i) -> rk_get rk (k / 4) (k mod 4) = Ok (toW (w_ (mcipher i) key k))).
    { intros k Hk. rewrite <- EBW. apply HRK, Hk. }
    assert (WOK : forall k, k < total (mcipher i) -> word_ok (w_ (mcipher i) key k)).
    { intros k Hk. apply (w_ok (mcipher i) CK key); try assumption. lia. }
    assert (WL : forall k, k < total (mcipher i) -> lenN (w_ (mcipher i) key k) = 4).
    { intros k Hk. unfold lenN. rewrite (word_ok_len _ (WOK k Hk)). reflexivity. }
    pose proof (ck_total _ CK) as CT.
    set (ske := p_Ske (param_of i) / 4) in *. set (bs := 4 * c_bw (mcipher i) * (c_nr (mcipher i) - 1)) in *.
    set (cap := p_l (param_of i) / 8) in *.
    assert (LEN : forall n (f : N -> list N), (forall t, t < n -> lenN (f t) = 4) -> lenN (concat (tab n f)) = 4 * n).
    { clear. intros n f H. rewrite (tab_ext _ _ (fun t => if t <? n then f t else [0;0;0;0])).
      - apply concat_blocks_len. intros t. destruct (t <? n) eqn:Et; [apply H; lia|reflexivity].
      - intros t Ht. replace (t <? n) with true by lia. reflexivity. }
    rewrite (foldM_blocks _ (fun k => w_ (mcipher i) key k)).
    2:{ intros k w' Hk Hw'. rewrite ENW in Hk. rewrite GET by lia. cbn [bind]. rewrite toW_bytes by (apply WOK; lia).
        apply w_append_ok. rewrite Hw', WL by lia. cbn [app]. rewrite LEN by (intros; apply WL; lia).
        rewrite <- ECAP. clear - Hk. lia. }
    cbn [bind app]. rewrite ENW, (key_words_concat (mcipher i)) by lia.
    match goal with |- bind (bind (foldM ?f _ _) _) _ = _ =>
      destruct (foldM_Nrange_inv f (fun k st => st = (key ++ concat (tab k (fun t => w_ (mcipher i) key (c_kw (mcipher i) + step_of i * t))),
        c_kw (mcipher i) + step_of i * k)) ske (key, c_kw (mcipher i))) as (st & EST & HST) end.
    + cbn [tab]. unfold tab. cbn [Nrange N.to_nat Nseq map concat]. rewrite app_nil_r, N.mul_0_r, N.add_0_r. reflexivity.
    + intros k st Hk ->. assert (HB : forall t, t <= k -> c_kw (mcipher i) + step_of i * t < total (mcipher i)).
      { intros t Ht. eapply N.le_lt_trans; [|exact ELAST]. apply N.add_le_mono_l, N.mul_le_mono_l. lia. }
      rewrite GET by (apply HB; lia). cbn [bind]. rewrite toW_bytes by (apply WOK, HB; lia).
      rewrite w_append_ok.
      2:{ rewrite WL by (apply HB; lia). rewrite lenN_app, LEN by (intros; apply WL, HB; lia).
          rewrite HKL, Hkey, Hlam, <- ECAP. clear - Hk. lia. }
      cbn [bind]. eexists. split; [reflexivity|]. f_equal.
      * rewrite tab_succ, concat_app. cbn [concat]. rewrite app_nil_r, app_assoc. reflexivity.
      * unfold step_of. clear. destruct (p_lambda (param_of i) =? 192); lia.
    + rewrite EST, HST. cbn [bind fst].
      assert (HB : forall t, t < ske -> c_kw (mcipher i) + step_of i * t < total (mcipher i)).
      { intros t Ht. eapply N.le_lt_trans; [|exact ELAST]. apply N.add_le_mono_l, N.mul_le_mono_l. lia. }
      rewrite (foldM_blocks _ (fun b => enc_wit (cipher_of i) (KeyExpansion (cipher_of i) key) (block (cipher_of i) inp b))).
      * rewrite ESUB, map_at_tab. unfold w_. rewrite <- EC. rewrite <- app_assoc. reflexivity.
      * intros b w' Hb Hw'. rewrite HR. rewrite (witness_block_ok (mcipher i) CK key); try assumption; try lia.
        -- rewrite block_eq, EC. reflexivity.
        -- rewrite Hw', !lenN_app, LEN by (intros; apply WL, HB; assumption).
           rewrite (concat_blocks_len _ bs) by (intros; rewrite enc_wit_len, EC; reflexivity).
           rewrite HKL, Hkey, Hlam, <- ECAP. fold bs. rewrite <- N.add_assoc, <- N.mul_succ_r.
           apply N.add_le_mono_l, N.mul_le_mono_l. clear - Hb. lia.
Qed.

(** ** the claims of a witness are right exactly for the honest one *)
Lemma claimed_take nk n : forall ws a b,
  lenN a = 4 * lenN (filter (is_sub nk) (nums (lenN ws) (lenN ws + N.of_nat n))) ->
  claimed_words nk n ws (a ++ b) = claimed_words nk n ws a.
Proof.
  induction n as [|n IH]; intros ws a b HL; cbn [claimed_words]; [reflexivity|].
  rewrite nums_cons in HL. cbn [filter] in HL. fold (lenN ws).
  destruct (is_sub nk (lenN ws)) eqn:ES.
  - rewrite lenN_cons in HL. assert (H4 : (4 <= length a)%nat) by (unfold lenN in HL; lia).
    rewrite firstn_app, skipn_app. replace (4 - length a)%nat with 0%nat by lia.
    rewrite firstn_O, skipn_O, app_nil_r.
    apply IH. rewrite lenN_app. change (lenN [firstn 4 a]) with 1.
    unfold lenN in *. rewrite skipn_length. lia.
  - apply IH. rewrite lenN_app. change (lenN [_]) with 1. exact HL.
Qed.

Lemma no_zero_iff R key inp : no_zero R (KeyExpansion R key) inp <-> ~ zero_in_encryption R key inp.
Proof.
  unfold no_zero, zero_in_encryption. split.
  - intros H (n & r & c & Hn & Hr & Hc & E). apply (H (N.of_nat n) r c); try assumption; try lia.
    rewrite Nnat.Nat2N.id. exact E.
  - intros H n r c Hn Hr Hc E. apply H. exists (N.to_nat n), r, c. repeat split; try assumption. lia.
Qed.
Lemma enc_out_Cipher R key inp : enc_out R (KeyExpansion R key) inp = Cipher R key inp.
Proof. reflexivity. Qed.

Lemma subs_zero_iff R key : (forall i, In i (subs R) -> ~ In 0 (at_ [] (KeyExpansion R key) (i - 1))) <->
  ~ zero_in_key_expansion R key.
Proof.
  unfold subs, zero_in_key_expansion. split.
  - intros H (i & Hi & Hs & HZ). apply (H i); [|exact HZ]. apply filter_In. split; [apply In_nums; lia|].
    unfold is_sub. destruct Hs as [-> |[Hs1 ->]]; [reflexivity|]. apply N.ltb_lt in Hs1. rewrite Hs1. apply orb_true_r.
  - intros H i Hi HZ. apply filter_In in Hi. destruct Hi as [Hi Hs]. apply In_nums in Hi. apply H.
    exists i. split; [lia|]. split; [|exact HZ]. unfold is_sub in Hs. lia.
Qed.

Lemma takeN_dropN_id {A} n (l : list A) : takeN n l ++ dropN n l = l.
Proof. apply firstn_skipn. Qed.
Lemma concat_piece (f : N -> list N) k n b : (forall b, lenN (f b) = k) -> b < n ->
  piece (concat (tab n f)) (k * b) k = f b.
Proof.
  intros H. revert b. induction n as [|n IH] using N.peano_ind; intros b Hb; [lia|].
  rewrite <- N.add_1_r, tab_succ, concat_app. cbn [concat]. rewrite app_nil_r, piece_eq.
  assert (L : lenN (concat (tab n f)) = k * n) by (apply concat_blocks_len, H).
  destruct (N.eq_dec b n) as [->|Hne].
  - rewrite dropN_app_ge by lia. rewrite L, N.sub_diag, dropN_0, takeN_all; [reflexivity|]. rewrite H. lia.
  - assert (k * b + k <= k * n) by (rewrite <- N.mul_succ_r; apply N.mul_le_mono_l; lia).
    rewrite dropN_app_le by lia. rewrite takeN_app by (rewrite lenN_dropN; lia).
    rewrite <- piece_eq. apply IH. lia.
Qed.

Section AesClaims.
Variable i : paramid.
Hypothesis EM : is_em i = false.
Local Notation R := (cipher_of i).
Variables (w inp out : list N).
Hypothesis HWL : lenN w = p_l (param_of i) / 8.
Hypothesis HWB : bytes_ok w.
Hypothesis HIL : lenN inp = owf_input_size i.
Hypothesis HOL : lenN out = owf_input_size i.
Local Notation key := (takeN (owf_key_size i) w).

Lemma R_facts : 4 <= Nb R /\ 2 <= Nr R /\ 0 < Nk R /\ Nk R <= Nb R * (Nr R + 1) /\ owf_key_size i = 4 * Nk R.
Proof.
  clear. destruct i; (split; [vm_compute; discriminate|]); (split; [vm_compute; discriminate|]);
    (split; [reflexivity|]); (split; [vm_compute; discriminate|reflexivity]).
Qed.
Lemma key_part_le : key_part R + enc_part R * blocks_of i = lenN w.
Proof. rewrite HWL. clear - EM. destruct i; try discriminate EM; reflexivity. Qed.

Lemma start_words : map (key_word w) (nums 0 (Nk R)) =
  map (fun j => key_word key (N.of_nat j)) (seq 0 (N.to_nat (Nk R))).
Proof.
  unfold nums. rewrite N.sub_0_r, map_map. apply map_ext_in. intros j Hj. apply in_seq in Hj.
  destruct R_facts as (_ & _ & _ & _ & EK). unfold key_word. rewrite !at_nthN, EK.
  apply eq4; symmetry; apply nthN_takeN; lia.
Qed.
Lemma start_len : lenN (map (fun j => key_word key (N.of_nat j)) (seq 0 (N.to_nat (Nk R)))) = Nk R.
Proof. rewrite lenN_map. unfold lenN. rewrite seq_length. lia. Qed.
Lemma start_ok : Forall word_ok (map (fun j => key_word key (N.of_nat j)) (seq 0 (N.to_nat (Nk R)))).
Proof.
  apply Forall_map, Forall_forall. intros j _. apply word_ok_intro; [reflexivity|].
  unfold key_word. rewrite !at_nthN. repeat constructor; apply nthN_byte, Forall_takeN, HWB.
Qed.

Local Notation steps := (N.to_nat (Nb R * (Nr R + 1) - Nk R)).
Local Notation ws0 := (map (fun j => key_word key (N.of_nat j)) (seq 0 (N.to_nat (Nk R)))).
Local Notation sublen := (4 * lenN (subs R)).

Lemma subs_list : filter (is_sub (Nk R)) (nums (lenN ws0) (lenN ws0 + N.of_nat steps)) = subs R.
Proof.
  rewrite start_len. unfold subs. destruct R_facts as (_ & _ & _ & HT & _). do 2 f_equal. lia.
Qed.
Lemma w_split : w = key ++ takeN sublen (dropN (4 * Nk R) w) ++ dropN (key_part R) w.
Proof.
  destruct R_facts as (_ & _ & _ & _ & EK).
  rewrite <- (takeN_dropN_id (owf_key_size i) w) at 1. f_equal. rewrite EK.
  rewrite <- (takeN_dropN_id sublen (dropN (4 * Nk R) w)) at 1. f_equal. unfold key_part. rewrite dropN_dropN. reflexivity.
Qed.
Lemma schedule_eq : schedule R w = claimed_words (Nk R) steps ws0 (takeN sublen (dropN (4 * Nk R) w)).
Proof.
  unfold schedule. rewrite start_words.
  change (skipn (N.to_nat (4 * Nk R)) w) with (dropN (4 * Nk R) w).
  rewrite <- (takeN_dropN_id sublen (dropN (4 * Nk R) w)) at 1. apply claimed_take.
  rewrite subs_list, lenN_takeN, lenN_dropN, <- key_part_le. unfold key_part. fold (lenN (subs R)). clear. nia.
Qed.

Lemma key_pairs_eq ws : key_pairs R ws = flat_map (pairs_of (Nk R) ws) (subs R).
Proof. reflexivity. Qed.

Lemma block_len b : b < blocks_of i -> lenN (piece out (4 * Nb R * b) (4 * Nb R)) = 4 * Nb R.
Proof.
  intros Hb. rewrite piece_eq, lenN_takeN, lenN_dropN, HOL.
  assert (E : owf_input_size i = 4 * Nb R * blocks_of i) by (clear - EM; destruct i; try discriminate EM; reflexivity).
  rewrite E. apply N.min_l. apply N.le_add_le_sub_l. rewrite <- N.mul_succ_r. apply N.mul_le_mono_l. lia.
Qed.
Lemma wit_len b : b < blocks_of i -> lenN (piece w (key_part R + b * enc_part R) (enc_part R)) = 4 * Nb R * (Nr R - 1).
Proof.
  intros Hb. rewrite piece_eq, lenN_takeN, lenN_dropN, <- key_part_le. change (4 * Nb R * (Nr R - 1)) with (enc_part R).
  apply N.min_l. apply N.le_add_le_sub_l. rewrite (N.mul_comm b), <- N.add_assoc. apply N.add_le_mono_l.
  rewrite <- N.mul_succ_r. apply N.mul_le_mono_l. lia.
Qed.

Lemma concat_pieces (l : list N) (k n : N) : lenN l = k * n -> l = concat (tab n (fun b => piece l (k * b) k)).
Proof.
  clear. revert l. induction n as [|n IH] using N.peano_ind; intros l HL.
  - rewrite N.mul_0_r in HL. destruct l; [reflexivity|discriminate].
  - rewrite <- N.add_1_r, tab_succ, concat_app. cbn [concat]. rewrite app_nil_r.
    rewrite <- (takeN_dropN_id (k * n) l) at 1. f_equal.
    + rewrite (IH (takeN (k * n) l)) at 1 by (rewrite lenN_takeN; lia). f_equal. apply tab_ext. intros b Hb.
      rewrite !piece_eq. apply (list_ext 0).
      * rewrite !lenN_takeN, !lenN_dropN, lenN_takeN. assert (k * b + k <= k * n) by nia. lia.
      * intros j Hj. rewrite !lenN_takeN in Hj. rewrite !nthN_takeN, !nthN_dropN by lia. apply nthN_takeN. nia.
    + rewrite piece_eq, takeN_all; [reflexivity|]. rewrite lenN_dropN. lia.
Qed.

Lemma aes_claims_iff : Forall right (claims i w inp out) <->
  ~ (zero_in_key_expansion R key \/ exists b, b < blocks_of i /\ zero_in_encryption R key (block R inp b)) /\
  w = witness i key inp /\ out = owf_aes_value R (blocks_of i) key inp.
Proof.
  destruct R_facts as (HNb & HNr & HNk & HT & EK).
  unfold claims, witness. rewrite EM. cbv zeta.
  rewrite Forall_app, Forall_flat_map, (Forall_forall _ (nums 0 _)).
  assert (EI : forall b, piece inp (4 * Nb R * b) (4 * Nb R) = block R inp b) by reflexivity.
  set (rest := takeN sublen (dropN (4 * Nk R) w)).
  assert (HRL : lenN rest = sublen).
  { unfold rest. rewrite lenN_takeN, lenN_dropN, <- key_part_le. unfold key_part. fold (lenN (subs R)). clear. nia. }
  assert (KE : KeyExpansion R key = expand (Nk R) steps ws0) by reflexivity.
  split.
  - intros [HK HE].
    destruct (claimed_right (Nk R) HNk steps ws0 rest) as (E1 & E2 & E3).
    { apply start_ok. } { rewrite start_len. lia. }
    { apply Forall_takeN, Forall_dropN, HWB. } { rewrite subs_list. exact HRL. }
    { rewrite subs_list. unfold rest. rewrite <- schedule_eq. exact HK. }
    rewrite subs_list in E2, E3. unfold rest in E1 at 1. rewrite <- schedule_eq in E1. rewrite <- KE in E1, E2, E3.
    rewrite E1 in HE.
    assert (HB : forall b, b < blocks_of i ->
      no_zero R (KeyExpansion R key) (block R inp b) /\
      piece w (key_part R + b * enc_part R) (enc_part R) = enc_wit R (KeyExpansion R key) (block R inp b) /\
      piece out (4 * Nb R * b) (4 * Nb R) = enc_out R (KeyExpansion R key) (block R inp b)).
    { intros b Hb. rewrite <- EI. apply enc_right_iff; try assumption.
      - apply wit_len, Hb. - apply block_len, Hb. - apply HE, In_nums. lia. }
    split; [|split].
    + intros [HZ|(b & Hb & HZ)]; [revert HZ; apply subs_zero_iff, E3|].
      revert HZ. apply no_zero_iff. apply HB, Hb.
    + rewrite w_split at 1. f_equal. fold rest. rewrite E2. f_equal.
      assert (HD : lenN (dropN (key_part R) w) = enc_part R * blocks_of i).
      { rewrite lenN_dropN, <- key_part_le. lia. }
      rewrite (concat_pieces _ _ _ HD). f_equal. apply tab_ext. intros b Hb.
      rewrite <- (proj1 (proj2 (HB b Hb))), !piece_eq, dropN_dropN, (N.mul_comm b). reflexivity.
    + assert (HD : lenN out = 4 * Nb R * blocks_of i).
      { rewrite HOL. clear - EM. destruct i; try discriminate EM; reflexivity. }
      rewrite (concat_pieces _ _ _ HD) at 1. unfold owf_aes_value. f_equal. apply tab_ext. intros b Hb.
      rewrite (proj2 (proj2 (HB b Hb))). apply enc_out_Cipher.
  - intros (HZ & EW & EO).
    assert (E2 : rest = concat (map (at_ [] (KeyExpansion R key)) (subs R))).
    { apply (f_equal (fun x => takeN sublen (dropN (4 * Nk R) x))) in EW. fold rest in EW. rewrite EW.
      rewrite dropN_app_ge by (rewrite lenN_takeN, EK; lia).
      replace (4 * Nk R - lenN key) with 0 by (rewrite lenN_takeN, EK, <- key_part_le; unfold key_part; clear; nia).
      rewrite dropN_0.
      replace sublen with (lenN (concat (map (at_ [] (KeyExpansion R key)) (subs R)))); [apply takeN_app_exact|].
      rewrite (concat_words (Nk R) HNk).
      - rewrite lenN_map. reflexivity.
      - apply Forall_map, Forall_forall. intros j Hj. apply filter_In in Hj. destruct Hj as [Hj _]. apply In_nums in Hj.
        apply (words_at (Nk R) HNk).
        + rewrite KE. apply expand_ok; [exact HNk|apply start_ok|rewrite start_len; lia].
        + rewrite KE. unfold lenN. rewrite expand_length. pose proof start_len as SL. unfold lenN in SL. lia. }
    assert (E1 : schedule R w = KeyExpansion R key).
    { rewrite schedule_eq. fold rest. rewrite E2, KE. rewrite <- subs_list at 1.
      apply claimed_honest; [exact HNk|apply start_ok|rewrite start_len; lia]. }
    rewrite E1. split.
    + rewrite key_pairs_eq. rewrite Forall_flat_map, Forall_forall. intros j Hj.
      assert (Hj2 := Hj). apply filter_In in Hj2. destruct Hj2 as [Hj2 HS]. apply In_nums in Hj2.
      assert (WOK : forall t, t < Nb R * (Nr R + 1) -> word_ok (at_ [] (KeyExpansion R key) t)).
      { intros t Ht. apply (words_at (Nk R) HNk).
        + rewrite KE. apply expand_ok; [exact HNk|apply start_ok|rewrite start_len; lia].
        + rewrite KE. unfold lenN. rewrite expand_length. pose proof start_len as SL. unfold lenN in SL. lia. }
      apply pairs_right; try (apply WOK; lia); [exact HS|]. split.
      * revert j Hj Hj2 HS. assert (HZK : ~ zero_in_key_expansion R key) by tauto.
        rewrite <- subs_zero_iff in HZK. intros j Hj _ _. apply HZK, Hj.
      * rewrite !at_nthN, KE. apply expand_nth; rewrite start_len; lia.
    + intros b Hb. apply In_nums in Hb. rewrite EI.
      apply enc_right_iff; try assumption; [apply wit_len; lia|apply block_len; lia|].
      split; [|split].
      * apply no_zero_iff. intros HZE. apply HZ. right. exists b. split; [lia|exact HZE].
      * apply (f_equal (dropN (key_part R))) in EW. rewrite app_assoc in EW.
        assert (HD : dropN (key_part R) w = concat (tab (blocks_of i) (fun b => enc_wit R (KeyExpansion R key) (block R inp b)))).
        { rewrite EW at 1. rewrite <- E2.
          replace (key_part R) with (lenN (key ++ rest)); [apply dropN_app_exact|].
          rewrite lenN_app, HRL, lenN_takeN, EK, <- key_part_le. unfold key_part. fold (lenN (subs R)). clear. nia. }
        rewrite piece_eq, <- dropN_dropN, HD, (N.mul_comm b), <- piece_eq.
        exact (concat_piece (fun b => enc_wit R (KeyExpansion R key) (block R inp b)) (enc_part R) (blocks_of i) b
                 (fun b => enc_wit_len R (KeyExpansion R key) (block R inp b)) (proj2 Hb)).
      * rewrite EO, enc_out_Cipher. unfold owf_aes_value.
        apply (concat_piece (fun b => Cipher R key (block R inp b))); [|lia].
        intros b'. apply (Cipher_len_in (mcipher i)). apply mcipher_in.
Qed.
End AesClaims.

Lemma xor_words_bytes a b : xor_words a b = xor_bytes a b.
Proof. apply map_combine_zipw. Qed.

Lemma em_claims_iff i w inp out : is_em i = true ->
  lenN w = p_l (param_of i) / 8 -> lenN out = owf_input_size i ->
  let R := cipher_of i in let key := takeN (owf_key_size i) w in
  Forall right (claims i w inp out) <->
  ~ zero_in_encryption R inp key /\ w = witness i key inp /\ out = xor_bytes (Cipher R inp key) key.
Proof.
  intros EM HWL HOL R key. destruct (R_facts i) as (HNb & HNr & _ & _ & _). fold R in HNb, HNr.
  assert (EK : owf_key_size i = 4 * Nb R) by (clear - EM; unfold R; destruct i; try discriminate EM; reflexivity).
  assert (EO : owf_input_size i = 4 * Nb R) by (clear - EM; unfold R; destruct i; try discriminate EM; reflexivity).
  assert (EL : lenN w = 4 * Nb R + enc_part R) by (rewrite HWL; clear - EM; unfold R; destruct i; try discriminate EM; reflexivity).
  unfold claims, witness. rewrite EM. cbv zeta. fold R.
  assert (EP : piece w 0 (4 * Nb R) = key) by (rewrite piece_eq, dropN_0; unfold key; rewrite EK; reflexivity).
  assert (EQ : piece out 0 (4 * Nb R) = out) by (rewrite piece_eq, dropN_0; apply takeN_all; lia).
  assert (LK : lenN key = 4 * Nb R) by (unfold key; rewrite lenN_takeN, EK; lia).
  assert (EW : piece w (4 * Nb R) (enc_part R) = dropN (4 * Nb R) w) by (rewrite piece_eq; apply takeN_all; rewrite lenN_dropN; lia).
  rewrite EP, EQ, EW, xor_words_bytes.
  rewrite enc_right_iff; try assumption.
  - rewrite no_zero_iff. rewrite enc_out_Cipher. 
    assert (E1 : dropN (4 * Nb R) w = enc_wit R (KeyExpansion R inp) key <-> w = key ++ enc_wit R (KeyExpansion R inp) key).
    { split; intros H.
      - rewrite <- H. unfold key. rewrite EK. symmetry. apply take_drop.
      - rewrite H at 1. rewrite <- LK. apply dropN_app_exact. }
    assert (E2 : xor_bytes out key = Cipher R inp key <-> out = xor_bytes (Cipher R inp key) key).
    { pose proof (Cipher_len_in (mcipher i) R inp key (mcipher_in i)) as CL.
      split; intros H; [rewrite <- H|rewrite H]; rewrite xor_bytes_cancel by lia; reflexivity. }
    rewrite E1, E2. reflexivity.
  - rewrite lenN_dropN, EL, N.add_comm. apply N.add_sub.
  - rewrite lenN_xor; lia.
Qed.

Lemma claims_iff i w inp out : lenN w = p_l (param_of i) / 8 -> bytes_ok w ->
  lenN inp = owf_input_size i -> lenN out = owf_input_size i ->
  let key := takeN (owf_key_size i) w in
  Forall right (claims i w inp out) <->
  ~ owf_zero i key inp /\ w = witness i key inp /\ out = owf_value i key inp.
Proof.
  intros HWL HWB HIL HOL key. destruct (is_em i) eqn:EM.
  - rewrite em_claims_iff by assumption. fold key.
    replace (owf_value i key inp) with (xor_bytes (Cipher (cipher_of i) inp key) key).
    + replace (owf_zero i key inp) with (zero_in_encryption (cipher_of i) inp key); [reflexivity|].
      destruct i; try discriminate EM; reflexivity.
    + rewrite <- map_combine_zipw. destruct i; try discriminate EM; reflexivity.
  - rewrite aes_claims_iff by assumption. fold key.
    assert (X1 : forall (P : N -> Prop), (exists b, b < 1 /\ P b) <-> P 0).
    { intros P. split; [intros (b & Hb & H); replace b with 0 in H by lia; exact H|].
      intros H. exists 0. split; [lia|exact H]. }
    assert (X2 : forall (P : N -> Prop), (exists b, b < 2 /\ P b) <-> P 0 \/ P 1).
    { intros P. split.
      - intros (b & Hb & H). assert (D : b = 0 \/ b = 1) by lia. destruct D as [-> | ->]; tauto.
      - intros [H|H]; [exists 0|exists 1]; (split; [lia|exact H]). }
    replace (owf_value i key inp) with (owf_aes_value (cipher_of i) (blocks_of i) key inp).
    + assert (EZ : owf_zero i key inp <-> zero_in_key_expansion (cipher_of i) key \/
        (exists b, b < blocks_of i /\ zero_in_encryption (cipher_of i) key (block (cipher_of i) inp b))).
      { clear - EM X1 X2. destruct i; try discriminate EM; cbn [owf_zero cipher_of blocks_of]; first [rewrite X1|rewrite X2]; tauto. }
      rewrite EZ. reflexivity.
    + unfold owf_aes_value, tab. clear - EM. destruct i; try discriminate EM;
        cbn [blocks_of Nrange Nseq N.to_nat Pos.to_nat Pos.iter_op Nat.add map concat];
        change (Nrange 1) with [0]; change (Nrange 2) with [0; 1];
        cbn [map concat]; rewrite ?app_nil_r; reflexivity.
Qed.

(** ** claimed inputs and outputs are bytes *)
Definition small_words (ws : list (list N)) : Prop := Forall bytes_ok ws.
Definition byte_pair (p : N * N) : Prop := fst p < 256 /\ snd p < 256.

Lemma bytes_xorw a b : bytes_ok a -> bytes_ok b -> bytes_ok (xor_words a b).
Proof. intros. rewrite xor_words_bytes. apply bytes_ok_xor; assumption. Qed.
Lemma small_at ws i : small_words ws -> bytes_ok (at_ [] ws i).
Proof.
  intros H. unfold at_. destruct (nth_in_or_default (N.to_nat i) ws []) as [Hi| ->]; [|constructor].
  revert Hi. apply Forall_forall. exact H.
Qed.
Lemma small_app ws x : small_words ws -> bytes_ok x -> small_words (ws ++ [x]).
Proof. intros H1 H2. apply Forall_app. split; [exact H1|]. constructor; [exact H2|constructor]. Qed.
Lemma small_claimed nk n : forall ws rest, small_words ws -> bytes_ok rest -> small_words (claimed_words nk n ws rest).
Proof.
  induction n as [|n IH]; intros ws rest H1 H2; cbn [claimed_words]; [exact H1|].
  destruct (is_sub nk _); apply IH; try apply small_app; try assumption.
  - apply (Forall_takeN _ 4 rest H2). - apply (Forall_dropN _ 4 rest H2).
  - apply bytes_xorw; apply small_at, H1.
Qed.
Lemma small_key_word w i : bytes_ok w -> bytes_ok (key_word w i).
Proof. intros H. unfold key_word. rewrite !at_nthN. repeat constructor; apply nthN_byte, H. Qed.
Lemma small_schedule R w : bytes_ok w -> small_words (schedule R w).
Proof.
  intros H. apply small_claimed; [|apply (Forall_dropN _ (4 * Nk R) w H)].
  apply Forall_map, Forall_forall. intros. apply small_key_word, H.
Qed.
Lemma small_rot w : bytes_ok w -> bytes_ok (RotWord w).
Proof.
  unfold bytes_ok. rewrite !Forall_forall. intros H x Hx. apply H. apply (proj1 (In_RotWord w x)), Hx.
Qed.
Lemma small_sub w : bytes_ok w -> bytes_ok (SubWord w).
Proof.
  intros H. apply Forall_map. revert H. apply Forall_impl. intros x Hx. apply sbox_lt, Hx.
Qed.
Lemma small_rcon j : bytes_ok (Rcon j).
Proof. repeat constructor. apply iter_xtime_lt. Qed.
Lemma small_expand nk n : forall ws, small_words ws -> small_words (expand nk n ws).
Proof.
  induction n as [|n IH]; intros ws H; cbn [expand]; [exact H|]. apply IH, small_app; [exact H|].
  rewrite next_word_eq. apply bytes_xorw; [apply small_at, H|]. unfold temp_word.
  pose proof (small_at ws (lenN ws - 1) H) as HT.
  destruct (_ mod nk =? 0); [|destruct (_ && _)]; auto using small_sub, small_rot, small_rcon, bytes_xorw.
Qed.
Lemma small_KeyExpansion R key : bytes_ok key -> small_words (KeyExpansion R key).
Proof. intros H. apply small_expand. apply Forall_map, Forall_forall. intros. apply small_key_word, H. Qed.

Lemma pairs_combine a b : bytes_ok a -> bytes_ok b -> Forall byte_pair (combine a b).
Proof.
  intros Ha Hb. apply Forall_forall. intros [x y] H. pose proof (in_combine_l _ _ _ _ H). pose proof (in_combine_r _ _ _ _ H).
  unfold bytes_ok in Ha, Hb. rewrite Forall_forall in Ha, Hb. split; [apply Ha|apply Hb]; assumption.
Qed.
Lemma key_pairs_small R ws : small_words ws -> Forall byte_pair (key_pairs R ws).
Proof.
  intros H. unfold key_pairs. apply Forall_flat_map, Forall_forall. intros i _. cbv zeta.
  pose proof (small_at ws i H). pose proof (small_at ws (i - 1) H). pose proof (small_at ws (i - Nk R) H).
  destruct (_ =? 0); apply pairs_combine; auto using bytes_xorw, small_rot, small_rcon.
Qed.
Definition small_state (s : cstate) : Prop := forall r c, s r c < 256.
Lemma small_load l : bytes_ok l -> small_state (load l).
Proof. intros H r c. unfold load. rewrite at_nthN. apply nthN_byte, H. Qed.
Lemma small_ark R ws n s : small_words ws -> small_state s -> small_state (AddRoundKey R ws n s).
Proof.
  intros HW H r c. unfold AddRoundKey. apply lxor_lt8; [apply H|]. rewrite at_nthN. apply nthN_byte, small_at, HW.
Qed.
Lemma small_mix s : small_state s -> small_state (MixColumns s).
Proof. intros H r c. unfold MixColumns. auto using lxor_lt8, xtime_lt. Qed.
Lemma enc_pairs_small R ws inp wit out : small_words ws -> bytes_ok inp -> bytes_ok wit -> bytes_ok out ->
  Forall byte_pair (enc_pairs R ws inp wit out).
Proof.
  intros HW HI HT HO.
  assert (HP : forall a n, bytes_ok (piece wit a n)) by (intros; apply Forall_takeN, Forall_dropN, HT).
  unfold enc_pairs. apply Forall_flat_map, Forall_forall. intros n _. apply Forall_flat_map, Forall_forall. intros c _.
  apply Forall_map, Forall_forall. intros r _. split; cbn [fst snd].
  - unfold state_in. destruct (n =? 0); apply small_ark; auto using small_load, small_mix.
  - unfold state_out, InvShiftRows. destruct (n <? _); [apply small_load, HP|apply small_ark; auto using small_load].
Qed.
Lemma claims_small i w inp out : bytes_ok w -> bytes_ok inp -> bytes_ok out -> Forall byte_pair (claims i w inp out).
Proof.
  intros HW HI HO. assert (HP : forall l a n, bytes_ok l -> bytes_ok (piece l a n)) by (intros; apply Forall_takeN, Forall_dropN; assumption).
  unfold claims. destruct (is_em i); cbv zeta.
  - apply enc_pairs_small; auto using small_KeyExpansion, bytes_xorw.
  - apply Forall_app. split; [apply key_pairs_small, small_schedule, HW|].
    apply Forall_flat_map, Forall_forall. intros b _. apply enc_pairs_small; auto using small_schedule.
Qed.

Lemma small_shift R s : small_state s -> small_state (ShiftRows R s).
Proof. intros H r c. apply H. Qed.
Lemma small_SubBytes s : small_state s -> small_state (SubBytes s).
Proof. intros H r c. apply sbox_lt, H. Qed.
Lemma small_before R ws inp n : small_words ws -> bytes_ok inp -> small_state (before_sub R ws (load inp) n).
Proof.
  intros HW HI. induction n as [|n IH]; cbn [before_sub]; apply small_ark; auto using small_load, small_mix, small_shift, small_SubBytes.
Qed.
Lemma enc_wit_bytes R ws inp : small_words ws -> bytes_ok inp -> bytes_ok (enc_wit R ws inp).
Proof.
  intros HW HI. apply Forall_concat, Forall_map, Forall_forall. intros n _. apply store_bytes. intros r c _ _.
  apply small_shift, small_SubBytes, small_before; assumption.
Qed.

Lemma witness_facts i key inp : lenN key = owf_key_size i -> bytes_ok key -> bytes_ok inp ->
  lenN (witness i key inp) = p_l (param_of i) / 8 /\ bytes_ok (witness i key inp) /\
  takeN (owf_key_size i) (witness i key inp) = key.
Proof.
  intros HKL HKB HIB. split; [|split].
  - unfold witness. destruct (is_em i) eqn:EM.
    + rewrite lenN_app, enc_wit_len, HKL. destruct i; try discriminate EM; reflexivity.
    + rewrite !lenN_app, (concat_blocks_len _ (enc_part (cipher_of i))) by (intros; apply enc_wit_len).
      rewrite (concat_words (Nk (cipher_of i)) (proj1 (proj2 (proj2 (R_facts i))))).
      * rewrite lenN_map, HKL. destruct i; try discriminate EM; reflexivity.
      * destruct (ciphers_ok _ _ (mcipher_in i)) as [CK EC].
        apply Forall_map, Forall_forall. intros j Hj. apply filter_In in Hj. destruct Hj as [Hj _]. apply In_nums in Hj.
        rewrite EC in Hj |- *. cbn [Nb Nk Nr] in Hj. apply (w_ok (mcipher i) CK key); [|exact HKB|exact (proj2 Hj)].
        destruct (shape_ok i). lia.
  - unfold witness. destruct (is_em i) eqn:EM.
    + apply Forall_app. split; [exact HKB|]. apply enc_wit_bytes; auto using small_KeyExpansion.
    + apply Forall_app. split; [exact HKB|]. apply Forall_app. split.
      * apply Forall_concat, Forall_map, Forall_forall. intros. apply small_at, small_KeyExpansion, HKB.
      * apply Forall_concat, Forall_map, Forall_forall. intros. apply enc_wit_bytes; [apply small_KeyExpansion, HKB|].
        apply Forall_takeN, Forall_dropN, HIB.
  - unfold witness. rewrite <- HKL. destruct (is_em i); apply takeN_app_exact.
Qed.
