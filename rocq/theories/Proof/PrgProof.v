(** Counter increment, PRG and one-way functions (C22 .. C25). *)
From Verif.Proof Require Import BaseProof.
From Verif.Proof Require Export AesProof.
From Verif.Model Require Export Owf.

Ltac Zify.zify_post_hook ::= Z.div_mod_to_equations.

(** * Big-endian values *)

Lemma be_val_snoc l x : be_val (l ++ [x]) = 256 * be_val l + x.
Proof. unfold be_val. rewrite fold_left_app. reflexivity. Qed.
Lemma be_bytes_length n x : length (be_bytes n x) = n.
Proof.
  revert x. induction n as [|n IH]; intros x; cbn [be_bytes]; [reflexivity|].
  rewrite app_length, IH. cbn [length]. lia.
Qed.
Lemma be_bytes_ok n x : bytes_ok (be_bytes n x).
Proof.
  revert x. induction n as [|n IH]; intros x; cbn [be_bytes]; [constructor|].
  apply bytes_ok_app; [apply IH|]. constructor; [|constructor]. unfold byte_ok.
  apply N.mod_lt. discriminate.
Qed.
Lemma be_bytes_be_val l : bytes_ok l -> be_bytes (length l) (be_val l) = l.
Proof.
  induction l as [|x l IH] using rev_ind; intros H; [reflexivity|].
  apply Forall_app in H. destruct H as [H1 H2]. inversion_clear H2 as [|? ? Hx _].
  rewrite app_length. cbn [length]. replace (length l + 1)%nat with (S (length l)) by lia.
  cbn [be_bytes]. rewrite be_val_snoc. unfold byte_ok in Hx.
  replace ((256 * be_val l + x) / 256) with (be_val l) by lia.
  replace ((256 * be_val l + x) mod 256) with x by lia.
  rewrite IH by exact H1. reflexivity.
Qed.
Lemma be_val_bound l : bytes_ok l -> be_val l < 256 ^ lenN l.
Proof.
  induction l as [|x l IH] using rev_ind; intros H; [reflexivity|].
  apply Forall_app in H. destruct H as [H1 H2]. inversion_clear H2 as [|? ? Hx _].
  rewrite be_val_snoc, lenN_app, lenN_cons. change (lenN (@nil N)) with 0.
  rewrite N.pow_add_r. change (256 ^ (0 + 1)) with 256. specialize (IH H1). unfold byte_ok in Hx. nia.
Qed.

Lemma upd_app_mid {A} (a b : list A) x y : upd (a ++ x :: b) (length a) y = a ++ y :: b.
Proof. induction a as [|z a IH]; cbn [app length upd]; [reflexivity|]. rewrite IH. reflexivity. Qed.

Lemma increment_from_ok n : forall a b, length a = n -> bytes_ok a ->
  exists a', aes_increment_iv_from n (a ++ b) = Ok (a' ++ b) /\ length a' = n /\ bytes_ok a' /\
             be_val a' = (be_val a + 1) mod 256 ^ N.of_nat n.
Proof.
  induction n as [|n IH]; intros a b Ha Hb.
  - destruct a; [|discriminate]. exists []. repeat split; constructor.
  - destruct a as [|x a _] using rev_ind; [discriminate|].
    rewrite app_length in Ha. cbn [length] in Ha. assert (Ha' : length a = n) by lia. clear Ha.
    apply Forall_app in Hb. destruct Hb as [Hb Hx]. inversion_clear Hx as [|? ? Hx' _].
    rename Hx' into Hx. unfold byte_ok in Hx.
    rewrite <- app_assoc. cbn [app]. cbn [aes_increment_iv_from].
    assert (L : lenN (a ++ x :: b) = N.of_nat n + 1 + lenN b)
      by (rewrite lenN_app, lenN_cons; unfold lenN at 1; lia).
    assert (G : nthN (a ++ x :: b) (N.of_nat n) 0 = x).
    { rewrite nthN_app_r by (unfold lenN; lia). unfold lenN. rewrite Ha', N.sub_diag. reflexivity. }
    rewrite (aget_ok _ _ 0) by lia. rewrite G. cbn [bind].
    assert (E : forall y, aset (a ++ x :: b) (N.of_nat n) y = Ok (a ++ y :: b)).
    { intros y. rewrite aset_ok by lia. rewrite Nnat.Nat2N.id, <- Ha', upd_app_mid. reflexivity. }
    rewrite !E. rewrite be_val_snoc.
    replace (N.of_nat (S n)) with (N.of_nat n + 1) by lia. rewrite N.pow_add_r, N.pow_1_r.
    pose proof (be_val_bound a Hb) as Hbd. unfold lenN in Hbd. rewrite Ha' in Hbd.
    set (M := 256 ^ N.of_nat n) in *.
    destruct (x =? 255) eqn:Ex.
    + cbn [bind]. destruct (IH a (0 :: b) Ha' Hb) as (a' & E1 & E2 & E3 & E4).
      exists (a' ++ [0]). rewrite E1, <- app_assoc. cbn [app]. split; [reflexivity|].
      split; [rewrite app_length; cbn [length]; lia|].
      split; [apply bytes_ok_app; [exact E3|repeat constructor]|].
      rewrite be_val_snoc, E4. replace x with 255 by lia.
      replace (256 * be_val a + 255 + 1) with (256 * (be_val a + 1)) by lia.
      rewrite (N.mul_comm M 256), N.mul_mod_distr_l by (unfold M; try apply N.pow_nonzero; discriminate).
      lia.
    + exists (a ++ [x + 1]). rewrite <- app_assoc. cbn [app]. split; [reflexivity|].
      split; [rewrite app_length; cbn [length]; lia|].
      split; [apply bytes_ok_app; [exact Hb|constructor; [unfold byte_ok; lia|constructor]]|].
      rewrite be_val_snoc. rewrite N.mod_small; [lia|]. nia.
Qed.

Lemma aes_increment_iv_ok iv : lenN iv = 16 -> bytes_ok iv ->
  aes_increment_iv iv = Ok (be_bytes 16 ((be_val iv + 1) mod 2 ^ 128)).
Proof.
  intros HL HB. unfold aes_increment_iv.
  destruct (increment_from_ok 16 iv [] ltac:(unfold lenN in HL; lia) HB) as (a & E1 & E2 & E3 & E4).
  rewrite !app_nil_r in E1. rewrite E1. f_equal.
  rewrite <- (be_bytes_be_val a E3), E2, E4. reflexivity.
Qed.

Lemma be_val_be_bytes n x : be_val (be_bytes n x) = x mod 256 ^ N.of_nat n.
Proof.
  revert x. induction n as [|n IH]; intros x.
  - cbn [be_bytes]. change (256 ^ N.of_nat 0) with 1. rewrite N.mod_1_r. reflexivity.
  - cbn [be_bytes]. rewrite be_val_snoc, IH.
    replace (N.of_nat (S n)) with (1 + N.of_nat n) by lia. rewrite N.pow_add_r, N.pow_1_r.
    assert (Z : 256 ^ N.of_nat n <> 0) by (apply N.pow_nonzero; discriminate).
    rewrite N.mod_mul_r by (try exact Z; discriminate). lia.
Qed.

(** * Encryption under an expanded key *)

Lemma encrypt_correct c R key : In (c, R) ciphers -> 4 * c_kw c <= lenN key -> bytes_ok key ->
  exists rk ret, init_round_keys c key = Ok (rk, ret) /\
    (ret = true <-> zero_in_key_expansion R key) /\
    forall pt off, off + 4 * c_bw c <= lenN pt -> bytes_ok pt ->
      exists z, encrypt_block c rk pt off = Ok (Cipher R key (takeN (4 * c_bw c) (dropN off pt)), z) /\
                (z = true <-> zero_in_encryption R key (takeN (4 * c_bw c) (dropN off pt))).
Proof.
  intros HC HL HB. destruct (ciphers_ok c R HC) as [CK ->].
  destruct (expand_key_ok c CK key HL HB) as (rk & ret & E & HRK & HZ).
  exists rk, ret. split; [exact E|]. split; [exact HZ|].
  intros pt off Hl Hb. apply (encrypt_block_ok c CK key); assumption.
Qed.

(** * PRG *)

Lemma prg_cipher_in s : In (prg_cipher s, aes_of s) ciphers.
Proof.
  unfold prg_cipher, aes_of.
  repeat match goal with |- context [match ?x with _ => _ end] => destruct x end; cbn; tauto.
Qed.

Lemma prg_cipher_bw s : c_bw (prg_cipher s) = 4.
Proof. unfold prg_cipher. repeat match goal with |- context [match ?x with _ => _ end] => destruct x end; reflexivity. Qed.
Lemma aes_of_Nb s : Nb (aes_of s) = 4.
Proof. unfold aes_of. repeat match goal with |- context [match ?x with _ => _ end] => destruct x end; reflexivity. Qed.

Definition ctr_block (R : rijndael) (key iv : list N) (k : N) : list N :=
  Cipher R key (be_bytes 16 ((be_val iv + k) mod 2 ^ 128)).

Lemma lenN_be_bytes n x : lenN (be_bytes n x) = N.of_nat n.
Proof. unfold lenN. rewrite be_bytes_length. reflexivity. Qed.

Lemma Cipher_len_in c R key inp : In (c, R) ciphers -> lenN (Cipher R key inp) = 4 * Nb R.
Proof.
  intros H. destruct (ciphers_ok c R H) as [CK ->]. exact (Cipher_len c key inp).
Qed.
Lemma Cipher_bytes_in c R key inp : In (c, R) ciphers -> 4 * c_kw c <= lenN key -> bytes_ok key ->
  bytes_ok inp -> bytes_ok (Cipher R key inp).
Proof.
  intros H HL HB HI. destruct (ciphers_ok c R H) as [CK ->].
  apply (Cipher_bytes c CK key); assumption.
Qed.

Lemma ctr_block_len s key iv k : lenN (ctr_block (aes_of s) key iv k) = 16.
Proof. unfold ctr_block. rewrite (Cipher_len_in _ _ _ _ (prg_cipher_in s)), aes_of_Nb. reflexivity. Qed.

Lemma concat_blocks_len {A} (f : N -> list A) k m : (forall i, lenN (f i) = k) ->
  lenN (concat (tab m f)) = k * m.
Proof.
  intros H. unfold tab, Nrange.
  assert (G : forall n a, lenN (concat (map f (Nseq a n))) = k * N.of_nat n).
  { induction n as [|n IH]; intros a; cbn [Nseq map concat]; [rewrite N.mul_0_r; reflexivity|].
    rewrite lenN_app, H, IH. lia. }
  rewrite G. lia.
Qed.

Lemma concat_blocks_nth {A} (d : A) (f : N -> list A) k m i : 0 < k -> (forall i, lenN (f i) = k) ->
  i < k * m -> nthN (concat (tab m f)) i d = nthN (f (i / k)) (i mod k) d.
Proof.
  intros Hk H. revert i. induction m as [|m IH] using N.peano_ind; intros i Hi; [lia|].
  rewrite <- N.add_1_r in *. rewrite tab_succ, concat_app. cbn [concat]. rewrite app_nil_r.
  destruct (N.lt_ge_cases i (k * m)) as [Hlt|Hge].
  - rewrite nthN_app_l by (rewrite (concat_blocks_len f k) by exact H; exact Hlt). apply IH, Hlt.
  - rewrite nthN_app_r by (rewrite (concat_blocks_len f k) by exact H; exact Hge).
    rewrite (concat_blocks_len f k) by exact H.
    assert (E : i / k = m) by (symmetry; apply (N.div_unique i k m (i - k * m)); nia).
    assert (E2 : i mod k = i - k * m) by (symmetry; apply (N.mod_unique i k m (i - k * m)); nia).
    rewrite E, E2. reflexivity.
Qed.

(** the key stream *)
Definition stream (R : rijndael) (key iv : list N) (n : N) : list N :=
  takeN n (concat (tab ((n + 15) / 16) (ctr_block R key iv))).

Lemma stream_len s key iv n : lenN (stream (aes_of s) key iv n) = n.
Proof.
  unfold stream. rewrite lenN_takeN, (concat_blocks_len _ 16) by (intros; apply ctr_block_len). lia.
Qed.

Lemma stream_nth s key iv n i : i < n ->
  nthN (stream (aes_of s) key iv n) i 0 = ctr_byte (aes_of s) key iv i.
Proof.
  intros Hi. unfold stream. rewrite nthN_takeN by exact Hi.
  rewrite (concat_blocks_nth 0 _ 16) by (try (intros; apply ctr_block_len); lia).
  reflexivity.
Qed.

Lemma prg_ok key iv s n : 4 * c_kw (prg_cipher s) <= lenN key -> bytes_ok key ->
  lenN iv = 16 -> bytes_ok iv ->
  prg key iv s n = Ok (stream (aes_of s) key iv n).
Proof.
  intros HKL HKB HIL HIB. unfold prg. rewrite slice_full' by exact HIL. cbn [bind].
  destruct (encrypt_correct _ _ key (prg_cipher_in s) HKL HKB) as (rk & ret & E & _ & HE).
  rewrite E. cbn [bind fst].
  assert (EB : forall x, exists z, encrypt_block (prg_cipher s) rk (be_bytes 16 x) 0 =
                 Ok (Cipher (aes_of s) key (be_bytes 16 x), z)).
  { intros x. destruct (HE (be_bytes 16 x) 0) as (z & EZ & _).
    - rewrite prg_cipher_bw, lenN_be_bytes. vm_compute. discriminate.
    - apply be_bytes_ok.
    - rewrite dropN_0, takeN_all in EZ; [exists z; exact EZ|].
      rewrite prg_cipher_bw, lenN_be_bytes. vm_compute. discriminate. }
  destruct (foldM_Nrange_inv (prg_block (prg_cipher s) rk)
     (fun k st => fst st = be_bytes 16 ((be_val iv + k) mod 2 ^ 128) /\
                  snd st = concat (tab k (ctr_block (aes_of s) key iv))) (n / 16) (iv, []))
    as ([iv' out] & EF & H1 & H2).
  - cbn [fst snd]. split; [|reflexivity]. rewrite N.add_0_r, N.mod_small.
    + assert (L : length iv = 16%nat) by (unfold lenN in HIL; lia).
      rewrite <- L. symmetry. apply be_bytes_be_val, HIB.
    + pose proof (be_val_bound iv HIB) as B. rewrite HIL in B. exact B.
  - intros k [iv1 out1] Hk [H1 H2]. cbn [fst snd] in H1, H2. unfold prg_block. rewrite H1.
    destruct (EB ((be_val iv + k) mod 2 ^ 128)) as (z & EZ). rewrite EZ. cbn [bind fst].
    rewrite aes_increment_iv_ok by (try apply be_bytes_ok; rewrite lenN_be_bytes; reflexivity).
    cbn [bind]. eexists. split; [reflexivity|]. cbn [fst snd]. split.
    + f_equal. rewrite be_val_be_bytes. change (256 ^ N.of_nat 16) with (2 ^ 128).
      assert (Z : 2 ^ 128 <> 0) by (apply N.pow_nonzero; discriminate).
      rewrite N.mod_mod by exact Z. rewrite N.add_mod_idemp_l by exact Z. f_equal. lia.
    + rewrite tab_succ, concat_app, H2. cbn [concat]. rewrite app_nil_r. reflexivity.
  - rewrite EF. cbn [bind]. cbn [fst snd] in H1, H2. rewrite H1, H2. unfold stream.
    destruct (n mod 16 =? 0) eqn:Em.
    + f_equal. replace ((n + 15) / 16) with (n / 16) by lia. symmetry. apply takeN_all.
      rewrite (concat_blocks_len _ 16) by (intros; apply ctr_block_len). lia.
    + destruct (EB ((be_val iv + n / 16) mod 2 ^ 128)) as (z & EZ). rewrite EZ. cbn [bind fst].
      f_equal. replace ((n + 15) / 16) with (n / 16 + 1) by lia.
      rewrite tab_succ, concat_app. cbn [concat]. rewrite app_nil_r.
      rewrite takeN_app_ge; rewrite (concat_blocks_len _ 16) by (intros; apply ctr_block_len); [|lia].
      f_equal. unfold ctr_block. f_equal. lia.
Qed.

Lemma stream_bytes s key iv n : 4 * c_kw (prg_cipher s) <= lenN key -> bytes_ok key ->
  bytes_ok (stream (aes_of s) key iv n).
Proof.
  intros HKL HKB. apply bytes_ok_nth. rewrite stream_len. intros i Hi. rewrite stream_nth by exact Hi.
  unfold ctr_byte. rewrite at_nthN. apply nthN_byte.
  apply (Cipher_bytes_in _ _ _ _ (prg_cipher_in s) HKL HKB). apply be_bytes_ok.
Qed.

Lemma stream_prefix s key iv m n : m <= n ->
  takeN m (stream (aes_of s) key iv n) = stream (aes_of s) key iv m.
Proof.
  intros H. apply (list_ext 0).
  - rewrite lenN_takeN, !stream_len. lia.
  - intros i Hi. rewrite lenN_takeN, stream_len in Hi.
    rewrite nthN_takeN, !stream_nth by lia. reflexivity.
Qed.

(** * One-way functions *)

Lemma block_eq R inp b : block R inp b = takeN (4 * Nb R) (dropN (4 * Nb R * b) inp).
Proof. reflexivity. Qed.

Lemma map_combine_zipw (l m : list N) : map (fun '(x, y) => N.lxor x y) (combine l m) = xor_bytes l m.
Proof. revert m. induction l as [|x l IH]; intros [|y m]; cbn; [reflexivity..|]. rewrite IH. reflexivity. Qed.

Definition owf_aes_value R n key inp : list N :=
  concat (tab n (fun b => Cipher R key (block R inp b))).

Lemma owf_aes_ok c R n key inp : In (c, R) ciphers -> c_bw c = 4 ->
  4 * c_kw c <= lenN key -> bytes_ok key -> 16 * n <= lenN inp -> bytes_ok inp ->
  exists ok, owf_aes c n key inp = Ok (owf_aes_value R n key inp, ok) /\
    (ok = true <-> ~ (zero_in_key_expansion R key \/
                      exists b, b < n /\ zero_in_encryption R key (block R inp b))).
Proof.
  intros HC Hbw HKL HKB HIL HIB. unfold owf_aes.
  destruct (encrypt_correct c R key HC HKL HKB) as (rk & ret & E & HZ & HE).
  assert (HNb : Nb R = 4) by (destruct (ciphers_ok c R HC) as [_ ->]; exact Hbw).
  rewrite E. cbn [bind].
  match goal with |- exists ok, foldM ?f _ _ = _ /\ _ =>
    destruct (foldM_Nrange_inv f (fun k st =>
       fst st = owf_aes_value R k key inp /\
       (snd st = true <-> ~ (zero_in_key_expansion R key \/
                      exists b, b < k /\ zero_in_encryption R key (block R inp b)))) n ([], negb ret))
      as ([out ok] & EF & H1 & H2) end.
  - split; [reflexivity|]. cbn [snd]. rewrite negb_true_iff, <- not_true_iff_false, HZ.
    split; [intros H [G|(b & G & _)]; [tauto|lia]|tauto].
  - intros k [out ok] Hk [H1 H2]. cbn [fst snd] in H1, H2.
    destruct (HE inp (16 * k)) as (z & EZ & HZZ); [rewrite Hbw; lia|exact HIB|].
    rewrite EZ. cbn [bind fst snd]. eexists. split; [reflexivity|]. cbn [fst snd].
    assert (EB : takeN (4 * c_bw c) (dropN (16 * k) inp) = block R inp k)
      by (rewrite block_eq, HNb, Hbw; reflexivity).
    rewrite EB in *. split.
    + unfold owf_aes_value. rewrite tab_succ, concat_app. cbn [concat]. rewrite app_nil_r, H1. reflexivity.
    + rewrite andb_true_iff, negb_true_iff, <- not_true_iff_false, H2, HZZ. split.
      * intros [G1 G2] [G|(b & Hb & G)]; [tauto|].
        destruct (N.eq_dec b k) as [->|Hne]; [tauto|]. apply G1. right. exists b. split; [lia|exact G].
      * intros G. split.
        -- intros [G1|(b & Hb & G1)]; apply G; [tauto|]. right. exists b. split; [lia|exact G1].
        -- intros G1. apply G. right. exists k. split; [lia|exact G1].
  - exists ok. cbn [fst snd] in H1, H2. rewrite EF, H1. split; [reflexivity|exact H2].
Qed.

Lemma owf_em_ok c R key inp : In (c, R) ciphers -> c_kw c = c_bw c ->
  lenN key = 4 * c_bw c -> bytes_ok key -> 4 * c_kw c <= lenN inp -> bytes_ok inp ->
  exists ok, owf_em c key inp = Ok (xor_bytes (Cipher R inp key) key, ok) /\
    (ok = true <-> ~ zero_in_encryption R inp key).
Proof.
  intros HC Hbw HKL HKB HIL HIB. unfold owf_em.
  destruct (encrypt_correct c R inp HC HIL HIB) as (rk & ret & E & _ & HE).
  rewrite E. cbn [bind fst].
  destruct (HE key 0) as (z & EZ & HZZ); [lia|exact HKB|].
  rewrite dropN_0, takeN_all in EZ, HZZ by lia. rewrite EZ. cbn [bind fst snd].
  rewrite slice_full' by exact HKL. cbn [bind]. eexists. split; [reflexivity|].
  rewrite negb_true_iff, <- not_true_iff_false, HZZ. tauto.
Qed.

Lemma owf_correct i key inp : lenN key = owf_key_size i -> bytes_ok key ->
  lenN inp = owf_input_size i -> bytes_ok inp ->
  exists ok, owf i key inp = Ok (owf_value i key inp, ok) /\ (ok = true <-> ~ owf_zero i key inp).
Proof.
  intros HKL HKB HIL HIB.
  assert (X1 : forall (P : N -> Prop), (exists b, b < 1 /\ P b) <-> P 0).
  { intros P. split; [intros (b & Hb & H); replace b with 0 in H by lia; exact H|].
    intros H. exists 0. split; [lia|exact H]. }
  assert (X2 : forall (P : N -> Prop), (exists b, b < 2 /\ P b) <-> P 0 \/ P 1).
  { intros P. split.
    - intros (b & Hb & H). assert (D : b = 0 \/ b = 1) by lia. destruct D as [-> | ->]; tauto.
    - intros [H|H]; [exists 0|exists 1]; (split; [lia|exact H]). }
  destruct i; unfold owf, owf_value, owf_zero;
    cbn [owf_key_size owf_input_size p_lambda p_pkSize param_of] in HKL, HIL;
  match goal with
  | |- exists ok, owf_aes ?c ?n _ _ = _ /\ _ =>
      match goal with |- context [Cipher ?R _ _] =>
        destruct (owf_aes_ok c R n key inp) as (ok & E & H);
        [cbn; tauto|reflexivity|rewrite HKL; vm_compute; discriminate|exact HKB
        |rewrite HIL; vm_compute; discriminate|exact HIB|];
        exists ok; rewrite E, H; unfold owf_aes_value; split;
        [cbn [tab]; cbn -[Cipher block]; rewrite ?app_nil_r; reflexivity
        |first [rewrite X1|rewrite X2]; tauto]
      end
  | |- exists ok, owf_em ?c _ _ = _ /\ _ =>
      match goal with |- context [Cipher ?R _ _] =>
        destruct (owf_em_ok c R key inp) as (ok & E & H);
        [cbn; tauto|reflexivity|rewrite HKL; vm_compute; reflexivity|exact HKB
        |rewrite HIL; vm_compute; discriminate|exact HIB|];
        exists ok; rewrite E, H, map_combine_zipw; split; [reflexivity|tauto]
      end
  end.
Qed.
