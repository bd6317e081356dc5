(** The lemmas behind Props/C22 .. C25. *)
From Verif.Proof Require Import BaseProof.
From Verif.Proof Require Export PrgProof.

Ltac Zify.zify_post_hook ::= Z.div_mod_to_equations.

Lemma block_cipher_correct : forall c R, In (c, R) ciphers ->
  forall key, lenN key = 4 * Nk R -> bytes_ok key ->
  exists rk zk, init_round_keys c key = Ok (rk, zk) /\
    forall pt, lenN pt = 4 * Nb R -> bytes_ok pt ->
    exists zp, encrypt_block c rk pt 0 = Ok (Cipher R key pt, zp).
Proof.
  intros c R HC key HKL HKB. pose proof (ciphers_ok c R HC) as [CK ER].
  assert (E1 : Nk R = c_kw c) by (rewrite ER; reflexivity).
  assert (E2 : Nb R = c_bw c) by (rewrite ER; reflexivity).
  destruct (encrypt_correct c R key HC) as (rk & zk & E & _ & HE); [lia|exact HKB|].
  exists rk, zk. split; [exact E|]. intros pt HPL HPB.
  destruct (HE pt 0) as (z & EZ & _); [lia|exact HPB|].
  rewrite dropN_0, takeN_all in EZ by lia. exists z. exact EZ.
Qed.

Lemma counter_increment : forall iv, lenN iv = 16 -> bytes_ok iv ->
  exists iv', aes_increment_iv iv = Ok iv' /\ lenN iv' = 16 /\ bytes_ok iv' /\
              be_val iv' = (be_val iv + 1) mod 2 ^ 128.
Proof.
  intros iv HL HB. eexists. split; [apply aes_increment_iv_ok; assumption|].
  split; [apply lenN_be_bytes|]. split; [apply be_bytes_ok|].
  rewrite be_val_be_bytes. change (256 ^ N.of_nat 16) with (2 ^ 128).
  apply N.mod_mod. apply N.pow_nonzero. discriminate.
Qed.

Lemma prg_kw s : In s [128; 192; 256] -> 4 * c_kw (prg_cipher s) = s / 8.
Proof. intros [<-|[<-|[<-|[]]]]; reflexivity. Qed.

Lemma prg_is_ctr : forall lambda, In lambda [128; 192; 256] ->
  forall key iv n, lenN key = lambda / 8 -> bytes_ok key -> lenN iv = 16 -> bytes_ok iv ->
  exists out, prg key iv lambda n = Ok out /\ lenN out = n /\
    forall i, i < n -> at_ 0 out i = ctr_byte (aes_of lambda) key iv i.
Proof.
  intros lambda Hl key iv n HKL HKB HIL HIB.
  exists (stream (aes_of lambda) key iv n). split.
  - apply prg_ok; try assumption. rewrite prg_kw by exact Hl. lia.
  - split; [apply stream_len|]. intros i Hi. rewrite at_nthN. apply stream_nth, Hi.
Qed.

Lemma prg_prefix : forall lambda, In lambda [128; 192; 256] ->
  forall key iv m n, lenN key = lambda / 8 -> bytes_ok key -> lenN iv = 16 -> bytes_ok iv ->
  m <= n ->
  exists short long, prg key iv lambda m = Ok short /\ prg key iv lambda n = Ok long /\
                     short = firstn (N.to_nat m) long.
Proof.
  intros lambda Hl key iv m n HKL HKB HIL HIB Hmn.
  do 2 eexists. split; [apply prg_ok; try assumption; rewrite prg_kw by exact Hl; lia|].
  split; [apply prg_ok; try assumption; rewrite prg_kw by exact Hl; lia|].
  symmetry. apply stream_prefix, Hmn.
Qed.
