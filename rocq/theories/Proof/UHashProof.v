(** The universal hashes (Model/UHash.v) against Spec/UHashSpec.v. *)
From Verif.Model Require Import UHash.
From Verif.Spec Require Import VoleSpec FormatSpec UHashSpec.
From Verif.Proof Require Import BaseProof PolyProof FieldProof EmbedProof VoleProps.
From Coq Require Import Lia ZifyBool ZifyNat ZifyN.
Ltac Zify.zify_post_hook ::= Z.div_mod_to_equations.

Lemma num_eq s : num s = le_val s.
Proof. reflexivity. Qed.
Lemma sub_eq s off len : sub s off len = takeN len (dropN off s).
Proof. reflexivity. Qed.
Lemma upto_eq n : upto n = Nrange n.
Proof.
  unfold upto, Nrange. generalize (N.to_nat n). intros m.
  assert (H : forall k, map N.of_nat (seq k m) = Nseq (N.of_nat k) m).
  { induction m as [|m IH]; intros k; cbn [seq map Nseq]; [reflexivity|]. f_equal. rewrite IH. f_equal. lia. }
  apply (H 0%nat).
Qed.
Lemma to_bytes_eq n x : to_bytes n x = le_bytes (N.to_nat n) x.
Proof.
  unfold to_bytes, upto. rewrite map_map. generalize (N.to_nat n). clear n. intros n. revert x.
  induction n as [|n IH]; intros x; [reflexivity|]. cbn [seq map le_bytes]. f_equal.
  - change (256 ^ N.of_nat 0) with 1. rewrite N.div_1_r. reflexivity.
  - rewrite <- IH, <- seq_shift, map_map. apply map_ext. intros k. f_equal.
    replace (N.of_nat (S k)) with (N.succ (N.of_nat k)) by lia. rewrite N.pow_succ_r', N.div_div by (try apply N.pow_nonzero; discriminate).
    reflexivity.
Qed.
Lemma gsum_0 f : gsum f 0 = 0.
Proof. reflexivity. Qed.
Lemma fold_lxor_app l a : fold_right N.lxor 0 (l ++ [a]) = N.lxor (fold_right N.lxor 0 l) a.
Proof. induction l as [|x l IH]; cbn; [rewrite N.lxor_0_r; reflexivity|]. rewrite IH, N.lxor_assoc. reflexivity. Qed.
Lemma gsum_succ f m : gsum f (m + 1) = N.lxor (gsum f m) (f m).
Proof.
  unfold gsum. rewrite !upto_eq, Nrange_succ, map_app. apply fold_lxor_app.
Qed.
Lemma gsum_ext f g m : (forall k, k < m -> f k = g k) -> gsum f m = gsum g m.
Proof.
  intros H. unfold gsum. f_equal. rewrite !upto_eq. apply map_ext_in. intros k Hk. apply H, In_Nrange, Hk.
Qed.
Lemma gsum_lt f m n : (forall k, k < m -> f k < 2 ^ n) -> gsum f m < 2 ^ n.
Proof.
  induction m as [|m IH] using N.peano_ind; intros H; [apply pow2_pos|].
  rewrite <- N.add_1_r in *. rewrite gsum_succ. apply lxor_lt; [apply IH; intros; apply H; lia|apply H; lia].
Qed.
Lemma gsum_lxor f g m : gsum (fun k => N.lxor (f k) (g k)) m = N.lxor (gsum f m) (gsum g m).
Proof.
  induction m as [|m IH] using N.peano_ind; [reflexivity|].
  rewrite <- N.add_1_r, !gsum_succ, IH. rewrite !N.lxor_assoc. f_equal. rewrite <- !N.lxor_assoc. f_equal. apply N.lxor_comm.
Qed.
Lemma gpow_0 F s : gpow F s 0 = 1.
Proof. reflexivity. Qed.
Lemma gpow_succ F s k : gpow F s (k + 1) = bf_mul F (gpow F s k) s.
Proof. unfold gpow. rewrite N.add_1_r, N.iter_succ. reflexivity. Qed.
Lemma gpow_lt F s k : field_ok F -> s < 2 ^ f_n F -> gpow F s k < 2 ^ f_n F.
Proof.
  intros HF Hs. induction k as [|k IH] using N.peano_ind; [apply one_lt, HF|].
  rewrite <- N.add_1_r, gpow_succ. apply bf_mul_lt; assumption.
Qed.
Lemma bf_mul_gsum F a f m : field_ok F -> a < 2 ^ f_n F -> (forall k, k < m -> f k < 2 ^ f_n F) ->
  bf_mul F a (gsum f m) = gsum (fun k => bf_mul F a (f k)) m.
Proof.
  intros HF Ha. induction m as [|m IH] using N.peano_ind; intros H.
  - rewrite !gsum_0. apply bf_mul_0_r; assumption.
  - rewrite <- N.add_1_r in *. rewrite !gsum_succ, bf_mul_lxor_r; try assumption.
    + rewrite IH by (intros; apply H; lia). reflexivity.
    + apply gsum_lt. intros; apply H; lia.
    + apply H. lia.
Qed.

(** ** blocks *)
Definition fields_of : list field := [F64; F128; F192; F256].
Lemma nb_8 F : In F fields_of -> 8 * (f_n F / 8) = f_n F /\ 8 <= f_n F / 8 /\ field_ok F /\ (f_n F / 8) mod 8 = 0.
Proof.
  intros [<- | [<- | [<- | [<- | []]]]]; (split; [reflexivity|]); (split; [vm_compute; discriminate|]);
  (split; [first [apply F64_ok|apply F128_ok|apply F192_ok|apply F256_ok]|reflexivity]).
Qed.
Lemma bf_load_block F x off : off + f_n F / 8 <= lenN x -> bf_load F x off = Ok (num (sub x off (f_n F / 8))).
Proof. intros H. unfold bf_load. rewrite slice_ok by exact H. cbn [bind]. reflexivity. Qed.
Lemma sub_num_lt F x off : In F fields_of -> bytes_ok x -> num (sub x off (f_n F / 8)) < 2 ^ f_n F.
Proof.
  intros HF HB. change num with le_val. rewrite sub_eq. destruct (nb_8 F HF) as (E & _).
  assert (B : bytes_ok (takeN (f_n F / 8) (dropN off x))) by (apply Forall_takeN, Forall_dropN, HB).
  eapply N.lt_le_trans; [apply le_val_bound2, B|]. apply N.pow_le_mono_r; [discriminate|].
  rewrite lenN_takeN. lia.
Qed.
Lemma block_lt F x i : In F fields_of -> bytes_ok x -> block F x i < 2 ^ f_n F.
Proof. apply sub_num_lt. Qed.

(** ** linearity of the blocks *)
Lemma sub_xor a b off len : lenN a = lenN b -> sub (xor_bytes a b) off len = xor_bytes (sub a off len) (sub b off len).
Proof.
  intros H. rewrite !sub_eq. apply (list_ext 0).
  - rewrite lenN_xor; rewrite !lenN_takeN, !lenN_dropN, ?lenN_xor by exact H; lia.
  - intros i Hi. rewrite lenN_takeN in Hi. rewrite nthN_takeN, nthN_dropN by lia.
    rewrite !nthN_xor by (rewrite ?lenN_takeN, ?lenN_dropN; lia).
    rewrite !nthN_takeN, !nthN_dropN by lia. reflexivity.
Qed.
Lemma num_xor a b : bytes_ok a -> bytes_ok b -> lenN a = lenN b -> num (xor_bytes a b) = N.lxor (num a) (num b).
Proof. intros. change num with le_val. apply le_val_xor; assumption. Qed.
Lemma sub_bytes x off len : bytes_ok x -> bytes_ok (sub x off len).
Proof. intros. apply (Forall_takeN _ len), Forall_dropN. assumption. Qed.
Lemma sub_len x off len : off + len <= lenN x -> lenN (sub x off len) = len.
Proof. intros. rewrite sub_eq, lenN_takeN, lenN_dropN. lia. Qed.
Lemma sub_len_eq a b off len : lenN a = lenN b -> lenN (sub a off len) = lenN (sub b off len).
Proof. intros H. rewrite !sub_eq, !lenN_takeN, !lenN_dropN. lia. Qed.
Lemma block_xor F a b i : bytes_ok a -> bytes_ok b -> lenN a = lenN b ->
  block F (xor_bytes a b) i = N.lxor (block F a i) (block F b i).
Proof.
  intros HA HB HL. unfold block. rewrite sub_xor by exact HL. apply num_xor; auto using sub_bytes, sub_len_eq.
Qed.
Lemma padded_bytes x len n : bytes_ok x -> bytes_ok (padded x len n).
Proof. intros H. apply bytes_ok_app; [apply sub_bytes, H|]. apply (bytes_ok_zeros (n - len)). Qed.
Lemma padded_len x len n : len <= lenN x -> len <= n -> lenN (padded x len n) = n.
Proof.
  intros H1 H2. unfold padded. rewrite lenN_app, sub_len by lia.
  change (repeat 0 (N.to_nat (n - len))) with (zeros (n - len)). rewrite lenN_zeros. lia.
Qed.
Lemma padded_xor a b len n : lenN a = lenN b -> padded (xor_bytes a b) len n = xor_bytes (padded a len n) (padded b len n).
Proof.
  intros H. unfold padded. rewrite sub_xor by exact H. rewrite xor_bytes_app by (apply sub_len_eq, H). f_equal.
  change (repeat 0 (N.to_nat (n - len))) with (zeros (n - len)). symmetry. apply xor_bytes_zeros_r, lenN_zeros.
Qed.
Lemma poly_hash_lt F s x n : In F fields_of -> s < 2 ^ f_n F -> bytes_ok x -> poly_hash F s x n < 2 ^ f_n F.
Proof.
  intros HF Hs HX. destruct (nb_8 F HF) as (_ & _ & HO & _). apply gsum_lt. intros k Hk.
  apply bf_mul_lt; [exact HO|apply gpow_lt; assumption|apply block_lt; assumption].
Qed.
Lemma poly_hash_xor F s a b n : In F fields_of -> s < 2 ^ f_n F -> bytes_ok a -> bytes_ok b -> lenN a = lenN b ->
  poly_hash F s (xor_bytes a b) n = N.lxor (poly_hash F s a n) (poly_hash F s b n).
Proof.
  intros HF Hs HA HB HL. destruct (nb_8 F HF) as (_ & _ & HO & _). unfold poly_hash. rewrite <- gsum_lxor.
  apply gsum_ext. intros k Hk. rewrite block_xor by assumption.
  apply bf_mul_lxor_r; [exact HO|apply gpow_lt; assumption|apply block_lt; assumption..].
Qed.

(** ** vole_hash computes its specification *)
Lemma field_of_in lambda : In lambda [128; 192; 256] -> In (field_of lambda) fields_of /\ f_n (field_of lambda) = lambda /\
  64 <= f_n (field_of lambda).
Proof. intros [<- | [<- | [<- | []]]]; cbn; (split; [tauto|split; [reflexivity|lia]]). Qed.

Lemma last_len_arith len nb n : 0 < nb -> 1 <= n -> (n - 1) * nb < len -> len <= n * nb -> n * nb = (n - 1) * nb + nb ->
  (if (8 * len) mod (nb * 8) =? 0 then nb * 8 / 8 else (8 * len) mod (nb * 8) / 8) = len - (n - 1) * nb.
Proof.
  intros H0 H1 H2 H3 H4. rewrite (N.mul_comm nb 8), N.mul_mod_distr_l by lia.
  rewrite !(N.mul_comm 8), !N.div_mul by lia.
  destruct (N.eq_dec (len - (n - 1) * nb) nb) as [He|Hne].
  - assert (len = n * nb) by (generalize dependent (n * nb); generalize dependent ((n - 1) * nb); clear; intros; lia).
    subst len. rewrite N.mod_mul by lia. cbn. symmetry. exact He.
  - assert (HR : len mod nb = len - (n - 1) * nb).
    { symmetry. apply (N.mod_unique _ _ (n - 1)); rewrite ?(N.mul_comm nb);
      generalize dependent (n * nb); generalize dependent ((n - 1) * nb); clear; intros; lia. }
    rewrite HR. assert (HZ : len - (n - 1) * nb <> 0) by (generalize dependent ((n - 1) * nb); clear; intros; lia).
    destruct (N.eqb_spec ((len - (n - 1) * nb) * 8) 0) as [E|E]; [|reflexivity].
    apply N.mul_eq_0_l in E; [contradiction|discriminate].
Qed.

Section VoleHash.
Variable F : field.
Hypothesis HF : In F fields_of.
Hypothesis H64 : 64 < f_n F.
Variables (x : list N) (ell : N).
Hypothesis Hell : ell mod 8 = 0.
Local Notation nb := (f_n F / 8).
Local Notation len := ((ell + f_n F) / 8).
Local Notation n := ((len + nb - 1) / nb).
Local Notation x0 := (padded x len (n * nb)).
Hypothesis HXL : len + nb + 2 <= lenN x.
Hypothesis HXB : bytes_ok x.

Lemma n_facts : 1 <= n /\ (n - 1) * nb < len /\ len <= n * nb /\ n * nb = (n - 1) * nb + nb.
Proof.
  destruct (nb_8 F HF) as (E & G & _).
  assert (len = ell / 8 + nb) by lia.
  assert (E1 : len + nb - 1 = nb * n + (len + nb - 1) mod nb) by (apply N.div_mod; lia).
  assert (E2 : (len + nb - 1) mod nb < nb) by (apply N.mod_lt; lia).
  set (m := n) in *. set (r := (len + nb - 1) mod nb) in *. clearbody m r. set (l := len) in *. set (b := nb) in *.
  clearbody l b. assert (m <> 0) by (intros ->; lia).
  assert (m * b = (m - 1) * b + b) by (destruct m; [lia|nia]). nia.
Qed.

Lemma length_lambda_eq : (ell + 2 * nb * 8 - 1) / (nb * 8) = n.
Proof.
  destruct (nb_8 F HF) as (E & G & _). destruct n_facts as (H1 & H2 & H3 & H4).
  symmetry. apply (N.div_unique _ _ _ (ell + 2 * nb * 8 - 1 - nb * 8 * n)).
  - set (m := n) in *. clearbody m. assert (8 * len = ell + f_n F) by lia. nia.
  - set (m := n) in *. clearbody m. assert (8 * len = ell + f_n F) by lia. nia.
Qed.

Lemma sub_app_padded off l : off + l <= len -> sub x0 off l = sub x off l.
Proof.
  intros H. apply (list_ext 0).
  - destruct n_facts as (H1 & H2 & H3 & H4). rewrite !sub_len; rewrite ?padded_len; lia.
  - intros i Hi. destruct n_facts as (H1 & H2 & H3 & H4). rewrite sub_len in Hi by (rewrite padded_len; lia).
    rewrite !sub_eq, !nthN_takeN, !nthN_dropN by lia. unfold padded.
    rewrite nthN_app_l by (rewrite sub_len; lia). rewrite sub_eq, nthN_takeN, dropN_0 by lia. reflexivity.
Qed.

Lemma block_inner i : i + 1 < n -> bf_load F x (i * nb) = Ok (block F x0 i).
Proof.
  intros Hi. destruct n_facts as (H1 & H2 & H3 & H4).
  assert (i * nb + nb <= (n - 1) * nb) by (replace (i * nb + nb) with ((i + 1) * nb) by lia; apply N.mul_le_mono_r; lia).
  rewrite bf_load_block by lia. unfold block. rewrite sub_app_padded by lia. reflexivity.
Qed.

Lemma last_block_ok : last_block (nb * 8) ell x = Ok (sub x0 ((n - 1) * nb) nb).
Proof.
  destruct (nb_8 F HF) as (E & G & _). destruct n_facts as (H1 & H2 & H3 & H4).
  assert (HL : last_block_len (nb * 8) ell = len - (n - 1) * nb).
  { unfold last_block_len. replace (ell + nb * 8) with (8 * len) by lia.
    apply last_len_arith; [lia|exact H1|exact H2|exact H3|exact H4]. }
  unfold last_block. replace ((ell + nb * 8 + nb * 8 - 1) / (nb * 8)) with n.
  2:{ rewrite <- length_lambda_eq. f_equal. lia. }
  cbv zeta. replace (nb * 8 / 8) with nb by (rewrite N.div_mul; lia). rewrite HL.
  rewrite slice_ok by lia. cbn [bind].
  set (s := takeN (len - (n - 1) * nb) (dropN ((n - 1) * nb) x)).
  assert (HS : lenN s = len - (n - 1) * nb) by (unfold s; rewrite lenN_takeN, lenN_dropN; lia).
  assert (Hm : exists m, blit (zeros nb) 0 s = Ok m) by (eexists; apply blit_ok; rewrite lenN_zeros; lia).
  destruct Hm as [m Hm]. rewrite Hm. f_equal.
  apply (list_ext 0).
  - rewrite (blit_len _ _ _ _ Hm), lenN_zeros, sub_len; [reflexivity|]. rewrite padded_len; lia.
  - intros j Hj. rewrite (blit_len _ _ _ _ Hm), lenN_zeros in Hj. rewrite (nthN_blit _ _ _ _ _ _ Hm).
    rewrite sub_eq, nthN_takeN, nthN_dropN by lia. unfold padded. rewrite HS.
    destruct ((0 <=? j) && (j <? 0 + (len - (n - 1) * nb))) eqn:Ej.
    + rewrite nthN_app_l by (rewrite sub_len; lia). unfold s. rewrite nthN_takeN, nthN_dropN by lia.
      rewrite sub_eq, nthN_takeN, dropN_0 by lia. f_equal. lia.
    + rewrite nthN_app_r by (rewrite sub_len; lia).
      change (repeat 0 (N.to_nat (n * nb - len))) with (zeros (n * nb - len)). rewrite !nthN_zeros. reflexivity.
Qed.

Lemma h0_loop b_s : b_s < 2 ^ f_n F ->
  exists r, foldM (h0_step F b_s x n) (Nfromto 1 n) (block F x0 (n - 1), b_s) = Ok (poly_hash F b_s x0 n, r).
Proof.
  intros Hs. destruct (nb_8 F HF) as (_ & _ & HO & _). destruct n_facts as (H1 & H2 & H3 & H4).
  pose proof (padded_bytes x len (n * nb) HXB) as HPB.
  destruct (foldM_Nfromto_inv (h0_step F b_s x n) (fun k st =>
    st = (gsum (fun k => bf_mul F (gpow F b_s k) (block F x0 (n - 1 - k))) k, gpow F b_s k)) 1 n
    (block F x0 (n - 1), b_s)) as (st & -> & ->).
  - exact H1.
  - pose proof (gsum_succ (fun k => bf_mul F (gpow F b_s k) (block F x0 (n - 1 - k))) 0) as E1.
    pose proof (gpow_succ F b_s 0) as E2. change (0 + 1) with 1 in E1, E2. rewrite E1, E2, gsum_0, !gpow_0.
    rewrite N.sub_0_r, N.lxor_0_l, !bf_mul_1_l by (try assumption; apply block_lt; assumption). reflexivity.
  - intros k st Hk ->. unfold h0_step. rewrite block_inner by lia. cbn [bind].
    eexists. split; [reflexivity|]. rewrite gsum_succ, gpow_succ. reflexivity.
  - eexists. reflexivity.
Qed.

Lemma words_eq : n * nb = 8 * (n * (nb / 8)) /\ nb = 8 * (nb / 8).
Proof.
  destruct (nb_8 F HF) as (_ & _ & _ & HM). assert (E : nb = 8 * (nb / 8)) by lia.
  split; [|exact E]. rewrite (N.mul_comm n (nb / 8)), N.mul_assoc, <- E. apply N.mul_comm.
Qed.

Ltac Zify.zify_post_hook ::= idtac.
Lemma word_last k : k < nb / 8 ->
  bf_load F64 (sub x0 ((n - 1) * nb) nb) (nb - 8 * k - 8) = Ok (block F64 x0 (n * (nb / 8) - 1 - k)).
Proof.
  intros Hk. destruct words_eq as [W1 W2]. destruct n_facts as (H1 & H2 & H3 & H4).
  assert (HS : lenN (sub x0 ((n - 1) * nb) nb) = nb) by (apply sub_len; rewrite padded_len; lia).
  rewrite bf_load_block by (rewrite HS; change (f_n F64 / 8) with 8; lia). unfold block.
  change (f_n F64 / 8) with 8. f_equal. f_equal. rewrite !sub_eq.
  assert (Hp : nb / 8 <= n * (nb / 8)) by (rewrite <- (N.mul_1_l (nb / 8)) at 1; apply N.mul_le_mono_r; lia).
  assert (B1 : (n - 1) * nb + (nb - 8 * k - 8) = (n * (nb / 8) - 1 - k) * 8).
  { clear - W1 W2 H4 Hk Hp. generalize dependent ((n - 1) * nb). generalize dependent (n * nb).
    generalize dependent (n * (nb / 8)). generalize dependent (nb / 8). generalize nb. clear. intros; lia. }
  assert (B2 : nb - 8 * k - 8 + 8 <= nb) by (clear - W2 Hk; generalize dependent (nb / 8); generalize nb; clear; intros; lia).
  rewrite <- B1. clear - B2. generalize dependent (nb - 8 * k - 8). intros o B2.
  rewrite <- dropN_dropN. generalize (dropN ((n - 1) * nb) x0). generalize dependent nb. clear. intros b B2 l.
  rewrite !takeN_dropN, takeN_takeN. f_equal. f_equal. apply N.min_l. exact B2.
Qed.

Lemma word_inner k : nb / 8 <= k < n * (nb / 8) ->
  bf_load F64 x (n * nb - 8 * k - 8) = Ok (block F64 x0 (n * (nb / 8) - 1 - k)).
Proof.
  intros Hk. destruct words_eq as [W1 W2]. destruct n_facts as (H1 & H2 & H3 & H4).
  rewrite bf_load_block by (change (f_n F64 / 8) with 8; lia). unfold block.
  change (f_n F64 / 8) with 8. rewrite sub_app_padded by lia. f_equal. f_equal. f_equal. lia.
Qed.

Ltac Zify.zify_post_hook ::= Z.div_mod_to_equations.
Lemma compute_h1_ok t : lenN t = 8 -> bytes_ok t ->
  compute_h1 t x (nb * 8) ell = Ok (poly_hash F64 (num t) x0 (n * (nb / 8))).
Proof.
  intros HT HTB. destruct words_eq as [W1 W2]. destruct n_facts as (H1 & H2 & H3 & H4).
  destruct (nb_8 F HF) as (E & G & _).
  pose proof (padded_bytes x len (n * nb) HXB) as HPB.
  assert (I64 : In F64 fields_of) by (left; reflexivity).
  assert (Hp : nb / 8 <= n * (nb / 8)) by (rewrite <- (N.mul_1_l (nb / 8)) at 1; apply N.mul_le_mono_r; lia).
  unfold compute_h1. rewrite bf_load_block by (rewrite HT; vm_compute; discriminate). cbn [bind].
  replace ((ell + nb * 8 + nb * 8 - 1) / (nb * 8)) with n.
  2:{ rewrite <- length_lambda_eq. f_equal. lia. }
  cbv zeta. rewrite last_block_ok. cbn [bind]. replace (nb * 8 / 8) with nb by (rewrite N.div_mul; lia).
  assert (ET : num (sub t 0 (f_n F64 / 8)) = num t).
  { f_equal. rewrite sub_eq, dropN_0. apply takeN_all. rewrite HT. vm_compute. discriminate. }
  rewrite ET. set (b_t := num t).
  assert (HBT : b_t < 2 ^ f_n F64) by (subst b_t; rewrite <- ET; apply sub_num_lt; assumption).
  set (W := n * (nb / 8)) in *.
  set (P := fun k st => st = (gsum (fun k => bf_mul F64 (gpow F64 b_t k) (block F64 x0 (W - 1 - k))) k, gpow F64 b_t k)).
  destruct (foldM_Nrange_inv (fun s k => h1_step b_t (sub x0 ((n - 1) * nb) nb) nb s (8 * k)) P (nb / 8) (0, 1))
    as (st & -> & HP1).
  - reflexivity.
  - intros k st Hk ->. unfold h1_step. rewrite word_last by exact Hk. cbn [bind].
    eexists. split; [reflexivity|]. unfold P. rewrite gsum_succ, gpow_succ. reflexivity.
  - cbn [bind].
    destruct (foldM_Nfromto_inv (fun s k => h1_step b_t x (n * nb) s (8 * k)) P (nb / 8) W st)
      as (st' & -> & HP2).
    + exact Hp.
    + exact HP1.
    + intros k st2 Hk ->. unfold h1_step. rewrite word_inner by exact Hk. cbn [bind].
      eexists. split; [reflexivity|]. unfold P. rewrite gsum_succ, gpow_succ. reflexivity.
    + cbn [bind]. rewrite HP2. reflexivity.
Qed.

Lemma vole_hash_F_ok sd : 5 * nb + 8 <= lenN sd -> bytes_ok sd ->
  vole_hash_F F sd x ell = Ok (vole_hash_spec F sd x ell).
Proof.
  intros HSL HSB. destruct n_facts as (H1 & H2 & H3 & H4). destruct (nb_8 F HF) as (E & G & HO & _).
  pose proof (padded_bytes x len (n * nb) HXB) as HPB.
  assert (I64 : In F64 fields_of) by (left; reflexivity).
  unfold vole_hash_F. cbv zeta. rewrite last_block_ok. cbn [bind].
  rewrite bf_load_block by (rewrite sub_len; [lia|rewrite padded_len; lia]). cbn [bind].
  replace (num (sub (sub x0 ((n - 1) * nb) nb) 0 nb)) with (block F x0 (n - 1)).
  2:{ unfold block. f_equal. rewrite (sub_eq (sub _ _ _)), dropN_0. symmetry. apply takeN_all.
      rewrite sub_len; [lia|rewrite padded_len; lia]. }
  rewrite bf_load_block by lia. cbn [bind]. fold (block F sd 4). rewrite length_lambda_eq.
  destruct (h0_loop (block F sd 4)) as [r ->]; [apply block_lt; assumption|]. cbn [bind fst].
  rewrite slice_ok by lia. cbn [bind]. rewrite compute_h1_ok.
  2:{ rewrite lenN_takeN, lenN_dropN. lia. }
  2:{ apply Forall_takeN, Forall_dropN, HSB. }
  cbn [bind]. rewrite !bf_load_block by lia. cbn [bind].
  change (num (sub sd (2 * nb) nb)) with (block F sd 2). change (num (sub sd (3 * nb) nb)) with (block F sd 3).
  change (num (sub sd (1 * nb) nb)) with (block F sd 1).
  change (num (sub sd 0 nb)) with (block F sd 0).
  replace ((ell + nb * 8) / 8) with len by (f_equal; lia).
  rewrite slice_ok by (unfold UNIVERSAL_HASH_B; lia). cbn [bind]. f_equal.
  unfold vole_hash_spec. rewrite xors_eq. cbv zeta. rewrite <- sub_eq. unfold UNIVERSAL_HASH_B. f_equal.
  assert (HH1 : forall t, t < 2 ^ f_n F64 -> poly_hash F64 t x0 (n * (nb / 8)) < 2 ^ 64)
    by (intros; apply (poly_hash_lt F64); assumption).
  assert (HTL : num (sub sd (5 * nb) 8) < 2 ^ f_n F64) by (apply (sub_num_lt F64 sd (5 * nb)); assumption).
  rewrite !bf_mul_64_eq; try assumption; try (apply block_lt; assumption); try (apply HH1, HTL); try lia.
  rewrite !to_bytes_eq. unfold bf_store, bf_add. f_equal.
  rewrite !sub_eq. rewrite <- sub_eq.
  match goal with |- takeN 2 (le_bytes ?m ?v) = _ => generalize v; intros y end.
  destruct (N.to_nat nb) as [|[|k]] eqn:Ek; [lia|lia|reflexivity].
Qed.

Lemma vole_hash_spec_len sd : lenN (vole_hash_spec F sd x ell) = nb + 2.
Proof.
  unfold vole_hash_spec. rewrite xors_eq. cbv zeta. destruct (nb_8 F HF) as (E & G & HO & _).
  rewrite lenN_xor; rewrite lenN_app, !to_bytes_eq, !lenN_le_bytes; [lia|]. rewrite sub_len; lia.
Qed.
Lemma vole_hash_spec_bytes sd : bytes_ok (vole_hash_spec F sd x ell).
Proof.
  unfold vole_hash_spec. rewrite xors_eq. cbv zeta. apply bytes_ok_xor; [|apply sub_bytes, HXB].
  apply bytes_ok_app; rewrite to_bytes_eq; apply bytes_ok_le_bytes.
Qed.
End VoleHash.

(** ** the ZK hash: Horner evaluation *)
Lemma fold_left_snoc {A B} (f : A -> B -> A) x a : fold_left f [x] a = f a x.
Proof. reflexivity. Qed.
Lemma horner F s xs : field_ok F -> s < 2 ^ f_n F -> Forall (fun v => v < 2 ^ f_n F) xs ->
  fold_left (fun h v => N.lxor (bf_mul F h s) v) xs 0 =
  gsum (fun k => bf_mul F (gpow F s k) (nth (N.to_nat (lenN xs - 1 - k)) xs 0)) (lenN xs).
Proof.
  intros HF Hs. induction xs as [|v xs IH] using rev_ind; intros HX; [reflexivity|].
  apply Forall_app in HX. destruct HX as [HX HV]. inversion HV as [|? ? HV' _]; subst.
  rewrite fold_left_app, fold_left_snoc. rewrite IH by exact HX.
  assert (HB : forall k, nth (N.to_nat k) xs 0 < 2 ^ f_n F).
  { intros k. destruct (nth_in_or_default (N.to_nat k) xs 0) as [HI | ->]; [|apply pow2_pos].
    rewrite Forall_forall in HX. apply HX, HI. }
  rewrite lenN_app. change (lenN [v]) with 1.
  assert (HG : forall m, gsum (fun k => bf_mul F (gpow F s k) (nth (N.to_nat (lenN xs + 1 - 1 - k)) (xs ++ [v]) 0)) (m + 1) =
    N.lxor (gsum (fun k => bf_mul F (gpow F s (k + 1)) (nth (N.to_nat (lenN xs + 1 - 1 - (k + 1))) (xs ++ [v]) 0)) m) v).
  { induction m as [|m IHm] using N.peano_ind.
    - change (0 + 1) with 1. pose proof (gsum_succ (fun k => bf_mul F (gpow F s k) (nth (N.to_nat (lenN xs + 1 - 1 - k)) (xs ++ [v]) 0)) 0) as E.
      change (0 + 1) with 1 in E. rewrite E, !gsum_0, gpow_0. replace (lenN xs + 1 - 1 - 0) with (lenN xs) by lia.
      rewrite <- length_lenN. rewrite app_nth2 by lia. rewrite Nat.sub_diag. cbn [nth]. rewrite bf_mul_1_l by assumption. reflexivity.
    - rewrite <- N.add_1_r. rewrite gsum_succ, IHm, gsum_succ. rewrite !N.lxor_assoc. f_equal. apply N.lxor_comm. }
  rewrite HG. f_equal. rewrite bf_mul_comm, bf_mul_gsum; try assumption.
  - apply gsum_ext. intros k Hk. rewrite app_nth1 by (rewrite length_lenN; lia).
    replace (lenN xs + 1 - 1 - (k + 1)) with (lenN xs - 1 - k) by lia. rewrite gpow_succ.
    assert (HP := gpow_lt F s k HF Hs). generalize dependent (gpow F s k). intros g HP.
    rewrite (bf_mul_comm F g s) by assumption. symmetry. apply bf_mul_assoc; try assumption. apply HB.
  - intros k Hk. apply bf_mul_lt; [exact HF|apply gpow_lt; assumption|apply HB].
  - apply gsum_lt. intros k Hk. apply bf_mul_lt; [exact HF|apply gpow_lt; assumption|apply HB].
Qed.

Lemma num_lt64 sd off : bytes_ok sd -> num (sub sd off 8) < 2 ^ 64.
Proof. intros H. apply (sub_num_lt F64 sd off); [left; reflexivity|exact H]. Qed.

Lemma zk_init_ok F sd : In F fields_of -> 3 * (f_n F / 8) + 8 <= lenN sd ->
  zk_hash_init F sd = Ok (mkZk 0 0 (block F sd 2) (num (sub sd (3 * (f_n F / 8)) 8)) (block F sd 0) (block F sd 1)).
Proof.
  intros HF HL. destruct (nb_8 F HF) as (E & G & _). unfold zk_hash_init. cbv zeta.
  rewrite (bf_load_block F64) by (change (f_n F64 / 8) with 8; lia).
  rewrite !bf_load_block by lia. cbn [bind]. unfold block. rewrite N.mul_1_l, N.mul_0_l. reflexivity.
Qed.

Lemma fold_left_cons {A B} (f : A -> B -> A) x l a : fold_left f (x :: l) a = fold_left f l (f a x).
Proof. reflexivity. Qed.
Lemma zk_run_mk F s t r0 r1 xs : forall h0 h1, fold_left (zk_hash_update F) xs (mkZk h0 h1 s t r0 r1) =
  mkZk (fold_left (fun h v => N.lxor (bf_mul F h s) v) xs h0)
       (fold_left (fun h v => N.lxor (bf_mul_64 F h t) v) xs h1) s t r0 r1.
Proof.
  induction xs as [|v xs IH]; intros h0 h1; [reflexivity|]. rewrite !fold_left_cons. apply IH.
Qed.

Lemma fold_mul64 F t xs h : field_ok F -> 64 <= f_n F -> t < 2 ^ 64 -> Forall (fun v => v < 2 ^ f_n F) xs -> h < 2 ^ f_n F ->
  fold_left (fun h v => N.lxor (bf_mul_64 F h t) v) xs h = fold_left (fun h v => N.lxor (bf_mul F h t) v) xs h.
Proof.
  intros HF H64 Ht HX. assert (Ht' : t < 2 ^ f_n F) by (eapply N.lt_le_trans; [exact Ht|apply N.pow_le_mono_r; [discriminate|exact H64]]).
  revert h. induction HX as [|v xs Hv HX IH]; intros h Hh; [reflexivity|].
  rewrite !fold_left_cons. rewrite bf_mul_64_eq by assumption. apply IH. apply lxor_lt; [apply bf_mul_lt; assumption|exact Hv].
Qed.

Section Zk.
Variable F : field.
Hypothesis HF : In F fields_of.
Hypothesis H64 : 64 <= f_n F.
Variable sd : list N.
Hypothesis HSL : 3 * (f_n F / 8) + 8 <= lenN sd.
Hypothesis HSB : bytes_ok sd.
Local Notation small := (Forall (fun v => v < 2 ^ f_n F)).

Lemma zk_hash_ok xs x1 : small xs ->
  exists c, zk_hash_init F sd = Ok c /\
    zk_hash_finalize F (fold_left (zk_hash_update F) xs c) x1 = to_bytes (f_n F / 8) (zk_hash_spec F sd xs x1).
Proof.
  intros HX. eexists. split; [apply zk_init_ok; assumption|]. rewrite zk_run_mk. unfold zk_hash_finalize.
  cbn [zk_h0 zk_h1 zk_s zk_t zk_r0 zk_r1]. destruct (nb_8 F HF) as (E & G & HO & _).
  assert (HT := num_lt64 sd (3 * (f_n F / 8)) HSB).
  assert (HT' : num (sub sd (3 * (f_n F / 8)) 8) < 2 ^ f_n F) by (eapply N.lt_le_trans; [exact HT|apply N.pow_le_mono_r; [discriminate|exact H64]]).
  rewrite fold_mul64; try assumption; [|apply pow2_pos].
  rewrite !horner; try assumption; [|apply block_lt; assumption].
  rewrite to_bytes_eq. reflexivity.
Qed.

Lemma zk_spec_lt xs x1 : small xs -> x1 < 2 ^ f_n F -> zk_hash_spec F sd xs x1 < 2 ^ f_n F.
Proof.
  intros HX H1. destruct (nb_8 F HF) as (E & G & HO & _). unfold zk_hash_spec. cbv zeta.
  assert (HB : forall k, nth (N.to_nat k) xs 0 < 2 ^ f_n F).
  { intros k. destruct (nth_in_or_default (N.to_nat k) xs 0) as [HI | ->]; [|apply pow2_pos].
    rewrite Forall_forall in HX. apply HX, HI. }
  assert (HT := num_lt64 sd (3 * (f_n F / 8)) HSB).
  assert (HT' : num (sub sd (3 * (f_n F / 8)) 8) < 2 ^ f_n F) by (eapply N.lt_le_trans; [exact HT|apply N.pow_le_mono_r; [discriminate|exact H64]]).
  apply lxor_lt; [apply lxor_lt|exact H1]; apply bf_mul_lt; try exact HO; try (apply block_lt; assumption);
    apply gsum_lt; intros k _; apply bf_mul_lt; try exact HO; try apply HB; apply gpow_lt; try exact HO; try exact HT'.
  apply block_lt; assumption.
Qed.

Lemma zk_spec_add xs ys x1 y1 : small xs -> small ys -> lenN xs = lenN ys -> x1 < 2 ^ f_n F -> y1 < 2 ^ f_n F ->
  zk_hash_spec F sd (map (fun '(a, b) => N.lxor a b) (combine xs ys)) (N.lxor x1 y1) =
  N.lxor (zk_hash_spec F sd xs x1) (zk_hash_spec F sd ys y1).
Proof.
  intros HX HY HL H1 H2. destruct (nb_8 F HF) as (E & G & HO & _). unfold zk_hash_spec. cbv zeta.
  assert (HB : forall xs k, small xs -> nth (N.to_nat k) xs 0 < 2 ^ f_n F).
  { clear -HX. intros xs' k HX'. destruct (nth_in_or_default (N.to_nat k) xs' 0) as [HI | ->]; [|apply pow2_pos].
    rewrite Forall_forall in HX'. apply HX', HI. }
  assert (HT := num_lt64 sd (3 * (f_n F / 8)) HSB).
  assert (HT' : num (sub sd (3 * (f_n F / 8)) 8) < 2 ^ f_n F) by (eapply N.lt_le_trans; [exact HT|apply N.pow_le_mono_r; [discriminate|exact H64]]).
  assert (EL : N.of_nat (length (map (fun '(a, b) => N.lxor a b) (combine xs ys))) = lenN xs).
  { rewrite map_length, combine_length. unfold lenN in *. lia. }
  assert (EN : forall k, nth (N.to_nat k) (map (fun '(a, b) => N.lxor a b) (combine xs ys)) 0 =
                         N.lxor (nth (N.to_nat k) xs 0) (nth (N.to_nat k) ys 0)).
  { intros k. assert (HL' : length xs = length ys) by (unfold lenN in HL; lia).
    change 0 with ((fun '(a, b) => N.lxor a b) (0, 0)) at 1. rewrite map_nth, combine_nth by exact HL'. reflexivity. }
  rewrite EL. fold (lenN xs) (lenN ys). rewrite <- HL.
  assert (HS : forall s, s < 2 ^ f_n F ->
    gsum (fun k => bf_mul F (gpow F s k) (nth (N.to_nat (lenN xs - 1 - k)) (map (fun '(a, b) => N.lxor a b) (combine xs ys)) 0)) (lenN xs) =
    N.lxor (gsum (fun k => bf_mul F (gpow F s k) (nth (N.to_nat (lenN xs - 1 - k)) xs 0)) (lenN xs))
           (gsum (fun k => bf_mul F (gpow F s k) (nth (N.to_nat (lenN xs - 1 - k)) ys 0)) (lenN xs))).
  { intros s Hs. rewrite <- gsum_lxor. apply gsum_ext. intros k _. rewrite EN.
    apply bf_mul_lxor_r; [exact HO|apply gpow_lt; assumption|apply HB; assumption..]. }
  rewrite !HS by (try exact HT'; apply block_lt; assumption).
  assert (HG : forall s zs, s < 2 ^ f_n F -> small zs ->
    gsum (fun k => bf_mul F (gpow F s k) (nth (N.to_nat (lenN xs - 1 - k)) zs 0)) (lenN xs) < 2 ^ f_n F).
  { intros s zs Hs Hz. apply gsum_lt. intros k _. apply bf_mul_lt; [exact HO|apply gpow_lt; assumption|apply HB, Hz]. }
  rewrite !bf_mul_lxor_r; try exact HO; try (apply block_lt; assumption); try (apply HG; try assumption; apply block_lt; assumption).
  apply N.bits_inj. intros i. rewrite !N.lxor_spec. 
  repeat match goal with |- context [N.testbit ?a i] => destruct (N.testbit a i) end; reflexivity.
Qed.

Lemma zk_spec_mul c xs x1 : small xs -> c < 2 ^ f_n F -> x1 < 2 ^ f_n F ->
  zk_hash_spec F sd (map (bf_mul F c) xs) (bf_mul F c x1) = bf_mul F c (zk_hash_spec F sd xs x1).
Proof.
  intros HX Hc H1. destruct (nb_8 F HF) as (E & G & HO & _). unfold zk_hash_spec. cbv zeta.
  assert (HB : forall k, nth (N.to_nat k) xs 0 < 2 ^ f_n F).
  { intros k. destruct (nth_in_or_default (N.to_nat k) xs 0) as [HI | ->]; [|apply pow2_pos].
    rewrite Forall_forall in HX. apply HX, HI. }
  assert (HT := num_lt64 sd (3 * (f_n F / 8)) HSB).
  assert (HT' : num (sub sd (3 * (f_n F / 8)) 8) < 2 ^ f_n F) by (eapply N.lt_le_trans; [exact HT|apply N.pow_le_mono_r; [discriminate|exact H64]]).
  rewrite map_length. fold (lenN xs).
  assert (EN : forall k, nth (N.to_nat k) (map (bf_mul F c) xs) 0 = bf_mul F c (nth (N.to_nat k) xs 0)).
  { intros k. rewrite <- (bf_mul_0_r F c HO Hc) at 1. apply map_nth. }
  assert (HS : forall s, s < 2 ^ f_n F ->
    gsum (fun k => bf_mul F (gpow F s k) (nth (N.to_nat (lenN xs - 1 - k)) (map (bf_mul F c) xs) 0)) (lenN xs) =
    bf_mul F c (gsum (fun k => bf_mul F (gpow F s k) (nth (N.to_nat (lenN xs - 1 - k)) xs 0)) (lenN xs))).
  { intros s Hs. rewrite bf_mul_gsum; try assumption.
    - apply gsum_ext. intros k _. rewrite EN. pose proof (gpow_lt F s k HO Hs) as Hg.
      rewrite <- !bf_mul_assoc by (try assumption; apply HB). rewrite (bf_mul_comm F _ c) by assumption. reflexivity.
    - intros k _. apply bf_mul_lt; [exact HO|apply gpow_lt; assumption|apply HB]. }
  assert (HG : forall s, s < 2 ^ f_n F ->
    gsum (fun k => bf_mul F (gpow F s k) (nth (N.to_nat (lenN xs - 1 - k)) xs 0)) (lenN xs) < 2 ^ f_n F).
  { intros s Hs. apply gsum_lt. intros k _. apply bf_mul_lt; [exact HO|apply gpow_lt; assumption|apply HB]. }
  assert (HB2 := block_lt F sd 2 HF HSB). assert (HB0 := block_lt F sd 0 HF HSB). assert (HB1 := block_lt F sd 1 HF HSB).
  rewrite !HS by assumption. pose proof (HG _ HB2) as G0. pose proof (HG _ HT') as G1.
  generalize dependent (gsum (fun k => bf_mul F (gpow F (block F sd 2) k) (nth (N.to_nat (lenN xs - 1 - k)) xs 0)) (lenN xs)).
  generalize dependent (gsum (fun k => bf_mul F (gpow F (num (sub sd (3 * (f_n F / 8)) 8)) k) (nth (N.to_nat (lenN xs - 1 - k)) xs 0)) (lenN xs)).
  intros h1 G1 h0 G0.
  rewrite !bf_mul_lxor_r; try assumption; try (apply lxor_lt); try (apply bf_mul_lt; assumption).
  rewrite <- !bf_mul_assoc by assumption. rewrite (bf_mul_comm F _ c), (bf_mul_comm F (block F sd 1) c) by assumption. reflexivity.
Qed.
End Zk.
