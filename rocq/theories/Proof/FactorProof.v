(** On the bits of a witness, the factors are those of the S-boxes the witness claims. *)
From Verif.Model Require Import Aes FaestAes.
From Verif.Spec Require Import AesSpec OwfSpec ConstraintSpec ConstraintMap UHashSpec.
From Verif.Proof Require Import BaseProof PolyProof FieldProof EmbedProof AesProof PrgProof UHashProof ClaimProof WitnessProof DefectProof
  VoleProof CorrectProof WireProof ConsProof KeyWireProof KeyBackProof ConstrProof.
From Coq Require Import Lia ZifyBool ZifyNat ZifyN.
Ltac Zify.zify_post_hook ::= Z.div_mod_to_equations.

(** * Parameters *)
Definition groups (i : paramid) : N := p_Ske (param_of i) / 4.
Lemma aes_shape_ok i : is_em i = false -> aes_shape (param_of i) (cipher_of i) (groups i).
Proof. intros E. destruct i; try discriminate E; constructor; vm_compute; try reflexivity; discriminate. Qed.
Lemma em_shape_ok i : is_em i = true -> em_shape (param_of i) (cipher_of i).
Proof. intros E. destruct i; try discriminate E; constructor; vm_compute; auto; discriminate. Qed.

Definition gw (i : paramid) (g : N) : N := Nk (cipher_of i) + stp (param_of i) * g.
Definition group_check (i : paramid) (g : N) : bool :=
  let nk := Nk (cipher_of i) in
  (gw i g <? 4 * (Nr (cipher_of i) + 1)) && (cnt nk (gw i g) =? g) && is_sub nk (gw i g) &&
  Bool.eqb (gw i g mod nk =? 0) (ks_rotated (param_of i) g) &&
  (negb (ks_rotated (param_of i) g) ||
   (N.iter (gw i g / nk - 1) xtime 1 =? nthN FaestAes.Rcon (rci (param_of i) g) 0)).
Lemma groups_ok i : is_em i = false ->
  subs (cipher_of i) = map (gw i) (Nrange (groups i)) /\ forallb (group_check i) (Nrange (groups i)) = true /\
  key_part (cipher_of i) = p_Lke (param_of i) / 8 /\ enc_part (cipher_of i) = p_Lenc (param_of i) / 8 /\
  blocks_of i = aes_blocks (param_of i).
Proof. intros E. destruct i; try discriminate E; vm_compute; auto. Qed.

(** * Words *)
Lemma concat4 (ws : list (list N)) : Forall (fun w => lenN w = 4) ws -> forall m r, r < 4 ->
  at_ 0 (concat ws) (4 * m + r) = at_ 0 (at_ [] ws m) r.
Proof.
  intros H. induction H as [|w ws Hw H IH]; intros m r Hr.
  - rewrite !at_nthN. cbn [concat]. unfold nthN. destruct (N.to_nat m), (N.to_nat r), (N.to_nat (4 * m + r)); reflexivity.
  - cbn [concat]. rewrite !at_nthN. destruct (N.eq_dec m 0) as [->|Hm].
    + rewrite nthN_app_l by lia. reflexivity.
    + rewrite nthN_app_r by lia. replace (4 * m + r - lenN w) with (4 * (m - 1) + r) by lia.
      specialize (IH (m - 1) r Hr). rewrite !at_nthN in IH. rewrite IH. f_equal. unfold nthN.
      replace (N.to_nat m) with (S (N.to_nat (m - 1))) by lia. reflexivity.
Qed.
Lemma claimed_length nk n : forall ws rest, length (claimed_words nk n ws rest) = (length ws + n)%nat.
Proof.
  induction n as [|n IH]; intros ws rest; cbn [claimed_words]; [lia|].
  destruct (is_sub nk _); rewrite IH, app_length; cbn; lia.
Qed.
Lemma schedule_len R w : Nk R <= Nb R * (Nr R + 1) -> lenN (schedule R w) = Nb R * (Nr R + 1).
Proof. intros H. unfold schedule, lenN. rewrite claimed_length, map_length, nums_0. pose proof (lenN_Nrange (Nk R)). unfold lenN in *. lia. Qed.
Lemma bytes_concat ws : small_words ws -> bytes_ok (concat ws).
Proof. intros H. apply Forall_concat, H. Qed.
Lemma nth_ws (ws : list (list N)) (P : list N -> Prop) : (forall j, j < lenN ws -> P (at_ [] ws j)) -> Forall P ws.
Proof.
  intros H. apply Forall_forall. intros x Hx. apply (In_nth _ _ []) in Hx. destruct Hx as (n & Hn & <-).
  specialize (H (N.of_nat n)). rewrite at_nthN in H. unfold nthN in H. rewrite Nnat.Nat2N.id in H. apply H. unfold lenN. lia.
Qed.

Lemma enc_pairs_idx R ws inp wit out : enc_pairs R ws inp wit out =
  map (un3 (fun n c r => (state_in R ws inp wit n r c, state_out R ws wit out n r c))) (idx3 (Nb R) (Nr R)).
Proof.
  unfold enc_pairs. rewrite !nums_0. unfold idx3. rewrite map_flat_map. apply flat_map_ext'. intros n _.
  rewrite map_flat_map. apply flat_map_ext'. intros c _. reflexivity.
Qed.

Section Enc.
Variable F : field.
Hypothesis HB : big_field F.

Lemma factors_small x y : x < 256 -> y < 256 -> factors F (x, y) = (emb F x, emb F (InvAffine y)).
Proof.
  intros Hx Hy. unfold factors. cbn [fst snd]. rewrite !embed_emb by (auto using InvAffine_lt). reflexivity.
Qed.

Lemma enc_bits R ws inp wit out I K X O n c r :
  In (Nb R) [4; 6; 8] -> 2 <= Nr R -> small_words ws -> Forall (fun w => lenN w = 4) ws -> bytes_ok inp -> bytes_ok wit -> bytes_ok out ->
  (forall q, q < 32 * Nb R -> I q = bw inp q) -> (forall q, q < 32 * Nb R * (Nr R + 1) -> K q = bw (concat ws) q) ->
  (forall q, q < 32 * Nb R * (Nr R - 1) -> X q = bw wit q) -> (forall q, q < 32 * Nb R -> O q = bw out q) ->
  n < Nr R -> c < Nb R -> r < 4 ->
  (fwd F R I K X n c r, bwd F R X O K 1 n c r) = factors F (state_in R ws inp wit n r c, state_out R ws wit out n r c).
Proof using HB.
  intros HNb HNr Sw W4 BI BW BO HI HK HX HO Hn Hc Hr.
  assert (P : byte_pair (state_in R ws inp wit n r c, state_out R ws wit out n r c)).
  { pose proof (enc_pairs_small R ws inp wit out Sw BI BW BO) as P. rewrite enc_pairs_idx, Forall_forall in P. apply P.
    apply in_map_iff. exists (n, c, r). split; [reflexivity|]. apply In_idx3. auto. }
  destruct P as [P1 P2]. cbn [fst snd] in P1, P2. rewrite factors_small by assumption.
  rewrite (fwd_ext F R HNb HNr I K X (bw inp) (bw (concat ws)) (bw wit)) by assumption.
  rewrite (bwd_ext F R HNb HNr X O K (bw wit) (bw out) (bw (concat ws))) by assumption.
  f_equal.
  - apply (fwd_bits F HB R ws inp wit _ _ _ (at_ 0 (concat ws))); try assumption; try (apply bw_carries; assumption).
    + apply bw_carries, bytes_concat, Sw. + apply concat4, W4.
  - apply (bwd_bits F HB R HNb ws wit out _ _ _ (at_ 0 (concat ws))); try assumption; try (apply bw_carries; assumption).
    + apply bw_carries, bytes_concat, Sw. + apply concat4, W4.
Qed.

(** * AES *)
Lemma lt4 r : r < 4 -> r = 0 \/ r = 1 \/ r = 2 \/ r = 3.
Proof. lia. Qed.
Lemma word4 (w : list N) : lenN w = 4 -> exists a b c d, w = [a; b; c; d].
Proof.
  intros H. do 4 (destruct w as [|? w]; [discriminate H|]). destruct w; [|rewrite !lenN_cons in H; lia]. eauto.
Qed.
Lemma group_pairs prev a b (rot : bool) rc : lenN prev = 4 -> lenN a = 4 -> lenN b = 4 ->
  (if rot then combine (RotWord prev) (xor_words (xor_words a b) [rc; 0; 0; 0]) else combine prev (xor_words a b)) =
  map (fun r => (at_ 0 prev (rsel rot r), N.lxor (N.lxor (at_ 0 a r) (at_ 0 b r)) (if rot && (r =? 0) then rc else 0))) (Nrange 4).
Proof.
  intros H1 H2 H3. apply word4 in H1, H2, H3. destruct H1 as (? & ? & ? & ? & ->), H2 as (? & ? & ? & ? & ->), H3 as (? & ? & ? & ? & ->).
  destruct rot; cbv -[N.lxor]; rewrite ?N.lxor_0_r; reflexivity.
Qed.

Lemma aes_factors i w inp out : is_em i = false -> bytes_ok w -> bytes_ok inp -> bytes_ok out ->
  p_l (param_of i) <= 8 * lenN w ->
  map (aval F (param_of i) (cipher_of i) inp out (bw w) 1) (aix (param_of i) (cipher_of i) (groups i)) =
  map (factors F) (claims i w inp out).
Proof using HB.
  intros EM BW BI BO LW. pose proof (aes_shape_ok i EM) as HA. destruct (groups_ok i EM) as (ES & GC & EK & EE & EBl).
  set (p := param_of i) in *. set (R := cipher_of i) in *. set (G := groups i) in *.
  pose proof (as_Nb _ _ _ HA) as Nb4. pose proof (as_nk _ _ _ HA) as Hnk. pose proof (as_tot _ _ _ HA) as Htot.
  pose proof (as_cnt _ _ _ HA) as EC. pose proof (as_Lke _ _ _ HA) as ELke. pose proof (as_Lenc _ _ _ HA) as ELe.
  pose proof (as_l _ _ _ HA) as El. pose proof (as_L _ _ _ HA) as EL. pose proof (as_Nr _ _ _ HA) as HNr.
  assert (HLk : p_Lke p <= p_l p) by (rewrite El; apply N.le_add_r).
  assert (SA : forall j r, j < 4 * (Nr R + 1) -> r < 4 -> lenN (at_ [] (schedule R w) j) = 4 /\
               at_ 0 (at_ [] (schedule R w) j) r = kw (Nk R) 4 (at_ 0 w) j r).
  { intros j r Hj Hr. apply schedule_at; rewrite ?Nb4; try assumption. rewrite EC. lia. }
  assert (W4 : Forall (fun w => lenN w = 4) (schedule R w)).
  { apply nth_ws. rewrite schedule_len by (rewrite Nb4; exact Htot). rewrite Nb4. intros j Hj. apply (SA j 0 Hj). reflexivity. }
  pose proof (small_schedule R w BW) as Sw.
  pose proof (KW_carries (Nk R) (bw w) (at_ 0 w) (bw_carries w BW)) as CK.
  assert (KB : forall q, q < 32 * (4 * (Nr R + 1)) -> KW (Nk R) 32 (bw w) q = bw (concat (schedule R w)) q).
  { intros q Hq. destruct (CK (q / 8)) as [_ C2]. specialize (C2 (q mod 8) ltac:(lia)).
    replace (8 * (q / 8) + q mod 8) with q in C2 by lia. rewrite C2. unfold bw. f_equal.
    rewrite (KW_eq _ _ _ _ (q / 8 / 4) (q / 8 mod 4)) by lia. rewrite <- (proj2 (SA (q / 8 / 4) (q / 8 mod 4) ltac:(lia) ltac:(lia))).
    rewrite <- concat4 by (assumption || lia). rewrite at_nthN. f_equal. lia. }
  unfold claims. rewrite EM. cbv zeta. fold R. unfold aix. rewrite !map_app. f_equal.
  - (* key schedule *)
    unfold kix, key_pairs. rewrite ES, flat_map_map, !map_flat_map. apply flat_map_ext'. intros g Hg. apply In_Nrange in Hg.
    rewrite forallb_forall in GC. specialize (GC g ltac:(apply In_Nrange, Hg)). unfold group_check in GC. fold p R in GC.
    apply andb_true_iff in GC. destruct GC as [GC G4]. apply andb_true_iff in GC. destruct GC as [GC G3].
    apply andb_true_iff in GC. destruct GC as [GC G2]. apply andb_true_iff in GC. destruct GC as [HGT G1]. apply N.ltb_lt in HGT. apply N.eqb_eq in G1. apply Bool.eqb_prop in G3.
    pose proof (word_lt p R G HA g Hg) as WL.
    cbv zeta. rewrite G3. set (rot := ks_rotated p g) in *.
    assert (EG : gw i g = Nk R + stp p * g) by reflexivity.
    assert (E4 : 4 * stp p * g = 4 * (stp p * g)) by (symmetry; apply N.mul_assoc).
    assert (E32 : 32 * stp p * g = 32 * (stp p * g)) by (symmetry; apply N.mul_assoc).
    assert (ER : rot = true -> AesSpec.Rcon (gw i g / Nk R) = [nthN FaestAes.Rcon (rci p g) 0; 0; 0; 0]).
    { intros Hr. rewrite Hr in G4. cbn [negb orb] in G4. apply N.eqb_eq in G4. unfold AesSpec.Rcon. rewrite G4. reflexivity. }
    replace (if rot then combine (RotWord (at_ [] (schedule R w) (gw i g - 1)))
               (xor_words (xor_words (at_ [] (schedule R w) (gw i g)) (at_ [] (schedule R w) (gw i g - Nk R))) (AesSpec.Rcon (gw i g / Nk R)))
             else _)
      with (if rot then combine (RotWord (at_ [] (schedule R w) (gw i g - 1)))
               (xor_words (xor_words (at_ [] (schedule R w) (gw i g)) (at_ [] (schedule R w) (gw i g - Nk R))) [nthN FaestAes.Rcon (rci p g) 0; 0; 0; 0])
             else combine (at_ [] (schedule R w) (gw i g - 1)) (xor_words (at_ [] (schedule R w) (gw i g)) (at_ [] (schedule R w) (gw i g - Nk R))))
      by (destruct rot; [rewrite ER by reflexivity|]; reflexivity).
    rewrite group_pairs by (apply (SA _ 0); lia).
    rewrite !map_map. apply map_ext_in. intros r Hr. apply In_Nrange in Hr. cbn [aval].
    set (y := N.lxor (N.lxor (at_ 0 (at_ [] (schedule R w) (gw i g)) r) (at_ 0 (at_ [] (schedule R w) (gw i g - Nk R)) r))
                     (if rot && (r =? 0) then nthN FaestAes.Rcon (rci p g) 0 else 0)).
    assert (Hrc : nthN FaestAes.Rcon (rci p g) 0 < 256).
    { apply nthN_byte. repeat constructor. }
    assert (BA : forall j r, at_ 0 (at_ [] (schedule R w) j) r < 256).
    { intros. rewrite at_nthN. apply nthN_byte, small_at, Sw. }
    assert (Hy : y < 256).
    { unfold y. apply lxor_lt8; [apply lxor_lt8; apply BA|]. destruct (rot && (r =? 0)); [exact Hrc|reflexivity]. }
    rewrite factors_small by (apply BA || exact Hy).
    assert (Hrs : rsel rot r < 4) by (unfold rsel; destruct rot; lia).
    f_equal.
    + rewrite (cmb_bits F HB _ _ _ CK). f_equal.
      rewrite (KW_eq _ _ _ _ (gw i g - 1) (rsel rot r)). 2: { fold rot. lia. } 2: exact Hrs. symmetry. apply SA; [lia|exact Hrs].
    + apply IA_bits; [exact HB|exact Hy|]. intros j Hj. unfold y, KX. rewrite !bitw_lxor.
      replace ((4 * g + r) / 4) with g by lia. replace ((4 * g + r) mod 4) with r by lia.
      replace (bf_mul_bit 1 (bitw (rcb p g r) j)) with (bitw (rcb p g r) j)
        by (unfold bf_mul_bit, bitw; destruct (N.testbit (rcb p g r) j); reflexivity).
      unfold rcb. fold rot. f_equal. f_equal.
      * rewrite (proj2 (SA (gw i g) r HGT Hr)). rewrite (kw_sub p R Hnk Nb4 (as_R _ _ _ HA) (as_Nk _ _ _ HA) EL Htot) by (assumption || lia). rewrite G1, at_nthN.
        rewrite <- bw_at by exact Hj. f_equal. lia.
      * rewrite (proj2 (SA (gw i g - Nk R) r ltac:(lia) Hr)).
        rewrite <- (KW_eq _ 4 _ (4 * (stp p * g) + r)) by (rewrite ?EG; lia).
        destruct (CK (4 * (stp p * g) + r)) as [_ C2]. rewrite <- C2 by exact Hj. f_equal. lia.
  - (* encryptions *)
    rewrite nums_0, EBl. fold p. rewrite !map_flat_map. apply flat_map_ext'. intros b Hb. apply In_Nrange in Hb.
    assert (Hbl : p_Lke p + b * p_Lenc p + p_Lenc p <= p_l p) by nia.
    rewrite enc_pairs_idx. unfold eix. rewrite !map_map. apply map_ext_in. intros [[n c] r] Hx. apply In_idx3 in Hx.
    unfold un3. cbn [aval fst snd].
    assert (PB : forall l a n, bytes_ok l -> bytes_ok (piece l a n)) by (intros; apply Forall_takeN, Forall_dropN; assumption).
    assert (PW : forall l a n q, q < 8 * n -> bw (piece l a n) q = bw l (8 * a + q)).
    { intros l a m q Hq. rewrite piece_eq, <- bw_drop. unfold bw. rewrite nthN_takeN by lia. reflexivity. }
    apply enc_bits; try tauto; auto.
    + rewrite Nb4. left. reflexivity.
    + intros q Hq. rewrite kwire_1, bw_drop, PW by lia. f_equal. rewrite Nb4. lia.
    + intros q Hq. apply KB. rewrite Nb4 in Hq. lia.
    + intros q Hq. rewrite EK, EE. fold p. rewrite Nb4 in Hq. rewrite PW by lia. f_equal.
      rewrite ELke, ELe. replace (32 * (Nk R + G) / 8) with (4 * (Nk R + G)) by lia.
      replace (128 * (Nr R - 1) / 8) with (16 * (Nr R - 1)) by lia. lia.
    + intros q Hq. rewrite kwire_1, bw_drop, PW by lia. f_equal. rewrite Nb4. lia.
Qed.

(** * Even-Mansour *)
Lemma word_ok_len l : word_ok l -> lenN l = 4.
Proof. intros (a & b & c & d & -> & _). reflexivity. Qed.
Lemma em_factors i w inp out : is_em i = true -> bytes_ok w -> bytes_ok inp -> bytes_ok out ->
  p_Lenc (param_of i) <= 8 * lenN w -> 4 * Nb (cipher_of i) <= lenN out -> 4 * Nk (cipher_of i) <= lenN inp ->
  map (eval F (param_of i) (cipher_of i) (concat (KeyExpansion (cipher_of i) inp)) out (bw w) 1) (eix (cipher_of i) 0) =
  map (factors F) (claims i w inp out).
Proof using HB.
  intros EM BW BI BO LW LO LI. pose proof (em_shape_ok i EM) as HE.
  pose proof (es_Nb _ _ HE) as HNb. pose proof (es_L _ _ HE) as EL. pose proof (es_Lenc _ _ HE) as ELe. pose proof (es_Nr _ _ HE) as HNr.
  destruct (ciphers_ok _ _ (mcipher_in i)) as [CK ER].
  unfold claims. rewrite EM. cbv zeta. set (R := cipher_of i) in *. set (p := param_of i) in *.
  assert (EP : enc_part R = 4 * Nb R * (Nr R - 1)) by reflexivity.
  rewrite enc_pairs_idx. unfold eix. rewrite !map_map. apply map_ext_in. intros [[n c] r] Hx. apply In_idx3 in Hx.
  unfold un3. cbn [eval fst snd].
  assert (PB : forall l a n, bytes_ok l -> bytes_ok (piece l a n)) by (intros; apply Forall_takeN, Forall_dropN; assumption).
  assert (PW : forall l a n q, q < 8 * n -> bw (piece l a n) q = bw l (8 * a + q)).
  { intros l a m q Hq. rewrite piece_eq, <- bw_drop. unfold bw. rewrite nthN_takeN by lia. reflexivity. }
  assert (LW' : 4 * Nb R <= lenN w) by nia.
  apply enc_bits; try tauto; auto using small_KeyExpansion, bytes_xorw.
  - apply nth_ws. intros j Hj. rewrite at_nthN. rewrite ER in *.
    rewrite (w_len (mcipher i) CK inp LI) in Hj. apply word_ok_len, (w_ok (mcipher i) CK inp LI BI j Hj).
  - intros q Hq. rewrite PW by lia. f_equal.
  - intros q _. apply kwire_1.
  - intros q Hq. rewrite PW by (rewrite EP; destruct HNb as [E|[E|[E|[]]]]; rewrite <- E in *; lia). f_equal. lia.
  - intros q Hq. rewrite kwire_1. unfold bw at 1 2. rewrite <- bitw_lxor. unfold bw. f_equal.
    rewrite xor_words_bytes, nthN_xor by (rewrite ?piece_eq, ?lenN_takeN, ?lenN_dropN; lia).
    rewrite !piece_eq, !nthN_takeN, !nthN_dropN by lia. reflexivity.
Qed.

Lemma em_expand_ok i inp : is_em i = true -> bytes_ok inp -> 4 * Nk (cipher_of i) <= lenN inp ->
  em_expand (param_of i) inp = Ok (concat (KeyExpansion (cipher_of i) inp)) /\
  lenN (concat (KeyExpansion (cipher_of i) inp)) = 4 * Nb (cipher_of i) * (Nr (cipher_of i) + 1) /\
  bytes_ok (concat (KeyExpansion (cipher_of i) inp)).
Proof.
  intros EM BI LI. pose proof (em_shape_ok i EM) as HE.
  destruct (ciphers_ok _ _ (mcipher_in i)) as [CK ER].
  assert (EC : em_cipher (p_lambda (param_of i)) = mcipher i) by (destruct i; try discriminate EM; reflexivity).
  assert (LI' : 4 * c_kw (mcipher i) <= lenN inp) by (rewrite ER in LI; exact LI).
  destruct (expand_key_ok (mcipher i) CK inp LI' BI) as (rk & ret & E & [_ HRK] & _).
  unfold em_expand. rewrite EC, (es_R _ _ HE), (es_Nwd _ _ HE). unfold init_round_keys. rewrite E. cbn [bind fst].
  pose proof (es_Nb _ _ HE) as HNb. rewrite ER in *. cbn [Nb Nr Nk] in *.
  set (c := mcipher i) in *. set (ws := KeyExpansion _ inp) in *.
  assert (Lws : lenN ws = c_bw c * (c_nr c + 1)).
  { unfold ws. rewrite (w_len c CK inp LI'). unfold total. reflexivity. }
  assert (W4 : forall j, j < total c -> word_ok (w_ c inp j)) by (apply w_ok; assumption).
  assert (HT : total c = c_bw c * (c_nr c + 1)) by reflexivity.
  assert (HNb0 : 0 < c_bw c) by (destruct HNb as [E'|[E'|[E'|[]]]]; rewrite <- E'; reflexivity).
  rewrite (mapM_tab _ (fun r => concat (tab (c_bw c) (fun k => w_ c inp (c_bw c * r + k))))).
  2: { intros r Hr.
       rewrite (mapM_tab _ (fun k => toW (w_ c inp (c_bw c * r + k)))).
       - cbn [bind]. unfold store_state. f_equal. f_equal. unfold tab. rewrite map_map. apply map_ext_in. intros k Hk. apply In_Nrange in Hk.
         apply word_bytes_toW, W4. rewrite HT. nia.
       - intros k Hk. rewrite <- HRK by (rewrite HT; nia). f_equal.
         + rewrite N.mul_comm, N.div_add_l, N.div_small by lia. lia.
         + rewrite N.add_comm, N.mul_comm, N.mod_add, N.mod_small by lia. reflexivity. }
  cbn [bind].
  assert (EQ : forall m, concat (tab m (fun r => concat (tab (c_bw c) (fun k => w_ c inp (c_bw c * r + k))))) = concat (tab (c_bw c * m) (w_ c inp))).
  { assert (SP : forall a b, tab (a + b) (w_ c inp) = tab a (w_ c inp) ++ tab b (fun k => w_ c inp (a + k))).
    { intros a b. induction b as [|b IH] using N.peano_ind; [rewrite N.add_0_r, tab_0, app_nil_r; reflexivity|].
      rewrite <- N.add_1_r, N.add_assoc, !tab_succ, IH, app_assoc. reflexivity. }
    induction m as [|m IH] using N.peano_ind; [rewrite N.mul_0_r; reflexivity|].
    rewrite <- N.add_1_r, tab_succ, N.mul_add_distr_l, N.mul_1_r, SP, !concat_app, IH. cbn [concat]. rewrite app_nil_r. reflexivity. }
  rewrite EQ, <- Lws. unfold w_ at 1. fold ws.
  change (fun i0 : N => nthN ws i0 []) with (fun i0 => nthN ws i0 (@nil N)). rewrite tab_nth.
  split; [reflexivity|]. split.
  - rewrite <- N.mul_assoc, <- Lws.
    assert (F4 : Forall (fun w => lenN w = 4) ws).
    { apply nth_ws. intros j Hj. rewrite at_nthN. rewrite Lws, <- HT in Hj. apply word_ok_len, (W4 j Hj). }
    clear - F4. induction F4 as [|x l Hx F IH]; [reflexivity|]. cbn [concat]. rewrite lenN_app, lenN_cons, Hx, IH. lia.
  - apply bytes_concat, small_KeyExpansion, BI.
Qed.
End Enc.
