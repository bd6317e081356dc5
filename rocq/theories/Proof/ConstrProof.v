(** The prover and verifier hash the factors of every S-box. *)
From Verif.Model Require Import Aes FaestAes.
From Verif.Spec Require Import AesSpec OwfSpec ConstraintSpec ConstraintMap UHashSpec.
From Verif.Proof Require Import BaseProof PolyProof FieldProof EmbedProof AesProof UHashProof ClaimProof DefectProof
  VoleProof CorrectProof WireProof ConsProof KeyWireProof KeyBackProof.
From Coq Require Import Lia ZifyBool ZifyNat ZifyN.
Ltac Zify.zify_post_hook ::= Z.div_mod_to_equations.

(** * Loops *)
Lemma foldM_pure_in {A S} (f : S -> A -> res S) (g : S -> A -> S) l : forall s,
  (forall s x, In x l -> f s x = Ok (g s x)) -> foldM f l s = Ok (fold_left g l s).
Proof.
  induction l as [|x l IH]; intros s H; [reflexivity|]. cbn [foldM fold_left]. rewrite H by (left; reflexivity).
  cbn [bind]. apply IH. intros. apply H. right. assumption.
Qed.
Lemma fold_left_map {A B S} (f : S -> B -> S) (h : A -> B) l : forall s,
  fold_left f (map h l) s = fold_left (fun s x => f s (h x)) l s.
Proof. induction l as [|x l IH]; intros s; [reflexivity|]. cbn [map fold_left]. apply IH. Qed.
Lemma fold_left_flat_map {A B S} (f : S -> B -> S) (h : A -> list B) l : forall s,
  fold_left f (flat_map h l) s = fold_left (fun s x => fold_left f (h x) s) l s.
Proof. induction l as [|x l IH]; intros s; [reflexivity|]. cbn [flat_map fold_left]. rewrite fold_left_app. apply IH. Qed.
Lemma fold_left_ext_in {A S} (f g : S -> A -> S) l : forall s,
  (forall s x, In x l -> f s x = g s x) -> fold_left f l s = fold_left g l s.
Proof.
  induction l as [|x l IH]; intros s H; [reflexivity|]. cbn [fold_left]. rewrite H by (left; reflexivity).
  apply IH. intros. apply H. right. assumption.
Qed.
Lemma foldM_index {A S} (f : S -> N -> res S) (g : S -> A -> S) (l : list A) (d : A) n s :
  n = lenN l -> (forall s j, j < lenN l -> f s j = Ok (g s (nthN l j d))) -> foldM f (Nrange n) s = Ok (fold_left g l s).
Proof.
  intros -> H. rewrite (foldM_pure_in f (fun s j => g s (nthN l j d))).
  - f_equal. rewrite <- (fold_left_map g (fun j => nthN l j d)). f_equal. apply (tab_nth l d).
  - intros s' x Hx. apply In_Nrange in Hx. apply H, Hx.
Qed.
Lemma aget_map {A B} (h : A -> B) (l : list A) d j : j < lenN l -> aget (map h l) j = Ok (h (nthN l j d)).
Proof.
  intros H. rewrite (aget_ok _ _ (h d)) by (rewrite lenN_map; exact H). f_equal. unfold nthN. apply map_nth.
Qed.
Lemma flat_map_map {A B C} (f : A -> B) (g : B -> list C) l : flat_map g (map f l) = flat_map (fun x => g (f x)) l.
Proof. induction l as [|x l IH]; [reflexivity|]. cbn. rewrite IH. reflexivity. Qed.

(** * Extensionality *)
Section Ext.
Variable F : field.
Variable R : rijndael.
Hypothesis HNb : In (Nb R) [4; 6; 8].
Hypothesis HNr : 2 <= Nr R.
Lemma cmb_ext_at V W q : (forall i, i < 8 -> V (8 * q + i) = W (8 * q + i)) -> cmb F V q = cmb F W q.
Proof. intros H. apply combine8_ext. exact H. Qed.

Lemma fwd_ext I K X I' K' X' n c r :
  (forall q, q < 32 * Nb R -> I q = I' q) -> (forall q, q < 32 * Nb R * (Nr R + 1) -> K q = K' q) ->
  (forall q, q < 32 * Nb R * (Nr R - 1) -> X q = X' q) ->
  n < Nr R -> c < Nb R -> r < 4 -> fwd F R I K X n c r = fwd F R I' K' X' n c r.
Proof.
  intros HI HK HX Hn Hc Hr. unfold fwd. destruct (N.eqb_spec n 0) as [->|Hn0].
  - f_equal; apply cmb_ext_at; intros i Hi; [apply HI|apply HK]; nia.
  - apply mixv_ext; intros j Hj; apply cmb_ext_at; intros i Hi; [apply HX|apply HK];
      destruct HNb as [E|[E|[E|[]]]]; rewrite <- E in *; lia.
Qed.
Lemma bwd_ext X O K X' O' K' k n c r :
  (forall q, q < 32 * Nb R * (Nr R - 1) -> X q = X' q) -> (forall q, q < 32 * Nb R -> O q = O' q) ->
  (forall q, q < 32 * Nb R * (Nr R + 1) -> K q = K' q) ->
  n < Nr R -> c < Nb R -> r < 4 -> bwd F R X O K k n c r = bwd F R X' O' K' k n c r.
Proof.
  intros HX HO HK Hn Hc Hr. unfold bwd. apply IA_ext. intros i Hi. pose proof (spos_lt R HNb c r Hr) as HS.
  destruct (N.ltb_spec n (Nr R - 1)).
  - apply HX. destruct HNb as [E|[E|[E|[]]]]; rewrite <- E in *; lia.
  - f_equal; [apply HO; lia|apply HK]. destruct HNb as [E|[E|[E|[]]]]; rewrite <- E in *; lia.
Qed.
End Ext.

(** * Hashing *)
Section Hash.
Variable F : field.
Definition upd2 (c : zk_ctx * zk_ctx) (t : N * N) : zk_ctx * zk_ctx :=
  (zk_hash_update F (fst c) (fst t), zk_hash_update F (snd c) (snd t)).
Lemma fold_upd2 {A} (t : A -> N * N) l : forall c,
  fold_left (fun c x => upd2 c (t x)) l c =
  (fold_left (zk_hash_update F) (map (fun x => fst (t x)) l) (fst c), fold_left (zk_hash_update F) (map (fun x => snd (t x)) l) (snd c)).
Proof.
  induction l as [|x l IH]; intros [c0 c1]; [reflexivity|]. rewrite fold_left_cons, IH. cbn [map].
  rewrite !fold_left_cons. reflexivity.
Qed.
(** what the prover hashes, for the factors (s, s') and their tags (v, v') *)
Definition pterms (s v : N * N) : N * N := prove_terms F (fst s) (fst v) (snd s) (snd v).
(** what the verifier hashes *)
Definition vterm (D : N) (q : N * N) : N := bf_add (bf_mul F (fst q) (snd q)) (bf_mul F D D).

Lemma hash_constraints_0_ok {A} (l : list A) (d : A) a b c e n ctxs : n = lenN l ->
  hash_constraints_0 F n (map a l) (map b l) (map c l) (map e l) ctxs =
  Ok (fold_left (fun s x => upd2 s (pterms (a x, c x) (b x, e x))) l ctxs).
Proof.
  intros Hn. unfold hash_constraints_0. apply (foldM_index _ _ l d); [exact Hn|]. intros [s0 s1] j Hj.
  rewrite !(aget_map _ l d) by exact Hj. cbn [bind]. reflexivity.
Qed.
Lemma hash_constraints_1_ok {A} (l : list A) (d : A) a b n D b0 : n = lenN l ->
  hash_constraints_1 F n (map a l) (map b l) D b0 =
  Ok (fold_left (fun s x => zk_hash_update F s (vterm D (a x, b x))) l b0).
Proof.
  intros Hn. unfold hash_constraints_1. apply (foldM_index _ _ l d); [exact Hn|]. intros s j Hj.
  rewrite !(aget_map _ l d) by exact Hj. cbn [bind]. reflexivity.
Qed.
End Hash.

Definition rsel (rot : bool) (r : N) : N := if rot then (r + 1) mod 4 else r.
Lemma fill4_ok rot g h : (forall r, r < 4 -> g r = Ok (h r)) -> fill4 rot g = Ok (map (fun r => h (rsel rot r)) (Nrange 4)).
Proof.
  intros H. unfold fill4. change (Nrange 4) with [0; 1; 2; 3]. cbn [foldM].
  rewrite (H 0), (H 1), (H 2), (H 3) by lia. destruct rot; reflexivity.
Qed.

(** * The S-boxes *)
Inductive ix := IK (g r : N) | IE (b n c r : N).
Definition kix (G : N) : list ix := flat_map (fun g => map (IK g) (Nrange 4)) (Nrange G).
Definition eix (R : rijndael) (b : N) : list ix := map (fun x => IE b (fst (fst x)) (snd (fst x)) (snd x)) (idx3 (Nb R) (Nr R)).

(** the two factors of an S-box: [W] wires of the witness, [k] the value of one *)
Definition aval (F : field) (p : param) (R : rijndael) (inp out : list N) (W : N -> N) (k : N) (x : ix) : N * N :=
  let K := KW (Nk R) 32 W in
  match x with
  | IK g r => (cmb F K (4 * (Nk R - 1) + 4 * stp p * g + rsel (ks_rotated p g) r),
               IA F (KX p k (fun q => W (p_lambda p + q)) K (4 * g + r)) k)
  | IE b n c r =>
      let X := fun q => W (p_Lke p + b * p_Lenc p + q) in
      (fwd F R (kwire k (dropN (16 * b) inp)) K X n c r,
       bwd F R X (kwire k (dropN (16 * b) out)) K k n c r)
  end.
Definition eval (F : field) (p : param) (R : rijndael) (x out : list N) (W : N -> N) (k : N) (j : ix) : N * N :=
  match j with
  | IK g r => (0, 0)
  | IE b n c r =>
      let X := fun q => W (p_lambda p + q) in
      (fwd F R W (kwire k x) X n c r,
       bwd F R X (fun q => N.lxor (kwire k out q) (W q)) (kwire k x) k n c r)
  end.

Lemma kwire_1 x q : kwire 1 x q = bw x q.
Proof. unfold kwire, bw, bitw, bf_mul_bit. destruct (N.testbit (nthN x (q / 8) 0) (q mod 8)); reflexivity. Qed.
Lemma kwire_0 x q : kwire 0 x q = 0.
Proof. unfold kwire, bf_mul_bit. destruct (N.testbit _ 0); reflexivity. Qed.
Lemma kap_prover : kap 1 0 None = 0.
Proof. reflexivity. Qed.
Lemma kap_verifier D : kap 0 1 (Some D) = D.
Proof.
  unfold kap, mkey_factor, opt_delta, bf_mul_bit, bf_add, bf_from_bit. cbn. apply N.lxor_0_r.
Qed.
Lemma kwire_drop k x m q : kwire k (dropN m x) q = kwire k x (8 * m + q).
Proof.
  unfold kwire, bw. rewrite nthN_dropN. replace ((8 * m + q) / 8) with (m + q / 8) by lia.
  replace ((8 * m + q) mod 8) with (q mod 8) by lia. reflexivity.
Qed.
Lemma bw_drop x m q : bw (dropN m x) q = bw x (8 * m + q).
Proof.
  unfold bw. rewrite nthN_dropN. replace ((8 * m + q) / 8) with (m + q / 8) by lia.
  replace ((8 * m + q) mod 8) with (q mod 8) by lia. reflexivity.
Qed.

(** * AES *)
Section Aes.
Variable F : field.
Hypothesis HB : big_field F.
Variable p : param.
Variable R : rijndael.
Variable G : N.
Record aes_shape : Prop := {
  as_Nb : Nb R = 4; as_Nr : 2 <= Nr R; as_R : p_R p = Nr R; as_Nk : p_Nwd p = Nk R; as_L : p_lambda p = 32 * Nk R;
  as_nk : 0 < Nk R; as_tot : Nk R <= 4 * (Nr R + 1); as_ske : p_Ske p = 4 * G; as_G : G <= 30;
  as_cnt : cnt (Nk R) (4 * (Nr R + 1)) = G; as_Lke : p_Lke p = 32 * (Nk R + G); as_Lenc : p_Lenc p = 128 * (Nr R - 1);
  as_senc : p_Senc p = 16 * Nr R; as_last : Nk R + stp p * G <= 4 * (Nr R + 1) + stp p;
  as_l : p_l p = p_Lke p + aes_blocks p * p_Lenc p }.
Hypothesis HA : aes_shape.
Local Notation nk := (Nk R).
Local Notation total := (4 * (Nr R + 1)).

Lemma KW_bytes w k : bytes_ok w -> lenN k = 4 * total -> (forall q, q < 4 * total -> nthN k q 0 = KW nk 4 (at_ 0 w) q) ->
  bytes_ok k /\ forall q, q < 32 * total -> bw k q = KW nk 32 (bw w) q.
Proof.
  intros HW HL HK. pose proof (KW_carries nk (bw w) (at_ 0 w) (bw_carries w HW)) as C. split.
  - unfold bytes_ok. apply Forall_forall. intros x Hx. apply (In_nth _ _ 0) in Hx. destruct Hx as (n & Hn & <-).
    specialize (HK (N.of_nat n)). unfold nthN in HK. rewrite Nnat.Nat2N.id in HK.
    rewrite HK by (unfold lenN in HL; lia). apply C.
  - intros q Hq. destruct (C (q / 8)) as [_ C2]. specialize (C2 (q mod 8) ltac:(lia)).
    replace (8 * (q / 8) + q mod 8) with q in C2 by lia. rewrite C2. unfold bw. f_equal. apply HK. lia.
Qed.

Lemma ks_iwd_eq g r : 0 < nk -> ks_iwd p g + 8 * r = 8 * (4 * (nk - 1) + 4 * stp p * g + r).
Proof using HA. intros H. unfold ks_iwd, stp. rewrite (as_Nk HA). destruct (p_lambda p =? 192); lia. Qed.

Lemma word_lt g : g < G -> nk - 1 + stp p * g < total.
Proof using HA.
  intros Hg. pose proof (as_last HA) as H. pose proof (as_nk HA) as H1.  unfold stp in *. destruct (_ =? 192); lia.
Qed.

Definition pstep (inp out : list N) (w : list N) (V : N -> N) (s : zk_ctx * zk_ctx) (x : ix) : zk_ctx * zk_ctx :=
  upd2 F s (pterms F (aval F p R inp out (bw w) 1 x) (aval F p R inp out V 0 x)).
Definition vstep (inp out : list N) (Q : N -> N) (D : N) (s : zk_ctx) (x : ix) : zk_ctx :=
  zk_hash_update F s (vterm F D (aval F p R inp out Q D x)).

Lemma aget_r (h : N -> N) r : r < 4 -> aget (map h (Nrange 4)) r = Ok (h r).
Proof. intros H. apply (aget_tab 4 h r H). Qed.

Lemma KX_bits w k j i : bytes_ok w -> bytes_ok k -> i < 8 -> j / 4 < G ->
  (forall q, q < 32 * total -> bw k q = KW nk 32 (bw w) q) ->
  bitw (KY p (dropN (p_lambda p / 8) w) k j) i = KX p 1 (fun q => bw w (p_lambda p + q)) (KW nk 32 (bw w)) j i.
Proof using HA.
  intros HW HKb Hi Hj HK. unfold KY, KX. rewrite !bitw_lxor.
  pose proof (as_last HA) as HL. pose proof (as_L HA) as EL. pose proof (as_nk HA) as Hnk.
  rewrite nthN_dropN.
  replace (bf_mul_bit 1 (bitw (rcb p (j / 4) (j mod 4)) i)) with (bitw (rcb p (j / 4) (j mod 4)) i)
    by (unfold bf_mul_bit, bitw; destruct (N.testbit (rcb p (j / 4) (j mod 4)) i); reflexivity).
  f_equal. f_equal.
  - rewrite <- bw_at by exact Hi. f_equal. lia.
  - rewrite <- bw_at by exact Hi. rewrite <- HK by (unfold stp in *; destruct (_ =? 192); lia). f_equal.
    unfold stp. destruct (_ =? 192); lia.
Qed.

Lemma ks_constraints_0_ok inp out w v V ctxs : bytes_ok w -> p_Lke p <= 8 * lenN w -> holds v (p_Lke p) V ->
  exists k vk, ks_constraints_0 F p w v ctxs = Ok (fold_left (pstep inp out w V) (kix G) ctxs, k, vk) /\
    lenN k = 4 * total /\ bytes_ok k /\ (forall q, q < 32 * total -> bw k q = KW nk 32 (bw w) q) /\
    holds vk (32 * total) (KW nk 32 V).
Proof using HB HA.
  intros HW HWL HV. unfold ks_constraints_0.
  pose proof (as_nk HA) as Hnk. pose proof (as_L HA) as EL. pose proof (as_Lke HA) as ELke. pose proof (as_cnt HA) as EC.
  pose proof (as_ske HA) as ES. pose proof (as_last HA) as HL.
  destruct (ks_forward_1_ok p R (as_nk HA) (as_Nb HA) (as_R HA) (as_Nk HA) (as_L HA) (as_tot HA) w) as (k & -> & Lk & Vk); [lia|].
  destruct (ks_forward_ok p R (as_nk HA) (as_Nb HA) (as_R HA) (as_Nk HA) (as_L HA) (as_tot HA) v V) as (vk & -> & Lvk & Vvk).
  { apply (holds_le _ _ _ _ HV). lia. }
  cbn [bind]. rewrite from_ok by lia. cbn [bind].
  destruct (KW_bytes w k HW Lk Vk) as [Bk Kb].
  destruct (ks_backward_1_ok p ltac:(pose proof (as_G HA); lia) ltac:(lia) (dropN (p_lambda p / 8) w) k) as (wd & -> & Lwd & Vwd).
  { rewrite lenN_dropN. lia. }
  { rewrite Lk, ES. replace (4 * G / 4) with G by lia. unfold stp in *. destruct (_ =? 192); lia. }
  cbn [bind]. rewrite from_ok by (destruct HV; lia). cbn [bind].
  destruct (ks_backward_ok p ltac:(pose proof (as_G HA); lia) ltac:(lia) (dropN (p_lambda p) v) vk 1 0 None
    (fun q => V (p_lambda p + q)) (KW nk 32 V) eq_refl) with (nK := 32 * total) as (vwd & -> & Lvwd & Vvwd).
  { apply holds_drop. apply (holds_le _ _ _ _ HV). lia. }
  { exact Vvk. }
  { rewrite ES. replace (4 * G / 4) with G by lia. unfold stp in *. destruct (_ =? 192); lia. }
  rewrite kap_prover in Vvwd. cbn [bind].
  rewrite ES. replace (4 * G / 4) with G by lia.
  rewrite (foldM_pure_in _ (fun s g => fold_left (pstep inp out w V) (map (IK g) (Nrange 4)) s)).
  - cbn [bind]. exists k, vk. unfold kix. rewrite fold_left_flat_map. auto.
  - intros s g Hg. apply In_Nrange in Hg. pose proof (word_lt g Hg) as WL. unfold ks_constraints_0_step. cbv zeta.
    rewrite (fill4_ok _ _ (fun r => cmb F (KW nk 32 (bw w)) (4 * (nk - 1) + 4 * stp p * g + r))).
    2: { intros r Hr. rewrite ks_iwd_eq by exact Hnk. rewrite N.mul_comm, N.div_mul by discriminate.
         fold (combine_byte F k (4 * (nk - 1) + 4 * stp p * g + r)).
         rewrite combine_byte_ok by (try assumption; lia). f_equal. apply cmb_ext_at. intros i Hi. apply Kb. lia. }
    rewrite (fill4_ok _ _ (fun r => cmb F (KW nk 32 V) (4 * (nk - 1) + 4 * stp p * g + r))).
    2: { intros r Hr. rewrite ks_iwd_eq by exact Hnk. apply (combine_ok F HB _ (32 * total)); [exact Vvk|reflexivity|lia]. }
    rewrite (fill4_ok _ _ (fun r => IA F (KX p 1 (fun q => bw w (p_lambda p + q)) (KW nk 32 (bw w)) (4 * g + r)) 1)).
    2: { intros r Hr. replace ((32 * g + 8 * r) / 8) with (4 * g + r) by lia.
         rewrite (aget_ok wd _ 0) by lia. cbn [bind]. rewrite Vwd by lia.
         assert (HY : KY p (dropN (p_lambda p / 8) w) k (4 * g + r) < 256).
         { unfold KY. apply lxor_lt8; [apply lxor_lt8; apply nthN_byte; [apply Forall_dropN|]; assumption|].
           unfold rcb. destruct (ks_rotated p ((4 * g + r) / 4) && _); [|reflexivity].
           unfold nthN. destruct (nth_in_or_default (N.to_nat (rci p ((4 * g + r) / 4))) FaestAes.Rcon 0) as [HIn| ->]; [|reflexivity].
           revert HIn. generalize (nth (N.to_nat (rci p ((4 * g + r) / 4))) FaestAes.Rcon 0). intros x HIn.
           assert (HF : Forall (fun x => x < 256) FaestAes.Rcon) by (repeat constructor).
           rewrite Forall_forall in HF. apply HF, HIn. }
         rewrite InvAffine_eq by exact HY. rewrite byte_combine_bits_emb by (try assumption; apply InvAffine_lt, HY).
         f_equal. symmetry. apply IA_bits; [assumption|exact HY|]. intros i Hi. symmetry. apply KX_bits; try assumption. lia. }
    rewrite (fill4_ok _ _ (fun r => IA F (KX p 0 (fun q => V (p_lambda p + q)) (KW nk 32 V) (4 * g + r)) 0)).
    2: { intros r Hr. replace (32 * g + 8 * r) with (8 * (4 * g + r)) by lia.
         rewrite (combine_ok F HB _ (8 * p_Ske p) _ (4 * g + r) _ Vvwd) by lia. f_equal.
         apply combine8_ext. intros i Hi. replace ((8 * (4 * g + r) + i) / 8) with (4 * g + r) by lia.
         replace ((8 * (4 * g + r) + i) mod 8) with i by lia. reflexivity. }
    cbn [bind]. rewrite fold_left_map. apply foldM_pure_in. intros [s0 s1] r Hr. apply In_Nrange in Hr.
    rewrite !aget_r by exact Hr. cbn [bind rsel]. unfold pstep, upd2, pterms. cbn [aval fst snd].
    destruct (prove_terms _ _ _ _ _). reflexivity.
Qed.

Lemma ks_constraints_1_ok inp out q Q D b0 : holds q (p_Lke p) Q ->
  exists qk, ks_constraints_1 F p q D b0 = Ok (fold_left (vstep inp out Q D) (kix G) b0, qk) /\
    holds qk (32 * total) (KW nk 32 Q).
Proof using HB HA.
  intros HV. unfold ks_constraints_1.
  pose proof (as_nk HA) as Hnk. pose proof (as_L HA) as EL. pose proof (as_Lke HA) as ELke. pose proof (as_cnt HA) as EC.
  pose proof (as_ske HA) as ES. pose proof (as_last HA) as HL.
  destruct (ks_forward_ok p R (as_nk HA) (as_Nb HA) (as_R HA) (as_Nk HA) (as_L HA) (as_tot HA) q Q) as (vk & -> & Lvk & Vvk).
  { apply (holds_le _ _ _ _ HV). lia. }
  cbn [bind]. rewrite from_ok by (destruct HV; lia). cbn [bind].
  destruct (ks_backward_ok p ltac:(pose proof (as_G HA); lia) ltac:(lia) (dropN (p_lambda p) q) vk 0 1 (Some D)
    (fun i => Q (p_lambda p + i)) (KW nk 32 Q) eq_refl) with (nK := 32 * total) as (vwd & -> & Lvwd & Vvwd).
  { apply holds_drop. apply (holds_le _ _ _ _ HV). lia. }
  { exact Vvk. }
  { rewrite ES. replace (4 * G / 4) with G by lia. unfold stp in *. destruct (_ =? 192); lia. }
  rewrite kap_verifier in Vvwd. cbn [bind].
  rewrite ES. replace (4 * G / 4) with G by lia.
  rewrite (foldM_pure_in _ (fun s g => fold_left (vstep inp out Q D) (map (IK g) (Nrange 4)) s)).
  - cbn [bind]. exists vk. unfold kix. rewrite fold_left_flat_map. auto.
  - intros s g Hg. apply In_Nrange in Hg. pose proof (word_lt g Hg) as WL. unfold ks_constraints_1_step. cbv zeta.
    rewrite (fill4_ok _ _ (fun r => cmb F (KW nk 32 Q) (4 * (nk - 1) + 4 * stp p * g + r))).
    2: { intros r Hr. rewrite ks_iwd_eq by exact Hnk. apply (combine_ok F HB _ (32 * total)); [exact Vvk|reflexivity|lia]. }
    rewrite (fill4_ok _ _ (fun r => IA F (KX p D (fun q => Q (p_lambda p + q)) (KW nk 32 Q) (4 * g + r)) D)).
    2: { intros r Hr. replace (32 * g + 8 * r) with (8 * (4 * g + r)) by lia.
         rewrite (combine_ok F HB _ (8 * p_Ske p) _ (4 * g + r) _ Vvwd) by lia. f_equal.
         apply combine8_ext. intros i Hi. replace ((8 * (4 * g + r) + i) / 8) with (4 * g + r) by lia.
         replace ((8 * (4 * g + r) + i) mod 8) with i by lia. reflexivity. }
    cbn [bind]. rewrite fold_left_map. apply foldM_pure_in. intros s0 r Hr. apply In_Nrange in Hr.
    rewrite !aget_r by exact Hr. cbn [bind rsel]. unfold vstep, vterm. cbn [aval fst snd]. reflexivity.
Qed.

Lemma HNb : In (Nb R) [4; 6; 8].
Proof using HA. rewrite (as_Nb HA). left. reflexivity. Qed.
Lemma kwire_0' x q : 0 = kwire 0 x q.
Proof. symmetry. apply kwire_0. Qed.

Lemma enc_constraints_0_ok b inp out w v V k vk ctxs :
  bytes_ok inp -> bytes_ok out -> bytes_ok w -> b < aes_blocks p -> 16 * (b + 1) <= lenN inp -> 16 * (b + 1) <= lenN out ->
  p_l p <= 8 * lenN w -> holds v (p_l p) V ->
  lenN k = 4 * total -> bytes_ok k -> (forall q, q < 32 * total -> bw k q = KW nk 32 (bw w) q) ->
  holds vk (32 * total) (KW nk 32 V) ->
  enc_constraints_0 F p (dropN (16 * b) inp) (dropN (16 * b) out) (dropN ((p_Lke p + b * p_Lenc p) / 8) w)
    (dropN (p_Lke p + b * p_Lenc p) v) k vk ctxs =
  Ok (fold_left (pstep inp out w V) (eix R b) ctxs).
Proof using HB HA.
  intros BI BO BW Hb LI LO LW HV Lk Bk Kb HK. unfold enc_constraints_0.
  pose proof (as_Lke HA) as ELke. pose proof (as_Lenc HA) as ELe. pose proof (as_l HA) as El. pose proof (as_Nr HA) as HNr.
  assert (Hbl : p_Lke p + b * p_Lenc p + p_Lenc p <= p_l p) by nia.
  assert (HX : holds (dropN (p_Lke p + b * p_Lenc p) v) (128 * (Nr R - 1)) (fun q => V (p_Lke p + b * p_Lenc p + q))).
  { apply holds_drop. apply (holds_le _ _ _ _ HV). lia. }
  assert (EB : 8 * ((p_Lke p + b * p_Lenc p) / 8) = p_Lke p + b * p_Lenc p).
  { replace (p_Lke p + b * p_Lenc p) with (8 * (4 * (Nk R + G) + b * (16 * (Nr R - 1)))) by lia.
    rewrite (N.mul_comm 8 (_ + _)), N.div_mul by discriminate. lia. }
  rewrite (enc_forward_1_ok F HB p R (as_Nb HA) (as_Nr HA) (as_R HA))
    by (try (apply Forall_dropN; assumption); try assumption; rewrite ?lenN_dropN; lia). cbn [bind].
  rewrite (enc_forward_ok F HB p R (as_Nb HA) (as_Nr HA) (as_R HA) _ _ _ _ _ _ _ _ HX (holds_le _ _ (128 * (Nr R + 1)) _ HK ltac:(lia)))
    by (rewrite ?lenN_dropN; lia). cbn [bind].
  rewrite (enc_backward_1_ok F HB p R (as_Nb HA) (as_Nr HA) (as_R HA))
    by (try (apply Forall_dropN; assumption); try assumption; rewrite ?lenN_dropN; lia). cbn [bind].
  rewrite (enc_backward_ok F HB p R (as_Nb HA) (as_Nr HA) (as_R HA) _ _ _ _ _ _ _ _ HX (holds_le _ _ (128 * (Nr R + 1)) _ HK ltac:(lia)))
    by (rewrite ?lenN_dropN; lia). cbn [bind]. rewrite kap_prover.
  rewrite (hash_constraints_0_ok F _ (0, 0, 0)) by (rewrite lenN_idx3, (as_senc HA), (as_Nb HA); lia).
  f_equal. unfold eix. rewrite fold_left_map. apply fold_left_ext_in. intros s [[n c] r] Hx. apply In_idx3 in Hx.
  unfold pstep, un3. cbn [aval fst snd]. destruct Hx as (Hn & Hc & Hr).
  pose proof HNb as HNb. pose proof (as_Nb HA) as Nb4.
  do 3 f_equal.
  - apply fwd_ext; try assumption.
    + intros q _. symmetry. apply kwire_1.
    + intros q Hq. apply Kb. rewrite Nb4 in Hq. lia.
    + intros q _. rewrite bw_drop, EB. reflexivity.
  - apply bwd_ext; try assumption.
    + intros q _. rewrite bw_drop, EB. reflexivity.
    + intros q _. symmetry. apply kwire_1.
    + intros q Hq. apply Kb. rewrite Nb4 in Hq. lia.
Qed.

Lemma enc_constraints_1_ok b inp out q Q qk D b0 :
  b < aes_blocks p -> 16 * (b + 1) <= lenN inp -> 16 * (b + 1) <= lenN out ->
  holds q (p_l p) Q -> holds qk (32 * total) (KW nk 32 Q) ->
  enc_constraints_1 F p (dropN (16 * b) inp) (dropN (16 * b) out) (dropN (p_Lke p + b * p_Lenc p) q) qk D b0 =
  Ok (fold_left (vstep inp out Q D) (eix R b) b0).
Proof using HB HA.
  intros Hb LI LO HV HK. unfold enc_constraints_1.
  pose proof (as_Lke HA) as ELke. pose proof (as_Lenc HA) as ELe. pose proof (as_l HA) as El. pose proof (as_Nr HA) as HNr.
  assert (Hbl : p_Lke p + b * p_Lenc p + p_Lenc p <= p_l p) by nia.
  assert (HX : holds (dropN (p_Lke p + b * p_Lenc p) q) (128 * (Nr R - 1)) (fun i => Q (p_Lke p + b * p_Lenc p + i))).
  { apply holds_drop. apply (holds_le _ _ _ _ HV). lia. }
  rewrite (enc_forward_ok F HB p R (as_Nb HA) (as_Nr HA) (as_R HA) _ _ _ _ _ _ _ _ HX (holds_le _ _ (128 * (Nr R + 1)) _ HK ltac:(lia)))
    by (rewrite ?lenN_dropN; lia). cbn [bind].
  rewrite (enc_backward_ok F HB p R (as_Nb HA) (as_Nr HA) (as_R HA) _ _ _ _ _ _ _ _ HX (holds_le _ _ (128 * (Nr R + 1)) _ HK ltac:(lia)))
    by (rewrite ?lenN_dropN; lia). cbn [bind]. rewrite kap_verifier.
  rewrite (hash_constraints_1_ok F _ (0, 0, 0)) by (rewrite lenN_idx3, (as_senc HA), (as_Nb HA); lia).
  f_equal. unfold eix. rewrite fold_left_map. reflexivity.
Qed.

(** all S-boxes, in the order in which they are hashed *)
Definition aix : list ix := kix G ++ flat_map (eix R) (Nrange (aes_blocks p)).

Lemma aes_constraints_0 inp out w v V ctxs :
  bytes_ok inp -> bytes_ok out -> bytes_ok w -> 16 * aes_blocks p <= lenN inp -> 16 * aes_blocks p <= lenN out ->
  p_l p <= 8 * lenN w -> holds v (p_l p) V ->
  (let! r := ks_constraints_0 F p w v ctxs in
   let '(ctxs, k, vk) := r in
   foldM (fun ctxs b =>
             let! in_b := from inp (16 * b) in
             let! out_b := from out (16 * b) in
             let! w_b := from w ((p_Lke p + b * p_Lenc p) / 8) in
             let! v_b := from v (p_Lke p + b * p_Lenc p) in
             enc_constraints_0 F p in_b out_b w_b v_b k vk ctxs)
          (Nrange (aes_blocks p)) ctxs) = Ok (fold_left (pstep inp out w V) aix ctxs).
Proof using HB HA.
  intros BI BO BW LI LO LW HV. pose proof (as_l HA) as El.
  assert (HLk : p_Lke p <= p_l p) by (rewrite El; apply N.le_add_r).
  destruct (ks_constraints_0_ok inp out w v V ctxs BW ltac:(lia) (holds_le _ _ (p_Lke p) _ HV HLk)) as (k & vk & -> & Lk & Bk & Kb & HK).
  cbn [bind]. unfold aix. rewrite fold_left_app. generalize (fold_left (pstep inp out w V) (kix G) ctxs). intros s.
  rewrite fold_left_flat_map. apply foldM_pure_in. intros s' b Hb. apply In_Nrange in Hb.
  assert (Hbl : p_Lke p + b * p_Lenc p + p_Lenc p <= p_l p) by nia.
  rewrite !from_ok by (first [lia|destruct HV; lia]). cbn [bind].
  apply enc_constraints_0_ok; try assumption; lia.
Qed.
Lemma aes_constraints_1 inp out q Q D b0 :
  16 * aes_blocks p <= lenN inp -> 16 * aes_blocks p <= lenN out -> holds q (p_l p) Q ->
  (let! r := ks_constraints_1 F p q D b0 in
   let '(b0, qk) := r in
   foldM (fun b0 b =>
             let! in_b := from inp (16 * b) in
             let! out_b := from out (16 * b) in
             let! q_b := from q (p_Lke p + b * p_Lenc p) in
             enc_constraints_1 F p in_b out_b q_b qk D b0)
          (Nrange (aes_blocks p)) b0) = Ok (fold_left (vstep inp out Q D) aix b0).
Proof using HB HA.
  intros LI LO HV. pose proof (as_l HA) as El.
  assert (HLk : p_Lke p <= p_l p) by (rewrite El; apply N.le_add_r).
  destruct (ks_constraints_1_ok inp out q Q D b0 (holds_le _ _ (p_Lke p) _ HV HLk)) as (qk & -> & HK).
  cbn [bind]. unfold aix. rewrite fold_left_app. generalize (fold_left (vstep inp out Q D) (kix G) b0). intros s.
  rewrite fold_left_flat_map. apply foldM_pure_in. intros s' b Hb. apply In_Nrange in Hb.
  assert (Hbl : p_Lke p + b * p_Lenc p + p_Lenc p <= p_l p) by nia.
  rewrite !from_ok by (first [lia|destruct HV; lia]). cbn [bind].
  apply enc_constraints_1_ok; try assumption; lia.
Qed.
End Aes.

Lemma ptr_get_bit_bw x i : i < 8 * lenN x -> ptr_get_bit x i = Ok (bw x i).
Proof.
  intros H. unfold ptr_get_bit. rewrite (aget_ok x _ 0) by lia. cbn [bind]. f_equal. apply get_bit_bitw.
Qed.

(** * Even-Mansour *)
Section Em.
Variable F : field.
Hypothesis HB : big_field F.
Variable p : param.
Variable R : rijndael.
Record em_shape : Prop := {
  es_Nb : In (Nb R) [4; 6; 8]; es_Nr : 2 <= Nr R; es_R : p_R p = Nr R; es_Nwd : p_Nwd p = Nb R;
  es_L : p_lambda p = 32 * Nb R; es_senc : p_Senc p = 4 * Nb R * Nr R; es_Lenc : p_Lenc p = 32 * Nb R * Nr R }.
Hypothesis HE : em_shape.

Definition pstepE (x out : list N) (w : list N) (V : N -> N) (s : zk_ctx * zk_ctx) (j : ix) : zk_ctx * zk_ctx :=
  upd2 F s (pterms F (eval F p R x out (bw w) 1 j) (eval F p R x out V 0 j)).
Definition vstepE (x out : list N) (Q : N -> N) (D : N) (s : zk_ctx) (j : ix) : zk_ctx :=
  zk_hash_update F s (vterm F D (eval F p R x out Q D j)).

Lemma em_constraints_0_ok x out w v V ctxs : bytes_ok x -> bytes_ok out -> bytes_ok w ->
  4 * Nb R * (Nr R + 1) <= lenN x -> 4 * Nb R <= lenN out -> p_Lenc p <= 8 * lenN w -> holds v (p_Lenc p) V ->
  em_constraints_0 F p out x w v ctxs = Ok (fold_left (pstepE x out w V) (eix R 0) ctxs).
Proof using HB HE.
  intros BX BO BW LX LO LW HV. unfold em_constraints_0. cbv zeta.
  pose proof (es_L HE) as EL. pose proof (es_Lenc HE) as ELe. pose proof (es_Nr HE) as HNr. pose proof (es_Nb HE) as HNb.
  replace (p_lambda p / 8) with (4 * Nb R) by lia.
  assert (LW' : 4 * Nb R * Nr R <= lenN w) by lia.
  assert (LW4 : 4 * Nb R <= lenN w) by nia.
  rewrite !slice_ok by lia. cbn [bind].
  assert (HV' : holds v (32 * Nb R * Nr R) V) by (rewrite <- ELe; exact HV).
  set (wo := xor_bytes _ _).
  assert (Bwo : bytes_ok wo).
  { apply bytes_ok_xor; apply Forall_takeN, Forall_dropN; assumption. }
  assert (Lwo : lenN wo = 4 * Nb R).
  { unfold wo. rewrite lenN_xor; rewrite ?lenN_takeN, ?lenN_dropN; lia. }
  assert (Vwo : forall q, q < 32 * Nb R -> bw wo q = N.lxor (kwire 1 out q) (bw w q)).
  { intros q Hq. rewrite kwire_1. unfold bw. rewrite <- bitw_lxor. f_equal. unfold wo.
    rewrite nthN_xor by (rewrite ?lenN_takeN, ?lenN_dropN; lia). rewrite !nthN_takeN, !nthN_dropN by lia. reflexivity. }
  rewrite (em_forward_1_ok F HB p R (es_Nb HE) (es_Nr HE) (es_R HE) (es_Nwd HE)) by assumption. cbn [bind].
  rewrite (em_forward_ok F HB p R (es_Nb HE) (es_Nr HE) (es_R HE) (es_Nwd HE) (es_L HE) v None V (fun _ => 0) HV' (fun _ => eq_refl)). cbn [bind].
  rewrite (em_backward_1_ok F HB p R (es_Nb HE) (es_Nr HE) (es_R HE) (es_Nwd HE) (es_L HE)) by (assumption || lia). cbn [bind].
  rewrite (em_backward_ok F HB p R (es_Nb HE) (es_Nr HE) (es_R HE) (es_Nwd HE) (es_L HE) v None v 1 0 None V (fun _ => 0) V
            HV' (fun _ => eq_refl)) by (apply (holds_le _ _ _ _ HV'); nia). cbn [bind]. rewrite kap_prover.
  rewrite (hash_constraints_0_ok F _ (0, 0, 0)) by (rewrite lenN_idx3, (es_senc HE); lia).
  f_equal. unfold eix. rewrite fold_left_map. apply fold_left_ext_in. intros s [[n c] r] Hx. apply In_idx3 in Hx.
  unfold pstepE, un3. cbn [eval fst snd]. destruct Hx as (Hn & Hc & Hr). rewrite EL.
  f_equal. f_equal; f_equal.
  - apply fwd_ext; try assumption; try reflexivity. intros q _. symmetry. apply kwire_1.
  - apply bwd_ext; try assumption; try reflexivity.
    intros q _. symmetry. apply kwire_1.
  - apply fwd_ext; try assumption; try reflexivity. intros q _. symmetry. apply kwire_0.
  - apply bwd_ext; try assumption; try reflexivity.
    + intros q _. rewrite kwire_0. reflexivity.
    + intros q _. symmetry. apply kwire_0.
Qed.

Lemma em_constraints_1_ok x out q Q D b0 :
  4 * Nb R * (Nr R + 1) <= lenN x -> 4 * Nb R <= lenN out -> holds q (p_Lenc p) Q ->
  em_constraints_1 F p out x q D b0 = Ok (fold_left (vstepE x out Q D) (eix R 0) b0).
Proof using HB HE.
  intros LX LO HV. unfold em_constraints_1.
  pose proof (es_L HE) as EL. pose proof (es_Lenc HE) as ELe. pose proof (es_Nr HE) as HNr. pose proof (es_Nb HE) as HNb.
  rewrite EL, (es_R HE).
  assert (HV' : holds q (32 * Nb R * Nr R) Q) by (rewrite <- ELe; exact HV).
  rewrite (mapM_tab _ (kwire D x)).
  2: { intros i Hi. rewrite ptr_get_bit_bw by lia. reflexivity. }
  cbn [bind].
  rewrite (mapM_tab _ (fun i => N.lxor (kwire D out i) (Q i))).
  2: { intros i Hi. rewrite ptr_get_bit_bw by lia. destruct HV' as [H1 H2]. cbn [bind].
       rewrite (aget_ok q _ 0) by nia. cbn [bind]. rewrite H2 by nia. reflexivity. }
  cbn [bind].
  rewrite (em_forward_ok F HB p R (es_Nb HE) (es_Nr HE) (es_R HE) (es_Nwd HE) (es_L HE) q (Some _) Q (kwire D x) HV' (holds_tab _ _)). cbn [bind].
  rewrite (em_backward_ok F HB p R (es_Nb HE) (es_Nr HE) (es_R HE) (es_Nwd HE) (es_L HE) q (Some _) _ 0 1 (Some D) Q (kwire D x) _
             HV' (holds_tab _ _) (holds_tab _ _)). cbn [bind]. rewrite kap_verifier.
  rewrite (hash_constraints_1_ok F _ (0, 0, 0)) by (rewrite lenN_idx3, (es_senc HE); lia).
  f_equal. unfold eix. rewrite fold_left_map. apply fold_left_ext_in. intros s [[n c] r] _.
  unfold vstepE, un3. cbn [eval fst snd]. rewrite EL. reflexivity.
Qed.
End Em.
