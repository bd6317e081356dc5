(** The second factors of the key-schedule S-boxes. *)
From Verif.Model Require Import Aes FaestAes.
From Verif.Spec Require Import AesSpec OwfSpec ConstraintSpec ConstraintMap UHashSpec.
From Verif.Proof Require Import BaseProof PolyProof FieldProof EmbedProof AesProof UHashProof ClaimProof DefectProof WireProof ConsProof KeyWireProof.
From Coq Require Import Lia ZifyBool ZifyNat ZifyN.
Ltac Zify.zify_post_hook ::= Z.div_mod_to_equations.

Definition stp (p : param) : N := if p_lambda p =? 192 then 6 else 4.
Definition rci (p : param) (g : N) : N := if p_lambda p =? 256 then g / 2 else g.
Definition rcb (p : param) (g c : N) : N :=
  if ks_rotated p g && (c =? 0) then nthN FaestAes.Rcon (rci p g) 0 else 0.
Definition KX (p : param) (k : N) (X K : N -> N) (j i : N) : N :=
  N.lxor (N.lxor (X (8 * j + i)) (K (32 * stp p * (j / 4) + 8 * (j mod 4) + i)))
         (bf_mul_bit k (bitw (rcb p (j / 4) (j mod 4)) i)).
Definition KY (p : param) (x k : list N) (j : N) : N :=
  N.lxor (N.lxor (nthN x j 0) (nthN k (4 * stp p * (j / 4) + j mod 4) 0)) (rcb p (j / 4) (j mod 4)).

Section Back.
Variable p : param.
Hypothesis HG : p_Ske p <= 4 * 30.
Let G := p_Ske p / 4.
Hypothesis HS : p_Ske p = 4 * G.

Definition icn (j : N) : N :=
  if p_lambda p =? 256 then (if j / 4 mod 2 =? 0 then j / 8 + (if j mod 4 =? 0 then 0 else 1) else j / 8 + 1)
  else j / 4 + (if j mod 4 =? 0 then 0 else 1).
Lemma icn_0 g : ks_rotated p g = true -> icn (4 * g) = rci p g.
Proof.
  unfold icn, ks_rotated, rci. replace (4 * g / 4) with g by lia. replace (4 * g mod 4) with 0 by lia.
  rewrite N.eqb_refl. destruct (p_lambda p =? 256).
  - intros H. rewrite H. lia.
  - intros _. lia.
Qed.
Lemma icn_30 j : j < 4 * 30 -> icn j < 30 \/ (j mod 4 <> 0).
Proof. intros H. unfold icn. destruct (p_lambda p =? 256), (j / 4 mod 2 =? 0), (N.eqb_spec (j mod 4) 0); lia. Qed.
Lemma icn_succ j : icn (j + 1) = if ks_rotated p (j / 4) && (j mod 4 =? 0) then icn j + 1 else icn j.
Proof.
  unfold icn, ks_rotated. destruct (p_lambda p =? 256).
  - destruct (N.eqb_spec (j / 4 mod 2) 0), (N.eqb_spec ((j + 1) / 4 mod 2) 0), (N.eqb_spec (j mod 4) 0),
      (N.eqb_spec ((j + 1) mod 4) 0); cbn [andb]; lia.
  - destruct (N.eqb_spec (j mod 4) 0), (N.eqb_spec ((j + 1) mod 4) 0); cbn [andb]; lia.
Qed.

(** loop state after j bytes; [u] is 8 for wires and 1 for bytes *)
Definition at_byte (u : N) (iwd c : N) (rmv : bool) (j : N) : Prop :=
  iwd = 4 * u * stp p * (j / 4) /\ c = j mod 4 /\ rmv = ks_rotated p (j / 4).

Lemma at_byte_next u iwd c rmv j : u = 8 \/ u = 1 -> at_byte u iwd c rmv j -> c + 1 = 4 ->
  at_byte u (iwd + 4 * u * stp p) 0 (if p_lambda p =? 256 then negb rmv else rmv) (j + 1).
Proof.
  intros Hu (-> & -> & ->) Hc. replace ((j + 1) / 4) with (j / 4 + 1) by lia.
  unfold at_byte. replace ((j + 1) / 4) with (j / 4 + 1) by lia. split; [destruct Hu as [->| ->]; unfold stp; destruct (_ =? 192); lia|].
  split; [lia|]. unfold ks_rotated. destruct (p_lambda p =? 256); [|reflexivity].
  destruct (N.eqb_spec (j / 4 mod 2) 0), (N.eqb_spec ((j / 4 + 1) mod 2) 0); try reflexivity; lia.
Qed.
Lemma at_byte_same u iwd c rmv j : at_byte u iwd c rmv j -> c + 1 <> 4 -> at_byte u iwd (c + 1) rmv (j + 1).
Proof.
  intros (-> & -> & ->) Hc. unfold at_byte. replace ((j + 1) / 4) with (j / 4) by lia.
  split; [reflexivity|]. split; [lia|reflexivity].
Qed.

Lemma rotated_192 : (p_lambda p =? 192) = true -> (p_lambda p =? 256) = false.
Proof. intros H. lia. Qed.

Lemma ks_backward_1_ok x k : p_Ske p <= lenN x -> 4 * stp p * G <= lenN k + 4 * stp p - 4 ->
  exists out, ks_backward_1 p x k = Ok out /\ lenN out = p_Ske p /\
    forall j, j < p_Ske p -> nthN out j 0 = inv_affine (KY p x k j).
Proof.
  intros HX HK. unfold ks_backward_1.
  destruct (foldM_Nrange_inv (ks_backward_1_step p x k)
    (fun j s => let '(out, iwd, c, rmv, ic) := s in
       at_byte 1 iwd c rmv j /\ ic = icn j /\ lenN out = j /\
       forall q, q < j -> nthN out q 0 = inv_affine (KY p x k q)) (p_Ske p) ([], 0, 0, true, 0))
    as ([[[[out iwd] c] rmv] ic] & E & A & _ & B & C).
  - split; [|split; [|split; [reflexivity|lia]]].
    + split; [cbn; lia|]. split; [reflexivity|]. unfold ks_rotated. cbn. destruct (_ =? 256); reflexivity.
    + unfold icn. cbn. destruct (_ =? 256); reflexivity.
  - intros j [[[[out iwd] c] rmv] ic] Hj (A & B & C & D). unfold ks_backward_1_step.
    pose proof A as (E1 & E2 & E3).
    rewrite (aget_ok x _ 0) by lia. cbn [bind].
    assert (HI : 4 * stp p * (j / 4) + j mod 4 < lenN k) by (unfold stp in *; destruct (_ =? 192); lia).
    rewrite (aget_ok k _ 0) by lia. cbn [bind].
    replace (iwd + c) with (4 * stp p * (j / 4) + j mod 4) by lia.
    match goal with |- context [bind (if ?b then _ else _) _] => replace (if b then _ else _) with
      (@Ok (N * N) (KY p x k j, icn (j + 1))) end.
    + cbn [bind]. fold (inv_affine (KY p x k j)).
      assert (HT : lenN (out ++ [inv_affine (KY p x k j)]) = j + 1 /\
                   forall q, q < j + 1 -> nthN (out ++ [inv_affine (KY p x k j)]) q 0 = inv_affine (KY p x k q)).
      { split; [rewrite lenN_app, C; reflexivity|]. intros q Hq. destruct (N.lt_ge_cases q j) as [Hl|Hg].
        - rewrite nthN_app_l by lia. apply D, Hl.
        - rewrite nthN_app_r by lia. replace (q - lenN out) with 0 by lia. replace q with j by lia. reflexivity. }
      destruct (N.eqb_spec (c + 1) 4) as [Ec|Ec].
      * pose proof (at_byte_next 1 iwd c rmv j ltac:(auto) A Ec) as AN. unfold stp in AN.
        destruct (p_lambda p =? 192) eqn:E192.
        -- rewrite (rotated_192 E192) in AN. eexists. split; [reflexivity|]. split; [exact AN|]. auto.
        -- eexists. split; [reflexivity|]. split; [exact AN|]. auto.
      * eexists. split; [reflexivity|]. split; [apply at_byte_same; assumption|]. auto.
    + rewrite icn_succ. unfold KY, rcb. rewrite E3, E2.
      destruct (ks_rotated p (j / 4)) eqn:ER; cbn [andb]; [|rewrite N.lxor_0_r, B; reflexivity].
      destruct (N.eqb_spec (j mod 4) 0) as [Ej|Ej]; [|rewrite N.lxor_0_r, B; reflexivity].
      rewrite (aget_ok FaestAes.Rcon _ 0).
      * cbn [bind]. rewrite <- (icn_0 _ ER), B. replace (4 * (j / 4)) with j by lia. reflexivity.
      * rewrite B. destruct (icn_30 j ltac:(lia)); [exact H|contradiction].
  - rewrite E. cbn [bind]. exists out. auto.
Qed.

Lemma ks_backward_ok v vk Mtag Mkey delta X K :
  Mtag < 2 -> holds v (8 * p_Ske p) X -> forall nK, holds vk nK K -> 32 * stp p * G <= nK + 32 * stp p - 32 ->
  let k := kap Mtag Mkey delta in
  exists out, ks_backward p v vk Mtag Mkey delta = Ok out /\ lenN out = 8 * p_Ske p /\
    holds out (8 * p_Ske p) (fun q => invaff (KX p k X K (q / 8)) k (q mod 8)).
Proof.
  intros HM [HX1 HX2] nK [HK1 HK2] HnK k. unfold ks_backward.
  destruct (foldM_Nrange_inv (ks_backward_step p v vk Mtag Mkey delta)
    (fun j s => let '(out, iwd, c, rmv, ic) := s in
       at_byte 8 iwd c rmv j /\ (Mtag = 0 -> ic = icn j) /\ lenN out = 8 * j /\
       forall q, q < 8 * j -> nthN out q 0 = invaff (KX p k X K (q / 8)) k (q mod 8)) (p_Ske p) ([], 0, 0, true, 0))
    as ([[[[out iwd] c] rmv] ic] & E & A & _ & B & C).
  - split; [|split; [|split; [reflexivity|lia]]].
    + split; [cbn; lia|]. split; [reflexivity|]. unfold ks_rotated. cbn. destruct (_ =? 256); reflexivity.
    + intros _. unfold icn. cbn. destruct (_ =? 256); reflexivity.
  - intros j [[[[out iwd] c] rmv] ic] Hj (A & B & C & D). unfold ks_backward_step.
    pose proof A as (E1 & E2 & E3). cbv zeta.
    assert (HI : 32 * stp p * (j / 4) + 8 * (j mod 4) + 8 <= nK) by (unfold stp in *; destruct (_ =? 192); lia).
    set (x0 := fun i => N.lxor (X (8 * j + i)) (K (32 * stp p * (j / 4) + 8 * (j mod 4) + i))).
    rewrite (mapM_tab _ x0).
    2: { intros i Hi. rewrite (aget_ok v _ 0) by lia. cbn [bind].
         replace (iwd + 8 * c + i) with (32 * stp p * (j / 4) + 8 * (j mod 4) + i) by lia.
         rewrite (aget_ok vk _ 0) by lia. cbn [bind]. rewrite HX2, HK2 by lia. reflexivity. }
    cbn [bind].
    match goal with |- context [bind (if ?b then ?t else ?e) _] => assert (HR : exists ic',
      (if b then t else e) = Ok (tab 8 (KX p k X K j), ic') /\ (Mtag = 0 -> ic' = icn (j + 1))) end.
    { rewrite icn_succ. unfold KX, rcb. fold x0. rewrite E3, E2. destruct (N.eqb_spec Mtag 0) as [M0|M0]; cbn [andb].
      - destruct (ks_rotated p (j / 4)) eqn:ER; cbn [andb].
        + destruct (N.eqb_spec (j mod 4) 0) as [Ej|Ej].
          * rewrite (aget_ok FaestAes.Rcon _ 0).
            -- cbn [bind]. rewrite (mapM_tab _ (fun i => N.lxor (x0 i) (bf_mul_bit k (bitw (nthN FaestAes.Rcon (rci p (j / 4)) 0) i)))).
               ++ cbn [bind]. eexists. split; [reflexivity|]. intros _. rewrite B by exact M0. reflexivity.
               ++ intros i Hi. rewrite (aget_tab _ _ _ Hi). cbn [bind]. rewrite get_bit_bitw. unfold bf_add.
                  rewrite <- (icn_0 _ ER), B by exact M0. replace (4 * (j / 4)) with j by lia.
                  unfold k, kap. rewrite M0. reflexivity.
            -- rewrite B by exact M0. destruct (icn_30 j ltac:(lia)); [exact H|contradiction].
          * exists ic. split; [|exact B]. f_equal. f_equal. apply tab_ext. intros i Hi. rewrite N.lxor_0_r. reflexivity.
        + exists ic. split; [|exact B]. f_equal. f_equal. apply tab_ext. intros i Hi. rewrite N.lxor_0_r. reflexivity.
      - exists ic. split; [|contradiction]. f_equal. f_equal. apply tab_ext. intros i Hi.
        assert (K0 : k = 0) by (unfold k, kap; replace Mtag with 1 by lia; reflexivity). rewrite K0. unfold bf_mul_bit. destruct (N.testbit _ 0); rewrite N.lxor_0_r; reflexivity. }
    destruct HR as (ic' & -> & HIC). cbn [bind]. fold (kap Mtag Mkey delta). fold k.
    rewrite inv_affine_wires_ok by apply lenN_tab. cbn [bind].
    set (y := tab 8 (invaff (fun i => nthN (tab 8 (KX p k X K j)) i 0) k)).
    assert (HT : lenN (out ++ y) = 8 * (j + 1) /\
                 forall q, q < 8 * (j + 1) -> nthN (out ++ y) q 0 = invaff (KX p k X K (q / 8)) k (q mod 8)).
    { split; [unfold y; rewrite lenN_app, lenN_tab, C; lia|]. intros q Hq. destruct (N.lt_ge_cases q (8 * j)) as [Hl|Hg].
      - rewrite nthN_app_l by lia. apply D, Hl.
      - rewrite nthN_app_r by lia. unfold y. rewrite nthN_tab by lia. replace (q - lenN out) with (q mod 8) by lia.
        replace (q / 8) with j by lia. apply invaff_ext; [lia|]. intros i Hi. apply nthN_tab, Hi. }
    destruct (N.eqb_spec (c + 1) 4) as [Ec|Ec].
    * pose proof (at_byte_next 8 iwd c rmv j ltac:(auto) A Ec) as AN. unfold stp in AN.
      destruct (p_lambda p =? 192) eqn:E192.
      -- rewrite (rotated_192 E192) in AN. eexists. split; [reflexivity|]. split; [exact AN|]. auto.
      -- eexists. split; [reflexivity|]. split; [exact AN|]. auto.
    * eexists. split; [reflexivity|]. split; [apply at_byte_same; assumption|]. auto.
  - rewrite E. cbn [bind]. exists out. split; [reflexivity|]. split; [exact B|]. split; [lia|exact C].
Qed.
End Back.
