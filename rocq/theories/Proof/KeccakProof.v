(** The unrolled permutation is KECCAK-p[1600, 24]. *)
From Verif.Model Require Import Keccak.
From Verif.Spec Require Import KeccakSpec.
From Verif.Proof Require Import BaseProof.
From Coq Require Import Lia ZifyBool ZifyNat ZifyN.
Ltac Zify.zify_post_hook ::= Z.div_mod_to_equations.

Definition lane_list (A : lanes) : list N :=
  let '(Lanes a0 a1 a2 a3 a4 a5 a6 a7 a8 a9 a10 a11 a12 a13 a14 a15 a16 a17 a18 a19 a20 a21 a22 a23 a24) := A in
  [a0; a1; a2; a3; a4; a5; a6; a7; a8; a9; a10; a11; a12; a13; a14; a15; a16; a17; a18; a19; a20; a21; a22; a23; a24].
Definition lane (A : lanes) (x y : N) : N := nthN (lane_list A) (5 * y + x) 0.
Definition lanes_of (L : N -> N -> N) : lanes :=
  Lanes (L 0 0) (L 1 0) (L 2 0) (L 3 0) (L 4 0) (L 0 1) (L 1 1) (L 2 1) (L 3 1) (L 4 1) (L 0 2) (L 1 2) (L 2 2) (L 3 2) (L 4 2)
        (L 0 3) (L 1 3) (L 2 3) (L 3 3) (L 4 3) (L 0 4) (L 1 4) (L 2 4) (L 3 4) (L 4 4).

(** a round on lanes *)
Definition rot (a k : N) : N := if k =? 0 then a else ROL64 a k.
Definition Cl (L : N -> N -> N) (x : N) : N := N.lxor (N.lxor (N.lxor (N.lxor (L x 0) (L x 1)) (L x 2)) (L x 3)) (L x 4).
Definition Dl L x : N := N.lxor (Cl L ((x + 4) mod 5)) (ROL64 (Cl L ((x + 1) mod 5)) 1).
Definition Tl L x y : N := N.lxor (L x y) (Dl L x).
Definition Bl L x y : N := rot (Tl L ((x + 3 * y) mod 5) x) (rho_offset ((x + 3 * y) mod 5) x mod 64).
Definition El L x y : N := N.lxor (Bl L x y) (N.land (not64 (Bl L ((x + 1) mod 5) y)) (Bl L ((x + 2) mod 5) y)).
Definition Rl (c : N) L x y : N := if (x =? 0) && (y =? 0) then N.lxor (El L x y) c else El L x y.

Lemma round_lanes c A : thetaRhoPiChiIota c (A, prepareTheta A) = lanes_of (Rl c (lane A)).
Proof.
  destruct A. cbv -[N.lxor N.land ROL64 not64]. reflexivity.
Qed.
Lemma round_carries c A : thetaRhoPiChiIotaPrepareTheta c (A, prepareTheta A) =
  (thetaRhoPiChiIota c (A, prepareTheta A), prepareTheta (thetaRhoPiChiIota c (A, prepareTheta A))).
Proof. destruct A. reflexivity. Qed.

(** * bits of lanes *)
Lemma rol_bit a k z : a < 2 ^ 64 -> 0 < k < 64 -> z < 64 -> N.testbit (ROL64 a k) z = N.testbit a ((z + 64 - k) mod 64).
Proof.
  intros Ha Hk Hz. unfold ROL64. rewrite N.lxor_spec. rewrite N.mod_pow2_bits_low by exact Hz. rewrite N.shiftr_spec by lia.
  destruct (N.lt_ge_cases z k) as [H|H].
  - rewrite N.shiftl_spec_low by exact H. rewrite xorb_false_l. f_equal. rewrite N.mod_small by lia. lia.
  - rewrite N.shiftl_spec_high by lia. rewrite (testbit_high a 64 (z + (64 - k))) by (exact Ha || lia). rewrite xorb_false_r. f_equal.
    replace (z + 64 - k) with (z - k + 1 * 64) by lia. rewrite N.mod_add by lia. rewrite N.mod_small; lia.
Qed.
Lemma rol_lt a k : a < 2 ^ 64 -> ROL64 a k < 2 ^ 64.
Proof.
  intros Ha. unfold ROL64. apply lxor_lt; [apply N.mod_lt; discriminate|]. rewrite N.shiftr_div_pow2.
  eapply N.le_lt_trans; [|exact Ha]. apply N.div_le_upper_bound; [apply N.pow_nonzero; discriminate|]. pose proof (pow2_pos (64 - k)). nia.
Qed.
Lemma rot_bit a k z : a < 2 ^ 64 -> k < 64 -> z < 64 -> N.testbit (rot a k) z = N.testbit a ((z + 64 - k) mod 64).
Proof.
  intros Ha Hk Hz. unfold rot. destruct (k =? 0) eqn:E; [|apply rol_bit; lia]. f_equal. apply N.eqb_eq in E. subst k.
  replace (z + 64 - 0) with (z + 1 * 64) by lia. rewrite N.mod_add, N.mod_small by lia. reflexivity.
Qed.
Lemma rot_lt a k : a < 2 ^ 64 -> rot a k < 2 ^ 64.
Proof. intros Ha. unfold rot. destruct (_ =? _); [exact Ha|apply rol_lt, Ha]. Qed.
Lemma land_lt a b n : b < 2 ^ n -> N.land a b < 2 ^ n.
Proof. intros H. apply lt_pow2_bits. intros j Hj. rewrite N.land_spec, (testbit_high b n) by assumption. apply andb_false_r. Qed.
Lemma mod5 x : x mod 5 < 5. Proof. apply N.mod_lt. discriminate. Qed.
Lemma rotated z k : k < 64 -> z < 64 -> (z + 64 - k) mod 64 < 64. Proof. intros. apply N.mod_lt. discriminate. Qed.

Definition words (L : N -> N -> N) : Prop := forall x y, x < 5 -> y < 5 -> L x y < 2 ^ 64.
Definition arr (L : N -> N -> N) : array := fun x y z => N.testbit (L x y) z.

Section Round.
Variable L : N -> N -> N.
Hypothesis HL : words L.
Lemma Cl_lt x : x < 5 -> Cl L x < 2 ^ 64.
Proof using HL. intros H. unfold Cl. repeat apply lxor_lt; apply HL; (exact H || reflexivity). Qed.
Lemma Dl_lt x : Dl L x < 2 ^ 64.
Proof using HL. unfold Dl. apply lxor_lt; [|apply rol_lt]; apply Cl_lt, mod5. Qed.
Lemma Tl_lt x y : x < 5 -> y < 5 -> Tl L x y < 2 ^ 64.
Proof using HL. intros. apply lxor_lt; [apply HL; assumption|apply Dl_lt]. Qed.
Lemma Bl_lt x y : x < 5 -> Bl L x y < 2 ^ 64.
Proof using HL. intros. apply rot_lt, Tl_lt; [apply mod5|assumption]. Qed.
Lemma El_lt x y : x < 5 -> y < 5 -> El L x y < 2 ^ 64.
Proof using HL. intros. apply lxor_lt; [apply Bl_lt; assumption|]. apply land_lt, Bl_lt, mod5. Qed.
Lemma Rl_lt c : c < 2 ^ 64 -> words (Rl c L).
Proof using HL. intros Hc x y Hx Hy. unfold Rl. destruct (_ && _); [apply lxor_lt; [|exact Hc]|]; apply El_lt; assumption. Qed.

Lemma Tl_bit x y z : x < 5 -> z < 64 -> N.testbit (Tl L x y) z = theta (arr L) x y z.
Proof using HL.
  intros Hx Hz. unfold Tl, theta, Dl. rewrite !N.lxor_spec. rewrite rol_bit by (apply Cl_lt, mod5 || lia).
  unfold Cl. rewrite !N.lxor_spec. replace (z + 64 - 1) with (z + 63) by lia. reflexivity.
Qed.
Lemma Bl_bit x y z : x < 5 -> y < 5 -> z < 64 -> N.testbit (Bl L x y) z = pi (rho (theta (arr L))) x y z.
Proof using HL.
  intros Hx Hy Hz. assert (HR : rho_offset ((x + 3 * y) mod 5) x mod 64 < 64) by (apply N.mod_lt; discriminate).
  unfold Bl. rewrite rot_bit by (try apply Tl_lt; try apply mod5; assumption). rewrite Tl_bit by (apply mod5 || apply rotated; assumption). reflexivity.
Qed.
Lemma El_bit x y z : x < 5 -> y < 5 -> z < 64 -> N.testbit (El L x y) z = chi (pi (rho (theta (arr L)))) x y z.
Proof using HL.
  intros Hx Hy Hz. unfold El, chi. rewrite N.lxor_spec, N.land_spec. unfold not64. rewrite N.lnot_spec_low by exact Hz.
  rewrite !Bl_bit by (try apply mod5; assumption). reflexivity.
Qed.
Lemma Rl_bit c ir x y z : (forall z, z < 64 -> N.testbit c z = RC ir z) -> x < 5 -> y < 5 -> z < 64 ->
  N.testbit (Rl c L x y) z = Rnd (arr L) ir x y z.
Proof using HL.
  intros Hc Hx Hy Hz. unfold Rl, Rnd, iota. destruct (_ && _); [rewrite N.lxor_spec, Hc by exact Hz; f_equal|]; apply El_bit; assumption.
Qed.
End Round.

(** * strings of 200 bytes *)
Definition lane_at (st : bytes) (x y : N) : N := le_val (takeN 8 (dropN (8 * (5 * y + x)) st)).

Lemma lane_lanes_of L x y : x < 5 -> y < 5 -> lane (lanes_of L) x y = L x y.
Proof.
  intros Hx Hy. assert (Ex : x = 0 \/ x = 1 \/ x = 2 \/ x = 3 \/ x = 4) by lia. assert (Ey : y = 0 \/ y = 1 \/ y = 2 \/ y = 3 \/ y = 4) by lia.
  destruct Ex as [->|[->|[->|[->| ->]]]], Ey as [->|[->|[->|[->| ->]]]]; reflexivity.
Qed.
Lemma lanes_of_ext L M : (forall x y, x < 5 -> y < 5 -> L x y = M x y) -> lanes_of L = lanes_of M.
Proof. intros H. unfold lanes_of. rewrite !H by reflexivity. reflexivity. Qed.
Lemma lanes_of_lane A : lanes_of (lane A) = A.
Proof. destruct A. reflexivity. Qed.

Lemma from_state st : lenN st = 200 -> copyFromState st = Ok (lanes_of (lane_at st)).
Proof.
  intros H. unfold copyFromState. rewrite (mapM_pure _ (fun i => le_val (takeN 8 (dropN (8 * i) st)))); [reflexivity|].
  intros j Hj. apply In_Nrange in Hj. rewrite slice_ok by lia. reflexivity.
Qed.

(** bit n of a byte string *)
Definition sbit (s : list N) (n : N) : bool := N.testbit (nthN s (n / 8) 0) (n mod 8).
Lemma below_Nrange n : below n = Nrange n.
Proof.
  unfold below, Nrange. enough (H : forall k a, map N.of_nat (seq a k) = Nseq (N.of_nat a) k) by apply (H _ 0%nat).
  induction k as [|k IH]; intros a; [reflexivity|]. cbn [seq map Nseq]. rewrite IH. f_equal. f_equal. lia.
Qed.
Lemma bits_length s : lenN (bits_of_bytes s) = 8 * lenN s.
Proof. induction s as [|b s IH]; [reflexivity|]. unfold bits_of_bytes in *. cbn [flat_map]. rewrite lenN_app, IH, lenN_cons, lenN_map. change (lenN (below 8)) with 8. lia. Qed.
Lemma bits_nth s : forall n, n < 8 * lenN s -> nthN (bits_of_bytes s) n false = sbit s n.
Proof.
  induction s as [|b s IH]; intros n H; [unfold lenN in H; cbn in H; lia|]. rewrite lenN_cons in H. unfold bits_of_bytes in *. cbn [flat_map].
  assert (L8 : lenN (map (N.testbit b) (below 8)) = 8) by reflexivity. destruct (N.lt_ge_cases n 8) as [Hn|Hn].
  - rewrite nthN_app_l by lia. rewrite below_Nrange, (nthN_map _ _ _ 0) by (rewrite lenN_Nrange; exact Hn). rewrite nthN_Nrange by exact Hn.
    unfold sbit. rewrite N.div_small, N.mod_small by exact Hn. reflexivity.
  - rewrite nthN_app_r by lia. rewrite L8, IH by lia. unfold sbit. replace n with (n - 8 + 1 * 8) at 3 4 by lia.
    rewrite N.div_add, N.mod_add by discriminate. rewrite nthN_cons_S. reflexivity.
Qed.
Lemma bits_bit s n : bit (bits_of_bytes s) n = if n <? 8 * lenN s then sbit s n else false.
Proof.
  destruct (n <? 8 * lenN s) eqn:E; [apply bits_nth; lia|]. change (nthN (bits_of_bytes s) n false = false). apply nthN_default. rewrite bits_length. lia.
Qed.
Lemma lane_bit st x y z : lenN st = 200 -> bytes_ok st -> x < 5 -> y < 5 -> z < 64 ->
  arr (lane_at st) x y z = to_array (bits_of_bytes st) x y z.
Proof.
  intros HL HB Hx Hy Hz. unfold arr, lane_at, to_array. rewrite bits_bit. replace (_ <? _) with true by lia.
  rewrite le_val_testbit by (apply Forall_takeN, Forall_dropN, HB). rewrite nthN_takeN, nthN_dropN by lia. unfold sbit.
  replace ((64 * (5 * y + x) + z) / 8) with (8 * (5 * y + x) + z / 8) by lia. replace ((64 * (5 * y + x) + z) mod 8) with (z mod 8) by lia. reflexivity.
Qed.
Lemma to_state L n : words L -> n < 1600 -> sbit (copyToState (lanes_of L)) n = arr L (n / 64 mod 5) (n / 320) (n mod 64).
Proof.
  intros HW Hn. unfold sbit.
  assert (E : forall l k, k < 8 * lenN l -> nthN (flat_map (le_bytes 8) l) k 0 = nthN (le_bytes 8 (nthN l (k / 8) 0)) (k mod 8) 0).
  { induction l as [|a l IH]; intros k Hk; [unfold lenN in Hk; cbn in Hk; lia|]. rewrite lenN_cons in Hk. cbn [flat_map]. pose proof (lenN_le_bytes 8 a) as L8.
    change (N.of_nat 8) with 8 in L8. destruct (N.lt_ge_cases k 8) as [Hk8|Hk8].
    - rewrite nthN_app_l by lia. rewrite N.div_small, N.mod_small by exact Hk8. reflexivity.
    - rewrite nthN_app_r by lia. rewrite L8, IH by lia. replace k with (k - 8 + 1 * 8) at 3 4 by lia. rewrite N.div_add, N.mod_add by discriminate.
      rewrite nthN_cons_S. reflexivity. }
  change (copyToState (lanes_of L)) with (flat_map (le_bytes 8) (lane_list (lanes_of L))).
  rewrite E by (change (lenN (lane_list (lanes_of L))) with 25; lia). clear E.
  set (x := n / 64 mod 5). set (y := n / 320). assert (Hx : x < 5) by apply mod5. assert (Hy : y < 5) by lia.
  replace (n / 8 / 8) with (5 * y + x) by lia. change (nthN (lane_list (lanes_of L)) (5 * y + x) 0) with (lane (lanes_of L) x y).
  rewrite lane_lanes_of by assumption. unfold arr.
  assert (HV : le_val (le_bytes 8 (L x y)) = L x y) by (apply le_val_le_bytes; apply HW; assumption).
  rewrite <- HV at 2. rewrite le_val_testbit by apply bytes_ok_le_bytes. f_equal; [f_equal|]; lia.
Qed.
Lemma to_state_ok L : lenN (copyToState (lanes_of L)) = 200 /\ bytes_ok (copyToState (lanes_of L)).
Proof.
  split; [reflexivity|]. change (copyToState (lanes_of L)) with (flat_map (le_bytes 8) (lane_list (lanes_of L))).
  apply Forall_forall. intros b Hb. apply in_flat_map in Hb. destruct Hb as (a & _ & Hb). pose proof (bytes_ok_le_bytes 8 a) as H.
  unfold bytes_ok in H. rewrite Forall_forall in H. apply H, Hb.
Qed.

(** * the permutation *)
Lemma constants_ok : forall ir, ir < 24 -> exists c, aget KeccakF1600RoundConstants ir = Ok c /\ c < 2 ^ 64 /\
  forall z, z < 64 -> N.testbit c z = RC ir z.
Proof.
  assert (H : forallb (fun ir => match aget KeccakF1600RoundConstants ir with
    | Ok c => (c <? 2 ^ 64) && forallb (fun z => eqb (N.testbit c z) (RC ir z)) (Nrange 64) | UB => false end) (Nrange 24) = true) by (vm_compute; reflexivity).
  intros ir Hir. rewrite forallb_forall in H. specialize (H ir (proj2 (In_Nrange 24 ir) Hir)).
  destruct (aget _ ir) as [c|]; [|discriminate]. apply andb_prop in H. destruct H as [H1 H2]. exists c. split; [reflexivity|]. split; [lia|].
  intros z Hz. rewrite forallb_forall in H2. apply eqb_prop, H2, In_Nrange, Hz.
Qed.

(** the rounds on bit strings agree with the rounds on lanes *)
Definition same (L : N -> N -> N) (S : list bool) : Prop :=
  words L /\ forall x y z, x < 5 -> y < 5 -> z < 64 -> arr L x y z = to_array S x y z.
Lemma theta_ext A B : (forall x y z, x < 5 -> y < 5 -> z < 64 -> A x y z = B x y z) ->
  forall x y z, x < 5 -> y < 5 -> z < 64 -> theta A x y z = theta B x y z.
Proof. intros H x y z Hx Hy Hz. unfold theta. rewrite !H; try reflexivity; try assumption; try apply mod5; apply N.mod_lt; discriminate. Qed.
Lemma Rnd_ext A B ir : (forall x y z, x < 5 -> y < 5 -> z < 64 -> A x y z = B x y z) ->
  forall x y z, x < 5 -> y < 5 -> z < 64 -> Rnd A ir x y z = Rnd B ir x y z.
Proof.
  intros H x y z Hx Hy Hz. pose proof (theta_ext A B H) as HT. unfold Rnd, iota, chi, pi, rho.
  rewrite !HT; try reflexivity; try assumption; try apply mod5; apply N.mod_lt; discriminate.
Qed.
Lemma to_string_bit A n : n < 1600 -> bit (to_string A) n = A (n / 64 mod 5) (n / 320) (n mod 64).
Proof.
  intros H. unfold to_string. rewrite below_Nrange. change (nthN (map (fun n => A (n / 64 mod 5) (n / 320) (n mod 64)) (Nrange 1600)) n false = A (n / 64 mod 5) (n / 320) (n mod 64)).
  rewrite (nthN_map _ _ _ 0) by (rewrite lenN_Nrange; exact H). rewrite nthN_Nrange by exact H. reflexivity.
Qed.
Lemma array_string A x y z : x < 5 -> y < 5 -> z < 64 -> to_array (to_string A) x y z = A x y z.
Proof.
  intros. unfold to_array. rewrite to_string_bit by lia. f_equal; lia.
Qed.
Lemma round_same c ir L S : (forall z, z < 64 -> N.testbit c z = RC ir z) -> c < 2 ^ 64 -> same L S ->
  same (Rl c L) (to_string (Rnd (to_array S) ir)).
Proof.
  intros Hc Hl [HW HA]. split; [apply Rl_lt; assumption|]. intros x y z Hx Hy Hz. rewrite array_string by assumption.
  unfold arr at 1. rewrite (Rl_bit L HW c ir) by assumption. apply Rnd_ext; assumption.
Qed.

Lemma Rl_ext c L M x y : (forall x y, x < 5 -> y < 5 -> L x y = M x y) -> x < 5 -> y < 5 -> Rl c L x y = Rl c M x y.
Proof.
  intros H Hx Hy. assert (HC : forall x, x < 5 -> Cl L x = Cl M x) by (intros; unfold Cl; rewrite !H by (assumption || reflexivity); reflexivity).
  assert (HT : forall x y, x < 5 -> y < 5 -> Tl L x y = Tl M x y).
  { intros. unfold Tl, Dl. rewrite !HC by apply mod5. rewrite H by assumption. reflexivity. }
  assert (HB : forall x y, x < 5 -> y < 5 -> Bl L x y = Bl M x y) by (intros; unfold Bl; rewrite HT by (assumption || apply mod5); reflexivity).
  unfold Rl, El. rewrite !HB by (assumption || apply mod5). reflexivity.
Qed.

Lemma rounds_ok L S : same L S -> exists M, rounds24 (lanes_of L) = Ok (lanes_of M) /\ same M (keccak_f S).
Proof.
  intros H0. unfold rounds24, keccak_f.
  destruct (foldM_Nrange_inv (fun AC i => let! rc := aget KeccakF1600RoundConstants i in Ok (thetaRhoPiChiIotaPrepareTheta rc AC))
    (fun n AC => exists M, AC = (lanes_of M, prepareTheta (lanes_of M)) /\
       same M (fold_left (fun S ir => to_string (Rnd (to_array S) ir)) (Nrange n) S)) 23 (lanes_of L, prepareTheta (lanes_of L))) as (AC & E & M & -> & HM).
  - exists L. split; [reflexivity|exact H0].
  - intros n AC Hn (M & -> & HM). destruct (constants_ok n ltac:(lia)) as (c & Ec & Lc & Bc). rewrite Ec. cbn [bind]. eexists. split; [reflexivity|].
    exists (Rl c M). rewrite round_carries, round_lanes. assert (EL : lanes_of (Rl c (lane (lanes_of M))) = lanes_of (Rl c M)).
    { apply lanes_of_ext. intros. apply Rl_ext; try assumption. intros. apply lane_lanes_of; assumption. }
    rewrite EL. split; [reflexivity|]. rewrite Nrange_succ, fold_left_app. cbn [fold_left]. apply (round_same c n M _ Bc Lc HM).
  - rewrite E. cbn [bind]. destruct (constants_ok 23 ltac:(lia)) as (c & Ec & Lc & Bc). rewrite Ec. cbn [bind]. exists (Rl c M). rewrite round_lanes. split.
    + apply (f_equal (@Ok lanes)). apply lanes_of_ext. intros. apply Rl_ext; try assumption. intros. apply lane_lanes_of; assumption.
    + rewrite below_Nrange. change (Nrange 24) with (Nrange (23 + 1)). rewrite Nrange_succ, fold_left_app. cbn [fold_left]. apply (round_same c 23 M _ Bc Lc HM).
Qed.

Lemma keccak_f_length S : lenN S = 1600 -> lenN (keccak_f S) = 1600.
Proof.
  unfold keccak_f. rewrite below_Nrange. generalize (Nrange 24). intros l. revert S. induction l as [|i l IH]; intros S H; [exact H|]. cbn [fold_left]. apply IH.
  unfold to_string. rewrite lenN_map, below_Nrange, lenN_Nrange. reflexivity.
Qed.
Lemma bits_list_ext (a b : list bool) : lenN a = lenN b -> (forall n, n < lenN a -> bit a n = bit b n) -> a = b.
Proof. intros HL H. apply (list_ext false); [exact HL|exact H]. Qed.

(** KeccakP1600_Permute_24rounds is the permutation of the standard *)
Lemma permute_ok st : lenN st = 200 -> bytes_ok st ->
  exists st', KeccakP1600_Permute_24rounds st = Ok st' /\ lenN st' = 200 /\ bytes_ok st' /\ bits_of_bytes st' = keccak_f (bits_of_bytes st).
Proof.
  intros HL HB. unfold KeccakP1600_Permute_24rounds. rewrite from_state by exact HL. cbn [bind].
  destruct (rounds_ok (lane_at st) (bits_of_bytes st)) as (M & E & HW & HM).
  { split; [|intros; apply lane_bit; assumption]. intros x y Hx Hy. unfold lane_at. eapply N.lt_le_trans; [apply le_val_bound2, Forall_takeN, Forall_dropN, HB|].
    apply N.pow_le_mono_r; [discriminate|]. rewrite lenN_takeN. lia. }
  rewrite E. cbn [bind]. eexists. split; [reflexivity|]. destruct (to_state_ok M) as [A B]. split; [exact A|]. split; [exact B|].
  assert (LK : lenN (keccak_f (bits_of_bytes st)) = 1600) by (apply keccak_f_length; rewrite bits_length; lia).
  apply bits_list_ext; [rewrite bits_length, A; lia|]. intros n Hn. rewrite bits_length, A in Hn. rewrite bits_bit. replace (n <? _) with true by lia.
  rewrite to_state by (exact HW || lia). rewrite HM by (apply mod5 || lia). unfold to_array. f_equal. lia.
Qed.
