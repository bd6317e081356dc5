(** Bit interleaving, and the 32-bit rounds against the 64-bit ones. *)
From Verif.Model Require Import Keccak Keccak32.
From Verif.Proof Require Import BaseProof KeccakProof CompatProof.
From Coq Require Import Lia ZifyBool ZifyNat ZifyN.
Ltac Zify.zify_post_hook ::= Z.div_mod_to_equations.

(** the bits of [p] at the even positions *)
Fixpoint spread_pos (p : positive) : positive :=
  match p with
  | xH => xH
  | xO p => xO (xO (spread_pos p))
  | xI p => xI (xO (spread_pos p))
  end.
Definition spread (n : N) : N := match n with N0 => N0 | Npos p => Npos (spread_pos p) end.
Definition inter (even odd : N) : N := N.lor (spread even) (N.shiftl (spread odd) 1).

Lemma spread_0 : spread 0 = 0. Proof. reflexivity. Qed.
Lemma spread_double n : spread (N.double n) = N.double (N.double (spread n)).
Proof. destruct n; reflexivity. Qed.
Lemma spread_succ_double n : spread (N.succ_double n) = N.succ_double (N.double (spread n)).
Proof. destruct n; reflexivity. Qed.
Lemma binary_cases n : exists m, n = N.double m \/ n = N.succ_double m.
Proof. exists (N.div2 n). destruct n as [|[p|p|]]; auto. Qed.
Lemma dbl m : N.double m = 2 * m. Proof. reflexivity. Qed.
Lemma sdbl m : N.succ_double m = 2 * m + 1. Proof. destruct m; reflexivity. Qed.

Lemma spread_bits k : forall n, N.testbit (spread n) (2 * k) = N.testbit n k /\ N.testbit (spread n) (2 * k + 1) = false.
Proof.
  induction k as [|k IH] using N.peano_ind; intros n; destruct (binary_cases n) as (m & [-> | ->]).
  - rewrite spread_double. destruct (spread m), m; split; reflexivity.
  - rewrite spread_succ_double. split; [destruct (spread m), m; reflexivity|]. change (2 * 0 + 1) with (N.succ 0). rewrite sdbl, N.testbit_odd_succ by lia.
    rewrite dbl, N.testbit_even_0. reflexivity.
  - rewrite spread_double, (dbl m), (dbl (N.double _)), (dbl (spread m)). replace (2 * N.succ k) with (N.succ (N.succ (2 * k))) by lia.
    replace (N.succ (N.succ (2 * k)) + 1) with (N.succ (N.succ (2 * k + 1))) by lia. rewrite !N.testbit_even_succ by lia. apply IH.
  - rewrite spread_succ_double, (sdbl m), (sdbl (N.double _)), (dbl (spread m)). replace (2 * N.succ k) with (N.succ (N.succ (2 * k))) by lia.
    replace (N.succ (N.succ (2 * k)) + 1) with (N.succ (N.succ (2 * k + 1))) by lia. rewrite !N.testbit_odd_succ, !N.testbit_even_succ by lia. apply IH.
Qed.
Lemma inter_even e o k : N.testbit (inter e o) (2 * k) = N.testbit e k.
Proof.
  unfold inter. rewrite N.lor_spec, (proj1 (spread_bits k e)). destruct (N.eq_dec k 0) as [->|H]; [rewrite N.shiftl_spec_low by lia; apply orb_false_r|].
  rewrite N.shiftl_spec_high by lia. replace (2 * k - 1) with (2 * (k - 1) + 1) by lia. rewrite (proj2 (spread_bits _ _)). apply orb_false_r.
Qed.
Lemma inter_odd e o k : N.testbit (inter e o) (2 * k + 1) = N.testbit o k.
Proof.
  unfold inter. rewrite N.lor_spec, (proj2 (spread_bits k e)). rewrite N.shiftl_spec_high by lia. replace (2 * k + 1 - 1) with (2 * k) by lia.
  rewrite (proj1 (spread_bits _ _)). reflexivity.
Qed.
Lemma inter_ext x e o : (forall k, N.testbit x (2 * k) = N.testbit e k) -> (forall k, N.testbit x (2 * k + 1) = N.testbit o k) -> x = inter e o.
Proof.
  intros HE HO. apply N.bits_inj. intros n. assert (H : n = 2 * (n / 2) \/ n = 2 * (n / 2) + 1) by lia.
  destruct H as [-> | ->]; [rewrite inter_even; apply HE|rewrite inter_odd; apply HO].
Qed.
Lemma inter_lt e o : e < 2 ^ 32 -> o < 2 ^ 32 -> inter e o < 2 ^ 64.
Proof.
  intros HE HO. apply lt_pow2_bits. intros j Hj. assert (H : j = 2 * (j / 2) \/ j = 2 * (j / 2) + 1) by lia.
  destruct H as [-> | ->]; [rewrite inter_even|rewrite inter_odd]; apply (tb_high _ 32); (assumption || lia).
Qed.

(** [x] is the lane with halves [e], [o] *)
Definition rel (e o x : N) : Prop := x = inter e o /\ e < 2 ^ 32 /\ o < 2 ^ 32.

Lemma rel_xor e o x e' o' x' : rel e o x -> rel e' o' x' -> rel (N.lxor e e') (N.lxor o o') (N.lxor x x').
Proof.
  intros (-> & ? & ?) (-> & ? & ?). split; [|split; apply lxor_lt; assumption].
  apply inter_ext; intros k; rewrite !N.lxor_spec, ?inter_even, ?inter_odd; reflexivity.
Qed.
Lemma rel_and e o x e' o' x' : rel e o x -> rel e' o' x' -> rel (N.land e e') (N.land o o') (N.land x x').
Proof.
  intros (-> & ? & ?) (-> & ? & ?). split; [|split; apply land_lt; assumption].
  apply inter_ext; intros k; rewrite !N.land_spec, ?inter_even, ?inter_odd; reflexivity.
Qed.
Lemma rel_not e o x : rel e o x -> rel (not32 e) (not32 o) (not64 x).
Proof.
  intros H. unfold not32, not64, N.lnot. apply rel_xor; [exact H|]. split; [vm_compute; reflexivity|split; reflexivity].
Qed.
Lemma rol32_lt a k : a < 2 ^ 32 -> ROL32 a k < 2 ^ 32.
Proof.
  intros H. unfold ROL32. apply lxor_lt; [apply N.mod_lt; discriminate|apply shr_bound, H].
Qed.
Lemma tb_mod a n m : N.testbit (a mod 2 ^ n) m = (m <? n) && N.testbit a m.
Proof. destruct (m <? n) eqn:E; [rewrite N.mod_pow2_bits_low by lia|rewrite N.mod_pow2_bits_high by lia]; reflexivity. Qed.
Lemma tb_rol32 a k z : k < 32 -> N.testbit (ROL32 a k) z = xorb ((z <? 32) && (if z <? k then false else N.testbit a (z - k))) (N.testbit a (z + (32 - k))).
Proof. intros H. unfold ROL32, w32. rewrite N.lxor_spec, tb_mod, tb_shl, N.shiftr_spec by lia. reflexivity. Qed.
Lemma tb_rol64 a k z : k < 64 -> N.testbit (ROL64 a k) z = xorb ((z <? 64) && (if z <? k then false else N.testbit a (z - k))) (N.testbit a (z + (64 - k))).
Proof. intros H. unfold ROL64. rewrite N.lxor_spec, tb_mod, tb_shl, N.shiftr_spec by lia. reflexivity. Qed.

Lemma rel_rol_even k r e o x : r = 2 * k -> 0 < k < 32 -> rel e o x -> rel (ROL32 e k) (ROL32 o k) (ROL64 x r).
Proof.
  intros -> Hk (-> & ? & ?). split; [|split; apply rol32_lt; assumption].
  apply inter_ext; intros z; rewrite tb_rol64, tb_rol32 by lia; f_equal.
  - replace (2 * z <? 64) with (z <? 32) by lia. replace (2 * z <? 2 * k) with (z <? k) by lia. destruct (z <? k) eqn:E; [reflexivity|].
    replace (2 * z - 2 * k) with (2 * (z - k)) by lia. rewrite inter_even. reflexivity.
  - replace (2 * z + (64 - 2 * k)) with (2 * (z + (32 - k))) by lia. apply inter_even.
  - replace (2 * z + 1 <? 64) with (z <? 32) by lia. replace (2 * z + 1 <? 2 * k) with (z <? k) by lia. destruct (z <? k) eqn:E; [reflexivity|].
    replace (2 * z + 1 - 2 * k) with (2 * (z - k) + 1) by lia. rewrite inter_odd. reflexivity.
  - replace (2 * z + 1 + (64 - 2 * k)) with (2 * (z + (32 - k)) + 1) by lia. apply inter_odd.
Qed.
Lemma rol_odd_low e o k z : k < 31 -> N.testbit (ROL64 (inter e o) (2 * k + 1)) (2 * z) = N.testbit (ROL32 o (k + 1)) z.
Proof.
  intros Hk. rewrite tb_rol64, tb_rol32 by lia. f_equal.
  - replace (2 * z <? 64) with (z <? 32) by lia. replace (2 * z <? 2 * k + 1) with (z <? k + 1) by lia. destruct (z <? k + 1) eqn:E; [reflexivity|].
    replace (2 * z - (2 * k + 1)) with (2 * (z - (k + 1)) + 1) by lia. rewrite inter_odd. reflexivity.
  - replace (2 * z + (64 - (2 * k + 1))) with (2 * (z + (32 - (k + 1))) + 1) by lia. apply inter_odd.
Qed.
Lemma rol_odd_high e o k z : k < 31 -> N.testbit (ROL64 (inter e o) (2 * k + 1)) (2 * z + 1) =
  xorb ((z <? 32) && (if z <? k then false else N.testbit e (z - k))) (N.testbit e (z + (32 - k))).
Proof.
  intros Hk. rewrite tb_rol64 by lia. f_equal.
  - replace (2 * z + 1 <? 64) with (z <? 32) by lia. replace (2 * z + 1 <? 2 * k + 1) with (z <? k) by lia. destruct (z <? k) eqn:E; [reflexivity|].
    replace (2 * z + 1 - (2 * k + 1)) with (2 * (z - k)) by lia. rewrite inter_even. reflexivity.
  - replace (2 * z + 1 + (64 - (2 * k + 1))) with (2 * (z + (32 - k))) by lia. apply inter_even.
Qed.
Lemma rel_rol_odd k k' r e o x : r = 2 * k + 1 -> k' = k + 1 -> 0 < k < 31 -> rel e o x -> rel (ROL32 o k') (ROL32 e k) (ROL64 x r).
Proof.
  intros -> -> Hk (-> & ? & ?). split; [|split; apply rol32_lt; assumption].
  apply inter_ext; intros z; [apply rol_odd_low; lia|]. rewrite rol_odd_high, tb_rol32 by lia. reflexivity.
Qed.
Lemma rel_rol_1 e o x : rel e o x -> rel (ROL32 o 1) e (ROL64 x 1).
Proof.
  intros (-> & ? & ?). split; [|split; [apply rol32_lt|]; assumption].
  apply inter_ext; intros z; [apply (rol_odd_low e o 0 z); lia|]. etransitivity; [apply (rol_odd_high e o 0 z); lia|].
  replace (z <? 0) with false by lia. cbv iota. rewrite N.sub_0_r. rewrite (tb_high e 32 (z + (32 - 0))) by (assumption || lia). rewrite xorb_false_r.
  destruct (z <? 32) eqn:E; [reflexivity|]. rewrite (tb_high e 32 z) by (assumption || lia). reflexivity.
Qed.

(** where the halves of the lanes are before KeccakRound0 *)
Definition Rel0 (S : halves) (A : lanes) : Prop :=
  let '(Halves Aba0 Aba1 Abe0 Abe1 Abi0 Abi1 Abo0 Abo1 Abu0 Abu1 Aga0 Aga1 Age0 Age1 Agi0 Agi1 Ago0 Ago1 Agu0 Agu1 Aka0 Aka1 Ake0 Ake1 Aki0 Aki1 Ako0 Ako1 Aku0 Aku1 Ama0 Ama1 Ame0 Ame1 Ami0 Ami1 Amo0 Amo1 Amu0 Amu1 Asa0 Asa1 Ase0 Ase1 Asi0 Asi1 Aso0 Aso1 Asu0 Asu1) := S in
  let '(Lanes Lba Lbe Lbi Lbo Lbu Lga Lge Lgi Lgo Lgu Lka Lke Lki Lko Lku Lma Lme Lmi Lmo Lmu Lsa Lse Lsi Lso Lsu) := A in
  rel Aba0 Aba1 Lba /\ rel Abe0 Abe1 Lbe /\ rel Abi0 Abi1 Lbi /\ rel Abo0 Abo1 Lbo /\ rel Abu0 Abu1 Lbu /\ rel Aga0 Aga1 Lga /\ rel Age0 Age1 Lge /\ rel Agi0 Agi1 Lgi /\ rel Ago0 Ago1 Lgo /\ rel Agu0 Agu1 Lgu /\ rel Aka0 Aka1 Lka /\ rel Ake0 Ake1 Lke /\ rel Aki0 Aki1 Lki /\ rel Ako0 Ako1 Lko /\ rel Aku0 Aku1 Lku /\ rel Ama0 Ama1 Lma /\ rel Ame0 Ame1 Lme /\ rel Ami0 Ami1 Lmi /\ rel Amo0 Amo1 Lmo /\ rel Amu0 Amu1 Lmu /\ rel Asa0 Asa1 Lsa /\ rel Ase0 Ase1 Lse /\ rel Asi0 Asi1 Lsi /\ rel Aso0 Aso1 Lso /\ rel Asu0 Asu1 Lsu.
(** where the halves of the lanes are before KeccakRound1 *)
Definition Rel1 (S : halves) (A : lanes) : Prop :=
  let '(Halves Aba0 Aba1 Abe0 Abe1 Abi0 Abi1 Abo0 Abo1 Abu0 Abu1 Aga0 Aga1 Age0 Age1 Agi0 Agi1 Ago0 Ago1 Agu0 Agu1 Aka0 Aka1 Ake0 Ake1 Aki0 Aki1 Ako0 Ako1 Aku0 Aku1 Ama0 Ama1 Ame0 Ame1 Ami0 Ami1 Amo0 Amo1 Amu0 Amu1 Asa0 Asa1 Ase0 Ase1 Asi0 Asi1 Aso0 Aso1 Asu0 Asu1) := S in
  let '(Lanes Lba Lbe Lbi Lbo Lbu Lga Lge Lgi Lgo Lgu Lka Lke Lki Lko Lku Lma Lme Lmi Lmo Lmu Lsa Lse Lsi Lso Lsu) := A in
  rel Aba0 Aba1 Lba /\ rel Age0 Age1 Lbe /\ rel Aki1 Aki0 Lbi /\ rel Amo1 Amo0 Lbo /\ rel Asu0 Asu1 Lbu /\ rel Aka1 Aka0 Lga /\ rel Ame1 Ame0 Lge /\ rel Asi1 Asi0 Lgi /\ rel Abo0 Abo1 Lgo /\ rel Agu0 Agu1 Lgu /\ rel Asa0 Asa1 Lka /\ rel Abe1 Abe0 Lke /\ rel Agi0 Agi1 Lki /\ rel Ako1 Ako0 Lko /\ rel Amu0 Amu1 Lku /\ rel Aga0 Aga1 Lma /\ rel Ake0 Ake1 Lme /\ rel Ami1 Ami0 Lmi /\ rel Aso0 Aso1 Lmo /\ rel Abu1 Abu0 Lmu /\ rel Ama1 Ama0 Lsa /\ rel Ase0 Ase1 Lse /\ rel Abi0 Abi1 Lsi /\ rel Ago1 Ago0 Lso /\ rel Aku1 Aku0 Lsu.
(** where the halves of the lanes are before KeccakRound2 *)
Definition Rel2 (S : halves) (A : lanes) : Prop :=
  let '(Halves Aba0 Aba1 Abe0 Abe1 Abi0 Abi1 Abo0 Abo1 Abu0 Abu1 Aga0 Aga1 Age0 Age1 Agi0 Agi1 Ago0 Ago1 Agu0 Agu1 Aka0 Aka1 Ake0 Ake1 Aki0 Aki1 Ako0 Ako1 Aku0 Aku1 Ama0 Ama1 Ame0 Ame1 Ami0 Ami1 Amo0 Amo1 Amu0 Amu1 Asa0 Asa1 Ase0 Ase1 Asi0 Asi1 Aso0 Aso1 Asu0 Asu1) := S in
  let '(Lanes Lba Lbe Lbi Lbo Lbu Lga Lge Lgi Lgo Lgu Lka Lke Lki Lko Lku Lma Lme Lmi Lmo Lmu Lsa Lse Lsi Lso Lsu) := A in
  rel Aba0 Aba1 Lba /\ rel Ame1 Ame0 Lbe /\ rel Agi1 Agi0 Lbi /\ rel Aso1 Aso0 Lbo /\ rel Aku1 Aku0 Lbu /\ rel Asa1 Asa0 Lga /\ rel Ake1 Ake0 Lge /\ rel Abi1 Abi0 Lgi /\ rel Amo1 Amo0 Lgo /\ rel Agu0 Agu1 Lgu /\ rel Ama1 Ama0 Lka /\ rel Age1 Age0 Lke /\ rel Asi1 Asi0 Lki /\ rel Ako0 Ako1 Lko /\ rel Abu1 Abu0 Lku /\ rel Aka1 Aka0 Lma /\ rel Abe1 Abe0 Lme /\ rel Ami0 Ami1 Lmi /\ rel Ago1 Ago0 Lmo /\ rel Asu1 Asu0 Lmu /\ rel Aga1 Aga0 Lsa /\ rel Ase0 Ase1 Lse /\ rel Aki1 Aki0 Lsi /\ rel Abo1 Abo0 Lso /\ rel Amu1 Amu0 Lsu.
(** where the halves of the lanes are before KeccakRound3 *)
Definition Rel3 (S : halves) (A : lanes) : Prop :=
  let '(Halves Aba0 Aba1 Abe0 Abe1 Abi0 Abi1 Abo0 Abo1 Abu0 Abu1 Aga0 Aga1 Age0 Age1 Agi0 Agi1 Ago0 Ago1 Agu0 Agu1 Aka0 Aka1 Ake0 Ake1 Aki0 Aki1 Ako0 Ako1 Aku0 Aku1 Ama0 Ama1 Ame0 Ame1 Ami0 Ami1 Amo0 Amo1 Amu0 Amu1 Asa0 Asa1 Ase0 Ase1 Asi0 Asi1 Aso0 Aso1 Asu0 Asu1) := S in
  let '(Lanes Lba Lbe Lbi Lbo Lbu Lga Lge Lgi Lgo Lgu Lka Lke Lki Lko Lku Lma Lme Lmi Lmo Lmu Lsa Lse Lsi Lso Lsu) := A in
  rel Aba0 Aba1 Lba /\ rel Ake1 Ake0 Lbe /\ rel Asi0 Asi1 Lbi /\ rel Ago0 Ago1 Lbo /\ rel Amu1 Amu0 Lbu /\ rel Ama0 Ama1 Lga /\ rel Abe0 Abe1 Lge /\ rel Aki0 Aki1 Lgi /\ rel Aso1 Aso0 Lgo /\ rel Agu0 Agu1 Lgu /\ rel Aga1 Aga0 Lka /\ rel Ame0 Ame1 Lke /\ rel Abi1 Abi0 Lki /\ rel Ako1 Ako0 Lko /\ rel Asu1 Asu0 Lku /\ rel Asa1 Asa0 Lma /\ rel Age1 Age0 Lme /\ rel Ami1 Ami0 Lmi /\ rel Abo1 Abo0 Lmo /\ rel Aku0 Aku1 Lmu /\ rel Aka0 Aka1 Lsa /\ rel Ase0 Ase1 Lse /\ rel Agi1 Agi0 Lsi /\ rel Amo0 Amo1 Lso /\ rel Abu0 Abu1 Lsu.

Definition R64 (c : N) (A : lanes) : lanes := thetaRhoPiChiIota c (A, prepareTheta A).

Ltac rel_tac :=
  first
  [ assumption
  | lazymatch goal with
    | |- rel _ _ (N.lxor _ _) => apply rel_xor; rel_tac
    | |- rel _ _ (N.land _ _) => apply rel_and; rel_tac
    | |- rel _ _ (not64 _) => apply rel_not; rel_tac
    | |- rel _ _ (ROL64 _ 1) => apply rel_rol_1; rel_tac
    | |- rel _ _ (ROL64 _ _) =>
        first [ eapply rel_rol_even; [reflexivity|split; reflexivity|rel_tac]
              | eapply rel_rol_odd; [reflexivity|reflexivity|split; reflexivity|rel_tac] ]
    end ].
Ltac round_tac round :=
  intros S A c0 c1 c HR HC; destruct S, A; unfold R64;
  destruct HR as (H0 & H1 & H2 & H3 & H4 & H5 & H6 & H7 & H8 & H9 & H10 & H11 & H12 & H13 & H14 & H15 & H16 & H17 & H18 & H19 & H20 & H21 & H22 & H23 & H24);
  cbv [round thetaRhoPiChiIota prepareTheta Rel0 Rel1 Rel2 Rel3];
  repeat match goal with |- _ /\ _ => split end; rel_tac.
Lemma round0 : forall S A c0 c1 c, Rel0 S A -> rel c0 c1 c -> Rel1 (KeccakRound0 c0 c1 S) (R64 c A).
Proof. round_tac KeccakRound0. Qed.
Lemma round1 : forall S A c0 c1 c, Rel1 S A -> rel c0 c1 c -> Rel2 (KeccakRound1 c0 c1 S) (R64 c A).
Proof. round_tac KeccakRound1. Qed.
Lemma round2 : forall S A c0 c1 c, Rel2 S A -> rel c0 c1 c -> Rel3 (KeccakRound2 c0 c1 S) (R64 c A).
Proof. round_tac KeccakRound2. Qed.
Lemma round3 : forall S A c0 c1 c, Rel3 S A -> rel c0 c1 c -> Rel0 (KeccakRound3 c0 c1 S) (R64 c A).
Proof. round_tac KeccakRound3. Qed.

(** * the permutation *)
Lemma R64_def c A : thetaRhoPiChiIota c (A, prepareTheta A) = R64 c A. Proof. reflexivity. Qed.
Lemma carry_step i l c A : aget KeccakF1600RoundConstants i = Ok c ->
  foldM (fun AC i => let! rc := aget KeccakF1600RoundConstants i in Ok (thetaRhoPiChiIotaPrepareTheta rc AC)) (i :: l) (A, prepareTheta A) =
  foldM (fun AC i => let! rc := aget KeccakF1600RoundConstants i in Ok (thetaRhoPiChiIotaPrepareTheta rc AC)) l (R64 c A, prepareTheta (R64 c A)).
Proof. intros H. cbn [foldM]. rewrite H. cbn [bind]. rewrite round_carries. reflexivity. Qed.
Lemma rounds24_fold A : rounds24 A = Ok (fold_left (fun A c => R64 c A) KeccakF1600RoundConstants A).
Proof.
  unfold rounds24. change (Nrange 23) with [0; 1; 2; 3; 4; 5; 6; 7; 8; 9; 10; 11; 12; 13; 14; 15; 16; 17; 18; 19; 20; 21; 22].
  do 23 (erewrite carry_step by reflexivity). cbn [foldM bind].
  assert (HC : aget KeccakF1600RoundConstants 23 = Ok 0x8000000080008008) by reflexivity. rewrite HC. clear HC. cbn [bind]. rewrite R64_def.
  unfold KeccakF1600RoundConstants. cbn [fold_left]. generalize R64. intros R. reflexivity.
Qed.

Definition rc64 (i : N) : N := nthN KeccakF1600RoundConstants i 0.
Definition rc32 (i : N) : N := nthN KeccakF1600RoundConstants_int2 i 0.
Lemma constants_checked : forallb (fun i => (rc64 i =? inter (rc32 (2 * i)) (rc32 (2 * i + 1))) && (rc32 (2 * i) <? 2 ^ 32) && (rc32 (2 * i + 1) <? 2 ^ 32)) (Nrange 24) = true.
Proof. vm_compute. reflexivity. Qed.
Lemma constants_rel i : i < 24 -> rel (rc32 (2 * i)) (rc32 (2 * i + 1)) (rc64 i).
Proof.
  intros H. pose proof constants_checked as HC. rewrite forallb_forall in HC. specialize (HC i ltac:(apply In_Nrange; exact H)). unfold rel. lia.
Qed.
Lemma rc_get i : i < 49 -> aget KeccakF1600RoundConstants_int2 i = Ok (rc32 i).
Proof. intros H. apply aget_ok. exact H. Qed.
Lemma four_ok j S A : j < 6 -> Rel0 S A -> exists S', four_rounds S (8 * j) = Ok (S', 8 * j + 8) /\
  Rel0 S' (R64 (rc64 (4 * j + 3)) (R64 (rc64 (4 * j + 2)) (R64 (rc64 (4 * j + 1)) (R64 (rc64 (4 * j)) A)))).
Proof.
  intros Hj HR. unfold four_rounds. cbv zeta. rewrite !rc_get by lia. cbn [bind].
  eexists. split; [f_equal; f_equal; lia|].
  repeat first [apply round3|apply round2|apply round1|apply round0]; [exact HR|..].
  - replace (8 * j) with (2 * (4 * j)) by lia. apply constants_rel. lia.
  - replace (8 * j + 2) with (2 * (4 * j + 1)) by lia. apply constants_rel. lia.
  - replace (8 * j + 2 + 2) with (2 * (4 * j + 2)) by lia. apply constants_rel. lia.
  - replace (8 * j + 2 + 2 + 2) with (2 * (4 * j + 3)) by lia. apply constants_rel. lia.
Qed.
Lemma loop_step f S A j : j < 6 -> Rel0 S A -> exists S', Rel0 S' (R64 (rc64 (4 * j + 3)) (R64 (rc64 (4 * j + 2)) (R64 (rc64 (4 * j + 1)) (R64 (rc64 (4 * j)) A)))) /\
  rounds_loop (Datatypes.S f) S (8 * j) = if j =? 5 then Ok S' else rounds_loop f S' (8 * (j + 1)).
Proof.
  intros Hj HR. destruct (four_ok j S A Hj HR) as (S' & E & HR'). exists S'. split; [exact HR'|]. cbn [rounds_loop]. rewrite E. cbn [bind].
  rewrite rc_get by lia. cbn [bind]. replace (8 * (j + 1)) with (8 * j + 8) by lia.
  assert (HJ : j = 0 \/ j = 1 \/ j = 2 \/ j = 3 \/ j = 4 \/ j = 5) by lia. destruct HJ as [->|[->|[->|[->|[->| ->]]]]]; reflexivity.
Qed.
Lemma permute32_rel S A : Rel0 S A -> exists S', rounds_loop 25 S 0 = Ok S' /\ exists A', rounds24 A = Ok A' /\ Rel0 S' A'.
Proof.
  intros HR. rewrite rounds24_fold.
  destruct (loop_step 24 S A 0 eq_refl HR) as (S1 & H1 & E1). destruct (loop_step 23 S1 _ 1 eq_refl H1) as (S2 & H2 & E2).
  destruct (loop_step 22 S2 _ 2 eq_refl H2) as (S3 & H3 & E3). destruct (loop_step 21 S3 _ 3 eq_refl H3) as (S4 & H4 & E4).
  destruct (loop_step 20 S4 _ 4 eq_refl H4) as (S5 & H5 & E5). destruct (loop_step 19 S5 _ 5 eq_refl H5) as (S6 & H6 & E6).
  exists S6. split; [|eexists; split; [reflexivity|exact H6]].
  change (rounds_loop 25 S 0) with (rounds_loop 25 S (8 * 0)). rewrite E1. change (0 =? 5) with false. cbv iota. change (0 + 1) with 1. rewrite E2.
  change (1 =? 5) with false. cbv iota. change (1 + 1) with 2. rewrite E3. change (2 =? 5) with false. cbv iota. change (2 + 1) with 3. rewrite E4.
  change (3 =? 5) with false. cbv iota. change (3 + 1) with 4. rewrite E5. change (4 =? 5) with false. cbv iota. change (4 + 1) with 5. rewrite E6. reflexivity.
Qed.

(** * to and from interleaved words *)
Definition sw (k mask j : N) : N :=
  if N.testbit mask j then j + k else if (k <=? j) && N.testbit mask (j - k) then j - k else j.
Definition sw_ok (k mask : N) : bool :=
  (0 <? k) && forallb (fun j => negb (N.testbit mask j && (k <=? j) && N.testbit mask (j - k)) && (sw k mask j <? 32)) (Nrange 32).
Lemma swap_bit k mask x j : sw_ok k mask = true -> j < 32 -> N.testbit (swap_bits k mask x) j = N.testbit x (sw k mask j) /\ sw k mask j < 32.
Proof.
  intros HO Hj. unfold sw_ok in HO. apply andb_true_iff in HO. destruct HO as [HK HO]. rewrite forallb_forall in HO. specialize (HO j ltac:(apply In_Nrange; exact Hj)).
  split; [|lia]. unfold swap_bits, sw in *. cbv zeta. rewrite !N.lxor_spec. unfold w32. rewrite tb_mod, tb_shl. rewrite !N.land_spec, !N.lxor_spec, !N.shiftr_spec by lia.
  replace (j <? 32) with true by lia. destruct (j <? k) eqn:EK.
  - replace (k <=? j) with false by lia. cbn [andb]. rewrite xorb_false_r. destruct (N.testbit mask j); [rewrite andb_true_r|rewrite andb_false_r, xorb_false_r; reflexivity].
    rewrite <- xorb_assoc, xorb_nilpotent. apply xorb_false_l.
  - replace (k <=? j) with true in * by lia. replace (j - k + k) with j by lia. cbn [andb]. destruct (N.testbit mask j), (N.testbit mask (j - k)); cbn in HO; try discriminate;
      rewrite ?andb_true_r, ?andb_false_r, ?xorb_false_r; [rewrite <- xorb_assoc, xorb_nilpotent; apply xorb_false_l| |reflexivity].
    rewrite (xorb_comm (N.testbit x (j - k))), <- xorb_assoc, xorb_nilpotent. apply xorb_false_l.
Qed.
Lemma swap_lt k mask x : mask < 2 ^ 32 -> x < 2 ^ 32 -> swap_bits k mask x < 2 ^ 32.
Proof.
  intros HM HX. unfold swap_bits. cbv zeta. apply lxor_lt; [apply lxor_lt; [exact HX|apply land_lt, HM]|apply N.mod_lt; discriminate].
Qed.

Definition gather (x : N) : N := swap_bits 8 0x0000FF00 (swap_bits 4 0x00F000F0 (swap_bits 2 0x0C0C0C0C (swap_bits 1 0x22222222 x))).
Definition scatter (x : N) : N := swap_bits 1 0x22222222 (swap_bits 2 0x0C0C0C0C (swap_bits 4 0x00F000F0 (swap_bits 8 0x0000FF00 x))).
Lemma index_checked : forallb (fun j =>
  (sw 1 0x22222222 (sw 2 0x0C0C0C0C (sw 4 0x00F000F0 (sw 8 0x0000FF00 j))) =? if j <? 16 then 2 * j else 2 * (j - 16) + 1) &&
  (sw 8 0x0000FF00 (sw 4 0x00F000F0 (sw 2 0x0C0C0C0C (sw 1 0x22222222 j))) =? if j mod 2 =? 0 then j / 2 else 16 + j / 2)) (Nrange 32) = true.
Proof. vm_compute. reflexivity. Qed.
Lemma sw1 : sw_ok 1 0x22222222 = true. Proof. vm_compute. reflexivity. Qed.
Lemma sw2 : sw_ok 2 0x0C0C0C0C = true. Proof. vm_compute. reflexivity. Qed.
Lemma sw4 : sw_ok 4 0x00F000F0 = true. Proof. vm_compute. reflexivity. Qed.
Lemma sw8 : sw_ok 8 0x0000FF00 = true. Proof. vm_compute. reflexivity. Qed.
Lemma gather_bit x j : j < 32 -> N.testbit (gather x) j = N.testbit x (if j <? 16 then 2 * j else 2 * (j - 16) + 1).
Proof.
  intros H. pose proof index_checked as HC. rewrite forallb_forall in HC. specialize (HC j ltac:(apply In_Nrange; exact H)).
  apply andb_true_iff in HC. destruct HC as [HC _]. apply N.eqb_eq in HC. rewrite <- HC. unfold gather.
  repeat match goal with |- N.testbit (swap_bits ?k ?m ?y) ?i = _ =>
    let E := fresh in let L := fresh in destruct (swap_bit k m y i) as [E L]; [(exact sw1 || exact sw2 || exact sw4 || exact sw8)|assumption|rewrite E; clear E] end. reflexivity.
Qed.
Lemma scatter_bit x j : j < 32 -> N.testbit (scatter x) j = N.testbit x (if j mod 2 =? 0 then j / 2 else 16 + j / 2).
Proof.
  intros H. pose proof index_checked as HC. rewrite forallb_forall in HC. specialize (HC j ltac:(apply In_Nrange; exact H)).
  apply andb_true_iff in HC. destruct HC as [_ HC]. apply N.eqb_eq in HC. rewrite <- HC. unfold scatter.
  repeat match goal with |- N.testbit (swap_bits ?k ?m ?y) ?i = _ =>
    let E := fresh in let L := fresh in destruct (swap_bit k m y i) as [E L]; [(exact sw1 || exact sw2 || exact sw4 || exact sw8)|assumption|rewrite E; clear E] end. reflexivity.
Qed.
Lemma gather_lt x : x < 2 ^ 32 -> gather x < 2 ^ 32.
Proof. intros H. unfold gather. repeat (apply swap_lt; [reflexivity|]). exact H. Qed.
Lemma scatter_lt x : x < 2 ^ 32 -> scatter x < 2 ^ 32.
Proof. intros H. unfold scatter. repeat (apply swap_lt; [reflexivity|]). exact H. Qed.

Definition join (low high : N) : N := N.lor low (N.shiftl high 32).
Lemma join_bit low high j : low < 2 ^ 32 -> N.testbit (join low high) j = if j <? 32 then N.testbit low j else N.testbit high (j - 32).
Proof.
  intros H. unfold join. rewrite N.lor_spec, tb_shl. destruct (j <? 32) eqn:E; [apply orb_false_r|]. rewrite (tb_high low 32) by (assumption || lia). reflexivity.
Qed.
(** the low half of the bits of [a], the low half of those of [b] above *)
Definition lows (a b : N) : N := N.lor (N.land a 0x0000FFFF) (w32 (N.shiftl b 16)).
Definition highs (a b : N) : N := N.lor (N.shiftr a 16) (N.land b 0xFFFF0000).
Lemma mask_low j : N.testbit 0xFFFF j = (j <? 16).
Proof. change 0xFFFF with (N.ones 16). destruct (j <? 16) eqn:E; [apply N.ones_spec_low|apply N.ones_spec_high]; lia. Qed.
Lemma mask_high j : N.testbit 0xFFFF0000 j = (16 <=? j) && (j <? 32).
Proof.
  change 0xFFFF0000 with (N.shiftl 0xFFFF 16). rewrite tb_shl, mask_low. destruct (j <? 16) eqn:E; [replace (16 <=? j) with false by lia; reflexivity|].
  replace (16 <=? j) with true by lia. cbn [andb]. lia.
Qed.
Lemma lows_bit a b j : N.testbit (lows a b) j = if j <? 16 then N.testbit a j else (j <? 32) && N.testbit b (j - 16).
Proof.
  unfold lows, w32. rewrite N.lor_spec, N.land_spec, mask_low, tb_mod, tb_shl. destruct (j <? 16) eqn:E; [|rewrite andb_false_r; reflexivity].
  rewrite andb_false_r, orb_false_r, andb_true_r. reflexivity.
Qed.
Lemma highs_bit a b j : a < 2 ^ 32 -> N.testbit (highs a b) j = if j <? 16 then N.testbit a (j + 16) else (j <? 32) && N.testbit b j.
Proof.
  intros HA. unfold highs. rewrite N.lor_spec, N.land_spec, mask_high, N.shiftr_spec by lia. destruct (j <? 16) eqn:E.
  - replace (16 <=? j) with false by lia. cbn [andb]. rewrite andb_false_r. apply orb_false_r.
  - replace (16 <=? j) with true by lia. rewrite (tb_high a 32) by (assumption || lia). cbn [andb orb]. apply andb_comm.
Qed.
Lemma lows_lt a b : lows a b < 2 ^ 32.
Proof. apply lt_pow2_bits. intros j Hj. rewrite lows_bit. replace (j <? 16) with false by lia. replace (j <? 32) with false by lia. reflexivity. Qed.
Lemma highs_lt a b : a < 2 ^ 32 -> highs a b < 2 ^ 32.
Proof. intros H. apply lt_pow2_bits. intros j Hj. rewrite highs_bit by exact H. replace (j <? 16) with false by lia. replace (j <? 32) with false by lia. reflexivity. Qed.

Lemma to_inter low high even odd : low < 2 ^ 32 -> high < 2 ^ 32 ->
  exists e o, toBitInterleavingAndXOR low high even odd = (N.lxor even e, N.lxor odd o) /\ rel e o (join low high).
Proof.
  intros HL HH. exists (lows (gather low) (gather high)), (highs (gather low) (gather high)). split; [unfold toBitInterleavingAndXOR, prepareToBitInterleaving, lows, highs, gather; cbv zeta; reflexivity|].
  split; [|split; [apply lows_lt|apply highs_lt, gather_lt, HL]].
  apply inter_ext; intros k; rewrite join_bit by exact HL.
  - rewrite lows_bit. destruct (k <? 16) eqn:E; [replace (2 * k <? 32) with true by lia; rewrite gather_bit by lia; rewrite E; reflexivity|].
    replace (2 * k <? 32) with false by lia. destruct (k <? 32) eqn:E2; [|apply (tb_high _ 32); (exact HH || lia)].
    rewrite gather_bit by lia. replace (k - 16 <? 16) with true by lia. cbn [andb]. f_equal. lia.
  - rewrite highs_bit by (apply gather_lt, HL). destruct (k <? 16) eqn:E.
    + replace (2 * k + 1 <? 32) with true by lia. rewrite gather_bit by lia. replace (k + 16 <? 16) with false by lia. f_equal. lia.
    + replace (2 * k + 1 <? 32) with false by lia. destruct (k <? 32) eqn:E2; [|apply (tb_high _ 32); (exact HH || lia)].
      rewrite gather_bit by lia. rewrite E. cbn [andb]. f_equal. lia.
Qed.
Lemma from_inter even odd x : rel even odd x -> exists low high, fromBitInterleaving even odd = (low, high) /\ x = join low high /\ low < 2 ^ 32 /\ high < 2 ^ 32.
Proof.
  intros (-> & HE & HO). exists (scatter (lows even odd)), (scatter (highs even odd)). split; [unfold fromBitInterleaving, lows, highs, scatter; cbv zeta; reflexivity|].
  assert (H1 : scatter (lows even odd) < 2 ^ 32) by apply scatter_lt, lows_lt. assert (H2 : scatter (highs even odd) < 2 ^ 32) by apply scatter_lt, highs_lt, HE.
  split; [|split; assumption]. symmetry. apply inter_ext; intros k; rewrite join_bit by exact H1.
  - destruct (2 * k <? 32) eqn:E.
    + rewrite scatter_bit by lia. replace (2 * k mod 2 =? 0) with true by lia. rewrite lows_bit. replace (2 * k / 2) with k by lia. replace (k <? 16) with true by lia. reflexivity.
    + destruct (2 * k - 32 <? 32) eqn:E2; [|rewrite (tb_high _ 32), (tb_high even 32) by (assumption || lia); reflexivity].
      rewrite scatter_bit by lia. replace ((2 * k - 32) mod 2 =? 0) with true by lia. rewrite highs_bit by exact HE. replace ((2 * k - 32) / 2) with (k - 16) by lia.
      replace (k - 16 <? 16) with true by lia. f_equal. lia.
  - destruct (2 * k + 1 <? 32) eqn:E.
    + rewrite scatter_bit by lia. replace ((2 * k + 1) mod 2 =? 0) with false by lia. rewrite lows_bit. replace ((2 * k + 1) / 2) with k by lia.
      replace (16 + k <? 16) with false by lia. replace (16 + k <? 32) with true by lia. cbn [andb]. f_equal. lia.
    + destruct (2 * k + 1 - 32 <? 32) eqn:E2; [|rewrite (tb_high _ 32), (tb_high odd 32) by (assumption || lia); reflexivity].
      rewrite scatter_bit by lia. replace ((2 * k + 1 - 32) mod 2 =? 0) with false by lia. rewrite highs_bit by exact HE. replace ((2 * k + 1 - 32) / 2) with (k - 16) by lia.
      replace (16 + (k - 16) <? 16) with false by lia. replace (16 + (k - 16) <? 32) with true by lia. cbn [andb]. f_equal. lia.
Qed.
