(** From the logic of Proof/RefLogic to the notions of Spec/RefHashSpec: the field multiplications and the universal hashes. *)
From Coq Require Import ZArith NArith List Bool FMapPositive Lia ZifyBool ZifyNat ZifyN Arith.
From Verif Require Import Model.CtLang Model.CtNames Model.CtFields Model.CtZkHash Model.CtProgram Proof.RefLogic Proof.RefTac Proof.RefMem Proof.RefSe Proof.RefSx Proof.RefWord Proof.RefFields Proof.RefWin Proof.RefElem Proof.RefUHash Proof.RefVoleHash Proof.RefZkHash.
From Verif Require Spec.FieldSpec Proof.FieldProps Spec.Poly Spec.UHashSpec Model.UHash Proof.UHashProof Proof.FieldProof Proof.WordProof Proof.RefBytes.
From Verif Require Import Spec.RefSpec Spec.RefHashSpec Proof.RefProps.
Import ListNotations.
Local Open Scope Z_scope.

Definition fM (n : nat) : positive := match n with O => f_bf128_mul | 1%nat => f_bf192_mul | _ => f_bf256_mul end.
Definition fM6 (n : nat) : positive := match n with O => f_bf128_mul_64 | 1%nat => f_bf192_mul_64 | _ => f_bf256_mul_64 end.

Lemma total_ww n : total (ww n) = 8 * Z.of_nat (nw n). Proof. apply total_rep. Qed.
Lemma arr_elb n m b o x : (n <= 2)%nat -> holds m b o (elb n x) -> arr m b o (ww n) (map ofN (W n x)).
Proof. intros Hn H. pose proof (holds_arr m b o _ H (elb_ok n x) (ww n) 0) as A. rewrite Z.add_0_r in A. apply A. rewrite total_ww, elb_len. lia. Qed.
Lemma out_arr n m b o f xs ws x : (n <= 2)%nat -> inb m b o (total (ww n)) -> arr m b o (ww n) (map (fun k => nth k (phi f xs) 0) (seq 0 (length (ww n)))) ->
  ws = map (fun j => nth j (P f (map Z.to_N xs)) 0%N mod 2 ^ 64)%N (seq 0 (nw n)) -> E n ws x -> holds m b o (elb n x).
Proof.
  intros Hn I A -> Ex. rewrite <- (E_elb _ _ _ Hn Ex). apply arr_holds; [|rewrite total_ww in I; eapply inb_sub; [exact I|lia..]].
  rewrite map_map. unfold ww in A at 2. rewrite repeat_length in A. erewrite map_ext; [exact A|]. intros k. cbn beta. symmetry. apply phi_nth.
Qed.
Lemma toN_ofN l : map Z.to_N (map ofN l) = l. Proof. rewrite map_map. erewrite map_ext; [apply map_id|]. intros a. apply N2Z.id. Qed.

Lemma ref_mul n m b o b1 o1 x b2 o2 y : (n <= 2)%nat -> inb m b o (8 * Z.of_nat (nw n)) -> holds m b1 o1 (elb n x) -> holds m b2 o2 (elb n y) -> (x < 2 ^ lm n)%N -> (y < 2 ^ lm n)%N ->
  sep b1 o1 (8 * Z.of_nat (nw n)) b o (8 * Z.of_nat (nw n)) -> sep b2 o2 (8 * Z.of_nat (nw n)) b o (8 * Z.of_nat (nw n)) ->
  calls code (fM n) [VPtr b o; VPtr b1 o1; VPtr b2 o2] m (fun _ m' => frame m m' (at_ b o (8 * Z.of_nat (nw n))) /\ holds m' b o (elb n (Fields.bf_mul (fld n) x y))).
Proof.
  intros Hn I H1 H2 X1 X2 S1 S2. assert (Sp : spec_ok phi (fM n, sm_mul n)) by (destruct n as [|[|[|k]]]; [exact ref_bf128_mul|exact ref_bf192_mul|exact ref_bf256_mul|lia]).
  cbn [spec_ok sm_mul sm_out sm_pars sm_fid] in Sp. rewrite total_ww in Sp. specialize (Sp m b o [VPtr b1 o1; VPtr b2 o2] (map ofN (W n x) ++ map ofN (W n y)) I).
  eapply calls_weak; [apply Sp|].
  - exists (map ofN (W n x)), (map ofN (W n y)). split; [reflexivity|]. split; [apply arr_elb; assumption|]. split; [rewrite total_ww; exact S1|].
    exists (map ofN (W n y)), []. split; [symmetry; apply app_nil_r|]. split; [apply arr_elb; assumption|]. split; [rewrite total_ww; exact S2|reflexivity].
  - intros v m' [F A]. split; [exact F|]. refine (out_arr n m' b o _ _ _ _ Hn _ A eq_refl _); [rewrite total_ww; eapply inb_frame; eassumption|].
    rewrite map_app, !toN_ofN. replace (10 * n)%nat with (10 * n + 0)%nat by lia. exact (E_mul n _ _ _ _ Hn (W_E n x Hn X1) (W_E n y Hn X2)).
Qed.
Lemma ref_mul_64 n m b o b1 o1 x y : (n <= 2)%nat -> inb m b o (8 * Z.of_nat (nw n)) -> holds m b1 o1 (elb n x) -> (x < 2 ^ lm n)%N -> (y < 2 ^ 64)%N ->
  sep b1 o1 (8 * Z.of_nat (nw n)) b o (8 * Z.of_nat (nw n)) ->
  calls code (fM6 n) [VPtr b o; VPtr b1 o1; VInt (ofN y)] m (fun _ m' => frame m m' (at_ b o (8 * Z.of_nat (nw n))) /\ holds m' b o (elb n (Fields.bf_mul_64 (fld n) x y))).
Proof.
  intros Hn I H1 X1 X2 S1. assert (Sp : spec_ok phi (fM6 n, sm_mul_64 n)) by (destruct n as [|[|[|k]]]; [exact ref_bf128_mul_64|exact ref_bf192_mul_64|exact ref_bf256_mul_64|lia]).
  cbn [spec_ok sm_mul_64 sm_out sm_pars sm_fid] in Sp. rewrite total_ww in Sp. specialize (Sp m b o [VPtr b1 o1; VInt (ofN y)] (map ofN (W n x) ++ map ofN [y]) I).
  eapply calls_weak; [apply Sp|].
  - exists (map ofN (W n x)), (map ofN [y]). split; [reflexivity|]. split; [apply arr_elb; assumption|]. split; [rewrite total_ww; exact S1|].
    exists []. split; [reflexivity|]. split; [unfold word; lia|reflexivity].
  - intros v m' [F A]. split; [exact F|]. refine (out_arr n m' b o _ _ _ _ Hn _ A eq_refl _); [rewrite total_ww; eapply inb_frame; eassumption|].
    rewrite map_app, !toN_ofN. exact (E_mul_64 n _ _ _ Hn (W_E n x Hn X1)).
Qed.
Lemma ref_mul64 m x y : (x < 2 ^ 64)%N -> (y < 2 ^ 64)%N -> calls code f_bf64_mul [VInt (ofN x); VInt (ofN y)] m (fun v m' => frame m m' nothing /\ v = VInt (ofN (Fields.bf_mul Fields.F64 x y))).
Proof.
  intros X Y. pose proof ref_bf64_mul as Sp. cbn [spec_ok sm_mul64 sm_out sm_pars sm_fid] in Sp. specialize (Sp m [VInt (ofN x); VInt (ofN y)] (map ofN [x; y])).
  eapply calls_weak; [apply Sp|].
  - exists (map ofN [y]). split; [reflexivity|]. split; [unfold word; lia|]. exists []. split; [reflexivity|]. split; [unfold word; lia|reflexivity].
  - intros v m' [F ->]. split; [exact F|]. f_equal. rewrite phi_nth, toN_ofN. change (map Z.to_N (map ofN [x; y])) with (map Z.to_N (map ofN [x; y])). rewrite (RefUHash.P30 x y X Y). reflexivity.
Qed.

(** ** The dispatch of vole_hash *)
Definition lamN (n : nat) : N := match n with O => 128 | 1%nat => 192 | _ => 256 end.
Lemma lamN_n n : (n <= 2)%nat -> lamN n = lm n /\ UHash.field_of (lamN n) = fld n /\ (lamN n / 8 = 8 * N.of_nat (nq n))%N /\ Fields.f_n (fld n) = lamN n /\ In (fld n) UHashProof.fields_of /\ type_size (lamN n) = (8 * N.of_nat (nw n))%N /\
  mul_of (lamN n) = fM n /\ mul_64_of (lamN n) = fM6 n /\ init_of (lamN n) = fI n /\ update_of (lamN n) = fU n /\ finalize_of (lamN n) = fF n.
Proof. intros H. destruct n as [|[|[|n]]]; [repeat split; try reflexivity; cbn [fld UHashProof.fields_of In]; auto 6..|lia]. Qed.
Lemma lambda_n lambda : In lambda [128; 192; 256]%N -> exists n, (n <= 2)%nat /\ lambda = lamN n.
Proof. intros [<-|[<-|[<-|[]]]]; [exists 0%nat|exists 1%nat|exists 2%nat]; split; (lia || reflexivity). Qed.

Lemma code_vole_hash : PositiveMap.find f_vole_hash code = Some c_vole_hash. Proof. vm_compute. reflexivity. Qed.
Lemma ref_vole_hash n m vh vs vx vl (Q : mem -> Prop) : (n <= 2)%nat -> calls code (fV n) [vh; vs; vx; vl] m (fun _ m' => Q m') ->
  calls code f_vole_hash [vh; vs; vx; vl; VInt (ofN (lamN n))] m (fun _ m' => Q m').
Proof.
  intros Hn H. start code_vole_hash.
  assert (E : forall e, lookup e 6 = VInt (ofN (lamN n)) -> lookup e 1 = vh -> lookup e 2 = vs -> lookup e 3 = vx -> lookup e 4 = vl ->
    wp code (SIf (EBin OEq s32 (EVar 6) (EInt 256)) (SCall None f_vole_hash_256 [EVar 1; EVar 2; EVar 3; EVar 4])
      (SIf (EBin OEq s32 (EVar 6) (EInt 192)) (SCall None f_vole_hash_192 [EVar 1; EVar 2; EVar 3; EVar 4]) (SCall None f_vole_hash_128 [EVar 1; EVar 2; EVar 3; EVar 4]))) e m
      (fun o e' m' => o = ONormal /\ Q m')).
  { intros e E6 E1 E2 E3 E4. assert (Ps : pes e m [EVar 1; EVar 2; EVar 3; EVar 4] [vh; vs; vx; vl]) by (repeat (apply pes_nil || (eapply pes_cons; [apply pe_var; eassumption|]))).
    assert (P6 : forall k, pe e m (EBin OEq s32 (EVar 6) (EInt k)) (VInt (bin OEq s32 (ofN (lamN n)) k))) by (intros k; apply pe_bin; [apply pe_var, E6|apply pe_int]).
    assert (Fin : wp code (SCall None (fV n) [EVar 1; EVar 2; EVar 3; EVar 4]) e m (fun o e' m' => o = ONormal /\ Q m')).
    { eapply wp_call; [exact Ps|]. eapply calls_weak; [exact H|]. intros v m' K. split; [reflexivity|exact K]. }
    eapply wp_if; [apply P6|]. destruct n as [|[|[|n]]]; [| |exact Fin|lia]; (eapply wp_if; [apply P6|exact Fin]). }
  seq. eapply wp_set; [apply pe_var; reflexivity|]. cbv beta iota. eapply wp_weak; [apply E; look|]. intros o e m' [-> K]. exact K.
Qed.

(** ** Conversion *)
Lemma to_elb n x : (n <= 2)%nat -> element (lamN n) x = elb n x.
Proof. intros Hn. unfold element. rewrite UHashProof.to_bytes_eq. destruct (lamN_n n Hn) as (_ & _ & _ & _ & _ & -> & _). unfold elb. f_equal. lia. Qed.
Lemma bytes_ok_all l : Forall (fun b => (b < 256)%N) l <-> Base.bytes_ok l.
Proof. reflexivity. Qed.

Theorem vole_hash_returns lambda m bh oh bs os sd bx ox x ell : In lambda [128; 192; 256]%N -> (ell mod 8 = 0)%N -> (ell + 2 * lambda < 2 ^ 32)%N ->
  room m bh oh (lambda / 8 + 2) -> stands m bs os sd -> stands m bx ox x -> Forall (fun b => (b < 256)%N) sd -> Forall (fun b => (b < 256)%N) x ->
  N.of_nat (length sd) = (5 * (lambda / 8) + 8)%N -> ((ell + lambda) / 8 + lambda / 8 + 2 <= N.of_nat (length x))%N ->
  disjoint bh oh (lambda / 8 + 2) bs os (N.of_nat (length sd)) -> disjoint bh oh (lambda / 8 + 2) bx ox (N.of_nat (length x)) ->
  exists v m', returns f_vole_hash [VPtr bh oh; VPtr bs os; VPtr bx ox; VInt (Z.of_N ell); VInt (Z.of_N lambda)] m v m' /\
    stands m' bh oh (UHashSpec.vole_hash_spec (field_for lambda) sd x ell) /\ unchanged m m' (within bh oh (lambda / 8 + 2)).
Proof.
  intros Hl H8 Hs R S1 S2 B1 B2 L1 L2 D1 D2. destruct (lambda_n _ Hl) as (n & Hn & ->). destruct (lamN_n n Hn) as (El & Ef & E8 & Efn & Ein & _).
  assert (Hnb : (8 * N.of_nat (nq n) + 2)%N = (lamN n / 8 + 2)%N) by (rewrite E8; reflexivity).
  assert (Nb : nb n + 2 = ofN (lamN n / 8 + 2)) by (rewrite <- Hnb; unfold nb; lia).
  assert (Pos : (0 < lamN n / 8)%N) by (clear; destruct n as [|[|n]]; reflexivity).
  assert (V : UHash.vole_hash_F (fld n) sd x ell = Base.Ok (UHashSpec.vole_hash_spec (fld n) sd x ell)).
  { apply UHashProof.vole_hash_F_ok; rewrite ?Efn; unfold Base.lenN; try assumption; [|rewrite L1; apply N.le_refl]. clear; destruct n as [|[|n]]; reflexivity. }
  pose proof (ref_vole_hash_n n m bh oh bs os sd bx ox x ell (UHashSpec.vole_hash_spec (fld n) sd x ell) Hn H8) as C. rewrite <- El, Nb in C. rewrite Ef.
  assert (C1 := C Hs (proj1 (room_inb _ _ _ _) R) (proj2 (holds_stands _ _ _ _) S1) B1 ltac:(unfold Base.lenN; rewrite L1, E8; reflexivity) (proj2 (holds_stands _ _ _ _) S2) B2
    ltac:(apply sep_disjoint; [lia|unfold Base.lenN; rewrite L1; lia|exact D1]) ltac:(apply sep_disjoint; [lia|unfold Base.lenN; lia|exact D2]) V).
  apply (ref_vole_hash n m (VPtr bh oh) (VPtr bs os) (VPtr bx ox) (VInt (ofN ell)) (fun m' => frame m m' (at_ bh oh (ofN (lamN n / 8 + 2))) /\ holds m' bh oh (UHashSpec.vole_hash_spec (fld n) sd x ell)) Hn) in C1. destruct (calls_returns _ _ _ _ C1) as (v & m' & Rt & Fr & Hh).
  exists v, m'. split; [exact Rt|]. split; [apply holds_stands, Hh|]. eapply frame_unchanged; [exact Fr|]. intros b q K. exact K.
Qed.

Lemma mul_ok lambda m b o b1 o1 x b2 o2 y : In lambda [128; 192; 256]%N -> room m b o (type_size lambda) ->
  stands m b1 o1 (element lambda x) -> stands m b2 o2 (element lambda y) -> (x < 2 ^ lambda)%N -> (y < 2 ^ lambda)%N ->
  disjoint b1 o1 (type_size lambda) b o (type_size lambda) -> disjoint b2 o2 (type_size lambda) b o (type_size lambda) ->
  exists v m', returns (mul_of lambda) [VPtr b o; VPtr b1 o1; VPtr b2 o2] m v m' /\ stands m' b o (element lambda (Fields.bf_mul (field_for lambda) x y)) /\ unchanged m m' (within b o (type_size lambda)).
Proof.
  intros Hl R S1 S2 X1 X2 D1 D2. destruct (lambda_n _ Hl) as (n & Hn & ->). destruct (lamN_n n Hn) as (El & Ef & E8 & Efn & Ein & Et & Em & _). rewrite !(to_elb n _ Hn) in *. rewrite Et in *. rewrite El in X1, X2. rewrite Ef, Em.
  assert (Nz : (0 < 8 * N.of_nat (nw n))%N) by (clear; destruct n; cbn; lia). apply room_inb in R. apply sep_disjoint in D1, D2; try exact Nz.
  assert (Ez : ofN (8 * N.of_nat (nw n)) = 8 * Z.of_nat (nw n)) by lia. rewrite Ez in *. apply holds_stands in S1, S2.
  destruct (calls_returns _ _ _ _ (ref_mul n m b o b1 o1 x b2 o2 y Hn R S1 S2 X1 X2 D1 D2)) as (v & m' & Rt & Fr & Hh).
  exists v, m'. split; [exact Rt|]. split; [apply holds_stands, Hh|]. eapply frame_unchanged; [exact Fr|]. intros c q K. unfold at_ in K. unfold within. rewrite Ez. exact K.
Qed.
Lemma mul_64_ok lambda m b o b1 o1 x y : In lambda [128; 192; 256]%N -> room m b o (type_size lambda) ->
  stands m b1 o1 (element lambda x) -> (x < 2 ^ lambda)%N -> (y < 2 ^ 64)%N -> disjoint b1 o1 (type_size lambda) b o (type_size lambda) ->
  exists v m', returns (mul_64_of lambda) [VPtr b o; VPtr b1 o1; VInt (Z.of_N y)] m v m' /\ stands m' b o (element lambda (Fields.bf_mul (field_for lambda) x y)) /\ unchanged m m' (within b o (type_size lambda)).
Proof.
  intros Hl R S1 X1 X2 D1. destruct (lambda_n _ Hl) as (n & Hn & ->). destruct (lamN_n n Hn) as (El & Ef & E8 & Efn & Ein & Et & _ & Em & _). rewrite !(to_elb n _ Hn) in *. rewrite Et in *. rewrite El in X1. rewrite Ef, Em.
  assert (Nz : (0 < 8 * N.of_nat (nw n))%N) by (clear; destruct n; cbn; lia). apply room_inb in R. apply sep_disjoint in D1; try exact Nz.
  assert (Ez : ofN (8 * N.of_nat (nw n)) = 8 * Z.of_nat (nw n)) by lia. rewrite Ez in *. apply holds_stands in S1.
  assert (Eq : Fields.bf_mul_64 (fld n) x y = Fields.bf_mul (fld n) x y).
  { destruct (UHashProof.nb_8 _ Ein) as (_ & _ & Ok & _). apply FieldProof.bf_mul_64_eq; rewrite ?Efn, ?El; try assumption. clear; destruct n as [|[|n]]; discriminate. }
  rewrite <- Eq. destruct (calls_returns _ _ _ _ (ref_mul_64 n m b o b1 o1 x y Hn R S1 X1 X2 D1)) as (v & m' & Rt & Fr & Hh).
  exists v, m'. split; [exact Rt|]. split; [apply holds_stands, Hh|]. eapply frame_unchanged; [exact Fr|]. intros c q K. unfold at_ in K. unfold within. rewrite Ez. exact K.
Qed.
Lemma mul64_ok m x y : (x < 2 ^ 64)%N -> (y < 2 ^ 64)%N -> exists m', returns f_bf64_mul [VInt (Z.of_N x); VInt (Z.of_N y)] m (VInt (Z.of_N (Fields.bf_mul Fields.F64 x y))) m' /\ unchanged m m' (fun _ _ => False).
Proof.
  intros X Y. destruct (calls_returns _ _ _ _ (ref_mul64 m x y X Y)) as (v & m' & Rt & Fr & ->). exists m'. split; [exact Rt|]. eapply frame_unchanged; [exact Fr|]. intros b q K. exact K.
Qed.

Lemma gf_product lambda x y : In lambda [128; 192; 256]%N -> (x < 2 ^ lambda)%N -> (y < 2 ^ lambda)%N -> Poly.is_gf_product (gf_for lambda) x y (Fields.bf_mul (field_for lambda) x y).
Proof.
  intros Hl X Y. assert (G : In (field_for lambda, gf_for lambda) FieldSpec.fields /\ fst (gf_for lambda) = lambda) by (destruct Hl as [<-|[<-|[<-|[]]]]; split; cbn; auto 6).
  destruct G as [G E]. apply (FieldProps.mul_is_product_mod_f _ _ G x y); unfold FieldSpec.elt; rewrite E; assumption.
Qed.
Theorem mul_returns lambda m b o b1 o1 x b2 o2 y : In lambda [128; 192; 256]%N -> room m b o (type_size lambda) ->
  stands m b1 o1 (element lambda x) -> stands m b2 o2 (element lambda y) -> (x < 2 ^ lambda)%N -> (y < 2 ^ lambda)%N ->
  disjoint b1 o1 (type_size lambda) b o (type_size lambda) -> disjoint b2 o2 (type_size lambda) b o (type_size lambda) ->
  exists v m' r, returns (mul_of lambda) [VPtr b o; VPtr b1 o1; VPtr b2 o2] m v m' /\ Poly.is_gf_product (gf_for lambda) x y r /\
    stands m' b o (element lambda r) /\ unchanged m m' (within b o (type_size lambda)).
Proof.
  intros Hl R S1 S2 X1 X2 D1 D2. destruct (mul_ok lambda m b o b1 o1 x b2 o2 y Hl R S1 S2 X1 X2 D1 D2) as (v & m' & Rt & St & U). exists v, m', (Fields.bf_mul (field_for lambda) x y).
  split; [exact Rt|]. split; [apply gf_product; assumption|]. split; [exact St|exact U].
Qed.
Theorem mul_64_returns lambda m b o b1 o1 x y : In lambda [128; 192; 256]%N -> room m b o (type_size lambda) ->
  stands m b1 o1 (element lambda x) -> (x < 2 ^ lambda)%N -> (y < 2 ^ 64)%N -> disjoint b1 o1 (type_size lambda) b o (type_size lambda) ->
  exists v m' r, returns (mul_64_of lambda) [VPtr b o; VPtr b1 o1; VInt (Z.of_N y)] m v m' /\ Poly.is_gf_product (gf_for lambda) x y r /\
    stands m' b o (element lambda r) /\ unchanged m m' (within b o (type_size lambda)).
Proof.
  intros Hl R S1 X1 X2 D1. destruct (mul_64_ok lambda m b o b1 o1 x y Hl R S1 X1 X2 D1) as (v & m' & Rt & St & U). exists v, m', (Fields.bf_mul (field_for lambda) x y).
  split; [exact Rt|]. split; [|split; [exact St|exact U]]. apply gf_product; [exact Hl|exact X1|]. eapply N.lt_le_trans; [exact X2|]. apply N.pow_le_mono_r; [discriminate|]. destruct Hl as [<-|[<-|[<-|[]]]]; discriminate.
Qed.
Theorem mul64_returns m x y : (x < 2 ^ 64)%N -> (y < 2 ^ 64)%N ->
  exists m' r, returns f_bf64_mul [VInt (Z.of_N x); VInt (Z.of_N y)] m (VInt (Z.of_N r)) m' /\ Poly.is_gf_product Poly.gf64 x y r /\ unchanged m m' (fun _ _ => False).
Proof.
  intros X Y. destruct (mul64_ok m x y X Y) as (m' & Rt & U). exists m', (Fields.bf_mul Fields.F64 x y). split; [exact Rt|]. split; [|exact U].
  apply (FieldProps.mul_is_product_mod_f Fields.F64 Poly.gf64); [cbn; auto 6|exact X|exact Y].
Qed.

(** ** The ZK hash *)
Definition zst (F : Fields.field) (sd xs : list N) : UHash.zk_ctx :=
  let s := UHashSpec.block F sd 2 in let t := UHashSpec.num (UHashSpec.sub sd (3 * (Fields.f_n F / 8)) 8) in
  UHash.mkZk (poly_of F s xs) (poly_of F t xs) s t (UHashSpec.block F sd 0) (UHashSpec.block F sd 1).

Section Zst.
Variables (n : nat) (sd : list N).
Hypothesis Hn : (n <= 2)%nat.
Hypothesis Bs : Base.bytes_ok sd.
Local Notation F := (fld n).
Local Notation s_ := (UHashSpec.block F sd 2).
Local Notation t_ := (UHashSpec.num (UHashSpec.sub sd (3 * (Fields.f_n F / 8)) 8)).
Lemma F_ok : FieldProof.field_ok F. Proof. destruct (lamN_n n Hn) as (_ & _ & _ & _ & I & _). apply (UHashProof.nb_8 _ I). Qed.
Lemma s_lt : (s_ < 2 ^ Fields.f_n F)%N. Proof. apply UHashProof.block_lt; [apply lamN_n, Hn|exact Bs]. Qed.
Lemma t_lt64 : (t_ < 2 ^ 64)%N. Proof. apply UHashProof.num_lt64, Bs. Qed.
Lemma t_lt : (t_ < 2 ^ Fields.f_n F)%N.
Proof. eapply N.lt_le_trans; [exact t_lt64|]. apply N.pow_le_mono_r; [discriminate|]. destruct (lamN_n n Hn) as (_ & _ & _ & -> & _). clear; destruct n as [|[|k]]; discriminate. Qed.
Lemma poly_fold a xs : (a < 2 ^ Fields.f_n F)%N -> Forall (fun v => (v < 2 ^ Fields.f_n F)%N) xs -> poly_of F a xs = fold_left (fun h v => N.lxor (Fields.bf_mul F h a) v) xs 0%N.
Proof. intros A X. symmetry. apply UHashProof.horner; [exact F_ok|exact A|exact X]. Qed.
Lemma poly_lt a xs : (a < 2 ^ Fields.f_n F)%N -> Forall (fun v => (v < 2 ^ Fields.f_n F)%N) xs -> (poly_of F a xs < 2 ^ Fields.f_n F)%N.
Proof.
  intros A X. rewrite poly_fold by assumption. assert (H : (0 < 2 ^ Fields.f_n F)%N) by apply BaseProof.pow2_pos. revert H. generalize 0%N. induction X as [|v xs Hv X IH]; intros h H; [exact H|].
  cbn [fold_left]. apply IH. apply BaseProof.lxor_lt; [apply FieldProof.bf_mul_lt; [exact F_ok|exact H|exact A]|exact Hv].
Qed.
Lemma zst_update xs v : Forall (fun v => (v < 2 ^ Fields.f_n F)%N) xs -> (v < 2 ^ Fields.f_n F)%N -> UHash.zk_hash_update F (zst F sd xs) v = zst F sd (xs ++ [v]).
Proof.
  intros X V. assert (X' : Forall (fun v => (v < 2 ^ Fields.f_n F)%N) (xs ++ [v])) by (apply Forall_app; split; [exact X|constructor; [exact V|constructor]]).
  unfold zst, UHash.zk_hash_update. cbn [UHash.zk_h0 UHash.zk_h1 UHash.zk_s UHash.zk_t UHash.zk_r0 UHash.zk_r1]. cbv zeta.
  assert (St : forall a, (a < 2 ^ Fields.f_n F)%N -> poly_of F a (xs ++ [v]) = N.lxor (Fields.bf_mul F (poly_of F a xs) a) v).
  { intros a A. rewrite !poly_fold by assumption. rewrite fold_left_app. reflexivity. }
  rewrite (St _ s_lt), (St _ t_lt). rewrite FieldProof.bf_mul_64_eq; [reflexivity|exact F_ok| |apply poly_lt; [exact t_lt|exact X]|exact t_lt64].
  destruct (lamN_n n Hn) as (_ & _ & _ & -> & _). clear; destruct n as [|[|k]]; discriminate.
Qed.
Lemma zst_finalize xs x1 : UHash.zk_hash_finalize F (zst F sd xs) x1 = UHashSpec.to_bytes (Fields.f_n F / 8) (UHashSpec.zk_hash_spec F sd xs x1).
Proof. rewrite UHashProof.to_bytes_eq. reflexivity. Qed.
Lemma zst_init : (3 * (Fields.f_n F / 8) + 8 <= Base.lenN sd)%N -> UHash.zk_hash_init F sd = Base.Ok (zst F sd []).
Proof. intros L. apply UHashProof.zk_init_ok; [apply lamN_n, Hn|exact L]. Qed.
End Zst.

Lemma points_cell m b i t o : points m b i t o <-> (b < mnext m)%positive /\ 0 <= i < size m b /\ cell m b i = VPtr t o.
Proof.
  unfold points, size, cell. split.
  - intros (L & k & -> & I & G). auto.
  - intros (L & I & G). split; [exact L|]. destruct (PositiveMap.find b (mblocks m)) as [k|]; [|lia]. exists k. auto.
Qed.
Lemma object_cells m lambda c : is_object m lambda c -> cells m (at_ctx c) (at_h0 c) (at_h1 c) (at_s c) (at_t c) (at_sd c).
Proof.
  intros (_ & P0 & P1 & P2 & P3 & P4 & _). apply points_cell in P0, P1, P2, P3, P4. unfold cells, inb. repeat split; try (apply P0 || apply P1 || apply P2 || apply P3 || apply P4); lia.
Qed.
Lemma taken_at n m c bs os sd xs : (n <= 2)%nat -> Base.bytes_ok sd -> taken m (lamN n) c bs os sd xs <->
  is_object m (lamN n) c /\ Forall (fun x => x < 2 ^ lamN n)%N xs /\ zk_at n m (at_ctx c) (at_h0 c) (at_h1 c) (at_s c) (at_t c) (at_sd c) bs os (zst (fld n) sd xs).
Proof.
  intros Hn Bs. destruct (lamN_n n Hn) as (El & Ef & E8 & Efn & _). unfold taken, zk_at, zst. rewrite Ef. cbv zeta. cbn [UHash.zk_h0 UHash.zk_h1 UHash.zk_s UHash.zk_t]. rewrite !(to_elb n _ Hn), <- Efn.
  rewrite UHashProof.to_bytes_eq. change (N.to_nat 8) with 8%nat. rewrite points_cell. split.
  - intros (O & X & H0 & H1 & H2 & H3 & (L & I & G)). split; [exact O|]. split; [exact X|]. split; [eapply object_cells; exact O|]. apply holds_stands in H0, H1, H2, H3. repeat (split; [assumption|]).
    split; [unfold inb; lia|]. split; [exact G|]. rewrite <- El, <- Efn. pose proof (s_lt n sd Hn Bs). pose proof (t_lt n sd Hn Bs). pose proof (t_lt64 n sd Bs). repeat split; try assumption; apply poly_lt; assumption.
  - intros (O & X & C & H0 & H1 & H2 & H3 & (I1 & I2 & I3 & I4) & G & _). split; [exact O|]. split; [exact X|]. apply holds_stands in H0, H1, H2, H3. repeat (split; [assumption|]). split; [lia|exact G].
Qed.

Lemma object_kept m m' S lambda c : is_object m lambda c -> unchanged m m' S -> (forall q, ~ S (at_ctx c) q) -> is_object m' lambda c.
Proof.
  intros (N & P0 & P1 & P2 & P3 & P4 & R0 & R1 & R2 & R3 & R4) U X. split; [exact N|]. repeat (split; [eapply points_kept; [eassumption|exact U|apply X]|]).
  assert (Nz : type_size lambda <> 0%N) by (unfold type_size; destruct (lambda =? 128)%N; discriminate). split; [|split; [|split; [|split]]]; (eapply room_kept; [eassumption|assumption || discriminate|exact U]).
Qed.
Theorem taken_kept m m' S lambda c bs os sd xs : taken m lambda c bs os sd xs -> unchanged m m' S -> (forall b q, In b (at_ctx c :: members c) -> ~ S b q) -> taken m' lambda c bs os sd xs.
Proof.
  intros (O & X & H0 & H1 & H2 & H3 & H4) U K. assert (Nz : forall x, element lambda x <> []) by (intros x; unfold element, type_size; destruct (lambda =? 128)%N; discriminate).
  split; [eapply object_kept; [exact O|exact U|]; intros q; apply K; left; reflexivity|]. split; [exact X|]. cbv zeta.
  split; [eapply stands_kept; [exact H0|apply Nz|exact U|]; intros q _; apply K; cbn; auto 10|].
  split; [eapply stands_kept; [exact H1|apply Nz|exact U|]; intros q _; apply K; cbn; auto 10|].
  split; [eapply stands_kept; [exact H2|apply Nz|exact U|]; intros q _; apply K; cbn; auto 10|].
  split; [eapply stands_kept; [exact H3|discriminate|exact U|]; intros q _; apply K; cbn; auto 10|].
  eapply points_kept; [exact H4|exact U|]. apply K. cbn. auto 10.
Qed.

Theorem zk_init_returns lambda m c bs os sd : In lambda [128; 192; 256]%N -> is_object m lambda c -> stands m bs os sd -> Forall (fun b => (b < 256)%N) sd ->
  (3 * (lambda / 8) + 8 <= N.of_nat (length sd))%N -> ~ In bs (members c) ->
  exists v m', returns (init_of lambda) [VPtr (at_ctx c) 0; VPtr bs os] m v m' /\ taken m' lambda c bs os sd [] /\ unchanged m m' (fun b _ => In b (members c)).
Proof.
  intros Hl O S1 B1 L1 Nb. destruct (lambda_n _ Hl) as (n & Hn & ->). destruct (lamN_n n Hn) as (El & Ef & E8 & Efn & Ein & Et & _ & _ & Em & _). rewrite Em.
  pose proof (object_cells _ _ _ O) as Cl. pose proof O as (Nd & _ & _ & _ & _ & _ & R0 & R1 & R2 & R3 & R4). rewrite Et in *. apply room_inb in R0, R1, R2, R3, R4.
  assert (Ez : ofN (8 * N.of_nat (nw n)) = 8 * Z.of_nat (nw n)) by lia. rewrite Ez in *.
  destruct (calls_returns _ _ _ _ (ref_zk_init n m _ _ _ _ _ _ bs os sd _ Hn Cl Nd R0 R1 R2 R3 R4 (proj2 (holds_stands _ _ _ _) S1) B1 Nb (zst_init n sd Hn ltac:(rewrite Efn; exact L1)))) as (v & m' & Rt & Fr & Z).
  exists v, m'. split; [exact Rt|]. assert (U : unchanged m m' (fun b _ => In b (members c))) by (eapply frame_unchanged; [exact Fr|intros b q K; exact K]). split; [|exact U].
  apply (taken_at n m' c bs os sd [] Hn B1). split; [|split; [constructor|exact Z]]. eapply object_kept; [exact O|exact U|]. intros q K. inversion Nd as [|? ? Nc _]. apply Nc, K.
Qed.
Theorem zk_update_returns lambda m c bs os sd xs bv ov v : In lambda [128; 192; 256]%N -> taken m lambda c bs os sd xs -> Forall (fun b => (b < 256)%N) sd ->
  stands m bv ov (element lambda v) -> (v < 2 ^ lambda)%N -> ~ In bv [at_h0 c; at_h1 c] ->
  exists r m', returns (update_of lambda) [VPtr (at_ctx c) 0; VPtr bv ov] m r m' /\ taken m' lambda c bs os sd (xs ++ [v]) /\ unchanged m m' (fun b _ => In b [at_h0 c; at_h1 c]).
Proof.
  intros Hl T B1 S1 V Nb. destruct (lambda_n _ Hl) as (n & Hn & ->). destruct (lamN_n n Hn) as (El & Ef & E8 & Efn & Ein & Et & _ & _ & _ & Em & _). rewrite Em. rewrite (to_elb n _ Hn) in S1.
  apply (taken_at n m c bs os sd xs Hn B1) in T. destruct T as (O & X & Z). pose proof O as (Nd & _).
  destruct (calls_returns _ _ _ _ (ref_zk_update n m _ _ _ _ _ _ bs os _ bv ov v Hn Z Nd (proj2 (holds_stands _ _ _ _) S1) ltac:(rewrite <- El; exact V) Nb)) as (r & m' & Rt & Fr & Z').
  exists r, m'. split; [exact Rt|]. assert (U : unchanged m m' (fun b _ => In b [at_h0 c; at_h1 c])) by (eapply frame_unchanged; [exact Fr|intros b q K; exact K]). split; [|exact U].
  apply (taken_at n m' c bs os sd _ Hn B1). split; [|split; [apply Forall_app; split; [exact X|constructor; [exact V|constructor]]|]].
  - eapply object_kept; [exact O|exact U|]. intros q K. inversion Nd as [|? ? Nc _]. apply Nc. destruct K as [<-|[<-|[]]]; cbn; auto.
  - rewrite <- (zst_update n sd Hn B1 xs v); [exact Z'|rewrite Efn; exact X|rewrite Efn; exact V].
Qed.
Theorem zk_finalize_returns lambda m c bs os sd xs bh oh bx ox x1 : In lambda [128; 192; 256]%N -> taken m lambda c bs os sd xs -> stands m bs os sd -> Forall (fun b => (b < 256)%N) sd -> (2 * (lambda / 8) <= N.of_nat (length sd))%N ->
  stands m bx ox (element lambda x1) -> (x1 < 2 ^ lambda)%N -> room m bh oh (lambda / 8) -> ~ In bh (at_ctx c :: members c) ->
  disjoint bh oh (lambda / 8) bs os (N.of_nat (length sd)) -> disjoint bh oh (lambda / 8) bx ox (type_size lambda) ->
  exists r m', returns (finalize_of lambda) [VPtr bh oh; VPtr (at_ctx c) 0; VPtr bx ox] m r m' /\
    stands m' bh oh (UHashSpec.to_bytes (lambda / 8) (UHashSpec.zk_hash_spec (field_for lambda) sd xs x1)) /\ unchanged m m' (within bh oh (lambda / 8)).
Proof.
  intros Hl T Ss B1 L1 S1 V R Nb D1 D2. destruct (lambda_n _ Hl) as (n & Hn & ->). destruct (lamN_n n Hn) as (El & Ef & E8 & Efn & Ein & Et & _ & _ & _ & _ & Em). rewrite Em, Ef. rewrite (to_elb n _ Hn) in S1.
  apply (taken_at n m c bs os sd xs Hn B1) in T. destruct T as (O & X & Z). apply room_inb in R.
  assert (Pos : (0 < lamN n / 8)%N) by (clear; destruct n as [|[|k]]; reflexivity). assert (Pos' : (0 < 8 * N.of_nat (nw n))%N) by (clear; destruct n; cbn; lia).
  apply sep_disjoint in D1; [|lia|lia]. rewrite Et in D2. apply sep_disjoint in D2; [|lia|lia]. assert (Ez : ofN (8 * N.of_nat (nw n)) = 8 * Z.of_nat (nw n)) by lia. rewrite Ez in D2.
  assert (En : ofN (lamN n / 8) = nb n) by (rewrite E8; unfold nb; lia). rewrite En in *.
  assert (Nb' : ~ In bh [at_ctx c; at_h0 c; at_h1 c; at_sd c]) by (intros K; apply Nb; cbn in *; tauto).
  assert (Ld : forall i, (i < 2)%N -> Fields.bf_load (fld n) sd (i * (8 * N.of_nat (nq n))) = Base.Ok (UHashSpec.block (fld n) sd i)).
  { intros i Hi. unfold UHashSpec.block. rewrite Efn, E8. rewrite UHashProof.bf_load_block; rewrite Efn, E8; [reflexivity|]. rewrite E8 in L1. unfold Base.lenN. destruct i as [|[|p|]]; lia. }
  pose proof (Ld 0%N eq_refl) as Ld0. pose proof (Ld 1%N eq_refl) as Ld1. rewrite N.mul_0_l in Ld0. rewrite N.mul_1_l in Ld1.
  destruct (calls_returns _ _ _ _ (ref_zk_finalize n m _ _ _ _ _ _ bs os _ bh oh bx ox x1 sd Hn Z R Nb' (proj2 (holds_stands _ _ _ _) Ss) B1 Ld0 Ld1 D1 (proj2 (holds_stands _ _ _ _) S1) ltac:(rewrite <- El; exact V) D2)) as (r & m' & Rt & Fr & H).
  exists r, m'. split; [exact Rt|]. split.
  - apply holds_stands. rewrite zst_finalize, Efn in H. exact H.
  - eapply frame_unchanged; [exact Fr|]. intros b q K. unfold within. rewrite En. exact K.
Qed.
