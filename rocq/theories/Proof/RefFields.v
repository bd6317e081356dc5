(** What the translated functions on field elements compute: the operations on words of Limbs.v. *)
From Coq Require Import ZArith NArith List Bool FMapPositive Lia ZifyBool Arith.
From Verif Require Import Model.CtLang Model.CtNames Model.CtFields Model.CtProgram Proof.RefLogic Proof.RefTac Proof.RefBytes Proof.RefMem Proof.RefSe Proof.RefSx Proof.RefWord.
From Verif Require Model.Base Model.Fields Model.Limbs Proof.BaseProof Proof.WordProof.
Import ListNotations.
Local Open Scope Z_scope.

Definition okl (r : Base.res (list N)) : list N := match r with Base.Ok l => l | _ => [] end.
Fixpoint chunks {A} (n k : nat) (l : list A) : list (list A) := match k with O => [] | S k => firstn n l :: chunks n k (skipn n l) end.
Notation Vec := Limbs.Vectors.
Notation FF := Fields.F128.
(** The meaning of the function symbols: 10 n + i for field number n. *)
Definition nw (n : nat) : nat := match n with O => 2%nat | _ => 4%nat end.
Definition fld (n : nat) : Fields.field := match n with O => Fields.F128 | 1%nat => Fields.F192 | _ => Fields.F256 end.
Definition fop (n i : nat) (xs : list N) : list N :=
  let w := nw n in
  match i with
  | 0%nat => okl (Limbs.words_mul Vec (fld n) (firstn w xs) (skipn w xs))
  | 1%nat => okl (Limbs.words_mul_64 Vec (fld n) (firstn w xs) (nth w xs 0%N))
  | 2%nat => okl (Limbs.words_dbl Vec (fld n) xs)
  | 3%nat => okl (Limbs.words_sum_poly Vec (fld n) (chunks w (N.to_nat (Fields.f_n (fld n))) xs) 0)
  | 4%nat => okl (Limbs.words_byte_combine Vec (fld n) (chunks w 8 xs) 0)
  | 5%nat => okl (Limbs.words_byte_combine_bits Vec (fld n) (nth 0 xs 0%N))
  | _ => []
  end.
Definition P (f : nat) (xs : list N) : list N :=
  match f with 30%nat => [Limbs.word64_mul (nth 0 xs 0%N) (nth 1 xs 0%N)] | _ => fop (f / 10) (f mod 10) xs end.
Notation phi := (phi_of P).
Definition ww (n : nat) : list nat := repeat 8%nat (nw n).
Definition sm_mul (n : nat) : summary := Sum (Some (ww n)) [PIn (ww n); PIn (ww n)] (10 * n).
Definition sm_mul_64 (n : nat) : summary := Sum (Some (ww n)) [PIn (ww n); PInt] (10 * n + 1).
Definition sm_dbl (n : nat) : summary := Sum (Some (ww n)) [PIn (ww n)] (10 * n + 2).

Definition wloc (z : bool) (k n : nat) : loc sx := Loc z false (8 * Z.of_nat n) (var_ps k 0 (repeat 8%nat n)).
Definition x64 o a b := SB o u64 a b.
Definition cast x := SU OCast u64 x.
Definition mask x j := SU ONeg u64 (x64 OAnd (x64 OShr x (SC j)) (SC 1)).
Definition sm_mul64 : summary := Sum None [PInt; PInt] 30.

Ltac words Fx := let H := fresh in pose proof (F2_length _ _ _ Fx) as H; cbn [length widths sm_pars sm_mul sm_mul_64 sm_mul64 sm_dbl ww nw repeat app] in H;
  repeat match type of H with
  | S _ = ?r => match r with context [length ?l] => destruct l; [discriminate H|cbn [length] in H; apply eq_add_S in H] end
  | O = ?r => match r with context [length ?l] => destruct l; [clear H|discriminate H] end
  end.
Ltac below k := do 4 (destruct k as [|k]; [reflexivity|]); exfalso; cbn in *; lia.
Definition entry0 (fn : func) (sm : summary) : gst sx := match entry_st fn sm with Some t => t | None => St [] [] [] [] end.
Definition body_sg (sums : list (positive * summary)) (fn : func) (sm : summary) : list sx :=
  match whole sums 200 (entry0 fn sm) (fbody fn) (match sm_out sm with Some ws => ws | None => [] end) with Some sg => sg | None => [] end.

(** ** Doubling *)
Lemma code_bf128_dbl : PositiveMap.find f_bf128_dbl code = Some c_bf128_dbl. Proof. vm_compute. reflexivity. Qed.
Definition dbl128 : list sx := Eval vm_compute in body_sg [] c_bf128_dbl (sm_dbl 0).
Lemma ref_bf128_dbl : spec_ok phi (f_bf128_dbl, sm_dbl 0).
Proof.
  eapply (line_out P [] f_bf128_dbl (sm_dbl 0) (ww 0) c_bf128_dbl _ 200 dbl128); [constructor|reflexivity|exact code_bf128_dbl|reflexivity|reflexivity|vm_compute; reflexivity|].
  intros xs Fx j Hj. words Fx. below j.
Qed.
Lemma code_bf192_dbl : PositiveMap.find f_bf192_dbl code = Some c_bf192_dbl. Proof. vm_compute. reflexivity. Qed.
Definition dbl192 : list sx := Eval vm_compute in body_sg [] c_bf192_dbl (sm_dbl 1).
Lemma ref_bf192_dbl : spec_ok phi (f_bf192_dbl, sm_dbl 1).
Proof.
  eapply (line_out P [] f_bf192_dbl (sm_dbl 1) (ww 1) c_bf192_dbl _ 200 dbl192); [constructor|reflexivity|exact code_bf192_dbl|reflexivity|reflexivity|vm_compute; reflexivity|].
  intros xs Fx j Hj. words Fx. below j.
Qed.
Lemma code_bf256_dbl : PositiveMap.find f_bf256_dbl code = Some c_bf256_dbl. Proof. vm_compute. reflexivity. Qed.
Definition dbl256 : list sx := Eval vm_compute in body_sg [] c_bf256_dbl (sm_dbl 2).
Lemma ref_bf256_dbl : spec_ok phi (f_bf256_dbl, sm_dbl 2).
Proof.
  eapply (line_out P [] f_bf256_dbl (sm_dbl 2) (ww 2) c_bf256_dbl _ 200 dbl256); [constructor|reflexivity|exact code_bf256_dbl|reflexivity|reflexivity|vm_compute; reflexivity|].
  intros xs Fx j Hj. words Fx. below j.
Qed.
(** multiplication after some steps *)
Definition mul_to (n : nat) (lhs rhs : list N) (k : N) : Base.res (list N * list N) :=
  Base.bind (Limbs.words_bit_mask rhs 0) (fun m0 =>
  Base.foldM (fun '(lhs, result) idx => Base.bind (Limbs.words_dbl Vec (fld n) lhs) (fun lhs => Base.bind (Limbs.words_bit_mask rhs idx) (fun m =>
     Base.Ok (lhs, Limbs.words_add result (Limbs.words_and_64 lhs m))))) (Base.Nfromto 1 k) (lhs, Limbs.words_and_64 lhs m0)).
Lemma mul_to_S n lhs rhs k : (1 <= k)%N -> mul_to n lhs rhs (k + 1) =
  Base.bind (mul_to n lhs rhs k) (fun s => Base.bind (Limbs.words_dbl Vec (fld n) (fst s)) (fun a => Base.bind (Limbs.words_bit_mask rhs k) (fun m =>
     Base.Ok (a, Limbs.words_add (snd s) (Limbs.words_and_64 a m))))).
Proof.
  intros H. unfold mul_to. rewrite BaseProof.Nfromto_succ by exact H. destruct (Limbs.words_bit_mask rhs 0); cbn [Base.bind]; try reflexivity.
  rewrite BaseProof.foldM_app. destruct (Base.foldM _ (Base.Nfromto 1 k) _) as [[a' r']|]; cbn [Base.bind]; [|reflexivity]. cbn [Base.foldM fst snd].
  destruct (Limbs.words_dbl Vec (fld n) a'); cbn [Base.bind]; try reflexivity. destruct (Limbs.words_bit_mask rhs k); reflexivity.
Qed.
Lemma mul_to_end n xs a r : mul_to n (firstn (nw n) xs) (skipn (nw n) xs) (Fields.f_n (fld n)) = Base.Ok (a, r) -> fop n 0 xs = r.
Proof.
  intros H. assert (E : fop n 0 xs = okl (Base.bind (mul_to n (firstn (nw n) xs) (skipn (nw n) xs) (Fields.f_n (fld n))) (fun s => Base.Ok (snd s)))).
  { unfold mul_to, fop, Limbs.words_mul. destruct (Limbs.words_bit_mask (skipn (nw n) xs) 0); reflexivity. }
  rewrite E, H. reflexivity.
Qed.
Lemma mask_at rhs i : 0 <= i -> (Z.to_nat (i / 64) < length rhs)%nat ->
  Limbs.words_bit_mask rhs (Z.to_N i) = Base.Ok (Limbs.neg64 (N.land (N.shiftr (nth (Z.to_nat (i / 64)) rhs 0%N) (Z.to_N (i mod 64))) 1)).
Proof.
  intros H L. unfold Limbs.words_bit_mask. assert (E : (Z.to_N i / 64)%N = Z.to_N (i / 64)) by lia. assert (E' : (Z.to_N i mod 64)%N = Z.to_N (i mod 64)) by lia.
  rewrite E, E'. rewrite (BaseProof.aget_ok _ _ 0%N) by (unfold Base.lenN; lia). cbn [Base.bind]. unfold BaseProof.nthN. do 5 f_equal. lia.
Qed.

(** the product of [e] with a bit, added to the words from variable [s] on *)
Definition acc_bit (w s : nat) (dbl : list sx) (m : sx) : list sx := map (fun k => cast (x64 OXor (SV (s + k)) (x64 OAnd (nth k dbl (SC 0)) m))) (seq 0 w).
Definition vars (a w : nat) : list sx := map SV (seq a w).
Definition and_bit (w : nat) (m : sx) : list sx := map (fun k => cast (x64 OAnd (SV k) m)) (seq 0 w).

Lemma code_bf128_mul : PositiveMap.find f_bf128_mul code = Some c_bf128_mul. Proof. vm_compute. reflexivity. Qed.
Definition T_mul128 (i : Z) : gst sx :=
  St [(1%positive, GPtr 0 0); (4%positive, GPtr 3 0); (5%positive, GPtr 4 0); (6%positive, GPtr 5 0); (10%positive, GInt (SC i))] [] []
  [Loc false false 16 []; Loc false true 16 []; Loc false true 16 []; wloc true 0 2; wloc true 4 2; wloc true 2 2].
Definition y_mul128 : loopy := Loopy 11 1 128 T_mul128
  (vars 0 2 ++ and_bit 2 (mask (SV 2) 0) ++ vars 2 2)
  (fun i => dbl128 ++ acc_bit 2 2 dbl128 (mask (SV (4 + Z.to_nat (i / 64))) (i mod 64)) ++ vars 4 2)
  [(3%nat, 0, 16); (5%nat, 0, 16)] (vars 2 2).
Lemma ref_bf128_mul : spec_ok phi (f_bf128_mul, sm_mul 0).
Proof.
  eapply (loop_out P [] f_bf128_mul (sm_mul 0) (ww 0) c_bf128_mul _ 200 6 y_mul128
    (fun xs i l => exists a r, mul_to 0 (firstn 2 xs) (skipn 2 xs) (Z.to_N i) = Base.Ok (a, r) /\ length a = 2%nat /\ length r = 2%nat /\ l = a ++ r ++ skipn 2 xs));
    [constructor|reflexivity|exact code_bf128_mul|reflexivity|reflexivity|discriminate|reflexivity|reflexivity|vm_compute; reflexivity| | |].
  - intros xs Fx. words Fx. eexists [_; _], [_; _]. split; [reflexivity|]. split; [reflexivity|]. split; [reflexivity|]. reflexivity.
  - intros xs i l Fx Hi Sl (a & r & E & La & Lr & ->). cbn [y_mul128 y_a y_b] in Hi. words Fx. destruct a as [|a0 [|a1 []]]; try discriminate La. destruct r as [|r0 [|r1 []]]; try discriminate Lr.
    replace (Z.to_N (i + 1)) with (Z.to_N i + 1)%N by lia. rewrite mul_to_S, E by lia. cbn [Base.bind fst snd firstn skipn app] in *.
    rewrite mask_at by (cbn [length]; lia). eexists [_; _], [_; _]. split; [reflexivity|]. split; [reflexivity|]. split; [reflexivity|]. reflexivity.
  - intros xs l Fx Sl (a & r & E & La & Lr & ->) j Hj. change (P (sm_fid (sm_mul 0)) xs) with (fop 0 0 xs). rewrite (mul_to_end 0 xs a r E). words Fx.
    destruct a as [|a0 [|a1 []]]; try discriminate La. destruct r as [|r0 [|r1 []]]; try discriminate Lr. below j.
Qed.

Lemma code_bf192_mul : PositiveMap.find f_bf192_mul code = Some c_bf192_mul. Proof. vm_compute. reflexivity. Qed.
Definition T_mul192 (i : Z) : gst sx :=
  St [(1%positive, GPtr 0 0); (4%positive, GPtr 3 0); (5%positive, GPtr 4 0); (6%positive, GPtr 5 0); (12%positive, GInt (SC i))] [] []
  [Loc false false 32 []; Loc false true 32 []; Loc false true 32 []; wloc true 0 4; wloc true 8 4; wloc true 4 4].
Definition y_mul192 : loopy := Loopy 15 1 192 T_mul192
  (vars 0 4 ++ and_bit 4 (mask (SV 4) 0) ++ vars 4 4)
  (fun i => dbl192 ++ acc_bit 4 4 dbl192 (mask (SV (8 + Z.to_nat (i / 64))) (i mod 64)) ++ vars 8 4)
  [(3%nat, 0, 32); (5%nat, 0, 32)] (vars 4 4).
Lemma ref_bf192_mul : spec_ok phi (f_bf192_mul, sm_mul 1).
Proof.
  eapply (loop_out P [] f_bf192_mul (sm_mul 1) (ww 1) c_bf192_mul _ 200 6 y_mul192
    (fun xs i l => exists a r, mul_to 1 (firstn 4 xs) (skipn 4 xs) (Z.to_N i) = Base.Ok (a, r) /\ length a = 4%nat /\ length r = 4%nat /\ l = a ++ r ++ skipn 4 xs));
    [constructor|reflexivity|exact code_bf192_mul|reflexivity|reflexivity|discriminate|reflexivity|reflexivity|vm_compute; reflexivity| | |].
  - intros xs Fx. words Fx. eexists [_; _; _; _], [_; _; _; _]. split; [reflexivity|]. split; [reflexivity|]. split; [reflexivity|]. reflexivity.
  - intros xs i l Fx Hi Sl (a & r & E & La & Lr & ->). cbn [y_mul192 y_a y_b] in Hi. words Fx. destruct a as [|a0 [|a1 [|a2 [|a3 []]]]]; try discriminate La. destruct r as [|r0 [|r1 [|r2 [|r3 []]]]]; try discriminate Lr.
    replace (Z.to_N (i + 1)) with (Z.to_N i + 1)%N by lia. rewrite mul_to_S, E by lia. cbn [Base.bind fst snd firstn skipn app] in *.
    rewrite mask_at by (cbn [length]; lia). eexists [_; _; _; _], [_; _; _; _]. split; [reflexivity|]. split; [reflexivity|]. split; [reflexivity|]. reflexivity.
  - intros xs l Fx Sl (a & r & E & La & Lr & ->) j Hj. change (P (sm_fid (sm_mul 1)) xs) with (fop 1 0 xs). rewrite (mul_to_end 1 xs a r E). words Fx.
    destruct a as [|a0 [|a1 [|a2 [|a3 []]]]]; try discriminate La. destruct r as [|r0 [|r1 [|r2 [|r3 []]]]]; try discriminate Lr. below j.
Qed.

Lemma code_bf256_mul : PositiveMap.find f_bf256_mul code = Some c_bf256_mul. Proof. vm_compute. reflexivity. Qed.
Definition T_mul256 (i : Z) : gst sx :=
  St [(1%positive, GPtr 0 0); (4%positive, GPtr 3 0); (5%positive, GPtr 4 0); (6%positive, GPtr 5 0); (7%positive, GPtr 6 0); (13%positive, GInt (SC i))] [] []
  [Loc false false 32 []; Loc false true 32 []; Loc false true 32 []; wloc true 0 4; wloc true 8 4; Loc true false 32 [PI 0 8 (SC 1061); PI 8 8 (SC 0); PI 16 8 (SC 0); PI 24 8 (SC 0)]; wloc true 4 4].
Definition y_mul256 : loopy := Loopy 17 1 256 T_mul256
  (vars 0 4 ++ and_bit 4 (mask (SV 4) 0) ++ vars 4 4)
  (fun i => dbl256 ++ acc_bit 4 4 dbl256 (mask (SV (8 + Z.to_nat (i / 64))) (i mod 64)) ++ vars 8 4)
  [(3%nat, 0, 32); (6%nat, 0, 32)] (vars 4 4).
Lemma ref_bf256_mul : spec_ok phi (f_bf256_mul, sm_mul 2).
Proof.
  eapply (loop_out P [] f_bf256_mul (sm_mul 2) (ww 2) c_bf256_mul _ 200 7 y_mul256
    (fun xs i l => exists a r, mul_to 2 (firstn 4 xs) (skipn 4 xs) (Z.to_N i) = Base.Ok (a, r) /\ length a = 4%nat /\ length r = 4%nat /\ l = a ++ r ++ skipn 4 xs));
    [constructor|reflexivity|exact code_bf256_mul|reflexivity|reflexivity|discriminate|reflexivity|reflexivity|vm_compute; reflexivity| | |].
  - intros xs Fx. words Fx. eexists [_; _; _; _], [_; _; _; _]. split; [reflexivity|]. split; [reflexivity|]. split; [reflexivity|]. reflexivity.
  - intros xs i l Fx Hi Sl (a & r & E & La & Lr & ->). cbn [y_mul256 y_a y_b] in Hi. words Fx. destruct a as [|a0 [|a1 [|a2 [|a3 []]]]]; try discriminate La. destruct r as [|r0 [|r1 [|r2 [|r3 []]]]]; try discriminate Lr.
    replace (Z.to_N (i + 1)) with (Z.to_N i + 1)%N by lia. rewrite mul_to_S, E by lia. cbn [Base.bind fst snd firstn skipn app] in *.
    rewrite mask_at by (cbn [length]; lia). eexists [_; _; _; _], [_; _; _; _]. split; [reflexivity|]. split; [reflexivity|]. split; [reflexivity|]. reflexivity.
  - intros xs l Fx Sl (a & r & E & La & Lr & ->) j Hj. change (P (sm_fid (sm_mul 2)) xs) with (fop 2 0 xs). rewrite (mul_to_end 2 xs a r E). words Fx.
    destruct a as [|a0 [|a1 [|a2 [|a3 []]]]]; try discriminate La. destruct r as [|r0 [|r1 [|r2 [|r3 []]]]]; try discriminate Lr. below j.
Qed.

(** ** Multiplication by an element of GF(2^64) *)
Definition mul_64_to (n : nat) (lhs : list N) (rhs k : N) : Base.res (list N * list N) :=
  Base.foldM (fun '(lhs, result) idx => Base.bind (Limbs.words_dbl Vec (fld n) lhs) (fun lhs =>
     Base.Ok (lhs, Limbs.words_add result (Limbs.words_and_64 lhs (Limbs.bf64_bit_to_mask rhs idx))))) (Base.Nfromto 1 k) (lhs, Limbs.words_and_64 lhs (Limbs.bf64_bit_to_mask rhs 0)).
Lemma mul_64_to_S n lhs rhs k : (1 <= k)%N -> mul_64_to n lhs rhs (k + 1) =
  Base.bind (mul_64_to n lhs rhs k) (fun s => Base.bind (Limbs.words_dbl Vec (fld n) (fst s)) (fun a =>
     Base.Ok (a, Limbs.words_add (snd s) (Limbs.words_and_64 a (Limbs.bf64_bit_to_mask rhs k))))).
Proof.
  intros H. unfold mul_64_to. rewrite BaseProof.Nfromto_succ by exact H.
  rewrite BaseProof.foldM_app. destruct (Base.foldM _ (Base.Nfromto 1 k) _) as [[a' r']|]; cbn [Base.bind]; [|reflexivity]. cbn [Base.foldM fst snd].
  destruct (Limbs.words_dbl Vec (fld n) a'); reflexivity.
Qed.
Lemma mul_64_to_end n xs a r : mul_64_to n (firstn (nw n) xs) (nth (nw n) xs 0%N) 64 = Base.Ok (a, r) -> fop n 1 xs = r.
Proof.
  intros H. assert (E : fop n 1 xs = okl (Base.bind (mul_64_to n (firstn (nw n) xs) (nth (nw n) xs 0%N) 64) (fun s => Base.Ok (snd s)))) by reflexivity.
  rewrite E, H. reflexivity.
Qed.

Lemma code_bf128_mul_64 : PositiveMap.find f_bf128_mul_64 code = Some c_bf128_mul_64. Proof. vm_compute. reflexivity. Qed.
Definition T_mul_64_128 (i : Z) : gst sx :=
  St [(1%positive, GPtr 0 0); (3%positive, GInt (SV 4)); (4%positive, GPtr 2 0); (5%positive, GPtr 3 0); (9%positive, GInt (SC i))] [] []
  [Loc false false 16 []; Loc false true 16 []; wloc true 0 2; wloc true 2 2].
Definition y_mul_64_128 : loopy := Loopy 9 1 64 T_mul_64_128
  (vars 0 2 ++ and_bit 2 (mask (SV 2) 0) ++ [SV 2])
  (fun i => dbl128 ++ acc_bit 2 2 dbl128 (mask (SV 4) i) ++ [SV 4])
  [(2%nat, 0, 16); (3%nat, 0, 16)] (vars 2 2).
Lemma ref_bf128_mul_64 : spec_ok phi (f_bf128_mul_64, sm_mul_64 0).
Proof.
  eapply (loop_out P [] f_bf128_mul_64 (sm_mul_64 0) (ww 0) c_bf128_mul_64 _ 200 4 y_mul_64_128
    (fun xs i l => exists a r, mul_64_to 0 (firstn 2 xs) (nth 2 xs 0%N) (Z.to_N i) = Base.Ok (a, r) /\ length a = 2%nat /\ length r = 2%nat /\ l = a ++ r ++ [nth 2 xs 0%N]));
    [constructor|reflexivity|exact code_bf128_mul_64|reflexivity|reflexivity|discriminate|reflexivity|reflexivity|vm_compute; reflexivity| | |].
  - intros xs Fx. words Fx. eexists [_; _], [_; _]. split; [reflexivity|]. split; [reflexivity|]. split; [reflexivity|]. reflexivity.
  - intros xs i l Fx Hi Sl (a & r & E & La & Lr & ->). cbn [y_mul_64_128 y_a y_b] in Hi. words Fx. destruct a as [|a0 [|a1 []]]; try discriminate La. destruct r as [|r0 [|r1 []]]; try discriminate Lr.
    replace (Z.to_N (i + 1)) with (Z.to_N i + 1)%N by lia. rewrite mul_64_to_S, E by lia. cbn [Base.bind fst snd firstn skipn app] in *.
    eexists [_; _], [_; _]. split; [reflexivity|]. split; [reflexivity|]. split; [reflexivity|]. reflexivity.
  - intros xs l Fx Sl (a & r & E & La & Lr & ->) j Hj. change (P (sm_fid (sm_mul_64 0)) xs) with (fop 0 1 xs). rewrite (mul_64_to_end 0 xs a r E). words Fx.
    destruct a as [|a0 [|a1 []]]; try discriminate La. destruct r as [|r0 [|r1 []]]; try discriminate Lr. below j.
Qed.

Lemma code_bf192_mul_64 : PositiveMap.find f_bf192_mul_64 code = Some c_bf192_mul_64. Proof. vm_compute. reflexivity. Qed.
Definition T_mul_64_192 (i : Z) : gst sx :=
  St [(1%positive, GPtr 0 0); (3%positive, GInt (SV 8)); (4%positive, GPtr 2 0); (5%positive, GPtr 3 0); (11%positive, GInt (SC i))] [] []
  [Loc false false 32 []; Loc false true 32 []; wloc true 0 4; wloc true 4 4].
Definition y_mul_64_192 : loopy := Loopy 13 1 64 T_mul_64_192
  (vars 0 4 ++ and_bit 4 (mask (SV 4) 0) ++ [SV 4])
  (fun i => dbl192 ++ acc_bit 4 4 dbl192 (mask (SV 8) i) ++ [SV 8])
  [(2%nat, 0, 32); (3%nat, 0, 32)] (vars 4 4).
Lemma ref_bf192_mul_64 : spec_ok phi (f_bf192_mul_64, sm_mul_64 1).
Proof.
  eapply (loop_out P [] f_bf192_mul_64 (sm_mul_64 1) (ww 1) c_bf192_mul_64 _ 200 4 y_mul_64_192
    (fun xs i l => exists a r, mul_64_to 1 (firstn 4 xs) (nth 4 xs 0%N) (Z.to_N i) = Base.Ok (a, r) /\ length a = 4%nat /\ length r = 4%nat /\ l = a ++ r ++ [nth 4 xs 0%N]));
    [constructor|reflexivity|exact code_bf192_mul_64|reflexivity|reflexivity|discriminate|reflexivity|reflexivity|vm_compute; reflexivity| | |].
  - intros xs Fx. words Fx. eexists [_; _; _; _], [_; _; _; _]. split; [reflexivity|]. split; [reflexivity|]. split; [reflexivity|]. reflexivity.
  - intros xs i l Fx Hi Sl (a & r & E & La & Lr & ->). cbn [y_mul_64_192 y_a y_b] in Hi. words Fx. destruct a as [|a0 [|a1 [|a2 [|a3 []]]]]; try discriminate La. destruct r as [|r0 [|r1 [|r2 [|r3 []]]]]; try discriminate Lr.
    replace (Z.to_N (i + 1)) with (Z.to_N i + 1)%N by lia. rewrite mul_64_to_S, E by lia. cbn [Base.bind fst snd firstn skipn app] in *.
    eexists [_; _; _; _], [_; _; _; _]. split; [reflexivity|]. split; [reflexivity|]. split; [reflexivity|]. reflexivity.
  - intros xs l Fx Sl (a & r & E & La & Lr & ->) j Hj. change (P (sm_fid (sm_mul_64 1)) xs) with (fop 1 1 xs). rewrite (mul_64_to_end 1 xs a r E). words Fx.
    destruct a as [|a0 [|a1 [|a2 [|a3 []]]]]; try discriminate La. destruct r as [|r0 [|r1 [|r2 [|r3 []]]]]; try discriminate Lr. below j.
Qed.

Lemma code_bf256_mul_64 : PositiveMap.find f_bf256_mul_64 code = Some c_bf256_mul_64. Proof. vm_compute. reflexivity. Qed.
Definition T_mul_64_256 (i : Z) : gst sx :=
  St [(1%positive, GPtr 0 0); (3%positive, GInt (SV 8)); (4%positive, GPtr 2 0); (5%positive, GPtr 3 0); (6%positive, GPtr 4 0); (12%positive, GInt (SC i))] [] []
  [Loc false false 32 []; Loc false true 32 []; wloc true 0 4; Loc true false 32 [PI 0 8 (SC 1061); PI 8 8 (SC 0); PI 16 8 (SC 0); PI 24 8 (SC 0)]; wloc true 4 4].
Definition y_mul_64_256 : loopy := Loopy 15 1 64 T_mul_64_256
  (vars 0 4 ++ and_bit 4 (mask (SV 4) 0) ++ [SV 4])
  (fun i => dbl256 ++ acc_bit 4 4 dbl256 (mask (SV 8) i) ++ [SV 8])
  [(2%nat, 0, 32); (4%nat, 0, 32)] (vars 4 4).
Lemma ref_bf256_mul_64 : spec_ok phi (f_bf256_mul_64, sm_mul_64 2).
Proof.
  eapply (loop_out P [] f_bf256_mul_64 (sm_mul_64 2) (ww 2) c_bf256_mul_64 _ 200 5 y_mul_64_256
    (fun xs i l => exists a r, mul_64_to 2 (firstn 4 xs) (nth 4 xs 0%N) (Z.to_N i) = Base.Ok (a, r) /\ length a = 4%nat /\ length r = 4%nat /\ l = a ++ r ++ [nth 4 xs 0%N]));
    [constructor|reflexivity|exact code_bf256_mul_64|reflexivity|reflexivity|discriminate|reflexivity|reflexivity|vm_compute; reflexivity| | |].
  - intros xs Fx. words Fx. eexists [_; _; _; _], [_; _; _; _]. split; [reflexivity|]. split; [reflexivity|]. split; [reflexivity|]. reflexivity.
  - intros xs i l Fx Hi Sl (a & r & E & La & Lr & ->). cbn [y_mul_64_256 y_a y_b] in Hi. words Fx. destruct a as [|a0 [|a1 [|a2 [|a3 []]]]]; try discriminate La. destruct r as [|r0 [|r1 [|r2 [|r3 []]]]]; try discriminate Lr.
    replace (Z.to_N (i + 1)) with (Z.to_N i + 1)%N by lia. rewrite mul_64_to_S, E by lia. cbn [Base.bind fst snd firstn skipn app] in *.
    eexists [_; _; _; _], [_; _; _; _]. split; [reflexivity|]. split; [reflexivity|]. split; [reflexivity|]. reflexivity.
  - intros xs l Fx Sl (a & r & E & La & Lr & ->) j Hj. change (P (sm_fid (sm_mul_64 2)) xs) with (fop 2 1 xs). rewrite (mul_64_to_end 2 xs a r E). words Fx.
    destruct a as [|a0 [|a1 [|a2 [|a3 []]]]]; try discriminate La. destruct r as [|r0 [|r1 [|r2 [|r3 []]]]]; try discriminate Lr. below j.
Qed.

(** ** GF(2^64) *)
Definition mul64_to (lhs rhs k : N) : N * N :=
  fold_left (fun '(lhs, result) idx =>
            let mask := Limbs.neg64 (N.land (N.shiftr lhs 63) 1) in
            let lhs := N.lxor (Limbs.shl64 lhs 1) (N.land mask Fields.bf64_modulus) in
            (lhs, N.lxor result (N.land (Limbs.neg64 (N.land (N.shiftr rhs idx) 1)) lhs)))
         (Base.Nfromto 1 k) (lhs, N.land (Limbs.neg64 (N.land rhs 1)) lhs).
Lemma mul64_to_S lhs rhs k : (1 <= k)%N -> mul64_to lhs rhs (k + 1) =
  let '(lhs, result) := mul64_to lhs rhs k in
  let lhs := N.lxor (Limbs.shl64 lhs 1) (N.land (Limbs.neg64 (N.land (N.shiftr lhs 63) 1)) Fields.bf64_modulus) in
  (lhs, N.lxor result (N.land (Limbs.neg64 (N.land (N.shiftr rhs k) 1)) lhs)).
Proof. intros H. unfold mul64_to. rewrite BaseProof.Nfromto_succ by exact H. rewrite fold_left_app. cbn [fold_left]. destruct (fold_left _ _ _) as [a r]. reflexivity. Qed.
Lemma word64_mul_to a b : Limbs.word64_mul a b = snd (mul64_to a b 64).
Proof. unfold Limbs.word64_mul, mul64_to. reflexivity. Qed.
Lemma code_bf64_mul : PositiveMap.find f_bf64_mul code = Some c_bf64_mul. Proof. vm_compute. reflexivity. Qed.
Definition y_mul64 : loopy := Loopy 2 1 64 (fun i => St [(1%positive, GInt (SV 0)); (2%positive, GInt (SV 2)); (3%positive, GInt (SV 1)); (4%positive, GInt (SC i))] [] [] [])
  [SV 0; x64 OAnd (SU ONeg u64 (x64 OAnd (SV 1) (SC 1))) (SV 0); SV 1]
  (fun i => let d := x64 OXor (x64 OShl (SV 0) (SC 1)) (x64 OAnd (mask (SV 0) 63) (SC 27)) in [d; x64 OXor (SV 1) (x64 OAnd (mask (SV 2) i) d); SV 2])
  [] [].
Lemma ref_bf64_mul : spec_ok phi (f_bf64_mul, sm_mul64).
Proof.
  eapply (loop_val P [] f_bf64_mul sm_mul64 c_bf64_mul _ 200 0 y_mul64 (SV 1)
    (fun xs i l => let '(a, r) := mul64_to (nth 0 xs 0%N) (nth 1 xs 0%N) (Z.to_N i) in l = [a; r; nth 1 xs 0%N]));
    [constructor|reflexivity|exact code_bf64_mul|reflexivity|reflexivity|discriminate|reflexivity|reflexivity|vm_compute; reflexivity| | |].
  - intros xs Fx. words Fx. reflexivity.
  - intros xs i l Fx Hi Sl. cbn [y_mul64 y_a y_b] in Hi. words Fx. cbn [nth]. replace (Z.to_N (i + 1)) with (Z.to_N i + 1)%N by lia. rewrite mul64_to_S by lia.
    destruct (mul64_to n n0 (Z.to_N i)) as [a r]. intros ->. reflexivity.
  - intros xs l Fx Sl. words Fx. cbn [nth]. cbn [sm_fid sm_mul64]. unfold P. cbn [nth]. rewrite word64_mul_to.
    replace (Z.to_N (y_b y_mul64)) with 64%N by reflexivity. destruct (mul64_to n n0 64) as [a r]. intros ->. reflexivity.
Qed.
