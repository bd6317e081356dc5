(** What the translated VOLE hash computes. *)
From Coq Require Import ZArith NArith List Bool FMapPositive Lia ZifyBool ZifyNat ZifyN Arith.
From Verif Require Import Model.CtLang Model.CtNames Model.CtFields Model.CtZkHash Model.CtProgram Proof.RefLogic Proof.RefTac Proof.RefMem Proof.RefSe Proof.RefSx Proof.RefWord Proof.RefFields Proof.RefWin Proof.RefFlat Proof.RefUHash Proof.RefElem.
From Verif Require Model.UHash Proof.UHashProof Proof.FieldProof Proof.WordProof Proof.RefBytes.
Import ListNotations.
Local Open Scope Z_scope.

Definition fmul (n : nat) : positive := match n with O => f_bf128_mul | 1%nat => f_bf192_mul | _ => f_bf256_mul end.
Definition fmul_64 (n : nat) : positive := match n with O => f_bf128_mul_64 | 1%nat => f_bf192_mul_64 | _ => f_bf256_mul_64 end.
Definition sumsV (n : nat) : list (positive * summary) := [(fmul n, sm_mul n); (fmul_64 n, sm_mul_64 n)].
Definition cV (n : nat) : func := match n with O => c_vole_hash_128 | 1%nat => c_vole_hash_192 | _ => c_vole_hash_256 end.
Definition fV (n : nat) : positive := match n with O => f_vole_hash_128 | 1%nat => f_vole_hash_192 | _ => f_vole_hash_256 end.
Definition bV (n : nat) : stmt := Eval cbv [flat cat fbody] in match n with O => flat (fbody c_vole_hash_128) | 1%nat => flat (fbody c_vole_hash_192) | _ => flat (fbody c_vole_hash_256) end.
Definition ns (n : nat) : nat := (5 * nq n + 1)%nat.
Definition il (n : nat) : nat := S (ns n).
Definition ih (n : nat) : nat := S (il n).
Definition ib (n : nat) : nat := (ih n + nw n)%nat.
Definition ir (n : nat) : nat := (ib n + nw n)%nat.
Definition ii (n : nat) : nat := (ir n + nw n)%nat.
Definition sdl (n : nat) : loc sx := Loc false true (5 * nb n + 8) (var_ps 1 0 (repeat 8%nat (ns n))).
Definition xl : loc sx := Loc false true 0 [].
Definition TV0 (n : nat) : gst sx := St [(1%positive, GPtr 0 0); (2%positive, GPtr 1 0); (3%positive, GPtr 2 0); (4%positive, GInt (SV 0))] [] []
  [Loc false false (nb n + 2) []; sdl n; xl].
Definition winX1 (n : nat) : win := Win 2 0 1 (SD ODiv u32 (SB OAdd u32 (SV 0) (SC (ofN (lm n)))) (SC 8)) [].
Definition envV (n : nat) : list (positive * gv sx) := [(1%positive, GPtr 0 0); (3%positive, GPtr 2 0); (4%positive, GInt (SV 0)); (5%positive, GPtr 1 0); (6%positive, GPtr 1 (nb n)); (7%positive, GPtr 1 (2 * nb n)); (8%positive, GPtr 1 (3 * nb n));
   (9%positive, GPtr 1 (4 * nb n)); (10%positive, GPtr 1 (5 * nb n)); (11%positive, GPtr 3 0); (12%positive, GInt (SV (il n))); (13%positive, GPtr 4 0)].
Definition TV1 (n : nat) : gst sx := St (envV n) [] []  [Loc false false (nb n + 2) []; sdl n; xl; xl; Loc true false (nb n) (zeros 0 (nb n))].
Definition sgV1 (n : nat) : list sx := vars 0 (S (ns n)) ++ [SD ODiv u32 (SB OSub u32 (SB OAdd u32 (SV 0) (SC (2 * ofN (lm n)))) (SC 1)) (SC (ofN (lm n)))].
Definition TV2 (n : nat) : gst sx := match put_ps (TV1 n) 4 0 (nb n) (var_ps (ih n) 0 (qs n)) with Some t => t | None => TV1 n end.
Definition TV3 (n : nat) : gst sx := St (envV n ++ [(14%positive, GPtr 5 0); (15%positive, GPtr 7 0); (16%positive, GPtr 9 0); (17%positive, GInt (SV (ii n)))]) [] []
  [Loc false false (nb n + 2) []; sdl n; xl; xl; Loc true false (nb n) []; wloc true (ih n) (nw n); Loc true false (8 * Z.of_nat (nw n)) []; wloc true (ib n) (nw n); Loc true false (8 * Z.of_nat (nw n)) []; wloc true (ir n) (nw n)].
Definition sgV3 (n : nat) : list sx := vars 0 (ih n) ++ el n (ih n) ++ el n (1 + 4 * nq n) ++ el n (1 + 4 * nq n) ++ [SC 1].
Definition winX (n : nat) : win := Win 2 0 1 (SB OMul u32 (SB OSub u32 (SB OSub u32 (SV (il n)) (SC 1)) (SV (ii n))) (SC (nb n))) (qs n).
Definition TV4 (n : nat) : gst sx := add_win (TV3 n) (S (ii n)) (winX n).
Definition sgV4 (n : nat) : list sx := vars 0 (ih n) ++ xor_ (vars (ih n) (nw n)) (app_ n 0 (vars (ir n) (nw n) ++ el n (S (ii n)))) ++ vars (ib n) (nw n) ++ app_ n 0 (vars (ir n) (nw n) ++ vars (ib n) (nw n)) ++
  [SB OAdd u32 (SV (ii n)) (SC 1)].
Definition WV4 (n : nat) : writes := [(5%nat, 0, 8 * Z.of_nat (nw n)); (9%nat, 0, 8 * Z.of_nat (nw n))].
Definition loopV (n : nat) : expr * stmt * stmt := match suf 17 (bV n) with SSeq (SLoop c i b) _ => (c, i, b) | _ => (EInt 0, SSkip, SSkip) end.
Definition v1 (n : nat) : positive := match n with O => 23%positive | _ => 25%positive end.
Definition TV5 (n : nat) : gst sx := set_env (TV3 n) (v1 n) (GInt (SV (S (ii n)))).
Definition kV (n : nat) : nat := match n with O => 29%nat | _ => 37%nat end.
Definition TV6 (n : nat) : gst sx := St [(1%positive, GPtr 0 0); (11%positive, GPtr 3 0); (13%positive, GPtr 4 0)] [] []
  [Loc false false (nb n + 2) (var_ps 0 0 (qs n)); Loc false true (5 * nb n + 8) []; xl; xl; Loc true false (nb n) (var_ps (nq n) 0 (qs n))].
Definition half (n r : nat) : list sx := firstn (nq n) (xor_ (app_ n 0 (el n (1 + r * nq n) ++ vars (ih n) (nw n))) (app_ n 1 (el n (1 + S r * nq n) ++ [SV (S (ii n))]))).
Definition sgV6 (n : nat) : list sx := half n 0 ++ half n 2.
Definition okV (n : nat) : bool :=
 match put_ps (TV1 n) 4 0 (nb n) (var_ps (ih n) 0 (qs n)) with Some _ => true | None => false end &&
 lead_chk (sumsV n) 300 9 (add_win (TV0 n) (S (ns n)) (winX1 n)) (bV n) (TV1 n) (sgV1 n) [] &&
 lead_chk (sumsV n) 300 7 (TV2 n) (suf 10 (bV n)) (TV3 n) (sgV3 n) [] &&
 turn_chk (sumsV n) 300 (TV4 n) (snd (fst (loopV n))) (snd (loopV n)) (TV3 n) (sgV4 n) (WV4 n) &&
 lead_chk (sumsV n) 300 (kV n) (TV5 n) (suf 19 (bV n)) (TV6 n) (sgV6 n) [(0%nat, 0, nb n); (4%nat, 0, nb n)].
Lemma okV_0 : okV 0 = true. Proof. vm_compute. reflexivity. Qed.
Lemma okV_1 : okV 1 = true. Proof. vm_compute. reflexivity. Qed.
Lemma okV_2 : okV 2 = true. Proof. vm_compute. reflexivity. Qed.
Lemma okV_n n : (n <= 2)%nat -> okV n = true.
Proof. intros H. destruct n as [|[|[|n]]]; [exact okV_0|exact okV_1|exact okV_2|lia]. Qed.
Lemma SPV n : (n <= 2)%nat -> Forall (spec_ok phi) (sumsV n).
Proof.
  intros H. destruct n as [|[|[|n]]]; [..|lia]; repeat constructor;
    [exact ref_bf128_mul|exact ref_bf128_mul_64|exact ref_bf192_mul|exact ref_bf192_mul_64|exact ref_bf256_mul|exact ref_bf256_mul_64].
Qed.
Lemma code_V n : (n <= 2)%nat -> PositiveMap.find (fV n) code = Some (cV n).
Proof. intros H. destruct n as [|[|[|n]]]; [vm_compute; reflexivity..|lia]. Qed.
Lemma bV_flat n : (n <= 2)%nat -> flat (fbody (cV n)) = bV n /\ fparams (cV n) = [1%positive; 2%positive; 3%positive; 4%positive].
Proof. intros H. destruct n as [|[|[|n]]]; [split; reflexivity..|lia]. Qed.
Lemma lamz_lm n : (n <= 2)%nat -> lamz (lm n) /\ (lm n / 8 = 8 * N.of_nat (nq n))%N /\ nb n = ofN (8 * N.of_nat (nq n)).
Proof. intros H. unfold lamz, lm, nb. destruct n as [|[|[|n]]]; [..|lia]; cbn [nq]; (split; [auto|]); split; reflexivity. Qed.

Lemma stN_call p L t l e m m' x v : stN p L t l e m -> below_st (length l) t = true -> frame m m' nothing -> (v < 2 ^ 64)%N ->
  stN p L (set_env t x (GInt (SV (length l)))) (l ++ [v]) (PositiveMap.add x (VInt (ofN v)) e) m'.
Proof.
  intros S B F V. assert (V' : small [v]) by (constructor; [exact V|constructor]). destruct (stN_more p L t l [v] e m S B V') as [S1 S2]. split; [exact S1|].
  replace (VInt (ofN v)) with (cv (den (phi_of p) (rhoN (l ++ [v]))) L (GInt (SV (length l)))).
  - apply set_env_ok; [eapply sat_frame; [exact S2|exact F]|exact I].
  - cbn [cv den]. unfold rhoN. rewrite app_nth2, Nat.sub_diag by lia. reflexivity.
Qed.
Lemma holds_sub m b o x off k : holds m b o x -> (off + k <= Base.lenN x)%N -> holds m b (o + ofN off) (Base.takeN k (Base.dropN off x)).
Proof.
  intros [I H] L. assert (Ln : Base.lenN (Base.takeN k (Base.dropN off x)) = k) by (rewrite BaseProof.lenN_takeN, BaseProof.lenN_dropN; lia). split.
  - rewrite Ln. eapply inb_sub; [exact I|lia..].
  - rewrite Ln. intros i Hi. rewrite BaseProof.nthN_takeN, BaseProof.nthN_dropN by lia. rewrite <- H by lia. f_equal. lia.
Qed.

Lemma total_rep k : total (repeat 8%nat k) = 8 * Z.of_nat k.
Proof. unfold total. induction k as [|k IH]; [reflexivity|]. cbn [repeat list_sum fold_right] in *. change (fold_right Nat.add 0%nat (repeat 8%nat k)) with (list_sum (repeat 8%nat k)) in *. lia. Qed.

Lemma words_of_app x : forall a b o, words_of x o (a ++ b) = words_of x o a ++ words_of x (o + N.of_nat (list_sum a)) b.
Proof.
  induction a as [|w a IH]; intros b o; cbn [app words_of list_sum fold_right]; [f_equal; lia|]. rewrite IH. change (fold_right Nat.add 0%nat a) with (list_sum a). f_equal. f_equal. f_equal. lia.
Qed.
Lemma sum_rep k : list_sum (repeat 8%nat k) = (8 * k)%nat.
Proof. induction k as [|k IH]; [reflexivity|]. cbn [repeat list_sum fold_right] in *. change (fold_right Nat.add 0%nat (repeat 8%nat k)) with (list_sum (repeat 8%nat k)) in *. lia. Qed.
Lemma seg_sd n sd ell r rest : (r <= 4)%nat -> map (fun i => nth i ((ell :: words_of sd 0 (repeat 8%nat (ns n))) ++ rest) 0%N) (seq (1 + r * nq n) (nq n)) = words_of sd (N.of_nat r * (8 * N.of_nat (nq n))) (qs n).
Proof.
  intros H. replace (ns n) with (r * nq n + (nq n + ((4 - r) * nq n + 1)))%nat by (unfold ns; nia). rewrite !repeat_app, !words_of_app, sum_rep.
  apply (seg _ (ell :: words_of sd 0 (repeat 8%nat (r * nq n))) _ (words_of sd (0 + N.of_nat (8 * (r * nq n)) + N.of_nat (list_sum (repeat 8%nat (nq n)))) (repeat 8%nat ((4 - r) * nq n) ++ repeat 8%nat 1) ++ rest)).
  - cbn [app]. f_equal. rewrite words_of_app. rewrite <- !app_assoc. f_equal. unfold qs. f_equal; f_equal; lia.
  - cbn [length]. rewrite words_of_length, repeat_length. lia.
  - rewrite words_of_length. unfold qs. rewrite repeat_length. reflexivity.
Qed.
Lemma suf_suf : forall a b c, suf b (suf a c) = suf (a + b) c.
Proof. induction a as [|a IH]; intros b c; [reflexivity|]. destruct c; cbn [suf Nat.add]; try (destruct b; reflexivity). apply IH. Qed.

Definition mulm (n f : nat) (xs : list N) : list N := map (fun j => nth j (P (10 * n + f) xs) 0%N mod 2 ^ 64)%N (seq 0 (nw n)).
Lemma V_turn n l1 hw bsw rw xw k vh vb vr vx : (n <= 2)%nat -> length l1 = ih n -> E n hw vh -> E n bsw vb -> E n rw vr -> length xw = nq n -> E n (xw ++ repeat 0%N (nw n - nq n)) vx -> (k + 1 < 2 ^ 32)%N ->
  evs_ P ((l1 ++ hw ++ bsw ++ rw ++ [k]) ++ xw) (sgV4 n) = l1 ++ Limbs.words_add hw (mulm n 0 (rw ++ (xw ++ repeat 0%N (nw n - nq n)))) ++ bsw ++ mulm n 0 (rw ++ bsw) ++ [(k + 1)%N].
Proof.
  intros Hn L1 Eh Eb Er Lx Ex Hk. pose proof (E_len _ _ _ Hn Eh) as Lh. pose proof (E_len _ _ _ Hn Eb) as Lb. pose proof (E_len _ _ _ Hn Er) as Lr.
  set (l := (l1 ++ hw ++ bsw ++ rw ++ [k]) ++ xw). assert (El : l = l1 ++ hw ++ bsw ++ rw ++ [k] ++ xw) by (unfold l; rewrite <- !app_assoc; reflexivity).
  assert (Q1 : evs_ P l (vars 0 (ih n)) = l1) by (rewrite ev_vars; apply (seg l [] l1 (hw ++ bsw ++ rw ++ [k] ++ xw)); [exact El|reflexivity|symmetry; exact L1]).
  assert (Q2 : evs_ P l (vars (ih n) (nw n)) = hw) by (rewrite ev_vars; apply (seg l l1 hw (bsw ++ rw ++ [k] ++ xw)); [exact El|symmetry; exact L1|symmetry; exact Lh]).
  assert (Q3 : evs_ P l (vars (ib n) (nw n)) = bsw) by (rewrite ev_vars; apply (seg l (l1 ++ hw) bsw (rw ++ [k] ++ xw)); [rewrite <- app_assoc; exact El|rewrite app_length, L1, Lh; reflexivity|symmetry; exact Lb]).
  assert (Q4 : evs_ P l (vars (ir n) (nw n)) = rw) by (rewrite ev_vars; apply (seg l (l1 ++ hw ++ bsw) rw ([k] ++ xw)); [rewrite <- !app_assoc; exact El|rewrite !app_length, L1, Lh, Lb; unfold ir, ib; lia|symmetry; exact Lr]).
  assert (Q5 : evs_ P l (el n (S (ii n))) = xw ++ repeat 0%N (nw n - nq n)).
  { rewrite ev_el. f_equal. apply (seg l (l1 ++ hw ++ bsw ++ rw ++ [k]) xw []); [rewrite app_nil_r; reflexivity|rewrite !app_length, L1, Lh, Lb, Lr; cbn [length]; unfold ii, ir, ib; lia|symmetry; exact Lx]. }
  assert (Q6 : nth (ii n) l 0%N = k).
  { rewrite El, !app_assoc, <- app_assoc. rewrite app_nth2; rewrite !app_length, Lh, Lr, Lb, L1; unfold ii, ir, ib; [|lia]. rewrite Nat.sub_diag. reflexivity. }
  unfold sgV4. rewrite !ev_app. rewrite ev_xor_; rewrite ?ev_app_, ?ev_app, ?Q1, ?Q2, ?Q3, ?Q4, ?Q5.
  - unfold mulm. do 4 f_equal. cbn [evs_ map denN]. rewrite Q6. change (ofN (Z.to_N 1)) with (ofN 1). rewrite nadd by lia. rewrite N2Z.id. reflexivity.
  - exact (E_small _ _ _ Eh).
  - exact (E_small _ _ _ (E_mul _ _ _ _ _ Hn Er Ex)).
Qed.
Lemma ev_firstn l k a : evs_ P l (firstn k a) = firstn k (evs_ P l a).
Proof. unfold evs_. symmetry. apply firstn_map. Qed.
Lemma V_half n r sd ell rest hw bsw rw k h1 vh ra rb : (n <= 2)%nat -> (r <= 3)%nat -> Base.bytes_ok sd -> E n hw vh -> length bsw = nw n -> length rw = nw n -> 
  Fields.bf_load (fld n) sd (N.of_nat r * (8 * N.of_nat (nq n))) = Base.Ok ra -> Fields.bf_load (fld n) sd (N.of_nat (S r) * (8 * N.of_nat (nq n))) = Base.Ok rb -> length rest = 1%nat ->
  exists w, evs_ P ((((ell :: words_of sd 0 (repeat 8%nat (ns n))) ++ rest) ++ hw ++ bsw ++ rw ++ [k]) ++ [h1]) (half n r) = firstn (nq n) w /\ E n w (Fields.bf_add (Fields.bf_mul (fld n) ra vh) (Fields.bf_mul_64 (fld n) rb h1)).
Proof.
  intros Hn Hr B Eh Lb Lr La Lb' Lrest. pose proof (E_len _ _ _ Hn Eh) as Lh. set (l0 := ell :: words_of sd 0 (repeat 8%nat (ns n))). assert (L0 : length l0 = S (ns n)) by (unfold l0; cbn [length]; rewrite words_of_length, repeat_length; reflexivity).
  set (l := ((l0 ++ rest) ++ hw ++ bsw ++ rw ++ [k]) ++ [h1]). destruct (E_load _ _ _ _ Hn B La) as [_ Ea]. destruct (E_load _ _ _ _ Hn B Lb') as [_ Eb]. set (pad := repeat 0%N (nw n - nq n)) in *.
  assert (Q1 : evs_ P l (el n (1 + r * nq n)) = words_of sd (N.of_nat r * (8 * N.of_nat (nq n))) (qs n) ++ pad).
  { rewrite ev_el. fold pad. f_equal. unfold l. rewrite <- !app_assoc. apply seg_sd. lia. }
  assert (Q2 : evs_ P l (el n (1 + S r * nq n)) = words_of sd (N.of_nat (S r) * (8 * N.of_nat (nq n))) (qs n) ++ pad).
  { rewrite ev_el. fold pad. f_equal. unfold l. rewrite <- !app_assoc. apply seg_sd. lia. }
  assert (Q3 : evs_ P l (vars (ih n) (nw n)) = hw).
  { rewrite ev_vars. apply (seg l (l0 ++ rest) hw (bsw ++ rw ++ [k] ++ [h1])); [unfold l; rewrite <- !app_assoc; reflexivity|rewrite app_length, L0, Lrest; unfold ih, il; lia|symmetry; exact Lh]. }
  assert (Q4 : evs_ P l [SV (S (ii n))] = [h1]).
  { cbn [evs_ map denN]. f_equal. unfold l. rewrite app_nth2; rewrite !app_length, L0, Lrest, Lh, Lb, Lr; cbn [length]; unfold ii, ir, ib, ih, il; [|lia]. match goal with |- nth ?x _ _ = _ => replace x with O by lia end. reflexivity. }
  exists (Limbs.words_add (mulm n 0 ((words_of sd (N.of_nat r * (8 * N.of_nat (nq n))) (qs n) ++ pad) ++ hw)) (mulm n 1 ((words_of sd (N.of_nat (S r) * (8 * N.of_nat (nq n))) (qs n) ++ pad) ++ [h1]))). split.
  - unfold half. rewrite ev_firstn, ev_xor_; rewrite ?ev_app_, ?(ev_app l (el n (1 + r * nq n))), ?(ev_app l (el n (1 + S r * nq n))), ?Q1, ?Q2, ?Q3, ?Q4.
    + reflexivity.
    + exact (E_small _ _ _ (E_mul _ _ _ _ _ Hn Ea Eh)).
    + exact (E_small _ _ _ (E_mul_64 _ _ _ _ Hn Eb)).
  - apply E_add; [exact (E_mul _ _ _ _ _ Hn Ea Eh)|exact (E_mul_64 _ _ _ _ Hn Eb)].
Qed.
Lemma tail_V n e m bh oh bt ot bx ox A T x (Q : outcome -> env -> mem -> Prop) : (n <= 2)%nat -> lookup e 1 = VPtr bh oh -> lookup e 11 = VPtr bx ox -> lookup e 13 = VPtr bt ot ->
  inb m bh oh (nb n + 2) -> holds m bh oh A -> Base.lenN A = (8 * N.of_nat (nq n))%N -> Base.bytes_ok A -> holds m bt ot T -> Base.lenN T = (8 * N.of_nat (nq n))%N -> Base.bytes_ok T -> bt <> bh ->
  holds m bx ox x -> Base.lenN x = (8 * N.of_nat (nq n) + 2)%N -> Base.bytes_ok x -> sep bx ox (nb n + 2) bh oh (nb n + 2) ->
  (forall e' m', frame m m' (at_ bh oh (nb n + 2)) -> holds m' bh oh (Base.xor_bytes (A ++ Base.takeN 2 T) x) -> Q ONormal e' m') ->
  wp code (suf (19 + kV n) (bV n)) e m Q.
Proof.
  intros Hn V1 V11 V13 I HA LA BA HT LT BT Ne Hx Lx Bx Sp HQ. destruct (lamz_lm n Hn) as (_ & _ & Nb).
  assert (Nq : (2 <= N.of_nat (nq n) <= 4)%N) by (clear -Hn; destruct n as [|[|[|k]]]; cbn; lia).
  assert (Sf : suf (19 + kV n) (bV n) = SSeq (SCopy (EAt (EVar 1) 1 (EInt (nb n))) (EVar 13) (EInt 2)) (SCall None f_xor_u8_array [EVar 1; EVar 11; EVar 1; EInt (nb n + 2)])).
  { clear -Hn. destruct n as [|[|[|k]]]; [reflexivity..|lia]. }
  rewrite Sf. eapply wp_seq. assert (L2 : Base.lenN (Base.takeN 2 T) = 2%N) by (rewrite BaseProof.lenN_takeN; lia).
  assert (I2 : inb m bh (oh + nb n) 2) by (eapply inb_sub; [exact I|lia..]).
  assert (HT2 : holds m bt ot (Base.takeN 2 T)).
  { pose proof (holds_sub m bt ot T 0 2 HT ltac:(lia)) as K. rewrite Z.add_0_r in K. exact K. }
  eapply (wp_copy1 _ _ _ _ _ bh (oh + nb n) bt ot 2); [eapply pe_eq; [ev|f_equal; lia]|apply pe_var; exact V13|apply pe_int|exact I2|eapply inb_sub; [exact (proj1 HT)|lia..]|].
  assert (HA1 := holds_copy m bh (oh + nb n) bt ot _ HT2). rewrite L2 in HA1. specialize (HA1 I2). pose proof (frame_copy_at m bh (oh + nb n) bt ot 2 I2) as F1. cbn [Z.of_N] in HA1.
  set (m1 := copy m bh (oh + nb n) bt ot 2) in *.
  assert (HA2 : holds m1 bh oh A) by (eapply holds_frame; [exact HA|exact F1|intros q K [_ K2]; lia]).
  assert (HB : holds m1 bh oh (A ++ Base.takeN 2 T)) by (apply holds_app; [exact HA2|rewrite LA, <- Nb; exact HA1]).
  assert (Hx1 : holds m1 bx ox x) by (eapply holds_frame; [exact Hx|exact F1|intros q K [-> K2]; unfold sep in Sp; lia]).
  set (B := A ++ Base.takeN 2 T) in *. assert (LB : Base.lenN B = (8 * N.of_nat (nq n) + 2)%N) by (unfold B; rewrite BaseProof.lenN_app; lia).
  assert (BB : Base.bytes_ok B) by (apply Forall_app; split; [exact BA|apply BaseProof.Forall_takeN, BT]).
  eapply wp_call; [eapply pes_cons; [apply pe_var; exact V1|]; eapply pes_cons; [apply pe_var; exact V11|]; eapply pes_cons; [apply pe_var; exact V1|]; eapply pes_cons; [apply pe_int|apply pes_nil]|].
  assert (IB : inb m1 bh oh (nb n + 2)) by (eapply inb_sub; [exact (proj1 HB)|lia..]). assert (Ix : inb m1 bx ox (nb n + 2)) by (eapply inb_sub; [exact (proj1 Hx1)|lia..]).
  eapply calls_weak; [apply ref_xor_u8_array; [lia|exact IB|exact Ix|exact IB|left; split; reflexivity|right; exact Sp|..]|].
  { intros i Hi. eapply holds_isbyte; [exact HB|exact BB|lia]. }
  { intros i Hi. eapply holds_isbyte; [exact Hx1|exact Bx|lia]. }
  intros v m2 [F2 R]. apply HQ.
  - eapply frame_comp; [eapply frame_weak; [exact F1|]|exact F2|]; unfold at_; intros; lia.
  - assert (LX : Base.lenN (Base.xor_bytes B x) = Base.lenN B) by (apply BaseProof.lenN_xor; lia). split; [rewrite LX; eapply inb_frame; [exact F2|exact (proj1 HB)]|]. rewrite LX. intros i Hi. rewrite R by lia.
    rewrite BaseProof.nthN_xor by lia. rewrite (proj2 HB) by exact Hi. rewrite (proj2 Hx1) by lia. apply RefBytes.ofN_lxor.
Qed.
Theorem ref_vole_hash_n n m bh oh bs os sd bx ox x ell h : (n <= 2)%nat -> (ell mod 8 = 0)%N -> (ell + 2 * lm n < 2 ^ 32)%N ->
  inb m bh oh (nb n + 2) -> holds m bs os sd -> Base.bytes_ok sd -> Base.lenN sd = (5 * (8 * N.of_nat (nq n)) + 8)%N -> holds m bx ox x -> Base.bytes_ok x ->
  sep bh oh (nb n + 2) bs os (ofN (Base.lenN sd)) -> sep bh oh (nb n + 2) bx ox (ofN (Base.lenN x)) ->
  UHash.vole_hash_F (fld n) sd x ell = Base.Ok h ->
  calls code (fV n) [VPtr bh oh; VPtr bs os; VPtr bx ox; VInt (ofN ell)] m (fun _ m' => frame m m' (at_ bh oh (nb n + 2)) /\ holds m' bh oh h).
Proof.
  intros Hn E8 Eb Ih Hs Bs Ls Hx Bx Sp1 Sp2 H. destruct (lm_fld n Hn) as (F1 & F2 & F3). destruct (lamz_lm n Hn) as (C & L8 & Nb). destruct (h1_arith (lm n) ell C E8 Eb) as (A1 & A2 & A3 & A4 & A5 & A6 & A7 & A8).
  assert (K0 := okV_n n Hn). unfold okV in K0. apply andb_true_iff in K0. destruct K0 as [K0 C5]. apply andb_true_iff in K0. destruct K0 as [K0 C4]. apply andb_true_iff in K0. destruct K0 as [K0 C3]. apply andb_true_iff in K0. destruct K0 as [C2 C1].
  assert (C2' : put_ps (TV1 n) 4 0 (nb n) (var_ps (ih n) 0 (qs n)) = Some (TV2 n)) by (unfold TV2; destruct (put_ps (TV1 n) 4 0 (nb n) (var_ps (ih n) 0 (qs n))); [reflexivity|discriminate]). clear C2.
  unfold UHash.vole_hash_F in H. rewrite F3 in H. replace (8 * N.of_nat (nq n) * 8)%N with (lm n) in H by (unfold lm; lia). replace (2 * (8 * N.of_nat (nq n)) * 8)%N with (lm n + lm n)%N in H by (unfold lm; lia).
  rewrite N.add_assoc in H. fold (ll (lm n) ell) in H.
  destruct (UHash.last_block (lm n) ell x) as [tmp|] eqn:El; [|discriminate]. cbn [Base.bind] in H.
  destruct (Fields.bf_load (fld n) tmp 0) as [h0|] eqn:Eh0; [|discriminate]. cbn [Base.bind] in H.
  destruct (Fields.bf_load (fld n) sd (4 * (8 * N.of_nat (nq n)))) as [vs|] eqn:Es; [|discriminate]. cbn [Base.bind] in H.
  destruct (Base.foldM _ (Base.Nfromto 1 _) _) as [s2|] eqn:Ef; [|discriminate]. cbn [Base.bind] in H.
  destruct (Base.slice sd (5 * (8 * N.of_nat (nq n))) 8) as [tb|] eqn:Etb; [|discriminate]. cbn [Base.bind] in H.
  destruct (UHash.compute_h1 tb x (lm n) ell) as [h1|] eqn:Eh1; [|discriminate]. cbn [Base.bind] in H.
  destruct (Fields.bf_load (fld n) sd 0) as [r0|] eqn:Er0; [|discriminate]. cbn [Base.bind] in H.
  destruct (Fields.bf_load (fld n) sd (1 * (8 * N.of_nat (nq n)))) as [r1|] eqn:Er1; [|discriminate]. cbn [Base.bind] in H.
  destruct (Fields.bf_load (fld n) sd (2 * (8 * N.of_nat (nq n)))) as [r2|] eqn:Er2; [|discriminate]. cbn [Base.bind] in H.
  destruct (Fields.bf_load (fld n) sd (3 * (8 * N.of_nat (nq n)))) as [r3|] eqn:Er3; [|discriminate]. cbn [Base.bind] in H.
  destruct (Base.slice x ((ell + lm n) / 8) (8 * N.of_nat (nq n) + Params.UNIVERSAL_HASH_B)) as [x1|] eqn:Ex1; [|discriminate]. cbn [Base.bind] in H. injection H as <-.
  apply (calls_intro code _ _ _ _ _ (code_V n Hn)). destruct (bV_flat n Hn) as [Bf Bp]. rewrite Bp. set (e0 := bind_params _ _ _). apply wp_flat. rewrite Bf.
  set (L0 := [(bh, oh); (bs, os); (bx, ox)]).
  assert (S0 : stN P L0 (TV0 n) (ell :: words_of sd 0 (repeat 8%nat (ns n))) e0 m).
  { split; [constructor; [lia|]; apply words_of_small; [exact Bs|clear; induction (ns n); [reflexivity|assumption]]|]. constructor.
    - apply env_intro. clear. repeat constructor; cbn; try lia; try reflexivity; f_equal; lia.
    - constructor.
    - constructor.
    - constructor; [|constructor; [|constructor; [|constructor]]].
      + split; [exact Ih|]. split; [discriminate|]. constructor.
      + cbn [fst snd]. split; [change (lsize (sdl n)) with (5 * nb n + 8); pose proof (proj1 Hs) as Q; eapply inb_sub; [exact Q|cbn [fst snd]; lia..]|]. split; [discriminate|]. cbn [lsize lps sdl].
        apply (var_ps_ok P L0 (ell :: words_of sd 0 (repeat 8%nat (ns n))) m bs os (5 * nb n + 8) (repeat 8%nat (ns n)) 1 0 (map ofN (words_of sd 0 (repeat 8%nat (ns n))))).
        * lia.
        * rewrite total_rep. unfold ns. lia.
        * rewrite Z.add_0_r. pose proof (holds_arr _ _ _ _ Hs Bs (repeat 8%nat (ns n)) 0%N) as Q. rewrite Z.add_0_r in Q. apply Q. rewrite total_rep. unfold ns. lia.
        * intros i Hi. cbn [Nat.add]. unfold rhoN. cbn [nth]. rewrite <- (map_nth ofN). reflexivity.
      + split; [eapply inb_sub; [exact (proj1 Hx)|cbn [lsize xl fst snd]; lia..]|]. split; [discriminate|]. constructor.
    - apply apart_first; [reflexivity|]. intros _ [|[|j]] lj Ej; cbn [nth_error] in Ej; [injection Ej as <-; cbn [lat nth L0 fst snd lsize sdl]..|destruct j; discriminate Ej].
      + unfold sep in *. lia.
      + unfold sep in *. cbn [lsize xl]. lia. }
  set (l0 := ell :: words_of sd 0 (repeat 8%nat (ns n))) in *.
  assert (Ll0 : length l0 = S (ns n)) by (unfold l0; cbn [length]; rewrite words_of_length, repeat_length; reflexivity).
  apply BaseProof.slice_inv in Ex1. destruct Ex1 as [Lx1 Ex1]. pose proof Lx1 as Lx1'. rewrite Ex1, BaseProof.lenN_takeN, BaseProof.lenN_dropN in Lx1'. set (off1 := ((ell + lm n) / 8)%N) in *.
  set (Lw := L0 ++ [(bx, ox + ofN off1)]).
  assert (S0w : stN P Lw (add_win (TV0 n) (S (ns n)) (winX1 n)) l0 e0 m).
  { assert (Q : stN P Lw (add_win (TV0 n) (length l0) (winX1 n)) (l0 ++ words_of x off1 []) e0 m); [|rewrite Ll0 in Q; cbn [words_of] in Q; rewrite app_nil_r in Q; exact Q]. apply (stN_bytes P m L0 L0 (TV0 n) l0 e0 m (winX1 n) bx ox x off1 S0); try assumption.
    - rewrite Ll0. destruct n as [|[|[|k]]]; [reflexivity..|lia].
    - apply ext_refl.
    - cbn; lia.
    - reflexivity.
    - cbn [winX1 w_o w_sc w_x den]. change (rhoN l0 0) with (ofN ell). rewrite (nadd ell (lm n)) by (clear -Eb; lia). change 8 with (ofN 8). rewrite ndiv by (clear -Eb; lia). fold off1. lia.
    - rewrite Ll0. reflexivity.
    - intros [|[|[|j]]] lj Hj Ej Rj; cbn [nth_error TV0 gheap] in Ej; try (injection Ej as <-; discriminate Rj); [|cbn in Hj; lia]. injection Ej as <-. cbn [lat nth L0 fst snd lsize]. unfold sep in *. lia.
    - cbn [winX1 w_ws]. change (total []) with 0. change Params.UNIVERSAL_HASH_B with 2%N in Lx1'. lia.
    - reflexivity. }
  eapply (stN_lead P _ (SPV n Hn)); [exact C1|exact S0w|]. intros L1 e1 m1 X1 S1 Fr1.
  assert (V1 : evs_ P l0 (sgV1 n) = l0 ++ [ll (lm n) ell]).
  { unfold sgV1. rewrite ev_app, ev_vars. f_equal; [apply (seg l0 [] l0 []); [rewrite app_nil_r; reflexivity|reflexivity|symmetry; exact Ll0]|].
    cbn [evs_ map denN]. change (nth 0 l0 0%N) with ell. change 2 with (ofN 2). rewrite <- N2Z.inj_mul. rewrite !N2Z.id. rewrite (nadd ell (2 * lm n)) by lia. rewrite N2Z.id. change (ofN (Z.to_N 1)) with (ofN 1). rewrite nsub by lia. rewrite !N2Z.id, ndiv by lia. rewrite N2Z.id.
    unfold ll. do 3 f_equal. lia. }
  rewrite V1 in S1. apply (ext_firstn _ _ _ 5) in X1; [|cbn; lia]. change (length (gheap (TV1 n))) with 5%nat in S1. set (L1' := firstn 5 L1) in *. set (LL := ll (lm n) ell) in *. set (l1 := l0 ++ [LL]) in *.
  assert (Ll1 : length l1 = ih n) by (unfold l1; rewrite app_length, Ll0; cbn [length]; unfold ih, il; lia).
  pose proof (stN_env _ _ _ _ _ _ 3%positive _ S1 eq_refl) as G3. pose proof (stN_env _ _ _ _ _ _ 4%positive _ S1 eq_refl) as G4. pose proof (stN_env _ _ _ _ _ _ 12%positive _ S1 eq_refl) as G12. pose proof (stN_env _ _ _ _ _ _ 13%positive _ S1 eq_refl) as G13.
  cbn [cv] in G3, G4, G12, G13. rewrite (lat_ext _ _ _ _ X1) in G3 by (cbn; lia). cbn [lat nth Lw L0 app fst snd] in G3. rewrite Z.add_0_r in G3, G13. cbn [den] in G4, G12. change (rhoN l1 0) with (ofN ell) in G4.
  replace (rhoN l1 (il n)) with (ofN LL) in G12 by (unfold rhoN, l1; rewrite app_nth2 by (rewrite Ll0; unfold il; lia); rewrite Ll0; unfold il; rewrite Nat.sub_diag; reflexivity).
  assert (NE : forall ma mb L, frame ma mb (wset L []) -> frame ma mb nothing) by (intros ma mb L F; eapply frame_weak; [exact F|intros b q _ _ (? & ? & ? & [] & _)]).
  apply NE in Fr1. assert (Hx1 : holds m1 bx ox x) by (eapply holds_frame; [exact Hx|exact Fr1|intros q _ []]).
  destruct (last_block_padded _ _ _ _ C E8 El) as (Hof & Hln & Etmp). fold LL in Hof, Etmp. rewrite L8 in *. set (off := ((LL - 1) * (8 * N.of_nat (nq n)))%N) in *. set (ln := UHash.last_block_len (lm n) ell) in *.
  assert (Tq : total (qs n) = nb n) by (unfold qs; rewrite total_rep; reflexivity).
  assert (Ez : holds m1 (fst (lat L1' 4)) (snd (lat L1' 4)) (Base.zeros (8 * N.of_nat (nq n)))).
  { destruct n as [|[|[|k]]]; [..|lia]; exact (stN_holds _ _ _ _ _ _ 4 _ _ S1 eq_refl eq_refl eq_refl). }
  pose proof (proj1 Ez) as I0. rewrite BaseProof.lenN_zeros in I0.
  assert (Hd : exists xs xl, head 9 (bV n) = Some (SCopy (EVar 13) xs xl) /\ pe e1 m1 xs (VPtr bx (ox + ofN off)) /\ pe e1 m1 xl (VInt (ofN ln))).
  { assert (Q : pe e1 m1 (EAt (EVar 3) 1 (EBin OMul u32 (EBin OSub u32 (EVar 12) (EInt 1)) (EInt (ofN (8 * N.of_nat (nq n)))))) (VPtr bx (ox + ofN off))).
    { eapply pe_eq; [ev|]. rewrite <- L8 at 1. unfold LL at 1. rewrite h1_off by assumption. fold LL. rewrite L8. fold off. f_equal. lia. }
    pose proof (h1_len e1 m1 (lm n) ell (EVar 4) (EInt (ofN (lm n))) (EInt (ofN (lm n / 8))) C E8 Eb ltac:(apply pe_var; exact G4) ltac:(apply pe_int) ltac:(apply pe_int)) as Q2. fold ln in Q2.
    destruct n as [|[|[|k]]]; [..|lia]; (eexists _, _; split; [reflexivity|split; [exact Q|exact Q2]]). }
  destruct Hd as (xs & xln & Hd & Q1 & Q2). eapply wp_head; [exact Hd|]. eapply (wp_copy1 _ _ _ _ _ (fst (lat L1' 4)) (snd (lat L1' 4)) bx (ox + ofN off) (ofN ln)); [apply pe_var; exact G13|exact Q1|exact Q2|eapply inb_sub; [exact I0|clear -Hln; lia..]|eapply inb_sub; [exact (proj1 Hx1)|clear -Hof; lia..]|].
  pose proof (stN_fill P L1' (TV1 n) l1 e1 m1 4 (8 * N.of_nat (nq n)) bx ox x off ln (qs n) (TV2 n) S1 ltac:(rewrite Ll1; destruct n as [|[|[|k]]]; [reflexivity..|clear -Hn; lia]) Ez Hx1 Bx Hof
    ltac:(rewrite Tq, Nb; clear -Hln; lia) ltac:(destruct n as [|[|[|k]]]; [reflexivity..|clear -Hn; lia]) ltac:(rewrite Tq, Ll1; exact C2')) as S2.
  set (m2 := copy m1 _ _ _ _ _) in *. rewrite Tq, Nb, N2Z.id, <- Etmp in S2.
  assert (Tb : Base.bytes_ok tmp) by (rewrite Etmp; apply padded_bytes, Bx).
  assert (Fr2 : frame m m2 nothing).
  { eapply frame_comp; [exact Fr1|apply frame_copy_at; eapply inb_sub; [exact I0|clear -Hln; lia..]|]. intros b q Hb _ [-> _]. pose proof (ext_fresh _ _ _ 4 X1) as K. rewrite (sat_length _ _ _ _ _ (proj2 S1)) in K. specialize (K ltac:(cbn; lia)). clear -K Hb. lia. }
  eapply (stN_lead P _ (SPV n Hn)); [exact C3|exact S2|]. intros L3 e3 m3 X3 S3 Fr3. change (suf 7 (suf 10 (bV n))) with (suf 7 (suf 10 (bV n))). rewrite suf_suf. cbn [Nat.add].
  destruct (E_load n tmp 0 h0 Hn Tb Eh0) as [_ Eh]. destruct (E_load n sd _ vs Hn Bs Es) as [_ Ebs]. set (pad := repeat 0%N (nw n - nq n)) in *. set (bsw := words_of sd (4 * (8 * N.of_nat (nq n))) (qs n) ++ pad) in *.
  assert (V3 : evs_ P (l1 ++ words_of tmp 0 (qs n)) (sgV3 n) = l1 ++ (words_of tmp 0 (qs n) ++ pad) ++ bsw ++ bsw ++ [1%N]).
  { unfold sgV3. rewrite !ev_app, !ev_el, ev_vars. fold pad. f_equal; [apply (seg _ [] l1 (words_of tmp 0 (qs n))); [reflexivity|reflexivity|symmetry; exact Ll1]|].
    f_equal; [f_equal; apply (seg _ l1 (words_of tmp 0 (qs n)) []); [rewrite app_nil_r; reflexivity|symmetry; exact Ll1|rewrite words_of_length; unfold qs; rewrite repeat_length; reflexivity]|].
    assert (Q : map (fun i => nth i (l1 ++ words_of tmp 0 (qs n)) 0%N) (seq (1 + 4 * nq n) (nq n)) = words_of sd (4 * (8 * N.of_nat (nq n))) (qs n)) by (unfold l1; rewrite <- app_assoc; exact (seg_sd n sd ell 4 _ (le_n 4))).
    rewrite Q. reflexivity. }
  rewrite V3 in S3. clear V3. change (length (gheap (TV3 n))) with 10%nat in S3. assert (X13 : ext m Lw (firstn 10 L3)).
  { apply ext_firstn; [|cbn; clear; lia]. eapply ext_trans; [apply Fr2|exact X1|exact X3]. }
  set (L3' := firstn 10 L3) in *. assert (Fr3' : frame m m3 nothing) by (eapply frame_comp; [exact Fr2|exact (NE _ _ _ Fr3)|intros b q _ _ []]).
  assert (Lbs : length bsw = nw n) by exact (E_len _ _ _ Hn Ebs).
  set (J := fun (k : Z) (l : list N) => exists hw rw s, l = l1 ++ hw ++ bsw ++ rw ++ [Z.to_N k] /\ E n hw (fst s) /\ E n rw (snd s) /\
     Base.foldM (UHash.h0_step (fld n) vs x LL) (Base.Nfromto (Z.to_N k) LL) s = Base.Ok s2).
  assert (Ix : forall hw rw k rest, length hw = nw n -> length rw = nw n -> nth (ii n) (l1 ++ hw ++ bsw ++ rw ++ k :: rest) 0%N = k /\ nth (il n) (l1 ++ hw ++ bsw ++ rw ++ k :: rest) 0%N = LL).
  { intros hw rw k rest Lh Lr. split.
    - rewrite !app_assoc. rewrite app_nth2; rewrite !app_length, Lh, Lr, Lbs, Ll1; unfold ii, ir, ib; [|clear; lia]. replace (ih n + nw n + nw n + nw n - (ih n + nw n + nw n + nw n))%nat with O by (clear; lia). reflexivity.
    - rewrite app_nth1 by (rewrite Ll1; unfold ih; clear; lia). unfold l1. rewrite app_nth2 by (rewrite Ll0; unfold il; clear; lia). rewrite Ll0. unfold il. rewrite Nat.sub_diag. reflexivity. }
  assert (Hc : head 17 (bV n) = Some (SLoop (fst (fst (loopV n))) (snd (fst (loopV n))) (snd (loopV n))) /\ sev (TV3 n) (fst (fst (loopV n))) = Some (GInt (SB ONe s32 (SV (ii n)) (SV (il n)))) /\ below_st (S (ii n)) (TV3 n) = true /\ below (S (ii n)) (w_x (winX n)) = true).
  { clear -Hn. destruct n as [|[|[|k]]]; [split; [|split; [|split]]; vm_compute; reflexivity..|lia]. }
  destruct Hc as (Hc & Hcx & Hbl & Hbw). eapply wp_head; [exact Hc|].
  assert (Fresh : forall W b q, forallb (fun '(l, _, _) => Nat.leb 4 l && Nat.ltb l 10) W = true -> wset L3' W b q -> (mnext m <= b)%positive).
  { intros W b q HW (l & o & z & Il & Nl & A). rewrite forallb_forall in HW. specialize (HW _ Il). cbn beta iota in HW. destruct A as [-> _]. apply (ext_fresh _ _ _ _ X13). cbn [length Lw L0 app]. clear -HW Nl. lia. }
  apply (stN_loop P _ (SPV n Hn) 300 (TV3 n) (TV4 n) _ _ _ _ (sgV4 n) (WV4 n) J (fun m' => holds m' bx ox x) 1 (ofN LL) L3' ltac:(clear -A1; lia) Hcx C4) with (l := l1 ++ (words_of tmp 0 (qs n) ++ pad) ++ bsw ++ bsw ++ [1%N]).
  { intros i l Hi _ (hw & rw & s & -> & Eh' & Er' & _). destruct (Ix hw rw (Z.to_N i) [] (E_len _ _ _ Hn Eh') (E_len _ _ _ Hn Er')) as [I1 I2]. cbn [den]. unfold rhoN. rewrite I1, I2. cbn [bin]. clear -Hi. destruct (Z.eqb_spec (ofN (Z.to_N i)) (ofN LL)); [lia|discriminate]. }
  { intros l _ (hw & rw & s & -> & Eh' & Er' & _). destruct (Ix hw rw (Z.to_N (ofN LL)) [] (E_len _ _ _ Hn Eh') (E_len _ _ _ Hn Er')) as [I1 I2]. cbn [den]. unfold rhoN. rewrite I1, I2, N2Z.id. cbn [bin]. rewrite Z.eqb_refl. reflexivity. }
  { intros i l e m' Hi (hw & rw & s & -> & Eh' & Er' & Fs) Hx' Sx. rewrite BaseProof.Nfromto_cons in Fs by (clear -Hi; lia). apply foldM_cons_inv in Fs. destruct Fs as (s' & Hs' & Fs). destruct s as [vh vr]. unfold UHash.h0_step in Hs'. cbn [fst snd] in *. rewrite F3 in Hs'.
    set (off2 := ((LL - 1 - Z.to_N i) * (8 * N.of_nat (nq n)))%N) in *. destruct (Fields.bf_load (fld n) x off2) as [v|] eqn:Ev; [|discriminate]. cbn [Base.bind] in Hs'. injection Hs' as <-.
    destruct (E_load n x off2 v Hn Bx Ev) as [Lv Ex]. exists [(bx, ox + ofN off2)], (words_of x off2 (qs n)).
    pose proof (E_len _ _ _ Hn Eh') as Lh. pose proof (E_len _ _ _ Hn Er') as Lr. destruct (Ix hw rw (Z.to_N i) [] Lh Lr) as [I1 I2].
    assert (Ll : length (l1 ++ hw ++ bsw ++ rw ++ [Z.to_N i]) = S (ii n)) by (rewrite !app_length, Ll1, Lh, Lbs, Lr; cbn [length]; unfold ii, ir, ib; clear; lia). split.
    - unfold TV4. rewrite <- Ll. apply (stN_bytes P m Lw L3' (TV3 n) (l1 ++ hw ++ bsw ++ rw ++ [Z.to_N i]) e m' (winX n) bx ox x off2 Sx); try assumption.
      + rewrite Ll. exact Hbl.
      + cbn; clear; lia.
      + reflexivity.
      + cbn [winX w_o w_sc w_x den]. unfold rhoN. rewrite I1, I2, Nb. change 1 with (ofN 1) at 2. clear -Hi A1 A2 A3 A4 A5 Eb Lv. rewrite nsub by lia. rewrite nsub by lia. rewrite nmul; [fold off2; lia|]. eapply N.le_lt_trans; [|exact A2]. apply N.mul_le_mono_r. lia.
      + rewrite Ll. exact Hbw.
      + intros [|[|[|[|j]]]] lj Hj Ej Rj; cbn [nth_error TV3 gheap] in Ej; try (injection Ej as <-; discriminate Rj); [|cbn in Hj; lia]. injection Ej as <-. cbn [lat nth Lw L0 app fst snd lsize]. clear -Sp2. unfold sep in *. lia.
      + cbn [winX w_ws]. rewrite Tq, Nb. clear -Lv. lia.
      + clear -Hn. destruct n as [|[|[|k]]]; [reflexivity..|lia].
    - rewrite (V_turn n l1 hw bsw rw (words_of x off2 (qs n)) (Z.to_N i) vh vs vr v Hn Ll1 Eh' Ebs Er'); [|rewrite words_of_length; unfold qs; rewrite repeat_length; reflexivity|exact Ex|clear -Hi A1; lia].
      exists (Limbs.words_add hw (mulm n 0 (rw ++ words_of x off2 (qs n) ++ pad))), (mulm n 0 (rw ++ bsw)), (Fields.bf_add vh (Fields.bf_mul (fld n) vr v), Fields.bf_mul (fld n) vr vs). cbn [fst snd].
      replace (Z.to_N (i + 1)) with (Z.to_N i + 1)%N by (clear -Hi; lia). split; [reflexivity|]. split; [apply E_add; [exact Eh'|exact (E_mul _ _ _ _ _ Hn Er' Ex)]|]. split; [exact (E_mul _ _ _ _ _ Hn Er' Ebs)|exact Fs]. }
  { intros ma mb F Hh. eapply holds_frame; [exact Hh|exact F|]. intros q _ K. apply Fresh in K; [|reflexivity]. pose proof (proj1 (proj1 Hx)) as Q. clear -K Q. lia. }
  { exact S3. }
  { exists (words_of tmp 0 (qs n) ++ pad), bsw, (h0, vs). split; [reflexivity|]. split; [exact Eh|]. split; [exact Ebs|]. exact Ef. }
  { eapply holds_frame; [exact Hx|exact Fr3'|intros q _ []]. }
  intros l4 e4 m4 S4 (hw & rw & s & -> & Eh4 & Er4 & Fs) Hx4 Fr4. rewrite N2Z.id, BaseProof.Nfromto_empty in Fs by (clear; lia). injection Fs as ->. rewrite N2Z.id in S4.
  assert (Fr4' : frame m m4 nothing) by (eapply frame_comp; [exact Fr3'|exact Fr4|intros b q Hb _ K; apply Fresh in K; [|reflexivity]; clear -Hb K; lia]).
  apply BaseProof.slice_inv in Etb. destruct Etb as [Ltb Etb].
  assert (Hs4 : holds m4 bs os sd) by (eapply holds_frame; [exact Hs|exact Fr4'|intros q _ []]).
  assert (Hd4 : head 18 (bV n) = Some (SCall (Some (v1 n)) f_compute_h1 [EVar 10; EVar 3; EInt (ofN (lm n)); EVar 4])) by (clear -Hn; destruct n as [|[|[|k]]]; [reflexivity..|lia]).
  eapply wp_head; [exact Hd4|].
  pose proof (stN_env _ _ _ _ _ _ 3%positive _ S4 eq_refl) as T3. pose proof (stN_env _ _ _ _ _ _ 4%positive _ S4 eq_refl) as T4. pose proof (stN_env _ _ _ _ _ _ 10%positive _ S4 eq_refl) as T10.
  cbn [cv] in T3, T4, T10. rewrite (lat_ext _ _ _ _ X13) in T3 by (cbn; clear; lia). rewrite (lat_ext _ _ _ _ X13) in T10 by (cbn; clear; lia). cbn [lat nth Lw L0 app fst snd] in T3, T10. rewrite Z.add_0_r in T3. cbn [den] in T4.
  change (rhoN _ 0) with (ofN ell) in T4. replace (5 * nb n) with (ofN (5 * (8 * N.of_nat (nq n)))) in T10 by (rewrite Nb; clear; lia).
  eapply wp_call; [eapply pes_cons; [apply pe_var; exact T10|]; eapply pes_cons; [apply pe_var; exact T3|]; eapply pes_cons; [apply pe_int|]; eapply pes_cons; [apply pe_var; exact T4|apply pes_nil]|].
  eapply calls_weak; [eapply (ref_compute_h1 (lm n) ell m4 bs _ tb bx ox x h1 C E8 Eb); [rewrite Etb; apply holds_sub; [exact Hs4|clear -Ls; lia]|exact Ltb|rewrite Etb; apply BaseProof.Forall_takeN, BaseProof.Forall_dropN; exact Bs|exact Hx4|exact Bx|exact Eh1]|].
  intros v m5 (-> & Hh1 & Fr5). cbn [set].
  pose proof (E_len _ _ _ Hn Eh4) as Lh4. pose proof (E_len _ _ _ Hn Er4) as Lr4.
  assert (Ll4 : length (l1 ++ hw ++ bsw ++ rw ++ [LL]) = S (ii n)) by (rewrite !app_length, Ll1, Lh4, Lbs, Lr4; cbn [length]; unfold ii, ir, ib; clear; lia).
  pose proof (stN_call P L3' (TV3 n) _ e4 m4 m5 (v1 n) h1 S4 ltac:(rewrite Ll4; exact Hbl) Fr5 Hh1) as S5. rewrite Ll4 in S5. fold (TV5 n) in S5.
  assert (Fr5' : frame m m5 nothing) by (eapply frame_comp; [exact Fr4'|exact Fr5|intros b q _ _ []]).
  eapply (stN_lead P _ (SPV n Hn)); [exact C5|exact S5|]. intros L6 e6 m6 X6 S6 Fr6. rewrite suf_suf.
  destruct (V_half n 0 sd ell [LL] hw bsw rw LL h1 (fst s2) r0 r1 Hn ltac:(clear; lia) Bs Eh4 Lbs Lr4 Er0 Er1 eq_refl) as (wa & Va & Ea). destruct (V_half n 2 sd ell [LL] hw bsw rw LL h1 (fst s2) r2 r3 Hn ltac:(clear; lia) Bs Eh4 Lbs Lr4 Er2 Er3 eq_refl) as (wb & Vb & Eb').
  unfold sgV6 in S6. rewrite ev_app in S6. fold l0 l1 in Va, Vb. rewrite Va, Vb in S6. clear Va Vb. change (length (gheap (TV6 n))) with 5%nat in S6. 
  assert (X16 : ext m Lw (firstn 5 L6)) by (apply ext_firstn; [eapply ext_trans; [apply Fr5'|exact X13|exact X6]|cbn; clear; lia]). set (L6' := firstn 5 L6) in *.
  pose proof (E_len _ _ _ Hn Ea) as La. pose proof (E_len _ _ _ Hn Eb') as Lb. assert (Nqw : (nq n <= nw n)%nat) by (clear -Hn; destruct n as [|[|[|k]]]; cbn; lia).
  assert (H0 : holds m6 bh oh (Fields.bf_store (fld n) (Fields.bf_add (Fields.bf_mul (fld n) r0 (fst s2)) (Fields.bf_mul_64 (fld n) r1 h1)))).
  { assert (Cq : exists lc q, nth_error (gheap (TV6 n)) 0 = Some lc /\ contig 0 (lps lc) = Some q /\ map fst q = qs n /\ map snd q = vars 0 (nq n) /\ forallb okN (map snd q) = true) by (clear -Hn; destruct n as [|[|[|k]]]; [eexists _, _; repeat split; reflexivity..|lia]).
    destruct Cq as (lc & q & Q1' & Q2' & Q3' & Q4' & Q5'). pose proof (stN_holds _ _ _ _ _ _ 0 _ _ S6 Q1' Q2' Q5') as K. rewrite Q3', Q4', ev_vars, (lat_ext _ _ _ _ X16) in K by (cbn; clear; lia). cbn [lat nth Lw L0 app fst snd] in K.
    rewrite (seg _ [] (firstn (nq n) wa) (firstn (nq n) wb)) in K by (reflexivity || (rewrite firstn_length; clear -La Nqw; lia)). rewrite (E_store n wa _ Hn Ea) in K. exact K. }
  assert (H4 : holds m6 (fst (lat L6' 4)) (snd (lat L6' 4)) (Fields.bf_store (fld n) (Fields.bf_add (Fields.bf_mul (fld n) r2 (fst s2)) (Fields.bf_mul_64 (fld n) r3 h1)))).
  { assert (Cq : exists lc q, nth_error (gheap (TV6 n)) 4 = Some lc /\ contig 0 (lps lc) = Some q /\ map fst q = qs n /\ map snd q = vars (nq n) (nq n) /\ forallb okN (map snd q) = true) by (clear -Hn; destruct n as [|[|[|k]]]; [eexists _, _; repeat split; reflexivity..|lia]).
    destruct Cq as (lc & q & Q1' & Q2' & Q3' & Q4' & Q5'). pose proof (stN_holds _ _ _ _ _ _ 4 _ _ S6 Q1' Q2' Q5') as K. rewrite Q3', Q4', ev_vars in K.
    rewrite (seg _ (firstn (nq n) wa) (firstn (nq n) wb) []) in K by ((rewrite app_nil_r; reflexivity) || (rewrite firstn_length; clear -La Lb Nqw; lia)). rewrite (E_store n wb _ Hn Eb') in K. exact K. }
  assert (Fr6' : frame m m6 (at_ bh oh (nb n + 2))).
  { eapply frame_comp; [eapply frame_weak; [exact Fr5'|intros b q _ _ []]|exact Fr6|]. intros b q Hb _ (l & o & z & [Il|[Il|[]]] & Nl & K); injection Il as <- <- <-.
    - rewrite (lat_ext _ _ _ _ X13) in K by (cbn; clear; lia). cbn [lat nth Lw L0 app fst snd] in K. unfold at_ in *. clear -K. lia.
    - destruct K as [-> _]. pose proof (ext_fresh _ _ _ 4 X13) as K. specialize (K ltac:(change (length Lw) with 4%nat; clear -Nl; lia)). clear -K Hb. lia. }
  pose proof (stN_env _ _ _ _ _ _ 1%positive _ S6 eq_refl) as U1. pose proof (stN_env _ _ _ _ _ _ 11%positive _ S6 eq_refl) as U11. pose proof (stN_env _ _ _ _ _ _ 13%positive _ S6 eq_refl) as U13. cbn [cv] in U1, U11, U13.
  rewrite (lat_ext _ _ _ _ X16) in U1 by (cbn; clear; lia). rewrite (lat_ext _ _ _ _ X16) in U11 by (cbn; clear; lia). cbn [lat nth Lw L0 app fst snd] in U1, U11. rewrite Z.add_0_r in U1, U11, U13.
  change Params.UNIVERSAL_HASH_B with 2%N in *.
  eapply (tail_V n e6 m6 bh oh _ _ bx (ox + ofN off1) _ _ x1); [exact Hn|exact U1|exact U11|exact U13|eapply inb_frame; [exact Fr6'|exact Ih]|exact H0|unfold Fields.bf_store; rewrite BaseProof.lenN_le_bytes, N2Nat.id; exact F3|apply BaseProof.bytes_ok_le_bytes|exact H4|unfold Fields.bf_store; rewrite BaseProof.lenN_le_bytes, N2Nat.id; exact F3|apply BaseProof.bytes_ok_le_bytes|..].
  - intros K. pose proof (ext_fresh _ _ _ 4 X16) as K2. rewrite (sat_length _ _ _ _ _ (proj2 S6)) in K2. specialize (K2 ltac:(cbn; clear; lia)). rewrite K in K2. pose proof (proj1 Ih) as K3. clear -K2 K3. lia.
  - eapply holds_frame; [rewrite Ex1 at 1; apply holds_sub; [exact Hx|clear -Lx1'; lia]|exact Fr6'|]. rewrite Lx1. intros q Hq [-> K]. clear -Hq K Sp2 Lx1' Nb. unfold sep in Sp2. lia.
  - exact Lx1.
  - rewrite Ex1. apply BaseProof.Forall_takeN, BaseProof.Forall_dropN. exact Bx.
  - clear -Sp2 Lx1' Nb. unfold sep in *. lia.
  - intros e' m' Fa Ha. split; [eapply frame_trans; [exact Fr6'|exact Fa]|exact Ha].
Qed.
