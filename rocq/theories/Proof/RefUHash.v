(** What the translated universal hash functions compute. *)
From Coq Require Import ZArith NArith List Bool FMapPositive Lia ZifyBool ZifyNat ZifyN Arith.
From Verif Require Import Model.CtLang Model.CtNames Model.CtFields Model.CtZkHash Model.CtProgram Proof.RefLogic Proof.RefTac Proof.RefMem Proof.RefSe Proof.RefSx Proof.RefWord Proof.RefFields Proof.RefWin.
From Verif Require Model.UHash Proof.UHashProof Proof.FieldProof.
Import ListNotations.
Local Open Scope Z_scope.
Ltac Zify.zify_post_hook ::= Z.div_mod_to_equations.

Lemma SPH : Forall (spec_ok phi) [(f_bf64_mul, sm_mul64)]. Proof. repeat constructor. exact ref_bf64_mul. Qed.
Notation sumsH := [(f_bf64_mul, sm_mul64)].
Definition TH0 (lam : Z) : gst sx := St [(1%positive, GPtr 0 0); (2%positive, GPtr 1 0); (3%positive, GInt (SC lam)); (4%positive, GInt (SV 1))] [] []
  [Loc false true 8 [PI 0 8 (SV 0)]; Loc false true 0 []].
Definition TH1 (lam : Z) : gst sx := St [(2%positive, GPtr 1 0); (3%positive, GInt (SC lam)); (4%positive, GInt (SV 1)); (6%positive, GInt (SV 0)); (7%positive, GInt (SC (lam / 8))); (8%positive, GInt (SV 2)); (9%positive, GPtr 3 0)] [] []
  [Loc false true 8 []; Loc false true 0 []; Loc true false 8 []; Loc true false 32 (zeros 0 32)].
Definition sgH1 (lam : Z) : list sx := [SV 0; SV 1; SD ODiv u32 (SB OSub u32 (SB OAdd u32 (SB OAdd u32 (SV 1) (SC lam)) (SC lam)) (SC 1)) (SC lam)].
Definition tws (lam : Z) : list nat := repeat 8%nat (Z.to_nat (lam / 64)).
Definition TH2 (lam : Z) : gst sx := match put_ps (TH1 lam) 3 0 (total (tws lam)) (var_ps 3 0 (tws lam)) with Some t => t | None => TH1 lam end.
Definition TH3 (lam : Z) : gst sx := St [(2%positive, GPtr 1 0); (6%positive, GInt (SV 0)); (7%positive, GInt (SC (lam / 8))); (8%positive, GInt (SV 1)); (11%positive, GInt (SV 2)); (13%positive, GInt (SV 3)); (14%positive, GInt (SV 4))] [] []
  [Loc false true 8 []; Loc false true 0 []].
Fixpoint hsg (n k : nat) : sx * sx :=
  match k with O => (SC 0, SC 1) | S k => let '(h, r) := hsg n k in (x64 OXor h (SA 30 0 [r; SV (3 + (n - 1 - k))]), SA 30 0 [r; SV 0]) end.
Definition sgH2 (lam : Z) : list sx := let n := Z.to_nat (lam / 64) in [SV 0; SV 2; fst (hsg n n); snd (hsg n n); SC (lam / 8)].
Definition winH (lam : Z) : win := Win 1 0 1 (SB OSub u32 (SB OSub u32 (SB OMul u32 (SV 1) (SC (lam / 8))) (SV 4)) (SC 8)) [8%nat].
Definition TH4 (lam : Z) : gst sx := add_win (TH3 lam) 5 (winH lam).
Definition sgH3 : list sx := [SV 0; SV 1; x64 OXor (SV 2) (SA 30 0 [SV 3; SV 5]); SA 30 0 [SV 3; SV 0]; SB OAdd u32 (SV 4) (SC 8)].
Definition loopH : expr * stmt * stmt := match suf 12 (fbody c_compute_h1) with SSeq (SLoop c i b) _ => (c, i, b) | _ => (EInt 0, SSkip, SSkip) end.
Definition lamz (lam : N) : Prop := lam = 128%N \/ lam = 192%N \/ lam = 256%N.
Lemma chkH lam : lamz lam ->
  lead_chk sumsH 300 5 (TH0 (ofN lam)) (fbody c_compute_h1) (TH1 (ofN lam)) (sgH1 (ofN lam)) [] = true /\
  put_ps (TH1 (ofN lam)) 3 0 (total (tws (ofN lam))) (var_ps 3 0 (tws (ofN lam))) = Some (TH2 (ofN lam)) /\
  lead_chk sumsH 300 6 (TH2 (ofN lam)) (suf 6 (fbody c_compute_h1)) (TH3 (ofN lam)) (sgH2 (ofN lam)) [] = true /\
  turn_chk sumsH 300 (TH4 (ofN lam)) (snd (fst loopH)) (snd loopH) (TH3 (ofN lam)) sgH3 [] = true /\
  sev (TH3 (ofN lam)) (fst (fst loopH)) = Some (GInt (SB OLt s32 (SV 4) (SB OMul u32 (SV 1) (SC (ofN lam / 8))))).
Proof. intros [->|[->| ->]]; vm_compute; auto. Qed.
Lemma code_compute_h1 : PositiveMap.find f_compute_h1 code = Some c_compute_h1. Proof. vm_compute. reflexivity. Qed.

(** one product *)
Lemma P30 a b : (a < 2 ^ 64)%N -> (b < 2 ^ 64)%N -> (nth 0 (P 30 [a; b]) 0 mod 2 ^ 64)%N = Fields.bf64_mul a b.
Proof.
  intros A B. change (P 30 [a; b]) with [Limbs.word64_mul a b]. cbn [nth]. rewrite WordProof.word64 by exact A. apply N.mod_small. apply (FieldProof.bf_mul_lt Fields.F64); [exact FieldProof.F64_ok|exact A|exact B].
Qed.

Lemma bf_load_inv F x o v : Fields.bf_load F x o = Base.Ok v -> (o + Fields.f_n F / 8 <= Base.lenN x)%N /\ v = wat x o (N.to_nat (Fields.f_n F / 8)) \/ (Fields.f_n F / 8 = 0)%N.
Proof.
  unfold Fields.bf_load. destruct (Base.slice x o (Fields.f_n F / 8)) as [s|] eqn:E; [|discriminate]. cbn [Base.bind]. intros [= <-]. apply BaseProof.slice_inv in E. destruct E as [L ->].
  rewrite BaseProof.lenN_takeN, BaseProof.lenN_dropN in L. destruct (N.eq_dec (Fields.f_n F / 8) 0) as [Z|Z]; [right; exact Z|left]. split; [lia|]. unfold wat. rewrite N2Nat.id. reflexivity.
Qed.
Lemma load64_inv x o v : Fields.bf_load Fields.F64 x o = Base.Ok v -> (o + 8 <= Base.lenN x)%N /\ v = wat x o 8.
Proof. intros H. apply bf_load_inv in H. destruct H as [H|H]; [exact H|discriminate]. Qed.
Lemma wat_small x o : Base.bytes_ok x -> (wat x o 8 < 2 ^ 64)%N.
Proof. intros B. pose proof (words_of_small x B [8%nat] o eq_refl) as H. inversion H. assumption. Qed.
Lemma lxor_small a b : (a < 2 ^ 64)%N -> (b < 2 ^ 64)%N -> (N.lxor a b < 2 ^ 64)%N.
Proof. apply BaseProof.lxor_lt. Qed.

(** the first loop *)
Lemma hsg_ok tmp bt n l : (bt < 2 ^ 64)%N -> Base.bytes_ok tmp -> Base.lenN tmp = (8 * N.of_nat n)%N -> nth 0 l 0%N = bt -> (forall j, (j < n)%nat -> nth (3 + j) l 0%N = wat tmp (8 * N.of_nat j) 8) ->
  forall k, (k <= n)%nat -> exists h r, Base.foldM (fun s k => UHash.h1_step bt tmp (8 * N.of_nat n) s (8 * k)) (Base.Nrange (N.of_nat k)) (0%N, 1%N) = Base.Ok (h, r) /\
   denN P (fun k => nth k l 0%N) (fst (hsg n k)) = h /\ denN P (fun k => nth k l 0%N) (snd (hsg n k)) = r /\ (h < 2 ^ 64)%N /\ (r < 2 ^ 64)%N.
Proof.
  intros Hb Bt Lt H0 Hw. induction k as [|k IH]; intros Hk.
  - exists 0%N, 1%N. split; [reflexivity|]. split; [reflexivity|]. split; [reflexivity|]. split; reflexivity.
  - destruct (IH ltac:(lia)) as (h & r & E & Eh & Er & Lh & Lr). clear IH. replace (N.of_nat (S k)) with (N.of_nat k + 1)%N by lia.
    rewrite BaseProof.Nrange_succ, BaseProof.foldM_app, E. cbn [Base.bind Base.foldM]. unfold UHash.h1_step at 1.
    assert (V : Fields.bf_load Fields.F64 tmp (8 * N.of_nat n - 8 * N.of_nat k - 8) = Base.Ok (wat tmp (8 * N.of_nat (n - 1 - k)) 8)).
    { unfold Fields.bf_load. change (Fields.f_n Fields.F64 / 8)%N with 8%N. rewrite BaseProof.slice_ok by lia. cbn [Base.bind]. unfold wat. do 4 f_equal. lia. }
    rewrite V. cbn [Base.bind]. eexists _, _. split; [reflexivity|]. cbn [hsg]. destruct (hsg n k) as [xh xr]. cbn [fst snd] in *. unfold x64. cbn [denN map].
    rewrite Eh, Er, H0, Hw by lia. pose proof (wat_small tmp (8 * N.of_nat (n - 1 - k)) Bt) as Hx. rewrite !P30 by assumption. split; [reflexivity|]. split; [reflexivity|].
    assert (M : forall a b, (a < 2 ^ 64)%N -> (b < 2 ^ 64)%N -> (Fields.bf64_mul a b < 2 ^ 64)%N) by (intros a b A B; apply (FieldProof.bf_mul_lt Fields.F64); [exact FieldProof.F64_ok|exact A|exact B]).
    split; [apply lxor_small; auto|auto].
Qed.

Lemma words_rep tmp a b c : forall n j, (j < n)%nat -> nth (3 + j) ([a; b; c] ++ words_of tmp 0 (repeat 8%nat n)) 0%N = wat tmp (8 * N.of_nat j) 8.
Proof.
  assert (G : forall n j o, (j < n)%nat -> nth j (words_of tmp o (repeat 8%nat n)) 0%N = wat tmp (o + 8 * N.of_nat j) 8).
  { induction n as [|n IH]; intros j o H; [lia|]. cbn [repeat words_of]. destruct j as [|j]; [cbn [nth]; f_equal; lia|]. cbn [nth]. rewrite IH by lia. f_equal. lia. }
  intros n j H. cbn [app nth Nat.add]. rewrite G by exact H. f_equal.
Qed.
Definition ll (lam ell : N) : N := ((ell + lam + lam - 1) / lam)%N.
Lemma last_block_padded lam ell x tmp : lamz lam -> (ell mod 8 = 0)%N -> UHash.last_block lam ell x = Base.Ok tmp ->
  let off := ((ll lam ell - 1) * (lam / 8))%N in let n := UHash.last_block_len lam ell in
  (off + n <= Base.lenN x)%N /\ (0 < n <= lam / 8)%N /\ tmp = padded x off n (lam / 8).
Proof.
  intros C E8 H. unfold UHash.last_block in H. fold (ll lam ell) in H. cbv zeta in *. set (off := ((ll lam ell - 1) * (lam / 8))%N) in *.
  assert (Hn : (0 < UHash.last_block_len lam ell <= lam / 8)%N).
  { unfold UHash.last_block_len. destruct (N.eqb_spec ((ell + lam) mod lam) 0) as [Z|Z]; destruct C as [->|[->| ->]]; lia. }
  set (n := UHash.last_block_len lam ell) in *. destruct (Base.slice x off n) as [s|] eqn:E; [|discriminate]. cbn [Base.bind] in H. apply BaseProof.slice_inv in E. destruct E as [L ->].
  pose proof L as L'. rewrite BaseProof.lenN_takeN, BaseProof.lenN_dropN in L'. split; [lia|]. split; [exact Hn|]. apply BaseProof.blit_inv in H. destruct H as [_ ->].
  rewrite L. unfold padded. rewrite BaseProof.takeN_0. cbn [app]. f_equal. unfold Base.dropN, Base.zeros. rewrite N.add_0_l.
  replace (N.to_nat (lam / 8)) with (N.to_nat n + N.to_nat (lam / 8 - n))%nat by lia. rewrite repeat_app, skipn_app, skipn_all2 by (rewrite repeat_length; lia).
  rewrite repeat_length, Nat.sub_diag. reflexivity.
Qed.
Lemma foldM_cons_inv {S A} (f : S -> A -> Base.res S) x l s r : Base.foldM f (x :: l) s = Base.Ok r -> exists s', f s x = Base.Ok s' /\ Base.foldM f l s' = Base.Ok r.
Proof. cbn [Base.foldM]. destruct (f s x) as [s'|]; [|discriminate]. cbn [Base.bind]. eauto. Qed.

Lemma ll_bounds lam ell : lamz lam -> (1 <= ll lam ell)%N /\ (ll lam ell * (lam / 8) * 8 < ell + lam + lam)%N.
Proof. intros C. unfold ll. destruct C as [->|[->| ->]]; [change (128 / 8)%N with 16%N|change (192 / 8)%N with 24%N|change (256 / 8)%N with 32%N]; lia. Qed.

Lemma h1_arith lam ell : lamz lam -> (ell mod 8 = 0)%N -> (ell + 2 * lam < 2 ^ 32)%N ->
  (1 <= ll lam ell < 2 ^ 32)%N /\ (ll lam ell * (lam / 8) < 2 ^ 32)%N /\ ((ll lam ell - 1) * (lam / 8) < 2 ^ 32)%N /\ (16 <= lam / 8 <= 32)%N /\ (128 <= lam <= 256)%N /\
  (8 * (lam / 8 / 8) = lam / 8)%N /\ (ll lam ell * (lam / 8) = 8 * (ll lam ell * (lam / 8 / 8)))%N /\ (lam / 8 / 8 <= ll lam ell * (lam / 8 / 8))%N.
Proof.
  intros C E8 Eb. destruct (ll_bounds lam ell C) as [A B]. assert (D : (ll lam ell < 2 ^ 32)%N) by (unfold ll; destruct C as [->|[->| ->]]; lia).
  destruct C as [->|[->| ->]]; [change (128 / 8)%N with 16%N in *; change (16 / 8)%N with 2%N|change (192 / 8)%N with 24%N in *; change (24 / 8)%N with 3%N|change (256 / 8)%N with 32%N in *; change (32 / 8)%N with 4%N];
    repeat split; lia.
Qed.
Ltac Zify.zify_post_hook ::= idtac.
Lemma h1_off lam ell : lamz lam -> (ell mod 8 = 0)%N -> (ell + 2 * lam < 2 ^ 32)%N -> bin OMul u32 (bin OSub u32 (ofN (ll lam ell)) 1) (ofN (lam / 8)) = ofN ((ll lam ell - 1) * (lam / 8)).
Proof. intros C E8 Eb. destruct (h1_arith lam ell C E8 Eb) as (A1 & A2 & A3 & A4 & A5 & A6 & A7 & A8). change 1 with (ofN 1). rewrite nsub by lia. apply nmul. lia. Qed.
Lemma h1_len e m lam ell x1 x2 x3 : lamz lam -> (ell mod 8 = 0)%N -> (ell + 2 * lam < 2 ^ 32)%N -> pe e m x1 (VInt (ofN ell)) -> pe e m x2 (VInt (ofN lam)) -> pe e m x3 (VInt (ofN (lam / 8))) ->
  pe e m (ECond (EBin OEq s32 (EDiv OMod u32 (EBin OAdd u32 x1 x2) x2) (EInt 0)) x3 (EDiv ODiv u32 (EDiv OMod u32 (EBin OAdd u32 x1 x2) x2) (EInt 8))) (VInt (ofN (UHash.last_block_len lam ell))).
Proof.
  intros C E8 Eb H1 H2 H3. destruct (h1_arith lam ell C E8 Eb) as (A1 & A2 & A3 & A4 & A5 & A6 & A7 & A8).
  assert (HM : pe e m (EDiv OMod u32 (EBin OAdd u32 x1 x2) x2) (VInt (ofN ((ell + lam) mod lam)))).
  { eapply pe_eq; [eapply pe_div; [eapply pe_bin; [exact H1|exact H2]|exact H2|lia]|]. rewrite nadd, nmod by lia. reflexivity. }
  eapply pe_cond; [eapply pe_bin; [exact HM|apply pe_int]|]. cbn [bin]. rewrite truth_b. unfold UHash.last_block_len. pose proof (N.mod_lt (ell + lam) lam ltac:(lia)) as ML.
  set (k := ((ell + lam) mod lam)%N) in *. destruct (N.eqb_spec k 0) as [Z|Z].
  - rewrite Z. exact H3.
  - destruct (Z.eqb_spec (ofN k) 0) as [Z'|Z']; [lia|]. eapply pe_eq; [eapply pe_div; [exact HM|apply pe_int|discriminate]|]. f_equal. change 8 with (ofN 8). apply ndiv; lia.
Qed.

Lemma condH lam ell a b c i : lamz lam -> (ell mod 8 = 0)%N -> (ell + 2 * lam < 2 ^ 32)%N ->
  den (phi_of P) (rhoN [a; ll lam ell; b; c; i]) (SB OLt s32 (SV 4) (SB OMul u32 (SV 1) (SC (ofN lam / 8)))) = if (i <? ll lam ell * (lam / 8))%N then 1 else 0.
Proof.
  intros C E8 Eb. destruct (h1_arith lam ell C E8 Eb) as (A1 & A2 & A3 & A4 & A5 & A6 & A7 & A8). cbn [den]. change (rhoN [a; ll lam ell; b; c; i] 1) with (ofN (ll lam ell)). change (rhoN [a; ll lam ell; b; c; i] 4) with (ofN i).
  change 8 with (ofN 8). rewrite <- N2Z.inj_div, nmul by lia. cbn [bin]. destruct (Z.ltb_spec (ofN i) (ofN (ll lam ell * (lam / 8)))), (N.ltb_spec i (ll lam ell * (lam / 8))); try reflexivity; lia.
Qed.

Theorem ref_compute_h1 lam ell m bt ot tb bx ox x h : lamz lam -> (ell mod 8 = 0)%N -> (ell + 2 * lam < 2 ^ 32)%N ->
  holds m bt ot tb -> Base.lenN tb = 8%N -> Base.bytes_ok tb -> holds m bx ox x -> Base.bytes_ok x ->
  UHash.compute_h1 tb x lam ell = Base.Ok h ->
  calls code f_compute_h1 [VPtr bt ot; VPtr bx ox; VInt (ofN lam); VInt (ofN ell)] m (fun v m' => v = VInt (ofN h) /\ (h < 2 ^ 64)%N /\ frame m m' nothing).
Proof.
  intros C E8 Eb Ht Lt Bt Hx Bx H. destruct (chkH lam C) as (C1 & C2 & C3 & C4 & C5).
  unfold UHash.compute_h1 in H. fold (ll lam ell) in H. destruct (Fields.bf_load Fields.F64 tb 0) as [vt|] eqn:Et; [|discriminate]. cbn [Base.bind] in H.
  apply load64_inv in Et. destruct Et as [_ ->]. set (vt := wat tb 0 8) in *. cbv zeta in H. destruct (UHash.last_block lam ell x) as [tmp|] eqn:El; [|discriminate]. cbn [Base.bind] in H.
  destruct (last_block_padded _ _ _ _ C E8 El) as (Hof & Hn & Etmp). set (off := ((ll lam ell - 1) * (lam / 8))%N) in *. set (n := UHash.last_block_len lam ell) in *.
  destruct (h1_arith lam ell C E8 Eb) as (A1 & A2 & A3 & A4 & A5 & A6 & A7 & A8).
  destruct (Base.foldM _ (Base.Nrange (lam / 8 / 8)) _) as [s1|] eqn:F1; [|discriminate]. cbn [Base.bind] in H.
  destruct (Base.foldM _ (Base.Nfromto (lam / 8 / 8) _) s1) as [s2|] eqn:F2; [|discriminate]. cbn [Base.bind] in H. injection H as <-.
  assert (Hvt : (vt < 2 ^ 64)%N) by (apply wat_small, Bt).
  apply (calls_intro code _ _ _ _ _ code_compute_h1). set (e0 := bind_params _ _ _).
  set (L0 := [(bt, ot); (bx, ox)]).
  assert (S0 : stN P L0 (TH0 (ofN lam)) [vt; ell] e0 m).
  { split; [repeat constructor; [exact Hvt|lia]|]. constructor.
    - apply env_intro. repeat constructor; cbn; try lia; try reflexivity; f_equal; lia.
    - constructor.
    - constructor.
    - constructor; [|constructor; [|constructor]].
      + split; [eapply inb_sub; [exact (proj1 Ht)|cbn; lia..]|]. split; [discriminate|]. constructor; [|constructor]. cbn [piece_ok lsize fst snd].
        pose proof (holds_arr _ _ _ _ Ht Bt [8%nat] 0%N) as A. rewrite Lt in A. specialize (A ltac:(cbn; lia)). cbn [arr words_of map] in A. rewrite Z.add_0_r in A.
        rewrite Z.add_0_r. split; [lia|]. split; [cbn; lia|]. split; [apply A|apply A].
      + split; [eapply inb_sub; [exact (proj1 Hx)|cbn; lia..]|]. split; [discriminate|]. constructor.
    - apply apart_first; [reflexivity|discriminate]. }
  eapply (stN_lead P _ SPH); [exact C1|exact S0|]. intros L1 e1 m1 X1 S1 Fr1. change (evs_ P [vt; ell] (sgH1 (ofN lam))) with [vt; ell; denN P (fun k => nth k [vt; ell] 0%N) (nth 2 (sgH1 (ofN lam)) (SC 0))] in S1.
  assert (V3 : denN P (fun k => nth k [vt; ell] 0%N) (nth 2 (sgH1 (ofN lam)) (SC 0)) = ll lam ell).
  { cbn [sgH1 nth denN]. rewrite N2Z.id. rewrite (nadd ell lam) by lia. rewrite N2Z.id. rewrite (nadd (ell + lam) lam) by lia. rewrite N2Z.id. change (ofN (Z.to_N 1)) with (ofN 1). rewrite nsub by lia. rewrite N2Z.id, ndiv by lia. rewrite N2Z.id. reflexivity. }
  rewrite V3 in S1. apply (ext_firstn _ _ _ 4) in X1; [|cbn; lia]. change (length (gheap (TH1 (ofN lam)))) with 4%nat in S1. set (L1' := firstn 4 L1) in *.
  pose proof (stN_env _ _ _ _ _ _ 2%positive _ S1 eq_refl) as E2. pose proof (stN_env _ _ _ _ _ _ 3%positive _ S1 eq_refl) as E3. pose proof (stN_env _ _ _ _ _ _ 4%positive _ S1 eq_refl) as E4.
  pose proof (stN_env _ _ _ _ _ _ 7%positive _ S1 eq_refl) as E7. pose proof (stN_env _ _ _ _ _ _ 8%positive _ S1 eq_refl) as E8'. pose proof (stN_env _ _ _ _ _ _ 9%positive _ S1 eq_refl) as E9.
  cbn [cv] in E2, E3, E4, E7, E8', E9. rewrite (lat_ext _ _ _ _ X1) in E2 by (cbn; lia). cbn [lat nth L0 fst snd] in E2. rewrite Z.add_0_r in E2, E9. cbn [den] in E3, E4, E7, E8'. 
  change (rhoN [vt; ell; ll lam ell] 1) with (ofN ell) in E4. change (rhoN [vt; ell; ll lam ell] 2) with (ofN (ll lam ell)) in E8'. change 8 with (ofN 8) in E7. rewrite <- N2Z.inj_div in E7.
  assert (Hx1 : holds m1 bx ox x) by (eapply holds_frame; [exact Hx|exact Fr1|intros q _ (? & ? & ? & [] & _)]).
  assert (Lt3 : total (tws (ofN lam)) = ofN (lam / 8)) by (destruct C as [->|[->| ->]]; reflexivity).
  assert (Ez : holds m1 (fst (lat L1' 3)) (snd (lat L1' 3)) (Base.zeros 32)) by exact (stN_holds _ _ _ _ _ _ 3 _ _ S1 eq_refl eq_refl eq_refl).
  eapply wp_head; [reflexivity|]. eapply (wp_copy1 _ _ _ _ _ (fst (lat L1' 3)) (snd (lat L1' 3)) bx (ox + ofN off) (ofN n)).
  { apply pe_var. exact E9. }
  { eapply pe_eq; [ev|]. rewrite h1_off by assumption. fold off. f_equal. lia. }
  { apply h1_len; try assumption; apply pe_var; assumption. }
  { pose proof (proj1 Ez) as I0. change (ofN (Base.lenN (Base.zeros 32))) with 32 in I0. eapply inb_sub; [exact I0|lia..]. }
  { eapply inb_sub; [exact (proj1 Hx1)|lia..]. }
  pose proof (stN_fill P L1' (TH1 (ofN lam)) [vt; ell; ll lam ell] e1 m1 3 32 bx ox x off n (tws (ofN lam)) (TH2 (ofN lam)) S1 ltac:(destruct C as [->|[->| ->]]; reflexivity) Ez Hx1 Bx ltac:(lia)
    ltac:(rewrite Lt3; lia) ltac:(destruct C as [->|[->| ->]]; reflexivity) C2) as S2.
  set (m2 := copy m1 _ _ _ _ _) in *. rewrite Lt3, N2Z.id, <- Etmp in S2.
  assert (Tb : Base.bytes_ok tmp) by (rewrite Etmp; apply padded_bytes, Bx). assert (Tl : Base.lenN tmp = (lam / 8)%N) by (rewrite Etmp; apply padded_len; lia).
  assert (Fr2 : frame m m2 nothing).
  { eapply frame_comp; [eapply frame_weak; [exact Fr1|]; intros b q _ _ (? & ? & ? & [] & _)|apply frame_copy_at; pose proof (proj1 Ez) as I0; change (ofN (Base.lenN (Base.zeros 32))) with 32 in I0; eapply inb_sub; [exact I0|lia..]|].
    intros b q Hb _ [-> _]. pose proof (ext_fresh _ _ _ 3 X1) as K. rewrite (sat_length _ _ _ _ _ (proj2 S1)) in K. specialize (K ltac:(cbn; lia)). lia. }
  eapply (stN_lead P _ SPH); [exact C3|exact S2|]. intros L3 e3 m3 X3 S3 Fr3. change (suf 6 (suf 6 (fbody c_compute_h1))) with (suf 12 (fbody c_compute_h1)).
  set (l2 := [vt; ell; ll lam ell] ++ words_of tmp 0 (tws (ofN lam))) in *.
  assert (Nn : exists k, tws (ofN lam) = repeat 8%nat k /\ Z.to_nat (ofN lam / 64) = k /\ (lam / 8 = 8 * N.of_nat k)%N) by (destruct C as [->|[->| ->]]; eexists; (split; [|split]); reflexivity).
  destruct Nn as (nn & Tn & Zn & Nl).
  destruct (hsg_ok tmp vt nn l2 Hvt Tb ltac:(lia) eq_refl ltac:(intros j Hj; unfold l2; rewrite Tn; apply words_rep, Hj) nn (le_n _)) as (h1 & r1 & G1 & D1 & D2 & B1 & B2).
  rewrite <- Nl in G1. replace (N.of_nat nn) with (lam / 8 / 8)%N in G1 by lia. rewrite F1 in G1. injection G1 as ->.
  assert (V5 : evs_ P l2 (sgH2 (ofN lam)) = [vt; ll lam ell; h1; r1; (lam / 8)%N]).
  { unfold sgH2, evs_. rewrite Zn. cbn [map]. rewrite D1, D2. cbn [denN]. repeat f_equal. lia. }
  rewrite V5 in S3. clear V5 D1 D2. change (length (gheap (TH3 (ofN lam)))) with 2%nat in S3.
  assert (XL : firstn 2 L3 = L0).
  { destruct X3 as (R3 & -> & _). destruct X1 as (R1 & -> & _). reflexivity. }
  rewrite XL in S3. assert (Fr3' : frame m m3 nothing) by (eapply frame_comp; [exact Fr2|exact Fr3|intros b q _ _ (? & ? & ? & [] & _)]).
  eapply wp_head; [reflexivity|]. change (head 12 (fbody c_compute_h1)) with (Some (SLoop (fst (fst loopH)) (snd (fst loopH)) (snd loopH))).
  assert (NE : forall m m', frame m m' (wset L0 []) -> frame m m' nothing) by (intros ma mb F; eapply frame_weak; [exact F|intros b q _ _ (? & ? & ? & [] & _)]).
  set (J := fun (k : Z) (l : list N) => exists s, Base.foldM (fun s k => UHash.h1_step vt x (ll lam ell * (lam / 8)) s (8 * k)) (Base.Nfromto (Z.to_N k) (ll lam ell * (lam / 8 / 8))) s = Base.Ok s2 /\
    l = [vt; ll lam ell; fst s; snd s; (8 * Z.to_N k)%N]).
  apply (stN_loop P _ SPH 300 (TH3 (ofN lam)) (TH4 (ofN lam)) _ _ _ _ sgH3 [] J (fun m => holds m bx ox x) (ofN (lam / 8 / 8)) (ofN (ll lam ell * (lam / 8 / 8))) L0 ltac:(lia) C5 C4) with (l := [vt; ll lam ell; h1; r1; (lam / 8)%N]).
  { intros i l Hi _ (s & _ & ->). rewrite condH by (assumption || lia). destruct (N.ltb_spec (8 * Z.to_N i) (ll lam ell * (lam / 8))); [discriminate|lia]. }
  { intros l _ (s & _ & ->). rewrite condH by (assumption || lia). destruct (N.ltb_spec (8 * Z.to_N (ofN (ll lam ell * (lam / 8 / 8)))) (ll lam ell * (lam / 8))); [lia|reflexivity]. }
  { intros i l e m' Hi (s & Fs & ->) Hx' S. rewrite BaseProof.Nfromto_cons in Fs by lia. apply foldM_cons_inv in Fs. destruct Fs as (s' & Hs & Fs). destruct s as [ha ra]. unfold UHash.h1_step in Hs. cbn [fst snd] in *.
    set (off2 := (ll lam ell * (lam / 8) - 8 * Z.to_N i - 8)%N) in *. destruct (Fields.bf_load Fields.F64 x off2) as [v|] eqn:Ev; [|discriminate]. cbn [Base.bind] in Hs. injection Hs as <-.
    apply load64_inv in Ev. destruct Ev as [Lv ->]. exists [(bx, ox + ofN off2)], (words_of x off2 [8%nat]). split.
    - apply (stN_bytes P m' L0 L0 (TH3 (ofN lam)) [vt; ll lam ell; ha; ra; (8 * Z.to_N i)%N] e m' (winH (ofN lam)) bx ox x off2 S); try assumption.
      + destruct C as [->|[->| ->]]; reflexivity.
      + apply ext_refl.
      + cbn; lia.
      + reflexivity.
      + cbn [winH w_o w_sc w_x den]. change (rhoN [vt; ll lam ell; ha; ra; (8 * Z.to_N i)%N] 1) with (ofN (ll lam ell)). change (rhoN [vt; ll lam ell; ha; ra; (8 * Z.to_N i)%N] 4) with (ofN (8 * Z.to_N i)).
        change 8 with (ofN 8). rewrite <- N2Z.inj_div. rewrite nmul by lia. rewrite nsub by lia. rewrite nsub by lia. fold off2. lia.
      + destruct C as [->|[->| ->]]; reflexivity.
      + intros [|[|j]] lj _ Ej Rj; cbn in Ej; try (injection Ej as <-; discriminate Rj). destruct j; discriminate Ej.
      + change (total (w_ws (winH (ofN lam)))) with 8. lia.
      + reflexivity.
    - eexists. split; [replace (Z.to_N (i + 1)) with (Z.to_N i + 1)%N by lia; exact Fs|]. cbn [fst snd words_of app sgH3 evs_ map]. unfold x64. cbn [denN map nth].
      pose proof (proj1 S) as K. inversion K as [|? ? _ K1]. inversion K1 as [|? ? _ K2]. inversion K2 as [|? ? K3 K4]. inversion K4 as [|? ? K5 _]. pose proof (wat_small x off2 Bx) as Kw.
      rewrite !P30 by assumption. change (ofN (Z.to_N 8)) with (ofN 8). rewrite nadd by lia. rewrite N2Z.id. replace (8 * Z.to_N (i + 1))%N with (8 * Z.to_N i + 8)%N by lia. reflexivity. }
  { intros ma mb F Hh. eapply holds_frame; [exact Hh|exact (NE _ _ F)|intros q _ []]. }
  { exact S3. }
  { exists (h1, r1). rewrite N2Z.id. split; [exact F2|]. cbn [fst snd]. rewrite A6. reflexivity. }
  { eapply holds_frame; [exact Hx|exact Fr3'|intros q _ []]. }
  intros l4 e4 m4 S4 (s & Fs & ->) _ Fr4. eapply wp_return; [apply pe_var; exact (stN_env _ _ _ _ _ _ 11%positive _ S4 eq_refl)|]. rewrite N2Z.id, BaseProof.Nfromto_empty in Fs by lia. injection Fs as ->.
  split; [reflexivity|]. split; [pose proof (proj1 S4) as K; inversion K as [|? ? _ K1]; inversion K1 as [|? ? _ K2]; inversion K2; assumption|].
  eapply frame_trans; [exact Fr3'|exact (NE _ _ Fr4)].
Qed.
