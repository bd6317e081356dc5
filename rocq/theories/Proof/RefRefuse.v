(** The translated checks of the arguments of sign, sign_with_randomness and verify: faest_param.c.in:63-101. *)
From Coq Require Import ZArith NArith List Bool FMapPositive Lia ZifyBool ZifyNat ZifyN.
From Verif Require Import Model.Base Model.Params Proof.BaseProof Spec.OwfSpec Spec.KeySpec.
From Verif Require Import Model.CtLang Model.CtNames Model.CtApi Model.CtProgram Spec.RefSpec Spec.RefRefuseSpec Proof.RefLogic Proof.RefTac Proof.RefMem Proof.RefAes Proof.RefKeys Proof.RefApi Proof.RefProps.
Import ListNotations.
Local Open Scope Z_scope.
Arguments wrap : simpl never.

Definition either (a b : expr) : expr := ECond a (EInt 1) (EBin ONe s32 b (EInt 0)).
Definition null (x : positive) : expr := EIsNull (EVar x).
Definition small (x : positive) (i : paramid) : expr := EBin OLt s32 (ELoad 8 (EVar x)) (EInt (ofN (sig_size i))).
Definition refuse (c : expr) : stmt := SIf c (SReturn (EInt (-1))) SSkip.
Definition swr_check (i : paramid) : expr := either (either (either (either (null 1) (null 6)) (null 7)) (small 7 i)) (ECond (null 4) (EBin ONe s32 (EVar 5) (EInt 0)) (EInt 0)).
Definition sign_check (i : paramid) : expr := either (either (either (null 1) (null 4)) (null 5)) (small 5 i).
Definition verify_check (i : paramid) : expr := either (either (null 1) (null 4)) (EBin ONe s32 (EVar 5) (EInt (ofN (sig_size i)))).

Definition swr_rest (i : paramid) : stmt := let h := ofN (owf_input_size i) in
  SAlloc 11 (EInt 36) ;;
  SCall None f_faest_get_paramset [EVar 11; EInt (ofN (paramid_to_N i))] ;;
  SCall None f_faest_sign [EVar 6; EVar 2; EVar 3; EAt (EVar 1) 1 (EInt h); EVar 1; EVar 8; EVar 4; EVar 5; EVar 11] ;;
  SStore 8 (EVar 7) (EInt (ofN (sig_size i))) ;;
  SReturn (EInt 0).
Definition swr_fun (i : paramid) : func := let h := ofN (owf_input_size i) in Func [1%positive; 2%positive; 3%positive; 4%positive; 5%positive; 6%positive; 7%positive] (
  refuse (swr_check i) ;;
  SAlloc 8 (EInt h) ;;
  SCall (Some 9%positive) (owf_fn i) [EAt (EVar 1) 1 (EInt h); EVar 1; EVar 8] ;;
  SShow 10 (EVar 9) ;;
  refuse (EUn OLNot s32 (EVar 10)) ;;
  swr_rest i).
Definition sign_fun (i : paramid) : func := let n := ofN (p_lambda (param_of i) / 8) in Func [1%positive; 2%positive; 3%positive; 4%positive; 5%positive] (
  refuse (sign_check i) ;;
  SAlloc 6 (EInt n) ;;
  SCall None f_rand_bytes [EVar 6; EInt n] ;;
  SCall (Some 8%positive) (sign_with_randomness_of i) [EVar 1; EVar 2; EVar 3; EVar 6; EInt n; EVar 4; EVar 5] ;;
  SReturn (EVar 8)).
Definition verify_fun (i : paramid) : func := let h := ofN (owf_input_size i) in Func [1%positive; 2%positive; 3%positive; 4%positive; 5%positive] (
  refuse (verify_check i) ;;
  SAlloc 6 (EInt 36) ;;
  SCall None f_faest_get_paramset [EVar 6; EInt (ofN (paramid_to_N i))] ;;
  SCall (Some 7%positive) f_faest_verify [EVar 2; EVar 3; EVar 4; EVar 1; EAt (EVar 1) 1 (EInt h); EVar 6] ;;
  SReturn (EVar 7)).
Lemma code_swr i : PositiveMap.find (sign_with_randomness_of i) code = Some (swr_fun i). Proof. destruct i; vm_compute; reflexivity. Qed.
Lemma code_sign i : PositiveMap.find (sign_of i) code = Some (sign_fun i). Proof. destruct i; vm_compute; reflexivity. Qed.
Lemma code_verify i : PositiveMap.find (verify_of i) code = Some (verify_fun i). Proof. destruct i; vm_compute; reflexivity. Qed.

(** ** The checks *)
Definition pb (e : env) (m : mem) (x : expr) (c : bool) : Prop := pe e m x (VInt (b2z c)).
Lemma either_true e m a b : pb e m a true -> pb e m (either a b) true.
Proof. intros A. eapply pe_cond; [exact A|]. apply pe_int. Qed.
Lemma either_false e m a b c : pb e m a false -> pb e m b c -> pb e m (either a b) c.
Proof. intros A B. eapply pe_cond; [exact A|]. eapply pe_eq; [eapply pe_bin; [exact B|apply pe_int]|]. destruct c; reflexivity. Qed.
Definition is_ptr (v : value) : bool := match v with VPtr _ _ => true | _ => false end.
Lemma null_check_of e m x v : lookup e x = v -> pb e m (null x) (negb (is_ptr v)).
Proof. intros E. eapply pe_eq; [apply pe_isnull, pe_var, E|]. destruct v; reflexivity. Qed.
Lemma small_of e m x v i n : lookup e x = v -> size_at m v n -> pb e m (small x i) (n <? ofN (sig_size i)).
Proof.
  intros E (b & o & l & -> & C & D). apply contents_inb in C. destruct C as [I B]. eapply pe_eq; [eapply pe_bin; [apply pe_load; [apply pe_var, E|exact I]|apply pe_int]|]. rewrite B, D. reflexivity.
Qed.
(** the check that sign and sign_with_randomness share *)
Lemma shared_check e m x y z i sk sig sl : lookup e x = sk -> lookup e y = sig -> lookup e z = sl ->
  (refused m i sk sig sl -> pb e m (either (either (either (null x) (null y)) (null z)) (small z i)) true) /\
  (forall n, size_at m sl n -> exists c, pb e m (either (either (either (null x) (null y)) (null z)) (small z i)) c).
Proof.
  intros X Y Z. assert (NX := null_check_of e m x sk X). assert (NY := null_check_of e m y sig Y). assert (NZ := null_check_of e m z sl Z).
  destruct sk as [?|? ?|]; cbn [is_ptr negb] in NX; try (split; [intros _|intros _ _; exists true]; do 3 apply either_true; exact NX).
  destruct sig as [?|? ?|]; cbn [is_ptr negb] in NY; try (split; [intros _|intros _ _; exists true]; do 2 apply either_true; apply either_false; assumption).
  destruct sl as [?|? ?|]; cbn [is_ptr negb] in NZ; try (split; [intros _|intros _ _; exists true]; (apply either_true, either_false; [apply either_false; assumption|assumption])).
  split.
  - intros [W|[W|[W|(n & W & L)]]]; try discriminate. apply either_false; [apply either_false; [apply either_false; assumption|assumption]|]. eapply pe_eq; [eapply small_of; eassumption|]. rewrite (proj2 (Z.ltb_lt _ _) L). reflexivity.
  - intros n W. eexists. apply either_false; [apply either_false; [apply either_false; assumption|assumption]|]. eapply small_of; eassumption.
Qed.
Lemma wp_refuse c v e m s (Q : outcome -> env -> mem -> Prop) : pb e m c v -> (if v then Q (OReturn (VInt (-1))) e m else wp code s e m Q) -> wp code (refuse c ;; s) e m Q.
Proof.
  intros C H. seq. eapply wp_if; [exact C|]. rewrite truth_b. destruct v; [eapply wp_return; [apply pe_int|exact H]|apply wp_skip, H].
Qed.
Lemma stays f vs m v : calls code f vs m (fun w m' => w = v /\ m' = m) -> returns f vs m v m.
Proof. intros C. destruct (calls_returns _ _ _ _ C) as (w & m' & R & -> & ->). exact R. Qed.

Lemma sign_refused i m sk msg len sig sl : refused m i sk sig sl -> returns (sign_of i) [sk; msg; len; sig; sl] m (VInt (-1)) m.
Proof.
  intros R. apply stays. apply (calls_intro code _ _ _ _ _ (code_sign i)). unfold sign_fun. cbn [fbody fparams bind_params].
  eapply (wp_refuse _ true); [|split; reflexivity]. eapply shared_check; [look|look|look|exact R].
Qed.
Lemma swr_calls_refused i m sk msg len rho rl sig sl : refused m i sk sig sl \/ (exists n, size_at m sl n) /\ rho = VNull /\ rl <> 0 ->
  calls code (sign_with_randomness_of i) [sk; msg; len; rho; VInt rl; sig; sl] m (fun w m' => w = VInt (-1) /\ m' = m).
Proof.
  intros R. apply (calls_intro code _ _ _ _ _ (code_swr i)). unfold swr_fun. cbn [fbody fparams bind_params]. eapply (wp_refuse _ true); [|split; reflexivity]. unfold swr_check.
  match goal with |- pb ?e _ _ _ => destruct (shared_check e m 1 6 7 i sk sig sl ltac:(look) ltac:(look) ltac:(look)) as [A B] end.
  destruct R as [R|((n & S) & -> & N)]; [apply either_true, A, R|]. destruct (B n S) as [[] C]; [apply either_true, C|]. apply either_false; [exact C|].
  eapply pe_eq; [eapply pe_cond; [eapply pe_isnull, pe_var; look|tr; eapply pe_bin; [apply pe_var; look|apply pe_int]]|]. simp. destruct (Z.eqb_spec rl 0); [contradiction|reflexivity].
Qed.
Lemma swr_refused i m sk msg len rho rl sig sl : refused m i sk sig sl \/ (exists n, size_at m sl n) /\ rho = VNull /\ rl <> 0 ->
  returns (sign_with_randomness_of i) [sk; msg; len; rho; VInt rl; sig; sl] m (VInt (-1)) m.
Proof. intros R. apply stays, swr_calls_refused, R. Qed.
Lemma verify_refused i m pk msg len sig sl : pk = VNull \/ sig = VNull \/ sl <> Z.of_N (sig_size i) -> returns (verify_of i) [pk; msg; len; sig; VInt sl] m (VInt (-1)) m.
Proof.
  intros R. apply stays. apply (calls_intro code _ _ _ _ _ (code_verify i)). unfold verify_fun. cbn [fbody fparams bind_params].
  eapply (wp_refuse _ true); [|split; reflexivity]. unfold verify_check.
  match goal with |- pb ?e _ _ _ => assert (NX := null_check_of e m 1 pk ltac:(look)); assert (NY := null_check_of e m 4 sig ltac:(look)) end.
  destruct pk as [?|? ?|]; cbn [is_ptr negb] in NX; try (do 2 apply either_true; exact NX). destruct sig as [?|? ?|]; cbn [is_ptr negb] in NY; try (apply either_true, either_false; assumption).
  destruct R as [R|[R|R]]; try discriminate. apply either_false; [apply either_false; assumption|]. eapply pe_eq; [eapply pe_bin; [apply pe_var; look|apply pe_int]|]. simp. destruct (Z.eqb_spec sl (ofN (sig_size i))); [contradiction|reflexivity].
Qed.

(** ** A private key that is not valid *)
Lemma swr_calls_invalid i m sb so sk msg len rho rl gb go sl n : rconst m -> holds m sb so sk -> bytes_ok sk -> lenN sk = sk_bytes i -> ~ valid_key i sk -> size_at m sl n ->
  calls code (sign_with_randomness_of i) [VPtr sb so; msg; len; rho; VInt rl; VPtr gb go; sl] m (fun w m' => w = VInt (-1) /\ frame m m' nothing).
Proof.
  intros RC H B L NV S. apply (calls_intro code _ _ _ _ _ (code_swr i)). unfold swr_fun. cbn [fbody fparams bind_params].
  match goal with |- wp _ _ ?e _ _ => assert (K : exists c, pb e m (swr_check i) c) end.
  { match goal with |- exists c, pb ?e _ _ c => destruct (shared_check e m 1 6 7 i (VPtr sb so) (VPtr gb go) sl ltac:(look) ltac:(look) ltac:(look)) as [_ C] end.
    destruct (C n S) as [[] D]; [exists true; apply either_true, D|]. destruct rho as [z|b o|].
    2: exists false; apply either_false; [exact D|]; eapply pe_eq; [eapply pe_cond; [eapply pe_isnull, pe_var; look|tr; apply pe_int]|reflexivity].
    all: exists (negb (rl =? 0)); apply either_false; [exact D|]; eapply pe_eq; [eapply pe_cond; [eapply pe_isnull, pe_var; look|tr; eapply pe_bin; [apply pe_var; look|apply pe_int]]|reflexivity]. }
  destruct K as [c K]. eapply (wp_refuse _ c); [exact K|]. destruct c; [split; [reflexivity|apply frame_refl]|].
  destruct (sizes i) as [SI SK]. seq. eapply wp_alloc; [apply pe_int|]. set (h := owf_input_size i) in *.
  assert (F1 := frame_fresh m (ofN h) (PositiveMap.empty value) nothing). assert (NB : sb <> mnext m) by (destruct H as [[A _] _]; lia).
  assert (H1 : holds (fresh m (ofN h) (PositiveMap.empty value)) sb so sk) by (eapply holds_frame; [exact H|exact F1|intros q _ []]).
  assert (R1 : rconst (fresh m (ofN h) (PositiveMap.empty value))) by (eapply rconst_frame; [exact RC|exact F1|intros q []]).
  assert (I1 : inb (fresh m (ofN h) (PositiveMap.empty value)) (mnext m) 0 (ofN h)) by (apply inb_fresh; lia).
  generalize dependent (fresh m (ofN h) (PositiveMap.empty value)). intros m1 F1 H1 R1 I1.
  seq. eapply wp_call; [evs|]. rewrite !Z.mul_1_l.
  eapply calls_weak; [apply (ref_owf_sk i m1 sb so (mnext m) 0 sk H1 B L I1); [left; congruence|exact R1]|].
  intros v m2 (z & -> & Z & F2 & _). cbn [set]. destruct z; [exfalso; apply NV, Z; reflexivity|].
  seq. eapply wp_show; [ev|]. eapply (wp_refuse _ true); [eapply pe_eq; [eapply pe_un, pe_var; look|reflexivity]|]. split; [reflexivity|].
  eapply frame_comp; [exact F1|exact F2|]. intros b q X _ [-> _]. lia.
Qed.
Lemma swr_invalid i m sb so sk msg len rho rl gb go sl n : loaded m -> stands m sb so sk -> Forall (fun b => (b < 256)%N) sk -> N.of_nat (length sk) = sk_bytes i -> ~ valid_key i sk -> size_at m sl n ->
  exists m', returns (sign_with_randomness_of i) [VPtr sb so; msg; len; rho; VInt rl; VPtr gb go; sl] m (VInt (-1)) m' /\ unchanged m m' (fun _ _ => False).
Proof.
  intros LD H B L NV S. apply loaded_rconst in LD. apply holds_stands in H. destruct (calls_returns _ _ _ _ (swr_calls_invalid i m sb so sk msg len rho rl gb go sl n LD H B L NV S)) as (v & m' & R & -> & F).
  exists m'. split; [exact R|]. eapply frame_unchanged; [exact F|]. intros b q X. exact X.
Qed.
Lemma size_frame m m' (P : positive -> Z -> Prop) b o n : size_at m (VPtr b o) n -> frame m m' P -> (forall q, ~ P b q) -> size_at m' (VPtr b o) n.
Proof.
  intros (b' & o' & l & E & C & D) F N. injection E as <- <-. exists b, o, l. split; [reflexivity|]. split; [|exact D]. apply contents_inb in C. destruct C as [I <-].
  rewrite inb_contents by (eapply inb_frame; eassumption). f_equal. eapply bytesat_frame; [exact F|exact I|]. intros q _. apply N.
Qed.
Lemma sign_invalid i m sb so sk msg len gb go lb lo n p random : loaded m -> stands m sb so sk -> Forall (fun b => (b < 256)%N) sk -> N.of_nat (length sk) = sk_bytes i -> ~ valid_key i sk ->
  size_at m (VPtr lb lo) n -> (last_global < sb)%positive -> (last_global < lb)%positive ->
  used m p -> stands m tape (Z.of_N p) random -> Forall (fun b => (b < 256)%N) random -> N.of_nat (length random) = (p_lambda (param_of i) / 8)%N -> (p + N.of_nat (length random) < 2 ^ 64)%N ->
  exists m', returns (sign_of i) [VPtr sb so; msg; len; VPtr gb go; VPtr lb lo] m (VInt (-1)) m' /\ unchanged m m' (fun b _ => b = tape_pos).
Proof.
  intros LD H B L NV S GS GL U T BR LR PM. assert (GS' : (12 < sb)%positive) by exact GS. assert (GL' : (12 < lb)%positive) by exact GL. clear GS GL.
  assert (T3 : holds m 4 (ofN p) random) by (apply holds_stands; exact T). apply used_pos in U. apply loaded_rconst in LD. apply holds_stands in H.
  enough (C : calls code (sign_of i) [VPtr sb so; msg; len; VPtr gb go; VPtr lb lo] m (fun w m' => w = VInt (-1) /\ frame m m' (fun b _ => b = 3%positive))).
  { destruct (calls_returns _ _ _ _ C) as (v & m' & R & -> & F). exists m'. split; [exact R|]. eapply frame_unchanged; [exact F|]. intros b q X. exact X. }
  apply (calls_intro code _ _ _ _ _ (code_sign i)). unfold sign_fun. cbn [fbody fparams bind_params].
  match goal with |- wp _ _ ?e _ _ => destruct (shared_check e m 1 4 5 i (VPtr sb so) (VPtr gb go) (VPtr lb lo) ltac:(look) ltac:(look) ltac:(look)) as [_ K] end.
  destruct (K n S) as [c C]. eapply (wp_refuse _ c); [exact C|]. destruct c; [split; [reflexivity|apply frame_refl]|]. clear K C.
  seq. eapply wp_alloc; [apply pe_int|]. rewrite <- LR in *. fold (lenN random) in *.
  assert (F1 := frame_fresh m (ofN (lenN random)) (PositiveMap.empty value) nothing). assert (N4 : (4 < mnext m)%positive) by (destruct T3 as [[A _] _]; lia). assert (N3 : (sb < mnext m)%positive) by (destruct H as [[A _] _]; lia).
  assert (I1 : inb (fresh m (ofN (lenN random)) (PositiveMap.empty value)) (mnext m) 0 (ofN (lenN random))) by (apply inb_fresh; lia).
  generalize dependent (fresh m (ofN (lenN random)) (PositiveMap.empty value)). intros m1 F1 I1.
  assert (U1 : pos_at m1 (ofN p)) by (eapply pos_frame; [exact U|exact F1|intros q []]).
  assert (T1 : holds m1 4 (ofN p) random) by (eapply holds_frame; [exact T3|exact F1|intros q _ []]).
  seq. eapply wp_call; [evs|]. eapply calls_weak; [apply (ref_rand_bytes m1 (mnext m) 0 (ofN p) random U1 T1 BR I1); lia|].
  intros v m2 (F2 & _ & _). cbn [set].
  assert (F02 : frame m m2 (fun b _ => b = 3%positive)).
  { eapply frame_comp; [eapply frame_weak; [exact F1|intros b q _ _ []]|exact F2|]. intros b q X _ [[-> _]|Y]; [exfalso; lia|exact Y]. }
  assert (H2 : holds m2 sb so sk) by (eapply holds_frame; [exact H|exact F02|intros q _ ->; lia]).
  assert (R2 : rconst m2) by (eapply rconst_frame; [exact LD|exact F02|intros q; discriminate]).
  assert (S2 : size_at m2 (VPtr lb lo) n) by (eapply size_frame; [exact S|exact F02|intros q ->; lia]).
  seq. eapply wp_call; [evs|]. eapply calls_weak; [apply (swr_calls_invalid i m2 sb so sk msg len _ _ gb go (VPtr lb lo) n R2 H2 B L NV S2)|].
  intros w m3 (-> & F3). cbn [set]. eapply wp_return; [ev|]. split; [reflexivity|]. eapply frame_comp; [exact F02|exact F3|intros b q _ _ []].
Qed.
