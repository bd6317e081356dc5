(** The strings given to the random oracles. *)
From Verif.Model Require Import Faest.
From Verif.Proof Require Import BaseProof VerifyProps.
From Coq Require Import Lia ZifyBool ZifyNat ZifyN.
Ltac Zify.zify_post_hook ::= Z.div_mod_to_equations.

(** an oracle that answers with the query itself *)
Definition reveal (sec : N) (query : list N) (n : N) : list N := query.

Lemma upd2 (c : hctx) d : h_data (H_update c d) = h_data c ++ d. Proof. reflexivity. Qed.
Lemma last_neq (a b : list N) x y : x <> y -> a ++ [x] <> b ++ [y].
Proof. intros H E. apply app_inj_tail in E. destruct E. contradiction. Qed.
Lemma last_eq (a b : list N) x y : a ++ [x] = b ++ [y] -> a = b.
Proof. intros E. apply app_inj_tail in E. apply E. Qed.

Lemma oracle_queries xof c n a b :
  H1_final xof c n = xof (h_sec c) (H1_final reveal c n) n /\
  H2_final xof c n = xof (h_sec c) (H2_final reveal c n) n /\
  fst (H0_final xof c a b) ++ snd (H0_final xof c a b) = xof (h_sec c) (fst (H0_final reveal c a b) ++ snd (H0_final reveal c a b)) (a + b) /\
  fst (H3_final xof c a) ++ snd (H3_final xof c a) = xof (h_sec c) (fst (H3_final reveal c a) ++ snd (H3_final reveal c a)) (a + 16).
Proof.
  split; [reflexivity|]. split; [reflexivity|]. unfold H0_final, H3_final. cbn [fst snd]. unfold takeN, dropN. rewrite !firstn_skipn. auto.
Qed.
Lemma oracle_separated c0 c1 c2 c3 n1 n2 a b l :
  let q0 := fst (H0_final reveal c0 a b) ++ snd (H0_final reveal c0 a b) in
  let q1 := H1_final reveal c1 n1 in
  let q2 := H2_final reveal c2 n2 in
  let q3 := fst (H3_final reveal c3 l) ++ snd (H3_final reveal c3 l) in
  q0 <> q1 /\ q0 <> q2 /\ q0 <> q3 /\ q1 <> q2 /\ q1 <> q3 /\ q2 <> q3.
Proof.
  cbv zeta. unfold H0_final, H3_final, takeN, dropN. cbn [fst snd]. rewrite !firstn_skipn.
  unfold H1_final, H2_final, H_squeeze, reveal. rewrite !upd2. repeat split; apply last_neq; discriminate.
Qed.

Lemma mu_decodes inp out msg inp' out' msg' size lambda q :
  lenN inp = size -> lenN out = size -> lenN inp' = size -> lenN out' = size ->
  hash_mu reveal inp out size msg lambda = Ok q -> hash_mu reveal inp' out' size msg' lambda = Ok q ->
  inp = inp' /\ out = out' /\ msg = msg'.
Proof.
  intros L1 L2 L3 L4. unfold hash_mu. rewrite !slice_full' by assumption. cbn [bind]. unfold H_update_any.
  destruct (absorb_defined _ _ (lenN msg)); [|discriminate]. destruct (absorb_defined _ _ (lenN msg')); [|discriminate]. cbn [guard bind].
  unfold H1_final, H_squeeze, reveal. rewrite !upd2. cbn [H_init h_data app]. intros <- E. injection E as E. apply last_eq in E.
  rewrite <- !app_assoc in E. apply app_inj in E; [|lia]. destruct E as [-> E]. apply app_inj in E; [|lia]. destruct E as [-> ->]. auto.
Qed.
Lemma challenge_1_decodes mu hcom c iv mu' hcom' c' iv' lambda ell tau q :
  lenN mu = lambda / 8 * 2 -> lenN hcom = lambda / 8 * 2 -> lenN c = (ell / 8 + lambda / 8 * 2 + 2) * (tau - 1) -> lenN iv = 16 ->
  lenN mu' = lambda / 8 * 2 -> lenN hcom' = lambda / 8 * 2 -> lenN c' = (ell / 8 + lambda / 8 * 2 + 2) * (tau - 1) -> lenN iv' = 16 ->
  hash_challenge_1 reveal mu hcom c iv lambda ell tau = Ok q -> hash_challenge_1 reveal mu' hcom' c' iv' lambda ell tau = Ok q ->
  mu = mu' /\ hcom = hcom' /\ c = c' /\ iv = iv'.
Proof.
  intros L1 L2 L3 L4 L5 L6 L7 L8. unfold hash_challenge_1. cbv zeta. rewrite !slice_full' by assumption. cbn [bind].
  unfold H2_final, H_squeeze, reveal. rewrite !upd2. cbn [H_init h_data app]. intros <- E. injection E as E. apply last_eq in E.
  rewrite <- !app_assoc in E. apply app_inj in E; [|congruence]. destruct E as [-> E]. apply app_inj in E; [|congruence]. destruct E as [-> E].
  apply app_inj in E; [|congruence]. destruct E as [-> ->]. auto.
Qed.
Lemma challenge_2_decodes c1 u h d c1' u' h' d' lambda ell q :
  lenN c1 = 5 * (lambda / 8) + 8 -> lenN u = lambda / 8 + 2 -> lenN h = 2 * (lambda / 8) -> lenN d = ell / 8 ->
  lenN c1' = 5 * (lambda / 8) + 8 -> lenN u' = lambda / 8 + 2 -> lenN h' = 2 * (lambda / 8) -> lenN d' = ell / 8 ->
  hash_challenge_2 reveal c1 u h d lambda ell = Ok q -> hash_challenge_2 reveal c1' u' h' d' lambda ell = Ok q ->
  c1 = c1' /\ u = u' /\ h = h' /\ d = d'.
Proof.
  intros L1 L2 L3 L4 L5 L6 L7 L8. unfold hash_challenge_2. cbv zeta. rewrite !slice_full' by assumption. cbn [bind].
  unfold H2_final, H_squeeze, reveal. rewrite !upd2. cbn [H_init h_data app]. intros <- E. injection E as E. apply last_eq in E.
  rewrite <- !app_assoc in E. apply app_inj in E; [|congruence]. destruct E as [-> E]. apply app_inj in E; [|congruence]. destruct E as [-> E].
  apply app_inj in E; [|congruence]. destruct E as [-> ->]. auto.
Qed.
Lemma challenge_3_decodes c2 a b c2' a' b' lambda q :
  lenN c2 = 3 * (lambda / 8) + 8 -> lenN a = lambda / 8 -> lenN b = lambda / 8 ->
  lenN c2' = 3 * (lambda / 8) + 8 -> lenN a' = lambda / 8 -> lenN b' = lambda / 8 ->
  hash_challenge_3 reveal c2 a b lambda = Ok q -> hash_challenge_3 reveal c2' a' b' lambda = Ok q ->
  c2 = c2' /\ a = a' /\ b = b'.
Proof.
  intros L1 L2 L3 L5 L6 L7. unfold hash_challenge_3. cbv zeta. rewrite !slice_full' by assumption. cbn [bind].
  unfold H2_final, H_squeeze, reveal. rewrite !upd2. cbn [H_init h_data app]. intros <- E. injection E as E. apply last_eq in E.
  rewrite <- !app_assoc in E. apply app_inj in E; [|congruence]. destruct E as [-> E]. apply app_inj in E; [|congruence]. destruct E as [-> ->]. auto.
Qed.

Definition query_lens (p : param) : N * N * N :=
  let lb := p_lambda p / 8 in
  (lb * 2 + lb * 2 + (p_l p / 8 + lb * 2 + 2) * (p_tau p - 1) + 16 + 1, 5 * lb + 8 + (lb + 2) + 2 * lb + p_l p / 8 + 1, 3 * lb + 8 + lb + lb + 1).
Lemma query_lens_ok i : let '(a, b, c) := query_lens (param_of i) in a <> b /\ a <> c /\ b <> c.
Proof. destruct i; vm_compute; repeat split; discriminate. Qed.

Lemma slice_len {A} (l : list A) o n r : slice l o n = Ok r -> lenN r = n.
Proof. intros H. apply slice_inv in H. apply H. Qed.
Lemma challenges_apart i mu hcom c iv c1 u h d c2 a b q1 q2 q3 :
  hash_challenge_1 reveal mu hcom c iv (p_lambda (param_of i)) (p_l (param_of i)) (p_tau (param_of i)) = Ok q1 ->
  hash_challenge_2 reveal c1 u h d (p_lambda (param_of i)) (p_l (param_of i)) = Ok q2 ->
  hash_challenge_3 reveal c2 a b (p_lambda (param_of i)) = Ok q3 ->
  q1 <> q2 /\ q1 <> q3 /\ q2 <> q3.
Proof.
  intros E1 E2 E3. pose proof (query_lens_ok i) as HQ. cbv [query_lens] in HQ. destruct HQ as (Q1 & Q2 & Q3).
  set (p := param_of i) in *.
  assert (L1 : lenN q1 = fst (fst (query_lens p))).
  { unfold hash_challenge_1 in E1. cbv zeta in E1. destruct (slice mu _ _) as [x1|] eqn:S1; [|discriminate]. cbn [bind] in E1.
    destruct (slice hcom _ _) as [x2|] eqn:S2; [|discriminate]. cbn [bind] in E1. destruct (slice c _ _) as [x3|] eqn:S3; [|discriminate]. cbn [bind] in E1.
    destruct (slice iv _ _) as [x4|] eqn:S4; [|discriminate]. cbn [bind] in E1. apply slice_len in S1, S2, S3, S4. injection E1 as <-.
    unfold H2_final, H_squeeze, reveal. rewrite !upd2, !lenN_app, S1, S2, S3, S4. reflexivity. }
  assert (L2 : lenN q2 = snd (fst (query_lens p))).
  { unfold hash_challenge_2 in E2. cbv zeta in E2. destruct (slice c1 _ _) as [x1|] eqn:S1; [|discriminate]. cbn [bind] in E2.
    destruct (slice u _ _) as [x2|] eqn:S2; [|discriminate]. cbn [bind] in E2. destruct (slice h _ _) as [x3|] eqn:S3; [|discriminate]. cbn [bind] in E2.
    destruct (slice d _ _) as [x4|] eqn:S4; [|discriminate]. cbn [bind] in E2. apply slice_len in S1, S2, S3, S4. injection E2 as <-.
    unfold H2_final, H_squeeze, reveal. rewrite !upd2, !lenN_app, S1, S2, S3, S4. reflexivity. }
  assert (L3 : lenN q3 = snd (query_lens p)).
  { unfold hash_challenge_3 in E3. cbv zeta in E3. destruct (slice c2 _ _) as [x1|] eqn:S1; [|discriminate]. cbn [bind] in E3.
    destruct (slice a _ _) as [x2|] eqn:S2; [|discriminate]. cbn [bind] in E3. destruct (slice b _ _) as [x3|] eqn:S3; [|discriminate]. cbn [bind] in E3.
    apply slice_len in S1, S2, S3. injection E3 as <-.
    unfold H2_final, H_squeeze, reveal. rewrite !upd2, !lenN_app, S1, S2, S3. reflexivity. }
  cbv [query_lens fst snd] in L1, L2, L3. repeat split; intros ->; [apply Q1|apply Q2|apply Q3]; congruence.
Qed.
