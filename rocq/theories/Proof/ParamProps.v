(** The lemmas behind Props/C34 .. C36. *)
From Coq Require Import String.
From Verif.Proof Require Import BaseProof.
From Verif.Model Require Export Params Api.
Import ListNotations.

Lemma params_consistent : forall i,
  let p := param_of i in
  let lambda := p_lambda p in
  let l_hat := p_l p + 2 * lambda + 16 in
  In lambda [128; 192; 256] /\
  p_k0 p * p_t0 p + p_k1 p * p_t1 p = lambda /\
  p_tau p = p_t0 p + p_t1 p /\ p_tau p <= MAX_TAU /\
  p_k0 p <= MAX_DEPTH /\ p_k1 p <= MAX_DEPTH /\ 0 < p_k1 p <= p_k0 p /\
  p_l p = p_Lke p + beta_of i * p_Lenc p /\ p_l p mod 8 = 0 /\
  lambda <= MAX_LAMBDA /\ lambda = 8 * (lambda / 8) /\ lambda / 8 <= MAX_LAMBDA_BYTES /\
  8 * p_sigSize p =
    (p_tau p - 1) * l_hat + (lambda + 16) + p_l p + lambda
    + p_t0 p * ((p_k0 p + 2) * lambda) + p_t1 p * ((p_k1 p + 2) * lambda)
    + lambda + 128 /\
  sk_size i = p_pkSize p / 2 + lambda / 8 /\ p_pkSize p mod 2 = 0 /\
  Forall (fun x => x < 2 ^ 16)
    [p_lambda p; p_Nwd p; p_Ske p; p_R p; p_Senc p; p_l p; p_Lke p; p_Lenc p; p_tau p;
     p_k0 p; p_k1 p; p_t0 p; p_t1 p; p_sigSize p; p_pkSize p].
Proof.
  intros i. destruct i; (split; [cbn; tauto|]);
    repeat (split; [first [reflexivity | vm_compute; discriminate | split; [reflexivity|vm_compute; discriminate]]|]);
    repeat constructor.
Qed.

Lemma published_sizes : forall i,
  sig_size i = match i with
               | FAEST_128S => 5006 | FAEST_128F => 6336 | FAEST_192S => 12744
               | FAEST_192F => 16792 | FAEST_256S => 22100 | FAEST_256F => 28400
               | FAEST_EM_128S => 4566 | FAEST_EM_128F => 5696 | FAEST_EM_192S => 10824
               | FAEST_EM_192F => 13912 | FAEST_EM_256S => 20956 | FAEST_EM_256F => 26736
               end.
Proof. destruct i; reflexivity. Qed.

Lemma range_cases n : 1 <= n <= 12 ->
  n = 1 \/ n = 2 \/ n = 3 \/ n = 4 \/ n = 5 \/ n = 6 \/ n = 7 \/ n = 8 \/ n = 9 \/ n = 10 \/ n = 11 \/ n = 12.
Proof. lia. Qed.

Lemma unknown_paramset : forall n, ~ (1 <= n <= 12) ->
  faest_get_paramset n = (mkParam 0 0 0 0 0 0 0 0 0 0 0 0 0 0 0, 0) /\
  faest_get_param_name n =
    (if (n =? 0)%N then "PARAMETER_SET_INVALID" else "PARAMETER_SET_MAX_INDEX")%string.
Proof.
  intros n H. destruct n as [|p]; [split; reflexivity|].
  do 4 (try (destruct p as [p|p|]; try lia; try (split; reflexivity))).
Qed.

Lemma name_valid m : 1 <= m <= 12 \/ m = 0 \/ 12 < m.
Proof. lia. Qed.

Lemma known_paramset : forall n, 1 <= n <= 12 ->
  snd (faest_get_paramset n) = n /\
  (exists i, paramid_to_N i = n /\ fst (faest_get_paramset n) = param_of i) /\
  0 < p_lambda (fst (faest_get_paramset n)) /\
  forall m, faest_get_param_name n = faest_get_param_name m -> n = m.
Proof.
  intros n H. split; [|split; [|split]].
  - apply range_cases in H. repeat destruct H as [->|H]; try subst n; reflexivity.
  - apply range_cases in H. repeat destruct H as [->|H]; try subst n;
      (eexists; split; [|reflexivity]; reflexivity).
  - apply range_cases in H. repeat destruct H as [->|H]; try subst n; reflexivity.
  - intros m Hm. destruct (name_valid m) as [V|V].
    + apply range_cases in H. apply range_cases in V.
      repeat destruct H as [->|H]; try subst n; repeat destruct V as [->|V]; try subst m;
        (reflexivity || discriminate Hm).
    + exfalso. assert (U : ~ 1 <= m <= 12) by lia.
      rewrite (proj2 (unknown_paramset m U)) in Hm.
      apply range_cases in H. destruct (m =? 0);
      repeat destruct H as [->|H]; try subst n; discriminate Hm.
Qed.

Lemma explicit_bzero_ok a len : len <= lenN a ->
  explicit_bzero a len = Ok (zeros len ++ dropN len a).
Proof.
  intros H. unfold explicit_bzero.
  destruct (foldM_Nrange_inv (fun m i => aset m i 0)
     (fun k m => m = zeros k ++ dropN k a) len a) as (m & E & Hm).
  - rewrite dropN_0. reflexivity.
  - intros k m Hk ->.
    assert (D : exists x, dropN k a = x :: dropN (k + 1) a).
    { destruct (dropN k a) as [|x t] eqn:E.
      - apply (f_equal lenN) in E. rewrite lenN_dropN in E. change (lenN (@nil N)) with 0 in E. lia.
      - exists x. f_equal. rewrite <- dropN_dropN, E. reflexivity. }
    destruct D as [x D]. rewrite D.
    rewrite aset_ok by (rewrite lenN_app, lenN_zeros, lenN_cons; lia).
    eexists. split; [reflexivity|].
    unfold zeros. replace (N.to_nat (k + 1)) with (N.to_nat k + 1)%nat by lia.
    rewrite repeat_app, <- app_assoc. cbn [repeat app].
    assert (L : length (repeat 0 (N.to_nat k)) = N.to_nat k) by apply repeat_length.
    revert L. generalize (repeat 0 (N.to_nat k)). intros l <-.
    induction l as [|y l IH]; cbn [app length upd]; [reflexivity|]. rewrite IH. reflexivity.
  - rewrite E, Hm. reflexivity.
Qed.

Lemma clear_private_key_correct : forall i buf, sk_size i <= lenN buf ->
  clear_private_key i (Some buf) =
  Ok (repeat 0 (N.to_nat (sk_size i)) ++ skipn (N.to_nat (sk_size i)) buf).
Proof. intros i buf H. apply explicit_bzero_ok, H. Qed.

Lemma lor_eq_0 a b : N.lor a b = 0 <-> a = 0 /\ b = 0.
Proof. apply N.lor_eq_0_iff. Qed.

Lemma timingsafe_bcmp_correct : forall a b len, len <= lenN a -> len <= lenN b ->
  exists d, timingsafe_bcmp a b len = Ok d /\
            (d = 0 <-> firstn (N.to_nat len) a = firstn (N.to_nat len) b).
Proof.
  intros a b len Ha Hb. unfold timingsafe_bcmp.
  match goal with |- exists d, foldM ?f _ _ = _ /\ _ =>
  destruct (foldM_Nrange_inv f (fun k d => d = 0 <-> forall j, j < k -> nthN a j 0 = nthN b j 0) len 0)
    as (d & E & Hd) end.
  - split; [intros _ j Hj; lia|reflexivity].
  - intros k d Hk HD. rewrite !(aget_ok _ _ 0) by lia. cbn [bind].
    eexists. split; [reflexivity|]. rewrite lor_eq_0, HD, N.lxor_eq_0_iff. split.
    + intros [H1 H2] j Hj. destruct (N.eq_dec j k) as [->|]; [exact H2|apply H1; lia].
    + intros H. split; [intros; apply H; lia|apply H; lia].
  - exists d. split; [exact E|]. rewrite Hd.
    change (firstn (N.to_nat len) a) with (takeN len a).
    change (firstn (N.to_nat len) b) with (takeN len b). split.
    + intros H. apply (list_ext 0); rewrite !lenN_takeN; [lia|].
      intros j Hj. rewrite !nthN_takeN by lia. apply H. lia.
    + intros H j Hj. rewrite <- (nthN_takeN a len), <- (nthN_takeN b len) by lia. rewrite H. reflexivity.
Qed.

Lemma timingsafe_bcmp_defined : forall a b len,
  (exists d, timingsafe_bcmp a b len = Ok d) <-> (len <= lenN a /\ len <= lenN b \/ len = 0).
Proof.
  intros a b len. split.
  - intros [d H]. destruct (N.eq_dec len 0) as [->|Hl]; [right; reflexivity|]. left.
    unfold timingsafe_bcmp in H. replace len with (len - 1 + 1) in H by lia.
    rewrite Nrange_succ, foldM_app in H. apply bind_inv in H. destruct H as (s & _ & H).
    cbn [foldM] in H. apply bind_inv in H. destruct H as (s' & H & _).
    apply bind_inv in H. destruct H as (x & Hx & H). apply (aget_inv _ _ _ 0) in Hx.
    apply bind_inv in H. destruct H as (y & Hy & _). apply (aget_inv _ _ _ 0) in Hy. lia.
  - intros [[Ha Hb]| ->]; [|exists 0; reflexivity].
    destruct (timingsafe_bcmp_correct a b len Ha Hb) as (d & E & _). exists d. exact E.
Qed.
