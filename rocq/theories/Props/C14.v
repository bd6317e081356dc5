(** C14: Q = V + delta * u, and both sides obtain the same commitment digest. *)
From Verif.Model Require Import Vole Faest.
From Verif.Spec Require Import VcSpec VoleSpec VoleMap.
From Verif.Proof Require Import VoleProps CorrectProof.

(** [q'] is what vole_reconstruct returns; the verifier adds delta_n times the correction of the
    tree which column n comes from (Props/C14.v, second theorem, is about the code doing so). *)
Theorem C14_vole_correlation : forall xof, xof_sized xof ->
  forall i rootKey iv chal ellhat, let p := param_of i in let L := (ellhat + 7) / 8 in
  p_lambda p / 8 <= lenN rootKey -> bytes_ok rootKey -> 16 <= lenN iv -> bytes_ok iv ->
  p_lambda p / 8 <= lenN chal -> bytes_ok chal ->
  exists hcom vcs c u V opens q',
    vole_commit xof p rootKey iv ellhat = Ok (hcom, vcs, c, u, V) /\
    mapM (open_tree p chal vcs) (Nrange (p_tau p)) = Ok opens /\
    vole_reconstruct xof p iv chal (map fst opens) (map snd opens) ellhat = Ok (hcom, q') /\
    lenN V = p_lambda p /\ lenN q' = p_lambda p /\ lenN c = (p_tau p - 1) * L /\ lenN u = L /\
    forall n, n < p_lambda p ->
      lenN (nth (N.to_nat n) V []) = L /\ lenN (nth (N.to_nat n) q' []) = L /\
      xors (nth (N.to_nat n) q' []) (scale (bit_at chal n) (correction L c (tree_of p n))) =
      xors (nth (N.to_nat n) V []) (scale (bit_at chal n) u).
Proof. exact vole_correlation. Qed.
Print Assumptions C14_vole_correlation.

(** the verifier's code applies exactly this correction, reading challenge, corrections and
    u_tilde from the signature, and scales u_tilde by the same bits *)
Theorem C14_verifier_corrects : forall i sig qprime, let p := param_of i in
  p_sigSize p <= lenN sig -> bytes_ok sig ->
  lenN qprime = p_lambda p ->
  let L := (p_l p + 2 * p_lambda p + 16) / 8 in
  (forall n, n < p_lambda p -> lenN (nth (N.to_nat n) qprime []) = L) ->
  exists q D chal c ut,
    slice sig (off_chall_3 p) (p_lambda p / 8) = Ok chal /\
    slice sig (off_c p 0) ((p_tau p - 1) * L) = Ok c /\
    slice sig (off_u_tilde p) (p_lambda p / 8 + 2) = Ok ut /\
    foldM (verify_correct p sig qprime) (Nrange (p_tau p)) ([], []) = Ok (q, D) /\
    lenN q = p_lambda p /\ lenN D = p_lambda p /\
    forall n, n < p_lambda p ->
      nth (N.to_nat n) q [] = xors (nth (N.to_nat n) qprime []) (scale (bit_at chal n) (correction L c (tree_of p n))) /\
      nth (N.to_nat n) D [] = scale (bit_at chal n) ut.
Proof. exact corrected_columns. Qed.
Print Assumptions C14_verifier_corrects.

(** the hypotheses are met by concrete inputs; the correlation for them follows *)
Definition zero_xof (s : N) (data : list N) (n : N) : list N := repeat 0 (N.to_nat n).
Example C14_xof : xof_sized zero_xof.
Proof.
  intros s data n. unfold zero_xof. split; [apply repeat_length|].
  apply Forall_forall. intros b Hb. apply repeat_spec in Hb. subst. reflexivity.
Qed.
Example C14_case : exists hcom vcs c u V opens q',
  vole_commit zero_xof (param_of FAEST_EM_128F) (repeat 1 16) (repeat 2 16) 1552 = Ok (hcom, vcs, c, u, V) /\
  mapM (open_tree (param_of FAEST_EM_128F) (repeat 0x5a 16) vcs) (Nrange 16) = Ok opens /\
  vole_reconstruct zero_xof (param_of FAEST_EM_128F) (repeat 2 16) (repeat 0x5a 16) (map fst opens) (map snd opens) 1552
    = Ok (hcom, q') /\
  lenN u = 194 /\ xors (nth 1 q' []) [] = [] /\
  nth 1 q' [] = xors (nth 1 V []) u.
Proof.
  destruct (C14_vole_correlation zero_xof C14_xof FAEST_EM_128F (repeat 1 16) (repeat 2 16) (repeat 0x5a 16) 1552
      ltac:(discriminate) ltac:(repeat constructor) ltac:(discriminate) ltac:(repeat constructor)
      ltac:(discriminate) ltac:(repeat constructor))
    as (hcom & vcs & c & u & V & opens & q' & A1 & A2 & A3 & A4 & A5 & A6 & A7 & A8).
  exists hcom, vcs, c, u, V, opens, q'. split; [exact A1|]. split; [exact A2|]. split; [exact A3|].
  split; [exact A7|]. split; [destruct (nth 1 q' []); reflexivity|].
  destruct (A8 1 eq_refl) as (B1 & B2 & B3). change (N.to_nat 1) with 1%nat in *.
  change (bit_at (repeat 0x5a 16) 1) with true in B3. change (tree_of (param_of FAEST_EM_128F) 1) with 0 in B3.
  cbn [scale correction] in B3. rewrite <- B3. clear - B2.
  change (correction ((1552 + 7) / 8) c 0) with (repeat 0 194%nat).
  assert (H : length (nth 1 q' []) = 194%nat).
  { apply Nnat.Nat2N.inj. exact B2. }
  clear B2. revert H. generalize (nth 1 q' []). generalize 194%nat. intros m l <-.
  induction l as [|x l IH]; cbn; [reflexivity|]. rewrite N.lxor_0_r. f_equal. exact IH.
Qed.
