(** C50: zero knowledge.  What a signature shows of the prover's values is the same for every
    witness, and signatures can be made without a key by whoever controls the random oracle. *)
From Verif.Model Require Import Owf UHash FaestAes Api.
From Verif.Spec Require Import OwfSpec VcSpec VoleSpec FormatSpec FormatMap ConstraintSpec ConstraintMap ProofSpec RunSpec KeySpec SoundSpec ViewSpec.
From Verif.Proof Require Import BaseProof VcProof VerifyProps ApiProof SoundProps ViewProps KeyCases.
From Coq Require Import Lia.

(** For every witness (right or wrong), all challenges, and all values [d], [ut], [a], [Q] a
    verifier might see: exactly one choice of the prover's masks shows these values.  So with
    uniform masks what the verifier sees is uniform, whatever the witness is. *)
Theorem C50_view : forall i w inp out chall_1 chall_2 chall_3 d ut a Q,
  let p := param_of i in let n := p_lambda p in let l := p_l p in let L := (l + 2 * n + 16) / 8 in
  lenN w = l / 8 -> bytes_ok w ->
  lenN inp = owf_input_size i -> bytes_ok inp -> lenN out = owf_input_size i -> bytes_ok out ->
  lenN chall_1 = 5 * (n / 8) + 8 -> bytes_ok chall_1 -> lenN chall_2 = 3 * (n / 8) + 8 -> bytes_ok chall_2 ->
  lenN chall_3 = n / 8 -> bytes_ok chall_3 ->
  lenN d = l / 8 -> bytes_ok d -> lenN ut = n / 8 + 2 -> bytes_ok ut -> lenN a = n / 8 -> bytes_ok a -> matrix n L Q ->
  exists u V,
    (lenN u = L /\ bytes_ok u /\ matrix n L V /\ shows i w inp out chall_1 chall_2 chall_3 u V d ut a Q) /\
    forall u' V', lenN u' = L -> bytes_ok u' -> matrix n L V' -> shows i w inp out chall_1 chall_2 chall_3 u' V' d ut a Q -> u' = u /\ V' = V.
Proof. exact view_one. Qed.
Print Assumptions C50_view.

(** The other values the prover hashes are determined by what it shows and the challenges: for a
    witness that meets the constraints its last value is the one the verifier computes, and the
    hashes of its columns are those of the verifier's columns, corrected. *)
Theorem C50_rest_of_the_view : forall i w inp out chall_1 chall_2 chall_3 u V d ut a Q,
  let p := param_of i in let n := p_lambda p in let l := p_l p in let L := (l + 2 * n + 16) / 8 in
  lenN w = l / 8 -> bytes_ok w ->
  lenN inp = owf_input_size i -> bytes_ok inp -> lenN out = owf_input_size i -> bytes_ok out ->
  lenN chall_1 = 5 * (n / 8) + 8 -> bytes_ok chall_1 -> lenN chall_2 = 3 * (n / 8) + 8 -> bytes_ok chall_2 ->
  lenN chall_3 = n / 8 -> bytes_ok chall_3 ->
  lenN u = L -> bytes_ok u -> matrix n L V -> shows i w inp out chall_1 chall_2 chall_3 u V d ut a Q ->
  (Forall (fun xy => defect (F_of i) xy = 0) (claims i w inp out) ->
   exists b, aes_prove p w u V inp out chall_2 = Ok (a, b) /\ aes_verify p d Q chall_2 chall_3 a inp out = Ok b) /\
  forall j, j < n -> exists h hq,
    vole_hash n chall_1 (nth (N.to_nat j) V []) l = Ok h /\ vole_hash n chall_1 (nth (N.to_nat j) Q []) l = Ok hq /\
    h = xors hq (scale (bit_at chall_3 j) ut).
Proof. exact view_rest. Qed.
Print Assumptions C50_rest_of_the_view.

(** For every public key, message and byte string [s] of the size of a signature there is one query
    such that changing the oracle there makes [s] an accepted signature, namely when the answer is
    the challenge in [s].  No private key is involved. *)
Theorem C50_simulation : forall xof i pk msg s,
  xof_sized xof -> lenN pk = pk_size i -> bytes_ok pk -> lenN s = sig_size i -> bytes_ok s -> lenN msg + 168 <= 2 ^ 32 ->
  exists q, forall x, xof_sized x -> reprogrammed q xof x ->
    last_query x i pk msg s q /\
    (verify x i (Some pk) (Some msg) (lenN msg) (Some s) (sig_size i) = Ok 0%Z <->
     H2 x (p_lambda (param_of i)) q (p_lambda (param_of i) / 8) = part_of i s Challenge_3).
Proof. exact simulation. Qed.
Print Assumptions C50_simulation.

(** two different witnesses of 200 bytes, one view: each has its masks, and they differ *)
Definition C50_Q : list (list N) := repeat (repeat 3 234) 128.
Definition C50_shows (w u : list N) (V : list (list N)) : Prop :=
  shows FAEST_128S w (repeat 3 16) (repeat 4 16) (repeat 5 88) (repeat 6 56) (repeat 7 16) u V
    (repeat 77 200) (repeat 9 18) (repeat 8 16) C50_Q.
Example C50_case_view : exists u V u' V',
  C50_shows (repeat 1 200) u V /\ C50_shows (repeat 2 200) u' V' /\ u <> u'.
Proof.
  assert (BR : forall b k, b < 256 -> bytes_ok (repeat b k)).
  { intros b k Hb. apply Forall_forall. intros x Hx. apply repeat_spec in Hx. subst x. exact Hb. }
  assert (MQ : matrix (p_lambda (param_of FAEST_128S)) ((p_l (param_of FAEST_128S) + 2 * p_lambda (param_of FAEST_128S) + 16) / 8) C50_Q).
  { split; [reflexivity|]. intros j Hj. change (p_lambda (param_of FAEST_128S)) with 128 in Hj. unfold C50_Q.
    rewrite (nth_indep _ [] (repeat 3 234)) by (rewrite repeat_length; lia). rewrite nth_repeat. split; [reflexivity|apply BR; reflexivity]. }
  assert (G : forall b, b < 256 -> exists u V, C50_shows (repeat b 200) u V).
  { intros b Hb.
    destruct (C50_view FAEST_128S (repeat b 200) (repeat 3 16) (repeat 4 16) (repeat 5 88) (repeat 6 56) (repeat 7 16)
      (repeat 77 200) (repeat 9 18) (repeat 8 16) C50_Q) as (u & V & (_ & _ & _ & H) & _);
      try reflexivity; try (apply BR; first [exact Hb|reflexivity]); [exact MQ|exists u, V; exact H]. }
  destruct (G 1 eq_refl) as (u & V & H). destruct (G 2 eq_refl) as (u' & V' & H'). exists u, V, u', V'. split; [exact H|]. split; [exact H'|].
  destruct H as [E _], H' as [E' _]. intros <-. cbv zeta in E, E'. change (N.to_nat (p_l (param_of FAEST_128S) / 8)) with 200%nat in E, E'.
  apply (f_equal (fun l => nth 0 l 0)) in E, E'. destruct u as [|x u]; cbn -[N.lxor] in E, E'; [discriminate E|].
  rewrite E' in E. apply (f_equal (fun y => N.lxor y x)) in E. rewrite !N.lxor_assoc, N.lxor_nilpotent in E. discriminate E.
Qed.

(** a string of 5006 bytes of value 7 is an accepted signature for the key of C01_case under some oracle *)
Example C50_case_simulation : exists q x, xof_sized x /\ reprogrammed q zero_xof x /\
  verify x FAEST_128S (Some (public_of FAEST_128S demo_sk)) (Some [1; 2; 3]) 3 (Some (repeat 7 5006)) 5006 = Ok 0%Z.
Proof.
  destruct (public_ok FAEST_128S demo_sk ltac:(rewrite demo_size; apply N.le_refl) demo_bytes) as (PL & PB).
  assert (B7 : forall k, bytes_ok (repeat 7 k)) by (intros k; apply Forall_forall; intros x Hx; apply repeat_spec in Hx; subst x; reflexivity).
  assert (L7 : lenN (repeat 7 5006) = sig_size FAEST_128S) by (unfold lenN; rewrite repeat_length; reflexivity).
  assert (HM : lenN [1; 2; 3] + 168 <= 2 ^ 32) by (vm_compute; discriminate).
  destruct (C50_simulation zero_xof FAEST_128S (public_of FAEST_128S demo_sk) [1; 2; 3] (repeat 7 5006) zero_sized PL PB L7 (B7 _) HM) as (q & HS).
  assert (X1 : xof_sized (reprogram q (repeat 7 16) zero_xof)) by (apply reprogram_sized; [exact zero_sized|apply B7]).
  pose proof (reprogram_at q (repeat 7 16) zero_xof) as X2. destruct (HS _ X1 X2) as [_ HV].
  exists q, (reprogram q (repeat 7 16) zero_xof). split; [exact X1|]. split; [exact X2|]. apply HV. rewrite reprogram_answer.
  vm_compute. reflexivity.
Qed.
