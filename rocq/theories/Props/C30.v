(** C30: the verifier's value is a polynomial in the challenge, with the prover's values as
    coefficients and the hash of the defects of the witness as leading coefficient. *)
From Verif.Model Require Import Owf FaestAes.
From Verif.Spec Require Import AesSpec OwfSpec ConstraintSpec ConstraintMap UHashSpec VoleSpec ProofSpec.
From Verif.Proof Require Import AgreeProps.
From Verif.Props Require C28.
From Coq Require Import Lia.

(** For every witness [w], right or wrong, and the value [a] the verifier is given in place of the
    prover's first value:  b = a0 + D (a1 + a) + (D^2 + D) h, h the hash of the defects. *)
Theorem C30_polynomials_agree : forall i w u V Q inp out chall_2 chall_3 a,
  let p := param_of i in let n := p_lambda p in let l := p_l p in
  lenN w = l / 8 -> bytes_ok w ->
  lenN inp = owf_input_size i -> bytes_ok inp -> lenN out = owf_input_size i -> bytes_ok out ->
  l + n <= 8 * lenN u -> bytes_ok u -> matrix n (lenN u) V -> correlated n chall_3 u V Q ->
  3 * (n / 8) + 8 <= lenN chall_2 -> bytes_ok chall_2 ->
  lenN chall_3 = n / 8 -> bytes_ok chall_3 -> lenN a = n / 8 -> bytes_ok a ->
  exists a1 a0 b,
    aes_prove p w u V inp out chall_2 = Ok (a1, a0) /\
    aes_verify p (xors w (firstn (N.to_nat (l / 8)) u)) Q chall_2 chall_3 a inp out = Ok b /\
    lenN a1 = n / 8 /\ bytes_ok a1 /\ lenN a0 = n / 8 /\ bytes_ok a0 /\ lenN b = n / 8 /\ bytes_ok b /\
    num b = challenge_poly (F_of i) (num chall_3) (num a0) (N.lxor (num a1) (num a)) (defect_hash i chall_2 w inp out).
Proof. exact polynomials_agree. Qed.
Print Assumptions C30_polynomials_agree.

(** Three different challenges that pass with the same [a] and [b] (which are fixed before the
    challenge is known): the defects hash to zero, and [a], [b] are what an honest prover computes. *)
Theorem C30_three_challenges : forall i w u V inp out chall_2 a b c1 c2 c3,
  let p := param_of i in let n := p_lambda p in let l := p_l p in
  lenN w = l / 8 -> bytes_ok w ->
  lenN inp = owf_input_size i -> bytes_ok inp -> lenN out = owf_input_size i -> bytes_ok out ->
  l + n <= 8 * lenN u -> bytes_ok u -> matrix n (lenN u) V ->
  3 * (n / 8) + 8 <= lenN chall_2 -> bytes_ok chall_2 -> lenN a = n / 8 -> bytes_ok a ->
  NoDup [c1; c2; c3] ->
  (forall c, In c [c1; c2; c3] -> lenN c = n / 8 /\ bytes_ok c /\
     exists Q, correlated n c u V Q /\ aes_verify p (xors w (firstn (N.to_nat (l / 8)) u)) Q chall_2 c a inp out = Ok b) ->
  defect_hash i chall_2 w inp out = 0 /\ aes_prove p w u V inp out chall_2 = Ok (a, b).
Proof. exact three_challenges. Qed.
Print Assumptions C30_three_challenges.

(** When the defects hash to zero, in particular for the witness of a valid key, every challenge
    passes with the prover's values. *)
Theorem C30_honest_passes : forall i w u V Q inp out chall_2 chall_3,
  let p := param_of i in let n := p_lambda p in let l := p_l p in
  lenN w = l / 8 -> bytes_ok w ->
  lenN inp = owf_input_size i -> bytes_ok inp -> lenN out = owf_input_size i -> bytes_ok out ->
  l + n <= 8 * lenN u -> bytes_ok u -> matrix n (lenN u) V -> correlated n chall_3 u V Q ->
  3 * (n / 8) + 8 <= lenN chall_2 -> bytes_ok chall_2 -> lenN chall_3 = n / 8 -> bytes_ok chall_3 ->
  defect_hash i chall_2 w inp out = 0 ->
  exists a1 a0, aes_prove p w u V inp out chall_2 = Ok (a1, a0) /\
    lenN a1 = n / 8 /\ bytes_ok a1 /\ lenN a0 = n / 8 /\ bytes_ok a0 /\
    aes_verify p (xors w (firstn (N.to_nat (l / 8)) u)) Q chall_2 chall_3 a1 inp out = Ok a0.
Proof. exact honest_agrees. Qed.
Print Assumptions C30_honest_passes.

(** a matrix of 128 equal columns of 216 bytes, and what the verifier holds for challenge [c] *)
Definition C30_V : list (list N) := repeat (repeat 3 216) 128.
Definition C30_Q (c : list N) : list (list N) :=
  map (fun j => xors (repeat 3 216) (scale (bit_at c (N.of_nat j)) (repeat 77 216))) (seq 0 128).
Lemma C30_matrix : matrix 128 216 C30_V.
Proof.
  split; [reflexivity|]. intros j Hj. unfold C30_V. rewrite (nth_indep _ [] (repeat 3 216)) by (rewrite repeat_length; lia).
  rewrite nth_repeat. split; [reflexivity|]. repeat constructor.
Qed.
Lemma C30_correlated c : correlated 128 c (repeat 77 216) C30_V (C30_Q c).
Proof.
  split; [reflexivity|]. intros j Hj. unfold C30_V, C30_Q.
  rewrite (nth_indep (repeat _ _) [] (repeat 3 216)) by (rewrite repeat_length; lia). rewrite nth_repeat.
  rewrite (nth_indep _ [] (xors (repeat 3 216) (scale (bit_at c (N.of_nat 0)) (repeat 77 216)))) by (rewrite map_length, seq_length; lia).
  rewrite (map_nth (fun j => xors (repeat 3 216) (scale (bit_at c (N.of_nat j)) (repeat 77 216)))).
  rewrite seq_nth by lia. rewrite Nat.add_0_l, N2Nat.id. reflexivity.
Qed.

(** the key of C28_case: three challenges pass, so the hypotheses of the second theorem are met *)
Example C30_case : exists w out a b,
  aes_extend_witness FAEST_128S (map (fun x => 7 * x + 9) (Nrange 16)) (Nrange 16) = Ok w /\
  owf FAEST_128S (map (fun x => 7 * x + 9) (Nrange 16)) (Nrange 16) = Ok (out, true) /\
  forall c, In c [repeat 1 16; repeat 2 16; repeat 3 16] ->
    correlated 128 c (repeat 77 216) C30_V (C30_Q c) /\
    aes_verify (param_of FAEST_128S) (xors w (firstn 200 (repeat 77 216))) (C30_Q c) (repeat 5 56) c a (Nrange 16) out = Ok b.
Proof.
  destruct (owf FAEST_128S (map (fun x => 7 * x + 9) (Nrange 16)) (Nrange 16)) as [[out ok]|] eqn:EO; [|vm_compute in EO; discriminate EO].
  assert (HO : ok = true /\ lenN out = 16 /\ forallb (fun b => b <? 256) out = true).
  { vm_compute in EO. injection EO as <- <-. vm_compute. auto. }
  destruct HO as (-> & LO & BO).
  assert (BO' : bytes_ok out) by (apply Forall_forall; intros b Hb; apply N.ltb_lt; rewrite forallb_forall in BO; auto).
  destruct (C28.C28_witness_satisfies FAEST_128S (map (fun x => 7 * x + 9) (Nrange 16)) (Nrange 16) out)
    as (w & EW & LW & BW & _ & HZ & _); [reflexivity|repeat constructor|reflexivity|repeat constructor|exact EO|].
  assert (BC : bytes_ok (repeat 5 56)) by repeat constructor.
  pose proof (zero_defects FAEST_128S (repeat 5 56) w (Nrange 16) out BC HZ) as HD.
  assert (H : forall c, lenN c = 16 -> bytes_ok c -> exists a1 a0,
    aes_prove (param_of FAEST_128S) w (repeat 77 216) C30_V (Nrange 16) out (repeat 5 56) = Ok (a1, a0) /\
    aes_verify (param_of FAEST_128S) (xors w (firstn 200 (repeat 77 216))) (C30_Q c) (repeat 5 56) c a1 (Nrange 16) out = Ok a0).
  { intros c LC Bc.
    assert (BI : bytes_ok (Nrange 16)) by repeat constructor.
    assert (BU : bytes_ok (repeat 77 216)) by repeat constructor.
    assert (H1 : p_l (param_of FAEST_128S) + p_lambda (param_of FAEST_128S) <= 8 * lenN (repeat 77 216)) by (vm_compute; discriminate).
    assert (H2 : 3 * (p_lambda (param_of FAEST_128S) / 8) + 8 <= lenN (repeat 5 56)) by (vm_compute; discriminate).
    destruct (C30_honest_passes FAEST_128S w (repeat 77 216) C30_V (C30_Q c) (Nrange 16) out (repeat 5 56) c
      LW BW eq_refl BI LO BO' H1 BU C30_matrix (C30_correlated c) H2 BC LC Bc HD)
      as (a1 & a0 & E1 & _ & _ & _ & _ & E2).
    exists a1, a0. split; [exact E1|exact E2]. }
  destruct (H (repeat 1 16) eq_refl ltac:(repeat constructor)) as (a & b & E & _).
  exists w, out, a, b. split; [exact EW|]. split; [reflexivity|]. intros c Hc. split; [apply C30_correlated|].
  assert (Hc' : lenN c = 16 /\ bytes_ok c) by (destruct Hc as [<-|[<-|[<-|[]]]]; (split; [reflexivity|repeat constructor])).
  destruct (H c (proj1 Hc') (proj2 Hc')) as (a' & b' & E' & EV). rewrite E in E'. injection E' as <- <-. exact EV.
Qed.
