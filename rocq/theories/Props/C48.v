(** C48: knowledge soundness.  Whoever can continue one run of the signing protocol, up to the last
    challenge, for three different challenges knows a private key for the public key. *)
From Verif.Model Require Import Api.
From Verif.Spec Require Import OwfSpec VcSpec VoleSpec FormatSpec FormatMap UHashSpec ConstraintMap RunSpec SignSpec KeySpec SoundSpec.
From Verif.Proof Require Import BaseProof VerifyProps ApiProof SoundProps KeyCases.

(** Three oracles that differ from [xof] at one query [q] only, and differ there; three signatures
    of one message, each accepted under its oracle by a run whose last query is [q].  Then in some
    tree two of the signatures open all leaves, and from any two such signatures the extractor
    [known_sk] (Spec/SoundSpec.v) computes a private key that belongs to the public key, or else one
    of three events has happened: the hash of the constraints misses a wrong witness, the hash of the
    masks misses an inconsistency between two trees, or two of the runs contain a collision. *)
Theorem C48_extraction : forall xof x1 x2 x3 i pk msg s1 s2 s3 q,
  xof_sized xof -> lenN pk = pk_size i -> Forall (fun b => b < 256) pk ->
  (forall x s, In (x, s) [(x1, s1); (x2, s2); (x3, s3)] ->
     xof_sized x /\ reprogrammed q xof x /\ lenN s = sig_size i /\ Forall (fun b => b < 256) s /\
     verify x i (Some pk) (Some msg) (lenN msg) (Some s) (sig_size i) = Ok 0%Z /\ last_query x i pk msg s q) ->
  NoDup (map (fun x => H2 x (p_lambda (param_of i)) q (p_lambda (param_of i) / 8)) [x1; x2; x3]) ->
  (exists a a' t, In a [s1; s2; s3] /\ In a' [s1; s2; s3] /\ t < p_tau (param_of i) /\ leaf_hidden i a t <> leaf_hidden i a' t) /\
  forall a a' t, In a [s1; s2; s3] -> In a' [s1; s2; s3] -> t < p_tau (param_of i) -> leaf_hidden i a t <> leaf_hidden i a' t ->
    validate_keypair i (Some pk) (Some (known_sk xof i a a' t pk)) = Ok 0%Z \/
    zk_hash_miss xof i a a' t pk msg \/ vole_hash_miss xof i pk msg [s1; s2; s3] \/
    exists s s', In s [s1; s2; s3] /\ In s' [s1; s2; s3] /\ run_collision xof i pk msg s s'.
Proof. exact forking. Qed.
Print Assumptions C48_extraction.

(** The hypotheses are met by the honest signer, for every valid key, message and randomness and
    every way to answer the last query; and from two of its signatures the extractor computes the
    signer's own private key. *)
Theorem C48_honest : forall xof i sk msg r,
  xof_sized xof -> lenN sk = sk_size i -> Forall (fun b => b < 256) sk -> valid_key i sk ->
  lenN msg + 168 <= 2 ^ 32 -> lenN r + 168 <= 2 ^ 32 ->
  exists q S, forall x, xof_sized x -> reprogrammed q xof x ->
    lenN (S x) = sig_size i /\ Forall (fun b => b < 256) (S x) /\
    (forall buf, lenN buf = sig_size i -> Forall (fun b => b < 256) buf ->
       sign_with_randomness x i (Some sk) (Some msg) (lenN msg) (Some r) (lenN r) (Some buf) (Some (sig_size i)) = Ok (0%Z, Some (S x), Some (sig_size i))) /\
    verify x i (Some (public_of i sk)) (Some msg) (lenN msg) (Some (S x)) (sig_size i) = Ok 0%Z /\
    last_query x i (public_of i sk) msg (S x) q /\
    forall x' t, xof_sized x' -> reprogrammed q xof x' -> t < p_tau (param_of i) -> leaf_hidden i (S x) t <> leaf_hidden i (S x') t ->
      known_sk xof i (S x) (S x') t (public_of i sk) = sk.
Proof. exact honest_fork. Qed.
Print Assumptions C48_honest.

(** A case that meets all hypotheses of [C48_extraction] *)
Example C48_case : exists q x1 x2 x3 s1 s2 s3, let i := FAEST_128S in let pk := public_of i demo_sk in
  xof_sized zero_xof /\ lenN pk = pk_size i /\ Forall (fun b => b < 256) pk /\
  (forall x s, In (x, s) [(x1, s1); (x2, s2); (x3, s3)] ->
     xof_sized x /\ reprogrammed q zero_xof x /\ lenN s = sig_size i /\ Forall (fun b => b < 256) s /\
     verify x i (Some pk) (Some [1; 2; 3]) (lenN [1; 2; 3]) (Some s) (sig_size i) = Ok 0%Z /\ last_query x i pk [1; 2; 3] s q) /\
  NoDup (map (fun x => H2 x (p_lambda (param_of i)) q (p_lambda (param_of i) / 8)) [x1; x2; x3]).
Proof.
  destruct (C48_honest zero_xof FAEST_128S demo_sk [1; 2; 3] [9]) as (q & S & HS);
    [exact zero_sized|reflexivity|exact demo_bytes|exact demo_valid|discriminate|discriminate|].
  exists q, (reprogram q [1] zero_xof), (reprogram q [2] zero_xof), (reprogram q [3] zero_xof),
    (S (reprogram q [1] zero_xof)), (S (reprogram q [2] zero_xof)), (S (reprogram q [3] zero_xof)).
  intros i pk. destruct (public_ok FAEST_128S demo_sk ltac:(rewrite demo_size; apply N.le_refl) demo_bytes) as (PL & PB).
  split; [exact zero_sized|]. split; [exact PL|]. split; [exact PB|]. split.
  - assert (G : forall c, c < 256 -> let x := reprogram q [c] zero_xof in
      xof_sized x /\ reprogrammed q zero_xof x /\ lenN (S x) = sig_size i /\ Forall (fun b => b < 256) (S x) /\
      verify x i (Some pk) (Some [1; 2; 3]) (lenN [1; 2; 3]) (Some (S x)) (sig_size i) = Ok 0%Z /\ last_query x i pk [1; 2; 3] (S x) q).
    { intros c Hc x. assert (X1 : xof_sized x) by (apply reprogram_sized; [exact zero_sized|repeat constructor; exact Hc]).
      pose proof (reprogram_at q [c] zero_xof) as X2. destruct (HS x X1 X2) as (A & B & _ & C & D & _). auto 10. }
    intros x s [E|[E|[E|[]]]]; injection E as <- <-; apply G; reflexivity.
  - cbn [map]. rewrite !reprogram_answer. repeat constructor; cbn; intuition discriminate.
Qed.
