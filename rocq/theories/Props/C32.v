(** C32: the random oracles are domain separated and their inputs uniquely decodable.  [reveal]
    is the oracle that answers with the query it was asked. *)
From Verif.Model Require Import Faest.
From Verif.Proof Require Import OracleProps.

(** what H0 .. H3 compute is the XOF on the query shown by [reveal] *)
Theorem C32_queries : forall xof c n a b,
  H1_final xof c n = xof (h_sec c) (H1_final reveal c n) n /\
  H2_final xof c n = xof (h_sec c) (H2_final reveal c n) n /\
  fst (H0_final xof c a b) ++ snd (H0_final xof c a b) = xof (h_sec c) (fst (H0_final reveal c a b) ++ snd (H0_final reveal c a b)) (a + b) /\
  fst (H3_final xof c a) ++ snd (H3_final xof c a) = xof (h_sec c) (fst (H3_final reveal c a) ++ snd (H3_final reveal c a)) (a + 16).
Proof. exact oracle_queries. Qed.
Print Assumptions C32_queries.

(** queries of different oracles differ, for all contents of the contexts and all lengths *)
Theorem C32_separated : forall c0 c1 c2 c3 n1 n2 a b l,
  let q0 := fst (H0_final reveal c0 a b) ++ snd (H0_final reveal c0 a b) in
  let q1 := H1_final reveal c1 n1 in
  let q2 := H2_final reveal c2 n2 in
  let q3 := fst (H3_final reveal c3 l) ++ snd (H3_final reveal c3 l) in
  q0 <> q1 /\ q0 <> q2 /\ q0 <> q3 /\ q1 <> q2 /\ q1 <> q3 /\ q2 <> q3.
Proof. exact oracle_separated. Qed.
Print Assumptions C32_separated.

(** the query for mu determines both halves of the public key and the message *)
Theorem C32_mu : forall inp out msg inp' out' msg' size lambda q,
  lenN inp = size -> lenN out = size -> lenN inp' = size -> lenN out' = size ->
  hash_mu reveal inp out size msg lambda = Ok q -> hash_mu reveal inp' out' size msg' lambda = Ok q ->
  inp = inp' /\ out = out' /\ msg = msg'.
Proof. exact mu_decodes. Qed.
Print Assumptions C32_mu.

(** the queries for the challenges determine their components *)
Theorem C32_challenge_1 : forall mu hcom c iv mu' hcom' c' iv' lambda ell tau q,
  lenN mu = lambda / 8 * 2 -> lenN hcom = lambda / 8 * 2 -> lenN c = (ell / 8 + lambda / 8 * 2 + 2) * (tau - 1) -> lenN iv = 16 ->
  lenN mu' = lambda / 8 * 2 -> lenN hcom' = lambda / 8 * 2 -> lenN c' = (ell / 8 + lambda / 8 * 2 + 2) * (tau - 1) -> lenN iv' = 16 ->
  hash_challenge_1 reveal mu hcom c iv lambda ell tau = Ok q -> hash_challenge_1 reveal mu' hcom' c' iv' lambda ell tau = Ok q ->
  mu = mu' /\ hcom = hcom' /\ c = c' /\ iv = iv'.
Proof. exact challenge_1_decodes. Qed.
Print Assumptions C32_challenge_1.
Theorem C32_challenge_2 : forall c1 u h d c1' u' h' d' lambda ell q,
  lenN c1 = 5 * (lambda / 8) + 8 -> lenN u = lambda / 8 + 2 -> lenN h = 2 * (lambda / 8) -> lenN d = ell / 8 ->
  lenN c1' = 5 * (lambda / 8) + 8 -> lenN u' = lambda / 8 + 2 -> lenN h' = 2 * (lambda / 8) -> lenN d' = ell / 8 ->
  hash_challenge_2 reveal c1 u h d lambda ell = Ok q -> hash_challenge_2 reveal c1' u' h' d' lambda ell = Ok q ->
  c1 = c1' /\ u = u' /\ h = h' /\ d = d'.
Proof. exact challenge_2_decodes. Qed.
Print Assumptions C32_challenge_2.
Theorem C32_challenge_3 : forall c2 a b c2' a' b' lambda q,
  lenN c2 = 3 * (lambda / 8) + 8 -> lenN a = lambda / 8 -> lenN b = lambda / 8 ->
  lenN c2' = 3 * (lambda / 8) + 8 -> lenN a' = lambda / 8 -> lenN b' = lambda / 8 ->
  hash_challenge_3 reveal c2 a b lambda = Ok q -> hash_challenge_3 reveal c2' a' b' lambda = Ok q ->
  c2 = c2' /\ a = a' /\ b = b'.
Proof. exact challenge_3_decodes. Qed.
Print Assumptions C32_challenge_3.

(** the three challenges, which share H2, never ask the same query *)
Theorem C32_challenges_apart : forall i mu hcom c iv c1 u h d c2 a b q1 q2 q3,
  hash_challenge_1 reveal mu hcom c iv (p_lambda (param_of i)) (p_l (param_of i)) (p_tau (param_of i)) = Ok q1 ->
  hash_challenge_2 reveal c1 u h d (p_lambda (param_of i)) (p_l (param_of i)) = Ok q2 ->
  hash_challenge_3 reveal c2 a b (p_lambda (param_of i)) = Ok q3 ->
  q1 <> q2 /\ q1 <> q3 /\ q2 <> q3.
Proof. exact challenges_apart. Qed.
Print Assumptions C32_challenges_apart.

Example C32_mu_case : hash_mu reveal (repeat 1 16) (repeat 2 16) 16 [3; 4] 128 = Ok (repeat 1 16 ++ repeat 2 16 ++ [3; 4; 1]).
Proof. vm_compute. reflexivity. Qed.
Example C32_challenge_3_case : hash_challenge_3 reveal (repeat 1 56) (repeat 2 16) (repeat 3 16) 128 = Ok (repeat 1 56 ++ repeat 2 16 ++ repeat 3 16 ++ [2]).
Proof. vm_compute. reflexivity. Qed.
Example C32_challenge_1_case :
  hash_challenge_1 reveal (repeat 1 32) (repeat 2 32) (repeat 3 2340) (repeat 4 16) 128 1600 11 = Ok (repeat 1 32 ++ repeat 2 32 ++ repeat 3 2340 ++ repeat 4 16 ++ [2]).
Proof. vm_compute. reflexivity. Qed.
Example C32_challenge_2_case :
  hash_challenge_2 reveal (repeat 1 88) (repeat 2 18) (repeat 3 32) (repeat 4 200) 128 1600 = Ok (repeat 1 88 ++ repeat 2 18 ++ repeat 3 32 ++ repeat 4 200 ++ [2]).
Proof. vm_compute. reflexivity. Qed.
