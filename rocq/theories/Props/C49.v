(** C49: how often the universal hashes collide, and how many challenges let a wrong witness pass. *)
From Verif.Model Require Import UHash FaestAes.
From Verif.Spec Require Import OwfSpec VoleSpec UHashSpec UHashMap ConstraintSpec ConstraintMap ProofSpec CountSpec.
From Verif.Proof Require Import CountProps.
From Verif.Props Require C30.

(** Two different inputs of the VOLE hash collide for at most 2^(4 lambda + 49) of the
    2^(5 lambda + 64) seeds, one in 2^(lambda + 15). *)
Theorem C49_vole_hash : forall lambda F x y ell, In (lambda, F) levels -> ell mod 8 = 0 -> ell <= 2 ^ 29 ->
  lenN x = (ell + 2 * lambda) / 8 + 2 -> lenN y = (ell + 2 * lambda) / 8 + 2 -> bytes_ok x -> bytes_ok y -> x <> y ->
  at_most (2 ^ (4 * lambda + 49)) (fun sd => lenN sd = 5 * (lambda / 8) + 8 /\ bytes_ok sd /\
    exists h, vole_hash lambda sd x ell = Ok h /\ vole_hash lambda sd y ell = Ok h).
Proof. exact vole_collisions. Qed.
Print Assumptions C49_vole_hash.

(** Two different inputs of the ZK hash, of the same length, collide for at most 2^(2 lambda + 65)
    of the 2^(3 lambda + 64) seeds, one in 2^(lambda - 1). *)
Theorem C49_zk_hash : forall lambda F xs ys x1 y1, In (lambda, F) levels ->
  length xs = length ys -> lenN xs <= 2 ^ 32 ->
  Forall (fun v => v < 2 ^ lambda) xs -> Forall (fun v => v < 2 ^ lambda) ys -> x1 < 2 ^ lambda -> y1 < 2 ^ lambda ->
  (xs, x1) <> (ys, y1) ->
  at_most (2 ^ (2 * lambda + 65)) (fun sd => lenN sd = 3 * (lambda / 8) + 8 /\ bytes_ok sd /\
    exists c, zk_hash_init F sd = Ok c /\
      zk_hash_finalize F (fold_left (zk_hash_update F) xs c) x1 = zk_hash_finalize F (fold_left (zk_hash_update F) ys c) y1).
Proof. exact zk_collisions. Qed.
Print Assumptions C49_zk_hash.

(** A witness that violates a constraint is missed by the hash of the constraints (the event
    [zk_hash_miss] of C48) for at most one in 2^(lambda - 1) of the second challenges. *)
Theorem C49_witness_missed : forall i w inp out, lenN w = p_l (param_of i) / 8 -> bytes_ok w ->
  lenN inp = owf_input_size i -> bytes_ok inp -> lenN out = owf_input_size i -> bytes_ok out ->
  Exists (fun xy => defect (F_of i) xy <> 0) (claims i w inp out) ->
  at_most (2 ^ (2 * p_lambda (param_of i) + 65)) (fun sd => lenN sd = 3 * (p_lambda (param_of i) / 8) + 8 /\ bytes_ok sd /\
    defect_hash i sd w inp out = 0).
Proof. exact witness_misses. Qed.
Print Assumptions C49_witness_missed.

(** Soundness of the proof of the constraints.  The prover has fixed a witness [w], wrong for the
    public key, and the masks [u], [V]; it answers the second challenge with any values [a] and [b].
    The verifier's computation, for what it holds in place of [V], gives [b] for at most
    2^(3 lambda + 66) of the 2^(4 lambda + 64) pairs of challenges, one in 2^(lambda - 2). *)
Theorem C49_wrong_witness : forall i w u V inp out a b, let p := param_of i in let n := p_lambda p in let l := p_l p in
  lenN w = l / 8 -> bytes_ok w ->
  lenN inp = owf_input_size i -> bytes_ok inp -> lenN out = owf_input_size i -> bytes_ok out ->
  l + n <= 8 * lenN u -> bytes_ok u -> matrix n (lenN u) V ->
  (forall c, lenN (a c) = n / 8 /\ bytes_ok (a c)) ->
  Exists (fun xy => defect (F_of i) xy <> 0) (claims i w inp out) ->
  at_most (2 ^ (3 * n + 66)) (fun '(c2, c3) => lenN c2 = 3 * (n / 8) + 8 /\ bytes_ok c2 /\ lenN c3 = n / 8 /\ bytes_ok c3 /\
    exists Q, correlated n c3 u V Q /\ aes_verify p (xors w (firstn (N.to_nat (l / 8)) u)) Q c2 c3 (a c2) inp out = Ok (b c2)).
Proof. exact wrong_witness. Qed.
Print Assumptions C49_wrong_witness.

(** Inputs that meet the hypotheses, a seed for which they collide and one for which they do not *)
Example C49_vole_case : let x := 1 :: repeat 0 34 in let y := repeat 0 35 in
  (forall sd, In sd [repeat 0 88; repeat 0 64 ++ 1 :: repeat 0 23; 1 :: repeat 0 63 ++ 1 :: repeat 0 23] -> lenN sd = 5 * (128 / 8) + 8 /\ bytes_ok sd) /\
  lenN x = (8 + 2 * 128) / 8 + 2 /\ lenN y = (8 + 2 * 128) / 8 + 2 /\ bytes_ok x /\ bytes_ok y /\ x <> y /\
  vole_hash 128 (repeat 0 88) x 8 = vole_hash 128 (repeat 0 88) y 8 /\ vole_hash 128 (repeat 0 88) y 8 = Ok (repeat 0 18) /\
  vole_hash 128 (repeat 0 64 ++ 1 :: repeat 0 23) x 8 = vole_hash 128 (repeat 0 64 ++ 1 :: repeat 0 23) y 8 /\
  vole_hash 128 (1 :: repeat 0 63 ++ 1 :: repeat 0 23) x 8 <> vole_hash 128 (1 :: repeat 0 63 ++ 1 :: repeat 0 23) y 8.
Proof.
  cbv zeta. split; [intros sd [<-|[<-|[<-|[]]]]; (split; [reflexivity|repeat constructor])|].
  repeat (split; [first [reflexivity|repeat constructor; fail|discriminate|vm_compute; reflexivity]|]).
  vm_compute. discriminate.
Qed.
(** The ZK hash of one field element x is r0 x + r1 x + x1 *)
Example C49_zk_case : exists c c', zk_hash_init F128 (1 :: repeat 0 55) = Ok c /\ zk_hash_init F128 (repeat 0 56) = Ok c' /\
  zk_hash_finalize F128 (zk_hash_update F128 c 3) 0 <> zk_hash_finalize F128 (zk_hash_update F128 c 4) 0 /\
  zk_hash_finalize F128 (zk_hash_update F128 c' 3) 0 = zk_hash_finalize F128 (zk_hash_update F128 c' 4) 0.
Proof. eexists. eexists. split; [vm_compute; reflexivity|]. split; [vm_compute; reflexivity|]. split; vm_compute; [discriminate|reflexivity]. Qed.
(** the witness of zeros is wrong: its first S-box has the input 0 *)
Example C49_witness_case : Exists (fun xy => defect (F_of FAEST_128S) xy <> 0) (claims FAEST_128S (repeat 0 200) (repeat 0 16) (repeat 0 16)) /\
  matrix 128 216 C30.C30_V /\ (forall c, correlated 128 c (repeat 77 216) C30.C30_V (C30.C30_Q c)).
Proof.
  split; [|split; [exact C30.C30_matrix|exact C30.C30_correlated]].
  assert (H : hd (1, 1) (claims FAEST_128S (repeat 0 200) (repeat 0 16) (repeat 0 16)) = (0, 1)) by (vm_compute; reflexivity).
  destruct (claims FAEST_128S (repeat 0 200) (repeat 0 16) (repeat 0 16)) as [|xy l]; [discriminate H|]. cbn [hd] in H. subst xy.
  left. vm_compute. discriminate.
Qed.
