(** C15: the challenge is split into disjoint, exhaustive chunks. *)
From Verif.Model Require Import Vole.
From Verif.Spec Require Import VoleSpec FormatSpec.
From Verif.Proof Require Import VoleProps.

Theorem C15_chunks : forall i chal, let p := param_of i in
  bytes_ok chal -> p_lambda p / 8 <= lenN chal ->
  exists chunk : N -> list N,
    (forall t, t < p_tau p ->
       ChalDec chal t (p_k0 p) (p_t0 p) (p_k1 p) (p_t1 p) = Ok (true, chunk t) /\
       lenN (chunk t) = depth_of p t) /\
    concat (map chunk (upto (p_tau p))) = map (fun n => N.b2n (bit_at chal n)) (upto (p_lambda p)).
Proof. exact chunks_ok. Qed.
Print Assumptions C15_chunks.

(** an index that does not exist: fails, and the list of written bits is empty; the challenge is
    not even read (no condition on it) *)
Theorem C15_out_of_range : forall i chal t, let p := param_of i in p_tau p <= t ->
  ChalDec chal t (p_k0 p) (p_t0 p) (p_k1 p) (p_t1 p) = Ok (false, []).
Proof. exact chunk_out_of_range. Qed.
Print Assumptions C15_out_of_range.

Example C15_case : bytes_ok (repeat 0xa5 16) /\
  ChalDec (repeat 0xa5 16) 8 12 7 11 4 = Ok (true, [1; 1; 0; 1; 0; 0; 1; 0; 1; 1; 0]) /\
  ChalDec [] 11 12 7 11 4 = Ok (false, []).
Proof. split; [repeat constructor|vm_compute; auto]. Qed.
