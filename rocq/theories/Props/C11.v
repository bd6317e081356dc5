(** C11: crypto_sign_open delivers nothing unless the signature verifies. *)
From Verif.Model Require Import Api.
From Verif.Spec Require Import VcSpec UHashSpec KeySpec.
From Verif.Proof Require Import BaseProof VerifyProps ApiProps KeyCases.

(** in the first case the memory and *mlen are what they were *)
Theorem C11_open : forall xof, xof_sized xof -> forall i mem m mlen0 sm smlen pk,
  Forall (fun b => b < 256) mem -> sm + smlen <= lenN mem -> m + (smlen - sig_size i) <= lenN mem ->
  pk_size i <= lenN pk -> Forall (fun b => b < 256) pk -> smlen - sig_size i + 168 <= 2 ^ 32 ->
  let n := smlen - sig_size i in
  let msg := sub mem sm n in let sg := sub mem (sm + n) (sig_size i) in
  (crypto_sign_open xof i mem m mlen0 sm smlen pk = Ok ((-1)%Z, mem, mlen0) /\
   (smlen < sig_size i \/ verify xof i (Some pk) (Some msg) n (Some sg) (sig_size i) = Ok (-1)%Z)) \/
  (crypto_sign_open xof i mem m mlen0 sm smlen pk = Ok (0%Z, overwrite mem m msg, n) /\
   sig_size i <= smlen /\ lenN msg = n /\ verify xof i (Some pk) (Some msg) n (Some sg) (sig_size i) = Ok 0%Z).
Proof. exact crypto_open_cases. Qed.
Print Assumptions C11_open.

(** too short, and accepted with an empty message *)
Example C11_short_case : crypto_sign_open zero_xof FAEST_128S [1; 2; 3] 0 99 0 3 (repeat 1 32) = Ok ((-1)%Z, [1; 2; 3], 99).
Proof.
  destruct (C11_open zero_xof zero_sized FAEST_128S [1; 2; 3] 0 99 0 3 (repeat 1 32)) as [[H _]|(_ & H & _)]; try discriminate; try exact H.
  - repeat constructor.
  - repeat constructor.
  - destruct H. reflexivity.
Qed.
Example C11_accepting_case : let mem := [7] ++ repeat 0 (N.to_nat 5006) in
  crypto_sign_open zero_xof FAEST_128S mem 3 99 0 5007 (repeat 1 32) = Ok (0%Z, overwrite mem 3 [7], 1).
Proof. exact open_case. Qed.
