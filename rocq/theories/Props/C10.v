(** C10: crypto_sign / crypto_sign_open round trip. *)
From Verif.Model Require Import Api.
From Verif.Spec Require Import VcSpec UHashSpec KeySpec.
From Verif.Proof Require Import BaseProof VerifyProps ApiProps KeyCases.

(** The caller's memory is one array [mem]; m, sm are positions in it and the areas may overlap in
    any way.  [sub mem m mlen] is the message.  The signed message [signed] starts with it,
    continues with the signature that sign would make, is written at sm and nowhere else; and opening it, from this or any other memory that holds it,
    delivers the message at any place. *)
Theorem C10_round_trip : forall xof, xof_sized xof -> forall i os stack mem sm m mlen sk, fills os ->
  p_lambda (param_of i) / 8 <= lenN stack -> Forall (fun b => b < 256) stack -> Forall (fun b => b < 256) mem ->
  m + mlen <= lenN mem -> sm + mlen + sig_size i <= lenN mem ->
  sk_size i <= lenN sk -> Forall (fun b => b < 256) sk -> valid_key i sk -> mlen + 168 <= 2 ^ 32 ->
  let msg := sub mem m mlen in
  exists signed, lenN signed = mlen + sig_size i /\ firstn (N.to_nat mlen) signed = msg /\
    crypto_sign xof i os stack mem sm m mlen sk = Ok (0%Z, overwrite mem sm signed, mlen + sig_size i) /\
    (forall buf, lenN buf = sig_size i -> Forall (fun b => b < 256) buf ->
      sign xof i os stack (Some sk) (Some msg) mlen (Some buf) (Some (sig_size i)) = Ok (0%Z, Some (skipn (N.to_nat mlen) signed), Some (sig_size i))) /\
    (forall mem2 m2 mlen2 sm2, Forall (fun b => b < 256) mem2 ->
      sm2 + lenN signed <= lenN mem2 -> m2 + mlen <= lenN mem2 -> sub mem2 sm2 (lenN signed) = signed ->
      crypto_sign_open xof i mem2 m2 mlen2 sm2 (lenN signed) (public_of i sk) = Ok (0%Z, overwrite mem2 m2 msg, mlen)).
Proof. exact crypto_round_trip. Qed.
Print Assumptions C10_round_trip.

(** overlap: the message (3 bytes at 1) is moved one byte forward to make room, signed at 2, and
    opened in place *)
Example C10_case : let mem := [0; 10; 20; 30] ++ repeat 0 (N.to_nat 5010) in
  exists mem1, crypto_sign zero_xof FAEST_128S demo_os (repeat 0 16) mem 2 1 3 demo_sk = Ok (0%Z, mem1, 5009) /\
    crypto_sign_open zero_xof FAEST_128S mem1 0 99 2 5009 (public_of FAEST_128S demo_sk) = Ok (0%Z, overwrite mem1 0 [10; 20; 30], 3).
Proof. exact crypto_case. Qed.
