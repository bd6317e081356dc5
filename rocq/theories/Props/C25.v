(** C25: counter increment. *)
From Verif.Model Require Import Aes.
From Verif.Spec Require Import OwfSpec.
From Verif.Proof Require Import AesProps.

Theorem C25_increment : forall iv, lenN iv = 16 -> bytes_ok iv ->
  exists iv', aes_increment_iv iv = Ok iv' /\ lenN iv' = 16 /\ bytes_ok iv' /\
              be_val iv' = (be_val iv + 1) mod 2 ^ 128.
Proof. exact counter_increment. Qed.
Print Assumptions C25_increment.

Example C25_case : lenN (repeat 1 14 ++ [255; 255]) = 16 /\
  aes_increment_iv (repeat 1 14 ++ [255; 255]) = Ok (repeat 1 13 ++ [2; 0; 0]).
Proof. split; reflexivity. Qed.
