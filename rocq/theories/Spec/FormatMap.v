(** Which helper of faest.c gives the position of each part of a signature. *)
From Verif.Model Require Import Faest.
From Verif.Spec Require Import FormatSpec.

Definition part_off (p : param) (x : part) : N :=
  match x with
  | Correction i => off_c p i
  | U_tilde => off_u_tilde p
  | D_masked_witness => off_d p
  | A_tilde => off_a_tilde p
  | Opening t => off_pdec p t
  | Com t => off_com p t
  | Challenge_3 => off_chall_3 p
  | Iv => off_iv p
  end.
