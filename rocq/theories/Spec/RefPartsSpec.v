(** The C functions that give the place of a part in a signature. *)
From Coq Require Import ZArith NArith List.
From Verif Require Import Model.Params Spec.FormatSpec Spec.RefSpec Spec.RefVoleSpec.
From Verif Require Import Model.CtLang Model.CtNames.
Import ListNotations.
Local Open Scope Z_scope.

(** One for the signer, one for the verifier. *)
Definition place_function (verifier : bool) (x : part) : positive :=
  match x with
  | Correction _ => if verifier then f_dsignature_c else f_signature_c
  | U_tilde => if verifier then f_dsignature_u_tilde else f_signature_u_tilde
  | D_masked_witness => if verifier then f_dsignature_d else f_signature_d
  | A_tilde => if verifier then f_dsignature_a_tilde else f_signature_a_tilde
  | Opening _ => if verifier then f_dsignature_pdec else f_signature_pdec
  | Com _ => if verifier then f_dsignature_com else f_signature_com
  | Challenge_3 => if verifier then f_dsignature_chall_3 else f_signature_chall_3
  | Iv => if verifier then f_dsignature_iv else f_signature_iv
  end.
(** Arguments: the signature, the number of the part if there are several of the kind, the parameters. *)
Definition place_arguments (signature : value) (x : part) (parameters : value) : list value :=
  match x with
  | Correction i | Opening i | Com i => [signature; VInt (Z.of_N i); parameters]
  | _ => [signature; parameters]
  end.
(** The parameters that count here stand at their places in the structure (instances.h, faest_param_t: 16-bit members). *)
Definition signature_parameters (m : mem) (b : positive) (o : Z) (p : param) : Prop :=
  number m b o (p_lambda p) /\ number m b (o + 10) (p_l p) /\ number m b (o + 16) (p_tau p) /\ number m b (o + 18) (p_k0 p) /\
  number m b (o + 20) (p_k1 p) /\ number m b (o + 22) (p_t0 p) /\ number m b (o + 26) (p_sigSize p).
