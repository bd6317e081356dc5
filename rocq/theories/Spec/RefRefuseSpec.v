(** Arguments that the signing and verification functions refuse. *)
From Coq Require Import ZArith NArith List.
From Verif Require Import Model.Params Spec.RefSpec.
From Verif Require Import Model.CtLang Model.CtNames.
Import ListNotations.
Local Open Scope Z_scope.

(** The functions, by parameter set. *)
Definition sign_of (i : paramid) : positive :=
  match i with
  | FAEST_128S => f_faest_128s_sign | FAEST_128F => f_faest_128f_sign | FAEST_192S => f_faest_192s_sign | FAEST_192F => f_faest_192f_sign
  | FAEST_256S => f_faest_256s_sign | FAEST_256F => f_faest_256f_sign | FAEST_EM_128S => f_faest_em_128s_sign | FAEST_EM_128F => f_faest_em_128f_sign
  | FAEST_EM_192S => f_faest_em_192s_sign | FAEST_EM_192F => f_faest_em_192f_sign | FAEST_EM_256S => f_faest_em_256s_sign | FAEST_EM_256F => f_faest_em_256f_sign
  end.
Definition sign_with_randomness_of (i : paramid) : positive :=
  match i with
  | FAEST_128S => f_faest_128s_sign_with_randomness | FAEST_128F => f_faest_128f_sign_with_randomness
  | FAEST_192S => f_faest_192s_sign_with_randomness | FAEST_192F => f_faest_192f_sign_with_randomness
  | FAEST_256S => f_faest_256s_sign_with_randomness | FAEST_256F => f_faest_256f_sign_with_randomness
  | FAEST_EM_128S => f_faest_em_128s_sign_with_randomness | FAEST_EM_128F => f_faest_em_128f_sign_with_randomness
  | FAEST_EM_192S => f_faest_em_192s_sign_with_randomness | FAEST_EM_192F => f_faest_em_192f_sign_with_randomness
  | FAEST_EM_256S => f_faest_em_256s_sign_with_randomness | FAEST_EM_256F => f_faest_em_256f_sign_with_randomness
  end.
Definition verify_of (i : paramid) : positive :=
  match i with
  | FAEST_128S => f_faest_128s_verify | FAEST_128F => f_faest_128f_verify | FAEST_192S => f_faest_192s_verify | FAEST_192F => f_faest_192f_verify
  | FAEST_256S => f_faest_256s_verify | FAEST_256F => f_faest_256f_verify | FAEST_EM_128S => f_faest_em_128s_verify | FAEST_EM_128F => f_faest_em_128f_verify
  | FAEST_EM_192S => f_faest_em_192s_verify | FAEST_EM_192F => f_faest_em_192f_verify | FAEST_EM_256S => f_faest_em_256s_verify | FAEST_EM_256F => f_faest_em_256f_verify
  end.

(** The pointer [p] points to a size_t with this value. *)
Definition size_at (m : mem) (p : value) (n : Z) : Prop := exists b o l, p = VPtr b o /\ contents m b o 8 = Some l /\ decode l = n.
(** What sign refuses at once: a pointer is NULL, or the buffer for the signature is too small. *)
Definition refused (m : mem) (i : paramid) (sk signature signature_len : value) : Prop :=
  sk = VNull \/ signature = VNull \/ signature_len = VNull \/ exists n, size_at m signature_len n /\ n < Z.of_N (sig_size i).
