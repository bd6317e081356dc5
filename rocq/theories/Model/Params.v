(** Parameter sets: instances.h, instances.c and the constants of meson.build. *)
From Coq Require Import String.
From Verif.Model Require Export Base.

(** instances.h:44-61 [faest_param_t] (the C fields are uint16_t) *)
Record param := mkParam {
  p_lambda : N; p_Nwd : N; p_Ske : N; p_R : N; p_Senc : N; p_l : N; p_Lke : N; p_Lenc : N;
  p_tau : N; p_k0 : N; p_k1 : N; p_t0 : N; p_t1 : N; p_sigSize : N; p_pkSize : N }.

(** instances.h:13-19 *)
Definition MAX_LAMBDA : N := 256.
Definition MAX_LAMBDA_BYTES : N := 32.
Definition MAX_DEPTH : N := 12.
Definition MAX_TAU : N := 32.
Definition UNIVERSAL_HASH_B_BITS : N := 16.
Definition UNIVERSAL_HASH_B : N := 2.
Definition IV_SIZE : N := 16.

(** instances.h:23-38 [faest_paramid_t]: the twelve valid identifiers.  The enum constants
    PARAMETER_SET_INVALID = 0 and PARAMETER_SET_MAX_INDEX = 13 and every other integer are
    handled by [paramid_of_N]. *)
Inductive paramid :=
| FAEST_128S | FAEST_128F | FAEST_192S | FAEST_192F | FAEST_256S | FAEST_256F
| FAEST_EM_128S | FAEST_EM_128F | FAEST_EM_192S | FAEST_EM_192F | FAEST_EM_256S | FAEST_EM_256F.

(** instances.h:24-36, numeric values of the enum constants *)
Definition paramid_to_N (i : paramid) : N :=
  match i with
  | FAEST_128S => 1 | FAEST_128F => 2 | FAEST_192S => 3 | FAEST_192F => 4
  | FAEST_256S => 5 | FAEST_256F => 6
  | FAEST_EM_128S => 7 | FAEST_EM_128F => 8 | FAEST_EM_192S => 9 | FAEST_EM_192F => 10
  | FAEST_EM_256S => 11 | FAEST_EM_256F => 12
  end.

(** meson.build:112-398 with instances.c:45-121 (order of the fields) *)
Definition param_of (i : paramid) : param :=
  match i with
  | FAEST_128S    => mkParam 128 4 40 10 160 1600 448 1152 11 12 11  7  4  5006 32 (* meson.build:112-134 *)
  | FAEST_128F    => mkParam 128 4 40 10 160 1600 448 1152 16  8  8  0 16  6336 32 (* meson.build:136-158 *)
  | FAEST_EM_128S => mkParam 128 4  0 10 160 1280   0 1280 11 12 11  7  4  4566 32 (* meson.build:160-182 *)
  | FAEST_EM_128F => mkParam 128 4  0 10 160 1280   0 1280 16  8  8  0 16  5696 32 (* meson.build:184-206 *)
  | FAEST_192S    => mkParam 192 6 32 12 192 3264 448 1408 16 12 12  0 16 12744 64 (* meson.build:208-230 *)
  | FAEST_192F    => mkParam 192 6 32 12 192 3264 448 1408 24  8  8  0 24 16792 64 (* meson.build:232-254 *)
  | FAEST_EM_192S => mkParam 192 6  0 12 288 2304   0 2304 16 12 12  0 16 10824 48 (* meson.build:256-278 *)
  | FAEST_EM_192F => mkParam 192 6  0 12 288 2304   0 2304 24  8  8  0 24 13912 48 (* meson.build:280-302 *)
  | FAEST_256S    => mkParam 256 8 52 14 224 4000 672 1664 22 12 11 14  8 22100 64 (* meson.build:304-326 *)
  | FAEST_256F    => mkParam 256 8 52 14 224 4000 672 1664 32  8  8  0 32 28400 64 (* meson.build:328-350 *)
  | FAEST_EM_256S => mkParam 256 8  0 14 448 3584   0 3584 22 12 11 14  8 20956 64 (* meson.build:352-374 *)
  | FAEST_EM_256F => mkParam 256 8  0 14 448 3584   0 3584 32  8  8  0 32 26736 64 (* meson.build:376-398 *)
  end.

(** meson.build: BETA and SK_SIZE of each set (not part of [faest_param_t]) *)
Definition beta_of (i : paramid) : N :=
  match i with
  | FAEST_192S | FAEST_192F | FAEST_256S | FAEST_256F => 2
  | _ => 1
  end.
Definition sk_size (i : paramid) : N :=
  match i with
  | FAEST_128S | FAEST_128F | FAEST_EM_128S | FAEST_EM_128F => 32
  | FAEST_192S | FAEST_192F => 56
  | FAEST_EM_192S | FAEST_EM_192F => 48
  | _ => 64
  end.
(** faest_param.h.in:22-24 *)
Definition pk_size (i : paramid) : N := p_pkSize (param_of i).
Definition sig_size (i : paramid) : N := p_sigSize (param_of i).

(** instances.c:122-123 [FAEST_INVALID_PARAMS] *)
Definition invalid_param : param := mkParam 0 0 0 0 0 0 0 0 0 0 0 0 0 0 0.

(** the enum constant with the given value, if it is one of the twelve *)
Definition paramid_of_N (n : N) : option paramid :=
  match n with
  | 1 => Some FAEST_128S | 2 => Some FAEST_128F | 3 => Some FAEST_192S | 4 => Some FAEST_192F
  | 5 => Some FAEST_256S | 6 => Some FAEST_256F
  | 7 => Some FAEST_EM_128S | 8 => Some FAEST_EM_128F | 9 => Some FAEST_EM_192S
  | 10 => Some FAEST_EM_192F | 11 => Some FAEST_EM_256S | 12 => Some FAEST_EM_256F
  | _ => None
  end.

(** instances.c:125-155 [faest_get_paramset]: (parameters, paramid stored in the result) *)
Definition faest_get_paramset (n : N) : param * N :=
  match paramid_of_N n with
  | Some i => (param_of i, paramid_to_N i)
  | None => (invalid_param, 0)
  end.

(** instances.c:12-43 [faest_get_param_name] *)
Definition faest_get_param_name (n : N) : string :=
  (match n with
  | 0 => "PARAMETER_SET_INVALID"
  | 1 => "FAEST_128S" | 2 => "FAEST_128F" | 3 => "FAEST_192S" | 4 => "FAEST_192F"
  | 5 => "FAEST_256S" | 6 => "FAEST_256F"
  | 7 => "FAEST_EM_128S" | 8 => "FAEST_EM_128F" | 9 => "FAEST_EM_192S"
  | 10 => "FAEST_EM_192F" | 11 => "FAEST_EM_256S" | 12 => "FAEST_EM_256F"
  | _ => "PARAMETER_SET_MAX_INDEX"
  end)%string.
