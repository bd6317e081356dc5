(** Specification: polynomials over GF(2).

    The polynomial  sum_i b_i X^i  is the natural number  sum_i b_i 2^i; addition is [N.lxor]. *)
From Coq Require Export NArith List.
Export ListNotations.
#[global] Open Scope N_scope.

(** product of polynomials: schoolbook, along the binary digits of the second factor *)
Fixpoint pmul_pos (a : N) (b : positive) : N :=
  match b with
  | xH => a
  | xO b' => N.shiftl (pmul_pos a b') 1
  | xI b' => N.lxor a (N.shiftl (pmul_pos a b') 1)
  end.
Definition pmul (a b : N) : N :=
  match b with 0 => 0 | Npos b' => pmul_pos a b' end.

(** a and b have the same remainder modulo f: f divides a - b *)
Definition pcong (f a b : N) : Prop := exists q, N.lxor a b = pmul q f.

(** the polynomial with the given (distinct) exponents *)
Definition poly (exps : list N) : N := fold_right (fun e acc => N.lxor (N.shiftl 1 e) acc) 0 exps.

(** the moduli of FAEST: degree and modulus *)
Definition gf8 : N * N := (8, poly [8; 4; 3; 1; 0]).
Definition gf64 : N * N := (64, poly [64; 4; 3; 1; 0]).
Definition gf128 : N * N := (128, poly [128; 7; 2; 1; 0]).
Definition gf192 : N * N := (192, poly [192; 7; 2; 1; 0]).
Definition gf256 : N * N := (256, poly [256; 10; 5; 2; 0]).

(** r is the product of a and b in GF(2)[X] / (modulus): the representative of degree < n *)
Definition is_gf_product (g : N * N) (a b r : N) : Prop :=
  r < 2 ^ fst g /\ pcong (snd g) (pmul a b) r.
