(** The signature format (FAEST v1, section 6): the parts of a signature in order, and their
    sizes in bytes.  [lb] is the security parameter in bytes. *)
From Coq Require Import List NArith.
From Verif.Model Require Import Params.
Import ListNotations.
Local Open Scope N_scope.

Inductive part :=
| Correction (i : N)   (* c_(i+1), i < tau - 1 *)
| U_tilde
| D_masked_witness
| A_tilde
| Opening (t : N)      (* sibling path of tree t *)
| Com (t : N)          (* commitment to the hidden leaf of tree t *)
| Challenge_3
| Iv.

(** depth of tree t: the first t0 trees have depth k0, the others k1 *)
Definition depth_of (p : param) (t : N) : N := if t <? p_t0 p then p_k0 p else p_k1 p.

Definition upto (n : N) : list N := map N.of_nat (seq 0 (N.to_nat n)).

Definition parts (p : param) : list part :=
  map Correction (upto (p_tau p - 1)) ++
  [U_tilde; D_masked_witness; A_tilde] ++
  flat_map (fun t => [Opening t; Com t]) (upto (p_tau p)) ++
  [Challenge_3; Iv].

(** ell_hat = l + 2 lambda + B bits with B = 16 *)
Definition part_size (p : param) (x : part) : N :=
  let lb := p_lambda p / 8 in
  match x with
  | Correction _ => (p_l p + 2 * p_lambda p + 16) / 8
  | U_tilde => lb + 2
  | D_masked_witness => p_l p / 8
  | A_tilde => lb
  | Opening t => depth_of p t * lb
  | Com _ => 2 * lb
  | Challenge_3 => lb
  | Iv => 16
  end.

Definition total (p : param) (l : list part) : N := fold_right N.add 0 (map (part_size p) l).
