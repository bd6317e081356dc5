(** Specification of the machine representation of field elements. *)
From Verif.Spec Require Export FieldSpec.
From Verif.Model Require Import Base Fields Limbs.

(** the number represented by 64-bit words, least significant first *)
Fixpoint words_value (ws : list N) : N :=
  match ws with [] => 0 | w :: r => w + 2 ^ 64 * words_value r end.

(** a value of the C type of elements of GF(2^n): the right number of words, each of 64 bits, and
    nothing above bit n (bf192_t has a fourth word in the vector build; it is 0) *)
Definition element (b : build) (n : N) (v : bf) : Prop :=
  lenN v = nwords b n /\ Forall (fun w => w < 2 ^ 64) v /\ words_value v < 2 ^ n.

(** the computation ends without undefined behaviour in a C value that represents [x] *)
Definition computes (b : build) (n : N) (r : res bf) (x : N) : Prop :=
  exists v, r = Ok v /\ element b n v /\ words_value v = x.
