(** What the translated key functions do to memory: notions in which the effect of
    a call on bytes in memory can be stated. *)
From Coq Require Import ZArith NArith List Bool FMapPositive.
From Verif Require Import Model.Params Spec.UHashSpec Spec.KeySpec Spec.OwfSpec.
From Verif Require Import Model.CtLang Model.CtNames Model.CtProgram.
Import ListNotations.
Local Open Scope Z_scope.

(** The [n] bytes from position [o] on of block [b], if the block is allocated and has so many. *)
Definition contents (m : mem) (b : positive) (o : Z) (n : nat) : option (list Z) :=
  match PositiveMap.find b (mblocks m) with
  | Some k => if Pos.ltb b (mnext m) && (0 <=? o) && (o + Z.of_nat n <=? bsize k) then Some (get_bytes (bcells k) o n) else None
  | None => None
  end.
(** The bytes [l] stand there. *)
Definition stands (m : mem) (b : positive) (o : Z) (l : list N) : Prop := contents m b o (length l) = Some (map Z.of_N l).
(** There is room for [n] bytes. *)
Definition room (m : mem) (b : positive) (o : Z) (n : N) : Prop := contents m b o (N.to_nat n) <> None.
(** The constants of the library are in memory. *)
Definition loaded (m : mem) : Prop := forall g l, In (g, l) constants -> contents m g 0 (length l) = Some l.
(** [p] bytes of the random source have been used. *)
Definition used (m : mem) (p : N) : Prop := exists l, contents m tape_pos 0 8 = Some l /\ decode l = Z.of_N p.

(** Position [q] of block [c] is one of the [n] positions from [o] on of block [b]. *)
Definition within (b : positive) (o : Z) (n : N) (c : positive) (q : Z) : Prop := c = b /\ o <= q < o + Z.of_N n.
Definition disjoint (b : positive) (o : Z) (n : N) (b' : positive) (o' : Z) (n' : N) : Prop :=
  forall c q, within b o n c q -> within b' o' n' c q -> False.
(** All blocks of [m] are in [m'] with the same size, and the same in them, except in some places. *)
Definition unchanged (m m' : mem) (except : positive -> Z -> Prop) : Prop :=
  (mnext m <= mnext m')%positive /\ forall b k o, PositiveMap.find b (mblocks m) = Some k -> (b < mnext m)%positive -> 0 <= o < bsize k ->
    exists k', PositiveMap.find b (mblocks m') = Some k' /\ bsize k' = bsize k /\ (~ except b o -> get (bcells k') o = get (bcells k) o).

(** Cell [i] of block [b] is the pointer to byte [o] of block [t]. *)
Definition points (m : mem) (b : positive) (i : Z) (t : positive) (o : Z) : Prop :=
  (b < mnext m)%positive /\ exists k, PositiveMap.find b (mblocks m) = Some k /\ 0 <= i < bsize k /\ get (bcells k) i = VPtr t o.

(** The call returns [v] in memory [m']: it ends, and makes no access outside
    the blocks of memory, no call of something unknown and no division by zero. *)
Definition returns (f : positive) (args : list value) (m : mem) (v : value) (m' : mem) : Prop :=
  exists enough, forall fuel, (enough <= fuel)%nat -> exists events, call code fuel f args m = (events, RDone (v, m')).

(** The functions, by parameter set. *)
Definition keygen_of (i : paramid) : positive :=
  match i with
  | FAEST_128S => f_faest_128s_keygen
  | FAEST_128F => f_faest_128f_keygen
  | FAEST_192S => f_faest_192s_keygen
  | FAEST_192F => f_faest_192f_keygen
  | FAEST_256S => f_faest_256s_keygen
  | FAEST_256F => f_faest_256f_keygen
  | FAEST_EM_128S => f_faest_em_128s_keygen
  | FAEST_EM_128F => f_faest_em_128f_keygen
  | FAEST_EM_192S => f_faest_em_192s_keygen
  | FAEST_EM_192F => f_faest_em_192f_keygen
  | FAEST_EM_256S => f_faest_em_256s_keygen
  | FAEST_EM_256F => f_faest_em_256f_keygen
  end.
Definition validate_of (i : paramid) : positive :=
  match i with
  | FAEST_128S => f_faest_128s_validate_keypair
  | FAEST_128F => f_faest_128f_validate_keypair
  | FAEST_192S => f_faest_192s_validate_keypair
  | FAEST_192F => f_faest_192f_validate_keypair
  | FAEST_256S => f_faest_256s_validate_keypair
  | FAEST_256F => f_faest_256f_validate_keypair
  | FAEST_EM_128S => f_faest_em_128s_validate_keypair
  | FAEST_EM_128F => f_faest_em_128f_validate_keypair
  | FAEST_EM_192S => f_faest_em_192s_validate_keypair
  | FAEST_EM_192F => f_faest_em_192f_validate_keypair
  | FAEST_EM_256S => f_faest_em_256s_validate_keypair
  | FAEST_EM_256F => f_faest_em_256f_validate_keypair
  end.
Definition clear_of (i : paramid) : positive :=
  match i with
  | FAEST_128S => f_faest_128s_clear_private_key
  | FAEST_128F => f_faest_128f_clear_private_key
  | FAEST_192S => f_faest_192s_clear_private_key
  | FAEST_192F => f_faest_192f_clear_private_key
  | FAEST_256S => f_faest_256s_clear_private_key
  | FAEST_256F => f_faest_256f_clear_private_key
  | FAEST_EM_128S => f_faest_em_128s_clear_private_key
  | FAEST_EM_128F => f_faest_em_128f_clear_private_key
  | FAEST_EM_192S => f_faest_em_192s_clear_private_key
  | FAEST_EM_192F => f_faest_em_192f_clear_private_key
  | FAEST_EM_256S => f_faest_em_256s_clear_private_key
  | FAEST_EM_256F => f_faest_em_256f_clear_private_key
  end.

Definition pk_bytes (i : paramid) : N := 2 * owf_input_size i.
(** The bytes that attempt number [k] gets from a random source that yields [random]. *)
Definition attempt (i : paramid) (random : list N) (k : N) : list N := sub random (k * sk_bytes i) (sk_bytes i).
