(** What it means that a function of the library treats its secrets in constant
    time: two calls that differ only in secrets show an observer (Model/CtLang)
    the same events, unless they differ in something that is published. *)
From Coq Require Import ZArith List Bool FMapPositive.
From Verif Require Import Model.CtLang Model.CtNames Model.CtProgram.
Import ListNotations.
Local Open Scope Z_scope.

(** The same blocks with the same sizes, and the same contents except in secret blocks. *)
Definition equal_but (secret : positive -> bool) (m1 m2 : mem) : Prop :=
  mnext m1 = mnext m2 /\
  forall b, (b < mnext m1)%positive ->
    exists k1 k2, PositiveMap.find b (mblocks m1) = Some k1 /\ PositiveMap.find b (mblocks m2) = Some k2 /\
      bsize k1 = bsize k2 /\
      (secret b = false -> forall o, 0 <= o -> int_of (get (bcells k1) o) = int_of (get (bcells k2) o)).

(** Memories from which a call can start: the constants of the library are
    there and are not secret, the random bytes are. *)
Definition start (secret : positive -> bool) (m1 m2 : mem) : Prop :=
  equal_but secret m1 m2 /\ (last_global < mnext m1)%positive /\
  forall g, (g <= last_global)%positive -> secret g = Pos.eqb g tape.

(** A pointer argument: null, or into a block of the caller. *)
Definition points_to (m : mem) (secret : positive -> bool) (hidden : bool) (v : value) : Prop :=
  v = VNull \/ exists b o, v = VPtr b o /\ (last_global < b < mnext m)%positive /\ secret b = hidden.

(** What is published in a run. *)
Definition published (t : list event) : list (list Z) :=
  flat_map (fun e => match e with EvPublic l => [l] | _ => [] end) t.

(** Two runs that cannot be told apart: the same events, in the same order;
    they end in the same way, with the same result, and leave the same in all
    blocks that are not secret. *)
Definition alike (secret : positive -> bool) (old : positive) (r1 r2 : run (value * mem)) : Prop :=
  fst r1 = fst r2 /\
  match snd r1, snd r2 with
  | RDone (v1, m1), RDone (v2, m2) =>
      int_of v1 = int_of v2 /\
      forall b, (b < old)%positive ->
        exists k1 k2, PositiveMap.find b (mblocks m1) = Some k1 /\ PositiveMap.find b (mblocks m2) = Some k2 /\
          bsize k1 = bsize k2 /\
          (secret b = false -> forall o, 0 <= o -> int_of (get (bcells k1) o) = int_of (get (bcells k2) o))
  | RFail, RFail => True
  | RFuel, RFuel => True
  | _, _ => False
  end.

(** Two runs that show the same events up to the first thing they publish that differs. *)
Definition alike_until_published (secret : positive -> bool) (old : positive) (r1 r2 : run (value * mem)) : Prop :=
  alike secret old r1 r2 \/
  exists before l1 l2 after1 after2,
    fst r1 = before ++ EvPublic l1 :: after1 /\ fst r2 = before ++ EvPublic l2 :: after2 /\ l1 <> l2.

(** The functions of the API, for the twelve parameter sets. *)
Definition keygens : list positive :=
  [f_faest_128s_keygen; f_faest_128f_keygen; f_faest_192s_keygen; f_faest_192f_keygen; f_faest_256s_keygen; f_faest_256f_keygen;
   f_faest_em_128s_keygen; f_faest_em_128f_keygen; f_faest_em_192s_keygen; f_faest_em_192f_keygen; f_faest_em_256s_keygen; f_faest_em_256f_keygen].
Definition signs : list positive :=
  [f_faest_128s_sign; f_faest_128f_sign; f_faest_192s_sign; f_faest_192f_sign; f_faest_256s_sign; f_faest_256f_sign;
   f_faest_em_128s_sign; f_faest_em_128f_sign; f_faest_em_192s_sign; f_faest_em_192f_sign; f_faest_em_256s_sign; f_faest_em_256f_sign].
Definition signs_with_randomness : list positive :=
  [f_faest_128s_sign_with_randomness; f_faest_128f_sign_with_randomness; f_faest_192s_sign_with_randomness;
   f_faest_192f_sign_with_randomness; f_faest_256s_sign_with_randomness; f_faest_256f_sign_with_randomness;
   f_faest_em_128s_sign_with_randomness; f_faest_em_128f_sign_with_randomness; f_faest_em_192s_sign_with_randomness;
   f_faest_em_192f_sign_with_randomness; f_faest_em_256s_sign_with_randomness; f_faest_em_256f_sign_with_randomness].
Definition validates : list positive :=
  [f_faest_128s_validate_keypair; f_faest_128f_validate_keypair; f_faest_192s_validate_keypair; f_faest_192f_validate_keypair;
   f_faest_256s_validate_keypair; f_faest_256f_validate_keypair; f_faest_em_128s_validate_keypair; f_faest_em_128f_validate_keypair;
   f_faest_em_192s_validate_keypair; f_faest_em_192f_validate_keypair; f_faest_em_256s_validate_keypair; f_faest_em_256f_validate_keypair].
Definition clears : list positive :=
  [f_faest_128s_clear_private_key; f_faest_128f_clear_private_key; f_faest_192s_clear_private_key; f_faest_192f_clear_private_key;
   f_faest_256s_clear_private_key; f_faest_256f_clear_private_key; f_faest_em_128s_clear_private_key; f_faest_em_128f_clear_private_key;
   f_faest_em_192s_clear_private_key; f_faest_em_192f_clear_private_key; f_faest_em_256s_clear_private_key; f_faest_em_256f_clear_private_key].

(** The statements of a function that publish something. *)
Fixpoint publications (s : stmt) : list stmt :=
  match s with
  | SSeq a b => publications a ++ publications b
  | SIf _ a b => publications a ++ publications b
  | SLoop _ a b => publications a ++ publications b
  | SPublic _ _ _ | SShow _ _ => [s]
  | _ => []
  end.

(** A memory with the constants of the library, a random source that yields the
    bytes [random], and blocks of the caller after them. *)
Definition add_block (m : mem) (l : list Z) : mem :=
  fresh m (Z.of_nat (length l)) (put_bytes (PositiveMap.empty value) 0 l).
Definition globals (random : list Z) : list (list Z) :=
  map (fun i =>
    let g := Pos.of_succ_nat i in
    if Pos.eqb g tape then random
    else match find (fun c => Pos.eqb (fst c) g) constants with Some c => snd c | None => repeat 0 8 end)
    (seq 0 (Pos.to_nat last_global)).
Definition memory (random : list Z) (blocks : list (list Z)) : mem :=
  fold_left add_block (globals random ++ blocks) (Mem 1 (PositiveMap.empty blk)).
Definition block (i : positive) : value := VPtr (last_global + i) 0.
