(** Sequences of calls of the translated hash functions, and where their contexts,
    inputs and outputs stand in memory. *)
From Coq Require Import ZArith NArith List FMapPositive.
From Verif Require Import Spec.RefSpec.
From Verif Require Import Model.CtLang Model.CtNames Model.CtProgram.
Import ListNotations.
Local Open Scope Z_scope.

(** A run of calls, one after the other, each of which returns. *)
Inductive runs : list (positive * list value) -> mem -> mem -> Prop :=
| runs_nil m : runs [] m m
| runs_cons f args rest m v m1 m' : returns f args m v m1 -> runs rest m1 m' -> runs ((f, args) :: rest) m m'.

(** The blocks of a hash context (hash_context of hash_shake.h with the sponge instance in it):
    a structure is a block of pointers to its members. *)
Record hash_context := HashContext { instance : positive; sponge_instance : positive; state : positive; rate : positive;
  byte_index : positive; phase : positive; fixed_length : positive; suffix : positive }.
Definition fields (c : hash_context) : list positive := [state c; rate c; byte_index c; phase c; fixed_length c; suffix c].
Definition context_blocks (c : hash_context) : list positive := instance c :: sponge_instance c :: fields c.
Definition allocated (m : mem) (c : hash_context) : Prop :=
  NoDup (context_blocks c) /\ (forall b, In b (context_blocks c) -> (last_global < b)%positive) /\
  points m (instance c) 0 (sponge_instance c) 0 /\ points m (instance c) 1 (fixed_length c) 0 /\ points m (instance c) 2 (suffix c) 0 /\
  points m (sponge_instance c) 0 (state c) 0 /\ points m (sponge_instance c) 1 (rate c) 0 /\ points m (sponge_instance c) 2 (byte_index c) 0 /\ points m (sponge_instance c) 3 (phase c) 0 /\
  room m (state c) 0 200 /\ room m (rate c) 0 4 /\ room m (byte_index c) 0 4 /\ room m (phase c) 0 4 /\ room m (fixed_length c) 0 4 /\ room m (suffix c) 0 1.

(** An input: byte string and where it stands. An output: where, and how many bytes. *)
Definition input : Type := positive * Z * list N.
Definition output : Type := positive * Z * N.
Definition given (m : mem) (c : hash_context) (i : input) : Prop :=
  let '(b, o, l) := i in stands m b o l /\ Forall (fun x => (x < 256)%N) l /\ (N.of_nat (length l) + 200 <= 2 ^ 32)%N /\
    (last_global < b)%positive /\ ~ In b (context_blocks c).
Definition vacant (m : mem) (c : hash_context) (u : output) : Prop :=
  let '(b, o, n) := u in room m b o n /\ (n + 200 <= 2 ^ 32)%N /\ (last_global < b)%positive /\ ~ In b (context_blocks c).
Definition apart (u v : output) : Prop := let '(b, o, n) := u in let '(b', o', n') := v in disjoint b o n b' o' n'.
Definition total (us : list output) : N := fold_right (fun u t => (snd u + t)%N) 0%N us.
(** A byte string dealt out to the outputs in order. *)
Fixpoint dealt (l : list N) (us : list output) : list input :=
  match us with
  | [] => []
  | (b, o, n) :: rest => (b, o, firstn (N.to_nat n) l) :: dealt (skipn (N.to_nat n) l) rest
  end.
Definition message (is : list input) : list N := concat (map snd is).

(** The calls. *)
Definition start_call (f : positive) (c : hash_context) (sec : N) : positive * list value := (f, [VPtr (instance c) 0; VInt (Z.of_N sec)]).
Definition feed_call (f : positive) (c : hash_context) (i : input) : positive * list value :=
  let '(b, o, l) := i in (f, [VPtr (instance c) 0; VPtr b o; VInt (Z.of_nat (length l))]).
Definition take_call (f : positive) (c : hash_context) (u : output) : positive * list value :=
  let '(b, o, n) := u in (f, [VPtr (instance c) 0; VPtr b o; VInt (Z.of_N n)]).
Definition touched (c : hash_context) (us : list output) (b : positive) (q : Z) : Prop :=
  In b (fields c) \/ exists b' o n, In (b', o, n) us /\ within b' o n b q.

(** ** Four at a time *)
(** A context with four states, inputs of one length in fours, and outputs of one length in fours. *)
Definition allocated_four (m : mem) (c : hash_context) : Prop := allocated m c /\ room m (state c) 0 800.
Definition nowhere : input := (1%positive, 0, []).
Definition given_four (m : mem) (c : hash_context) (i : N * list input) : Prop :=
  length (snd i) = 4%nat /\ Forall (fun x => given m c x /\ N.of_nat (length (snd x)) = fst i) (snd i).
Definition vacant_four (m : mem) (c : hash_context) (us : list output) (n : N) : Prop :=
  length us = 4%nat /\ Forall (fun u => vacant m c u /\ snd u = n) us.
Definition place_of {A : Type} (u : positive * Z * A) : value := let '(b, o, _) := u in VPtr b o.
Definition feed_four_call (f : positive) (c : hash_context) (i : N * list input) : positive * list value :=
  (f, [VPtr (instance c) 0] ++ map place_of (snd i) ++ [VInt (Z.of_N (fst i))]).
Definition take_four_call (f : positive) (c : hash_context) (us : list output) (n : N) (vs : list output) (n' : N) : positive * list value :=
  (f, [VPtr (instance c) 0] ++ map place_of us ++ [VInt (Z.of_N n)] ++ map place_of vs ++ [VInt (Z.of_N n')]).
(** What is fed to the j-th of the four. *)
Definition message_of (j : nat) (is : list (N * list input)) : list N := message (map (fun i => nth j (snd i) nowhere) is).
