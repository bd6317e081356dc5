(** Where the inputs and the output of the hashes of the transcript stand. *)
From Coq Require Import ZArith NArith List.
From Verif Require Import Spec.RefSpec.
From Verif Require Import Model.CtLang Model.CtNames Model.CtProgram.
Import ListNotations.
Local Open Scope Z_scope.

(** A buffer: block, position, and the bytes in it or its size. *)
Definition buffer : Type := positive * Z * list N.
Definition pointer {A : Type} (u : positive * Z * A) : value := let '(b, o, _) := u in VPtr b o.
(** The buffer holds these bytes; it is none of the constants and not longer than the 32-bit counters of the sponge allow. *)
Definition filled (m : mem) (x : buffer) : Prop :=
  let '(b, o, l) := x in stands m b o l /\ Forall (fun v => (v < 256)%N) l /\ (N.of_nat (length l) + 200 <= 2 ^ 32)%N /\ (last_global < b)%positive.
Definition bytes_in (x : buffer) : list N := snd x.
Definition size_of (x : buffer) : N := N.of_nat (length (bytes_in x)).
(** There is room for the output. *)
Definition open_for (m : mem) (u : positive * Z * N) : Prop := let '(b, o, n) := u in room m b o n /\ (last_global < b)%positive.
Definition over (u : positive * Z * N) : positive -> Z -> Prop := let '(b, o, n) := u in within b o n.
