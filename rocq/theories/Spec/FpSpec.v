(** What a call may touch: its arguments, the constants of the library and the
    memory it allocates. *)
From Coq Require Import ZArith List Bool FMapPositive.
From Verif Require Import Model.CtLang Model.CtNames Model.CtProgram Spec.CtSpec.
Import ListNotations.
Local Open Scope Z_scope.

(** A run reads or writes a block. *)
Definition reads (t : list event) (b : positive) : Prop := exists o n, In (EvLoad b o n) t.
Definition writes (t : list event) (b : positive) : Prop := exists o n, In (EvStore b o n) t.

(** One of the pointers points into the block. *)
Definition into (vs : list value) (b : positive) : Prop := exists o, In (VPtr b o) vs.

(** The read-only data of the library; the rest of the global blocks is the random source. *)
Definition constant (b : positive) : Prop := (b <= last_global)%positive /\ b <> tape /\ b <> tape_pos.

(** The pointers are into blocks of the caller, and nothing is input and output at once. *)
Definition apart (m : mem) (inputs outputs : list value) : Prop :=
  (last_global < mnext m)%positive /\
  (forall b, into (inputs ++ outputs) b -> (last_global < b < mnext m)%positive) /\
  (forall b, into inputs b -> ~ into outputs b).

(** A call from [m] writes only to its outputs and to memory it allocates, and
    reads only its arguments, constants and memory it allocates.  If it returns,
    all memory that existed before, except the outputs, is as it was.  With
    [random] it also uses the random source. *)
Definition confined (random : bool) (m : mem) (inputs outputs : list value) (r : run (value * mem)) : Prop :=
  (forall b, writes (fst r) b ->
     into outputs b \/ (mnext m <= b)%positive \/ (random = true /\ b = tape_pos)) /\
  (forall b, reads (fst r) b ->
     into (inputs ++ outputs) b \/ constant b \/ (mnext m <= b)%positive \/ (random = true /\ (b = tape \/ b = tape_pos))) /\
  (forall v m', snd r = RDone (v, m') -> forall b, (b < mnext m)%positive -> ~ into outputs b -> (random = true -> b <> tape_pos) ->
     PositiveMap.find b (mblocks m') = PositiveMap.find b (mblocks m)).

Definition verifies : list positive :=
  [f_faest_128s_verify; f_faest_128f_verify; f_faest_192s_verify; f_faest_192f_verify; f_faest_256s_verify; f_faest_256f_verify;
   f_faest_em_128s_verify; f_faest_em_128f_verify; f_faest_em_192s_verify; f_faest_em_192f_verify; f_faest_em_256s_verify; f_faest_em_256f_verify].
