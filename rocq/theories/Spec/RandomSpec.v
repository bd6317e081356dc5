(** Vocabulary for the histories of system calls (property C46). *)
From Verif.Model Require Import Base Random.

(** the bytes the kernel delivered, in order *)
Definition delivered (rs : list io_result) : bytes :=
  concat (map (fun r => match r with IoBytes b => b | IoError _ => [] end) rs).
(** the contract of read: never more bytes than asked for, that is, than are still missing *)
Definition obeys (len : N) (rs : list io_result) : Prop := forall k, lenN (delivered (firstn k rs)) <= len.
(** nothing is written outside the [len] bytes at [off] *)
Definition outside (off len : N) (mem mem' : bytes) : Prop :=
  takeN off mem' = takeN off mem /\ dropN (off + len) mem' = dropN (off + len) mem.
(** the last thing done is to close [fd], and it is done once *)
Definition closed (fd : N) (trace : list event) : Prop :=
  exists before, trace = before ++ [Close fd] /\ ~ In (Close fd) before.
