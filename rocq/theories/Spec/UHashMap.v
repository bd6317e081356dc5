(** The security levels and the fields the universal hashes work in. *)
From Verif.Model Require Import Fields.

Definition levels : list (N * field) := [(128, F128); (192, F192); (256, F256)].
