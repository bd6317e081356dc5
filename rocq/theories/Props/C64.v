(** C64: the C text of the functions for the places in a signature agrees with the format. *)
From Coq Require Import ZArith NArith List FMapPositive.
From Verif Require Import Model.Params Spec.FormatSpec Spec.CtSpec Spec.RefSpec Spec.RefVoleSpec Spec.RefPartsSpec.
From Verif Require Import Model.CtLang Model.CtNames Model.CtProgram Proof.RefParts.
Import ListNotations.
Local Open Scope Z_scope.

(** The place of a part is behind all parts before it; nothing is written. *)
Theorem C64_places : forall i verifier before x after m b o pb po, parts (param_of i) = before ++ x :: after -> signature_parameters m pb po (param_of i) ->
  returns (place_function verifier x) (place_arguments (VPtr b o) x (VPtr pb po)) m (VPtr b (o + Z.of_N (total (param_of i) before))) m.
Proof. exact place_returns. Qed.
Print Assumptions C64_places.

(** ** Case *)
(** the members lambda, Nwd, Ske, R, Senc, l, Lke, Lenc, tau, k0, k1, t0, t1, sigSize of FAEST-256s, 16 bits each, and a byte of a signature *)
Definition case_members : list Z := flat_map (fun v => [Z.of_N (v mod 256); Z.of_N (v / 256)]) [256; 8; 52; 14; 224; 4000; 672; 1664; 22; 12; 11; 14; 8; 22100]%N.
Definition case_memory : mem := memory [] [case_members; [0]].
(** the opening and the commitment of the sixteenth tree, of the shallower ones; the challenge; the third correction *)
Example C64_case :
  returns f_signature_pdec [block 2; VInt 15; block 1] case_memory (VPtr (last_global + 2) (21 * 566 + 34 + 500 + 32 + (14 * 14 + 13) * 32)) case_memory /\
  returns f_dsignature_com [block 2; VInt 15; block 1] case_memory (VPtr (last_global + 2) (21 * 566 + 34 + 500 + 32 + (14 * 14 + 13 + 11) * 32)) case_memory /\
  returns f_dsignature_chall_3 [block 2; block 1] case_memory (VPtr (last_global + 2) (22100 - 16 - 32)) case_memory /\
  returns f_signature_c [block 2; VInt 2; block 1] case_memory (VPtr (last_global + 2) (2 * 566)) case_memory.
Proof.
  assert (SP : signature_parameters case_memory (last_global + 1) 0 (param_of FAEST_256S)) by (repeat split; vm_compute; reflexivity).
  assert (P := fun n v x E => C64_places FAEST_256S v (firstn n (parts (param_of FAEST_256S))) x (skipn (S n) (parts (param_of FAEST_256S))) case_memory (last_global + 2) 0 (last_global + 1) 0 E SP).
  split; [|split; [|split]].
  - exact (P 54%nat false (Opening 15) ltac:(vm_compute; reflexivity)).
  - exact (P 55%nat true (Com 15) ltac:(vm_compute; reflexivity)).
  - exact (P 68%nat true Challenge_3 ltac:(vm_compute; reflexivity)).
  - exact (P 2%nat false (Correction 2) ltac:(vm_compute; reflexivity)).
Qed.
