(** C65: the C text of the choice of a parameter set fills the structure with the parameters of the identifier. *)
From Coq Require Import ZArith NArith List FMapPositive.
From Verif Require Import Model.Params Spec.FormatSpec Spec.CtSpec Spec.RefSpec Spec.RefVoleSpec Spec.RefPartsSpec Spec.RefParamSpec.
From Verif Require Import Model.CtLang Model.CtNames Model.CtProgram Proof.RefParam.
Import ListNotations.
Local Open Scope Z_scope.

(** Whatever was in the structure: all members are those of the parameter set; nothing else is written. *)
Theorem C65_get_paramset : forall i m b o, room m b o paramset_bytes ->
  exists v m', returns f_faest_get_paramset [VPtr b o; VInt (Z.of_N (paramid_to_N i))] m v m' /\
    parameter_set m' b o (param_of i) (paramid_to_N i) /\ unchanged m m' (within b o paramset_bytes).
Proof. exact get_paramset_returns. Qed.
Print Assumptions C65_get_paramset.

(** Every other number gives the invalid parameter set. *)
Theorem C65_unknown : forall z m b o, (forall i, z <> Z.of_N (paramid_to_N i)) -> room m b o paramset_bytes ->
  exists v m', returns f_faest_get_paramset [VPtr b o; VInt z] m v m' /\
    parameter_set m' b o (mkParam 0 0 0 0 0 0 0 0 0 0 0 0 0 0 0) 0 /\ unchanged m m' (within b o paramset_bytes).
Proof. exact get_paramset_unknown. Qed.
Print Assumptions C65_unknown.

(** The structure is as the VOLE layer (C61, C62) and the layout of signatures (C64) need it. *)
Theorem C65_used : forall i m b o sb so, room m b o paramset_bytes ->
  exists v m', returns f_faest_get_paramset [VPtr b o; VInt (Z.of_N (paramid_to_N i))] m v m' /\
    vole_parameters m' b o (p_lambda (param_of i)) (p_tau (param_of i)) (p_k0 (param_of i)) (p_k1 (param_of i)) (p_t0 (param_of i)) /\
    forall verifier before x after, parts (param_of i) = before ++ x :: after ->
      returns (place_function verifier x) (place_arguments (VPtr sb so) x (VPtr b o)) m' (VPtr sb (so + Z.of_N (total (param_of i) before))) m'.
Proof. exact get_paramset_layout. Qed.
Print Assumptions C65_used.

(** ** Case *)
(** a structure in the middle of a block of other bytes *)
Definition case_memory : mem := memory [] [repeat 7 50].
Example C65_case :
  (exists v m', returns f_faest_get_paramset [VPtr (last_global + 1) 5; VInt 10] case_memory v m' /\
     contents m' (last_global + 1) 5 4 = Some [192; 0; 6; 0] /\ contents m' (last_global + 1) 31 2 = Some [13912 mod 256; 13912 / 256] /\ contents m' (last_global + 1) 37 4 = Some [10; 0; 0; 0]) /\
  (exists v m', returns f_faest_get_paramset [VPtr (last_global + 1) 5; VInt 13] case_memory v m' /\ contents m' (last_global + 1) 5 30 = Some (repeat 0 30)).
Proof.
  assert (R : room case_memory (last_global + 1) 5 paramset_bytes) by (vm_compute; discriminate). split.
  - destruct (C65_get_paramset FAEST_EM_192F case_memory (last_global + 1) 5 R) as (v & m' & C & S & _). exists v, m'. split; [exact C|].
    split; [|split; [|exact (proj2 S)]].
    + exact (part_contents m' (last_global + 1) 5 _ _ 0 4 S ltac:(vm_compute; discriminate)).
    + exact (part_contents m' (last_global + 1) 5 _ _ 26 2 S ltac:(vm_compute; discriminate)).
  - destruct (C65_unknown 13 case_memory (last_global + 1) 5 ltac:(intros []; discriminate) R) as (v & m' & C & S & _). exists v, m'. split; [exact C|exact (proj1 S)].
Qed.
