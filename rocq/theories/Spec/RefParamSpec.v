(** A parameter set in memory. *)
From Coq Require Import ZArith NArith List.
From Verif Require Import Model.Params Spec.RefSpec.
From Verif Require Import Model.CtLang.
Import ListNotations.
Local Open Scope Z_scope.

(** The members in the order of the structure (instances.h, faest_param_t). *)
Definition members (p : param) : list N :=
  [p_lambda p; p_Nwd p; p_Ske p; p_R p; p_Senc p; p_l p; p_Lke p; p_Lenc p; p_tau p; p_k0 p; p_k1 p; p_t0 p; p_t1 p; p_sigSize p; p_pkSize p].
(** 16 bits each, low byte first; the identifier in 32 bits behind two bytes of padding (faest_paramset_t). *)
Definition parameter_set (m : mem) (b : positive) (o : Z) (p : param) (id : N) : Prop :=
  stands m b o (flat_map (fun v => [v mod 256; v / 256]%N) (members p)) /\ stands m b (o + 32) [id; 0; 0; 0]%N.
Definition paramset_bytes : N := 36.
