(** C35: unknown parameter identifiers give the invalid parameter set. *)
From Coq Require Import String.
From Verif.Model Require Import Params.
From Verif.Proof Require Import ParamProps.

Theorem C35_unknown : forall n, ~ (1 <= n <= 12) ->
  faest_get_paramset n = (mkParam 0 0 0 0 0 0 0 0 0 0 0 0 0 0 0, 0) /\
  faest_get_param_name n =
    (if (n =? 0)%N then "PARAMETER_SET_INVALID" else "PARAMETER_SET_MAX_INDEX")%string.
Proof. exact unknown_paramset. Qed.
Print Assumptions C35_unknown.

(** the twelve known identifiers: the result is tagged with the identifier asked for, holds that
    set's nonzero parameters, and different identifiers have different names *)
Theorem C35_known : forall n, 1 <= n <= 12 ->
  snd (faest_get_paramset n) = n /\
  (exists i, paramid_to_N i = n /\ fst (faest_get_paramset n) = param_of i) /\
  0 < p_lambda (fst (faest_get_paramset n)) /\
  forall m, faest_get_param_name n = faest_get_param_name m -> n = m.
Proof. exact known_paramset. Qed.
Print Assumptions C35_known.

Example C35_case : ~ (1 <= 13 <= 12) /\ 1 <= 12 <= 12 /\ faest_get_param_name 12 = "FAEST_EM_256F"%string.
Proof. repeat split; try discriminate. intros [_ H]. apply H. reflexivity. Qed.
