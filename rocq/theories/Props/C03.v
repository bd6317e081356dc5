(** C03: validate_keypair classifies every pair exactly. *)
From Verif.Model Require Import Api.
From Verif.Spec Require Import KeySpec.
From Verif.Proof Require Import BaseProof ApiProps KeyCases.

(** three disjoint cases for two pointers that are not NULL; only the first pk_size bytes of the
    public key matter *)
Theorem C03_classification : forall i pk sk,
  pk_size i <= lenN pk -> sk_size i <= lenN sk -> Forall (fun b => b < 256) sk ->
  (~ valid_key i sk /\ validate_keypair i (Some pk) (Some sk) = Ok 1%Z) \/
  (valid_key i sk /\ firstn (N.to_nat (pk_size i)) pk = public_of i sk /\ validate_keypair i (Some pk) (Some sk) = Ok 0%Z) \/
  (valid_key i sk /\ firstn (N.to_nat (pk_size i)) pk <> public_of i sk /\ validate_keypair i (Some pk) (Some sk) = Ok 2%Z).
Proof. exact validate_ok. Qed.
Print Assumptions C03_classification.

Theorem C03_null_arguments : forall i pk sk, pk = None \/ sk = None -> validate_keypair i pk sk = Ok (-1)%Z.
Proof. exact validate_null. Qed.
Print Assumptions C03_null_arguments.

(** all three results occur *)
Example C03_cases :
  validate_keypair FAEST_128S (Some (repeat 0 32)) (Some zero_sk) = Ok 1%Z /\
  validate_keypair FAEST_128S (Some (public_of FAEST_128S demo_sk)) (Some demo_sk) = Ok 0%Z /\
  validate_keypair FAEST_128S (Some (repeat 0 32)) (Some demo_sk) = Ok 2%Z.
Proof. exact validate_cases. Qed.
