(** C02: key generation returns a valid key pair. *)
From Verif.Model Require Import Api.
From Verif.Spec Require Import KeySpec.
From Verif.Proof Require Import BaseProof ApiProps KeyCases.

(** [fuel] bounds the iterations of the rejection loop: it is arbitrary, and the result is [None]
    exactly if all the first [fuel] draws are invalid keys; else the first valid draw is written
    to the beginning of [sk], its public key to the beginning of [pk], and nothing else changes. *)
Theorem C02_keygen : forall i fuel os pk sk, fills os ->
  pk_size i <= lenN pk -> sk_size i <= lenN sk -> Forall (fun b => b < 256) sk ->
  let d := draw os (firstn (N.to_nat (sk_size i)) sk) in
  ((forall j, (j < fuel)%nat -> ~ valid_key i (d j)) /\ keygen i os fuel (Some pk) (Some sk) = Ok None) \/
  (exists k, (k < fuel)%nat /\ valid_key i (d k) /\ (forall j, (j < k)%nat -> ~ valid_key i (d j)) /\
     keygen i os fuel (Some pk) (Some sk) =
       Ok (Some (0%Z, Some (overwrite pk 0 (public_of i (d k))), Some (overwrite sk 0 (d k))))).
Proof. exact keygen_ok. Qed.
Print Assumptions C02_keygen.

Theorem C02_generated_pair_is_valid : forall i fuel os pk sk ret pk' sk', fills os ->
  pk_size i <= lenN pk -> sk_size i <= lenN sk -> Forall (fun b => b < 256) sk ->
  keygen i os fuel (Some pk) (Some sk) = Ok (Some (ret, pk', sk')) ->
  exists pkb skb, ret = 0%Z /\ pk' = Some pkb /\ sk' = Some skb /\
    lenN pkb = lenN pk /\ lenN skb = lenN sk /\ Forall (fun b => b < 256) skb /\
    valid_key i skb /\ firstn (N.to_nat (pk_size i)) pkb = public_of i skb /\
    validate_keypair i pk' sk' = Ok 0%Z.
Proof. exact keygen_valid. Qed.
Print Assumptions C02_generated_pair_is_valid.

Theorem C02_null_arguments : forall i os fuel pk sk, pk = None \/ sk = None ->
  keygen i os fuel pk sk = Ok (Some ((-1)%Z, pk, sk)).
Proof. exact keygen_null. Qed.
Print Assumptions C02_null_arguments.

(** a source whose first draw is rejected: two iterations *)
Example C02_case : fills demo_os /\ ~ valid_key FAEST_128S zero_sk /\ valid_key FAEST_128S demo_sk /\
  (let buf := repeat 0 32 in draw demo_os buf 0 = zero_sk /\ draw demo_os buf 1 = demo_sk /\
   keygen FAEST_128S demo_os 5 (Some buf) (Some buf) = Ok (Some (0%Z, Some (public_of FAEST_128S demo_sk), Some demo_sk))).
Proof.
  split; [exact demo_fills|]. split; [exact zero_invalid|]. split; [exact demo_valid|]. cbv zeta. split; [reflexivity|]. split; [reflexivity|].
  destruct (C02_keygen FAEST_128S 5 demo_os (repeat 0 32) (repeat 0 32) demo_fills) as [[H _]|(k & _ & V & NV & ->)];
    [discriminate|discriminate|apply zeros_bytes| |].
  - destruct (H 1%nat); [repeat constructor|exact demo_valid].
  - destruct k as [|[|k]]; [destruct (zero_invalid V)|reflexivity|].
    destruct (NV 1%nat); [do 2 apply le_n_S; apply PeanoNat.Nat.le_0_l|exact demo_valid].
Qed.
