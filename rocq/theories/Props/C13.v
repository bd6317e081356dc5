(** C13: an opening contains nothing about the hidden seed. *)
From Verif.Model Require Import Vc.
From Verif.Spec Require Import VcSpec.
From Verif.Proof Require Import VcProps.

(** it is the sibling of the path, level by level, and the commitment of the hidden leaf *)
Theorem C13_opening_is_copath : forall k com depth idx bits, 1 <= depth <= 29 ->
  BitDec idx depth = Ok (true, bits) ->
  2 ^ (depth + 1) - 1 <= lenN k -> 2 ^ depth <= lenN com ->
  vector_open k com bits depth =
    Ok (concat (map (fun l => nth (N.to_nat (bfs l (sibling (ancestor depth idx l)))) k [])
                    (map N.of_nat (seq 1 (N.to_nat depth)))),
        nth (N.to_nat idx) com []).
Proof. exact opening_is_copath. Qed.
Print Assumptions C13_opening_is_copath.

Theorem C13_sibling_not_ancestor : forall depth idx l, 1 <= l <= depth -> idx < 2 ^ depth ->
  sibling (ancestor depth idx l) < 2 ^ l /\ sibling (ancestor depth idx l) <> ancestor depth idx l.
Proof. exact sibling_not_ancestor. Qed.
Print Assumptions C13_sibling_not_ancestor.

(** replacing every node on the path to the hidden leaf, and every other commitment, changes
    nothing *)
Theorem C13_opening_hides_path : forall k k' com com' depth idx bits, 1 <= depth <= 29 ->
  BitDec idx depth = Ok (true, bits) ->
  2 ^ (depth + 1) - 1 <= lenN k -> 2 ^ depth <= lenN com ->
  lenN k' = lenN k -> lenN com' = lenN com ->
  (forall l p, l <= depth -> p < 2 ^ l -> p <> ancestor depth idx l ->
     nth_error k' (N.to_nat (bfs l p)) = nth_error k (N.to_nat (bfs l p))) ->
  nth_error com' (N.to_nat idx) = nth_error com (N.to_nat idx) ->
  vector_open k' com' bits depth = vector_open k com bits depth.
Proof. exact opening_hides_path. Qed.
Print Assumptions C13_opening_hides_path.

(** depth 2, hidden leaf 2: nodes 0, 2, 5 are its ancestors (and itself) *)
Example C13_case :
  BitDec 2 2 = Ok (true, [0; 1]) /\
  map (fun l => bfs l (ancestor 2 2 l)) [0; 1; 2] = [0; 2; 5] /\
  vector_open [[0]; [1]; [2]; [3]; [4]; [5]; [6]] [[10]; [11]; [12]; [13]] [0; 1] 2 = Ok ([1; 6], [12]) /\
  vector_open [[77]; [1]; [78]; [3]; [4]; [79]; [6]] [[80]; [81]; [12]; [83]] [0; 1] 2 = Ok ([1; 6], [12]).
Proof. repeat split; vm_compute; reflexivity. Qed.
