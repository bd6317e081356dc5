(** C17: numbering of the nodes of the GGM tree. *)
From Verif.Model Require Import Vc.
From Verif.Proof Require Import VcProps.

Theorem C17_node_count : forall depth, depth <= 29 ->
  getBinaryTreeNodeCount depth = Ok (2 ^ (depth + 1) - 1).
Proof. exact node_count. Qed.
Print Assumptions C17_node_count.

Theorem C17_bijection : forall depth, depth <= 29 ->
  exists count, getBinaryTreeNodeCount depth = Ok count /\
  (forall l p, l <= depth -> p < 2 ^ l -> exists n, getNodeIndex l p = Ok n /\ n < count) /\
  (forall l p l' p' n, l <= depth -> l' <= depth -> p < 2 ^ l -> p' < 2 ^ l' ->
     getNodeIndex l p = Ok n -> getNodeIndex l' p' = Ok n -> l = l' /\ p = p') /\
  (forall n, n < count -> exists l p, l <= depth /\ p < 2 ^ l /\ getNodeIndex l p = Ok n).
Proof. exact node_index_bijection. Qed.
Print Assumptions C17_bijection.

Theorem C17_children : forall l p n, l < 30 -> p < 2 ^ l -> getNodeIndex l p = Ok n ->
  getNodeIndex (l + 1) (2 * p) = Ok (2 * n + 1) /\ getNodeIndex (l + 1) (2 * p + 1) = Ok (2 * n + 2) /\
  get_parent (2 * n + 1) = n /\ get_parent (2 * n + 2) = n.
Proof. exact node_children. Qed.
Print Assumptions C17_children.

Example C17_case : getBinaryTreeNodeCount 12 = Ok 8191 /\ getNodeIndex 12 4095 = Ok 8190 /\
  getNodeIndex 3 5 = Ok 12 /\ getNodeIndex 4 10 = Ok 25 /\ get_parent 25 = 12.
Proof. repeat split; vm_compute; reflexivity. Qed.
