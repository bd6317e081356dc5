(** C39: batched leaf commitments equal sequential ones. *)
From Verif.Model Require Import Vc.
From Verif.Spec Require Import VcSpec.
From Verif.Proof Require Import VcProps.

(** prover: nodes, seeds, commitments and digest are those of the specified GGM tree *)
Theorem C39_commitment_leaves : forall xof lambda, In lambda [128; 192; 256] ->
  forall root iv depth, lenN root = lambda / 8 -> bytes_ok root -> lenN iv = 16 -> bytes_ok iv ->
  1 <= depth <= 29 ->
  exists vc, vector_commitment xof lambda root iv depth = Ok vc /\
    lenN (vc_sd vc) = 2 ^ depth /\ lenN (vc_com vc) = 2 ^ depth /\ lenN (vc_k vc) = 2 ^ (depth + 1) - 1 /\
    (forall l p, l <= depth -> p < 2 ^ l ->
       nth_error (vc_k vc) (N.to_nat (bfs l p)) = Some (ggm lambda iv root (N.to_nat l) p)) /\
    (forall j, j < 2 ^ depth ->
       let leaf := ggm lambda iv root (N.to_nat depth) j in
       nth_error (vc_sd vc) (N.to_nat j) = Some (leaf_seed xof lambda leaf iv) /\
       nth_error (vc_com vc) (N.to_nat j) = Some (leaf_com xof lambda leaf iv)) /\
    vc_h vc = H1 xof lambda (concat (vc_com vc)).
Proof. exact commitment_leaves. Qed.
Print Assumptions C39_commitment_leaves.

(** verifier: the five loops do what one loop over all leaves but the hidden one does, each leaf
    once, in order; for every state of the buffers, and also when one of the accesses is out of
    bounds *)
Theorem C39_reconstruction_leaves : forall xof lambda iv k depth hidden n st, hidden < n ->
  rec_leaves xof lambda iv k depth hidden n st =
  foldM (fun st j => let! i := getNodeIndex depth j in
                     let! node := aget k i in
                     let! s := aset (fst st) j (Some (leaf_seed xof lambda node iv)) in
                     let! com := aset (snd st) j (Some (leaf_com xof lambda node iv)) in
                     Ok (s, com))
        (filter (fun j => negb (j =? hidden)) (Nrange n)) st.
Proof. exact reconstruction_leaves. Qed.
Print Assumptions C39_reconstruction_leaves.

(** hidden leaf 5 of 8; depth 3, toy nodes [j] and XOF *)
Example C39_case :
  let xof := fun (s : N) (data : list N) (n : N) => repeat (hd 0 data) (N.to_nat n) in
  exists s com, rec_leaves xof 128 (repeat 0 16) (map (fun i => [i]) (Nrange 15)) 3 5 8
                  (repeat None 8, repeat None 8) = Ok (s, com) /\
    map (fun c => match c with Some (x :: _) => x | _ => 99 end) s = [7; 8; 9; 10; 11; 99; 13; 14] /\
    map (fun c => match c with Some (x :: _) => x | _ => 99 end) com = [7; 8; 9; 10; 11; 99; 13; 14].
Proof. do 2 eexists. split; [vm_compute; reflexivity|]. split; reflexivity. Qed.
