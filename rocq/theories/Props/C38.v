(** C38: transposing the matrix of columns.  The prover applies it to V, the verifier to Q. *)
From Verif.Model Require Import FaestAes.
From Verif.Spec Require Import UHashMap VoleSpec ProofSpec.
From Verif.Proof Require Import AgreeProps.
From Coq Require Import Lia.

(** element r of the result has bit j = bit r of column j *)
Theorem C38_transposed : forall lambda F V ell L, In (lambda, F) levels -> matrix lambda L V -> ell + lambda <= 8 * L ->
  exists rows, column_to_row_major F V ell = Ok rows /\ lenN rows = ell + lambda /\
    forall r, r < ell + lambda -> let x := nth (N.to_nat r) rows 0 in
      x < 2 ^ lambda /\ forall j, j < lambda -> N.testbit x j = bit_at (nth (N.to_nat j) V []) r.
Proof. exact transposed. Qed.
Print Assumptions C38_transposed.

(** columns j, j, .., j (17 bytes): element 1 has bit j = bit 1 of j *)
Example C38_case : exists rows,
  column_to_row_major F128 (map (fun j => repeat j 17) (Nrange 128)) 8 = Ok rows /\ lenN rows = 136 /\
  nth 0 rows 0 = 0xaaaaaaaaaaaaaaaaaaaaaaaaaaaaaaaa /\ nth 9 rows 0 = 0xcccccccccccccccccccccccccccccccc.
Proof. eexists. split; [vm_compute; reflexivity|]. split; [reflexivity|]. split; reflexivity. Qed.
Example C38_matrix : matrix 128 17 (map (fun j => repeat j 17) (Nrange 128)).
Proof.
  assert (H : forallb (fun c => (N.of_nat (length c) =? 17) && forallb (fun b => b <? 256) c) (map (fun j => repeat j 17) (Nrange 128)) = true)
    by (vm_compute; reflexivity).
  split; [reflexivity|]. intros j Hj. rewrite forallb_forall in H.
  specialize (H (nth (N.to_nat j) (map (fun j => repeat j 17) (Nrange 128)) [])).
  rewrite Bool.andb_true_iff, N.eqb_eq, forallb_forall in H. destruct H as [H1 H2].
  - apply nth_In. change (length (map (fun j => repeat j 17) (Nrange 128))) with (N.to_nat 128). lia.
  - split; [exact H1|]. apply Forall_forall. intros b Hb. apply N.ltb_lt, H2, Hb.
Qed.
