(** The opening of one tree as the signer computes it (faest.c:342-357): the challenge chunk of
    tree [t], then the sibling path and the hidden commitment at that index. *)
From Verif.Model Require Import Vole.

Definition open_tree (p : param) (chal : list N) (vcs : list vec_com) (t : N) : res (list N * list N) :=
  let! cd := ChalDec chal t (p_k0 p) (p_t0 p) (p_k1 p) (p_t1 p) in
  let! vc := aget vcs t in
  vector_open (vc_k vc) (vc_com vc) (snd cd) (tree_depth p t).
