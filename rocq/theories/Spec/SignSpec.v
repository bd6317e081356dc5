(** The signature of the specification (FAEST v1, section 7), part by part, from the key, the
    message and the extra randomness: trees, masks and columns as in Spec/VcSpec.v and
    Spec/VoleSpec.v, oracles H0 .. H3, and the order of the challenges.  Nothing here refers to
    loops, buffers or offsets. *)
From Verif.Model Require Import Base Params.
From Verif.Spec Require Import VcSpec VoleSpec FormatSpec UHashSpec ConstraintMap RunSpec.

Section Sign.
Variable xof : N -> list N -> N -> list N.
Variable i : paramid.
Let p := param_of i.
Let lambda := p_lambda p.
Let lb := lambda / 8.
Let L := (p_l p + 2 * lambda + 16) / 8.

(** the private key (OWF key), the public key, the message, the extra randomness *)
Variables key pk msg rho : list N.
Definition mu : list N := H1 xof lambda (pk ++ msg).
Definition root_iv : list N := H3 xof lambda (key ++ mu ++ rho).
Definition rootkey : list N := sub root_iv 0 lb.
Definition s_iv : list N := sub root_iv lb 16.

(** tree [t]: root, leaves, masks *)
Definition root (t : N) : list N := sub (ctr_bytes lambda rootkey s_iv (lb * p_tau p)) (t * lb) lb.
Definition s_leaf (t x : N) : list N := ggm lambda s_iv (root t) (N.to_nat (depth_of p t)) x.
Definition s_mask (t x : N) : list N := ctr_bytes lambda (leaf_seed xof lambda (s_leaf t x) s_iv) s_iv L.
(** sum of all masks of tree [t]; of those whose index has bit [j] *)
Definition s_u (t : N) : list N :=
  fold_right xors (repeat 0 (N.to_nat L)) (map (s_mask t) (upto (2 ^ depth_of p t))).
Definition s_v (t j : N) : list N :=
  fold_right xors (repeat 0 (N.to_nat L)) (map (s_mask t) (filter (fun x => N.testbit x j) (upto (2 ^ depth_of p t)))).
Definition s_column (n : N) : list N := s_v (tree_of p n) (n - start p (tree_of p n)).
Definition s_correction (k : N) : list N := xors (s_u 0) (s_u (k + 1)).
(** digest of the commitments *)
Definition s_com (t x : N) : list N := leaf_com xof lambda (s_leaf t x) s_iv.
Definition s_hcom : list N :=
  H1 xof lambda (concat (map (fun t => H1 xof lambda (concat (map (s_com t) (upto (2 ^ depth_of p t))))) (upto (p_tau p)))).

Definition s_chall_1 : list N :=
  H2 xof lambda (mu ++ s_hcom ++ concat (map s_correction (upto (p_tau p - 1))) ++ s_iv) (5 * lb + 8).
Definition s_u_tilde : list N := vole_hash_spec (F_of i) s_chall_1 (s_u 0) (p_l p).
Definition s_hv : list N :=
  H1 xof lambda (concat (map (fun n => vole_hash_spec (F_of i) s_chall_1 (s_column n) (p_l p)) (upto lambda))).

(** [w]: the extended witness *)
Variable w : list N.
Definition s_d : list N := xors w (sub (s_u 0) 0 (p_l p / 8)).
Definition s_chall_2 : list N := H2 xof lambda (s_chall_1 ++ s_u_tilde ++ s_hv ++ s_d) (3 * lb + 8).

(** [a], [b]: the aggregated constraint polynomial *)
Variables a b : list N.
Definition s_chall_3 : list N := H2 xof lambda (s_chall_2 ++ a ++ b) lb.

(** siblings of the path to the hidden leaf, from the root downwards *)
Definition s_opening (t : N) : list N :=
  concat (map (fun l => ggm lambda s_iv (root t) (N.to_nat (l + 1))
                          (sibling (ancestor (depth_of p t) (hidden p s_chall_3 t) (l + 1)))) (upto (depth_of p t))).

Definition s_part (x : part) : list N :=
  match x with
  | Correction k => s_correction k
  | U_tilde => s_u_tilde
  | D_masked_witness => s_d
  | A_tilde => a
  | Opening t => s_opening t
  | Com t => s_com t (hidden p s_chall_3 t)
  | Challenge_3 => s_chall_3
  | Iv => s_iv
  end.
Definition signature_spec : list N := concat (map s_part (parts p)).
End Sign.
