(** Extraction of the private key from runs of the verifier that share everything up to the last
    challenge (the forking argument for Fiat-Shamir signatures): the extractor, and the events in which it fails.
    The vocabulary of a run is that of Spec/RunSpec.v. *)
From Verif.Model Require Import Base Params.
From Verif.Spec Require Import OwfSpec VcSpec VoleSpec FormatSpec FormatMap UHashSpec ConstraintSpec ConstraintMap ProofSpec RunSpec KeySpec.

(** [xof'] answers every query like [xof], except perhaps the query [q] to H2 *)
Definition reprogrammed (q : list N) (xof xof' : N -> list N -> N -> list N) : Prop :=
  forall s data n, data <> q ++ [2] -> xof' s data n = xof s data n.

Section Extract.
Variable xof : N -> list N -> N -> list N.
Variable i : paramid.
Let p := param_of i.
Let lambda := p_lambda p.
Let lb := lambda / 8.
Let L := (p_l p + 2 * lambda + 16) / 8.
Definition leaf_hidden (sig : list N) (t : N) : N := hidden p (part_of i sig Challenge_3) t.

(** the last query to H2 in the verification of [sig] is [q] *)
Definition last_query (pk msg sig q : list N) : Prop :=
  exists b, b_tilde xof i pk msg sig = Ok b /\ chall_3_in xof i pk msg sig b = q.

(** * The extractor.  Two signatures [sig], [sig'] which open tree [t] at different leaves *)
Section Two.
Variables sig sig' : list N.
Variable t : N.
(** each run knows the masks of all leaves but its hidden one *)
Definition known_mask (x : N) : list N := mask xof i (if x =? leaf_hidden sig t then sig' else sig) t x.
(** the sum of all masks of the tree, corrected; the witness; its beginning is the key *)
Definition known_u : list N :=
  xors (fold_right xors (repeat 0 (N.to_nat L)) (map known_mask (upto (2 ^ depth_of p t))))
       (if t =? 0 then repeat 0 (N.to_nat L) else part_of i sig (Correction (t - 1))).
Definition known_witness : list N := xors (part_of i sig D_masked_witness) (sub known_u 0 (p_l p / 8)).
Definition known_sk (pk : list N) : list N := sub pk 0 (owf_input_size i) ++ sub known_witness 0 (owf_key_size i).
(** the hash of the constraints misses that the witness is wrong *)
Definition zk_hash_miss (pk msg : list N) : Prop :=
  let inp := sub pk 0 (p_pkSize p / 2) in
  let out := sub pk (p_pkSize p / 2) (p_pkSize p / 2) in
  Exists (fun xy => defect (F_of i) xy <> 0) (claims i known_witness inp out) /\
  defect_hash i (chall_2 xof i pk msg sig) known_witness inp out = 0.
End Two.

(** * The events in which it fails *)
(** collisions between what two runs hash *)
Definition run_collision (pk msg sig sig' : list N) : Prop :=
  collide (fun d => H2 xof lambda d (3 * lb + 8)) (chall_2_in xof i pk msg sig) (chall_2_in xof i pk msg sig') \/
  collide (fun d => H2 xof lambda d (5 * lb + 8)) (chall_1_in xof i pk msg sig) (chall_1_in xof i pk msg sig') \/
  collide (H1 xof lambda) (hv_in xof i pk msg sig) (hv_in xof i pk msg sig') \/
  collide (H1 xof lambda) (hcom_in xof i sig) (hcom_in xof i sig') \/
  (exists t, t < p_tau p /\ collide (H1 xof lambda) (tree_in xof i sig t) (tree_in xof i sig' t)) \/
  (exists t x, t < p_tau p /\ x < 2 ^ depth_of p t /\ x <> leaf_hidden sig t /\ x <> leaf_hidden sig' t /\
     collide (fun leaf => leaf_com xof lambda leaf (part_of i sig Iv)) (leaf_of i sig t x) (leaf_of i sig' t x)).

(** the hash of the VOLE masks misses that two trees are inconsistent *)
Definition vole_hash_miss (pk msg : list N) (runs : list (list N)) : Prop :=
  exists a a' t b b' s, In a runs /\ In a' runs /\ In b runs /\ In b' runs /\ t < p_tau p /\ s < p_tau p /\
    leaf_hidden a t <> leaf_hidden a' t /\ leaf_hidden b s <> leaf_hidden b' s /\
    collide (fun u => vole_hash_spec (F_of i) (chall_1 xof i pk msg a) u (p_l p)) (known_u a a' t) (known_u b b' s).
End Extract.
