(** What a verification hashes (FAEST v1, section 7), in terms of the parts of the signature:
    the strings given to the random oracles, the columns recovered from the openings, and the
    condition for acceptance.  Nothing here refers to loops, buffers or offsets of the code; the
    position of a part is [part_off] (property C09).  [leaf_com], [leaf_seed], [H1] and
    [ctr_bytes] are those of Spec/VcSpec.v. *)
From Verif.Model Require Import Base Params Faest.
From Verif.Spec Require Import VcSpec VoleSpec FormatSpec FormatMap UHashSpec ConstraintMap.

Section Xof.
Variable xof : N -> list N -> N -> list N.

(** H2 with output of [n] bytes, and H3 (root key and IV) *)
Definition H2 (lambda : N) (data : list N) (n : N) : list N := xof (shake_of lambda) (data ++ [2]) n.
Definition H3 (lambda : N) (data : list N) : list N := xof (shake_of lambda) (data ++ [3]) (lambda / 8 + 16).

(** node [pos] of level [l] of a tree of depth [depth], computed from the sibling path [path] of
    leaf [leaf] (defined for the nodes which are no ancestors of [leaf]) *)
Fixpoint from_path (lambda : N) (iv path : list N) (depth leaf : N) (l : nat) (pos : N) : list N :=
  match l with
  | O => []
  | S l' =>
      if pos / 2 =? ancestor depth leaf (N.of_nat l') then sub path (lambda / 8 * N.of_nat l') (lambda / 8)
      else child lambda iv (from_path lambda iv path depth leaf l' (pos / 2)) (N.odd pos)
  end.

(** first challenge bit of tree [t]; its hidden leaf *)
Definition start (p : param) (t : N) : N := fold_right N.add 0 (map (depth_of p) (upto t)).
Definition hidden (p : param) (chal : list N) (t : N) : N := (num chal / 2 ^ start p t) mod 2 ^ depth_of p t.

Section Run.
Variable i : paramid.
Let p := param_of i.
Let lambda := p_lambda p.
Let lb := lambda / 8.
(** bytes of a column: l + 2 lambda + 16 bits *)
Let L := (p_l p + 2 * lambda + 16) / 8.

(** part [x] of the signature [sig] *)
Definition part_of (sig : list N) (x : part) : list N := sub sig (part_off p x) (part_size p x).

Variables pk msg sig : list N.
Let iv := part_of sig Iv.
Let chal := part_of sig Challenge_3.
Let path t := part_of sig (Opening t).
(** node [pos] of level [l] of tree [t], and its leaves *)
Definition node_of (t : N) (l : nat) (pos : N) : list N := from_path lambda iv (path t) (depth_of p t) (hidden p chal t) l pos.
Definition leaf_of (t pos : N) : list N := node_of t (N.to_nat (depth_of p t)) pos.

(** H1: the public key and the message *)
Definition mu_in : list N := pk ++ msg.
(** H1: the commitments to the leaves of tree [t]; the one of the hidden leaf is in the signature *)
Definition tree_in (t : N) : list N :=
  concat (map (fun j => if j =? hidden p chal t then part_of sig (Com t) else leaf_com xof lambda (leaf_of t j) iv)
              (upto (2 ^ depth_of p t))).
(** H1: the digests of the trees *)
Definition hcom_in : list N := concat (map (fun t => H1 xof lambda (tree_in t)) (upto (p_tau p))).
(** H2: first challenge *)
Definition chall_1_in : list N :=
  H1 xof lambda mu_in ++ H1 xof lambda hcom_in ++ concat (map (fun k => part_of sig (Correction k)) (upto (p_tau p - 1))) ++ iv.
Definition chall_1 : list N := H2 lambda chall_1_in (5 * lb + 8).

(** column [n]: the sum of the masks of the leaves x + hidden leaf for the x with bit j set, where
    [n] is column [j] of its tree; corrected for all trees but the first *)
Definition mask (t x : N) : list N := ctr_bytes lambda (leaf_seed xof lambda (leaf_of t x) iv) iv L.
Definition raw_column (n : N) : list N :=
  let t := tree_of p n in
  let j := n - start p t in
  fold_right xors (repeat 0 (N.to_nat L))
    (map (fun x => mask t (N.lxor x (hidden p chal t))) (filter (fun x => N.testbit x j) (upto (2 ^ depth_of p t)))).
Definition column (n : N) : list N :=
  let t := tree_of p n in
  xors (raw_column n) (scale (bit_at chal n) (if t =? 0 then repeat 0 (N.to_nat L) else part_of sig (Correction (t - 1)))).

(** H1: the hashes of the columns, corrected by u_tilde *)
Definition hv_in : list N :=
  concat (map (fun n => xors (vole_hash_spec (F_of i) chall_1 (column n) (p_l p)) (scale (bit_at chal n) (part_of sig U_tilde)))
              (upto lambda)).
(** H2: second challenge *)
Definition chall_2_in : list N := chall_1 ++ part_of sig U_tilde ++ H1 xof lambda hv_in ++ part_of sig D_masked_witness.
Definition chall_2 : list N := H2 lambda chall_2_in (3 * lb + 8).

(** what the verifier computes from the columns (property C30) *)
Definition b_tilde : res (list N) :=
  aes_verify p (part_of sig D_masked_witness) (map column (upto lambda)) chall_2 chal (part_of sig A_tilde)
    (sub pk 0 (p_pkSize p / 2)) (sub pk (p_pkSize p / 2) (p_pkSize p / 2)).
(** H2: third challenge *)
Definition chall_3_in (b : list N) : list N := chall_2 ++ part_of sig A_tilde ++ b.
Definition accepts_with (b : list N) : Prop := H2 lambda (chall_3_in b) lb = chal.
End Run.
End Xof.

(** [x] and [y] are a collision of [h] *)
Definition collide {A B : Type} (h : A -> B) (x y : A) : Prop := x <> y /\ h x = h y.


(** The collisions that can be read off two verification runs, one of [sig] for ([pk], [msg]) and
    one of [sig'] for ([pk'], [msg']): two different strings hashed at the same place of the two
    runs with the same result, two different leaves with the same commitment, or two different
    nodes with the same children. *)
Section Collisions.
Variable xof : N -> list N -> N -> list N.
Variable i : paramid.
Let p := param_of i.
Let lambda := p_lambda p.
Let lb := lambda / 8.
Variables pk msg sig pk' msg' sig' : list N.
Let iv := part_of i sig Iv.
Let chal := part_of i sig Challenge_3.

Definition challenge_collision : Prop :=
  (exists b b', b_tilde xof i pk msg sig = Ok b /\ b_tilde xof i pk' msg' sig' = Ok b' /\
     collide (fun d => H2 xof lambda d lb) (chall_3_in xof i pk msg sig b) (chall_3_in xof i pk' msg' sig' b')) \/
  collide (fun d => H2 xof lambda d (3 * lb + 8)) (chall_2_in xof i pk msg sig) (chall_2_in xof i pk' msg' sig') \/
  collide (fun d => H2 xof lambda d (5 * lb + 8)) (chall_1_in xof i pk msg sig) (chall_1_in xof i pk' msg' sig') \/
  collide (H1 xof lambda) (mu_in pk msg) (mu_in pk' msg').

Definition commitment_collision : Prop :=
  collide (H1 xof lambda) (hcom_in xof i sig) (hcom_in xof i sig') \/
  (exists t, t < p_tau p /\ collide (H1 xof lambda) (tree_in xof i sig t) (tree_in xof i sig' t)) \/
  (exists t j, t < p_tau p /\ j < 2 ^ depth_of p t /\ j <> hidden p chal t /\
     collide (fun leaf => leaf_com xof lambda leaf iv) (leaf_of i sig t j) (leaf_of i sig' t j)) \/
  (exists t l pos, t < p_tau p /\ N.of_nat l < depth_of p t /\ pos < 2 ^ N.of_nat l /\
     pos <> ancestor (depth_of p t) (hidden p chal t) (N.of_nat l) /\
     collide (fun node => ctr_bytes lambda node iv (2 * lb)) (node_of i sig t l pos) (node_of i sig' t l pos)).
End Collisions.
