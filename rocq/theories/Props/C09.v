(** C09: the parts of a signature partition its bytes. *)
From Verif.Model Require Import Faest.
From Verif.Spec Require Import FormatSpec FormatMap.
From Verif.Proof Require Import FormatProof.

(** every part starts where the previous ones end, and together they fill the signature *)
Theorem C09_contiguous : forall i,
  (forall pre x post, parts (param_of i) = pre ++ x :: post ->
     part_off (param_of i) x = total (param_of i) pre) /\
  total (param_of i) (parts (param_of i)) = sig_size i.
Proof. exact (fun i => conj (layout_split i) (layout_total i)). Qed.
Print Assumptions C09_contiguous.

Theorem C09_disjoint : forall i x y,
  In x (parts (param_of i)) -> In y (parts (param_of i)) -> x <> y ->
  part_off (param_of i) x + part_size (param_of i) x <= part_off (param_of i) y \/
  part_off (param_of i) y + part_size (param_of i) y <= part_off (param_of i) x.
Proof. exact parts_disjoint. Qed.
Print Assumptions C09_disjoint.

Theorem C09_cover : forall i n, n < sig_size i -> exists x, In x (parts (param_of i)) /\
  part_off (param_of i) x <= n < part_off (param_of i) x + part_size (param_of i) x.
Proof. exact parts_cover. Qed.
Print Assumptions C09_cover.

(** which parts there are: tau - 1 corrections and, for each of the tau trees, an opening and a
    commitment, besides the single parts *)
Theorem C09_indices : forall p x, In x (parts p) <->
  match x with
  | Correction i => i < p_tau p - 1
  | Opening t | Com t => t < p_tau p
  | _ => True
  end.
Proof. exact In_parts. Qed.
Print Assumptions C09_indices.

(** reading back a serialised signature *)
Theorem C09_parse : forall i (f : part -> list N),
  (forall x, In x (parts (param_of i)) -> lenN (f x) = part_size (param_of i) x) ->
  lenN (concat (map f (parts (param_of i)))) = sig_size i /\
  forall x, In x (parts (param_of i)) ->
    slice (concat (map f (parts (param_of i)))) (part_off (param_of i) x) (part_size (param_of i) x) = Ok (f x).
Proof. exact parse_serialised. Qed.
Print Assumptions C09_parse.

(** a signature is determined by its parts *)
Theorem C09_determined : forall i (sig : list N) (f : part -> list N), lenN sig = sig_size i ->
  (forall x, In x (parts (param_of i)) ->
     slice sig (part_off (param_of i) x) (part_size (param_of i) x) = Ok (f x)) ->
  sig = concat (map f (parts (param_of i))).
Proof. exact parts_determine. Qed.
Print Assumptions C09_determined.

Example C09_case : length (parts (param_of FAEST_128S)) = 37%nat /\
  part_off (param_of FAEST_128S) (Com 8) = 4526 /\ part_size (param_of FAEST_128S) (Com 8) = 32 /\
  part_off (param_of FAEST_128S) (Opening 9) = 4558.
Proof. vm_compute. auto. Qed.
