(** C20: bf8_inv is inversion. *)
From Verif.Model Require Import Fields.
From Verif.Spec Require Import FieldSpec.
From Verif.Proof Require Import FieldProps.

Theorem C20_bf8_inv : bf8_inv 0 = 0 /\
  forall a, elt gf8 a -> a <> 0 -> elt gf8 (bf8_inv a) /\ is_gf_product gf8 a (bf8_inv a) 1.
Proof. exact bf8_inv_correct. Qed.
Print Assumptions C20_bf8_inv.

Example C20_case : elt gf8 0x53 /\ bf8_inv 0x53 = 0xca.
Proof. split; reflexivity. Qed.
