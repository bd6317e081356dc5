(** C23: the OWF rejects exactly the keys with a zero S-box input. *)
From Verif.Model Require Import Owf.
From Verif.Spec Require Import OwfSpec.
From Verif.Proof Require Import AesProps.

Theorem C23_owf : forall i key inp,
  lenN key = owf_key_size i -> bytes_ok key -> lenN inp = owf_input_size i -> bytes_ok inp ->
  exists ok, owf i key inp = Ok (owf_value i key inp, ok) /\ (ok = true <-> ~ owf_zero i key inp).
Proof. exact owf_correct. Qed.
Print Assumptions C23_owf.

(** an accepted and a rejected key *)
Example C23_case : lenN (Nrange 16) = owf_key_size FAEST_128S /\
  lenN (Nrange 16) = owf_input_size FAEST_128S /\
  (exists out, owf FAEST_128S (repeat 1 16) (Nrange 16) = Ok (out, false)) /\
  (exists out, owf FAEST_128S (map (fun x => 7 * x + 9) (Nrange 16)) (Nrange 16) = Ok (out, true)).
Proof. repeat split; eexists; vm_compute; reflexivity. Qed.
