(** C24: the PRG is AES in counter mode, independent of the requested length. *)
From Verif.Model Require Import Aes.
From Verif.Spec Require Import OwfSpec.
From Verif.Proof Require Import AesProps.

Theorem C24_prg_is_ctr : forall lambda, In lambda [128; 192; 256] ->
  forall key iv n, lenN key = lambda / 8 -> bytes_ok key -> lenN iv = 16 -> bytes_ok iv ->
  exists out, prg key iv lambda n = Ok out /\ lenN out = n /\
    forall i, i < n -> at_ 0 out i = ctr_byte (aes_of lambda) key iv i.
Proof. exact prg_is_ctr. Qed.
Print Assumptions C24_prg_is_ctr.

Theorem C24_prefix : forall lambda, In lambda [128; 192; 256] ->
  forall key iv m n, lenN key = lambda / 8 -> bytes_ok key -> lenN iv = 16 -> bytes_ok iv ->
  m <= n ->
  exists short long, prg key iv lambda m = Ok short /\ prg key iv lambda n = Ok long /\
                     short = firstn (N.to_nat m) long.
Proof. exact prg_prefix. Qed.
Print Assumptions C24_prefix.

(** the counter wraps between the first and the second block, NIST SP 800-38A style *)
Example C24_case : lenN (Nrange 16) = 128 / 8 /\ lenN (repeat 255 16) = 16 /\
  exists out, prg (Nrange 16) (repeat 255 16) 128 19 = Ok out /\
              exists rk z, init_round_keys aes128 (Nrange 16) = Ok (rk, z) /\
                exists c z', encrypt_block aes128 rk (repeat 0 16) 0 = Ok (c, z') /\
                             skipn 16 out = firstn 3 c.
Proof.
  split; [reflexivity|]. split; [reflexivity|]. eexists. split; [vm_compute; reflexivity|].
  do 2 eexists. split; [vm_compute; reflexivity|]. do 2 eexists. split; vm_compute; reflexivity.
Qed.
