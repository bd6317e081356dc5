(** C22: the block ciphers are AES / Rijndael. *)
From Verif.Model Require Import Aes.
From Verif.Spec Require Import AesSpec OwfSpec.
From Verif.Proof Require Import AesProps.

Theorem C22_block_ciphers : forall c R, In (c, R) ciphers ->
  forall key, lenN key = 4 * Nk R -> bytes_ok key ->
  exists rk zk, init_round_keys c key = Ok (rk, zk) /\
    forall pt, lenN pt = 4 * Nb R -> bytes_ok pt ->
    exists zp, encrypt_block c rk pt 0 = Ok (Cipher R key pt, zp).
Proof. exact block_cipher_correct. Qed.
Print Assumptions C22_block_ciphers.

(** FIPS 197 appendix C.1 and C.3 *)
Example C22_case : exists rk zk, init_round_keys aes128 (Nrange 16) = Ok (rk, zk) /\
  exists zp, encrypt_block aes128 rk (map (fun x => 17 * x) (Nrange 16)) 0 =
    Ok ([0x69;0xc4;0xe0;0xd8;0x6a;0x7b;0x04;0x30;0xd8;0xcd;0xb7;0x80;0x70;0xb4;0xc5;0x5a], zp).
Proof. do 2 eexists. split; [vm_compute; reflexivity|]. eexists. vm_compute. reflexivity. Qed.

Example C22_case_256 : exists rk zk, init_round_keys aes256 (Nrange 32) = Ok (rk, zk) /\
  exists zp, encrypt_block aes256 rk (map (fun x => 17 * x) (Nrange 16)) 0 =
    Ok ([0x8e;0xa2;0xb7;0xca;0x51;0x67;0x45;0xbf;0xea;0xfc;0x49;0x90;0x4b;0x49;0x60;0x89], zp).
Proof. do 2 eexists. split; [vm_compute; reflexivity|]. eexists. vm_compute. reflexivity. Qed.
