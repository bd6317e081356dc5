(** Specification: counter mode and the one-way functions on top of the block ciphers. *)
From Verif.Spec Require Export AesSpec.
From Verif.Model Require Import Aes.

(** the ciphers of the library and the ones they claim to implement *)
Definition ciphers : list (cipher * rijndael) :=
  [(aes128, AES128); (aes192, AES192); (aes256, AES256);
   (rijndael192, RIJNDAEL192); (rijndael256, RIJNDAEL256)].

(** big-endian numbers *)
Definition be_val (l : list N) : N := fold_left (fun acc b => 256 * acc + b) l 0.
Fixpoint be_bytes (n : nat) (x : N) : list N :=
  match n with O => [] | S n' => be_bytes n' (x / 256) ++ [x mod 256] end.

(** byte i of the key stream of AES in counter mode *)
Definition ctr_byte (R : rijndael) (key iv : list N) (i : N) : N :=
  at_ 0 (Cipher R key (be_bytes 16 ((be_val iv + i / 16) mod 2 ^ 128))) (i mod 16).

(** AES variant by security level *)
Definition aes_of (lambda : N) : rijndael :=
  match lambda with 256 => AES256 | 192 => AES192 | _ => AES128 end.

Definition block (R : rijndael) (inp : list N) (b : N) : list N :=
  firstn (N.to_nat (4 * Nb R)) (skipn (N.to_nat (4 * Nb R * b)) inp).

(** the one-way function of a parameter set: encryption of the input under the key (one block for
    AES-128, two for AES-192 and AES-256), or, for the Even-Mansour sets, encryption of the key
    under the input, plus the key *)
Definition owf_value (i : paramid) (key inp : list N) : list N :=
  let aes R := Cipher R key (block R inp 0) in
  let aes2 R := Cipher R key (block R inp 0) ++ Cipher R key (block R inp 1) in
  let em R := map (fun '(x, y) => N.lxor x y) (combine (Cipher R inp key) key) in
  match i with
  | FAEST_128S | FAEST_128F => aes AES128
  | FAEST_192S | FAEST_192F => aes2 AES192
  | FAEST_256S | FAEST_256F => aes2 AES256
  | FAEST_EM_128S | FAEST_EM_128F => em AES128
  | FAEST_EM_192S | FAEST_EM_192F => em RIJNDAEL192
  | FAEST_EM_256S | FAEST_EM_256F => em RIJNDAEL256
  end.

(** some S-box that depends on the key is applied to a zero byte while computing it *)
Definition owf_zero (i : paramid) (key inp : list N) : Prop :=
  let aes R := zero_in_key_expansion R key \/ zero_in_encryption R key (block R inp 0) in
  let aes2 R := aes R \/ zero_in_encryption R key (block R inp 1) in
  let em R := zero_in_encryption R inp key in
  match i with
  | FAEST_128S | FAEST_128F => aes AES128
  | FAEST_192S | FAEST_192F => aes2 AES192
  | FAEST_256S | FAEST_256F => aes2 AES256
  | FAEST_EM_128S | FAEST_EM_128F => em AES128
  | FAEST_EM_192S | FAEST_EM_192F => em RIJNDAEL192
  | FAEST_EM_256S | FAEST_EM_256F => em RIJNDAEL256
  end.

(** sizes in bytes of the OWF key and of its input (= of its output) *)
Definition owf_key_size (i : paramid) : N := p_lambda (param_of i) / 8.
Definition owf_input_size (i : paramid) : N := p_pkSize (param_of i) / 2.
