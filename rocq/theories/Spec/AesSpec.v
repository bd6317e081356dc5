(** Specification: AES (FIPS 197) and Rijndael with larger blocks.

    Written from the standard; it shares nothing with the model.  Bytes are numbers below 256,
    words are lists of four bytes, a state is a function of row and column. *)
From Coq Require Export NArith List Bool.
Export ListNotations.
#[global] Open Scope N_scope.

(** element i of a list *)
Definition at_ {A} (d : A) (l : list A) (i : N) : A := nth (N.to_nat i) l d.

(** FIPS 197, figure 7 *)
Definition sbox_table : list N := [
  0x63;0x7c;0x77;0x7b;0xf2;0x6b;0x6f;0xc5;0x30;0x01;0x67;0x2b;0xfe;0xd7;0xab;0x76;
  0xca;0x82;0xc9;0x7d;0xfa;0x59;0x47;0xf0;0xad;0xd4;0xa2;0xaf;0x9c;0xa4;0x72;0xc0;
  0xb7;0xfd;0x93;0x26;0x36;0x3f;0xf7;0xcc;0x34;0xa5;0xe5;0xf1;0x71;0xd8;0x31;0x15;
  0x04;0xc7;0x23;0xc3;0x18;0x96;0x05;0x9a;0x07;0x12;0x80;0xe2;0xeb;0x27;0xb2;0x75;
  0x09;0x83;0x2c;0x1a;0x1b;0x6e;0x5a;0xa0;0x52;0x3b;0xd6;0xb3;0x29;0xe3;0x2f;0x84;
  0x53;0xd1;0x00;0xed;0x20;0xfc;0xb1;0x5b;0x6a;0xcb;0xbe;0x39;0x4a;0x4c;0x58;0xcf;
  0xd0;0xef;0xaa;0xfb;0x43;0x4d;0x33;0x85;0x45;0xf9;0x02;0x7f;0x50;0x3c;0x9f;0xa8;
  0x51;0xa3;0x40;0x8f;0x92;0x9d;0x38;0xf5;0xbc;0xb6;0xda;0x21;0x10;0xff;0xf3;0xd2;
  0xcd;0x0c;0x13;0xec;0x5f;0x97;0x44;0x17;0xc4;0xa7;0x7e;0x3d;0x64;0x5d;0x19;0x73;
  0x60;0x81;0x4f;0xdc;0x22;0x2a;0x90;0x88;0x46;0xee;0xb8;0x14;0xde;0x5e;0x0b;0xdb;
  0xe0;0x32;0x3a;0x0a;0x49;0x06;0x24;0x5c;0xc2;0xd3;0xac;0x62;0x91;0x95;0xe4;0x79;
  0xe7;0xc8;0x37;0x6d;0x8d;0xd5;0x4e;0xa9;0x6c;0x56;0xf4;0xea;0x65;0x7a;0xae;0x08;
  0xba;0x78;0x25;0x2e;0x1c;0xa6;0xb4;0xc6;0xe8;0xdd;0x74;0x1f;0x4b;0xbd;0x8b;0x8a;
  0x70;0x3e;0xb5;0x66;0x48;0x03;0xf6;0x0e;0x61;0x35;0x57;0xb9;0x86;0xc1;0x1d;0x9e;
  0xe1;0xf8;0x98;0x11;0x69;0xd9;0x8e;0x94;0x9b;0x1e;0x87;0xe9;0xce;0x55;0x28;0xdf;
  0x8c;0xa1;0x89;0x0d;0xbf;0xe6;0x42;0x68;0x41;0x99;0x2d;0x0f;0xb0;0x54;0xbb;0x16].
Definition SBOX (x : N) : N := at_ 0 sbox_table x.

(** FIPS 197, 4.2.1: multiplication by x modulo x^8 + x^4 + x^3 + x + 1 *)
Definition xtime (a : N) : N := if a <? 128 then 2 * a else N.lxor (2 * a) 0x11b.

(** the parameters: key words, block words, rounds *)
Record rijndael := mkRijndael { Nk : N; Nb : N; Nr : N }.
Definition AES128 := mkRijndael 4 4 10.
Definition AES192 := mkRijndael 6 4 12.
Definition AES256 := mkRijndael 8 4 14.
Definition RIJNDAEL192 := mkRijndael 6 6 12.
Definition RIJNDAEL256 := mkRijndael 8 8 14.

(** FIPS 197, 5.2: key expansion *)
Definition SubWord (w : list N) : list N := map SBOX w.
Definition RotWord (w : list N) : list N :=
  match w with [a; b; c; d] => [b; c; d; a] | _ => w end.
Definition xor_words (v w : list N) : list N := map (fun '(x, y) => N.lxor x y) (combine v w).
(** the constant x^(j-1) in the first byte *)
Definition Rcon (j : N) : list N := [N.iter (j - 1) xtime 1; 0; 0; 0].

(** word i of the schedule from the previous ones (i = number of words so far) *)
Definition next_word (nk : N) (ws : list (list N)) : list N :=
  let i := N.of_nat (length ws) in
  let temp := at_ [] ws (i - 1) in
  let temp := if i mod nk =? 0 then xor_words (SubWord (RotWord temp)) (Rcon (i / nk))
              else if (6 <? nk) && (i mod nk =? 4) then SubWord temp
              else temp in
  xor_words (at_ [] ws (i - nk)) temp.

Fixpoint expand (nk : N) (steps : nat) (ws : list (list N)) : list (list N) :=
  match steps with
  | O => ws
  | S n => expand nk n (ws ++ [next_word nk ws])
  end.

Definition key_word (key : list N) (i : N) : list N :=
  [at_ 0 key (4 * i); at_ 0 key (4 * i + 1); at_ 0 key (4 * i + 2); at_ 0 key (4 * i + 3)].

(** w[0 .. Nb * (Nr + 1) - 1] *)
Definition KeyExpansion (R : rijndael) (key : list N) : list (list N) :=
  expand (Nk R) (N.to_nat (Nb R * (Nr R + 1) - Nk R))
         (map (fun i => key_word key (N.of_nat i)) (seq 0 (N.to_nat (Nk R)))).

(** states: row and column to byte *)
Definition cstate := N -> N -> N.

(** FIPS 197, 3.4 *)
Definition load (inp : list N) : cstate := fun r c => at_ 0 inp (r + 4 * c).
Definition store (R : rijndael) (s : cstate) : list N :=
  concat (map (fun c => map (fun r => s (N.of_nat r) (N.of_nat c)) (seq 0 4))
              (seq 0 (N.to_nat (Nb R)))).

(** FIPS 197, 5.1.1 *)
Definition SubBytes (s : cstate) : cstate := fun r c => SBOX (s r c).
(** FIPS 197, 5.1.2; the offsets for eight columns are those of Rijndael *)
Definition shift_offset (R : rijndael) (r : N) : N :=
  if Nb R =? 8 then match r with 0 => 0 | 1 => 1 | 2 => 3 | _ => 4 end else r.
Definition ShiftRows (R : rijndael) (s : cstate) : cstate :=
  fun r c => s r ((c + shift_offset R r) mod Nb R).
(** FIPS 197, 5.1.3: 02 a_r + 03 a_(r+1) + a_(r+2) + a_(r+3) *)
Definition MixColumns (s : cstate) : cstate := fun r c =>
  let a k := s ((r + k) mod 4) c in
  N.lxor (N.lxor (xtime (a 0)) (N.lxor (xtime (a 1)) (a 1))) (N.lxor (a 2) (a 3)).
(** FIPS 197, 5.1.4 *)
Definition AddRoundKey (R : rijndael) (w : list (list N)) (round : N) (s : cstate) : cstate :=
  fun r c => N.lxor (s r c) (at_ 0 (at_ [] w (round * Nb R + c)) r).

(** the state entering SubBytes of round n + 1 *)
Fixpoint before_sub (R : rijndael) (w : list (list N)) (s : cstate) (n : nat) : cstate :=
  match n with
  | O => AddRoundKey R w 0 s
  | S n' => AddRoundKey R w (N.of_nat n)
              (MixColumns (ShiftRows R (SubBytes (before_sub R w s n'))))
  end.

(** FIPS 197, 5.1, with key expansion *)
Definition Cipher (R : rijndael) (key inp : list N) : list N :=
  let w := KeyExpansion R key in
  store R (AddRoundKey R w (Nr R)
            (ShiftRows R (SubBytes (before_sub R w (load inp) (N.to_nat (Nr R - 1)))))).

(** some S-box of the key expansion is applied to a zero byte: word i - 1 is substituted when i is
    a multiple of Nk, and when Nk > 6 also when i = 4 modulo Nk *)
Definition zero_in_key_expansion (R : rijndael) (key : list N) : Prop :=
  exists i, Nk R <= i < Nb R * (Nr R + 1) /\
            (i mod Nk R = 0 \/ 6 < Nk R /\ i mod Nk R = 4) /\
            In 0 (at_ [] (KeyExpansion R key) (i - 1)).

(** some S-box of the encryption is applied to a zero byte *)
Definition zero_in_encryption (R : rijndael) (key inp : list N) : Prop :=
  exists n r c, (n < N.to_nat (Nr R))%nat /\ r < 4 /\ c < Nb R /\
                before_sub R (KeyExpansion R key) (load inp) n r c = 0.
