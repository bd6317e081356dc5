(** AES and Rijndael: aes.c, aes.h, the helpers of compat.h it uses, and the witness expansion. *)
From Verif.Model Require Export Base Params Fields.

(** aes.h:19 [aes_word_t]: one column of the state, four bytes *)
Inductive word := W (b0 b1 b2 b3 : N).

(** the four bytes of a word in memory order *)
Definition word_bytes (w : word) : bytes :=
  match w with W a b c d => [a; b; c; d] end.

(** utils.h:17-21 [xor_u8_array] on one word (length AES_NR = 4) *)
Definition xor_word (x y : word) : word :=
  match x, y with
  | W a b c d, W a' b' c' d' => W (N.lxor a a') (N.lxor b b') (N.lxor c c') (N.lxor d d')
  end.

(** aes.c:32-35 *)
Definition round_constants : list N :=
  [0x01; 0x02; 0x04; 0x08; 0x10; 0x20; 0x40; 0x80; 0x1b; 0x36; 0x6c; 0xd8; 0xab; 0x4d; 0x9a;
   0x2f; 0x5e; 0xbc; 0x63; 0xc6; 0x97; 0x35; 0x6a; 0xd4; 0xb3; 0x7d; 0xfa; 0xef; 0xc5; 0x91].

(** aes.c:37-39 *)
Definition contains_zero (w : word) : bool :=
  match w with W a b c d => (a =? 0) || (b =? 0) || (c =? 0) || (d =? 0) end.

(** compat.h:208-213, the portable [parity8]; the builtins used by GCC and Clang compute the same
    function (compat.h:203-206) and are not modelled.  [!((~n) & 1)] is bit 0 of n. *)
Definition parity8 (n : N) : N :=
  let n := N.lxor n (N.shiftr n 4) in
  let n := N.lxor n (N.shiftr n 2) in
  let n := N.lxor n (N.shiftr n 1) in
  N.land n 1.

(** utils.h:31 *)
Definition set_bit (value index : N) : N := N.shiftl value index.

(** aes.c:41-60 (the masks are written as the numbers they denote) *)
Definition compute_sbox (x : N) : N :=
  let t := bf8_inv x in
  let t0 := set_bit (parity8 (N.land t 0xf1)) 0 in
  let t0 := N.lxor t0 (set_bit (parity8 (N.land t 0xe3)) 1) in
  let t0 := N.lxor t0 (set_bit (parity8 (N.land t 0xc7)) 2) in
  let t0 := N.lxor t0 (set_bit (parity8 (N.land t 0x8f)) 3) in
  let t0 := N.lxor t0 (set_bit (parity8 (N.land t 0x1f)) 4) in
  let t0 := N.lxor t0 (set_bit (parity8 (N.land t 0x3e)) 5) in
  let t0 := N.lxor t0 (set_bit (parity8 (N.land t 0x7c)) 6) in
  let t0 := N.lxor t0 (set_bit (parity8 (N.land t 0xf8)) 7) in
  N.lxor t0 0x63.

(** aes.c:62-71: [n] is the loop variable i *)
Fixpoint aes_increment_iv_from (n : nat) (iv : bytes) : res bytes :=
  match n with
  | O => Ok iv
  | S n' =>
      let! b := aget iv (N.of_nat n') in
      if b =? 0xff
      then let! iv' := aset iv (N.of_nat n') 0 in aes_increment_iv_from n' iv'
      else aset iv (N.of_nat n') (b + 1)
  end.
Definition aes_increment_iv (iv : bytes) : res bytes := aes_increment_iv_from 16 iv.

(** aes.h:27-32 [aes_round_keys_t]: round_keys[15][8], words not yet written are [None] *)
Definition round_keys := list (option word).
Definition rk_empty : round_keys := repeat None (15 * 8)%nat.
(** round_keys[r][c] *)
Definition rk_get (rk : round_keys) (r c : N) : res word :=
  let! _ := guard ((r <? 15) && (c <? 8)) in ginit rk (8 * r + c).
(** round_keys[r][c] = w *)
Definition rk_set (rk : round_keys) (r c : N) (w : word) : res round_keys :=
  let! _ := guard ((r <? 15) && (c <? 8)) in aset rk (8 * r + c) (Some w).

(** aes.h:25 [aes_block_t]: the model holds the block_words words in use (of the 8 allocated) *)
Definition state := list word.

(** aes.c:75-80 *)
Definition add_round_key (round : N) (st : state) (rk : round_keys) (bw : N) : res state :=
  mapM (fun c =>
          let! s := aget st c in
          let! k := rk_get rk round c in
          Ok (xor_word s k)) (Nrange bw).

(** aes.c:88-90 and 140-145 [sub_words]: the S-box on the four bytes of a word *)
Definition sub_word (w : word) : word :=
  match w with
  | W a b c d => W (compute_sbox a) (compute_sbox b) (compute_sbox c) (compute_sbox d)
  end.

(** aes.c:82-93: new state and whether some byte was zero *)
Definition sub_bytes (st : state) (bw : N) : res (state * bool) :=
  foldM (fun '(acc, ret) c =>
           let! s := aget st c in
           Ok (acc ++ [sub_word s], ret || contains_zero s)) (Nrange bw) ([], false).

Definition byte0 (w : word) := match w with W a _ _ _ => a end.
Definition byte1 (w : word) := match w with W _ b _ _ => b end.
Definition byte2 (w : word) := match w with W _ _ c _ => c end.
Definition byte3 (w : word) := match w with W _ _ _ d => d end.

(** aes.c:95-120; for a block size other than 4, 6, 8 the C code copies an uninitialised block *)
Definition shift_row (st : state) (bw : N) : res state :=
  let! shifts :=
    (match bw with
     | 4 | 6 => Ok (1, 2, 3)
     | 8 => Ok (1, 3, 4)
     | _ => UB
     end) in
  let '(s1, s2, s3) := shifts in
  mapM (fun i =>
          let! w0 := aget st i in
          let! w1 := aget st ((i + s1) mod bw) in
          let! w2 := aget st ((i + s2) mod bw) in
          let! w3 := aget st ((i + s3) mod bw) in
          Ok (W (byte0 w0) (byte1 w1) (byte2 w2) (byte3 w3))) (Nrange bw).

(** aes.c:124-136, one column *)
Definition mix_word (w : word) : word :=
  match w with
  | W a b c d =>
      W (N.lxor (N.lxor (N.lxor (bf8_mul a 2) (bf8_mul b 3)) c) d)
        (N.lxor (N.lxor (N.lxor a (bf8_mul b 2)) (bf8_mul c 3)) d)
        (N.lxor (N.lxor (N.lxor a b) (bf8_mul c 2)) (bf8_mul d 3))
        (N.lxor (N.lxor (N.lxor (bf8_mul a 3) b) c) (bf8_mul d 2))
  end.

(** aes.c:122-137 *)
Definition mix_column (st : state) (bw : N) : res state :=
  mapM (fun c => let! s := aget st c in Ok (mix_word s)) (Nrange bw).

(** aes.c:147-153 *)
Definition rot_word (w : word) : word :=
  match w with W a b c d => W b c d a end.

(** the four bytes src[off] .. src[off+3] as a word (bf8_load is a byte read, fields.h:63-65) *)
Definition load_word (src : bytes) (off : N) : res word :=
  let! a := aget src off in
  let! b := aget src (off + 1) in
  let! c := aget src (off + 2) in
  let! d := aget src (off + 3) in
  Ok (W a b c d).

(** aes.c:159-164, one iteration of the first loop *)
Definition expand_key_copy (key : bytes) (bw : N) (rk : round_keys) (k : N) : res round_keys :=
  let! w := load_word key (4 * k) in
  rk_set rk (k / bw) (k mod bw) w.

(** aes.c:166-191, one iteration of the second loop; the state also carries [ret] *)
Definition expand_key_step (kw bw : N) (st : round_keys * bool) (k : N) : res (round_keys * bool) :=
  let '(rk, ret) := st in
  let! tmp := rk_get rk ((k - 1) / bw) ((k - 1) mod bw) in
  let! tr1 :=
    (if k mod kw =? 0
     then let tmp := rot_word tmp in
          let ret := ret || contains_zero tmp in
          let tmp := sub_word tmp in
          let! rc := aget round_constants (k / kw - 1) in
          Ok (xor_word tmp (W rc 0 0 0), ret)
     else Ok (tmp, ret)) in
  let '(tmp, ret) := tr1 in
  let '(tmp, ret) :=
    (if (6 <? kw) && (k mod kw =? 4)
     then (sub_word tmp, ret || contains_zero tmp)
     else (tmp, ret)) in
  let m := k - kw in
  let! wm := rk_get rk (m / bw) (m mod bw) in
  let! rk := rk_set rk (k / bw) (k mod bw) (xor_word wm tmp) in
  Ok (rk, ret).

(** aes.c:155-194 *)
Definition expand_key (key : bytes) (kw bw nr : N) : res (round_keys * bool) :=
  let! rk := foldM (expand_key_copy key bw) (Nrange kw) rk_empty in
  foldM (expand_key_step kw bw) (Nfromto kw (bw * (nr + 1))) (rk, false).

(** the five ciphers: key words, block words, rounds (aes.c:20-30) *)
Record cipher := mkCipher { c_kw : N; c_bw : N; c_nr : N }.
Definition aes128 := mkCipher 4 4 10.
Definition aes192 := mkCipher 6 4 12.
Definition aes256 := mkCipher 8 4 14.
Definition rijndael192 := mkCipher 6 6 12.
Definition rijndael256 := mkCipher 8 8 14.

(** aes.c:198-216 aes128_init_round_keys .. rijndael256_init_round_keys *)
Definition init_round_keys (c : cipher) (key : bytes) : res (round_keys * bool) :=
  expand_key key (c_kw c) (c_bw c) (c_nr c).

(** aes.c:218-222 (the byte loop is grouped by words); reads src[off ..] *)
Definition load_state (src : bytes) (off bw : N) : res state :=
  mapM (fun i => load_word src (off + 4 * i)) (Nrange bw).

(** aes.c:224-228: the 4 * block_words bytes written *)
Definition store_state (st : state) : bytes := concat (map word_bytes st).

(** aes.c:237-242, one inner round *)
Definition aes_round (rk : round_keys) (bw : N) (s : state * bool) (round : N)
  : res (state * bool) :=
  let '(st, ret) := s in
  let! sb := sub_bytes st bw in
  let '(st, z) := sb in
  let! st := shift_row st bw in
  let! st := mix_column st bw in
  let! st := add_round_key round st rk bw in
  Ok (st, ret || z).

(** aes.c:230-250 *)
Definition aes_encrypt (rk : round_keys) (st : state) (bw nr : N) : res (state * bool) :=
  let! st := add_round_key 0 st rk bw in
  let! s := foldM (aes_round rk bw) (Nfromto 1 nr) (st, false) in
  let '(st, ret) := s in
  let! sb := sub_bytes st bw in
  let '(st, z) := sb in
  let! st := shift_row st bw in
  let! st := add_round_key nr st rk bw in
  Ok (st, ret || z).

(** aes.c:252-295 aes128_encrypt_block .. rijndael256_encrypt_block; [off] is the offset of the
    plaintext pointer; result: ciphertext and return value *)
Definition encrypt_block (c : cipher) (rk : round_keys) (pt : bytes) (off : N)
  : res (bytes * bool) :=
  let! st := load_state pt off (c_bw c) in
  let! r := aes_encrypt rk st (c_bw c) (c_nr c) in
  Ok (store_state (fst r), snd r).

(** aes.c:304, 325, 346: the cipher selected by seclvl *)
Definition prg_cipher (seclvl : N) : cipher :=
  match seclvl with 256 => aes256 | 192 => aes192 | _ => aes128 end.

(** aes.c:306-312: one full block of output; state (counter, output so far) *)
Definition prg_block (c : cipher) (rk : round_keys) (s : bytes * bytes) (_ : N)
  : res (bytes * bytes) :=
  let '(iv, out) := s in
  let! b := encrypt_block c rk iv 0 in
  let! iv := aes_increment_iv iv in
  Ok (iv, out ++ fst b).

(** aes.c:297-359 (the build without OpenSSL; lines 360-390 are not modelled): the outlen bytes
    written.  [key] and [iv] are the arrays the pointers point to. *)
Definition prg (key iv : bytes) (seclvl outlen : N) : res bytes :=
  let! internal_iv := slice iv 0 16 in
  let c := prg_cipher seclvl in
  let! r := init_round_keys c key in
  let rk := fst r in
  let! s := foldM (prg_block c rk) (Nrange (outlen / 16)) (internal_iv, []) in
  let '(iv', out) := s in
  if outlen mod 16 =? 0 then Ok out
  else let! b := encrypt_block c rk iv' 0 in
       Ok (out ++ takeN (outlen mod 16) (fst b)).

(** memcpy(w, chunk, |chunk|); w += |chunk| in a buffer of [cap] bytes *)
Definition w_append (cap : N) (w chunk : bytes) : res bytes :=
  let! _ := guard (lenN w + lenN chunk <=? cap) in Ok (w ++ chunk).

(** aes.c:400-418: (block_words, beta) by parameter identifier *)
Definition witness_shape (i : paramid) : N * N :=
  match i with
  | FAEST_192F | FAEST_192S | FAEST_256F | FAEST_256S => (4, 2)
  | FAEST_EM_192F | FAEST_EM_192S => (6, 1)
  | FAEST_EM_256F | FAEST_EM_256S => (8, 1)
  | _ => (4, 1)
  end.

(** aes.c:428-445: the key schedule selected by lambda and block_words *)
Definition witness_cipher (lambda bw : N) : cipher :=
  match lambda with
  | 256 => if bw =? 8 then rijndael256 else aes256
  | 192 => if bw =? 6 then rijndael192 else aes192
  | _ => aes128
  end.

(** aes.c:478-490, one round of the witness expansion: state (cipher state, witness so far) *)
Definition witness_round (rk : round_keys) (bw cap : N) (s : state * bytes) (round : N)
  : res (state * bytes) :=
  let '(st, w) := s in
  let! sb := sub_bytes st bw in
  let! st := shift_row (fst sb) bw in
  let! w := w_append cap w (store_state st) in
  let! st := mix_column st bw in
  let! st := add_round_key round st rk bw in
  Ok (st, w).

(** aes.c:393-498; [key] and [inp] are the two pointer arguments; the result is the malloc'd
    buffer up to the last byte written *)
Definition aes_extend_witness (i : paramid) (key inp : bytes) : res bytes :=
  let p := param_of i in
  let cap := (p_l p + 7) / 8 in
  let '(bw, beta) := witness_shape i in
  let '(key, inp) := if p_Lke p =? 0 then (inp, key) else (key, inp) in
  let c := witness_cipher (p_lambda p) bw in
  let! r := init_round_keys c key in
  let rk := fst r in
  let! w :=
    (if 0 <? p_Lke p then
       let! w := foldM (fun w i =>
                          let! x := rk_get rk (i / 4) (i mod 4) in
                          w_append cap w (word_bytes x)) (Nrange (p_Nwd p)) [] in
       let! s := foldM (fun '(w, ik) (_ : N) =>
                          let! x := rk_get rk (ik / 4) (ik mod 4) in
                          let! w := w_append cap w (word_bytes x) in
                          Ok (w, ik + (if p_lambda p =? 192 then 6 else 4)))
                       (Nrange (p_Ske p / 4)) (w, p_Nwd p) in
       Ok (fst s)
     else
       let! k := slice inp 0 (p_lambda p / 8) in
       w_append cap [] k) in
  foldM (fun w b =>
           let! st := load_state inp (4 * bw * b) bw in
           let! st := add_round_key 0 st rk bw in
           let! s := foldM (witness_round rk bw cap) (Nfromto 1 (p_R p)) (st, w) in
           Ok (snd s))
        (Nrange beta) w.
