(** Random oracles: random_oracle.c / random_oracle.h.

    [xof sec m n] stands for the first [n] bytes squeezed from SHAKE128 ([sec] = 128) or SHAKE256
    ([sec] = 256) after absorbing [m]; it is a Section variable here, instantiated by the
    Keccak sponge of Sponge.v in the final theorems.  That feeding the input in pieces and
    squeezing the output in pieces computes [xof] of the concatenation is proved for the
    sponge code (property C33). *)
From Verif.Model Require Export Base.

(** a hash context: the SHAKE instance selected at initialisation and the bytes absorbed so far *)
Record hctx := mkH { h_sec : N; h_data : bytes }.

(** random_oracle.c:17-19, 54-56, 70-72, 86-88: H0_init .. H3_init *)
Definition H_init (security_param : N) : hctx :=
  mkH (if security_param =? 128 then 128 else 256) [].

(** random_oracle.c:21-23, 58-60, 74-76, 90-92: H0_update .. H3_update.
    [src] is the byte string read (callers take the slice of their buffer). *)
Definition H_update (c : hctx) (src : bytes) : hctx := mkH (h_sec c) (h_data c ++ src).

(** The same for data of a length chosen by the caller of the library.  SpongeAbsorb
    (sha3/KeccakSponge.inc:187-189) computes the number of bytes to absorb in an unsigned int;
    [absorb_defined rate idx len] tells whether absorbing [len] bytes at byteIOIndex [idx] stays
    within the state and terminates (proved equivalent to the behaviour of the sponge code in
    Proof/SpongeProof.v).  Everywhere else in the library the lengths are far below 2^32. *)
Definition absorb_defined (rate idx len : N) : bool :=
  let r := len mod 2 ^ 32 in
  (idx =? 0) || (rate <? (r + idx) mod 2 ^ 32) ||
  ((r + idx <=? rate) && ((len <? 2 ^ 32) || (r + idx =? rate))).
(** hash_shake.h:212-218 with KeccakHash.h:61,65: the rate in bytes *)
Definition h_rate (c : hctx) : N := if h_sec c =? 128 then 168 else 136.
Definition H_update_any (c : hctx) (src : bytes) : res hctx :=
  let! _ := guard (absorb_defined (h_rate c) (lenN (h_data c) mod h_rate c) (lenN src)) in
  Ok (H_update c src).

(** random_oracle.c:11-14 *)
Definition domain_sep_H0 : N := 0.
Definition domain_sep_H1 : N := 1.
Definition domain_sep_H2 : N := 2.
Definition domain_sep_H3 : N := 3.

Section Xof.
Variable xof : N -> bytes -> N -> bytes.

(** hash_final followed by squeezing [n] bytes, after absorbing the domain separator *)
Definition H_squeeze (c : hctx) (dom : N) (n : N) : bytes :=
  xof (h_sec c) (h_data (H_update c [dom])) n.

(** random_oracle.c:25-32: (seed, commitment) *)
Definition H0_final (c : hctx) (seed_len commitment_len : N) : bytes * bytes :=
  let out := H_squeeze c domain_sep_H0 (seed_len + commitment_len) in
  (takeN seed_len out, dropN seed_len out).

(** random_oracle.c:62-67 *)
Definition H1_final (c : hctx) (len : N) : bytes := H_squeeze c domain_sep_H1 len.

(** random_oracle.c:78-83 *)
Definition H2_final (c : hctx) (len : N) : bytes := H_squeeze c domain_sep_H2 len.

(** random_oracle.c:94-100: (digest, iv) *)
Definition H3_final (c : hctx) (len : N) : bytes * bytes :=
  let out := H_squeeze c domain_sep_H3 (len + 16) in
  (takeN len out, dropN len out).

(** random_oracle.c:34-51 with hash_shake.h (the generic build, where a x4 context is four
    contexts processed one after the other): four independent instances.  The AVX2 code
    (KeccakP-1600-times4) is not modelled. *)
Record hctx4 := mkH4 { h4_0 : hctx; h4_1 : hctx; h4_2 : hctx; h4_3 : hctx }.
(** random_oracle.c:34-36 *)
Definition H0_x4_init (security_param : N) : hctx4 :=
  mkH4 (H_init security_param) (H_init security_param) (H_init security_param)
       (H_init security_param).
(** random_oracle.c:38-41 *)
Definition H0_x4_update (c : hctx4) (s0 s1 s2 s3 : bytes) : hctx4 :=
  mkH4 (H_update (h4_0 c) s0) (H_update (h4_1 c) s1) (H_update (h4_2 c) s2)
       (H_update (h4_3 c) s3).
(** random_oracle.c:43-51: (seed, commitment) of the four lanes *)
Definition H0_x4_final (c : hctx4) (seed_len commitment_len : N) : list (bytes * bytes) :=
  [H0_final (h4_0 c) seed_len commitment_len; H0_final (h4_1 c) seed_len commitment_len;
   H0_final (h4_2 c) seed_len commitment_len; H0_final (h4_3 c) seed_len commitment_len].

End Xof.
