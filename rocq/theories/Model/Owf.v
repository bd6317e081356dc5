(** One-way functions: owf.c, and the dispatch to them in the generated key functions. *)
From Verif.Model Require Export Aes.

(** owf.c:12-33 owf_128, owf_192, owf_256: (output, accepted); [nblocks] is 1, 2, 2 *)
Definition owf_aes (c : cipher) (nblocks : N) (key input : bytes) : res (bytes * bool) :=
  let! r := init_round_keys c key in
  let '(rk, ret) := r in
  foldM (fun '(out, ok) b =>
           let! e := encrypt_block c rk input (16 * b) in
           Ok (out ++ fst e, ok && negb (snd e)))
        (Nrange nblocks) ([], negb ret).

(** owf.c:35-63 owf_em_128, owf_em_192, owf_em_256: the key schedule of [input] encrypts [key];
    its return value is ignored *)
Definition owf_em (c : cipher) (key input : bytes) : res (bytes * bool) :=
  let! r := init_round_keys c input in
  let! e := encrypt_block c (fst r) key 0 in
  let! k := slice key 0 (4 * c_bw c) in
  Ok (xor_bytes (fst e) k, negb (snd e)).

(** the OWF macro of each parameter set (meson.build:112-398, used in faest_param.c.in) *)
Definition owf (i : paramid) (key input : bytes) : res (bytes * bool) :=
  match i with
  | FAEST_128S | FAEST_128F => owf_aes aes128 1 key input
  | FAEST_192S | FAEST_192F => owf_aes aes192 2 key input
  | FAEST_256S | FAEST_256F => owf_aes aes256 2 key input
  | FAEST_EM_128S | FAEST_EM_128F => owf_em aes128 key input
  | FAEST_EM_192S | FAEST_EM_192F => owf_em rijndael192 key input
  | FAEST_EM_256S | FAEST_EM_256F => owf_em rijndael256 key input
  end.
