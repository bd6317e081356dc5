(** The public API: faest_param.c.in (instantiated for each parameter set), crypto_sign.c.in,
    compat.c (timingsafe_bcmp, explicit_bzero) and randomness.c.

    A pointer argument is [None] for NULL, else [Some b] with [b] the bytes of the object it
    points to.  C int return values are in [Z].  faest_declassify has no effect outside the
    valgrind-based tests and is not modelled. *)
From Verif.Model Require Export Base Params Owf Faest.

(** compat.c:113-126 faest_timingsafe_bcmp(a, b, len), portable branch: the value of [res] *)
Definition timingsafe_bcmp (a b : bytes) (len : N) : res N :=
  foldM (fun r i =>
           let! x := aget a i in
           let! y := aget b i in
           Ok (N.lor r (N.lxor x y))) (Nrange len) 0.

(** compat.c:134-144 faest_explicit_bzero(a, len), portable branch *)
Definition explicit_bzero (a : bytes) (len : N) : res bytes :=
  foldM (fun m i => aset m i 0) (Nrange len) a.

(** randomness.c: rand_bytes(dst, len).  The operating system is an arbitrary function: call
    number [k] on a buffer with contents [old] (len bytes) returns whether rand_bytes returned 0
    and the new contents of the buffer.  (randomness.c:40-46: on failure or a short read
    getrandom leaves part or all of the buffer as it was.) *)
Definition rng : Type := N -> bytes -> bool * bytes.

(** faest_param.c.in:20-26 layout of the keys *)
Definition half (i : paramid) : N := pk_size i / 2.
Definition SK_INPUT (i : paramid) (sk : bytes) : res bytes := slice sk 0 (half i).
Definition SK_KEY (i : paramid) (sk : bytes) : res bytes :=
  slice sk (half i) (p_lambda (param_of i) / 8).
Definition PK_INPUT (i : paramid) (pk : bytes) : res bytes := slice pk 0 (half i).
Definition PK_OUTPUT (i : paramid) (pk : bytes) : res bytes := slice pk (half i) (half i).

(** faest_param.c.in:33-40, the loop of keygen: [fuel] iterations at most, [None] if the loop is
    still running then.  State: number [k] of the next call of the RNG, pk, sk.  The result of
    rand_bytes is not looked at. *)
Fixpoint keygen_loop (i : paramid) (os : rng) (fuel : nat) (k : N) (pk sk : bytes)
  : res (option (N * bytes * bytes)) :=
  match fuel with
  | O => Ok None
  | S f =>
      let! old := slice sk 0 (sk_size i) in
      let! sk := blit sk 0 (snd (os k old)) in
      let! key := SK_KEY i sk in
      let! inp := SK_INPUT i sk in
      let! r := owf i key inp in
      let! pk := blit pk (half i) (fst r) in
      if snd r then Ok (Some (k + 1, pk, sk)) else keygen_loop i os f (k + 1) pk sk
  end.

(** faest_param.c.in:28-46 keygen: [Ok None] if the loop has not ended after [fuel] iterations,
    else (return value, pk, sk) *)
Definition keygen (i : paramid) (os : rng) (fuel : nat) (pk sk : option bytes)
  : res (option (Z * option bytes * option bytes)) :=
  match pk, sk with
  | Some pkb, Some skb =>
      let! r := keygen_loop i os fuel 0 pkb skb in
      match r with
      | None => Ok None
      | Some (_, pkb, skb) =>
          let! inp := slice skb 0 (half i) in
          let! pkb := blit pkb 0 inp in
          Ok (Some (0%Z, Some pkb, Some skb))
      end
  | _, _ => Ok (Some ((-1)%Z, pk, sk))
  end.

(** faest_param.c.in:48-61 validate_keypair *)
Definition validate_keypair (i : paramid) (pk sk : option bytes) : res Z :=
  match sk, pk with
  | Some skb, Some pkb =>
      let! key := SK_KEY i skb in
      let! inp := SK_INPUT i skb in
      let! r := owf i key inp in
      if snd r then
        let! inp := slice skb 0 (half i) in
        let pk_check := inp ++ fst r in
        let! d := timingsafe_bcmp pk_check pkb (pk_size i) in
        Ok (if d =? 0 then 0%Z else 2%Z)
      else Ok 1%Z
  | _, _ => Ok (-1)%Z
  end.

(** the [len] bytes at a message pointer; a NULL pointer may be passed with length 0 *)
Definition read_msg (msg : option bytes) (len : N) : res bytes :=
  match msg with
  | Some m => slice m 0 len
  | None => if len =? 0 then Ok [] else UB
  end.

Section Xof.
Variable xof : N -> bytes -> N -> bytes.

(** faest_param.c.in:63-81 sign_with_randomness: (return value, signature buffer,
    *signature_len) *)
Definition sign_with_randomness (i : paramid) (sk message : option bytes) (message_len : N)
    (rho : option bytes) (rho_len : N) (signature : option bytes) (signature_len : option N)
  : res (Z * option bytes * option N) :=
  let fail := Ok ((-1)%Z, signature, signature_len) in
  match sk, signature, signature_len with
  | Some skb, Some sigb, Some n =>
      if (n <? sig_size i) || (match rho with None => negb (rho_len =? 0) | Some _ => false end)
      then fail
      else
        let! key := SK_KEY i skb in
        let! inp := SK_INPUT i skb in
        let! r := owf i key inp in
        if snd r then
          let! m := read_msg message message_len in
          let! rh := match rho with
                     | Some rb => let! x := slice rb 0 rho_len in Ok (Some x)
                     | None => Ok None
                     end in
          let! sg := slice sigb 0 (sig_size i) in
          let! sg := faest_sign xof i sg m key inp (fst r) rh in
          let! sigb := blit sigb 0 sg in
          Ok (0%Z, Some sigb, Some (sig_size i))
        else fail
  | _, _, _ => fail
  end.

(** faest_param.c.in:83-92 sign; [stack] is the (indeterminate) initial contents of the local
    buffer rho, [os] the random number generator.  Its result is not looked at. *)
Definition sign (i : paramid) (os : rng) (stack : bytes) (sk message : option bytes)
    (message_len : N) (signature : option bytes) (signature_len : option N)
  : res (Z * option bytes * option N) :=
  match sk, signature, signature_len with
  | Some _, Some _, Some n =>
      if n <? sig_size i then Ok ((-1)%Z, signature, signature_len)
      else
        let! old := slice stack 0 (p_lambda (param_of i) / 8) in
        let rho := snd (os 0 old) in
        sign_with_randomness i sk message message_len (Some rho) (p_lambda (param_of i) / 8)
          signature signature_len
  | _, _, _ => Ok ((-1)%Z, signature, signature_len)
  end.

(** faest_param.c.in:94-101 verify *)
Definition verify (i : paramid) (pk message : option bytes) (message_len : N)
    (signature : option bytes) (signature_len : N) : res Z :=
  match pk, signature with
  | Some pkb, Some sigb =>
      if negb (signature_len =? sig_size i) then Ok (-1)%Z
      else
        let! m := read_msg message message_len in
        let! sg := slice sigb 0 (sig_size i) in
        let! inp := PK_INPUT i pkb in
        let! out := PK_OUTPUT i pkb in
        let! b := faest_verify xof i m sg inp out in
        Ok (if b then 0%Z else (-1)%Z)
  | _, _ => Ok (-1)%Z
  end.

(** faest_param.c.in:103-105 clear_private_key; a NULL pointer is dereferenced *)
Definition clear_private_key (i : paramid) (key : option bytes) : res bytes :=
  match key with
  | Some k => explicit_bzero k (sk_size i)
  | None => UB
  end.

(** crypto_sign.c.in:19-21 *)
Definition crypto_sign_keypair (i : paramid) (os : rng) (fuel : nat) (pk sk : option bytes)
  : res (option (Z * option bytes * option bytes)) := keygen i os fuel pk sk.

(** memmove(mem + dst, mem + src, n) *)
Definition memmove (mem : bytes) (dst src n : N) : res bytes :=
  let! s := slice mem src n in blit mem dst s.

(** crypto_sign.c.in:23-30 crypto_sign(sm, &smlen, m, mlen, sk).  The caller's memory is one byte
    array [mem]; sm and m are positions in it, so the buffers may overlap; the key is given by
    its contents (it does not overlap the output).  Result: return value, memory, smlen. *)
Definition crypto_sign (i : paramid) (os : rng) (stack mem : bytes) (sm m mlen : N) (sk : bytes)
  : res (Z * bytes * N) :=
  let smlen := mlen + sig_size i in
  let! mem := memmove mem sm m mlen in
  let! msg := slice mem sm mlen in
  let! sg := slice mem (sm + mlen) (sig_size i) in
  let! r := sign i os stack (Some sk) (Some msg) mlen (Some sg) (Some (sig_size i)) in
  let '(ret, sg', _) := r in
  let! mem := match sg' with Some s => blit mem (sm + mlen) s | None => Ok mem end in
  Ok (ret, mem, smlen).

(** crypto_sign.c.in:32-46 crypto_sign_open(m, &mlen, sm, smlen, pk); [mlen0] is the previous
    value of *mlen.  Result: return value, memory, *mlen. *)
Definition crypto_sign_open (i : paramid) (mem : bytes) (m mlen0 sm smlen : N) (pk : bytes)
  : res (Z * bytes * N) :=
  if smlen <? sig_size i then Ok ((-1)%Z, mem, mlen0)
  else
    let m_length := smlen - sig_size i in
    let! msg := slice mem sm m_length in
    let! sg := slice mem (sm + m_length) (sig_size i) in
    let! r := verify i (Some pk) (Some msg) m_length (Some sg) (sig_size i) in
    if negb (r =? 0)%Z then Ok ((-1)%Z, mem, mlen0)
    else
      let! mem := memmove mem m sm m_length in
      Ok (0%Z, mem, m_length).

End Xof.
