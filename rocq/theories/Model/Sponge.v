(** The Keccak sponge and the SHAKE contexts: sha3/KeccakSponge.inc, sha3/KeccakHash.c,
    hash_shake.h (build without OQS, without WITH_KECCAK_X4).

    The state is the array of 200 bytes.  SnP_AddBytes / SnP_ExtractBytes (SnP-Relaned.h with
    KeccakP-1600-opt64.c:98-177, 356-443) split an access into 64-bit lanes; on the little-endian
    target they xor, resp. copy, consecutive bytes of the state, which is how they are modelled.
    An access beyond the state is undefined behaviour.  The permutation is a Section variable,
    instantiated with [KeccakP1600_Permute_24rounds]. *)
From Verif.Model Require Export Base Keccak.

(** sha3/KeccakSponge.h KCP_DeclareSpongeStructure: state, rate (in bytes here), byteIOIndex,
    squeezing *)
Record sponge := mkSponge {
  sp_state : bytes; sp_rate : N; sp_idx : N; sp_squeezing : bool }.

(** SnP-Relaned.h:27-53 SnP_AddBytes(state, data, offset, length) *)
Definition SnP_AddBytes (st data : bytes) (offset : N) : res bytes :=
  let! old := slice st offset (lenN data) in
  blit st offset (xor_bytes old data).

(** KeccakP-1600-SnP.h:38 / KeccakP-1600-opt64.c:182-189 KeccakP1600_AddByte *)
Definition SnP_AddByte (st : bytes) (b offset : N) : res bytes :=
  let! old := aget st offset in
  aset st offset (N.lxor old b).

(** SnP-Relaned.h:83-109 SnP_ExtractBytes(state, data, offset, length): the bytes written *)
Definition SnP_ExtractBytes (st : bytes) (offset length : N) : res bytes := slice st offset length.

(** conversion to unsigned int *)
Definition u32 (x : N) : N := x mod 2 ^ 32.

Section Permutation.
Variable permute : bytes -> res bytes.

(** KeccakSponge.inc:134-148 SpongeInitialize (the failing branch, a rate or capacity other than
    those of SHAKE, cannot be reached from hash_init and is not modelled) *)
Definition SpongeInitialize (rate_bytes : N) : sponge :=
  mkSponge (zeros 200) rate_bytes 0 false.

(** KeccakP-1600-opt64.c:523-542 KeccakF1600_FastLoop_Absorb, equal to the loop at
    KeccakSponge.inc:175-182: absorbs full blocks while at least [rate] bytes remain; returns the
    state and the bytes not absorbed.  (The lanes are kept in registers between blocks; here
    they are stored back after each block.) *)
Fixpoint absorb_full (fuel : nat) (st : bytes) (rate : N) (data : bytes) : res (bytes * bytes) :=
  if rate <=? lenN data then
    match fuel with
    | O => UB
    | S f =>
        let! st := SnP_AddBytes st (takeN rate data) 0 in
        let! st := permute st in
        absorb_full f st rate (dropN rate data)
    end
  else Ok (st, data).

(** KeccakSponge.inc:163-205, the loop of SpongeAbsorb on the remaining data.
    partialBlock is an unsigned int: the conversion of the remaining length and the sum with
    byteIOIndex wrap modulo 2^32.  An iteration that consumes nothing repeats forever: such a run
    never returns and is counted as [UB]. *)
Fixpoint absorb_loop (fuel : nat) (sp : sponge) (data : bytes) : res sponge :=
  match data with
  | [] => Ok sp
  | _ =>
      match fuel with
      | O => UB
      | S f =>
          let rate := sp_rate sp in
          let idx := sp_idx sp in
          let remaining := lenN data in
          if (idx =? 0) && (rate <=? remaining) then
            let! r := absorb_full (length data) (sp_state sp) rate data in
            absorb_loop f (mkSponge (fst r) rate idx (sp_squeezing sp)) (snd r)
          else
            let partial := u32 remaining in
            let partial := if rate <? u32 (partial + idx) then rate - idx else partial in
            let! _ := guard (negb (partial =? 0)) in
            let! st := SnP_AddBytes (sp_state sp) (takeN partial data) idx in
            let idx := idx + partial in
            if idx =? rate then
              let! st := permute st in
              absorb_loop f (mkSponge st rate 0 (sp_squeezing sp)) (dropN partial data)
            else
              absorb_loop f (mkSponge st rate idx (sp_squeezing sp)) (dropN partial data)
      end
  end.

(** KeccakSponge.inc:152-207 SpongeAbsorb: (return value, instance) *)
Definition SpongeAbsorb (sp : sponge) (data : bytes) : res (N * sponge) :=
  if sp_squeezing sp then Ok (1, sp)
  else let! sp := absorb_loop (length data) sp data in Ok (0, sp).

(** KeccakSponge.inc:211-251 SpongeAbsorbLastFewBits *)
Definition SpongeAbsorbLastFewBits (sp : sponge) (delimitedData : N) : res (N * sponge) :=
  if delimitedData =? 0 then Ok (1, sp)
  else if sp_squeezing sp then Ok (1, sp)
  else
    let rate := sp_rate sp in
    let! st := SnP_AddByte (sp_state sp) delimitedData (sp_idx sp) in
    let! st := (if (128 <=? delimitedData) && (sp_idx sp =? rate - 1) then permute st else Ok st) in
    let! st := SnP_AddByte st 128 (rate - 1) in
    let! st := permute st in
    Ok (0, mkSponge st rate 0 true).

(** KeccakSponge.inc:268-277: permute and extract full blocks while at least [rate] bytes are
    wanted; (state, bytes written, number of bytes still wanted) *)
Fixpoint squeeze_full (fuel : nat) (st : bytes) (rate n : N) : res (bytes * bytes * N) :=
  if rate <=? n then
    match fuel with
    | O => UB
    | S f =>
        let! st := permute st in
        let! b := SnP_ExtractBytes st 0 rate in
        let! r := squeeze_full f st rate (n - rate) in
        Ok (fst (fst r), b ++ snd (fst r), snd r)
    end
  else Ok (st, [], n).

(** KeccakSponge.inc:264-299, the loop of SpongeSqueeze for [n] wanted bytes: (instance, bytes) *)
Fixpoint squeeze_loop (fuel : nat) (sp : sponge) (n : N) : res (sponge * bytes) :=
  if n =? 0 then Ok (sp, [])
  else
    match fuel with
    | O => UB
    | S f =>
        let rate := sp_rate sp in
        if (sp_idx sp =? rate) && (rate <=? n) then
          let! r := squeeze_full (N.to_nat n) (sp_state sp) rate n in
          let! r' := squeeze_loop f (mkSponge (fst (fst r)) rate (sp_idx sp) (sp_squeezing sp))
                       (snd r) in
          Ok (fst r', snd (fst r) ++ snd r')
        else
          let! si := (if sp_idx sp =? rate
                      then let! st := permute (sp_state sp) in Ok (st, 0)
                      else Ok (sp_state sp, sp_idx sp)) in
          let '(st, idx) := si in
          let partial := u32 n in
          let partial := if rate <? u32 (partial + idx) then rate - idx else partial in
          let! _ := guard (negb (partial =? 0)) in
          let! b := SnP_ExtractBytes st idx partial in
          let! r' := squeeze_loop f (mkSponge st rate (idx + partial) (sp_squeezing sp))
                       (n - partial) in
          Ok (fst r', b ++ snd r')
    end.

(** KeccakSponge.inc:255-301 SpongeSqueeze: (instance, bytes written) *)
Definition SpongeSqueeze (sp : sponge) (n : N) : res (sponge * bytes) :=
  let! sp := (if sp_squeezing sp then Ok sp
              else let! r := SpongeAbsorbLastFewBits sp 1 in Ok (snd r)) in
  squeeze_loop (N.to_nat n) sp n.

(** hash_shake.h:212-218 hash_init; KeccakHash.h:61,65: rate 1344 resp. 1088 bits, suffix 0x1F
    (constant in this program, so not stored in the instance) *)
Definition shake_rate (security_param : N) : N := if security_param =? 128 then 168 else 136.
Definition shake_suffix : N := 0x1f.
Definition hash_init (security_param : N) : sponge := SpongeInitialize (shake_rate security_param).

(** hash_shake.h:220-222 hash_update; KeccakHash.c:40-43 Keccak_HashUpdate for a multiple of
    8 bits.  (size << 3 does not overflow for the size of an object.)  The return value is
    ignored by hash_update. *)
Definition hash_update (sp : sponge) (data : bytes) : res sponge :=
  let! r := SpongeAbsorb sp data in Ok (snd r).

(** hash_shake.h:224-226 hash_final; KeccakHash.c:67-74 Keccak_HashFinal with
    fixedOutputLength = 0 *)
Definition hash_final (sp : sponge) : res sponge :=
  let! r := SpongeAbsorbLastFewBits sp shake_suffix in
  if fst r =? 0 then let! r' := SpongeSqueeze (snd r) 0 in Ok (fst r') else Ok (snd r).

(** hash_shake.h:228-230 hash_squeeze; KeccakHash.c:78-83 *)
Definition hash_squeeze (sp : sponge) (buflen : N) : res (sponge * bytes) :=
  SpongeSqueeze sp buflen.

(** the calls of one use of a context: initialise, absorb the given pieces, finalise, squeeze
    the given numbers of bytes; the outputs one after the other *)
Fixpoint hash_updates (sp : sponge) (pieces : list bytes) : res sponge :=
  match pieces with
  | [] => Ok sp
  | m :: ms => let! sp := hash_update sp m in hash_updates sp ms
  end.
Fixpoint hash_squeezes (sp : sponge) (lens : list N) : res (list bytes) :=
  match lens with
  | [] => Ok []
  | n :: ns =>
      let! r := hash_squeeze sp n in
      let! rest := hash_squeezes (fst r) ns in
      Ok (snd r :: rest)
  end.
Definition hash_run (security_param : N) (pieces : list bytes) (lens : list N)
  : res (list bytes) :=
  let! sp := hash_updates (hash_init security_param) pieces in
  let! sp := hash_final sp in
  hash_squeezes sp lens.

(** hash_shake.h:297-299 hash_context_x4 (build without WITH_KECCAK_X4): the four instances *)
Definition hash_context_x4 : Type := list sponge.
(** hash_shake.h:301-305 *)
Definition hash_init_x4 (security_param : N) : hash_context_x4 :=
  map (fun _ => hash_init security_param) [0; 1; 2; 3].
(** hash_shake.h:307-311 hash_update_x4; 313-320 hash_update_x4_4 with the array of its arguments;
    322-326 hash_update_x4_1 with an array of four times the same.  [data]: the four byte
    strings read *)
Definition hash_update_x4 (ctx : hash_context_x4) (data : list bytes) : res hash_context_x4 :=
  mapM (fun i => let! c := aget ctx i in let! d := aget data i in hash_update c d) [0; 1; 2; 3].
(** hash_shake.h:335-339 *)
Definition hash_final_x4 (ctx : hash_context_x4) : res hash_context_x4 :=
  mapM (fun i => let! c := aget ctx i in hash_final c) [0; 1; 2; 3].
(** hash_shake.h:341-354 hash_squeeze_x4, hash_squeeze_x4_4: (context, the four buffers) *)
Definition hash_squeeze_x4 (ctx : hash_context_x4) (buflen : N)
  : res (hash_context_x4 * list bytes) :=
  let! r := mapM (fun i => let! c := aget ctx i in hash_squeeze c buflen) [0; 1; 2; 3] in
  Ok (map fst r, map snd r).
(** the calls of one use of a context of four, as [hash_run] above *)
Fixpoint hash_updates_x4 (ctx : hash_context_x4) (pieces : list (list bytes))
  : res hash_context_x4 :=
  match pieces with
  | [] => Ok ctx
  | m :: ms => let! ctx := hash_update_x4 ctx m in hash_updates_x4 ctx ms
  end.
Fixpoint hash_squeezes_x4 (ctx : hash_context_x4) (lens : list N) : res (list (list bytes)) :=
  match lens with
  | [] => Ok []
  | n :: ns =>
      let! r := hash_squeeze_x4 ctx n in
      let! rest := hash_squeezes_x4 (fst r) ns in
      Ok (snd r :: rest)
  end.
Definition hash_run_x4 (security_param : N) (pieces : list (list bytes)) (lens : list N)
  : res (list (list bytes)) :=
  let! ctx := hash_updates_x4 (hash_init_x4 security_param) pieces in
  let! ctx := hash_final_x4 ctx in
  hash_squeezes_x4 ctx lens.

End Permutation.
