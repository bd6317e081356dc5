(** Four SHAKE contexts in one: sha3/KeccakSpongetimes4.inc, sha3/KeccakHashtimes4.c, hash_shake.h (build
    with WITH_KECCAK_X4, the default of meson.build:493-501) over the serial permutation of sha3/opt64
    (KeccakP-1600-times4-on1.c with PlSnP-Fallback.inc).

    PlSnP-Fallback.inc keeps the four states one after the other in memory (stateWithIndex) and applies
    the operation of the single state to the one selected; the memory is the list of the four states here. *)
From Verif.Model Require Export Base Keccak Sponge.

(** KeccakSpongetimes4.h: states, and rate (in bytes here), byteIOIndex, squeezing common to the four *)
Record sponge4 := mkSponge4 {
  s4_states : list bytes; s4_rate : N; s4_idx : N; s4_squeezing : bool }.

(** for (instanceIndex = 0; instanceIndex < 4; instanceIndex++): each iteration works on the state
    and pointer of its index only *)
Definition each4 {A} (f : N -> res A) : res (list A) := mapM f [0; 1; 2; 3].

(** PlSnP-Fallback.inc:92-99 PlSnP_AddBytes(states, instanceIndex, data, offset, length): the new
    state of the index; reads [length] bytes of [data] *)
Definition PlSnP_AddBytes (states : list bytes) (i : N) (data : bytes) (offset length : N) : res bytes :=
  let! st := aget states i in
  let! d := slice data 0 length in
  SnP_AddBytes st d offset.
(** PlSnP-Fallback.inc:83-90 PlSnP_AddByte *)
Definition PlSnP_AddByte (states : list bytes) (i b offset : N) : res bytes :=
  let! st := aget states i in SnP_AddByte st b offset.
(** PlSnP-Fallback.inc:205-212 PlSnP_ExtractBytes: the bytes written *)
Definition PlSnP_ExtractBytes (states : list bytes) (i offset length : N) : res bytes :=
  let! st := aget states i in SnP_ExtractBytes st offset length.

Section Permutation.
Variable permute : bytes -> res bytes.

(** PlSnP-Fallback.inc:147-158 PlSnP_PermuteAll *)
Definition PlSnP_Permute (states : list bytes) : res (list bytes) :=
  each4 (fun i => let! st := aget states i in permute st).

(** KeccakSpongetimes4.inc:38-51 SpongeInitialize (the failing branches cannot be reached from
    hash_init_x4); PlSnP-Fallback.inc:71-81 *)
Definition SpongeInitialize4 (rate_bytes : N) : sponge4 :=
  mkSponge4 (map (fun _ => zeros 200) [0; 1; 2; 3]) rate_bytes 0 false.

(** KeccakSpongetimes4.inc:85-91: full blocks (the fast loop is not compiled, KeccakSpongetimes4.c:27-30);
    (states, what the four pointers curData still have to read, j) *)
Fixpoint absorb_full4 (fuel : nat) (states : list bytes) (rate : N) (cur : list bytes) (j : N)
  : res (list bytes * list bytes * N) :=
  if rate <=? j then
    match fuel with
    | O => UB
    | S f =>
        let! states := each4 (fun i => let! d := aget cur i in PlSnP_AddBytes states i d 0 rate) in
        let! cur := each4 (fun i => let! d := aget cur i in Ok (dropN rate d)) in
        let! states := PlSnP_Permute states in
        absorb_full4 f states rate cur (j - rate)
    end
  else Ok (states, cur, j).

(** KeccakSpongetimes4.inc:71-114, the loop with [n] = dataByteLen - i bytes to go.  partialBlock is an
    unsigned int as in KeccakSponge.inc; an iteration that consumes nothing repeats forever and
    is counted as [UB]. *)
Fixpoint absorb_loop4 (fuel : nat) (sp : sponge4) (cur : list bytes) (n : N) : res sponge4 :=
  if n =? 0 then Ok sp
  else
    match fuel with
    | O => UB
    | S f =>
        let rate := s4_rate sp in
        let idx := s4_idx sp in
        if (idx =? 0) && (rate <=? n) then
          let! r := absorb_full4 (N.to_nat n) (s4_states sp) rate cur n in
          let '(states, cur, j) := r in
          absorb_loop4 f (mkSponge4 states rate idx (s4_squeezing sp)) cur j
        else
          let partial := u32 n in
          let partial := if rate <? u32 (partial + idx) then rate - idx else partial in
          let! _ := guard (negb (partial =? 0)) in
          let! states := each4 (fun i => let! d := aget cur i in
                                         PlSnP_AddBytes (s4_states sp) i d idx partial) in
          let! cur := each4 (fun i => let! d := aget cur i in Ok (dropN partial d)) in
          let idx := idx + partial in
          if idx =? rate then
            let! states := PlSnP_Permute states in
            absorb_loop4 f (mkSponge4 states rate 0 (s4_squeezing sp)) cur (n - partial)
          else
            absorb_loop4 f (mkSponge4 states rate idx (s4_squeezing sp)) cur (n - partial)
    end.

(** KeccakSpongetimes4.inc:55-116 SpongeAbsorb(instance, data, dataByteLen) *)
Definition SpongeAbsorb4 (sp : sponge4) (data : list bytes) (n : N) : res (N * sponge4) :=
  if s4_squeezing sp then Ok (1, sp)
  else
    let! cur := (if 0 <? n then each4 (fun i => aget data i) else Ok data) in
    let! sp := absorb_loop4 (N.to_nat n) sp cur n in Ok (0, sp).

(** KeccakSpongetimes4.inc:120-145 SpongeAbsorbLastFewBits *)
Definition SpongeAbsorbLastFewBits4 (sp : sponge4) (delimitedData : N) : res (N * sponge4) :=
  if delimitedData =? 0 then Ok (1, sp)
  else if s4_squeezing sp then Ok (1, sp)
  else
    let rate := s4_rate sp in
    let! st := each4 (fun i => PlSnP_AddByte (s4_states sp) i delimitedData (s4_idx sp)) in
    let! st := (if (128 <=? delimitedData) && (s4_idx sp =? rate - 1) then PlSnP_Permute st else Ok st) in
    let! st := each4 (fun i => PlSnP_AddByte st i 128 (rate - 1)) in
    let! st := PlSnP_Permute st in
    Ok (0, mkSponge4 st rate 0 true).

(** KeccakSpongetimes4.inc:167-173: full blocks; (states, bytes written to the four buffers, j) *)
Fixpoint squeeze_full4 (fuel : nat) (states : list bytes) (rate j : N)
  : res (list bytes * list bytes * N) :=
  if rate <=? j then
    match fuel with
    | O => UB
    | S f =>
        let! states := PlSnP_Permute states in
        let! b := each4 (fun i => PlSnP_ExtractBytes states i 0 rate) in
        let! r := squeeze_full4 f states rate (j - rate) in
        let '(states, out, j) := r in
        Ok (states, zipw (@app N) b out, j)
    end
  else Ok (states, [[]; []; []; []], j).

(** KeccakSpongetimes4.inc:165-193, the loop for [n] wanted bytes *)
Fixpoint squeeze_loop4 (fuel : nat) (sp : sponge4) (n : N) : res (sponge4 * list bytes) :=
  if n =? 0 then Ok (sp, [[]; []; []; []])
  else
    match fuel with
    | O => UB
    | S f =>
        let rate := s4_rate sp in
        if (s4_idx sp =? rate) && (rate <=? n) then
          let! r := squeeze_full4 (N.to_nat n) (s4_states sp) rate n in
          let '(states, out, j) := r in
          let! r' := squeeze_loop4 f (mkSponge4 states rate (s4_idx sp) (s4_squeezing sp)) j in
          Ok (fst r', zipw (@app N) out (snd r'))
        else
          let! si := (if s4_idx sp =? rate
                      then let! states := PlSnP_Permute (s4_states sp) in Ok (states, 0)
                      else Ok (s4_states sp, s4_idx sp)) in
          let '(states, idx) := si in
          let partial := u32 n in
          let partial := if rate <? u32 (partial + idx) then rate - idx else partial in
          let! _ := guard (negb (partial =? 0)) in
          let! b := each4 (fun i => PlSnP_ExtractBytes states i idx partial) in
          let! r' := squeeze_loop4 f (mkSponge4 states rate (idx + partial) (s4_squeezing sp))
                       (n - partial) in
          Ok (fst r', zipw (@app N) b (snd r'))
    end.

(** KeccakSpongetimes4.inc:149-195 SpongeSqueeze *)
Definition SpongeSqueeze4 (sp : sponge4) (n : N) : res (sponge4 * list bytes) :=
  let! sp := (if s4_squeezing sp then Ok sp
              else let! r := SpongeAbsorbLastFewBits4 sp 1 in Ok (snd r)) in
  squeeze_loop4 (N.to_nat n) sp n.

(** hash_shake.h:250-256 hash_init_x4; KeccakHashtimes4.h:52, 56; KeccakHashtimes4.c:24-36 *)
Definition hash_init_4 (security_param : N) : sponge4 := SpongeInitialize4 (shake_rate security_param).
(** hash_shake.h:258-260 hash_update_x4 (262-267 hash_update_x4_4, 269-272 hash_update_x4_1 pass an array of
    their arguments); KeccakHashtimes4.c:40-45 *)
Definition hash_update_4 (sp : sponge4) (data : list bytes) (size : N) : res sponge4 :=
  let! r := SpongeAbsorb4 sp data size in Ok (snd r).
(** hash_shake.h:280-282 hash_final_x4; KeccakHashtimes4.c:49-56 with fixedOutputLength = 0 *)
Definition hash_final_4 (sp : sponge4) : res sponge4 :=
  let! r := SpongeAbsorbLastFewBits4 sp shake_suffix in
  if fst r =? 0 then let! r' := SpongeSqueeze4 (snd r) 0 in Ok (fst r') else Ok (snd r).
(** hash_shake.h:284-292 hash_squeeze_x4, hash_squeeze_x4_4; KeccakHashtimes4.c:60-65 *)
Definition hash_squeeze_4 (sp : sponge4) (buflen : N) : res (sponge4 * list bytes) :=
  SpongeSqueeze4 sp buflen.

(** the calls of one use of a context, as [hash_run_x4] of Sponge.v; the size passed to an update is
    the length of the first of the four strings *)
Fixpoint hash_updates_4 (sp : sponge4) (pieces : list (list bytes)) : res sponge4 :=
  match pieces with
  | [] => Ok sp
  | m :: ms =>
      let! m0 := aget m 0 in
      let! sp := hash_update_4 sp m (lenN m0) in hash_updates_4 sp ms
  end.
Fixpoint hash_squeezes_4 (sp : sponge4) (lens : list N) : res (list (list bytes)) :=
  match lens with
  | [] => Ok []
  | n :: ns =>
      let! r := hash_squeeze_4 sp n in
      let! rest := hash_squeezes_4 (fst r) ns in
      Ok (snd r :: rest)
  end.
Definition hash_run_4 (security_param : N) (pieces : list (list bytes)) (lens : list N)
  : res (list (list bytes)) :=
  let! sp := hash_updates_4 (hash_init_4 security_param) pieces in
  let! sp := hash_final_4 sp in
  hash_squeezes_4 sp lens.

End Permutation.
