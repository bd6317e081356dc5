(** The Keccak sponge and the SHAKE contexts of KeccakSponge.inc, KeccakHash.c, KeccakSpongetimes4.inc,
    KeccakHashtimes4.c and hash_shake.h as in Sponge.v and Sponge4.v, but over any implementation of the
    permutation and its state (sha3/opt64 or sha3/plain32, on a target of either byte order): the state is
    only touched through the functions of [snp]. *)
From Verif.Model Require Export Base Snp Keccak32 Sponge Sponge4.

Section On.
Variable I : snp.
Notation state := (snp_state I).
Notation permute := (snp_permute I).

(** sha3/KeccakSponge.h KCP_DeclareSpongeStructure: state, rate (in bytes here), byteIOIndex, squeezing *)
Record sponge_on := mkSpongeOn { so_state : state; so_rate : N; so_idx : N; so_squeezing : bool }.

(** KeccakSponge.inc:134-148 SpongeInitialize *)
Definition SpongeInitialize_on (rate_bytes : N) : sponge_on := mkSpongeOn (snp_init I) rate_bytes 0 false.

(** KeccakSponge.inc:175-182, the loop: (state, what curData still has to read) *)
Fixpoint absorb_blocks_on (fuel : nat) (st : state) (rate : N) (data : bytes) : res (state * bytes) :=
  if rate <=? lenN data then
    match fuel with
    | O => UB
    | S f =>
        let! st := snp_add_bytes I st (takeN rate data) 0 in
        let! st := permute st in
        absorb_blocks_on f st rate (dropN rate data)
    end
  else Ok (st, data).
(** KeccakSponge.inc:165-186: with SnP_FastLoop_Absorb if there is one and the rate is a whole number of lanes *)
Definition absorb_full_on (st : state) (rate : N) (data : bytes) : res (state * bytes) :=
  match snp_fast_loop I with
  | Some fast =>
      if rate mod 8 =? 0 then
        let! r := fast st (rate / 8) data in
        Ok (fst r, dropN (snd r) data)
      else absorb_blocks_on (length data) st rate data
  | None => absorb_blocks_on (length data) st rate data
  end.

(** KeccakSponge.inc:163-205, as [absorb_loop] of Sponge.v *)
Fixpoint absorb_loop_on (fuel : nat) (sp : sponge_on) (data : bytes) : res sponge_on :=
  match data with
  | [] => Ok sp
  | _ =>
      match fuel with
      | O => UB
      | S f =>
          let rate := so_rate sp in
          let idx := so_idx sp in
          let remaining := lenN data in
          if (idx =? 0) && (rate <=? remaining) then
            let! r := absorb_full_on (so_state sp) rate data in
            absorb_loop_on f (mkSpongeOn (fst r) rate idx (so_squeezing sp)) (snd r)
          else
            let partial := u32 remaining in
            let partial := if rate <? u32 (partial + idx) then rate - idx else partial in
            let! _ := guard (negb (partial =? 0)) in
            let! st := snp_add_bytes I (so_state sp) (takeN partial data) idx in
            let idx := idx + partial in
            if idx =? rate then
              let! st := permute st in
              absorb_loop_on f (mkSpongeOn st rate 0 (so_squeezing sp)) (dropN partial data)
            else
              absorb_loop_on f (mkSpongeOn st rate idx (so_squeezing sp)) (dropN partial data)
      end
  end.

(** KeccakSponge.inc:152-207 SpongeAbsorb *)
Definition SpongeAbsorb_on (sp : sponge_on) (data : bytes) : res (N * sponge_on) :=
  if so_squeezing sp then Ok (1, sp)
  else let! sp := absorb_loop_on (length data) sp data in Ok (0, sp).

(** KeccakSponge.inc:211-251 SpongeAbsorbLastFewBits *)
Definition SpongeAbsorbLastFewBits_on (sp : sponge_on) (delimitedData : N) : res (N * sponge_on) :=
  if delimitedData =? 0 then Ok (1, sp)
  else if so_squeezing sp then Ok (1, sp)
  else
    let rate := so_rate sp in
    let! st := snp_add_byte I (so_state sp) delimitedData (so_idx sp) in
    let! st := (if (128 <=? delimitedData) && (so_idx sp =? rate - 1) then permute st else Ok st) in
    let! st := snp_add_byte I st 128 (rate - 1) in
    let! st := permute st in
    Ok (0, mkSpongeOn st rate 0 true).

(** KeccakSponge.inc:268-277, as [squeeze_full] of Sponge.v *)
Fixpoint squeeze_full_on (fuel : nat) (st : state) (rate n : N) : res (state * bytes * N) :=
  if rate <=? n then
    match fuel with
    | O => UB
    | S f =>
        let! st := permute st in
        let! b := snp_extract I st 0 rate in
        let! r := squeeze_full_on f st rate (n - rate) in
        Ok (fst (fst r), b ++ snd (fst r), snd r)
    end
  else Ok (st, [], n).

(** KeccakSponge.inc:264-299, as [squeeze_loop] of Sponge.v *)
Fixpoint squeeze_loop_on (fuel : nat) (sp : sponge_on) (n : N) : res (sponge_on * bytes) :=
  if n =? 0 then Ok (sp, [])
  else
    match fuel with
    | O => UB
    | S f =>
        let rate := so_rate sp in
        if (so_idx sp =? rate) && (rate <=? n) then
          let! r := squeeze_full_on (N.to_nat n) (so_state sp) rate n in
          let! r' := squeeze_loop_on f (mkSpongeOn (fst (fst r)) rate (so_idx sp) (so_squeezing sp))
                       (snd r) in
          Ok (fst r', snd (fst r) ++ snd r')
        else
          let! si := (if so_idx sp =? rate
                      then let! st := permute (so_state sp) in Ok (st, 0)
                      else Ok (so_state sp, so_idx sp)) in
          let '(st, idx) := si in
          let partial := u32 n in
          let partial := if rate <? u32 (partial + idx) then rate - idx else partial in
          let! _ := guard (negb (partial =? 0)) in
          let! b := snp_extract I st idx partial in
          let! r' := squeeze_loop_on f (mkSpongeOn st rate (idx + partial) (so_squeezing sp))
                       (n - partial) in
          Ok (fst r', b ++ snd r')
    end.

(** KeccakSponge.inc:255-301 SpongeSqueeze *)
Definition SpongeSqueeze_on (sp : sponge_on) (n : N) : res (sponge_on * bytes) :=
  let! sp := (if so_squeezing sp then Ok sp
              else let! r := SpongeAbsorbLastFewBits_on sp 1 in Ok (snd r)) in
  squeeze_loop_on (N.to_nat n) sp n.

(** hash_shake.h:212-218, 220-222, 224-226, 228-230, as in Sponge.v *)
Definition hash_init_on (security_param : N) : sponge_on := SpongeInitialize_on (shake_rate security_param).
Definition hash_update_on (sp : sponge_on) (data : bytes) : res sponge_on :=
  let! r := SpongeAbsorb_on sp data in Ok (snd r).
Definition hash_final_on (sp : sponge_on) : res sponge_on :=
  let! r := SpongeAbsorbLastFewBits_on sp shake_suffix in
  if fst r =? 0 then let! r' := SpongeSqueeze_on (snd r) 0 in Ok (fst r') else Ok (snd r).
Definition hash_squeeze_on (sp : sponge_on) (buflen : N) : res (sponge_on * bytes) :=
  SpongeSqueeze_on sp buflen.

(** the calls of one use of a context, as [hash_run] of Sponge.v *)
Fixpoint hash_updates_on (sp : sponge_on) (pieces : list bytes) : res sponge_on :=
  match pieces with
  | [] => Ok sp
  | m :: ms => let! sp := hash_update_on sp m in hash_updates_on sp ms
  end.
Fixpoint hash_squeezes_on (sp : sponge_on) (lens : list N) : res (list bytes) :=
  match lens with
  | [] => Ok []
  | n :: ns =>
      let! r := hash_squeeze_on sp n in
      let! rest := hash_squeezes_on (fst r) ns in
      Ok (snd r :: rest)
  end.
Definition hash_run_on (security_param : N) (pieces : list bytes) (lens : list N) : res (list bytes) :=
  let! sp := hash_updates_on (hash_init_on security_param) pieces in
  let! sp := hash_final_on sp in
  hash_squeezes_on sp lens.

(** * four states: KeccakSpongetimes4.inc over KeccakP-1600-times4-on1.c with PlSnP-Fallback.inc (the same
      files in sha3/opt64 and sha3/plain32) *)
Record sponge4_on := mkSponge4On {
  o4_states : list state; o4_rate : N; o4_idx : N; o4_squeezing : bool }.

(** PlSnP-Fallback.inc:92-99, 83-90, 205-212, 147-158 *)
Definition PlSnP_AddBytes_on (states : list state) (i : N) (data : bytes) (offset length : N) : res state :=
  let! st := aget states i in
  let! d := slice data 0 length in
  snp_add_bytes I st d offset.
Definition PlSnP_AddByte_on (states : list state) (i b offset : N) : res state :=
  let! st := aget states i in snp_add_byte I st b offset.
Definition PlSnP_ExtractBytes_on (states : list state) (i offset length : N) : res bytes :=
  let! st := aget states i in snp_extract I st offset length.
Definition PlSnP_Permute_on (states : list state) : res (list state) :=
  each4 (fun i => let! st := aget states i in permute st).

(** KeccakSpongetimes4.inc:38-51 *)
Definition SpongeInitialize4_on (rate_bytes : N) : sponge4_on :=
  mkSponge4On (map (fun _ => snp_init I) [0; 1; 2; 3]) rate_bytes 0 false.

(** KeccakSpongetimes4.inc:85-91 *)
Fixpoint absorb_full4_on (fuel : nat) (states : list state) (rate : N) (cur : list bytes) (j : N)
  : res (list state * list bytes * N) :=
  if rate <=? j then
    match fuel with
    | O => UB
    | S f =>
        let! states := each4 (fun i => let! d := aget cur i in PlSnP_AddBytes_on states i d 0 rate) in
        let! cur := each4 (fun i => let! d := aget cur i in Ok (dropN rate d)) in
        let! states := PlSnP_Permute_on states in
        absorb_full4_on f states rate cur (j - rate)
    end
  else Ok (states, cur, j).

(** KeccakSpongetimes4.inc:71-114 *)
Fixpoint absorb_loop4_on (fuel : nat) (sp : sponge4_on) (cur : list bytes) (n : N) : res sponge4_on :=
  if n =? 0 then Ok sp
  else
    match fuel with
    | O => UB
    | S f =>
        let rate := o4_rate sp in
        let idx := o4_idx sp in
        if (idx =? 0) && (rate <=? n) then
          let! r := absorb_full4_on (N.to_nat n) (o4_states sp) rate cur n in
          let '(states, cur, j) := r in
          absorb_loop4_on f (mkSponge4On states rate idx (o4_squeezing sp)) cur j
        else
          let partial := u32 n in
          let partial := if rate <? u32 (partial + idx) then rate - idx else partial in
          let! _ := guard (negb (partial =? 0)) in
          let! states := each4 (fun i => let! d := aget cur i in
                                         PlSnP_AddBytes_on (o4_states sp) i d idx partial) in
          let! cur := each4 (fun i => let! d := aget cur i in Ok (dropN partial d)) in
          let idx := idx + partial in
          if idx =? rate then
            let! states := PlSnP_Permute_on states in
            absorb_loop4_on f (mkSponge4On states rate 0 (o4_squeezing sp)) cur (n - partial)
          else
            absorb_loop4_on f (mkSponge4On states rate idx (o4_squeezing sp)) cur (n - partial)
    end.

(** KeccakSpongetimes4.inc:55-116 SpongeAbsorb *)
Definition SpongeAbsorb4_on (sp : sponge4_on) (data : list bytes) (n : N) : res (N * sponge4_on) :=
  if o4_squeezing sp then Ok (1, sp)
  else
    let! cur := (if 0 <? n then each4 (fun i => aget data i) else Ok data) in
    let! sp := absorb_loop4_on (N.to_nat n) sp cur n in Ok (0, sp).

(** KeccakSpongetimes4.inc:120-145 SpongeAbsorbLastFewBits *)
Definition SpongeAbsorbLastFewBits4_on (sp : sponge4_on) (delimitedData : N) : res (N * sponge4_on) :=
  if delimitedData =? 0 then Ok (1, sp)
  else if o4_squeezing sp then Ok (1, sp)
  else
    let rate := o4_rate sp in
    let! st := each4 (fun i => PlSnP_AddByte_on (o4_states sp) i delimitedData (o4_idx sp)) in
    let! st := (if (128 <=? delimitedData) && (o4_idx sp =? rate - 1) then PlSnP_Permute_on st else Ok st) in
    let! st := each4 (fun i => PlSnP_AddByte_on st i 128 (rate - 1)) in
    let! st := PlSnP_Permute_on st in
    Ok (0, mkSponge4On st rate 0 true).

(** KeccakSpongetimes4.inc:167-173 *)
Fixpoint squeeze_full4_on (fuel : nat) (states : list state) (rate j : N)
  : res (list state * list bytes * N) :=
  if rate <=? j then
    match fuel with
    | O => UB
    | S f =>
        let! states := PlSnP_Permute_on states in
        let! b := each4 (fun i => PlSnP_ExtractBytes_on states i 0 rate) in
        let! r := squeeze_full4_on f states rate (j - rate) in
        let '(states, out, j) := r in
        Ok (states, zipw (@app N) b out, j)
    end
  else Ok (states, [[]; []; []; []], j).

(** KeccakSpongetimes4.inc:165-193 *)
Fixpoint squeeze_loop4_on (fuel : nat) (sp : sponge4_on) (n : N) : res (sponge4_on * list bytes) :=
  if n =? 0 then Ok (sp, [[]; []; []; []])
  else
    match fuel with
    | O => UB
    | S f =>
        let rate := o4_rate sp in
        if (o4_idx sp =? rate) && (rate <=? n) then
          let! r := squeeze_full4_on (N.to_nat n) (o4_states sp) rate n in
          let '(states, out, j) := r in
          let! r' := squeeze_loop4_on f (mkSponge4On states rate (o4_idx sp) (o4_squeezing sp)) j in
          Ok (fst r', zipw (@app N) out (snd r'))
        else
          let! si := (if o4_idx sp =? rate
                      then let! states := PlSnP_Permute_on (o4_states sp) in Ok (states, 0)
                      else Ok (o4_states sp, o4_idx sp)) in
          let '(states, idx) := si in
          let partial := u32 n in
          let partial := if rate <? u32 (partial + idx) then rate - idx else partial in
          let! _ := guard (negb (partial =? 0)) in
          let! b := each4 (fun i => PlSnP_ExtractBytes_on states i idx partial) in
          let! r' := squeeze_loop4_on f (mkSponge4On states rate (idx + partial) (o4_squeezing sp))
                       (n - partial) in
          Ok (fst r', zipw (@app N) b (snd r'))
    end.

(** KeccakSpongetimes4.inc:149-195 SpongeSqueeze *)
Definition SpongeSqueeze4_on (sp : sponge4_on) (n : N) : res (sponge4_on * list bytes) :=
  let! sp := (if o4_squeezing sp then Ok sp
              else let! r := SpongeAbsorbLastFewBits4_on sp 1 in Ok (snd r)) in
  squeeze_loop4_on (N.to_nat n) sp n.

(** hash_shake.h:250-256, 258-260, 280-282, 284-292, as in Sponge4.v *)
Definition hash_init_4_on (security_param : N) : sponge4_on := SpongeInitialize4_on (shake_rate security_param).
Definition hash_update_4_on (sp : sponge4_on) (data : list bytes) (size : N) : res sponge4_on :=
  let! r := SpongeAbsorb4_on sp data size in Ok (snd r).
Definition hash_final_4_on (sp : sponge4_on) : res sponge4_on :=
  let! r := SpongeAbsorbLastFewBits4_on sp shake_suffix in
  if fst r =? 0 then let! r' := SpongeSqueeze4_on (snd r) 0 in Ok (fst r') else Ok (snd r).
Definition hash_squeeze_4_on (sp : sponge4_on) (buflen : N) : res (sponge4_on * list bytes) :=
  SpongeSqueeze4_on sp buflen.

(** the calls of one use of a context, as [hash_run_4] of Sponge4.v *)
Fixpoint hash_updates_4_on (sp : sponge4_on) (pieces : list (list bytes)) : res sponge4_on :=
  match pieces with
  | [] => Ok sp
  | m :: ms =>
      let! m0 := aget m 0 in
      let! sp := hash_update_4_on sp m (lenN m0) in hash_updates_4_on sp ms
  end.
Fixpoint hash_squeezes_4_on (sp : sponge4_on) (lens : list N) : res (list (list bytes)) :=
  match lens with
  | [] => Ok []
  | n :: ns =>
      let! r := hash_squeeze_4_on sp n in
      let! rest := hash_squeezes_4_on (fst r) ns in
      Ok (snd r :: rest)
  end.
Definition hash_run_4_on (security_param : N) (pieces : list (list bytes)) (lens : list N)
  : res (list (list bytes)) :=
  let! sp := hash_updates_4_on (hash_init_4_on security_param) pieces in
  let! sp := hash_final_4_on sp in
  hash_squeezes_4_on sp lens.
End On.
