(** Access to the Keccak state through lanes, on targets of either byte order: sha3/SnP-Relaned.h and
    sha3/opt64/KeccakP-1600-opt64.c, KeccakP-1600-SnP.h, KeccakP-1600-64.macros.  (Keccak.v and
    Sponge.v describe the same code on the 200 bytes of a little-endian target.)

    The state is the array of 25 uint64_t.  Where the code reads integers from bytes or bytes from
    integers by casting pointers, the order of the bytes is that of the target ([val_of], [mem_of]).
    Misaligned accesses are taken to work (the branches for NO_MISALIGNED_ACCESSES are not modelled: no
    build defines that macro). *)
From Verif.Model Require Export Base Keccak Compat.

(** what KeccakSponge.inc uses of an implementation of the permutation: SnP_Initialize, SnP_AddByte,
    SnP_AddBytes (state, data, offset; length = |data|), SnP_ExtractBytes (state, offset, length),
    SnP_Permute, SnP_FastLoop_Absorb (state, laneCount, data: new state and bytes consumed) if defined *)
Record snp := mkSnp {
  snp_state : Type;
  snp_init : snp_state;
  snp_add_byte : snp_state -> N -> N -> res snp_state;
  snp_add_bytes : snp_state -> bytes -> N -> res snp_state;
  snp_extract : snp_state -> N -> N -> res bytes;
  snp_permute : snp_state -> res snp_state;
  snp_fast_loop : option (snp_state -> N -> bytes -> res (snp_state * N)) }.

Section Relaned.
Variable St : Type.
(** (state, data, laneCount), (state, lanePosition, data, offset, length), (state, laneCount), (state,
    lanePosition, offset, length) *)
Variable AddLanes : St -> bytes -> N -> res St.
Variable AddBytesInLane : St -> N -> bytes -> N -> N -> res St.
Variable ExtractLanes : St -> N -> res bytes.
Variable ExtractBytesInLane : St -> N -> N -> N -> res bytes.

(** SnP-Relaned.h:41-50, the loop *)
Fixpoint relaned_add (fuel : nat) (s : St) (lanePosition offsetInLane : N) (curData : bytes) (sizeLeft : N)
  : res St :=
  if sizeLeft =? 0 then Ok s
  else
    match fuel with
    | O => UB
    | S f =>
        let bytesInLane := 8 - offsetInLane in
        let bytesInLane := if sizeLeft <? bytesInLane then sizeLeft else bytesInLane in
        let! s := AddBytesInLane s lanePosition curData offsetInLane bytesInLane in
        relaned_add f s (lanePosition + 1) 0 (dropN bytesInLane curData) (sizeLeft - bytesInLane)
    end.
(** SnP-Relaned.h:27-53 SnP_AddBytes with lanes of 8 bytes *)
Definition relaned_AddBytes (s : St) (data : bytes) (offset length : N) : res St :=
  if offset =? 0 then
    let! s := AddLanes s data (length / 8) in
    AddBytesInLane s (length / 8) (dropN (length / 8 * 8) data) 0 (length mod 8)
  else relaned_add (N.to_nat length) s (offset / 8) (offset mod 8) data length.

(** SnP-Relaned.h:97-106, the loop: the bytes written *)
Fixpoint relaned_extract (fuel : nat) (s : St) (lanePosition offsetInLane sizeLeft : N) : res bytes :=
  if sizeLeft =? 0 then Ok []
  else
    match fuel with
    | O => UB
    | S f =>
        let bytesInLane := 8 - offsetInLane in
        let bytesInLane := if sizeLeft <? bytesInLane then sizeLeft else bytesInLane in
        let! b := ExtractBytesInLane s lanePosition offsetInLane bytesInLane in
        let! r := relaned_extract f s (lanePosition + 1) 0 (sizeLeft - bytesInLane) in
        Ok (b ++ r)
    end.
(** SnP-Relaned.h:83-109 SnP_ExtractBytes *)
Definition relaned_ExtractBytes (s : St) (offset length : N) : res bytes :=
  if offset =? 0 then
    let! a := ExtractLanes s (length / 8) in
    let! b := ExtractBytesInLane s (length / 8) 0 (length mod 8) in
    Ok (a ++ b)
  else relaned_extract (N.to_nat length) s (offset / 8) (offset mod 8) length.
End Relaned.

(** * sha3/opt64 *)

(** state[i] ^= lane *)
Definition xor_lane (s : list N) (i lane : N) : res (list N) :=
  let! old := aget s i in aset s i (N.lxor old lane).
(** ((uint64_t* )p)[i] *)
Definition word_at (e : endian) (p : bytes) (i : N) : res N :=
  let! b := slice p (8 * i) 8 in Ok (val_of e b).
(** x << n on uint64_t *)
Definition shl64 (x n : N) : res N :=
  let! _ := guard (n <? 64) in Ok (N.shiftl x n mod 2 ^ 64).
(** x >> n on uint64_t *)
Definition shr64 (x n : N) : res N :=
  let! _ := guard (n <? 64) in Ok (N.shiftr x n).
(** b0 | b1 << 8 | ... of the bytes read one by one *)
Definition or_bytes (data : bytes) (count offset : N) : res N :=
  foldM (fun lane i => let! b := aget data i in let! x := shl64 b ((i + offset) * 8) in Ok (N.lor lane x))
        (Nrange count) 0.

(** KeccakP-1600-opt64.c:85-96 KeccakP1600_Initialize *)
Definition init64 : list N := repeat 0 25.

(** KeccakP-1600-opt64.c:100-120 KeccakP1600_AddBytesInLane *)
Definition AddBytesInLane64 (e : endian) (s : list N) (lanePosition : N) (data : bytes) (offset length : N)
  : res (list N) :=
  match e with
  | LittleEndian =>
      if length =? 0 then Ok s
      else
        let! lane := (if length =? 1 then aget data 0
                      else let! d := slice data 0 length in
                           let! m := blit (mem_of e 8 0) 0 d in
                           Ok (val_of e m)) in
        let! lane := shl64 lane (offset * 8) in
        xor_lane s lanePosition lane
  | BigEndian =>
      let! lane := or_bytes data length offset in
      xor_lane s lanePosition lane
  end.

(** KeccakP-1600-opt64.c:139-148, 149-154, 155-158: for ( ; (i+k)<=laneCount; i+=k), with the [k] assignments *)
Fixpoint add_unrolled (fuel : nat) (k : N) (e : endian) (s : list N) (data : bytes) (laneCount i : N)
  : res (list N * N) :=
  if i + k <=? laneCount then
    match fuel with
    | O => UB
    | S f =>
        let! s := foldM (fun s j => let! w := word_at e data (i + j) in xor_lane s (i + j) w) (Nrange k) s in
        add_unrolled f k e s data laneCount (i + k)
    end
  else Ok (s, i).
(** KeccakP-1600-opt64.c:124-178 KeccakP1600_AddLanes *)
Definition AddLanes64 (e : endian) (s : list N) (data : bytes) (laneCount : N) : res (list N) :=
  match e with
  | LittleEndian =>
      let! r := add_unrolled (N.to_nat laneCount) 8 e s data laneCount 0 in let '(s, i) := r in
      let! r := add_unrolled (N.to_nat laneCount) 4 e s data laneCount i in let '(s, i) := r in
      let! r := add_unrolled (N.to_nat laneCount) 2 e s data laneCount i in let '(s, i) := r in
      if i <? laneCount then let! w := word_at e data i in xor_lane s i w else Ok s
  | BigEndian =>
      foldM (fun s i =>
               let! d := slice data (8 * i) 8 in
               let! lane := or_bytes d 8 0 in
               xor_lane s i lane) (Nrange laneCount) s
  end.

(** KeccakP-1600-SnP.h:37-39 (macro) and KeccakP-1600-opt64.c:182-189 KeccakP1600_AddByte *)
Definition AddByte64 (e : endian) (s : list N) (byte offset : N) : res (list N) :=
  match e with
  | LittleEndian =>
      let! w := aget s (offset / 8) in
      let m := mem_of e 8 w in
      let! old := aget m (offset mod 8) in
      let! m := aset m (offset mod 8) (N.lxor old byte) in
      aset s (offset / 8) (val_of e m)
  | BigEndian =>
      let! lane := shl64 byte (offset mod 8 * 8) in
      xor_lane s (offset / 8) lane
  end.

(** KeccakP-1600-opt64.c:193-196 KeccakP1600_AddBytes *)
Definition AddBytes64 (e : endian) (s : list N) (data : bytes) (offset : N) : res (list N) :=
  relaned_AddBytes _ (AddLanes64 e) (AddBytesInLane64 e) s data offset (lenN data).

(** KeccakP-1600-opt64.c:388-391, the loop: low byte, shift, [n] times *)
Fixpoint low_bytes (n : nat) (lane : N) : bytes :=
  match n with
  | O => []
  | S n => N.land lane 0xff :: low_bytes n (N.shiftr lane 8)
  end.
(** KeccakP-1600-opt64.c:372-393 KeccakP1600_ExtractBytesInLane *)
Definition ExtractBytesInLane64 (e : endian) (s : list N) (lanePosition offset length : N) : res bytes :=
  let! lane := aget s lanePosition in
  match e with
  | LittleEndian => slice (mem_of e 8 lane) offset length
  | BigEndian =>
      let! lane := shr64 lane (offset * 8) in
      Ok (low_bytes (N.to_nat length) lane)
  end.
(** KeccakP-1600-opt64.c:398-404 fromWordToBytes *)
Definition fromWordToBytes (word : N) : bytes :=
  map (fun i => N.land (N.shiftr word (8 * i)) 0xff) (Nrange 8).
(** KeccakP-1600-opt64.c:407-437 KeccakP1600_ExtractLanes (no lane complementing) *)
Definition ExtractLanes64 (e : endian) (s : list N) (laneCount : N) : res bytes :=
  match e with
  | LittleEndian => slice (flat_map (mem_of e 8) s) 0 (laneCount * 8)
  | BigEndian =>
      let! l := mapM (fun i => let! w := aget s i in Ok (fromWordToBytes w)) (Nrange laneCount) in
      Ok (concat l)
  end.
(** KeccakP-1600-opt64.c:441-444 KeccakP1600_ExtractBytes *)
Definition ExtractBytes64 (e : endian) (s : list N) (offset length : N) : res bytes :=
  relaned_ExtractBytes _ (ExtractLanes64 e) (ExtractBytesInLane64 e) s offset length.

(** KeccakP-1600-64.macros:461-486 copyFromState and 488-513 copyToState on the array of lanes *)
Definition lanes_of_array (s : list N) : res lanes :=
  match s with
  | [Aba; Abe; Abi; Abo; Abu; Aga; Age; Agi; Ago; Agu; Aka; Ake; Aki; Ako; Aku; Ama; Ame; Ami; Amo; Amu; Asa; Ase; Asi; Aso; Asu] =>
      Ok (Lanes Aba Abe Abi Abo Abu Aga Age Agi Ago Agu Aka Ake Aki Ako Aku Ama Ame Ami Amo Amu Asa Ase Asi Aso Asu)
  | _ => UB
  end.
Definition array_of_lanes (A : lanes) : list N :=
  let '(Lanes Aba Abe Abi Abo Abu Aga Age Agi Ago Agu Aka Ake Aki Ako Aku Ama Ame Ami Amo Amu Asa Ase Asi Aso Asu) := A in
  [Aba; Abe; Abi; Abo; Abu; Aga; Age; Agi; Ago; Agu; Aka; Ake; Aki; Ako; Aku; Ama; Ame; Ami; Amo; Amu; Asa; Ase; Asi; Aso; Asu].

(** KeccakP-1600-opt64.c:342-353 KeccakP1600_Permute_24rounds on the array of lanes *)
Definition Permute64 (s : list N) : res (list N) :=
  let! A := lanes_of_array s in
  let! A := rounds24 A in
  Ok (array_of_lanes A).

(** KeccakP-1600-64.macros:542-734 addInput(X, input, laneCount): the numbers of the lanes xored, in order;
    each X##.. ^= HTOLE64(input[i]) *)
Definition addInput_lanes (laneCount : N) : list N :=
  (if laneCount =? 21 then [0; 1; 2; 3; 4; 5; 6; 7; 8; 9; 10; 11; 12; 13; 14; 15; 16; 17; 18; 19; 20]
   else (if laneCount <? 16 then (if laneCount <? 8 then (if laneCount <? 4 then (if laneCount <? 2 then (if laneCount <? 1 then []
        else [0])
       else [0; 1] ++
       (if laneCount <? 3 then []
        else [2]))
      else [0; 1; 2; 3] ++
      (if laneCount <? 6 then (if laneCount <? 5 then []
        else [4])
       else [4; 5] ++
       (if laneCount <? 7 then []
        else [6])))
     else [0; 1; 2; 3; 4; 5; 6; 7] ++
     (if laneCount <? 12 then (if laneCount <? 10 then (if laneCount <? 9 then []
        else [8])
       else [8; 9] ++
       (if laneCount <? 11 then []
        else [10]))
      else [8; 9; 10; 11] ++
      (if laneCount <? 14 then (if laneCount <? 13 then []
        else [12])
       else [12; 13] ++
       (if laneCount <? 15 then []
        else [14]))))
    else [0; 1; 2; 3; 4; 5; 6; 7; 8; 9; 10; 11; 12; 13; 14; 15] ++
    (if laneCount <? 24 then (if laneCount <? 20 then (if laneCount <? 18 then (if laneCount <? 17 then []
        else [16])
       else [16; 17] ++
       (if laneCount <? 19 then []
        else [18]))
      else [16; 17; 18; 19] ++
      (if laneCount <? 22 then (if laneCount <? 21 then []
        else [20])
       else [20; 21] ++
       (if laneCount <? 23 then []
        else [22])))
     else [16; 17; 18; 19; 20; 21; 22; 23] ++
     (if laneCount <? 25 then []
      else [24])))).
Definition addInput (e : endian) (A : lanes) (input : bytes) (laneCount : N) : res lanes :=
  let! s := foldM (fun s i => let! w := word_at e input i in xor_lane s i (le64 e w))
                  (addInput_lanes laneCount) (array_of_lanes A) in
  lanes_of_array s.
(** KeccakP-1600-opt64.c:534-539, the loop: (A, dataByteLen) *)
Fixpoint fast_loop (fuel : nat) (e : endian) (A : lanes) (laneCount : N) (data : bytes) (dataByteLen : N)
  : res (lanes * N) :=
  if laneCount * 8 <=? dataByteLen then
    match fuel with
    | O => UB
    | S f =>
        let! A := addInput e A data laneCount in
        let! A := rounds24 A in
        fast_loop f e A laneCount (dropN (8 * laneCount) data) (dataByteLen - laneCount * 8)
    end
  else Ok (A, dataByteLen).
(** KeccakP-1600-opt64.c:523-542 KeccakF1600_FastLoop_Absorb *)
Definition KeccakF1600_FastLoop_Absorb (e : endian) (s : list N) (laneCount : N) (data : bytes)
  : res (list N * N) :=
  let! A := lanes_of_array s in
  let! r := fast_loop (length data) e A laneCount data (lenN data) in
  Ok (array_of_lanes (fst r), lenN data - snd r).

(** sha3/opt64 on a target of byte order [e]: KeccakSponge.c:77-93 with KeccakP-1600-SnP.h *)
Definition opt64 (e : endian) : snp :=
  mkSnp (list N) init64 (AddByte64 e) (AddBytes64 e) (ExtractBytes64 e) Permute64
        (Some (KeccakF1600_FastLoop_Absorb e)).
