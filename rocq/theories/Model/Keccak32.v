(** The Keccak-f[1600] permutation and the access to its state as implemented by
    sha3/plain32/KeccakP-1600-inplace32BI.c, the implementation chosen for targets with pointers of 32 bits
    (meson.build:483-490).  The state is an array of 50 uint32_t: words 2i and 2i + 1 hold the bits of
    even and of odd position of lane i.

    The C macros are rendered assignment by assignment: each C assignment is one [let].  Misaligned accesses
    are taken to work, as in Snp.v. *)
From Verif.Model Require Export Base Keccak Compat Snp.

(** conversion to uint32_t *)
Definition w32 (x : N) : N := x mod 2 ^ 32.
(** ~a on uint32_t *)
Definition not32 (a : N) : N := N.lnot a 32.
(** KeccakP-1600-inplace32BI.c:31 ROL32(a, offset), for 0 < offset < 32 *)
Definition ROL32 (a offset : N) : N :=
  N.lxor (w32 (N.shiftl a offset)) (N.shiftr a (32 - offset)).

(** temp = (x ^ (x >> k)) & mask;  x = x ^ temp ^ (temp << k) *)
Definition swap_bits (k mask x : N) : N :=
  let temp := N.land (N.lxor x (N.shiftr x k)) mask in
  N.lxor (N.lxor x temp) (w32 (N.shiftl temp k)).

(** KeccakP-1600-inplace32BI.c:34-44 prepareToBitInterleaving: (temp0, temp1) *)
Definition prepareToBitInterleaving (low high : N) : N * N :=
  let temp0 := low in
  let temp0 := swap_bits 1 0x22222222 temp0 in
  let temp0 := swap_bits 2 0x0C0C0C0C temp0 in
  let temp0 := swap_bits 4 0x00F000F0 temp0 in
  let temp0 := swap_bits 8 0x0000FF00 temp0 in
  let temp1 := high in
  let temp1 := swap_bits 1 0x22222222 temp1 in
  let temp1 := swap_bits 2 0x0C0C0C0C temp1 in
  let temp1 := swap_bits 4 0x00F000F0 temp1 in
  let temp1 := swap_bits 8 0x0000FF00 temp1 in
  (temp0, temp1).
(** KeccakP-1600-inplace32BI.c:46-49 toBitInterleavingAndXOR(low, high, even, odd): (even, odd) *)
Definition toBitInterleavingAndXOR (low high even odd : N) : N * N :=
  let '(temp0, temp1) := prepareToBitInterleaving low high in
  (N.lxor even (N.lor (N.land temp0 0x0000FFFF) (w32 (N.shiftl temp1 16))),
   N.lxor odd (N.lor (N.shiftr temp0 16) (N.land temp1 0xFFFF0000))).

(** KeccakP-1600-inplace32BI.c:62-75 prepareFromBitInterleaving, 77-80 fromBitInterleaving(even, odd): (low,
    high) *)
Definition fromBitInterleaving (even odd : N) : N * N :=
  let temp0 := even in
  let temp1 := odd in
  let temp := N.lor (N.land temp0 0x0000FFFF) (w32 (N.shiftl temp1 16)) in
  let temp1 := N.lor (N.shiftr temp0 16) (N.land temp1 0xFFFF0000) in
  let temp0 := temp in
  let temp0 := swap_bits 8 0x0000FF00 temp0 in
  let temp0 := swap_bits 4 0x00F000F0 temp0 in
  let temp0 := swap_bits 2 0x0C0C0C0C temp0 in
  let temp0 := swap_bits 1 0x22222222 temp0 in
  let temp1 := swap_bits 8 0x0000FF00 temp1 in
  let temp1 := swap_bits 4 0x00F000F0 temp1 in
  let temp1 := swap_bits 2 0x0C0C0C0C temp1 in
  let temp1 := swap_bits 1 0x22222222 temp1 in
  (temp0, temp1).

(** KeccakP-1600-inplace32BI.c:115-118 KeccakP1600_Initialize *)
Definition init32 : list N := repeat 0 50.

(** toBitInterleavingAndXOR on the two words of a lane of the state *)
Definition xor_lane32 (s : list N) (lanePosition low high : N) : res (list N) :=
  let! even := aget s (lanePosition * 2 + 0) in
  let! odd := aget s (lanePosition * 2 + 1) in
  let '(even, odd) := toBitInterleavingAndXOR low high even odd in
  let! s := aset s (lanePosition * 2 + 0) even in
  aset s (lanePosition * 2 + 1) odd.

(** KeccakP-1600-inplace32BI.c:122-139 KeccakP1600_AddByte *)
Definition AddByte32 (s : list N) (byte offset : N) : res (list N) :=
  let lanePosition := offset / 8 in
  let offsetInLane := offset mod 8 in
  let '(low, high) :=
    if offsetInLane <? 4 then (w32 (N.shiftl byte (offsetInLane * 8)), 0)
    else (0, w32 (N.shiftl byte ((offsetInLane - 4) * 8))) in
  xor_lane32 s lanePosition low high.

(** the two words of laneAsBytes: by casts on little-endian targets, byte by byte on others
    (KeccakP-1600-inplace32BI.c:152-164, 172-202) *)
Definition load32 (e : endian) (laneAsBytes : bytes) : res (N * N) :=
  match e with
  | LittleEndian =>
      let! l := slice laneAsBytes 0 4 in
      let! h := slice laneAsBytes 4 4 in
      Ok (val_of e l, val_of e h)
  | BigEndian =>
      let! b0 := aget laneAsBytes 0 in
      let! b1 := aget laneAsBytes 1 in
      let! b2 := aget laneAsBytes 2 in
      let! b3 := aget laneAsBytes 3 in
      let low := N.lor (N.lor (N.lor b0 (w32 (N.shiftl b1 8))) (w32 (N.shiftl b2 16))) (w32 (N.shiftl b3 24)) in
      let! b4 := aget laneAsBytes 4 in
      let! b5 := aget laneAsBytes 5 in
      let! b6 := aget laneAsBytes 6 in
      let! b7 := aget laneAsBytes 7 in
      let high := N.lor (N.lor (N.lor b4 (w32 (N.shiftl b5 8))) (w32 (N.shiftl b6 16))) (w32 (N.shiftl b7 24)) in
      Ok (low, high)
  end.
(** KeccakP-1600-inplace32BI.c:294-306, 327-345: laneAsBytes from the two words *)
Definition store32 (e : endian) (low high : N) : bytes :=
  match e with
  | LittleEndian => mem_of e 4 low ++ mem_of e 4 high
  | BigEndian =>
      [N.land low 0xFF; N.land (N.shiftr low 8) 0xFF; N.land (N.shiftr low 16) 0xFF; N.land (N.shiftr low 24) 0xFF;
       N.land high 0xFF; N.land (N.shiftr high 8) 0xFF; N.land (N.shiftr high 16) 0xFF; N.land (N.shiftr high 24) 0xFF]
  end.

(** KeccakP-1600-inplace32BI.c:143-166 KeccakP1600_AddBytesInLane *)
Definition AddBytesInLane32 (e : endian) (s : list N) (lanePosition : N) (data : bytes) (offset length : N)
  : res (list N) :=
  let! d := slice data 0 length in
  let! laneAsBytes := blit (zeros 8) offset d in
  let! lh := load32 e laneAsBytes in
  xor_lane32 s lanePosition (fst lh) (snd lh).
(** KeccakP-1600-inplace32BI.c:170-206 KeccakP1600_AddLanes (the pointers pI and pS of the little-endian branch
    advance by two words per iteration: lane after lane) *)
Definition AddLanes32 (e : endian) (s : list N) (data : bytes) (laneCount : N) : res (list N) :=
  foldM (fun s i =>
           let! laneAsBytes := slice data (i * 8) 8 in
           let! lh := load32 e laneAsBytes in
           xor_lane32 s i (fst lh) (snd lh)) (Nrange laneCount) s.
(** KeccakP-1600-inplace32BI.c:210-213 KeccakP1600_AddBytes *)
Definition AddBytes32 (e : endian) (s : list N) (data : bytes) (offset : N) : res (list N) :=
  relaned_AddBytes _ (AddLanes32 e) (AddBytesInLane32 e) s data offset (lenN data).

(** KeccakP-1600-inplace32BI.c:287-308 KeccakP1600_ExtractBytesInLane *)
Definition ExtractBytesInLane32 (e : endian) (s : list N) (lanePosition offset length : N) : res bytes :=
  let! even := aget s (lanePosition * 2) in
  let! odd := aget s (lanePosition * 2 + 1) in
  let '(low, high) := fromBitInterleaving even odd in
  slice (store32 e low high) offset length.
(** KeccakP-1600-inplace32BI.c:312-348 KeccakP1600_ExtractLanes *)
Definition ExtractLanes32 (e : endian) (s : list N) (laneCount : N) : res bytes :=
  let! l := mapM (fun i =>
                    let! even := aget s (i * 2) in
                    let! odd := aget s (i * 2 + 1) in
                    let '(low, high) := fromBitInterleaving even odd in
                    Ok (store32 e low high)) (Nrange laneCount) in
  Ok (concat l).
(** KeccakP-1600-inplace32BI.c:352-355 KeccakP1600_ExtractBytes *)
Definition ExtractBytes32 (e : endian) (s : list N) (offset length : N) : res bytes :=
  relaned_ExtractBytes _ (ExtractLanes32 e) (ExtractBytesInLane32 e) s offset length.

(** KeccakP-1600-inplace32BI.c:434-461 KeccakF1600RoundConstants_int2 *)
Definition KeccakF1600RoundConstants_int2 : list N :=
  [0x00000001; 0x00000000; 0x00000000; 0x00000089;
   0x00000000; 0x8000008b; 0x00000000; 0x80008080;
   0x00000001; 0x0000008b; 0x00000001; 0x00008000;
   0x00000001; 0x80008088; 0x00000001; 0x80000082;
   0x00000000; 0x0000000b; 0x00000000; 0x0000000a;
   0x00000001; 0x00008082; 0x00000000; 0x00008003;
   0x00000001; 0x0000808b; 0x00000001; 0x8000000b;
   0x00000001; 0x8000008a; 0x00000001; 0x80000081;
   0x00000000; 0x80000081; 0x00000000; 0x80000008;
   0x00000000; 0x00000083; 0x00000000; 0x80008003;
   0x00000001; 0x80008088; 0x00000000; 0x80000088;
   0x00000001; 0x00008000; 0x00000000; 0x80008082;
   0x000000FF].

(** the 50 words of the state (KeccakP-1600-inplace32BI.c:971-1020), in the order of the array *)
Inductive halves : Type :=
| Halves (Aba0 Aba1 Abe0 Abe1 Abi0 Abi1 Abo0 Abo1 Abu0 Abu1 Aga0 Aga1 Age0 Age1 Agi0 Agi1 Ago0 Ago1 Agu0 Agu1 Aka0 Aka1 Ake0 Ake1 Aki0 Aki1 Ako0 Ako1 Aku0 Aku1 Ama0 Ama1 Ame0 Ame1 Ami0 Ami1 Amo0 Amo1 Amu0 Amu1 Asa0 Asa1 Ase0 Ase1 Asi0 Asi1 Aso0 Aso1 Asu0 Asu1 : N).
Definition halves_of_array (s : list N) : res halves :=
  match s with
  | [Aba0; Aba1; Abe0; Abe1; Abi0; Abi1; Abo0; Abo1; Abu0; Abu1; Aga0; Aga1; Age0; Age1; Agi0; Agi1; Ago0; Ago1; Agu0; Agu1; Aka0; Aka1; Ake0; Ake1; Aki0; Aki1; Ako0; Ako1; Aku0; Aku1; Ama0; Ama1; Ame0; Ame1; Ami0; Ami1; Amo0; Amo1; Amu0; Amu1; Asa0; Asa1; Ase0; Ase1; Asi0; Asi1; Aso0; Aso1; Asu0; Asu1] =>
      Ok (Halves Aba0 Aba1 Abe0 Abe1 Abi0 Abi1 Abo0 Abo1 Abu0 Abu1 Aga0 Aga1 Age0 Age1 Agi0 Agi1 Ago0 Ago1 Agu0 Agu1 Aka0 Aka1 Ake0 Ake1 Aki0 Aki1 Ako0 Ako1 Aku0 Aku1 Ama0 Ama1 Ame0 Ame1 Ami0 Ami1 Amo0 Amo1 Amu0 Amu1 Asa0 Asa1 Ase0 Ase1 Asi0 Asi1 Aso0 Aso1 Asu0 Asu1)
  | _ => UB
  end.
Definition array_of_halves (A : halves) : list N :=
  let '(Halves Aba0 Aba1 Abe0 Abe1 Abi0 Abi1 Abo0 Abo1 Abu0 Abu1 Aga0 Aga1 Age0 Age1 Agi0 Agi1 Ago0 Ago1 Agu0 Agu1 Aka0 Aka1 Ake0 Ake1 Aki0 Aki1 Ako0 Ako1 Aku0 Aku1 Ama0 Ama1 Ame0 Ame1 Ami0 Ami1 Amo0 Amo1 Amu0 Amu1 Asa0 Asa1 Ase0 Ase1 Asi0 Asi1 Aso0 Aso1 Asu0 Asu1) := A in
  [Aba0; Aba1; Abe0; Abe1; Abi0; Abi1; Abo0; Abo1; Abu0; Abu1; Aga0; Aga1; Age0; Age1; Agi0; Agi1; Ago0; Ago1; Agu0; Agu1; Aka0; Aka1; Ake0; Ake1; Aki0; Aki1; Ako0; Ako1; Aku0; Aku1; Ama0; Ama1; Ame0; Ame1; Ami0; Ami1; Amo0; Amo1; Amu0; Amu1; Asa0; Asa1; Ase0; Ase1; Asi0; Asi1; Aso0; Aso1; Asu0; Asu1].

(** KeccakP-1600-inplace32BI.c:463-586 KeccakRound0(); [rc0], [rc1]: the two words read through
    pRoundConstants *)
Definition KeccakRound0 (rc0 rc1 : N) (A : halves) : halves :=
  let '(Halves Aba0 Aba1 Abe0 Abe1 Abi0 Abi1 Abo0 Abo1 Abu0 Abu1 Aga0 Aga1 Age0 Age1 Agi0 Agi1 Ago0 Ago1 Agu0 Agu1 Aka0 Aka1 Ake0 Ake1 Aki0 Aki1 Ako0 Ako1 Aku0 Aku1 Ama0 Ama1 Ame0 Ame1 Ami0 Ami1 Amo0 Amo1 Amu0 Amu1 Asa0 Asa1 Ase0 Ase1 Asi0 Asi1 Aso0 Aso1 Asu0 Asu1) := A in
  let Cx := N.lxor (N.lxor (N.lxor (N.lxor Abu0 Agu0) Aku0) Amu0) Asu0 in
  let Du1 := N.lxor (N.lxor (N.lxor (N.lxor Abe1 Age1) Ake1) Ame1) Ase1 in
  let Da0 := N.lxor Cx (ROL32 Du1 1) in
  let Cz := N.lxor (N.lxor (N.lxor (N.lxor Abu1 Agu1) Aku1) Amu1) Asu1 in
  let Du0 := N.lxor (N.lxor (N.lxor (N.lxor Abe0 Age0) Ake0) Ame0) Ase0 in
  let Da1 := N.lxor Cz Du0 in
  let Cw := N.lxor (N.lxor (N.lxor (N.lxor Abi0 Agi0) Aki0) Ami0) Asi0 in
  let Do0 := N.lxor Cw (ROL32 Cz 1) in
  let Cy := N.lxor (N.lxor (N.lxor (N.lxor Abi1 Agi1) Aki1) Ami1) Asi1 in
  let Do1 := N.lxor Cy Cx in
  let Cx := N.lxor (N.lxor (N.lxor (N.lxor Aba0 Aga0) Aka0) Ama0) Asa0 in
  let De0 := N.lxor Cx (ROL32 Cy 1) in
  let Cz := N.lxor (N.lxor (N.lxor (N.lxor Aba1 Aga1) Aka1) Ama1) Asa1 in
  let De1 := N.lxor Cz Cw in
  let Cy := N.lxor (N.lxor (N.lxor (N.lxor Abo1 Ago1) Ako1) Amo1) Aso1 in
  let Di0 := N.lxor Du0 (ROL32 Cy 1) in
  let Cw := N.lxor (N.lxor (N.lxor (N.lxor Abo0 Ago0) Ako0) Amo0) Aso0 in
  let Di1 := N.lxor Du1 Cw in
  let Du0 := N.lxor Cw (ROL32 Cz 1) in
  let Du1 := N.lxor Cy Cx in
  let Ba := N.lxor Aba0 Da0 in
  let Be := ROL32 (N.lxor Age0 De0) 22 in
  let Bi := ROL32 (N.lxor Aki1 Di1) 22 in
  let Bo := ROL32 (N.lxor Amo1 Do1) 11 in
  let Bu := ROL32 (N.lxor Asu0 Du0) 7 in
  let Aba0 := N.lxor Ba (N.land (not32 Be) Bi) in
  let Aba0 := N.lxor Aba0 rc0 in
  let Age0 := N.lxor Be (N.land (not32 Bi) Bo) in
  let Aki1 := N.lxor Bi (N.land (not32 Bo) Bu) in
  let Amo1 := N.lxor Bo (N.land (not32 Bu) Ba) in
  let Asu0 := N.lxor Bu (N.land (not32 Ba) Be) in
  let Ba := N.lxor Aba1 Da1 in
  let Be := ROL32 (N.lxor Age1 De1) 22 in
  let Bi := ROL32 (N.lxor Aki0 Di0) 21 in
  let Bo := ROL32 (N.lxor Amo0 Do0) 10 in
  let Bu := ROL32 (N.lxor Asu1 Du1) 7 in
  let Aba1 := N.lxor Ba (N.land (not32 Be) Bi) in
  let Aba1 := N.lxor Aba1 rc1 in
  let Age1 := N.lxor Be (N.land (not32 Bi) Bo) in
  let Aki0 := N.lxor Bi (N.land (not32 Bo) Bu) in
  let Amo0 := N.lxor Bo (N.land (not32 Bu) Ba) in
  let Asu1 := N.lxor Bu (N.land (not32 Ba) Be) in
  let Bi := ROL32 (N.lxor Aka1 Da1) 2 in
  let Bo := ROL32 (N.lxor Ame1 De1) 23 in
  let Bu := ROL32 (N.lxor Asi1 Di1) 31 in
  let Ba := ROL32 (N.lxor Abo0 Do0) 14 in
  let Be := ROL32 (N.lxor Agu0 Du0) 10 in
  let Aka1 := N.lxor Ba (N.land (not32 Be) Bi) in
  let Ame1 := N.lxor Be (N.land (not32 Bi) Bo) in
  let Asi1 := N.lxor Bi (N.land (not32 Bo) Bu) in
  let Abo0 := N.lxor Bo (N.land (not32 Bu) Ba) in
  let Agu0 := N.lxor Bu (N.land (not32 Ba) Be) in
  let Bi := ROL32 (N.lxor Aka0 Da0) 1 in
  let Bo := ROL32 (N.lxor Ame0 De0) 22 in
  let Bu := ROL32 (N.lxor Asi0 Di0) 30 in
  let Ba := ROL32 (N.lxor Abo1 Do1) 14 in
  let Be := ROL32 (N.lxor Agu1 Du1) 10 in
  let Aka0 := N.lxor Ba (N.land (not32 Be) Bi) in
  let Ame0 := N.lxor Be (N.land (not32 Bi) Bo) in
  let Asi0 := N.lxor Bi (N.land (not32 Bo) Bu) in
  let Abo1 := N.lxor Bo (N.land (not32 Bu) Ba) in
  let Agu1 := N.lxor Bu (N.land (not32 Ba) Be) in
  let Bu := ROL32 (N.lxor Asa0 Da0) 9 in
  let Ba := ROL32 (N.lxor Abe1 De1) 1 in
  let Be := ROL32 (N.lxor Agi0 Di0) 3 in
  let Bi := ROL32 (N.lxor Ako1 Do1) 13 in
  let Bo := ROL32 (N.lxor Amu0 Du0) 4 in
  let Asa0 := N.lxor Ba (N.land (not32 Be) Bi) in
  let Abe1 := N.lxor Be (N.land (not32 Bi) Bo) in
  let Agi0 := N.lxor Bi (N.land (not32 Bo) Bu) in
  let Ako1 := N.lxor Bo (N.land (not32 Bu) Ba) in
  let Amu0 := N.lxor Bu (N.land (not32 Ba) Be) in
  let Bu := ROL32 (N.lxor Asa1 Da1) 9 in
  let Ba := N.lxor Abe0 De0 in
  let Be := ROL32 (N.lxor Agi1 Di1) 3 in
  let Bi := ROL32 (N.lxor Ako0 Do0) 12 in
  let Bo := ROL32 (N.lxor Amu1 Du1) 4 in
  let Asa1 := N.lxor Ba (N.land (not32 Be) Bi) in
  let Abe0 := N.lxor Be (N.land (not32 Bi) Bo) in
  let Agi1 := N.lxor Bi (N.land (not32 Bo) Bu) in
  let Ako0 := N.lxor Bo (N.land (not32 Bu) Ba) in
  let Amu1 := N.lxor Bu (N.land (not32 Ba) Be) in
  let Be := ROL32 (N.lxor Aga0 Da0) 18 in
  let Bi := ROL32 (N.lxor Ake0 De0) 5 in
  let Bo := ROL32 (N.lxor Ami1 Di1) 8 in
  let Bu := ROL32 (N.lxor Aso0 Do0) 28 in
  let Ba := ROL32 (N.lxor Abu1 Du1) 14 in
  let Aga0 := N.lxor Ba (N.land (not32 Be) Bi) in
  let Ake0 := N.lxor Be (N.land (not32 Bi) Bo) in
  let Ami1 := N.lxor Bi (N.land (not32 Bo) Bu) in
  let Aso0 := N.lxor Bo (N.land (not32 Bu) Ba) in
  let Abu1 := N.lxor Bu (N.land (not32 Ba) Be) in
  let Be := ROL32 (N.lxor Aga1 Da1) 18 in
  let Bi := ROL32 (N.lxor Ake1 De1) 5 in
  let Bo := ROL32 (N.lxor Ami0 Di0) 7 in
  let Bu := ROL32 (N.lxor Aso1 Do1) 28 in
  let Ba := ROL32 (N.lxor Abu0 Du0) 13 in
  let Aga1 := N.lxor Ba (N.land (not32 Be) Bi) in
  let Ake1 := N.lxor Be (N.land (not32 Bi) Bo) in
  let Ami0 := N.lxor Bi (N.land (not32 Bo) Bu) in
  let Aso1 := N.lxor Bo (N.land (not32 Bu) Ba) in
  let Abu0 := N.lxor Bu (N.land (not32 Ba) Be) in
  let Bo := ROL32 (N.lxor Ama1 Da1) 21 in
  let Bu := ROL32 (N.lxor Ase0 De0) 1 in
  let Ba := ROL32 (N.lxor Abi0 Di0) 31 in
  let Be := ROL32 (N.lxor Ago1 Do1) 28 in
  let Bi := ROL32 (N.lxor Aku1 Du1) 20 in
  let Ama1 := N.lxor Ba (N.land (not32 Be) Bi) in
  let Ase0 := N.lxor Be (N.land (not32 Bi) Bo) in
  let Abi0 := N.lxor Bi (N.land (not32 Bo) Bu) in
  let Ago1 := N.lxor Bo (N.land (not32 Bu) Ba) in
  let Aku1 := N.lxor Bu (N.land (not32 Ba) Be) in
  let Bo := ROL32 (N.lxor Ama0 Da0) 20 in
  let Bu := ROL32 (N.lxor Ase1 De1) 1 in
  let Ba := ROL32 (N.lxor Abi1 Di1) 31 in
  let Be := ROL32 (N.lxor Ago0 Do0) 27 in
  let Bi := ROL32 (N.lxor Aku0 Du0) 19 in
  let Ama0 := N.lxor Ba (N.land (not32 Be) Bi) in
  let Ase1 := N.lxor Be (N.land (not32 Bi) Bo) in
  let Abi1 := N.lxor Bi (N.land (not32 Bo) Bu) in
  let Ago0 := N.lxor Bo (N.land (not32 Bu) Ba) in
  let Aku0 := N.lxor Bu (N.land (not32 Ba) Be) in
  Halves Aba0 Aba1 Abe0 Abe1 Abi0 Abi1 Abo0 Abo1 Abu0 Abu1 Aga0 Aga1 Age0 Age1 Agi0 Agi1 Ago0 Ago1 Agu0 Agu1 Aka0 Aka1 Ake0 Ake1 Aki0 Aki1 Ako0 Ako1 Aku0 Aku1 Ama0 Ama1 Ame0 Ame1 Ami0 Ami1 Amo0 Amo1 Amu0 Amu1 Asa0 Asa1 Ase0 Ase1 Asi0 Asi1 Aso0 Aso1 Asu0 Asu1.

(** KeccakP-1600-inplace32BI.c:588-711 KeccakRound1(); [rc0], [rc1]: the two words read through
    pRoundConstants *)
Definition KeccakRound1 (rc0 rc1 : N) (A : halves) : halves :=
  let '(Halves Aba0 Aba1 Abe0 Abe1 Abi0 Abi1 Abo0 Abo1 Abu0 Abu1 Aga0 Aga1 Age0 Age1 Agi0 Agi1 Ago0 Ago1 Agu0 Agu1 Aka0 Aka1 Ake0 Ake1 Aki0 Aki1 Ako0 Ako1 Aku0 Aku1 Ama0 Ama1 Ame0 Ame1 Ami0 Ami1 Amo0 Amo1 Amu0 Amu1 Asa0 Asa1 Ase0 Ase1 Asi0 Asi1 Aso0 Aso1 Asu0 Asu1) := A in
  let Cx := N.lxor (N.lxor (N.lxor (N.lxor Asu0 Agu0) Amu0) Abu1) Aku1 in
  let Du1 := N.lxor (N.lxor (N.lxor (N.lxor Age1 Ame0) Abe0) Ake1) Ase1 in
  let Da0 := N.lxor Cx (ROL32 Du1 1) in
  let Cz := N.lxor (N.lxor (N.lxor (N.lxor Asu1 Agu1) Amu1) Abu0) Aku0 in
  let Du0 := N.lxor (N.lxor (N.lxor (N.lxor Age0 Ame1) Abe1) Ake0) Ase0 in
  let Da1 := N.lxor Cz Du0 in
  let Cw := N.lxor (N.lxor (N.lxor (N.lxor Aki1 Asi1) Agi0) Ami1) Abi0 in
  let Do0 := N.lxor Cw (ROL32 Cz 1) in
  let Cy := N.lxor (N.lxor (N.lxor (N.lxor Aki0 Asi0) Agi1) Ami0) Abi1 in
  let Do1 := N.lxor Cy Cx in
  let Cx := N.lxor (N.lxor (N.lxor (N.lxor Aba0 Aka1) Asa0) Aga0) Ama1 in
  let De0 := N.lxor Cx (ROL32 Cy 1) in
  let Cz := N.lxor (N.lxor (N.lxor (N.lxor Aba1 Aka0) Asa1) Aga1) Ama0 in
  let De1 := N.lxor Cz Cw in
  let Cy := N.lxor (N.lxor (N.lxor (N.lxor Amo0 Abo1) Ako0) Aso1) Ago0 in
  let Di0 := N.lxor Du0 (ROL32 Cy 1) in
  let Cw := N.lxor (N.lxor (N.lxor (N.lxor Amo1 Abo0) Ako1) Aso0) Ago1 in
  let Di1 := N.lxor Du1 Cw in
  let Du0 := N.lxor Cw (ROL32 Cz 1) in
  let Du1 := N.lxor Cy Cx in
  let Ba := N.lxor Aba0 Da0 in
  let Be := ROL32 (N.lxor Ame1 De0) 22 in
  let Bi := ROL32 (N.lxor Agi1 Di1) 22 in
  let Bo := ROL32 (N.lxor Aso1 Do1) 11 in
  let Bu := ROL32 (N.lxor Aku1 Du0) 7 in
  let Aba0 := N.lxor Ba (N.land (not32 Be) Bi) in
  let Aba0 := N.lxor Aba0 rc0 in
  let Ame1 := N.lxor Be (N.land (not32 Bi) Bo) in
  let Agi1 := N.lxor Bi (N.land (not32 Bo) Bu) in
  let Aso1 := N.lxor Bo (N.land (not32 Bu) Ba) in
  let Aku1 := N.lxor Bu (N.land (not32 Ba) Be) in
  let Ba := N.lxor Aba1 Da1 in
  let Be := ROL32 (N.lxor Ame0 De1) 22 in
  let Bi := ROL32 (N.lxor Agi0 Di0) 21 in
  let Bo := ROL32 (N.lxor Aso0 Do0) 10 in
  let Bu := ROL32 (N.lxor Aku0 Du1) 7 in
  let Aba1 := N.lxor Ba (N.land (not32 Be) Bi) in
  let Aba1 := N.lxor Aba1 rc1 in
  let Ame0 := N.lxor Be (N.land (not32 Bi) Bo) in
  let Agi0 := N.lxor Bi (N.land (not32 Bo) Bu) in
  let Aso0 := N.lxor Bo (N.land (not32 Bu) Ba) in
  let Aku0 := N.lxor Bu (N.land (not32 Ba) Be) in
  let Bi := ROL32 (N.lxor Asa1 Da1) 2 in
  let Bo := ROL32 (N.lxor Ake1 De1) 23 in
  let Bu := ROL32 (N.lxor Abi1 Di1) 31 in
  let Ba := ROL32 (N.lxor Amo1 Do0) 14 in
  let Be := ROL32 (N.lxor Agu0 Du0) 10 in
  let Asa1 := N.lxor Ba (N.land (not32 Be) Bi) in
  let Ake1 := N.lxor Be (N.land (not32 Bi) Bo) in
  let Abi1 := N.lxor Bi (N.land (not32 Bo) Bu) in
  let Amo1 := N.lxor Bo (N.land (not32 Bu) Ba) in
  let Agu0 := N.lxor Bu (N.land (not32 Ba) Be) in
  let Bi := ROL32 (N.lxor Asa0 Da0) 1 in
  let Bo := ROL32 (N.lxor Ake0 De0) 22 in
  let Bu := ROL32 (N.lxor Abi0 Di0) 30 in
  let Ba := ROL32 (N.lxor Amo0 Do1) 14 in
  let Be := ROL32 (N.lxor Agu1 Du1) 10 in
  let Asa0 := N.lxor Ba (N.land (not32 Be) Bi) in
  let Ake0 := N.lxor Be (N.land (not32 Bi) Bo) in
  let Abi0 := N.lxor Bi (N.land (not32 Bo) Bu) in
  let Amo0 := N.lxor Bo (N.land (not32 Bu) Ba) in
  let Agu1 := N.lxor Bu (N.land (not32 Ba) Be) in
  let Bu := ROL32 (N.lxor Ama1 Da0) 9 in
  let Ba := ROL32 (N.lxor Age1 De1) 1 in
  let Be := ROL32 (N.lxor Asi1 Di0) 3 in
  let Bi := ROL32 (N.lxor Ako0 Do1) 13 in
  let Bo := ROL32 (N.lxor Abu1 Du0) 4 in
  let Ama1 := N.lxor Ba (N.land (not32 Be) Bi) in
  let Age1 := N.lxor Be (N.land (not32 Bi) Bo) in
  let Asi1 := N.lxor Bi (N.land (not32 Bo) Bu) in
  let Ako0 := N.lxor Bo (N.land (not32 Bu) Ba) in
  let Abu1 := N.lxor Bu (N.land (not32 Ba) Be) in
  let Bu := ROL32 (N.lxor Ama0 Da1) 9 in
  let Ba := N.lxor Age0 De0 in
  let Be := ROL32 (N.lxor Asi0 Di1) 3 in
  let Bi := ROL32 (N.lxor Ako1 Do0) 12 in
  let Bo := ROL32 (N.lxor Abu0 Du1) 4 in
  let Ama0 := N.lxor Ba (N.land (not32 Be) Bi) in
  let Age0 := N.lxor Be (N.land (not32 Bi) Bo) in
  let Asi0 := N.lxor Bi (N.land (not32 Bo) Bu) in
  let Ako1 := N.lxor Bo (N.land (not32 Bu) Ba) in
  let Abu0 := N.lxor Bu (N.land (not32 Ba) Be) in
  let Be := ROL32 (N.lxor Aka1 Da0) 18 in
  let Bi := ROL32 (N.lxor Abe1 De0) 5 in
  let Bo := ROL32 (N.lxor Ami0 Di1) 8 in
  let Bu := ROL32 (N.lxor Ago1 Do0) 28 in
  let Ba := ROL32 (N.lxor Asu1 Du1) 14 in
  let Aka1 := N.lxor Ba (N.land (not32 Be) Bi) in
  let Abe1 := N.lxor Be (N.land (not32 Bi) Bo) in
  let Ami0 := N.lxor Bi (N.land (not32 Bo) Bu) in
  let Ago1 := N.lxor Bo (N.land (not32 Bu) Ba) in
  let Asu1 := N.lxor Bu (N.land (not32 Ba) Be) in
  let Be := ROL32 (N.lxor Aka0 Da1) 18 in
  let Bi := ROL32 (N.lxor Abe0 De1) 5 in
  let Bo := ROL32 (N.lxor Ami1 Di0) 7 in
  let Bu := ROL32 (N.lxor Ago0 Do1) 28 in
  let Ba := ROL32 (N.lxor Asu0 Du0) 13 in
  let Aka0 := N.lxor Ba (N.land (not32 Be) Bi) in
  let Abe0 := N.lxor Be (N.land (not32 Bi) Bo) in
  let Ami1 := N.lxor Bi (N.land (not32 Bo) Bu) in
  let Ago0 := N.lxor Bo (N.land (not32 Bu) Ba) in
  let Asu0 := N.lxor Bu (N.land (not32 Ba) Be) in
  let Bo := ROL32 (N.lxor Aga1 Da1) 21 in
  let Bu := ROL32 (N.lxor Ase0 De0) 1 in
  let Ba := ROL32 (N.lxor Aki1 Di0) 31 in
  let Be := ROL32 (N.lxor Abo1 Do1) 28 in
  let Bi := ROL32 (N.lxor Amu1 Du1) 20 in
  let Aga1 := N.lxor Ba (N.land (not32 Be) Bi) in
  let Ase0 := N.lxor Be (N.land (not32 Bi) Bo) in
  let Aki1 := N.lxor Bi (N.land (not32 Bo) Bu) in
  let Abo1 := N.lxor Bo (N.land (not32 Bu) Ba) in
  let Amu1 := N.lxor Bu (N.land (not32 Ba) Be) in
  let Bo := ROL32 (N.lxor Aga0 Da0) 20 in
  let Bu := ROL32 (N.lxor Ase1 De1) 1 in
  let Ba := ROL32 (N.lxor Aki0 Di1) 31 in
  let Be := ROL32 (N.lxor Abo0 Do0) 27 in
  let Bi := ROL32 (N.lxor Amu0 Du0) 19 in
  let Aga0 := N.lxor Ba (N.land (not32 Be) Bi) in
  let Ase1 := N.lxor Be (N.land (not32 Bi) Bo) in
  let Aki0 := N.lxor Bi (N.land (not32 Bo) Bu) in
  let Abo0 := N.lxor Bo (N.land (not32 Bu) Ba) in
  let Amu0 := N.lxor Bu (N.land (not32 Ba) Be) in
  Halves Aba0 Aba1 Abe0 Abe1 Abi0 Abi1 Abo0 Abo1 Abu0 Abu1 Aga0 Aga1 Age0 Age1 Agi0 Agi1 Ago0 Ago1 Agu0 Agu1 Aka0 Aka1 Ake0 Ake1 Aki0 Aki1 Ako0 Ako1 Aku0 Aku1 Ama0 Ama1 Ame0 Ame1 Ami0 Ami1 Amo0 Amo1 Amu0 Amu1 Asa0 Asa1 Ase0 Ase1 Asi0 Asi1 Aso0 Aso1 Asu0 Asu1.

(** KeccakP-1600-inplace32BI.c:713-836 KeccakRound2(); [rc0], [rc1]: the two words read through
    pRoundConstants *)
Definition KeccakRound2 (rc0 rc1 : N) (A : halves) : halves :=
  let '(Halves Aba0 Aba1 Abe0 Abe1 Abi0 Abi1 Abo0 Abo1 Abu0 Abu1 Aga0 Aga1 Age0 Age1 Agi0 Agi1 Ago0 Ago1 Agu0 Agu1 Aka0 Aka1 Ake0 Ake1 Aki0 Aki1 Ako0 Ako1 Aku0 Aku1 Ama0 Ama1 Ame0 Ame1 Ami0 Ami1 Amo0 Amo1 Amu0 Amu1 Asa0 Asa1 Ase0 Ase1 Asi0 Asi1 Aso0 Aso1 Asu0 Asu1) := A in
  let Cx := N.lxor (N.lxor (N.lxor (N.lxor Aku1 Agu0) Abu1) Asu1) Amu1 in
  let Du1 := N.lxor (N.lxor (N.lxor (N.lxor Ame0 Ake0) Age0) Abe0) Ase1 in
  let Da0 := N.lxor Cx (ROL32 Du1 1) in
  let Cz := N.lxor (N.lxor (N.lxor (N.lxor Aku0 Agu1) Abu0) Asu0) Amu0 in
  let Du0 := N.lxor (N.lxor (N.lxor (N.lxor Ame1 Ake1) Age1) Abe1) Ase0 in
  let Da1 := N.lxor Cz Du0 in
  let Cw := N.lxor (N.lxor (N.lxor (N.lxor Agi1 Abi1) Asi1) Ami0) Aki1 in
  let Do0 := N.lxor Cw (ROL32 Cz 1) in
  let Cy := N.lxor (N.lxor (N.lxor (N.lxor Agi0 Abi0) Asi0) Ami1) Aki0 in
  let Do1 := N.lxor Cy Cx in
  let Cx := N.lxor (N.lxor (N.lxor (N.lxor Aba0 Asa1) Ama1) Aka1) Aga1 in
  let De0 := N.lxor Cx (ROL32 Cy 1) in
  let Cz := N.lxor (N.lxor (N.lxor (N.lxor Aba1 Asa0) Ama0) Aka0) Aga0 in
  let De1 := N.lxor Cz Cw in
  let Cy := N.lxor (N.lxor (N.lxor (N.lxor Aso0 Amo0) Ako1) Ago0) Abo0 in
  let Di0 := N.lxor Du0 (ROL32 Cy 1) in
  let Cw := N.lxor (N.lxor (N.lxor (N.lxor Aso1 Amo1) Ako0) Ago1) Abo1 in
  let Di1 := N.lxor Du1 Cw in
  let Du0 := N.lxor Cw (ROL32 Cz 1) in
  let Du1 := N.lxor Cy Cx in
  let Ba := N.lxor Aba0 Da0 in
  let Be := ROL32 (N.lxor Ake1 De0) 22 in
  let Bi := ROL32 (N.lxor Asi0 Di1) 22 in
  let Bo := ROL32 (N.lxor Ago0 Do1) 11 in
  let Bu := ROL32 (N.lxor Amu1 Du0) 7 in
  let Aba0 := N.lxor Ba (N.land (not32 Be) Bi) in
  let Aba0 := N.lxor Aba0 rc0 in
  let Ake1 := N.lxor Be (N.land (not32 Bi) Bo) in
  let Asi0 := N.lxor Bi (N.land (not32 Bo) Bu) in
  let Ago0 := N.lxor Bo (N.land (not32 Bu) Ba) in
  let Amu1 := N.lxor Bu (N.land (not32 Ba) Be) in
  let Ba := N.lxor Aba1 Da1 in
  let Be := ROL32 (N.lxor Ake0 De1) 22 in
  let Bi := ROL32 (N.lxor Asi1 Di0) 21 in
  let Bo := ROL32 (N.lxor Ago1 Do0) 10 in
  let Bu := ROL32 (N.lxor Amu0 Du1) 7 in
  let Aba1 := N.lxor Ba (N.land (not32 Be) Bi) in
  let Aba1 := N.lxor Aba1 rc1 in
  let Ake0 := N.lxor Be (N.land (not32 Bi) Bo) in
  let Asi1 := N.lxor Bi (N.land (not32 Bo) Bu) in
  let Ago1 := N.lxor Bo (N.land (not32 Bu) Ba) in
  let Amu0 := N.lxor Bu (N.land (not32 Ba) Be) in
  let Bi := ROL32 (N.lxor Ama0 Da1) 2 in
  let Bo := ROL32 (N.lxor Abe0 De1) 23 in
  let Bu := ROL32 (N.lxor Aki0 Di1) 31 in
  let Ba := ROL32 (N.lxor Aso1 Do0) 14 in
  let Be := ROL32 (N.lxor Agu0 Du0) 10 in
  let Ama0 := N.lxor Ba (N.land (not32 Be) Bi) in
  let Abe0 := N.lxor Be (N.land (not32 Bi) Bo) in
  let Aki0 := N.lxor Bi (N.land (not32 Bo) Bu) in
  let Aso1 := N.lxor Bo (N.land (not32 Bu) Ba) in
  let Agu0 := N.lxor Bu (N.land (not32 Ba) Be) in
  let Bi := ROL32 (N.lxor Ama1 Da0) 1 in
  let Bo := ROL32 (N.lxor Abe1 De0) 22 in
  let Bu := ROL32 (N.lxor Aki1 Di0) 30 in
  let Ba := ROL32 (N.lxor Aso0 Do1) 14 in
  let Be := ROL32 (N.lxor Agu1 Du1) 10 in
  let Ama1 := N.lxor Ba (N.land (not32 Be) Bi) in
  let Abe1 := N.lxor Be (N.land (not32 Bi) Bo) in
  let Aki1 := N.lxor Bi (N.land (not32 Bo) Bu) in
  let Aso0 := N.lxor Bo (N.land (not32 Bu) Ba) in
  let Agu1 := N.lxor Bu (N.land (not32 Ba) Be) in
  let Bu := ROL32 (N.lxor Aga1 Da0) 9 in
  let Ba := ROL32 (N.lxor Ame0 De1) 1 in
  let Be := ROL32 (N.lxor Abi1 Di0) 3 in
  let Bi := ROL32 (N.lxor Ako1 Do1) 13 in
  let Bo := ROL32 (N.lxor Asu1 Du0) 4 in
  let Aga1 := N.lxor Ba (N.land (not32 Be) Bi) in
  let Ame0 := N.lxor Be (N.land (not32 Bi) Bo) in
  let Abi1 := N.lxor Bi (N.land (not32 Bo) Bu) in
  let Ako1 := N.lxor Bo (N.land (not32 Bu) Ba) in
  let Asu1 := N.lxor Bu (N.land (not32 Ba) Be) in
  let Bu := ROL32 (N.lxor Aga0 Da1) 9 in
  let Ba := N.lxor Ame1 De0 in
  let Be := ROL32 (N.lxor Abi0 Di1) 3 in
  let Bi := ROL32 (N.lxor Ako0 Do0) 12 in
  let Bo := ROL32 (N.lxor Asu0 Du1) 4 in
  let Aga0 := N.lxor Ba (N.land (not32 Be) Bi) in
  let Ame1 := N.lxor Be (N.land (not32 Bi) Bo) in
  let Abi0 := N.lxor Bi (N.land (not32 Bo) Bu) in
  let Ako0 := N.lxor Bo (N.land (not32 Bu) Ba) in
  let Asu0 := N.lxor Bu (N.land (not32 Ba) Be) in
  let Be := ROL32 (N.lxor Asa1 Da0) 18 in
  let Bi := ROL32 (N.lxor Age1 De0) 5 in
  let Bo := ROL32 (N.lxor Ami1 Di1) 8 in
  let Bu := ROL32 (N.lxor Abo1 Do0) 28 in
  let Ba := ROL32 (N.lxor Aku0 Du1) 14 in
  let Asa1 := N.lxor Ba (N.land (not32 Be) Bi) in
  let Age1 := N.lxor Be (N.land (not32 Bi) Bo) in
  let Ami1 := N.lxor Bi (N.land (not32 Bo) Bu) in
  let Abo1 := N.lxor Bo (N.land (not32 Bu) Ba) in
  let Aku0 := N.lxor Bu (N.land (not32 Ba) Be) in
  let Be := ROL32 (N.lxor Asa0 Da1) 18 in
  let Bi := ROL32 (N.lxor Age0 De1) 5 in
  let Bo := ROL32 (N.lxor Ami0 Di0) 7 in
  let Bu := ROL32 (N.lxor Abo0 Do1) 28 in
  let Ba := ROL32 (N.lxor Aku1 Du0) 13 in
  let Asa0 := N.lxor Ba (N.land (not32 Be) Bi) in
  let Age0 := N.lxor Be (N.land (not32 Bi) Bo) in
  let Ami0 := N.lxor Bi (N.land (not32 Bo) Bu) in
  let Abo0 := N.lxor Bo (N.land (not32 Bu) Ba) in
  let Aku1 := N.lxor Bu (N.land (not32 Ba) Be) in
  let Bo := ROL32 (N.lxor Aka0 Da1) 21 in
  let Bu := ROL32 (N.lxor Ase0 De0) 1 in
  let Ba := ROL32 (N.lxor Agi1 Di0) 31 in
  let Be := ROL32 (N.lxor Amo0 Do1) 28 in
  let Bi := ROL32 (N.lxor Abu0 Du1) 20 in
  let Aka0 := N.lxor Ba (N.land (not32 Be) Bi) in
  let Ase0 := N.lxor Be (N.land (not32 Bi) Bo) in
  let Agi1 := N.lxor Bi (N.land (not32 Bo) Bu) in
  let Amo0 := N.lxor Bo (N.land (not32 Bu) Ba) in
  let Abu0 := N.lxor Bu (N.land (not32 Ba) Be) in
  let Bo := ROL32 (N.lxor Aka1 Da0) 20 in
  let Bu := ROL32 (N.lxor Ase1 De1) 1 in
  let Ba := ROL32 (N.lxor Agi0 Di1) 31 in
  let Be := ROL32 (N.lxor Amo1 Do0) 27 in
  let Bi := ROL32 (N.lxor Abu1 Du0) 19 in
  let Aka1 := N.lxor Ba (N.land (not32 Be) Bi) in
  let Ase1 := N.lxor Be (N.land (not32 Bi) Bo) in
  let Agi0 := N.lxor Bi (N.land (not32 Bo) Bu) in
  let Amo1 := N.lxor Bo (N.land (not32 Bu) Ba) in
  let Abu1 := N.lxor Bu (N.land (not32 Ba) Be) in
  Halves Aba0 Aba1 Abe0 Abe1 Abi0 Abi1 Abo0 Abo1 Abu0 Abu1 Aga0 Aga1 Age0 Age1 Agi0 Agi1 Ago0 Ago1 Agu0 Agu1 Aka0 Aka1 Ake0 Ake1 Aki0 Aki1 Ako0 Ako1 Aku0 Aku1 Ama0 Ama1 Ame0 Ame1 Ami0 Ami1 Amo0 Amo1 Amu0 Amu1 Asa0 Asa1 Ase0 Ase1 Asi0 Asi1 Aso0 Aso1 Asu0 Asu1.

(** KeccakP-1600-inplace32BI.c:838-961 KeccakRound3(); [rc0], [rc1]: the two words read through
    pRoundConstants *)
Definition KeccakRound3 (rc0 rc1 : N) (A : halves) : halves :=
  let '(Halves Aba0 Aba1 Abe0 Abe1 Abi0 Abi1 Abo0 Abo1 Abu0 Abu1 Aga0 Aga1 Age0 Age1 Agi0 Agi1 Ago0 Ago1 Agu0 Agu1 Aka0 Aka1 Ake0 Ake1 Aki0 Aki1 Ako0 Ako1 Aku0 Aku1 Ama0 Ama1 Ame0 Ame1 Ami0 Ami1 Amo0 Amo1 Amu0 Amu1 Asa0 Asa1 Ase0 Ase1 Asi0 Asi1 Aso0 Aso1 Asu0 Asu1) := A in
  let Cx := N.lxor (N.lxor (N.lxor (N.lxor Amu1 Agu0) Asu1) Aku0) Abu0 in
  let Du1 := N.lxor (N.lxor (N.lxor (N.lxor Ake0 Abe1) Ame1) Age0) Ase1 in
  let Da0 := N.lxor Cx (ROL32 Du1 1) in
  let Cz := N.lxor (N.lxor (N.lxor (N.lxor Amu0 Agu1) Asu0) Aku1) Abu1 in
  let Du0 := N.lxor (N.lxor (N.lxor (N.lxor Ake1 Abe0) Ame0) Age1) Ase0 in
  let Da1 := N.lxor Cz Du0 in
  let Cw := N.lxor (N.lxor (N.lxor (N.lxor Asi0 Aki0) Abi1) Ami1) Agi1 in
  let Do0 := N.lxor Cw (ROL32 Cz 1) in
  let Cy := N.lxor (N.lxor (N.lxor (N.lxor Asi1 Aki1) Abi0) Ami0) Agi0 in
  let Do1 := N.lxor Cy Cx in
  let Cx := N.lxor (N.lxor (N.lxor (N.lxor Aba0 Ama0) Aga1) Asa1) Aka0 in
  let De0 := N.lxor Cx (ROL32 Cy 1) in
  let Cz := N.lxor (N.lxor (N.lxor (N.lxor Aba1 Ama1) Aga0) Asa0) Aka1 in
  let De1 := N.lxor Cz Cw in
  let Cy := N.lxor (N.lxor (N.lxor (N.lxor Ago1 Aso0) Ako0) Abo0) Amo1 in
  let Di0 := N.lxor Du0 (ROL32 Cy 1) in
  let Cw := N.lxor (N.lxor (N.lxor (N.lxor Ago0 Aso1) Ako1) Abo1) Amo0 in
  let Di1 := N.lxor Du1 Cw in
  let Du0 := N.lxor Cw (ROL32 Cz 1) in
  let Du1 := N.lxor Cy Cx in
  let Ba := N.lxor Aba0 Da0 in
  let Be := ROL32 (N.lxor Abe0 De0) 22 in
  let Bi := ROL32 (N.lxor Abi0 Di1) 22 in
  let Bo := ROL32 (N.lxor Abo0 Do1) 11 in
  let Bu := ROL32 (N.lxor Abu0 Du0) 7 in
  let Aba0 := N.lxor Ba (N.land (not32 Be) Bi) in
  let Aba0 := N.lxor Aba0 rc0 in
  let Abe0 := N.lxor Be (N.land (not32 Bi) Bo) in
  let Abi0 := N.lxor Bi (N.land (not32 Bo) Bu) in
  let Abo0 := N.lxor Bo (N.land (not32 Bu) Ba) in
  let Abu0 := N.lxor Bu (N.land (not32 Ba) Be) in
  let Ba := N.lxor Aba1 Da1 in
  let Be := ROL32 (N.lxor Abe1 De1) 22 in
  let Bi := ROL32 (N.lxor Abi1 Di0) 21 in
  let Bo := ROL32 (N.lxor Abo1 Do0) 10 in
  let Bu := ROL32 (N.lxor Abu1 Du1) 7 in
  let Aba1 := N.lxor Ba (N.land (not32 Be) Bi) in
  let Aba1 := N.lxor Aba1 rc1 in
  let Abe1 := N.lxor Be (N.land (not32 Bi) Bo) in
  let Abi1 := N.lxor Bi (N.land (not32 Bo) Bu) in
  let Abo1 := N.lxor Bo (N.land (not32 Bu) Ba) in
  let Abu1 := N.lxor Bu (N.land (not32 Ba) Be) in
  let Bi := ROL32 (N.lxor Aga0 Da1) 2 in
  let Bo := ROL32 (N.lxor Age0 De1) 23 in
  let Bu := ROL32 (N.lxor Agi0 Di1) 31 in
  let Ba := ROL32 (N.lxor Ago0 Do0) 14 in
  let Be := ROL32 (N.lxor Agu0 Du0) 10 in
  let Aga0 := N.lxor Ba (N.land (not32 Be) Bi) in
  let Age0 := N.lxor Be (N.land (not32 Bi) Bo) in
  let Agi0 := N.lxor Bi (N.land (not32 Bo) Bu) in
  let Ago0 := N.lxor Bo (N.land (not32 Bu) Ba) in
  let Agu0 := N.lxor Bu (N.land (not32 Ba) Be) in
  let Bi := ROL32 (N.lxor Aga1 Da0) 1 in
  let Bo := ROL32 (N.lxor Age1 De0) 22 in
  let Bu := ROL32 (N.lxor Agi1 Di0) 30 in
  let Ba := ROL32 (N.lxor Ago1 Do1) 14 in
  let Be := ROL32 (N.lxor Agu1 Du1) 10 in
  let Aga1 := N.lxor Ba (N.land (not32 Be) Bi) in
  let Age1 := N.lxor Be (N.land (not32 Bi) Bo) in
  let Agi1 := N.lxor Bi (N.land (not32 Bo) Bu) in
  let Ago1 := N.lxor Bo (N.land (not32 Bu) Ba) in
  let Agu1 := N.lxor Bu (N.land (not32 Ba) Be) in
  let Bu := ROL32 (N.lxor Aka0 Da0) 9 in
  let Ba := ROL32 (N.lxor Ake0 De1) 1 in
  let Be := ROL32 (N.lxor Aki0 Di0) 3 in
  let Bi := ROL32 (N.lxor Ako0 Do1) 13 in
  let Bo := ROL32 (N.lxor Aku0 Du0) 4 in
  let Aka0 := N.lxor Ba (N.land (not32 Be) Bi) in
  let Ake0 := N.lxor Be (N.land (not32 Bi) Bo) in
  let Aki0 := N.lxor Bi (N.land (not32 Bo) Bu) in
  let Ako0 := N.lxor Bo (N.land (not32 Bu) Ba) in
  let Aku0 := N.lxor Bu (N.land (not32 Ba) Be) in
  let Bu := ROL32 (N.lxor Aka1 Da1) 9 in
  let Ba := N.lxor Ake1 De0 in
  let Be := ROL32 (N.lxor Aki1 Di1) 3 in
  let Bi := ROL32 (N.lxor Ako1 Do0) 12 in
  let Bo := ROL32 (N.lxor Aku1 Du1) 4 in
  let Aka1 := N.lxor Ba (N.land (not32 Be) Bi) in
  let Ake1 := N.lxor Be (N.land (not32 Bi) Bo) in
  let Aki1 := N.lxor Bi (N.land (not32 Bo) Bu) in
  let Ako1 := N.lxor Bo (N.land (not32 Bu) Ba) in
  let Aku1 := N.lxor Bu (N.land (not32 Ba) Be) in
  let Be := ROL32 (N.lxor Ama0 Da0) 18 in
  let Bi := ROL32 (N.lxor Ame0 De0) 5 in
  let Bo := ROL32 (N.lxor Ami0 Di1) 8 in
  let Bu := ROL32 (N.lxor Amo0 Do0) 28 in
  let Ba := ROL32 (N.lxor Amu0 Du1) 14 in
  let Ama0 := N.lxor Ba (N.land (not32 Be) Bi) in
  let Ame0 := N.lxor Be (N.land (not32 Bi) Bo) in
  let Ami0 := N.lxor Bi (N.land (not32 Bo) Bu) in
  let Amo0 := N.lxor Bo (N.land (not32 Bu) Ba) in
  let Amu0 := N.lxor Bu (N.land (not32 Ba) Be) in
  let Be := ROL32 (N.lxor Ama1 Da1) 18 in
  let Bi := ROL32 (N.lxor Ame1 De1) 5 in
  let Bo := ROL32 (N.lxor Ami1 Di0) 7 in
  let Bu := ROL32 (N.lxor Amo1 Do1) 28 in
  let Ba := ROL32 (N.lxor Amu1 Du0) 13 in
  let Ama1 := N.lxor Ba (N.land (not32 Be) Bi) in
  let Ame1 := N.lxor Be (N.land (not32 Bi) Bo) in
  let Ami1 := N.lxor Bi (N.land (not32 Bo) Bu) in
  let Amo1 := N.lxor Bo (N.land (not32 Bu) Ba) in
  let Amu1 := N.lxor Bu (N.land (not32 Ba) Be) in
  let Bo := ROL32 (N.lxor Asa0 Da1) 21 in
  let Bu := ROL32 (N.lxor Ase0 De0) 1 in
  let Ba := ROL32 (N.lxor Asi0 Di0) 31 in
  let Be := ROL32 (N.lxor Aso0 Do1) 28 in
  let Bi := ROL32 (N.lxor Asu0 Du1) 20 in
  let Asa0 := N.lxor Ba (N.land (not32 Be) Bi) in
  let Ase0 := N.lxor Be (N.land (not32 Bi) Bo) in
  let Asi0 := N.lxor Bi (N.land (not32 Bo) Bu) in
  let Aso0 := N.lxor Bo (N.land (not32 Bu) Ba) in
  let Asu0 := N.lxor Bu (N.land (not32 Ba) Be) in
  let Bo := ROL32 (N.lxor Asa1 Da0) 20 in
  let Bu := ROL32 (N.lxor Ase1 De1) 1 in
  let Ba := ROL32 (N.lxor Asi1 Di1) 31 in
  let Be := ROL32 (N.lxor Aso1 Do0) 27 in
  let Bi := ROL32 (N.lxor Asu1 Du0) 19 in
  let Asa1 := N.lxor Ba (N.land (not32 Be) Bi) in
  let Ase1 := N.lxor Be (N.land (not32 Bi) Bo) in
  let Asi1 := N.lxor Bi (N.land (not32 Bo) Bu) in
  let Aso1 := N.lxor Bo (N.land (not32 Bu) Ba) in
  let Asu1 := N.lxor Bu (N.land (not32 Ba) Be) in
  Halves Aba0 Aba1 Abe0 Abe1 Abi0 Abi1 Abo0 Abo1 Abu0 Abu1 Aga0 Aga1 Age0 Age1 Agi0 Agi1 Ago0 Ago1 Agu0 Agu1 Aka0 Aka1 Ake0 Ake1 Aki0 Aki1 Ako0 Ako1 Aku0 Aku1 Ama0 Ama1 Ame0 Ame1 Ami0 Ami1 Amo0 Amo1 Amu0 Amu1 Asa0 Asa1 Ase0 Ase1 Asi0 Asi1 Aso0 Aso1 Asu0 Asu1.

(** KeccakP-1600-inplace32BI.c:1085-1097, an iteration of the do loop with nRounds = 0: four rounds, the two words at
    pRoundConstants for each.  [p]: pRoundConstants - KeccakF1600RoundConstants_int2 *)
Definition four_rounds (A : halves) (p : N) : res (halves * N) :=
  let rc := KeccakF1600RoundConstants_int2 in
  let! c0 := aget rc p in let! c1 := aget rc (p + 1) in
  let A := KeccakRound0 c0 c1 A in let p := p + 2 in
  let! c0 := aget rc p in let! c1 := aget rc (p + 1) in
  let A := KeccakRound1 c0 c1 A in let p := p + 2 in
  let! c0 := aget rc p in let! c1 := aget rc (p + 1) in
  let A := KeccakRound2 c0 c1 A in let p := p + 2 in
  let! c0 := aget rc p in let! c1 := aget rc (p + 1) in
  let A := KeccakRound3 c0 c1 A in let p := p + 2 in
  Ok (A, p).
(** do { ... } while ( *pRoundConstants != 0xFF ) *)
Fixpoint rounds_loop (fuel : nat) (A : halves) (p : N) : res halves :=
  match fuel with
  | O => UB
  | S f =>
      let! r := four_rounds A p in
      let '(A, p) := r in
      let! c := aget KeccakF1600RoundConstants_int2 p in
      if negb (c =? 0xFF) then rounds_loop f A p else Ok A
  end.
(** KeccakP-1600-inplace32BI.c:963-1149 KeccakP1600_Permute_Nrounds with nRounds = 24 (1160-1163
    KeccakP1600_Permute_24rounds): (24 - nRounds) * 2 = 0 and nRounds & 3 = 0, so the switch at 1023-1083 does
    nothing and all four rounds are done in the first iteration as in the others.  At most 25 iterations can
    read a constant. *)
Definition Permute32 (s : list N) : res (list N) :=
  let! A := halves_of_array s in
  let! A := rounds_loop 25 A 0 in
  Ok (array_of_halves A).

(** sha3/plain32 on a target of byte order [e] (no fast loop: plain32/KeccakP-1600-SnP.h) *)
Definition plain32 (e : endian) : snp :=
  mkSnp (list N) init32 AddByte32 (AddBytes32 e) (ExtractBytes32 e) Permute32 None.
