(** Generated by tools/ctc/c2v.py from the sources in /repo; see DESIGN.md. *)
From Coq Require Import ZArith List.
From Verif Require Import Model.CtLang Model.CtNames.
Import ListNotations.
Local Open Scope Z_scope.

(** sha3/opt64/KeccakP-1600-opt64.c:85-96, KeccakP1600_Initialize.
    Variables: 1 = state. *)
Definition c_KeccakP1600_Initialize : func := Func [1%positive] (
  SFill (EVar 1) (EInt 0) (EInt 200)).

(** sha3/opt64/KeccakP-1600-opt64.c:100-120, KeccakP1600_AddBytesInLane.
    Variables: 1 = state, 2 = lanePosition, 3 = data, 4 = offset, 5 = length, 6 = lane. *)
Definition c_KeccakP1600_AddBytesInLane : func := Func [1%positive; 2%positive; 3%positive; 4%positive; 5%positive] (
  SAlloc 6 (EInt 8) ;;
  SIf (EBin OEq s32 (EVar 5) (EInt 0))
    (
    SReturn (EInt 0))
    SSkip ;;
  SIf (EBin OEq s32 (EVar 5) (EInt 1))
    (
    SStore 8 (EVar 6) (ELoad 1 (EVar 3)))
    (
    SStore 8 (EVar 6) (EInt 0) ;;
    SCopy (EVar 6) (EVar 3) (EVar 5)) ;;
  SStore 8 (EVar 6) (EBin OShl u64 (ELoad 8 (EVar 6)) (EBin OMul u32 (EVar 4) (EInt 8))) ;;
  SSet 7 (EAt (EVar 1) 8 (EVar 2)) ;;
  SStore 8 (EVar 7) (EBin OXor u64 (ELoad 8 (EVar 7)) (ELoad 8 (EVar 6)))).

(** sha3/opt64/KeccakP-1600-opt64.c:124-178, KeccakP1600_AddLanes.
    Variables: 1 = state, 2 = data, 3 = laneCount, 4 = i. *)
Definition c_KeccakP1600_AddLanes : func := Func [1%positive; 2%positive; 3%positive] (
  SSet 4 (EInt 0) ;;
  SLoop (EBin OLe s32 (EBin OAdd u32 (EVar 4) (EInt 8)) (EVar 3))
    (
    SSet 4 (EBin OAdd u32 (EVar 4) (EInt 8)))
    (
    SSet 5 (EAt (EVar 1) 8 (EBin OAdd u32 (EVar 4) (EInt 0))) ;;
    SStore 8 (EVar 5) (EBin OXor u64 (ELoad 8 (EVar 5)) (ELoad 8 (EAt (EVar 2) 8 (EBin OAdd u32 (EVar 4) (EInt 0))))) ;;
    SSet 6 (EAt (EVar 1) 8 (EBin OAdd u32 (EVar 4) (EInt 1))) ;;
    SStore 8 (EVar 6) (EBin OXor u64 (ELoad 8 (EVar 6)) (ELoad 8 (EAt (EVar 2) 8 (EBin OAdd u32 (EVar 4) (EInt 1))))) ;;
    SSet 7 (EAt (EVar 1) 8 (EBin OAdd u32 (EVar 4) (EInt 2))) ;;
    SStore 8 (EVar 7) (EBin OXor u64 (ELoad 8 (EVar 7)) (ELoad 8 (EAt (EVar 2) 8 (EBin OAdd u32 (EVar 4) (EInt 2))))) ;;
    SSet 8 (EAt (EVar 1) 8 (EBin OAdd u32 (EVar 4) (EInt 3))) ;;
    SStore 8 (EVar 8) (EBin OXor u64 (ELoad 8 (EVar 8)) (ELoad 8 (EAt (EVar 2) 8 (EBin OAdd u32 (EVar 4) (EInt 3))))) ;;
    SSet 9 (EAt (EVar 1) 8 (EBin OAdd u32 (EVar 4) (EInt 4))) ;;
    SStore 8 (EVar 9) (EBin OXor u64 (ELoad 8 (EVar 9)) (ELoad 8 (EAt (EVar 2) 8 (EBin OAdd u32 (EVar 4) (EInt 4))))) ;;
    SSet 10 (EAt (EVar 1) 8 (EBin OAdd u32 (EVar 4) (EInt 5))) ;;
    SStore 8 (EVar 10) (EBin OXor u64 (ELoad 8 (EVar 10)) (ELoad 8 (EAt (EVar 2) 8 (EBin OAdd u32 (EVar 4) (EInt 5))))) ;;
    SSet 11 (EAt (EVar 1) 8 (EBin OAdd u32 (EVar 4) (EInt 6))) ;;
    SStore 8 (EVar 11) (EBin OXor u64 (ELoad 8 (EVar 11)) (ELoad 8 (EAt (EVar 2) 8 (EBin OAdd u32 (EVar 4) (EInt 6))))) ;;
    SSet 12 (EAt (EVar 1) 8 (EBin OAdd u32 (EVar 4) (EInt 7))) ;;
    SStore 8 (EVar 12) (EBin OXor u64 (ELoad 8 (EVar 12)) (ELoad 8 (EAt (EVar 2) 8 (EBin OAdd u32 (EVar 4) (EInt 7)))))) ;;
  SLoop (EBin OLe s32 (EBin OAdd u32 (EVar 4) (EInt 4)) (EVar 3))
    (
    SSet 4 (EBin OAdd u32 (EVar 4) (EInt 4)))
    (
    SSet 13 (EAt (EVar 1) 8 (EBin OAdd u32 (EVar 4) (EInt 0))) ;;
    SStore 8 (EVar 13) (EBin OXor u64 (ELoad 8 (EVar 13)) (ELoad 8 (EAt (EVar 2) 8 (EBin OAdd u32 (EVar 4) (EInt 0))))) ;;
    SSet 14 (EAt (EVar 1) 8 (EBin OAdd u32 (EVar 4) (EInt 1))) ;;
    SStore 8 (EVar 14) (EBin OXor u64 (ELoad 8 (EVar 14)) (ELoad 8 (EAt (EVar 2) 8 (EBin OAdd u32 (EVar 4) (EInt 1))))) ;;
    SSet 15 (EAt (EVar 1) 8 (EBin OAdd u32 (EVar 4) (EInt 2))) ;;
    SStore 8 (EVar 15) (EBin OXor u64 (ELoad 8 (EVar 15)) (ELoad 8 (EAt (EVar 2) 8 (EBin OAdd u32 (EVar 4) (EInt 2))))) ;;
    SSet 16 (EAt (EVar 1) 8 (EBin OAdd u32 (EVar 4) (EInt 3))) ;;
    SStore 8 (EVar 16) (EBin OXor u64 (ELoad 8 (EVar 16)) (ELoad 8 (EAt (EVar 2) 8 (EBin OAdd u32 (EVar 4) (EInt 3)))))) ;;
  SLoop (EBin OLe s32 (EBin OAdd u32 (EVar 4) (EInt 2)) (EVar 3))
    (
    SSet 4 (EBin OAdd u32 (EVar 4) (EInt 2)))
    (
    SSet 17 (EAt (EVar 1) 8 (EBin OAdd u32 (EVar 4) (EInt 0))) ;;
    SStore 8 (EVar 17) (EBin OXor u64 (ELoad 8 (EVar 17)) (ELoad 8 (EAt (EVar 2) 8 (EBin OAdd u32 (EVar 4) (EInt 0))))) ;;
    SSet 18 (EAt (EVar 1) 8 (EBin OAdd u32 (EVar 4) (EInt 1))) ;;
    SStore 8 (EVar 18) (EBin OXor u64 (ELoad 8 (EVar 18)) (ELoad 8 (EAt (EVar 2) 8 (EBin OAdd u32 (EVar 4) (EInt 1)))))) ;;
  SIf (EBin OLt s32 (EVar 4) (EVar 3))
    (
    SSet 19 (EAt (EVar 1) 8 (EBin OAdd u32 (EVar 4) (EInt 0))) ;;
    SStore 8 (EVar 19) (EBin OXor u64 (ELoad 8 (EVar 19)) (ELoad 8 (EAt (EVar 2) 8 (EBin OAdd u32 (EVar 4) (EInt 0))))))
    SSkip).

(** sha3/opt64/KeccakP-1600-opt64.c:193-196, KeccakP1600_AddBytes.
    Variables: 1 = state, 2 = data, 3 = offset, 4 = length, 5 = _sizeLeft, 6 = _lanePosition, 7 = _offsetInLane, 8 = _curData, 9 = _bytesInLane. *)
Definition c_KeccakP1600_AddBytes : func := Func [1%positive; 2%positive; 3%positive; 4%positive] (
  SIf (EBin OEq s32 (EVar 3) (EInt 0))
    (
    SCall None f_KeccakP1600_AddLanes [(EVar 1); (EVar 2); (EDiv ODiv u32 (EVar 4) (EInt 8))] ;;
    SCall None f_KeccakP1600_AddBytesInLane [(EVar 1); (EDiv ODiv u32 (EVar 4) (EInt 8)); (EAt (EVar 2) 1 (EBin OMul u32 (EDiv ODiv u32 (EVar 4) (EInt 8)) (EInt 8))); (EInt 0); (EDiv OMod u32 (EVar 4) (EInt 8))])
    (
    SSet 5 (EVar 4) ;;
    SSet 6 (EDiv ODiv u32 (EVar 3) (EInt 8)) ;;
    SSet 7 (EDiv OMod u32 (EVar 3) (EInt 8)) ;;
    SSet 8 (EVar 2) ;;
    SLoop (EBin OGt s32 (EVar 5) (EInt 0))
      SSkip
      (
      SSet 9 (EBin OSub u32 (EInt 8) (EVar 7)) ;;
      SIf (EBin OGt s32 (EVar 9) (EVar 5))
        (
        SSet 9 (EVar 5))
        SSkip ;;
      SCall None f_KeccakP1600_AddBytesInLane [(EVar 1); (EVar 6); (EVar 8); (EVar 7); (EVar 9)] ;;
      SSet 5 (EBin OSub u32 (EVar 5) (EVar 9)) ;;
      SSet 6 (EBin OAdd u32 (EVar 6) (EInt 1)) ;;
      SSet 7 (EInt 0) ;;
      SSet 8 (EAt (EVar 8) 1 (EVar 9))))).

(** sha3/opt64/KeccakP-1600-opt64.c:342-353, KeccakP1600_Permute_24rounds.
    Variables: 1 = state, 2 = Aba, 3 = Abe, 4 = Abi, 5 = Abo, 6 = Abu, 7 = Aga, 8 = Age, 9 = Agi, 10 = Ago, 11 = Agu, 12 = Aka, 13 = Ake, 14 = Aki, 15 = Ako, 16 = Aku, 17 = Ama, 18 = Ame, 19 = Ami, 20 = Amo, 21 = Amu, 22 = Asa, 23 = Ase, 24 = Asi, 25 = Aso, 26 = Asu, 27 = Bba, 28 = Bbe, 29 = Bbi, 30 = Bbo, 31 = Bbu, 32 = Bga, 33 = Bge, 34 = Bgi, 35 = Bgo, 36 = Bgu, 37 = Bka, 38 = Bke, 39 = Bki, 40 = Bko, 41 = Bku, 42 = Bma, 43 = Bme, 44 = Bmi, 45 = Bmo, 46 = Bmu, 47 = Bsa, 48 = Bse, 49 = Bsi, 50 = Bso, 51 = Bsu, 52 = Ca, 53 = Ce, 54 = Ci, 55 = Co, 56 = Cu, 57 = Da, 58 = De, 59 = Di, 60 = Do, 61 = Du, 62 = Eba, 63 = Ebe, 64 = Ebi, 65 = Ebo, 66 = Ebu, 67 = Ega, 68 = Ege, 69 = Egi, 70 = Ego, 71 = Egu, 72 = Eka, 73 = Eke, 74 = Eki, 75 = Eko, 76 = Eku, 77 = Ema, 78 = Eme, 79 = Emi, 80 = Emo, 81 = Emu, 82 = Esa, 83 = Ese, 84 = Esi, 85 = Eso, 86 = Esu, 87 = stateAsLanes. *)
Definition c_KeccakP1600_Permute_24rounds : func := Func [1%positive] (
  (
  (
  (
  (
  (
  (
  SSet 87 (EVar 1) ;;
  SSet 2 (ELoad 8 (EVar 87)) ;;
  SSet 3 (ELoad 8 (EAt (EVar 87) 8 (EInt 1))) ;;
  SSet 4 (ELoad 8 (EAt (EVar 87) 8 (EInt 2))) ;;
  SSet 5 (ELoad 8 (EAt (EVar 87) 8 (EInt 3))) ;;
  SSet 6 (ELoad 8 (EAt (EVar 87) 8 (EInt 4))) ;;
  SSet 7 (ELoad 8 (EAt (EVar 87) 8 (EInt 5))) ;;
  SSet 8 (ELoad 8 (EAt (EVar 87) 8 (EInt 6))) ;;
  SSet 9 (ELoad 8 (EAt (EVar 87) 8 (EInt 7))) ;;
  SSet 10 (ELoad 8 (EAt (EVar 87) 8 (EInt 8))) ;;
  SSet 11 (ELoad 8 (EAt (EVar 87) 8 (EInt 9))) ;;
  SSet 12 (ELoad 8 (EAt (EVar 87) 8 (EInt 10))) ;;
  SSet 13 (ELoad 8 (EAt (EVar 87) 8 (EInt 11))) ;;
  SSet 14 (ELoad 8 (EAt (EVar 87) 8 (EInt 12))) ;;
  SSet 15 (ELoad 8 (EAt (EVar 87) 8 (EInt 13))) ;;
  SSet 16 (ELoad 8 (EAt (EVar 87) 8 (EInt 14))) ;;
  SSet 17 (ELoad 8 (EAt (EVar 87) 8 (EInt 15))) ;;
  SSet 18 (ELoad 8 (EAt (EVar 87) 8 (EInt 16))) ;;
  SSet 19 (ELoad 8 (EAt (EVar 87) 8 (EInt 17))) ;;
  SSet 20 (ELoad 8 (EAt (EVar 87) 8 (EInt 18))) ;;
  SSet 21 (ELoad 8 (EAt (EVar 87) 8 (EInt 19))) ;;
  SSet 22 (ELoad 8 (EAt (EVar 87) 8 (EInt 20))) ;;
  SSet 23 (ELoad 8 (EAt (EVar 87) 8 (EInt 21))) ;;
  SSet 24 (ELoad 8 (EAt (EVar 87) 8 (EInt 22))) ;;
  SSet 25 (ELoad 8 (EAt (EVar 87) 8 (EInt 23))) ;;
  SSet 26 (ELoad 8 (EAt (EVar 87) 8 (EInt 24))) ;;
  SSet 52 (EBin OXor u64 (EBin OXor u64 (EBin OXor u64 (EBin OXor u64 (EVar 2) (EVar 7)) (EVar 12)) (EVar 17)) (EVar 22)) ;;
  SSet 53 (EBin OXor u64 (EBin OXor u64 (EBin OXor u64 (EBin OXor u64 (EVar 3) (EVar 8)) (EVar 13)) (EVar 18)) (EVar 23)) ;;
  SSet 54 (EBin OXor u64 (EBin OXor u64 (EBin OXor u64 (EBin OXor u64 (EVar 4) (EVar 9)) (EVar 14)) (EVar 19)) (EVar 24)) ;;
  SSet 55 (EBin OXor u64 (EBin OXor u64 (EBin OXor u64 (EBin OXor u64 (EVar 5) (EVar 10)) (EVar 15)) (EVar 20)) (EVar 25)) ;;
  SSet 56 (EBin OXor u64 (EBin OXor u64 (EBin OXor u64 (EBin OXor u64 (EVar 6) (EVar 11)) (EVar 16)) (EVar 21)) (EVar 26)) ;;
  SSet 57 (EBin OXor u64 (EVar 56) (EBin OXor u64 (EBin OShl u64 (EVar 53) (EInt 1)) (EBin OShr u64 (EVar 53) (EInt 63)))) ;;
  SSet 58 (EBin OXor u64 (EVar 52) (EBin OXor u64 (EBin OShl u64 (EVar 54) (EInt 1)) (EBin OShr u64 (EVar 54) (EInt 63)))) ;;
  SSet 59 (EBin OXor u64 (EVar 53) (EBin OXor u64 (EBin OShl u64 (EVar 55) (EInt 1)) (EBin OShr u64 (EVar 55) (EInt 63)))) ;;
  SSet 60 (EBin OXor u64 (EVar 54) (EBin OXor u64 (EBin OShl u64 (EVar 56) (EInt 1)) (EBin OShr u64 (EVar 56) (EInt 63)))) ;;
  SSet 61 (EBin OXor u64 (EVar 55) (EBin OXor u64 (EBin OShl u64 (EVar 52) (EInt 1)) (EBin OShr u64 (EVar 52) (EInt 63)))) ;;
  SSet 2 (EBin OXor u64 (EVar 2) (EVar 57)) ;;
  SSet 27 (EVar 2) ;;
  SSet 8 (EBin OXor u64 (EVar 8) (EVar 58)) ;;
  SSet 28 (EBin OXor u64 (EBin OShl u64 (EVar 8) (EInt 44)) (EBin OShr u64 (EVar 8) (EInt 20)))) ;;
  (
  SSet 14 (EBin OXor u64 (EVar 14) (EVar 59)) ;;
  SSet 29 (EBin OXor u64 (EBin OShl u64 (EVar 14) (EInt 43)) (EBin OShr u64 (EVar 14) (EInt 21))) ;;
  SSet 20 (EBin OXor u64 (EVar 20) (EVar 60)) ;;
  SSet 30 (EBin OXor u64 (EBin OShl u64 (EVar 20) (EInt 21)) (EBin OShr u64 (EVar 20) (EInt 43))) ;;
  SSet 26 (EBin OXor u64 (EVar 26) (EVar 61)) ;;
  SSet 31 (EBin OXor u64 (EBin OShl u64 (EVar 26) (EInt 14)) (EBin OShr u64 (EVar 26) (EInt 50))) ;;
  SSet 62 (EBin OXor u64 (EVar 27) (EBin OAnd u64 (EUn ONot u64 (EVar 28)) (EVar 29))) ;;
  SSet 62 (EBin OXor u64 (EVar 62) (ELoad 8 (EGlob 1))) ;;
  SSet 52 (EVar 62) ;;
  SSet 63 (EBin OXor u64 (EVar 28) (EBin OAnd u64 (EUn ONot u64 (EVar 29)) (EVar 30))) ;;
  SSet 53 (EVar 63) ;;
  SSet 64 (EBin OXor u64 (EVar 29) (EBin OAnd u64 (EUn ONot u64 (EVar 30)) (EVar 31))) ;;
  SSet 54 (EVar 64) ;;
  SSet 65 (EBin OXor u64 (EVar 30) (EBin OAnd u64 (EUn ONot u64 (EVar 31)) (EVar 27))) ;;
  SSet 55 (EVar 65) ;;
  SSet 66 (EBin OXor u64 (EVar 31) (EBin OAnd u64 (EUn ONot u64 (EVar 27)) (EVar 28))) ;;
  SSet 56 (EVar 66) ;;
  SSet 5 (EBin OXor u64 (EVar 5) (EVar 60)) ;;
  SSet 32 (EBin OXor u64 (EBin OShl u64 (EVar 5) (EInt 28)) (EBin OShr u64 (EVar 5) (EInt 36))) ;;
  SSet 11 (EBin OXor u64 (EVar 11) (EVar 61)) ;;
  SSet 33 (EBin OXor u64 (EBin OShl u64 (EVar 11) (EInt 20)) (EBin OShr u64 (EVar 11) (EInt 44))) ;;
  SSet 12 (EBin OXor u64 (EVar 12) (EVar 57)) ;;
  SSet 34 (EBin OXor u64 (EBin OShl u64 (EVar 12) (EInt 3)) (EBin OShr u64 (EVar 12) (EInt 61))) ;;
  SSet 18 (EBin OXor u64 (EVar 18) (EVar 58)) ;;
  SSet 35 (EBin OXor u64 (EBin OShl u64 (EVar 18) (EInt 45)) (EBin OShr u64 (EVar 18) (EInt 19))) ;;
  SSet 24 (EBin OXor u64 (EVar 24) (EVar 59)) ;;
  SSet 36 (EBin OXor u64 (EBin OShl u64 (EVar 24) (EInt 61)) (EBin OShr u64 (EVar 24) (EInt 3))) ;;
  SSet 67 (EBin OXor u64 (EVar 32) (EBin OAnd u64 (EUn ONot u64 (EVar 33)) (EVar 34))) ;;
  SSet 52 (EBin OXor u64 (EVar 52) (EVar 67)) ;;
  SSet 68 (EBin OXor u64 (EVar 33) (EBin OAnd u64 (EUn ONot u64 (EVar 34)) (EVar 35))) ;;
  SSet 53 (EBin OXor u64 (EVar 53) (EVar 68)) ;;
  SSet 69 (EBin OXor u64 (EVar 34) (EBin OAnd u64 (EUn ONot u64 (EVar 35)) (EVar 36))) ;;
  SSet 54 (EBin OXor u64 (EVar 54) (EVar 69)) ;;
  SSet 70 (EBin OXor u64 (EVar 35) (EBin OAnd u64 (EUn ONot u64 (EVar 36)) (EVar 32))) ;;
  SSet 55 (EBin OXor u64 (EVar 55) (EVar 70)) ;;
  SSet 71 (EBin OXor u64 (EVar 36) (EBin OAnd u64 (EUn ONot u64 (EVar 32)) (EVar 33))) ;;
  SSet 56 (EBin OXor u64 (EVar 56) (EVar 71)) ;;
  SSet 3 (EBin OXor u64 (EVar 3) (EVar 58)) ;;
  SSet 37 (EBin OXor u64 (EBin OShl u64 (EVar 3) (EInt 1)) (EBin OShr u64 (EVar 3) (EInt 63))) ;;
  SSet 9 (EBin OXor u64 (EVar 9) (EVar 59)))) ;;
  (
  (
  SSet 38 (EBin OXor u64 (EBin OShl u64 (EVar 9) (EInt 6)) (EBin OShr u64 (EVar 9) (EInt 58))) ;;
  SSet 15 (EBin OXor u64 (EVar 15) (EVar 60)) ;;
  SSet 39 (EBin OXor u64 (EBin OShl u64 (EVar 15) (EInt 25)) (EBin OShr u64 (EVar 15) (EInt 39))) ;;
  SSet 21 (EBin OXor u64 (EVar 21) (EVar 61)) ;;
  SSet 40 (EBin OXor u64 (EBin OShl u64 (EVar 21) (EInt 8)) (EBin OShr u64 (EVar 21) (EInt 56))) ;;
  SSet 22 (EBin OXor u64 (EVar 22) (EVar 57)) ;;
  SSet 41 (EBin OXor u64 (EBin OShl u64 (EVar 22) (EInt 18)) (EBin OShr u64 (EVar 22) (EInt 46))) ;;
  SSet 72 (EBin OXor u64 (EVar 37) (EBin OAnd u64 (EUn ONot u64 (EVar 38)) (EVar 39))) ;;
  SSet 52 (EBin OXor u64 (EVar 52) (EVar 72)) ;;
  SSet 73 (EBin OXor u64 (EVar 38) (EBin OAnd u64 (EUn ONot u64 (EVar 39)) (EVar 40))) ;;
  SSet 53 (EBin OXor u64 (EVar 53) (EVar 73)) ;;
  SSet 74 (EBin OXor u64 (EVar 39) (EBin OAnd u64 (EUn ONot u64 (EVar 40)) (EVar 41))) ;;
  SSet 54 (EBin OXor u64 (EVar 54) (EVar 74)) ;;
  SSet 75 (EBin OXor u64 (EVar 40) (EBin OAnd u64 (EUn ONot u64 (EVar 41)) (EVar 37))) ;;
  SSet 55 (EBin OXor u64 (EVar 55) (EVar 75)) ;;
  SSet 76 (EBin OXor u64 (EVar 41) (EBin OAnd u64 (EUn ONot u64 (EVar 37)) (EVar 38))) ;;
  SSet 56 (EBin OXor u64 (EVar 56) (EVar 76)) ;;
  SSet 6 (EBin OXor u64 (EVar 6) (EVar 61)) ;;
  SSet 42 (EBin OXor u64 (EBin OShl u64 (EVar 6) (EInt 27)) (EBin OShr u64 (EVar 6) (EInt 37))) ;;
  SSet 7 (EBin OXor u64 (EVar 7) (EVar 57)) ;;
  SSet 43 (EBin OXor u64 (EBin OShl u64 (EVar 7) (EInt 36)) (EBin OShr u64 (EVar 7) (EInt 28))) ;;
  SSet 13 (EBin OXor u64 (EVar 13) (EVar 58)) ;;
  SSet 44 (EBin OXor u64 (EBin OShl u64 (EVar 13) (EInt 10)) (EBin OShr u64 (EVar 13) (EInt 54))) ;;
  SSet 19 (EBin OXor u64 (EVar 19) (EVar 59)) ;;
  SSet 45 (EBin OXor u64 (EBin OShl u64 (EVar 19) (EInt 15)) (EBin OShr u64 (EVar 19) (EInt 49))) ;;
  SSet 25 (EBin OXor u64 (EVar 25) (EVar 60)) ;;
  SSet 46 (EBin OXor u64 (EBin OShl u64 (EVar 25) (EInt 56)) (EBin OShr u64 (EVar 25) (EInt 8))) ;;
  SSet 77 (EBin OXor u64 (EVar 42) (EBin OAnd u64 (EUn ONot u64 (EVar 43)) (EVar 44))) ;;
  SSet 52 (EBin OXor u64 (EVar 52) (EVar 77)) ;;
  SSet 78 (EBin OXor u64 (EVar 43) (EBin OAnd u64 (EUn ONot u64 (EVar 44)) (EVar 45))) ;;
  SSet 53 (EBin OXor u64 (EVar 53) (EVar 78)) ;;
  SSet 79 (EBin OXor u64 (EVar 44) (EBin OAnd u64 (EUn ONot u64 (EVar 45)) (EVar 46))) ;;
  SSet 54 (EBin OXor u64 (EVar 54) (EVar 79)) ;;
  SSet 80 (EBin OXor u64 (EVar 45) (EBin OAnd u64 (EUn ONot u64 (EVar 46)) (EVar 42))) ;;
  SSet 55 (EBin OXor u64 (EVar 55) (EVar 80)) ;;
  SSet 81 (EBin OXor u64 (EVar 46) (EBin OAnd u64 (EUn ONot u64 (EVar 42)) (EVar 43))) ;;
  SSet 56 (EBin OXor u64 (EVar 56) (EVar 81)) ;;
  SSet 4 (EBin OXor u64 (EVar 4) (EVar 59)) ;;
  SSet 47 (EBin OXor u64 (EBin OShl u64 (EVar 4) (EInt 62)) (EBin OShr u64 (EVar 4) (EInt 2))) ;;
  SSet 10 (EBin OXor u64 (EVar 10) (EVar 60))) ;;
  (
  SSet 48 (EBin OXor u64 (EBin OShl u64 (EVar 10) (EInt 55)) (EBin OShr u64 (EVar 10) (EInt 9))) ;;
  SSet 16 (EBin OXor u64 (EVar 16) (EVar 61)) ;;
  SSet 49 (EBin OXor u64 (EBin OShl u64 (EVar 16) (EInt 39)) (EBin OShr u64 (EVar 16) (EInt 25))) ;;
  SSet 17 (EBin OXor u64 (EVar 17) (EVar 57)) ;;
  SSet 50 (EBin OXor u64 (EBin OShl u64 (EVar 17) (EInt 41)) (EBin OShr u64 (EVar 17) (EInt 23))) ;;
  SSet 23 (EBin OXor u64 (EVar 23) (EVar 58)) ;;
  SSet 51 (EBin OXor u64 (EBin OShl u64 (EVar 23) (EInt 2)) (EBin OShr u64 (EVar 23) (EInt 62))) ;;
  SSet 82 (EBin OXor u64 (EVar 47) (EBin OAnd u64 (EUn ONot u64 (EVar 48)) (EVar 49))) ;;
  SSet 52 (EBin OXor u64 (EVar 52) (EVar 82)) ;;
  SSet 83 (EBin OXor u64 (EVar 48) (EBin OAnd u64 (EUn ONot u64 (EVar 49)) (EVar 50))) ;;
  SSet 53 (EBin OXor u64 (EVar 53) (EVar 83)) ;;
  SSet 84 (EBin OXor u64 (EVar 49) (EBin OAnd u64 (EUn ONot u64 (EVar 50)) (EVar 51))) ;;
  SSet 54 (EBin OXor u64 (EVar 54) (EVar 84)) ;;
  SSet 85 (EBin OXor u64 (EVar 50) (EBin OAnd u64 (EUn ONot u64 (EVar 51)) (EVar 47))) ;;
  SSet 55 (EBin OXor u64 (EVar 55) (EVar 85)) ;;
  SSet 86 (EBin OXor u64 (EVar 51) (EBin OAnd u64 (EUn ONot u64 (EVar 47)) (EVar 48))) ;;
  SSet 56 (EBin OXor u64 (EVar 56) (EVar 86)) ;;
  SSet 57 (EBin OXor u64 (EVar 56) (EBin OXor u64 (EBin OShl u64 (EVar 53) (EInt 1)) (EBin OShr u64 (EVar 53) (EInt 63)))) ;;
  SSet 58 (EBin OXor u64 (EVar 52) (EBin OXor u64 (EBin OShl u64 (EVar 54) (EInt 1)) (EBin OShr u64 (EVar 54) (EInt 63)))) ;;
  SSet 59 (EBin OXor u64 (EVar 53) (EBin OXor u64 (EBin OShl u64 (EVar 55) (EInt 1)) (EBin OShr u64 (EVar 55) (EInt 63)))) ;;
  SSet 60 (EBin OXor u64 (EVar 54) (EBin OXor u64 (EBin OShl u64 (EVar 56) (EInt 1)) (EBin OShr u64 (EVar 56) (EInt 63)))) ;;
  SSet 61 (EBin OXor u64 (EVar 55) (EBin OXor u64 (EBin OShl u64 (EVar 52) (EInt 1)) (EBin OShr u64 (EVar 52) (EInt 63)))) ;;
  SSet 62 (EBin OXor u64 (EVar 62) (EVar 57)) ;;
  SSet 27 (EVar 62) ;;
  SSet 68 (EBin OXor u64 (EVar 68) (EVar 58)) ;;
  SSet 28 (EBin OXor u64 (EBin OShl u64 (EVar 68) (EInt 44)) (EBin OShr u64 (EVar 68) (EInt 20))) ;;
  SSet 74 (EBin OXor u64 (EVar 74) (EVar 59)) ;;
  SSet 29 (EBin OXor u64 (EBin OShl u64 (EVar 74) (EInt 43)) (EBin OShr u64 (EVar 74) (EInt 21))) ;;
  SSet 80 (EBin OXor u64 (EVar 80) (EVar 60)) ;;
  SSet 30 (EBin OXor u64 (EBin OShl u64 (EVar 80) (EInt 21)) (EBin OShr u64 (EVar 80) (EInt 43))) ;;
  SSet 86 (EBin OXor u64 (EVar 86) (EVar 61)) ;;
  SSet 31 (EBin OXor u64 (EBin OShl u64 (EVar 86) (EInt 14)) (EBin OShr u64 (EVar 86) (EInt 50))) ;;
  SSet 2 (EBin OXor u64 (EVar 27) (EBin OAnd u64 (EUn ONot u64 (EVar 28)) (EVar 29))) ;;
  SSet 2 (EBin OXor u64 (EVar 2) (ELoad 8 (EAt (EGlob 1) 8 (EInt 1)))) ;;
  SSet 52 (EVar 2) ;;
  SSet 3 (EBin OXor u64 (EVar 28) (EBin OAnd u64 (EUn ONot u64 (EVar 29)) (EVar 30))) ;;
  SSet 53 (EVar 3) ;;
  SSet 4 (EBin OXor u64 (EVar 29) (EBin OAnd u64 (EUn ONot u64 (EVar 30)) (EVar 31))) ;;
  SSet 54 (EVar 4) ;;
  SSet 5 (EBin OXor u64 (EVar 30) (EBin OAnd u64 (EUn ONot u64 (EVar 31)) (EVar 27)))))) ;;
  (
  (
  (
  SSet 55 (EVar 5) ;;
  SSet 6 (EBin OXor u64 (EVar 31) (EBin OAnd u64 (EUn ONot u64 (EVar 27)) (EVar 28))) ;;
  SSet 56 (EVar 6) ;;
  SSet 65 (EBin OXor u64 (EVar 65) (EVar 60)) ;;
  SSet 32 (EBin OXor u64 (EBin OShl u64 (EVar 65) (EInt 28)) (EBin OShr u64 (EVar 65) (EInt 36))) ;;
  SSet 71 (EBin OXor u64 (EVar 71) (EVar 61)) ;;
  SSet 33 (EBin OXor u64 (EBin OShl u64 (EVar 71) (EInt 20)) (EBin OShr u64 (EVar 71) (EInt 44))) ;;
  SSet 72 (EBin OXor u64 (EVar 72) (EVar 57)) ;;
  SSet 34 (EBin OXor u64 (EBin OShl u64 (EVar 72) (EInt 3)) (EBin OShr u64 (EVar 72) (EInt 61))) ;;
  SSet 78 (EBin OXor u64 (EVar 78) (EVar 58)) ;;
  SSet 35 (EBin OXor u64 (EBin OShl u64 (EVar 78) (EInt 45)) (EBin OShr u64 (EVar 78) (EInt 19))) ;;
  SSet 84 (EBin OXor u64 (EVar 84) (EVar 59)) ;;
  SSet 36 (EBin OXor u64 (EBin OShl u64 (EVar 84) (EInt 61)) (EBin OShr u64 (EVar 84) (EInt 3))) ;;
  SSet 7 (EBin OXor u64 (EVar 32) (EBin OAnd u64 (EUn ONot u64 (EVar 33)) (EVar 34))) ;;
  SSet 52 (EBin OXor u64 (EVar 52) (EVar 7)) ;;
  SSet 8 (EBin OXor u64 (EVar 33) (EBin OAnd u64 (EUn ONot u64 (EVar 34)) (EVar 35))) ;;
  SSet 53 (EBin OXor u64 (EVar 53) (EVar 8)) ;;
  SSet 9 (EBin OXor u64 (EVar 34) (EBin OAnd u64 (EUn ONot u64 (EVar 35)) (EVar 36))) ;;
  SSet 54 (EBin OXor u64 (EVar 54) (EVar 9)) ;;
  SSet 10 (EBin OXor u64 (EVar 35) (EBin OAnd u64 (EUn ONot u64 (EVar 36)) (EVar 32))) ;;
  SSet 55 (EBin OXor u64 (EVar 55) (EVar 10)) ;;
  SSet 11 (EBin OXor u64 (EVar 36) (EBin OAnd u64 (EUn ONot u64 (EVar 32)) (EVar 33))) ;;
  SSet 56 (EBin OXor u64 (EVar 56) (EVar 11)) ;;
  SSet 63 (EBin OXor u64 (EVar 63) (EVar 58)) ;;
  SSet 37 (EBin OXor u64 (EBin OShl u64 (EVar 63) (EInt 1)) (EBin OShr u64 (EVar 63) (EInt 63))) ;;
  SSet 69 (EBin OXor u64 (EVar 69) (EVar 59)) ;;
  SSet 38 (EBin OXor u64 (EBin OShl u64 (EVar 69) (EInt 6)) (EBin OShr u64 (EVar 69) (EInt 58))) ;;
  SSet 75 (EBin OXor u64 (EVar 75) (EVar 60)) ;;
  SSet 39 (EBin OXor u64 (EBin OShl u64 (EVar 75) (EInt 25)) (EBin OShr u64 (EVar 75) (EInt 39))) ;;
  SSet 81 (EBin OXor u64 (EVar 81) (EVar 61)) ;;
  SSet 40 (EBin OXor u64 (EBin OShl u64 (EVar 81) (EInt 8)) (EBin OShr u64 (EVar 81) (EInt 56))) ;;
  SSet 82 (EBin OXor u64 (EVar 82) (EVar 57)) ;;
  SSet 41 (EBin OXor u64 (EBin OShl u64 (EVar 82) (EInt 18)) (EBin OShr u64 (EVar 82) (EInt 46))) ;;
  SSet 12 (EBin OXor u64 (EVar 37) (EBin OAnd u64 (EUn ONot u64 (EVar 38)) (EVar 39))) ;;
  SSet 52 (EBin OXor u64 (EVar 52) (EVar 12)) ;;
  SSet 13 (EBin OXor u64 (EVar 38) (EBin OAnd u64 (EUn ONot u64 (EVar 39)) (EVar 40))) ;;
  SSet 53 (EBin OXor u64 (EVar 53) (EVar 13)) ;;
  SSet 14 (EBin OXor u64 (EVar 39) (EBin OAnd u64 (EUn ONot u64 (EVar 40)) (EVar 41))) ;;
  SSet 54 (EBin OXor u64 (EVar 54) (EVar 14)) ;;
  SSet 15 (EBin OXor u64 (EVar 40) (EBin OAnd u64 (EUn ONot u64 (EVar 41)) (EVar 37)))) ;;
  (
  SSet 55 (EBin OXor u64 (EVar 55) (EVar 15)) ;;
  SSet 16 (EBin OXor u64 (EVar 41) (EBin OAnd u64 (EUn ONot u64 (EVar 37)) (EVar 38))) ;;
  SSet 56 (EBin OXor u64 (EVar 56) (EVar 16)) ;;
  SSet 66 (EBin OXor u64 (EVar 66) (EVar 61)) ;;
  SSet 42 (EBin OXor u64 (EBin OShl u64 (EVar 66) (EInt 27)) (EBin OShr u64 (EVar 66) (EInt 37))) ;;
  SSet 67 (EBin OXor u64 (EVar 67) (EVar 57)) ;;
  SSet 43 (EBin OXor u64 (EBin OShl u64 (EVar 67) (EInt 36)) (EBin OShr u64 (EVar 67) (EInt 28))) ;;
  SSet 73 (EBin OXor u64 (EVar 73) (EVar 58)) ;;
  SSet 44 (EBin OXor u64 (EBin OShl u64 (EVar 73) (EInt 10)) (EBin OShr u64 (EVar 73) (EInt 54))) ;;
  SSet 79 (EBin OXor u64 (EVar 79) (EVar 59)) ;;
  SSet 45 (EBin OXor u64 (EBin OShl u64 (EVar 79) (EInt 15)) (EBin OShr u64 (EVar 79) (EInt 49))) ;;
  SSet 85 (EBin OXor u64 (EVar 85) (EVar 60)) ;;
  SSet 46 (EBin OXor u64 (EBin OShl u64 (EVar 85) (EInt 56)) (EBin OShr u64 (EVar 85) (EInt 8))) ;;
  SSet 17 (EBin OXor u64 (EVar 42) (EBin OAnd u64 (EUn ONot u64 (EVar 43)) (EVar 44))) ;;
  SSet 52 (EBin OXor u64 (EVar 52) (EVar 17)) ;;
  SSet 18 (EBin OXor u64 (EVar 43) (EBin OAnd u64 (EUn ONot u64 (EVar 44)) (EVar 45))) ;;
  SSet 53 (EBin OXor u64 (EVar 53) (EVar 18)) ;;
  SSet 19 (EBin OXor u64 (EVar 44) (EBin OAnd u64 (EUn ONot u64 (EVar 45)) (EVar 46))) ;;
  SSet 54 (EBin OXor u64 (EVar 54) (EVar 19)) ;;
  SSet 20 (EBin OXor u64 (EVar 45) (EBin OAnd u64 (EUn ONot u64 (EVar 46)) (EVar 42))) ;;
  SSet 55 (EBin OXor u64 (EVar 55) (EVar 20)) ;;
  SSet 21 (EBin OXor u64 (EVar 46) (EBin OAnd u64 (EUn ONot u64 (EVar 42)) (EVar 43))) ;;
  SSet 56 (EBin OXor u64 (EVar 56) (EVar 21)) ;;
  SSet 64 (EBin OXor u64 (EVar 64) (EVar 59)) ;;
  SSet 47 (EBin OXor u64 (EBin OShl u64 (EVar 64) (EInt 62)) (EBin OShr u64 (EVar 64) (EInt 2))) ;;
  SSet 70 (EBin OXor u64 (EVar 70) (EVar 60)) ;;
  SSet 48 (EBin OXor u64 (EBin OShl u64 (EVar 70) (EInt 55)) (EBin OShr u64 (EVar 70) (EInt 9))) ;;
  SSet 76 (EBin OXor u64 (EVar 76) (EVar 61)) ;;
  SSet 49 (EBin OXor u64 (EBin OShl u64 (EVar 76) (EInt 39)) (EBin OShr u64 (EVar 76) (EInt 25))) ;;
  SSet 77 (EBin OXor u64 (EVar 77) (EVar 57)) ;;
  SSet 50 (EBin OXor u64 (EBin OShl u64 (EVar 77) (EInt 41)) (EBin OShr u64 (EVar 77) (EInt 23))) ;;
  SSet 83 (EBin OXor u64 (EVar 83) (EVar 58)) ;;
  SSet 51 (EBin OXor u64 (EBin OShl u64 (EVar 83) (EInt 2)) (EBin OShr u64 (EVar 83) (EInt 62))) ;;
  SSet 22 (EBin OXor u64 (EVar 47) (EBin OAnd u64 (EUn ONot u64 (EVar 48)) (EVar 49))) ;;
  SSet 52 (EBin OXor u64 (EVar 52) (EVar 22)) ;;
  SSet 23 (EBin OXor u64 (EVar 48) (EBin OAnd u64 (EUn ONot u64 (EVar 49)) (EVar 50))) ;;
  SSet 53 (EBin OXor u64 (EVar 53) (EVar 23)) ;;
  SSet 24 (EBin OXor u64 (EVar 49) (EBin OAnd u64 (EUn ONot u64 (EVar 50)) (EVar 51))) ;;
  SSet 54 (EBin OXor u64 (EVar 54) (EVar 24)) ;;
  SSet 25 (EBin OXor u64 (EVar 50) (EBin OAnd u64 (EUn ONot u64 (EVar 51)) (EVar 47))))) ;;
  (
  (
  SSet 55 (EBin OXor u64 (EVar 55) (EVar 25)) ;;
  SSet 26 (EBin OXor u64 (EVar 51) (EBin OAnd u64 (EUn ONot u64 (EVar 47)) (EVar 48))) ;;
  SSet 56 (EBin OXor u64 (EVar 56) (EVar 26)) ;;
  SSet 57 (EBin OXor u64 (EVar 56) (EBin OXor u64 (EBin OShl u64 (EVar 53) (EInt 1)) (EBin OShr u64 (EVar 53) (EInt 63)))) ;;
  SSet 58 (EBin OXor u64 (EVar 52) (EBin OXor u64 (EBin OShl u64 (EVar 54) (EInt 1)) (EBin OShr u64 (EVar 54) (EInt 63)))) ;;
  SSet 59 (EBin OXor u64 (EVar 53) (EBin OXor u64 (EBin OShl u64 (EVar 55) (EInt 1)) (EBin OShr u64 (EVar 55) (EInt 63)))) ;;
  SSet 60 (EBin OXor u64 (EVar 54) (EBin OXor u64 (EBin OShl u64 (EVar 56) (EInt 1)) (EBin OShr u64 (EVar 56) (EInt 63)))) ;;
  SSet 61 (EBin OXor u64 (EVar 55) (EBin OXor u64 (EBin OShl u64 (EVar 52) (EInt 1)) (EBin OShr u64 (EVar 52) (EInt 63)))) ;;
  SSet 2 (EBin OXor u64 (EVar 2) (EVar 57)) ;;
  SSet 27 (EVar 2) ;;
  SSet 8 (EBin OXor u64 (EVar 8) (EVar 58)) ;;
  SSet 28 (EBin OXor u64 (EBin OShl u64 (EVar 8) (EInt 44)) (EBin OShr u64 (EVar 8) (EInt 20))) ;;
  SSet 14 (EBin OXor u64 (EVar 14) (EVar 59)) ;;
  SSet 29 (EBin OXor u64 (EBin OShl u64 (EVar 14) (EInt 43)) (EBin OShr u64 (EVar 14) (EInt 21))) ;;
  SSet 20 (EBin OXor u64 (EVar 20) (EVar 60)) ;;
  SSet 30 (EBin OXor u64 (EBin OShl u64 (EVar 20) (EInt 21)) (EBin OShr u64 (EVar 20) (EInt 43))) ;;
  SSet 26 (EBin OXor u64 (EVar 26) (EVar 61)) ;;
  SSet 31 (EBin OXor u64 (EBin OShl u64 (EVar 26) (EInt 14)) (EBin OShr u64 (EVar 26) (EInt 50))) ;;
  SSet 62 (EBin OXor u64 (EVar 27) (EBin OAnd u64 (EUn ONot u64 (EVar 28)) (EVar 29))) ;;
  SSet 62 (EBin OXor u64 (EVar 62) (ELoad 8 (EAt (EGlob 1) 8 (EInt 2)))) ;;
  SSet 52 (EVar 62) ;;
  SSet 63 (EBin OXor u64 (EVar 28) (EBin OAnd u64 (EUn ONot u64 (EVar 29)) (EVar 30))) ;;
  SSet 53 (EVar 63) ;;
  SSet 64 (EBin OXor u64 (EVar 29) (EBin OAnd u64 (EUn ONot u64 (EVar 30)) (EVar 31))) ;;
  SSet 54 (EVar 64) ;;
  SSet 65 (EBin OXor u64 (EVar 30) (EBin OAnd u64 (EUn ONot u64 (EVar 31)) (EVar 27))) ;;
  SSet 55 (EVar 65) ;;
  SSet 66 (EBin OXor u64 (EVar 31) (EBin OAnd u64 (EUn ONot u64 (EVar 27)) (EVar 28))) ;;
  SSet 56 (EVar 66) ;;
  SSet 5 (EBin OXor u64 (EVar 5) (EVar 60)) ;;
  SSet 32 (EBin OXor u64 (EBin OShl u64 (EVar 5) (EInt 28)) (EBin OShr u64 (EVar 5) (EInt 36))) ;;
  SSet 11 (EBin OXor u64 (EVar 11) (EVar 61)) ;;
  SSet 33 (EBin OXor u64 (EBin OShl u64 (EVar 11) (EInt 20)) (EBin OShr u64 (EVar 11) (EInt 44))) ;;
  SSet 12 (EBin OXor u64 (EVar 12) (EVar 57)) ;;
  SSet 34 (EBin OXor u64 (EBin OShl u64 (EVar 12) (EInt 3)) (EBin OShr u64 (EVar 12) (EInt 61))) ;;
  SSet 18 (EBin OXor u64 (EVar 18) (EVar 58)) ;;
  SSet 35 (EBin OXor u64 (EBin OShl u64 (EVar 18) (EInt 45)) (EBin OShr u64 (EVar 18) (EInt 19))) ;;
  SSet 24 (EBin OXor u64 (EVar 24) (EVar 59)) ;;
  SSet 36 (EBin OXor u64 (EBin OShl u64 (EVar 24) (EInt 61)) (EBin OShr u64 (EVar 24) (EInt 3))) ;;
  SSet 67 (EBin OXor u64 (EVar 32) (EBin OAnd u64 (EUn ONot u64 (EVar 33)) (EVar 34)))) ;;
  (
  (
  SSet 52 (EBin OXor u64 (EVar 52) (EVar 67)) ;;
  SSet 68 (EBin OXor u64 (EVar 33) (EBin OAnd u64 (EUn ONot u64 (EVar 34)) (EVar 35))) ;;
  SSet 53 (EBin OXor u64 (EVar 53) (EVar 68)) ;;
  SSet 69 (EBin OXor u64 (EVar 34) (EBin OAnd u64 (EUn ONot u64 (EVar 35)) (EVar 36))) ;;
  SSet 54 (EBin OXor u64 (EVar 54) (EVar 69)) ;;
  SSet 70 (EBin OXor u64 (EVar 35) (EBin OAnd u64 (EUn ONot u64 (EVar 36)) (EVar 32))) ;;
  SSet 55 (EBin OXor u64 (EVar 55) (EVar 70)) ;;
  SSet 71 (EBin OXor u64 (EVar 36) (EBin OAnd u64 (EUn ONot u64 (EVar 32)) (EVar 33))) ;;
  SSet 56 (EBin OXor u64 (EVar 56) (EVar 71)) ;;
  SSet 3 (EBin OXor u64 (EVar 3) (EVar 58)) ;;
  SSet 37 (EBin OXor u64 (EBin OShl u64 (EVar 3) (EInt 1)) (EBin OShr u64 (EVar 3) (EInt 63))) ;;
  SSet 9 (EBin OXor u64 (EVar 9) (EVar 59)) ;;
  SSet 38 (EBin OXor u64 (EBin OShl u64 (EVar 9) (EInt 6)) (EBin OShr u64 (EVar 9) (EInt 58))) ;;
  SSet 15 (EBin OXor u64 (EVar 15) (EVar 60)) ;;
  SSet 39 (EBin OXor u64 (EBin OShl u64 (EVar 15) (EInt 25)) (EBin OShr u64 (EVar 15) (EInt 39))) ;;
  SSet 21 (EBin OXor u64 (EVar 21) (EVar 61)) ;;
  SSet 40 (EBin OXor u64 (EBin OShl u64 (EVar 21) (EInt 8)) (EBin OShr u64 (EVar 21) (EInt 56))) ;;
  SSet 22 (EBin OXor u64 (EVar 22) (EVar 57)) ;;
  SSet 41 (EBin OXor u64 (EBin OShl u64 (EVar 22) (EInt 18)) (EBin OShr u64 (EVar 22) (EInt 46))) ;;
  SSet 72 (EBin OXor u64 (EVar 37) (EBin OAnd u64 (EUn ONot u64 (EVar 38)) (EVar 39)))) ;;
  (
  SSet 52 (EBin OXor u64 (EVar 52) (EVar 72)) ;;
  SSet 73 (EBin OXor u64 (EVar 38) (EBin OAnd u64 (EUn ONot u64 (EVar 39)) (EVar 40))) ;;
  SSet 53 (EBin OXor u64 (EVar 53) (EVar 73)) ;;
  SSet 74 (EBin OXor u64 (EVar 39) (EBin OAnd u64 (EUn ONot u64 (EVar 40)) (EVar 41))) ;;
  SSet 54 (EBin OXor u64 (EVar 54) (EVar 74)) ;;
  SSet 75 (EBin OXor u64 (EVar 40) (EBin OAnd u64 (EUn ONot u64 (EVar 41)) (EVar 37))) ;;
  SSet 55 (EBin OXor u64 (EVar 55) (EVar 75)) ;;
  SSet 76 (EBin OXor u64 (EVar 41) (EBin OAnd u64 (EUn ONot u64 (EVar 37)) (EVar 38))) ;;
  SSet 56 (EBin OXor u64 (EVar 56) (EVar 76)) ;;
  SSet 6 (EBin OXor u64 (EVar 6) (EVar 61)) ;;
  SSet 42 (EBin OXor u64 (EBin OShl u64 (EVar 6) (EInt 27)) (EBin OShr u64 (EVar 6) (EInt 37))) ;;
  SSet 7 (EBin OXor u64 (EVar 7) (EVar 57)) ;;
  SSet 43 (EBin OXor u64 (EBin OShl u64 (EVar 7) (EInt 36)) (EBin OShr u64 (EVar 7) (EInt 28))) ;;
  SSet 13 (EBin OXor u64 (EVar 13) (EVar 58)) ;;
  SSet 44 (EBin OXor u64 (EBin OShl u64 (EVar 13) (EInt 10)) (EBin OShr u64 (EVar 13) (EInt 54))) ;;
  SSet 19 (EBin OXor u64 (EVar 19) (EVar 59)) ;;
  SSet 45 (EBin OXor u64 (EBin OShl u64 (EVar 19) (EInt 15)) (EBin OShr u64 (EVar 19) (EInt 49))) ;;
  SSet 25 (EBin OXor u64 (EVar 25) (EVar 60)) ;;
  SSet 46 (EBin OXor u64 (EBin OShl u64 (EVar 25) (EInt 56)) (EBin OShr u64 (EVar 25) (EInt 8))) ;;
  SSet 77 (EBin OXor u64 (EVar 42) (EBin OAnd u64 (EUn ONot u64 (EVar 43)) (EVar 44))) ;;
  SSet 52 (EBin OXor u64 (EVar 52) (EVar 77))))))) ;;
  (
  (
  (
  (
  SSet 78 (EBin OXor u64 (EVar 43) (EBin OAnd u64 (EUn ONot u64 (EVar 44)) (EVar 45))) ;;
  SSet 53 (EBin OXor u64 (EVar 53) (EVar 78)) ;;
  SSet 79 (EBin OXor u64 (EVar 44) (EBin OAnd u64 (EUn ONot u64 (EVar 45)) (EVar 46))) ;;
  SSet 54 (EBin OXor u64 (EVar 54) (EVar 79)) ;;
  SSet 80 (EBin OXor u64 (EVar 45) (EBin OAnd u64 (EUn ONot u64 (EVar 46)) (EVar 42))) ;;
  SSet 55 (EBin OXor u64 (EVar 55) (EVar 80)) ;;
  SSet 81 (EBin OXor u64 (EVar 46) (EBin OAnd u64 (EUn ONot u64 (EVar 42)) (EVar 43))) ;;
  SSet 56 (EBin OXor u64 (EVar 56) (EVar 81)) ;;
  SSet 4 (EBin OXor u64 (EVar 4) (EVar 59)) ;;
  SSet 47 (EBin OXor u64 (EBin OShl u64 (EVar 4) (EInt 62)) (EBin OShr u64 (EVar 4) (EInt 2))) ;;
  SSet 10 (EBin OXor u64 (EVar 10) (EVar 60)) ;;
  SSet 48 (EBin OXor u64 (EBin OShl u64 (EVar 10) (EInt 55)) (EBin OShr u64 (EVar 10) (EInt 9))) ;;
  SSet 16 (EBin OXor u64 (EVar 16) (EVar 61)) ;;
  SSet 49 (EBin OXor u64 (EBin OShl u64 (EVar 16) (EInt 39)) (EBin OShr u64 (EVar 16) (EInt 25))) ;;
  SSet 17 (EBin OXor u64 (EVar 17) (EVar 57)) ;;
  SSet 50 (EBin OXor u64 (EBin OShl u64 (EVar 17) (EInt 41)) (EBin OShr u64 (EVar 17) (EInt 23))) ;;
  SSet 23 (EBin OXor u64 (EVar 23) (EVar 58)) ;;
  SSet 51 (EBin OXor u64 (EBin OShl u64 (EVar 23) (EInt 2)) (EBin OShr u64 (EVar 23) (EInt 62))) ;;
  SSet 82 (EBin OXor u64 (EVar 47) (EBin OAnd u64 (EUn ONot u64 (EVar 48)) (EVar 49))) ;;
  SSet 52 (EBin OXor u64 (EVar 52) (EVar 82)) ;;
  SSet 83 (EBin OXor u64 (EVar 48) (EBin OAnd u64 (EUn ONot u64 (EVar 49)) (EVar 50))) ;;
  SSet 53 (EBin OXor u64 (EVar 53) (EVar 83)) ;;
  SSet 84 (EBin OXor u64 (EVar 49) (EBin OAnd u64 (EUn ONot u64 (EVar 50)) (EVar 51))) ;;
  SSet 54 (EBin OXor u64 (EVar 54) (EVar 84)) ;;
  SSet 85 (EBin OXor u64 (EVar 50) (EBin OAnd u64 (EUn ONot u64 (EVar 51)) (EVar 47))) ;;
  SSet 55 (EBin OXor u64 (EVar 55) (EVar 85)) ;;
  SSet 86 (EBin OXor u64 (EVar 51) (EBin OAnd u64 (EUn ONot u64 (EVar 47)) (EVar 48))) ;;
  SSet 56 (EBin OXor u64 (EVar 56) (EVar 86)) ;;
  SSet 57 (EBin OXor u64 (EVar 56) (EBin OXor u64 (EBin OShl u64 (EVar 53) (EInt 1)) (EBin OShr u64 (EVar 53) (EInt 63)))) ;;
  SSet 58 (EBin OXor u64 (EVar 52) (EBin OXor u64 (EBin OShl u64 (EVar 54) (EInt 1)) (EBin OShr u64 (EVar 54) (EInt 63)))) ;;
  SSet 59 (EBin OXor u64 (EVar 53) (EBin OXor u64 (EBin OShl u64 (EVar 55) (EInt 1)) (EBin OShr u64 (EVar 55) (EInt 63)))) ;;
  SSet 60 (EBin OXor u64 (EVar 54) (EBin OXor u64 (EBin OShl u64 (EVar 56) (EInt 1)) (EBin OShr u64 (EVar 56) (EInt 63)))) ;;
  SSet 61 (EBin OXor u64 (EVar 55) (EBin OXor u64 (EBin OShl u64 (EVar 52) (EInt 1)) (EBin OShr u64 (EVar 52) (EInt 63)))) ;;
  SSet 62 (EBin OXor u64 (EVar 62) (EVar 57)) ;;
  SSet 27 (EVar 62) ;;
  SSet 68 (EBin OXor u64 (EVar 68) (EVar 58)) ;;
  SSet 28 (EBin OXor u64 (EBin OShl u64 (EVar 68) (EInt 44)) (EBin OShr u64 (EVar 68) (EInt 20))) ;;
  SSet 74 (EBin OXor u64 (EVar 74) (EVar 59)) ;;
  SSet 29 (EBin OXor u64 (EBin OShl u64 (EVar 74) (EInt 43)) (EBin OShr u64 (EVar 74) (EInt 21))) ;;
  SSet 80 (EBin OXor u64 (EVar 80) (EVar 60))) ;;
  (
  SSet 30 (EBin OXor u64 (EBin OShl u64 (EVar 80) (EInt 21)) (EBin OShr u64 (EVar 80) (EInt 43))) ;;
  SSet 86 (EBin OXor u64 (EVar 86) (EVar 61)) ;;
  SSet 31 (EBin OXor u64 (EBin OShl u64 (EVar 86) (EInt 14)) (EBin OShr u64 (EVar 86) (EInt 50))) ;;
  SSet 2 (EBin OXor u64 (EVar 27) (EBin OAnd u64 (EUn ONot u64 (EVar 28)) (EVar 29))) ;;
  SSet 2 (EBin OXor u64 (EVar 2) (ELoad 8 (EAt (EGlob 1) 8 (EInt 3)))) ;;
  SSet 52 (EVar 2) ;;
  SSet 3 (EBin OXor u64 (EVar 28) (EBin OAnd u64 (EUn ONot u64 (EVar 29)) (EVar 30))) ;;
  SSet 53 (EVar 3) ;;
  SSet 4 (EBin OXor u64 (EVar 29) (EBin OAnd u64 (EUn ONot u64 (EVar 30)) (EVar 31))) ;;
  SSet 54 (EVar 4) ;;
  SSet 5 (EBin OXor u64 (EVar 30) (EBin OAnd u64 (EUn ONot u64 (EVar 31)) (EVar 27))) ;;
  SSet 55 (EVar 5) ;;
  SSet 6 (EBin OXor u64 (EVar 31) (EBin OAnd u64 (EUn ONot u64 (EVar 27)) (EVar 28))) ;;
  SSet 56 (EVar 6) ;;
  SSet 65 (EBin OXor u64 (EVar 65) (EVar 60)) ;;
  SSet 32 (EBin OXor u64 (EBin OShl u64 (EVar 65) (EInt 28)) (EBin OShr u64 (EVar 65) (EInt 36))) ;;
  SSet 71 (EBin OXor u64 (EVar 71) (EVar 61)) ;;
  SSet 33 (EBin OXor u64 (EBin OShl u64 (EVar 71) (EInt 20)) (EBin OShr u64 (EVar 71) (EInt 44))) ;;
  SSet 72 (EBin OXor u64 (EVar 72) (EVar 57)) ;;
  SSet 34 (EBin OXor u64 (EBin OShl u64 (EVar 72) (EInt 3)) (EBin OShr u64 (EVar 72) (EInt 61))) ;;
  SSet 78 (EBin OXor u64 (EVar 78) (EVar 58)) ;;
  SSet 35 (EBin OXor u64 (EBin OShl u64 (EVar 78) (EInt 45)) (EBin OShr u64 (EVar 78) (EInt 19))) ;;
  SSet 84 (EBin OXor u64 (EVar 84) (EVar 59)) ;;
  SSet 36 (EBin OXor u64 (EBin OShl u64 (EVar 84) (EInt 61)) (EBin OShr u64 (EVar 84) (EInt 3))) ;;
  SSet 7 (EBin OXor u64 (EVar 32) (EBin OAnd u64 (EUn ONot u64 (EVar 33)) (EVar 34))) ;;
  SSet 52 (EBin OXor u64 (EVar 52) (EVar 7)) ;;
  SSet 8 (EBin OXor u64 (EVar 33) (EBin OAnd u64 (EUn ONot u64 (EVar 34)) (EVar 35))) ;;
  SSet 53 (EBin OXor u64 (EVar 53) (EVar 8)) ;;
  SSet 9 (EBin OXor u64 (EVar 34) (EBin OAnd u64 (EUn ONot u64 (EVar 35)) (EVar 36))) ;;
  SSet 54 (EBin OXor u64 (EVar 54) (EVar 9)) ;;
  SSet 10 (EBin OXor u64 (EVar 35) (EBin OAnd u64 (EUn ONot u64 (EVar 36)) (EVar 32))) ;;
  SSet 55 (EBin OXor u64 (EVar 55) (EVar 10)) ;;
  SSet 11 (EBin OXor u64 (EVar 36) (EBin OAnd u64 (EUn ONot u64 (EVar 32)) (EVar 33))) ;;
  SSet 56 (EBin OXor u64 (EVar 56) (EVar 11)) ;;
  SSet 63 (EBin OXor u64 (EVar 63) (EVar 58)) ;;
  SSet 37 (EBin OXor u64 (EBin OShl u64 (EVar 63) (EInt 1)) (EBin OShr u64 (EVar 63) (EInt 63))) ;;
  SSet 69 (EBin OXor u64 (EVar 69) (EVar 59)) ;;
  SSet 38 (EBin OXor u64 (EBin OShl u64 (EVar 69) (EInt 6)) (EBin OShr u64 (EVar 69) (EInt 58))) ;;
  SSet 75 (EBin OXor u64 (EVar 75) (EVar 60)) ;;
  SSet 39 (EBin OXor u64 (EBin OShl u64 (EVar 75) (EInt 25)) (EBin OShr u64 (EVar 75) (EInt 39))))) ;;
  (
  (
  SSet 81 (EBin OXor u64 (EVar 81) (EVar 61)) ;;
  SSet 40 (EBin OXor u64 (EBin OShl u64 (EVar 81) (EInt 8)) (EBin OShr u64 (EVar 81) (EInt 56))) ;;
  SSet 82 (EBin OXor u64 (EVar 82) (EVar 57)) ;;
  SSet 41 (EBin OXor u64 (EBin OShl u64 (EVar 82) (EInt 18)) (EBin OShr u64 (EVar 82) (EInt 46))) ;;
  SSet 12 (EBin OXor u64 (EVar 37) (EBin OAnd u64 (EUn ONot u64 (EVar 38)) (EVar 39))) ;;
  SSet 52 (EBin OXor u64 (EVar 52) (EVar 12)) ;;
  SSet 13 (EBin OXor u64 (EVar 38) (EBin OAnd u64 (EUn ONot u64 (EVar 39)) (EVar 40))) ;;
  SSet 53 (EBin OXor u64 (EVar 53) (EVar 13)) ;;
  SSet 14 (EBin OXor u64 (EVar 39) (EBin OAnd u64 (EUn ONot u64 (EVar 40)) (EVar 41))) ;;
  SSet 54 (EBin OXor u64 (EVar 54) (EVar 14)) ;;
  SSet 15 (EBin OXor u64 (EVar 40) (EBin OAnd u64 (EUn ONot u64 (EVar 41)) (EVar 37))) ;;
  SSet 55 (EBin OXor u64 (EVar 55) (EVar 15)) ;;
  SSet 16 (EBin OXor u64 (EVar 41) (EBin OAnd u64 (EUn ONot u64 (EVar 37)) (EVar 38))) ;;
  SSet 56 (EBin OXor u64 (EVar 56) (EVar 16)) ;;
  SSet 66 (EBin OXor u64 (EVar 66) (EVar 61)) ;;
  SSet 42 (EBin OXor u64 (EBin OShl u64 (EVar 66) (EInt 27)) (EBin OShr u64 (EVar 66) (EInt 37))) ;;
  SSet 67 (EBin OXor u64 (EVar 67) (EVar 57)) ;;
  SSet 43 (EBin OXor u64 (EBin OShl u64 (EVar 67) (EInt 36)) (EBin OShr u64 (EVar 67) (EInt 28))) ;;
  SSet 73 (EBin OXor u64 (EVar 73) (EVar 58)) ;;
  SSet 44 (EBin OXor u64 (EBin OShl u64 (EVar 73) (EInt 10)) (EBin OShr u64 (EVar 73) (EInt 54))) ;;
  SSet 79 (EBin OXor u64 (EVar 79) (EVar 59)) ;;
  SSet 45 (EBin OXor u64 (EBin OShl u64 (EVar 79) (EInt 15)) (EBin OShr u64 (EVar 79) (EInt 49))) ;;
  SSet 85 (EBin OXor u64 (EVar 85) (EVar 60)) ;;
  SSet 46 (EBin OXor u64 (EBin OShl u64 (EVar 85) (EInt 56)) (EBin OShr u64 (EVar 85) (EInt 8))) ;;
  SSet 17 (EBin OXor u64 (EVar 42) (EBin OAnd u64 (EUn ONot u64 (EVar 43)) (EVar 44))) ;;
  SSet 52 (EBin OXor u64 (EVar 52) (EVar 17)) ;;
  SSet 18 (EBin OXor u64 (EVar 43) (EBin OAnd u64 (EUn ONot u64 (EVar 44)) (EVar 45))) ;;
  SSet 53 (EBin OXor u64 (EVar 53) (EVar 18)) ;;
  SSet 19 (EBin OXor u64 (EVar 44) (EBin OAnd u64 (EUn ONot u64 (EVar 45)) (EVar 46))) ;;
  SSet 54 (EBin OXor u64 (EVar 54) (EVar 19)) ;;
  SSet 20 (EBin OXor u64 (EVar 45) (EBin OAnd u64 (EUn ONot u64 (EVar 46)) (EVar 42))) ;;
  SSet 55 (EBin OXor u64 (EVar 55) (EVar 20)) ;;
  SSet 21 (EBin OXor u64 (EVar 46) (EBin OAnd u64 (EUn ONot u64 (EVar 42)) (EVar 43))) ;;
  SSet 56 (EBin OXor u64 (EVar 56) (EVar 21)) ;;
  SSet 64 (EBin OXor u64 (EVar 64) (EVar 59)) ;;
  SSet 47 (EBin OXor u64 (EBin OShl u64 (EVar 64) (EInt 62)) (EBin OShr u64 (EVar 64) (EInt 2))) ;;
  SSet 70 (EBin OXor u64 (EVar 70) (EVar 60)) ;;
  SSet 48 (EBin OXor u64 (EBin OShl u64 (EVar 70) (EInt 55)) (EBin OShr u64 (EVar 70) (EInt 9))) ;;
  SSet 76 (EBin OXor u64 (EVar 76) (EVar 61)) ;;
  SSet 49 (EBin OXor u64 (EBin OShl u64 (EVar 76) (EInt 39)) (EBin OShr u64 (EVar 76) (EInt 25)))) ;;
  (
  (
  SSet 77 (EBin OXor u64 (EVar 77) (EVar 57)) ;;
  SSet 50 (EBin OXor u64 (EBin OShl u64 (EVar 77) (EInt 41)) (EBin OShr u64 (EVar 77) (EInt 23))) ;;
  SSet 83 (EBin OXor u64 (EVar 83) (EVar 58)) ;;
  SSet 51 (EBin OXor u64 (EBin OShl u64 (EVar 83) (EInt 2)) (EBin OShr u64 (EVar 83) (EInt 62))) ;;
  SSet 22 (EBin OXor u64 (EVar 47) (EBin OAnd u64 (EUn ONot u64 (EVar 48)) (EVar 49))) ;;
  SSet 52 (EBin OXor u64 (EVar 52) (EVar 22)) ;;
  SSet 23 (EBin OXor u64 (EVar 48) (EBin OAnd u64 (EUn ONot u64 (EVar 49)) (EVar 50))) ;;
  SSet 53 (EBin OXor u64 (EVar 53) (EVar 23)) ;;
  SSet 24 (EBin OXor u64 (EVar 49) (EBin OAnd u64 (EUn ONot u64 (EVar 50)) (EVar 51))) ;;
  SSet 54 (EBin OXor u64 (EVar 54) (EVar 24)) ;;
  SSet 25 (EBin OXor u64 (EVar 50) (EBin OAnd u64 (EUn ONot u64 (EVar 51)) (EVar 47))) ;;
  SSet 55 (EBin OXor u64 (EVar 55) (EVar 25)) ;;
  SSet 26 (EBin OXor u64 (EVar 51) (EBin OAnd u64 (EUn ONot u64 (EVar 47)) (EVar 48))) ;;
  SSet 56 (EBin OXor u64 (EVar 56) (EVar 26)) ;;
  SSet 57 (EBin OXor u64 (EVar 56) (EBin OXor u64 (EBin OShl u64 (EVar 53) (EInt 1)) (EBin OShr u64 (EVar 53) (EInt 63)))) ;;
  SSet 58 (EBin OXor u64 (EVar 52) (EBin OXor u64 (EBin OShl u64 (EVar 54) (EInt 1)) (EBin OShr u64 (EVar 54) (EInt 63)))) ;;
  SSet 59 (EBin OXor u64 (EVar 53) (EBin OXor u64 (EBin OShl u64 (EVar 55) (EInt 1)) (EBin OShr u64 (EVar 55) (EInt 63)))) ;;
  SSet 60 (EBin OXor u64 (EVar 54) (EBin OXor u64 (EBin OShl u64 (EVar 56) (EInt 1)) (EBin OShr u64 (EVar 56) (EInt 63)))) ;;
  SSet 61 (EBin OXor u64 (EVar 55) (EBin OXor u64 (EBin OShl u64 (EVar 52) (EInt 1)) (EBin OShr u64 (EVar 52) (EInt 63)))) ;;
  SSet 2 (EBin OXor u64 (EVar 2) (EVar 57))) ;;
  (
  SSet 27 (EVar 2) ;;
  SSet 8 (EBin OXor u64 (EVar 8) (EVar 58)) ;;
  SSet 28 (EBin OXor u64 (EBin OShl u64 (EVar 8) (EInt 44)) (EBin OShr u64 (EVar 8) (EInt 20))) ;;
  SSet 14 (EBin OXor u64 (EVar 14) (EVar 59)) ;;
  SSet 29 (EBin OXor u64 (EBin OShl u64 (EVar 14) (EInt 43)) (EBin OShr u64 (EVar 14) (EInt 21))) ;;
  SSet 20 (EBin OXor u64 (EVar 20) (EVar 60)) ;;
  SSet 30 (EBin OXor u64 (EBin OShl u64 (EVar 20) (EInt 21)) (EBin OShr u64 (EVar 20) (EInt 43))) ;;
  SSet 26 (EBin OXor u64 (EVar 26) (EVar 61)) ;;
  SSet 31 (EBin OXor u64 (EBin OShl u64 (EVar 26) (EInt 14)) (EBin OShr u64 (EVar 26) (EInt 50))) ;;
  SSet 62 (EBin OXor u64 (EVar 27) (EBin OAnd u64 (EUn ONot u64 (EVar 28)) (EVar 29))) ;;
  SSet 62 (EBin OXor u64 (EVar 62) (ELoad 8 (EAt (EGlob 1) 8 (EInt 4)))) ;;
  SSet 52 (EVar 62) ;;
  SSet 63 (EBin OXor u64 (EVar 28) (EBin OAnd u64 (EUn ONot u64 (EVar 29)) (EVar 30))) ;;
  SSet 53 (EVar 63) ;;
  SSet 64 (EBin OXor u64 (EVar 29) (EBin OAnd u64 (EUn ONot u64 (EVar 30)) (EVar 31))) ;;
  SSet 54 (EVar 64) ;;
  SSet 65 (EBin OXor u64 (EVar 30) (EBin OAnd u64 (EUn ONot u64 (EVar 31)) (EVar 27))) ;;
  SSet 55 (EVar 65) ;;
  SSet 66 (EBin OXor u64 (EVar 31) (EBin OAnd u64 (EUn ONot u64 (EVar 27)) (EVar 28))) ;;
  SSet 56 (EVar 66) ;;
  SSet 5 (EBin OXor u64 (EVar 5) (EVar 60)))))) ;;
  (
  (
  (
  SSet 32 (EBin OXor u64 (EBin OShl u64 (EVar 5) (EInt 28)) (EBin OShr u64 (EVar 5) (EInt 36))) ;;
  SSet 11 (EBin OXor u64 (EVar 11) (EVar 61)) ;;
  SSet 33 (EBin OXor u64 (EBin OShl u64 (EVar 11) (EInt 20)) (EBin OShr u64 (EVar 11) (EInt 44))) ;;
  SSet 12 (EBin OXor u64 (EVar 12) (EVar 57)) ;;
  SSet 34 (EBin OXor u64 (EBin OShl u64 (EVar 12) (EInt 3)) (EBin OShr u64 (EVar 12) (EInt 61))) ;;
  SSet 18 (EBin OXor u64 (EVar 18) (EVar 58)) ;;
  SSet 35 (EBin OXor u64 (EBin OShl u64 (EVar 18) (EInt 45)) (EBin OShr u64 (EVar 18) (EInt 19))) ;;
  SSet 24 (EBin OXor u64 (EVar 24) (EVar 59)) ;;
  SSet 36 (EBin OXor u64 (EBin OShl u64 (EVar 24) (EInt 61)) (EBin OShr u64 (EVar 24) (EInt 3))) ;;
  SSet 67 (EBin OXor u64 (EVar 32) (EBin OAnd u64 (EUn ONot u64 (EVar 33)) (EVar 34))) ;;
  SSet 52 (EBin OXor u64 (EVar 52) (EVar 67)) ;;
  SSet 68 (EBin OXor u64 (EVar 33) (EBin OAnd u64 (EUn ONot u64 (EVar 34)) (EVar 35))) ;;
  SSet 53 (EBin OXor u64 (EVar 53) (EVar 68)) ;;
  SSet 69 (EBin OXor u64 (EVar 34) (EBin OAnd u64 (EUn ONot u64 (EVar 35)) (EVar 36))) ;;
  SSet 54 (EBin OXor u64 (EVar 54) (EVar 69)) ;;
  SSet 70 (EBin OXor u64 (EVar 35) (EBin OAnd u64 (EUn ONot u64 (EVar 36)) (EVar 32))) ;;
  SSet 55 (EBin OXor u64 (EVar 55) (EVar 70)) ;;
  SSet 71 (EBin OXor u64 (EVar 36) (EBin OAnd u64 (EUn ONot u64 (EVar 32)) (EVar 33))) ;;
  SSet 56 (EBin OXor u64 (EVar 56) (EVar 71)) ;;
  SSet 3 (EBin OXor u64 (EVar 3) (EVar 58)) ;;
  SSet 37 (EBin OXor u64 (EBin OShl u64 (EVar 3) (EInt 1)) (EBin OShr u64 (EVar 3) (EInt 63))) ;;
  SSet 9 (EBin OXor u64 (EVar 9) (EVar 59)) ;;
  SSet 38 (EBin OXor u64 (EBin OShl u64 (EVar 9) (EInt 6)) (EBin OShr u64 (EVar 9) (EInt 58))) ;;
  SSet 15 (EBin OXor u64 (EVar 15) (EVar 60)) ;;
  SSet 39 (EBin OXor u64 (EBin OShl u64 (EVar 15) (EInt 25)) (EBin OShr u64 (EVar 15) (EInt 39))) ;;
  SSet 21 (EBin OXor u64 (EVar 21) (EVar 61)) ;;
  SSet 40 (EBin OXor u64 (EBin OShl u64 (EVar 21) (EInt 8)) (EBin OShr u64 (EVar 21) (EInt 56))) ;;
  SSet 22 (EBin OXor u64 (EVar 22) (EVar 57)) ;;
  SSet 41 (EBin OXor u64 (EBin OShl u64 (EVar 22) (EInt 18)) (EBin OShr u64 (EVar 22) (EInt 46))) ;;
  SSet 72 (EBin OXor u64 (EVar 37) (EBin OAnd u64 (EUn ONot u64 (EVar 38)) (EVar 39))) ;;
  SSet 52 (EBin OXor u64 (EVar 52) (EVar 72)) ;;
  SSet 73 (EBin OXor u64 (EVar 38) (EBin OAnd u64 (EUn ONot u64 (EVar 39)) (EVar 40))) ;;
  SSet 53 (EBin OXor u64 (EVar 53) (EVar 73)) ;;
  SSet 74 (EBin OXor u64 (EVar 39) (EBin OAnd u64 (EUn ONot u64 (EVar 40)) (EVar 41))) ;;
  SSet 54 (EBin OXor u64 (EVar 54) (EVar 74)) ;;
  SSet 75 (EBin OXor u64 (EVar 40) (EBin OAnd u64 (EUn ONot u64 (EVar 41)) (EVar 37))) ;;
  SSet 55 (EBin OXor u64 (EVar 55) (EVar 75)) ;;
  SSet 76 (EBin OXor u64 (EVar 41) (EBin OAnd u64 (EUn ONot u64 (EVar 37)) (EVar 38))) ;;
  SSet 56 (EBin OXor u64 (EVar 56) (EVar 76)) ;;
  SSet 6 (EBin OXor u64 (EVar 6) (EVar 61))) ;;
  (
  SSet 42 (EBin OXor u64 (EBin OShl u64 (EVar 6) (EInt 27)) (EBin OShr u64 (EVar 6) (EInt 37))) ;;
  SSet 7 (EBin OXor u64 (EVar 7) (EVar 57)) ;;
  SSet 43 (EBin OXor u64 (EBin OShl u64 (EVar 7) (EInt 36)) (EBin OShr u64 (EVar 7) (EInt 28))) ;;
  SSet 13 (EBin OXor u64 (EVar 13) (EVar 58)) ;;
  SSet 44 (EBin OXor u64 (EBin OShl u64 (EVar 13) (EInt 10)) (EBin OShr u64 (EVar 13) (EInt 54))) ;;
  SSet 19 (EBin OXor u64 (EVar 19) (EVar 59)) ;;
  SSet 45 (EBin OXor u64 (EBin OShl u64 (EVar 19) (EInt 15)) (EBin OShr u64 (EVar 19) (EInt 49))) ;;
  SSet 25 (EBin OXor u64 (EVar 25) (EVar 60)) ;;
  SSet 46 (EBin OXor u64 (EBin OShl u64 (EVar 25) (EInt 56)) (EBin OShr u64 (EVar 25) (EInt 8))) ;;
  SSet 77 (EBin OXor u64 (EVar 42) (EBin OAnd u64 (EUn ONot u64 (EVar 43)) (EVar 44))) ;;
  SSet 52 (EBin OXor u64 (EVar 52) (EVar 77)) ;;
  SSet 78 (EBin OXor u64 (EVar 43) (EBin OAnd u64 (EUn ONot u64 (EVar 44)) (EVar 45))) ;;
  SSet 53 (EBin OXor u64 (EVar 53) (EVar 78)) ;;
  SSet 79 (EBin OXor u64 (EVar 44) (EBin OAnd u64 (EUn ONot u64 (EVar 45)) (EVar 46))) ;;
  SSet 54 (EBin OXor u64 (EVar 54) (EVar 79)) ;;
  SSet 80 (EBin OXor u64 (EVar 45) (EBin OAnd u64 (EUn ONot u64 (EVar 46)) (EVar 42))) ;;
  SSet 55 (EBin OXor u64 (EVar 55) (EVar 80)) ;;
  SSet 81 (EBin OXor u64 (EVar 46) (EBin OAnd u64 (EUn ONot u64 (EVar 42)) (EVar 43))) ;;
  SSet 56 (EBin OXor u64 (EVar 56) (EVar 81)) ;;
  SSet 4 (EBin OXor u64 (EVar 4) (EVar 59)) ;;
  SSet 47 (EBin OXor u64 (EBin OShl u64 (EVar 4) (EInt 62)) (EBin OShr u64 (EVar 4) (EInt 2))) ;;
  SSet 10 (EBin OXor u64 (EVar 10) (EVar 60)) ;;
  SSet 48 (EBin OXor u64 (EBin OShl u64 (EVar 10) (EInt 55)) (EBin OShr u64 (EVar 10) (EInt 9))) ;;
  SSet 16 (EBin OXor u64 (EVar 16) (EVar 61)) ;;
  SSet 49 (EBin OXor u64 (EBin OShl u64 (EVar 16) (EInt 39)) (EBin OShr u64 (EVar 16) (EInt 25))) ;;
  SSet 17 (EBin OXor u64 (EVar 17) (EVar 57)) ;;
  SSet 50 (EBin OXor u64 (EBin OShl u64 (EVar 17) (EInt 41)) (EBin OShr u64 (EVar 17) (EInt 23))) ;;
  SSet 23 (EBin OXor u64 (EVar 23) (EVar 58)) ;;
  SSet 51 (EBin OXor u64 (EBin OShl u64 (EVar 23) (EInt 2)) (EBin OShr u64 (EVar 23) (EInt 62))) ;;
  SSet 82 (EBin OXor u64 (EVar 47) (EBin OAnd u64 (EUn ONot u64 (EVar 48)) (EVar 49))) ;;
  SSet 52 (EBin OXor u64 (EVar 52) (EVar 82)) ;;
  SSet 83 (EBin OXor u64 (EVar 48) (EBin OAnd u64 (EUn ONot u64 (EVar 49)) (EVar 50))) ;;
  SSet 53 (EBin OXor u64 (EVar 53) (EVar 83)) ;;
  SSet 84 (EBin OXor u64 (EVar 49) (EBin OAnd u64 (EUn ONot u64 (EVar 50)) (EVar 51))) ;;
  SSet 54 (EBin OXor u64 (EVar 54) (EVar 84)) ;;
  SSet 85 (EBin OXor u64 (EVar 50) (EBin OAnd u64 (EUn ONot u64 (EVar 51)) (EVar 47))) ;;
  SSet 55 (EBin OXor u64 (EVar 55) (EVar 85)) ;;
  SSet 86 (EBin OXor u64 (EVar 51) (EBin OAnd u64 (EUn ONot u64 (EVar 47)) (EVar 48))) ;;
  SSet 56 (EBin OXor u64 (EVar 56) (EVar 86)) ;;
  SSet 57 (EBin OXor u64 (EVar 56) (EBin OXor u64 (EBin OShl u64 (EVar 53) (EInt 1)) (EBin OShr u64 (EVar 53) (EInt 63)))))) ;;
  (
  (
  SSet 58 (EBin OXor u64 (EVar 52) (EBin OXor u64 (EBin OShl u64 (EVar 54) (EInt 1)) (EBin OShr u64 (EVar 54) (EInt 63)))) ;;
  SSet 59 (EBin OXor u64 (EVar 53) (EBin OXor u64 (EBin OShl u64 (EVar 55) (EInt 1)) (EBin OShr u64 (EVar 55) (EInt 63)))) ;;
  SSet 60 (EBin OXor u64 (EVar 54) (EBin OXor u64 (EBin OShl u64 (EVar 56) (EInt 1)) (EBin OShr u64 (EVar 56) (EInt 63)))) ;;
  SSet 61 (EBin OXor u64 (EVar 55) (EBin OXor u64 (EBin OShl u64 (EVar 52) (EInt 1)) (EBin OShr u64 (EVar 52) (EInt 63)))) ;;
  SSet 62 (EBin OXor u64 (EVar 62) (EVar 57)) ;;
  SSet 27 (EVar 62) ;;
  SSet 68 (EBin OXor u64 (EVar 68) (EVar 58)) ;;
  SSet 28 (EBin OXor u64 (EBin OShl u64 (EVar 68) (EInt 44)) (EBin OShr u64 (EVar 68) (EInt 20))) ;;
  SSet 74 (EBin OXor u64 (EVar 74) (EVar 59)) ;;
  SSet 29 (EBin OXor u64 (EBin OShl u64 (EVar 74) (EInt 43)) (EBin OShr u64 (EVar 74) (EInt 21))) ;;
  SSet 80 (EBin OXor u64 (EVar 80) (EVar 60)) ;;
  SSet 30 (EBin OXor u64 (EBin OShl u64 (EVar 80) (EInt 21)) (EBin OShr u64 (EVar 80) (EInt 43))) ;;
  SSet 86 (EBin OXor u64 (EVar 86) (EVar 61)) ;;
  SSet 31 (EBin OXor u64 (EBin OShl u64 (EVar 86) (EInt 14)) (EBin OShr u64 (EVar 86) (EInt 50))) ;;
  SSet 2 (EBin OXor u64 (EVar 27) (EBin OAnd u64 (EUn ONot u64 (EVar 28)) (EVar 29))) ;;
  SSet 2 (EBin OXor u64 (EVar 2) (ELoad 8 (EAt (EGlob 1) 8 (EInt 5)))) ;;
  SSet 52 (EVar 2) ;;
  SSet 3 (EBin OXor u64 (EVar 28) (EBin OAnd u64 (EUn ONot u64 (EVar 29)) (EVar 30))) ;;
  SSet 53 (EVar 3) ;;
  SSet 4 (EBin OXor u64 (EVar 29) (EBin OAnd u64 (EUn ONot u64 (EVar 30)) (EVar 31))) ;;
  SSet 54 (EVar 4) ;;
  SSet 5 (EBin OXor u64 (EVar 30) (EBin OAnd u64 (EUn ONot u64 (EVar 31)) (EVar 27))) ;;
  SSet 55 (EVar 5) ;;
  SSet 6 (EBin OXor u64 (EVar 31) (EBin OAnd u64 (EUn ONot u64 (EVar 27)) (EVar 28))) ;;
  SSet 56 (EVar 6) ;;
  SSet 65 (EBin OXor u64 (EVar 65) (EVar 60)) ;;
  SSet 32 (EBin OXor u64 (EBin OShl u64 (EVar 65) (EInt 28)) (EBin OShr u64 (EVar 65) (EInt 36))) ;;
  SSet 71 (EBin OXor u64 (EVar 71) (EVar 61)) ;;
  SSet 33 (EBin OXor u64 (EBin OShl u64 (EVar 71) (EInt 20)) (EBin OShr u64 (EVar 71) (EInt 44))) ;;
  SSet 72 (EBin OXor u64 (EVar 72) (EVar 57)) ;;
  SSet 34 (EBin OXor u64 (EBin OShl u64 (EVar 72) (EInt 3)) (EBin OShr u64 (EVar 72) (EInt 61))) ;;
  SSet 78 (EBin OXor u64 (EVar 78) (EVar 58)) ;;
  SSet 35 (EBin OXor u64 (EBin OShl u64 (EVar 78) (EInt 45)) (EBin OShr u64 (EVar 78) (EInt 19))) ;;
  SSet 84 (EBin OXor u64 (EVar 84) (EVar 59)) ;;
  SSet 36 (EBin OXor u64 (EBin OShl u64 (EVar 84) (EInt 61)) (EBin OShr u64 (EVar 84) (EInt 3))) ;;
  SSet 7 (EBin OXor u64 (EVar 32) (EBin OAnd u64 (EUn ONot u64 (EVar 33)) (EVar 34))) ;;
  SSet 52 (EBin OXor u64 (EVar 52) (EVar 7)) ;;
  SSet 8 (EBin OXor u64 (EVar 33) (EBin OAnd u64 (EUn ONot u64 (EVar 34)) (EVar 35))) ;;
  SSet 53 (EBin OXor u64 (EVar 53) (EVar 8)) ;;
  SSet 9 (EBin OXor u64 (EVar 34) (EBin OAnd u64 (EUn ONot u64 (EVar 35)) (EVar 36)))) ;;
  (
  (
  SSet 54 (EBin OXor u64 (EVar 54) (EVar 9)) ;;
  SSet 10 (EBin OXor u64 (EVar 35) (EBin OAnd u64 (EUn ONot u64 (EVar 36)) (EVar 32))) ;;
  SSet 55 (EBin OXor u64 (EVar 55) (EVar 10)) ;;
  SSet 11 (EBin OXor u64 (EVar 36) (EBin OAnd u64 (EUn ONot u64 (EVar 32)) (EVar 33))) ;;
  SSet 56 (EBin OXor u64 (EVar 56) (EVar 11)) ;;
  SSet 63 (EBin OXor u64 (EVar 63) (EVar 58)) ;;
  SSet 37 (EBin OXor u64 (EBin OShl u64 (EVar 63) (EInt 1)) (EBin OShr u64 (EVar 63) (EInt 63))) ;;
  SSet 69 (EBin OXor u64 (EVar 69) (EVar 59)) ;;
  SSet 38 (EBin OXor u64 (EBin OShl u64 (EVar 69) (EInt 6)) (EBin OShr u64 (EVar 69) (EInt 58))) ;;
  SSet 75 (EBin OXor u64 (EVar 75) (EVar 60)) ;;
  SSet 39 (EBin OXor u64 (EBin OShl u64 (EVar 75) (EInt 25)) (EBin OShr u64 (EVar 75) (EInt 39))) ;;
  SSet 81 (EBin OXor u64 (EVar 81) (EVar 61)) ;;
  SSet 40 (EBin OXor u64 (EBin OShl u64 (EVar 81) (EInt 8)) (EBin OShr u64 (EVar 81) (EInt 56))) ;;
  SSet 82 (EBin OXor u64 (EVar 82) (EVar 57)) ;;
  SSet 41 (EBin OXor u64 (EBin OShl u64 (EVar 82) (EInt 18)) (EBin OShr u64 (EVar 82) (EInt 46))) ;;
  SSet 12 (EBin OXor u64 (EVar 37) (EBin OAnd u64 (EUn ONot u64 (EVar 38)) (EVar 39))) ;;
  SSet 52 (EBin OXor u64 (EVar 52) (EVar 12)) ;;
  SSet 13 (EBin OXor u64 (EVar 38) (EBin OAnd u64 (EUn ONot u64 (EVar 39)) (EVar 40))) ;;
  SSet 53 (EBin OXor u64 (EVar 53) (EVar 13)) ;;
  SSet 14 (EBin OXor u64 (EVar 39) (EBin OAnd u64 (EUn ONot u64 (EVar 40)) (EVar 41)))) ;;
  (
  SSet 54 (EBin OXor u64 (EVar 54) (EVar 14)) ;;
  SSet 15 (EBin OXor u64 (EVar 40) (EBin OAnd u64 (EUn ONot u64 (EVar 41)) (EVar 37))) ;;
  SSet 55 (EBin OXor u64 (EVar 55) (EVar 15)) ;;
  SSet 16 (EBin OXor u64 (EVar 41) (EBin OAnd u64 (EUn ONot u64 (EVar 37)) (EVar 38))) ;;
  SSet 56 (EBin OXor u64 (EVar 56) (EVar 16)) ;;
  SSet 66 (EBin OXor u64 (EVar 66) (EVar 61)) ;;
  SSet 42 (EBin OXor u64 (EBin OShl u64 (EVar 66) (EInt 27)) (EBin OShr u64 (EVar 66) (EInt 37))) ;;
  SSet 67 (EBin OXor u64 (EVar 67) (EVar 57)) ;;
  SSet 43 (EBin OXor u64 (EBin OShl u64 (EVar 67) (EInt 36)) (EBin OShr u64 (EVar 67) (EInt 28))) ;;
  SSet 73 (EBin OXor u64 (EVar 73) (EVar 58)) ;;
  SSet 44 (EBin OXor u64 (EBin OShl u64 (EVar 73) (EInt 10)) (EBin OShr u64 (EVar 73) (EInt 54))) ;;
  SSet 79 (EBin OXor u64 (EVar 79) (EVar 59)) ;;
  SSet 45 (EBin OXor u64 (EBin OShl u64 (EVar 79) (EInt 15)) (EBin OShr u64 (EVar 79) (EInt 49))) ;;
  SSet 85 (EBin OXor u64 (EVar 85) (EVar 60)) ;;
  SSet 46 (EBin OXor u64 (EBin OShl u64 (EVar 85) (EInt 56)) (EBin OShr u64 (EVar 85) (EInt 8))) ;;
  SSet 17 (EBin OXor u64 (EVar 42) (EBin OAnd u64 (EUn ONot u64 (EVar 43)) (EVar 44))) ;;
  SSet 52 (EBin OXor u64 (EVar 52) (EVar 17)) ;;
  SSet 18 (EBin OXor u64 (EVar 43) (EBin OAnd u64 (EUn ONot u64 (EVar 44)) (EVar 45))) ;;
  SSet 53 (EBin OXor u64 (EVar 53) (EVar 18)) ;;
  SSet 19 (EBin OXor u64 (EVar 44) (EBin OAnd u64 (EUn ONot u64 (EVar 45)) (EVar 46))) ;;
  SSet 54 (EBin OXor u64 (EVar 54) (EVar 19)))))))) ;;
  (
  (
  (
  (
  (
  SSet 20 (EBin OXor u64 (EVar 45) (EBin OAnd u64 (EUn ONot u64 (EVar 46)) (EVar 42))) ;;
  SSet 55 (EBin OXor u64 (EVar 55) (EVar 20)) ;;
  SSet 21 (EBin OXor u64 (EVar 46) (EBin OAnd u64 (EUn ONot u64 (EVar 42)) (EVar 43))) ;;
  SSet 56 (EBin OXor u64 (EVar 56) (EVar 21)) ;;
  SSet 64 (EBin OXor u64 (EVar 64) (EVar 59)) ;;
  SSet 47 (EBin OXor u64 (EBin OShl u64 (EVar 64) (EInt 62)) (EBin OShr u64 (EVar 64) (EInt 2))) ;;
  SSet 70 (EBin OXor u64 (EVar 70) (EVar 60)) ;;
  SSet 48 (EBin OXor u64 (EBin OShl u64 (EVar 70) (EInt 55)) (EBin OShr u64 (EVar 70) (EInt 9))) ;;
  SSet 76 (EBin OXor u64 (EVar 76) (EVar 61)) ;;
  SSet 49 (EBin OXor u64 (EBin OShl u64 (EVar 76) (EInt 39)) (EBin OShr u64 (EVar 76) (EInt 25))) ;;
  SSet 77 (EBin OXor u64 (EVar 77) (EVar 57)) ;;
  SSet 50 (EBin OXor u64 (EBin OShl u64 (EVar 77) (EInt 41)) (EBin OShr u64 (EVar 77) (EInt 23))) ;;
  SSet 83 (EBin OXor u64 (EVar 83) (EVar 58)) ;;
  SSet 51 (EBin OXor u64 (EBin OShl u64 (EVar 83) (EInt 2)) (EBin OShr u64 (EVar 83) (EInt 62))) ;;
  SSet 22 (EBin OXor u64 (EVar 47) (EBin OAnd u64 (EUn ONot u64 (EVar 48)) (EVar 49))) ;;
  SSet 52 (EBin OXor u64 (EVar 52) (EVar 22)) ;;
  SSet 23 (EBin OXor u64 (EVar 48) (EBin OAnd u64 (EUn ONot u64 (EVar 49)) (EVar 50))) ;;
  SSet 53 (EBin OXor u64 (EVar 53) (EVar 23)) ;;
  SSet 24 (EBin OXor u64 (EVar 49) (EBin OAnd u64 (EUn ONot u64 (EVar 50)) (EVar 51))) ;;
  SSet 54 (EBin OXor u64 (EVar 54) (EVar 24)) ;;
  SSet 25 (EBin OXor u64 (EVar 50) (EBin OAnd u64 (EUn ONot u64 (EVar 51)) (EVar 47))) ;;
  SSet 55 (EBin OXor u64 (EVar 55) (EVar 25)) ;;
  SSet 26 (EBin OXor u64 (EVar 51) (EBin OAnd u64 (EUn ONot u64 (EVar 47)) (EVar 48))) ;;
  SSet 56 (EBin OXor u64 (EVar 56) (EVar 26)) ;;
  SSet 57 (EBin OXor u64 (EVar 56) (EBin OXor u64 (EBin OShl u64 (EVar 53) (EInt 1)) (EBin OShr u64 (EVar 53) (EInt 63)))) ;;
  SSet 58 (EBin OXor u64 (EVar 52) (EBin OXor u64 (EBin OShl u64 (EVar 54) (EInt 1)) (EBin OShr u64 (EVar 54) (EInt 63)))) ;;
  SSet 59 (EBin OXor u64 (EVar 53) (EBin OXor u64 (EBin OShl u64 (EVar 55) (EInt 1)) (EBin OShr u64 (EVar 55) (EInt 63)))) ;;
  SSet 60 (EBin OXor u64 (EVar 54) (EBin OXor u64 (EBin OShl u64 (EVar 56) (EInt 1)) (EBin OShr u64 (EVar 56) (EInt 63)))) ;;
  SSet 61 (EBin OXor u64 (EVar 55) (EBin OXor u64 (EBin OShl u64 (EVar 52) (EInt 1)) (EBin OShr u64 (EVar 52) (EInt 63)))) ;;
  SSet 2 (EBin OXor u64 (EVar 2) (EVar 57)) ;;
  SSet 27 (EVar 2) ;;
  SSet 8 (EBin OXor u64 (EVar 8) (EVar 58)) ;;
  SSet 28 (EBin OXor u64 (EBin OShl u64 (EVar 8) (EInt 44)) (EBin OShr u64 (EVar 8) (EInt 20))) ;;
  SSet 14 (EBin OXor u64 (EVar 14) (EVar 59)) ;;
  SSet 29 (EBin OXor u64 (EBin OShl u64 (EVar 14) (EInt 43)) (EBin OShr u64 (EVar 14) (EInt 21))) ;;
  SSet 20 (EBin OXor u64 (EVar 20) (EVar 60)) ;;
  SSet 30 (EBin OXor u64 (EBin OShl u64 (EVar 20) (EInt 21)) (EBin OShr u64 (EVar 20) (EInt 43))) ;;
  SSet 26 (EBin OXor u64 (EVar 26) (EVar 61)) ;;
  SSet 31 (EBin OXor u64 (EBin OShl u64 (EVar 26) (EInt 14)) (EBin OShr u64 (EVar 26) (EInt 50))) ;;
  SSet 62 (EBin OXor u64 (EVar 27) (EBin OAnd u64 (EUn ONot u64 (EVar 28)) (EVar 29)))) ;;
  (
  SSet 62 (EBin OXor u64 (EVar 62) (ELoad 8 (EAt (EGlob 1) 8 (EInt 6)))) ;;
  SSet 52 (EVar 62) ;;
  SSet 63 (EBin OXor u64 (EVar 28) (EBin OAnd u64 (EUn ONot u64 (EVar 29)) (EVar 30))) ;;
  SSet 53 (EVar 63) ;;
  SSet 64 (EBin OXor u64 (EVar 29) (EBin OAnd u64 (EUn ONot u64 (EVar 30)) (EVar 31))) ;;
  SSet 54 (EVar 64) ;;
  SSet 65 (EBin OXor u64 (EVar 30) (EBin OAnd u64 (EUn ONot u64 (EVar 31)) (EVar 27))) ;;
  SSet 55 (EVar 65) ;;
  SSet 66 (EBin OXor u64 (EVar 31) (EBin OAnd u64 (EUn ONot u64 (EVar 27)) (EVar 28))) ;;
  SSet 56 (EVar 66) ;;
  SSet 5 (EBin OXor u64 (EVar 5) (EVar 60)) ;;
  SSet 32 (EBin OXor u64 (EBin OShl u64 (EVar 5) (EInt 28)) (EBin OShr u64 (EVar 5) (EInt 36))) ;;
  SSet 11 (EBin OXor u64 (EVar 11) (EVar 61)) ;;
  SSet 33 (EBin OXor u64 (EBin OShl u64 (EVar 11) (EInt 20)) (EBin OShr u64 (EVar 11) (EInt 44))) ;;
  SSet 12 (EBin OXor u64 (EVar 12) (EVar 57)) ;;
  SSet 34 (EBin OXor u64 (EBin OShl u64 (EVar 12) (EInt 3)) (EBin OShr u64 (EVar 12) (EInt 61))) ;;
  SSet 18 (EBin OXor u64 (EVar 18) (EVar 58)) ;;
  SSet 35 (EBin OXor u64 (EBin OShl u64 (EVar 18) (EInt 45)) (EBin OShr u64 (EVar 18) (EInt 19))) ;;
  SSet 24 (EBin OXor u64 (EVar 24) (EVar 59)) ;;
  SSet 36 (EBin OXor u64 (EBin OShl u64 (EVar 24) (EInt 61)) (EBin OShr u64 (EVar 24) (EInt 3))) ;;
  SSet 67 (EBin OXor u64 (EVar 32) (EBin OAnd u64 (EUn ONot u64 (EVar 33)) (EVar 34))) ;;
  SSet 52 (EBin OXor u64 (EVar 52) (EVar 67)) ;;
  SSet 68 (EBin OXor u64 (EVar 33) (EBin OAnd u64 (EUn ONot u64 (EVar 34)) (EVar 35))) ;;
  SSet 53 (EBin OXor u64 (EVar 53) (EVar 68)) ;;
  SSet 69 (EBin OXor u64 (EVar 34) (EBin OAnd u64 (EUn ONot u64 (EVar 35)) (EVar 36))) ;;
  SSet 54 (EBin OXor u64 (EVar 54) (EVar 69)) ;;
  SSet 70 (EBin OXor u64 (EVar 35) (EBin OAnd u64 (EUn ONot u64 (EVar 36)) (EVar 32))) ;;
  SSet 55 (EBin OXor u64 (EVar 55) (EVar 70)) ;;
  SSet 71 (EBin OXor u64 (EVar 36) (EBin OAnd u64 (EUn ONot u64 (EVar 32)) (EVar 33))) ;;
  SSet 56 (EBin OXor u64 (EVar 56) (EVar 71)) ;;
  SSet 3 (EBin OXor u64 (EVar 3) (EVar 58)) ;;
  SSet 37 (EBin OXor u64 (EBin OShl u64 (EVar 3) (EInt 1)) (EBin OShr u64 (EVar 3) (EInt 63))) ;;
  SSet 9 (EBin OXor u64 (EVar 9) (EVar 59)) ;;
  SSet 38 (EBin OXor u64 (EBin OShl u64 (EVar 9) (EInt 6)) (EBin OShr u64 (EVar 9) (EInt 58))) ;;
  SSet 15 (EBin OXor u64 (EVar 15) (EVar 60)) ;;
  SSet 39 (EBin OXor u64 (EBin OShl u64 (EVar 15) (EInt 25)) (EBin OShr u64 (EVar 15) (EInt 39))) ;;
  SSet 21 (EBin OXor u64 (EVar 21) (EVar 61)) ;;
  SSet 40 (EBin OXor u64 (EBin OShl u64 (EVar 21) (EInt 8)) (EBin OShr u64 (EVar 21) (EInt 56))) ;;
  SSet 22 (EBin OXor u64 (EVar 22) (EVar 57)) ;;
  SSet 41 (EBin OXor u64 (EBin OShl u64 (EVar 22) (EInt 18)) (EBin OShr u64 (EVar 22) (EInt 46))))) ;;
  (
  (
  SSet 72 (EBin OXor u64 (EVar 37) (EBin OAnd u64 (EUn ONot u64 (EVar 38)) (EVar 39))) ;;
  SSet 52 (EBin OXor u64 (EVar 52) (EVar 72)) ;;
  SSet 73 (EBin OXor u64 (EVar 38) (EBin OAnd u64 (EUn ONot u64 (EVar 39)) (EVar 40))) ;;
  SSet 53 (EBin OXor u64 (EVar 53) (EVar 73)) ;;
  SSet 74 (EBin OXor u64 (EVar 39) (EBin OAnd u64 (EUn ONot u64 (EVar 40)) (EVar 41))) ;;
  SSet 54 (EBin OXor u64 (EVar 54) (EVar 74)) ;;
  SSet 75 (EBin OXor u64 (EVar 40) (EBin OAnd u64 (EUn ONot u64 (EVar 41)) (EVar 37))) ;;
  SSet 55 (EBin OXor u64 (EVar 55) (EVar 75)) ;;
  SSet 76 (EBin OXor u64 (EVar 41) (EBin OAnd u64 (EUn ONot u64 (EVar 37)) (EVar 38))) ;;
  SSet 56 (EBin OXor u64 (EVar 56) (EVar 76)) ;;
  SSet 6 (EBin OXor u64 (EVar 6) (EVar 61)) ;;
  SSet 42 (EBin OXor u64 (EBin OShl u64 (EVar 6) (EInt 27)) (EBin OShr u64 (EVar 6) (EInt 37))) ;;
  SSet 7 (EBin OXor u64 (EVar 7) (EVar 57)) ;;
  SSet 43 (EBin OXor u64 (EBin OShl u64 (EVar 7) (EInt 36)) (EBin OShr u64 (EVar 7) (EInt 28))) ;;
  SSet 13 (EBin OXor u64 (EVar 13) (EVar 58)) ;;
  SSet 44 (EBin OXor u64 (EBin OShl u64 (EVar 13) (EInt 10)) (EBin OShr u64 (EVar 13) (EInt 54))) ;;
  SSet 19 (EBin OXor u64 (EVar 19) (EVar 59)) ;;
  SSet 45 (EBin OXor u64 (EBin OShl u64 (EVar 19) (EInt 15)) (EBin OShr u64 (EVar 19) (EInt 49))) ;;
  SSet 25 (EBin OXor u64 (EVar 25) (EVar 60)) ;;
  SSet 46 (EBin OXor u64 (EBin OShl u64 (EVar 25) (EInt 56)) (EBin OShr u64 (EVar 25) (EInt 8))) ;;
  SSet 77 (EBin OXor u64 (EVar 42) (EBin OAnd u64 (EUn ONot u64 (EVar 43)) (EVar 44))) ;;
  SSet 52 (EBin OXor u64 (EVar 52) (EVar 77)) ;;
  SSet 78 (EBin OXor u64 (EVar 43) (EBin OAnd u64 (EUn ONot u64 (EVar 44)) (EVar 45))) ;;
  SSet 53 (EBin OXor u64 (EVar 53) (EVar 78)) ;;
  SSet 79 (EBin OXor u64 (EVar 44) (EBin OAnd u64 (EUn ONot u64 (EVar 45)) (EVar 46))) ;;
  SSet 54 (EBin OXor u64 (EVar 54) (EVar 79)) ;;
  SSet 80 (EBin OXor u64 (EVar 45) (EBin OAnd u64 (EUn ONot u64 (EVar 46)) (EVar 42))) ;;
  SSet 55 (EBin OXor u64 (EVar 55) (EVar 80)) ;;
  SSet 81 (EBin OXor u64 (EVar 46) (EBin OAnd u64 (EUn ONot u64 (EVar 42)) (EVar 43))) ;;
  SSet 56 (EBin OXor u64 (EVar 56) (EVar 81)) ;;
  SSet 4 (EBin OXor u64 (EVar 4) (EVar 59)) ;;
  SSet 47 (EBin OXor u64 (EBin OShl u64 (EVar 4) (EInt 62)) (EBin OShr u64 (EVar 4) (EInt 2))) ;;
  SSet 10 (EBin OXor u64 (EVar 10) (EVar 60)) ;;
  SSet 48 (EBin OXor u64 (EBin OShl u64 (EVar 10) (EInt 55)) (EBin OShr u64 (EVar 10) (EInt 9))) ;;
  SSet 16 (EBin OXor u64 (EVar 16) (EVar 61)) ;;
  SSet 49 (EBin OXor u64 (EBin OShl u64 (EVar 16) (EInt 39)) (EBin OShr u64 (EVar 16) (EInt 25))) ;;
  SSet 17 (EBin OXor u64 (EVar 17) (EVar 57)) ;;
  SSet 50 (EBin OXor u64 (EBin OShl u64 (EVar 17) (EInt 41)) (EBin OShr u64 (EVar 17) (EInt 23))) ;;
  SSet 23 (EBin OXor u64 (EVar 23) (EVar 58)) ;;
  SSet 51 (EBin OXor u64 (EBin OShl u64 (EVar 23) (EInt 2)) (EBin OShr u64 (EVar 23) (EInt 62)))) ;;
  (
  (
  SSet 82 (EBin OXor u64 (EVar 47) (EBin OAnd u64 (EUn ONot u64 (EVar 48)) (EVar 49))) ;;
  SSet 52 (EBin OXor u64 (EVar 52) (EVar 82)) ;;
  SSet 83 (EBin OXor u64 (EVar 48) (EBin OAnd u64 (EUn ONot u64 (EVar 49)) (EVar 50))) ;;
  SSet 53 (EBin OXor u64 (EVar 53) (EVar 83)) ;;
  SSet 84 (EBin OXor u64 (EVar 49) (EBin OAnd u64 (EUn ONot u64 (EVar 50)) (EVar 51))) ;;
  SSet 54 (EBin OXor u64 (EVar 54) (EVar 84)) ;;
  SSet 85 (EBin OXor u64 (EVar 50) (EBin OAnd u64 (EUn ONot u64 (EVar 51)) (EVar 47))) ;;
  SSet 55 (EBin OXor u64 (EVar 55) (EVar 85)) ;;
  SSet 86 (EBin OXor u64 (EVar 51) (EBin OAnd u64 (EUn ONot u64 (EVar 47)) (EVar 48))) ;;
  SSet 56 (EBin OXor u64 (EVar 56) (EVar 86)) ;;
  SSet 57 (EBin OXor u64 (EVar 56) (EBin OXor u64 (EBin OShl u64 (EVar 53) (EInt 1)) (EBin OShr u64 (EVar 53) (EInt 63)))) ;;
  SSet 58 (EBin OXor u64 (EVar 52) (EBin OXor u64 (EBin OShl u64 (EVar 54) (EInt 1)) (EBin OShr u64 (EVar 54) (EInt 63)))) ;;
  SSet 59 (EBin OXor u64 (EVar 53) (EBin OXor u64 (EBin OShl u64 (EVar 55) (EInt 1)) (EBin OShr u64 (EVar 55) (EInt 63)))) ;;
  SSet 60 (EBin OXor u64 (EVar 54) (EBin OXor u64 (EBin OShl u64 (EVar 56) (EInt 1)) (EBin OShr u64 (EVar 56) (EInt 63)))) ;;
  SSet 61 (EBin OXor u64 (EVar 55) (EBin OXor u64 (EBin OShl u64 (EVar 52) (EInt 1)) (EBin OShr u64 (EVar 52) (EInt 63)))) ;;
  SSet 62 (EBin OXor u64 (EVar 62) (EVar 57)) ;;
  SSet 27 (EVar 62) ;;
  SSet 68 (EBin OXor u64 (EVar 68) (EVar 58)) ;;
  SSet 28 (EBin OXor u64 (EBin OShl u64 (EVar 68) (EInt 44)) (EBin OShr u64 (EVar 68) (EInt 20))) ;;
  SSet 74 (EBin OXor u64 (EVar 74) (EVar 59))) ;;
  (
  SSet 29 (EBin OXor u64 (EBin OShl u64 (EVar 74) (EInt 43)) (EBin OShr u64 (EVar 74) (EInt 21))) ;;
  SSet 80 (EBin OXor u64 (EVar 80) (EVar 60)) ;;
  SSet 30 (EBin OXor u64 (EBin OShl u64 (EVar 80) (EInt 21)) (EBin OShr u64 (EVar 80) (EInt 43))) ;;
  SSet 86 (EBin OXor u64 (EVar 86) (EVar 61)) ;;
  SSet 31 (EBin OXor u64 (EBin OShl u64 (EVar 86) (EInt 14)) (EBin OShr u64 (EVar 86) (EInt 50))) ;;
  SSet 2 (EBin OXor u64 (EVar 27) (EBin OAnd u64 (EUn ONot u64 (EVar 28)) (EVar 29))) ;;
  SSet 2 (EBin OXor u64 (EVar 2) (ELoad 8 (EAt (EGlob 1) 8 (EInt 7)))) ;;
  SSet 52 (EVar 2) ;;
  SSet 3 (EBin OXor u64 (EVar 28) (EBin OAnd u64 (EUn ONot u64 (EVar 29)) (EVar 30))) ;;
  SSet 53 (EVar 3) ;;
  SSet 4 (EBin OXor u64 (EVar 29) (EBin OAnd u64 (EUn ONot u64 (EVar 30)) (EVar 31))) ;;
  SSet 54 (EVar 4) ;;
  SSet 5 (EBin OXor u64 (EVar 30) (EBin OAnd u64 (EUn ONot u64 (EVar 31)) (EVar 27))) ;;
  SSet 55 (EVar 5) ;;
  SSet 6 (EBin OXor u64 (EVar 31) (EBin OAnd u64 (EUn ONot u64 (EVar 27)) (EVar 28))) ;;
  SSet 56 (EVar 6) ;;
  SSet 65 (EBin OXor u64 (EVar 65) (EVar 60)) ;;
  SSet 32 (EBin OXor u64 (EBin OShl u64 (EVar 65) (EInt 28)) (EBin OShr u64 (EVar 65) (EInt 36))) ;;
  SSet 71 (EBin OXor u64 (EVar 71) (EVar 61)) ;;
  SSet 33 (EBin OXor u64 (EBin OShl u64 (EVar 71) (EInt 20)) (EBin OShr u64 (EVar 71) (EInt 44))) ;;
  SSet 72 (EBin OXor u64 (EVar 72) (EVar 57)))))) ;;
  (
  (
  (
  SSet 34 (EBin OXor u64 (EBin OShl u64 (EVar 72) (EInt 3)) (EBin OShr u64 (EVar 72) (EInt 61))) ;;
  SSet 78 (EBin OXor u64 (EVar 78) (EVar 58)) ;;
  SSet 35 (EBin OXor u64 (EBin OShl u64 (EVar 78) (EInt 45)) (EBin OShr u64 (EVar 78) (EInt 19))) ;;
  SSet 84 (EBin OXor u64 (EVar 84) (EVar 59)) ;;
  SSet 36 (EBin OXor u64 (EBin OShl u64 (EVar 84) (EInt 61)) (EBin OShr u64 (EVar 84) (EInt 3))) ;;
  SSet 7 (EBin OXor u64 (EVar 32) (EBin OAnd u64 (EUn ONot u64 (EVar 33)) (EVar 34))) ;;
  SSet 52 (EBin OXor u64 (EVar 52) (EVar 7)) ;;
  SSet 8 (EBin OXor u64 (EVar 33) (EBin OAnd u64 (EUn ONot u64 (EVar 34)) (EVar 35))) ;;
  SSet 53 (EBin OXor u64 (EVar 53) (EVar 8)) ;;
  SSet 9 (EBin OXor u64 (EVar 34) (EBin OAnd u64 (EUn ONot u64 (EVar 35)) (EVar 36))) ;;
  SSet 54 (EBin OXor u64 (EVar 54) (EVar 9)) ;;
  SSet 10 (EBin OXor u64 (EVar 35) (EBin OAnd u64 (EUn ONot u64 (EVar 36)) (EVar 32))) ;;
  SSet 55 (EBin OXor u64 (EVar 55) (EVar 10)) ;;
  SSet 11 (EBin OXor u64 (EVar 36) (EBin OAnd u64 (EUn ONot u64 (EVar 32)) (EVar 33))) ;;
  SSet 56 (EBin OXor u64 (EVar 56) (EVar 11)) ;;
  SSet 63 (EBin OXor u64 (EVar 63) (EVar 58)) ;;
  SSet 37 (EBin OXor u64 (EBin OShl u64 (EVar 63) (EInt 1)) (EBin OShr u64 (EVar 63) (EInt 63))) ;;
  SSet 69 (EBin OXor u64 (EVar 69) (EVar 59)) ;;
  SSet 38 (EBin OXor u64 (EBin OShl u64 (EVar 69) (EInt 6)) (EBin OShr u64 (EVar 69) (EInt 58))) ;;
  SSet 75 (EBin OXor u64 (EVar 75) (EVar 60)) ;;
  SSet 39 (EBin OXor u64 (EBin OShl u64 (EVar 75) (EInt 25)) (EBin OShr u64 (EVar 75) (EInt 39))) ;;
  SSet 81 (EBin OXor u64 (EVar 81) (EVar 61)) ;;
  SSet 40 (EBin OXor u64 (EBin OShl u64 (EVar 81) (EInt 8)) (EBin OShr u64 (EVar 81) (EInt 56))) ;;
  SSet 82 (EBin OXor u64 (EVar 82) (EVar 57)) ;;
  SSet 41 (EBin OXor u64 (EBin OShl u64 (EVar 82) (EInt 18)) (EBin OShr u64 (EVar 82) (EInt 46))) ;;
  SSet 12 (EBin OXor u64 (EVar 37) (EBin OAnd u64 (EUn ONot u64 (EVar 38)) (EVar 39))) ;;
  SSet 52 (EBin OXor u64 (EVar 52) (EVar 12)) ;;
  SSet 13 (EBin OXor u64 (EVar 38) (EBin OAnd u64 (EUn ONot u64 (EVar 39)) (EVar 40))) ;;
  SSet 53 (EBin OXor u64 (EVar 53) (EVar 13)) ;;
  SSet 14 (EBin OXor u64 (EVar 39) (EBin OAnd u64 (EUn ONot u64 (EVar 40)) (EVar 41))) ;;
  SSet 54 (EBin OXor u64 (EVar 54) (EVar 14)) ;;
  SSet 15 (EBin OXor u64 (EVar 40) (EBin OAnd u64 (EUn ONot u64 (EVar 41)) (EVar 37))) ;;
  SSet 55 (EBin OXor u64 (EVar 55) (EVar 15)) ;;
  SSet 16 (EBin OXor u64 (EVar 41) (EBin OAnd u64 (EUn ONot u64 (EVar 37)) (EVar 38))) ;;
  SSet 56 (EBin OXor u64 (EVar 56) (EVar 16)) ;;
  SSet 66 (EBin OXor u64 (EVar 66) (EVar 61)) ;;
  SSet 42 (EBin OXor u64 (EBin OShl u64 (EVar 66) (EInt 27)) (EBin OShr u64 (EVar 66) (EInt 37))) ;;
  SSet 67 (EBin OXor u64 (EVar 67) (EVar 57)) ;;
  SSet 43 (EBin OXor u64 (EBin OShl u64 (EVar 67) (EInt 36)) (EBin OShr u64 (EVar 67) (EInt 28))) ;;
  SSet 73 (EBin OXor u64 (EVar 73) (EVar 58))) ;;
  (
  SSet 44 (EBin OXor u64 (EBin OShl u64 (EVar 73) (EInt 10)) (EBin OShr u64 (EVar 73) (EInt 54))) ;;
  SSet 79 (EBin OXor u64 (EVar 79) (EVar 59)) ;;
  SSet 45 (EBin OXor u64 (EBin OShl u64 (EVar 79) (EInt 15)) (EBin OShr u64 (EVar 79) (EInt 49))) ;;
  SSet 85 (EBin OXor u64 (EVar 85) (EVar 60)) ;;
  SSet 46 (EBin OXor u64 (EBin OShl u64 (EVar 85) (EInt 56)) (EBin OShr u64 (EVar 85) (EInt 8))) ;;
  SSet 17 (EBin OXor u64 (EVar 42) (EBin OAnd u64 (EUn ONot u64 (EVar 43)) (EVar 44))) ;;
  SSet 52 (EBin OXor u64 (EVar 52) (EVar 17)) ;;
  SSet 18 (EBin OXor u64 (EVar 43) (EBin OAnd u64 (EUn ONot u64 (EVar 44)) (EVar 45))) ;;
  SSet 53 (EBin OXor u64 (EVar 53) (EVar 18)) ;;
  SSet 19 (EBin OXor u64 (EVar 44) (EBin OAnd u64 (EUn ONot u64 (EVar 45)) (EVar 46))) ;;
  SSet 54 (EBin OXor u64 (EVar 54) (EVar 19)) ;;
  SSet 20 (EBin OXor u64 (EVar 45) (EBin OAnd u64 (EUn ONot u64 (EVar 46)) (EVar 42))) ;;
  SSet 55 (EBin OXor u64 (EVar 55) (EVar 20)) ;;
  SSet 21 (EBin OXor u64 (EVar 46) (EBin OAnd u64 (EUn ONot u64 (EVar 42)) (EVar 43))) ;;
  SSet 56 (EBin OXor u64 (EVar 56) (EVar 21)) ;;
  SSet 64 (EBin OXor u64 (EVar 64) (EVar 59)) ;;
  SSet 47 (EBin OXor u64 (EBin OShl u64 (EVar 64) (EInt 62)) (EBin OShr u64 (EVar 64) (EInt 2))) ;;
  SSet 70 (EBin OXor u64 (EVar 70) (EVar 60)) ;;
  SSet 48 (EBin OXor u64 (EBin OShl u64 (EVar 70) (EInt 55)) (EBin OShr u64 (EVar 70) (EInt 9))) ;;
  SSet 76 (EBin OXor u64 (EVar 76) (EVar 61)) ;;
  SSet 49 (EBin OXor u64 (EBin OShl u64 (EVar 76) (EInt 39)) (EBin OShr u64 (EVar 76) (EInt 25))) ;;
  SSet 77 (EBin OXor u64 (EVar 77) (EVar 57)) ;;
  SSet 50 (EBin OXor u64 (EBin OShl u64 (EVar 77) (EInt 41)) (EBin OShr u64 (EVar 77) (EInt 23))) ;;
  SSet 83 (EBin OXor u64 (EVar 83) (EVar 58)) ;;
  SSet 51 (EBin OXor u64 (EBin OShl u64 (EVar 83) (EInt 2)) (EBin OShr u64 (EVar 83) (EInt 62))) ;;
  SSet 22 (EBin OXor u64 (EVar 47) (EBin OAnd u64 (EUn ONot u64 (EVar 48)) (EVar 49))) ;;
  SSet 52 (EBin OXor u64 (EVar 52) (EVar 22)) ;;
  SSet 23 (EBin OXor u64 (EVar 48) (EBin OAnd u64 (EUn ONot u64 (EVar 49)) (EVar 50))) ;;
  SSet 53 (EBin OXor u64 (EVar 53) (EVar 23)) ;;
  SSet 24 (EBin OXor u64 (EVar 49) (EBin OAnd u64 (EUn ONot u64 (EVar 50)) (EVar 51))) ;;
  SSet 54 (EBin OXor u64 (EVar 54) (EVar 24)) ;;
  SSet 25 (EBin OXor u64 (EVar 50) (EBin OAnd u64 (EUn ONot u64 (EVar 51)) (EVar 47))) ;;
  SSet 55 (EBin OXor u64 (EVar 55) (EVar 25)) ;;
  SSet 26 (EBin OXor u64 (EVar 51) (EBin OAnd u64 (EUn ONot u64 (EVar 47)) (EVar 48))) ;;
  SSet 56 (EBin OXor u64 (EVar 56) (EVar 26)) ;;
  SSet 57 (EBin OXor u64 (EVar 56) (EBin OXor u64 (EBin OShl u64 (EVar 53) (EInt 1)) (EBin OShr u64 (EVar 53) (EInt 63)))) ;;
  SSet 58 (EBin OXor u64 (EVar 52) (EBin OXor u64 (EBin OShl u64 (EVar 54) (EInt 1)) (EBin OShr u64 (EVar 54) (EInt 63)))) ;;
  SSet 59 (EBin OXor u64 (EVar 53) (EBin OXor u64 (EBin OShl u64 (EVar 55) (EInt 1)) (EBin OShr u64 (EVar 55) (EInt 63)))) ;;
  SSet 60 (EBin OXor u64 (EVar 54) (EBin OXor u64 (EBin OShl u64 (EVar 56) (EInt 1)) (EBin OShr u64 (EVar 56) (EInt 63)))) ;;
  SSet 61 (EBin OXor u64 (EVar 55) (EBin OXor u64 (EBin OShl u64 (EVar 52) (EInt 1)) (EBin OShr u64 (EVar 52) (EInt 63)))))) ;;
  (
  (
  SSet 2 (EBin OXor u64 (EVar 2) (EVar 57)) ;;
  SSet 27 (EVar 2) ;;
  SSet 8 (EBin OXor u64 (EVar 8) (EVar 58)) ;;
  SSet 28 (EBin OXor u64 (EBin OShl u64 (EVar 8) (EInt 44)) (EBin OShr u64 (EVar 8) (EInt 20))) ;;
  SSet 14 (EBin OXor u64 (EVar 14) (EVar 59)) ;;
  SSet 29 (EBin OXor u64 (EBin OShl u64 (EVar 14) (EInt 43)) (EBin OShr u64 (EVar 14) (EInt 21))) ;;
  SSet 20 (EBin OXor u64 (EVar 20) (EVar 60)) ;;
  SSet 30 (EBin OXor u64 (EBin OShl u64 (EVar 20) (EInt 21)) (EBin OShr u64 (EVar 20) (EInt 43))) ;;
  SSet 26 (EBin OXor u64 (EVar 26) (EVar 61)) ;;
  SSet 31 (EBin OXor u64 (EBin OShl u64 (EVar 26) (EInt 14)) (EBin OShr u64 (EVar 26) (EInt 50))) ;;
  SSet 62 (EBin OXor u64 (EVar 27) (EBin OAnd u64 (EUn ONot u64 (EVar 28)) (EVar 29))) ;;
  SSet 62 (EBin OXor u64 (EVar 62) (ELoad 8 (EAt (EGlob 1) 8 (EInt 8)))) ;;
  SSet 52 (EVar 62) ;;
  SSet 63 (EBin OXor u64 (EVar 28) (EBin OAnd u64 (EUn ONot u64 (EVar 29)) (EVar 30))) ;;
  SSet 53 (EVar 63) ;;
  SSet 64 (EBin OXor u64 (EVar 29) (EBin OAnd u64 (EUn ONot u64 (EVar 30)) (EVar 31))) ;;
  SSet 54 (EVar 64) ;;
  SSet 65 (EBin OXor u64 (EVar 30) (EBin OAnd u64 (EUn ONot u64 (EVar 31)) (EVar 27))) ;;
  SSet 55 (EVar 65) ;;
  SSet 66 (EBin OXor u64 (EVar 31) (EBin OAnd u64 (EUn ONot u64 (EVar 27)) (EVar 28))) ;;
  SSet 56 (EVar 66) ;;
  SSet 5 (EBin OXor u64 (EVar 5) (EVar 60)) ;;
  SSet 32 (EBin OXor u64 (EBin OShl u64 (EVar 5) (EInt 28)) (EBin OShr u64 (EVar 5) (EInt 36))) ;;
  SSet 11 (EBin OXor u64 (EVar 11) (EVar 61)) ;;
  SSet 33 (EBin OXor u64 (EBin OShl u64 (EVar 11) (EInt 20)) (EBin OShr u64 (EVar 11) (EInt 44))) ;;
  SSet 12 (EBin OXor u64 (EVar 12) (EVar 57)) ;;
  SSet 34 (EBin OXor u64 (EBin OShl u64 (EVar 12) (EInt 3)) (EBin OShr u64 (EVar 12) (EInt 61))) ;;
  SSet 18 (EBin OXor u64 (EVar 18) (EVar 58)) ;;
  SSet 35 (EBin OXor u64 (EBin OShl u64 (EVar 18) (EInt 45)) (EBin OShr u64 (EVar 18) (EInt 19))) ;;
  SSet 24 (EBin OXor u64 (EVar 24) (EVar 59)) ;;
  SSet 36 (EBin OXor u64 (EBin OShl u64 (EVar 24) (EInt 61)) (EBin OShr u64 (EVar 24) (EInt 3))) ;;
  SSet 67 (EBin OXor u64 (EVar 32) (EBin OAnd u64 (EUn ONot u64 (EVar 33)) (EVar 34))) ;;
  SSet 52 (EBin OXor u64 (EVar 52) (EVar 67)) ;;
  SSet 68 (EBin OXor u64 (EVar 33) (EBin OAnd u64 (EUn ONot u64 (EVar 34)) (EVar 35))) ;;
  SSet 53 (EBin OXor u64 (EVar 53) (EVar 68)) ;;
  SSet 69 (EBin OXor u64 (EVar 34) (EBin OAnd u64 (EUn ONot u64 (EVar 35)) (EVar 36))) ;;
  SSet 54 (EBin OXor u64 (EVar 54) (EVar 69)) ;;
  SSet 70 (EBin OXor u64 (EVar 35) (EBin OAnd u64 (EUn ONot u64 (EVar 36)) (EVar 32))) ;;
  SSet 55 (EBin OXor u64 (EVar 55) (EVar 70)) ;;
  SSet 71 (EBin OXor u64 (EVar 36) (EBin OAnd u64 (EUn ONot u64 (EVar 32)) (EVar 33)))) ;;
  (
  (
  SSet 56 (EBin OXor u64 (EVar 56) (EVar 71)) ;;
  SSet 3 (EBin OXor u64 (EVar 3) (EVar 58)) ;;
  SSet 37 (EBin OXor u64 (EBin OShl u64 (EVar 3) (EInt 1)) (EBin OShr u64 (EVar 3) (EInt 63))) ;;
  SSet 9 (EBin OXor u64 (EVar 9) (EVar 59)) ;;
  SSet 38 (EBin OXor u64 (EBin OShl u64 (EVar 9) (EInt 6)) (EBin OShr u64 (EVar 9) (EInt 58))) ;;
  SSet 15 (EBin OXor u64 (EVar 15) (EVar 60)) ;;
  SSet 39 (EBin OXor u64 (EBin OShl u64 (EVar 15) (EInt 25)) (EBin OShr u64 (EVar 15) (EInt 39))) ;;
  SSet 21 (EBin OXor u64 (EVar 21) (EVar 61)) ;;
  SSet 40 (EBin OXor u64 (EBin OShl u64 (EVar 21) (EInt 8)) (EBin OShr u64 (EVar 21) (EInt 56))) ;;
  SSet 22 (EBin OXor u64 (EVar 22) (EVar 57)) ;;
  SSet 41 (EBin OXor u64 (EBin OShl u64 (EVar 22) (EInt 18)) (EBin OShr u64 (EVar 22) (EInt 46))) ;;
  SSet 72 (EBin OXor u64 (EVar 37) (EBin OAnd u64 (EUn ONot u64 (EVar 38)) (EVar 39))) ;;
  SSet 52 (EBin OXor u64 (EVar 52) (EVar 72)) ;;
  SSet 73 (EBin OXor u64 (EVar 38) (EBin OAnd u64 (EUn ONot u64 (EVar 39)) (EVar 40))) ;;
  SSet 53 (EBin OXor u64 (EVar 53) (EVar 73)) ;;
  SSet 74 (EBin OXor u64 (EVar 39) (EBin OAnd u64 (EUn ONot u64 (EVar 40)) (EVar 41))) ;;
  SSet 54 (EBin OXor u64 (EVar 54) (EVar 74)) ;;
  SSet 75 (EBin OXor u64 (EVar 40) (EBin OAnd u64 (EUn ONot u64 (EVar 41)) (EVar 37))) ;;
  SSet 55 (EBin OXor u64 (EVar 55) (EVar 75)) ;;
  SSet 76 (EBin OXor u64 (EVar 41) (EBin OAnd u64 (EUn ONot u64 (EVar 37)) (EVar 38)))) ;;
  (
  SSet 56 (EBin OXor u64 (EVar 56) (EVar 76)) ;;
  SSet 6 (EBin OXor u64 (EVar 6) (EVar 61)) ;;
  SSet 42 (EBin OXor u64 (EBin OShl u64 (EVar 6) (EInt 27)) (EBin OShr u64 (EVar 6) (EInt 37))) ;;
  SSet 7 (EBin OXor u64 (EVar 7) (EVar 57)) ;;
  SSet 43 (EBin OXor u64 (EBin OShl u64 (EVar 7) (EInt 36)) (EBin OShr u64 (EVar 7) (EInt 28))) ;;
  SSet 13 (EBin OXor u64 (EVar 13) (EVar 58)) ;;
  SSet 44 (EBin OXor u64 (EBin OShl u64 (EVar 13) (EInt 10)) (EBin OShr u64 (EVar 13) (EInt 54))) ;;
  SSet 19 (EBin OXor u64 (EVar 19) (EVar 59)) ;;
  SSet 45 (EBin OXor u64 (EBin OShl u64 (EVar 19) (EInt 15)) (EBin OShr u64 (EVar 19) (EInt 49))) ;;
  SSet 25 (EBin OXor u64 (EVar 25) (EVar 60)) ;;
  SSet 46 (EBin OXor u64 (EBin OShl u64 (EVar 25) (EInt 56)) (EBin OShr u64 (EVar 25) (EInt 8))) ;;
  SSet 77 (EBin OXor u64 (EVar 42) (EBin OAnd u64 (EUn ONot u64 (EVar 43)) (EVar 44))) ;;
  SSet 52 (EBin OXor u64 (EVar 52) (EVar 77)) ;;
  SSet 78 (EBin OXor u64 (EVar 43) (EBin OAnd u64 (EUn ONot u64 (EVar 44)) (EVar 45))) ;;
  SSet 53 (EBin OXor u64 (EVar 53) (EVar 78)) ;;
  SSet 79 (EBin OXor u64 (EVar 44) (EBin OAnd u64 (EUn ONot u64 (EVar 45)) (EVar 46))) ;;
  SSet 54 (EBin OXor u64 (EVar 54) (EVar 79)) ;;
  SSet 80 (EBin OXor u64 (EVar 45) (EBin OAnd u64 (EUn ONot u64 (EVar 46)) (EVar 42))) ;;
  SSet 55 (EBin OXor u64 (EVar 55) (EVar 80)) ;;
  SSet 81 (EBin OXor u64 (EVar 46) (EBin OAnd u64 (EUn ONot u64 (EVar 42)) (EVar 43))) ;;
  SSet 56 (EBin OXor u64 (EVar 56) (EVar 81))))))) ;;
  (
  (
  (
  (
  SSet 4 (EBin OXor u64 (EVar 4) (EVar 59)) ;;
  SSet 47 (EBin OXor u64 (EBin OShl u64 (EVar 4) (EInt 62)) (EBin OShr u64 (EVar 4) (EInt 2))) ;;
  SSet 10 (EBin OXor u64 (EVar 10) (EVar 60)) ;;
  SSet 48 (EBin OXor u64 (EBin OShl u64 (EVar 10) (EInt 55)) (EBin OShr u64 (EVar 10) (EInt 9))) ;;
  SSet 16 (EBin OXor u64 (EVar 16) (EVar 61)) ;;
  SSet 49 (EBin OXor u64 (EBin OShl u64 (EVar 16) (EInt 39)) (EBin OShr u64 (EVar 16) (EInt 25))) ;;
  SSet 17 (EBin OXor u64 (EVar 17) (EVar 57)) ;;
  SSet 50 (EBin OXor u64 (EBin OShl u64 (EVar 17) (EInt 41)) (EBin OShr u64 (EVar 17) (EInt 23))) ;;
  SSet 23 (EBin OXor u64 (EVar 23) (EVar 58)) ;;
  SSet 51 (EBin OXor u64 (EBin OShl u64 (EVar 23) (EInt 2)) (EBin OShr u64 (EVar 23) (EInt 62))) ;;
  SSet 82 (EBin OXor u64 (EVar 47) (EBin OAnd u64 (EUn ONot u64 (EVar 48)) (EVar 49))) ;;
  SSet 52 (EBin OXor u64 (EVar 52) (EVar 82)) ;;
  SSet 83 (EBin OXor u64 (EVar 48) (EBin OAnd u64 (EUn ONot u64 (EVar 49)) (EVar 50))) ;;
  SSet 53 (EBin OXor u64 (EVar 53) (EVar 83)) ;;
  SSet 84 (EBin OXor u64 (EVar 49) (EBin OAnd u64 (EUn ONot u64 (EVar 50)) (EVar 51))) ;;
  SSet 54 (EBin OXor u64 (EVar 54) (EVar 84)) ;;
  SSet 85 (EBin OXor u64 (EVar 50) (EBin OAnd u64 (EUn ONot u64 (EVar 51)) (EVar 47))) ;;
  SSet 55 (EBin OXor u64 (EVar 55) (EVar 85)) ;;
  SSet 86 (EBin OXor u64 (EVar 51) (EBin OAnd u64 (EUn ONot u64 (EVar 47)) (EVar 48))) ;;
  SSet 56 (EBin OXor u64 (EVar 56) (EVar 86)) ;;
  SSet 57 (EBin OXor u64 (EVar 56) (EBin OXor u64 (EBin OShl u64 (EVar 53) (EInt 1)) (EBin OShr u64 (EVar 53) (EInt 63)))) ;;
  SSet 58 (EBin OXor u64 (EVar 52) (EBin OXor u64 (EBin OShl u64 (EVar 54) (EInt 1)) (EBin OShr u64 (EVar 54) (EInt 63)))) ;;
  SSet 59 (EBin OXor u64 (EVar 53) (EBin OXor u64 (EBin OShl u64 (EVar 55) (EInt 1)) (EBin OShr u64 (EVar 55) (EInt 63)))) ;;
  SSet 60 (EBin OXor u64 (EVar 54) (EBin OXor u64 (EBin OShl u64 (EVar 56) (EInt 1)) (EBin OShr u64 (EVar 56) (EInt 63)))) ;;
  SSet 61 (EBin OXor u64 (EVar 55) (EBin OXor u64 (EBin OShl u64 (EVar 52) (EInt 1)) (EBin OShr u64 (EVar 52) (EInt 63)))) ;;
  SSet 62 (EBin OXor u64 (EVar 62) (EVar 57)) ;;
  SSet 27 (EVar 62) ;;
  SSet 68 (EBin OXor u64 (EVar 68) (EVar 58)) ;;
  SSet 28 (EBin OXor u64 (EBin OShl u64 (EVar 68) (EInt 44)) (EBin OShr u64 (EVar 68) (EInt 20))) ;;
  SSet 74 (EBin OXor u64 (EVar 74) (EVar 59)) ;;
  SSet 29 (EBin OXor u64 (EBin OShl u64 (EVar 74) (EInt 43)) (EBin OShr u64 (EVar 74) (EInt 21))) ;;
  SSet 80 (EBin OXor u64 (EVar 80) (EVar 60)) ;;
  SSet 30 (EBin OXor u64 (EBin OShl u64 (EVar 80) (EInt 21)) (EBin OShr u64 (EVar 80) (EInt 43))) ;;
  SSet 86 (EBin OXor u64 (EVar 86) (EVar 61)) ;;
  SSet 31 (EBin OXor u64 (EBin OShl u64 (EVar 86) (EInt 14)) (EBin OShr u64 (EVar 86) (EInt 50))) ;;
  SSet 2 (EBin OXor u64 (EVar 27) (EBin OAnd u64 (EUn ONot u64 (EVar 28)) (EVar 29))) ;;
  SSet 2 (EBin OXor u64 (EVar 2) (ELoad 8 (EAt (EGlob 1) 8 (EInt 9)))) ;;
  SSet 52 (EVar 2) ;;
  SSet 3 (EBin OXor u64 (EVar 28) (EBin OAnd u64 (EUn ONot u64 (EVar 29)) (EVar 30))) ;;
  SSet 53 (EVar 3)) ;;
  (
  SSet 4 (EBin OXor u64 (EVar 29) (EBin OAnd u64 (EUn ONot u64 (EVar 30)) (EVar 31))) ;;
  SSet 54 (EVar 4) ;;
  SSet 5 (EBin OXor u64 (EVar 30) (EBin OAnd u64 (EUn ONot u64 (EVar 31)) (EVar 27))) ;;
  SSet 55 (EVar 5) ;;
  SSet 6 (EBin OXor u64 (EVar 31) (EBin OAnd u64 (EUn ONot u64 (EVar 27)) (EVar 28))) ;;
  SSet 56 (EVar 6) ;;
  SSet 65 (EBin OXor u64 (EVar 65) (EVar 60)) ;;
  SSet 32 (EBin OXor u64 (EBin OShl u64 (EVar 65) (EInt 28)) (EBin OShr u64 (EVar 65) (EInt 36))) ;;
  SSet 71 (EBin OXor u64 (EVar 71) (EVar 61)) ;;
  SSet 33 (EBin OXor u64 (EBin OShl u64 (EVar 71) (EInt 20)) (EBin OShr u64 (EVar 71) (EInt 44))) ;;
  SSet 72 (EBin OXor u64 (EVar 72) (EVar 57)) ;;
  SSet 34 (EBin OXor u64 (EBin OShl u64 (EVar 72) (EInt 3)) (EBin OShr u64 (EVar 72) (EInt 61))) ;;
  SSet 78 (EBin OXor u64 (EVar 78) (EVar 58)) ;;
  SSet 35 (EBin OXor u64 (EBin OShl u64 (EVar 78) (EInt 45)) (EBin OShr u64 (EVar 78) (EInt 19))) ;;
  SSet 84 (EBin OXor u64 (EVar 84) (EVar 59)) ;;
  SSet 36 (EBin OXor u64 (EBin OShl u64 (EVar 84) (EInt 61)) (EBin OShr u64 (EVar 84) (EInt 3))) ;;
  SSet 7 (EBin OXor u64 (EVar 32) (EBin OAnd u64 (EUn ONot u64 (EVar 33)) (EVar 34))) ;;
  SSet 52 (EBin OXor u64 (EVar 52) (EVar 7)) ;;
  SSet 8 (EBin OXor u64 (EVar 33) (EBin OAnd u64 (EUn ONot u64 (EVar 34)) (EVar 35))) ;;
  SSet 53 (EBin OXor u64 (EVar 53) (EVar 8)) ;;
  SSet 9 (EBin OXor u64 (EVar 34) (EBin OAnd u64 (EUn ONot u64 (EVar 35)) (EVar 36))) ;;
  SSet 54 (EBin OXor u64 (EVar 54) (EVar 9)) ;;
  SSet 10 (EBin OXor u64 (EVar 35) (EBin OAnd u64 (EUn ONot u64 (EVar 36)) (EVar 32))) ;;
  SSet 55 (EBin OXor u64 (EVar 55) (EVar 10)) ;;
  SSet 11 (EBin OXor u64 (EVar 36) (EBin OAnd u64 (EUn ONot u64 (EVar 32)) (EVar 33))) ;;
  SSet 56 (EBin OXor u64 (EVar 56) (EVar 11)) ;;
  SSet 63 (EBin OXor u64 (EVar 63) (EVar 58)) ;;
  SSet 37 (EBin OXor u64 (EBin OShl u64 (EVar 63) (EInt 1)) (EBin OShr u64 (EVar 63) (EInt 63))) ;;
  SSet 69 (EBin OXor u64 (EVar 69) (EVar 59)) ;;
  SSet 38 (EBin OXor u64 (EBin OShl u64 (EVar 69) (EInt 6)) (EBin OShr u64 (EVar 69) (EInt 58))) ;;
  SSet 75 (EBin OXor u64 (EVar 75) (EVar 60)) ;;
  SSet 39 (EBin OXor u64 (EBin OShl u64 (EVar 75) (EInt 25)) (EBin OShr u64 (EVar 75) (EInt 39))) ;;
  SSet 81 (EBin OXor u64 (EVar 81) (EVar 61)) ;;
  SSet 40 (EBin OXor u64 (EBin OShl u64 (EVar 81) (EInt 8)) (EBin OShr u64 (EVar 81) (EInt 56))) ;;
  SSet 82 (EBin OXor u64 (EVar 82) (EVar 57)) ;;
  SSet 41 (EBin OXor u64 (EBin OShl u64 (EVar 82) (EInt 18)) (EBin OShr u64 (EVar 82) (EInt 46))) ;;
  SSet 12 (EBin OXor u64 (EVar 37) (EBin OAnd u64 (EUn ONot u64 (EVar 38)) (EVar 39))) ;;
  SSet 52 (EBin OXor u64 (EVar 52) (EVar 12)) ;;
  SSet 13 (EBin OXor u64 (EVar 38) (EBin OAnd u64 (EUn ONot u64 (EVar 39)) (EVar 40))) ;;
  SSet 53 (EBin OXor u64 (EVar 53) (EVar 13)))) ;;
  (
  (
  SSet 14 (EBin OXor u64 (EVar 39) (EBin OAnd u64 (EUn ONot u64 (EVar 40)) (EVar 41))) ;;
  SSet 54 (EBin OXor u64 (EVar 54) (EVar 14)) ;;
  SSet 15 (EBin OXor u64 (EVar 40) (EBin OAnd u64 (EUn ONot u64 (EVar 41)) (EVar 37))) ;;
  SSet 55 (EBin OXor u64 (EVar 55) (EVar 15)) ;;
  SSet 16 (EBin OXor u64 (EVar 41) (EBin OAnd u64 (EUn ONot u64 (EVar 37)) (EVar 38))) ;;
  SSet 56 (EBin OXor u64 (EVar 56) (EVar 16)) ;;
  SSet 66 (EBin OXor u64 (EVar 66) (EVar 61)) ;;
  SSet 42 (EBin OXor u64 (EBin OShl u64 (EVar 66) (EInt 27)) (EBin OShr u64 (EVar 66) (EInt 37))) ;;
  SSet 67 (EBin OXor u64 (EVar 67) (EVar 57)) ;;
  SSet 43 (EBin OXor u64 (EBin OShl u64 (EVar 67) (EInt 36)) (EBin OShr u64 (EVar 67) (EInt 28))) ;;
  SSet 73 (EBin OXor u64 (EVar 73) (EVar 58)) ;;
  SSet 44 (EBin OXor u64 (EBin OShl u64 (EVar 73) (EInt 10)) (EBin OShr u64 (EVar 73) (EInt 54))) ;;
  SSet 79 (EBin OXor u64 (EVar 79) (EVar 59)) ;;
  SSet 45 (EBin OXor u64 (EBin OShl u64 (EVar 79) (EInt 15)) (EBin OShr u64 (EVar 79) (EInt 49))) ;;
  SSet 85 (EBin OXor u64 (EVar 85) (EVar 60)) ;;
  SSet 46 (EBin OXor u64 (EBin OShl u64 (EVar 85) (EInt 56)) (EBin OShr u64 (EVar 85) (EInt 8))) ;;
  SSet 17 (EBin OXor u64 (EVar 42) (EBin OAnd u64 (EUn ONot u64 (EVar 43)) (EVar 44))) ;;
  SSet 52 (EBin OXor u64 (EVar 52) (EVar 17)) ;;
  SSet 18 (EBin OXor u64 (EVar 43) (EBin OAnd u64 (EUn ONot u64 (EVar 44)) (EVar 45))) ;;
  SSet 53 (EBin OXor u64 (EVar 53) (EVar 18)) ;;
  SSet 19 (EBin OXor u64 (EVar 44) (EBin OAnd u64 (EUn ONot u64 (EVar 45)) (EVar 46))) ;;
  SSet 54 (EBin OXor u64 (EVar 54) (EVar 19)) ;;
  SSet 20 (EBin OXor u64 (EVar 45) (EBin OAnd u64 (EUn ONot u64 (EVar 46)) (EVar 42))) ;;
  SSet 55 (EBin OXor u64 (EVar 55) (EVar 20)) ;;
  SSet 21 (EBin OXor u64 (EVar 46) (EBin OAnd u64 (EUn ONot u64 (EVar 42)) (EVar 43))) ;;
  SSet 56 (EBin OXor u64 (EVar 56) (EVar 21)) ;;
  SSet 64 (EBin OXor u64 (EVar 64) (EVar 59)) ;;
  SSet 47 (EBin OXor u64 (EBin OShl u64 (EVar 64) (EInt 62)) (EBin OShr u64 (EVar 64) (EInt 2))) ;;
  SSet 70 (EBin OXor u64 (EVar 70) (EVar 60)) ;;
  SSet 48 (EBin OXor u64 (EBin OShl u64 (EVar 70) (EInt 55)) (EBin OShr u64 (EVar 70) (EInt 9))) ;;
  SSet 76 (EBin OXor u64 (EVar 76) (EVar 61)) ;;
  SSet 49 (EBin OXor u64 (EBin OShl u64 (EVar 76) (EInt 39)) (EBin OShr u64 (EVar 76) (EInt 25))) ;;
  SSet 77 (EBin OXor u64 (EVar 77) (EVar 57)) ;;
  SSet 50 (EBin OXor u64 (EBin OShl u64 (EVar 77) (EInt 41)) (EBin OShr u64 (EVar 77) (EInt 23))) ;;
  SSet 83 (EBin OXor u64 (EVar 83) (EVar 58)) ;;
  SSet 51 (EBin OXor u64 (EBin OShl u64 (EVar 83) (EInt 2)) (EBin OShr u64 (EVar 83) (EInt 62))) ;;
  SSet 22 (EBin OXor u64 (EVar 47) (EBin OAnd u64 (EUn ONot u64 (EVar 48)) (EVar 49))) ;;
  SSet 52 (EBin OXor u64 (EVar 52) (EVar 22)) ;;
  SSet 23 (EBin OXor u64 (EVar 48) (EBin OAnd u64 (EUn ONot u64 (EVar 49)) (EVar 50))) ;;
  SSet 53 (EBin OXor u64 (EVar 53) (EVar 23))) ;;
  (
  (
  SSet 24 (EBin OXor u64 (EVar 49) (EBin OAnd u64 (EUn ONot u64 (EVar 50)) (EVar 51))) ;;
  SSet 54 (EBin OXor u64 (EVar 54) (EVar 24)) ;;
  SSet 25 (EBin OXor u64 (EVar 50) (EBin OAnd u64 (EUn ONot u64 (EVar 51)) (EVar 47))) ;;
  SSet 55 (EBin OXor u64 (EVar 55) (EVar 25)) ;;
  SSet 26 (EBin OXor u64 (EVar 51) (EBin OAnd u64 (EUn ONot u64 (EVar 47)) (EVar 48))) ;;
  SSet 56 (EBin OXor u64 (EVar 56) (EVar 26)) ;;
  SSet 57 (EBin OXor u64 (EVar 56) (EBin OXor u64 (EBin OShl u64 (EVar 53) (EInt 1)) (EBin OShr u64 (EVar 53) (EInt 63)))) ;;
  SSet 58 (EBin OXor u64 (EVar 52) (EBin OXor u64 (EBin OShl u64 (EVar 54) (EInt 1)) (EBin OShr u64 (EVar 54) (EInt 63)))) ;;
  SSet 59 (EBin OXor u64 (EVar 53) (EBin OXor u64 (EBin OShl u64 (EVar 55) (EInt 1)) (EBin OShr u64 (EVar 55) (EInt 63)))) ;;
  SSet 60 (EBin OXor u64 (EVar 54) (EBin OXor u64 (EBin OShl u64 (EVar 56) (EInt 1)) (EBin OShr u64 (EVar 56) (EInt 63)))) ;;
  SSet 61 (EBin OXor u64 (EVar 55) (EBin OXor u64 (EBin OShl u64 (EVar 52) (EInt 1)) (EBin OShr u64 (EVar 52) (EInt 63)))) ;;
  SSet 2 (EBin OXor u64 (EVar 2) (EVar 57)) ;;
  SSet 27 (EVar 2) ;;
  SSet 8 (EBin OXor u64 (EVar 8) (EVar 58)) ;;
  SSet 28 (EBin OXor u64 (EBin OShl u64 (EVar 8) (EInt 44)) (EBin OShr u64 (EVar 8) (EInt 20))) ;;
  SSet 14 (EBin OXor u64 (EVar 14) (EVar 59)) ;;
  SSet 29 (EBin OXor u64 (EBin OShl u64 (EVar 14) (EInt 43)) (EBin OShr u64 (EVar 14) (EInt 21))) ;;
  SSet 20 (EBin OXor u64 (EVar 20) (EVar 60)) ;;
  SSet 30 (EBin OXor u64 (EBin OShl u64 (EVar 20) (EInt 21)) (EBin OShr u64 (EVar 20) (EInt 43))) ;;
  SSet 26 (EBin OXor u64 (EVar 26) (EVar 61))) ;;
  (
  SSet 31 (EBin OXor u64 (EBin OShl u64 (EVar 26) (EInt 14)) (EBin OShr u64 (EVar 26) (EInt 50))) ;;
  SSet 62 (EBin OXor u64 (EVar 27) (EBin OAnd u64 (EUn ONot u64 (EVar 28)) (EVar 29))) ;;
  SSet 62 (EBin OXor u64 (EVar 62) (ELoad 8 (EAt (EGlob 1) 8 (EInt 10)))) ;;
  SSet 52 (EVar 62) ;;
  SSet 63 (EBin OXor u64 (EVar 28) (EBin OAnd u64 (EUn ONot u64 (EVar 29)) (EVar 30))) ;;
  SSet 53 (EVar 63) ;;
  SSet 64 (EBin OXor u64 (EVar 29) (EBin OAnd u64 (EUn ONot u64 (EVar 30)) (EVar 31))) ;;
  SSet 54 (EVar 64) ;;
  SSet 65 (EBin OXor u64 (EVar 30) (EBin OAnd u64 (EUn ONot u64 (EVar 31)) (EVar 27))) ;;
  SSet 55 (EVar 65) ;;
  SSet 66 (EBin OXor u64 (EVar 31) (EBin OAnd u64 (EUn ONot u64 (EVar 27)) (EVar 28))) ;;
  SSet 56 (EVar 66) ;;
  SSet 5 (EBin OXor u64 (EVar 5) (EVar 60)) ;;
  SSet 32 (EBin OXor u64 (EBin OShl u64 (EVar 5) (EInt 28)) (EBin OShr u64 (EVar 5) (EInt 36))) ;;
  SSet 11 (EBin OXor u64 (EVar 11) (EVar 61)) ;;
  SSet 33 (EBin OXor u64 (EBin OShl u64 (EVar 11) (EInt 20)) (EBin OShr u64 (EVar 11) (EInt 44))) ;;
  SSet 12 (EBin OXor u64 (EVar 12) (EVar 57)) ;;
  SSet 34 (EBin OXor u64 (EBin OShl u64 (EVar 12) (EInt 3)) (EBin OShr u64 (EVar 12) (EInt 61))) ;;
  SSet 18 (EBin OXor u64 (EVar 18) (EVar 58)) ;;
  SSet 35 (EBin OXor u64 (EBin OShl u64 (EVar 18) (EInt 45)) (EBin OShr u64 (EVar 18) (EInt 19))) ;;
  SSet 24 (EBin OXor u64 (EVar 24) (EVar 59)))))) ;;
  (
  (
  (
  SSet 36 (EBin OXor u64 (EBin OShl u64 (EVar 24) (EInt 61)) (EBin OShr u64 (EVar 24) (EInt 3))) ;;
  SSet 67 (EBin OXor u64 (EVar 32) (EBin OAnd u64 (EUn ONot u64 (EVar 33)) (EVar 34))) ;;
  SSet 52 (EBin OXor u64 (EVar 52) (EVar 67)) ;;
  SSet 68 (EBin OXor u64 (EVar 33) (EBin OAnd u64 (EUn ONot u64 (EVar 34)) (EVar 35))) ;;
  SSet 53 (EBin OXor u64 (EVar 53) (EVar 68)) ;;
  SSet 69 (EBin OXor u64 (EVar 34) (EBin OAnd u64 (EUn ONot u64 (EVar 35)) (EVar 36))) ;;
  SSet 54 (EBin OXor u64 (EVar 54) (EVar 69)) ;;
  SSet 70 (EBin OXor u64 (EVar 35) (EBin OAnd u64 (EUn ONot u64 (EVar 36)) (EVar 32))) ;;
  SSet 55 (EBin OXor u64 (EVar 55) (EVar 70)) ;;
  SSet 71 (EBin OXor u64 (EVar 36) (EBin OAnd u64 (EUn ONot u64 (EVar 32)) (EVar 33))) ;;
  SSet 56 (EBin OXor u64 (EVar 56) (EVar 71)) ;;
  SSet 3 (EBin OXor u64 (EVar 3) (EVar 58)) ;;
  SSet 37 (EBin OXor u64 (EBin OShl u64 (EVar 3) (EInt 1)) (EBin OShr u64 (EVar 3) (EInt 63))) ;;
  SSet 9 (EBin OXor u64 (EVar 9) (EVar 59)) ;;
  SSet 38 (EBin OXor u64 (EBin OShl u64 (EVar 9) (EInt 6)) (EBin OShr u64 (EVar 9) (EInt 58))) ;;
  SSet 15 (EBin OXor u64 (EVar 15) (EVar 60)) ;;
  SSet 39 (EBin OXor u64 (EBin OShl u64 (EVar 15) (EInt 25)) (EBin OShr u64 (EVar 15) (EInt 39))) ;;
  SSet 21 (EBin OXor u64 (EVar 21) (EVar 61)) ;;
  SSet 40 (EBin OXor u64 (EBin OShl u64 (EVar 21) (EInt 8)) (EBin OShr u64 (EVar 21) (EInt 56))) ;;
  SSet 22 (EBin OXor u64 (EVar 22) (EVar 57)) ;;
  SSet 41 (EBin OXor u64 (EBin OShl u64 (EVar 22) (EInt 18)) (EBin OShr u64 (EVar 22) (EInt 46))) ;;
  SSet 72 (EBin OXor u64 (EVar 37) (EBin OAnd u64 (EUn ONot u64 (EVar 38)) (EVar 39))) ;;
  SSet 52 (EBin OXor u64 (EVar 52) (EVar 72)) ;;
  SSet 73 (EBin OXor u64 (EVar 38) (EBin OAnd u64 (EUn ONot u64 (EVar 39)) (EVar 40))) ;;
  SSet 53 (EBin OXor u64 (EVar 53) (EVar 73)) ;;
  SSet 74 (EBin OXor u64 (EVar 39) (EBin OAnd u64 (EUn ONot u64 (EVar 40)) (EVar 41))) ;;
  SSet 54 (EBin OXor u64 (EVar 54) (EVar 74)) ;;
  SSet 75 (EBin OXor u64 (EVar 40) (EBin OAnd u64 (EUn ONot u64 (EVar 41)) (EVar 37))) ;;
  SSet 55 (EBin OXor u64 (EVar 55) (EVar 75)) ;;
  SSet 76 (EBin OXor u64 (EVar 41) (EBin OAnd u64 (EUn ONot u64 (EVar 37)) (EVar 38))) ;;
  SSet 56 (EBin OXor u64 (EVar 56) (EVar 76)) ;;
  SSet 6 (EBin OXor u64 (EVar 6) (EVar 61)) ;;
  SSet 42 (EBin OXor u64 (EBin OShl u64 (EVar 6) (EInt 27)) (EBin OShr u64 (EVar 6) (EInt 37))) ;;
  SSet 7 (EBin OXor u64 (EVar 7) (EVar 57)) ;;
  SSet 43 (EBin OXor u64 (EBin OShl u64 (EVar 7) (EInt 36)) (EBin OShr u64 (EVar 7) (EInt 28))) ;;
  SSet 13 (EBin OXor u64 (EVar 13) (EVar 58)) ;;
  SSet 44 (EBin OXor u64 (EBin OShl u64 (EVar 13) (EInt 10)) (EBin OShr u64 (EVar 13) (EInt 54))) ;;
  SSet 19 (EBin OXor u64 (EVar 19) (EVar 59)) ;;
  SSet 45 (EBin OXor u64 (EBin OShl u64 (EVar 19) (EInt 15)) (EBin OShr u64 (EVar 19) (EInt 49))) ;;
  SSet 25 (EBin OXor u64 (EVar 25) (EVar 60))) ;;
  (
  SSet 46 (EBin OXor u64 (EBin OShl u64 (EVar 25) (EInt 56)) (EBin OShr u64 (EVar 25) (EInt 8))) ;;
  SSet 77 (EBin OXor u64 (EVar 42) (EBin OAnd u64 (EUn ONot u64 (EVar 43)) (EVar 44))) ;;
  SSet 52 (EBin OXor u64 (EVar 52) (EVar 77)) ;;
  SSet 78 (EBin OXor u64 (EVar 43) (EBin OAnd u64 (EUn ONot u64 (EVar 44)) (EVar 45))) ;;
  SSet 53 (EBin OXor u64 (EVar 53) (EVar 78)) ;;
  SSet 79 (EBin OXor u64 (EVar 44) (EBin OAnd u64 (EUn ONot u64 (EVar 45)) (EVar 46))) ;;
  SSet 54 (EBin OXor u64 (EVar 54) (EVar 79)) ;;
  SSet 80 (EBin OXor u64 (EVar 45) (EBin OAnd u64 (EUn ONot u64 (EVar 46)) (EVar 42))) ;;
  SSet 55 (EBin OXor u64 (EVar 55) (EVar 80)) ;;
  SSet 81 (EBin OXor u64 (EVar 46) (EBin OAnd u64 (EUn ONot u64 (EVar 42)) (EVar 43))) ;;
  SSet 56 (EBin OXor u64 (EVar 56) (EVar 81)) ;;
  SSet 4 (EBin OXor u64 (EVar 4) (EVar 59)) ;;
  SSet 47 (EBin OXor u64 (EBin OShl u64 (EVar 4) (EInt 62)) (EBin OShr u64 (EVar 4) (EInt 2))) ;;
  SSet 10 (EBin OXor u64 (EVar 10) (EVar 60)) ;;
  SSet 48 (EBin OXor u64 (EBin OShl u64 (EVar 10) (EInt 55)) (EBin OShr u64 (EVar 10) (EInt 9))) ;;
  SSet 16 (EBin OXor u64 (EVar 16) (EVar 61)) ;;
  SSet 49 (EBin OXor u64 (EBin OShl u64 (EVar 16) (EInt 39)) (EBin OShr u64 (EVar 16) (EInt 25))) ;;
  SSet 17 (EBin OXor u64 (EVar 17) (EVar 57)) ;;
  SSet 50 (EBin OXor u64 (EBin OShl u64 (EVar 17) (EInt 41)) (EBin OShr u64 (EVar 17) (EInt 23))) ;;
  SSet 23 (EBin OXor u64 (EVar 23) (EVar 58)) ;;
  SSet 51 (EBin OXor u64 (EBin OShl u64 (EVar 23) (EInt 2)) (EBin OShr u64 (EVar 23) (EInt 62))) ;;
  SSet 82 (EBin OXor u64 (EVar 47) (EBin OAnd u64 (EUn ONot u64 (EVar 48)) (EVar 49))) ;;
  SSet 52 (EBin OXor u64 (EVar 52) (EVar 82)) ;;
  SSet 83 (EBin OXor u64 (EVar 48) (EBin OAnd u64 (EUn ONot u64 (EVar 49)) (EVar 50))) ;;
  SSet 53 (EBin OXor u64 (EVar 53) (EVar 83)) ;;
  SSet 84 (EBin OXor u64 (EVar 49) (EBin OAnd u64 (EUn ONot u64 (EVar 50)) (EVar 51))) ;;
  SSet 54 (EBin OXor u64 (EVar 54) (EVar 84)) ;;
  SSet 85 (EBin OXor u64 (EVar 50) (EBin OAnd u64 (EUn ONot u64 (EVar 51)) (EVar 47))) ;;
  SSet 55 (EBin OXor u64 (EVar 55) (EVar 85)) ;;
  SSet 86 (EBin OXor u64 (EVar 51) (EBin OAnd u64 (EUn ONot u64 (EVar 47)) (EVar 48))) ;;
  SSet 56 (EBin OXor u64 (EVar 56) (EVar 86)) ;;
  SSet 57 (EBin OXor u64 (EVar 56) (EBin OXor u64 (EBin OShl u64 (EVar 53) (EInt 1)) (EBin OShr u64 (EVar 53) (EInt 63)))) ;;
  SSet 58 (EBin OXor u64 (EVar 52) (EBin OXor u64 (EBin OShl u64 (EVar 54) (EInt 1)) (EBin OShr u64 (EVar 54) (EInt 63)))) ;;
  SSet 59 (EBin OXor u64 (EVar 53) (EBin OXor u64 (EBin OShl u64 (EVar 55) (EInt 1)) (EBin OShr u64 (EVar 55) (EInt 63)))) ;;
  SSet 60 (EBin OXor u64 (EVar 54) (EBin OXor u64 (EBin OShl u64 (EVar 56) (EInt 1)) (EBin OShr u64 (EVar 56) (EInt 63)))) ;;
  SSet 61 (EBin OXor u64 (EVar 55) (EBin OXor u64 (EBin OShl u64 (EVar 52) (EInt 1)) (EBin OShr u64 (EVar 52) (EInt 63)))) ;;
  SSet 62 (EBin OXor u64 (EVar 62) (EVar 57)) ;;
  SSet 27 (EVar 62) ;;
  SSet 68 (EBin OXor u64 (EVar 68) (EVar 58)) ;;
  SSet 28 (EBin OXor u64 (EBin OShl u64 (EVar 68) (EInt 44)) (EBin OShr u64 (EVar 68) (EInt 20))))) ;;
  (
  (
  SSet 74 (EBin OXor u64 (EVar 74) (EVar 59)) ;;
  SSet 29 (EBin OXor u64 (EBin OShl u64 (EVar 74) (EInt 43)) (EBin OShr u64 (EVar 74) (EInt 21))) ;;
  SSet 80 (EBin OXor u64 (EVar 80) (EVar 60)) ;;
  SSet 30 (EBin OXor u64 (EBin OShl u64 (EVar 80) (EInt 21)) (EBin OShr u64 (EVar 80) (EInt 43))) ;;
  SSet 86 (EBin OXor u64 (EVar 86) (EVar 61)) ;;
  SSet 31 (EBin OXor u64 (EBin OShl u64 (EVar 86) (EInt 14)) (EBin OShr u64 (EVar 86) (EInt 50))) ;;
  SSet 2 (EBin OXor u64 (EVar 27) (EBin OAnd u64 (EUn ONot u64 (EVar 28)) (EVar 29))) ;;
  SSet 2 (EBin OXor u64 (EVar 2) (ELoad 8 (EAt (EGlob 1) 8 (EInt 11)))) ;;
  SSet 52 (EVar 2) ;;
  SSet 3 (EBin OXor u64 (EVar 28) (EBin OAnd u64 (EUn ONot u64 (EVar 29)) (EVar 30))) ;;
  SSet 53 (EVar 3) ;;
  SSet 4 (EBin OXor u64 (EVar 29) (EBin OAnd u64 (EUn ONot u64 (EVar 30)) (EVar 31))) ;;
  SSet 54 (EVar 4) ;;
  SSet 5 (EBin OXor u64 (EVar 30) (EBin OAnd u64 (EUn ONot u64 (EVar 31)) (EVar 27))) ;;
  SSet 55 (EVar 5) ;;
  SSet 6 (EBin OXor u64 (EVar 31) (EBin OAnd u64 (EUn ONot u64 (EVar 27)) (EVar 28))) ;;
  SSet 56 (EVar 6) ;;
  SSet 65 (EBin OXor u64 (EVar 65) (EVar 60)) ;;
  SSet 32 (EBin OXor u64 (EBin OShl u64 (EVar 65) (EInt 28)) (EBin OShr u64 (EVar 65) (EInt 36))) ;;
  SSet 71 (EBin OXor u64 (EVar 71) (EVar 61)) ;;
  SSet 33 (EBin OXor u64 (EBin OShl u64 (EVar 71) (EInt 20)) (EBin OShr u64 (EVar 71) (EInt 44))) ;;
  SSet 72 (EBin OXor u64 (EVar 72) (EVar 57)) ;;
  SSet 34 (EBin OXor u64 (EBin OShl u64 (EVar 72) (EInt 3)) (EBin OShr u64 (EVar 72) (EInt 61))) ;;
  SSet 78 (EBin OXor u64 (EVar 78) (EVar 58)) ;;
  SSet 35 (EBin OXor u64 (EBin OShl u64 (EVar 78) (EInt 45)) (EBin OShr u64 (EVar 78) (EInt 19))) ;;
  SSet 84 (EBin OXor u64 (EVar 84) (EVar 59)) ;;
  SSet 36 (EBin OXor u64 (EBin OShl u64 (EVar 84) (EInt 61)) (EBin OShr u64 (EVar 84) (EInt 3))) ;;
  SSet 7 (EBin OXor u64 (EVar 32) (EBin OAnd u64 (EUn ONot u64 (EVar 33)) (EVar 34))) ;;
  SSet 52 (EBin OXor u64 (EVar 52) (EVar 7)) ;;
  SSet 8 (EBin OXor u64 (EVar 33) (EBin OAnd u64 (EUn ONot u64 (EVar 34)) (EVar 35))) ;;
  SSet 53 (EBin OXor u64 (EVar 53) (EVar 8)) ;;
  SSet 9 (EBin OXor u64 (EVar 34) (EBin OAnd u64 (EUn ONot u64 (EVar 35)) (EVar 36))) ;;
  SSet 54 (EBin OXor u64 (EVar 54) (EVar 9)) ;;
  SSet 10 (EBin OXor u64 (EVar 35) (EBin OAnd u64 (EUn ONot u64 (EVar 36)) (EVar 32))) ;;
  SSet 55 (EBin OXor u64 (EVar 55) (EVar 10)) ;;
  SSet 11 (EBin OXor u64 (EVar 36) (EBin OAnd u64 (EUn ONot u64 (EVar 32)) (EVar 33))) ;;
  SSet 56 (EBin OXor u64 (EVar 56) (EVar 11)) ;;
  SSet 63 (EBin OXor u64 (EVar 63) (EVar 58)) ;;
  SSet 37 (EBin OXor u64 (EBin OShl u64 (EVar 63) (EInt 1)) (EBin OShr u64 (EVar 63) (EInt 63))) ;;
  SSet 69 (EBin OXor u64 (EVar 69) (EVar 59))) ;;
  (
  (
  SSet 38 (EBin OXor u64 (EBin OShl u64 (EVar 69) (EInt 6)) (EBin OShr u64 (EVar 69) (EInt 58))) ;;
  SSet 75 (EBin OXor u64 (EVar 75) (EVar 60)) ;;
  SSet 39 (EBin OXor u64 (EBin OShl u64 (EVar 75) (EInt 25)) (EBin OShr u64 (EVar 75) (EInt 39))) ;;
  SSet 81 (EBin OXor u64 (EVar 81) (EVar 61)) ;;
  SSet 40 (EBin OXor u64 (EBin OShl u64 (EVar 81) (EInt 8)) (EBin OShr u64 (EVar 81) (EInt 56))) ;;
  SSet 82 (EBin OXor u64 (EVar 82) (EVar 57)) ;;
  SSet 41 (EBin OXor u64 (EBin OShl u64 (EVar 82) (EInt 18)) (EBin OShr u64 (EVar 82) (EInt 46))) ;;
  SSet 12 (EBin OXor u64 (EVar 37) (EBin OAnd u64 (EUn ONot u64 (EVar 38)) (EVar 39))) ;;
  SSet 52 (EBin OXor u64 (EVar 52) (EVar 12)) ;;
  SSet 13 (EBin OXor u64 (EVar 38) (EBin OAnd u64 (EUn ONot u64 (EVar 39)) (EVar 40))) ;;
  SSet 53 (EBin OXor u64 (EVar 53) (EVar 13)) ;;
  SSet 14 (EBin OXor u64 (EVar 39) (EBin OAnd u64 (EUn ONot u64 (EVar 40)) (EVar 41))) ;;
  SSet 54 (EBin OXor u64 (EVar 54) (EVar 14)) ;;
  SSet 15 (EBin OXor u64 (EVar 40) (EBin OAnd u64 (EUn ONot u64 (EVar 41)) (EVar 37))) ;;
  SSet 55 (EBin OXor u64 (EVar 55) (EVar 15)) ;;
  SSet 16 (EBin OXor u64 (EVar 41) (EBin OAnd u64 (EUn ONot u64 (EVar 37)) (EVar 38))) ;;
  SSet 56 (EBin OXor u64 (EVar 56) (EVar 16)) ;;
  SSet 66 (EBin OXor u64 (EVar 66) (EVar 61)) ;;
  SSet 42 (EBin OXor u64 (EBin OShl u64 (EVar 66) (EInt 27)) (EBin OShr u64 (EVar 66) (EInt 37))) ;;
  SSet 67 (EBin OXor u64 (EVar 67) (EVar 57))) ;;
  (
  SSet 43 (EBin OXor u64 (EBin OShl u64 (EVar 67) (EInt 36)) (EBin OShr u64 (EVar 67) (EInt 28))) ;;
  SSet 73 (EBin OXor u64 (EVar 73) (EVar 58)) ;;
  SSet 44 (EBin OXor u64 (EBin OShl u64 (EVar 73) (EInt 10)) (EBin OShr u64 (EVar 73) (EInt 54))) ;;
  SSet 79 (EBin OXor u64 (EVar 79) (EVar 59)) ;;
  SSet 45 (EBin OXor u64 (EBin OShl u64 (EVar 79) (EInt 15)) (EBin OShr u64 (EVar 79) (EInt 49))) ;;
  SSet 85 (EBin OXor u64 (EVar 85) (EVar 60)) ;;
  SSet 46 (EBin OXor u64 (EBin OShl u64 (EVar 85) (EInt 56)) (EBin OShr u64 (EVar 85) (EInt 8))) ;;
  SSet 17 (EBin OXor u64 (EVar 42) (EBin OAnd u64 (EUn ONot u64 (EVar 43)) (EVar 44))) ;;
  SSet 52 (EBin OXor u64 (EVar 52) (EVar 17)) ;;
  SSet 18 (EBin OXor u64 (EVar 43) (EBin OAnd u64 (EUn ONot u64 (EVar 44)) (EVar 45))) ;;
  SSet 53 (EBin OXor u64 (EVar 53) (EVar 18)) ;;
  SSet 19 (EBin OXor u64 (EVar 44) (EBin OAnd u64 (EUn ONot u64 (EVar 45)) (EVar 46))) ;;
  SSet 54 (EBin OXor u64 (EVar 54) (EVar 19)) ;;
  SSet 20 (EBin OXor u64 (EVar 45) (EBin OAnd u64 (EUn ONot u64 (EVar 46)) (EVar 42))) ;;
  SSet 55 (EBin OXor u64 (EVar 55) (EVar 20)) ;;
  SSet 21 (EBin OXor u64 (EVar 46) (EBin OAnd u64 (EUn ONot u64 (EVar 42)) (EVar 43))) ;;
  SSet 56 (EBin OXor u64 (EVar 56) (EVar 21)) ;;
  SSet 64 (EBin OXor u64 (EVar 64) (EVar 59)) ;;
  SSet 47 (EBin OXor u64 (EBin OShl u64 (EVar 64) (EInt 62)) (EBin OShr u64 (EVar 64) (EInt 2))) ;;
  SSet 70 (EBin OXor u64 (EVar 70) (EVar 60)) ;;
  SSet 48 (EBin OXor u64 (EBin OShl u64 (EVar 70) (EInt 55)) (EBin OShr u64 (EVar 70) (EInt 9)))))))))) ;;
  (
  (
  (
  (
  (
  (
  SSet 76 (EBin OXor u64 (EVar 76) (EVar 61)) ;;
  SSet 49 (EBin OXor u64 (EBin OShl u64 (EVar 76) (EInt 39)) (EBin OShr u64 (EVar 76) (EInt 25))) ;;
  SSet 77 (EBin OXor u64 (EVar 77) (EVar 57)) ;;
  SSet 50 (EBin OXor u64 (EBin OShl u64 (EVar 77) (EInt 41)) (EBin OShr u64 (EVar 77) (EInt 23))) ;;
  SSet 83 (EBin OXor u64 (EVar 83) (EVar 58)) ;;
  SSet 51 (EBin OXor u64 (EBin OShl u64 (EVar 83) (EInt 2)) (EBin OShr u64 (EVar 83) (EInt 62))) ;;
  SSet 22 (EBin OXor u64 (EVar 47) (EBin OAnd u64 (EUn ONot u64 (EVar 48)) (EVar 49))) ;;
  SSet 52 (EBin OXor u64 (EVar 52) (EVar 22)) ;;
  SSet 23 (EBin OXor u64 (EVar 48) (EBin OAnd u64 (EUn ONot u64 (EVar 49)) (EVar 50))) ;;
  SSet 53 (EBin OXor u64 (EVar 53) (EVar 23)) ;;
  SSet 24 (EBin OXor u64 (EVar 49) (EBin OAnd u64 (EUn ONot u64 (EVar 50)) (EVar 51))) ;;
  SSet 54 (EBin OXor u64 (EVar 54) (EVar 24)) ;;
  SSet 25 (EBin OXor u64 (EVar 50) (EBin OAnd u64 (EUn ONot u64 (EVar 51)) (EVar 47))) ;;
  SSet 55 (EBin OXor u64 (EVar 55) (EVar 25)) ;;
  SSet 26 (EBin OXor u64 (EVar 51) (EBin OAnd u64 (EUn ONot u64 (EVar 47)) (EVar 48))) ;;
  SSet 56 (EBin OXor u64 (EVar 56) (EVar 26)) ;;
  SSet 57 (EBin OXor u64 (EVar 56) (EBin OXor u64 (EBin OShl u64 (EVar 53) (EInt 1)) (EBin OShr u64 (EVar 53) (EInt 63)))) ;;
  SSet 58 (EBin OXor u64 (EVar 52) (EBin OXor u64 (EBin OShl u64 (EVar 54) (EInt 1)) (EBin OShr u64 (EVar 54) (EInt 63)))) ;;
  SSet 59 (EBin OXor u64 (EVar 53) (EBin OXor u64 (EBin OShl u64 (EVar 55) (EInt 1)) (EBin OShr u64 (EVar 55) (EInt 63)))) ;;
  SSet 60 (EBin OXor u64 (EVar 54) (EBin OXor u64 (EBin OShl u64 (EVar 56) (EInt 1)) (EBin OShr u64 (EVar 56) (EInt 63)))) ;;
  SSet 61 (EBin OXor u64 (EVar 55) (EBin OXor u64 (EBin OShl u64 (EVar 52) (EInt 1)) (EBin OShr u64 (EVar 52) (EInt 63)))) ;;
  SSet 2 (EBin OXor u64 (EVar 2) (EVar 57)) ;;
  SSet 27 (EVar 2) ;;
  SSet 8 (EBin OXor u64 (EVar 8) (EVar 58)) ;;
  SSet 28 (EBin OXor u64 (EBin OShl u64 (EVar 8) (EInt 44)) (EBin OShr u64 (EVar 8) (EInt 20))) ;;
  SSet 14 (EBin OXor u64 (EVar 14) (EVar 59)) ;;
  SSet 29 (EBin OXor u64 (EBin OShl u64 (EVar 14) (EInt 43)) (EBin OShr u64 (EVar 14) (EInt 21))) ;;
  SSet 20 (EBin OXor u64 (EVar 20) (EVar 60)) ;;
  SSet 30 (EBin OXor u64 (EBin OShl u64 (EVar 20) (EInt 21)) (EBin OShr u64 (EVar 20) (EInt 43))) ;;
  SSet 26 (EBin OXor u64 (EVar 26) (EVar 61)) ;;
  SSet 31 (EBin OXor u64 (EBin OShl u64 (EVar 26) (EInt 14)) (EBin OShr u64 (EVar 26) (EInt 50))) ;;
  SSet 62 (EBin OXor u64 (EVar 27) (EBin OAnd u64 (EUn ONot u64 (EVar 28)) (EVar 29))) ;;
  SSet 62 (EBin OXor u64 (EVar 62) (ELoad 8 (EAt (EGlob 1) 8 (EInt 12)))) ;;
  SSet 52 (EVar 62) ;;
  SSet 63 (EBin OXor u64 (EVar 28) (EBin OAnd u64 (EUn ONot u64 (EVar 29)) (EVar 30))) ;;
  SSet 53 (EVar 63) ;;
  SSet 64 (EBin OXor u64 (EVar 29) (EBin OAnd u64 (EUn ONot u64 (EVar 30)) (EVar 31))) ;;
  SSet 54 (EVar 64) ;;
  SSet 65 (EBin OXor u64 (EVar 30) (EBin OAnd u64 (EUn ONot u64 (EVar 31)) (EVar 27))) ;;
  SSet 55 (EVar 65)) ;;
  (
  SSet 66 (EBin OXor u64 (EVar 31) (EBin OAnd u64 (EUn ONot u64 (EVar 27)) (EVar 28))) ;;
  SSet 56 (EVar 66) ;;
  SSet 5 (EBin OXor u64 (EVar 5) (EVar 60)) ;;
  SSet 32 (EBin OXor u64 (EBin OShl u64 (EVar 5) (EInt 28)) (EBin OShr u64 (EVar 5) (EInt 36))) ;;
  SSet 11 (EBin OXor u64 (EVar 11) (EVar 61)) ;;
  SSet 33 (EBin OXor u64 (EBin OShl u64 (EVar 11) (EInt 20)) (EBin OShr u64 (EVar 11) (EInt 44))) ;;
  SSet 12 (EBin OXor u64 (EVar 12) (EVar 57)) ;;
  SSet 34 (EBin OXor u64 (EBin OShl u64 (EVar 12) (EInt 3)) (EBin OShr u64 (EVar 12) (EInt 61))) ;;
  SSet 18 (EBin OXor u64 (EVar 18) (EVar 58)) ;;
  SSet 35 (EBin OXor u64 (EBin OShl u64 (EVar 18) (EInt 45)) (EBin OShr u64 (EVar 18) (EInt 19))) ;;
  SSet 24 (EBin OXor u64 (EVar 24) (EVar 59)) ;;
  SSet 36 (EBin OXor u64 (EBin OShl u64 (EVar 24) (EInt 61)) (EBin OShr u64 (EVar 24) (EInt 3))) ;;
  SSet 67 (EBin OXor u64 (EVar 32) (EBin OAnd u64 (EUn ONot u64 (EVar 33)) (EVar 34))) ;;
  SSet 52 (EBin OXor u64 (EVar 52) (EVar 67)) ;;
  SSet 68 (EBin OXor u64 (EVar 33) (EBin OAnd u64 (EUn ONot u64 (EVar 34)) (EVar 35))) ;;
  SSet 53 (EBin OXor u64 (EVar 53) (EVar 68)) ;;
  SSet 69 (EBin OXor u64 (EVar 34) (EBin OAnd u64 (EUn ONot u64 (EVar 35)) (EVar 36))) ;;
  SSet 54 (EBin OXor u64 (EVar 54) (EVar 69)) ;;
  SSet 70 (EBin OXor u64 (EVar 35) (EBin OAnd u64 (EUn ONot u64 (EVar 36)) (EVar 32))) ;;
  SSet 55 (EBin OXor u64 (EVar 55) (EVar 70)) ;;
  SSet 71 (EBin OXor u64 (EVar 36) (EBin OAnd u64 (EUn ONot u64 (EVar 32)) (EVar 33))) ;;
  SSet 56 (EBin OXor u64 (EVar 56) (EVar 71)) ;;
  SSet 3 (EBin OXor u64 (EVar 3) (EVar 58)) ;;
  SSet 37 (EBin OXor u64 (EBin OShl u64 (EVar 3) (EInt 1)) (EBin OShr u64 (EVar 3) (EInt 63))) ;;
  SSet 9 (EBin OXor u64 (EVar 9) (EVar 59)) ;;
  SSet 38 (EBin OXor u64 (EBin OShl u64 (EVar 9) (EInt 6)) (EBin OShr u64 (EVar 9) (EInt 58))) ;;
  SSet 15 (EBin OXor u64 (EVar 15) (EVar 60)) ;;
  SSet 39 (EBin OXor u64 (EBin OShl u64 (EVar 15) (EInt 25)) (EBin OShr u64 (EVar 15) (EInt 39))) ;;
  SSet 21 (EBin OXor u64 (EVar 21) (EVar 61)) ;;
  SSet 40 (EBin OXor u64 (EBin OShl u64 (EVar 21) (EInt 8)) (EBin OShr u64 (EVar 21) (EInt 56))) ;;
  SSet 22 (EBin OXor u64 (EVar 22) (EVar 57)) ;;
  SSet 41 (EBin OXor u64 (EBin OShl u64 (EVar 22) (EInt 18)) (EBin OShr u64 (EVar 22) (EInt 46))) ;;
  SSet 72 (EBin OXor u64 (EVar 37) (EBin OAnd u64 (EUn ONot u64 (EVar 38)) (EVar 39))) ;;
  SSet 52 (EBin OXor u64 (EVar 52) (EVar 72)) ;;
  SSet 73 (EBin OXor u64 (EVar 38) (EBin OAnd u64 (EUn ONot u64 (EVar 39)) (EVar 40))) ;;
  SSet 53 (EBin OXor u64 (EVar 53) (EVar 73)) ;;
  SSet 74 (EBin OXor u64 (EVar 39) (EBin OAnd u64 (EUn ONot u64 (EVar 40)) (EVar 41))) ;;
  SSet 54 (EBin OXor u64 (EVar 54) (EVar 74)) ;;
  SSet 75 (EBin OXor u64 (EVar 40) (EBin OAnd u64 (EUn ONot u64 (EVar 41)) (EVar 37))) ;;
  SSet 55 (EBin OXor u64 (EVar 55) (EVar 75)))) ;;
  (
  (
  SSet 76 (EBin OXor u64 (EVar 41) (EBin OAnd u64 (EUn ONot u64 (EVar 37)) (EVar 38))) ;;
  SSet 56 (EBin OXor u64 (EVar 56) (EVar 76)) ;;
  SSet 6 (EBin OXor u64 (EVar 6) (EVar 61)) ;;
  SSet 42 (EBin OXor u64 (EBin OShl u64 (EVar 6) (EInt 27)) (EBin OShr u64 (EVar 6) (EInt 37))) ;;
  SSet 7 (EBin OXor u64 (EVar 7) (EVar 57)) ;;
  SSet 43 (EBin OXor u64 (EBin OShl u64 (EVar 7) (EInt 36)) (EBin OShr u64 (EVar 7) (EInt 28))) ;;
  SSet 13 (EBin OXor u64 (EVar 13) (EVar 58)) ;;
  SSet 44 (EBin OXor u64 (EBin OShl u64 (EVar 13) (EInt 10)) (EBin OShr u64 (EVar 13) (EInt 54))) ;;
  SSet 19 (EBin OXor u64 (EVar 19) (EVar 59)) ;;
  SSet 45 (EBin OXor u64 (EBin OShl u64 (EVar 19) (EInt 15)) (EBin OShr u64 (EVar 19) (EInt 49))) ;;
  SSet 25 (EBin OXor u64 (EVar 25) (EVar 60)) ;;
  SSet 46 (EBin OXor u64 (EBin OShl u64 (EVar 25) (EInt 56)) (EBin OShr u64 (EVar 25) (EInt 8))) ;;
  SSet 77 (EBin OXor u64 (EVar 42) (EBin OAnd u64 (EUn ONot u64 (EVar 43)) (EVar 44))) ;;
  SSet 52 (EBin OXor u64 (EVar 52) (EVar 77)) ;;
  SSet 78 (EBin OXor u64 (EVar 43) (EBin OAnd u64 (EUn ONot u64 (EVar 44)) (EVar 45))) ;;
  SSet 53 (EBin OXor u64 (EVar 53) (EVar 78)) ;;
  SSet 79 (EBin OXor u64 (EVar 44) (EBin OAnd u64 (EUn ONot u64 (EVar 45)) (EVar 46))) ;;
  SSet 54 (EBin OXor u64 (EVar 54) (EVar 79)) ;;
  SSet 80 (EBin OXor u64 (EVar 45) (EBin OAnd u64 (EUn ONot u64 (EVar 46)) (EVar 42))) ;;
  SSet 55 (EBin OXor u64 (EVar 55) (EVar 80)) ;;
  SSet 81 (EBin OXor u64 (EVar 46) (EBin OAnd u64 (EUn ONot u64 (EVar 42)) (EVar 43))) ;;
  SSet 56 (EBin OXor u64 (EVar 56) (EVar 81)) ;;
  SSet 4 (EBin OXor u64 (EVar 4) (EVar 59)) ;;
  SSet 47 (EBin OXor u64 (EBin OShl u64 (EVar 4) (EInt 62)) (EBin OShr u64 (EVar 4) (EInt 2))) ;;
  SSet 10 (EBin OXor u64 (EVar 10) (EVar 60)) ;;
  SSet 48 (EBin OXor u64 (EBin OShl u64 (EVar 10) (EInt 55)) (EBin OShr u64 (EVar 10) (EInt 9))) ;;
  SSet 16 (EBin OXor u64 (EVar 16) (EVar 61)) ;;
  SSet 49 (EBin OXor u64 (EBin OShl u64 (EVar 16) (EInt 39)) (EBin OShr u64 (EVar 16) (EInt 25))) ;;
  SSet 17 (EBin OXor u64 (EVar 17) (EVar 57)) ;;
  SSet 50 (EBin OXor u64 (EBin OShl u64 (EVar 17) (EInt 41)) (EBin OShr u64 (EVar 17) (EInt 23))) ;;
  SSet 23 (EBin OXor u64 (EVar 23) (EVar 58)) ;;
  SSet 51 (EBin OXor u64 (EBin OShl u64 (EVar 23) (EInt 2)) (EBin OShr u64 (EVar 23) (EInt 62))) ;;
  SSet 82 (EBin OXor u64 (EVar 47) (EBin OAnd u64 (EUn ONot u64 (EVar 48)) (EVar 49))) ;;
  SSet 52 (EBin OXor u64 (EVar 52) (EVar 82)) ;;
  SSet 83 (EBin OXor u64 (EVar 48) (EBin OAnd u64 (EUn ONot u64 (EVar 49)) (EVar 50))) ;;
  SSet 53 (EBin OXor u64 (EVar 53) (EVar 83)) ;;
  SSet 84 (EBin OXor u64 (EVar 49) (EBin OAnd u64 (EUn ONot u64 (EVar 50)) (EVar 51))) ;;
  SSet 54 (EBin OXor u64 (EVar 54) (EVar 84)) ;;
  SSet 85 (EBin OXor u64 (EVar 50) (EBin OAnd u64 (EUn ONot u64 (EVar 51)) (EVar 47))) ;;
  SSet 55 (EBin OXor u64 (EVar 55) (EVar 85))) ;;
  (
  (
  SSet 86 (EBin OXor u64 (EVar 51) (EBin OAnd u64 (EUn ONot u64 (EVar 47)) (EVar 48))) ;;
  SSet 56 (EBin OXor u64 (EVar 56) (EVar 86)) ;;
  SSet 57 (EBin OXor u64 (EVar 56) (EBin OXor u64 (EBin OShl u64 (EVar 53) (EInt 1)) (EBin OShr u64 (EVar 53) (EInt 63)))) ;;
  SSet 58 (EBin OXor u64 (EVar 52) (EBin OXor u64 (EBin OShl u64 (EVar 54) (EInt 1)) (EBin OShr u64 (EVar 54) (EInt 63)))) ;;
  SSet 59 (EBin OXor u64 (EVar 53) (EBin OXor u64 (EBin OShl u64 (EVar 55) (EInt 1)) (EBin OShr u64 (EVar 55) (EInt 63)))) ;;
  SSet 60 (EBin OXor u64 (EVar 54) (EBin OXor u64 (EBin OShl u64 (EVar 56) (EInt 1)) (EBin OShr u64 (EVar 56) (EInt 63)))) ;;
  SSet 61 (EBin OXor u64 (EVar 55) (EBin OXor u64 (EBin OShl u64 (EVar 52) (EInt 1)) (EBin OShr u64 (EVar 52) (EInt 63)))) ;;
  SSet 62 (EBin OXor u64 (EVar 62) (EVar 57)) ;;
  SSet 27 (EVar 62) ;;
  SSet 68 (EBin OXor u64 (EVar 68) (EVar 58)) ;;
  SSet 28 (EBin OXor u64 (EBin OShl u64 (EVar 68) (EInt 44)) (EBin OShr u64 (EVar 68) (EInt 20))) ;;
  SSet 74 (EBin OXor u64 (EVar 74) (EVar 59)) ;;
  SSet 29 (EBin OXor u64 (EBin OShl u64 (EVar 74) (EInt 43)) (EBin OShr u64 (EVar 74) (EInt 21))) ;;
  SSet 80 (EBin OXor u64 (EVar 80) (EVar 60)) ;;
  SSet 30 (EBin OXor u64 (EBin OShl u64 (EVar 80) (EInt 21)) (EBin OShr u64 (EVar 80) (EInt 43))) ;;
  SSet 86 (EBin OXor u64 (EVar 86) (EVar 61)) ;;
  SSet 31 (EBin OXor u64 (EBin OShl u64 (EVar 86) (EInt 14)) (EBin OShr u64 (EVar 86) (EInt 50))) ;;
  SSet 2 (EBin OXor u64 (EVar 27) (EBin OAnd u64 (EUn ONot u64 (EVar 28)) (EVar 29))) ;;
  SSet 2 (EBin OXor u64 (EVar 2) (ELoad 8 (EAt (EGlob 1) 8 (EInt 13)))) ;;
  SSet 52 (EVar 2)) ;;
  (
  SSet 3 (EBin OXor u64 (EVar 28) (EBin OAnd u64 (EUn ONot u64 (EVar 29)) (EVar 30))) ;;
  SSet 53 (EVar 3) ;;
  SSet 4 (EBin OXor u64 (EVar 29) (EBin OAnd u64 (EUn ONot u64 (EVar 30)) (EVar 31))) ;;
  SSet 54 (EVar 4) ;;
  SSet 5 (EBin OXor u64 (EVar 30) (EBin OAnd u64 (EUn ONot u64 (EVar 31)) (EVar 27))) ;;
  SSet 55 (EVar 5) ;;
  SSet 6 (EBin OXor u64 (EVar 31) (EBin OAnd u64 (EUn ONot u64 (EVar 27)) (EVar 28))) ;;
  SSet 56 (EVar 6) ;;
  SSet 65 (EBin OXor u64 (EVar 65) (EVar 60)) ;;
  SSet 32 (EBin OXor u64 (EBin OShl u64 (EVar 65) (EInt 28)) (EBin OShr u64 (EVar 65) (EInt 36))) ;;
  SSet 71 (EBin OXor u64 (EVar 71) (EVar 61)) ;;
  SSet 33 (EBin OXor u64 (EBin OShl u64 (EVar 71) (EInt 20)) (EBin OShr u64 (EVar 71) (EInt 44))) ;;
  SSet 72 (EBin OXor u64 (EVar 72) (EVar 57)) ;;
  SSet 34 (EBin OXor u64 (EBin OShl u64 (EVar 72) (EInt 3)) (EBin OShr u64 (EVar 72) (EInt 61))) ;;
  SSet 78 (EBin OXor u64 (EVar 78) (EVar 58)) ;;
  SSet 35 (EBin OXor u64 (EBin OShl u64 (EVar 78) (EInt 45)) (EBin OShr u64 (EVar 78) (EInt 19))) ;;
  SSet 84 (EBin OXor u64 (EVar 84) (EVar 59)) ;;
  SSet 36 (EBin OXor u64 (EBin OShl u64 (EVar 84) (EInt 61)) (EBin OShr u64 (EVar 84) (EInt 3))) ;;
  SSet 7 (EBin OXor u64 (EVar 32) (EBin OAnd u64 (EUn ONot u64 (EVar 33)) (EVar 34))) ;;
  SSet 52 (EBin OXor u64 (EVar 52) (EVar 7)) ;;
  SSet 8 (EBin OXor u64 (EVar 33) (EBin OAnd u64 (EUn ONot u64 (EVar 34)) (EVar 35))))))) ;;
  (
  (
  (
  SSet 53 (EBin OXor u64 (EVar 53) (EVar 8)) ;;
  SSet 9 (EBin OXor u64 (EVar 34) (EBin OAnd u64 (EUn ONot u64 (EVar 35)) (EVar 36))) ;;
  SSet 54 (EBin OXor u64 (EVar 54) (EVar 9)) ;;
  SSet 10 (EBin OXor u64 (EVar 35) (EBin OAnd u64 (EUn ONot u64 (EVar 36)) (EVar 32))) ;;
  SSet 55 (EBin OXor u64 (EVar 55) (EVar 10)) ;;
  SSet 11 (EBin OXor u64 (EVar 36) (EBin OAnd u64 (EUn ONot u64 (EVar 32)) (EVar 33))) ;;
  SSet 56 (EBin OXor u64 (EVar 56) (EVar 11)) ;;
  SSet 63 (EBin OXor u64 (EVar 63) (EVar 58)) ;;
  SSet 37 (EBin OXor u64 (EBin OShl u64 (EVar 63) (EInt 1)) (EBin OShr u64 (EVar 63) (EInt 63))) ;;
  SSet 69 (EBin OXor u64 (EVar 69) (EVar 59)) ;;
  SSet 38 (EBin OXor u64 (EBin OShl u64 (EVar 69) (EInt 6)) (EBin OShr u64 (EVar 69) (EInt 58))) ;;
  SSet 75 (EBin OXor u64 (EVar 75) (EVar 60)) ;;
  SSet 39 (EBin OXor u64 (EBin OShl u64 (EVar 75) (EInt 25)) (EBin OShr u64 (EVar 75) (EInt 39))) ;;
  SSet 81 (EBin OXor u64 (EVar 81) (EVar 61)) ;;
  SSet 40 (EBin OXor u64 (EBin OShl u64 (EVar 81) (EInt 8)) (EBin OShr u64 (EVar 81) (EInt 56))) ;;
  SSet 82 (EBin OXor u64 (EVar 82) (EVar 57)) ;;
  SSet 41 (EBin OXor u64 (EBin OShl u64 (EVar 82) (EInt 18)) (EBin OShr u64 (EVar 82) (EInt 46))) ;;
  SSet 12 (EBin OXor u64 (EVar 37) (EBin OAnd u64 (EUn ONot u64 (EVar 38)) (EVar 39))) ;;
  SSet 52 (EBin OXor u64 (EVar 52) (EVar 12)) ;;
  SSet 13 (EBin OXor u64 (EVar 38) (EBin OAnd u64 (EUn ONot u64 (EVar 39)) (EVar 40))) ;;
  SSet 53 (EBin OXor u64 (EVar 53) (EVar 13)) ;;
  SSet 14 (EBin OXor u64 (EVar 39) (EBin OAnd u64 (EUn ONot u64 (EVar 40)) (EVar 41))) ;;
  SSet 54 (EBin OXor u64 (EVar 54) (EVar 14)) ;;
  SSet 15 (EBin OXor u64 (EVar 40) (EBin OAnd u64 (EUn ONot u64 (EVar 41)) (EVar 37))) ;;
  SSet 55 (EBin OXor u64 (EVar 55) (EVar 15)) ;;
  SSet 16 (EBin OXor u64 (EVar 41) (EBin OAnd u64 (EUn ONot u64 (EVar 37)) (EVar 38))) ;;
  SSet 56 (EBin OXor u64 (EVar 56) (EVar 16)) ;;
  SSet 66 (EBin OXor u64 (EVar 66) (EVar 61)) ;;
  SSet 42 (EBin OXor u64 (EBin OShl u64 (EVar 66) (EInt 27)) (EBin OShr u64 (EVar 66) (EInt 37))) ;;
  SSet 67 (EBin OXor u64 (EVar 67) (EVar 57)) ;;
  SSet 43 (EBin OXor u64 (EBin OShl u64 (EVar 67) (EInt 36)) (EBin OShr u64 (EVar 67) (EInt 28))) ;;
  SSet 73 (EBin OXor u64 (EVar 73) (EVar 58)) ;;
  SSet 44 (EBin OXor u64 (EBin OShl u64 (EVar 73) (EInt 10)) (EBin OShr u64 (EVar 73) (EInt 54))) ;;
  SSet 79 (EBin OXor u64 (EVar 79) (EVar 59)) ;;
  SSet 45 (EBin OXor u64 (EBin OShl u64 (EVar 79) (EInt 15)) (EBin OShr u64 (EVar 79) (EInt 49))) ;;
  SSet 85 (EBin OXor u64 (EVar 85) (EVar 60)) ;;
  SSet 46 (EBin OXor u64 (EBin OShl u64 (EVar 85) (EInt 56)) (EBin OShr u64 (EVar 85) (EInt 8))) ;;
  SSet 17 (EBin OXor u64 (EVar 42) (EBin OAnd u64 (EUn ONot u64 (EVar 43)) (EVar 44))) ;;
  SSet 52 (EBin OXor u64 (EVar 52) (EVar 17)) ;;
  SSet 18 (EBin OXor u64 (EVar 43) (EBin OAnd u64 (EUn ONot u64 (EVar 44)) (EVar 45)))) ;;
  (
  SSet 53 (EBin OXor u64 (EVar 53) (EVar 18)) ;;
  SSet 19 (EBin OXor u64 (EVar 44) (EBin OAnd u64 (EUn ONot u64 (EVar 45)) (EVar 46))) ;;
  SSet 54 (EBin OXor u64 (EVar 54) (EVar 19)) ;;
  SSet 20 (EBin OXor u64 (EVar 45) (EBin OAnd u64 (EUn ONot u64 (EVar 46)) (EVar 42))) ;;
  SSet 55 (EBin OXor u64 (EVar 55) (EVar 20)) ;;
  SSet 21 (EBin OXor u64 (EVar 46) (EBin OAnd u64 (EUn ONot u64 (EVar 42)) (EVar 43))) ;;
  SSet 56 (EBin OXor u64 (EVar 56) (EVar 21)) ;;
  SSet 64 (EBin OXor u64 (EVar 64) (EVar 59)) ;;
  SSet 47 (EBin OXor u64 (EBin OShl u64 (EVar 64) (EInt 62)) (EBin OShr u64 (EVar 64) (EInt 2))) ;;
  SSet 70 (EBin OXor u64 (EVar 70) (EVar 60)) ;;
  SSet 48 (EBin OXor u64 (EBin OShl u64 (EVar 70) (EInt 55)) (EBin OShr u64 (EVar 70) (EInt 9))) ;;
  SSet 76 (EBin OXor u64 (EVar 76) (EVar 61)) ;;
  SSet 49 (EBin OXor u64 (EBin OShl u64 (EVar 76) (EInt 39)) (EBin OShr u64 (EVar 76) (EInt 25))) ;;
  SSet 77 (EBin OXor u64 (EVar 77) (EVar 57)) ;;
  SSet 50 (EBin OXor u64 (EBin OShl u64 (EVar 77) (EInt 41)) (EBin OShr u64 (EVar 77) (EInt 23))) ;;
  SSet 83 (EBin OXor u64 (EVar 83) (EVar 58)) ;;
  SSet 51 (EBin OXor u64 (EBin OShl u64 (EVar 83) (EInt 2)) (EBin OShr u64 (EVar 83) (EInt 62))) ;;
  SSet 22 (EBin OXor u64 (EVar 47) (EBin OAnd u64 (EUn ONot u64 (EVar 48)) (EVar 49))) ;;
  SSet 52 (EBin OXor u64 (EVar 52) (EVar 22)) ;;
  SSet 23 (EBin OXor u64 (EVar 48) (EBin OAnd u64 (EUn ONot u64 (EVar 49)) (EVar 50))) ;;
  SSet 53 (EBin OXor u64 (EVar 53) (EVar 23)) ;;
  SSet 24 (EBin OXor u64 (EVar 49) (EBin OAnd u64 (EUn ONot u64 (EVar 50)) (EVar 51))) ;;
  SSet 54 (EBin OXor u64 (EVar 54) (EVar 24)) ;;
  SSet 25 (EBin OXor u64 (EVar 50) (EBin OAnd u64 (EUn ONot u64 (EVar 51)) (EVar 47))) ;;
  SSet 55 (EBin OXor u64 (EVar 55) (EVar 25)) ;;
  SSet 26 (EBin OXor u64 (EVar 51) (EBin OAnd u64 (EUn ONot u64 (EVar 47)) (EVar 48))) ;;
  SSet 56 (EBin OXor u64 (EVar 56) (EVar 26)) ;;
  SSet 57 (EBin OXor u64 (EVar 56) (EBin OXor u64 (EBin OShl u64 (EVar 53) (EInt 1)) (EBin OShr u64 (EVar 53) (EInt 63)))) ;;
  SSet 58 (EBin OXor u64 (EVar 52) (EBin OXor u64 (EBin OShl u64 (EVar 54) (EInt 1)) (EBin OShr u64 (EVar 54) (EInt 63)))) ;;
  SSet 59 (EBin OXor u64 (EVar 53) (EBin OXor u64 (EBin OShl u64 (EVar 55) (EInt 1)) (EBin OShr u64 (EVar 55) (EInt 63)))) ;;
  SSet 60 (EBin OXor u64 (EVar 54) (EBin OXor u64 (EBin OShl u64 (EVar 56) (EInt 1)) (EBin OShr u64 (EVar 56) (EInt 63)))) ;;
  SSet 61 (EBin OXor u64 (EVar 55) (EBin OXor u64 (EBin OShl u64 (EVar 52) (EInt 1)) (EBin OShr u64 (EVar 52) (EInt 63)))) ;;
  SSet 2 (EBin OXor u64 (EVar 2) (EVar 57)) ;;
  SSet 27 (EVar 2) ;;
  SSet 8 (EBin OXor u64 (EVar 8) (EVar 58)) ;;
  SSet 28 (EBin OXor u64 (EBin OShl u64 (EVar 8) (EInt 44)) (EBin OShr u64 (EVar 8) (EInt 20))) ;;
  SSet 14 (EBin OXor u64 (EVar 14) (EVar 59)) ;;
  SSet 29 (EBin OXor u64 (EBin OShl u64 (EVar 14) (EInt 43)) (EBin OShr u64 (EVar 14) (EInt 21))) ;;
  SSet 20 (EBin OXor u64 (EVar 20) (EVar 60)) ;;
  SSet 30 (EBin OXor u64 (EBin OShl u64 (EVar 20) (EInt 21)) (EBin OShr u64 (EVar 20) (EInt 43))))) ;;
  (
  (
  SSet 26 (EBin OXor u64 (EVar 26) (EVar 61)) ;;
  SSet 31 (EBin OXor u64 (EBin OShl u64 (EVar 26) (EInt 14)) (EBin OShr u64 (EVar 26) (EInt 50))) ;;
  SSet 62 (EBin OXor u64 (EVar 27) (EBin OAnd u64 (EUn ONot u64 (EVar 28)) (EVar 29))) ;;
  SSet 62 (EBin OXor u64 (EVar 62) (ELoad 8 (EAt (EGlob 1) 8 (EInt 14)))) ;;
  SSet 52 (EVar 62) ;;
  SSet 63 (EBin OXor u64 (EVar 28) (EBin OAnd u64 (EUn ONot u64 (EVar 29)) (EVar 30))) ;;
  SSet 53 (EVar 63) ;;
  SSet 64 (EBin OXor u64 (EVar 29) (EBin OAnd u64 (EUn ONot u64 (EVar 30)) (EVar 31))) ;;
  SSet 54 (EVar 64) ;;
  SSet 65 (EBin OXor u64 (EVar 30) (EBin OAnd u64 (EUn ONot u64 (EVar 31)) (EVar 27))) ;;
  SSet 55 (EVar 65) ;;
  SSet 66 (EBin OXor u64 (EVar 31) (EBin OAnd u64 (EUn ONot u64 (EVar 27)) (EVar 28))) ;;
  SSet 56 (EVar 66) ;;
  SSet 5 (EBin OXor u64 (EVar 5) (EVar 60)) ;;
  SSet 32 (EBin OXor u64 (EBin OShl u64 (EVar 5) (EInt 28)) (EBin OShr u64 (EVar 5) (EInt 36))) ;;
  SSet 11 (EBin OXor u64 (EVar 11) (EVar 61)) ;;
  SSet 33 (EBin OXor u64 (EBin OShl u64 (EVar 11) (EInt 20)) (EBin OShr u64 (EVar 11) (EInt 44))) ;;
  SSet 12 (EBin OXor u64 (EVar 12) (EVar 57)) ;;
  SSet 34 (EBin OXor u64 (EBin OShl u64 (EVar 12) (EInt 3)) (EBin OShr u64 (EVar 12) (EInt 61))) ;;
  SSet 18 (EBin OXor u64 (EVar 18) (EVar 58)) ;;
  SSet 35 (EBin OXor u64 (EBin OShl u64 (EVar 18) (EInt 45)) (EBin OShr u64 (EVar 18) (EInt 19))) ;;
  SSet 24 (EBin OXor u64 (EVar 24) (EVar 59)) ;;
  SSet 36 (EBin OXor u64 (EBin OShl u64 (EVar 24) (EInt 61)) (EBin OShr u64 (EVar 24) (EInt 3))) ;;
  SSet 67 (EBin OXor u64 (EVar 32) (EBin OAnd u64 (EUn ONot u64 (EVar 33)) (EVar 34))) ;;
  SSet 52 (EBin OXor u64 (EVar 52) (EVar 67)) ;;
  SSet 68 (EBin OXor u64 (EVar 33) (EBin OAnd u64 (EUn ONot u64 (EVar 34)) (EVar 35))) ;;
  SSet 53 (EBin OXor u64 (EVar 53) (EVar 68)) ;;
  SSet 69 (EBin OXor u64 (EVar 34) (EBin OAnd u64 (EUn ONot u64 (EVar 35)) (EVar 36))) ;;
  SSet 54 (EBin OXor u64 (EVar 54) (EVar 69)) ;;
  SSet 70 (EBin OXor u64 (EVar 35) (EBin OAnd u64 (EUn ONot u64 (EVar 36)) (EVar 32))) ;;
  SSet 55 (EBin OXor u64 (EVar 55) (EVar 70)) ;;
  SSet 71 (EBin OXor u64 (EVar 36) (EBin OAnd u64 (EUn ONot u64 (EVar 32)) (EVar 33))) ;;
  SSet 56 (EBin OXor u64 (EVar 56) (EVar 71)) ;;
  SSet 3 (EBin OXor u64 (EVar 3) (EVar 58)) ;;
  SSet 37 (EBin OXor u64 (EBin OShl u64 (EVar 3) (EInt 1)) (EBin OShr u64 (EVar 3) (EInt 63))) ;;
  SSet 9 (EBin OXor u64 (EVar 9) (EVar 59)) ;;
  SSet 38 (EBin OXor u64 (EBin OShl u64 (EVar 9) (EInt 6)) (EBin OShr u64 (EVar 9) (EInt 58))) ;;
  SSet 15 (EBin OXor u64 (EVar 15) (EVar 60)) ;;
  SSet 39 (EBin OXor u64 (EBin OShl u64 (EVar 15) (EInt 25)) (EBin OShr u64 (EVar 15) (EInt 39))) ;;
  SSet 21 (EBin OXor u64 (EVar 21) (EVar 61))) ;;
  (
  (
  SSet 40 (EBin OXor u64 (EBin OShl u64 (EVar 21) (EInt 8)) (EBin OShr u64 (EVar 21) (EInt 56))) ;;
  SSet 22 (EBin OXor u64 (EVar 22) (EVar 57)) ;;
  SSet 41 (EBin OXor u64 (EBin OShl u64 (EVar 22) (EInt 18)) (EBin OShr u64 (EVar 22) (EInt 46))) ;;
  SSet 72 (EBin OXor u64 (EVar 37) (EBin OAnd u64 (EUn ONot u64 (EVar 38)) (EVar 39))) ;;
  SSet 52 (EBin OXor u64 (EVar 52) (EVar 72)) ;;
  SSet 73 (EBin OXor u64 (EVar 38) (EBin OAnd u64 (EUn ONot u64 (EVar 39)) (EVar 40))) ;;
  SSet 53 (EBin OXor u64 (EVar 53) (EVar 73)) ;;
  SSet 74 (EBin OXor u64 (EVar 39) (EBin OAnd u64 (EUn ONot u64 (EVar 40)) (EVar 41))) ;;
  SSet 54 (EBin OXor u64 (EVar 54) (EVar 74)) ;;
  SSet 75 (EBin OXor u64 (EVar 40) (EBin OAnd u64 (EUn ONot u64 (EVar 41)) (EVar 37))) ;;
  SSet 55 (EBin OXor u64 (EVar 55) (EVar 75)) ;;
  SSet 76 (EBin OXor u64 (EVar 41) (EBin OAnd u64 (EUn ONot u64 (EVar 37)) (EVar 38))) ;;
  SSet 56 (EBin OXor u64 (EVar 56) (EVar 76)) ;;
  SSet 6 (EBin OXor u64 (EVar 6) (EVar 61)) ;;
  SSet 42 (EBin OXor u64 (EBin OShl u64 (EVar 6) (EInt 27)) (EBin OShr u64 (EVar 6) (EInt 37))) ;;
  SSet 7 (EBin OXor u64 (EVar 7) (EVar 57)) ;;
  SSet 43 (EBin OXor u64 (EBin OShl u64 (EVar 7) (EInt 36)) (EBin OShr u64 (EVar 7) (EInt 28))) ;;
  SSet 13 (EBin OXor u64 (EVar 13) (EVar 58)) ;;
  SSet 44 (EBin OXor u64 (EBin OShl u64 (EVar 13) (EInt 10)) (EBin OShr u64 (EVar 13) (EInt 54))) ;;
  SSet 19 (EBin OXor u64 (EVar 19) (EVar 59))) ;;
  (
  SSet 45 (EBin OXor u64 (EBin OShl u64 (EVar 19) (EInt 15)) (EBin OShr u64 (EVar 19) (EInt 49))) ;;
  SSet 25 (EBin OXor u64 (EVar 25) (EVar 60)) ;;
  SSet 46 (EBin OXor u64 (EBin OShl u64 (EVar 25) (EInt 56)) (EBin OShr u64 (EVar 25) (EInt 8))) ;;
  SSet 77 (EBin OXor u64 (EVar 42) (EBin OAnd u64 (EUn ONot u64 (EVar 43)) (EVar 44))) ;;
  SSet 52 (EBin OXor u64 (EVar 52) (EVar 77)) ;;
  SSet 78 (EBin OXor u64 (EVar 43) (EBin OAnd u64 (EUn ONot u64 (EVar 44)) (EVar 45))) ;;
  SSet 53 (EBin OXor u64 (EVar 53) (EVar 78)) ;;
  SSet 79 (EBin OXor u64 (EVar 44) (EBin OAnd u64 (EUn ONot u64 (EVar 45)) (EVar 46))) ;;
  SSet 54 (EBin OXor u64 (EVar 54) (EVar 79)) ;;
  SSet 80 (EBin OXor u64 (EVar 45) (EBin OAnd u64 (EUn ONot u64 (EVar 46)) (EVar 42))) ;;
  SSet 55 (EBin OXor u64 (EVar 55) (EVar 80)) ;;
  SSet 81 (EBin OXor u64 (EVar 46) (EBin OAnd u64 (EUn ONot u64 (EVar 42)) (EVar 43))) ;;
  SSet 56 (EBin OXor u64 (EVar 56) (EVar 81)) ;;
  SSet 4 (EBin OXor u64 (EVar 4) (EVar 59)) ;;
  SSet 47 (EBin OXor u64 (EBin OShl u64 (EVar 4) (EInt 62)) (EBin OShr u64 (EVar 4) (EInt 2))) ;;
  SSet 10 (EBin OXor u64 (EVar 10) (EVar 60)) ;;
  SSet 48 (EBin OXor u64 (EBin OShl u64 (EVar 10) (EInt 55)) (EBin OShr u64 (EVar 10) (EInt 9))) ;;
  SSet 16 (EBin OXor u64 (EVar 16) (EVar 61)) ;;
  SSet 49 (EBin OXor u64 (EBin OShl u64 (EVar 16) (EInt 39)) (EBin OShr u64 (EVar 16) (EInt 25))) ;;
  SSet 17 (EBin OXor u64 (EVar 17) (EVar 57)) ;;
  SSet 50 (EBin OXor u64 (EBin OShl u64 (EVar 17) (EInt 41)) (EBin OShr u64 (EVar 17) (EInt 23)))))))) ;;
  (
  (
  (
  (
  SSet 23 (EBin OXor u64 (EVar 23) (EVar 58)) ;;
  SSet 51 (EBin OXor u64 (EBin OShl u64 (EVar 23) (EInt 2)) (EBin OShr u64 (EVar 23) (EInt 62))) ;;
  SSet 82 (EBin OXor u64 (EVar 47) (EBin OAnd u64 (EUn ONot u64 (EVar 48)) (EVar 49))) ;;
  SSet 52 (EBin OXor u64 (EVar 52) (EVar 82)) ;;
  SSet 83 (EBin OXor u64 (EVar 48) (EBin OAnd u64 (EUn ONot u64 (EVar 49)) (EVar 50))) ;;
  SSet 53 (EBin OXor u64 (EVar 53) (EVar 83)) ;;
  SSet 84 (EBin OXor u64 (EVar 49) (EBin OAnd u64 (EUn ONot u64 (EVar 50)) (EVar 51))) ;;
  SSet 54 (EBin OXor u64 (EVar 54) (EVar 84)) ;;
  SSet 85 (EBin OXor u64 (EVar 50) (EBin OAnd u64 (EUn ONot u64 (EVar 51)) (EVar 47))) ;;
  SSet 55 (EBin OXor u64 (EVar 55) (EVar 85)) ;;
  SSet 86 (EBin OXor u64 (EVar 51) (EBin OAnd u64 (EUn ONot u64 (EVar 47)) (EVar 48))) ;;
  SSet 56 (EBin OXor u64 (EVar 56) (EVar 86)) ;;
  SSet 57 (EBin OXor u64 (EVar 56) (EBin OXor u64 (EBin OShl u64 (EVar 53) (EInt 1)) (EBin OShr u64 (EVar 53) (EInt 63)))) ;;
  SSet 58 (EBin OXor u64 (EVar 52) (EBin OXor u64 (EBin OShl u64 (EVar 54) (EInt 1)) (EBin OShr u64 (EVar 54) (EInt 63)))) ;;
  SSet 59 (EBin OXor u64 (EVar 53) (EBin OXor u64 (EBin OShl u64 (EVar 55) (EInt 1)) (EBin OShr u64 (EVar 55) (EInt 63)))) ;;
  SSet 60 (EBin OXor u64 (EVar 54) (EBin OXor u64 (EBin OShl u64 (EVar 56) (EInt 1)) (EBin OShr u64 (EVar 56) (EInt 63)))) ;;
  SSet 61 (EBin OXor u64 (EVar 55) (EBin OXor u64 (EBin OShl u64 (EVar 52) (EInt 1)) (EBin OShr u64 (EVar 52) (EInt 63)))) ;;
  SSet 62 (EBin OXor u64 (EVar 62) (EVar 57)) ;;
  SSet 27 (EVar 62) ;;
  SSet 68 (EBin OXor u64 (EVar 68) (EVar 58)) ;;
  SSet 28 (EBin OXor u64 (EBin OShl u64 (EVar 68) (EInt 44)) (EBin OShr u64 (EVar 68) (EInt 20))) ;;
  SSet 74 (EBin OXor u64 (EVar 74) (EVar 59)) ;;
  SSet 29 (EBin OXor u64 (EBin OShl u64 (EVar 74) (EInt 43)) (EBin OShr u64 (EVar 74) (EInt 21))) ;;
  SSet 80 (EBin OXor u64 (EVar 80) (EVar 60)) ;;
  SSet 30 (EBin OXor u64 (EBin OShl u64 (EVar 80) (EInt 21)) (EBin OShr u64 (EVar 80) (EInt 43))) ;;
  SSet 86 (EBin OXor u64 (EVar 86) (EVar 61)) ;;
  SSet 31 (EBin OXor u64 (EBin OShl u64 (EVar 86) (EInt 14)) (EBin OShr u64 (EVar 86) (EInt 50))) ;;
  SSet 2 (EBin OXor u64 (EVar 27) (EBin OAnd u64 (EUn ONot u64 (EVar 28)) (EVar 29))) ;;
  SSet 2 (EBin OXor u64 (EVar 2) (ELoad 8 (EAt (EGlob 1) 8 (EInt 15)))) ;;
  SSet 52 (EVar 2) ;;
  SSet 3 (EBin OXor u64 (EVar 28) (EBin OAnd u64 (EUn ONot u64 (EVar 29)) (EVar 30))) ;;
  SSet 53 (EVar 3) ;;
  SSet 4 (EBin OXor u64 (EVar 29) (EBin OAnd u64 (EUn ONot u64 (EVar 30)) (EVar 31))) ;;
  SSet 54 (EVar 4) ;;
  SSet 5 (EBin OXor u64 (EVar 30) (EBin OAnd u64 (EUn ONot u64 (EVar 31)) (EVar 27))) ;;
  SSet 55 (EVar 5) ;;
  SSet 6 (EBin OXor u64 (EVar 31) (EBin OAnd u64 (EUn ONot u64 (EVar 27)) (EVar 28))) ;;
  SSet 56 (EVar 6) ;;
  SSet 65 (EBin OXor u64 (EVar 65) (EVar 60)) ;;
  SSet 32 (EBin OXor u64 (EBin OShl u64 (EVar 65) (EInt 28)) (EBin OShr u64 (EVar 65) (EInt 36)))) ;;
  (
  SSet 71 (EBin OXor u64 (EVar 71) (EVar 61)) ;;
  SSet 33 (EBin OXor u64 (EBin OShl u64 (EVar 71) (EInt 20)) (EBin OShr u64 (EVar 71) (EInt 44))) ;;
  SSet 72 (EBin OXor u64 (EVar 72) (EVar 57)) ;;
  SSet 34 (EBin OXor u64 (EBin OShl u64 (EVar 72) (EInt 3)) (EBin OShr u64 (EVar 72) (EInt 61))) ;;
  SSet 78 (EBin OXor u64 (EVar 78) (EVar 58)) ;;
  SSet 35 (EBin OXor u64 (EBin OShl u64 (EVar 78) (EInt 45)) (EBin OShr u64 (EVar 78) (EInt 19))) ;;
  SSet 84 (EBin OXor u64 (EVar 84) (EVar 59)) ;;
  SSet 36 (EBin OXor u64 (EBin OShl u64 (EVar 84) (EInt 61)) (EBin OShr u64 (EVar 84) (EInt 3))) ;;
  SSet 7 (EBin OXor u64 (EVar 32) (EBin OAnd u64 (EUn ONot u64 (EVar 33)) (EVar 34))) ;;
  SSet 52 (EBin OXor u64 (EVar 52) (EVar 7)) ;;
  SSet 8 (EBin OXor u64 (EVar 33) (EBin OAnd u64 (EUn ONot u64 (EVar 34)) (EVar 35))) ;;
  SSet 53 (EBin OXor u64 (EVar 53) (EVar 8)) ;;
  SSet 9 (EBin OXor u64 (EVar 34) (EBin OAnd u64 (EUn ONot u64 (EVar 35)) (EVar 36))) ;;
  SSet 54 (EBin OXor u64 (EVar 54) (EVar 9)) ;;
  SSet 10 (EBin OXor u64 (EVar 35) (EBin OAnd u64 (EUn ONot u64 (EVar 36)) (EVar 32))) ;;
  SSet 55 (EBin OXor u64 (EVar 55) (EVar 10)) ;;
  SSet 11 (EBin OXor u64 (EVar 36) (EBin OAnd u64 (EUn ONot u64 (EVar 32)) (EVar 33))) ;;
  SSet 56 (EBin OXor u64 (EVar 56) (EVar 11)) ;;
  SSet 63 (EBin OXor u64 (EVar 63) (EVar 58)) ;;
  SSet 37 (EBin OXor u64 (EBin OShl u64 (EVar 63) (EInt 1)) (EBin OShr u64 (EVar 63) (EInt 63))) ;;
  SSet 69 (EBin OXor u64 (EVar 69) (EVar 59)) ;;
  SSet 38 (EBin OXor u64 (EBin OShl u64 (EVar 69) (EInt 6)) (EBin OShr u64 (EVar 69) (EInt 58))) ;;
  SSet 75 (EBin OXor u64 (EVar 75) (EVar 60)) ;;
  SSet 39 (EBin OXor u64 (EBin OShl u64 (EVar 75) (EInt 25)) (EBin OShr u64 (EVar 75) (EInt 39))) ;;
  SSet 81 (EBin OXor u64 (EVar 81) (EVar 61)) ;;
  SSet 40 (EBin OXor u64 (EBin OShl u64 (EVar 81) (EInt 8)) (EBin OShr u64 (EVar 81) (EInt 56))) ;;
  SSet 82 (EBin OXor u64 (EVar 82) (EVar 57)) ;;
  SSet 41 (EBin OXor u64 (EBin OShl u64 (EVar 82) (EInt 18)) (EBin OShr u64 (EVar 82) (EInt 46))) ;;
  SSet 12 (EBin OXor u64 (EVar 37) (EBin OAnd u64 (EUn ONot u64 (EVar 38)) (EVar 39))) ;;
  SSet 52 (EBin OXor u64 (EVar 52) (EVar 12)) ;;
  SSet 13 (EBin OXor u64 (EVar 38) (EBin OAnd u64 (EUn ONot u64 (EVar 39)) (EVar 40))) ;;
  SSet 53 (EBin OXor u64 (EVar 53) (EVar 13)) ;;
  SSet 14 (EBin OXor u64 (EVar 39) (EBin OAnd u64 (EUn ONot u64 (EVar 40)) (EVar 41))) ;;
  SSet 54 (EBin OXor u64 (EVar 54) (EVar 14)) ;;
  SSet 15 (EBin OXor u64 (EVar 40) (EBin OAnd u64 (EUn ONot u64 (EVar 41)) (EVar 37))) ;;
  SSet 55 (EBin OXor u64 (EVar 55) (EVar 15)) ;;
  SSet 16 (EBin OXor u64 (EVar 41) (EBin OAnd u64 (EUn ONot u64 (EVar 37)) (EVar 38))) ;;
  SSet 56 (EBin OXor u64 (EVar 56) (EVar 16)) ;;
  SSet 66 (EBin OXor u64 (EVar 66) (EVar 61)) ;;
  SSet 42 (EBin OXor u64 (EBin OShl u64 (EVar 66) (EInt 27)) (EBin OShr u64 (EVar 66) (EInt 37))))) ;;
  (
  (
  SSet 67 (EBin OXor u64 (EVar 67) (EVar 57)) ;;
  SSet 43 (EBin OXor u64 (EBin OShl u64 (EVar 67) (EInt 36)) (EBin OShr u64 (EVar 67) (EInt 28))) ;;
  SSet 73 (EBin OXor u64 (EVar 73) (EVar 58)) ;;
  SSet 44 (EBin OXor u64 (EBin OShl u64 (EVar 73) (EInt 10)) (EBin OShr u64 (EVar 73) (EInt 54))) ;;
  SSet 79 (EBin OXor u64 (EVar 79) (EVar 59)) ;;
  SSet 45 (EBin OXor u64 (EBin OShl u64 (EVar 79) (EInt 15)) (EBin OShr u64 (EVar 79) (EInt 49))) ;;
  SSet 85 (EBin OXor u64 (EVar 85) (EVar 60)) ;;
  SSet 46 (EBin OXor u64 (EBin OShl u64 (EVar 85) (EInt 56)) (EBin OShr u64 (EVar 85) (EInt 8))) ;;
  SSet 17 (EBin OXor u64 (EVar 42) (EBin OAnd u64 (EUn ONot u64 (EVar 43)) (EVar 44))) ;;
  SSet 52 (EBin OXor u64 (EVar 52) (EVar 17)) ;;
  SSet 18 (EBin OXor u64 (EVar 43) (EBin OAnd u64 (EUn ONot u64 (EVar 44)) (EVar 45))) ;;
  SSet 53 (EBin OXor u64 (EVar 53) (EVar 18)) ;;
  SSet 19 (EBin OXor u64 (EVar 44) (EBin OAnd u64 (EUn ONot u64 (EVar 45)) (EVar 46))) ;;
  SSet 54 (EBin OXor u64 (EVar 54) (EVar 19)) ;;
  SSet 20 (EBin OXor u64 (EVar 45) (EBin OAnd u64 (EUn ONot u64 (EVar 46)) (EVar 42))) ;;
  SSet 55 (EBin OXor u64 (EVar 55) (EVar 20)) ;;
  SSet 21 (EBin OXor u64 (EVar 46) (EBin OAnd u64 (EUn ONot u64 (EVar 42)) (EVar 43))) ;;
  SSet 56 (EBin OXor u64 (EVar 56) (EVar 21)) ;;
  SSet 64 (EBin OXor u64 (EVar 64) (EVar 59)) ;;
  SSet 47 (EBin OXor u64 (EBin OShl u64 (EVar 64) (EInt 62)) (EBin OShr u64 (EVar 64) (EInt 2))) ;;
  SSet 70 (EBin OXor u64 (EVar 70) (EVar 60)) ;;
  SSet 48 (EBin OXor u64 (EBin OShl u64 (EVar 70) (EInt 55)) (EBin OShr u64 (EVar 70) (EInt 9))) ;;
  SSet 76 (EBin OXor u64 (EVar 76) (EVar 61)) ;;
  SSet 49 (EBin OXor u64 (EBin OShl u64 (EVar 76) (EInt 39)) (EBin OShr u64 (EVar 76) (EInt 25))) ;;
  SSet 77 (EBin OXor u64 (EVar 77) (EVar 57)) ;;
  SSet 50 (EBin OXor u64 (EBin OShl u64 (EVar 77) (EInt 41)) (EBin OShr u64 (EVar 77) (EInt 23))) ;;
  SSet 83 (EBin OXor u64 (EVar 83) (EVar 58)) ;;
  SSet 51 (EBin OXor u64 (EBin OShl u64 (EVar 83) (EInt 2)) (EBin OShr u64 (EVar 83) (EInt 62))) ;;
  SSet 22 (EBin OXor u64 (EVar 47) (EBin OAnd u64 (EUn ONot u64 (EVar 48)) (EVar 49))) ;;
  SSet 52 (EBin OXor u64 (EVar 52) (EVar 22)) ;;
  SSet 23 (EBin OXor u64 (EVar 48) (EBin OAnd u64 (EUn ONot u64 (EVar 49)) (EVar 50))) ;;
  SSet 53 (EBin OXor u64 (EVar 53) (EVar 23)) ;;
  SSet 24 (EBin OXor u64 (EVar 49) (EBin OAnd u64 (EUn ONot u64 (EVar 50)) (EVar 51))) ;;
  SSet 54 (EBin OXor u64 (EVar 54) (EVar 24)) ;;
  SSet 25 (EBin OXor u64 (EVar 50) (EBin OAnd u64 (EUn ONot u64 (EVar 51)) (EVar 47))) ;;
  SSet 55 (EBin OXor u64 (EVar 55) (EVar 25)) ;;
  SSet 26 (EBin OXor u64 (EVar 51) (EBin OAnd u64 (EUn ONot u64 (EVar 47)) (EVar 48))) ;;
  SSet 56 (EBin OXor u64 (EVar 56) (EVar 26)) ;;
  SSet 57 (EBin OXor u64 (EVar 56) (EBin OXor u64 (EBin OShl u64 (EVar 53) (EInt 1)) (EBin OShr u64 (EVar 53) (EInt 63)))) ;;
  SSet 58 (EBin OXor u64 (EVar 52) (EBin OXor u64 (EBin OShl u64 (EVar 54) (EInt 1)) (EBin OShr u64 (EVar 54) (EInt 63))))) ;;
  (
  (
  SSet 59 (EBin OXor u64 (EVar 53) (EBin OXor u64 (EBin OShl u64 (EVar 55) (EInt 1)) (EBin OShr u64 (EVar 55) (EInt 63)))) ;;
  SSet 60 (EBin OXor u64 (EVar 54) (EBin OXor u64 (EBin OShl u64 (EVar 56) (EInt 1)) (EBin OShr u64 (EVar 56) (EInt 63)))) ;;
  SSet 61 (EBin OXor u64 (EVar 55) (EBin OXor u64 (EBin OShl u64 (EVar 52) (EInt 1)) (EBin OShr u64 (EVar 52) (EInt 63)))) ;;
  SSet 2 (EBin OXor u64 (EVar 2) (EVar 57)) ;;
  SSet 27 (EVar 2) ;;
  SSet 8 (EBin OXor u64 (EVar 8) (EVar 58)) ;;
  SSet 28 (EBin OXor u64 (EBin OShl u64 (EVar 8) (EInt 44)) (EBin OShr u64 (EVar 8) (EInt 20))) ;;
  SSet 14 (EBin OXor u64 (EVar 14) (EVar 59)) ;;
  SSet 29 (EBin OXor u64 (EBin OShl u64 (EVar 14) (EInt 43)) (EBin OShr u64 (EVar 14) (EInt 21))) ;;
  SSet 20 (EBin OXor u64 (EVar 20) (EVar 60)) ;;
  SSet 30 (EBin OXor u64 (EBin OShl u64 (EVar 20) (EInt 21)) (EBin OShr u64 (EVar 20) (EInt 43))) ;;
  SSet 26 (EBin OXor u64 (EVar 26) (EVar 61)) ;;
  SSet 31 (EBin OXor u64 (EBin OShl u64 (EVar 26) (EInt 14)) (EBin OShr u64 (EVar 26) (EInt 50))) ;;
  SSet 62 (EBin OXor u64 (EVar 27) (EBin OAnd u64 (EUn ONot u64 (EVar 28)) (EVar 29))) ;;
  SSet 62 (EBin OXor u64 (EVar 62) (ELoad 8 (EAt (EGlob 1) 8 (EInt 16)))) ;;
  SSet 52 (EVar 62) ;;
  SSet 63 (EBin OXor u64 (EVar 28) (EBin OAnd u64 (EUn ONot u64 (EVar 29)) (EVar 30))) ;;
  SSet 53 (EVar 63) ;;
  SSet 64 (EBin OXor u64 (EVar 29) (EBin OAnd u64 (EUn ONot u64 (EVar 30)) (EVar 31))) ;;
  SSet 54 (EVar 64)) ;;
  (
  SSet 65 (EBin OXor u64 (EVar 30) (EBin OAnd u64 (EUn ONot u64 (EVar 31)) (EVar 27))) ;;
  SSet 55 (EVar 65) ;;
  SSet 66 (EBin OXor u64 (EVar 31) (EBin OAnd u64 (EUn ONot u64 (EVar 27)) (EVar 28))) ;;
  SSet 56 (EVar 66) ;;
  SSet 5 (EBin OXor u64 (EVar 5) (EVar 60)) ;;
  SSet 32 (EBin OXor u64 (EBin OShl u64 (EVar 5) (EInt 28)) (EBin OShr u64 (EVar 5) (EInt 36))) ;;
  SSet 11 (EBin OXor u64 (EVar 11) (EVar 61)) ;;
  SSet 33 (EBin OXor u64 (EBin OShl u64 (EVar 11) (EInt 20)) (EBin OShr u64 (EVar 11) (EInt 44))) ;;
  SSet 12 (EBin OXor u64 (EVar 12) (EVar 57)) ;;
  SSet 34 (EBin OXor u64 (EBin OShl u64 (EVar 12) (EInt 3)) (EBin OShr u64 (EVar 12) (EInt 61))) ;;
  SSet 18 (EBin OXor u64 (EVar 18) (EVar 58)) ;;
  SSet 35 (EBin OXor u64 (EBin OShl u64 (EVar 18) (EInt 45)) (EBin OShr u64 (EVar 18) (EInt 19))) ;;
  SSet 24 (EBin OXor u64 (EVar 24) (EVar 59)) ;;
  SSet 36 (EBin OXor u64 (EBin OShl u64 (EVar 24) (EInt 61)) (EBin OShr u64 (EVar 24) (EInt 3))) ;;
  SSet 67 (EBin OXor u64 (EVar 32) (EBin OAnd u64 (EUn ONot u64 (EVar 33)) (EVar 34))) ;;
  SSet 52 (EBin OXor u64 (EVar 52) (EVar 67)) ;;
  SSet 68 (EBin OXor u64 (EVar 33) (EBin OAnd u64 (EUn ONot u64 (EVar 34)) (EVar 35))) ;;
  SSet 53 (EBin OXor u64 (EVar 53) (EVar 68)) ;;
  SSet 69 (EBin OXor u64 (EVar 34) (EBin OAnd u64 (EUn ONot u64 (EVar 35)) (EVar 36))) ;;
  SSet 54 (EBin OXor u64 (EVar 54) (EVar 69)) ;;
  SSet 70 (EBin OXor u64 (EVar 35) (EBin OAnd u64 (EUn ONot u64 (EVar 36)) (EVar 32))))))) ;;
  (
  (
  (
  SSet 55 (EBin OXor u64 (EVar 55) (EVar 70)) ;;
  SSet 71 (EBin OXor u64 (EVar 36) (EBin OAnd u64 (EUn ONot u64 (EVar 32)) (EVar 33))) ;;
  SSet 56 (EBin OXor u64 (EVar 56) (EVar 71)) ;;
  SSet 3 (EBin OXor u64 (EVar 3) (EVar 58)) ;;
  SSet 37 (EBin OXor u64 (EBin OShl u64 (EVar 3) (EInt 1)) (EBin OShr u64 (EVar 3) (EInt 63))) ;;
  SSet 9 (EBin OXor u64 (EVar 9) (EVar 59)) ;;
  SSet 38 (EBin OXor u64 (EBin OShl u64 (EVar 9) (EInt 6)) (EBin OShr u64 (EVar 9) (EInt 58))) ;;
  SSet 15 (EBin OXor u64 (EVar 15) (EVar 60)) ;;
  SSet 39 (EBin OXor u64 (EBin OShl u64 (EVar 15) (EInt 25)) (EBin OShr u64 (EVar 15) (EInt 39))) ;;
  SSet 21 (EBin OXor u64 (EVar 21) (EVar 61)) ;;
  SSet 40 (EBin OXor u64 (EBin OShl u64 (EVar 21) (EInt 8)) (EBin OShr u64 (EVar 21) (EInt 56))) ;;
  SSet 22 (EBin OXor u64 (EVar 22) (EVar 57)) ;;
  SSet 41 (EBin OXor u64 (EBin OShl u64 (EVar 22) (EInt 18)) (EBin OShr u64 (EVar 22) (EInt 46))) ;;
  SSet 72 (EBin OXor u64 (EVar 37) (EBin OAnd u64 (EUn ONot u64 (EVar 38)) (EVar 39))) ;;
  SSet 52 (EBin OXor u64 (EVar 52) (EVar 72)) ;;
  SSet 73 (EBin OXor u64 (EVar 38) (EBin OAnd u64 (EUn ONot u64 (EVar 39)) (EVar 40))) ;;
  SSet 53 (EBin OXor u64 (EVar 53) (EVar 73)) ;;
  SSet 74 (EBin OXor u64 (EVar 39) (EBin OAnd u64 (EUn ONot u64 (EVar 40)) (EVar 41))) ;;
  SSet 54 (EBin OXor u64 (EVar 54) (EVar 74)) ;;
  SSet 75 (EBin OXor u64 (EVar 40) (EBin OAnd u64 (EUn ONot u64 (EVar 41)) (EVar 37))) ;;
  SSet 55 (EBin OXor u64 (EVar 55) (EVar 75)) ;;
  SSet 76 (EBin OXor u64 (EVar 41) (EBin OAnd u64 (EUn ONot u64 (EVar 37)) (EVar 38))) ;;
  SSet 56 (EBin OXor u64 (EVar 56) (EVar 76)) ;;
  SSet 6 (EBin OXor u64 (EVar 6) (EVar 61)) ;;
  SSet 42 (EBin OXor u64 (EBin OShl u64 (EVar 6) (EInt 27)) (EBin OShr u64 (EVar 6) (EInt 37))) ;;
  SSet 7 (EBin OXor u64 (EVar 7) (EVar 57)) ;;
  SSet 43 (EBin OXor u64 (EBin OShl u64 (EVar 7) (EInt 36)) (EBin OShr u64 (EVar 7) (EInt 28))) ;;
  SSet 13 (EBin OXor u64 (EVar 13) (EVar 58)) ;;
  SSet 44 (EBin OXor u64 (EBin OShl u64 (EVar 13) (EInt 10)) (EBin OShr u64 (EVar 13) (EInt 54))) ;;
  SSet 19 (EBin OXor u64 (EVar 19) (EVar 59)) ;;
  SSet 45 (EBin OXor u64 (EBin OShl u64 (EVar 19) (EInt 15)) (EBin OShr u64 (EVar 19) (EInt 49))) ;;
  SSet 25 (EBin OXor u64 (EVar 25) (EVar 60)) ;;
  SSet 46 (EBin OXor u64 (EBin OShl u64 (EVar 25) (EInt 56)) (EBin OShr u64 (EVar 25) (EInt 8))) ;;
  SSet 77 (EBin OXor u64 (EVar 42) (EBin OAnd u64 (EUn ONot u64 (EVar 43)) (EVar 44))) ;;
  SSet 52 (EBin OXor u64 (EVar 52) (EVar 77)) ;;
  SSet 78 (EBin OXor u64 (EVar 43) (EBin OAnd u64 (EUn ONot u64 (EVar 44)) (EVar 45))) ;;
  SSet 53 (EBin OXor u64 (EVar 53) (EVar 78)) ;;
  SSet 79 (EBin OXor u64 (EVar 44) (EBin OAnd u64 (EUn ONot u64 (EVar 45)) (EVar 46))) ;;
  SSet 54 (EBin OXor u64 (EVar 54) (EVar 79)) ;;
  SSet 80 (EBin OXor u64 (EVar 45) (EBin OAnd u64 (EUn ONot u64 (EVar 46)) (EVar 42)))) ;;
  (
  SSet 55 (EBin OXor u64 (EVar 55) (EVar 80)) ;;
  SSet 81 (EBin OXor u64 (EVar 46) (EBin OAnd u64 (EUn ONot u64 (EVar 42)) (EVar 43))) ;;
  SSet 56 (EBin OXor u64 (EVar 56) (EVar 81)) ;;
  SSet 4 (EBin OXor u64 (EVar 4) (EVar 59)) ;;
  SSet 47 (EBin OXor u64 (EBin OShl u64 (EVar 4) (EInt 62)) (EBin OShr u64 (EVar 4) (EInt 2))) ;;
  SSet 10 (EBin OXor u64 (EVar 10) (EVar 60)) ;;
  SSet 48 (EBin OXor u64 (EBin OShl u64 (EVar 10) (EInt 55)) (EBin OShr u64 (EVar 10) (EInt 9))) ;;
  SSet 16 (EBin OXor u64 (EVar 16) (EVar 61)) ;;
  SSet 49 (EBin OXor u64 (EBin OShl u64 (EVar 16) (EInt 39)) (EBin OShr u64 (EVar 16) (EInt 25))) ;;
  SSet 17 (EBin OXor u64 (EVar 17) (EVar 57)) ;;
  SSet 50 (EBin OXor u64 (EBin OShl u64 (EVar 17) (EInt 41)) (EBin OShr u64 (EVar 17) (EInt 23))) ;;
  SSet 23 (EBin OXor u64 (EVar 23) (EVar 58)) ;;
  SSet 51 (EBin OXor u64 (EBin OShl u64 (EVar 23) (EInt 2)) (EBin OShr u64 (EVar 23) (EInt 62))) ;;
  SSet 82 (EBin OXor u64 (EVar 47) (EBin OAnd u64 (EUn ONot u64 (EVar 48)) (EVar 49))) ;;
  SSet 52 (EBin OXor u64 (EVar 52) (EVar 82)) ;;
  SSet 83 (EBin OXor u64 (EVar 48) (EBin OAnd u64 (EUn ONot u64 (EVar 49)) (EVar 50))) ;;
  SSet 53 (EBin OXor u64 (EVar 53) (EVar 83)) ;;
  SSet 84 (EBin OXor u64 (EVar 49) (EBin OAnd u64 (EUn ONot u64 (EVar 50)) (EVar 51))) ;;
  SSet 54 (EBin OXor u64 (EVar 54) (EVar 84)) ;;
  SSet 85 (EBin OXor u64 (EVar 50) (EBin OAnd u64 (EUn ONot u64 (EVar 51)) (EVar 47))) ;;
  SSet 55 (EBin OXor u64 (EVar 55) (EVar 85)) ;;
  SSet 86 (EBin OXor u64 (EVar 51) (EBin OAnd u64 (EUn ONot u64 (EVar 47)) (EVar 48))) ;;
  SSet 56 (EBin OXor u64 (EVar 56) (EVar 86)) ;;
  SSet 57 (EBin OXor u64 (EVar 56) (EBin OXor u64 (EBin OShl u64 (EVar 53) (EInt 1)) (EBin OShr u64 (EVar 53) (EInt 63)))) ;;
  SSet 58 (EBin OXor u64 (EVar 52) (EBin OXor u64 (EBin OShl u64 (EVar 54) (EInt 1)) (EBin OShr u64 (EVar 54) (EInt 63)))) ;;
  SSet 59 (EBin OXor u64 (EVar 53) (EBin OXor u64 (EBin OShl u64 (EVar 55) (EInt 1)) (EBin OShr u64 (EVar 55) (EInt 63)))) ;;
  SSet 60 (EBin OXor u64 (EVar 54) (EBin OXor u64 (EBin OShl u64 (EVar 56) (EInt 1)) (EBin OShr u64 (EVar 56) (EInt 63)))) ;;
  SSet 61 (EBin OXor u64 (EVar 55) (EBin OXor u64 (EBin OShl u64 (EVar 52) (EInt 1)) (EBin OShr u64 (EVar 52) (EInt 63)))) ;;
  SSet 62 (EBin OXor u64 (EVar 62) (EVar 57)) ;;
  SSet 27 (EVar 62) ;;
  SSet 68 (EBin OXor u64 (EVar 68) (EVar 58)) ;;
  SSet 28 (EBin OXor u64 (EBin OShl u64 (EVar 68) (EInt 44)) (EBin OShr u64 (EVar 68) (EInt 20))) ;;
  SSet 74 (EBin OXor u64 (EVar 74) (EVar 59)) ;;
  SSet 29 (EBin OXor u64 (EBin OShl u64 (EVar 74) (EInt 43)) (EBin OShr u64 (EVar 74) (EInt 21))) ;;
  SSet 80 (EBin OXor u64 (EVar 80) (EVar 60)) ;;
  SSet 30 (EBin OXor u64 (EBin OShl u64 (EVar 80) (EInt 21)) (EBin OShr u64 (EVar 80) (EInt 43))) ;;
  SSet 86 (EBin OXor u64 (EVar 86) (EVar 61)) ;;
  SSet 31 (EBin OXor u64 (EBin OShl u64 (EVar 86) (EInt 14)) (EBin OShr u64 (EVar 86) (EInt 50))) ;;
  SSet 2 (EBin OXor u64 (EVar 27) (EBin OAnd u64 (EUn ONot u64 (EVar 28)) (EVar 29))) ;;
  SSet 2 (EBin OXor u64 (EVar 2) (ELoad 8 (EAt (EGlob 1) 8 (EInt 17)))))) ;;
  (
  (
  SSet 52 (EVar 2) ;;
  SSet 3 (EBin OXor u64 (EVar 28) (EBin OAnd u64 (EUn ONot u64 (EVar 29)) (EVar 30))) ;;
  SSet 53 (EVar 3) ;;
  SSet 4 (EBin OXor u64 (EVar 29) (EBin OAnd u64 (EUn ONot u64 (EVar 30)) (EVar 31))) ;;
  SSet 54 (EVar 4) ;;
  SSet 5 (EBin OXor u64 (EVar 30) (EBin OAnd u64 (EUn ONot u64 (EVar 31)) (EVar 27))) ;;
  SSet 55 (EVar 5) ;;
  SSet 6 (EBin OXor u64 (EVar 31) (EBin OAnd u64 (EUn ONot u64 (EVar 27)) (EVar 28))) ;;
  SSet 56 (EVar 6) ;;
  SSet 65 (EBin OXor u64 (EVar 65) (EVar 60)) ;;
  SSet 32 (EBin OXor u64 (EBin OShl u64 (EVar 65) (EInt 28)) (EBin OShr u64 (EVar 65) (EInt 36))) ;;
  SSet 71 (EBin OXor u64 (EVar 71) (EVar 61)) ;;
  SSet 33 (EBin OXor u64 (EBin OShl u64 (EVar 71) (EInt 20)) (EBin OShr u64 (EVar 71) (EInt 44))) ;;
  SSet 72 (EBin OXor u64 (EVar 72) (EVar 57)) ;;
  SSet 34 (EBin OXor u64 (EBin OShl u64 (EVar 72) (EInt 3)) (EBin OShr u64 (EVar 72) (EInt 61))) ;;
  SSet 78 (EBin OXor u64 (EVar 78) (EVar 58)) ;;
  SSet 35 (EBin OXor u64 (EBin OShl u64 (EVar 78) (EInt 45)) (EBin OShr u64 (EVar 78) (EInt 19))) ;;
  SSet 84 (EBin OXor u64 (EVar 84) (EVar 59)) ;;
  SSet 36 (EBin OXor u64 (EBin OShl u64 (EVar 84) (EInt 61)) (EBin OShr u64 (EVar 84) (EInt 3))) ;;
  SSet 7 (EBin OXor u64 (EVar 32) (EBin OAnd u64 (EUn ONot u64 (EVar 33)) (EVar 34))) ;;
  SSet 52 (EBin OXor u64 (EVar 52) (EVar 7)) ;;
  SSet 8 (EBin OXor u64 (EVar 33) (EBin OAnd u64 (EUn ONot u64 (EVar 34)) (EVar 35))) ;;
  SSet 53 (EBin OXor u64 (EVar 53) (EVar 8)) ;;
  SSet 9 (EBin OXor u64 (EVar 34) (EBin OAnd u64 (EUn ONot u64 (EVar 35)) (EVar 36))) ;;
  SSet 54 (EBin OXor u64 (EVar 54) (EVar 9)) ;;
  SSet 10 (EBin OXor u64 (EVar 35) (EBin OAnd u64 (EUn ONot u64 (EVar 36)) (EVar 32))) ;;
  SSet 55 (EBin OXor u64 (EVar 55) (EVar 10)) ;;
  SSet 11 (EBin OXor u64 (EVar 36) (EBin OAnd u64 (EUn ONot u64 (EVar 32)) (EVar 33))) ;;
  SSet 56 (EBin OXor u64 (EVar 56) (EVar 11)) ;;
  SSet 63 (EBin OXor u64 (EVar 63) (EVar 58)) ;;
  SSet 37 (EBin OXor u64 (EBin OShl u64 (EVar 63) (EInt 1)) (EBin OShr u64 (EVar 63) (EInt 63))) ;;
  SSet 69 (EBin OXor u64 (EVar 69) (EVar 59)) ;;
  SSet 38 (EBin OXor u64 (EBin OShl u64 (EVar 69) (EInt 6)) (EBin OShr u64 (EVar 69) (EInt 58))) ;;
  SSet 75 (EBin OXor u64 (EVar 75) (EVar 60)) ;;
  SSet 39 (EBin OXor u64 (EBin OShl u64 (EVar 75) (EInt 25)) (EBin OShr u64 (EVar 75) (EInt 39))) ;;
  SSet 81 (EBin OXor u64 (EVar 81) (EVar 61)) ;;
  SSet 40 (EBin OXor u64 (EBin OShl u64 (EVar 81) (EInt 8)) (EBin OShr u64 (EVar 81) (EInt 56))) ;;
  SSet 82 (EBin OXor u64 (EVar 82) (EVar 57)) ;;
  SSet 41 (EBin OXor u64 (EBin OShl u64 (EVar 82) (EInt 18)) (EBin OShr u64 (EVar 82) (EInt 46))) ;;
  SSet 12 (EBin OXor u64 (EVar 37) (EBin OAnd u64 (EUn ONot u64 (EVar 38)) (EVar 39)))) ;;
  (
  (
  SSet 52 (EBin OXor u64 (EVar 52) (EVar 12)) ;;
  SSet 13 (EBin OXor u64 (EVar 38) (EBin OAnd u64 (EUn ONot u64 (EVar 39)) (EVar 40))) ;;
  SSet 53 (EBin OXor u64 (EVar 53) (EVar 13)) ;;
  SSet 14 (EBin OXor u64 (EVar 39) (EBin OAnd u64 (EUn ONot u64 (EVar 40)) (EVar 41))) ;;
  SSet 54 (EBin OXor u64 (EVar 54) (EVar 14)) ;;
  SSet 15 (EBin OXor u64 (EVar 40) (EBin OAnd u64 (EUn ONot u64 (EVar 41)) (EVar 37))) ;;
  SSet 55 (EBin OXor u64 (EVar 55) (EVar 15)) ;;
  SSet 16 (EBin OXor u64 (EVar 41) (EBin OAnd u64 (EUn ONot u64 (EVar 37)) (EVar 38))) ;;
  SSet 56 (EBin OXor u64 (EVar 56) (EVar 16)) ;;
  SSet 66 (EBin OXor u64 (EVar 66) (EVar 61)) ;;
  SSet 42 (EBin OXor u64 (EBin OShl u64 (EVar 66) (EInt 27)) (EBin OShr u64 (EVar 66) (EInt 37))) ;;
  SSet 67 (EBin OXor u64 (EVar 67) (EVar 57)) ;;
  SSet 43 (EBin OXor u64 (EBin OShl u64 (EVar 67) (EInt 36)) (EBin OShr u64 (EVar 67) (EInt 28))) ;;
  SSet 73 (EBin OXor u64 (EVar 73) (EVar 58)) ;;
  SSet 44 (EBin OXor u64 (EBin OShl u64 (EVar 73) (EInt 10)) (EBin OShr u64 (EVar 73) (EInt 54))) ;;
  SSet 79 (EBin OXor u64 (EVar 79) (EVar 59)) ;;
  SSet 45 (EBin OXor u64 (EBin OShl u64 (EVar 79) (EInt 15)) (EBin OShr u64 (EVar 79) (EInt 49))) ;;
  SSet 85 (EBin OXor u64 (EVar 85) (EVar 60)) ;;
  SSet 46 (EBin OXor u64 (EBin OShl u64 (EVar 85) (EInt 56)) (EBin OShr u64 (EVar 85) (EInt 8))) ;;
  SSet 17 (EBin OXor u64 (EVar 42) (EBin OAnd u64 (EUn ONot u64 (EVar 43)) (EVar 44)))) ;;
  (
  SSet 52 (EBin OXor u64 (EVar 52) (EVar 17)) ;;
  SSet 18 (EBin OXor u64 (EVar 43) (EBin OAnd u64 (EUn ONot u64 (EVar 44)) (EVar 45))) ;;
  SSet 53 (EBin OXor u64 (EVar 53) (EVar 18)) ;;
  SSet 19 (EBin OXor u64 (EVar 44) (EBin OAnd u64 (EUn ONot u64 (EVar 45)) (EVar 46))) ;;
  SSet 54 (EBin OXor u64 (EVar 54) (EVar 19)) ;;
  SSet 20 (EBin OXor u64 (EVar 45) (EBin OAnd u64 (EUn ONot u64 (EVar 46)) (EVar 42))) ;;
  SSet 55 (EBin OXor u64 (EVar 55) (EVar 20)) ;;
  SSet 21 (EBin OXor u64 (EVar 46) (EBin OAnd u64 (EUn ONot u64 (EVar 42)) (EVar 43))) ;;
  SSet 56 (EBin OXor u64 (EVar 56) (EVar 21)) ;;
  SSet 64 (EBin OXor u64 (EVar 64) (EVar 59)) ;;
  SSet 47 (EBin OXor u64 (EBin OShl u64 (EVar 64) (EInt 62)) (EBin OShr u64 (EVar 64) (EInt 2))) ;;
  SSet 70 (EBin OXor u64 (EVar 70) (EVar 60)) ;;
  SSet 48 (EBin OXor u64 (EBin OShl u64 (EVar 70) (EInt 55)) (EBin OShr u64 (EVar 70) (EInt 9))) ;;
  SSet 76 (EBin OXor u64 (EVar 76) (EVar 61)) ;;
  SSet 49 (EBin OXor u64 (EBin OShl u64 (EVar 76) (EInt 39)) (EBin OShr u64 (EVar 76) (EInt 25))) ;;
  SSet 77 (EBin OXor u64 (EVar 77) (EVar 57)) ;;
  SSet 50 (EBin OXor u64 (EBin OShl u64 (EVar 77) (EInt 41)) (EBin OShr u64 (EVar 77) (EInt 23))) ;;
  SSet 83 (EBin OXor u64 (EVar 83) (EVar 58)) ;;
  SSet 51 (EBin OXor u64 (EBin OShl u64 (EVar 83) (EInt 2)) (EBin OShr u64 (EVar 83) (EInt 62))) ;;
  SSet 22 (EBin OXor u64 (EVar 47) (EBin OAnd u64 (EUn ONot u64 (EVar 48)) (EVar 49))) ;;
  SSet 52 (EBin OXor u64 (EVar 52) (EVar 22)))))))) ;;
  (
  (
  (
  (
  (
  SSet 23 (EBin OXor u64 (EVar 48) (EBin OAnd u64 (EUn ONot u64 (EVar 49)) (EVar 50))) ;;
  SSet 53 (EBin OXor u64 (EVar 53) (EVar 23)) ;;
  SSet 24 (EBin OXor u64 (EVar 49) (EBin OAnd u64 (EUn ONot u64 (EVar 50)) (EVar 51))) ;;
  SSet 54 (EBin OXor u64 (EVar 54) (EVar 24)) ;;
  SSet 25 (EBin OXor u64 (EVar 50) (EBin OAnd u64 (EUn ONot u64 (EVar 51)) (EVar 47))) ;;
  SSet 55 (EBin OXor u64 (EVar 55) (EVar 25)) ;;
  SSet 26 (EBin OXor u64 (EVar 51) (EBin OAnd u64 (EUn ONot u64 (EVar 47)) (EVar 48))) ;;
  SSet 56 (EBin OXor u64 (EVar 56) (EVar 26)) ;;
  SSet 57 (EBin OXor u64 (EVar 56) (EBin OXor u64 (EBin OShl u64 (EVar 53) (EInt 1)) (EBin OShr u64 (EVar 53) (EInt 63)))) ;;
  SSet 58 (EBin OXor u64 (EVar 52) (EBin OXor u64 (EBin OShl u64 (EVar 54) (EInt 1)) (EBin OShr u64 (EVar 54) (EInt 63)))) ;;
  SSet 59 (EBin OXor u64 (EVar 53) (EBin OXor u64 (EBin OShl u64 (EVar 55) (EInt 1)) (EBin OShr u64 (EVar 55) (EInt 63)))) ;;
  SSet 60 (EBin OXor u64 (EVar 54) (EBin OXor u64 (EBin OShl u64 (EVar 56) (EInt 1)) (EBin OShr u64 (EVar 56) (EInt 63)))) ;;
  SSet 61 (EBin OXor u64 (EVar 55) (EBin OXor u64 (EBin OShl u64 (EVar 52) (EInt 1)) (EBin OShr u64 (EVar 52) (EInt 63)))) ;;
  SSet 2 (EBin OXor u64 (EVar 2) (EVar 57)) ;;
  SSet 27 (EVar 2) ;;
  SSet 8 (EBin OXor u64 (EVar 8) (EVar 58)) ;;
  SSet 28 (EBin OXor u64 (EBin OShl u64 (EVar 8) (EInt 44)) (EBin OShr u64 (EVar 8) (EInt 20))) ;;
  SSet 14 (EBin OXor u64 (EVar 14) (EVar 59)) ;;
  SSet 29 (EBin OXor u64 (EBin OShl u64 (EVar 14) (EInt 43)) (EBin OShr u64 (EVar 14) (EInt 21))) ;;
  SSet 20 (EBin OXor u64 (EVar 20) (EVar 60)) ;;
  SSet 30 (EBin OXor u64 (EBin OShl u64 (EVar 20) (EInt 21)) (EBin OShr u64 (EVar 20) (EInt 43))) ;;
  SSet 26 (EBin OXor u64 (EVar 26) (EVar 61)) ;;
  SSet 31 (EBin OXor u64 (EBin OShl u64 (EVar 26) (EInt 14)) (EBin OShr u64 (EVar 26) (EInt 50))) ;;
  SSet 62 (EBin OXor u64 (EVar 27) (EBin OAnd u64 (EUn ONot u64 (EVar 28)) (EVar 29))) ;;
  SSet 62 (EBin OXor u64 (EVar 62) (ELoad 8 (EAt (EGlob 1) 8 (EInt 18)))) ;;
  SSet 52 (EVar 62) ;;
  SSet 63 (EBin OXor u64 (EVar 28) (EBin OAnd u64 (EUn ONot u64 (EVar 29)) (EVar 30))) ;;
  SSet 53 (EVar 63) ;;
  SSet 64 (EBin OXor u64 (EVar 29) (EBin OAnd u64 (EUn ONot u64 (EVar 30)) (EVar 31))) ;;
  SSet 54 (EVar 64) ;;
  SSet 65 (EBin OXor u64 (EVar 30) (EBin OAnd u64 (EUn ONot u64 (EVar 31)) (EVar 27))) ;;
  SSet 55 (EVar 65) ;;
  SSet 66 (EBin OXor u64 (EVar 31) (EBin OAnd u64 (EUn ONot u64 (EVar 27)) (EVar 28))) ;;
  SSet 56 (EVar 66) ;;
  SSet 5 (EBin OXor u64 (EVar 5) (EVar 60)) ;;
  SSet 32 (EBin OXor u64 (EBin OShl u64 (EVar 5) (EInt 28)) (EBin OShr u64 (EVar 5) (EInt 36))) ;;
  SSet 11 (EBin OXor u64 (EVar 11) (EVar 61)) ;;
  SSet 33 (EBin OXor u64 (EBin OShl u64 (EVar 11) (EInt 20)) (EBin OShr u64 (EVar 11) (EInt 44))) ;;
  SSet 12 (EBin OXor u64 (EVar 12) (EVar 57)) ;;
  SSet 34 (EBin OXor u64 (EBin OShl u64 (EVar 12) (EInt 3)) (EBin OShr u64 (EVar 12) (EInt 61)))) ;;
  (
  SSet 18 (EBin OXor u64 (EVar 18) (EVar 58)) ;;
  SSet 35 (EBin OXor u64 (EBin OShl u64 (EVar 18) (EInt 45)) (EBin OShr u64 (EVar 18) (EInt 19))) ;;
  SSet 24 (EBin OXor u64 (EVar 24) (EVar 59)) ;;
  SSet 36 (EBin OXor u64 (EBin OShl u64 (EVar 24) (EInt 61)) (EBin OShr u64 (EVar 24) (EInt 3))) ;;
  SSet 67 (EBin OXor u64 (EVar 32) (EBin OAnd u64 (EUn ONot u64 (EVar 33)) (EVar 34))) ;;
  SSet 52 (EBin OXor u64 (EVar 52) (EVar 67)) ;;
  SSet 68 (EBin OXor u64 (EVar 33) (EBin OAnd u64 (EUn ONot u64 (EVar 34)) (EVar 35))) ;;
  SSet 53 (EBin OXor u64 (EVar 53) (EVar 68)) ;;
  SSet 69 (EBin OXor u64 (EVar 34) (EBin OAnd u64 (EUn ONot u64 (EVar 35)) (EVar 36))) ;;
  SSet 54 (EBin OXor u64 (EVar 54) (EVar 69)) ;;
  SSet 70 (EBin OXor u64 (EVar 35) (EBin OAnd u64 (EUn ONot u64 (EVar 36)) (EVar 32))) ;;
  SSet 55 (EBin OXor u64 (EVar 55) (EVar 70)) ;;
  SSet 71 (EBin OXor u64 (EVar 36) (EBin OAnd u64 (EUn ONot u64 (EVar 32)) (EVar 33))) ;;
  SSet 56 (EBin OXor u64 (EVar 56) (EVar 71)) ;;
  SSet 3 (EBin OXor u64 (EVar 3) (EVar 58)) ;;
  SSet 37 (EBin OXor u64 (EBin OShl u64 (EVar 3) (EInt 1)) (EBin OShr u64 (EVar 3) (EInt 63))) ;;
  SSet 9 (EBin OXor u64 (EVar 9) (EVar 59)) ;;
  SSet 38 (EBin OXor u64 (EBin OShl u64 (EVar 9) (EInt 6)) (EBin OShr u64 (EVar 9) (EInt 58))) ;;
  SSet 15 (EBin OXor u64 (EVar 15) (EVar 60)) ;;
  SSet 39 (EBin OXor u64 (EBin OShl u64 (EVar 15) (EInt 25)) (EBin OShr u64 (EVar 15) (EInt 39))) ;;
  SSet 21 (EBin OXor u64 (EVar 21) (EVar 61)) ;;
  SSet 40 (EBin OXor u64 (EBin OShl u64 (EVar 21) (EInt 8)) (EBin OShr u64 (EVar 21) (EInt 56))) ;;
  SSet 22 (EBin OXor u64 (EVar 22) (EVar 57)) ;;
  SSet 41 (EBin OXor u64 (EBin OShl u64 (EVar 22) (EInt 18)) (EBin OShr u64 (EVar 22) (EInt 46))) ;;
  SSet 72 (EBin OXor u64 (EVar 37) (EBin OAnd u64 (EUn ONot u64 (EVar 38)) (EVar 39))) ;;
  SSet 52 (EBin OXor u64 (EVar 52) (EVar 72)) ;;
  SSet 73 (EBin OXor u64 (EVar 38) (EBin OAnd u64 (EUn ONot u64 (EVar 39)) (EVar 40))) ;;
  SSet 53 (EBin OXor u64 (EVar 53) (EVar 73)) ;;
  SSet 74 (EBin OXor u64 (EVar 39) (EBin OAnd u64 (EUn ONot u64 (EVar 40)) (EVar 41))) ;;
  SSet 54 (EBin OXor u64 (EVar 54) (EVar 74)) ;;
  SSet 75 (EBin OXor u64 (EVar 40) (EBin OAnd u64 (EUn ONot u64 (EVar 41)) (EVar 37))) ;;
  SSet 55 (EBin OXor u64 (EVar 55) (EVar 75)) ;;
  SSet 76 (EBin OXor u64 (EVar 41) (EBin OAnd u64 (EUn ONot u64 (EVar 37)) (EVar 38))) ;;
  SSet 56 (EBin OXor u64 (EVar 56) (EVar 76)) ;;
  SSet 6 (EBin OXor u64 (EVar 6) (EVar 61)) ;;
  SSet 42 (EBin OXor u64 (EBin OShl u64 (EVar 6) (EInt 27)) (EBin OShr u64 (EVar 6) (EInt 37))) ;;
  SSet 7 (EBin OXor u64 (EVar 7) (EVar 57)) ;;
  SSet 43 (EBin OXor u64 (EBin OShl u64 (EVar 7) (EInt 36)) (EBin OShr u64 (EVar 7) (EInt 28))) ;;
  SSet 13 (EBin OXor u64 (EVar 13) (EVar 58)) ;;
  SSet 44 (EBin OXor u64 (EBin OShl u64 (EVar 13) (EInt 10)) (EBin OShr u64 (EVar 13) (EInt 54))))) ;;
  (
  (
  SSet 19 (EBin OXor u64 (EVar 19) (EVar 59)) ;;
  SSet 45 (EBin OXor u64 (EBin OShl u64 (EVar 19) (EInt 15)) (EBin OShr u64 (EVar 19) (EInt 49))) ;;
  SSet 25 (EBin OXor u64 (EVar 25) (EVar 60)) ;;
  SSet 46 (EBin OXor u64 (EBin OShl u64 (EVar 25) (EInt 56)) (EBin OShr u64 (EVar 25) (EInt 8))) ;;
  SSet 77 (EBin OXor u64 (EVar 42) (EBin OAnd u64 (EUn ONot u64 (EVar 43)) (EVar 44))) ;;
  SSet 52 (EBin OXor u64 (EVar 52) (EVar 77)) ;;
  SSet 78 (EBin OXor u64 (EVar 43) (EBin OAnd u64 (EUn ONot u64 (EVar 44)) (EVar 45))) ;;
  SSet 53 (EBin OXor u64 (EVar 53) (EVar 78)) ;;
  SSet 79 (EBin OXor u64 (EVar 44) (EBin OAnd u64 (EUn ONot u64 (EVar 45)) (EVar 46))) ;;
  SSet 54 (EBin OXor u64 (EVar 54) (EVar 79)) ;;
  SSet 80 (EBin OXor u64 (EVar 45) (EBin OAnd u64 (EUn ONot u64 (EVar 46)) (EVar 42))) ;;
  SSet 55 (EBin OXor u64 (EVar 55) (EVar 80)) ;;
  SSet 81 (EBin OXor u64 (EVar 46) (EBin OAnd u64 (EUn ONot u64 (EVar 42)) (EVar 43))) ;;
  SSet 56 (EBin OXor u64 (EVar 56) (EVar 81)) ;;
  SSet 4 (EBin OXor u64 (EVar 4) (EVar 59)) ;;
  SSet 47 (EBin OXor u64 (EBin OShl u64 (EVar 4) (EInt 62)) (EBin OShr u64 (EVar 4) (EInt 2))) ;;
  SSet 10 (EBin OXor u64 (EVar 10) (EVar 60)) ;;
  SSet 48 (EBin OXor u64 (EBin OShl u64 (EVar 10) (EInt 55)) (EBin OShr u64 (EVar 10) (EInt 9))) ;;
  SSet 16 (EBin OXor u64 (EVar 16) (EVar 61)) ;;
  SSet 49 (EBin OXor u64 (EBin OShl u64 (EVar 16) (EInt 39)) (EBin OShr u64 (EVar 16) (EInt 25))) ;;
  SSet 17 (EBin OXor u64 (EVar 17) (EVar 57)) ;;
  SSet 50 (EBin OXor u64 (EBin OShl u64 (EVar 17) (EInt 41)) (EBin OShr u64 (EVar 17) (EInt 23))) ;;
  SSet 23 (EBin OXor u64 (EVar 23) (EVar 58)) ;;
  SSet 51 (EBin OXor u64 (EBin OShl u64 (EVar 23) (EInt 2)) (EBin OShr u64 (EVar 23) (EInt 62))) ;;
  SSet 82 (EBin OXor u64 (EVar 47) (EBin OAnd u64 (EUn ONot u64 (EVar 48)) (EVar 49))) ;;
  SSet 52 (EBin OXor u64 (EVar 52) (EVar 82)) ;;
  SSet 83 (EBin OXor u64 (EVar 48) (EBin OAnd u64 (EUn ONot u64 (EVar 49)) (EVar 50))) ;;
  SSet 53 (EBin OXor u64 (EVar 53) (EVar 83)) ;;
  SSet 84 (EBin OXor u64 (EVar 49) (EBin OAnd u64 (EUn ONot u64 (EVar 50)) (EVar 51))) ;;
  SSet 54 (EBin OXor u64 (EVar 54) (EVar 84)) ;;
  SSet 85 (EBin OXor u64 (EVar 50) (EBin OAnd u64 (EUn ONot u64 (EVar 51)) (EVar 47))) ;;
  SSet 55 (EBin OXor u64 (EVar 55) (EVar 85)) ;;
  SSet 86 (EBin OXor u64 (EVar 51) (EBin OAnd u64 (EUn ONot u64 (EVar 47)) (EVar 48))) ;;
  SSet 56 (EBin OXor u64 (EVar 56) (EVar 86)) ;;
  SSet 57 (EBin OXor u64 (EVar 56) (EBin OXor u64 (EBin OShl u64 (EVar 53) (EInt 1)) (EBin OShr u64 (EVar 53) (EInt 63)))) ;;
  SSet 58 (EBin OXor u64 (EVar 52) (EBin OXor u64 (EBin OShl u64 (EVar 54) (EInt 1)) (EBin OShr u64 (EVar 54) (EInt 63)))) ;;
  SSet 59 (EBin OXor u64 (EVar 53) (EBin OXor u64 (EBin OShl u64 (EVar 55) (EInt 1)) (EBin OShr u64 (EVar 55) (EInt 63)))) ;;
  SSet 60 (EBin OXor u64 (EVar 54) (EBin OXor u64 (EBin OShl u64 (EVar 56) (EInt 1)) (EBin OShr u64 (EVar 56) (EInt 63)))) ;;
  SSet 61 (EBin OXor u64 (EVar 55) (EBin OXor u64 (EBin OShl u64 (EVar 52) (EInt 1)) (EBin OShr u64 (EVar 52) (EInt 63)))) ;;
  SSet 62 (EBin OXor u64 (EVar 62) (EVar 57))) ;;
  (
  (
  SSet 27 (EVar 62) ;;
  SSet 68 (EBin OXor u64 (EVar 68) (EVar 58)) ;;
  SSet 28 (EBin OXor u64 (EBin OShl u64 (EVar 68) (EInt 44)) (EBin OShr u64 (EVar 68) (EInt 20))) ;;
  SSet 74 (EBin OXor u64 (EVar 74) (EVar 59)) ;;
  SSet 29 (EBin OXor u64 (EBin OShl u64 (EVar 74) (EInt 43)) (EBin OShr u64 (EVar 74) (EInt 21))) ;;
  SSet 80 (EBin OXor u64 (EVar 80) (EVar 60)) ;;
  SSet 30 (EBin OXor u64 (EBin OShl u64 (EVar 80) (EInt 21)) (EBin OShr u64 (EVar 80) (EInt 43))) ;;
  SSet 86 (EBin OXor u64 (EVar 86) (EVar 61)) ;;
  SSet 31 (EBin OXor u64 (EBin OShl u64 (EVar 86) (EInt 14)) (EBin OShr u64 (EVar 86) (EInt 50))) ;;
  SSet 2 (EBin OXor u64 (EVar 27) (EBin OAnd u64 (EUn ONot u64 (EVar 28)) (EVar 29))) ;;
  SSet 2 (EBin OXor u64 (EVar 2) (ELoad 8 (EAt (EGlob 1) 8 (EInt 19)))) ;;
  SSet 52 (EVar 2) ;;
  SSet 3 (EBin OXor u64 (EVar 28) (EBin OAnd u64 (EUn ONot u64 (EVar 29)) (EVar 30))) ;;
  SSet 53 (EVar 3) ;;
  SSet 4 (EBin OXor u64 (EVar 29) (EBin OAnd u64 (EUn ONot u64 (EVar 30)) (EVar 31))) ;;
  SSet 54 (EVar 4) ;;
  SSet 5 (EBin OXor u64 (EVar 30) (EBin OAnd u64 (EUn ONot u64 (EVar 31)) (EVar 27))) ;;
  SSet 55 (EVar 5) ;;
  SSet 6 (EBin OXor u64 (EVar 31) (EBin OAnd u64 (EUn ONot u64 (EVar 27)) (EVar 28))) ;;
  SSet 56 (EVar 6)) ;;
  (
  SSet 65 (EBin OXor u64 (EVar 65) (EVar 60)) ;;
  SSet 32 (EBin OXor u64 (EBin OShl u64 (EVar 65) (EInt 28)) (EBin OShr u64 (EVar 65) (EInt 36))) ;;
  SSet 71 (EBin OXor u64 (EVar 71) (EVar 61)) ;;
  SSet 33 (EBin OXor u64 (EBin OShl u64 (EVar 71) (EInt 20)) (EBin OShr u64 (EVar 71) (EInt 44))) ;;
  SSet 72 (EBin OXor u64 (EVar 72) (EVar 57)) ;;
  SSet 34 (EBin OXor u64 (EBin OShl u64 (EVar 72) (EInt 3)) (EBin OShr u64 (EVar 72) (EInt 61))) ;;
  SSet 78 (EBin OXor u64 (EVar 78) (EVar 58)) ;;
  SSet 35 (EBin OXor u64 (EBin OShl u64 (EVar 78) (EInt 45)) (EBin OShr u64 (EVar 78) (EInt 19))) ;;
  SSet 84 (EBin OXor u64 (EVar 84) (EVar 59)) ;;
  SSet 36 (EBin OXor u64 (EBin OShl u64 (EVar 84) (EInt 61)) (EBin OShr u64 (EVar 84) (EInt 3))) ;;
  SSet 7 (EBin OXor u64 (EVar 32) (EBin OAnd u64 (EUn ONot u64 (EVar 33)) (EVar 34))) ;;
  SSet 52 (EBin OXor u64 (EVar 52) (EVar 7)) ;;
  SSet 8 (EBin OXor u64 (EVar 33) (EBin OAnd u64 (EUn ONot u64 (EVar 34)) (EVar 35))) ;;
  SSet 53 (EBin OXor u64 (EVar 53) (EVar 8)) ;;
  SSet 9 (EBin OXor u64 (EVar 34) (EBin OAnd u64 (EUn ONot u64 (EVar 35)) (EVar 36))) ;;
  SSet 54 (EBin OXor u64 (EVar 54) (EVar 9)) ;;
  SSet 10 (EBin OXor u64 (EVar 35) (EBin OAnd u64 (EUn ONot u64 (EVar 36)) (EVar 32))) ;;
  SSet 55 (EBin OXor u64 (EVar 55) (EVar 10)) ;;
  SSet 11 (EBin OXor u64 (EVar 36) (EBin OAnd u64 (EUn ONot u64 (EVar 32)) (EVar 33))) ;;
  SSet 56 (EBin OXor u64 (EVar 56) (EVar 11)) ;;
  SSet 63 (EBin OXor u64 (EVar 63) (EVar 58)))))) ;;
  (
  (
  (
  SSet 37 (EBin OXor u64 (EBin OShl u64 (EVar 63) (EInt 1)) (EBin OShr u64 (EVar 63) (EInt 63))) ;;
  SSet 69 (EBin OXor u64 (EVar 69) (EVar 59)) ;;
  SSet 38 (EBin OXor u64 (EBin OShl u64 (EVar 69) (EInt 6)) (EBin OShr u64 (EVar 69) (EInt 58))) ;;
  SSet 75 (EBin OXor u64 (EVar 75) (EVar 60)) ;;
  SSet 39 (EBin OXor u64 (EBin OShl u64 (EVar 75) (EInt 25)) (EBin OShr u64 (EVar 75) (EInt 39))) ;;
  SSet 81 (EBin OXor u64 (EVar 81) (EVar 61)) ;;
  SSet 40 (EBin OXor u64 (EBin OShl u64 (EVar 81) (EInt 8)) (EBin OShr u64 (EVar 81) (EInt 56))) ;;
  SSet 82 (EBin OXor u64 (EVar 82) (EVar 57)) ;;
  SSet 41 (EBin OXor u64 (EBin OShl u64 (EVar 82) (EInt 18)) (EBin OShr u64 (EVar 82) (EInt 46))) ;;
  SSet 12 (EBin OXor u64 (EVar 37) (EBin OAnd u64 (EUn ONot u64 (EVar 38)) (EVar 39))) ;;
  SSet 52 (EBin OXor u64 (EVar 52) (EVar 12)) ;;
  SSet 13 (EBin OXor u64 (EVar 38) (EBin OAnd u64 (EUn ONot u64 (EVar 39)) (EVar 40))) ;;
  SSet 53 (EBin OXor u64 (EVar 53) (EVar 13)) ;;
  SSet 14 (EBin OXor u64 (EVar 39) (EBin OAnd u64 (EUn ONot u64 (EVar 40)) (EVar 41))) ;;
  SSet 54 (EBin OXor u64 (EVar 54) (EVar 14)) ;;
  SSet 15 (EBin OXor u64 (EVar 40) (EBin OAnd u64 (EUn ONot u64 (EVar 41)) (EVar 37))) ;;
  SSet 55 (EBin OXor u64 (EVar 55) (EVar 15)) ;;
  SSet 16 (EBin OXor u64 (EVar 41) (EBin OAnd u64 (EUn ONot u64 (EVar 37)) (EVar 38))) ;;
  SSet 56 (EBin OXor u64 (EVar 56) (EVar 16)) ;;
  SSet 66 (EBin OXor u64 (EVar 66) (EVar 61)) ;;
  SSet 42 (EBin OXor u64 (EBin OShl u64 (EVar 66) (EInt 27)) (EBin OShr u64 (EVar 66) (EInt 37))) ;;
  SSet 67 (EBin OXor u64 (EVar 67) (EVar 57)) ;;
  SSet 43 (EBin OXor u64 (EBin OShl u64 (EVar 67) (EInt 36)) (EBin OShr u64 (EVar 67) (EInt 28))) ;;
  SSet 73 (EBin OXor u64 (EVar 73) (EVar 58)) ;;
  SSet 44 (EBin OXor u64 (EBin OShl u64 (EVar 73) (EInt 10)) (EBin OShr u64 (EVar 73) (EInt 54))) ;;
  SSet 79 (EBin OXor u64 (EVar 79) (EVar 59)) ;;
  SSet 45 (EBin OXor u64 (EBin OShl u64 (EVar 79) (EInt 15)) (EBin OShr u64 (EVar 79) (EInt 49))) ;;
  SSet 85 (EBin OXor u64 (EVar 85) (EVar 60)) ;;
  SSet 46 (EBin OXor u64 (EBin OShl u64 (EVar 85) (EInt 56)) (EBin OShr u64 (EVar 85) (EInt 8))) ;;
  SSet 17 (EBin OXor u64 (EVar 42) (EBin OAnd u64 (EUn ONot u64 (EVar 43)) (EVar 44))) ;;
  SSet 52 (EBin OXor u64 (EVar 52) (EVar 17)) ;;
  SSet 18 (EBin OXor u64 (EVar 43) (EBin OAnd u64 (EUn ONot u64 (EVar 44)) (EVar 45))) ;;
  SSet 53 (EBin OXor u64 (EVar 53) (EVar 18)) ;;
  SSet 19 (EBin OXor u64 (EVar 44) (EBin OAnd u64 (EUn ONot u64 (EVar 45)) (EVar 46))) ;;
  SSet 54 (EBin OXor u64 (EVar 54) (EVar 19)) ;;
  SSet 20 (EBin OXor u64 (EVar 45) (EBin OAnd u64 (EUn ONot u64 (EVar 46)) (EVar 42))) ;;
  SSet 55 (EBin OXor u64 (EVar 55) (EVar 20)) ;;
  SSet 21 (EBin OXor u64 (EVar 46) (EBin OAnd u64 (EUn ONot u64 (EVar 42)) (EVar 43))) ;;
  SSet 56 (EBin OXor u64 (EVar 56) (EVar 21)) ;;
  SSet 64 (EBin OXor u64 (EVar 64) (EVar 59))) ;;
  (
  SSet 47 (EBin OXor u64 (EBin OShl u64 (EVar 64) (EInt 62)) (EBin OShr u64 (EVar 64) (EInt 2))) ;;
  SSet 70 (EBin OXor u64 (EVar 70) (EVar 60)) ;;
  SSet 48 (EBin OXor u64 (EBin OShl u64 (EVar 70) (EInt 55)) (EBin OShr u64 (EVar 70) (EInt 9))) ;;
  SSet 76 (EBin OXor u64 (EVar 76) (EVar 61)) ;;
  SSet 49 (EBin OXor u64 (EBin OShl u64 (EVar 76) (EInt 39)) (EBin OShr u64 (EVar 76) (EInt 25))) ;;
  SSet 77 (EBin OXor u64 (EVar 77) (EVar 57)) ;;
  SSet 50 (EBin OXor u64 (EBin OShl u64 (EVar 77) (EInt 41)) (EBin OShr u64 (EVar 77) (EInt 23))) ;;
  SSet 83 (EBin OXor u64 (EVar 83) (EVar 58)) ;;
  SSet 51 (EBin OXor u64 (EBin OShl u64 (EVar 83) (EInt 2)) (EBin OShr u64 (EVar 83) (EInt 62))) ;;
  SSet 22 (EBin OXor u64 (EVar 47) (EBin OAnd u64 (EUn ONot u64 (EVar 48)) (EVar 49))) ;;
  SSet 52 (EBin OXor u64 (EVar 52) (EVar 22)) ;;
  SSet 23 (EBin OXor u64 (EVar 48) (EBin OAnd u64 (EUn ONot u64 (EVar 49)) (EVar 50))) ;;
  SSet 53 (EBin OXor u64 (EVar 53) (EVar 23)) ;;
  SSet 24 (EBin OXor u64 (EVar 49) (EBin OAnd u64 (EUn ONot u64 (EVar 50)) (EVar 51))) ;;
  SSet 54 (EBin OXor u64 (EVar 54) (EVar 24)) ;;
  SSet 25 (EBin OXor u64 (EVar 50) (EBin OAnd u64 (EUn ONot u64 (EVar 51)) (EVar 47))) ;;
  SSet 55 (EBin OXor u64 (EVar 55) (EVar 25)) ;;
  SSet 26 (EBin OXor u64 (EVar 51) (EBin OAnd u64 (EUn ONot u64 (EVar 47)) (EVar 48))) ;;
  SSet 56 (EBin OXor u64 (EVar 56) (EVar 26)) ;;
  SSet 57 (EBin OXor u64 (EVar 56) (EBin OXor u64 (EBin OShl u64 (EVar 53) (EInt 1)) (EBin OShr u64 (EVar 53) (EInt 63)))) ;;
  SSet 58 (EBin OXor u64 (EVar 52) (EBin OXor u64 (EBin OShl u64 (EVar 54) (EInt 1)) (EBin OShr u64 (EVar 54) (EInt 63)))) ;;
  SSet 59 (EBin OXor u64 (EVar 53) (EBin OXor u64 (EBin OShl u64 (EVar 55) (EInt 1)) (EBin OShr u64 (EVar 55) (EInt 63)))) ;;
  SSet 60 (EBin OXor u64 (EVar 54) (EBin OXor u64 (EBin OShl u64 (EVar 56) (EInt 1)) (EBin OShr u64 (EVar 56) (EInt 63)))) ;;
  SSet 61 (EBin OXor u64 (EVar 55) (EBin OXor u64 (EBin OShl u64 (EVar 52) (EInt 1)) (EBin OShr u64 (EVar 52) (EInt 63)))) ;;
  SSet 2 (EBin OXor u64 (EVar 2) (EVar 57)) ;;
  SSet 27 (EVar 2) ;;
  SSet 8 (EBin OXor u64 (EVar 8) (EVar 58)) ;;
  SSet 28 (EBin OXor u64 (EBin OShl u64 (EVar 8) (EInt 44)) (EBin OShr u64 (EVar 8) (EInt 20))) ;;
  SSet 14 (EBin OXor u64 (EVar 14) (EVar 59)) ;;
  SSet 29 (EBin OXor u64 (EBin OShl u64 (EVar 14) (EInt 43)) (EBin OShr u64 (EVar 14) (EInt 21))) ;;
  SSet 20 (EBin OXor u64 (EVar 20) (EVar 60)) ;;
  SSet 30 (EBin OXor u64 (EBin OShl u64 (EVar 20) (EInt 21)) (EBin OShr u64 (EVar 20) (EInt 43))) ;;
  SSet 26 (EBin OXor u64 (EVar 26) (EVar 61)) ;;
  SSet 31 (EBin OXor u64 (EBin OShl u64 (EVar 26) (EInt 14)) (EBin OShr u64 (EVar 26) (EInt 50))) ;;
  SSet 62 (EBin OXor u64 (EVar 27) (EBin OAnd u64 (EUn ONot u64 (EVar 28)) (EVar 29))) ;;
  SSet 62 (EBin OXor u64 (EVar 62) (ELoad 8 (EAt (EGlob 1) 8 (EInt 20)))) ;;
  SSet 52 (EVar 62) ;;
  SSet 63 (EBin OXor u64 (EVar 28) (EBin OAnd u64 (EUn ONot u64 (EVar 29)) (EVar 30))) ;;
  SSet 53 (EVar 63) ;;
  SSet 64 (EBin OXor u64 (EVar 29) (EBin OAnd u64 (EUn ONot u64 (EVar 30)) (EVar 31))))) ;;
  (
  (
  SSet 54 (EVar 64) ;;
  SSet 65 (EBin OXor u64 (EVar 30) (EBin OAnd u64 (EUn ONot u64 (EVar 31)) (EVar 27))) ;;
  SSet 55 (EVar 65) ;;
  SSet 66 (EBin OXor u64 (EVar 31) (EBin OAnd u64 (EUn ONot u64 (EVar 27)) (EVar 28))) ;;
  SSet 56 (EVar 66) ;;
  SSet 5 (EBin OXor u64 (EVar 5) (EVar 60)) ;;
  SSet 32 (EBin OXor u64 (EBin OShl u64 (EVar 5) (EInt 28)) (EBin OShr u64 (EVar 5) (EInt 36))) ;;
  SSet 11 (EBin OXor u64 (EVar 11) (EVar 61)) ;;
  SSet 33 (EBin OXor u64 (EBin OShl u64 (EVar 11) (EInt 20)) (EBin OShr u64 (EVar 11) (EInt 44))) ;;
  SSet 12 (EBin OXor u64 (EVar 12) (EVar 57)) ;;
  SSet 34 (EBin OXor u64 (EBin OShl u64 (EVar 12) (EInt 3)) (EBin OShr u64 (EVar 12) (EInt 61))) ;;
  SSet 18 (EBin OXor u64 (EVar 18) (EVar 58)) ;;
  SSet 35 (EBin OXor u64 (EBin OShl u64 (EVar 18) (EInt 45)) (EBin OShr u64 (EVar 18) (EInt 19))) ;;
  SSet 24 (EBin OXor u64 (EVar 24) (EVar 59)) ;;
  SSet 36 (EBin OXor u64 (EBin OShl u64 (EVar 24) (EInt 61)) (EBin OShr u64 (EVar 24) (EInt 3))) ;;
  SSet 67 (EBin OXor u64 (EVar 32) (EBin OAnd u64 (EUn ONot u64 (EVar 33)) (EVar 34))) ;;
  SSet 52 (EBin OXor u64 (EVar 52) (EVar 67)) ;;
  SSet 68 (EBin OXor u64 (EVar 33) (EBin OAnd u64 (EUn ONot u64 (EVar 34)) (EVar 35))) ;;
  SSet 53 (EBin OXor u64 (EVar 53) (EVar 68)) ;;
  SSet 69 (EBin OXor u64 (EVar 34) (EBin OAnd u64 (EUn ONot u64 (EVar 35)) (EVar 36))) ;;
  SSet 54 (EBin OXor u64 (EVar 54) (EVar 69)) ;;
  SSet 70 (EBin OXor u64 (EVar 35) (EBin OAnd u64 (EUn ONot u64 (EVar 36)) (EVar 32))) ;;
  SSet 55 (EBin OXor u64 (EVar 55) (EVar 70)) ;;
  SSet 71 (EBin OXor u64 (EVar 36) (EBin OAnd u64 (EUn ONot u64 (EVar 32)) (EVar 33))) ;;
  SSet 56 (EBin OXor u64 (EVar 56) (EVar 71)) ;;
  SSet 3 (EBin OXor u64 (EVar 3) (EVar 58)) ;;
  SSet 37 (EBin OXor u64 (EBin OShl u64 (EVar 3) (EInt 1)) (EBin OShr u64 (EVar 3) (EInt 63))) ;;
  SSet 9 (EBin OXor u64 (EVar 9) (EVar 59)) ;;
  SSet 38 (EBin OXor u64 (EBin OShl u64 (EVar 9) (EInt 6)) (EBin OShr u64 (EVar 9) (EInt 58))) ;;
  SSet 15 (EBin OXor u64 (EVar 15) (EVar 60)) ;;
  SSet 39 (EBin OXor u64 (EBin OShl u64 (EVar 15) (EInt 25)) (EBin OShr u64 (EVar 15) (EInt 39))) ;;
  SSet 21 (EBin OXor u64 (EVar 21) (EVar 61)) ;;
  SSet 40 (EBin OXor u64 (EBin OShl u64 (EVar 21) (EInt 8)) (EBin OShr u64 (EVar 21) (EInt 56))) ;;
  SSet 22 (EBin OXor u64 (EVar 22) (EVar 57)) ;;
  SSet 41 (EBin OXor u64 (EBin OShl u64 (EVar 22) (EInt 18)) (EBin OShr u64 (EVar 22) (EInt 46))) ;;
  SSet 72 (EBin OXor u64 (EVar 37) (EBin OAnd u64 (EUn ONot u64 (EVar 38)) (EVar 39))) ;;
  SSet 52 (EBin OXor u64 (EVar 52) (EVar 72)) ;;
  SSet 73 (EBin OXor u64 (EVar 38) (EBin OAnd u64 (EUn ONot u64 (EVar 39)) (EVar 40))) ;;
  SSet 53 (EBin OXor u64 (EVar 53) (EVar 73)) ;;
  SSet 74 (EBin OXor u64 (EVar 39) (EBin OAnd u64 (EUn ONot u64 (EVar 40)) (EVar 41)))) ;;
  (
  (
  SSet 54 (EBin OXor u64 (EVar 54) (EVar 74)) ;;
  SSet 75 (EBin OXor u64 (EVar 40) (EBin OAnd u64 (EUn ONot u64 (EVar 41)) (EVar 37))) ;;
  SSet 55 (EBin OXor u64 (EVar 55) (EVar 75)) ;;
  SSet 76 (EBin OXor u64 (EVar 41) (EBin OAnd u64 (EUn ONot u64 (EVar 37)) (EVar 38))) ;;
  SSet 56 (EBin OXor u64 (EVar 56) (EVar 76)) ;;
  SSet 6 (EBin OXor u64 (EVar 6) (EVar 61)) ;;
  SSet 42 (EBin OXor u64 (EBin OShl u64 (EVar 6) (EInt 27)) (EBin OShr u64 (EVar 6) (EInt 37))) ;;
  SSet 7 (EBin OXor u64 (EVar 7) (EVar 57)) ;;
  SSet 43 (EBin OXor u64 (EBin OShl u64 (EVar 7) (EInt 36)) (EBin OShr u64 (EVar 7) (EInt 28))) ;;
  SSet 13 (EBin OXor u64 (EVar 13) (EVar 58)) ;;
  SSet 44 (EBin OXor u64 (EBin OShl u64 (EVar 13) (EInt 10)) (EBin OShr u64 (EVar 13) (EInt 54))) ;;
  SSet 19 (EBin OXor u64 (EVar 19) (EVar 59)) ;;
  SSet 45 (EBin OXor u64 (EBin OShl u64 (EVar 19) (EInt 15)) (EBin OShr u64 (EVar 19) (EInt 49))) ;;
  SSet 25 (EBin OXor u64 (EVar 25) (EVar 60)) ;;
  SSet 46 (EBin OXor u64 (EBin OShl u64 (EVar 25) (EInt 56)) (EBin OShr u64 (EVar 25) (EInt 8))) ;;
  SSet 77 (EBin OXor u64 (EVar 42) (EBin OAnd u64 (EUn ONot u64 (EVar 43)) (EVar 44))) ;;
  SSet 52 (EBin OXor u64 (EVar 52) (EVar 77)) ;;
  SSet 78 (EBin OXor u64 (EVar 43) (EBin OAnd u64 (EUn ONot u64 (EVar 44)) (EVar 45))) ;;
  SSet 53 (EBin OXor u64 (EVar 53) (EVar 78)) ;;
  SSet 79 (EBin OXor u64 (EVar 44) (EBin OAnd u64 (EUn ONot u64 (EVar 45)) (EVar 46)))) ;;
  (
  SSet 54 (EBin OXor u64 (EVar 54) (EVar 79)) ;;
  SSet 80 (EBin OXor u64 (EVar 45) (EBin OAnd u64 (EUn ONot u64 (EVar 46)) (EVar 42))) ;;
  SSet 55 (EBin OXor u64 (EVar 55) (EVar 80)) ;;
  SSet 81 (EBin OXor u64 (EVar 46) (EBin OAnd u64 (EUn ONot u64 (EVar 42)) (EVar 43))) ;;
  SSet 56 (EBin OXor u64 (EVar 56) (EVar 81)) ;;
  SSet 4 (EBin OXor u64 (EVar 4) (EVar 59)) ;;
  SSet 47 (EBin OXor u64 (EBin OShl u64 (EVar 4) (EInt 62)) (EBin OShr u64 (EVar 4) (EInt 2))) ;;
  SSet 10 (EBin OXor u64 (EVar 10) (EVar 60)) ;;
  SSet 48 (EBin OXor u64 (EBin OShl u64 (EVar 10) (EInt 55)) (EBin OShr u64 (EVar 10) (EInt 9))) ;;
  SSet 16 (EBin OXor u64 (EVar 16) (EVar 61)) ;;
  SSet 49 (EBin OXor u64 (EBin OShl u64 (EVar 16) (EInt 39)) (EBin OShr u64 (EVar 16) (EInt 25))) ;;
  SSet 17 (EBin OXor u64 (EVar 17) (EVar 57)) ;;
  SSet 50 (EBin OXor u64 (EBin OShl u64 (EVar 17) (EInt 41)) (EBin OShr u64 (EVar 17) (EInt 23))) ;;
  SSet 23 (EBin OXor u64 (EVar 23) (EVar 58)) ;;
  SSet 51 (EBin OXor u64 (EBin OShl u64 (EVar 23) (EInt 2)) (EBin OShr u64 (EVar 23) (EInt 62))) ;;
  SSet 82 (EBin OXor u64 (EVar 47) (EBin OAnd u64 (EUn ONot u64 (EVar 48)) (EVar 49))) ;;
  SSet 52 (EBin OXor u64 (EVar 52) (EVar 82)) ;;
  SSet 83 (EBin OXor u64 (EVar 48) (EBin OAnd u64 (EUn ONot u64 (EVar 49)) (EVar 50))) ;;
  SSet 53 (EBin OXor u64 (EVar 53) (EVar 83)) ;;
  SSet 84 (EBin OXor u64 (EVar 49) (EBin OAnd u64 (EUn ONot u64 (EVar 50)) (EVar 51))) ;;
  SSet 54 (EBin OXor u64 (EVar 54) (EVar 84))))))) ;;
  (
  (
  (
  (
  SSet 85 (EBin OXor u64 (EVar 50) (EBin OAnd u64 (EUn ONot u64 (EVar 51)) (EVar 47))) ;;
  SSet 55 (EBin OXor u64 (EVar 55) (EVar 85)) ;;
  SSet 86 (EBin OXor u64 (EVar 51) (EBin OAnd u64 (EUn ONot u64 (EVar 47)) (EVar 48))) ;;
  SSet 56 (EBin OXor u64 (EVar 56) (EVar 86)) ;;
  SSet 57 (EBin OXor u64 (EVar 56) (EBin OXor u64 (EBin OShl u64 (EVar 53) (EInt 1)) (EBin OShr u64 (EVar 53) (EInt 63)))) ;;
  SSet 58 (EBin OXor u64 (EVar 52) (EBin OXor u64 (EBin OShl u64 (EVar 54) (EInt 1)) (EBin OShr u64 (EVar 54) (EInt 63)))) ;;
  SSet 59 (EBin OXor u64 (EVar 53) (EBin OXor u64 (EBin OShl u64 (EVar 55) (EInt 1)) (EBin OShr u64 (EVar 55) (EInt 63)))) ;;
  SSet 60 (EBin OXor u64 (EVar 54) (EBin OXor u64 (EBin OShl u64 (EVar 56) (EInt 1)) (EBin OShr u64 (EVar 56) (EInt 63)))) ;;
  SSet 61 (EBin OXor u64 (EVar 55) (EBin OXor u64 (EBin OShl u64 (EVar 52) (EInt 1)) (EBin OShr u64 (EVar 52) (EInt 63)))) ;;
  SSet 62 (EBin OXor u64 (EVar 62) (EVar 57)) ;;
  SSet 27 (EVar 62) ;;
  SSet 68 (EBin OXor u64 (EVar 68) (EVar 58)) ;;
  SSet 28 (EBin OXor u64 (EBin OShl u64 (EVar 68) (EInt 44)) (EBin OShr u64 (EVar 68) (EInt 20))) ;;
  SSet 74 (EBin OXor u64 (EVar 74) (EVar 59)) ;;
  SSet 29 (EBin OXor u64 (EBin OShl u64 (EVar 74) (EInt 43)) (EBin OShr u64 (EVar 74) (EInt 21))) ;;
  SSet 80 (EBin OXor u64 (EVar 80) (EVar 60)) ;;
  SSet 30 (EBin OXor u64 (EBin OShl u64 (EVar 80) (EInt 21)) (EBin OShr u64 (EVar 80) (EInt 43))) ;;
  SSet 86 (EBin OXor u64 (EVar 86) (EVar 61)) ;;
  SSet 31 (EBin OXor u64 (EBin OShl u64 (EVar 86) (EInt 14)) (EBin OShr u64 (EVar 86) (EInt 50))) ;;
  SSet 2 (EBin OXor u64 (EVar 27) (EBin OAnd u64 (EUn ONot u64 (EVar 28)) (EVar 29))) ;;
  SSet 2 (EBin OXor u64 (EVar 2) (ELoad 8 (EAt (EGlob 1) 8 (EInt 21)))) ;;
  SSet 52 (EVar 2) ;;
  SSet 3 (EBin OXor u64 (EVar 28) (EBin OAnd u64 (EUn ONot u64 (EVar 29)) (EVar 30))) ;;
  SSet 53 (EVar 3) ;;
  SSet 4 (EBin OXor u64 (EVar 29) (EBin OAnd u64 (EUn ONot u64 (EVar 30)) (EVar 31))) ;;
  SSet 54 (EVar 4) ;;
  SSet 5 (EBin OXor u64 (EVar 30) (EBin OAnd u64 (EUn ONot u64 (EVar 31)) (EVar 27))) ;;
  SSet 55 (EVar 5) ;;
  SSet 6 (EBin OXor u64 (EVar 31) (EBin OAnd u64 (EUn ONot u64 (EVar 27)) (EVar 28))) ;;
  SSet 56 (EVar 6) ;;
  SSet 65 (EBin OXor u64 (EVar 65) (EVar 60)) ;;
  SSet 32 (EBin OXor u64 (EBin OShl u64 (EVar 65) (EInt 28)) (EBin OShr u64 (EVar 65) (EInt 36))) ;;
  SSet 71 (EBin OXor u64 (EVar 71) (EVar 61)) ;;
  SSet 33 (EBin OXor u64 (EBin OShl u64 (EVar 71) (EInt 20)) (EBin OShr u64 (EVar 71) (EInt 44))) ;;
  SSet 72 (EBin OXor u64 (EVar 72) (EVar 57)) ;;
  SSet 34 (EBin OXor u64 (EBin OShl u64 (EVar 72) (EInt 3)) (EBin OShr u64 (EVar 72) (EInt 61))) ;;
  SSet 78 (EBin OXor u64 (EVar 78) (EVar 58)) ;;
  SSet 35 (EBin OXor u64 (EBin OShl u64 (EVar 78) (EInt 45)) (EBin OShr u64 (EVar 78) (EInt 19))) ;;
  SSet 84 (EBin OXor u64 (EVar 84) (EVar 59)) ;;
  SSet 36 (EBin OXor u64 (EBin OShl u64 (EVar 84) (EInt 61)) (EBin OShr u64 (EVar 84) (EInt 3)))) ;;
  (
  SSet 7 (EBin OXor u64 (EVar 32) (EBin OAnd u64 (EUn ONot u64 (EVar 33)) (EVar 34))) ;;
  SSet 52 (EBin OXor u64 (EVar 52) (EVar 7)) ;;
  SSet 8 (EBin OXor u64 (EVar 33) (EBin OAnd u64 (EUn ONot u64 (EVar 34)) (EVar 35))) ;;
  SSet 53 (EBin OXor u64 (EVar 53) (EVar 8)) ;;
  SSet 9 (EBin OXor u64 (EVar 34) (EBin OAnd u64 (EUn ONot u64 (EVar 35)) (EVar 36))) ;;
  SSet 54 (EBin OXor u64 (EVar 54) (EVar 9)) ;;
  SSet 10 (EBin OXor u64 (EVar 35) (EBin OAnd u64 (EUn ONot u64 (EVar 36)) (EVar 32))) ;;
  SSet 55 (EBin OXor u64 (EVar 55) (EVar 10)) ;;
  SSet 11 (EBin OXor u64 (EVar 36) (EBin OAnd u64 (EUn ONot u64 (EVar 32)) (EVar 33))) ;;
  SSet 56 (EBin OXor u64 (EVar 56) (EVar 11)) ;;
  SSet 63 (EBin OXor u64 (EVar 63) (EVar 58)) ;;
  SSet 37 (EBin OXor u64 (EBin OShl u64 (EVar 63) (EInt 1)) (EBin OShr u64 (EVar 63) (EInt 63))) ;;
  SSet 69 (EBin OXor u64 (EVar 69) (EVar 59)) ;;
  SSet 38 (EBin OXor u64 (EBin OShl u64 (EVar 69) (EInt 6)) (EBin OShr u64 (EVar 69) (EInt 58))) ;;
  SSet 75 (EBin OXor u64 (EVar 75) (EVar 60)) ;;
  SSet 39 (EBin OXor u64 (EBin OShl u64 (EVar 75) (EInt 25)) (EBin OShr u64 (EVar 75) (EInt 39))) ;;
  SSet 81 (EBin OXor u64 (EVar 81) (EVar 61)) ;;
  SSet 40 (EBin OXor u64 (EBin OShl u64 (EVar 81) (EInt 8)) (EBin OShr u64 (EVar 81) (EInt 56))) ;;
  SSet 82 (EBin OXor u64 (EVar 82) (EVar 57)) ;;
  SSet 41 (EBin OXor u64 (EBin OShl u64 (EVar 82) (EInt 18)) (EBin OShr u64 (EVar 82) (EInt 46))) ;;
  SSet 12 (EBin OXor u64 (EVar 37) (EBin OAnd u64 (EUn ONot u64 (EVar 38)) (EVar 39))) ;;
  SSet 52 (EBin OXor u64 (EVar 52) (EVar 12)) ;;
  SSet 13 (EBin OXor u64 (EVar 38) (EBin OAnd u64 (EUn ONot u64 (EVar 39)) (EVar 40))) ;;
  SSet 53 (EBin OXor u64 (EVar 53) (EVar 13)) ;;
  SSet 14 (EBin OXor u64 (EVar 39) (EBin OAnd u64 (EUn ONot u64 (EVar 40)) (EVar 41))) ;;
  SSet 54 (EBin OXor u64 (EVar 54) (EVar 14)) ;;
  SSet 15 (EBin OXor u64 (EVar 40) (EBin OAnd u64 (EUn ONot u64 (EVar 41)) (EVar 37))) ;;
  SSet 55 (EBin OXor u64 (EVar 55) (EVar 15)) ;;
  SSet 16 (EBin OXor u64 (EVar 41) (EBin OAnd u64 (EUn ONot u64 (EVar 37)) (EVar 38))) ;;
  SSet 56 (EBin OXor u64 (EVar 56) (EVar 16)) ;;
  SSet 66 (EBin OXor u64 (EVar 66) (EVar 61)) ;;
  SSet 42 (EBin OXor u64 (EBin OShl u64 (EVar 66) (EInt 27)) (EBin OShr u64 (EVar 66) (EInt 37))) ;;
  SSet 67 (EBin OXor u64 (EVar 67) (EVar 57)) ;;
  SSet 43 (EBin OXor u64 (EBin OShl u64 (EVar 67) (EInt 36)) (EBin OShr u64 (EVar 67) (EInt 28))) ;;
  SSet 73 (EBin OXor u64 (EVar 73) (EVar 58)) ;;
  SSet 44 (EBin OXor u64 (EBin OShl u64 (EVar 73) (EInt 10)) (EBin OShr u64 (EVar 73) (EInt 54))) ;;
  SSet 79 (EBin OXor u64 (EVar 79) (EVar 59)) ;;
  SSet 45 (EBin OXor u64 (EBin OShl u64 (EVar 79) (EInt 15)) (EBin OShr u64 (EVar 79) (EInt 49))) ;;
  SSet 85 (EBin OXor u64 (EVar 85) (EVar 60)) ;;
  SSet 46 (EBin OXor u64 (EBin OShl u64 (EVar 85) (EInt 56)) (EBin OShr u64 (EVar 85) (EInt 8))))) ;;
  (
  (
  SSet 17 (EBin OXor u64 (EVar 42) (EBin OAnd u64 (EUn ONot u64 (EVar 43)) (EVar 44))) ;;
  SSet 52 (EBin OXor u64 (EVar 52) (EVar 17)) ;;
  SSet 18 (EBin OXor u64 (EVar 43) (EBin OAnd u64 (EUn ONot u64 (EVar 44)) (EVar 45))) ;;
  SSet 53 (EBin OXor u64 (EVar 53) (EVar 18)) ;;
  SSet 19 (EBin OXor u64 (EVar 44) (EBin OAnd u64 (EUn ONot u64 (EVar 45)) (EVar 46))) ;;
  SSet 54 (EBin OXor u64 (EVar 54) (EVar 19)) ;;
  SSet 20 (EBin OXor u64 (EVar 45) (EBin OAnd u64 (EUn ONot u64 (EVar 46)) (EVar 42))) ;;
  SSet 55 (EBin OXor u64 (EVar 55) (EVar 20)) ;;
  SSet 21 (EBin OXor u64 (EVar 46) (EBin OAnd u64 (EUn ONot u64 (EVar 42)) (EVar 43))) ;;
  SSet 56 (EBin OXor u64 (EVar 56) (EVar 21)) ;;
  SSet 64 (EBin OXor u64 (EVar 64) (EVar 59)) ;;
  SSet 47 (EBin OXor u64 (EBin OShl u64 (EVar 64) (EInt 62)) (EBin OShr u64 (EVar 64) (EInt 2))) ;;
  SSet 70 (EBin OXor u64 (EVar 70) (EVar 60)) ;;
  SSet 48 (EBin OXor u64 (EBin OShl u64 (EVar 70) (EInt 55)) (EBin OShr u64 (EVar 70) (EInt 9))) ;;
  SSet 76 (EBin OXor u64 (EVar 76) (EVar 61)) ;;
  SSet 49 (EBin OXor u64 (EBin OShl u64 (EVar 76) (EInt 39)) (EBin OShr u64 (EVar 76) (EInt 25))) ;;
  SSet 77 (EBin OXor u64 (EVar 77) (EVar 57)) ;;
  SSet 50 (EBin OXor u64 (EBin OShl u64 (EVar 77) (EInt 41)) (EBin OShr u64 (EVar 77) (EInt 23))) ;;
  SSet 83 (EBin OXor u64 (EVar 83) (EVar 58)) ;;
  SSet 51 (EBin OXor u64 (EBin OShl u64 (EVar 83) (EInt 2)) (EBin OShr u64 (EVar 83) (EInt 62))) ;;
  SSet 22 (EBin OXor u64 (EVar 47) (EBin OAnd u64 (EUn ONot u64 (EVar 48)) (EVar 49))) ;;
  SSet 52 (EBin OXor u64 (EVar 52) (EVar 22)) ;;
  SSet 23 (EBin OXor u64 (EVar 48) (EBin OAnd u64 (EUn ONot u64 (EVar 49)) (EVar 50))) ;;
  SSet 53 (EBin OXor u64 (EVar 53) (EVar 23)) ;;
  SSet 24 (EBin OXor u64 (EVar 49) (EBin OAnd u64 (EUn ONot u64 (EVar 50)) (EVar 51))) ;;
  SSet 54 (EBin OXor u64 (EVar 54) (EVar 24)) ;;
  SSet 25 (EBin OXor u64 (EVar 50) (EBin OAnd u64 (EUn ONot u64 (EVar 51)) (EVar 47))) ;;
  SSet 55 (EBin OXor u64 (EVar 55) (EVar 25)) ;;
  SSet 26 (EBin OXor u64 (EVar 51) (EBin OAnd u64 (EUn ONot u64 (EVar 47)) (EVar 48))) ;;
  SSet 56 (EBin OXor u64 (EVar 56) (EVar 26)) ;;
  SSet 57 (EBin OXor u64 (EVar 56) (EBin OXor u64 (EBin OShl u64 (EVar 53) (EInt 1)) (EBin OShr u64 (EVar 53) (EInt 63)))) ;;
  SSet 58 (EBin OXor u64 (EVar 52) (EBin OXor u64 (EBin OShl u64 (EVar 54) (EInt 1)) (EBin OShr u64 (EVar 54) (EInt 63)))) ;;
  SSet 59 (EBin OXor u64 (EVar 53) (EBin OXor u64 (EBin OShl u64 (EVar 55) (EInt 1)) (EBin OShr u64 (EVar 55) (EInt 63)))) ;;
  SSet 60 (EBin OXor u64 (EVar 54) (EBin OXor u64 (EBin OShl u64 (EVar 56) (EInt 1)) (EBin OShr u64 (EVar 56) (EInt 63)))) ;;
  SSet 61 (EBin OXor u64 (EVar 55) (EBin OXor u64 (EBin OShl u64 (EVar 52) (EInt 1)) (EBin OShr u64 (EVar 52) (EInt 63)))) ;;
  SSet 2 (EBin OXor u64 (EVar 2) (EVar 57)) ;;
  SSet 27 (EVar 2) ;;
  SSet 8 (EBin OXor u64 (EVar 8) (EVar 58)) ;;
  SSet 28 (EBin OXor u64 (EBin OShl u64 (EVar 8) (EInt 44)) (EBin OShr u64 (EVar 8) (EInt 20))) ;;
  SSet 14 (EBin OXor u64 (EVar 14) (EVar 59))) ;;
  (
  (
  SSet 29 (EBin OXor u64 (EBin OShl u64 (EVar 14) (EInt 43)) (EBin OShr u64 (EVar 14) (EInt 21))) ;;
  SSet 20 (EBin OXor u64 (EVar 20) (EVar 60)) ;;
  SSet 30 (EBin OXor u64 (EBin OShl u64 (EVar 20) (EInt 21)) (EBin OShr u64 (EVar 20) (EInt 43))) ;;
  SSet 26 (EBin OXor u64 (EVar 26) (EVar 61)) ;;
  SSet 31 (EBin OXor u64 (EBin OShl u64 (EVar 26) (EInt 14)) (EBin OShr u64 (EVar 26) (EInt 50))) ;;
  SSet 62 (EBin OXor u64 (EVar 27) (EBin OAnd u64 (EUn ONot u64 (EVar 28)) (EVar 29))) ;;
  SSet 62 (EBin OXor u64 (EVar 62) (ELoad 8 (EAt (EGlob 1) 8 (EInt 22)))) ;;
  SSet 52 (EVar 62) ;;
  SSet 63 (EBin OXor u64 (EVar 28) (EBin OAnd u64 (EUn ONot u64 (EVar 29)) (EVar 30))) ;;
  SSet 53 (EVar 63) ;;
  SSet 64 (EBin OXor u64 (EVar 29) (EBin OAnd u64 (EUn ONot u64 (EVar 30)) (EVar 31))) ;;
  SSet 54 (EVar 64) ;;
  SSet 65 (EBin OXor u64 (EVar 30) (EBin OAnd u64 (EUn ONot u64 (EVar 31)) (EVar 27))) ;;
  SSet 55 (EVar 65) ;;
  SSet 66 (EBin OXor u64 (EVar 31) (EBin OAnd u64 (EUn ONot u64 (EVar 27)) (EVar 28))) ;;
  SSet 56 (EVar 66) ;;
  SSet 5 (EBin OXor u64 (EVar 5) (EVar 60)) ;;
  SSet 32 (EBin OXor u64 (EBin OShl u64 (EVar 5) (EInt 28)) (EBin OShr u64 (EVar 5) (EInt 36))) ;;
  SSet 11 (EBin OXor u64 (EVar 11) (EVar 61)) ;;
  SSet 33 (EBin OXor u64 (EBin OShl u64 (EVar 11) (EInt 20)) (EBin OShr u64 (EVar 11) (EInt 44)))) ;;
  (
  SSet 12 (EBin OXor u64 (EVar 12) (EVar 57)) ;;
  SSet 34 (EBin OXor u64 (EBin OShl u64 (EVar 12) (EInt 3)) (EBin OShr u64 (EVar 12) (EInt 61))) ;;
  SSet 18 (EBin OXor u64 (EVar 18) (EVar 58)) ;;
  SSet 35 (EBin OXor u64 (EBin OShl u64 (EVar 18) (EInt 45)) (EBin OShr u64 (EVar 18) (EInt 19))) ;;
  SSet 24 (EBin OXor u64 (EVar 24) (EVar 59)) ;;
  SSet 36 (EBin OXor u64 (EBin OShl u64 (EVar 24) (EInt 61)) (EBin OShr u64 (EVar 24) (EInt 3))) ;;
  SSet 67 (EBin OXor u64 (EVar 32) (EBin OAnd u64 (EUn ONot u64 (EVar 33)) (EVar 34))) ;;
  SSet 52 (EBin OXor u64 (EVar 52) (EVar 67)) ;;
  SSet 68 (EBin OXor u64 (EVar 33) (EBin OAnd u64 (EUn ONot u64 (EVar 34)) (EVar 35))) ;;
  SSet 53 (EBin OXor u64 (EVar 53) (EVar 68)) ;;
  SSet 69 (EBin OXor u64 (EVar 34) (EBin OAnd u64 (EUn ONot u64 (EVar 35)) (EVar 36))) ;;
  SSet 54 (EBin OXor u64 (EVar 54) (EVar 69)) ;;
  SSet 70 (EBin OXor u64 (EVar 35) (EBin OAnd u64 (EUn ONot u64 (EVar 36)) (EVar 32))) ;;
  SSet 55 (EBin OXor u64 (EVar 55) (EVar 70)) ;;
  SSet 71 (EBin OXor u64 (EVar 36) (EBin OAnd u64 (EUn ONot u64 (EVar 32)) (EVar 33))) ;;
  SSet 56 (EBin OXor u64 (EVar 56) (EVar 71)) ;;
  SSet 3 (EBin OXor u64 (EVar 3) (EVar 58)) ;;
  SSet 37 (EBin OXor u64 (EBin OShl u64 (EVar 3) (EInt 1)) (EBin OShr u64 (EVar 3) (EInt 63))) ;;
  SSet 9 (EBin OXor u64 (EVar 9) (EVar 59)) ;;
  SSet 38 (EBin OXor u64 (EBin OShl u64 (EVar 9) (EInt 6)) (EBin OShr u64 (EVar 9) (EInt 58))) ;;
  SSet 15 (EBin OXor u64 (EVar 15) (EVar 60)))))) ;;
  (
  (
  (
  SSet 39 (EBin OXor u64 (EBin OShl u64 (EVar 15) (EInt 25)) (EBin OShr u64 (EVar 15) (EInt 39))) ;;
  SSet 21 (EBin OXor u64 (EVar 21) (EVar 61)) ;;
  SSet 40 (EBin OXor u64 (EBin OShl u64 (EVar 21) (EInt 8)) (EBin OShr u64 (EVar 21) (EInt 56))) ;;
  SSet 22 (EBin OXor u64 (EVar 22) (EVar 57)) ;;
  SSet 41 (EBin OXor u64 (EBin OShl u64 (EVar 22) (EInt 18)) (EBin OShr u64 (EVar 22) (EInt 46))) ;;
  SSet 72 (EBin OXor u64 (EVar 37) (EBin OAnd u64 (EUn ONot u64 (EVar 38)) (EVar 39))) ;;
  SSet 52 (EBin OXor u64 (EVar 52) (EVar 72)) ;;
  SSet 73 (EBin OXor u64 (EVar 38) (EBin OAnd u64 (EUn ONot u64 (EVar 39)) (EVar 40))) ;;
  SSet 53 (EBin OXor u64 (EVar 53) (EVar 73)) ;;
  SSet 74 (EBin OXor u64 (EVar 39) (EBin OAnd u64 (EUn ONot u64 (EVar 40)) (EVar 41))) ;;
  SSet 54 (EBin OXor u64 (EVar 54) (EVar 74)) ;;
  SSet 75 (EBin OXor u64 (EVar 40) (EBin OAnd u64 (EUn ONot u64 (EVar 41)) (EVar 37))) ;;
  SSet 55 (EBin OXor u64 (EVar 55) (EVar 75)) ;;
  SSet 76 (EBin OXor u64 (EVar 41) (EBin OAnd u64 (EUn ONot u64 (EVar 37)) (EVar 38))) ;;
  SSet 56 (EBin OXor u64 (EVar 56) (EVar 76)) ;;
  SSet 6 (EBin OXor u64 (EVar 6) (EVar 61)) ;;
  SSet 42 (EBin OXor u64 (EBin OShl u64 (EVar 6) (EInt 27)) (EBin OShr u64 (EVar 6) (EInt 37))) ;;
  SSet 7 (EBin OXor u64 (EVar 7) (EVar 57)) ;;
  SSet 43 (EBin OXor u64 (EBin OShl u64 (EVar 7) (EInt 36)) (EBin OShr u64 (EVar 7) (EInt 28))) ;;
  SSet 13 (EBin OXor u64 (EVar 13) (EVar 58)) ;;
  SSet 44 (EBin OXor u64 (EBin OShl u64 (EVar 13) (EInt 10)) (EBin OShr u64 (EVar 13) (EInt 54))) ;;
  SSet 19 (EBin OXor u64 (EVar 19) (EVar 59)) ;;
  SSet 45 (EBin OXor u64 (EBin OShl u64 (EVar 19) (EInt 15)) (EBin OShr u64 (EVar 19) (EInt 49))) ;;
  SSet 25 (EBin OXor u64 (EVar 25) (EVar 60)) ;;
  SSet 46 (EBin OXor u64 (EBin OShl u64 (EVar 25) (EInt 56)) (EBin OShr u64 (EVar 25) (EInt 8))) ;;
  SSet 77 (EBin OXor u64 (EVar 42) (EBin OAnd u64 (EUn ONot u64 (EVar 43)) (EVar 44))) ;;
  SSet 52 (EBin OXor u64 (EVar 52) (EVar 77)) ;;
  SSet 78 (EBin OXor u64 (EVar 43) (EBin OAnd u64 (EUn ONot u64 (EVar 44)) (EVar 45))) ;;
  SSet 53 (EBin OXor u64 (EVar 53) (EVar 78)) ;;
  SSet 79 (EBin OXor u64 (EVar 44) (EBin OAnd u64 (EUn ONot u64 (EVar 45)) (EVar 46))) ;;
  SSet 54 (EBin OXor u64 (EVar 54) (EVar 79)) ;;
  SSet 80 (EBin OXor u64 (EVar 45) (EBin OAnd u64 (EUn ONot u64 (EVar 46)) (EVar 42))) ;;
  SSet 55 (EBin OXor u64 (EVar 55) (EVar 80)) ;;
  SSet 81 (EBin OXor u64 (EVar 46) (EBin OAnd u64 (EUn ONot u64 (EVar 42)) (EVar 43))) ;;
  SSet 56 (EBin OXor u64 (EVar 56) (EVar 81)) ;;
  SSet 4 (EBin OXor u64 (EVar 4) (EVar 59)) ;;
  SSet 47 (EBin OXor u64 (EBin OShl u64 (EVar 4) (EInt 62)) (EBin OShr u64 (EVar 4) (EInt 2))) ;;
  SSet 10 (EBin OXor u64 (EVar 10) (EVar 60)) ;;
  SSet 48 (EBin OXor u64 (EBin OShl u64 (EVar 10) (EInt 55)) (EBin OShr u64 (EVar 10) (EInt 9))) ;;
  SSet 16 (EBin OXor u64 (EVar 16) (EVar 61))) ;;
  (
  SSet 49 (EBin OXor u64 (EBin OShl u64 (EVar 16) (EInt 39)) (EBin OShr u64 (EVar 16) (EInt 25))) ;;
  SSet 17 (EBin OXor u64 (EVar 17) (EVar 57)) ;;
  SSet 50 (EBin OXor u64 (EBin OShl u64 (EVar 17) (EInt 41)) (EBin OShr u64 (EVar 17) (EInt 23))) ;;
  SSet 23 (EBin OXor u64 (EVar 23) (EVar 58)) ;;
  SSet 51 (EBin OXor u64 (EBin OShl u64 (EVar 23) (EInt 2)) (EBin OShr u64 (EVar 23) (EInt 62))) ;;
  SSet 82 (EBin OXor u64 (EVar 47) (EBin OAnd u64 (EUn ONot u64 (EVar 48)) (EVar 49))) ;;
  SSet 52 (EBin OXor u64 (EVar 52) (EVar 82)) ;;
  SSet 83 (EBin OXor u64 (EVar 48) (EBin OAnd u64 (EUn ONot u64 (EVar 49)) (EVar 50))) ;;
  SSet 53 (EBin OXor u64 (EVar 53) (EVar 83)) ;;
  SSet 84 (EBin OXor u64 (EVar 49) (EBin OAnd u64 (EUn ONot u64 (EVar 50)) (EVar 51))) ;;
  SSet 54 (EBin OXor u64 (EVar 54) (EVar 84)) ;;
  SSet 85 (EBin OXor u64 (EVar 50) (EBin OAnd u64 (EUn ONot u64 (EVar 51)) (EVar 47))) ;;
  SSet 55 (EBin OXor u64 (EVar 55) (EVar 85)) ;;
  SSet 86 (EBin OXor u64 (EVar 51) (EBin OAnd u64 (EUn ONot u64 (EVar 47)) (EVar 48))) ;;
  SSet 56 (EBin OXor u64 (EVar 56) (EVar 86)) ;;
  SSet 57 (EBin OXor u64 (EVar 56) (EBin OXor u64 (EBin OShl u64 (EVar 53) (EInt 1)) (EBin OShr u64 (EVar 53) (EInt 63)))) ;;
  SSet 58 (EBin OXor u64 (EVar 52) (EBin OXor u64 (EBin OShl u64 (EVar 54) (EInt 1)) (EBin OShr u64 (EVar 54) (EInt 63)))) ;;
  SSet 59 (EBin OXor u64 (EVar 53) (EBin OXor u64 (EBin OShl u64 (EVar 55) (EInt 1)) (EBin OShr u64 (EVar 55) (EInt 63)))) ;;
  SSet 60 (EBin OXor u64 (EVar 54) (EBin OXor u64 (EBin OShl u64 (EVar 56) (EInt 1)) (EBin OShr u64 (EVar 56) (EInt 63)))) ;;
  SSet 61 (EBin OXor u64 (EVar 55) (EBin OXor u64 (EBin OShl u64 (EVar 52) (EInt 1)) (EBin OShr u64 (EVar 52) (EInt 63)))) ;;
  SSet 62 (EBin OXor u64 (EVar 62) (EVar 57)) ;;
  SSet 27 (EVar 62) ;;
  SSet 68 (EBin OXor u64 (EVar 68) (EVar 58)) ;;
  SSet 28 (EBin OXor u64 (EBin OShl u64 (EVar 68) (EInt 44)) (EBin OShr u64 (EVar 68) (EInt 20))) ;;
  SSet 74 (EBin OXor u64 (EVar 74) (EVar 59)) ;;
  SSet 29 (EBin OXor u64 (EBin OShl u64 (EVar 74) (EInt 43)) (EBin OShr u64 (EVar 74) (EInt 21))) ;;
  SSet 80 (EBin OXor u64 (EVar 80) (EVar 60)) ;;
  SSet 30 (EBin OXor u64 (EBin OShl u64 (EVar 80) (EInt 21)) (EBin OShr u64 (EVar 80) (EInt 43))) ;;
  SSet 86 (EBin OXor u64 (EVar 86) (EVar 61)) ;;
  SSet 31 (EBin OXor u64 (EBin OShl u64 (EVar 86) (EInt 14)) (EBin OShr u64 (EVar 86) (EInt 50))) ;;
  SSet 2 (EBin OXor u64 (EVar 27) (EBin OAnd u64 (EUn ONot u64 (EVar 28)) (EVar 29))) ;;
  SSet 2 (EBin OXor u64 (EVar 2) (ELoad 8 (EAt (EGlob 1) 8 (EInt 23)))) ;;
  SSet 3 (EBin OXor u64 (EVar 28) (EBin OAnd u64 (EUn ONot u64 (EVar 29)) (EVar 30))) ;;
  SSet 4 (EBin OXor u64 (EVar 29) (EBin OAnd u64 (EUn ONot u64 (EVar 30)) (EVar 31))) ;;
  SSet 5 (EBin OXor u64 (EVar 30) (EBin OAnd u64 (EUn ONot u64 (EVar 31)) (EVar 27))) ;;
  SSet 6 (EBin OXor u64 (EVar 31) (EBin OAnd u64 (EUn ONot u64 (EVar 27)) (EVar 28))) ;;
  SSet 65 (EBin OXor u64 (EVar 65) (EVar 60)) ;;
  SSet 32 (EBin OXor u64 (EBin OShl u64 (EVar 65) (EInt 28)) (EBin OShr u64 (EVar 65) (EInt 36))) ;;
  SSet 71 (EBin OXor u64 (EVar 71) (EVar 61)) ;;
  SSet 33 (EBin OXor u64 (EBin OShl u64 (EVar 71) (EInt 20)) (EBin OShr u64 (EVar 71) (EInt 44))))) ;;
  (
  (
  SSet 72 (EBin OXor u64 (EVar 72) (EVar 57)) ;;
  SSet 34 (EBin OXor u64 (EBin OShl u64 (EVar 72) (EInt 3)) (EBin OShr u64 (EVar 72) (EInt 61))) ;;
  SSet 78 (EBin OXor u64 (EVar 78) (EVar 58)) ;;
  SSet 35 (EBin OXor u64 (EBin OShl u64 (EVar 78) (EInt 45)) (EBin OShr u64 (EVar 78) (EInt 19))) ;;
  SSet 84 (EBin OXor u64 (EVar 84) (EVar 59)) ;;
  SSet 36 (EBin OXor u64 (EBin OShl u64 (EVar 84) (EInt 61)) (EBin OShr u64 (EVar 84) (EInt 3))) ;;
  SSet 7 (EBin OXor u64 (EVar 32) (EBin OAnd u64 (EUn ONot u64 (EVar 33)) (EVar 34))) ;;
  SSet 8 (EBin OXor u64 (EVar 33) (EBin OAnd u64 (EUn ONot u64 (EVar 34)) (EVar 35))) ;;
  SSet 9 (EBin OXor u64 (EVar 34) (EBin OAnd u64 (EUn ONot u64 (EVar 35)) (EVar 36))) ;;
  SSet 10 (EBin OXor u64 (EVar 35) (EBin OAnd u64 (EUn ONot u64 (EVar 36)) (EVar 32))) ;;
  SSet 11 (EBin OXor u64 (EVar 36) (EBin OAnd u64 (EUn ONot u64 (EVar 32)) (EVar 33))) ;;
  SSet 63 (EBin OXor u64 (EVar 63) (EVar 58)) ;;
  SSet 37 (EBin OXor u64 (EBin OShl u64 (EVar 63) (EInt 1)) (EBin OShr u64 (EVar 63) (EInt 63))) ;;
  SSet 69 (EBin OXor u64 (EVar 69) (EVar 59)) ;;
  SSet 38 (EBin OXor u64 (EBin OShl u64 (EVar 69) (EInt 6)) (EBin OShr u64 (EVar 69) (EInt 58))) ;;
  SSet 75 (EBin OXor u64 (EVar 75) (EVar 60)) ;;
  SSet 39 (EBin OXor u64 (EBin OShl u64 (EVar 75) (EInt 25)) (EBin OShr u64 (EVar 75) (EInt 39))) ;;
  SSet 81 (EBin OXor u64 (EVar 81) (EVar 61)) ;;
  SSet 40 (EBin OXor u64 (EBin OShl u64 (EVar 81) (EInt 8)) (EBin OShr u64 (EVar 81) (EInt 56))) ;;
  SSet 82 (EBin OXor u64 (EVar 82) (EVar 57)) ;;
  SSet 41 (EBin OXor u64 (EBin OShl u64 (EVar 82) (EInt 18)) (EBin OShr u64 (EVar 82) (EInt 46))) ;;
  SSet 12 (EBin OXor u64 (EVar 37) (EBin OAnd u64 (EUn ONot u64 (EVar 38)) (EVar 39))) ;;
  SSet 13 (EBin OXor u64 (EVar 38) (EBin OAnd u64 (EUn ONot u64 (EVar 39)) (EVar 40))) ;;
  SSet 14 (EBin OXor u64 (EVar 39) (EBin OAnd u64 (EUn ONot u64 (EVar 40)) (EVar 41))) ;;
  SSet 15 (EBin OXor u64 (EVar 40) (EBin OAnd u64 (EUn ONot u64 (EVar 41)) (EVar 37))) ;;
  SSet 16 (EBin OXor u64 (EVar 41) (EBin OAnd u64 (EUn ONot u64 (EVar 37)) (EVar 38))) ;;
  SSet 66 (EBin OXor u64 (EVar 66) (EVar 61)) ;;
  SSet 42 (EBin OXor u64 (EBin OShl u64 (EVar 66) (EInt 27)) (EBin OShr u64 (EVar 66) (EInt 37))) ;;
  SSet 67 (EBin OXor u64 (EVar 67) (EVar 57)) ;;
  SSet 43 (EBin OXor u64 (EBin OShl u64 (EVar 67) (EInt 36)) (EBin OShr u64 (EVar 67) (EInt 28))) ;;
  SSet 73 (EBin OXor u64 (EVar 73) (EVar 58)) ;;
  SSet 44 (EBin OXor u64 (EBin OShl u64 (EVar 73) (EInt 10)) (EBin OShr u64 (EVar 73) (EInt 54))) ;;
  SSet 79 (EBin OXor u64 (EVar 79) (EVar 59)) ;;
  SSet 45 (EBin OXor u64 (EBin OShl u64 (EVar 79) (EInt 15)) (EBin OShr u64 (EVar 79) (EInt 49))) ;;
  SSet 85 (EBin OXor u64 (EVar 85) (EVar 60)) ;;
  SSet 46 (EBin OXor u64 (EBin OShl u64 (EVar 85) (EInt 56)) (EBin OShr u64 (EVar 85) (EInt 8))) ;;
  SSet 17 (EBin OXor u64 (EVar 42) (EBin OAnd u64 (EUn ONot u64 (EVar 43)) (EVar 44))) ;;
  SSet 18 (EBin OXor u64 (EVar 43) (EBin OAnd u64 (EUn ONot u64 (EVar 44)) (EVar 45))) ;;
  SSet 19 (EBin OXor u64 (EVar 44) (EBin OAnd u64 (EUn ONot u64 (EVar 45)) (EVar 46))) ;;
  SSet 20 (EBin OXor u64 (EVar 45) (EBin OAnd u64 (EUn ONot u64 (EVar 46)) (EVar 42)))) ;;
  (
  (
  SSet 21 (EBin OXor u64 (EVar 46) (EBin OAnd u64 (EUn ONot u64 (EVar 42)) (EVar 43))) ;;
  SSet 64 (EBin OXor u64 (EVar 64) (EVar 59)) ;;
  SSet 47 (EBin OXor u64 (EBin OShl u64 (EVar 64) (EInt 62)) (EBin OShr u64 (EVar 64) (EInt 2))) ;;
  SSet 70 (EBin OXor u64 (EVar 70) (EVar 60)) ;;
  SSet 48 (EBin OXor u64 (EBin OShl u64 (EVar 70) (EInt 55)) (EBin OShr u64 (EVar 70) (EInt 9))) ;;
  SSet 76 (EBin OXor u64 (EVar 76) (EVar 61)) ;;
  SSet 49 (EBin OXor u64 (EBin OShl u64 (EVar 76) (EInt 39)) (EBin OShr u64 (EVar 76) (EInt 25))) ;;
  SSet 77 (EBin OXor u64 (EVar 77) (EVar 57)) ;;
  SSet 50 (EBin OXor u64 (EBin OShl u64 (EVar 77) (EInt 41)) (EBin OShr u64 (EVar 77) (EInt 23))) ;;
  SSet 83 (EBin OXor u64 (EVar 83) (EVar 58)) ;;
  SSet 51 (EBin OXor u64 (EBin OShl u64 (EVar 83) (EInt 2)) (EBin OShr u64 (EVar 83) (EInt 62))) ;;
  SSet 22 (EBin OXor u64 (EVar 47) (EBin OAnd u64 (EUn ONot u64 (EVar 48)) (EVar 49))) ;;
  SSet 23 (EBin OXor u64 (EVar 48) (EBin OAnd u64 (EUn ONot u64 (EVar 49)) (EVar 50))) ;;
  SSet 24 (EBin OXor u64 (EVar 49) (EBin OAnd u64 (EUn ONot u64 (EVar 50)) (EVar 51))) ;;
  SSet 25 (EBin OXor u64 (EVar 50) (EBin OAnd u64 (EUn ONot u64 (EVar 51)) (EVar 47))) ;;
  SSet 26 (EBin OXor u64 (EVar 51) (EBin OAnd u64 (EUn ONot u64 (EVar 47)) (EVar 48))) ;;
  SStore 8 (EVar 87) (EVar 2) ;;
  SStore 8 (EAt (EVar 87) 8 (EInt 1)) (EVar 3) ;;
  SStore 8 (EAt (EVar 87) 8 (EInt 2)) (EVar 4) ;;
  SStore 8 (EAt (EVar 87) 8 (EInt 3)) (EVar 5)) ;;
  (
  SStore 8 (EAt (EVar 87) 8 (EInt 4)) (EVar 6) ;;
  SStore 8 (EAt (EVar 87) 8 (EInt 5)) (EVar 7) ;;
  SStore 8 (EAt (EVar 87) 8 (EInt 6)) (EVar 8) ;;
  SStore 8 (EAt (EVar 87) 8 (EInt 7)) (EVar 9) ;;
  SStore 8 (EAt (EVar 87) 8 (EInt 8)) (EVar 10) ;;
  SStore 8 (EAt (EVar 87) 8 (EInt 9)) (EVar 11) ;;
  SStore 8 (EAt (EVar 87) 8 (EInt 10)) (EVar 12) ;;
  SStore 8 (EAt (EVar 87) 8 (EInt 11)) (EVar 13) ;;
  SStore 8 (EAt (EVar 87) 8 (EInt 12)) (EVar 14) ;;
  SStore 8 (EAt (EVar 87) 8 (EInt 13)) (EVar 15) ;;
  SStore 8 (EAt (EVar 87) 8 (EInt 14)) (EVar 16) ;;
  SStore 8 (EAt (EVar 87) 8 (EInt 15)) (EVar 17) ;;
  SStore 8 (EAt (EVar 87) 8 (EInt 16)) (EVar 18) ;;
  SStore 8 (EAt (EVar 87) 8 (EInt 17)) (EVar 19) ;;
  SStore 8 (EAt (EVar 87) 8 (EInt 18)) (EVar 20) ;;
  SStore 8 (EAt (EVar 87) 8 (EInt 19)) (EVar 21) ;;
  SStore 8 (EAt (EVar 87) 8 (EInt 20)) (EVar 22) ;;
  SStore 8 (EAt (EVar 87) 8 (EInt 21)) (EVar 23) ;;
  SStore 8 (EAt (EVar 87) 8 (EInt 22)) (EVar 24) ;;
  SStore 8 (EAt (EVar 87) 8 (EInt 23)) (EVar 25) ;;
  SStore 8 (EAt (EVar 87) 8 (EInt 24)) (EVar 26))))))))).

(** sha3/opt64/KeccakP-1600-opt64.c:372-393, KeccakP1600_ExtractBytesInLane.
    Variables: 1 = state, 2 = lanePosition, 3 = data, 4 = offset, 5 = length, 6 = lane, 7 = lane1. *)
Definition c_KeccakP1600_ExtractBytesInLane : func := Func [1%positive; 2%positive; 3%positive; 4%positive; 5%positive] (
  SSet 6 (ELoad 8 (EAt (EVar 1) 8 (EVar 2))) ;;
  SAlloc 7 (EInt 8) ;;
  SStore 8 (EVar 7) (EVar 6) ;;
  SCopy (EVar 3) (EAt (EVar 7) 1 (EVar 4)) (EVar 5)).

(** sha3/opt64/KeccakP-1600-opt64.c:407-437, KeccakP1600_ExtractLanes.
    Variables: 1 = state, 2 = data, 3 = laneCount. *)
Definition c_KeccakP1600_ExtractLanes : func := Func [1%positive; 2%positive; 3%positive] (
  SCopy (EVar 2) (EVar 1) (EBin OMul u32 (EVar 3) (EInt 8))).

(** sha3/opt64/KeccakP-1600-opt64.c:441-444, KeccakP1600_ExtractBytes.
    Variables: 1 = state, 2 = data, 3 = offset, 4 = length, 5 = _sizeLeft, 6 = _lanePosition, 7 = _offsetInLane, 8 = _curData, 9 = _bytesInLane. *)
Definition c_KeccakP1600_ExtractBytes : func := Func [1%positive; 2%positive; 3%positive; 4%positive] (
  SIf (EBin OEq s32 (EVar 3) (EInt 0))
    (
    SCall None f_KeccakP1600_ExtractLanes [(EVar 1); (EVar 2); (EDiv ODiv u32 (EVar 4) (EInt 8))] ;;
    SCall None f_KeccakP1600_ExtractBytesInLane [(EVar 1); (EDiv ODiv u32 (EVar 4) (EInt 8)); (EAt (EVar 2) 1 (EBin OMul u32 (EDiv ODiv u32 (EVar 4) (EInt 8)) (EInt 8))); (EInt 0); (EDiv OMod u32 (EVar 4) (EInt 8))])
    (
    SSet 5 (EVar 4) ;;
    SSet 6 (EDiv ODiv u32 (EVar 3) (EInt 8)) ;;
    SSet 7 (EDiv OMod u32 (EVar 3) (EInt 8)) ;;
    SSet 8 (EVar 2) ;;
    SLoop (EBin OGt s32 (EVar 5) (EInt 0))
      SSkip
      (
      SSet 9 (EBin OSub u32 (EInt 8) (EVar 7)) ;;
      SIf (EBin OGt s32 (EVar 9) (EVar 5))
        (
        SSet 9 (EVar 5))
        SSkip ;;
      SCall None f_KeccakP1600_ExtractBytesInLane [(EVar 1); (EVar 6); (EVar 8); (EVar 7); (EVar 9)] ;;
      SSet 5 (EBin OSub u32 (EVar 5) (EVar 9)) ;;
      SSet 6 (EBin OAdd u32 (EVar 6) (EInt 1)) ;;
      SSet 7 (EInt 0) ;;
      SSet 8 (EAt (EVar 8) 1 (EVar 9))))).

(** sha3/opt64/KeccakP-1600-opt64.c:523-542, KeccakF1600_FastLoop_Absorb.
    Variables: 1 = state, 2 = laneCount, 3 = data, 4 = dataByteLen, 5 = originalDataByteLen, 6 = Aba, 7 = Abe, 8 = Abi, 9 = Abo, 10 = Abu, 11 = Aga, 12 = Age, 13 = Agi, 14 = Ago, 15 = Agu, 16 = Aka, 17 = Ake, 18 = Aki, 19 = Ako, 20 = Aku, 21 = Ama, 22 = Ame, 23 = Ami, 24 = Amo, 25 = Amu, 26 = Asa, 27 = Ase, 28 = Asi, 29 = Aso, 30 = Asu, 31 = Bba, 32 = Bbe, 33 = Bbi, 34 = Bbo, 35 = Bbu, 36 = Bga, 37 = Bge, 38 = Bgi, 39 = Bgo, 40 = Bgu, 41 = Bka, 42 = Bke, 43 = Bki, 44 = Bko, 45 = Bku, 46 = Bma, 47 = Bme, 48 = Bmi, 49 = Bmo, 50 = Bmu, 51 = Bsa, 52 = Bse, 53 = Bsi, 54 = Bso, 55 = Bsu, 56 = Ca, 57 = Ce, 58 = Ci, 59 = Co, 60 = Cu, 61 = Da, 62 = De, 63 = Di, 64 = Do, 65 = Du, 66 = Eba, 67 = Ebe, 68 = Ebi, 69 = Ebo, 70 = Ebu, 71 = Ega, 72 = Ege, 73 = Egi, 74 = Ego, 75 = Egu, 76 = Eka, 77 = Eke, 78 = Eki, 79 = Eko, 80 = Eku, 81 = Ema, 82 = Eme, 83 = Emi, 84 = Emo, 85 = Emu, 86 = Esa, 87 = Ese, 88 = Esi, 89 = Eso, 90 = Esu, 91 = stateAsLanes, 92 = inDataAsLanes. *)
Definition c_KeccakF1600_FastLoop_Absorb : func := Func [1%positive; 2%positive; 3%positive; 4%positive] (
  (
  SSet 5 (EVar 4) ;;
  SSet 91 (EVar 1) ;;
  SSet 92 (EVar 3) ;;
  SSet 6 (ELoad 8 (EVar 91)) ;;
  SSet 7 (ELoad 8 (EAt (EVar 91) 8 (EInt 1))) ;;
  SSet 8 (ELoad 8 (EAt (EVar 91) 8 (EInt 2))) ;;
  SSet 9 (ELoad 8 (EAt (EVar 91) 8 (EInt 3))) ;;
  SSet 10 (ELoad 8 (EAt (EVar 91) 8 (EInt 4))) ;;
  SSet 11 (ELoad 8 (EAt (EVar 91) 8 (EInt 5))) ;;
  SSet 12 (ELoad 8 (EAt (EVar 91) 8 (EInt 6))) ;;
  SSet 13 (ELoad 8 (EAt (EVar 91) 8 (EInt 7))) ;;
  SSet 14 (ELoad 8 (EAt (EVar 91) 8 (EInt 8))) ;;
  SSet 15 (ELoad 8 (EAt (EVar 91) 8 (EInt 9))) ;;
  SSet 16 (ELoad 8 (EAt (EVar 91) 8 (EInt 10))) ;;
  SSet 17 (ELoad 8 (EAt (EVar 91) 8 (EInt 11))) ;;
  SSet 18 (ELoad 8 (EAt (EVar 91) 8 (EInt 12))) ;;
  SSet 19 (ELoad 8 (EAt (EVar 91) 8 (EInt 13))) ;;
  SSet 20 (ELoad 8 (EAt (EVar 91) 8 (EInt 14))) ;;
  SSet 21 (ELoad 8 (EAt (EVar 91) 8 (EInt 15))) ;;
  SSet 22 (ELoad 8 (EAt (EVar 91) 8 (EInt 16))) ;;
  SSet 23 (ELoad 8 (EAt (EVar 91) 8 (EInt 17))) ;;
  SSet 24 (ELoad 8 (EAt (EVar 91) 8 (EInt 18))) ;;
  SSet 25 (ELoad 8 (EAt (EVar 91) 8 (EInt 19))) ;;
  SSet 26 (ELoad 8 (EAt (EVar 91) 8 (EInt 20))) ;;
  SSet 27 (ELoad 8 (EAt (EVar 91) 8 (EInt 21))) ;;
  SSet 28 (ELoad 8 (EAt (EVar 91) 8 (EInt 22))) ;;
  SSet 29 (ELoad 8 (EAt (EVar 91) 8 (EInt 23)))) ;;
  (
  SSet 30 (ELoad 8 (EAt (EVar 91) 8 (EInt 24))) ;;
  SLoop (EBin OGe s32 (EVar 4) (EBin OMul u32 (EVar 2) (EInt 8)))
    SSkip
    (
    (
    (
    (
    (
    (
    (
    SIf (EBin OEq s32 (EVar 2) (EInt 21))
      (
      SSet 6 (EBin OXor u64 (EVar 6) (ELoad 8 (EVar 92))) ;;
      SSet 7 (EBin OXor u64 (EVar 7) (ELoad 8 (EAt (EVar 92) 8 (EInt 1)))) ;;
      SSet 8 (EBin OXor u64 (EVar 8) (ELoad 8 (EAt (EVar 92) 8 (EInt 2)))) ;;
      SSet 9 (EBin OXor u64 (EVar 9) (ELoad 8 (EAt (EVar 92) 8 (EInt 3)))) ;;
      SSet 10 (EBin OXor u64 (EVar 10) (ELoad 8 (EAt (EVar 92) 8 (EInt 4)))) ;;
      SSet 11 (EBin OXor u64 (EVar 11) (ELoad 8 (EAt (EVar 92) 8 (EInt 5)))) ;;
      SSet 12 (EBin OXor u64 (EVar 12) (ELoad 8 (EAt (EVar 92) 8 (EInt 6)))) ;;
      SSet 13 (EBin OXor u64 (EVar 13) (ELoad 8 (EAt (EVar 92) 8 (EInt 7)))) ;;
      SSet 14 (EBin OXor u64 (EVar 14) (ELoad 8 (EAt (EVar 92) 8 (EInt 8)))) ;;
      SSet 15 (EBin OXor u64 (EVar 15) (ELoad 8 (EAt (EVar 92) 8 (EInt 9)))) ;;
      SSet 16 (EBin OXor u64 (EVar 16) (ELoad 8 (EAt (EVar 92) 8 (EInt 10)))) ;;
      SSet 17 (EBin OXor u64 (EVar 17) (ELoad 8 (EAt (EVar 92) 8 (EInt 11)))) ;;
      SSet 18 (EBin OXor u64 (EVar 18) (ELoad 8 (EAt (EVar 92) 8 (EInt 12)))) ;;
      SSet 19 (EBin OXor u64 (EVar 19) (ELoad 8 (EAt (EVar 92) 8 (EInt 13)))) ;;
      SSet 20 (EBin OXor u64 (EVar 20) (ELoad 8 (EAt (EVar 92) 8 (EInt 14)))) ;;
      SSet 21 (EBin OXor u64 (EVar 21) (ELoad 8 (EAt (EVar 92) 8 (EInt 15)))) ;;
      SSet 22 (EBin OXor u64 (EVar 22) (ELoad 8 (EAt (EVar 92) 8 (EInt 16)))) ;;
      SSet 23 (EBin OXor u64 (EVar 23) (ELoad 8 (EAt (EVar 92) 8 (EInt 17)))) ;;
      SSet 24 (EBin OXor u64 (EVar 24) (ELoad 8 (EAt (EVar 92) 8 (EInt 18)))) ;;
      SSet 25 (EBin OXor u64 (EVar 25) (ELoad 8 (EAt (EVar 92) 8 (EInt 19)))) ;;
      SSet 26 (EBin OXor u64 (EVar 26) (ELoad 8 (EAt (EVar 92) 8 (EInt 20)))))
      (
      SIf (EBin OLt s32 (EVar 2) (EInt 16))
        (
        SIf (EBin OLt s32 (EVar 2) (EInt 8))
          (
          SIf (EBin OLt s32 (EVar 2) (EInt 4))
            (
            SIf (EBin OLt s32 (EVar 2) (EInt 2))
              (
              SIf (EBin OLt s32 (EVar 2) (EInt 1))
                SSkip
                (
                SSet 6 (EBin OXor u64 (EVar 6) (ELoad 8 (EVar 92)))))
              (
              SSet 6 (EBin OXor u64 (EVar 6) (ELoad 8 (EVar 92))) ;;
              SSet 7 (EBin OXor u64 (EVar 7) (ELoad 8 (EAt (EVar 92) 8 (EInt 1)))) ;;
              SIf (EBin OLt s32 (EVar 2) (EInt 3))
                SSkip
                (
                SSet 8 (EBin OXor u64 (EVar 8) (ELoad 8 (EAt (EVar 92) 8 (EInt 2)))))))
            (
            SSet 6 (EBin OXor u64 (EVar 6) (ELoad 8 (EVar 92))) ;;
            SSet 7 (EBin OXor u64 (EVar 7) (ELoad 8 (EAt (EVar 92) 8 (EInt 1)))) ;;
            SSet 8 (EBin OXor u64 (EVar 8) (ELoad 8 (EAt (EVar 92) 8 (EInt 2)))) ;;
            SSet 9 (EBin OXor u64 (EVar 9) (ELoad 8 (EAt (EVar 92) 8 (EInt 3)))) ;;
            SIf (EBin OLt s32 (EVar 2) (EInt 6))
              (
              SIf (EBin OLt s32 (EVar 2) (EInt 5))
                SSkip
                (
                SSet 10 (EBin OXor u64 (EVar 10) (ELoad 8 (EAt (EVar 92) 8 (EInt 4))))))
              (
              SSet 10 (EBin OXor u64 (EVar 10) (ELoad 8 (EAt (EVar 92) 8 (EInt 4)))) ;;
              SSet 11 (EBin OXor u64 (EVar 11) (ELoad 8 (EAt (EVar 92) 8 (EInt 5)))) ;;
              SIf (EBin OLt s32 (EVar 2) (EInt 7))
                SSkip
                (
                SSet 12 (EBin OXor u64 (EVar 12) (ELoad 8 (EAt (EVar 92) 8 (EInt 6))))))))
          (
          SSet 6 (EBin OXor u64 (EVar 6) (ELoad 8 (EVar 92))) ;;
          SSet 7 (EBin OXor u64 (EVar 7) (ELoad 8 (EAt (EVar 92) 8 (EInt 1)))) ;;
          SSet 8 (EBin OXor u64 (EVar 8) (ELoad 8 (EAt (EVar 92) 8 (EInt 2)))) ;;
          SSet 9 (EBin OXor u64 (EVar 9) (ELoad 8 (EAt (EVar 92) 8 (EInt 3)))) ;;
          SSet 10 (EBin OXor u64 (EVar 10) (ELoad 8 (EAt (EVar 92) 8 (EInt 4)))) ;;
          SSet 11 (EBin OXor u64 (EVar 11) (ELoad 8 (EAt (EVar 92) 8 (EInt 5)))) ;;
          SSet 12 (EBin OXor u64 (EVar 12) (ELoad 8 (EAt (EVar 92) 8 (EInt 6)))) ;;
          SSet 13 (EBin OXor u64 (EVar 13) (ELoad 8 (EAt (EVar 92) 8 (EInt 7)))) ;;
          SIf (EBin OLt s32 (EVar 2) (EInt 12))
            (
            SIf (EBin OLt s32 (EVar 2) (EInt 10))
              (
              SIf (EBin OLt s32 (EVar 2) (EInt 9))
                SSkip
                (
                SSet 14 (EBin OXor u64 (EVar 14) (ELoad 8 (EAt (EVar 92) 8 (EInt 8))))))
              (
              SSet 14 (EBin OXor u64 (EVar 14) (ELoad 8 (EAt (EVar 92) 8 (EInt 8)))) ;;
              SSet 15 (EBin OXor u64 (EVar 15) (ELoad 8 (EAt (EVar 92) 8 (EInt 9)))) ;;
              SIf (EBin OLt s32 (EVar 2) (EInt 11))
                SSkip
                (
                SSet 16 (EBin OXor u64 (EVar 16) (ELoad 8 (EAt (EVar 92) 8 (EInt 10)))))))
            (
            SSet 14 (EBin OXor u64 (EVar 14) (ELoad 8 (EAt (EVar 92) 8 (EInt 8)))) ;;
            SSet 15 (EBin OXor u64 (EVar 15) (ELoad 8 (EAt (EVar 92) 8 (EInt 9)))) ;;
            SSet 16 (EBin OXor u64 (EVar 16) (ELoad 8 (EAt (EVar 92) 8 (EInt 10)))) ;;
            SSet 17 (EBin OXor u64 (EVar 17) (ELoad 8 (EAt (EVar 92) 8 (EInt 11)))) ;;
            SIf (EBin OLt s32 (EVar 2) (EInt 14))
              (
              SIf (EBin OLt s32 (EVar 2) (EInt 13))
                SSkip
                (
                SSet 18 (EBin OXor u64 (EVar 18) (ELoad 8 (EAt (EVar 92) 8 (EInt 12))))))
              (
              SSet 18 (EBin OXor u64 (EVar 18) (ELoad 8 (EAt (EVar 92) 8 (EInt 12)))) ;;
              SSet 19 (EBin OXor u64 (EVar 19) (ELoad 8 (EAt (EVar 92) 8 (EInt 13)))) ;;
              SIf (EBin OLt s32 (EVar 2) (EInt 15))
                SSkip
                (
                SSet 20 (EBin OXor u64 (EVar 20) (ELoad 8 (EAt (EVar 92) 8 (EInt 14)))))))))
        (
        SSet 6 (EBin OXor u64 (EVar 6) (ELoad 8 (EVar 92))) ;;
        SSet 7 (EBin OXor u64 (EVar 7) (ELoad 8 (EAt (EVar 92) 8 (EInt 1)))) ;;
        SSet 8 (EBin OXor u64 (EVar 8) (ELoad 8 (EAt (EVar 92) 8 (EInt 2)))) ;;
        SSet 9 (EBin OXor u64 (EVar 9) (ELoad 8 (EAt (EVar 92) 8 (EInt 3)))) ;;
        SSet 10 (EBin OXor u64 (EVar 10) (ELoad 8 (EAt (EVar 92) 8 (EInt 4)))) ;;
        SSet 11 (EBin OXor u64 (EVar 11) (ELoad 8 (EAt (EVar 92) 8 (EInt 5)))) ;;
        SSet 12 (EBin OXor u64 (EVar 12) (ELoad 8 (EAt (EVar 92) 8 (EInt 6)))) ;;
        SSet 13 (EBin OXor u64 (EVar 13) (ELoad 8 (EAt (EVar 92) 8 (EInt 7)))) ;;
        SSet 14 (EBin OXor u64 (EVar 14) (ELoad 8 (EAt (EVar 92) 8 (EInt 8)))) ;;
        SSet 15 (EBin OXor u64 (EVar 15) (ELoad 8 (EAt (EVar 92) 8 (EInt 9)))) ;;
        SSet 16 (EBin OXor u64 (EVar 16) (ELoad 8 (EAt (EVar 92) 8 (EInt 10)))) ;;
        SSet 17 (EBin OXor u64 (EVar 17) (ELoad 8 (EAt (EVar 92) 8 (EInt 11)))) ;;
        SSet 18 (EBin OXor u64 (EVar 18) (ELoad 8 (EAt (EVar 92) 8 (EInt 12)))) ;;
        SSet 19 (EBin OXor u64 (EVar 19) (ELoad 8 (EAt (EVar 92) 8 (EInt 13)))) ;;
        SSet 20 (EBin OXor u64 (EVar 20) (ELoad 8 (EAt (EVar 92) 8 (EInt 14)))) ;;
        SSet 21 (EBin OXor u64 (EVar 21) (ELoad 8 (EAt (EVar 92) 8 (EInt 15)))) ;;
        SIf (EBin OLt s32 (EVar 2) (EInt 24))
          (
          SIf (EBin OLt s32 (EVar 2) (EInt 20))
            (
            SIf (EBin OLt s32 (EVar 2) (EInt 18))
              (
              SIf (EBin OLt s32 (EVar 2) (EInt 17))
                SSkip
                (
                SSet 22 (EBin OXor u64 (EVar 22) (ELoad 8 (EAt (EVar 92) 8 (EInt 16))))))
              (
              SSet 22 (EBin OXor u64 (EVar 22) (ELoad 8 (EAt (EVar 92) 8 (EInt 16)))) ;;
              SSet 23 (EBin OXor u64 (EVar 23) (ELoad 8 (EAt (EVar 92) 8 (EInt 17)))) ;;
              SIf (EBin OLt s32 (EVar 2) (EInt 19))
                SSkip
                (
                SSet 24 (EBin OXor u64 (EVar 24) (ELoad 8 (EAt (EVar 92) 8 (EInt 18)))))))
            (
            SSet 22 (EBin OXor u64 (EVar 22) (ELoad 8 (EAt (EVar 92) 8 (EInt 16)))) ;;
            SSet 23 (EBin OXor u64 (EVar 23) (ELoad 8 (EAt (EVar 92) 8 (EInt 17)))) ;;
            SSet 24 (EBin OXor u64 (EVar 24) (ELoad 8 (EAt (EVar 92) 8 (EInt 18)))) ;;
            SSet 25 (EBin OXor u64 (EVar 25) (ELoad 8 (EAt (EVar 92) 8 (EInt 19)))) ;;
            SIf (EBin OLt s32 (EVar 2) (EInt 22))
              (
              SIf (EBin OLt s32 (EVar 2) (EInt 21))
                SSkip
                (
                SSet 26 (EBin OXor u64 (EVar 26) (ELoad 8 (EAt (EVar 92) 8 (EInt 20))))))
              (
              SSet 26 (EBin OXor u64 (EVar 26) (ELoad 8 (EAt (EVar 92) 8 (EInt 20)))) ;;
              SSet 27 (EBin OXor u64 (EVar 27) (ELoad 8 (EAt (EVar 92) 8 (EInt 21)))) ;;
              SIf (EBin OLt s32 (EVar 2) (EInt 23))
                SSkip
                (
                SSet 28 (EBin OXor u64 (EVar 28) (ELoad 8 (EAt (EVar 92) 8 (EInt 22))))))))
          (
          SSet 22 (EBin OXor u64 (EVar 22) (ELoad 8 (EAt (EVar 92) 8 (EInt 16)))) ;;
          SSet 23 (EBin OXor u64 (EVar 23) (ELoad 8 (EAt (EVar 92) 8 (EInt 17)))) ;;
          SSet 24 (EBin OXor u64 (EVar 24) (ELoad 8 (EAt (EVar 92) 8 (EInt 18)))) ;;
          SSet 25 (EBin OXor u64 (EVar 25) (ELoad 8 (EAt (EVar 92) 8 (EInt 19)))) ;;
          SSet 26 (EBin OXor u64 (EVar 26) (ELoad 8 (EAt (EVar 92) 8 (EInt 20)))) ;;
          SSet 27 (EBin OXor u64 (EVar 27) (ELoad 8 (EAt (EVar 92) 8 (EInt 21)))) ;;
          SSet 28 (EBin OXor u64 (EVar 28) (ELoad 8 (EAt (EVar 92) 8 (EInt 22)))) ;;
          SSet 29 (EBin OXor u64 (EVar 29) (ELoad 8 (EAt (EVar 92) 8 (EInt 23)))) ;;
          SIf (EBin OLt s32 (EVar 2) (EInt 25))
            SSkip
            (
            SSet 30 (EBin OXor u64 (EVar 30) (ELoad 8 (EAt (EVar 92) 8 (EInt 24)))))))) ;;
    SSet 56 (EBin OXor u64 (EBin OXor u64 (EBin OXor u64 (EBin OXor u64 (EVar 6) (EVar 11)) (EVar 16)) (EVar 21)) (EVar 26)) ;;
    SSet 57 (EBin OXor u64 (EBin OXor u64 (EBin OXor u64 (EBin OXor u64 (EVar 7) (EVar 12)) (EVar 17)) (EVar 22)) (EVar 27)) ;;
    SSet 58 (EBin OXor u64 (EBin OXor u64 (EBin OXor u64 (EBin OXor u64 (EVar 8) (EVar 13)) (EVar 18)) (EVar 23)) (EVar 28)) ;;
    SSet 59 (EBin OXor u64 (EBin OXor u64 (EBin OXor u64 (EBin OXor u64 (EVar 9) (EVar 14)) (EVar 19)) (EVar 24)) (EVar 29)) ;;
    SSet 60 (EBin OXor u64 (EBin OXor u64 (EBin OXor u64 (EBin OXor u64 (EVar 10) (EVar 15)) (EVar 20)) (EVar 25)) (EVar 30)) ;;
    SSet 61 (EBin OXor u64 (EVar 60) (EBin OXor u64 (EBin OShl u64 (EVar 57) (EInt 1)) (EBin OShr u64 (EVar 57) (EInt 63)))) ;;
    SSet 62 (EBin OXor u64 (EVar 56) (EBin OXor u64 (EBin OShl u64 (EVar 58) (EInt 1)) (EBin OShr u64 (EVar 58) (EInt 63)))) ;;
    SSet 63 (EBin OXor u64 (EVar 57) (EBin OXor u64 (EBin OShl u64 (EVar 59) (EInt 1)) (EBin OShr u64 (EVar 59) (EInt 63)))) ;;
    SSet 64 (EBin OXor u64 (EVar 58) (EBin OXor u64 (EBin OShl u64 (EVar 60) (EInt 1)) (EBin OShr u64 (EVar 60) (EInt 63)))) ;;
    SSet 65 (EBin OXor u64 (EVar 59) (EBin OXor u64 (EBin OShl u64 (EVar 56) (EInt 1)) (EBin OShr u64 (EVar 56) (EInt 63)))) ;;
    SSet 6 (EBin OXor u64 (EVar 6) (EVar 61)) ;;
    SSet 31 (EVar 6) ;;
    SSet 12 (EBin OXor u64 (EVar 12) (EVar 62)) ;;
    SSet 32 (EBin OXor u64 (EBin OShl u64 (EVar 12) (EInt 44)) (EBin OShr u64 (EVar 12) (EInt 20))) ;;
    SSet 18 (EBin OXor u64 (EVar 18) (EVar 63)) ;;
    SSet 33 (EBin OXor u64 (EBin OShl u64 (EVar 18) (EInt 43)) (EBin OShr u64 (EVar 18) (EInt 21))) ;;
    SSet 24 (EBin OXor u64 (EVar 24) (EVar 64)) ;;
    SSet 34 (EBin OXor u64 (EBin OShl u64 (EVar 24) (EInt 21)) (EBin OShr u64 (EVar 24) (EInt 43))) ;;
    SSet 30 (EBin OXor u64 (EVar 30) (EVar 65)) ;;
    SSet 35 (EBin OXor u64 (EBin OShl u64 (EVar 30) (EInt 14)) (EBin OShr u64 (EVar 30) (EInt 50))) ;;
    SSet 66 (EBin OXor u64 (EVar 31) (EBin OAnd u64 (EUn ONot u64 (EVar 32)) (EVar 33))) ;;
    SSet 66 (EBin OXor u64 (EVar 66) (ELoad 8 (EGlob 1))) ;;
    SSet 56 (EVar 66) ;;
    SSet 67 (EBin OXor u64 (EVar 32) (EBin OAnd u64 (EUn ONot u64 (EVar 33)) (EVar 34))) ;;
    SSet 57 (EVar 67) ;;
    SSet 68 (EBin OXor u64 (EVar 33) (EBin OAnd u64 (EUn ONot u64 (EVar 34)) (EVar 35))) ;;
    SSet 58 (EVar 68) ;;
    SSet 69 (EBin OXor u64 (EVar 34) (EBin OAnd u64 (EUn ONot u64 (EVar 35)) (EVar 31))) ;;
    SSet 59 (EVar 69) ;;
    SSet 70 (EBin OXor u64 (EVar 35) (EBin OAnd u64 (EUn ONot u64 (EVar 31)) (EVar 32))) ;;
    SSet 60 (EVar 70) ;;
    SSet 9 (EBin OXor u64 (EVar 9) (EVar 64)) ;;
    SSet 36 (EBin OXor u64 (EBin OShl u64 (EVar 9) (EInt 28)) (EBin OShr u64 (EVar 9) (EInt 36))) ;;
    SSet 15 (EBin OXor u64 (EVar 15) (EVar 65)) ;;
    SSet 37 (EBin OXor u64 (EBin OShl u64 (EVar 15) (EInt 20)) (EBin OShr u64 (EVar 15) (EInt 44))) ;;
    SSet 16 (EBin OXor u64 (EVar 16) (EVar 61)) ;;
    SSet 38 (EBin OXor u64 (EBin OShl u64 (EVar 16) (EInt 3)) (EBin OShr u64 (EVar 16) (EInt 61))) ;;
    SSet 22 (EBin OXor u64 (EVar 22) (EVar 62))) ;;
    (
    SSet 39 (EBin OXor u64 (EBin OShl u64 (EVar 22) (EInt 45)) (EBin OShr u64 (EVar 22) (EInt 19))) ;;
    SSet 28 (EBin OXor u64 (EVar 28) (EVar 63)) ;;
    SSet 40 (EBin OXor u64 (EBin OShl u64 (EVar 28) (EInt 61)) (EBin OShr u64 (EVar 28) (EInt 3))) ;;
    SSet 71 (EBin OXor u64 (EVar 36) (EBin OAnd u64 (EUn ONot u64 (EVar 37)) (EVar 38))) ;;
    SSet 56 (EBin OXor u64 (EVar 56) (EVar 71)) ;;
    SSet 72 (EBin OXor u64 (EVar 37) (EBin OAnd u64 (EUn ONot u64 (EVar 38)) (EVar 39))) ;;
    SSet 57 (EBin OXor u64 (EVar 57) (EVar 72)) ;;
    SSet 73 (EBin OXor u64 (EVar 38) (EBin OAnd u64 (EUn ONot u64 (EVar 39)) (EVar 40))) ;;
    SSet 58 (EBin OXor u64 (EVar 58) (EVar 73)) ;;
    SSet 74 (EBin OXor u64 (EVar 39) (EBin OAnd u64 (EUn ONot u64 (EVar 40)) (EVar 36))) ;;
    SSet 59 (EBin OXor u64 (EVar 59) (EVar 74)) ;;
    SSet 75 (EBin OXor u64 (EVar 40) (EBin OAnd u64 (EUn ONot u64 (EVar 36)) (EVar 37))) ;;
    SSet 60 (EBin OXor u64 (EVar 60) (EVar 75)) ;;
    SSet 7 (EBin OXor u64 (EVar 7) (EVar 62)) ;;
    SSet 41 (EBin OXor u64 (EBin OShl u64 (EVar 7) (EInt 1)) (EBin OShr u64 (EVar 7) (EInt 63))) ;;
    SSet 13 (EBin OXor u64 (EVar 13) (EVar 63)) ;;
    SSet 42 (EBin OXor u64 (EBin OShl u64 (EVar 13) (EInt 6)) (EBin OShr u64 (EVar 13) (EInt 58))) ;;
    SSet 19 (EBin OXor u64 (EVar 19) (EVar 64)) ;;
    SSet 43 (EBin OXor u64 (EBin OShl u64 (EVar 19) (EInt 25)) (EBin OShr u64 (EVar 19) (EInt 39))) ;;
    SSet 25 (EBin OXor u64 (EVar 25) (EVar 65)) ;;
    SSet 44 (EBin OXor u64 (EBin OShl u64 (EVar 25) (EInt 8)) (EBin OShr u64 (EVar 25) (EInt 56))) ;;
    SSet 26 (EBin OXor u64 (EVar 26) (EVar 61)) ;;
    SSet 45 (EBin OXor u64 (EBin OShl u64 (EVar 26) (EInt 18)) (EBin OShr u64 (EVar 26) (EInt 46))) ;;
    SSet 76 (EBin OXor u64 (EVar 41) (EBin OAnd u64 (EUn ONot u64 (EVar 42)) (EVar 43))) ;;
    SSet 56 (EBin OXor u64 (EVar 56) (EVar 76)) ;;
    SSet 77 (EBin OXor u64 (EVar 42) (EBin OAnd u64 (EUn ONot u64 (EVar 43)) (EVar 44))) ;;
    SSet 57 (EBin OXor u64 (EVar 57) (EVar 77)) ;;
    SSet 78 (EBin OXor u64 (EVar 43) (EBin OAnd u64 (EUn ONot u64 (EVar 44)) (EVar 45))) ;;
    SSet 58 (EBin OXor u64 (EVar 58) (EVar 78)) ;;
    SSet 79 (EBin OXor u64 (EVar 44) (EBin OAnd u64 (EUn ONot u64 (EVar 45)) (EVar 41))) ;;
    SSet 59 (EBin OXor u64 (EVar 59) (EVar 79)) ;;
    SSet 80 (EBin OXor u64 (EVar 45) (EBin OAnd u64 (EUn ONot u64 (EVar 41)) (EVar 42))) ;;
    SSet 60 (EBin OXor u64 (EVar 60) (EVar 80)) ;;
    SSet 10 (EBin OXor u64 (EVar 10) (EVar 65)) ;;
    SSet 46 (EBin OXor u64 (EBin OShl u64 (EVar 10) (EInt 27)) (EBin OShr u64 (EVar 10) (EInt 37))) ;;
    SSet 11 (EBin OXor u64 (EVar 11) (EVar 61)) ;;
    SSet 47 (EBin OXor u64 (EBin OShl u64 (EVar 11) (EInt 36)) (EBin OShr u64 (EVar 11) (EInt 28))) ;;
    SSet 17 (EBin OXor u64 (EVar 17) (EVar 62)) ;;
    SSet 48 (EBin OXor u64 (EBin OShl u64 (EVar 17) (EInt 10)) (EBin OShr u64 (EVar 17) (EInt 54))))) ;;
    (
    (
    SSet 23 (EBin OXor u64 (EVar 23) (EVar 63)) ;;
    SSet 49 (EBin OXor u64 (EBin OShl u64 (EVar 23) (EInt 15)) (EBin OShr u64 (EVar 23) (EInt 49))) ;;
    SSet 29 (EBin OXor u64 (EVar 29) (EVar 64)) ;;
    SSet 50 (EBin OXor u64 (EBin OShl u64 (EVar 29) (EInt 56)) (EBin OShr u64 (EVar 29) (EInt 8))) ;;
    SSet 81 (EBin OXor u64 (EVar 46) (EBin OAnd u64 (EUn ONot u64 (EVar 47)) (EVar 48))) ;;
    SSet 56 (EBin OXor u64 (EVar 56) (EVar 81)) ;;
    SSet 82 (EBin OXor u64 (EVar 47) (EBin OAnd u64 (EUn ONot u64 (EVar 48)) (EVar 49))) ;;
    SSet 57 (EBin OXor u64 (EVar 57) (EVar 82)) ;;
    SSet 83 (EBin OXor u64 (EVar 48) (EBin OAnd u64 (EUn ONot u64 (EVar 49)) (EVar 50))) ;;
    SSet 58 (EBin OXor u64 (EVar 58) (EVar 83)) ;;
    SSet 84 (EBin OXor u64 (EVar 49) (EBin OAnd u64 (EUn ONot u64 (EVar 50)) (EVar 46))) ;;
    SSet 59 (EBin OXor u64 (EVar 59) (EVar 84)) ;;
    SSet 85 (EBin OXor u64 (EVar 50) (EBin OAnd u64 (EUn ONot u64 (EVar 46)) (EVar 47))) ;;
    SSet 60 (EBin OXor u64 (EVar 60) (EVar 85)) ;;
    SSet 8 (EBin OXor u64 (EVar 8) (EVar 63)) ;;
    SSet 51 (EBin OXor u64 (EBin OShl u64 (EVar 8) (EInt 62)) (EBin OShr u64 (EVar 8) (EInt 2))) ;;
    SSet 14 (EBin OXor u64 (EVar 14) (EVar 64)) ;;
    SSet 52 (EBin OXor u64 (EBin OShl u64 (EVar 14) (EInt 55)) (EBin OShr u64 (EVar 14) (EInt 9))) ;;
    SSet 20 (EBin OXor u64 (EVar 20) (EVar 65)) ;;
    SSet 53 (EBin OXor u64 (EBin OShl u64 (EVar 20) (EInt 39)) (EBin OShr u64 (EVar 20) (EInt 25))) ;;
    SSet 21 (EBin OXor u64 (EVar 21) (EVar 61)) ;;
    SSet 54 (EBin OXor u64 (EBin OShl u64 (EVar 21) (EInt 41)) (EBin OShr u64 (EVar 21) (EInt 23))) ;;
    SSet 27 (EBin OXor u64 (EVar 27) (EVar 62)) ;;
    SSet 55 (EBin OXor u64 (EBin OShl u64 (EVar 27) (EInt 2)) (EBin OShr u64 (EVar 27) (EInt 62))) ;;
    SSet 86 (EBin OXor u64 (EVar 51) (EBin OAnd u64 (EUn ONot u64 (EVar 52)) (EVar 53))) ;;
    SSet 56 (EBin OXor u64 (EVar 56) (EVar 86)) ;;
    SSet 87 (EBin OXor u64 (EVar 52) (EBin OAnd u64 (EUn ONot u64 (EVar 53)) (EVar 54))) ;;
    SSet 57 (EBin OXor u64 (EVar 57) (EVar 87)) ;;
    SSet 88 (EBin OXor u64 (EVar 53) (EBin OAnd u64 (EUn ONot u64 (EVar 54)) (EVar 55))) ;;
    SSet 58 (EBin OXor u64 (EVar 58) (EVar 88)) ;;
    SSet 89 (EBin OXor u64 (EVar 54) (EBin OAnd u64 (EUn ONot u64 (EVar 55)) (EVar 51))) ;;
    SSet 59 (EBin OXor u64 (EVar 59) (EVar 89)) ;;
    SSet 90 (EBin OXor u64 (EVar 55) (EBin OAnd u64 (EUn ONot u64 (EVar 51)) (EVar 52))) ;;
    SSet 60 (EBin OXor u64 (EVar 60) (EVar 90)) ;;
    SSet 61 (EBin OXor u64 (EVar 60) (EBin OXor u64 (EBin OShl u64 (EVar 57) (EInt 1)) (EBin OShr u64 (EVar 57) (EInt 63)))) ;;
    SSet 62 (EBin OXor u64 (EVar 56) (EBin OXor u64 (EBin OShl u64 (EVar 58) (EInt 1)) (EBin OShr u64 (EVar 58) (EInt 63)))) ;;
    SSet 63 (EBin OXor u64 (EVar 57) (EBin OXor u64 (EBin OShl u64 (EVar 59) (EInt 1)) (EBin OShr u64 (EVar 59) (EInt 63)))) ;;
    SSet 64 (EBin OXor u64 (EVar 58) (EBin OXor u64 (EBin OShl u64 (EVar 60) (EInt 1)) (EBin OShr u64 (EVar 60) (EInt 63)))) ;;
    SSet 65 (EBin OXor u64 (EVar 59) (EBin OXor u64 (EBin OShl u64 (EVar 56) (EInt 1)) (EBin OShr u64 (EVar 56) (EInt 63))))) ;;
    (
    SSet 66 (EBin OXor u64 (EVar 66) (EVar 61)) ;;
    SSet 31 (EVar 66) ;;
    SSet 72 (EBin OXor u64 (EVar 72) (EVar 62)) ;;
    SSet 32 (EBin OXor u64 (EBin OShl u64 (EVar 72) (EInt 44)) (EBin OShr u64 (EVar 72) (EInt 20))) ;;
    SSet 78 (EBin OXor u64 (EVar 78) (EVar 63)) ;;
    SSet 33 (EBin OXor u64 (EBin OShl u64 (EVar 78) (EInt 43)) (EBin OShr u64 (EVar 78) (EInt 21))) ;;
    SSet 84 (EBin OXor u64 (EVar 84) (EVar 64)) ;;
    SSet 34 (EBin OXor u64 (EBin OShl u64 (EVar 84) (EInt 21)) (EBin OShr u64 (EVar 84) (EInt 43))) ;;
    SSet 90 (EBin OXor u64 (EVar 90) (EVar 65)) ;;
    SSet 35 (EBin OXor u64 (EBin OShl u64 (EVar 90) (EInt 14)) (EBin OShr u64 (EVar 90) (EInt 50))) ;;
    SSet 6 (EBin OXor u64 (EVar 31) (EBin OAnd u64 (EUn ONot u64 (EVar 32)) (EVar 33))) ;;
    SSet 6 (EBin OXor u64 (EVar 6) (ELoad 8 (EAt (EGlob 1) 8 (EInt 1)))) ;;
    SSet 56 (EVar 6) ;;
    SSet 7 (EBin OXor u64 (EVar 32) (EBin OAnd u64 (EUn ONot u64 (EVar 33)) (EVar 34))) ;;
    SSet 57 (EVar 7) ;;
    SSet 8 (EBin OXor u64 (EVar 33) (EBin OAnd u64 (EUn ONot u64 (EVar 34)) (EVar 35))) ;;
    SSet 58 (EVar 8) ;;
    SSet 9 (EBin OXor u64 (EVar 34) (EBin OAnd u64 (EUn ONot u64 (EVar 35)) (EVar 31))) ;;
    SSet 59 (EVar 9) ;;
    SSet 10 (EBin OXor u64 (EVar 35) (EBin OAnd u64 (EUn ONot u64 (EVar 31)) (EVar 32))) ;;
    SSet 60 (EVar 10) ;;
    SSet 69 (EBin OXor u64 (EVar 69) (EVar 64)) ;;
    SSet 36 (EBin OXor u64 (EBin OShl u64 (EVar 69) (EInt 28)) (EBin OShr u64 (EVar 69) (EInt 36))) ;;
    SSet 75 (EBin OXor u64 (EVar 75) (EVar 65)) ;;
    SSet 37 (EBin OXor u64 (EBin OShl u64 (EVar 75) (EInt 20)) (EBin OShr u64 (EVar 75) (EInt 44))) ;;
    SSet 76 (EBin OXor u64 (EVar 76) (EVar 61)) ;;
    SSet 38 (EBin OXor u64 (EBin OShl u64 (EVar 76) (EInt 3)) (EBin OShr u64 (EVar 76) (EInt 61))) ;;
    SSet 82 (EBin OXor u64 (EVar 82) (EVar 62)) ;;
    SSet 39 (EBin OXor u64 (EBin OShl u64 (EVar 82) (EInt 45)) (EBin OShr u64 (EVar 82) (EInt 19))) ;;
    SSet 88 (EBin OXor u64 (EVar 88) (EVar 63)) ;;
    SSet 40 (EBin OXor u64 (EBin OShl u64 (EVar 88) (EInt 61)) (EBin OShr u64 (EVar 88) (EInt 3))) ;;
    SSet 11 (EBin OXor u64 (EVar 36) (EBin OAnd u64 (EUn ONot u64 (EVar 37)) (EVar 38))) ;;
    SSet 56 (EBin OXor u64 (EVar 56) (EVar 11)) ;;
    SSet 12 (EBin OXor u64 (EVar 37) (EBin OAnd u64 (EUn ONot u64 (EVar 38)) (EVar 39))) ;;
    SSet 57 (EBin OXor u64 (EVar 57) (EVar 12)) ;;
    SSet 13 (EBin OXor u64 (EVar 38) (EBin OAnd u64 (EUn ONot u64 (EVar 39)) (EVar 40))) ;;
    SSet 58 (EBin OXor u64 (EVar 58) (EVar 13)) ;;
    SSet 14 (EBin OXor u64 (EVar 39) (EBin OAnd u64 (EUn ONot u64 (EVar 40)) (EVar 36))) ;;
    SSet 59 (EBin OXor u64 (EVar 59) (EVar 14)) ;;
    SSet 15 (EBin OXor u64 (EVar 40) (EBin OAnd u64 (EUn ONot u64 (EVar 36)) (EVar 37)))))) ;;
    (
    (
    (
    SSet 60 (EBin OXor u64 (EVar 60) (EVar 15)) ;;
    SSet 67 (EBin OXor u64 (EVar 67) (EVar 62)) ;;
    SSet 41 (EBin OXor u64 (EBin OShl u64 (EVar 67) (EInt 1)) (EBin OShr u64 (EVar 67) (EInt 63))) ;;
    SSet 73 (EBin OXor u64 (EVar 73) (EVar 63)) ;;
    SSet 42 (EBin OXor u64 (EBin OShl u64 (EVar 73) (EInt 6)) (EBin OShr u64 (EVar 73) (EInt 58))) ;;
    SSet 79 (EBin OXor u64 (EVar 79) (EVar 64)) ;;
    SSet 43 (EBin OXor u64 (EBin OShl u64 (EVar 79) (EInt 25)) (EBin OShr u64 (EVar 79) (EInt 39))) ;;
    SSet 85 (EBin OXor u64 (EVar 85) (EVar 65)) ;;
    SSet 44 (EBin OXor u64 (EBin OShl u64 (EVar 85) (EInt 8)) (EBin OShr u64 (EVar 85) (EInt 56))) ;;
    SSet 86 (EBin OXor u64 (EVar 86) (EVar 61)) ;;
    SSet 45 (EBin OXor u64 (EBin OShl u64 (EVar 86) (EInt 18)) (EBin OShr u64 (EVar 86) (EInt 46))) ;;
    SSet 16 (EBin OXor u64 (EVar 41) (EBin OAnd u64 (EUn ONot u64 (EVar 42)) (EVar 43))) ;;
    SSet 56 (EBin OXor u64 (EVar 56) (EVar 16)) ;;
    SSet 17 (EBin OXor u64 (EVar 42) (EBin OAnd u64 (EUn ONot u64 (EVar 43)) (EVar 44))) ;;
    SSet 57 (EBin OXor u64 (EVar 57) (EVar 17)) ;;
    SSet 18 (EBin OXor u64 (EVar 43) (EBin OAnd u64 (EUn ONot u64 (EVar 44)) (EVar 45))) ;;
    SSet 58 (EBin OXor u64 (EVar 58) (EVar 18)) ;;
    SSet 19 (EBin OXor u64 (EVar 44) (EBin OAnd u64 (EUn ONot u64 (EVar 45)) (EVar 41))) ;;
    SSet 59 (EBin OXor u64 (EVar 59) (EVar 19)) ;;
    SSet 20 (EBin OXor u64 (EVar 45) (EBin OAnd u64 (EUn ONot u64 (EVar 41)) (EVar 42))) ;;
    SSet 60 (EBin OXor u64 (EVar 60) (EVar 20)) ;;
    SSet 70 (EBin OXor u64 (EVar 70) (EVar 65)) ;;
    SSet 46 (EBin OXor u64 (EBin OShl u64 (EVar 70) (EInt 27)) (EBin OShr u64 (EVar 70) (EInt 37))) ;;
    SSet 71 (EBin OXor u64 (EVar 71) (EVar 61)) ;;
    SSet 47 (EBin OXor u64 (EBin OShl u64 (EVar 71) (EInt 36)) (EBin OShr u64 (EVar 71) (EInt 28))) ;;
    SSet 77 (EBin OXor u64 (EVar 77) (EVar 62)) ;;
    SSet 48 (EBin OXor u64 (EBin OShl u64 (EVar 77) (EInt 10)) (EBin OShr u64 (EVar 77) (EInt 54))) ;;
    SSet 83 (EBin OXor u64 (EVar 83) (EVar 63)) ;;
    SSet 49 (EBin OXor u64 (EBin OShl u64 (EVar 83) (EInt 15)) (EBin OShr u64 (EVar 83) (EInt 49))) ;;
    SSet 89 (EBin OXor u64 (EVar 89) (EVar 64)) ;;
    SSet 50 (EBin OXor u64 (EBin OShl u64 (EVar 89) (EInt 56)) (EBin OShr u64 (EVar 89) (EInt 8))) ;;
    SSet 21 (EBin OXor u64 (EVar 46) (EBin OAnd u64 (EUn ONot u64 (EVar 47)) (EVar 48))) ;;
    SSet 56 (EBin OXor u64 (EVar 56) (EVar 21)) ;;
    SSet 22 (EBin OXor u64 (EVar 47) (EBin OAnd u64 (EUn ONot u64 (EVar 48)) (EVar 49))) ;;
    SSet 57 (EBin OXor u64 (EVar 57) (EVar 22)) ;;
    SSet 23 (EBin OXor u64 (EVar 48) (EBin OAnd u64 (EUn ONot u64 (EVar 49)) (EVar 50))) ;;
    SSet 58 (EBin OXor u64 (EVar 58) (EVar 23)) ;;
    SSet 24 (EBin OXor u64 (EVar 49) (EBin OAnd u64 (EUn ONot u64 (EVar 50)) (EVar 46))) ;;
    SSet 59 (EBin OXor u64 (EVar 59) (EVar 24))) ;;
    (
    SSet 25 (EBin OXor u64 (EVar 50) (EBin OAnd u64 (EUn ONot u64 (EVar 46)) (EVar 47))) ;;
    SSet 60 (EBin OXor u64 (EVar 60) (EVar 25)) ;;
    SSet 68 (EBin OXor u64 (EVar 68) (EVar 63)) ;;
    SSet 51 (EBin OXor u64 (EBin OShl u64 (EVar 68) (EInt 62)) (EBin OShr u64 (EVar 68) (EInt 2))) ;;
    SSet 74 (EBin OXor u64 (EVar 74) (EVar 64)) ;;
    SSet 52 (EBin OXor u64 (EBin OShl u64 (EVar 74) (EInt 55)) (EBin OShr u64 (EVar 74) (EInt 9))) ;;
    SSet 80 (EBin OXor u64 (EVar 80) (EVar 65)) ;;
    SSet 53 (EBin OXor u64 (EBin OShl u64 (EVar 80) (EInt 39)) (EBin OShr u64 (EVar 80) (EInt 25))) ;;
    SSet 81 (EBin OXor u64 (EVar 81) (EVar 61)) ;;
    SSet 54 (EBin OXor u64 (EBin OShl u64 (EVar 81) (EInt 41)) (EBin OShr u64 (EVar 81) (EInt 23))) ;;
    SSet 87 (EBin OXor u64 (EVar 87) (EVar 62)) ;;
    SSet 55 (EBin OXor u64 (EBin OShl u64 (EVar 87) (EInt 2)) (EBin OShr u64 (EVar 87) (EInt 62))) ;;
    SSet 26 (EBin OXor u64 (EVar 51) (EBin OAnd u64 (EUn ONot u64 (EVar 52)) (EVar 53))) ;;
    SSet 56 (EBin OXor u64 (EVar 56) (EVar 26)) ;;
    SSet 27 (EBin OXor u64 (EVar 52) (EBin OAnd u64 (EUn ONot u64 (EVar 53)) (EVar 54))) ;;
    SSet 57 (EBin OXor u64 (EVar 57) (EVar 27)) ;;
    SSet 28 (EBin OXor u64 (EVar 53) (EBin OAnd u64 (EUn ONot u64 (EVar 54)) (EVar 55))) ;;
    SSet 58 (EBin OXor u64 (EVar 58) (EVar 28)) ;;
    SSet 29 (EBin OXor u64 (EVar 54) (EBin OAnd u64 (EUn ONot u64 (EVar 55)) (EVar 51))) ;;
    SSet 59 (EBin OXor u64 (EVar 59) (EVar 29)) ;;
    SSet 30 (EBin OXor u64 (EVar 55) (EBin OAnd u64 (EUn ONot u64 (EVar 51)) (EVar 52))) ;;
    SSet 60 (EBin OXor u64 (EVar 60) (EVar 30)) ;;
    SSet 61 (EBin OXor u64 (EVar 60) (EBin OXor u64 (EBin OShl u64 (EVar 57) (EInt 1)) (EBin OShr u64 (EVar 57) (EInt 63)))) ;;
    SSet 62 (EBin OXor u64 (EVar 56) (EBin OXor u64 (EBin OShl u64 (EVar 58) (EInt 1)) (EBin OShr u64 (EVar 58) (EInt 63)))) ;;
    SSet 63 (EBin OXor u64 (EVar 57) (EBin OXor u64 (EBin OShl u64 (EVar 59) (EInt 1)) (EBin OShr u64 (EVar 59) (EInt 63)))) ;;
    SSet 64 (EBin OXor u64 (EVar 58) (EBin OXor u64 (EBin OShl u64 (EVar 60) (EInt 1)) (EBin OShr u64 (EVar 60) (EInt 63)))) ;;
    SSet 65 (EBin OXor u64 (EVar 59) (EBin OXor u64 (EBin OShl u64 (EVar 56) (EInt 1)) (EBin OShr u64 (EVar 56) (EInt 63)))) ;;
    SSet 6 (EBin OXor u64 (EVar 6) (EVar 61)) ;;
    SSet 31 (EVar 6) ;;
    SSet 12 (EBin OXor u64 (EVar 12) (EVar 62)) ;;
    SSet 32 (EBin OXor u64 (EBin OShl u64 (EVar 12) (EInt 44)) (EBin OShr u64 (EVar 12) (EInt 20))) ;;
    SSet 18 (EBin OXor u64 (EVar 18) (EVar 63)) ;;
    SSet 33 (EBin OXor u64 (EBin OShl u64 (EVar 18) (EInt 43)) (EBin OShr u64 (EVar 18) (EInt 21))) ;;
    SSet 24 (EBin OXor u64 (EVar 24) (EVar 64)) ;;
    SSet 34 (EBin OXor u64 (EBin OShl u64 (EVar 24) (EInt 21)) (EBin OShr u64 (EVar 24) (EInt 43))) ;;
    SSet 30 (EBin OXor u64 (EVar 30) (EVar 65)) ;;
    SSet 35 (EBin OXor u64 (EBin OShl u64 (EVar 30) (EInt 14)) (EBin OShr u64 (EVar 30) (EInt 50))) ;;
    SSet 66 (EBin OXor u64 (EVar 31) (EBin OAnd u64 (EUn ONot u64 (EVar 32)) (EVar 33))) ;;
    SSet 66 (EBin OXor u64 (EVar 66) (ELoad 8 (EAt (EGlob 1) 8 (EInt 2)))) ;;
    SSet 56 (EVar 66))) ;;
    (
    (
    SSet 67 (EBin OXor u64 (EVar 32) (EBin OAnd u64 (EUn ONot u64 (EVar 33)) (EVar 34))) ;;
    SSet 57 (EVar 67) ;;
    SSet 68 (EBin OXor u64 (EVar 33) (EBin OAnd u64 (EUn ONot u64 (EVar 34)) (EVar 35))) ;;
    SSet 58 (EVar 68) ;;
    SSet 69 (EBin OXor u64 (EVar 34) (EBin OAnd u64 (EUn ONot u64 (EVar 35)) (EVar 31))) ;;
    SSet 59 (EVar 69) ;;
    SSet 70 (EBin OXor u64 (EVar 35) (EBin OAnd u64 (EUn ONot u64 (EVar 31)) (EVar 32))) ;;
    SSet 60 (EVar 70) ;;
    SSet 9 (EBin OXor u64 (EVar 9) (EVar 64)) ;;
    SSet 36 (EBin OXor u64 (EBin OShl u64 (EVar 9) (EInt 28)) (EBin OShr u64 (EVar 9) (EInt 36))) ;;
    SSet 15 (EBin OXor u64 (EVar 15) (EVar 65)) ;;
    SSet 37 (EBin OXor u64 (EBin OShl u64 (EVar 15) (EInt 20)) (EBin OShr u64 (EVar 15) (EInt 44))) ;;
    SSet 16 (EBin OXor u64 (EVar 16) (EVar 61)) ;;
    SSet 38 (EBin OXor u64 (EBin OShl u64 (EVar 16) (EInt 3)) (EBin OShr u64 (EVar 16) (EInt 61))) ;;
    SSet 22 (EBin OXor u64 (EVar 22) (EVar 62)) ;;
    SSet 39 (EBin OXor u64 (EBin OShl u64 (EVar 22) (EInt 45)) (EBin OShr u64 (EVar 22) (EInt 19))) ;;
    SSet 28 (EBin OXor u64 (EVar 28) (EVar 63)) ;;
    SSet 40 (EBin OXor u64 (EBin OShl u64 (EVar 28) (EInt 61)) (EBin OShr u64 (EVar 28) (EInt 3))) ;;
    SSet 71 (EBin OXor u64 (EVar 36) (EBin OAnd u64 (EUn ONot u64 (EVar 37)) (EVar 38))) ;;
    SSet 56 (EBin OXor u64 (EVar 56) (EVar 71)) ;;
    SSet 72 (EBin OXor u64 (EVar 37) (EBin OAnd u64 (EUn ONot u64 (EVar 38)) (EVar 39))) ;;
    SSet 57 (EBin OXor u64 (EVar 57) (EVar 72)) ;;
    SSet 73 (EBin OXor u64 (EVar 38) (EBin OAnd u64 (EUn ONot u64 (EVar 39)) (EVar 40))) ;;
    SSet 58 (EBin OXor u64 (EVar 58) (EVar 73)) ;;
    SSet 74 (EBin OXor u64 (EVar 39) (EBin OAnd u64 (EUn ONot u64 (EVar 40)) (EVar 36))) ;;
    SSet 59 (EBin OXor u64 (EVar 59) (EVar 74)) ;;
    SSet 75 (EBin OXor u64 (EVar 40) (EBin OAnd u64 (EUn ONot u64 (EVar 36)) (EVar 37))) ;;
    SSet 60 (EBin OXor u64 (EVar 60) (EVar 75)) ;;
    SSet 7 (EBin OXor u64 (EVar 7) (EVar 62)) ;;
    SSet 41 (EBin OXor u64 (EBin OShl u64 (EVar 7) (EInt 1)) (EBin OShr u64 (EVar 7) (EInt 63))) ;;
    SSet 13 (EBin OXor u64 (EVar 13) (EVar 63)) ;;
    SSet 42 (EBin OXor u64 (EBin OShl u64 (EVar 13) (EInt 6)) (EBin OShr u64 (EVar 13) (EInt 58))) ;;
    SSet 19 (EBin OXor u64 (EVar 19) (EVar 64)) ;;
    SSet 43 (EBin OXor u64 (EBin OShl u64 (EVar 19) (EInt 25)) (EBin OShr u64 (EVar 19) (EInt 39))) ;;
    SSet 25 (EBin OXor u64 (EVar 25) (EVar 65)) ;;
    SSet 44 (EBin OXor u64 (EBin OShl u64 (EVar 25) (EInt 8)) (EBin OShr u64 (EVar 25) (EInt 56))) ;;
    SSet 26 (EBin OXor u64 (EVar 26) (EVar 61)) ;;
    SSet 45 (EBin OXor u64 (EBin OShl u64 (EVar 26) (EInt 18)) (EBin OShr u64 (EVar 26) (EInt 46))) ;;
    SSet 76 (EBin OXor u64 (EVar 41) (EBin OAnd u64 (EUn ONot u64 (EVar 42)) (EVar 43)))) ;;
    (
    SSet 56 (EBin OXor u64 (EVar 56) (EVar 76)) ;;
    SSet 77 (EBin OXor u64 (EVar 42) (EBin OAnd u64 (EUn ONot u64 (EVar 43)) (EVar 44))) ;;
    SSet 57 (EBin OXor u64 (EVar 57) (EVar 77)) ;;
    SSet 78 (EBin OXor u64 (EVar 43) (EBin OAnd u64 (EUn ONot u64 (EVar 44)) (EVar 45))) ;;
    SSet 58 (EBin OXor u64 (EVar 58) (EVar 78)) ;;
    SSet 79 (EBin OXor u64 (EVar 44) (EBin OAnd u64 (EUn ONot u64 (EVar 45)) (EVar 41))) ;;
    SSet 59 (EBin OXor u64 (EVar 59) (EVar 79)) ;;
    SSet 80 (EBin OXor u64 (EVar 45) (EBin OAnd u64 (EUn ONot u64 (EVar 41)) (EVar 42))) ;;
    SSet 60 (EBin OXor u64 (EVar 60) (EVar 80)) ;;
    SSet 10 (EBin OXor u64 (EVar 10) (EVar 65)) ;;
    SSet 46 (EBin OXor u64 (EBin OShl u64 (EVar 10) (EInt 27)) (EBin OShr u64 (EVar 10) (EInt 37))) ;;
    SSet 11 (EBin OXor u64 (EVar 11) (EVar 61)) ;;
    SSet 47 (EBin OXor u64 (EBin OShl u64 (EVar 11) (EInt 36)) (EBin OShr u64 (EVar 11) (EInt 28))) ;;
    SSet 17 (EBin OXor u64 (EVar 17) (EVar 62)) ;;
    SSet 48 (EBin OXor u64 (EBin OShl u64 (EVar 17) (EInt 10)) (EBin OShr u64 (EVar 17) (EInt 54))) ;;
    SSet 23 (EBin OXor u64 (EVar 23) (EVar 63)) ;;
    SSet 49 (EBin OXor u64 (EBin OShl u64 (EVar 23) (EInt 15)) (EBin OShr u64 (EVar 23) (EInt 49))) ;;
    SSet 29 (EBin OXor u64 (EVar 29) (EVar 64)) ;;
    SSet 50 (EBin OXor u64 (EBin OShl u64 (EVar 29) (EInt 56)) (EBin OShr u64 (EVar 29) (EInt 8))) ;;
    SSet 81 (EBin OXor u64 (EVar 46) (EBin OAnd u64 (EUn ONot u64 (EVar 47)) (EVar 48))) ;;
    SSet 56 (EBin OXor u64 (EVar 56) (EVar 81)) ;;
    SSet 82 (EBin OXor u64 (EVar 47) (EBin OAnd u64 (EUn ONot u64 (EVar 48)) (EVar 49))) ;;
    SSet 57 (EBin OXor u64 (EVar 57) (EVar 82)) ;;
    SSet 83 (EBin OXor u64 (EVar 48) (EBin OAnd u64 (EUn ONot u64 (EVar 49)) (EVar 50))) ;;
    SSet 58 (EBin OXor u64 (EVar 58) (EVar 83)) ;;
    SSet 84 (EBin OXor u64 (EVar 49) (EBin OAnd u64 (EUn ONot u64 (EVar 50)) (EVar 46))) ;;
    SSet 59 (EBin OXor u64 (EVar 59) (EVar 84)) ;;
    SSet 85 (EBin OXor u64 (EVar 50) (EBin OAnd u64 (EUn ONot u64 (EVar 46)) (EVar 47))) ;;
    SSet 60 (EBin OXor u64 (EVar 60) (EVar 85)) ;;
    SSet 8 (EBin OXor u64 (EVar 8) (EVar 63)) ;;
    SSet 51 (EBin OXor u64 (EBin OShl u64 (EVar 8) (EInt 62)) (EBin OShr u64 (EVar 8) (EInt 2))) ;;
    SSet 14 (EBin OXor u64 (EVar 14) (EVar 64)) ;;
    SSet 52 (EBin OXor u64 (EBin OShl u64 (EVar 14) (EInt 55)) (EBin OShr u64 (EVar 14) (EInt 9))) ;;
    SSet 20 (EBin OXor u64 (EVar 20) (EVar 65)) ;;
    SSet 53 (EBin OXor u64 (EBin OShl u64 (EVar 20) (EInt 39)) (EBin OShr u64 (EVar 20) (EInt 25))) ;;
    SSet 21 (EBin OXor u64 (EVar 21) (EVar 61)) ;;
    SSet 54 (EBin OXor u64 (EBin OShl u64 (EVar 21) (EInt 41)) (EBin OShr u64 (EVar 21) (EInt 23))) ;;
    SSet 27 (EBin OXor u64 (EVar 27) (EVar 62)) ;;
    SSet 55 (EBin OXor u64 (EBin OShl u64 (EVar 27) (EInt 2)) (EBin OShr u64 (EVar 27) (EInt 62))) ;;
    SSet 86 (EBin OXor u64 (EVar 51) (EBin OAnd u64 (EUn ONot u64 (EVar 52)) (EVar 53))))))) ;;
    (
    (
    (
    (
    SSet 56 (EBin OXor u64 (EVar 56) (EVar 86)) ;;
    SSet 87 (EBin OXor u64 (EVar 52) (EBin OAnd u64 (EUn ONot u64 (EVar 53)) (EVar 54))) ;;
    SSet 57 (EBin OXor u64 (EVar 57) (EVar 87)) ;;
    SSet 88 (EBin OXor u64 (EVar 53) (EBin OAnd u64 (EUn ONot u64 (EVar 54)) (EVar 55))) ;;
    SSet 58 (EBin OXor u64 (EVar 58) (EVar 88)) ;;
    SSet 89 (EBin OXor u64 (EVar 54) (EBin OAnd u64 (EUn ONot u64 (EVar 55)) (EVar 51))) ;;
    SSet 59 (EBin OXor u64 (EVar 59) (EVar 89)) ;;
    SSet 90 (EBin OXor u64 (EVar 55) (EBin OAnd u64 (EUn ONot u64 (EVar 51)) (EVar 52))) ;;
    SSet 60 (EBin OXor u64 (EVar 60) (EVar 90)) ;;
    SSet 61 (EBin OXor u64 (EVar 60) (EBin OXor u64 (EBin OShl u64 (EVar 57) (EInt 1)) (EBin OShr u64 (EVar 57) (EInt 63)))) ;;
    SSet 62 (EBin OXor u64 (EVar 56) (EBin OXor u64 (EBin OShl u64 (EVar 58) (EInt 1)) (EBin OShr u64 (EVar 58) (EInt 63)))) ;;
    SSet 63 (EBin OXor u64 (EVar 57) (EBin OXor u64 (EBin OShl u64 (EVar 59) (EInt 1)) (EBin OShr u64 (EVar 59) (EInt 63)))) ;;
    SSet 64 (EBin OXor u64 (EVar 58) (EBin OXor u64 (EBin OShl u64 (EVar 60) (EInt 1)) (EBin OShr u64 (EVar 60) (EInt 63)))) ;;
    SSet 65 (EBin OXor u64 (EVar 59) (EBin OXor u64 (EBin OShl u64 (EVar 56) (EInt 1)) (EBin OShr u64 (EVar 56) (EInt 63)))) ;;
    SSet 66 (EBin OXor u64 (EVar 66) (EVar 61)) ;;
    SSet 31 (EVar 66) ;;
    SSet 72 (EBin OXor u64 (EVar 72) (EVar 62)) ;;
    SSet 32 (EBin OXor u64 (EBin OShl u64 (EVar 72) (EInt 44)) (EBin OShr u64 (EVar 72) (EInt 20))) ;;
    SSet 78 (EBin OXor u64 (EVar 78) (EVar 63)) ;;
    SSet 33 (EBin OXor u64 (EBin OShl u64 (EVar 78) (EInt 43)) (EBin OShr u64 (EVar 78) (EInt 21))) ;;
    SSet 84 (EBin OXor u64 (EVar 84) (EVar 64)) ;;
    SSet 34 (EBin OXor u64 (EBin OShl u64 (EVar 84) (EInt 21)) (EBin OShr u64 (EVar 84) (EInt 43))) ;;
    SSet 90 (EBin OXor u64 (EVar 90) (EVar 65)) ;;
    SSet 35 (EBin OXor u64 (EBin OShl u64 (EVar 90) (EInt 14)) (EBin OShr u64 (EVar 90) (EInt 50))) ;;
    SSet 6 (EBin OXor u64 (EVar 31) (EBin OAnd u64 (EUn ONot u64 (EVar 32)) (EVar 33))) ;;
    SSet 6 (EBin OXor u64 (EVar 6) (ELoad 8 (EAt (EGlob 1) 8 (EInt 3)))) ;;
    SSet 56 (EVar 6) ;;
    SSet 7 (EBin OXor u64 (EVar 32) (EBin OAnd u64 (EUn ONot u64 (EVar 33)) (EVar 34))) ;;
    SSet 57 (EVar 7) ;;
    SSet 8 (EBin OXor u64 (EVar 33) (EBin OAnd u64 (EUn ONot u64 (EVar 34)) (EVar 35))) ;;
    SSet 58 (EVar 8) ;;
    SSet 9 (EBin OXor u64 (EVar 34) (EBin OAnd u64 (EUn ONot u64 (EVar 35)) (EVar 31))) ;;
    SSet 59 (EVar 9) ;;
    SSet 10 (EBin OXor u64 (EVar 35) (EBin OAnd u64 (EUn ONot u64 (EVar 31)) (EVar 32))) ;;
    SSet 60 (EVar 10) ;;
    SSet 69 (EBin OXor u64 (EVar 69) (EVar 64)) ;;
    SSet 36 (EBin OXor u64 (EBin OShl u64 (EVar 69) (EInt 28)) (EBin OShr u64 (EVar 69) (EInt 36))) ;;
    SSet 75 (EBin OXor u64 (EVar 75) (EVar 65)) ;;
    SSet 37 (EBin OXor u64 (EBin OShl u64 (EVar 75) (EInt 20)) (EBin OShr u64 (EVar 75) (EInt 44)))) ;;
    (
    SSet 76 (EBin OXor u64 (EVar 76) (EVar 61)) ;;
    SSet 38 (EBin OXor u64 (EBin OShl u64 (EVar 76) (EInt 3)) (EBin OShr u64 (EVar 76) (EInt 61))) ;;
    SSet 82 (EBin OXor u64 (EVar 82) (EVar 62)) ;;
    SSet 39 (EBin OXor u64 (EBin OShl u64 (EVar 82) (EInt 45)) (EBin OShr u64 (EVar 82) (EInt 19))) ;;
    SSet 88 (EBin OXor u64 (EVar 88) (EVar 63)) ;;
    SSet 40 (EBin OXor u64 (EBin OShl u64 (EVar 88) (EInt 61)) (EBin OShr u64 (EVar 88) (EInt 3))) ;;
    SSet 11 (EBin OXor u64 (EVar 36) (EBin OAnd u64 (EUn ONot u64 (EVar 37)) (EVar 38))) ;;
    SSet 56 (EBin OXor u64 (EVar 56) (EVar 11)) ;;
    SSet 12 (EBin OXor u64 (EVar 37) (EBin OAnd u64 (EUn ONot u64 (EVar 38)) (EVar 39))) ;;
    SSet 57 (EBin OXor u64 (EVar 57) (EVar 12)) ;;
    SSet 13 (EBin OXor u64 (EVar 38) (EBin OAnd u64 (EUn ONot u64 (EVar 39)) (EVar 40))) ;;
    SSet 58 (EBin OXor u64 (EVar 58) (EVar 13)) ;;
    SSet 14 (EBin OXor u64 (EVar 39) (EBin OAnd u64 (EUn ONot u64 (EVar 40)) (EVar 36))) ;;
    SSet 59 (EBin OXor u64 (EVar 59) (EVar 14)) ;;
    SSet 15 (EBin OXor u64 (EVar 40) (EBin OAnd u64 (EUn ONot u64 (EVar 36)) (EVar 37))) ;;
    SSet 60 (EBin OXor u64 (EVar 60) (EVar 15)) ;;
    SSet 67 (EBin OXor u64 (EVar 67) (EVar 62)) ;;
    SSet 41 (EBin OXor u64 (EBin OShl u64 (EVar 67) (EInt 1)) (EBin OShr u64 (EVar 67) (EInt 63))) ;;
    SSet 73 (EBin OXor u64 (EVar 73) (EVar 63)) ;;
    SSet 42 (EBin OXor u64 (EBin OShl u64 (EVar 73) (EInt 6)) (EBin OShr u64 (EVar 73) (EInt 58))) ;;
    SSet 79 (EBin OXor u64 (EVar 79) (EVar 64)) ;;
    SSet 43 (EBin OXor u64 (EBin OShl u64 (EVar 79) (EInt 25)) (EBin OShr u64 (EVar 79) (EInt 39))) ;;
    SSet 85 (EBin OXor u64 (EVar 85) (EVar 65)) ;;
    SSet 44 (EBin OXor u64 (EBin OShl u64 (EVar 85) (EInt 8)) (EBin OShr u64 (EVar 85) (EInt 56))) ;;
    SSet 86 (EBin OXor u64 (EVar 86) (EVar 61)) ;;
    SSet 45 (EBin OXor u64 (EBin OShl u64 (EVar 86) (EInt 18)) (EBin OShr u64 (EVar 86) (EInt 46))) ;;
    SSet 16 (EBin OXor u64 (EVar 41) (EBin OAnd u64 (EUn ONot u64 (EVar 42)) (EVar 43))) ;;
    SSet 56 (EBin OXor u64 (EVar 56) (EVar 16)) ;;
    SSet 17 (EBin OXor u64 (EVar 42) (EBin OAnd u64 (EUn ONot u64 (EVar 43)) (EVar 44))) ;;
    SSet 57 (EBin OXor u64 (EVar 57) (EVar 17)) ;;
    SSet 18 (EBin OXor u64 (EVar 43) (EBin OAnd u64 (EUn ONot u64 (EVar 44)) (EVar 45))) ;;
    SSet 58 (EBin OXor u64 (EVar 58) (EVar 18)) ;;
    SSet 19 (EBin OXor u64 (EVar 44) (EBin OAnd u64 (EUn ONot u64 (EVar 45)) (EVar 41))) ;;
    SSet 59 (EBin OXor u64 (EVar 59) (EVar 19)) ;;
    SSet 20 (EBin OXor u64 (EVar 45) (EBin OAnd u64 (EUn ONot u64 (EVar 41)) (EVar 42))) ;;
    SSet 60 (EBin OXor u64 (EVar 60) (EVar 20)) ;;
    SSet 70 (EBin OXor u64 (EVar 70) (EVar 65)) ;;
    SSet 46 (EBin OXor u64 (EBin OShl u64 (EVar 70) (EInt 27)) (EBin OShr u64 (EVar 70) (EInt 37))) ;;
    SSet 71 (EBin OXor u64 (EVar 71) (EVar 61)) ;;
    SSet 47 (EBin OXor u64 (EBin OShl u64 (EVar 71) (EInt 36)) (EBin OShr u64 (EVar 71) (EInt 28))))) ;;
    (
    (
    SSet 77 (EBin OXor u64 (EVar 77) (EVar 62)) ;;
    SSet 48 (EBin OXor u64 (EBin OShl u64 (EVar 77) (EInt 10)) (EBin OShr u64 (EVar 77) (EInt 54))) ;;
    SSet 83 (EBin OXor u64 (EVar 83) (EVar 63)) ;;
    SSet 49 (EBin OXor u64 (EBin OShl u64 (EVar 83) (EInt 15)) (EBin OShr u64 (EVar 83) (EInt 49))) ;;
    SSet 89 (EBin OXor u64 (EVar 89) (EVar 64)) ;;
    SSet 50 (EBin OXor u64 (EBin OShl u64 (EVar 89) (EInt 56)) (EBin OShr u64 (EVar 89) (EInt 8))) ;;
    SSet 21 (EBin OXor u64 (EVar 46) (EBin OAnd u64 (EUn ONot u64 (EVar 47)) (EVar 48))) ;;
    SSet 56 (EBin OXor u64 (EVar 56) (EVar 21)) ;;
    SSet 22 (EBin OXor u64 (EVar 47) (EBin OAnd u64 (EUn ONot u64 (EVar 48)) (EVar 49))) ;;
    SSet 57 (EBin OXor u64 (EVar 57) (EVar 22)) ;;
    SSet 23 (EBin OXor u64 (EVar 48) (EBin OAnd u64 (EUn ONot u64 (EVar 49)) (EVar 50))) ;;
    SSet 58 (EBin OXor u64 (EVar 58) (EVar 23)) ;;
    SSet 24 (EBin OXor u64 (EVar 49) (EBin OAnd u64 (EUn ONot u64 (EVar 50)) (EVar 46))) ;;
    SSet 59 (EBin OXor u64 (EVar 59) (EVar 24)) ;;
    SSet 25 (EBin OXor u64 (EVar 50) (EBin OAnd u64 (EUn ONot u64 (EVar 46)) (EVar 47))) ;;
    SSet 60 (EBin OXor u64 (EVar 60) (EVar 25)) ;;
    SSet 68 (EBin OXor u64 (EVar 68) (EVar 63)) ;;
    SSet 51 (EBin OXor u64 (EBin OShl u64 (EVar 68) (EInt 62)) (EBin OShr u64 (EVar 68) (EInt 2))) ;;
    SSet 74 (EBin OXor u64 (EVar 74) (EVar 64)) ;;
    SSet 52 (EBin OXor u64 (EBin OShl u64 (EVar 74) (EInt 55)) (EBin OShr u64 (EVar 74) (EInt 9))) ;;
    SSet 80 (EBin OXor u64 (EVar 80) (EVar 65)) ;;
    SSet 53 (EBin OXor u64 (EBin OShl u64 (EVar 80) (EInt 39)) (EBin OShr u64 (EVar 80) (EInt 25))) ;;
    SSet 81 (EBin OXor u64 (EVar 81) (EVar 61)) ;;
    SSet 54 (EBin OXor u64 (EBin OShl u64 (EVar 81) (EInt 41)) (EBin OShr u64 (EVar 81) (EInt 23))) ;;
    SSet 87 (EBin OXor u64 (EVar 87) (EVar 62)) ;;
    SSet 55 (EBin OXor u64 (EBin OShl u64 (EVar 87) (EInt 2)) (EBin OShr u64 (EVar 87) (EInt 62))) ;;
    SSet 26 (EBin OXor u64 (EVar 51) (EBin OAnd u64 (EUn ONot u64 (EVar 52)) (EVar 53))) ;;
    SSet 56 (EBin OXor u64 (EVar 56) (EVar 26)) ;;
    SSet 27 (EBin OXor u64 (EVar 52) (EBin OAnd u64 (EUn ONot u64 (EVar 53)) (EVar 54))) ;;
    SSet 57 (EBin OXor u64 (EVar 57) (EVar 27)) ;;
    SSet 28 (EBin OXor u64 (EVar 53) (EBin OAnd u64 (EUn ONot u64 (EVar 54)) (EVar 55))) ;;
    SSet 58 (EBin OXor u64 (EVar 58) (EVar 28)) ;;
    SSet 29 (EBin OXor u64 (EVar 54) (EBin OAnd u64 (EUn ONot u64 (EVar 55)) (EVar 51))) ;;
    SSet 59 (EBin OXor u64 (EVar 59) (EVar 29)) ;;
    SSet 30 (EBin OXor u64 (EVar 55) (EBin OAnd u64 (EUn ONot u64 (EVar 51)) (EVar 52))) ;;
    SSet 60 (EBin OXor u64 (EVar 60) (EVar 30)) ;;
    SSet 61 (EBin OXor u64 (EVar 60) (EBin OXor u64 (EBin OShl u64 (EVar 57) (EInt 1)) (EBin OShr u64 (EVar 57) (EInt 63)))) ;;
    SSet 62 (EBin OXor u64 (EVar 56) (EBin OXor u64 (EBin OShl u64 (EVar 58) (EInt 1)) (EBin OShr u64 (EVar 58) (EInt 63)))) ;;
    SSet 63 (EBin OXor u64 (EVar 57) (EBin OXor u64 (EBin OShl u64 (EVar 59) (EInt 1)) (EBin OShr u64 (EVar 59) (EInt 63))))) ;;
    (
    SSet 64 (EBin OXor u64 (EVar 58) (EBin OXor u64 (EBin OShl u64 (EVar 60) (EInt 1)) (EBin OShr u64 (EVar 60) (EInt 63)))) ;;
    SSet 65 (EBin OXor u64 (EVar 59) (EBin OXor u64 (EBin OShl u64 (EVar 56) (EInt 1)) (EBin OShr u64 (EVar 56) (EInt 63)))) ;;
    SSet 6 (EBin OXor u64 (EVar 6) (EVar 61)) ;;
    SSet 31 (EVar 6) ;;
    SSet 12 (EBin OXor u64 (EVar 12) (EVar 62)) ;;
    SSet 32 (EBin OXor u64 (EBin OShl u64 (EVar 12) (EInt 44)) (EBin OShr u64 (EVar 12) (EInt 20))) ;;
    SSet 18 (EBin OXor u64 (EVar 18) (EVar 63)) ;;
    SSet 33 (EBin OXor u64 (EBin OShl u64 (EVar 18) (EInt 43)) (EBin OShr u64 (EVar 18) (EInt 21))) ;;
    SSet 24 (EBin OXor u64 (EVar 24) (EVar 64)) ;;
    SSet 34 (EBin OXor u64 (EBin OShl u64 (EVar 24) (EInt 21)) (EBin OShr u64 (EVar 24) (EInt 43))) ;;
    SSet 30 (EBin OXor u64 (EVar 30) (EVar 65)) ;;
    SSet 35 (EBin OXor u64 (EBin OShl u64 (EVar 30) (EInt 14)) (EBin OShr u64 (EVar 30) (EInt 50))) ;;
    SSet 66 (EBin OXor u64 (EVar 31) (EBin OAnd u64 (EUn ONot u64 (EVar 32)) (EVar 33))) ;;
    SSet 66 (EBin OXor u64 (EVar 66) (ELoad 8 (EAt (EGlob 1) 8 (EInt 4)))) ;;
    SSet 56 (EVar 66) ;;
    SSet 67 (EBin OXor u64 (EVar 32) (EBin OAnd u64 (EUn ONot u64 (EVar 33)) (EVar 34))) ;;
    SSet 57 (EVar 67) ;;
    SSet 68 (EBin OXor u64 (EVar 33) (EBin OAnd u64 (EUn ONot u64 (EVar 34)) (EVar 35))) ;;
    SSet 58 (EVar 68) ;;
    SSet 69 (EBin OXor u64 (EVar 34) (EBin OAnd u64 (EUn ONot u64 (EVar 35)) (EVar 31))) ;;
    SSet 59 (EVar 69) ;;
    SSet 70 (EBin OXor u64 (EVar 35) (EBin OAnd u64 (EUn ONot u64 (EVar 31)) (EVar 32))) ;;
    SSet 60 (EVar 70) ;;
    SSet 9 (EBin OXor u64 (EVar 9) (EVar 64)) ;;
    SSet 36 (EBin OXor u64 (EBin OShl u64 (EVar 9) (EInt 28)) (EBin OShr u64 (EVar 9) (EInt 36))) ;;
    SSet 15 (EBin OXor u64 (EVar 15) (EVar 65)) ;;
    SSet 37 (EBin OXor u64 (EBin OShl u64 (EVar 15) (EInt 20)) (EBin OShr u64 (EVar 15) (EInt 44))) ;;
    SSet 16 (EBin OXor u64 (EVar 16) (EVar 61)) ;;
    SSet 38 (EBin OXor u64 (EBin OShl u64 (EVar 16) (EInt 3)) (EBin OShr u64 (EVar 16) (EInt 61))) ;;
    SSet 22 (EBin OXor u64 (EVar 22) (EVar 62)) ;;
    SSet 39 (EBin OXor u64 (EBin OShl u64 (EVar 22) (EInt 45)) (EBin OShr u64 (EVar 22) (EInt 19))) ;;
    SSet 28 (EBin OXor u64 (EVar 28) (EVar 63)) ;;
    SSet 40 (EBin OXor u64 (EBin OShl u64 (EVar 28) (EInt 61)) (EBin OShr u64 (EVar 28) (EInt 3))) ;;
    SSet 71 (EBin OXor u64 (EVar 36) (EBin OAnd u64 (EUn ONot u64 (EVar 37)) (EVar 38))) ;;
    SSet 56 (EBin OXor u64 (EVar 56) (EVar 71)) ;;
    SSet 72 (EBin OXor u64 (EVar 37) (EBin OAnd u64 (EUn ONot u64 (EVar 38)) (EVar 39))) ;;
    SSet 57 (EBin OXor u64 (EVar 57) (EVar 72)) ;;
    SSet 73 (EBin OXor u64 (EVar 38) (EBin OAnd u64 (EUn ONot u64 (EVar 39)) (EVar 40))) ;;
    SSet 58 (EBin OXor u64 (EVar 58) (EVar 73)) ;;
    SSet 74 (EBin OXor u64 (EVar 39) (EBin OAnd u64 (EUn ONot u64 (EVar 40)) (EVar 36)))))) ;;
    (
    (
    (
    SSet 59 (EBin OXor u64 (EVar 59) (EVar 74)) ;;
    SSet 75 (EBin OXor u64 (EVar 40) (EBin OAnd u64 (EUn ONot u64 (EVar 36)) (EVar 37))) ;;
    SSet 60 (EBin OXor u64 (EVar 60) (EVar 75)) ;;
    SSet 7 (EBin OXor u64 (EVar 7) (EVar 62)) ;;
    SSet 41 (EBin OXor u64 (EBin OShl u64 (EVar 7) (EInt 1)) (EBin OShr u64 (EVar 7) (EInt 63))) ;;
    SSet 13 (EBin OXor u64 (EVar 13) (EVar 63)) ;;
    SSet 42 (EBin OXor u64 (EBin OShl u64 (EVar 13) (EInt 6)) (EBin OShr u64 (EVar 13) (EInt 58))) ;;
    SSet 19 (EBin OXor u64 (EVar 19) (EVar 64)) ;;
    SSet 43 (EBin OXor u64 (EBin OShl u64 (EVar 19) (EInt 25)) (EBin OShr u64 (EVar 19) (EInt 39))) ;;
    SSet 25 (EBin OXor u64 (EVar 25) (EVar 65)) ;;
    SSet 44 (EBin OXor u64 (EBin OShl u64 (EVar 25) (EInt 8)) (EBin OShr u64 (EVar 25) (EInt 56))) ;;
    SSet 26 (EBin OXor u64 (EVar 26) (EVar 61)) ;;
    SSet 45 (EBin OXor u64 (EBin OShl u64 (EVar 26) (EInt 18)) (EBin OShr u64 (EVar 26) (EInt 46))) ;;
    SSet 76 (EBin OXor u64 (EVar 41) (EBin OAnd u64 (EUn ONot u64 (EVar 42)) (EVar 43))) ;;
    SSet 56 (EBin OXor u64 (EVar 56) (EVar 76)) ;;
    SSet 77 (EBin OXor u64 (EVar 42) (EBin OAnd u64 (EUn ONot u64 (EVar 43)) (EVar 44))) ;;
    SSet 57 (EBin OXor u64 (EVar 57) (EVar 77)) ;;
    SSet 78 (EBin OXor u64 (EVar 43) (EBin OAnd u64 (EUn ONot u64 (EVar 44)) (EVar 45))) ;;
    SSet 58 (EBin OXor u64 (EVar 58) (EVar 78)) ;;
    SSet 79 (EBin OXor u64 (EVar 44) (EBin OAnd u64 (EUn ONot u64 (EVar 45)) (EVar 41))) ;;
    SSet 59 (EBin OXor u64 (EVar 59) (EVar 79)) ;;
    SSet 80 (EBin OXor u64 (EVar 45) (EBin OAnd u64 (EUn ONot u64 (EVar 41)) (EVar 42))) ;;
    SSet 60 (EBin OXor u64 (EVar 60) (EVar 80)) ;;
    SSet 10 (EBin OXor u64 (EVar 10) (EVar 65)) ;;
    SSet 46 (EBin OXor u64 (EBin OShl u64 (EVar 10) (EInt 27)) (EBin OShr u64 (EVar 10) (EInt 37))) ;;
    SSet 11 (EBin OXor u64 (EVar 11) (EVar 61)) ;;
    SSet 47 (EBin OXor u64 (EBin OShl u64 (EVar 11) (EInt 36)) (EBin OShr u64 (EVar 11) (EInt 28))) ;;
    SSet 17 (EBin OXor u64 (EVar 17) (EVar 62)) ;;
    SSet 48 (EBin OXor u64 (EBin OShl u64 (EVar 17) (EInt 10)) (EBin OShr u64 (EVar 17) (EInt 54))) ;;
    SSet 23 (EBin OXor u64 (EVar 23) (EVar 63)) ;;
    SSet 49 (EBin OXor u64 (EBin OShl u64 (EVar 23) (EInt 15)) (EBin OShr u64 (EVar 23) (EInt 49))) ;;
    SSet 29 (EBin OXor u64 (EVar 29) (EVar 64)) ;;
    SSet 50 (EBin OXor u64 (EBin OShl u64 (EVar 29) (EInt 56)) (EBin OShr u64 (EVar 29) (EInt 8))) ;;
    SSet 81 (EBin OXor u64 (EVar 46) (EBin OAnd u64 (EUn ONot u64 (EVar 47)) (EVar 48))) ;;
    SSet 56 (EBin OXor u64 (EVar 56) (EVar 81)) ;;
    SSet 82 (EBin OXor u64 (EVar 47) (EBin OAnd u64 (EUn ONot u64 (EVar 48)) (EVar 49))) ;;
    SSet 57 (EBin OXor u64 (EVar 57) (EVar 82)) ;;
    SSet 83 (EBin OXor u64 (EVar 48) (EBin OAnd u64 (EUn ONot u64 (EVar 49)) (EVar 50))) ;;
    SSet 58 (EBin OXor u64 (EVar 58) (EVar 83))) ;;
    (
    SSet 84 (EBin OXor u64 (EVar 49) (EBin OAnd u64 (EUn ONot u64 (EVar 50)) (EVar 46))) ;;
    SSet 59 (EBin OXor u64 (EVar 59) (EVar 84)) ;;
    SSet 85 (EBin OXor u64 (EVar 50) (EBin OAnd u64 (EUn ONot u64 (EVar 46)) (EVar 47))) ;;
    SSet 60 (EBin OXor u64 (EVar 60) (EVar 85)) ;;
    SSet 8 (EBin OXor u64 (EVar 8) (EVar 63)) ;;
    SSet 51 (EBin OXor u64 (EBin OShl u64 (EVar 8) (EInt 62)) (EBin OShr u64 (EVar 8) (EInt 2))) ;;
    SSet 14 (EBin OXor u64 (EVar 14) (EVar 64)) ;;
    SSet 52 (EBin OXor u64 (EBin OShl u64 (EVar 14) (EInt 55)) (EBin OShr u64 (EVar 14) (EInt 9))) ;;
    SSet 20 (EBin OXor u64 (EVar 20) (EVar 65)) ;;
    SSet 53 (EBin OXor u64 (EBin OShl u64 (EVar 20) (EInt 39)) (EBin OShr u64 (EVar 20) (EInt 25))) ;;
    SSet 21 (EBin OXor u64 (EVar 21) (EVar 61)) ;;
    SSet 54 (EBin OXor u64 (EBin OShl u64 (EVar 21) (EInt 41)) (EBin OShr u64 (EVar 21) (EInt 23))) ;;
    SSet 27 (EBin OXor u64 (EVar 27) (EVar 62)) ;;
    SSet 55 (EBin OXor u64 (EBin OShl u64 (EVar 27) (EInt 2)) (EBin OShr u64 (EVar 27) (EInt 62))) ;;
    SSet 86 (EBin OXor u64 (EVar 51) (EBin OAnd u64 (EUn ONot u64 (EVar 52)) (EVar 53))) ;;
    SSet 56 (EBin OXor u64 (EVar 56) (EVar 86)) ;;
    SSet 87 (EBin OXor u64 (EVar 52) (EBin OAnd u64 (EUn ONot u64 (EVar 53)) (EVar 54))) ;;
    SSet 57 (EBin OXor u64 (EVar 57) (EVar 87)) ;;
    SSet 88 (EBin OXor u64 (EVar 53) (EBin OAnd u64 (EUn ONot u64 (EVar 54)) (EVar 55))) ;;
    SSet 58 (EBin OXor u64 (EVar 58) (EVar 88)) ;;
    SSet 89 (EBin OXor u64 (EVar 54) (EBin OAnd u64 (EUn ONot u64 (EVar 55)) (EVar 51))) ;;
    SSet 59 (EBin OXor u64 (EVar 59) (EVar 89)) ;;
    SSet 90 (EBin OXor u64 (EVar 55) (EBin OAnd u64 (EUn ONot u64 (EVar 51)) (EVar 52))) ;;
    SSet 60 (EBin OXor u64 (EVar 60) (EVar 90)) ;;
    SSet 61 (EBin OXor u64 (EVar 60) (EBin OXor u64 (EBin OShl u64 (EVar 57) (EInt 1)) (EBin OShr u64 (EVar 57) (EInt 63)))) ;;
    SSet 62 (EBin OXor u64 (EVar 56) (EBin OXor u64 (EBin OShl u64 (EVar 58) (EInt 1)) (EBin OShr u64 (EVar 58) (EInt 63)))) ;;
    SSet 63 (EBin OXor u64 (EVar 57) (EBin OXor u64 (EBin OShl u64 (EVar 59) (EInt 1)) (EBin OShr u64 (EVar 59) (EInt 63)))) ;;
    SSet 64 (EBin OXor u64 (EVar 58) (EBin OXor u64 (EBin OShl u64 (EVar 60) (EInt 1)) (EBin OShr u64 (EVar 60) (EInt 63)))) ;;
    SSet 65 (EBin OXor u64 (EVar 59) (EBin OXor u64 (EBin OShl u64 (EVar 56) (EInt 1)) (EBin OShr u64 (EVar 56) (EInt 63)))) ;;
    SSet 66 (EBin OXor u64 (EVar 66) (EVar 61)) ;;
    SSet 31 (EVar 66) ;;
    SSet 72 (EBin OXor u64 (EVar 72) (EVar 62)) ;;
    SSet 32 (EBin OXor u64 (EBin OShl u64 (EVar 72) (EInt 44)) (EBin OShr u64 (EVar 72) (EInt 20))) ;;
    SSet 78 (EBin OXor u64 (EVar 78) (EVar 63)) ;;
    SSet 33 (EBin OXor u64 (EBin OShl u64 (EVar 78) (EInt 43)) (EBin OShr u64 (EVar 78) (EInt 21))) ;;
    SSet 84 (EBin OXor u64 (EVar 84) (EVar 64)) ;;
    SSet 34 (EBin OXor u64 (EBin OShl u64 (EVar 84) (EInt 21)) (EBin OShr u64 (EVar 84) (EInt 43))) ;;
    SSet 90 (EBin OXor u64 (EVar 90) (EVar 65)) ;;
    SSet 35 (EBin OXor u64 (EBin OShl u64 (EVar 90) (EInt 14)) (EBin OShr u64 (EVar 90) (EInt 50))) ;;
    SSet 6 (EBin OXor u64 (EVar 31) (EBin OAnd u64 (EUn ONot u64 (EVar 32)) (EVar 33))))) ;;
    (
    (
    SSet 6 (EBin OXor u64 (EVar 6) (ELoad 8 (EAt (EGlob 1) 8 (EInt 5)))) ;;
    SSet 56 (EVar 6) ;;
    SSet 7 (EBin OXor u64 (EVar 32) (EBin OAnd u64 (EUn ONot u64 (EVar 33)) (EVar 34))) ;;
    SSet 57 (EVar 7) ;;
    SSet 8 (EBin OXor u64 (EVar 33) (EBin OAnd u64 (EUn ONot u64 (EVar 34)) (EVar 35))) ;;
    SSet 58 (EVar 8) ;;
    SSet 9 (EBin OXor u64 (EVar 34) (EBin OAnd u64 (EUn ONot u64 (EVar 35)) (EVar 31))) ;;
    SSet 59 (EVar 9) ;;
    SSet 10 (EBin OXor u64 (EVar 35) (EBin OAnd u64 (EUn ONot u64 (EVar 31)) (EVar 32))) ;;
    SSet 60 (EVar 10) ;;
    SSet 69 (EBin OXor u64 (EVar 69) (EVar 64)) ;;
    SSet 36 (EBin OXor u64 (EBin OShl u64 (EVar 69) (EInt 28)) (EBin OShr u64 (EVar 69) (EInt 36))) ;;
    SSet 75 (EBin OXor u64 (EVar 75) (EVar 65)) ;;
    SSet 37 (EBin OXor u64 (EBin OShl u64 (EVar 75) (EInt 20)) (EBin OShr u64 (EVar 75) (EInt 44))) ;;
    SSet 76 (EBin OXor u64 (EVar 76) (EVar 61)) ;;
    SSet 38 (EBin OXor u64 (EBin OShl u64 (EVar 76) (EInt 3)) (EBin OShr u64 (EVar 76) (EInt 61))) ;;
    SSet 82 (EBin OXor u64 (EVar 82) (EVar 62)) ;;
    SSet 39 (EBin OXor u64 (EBin OShl u64 (EVar 82) (EInt 45)) (EBin OShr u64 (EVar 82) (EInt 19))) ;;
    SSet 88 (EBin OXor u64 (EVar 88) (EVar 63)) ;;
    SSet 40 (EBin OXor u64 (EBin OShl u64 (EVar 88) (EInt 61)) (EBin OShr u64 (EVar 88) (EInt 3))) ;;
    SSet 11 (EBin OXor u64 (EVar 36) (EBin OAnd u64 (EUn ONot u64 (EVar 37)) (EVar 38))) ;;
    SSet 56 (EBin OXor u64 (EVar 56) (EVar 11)) ;;
    SSet 12 (EBin OXor u64 (EVar 37) (EBin OAnd u64 (EUn ONot u64 (EVar 38)) (EVar 39))) ;;
    SSet 57 (EBin OXor u64 (EVar 57) (EVar 12)) ;;
    SSet 13 (EBin OXor u64 (EVar 38) (EBin OAnd u64 (EUn ONot u64 (EVar 39)) (EVar 40))) ;;
    SSet 58 (EBin OXor u64 (EVar 58) (EVar 13)) ;;
    SSet 14 (EBin OXor u64 (EVar 39) (EBin OAnd u64 (EUn ONot u64 (EVar 40)) (EVar 36))) ;;
    SSet 59 (EBin OXor u64 (EVar 59) (EVar 14)) ;;
    SSet 15 (EBin OXor u64 (EVar 40) (EBin OAnd u64 (EUn ONot u64 (EVar 36)) (EVar 37))) ;;
    SSet 60 (EBin OXor u64 (EVar 60) (EVar 15)) ;;
    SSet 67 (EBin OXor u64 (EVar 67) (EVar 62)) ;;
    SSet 41 (EBin OXor u64 (EBin OShl u64 (EVar 67) (EInt 1)) (EBin OShr u64 (EVar 67) (EInt 63))) ;;
    SSet 73 (EBin OXor u64 (EVar 73) (EVar 63)) ;;
    SSet 42 (EBin OXor u64 (EBin OShl u64 (EVar 73) (EInt 6)) (EBin OShr u64 (EVar 73) (EInt 58))) ;;
    SSet 79 (EBin OXor u64 (EVar 79) (EVar 64)) ;;
    SSet 43 (EBin OXor u64 (EBin OShl u64 (EVar 79) (EInt 25)) (EBin OShr u64 (EVar 79) (EInt 39))) ;;
    SSet 85 (EBin OXor u64 (EVar 85) (EVar 65)) ;;
    SSet 44 (EBin OXor u64 (EBin OShl u64 (EVar 85) (EInt 8)) (EBin OShr u64 (EVar 85) (EInt 56))) ;;
    SSet 86 (EBin OXor u64 (EVar 86) (EVar 61))) ;;
    (
    SSet 45 (EBin OXor u64 (EBin OShl u64 (EVar 86) (EInt 18)) (EBin OShr u64 (EVar 86) (EInt 46))) ;;
    SSet 16 (EBin OXor u64 (EVar 41) (EBin OAnd u64 (EUn ONot u64 (EVar 42)) (EVar 43))) ;;
    SSet 56 (EBin OXor u64 (EVar 56) (EVar 16)) ;;
    SSet 17 (EBin OXor u64 (EVar 42) (EBin OAnd u64 (EUn ONot u64 (EVar 43)) (EVar 44))) ;;
    SSet 57 (EBin OXor u64 (EVar 57) (EVar 17)) ;;
    SSet 18 (EBin OXor u64 (EVar 43) (EBin OAnd u64 (EUn ONot u64 (EVar 44)) (EVar 45))) ;;
    SSet 58 (EBin OXor u64 (EVar 58) (EVar 18)) ;;
    SSet 19 (EBin OXor u64 (EVar 44) (EBin OAnd u64 (EUn ONot u64 (EVar 45)) (EVar 41))) ;;
    SSet 59 (EBin OXor u64 (EVar 59) (EVar 19)) ;;
    SSet 20 (EBin OXor u64 (EVar 45) (EBin OAnd u64 (EUn ONot u64 (EVar 41)) (EVar 42))) ;;
    SSet 60 (EBin OXor u64 (EVar 60) (EVar 20)) ;;
    SSet 70 (EBin OXor u64 (EVar 70) (EVar 65)) ;;
    SSet 46 (EBin OXor u64 (EBin OShl u64 (EVar 70) (EInt 27)) (EBin OShr u64 (EVar 70) (EInt 37))) ;;
    SSet 71 (EBin OXor u64 (EVar 71) (EVar 61)) ;;
    SSet 47 (EBin OXor u64 (EBin OShl u64 (EVar 71) (EInt 36)) (EBin OShr u64 (EVar 71) (EInt 28))) ;;
    SSet 77 (EBin OXor u64 (EVar 77) (EVar 62)) ;;
    SSet 48 (EBin OXor u64 (EBin OShl u64 (EVar 77) (EInt 10)) (EBin OShr u64 (EVar 77) (EInt 54))) ;;
    SSet 83 (EBin OXor u64 (EVar 83) (EVar 63)) ;;
    SSet 49 (EBin OXor u64 (EBin OShl u64 (EVar 83) (EInt 15)) (EBin OShr u64 (EVar 83) (EInt 49))) ;;
    SSet 89 (EBin OXor u64 (EVar 89) (EVar 64)) ;;
    SSet 50 (EBin OXor u64 (EBin OShl u64 (EVar 89) (EInt 56)) (EBin OShr u64 (EVar 89) (EInt 8))) ;;
    SSet 21 (EBin OXor u64 (EVar 46) (EBin OAnd u64 (EUn ONot u64 (EVar 47)) (EVar 48))) ;;
    SSet 56 (EBin OXor u64 (EVar 56) (EVar 21)) ;;
    SSet 22 (EBin OXor u64 (EVar 47) (EBin OAnd u64 (EUn ONot u64 (EVar 48)) (EVar 49))) ;;
    SSet 57 (EBin OXor u64 (EVar 57) (EVar 22)) ;;
    SSet 23 (EBin OXor u64 (EVar 48) (EBin OAnd u64 (EUn ONot u64 (EVar 49)) (EVar 50))) ;;
    SSet 58 (EBin OXor u64 (EVar 58) (EVar 23)) ;;
    SSet 24 (EBin OXor u64 (EVar 49) (EBin OAnd u64 (EUn ONot u64 (EVar 50)) (EVar 46))) ;;
    SSet 59 (EBin OXor u64 (EVar 59) (EVar 24)) ;;
    SSet 25 (EBin OXor u64 (EVar 50) (EBin OAnd u64 (EUn ONot u64 (EVar 46)) (EVar 47))) ;;
    SSet 60 (EBin OXor u64 (EVar 60) (EVar 25)) ;;
    SSet 68 (EBin OXor u64 (EVar 68) (EVar 63)) ;;
    SSet 51 (EBin OXor u64 (EBin OShl u64 (EVar 68) (EInt 62)) (EBin OShr u64 (EVar 68) (EInt 2))) ;;
    SSet 74 (EBin OXor u64 (EVar 74) (EVar 64)) ;;
    SSet 52 (EBin OXor u64 (EBin OShl u64 (EVar 74) (EInt 55)) (EBin OShr u64 (EVar 74) (EInt 9))) ;;
    SSet 80 (EBin OXor u64 (EVar 80) (EVar 65)) ;;
    SSet 53 (EBin OXor u64 (EBin OShl u64 (EVar 80) (EInt 39)) (EBin OShr u64 (EVar 80) (EInt 25))) ;;
    SSet 81 (EBin OXor u64 (EVar 81) (EVar 61)) ;;
    SSet 54 (EBin OXor u64 (EBin OShl u64 (EVar 81) (EInt 41)) (EBin OShr u64 (EVar 81) (EInt 23))) ;;
    SSet 87 (EBin OXor u64 (EVar 87) (EVar 62))))))) ;;
    (
    (
    (
    (
    (
    SSet 55 (EBin OXor u64 (EBin OShl u64 (EVar 87) (EInt 2)) (EBin OShr u64 (EVar 87) (EInt 62))) ;;
    SSet 26 (EBin OXor u64 (EVar 51) (EBin OAnd u64 (EUn ONot u64 (EVar 52)) (EVar 53))) ;;
    SSet 56 (EBin OXor u64 (EVar 56) (EVar 26)) ;;
    SSet 27 (EBin OXor u64 (EVar 52) (EBin OAnd u64 (EUn ONot u64 (EVar 53)) (EVar 54))) ;;
    SSet 57 (EBin OXor u64 (EVar 57) (EVar 27)) ;;
    SSet 28 (EBin OXor u64 (EVar 53) (EBin OAnd u64 (EUn ONot u64 (EVar 54)) (EVar 55))) ;;
    SSet 58 (EBin OXor u64 (EVar 58) (EVar 28)) ;;
    SSet 29 (EBin OXor u64 (EVar 54) (EBin OAnd u64 (EUn ONot u64 (EVar 55)) (EVar 51))) ;;
    SSet 59 (EBin OXor u64 (EVar 59) (EVar 29)) ;;
    SSet 30 (EBin OXor u64 (EVar 55) (EBin OAnd u64 (EUn ONot u64 (EVar 51)) (EVar 52))) ;;
    SSet 60 (EBin OXor u64 (EVar 60) (EVar 30)) ;;
    SSet 61 (EBin OXor u64 (EVar 60) (EBin OXor u64 (EBin OShl u64 (EVar 57) (EInt 1)) (EBin OShr u64 (EVar 57) (EInt 63)))) ;;
    SSet 62 (EBin OXor u64 (EVar 56) (EBin OXor u64 (EBin OShl u64 (EVar 58) (EInt 1)) (EBin OShr u64 (EVar 58) (EInt 63)))) ;;
    SSet 63 (EBin OXor u64 (EVar 57) (EBin OXor u64 (EBin OShl u64 (EVar 59) (EInt 1)) (EBin OShr u64 (EVar 59) (EInt 63)))) ;;
    SSet 64 (EBin OXor u64 (EVar 58) (EBin OXor u64 (EBin OShl u64 (EVar 60) (EInt 1)) (EBin OShr u64 (EVar 60) (EInt 63)))) ;;
    SSet 65 (EBin OXor u64 (EVar 59) (EBin OXor u64 (EBin OShl u64 (EVar 56) (EInt 1)) (EBin OShr u64 (EVar 56) (EInt 63)))) ;;
    SSet 6 (EBin OXor u64 (EVar 6) (EVar 61)) ;;
    SSet 31 (EVar 6) ;;
    SSet 12 (EBin OXor u64 (EVar 12) (EVar 62)) ;;
    SSet 32 (EBin OXor u64 (EBin OShl u64 (EVar 12) (EInt 44)) (EBin OShr u64 (EVar 12) (EInt 20))) ;;
    SSet 18 (EBin OXor u64 (EVar 18) (EVar 63)) ;;
    SSet 33 (EBin OXor u64 (EBin OShl u64 (EVar 18) (EInt 43)) (EBin OShr u64 (EVar 18) (EInt 21))) ;;
    SSet 24 (EBin OXor u64 (EVar 24) (EVar 64)) ;;
    SSet 34 (EBin OXor u64 (EBin OShl u64 (EVar 24) (EInt 21)) (EBin OShr u64 (EVar 24) (EInt 43))) ;;
    SSet 30 (EBin OXor u64 (EVar 30) (EVar 65)) ;;
    SSet 35 (EBin OXor u64 (EBin OShl u64 (EVar 30) (EInt 14)) (EBin OShr u64 (EVar 30) (EInt 50))) ;;
    SSet 66 (EBin OXor u64 (EVar 31) (EBin OAnd u64 (EUn ONot u64 (EVar 32)) (EVar 33))) ;;
    SSet 66 (EBin OXor u64 (EVar 66) (ELoad 8 (EAt (EGlob 1) 8 (EInt 6)))) ;;
    SSet 56 (EVar 66) ;;
    SSet 67 (EBin OXor u64 (EVar 32) (EBin OAnd u64 (EUn ONot u64 (EVar 33)) (EVar 34))) ;;
    SSet 57 (EVar 67) ;;
    SSet 68 (EBin OXor u64 (EVar 33) (EBin OAnd u64 (EUn ONot u64 (EVar 34)) (EVar 35))) ;;
    SSet 58 (EVar 68) ;;
    SSet 69 (EBin OXor u64 (EVar 34) (EBin OAnd u64 (EUn ONot u64 (EVar 35)) (EVar 31))) ;;
    SSet 59 (EVar 69) ;;
    SSet 70 (EBin OXor u64 (EVar 35) (EBin OAnd u64 (EUn ONot u64 (EVar 31)) (EVar 32))) ;;
    SSet 60 (EVar 70) ;;
    SSet 9 (EBin OXor u64 (EVar 9) (EVar 64)) ;;
    SSet 36 (EBin OXor u64 (EBin OShl u64 (EVar 9) (EInt 28)) (EBin OShr u64 (EVar 9) (EInt 36)))) ;;
    (
    SSet 15 (EBin OXor u64 (EVar 15) (EVar 65)) ;;
    SSet 37 (EBin OXor u64 (EBin OShl u64 (EVar 15) (EInt 20)) (EBin OShr u64 (EVar 15) (EInt 44))) ;;
    SSet 16 (EBin OXor u64 (EVar 16) (EVar 61)) ;;
    SSet 38 (EBin OXor u64 (EBin OShl u64 (EVar 16) (EInt 3)) (EBin OShr u64 (EVar 16) (EInt 61))) ;;
    SSet 22 (EBin OXor u64 (EVar 22) (EVar 62)) ;;
    SSet 39 (EBin OXor u64 (EBin OShl u64 (EVar 22) (EInt 45)) (EBin OShr u64 (EVar 22) (EInt 19))) ;;
    SSet 28 (EBin OXor u64 (EVar 28) (EVar 63)) ;;
    SSet 40 (EBin OXor u64 (EBin OShl u64 (EVar 28) (EInt 61)) (EBin OShr u64 (EVar 28) (EInt 3))) ;;
    SSet 71 (EBin OXor u64 (EVar 36) (EBin OAnd u64 (EUn ONot u64 (EVar 37)) (EVar 38))) ;;
    SSet 56 (EBin OXor u64 (EVar 56) (EVar 71)) ;;
    SSet 72 (EBin OXor u64 (EVar 37) (EBin OAnd u64 (EUn ONot u64 (EVar 38)) (EVar 39))) ;;
    SSet 57 (EBin OXor u64 (EVar 57) (EVar 72)) ;;
    SSet 73 (EBin OXor u64 (EVar 38) (EBin OAnd u64 (EUn ONot u64 (EVar 39)) (EVar 40))) ;;
    SSet 58 (EBin OXor u64 (EVar 58) (EVar 73)) ;;
    SSet 74 (EBin OXor u64 (EVar 39) (EBin OAnd u64 (EUn ONot u64 (EVar 40)) (EVar 36))) ;;
    SSet 59 (EBin OXor u64 (EVar 59) (EVar 74)) ;;
    SSet 75 (EBin OXor u64 (EVar 40) (EBin OAnd u64 (EUn ONot u64 (EVar 36)) (EVar 37))) ;;
    SSet 60 (EBin OXor u64 (EVar 60) (EVar 75)) ;;
    SSet 7 (EBin OXor u64 (EVar 7) (EVar 62)) ;;
    SSet 41 (EBin OXor u64 (EBin OShl u64 (EVar 7) (EInt 1)) (EBin OShr u64 (EVar 7) (EInt 63))) ;;
    SSet 13 (EBin OXor u64 (EVar 13) (EVar 63)) ;;
    SSet 42 (EBin OXor u64 (EBin OShl u64 (EVar 13) (EInt 6)) (EBin OShr u64 (EVar 13) (EInt 58))) ;;
    SSet 19 (EBin OXor u64 (EVar 19) (EVar 64)) ;;
    SSet 43 (EBin OXor u64 (EBin OShl u64 (EVar 19) (EInt 25)) (EBin OShr u64 (EVar 19) (EInt 39))) ;;
    SSet 25 (EBin OXor u64 (EVar 25) (EVar 65)) ;;
    SSet 44 (EBin OXor u64 (EBin OShl u64 (EVar 25) (EInt 8)) (EBin OShr u64 (EVar 25) (EInt 56))) ;;
    SSet 26 (EBin OXor u64 (EVar 26) (EVar 61)) ;;
    SSet 45 (EBin OXor u64 (EBin OShl u64 (EVar 26) (EInt 18)) (EBin OShr u64 (EVar 26) (EInt 46))) ;;
    SSet 76 (EBin OXor u64 (EVar 41) (EBin OAnd u64 (EUn ONot u64 (EVar 42)) (EVar 43))) ;;
    SSet 56 (EBin OXor u64 (EVar 56) (EVar 76)) ;;
    SSet 77 (EBin OXor u64 (EVar 42) (EBin OAnd u64 (EUn ONot u64 (EVar 43)) (EVar 44))) ;;
    SSet 57 (EBin OXor u64 (EVar 57) (EVar 77)) ;;
    SSet 78 (EBin OXor u64 (EVar 43) (EBin OAnd u64 (EUn ONot u64 (EVar 44)) (EVar 45))) ;;
    SSet 58 (EBin OXor u64 (EVar 58) (EVar 78)) ;;
    SSet 79 (EBin OXor u64 (EVar 44) (EBin OAnd u64 (EUn ONot u64 (EVar 45)) (EVar 41))) ;;
    SSet 59 (EBin OXor u64 (EVar 59) (EVar 79)) ;;
    SSet 80 (EBin OXor u64 (EVar 45) (EBin OAnd u64 (EUn ONot u64 (EVar 41)) (EVar 42))) ;;
    SSet 60 (EBin OXor u64 (EVar 60) (EVar 80)) ;;
    SSet 10 (EBin OXor u64 (EVar 10) (EVar 65)) ;;
    SSet 46 (EBin OXor u64 (EBin OShl u64 (EVar 10) (EInt 27)) (EBin OShr u64 (EVar 10) (EInt 37))))) ;;
    (
    (
    SSet 11 (EBin OXor u64 (EVar 11) (EVar 61)) ;;
    SSet 47 (EBin OXor u64 (EBin OShl u64 (EVar 11) (EInt 36)) (EBin OShr u64 (EVar 11) (EInt 28))) ;;
    SSet 17 (EBin OXor u64 (EVar 17) (EVar 62)) ;;
    SSet 48 (EBin OXor u64 (EBin OShl u64 (EVar 17) (EInt 10)) (EBin OShr u64 (EVar 17) (EInt 54))) ;;
    SSet 23 (EBin OXor u64 (EVar 23) (EVar 63)) ;;
    SSet 49 (EBin OXor u64 (EBin OShl u64 (EVar 23) (EInt 15)) (EBin OShr u64 (EVar 23) (EInt 49))) ;;
    SSet 29 (EBin OXor u64 (EVar 29) (EVar 64)) ;;
    SSet 50 (EBin OXor u64 (EBin OShl u64 (EVar 29) (EInt 56)) (EBin OShr u64 (EVar 29) (EInt 8))) ;;
    SSet 81 (EBin OXor u64 (EVar 46) (EBin OAnd u64 (EUn ONot u64 (EVar 47)) (EVar 48))) ;;
    SSet 56 (EBin OXor u64 (EVar 56) (EVar 81)) ;;
    SSet 82 (EBin OXor u64 (EVar 47) (EBin OAnd u64 (EUn ONot u64 (EVar 48)) (EVar 49))) ;;
    SSet 57 (EBin OXor u64 (EVar 57) (EVar 82)) ;;
    SSet 83 (EBin OXor u64 (EVar 48) (EBin OAnd u64 (EUn ONot u64 (EVar 49)) (EVar 50))) ;;
    SSet 58 (EBin OXor u64 (EVar 58) (EVar 83)) ;;
    SSet 84 (EBin OXor u64 (EVar 49) (EBin OAnd u64 (EUn ONot u64 (EVar 50)) (EVar 46))) ;;
    SSet 59 (EBin OXor u64 (EVar 59) (EVar 84)) ;;
    SSet 85 (EBin OXor u64 (EVar 50) (EBin OAnd u64 (EUn ONot u64 (EVar 46)) (EVar 47))) ;;
    SSet 60 (EBin OXor u64 (EVar 60) (EVar 85)) ;;
    SSet 8 (EBin OXor u64 (EVar 8) (EVar 63)) ;;
    SSet 51 (EBin OXor u64 (EBin OShl u64 (EVar 8) (EInt 62)) (EBin OShr u64 (EVar 8) (EInt 2))) ;;
    SSet 14 (EBin OXor u64 (EVar 14) (EVar 64)) ;;
    SSet 52 (EBin OXor u64 (EBin OShl u64 (EVar 14) (EInt 55)) (EBin OShr u64 (EVar 14) (EInt 9))) ;;
    SSet 20 (EBin OXor u64 (EVar 20) (EVar 65)) ;;
    SSet 53 (EBin OXor u64 (EBin OShl u64 (EVar 20) (EInt 39)) (EBin OShr u64 (EVar 20) (EInt 25))) ;;
    SSet 21 (EBin OXor u64 (EVar 21) (EVar 61)) ;;
    SSet 54 (EBin OXor u64 (EBin OShl u64 (EVar 21) (EInt 41)) (EBin OShr u64 (EVar 21) (EInt 23))) ;;
    SSet 27 (EBin OXor u64 (EVar 27) (EVar 62)) ;;
    SSet 55 (EBin OXor u64 (EBin OShl u64 (EVar 27) (EInt 2)) (EBin OShr u64 (EVar 27) (EInt 62))) ;;
    SSet 86 (EBin OXor u64 (EVar 51) (EBin OAnd u64 (EUn ONot u64 (EVar 52)) (EVar 53))) ;;
    SSet 56 (EBin OXor u64 (EVar 56) (EVar 86)) ;;
    SSet 87 (EBin OXor u64 (EVar 52) (EBin OAnd u64 (EUn ONot u64 (EVar 53)) (EVar 54))) ;;
    SSet 57 (EBin OXor u64 (EVar 57) (EVar 87)) ;;
    SSet 88 (EBin OXor u64 (EVar 53) (EBin OAnd u64 (EUn ONot u64 (EVar 54)) (EVar 55))) ;;
    SSet 58 (EBin OXor u64 (EVar 58) (EVar 88)) ;;
    SSet 89 (EBin OXor u64 (EVar 54) (EBin OAnd u64 (EUn ONot u64 (EVar 55)) (EVar 51))) ;;
    SSet 59 (EBin OXor u64 (EVar 59) (EVar 89)) ;;
    SSet 90 (EBin OXor u64 (EVar 55) (EBin OAnd u64 (EUn ONot u64 (EVar 51)) (EVar 52))) ;;
    SSet 60 (EBin OXor u64 (EVar 60) (EVar 90)) ;;
    SSet 61 (EBin OXor u64 (EVar 60) (EBin OXor u64 (EBin OShl u64 (EVar 57) (EInt 1)) (EBin OShr u64 (EVar 57) (EInt 63))))) ;;
    (
    SSet 62 (EBin OXor u64 (EVar 56) (EBin OXor u64 (EBin OShl u64 (EVar 58) (EInt 1)) (EBin OShr u64 (EVar 58) (EInt 63)))) ;;
    SSet 63 (EBin OXor u64 (EVar 57) (EBin OXor u64 (EBin OShl u64 (EVar 59) (EInt 1)) (EBin OShr u64 (EVar 59) (EInt 63)))) ;;
    SSet 64 (EBin OXor u64 (EVar 58) (EBin OXor u64 (EBin OShl u64 (EVar 60) (EInt 1)) (EBin OShr u64 (EVar 60) (EInt 63)))) ;;
    SSet 65 (EBin OXor u64 (EVar 59) (EBin OXor u64 (EBin OShl u64 (EVar 56) (EInt 1)) (EBin OShr u64 (EVar 56) (EInt 63)))) ;;
    SSet 66 (EBin OXor u64 (EVar 66) (EVar 61)) ;;
    SSet 31 (EVar 66) ;;
    SSet 72 (EBin OXor u64 (EVar 72) (EVar 62)) ;;
    SSet 32 (EBin OXor u64 (EBin OShl u64 (EVar 72) (EInt 44)) (EBin OShr u64 (EVar 72) (EInt 20))) ;;
    SSet 78 (EBin OXor u64 (EVar 78) (EVar 63)) ;;
    SSet 33 (EBin OXor u64 (EBin OShl u64 (EVar 78) (EInt 43)) (EBin OShr u64 (EVar 78) (EInt 21))) ;;
    SSet 84 (EBin OXor u64 (EVar 84) (EVar 64)) ;;
    SSet 34 (EBin OXor u64 (EBin OShl u64 (EVar 84) (EInt 21)) (EBin OShr u64 (EVar 84) (EInt 43))) ;;
    SSet 90 (EBin OXor u64 (EVar 90) (EVar 65)) ;;
    SSet 35 (EBin OXor u64 (EBin OShl u64 (EVar 90) (EInt 14)) (EBin OShr u64 (EVar 90) (EInt 50))) ;;
    SSet 6 (EBin OXor u64 (EVar 31) (EBin OAnd u64 (EUn ONot u64 (EVar 32)) (EVar 33))) ;;
    SSet 6 (EBin OXor u64 (EVar 6) (ELoad 8 (EAt (EGlob 1) 8 (EInt 7)))) ;;
    SSet 56 (EVar 6) ;;
    SSet 7 (EBin OXor u64 (EVar 32) (EBin OAnd u64 (EUn ONot u64 (EVar 33)) (EVar 34))) ;;
    SSet 57 (EVar 7) ;;
    SSet 8 (EBin OXor u64 (EVar 33) (EBin OAnd u64 (EUn ONot u64 (EVar 34)) (EVar 35))) ;;
    SSet 58 (EVar 8) ;;
    SSet 9 (EBin OXor u64 (EVar 34) (EBin OAnd u64 (EUn ONot u64 (EVar 35)) (EVar 31))) ;;
    SSet 59 (EVar 9) ;;
    SSet 10 (EBin OXor u64 (EVar 35) (EBin OAnd u64 (EUn ONot u64 (EVar 31)) (EVar 32))) ;;
    SSet 60 (EVar 10) ;;
    SSet 69 (EBin OXor u64 (EVar 69) (EVar 64)) ;;
    SSet 36 (EBin OXor u64 (EBin OShl u64 (EVar 69) (EInt 28)) (EBin OShr u64 (EVar 69) (EInt 36))) ;;
    SSet 75 (EBin OXor u64 (EVar 75) (EVar 65)) ;;
    SSet 37 (EBin OXor u64 (EBin OShl u64 (EVar 75) (EInt 20)) (EBin OShr u64 (EVar 75) (EInt 44))) ;;
    SSet 76 (EBin OXor u64 (EVar 76) (EVar 61)) ;;
    SSet 38 (EBin OXor u64 (EBin OShl u64 (EVar 76) (EInt 3)) (EBin OShr u64 (EVar 76) (EInt 61))) ;;
    SSet 82 (EBin OXor u64 (EVar 82) (EVar 62)) ;;
    SSet 39 (EBin OXor u64 (EBin OShl u64 (EVar 82) (EInt 45)) (EBin OShr u64 (EVar 82) (EInt 19))) ;;
    SSet 88 (EBin OXor u64 (EVar 88) (EVar 63)) ;;
    SSet 40 (EBin OXor u64 (EBin OShl u64 (EVar 88) (EInt 61)) (EBin OShr u64 (EVar 88) (EInt 3))) ;;
    SSet 11 (EBin OXor u64 (EVar 36) (EBin OAnd u64 (EUn ONot u64 (EVar 37)) (EVar 38))) ;;
    SSet 56 (EBin OXor u64 (EVar 56) (EVar 11)) ;;
    SSet 12 (EBin OXor u64 (EVar 37) (EBin OAnd u64 (EUn ONot u64 (EVar 38)) (EVar 39))) ;;
    SSet 57 (EBin OXor u64 (EVar 57) (EVar 12)) ;;
    SSet 13 (EBin OXor u64 (EVar 38) (EBin OAnd u64 (EUn ONot u64 (EVar 39)) (EVar 40)))))) ;;
    (
    (
    (
    SSet 58 (EBin OXor u64 (EVar 58) (EVar 13)) ;;
    SSet 14 (EBin OXor u64 (EVar 39) (EBin OAnd u64 (EUn ONot u64 (EVar 40)) (EVar 36))) ;;
    SSet 59 (EBin OXor u64 (EVar 59) (EVar 14)) ;;
    SSet 15 (EBin OXor u64 (EVar 40) (EBin OAnd u64 (EUn ONot u64 (EVar 36)) (EVar 37))) ;;
    SSet 60 (EBin OXor u64 (EVar 60) (EVar 15)) ;;
    SSet 67 (EBin OXor u64 (EVar 67) (EVar 62)) ;;
    SSet 41 (EBin OXor u64 (EBin OShl u64 (EVar 67) (EInt 1)) (EBin OShr u64 (EVar 67) (EInt 63))) ;;
    SSet 73 (EBin OXor u64 (EVar 73) (EVar 63)) ;;
    SSet 42 (EBin OXor u64 (EBin OShl u64 (EVar 73) (EInt 6)) (EBin OShr u64 (EVar 73) (EInt 58))) ;;
    SSet 79 (EBin OXor u64 (EVar 79) (EVar 64)) ;;
    SSet 43 (EBin OXor u64 (EBin OShl u64 (EVar 79) (EInt 25)) (EBin OShr u64 (EVar 79) (EInt 39))) ;;
    SSet 85 (EBin OXor u64 (EVar 85) (EVar 65)) ;;
    SSet 44 (EBin OXor u64 (EBin OShl u64 (EVar 85) (EInt 8)) (EBin OShr u64 (EVar 85) (EInt 56))) ;;
    SSet 86 (EBin OXor u64 (EVar 86) (EVar 61)) ;;
    SSet 45 (EBin OXor u64 (EBin OShl u64 (EVar 86) (EInt 18)) (EBin OShr u64 (EVar 86) (EInt 46))) ;;
    SSet 16 (EBin OXor u64 (EVar 41) (EBin OAnd u64 (EUn ONot u64 (EVar 42)) (EVar 43))) ;;
    SSet 56 (EBin OXor u64 (EVar 56) (EVar 16)) ;;
    SSet 17 (EBin OXor u64 (EVar 42) (EBin OAnd u64 (EUn ONot u64 (EVar 43)) (EVar 44))) ;;
    SSet 57 (EBin OXor u64 (EVar 57) (EVar 17)) ;;
    SSet 18 (EBin OXor u64 (EVar 43) (EBin OAnd u64 (EUn ONot u64 (EVar 44)) (EVar 45))) ;;
    SSet 58 (EBin OXor u64 (EVar 58) (EVar 18)) ;;
    SSet 19 (EBin OXor u64 (EVar 44) (EBin OAnd u64 (EUn ONot u64 (EVar 45)) (EVar 41))) ;;
    SSet 59 (EBin OXor u64 (EVar 59) (EVar 19)) ;;
    SSet 20 (EBin OXor u64 (EVar 45) (EBin OAnd u64 (EUn ONot u64 (EVar 41)) (EVar 42))) ;;
    SSet 60 (EBin OXor u64 (EVar 60) (EVar 20)) ;;
    SSet 70 (EBin OXor u64 (EVar 70) (EVar 65)) ;;
    SSet 46 (EBin OXor u64 (EBin OShl u64 (EVar 70) (EInt 27)) (EBin OShr u64 (EVar 70) (EInt 37))) ;;
    SSet 71 (EBin OXor u64 (EVar 71) (EVar 61)) ;;
    SSet 47 (EBin OXor u64 (EBin OShl u64 (EVar 71) (EInt 36)) (EBin OShr u64 (EVar 71) (EInt 28))) ;;
    SSet 77 (EBin OXor u64 (EVar 77) (EVar 62)) ;;
    SSet 48 (EBin OXor u64 (EBin OShl u64 (EVar 77) (EInt 10)) (EBin OShr u64 (EVar 77) (EInt 54))) ;;
    SSet 83 (EBin OXor u64 (EVar 83) (EVar 63)) ;;
    SSet 49 (EBin OXor u64 (EBin OShl u64 (EVar 83) (EInt 15)) (EBin OShr u64 (EVar 83) (EInt 49))) ;;
    SSet 89 (EBin OXor u64 (EVar 89) (EVar 64)) ;;
    SSet 50 (EBin OXor u64 (EBin OShl u64 (EVar 89) (EInt 56)) (EBin OShr u64 (EVar 89) (EInt 8))) ;;
    SSet 21 (EBin OXor u64 (EVar 46) (EBin OAnd u64 (EUn ONot u64 (EVar 47)) (EVar 48))) ;;
    SSet 56 (EBin OXor u64 (EVar 56) (EVar 21)) ;;
    SSet 22 (EBin OXor u64 (EVar 47) (EBin OAnd u64 (EUn ONot u64 (EVar 48)) (EVar 49))) ;;
    SSet 57 (EBin OXor u64 (EVar 57) (EVar 22))) ;;
    (
    SSet 23 (EBin OXor u64 (EVar 48) (EBin OAnd u64 (EUn ONot u64 (EVar 49)) (EVar 50))) ;;
    SSet 58 (EBin OXor u64 (EVar 58) (EVar 23)) ;;
    SSet 24 (EBin OXor u64 (EVar 49) (EBin OAnd u64 (EUn ONot u64 (EVar 50)) (EVar 46))) ;;
    SSet 59 (EBin OXor u64 (EVar 59) (EVar 24)) ;;
    SSet 25 (EBin OXor u64 (EVar 50) (EBin OAnd u64 (EUn ONot u64 (EVar 46)) (EVar 47))) ;;
    SSet 60 (EBin OXor u64 (EVar 60) (EVar 25)) ;;
    SSet 68 (EBin OXor u64 (EVar 68) (EVar 63)) ;;
    SSet 51 (EBin OXor u64 (EBin OShl u64 (EVar 68) (EInt 62)) (EBin OShr u64 (EVar 68) (EInt 2))) ;;
    SSet 74 (EBin OXor u64 (EVar 74) (EVar 64)) ;;
    SSet 52 (EBin OXor u64 (EBin OShl u64 (EVar 74) (EInt 55)) (EBin OShr u64 (EVar 74) (EInt 9))) ;;
    SSet 80 (EBin OXor u64 (EVar 80) (EVar 65)) ;;
    SSet 53 (EBin OXor u64 (EBin OShl u64 (EVar 80) (EInt 39)) (EBin OShr u64 (EVar 80) (EInt 25))) ;;
    SSet 81 (EBin OXor u64 (EVar 81) (EVar 61)) ;;
    SSet 54 (EBin OXor u64 (EBin OShl u64 (EVar 81) (EInt 41)) (EBin OShr u64 (EVar 81) (EInt 23))) ;;
    SSet 87 (EBin OXor u64 (EVar 87) (EVar 62)) ;;
    SSet 55 (EBin OXor u64 (EBin OShl u64 (EVar 87) (EInt 2)) (EBin OShr u64 (EVar 87) (EInt 62))) ;;
    SSet 26 (EBin OXor u64 (EVar 51) (EBin OAnd u64 (EUn ONot u64 (EVar 52)) (EVar 53))) ;;
    SSet 56 (EBin OXor u64 (EVar 56) (EVar 26)) ;;
    SSet 27 (EBin OXor u64 (EVar 52) (EBin OAnd u64 (EUn ONot u64 (EVar 53)) (EVar 54))) ;;
    SSet 57 (EBin OXor u64 (EVar 57) (EVar 27)) ;;
    SSet 28 (EBin OXor u64 (EVar 53) (EBin OAnd u64 (EUn ONot u64 (EVar 54)) (EVar 55))) ;;
    SSet 58 (EBin OXor u64 (EVar 58) (EVar 28)) ;;
    SSet 29 (EBin OXor u64 (EVar 54) (EBin OAnd u64 (EUn ONot u64 (EVar 55)) (EVar 51))) ;;
    SSet 59 (EBin OXor u64 (EVar 59) (EVar 29)) ;;
    SSet 30 (EBin OXor u64 (EVar 55) (EBin OAnd u64 (EUn ONot u64 (EVar 51)) (EVar 52))) ;;
    SSet 60 (EBin OXor u64 (EVar 60) (EVar 30)) ;;
    SSet 61 (EBin OXor u64 (EVar 60) (EBin OXor u64 (EBin OShl u64 (EVar 57) (EInt 1)) (EBin OShr u64 (EVar 57) (EInt 63)))) ;;
    SSet 62 (EBin OXor u64 (EVar 56) (EBin OXor u64 (EBin OShl u64 (EVar 58) (EInt 1)) (EBin OShr u64 (EVar 58) (EInt 63)))) ;;
    SSet 63 (EBin OXor u64 (EVar 57) (EBin OXor u64 (EBin OShl u64 (EVar 59) (EInt 1)) (EBin OShr u64 (EVar 59) (EInt 63)))) ;;
    SSet 64 (EBin OXor u64 (EVar 58) (EBin OXor u64 (EBin OShl u64 (EVar 60) (EInt 1)) (EBin OShr u64 (EVar 60) (EInt 63)))) ;;
    SSet 65 (EBin OXor u64 (EVar 59) (EBin OXor u64 (EBin OShl u64 (EVar 56) (EInt 1)) (EBin OShr u64 (EVar 56) (EInt 63)))) ;;
    SSet 6 (EBin OXor u64 (EVar 6) (EVar 61)) ;;
    SSet 31 (EVar 6) ;;
    SSet 12 (EBin OXor u64 (EVar 12) (EVar 62)) ;;
    SSet 32 (EBin OXor u64 (EBin OShl u64 (EVar 12) (EInt 44)) (EBin OShr u64 (EVar 12) (EInt 20))) ;;
    SSet 18 (EBin OXor u64 (EVar 18) (EVar 63)) ;;
    SSet 33 (EBin OXor u64 (EBin OShl u64 (EVar 18) (EInt 43)) (EBin OShr u64 (EVar 18) (EInt 21))) ;;
    SSet 24 (EBin OXor u64 (EVar 24) (EVar 64)) ;;
    SSet 34 (EBin OXor u64 (EBin OShl u64 (EVar 24) (EInt 21)) (EBin OShr u64 (EVar 24) (EInt 43))) ;;
    SSet 30 (EBin OXor u64 (EVar 30) (EVar 65)))) ;;
    (
    (
    SSet 35 (EBin OXor u64 (EBin OShl u64 (EVar 30) (EInt 14)) (EBin OShr u64 (EVar 30) (EInt 50))) ;;
    SSet 66 (EBin OXor u64 (EVar 31) (EBin OAnd u64 (EUn ONot u64 (EVar 32)) (EVar 33))) ;;
    SSet 66 (EBin OXor u64 (EVar 66) (ELoad 8 (EAt (EGlob 1) 8 (EInt 8)))) ;;
    SSet 56 (EVar 66) ;;
    SSet 67 (EBin OXor u64 (EVar 32) (EBin OAnd u64 (EUn ONot u64 (EVar 33)) (EVar 34))) ;;
    SSet 57 (EVar 67) ;;
    SSet 68 (EBin OXor u64 (EVar 33) (EBin OAnd u64 (EUn ONot u64 (EVar 34)) (EVar 35))) ;;
    SSet 58 (EVar 68) ;;
    SSet 69 (EBin OXor u64 (EVar 34) (EBin OAnd u64 (EUn ONot u64 (EVar 35)) (EVar 31))) ;;
    SSet 59 (EVar 69) ;;
    SSet 70 (EBin OXor u64 (EVar 35) (EBin OAnd u64 (EUn ONot u64 (EVar 31)) (EVar 32))) ;;
    SSet 60 (EVar 70) ;;
    SSet 9 (EBin OXor u64 (EVar 9) (EVar 64)) ;;
    SSet 36 (EBin OXor u64 (EBin OShl u64 (EVar 9) (EInt 28)) (EBin OShr u64 (EVar 9) (EInt 36))) ;;
    SSet 15 (EBin OXor u64 (EVar 15) (EVar 65)) ;;
    SSet 37 (EBin OXor u64 (EBin OShl u64 (EVar 15) (EInt 20)) (EBin OShr u64 (EVar 15) (EInt 44))) ;;
    SSet 16 (EBin OXor u64 (EVar 16) (EVar 61)) ;;
    SSet 38 (EBin OXor u64 (EBin OShl u64 (EVar 16) (EInt 3)) (EBin OShr u64 (EVar 16) (EInt 61))) ;;
    SSet 22 (EBin OXor u64 (EVar 22) (EVar 62)) ;;
    SSet 39 (EBin OXor u64 (EBin OShl u64 (EVar 22) (EInt 45)) (EBin OShr u64 (EVar 22) (EInt 19))) ;;
    SSet 28 (EBin OXor u64 (EVar 28) (EVar 63)) ;;
    SSet 40 (EBin OXor u64 (EBin OShl u64 (EVar 28) (EInt 61)) (EBin OShr u64 (EVar 28) (EInt 3))) ;;
    SSet 71 (EBin OXor u64 (EVar 36) (EBin OAnd u64 (EUn ONot u64 (EVar 37)) (EVar 38))) ;;
    SSet 56 (EBin OXor u64 (EVar 56) (EVar 71)) ;;
    SSet 72 (EBin OXor u64 (EVar 37) (EBin OAnd u64 (EUn ONot u64 (EVar 38)) (EVar 39))) ;;
    SSet 57 (EBin OXor u64 (EVar 57) (EVar 72)) ;;
    SSet 73 (EBin OXor u64 (EVar 38) (EBin OAnd u64 (EUn ONot u64 (EVar 39)) (EVar 40))) ;;
    SSet 58 (EBin OXor u64 (EVar 58) (EVar 73)) ;;
    SSet 74 (EBin OXor u64 (EVar 39) (EBin OAnd u64 (EUn ONot u64 (EVar 40)) (EVar 36))) ;;
    SSet 59 (EBin OXor u64 (EVar 59) (EVar 74)) ;;
    SSet 75 (EBin OXor u64 (EVar 40) (EBin OAnd u64 (EUn ONot u64 (EVar 36)) (EVar 37))) ;;
    SSet 60 (EBin OXor u64 (EVar 60) (EVar 75)) ;;
    SSet 7 (EBin OXor u64 (EVar 7) (EVar 62)) ;;
    SSet 41 (EBin OXor u64 (EBin OShl u64 (EVar 7) (EInt 1)) (EBin OShr u64 (EVar 7) (EInt 63))) ;;
    SSet 13 (EBin OXor u64 (EVar 13) (EVar 63)) ;;
    SSet 42 (EBin OXor u64 (EBin OShl u64 (EVar 13) (EInt 6)) (EBin OShr u64 (EVar 13) (EInt 58))) ;;
    SSet 19 (EBin OXor u64 (EVar 19) (EVar 64)) ;;
    SSet 43 (EBin OXor u64 (EBin OShl u64 (EVar 19) (EInt 25)) (EBin OShr u64 (EVar 19) (EInt 39))) ;;
    SSet 25 (EBin OXor u64 (EVar 25) (EVar 65))) ;;
    (
    SSet 44 (EBin OXor u64 (EBin OShl u64 (EVar 25) (EInt 8)) (EBin OShr u64 (EVar 25) (EInt 56))) ;;
    SSet 26 (EBin OXor u64 (EVar 26) (EVar 61)) ;;
    SSet 45 (EBin OXor u64 (EBin OShl u64 (EVar 26) (EInt 18)) (EBin OShr u64 (EVar 26) (EInt 46))) ;;
    SSet 76 (EBin OXor u64 (EVar 41) (EBin OAnd u64 (EUn ONot u64 (EVar 42)) (EVar 43))) ;;
    SSet 56 (EBin OXor u64 (EVar 56) (EVar 76)) ;;
    SSet 77 (EBin OXor u64 (EVar 42) (EBin OAnd u64 (EUn ONot u64 (EVar 43)) (EVar 44))) ;;
    SSet 57 (EBin OXor u64 (EVar 57) (EVar 77)) ;;
    SSet 78 (EBin OXor u64 (EVar 43) (EBin OAnd u64 (EUn ONot u64 (EVar 44)) (EVar 45))) ;;
    SSet 58 (EBin OXor u64 (EVar 58) (EVar 78)) ;;
    SSet 79 (EBin OXor u64 (EVar 44) (EBin OAnd u64 (EUn ONot u64 (EVar 45)) (EVar 41))) ;;
    SSet 59 (EBin OXor u64 (EVar 59) (EVar 79)) ;;
    SSet 80 (EBin OXor u64 (EVar 45) (EBin OAnd u64 (EUn ONot u64 (EVar 41)) (EVar 42))) ;;
    SSet 60 (EBin OXor u64 (EVar 60) (EVar 80)) ;;
    SSet 10 (EBin OXor u64 (EVar 10) (EVar 65)) ;;
    SSet 46 (EBin OXor u64 (EBin OShl u64 (EVar 10) (EInt 27)) (EBin OShr u64 (EVar 10) (EInt 37))) ;;
    SSet 11 (EBin OXor u64 (EVar 11) (EVar 61)) ;;
    SSet 47 (EBin OXor u64 (EBin OShl u64 (EVar 11) (EInt 36)) (EBin OShr u64 (EVar 11) (EInt 28))) ;;
    SSet 17 (EBin OXor u64 (EVar 17) (EVar 62)) ;;
    SSet 48 (EBin OXor u64 (EBin OShl u64 (EVar 17) (EInt 10)) (EBin OShr u64 (EVar 17) (EInt 54))) ;;
    SSet 23 (EBin OXor u64 (EVar 23) (EVar 63)) ;;
    SSet 49 (EBin OXor u64 (EBin OShl u64 (EVar 23) (EInt 15)) (EBin OShr u64 (EVar 23) (EInt 49))) ;;
    SSet 29 (EBin OXor u64 (EVar 29) (EVar 64)) ;;
    SSet 50 (EBin OXor u64 (EBin OShl u64 (EVar 29) (EInt 56)) (EBin OShr u64 (EVar 29) (EInt 8))) ;;
    SSet 81 (EBin OXor u64 (EVar 46) (EBin OAnd u64 (EUn ONot u64 (EVar 47)) (EVar 48))) ;;
    SSet 56 (EBin OXor u64 (EVar 56) (EVar 81)) ;;
    SSet 82 (EBin OXor u64 (EVar 47) (EBin OAnd u64 (EUn ONot u64 (EVar 48)) (EVar 49))) ;;
    SSet 57 (EBin OXor u64 (EVar 57) (EVar 82)) ;;
    SSet 83 (EBin OXor u64 (EVar 48) (EBin OAnd u64 (EUn ONot u64 (EVar 49)) (EVar 50))) ;;
    SSet 58 (EBin OXor u64 (EVar 58) (EVar 83)) ;;
    SSet 84 (EBin OXor u64 (EVar 49) (EBin OAnd u64 (EUn ONot u64 (EVar 50)) (EVar 46))) ;;
    SSet 59 (EBin OXor u64 (EVar 59) (EVar 84)) ;;
    SSet 85 (EBin OXor u64 (EVar 50) (EBin OAnd u64 (EUn ONot u64 (EVar 46)) (EVar 47))) ;;
    SSet 60 (EBin OXor u64 (EVar 60) (EVar 85)) ;;
    SSet 8 (EBin OXor u64 (EVar 8) (EVar 63)) ;;
    SSet 51 (EBin OXor u64 (EBin OShl u64 (EVar 8) (EInt 62)) (EBin OShr u64 (EVar 8) (EInt 2))) ;;
    SSet 14 (EBin OXor u64 (EVar 14) (EVar 64)) ;;
    SSet 52 (EBin OXor u64 (EBin OShl u64 (EVar 14) (EInt 55)) (EBin OShr u64 (EVar 14) (EInt 9))) ;;
    SSet 20 (EBin OXor u64 (EVar 20) (EVar 65)) ;;
    SSet 53 (EBin OXor u64 (EBin OShl u64 (EVar 20) (EInt 39)) (EBin OShr u64 (EVar 20) (EInt 25))) ;;
    SSet 21 (EBin OXor u64 (EVar 21) (EVar 61)))))) ;;
    (
    (
    (
    (
    SSet 54 (EBin OXor u64 (EBin OShl u64 (EVar 21) (EInt 41)) (EBin OShr u64 (EVar 21) (EInt 23))) ;;
    SSet 27 (EBin OXor u64 (EVar 27) (EVar 62)) ;;
    SSet 55 (EBin OXor u64 (EBin OShl u64 (EVar 27) (EInt 2)) (EBin OShr u64 (EVar 27) (EInt 62))) ;;
    SSet 86 (EBin OXor u64 (EVar 51) (EBin OAnd u64 (EUn ONot u64 (EVar 52)) (EVar 53))) ;;
    SSet 56 (EBin OXor u64 (EVar 56) (EVar 86)) ;;
    SSet 87 (EBin OXor u64 (EVar 52) (EBin OAnd u64 (EUn ONot u64 (EVar 53)) (EVar 54))) ;;
    SSet 57 (EBin OXor u64 (EVar 57) (EVar 87)) ;;
    SSet 88 (EBin OXor u64 (EVar 53) (EBin OAnd u64 (EUn ONot u64 (EVar 54)) (EVar 55))) ;;
    SSet 58 (EBin OXor u64 (EVar 58) (EVar 88)) ;;
    SSet 89 (EBin OXor u64 (EVar 54) (EBin OAnd u64 (EUn ONot u64 (EVar 55)) (EVar 51))) ;;
    SSet 59 (EBin OXor u64 (EVar 59) (EVar 89)) ;;
    SSet 90 (EBin OXor u64 (EVar 55) (EBin OAnd u64 (EUn ONot u64 (EVar 51)) (EVar 52))) ;;
    SSet 60 (EBin OXor u64 (EVar 60) (EVar 90)) ;;
    SSet 61 (EBin OXor u64 (EVar 60) (EBin OXor u64 (EBin OShl u64 (EVar 57) (EInt 1)) (EBin OShr u64 (EVar 57) (EInt 63)))) ;;
    SSet 62 (EBin OXor u64 (EVar 56) (EBin OXor u64 (EBin OShl u64 (EVar 58) (EInt 1)) (EBin OShr u64 (EVar 58) (EInt 63)))) ;;
    SSet 63 (EBin OXor u64 (EVar 57) (EBin OXor u64 (EBin OShl u64 (EVar 59) (EInt 1)) (EBin OShr u64 (EVar 59) (EInt 63)))) ;;
    SSet 64 (EBin OXor u64 (EVar 58) (EBin OXor u64 (EBin OShl u64 (EVar 60) (EInt 1)) (EBin OShr u64 (EVar 60) (EInt 63)))) ;;
    SSet 65 (EBin OXor u64 (EVar 59) (EBin OXor u64 (EBin OShl u64 (EVar 56) (EInt 1)) (EBin OShr u64 (EVar 56) (EInt 63)))) ;;
    SSet 66 (EBin OXor u64 (EVar 66) (EVar 61)) ;;
    SSet 31 (EVar 66) ;;
    SSet 72 (EBin OXor u64 (EVar 72) (EVar 62)) ;;
    SSet 32 (EBin OXor u64 (EBin OShl u64 (EVar 72) (EInt 44)) (EBin OShr u64 (EVar 72) (EInt 20))) ;;
    SSet 78 (EBin OXor u64 (EVar 78) (EVar 63)) ;;
    SSet 33 (EBin OXor u64 (EBin OShl u64 (EVar 78) (EInt 43)) (EBin OShr u64 (EVar 78) (EInt 21))) ;;
    SSet 84 (EBin OXor u64 (EVar 84) (EVar 64)) ;;
    SSet 34 (EBin OXor u64 (EBin OShl u64 (EVar 84) (EInt 21)) (EBin OShr u64 (EVar 84) (EInt 43))) ;;
    SSet 90 (EBin OXor u64 (EVar 90) (EVar 65)) ;;
    SSet 35 (EBin OXor u64 (EBin OShl u64 (EVar 90) (EInt 14)) (EBin OShr u64 (EVar 90) (EInt 50))) ;;
    SSet 6 (EBin OXor u64 (EVar 31) (EBin OAnd u64 (EUn ONot u64 (EVar 32)) (EVar 33))) ;;
    SSet 6 (EBin OXor u64 (EVar 6) (ELoad 8 (EAt (EGlob 1) 8 (EInt 9)))) ;;
    SSet 56 (EVar 6) ;;
    SSet 7 (EBin OXor u64 (EVar 32) (EBin OAnd u64 (EUn ONot u64 (EVar 33)) (EVar 34))) ;;
    SSet 57 (EVar 7) ;;
    SSet 8 (EBin OXor u64 (EVar 33) (EBin OAnd u64 (EUn ONot u64 (EVar 34)) (EVar 35))) ;;
    SSet 58 (EVar 8) ;;
    SSet 9 (EBin OXor u64 (EVar 34) (EBin OAnd u64 (EUn ONot u64 (EVar 35)) (EVar 31))) ;;
    SSet 59 (EVar 9) ;;
    SSet 10 (EBin OXor u64 (EVar 35) (EBin OAnd u64 (EUn ONot u64 (EVar 31)) (EVar 32))) ;;
    SSet 60 (EVar 10)) ;;
    (
    SSet 69 (EBin OXor u64 (EVar 69) (EVar 64)) ;;
    SSet 36 (EBin OXor u64 (EBin OShl u64 (EVar 69) (EInt 28)) (EBin OShr u64 (EVar 69) (EInt 36))) ;;
    SSet 75 (EBin OXor u64 (EVar 75) (EVar 65)) ;;
    SSet 37 (EBin OXor u64 (EBin OShl u64 (EVar 75) (EInt 20)) (EBin OShr u64 (EVar 75) (EInt 44))) ;;
    SSet 76 (EBin OXor u64 (EVar 76) (EVar 61)) ;;
    SSet 38 (EBin OXor u64 (EBin OShl u64 (EVar 76) (EInt 3)) (EBin OShr u64 (EVar 76) (EInt 61))) ;;
    SSet 82 (EBin OXor u64 (EVar 82) (EVar 62)) ;;
    SSet 39 (EBin OXor u64 (EBin OShl u64 (EVar 82) (EInt 45)) (EBin OShr u64 (EVar 82) (EInt 19))) ;;
    SSet 88 (EBin OXor u64 (EVar 88) (EVar 63)) ;;
    SSet 40 (EBin OXor u64 (EBin OShl u64 (EVar 88) (EInt 61)) (EBin OShr u64 (EVar 88) (EInt 3))) ;;
    SSet 11 (EBin OXor u64 (EVar 36) (EBin OAnd u64 (EUn ONot u64 (EVar 37)) (EVar 38))) ;;
    SSet 56 (EBin OXor u64 (EVar 56) (EVar 11)) ;;
    SSet 12 (EBin OXor u64 (EVar 37) (EBin OAnd u64 (EUn ONot u64 (EVar 38)) (EVar 39))) ;;
    SSet 57 (EBin OXor u64 (EVar 57) (EVar 12)) ;;
    SSet 13 (EBin OXor u64 (EVar 38) (EBin OAnd u64 (EUn ONot u64 (EVar 39)) (EVar 40))) ;;
    SSet 58 (EBin OXor u64 (EVar 58) (EVar 13)) ;;
    SSet 14 (EBin OXor u64 (EVar 39) (EBin OAnd u64 (EUn ONot u64 (EVar 40)) (EVar 36))) ;;
    SSet 59 (EBin OXor u64 (EVar 59) (EVar 14)) ;;
    SSet 15 (EBin OXor u64 (EVar 40) (EBin OAnd u64 (EUn ONot u64 (EVar 36)) (EVar 37))) ;;
    SSet 60 (EBin OXor u64 (EVar 60) (EVar 15)) ;;
    SSet 67 (EBin OXor u64 (EVar 67) (EVar 62)) ;;
    SSet 41 (EBin OXor u64 (EBin OShl u64 (EVar 67) (EInt 1)) (EBin OShr u64 (EVar 67) (EInt 63))) ;;
    SSet 73 (EBin OXor u64 (EVar 73) (EVar 63)) ;;
    SSet 42 (EBin OXor u64 (EBin OShl u64 (EVar 73) (EInt 6)) (EBin OShr u64 (EVar 73) (EInt 58))) ;;
    SSet 79 (EBin OXor u64 (EVar 79) (EVar 64)) ;;
    SSet 43 (EBin OXor u64 (EBin OShl u64 (EVar 79) (EInt 25)) (EBin OShr u64 (EVar 79) (EInt 39))) ;;
    SSet 85 (EBin OXor u64 (EVar 85) (EVar 65)) ;;
    SSet 44 (EBin OXor u64 (EBin OShl u64 (EVar 85) (EInt 8)) (EBin OShr u64 (EVar 85) (EInt 56))) ;;
    SSet 86 (EBin OXor u64 (EVar 86) (EVar 61)) ;;
    SSet 45 (EBin OXor u64 (EBin OShl u64 (EVar 86) (EInt 18)) (EBin OShr u64 (EVar 86) (EInt 46))) ;;
    SSet 16 (EBin OXor u64 (EVar 41) (EBin OAnd u64 (EUn ONot u64 (EVar 42)) (EVar 43))) ;;
    SSet 56 (EBin OXor u64 (EVar 56) (EVar 16)) ;;
    SSet 17 (EBin OXor u64 (EVar 42) (EBin OAnd u64 (EUn ONot u64 (EVar 43)) (EVar 44))) ;;
    SSet 57 (EBin OXor u64 (EVar 57) (EVar 17)) ;;
    SSet 18 (EBin OXor u64 (EVar 43) (EBin OAnd u64 (EUn ONot u64 (EVar 44)) (EVar 45))) ;;
    SSet 58 (EBin OXor u64 (EVar 58) (EVar 18)) ;;
    SSet 19 (EBin OXor u64 (EVar 44) (EBin OAnd u64 (EUn ONot u64 (EVar 45)) (EVar 41))) ;;
    SSet 59 (EBin OXor u64 (EVar 59) (EVar 19)) ;;
    SSet 20 (EBin OXor u64 (EVar 45) (EBin OAnd u64 (EUn ONot u64 (EVar 41)) (EVar 42))) ;;
    SSet 60 (EBin OXor u64 (EVar 60) (EVar 20)))) ;;
    (
    (
    SSet 70 (EBin OXor u64 (EVar 70) (EVar 65)) ;;
    SSet 46 (EBin OXor u64 (EBin OShl u64 (EVar 70) (EInt 27)) (EBin OShr u64 (EVar 70) (EInt 37))) ;;
    SSet 71 (EBin OXor u64 (EVar 71) (EVar 61)) ;;
    SSet 47 (EBin OXor u64 (EBin OShl u64 (EVar 71) (EInt 36)) (EBin OShr u64 (EVar 71) (EInt 28))) ;;
    SSet 77 (EBin OXor u64 (EVar 77) (EVar 62)) ;;
    SSet 48 (EBin OXor u64 (EBin OShl u64 (EVar 77) (EInt 10)) (EBin OShr u64 (EVar 77) (EInt 54))) ;;
    SSet 83 (EBin OXor u64 (EVar 83) (EVar 63)) ;;
    SSet 49 (EBin OXor u64 (EBin OShl u64 (EVar 83) (EInt 15)) (EBin OShr u64 (EVar 83) (EInt 49))) ;;
    SSet 89 (EBin OXor u64 (EVar 89) (EVar 64)) ;;
    SSet 50 (EBin OXor u64 (EBin OShl u64 (EVar 89) (EInt 56)) (EBin OShr u64 (EVar 89) (EInt 8))) ;;
    SSet 21 (EBin OXor u64 (EVar 46) (EBin OAnd u64 (EUn ONot u64 (EVar 47)) (EVar 48))) ;;
    SSet 56 (EBin OXor u64 (EVar 56) (EVar 21)) ;;
    SSet 22 (EBin OXor u64 (EVar 47) (EBin OAnd u64 (EUn ONot u64 (EVar 48)) (EVar 49))) ;;
    SSet 57 (EBin OXor u64 (EVar 57) (EVar 22)) ;;
    SSet 23 (EBin OXor u64 (EVar 48) (EBin OAnd u64 (EUn ONot u64 (EVar 49)) (EVar 50))) ;;
    SSet 58 (EBin OXor u64 (EVar 58) (EVar 23)) ;;
    SSet 24 (EBin OXor u64 (EVar 49) (EBin OAnd u64 (EUn ONot u64 (EVar 50)) (EVar 46))) ;;
    SSet 59 (EBin OXor u64 (EVar 59) (EVar 24)) ;;
    SSet 25 (EBin OXor u64 (EVar 50) (EBin OAnd u64 (EUn ONot u64 (EVar 46)) (EVar 47))) ;;
    SSet 60 (EBin OXor u64 (EVar 60) (EVar 25)) ;;
    SSet 68 (EBin OXor u64 (EVar 68) (EVar 63)) ;;
    SSet 51 (EBin OXor u64 (EBin OShl u64 (EVar 68) (EInt 62)) (EBin OShr u64 (EVar 68) (EInt 2))) ;;
    SSet 74 (EBin OXor u64 (EVar 74) (EVar 64)) ;;
    SSet 52 (EBin OXor u64 (EBin OShl u64 (EVar 74) (EInt 55)) (EBin OShr u64 (EVar 74) (EInt 9))) ;;
    SSet 80 (EBin OXor u64 (EVar 80) (EVar 65)) ;;
    SSet 53 (EBin OXor u64 (EBin OShl u64 (EVar 80) (EInt 39)) (EBin OShr u64 (EVar 80) (EInt 25))) ;;
    SSet 81 (EBin OXor u64 (EVar 81) (EVar 61)) ;;
    SSet 54 (EBin OXor u64 (EBin OShl u64 (EVar 81) (EInt 41)) (EBin OShr u64 (EVar 81) (EInt 23))) ;;
    SSet 87 (EBin OXor u64 (EVar 87) (EVar 62)) ;;
    SSet 55 (EBin OXor u64 (EBin OShl u64 (EVar 87) (EInt 2)) (EBin OShr u64 (EVar 87) (EInt 62))) ;;
    SSet 26 (EBin OXor u64 (EVar 51) (EBin OAnd u64 (EUn ONot u64 (EVar 52)) (EVar 53))) ;;
    SSet 56 (EBin OXor u64 (EVar 56) (EVar 26)) ;;
    SSet 27 (EBin OXor u64 (EVar 52) (EBin OAnd u64 (EUn ONot u64 (EVar 53)) (EVar 54))) ;;
    SSet 57 (EBin OXor u64 (EVar 57) (EVar 27)) ;;
    SSet 28 (EBin OXor u64 (EVar 53) (EBin OAnd u64 (EUn ONot u64 (EVar 54)) (EVar 55))) ;;
    SSet 58 (EBin OXor u64 (EVar 58) (EVar 28)) ;;
    SSet 29 (EBin OXor u64 (EVar 54) (EBin OAnd u64 (EUn ONot u64 (EVar 55)) (EVar 51))) ;;
    SSet 59 (EBin OXor u64 (EVar 59) (EVar 29)) ;;
    SSet 30 (EBin OXor u64 (EVar 55) (EBin OAnd u64 (EUn ONot u64 (EVar 51)) (EVar 52)))) ;;
    (
    SSet 60 (EBin OXor u64 (EVar 60) (EVar 30)) ;;
    SSet 61 (EBin OXor u64 (EVar 60) (EBin OXor u64 (EBin OShl u64 (EVar 57) (EInt 1)) (EBin OShr u64 (EVar 57) (EInt 63)))) ;;
    SSet 62 (EBin OXor u64 (EVar 56) (EBin OXor u64 (EBin OShl u64 (EVar 58) (EInt 1)) (EBin OShr u64 (EVar 58) (EInt 63)))) ;;
    SSet 63 (EBin OXor u64 (EVar 57) (EBin OXor u64 (EBin OShl u64 (EVar 59) (EInt 1)) (EBin OShr u64 (EVar 59) (EInt 63)))) ;;
    SSet 64 (EBin OXor u64 (EVar 58) (EBin OXor u64 (EBin OShl u64 (EVar 60) (EInt 1)) (EBin OShr u64 (EVar 60) (EInt 63)))) ;;
    SSet 65 (EBin OXor u64 (EVar 59) (EBin OXor u64 (EBin OShl u64 (EVar 56) (EInt 1)) (EBin OShr u64 (EVar 56) (EInt 63)))) ;;
    SSet 6 (EBin OXor u64 (EVar 6) (EVar 61)) ;;
    SSet 31 (EVar 6) ;;
    SSet 12 (EBin OXor u64 (EVar 12) (EVar 62)) ;;
    SSet 32 (EBin OXor u64 (EBin OShl u64 (EVar 12) (EInt 44)) (EBin OShr u64 (EVar 12) (EInt 20))) ;;
    SSet 18 (EBin OXor u64 (EVar 18) (EVar 63)) ;;
    SSet 33 (EBin OXor u64 (EBin OShl u64 (EVar 18) (EInt 43)) (EBin OShr u64 (EVar 18) (EInt 21))) ;;
    SSet 24 (EBin OXor u64 (EVar 24) (EVar 64)) ;;
    SSet 34 (EBin OXor u64 (EBin OShl u64 (EVar 24) (EInt 21)) (EBin OShr u64 (EVar 24) (EInt 43))) ;;
    SSet 30 (EBin OXor u64 (EVar 30) (EVar 65)) ;;
    SSet 35 (EBin OXor u64 (EBin OShl u64 (EVar 30) (EInt 14)) (EBin OShr u64 (EVar 30) (EInt 50))) ;;
    SSet 66 (EBin OXor u64 (EVar 31) (EBin OAnd u64 (EUn ONot u64 (EVar 32)) (EVar 33))) ;;
    SSet 66 (EBin OXor u64 (EVar 66) (ELoad 8 (EAt (EGlob 1) 8 (EInt 10)))) ;;
    SSet 56 (EVar 66) ;;
    SSet 67 (EBin OXor u64 (EVar 32) (EBin OAnd u64 (EUn ONot u64 (EVar 33)) (EVar 34))) ;;
    SSet 57 (EVar 67) ;;
    SSet 68 (EBin OXor u64 (EVar 33) (EBin OAnd u64 (EUn ONot u64 (EVar 34)) (EVar 35))) ;;
    SSet 58 (EVar 68) ;;
    SSet 69 (EBin OXor u64 (EVar 34) (EBin OAnd u64 (EUn ONot u64 (EVar 35)) (EVar 31))) ;;
    SSet 59 (EVar 69) ;;
    SSet 70 (EBin OXor u64 (EVar 35) (EBin OAnd u64 (EUn ONot u64 (EVar 31)) (EVar 32))) ;;
    SSet 60 (EVar 70) ;;
    SSet 9 (EBin OXor u64 (EVar 9) (EVar 64)) ;;
    SSet 36 (EBin OXor u64 (EBin OShl u64 (EVar 9) (EInt 28)) (EBin OShr u64 (EVar 9) (EInt 36))) ;;
    SSet 15 (EBin OXor u64 (EVar 15) (EVar 65)) ;;
    SSet 37 (EBin OXor u64 (EBin OShl u64 (EVar 15) (EInt 20)) (EBin OShr u64 (EVar 15) (EInt 44))) ;;
    SSet 16 (EBin OXor u64 (EVar 16) (EVar 61)) ;;
    SSet 38 (EBin OXor u64 (EBin OShl u64 (EVar 16) (EInt 3)) (EBin OShr u64 (EVar 16) (EInt 61))) ;;
    SSet 22 (EBin OXor u64 (EVar 22) (EVar 62)) ;;
    SSet 39 (EBin OXor u64 (EBin OShl u64 (EVar 22) (EInt 45)) (EBin OShr u64 (EVar 22) (EInt 19))) ;;
    SSet 28 (EBin OXor u64 (EVar 28) (EVar 63)) ;;
    SSet 40 (EBin OXor u64 (EBin OShl u64 (EVar 28) (EInt 61)) (EBin OShr u64 (EVar 28) (EInt 3))) ;;
    SSet 71 (EBin OXor u64 (EVar 36) (EBin OAnd u64 (EUn ONot u64 (EVar 37)) (EVar 38))) ;;
    SSet 56 (EBin OXor u64 (EVar 56) (EVar 71)) ;;
    SSet 72 (EBin OXor u64 (EVar 37) (EBin OAnd u64 (EUn ONot u64 (EVar 38)) (EVar 39)))))) ;;
    (
    (
    (
    SSet 57 (EBin OXor u64 (EVar 57) (EVar 72)) ;;
    SSet 73 (EBin OXor u64 (EVar 38) (EBin OAnd u64 (EUn ONot u64 (EVar 39)) (EVar 40))) ;;
    SSet 58 (EBin OXor u64 (EVar 58) (EVar 73)) ;;
    SSet 74 (EBin OXor u64 (EVar 39) (EBin OAnd u64 (EUn ONot u64 (EVar 40)) (EVar 36))) ;;
    SSet 59 (EBin OXor u64 (EVar 59) (EVar 74)) ;;
    SSet 75 (EBin OXor u64 (EVar 40) (EBin OAnd u64 (EUn ONot u64 (EVar 36)) (EVar 37))) ;;
    SSet 60 (EBin OXor u64 (EVar 60) (EVar 75)) ;;
    SSet 7 (EBin OXor u64 (EVar 7) (EVar 62)) ;;
    SSet 41 (EBin OXor u64 (EBin OShl u64 (EVar 7) (EInt 1)) (EBin OShr u64 (EVar 7) (EInt 63))) ;;
    SSet 13 (EBin OXor u64 (EVar 13) (EVar 63)) ;;
    SSet 42 (EBin OXor u64 (EBin OShl u64 (EVar 13) (EInt 6)) (EBin OShr u64 (EVar 13) (EInt 58))) ;;
    SSet 19 (EBin OXor u64 (EVar 19) (EVar 64)) ;;
    SSet 43 (EBin OXor u64 (EBin OShl u64 (EVar 19) (EInt 25)) (EBin OShr u64 (EVar 19) (EInt 39))) ;;
    SSet 25 (EBin OXor u64 (EVar 25) (EVar 65)) ;;
    SSet 44 (EBin OXor u64 (EBin OShl u64 (EVar 25) (EInt 8)) (EBin OShr u64 (EVar 25) (EInt 56))) ;;
    SSet 26 (EBin OXor u64 (EVar 26) (EVar 61)) ;;
    SSet 45 (EBin OXor u64 (EBin OShl u64 (EVar 26) (EInt 18)) (EBin OShr u64 (EVar 26) (EInt 46))) ;;
    SSet 76 (EBin OXor u64 (EVar 41) (EBin OAnd u64 (EUn ONot u64 (EVar 42)) (EVar 43))) ;;
    SSet 56 (EBin OXor u64 (EVar 56) (EVar 76)) ;;
    SSet 77 (EBin OXor u64 (EVar 42) (EBin OAnd u64 (EUn ONot u64 (EVar 43)) (EVar 44))) ;;
    SSet 57 (EBin OXor u64 (EVar 57) (EVar 77)) ;;
    SSet 78 (EBin OXor u64 (EVar 43) (EBin OAnd u64 (EUn ONot u64 (EVar 44)) (EVar 45))) ;;
    SSet 58 (EBin OXor u64 (EVar 58) (EVar 78)) ;;
    SSet 79 (EBin OXor u64 (EVar 44) (EBin OAnd u64 (EUn ONot u64 (EVar 45)) (EVar 41))) ;;
    SSet 59 (EBin OXor u64 (EVar 59) (EVar 79)) ;;
    SSet 80 (EBin OXor u64 (EVar 45) (EBin OAnd u64 (EUn ONot u64 (EVar 41)) (EVar 42))) ;;
    SSet 60 (EBin OXor u64 (EVar 60) (EVar 80)) ;;
    SSet 10 (EBin OXor u64 (EVar 10) (EVar 65)) ;;
    SSet 46 (EBin OXor u64 (EBin OShl u64 (EVar 10) (EInt 27)) (EBin OShr u64 (EVar 10) (EInt 37))) ;;
    SSet 11 (EBin OXor u64 (EVar 11) (EVar 61)) ;;
    SSet 47 (EBin OXor u64 (EBin OShl u64 (EVar 11) (EInt 36)) (EBin OShr u64 (EVar 11) (EInt 28))) ;;
    SSet 17 (EBin OXor u64 (EVar 17) (EVar 62)) ;;
    SSet 48 (EBin OXor u64 (EBin OShl u64 (EVar 17) (EInt 10)) (EBin OShr u64 (EVar 17) (EInt 54))) ;;
    SSet 23 (EBin OXor u64 (EVar 23) (EVar 63)) ;;
    SSet 49 (EBin OXor u64 (EBin OShl u64 (EVar 23) (EInt 15)) (EBin OShr u64 (EVar 23) (EInt 49))) ;;
    SSet 29 (EBin OXor u64 (EVar 29) (EVar 64)) ;;
    SSet 50 (EBin OXor u64 (EBin OShl u64 (EVar 29) (EInt 56)) (EBin OShr u64 (EVar 29) (EInt 8))) ;;
    SSet 81 (EBin OXor u64 (EVar 46) (EBin OAnd u64 (EUn ONot u64 (EVar 47)) (EVar 48))) ;;
    SSet 56 (EBin OXor u64 (EVar 56) (EVar 81))) ;;
    (
    SSet 82 (EBin OXor u64 (EVar 47) (EBin OAnd u64 (EUn ONot u64 (EVar 48)) (EVar 49))) ;;
    SSet 57 (EBin OXor u64 (EVar 57) (EVar 82)) ;;
    SSet 83 (EBin OXor u64 (EVar 48) (EBin OAnd u64 (EUn ONot u64 (EVar 49)) (EVar 50))) ;;
    SSet 58 (EBin OXor u64 (EVar 58) (EVar 83)) ;;
    SSet 84 (EBin OXor u64 (EVar 49) (EBin OAnd u64 (EUn ONot u64 (EVar 50)) (EVar 46))) ;;
    SSet 59 (EBin OXor u64 (EVar 59) (EVar 84)) ;;
    SSet 85 (EBin OXor u64 (EVar 50) (EBin OAnd u64 (EUn ONot u64 (EVar 46)) (EVar 47))) ;;
    SSet 60 (EBin OXor u64 (EVar 60) (EVar 85)) ;;
    SSet 8 (EBin OXor u64 (EVar 8) (EVar 63)) ;;
    SSet 51 (EBin OXor u64 (EBin OShl u64 (EVar 8) (EInt 62)) (EBin OShr u64 (EVar 8) (EInt 2))) ;;
    SSet 14 (EBin OXor u64 (EVar 14) (EVar 64)) ;;
    SSet 52 (EBin OXor u64 (EBin OShl u64 (EVar 14) (EInt 55)) (EBin OShr u64 (EVar 14) (EInt 9))) ;;
    SSet 20 (EBin OXor u64 (EVar 20) (EVar 65)) ;;
    SSet 53 (EBin OXor u64 (EBin OShl u64 (EVar 20) (EInt 39)) (EBin OShr u64 (EVar 20) (EInt 25))) ;;
    SSet 21 (EBin OXor u64 (EVar 21) (EVar 61)) ;;
    SSet 54 (EBin OXor u64 (EBin OShl u64 (EVar 21) (EInt 41)) (EBin OShr u64 (EVar 21) (EInt 23))) ;;
    SSet 27 (EBin OXor u64 (EVar 27) (EVar 62)) ;;
    SSet 55 (EBin OXor u64 (EBin OShl u64 (EVar 27) (EInt 2)) (EBin OShr u64 (EVar 27) (EInt 62))) ;;
    SSet 86 (EBin OXor u64 (EVar 51) (EBin OAnd u64 (EUn ONot u64 (EVar 52)) (EVar 53))) ;;
    SSet 56 (EBin OXor u64 (EVar 56) (EVar 86)) ;;
    SSet 87 (EBin OXor u64 (EVar 52) (EBin OAnd u64 (EUn ONot u64 (EVar 53)) (EVar 54))) ;;
    SSet 57 (EBin OXor u64 (EVar 57) (EVar 87)) ;;
    SSet 88 (EBin OXor u64 (EVar 53) (EBin OAnd u64 (EUn ONot u64 (EVar 54)) (EVar 55))) ;;
    SSet 58 (EBin OXor u64 (EVar 58) (EVar 88)) ;;
    SSet 89 (EBin OXor u64 (EVar 54) (EBin OAnd u64 (EUn ONot u64 (EVar 55)) (EVar 51))) ;;
    SSet 59 (EBin OXor u64 (EVar 59) (EVar 89)) ;;
    SSet 90 (EBin OXor u64 (EVar 55) (EBin OAnd u64 (EUn ONot u64 (EVar 51)) (EVar 52))) ;;
    SSet 60 (EBin OXor u64 (EVar 60) (EVar 90)) ;;
    SSet 61 (EBin OXor u64 (EVar 60) (EBin OXor u64 (EBin OShl u64 (EVar 57) (EInt 1)) (EBin OShr u64 (EVar 57) (EInt 63)))) ;;
    SSet 62 (EBin OXor u64 (EVar 56) (EBin OXor u64 (EBin OShl u64 (EVar 58) (EInt 1)) (EBin OShr u64 (EVar 58) (EInt 63)))) ;;
    SSet 63 (EBin OXor u64 (EVar 57) (EBin OXor u64 (EBin OShl u64 (EVar 59) (EInt 1)) (EBin OShr u64 (EVar 59) (EInt 63)))) ;;
    SSet 64 (EBin OXor u64 (EVar 58) (EBin OXor u64 (EBin OShl u64 (EVar 60) (EInt 1)) (EBin OShr u64 (EVar 60) (EInt 63)))) ;;
    SSet 65 (EBin OXor u64 (EVar 59) (EBin OXor u64 (EBin OShl u64 (EVar 56) (EInt 1)) (EBin OShr u64 (EVar 56) (EInt 63)))) ;;
    SSet 66 (EBin OXor u64 (EVar 66) (EVar 61)) ;;
    SSet 31 (EVar 66) ;;
    SSet 72 (EBin OXor u64 (EVar 72) (EVar 62)) ;;
    SSet 32 (EBin OXor u64 (EBin OShl u64 (EVar 72) (EInt 44)) (EBin OShr u64 (EVar 72) (EInt 20))) ;;
    SSet 78 (EBin OXor u64 (EVar 78) (EVar 63)) ;;
    SSet 33 (EBin OXor u64 (EBin OShl u64 (EVar 78) (EInt 43)) (EBin OShr u64 (EVar 78) (EInt 21))) ;;
    SSet 84 (EBin OXor u64 (EVar 84) (EVar 64)))) ;;
    (
    (
    SSet 34 (EBin OXor u64 (EBin OShl u64 (EVar 84) (EInt 21)) (EBin OShr u64 (EVar 84) (EInt 43))) ;;
    SSet 90 (EBin OXor u64 (EVar 90) (EVar 65)) ;;
    SSet 35 (EBin OXor u64 (EBin OShl u64 (EVar 90) (EInt 14)) (EBin OShr u64 (EVar 90) (EInt 50))) ;;
    SSet 6 (EBin OXor u64 (EVar 31) (EBin OAnd u64 (EUn ONot u64 (EVar 32)) (EVar 33))) ;;
    SSet 6 (EBin OXor u64 (EVar 6) (ELoad 8 (EAt (EGlob 1) 8 (EInt 11)))) ;;
    SSet 56 (EVar 6) ;;
    SSet 7 (EBin OXor u64 (EVar 32) (EBin OAnd u64 (EUn ONot u64 (EVar 33)) (EVar 34))) ;;
    SSet 57 (EVar 7) ;;
    SSet 8 (EBin OXor u64 (EVar 33) (EBin OAnd u64 (EUn ONot u64 (EVar 34)) (EVar 35))) ;;
    SSet 58 (EVar 8) ;;
    SSet 9 (EBin OXor u64 (EVar 34) (EBin OAnd u64 (EUn ONot u64 (EVar 35)) (EVar 31))) ;;
    SSet 59 (EVar 9) ;;
    SSet 10 (EBin OXor u64 (EVar 35) (EBin OAnd u64 (EUn ONot u64 (EVar 31)) (EVar 32))) ;;
    SSet 60 (EVar 10) ;;
    SSet 69 (EBin OXor u64 (EVar 69) (EVar 64)) ;;
    SSet 36 (EBin OXor u64 (EBin OShl u64 (EVar 69) (EInt 28)) (EBin OShr u64 (EVar 69) (EInt 36))) ;;
    SSet 75 (EBin OXor u64 (EVar 75) (EVar 65)) ;;
    SSet 37 (EBin OXor u64 (EBin OShl u64 (EVar 75) (EInt 20)) (EBin OShr u64 (EVar 75) (EInt 44))) ;;
    SSet 76 (EBin OXor u64 (EVar 76) (EVar 61)) ;;
    SSet 38 (EBin OXor u64 (EBin OShl u64 (EVar 76) (EInt 3)) (EBin OShr u64 (EVar 76) (EInt 61))) ;;
    SSet 82 (EBin OXor u64 (EVar 82) (EVar 62)) ;;
    SSet 39 (EBin OXor u64 (EBin OShl u64 (EVar 82) (EInt 45)) (EBin OShr u64 (EVar 82) (EInt 19))) ;;
    SSet 88 (EBin OXor u64 (EVar 88) (EVar 63)) ;;
    SSet 40 (EBin OXor u64 (EBin OShl u64 (EVar 88) (EInt 61)) (EBin OShr u64 (EVar 88) (EInt 3))) ;;
    SSet 11 (EBin OXor u64 (EVar 36) (EBin OAnd u64 (EUn ONot u64 (EVar 37)) (EVar 38))) ;;
    SSet 56 (EBin OXor u64 (EVar 56) (EVar 11)) ;;
    SSet 12 (EBin OXor u64 (EVar 37) (EBin OAnd u64 (EUn ONot u64 (EVar 38)) (EVar 39))) ;;
    SSet 57 (EBin OXor u64 (EVar 57) (EVar 12)) ;;
    SSet 13 (EBin OXor u64 (EVar 38) (EBin OAnd u64 (EUn ONot u64 (EVar 39)) (EVar 40))) ;;
    SSet 58 (EBin OXor u64 (EVar 58) (EVar 13)) ;;
    SSet 14 (EBin OXor u64 (EVar 39) (EBin OAnd u64 (EUn ONot u64 (EVar 40)) (EVar 36))) ;;
    SSet 59 (EBin OXor u64 (EVar 59) (EVar 14)) ;;
    SSet 15 (EBin OXor u64 (EVar 40) (EBin OAnd u64 (EUn ONot u64 (EVar 36)) (EVar 37))) ;;
    SSet 60 (EBin OXor u64 (EVar 60) (EVar 15)) ;;
    SSet 67 (EBin OXor u64 (EVar 67) (EVar 62)) ;;
    SSet 41 (EBin OXor u64 (EBin OShl u64 (EVar 67) (EInt 1)) (EBin OShr u64 (EVar 67) (EInt 63))) ;;
    SSet 73 (EBin OXor u64 (EVar 73) (EVar 63)) ;;
    SSet 42 (EBin OXor u64 (EBin OShl u64 (EVar 73) (EInt 6)) (EBin OShr u64 (EVar 73) (EInt 58))) ;;
    SSet 79 (EBin OXor u64 (EVar 79) (EVar 64))) ;;
    (
    SSet 43 (EBin OXor u64 (EBin OShl u64 (EVar 79) (EInt 25)) (EBin OShr u64 (EVar 79) (EInt 39))) ;;
    SSet 85 (EBin OXor u64 (EVar 85) (EVar 65)) ;;
    SSet 44 (EBin OXor u64 (EBin OShl u64 (EVar 85) (EInt 8)) (EBin OShr u64 (EVar 85) (EInt 56))) ;;
    SSet 86 (EBin OXor u64 (EVar 86) (EVar 61)) ;;
    SSet 45 (EBin OXor u64 (EBin OShl u64 (EVar 86) (EInt 18)) (EBin OShr u64 (EVar 86) (EInt 46))) ;;
    SSet 16 (EBin OXor u64 (EVar 41) (EBin OAnd u64 (EUn ONot u64 (EVar 42)) (EVar 43))) ;;
    SSet 56 (EBin OXor u64 (EVar 56) (EVar 16)) ;;
    SSet 17 (EBin OXor u64 (EVar 42) (EBin OAnd u64 (EUn ONot u64 (EVar 43)) (EVar 44))) ;;
    SSet 57 (EBin OXor u64 (EVar 57) (EVar 17)) ;;
    SSet 18 (EBin OXor u64 (EVar 43) (EBin OAnd u64 (EUn ONot u64 (EVar 44)) (EVar 45))) ;;
    SSet 58 (EBin OXor u64 (EVar 58) (EVar 18)) ;;
    SSet 19 (EBin OXor u64 (EVar 44) (EBin OAnd u64 (EUn ONot u64 (EVar 45)) (EVar 41))) ;;
    SSet 59 (EBin OXor u64 (EVar 59) (EVar 19)) ;;
    SSet 20 (EBin OXor u64 (EVar 45) (EBin OAnd u64 (EUn ONot u64 (EVar 41)) (EVar 42))) ;;
    SSet 60 (EBin OXor u64 (EVar 60) (EVar 20)) ;;
    SSet 70 (EBin OXor u64 (EVar 70) (EVar 65)) ;;
    SSet 46 (EBin OXor u64 (EBin OShl u64 (EVar 70) (EInt 27)) (EBin OShr u64 (EVar 70) (EInt 37))) ;;
    SSet 71 (EBin OXor u64 (EVar 71) (EVar 61)) ;;
    SSet 47 (EBin OXor u64 (EBin OShl u64 (EVar 71) (EInt 36)) (EBin OShr u64 (EVar 71) (EInt 28))) ;;
    SSet 77 (EBin OXor u64 (EVar 77) (EVar 62)) ;;
    SSet 48 (EBin OXor u64 (EBin OShl u64 (EVar 77) (EInt 10)) (EBin OShr u64 (EVar 77) (EInt 54))) ;;
    SSet 83 (EBin OXor u64 (EVar 83) (EVar 63)) ;;
    SSet 49 (EBin OXor u64 (EBin OShl u64 (EVar 83) (EInt 15)) (EBin OShr u64 (EVar 83) (EInt 49))) ;;
    SSet 89 (EBin OXor u64 (EVar 89) (EVar 64)) ;;
    SSet 50 (EBin OXor u64 (EBin OShl u64 (EVar 89) (EInt 56)) (EBin OShr u64 (EVar 89) (EInt 8))) ;;
    SSet 21 (EBin OXor u64 (EVar 46) (EBin OAnd u64 (EUn ONot u64 (EVar 47)) (EVar 48))) ;;
    SSet 56 (EBin OXor u64 (EVar 56) (EVar 21)) ;;
    SSet 22 (EBin OXor u64 (EVar 47) (EBin OAnd u64 (EUn ONot u64 (EVar 48)) (EVar 49))) ;;
    SSet 57 (EBin OXor u64 (EVar 57) (EVar 22)) ;;
    SSet 23 (EBin OXor u64 (EVar 48) (EBin OAnd u64 (EUn ONot u64 (EVar 49)) (EVar 50))) ;;
    SSet 58 (EBin OXor u64 (EVar 58) (EVar 23)) ;;
    SSet 24 (EBin OXor u64 (EVar 49) (EBin OAnd u64 (EUn ONot u64 (EVar 50)) (EVar 46))) ;;
    SSet 59 (EBin OXor u64 (EVar 59) (EVar 24)) ;;
    SSet 25 (EBin OXor u64 (EVar 50) (EBin OAnd u64 (EUn ONot u64 (EVar 46)) (EVar 47))) ;;
    SSet 60 (EBin OXor u64 (EVar 60) (EVar 25)) ;;
    SSet 68 (EBin OXor u64 (EVar 68) (EVar 63)) ;;
    SSet 51 (EBin OXor u64 (EBin OShl u64 (EVar 68) (EInt 62)) (EBin OShr u64 (EVar 68) (EInt 2))) ;;
    SSet 74 (EBin OXor u64 (EVar 74) (EVar 64)) ;;
    SSet 52 (EBin OXor u64 (EBin OShl u64 (EVar 74) (EInt 55)) (EBin OShr u64 (EVar 74) (EInt 9))) ;;
    SSet 80 (EBin OXor u64 (EVar 80) (EVar 65)))))))) ;;
    (
    (
    (
    (
    (
    (
    SSet 53 (EBin OXor u64 (EBin OShl u64 (EVar 80) (EInt 39)) (EBin OShr u64 (EVar 80) (EInt 25))) ;;
    SSet 81 (EBin OXor u64 (EVar 81) (EVar 61)) ;;
    SSet 54 (EBin OXor u64 (EBin OShl u64 (EVar 81) (EInt 41)) (EBin OShr u64 (EVar 81) (EInt 23))) ;;
    SSet 87 (EBin OXor u64 (EVar 87) (EVar 62)) ;;
    SSet 55 (EBin OXor u64 (EBin OShl u64 (EVar 87) (EInt 2)) (EBin OShr u64 (EVar 87) (EInt 62))) ;;
    SSet 26 (EBin OXor u64 (EVar 51) (EBin OAnd u64 (EUn ONot u64 (EVar 52)) (EVar 53))) ;;
    SSet 56 (EBin OXor u64 (EVar 56) (EVar 26)) ;;
    SSet 27 (EBin OXor u64 (EVar 52) (EBin OAnd u64 (EUn ONot u64 (EVar 53)) (EVar 54))) ;;
    SSet 57 (EBin OXor u64 (EVar 57) (EVar 27)) ;;
    SSet 28 (EBin OXor u64 (EVar 53) (EBin OAnd u64 (EUn ONot u64 (EVar 54)) (EVar 55))) ;;
    SSet 58 (EBin OXor u64 (EVar 58) (EVar 28)) ;;
    SSet 29 (EBin OXor u64 (EVar 54) (EBin OAnd u64 (EUn ONot u64 (EVar 55)) (EVar 51))) ;;
    SSet 59 (EBin OXor u64 (EVar 59) (EVar 29)) ;;
    SSet 30 (EBin OXor u64 (EVar 55) (EBin OAnd u64 (EUn ONot u64 (EVar 51)) (EVar 52))) ;;
    SSet 60 (EBin OXor u64 (EVar 60) (EVar 30)) ;;
    SSet 61 (EBin OXor u64 (EVar 60) (EBin OXor u64 (EBin OShl u64 (EVar 57) (EInt 1)) (EBin OShr u64 (EVar 57) (EInt 63)))) ;;
    SSet 62 (EBin OXor u64 (EVar 56) (EBin OXor u64 (EBin OShl u64 (EVar 58) (EInt 1)) (EBin OShr u64 (EVar 58) (EInt 63)))) ;;
    SSet 63 (EBin OXor u64 (EVar 57) (EBin OXor u64 (EBin OShl u64 (EVar 59) (EInt 1)) (EBin OShr u64 (EVar 59) (EInt 63)))) ;;
    SSet 64 (EBin OXor u64 (EVar 58) (EBin OXor u64 (EBin OShl u64 (EVar 60) (EInt 1)) (EBin OShr u64 (EVar 60) (EInt 63)))) ;;
    SSet 65 (EBin OXor u64 (EVar 59) (EBin OXor u64 (EBin OShl u64 (EVar 56) (EInt 1)) (EBin OShr u64 (EVar 56) (EInt 63)))) ;;
    SSet 6 (EBin OXor u64 (EVar 6) (EVar 61)) ;;
    SSet 31 (EVar 6) ;;
    SSet 12 (EBin OXor u64 (EVar 12) (EVar 62)) ;;
    SSet 32 (EBin OXor u64 (EBin OShl u64 (EVar 12) (EInt 44)) (EBin OShr u64 (EVar 12) (EInt 20))) ;;
    SSet 18 (EBin OXor u64 (EVar 18) (EVar 63)) ;;
    SSet 33 (EBin OXor u64 (EBin OShl u64 (EVar 18) (EInt 43)) (EBin OShr u64 (EVar 18) (EInt 21))) ;;
    SSet 24 (EBin OXor u64 (EVar 24) (EVar 64)) ;;
    SSet 34 (EBin OXor u64 (EBin OShl u64 (EVar 24) (EInt 21)) (EBin OShr u64 (EVar 24) (EInt 43))) ;;
    SSet 30 (EBin OXor u64 (EVar 30) (EVar 65)) ;;
    SSet 35 (EBin OXor u64 (EBin OShl u64 (EVar 30) (EInt 14)) (EBin OShr u64 (EVar 30) (EInt 50))) ;;
    SSet 66 (EBin OXor u64 (EVar 31) (EBin OAnd u64 (EUn ONot u64 (EVar 32)) (EVar 33))) ;;
    SSet 66 (EBin OXor u64 (EVar 66) (ELoad 8 (EAt (EGlob 1) 8 (EInt 12)))) ;;
    SSet 56 (EVar 66) ;;
    SSet 67 (EBin OXor u64 (EVar 32) (EBin OAnd u64 (EUn ONot u64 (EVar 33)) (EVar 34))) ;;
    SSet 57 (EVar 67) ;;
    SSet 68 (EBin OXor u64 (EVar 33) (EBin OAnd u64 (EUn ONot u64 (EVar 34)) (EVar 35))) ;;
    SSet 58 (EVar 68) ;;
    SSet 69 (EBin OXor u64 (EVar 34) (EBin OAnd u64 (EUn ONot u64 (EVar 35)) (EVar 31))) ;;
    SSet 59 (EVar 69)) ;;
    (
    SSet 70 (EBin OXor u64 (EVar 35) (EBin OAnd u64 (EUn ONot u64 (EVar 31)) (EVar 32))) ;;
    SSet 60 (EVar 70) ;;
    SSet 9 (EBin OXor u64 (EVar 9) (EVar 64)) ;;
    SSet 36 (EBin OXor u64 (EBin OShl u64 (EVar 9) (EInt 28)) (EBin OShr u64 (EVar 9) (EInt 36))) ;;
    SSet 15 (EBin OXor u64 (EVar 15) (EVar 65)) ;;
    SSet 37 (EBin OXor u64 (EBin OShl u64 (EVar 15) (EInt 20)) (EBin OShr u64 (EVar 15) (EInt 44))) ;;
    SSet 16 (EBin OXor u64 (EVar 16) (EVar 61)) ;;
    SSet 38 (EBin OXor u64 (EBin OShl u64 (EVar 16) (EInt 3)) (EBin OShr u64 (EVar 16) (EInt 61))) ;;
    SSet 22 (EBin OXor u64 (EVar 22) (EVar 62)) ;;
    SSet 39 (EBin OXor u64 (EBin OShl u64 (EVar 22) (EInt 45)) (EBin OShr u64 (EVar 22) (EInt 19))) ;;
    SSet 28 (EBin OXor u64 (EVar 28) (EVar 63)) ;;
    SSet 40 (EBin OXor u64 (EBin OShl u64 (EVar 28) (EInt 61)) (EBin OShr u64 (EVar 28) (EInt 3))) ;;
    SSet 71 (EBin OXor u64 (EVar 36) (EBin OAnd u64 (EUn ONot u64 (EVar 37)) (EVar 38))) ;;
    SSet 56 (EBin OXor u64 (EVar 56) (EVar 71)) ;;
    SSet 72 (EBin OXor u64 (EVar 37) (EBin OAnd u64 (EUn ONot u64 (EVar 38)) (EVar 39))) ;;
    SSet 57 (EBin OXor u64 (EVar 57) (EVar 72)) ;;
    SSet 73 (EBin OXor u64 (EVar 38) (EBin OAnd u64 (EUn ONot u64 (EVar 39)) (EVar 40))) ;;
    SSet 58 (EBin OXor u64 (EVar 58) (EVar 73)) ;;
    SSet 74 (EBin OXor u64 (EVar 39) (EBin OAnd u64 (EUn ONot u64 (EVar 40)) (EVar 36))) ;;
    SSet 59 (EBin OXor u64 (EVar 59) (EVar 74)) ;;
    SSet 75 (EBin OXor u64 (EVar 40) (EBin OAnd u64 (EUn ONot u64 (EVar 36)) (EVar 37))) ;;
    SSet 60 (EBin OXor u64 (EVar 60) (EVar 75)) ;;
    SSet 7 (EBin OXor u64 (EVar 7) (EVar 62)) ;;
    SSet 41 (EBin OXor u64 (EBin OShl u64 (EVar 7) (EInt 1)) (EBin OShr u64 (EVar 7) (EInt 63))) ;;
    SSet 13 (EBin OXor u64 (EVar 13) (EVar 63)) ;;
    SSet 42 (EBin OXor u64 (EBin OShl u64 (EVar 13) (EInt 6)) (EBin OShr u64 (EVar 13) (EInt 58))) ;;
    SSet 19 (EBin OXor u64 (EVar 19) (EVar 64)) ;;
    SSet 43 (EBin OXor u64 (EBin OShl u64 (EVar 19) (EInt 25)) (EBin OShr u64 (EVar 19) (EInt 39))) ;;
    SSet 25 (EBin OXor u64 (EVar 25) (EVar 65)) ;;
    SSet 44 (EBin OXor u64 (EBin OShl u64 (EVar 25) (EInt 8)) (EBin OShr u64 (EVar 25) (EInt 56))) ;;
    SSet 26 (EBin OXor u64 (EVar 26) (EVar 61)) ;;
    SSet 45 (EBin OXor u64 (EBin OShl u64 (EVar 26) (EInt 18)) (EBin OShr u64 (EVar 26) (EInt 46))) ;;
    SSet 76 (EBin OXor u64 (EVar 41) (EBin OAnd u64 (EUn ONot u64 (EVar 42)) (EVar 43))) ;;
    SSet 56 (EBin OXor u64 (EVar 56) (EVar 76)) ;;
    SSet 77 (EBin OXor u64 (EVar 42) (EBin OAnd u64 (EUn ONot u64 (EVar 43)) (EVar 44))) ;;
    SSet 57 (EBin OXor u64 (EVar 57) (EVar 77)) ;;
    SSet 78 (EBin OXor u64 (EVar 43) (EBin OAnd u64 (EUn ONot u64 (EVar 44)) (EVar 45))) ;;
    SSet 58 (EBin OXor u64 (EVar 58) (EVar 78)) ;;
    SSet 79 (EBin OXor u64 (EVar 44) (EBin OAnd u64 (EUn ONot u64 (EVar 45)) (EVar 41))) ;;
    SSet 59 (EBin OXor u64 (EVar 59) (EVar 79)))) ;;
    (
    (
    SSet 80 (EBin OXor u64 (EVar 45) (EBin OAnd u64 (EUn ONot u64 (EVar 41)) (EVar 42))) ;;
    SSet 60 (EBin OXor u64 (EVar 60) (EVar 80)) ;;
    SSet 10 (EBin OXor u64 (EVar 10) (EVar 65)) ;;
    SSet 46 (EBin OXor u64 (EBin OShl u64 (EVar 10) (EInt 27)) (EBin OShr u64 (EVar 10) (EInt 37))) ;;
    SSet 11 (EBin OXor u64 (EVar 11) (EVar 61)) ;;
    SSet 47 (EBin OXor u64 (EBin OShl u64 (EVar 11) (EInt 36)) (EBin OShr u64 (EVar 11) (EInt 28))) ;;
    SSet 17 (EBin OXor u64 (EVar 17) (EVar 62)) ;;
    SSet 48 (EBin OXor u64 (EBin OShl u64 (EVar 17) (EInt 10)) (EBin OShr u64 (EVar 17) (EInt 54))) ;;
    SSet 23 (EBin OXor u64 (EVar 23) (EVar 63)) ;;
    SSet 49 (EBin OXor u64 (EBin OShl u64 (EVar 23) (EInt 15)) (EBin OShr u64 (EVar 23) (EInt 49))) ;;
    SSet 29 (EBin OXor u64 (EVar 29) (EVar 64)) ;;
    SSet 50 (EBin OXor u64 (EBin OShl u64 (EVar 29) (EInt 56)) (EBin OShr u64 (EVar 29) (EInt 8))) ;;
    SSet 81 (EBin OXor u64 (EVar 46) (EBin OAnd u64 (EUn ONot u64 (EVar 47)) (EVar 48))) ;;
    SSet 56 (EBin OXor u64 (EVar 56) (EVar 81)) ;;
    SSet 82 (EBin OXor u64 (EVar 47) (EBin OAnd u64 (EUn ONot u64 (EVar 48)) (EVar 49))) ;;
    SSet 57 (EBin OXor u64 (EVar 57) (EVar 82)) ;;
    SSet 83 (EBin OXor u64 (EVar 48) (EBin OAnd u64 (EUn ONot u64 (EVar 49)) (EVar 50))) ;;
    SSet 58 (EBin OXor u64 (EVar 58) (EVar 83)) ;;
    SSet 84 (EBin OXor u64 (EVar 49) (EBin OAnd u64 (EUn ONot u64 (EVar 50)) (EVar 46))) ;;
    SSet 59 (EBin OXor u64 (EVar 59) (EVar 84)) ;;
    SSet 85 (EBin OXor u64 (EVar 50) (EBin OAnd u64 (EUn ONot u64 (EVar 46)) (EVar 47))) ;;
    SSet 60 (EBin OXor u64 (EVar 60) (EVar 85)) ;;
    SSet 8 (EBin OXor u64 (EVar 8) (EVar 63)) ;;
    SSet 51 (EBin OXor u64 (EBin OShl u64 (EVar 8) (EInt 62)) (EBin OShr u64 (EVar 8) (EInt 2))) ;;
    SSet 14 (EBin OXor u64 (EVar 14) (EVar 64)) ;;
    SSet 52 (EBin OXor u64 (EBin OShl u64 (EVar 14) (EInt 55)) (EBin OShr u64 (EVar 14) (EInt 9))) ;;
    SSet 20 (EBin OXor u64 (EVar 20) (EVar 65)) ;;
    SSet 53 (EBin OXor u64 (EBin OShl u64 (EVar 20) (EInt 39)) (EBin OShr u64 (EVar 20) (EInt 25))) ;;
    SSet 21 (EBin OXor u64 (EVar 21) (EVar 61)) ;;
    SSet 54 (EBin OXor u64 (EBin OShl u64 (EVar 21) (EInt 41)) (EBin OShr u64 (EVar 21) (EInt 23))) ;;
    SSet 27 (EBin OXor u64 (EVar 27) (EVar 62)) ;;
    SSet 55 (EBin OXor u64 (EBin OShl u64 (EVar 27) (EInt 2)) (EBin OShr u64 (EVar 27) (EInt 62))) ;;
    SSet 86 (EBin OXor u64 (EVar 51) (EBin OAnd u64 (EUn ONot u64 (EVar 52)) (EVar 53))) ;;
    SSet 56 (EBin OXor u64 (EVar 56) (EVar 86)) ;;
    SSet 87 (EBin OXor u64 (EVar 52) (EBin OAnd u64 (EUn ONot u64 (EVar 53)) (EVar 54))) ;;
    SSet 57 (EBin OXor u64 (EVar 57) (EVar 87)) ;;
    SSet 88 (EBin OXor u64 (EVar 53) (EBin OAnd u64 (EUn ONot u64 (EVar 54)) (EVar 55))) ;;
    SSet 58 (EBin OXor u64 (EVar 58) (EVar 88)) ;;
    SSet 89 (EBin OXor u64 (EVar 54) (EBin OAnd u64 (EUn ONot u64 (EVar 55)) (EVar 51)))) ;;
    (
    SSet 59 (EBin OXor u64 (EVar 59) (EVar 89)) ;;
    SSet 90 (EBin OXor u64 (EVar 55) (EBin OAnd u64 (EUn ONot u64 (EVar 51)) (EVar 52))) ;;
    SSet 60 (EBin OXor u64 (EVar 60) (EVar 90)) ;;
    SSet 61 (EBin OXor u64 (EVar 60) (EBin OXor u64 (EBin OShl u64 (EVar 57) (EInt 1)) (EBin OShr u64 (EVar 57) (EInt 63)))) ;;
    SSet 62 (EBin OXor u64 (EVar 56) (EBin OXor u64 (EBin OShl u64 (EVar 58) (EInt 1)) (EBin OShr u64 (EVar 58) (EInt 63)))) ;;
    SSet 63 (EBin OXor u64 (EVar 57) (EBin OXor u64 (EBin OShl u64 (EVar 59) (EInt 1)) (EBin OShr u64 (EVar 59) (EInt 63)))) ;;
    SSet 64 (EBin OXor u64 (EVar 58) (EBin OXor u64 (EBin OShl u64 (EVar 60) (EInt 1)) (EBin OShr u64 (EVar 60) (EInt 63)))) ;;
    SSet 65 (EBin OXor u64 (EVar 59) (EBin OXor u64 (EBin OShl u64 (EVar 56) (EInt 1)) (EBin OShr u64 (EVar 56) (EInt 63)))) ;;
    SSet 66 (EBin OXor u64 (EVar 66) (EVar 61)) ;;
    SSet 31 (EVar 66) ;;
    SSet 72 (EBin OXor u64 (EVar 72) (EVar 62)) ;;
    SSet 32 (EBin OXor u64 (EBin OShl u64 (EVar 72) (EInt 44)) (EBin OShr u64 (EVar 72) (EInt 20))) ;;
    SSet 78 (EBin OXor u64 (EVar 78) (EVar 63)) ;;
    SSet 33 (EBin OXor u64 (EBin OShl u64 (EVar 78) (EInt 43)) (EBin OShr u64 (EVar 78) (EInt 21))) ;;
    SSet 84 (EBin OXor u64 (EVar 84) (EVar 64)) ;;
    SSet 34 (EBin OXor u64 (EBin OShl u64 (EVar 84) (EInt 21)) (EBin OShr u64 (EVar 84) (EInt 43))) ;;
    SSet 90 (EBin OXor u64 (EVar 90) (EVar 65)) ;;
    SSet 35 (EBin OXor u64 (EBin OShl u64 (EVar 90) (EInt 14)) (EBin OShr u64 (EVar 90) (EInt 50))) ;;
    SSet 6 (EBin OXor u64 (EVar 31) (EBin OAnd u64 (EUn ONot u64 (EVar 32)) (EVar 33))) ;;
    SSet 6 (EBin OXor u64 (EVar 6) (ELoad 8 (EAt (EGlob 1) 8 (EInt 13)))) ;;
    SSet 56 (EVar 6) ;;
    SSet 7 (EBin OXor u64 (EVar 32) (EBin OAnd u64 (EUn ONot u64 (EVar 33)) (EVar 34))) ;;
    SSet 57 (EVar 7) ;;
    SSet 8 (EBin OXor u64 (EVar 33) (EBin OAnd u64 (EUn ONot u64 (EVar 34)) (EVar 35))) ;;
    SSet 58 (EVar 8) ;;
    SSet 9 (EBin OXor u64 (EVar 34) (EBin OAnd u64 (EUn ONot u64 (EVar 35)) (EVar 31))) ;;
    SSet 59 (EVar 9) ;;
    SSet 10 (EBin OXor u64 (EVar 35) (EBin OAnd u64 (EUn ONot u64 (EVar 31)) (EVar 32))) ;;
    SSet 60 (EVar 10) ;;
    SSet 69 (EBin OXor u64 (EVar 69) (EVar 64)) ;;
    SSet 36 (EBin OXor u64 (EBin OShl u64 (EVar 69) (EInt 28)) (EBin OShr u64 (EVar 69) (EInt 36))) ;;
    SSet 75 (EBin OXor u64 (EVar 75) (EVar 65)) ;;
    SSet 37 (EBin OXor u64 (EBin OShl u64 (EVar 75) (EInt 20)) (EBin OShr u64 (EVar 75) (EInt 44))) ;;
    SSet 76 (EBin OXor u64 (EVar 76) (EVar 61)) ;;
    SSet 38 (EBin OXor u64 (EBin OShl u64 (EVar 76) (EInt 3)) (EBin OShr u64 (EVar 76) (EInt 61))) ;;
    SSet 82 (EBin OXor u64 (EVar 82) (EVar 62)) ;;
    SSet 39 (EBin OXor u64 (EBin OShl u64 (EVar 82) (EInt 45)) (EBin OShr u64 (EVar 82) (EInt 19))) ;;
    SSet 88 (EBin OXor u64 (EVar 88) (EVar 63)) ;;
    SSet 40 (EBin OXor u64 (EBin OShl u64 (EVar 88) (EInt 61)) (EBin OShr u64 (EVar 88) (EInt 3))) ;;
    SSet 11 (EBin OXor u64 (EVar 36) (EBin OAnd u64 (EUn ONot u64 (EVar 37)) (EVar 38)))))) ;;
    (
    (
    (
    SSet 56 (EBin OXor u64 (EVar 56) (EVar 11)) ;;
    SSet 12 (EBin OXor u64 (EVar 37) (EBin OAnd u64 (EUn ONot u64 (EVar 38)) (EVar 39))) ;;
    SSet 57 (EBin OXor u64 (EVar 57) (EVar 12)) ;;
    SSet 13 (EBin OXor u64 (EVar 38) (EBin OAnd u64 (EUn ONot u64 (EVar 39)) (EVar 40))) ;;
    SSet 58 (EBin OXor u64 (EVar 58) (EVar 13)) ;;
    SSet 14 (EBin OXor u64 (EVar 39) (EBin OAnd u64 (EUn ONot u64 (EVar 40)) (EVar 36))) ;;
    SSet 59 (EBin OXor u64 (EVar 59) (EVar 14)) ;;
    SSet 15 (EBin OXor u64 (EVar 40) (EBin OAnd u64 (EUn ONot u64 (EVar 36)) (EVar 37))) ;;
    SSet 60 (EBin OXor u64 (EVar 60) (EVar 15)) ;;
    SSet 67 (EBin OXor u64 (EVar 67) (EVar 62)) ;;
    SSet 41 (EBin OXor u64 (EBin OShl u64 (EVar 67) (EInt 1)) (EBin OShr u64 (EVar 67) (EInt 63))) ;;
    SSet 73 (EBin OXor u64 (EVar 73) (EVar 63)) ;;
    SSet 42 (EBin OXor u64 (EBin OShl u64 (EVar 73) (EInt 6)) (EBin OShr u64 (EVar 73) (EInt 58))) ;;
    SSet 79 (EBin OXor u64 (EVar 79) (EVar 64)) ;;
    SSet 43 (EBin OXor u64 (EBin OShl u64 (EVar 79) (EInt 25)) (EBin OShr u64 (EVar 79) (EInt 39))) ;;
    SSet 85 (EBin OXor u64 (EVar 85) (EVar 65)) ;;
    SSet 44 (EBin OXor u64 (EBin OShl u64 (EVar 85) (EInt 8)) (EBin OShr u64 (EVar 85) (EInt 56))) ;;
    SSet 86 (EBin OXor u64 (EVar 86) (EVar 61)) ;;
    SSet 45 (EBin OXor u64 (EBin OShl u64 (EVar 86) (EInt 18)) (EBin OShr u64 (EVar 86) (EInt 46))) ;;
    SSet 16 (EBin OXor u64 (EVar 41) (EBin OAnd u64 (EUn ONot u64 (EVar 42)) (EVar 43))) ;;
    SSet 56 (EBin OXor u64 (EVar 56) (EVar 16)) ;;
    SSet 17 (EBin OXor u64 (EVar 42) (EBin OAnd u64 (EUn ONot u64 (EVar 43)) (EVar 44))) ;;
    SSet 57 (EBin OXor u64 (EVar 57) (EVar 17)) ;;
    SSet 18 (EBin OXor u64 (EVar 43) (EBin OAnd u64 (EUn ONot u64 (EVar 44)) (EVar 45))) ;;
    SSet 58 (EBin OXor u64 (EVar 58) (EVar 18)) ;;
    SSet 19 (EBin OXor u64 (EVar 44) (EBin OAnd u64 (EUn ONot u64 (EVar 45)) (EVar 41))) ;;
    SSet 59 (EBin OXor u64 (EVar 59) (EVar 19)) ;;
    SSet 20 (EBin OXor u64 (EVar 45) (EBin OAnd u64 (EUn ONot u64 (EVar 41)) (EVar 42))) ;;
    SSet 60 (EBin OXor u64 (EVar 60) (EVar 20)) ;;
    SSet 70 (EBin OXor u64 (EVar 70) (EVar 65)) ;;
    SSet 46 (EBin OXor u64 (EBin OShl u64 (EVar 70) (EInt 27)) (EBin OShr u64 (EVar 70) (EInt 37))) ;;
    SSet 71 (EBin OXor u64 (EVar 71) (EVar 61)) ;;
    SSet 47 (EBin OXor u64 (EBin OShl u64 (EVar 71) (EInt 36)) (EBin OShr u64 (EVar 71) (EInt 28))) ;;
    SSet 77 (EBin OXor u64 (EVar 77) (EVar 62)) ;;
    SSet 48 (EBin OXor u64 (EBin OShl u64 (EVar 77) (EInt 10)) (EBin OShr u64 (EVar 77) (EInt 54))) ;;
    SSet 83 (EBin OXor u64 (EVar 83) (EVar 63)) ;;
    SSet 49 (EBin OXor u64 (EBin OShl u64 (EVar 83) (EInt 15)) (EBin OShr u64 (EVar 83) (EInt 49))) ;;
    SSet 89 (EBin OXor u64 (EVar 89) (EVar 64)) ;;
    SSet 50 (EBin OXor u64 (EBin OShl u64 (EVar 89) (EInt 56)) (EBin OShr u64 (EVar 89) (EInt 8)))) ;;
    (
    SSet 21 (EBin OXor u64 (EVar 46) (EBin OAnd u64 (EUn ONot u64 (EVar 47)) (EVar 48))) ;;
    SSet 56 (EBin OXor u64 (EVar 56) (EVar 21)) ;;
    SSet 22 (EBin OXor u64 (EVar 47) (EBin OAnd u64 (EUn ONot u64 (EVar 48)) (EVar 49))) ;;
    SSet 57 (EBin OXor u64 (EVar 57) (EVar 22)) ;;
    SSet 23 (EBin OXor u64 (EVar 48) (EBin OAnd u64 (EUn ONot u64 (EVar 49)) (EVar 50))) ;;
    SSet 58 (EBin OXor u64 (EVar 58) (EVar 23)) ;;
    SSet 24 (EBin OXor u64 (EVar 49) (EBin OAnd u64 (EUn ONot u64 (EVar 50)) (EVar 46))) ;;
    SSet 59 (EBin OXor u64 (EVar 59) (EVar 24)) ;;
    SSet 25 (EBin OXor u64 (EVar 50) (EBin OAnd u64 (EUn ONot u64 (EVar 46)) (EVar 47))) ;;
    SSet 60 (EBin OXor u64 (EVar 60) (EVar 25)) ;;
    SSet 68 (EBin OXor u64 (EVar 68) (EVar 63)) ;;
    SSet 51 (EBin OXor u64 (EBin OShl u64 (EVar 68) (EInt 62)) (EBin OShr u64 (EVar 68) (EInt 2))) ;;
    SSet 74 (EBin OXor u64 (EVar 74) (EVar 64)) ;;
    SSet 52 (EBin OXor u64 (EBin OShl u64 (EVar 74) (EInt 55)) (EBin OShr u64 (EVar 74) (EInt 9))) ;;
    SSet 80 (EBin OXor u64 (EVar 80) (EVar 65)) ;;
    SSet 53 (EBin OXor u64 (EBin OShl u64 (EVar 80) (EInt 39)) (EBin OShr u64 (EVar 80) (EInt 25))) ;;
    SSet 81 (EBin OXor u64 (EVar 81) (EVar 61)) ;;
    SSet 54 (EBin OXor u64 (EBin OShl u64 (EVar 81) (EInt 41)) (EBin OShr u64 (EVar 81) (EInt 23))) ;;
    SSet 87 (EBin OXor u64 (EVar 87) (EVar 62)) ;;
    SSet 55 (EBin OXor u64 (EBin OShl u64 (EVar 87) (EInt 2)) (EBin OShr u64 (EVar 87) (EInt 62))) ;;
    SSet 26 (EBin OXor u64 (EVar 51) (EBin OAnd u64 (EUn ONot u64 (EVar 52)) (EVar 53))) ;;
    SSet 56 (EBin OXor u64 (EVar 56) (EVar 26)) ;;
    SSet 27 (EBin OXor u64 (EVar 52) (EBin OAnd u64 (EUn ONot u64 (EVar 53)) (EVar 54))) ;;
    SSet 57 (EBin OXor u64 (EVar 57) (EVar 27)) ;;
    SSet 28 (EBin OXor u64 (EVar 53) (EBin OAnd u64 (EUn ONot u64 (EVar 54)) (EVar 55))) ;;
    SSet 58 (EBin OXor u64 (EVar 58) (EVar 28)) ;;
    SSet 29 (EBin OXor u64 (EVar 54) (EBin OAnd u64 (EUn ONot u64 (EVar 55)) (EVar 51))) ;;
    SSet 59 (EBin OXor u64 (EVar 59) (EVar 29)) ;;
    SSet 30 (EBin OXor u64 (EVar 55) (EBin OAnd u64 (EUn ONot u64 (EVar 51)) (EVar 52))) ;;
    SSet 60 (EBin OXor u64 (EVar 60) (EVar 30)) ;;
    SSet 61 (EBin OXor u64 (EVar 60) (EBin OXor u64 (EBin OShl u64 (EVar 57) (EInt 1)) (EBin OShr u64 (EVar 57) (EInt 63)))) ;;
    SSet 62 (EBin OXor u64 (EVar 56) (EBin OXor u64 (EBin OShl u64 (EVar 58) (EInt 1)) (EBin OShr u64 (EVar 58) (EInt 63)))) ;;
    SSet 63 (EBin OXor u64 (EVar 57) (EBin OXor u64 (EBin OShl u64 (EVar 59) (EInt 1)) (EBin OShr u64 (EVar 59) (EInt 63)))) ;;
    SSet 64 (EBin OXor u64 (EVar 58) (EBin OXor u64 (EBin OShl u64 (EVar 60) (EInt 1)) (EBin OShr u64 (EVar 60) (EInt 63)))) ;;
    SSet 65 (EBin OXor u64 (EVar 59) (EBin OXor u64 (EBin OShl u64 (EVar 56) (EInt 1)) (EBin OShr u64 (EVar 56) (EInt 63)))) ;;
    SSet 6 (EBin OXor u64 (EVar 6) (EVar 61)) ;;
    SSet 31 (EVar 6) ;;
    SSet 12 (EBin OXor u64 (EVar 12) (EVar 62)) ;;
    SSet 32 (EBin OXor u64 (EBin OShl u64 (EVar 12) (EInt 44)) (EBin OShr u64 (EVar 12) (EInt 20))) ;;
    SSet 18 (EBin OXor u64 (EVar 18) (EVar 63)))) ;;
    (
    (
    SSet 33 (EBin OXor u64 (EBin OShl u64 (EVar 18) (EInt 43)) (EBin OShr u64 (EVar 18) (EInt 21))) ;;
    SSet 24 (EBin OXor u64 (EVar 24) (EVar 64)) ;;
    SSet 34 (EBin OXor u64 (EBin OShl u64 (EVar 24) (EInt 21)) (EBin OShr u64 (EVar 24) (EInt 43))) ;;
    SSet 30 (EBin OXor u64 (EVar 30) (EVar 65)) ;;
    SSet 35 (EBin OXor u64 (EBin OShl u64 (EVar 30) (EInt 14)) (EBin OShr u64 (EVar 30) (EInt 50))) ;;
    SSet 66 (EBin OXor u64 (EVar 31) (EBin OAnd u64 (EUn ONot u64 (EVar 32)) (EVar 33))) ;;
    SSet 66 (EBin OXor u64 (EVar 66) (ELoad 8 (EAt (EGlob 1) 8 (EInt 14)))) ;;
    SSet 56 (EVar 66) ;;
    SSet 67 (EBin OXor u64 (EVar 32) (EBin OAnd u64 (EUn ONot u64 (EVar 33)) (EVar 34))) ;;
    SSet 57 (EVar 67) ;;
    SSet 68 (EBin OXor u64 (EVar 33) (EBin OAnd u64 (EUn ONot u64 (EVar 34)) (EVar 35))) ;;
    SSet 58 (EVar 68) ;;
    SSet 69 (EBin OXor u64 (EVar 34) (EBin OAnd u64 (EUn ONot u64 (EVar 35)) (EVar 31))) ;;
    SSet 59 (EVar 69) ;;
    SSet 70 (EBin OXor u64 (EVar 35) (EBin OAnd u64 (EUn ONot u64 (EVar 31)) (EVar 32))) ;;
    SSet 60 (EVar 70) ;;
    SSet 9 (EBin OXor u64 (EVar 9) (EVar 64)) ;;
    SSet 36 (EBin OXor u64 (EBin OShl u64 (EVar 9) (EInt 28)) (EBin OShr u64 (EVar 9) (EInt 36))) ;;
    SSet 15 (EBin OXor u64 (EVar 15) (EVar 65)) ;;
    SSet 37 (EBin OXor u64 (EBin OShl u64 (EVar 15) (EInt 20)) (EBin OShr u64 (EVar 15) (EInt 44))) ;;
    SSet 16 (EBin OXor u64 (EVar 16) (EVar 61)) ;;
    SSet 38 (EBin OXor u64 (EBin OShl u64 (EVar 16) (EInt 3)) (EBin OShr u64 (EVar 16) (EInt 61))) ;;
    SSet 22 (EBin OXor u64 (EVar 22) (EVar 62)) ;;
    SSet 39 (EBin OXor u64 (EBin OShl u64 (EVar 22) (EInt 45)) (EBin OShr u64 (EVar 22) (EInt 19))) ;;
    SSet 28 (EBin OXor u64 (EVar 28) (EVar 63)) ;;
    SSet 40 (EBin OXor u64 (EBin OShl u64 (EVar 28) (EInt 61)) (EBin OShr u64 (EVar 28) (EInt 3))) ;;
    SSet 71 (EBin OXor u64 (EVar 36) (EBin OAnd u64 (EUn ONot u64 (EVar 37)) (EVar 38))) ;;
    SSet 56 (EBin OXor u64 (EVar 56) (EVar 71)) ;;
    SSet 72 (EBin OXor u64 (EVar 37) (EBin OAnd u64 (EUn ONot u64 (EVar 38)) (EVar 39))) ;;
    SSet 57 (EBin OXor u64 (EVar 57) (EVar 72)) ;;
    SSet 73 (EBin OXor u64 (EVar 38) (EBin OAnd u64 (EUn ONot u64 (EVar 39)) (EVar 40))) ;;
    SSet 58 (EBin OXor u64 (EVar 58) (EVar 73)) ;;
    SSet 74 (EBin OXor u64 (EVar 39) (EBin OAnd u64 (EUn ONot u64 (EVar 40)) (EVar 36))) ;;
    SSet 59 (EBin OXor u64 (EVar 59) (EVar 74)) ;;
    SSet 75 (EBin OXor u64 (EVar 40) (EBin OAnd u64 (EUn ONot u64 (EVar 36)) (EVar 37))) ;;
    SSet 60 (EBin OXor u64 (EVar 60) (EVar 75)) ;;
    SSet 7 (EBin OXor u64 (EVar 7) (EVar 62)) ;;
    SSet 41 (EBin OXor u64 (EBin OShl u64 (EVar 7) (EInt 1)) (EBin OShr u64 (EVar 7) (EInt 63))) ;;
    SSet 13 (EBin OXor u64 (EVar 13) (EVar 63))) ;;
    (
    SSet 42 (EBin OXor u64 (EBin OShl u64 (EVar 13) (EInt 6)) (EBin OShr u64 (EVar 13) (EInt 58))) ;;
    SSet 19 (EBin OXor u64 (EVar 19) (EVar 64)) ;;
    SSet 43 (EBin OXor u64 (EBin OShl u64 (EVar 19) (EInt 25)) (EBin OShr u64 (EVar 19) (EInt 39))) ;;
    SSet 25 (EBin OXor u64 (EVar 25) (EVar 65)) ;;
    SSet 44 (EBin OXor u64 (EBin OShl u64 (EVar 25) (EInt 8)) (EBin OShr u64 (EVar 25) (EInt 56))) ;;
    SSet 26 (EBin OXor u64 (EVar 26) (EVar 61)) ;;
    SSet 45 (EBin OXor u64 (EBin OShl u64 (EVar 26) (EInt 18)) (EBin OShr u64 (EVar 26) (EInt 46))) ;;
    SSet 76 (EBin OXor u64 (EVar 41) (EBin OAnd u64 (EUn ONot u64 (EVar 42)) (EVar 43))) ;;
    SSet 56 (EBin OXor u64 (EVar 56) (EVar 76)) ;;
    SSet 77 (EBin OXor u64 (EVar 42) (EBin OAnd u64 (EUn ONot u64 (EVar 43)) (EVar 44))) ;;
    SSet 57 (EBin OXor u64 (EVar 57) (EVar 77)) ;;
    SSet 78 (EBin OXor u64 (EVar 43) (EBin OAnd u64 (EUn ONot u64 (EVar 44)) (EVar 45))) ;;
    SSet 58 (EBin OXor u64 (EVar 58) (EVar 78)) ;;
    SSet 79 (EBin OXor u64 (EVar 44) (EBin OAnd u64 (EUn ONot u64 (EVar 45)) (EVar 41))) ;;
    SSet 59 (EBin OXor u64 (EVar 59) (EVar 79)) ;;
    SSet 80 (EBin OXor u64 (EVar 45) (EBin OAnd u64 (EUn ONot u64 (EVar 41)) (EVar 42))) ;;
    SSet 60 (EBin OXor u64 (EVar 60) (EVar 80)) ;;
    SSet 10 (EBin OXor u64 (EVar 10) (EVar 65)) ;;
    SSet 46 (EBin OXor u64 (EBin OShl u64 (EVar 10) (EInt 27)) (EBin OShr u64 (EVar 10) (EInt 37))) ;;
    SSet 11 (EBin OXor u64 (EVar 11) (EVar 61)) ;;
    SSet 47 (EBin OXor u64 (EBin OShl u64 (EVar 11) (EInt 36)) (EBin OShr u64 (EVar 11) (EInt 28))) ;;
    SSet 17 (EBin OXor u64 (EVar 17) (EVar 62)) ;;
    SSet 48 (EBin OXor u64 (EBin OShl u64 (EVar 17) (EInt 10)) (EBin OShr u64 (EVar 17) (EInt 54))) ;;
    SSet 23 (EBin OXor u64 (EVar 23) (EVar 63)) ;;
    SSet 49 (EBin OXor u64 (EBin OShl u64 (EVar 23) (EInt 15)) (EBin OShr u64 (EVar 23) (EInt 49))) ;;
    SSet 29 (EBin OXor u64 (EVar 29) (EVar 64)) ;;
    SSet 50 (EBin OXor u64 (EBin OShl u64 (EVar 29) (EInt 56)) (EBin OShr u64 (EVar 29) (EInt 8))) ;;
    SSet 81 (EBin OXor u64 (EVar 46) (EBin OAnd u64 (EUn ONot u64 (EVar 47)) (EVar 48))) ;;
    SSet 56 (EBin OXor u64 (EVar 56) (EVar 81)) ;;
    SSet 82 (EBin OXor u64 (EVar 47) (EBin OAnd u64 (EUn ONot u64 (EVar 48)) (EVar 49))) ;;
    SSet 57 (EBin OXor u64 (EVar 57) (EVar 82)) ;;
    SSet 83 (EBin OXor u64 (EVar 48) (EBin OAnd u64 (EUn ONot u64 (EVar 49)) (EVar 50))) ;;
    SSet 58 (EBin OXor u64 (EVar 58) (EVar 83)) ;;
    SSet 84 (EBin OXor u64 (EVar 49) (EBin OAnd u64 (EUn ONot u64 (EVar 50)) (EVar 46))) ;;
    SSet 59 (EBin OXor u64 (EVar 59) (EVar 84)) ;;
    SSet 85 (EBin OXor u64 (EVar 50) (EBin OAnd u64 (EUn ONot u64 (EVar 46)) (EVar 47))) ;;
    SSet 60 (EBin OXor u64 (EVar 60) (EVar 85)) ;;
    SSet 8 (EBin OXor u64 (EVar 8) (EVar 63)) ;;
    SSet 51 (EBin OXor u64 (EBin OShl u64 (EVar 8) (EInt 62)) (EBin OShr u64 (EVar 8) (EInt 2))) ;;
    SSet 14 (EBin OXor u64 (EVar 14) (EVar 64)))))) ;;
    (
    (
    (
    (
    SSet 52 (EBin OXor u64 (EBin OShl u64 (EVar 14) (EInt 55)) (EBin OShr u64 (EVar 14) (EInt 9))) ;;
    SSet 20 (EBin OXor u64 (EVar 20) (EVar 65)) ;;
    SSet 53 (EBin OXor u64 (EBin OShl u64 (EVar 20) (EInt 39)) (EBin OShr u64 (EVar 20) (EInt 25))) ;;
    SSet 21 (EBin OXor u64 (EVar 21) (EVar 61)) ;;
    SSet 54 (EBin OXor u64 (EBin OShl u64 (EVar 21) (EInt 41)) (EBin OShr u64 (EVar 21) (EInt 23))) ;;
    SSet 27 (EBin OXor u64 (EVar 27) (EVar 62)) ;;
    SSet 55 (EBin OXor u64 (EBin OShl u64 (EVar 27) (EInt 2)) (EBin OShr u64 (EVar 27) (EInt 62))) ;;
    SSet 86 (EBin OXor u64 (EVar 51) (EBin OAnd u64 (EUn ONot u64 (EVar 52)) (EVar 53))) ;;
    SSet 56 (EBin OXor u64 (EVar 56) (EVar 86)) ;;
    SSet 87 (EBin OXor u64 (EVar 52) (EBin OAnd u64 (EUn ONot u64 (EVar 53)) (EVar 54))) ;;
    SSet 57 (EBin OXor u64 (EVar 57) (EVar 87)) ;;
    SSet 88 (EBin OXor u64 (EVar 53) (EBin OAnd u64 (EUn ONot u64 (EVar 54)) (EVar 55))) ;;
    SSet 58 (EBin OXor u64 (EVar 58) (EVar 88)) ;;
    SSet 89 (EBin OXor u64 (EVar 54) (EBin OAnd u64 (EUn ONot u64 (EVar 55)) (EVar 51))) ;;
    SSet 59 (EBin OXor u64 (EVar 59) (EVar 89)) ;;
    SSet 90 (EBin OXor u64 (EVar 55) (EBin OAnd u64 (EUn ONot u64 (EVar 51)) (EVar 52))) ;;
    SSet 60 (EBin OXor u64 (EVar 60) (EVar 90)) ;;
    SSet 61 (EBin OXor u64 (EVar 60) (EBin OXor u64 (EBin OShl u64 (EVar 57) (EInt 1)) (EBin OShr u64 (EVar 57) (EInt 63)))) ;;
    SSet 62 (EBin OXor u64 (EVar 56) (EBin OXor u64 (EBin OShl u64 (EVar 58) (EInt 1)) (EBin OShr u64 (EVar 58) (EInt 63)))) ;;
    SSet 63 (EBin OXor u64 (EVar 57) (EBin OXor u64 (EBin OShl u64 (EVar 59) (EInt 1)) (EBin OShr u64 (EVar 59) (EInt 63)))) ;;
    SSet 64 (EBin OXor u64 (EVar 58) (EBin OXor u64 (EBin OShl u64 (EVar 60) (EInt 1)) (EBin OShr u64 (EVar 60) (EInt 63)))) ;;
    SSet 65 (EBin OXor u64 (EVar 59) (EBin OXor u64 (EBin OShl u64 (EVar 56) (EInt 1)) (EBin OShr u64 (EVar 56) (EInt 63)))) ;;
    SSet 66 (EBin OXor u64 (EVar 66) (EVar 61)) ;;
    SSet 31 (EVar 66) ;;
    SSet 72 (EBin OXor u64 (EVar 72) (EVar 62)) ;;
    SSet 32 (EBin OXor u64 (EBin OShl u64 (EVar 72) (EInt 44)) (EBin OShr u64 (EVar 72) (EInt 20))) ;;
    SSet 78 (EBin OXor u64 (EVar 78) (EVar 63)) ;;
    SSet 33 (EBin OXor u64 (EBin OShl u64 (EVar 78) (EInt 43)) (EBin OShr u64 (EVar 78) (EInt 21))) ;;
    SSet 84 (EBin OXor u64 (EVar 84) (EVar 64)) ;;
    SSet 34 (EBin OXor u64 (EBin OShl u64 (EVar 84) (EInt 21)) (EBin OShr u64 (EVar 84) (EInt 43))) ;;
    SSet 90 (EBin OXor u64 (EVar 90) (EVar 65)) ;;
    SSet 35 (EBin OXor u64 (EBin OShl u64 (EVar 90) (EInt 14)) (EBin OShr u64 (EVar 90) (EInt 50))) ;;
    SSet 6 (EBin OXor u64 (EVar 31) (EBin OAnd u64 (EUn ONot u64 (EVar 32)) (EVar 33))) ;;
    SSet 6 (EBin OXor u64 (EVar 6) (ELoad 8 (EAt (EGlob 1) 8 (EInt 15)))) ;;
    SSet 56 (EVar 6) ;;
    SSet 7 (EBin OXor u64 (EVar 32) (EBin OAnd u64 (EUn ONot u64 (EVar 33)) (EVar 34))) ;;
    SSet 57 (EVar 7) ;;
    SSet 8 (EBin OXor u64 (EVar 33) (EBin OAnd u64 (EUn ONot u64 (EVar 34)) (EVar 35))) ;;
    SSet 58 (EVar 8)) ;;
    (
    SSet 9 (EBin OXor u64 (EVar 34) (EBin OAnd u64 (EUn ONot u64 (EVar 35)) (EVar 31))) ;;
    SSet 59 (EVar 9) ;;
    SSet 10 (EBin OXor u64 (EVar 35) (EBin OAnd u64 (EUn ONot u64 (EVar 31)) (EVar 32))) ;;
    SSet 60 (EVar 10) ;;
    SSet 69 (EBin OXor u64 (EVar 69) (EVar 64)) ;;
    SSet 36 (EBin OXor u64 (EBin OShl u64 (EVar 69) (EInt 28)) (EBin OShr u64 (EVar 69) (EInt 36))) ;;
    SSet 75 (EBin OXor u64 (EVar 75) (EVar 65)) ;;
    SSet 37 (EBin OXor u64 (EBin OShl u64 (EVar 75) (EInt 20)) (EBin OShr u64 (EVar 75) (EInt 44))) ;;
    SSet 76 (EBin OXor u64 (EVar 76) (EVar 61)) ;;
    SSet 38 (EBin OXor u64 (EBin OShl u64 (EVar 76) (EInt 3)) (EBin OShr u64 (EVar 76) (EInt 61))) ;;
    SSet 82 (EBin OXor u64 (EVar 82) (EVar 62)) ;;
    SSet 39 (EBin OXor u64 (EBin OShl u64 (EVar 82) (EInt 45)) (EBin OShr u64 (EVar 82) (EInt 19))) ;;
    SSet 88 (EBin OXor u64 (EVar 88) (EVar 63)) ;;
    SSet 40 (EBin OXor u64 (EBin OShl u64 (EVar 88) (EInt 61)) (EBin OShr u64 (EVar 88) (EInt 3))) ;;
    SSet 11 (EBin OXor u64 (EVar 36) (EBin OAnd u64 (EUn ONot u64 (EVar 37)) (EVar 38))) ;;
    SSet 56 (EBin OXor u64 (EVar 56) (EVar 11)) ;;
    SSet 12 (EBin OXor u64 (EVar 37) (EBin OAnd u64 (EUn ONot u64 (EVar 38)) (EVar 39))) ;;
    SSet 57 (EBin OXor u64 (EVar 57) (EVar 12)) ;;
    SSet 13 (EBin OXor u64 (EVar 38) (EBin OAnd u64 (EUn ONot u64 (EVar 39)) (EVar 40))) ;;
    SSet 58 (EBin OXor u64 (EVar 58) (EVar 13)) ;;
    SSet 14 (EBin OXor u64 (EVar 39) (EBin OAnd u64 (EUn ONot u64 (EVar 40)) (EVar 36))) ;;
    SSet 59 (EBin OXor u64 (EVar 59) (EVar 14)) ;;
    SSet 15 (EBin OXor u64 (EVar 40) (EBin OAnd u64 (EUn ONot u64 (EVar 36)) (EVar 37))) ;;
    SSet 60 (EBin OXor u64 (EVar 60) (EVar 15)) ;;
    SSet 67 (EBin OXor u64 (EVar 67) (EVar 62)) ;;
    SSet 41 (EBin OXor u64 (EBin OShl u64 (EVar 67) (EInt 1)) (EBin OShr u64 (EVar 67) (EInt 63))) ;;
    SSet 73 (EBin OXor u64 (EVar 73) (EVar 63)) ;;
    SSet 42 (EBin OXor u64 (EBin OShl u64 (EVar 73) (EInt 6)) (EBin OShr u64 (EVar 73) (EInt 58))) ;;
    SSet 79 (EBin OXor u64 (EVar 79) (EVar 64)) ;;
    SSet 43 (EBin OXor u64 (EBin OShl u64 (EVar 79) (EInt 25)) (EBin OShr u64 (EVar 79) (EInt 39))) ;;
    SSet 85 (EBin OXor u64 (EVar 85) (EVar 65)) ;;
    SSet 44 (EBin OXor u64 (EBin OShl u64 (EVar 85) (EInt 8)) (EBin OShr u64 (EVar 85) (EInt 56))) ;;
    SSet 86 (EBin OXor u64 (EVar 86) (EVar 61)) ;;
    SSet 45 (EBin OXor u64 (EBin OShl u64 (EVar 86) (EInt 18)) (EBin OShr u64 (EVar 86) (EInt 46))) ;;
    SSet 16 (EBin OXor u64 (EVar 41) (EBin OAnd u64 (EUn ONot u64 (EVar 42)) (EVar 43))) ;;
    SSet 56 (EBin OXor u64 (EVar 56) (EVar 16)) ;;
    SSet 17 (EBin OXor u64 (EVar 42) (EBin OAnd u64 (EUn ONot u64 (EVar 43)) (EVar 44))) ;;
    SSet 57 (EBin OXor u64 (EVar 57) (EVar 17)) ;;
    SSet 18 (EBin OXor u64 (EVar 43) (EBin OAnd u64 (EUn ONot u64 (EVar 44)) (EVar 45))) ;;
    SSet 58 (EBin OXor u64 (EVar 58) (EVar 18)))) ;;
    (
    (
    SSet 19 (EBin OXor u64 (EVar 44) (EBin OAnd u64 (EUn ONot u64 (EVar 45)) (EVar 41))) ;;
    SSet 59 (EBin OXor u64 (EVar 59) (EVar 19)) ;;
    SSet 20 (EBin OXor u64 (EVar 45) (EBin OAnd u64 (EUn ONot u64 (EVar 41)) (EVar 42))) ;;
    SSet 60 (EBin OXor u64 (EVar 60) (EVar 20)) ;;
    SSet 70 (EBin OXor u64 (EVar 70) (EVar 65)) ;;
    SSet 46 (EBin OXor u64 (EBin OShl u64 (EVar 70) (EInt 27)) (EBin OShr u64 (EVar 70) (EInt 37))) ;;
    SSet 71 (EBin OXor u64 (EVar 71) (EVar 61)) ;;
    SSet 47 (EBin OXor u64 (EBin OShl u64 (EVar 71) (EInt 36)) (EBin OShr u64 (EVar 71) (EInt 28))) ;;
    SSet 77 (EBin OXor u64 (EVar 77) (EVar 62)) ;;
    SSet 48 (EBin OXor u64 (EBin OShl u64 (EVar 77) (EInt 10)) (EBin OShr u64 (EVar 77) (EInt 54))) ;;
    SSet 83 (EBin OXor u64 (EVar 83) (EVar 63)) ;;
    SSet 49 (EBin OXor u64 (EBin OShl u64 (EVar 83) (EInt 15)) (EBin OShr u64 (EVar 83) (EInt 49))) ;;
    SSet 89 (EBin OXor u64 (EVar 89) (EVar 64)) ;;
    SSet 50 (EBin OXor u64 (EBin OShl u64 (EVar 89) (EInt 56)) (EBin OShr u64 (EVar 89) (EInt 8))) ;;
    SSet 21 (EBin OXor u64 (EVar 46) (EBin OAnd u64 (EUn ONot u64 (EVar 47)) (EVar 48))) ;;
    SSet 56 (EBin OXor u64 (EVar 56) (EVar 21)) ;;
    SSet 22 (EBin OXor u64 (EVar 47) (EBin OAnd u64 (EUn ONot u64 (EVar 48)) (EVar 49))) ;;
    SSet 57 (EBin OXor u64 (EVar 57) (EVar 22)) ;;
    SSet 23 (EBin OXor u64 (EVar 48) (EBin OAnd u64 (EUn ONot u64 (EVar 49)) (EVar 50))) ;;
    SSet 58 (EBin OXor u64 (EVar 58) (EVar 23)) ;;
    SSet 24 (EBin OXor u64 (EVar 49) (EBin OAnd u64 (EUn ONot u64 (EVar 50)) (EVar 46))) ;;
    SSet 59 (EBin OXor u64 (EVar 59) (EVar 24)) ;;
    SSet 25 (EBin OXor u64 (EVar 50) (EBin OAnd u64 (EUn ONot u64 (EVar 46)) (EVar 47))) ;;
    SSet 60 (EBin OXor u64 (EVar 60) (EVar 25)) ;;
    SSet 68 (EBin OXor u64 (EVar 68) (EVar 63)) ;;
    SSet 51 (EBin OXor u64 (EBin OShl u64 (EVar 68) (EInt 62)) (EBin OShr u64 (EVar 68) (EInt 2))) ;;
    SSet 74 (EBin OXor u64 (EVar 74) (EVar 64)) ;;
    SSet 52 (EBin OXor u64 (EBin OShl u64 (EVar 74) (EInt 55)) (EBin OShr u64 (EVar 74) (EInt 9))) ;;
    SSet 80 (EBin OXor u64 (EVar 80) (EVar 65)) ;;
    SSet 53 (EBin OXor u64 (EBin OShl u64 (EVar 80) (EInt 39)) (EBin OShr u64 (EVar 80) (EInt 25))) ;;
    SSet 81 (EBin OXor u64 (EVar 81) (EVar 61)) ;;
    SSet 54 (EBin OXor u64 (EBin OShl u64 (EVar 81) (EInt 41)) (EBin OShr u64 (EVar 81) (EInt 23))) ;;
    SSet 87 (EBin OXor u64 (EVar 87) (EVar 62)) ;;
    SSet 55 (EBin OXor u64 (EBin OShl u64 (EVar 87) (EInt 2)) (EBin OShr u64 (EVar 87) (EInt 62))) ;;
    SSet 26 (EBin OXor u64 (EVar 51) (EBin OAnd u64 (EUn ONot u64 (EVar 52)) (EVar 53))) ;;
    SSet 56 (EBin OXor u64 (EVar 56) (EVar 26)) ;;
    SSet 27 (EBin OXor u64 (EVar 52) (EBin OAnd u64 (EUn ONot u64 (EVar 53)) (EVar 54))) ;;
    SSet 57 (EBin OXor u64 (EVar 57) (EVar 27)) ;;
    SSet 28 (EBin OXor u64 (EVar 53) (EBin OAnd u64 (EUn ONot u64 (EVar 54)) (EVar 55)))) ;;
    (
    SSet 58 (EBin OXor u64 (EVar 58) (EVar 28)) ;;
    SSet 29 (EBin OXor u64 (EVar 54) (EBin OAnd u64 (EUn ONot u64 (EVar 55)) (EVar 51))) ;;
    SSet 59 (EBin OXor u64 (EVar 59) (EVar 29)) ;;
    SSet 30 (EBin OXor u64 (EVar 55) (EBin OAnd u64 (EUn ONot u64 (EVar 51)) (EVar 52))) ;;
    SSet 60 (EBin OXor u64 (EVar 60) (EVar 30)) ;;
    SSet 61 (EBin OXor u64 (EVar 60) (EBin OXor u64 (EBin OShl u64 (EVar 57) (EInt 1)) (EBin OShr u64 (EVar 57) (EInt 63)))) ;;
    SSet 62 (EBin OXor u64 (EVar 56) (EBin OXor u64 (EBin OShl u64 (EVar 58) (EInt 1)) (EBin OShr u64 (EVar 58) (EInt 63)))) ;;
    SSet 63 (EBin OXor u64 (EVar 57) (EBin OXor u64 (EBin OShl u64 (EVar 59) (EInt 1)) (EBin OShr u64 (EVar 59) (EInt 63)))) ;;
    SSet 64 (EBin OXor u64 (EVar 58) (EBin OXor u64 (EBin OShl u64 (EVar 60) (EInt 1)) (EBin OShr u64 (EVar 60) (EInt 63)))) ;;
    SSet 65 (EBin OXor u64 (EVar 59) (EBin OXor u64 (EBin OShl u64 (EVar 56) (EInt 1)) (EBin OShr u64 (EVar 56) (EInt 63)))) ;;
    SSet 6 (EBin OXor u64 (EVar 6) (EVar 61)) ;;
    SSet 31 (EVar 6) ;;
    SSet 12 (EBin OXor u64 (EVar 12) (EVar 62)) ;;
    SSet 32 (EBin OXor u64 (EBin OShl u64 (EVar 12) (EInt 44)) (EBin OShr u64 (EVar 12) (EInt 20))) ;;
    SSet 18 (EBin OXor u64 (EVar 18) (EVar 63)) ;;
    SSet 33 (EBin OXor u64 (EBin OShl u64 (EVar 18) (EInt 43)) (EBin OShr u64 (EVar 18) (EInt 21))) ;;
    SSet 24 (EBin OXor u64 (EVar 24) (EVar 64)) ;;
    SSet 34 (EBin OXor u64 (EBin OShl u64 (EVar 24) (EInt 21)) (EBin OShr u64 (EVar 24) (EInt 43))) ;;
    SSet 30 (EBin OXor u64 (EVar 30) (EVar 65)) ;;
    SSet 35 (EBin OXor u64 (EBin OShl u64 (EVar 30) (EInt 14)) (EBin OShr u64 (EVar 30) (EInt 50))) ;;
    SSet 66 (EBin OXor u64 (EVar 31) (EBin OAnd u64 (EUn ONot u64 (EVar 32)) (EVar 33))) ;;
    SSet 66 (EBin OXor u64 (EVar 66) (ELoad 8 (EAt (EGlob 1) 8 (EInt 16)))) ;;
    SSet 56 (EVar 66) ;;
    SSet 67 (EBin OXor u64 (EVar 32) (EBin OAnd u64 (EUn ONot u64 (EVar 33)) (EVar 34))) ;;
    SSet 57 (EVar 67) ;;
    SSet 68 (EBin OXor u64 (EVar 33) (EBin OAnd u64 (EUn ONot u64 (EVar 34)) (EVar 35))) ;;
    SSet 58 (EVar 68) ;;
    SSet 69 (EBin OXor u64 (EVar 34) (EBin OAnd u64 (EUn ONot u64 (EVar 35)) (EVar 31))) ;;
    SSet 59 (EVar 69) ;;
    SSet 70 (EBin OXor u64 (EVar 35) (EBin OAnd u64 (EUn ONot u64 (EVar 31)) (EVar 32))) ;;
    SSet 60 (EVar 70) ;;
    SSet 9 (EBin OXor u64 (EVar 9) (EVar 64)) ;;
    SSet 36 (EBin OXor u64 (EBin OShl u64 (EVar 9) (EInt 28)) (EBin OShr u64 (EVar 9) (EInt 36))) ;;
    SSet 15 (EBin OXor u64 (EVar 15) (EVar 65)) ;;
    SSet 37 (EBin OXor u64 (EBin OShl u64 (EVar 15) (EInt 20)) (EBin OShr u64 (EVar 15) (EInt 44))) ;;
    SSet 16 (EBin OXor u64 (EVar 16) (EVar 61)) ;;
    SSet 38 (EBin OXor u64 (EBin OShl u64 (EVar 16) (EInt 3)) (EBin OShr u64 (EVar 16) (EInt 61))) ;;
    SSet 22 (EBin OXor u64 (EVar 22) (EVar 62)) ;;
    SSet 39 (EBin OXor u64 (EBin OShl u64 (EVar 22) (EInt 45)) (EBin OShr u64 (EVar 22) (EInt 19))) ;;
    SSet 28 (EBin OXor u64 (EVar 28) (EVar 63))))) ;;
    (
    (
    (
    SSet 40 (EBin OXor u64 (EBin OShl u64 (EVar 28) (EInt 61)) (EBin OShr u64 (EVar 28) (EInt 3))) ;;
    SSet 71 (EBin OXor u64 (EVar 36) (EBin OAnd u64 (EUn ONot u64 (EVar 37)) (EVar 38))) ;;
    SSet 56 (EBin OXor u64 (EVar 56) (EVar 71)) ;;
    SSet 72 (EBin OXor u64 (EVar 37) (EBin OAnd u64 (EUn ONot u64 (EVar 38)) (EVar 39))) ;;
    SSet 57 (EBin OXor u64 (EVar 57) (EVar 72)) ;;
    SSet 73 (EBin OXor u64 (EVar 38) (EBin OAnd u64 (EUn ONot u64 (EVar 39)) (EVar 40))) ;;
    SSet 58 (EBin OXor u64 (EVar 58) (EVar 73)) ;;
    SSet 74 (EBin OXor u64 (EVar 39) (EBin OAnd u64 (EUn ONot u64 (EVar 40)) (EVar 36))) ;;
    SSet 59 (EBin OXor u64 (EVar 59) (EVar 74)) ;;
    SSet 75 (EBin OXor u64 (EVar 40) (EBin OAnd u64 (EUn ONot u64 (EVar 36)) (EVar 37))) ;;
    SSet 60 (EBin OXor u64 (EVar 60) (EVar 75)) ;;
    SSet 7 (EBin OXor u64 (EVar 7) (EVar 62)) ;;
    SSet 41 (EBin OXor u64 (EBin OShl u64 (EVar 7) (EInt 1)) (EBin OShr u64 (EVar 7) (EInt 63))) ;;
    SSet 13 (EBin OXor u64 (EVar 13) (EVar 63)) ;;
    SSet 42 (EBin OXor u64 (EBin OShl u64 (EVar 13) (EInt 6)) (EBin OShr u64 (EVar 13) (EInt 58))) ;;
    SSet 19 (EBin OXor u64 (EVar 19) (EVar 64)) ;;
    SSet 43 (EBin OXor u64 (EBin OShl u64 (EVar 19) (EInt 25)) (EBin OShr u64 (EVar 19) (EInt 39))) ;;
    SSet 25 (EBin OXor u64 (EVar 25) (EVar 65)) ;;
    SSet 44 (EBin OXor u64 (EBin OShl u64 (EVar 25) (EInt 8)) (EBin OShr u64 (EVar 25) (EInt 56))) ;;
    SSet 26 (EBin OXor u64 (EVar 26) (EVar 61)) ;;
    SSet 45 (EBin OXor u64 (EBin OShl u64 (EVar 26) (EInt 18)) (EBin OShr u64 (EVar 26) (EInt 46))) ;;
    SSet 76 (EBin OXor u64 (EVar 41) (EBin OAnd u64 (EUn ONot u64 (EVar 42)) (EVar 43))) ;;
    SSet 56 (EBin OXor u64 (EVar 56) (EVar 76)) ;;
    SSet 77 (EBin OXor u64 (EVar 42) (EBin OAnd u64 (EUn ONot u64 (EVar 43)) (EVar 44))) ;;
    SSet 57 (EBin OXor u64 (EVar 57) (EVar 77)) ;;
    SSet 78 (EBin OXor u64 (EVar 43) (EBin OAnd u64 (EUn ONot u64 (EVar 44)) (EVar 45))) ;;
    SSet 58 (EBin OXor u64 (EVar 58) (EVar 78)) ;;
    SSet 79 (EBin OXor u64 (EVar 44) (EBin OAnd u64 (EUn ONot u64 (EVar 45)) (EVar 41))) ;;
    SSet 59 (EBin OXor u64 (EVar 59) (EVar 79)) ;;
    SSet 80 (EBin OXor u64 (EVar 45) (EBin OAnd u64 (EUn ONot u64 (EVar 41)) (EVar 42))) ;;
    SSet 60 (EBin OXor u64 (EVar 60) (EVar 80)) ;;
    SSet 10 (EBin OXor u64 (EVar 10) (EVar 65)) ;;
    SSet 46 (EBin OXor u64 (EBin OShl u64 (EVar 10) (EInt 27)) (EBin OShr u64 (EVar 10) (EInt 37))) ;;
    SSet 11 (EBin OXor u64 (EVar 11) (EVar 61)) ;;
    SSet 47 (EBin OXor u64 (EBin OShl u64 (EVar 11) (EInt 36)) (EBin OShr u64 (EVar 11) (EInt 28))) ;;
    SSet 17 (EBin OXor u64 (EVar 17) (EVar 62)) ;;
    SSet 48 (EBin OXor u64 (EBin OShl u64 (EVar 17) (EInt 10)) (EBin OShr u64 (EVar 17) (EInt 54))) ;;
    SSet 23 (EBin OXor u64 (EVar 23) (EVar 63)) ;;
    SSet 49 (EBin OXor u64 (EBin OShl u64 (EVar 23) (EInt 15)) (EBin OShr u64 (EVar 23) (EInt 49)))) ;;
    (
    SSet 29 (EBin OXor u64 (EVar 29) (EVar 64)) ;;
    SSet 50 (EBin OXor u64 (EBin OShl u64 (EVar 29) (EInt 56)) (EBin OShr u64 (EVar 29) (EInt 8))) ;;
    SSet 81 (EBin OXor u64 (EVar 46) (EBin OAnd u64 (EUn ONot u64 (EVar 47)) (EVar 48))) ;;
    SSet 56 (EBin OXor u64 (EVar 56) (EVar 81)) ;;
    SSet 82 (EBin OXor u64 (EVar 47) (EBin OAnd u64 (EUn ONot u64 (EVar 48)) (EVar 49))) ;;
    SSet 57 (EBin OXor u64 (EVar 57) (EVar 82)) ;;
    SSet 83 (EBin OXor u64 (EVar 48) (EBin OAnd u64 (EUn ONot u64 (EVar 49)) (EVar 50))) ;;
    SSet 58 (EBin OXor u64 (EVar 58) (EVar 83)) ;;
    SSet 84 (EBin OXor u64 (EVar 49) (EBin OAnd u64 (EUn ONot u64 (EVar 50)) (EVar 46))) ;;
    SSet 59 (EBin OXor u64 (EVar 59) (EVar 84)) ;;
    SSet 85 (EBin OXor u64 (EVar 50) (EBin OAnd u64 (EUn ONot u64 (EVar 46)) (EVar 47))) ;;
    SSet 60 (EBin OXor u64 (EVar 60) (EVar 85)) ;;
    SSet 8 (EBin OXor u64 (EVar 8) (EVar 63)) ;;
    SSet 51 (EBin OXor u64 (EBin OShl u64 (EVar 8) (EInt 62)) (EBin OShr u64 (EVar 8) (EInt 2))) ;;
    SSet 14 (EBin OXor u64 (EVar 14) (EVar 64)) ;;
    SSet 52 (EBin OXor u64 (EBin OShl u64 (EVar 14) (EInt 55)) (EBin OShr u64 (EVar 14) (EInt 9))) ;;
    SSet 20 (EBin OXor u64 (EVar 20) (EVar 65)) ;;
    SSet 53 (EBin OXor u64 (EBin OShl u64 (EVar 20) (EInt 39)) (EBin OShr u64 (EVar 20) (EInt 25))) ;;
    SSet 21 (EBin OXor u64 (EVar 21) (EVar 61)) ;;
    SSet 54 (EBin OXor u64 (EBin OShl u64 (EVar 21) (EInt 41)) (EBin OShr u64 (EVar 21) (EInt 23))) ;;
    SSet 27 (EBin OXor u64 (EVar 27) (EVar 62)) ;;
    SSet 55 (EBin OXor u64 (EBin OShl u64 (EVar 27) (EInt 2)) (EBin OShr u64 (EVar 27) (EInt 62))) ;;
    SSet 86 (EBin OXor u64 (EVar 51) (EBin OAnd u64 (EUn ONot u64 (EVar 52)) (EVar 53))) ;;
    SSet 56 (EBin OXor u64 (EVar 56) (EVar 86)) ;;
    SSet 87 (EBin OXor u64 (EVar 52) (EBin OAnd u64 (EUn ONot u64 (EVar 53)) (EVar 54))) ;;
    SSet 57 (EBin OXor u64 (EVar 57) (EVar 87)) ;;
    SSet 88 (EBin OXor u64 (EVar 53) (EBin OAnd u64 (EUn ONot u64 (EVar 54)) (EVar 55))) ;;
    SSet 58 (EBin OXor u64 (EVar 58) (EVar 88)) ;;
    SSet 89 (EBin OXor u64 (EVar 54) (EBin OAnd u64 (EUn ONot u64 (EVar 55)) (EVar 51))) ;;
    SSet 59 (EBin OXor u64 (EVar 59) (EVar 89)) ;;
    SSet 90 (EBin OXor u64 (EVar 55) (EBin OAnd u64 (EUn ONot u64 (EVar 51)) (EVar 52))) ;;
    SSet 60 (EBin OXor u64 (EVar 60) (EVar 90)) ;;
    SSet 61 (EBin OXor u64 (EVar 60) (EBin OXor u64 (EBin OShl u64 (EVar 57) (EInt 1)) (EBin OShr u64 (EVar 57) (EInt 63)))) ;;
    SSet 62 (EBin OXor u64 (EVar 56) (EBin OXor u64 (EBin OShl u64 (EVar 58) (EInt 1)) (EBin OShr u64 (EVar 58) (EInt 63)))) ;;
    SSet 63 (EBin OXor u64 (EVar 57) (EBin OXor u64 (EBin OShl u64 (EVar 59) (EInt 1)) (EBin OShr u64 (EVar 59) (EInt 63)))) ;;
    SSet 64 (EBin OXor u64 (EVar 58) (EBin OXor u64 (EBin OShl u64 (EVar 60) (EInt 1)) (EBin OShr u64 (EVar 60) (EInt 63)))) ;;
    SSet 65 (EBin OXor u64 (EVar 59) (EBin OXor u64 (EBin OShl u64 (EVar 56) (EInt 1)) (EBin OShr u64 (EVar 56) (EInt 63)))) ;;
    SSet 66 (EBin OXor u64 (EVar 66) (EVar 61)) ;;
    SSet 31 (EVar 66) ;;
    SSet 72 (EBin OXor u64 (EVar 72) (EVar 62)))) ;;
    (
    (
    SSet 32 (EBin OXor u64 (EBin OShl u64 (EVar 72) (EInt 44)) (EBin OShr u64 (EVar 72) (EInt 20))) ;;
    SSet 78 (EBin OXor u64 (EVar 78) (EVar 63)) ;;
    SSet 33 (EBin OXor u64 (EBin OShl u64 (EVar 78) (EInt 43)) (EBin OShr u64 (EVar 78) (EInt 21))) ;;
    SSet 84 (EBin OXor u64 (EVar 84) (EVar 64)) ;;
    SSet 34 (EBin OXor u64 (EBin OShl u64 (EVar 84) (EInt 21)) (EBin OShr u64 (EVar 84) (EInt 43))) ;;
    SSet 90 (EBin OXor u64 (EVar 90) (EVar 65)) ;;
    SSet 35 (EBin OXor u64 (EBin OShl u64 (EVar 90) (EInt 14)) (EBin OShr u64 (EVar 90) (EInt 50))) ;;
    SSet 6 (EBin OXor u64 (EVar 31) (EBin OAnd u64 (EUn ONot u64 (EVar 32)) (EVar 33))) ;;
    SSet 6 (EBin OXor u64 (EVar 6) (ELoad 8 (EAt (EGlob 1) 8 (EInt 17)))) ;;
    SSet 56 (EVar 6) ;;
    SSet 7 (EBin OXor u64 (EVar 32) (EBin OAnd u64 (EUn ONot u64 (EVar 33)) (EVar 34))) ;;
    SSet 57 (EVar 7) ;;
    SSet 8 (EBin OXor u64 (EVar 33) (EBin OAnd u64 (EUn ONot u64 (EVar 34)) (EVar 35))) ;;
    SSet 58 (EVar 8) ;;
    SSet 9 (EBin OXor u64 (EVar 34) (EBin OAnd u64 (EUn ONot u64 (EVar 35)) (EVar 31))) ;;
    SSet 59 (EVar 9) ;;
    SSet 10 (EBin OXor u64 (EVar 35) (EBin OAnd u64 (EUn ONot u64 (EVar 31)) (EVar 32))) ;;
    SSet 60 (EVar 10) ;;
    SSet 69 (EBin OXor u64 (EVar 69) (EVar 64)) ;;
    SSet 36 (EBin OXor u64 (EBin OShl u64 (EVar 69) (EInt 28)) (EBin OShr u64 (EVar 69) (EInt 36))) ;;
    SSet 75 (EBin OXor u64 (EVar 75) (EVar 65)) ;;
    SSet 37 (EBin OXor u64 (EBin OShl u64 (EVar 75) (EInt 20)) (EBin OShr u64 (EVar 75) (EInt 44))) ;;
    SSet 76 (EBin OXor u64 (EVar 76) (EVar 61)) ;;
    SSet 38 (EBin OXor u64 (EBin OShl u64 (EVar 76) (EInt 3)) (EBin OShr u64 (EVar 76) (EInt 61))) ;;
    SSet 82 (EBin OXor u64 (EVar 82) (EVar 62)) ;;
    SSet 39 (EBin OXor u64 (EBin OShl u64 (EVar 82) (EInt 45)) (EBin OShr u64 (EVar 82) (EInt 19))) ;;
    SSet 88 (EBin OXor u64 (EVar 88) (EVar 63)) ;;
    SSet 40 (EBin OXor u64 (EBin OShl u64 (EVar 88) (EInt 61)) (EBin OShr u64 (EVar 88) (EInt 3))) ;;
    SSet 11 (EBin OXor u64 (EVar 36) (EBin OAnd u64 (EUn ONot u64 (EVar 37)) (EVar 38))) ;;
    SSet 56 (EBin OXor u64 (EVar 56) (EVar 11)) ;;
    SSet 12 (EBin OXor u64 (EVar 37) (EBin OAnd u64 (EUn ONot u64 (EVar 38)) (EVar 39))) ;;
    SSet 57 (EBin OXor u64 (EVar 57) (EVar 12)) ;;
    SSet 13 (EBin OXor u64 (EVar 38) (EBin OAnd u64 (EUn ONot u64 (EVar 39)) (EVar 40))) ;;
    SSet 58 (EBin OXor u64 (EVar 58) (EVar 13)) ;;
    SSet 14 (EBin OXor u64 (EVar 39) (EBin OAnd u64 (EUn ONot u64 (EVar 40)) (EVar 36))) ;;
    SSet 59 (EBin OXor u64 (EVar 59) (EVar 14)) ;;
    SSet 15 (EBin OXor u64 (EVar 40) (EBin OAnd u64 (EUn ONot u64 (EVar 36)) (EVar 37))) ;;
    SSet 60 (EBin OXor u64 (EVar 60) (EVar 15)) ;;
    SSet 67 (EBin OXor u64 (EVar 67) (EVar 62))) ;;
    (
    SSet 41 (EBin OXor u64 (EBin OShl u64 (EVar 67) (EInt 1)) (EBin OShr u64 (EVar 67) (EInt 63))) ;;
    SSet 73 (EBin OXor u64 (EVar 73) (EVar 63)) ;;
    SSet 42 (EBin OXor u64 (EBin OShl u64 (EVar 73) (EInt 6)) (EBin OShr u64 (EVar 73) (EInt 58))) ;;
    SSet 79 (EBin OXor u64 (EVar 79) (EVar 64)) ;;
    SSet 43 (EBin OXor u64 (EBin OShl u64 (EVar 79) (EInt 25)) (EBin OShr u64 (EVar 79) (EInt 39))) ;;
    SSet 85 (EBin OXor u64 (EVar 85) (EVar 65)) ;;
    SSet 44 (EBin OXor u64 (EBin OShl u64 (EVar 85) (EInt 8)) (EBin OShr u64 (EVar 85) (EInt 56))) ;;
    SSet 86 (EBin OXor u64 (EVar 86) (EVar 61)) ;;
    SSet 45 (EBin OXor u64 (EBin OShl u64 (EVar 86) (EInt 18)) (EBin OShr u64 (EVar 86) (EInt 46))) ;;
    SSet 16 (EBin OXor u64 (EVar 41) (EBin OAnd u64 (EUn ONot u64 (EVar 42)) (EVar 43))) ;;
    SSet 56 (EBin OXor u64 (EVar 56) (EVar 16)) ;;
    SSet 17 (EBin OXor u64 (EVar 42) (EBin OAnd u64 (EUn ONot u64 (EVar 43)) (EVar 44))) ;;
    SSet 57 (EBin OXor u64 (EVar 57) (EVar 17)) ;;
    SSet 18 (EBin OXor u64 (EVar 43) (EBin OAnd u64 (EUn ONot u64 (EVar 44)) (EVar 45))) ;;
    SSet 58 (EBin OXor u64 (EVar 58) (EVar 18)) ;;
    SSet 19 (EBin OXor u64 (EVar 44) (EBin OAnd u64 (EUn ONot u64 (EVar 45)) (EVar 41))) ;;
    SSet 59 (EBin OXor u64 (EVar 59) (EVar 19)) ;;
    SSet 20 (EBin OXor u64 (EVar 45) (EBin OAnd u64 (EUn ONot u64 (EVar 41)) (EVar 42))) ;;
    SSet 60 (EBin OXor u64 (EVar 60) (EVar 20)) ;;
    SSet 70 (EBin OXor u64 (EVar 70) (EVar 65)) ;;
    SSet 46 (EBin OXor u64 (EBin OShl u64 (EVar 70) (EInt 27)) (EBin OShr u64 (EVar 70) (EInt 37))) ;;
    SSet 71 (EBin OXor u64 (EVar 71) (EVar 61)) ;;
    SSet 47 (EBin OXor u64 (EBin OShl u64 (EVar 71) (EInt 36)) (EBin OShr u64 (EVar 71) (EInt 28))) ;;
    SSet 77 (EBin OXor u64 (EVar 77) (EVar 62)) ;;
    SSet 48 (EBin OXor u64 (EBin OShl u64 (EVar 77) (EInt 10)) (EBin OShr u64 (EVar 77) (EInt 54))) ;;
    SSet 83 (EBin OXor u64 (EVar 83) (EVar 63)) ;;
    SSet 49 (EBin OXor u64 (EBin OShl u64 (EVar 83) (EInt 15)) (EBin OShr u64 (EVar 83) (EInt 49))) ;;
    SSet 89 (EBin OXor u64 (EVar 89) (EVar 64)) ;;
    SSet 50 (EBin OXor u64 (EBin OShl u64 (EVar 89) (EInt 56)) (EBin OShr u64 (EVar 89) (EInt 8))) ;;
    SSet 21 (EBin OXor u64 (EVar 46) (EBin OAnd u64 (EUn ONot u64 (EVar 47)) (EVar 48))) ;;
    SSet 56 (EBin OXor u64 (EVar 56) (EVar 21)) ;;
    SSet 22 (EBin OXor u64 (EVar 47) (EBin OAnd u64 (EUn ONot u64 (EVar 48)) (EVar 49))) ;;
    SSet 57 (EBin OXor u64 (EVar 57) (EVar 22)) ;;
    SSet 23 (EBin OXor u64 (EVar 48) (EBin OAnd u64 (EUn ONot u64 (EVar 49)) (EVar 50))) ;;
    SSet 58 (EBin OXor u64 (EVar 58) (EVar 23)) ;;
    SSet 24 (EBin OXor u64 (EVar 49) (EBin OAnd u64 (EUn ONot u64 (EVar 50)) (EVar 46))) ;;
    SSet 59 (EBin OXor u64 (EVar 59) (EVar 24)) ;;
    SSet 25 (EBin OXor u64 (EVar 50) (EBin OAnd u64 (EUn ONot u64 (EVar 46)) (EVar 47))) ;;
    SSet 60 (EBin OXor u64 (EVar 60) (EVar 25)) ;;
    SSet 68 (EBin OXor u64 (EVar 68) (EVar 63))))))) ;;
    (
    (
    (
    (
    (
    SSet 51 (EBin OXor u64 (EBin OShl u64 (EVar 68) (EInt 62)) (EBin OShr u64 (EVar 68) (EInt 2))) ;;
    SSet 74 (EBin OXor u64 (EVar 74) (EVar 64)) ;;
    SSet 52 (EBin OXor u64 (EBin OShl u64 (EVar 74) (EInt 55)) (EBin OShr u64 (EVar 74) (EInt 9))) ;;
    SSet 80 (EBin OXor u64 (EVar 80) (EVar 65)) ;;
    SSet 53 (EBin OXor u64 (EBin OShl u64 (EVar 80) (EInt 39)) (EBin OShr u64 (EVar 80) (EInt 25))) ;;
    SSet 81 (EBin OXor u64 (EVar 81) (EVar 61)) ;;
    SSet 54 (EBin OXor u64 (EBin OShl u64 (EVar 81) (EInt 41)) (EBin OShr u64 (EVar 81) (EInt 23))) ;;
    SSet 87 (EBin OXor u64 (EVar 87) (EVar 62)) ;;
    SSet 55 (EBin OXor u64 (EBin OShl u64 (EVar 87) (EInt 2)) (EBin OShr u64 (EVar 87) (EInt 62))) ;;
    SSet 26 (EBin OXor u64 (EVar 51) (EBin OAnd u64 (EUn ONot u64 (EVar 52)) (EVar 53))) ;;
    SSet 56 (EBin OXor u64 (EVar 56) (EVar 26)) ;;
    SSet 27 (EBin OXor u64 (EVar 52) (EBin OAnd u64 (EUn ONot u64 (EVar 53)) (EVar 54))) ;;
    SSet 57 (EBin OXor u64 (EVar 57) (EVar 27)) ;;
    SSet 28 (EBin OXor u64 (EVar 53) (EBin OAnd u64 (EUn ONot u64 (EVar 54)) (EVar 55))) ;;
    SSet 58 (EBin OXor u64 (EVar 58) (EVar 28)) ;;
    SSet 29 (EBin OXor u64 (EVar 54) (EBin OAnd u64 (EUn ONot u64 (EVar 55)) (EVar 51))) ;;
    SSet 59 (EBin OXor u64 (EVar 59) (EVar 29)) ;;
    SSet 30 (EBin OXor u64 (EVar 55) (EBin OAnd u64 (EUn ONot u64 (EVar 51)) (EVar 52))) ;;
    SSet 60 (EBin OXor u64 (EVar 60) (EVar 30)) ;;
    SSet 61 (EBin OXor u64 (EVar 60) (EBin OXor u64 (EBin OShl u64 (EVar 57) (EInt 1)) (EBin OShr u64 (EVar 57) (EInt 63)))) ;;
    SSet 62 (EBin OXor u64 (EVar 56) (EBin OXor u64 (EBin OShl u64 (EVar 58) (EInt 1)) (EBin OShr u64 (EVar 58) (EInt 63)))) ;;
    SSet 63 (EBin OXor u64 (EVar 57) (EBin OXor u64 (EBin OShl u64 (EVar 59) (EInt 1)) (EBin OShr u64 (EVar 59) (EInt 63)))) ;;
    SSet 64 (EBin OXor u64 (EVar 58) (EBin OXor u64 (EBin OShl u64 (EVar 60) (EInt 1)) (EBin OShr u64 (EVar 60) (EInt 63)))) ;;
    SSet 65 (EBin OXor u64 (EVar 59) (EBin OXor u64 (EBin OShl u64 (EVar 56) (EInt 1)) (EBin OShr u64 (EVar 56) (EInt 63)))) ;;
    SSet 6 (EBin OXor u64 (EVar 6) (EVar 61)) ;;
    SSet 31 (EVar 6) ;;
    SSet 12 (EBin OXor u64 (EVar 12) (EVar 62)) ;;
    SSet 32 (EBin OXor u64 (EBin OShl u64 (EVar 12) (EInt 44)) (EBin OShr u64 (EVar 12) (EInt 20))) ;;
    SSet 18 (EBin OXor u64 (EVar 18) (EVar 63)) ;;
    SSet 33 (EBin OXor u64 (EBin OShl u64 (EVar 18) (EInt 43)) (EBin OShr u64 (EVar 18) (EInt 21))) ;;
    SSet 24 (EBin OXor u64 (EVar 24) (EVar 64)) ;;
    SSet 34 (EBin OXor u64 (EBin OShl u64 (EVar 24) (EInt 21)) (EBin OShr u64 (EVar 24) (EInt 43))) ;;
    SSet 30 (EBin OXor u64 (EVar 30) (EVar 65)) ;;
    SSet 35 (EBin OXor u64 (EBin OShl u64 (EVar 30) (EInt 14)) (EBin OShr u64 (EVar 30) (EInt 50))) ;;
    SSet 66 (EBin OXor u64 (EVar 31) (EBin OAnd u64 (EUn ONot u64 (EVar 32)) (EVar 33))) ;;
    SSet 66 (EBin OXor u64 (EVar 66) (ELoad 8 (EAt (EGlob 1) 8 (EInt 18)))) ;;
    SSet 56 (EVar 66) ;;
    SSet 67 (EBin OXor u64 (EVar 32) (EBin OAnd u64 (EUn ONot u64 (EVar 33)) (EVar 34))) ;;
    SSet 57 (EVar 67)) ;;
    (
    SSet 68 (EBin OXor u64 (EVar 33) (EBin OAnd u64 (EUn ONot u64 (EVar 34)) (EVar 35))) ;;
    SSet 58 (EVar 68) ;;
    SSet 69 (EBin OXor u64 (EVar 34) (EBin OAnd u64 (EUn ONot u64 (EVar 35)) (EVar 31))) ;;
    SSet 59 (EVar 69) ;;
    SSet 70 (EBin OXor u64 (EVar 35) (EBin OAnd u64 (EUn ONot u64 (EVar 31)) (EVar 32))) ;;
    SSet 60 (EVar 70) ;;
    SSet 9 (EBin OXor u64 (EVar 9) (EVar 64)) ;;
    SSet 36 (EBin OXor u64 (EBin OShl u64 (EVar 9) (EInt 28)) (EBin OShr u64 (EVar 9) (EInt 36))) ;;
    SSet 15 (EBin OXor u64 (EVar 15) (EVar 65)) ;;
    SSet 37 (EBin OXor u64 (EBin OShl u64 (EVar 15) (EInt 20)) (EBin OShr u64 (EVar 15) (EInt 44))) ;;
    SSet 16 (EBin OXor u64 (EVar 16) (EVar 61)) ;;
    SSet 38 (EBin OXor u64 (EBin OShl u64 (EVar 16) (EInt 3)) (EBin OShr u64 (EVar 16) (EInt 61))) ;;
    SSet 22 (EBin OXor u64 (EVar 22) (EVar 62)) ;;
    SSet 39 (EBin OXor u64 (EBin OShl u64 (EVar 22) (EInt 45)) (EBin OShr u64 (EVar 22) (EInt 19))) ;;
    SSet 28 (EBin OXor u64 (EVar 28) (EVar 63)) ;;
    SSet 40 (EBin OXor u64 (EBin OShl u64 (EVar 28) (EInt 61)) (EBin OShr u64 (EVar 28) (EInt 3))) ;;
    SSet 71 (EBin OXor u64 (EVar 36) (EBin OAnd u64 (EUn ONot u64 (EVar 37)) (EVar 38))) ;;
    SSet 56 (EBin OXor u64 (EVar 56) (EVar 71)) ;;
    SSet 72 (EBin OXor u64 (EVar 37) (EBin OAnd u64 (EUn ONot u64 (EVar 38)) (EVar 39))) ;;
    SSet 57 (EBin OXor u64 (EVar 57) (EVar 72)) ;;
    SSet 73 (EBin OXor u64 (EVar 38) (EBin OAnd u64 (EUn ONot u64 (EVar 39)) (EVar 40))) ;;
    SSet 58 (EBin OXor u64 (EVar 58) (EVar 73)) ;;
    SSet 74 (EBin OXor u64 (EVar 39) (EBin OAnd u64 (EUn ONot u64 (EVar 40)) (EVar 36))) ;;
    SSet 59 (EBin OXor u64 (EVar 59) (EVar 74)) ;;
    SSet 75 (EBin OXor u64 (EVar 40) (EBin OAnd u64 (EUn ONot u64 (EVar 36)) (EVar 37))) ;;
    SSet 60 (EBin OXor u64 (EVar 60) (EVar 75)) ;;
    SSet 7 (EBin OXor u64 (EVar 7) (EVar 62)) ;;
    SSet 41 (EBin OXor u64 (EBin OShl u64 (EVar 7) (EInt 1)) (EBin OShr u64 (EVar 7) (EInt 63))) ;;
    SSet 13 (EBin OXor u64 (EVar 13) (EVar 63)) ;;
    SSet 42 (EBin OXor u64 (EBin OShl u64 (EVar 13) (EInt 6)) (EBin OShr u64 (EVar 13) (EInt 58))) ;;
    SSet 19 (EBin OXor u64 (EVar 19) (EVar 64)) ;;
    SSet 43 (EBin OXor u64 (EBin OShl u64 (EVar 19) (EInt 25)) (EBin OShr u64 (EVar 19) (EInt 39))) ;;
    SSet 25 (EBin OXor u64 (EVar 25) (EVar 65)) ;;
    SSet 44 (EBin OXor u64 (EBin OShl u64 (EVar 25) (EInt 8)) (EBin OShr u64 (EVar 25) (EInt 56))) ;;
    SSet 26 (EBin OXor u64 (EVar 26) (EVar 61)) ;;
    SSet 45 (EBin OXor u64 (EBin OShl u64 (EVar 26) (EInt 18)) (EBin OShr u64 (EVar 26) (EInt 46))) ;;
    SSet 76 (EBin OXor u64 (EVar 41) (EBin OAnd u64 (EUn ONot u64 (EVar 42)) (EVar 43))) ;;
    SSet 56 (EBin OXor u64 (EVar 56) (EVar 76)) ;;
    SSet 77 (EBin OXor u64 (EVar 42) (EBin OAnd u64 (EUn ONot u64 (EVar 43)) (EVar 44))) ;;
    SSet 57 (EBin OXor u64 (EVar 57) (EVar 77)))) ;;
    (
    (
    SSet 78 (EBin OXor u64 (EVar 43) (EBin OAnd u64 (EUn ONot u64 (EVar 44)) (EVar 45))) ;;
    SSet 58 (EBin OXor u64 (EVar 58) (EVar 78)) ;;
    SSet 79 (EBin OXor u64 (EVar 44) (EBin OAnd u64 (EUn ONot u64 (EVar 45)) (EVar 41))) ;;
    SSet 59 (EBin OXor u64 (EVar 59) (EVar 79)) ;;
    SSet 80 (EBin OXor u64 (EVar 45) (EBin OAnd u64 (EUn ONot u64 (EVar 41)) (EVar 42))) ;;
    SSet 60 (EBin OXor u64 (EVar 60) (EVar 80)) ;;
    SSet 10 (EBin OXor u64 (EVar 10) (EVar 65)) ;;
    SSet 46 (EBin OXor u64 (EBin OShl u64 (EVar 10) (EInt 27)) (EBin OShr u64 (EVar 10) (EInt 37))) ;;
    SSet 11 (EBin OXor u64 (EVar 11) (EVar 61)) ;;
    SSet 47 (EBin OXor u64 (EBin OShl u64 (EVar 11) (EInt 36)) (EBin OShr u64 (EVar 11) (EInt 28))) ;;
    SSet 17 (EBin OXor u64 (EVar 17) (EVar 62)) ;;
    SSet 48 (EBin OXor u64 (EBin OShl u64 (EVar 17) (EInt 10)) (EBin OShr u64 (EVar 17) (EInt 54))) ;;
    SSet 23 (EBin OXor u64 (EVar 23) (EVar 63)) ;;
    SSet 49 (EBin OXor u64 (EBin OShl u64 (EVar 23) (EInt 15)) (EBin OShr u64 (EVar 23) (EInt 49))) ;;
    SSet 29 (EBin OXor u64 (EVar 29) (EVar 64)) ;;
    SSet 50 (EBin OXor u64 (EBin OShl u64 (EVar 29) (EInt 56)) (EBin OShr u64 (EVar 29) (EInt 8))) ;;
    SSet 81 (EBin OXor u64 (EVar 46) (EBin OAnd u64 (EUn ONot u64 (EVar 47)) (EVar 48))) ;;
    SSet 56 (EBin OXor u64 (EVar 56) (EVar 81)) ;;
    SSet 82 (EBin OXor u64 (EVar 47) (EBin OAnd u64 (EUn ONot u64 (EVar 48)) (EVar 49))) ;;
    SSet 57 (EBin OXor u64 (EVar 57) (EVar 82)) ;;
    SSet 83 (EBin OXor u64 (EVar 48) (EBin OAnd u64 (EUn ONot u64 (EVar 49)) (EVar 50))) ;;
    SSet 58 (EBin OXor u64 (EVar 58) (EVar 83)) ;;
    SSet 84 (EBin OXor u64 (EVar 49) (EBin OAnd u64 (EUn ONot u64 (EVar 50)) (EVar 46))) ;;
    SSet 59 (EBin OXor u64 (EVar 59) (EVar 84)) ;;
    SSet 85 (EBin OXor u64 (EVar 50) (EBin OAnd u64 (EUn ONot u64 (EVar 46)) (EVar 47))) ;;
    SSet 60 (EBin OXor u64 (EVar 60) (EVar 85)) ;;
    SSet 8 (EBin OXor u64 (EVar 8) (EVar 63)) ;;
    SSet 51 (EBin OXor u64 (EBin OShl u64 (EVar 8) (EInt 62)) (EBin OShr u64 (EVar 8) (EInt 2))) ;;
    SSet 14 (EBin OXor u64 (EVar 14) (EVar 64)) ;;
    SSet 52 (EBin OXor u64 (EBin OShl u64 (EVar 14) (EInt 55)) (EBin OShr u64 (EVar 14) (EInt 9))) ;;
    SSet 20 (EBin OXor u64 (EVar 20) (EVar 65)) ;;
    SSet 53 (EBin OXor u64 (EBin OShl u64 (EVar 20) (EInt 39)) (EBin OShr u64 (EVar 20) (EInt 25))) ;;
    SSet 21 (EBin OXor u64 (EVar 21) (EVar 61)) ;;
    SSet 54 (EBin OXor u64 (EBin OShl u64 (EVar 21) (EInt 41)) (EBin OShr u64 (EVar 21) (EInt 23))) ;;
    SSet 27 (EBin OXor u64 (EVar 27) (EVar 62)) ;;
    SSet 55 (EBin OXor u64 (EBin OShl u64 (EVar 27) (EInt 2)) (EBin OShr u64 (EVar 27) (EInt 62))) ;;
    SSet 86 (EBin OXor u64 (EVar 51) (EBin OAnd u64 (EUn ONot u64 (EVar 52)) (EVar 53))) ;;
    SSet 56 (EBin OXor u64 (EVar 56) (EVar 86)) ;;
    SSet 87 (EBin OXor u64 (EVar 52) (EBin OAnd u64 (EUn ONot u64 (EVar 53)) (EVar 54)))) ;;
    (
    SSet 57 (EBin OXor u64 (EVar 57) (EVar 87)) ;;
    SSet 88 (EBin OXor u64 (EVar 53) (EBin OAnd u64 (EUn ONot u64 (EVar 54)) (EVar 55))) ;;
    SSet 58 (EBin OXor u64 (EVar 58) (EVar 88)) ;;
    SSet 89 (EBin OXor u64 (EVar 54) (EBin OAnd u64 (EUn ONot u64 (EVar 55)) (EVar 51))) ;;
    SSet 59 (EBin OXor u64 (EVar 59) (EVar 89)) ;;
    SSet 90 (EBin OXor u64 (EVar 55) (EBin OAnd u64 (EUn ONot u64 (EVar 51)) (EVar 52))) ;;
    SSet 60 (EBin OXor u64 (EVar 60) (EVar 90)) ;;
    SSet 61 (EBin OXor u64 (EVar 60) (EBin OXor u64 (EBin OShl u64 (EVar 57) (EInt 1)) (EBin OShr u64 (EVar 57) (EInt 63)))) ;;
    SSet 62 (EBin OXor u64 (EVar 56) (EBin OXor u64 (EBin OShl u64 (EVar 58) (EInt 1)) (EBin OShr u64 (EVar 58) (EInt 63)))) ;;
    SSet 63 (EBin OXor u64 (EVar 57) (EBin OXor u64 (EBin OShl u64 (EVar 59) (EInt 1)) (EBin OShr u64 (EVar 59) (EInt 63)))) ;;
    SSet 64 (EBin OXor u64 (EVar 58) (EBin OXor u64 (EBin OShl u64 (EVar 60) (EInt 1)) (EBin OShr u64 (EVar 60) (EInt 63)))) ;;
    SSet 65 (EBin OXor u64 (EVar 59) (EBin OXor u64 (EBin OShl u64 (EVar 56) (EInt 1)) (EBin OShr u64 (EVar 56) (EInt 63)))) ;;
    SSet 66 (EBin OXor u64 (EVar 66) (EVar 61)) ;;
    SSet 31 (EVar 66) ;;
    SSet 72 (EBin OXor u64 (EVar 72) (EVar 62)) ;;
    SSet 32 (EBin OXor u64 (EBin OShl u64 (EVar 72) (EInt 44)) (EBin OShr u64 (EVar 72) (EInt 20))) ;;
    SSet 78 (EBin OXor u64 (EVar 78) (EVar 63)) ;;
    SSet 33 (EBin OXor u64 (EBin OShl u64 (EVar 78) (EInt 43)) (EBin OShr u64 (EVar 78) (EInt 21))) ;;
    SSet 84 (EBin OXor u64 (EVar 84) (EVar 64)) ;;
    SSet 34 (EBin OXor u64 (EBin OShl u64 (EVar 84) (EInt 21)) (EBin OShr u64 (EVar 84) (EInt 43))) ;;
    SSet 90 (EBin OXor u64 (EVar 90) (EVar 65)) ;;
    SSet 35 (EBin OXor u64 (EBin OShl u64 (EVar 90) (EInt 14)) (EBin OShr u64 (EVar 90) (EInt 50))) ;;
    SSet 6 (EBin OXor u64 (EVar 31) (EBin OAnd u64 (EUn ONot u64 (EVar 32)) (EVar 33))) ;;
    SSet 6 (EBin OXor u64 (EVar 6) (ELoad 8 (EAt (EGlob 1) 8 (EInt 19)))) ;;
    SSet 56 (EVar 6) ;;
    SSet 7 (EBin OXor u64 (EVar 32) (EBin OAnd u64 (EUn ONot u64 (EVar 33)) (EVar 34))) ;;
    SSet 57 (EVar 7) ;;
    SSet 8 (EBin OXor u64 (EVar 33) (EBin OAnd u64 (EUn ONot u64 (EVar 34)) (EVar 35))) ;;
    SSet 58 (EVar 8) ;;
    SSet 9 (EBin OXor u64 (EVar 34) (EBin OAnd u64 (EUn ONot u64 (EVar 35)) (EVar 31))) ;;
    SSet 59 (EVar 9) ;;
    SSet 10 (EBin OXor u64 (EVar 35) (EBin OAnd u64 (EUn ONot u64 (EVar 31)) (EVar 32))) ;;
    SSet 60 (EVar 10) ;;
    SSet 69 (EBin OXor u64 (EVar 69) (EVar 64)) ;;
    SSet 36 (EBin OXor u64 (EBin OShl u64 (EVar 69) (EInt 28)) (EBin OShr u64 (EVar 69) (EInt 36))) ;;
    SSet 75 (EBin OXor u64 (EVar 75) (EVar 65)) ;;
    SSet 37 (EBin OXor u64 (EBin OShl u64 (EVar 75) (EInt 20)) (EBin OShr u64 (EVar 75) (EInt 44))) ;;
    SSet 76 (EBin OXor u64 (EVar 76) (EVar 61)) ;;
    SSet 38 (EBin OXor u64 (EBin OShl u64 (EVar 76) (EInt 3)) (EBin OShr u64 (EVar 76) (EInt 61))) ;;
    SSet 82 (EBin OXor u64 (EVar 82) (EVar 62))))) ;;
    (
    (
    (
    SSet 39 (EBin OXor u64 (EBin OShl u64 (EVar 82) (EInt 45)) (EBin OShr u64 (EVar 82) (EInt 19))) ;;
    SSet 88 (EBin OXor u64 (EVar 88) (EVar 63)) ;;
    SSet 40 (EBin OXor u64 (EBin OShl u64 (EVar 88) (EInt 61)) (EBin OShr u64 (EVar 88) (EInt 3))) ;;
    SSet 11 (EBin OXor u64 (EVar 36) (EBin OAnd u64 (EUn ONot u64 (EVar 37)) (EVar 38))) ;;
    SSet 56 (EBin OXor u64 (EVar 56) (EVar 11)) ;;
    SSet 12 (EBin OXor u64 (EVar 37) (EBin OAnd u64 (EUn ONot u64 (EVar 38)) (EVar 39))) ;;
    SSet 57 (EBin OXor u64 (EVar 57) (EVar 12)) ;;
    SSet 13 (EBin OXor u64 (EVar 38) (EBin OAnd u64 (EUn ONot u64 (EVar 39)) (EVar 40))) ;;
    SSet 58 (EBin OXor u64 (EVar 58) (EVar 13)) ;;
    SSet 14 (EBin OXor u64 (EVar 39) (EBin OAnd u64 (EUn ONot u64 (EVar 40)) (EVar 36))) ;;
    SSet 59 (EBin OXor u64 (EVar 59) (EVar 14)) ;;
    SSet 15 (EBin OXor u64 (EVar 40) (EBin OAnd u64 (EUn ONot u64 (EVar 36)) (EVar 37))) ;;
    SSet 60 (EBin OXor u64 (EVar 60) (EVar 15)) ;;
    SSet 67 (EBin OXor u64 (EVar 67) (EVar 62)) ;;
    SSet 41 (EBin OXor u64 (EBin OShl u64 (EVar 67) (EInt 1)) (EBin OShr u64 (EVar 67) (EInt 63))) ;;
    SSet 73 (EBin OXor u64 (EVar 73) (EVar 63)) ;;
    SSet 42 (EBin OXor u64 (EBin OShl u64 (EVar 73) (EInt 6)) (EBin OShr u64 (EVar 73) (EInt 58))) ;;
    SSet 79 (EBin OXor u64 (EVar 79) (EVar 64)) ;;
    SSet 43 (EBin OXor u64 (EBin OShl u64 (EVar 79) (EInt 25)) (EBin OShr u64 (EVar 79) (EInt 39))) ;;
    SSet 85 (EBin OXor u64 (EVar 85) (EVar 65)) ;;
    SSet 44 (EBin OXor u64 (EBin OShl u64 (EVar 85) (EInt 8)) (EBin OShr u64 (EVar 85) (EInt 56))) ;;
    SSet 86 (EBin OXor u64 (EVar 86) (EVar 61)) ;;
    SSet 45 (EBin OXor u64 (EBin OShl u64 (EVar 86) (EInt 18)) (EBin OShr u64 (EVar 86) (EInt 46))) ;;
    SSet 16 (EBin OXor u64 (EVar 41) (EBin OAnd u64 (EUn ONot u64 (EVar 42)) (EVar 43))) ;;
    SSet 56 (EBin OXor u64 (EVar 56) (EVar 16)) ;;
    SSet 17 (EBin OXor u64 (EVar 42) (EBin OAnd u64 (EUn ONot u64 (EVar 43)) (EVar 44))) ;;
    SSet 57 (EBin OXor u64 (EVar 57) (EVar 17)) ;;
    SSet 18 (EBin OXor u64 (EVar 43) (EBin OAnd u64 (EUn ONot u64 (EVar 44)) (EVar 45))) ;;
    SSet 58 (EBin OXor u64 (EVar 58) (EVar 18)) ;;
    SSet 19 (EBin OXor u64 (EVar 44) (EBin OAnd u64 (EUn ONot u64 (EVar 45)) (EVar 41))) ;;
    SSet 59 (EBin OXor u64 (EVar 59) (EVar 19)) ;;
    SSet 20 (EBin OXor u64 (EVar 45) (EBin OAnd u64 (EUn ONot u64 (EVar 41)) (EVar 42))) ;;
    SSet 60 (EBin OXor u64 (EVar 60) (EVar 20)) ;;
    SSet 70 (EBin OXor u64 (EVar 70) (EVar 65)) ;;
    SSet 46 (EBin OXor u64 (EBin OShl u64 (EVar 70) (EInt 27)) (EBin OShr u64 (EVar 70) (EInt 37))) ;;
    SSet 71 (EBin OXor u64 (EVar 71) (EVar 61)) ;;
    SSet 47 (EBin OXor u64 (EBin OShl u64 (EVar 71) (EInt 36)) (EBin OShr u64 (EVar 71) (EInt 28))) ;;
    SSet 77 (EBin OXor u64 (EVar 77) (EVar 62)) ;;
    SSet 48 (EBin OXor u64 (EBin OShl u64 (EVar 77) (EInt 10)) (EBin OShr u64 (EVar 77) (EInt 54)))) ;;
    (
    SSet 83 (EBin OXor u64 (EVar 83) (EVar 63)) ;;
    SSet 49 (EBin OXor u64 (EBin OShl u64 (EVar 83) (EInt 15)) (EBin OShr u64 (EVar 83) (EInt 49))) ;;
    SSet 89 (EBin OXor u64 (EVar 89) (EVar 64)) ;;
    SSet 50 (EBin OXor u64 (EBin OShl u64 (EVar 89) (EInt 56)) (EBin OShr u64 (EVar 89) (EInt 8))) ;;
    SSet 21 (EBin OXor u64 (EVar 46) (EBin OAnd u64 (EUn ONot u64 (EVar 47)) (EVar 48))) ;;
    SSet 56 (EBin OXor u64 (EVar 56) (EVar 21)) ;;
    SSet 22 (EBin OXor u64 (EVar 47) (EBin OAnd u64 (EUn ONot u64 (EVar 48)) (EVar 49))) ;;
    SSet 57 (EBin OXor u64 (EVar 57) (EVar 22)) ;;
    SSet 23 (EBin OXor u64 (EVar 48) (EBin OAnd u64 (EUn ONot u64 (EVar 49)) (EVar 50))) ;;
    SSet 58 (EBin OXor u64 (EVar 58) (EVar 23)) ;;
    SSet 24 (EBin OXor u64 (EVar 49) (EBin OAnd u64 (EUn ONot u64 (EVar 50)) (EVar 46))) ;;
    SSet 59 (EBin OXor u64 (EVar 59) (EVar 24)) ;;
    SSet 25 (EBin OXor u64 (EVar 50) (EBin OAnd u64 (EUn ONot u64 (EVar 46)) (EVar 47))) ;;
    SSet 60 (EBin OXor u64 (EVar 60) (EVar 25)) ;;
    SSet 68 (EBin OXor u64 (EVar 68) (EVar 63)) ;;
    SSet 51 (EBin OXor u64 (EBin OShl u64 (EVar 68) (EInt 62)) (EBin OShr u64 (EVar 68) (EInt 2))) ;;
    SSet 74 (EBin OXor u64 (EVar 74) (EVar 64)) ;;
    SSet 52 (EBin OXor u64 (EBin OShl u64 (EVar 74) (EInt 55)) (EBin OShr u64 (EVar 74) (EInt 9))) ;;
    SSet 80 (EBin OXor u64 (EVar 80) (EVar 65)) ;;
    SSet 53 (EBin OXor u64 (EBin OShl u64 (EVar 80) (EInt 39)) (EBin OShr u64 (EVar 80) (EInt 25))) ;;
    SSet 81 (EBin OXor u64 (EVar 81) (EVar 61)) ;;
    SSet 54 (EBin OXor u64 (EBin OShl u64 (EVar 81) (EInt 41)) (EBin OShr u64 (EVar 81) (EInt 23))) ;;
    SSet 87 (EBin OXor u64 (EVar 87) (EVar 62)) ;;
    SSet 55 (EBin OXor u64 (EBin OShl u64 (EVar 87) (EInt 2)) (EBin OShr u64 (EVar 87) (EInt 62))) ;;
    SSet 26 (EBin OXor u64 (EVar 51) (EBin OAnd u64 (EUn ONot u64 (EVar 52)) (EVar 53))) ;;
    SSet 56 (EBin OXor u64 (EVar 56) (EVar 26)) ;;
    SSet 27 (EBin OXor u64 (EVar 52) (EBin OAnd u64 (EUn ONot u64 (EVar 53)) (EVar 54))) ;;
    SSet 57 (EBin OXor u64 (EVar 57) (EVar 27)) ;;
    SSet 28 (EBin OXor u64 (EVar 53) (EBin OAnd u64 (EUn ONot u64 (EVar 54)) (EVar 55))) ;;
    SSet 58 (EBin OXor u64 (EVar 58) (EVar 28)) ;;
    SSet 29 (EBin OXor u64 (EVar 54) (EBin OAnd u64 (EUn ONot u64 (EVar 55)) (EVar 51))) ;;
    SSet 59 (EBin OXor u64 (EVar 59) (EVar 29)) ;;
    SSet 30 (EBin OXor u64 (EVar 55) (EBin OAnd u64 (EUn ONot u64 (EVar 51)) (EVar 52))) ;;
    SSet 60 (EBin OXor u64 (EVar 60) (EVar 30)) ;;
    SSet 61 (EBin OXor u64 (EVar 60) (EBin OXor u64 (EBin OShl u64 (EVar 57) (EInt 1)) (EBin OShr u64 (EVar 57) (EInt 63)))) ;;
    SSet 62 (EBin OXor u64 (EVar 56) (EBin OXor u64 (EBin OShl u64 (EVar 58) (EInt 1)) (EBin OShr u64 (EVar 58) (EInt 63)))) ;;
    SSet 63 (EBin OXor u64 (EVar 57) (EBin OXor u64 (EBin OShl u64 (EVar 59) (EInt 1)) (EBin OShr u64 (EVar 59) (EInt 63)))) ;;
    SSet 64 (EBin OXor u64 (EVar 58) (EBin OXor u64 (EBin OShl u64 (EVar 60) (EInt 1)) (EBin OShr u64 (EVar 60) (EInt 63)))) ;;
    SSet 65 (EBin OXor u64 (EVar 59) (EBin OXor u64 (EBin OShl u64 (EVar 56) (EInt 1)) (EBin OShr u64 (EVar 56) (EInt 63)))) ;;
    SSet 6 (EBin OXor u64 (EVar 6) (EVar 61)))) ;;
    (
    (
    SSet 31 (EVar 6) ;;
    SSet 12 (EBin OXor u64 (EVar 12) (EVar 62)) ;;
    SSet 32 (EBin OXor u64 (EBin OShl u64 (EVar 12) (EInt 44)) (EBin OShr u64 (EVar 12) (EInt 20))) ;;
    SSet 18 (EBin OXor u64 (EVar 18) (EVar 63)) ;;
    SSet 33 (EBin OXor u64 (EBin OShl u64 (EVar 18) (EInt 43)) (EBin OShr u64 (EVar 18) (EInt 21))) ;;
    SSet 24 (EBin OXor u64 (EVar 24) (EVar 64)) ;;
    SSet 34 (EBin OXor u64 (EBin OShl u64 (EVar 24) (EInt 21)) (EBin OShr u64 (EVar 24) (EInt 43))) ;;
    SSet 30 (EBin OXor u64 (EVar 30) (EVar 65)) ;;
    SSet 35 (EBin OXor u64 (EBin OShl u64 (EVar 30) (EInt 14)) (EBin OShr u64 (EVar 30) (EInt 50))) ;;
    SSet 66 (EBin OXor u64 (EVar 31) (EBin OAnd u64 (EUn ONot u64 (EVar 32)) (EVar 33))) ;;
    SSet 66 (EBin OXor u64 (EVar 66) (ELoad 8 (EAt (EGlob 1) 8 (EInt 20)))) ;;
    SSet 56 (EVar 66) ;;
    SSet 67 (EBin OXor u64 (EVar 32) (EBin OAnd u64 (EUn ONot u64 (EVar 33)) (EVar 34))) ;;
    SSet 57 (EVar 67) ;;
    SSet 68 (EBin OXor u64 (EVar 33) (EBin OAnd u64 (EUn ONot u64 (EVar 34)) (EVar 35))) ;;
    SSet 58 (EVar 68) ;;
    SSet 69 (EBin OXor u64 (EVar 34) (EBin OAnd u64 (EUn ONot u64 (EVar 35)) (EVar 31))) ;;
    SSet 59 (EVar 69) ;;
    SSet 70 (EBin OXor u64 (EVar 35) (EBin OAnd u64 (EUn ONot u64 (EVar 31)) (EVar 32))) ;;
    SSet 60 (EVar 70) ;;
    SSet 9 (EBin OXor u64 (EVar 9) (EVar 64)) ;;
    SSet 36 (EBin OXor u64 (EBin OShl u64 (EVar 9) (EInt 28)) (EBin OShr u64 (EVar 9) (EInt 36))) ;;
    SSet 15 (EBin OXor u64 (EVar 15) (EVar 65)) ;;
    SSet 37 (EBin OXor u64 (EBin OShl u64 (EVar 15) (EInt 20)) (EBin OShr u64 (EVar 15) (EInt 44))) ;;
    SSet 16 (EBin OXor u64 (EVar 16) (EVar 61)) ;;
    SSet 38 (EBin OXor u64 (EBin OShl u64 (EVar 16) (EInt 3)) (EBin OShr u64 (EVar 16) (EInt 61))) ;;
    SSet 22 (EBin OXor u64 (EVar 22) (EVar 62)) ;;
    SSet 39 (EBin OXor u64 (EBin OShl u64 (EVar 22) (EInt 45)) (EBin OShr u64 (EVar 22) (EInt 19))) ;;
    SSet 28 (EBin OXor u64 (EVar 28) (EVar 63)) ;;
    SSet 40 (EBin OXor u64 (EBin OShl u64 (EVar 28) (EInt 61)) (EBin OShr u64 (EVar 28) (EInt 3))) ;;
    SSet 71 (EBin OXor u64 (EVar 36) (EBin OAnd u64 (EUn ONot u64 (EVar 37)) (EVar 38))) ;;
    SSet 56 (EBin OXor u64 (EVar 56) (EVar 71)) ;;
    SSet 72 (EBin OXor u64 (EVar 37) (EBin OAnd u64 (EUn ONot u64 (EVar 38)) (EVar 39))) ;;
    SSet 57 (EBin OXor u64 (EVar 57) (EVar 72)) ;;
    SSet 73 (EBin OXor u64 (EVar 38) (EBin OAnd u64 (EUn ONot u64 (EVar 39)) (EVar 40))) ;;
    SSet 58 (EBin OXor u64 (EVar 58) (EVar 73)) ;;
    SSet 74 (EBin OXor u64 (EVar 39) (EBin OAnd u64 (EUn ONot u64 (EVar 40)) (EVar 36))) ;;
    SSet 59 (EBin OXor u64 (EVar 59) (EVar 74)) ;;
    SSet 75 (EBin OXor u64 (EVar 40) (EBin OAnd u64 (EUn ONot u64 (EVar 36)) (EVar 37)))) ;;
    (
    SSet 60 (EBin OXor u64 (EVar 60) (EVar 75)) ;;
    SSet 7 (EBin OXor u64 (EVar 7) (EVar 62)) ;;
    SSet 41 (EBin OXor u64 (EBin OShl u64 (EVar 7) (EInt 1)) (EBin OShr u64 (EVar 7) (EInt 63))) ;;
    SSet 13 (EBin OXor u64 (EVar 13) (EVar 63)) ;;
    SSet 42 (EBin OXor u64 (EBin OShl u64 (EVar 13) (EInt 6)) (EBin OShr u64 (EVar 13) (EInt 58))) ;;
    SSet 19 (EBin OXor u64 (EVar 19) (EVar 64)) ;;
    SSet 43 (EBin OXor u64 (EBin OShl u64 (EVar 19) (EInt 25)) (EBin OShr u64 (EVar 19) (EInt 39))) ;;
    SSet 25 (EBin OXor u64 (EVar 25) (EVar 65)) ;;
    SSet 44 (EBin OXor u64 (EBin OShl u64 (EVar 25) (EInt 8)) (EBin OShr u64 (EVar 25) (EInt 56))) ;;
    SSet 26 (EBin OXor u64 (EVar 26) (EVar 61)) ;;
    SSet 45 (EBin OXor u64 (EBin OShl u64 (EVar 26) (EInt 18)) (EBin OShr u64 (EVar 26) (EInt 46))) ;;
    SSet 76 (EBin OXor u64 (EVar 41) (EBin OAnd u64 (EUn ONot u64 (EVar 42)) (EVar 43))) ;;
    SSet 56 (EBin OXor u64 (EVar 56) (EVar 76)) ;;
    SSet 77 (EBin OXor u64 (EVar 42) (EBin OAnd u64 (EUn ONot u64 (EVar 43)) (EVar 44))) ;;
    SSet 57 (EBin OXor u64 (EVar 57) (EVar 77)) ;;
    SSet 78 (EBin OXor u64 (EVar 43) (EBin OAnd u64 (EUn ONot u64 (EVar 44)) (EVar 45))) ;;
    SSet 58 (EBin OXor u64 (EVar 58) (EVar 78)) ;;
    SSet 79 (EBin OXor u64 (EVar 44) (EBin OAnd u64 (EUn ONot u64 (EVar 45)) (EVar 41))) ;;
    SSet 59 (EBin OXor u64 (EVar 59) (EVar 79)) ;;
    SSet 80 (EBin OXor u64 (EVar 45) (EBin OAnd u64 (EUn ONot u64 (EVar 41)) (EVar 42))) ;;
    SSet 60 (EBin OXor u64 (EVar 60) (EVar 80)) ;;
    SSet 10 (EBin OXor u64 (EVar 10) (EVar 65)) ;;
    SSet 46 (EBin OXor u64 (EBin OShl u64 (EVar 10) (EInt 27)) (EBin OShr u64 (EVar 10) (EInt 37))) ;;
    SSet 11 (EBin OXor u64 (EVar 11) (EVar 61)) ;;
    SSet 47 (EBin OXor u64 (EBin OShl u64 (EVar 11) (EInt 36)) (EBin OShr u64 (EVar 11) (EInt 28))) ;;
    SSet 17 (EBin OXor u64 (EVar 17) (EVar 62)) ;;
    SSet 48 (EBin OXor u64 (EBin OShl u64 (EVar 17) (EInt 10)) (EBin OShr u64 (EVar 17) (EInt 54))) ;;
    SSet 23 (EBin OXor u64 (EVar 23) (EVar 63)) ;;
    SSet 49 (EBin OXor u64 (EBin OShl u64 (EVar 23) (EInt 15)) (EBin OShr u64 (EVar 23) (EInt 49))) ;;
    SSet 29 (EBin OXor u64 (EVar 29) (EVar 64)) ;;
    SSet 50 (EBin OXor u64 (EBin OShl u64 (EVar 29) (EInt 56)) (EBin OShr u64 (EVar 29) (EInt 8))) ;;
    SSet 81 (EBin OXor u64 (EVar 46) (EBin OAnd u64 (EUn ONot u64 (EVar 47)) (EVar 48))) ;;
    SSet 56 (EBin OXor u64 (EVar 56) (EVar 81)) ;;
    SSet 82 (EBin OXor u64 (EVar 47) (EBin OAnd u64 (EUn ONot u64 (EVar 48)) (EVar 49))) ;;
    SSet 57 (EBin OXor u64 (EVar 57) (EVar 82)) ;;
    SSet 83 (EBin OXor u64 (EVar 48) (EBin OAnd u64 (EUn ONot u64 (EVar 49)) (EVar 50))) ;;
    SSet 58 (EBin OXor u64 (EVar 58) (EVar 83)) ;;
    SSet 84 (EBin OXor u64 (EVar 49) (EBin OAnd u64 (EUn ONot u64 (EVar 50)) (EVar 46))) ;;
    SSet 59 (EBin OXor u64 (EVar 59) (EVar 84)) ;;
    SSet 85 (EBin OXor u64 (EVar 50) (EBin OAnd u64 (EUn ONot u64 (EVar 46)) (EVar 47))))))) ;;
    (
    (
    (
    (
    SSet 60 (EBin OXor u64 (EVar 60) (EVar 85)) ;;
    SSet 8 (EBin OXor u64 (EVar 8) (EVar 63)) ;;
    SSet 51 (EBin OXor u64 (EBin OShl u64 (EVar 8) (EInt 62)) (EBin OShr u64 (EVar 8) (EInt 2))) ;;
    SSet 14 (EBin OXor u64 (EVar 14) (EVar 64)) ;;
    SSet 52 (EBin OXor u64 (EBin OShl u64 (EVar 14) (EInt 55)) (EBin OShr u64 (EVar 14) (EInt 9))) ;;
    SSet 20 (EBin OXor u64 (EVar 20) (EVar 65)) ;;
    SSet 53 (EBin OXor u64 (EBin OShl u64 (EVar 20) (EInt 39)) (EBin OShr u64 (EVar 20) (EInt 25))) ;;
    SSet 21 (EBin OXor u64 (EVar 21) (EVar 61)) ;;
    SSet 54 (EBin OXor u64 (EBin OShl u64 (EVar 21) (EInt 41)) (EBin OShr u64 (EVar 21) (EInt 23))) ;;
    SSet 27 (EBin OXor u64 (EVar 27) (EVar 62)) ;;
    SSet 55 (EBin OXor u64 (EBin OShl u64 (EVar 27) (EInt 2)) (EBin OShr u64 (EVar 27) (EInt 62))) ;;
    SSet 86 (EBin OXor u64 (EVar 51) (EBin OAnd u64 (EUn ONot u64 (EVar 52)) (EVar 53))) ;;
    SSet 56 (EBin OXor u64 (EVar 56) (EVar 86)) ;;
    SSet 87 (EBin OXor u64 (EVar 52) (EBin OAnd u64 (EUn ONot u64 (EVar 53)) (EVar 54))) ;;
    SSet 57 (EBin OXor u64 (EVar 57) (EVar 87)) ;;
    SSet 88 (EBin OXor u64 (EVar 53) (EBin OAnd u64 (EUn ONot u64 (EVar 54)) (EVar 55))) ;;
    SSet 58 (EBin OXor u64 (EVar 58) (EVar 88)) ;;
    SSet 89 (EBin OXor u64 (EVar 54) (EBin OAnd u64 (EUn ONot u64 (EVar 55)) (EVar 51))) ;;
    SSet 59 (EBin OXor u64 (EVar 59) (EVar 89)) ;;
    SSet 90 (EBin OXor u64 (EVar 55) (EBin OAnd u64 (EUn ONot u64 (EVar 51)) (EVar 52))) ;;
    SSet 60 (EBin OXor u64 (EVar 60) (EVar 90)) ;;
    SSet 61 (EBin OXor u64 (EVar 60) (EBin OXor u64 (EBin OShl u64 (EVar 57) (EInt 1)) (EBin OShr u64 (EVar 57) (EInt 63)))) ;;
    SSet 62 (EBin OXor u64 (EVar 56) (EBin OXor u64 (EBin OShl u64 (EVar 58) (EInt 1)) (EBin OShr u64 (EVar 58) (EInt 63)))) ;;
    SSet 63 (EBin OXor u64 (EVar 57) (EBin OXor u64 (EBin OShl u64 (EVar 59) (EInt 1)) (EBin OShr u64 (EVar 59) (EInt 63)))) ;;
    SSet 64 (EBin OXor u64 (EVar 58) (EBin OXor u64 (EBin OShl u64 (EVar 60) (EInt 1)) (EBin OShr u64 (EVar 60) (EInt 63)))) ;;
    SSet 65 (EBin OXor u64 (EVar 59) (EBin OXor u64 (EBin OShl u64 (EVar 56) (EInt 1)) (EBin OShr u64 (EVar 56) (EInt 63)))) ;;
    SSet 66 (EBin OXor u64 (EVar 66) (EVar 61)) ;;
    SSet 31 (EVar 66) ;;
    SSet 72 (EBin OXor u64 (EVar 72) (EVar 62)) ;;
    SSet 32 (EBin OXor u64 (EBin OShl u64 (EVar 72) (EInt 44)) (EBin OShr u64 (EVar 72) (EInt 20))) ;;
    SSet 78 (EBin OXor u64 (EVar 78) (EVar 63)) ;;
    SSet 33 (EBin OXor u64 (EBin OShl u64 (EVar 78) (EInt 43)) (EBin OShr u64 (EVar 78) (EInt 21))) ;;
    SSet 84 (EBin OXor u64 (EVar 84) (EVar 64)) ;;
    SSet 34 (EBin OXor u64 (EBin OShl u64 (EVar 84) (EInt 21)) (EBin OShr u64 (EVar 84) (EInt 43))) ;;
    SSet 90 (EBin OXor u64 (EVar 90) (EVar 65)) ;;
    SSet 35 (EBin OXor u64 (EBin OShl u64 (EVar 90) (EInt 14)) (EBin OShr u64 (EVar 90) (EInt 50))) ;;
    SSet 6 (EBin OXor u64 (EVar 31) (EBin OAnd u64 (EUn ONot u64 (EVar 32)) (EVar 33))) ;;
    SSet 6 (EBin OXor u64 (EVar 6) (ELoad 8 (EAt (EGlob 1) 8 (EInt 21)))) ;;
    SSet 56 (EVar 6)) ;;
    (
    SSet 7 (EBin OXor u64 (EVar 32) (EBin OAnd u64 (EUn ONot u64 (EVar 33)) (EVar 34))) ;;
    SSet 57 (EVar 7) ;;
    SSet 8 (EBin OXor u64 (EVar 33) (EBin OAnd u64 (EUn ONot u64 (EVar 34)) (EVar 35))) ;;
    SSet 58 (EVar 8) ;;
    SSet 9 (EBin OXor u64 (EVar 34) (EBin OAnd u64 (EUn ONot u64 (EVar 35)) (EVar 31))) ;;
    SSet 59 (EVar 9) ;;
    SSet 10 (EBin OXor u64 (EVar 35) (EBin OAnd u64 (EUn ONot u64 (EVar 31)) (EVar 32))) ;;
    SSet 60 (EVar 10) ;;
    SSet 69 (EBin OXor u64 (EVar 69) (EVar 64)) ;;
    SSet 36 (EBin OXor u64 (EBin OShl u64 (EVar 69) (EInt 28)) (EBin OShr u64 (EVar 69) (EInt 36))) ;;
    SSet 75 (EBin OXor u64 (EVar 75) (EVar 65)) ;;
    SSet 37 (EBin OXor u64 (EBin OShl u64 (EVar 75) (EInt 20)) (EBin OShr u64 (EVar 75) (EInt 44))) ;;
    SSet 76 (EBin OXor u64 (EVar 76) (EVar 61)) ;;
    SSet 38 (EBin OXor u64 (EBin OShl u64 (EVar 76) (EInt 3)) (EBin OShr u64 (EVar 76) (EInt 61))) ;;
    SSet 82 (EBin OXor u64 (EVar 82) (EVar 62)) ;;
    SSet 39 (EBin OXor u64 (EBin OShl u64 (EVar 82) (EInt 45)) (EBin OShr u64 (EVar 82) (EInt 19))) ;;
    SSet 88 (EBin OXor u64 (EVar 88) (EVar 63)) ;;
    SSet 40 (EBin OXor u64 (EBin OShl u64 (EVar 88) (EInt 61)) (EBin OShr u64 (EVar 88) (EInt 3))) ;;
    SSet 11 (EBin OXor u64 (EVar 36) (EBin OAnd u64 (EUn ONot u64 (EVar 37)) (EVar 38))) ;;
    SSet 56 (EBin OXor u64 (EVar 56) (EVar 11)) ;;
    SSet 12 (EBin OXor u64 (EVar 37) (EBin OAnd u64 (EUn ONot u64 (EVar 38)) (EVar 39))) ;;
    SSet 57 (EBin OXor u64 (EVar 57) (EVar 12)) ;;
    SSet 13 (EBin OXor u64 (EVar 38) (EBin OAnd u64 (EUn ONot u64 (EVar 39)) (EVar 40))) ;;
    SSet 58 (EBin OXor u64 (EVar 58) (EVar 13)) ;;
    SSet 14 (EBin OXor u64 (EVar 39) (EBin OAnd u64 (EUn ONot u64 (EVar 40)) (EVar 36))) ;;
    SSet 59 (EBin OXor u64 (EVar 59) (EVar 14)) ;;
    SSet 15 (EBin OXor u64 (EVar 40) (EBin OAnd u64 (EUn ONot u64 (EVar 36)) (EVar 37))) ;;
    SSet 60 (EBin OXor u64 (EVar 60) (EVar 15)) ;;
    SSet 67 (EBin OXor u64 (EVar 67) (EVar 62)) ;;
    SSet 41 (EBin OXor u64 (EBin OShl u64 (EVar 67) (EInt 1)) (EBin OShr u64 (EVar 67) (EInt 63))) ;;
    SSet 73 (EBin OXor u64 (EVar 73) (EVar 63)) ;;
    SSet 42 (EBin OXor u64 (EBin OShl u64 (EVar 73) (EInt 6)) (EBin OShr u64 (EVar 73) (EInt 58))) ;;
    SSet 79 (EBin OXor u64 (EVar 79) (EVar 64)) ;;
    SSet 43 (EBin OXor u64 (EBin OShl u64 (EVar 79) (EInt 25)) (EBin OShr u64 (EVar 79) (EInt 39))) ;;
    SSet 85 (EBin OXor u64 (EVar 85) (EVar 65)) ;;
    SSet 44 (EBin OXor u64 (EBin OShl u64 (EVar 85) (EInt 8)) (EBin OShr u64 (EVar 85) (EInt 56))) ;;
    SSet 86 (EBin OXor u64 (EVar 86) (EVar 61)) ;;
    SSet 45 (EBin OXor u64 (EBin OShl u64 (EVar 86) (EInt 18)) (EBin OShr u64 (EVar 86) (EInt 46))) ;;
    SSet 16 (EBin OXor u64 (EVar 41) (EBin OAnd u64 (EUn ONot u64 (EVar 42)) (EVar 43))) ;;
    SSet 56 (EBin OXor u64 (EVar 56) (EVar 16)))) ;;
    (
    (
    SSet 17 (EBin OXor u64 (EVar 42) (EBin OAnd u64 (EUn ONot u64 (EVar 43)) (EVar 44))) ;;
    SSet 57 (EBin OXor u64 (EVar 57) (EVar 17)) ;;
    SSet 18 (EBin OXor u64 (EVar 43) (EBin OAnd u64 (EUn ONot u64 (EVar 44)) (EVar 45))) ;;
    SSet 58 (EBin OXor u64 (EVar 58) (EVar 18)) ;;
    SSet 19 (EBin OXor u64 (EVar 44) (EBin OAnd u64 (EUn ONot u64 (EVar 45)) (EVar 41))) ;;
    SSet 59 (EBin OXor u64 (EVar 59) (EVar 19)) ;;
    SSet 20 (EBin OXor u64 (EVar 45) (EBin OAnd u64 (EUn ONot u64 (EVar 41)) (EVar 42))) ;;
    SSet 60 (EBin OXor u64 (EVar 60) (EVar 20)) ;;
    SSet 70 (EBin OXor u64 (EVar 70) (EVar 65)) ;;
    SSet 46 (EBin OXor u64 (EBin OShl u64 (EVar 70) (EInt 27)) (EBin OShr u64 (EVar 70) (EInt 37))) ;;
    SSet 71 (EBin OXor u64 (EVar 71) (EVar 61)) ;;
    SSet 47 (EBin OXor u64 (EBin OShl u64 (EVar 71) (EInt 36)) (EBin OShr u64 (EVar 71) (EInt 28))) ;;
    SSet 77 (EBin OXor u64 (EVar 77) (EVar 62)) ;;
    SSet 48 (EBin OXor u64 (EBin OShl u64 (EVar 77) (EInt 10)) (EBin OShr u64 (EVar 77) (EInt 54))) ;;
    SSet 83 (EBin OXor u64 (EVar 83) (EVar 63)) ;;
    SSet 49 (EBin OXor u64 (EBin OShl u64 (EVar 83) (EInt 15)) (EBin OShr u64 (EVar 83) (EInt 49))) ;;
    SSet 89 (EBin OXor u64 (EVar 89) (EVar 64)) ;;
    SSet 50 (EBin OXor u64 (EBin OShl u64 (EVar 89) (EInt 56)) (EBin OShr u64 (EVar 89) (EInt 8))) ;;
    SSet 21 (EBin OXor u64 (EVar 46) (EBin OAnd u64 (EUn ONot u64 (EVar 47)) (EVar 48))) ;;
    SSet 56 (EBin OXor u64 (EVar 56) (EVar 21)) ;;
    SSet 22 (EBin OXor u64 (EVar 47) (EBin OAnd u64 (EUn ONot u64 (EVar 48)) (EVar 49))) ;;
    SSet 57 (EBin OXor u64 (EVar 57) (EVar 22)) ;;
    SSet 23 (EBin OXor u64 (EVar 48) (EBin OAnd u64 (EUn ONot u64 (EVar 49)) (EVar 50))) ;;
    SSet 58 (EBin OXor u64 (EVar 58) (EVar 23)) ;;
    SSet 24 (EBin OXor u64 (EVar 49) (EBin OAnd u64 (EUn ONot u64 (EVar 50)) (EVar 46))) ;;
    SSet 59 (EBin OXor u64 (EVar 59) (EVar 24)) ;;
    SSet 25 (EBin OXor u64 (EVar 50) (EBin OAnd u64 (EUn ONot u64 (EVar 46)) (EVar 47))) ;;
    SSet 60 (EBin OXor u64 (EVar 60) (EVar 25)) ;;
    SSet 68 (EBin OXor u64 (EVar 68) (EVar 63)) ;;
    SSet 51 (EBin OXor u64 (EBin OShl u64 (EVar 68) (EInt 62)) (EBin OShr u64 (EVar 68) (EInt 2))) ;;
    SSet 74 (EBin OXor u64 (EVar 74) (EVar 64)) ;;
    SSet 52 (EBin OXor u64 (EBin OShl u64 (EVar 74) (EInt 55)) (EBin OShr u64 (EVar 74) (EInt 9))) ;;
    SSet 80 (EBin OXor u64 (EVar 80) (EVar 65)) ;;
    SSet 53 (EBin OXor u64 (EBin OShl u64 (EVar 80) (EInt 39)) (EBin OShr u64 (EVar 80) (EInt 25))) ;;
    SSet 81 (EBin OXor u64 (EVar 81) (EVar 61)) ;;
    SSet 54 (EBin OXor u64 (EBin OShl u64 (EVar 81) (EInt 41)) (EBin OShr u64 (EVar 81) (EInt 23))) ;;
    SSet 87 (EBin OXor u64 (EVar 87) (EVar 62)) ;;
    SSet 55 (EBin OXor u64 (EBin OShl u64 (EVar 87) (EInt 2)) (EBin OShr u64 (EVar 87) (EInt 62))) ;;
    SSet 26 (EBin OXor u64 (EVar 51) (EBin OAnd u64 (EUn ONot u64 (EVar 52)) (EVar 53)))) ;;
    (
    SSet 56 (EBin OXor u64 (EVar 56) (EVar 26)) ;;
    SSet 27 (EBin OXor u64 (EVar 52) (EBin OAnd u64 (EUn ONot u64 (EVar 53)) (EVar 54))) ;;
    SSet 57 (EBin OXor u64 (EVar 57) (EVar 27)) ;;
    SSet 28 (EBin OXor u64 (EVar 53) (EBin OAnd u64 (EUn ONot u64 (EVar 54)) (EVar 55))) ;;
    SSet 58 (EBin OXor u64 (EVar 58) (EVar 28)) ;;
    SSet 29 (EBin OXor u64 (EVar 54) (EBin OAnd u64 (EUn ONot u64 (EVar 55)) (EVar 51))) ;;
    SSet 59 (EBin OXor u64 (EVar 59) (EVar 29)) ;;
    SSet 30 (EBin OXor u64 (EVar 55) (EBin OAnd u64 (EUn ONot u64 (EVar 51)) (EVar 52))) ;;
    SSet 60 (EBin OXor u64 (EVar 60) (EVar 30)) ;;
    SSet 61 (EBin OXor u64 (EVar 60) (EBin OXor u64 (EBin OShl u64 (EVar 57) (EInt 1)) (EBin OShr u64 (EVar 57) (EInt 63)))) ;;
    SSet 62 (EBin OXor u64 (EVar 56) (EBin OXor u64 (EBin OShl u64 (EVar 58) (EInt 1)) (EBin OShr u64 (EVar 58) (EInt 63)))) ;;
    SSet 63 (EBin OXor u64 (EVar 57) (EBin OXor u64 (EBin OShl u64 (EVar 59) (EInt 1)) (EBin OShr u64 (EVar 59) (EInt 63)))) ;;
    SSet 64 (EBin OXor u64 (EVar 58) (EBin OXor u64 (EBin OShl u64 (EVar 60) (EInt 1)) (EBin OShr u64 (EVar 60) (EInt 63)))) ;;
    SSet 65 (EBin OXor u64 (EVar 59) (EBin OXor u64 (EBin OShl u64 (EVar 56) (EInt 1)) (EBin OShr u64 (EVar 56) (EInt 63)))) ;;
    SSet 6 (EBin OXor u64 (EVar 6) (EVar 61)) ;;
    SSet 31 (EVar 6) ;;
    SSet 12 (EBin OXor u64 (EVar 12) (EVar 62)) ;;
    SSet 32 (EBin OXor u64 (EBin OShl u64 (EVar 12) (EInt 44)) (EBin OShr u64 (EVar 12) (EInt 20))) ;;
    SSet 18 (EBin OXor u64 (EVar 18) (EVar 63)) ;;
    SSet 33 (EBin OXor u64 (EBin OShl u64 (EVar 18) (EInt 43)) (EBin OShr u64 (EVar 18) (EInt 21))) ;;
    SSet 24 (EBin OXor u64 (EVar 24) (EVar 64)) ;;
    SSet 34 (EBin OXor u64 (EBin OShl u64 (EVar 24) (EInt 21)) (EBin OShr u64 (EVar 24) (EInt 43))) ;;
    SSet 30 (EBin OXor u64 (EVar 30) (EVar 65)) ;;
    SSet 35 (EBin OXor u64 (EBin OShl u64 (EVar 30) (EInt 14)) (EBin OShr u64 (EVar 30) (EInt 50))) ;;
    SSet 66 (EBin OXor u64 (EVar 31) (EBin OAnd u64 (EUn ONot u64 (EVar 32)) (EVar 33))) ;;
    SSet 66 (EBin OXor u64 (EVar 66) (ELoad 8 (EAt (EGlob 1) 8 (EInt 22)))) ;;
    SSet 56 (EVar 66) ;;
    SSet 67 (EBin OXor u64 (EVar 32) (EBin OAnd u64 (EUn ONot u64 (EVar 33)) (EVar 34))) ;;
    SSet 57 (EVar 67) ;;
    SSet 68 (EBin OXor u64 (EVar 33) (EBin OAnd u64 (EUn ONot u64 (EVar 34)) (EVar 35))) ;;
    SSet 58 (EVar 68) ;;
    SSet 69 (EBin OXor u64 (EVar 34) (EBin OAnd u64 (EUn ONot u64 (EVar 35)) (EVar 31))) ;;
    SSet 59 (EVar 69) ;;
    SSet 70 (EBin OXor u64 (EVar 35) (EBin OAnd u64 (EUn ONot u64 (EVar 31)) (EVar 32))) ;;
    SSet 60 (EVar 70) ;;
    SSet 9 (EBin OXor u64 (EVar 9) (EVar 64)) ;;
    SSet 36 (EBin OXor u64 (EBin OShl u64 (EVar 9) (EInt 28)) (EBin OShr u64 (EVar 9) (EInt 36))) ;;
    SSet 15 (EBin OXor u64 (EVar 15) (EVar 65)) ;;
    SSet 37 (EBin OXor u64 (EBin OShl u64 (EVar 15) (EInt 20)) (EBin OShr u64 (EVar 15) (EInt 44))) ;;
    SSet 16 (EBin OXor u64 (EVar 16) (EVar 61))))) ;;
    (
    (
    (
    SSet 38 (EBin OXor u64 (EBin OShl u64 (EVar 16) (EInt 3)) (EBin OShr u64 (EVar 16) (EInt 61))) ;;
    SSet 22 (EBin OXor u64 (EVar 22) (EVar 62)) ;;
    SSet 39 (EBin OXor u64 (EBin OShl u64 (EVar 22) (EInt 45)) (EBin OShr u64 (EVar 22) (EInt 19))) ;;
    SSet 28 (EBin OXor u64 (EVar 28) (EVar 63)) ;;
    SSet 40 (EBin OXor u64 (EBin OShl u64 (EVar 28) (EInt 61)) (EBin OShr u64 (EVar 28) (EInt 3))) ;;
    SSet 71 (EBin OXor u64 (EVar 36) (EBin OAnd u64 (EUn ONot u64 (EVar 37)) (EVar 38))) ;;
    SSet 56 (EBin OXor u64 (EVar 56) (EVar 71)) ;;
    SSet 72 (EBin OXor u64 (EVar 37) (EBin OAnd u64 (EUn ONot u64 (EVar 38)) (EVar 39))) ;;
    SSet 57 (EBin OXor u64 (EVar 57) (EVar 72)) ;;
    SSet 73 (EBin OXor u64 (EVar 38) (EBin OAnd u64 (EUn ONot u64 (EVar 39)) (EVar 40))) ;;
    SSet 58 (EBin OXor u64 (EVar 58) (EVar 73)) ;;
    SSet 74 (EBin OXor u64 (EVar 39) (EBin OAnd u64 (EUn ONot u64 (EVar 40)) (EVar 36))) ;;
    SSet 59 (EBin OXor u64 (EVar 59) (EVar 74)) ;;
    SSet 75 (EBin OXor u64 (EVar 40) (EBin OAnd u64 (EUn ONot u64 (EVar 36)) (EVar 37))) ;;
    SSet 60 (EBin OXor u64 (EVar 60) (EVar 75)) ;;
    SSet 7 (EBin OXor u64 (EVar 7) (EVar 62)) ;;
    SSet 41 (EBin OXor u64 (EBin OShl u64 (EVar 7) (EInt 1)) (EBin OShr u64 (EVar 7) (EInt 63))) ;;
    SSet 13 (EBin OXor u64 (EVar 13) (EVar 63)) ;;
    SSet 42 (EBin OXor u64 (EBin OShl u64 (EVar 13) (EInt 6)) (EBin OShr u64 (EVar 13) (EInt 58))) ;;
    SSet 19 (EBin OXor u64 (EVar 19) (EVar 64)) ;;
    SSet 43 (EBin OXor u64 (EBin OShl u64 (EVar 19) (EInt 25)) (EBin OShr u64 (EVar 19) (EInt 39))) ;;
    SSet 25 (EBin OXor u64 (EVar 25) (EVar 65)) ;;
    SSet 44 (EBin OXor u64 (EBin OShl u64 (EVar 25) (EInt 8)) (EBin OShr u64 (EVar 25) (EInt 56))) ;;
    SSet 26 (EBin OXor u64 (EVar 26) (EVar 61)) ;;
    SSet 45 (EBin OXor u64 (EBin OShl u64 (EVar 26) (EInt 18)) (EBin OShr u64 (EVar 26) (EInt 46))) ;;
    SSet 76 (EBin OXor u64 (EVar 41) (EBin OAnd u64 (EUn ONot u64 (EVar 42)) (EVar 43))) ;;
    SSet 56 (EBin OXor u64 (EVar 56) (EVar 76)) ;;
    SSet 77 (EBin OXor u64 (EVar 42) (EBin OAnd u64 (EUn ONot u64 (EVar 43)) (EVar 44))) ;;
    SSet 57 (EBin OXor u64 (EVar 57) (EVar 77)) ;;
    SSet 78 (EBin OXor u64 (EVar 43) (EBin OAnd u64 (EUn ONot u64 (EVar 44)) (EVar 45))) ;;
    SSet 58 (EBin OXor u64 (EVar 58) (EVar 78)) ;;
    SSet 79 (EBin OXor u64 (EVar 44) (EBin OAnd u64 (EUn ONot u64 (EVar 45)) (EVar 41))) ;;
    SSet 59 (EBin OXor u64 (EVar 59) (EVar 79)) ;;
    SSet 80 (EBin OXor u64 (EVar 45) (EBin OAnd u64 (EUn ONot u64 (EVar 41)) (EVar 42))) ;;
    SSet 60 (EBin OXor u64 (EVar 60) (EVar 80)) ;;
    SSet 10 (EBin OXor u64 (EVar 10) (EVar 65)) ;;
    SSet 46 (EBin OXor u64 (EBin OShl u64 (EVar 10) (EInt 27)) (EBin OShr u64 (EVar 10) (EInt 37))) ;;
    SSet 11 (EBin OXor u64 (EVar 11) (EVar 61)) ;;
    SSet 47 (EBin OXor u64 (EBin OShl u64 (EVar 11) (EInt 36)) (EBin OShr u64 (EVar 11) (EInt 28)))) ;;
    (
    SSet 17 (EBin OXor u64 (EVar 17) (EVar 62)) ;;
    SSet 48 (EBin OXor u64 (EBin OShl u64 (EVar 17) (EInt 10)) (EBin OShr u64 (EVar 17) (EInt 54))) ;;
    SSet 23 (EBin OXor u64 (EVar 23) (EVar 63)) ;;
    SSet 49 (EBin OXor u64 (EBin OShl u64 (EVar 23) (EInt 15)) (EBin OShr u64 (EVar 23) (EInt 49))) ;;
    SSet 29 (EBin OXor u64 (EVar 29) (EVar 64)) ;;
    SSet 50 (EBin OXor u64 (EBin OShl u64 (EVar 29) (EInt 56)) (EBin OShr u64 (EVar 29) (EInt 8))) ;;
    SSet 81 (EBin OXor u64 (EVar 46) (EBin OAnd u64 (EUn ONot u64 (EVar 47)) (EVar 48))) ;;
    SSet 56 (EBin OXor u64 (EVar 56) (EVar 81)) ;;
    SSet 82 (EBin OXor u64 (EVar 47) (EBin OAnd u64 (EUn ONot u64 (EVar 48)) (EVar 49))) ;;
    SSet 57 (EBin OXor u64 (EVar 57) (EVar 82)) ;;
    SSet 83 (EBin OXor u64 (EVar 48) (EBin OAnd u64 (EUn ONot u64 (EVar 49)) (EVar 50))) ;;
    SSet 58 (EBin OXor u64 (EVar 58) (EVar 83)) ;;
    SSet 84 (EBin OXor u64 (EVar 49) (EBin OAnd u64 (EUn ONot u64 (EVar 50)) (EVar 46))) ;;
    SSet 59 (EBin OXor u64 (EVar 59) (EVar 84)) ;;
    SSet 85 (EBin OXor u64 (EVar 50) (EBin OAnd u64 (EUn ONot u64 (EVar 46)) (EVar 47))) ;;
    SSet 60 (EBin OXor u64 (EVar 60) (EVar 85)) ;;
    SSet 8 (EBin OXor u64 (EVar 8) (EVar 63)) ;;
    SSet 51 (EBin OXor u64 (EBin OShl u64 (EVar 8) (EInt 62)) (EBin OShr u64 (EVar 8) (EInt 2))) ;;
    SSet 14 (EBin OXor u64 (EVar 14) (EVar 64)) ;;
    SSet 52 (EBin OXor u64 (EBin OShl u64 (EVar 14) (EInt 55)) (EBin OShr u64 (EVar 14) (EInt 9))) ;;
    SSet 20 (EBin OXor u64 (EVar 20) (EVar 65)) ;;
    SSet 53 (EBin OXor u64 (EBin OShl u64 (EVar 20) (EInt 39)) (EBin OShr u64 (EVar 20) (EInt 25))) ;;
    SSet 21 (EBin OXor u64 (EVar 21) (EVar 61)) ;;
    SSet 54 (EBin OXor u64 (EBin OShl u64 (EVar 21) (EInt 41)) (EBin OShr u64 (EVar 21) (EInt 23))) ;;
    SSet 27 (EBin OXor u64 (EVar 27) (EVar 62)) ;;
    SSet 55 (EBin OXor u64 (EBin OShl u64 (EVar 27) (EInt 2)) (EBin OShr u64 (EVar 27) (EInt 62))) ;;
    SSet 86 (EBin OXor u64 (EVar 51) (EBin OAnd u64 (EUn ONot u64 (EVar 52)) (EVar 53))) ;;
    SSet 56 (EBin OXor u64 (EVar 56) (EVar 86)) ;;
    SSet 87 (EBin OXor u64 (EVar 52) (EBin OAnd u64 (EUn ONot u64 (EVar 53)) (EVar 54))) ;;
    SSet 57 (EBin OXor u64 (EVar 57) (EVar 87)) ;;
    SSet 88 (EBin OXor u64 (EVar 53) (EBin OAnd u64 (EUn ONot u64 (EVar 54)) (EVar 55))) ;;
    SSet 58 (EBin OXor u64 (EVar 58) (EVar 88)) ;;
    SSet 89 (EBin OXor u64 (EVar 54) (EBin OAnd u64 (EUn ONot u64 (EVar 55)) (EVar 51))) ;;
    SSet 59 (EBin OXor u64 (EVar 59) (EVar 89)) ;;
    SSet 90 (EBin OXor u64 (EVar 55) (EBin OAnd u64 (EUn ONot u64 (EVar 51)) (EVar 52))) ;;
    SSet 60 (EBin OXor u64 (EVar 60) (EVar 90)) ;;
    SSet 61 (EBin OXor u64 (EVar 60) (EBin OXor u64 (EBin OShl u64 (EVar 57) (EInt 1)) (EBin OShr u64 (EVar 57) (EInt 63)))) ;;
    SSet 62 (EBin OXor u64 (EVar 56) (EBin OXor u64 (EBin OShl u64 (EVar 58) (EInt 1)) (EBin OShr u64 (EVar 58) (EInt 63)))) ;;
    SSet 63 (EBin OXor u64 (EVar 57) (EBin OXor u64 (EBin OShl u64 (EVar 59) (EInt 1)) (EBin OShr u64 (EVar 59) (EInt 63)))) ;;
    SSet 64 (EBin OXor u64 (EVar 58) (EBin OXor u64 (EBin OShl u64 (EVar 60) (EInt 1)) (EBin OShr u64 (EVar 60) (EInt 63)))))) ;;
    (
    (
    SSet 65 (EBin OXor u64 (EVar 59) (EBin OXor u64 (EBin OShl u64 (EVar 56) (EInt 1)) (EBin OShr u64 (EVar 56) (EInt 63)))) ;;
    SSet 66 (EBin OXor u64 (EVar 66) (EVar 61)) ;;
    SSet 31 (EVar 66) ;;
    SSet 72 (EBin OXor u64 (EVar 72) (EVar 62)) ;;
    SSet 32 (EBin OXor u64 (EBin OShl u64 (EVar 72) (EInt 44)) (EBin OShr u64 (EVar 72) (EInt 20))) ;;
    SSet 78 (EBin OXor u64 (EVar 78) (EVar 63)) ;;
    SSet 33 (EBin OXor u64 (EBin OShl u64 (EVar 78) (EInt 43)) (EBin OShr u64 (EVar 78) (EInt 21))) ;;
    SSet 84 (EBin OXor u64 (EVar 84) (EVar 64)) ;;
    SSet 34 (EBin OXor u64 (EBin OShl u64 (EVar 84) (EInt 21)) (EBin OShr u64 (EVar 84) (EInt 43))) ;;
    SSet 90 (EBin OXor u64 (EVar 90) (EVar 65)) ;;
    SSet 35 (EBin OXor u64 (EBin OShl u64 (EVar 90) (EInt 14)) (EBin OShr u64 (EVar 90) (EInt 50))) ;;
    SSet 6 (EBin OXor u64 (EVar 31) (EBin OAnd u64 (EUn ONot u64 (EVar 32)) (EVar 33))) ;;
    SSet 6 (EBin OXor u64 (EVar 6) (ELoad 8 (EAt (EGlob 1) 8 (EInt 23)))) ;;
    SSet 7 (EBin OXor u64 (EVar 32) (EBin OAnd u64 (EUn ONot u64 (EVar 33)) (EVar 34))) ;;
    SSet 8 (EBin OXor u64 (EVar 33) (EBin OAnd u64 (EUn ONot u64 (EVar 34)) (EVar 35))) ;;
    SSet 9 (EBin OXor u64 (EVar 34) (EBin OAnd u64 (EUn ONot u64 (EVar 35)) (EVar 31))) ;;
    SSet 10 (EBin OXor u64 (EVar 35) (EBin OAnd u64 (EUn ONot u64 (EVar 31)) (EVar 32))) ;;
    SSet 69 (EBin OXor u64 (EVar 69) (EVar 64)) ;;
    SSet 36 (EBin OXor u64 (EBin OShl u64 (EVar 69) (EInt 28)) (EBin OShr u64 (EVar 69) (EInt 36))) ;;
    SSet 75 (EBin OXor u64 (EVar 75) (EVar 65)) ;;
    SSet 37 (EBin OXor u64 (EBin OShl u64 (EVar 75) (EInt 20)) (EBin OShr u64 (EVar 75) (EInt 44))) ;;
    SSet 76 (EBin OXor u64 (EVar 76) (EVar 61)) ;;
    SSet 38 (EBin OXor u64 (EBin OShl u64 (EVar 76) (EInt 3)) (EBin OShr u64 (EVar 76) (EInt 61))) ;;
    SSet 82 (EBin OXor u64 (EVar 82) (EVar 62)) ;;
    SSet 39 (EBin OXor u64 (EBin OShl u64 (EVar 82) (EInt 45)) (EBin OShr u64 (EVar 82) (EInt 19))) ;;
    SSet 88 (EBin OXor u64 (EVar 88) (EVar 63)) ;;
    SSet 40 (EBin OXor u64 (EBin OShl u64 (EVar 88) (EInt 61)) (EBin OShr u64 (EVar 88) (EInt 3))) ;;
    SSet 11 (EBin OXor u64 (EVar 36) (EBin OAnd u64 (EUn ONot u64 (EVar 37)) (EVar 38))) ;;
    SSet 12 (EBin OXor u64 (EVar 37) (EBin OAnd u64 (EUn ONot u64 (EVar 38)) (EVar 39))) ;;
    SSet 13 (EBin OXor u64 (EVar 38) (EBin OAnd u64 (EUn ONot u64 (EVar 39)) (EVar 40))) ;;
    SSet 14 (EBin OXor u64 (EVar 39) (EBin OAnd u64 (EUn ONot u64 (EVar 40)) (EVar 36))) ;;
    SSet 15 (EBin OXor u64 (EVar 40) (EBin OAnd u64 (EUn ONot u64 (EVar 36)) (EVar 37))) ;;
    SSet 67 (EBin OXor u64 (EVar 67) (EVar 62)) ;;
    SSet 41 (EBin OXor u64 (EBin OShl u64 (EVar 67) (EInt 1)) (EBin OShr u64 (EVar 67) (EInt 63))) ;;
    SSet 73 (EBin OXor u64 (EVar 73) (EVar 63)) ;;
    SSet 42 (EBin OXor u64 (EBin OShl u64 (EVar 73) (EInt 6)) (EBin OShr u64 (EVar 73) (EInt 58))) ;;
    SSet 79 (EBin OXor u64 (EVar 79) (EVar 64)) ;;
    SSet 43 (EBin OXor u64 (EBin OShl u64 (EVar 79) (EInt 25)) (EBin OShr u64 (EVar 79) (EInt 39))) ;;
    SSet 85 (EBin OXor u64 (EVar 85) (EVar 65))) ;;
    (
    SSet 44 (EBin OXor u64 (EBin OShl u64 (EVar 85) (EInt 8)) (EBin OShr u64 (EVar 85) (EInt 56))) ;;
    SSet 86 (EBin OXor u64 (EVar 86) (EVar 61)) ;;
    SSet 45 (EBin OXor u64 (EBin OShl u64 (EVar 86) (EInt 18)) (EBin OShr u64 (EVar 86) (EInt 46))) ;;
    SSet 16 (EBin OXor u64 (EVar 41) (EBin OAnd u64 (EUn ONot u64 (EVar 42)) (EVar 43))) ;;
    SSet 17 (EBin OXor u64 (EVar 42) (EBin OAnd u64 (EUn ONot u64 (EVar 43)) (EVar 44))) ;;
    SSet 18 (EBin OXor u64 (EVar 43) (EBin OAnd u64 (EUn ONot u64 (EVar 44)) (EVar 45))) ;;
    SSet 19 (EBin OXor u64 (EVar 44) (EBin OAnd u64 (EUn ONot u64 (EVar 45)) (EVar 41))) ;;
    SSet 20 (EBin OXor u64 (EVar 45) (EBin OAnd u64 (EUn ONot u64 (EVar 41)) (EVar 42))) ;;
    SSet 70 (EBin OXor u64 (EVar 70) (EVar 65)) ;;
    SSet 46 (EBin OXor u64 (EBin OShl u64 (EVar 70) (EInt 27)) (EBin OShr u64 (EVar 70) (EInt 37))) ;;
    SSet 71 (EBin OXor u64 (EVar 71) (EVar 61)) ;;
    SSet 47 (EBin OXor u64 (EBin OShl u64 (EVar 71) (EInt 36)) (EBin OShr u64 (EVar 71) (EInt 28))) ;;
    SSet 77 (EBin OXor u64 (EVar 77) (EVar 62)) ;;
    SSet 48 (EBin OXor u64 (EBin OShl u64 (EVar 77) (EInt 10)) (EBin OShr u64 (EVar 77) (EInt 54))) ;;
    SSet 83 (EBin OXor u64 (EVar 83) (EVar 63)) ;;
    SSet 49 (EBin OXor u64 (EBin OShl u64 (EVar 83) (EInt 15)) (EBin OShr u64 (EVar 83) (EInt 49))) ;;
    SSet 89 (EBin OXor u64 (EVar 89) (EVar 64)) ;;
    SSet 50 (EBin OXor u64 (EBin OShl u64 (EVar 89) (EInt 56)) (EBin OShr u64 (EVar 89) (EInt 8))) ;;
    SSet 21 (EBin OXor u64 (EVar 46) (EBin OAnd u64 (EUn ONot u64 (EVar 47)) (EVar 48))) ;;
    SSet 22 (EBin OXor u64 (EVar 47) (EBin OAnd u64 (EUn ONot u64 (EVar 48)) (EVar 49))) ;;
    SSet 23 (EBin OXor u64 (EVar 48) (EBin OAnd u64 (EUn ONot u64 (EVar 49)) (EVar 50))) ;;
    SSet 24 (EBin OXor u64 (EVar 49) (EBin OAnd u64 (EUn ONot u64 (EVar 50)) (EVar 46))) ;;
    SSet 25 (EBin OXor u64 (EVar 50) (EBin OAnd u64 (EUn ONot u64 (EVar 46)) (EVar 47))) ;;
    SSet 68 (EBin OXor u64 (EVar 68) (EVar 63)) ;;
    SSet 51 (EBin OXor u64 (EBin OShl u64 (EVar 68) (EInt 62)) (EBin OShr u64 (EVar 68) (EInt 2))) ;;
    SSet 74 (EBin OXor u64 (EVar 74) (EVar 64)) ;;
    SSet 52 (EBin OXor u64 (EBin OShl u64 (EVar 74) (EInt 55)) (EBin OShr u64 (EVar 74) (EInt 9))) ;;
    SSet 80 (EBin OXor u64 (EVar 80) (EVar 65)) ;;
    SSet 53 (EBin OXor u64 (EBin OShl u64 (EVar 80) (EInt 39)) (EBin OShr u64 (EVar 80) (EInt 25))) ;;
    SSet 81 (EBin OXor u64 (EVar 81) (EVar 61)) ;;
    SSet 54 (EBin OXor u64 (EBin OShl u64 (EVar 81) (EInt 41)) (EBin OShr u64 (EVar 81) (EInt 23))) ;;
    SSet 87 (EBin OXor u64 (EVar 87) (EVar 62)) ;;
    SSet 55 (EBin OXor u64 (EBin OShl u64 (EVar 87) (EInt 2)) (EBin OShr u64 (EVar 87) (EInt 62))) ;;
    SSet 26 (EBin OXor u64 (EVar 51) (EBin OAnd u64 (EUn ONot u64 (EVar 52)) (EVar 53))) ;;
    SSet 27 (EBin OXor u64 (EVar 52) (EBin OAnd u64 (EUn ONot u64 (EVar 53)) (EVar 54))) ;;
    SSet 28 (EBin OXor u64 (EVar 53) (EBin OAnd u64 (EUn ONot u64 (EVar 54)) (EVar 55))) ;;
    SSet 29 (EBin OXor u64 (EVar 54) (EBin OAnd u64 (EUn ONot u64 (EVar 55)) (EVar 51))) ;;
    SSet 30 (EBin OXor u64 (EVar 55) (EBin OAnd u64 (EUn ONot u64 (EVar 51)) (EVar 52))) ;;
    SSet 92 (EAt (EVar 92) 8 (EVar 2)) ;;
    SSet 4 (EBin OSub u64 (EVar 4) (EBin OMul u32 (EVar 2) (EInt 8)))))))))) ;;
  SStore 8 (EVar 91) (EVar 6) ;;
  SStore 8 (EAt (EVar 91) 8 (EInt 1)) (EVar 7) ;;
  SStore 8 (EAt (EVar 91) 8 (EInt 2)) (EVar 8) ;;
  SStore 8 (EAt (EVar 91) 8 (EInt 3)) (EVar 9) ;;
  SStore 8 (EAt (EVar 91) 8 (EInt 4)) (EVar 10) ;;
  SStore 8 (EAt (EVar 91) 8 (EInt 5)) (EVar 11) ;;
  SStore 8 (EAt (EVar 91) 8 (EInt 6)) (EVar 12) ;;
  SStore 8 (EAt (EVar 91) 8 (EInt 7)) (EVar 13) ;;
  SStore 8 (EAt (EVar 91) 8 (EInt 8)) (EVar 14) ;;
  SStore 8 (EAt (EVar 91) 8 (EInt 9)) (EVar 15) ;;
  SStore 8 (EAt (EVar 91) 8 (EInt 10)) (EVar 16) ;;
  SStore 8 (EAt (EVar 91) 8 (EInt 11)) (EVar 17) ;;
  SStore 8 (EAt (EVar 91) 8 (EInt 12)) (EVar 18) ;;
  SStore 8 (EAt (EVar 91) 8 (EInt 13)) (EVar 19) ;;
  SStore 8 (EAt (EVar 91) 8 (EInt 14)) (EVar 20) ;;
  SStore 8 (EAt (EVar 91) 8 (EInt 15)) (EVar 21) ;;
  SStore 8 (EAt (EVar 91) 8 (EInt 16)) (EVar 22) ;;
  SStore 8 (EAt (EVar 91) 8 (EInt 17)) (EVar 23) ;;
  SStore 8 (EAt (EVar 91) 8 (EInt 18)) (EVar 24) ;;
  SStore 8 (EAt (EVar 91) 8 (EInt 19)) (EVar 25) ;;
  SStore 8 (EAt (EVar 91) 8 (EInt 20)) (EVar 26) ;;
  SStore 8 (EAt (EVar 91) 8 (EInt 21)) (EVar 27) ;;
  SStore 8 (EAt (EVar 91) 8 (EInt 22)) (EVar 28) ;;
  SStore 8 (EAt (EVar 91) 8 (EInt 23)) (EVar 29) ;;
  SStore 8 (EAt (EVar 91) 8 (EInt 24)) (EVar 30) ;;
  SReturn (EBin OSub u64 (EVar 5) (EVar 4)))).

