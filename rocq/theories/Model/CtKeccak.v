(** Generated by tools/ctc/c2v.py from the sources in /repo; see DESIGN.md. *)
From Coq Require Import ZArith List.
From Verif Require Import Model.CtLang Model.CtNames.
Import ListNotations.
Local Open Scope Z_scope.

(** /repo/hash_shake.h:212-218, hash_init.
    Variables: 1 = ctx, 2 = security_param. *)
Definition c_hash_init : func := Func [1%positive; 2%positive] (
  SIf (EBin OEq s32 (EVar 2) (EInt 128))
    (
    SCall None f_Keccak_HashInitialize [(EVar 1); (EInt 1344); (EInt 256); (EInt 0); (EInt 31)])
    (
    SCall None f_Keccak_HashInitialize [(EVar 1); (EInt 1088); (EInt 512); (EInt 0); (EInt 31)])).

(** /repo/hash_shake.h:220-222, hash_update.
    Variables: 1 = ctx, 2 = data, 3 = size. *)
Definition c_hash_update : func := Func [1%positive; 2%positive; 3%positive] (
  SCall None f_Keccak_HashUpdate [(EVar 1); (EVar 2); (EBin OShl u64 (EVar 3) (EInt 3))]).

(** /repo/hash_shake.h:224-226, hash_final.
    Variables: 1 = ctx. *)
Definition c_hash_final : func := Func [1%positive] (
  SCall None f_Keccak_HashFinal [(EVar 1); ENull]).

(** /repo/hash_shake.h:228-230, hash_squeeze.
    Variables: 1 = ctx, 2 = buffer, 3 = buflen. *)
Definition c_hash_squeeze : func := Func [1%positive; 2%positive; 3%positive] (
  SCall None f_Keccak_HashSqueeze [(EVar 1); (EVar 2); (EBin OShl u64 (EVar 3) (EInt 3))]).

(** /repo/hash_shake.h:250-256, hash_init_x4.
    Variables: 1 = ctx, 2 = security_param. *)
Definition c_hash_init_x4 : func := Func [1%positive; 2%positive] (
  SIf (EBin OEq s32 (EVar 2) (EInt 128))
    (
    SCall None f_Keccak_HashInitializetimes4 [(EVar 1); (EInt 1344); (EInt 256); (EInt 0); (EInt 31)])
    (
    SCall None f_Keccak_HashInitializetimes4 [(EVar 1); (EInt 1088); (EInt 512); (EInt 0); (EInt 31)])).

(** /repo/hash_shake.h:258-260, hash_update_x4.
    Variables: 1 = ctx, 2 = data, 3 = size. *)
Definition c_hash_update_x4 : func := Func [1%positive; 2%positive; 3%positive] (
  SCall None f_Keccak_HashUpdatetimes4 [(EVar 1); (EVar 2); (EBin OShl u64 (EVar 3) (EInt 3))]).

(** /repo/hash_shake.h:262-267, hash_update_x4_4.
    Variables: 1 = ctx, 2 = data0, 3 = data1, 4 = data2, 5 = data3, 6 = size, 7 = data. *)
Definition c_hash_update_x4_4 : func := Func [1%positive; 2%positive; 3%positive; 4%positive; 5%positive; 6%positive] (
  SAlloc 7 (EInt 4) ;;
  SStoreP (EVar 7) (EVar 2) ;;
  SStoreP (EAt (EVar 7) 1 (EInt 1)) (EVar 3) ;;
  SStoreP (EAt (EVar 7) 1 (EInt 2)) (EVar 4) ;;
  SStoreP (EAt (EVar 7) 1 (EInt 3)) (EVar 5) ;;
  SCall None f_hash_update_x4 [(EVar 1); (EVar 7); (EVar 6)]).

(** /repo/hash_shake.h:269-272, hash_update_x4_1.
    Variables: 1 = ctx, 2 = data, 3 = size, 4 = tmp. *)
Definition c_hash_update_x4_1 : func := Func [1%positive; 2%positive; 3%positive] (
  SAlloc 4 (EInt 4) ;;
  SStoreP (EVar 4) (EVar 2) ;;
  SStoreP (EAt (EVar 4) 1 (EInt 1)) (EVar 2) ;;
  SStoreP (EAt (EVar 4) 1 (EInt 2)) (EVar 2) ;;
  SStoreP (EAt (EVar 4) 1 (EInt 3)) (EVar 2) ;;
  SCall None f_hash_update_x4 [(EVar 1); (EVar 4); (EVar 3)]).

(** /repo/hash_shake.h:280-282, hash_final_x4.
    Variables: 1 = ctx. *)
Definition c_hash_final_x4 : func := Func [1%positive] (
  SCall None f_Keccak_HashFinaltimes4 [(EVar 1); ENull]).

(** /repo/hash_shake.h:284-286, hash_squeeze_x4.
    Variables: 1 = ctx, 2 = buffer, 3 = buflen. *)
Definition c_hash_squeeze_x4 : func := Func [1%positive; 2%positive; 3%positive] (
  SCall None f_Keccak_HashSqueezetimes4 [(EVar 1); (EVar 2); (EBin OShl u64 (EVar 3) (EInt 3))]).

(** /repo/hash_shake.h:288-292, hash_squeeze_x4_4.
    Variables: 1 = ctx, 2 = buffer0, 3 = buffer1, 4 = buffer2, 5 = buffer3, 6 = buflen, 7 = buffer. *)
Definition c_hash_squeeze_x4_4 : func := Func [1%positive; 2%positive; 3%positive; 4%positive; 5%positive; 6%positive] (
  SAlloc 7 (EInt 4) ;;
  SStoreP (EVar 7) (EVar 2) ;;
  SStoreP (EAt (EVar 7) 1 (EInt 1)) (EVar 3) ;;
  SStoreP (EAt (EVar 7) 1 (EInt 2)) (EVar 4) ;;
  SStoreP (EAt (EVar 7) 1 (EInt 3)) (EVar 5) ;;
  SCall None f_hash_squeeze_x4 [(EVar 1); (EVar 7); (EVar 6)]).

(** /repo/sha3/KeccakSponge.inc:134-147, KeccakWidth1600_SpongeInitialize.
    Variables: 1 = instance, 2 = rate, 3 = capacity. *)
Definition c_KeccakWidth1600_SpongeInitialize : func := Func [1%positive; 2%positive; 3%positive] (
  SIf (EBin ONe s32 (EBin OAdd u32 (EVar 2) (EVar 3)) (EInt 1600))
    (
    SReturn (EInt 1))
    SSkip ;;
  SIf (ECond (ECond (EBin OLe s32 (EVar 2) (EInt 0)) (EInt 1) (EBin ONe s32 (EBin OGt s32 (EVar 2) (EInt 1600)) (EInt 0))) (EInt 1) (EBin ONe s32 (EBin ONe s32 (EDiv OMod u32 (EVar 2) (EInt 8)) (EInt 0)) (EInt 0)))
    (
    SReturn (EInt 1))
    SSkip ;;
  SCall None f_KeccakP1600_Initialize [(EField (EVar 1) 4 0)] ;;
  SStore 4 (EField (EVar 1) 4 1) (EVar 2) ;;
  SStore 4 (EField (EVar 1) 4 2) (EInt 0) ;;
  SStore 4 (EField (EVar 1) 4 3) (EInt 0) ;;
  SReturn (EInt 0)).

(** /repo/sha3/KeccakSponge.inc:151-208, KeccakWidth1600_SpongeAbsorb.
    Variables: 1 = instance, 2 = data, 3 = dataByteLen, 4 = i, 5 = j, 6 = partialBlock, 7 = curData, 8 = rateInBytes. *)
Definition c_KeccakWidth1600_SpongeAbsorb : func := Func [1%positive; 2%positive; 3%positive] (
  SSet 8 (EDiv ODiv u32 (ELoad 4 (EField (EVar 1) 4 1)) (EInt 8)) ;;
  SIf (EUn OCast s32 (ELoad 4 (EField (EVar 1) 4 3)))
    (
    SReturn (EInt 1))
    SSkip ;;
  SSet 4 (EInt 0) ;;
  SSet 7 (EVar 2) ;;
  SLoop (EBin OLt s32 (EVar 4) (EVar 3))
    SSkip
    (
    SIf (ECond (EBin OEq s32 (ELoad 4 (EField (EVar 1) 4 2)) (EInt 0)) (EBin ONe s32 (EBin OGe s32 (EVar 3) (EBin OAdd u64 (EVar 4) (EVar 8))) (EInt 0)) (EInt 0))
      (
      SIf (EBin OEq s32 (EDiv OMod u32 (EVar 8) (EInt 8)) (EInt 0))
        (
        SCall (Some 9%positive) f_KeccakF1600_FastLoop_Absorb [(EField (EVar 1) 4 0); (EDiv ODiv u32 (EVar 8) (EInt 8)); (EVar 7); (EBin OSub u64 (EVar 3) (EVar 4))] ;;
        SSet 5 (EVar 9) ;;
        SSet 4 (EBin OAdd u64 (EVar 4) (EVar 5)) ;;
        SSet 7 (EAt (EVar 7) 1 (EVar 5)))
        (
        SSet 5 (EBin OSub u64 (EVar 3) (EVar 4)) ;;
        SLoop (EBin OGe s32 (EVar 5) (EVar 8))
          (
          SSet 5 (EBin OSub u64 (EVar 5) (EVar 8)))
          (
          SCall None f_KeccakP1600_AddBytes [(EField (EVar 1) 4 0); (EVar 7); (EInt 0); (EVar 8)] ;;
          SCall None f_KeccakP1600_Permute_24rounds [(EField (EVar 1) 4 0)] ;;
          SSet 7 (EAt (EVar 7) 1 (EVar 8))) ;;
        SSet 4 (EBin OSub u64 (EVar 3) (EVar 5))))
      (
      SSet 6 (EUn OCast u32 (EBin OSub u64 (EVar 3) (EVar 4))) ;;
      SIf (EBin OGt s32 (EBin OAdd u32 (EVar 6) (ELoad 4 (EField (EVar 1) 4 2))) (EVar 8))
        (
        SSet 6 (EBin OSub u32 (EVar 8) (ELoad 4 (EField (EVar 1) 4 2))))
        SSkip ;;
      SSet 4 (EBin OAdd u64 (EVar 4) (EVar 6)) ;;
      SCall None f_KeccakP1600_AddBytes [(EField (EVar 1) 4 0); (EVar 7); (ELoad 4 (EField (EVar 1) 4 2)); (EVar 6)] ;;
      SSet 7 (EAt (EVar 7) 1 (EVar 6)) ;;
      SSet 10 (EField (EVar 1) 4 2) ;;
      SStore 4 (EVar 10) (EBin OAdd u32 (ELoad 4 (EVar 10)) (EVar 6)) ;;
      SIf (EBin OEq s32 (ELoad 4 (EField (EVar 1) 4 2)) (EVar 8))
        (
        SCall None f_KeccakP1600_Permute_24rounds [(EField (EVar 1) 4 0)] ;;
        SStore 4 (EField (EVar 1) 4 2) (EInt 0))
        SSkip)) ;;
  SReturn (EInt 0)).

(** /repo/sha3/KeccakSponge.inc:212-250, KeccakWidth1600_SpongeAbsorbLastFewBits.
    Variables: 1 = instance, 2 = delimitedData, 3 = rateInBytes. *)
Definition c_KeccakWidth1600_SpongeAbsorbLastFewBits : func := Func [1%positive; 2%positive] (
  SSet 3 (EDiv ODiv u32 (ELoad 4 (EField (EVar 1) 4 1)) (EInt 8)) ;;
  SIf (EBin OEq s32 (EVar 2) (EInt 0))
    (
    SReturn (EInt 1))
    SSkip ;;
  SIf (EUn OCast s32 (ELoad 4 (EField (EVar 1) 4 3)))
    (
    SReturn (EInt 1))
    SSkip ;;
  SSet 4 (EAt (EField (EVar 1) 4 0) 1 (ELoad 4 (EField (EVar 1) 4 2))) ;;
  SStore 1 (EVar 4) (EUn OCast u8 (EBin OXor s32 (ELoad 1 (EVar 4)) (EVar 2))) ;;
  SIf (ECond (EBin OGe s32 (EVar 2) (EInt 128)) (EBin ONe s32 (EBin OEq s32 (ELoad 4 (EField (EVar 1) 4 2)) (EBin OSub u32 (EVar 3) (EInt 1))) (EInt 0)) (EInt 0))
    (
    SCall None f_KeccakP1600_Permute_24rounds [(EField (EVar 1) 4 0)])
    SSkip ;;
  SSet 5 (EAt (EField (EVar 1) 4 0) 1 (EBin OSub u32 (EVar 3) (EInt 1))) ;;
  SStore 1 (EVar 5) (EUn OCast u8 (EBin OXor s32 (ELoad 1 (EVar 5)) (EInt 128))) ;;
  SCall None f_KeccakP1600_Permute_24rounds [(EField (EVar 1) 4 0)] ;;
  SStore 4 (EField (EVar 1) 4 2) (EInt 0) ;;
  SStore 4 (EField (EVar 1) 4 3) (EInt 1) ;;
  SReturn (EInt 0)).

(** /repo/sha3/KeccakSponge.inc:254-298, KeccakWidth1600_SpongeSqueeze.
    Variables: 1 = instance, 2 = data, 3 = dataByteLen, 4 = i, 5 = j, 6 = partialBlock, 7 = rateInBytes, 8 = curData. *)
Definition c_KeccakWidth1600_SpongeSqueeze : func := Func [1%positive; 2%positive; 3%positive] (
  SSet 7 (EDiv ODiv u32 (ELoad 4 (EField (EVar 1) 4 1)) (EInt 8)) ;;
  SIf (EUn OLNot s32 (EUn OCast s32 (ELoad 4 (EField (EVar 1) 4 3))))
    (
    SCall None f_KeccakWidth1600_SpongeAbsorbLastFewBits [(EVar 1); (EInt 1)])
    SSkip ;;
  SSet 4 (EInt 0) ;;
  SSet 8 (EVar 2) ;;
  SLoop (EBin OLt s32 (EVar 4) (EVar 3))
    SSkip
    (
    SIf (ECond (EBin OEq s32 (ELoad 4 (EField (EVar 1) 4 2)) (EVar 7)) (EBin ONe s32 (EBin OGe s32 (EVar 3) (EBin OAdd u64 (EVar 4) (EVar 7))) (EInt 0)) (EInt 0))
      (
      SSet 5 (EBin OSub u64 (EVar 3) (EVar 4)) ;;
      SLoop (EBin OGe s32 (EVar 5) (EVar 7))
        (
        SSet 5 (EBin OSub u64 (EVar 5) (EVar 7)))
        (
        SCall None f_KeccakP1600_Permute_24rounds [(EField (EVar 1) 4 0)] ;;
        SCall None f_KeccakP1600_ExtractBytes [(EField (EVar 1) 4 0); (EVar 8); (EInt 0); (EVar 7)] ;;
        SSet 8 (EAt (EVar 8) 1 (EVar 7))) ;;
      SSet 4 (EBin OSub u64 (EVar 3) (EVar 5)))
      (
      SIf (EBin OEq s32 (ELoad 4 (EField (EVar 1) 4 2)) (EVar 7))
        (
        SCall None f_KeccakP1600_Permute_24rounds [(EField (EVar 1) 4 0)] ;;
        SStore 4 (EField (EVar 1) 4 2) (EInt 0))
        SSkip ;;
      SSet 6 (EUn OCast u32 (EBin OSub u64 (EVar 3) (EVar 4))) ;;
      SIf (EBin OGt s32 (EBin OAdd u32 (EVar 6) (ELoad 4 (EField (EVar 1) 4 2))) (EVar 7))
        (
        SSet 6 (EBin OSub u32 (EVar 7) (ELoad 4 (EField (EVar 1) 4 2))))
        SSkip ;;
      SSet 4 (EBin OAdd u64 (EVar 4) (EVar 6)) ;;
      SCall None f_KeccakP1600_ExtractBytes [(EField (EVar 1) 4 0); (EVar 8); (ELoad 4 (EField (EVar 1) 4 2)); (EVar 6)] ;;
      SSet 8 (EAt (EVar 8) 1 (EVar 6)) ;;
      SSet 10 (EField (EVar 1) 4 2) ;;
      SStore 4 (EVar 10) (EBin OAdd u32 (ELoad 4 (EVar 10)) (EVar 6)))) ;;
  SReturn (EInt 0)).

(** /repo/sha3/KeccakSpongetimes4.inc:38-51, KeccakWidth1600times4_SpongeInitialize.
    Variables: 1 = instance, 2 = rate, 3 = capacity. *)
Definition c_KeccakWidth1600times4_SpongeInitialize : func := Func [1%positive; 2%positive; 3%positive] (
  SIf (EBin ONe s32 (EBin OAdd u32 (EVar 2) (EVar 3)) (EInt 1600))
    (
    SReturn (EInt 1))
    SSkip ;;
  SIf (ECond (ECond (EBin OLe s32 (EVar 2) (EInt 0)) (EInt 1) (EBin ONe s32 (EBin OGt s32 (EVar 2) (EInt 1600)) (EInt 0))) (EInt 1) (EBin ONe s32 (EBin ONe s32 (EDiv OMod u32 (EVar 2) (EInt 8)) (EInt 0)) (EInt 0)))
    (
    SReturn (EInt 1))
    SSkip ;;
  SCall None f_KeccakP1600times4_StaticInitialize [] ;;
  SCall None f_KeccakP1600times4_InitializeAll [(EField (EVar 1) 4 0)] ;;
  SStore 4 (EField (EVar 1) 4 1) (EVar 2) ;;
  SStore 4 (EField (EVar 1) 4 2) (EInt 0) ;;
  SStore 4 (EField (EVar 1) 4 3) (EInt 0) ;;
  SReturn (EInt 0)).

(** /repo/sha3/KeccakSpongetimes4.inc:55-116, KeccakWidth1600times4_SpongeAbsorb.
    Variables: 1 = instance, 2 = data, 3 = dataByteLen, 4 = i, 5 = j, 6 = partialBlock, 7 = curData, 8 = rateInBytes, 9 = instanceIndex, 10 = instanceIndex, 12 = instanceIndex. *)
Definition c_KeccakWidth1600times4_SpongeAbsorb : func := Func [1%positive; 2%positive; 3%positive] (
  SAlloc 7 (EInt 4) ;;
  SSet 8 (EDiv ODiv u32 (ELoad 4 (EField (EVar 1) 4 1)) (EInt 8)) ;;
  SIf (EUn OCast s32 (ELoad 4 (EField (EVar 1) 4 3)))
    (
    SReturn (EInt 1))
    SSkip ;;
  SSet 4 (EInt 0) ;;
  SIf (EBin OGt s32 (EVar 3) (EInt 0))
    (
    SSet 9 (EInt 0) ;;
    SLoop (EBin OLt s32 (EVar 9) (EInt 4))
      (
      SSet 9 (EBin OAdd u32 (EVar 9) (EInt 1)))
      (
      SStoreP (EAt (EVar 7) 1 (EVar 9)) (ELoadP (EAt (EVar 2) 1 (EVar 9)))))
    SSkip ;;
  SLoop (EBin OLt s32 (EVar 4) (EVar 3))
    SSkip
    (
    SIf (ECond (EBin OEq s32 (ELoad 4 (EField (EVar 1) 4 2)) (EInt 0)) (EBin ONe s32 (EBin OGe s32 (EVar 3) (EBin OAdd u64 (EVar 4) (EVar 8))) (EInt 0)) (EInt 0))
      (
      SSet 5 (EBin OSub u64 (EVar 3) (EVar 4)) ;;
      SLoop (EBin OGe s32 (EVar 5) (EVar 8))
        (
        SSet 5 (EBin OSub u64 (EVar 5) (EVar 8)))
        (
        SSet 10 (EInt 0) ;;
        SLoop (EBin OLt s32 (EVar 10) (EInt 4))
          (
          SSet 10 (EBin OAdd u32 (EVar 10) (EInt 1)))
          (
          SCall None f_KeccakP1600times4_AddBytes [(EField (EVar 1) 4 0); (EVar 10); (ELoadP (EAt (EVar 7) 1 (EVar 10))); (EInt 0); (EVar 8)] ;;
          SSet 11 (EAt (EVar 7) 1 (EVar 10)) ;;
          SStoreP (EVar 11) (EAt (ELoadP (EVar 11)) 1 (EVar 8))) ;;
        SCall None f_KeccakP1600times4_PermuteAll_24rounds [(EField (EVar 1) 4 0)]) ;;
      SSet 4 (EBin OSub u64 (EVar 3) (EVar 5)))
      (
      SSet 6 (EUn OCast u32 (EBin OSub u64 (EVar 3) (EVar 4))) ;;
      SIf (EBin OGt s32 (EBin OAdd u32 (EVar 6) (ELoad 4 (EField (EVar 1) 4 2))) (EVar 8))
        (
        SSet 6 (EBin OSub u32 (EVar 8) (ELoad 4 (EField (EVar 1) 4 2))))
        SSkip ;;
      SSet 4 (EBin OAdd u64 (EVar 4) (EVar 6)) ;;
      SSet 12 (EInt 0) ;;
      SLoop (EBin OLt s32 (EVar 12) (EInt 4))
        (
        SSet 12 (EBin OAdd u32 (EVar 12) (EInt 1)))
        (
        SCall None f_KeccakP1600times4_AddBytes [(EField (EVar 1) 4 0); (EVar 12); (ELoadP (EAt (EVar 7) 1 (EVar 12))); (ELoad 4 (EField (EVar 1) 4 2)); (EVar 6)] ;;
        SSet 13 (EAt (EVar 7) 1 (EVar 12)) ;;
        SStoreP (EVar 13) (EAt (ELoadP (EVar 13)) 1 (EVar 6))) ;;
      SSet 14 (EField (EVar 1) 4 2) ;;
      SStore 4 (EVar 14) (EBin OAdd u32 (ELoad 4 (EVar 14)) (EVar 6)) ;;
      SIf (EBin OEq s32 (ELoad 4 (EField (EVar 1) 4 2)) (EVar 8))
        (
        SCall None f_KeccakP1600times4_PermuteAll_24rounds [(EField (EVar 1) 4 0)] ;;
        SStore 4 (EField (EVar 1) 4 2) (EInt 0))
        SSkip)) ;;
  SReturn (EInt 0)).

(** /repo/sha3/KeccakSpongetimes4.inc:120-145, KeccakWidth1600times4_SpongeAbsorbLastFewBits.
    Variables: 1 = instance, 2 = delimitedData, 3 = rateInBytes, 4 = instanceIndex, 5 = instanceIndex. *)
Definition c_KeccakWidth1600times4_SpongeAbsorbLastFewBits : func := Func [1%positive; 2%positive] (
  SSet 3 (EDiv ODiv u32 (ELoad 4 (EField (EVar 1) 4 1)) (EInt 8)) ;;
  SIf (EBin OEq s32 (EVar 2) (EInt 0))
    (
    SReturn (EInt 1))
    SSkip ;;
  SIf (EUn OCast s32 (ELoad 4 (EField (EVar 1) 4 3)))
    (
    SReturn (EInt 1))
    SSkip ;;
  SSet 4 (EInt 0) ;;
  SLoop (EBin OLt s32 (EVar 4) (EInt 4))
    (
    SSet 4 (EBin OAdd u32 (EVar 4) (EInt 1)))
    (
    SCall None f_KeccakP1600times4_AddByte [(EField (EVar 1) 4 0); (EVar 4); (EVar 2); (ELoad 4 (EField (EVar 1) 4 2))]) ;;
  SIf (ECond (EBin OGe s32 (EVar 2) (EInt 128)) (EBin ONe s32 (EBin OEq s32 (ELoad 4 (EField (EVar 1) 4 2)) (EBin OSub u32 (EVar 3) (EInt 1))) (EInt 0)) (EInt 0))
    (
    SCall None f_KeccakP1600times4_PermuteAll_24rounds [(EField (EVar 1) 4 0)])
    SSkip ;;
  SSet 5 (EInt 0) ;;
  SLoop (EBin OLt s32 (EVar 5) (EInt 4))
    (
    SSet 5 (EBin OAdd u32 (EVar 5) (EInt 1)))
    (
    SCall None f_KeccakP1600times4_AddByte [(EField (EVar 1) 4 0); (EVar 5); (EInt 128); (EBin OSub u32 (EVar 3) (EInt 1))]) ;;
  SCall None f_KeccakP1600times4_PermuteAll_24rounds [(EField (EVar 1) 4 0)] ;;
  SStore 4 (EField (EVar 1) 4 2) (EInt 0) ;;
  SStore 4 (EField (EVar 1) 4 3) (EInt 1) ;;
  SReturn (EInt 0)).

(** /repo/sha3/KeccakSpongetimes4.inc:149-195, KeccakWidth1600times4_SpongeSqueeze.
    Variables: 1 = instance, 2 = data, 3 = dataByteLen, 4 = i, 5 = j, 6 = partialBlock, 7 = rateInBytes, 8 = curData, 10 = instanceIndex, 11 = instanceIndex, 13 = instanceIndex. *)
Definition c_KeccakWidth1600times4_SpongeSqueeze : func := Func [1%positive; 2%positive; 3%positive] (
  SSet 7 (EDiv ODiv u32 (ELoad 4 (EField (EVar 1) 4 1)) (EInt 8)) ;;
  SAlloc 8 (EInt 4) ;;
  SStoreP (EVar 8) ENull ;;
  SStoreP (EAt (EVar 8) 1 (EInt 1)) ENull ;;
  SStoreP (EAt (EVar 8) 1 (EInt 2)) ENull ;;
  SStoreP (EAt (EVar 8) 1 (EInt 3)) ENull ;;
  SIf (EUn OLNot s32 (EUn OCast s32 (ELoad 4 (EField (EVar 1) 4 3))))
    (
    SCall None f_KeccakWidth1600times4_SpongeAbsorbLastFewBits [(EVar 1); (EInt 1)])
    SSkip ;;
  SSet 4 (EInt 0) ;;
  SIf (EBin OGt s32 (EVar 3) (EInt 0))
    (
    SSet 10 (EInt 0) ;;
    SLoop (EBin OLt s32 (EVar 10) (EInt 4))
      (
      SSet 10 (EBin OAdd u32 (EVar 10) (EInt 1)))
      (
      SStoreP (EAt (EVar 8) 1 (EVar 10)) (ELoadP (EAt (EVar 2) 1 (EVar 10)))))
    SSkip ;;
  SLoop (EBin OLt s32 (EVar 4) (EVar 3))
    SSkip
    (
    SIf (ECond (EBin OEq s32 (ELoad 4 (EField (EVar 1) 4 2)) (EVar 7)) (EBin ONe s32 (EBin OGe s32 (EVar 3) (EBin OAdd u64 (EVar 4) (EVar 7))) (EInt 0)) (EInt 0))
      (
      SSet 5 (EBin OSub u64 (EVar 3) (EVar 4)) ;;
      SLoop (EBin OGe s32 (EVar 5) (EVar 7))
        (
        SSet 5 (EBin OSub u64 (EVar 5) (EVar 7)))
        (
        SCall None f_KeccakP1600times4_PermuteAll_24rounds [(EField (EVar 1) 4 0)] ;;
        SSet 11 (EInt 0) ;;
        SLoop (EBin OLt s32 (EVar 11) (EInt 4))
          (
          SSet 11 (EBin OAdd u32 (EVar 11) (EInt 1)))
          (
          SCall None f_KeccakP1600times4_ExtractBytes [(EField (EVar 1) 4 0); (EVar 11); (ELoadP (EAt (EVar 8) 1 (EVar 11))); (EInt 0); (EVar 7)] ;;
          SSet 12 (EAt (EVar 8) 1 (EVar 11)) ;;
          SStoreP (EVar 12) (EAt (ELoadP (EVar 12)) 1 (EVar 7)))) ;;
      SSet 4 (EBin OSub u64 (EVar 3) (EVar 5)))
      (
      SIf (EBin OEq s32 (ELoad 4 (EField (EVar 1) 4 2)) (EVar 7))
        (
        SCall None f_KeccakP1600times4_PermuteAll_24rounds [(EField (EVar 1) 4 0)] ;;
        SStore 4 (EField (EVar 1) 4 2) (EInt 0))
        SSkip ;;
      SSet 6 (EUn OCast u32 (EBin OSub u64 (EVar 3) (EVar 4))) ;;
      SIf (EBin OGt s32 (EBin OAdd u32 (EVar 6) (ELoad 4 (EField (EVar 1) 4 2))) (EVar 7))
        (
        SSet 6 (EBin OSub u32 (EVar 7) (ELoad 4 (EField (EVar 1) 4 2))))
        SSkip ;;
      SSet 4 (EBin OAdd u64 (EVar 4) (EVar 6)) ;;
      SSet 13 (EInt 0) ;;
      SLoop (EBin OLt s32 (EVar 13) (EInt 4))
        (
        SSet 13 (EBin OAdd u32 (EVar 13) (EInt 1)))
        (
        SCall None f_KeccakP1600times4_ExtractBytes [(EField (EVar 1) 4 0); (EVar 13); (ELoadP (EAt (EVar 8) 1 (EVar 13))); (ELoad 4 (EField (EVar 1) 4 2)); (EVar 6)] ;;
        SSet 14 (EAt (EVar 8) 1 (EVar 13)) ;;
        SStoreP (EVar 14) (EAt (ELoadP (EVar 14)) 1 (EVar 6))) ;;
      SSet 15 (EField (EVar 1) 4 2) ;;
      SStore 4 (EVar 15) (EBin OAdd u32 (ELoad 4 (EVar 15)) (EVar 6)))) ;;
  SReturn (EInt 0)).

(** /repo/sha3/opt64/PlSnP-Fallback.inc:66-69, KeccakP1600times4_StaticInitialize.
    Variables: . *)
Definition c_KeccakP1600times4_StaticInitialize : func := Func [] (
  SSkip).

(** /repo/sha3/opt64/PlSnP-Fallback.inc:71-81, KeccakP1600times4_InitializeAll.
    Variables: 1 = states, 2 = i. *)
Definition c_KeccakP1600times4_InitializeAll : func := Func [1%positive] (
  SSet 2 (EInt 0) ;;
  SLoop (EBin OLt s32 (EVar 2) (EInt 4))
    (
    SSet 2 (EBin OAdd u32 (EVar 2) (EInt 1)))
    (
    SCall None f_KeccakP1600_Initialize [(EAt (EVar 1) 1 (EBin OMul u32 (EVar 2) (EInt 200)))])).

(** /repo/sha3/opt64/PlSnP-Fallback.inc:83-90, KeccakP1600times4_AddByte.
    Variables: 1 = states, 2 = instanceIndex, 3 = byte, 4 = offset. *)
Definition c_KeccakP1600times4_AddByte : func := Func [1%positive; 2%positive; 3%positive; 4%positive] (
  SSet 5 (EAt (EAt (EVar 1) 1 (EBin OMul u32 (EVar 2) (EInt 200))) 1 (EVar 4)) ;;
  SStore 1 (EVar 5) (EUn OCast u8 (EBin OXor s32 (ELoad 1 (EVar 5)) (EVar 3)))).

(** /repo/sha3/opt64/PlSnP-Fallback.inc:92-99, KeccakP1600times4_AddBytes.
    Variables: 1 = states, 2 = instanceIndex, 3 = data, 4 = offset, 5 = length. *)
Definition c_KeccakP1600times4_AddBytes : func := Func [1%positive; 2%positive; 3%positive; 4%positive; 5%positive] (
  SCall None f_KeccakP1600_AddBytes [(EAt (EVar 1) 1 (EBin OMul u32 (EVar 2) (EInt 200))); (EVar 3); (EVar 4); (EVar 5)]).

(** /repo/sha3/opt64/PlSnP-Fallback.inc:147-158, KeccakP1600times4_PermuteAll_24rounds.
    Variables: 1 = states, 2 = i. *)
Definition c_KeccakP1600times4_PermuteAll_24rounds : func := Func [1%positive] (
  SSet 2 (EInt 0) ;;
  SLoop (EBin OLt s32 (EVar 2) (EInt 4))
    (
    SSet 2 (EBin OAdd u32 (EVar 2) (EInt 1)))
    (
    SCall None f_KeccakP1600_Permute_24rounds [(EAt (EVar 1) 1 (EBin OMul u32 (EVar 2) (EInt 200)))])).

(** /repo/sha3/opt64/PlSnP-Fallback.inc:205-212, KeccakP1600times4_ExtractBytes.
    Variables: 1 = states, 2 = instanceIndex, 3 = data, 4 = offset, 5 = length. *)
Definition c_KeccakP1600times4_ExtractBytes : func := Func [1%positive; 2%positive; 3%positive; 4%positive; 5%positive] (
  SCall None f_KeccakP1600_ExtractBytes [(EAt (EVar 1) 1 (EBin OMul u32 (EVar 2) (EInt 200))); (EVar 3); (EVar 4); (EVar 5)]).

(** random_oracle.c:17-19, H0_init.
    Variables: 1 = ctx, 2 = security_param. *)
Definition c_H0_init : func := Func [1%positive; 2%positive] (
  SCall None f_hash_init [(EVar 1); (EUn OCast u32 (ECond (EBin OEq s32 (EVar 2) (EInt 128)) (EInt 128) (EInt 256)))]).

(** random_oracle.c:21-23, H0_update.
    Variables: 1 = ctx, 2 = src, 3 = len. *)
Definition c_H0_update : func := Func [1%positive; 2%positive; 3%positive] (
  SCall None f_hash_update [(EVar 1); (EVar 2); (EVar 3)]).

(** random_oracle.c:25-32, H0_final.
    Variables: 1 = ctx, 2 = seed, 3 = seed_len, 4 = commitment, 5 = commitment_len. *)
Definition c_H0_final : func := Func [1%positive; 2%positive; 3%positive; 4%positive; 5%positive] (
  SCall None f_hash_update [(EVar 1); (EGlob 8); (EInt 1)] ;;
  SCall None f_hash_final [(EVar 1)] ;;
  SCall None f_hash_squeeze [(EVar 1); (EVar 2); (EVar 3)] ;;
  SCall None f_hash_squeeze [(EVar 1); (EVar 4); (EVar 5)]).

(** random_oracle.c:34-36, H0_x4_init.
    Variables: 1 = ctx, 2 = security_param. *)
Definition c_H0_x4_init : func := Func [1%positive; 2%positive] (
  SCall None f_hash_init_x4 [(EVar 1); (EUn OCast u32 (ECond (EBin OEq s32 (EVar 2) (EInt 128)) (EInt 128) (EInt 256)))]).

(** random_oracle.c:38-41, H0_x4_update.
    Variables: 1 = ctx, 2 = src0, 3 = src1, 4 = src2, 5 = src3, 6 = len. *)
Definition c_H0_x4_update : func := Func [1%positive; 2%positive; 3%positive; 4%positive; 5%positive; 6%positive] (
  SCall None f_hash_update_x4_4 [(EVar 1); (EVar 2); (EVar 3); (EVar 4); (EVar 5); (EVar 6)]).

(** random_oracle.c:43-51, H0_x4_final.
    Variables: 1 = ctx, 2 = seed0, 3 = seed1, 4 = seed2, 5 = seed3, 6 = seed_len, 7 = commitment0, 8 = commitment1, 9 = commitment2, 10 = commitment3, 11 = commitment_len. *)
Definition c_H0_x4_final : func := Func [1%positive; 2%positive; 3%positive; 4%positive; 5%positive; 6%positive; 7%positive; 8%positive; 9%positive; 10%positive; 11%positive] (
  SCall None f_hash_update_x4_1 [(EVar 1); (EGlob 8); (EInt 1)] ;;
  SCall None f_hash_final_x4 [(EVar 1)] ;;
  SCall None f_hash_squeeze_x4_4 [(EVar 1); (EVar 2); (EVar 3); (EVar 4); (EVar 5); (EVar 6)] ;;
  SCall None f_hash_squeeze_x4_4 [(EVar 1); (EVar 7); (EVar 8); (EVar 9); (EVar 10); (EVar 11)]).

(** random_oracle.c:54-56, H1_init.
    Variables: 1 = ctx, 2 = security_param. *)
Definition c_H1_init : func := Func [1%positive; 2%positive] (
  SCall None f_hash_init [(EVar 1); (EUn OCast u32 (ECond (EBin OEq s32 (EVar 2) (EInt 128)) (EInt 128) (EInt 256)))]).

(** random_oracle.c:58-60, H1_update.
    Variables: 1 = ctx, 2 = src, 3 = len. *)
Definition c_H1_update : func := Func [1%positive; 2%positive; 3%positive] (
  SCall None f_hash_update [(EVar 1); (EVar 2); (EVar 3)]).

(** random_oracle.c:62-67, H1_final.
    Variables: 1 = ctx, 2 = digest, 3 = len. *)
Definition c_H1_final : func := Func [1%positive; 2%positive; 3%positive] (
  SCall None f_hash_update [(EVar 1); (EGlob 9); (EInt 1)] ;;
  SCall None f_hash_final [(EVar 1)] ;;
  SCall None f_hash_squeeze [(EVar 1); (EVar 2); (EVar 3)]).

(** random_oracle.c:70-72, H2_init.
    Variables: 1 = ctx, 2 = security_param. *)
Definition c_H2_init : func := Func [1%positive; 2%positive] (
  SCall None f_hash_init [(EVar 1); (EUn OCast u32 (ECond (EBin OEq s32 (EVar 2) (EInt 128)) (EInt 128) (EInt 256)))]).

(** random_oracle.c:74-76, H2_update.
    Variables: 1 = ctx, 2 = src, 3 = len. *)
Definition c_H2_update : func := Func [1%positive; 2%positive; 3%positive] (
  SCall None f_hash_update [(EVar 1); (EVar 2); (EVar 3)]).

(** random_oracle.c:78-83, H2_final.
    Variables: 1 = ctx, 2 = digest, 3 = len. *)
Definition c_H2_final : func := Func [1%positive; 2%positive; 3%positive] (
  SCall None f_hash_update [(EVar 1); (EGlob 10); (EInt 1)] ;;
  SCall None f_hash_final [(EVar 1)] ;;
  SCall None f_hash_squeeze [(EVar 1); (EVar 2); (EVar 3)]).

(** random_oracle.c:86-88, H3_init.
    Variables: 1 = ctx, 2 = security_param. *)
Definition c_H3_init : func := Func [1%positive; 2%positive] (
  SCall None f_hash_init [(EVar 1); (EUn OCast u32 (ECond (EBin OEq s32 (EVar 2) (EInt 128)) (EInt 128) (EInt 256)))]).

(** random_oracle.c:90-92, H3_update.
    Variables: 1 = ctx, 2 = src, 3 = len. *)
Definition c_H3_update : func := Func [1%positive; 2%positive; 3%positive] (
  SCall None f_hash_update [(EVar 1); (EVar 2); (EVar 3)]).

(** random_oracle.c:94-100, H3_final.
    Variables: 1 = ctx, 2 = digest, 3 = len, 4 = iv. *)
Definition c_H3_final : func := Func [1%positive; 2%positive; 3%positive; 4%positive] (
  SCall None f_hash_update [(EVar 1); (EGlob 11); (EInt 1)] ;;
  SCall None f_hash_final [(EVar 1)] ;;
  SCall None f_hash_squeeze [(EVar 1); (EVar 2); (EVar 3)] ;;
  SCall None f_hash_squeeze [(EVar 1); (EVar 4); (EInt 16)]).

(** sha3/KeccakHash.c:22-34, Keccak_HashInitialize.
    Variables: 1 = instance, 2 = rate, 3 = capacity, 4 = hashbitlen, 5 = delimitedSuffix, 6 = result. *)
Definition c_Keccak_HashInitialize : func := Func [1%positive; 2%positive; 3%positive; 4%positive; 5%positive] (
  SIf (EBin OEq s32 (EVar 5) (EInt 0))
    (
    SReturn (EInt 1))
    SSkip ;;
  SCall (Some 7%positive) f_KeccakWidth1600_SpongeInitialize [(EField (EVar 1) 3 0); (EVar 2); (EVar 3)] ;;
  SSet 6 (EUn OCast u32 (EVar 7)) ;;
  SIf (EBin ONe s32 (EVar 6) (EInt 0))
    (
    SReturn (EVar 6))
    SSkip ;;
  SStore 4 (EField (EVar 1) 3 1) (EVar 4) ;;
  SStore 1 (EField (EVar 1) 3 2) (EVar 5) ;;
  SReturn (EInt 0)).

(** sha3/KeccakHash.c:38-61, Keccak_HashUpdate.
    Variables: 1 = instance, 2 = data, 3 = databitlen, 6 = ret, 7 = lastByte, 8 = shown, 9 = delimitedLastBytes, 10 = oneByte. *)
Definition c_Keccak_HashUpdate : func := Func [1%positive; 2%positive; 3%positive] (
  SIf (EBin OEq s32 (EDiv OMod u64 (EVar 3) (EInt 8)) (EInt 0))
    (
    SCall (Some 4%positive) f_KeccakWidth1600_SpongeAbsorb [(EField (EVar 1) 3 0); (EVar 2); (EDiv ODiv u64 (EVar 3) (EInt 8))] ;;
    SReturn (EUn OCast u32 (EVar 4)))
    (
    SCall (Some 5%positive) f_KeccakWidth1600_SpongeAbsorb [(EField (EVar 1) 3 0); (EVar 2); (EDiv ODiv u64 (EVar 3) (EInt 8))] ;;
    SSet 6 (EUn OCast u32 (EVar 5)) ;;
    SIf (EBin OEq s32 (EVar 6) (EInt 0))
      (
      SSet 7 (ELoad 1 (EAt (EVar 2) 1 (EDiv ODiv u64 (EVar 3) (EInt 8)))) ;;
      SShow 8 (EUn OCast u16 (EBin OOr s32 (EUn OCast u16 (EBin OAnd s32 (EVar 7) (EBin OSub s32 (EBin OShl s32 (EInt 1) (EDiv OMod u64 (EVar 3) (EInt 8))) (EInt 1)))) (EBin OShl s32 (ELoad 1 (EField (EVar 1) 3 2)) (EDiv OMod u64 (EVar 3) (EInt 8))))) ;;
      SSet 9 (EVar 8) ;;
      SIf (EBin OEq s32 (EBin OAnd s32 (EVar 9) (EInt 65280)) (EInt 0))
        (
        SStore 1 (EField (EVar 1) 3 2) (EUn OCast u8 (EBin OAnd s32 (EVar 9) (EInt 255))))
        (
        SAlloc 10 (EInt 1) ;;
        SStore 1 (EVar 10) (EUn OCast u8 (EBin OAnd s32 (EVar 9) (EInt 255))) ;;
        SCall (Some 11%positive) f_KeccakWidth1600_SpongeAbsorb [(EField (EVar 1) 3 0); (EVar 10); (EInt 1)] ;;
        SSet 6 (EUn OCast u32 (EVar 11)) ;;
        SStore 1 (EField (EVar 1) 3 2) (EUn OCast u8 (EBin OAnd s32 (EBin OShr s32 (EVar 9) (EInt 8)) (EInt 255)))))
      SSkip ;;
    SReturn (EVar 6))).

(** sha3/KeccakHash.c:65-72, Keccak_HashFinal.
    Variables: 1 = instance, 2 = hashval, 4 = ret. *)
Definition c_Keccak_HashFinal : func := Func [1%positive; 2%positive] (
  SCall (Some 3%positive) f_KeccakWidth1600_SpongeAbsorbLastFewBits [(EField (EVar 1) 3 0); (ELoad 1 (EField (EVar 1) 3 2))] ;;
  SSet 4 (EUn OCast u32 (EVar 3)) ;;
  SIf (EBin OEq s32 (EVar 4) (EInt 0))
    (
    SCall (Some 5%positive) f_KeccakWidth1600_SpongeSqueeze [(EField (EVar 1) 3 0); (EVar 2); (EDiv ODiv u32 (ELoad 4 (EField (EVar 1) 3 1)) (EInt 8))] ;;
    SReturn (EUn OCast u32 (EVar 5)))
    (
    SReturn (EVar 4))).

(** sha3/KeccakHash.c:76-81, Keccak_HashSqueeze.
    Variables: 1 = instance, 2 = data, 3 = databitlen. *)
Definition c_Keccak_HashSqueeze : func := Func [1%positive; 2%positive; 3%positive] (
  SIf (EBin ONe s32 (EDiv OMod u64 (EVar 3) (EInt 8)) (EInt 0))
    (
    SReturn (EInt 1))
    SSkip ;;
  SCall (Some 4%positive) f_KeccakWidth1600_SpongeSqueeze [(EField (EVar 1) 3 0); (EVar 2); (EDiv ODiv u64 (EVar 3) (EInt 8))] ;;
  SReturn (EUn OCast u32 (EVar 4))).

(** sha3/KeccakHashtimes4.c:24-36, Keccak_HashInitializetimes4.
    Variables: 1 = instance, 2 = rate, 3 = capacity, 4 = hashbitlen, 5 = delimitedSuffix, 6 = result. *)
Definition c_Keccak_HashInitializetimes4 : func := Func [1%positive; 2%positive; 3%positive; 4%positive; 5%positive] (
  SIf (EBin OEq s32 (EVar 5) (EInt 0))
    (
    SReturn (EInt 1))
    SSkip ;;
  SCall (Some 7%positive) f_KeccakWidth1600times4_SpongeInitialize [(EField (EVar 1) 3 0); (EVar 2); (EVar 3)] ;;
  SSet 6 (EUn OCast u32 (EVar 7)) ;;
  SIf (EBin ONe s32 (EVar 6) (EInt 0))
    (
    SReturn (EVar 6))
    SSkip ;;
  SStore 4 (EField (EVar 1) 3 1) (EVar 4) ;;
  SStore 1 (EField (EVar 1) 3 2) (EVar 5) ;;
  SReturn (EInt 0)).

(** sha3/KeccakHashtimes4.c:40-45, Keccak_HashUpdatetimes4.
    Variables: 1 = instance, 2 = data, 3 = databitlen. *)
Definition c_Keccak_HashUpdatetimes4 : func := Func [1%positive; 2%positive; 3%positive] (
  SIf (EBin ONe s32 (EDiv OMod u64 (EVar 3) (EInt 8)) (EInt 0))
    (
    SReturn (EInt 1))
    SSkip ;;
  SCall (Some 4%positive) f_KeccakWidth1600times4_SpongeAbsorb [(EField (EVar 1) 3 0); (EVar 2); (EDiv ODiv u64 (EVar 3) (EInt 8))] ;;
  SReturn (EUn OCast u32 (EVar 4))).

(** sha3/KeccakHashtimes4.c:49-56, Keccak_HashFinaltimes4.
    Variables: 1 = instance, 2 = hashval, 4 = ret. *)
Definition c_Keccak_HashFinaltimes4 : func := Func [1%positive; 2%positive] (
  SCall (Some 3%positive) f_KeccakWidth1600times4_SpongeAbsorbLastFewBits [(EField (EVar 1) 3 0); (ELoad 1 (EField (EVar 1) 3 2))] ;;
  SSet 4 (EUn OCast u32 (EVar 3)) ;;
  SIf (EBin OEq s32 (EVar 4) (EInt 0))
    (
    SCall (Some 5%positive) f_KeccakWidth1600times4_SpongeSqueeze [(EField (EVar 1) 3 0); (EVar 2); (EDiv ODiv u32 (ELoad 4 (EField (EVar 1) 3 1)) (EInt 8))] ;;
    SReturn (EUn OCast u32 (EVar 5)))
    (
    SReturn (EVar 4))).

(** sha3/KeccakHashtimes4.c:60-65, Keccak_HashSqueezetimes4.
    Variables: 1 = instance, 2 = data, 3 = databitlen. *)
Definition c_Keccak_HashSqueezetimes4 : func := Func [1%positive; 2%positive; 3%positive] (
  SIf (EBin ONe s32 (EDiv OMod u64 (EVar 3) (EInt 8)) (EInt 0))
    (
    SReturn (EInt 1))
    SSkip ;;
  SCall (Some 4%positive) f_KeccakWidth1600times4_SpongeSqueeze [(EField (EVar 1) 3 0); (EVar 2); (EDiv ODiv u64 (EVar 3) (EInt 8))] ;;
  SReturn (EUn OCast u32 (EVar 4))).

