(** Generated by tools/ctc/c2v.py from the sources in /repo; see DESIGN.md. *)
From Coq Require Import ZArith List.
From Verif Require Import Model.CtLang Model.CtNames.
Import ListNotations.
Local Open Scope Z_scope.

(** faest_aes.c:79-93, column_to_row_major_and_shrink_V_128.
    Variables: 1 = v, 2 = ell, 4 = new_v, 5 = row, 6 = new_row, 7 = column. *)
Definition c_column_to_row_major_and_shrink_V_128 : func := Func [1%positive; 2%positive] (
  SAlloc 3 (EBin OMul u64 (EBin OAdd u32 (EVar 2) (EInt 128)) (EInt 16)) ;;
  SSet 4 (EVar 3) ;;
  SSet 5 (EInt 0) ;;
  SLoop (EBin ONe s32 (EVar 5) (EBin OAdd u32 (EVar 2) (EInt 128)))
    (
    SSet 5 (EBin OAdd u32 (EVar 5) (EInt 1)))
    (
    SAlloc 6 (EInt 16) ;;
    SSet 7 (EInt 0) ;;
    SLoop (EBin ONe s32 (EVar 7) (EInt 128))
      (
      SSet 7 (EBin OAdd u32 (EVar 7) (EInt 1)))
      (
      SSet 8 (EInt 1) ;;
      SLoop (EVar 8)
        (
        SSet 8 (EInt 0))
        (
        SSet 9 (EAt (EVar 6) 1 (EDiv ODiv u32 (EVar 7) (EInt 8))) ;;
        SStore 1 (EVar 9) (EUn OCast u8 (EBin OOr s32 (ELoad 1 (EVar 9)) (EBin OShl s32 (EBin OAnd s32 (EBin OShr s32 (ELoad 1 (EAt (ELoadP (EAt (EVar 1) 1 (EVar 7))) 1 (EDiv ODiv u32 (EVar 5) (EInt 8)))) (EDiv OMod u32 (EVar 5) (EInt 8))) (EInt 1)) (EDiv OMod u32 (EVar 7) (EInt 8))))))) ;;
    SSet 10 (EAt (EVar 4) 16 (EVar 5)) ;;
    SAlloc 11 (EInt 16) ;;
    SCall None f_bf128_load [(EVar 11); (EVar 6)] ;;
    SCopy (EVar 10) (EVar 11) (EInt 16)) ;;
  SReturn (EVar 4)).

(** faest_aes.c:95-109, column_to_row_major_and_shrink_V_192.
    Variables: 1 = v, 2 = ell, 4 = new_v, 5 = row, 6 = new_row, 7 = column. *)
Definition c_column_to_row_major_and_shrink_V_192 : func := Func [1%positive; 2%positive] (
  SAlloc 3 (EBin OMul u64 (EBin OAdd u32 (EVar 2) (EInt 192)) (EInt 32)) ;;
  SSet 4 (EVar 3) ;;
  SSet 5 (EInt 0) ;;
  SLoop (EBin ONe s32 (EVar 5) (EBin OAdd u32 (EVar 2) (EInt 192)))
    (
    SSet 5 (EBin OAdd u32 (EVar 5) (EInt 1)))
    (
    SAlloc 6 (EInt 24) ;;
    SSet 7 (EInt 0) ;;
    SLoop (EBin ONe s32 (EVar 7) (EInt 192))
      (
      SSet 7 (EBin OAdd u32 (EVar 7) (EInt 1)))
      (
      SSet 8 (EInt 1) ;;
      SLoop (EVar 8)
        (
        SSet 8 (EInt 0))
        (
        SSet 9 (EAt (EVar 6) 1 (EDiv ODiv u32 (EVar 7) (EInt 8))) ;;
        SStore 1 (EVar 9) (EUn OCast u8 (EBin OOr s32 (ELoad 1 (EVar 9)) (EBin OShl s32 (EBin OAnd s32 (EBin OShr s32 (ELoad 1 (EAt (ELoadP (EAt (EVar 1) 1 (EVar 7))) 1 (EDiv ODiv u32 (EVar 5) (EInt 8)))) (EDiv OMod u32 (EVar 5) (EInt 8))) (EInt 1)) (EDiv OMod u32 (EVar 7) (EInt 8))))))) ;;
    SSet 10 (EAt (EVar 4) 32 (EVar 5)) ;;
    SAlloc 11 (EInt 32) ;;
    SCall None f_bf192_load [(EVar 11); (EVar 6)] ;;
    SCopy (EVar 10) (EVar 11) (EInt 32)) ;;
  SReturn (EVar 4)).

(** faest_aes.c:111-125, column_to_row_major_and_shrink_V_256.
    Variables: 1 = v, 2 = ell, 4 = new_v, 5 = row, 6 = new_row, 7 = column. *)
Definition c_column_to_row_major_and_shrink_V_256 : func := Func [1%positive; 2%positive] (
  SAlloc 3 (EBin OMul u64 (EBin OAdd u32 (EVar 2) (EInt 256)) (EInt 32)) ;;
  SSet 4 (EVar 3) ;;
  SSet 5 (EInt 0) ;;
  SLoop (EBin ONe s32 (EVar 5) (EBin OAdd u32 (EVar 2) (EInt 256)))
    (
    SSet 5 (EBin OAdd u32 (EVar 5) (EInt 1)))
    (
    SAlloc 6 (EInt 32) ;;
    SSet 7 (EInt 0) ;;
    SLoop (EBin ONe s32 (EVar 7) (EInt 256))
      (
      SSet 7 (EBin OAdd u32 (EVar 7) (EInt 1)))
      (
      SSet 8 (EInt 1) ;;
      SLoop (EVar 8)
        (
        SSet 8 (EInt 0))
        (
        SSet 9 (EAt (EVar 6) 1 (EDiv ODiv u32 (EVar 7) (EInt 8))) ;;
        SStore 1 (EVar 9) (EUn OCast u8 (EBin OOr s32 (ELoad 1 (EVar 9)) (EBin OShl s32 (EBin OAnd s32 (EBin OShr s32 (ELoad 1 (EAt (ELoadP (EAt (EVar 1) 1 (EVar 7))) 1 (EDiv ODiv u32 (EVar 5) (EInt 8)))) (EDiv OMod u32 (EVar 5) (EInt 8))) (EInt 1)) (EDiv OMod u32 (EVar 7) (EInt 8))))))) ;;
    SSet 10 (EAt (EVar 4) 32 (EVar 5)) ;;
    SAlloc 11 (EInt 32) ;;
    SCall None f_bf256_load [(EVar 11); (EVar 6)] ;;
    SCopy (EVar 10) (EVar 11) (EInt 32)) ;;
  SReturn (EVar 4)).

(** faest_aes.c:129-157, aes_key_schedule_forward_1.
    Variables: 1 = x, 2 = out, 3 = params, 4 = lambda, 5 = R, 6 = Nwd, 7 = lambdaBytes, 8 = out_len, 9 = i_wd, 10 = j, 11 = i. *)
Definition c_aes_key_schedule_forward_1 : func := Func [1%positive; 2%positive; 3%positive] (
  SSet 4 (ELoad 2 (EVar 3)) ;;
  SSet 5 (ELoad 2 (EAt (EVar 3) 1 (EInt 6))) ;;
  SSet 6 (ELoad 2 (EAt (EVar 3) 1 (EInt 2))) ;;
  SSet 7 (EDiv ODiv u32 (EVar 4) (EInt 8)) ;;
  SSet 8 (EDiv ODiv u32 (EBin OMul u32 (EBin OAdd u32 (EVar 5) (EInt 1)) (EInt 128)) (EInt 8)) ;;
  SCopy (EVar 2) (EVar 1) (EVar 7) ;;
  SFill (EAt (EVar 2) 1 (EVar 7)) (EInt 0) (EBin OSub u32 (EVar 8) (EVar 7)) ;;
  SSet 9 (EVar 4) ;;
  SSet 10 (EVar 6) ;;
  SLoop (EBin OLt s32 (EVar 10) (EBin OMul u32 (EInt 4) (EBin OAdd u32 (EVar 5) (EInt 1))))
    (
    SSet 10 (EBin OAdd u32 (EVar 10) (EInt 1)))
    (
    SIf (ECond (EBin OEq s32 (EDiv OMod u32 (EVar 10) (EVar 6)) (EInt 0)) (EInt 1) (EBin ONe s32 (ECond (EBin OGt s32 (EVar 6) (EInt 6)) (EBin ONe s32 (EBin OEq s32 (EDiv OMod u32 (EVar 10) (EVar 6)) (EInt 4)) (EInt 0)) (EInt 0)) (EInt 0)))
      (
      SCopy (EAt (EVar 2) 1 (EDiv ODiv u32 (EBin OMul u32 (EInt 32) (EVar 10)) (EInt 8))) (EAt (EVar 1) 1 (EDiv ODiv u32 (EVar 9) (EInt 8))) (EInt 4) ;;
      SSet 9 (EBin OAdd u32 (EVar 9) (EInt 32)))
      (
      SSet 11 (EInt 0) ;;
      SLoop (EBin OLt s32 (EVar 11) (EInt 32))
        (
        SSet 11 (EBin OAdd u32 (EVar 11) (EInt 8)))
        (
        SSet 12 (EAt (EVar 2) 1 (EDiv ODiv u32 (EBin OAdd u32 (EBin OMul u32 (EInt 32) (EVar 10)) (EVar 11)) (EInt 8))) ;;
        SStore 1 (EVar 12) (EUn OCast u8 (EBin OOr s32 (ELoad 1 (EVar 12)) (EBin OXor s32 (ELoad 1 (EAt (EVar 2) 1 (EDiv ODiv u32 (EBin OAdd u32 (EBin OMul u32 (EInt 32) (EBin OSub u32 (EVar 10) (EVar 6))) (EVar 11)) (EInt 8)))) (ELoad 1 (EAt (EVar 2) 1 (EDiv ODiv u32 (EBin OAdd u32 (EBin OMul u32 (EInt 32) (EBin OSub u32 (EVar 10) (EInt 1))) (EVar 11)) (EInt 8))))))))))).

(** faest_aes.c:159-204, aes_key_schedule_backward_1.
    Variables: 1 = x, 2 = xk, 3 = out, 4 = params, 5 = lambda, 6 = Ske, 7 = iwd, 8 = c, 9 = rmvRcon, 10 = ircon, 11 = j, 12 = x_tilde, 16 = y_tilde. *)
Definition c_aes_key_schedule_backward_1 : func := Func [1%positive; 2%positive; 3%positive; 4%positive] (
  SSet 5 (ELoad 2 (EVar 4)) ;;
  SSet 6 (ELoad 2 (EAt (EVar 4) 1 (EInt 4))) ;;
  SSet 7 (EInt 0) ;;
  SSet 8 (EInt 0) ;;
  SSet 9 (EInt 1) ;;
  SSet 10 (EInt 0) ;;
  SSet 11 (EInt 0) ;;
  SLoop (EBin OLt s32 (EVar 11) (EVar 6))
    (
    SSet 11 (EBin OAdd u32 (EVar 11) (EInt 1)))
    (
    SSet 12 (EUn OCast u8 (EBin OXor s32 (ELoad 1 (EAt (EVar 1) 1 (EVar 11))) (ELoad 1 (EAt (EVar 2) 1 (EBin OAdd u32 (EVar 7) (EVar 8)))))) ;;
    SIf (ECond (EBin OEq s32 (EVar 9) (EInt 1)) (EBin ONe s32 (EBin OEq s32 (EVar 8) (EInt 0)) (EInt 0)) (EInt 0))
      (
      SSet 12 (EUn OCast u8 (EBin OXor s32 (EVar 12) (ELoad 1 (EAt (EGlob 2) 1 (EVar 10))))) ;;
      SSet 10 (EBin OAdd u32 (EVar 10) (EInt 1)))
      SSkip ;;
    SCall (Some 13%positive) f___rorb [(EVar 12); (EInt 7)] ;;
    SCall (Some 14%positive) f___rorb [(EVar 12); (EInt 5)] ;;
    SCall (Some 15%positive) f___rorb [(EVar 12); (EInt 2)] ;;
    SSet 16 (EUn OCast u8 (EBin OXor s32 (EBin OXor s32 (EVar 13) (EVar 14)) (EVar 15))) ;;
    SStore 1 (EAt (EVar 3) 1 (EVar 11)) (EUn OCast u8 (EBin OXor s32 (EVar 16) (EInt 5))) ;;
    SSet 8 (EBin OAdd u32 (EVar 8) (EInt 1)) ;;
    SIf (EBin OEq s32 (EVar 8) (EInt 4))
      (
      SSet 8 (EInt 0) ;;
      SIf (EBin OEq s32 (EVar 5) (EInt 192))
        (
        SSet 7 (EBin OAdd u32 (EVar 7) (EInt 24)))
        (
        SSet 7 (EBin OAdd u32 (EVar 7) (EInt 16)) ;;
        SIf (EBin OEq s32 (EVar 5) (EInt 256))
          (
          SSet 9 (EBin ONe s32 (EUn OLNot s32 (EVar 9)) (EInt 0)))
          SSkip))
      SSkip)).

(** faest_aes.c:208-228, aes_key_schedule_forward_128.
    Variables: 1 = v, 2 = bf_out, 3 = i_wd, 4 = j, 5 = i. *)
Definition c_aes_key_schedule_forward_128 : func := Func [1%positive; 2%positive] (
  SCopy (EVar 2) (EVar 1) (EInt 2048) ;;
  SSet 3 (EInt 128) ;;
  SSet 4 (EInt 4) ;;
  SLoop (EBin OLt s32 (EVar 4) (EInt 44))
    (
    SSet 4 (EBin OAdd u32 (EVar 4) (EInt 1)))
    (
    SIf (ECond (EBin OEq s32 (EDiv OMod u32 (EVar 4) (EInt 4)) (EInt 0)) (EInt 1) (EBin ONe s32 (ECond (EInt 0) (EBin ONe s32 (EBin OEq s32 (EDiv OMod u32 (EVar 4) (EInt 4)) (EInt 4)) (EInt 0)) (EInt 0)) (EInt 0)))
      (
      SCopy (EAt (EVar 2) 16 (EBin OMul u32 (EVar 4) (EInt 32))) (EAt (EVar 1) 16 (EVar 3)) (EInt 512) ;;
      SSet 3 (EBin OAdd u32 (EVar 3) (EInt 32)))
      (
      SSet 5 (EInt 0) ;;
      SLoop (EBin OLt s32 (EVar 5) (EInt 32))
        (
        SSet 5 (EBin OAdd u32 (EVar 5) (EInt 1)))
        (
        SSet 6 (EAt (EVar 2) 16 (EBin OAdd u32 (EBin OMul u32 (EInt 32) (EVar 4)) (EVar 5))) ;;
        SSet 7 (EAt (EVar 2) 16 (EBin OAdd u32 (EBin OMul u32 (EInt 32) (EBin OSub u32 (EVar 4) (EInt 4))) (EVar 5))) ;;
        SSet 8 (EAt (EVar 2) 16 (EBin OAdd u32 (EBin OMul u32 (EInt 32) (EBin OSub u32 (EVar 4) (EInt 1))) (EVar 5))) ;;
        SSet 9 (EBin OXor u64 (ELoad 8 (EVar 7)) (ELoad 8 (EVar 8))) ;;
        SSet 10 (EBin OXor u64 (ELoad 8 (EAt (EVar 7) 1 (EInt 8))) (ELoad 8 (EAt (EVar 8) 1 (EInt 8)))) ;;
        SStore 8 (EVar 6) (EVar 9) ;;
        SStore 8 (EAt (EVar 6) 1 (EInt 8)) (EVar 10))))).

(** faest_aes.c:230-282, aes_key_schedule_backward_128.
    Variables: 1 = v, 2 = Vk, 3 = Mtag, 4 = Mkey, 5 = delta, 6 = bf_out, 7 = bf_delta, 11 = iwd, 12 = c, 13 = ircon, 14 = bf_minus_mkey, 15 = minus_mtag, 16 = bf_mkey_times_delta, 22 = j, 23 = bf_x_tilde, 24 = i, 30 = r, 31 = bf_r, 32 = i, 42 = i. *)
Definition c_aes_key_schedule_backward_128 : func := Func [1%positive; 2%positive; 3%positive; 4%positive; 5%positive; 6%positive] (
  SIf (EUn OLNot s32 (ECond (ECond (EBin OEq s32 (EVar 3) (EInt 1)) (EBin ONe s32 (EBin OEq s32 (EVar 4) (EInt 1)) (EInt 0)) (EInt 0)) (EInt 1) (EBin ONe s32 (ECond (EBin OEq s32 (EVar 4) (EInt 1)) (EBin ONe s32 (EIsNull (EVar 5)) (EInt 0)) (EInt 0)) (EInt 0))))
    SSkip
    (
    SFail) ;;
  SAlloc 7 (EInt 16) ;;
  SIf (EBin OEq s32 (EIsNull (EVar 5)) (EInt 0))
    (
    SAlloc 8 (EInt 16) ;;
    SCall None f_bf128_load [(EVar 8); (EVar 5)] ;;
    SSet 10 (EVar 8))
    (
    SAlloc 9 (EInt 16) ;;
    SCall None f_bf128_zero [(EVar 9)] ;;
    SSet 10 (EVar 9)) ;;
  SCopy (EVar 7) (EVar 10) (EInt 16) ;;
  SSet 11 (EInt 0) ;;
  SSet 12 (EInt 0) ;;
  SSet 13 (EInt 0) ;;
  SAlloc 14 (EInt 16) ;;
  SCall None f_bf128_from_bit [(EVar 14); (EUn OCast u8 (EBin OXor s32 (EInt 1) (EVar 4)))] ;;
  SSet 15 (EUn OCast u8 (EBin OXor s32 (EInt 1) (EVar 3))) ;;
  SAlloc 16 (EInt 16) ;;
  SSet 17 (EUn ONeg u64 (EBin OAnd u64 (EVar 4) (EInt 1))) ;;
  SSet 18 (EBin OAnd u64 (ELoad 8 (EVar 7)) (EVar 17)) ;;
  SSet 19 (EBin OAnd u64 (ELoad 8 (EAt (EVar 7) 1 (EInt 8))) (EVar 17)) ;;
  SStore 8 (EVar 16) (EVar 18) ;;
  SStore 8 (EAt (EVar 16) 1 (EInt 8)) (EVar 19) ;;
  SSet 20 (EBin OXor u64 (ELoad 8 (EVar 16)) (ELoad 8 (EVar 14))) ;;
  SSet 21 (EBin OXor u64 (ELoad 8 (EAt (EVar 16) 1 (EInt 8))) (ELoad 8 (EAt (EVar 14) 1 (EInt 8)))) ;;
  SStore 8 (EVar 16) (EVar 20) ;;
  SStore 8 (EAt (EVar 16) 1 (EInt 8)) (EVar 21) ;;
  SSet 22 (EInt 0) ;;
  SLoop (EBin OLt s32 (EVar 22) (EInt 40))
    (
    SSet 22 (EBin OAdd u32 (EVar 22) (EInt 1)))
    (
    SAlloc 23 (EInt 128) ;;
    SSet 24 (EInt 0) ;;
    SLoop (EBin OLt s32 (EVar 24) (EInt 8))
      (
      SSet 24 (EBin OAdd u32 (EVar 24) (EInt 1)))
      (
      SSet 25 (EAt (EVar 23) 16 (EVar 24)) ;;
      SSet 26 (EAt (EVar 1) 16 (EBin OAdd u32 (EBin OMul u32 (EInt 8) (EVar 22)) (EVar 24))) ;;
      SSet 27 (EAt (EVar 2) 16 (EBin OAdd u32 (EBin OAdd u32 (EVar 11) (EBin OMul u32 (EInt 8) (EVar 12))) (EVar 24))) ;;
      SSet 28 (EBin OXor u64 (ELoad 8 (EVar 26)) (ELoad 8 (EVar 27))) ;;
      SSet 29 (EBin OXor u64 (ELoad 8 (EAt (EVar 26) 1 (EInt 8))) (ELoad 8 (EAt (EVar 27) 1 (EInt 8)))) ;;
      SStore 8 (EVar 25) (EVar 28) ;;
      SStore 8 (EAt (EVar 25) 1 (EInt 8)) (EVar 29)) ;;
    SIf (ECond (EBin OEq s32 (EVar 3) (EInt 0)) (EBin ONe s32 (EBin OEq s32 (EVar 12) (EInt 0)) (EInt 0)) (EInt 0))
      (
      SSet 30 (ELoad 1 (EAt (EGlob 2) 1 (EVar 13))) ;;
      SSet 13 (EBin OAdd u32 (EVar 13) (EInt 1)) ;;
      SAlloc 31 (EInt 128) ;;
      SSet 32 (EInt 0) ;;
      SLoop (EBin OLt s32 (EVar 32) (EInt 8))
        (
        SSet 32 (EBin OAdd u32 (EVar 32) (EInt 1)))
        (
        SSet 33 (EAt (EVar 31) 16 (EVar 32)) ;;
        SSet 34 (EUn ONeg u64 (EBin OAnd u64 (EUn OCast u64 (EBin OAnd s32 (EBin OShr s32 (EVar 30) (EVar 32)) (EInt 1))) (EInt 1))) ;;
        SSet 35 (EBin OAnd u64 (ELoad 8 (EVar 16)) (EVar 34)) ;;
        SSet 36 (EBin OAnd u64 (ELoad 8 (EAt (EVar 16) 1 (EInt 8))) (EVar 34)) ;;
        SStore 8 (EVar 33) (EVar 35) ;;
        SStore 8 (EAt (EVar 33) 1 (EInt 8)) (EVar 36) ;;
        SSet 37 (EAt (EVar 23) 16 (EVar 32)) ;;
        SSet 38 (EAt (EVar 23) 16 (EVar 32)) ;;
        SSet 39 (EAt (EVar 31) 16 (EVar 32)) ;;
        SSet 40 (EBin OXor u64 (ELoad 8 (EVar 38)) (ELoad 8 (EVar 39))) ;;
        SSet 41 (EBin OXor u64 (ELoad 8 (EAt (EVar 38) 1 (EInt 8))) (ELoad 8 (EAt (EVar 39) 1 (EInt 8)))) ;;
        SStore 8 (EVar 37) (EVar 40) ;;
        SStore 8 (EAt (EVar 37) 1 (EInt 8)) (EVar 41)))
      SSkip ;;
    SSet 42 (EInt 0) ;;
    SLoop (EBin OLt s32 (EVar 42) (EInt 8))
      (
      SSet 42 (EBin OAdd u32 (EVar 42) (EInt 1)))
      (
      SSet 43 (EAt (EVar 6) 16 (EBin OAdd u32 (EVar 42) (EBin OMul u32 (EInt 8) (EVar 22)))) ;;
      SSet 44 (EAt (EVar 23) 16 (EDiv OMod u32 (EBin OAdd u32 (EVar 42) (EInt 7)) (EInt 8))) ;;
      SSet 45 (EAt (EVar 23) 16 (EDiv OMod u32 (EBin OAdd u32 (EVar 42) (EInt 5)) (EInt 8))) ;;
      SSet 46 (EAt (EVar 23) 16 (EDiv OMod u32 (EBin OAdd u32 (EVar 42) (EInt 2)) (EInt 8))) ;;
      SSet 47 (EBin OXor u64 (EBin OXor u64 (ELoad 8 (EVar 44)) (ELoad 8 (EVar 45))) (ELoad 8 (EVar 46))) ;;
      SSet 48 (EBin OXor u64 (EBin OXor u64 (ELoad 8 (EAt (EVar 44) 1 (EInt 8))) (ELoad 8 (EAt (EVar 45) 1 (EInt 8)))) (ELoad 8 (EAt (EVar 46) 1 (EInt 8)))) ;;
      SStore 8 (EVar 43) (EVar 47) ;;
      SStore 8 (EAt (EVar 43) 1 (EInt 8)) (EVar 48)) ;;
    SSet 49 (EAt (EVar 6) 16 (EBin OAdd u32 (EInt 0) (EBin OMul u32 (EInt 8) (EVar 22)))) ;;
    SSet 50 (EAt (EVar 6) 16 (EBin OAdd u32 (EInt 0) (EBin OMul u32 (EInt 8) (EVar 22)))) ;;
    SSet 51 (EUn ONeg u64 (EBin OAnd u64 (EVar 15) (EInt 1))) ;;
    SSet 52 (EBin OXor u64 (ELoad 8 (EVar 50)) (EBin OAnd u64 (ELoad 8 (EVar 16)) (EVar 51))) ;;
    SSet 53 (EBin OXor u64 (ELoad 8 (EAt (EVar 50) 1 (EInt 8))) (EBin OAnd u64 (ELoad 8 (EAt (EVar 16) 1 (EInt 8))) (EVar 51))) ;;
    SStore 8 (EVar 49) (EVar 52) ;;
    SStore 8 (EAt (EVar 49) 1 (EInt 8)) (EVar 53) ;;
    SSet 54 (EAt (EVar 6) 16 (EBin OAdd u32 (EInt 2) (EBin OMul u32 (EInt 8) (EVar 22)))) ;;
    SSet 55 (EAt (EVar 6) 16 (EBin OAdd u32 (EInt 2) (EBin OMul u32 (EInt 8) (EVar 22)))) ;;
    SSet 56 (EUn ONeg u64 (EBin OAnd u64 (EVar 15) (EInt 1))) ;;
    SSet 57 (EBin OXor u64 (ELoad 8 (EVar 55)) (EBin OAnd u64 (ELoad 8 (EVar 16)) (EVar 56))) ;;
    SSet 58 (EBin OXor u64 (ELoad 8 (EAt (EVar 55) 1 (EInt 8))) (EBin OAnd u64 (ELoad 8 (EAt (EVar 16) 1 (EInt 8))) (EVar 56))) ;;
    SStore 8 (EVar 54) (EVar 57) ;;
    SStore 8 (EAt (EVar 54) 1 (EInt 8)) (EVar 58) ;;
    SSet 12 (EBin OAdd u32 (EVar 12) (EInt 1)) ;;
    SIf (EBin OEq s32 (EVar 12) (EInt 4))
      (
      SSet 12 (EInt 0) ;;
      SSet 11 (EBin OAdd u32 (EVar 11) (EInt 128)))
      SSkip)).

(** faest_aes.c:284-332, aes_key_schedule_constraints_Mkey_0_128.
    Variables: 1 = w, 2 = v, 3 = a0_ctx, 4 = a1_ctx, 5 = k, 6 = vk, 7 = params, 8 = w_dash, 9 = v_w_dash, 10 = iwd, 11 = j, 12 = bf_k_hat, 13 = bf_v_k_hat, 14 = bf_w_dash_hat, 15 = bf_v_w_dash_hat, 16 = r, 25 = r, 26 = tmp. *)
Definition c_aes_key_schedule_constraints_Mkey_0_128 : func := Func [1%positive; 2%positive; 3%positive; 4%positive; 5%positive; 6%positive; 7%positive] (
  SIf (EBin OEq s32 (EInt 40) (ELoad 2 (EAt (EVar 7) 1 (EInt 4))))
    SSkip
    (
    SFail) ;;
  SCall None f_aes_key_schedule_forward_1 [(EVar 1); (EVar 5); (EVar 7)] ;;
  SCall None f_aes_key_schedule_forward_128 [(EVar 2); (EVar 6)] ;;
  SAlloc 8 (EInt 40) ;;
  SCall None f_aes_key_schedule_backward_1 [(EAt (EVar 1) 1 (EInt 16)); (EVar 5); (EVar 8); (EVar 7)] ;;
  SAlloc 9 (EInt 5120) ;;
  SCall None f_aes_key_schedule_backward_128 [(EAt (EVar 2) 16 (EInt 128)); (EVar 6); (EInt 1); (EInt 0); ENull; (EVar 9)] ;;
  SSet 10 (EInt 96) ;;
  SSet 11 (EInt 0) ;;
  SLoop (EBin OLt s32 (EVar 11) (EInt 10))
    (
    SSet 11 (EBin OAdd u32 (EVar 11) (EInt 1)))
    (
    SAlloc 12 (EInt 64) ;;
    SAlloc 13 (EInt 64) ;;
    SAlloc 14 (EInt 64) ;;
    SAlloc 15 (EInt 64) ;;
    SSet 16 (EInt 0) ;;
    SLoop (EBin OLe s32 (EVar 16) (EInt 3))
      (
      SSet 16 (EBin OAdd u32 (EVar 16) (EInt 1)))
      (
      SSet 17 (EAt (EVar 12) 16 (EDiv OMod u32 (EBin OAdd u32 (EVar 16) (EInt 3)) (EInt 4))) ;;
      SAlloc 18 (EInt 16) ;;
      SCall None f_bf128_byte_combine_bits [(EVar 18); (ELoad 1 (EAt (EVar 5) 1 (EDiv ODiv u32 (EBin OAdd u32 (EVar 10) (EBin OMul u32 (EInt 8) (EVar 16))) (EInt 8))))] ;;
      SCopy (EVar 17) (EVar 18) (EInt 16) ;;
      SSet 19 (EAt (EVar 13) 16 (EDiv OMod u32 (EBin OAdd u32 (EVar 16) (EInt 3)) (EInt 4))) ;;
      SAlloc 20 (EInt 16) ;;
      SCall None f_bf128_byte_combine [(EVar 20); (EAt (EVar 6) 16 (EBin OAdd u32 (EVar 10) (EBin OMul u32 (EInt 8) (EVar 16))))] ;;
      SCopy (EVar 19) (EVar 20) (EInt 16) ;;
      SSet 21 (EAt (EVar 14) 16 (EVar 16)) ;;
      SAlloc 22 (EInt 16) ;;
      SCall None f_bf128_byte_combine_bits [(EVar 22); (ELoad 1 (EAt (EVar 8) 1 (EDiv ODiv u32 (EBin OAdd u32 (EBin OMul u32 (EInt 32) (EVar 11)) (EBin OMul u32 (EInt 8) (EVar 16))) (EInt 8))))] ;;
      SCopy (EVar 21) (EVar 22) (EInt 16) ;;
      SSet 23 (EAt (EVar 15) 16 (EVar 16)) ;;
      SAlloc 24 (EInt 16) ;;
      SCall None f_bf128_byte_combine [(EVar 24); (EAt (EVar 9) 16 (EBin OAdd u32 (EBin OMul u32 (EInt 32) (EVar 11)) (EBin OMul u32 (EInt 8) (EVar 16))))] ;;
      SCopy (EVar 23) (EVar 24) (EInt 16)) ;;
    SSet 25 (EInt 0) ;;
    SLoop (EBin OLe s32 (EVar 25) (EInt 3))
      (
      SSet 25 (EBin OAdd u32 (EVar 25) (EInt 1)))
      (
      SAlloc 26 (EInt 16) ;;
      SCall None f_bf128_mul [(EVar 26); (EAt (EVar 13) 16 (EVar 25)); (EAt (EVar 15) 16 (EVar 25))] ;;
      SCall None f_zk_hash_128_update [(EVar 3); (EVar 26)] ;;
      SSet 27 (EAt (EVar 12) 16 (EVar 25)) ;;
      SSet 28 (EAt (EVar 13) 16 (EVar 25)) ;;
      SAlloc 29 (EInt 16) ;;
      SSet 30 (EBin OXor u64 (ELoad 8 (EVar 27)) (ELoad 8 (EVar 28))) ;;
      SSet 31 (EBin OXor u64 (ELoad 8 (EAt (EVar 27) 1 (EInt 8))) (ELoad 8 (EAt (EVar 28) 1 (EInt 8)))) ;;
      SStore 8 (EVar 29) (EVar 30) ;;
      SStore 8 (EAt (EVar 29) 1 (EInt 8)) (EVar 31) ;;
      SSet 32 (EAt (EVar 14) 16 (EVar 25)) ;;
      SSet 33 (EAt (EVar 15) 16 (EVar 25)) ;;
      SAlloc 34 (EInt 16) ;;
      SSet 35 (EBin OXor u64 (ELoad 8 (EVar 32)) (ELoad 8 (EVar 33))) ;;
      SSet 36 (EBin OXor u64 (ELoad 8 (EAt (EVar 32) 1 (EInt 8))) (ELoad 8 (EAt (EVar 33) 1 (EInt 8)))) ;;
      SStore 8 (EVar 34) (EVar 35) ;;
      SStore 8 (EAt (EVar 34) 1 (EInt 8)) (EVar 36) ;;
      SAlloc 37 (EInt 16) ;;
      SCall None f_bf128_mul [(EVar 37); (EVar 29); (EVar 34)] ;;
      SAlloc 38 (EInt 16) ;;
      SCall None f_bf128_one [(EVar 38)] ;;
      SAlloc 39 (EInt 16) ;;
      SSet 40 (EBin OXor u64 (EBin OXor u64 (ELoad 8 (EVar 37)) (ELoad 8 (EVar 38))) (ELoad 8 (EVar 26))) ;;
      SSet 41 (EBin OXor u64 (EBin OXor u64 (ELoad 8 (EAt (EVar 37) 1 (EInt 8))) (ELoad 8 (EAt (EVar 38) 1 (EInt 8)))) (ELoad 8 (EAt (EVar 26) 1 (EInt 8)))) ;;
      SStore 8 (EVar 39) (EVar 40) ;;
      SStore 8 (EAt (EVar 39) 1 (EInt 8)) (EVar 41) ;;
      SCall None f_zk_hash_128_update [(EVar 4); (EVar 39)]) ;;
    SSet 10 (EBin OAdd u32 (EVar 10) (EInt 128)))).

(** faest_aes.c:334-362, aes_key_schedule_constraints_Mkey_1_128.
    Variables: 1 = q, 2 = delta, 3 = b0_ctx, 4 = qk, 5 = q_w_dash, 6 = bf_delta, 7 = delta_squared, 8 = iwd, 9 = j, 10 = bf_q_hat_k, 11 = bf_q_hat_w_dash, 12 = r, 17 = r, 18 = bf_tmp. *)
Definition c_aes_key_schedule_constraints_Mkey_1_128 : func := Func [1%positive; 2%positive; 3%positive; 4%positive] (
  SCall None f_aes_key_schedule_forward_128 [(EVar 1); (EVar 4)] ;;
  SAlloc 5 (EInt 5120) ;;
  SCall None f_aes_key_schedule_backward_128 [(EAt (EVar 1) 16 (EInt 128)); (EVar 4); (EInt 0); (EInt 1); (EVar 2); (EVar 5)] ;;
  SAlloc 6 (EInt 16) ;;
  SCall None f_bf128_load [(EVar 6); (EVar 2)] ;;
  SAlloc 7 (EInt 16) ;;
  SCall None f_bf128_mul [(EVar 7); (EVar 6); (EVar 6)] ;;
  SSet 8 (EInt 96) ;;
  SSet 9 (EInt 0) ;;
  SLoop (EBin OLt s32 (EVar 9) (EInt 10))
    (
    SSet 9 (EBin OAdd u32 (EVar 9) (EInt 1)))
    (
    SAlloc 10 (EInt 64) ;;
    SAlloc 11 (EInt 64) ;;
    SSet 12 (EInt 0) ;;
    SLoop (EBin OLe s32 (EVar 12) (EInt 3))
      (
      SSet 12 (EBin OAdd u32 (EVar 12) (EInt 1)))
      (
      SSet 13 (EAt (EVar 10) 16 (EDiv OMod u32 (EBin OAdd u32 (EVar 12) (EInt 3)) (EInt 4))) ;;
      SAlloc 14 (EInt 16) ;;
      SCall None f_bf128_byte_combine [(EVar 14); (EAt (EVar 4) 16 (EBin OAdd u32 (EVar 8) (EBin OMul u32 (EInt 8) (EVar 12))))] ;;
      SCopy (EVar 13) (EVar 14) (EInt 16) ;;
      SSet 15 (EAt (EVar 11) 16 (EVar 12)) ;;
      SAlloc 16 (EInt 16) ;;
      SCall None f_bf128_byte_combine [(EVar 16); (EAt (EVar 5) 16 (EBin OAdd u32 (EBin OMul u32 (EInt 32) (EVar 9)) (EBin OMul u32 (EInt 8) (EVar 12))))] ;;
      SCopy (EVar 15) (EVar 16) (EInt 16)) ;;
    SSet 17 (EInt 0) ;;
    SLoop (EBin OLe s32 (EVar 17) (EInt 3))
      (
      SSet 17 (EBin OAdd u32 (EVar 17) (EInt 1)))
      (
      SAlloc 18 (EInt 16) ;;
      SCall None f_bf128_mul [(EVar 18); (EAt (EVar 10) 16 (EVar 17)); (EAt (EVar 11) 16 (EVar 17))] ;;
      SAlloc 19 (EInt 16) ;;
      SSet 20 (EBin OXor u64 (ELoad 8 (EVar 18)) (ELoad 8 (EVar 7))) ;;
      SSet 21 (EBin OXor u64 (ELoad 8 (EAt (EVar 18) 1 (EInt 8))) (ELoad 8 (EAt (EVar 7) 1 (EInt 8)))) ;;
      SStore 8 (EVar 19) (EVar 20) ;;
      SStore 8 (EAt (EVar 19) 1 (EInt 8)) (EVar 21) ;;
      SCall None f_zk_hash_128_update [(EVar 3); (EVar 19)]) ;;
    SSet 8 (EBin OAdd u32 (EVar 8) (EInt 128)))).

(** faest_aes.c:364-419, aes_enc_forward_128_1.
    Variables: 1 = x, 2 = xk, 3 = in, 4 = bf_y, 5 = i, 6 = xin, 12 = bf_two, 13 = bf_three, 14 = j, 15 = c, 16 = ix, 17 = ik, 18 = iy, 19 = bf_x_hat, 20 = bf_xk_hat, 21 = r. *)
Definition c_aes_enc_forward_128_1 : func := Func [1%positive; 2%positive; 3%positive; 4%positive] (
  SSet 5 (EInt 0) ;;
  SLoop (EBin OLt s32 (EVar 5) (EInt 16))
    (
    SSet 5 (EBin OAdd u32 (EVar 5) (EInt 1)))
    (
    SSet 6 (ELoad 1 (EAt (EVar 3) 1 (EVar 5))) ;;
    SSet 7 (EAt (EVar 4) 16 (EVar 5)) ;;
    SAlloc 8 (EInt 16) ;;
    SCall None f_bf128_byte_combine_bits [(EVar 8); (EVar 6)] ;;
    SAlloc 9 (EInt 16) ;;
    SCall None f_bf128_byte_combine_bits [(EVar 9); (ELoad 1 (EAt (EVar 2) 1 (EVar 5)))] ;;
    SSet 10 (EBin OXor u64 (ELoad 8 (EVar 8)) (ELoad 8 (EVar 9))) ;;
    SSet 11 (EBin OXor u64 (ELoad 8 (EAt (EVar 8) 1 (EInt 8))) (ELoad 8 (EAt (EVar 9) 1 (EInt 8)))) ;;
    SStore 8 (EVar 7) (EVar 10) ;;
    SStore 8 (EAt (EVar 7) 1 (EInt 8)) (EVar 11)) ;;
  SAlloc 12 (EInt 16) ;;
  SCall None f_bf128_byte_combine_bits [(EVar 12); (EInt 2)] ;;
  SAlloc 13 (EInt 16) ;;
  SCall None f_bf128_byte_combine_bits [(EVar 13); (EInt 3)] ;;
  SSet 14 (EInt 1) ;;
  SLoop (EBin OLt s32 (EVar 14) (EInt 10))
    (
    SSet 14 (EBin OAdd u32 (EVar 14) (EInt 1)))
    (
    SSet 15 (EInt 0) ;;
    SLoop (EBin OLe s32 (EVar 15) (EInt 3))
      (
      SSet 15 (EBin OAdd u32 (EVar 15) (EInt 1)))
      (
      (
      (
      SSet 16 (EBin OAdd u32 (EBin OMul u32 (EInt 128) (EBin OSub u32 (EVar 14) (EInt 1))) (EBin OMul u32 (EInt 32) (EVar 15))) ;;
      SSet 17 (EBin OAdd u32 (EBin OMul u32 (EInt 128) (EVar 14)) (EBin OMul u32 (EInt 32) (EVar 15))) ;;
      SSet 18 (EBin OAdd u32 (EBin OMul u32 (EInt 16) (EVar 14)) (EBin OMul u32 (EInt 4) (EVar 15))) ;;
      SAlloc 19 (EInt 64) ;;
      SAlloc 20 (EInt 64) ;;
      SSet 21 (EInt 0) ;;
      SLoop (EBin OLe s32 (EVar 21) (EInt 3))
        (
        SSet 21 (EBin OAdd u32 (EVar 21) (EInt 1)))
        (
        SSet 22 (EAt (EVar 19) 16 (EVar 21)) ;;
        SAlloc 23 (EInt 16) ;;
        SCall None f_bf128_byte_combine_bits [(EVar 23); (ELoad 1 (EAt (EVar 1) 1 (EDiv ODiv u32 (EBin OAdd u32 (EVar 16) (EBin OMul u32 (EInt 8) (EVar 21))) (EInt 8))))] ;;
        SCopy (EVar 22) (EVar 23) (EInt 16) ;;
        SSet 24 (EAt (EVar 20) 16 (EVar 21)) ;;
        SAlloc 25 (EInt 16) ;;
        SCall None f_bf128_byte_combine_bits [(EVar 25); (ELoad 1 (EAt (EVar 2) 1 (EDiv ODiv u32 (EBin OAdd u32 (EVar 17) (EBin OMul u32 (EInt 8) (EVar 21))) (EInt 8))))] ;;
        SCopy (EVar 24) (EVar 25) (EInt 16)) ;;
      SSet 26 (EAt (EVar 4) 16 (EBin OAdd u32 (EVar 18) (EInt 0))) ;;
      SAlloc 27 (EInt 16) ;;
      SCall None f_bf128_mul [(EVar 27); (EVar 19); (EVar 12)] ;;
      SSet 28 (EBin OXor u64 (ELoad 8 (EVar 20)) (ELoad 8 (EVar 27))) ;;
      SSet 29 (EBin OXor u64 (ELoad 8 (EAt (EVar 20) 1 (EInt 8))) (ELoad 8 (EAt (EVar 27) 1 (EInt 8)))) ;;
      SStore 8 (EVar 26) (EVar 28) ;;
      SStore 8 (EAt (EVar 26) 1 (EInt 8)) (EVar 29) ;;
      SSet 30 (EAt (EVar 4) 16 (EBin OAdd u32 (EVar 18) (EInt 0))) ;;
      SSet 31 (EAt (EVar 4) 16 (EBin OAdd u32 (EVar 18) (EInt 0))) ;;
      SAlloc 32 (EInt 16) ;;
      SCall None f_bf128_mul [(EVar 32); (EAt (EVar 19) 16 (EInt 1)); (EVar 13)] ;;
      SSet 33 (EBin OXor u64 (ELoad 8 (EVar 31)) (ELoad 8 (EVar 32))) ;;
      SSet 34 (EBin OXor u64 (ELoad 8 (EAt (EVar 31) 1 (EInt 8))) (ELoad 8 (EAt (EVar 32) 1 (EInt 8)))) ;;
      SStore 8 (EVar 30) (EVar 33) ;;
      SStore 8 (EAt (EVar 30) 1 (EInt 8)) (EVar 34) ;;
      SSet 35 (EAt (EVar 4) 16 (EBin OAdd u32 (EVar 18) (EInt 0))) ;;
      SSet 36 (EAt (EVar 4) 16 (EBin OAdd u32 (EVar 18) (EInt 0))) ;;
      SSet 37 (EAt (EVar 19) 16 (EInt 2)) ;;
      SSet 38 (EBin OXor u64 (ELoad 8 (EVar 36)) (ELoad 8 (EVar 37))) ;;
      SSet 39 (EBin OXor u64 (ELoad 8 (EAt (EVar 36) 1 (EInt 8))) (ELoad 8 (EAt (EVar 37) 1 (EInt 8)))) ;;
      SStore 8 (EVar 35) (EVar 38) ;;
      SStore 8 (EAt (EVar 35) 1 (EInt 8)) (EVar 39) ;;
      SSet 40 (EAt (EVar 4) 16 (EBin OAdd u32 (EVar 18) (EInt 0))) ;;
      SSet 41 (EAt (EVar 4) 16 (EBin OAdd u32 (EVar 18) (EInt 0)))) ;;
      (
      SSet 42 (EAt (EVar 19) 16 (EInt 3)) ;;
      SSet 43 (EBin OXor u64 (ELoad 8 (EVar 41)) (ELoad 8 (EVar 42))) ;;
      SSet 44 (EBin OXor u64 (ELoad 8 (EAt (EVar 41) 1 (EInt 8))) (ELoad 8 (EAt (EVar 42) 1 (EInt 8)))) ;;
      SStore 8 (EVar 40) (EVar 43) ;;
      SStore 8 (EAt (EVar 40) 1 (EInt 8)) (EVar 44) ;;
      SSet 45 (EAt (EVar 4) 16 (EBin OAdd u32 (EVar 18) (EInt 1))) ;;
      SSet 46 (EAt (EVar 20) 16 (EInt 1)) ;;
      SSet 47 (EBin OXor u64 (ELoad 8 (EVar 46)) (ELoad 8 (EVar 19))) ;;
      SSet 48 (EBin OXor u64 (ELoad 8 (EAt (EVar 46) 1 (EInt 8))) (ELoad 8 (EAt (EVar 19) 1 (EInt 8)))) ;;
      SStore 8 (EVar 45) (EVar 47) ;;
      SStore 8 (EAt (EVar 45) 1 (EInt 8)) (EVar 48) ;;
      SSet 49 (EAt (EVar 4) 16 (EBin OAdd u32 (EVar 18) (EInt 1))) ;;
      SSet 50 (EAt (EVar 4) 16 (EBin OAdd u32 (EVar 18) (EInt 1))) ;;
      SAlloc 51 (EInt 16) ;;
      SCall None f_bf128_mul [(EVar 51); (EAt (EVar 19) 16 (EInt 1)); (EVar 12)] ;;
      SSet 52 (EBin OXor u64 (ELoad 8 (EVar 50)) (ELoad 8 (EVar 51))) ;;
      SSet 53 (EBin OXor u64 (ELoad 8 (EAt (EVar 50) 1 (EInt 8))) (ELoad 8 (EAt (EVar 51) 1 (EInt 8)))) ;;
      SStore 8 (EVar 49) (EVar 52) ;;
      SStore 8 (EAt (EVar 49) 1 (EInt 8)) (EVar 53) ;;
      SSet 54 (EAt (EVar 4) 16 (EBin OAdd u32 (EVar 18) (EInt 1))) ;;
      SSet 55 (EAt (EVar 4) 16 (EBin OAdd u32 (EVar 18) (EInt 1))) ;;
      SAlloc 56 (EInt 16) ;;
      SCall None f_bf128_mul [(EVar 56); (EAt (EVar 19) 16 (EInt 2)); (EVar 13)] ;;
      SSet 57 (EBin OXor u64 (ELoad 8 (EVar 55)) (ELoad 8 (EVar 56))) ;;
      SSet 58 (EBin OXor u64 (ELoad 8 (EAt (EVar 55) 1 (EInt 8))) (ELoad 8 (EAt (EVar 56) 1 (EInt 8)))) ;;
      SStore 8 (EVar 54) (EVar 57) ;;
      SStore 8 (EAt (EVar 54) 1 (EInt 8)) (EVar 58) ;;
      SSet 59 (EAt (EVar 4) 16 (EBin OAdd u32 (EVar 18) (EInt 1))) ;;
      SSet 60 (EAt (EVar 4) 16 (EBin OAdd u32 (EVar 18) (EInt 1))) ;;
      SSet 61 (EAt (EVar 19) 16 (EInt 3)) ;;
      SSet 62 (EBin OXor u64 (ELoad 8 (EVar 60)) (ELoad 8 (EVar 61))))) ;;
      (
      (
      SSet 63 (EBin OXor u64 (ELoad 8 (EAt (EVar 60) 1 (EInt 8))) (ELoad 8 (EAt (EVar 61) 1 (EInt 8)))) ;;
      SStore 8 (EVar 59) (EVar 62) ;;
      SStore 8 (EAt (EVar 59) 1 (EInt 8)) (EVar 63) ;;
      SSet 64 (EAt (EVar 4) 16 (EBin OAdd u32 (EVar 18) (EInt 2))) ;;
      SSet 65 (EAt (EVar 20) 16 (EInt 2)) ;;
      SSet 66 (EBin OXor u64 (ELoad 8 (EVar 65)) (ELoad 8 (EVar 19))) ;;
      SSet 67 (EBin OXor u64 (ELoad 8 (EAt (EVar 65) 1 (EInt 8))) (ELoad 8 (EAt (EVar 19) 1 (EInt 8)))) ;;
      SStore 8 (EVar 64) (EVar 66) ;;
      SStore 8 (EAt (EVar 64) 1 (EInt 8)) (EVar 67) ;;
      SSet 68 (EAt (EVar 4) 16 (EBin OAdd u32 (EVar 18) (EInt 2))) ;;
      SSet 69 (EAt (EVar 4) 16 (EBin OAdd u32 (EVar 18) (EInt 2))) ;;
      SSet 70 (EAt (EVar 19) 16 (EInt 1)) ;;
      SSet 71 (EBin OXor u64 (ELoad 8 (EVar 69)) (ELoad 8 (EVar 70))) ;;
      SSet 72 (EBin OXor u64 (ELoad 8 (EAt (EVar 69) 1 (EInt 8))) (ELoad 8 (EAt (EVar 70) 1 (EInt 8)))) ;;
      SStore 8 (EVar 68) (EVar 71) ;;
      SStore 8 (EAt (EVar 68) 1 (EInt 8)) (EVar 72) ;;
      SSet 73 (EAt (EVar 4) 16 (EBin OAdd u32 (EVar 18) (EInt 2))) ;;
      SSet 74 (EAt (EVar 4) 16 (EBin OAdd u32 (EVar 18) (EInt 2))) ;;
      SAlloc 75 (EInt 16) ;;
      SCall None f_bf128_mul [(EVar 75); (EAt (EVar 19) 16 (EInt 2)); (EVar 12)] ;;
      SSet 76 (EBin OXor u64 (ELoad 8 (EVar 74)) (ELoad 8 (EVar 75))) ;;
      SSet 77 (EBin OXor u64 (ELoad 8 (EAt (EVar 74) 1 (EInt 8))) (ELoad 8 (EAt (EVar 75) 1 (EInt 8)))) ;;
      SStore 8 (EVar 73) (EVar 76) ;;
      SStore 8 (EAt (EVar 73) 1 (EInt 8)) (EVar 77) ;;
      SSet 78 (EAt (EVar 4) 16 (EBin OAdd u32 (EVar 18) (EInt 2))) ;;
      SSet 79 (EAt (EVar 4) 16 (EBin OAdd u32 (EVar 18) (EInt 2))) ;;
      SAlloc 80 (EInt 16) ;;
      SCall None f_bf128_mul [(EVar 80); (EAt (EVar 19) 16 (EInt 3)); (EVar 13)] ;;
      SSet 81 (EBin OXor u64 (ELoad 8 (EVar 79)) (ELoad 8 (EVar 80))) ;;
      SSet 82 (EBin OXor u64 (ELoad 8 (EAt (EVar 79) 1 (EInt 8))) (ELoad 8 (EAt (EVar 80) 1 (EInt 8)))) ;;
      SStore 8 (EVar 78) (EVar 81)) ;;
      (
      SStore 8 (EAt (EVar 78) 1 (EInt 8)) (EVar 82) ;;
      SSet 83 (EAt (EVar 4) 16 (EBin OAdd u32 (EVar 18) (EInt 3))) ;;
      SSet 84 (EAt (EVar 20) 16 (EInt 3)) ;;
      SAlloc 85 (EInt 16) ;;
      SCall None f_bf128_mul [(EVar 85); (EVar 19); (EVar 13)] ;;
      SSet 86 (EBin OXor u64 (ELoad 8 (EVar 84)) (ELoad 8 (EVar 85))) ;;
      SSet 87 (EBin OXor u64 (ELoad 8 (EAt (EVar 84) 1 (EInt 8))) (ELoad 8 (EAt (EVar 85) 1 (EInt 8)))) ;;
      SStore 8 (EVar 83) (EVar 86) ;;
      SStore 8 (EAt (EVar 83) 1 (EInt 8)) (EVar 87) ;;
      SSet 88 (EAt (EVar 4) 16 (EBin OAdd u32 (EVar 18) (EInt 3))) ;;
      SSet 89 (EAt (EVar 4) 16 (EBin OAdd u32 (EVar 18) (EInt 3))) ;;
      SSet 90 (EAt (EVar 19) 16 (EInt 1)) ;;
      SSet 91 (EBin OXor u64 (ELoad 8 (EVar 89)) (ELoad 8 (EVar 90))) ;;
      SSet 92 (EBin OXor u64 (ELoad 8 (EAt (EVar 89) 1 (EInt 8))) (ELoad 8 (EAt (EVar 90) 1 (EInt 8)))) ;;
      SStore 8 (EVar 88) (EVar 91) ;;
      SStore 8 (EAt (EVar 88) 1 (EInt 8)) (EVar 92) ;;
      SSet 93 (EAt (EVar 4) 16 (EBin OAdd u32 (EVar 18) (EInt 3))) ;;
      SSet 94 (EAt (EVar 4) 16 (EBin OAdd u32 (EVar 18) (EInt 3))) ;;
      SSet 95 (EAt (EVar 19) 16 (EInt 2)) ;;
      SSet 96 (EBin OXor u64 (ELoad 8 (EVar 94)) (ELoad 8 (EVar 95))) ;;
      SSet 97 (EBin OXor u64 (ELoad 8 (EAt (EVar 94) 1 (EInt 8))) (ELoad 8 (EAt (EVar 95) 1 (EInt 8)))) ;;
      SStore 8 (EVar 93) (EVar 96) ;;
      SStore 8 (EAt (EVar 93) 1 (EInt 8)) (EVar 97) ;;
      SSet 98 (EAt (EVar 4) 16 (EBin OAdd u32 (EVar 18) (EInt 3))) ;;
      SSet 99 (EAt (EVar 4) 16 (EBin OAdd u32 (EVar 18) (EInt 3))) ;;
      SAlloc 100 (EInt 16) ;;
      SCall None f_bf128_mul [(EVar 100); (EAt (EVar 19) 16 (EInt 3)); (EVar 12)] ;;
      SSet 101 (EBin OXor u64 (ELoad 8 (EVar 99)) (ELoad 8 (EVar 100))) ;;
      SSet 102 (EBin OXor u64 (ELoad 8 (EAt (EVar 99) 1 (EInt 8))) (ELoad 8 (EAt (EVar 100) 1 (EInt 8)))) ;;
      SStore 8 (EVar 98) (EVar 101) ;;
      SStore 8 (EAt (EVar 98) 1 (EInt 8)) (EVar 102)))))).

(** faest_aes.c:421-478, aes_enc_forward_128.
    Variables: 1 = bf_x, 2 = bf_xk, 3 = in, 4 = Mtag, 5 = Mkey, 6 = delta, 7 = bf_y, 8 = bf_delta, 12 = bf_factor, 17 = i, 18 = bf_xin, 19 = j, 29 = bf_two, 30 = bf_three, 31 = j, 32 = c, 33 = ix, 34 = ik, 35 = iy, 36 = bf_x_hat, 37 = bf_xk_hat, 38 = r. *)
Definition c_aes_enc_forward_128 : func := Func [1%positive; 2%positive; 3%positive; 4%positive; 5%positive; 6%positive; 7%positive] (
  SAlloc 8 (EInt 16) ;;
  SIf (EBin OEq s32 (EIsNull (EVar 6)) (EInt 0))
    (
    SAlloc 9 (EInt 16) ;;
    SCall None f_bf128_load [(EVar 9); (EVar 6)] ;;
    SSet 11 (EVar 9))
    (
    SAlloc 10 (EInt 16) ;;
    SCall None f_bf128_zero [(EVar 10)] ;;
    SSet 11 (EVar 10)) ;;
  SCopy (EVar 8) (EVar 11) (EInt 16) ;;
  SAlloc 12 (EInt 16) ;;
  SSet 13 (EUn ONeg u64 (EBin OAnd u64 (EVar 5) (EInt 1))) ;;
  SAlloc 14 (EInt 16) ;;
  SCall None f_bf128_from_bit [(EVar 14); (EUn OCast u8 (EBin OXor s32 (EInt 1) (EVar 5)))] ;;
  SSet 15 (EBin OXor u64 (EBin OAnd u64 (ELoad 8 (EVar 8)) (EVar 13)) (ELoad 8 (EVar 14))) ;;
  SSet 16 (EBin OXor u64 (EBin OAnd u64 (ELoad 8 (EAt (EVar 8) 1 (EInt 8))) (EVar 13)) (ELoad 8 (EAt (EVar 14) 1 (EInt 8)))) ;;
  SStore 8 (EVar 12) (EVar 15) ;;
  SStore 8 (EAt (EVar 12) 1 (EInt 8)) (EVar 16) ;;
  SSet 17 (EInt 0) ;;
  SLoop (EBin OLt s32 (EVar 17) (EInt 16))
    (
    SSet 17 (EBin OAdd u32 (EVar 17) (EInt 1)))
    (
    SAlloc 18 (EInt 128) ;;
    SSet 19 (EInt 0) ;;
    SLoop (EBin OLt s32 (EVar 19) (EInt 8))
      (
      SSet 19 (EBin OAdd u32 (EVar 19) (EInt 1)))
      (
      SSet 20 (EAt (EVar 18) 16 (EVar 19)) ;;
      SSet 21 (EUn ONeg u64 (EBin OAnd u64 (EUn OCast u64 (EBin OAnd s32 (EBin OXor s32 (EInt 1) (EVar 4)) (EBin OAnd s32 (EBin OShr s32 (ELoad 1 (EAt (EVar 3) 1 (EVar 17))) (EVar 19)) (EInt 1)))) (EInt 1))) ;;
      SSet 22 (EBin OAnd u64 (ELoad 8 (EVar 12)) (EVar 21)) ;;
      SSet 23 (EBin OAnd u64 (ELoad 8 (EAt (EVar 12) 1 (EInt 8))) (EVar 21)) ;;
      SStore 8 (EVar 20) (EVar 22) ;;
      SStore 8 (EAt (EVar 20) 1 (EInt 8)) (EVar 23)) ;;
    SSet 24 (EAt (EVar 7) 16 (EVar 17)) ;;
    SAlloc 25 (EInt 16) ;;
    SCall None f_bf128_byte_combine [(EVar 25); (EVar 18)] ;;
    SAlloc 26 (EInt 16) ;;
    SCall None f_bf128_byte_combine [(EVar 26); (EAt (EVar 2) 16 (EBin OMul u32 (EInt 8) (EVar 17)))] ;;
    SSet 27 (EBin OXor u64 (ELoad 8 (EVar 25)) (ELoad 8 (EVar 26))) ;;
    SSet 28 (EBin OXor u64 (ELoad 8 (EAt (EVar 25) 1 (EInt 8))) (ELoad 8 (EAt (EVar 26) 1 (EInt 8)))) ;;
    SStore 8 (EVar 24) (EVar 27) ;;
    SStore 8 (EAt (EVar 24) 1 (EInt 8)) (EVar 28)) ;;
  SAlloc 29 (EInt 16) ;;
  SCall None f_bf128_byte_combine_bits [(EVar 29); (EInt 2)] ;;
  SAlloc 30 (EInt 16) ;;
  SCall None f_bf128_byte_combine_bits [(EVar 30); (EInt 3)] ;;
  SSet 31 (EInt 1) ;;
  SLoop (EBin OLt s32 (EVar 31) (EInt 10))
    (
    SSet 31 (EBin OAdd u32 (EVar 31) (EInt 1)))
    (
    SSet 32 (EInt 0) ;;
    SLoop (EBin OLe s32 (EVar 32) (EInt 3))
      (
      SSet 32 (EBin OAdd u32 (EVar 32) (EInt 1)))
      (
      (
      (
      SSet 33 (EBin OAdd u32 (EBin OMul u32 (EInt 128) (EBin OSub u32 (EVar 31) (EInt 1))) (EBin OMul u32 (EInt 32) (EVar 32))) ;;
      SSet 34 (EBin OAdd u32 (EBin OMul u32 (EInt 128) (EVar 31)) (EBin OMul u32 (EInt 32) (EVar 32))) ;;
      SSet 35 (EBin OAdd u32 (EBin OMul u32 (EInt 16) (EVar 31)) (EBin OMul u32 (EInt 4) (EVar 32))) ;;
      SAlloc 36 (EInt 64) ;;
      SAlloc 37 (EInt 64) ;;
      SSet 38 (EInt 0) ;;
      SLoop (EBin OLe s32 (EVar 38) (EInt 3))
        (
        SSet 38 (EBin OAdd u32 (EVar 38) (EInt 1)))
        (
        SSet 39 (EAt (EVar 36) 16 (EVar 38)) ;;
        SAlloc 40 (EInt 16) ;;
        SCall None f_bf128_byte_combine [(EVar 40); (EAt (EVar 1) 16 (EBin OAdd u32 (EVar 33) (EBin OMul u32 (EInt 8) (EVar 38))))] ;;
        SCopy (EVar 39) (EVar 40) (EInt 16) ;;
        SSet 41 (EAt (EVar 37) 16 (EVar 38)) ;;
        SAlloc 42 (EInt 16) ;;
        SCall None f_bf128_byte_combine [(EVar 42); (EAt (EVar 2) 16 (EBin OAdd u32 (EVar 34) (EBin OMul u32 (EInt 8) (EVar 38))))] ;;
        SCopy (EVar 41) (EVar 42) (EInt 16)) ;;
      SSet 43 (EAt (EVar 7) 16 (EBin OAdd u32 (EVar 35) (EInt 0))) ;;
      SAlloc 44 (EInt 16) ;;
      SCall None f_bf128_mul [(EVar 44); (EVar 36); (EVar 29)] ;;
      SSet 45 (EBin OXor u64 (ELoad 8 (EVar 37)) (ELoad 8 (EVar 44))) ;;
      SSet 46 (EBin OXor u64 (ELoad 8 (EAt (EVar 37) 1 (EInt 8))) (ELoad 8 (EAt (EVar 44) 1 (EInt 8)))) ;;
      SStore 8 (EVar 43) (EVar 45) ;;
      SStore 8 (EAt (EVar 43) 1 (EInt 8)) (EVar 46) ;;
      SSet 47 (EAt (EVar 7) 16 (EBin OAdd u32 (EVar 35) (EInt 0))) ;;
      SSet 48 (EAt (EVar 7) 16 (EBin OAdd u32 (EVar 35) (EInt 0))) ;;
      SAlloc 49 (EInt 16) ;;
      SCall None f_bf128_mul [(EVar 49); (EAt (EVar 36) 16 (EInt 1)); (EVar 30)] ;;
      SSet 50 (EBin OXor u64 (ELoad 8 (EVar 48)) (ELoad 8 (EVar 49))) ;;
      SSet 51 (EBin OXor u64 (ELoad 8 (EAt (EVar 48) 1 (EInt 8))) (ELoad 8 (EAt (EVar 49) 1 (EInt 8)))) ;;
      SStore 8 (EVar 47) (EVar 50) ;;
      SStore 8 (EAt (EVar 47) 1 (EInt 8)) (EVar 51) ;;
      SSet 52 (EAt (EVar 7) 16 (EBin OAdd u32 (EVar 35) (EInt 0))) ;;
      SSet 53 (EAt (EVar 7) 16 (EBin OAdd u32 (EVar 35) (EInt 0))) ;;
      SSet 54 (EAt (EVar 36) 16 (EInt 2)) ;;
      SSet 55 (EBin OXor u64 (ELoad 8 (EVar 53)) (ELoad 8 (EVar 54))) ;;
      SSet 56 (EBin OXor u64 (ELoad 8 (EAt (EVar 53) 1 (EInt 8))) (ELoad 8 (EAt (EVar 54) 1 (EInt 8)))) ;;
      SStore 8 (EVar 52) (EVar 55) ;;
      SStore 8 (EAt (EVar 52) 1 (EInt 8)) (EVar 56) ;;
      SSet 57 (EAt (EVar 7) 16 (EBin OAdd u32 (EVar 35) (EInt 0))) ;;
      SSet 58 (EAt (EVar 7) 16 (EBin OAdd u32 (EVar 35) (EInt 0)))) ;;
      (
      SSet 59 (EAt (EVar 36) 16 (EInt 3)) ;;
      SSet 60 (EBin OXor u64 (ELoad 8 (EVar 58)) (ELoad 8 (EVar 59))) ;;
      SSet 61 (EBin OXor u64 (ELoad 8 (EAt (EVar 58) 1 (EInt 8))) (ELoad 8 (EAt (EVar 59) 1 (EInt 8)))) ;;
      SStore 8 (EVar 57) (EVar 60) ;;
      SStore 8 (EAt (EVar 57) 1 (EInt 8)) (EVar 61) ;;
      SSet 62 (EAt (EVar 7) 16 (EBin OAdd u32 (EVar 35) (EInt 1))) ;;
      SSet 63 (EAt (EVar 37) 16 (EInt 1)) ;;
      SSet 64 (EBin OXor u64 (ELoad 8 (EVar 63)) (ELoad 8 (EVar 36))) ;;
      SSet 65 (EBin OXor u64 (ELoad 8 (EAt (EVar 63) 1 (EInt 8))) (ELoad 8 (EAt (EVar 36) 1 (EInt 8)))) ;;
      SStore 8 (EVar 62) (EVar 64) ;;
      SStore 8 (EAt (EVar 62) 1 (EInt 8)) (EVar 65) ;;
      SSet 66 (EAt (EVar 7) 16 (EBin OAdd u32 (EVar 35) (EInt 1))) ;;
      SSet 67 (EAt (EVar 7) 16 (EBin OAdd u32 (EVar 35) (EInt 1))) ;;
      SAlloc 68 (EInt 16) ;;
      SCall None f_bf128_mul [(EVar 68); (EAt (EVar 36) 16 (EInt 1)); (EVar 29)] ;;
      SSet 69 (EBin OXor u64 (ELoad 8 (EVar 67)) (ELoad 8 (EVar 68))) ;;
      SSet 70 (EBin OXor u64 (ELoad 8 (EAt (EVar 67) 1 (EInt 8))) (ELoad 8 (EAt (EVar 68) 1 (EInt 8)))) ;;
      SStore 8 (EVar 66) (EVar 69) ;;
      SStore 8 (EAt (EVar 66) 1 (EInt 8)) (EVar 70) ;;
      SSet 71 (EAt (EVar 7) 16 (EBin OAdd u32 (EVar 35) (EInt 1))) ;;
      SSet 72 (EAt (EVar 7) 16 (EBin OAdd u32 (EVar 35) (EInt 1))) ;;
      SAlloc 73 (EInt 16) ;;
      SCall None f_bf128_mul [(EVar 73); (EAt (EVar 36) 16 (EInt 2)); (EVar 30)] ;;
      SSet 74 (EBin OXor u64 (ELoad 8 (EVar 72)) (ELoad 8 (EVar 73))) ;;
      SSet 75 (EBin OXor u64 (ELoad 8 (EAt (EVar 72) 1 (EInt 8))) (ELoad 8 (EAt (EVar 73) 1 (EInt 8)))) ;;
      SStore 8 (EVar 71) (EVar 74) ;;
      SStore 8 (EAt (EVar 71) 1 (EInt 8)) (EVar 75) ;;
      SSet 76 (EAt (EVar 7) 16 (EBin OAdd u32 (EVar 35) (EInt 1))) ;;
      SSet 77 (EAt (EVar 7) 16 (EBin OAdd u32 (EVar 35) (EInt 1))) ;;
      SSet 78 (EAt (EVar 36) 16 (EInt 3)) ;;
      SSet 79 (EBin OXor u64 (ELoad 8 (EVar 77)) (ELoad 8 (EVar 78))))) ;;
      (
      (
      SSet 80 (EBin OXor u64 (ELoad 8 (EAt (EVar 77) 1 (EInt 8))) (ELoad 8 (EAt (EVar 78) 1 (EInt 8)))) ;;
      SStore 8 (EVar 76) (EVar 79) ;;
      SStore 8 (EAt (EVar 76) 1 (EInt 8)) (EVar 80) ;;
      SSet 81 (EAt (EVar 7) 16 (EBin OAdd u32 (EVar 35) (EInt 2))) ;;
      SSet 82 (EAt (EVar 37) 16 (EInt 2)) ;;
      SSet 83 (EBin OXor u64 (ELoad 8 (EVar 82)) (ELoad 8 (EVar 36))) ;;
      SSet 84 (EBin OXor u64 (ELoad 8 (EAt (EVar 82) 1 (EInt 8))) (ELoad 8 (EAt (EVar 36) 1 (EInt 8)))) ;;
      SStore 8 (EVar 81) (EVar 83) ;;
      SStore 8 (EAt (EVar 81) 1 (EInt 8)) (EVar 84) ;;
      SSet 85 (EAt (EVar 7) 16 (EBin OAdd u32 (EVar 35) (EInt 2))) ;;
      SSet 86 (EAt (EVar 7) 16 (EBin OAdd u32 (EVar 35) (EInt 2))) ;;
      SSet 87 (EAt (EVar 36) 16 (EInt 1)) ;;
      SSet 88 (EBin OXor u64 (ELoad 8 (EVar 86)) (ELoad 8 (EVar 87))) ;;
      SSet 89 (EBin OXor u64 (ELoad 8 (EAt (EVar 86) 1 (EInt 8))) (ELoad 8 (EAt (EVar 87) 1 (EInt 8)))) ;;
      SStore 8 (EVar 85) (EVar 88) ;;
      SStore 8 (EAt (EVar 85) 1 (EInt 8)) (EVar 89) ;;
      SSet 90 (EAt (EVar 7) 16 (EBin OAdd u32 (EVar 35) (EInt 2))) ;;
      SSet 91 (EAt (EVar 7) 16 (EBin OAdd u32 (EVar 35) (EInt 2))) ;;
      SAlloc 92 (EInt 16) ;;
      SCall None f_bf128_mul [(EVar 92); (EAt (EVar 36) 16 (EInt 2)); (EVar 29)] ;;
      SSet 93 (EBin OXor u64 (ELoad 8 (EVar 91)) (ELoad 8 (EVar 92))) ;;
      SSet 94 (EBin OXor u64 (ELoad 8 (EAt (EVar 91) 1 (EInt 8))) (ELoad 8 (EAt (EVar 92) 1 (EInt 8)))) ;;
      SStore 8 (EVar 90) (EVar 93) ;;
      SStore 8 (EAt (EVar 90) 1 (EInt 8)) (EVar 94) ;;
      SSet 95 (EAt (EVar 7) 16 (EBin OAdd u32 (EVar 35) (EInt 2))) ;;
      SSet 96 (EAt (EVar 7) 16 (EBin OAdd u32 (EVar 35) (EInt 2))) ;;
      SAlloc 97 (EInt 16) ;;
      SCall None f_bf128_mul [(EVar 97); (EAt (EVar 36) 16 (EInt 3)); (EVar 30)] ;;
      SSet 98 (EBin OXor u64 (ELoad 8 (EVar 96)) (ELoad 8 (EVar 97))) ;;
      SSet 99 (EBin OXor u64 (ELoad 8 (EAt (EVar 96) 1 (EInt 8))) (ELoad 8 (EAt (EVar 97) 1 (EInt 8)))) ;;
      SStore 8 (EVar 95) (EVar 98)) ;;
      (
      SStore 8 (EAt (EVar 95) 1 (EInt 8)) (EVar 99) ;;
      SSet 100 (EAt (EVar 7) 16 (EBin OAdd u32 (EVar 35) (EInt 3))) ;;
      SSet 101 (EAt (EVar 37) 16 (EInt 3)) ;;
      SAlloc 102 (EInt 16) ;;
      SCall None f_bf128_mul [(EVar 102); (EVar 36); (EVar 30)] ;;
      SSet 103 (EBin OXor u64 (ELoad 8 (EVar 101)) (ELoad 8 (EVar 102))) ;;
      SSet 104 (EBin OXor u64 (ELoad 8 (EAt (EVar 101) 1 (EInt 8))) (ELoad 8 (EAt (EVar 102) 1 (EInt 8)))) ;;
      SStore 8 (EVar 100) (EVar 103) ;;
      SStore 8 (EAt (EVar 100) 1 (EInt 8)) (EVar 104) ;;
      SSet 105 (EAt (EVar 7) 16 (EBin OAdd u32 (EVar 35) (EInt 3))) ;;
      SSet 106 (EAt (EVar 7) 16 (EBin OAdd u32 (EVar 35) (EInt 3))) ;;
      SSet 107 (EAt (EVar 36) 16 (EInt 1)) ;;
      SSet 108 (EBin OXor u64 (ELoad 8 (EVar 106)) (ELoad 8 (EVar 107))) ;;
      SSet 109 (EBin OXor u64 (ELoad 8 (EAt (EVar 106) 1 (EInt 8))) (ELoad 8 (EAt (EVar 107) 1 (EInt 8)))) ;;
      SStore 8 (EVar 105) (EVar 108) ;;
      SStore 8 (EAt (EVar 105) 1 (EInt 8)) (EVar 109) ;;
      SSet 110 (EAt (EVar 7) 16 (EBin OAdd u32 (EVar 35) (EInt 3))) ;;
      SSet 111 (EAt (EVar 7) 16 (EBin OAdd u32 (EVar 35) (EInt 3))) ;;
      SSet 112 (EAt (EVar 36) 16 (EInt 2)) ;;
      SSet 113 (EBin OXor u64 (ELoad 8 (EVar 111)) (ELoad 8 (EVar 112))) ;;
      SSet 114 (EBin OXor u64 (ELoad 8 (EAt (EVar 111) 1 (EInt 8))) (ELoad 8 (EAt (EVar 112) 1 (EInt 8)))) ;;
      SStore 8 (EVar 110) (EVar 113) ;;
      SStore 8 (EAt (EVar 110) 1 (EInt 8)) (EVar 114) ;;
      SSet 115 (EAt (EVar 7) 16 (EBin OAdd u32 (EVar 35) (EInt 3))) ;;
      SSet 116 (EAt (EVar 7) 16 (EBin OAdd u32 (EVar 35) (EInt 3))) ;;
      SAlloc 117 (EInt 16) ;;
      SCall None f_bf128_mul [(EVar 117); (EAt (EVar 36) 16 (EInt 3)); (EVar 29)] ;;
      SSet 118 (EBin OXor u64 (ELoad 8 (EVar 116)) (ELoad 8 (EVar 117))) ;;
      SSet 119 (EBin OXor u64 (ELoad 8 (EAt (EVar 116) 1 (EInt 8))) (ELoad 8 (EAt (EVar 117) 1 (EInt 8)))) ;;
      SStore 8 (EVar 115) (EVar 118) ;;
      SStore 8 (EAt (EVar 115) 1 (EInt 8)) (EVar 119)))))).

(** faest_aes.c:480-510, aes_enc_backward_128_1.
    Variables: 1 = x, 2 = xk, 3 = out, 4 = y_out, 5 = xtilde, 6 = j, 7 = c, 8 = r, 9 = ird, 10 = xout, 14 = ytilde. *)
Definition c_aes_enc_backward_128_1 : func := Func [1%positive; 2%positive; 3%positive; 4%positive] (
  SSet 6 (EInt 0) ;;
  SLoop (EBin OLt s32 (EVar 6) (EInt 10))
    (
    SSet 6 (EBin OAdd u32 (EVar 6) (EInt 1)))
    (
    SSet 7 (EInt 0) ;;
    SLoop (EBin OLe s32 (EVar 7) (EInt 3))
      (
      SSet 7 (EBin OAdd u32 (EVar 7) (EInt 1)))
      (
      SSet 8 (EInt 0) ;;
      SLoop (EBin OLe s32 (EVar 8) (EInt 3))
        (
        SSet 8 (EBin OAdd u32 (EVar 8) (EInt 1)))
        (
        SSet 9 (EBin OAdd u32 (EBin OAdd u32 (EBin OMul u32 (EInt 128) (EVar 6)) (EBin OMul u32 (EInt 32) (EDiv OMod u32 (EBin OAdd u32 (EBin OSub u32 (EVar 7) (EVar 8)) (EInt 4)) (EInt 4)))) (EBin OMul u32 (EInt 8) (EVar 8))) ;;
        SIf (EBin OLt s32 (EVar 6) (EInt 9))
          (
          SSet 5 (ELoad 1 (EAt (EVar 1) 1 (EDiv ODiv u32 (EVar 9) (EInt 8)))))
          (
          SSet 10 (ELoad 1 (EAt (EVar 3) 1 (EDiv ODiv u32 (EBin OSub u32 (EVar 9) (EInt 1152)) (EInt 8)))) ;;
          SSet 5 (EUn OCast u8 (EBin OXor s32 (EVar 10) (ELoad 1 (EAt (EVar 2) 1 (EDiv ODiv u32 (EBin OAdd u32 (EInt 128) (EVar 9)) (EInt 8))))))) ;;
        SCall (Some 11%positive) f___rorb [(EVar 5); (EInt 7)] ;;
        SCall (Some 12%positive) f___rorb [(EVar 5); (EInt 5)] ;;
        SCall (Some 13%positive) f___rorb [(EVar 5); (EInt 2)] ;;
        SSet 14 (EUn OCast u8 (EBin OXor s32 (EBin OXor s32 (EBin OXor s32 (EVar 11) (EVar 12)) (EVar 13)) (EInt 5))) ;;
        SSet 15 (EAt (EVar 4) 16 (EBin OAdd u32 (EBin OAdd u32 (EBin OMul u32 (EInt 16) (EVar 6)) (EBin OMul u32 (EInt 4) (EVar 7))) (EVar 8))) ;;
        SAlloc 16 (EInt 16) ;;
        SCall None f_bf128_byte_combine_bits [(EVar 16); (EVar 14)] ;;
        SCopy (EVar 15) (EVar 16) (EInt 16))))).

(** faest_aes.c:512-555, aes_enc_backward_128.
    Variables: 1 = bf_x, 2 = bf_xk, 3 = Mtag, 4 = Mkey, 5 = delta, 6 = out, 7 = y_out, 8 = bf_delta, 12 = factor, 18 = j, 19 = c, 20 = r, 21 = bf_x_tilde, 22 = ird, 23 = i, 24 = bf_xout, 32 = bf_y_tilde, 33 = i. *)
Definition c_aes_enc_backward_128 : func := Func [1%positive; 2%positive; 3%positive; 4%positive; 5%positive; 6%positive; 7%positive] (
  SAlloc 8 (EInt 16) ;;
  SIf (EBin OEq s32 (EIsNull (EVar 5)) (EInt 0))
    (
    SAlloc 9 (EInt 16) ;;
    SCall None f_bf128_load [(EVar 9); (EVar 5)] ;;
    SSet 11 (EVar 9))
    (
    SAlloc 10 (EInt 16) ;;
    SCall None f_bf128_zero [(EVar 10)] ;;
    SSet 11 (EVar 10)) ;;
  SCopy (EVar 8) (EVar 11) (EInt 16) ;;
  SAlloc 12 (EInt 16) ;;
  SSet 13 (EUn ONeg u64 (EBin OAnd u64 (EVar 4) (EInt 1))) ;;
  SAlloc 14 (EInt 16) ;;
  SCall None f_bf128_from_bit [(EVar 14); (EUn OCast u8 (EBin OXor s32 (EInt 1) (EVar 4)))] ;;
  SSet 15 (EUn ONeg u64 (EBin OAnd u64 (EUn OCast u64 (EBin OXor s32 (EInt 1) (EVar 3))) (EInt 1))) ;;
  SSet 16 (EBin OAnd u64 (EBin OXor u64 (EBin OAnd u64 (ELoad 8 (EVar 8)) (EVar 13)) (ELoad 8 (EVar 14))) (EVar 15)) ;;
  SSet 17 (EBin OAnd u64 (EBin OXor u64 (EBin OAnd u64 (ELoad 8 (EAt (EVar 8) 1 (EInt 8))) (EVar 13)) (ELoad 8 (EAt (EVar 14) 1 (EInt 8)))) (EVar 15)) ;;
  SStore 8 (EVar 12) (EVar 16) ;;
  SStore 8 (EAt (EVar 12) 1 (EInt 8)) (EVar 17) ;;
  SSet 18 (EInt 0) ;;
  SLoop (EBin OLt s32 (EVar 18) (EInt 10))
    (
    SSet 18 (EBin OAdd u32 (EVar 18) (EInt 1)))
    (
    SSet 19 (EInt 0) ;;
    SLoop (EBin OLe s32 (EVar 19) (EInt 3))
      (
      SSet 19 (EBin OAdd u32 (EVar 19) (EInt 1)))
      (
      SSet 20 (EInt 0) ;;
      SLoop (EBin OLe s32 (EVar 20) (EInt 3))
        (
        SSet 20 (EBin OAdd u32 (EVar 20) (EInt 1)))
        (
        SAlloc 21 (EInt 128) ;;
        SSet 22 (EBin OAdd u32 (EBin OAdd u32 (EBin OMul u32 (EInt 128) (EVar 18)) (EBin OMul u32 (EInt 32) (EDiv OMod u32 (EBin OAdd u32 (EBin OSub u32 (EVar 19) (EVar 20)) (EInt 4)) (EInt 4)))) (EBin OMul u32 (EInt 8) (EVar 20))) ;;
        SIf (EBin OLt s32 (EVar 18) (EInt 9))
          (
          SCopy (EVar 21) (EAt (EVar 1) 16 (EVar 22)) (EInt 128))
          (
          SSet 23 (EInt 0) ;;
          SLoop (EBin OLt s32 (EVar 23) (EInt 8))
            (
            SSet 23 (EBin OAdd u32 (EVar 23) (EInt 1)))
            (
            SAlloc 24 (EInt 16) ;;
            SSet 25 (EUn ONeg u64 (EBin OAnd u64 (EUn OCast u64 (EBin OAnd s32 (EBin OShr s32 (ELoad 1 (EAt (EVar 6) 1 (EDiv ODiv u32 (EBin OSub u32 (EVar 22) (EInt 1152)) (EInt 8)))) (EVar 23)) (EInt 1))) (EInt 1))) ;;
            SSet 26 (EBin OAnd u64 (ELoad 8 (EVar 12)) (EVar 25)) ;;
            SSet 27 (EBin OAnd u64 (ELoad 8 (EAt (EVar 12) 1 (EInt 8))) (EVar 25)) ;;
            SStore 8 (EVar 24) (EVar 26) ;;
            SStore 8 (EAt (EVar 24) 1 (EInt 8)) (EVar 27) ;;
            SSet 28 (EAt (EVar 21) 16 (EVar 23)) ;;
            SSet 29 (EAt (EVar 2) 16 (EBin OAdd u32 (EBin OAdd u32 (EInt 128) (EVar 22)) (EVar 23))) ;;
            SSet 30 (EBin OXor u64 (ELoad 8 (EVar 24)) (ELoad 8 (EVar 29))) ;;
            SSet 31 (EBin OXor u64 (ELoad 8 (EAt (EVar 24) 1 (EInt 8))) (ELoad 8 (EAt (EVar 29) 1 (EInt 8)))) ;;
            SStore 8 (EVar 28) (EVar 30) ;;
            SStore 8 (EAt (EVar 28) 1 (EInt 8)) (EVar 31))) ;;
        SAlloc 32 (EInt 128) ;;
        SSet 33 (EInt 0) ;;
        SLoop (EBin OLt s32 (EVar 33) (EInt 8))
          (
          SSet 33 (EBin OAdd u32 (EVar 33) (EInt 1)))
          (
          SSet 34 (EAt (EVar 32) 16 (EVar 33)) ;;
          SSet 35 (EAt (EVar 21) 16 (EDiv OMod u32 (EBin OAdd u32 (EVar 33) (EInt 7)) (EInt 8))) ;;
          SSet 36 (EAt (EVar 21) 16 (EDiv OMod u32 (EBin OAdd u32 (EVar 33) (EInt 5)) (EInt 8))) ;;
          SSet 37 (EAt (EVar 21) 16 (EDiv OMod u32 (EBin OAdd u32 (EVar 33) (EInt 2)) (EInt 8))) ;;
          SSet 38 (EBin OXor u64 (EBin OXor u64 (ELoad 8 (EVar 35)) (ELoad 8 (EVar 36))) (ELoad 8 (EVar 37))) ;;
          SSet 39 (EBin OXor u64 (EBin OXor u64 (ELoad 8 (EAt (EVar 35) 1 (EInt 8))) (ELoad 8 (EAt (EVar 36) 1 (EInt 8)))) (ELoad 8 (EAt (EVar 37) 1 (EInt 8)))) ;;
          SStore 8 (EVar 34) (EVar 38) ;;
          SStore 8 (EAt (EVar 34) 1 (EInt 8)) (EVar 39)) ;;
        SSet 40 (EBin OXor u64 (ELoad 8 (EVar 32)) (ELoad 8 (EVar 12))) ;;
        SSet 41 (EBin OXor u64 (ELoad 8 (EAt (EVar 32) 1 (EInt 8))) (ELoad 8 (EAt (EVar 12) 1 (EInt 8)))) ;;
        SStore 8 (EVar 32) (EVar 40) ;;
        SStore 8 (EAt (EVar 32) 1 (EInt 8)) (EVar 41) ;;
        SSet 42 (EAt (EVar 32) 16 (EInt 2)) ;;
        SSet 43 (EAt (EVar 32) 16 (EInt 2)) ;;
        SSet 44 (EBin OXor u64 (ELoad 8 (EVar 43)) (ELoad 8 (EVar 12))) ;;
        SSet 45 (EBin OXor u64 (ELoad 8 (EAt (EVar 43) 1 (EInt 8))) (ELoad 8 (EAt (EVar 12) 1 (EInt 8)))) ;;
        SStore 8 (EVar 42) (EVar 44) ;;
        SStore 8 (EAt (EVar 42) 1 (EInt 8)) (EVar 45) ;;
        SSet 46 (EAt (EVar 7) 16 (EBin OAdd u32 (EBin OAdd u32 (EBin OMul u32 (EInt 16) (EVar 18)) (EBin OMul u32 (EInt 4) (EVar 19))) (EVar 20))) ;;
        SAlloc 47 (EInt 16) ;;
        SCall None f_bf128_byte_combine [(EVar 47); (EVar 32)] ;;
        SCopy (EVar 46) (EVar 47) (EInt 16))))).

(** faest_aes.c:557-578, aes_enc_constraints_Mkey_0_128.
    Variables: 1 = in, 2 = out, 3 = w, 4 = v, 5 = k, 6 = vk, 7 = a0_ctx, 8 = a1_ctx, 9 = s, 10 = vs, 11 = s_dash, 12 = vs_dash, 13 = j, 14 = tmp. *)
Definition c_aes_enc_constraints_Mkey_0_128 : func := Func [1%positive; 2%positive; 3%positive; 4%positive; 5%positive; 6%positive; 7%positive; 8%positive] (
  SAlloc 9 (EInt 2560) ;;
  SAlloc 10 (EInt 2560) ;;
  SAlloc 11 (EInt 2560) ;;
  SAlloc 12 (EInt 2560) ;;
  SCall None f_aes_enc_forward_128_1 [(EVar 3); (EVar 5); (EVar 1); (EVar 9)] ;;
  SCall None f_aes_enc_forward_128 [(EVar 4); (EVar 6); (EVar 1); (EInt 1); (EInt 0); ENull; (EVar 10)] ;;
  SCall None f_aes_enc_backward_128_1 [(EVar 3); (EVar 5); (EVar 2); (EVar 11)] ;;
  SCall None f_aes_enc_backward_128 [(EVar 4); (EVar 6); (EInt 1); (EInt 0); ENull; (EVar 2); (EVar 12)] ;;
  SSet 13 (EInt 0) ;;
  SLoop (EBin OLt s32 (EVar 13) (EInt 160))
    (
    SSet 13 (EBin OAdd u32 (EVar 13) (EInt 1)))
    (
    SAlloc 14 (EInt 16) ;;
    SCall None f_bf128_mul [(EVar 14); (EAt (EVar 10) 16 (EVar 13)); (EAt (EVar 12) 16 (EVar 13))] ;;
    SCall None f_zk_hash_128_update [(EVar 7); (EVar 14)] ;;
    SSet 15 (EAt (EVar 9) 16 (EVar 13)) ;;
    SSet 16 (EAt (EVar 10) 16 (EVar 13)) ;;
    SAlloc 17 (EInt 16) ;;
    SSet 18 (EBin OXor u64 (ELoad 8 (EVar 15)) (ELoad 8 (EVar 16))) ;;
    SSet 19 (EBin OXor u64 (ELoad 8 (EAt (EVar 15) 1 (EInt 8))) (ELoad 8 (EAt (EVar 16) 1 (EInt 8)))) ;;
    SStore 8 (EVar 17) (EVar 18) ;;
    SStore 8 (EAt (EVar 17) 1 (EInt 8)) (EVar 19) ;;
    SSet 20 (EAt (EVar 11) 16 (EVar 13)) ;;
    SSet 21 (EAt (EVar 12) 16 (EVar 13)) ;;
    SAlloc 22 (EInt 16) ;;
    SSet 23 (EBin OXor u64 (ELoad 8 (EVar 20)) (ELoad 8 (EVar 21))) ;;
    SSet 24 (EBin OXor u64 (ELoad 8 (EAt (EVar 20) 1 (EInt 8))) (ELoad 8 (EAt (EVar 21) 1 (EInt 8)))) ;;
    SStore 8 (EVar 22) (EVar 23) ;;
    SStore 8 (EAt (EVar 22) 1 (EInt 8)) (EVar 24) ;;
    SAlloc 25 (EInt 16) ;;
    SCall None f_bf128_mul [(EVar 25); (EVar 17); (EVar 22)] ;;
    SAlloc 26 (EInt 16) ;;
    SCall None f_bf128_one [(EVar 26)] ;;
    SAlloc 27 (EInt 16) ;;
    SSet 28 (EBin OXor u64 (EBin OXor u64 (ELoad 8 (EVar 25)) (ELoad 8 (EVar 14))) (ELoad 8 (EVar 26))) ;;
    SSet 29 (EBin OXor u64 (EBin OXor u64 (ELoad 8 (EAt (EVar 25) 1 (EInt 8))) (ELoad 8 (EAt (EVar 14) 1 (EInt 8)))) (ELoad 8 (EAt (EVar 26) 1 (EInt 8)))) ;;
    SStore 8 (EVar 27) (EVar 28) ;;
    SStore 8 (EAt (EVar 27) 1 (EInt 8)) (EVar 29) ;;
    SCall None f_zk_hash_128_update [(EVar 8); (EVar 27)])).

(** faest_aes.c:580-596, aes_enc_constraints_Mkey_1_128.
    Variables: 1 = in, 2 = out, 3 = q, 4 = qk, 5 = delta, 6 = b0_ctx, 7 = qs, 8 = qs_dash, 9 = minus_part, 12 = j. *)
Definition c_aes_enc_constraints_Mkey_1_128 : func := Func [1%positive; 2%positive; 3%positive; 4%positive; 5%positive; 6%positive] (
  SAlloc 7 (EInt 2560) ;;
  SAlloc 8 (EInt 2560) ;;
  SCall None f_aes_enc_forward_128 [(EVar 3); (EVar 4); (EVar 1); (EInt 0); (EInt 1); (EVar 5); (EVar 7)] ;;
  SCall None f_aes_enc_backward_128 [(EVar 3); (EVar 4); (EInt 0); (EInt 1); (EVar 5); (EVar 2); (EVar 8)] ;;
  SAlloc 9 (EInt 16) ;;
  SAlloc 10 (EInt 16) ;;
  SCall None f_bf128_load [(EVar 10); (EVar 5)] ;;
  SAlloc 11 (EInt 16) ;;
  SCall None f_bf128_load [(EVar 11); (EVar 5)] ;;
  SCall None f_bf128_mul [(EVar 9); (EVar 10); (EVar 11)] ;;
  SSet 12 (EInt 0) ;;
  SLoop (EBin OLt s32 (EVar 12) (EInt 160))
    (
    SSet 12 (EBin OAdd u32 (EVar 12) (EInt 1)))
    (
    SAlloc 13 (EInt 16) ;;
    SCall None f_bf128_mul [(EVar 13); (EAt (EVar 7) 16 (EVar 12)); (EAt (EVar 8) 16 (EVar 12))] ;;
    SAlloc 14 (EInt 16) ;;
    SSet 15 (EBin OXor u64 (ELoad 8 (EVar 13)) (ELoad 8 (EVar 9))) ;;
    SSet 16 (EBin OXor u64 (ELoad 8 (EAt (EVar 13) 1 (EInt 8))) (ELoad 8 (EAt (EVar 9) 1 (EInt 8)))) ;;
    SStore 8 (EVar 14) (EVar 15) ;;
    SStore 8 (EAt (EVar 14) 1 (EInt 8)) (EVar 16) ;;
    SCall None f_zk_hash_128_update [(EVar 6); (EVar 14)])).

(** faest_aes.c:598-632, aes_prove_128.
    Variables: 1 = w, 2 = u, 3 = V, 4 = in, 5 = out, 6 = chall, 7 = a_tilde, 8 = b_tilde, 9 = params, 11 = bf_v, 13 = k, 15 = vk, 16 = a0_ctx, 17 = h0, 18 = h1, 19 = s, 20 = t, 21 = sd, 22 = a1_ctx, 23 = h0, 24 = h1, 25 = s, 26 = t, 27 = sd. *)
Definition c_aes_prove_128 : func := Func [1%positive; 2%positive; 3%positive; 4%positive; 5%positive; 6%positive; 7%positive; 8%positive; 9%positive] (
  (
  SCall (Some 10%positive) f_column_to_row_major_and_shrink_V_128 [(EVar 3); (EInt 1600)] ;;
  SSet 11 (EVar 10) ;;
  SAlloc 12 (EInt 176) ;;
  SSet 13 (EVar 12) ;;
  SAlloc 14 (EInt 22528) ;;
  SSet 15 (EVar 14) ;;
  SAlloc 16 (EInt 5) ;;
  SAlloc 17 (EInt 16) ;;
  SStoreF (EVar 16) 5 0 (EVar 17) ;;
  SAlloc 18 (EInt 16) ;;
  SStoreF (EVar 16) 5 1 (EVar 18) ;;
  SAlloc 19 (EInt 16) ;;
  SStoreF (EVar 16) 5 2 (EVar 19) ;;
  SAlloc 20 (EInt 8) ;;
  SStoreF (EVar 16) 5 3 (EVar 20) ;;
  SAlloc 21 (EInt 1) ;;
  SStoreF (EVar 16) 5 4 (EVar 21) ;;
  SAlloc 22 (EInt 5) ;;
  SAlloc 23 (EInt 16) ;;
  SStoreF (EVar 22) 5 0 (EVar 23)) ;;
  (
  SAlloc 24 (EInt 16) ;;
  SStoreF (EVar 22) 5 1 (EVar 24) ;;
  SAlloc 25 (EInt 16) ;;
  SStoreF (EVar 22) 5 2 (EVar 25) ;;
  SAlloc 26 (EInt 8) ;;
  SStoreF (EVar 22) 5 3 (EVar 26) ;;
  SAlloc 27 (EInt 1) ;;
  SStoreF (EVar 22) 5 4 (EVar 27) ;;
  SCall None f_zk_hash_128_init [(EVar 16); (EVar 6)] ;;
  SCall None f_zk_hash_128_init [(EVar 22); (EVar 6)] ;;
  SCall None f_aes_key_schedule_constraints_Mkey_0_128 [(EVar 1); (EVar 11); (EVar 16); (EVar 22); (EVar 13); (EVar 15); (EVar 9)] ;;
  SCall None f_aes_enc_constraints_Mkey_0_128 [(EVar 4); (EVar 5); (EAt (EVar 1) 1 (EInt 56)); (EAt (EVar 11) 16 (EInt 448)); (EVar 13); (EVar 15); (EVar 16); (EVar 22)] ;;
  SEval (EVar 15) ;;
  SEval (EVar 13) ;;
  SAlloc 28 (EInt 16) ;;
  SCall None f_bf128_load [(EVar 28); (EAt (EVar 2) 1 (EInt 200))] ;;
  SCall None f_zk_hash_128_finalize [(EVar 7); (EVar 22); (EVar 28)] ;;
  SAlloc 29 (EInt 16) ;;
  SCall None f_bf128_sum_poly [(EVar 29); (EAt (EVar 11) 16 (EInt 1600))] ;;
  SCall None f_zk_hash_128_finalize [(EVar 8); (EVar 16); (EVar 29)] ;;
  SEval (EVar 11))).

(** faest_aes.c:634-684, aes_verify_128.
    Variables: 1 = d, 2 = Q, 3 = chall_2, 4 = chall_3, 5 = a_tilde, 6 = in, 7 = out, 8 = params, 9 = tau, 10 = t0, 11 = k0, 12 = t1, 13 = k1, 14 = delta, 15 = i, 16 = col, 17 = depth, 18 = decoded_challenge, 20 = j, 22 = bf_q, 24 = qk, 25 = b0_ctx, 26 = h0, 27 = h1, 28 = s, 29 = t, 30 = sd, 32 = q_tilde, 34 = bf_qtilde. *)
Definition c_aes_verify_128 : func := Func [1%positive; 2%positive; 3%positive; 4%positive; 5%positive; 6%positive; 7%positive; 8%positive] (
  (
  SSet 9 (ELoad 2 (EAt (EVar 8) 1 (EInt 16))) ;;
  SSet 10 (ELoad 2 (EAt (EVar 8) 1 (EInt 22))) ;;
  SSet 11 (ELoad 2 (EAt (EVar 8) 1 (EInt 18))) ;;
  SSet 12 (ELoad 2 (EAt (EVar 8) 1 (EInt 24))) ;;
  SSet 13 (ELoad 2 (EAt (EVar 8) 1 (EInt 20))) ;;
  SSet 14 (EVar 4) ;;
  SSet 15 (EInt 0) ;;
  SSet 16 (EInt 0) ;;
  SLoop (EBin OLt s32 (EVar 15) (EVar 9))
    (
    SSet 15 (EBin OAdd u32 (EVar 15) (EInt 1)))
    (
    SSet 17 (ECond (EBin OLt s32 (EVar 15) (EVar 10)) (EVar 11) (EVar 13)) ;;
    SAlloc 18 (EInt 12) ;;
    SCall None f_ChalDec [(EVar 4); (EVar 15); (EVar 11); (EVar 10); (EVar 13); (EVar 12); (EVar 18)] ;;
    SSet 20 (EInt 0) ;;
    SLoop (EBin OLt s32 (EVar 20) (EVar 17))
      (
      SSet 20 (EBin OAdd u32 (EVar 20) (EInt 1)) ;;
      SSet 16 (EBin OAdd u32 (EVar 16) (EInt 1)))
      (
      SIf (EBin OEq s32 (ELoad 1 (EAt (EVar 18) 1 (EVar 20))) (EInt 1))
        (
        SCall None f_xor_u8_array [(EVar 1); (ELoadP (EAt (EVar 2) 1 (EVar 16))); (ELoadP (EAt (EVar 2) 1 (EVar 16))); (EInt 200)])
        SSkip)) ;;
  SCall (Some 21%positive) f_column_to_row_major_and_shrink_V_128 [(EVar 2); (EInt 1600)] ;;
  SSet 22 (EVar 21) ;;
  SAlloc 23 (EInt 22528) ;;
  SSet 24 (EVar 23) ;;
  SAlloc 25 (EInt 5) ;;
  SAlloc 26 (EInt 16) ;;
  SStoreF (EVar 25) 5 0 (EVar 26) ;;
  SAlloc 27 (EInt 16) ;;
  SStoreF (EVar 25) 5 1 (EVar 27) ;;
  SAlloc 28 (EInt 16) ;;
  SStoreF (EVar 25) 5 2 (EVar 28) ;;
  SAlloc 29 (EInt 8) ;;
  SStoreF (EVar 25) 5 3 (EVar 29) ;;
  SAlloc 30 (EInt 1) ;;
  SStoreF (EVar 25) 5 4 (EVar 30)) ;;
  (
  SCall None f_zk_hash_128_init [(EVar 25); (EVar 3)] ;;
  SCall None f_aes_key_schedule_constraints_Mkey_1_128 [(EVar 22); (EVar 14); (EVar 25); (EVar 24)] ;;
  SCall None f_aes_enc_constraints_Mkey_1_128 [(EVar 6); (EVar 7); (EAt (EVar 22) 16 (EInt 448)); (EVar 24); (EVar 14); (EVar 25)] ;;
  SEval (EVar 24) ;;
  SAlloc 31 (EInt 16) ;;
  SSet 32 (EVar 31) ;;
  SAlloc 33 (EInt 16) ;;
  SCall None f_bf128_sum_poly [(EVar 33); (EAt (EVar 22) 16 (EInt 1600))] ;;
  SCall None f_zk_hash_128_finalize [(EVar 32); (EVar 25); (EVar 33)] ;;
  SEval (EVar 22) ;;
  SAlloc 34 (EInt 16) ;;
  SCall None f_bf128_load [(EVar 34); (EVar 32)] ;;
  SAlloc 35 (EInt 16) ;;
  SCall None f_bf128_load [(EVar 35); (EVar 5)] ;;
  SAlloc 36 (EInt 16) ;;
  SCall None f_bf128_load [(EVar 36); (EVar 14)] ;;
  SAlloc 37 (EInt 16) ;;
  SCall None f_bf128_mul [(EVar 37); (EVar 35); (EVar 36)] ;;
  SAlloc 38 (EInt 16) ;;
  SSet 39 (EBin OXor u64 (ELoad 8 (EVar 34)) (ELoad 8 (EVar 37))) ;;
  SSet 40 (EBin OXor u64 (ELoad 8 (EAt (EVar 34) 1 (EInt 8))) (ELoad 8 (EAt (EVar 37) 1 (EInt 8)))) ;;
  SStore 8 (EVar 38) (EVar 39) ;;
  SStore 8 (EAt (EVar 38) 1 (EInt 8)) (EVar 40) ;;
  SCall None f_bf128_store [(EVar 32); (EVar 38)] ;;
  SReturn (EVar 32))).

(** faest_aes.c:688-707, aes_key_schedule_forward_192.
    Variables: 1 = v, 2 = bf_out, 3 = i_wd, 4 = j, 5 = i. *)
Definition c_aes_key_schedule_forward_192 : func := Func [1%positive; 2%positive] (
  SCopy (EVar 2) (EVar 1) (EInt 6144) ;;
  SSet 3 (EInt 192) ;;
  SSet 4 (EInt 6) ;;
  SLoop (EBin OLt s32 (EVar 4) (EInt 52))
    (
    SSet 4 (EBin OAdd u32 (EVar 4) (EInt 1)))
    (
    SIf (ECond (EBin OEq s32 (EDiv OMod u32 (EVar 4) (EInt 6)) (EInt 0)) (EInt 1) (EBin ONe s32 (ECond (EInt 0) (EBin ONe s32 (EBin OEq s32 (EDiv OMod u32 (EVar 4) (EInt 6)) (EInt 4)) (EInt 0)) (EInt 0)) (EInt 0)))
      (
      SCopy (EAt (EVar 2) 32 (EBin OMul u32 (EVar 4) (EInt 32))) (EAt (EVar 1) 32 (EVar 3)) (EInt 1024) ;;
      SSet 3 (EBin OAdd u32 (EVar 3) (EInt 32)))
      (
      SSet 5 (EInt 0) ;;
      SLoop (EBin OLt s32 (EVar 5) (EInt 32))
        (
        SSet 5 (EBin OAdd u32 (EVar 5) (EInt 1)))
        (
        SSet 6 (EAt (EVar 2) 32 (EBin OAdd u32 (EBin OMul u32 (EInt 32) (EVar 4)) (EVar 5))) ;;
        SSet 7 (EAt (EVar 2) 32 (EBin OAdd u32 (EBin OMul u32 (EInt 32) (EBin OSub u32 (EVar 4) (EInt 6))) (EVar 5))) ;;
        SSet 8 (EAt (EVar 2) 32 (EBin OAdd u32 (EBin OMul u32 (EInt 32) (EBin OSub u32 (EVar 4) (EInt 1))) (EVar 5))) ;;
        SSet 9 (EBin OXor u64 (ELoad 8 (EVar 7)) (ELoad 8 (EVar 8))) ;;
        SSet 10 (EBin OXor u64 (ELoad 8 (EAt (EVar 7) 1 (EInt 8))) (ELoad 8 (EAt (EVar 8) 1 (EInt 8)))) ;;
        SSet 11 (EBin OXor u64 (ELoad 8 (EAt (EVar 7) 1 (EInt 16))) (ELoad 8 (EAt (EVar 8) 1 (EInt 16)))) ;;
        SSet 12 (EBin OXor u64 (ELoad 8 (EAt (EVar 7) 1 (EInt 24))) (ELoad 8 (EAt (EVar 8) 1 (EInt 24)))) ;;
        SStore 8 (EVar 6) (EVar 9) ;;
        SStore 8 (EAt (EVar 6) 1 (EInt 8)) (EVar 10) ;;
        SStore 8 (EAt (EVar 6) 1 (EInt 16)) (EVar 11) ;;
        SStore 8 (EAt (EVar 6) 1 (EInt 24)) (EVar 12))))).

(** faest_aes.c:709-760, aes_key_schedule_backward_192.
    Variables: 1 = v, 2 = Vk, 3 = Mtag, 4 = Mkey, 5 = delta, 6 = bf_out, 7 = bf_delta, 11 = iwd, 12 = c, 13 = ircon, 14 = bf_minus_mkey, 15 = minus_mtag, 16 = bf_mkey_times_delta, 26 = j, 27 = bf_x_tilde, 28 = i, 36 = r, 37 = bf_r, 38 = i, 52 = i. *)
Definition c_aes_key_schedule_backward_192 : func := Func [1%positive; 2%positive; 3%positive; 4%positive; 5%positive; 6%positive] (
  SIf (EUn OLNot s32 (ECond (ECond (EBin OEq s32 (EVar 3) (EInt 1)) (EBin ONe s32 (EBin OEq s32 (EVar 4) (EInt 1)) (EInt 0)) (EInt 0)) (EInt 1) (EBin ONe s32 (ECond (EBin OEq s32 (EVar 4) (EInt 1)) (EBin ONe s32 (EIsNull (EVar 5)) (EInt 0)) (EInt 0)) (EInt 0))))
    SSkip
    (
    SFail) ;;
  SAlloc 7 (EInt 32) ;;
  SIf (EBin OEq s32 (EIsNull (EVar 5)) (EInt 0))
    (
    SAlloc 8 (EInt 32) ;;
    SCall None f_bf192_load [(EVar 8); (EVar 5)] ;;
    SSet 10 (EVar 8))
    (
    SAlloc 9 (EInt 32) ;;
    SCall None f_bf192_zero [(EVar 9)] ;;
    SSet 10 (EVar 9)) ;;
  SCopy (EVar 7) (EVar 10) (EInt 32) ;;
  SSet 11 (EInt 0) ;;
  SSet 12 (EInt 0) ;;
  SSet 13 (EInt 0) ;;
  SAlloc 14 (EInt 32) ;;
  SCall None f_bf192_from_bit [(EVar 14); (EUn OCast u8 (EBin OXor s32 (EInt 1) (EVar 4)))] ;;
  SSet 15 (EUn OCast u8 (EBin OXor s32 (EInt 1) (EVar 3))) ;;
  SAlloc 16 (EInt 32) ;;
  SSet 17 (EUn ONeg u64 (EBin OAnd u64 (EVar 4) (EInt 1))) ;;
  SSet 18 (EBin OAnd u64 (ELoad 8 (EVar 7)) (EVar 17)) ;;
  SSet 19 (EBin OAnd u64 (ELoad 8 (EAt (EVar 7) 1 (EInt 8))) (EVar 17)) ;;
  SSet 20 (EBin OAnd u64 (ELoad 8 (EAt (EVar 7) 1 (EInt 16))) (EVar 17)) ;;
  SSet 21 (EBin OAnd u64 (ELoad 8 (EAt (EVar 7) 1 (EInt 24))) (EVar 17)) ;;
  SStore 8 (EVar 16) (EVar 18) ;;
  SStore 8 (EAt (EVar 16) 1 (EInt 8)) (EVar 19) ;;
  SStore 8 (EAt (EVar 16) 1 (EInt 16)) (EVar 20) ;;
  SStore 8 (EAt (EVar 16) 1 (EInt 24)) (EVar 21) ;;
  SSet 22 (EBin OXor u64 (ELoad 8 (EVar 16)) (ELoad 8 (EVar 14))) ;;
  SSet 23 (EBin OXor u64 (ELoad 8 (EAt (EVar 16) 1 (EInt 8))) (ELoad 8 (EAt (EVar 14) 1 (EInt 8)))) ;;
  SSet 24 (EBin OXor u64 (ELoad 8 (EAt (EVar 16) 1 (EInt 16))) (ELoad 8 (EAt (EVar 14) 1 (EInt 16)))) ;;
  SSet 25 (EBin OXor u64 (ELoad 8 (EAt (EVar 16) 1 (EInt 24))) (ELoad 8 (EAt (EVar 14) 1 (EInt 24)))) ;;
  SStore 8 (EVar 16) (EVar 22) ;;
  SStore 8 (EAt (EVar 16) 1 (EInt 8)) (EVar 23) ;;
  SStore 8 (EAt (EVar 16) 1 (EInt 16)) (EVar 24) ;;
  SStore 8 (EAt (EVar 16) 1 (EInt 24)) (EVar 25) ;;
  SSet 26 (EInt 0) ;;
  SLoop (EBin OLt s32 (EVar 26) (EInt 32))
    (
    SSet 26 (EBin OAdd u32 (EVar 26) (EInt 1)))
    (
    SAlloc 27 (EInt 256) ;;
    SSet 28 (EInt 0) ;;
    SLoop (EBin OLt s32 (EVar 28) (EInt 8))
      (
      SSet 28 (EBin OAdd u32 (EVar 28) (EInt 1)))
      (
      SSet 29 (EAt (EVar 27) 32 (EVar 28)) ;;
      SSet 30 (EAt (EVar 1) 32 (EBin OAdd u32 (EBin OMul u32 (EInt 8) (EVar 26)) (EVar 28))) ;;
      SSet 31 (EAt (EVar 2) 32 (EBin OAdd u32 (EBin OAdd u32 (EVar 11) (EBin OMul u32 (EInt 8) (EVar 12))) (EVar 28))) ;;
      SSet 32 (EBin OXor u64 (ELoad 8 (EVar 30)) (ELoad 8 (EVar 31))) ;;
      SSet 33 (EBin OXor u64 (ELoad 8 (EAt (EVar 30) 1 (EInt 8))) (ELoad 8 (EAt (EVar 31) 1 (EInt 8)))) ;;
      SSet 34 (EBin OXor u64 (ELoad 8 (EAt (EVar 30) 1 (EInt 16))) (ELoad 8 (EAt (EVar 31) 1 (EInt 16)))) ;;
      SSet 35 (EBin OXor u64 (ELoad 8 (EAt (EVar 30) 1 (EInt 24))) (ELoad 8 (EAt (EVar 31) 1 (EInt 24)))) ;;
      SStore 8 (EVar 29) (EVar 32) ;;
      SStore 8 (EAt (EVar 29) 1 (EInt 8)) (EVar 33) ;;
      SStore 8 (EAt (EVar 29) 1 (EInt 16)) (EVar 34) ;;
      SStore 8 (EAt (EVar 29) 1 (EInt 24)) (EVar 35)) ;;
    SIf (ECond (EBin OEq s32 (EVar 3) (EInt 0)) (EBin ONe s32 (EBin OEq s32 (EVar 12) (EInt 0)) (EInt 0)) (EInt 0))
      (
      SSet 36 (ELoad 1 (EAt (EGlob 2) 1 (EVar 13))) ;;
      SSet 13 (EBin OAdd u32 (EVar 13) (EInt 1)) ;;
      SAlloc 37 (EInt 256) ;;
      SSet 38 (EInt 0) ;;
      SLoop (EBin OLt s32 (EVar 38) (EInt 8))
        (
        SSet 38 (EBin OAdd u32 (EVar 38) (EInt 1)))
        (
        SSet 39 (EAt (EVar 37) 32 (EVar 38)) ;;
        SSet 40 (EUn ONeg u64 (EBin OAnd u64 (EUn OCast u64 (EBin OAnd s32 (EBin OShr s32 (EVar 36) (EVar 38)) (EInt 1))) (EInt 1))) ;;
        SSet 41 (EBin OAnd u64 (ELoad 8 (EVar 16)) (EVar 40)) ;;
        SSet 42 (EBin OAnd u64 (ELoad 8 (EAt (EVar 16) 1 (EInt 8))) (EVar 40)) ;;
        SSet 43 (EBin OAnd u64 (ELoad 8 (EAt (EVar 16) 1 (EInt 16))) (EVar 40)) ;;
        SSet 44 (EBin OAnd u64 (ELoad 8 (EAt (EVar 16) 1 (EInt 24))) (EVar 40)) ;;
        SStore 8 (EVar 39) (EVar 41) ;;
        SStore 8 (EAt (EVar 39) 1 (EInt 8)) (EVar 42) ;;
        SStore 8 (EAt (EVar 39) 1 (EInt 16)) (EVar 43) ;;
        SStore 8 (EAt (EVar 39) 1 (EInt 24)) (EVar 44) ;;
        SSet 45 (EAt (EVar 27) 32 (EVar 38)) ;;
        SSet 46 (EAt (EVar 27) 32 (EVar 38)) ;;
        SSet 47 (EAt (EVar 37) 32 (EVar 38)) ;;
        SSet 48 (EBin OXor u64 (ELoad 8 (EVar 46)) (ELoad 8 (EVar 47))) ;;
        SSet 49 (EBin OXor u64 (ELoad 8 (EAt (EVar 46) 1 (EInt 8))) (ELoad 8 (EAt (EVar 47) 1 (EInt 8)))) ;;
        SSet 50 (EBin OXor u64 (ELoad 8 (EAt (EVar 46) 1 (EInt 16))) (ELoad 8 (EAt (EVar 47) 1 (EInt 16)))) ;;
        SSet 51 (EBin OXor u64 (ELoad 8 (EAt (EVar 46) 1 (EInt 24))) (ELoad 8 (EAt (EVar 47) 1 (EInt 24)))) ;;
        SStore 8 (EVar 45) (EVar 48) ;;
        SStore 8 (EAt (EVar 45) 1 (EInt 8)) (EVar 49) ;;
        SStore 8 (EAt (EVar 45) 1 (EInt 16)) (EVar 50) ;;
        SStore 8 (EAt (EVar 45) 1 (EInt 24)) (EVar 51)))
      SSkip ;;
    SSet 52 (EInt 0) ;;
    SLoop (EBin OLt s32 (EVar 52) (EInt 8))
      (
      SSet 52 (EBin OAdd u32 (EVar 52) (EInt 1)))
      (
      SSet 53 (EAt (EVar 6) 32 (EBin OAdd u32 (EVar 52) (EBin OMul u32 (EInt 8) (EVar 26)))) ;;
      SSet 54 (EAt (EVar 27) 32 (EDiv OMod u32 (EBin OAdd u32 (EVar 52) (EInt 7)) (EInt 8))) ;;
      SSet 55 (EAt (EVar 27) 32 (EDiv OMod u32 (EBin OAdd u32 (EVar 52) (EInt 5)) (EInt 8))) ;;
      SSet 56 (EAt (EVar 27) 32 (EDiv OMod u32 (EBin OAdd u32 (EVar 52) (EInt 2)) (EInt 8))) ;;
      SSet 57 (EBin OXor u64 (EBin OXor u64 (ELoad 8 (EVar 54)) (ELoad 8 (EVar 55))) (ELoad 8 (EVar 56))) ;;
      SSet 58 (EBin OXor u64 (EBin OXor u64 (ELoad 8 (EAt (EVar 54) 1 (EInt 8))) (ELoad 8 (EAt (EVar 55) 1 (EInt 8)))) (ELoad 8 (EAt (EVar 56) 1 (EInt 8)))) ;;
      SSet 59 (EBin OXor u64 (EBin OXor u64 (ELoad 8 (EAt (EVar 54) 1 (EInt 16))) (ELoad 8 (EAt (EVar 55) 1 (EInt 16)))) (ELoad 8 (EAt (EVar 56) 1 (EInt 16)))) ;;
      SSet 60 (EBin OXor u64 (EBin OXor u64 (ELoad 8 (EAt (EVar 54) 1 (EInt 24))) (ELoad 8 (EAt (EVar 55) 1 (EInt 24)))) (ELoad 8 (EAt (EVar 56) 1 (EInt 24)))) ;;
      SStore 8 (EVar 53) (EVar 57) ;;
      SStore 8 (EAt (EVar 53) 1 (EInt 8)) (EVar 58) ;;
      SStore 8 (EAt (EVar 53) 1 (EInt 16)) (EVar 59) ;;
      SStore 8 (EAt (EVar 53) 1 (EInt 24)) (EVar 60)) ;;
    SSet 61 (EAt (EVar 6) 32 (EBin OAdd u32 (EInt 0) (EBin OMul u32 (EInt 8) (EVar 26)))) ;;
    SSet 62 (EAt (EVar 6) 32 (EBin OAdd u32 (EInt 0) (EBin OMul u32 (EInt 8) (EVar 26)))) ;;
    SSet 63 (EUn ONeg u64 (EBin OAnd u64 (EVar 15) (EInt 1))) ;;
    SSet 64 (EBin OXor u64 (ELoad 8 (EVar 62)) (EBin OAnd u64 (ELoad 8 (EVar 16)) (EVar 63))) ;;
    SSet 65 (EBin OXor u64 (ELoad 8 (EAt (EVar 62) 1 (EInt 8))) (EBin OAnd u64 (ELoad 8 (EAt (EVar 16) 1 (EInt 8))) (EVar 63))) ;;
    SSet 66 (EBin OXor u64 (ELoad 8 (EAt (EVar 62) 1 (EInt 16))) (EBin OAnd u64 (ELoad 8 (EAt (EVar 16) 1 (EInt 16))) (EVar 63))) ;;
    SSet 67 (EBin OXor u64 (ELoad 8 (EAt (EVar 62) 1 (EInt 24))) (EBin OAnd u64 (ELoad 8 (EAt (EVar 16) 1 (EInt 24))) (EVar 63))) ;;
    SStore 8 (EVar 61) (EVar 64) ;;
    SStore 8 (EAt (EVar 61) 1 (EInt 8)) (EVar 65) ;;
    SStore 8 (EAt (EVar 61) 1 (EInt 16)) (EVar 66) ;;
    SStore 8 (EAt (EVar 61) 1 (EInt 24)) (EVar 67) ;;
    SSet 68 (EAt (EVar 6) 32 (EBin OAdd u32 (EInt 2) (EBin OMul u32 (EInt 8) (EVar 26)))) ;;
    SSet 69 (EAt (EVar 6) 32 (EBin OAdd u32 (EInt 2) (EBin OMul u32 (EInt 8) (EVar 26)))) ;;
    SSet 70 (EUn ONeg u64 (EBin OAnd u64 (EVar 15) (EInt 1))) ;;
    SSet 71 (EBin OXor u64 (ELoad 8 (EVar 69)) (EBin OAnd u64 (ELoad 8 (EVar 16)) (EVar 70))) ;;
    SSet 72 (EBin OXor u64 (ELoad 8 (EAt (EVar 69) 1 (EInt 8))) (EBin OAnd u64 (ELoad 8 (EAt (EVar 16) 1 (EInt 8))) (EVar 70))) ;;
    SSet 73 (EBin OXor u64 (ELoad 8 (EAt (EVar 69) 1 (EInt 16))) (EBin OAnd u64 (ELoad 8 (EAt (EVar 16) 1 (EInt 16))) (EVar 70))) ;;
    SSet 74 (EBin OXor u64 (ELoad 8 (EAt (EVar 69) 1 (EInt 24))) (EBin OAnd u64 (ELoad 8 (EAt (EVar 16) 1 (EInt 24))) (EVar 70))) ;;
    SStore 8 (EVar 68) (EVar 71) ;;
    SStore 8 (EAt (EVar 68) 1 (EInt 8)) (EVar 72) ;;
    SStore 8 (EAt (EVar 68) 1 (EInt 16)) (EVar 73) ;;
    SStore 8 (EAt (EVar 68) 1 (EInt 24)) (EVar 74) ;;
    SSet 12 (EBin OAdd u32 (EVar 12) (EInt 1)) ;;
    SIf (EBin OEq s32 (EVar 12) (EInt 4))
      (
      SSet 12 (EInt 0) ;;
      SSet 11 (EBin OAdd u32 (EVar 11) (EInt 192)))
      SSkip)).

(** faest_aes.c:762-810, aes_key_schedule_constraints_Mkey_0_192.
    Variables: 1 = w, 2 = v, 3 = a0_ctx, 4 = a1_ctx, 5 = k, 6 = vk, 7 = params, 8 = w_dash, 9 = v_w_dash, 10 = iwd, 11 = j, 12 = bf_k_hat, 13 = bf_v_k_hat, 14 = bf_w_dash_hat, 15 = bf_v_w_dash_hat, 16 = r, 25 = r, 26 = tmp. *)
Definition c_aes_key_schedule_constraints_Mkey_0_192 : func := Func [1%positive; 2%positive; 3%positive; 4%positive; 5%positive; 6%positive; 7%positive] (
  SIf (EBin OEq s32 (EInt 32) (ELoad 2 (EAt (EVar 7) 1 (EInt 4))))
    SSkip
    (
    SFail) ;;
  SCall None f_aes_key_schedule_forward_1 [(EVar 1); (EVar 5); (EVar 7)] ;;
  SCall None f_aes_key_schedule_forward_192 [(EVar 2); (EVar 6)] ;;
  SAlloc 8 (EInt 32) ;;
  SCall None f_aes_key_schedule_backward_1 [(EAt (EVar 1) 1 (EInt 24)); (EVar 5); (EVar 8); (EVar 7)] ;;
  SAlloc 9 (EInt 8192) ;;
  SCall None f_aes_key_schedule_backward_192 [(EAt (EVar 2) 32 (EInt 192)); (EVar 6); (EInt 1); (EInt 0); ENull; (EVar 9)] ;;
  SSet 10 (EInt 160) ;;
  SSet 11 (EInt 0) ;;
  SLoop (EBin OLt s32 (EVar 11) (EInt 8))
    (
    SSet 11 (EBin OAdd u32 (EVar 11) (EInt 1)))
    (
    SAlloc 12 (EInt 128) ;;
    SAlloc 13 (EInt 128) ;;
    SAlloc 14 (EInt 128) ;;
    SAlloc 15 (EInt 128) ;;
    SSet 16 (EInt 0) ;;
    SLoop (EBin OLe s32 (EVar 16) (EInt 3))
      (
      SSet 16 (EBin OAdd u32 (EVar 16) (EInt 1)))
      (
      SSet 17 (EAt (EVar 12) 32 (EDiv OMod u32 (EBin OAdd u32 (EVar 16) (EInt 3)) (EInt 4))) ;;
      SAlloc 18 (EInt 32) ;;
      SCall None f_bf192_byte_combine_bits [(EVar 18); (ELoad 1 (EAt (EVar 5) 1 (EDiv ODiv u32 (EBin OAdd u32 (EVar 10) (EBin OMul u32 (EInt 8) (EVar 16))) (EInt 8))))] ;;
      SCopy (EVar 17) (EVar 18) (EInt 32) ;;
      SSet 19 (EAt (EVar 13) 32 (EDiv OMod u32 (EBin OAdd u32 (EVar 16) (EInt 3)) (EInt 4))) ;;
      SAlloc 20 (EInt 32) ;;
      SCall None f_bf192_byte_combine [(EVar 20); (EAt (EVar 6) 32 (EBin OAdd u32 (EVar 10) (EBin OMul u32 (EInt 8) (EVar 16))))] ;;
      SCopy (EVar 19) (EVar 20) (EInt 32) ;;
      SSet 21 (EAt (EVar 14) 32 (EVar 16)) ;;
      SAlloc 22 (EInt 32) ;;
      SCall None f_bf192_byte_combine_bits [(EVar 22); (ELoad 1 (EAt (EVar 8) 1 (EDiv ODiv u32 (EBin OAdd u32 (EBin OMul u32 (EInt 32) (EVar 11)) (EBin OMul u32 (EInt 8) (EVar 16))) (EInt 8))))] ;;
      SCopy (EVar 21) (EVar 22) (EInt 32) ;;
      SSet 23 (EAt (EVar 15) 32 (EVar 16)) ;;
      SAlloc 24 (EInt 32) ;;
      SCall None f_bf192_byte_combine [(EVar 24); (EAt (EVar 9) 32 (EBin OAdd u32 (EBin OMul u32 (EInt 32) (EVar 11)) (EBin OMul u32 (EInt 8) (EVar 16))))] ;;
      SCopy (EVar 23) (EVar 24) (EInt 32)) ;;
    SSet 25 (EInt 0) ;;
    SLoop (EBin OLe s32 (EVar 25) (EInt 3))
      (
      SSet 25 (EBin OAdd u32 (EVar 25) (EInt 1)))
      (
      SAlloc 26 (EInt 32) ;;
      SCall None f_bf192_mul [(EVar 26); (EAt (EVar 13) 32 (EVar 25)); (EAt (EVar 15) 32 (EVar 25))] ;;
      SCall None f_zk_hash_192_update [(EVar 3); (EVar 26)] ;;
      SSet 27 (EAt (EVar 12) 32 (EVar 25)) ;;
      SSet 28 (EAt (EVar 13) 32 (EVar 25)) ;;
      SAlloc 29 (EInt 32) ;;
      SSet 30 (EBin OXor u64 (ELoad 8 (EVar 27)) (ELoad 8 (EVar 28))) ;;
      SSet 31 (EBin OXor u64 (ELoad 8 (EAt (EVar 27) 1 (EInt 8))) (ELoad 8 (EAt (EVar 28) 1 (EInt 8)))) ;;
      SSet 32 (EBin OXor u64 (ELoad 8 (EAt (EVar 27) 1 (EInt 16))) (ELoad 8 (EAt (EVar 28) 1 (EInt 16)))) ;;
      SSet 33 (EBin OXor u64 (ELoad 8 (EAt (EVar 27) 1 (EInt 24))) (ELoad 8 (EAt (EVar 28) 1 (EInt 24)))) ;;
      SStore 8 (EVar 29) (EVar 30) ;;
      SStore 8 (EAt (EVar 29) 1 (EInt 8)) (EVar 31) ;;
      SStore 8 (EAt (EVar 29) 1 (EInt 16)) (EVar 32) ;;
      SStore 8 (EAt (EVar 29) 1 (EInt 24)) (EVar 33) ;;
      SSet 34 (EAt (EVar 14) 32 (EVar 25)) ;;
      SSet 35 (EAt (EVar 15) 32 (EVar 25)) ;;
      SAlloc 36 (EInt 32) ;;
      SSet 37 (EBin OXor u64 (ELoad 8 (EVar 34)) (ELoad 8 (EVar 35))) ;;
      SSet 38 (EBin OXor u64 (ELoad 8 (EAt (EVar 34) 1 (EInt 8))) (ELoad 8 (EAt (EVar 35) 1 (EInt 8)))) ;;
      SSet 39 (EBin OXor u64 (ELoad 8 (EAt (EVar 34) 1 (EInt 16))) (ELoad 8 (EAt (EVar 35) 1 (EInt 16)))) ;;
      SSet 40 (EBin OXor u64 (ELoad 8 (EAt (EVar 34) 1 (EInt 24))) (ELoad 8 (EAt (EVar 35) 1 (EInt 24)))) ;;
      SStore 8 (EVar 36) (EVar 37) ;;
      SStore 8 (EAt (EVar 36) 1 (EInt 8)) (EVar 38) ;;
      SStore 8 (EAt (EVar 36) 1 (EInt 16)) (EVar 39) ;;
      SStore 8 (EAt (EVar 36) 1 (EInt 24)) (EVar 40) ;;
      SAlloc 41 (EInt 32) ;;
      SCall None f_bf192_mul [(EVar 41); (EVar 29); (EVar 36)] ;;
      SAlloc 42 (EInt 32) ;;
      SCall None f_bf192_one [(EVar 42)] ;;
      SAlloc 43 (EInt 32) ;;
      SSet 44 (EBin OXor u64 (EBin OXor u64 (ELoad 8 (EVar 41)) (ELoad 8 (EVar 42))) (ELoad 8 (EVar 26))) ;;
      SSet 45 (EBin OXor u64 (EBin OXor u64 (ELoad 8 (EAt (EVar 41) 1 (EInt 8))) (ELoad 8 (EAt (EVar 42) 1 (EInt 8)))) (ELoad 8 (EAt (EVar 26) 1 (EInt 8)))) ;;
      SSet 46 (EBin OXor u64 (EBin OXor u64 (ELoad 8 (EAt (EVar 41) 1 (EInt 16))) (ELoad 8 (EAt (EVar 42) 1 (EInt 16)))) (ELoad 8 (EAt (EVar 26) 1 (EInt 16)))) ;;
      SSet 47 (EBin OXor u64 (EBin OXor u64 (ELoad 8 (EAt (EVar 41) 1 (EInt 24))) (ELoad 8 (EAt (EVar 42) 1 (EInt 24)))) (ELoad 8 (EAt (EVar 26) 1 (EInt 24)))) ;;
      SStore 8 (EVar 43) (EVar 44) ;;
      SStore 8 (EAt (EVar 43) 1 (EInt 8)) (EVar 45) ;;
      SStore 8 (EAt (EVar 43) 1 (EInt 16)) (EVar 46) ;;
      SStore 8 (EAt (EVar 43) 1 (EInt 24)) (EVar 47) ;;
      SCall None f_zk_hash_192_update [(EVar 4); (EVar 43)]) ;;
    SSet 10 (EBin OAdd u32 (EVar 10) (EInt 192)))).

(** faest_aes.c:812-840, aes_key_schedule_constraints_Mkey_1_192.
    Variables: 1 = q, 2 = delta, 3 = b0_ctx, 4 = qk, 5 = q_w_dash, 6 = bf_delta, 7 = delta_squared, 8 = iwd, 9 = j, 10 = bf_q_hat_k, 11 = bf_q_hat_w_dash, 12 = r, 17 = r, 18 = bf_tmp. *)
Definition c_aes_key_schedule_constraints_Mkey_1_192 : func := Func [1%positive; 2%positive; 3%positive; 4%positive] (
  SCall None f_aes_key_schedule_forward_192 [(EVar 1); (EVar 4)] ;;
  SAlloc 5 (EInt 8192) ;;
  SCall None f_aes_key_schedule_backward_192 [(EAt (EVar 1) 32 (EInt 192)); (EVar 4); (EInt 0); (EInt 1); (EVar 2); (EVar 5)] ;;
  SAlloc 6 (EInt 32) ;;
  SCall None f_bf192_load [(EVar 6); (EVar 2)] ;;
  SAlloc 7 (EInt 32) ;;
  SCall None f_bf192_mul [(EVar 7); (EVar 6); (EVar 6)] ;;
  SSet 8 (EInt 160) ;;
  SSet 9 (EInt 0) ;;
  SLoop (EBin OLt s32 (EVar 9) (EInt 8))
    (
    SSet 9 (EBin OAdd u32 (EVar 9) (EInt 1)))
    (
    SAlloc 10 (EInt 128) ;;
    SAlloc 11 (EInt 128) ;;
    SSet 12 (EInt 0) ;;
    SLoop (EBin OLe s32 (EVar 12) (EInt 3))
      (
      SSet 12 (EBin OAdd u32 (EVar 12) (EInt 1)))
      (
      SSet 13 (EAt (EVar 10) 32 (EDiv OMod u32 (EBin OAdd u32 (EVar 12) (EInt 3)) (EInt 4))) ;;
      SAlloc 14 (EInt 32) ;;
      SCall None f_bf192_byte_combine [(EVar 14); (EAt (EVar 4) 32 (EBin OAdd u32 (EVar 8) (EBin OMul u32 (EInt 8) (EVar 12))))] ;;
      SCopy (EVar 13) (EVar 14) (EInt 32) ;;
      SSet 15 (EAt (EVar 11) 32 (EVar 12)) ;;
      SAlloc 16 (EInt 32) ;;
      SCall None f_bf192_byte_combine [(EVar 16); (EAt (EVar 5) 32 (EBin OAdd u32 (EBin OMul u32 (EInt 32) (EVar 9)) (EBin OMul u32 (EInt 8) (EVar 12))))] ;;
      SCopy (EVar 15) (EVar 16) (EInt 32)) ;;
    SSet 17 (EInt 0) ;;
    SLoop (EBin OLe s32 (EVar 17) (EInt 3))
      (
      SSet 17 (EBin OAdd u32 (EVar 17) (EInt 1)))
      (
      SAlloc 18 (EInt 32) ;;
      SCall None f_bf192_mul [(EVar 18); (EAt (EVar 10) 32 (EVar 17)); (EAt (EVar 11) 32 (EVar 17))] ;;
      SAlloc 19 (EInt 32) ;;
      SSet 20 (EBin OXor u64 (ELoad 8 (EVar 18)) (ELoad 8 (EVar 7))) ;;
      SSet 21 (EBin OXor u64 (ELoad 8 (EAt (EVar 18) 1 (EInt 8))) (ELoad 8 (EAt (EVar 7) 1 (EInt 8)))) ;;
      SSet 22 (EBin OXor u64 (ELoad 8 (EAt (EVar 18) 1 (EInt 16))) (ELoad 8 (EAt (EVar 7) 1 (EInt 16)))) ;;
      SSet 23 (EBin OXor u64 (ELoad 8 (EAt (EVar 18) 1 (EInt 24))) (ELoad 8 (EAt (EVar 7) 1 (EInt 24)))) ;;
      SStore 8 (EVar 19) (EVar 20) ;;
      SStore 8 (EAt (EVar 19) 1 (EInt 8)) (EVar 21) ;;
      SStore 8 (EAt (EVar 19) 1 (EInt 16)) (EVar 22) ;;
      SStore 8 (EAt (EVar 19) 1 (EInt 24)) (EVar 23) ;;
      SCall None f_zk_hash_192_update [(EVar 3); (EVar 19)]) ;;
    SSet 8 (EBin OAdd u32 (EVar 8) (EInt 192)))).

(** faest_aes.c:842-895, aes_enc_forward_192_1.
    Variables: 1 = x, 2 = xk, 3 = in, 4 = Mtag, 5 = Mkey, 6 = bf_y, 7 = i, 8 = xin, 16 = bf_two, 17 = bf_three, 18 = j, 19 = c, 20 = ix, 21 = ik, 22 = iy, 23 = bf_x_hat, 24 = bf_xk_hat, 25 = r. *)
Definition c_aes_enc_forward_192_1 : func := Func [1%positive; 2%positive; 3%positive; 4%positive; 5%positive; 6%positive] (
  SSet 7 (EInt 0) ;;
  SLoop (EBin OLt s32 (EVar 7) (EInt 16))
    (
    SSet 7 (EBin OAdd u32 (EVar 7) (EInt 1)))
    (
    SSet 8 (EUn OCast u8 (EBin OAnd s32 (ELoad 1 (EAt (EVar 3) 1 (EVar 7))) (EUn ONeg s32 (EBin OAnd s32 (EBin OXor s32 (EInt 1) (EVar 4)) (EBin OXor s32 (EInt 1) (EVar 5)))))) ;;
    SSet 9 (EAt (EVar 6) 32 (EVar 7)) ;;
    SAlloc 10 (EInt 32) ;;
    SCall None f_bf192_byte_combine_bits [(EVar 10); (EVar 8)] ;;
    SAlloc 11 (EInt 32) ;;
    SCall None f_bf192_byte_combine_bits [(EVar 11); (ELoad 1 (EAt (EVar 2) 1 (EVar 7)))] ;;
    SSet 12 (EBin OXor u64 (ELoad 8 (EVar 10)) (ELoad 8 (EVar 11))) ;;
    SSet 13 (EBin OXor u64 (ELoad 8 (EAt (EVar 10) 1 (EInt 8))) (ELoad 8 (EAt (EVar 11) 1 (EInt 8)))) ;;
    SSet 14 (EBin OXor u64 (ELoad 8 (EAt (EVar 10) 1 (EInt 16))) (ELoad 8 (EAt (EVar 11) 1 (EInt 16)))) ;;
    SSet 15 (EBin OXor u64 (ELoad 8 (EAt (EVar 10) 1 (EInt 24))) (ELoad 8 (EAt (EVar 11) 1 (EInt 24)))) ;;
    SStore 8 (EVar 9) (EVar 12) ;;
    SStore 8 (EAt (EVar 9) 1 (EInt 8)) (EVar 13) ;;
    SStore 8 (EAt (EVar 9) 1 (EInt 16)) (EVar 14) ;;
    SStore 8 (EAt (EVar 9) 1 (EInt 24)) (EVar 15)) ;;
  SAlloc 16 (EInt 32) ;;
  SCall None f_bf192_byte_combine_bits [(EVar 16); (EInt 2)] ;;
  SAlloc 17 (EInt 32) ;;
  SCall None f_bf192_byte_combine_bits [(EVar 17); (EInt 3)] ;;
  SSet 18 (EInt 1) ;;
  SLoop (EBin OLt s32 (EVar 18) (EInt 12))
    (
    SSet 18 (EBin OAdd u32 (EVar 18) (EInt 1)))
    (
    SSet 19 (EInt 0) ;;
    SLoop (EBin OLe s32 (EVar 19) (EInt 3))
      (
      SSet 19 (EBin OAdd u32 (EVar 19) (EInt 1)))
      (
      (
      (
      (
      SSet 20 (EBin OAdd u32 (EBin OMul u32 (EInt 128) (EBin OSub u32 (EVar 18) (EInt 1))) (EBin OMul u32 (EInt 32) (EVar 19))) ;;
      SSet 21 (EBin OAdd u32 (EBin OMul u32 (EInt 128) (EVar 18)) (EBin OMul u32 (EInt 32) (EVar 19))) ;;
      SSet 22 (EBin OAdd u32 (EBin OMul u32 (EInt 16) (EVar 18)) (EBin OMul u32 (EInt 4) (EVar 19))) ;;
      SAlloc 23 (EInt 128) ;;
      SAlloc 24 (EInt 128) ;;
      SSet 25 (EInt 0) ;;
      SLoop (EBin OLe s32 (EVar 25) (EInt 3))
        (
        SSet 25 (EBin OAdd u32 (EVar 25) (EInt 1)))
        (
        SSet 26 (EAt (EVar 23) 32 (EVar 25)) ;;
        SAlloc 27 (EInt 32) ;;
        SCall None f_bf192_byte_combine_bits [(EVar 27); (ELoad 1 (EAt (EVar 1) 1 (EDiv ODiv u32 (EBin OAdd u32 (EVar 20) (EBin OMul u32 (EInt 8) (EVar 25))) (EInt 8))))] ;;
        SCopy (EVar 26) (EVar 27) (EInt 32) ;;
        SSet 28 (EAt (EVar 24) 32 (EVar 25)) ;;
        SAlloc 29 (EInt 32) ;;
        SCall None f_bf192_byte_combine_bits [(EVar 29); (ELoad 1 (EAt (EVar 2) 1 (EDiv ODiv u32 (EBin OAdd u32 (EVar 21) (EBin OMul u32 (EInt 8) (EVar 25))) (EInt 8))))] ;;
        SCopy (EVar 28) (EVar 29) (EInt 32)) ;;
      SSet 30 (EAt (EVar 6) 32 (EBin OAdd u32 (EVar 22) (EInt 0))) ;;
      SAlloc 31 (EInt 32) ;;
      SCall None f_bf192_mul [(EVar 31); (EVar 23); (EVar 16)] ;;
      SSet 32 (EBin OXor u64 (ELoad 8 (EVar 24)) (ELoad 8 (EVar 31))) ;;
      SSet 33 (EBin OXor u64 (ELoad 8 (EAt (EVar 24) 1 (EInt 8))) (ELoad 8 (EAt (EVar 31) 1 (EInt 8)))) ;;
      SSet 34 (EBin OXor u64 (ELoad 8 (EAt (EVar 24) 1 (EInt 16))) (ELoad 8 (EAt (EVar 31) 1 (EInt 16)))) ;;
      SSet 35 (EBin OXor u64 (ELoad 8 (EAt (EVar 24) 1 (EInt 24))) (ELoad 8 (EAt (EVar 31) 1 (EInt 24)))) ;;
      SStore 8 (EVar 30) (EVar 32) ;;
      SStore 8 (EAt (EVar 30) 1 (EInt 8)) (EVar 33) ;;
      SStore 8 (EAt (EVar 30) 1 (EInt 16)) (EVar 34) ;;
      SStore 8 (EAt (EVar 30) 1 (EInt 24)) (EVar 35) ;;
      SSet 36 (EAt (EVar 6) 32 (EBin OAdd u32 (EVar 22) (EInt 0))) ;;
      SSet 37 (EAt (EVar 6) 32 (EBin OAdd u32 (EVar 22) (EInt 0))) ;;
      SAlloc 38 (EInt 32) ;;
      SCall None f_bf192_mul [(EVar 38); (EAt (EVar 23) 32 (EInt 1)); (EVar 17)] ;;
      SSet 39 (EBin OXor u64 (ELoad 8 (EVar 37)) (ELoad 8 (EVar 38)))) ;;
      (
      SSet 40 (EBin OXor u64 (ELoad 8 (EAt (EVar 37) 1 (EInt 8))) (ELoad 8 (EAt (EVar 38) 1 (EInt 8)))) ;;
      SSet 41 (EBin OXor u64 (ELoad 8 (EAt (EVar 37) 1 (EInt 16))) (ELoad 8 (EAt (EVar 38) 1 (EInt 16)))) ;;
      SSet 42 (EBin OXor u64 (ELoad 8 (EAt (EVar 37) 1 (EInt 24))) (ELoad 8 (EAt (EVar 38) 1 (EInt 24)))) ;;
      SStore 8 (EVar 36) (EVar 39) ;;
      SStore 8 (EAt (EVar 36) 1 (EInt 8)) (EVar 40) ;;
      SStore 8 (EAt (EVar 36) 1 (EInt 16)) (EVar 41) ;;
      SStore 8 (EAt (EVar 36) 1 (EInt 24)) (EVar 42) ;;
      SSet 43 (EAt (EVar 6) 32 (EBin OAdd u32 (EVar 22) (EInt 0))) ;;
      SSet 44 (EAt (EVar 6) 32 (EBin OAdd u32 (EVar 22) (EInt 0))) ;;
      SSet 45 (EAt (EVar 23) 32 (EInt 2)) ;;
      SSet 46 (EBin OXor u64 (ELoad 8 (EVar 44)) (ELoad 8 (EVar 45))) ;;
      SSet 47 (EBin OXor u64 (ELoad 8 (EAt (EVar 44) 1 (EInt 8))) (ELoad 8 (EAt (EVar 45) 1 (EInt 8)))) ;;
      SSet 48 (EBin OXor u64 (ELoad 8 (EAt (EVar 44) 1 (EInt 16))) (ELoad 8 (EAt (EVar 45) 1 (EInt 16)))) ;;
      SSet 49 (EBin OXor u64 (ELoad 8 (EAt (EVar 44) 1 (EInt 24))) (ELoad 8 (EAt (EVar 45) 1 (EInt 24)))) ;;
      SStore 8 (EVar 43) (EVar 46) ;;
      SStore 8 (EAt (EVar 43) 1 (EInt 8)) (EVar 47) ;;
      SStore 8 (EAt (EVar 43) 1 (EInt 16)) (EVar 48) ;;
      SStore 8 (EAt (EVar 43) 1 (EInt 24)) (EVar 49) ;;
      SSet 50 (EAt (EVar 6) 32 (EBin OAdd u32 (EVar 22) (EInt 0))) ;;
      SSet 51 (EAt (EVar 6) 32 (EBin OAdd u32 (EVar 22) (EInt 0))) ;;
      SSet 52 (EAt (EVar 23) 32 (EInt 3)) ;;
      SSet 53 (EBin OXor u64 (ELoad 8 (EVar 51)) (ELoad 8 (EVar 52))) ;;
      SSet 54 (EBin OXor u64 (ELoad 8 (EAt (EVar 51) 1 (EInt 8))) (ELoad 8 (EAt (EVar 52) 1 (EInt 8)))) ;;
      SSet 55 (EBin OXor u64 (ELoad 8 (EAt (EVar 51) 1 (EInt 16))) (ELoad 8 (EAt (EVar 52) 1 (EInt 16)))))) ;;
      (
      (
      SSet 56 (EBin OXor u64 (ELoad 8 (EAt (EVar 51) 1 (EInt 24))) (ELoad 8 (EAt (EVar 52) 1 (EInt 24)))) ;;
      SStore 8 (EVar 50) (EVar 53) ;;
      SStore 8 (EAt (EVar 50) 1 (EInt 8)) (EVar 54) ;;
      SStore 8 (EAt (EVar 50) 1 (EInt 16)) (EVar 55) ;;
      SStore 8 (EAt (EVar 50) 1 (EInt 24)) (EVar 56) ;;
      SSet 57 (EAt (EVar 6) 32 (EBin OAdd u32 (EVar 22) (EInt 1))) ;;
      SSet 58 (EAt (EVar 24) 32 (EInt 1)) ;;
      SSet 59 (EBin OXor u64 (ELoad 8 (EVar 58)) (ELoad 8 (EVar 23))) ;;
      SSet 60 (EBin OXor u64 (ELoad 8 (EAt (EVar 58) 1 (EInt 8))) (ELoad 8 (EAt (EVar 23) 1 (EInt 8)))) ;;
      SSet 61 (EBin OXor u64 (ELoad 8 (EAt (EVar 58) 1 (EInt 16))) (ELoad 8 (EAt (EVar 23) 1 (EInt 16)))) ;;
      SSet 62 (EBin OXor u64 (ELoad 8 (EAt (EVar 58) 1 (EInt 24))) (ELoad 8 (EAt (EVar 23) 1 (EInt 24)))) ;;
      SStore 8 (EVar 57) (EVar 59) ;;
      SStore 8 (EAt (EVar 57) 1 (EInt 8)) (EVar 60) ;;
      SStore 8 (EAt (EVar 57) 1 (EInt 16)) (EVar 61) ;;
      SStore 8 (EAt (EVar 57) 1 (EInt 24)) (EVar 62) ;;
      SSet 63 (EAt (EVar 6) 32 (EBin OAdd u32 (EVar 22) (EInt 1))) ;;
      SSet 64 (EAt (EVar 6) 32 (EBin OAdd u32 (EVar 22) (EInt 1))) ;;
      SAlloc 65 (EInt 32) ;;
      SCall None f_bf192_mul [(EVar 65); (EAt (EVar 23) 32 (EInt 1)); (EVar 16)] ;;
      SSet 66 (EBin OXor u64 (ELoad 8 (EVar 64)) (ELoad 8 (EVar 65))) ;;
      SSet 67 (EBin OXor u64 (ELoad 8 (EAt (EVar 64) 1 (EInt 8))) (ELoad 8 (EAt (EVar 65) 1 (EInt 8)))) ;;
      SSet 68 (EBin OXor u64 (ELoad 8 (EAt (EVar 64) 1 (EInt 16))) (ELoad 8 (EAt (EVar 65) 1 (EInt 16)))) ;;
      SSet 69 (EBin OXor u64 (ELoad 8 (EAt (EVar 64) 1 (EInt 24))) (ELoad 8 (EAt (EVar 65) 1 (EInt 24))))) ;;
      (
      SStore 8 (EVar 63) (EVar 66) ;;
      SStore 8 (EAt (EVar 63) 1 (EInt 8)) (EVar 67) ;;
      SStore 8 (EAt (EVar 63) 1 (EInt 16)) (EVar 68) ;;
      SStore 8 (EAt (EVar 63) 1 (EInt 24)) (EVar 69) ;;
      SSet 70 (EAt (EVar 6) 32 (EBin OAdd u32 (EVar 22) (EInt 1))) ;;
      SSet 71 (EAt (EVar 6) 32 (EBin OAdd u32 (EVar 22) (EInt 1))) ;;
      SAlloc 72 (EInt 32) ;;
      SCall None f_bf192_mul [(EVar 72); (EAt (EVar 23) 32 (EInt 2)); (EVar 17)] ;;
      SSet 73 (EBin OXor u64 (ELoad 8 (EVar 71)) (ELoad 8 (EVar 72))) ;;
      SSet 74 (EBin OXor u64 (ELoad 8 (EAt (EVar 71) 1 (EInt 8))) (ELoad 8 (EAt (EVar 72) 1 (EInt 8)))) ;;
      SSet 75 (EBin OXor u64 (ELoad 8 (EAt (EVar 71) 1 (EInt 16))) (ELoad 8 (EAt (EVar 72) 1 (EInt 16)))) ;;
      SSet 76 (EBin OXor u64 (ELoad 8 (EAt (EVar 71) 1 (EInt 24))) (ELoad 8 (EAt (EVar 72) 1 (EInt 24)))) ;;
      SStore 8 (EVar 70) (EVar 73) ;;
      SStore 8 (EAt (EVar 70) 1 (EInt 8)) (EVar 74) ;;
      SStore 8 (EAt (EVar 70) 1 (EInt 16)) (EVar 75) ;;
      SStore 8 (EAt (EVar 70) 1 (EInt 24)) (EVar 76) ;;
      SSet 77 (EAt (EVar 6) 32 (EBin OAdd u32 (EVar 22) (EInt 1))) ;;
      SSet 78 (EAt (EVar 6) 32 (EBin OAdd u32 (EVar 22) (EInt 1))) ;;
      SSet 79 (EAt (EVar 23) 32 (EInt 3)) ;;
      SSet 80 (EBin OXor u64 (ELoad 8 (EVar 78)) (ELoad 8 (EVar 79))) ;;
      SSet 81 (EBin OXor u64 (ELoad 8 (EAt (EVar 78) 1 (EInt 8))) (ELoad 8 (EAt (EVar 79) 1 (EInt 8)))) ;;
      SSet 82 (EBin OXor u64 (ELoad 8 (EAt (EVar 78) 1 (EInt 16))) (ELoad 8 (EAt (EVar 79) 1 (EInt 16)))) ;;
      SSet 83 (EBin OXor u64 (ELoad 8 (EAt (EVar 78) 1 (EInt 24))) (ELoad 8 (EAt (EVar 79) 1 (EInt 24)))) ;;
      SStore 8 (EVar 77) (EVar 80)))) ;;
      (
      (
      (
      SStore 8 (EAt (EVar 77) 1 (EInt 8)) (EVar 81) ;;
      SStore 8 (EAt (EVar 77) 1 (EInt 16)) (EVar 82) ;;
      SStore 8 (EAt (EVar 77) 1 (EInt 24)) (EVar 83) ;;
      SSet 84 (EAt (EVar 6) 32 (EBin OAdd u32 (EVar 22) (EInt 2))) ;;
      SSet 85 (EAt (EVar 24) 32 (EInt 2)) ;;
      SSet 86 (EBin OXor u64 (ELoad 8 (EVar 85)) (ELoad 8 (EVar 23))) ;;
      SSet 87 (EBin OXor u64 (ELoad 8 (EAt (EVar 85) 1 (EInt 8))) (ELoad 8 (EAt (EVar 23) 1 (EInt 8)))) ;;
      SSet 88 (EBin OXor u64 (ELoad 8 (EAt (EVar 85) 1 (EInt 16))) (ELoad 8 (EAt (EVar 23) 1 (EInt 16)))) ;;
      SSet 89 (EBin OXor u64 (ELoad 8 (EAt (EVar 85) 1 (EInt 24))) (ELoad 8 (EAt (EVar 23) 1 (EInt 24)))) ;;
      SStore 8 (EVar 84) (EVar 86) ;;
      SStore 8 (EAt (EVar 84) 1 (EInt 8)) (EVar 87) ;;
      SStore 8 (EAt (EVar 84) 1 (EInt 16)) (EVar 88) ;;
      SStore 8 (EAt (EVar 84) 1 (EInt 24)) (EVar 89) ;;
      SSet 90 (EAt (EVar 6) 32 (EBin OAdd u32 (EVar 22) (EInt 2))) ;;
      SSet 91 (EAt (EVar 6) 32 (EBin OAdd u32 (EVar 22) (EInt 2))) ;;
      SSet 92 (EAt (EVar 23) 32 (EInt 1)) ;;
      SSet 93 (EBin OXor u64 (ELoad 8 (EVar 91)) (ELoad 8 (EVar 92))) ;;
      SSet 94 (EBin OXor u64 (ELoad 8 (EAt (EVar 91) 1 (EInt 8))) (ELoad 8 (EAt (EVar 92) 1 (EInt 8)))) ;;
      SSet 95 (EBin OXor u64 (ELoad 8 (EAt (EVar 91) 1 (EInt 16))) (ELoad 8 (EAt (EVar 92) 1 (EInt 16)))) ;;
      SSet 96 (EBin OXor u64 (ELoad 8 (EAt (EVar 91) 1 (EInt 24))) (ELoad 8 (EAt (EVar 92) 1 (EInt 24)))) ;;
      SStore 8 (EVar 90) (EVar 93) ;;
      SStore 8 (EAt (EVar 90) 1 (EInt 8)) (EVar 94) ;;
      SStore 8 (EAt (EVar 90) 1 (EInt 16)) (EVar 95)) ;;
      (
      SStore 8 (EAt (EVar 90) 1 (EInt 24)) (EVar 96) ;;
      SSet 97 (EAt (EVar 6) 32 (EBin OAdd u32 (EVar 22) (EInt 2))) ;;
      SSet 98 (EAt (EVar 6) 32 (EBin OAdd u32 (EVar 22) (EInt 2))) ;;
      SAlloc 99 (EInt 32) ;;
      SCall None f_bf192_mul [(EVar 99); (EAt (EVar 23) 32 (EInt 2)); (EVar 16)] ;;
      SSet 100 (EBin OXor u64 (ELoad 8 (EVar 98)) (ELoad 8 (EVar 99))) ;;
      SSet 101 (EBin OXor u64 (ELoad 8 (EAt (EVar 98) 1 (EInt 8))) (ELoad 8 (EAt (EVar 99) 1 (EInt 8)))) ;;
      SSet 102 (EBin OXor u64 (ELoad 8 (EAt (EVar 98) 1 (EInt 16))) (ELoad 8 (EAt (EVar 99) 1 (EInt 16)))) ;;
      SSet 103 (EBin OXor u64 (ELoad 8 (EAt (EVar 98) 1 (EInt 24))) (ELoad 8 (EAt (EVar 99) 1 (EInt 24)))) ;;
      SStore 8 (EVar 97) (EVar 100) ;;
      SStore 8 (EAt (EVar 97) 1 (EInt 8)) (EVar 101) ;;
      SStore 8 (EAt (EVar 97) 1 (EInt 16)) (EVar 102) ;;
      SStore 8 (EAt (EVar 97) 1 (EInt 24)) (EVar 103) ;;
      SSet 104 (EAt (EVar 6) 32 (EBin OAdd u32 (EVar 22) (EInt 2))) ;;
      SSet 105 (EAt (EVar 6) 32 (EBin OAdd u32 (EVar 22) (EInt 2))) ;;
      SAlloc 106 (EInt 32) ;;
      SCall None f_bf192_mul [(EVar 106); (EAt (EVar 23) 32 (EInt 3)); (EVar 17)] ;;
      SSet 107 (EBin OXor u64 (ELoad 8 (EVar 105)) (ELoad 8 (EVar 106))) ;;
      SSet 108 (EBin OXor u64 (ELoad 8 (EAt (EVar 105) 1 (EInt 8))) (ELoad 8 (EAt (EVar 106) 1 (EInt 8)))) ;;
      SSet 109 (EBin OXor u64 (ELoad 8 (EAt (EVar 105) 1 (EInt 16))) (ELoad 8 (EAt (EVar 106) 1 (EInt 16)))) ;;
      SSet 110 (EBin OXor u64 (ELoad 8 (EAt (EVar 105) 1 (EInt 24))) (ELoad 8 (EAt (EVar 106) 1 (EInt 24)))) ;;
      SStore 8 (EVar 104) (EVar 107) ;;
      SStore 8 (EAt (EVar 104) 1 (EInt 8)) (EVar 108) ;;
      SStore 8 (EAt (EVar 104) 1 (EInt 16)) (EVar 109))) ;;
      (
      (
      SStore 8 (EAt (EVar 104) 1 (EInt 24)) (EVar 110) ;;
      SSet 111 (EAt (EVar 6) 32 (EBin OAdd u32 (EVar 22) (EInt 3))) ;;
      SSet 112 (EAt (EVar 24) 32 (EInt 3)) ;;
      SAlloc 113 (EInt 32) ;;
      SCall None f_bf192_mul [(EVar 113); (EVar 23); (EVar 17)] ;;
      SSet 114 (EBin OXor u64 (ELoad 8 (EVar 112)) (ELoad 8 (EVar 113))) ;;
      SSet 115 (EBin OXor u64 (ELoad 8 (EAt (EVar 112) 1 (EInt 8))) (ELoad 8 (EAt (EVar 113) 1 (EInt 8)))) ;;
      SSet 116 (EBin OXor u64 (ELoad 8 (EAt (EVar 112) 1 (EInt 16))) (ELoad 8 (EAt (EVar 113) 1 (EInt 16)))) ;;
      SSet 117 (EBin OXor u64 (ELoad 8 (EAt (EVar 112) 1 (EInt 24))) (ELoad 8 (EAt (EVar 113) 1 (EInt 24)))) ;;
      SStore 8 (EVar 111) (EVar 114) ;;
      SStore 8 (EAt (EVar 111) 1 (EInt 8)) (EVar 115) ;;
      SStore 8 (EAt (EVar 111) 1 (EInt 16)) (EVar 116) ;;
      SStore 8 (EAt (EVar 111) 1 (EInt 24)) (EVar 117) ;;
      SSet 118 (EAt (EVar 6) 32 (EBin OAdd u32 (EVar 22) (EInt 3))) ;;
      SSet 119 (EAt (EVar 6) 32 (EBin OAdd u32 (EVar 22) (EInt 3))) ;;
      SSet 120 (EAt (EVar 23) 32 (EInt 1)) ;;
      SSet 121 (EBin OXor u64 (ELoad 8 (EVar 119)) (ELoad 8 (EVar 120))) ;;
      SSet 122 (EBin OXor u64 (ELoad 8 (EAt (EVar 119) 1 (EInt 8))) (ELoad 8 (EAt (EVar 120) 1 (EInt 8)))) ;;
      SSet 123 (EBin OXor u64 (ELoad 8 (EAt (EVar 119) 1 (EInt 16))) (ELoad 8 (EAt (EVar 120) 1 (EInt 16)))) ;;
      SSet 124 (EBin OXor u64 (ELoad 8 (EAt (EVar 119) 1 (EInt 24))) (ELoad 8 (EAt (EVar 120) 1 (EInt 24)))) ;;
      SStore 8 (EVar 118) (EVar 121) ;;
      SStore 8 (EAt (EVar 118) 1 (EInt 8)) (EVar 122) ;;
      SStore 8 (EAt (EVar 118) 1 (EInt 16)) (EVar 123)) ;;
      (
      SStore 8 (EAt (EVar 118) 1 (EInt 24)) (EVar 124) ;;
      SSet 125 (EAt (EVar 6) 32 (EBin OAdd u32 (EVar 22) (EInt 3))) ;;
      SSet 126 (EAt (EVar 6) 32 (EBin OAdd u32 (EVar 22) (EInt 3))) ;;
      SSet 127 (EAt (EVar 23) 32 (EInt 2)) ;;
      SSet 128 (EBin OXor u64 (ELoad 8 (EVar 126)) (ELoad 8 (EVar 127))) ;;
      SSet 129 (EBin OXor u64 (ELoad 8 (EAt (EVar 126) 1 (EInt 8))) (ELoad 8 (EAt (EVar 127) 1 (EInt 8)))) ;;
      SSet 130 (EBin OXor u64 (ELoad 8 (EAt (EVar 126) 1 (EInt 16))) (ELoad 8 (EAt (EVar 127) 1 (EInt 16)))) ;;
      SSet 131 (EBin OXor u64 (ELoad 8 (EAt (EVar 126) 1 (EInt 24))) (ELoad 8 (EAt (EVar 127) 1 (EInt 24)))) ;;
      SStore 8 (EVar 125) (EVar 128) ;;
      SStore 8 (EAt (EVar 125) 1 (EInt 8)) (EVar 129) ;;
      SStore 8 (EAt (EVar 125) 1 (EInt 16)) (EVar 130) ;;
      SStore 8 (EAt (EVar 125) 1 (EInt 24)) (EVar 131) ;;
      SSet 132 (EAt (EVar 6) 32 (EBin OAdd u32 (EVar 22) (EInt 3))) ;;
      SSet 133 (EAt (EVar 6) 32 (EBin OAdd u32 (EVar 22) (EInt 3))) ;;
      SAlloc 134 (EInt 32) ;;
      SCall None f_bf192_mul [(EVar 134); (EAt (EVar 23) 32 (EInt 3)); (EVar 16)] ;;
      SSet 135 (EBin OXor u64 (ELoad 8 (EVar 133)) (ELoad 8 (EVar 134))) ;;
      SSet 136 (EBin OXor u64 (ELoad 8 (EAt (EVar 133) 1 (EInt 8))) (ELoad 8 (EAt (EVar 134) 1 (EInt 8)))) ;;
      SSet 137 (EBin OXor u64 (ELoad 8 (EAt (EVar 133) 1 (EInt 16))) (ELoad 8 (EAt (EVar 134) 1 (EInt 16)))) ;;
      SSet 138 (EBin OXor u64 (ELoad 8 (EAt (EVar 133) 1 (EInt 24))) (ELoad 8 (EAt (EVar 134) 1 (EInt 24)))) ;;
      SStore 8 (EVar 132) (EVar 135) ;;
      SStore 8 (EAt (EVar 132) 1 (EInt 8)) (EVar 136) ;;
      SStore 8 (EAt (EVar 132) 1 (EInt 16)) (EVar 137) ;;
      SStore 8 (EAt (EVar 132) 1 (EInt 24)) (EVar 138)))))) ;;
  SReturn (EInt 0)).

(** faest_aes.c:897-954, aes_enc_forward_192.
    Variables: 1 = bf_x, 2 = bf_xk, 3 = in, 4 = Mtag, 5 = Mkey, 6 = delta, 7 = bf_y, 8 = bf_delta, 12 = bf_factor, 19 = i, 20 = bf_xin, 21 = j, 35 = bf_two, 36 = bf_three, 37 = j, 38 = c, 39 = ix, 40 = ik, 41 = iy, 42 = bf_x_hat, 43 = bf_xk_hat, 44 = r. *)
Definition c_aes_enc_forward_192 : func := Func [1%positive; 2%positive; 3%positive; 4%positive; 5%positive; 6%positive; 7%positive] (
  SAlloc 8 (EInt 32) ;;
  SIf (EBin OEq s32 (EIsNull (EVar 6)) (EInt 0))
    (
    SAlloc 9 (EInt 32) ;;
    SCall None f_bf192_load [(EVar 9); (EVar 6)] ;;
    SSet 11 (EVar 9))
    (
    SAlloc 10 (EInt 32) ;;
    SCall None f_bf192_zero [(EVar 10)] ;;
    SSet 11 (EVar 10)) ;;
  SCopy (EVar 8) (EVar 11) (EInt 32) ;;
  SAlloc 12 (EInt 32) ;;
  SSet 13 (EUn ONeg u64 (EBin OAnd u64 (EVar 5) (EInt 1))) ;;
  SAlloc 14 (EInt 32) ;;
  SCall None f_bf192_from_bit [(EVar 14); (EUn OCast u8 (EBin OXor s32 (EInt 1) (EVar 5)))] ;;
  SSet 15 (EBin OXor u64 (EBin OAnd u64 (ELoad 8 (EVar 8)) (EVar 13)) (ELoad 8 (EVar 14))) ;;
  SSet 16 (EBin OXor u64 (EBin OAnd u64 (ELoad 8 (EAt (EVar 8) 1 (EInt 8))) (EVar 13)) (ELoad 8 (EAt (EVar 14) 1 (EInt 8)))) ;;
  SSet 17 (EBin OXor u64 (EBin OAnd u64 (ELoad 8 (EAt (EVar 8) 1 (EInt 16))) (EVar 13)) (ELoad 8 (EAt (EVar 14) 1 (EInt 16)))) ;;
  SSet 18 (EBin OXor u64 (EBin OAnd u64 (ELoad 8 (EAt (EVar 8) 1 (EInt 24))) (EVar 13)) (ELoad 8 (EAt (EVar 14) 1 (EInt 24)))) ;;
  SStore 8 (EVar 12) (EVar 15) ;;
  SStore 8 (EAt (EVar 12) 1 (EInt 8)) (EVar 16) ;;
  SStore 8 (EAt (EVar 12) 1 (EInt 16)) (EVar 17) ;;
  SStore 8 (EAt (EVar 12) 1 (EInt 24)) (EVar 18) ;;
  SSet 19 (EInt 0) ;;
  SLoop (EBin OLt s32 (EVar 19) (EInt 16))
    (
    SSet 19 (EBin OAdd u32 (EVar 19) (EInt 1)))
    (
    SAlloc 20 (EInt 256) ;;
    SSet 21 (EInt 0) ;;
    SLoop (EBin OLt s32 (EVar 21) (EInt 8))
      (
      SSet 21 (EBin OAdd u32 (EVar 21) (EInt 1)))
      (
      SSet 22 (EAt (EVar 20) 32 (EVar 21)) ;;
      SSet 23 (EUn ONeg u64 (EBin OAnd u64 (EUn OCast u64 (EBin OAnd s32 (EBin OXor s32 (EInt 1) (EVar 4)) (EBin OAnd s32 (EBin OShr s32 (ELoad 1 (EAt (EVar 3) 1 (EVar 19))) (EVar 21)) (EInt 1)))) (EInt 1))) ;;
      SSet 24 (EBin OAnd u64 (ELoad 8 (EVar 12)) (EVar 23)) ;;
      SSet 25 (EBin OAnd u64 (ELoad 8 (EAt (EVar 12) 1 (EInt 8))) (EVar 23)) ;;
      SSet 26 (EBin OAnd u64 (ELoad 8 (EAt (EVar 12) 1 (EInt 16))) (EVar 23)) ;;
      SSet 27 (EBin OAnd u64 (ELoad 8 (EAt (EVar 12) 1 (EInt 24))) (EVar 23)) ;;
      SStore 8 (EVar 22) (EVar 24) ;;
      SStore 8 (EAt (EVar 22) 1 (EInt 8)) (EVar 25) ;;
      SStore 8 (EAt (EVar 22) 1 (EInt 16)) (EVar 26) ;;
      SStore 8 (EAt (EVar 22) 1 (EInt 24)) (EVar 27)) ;;
    SSet 28 (EAt (EVar 7) 32 (EVar 19)) ;;
    SAlloc 29 (EInt 32) ;;
    SCall None f_bf192_byte_combine [(EVar 29); (EVar 20)] ;;
    SAlloc 30 (EInt 32) ;;
    SCall None f_bf192_byte_combine [(EVar 30); (EAt (EVar 2) 32 (EBin OMul u32 (EInt 8) (EVar 19)))] ;;
    SSet 31 (EBin OXor u64 (ELoad 8 (EVar 29)) (ELoad 8 (EVar 30))) ;;
    SSet 32 (EBin OXor u64 (ELoad 8 (EAt (EVar 29) 1 (EInt 8))) (ELoad 8 (EAt (EVar 30) 1 (EInt 8)))) ;;
    SSet 33 (EBin OXor u64 (ELoad 8 (EAt (EVar 29) 1 (EInt 16))) (ELoad 8 (EAt (EVar 30) 1 (EInt 16)))) ;;
    SSet 34 (EBin OXor u64 (ELoad 8 (EAt (EVar 29) 1 (EInt 24))) (ELoad 8 (EAt (EVar 30) 1 (EInt 24)))) ;;
    SStore 8 (EVar 28) (EVar 31) ;;
    SStore 8 (EAt (EVar 28) 1 (EInt 8)) (EVar 32) ;;
    SStore 8 (EAt (EVar 28) 1 (EInt 16)) (EVar 33) ;;
    SStore 8 (EAt (EVar 28) 1 (EInt 24)) (EVar 34)) ;;
  SAlloc 35 (EInt 32) ;;
  SCall None f_bf192_byte_combine_bits [(EVar 35); (EInt 2)] ;;
  SAlloc 36 (EInt 32) ;;
  SCall None f_bf192_byte_combine_bits [(EVar 36); (EInt 3)] ;;
  SSet 37 (EInt 1) ;;
  SLoop (EBin OLt s32 (EVar 37) (EInt 12))
    (
    SSet 37 (EBin OAdd u32 (EVar 37) (EInt 1)))
    (
    SSet 38 (EInt 0) ;;
    SLoop (EBin OLe s32 (EVar 38) (EInt 3))
      (
      SSet 38 (EBin OAdd u32 (EVar 38) (EInt 1)))
      (
      (
      (
      (
      SSet 39 (EBin OAdd u32 (EBin OMul u32 (EInt 128) (EBin OSub u32 (EVar 37) (EInt 1))) (EBin OMul u32 (EInt 32) (EVar 38))) ;;
      SSet 40 (EBin OAdd u32 (EBin OMul u32 (EInt 128) (EVar 37)) (EBin OMul u32 (EInt 32) (EVar 38))) ;;
      SSet 41 (EBin OAdd u32 (EBin OMul u32 (EInt 16) (EVar 37)) (EBin OMul u32 (EInt 4) (EVar 38))) ;;
      SAlloc 42 (EInt 128) ;;
      SAlloc 43 (EInt 128) ;;
      SSet 44 (EInt 0) ;;
      SLoop (EBin OLe s32 (EVar 44) (EInt 3))
        (
        SSet 44 (EBin OAdd u32 (EVar 44) (EInt 1)))
        (
        SSet 45 (EAt (EVar 42) 32 (EVar 44)) ;;
        SAlloc 46 (EInt 32) ;;
        SCall None f_bf192_byte_combine [(EVar 46); (EAt (EVar 1) 32 (EBin OAdd u32 (EVar 39) (EBin OMul u32 (EInt 8) (EVar 44))))] ;;
        SCopy (EVar 45) (EVar 46) (EInt 32) ;;
        SSet 47 (EAt (EVar 43) 32 (EVar 44)) ;;
        SAlloc 48 (EInt 32) ;;
        SCall None f_bf192_byte_combine [(EVar 48); (EAt (EVar 2) 32 (EBin OAdd u32 (EVar 40) (EBin OMul u32 (EInt 8) (EVar 44))))] ;;
        SCopy (EVar 47) (EVar 48) (EInt 32)) ;;
      SSet 49 (EAt (EVar 7) 32 (EBin OAdd u32 (EVar 41) (EInt 0))) ;;
      SAlloc 50 (EInt 32) ;;
      SCall None f_bf192_mul [(EVar 50); (EVar 42); (EVar 35)] ;;
      SSet 51 (EBin OXor u64 (ELoad 8 (EVar 43)) (ELoad 8 (EVar 50))) ;;
      SSet 52 (EBin OXor u64 (ELoad 8 (EAt (EVar 43) 1 (EInt 8))) (ELoad 8 (EAt (EVar 50) 1 (EInt 8)))) ;;
      SSet 53 (EBin OXor u64 (ELoad 8 (EAt (EVar 43) 1 (EInt 16))) (ELoad 8 (EAt (EVar 50) 1 (EInt 16)))) ;;
      SSet 54 (EBin OXor u64 (ELoad 8 (EAt (EVar 43) 1 (EInt 24))) (ELoad 8 (EAt (EVar 50) 1 (EInt 24)))) ;;
      SStore 8 (EVar 49) (EVar 51) ;;
      SStore 8 (EAt (EVar 49) 1 (EInt 8)) (EVar 52) ;;
      SStore 8 (EAt (EVar 49) 1 (EInt 16)) (EVar 53) ;;
      SStore 8 (EAt (EVar 49) 1 (EInt 24)) (EVar 54) ;;
      SSet 55 (EAt (EVar 7) 32 (EBin OAdd u32 (EVar 41) (EInt 0))) ;;
      SSet 56 (EAt (EVar 7) 32 (EBin OAdd u32 (EVar 41) (EInt 0))) ;;
      SAlloc 57 (EInt 32) ;;
      SCall None f_bf192_mul [(EVar 57); (EAt (EVar 42) 32 (EInt 1)); (EVar 36)] ;;
      SSet 58 (EBin OXor u64 (ELoad 8 (EVar 56)) (ELoad 8 (EVar 57)))) ;;
      (
      SSet 59 (EBin OXor u64 (ELoad 8 (EAt (EVar 56) 1 (EInt 8))) (ELoad 8 (EAt (EVar 57) 1 (EInt 8)))) ;;
      SSet 60 (EBin OXor u64 (ELoad 8 (EAt (EVar 56) 1 (EInt 16))) (ELoad 8 (EAt (EVar 57) 1 (EInt 16)))) ;;
      SSet 61 (EBin OXor u64 (ELoad 8 (EAt (EVar 56) 1 (EInt 24))) (ELoad 8 (EAt (EVar 57) 1 (EInt 24)))) ;;
      SStore 8 (EVar 55) (EVar 58) ;;
      SStore 8 (EAt (EVar 55) 1 (EInt 8)) (EVar 59) ;;
      SStore 8 (EAt (EVar 55) 1 (EInt 16)) (EVar 60) ;;
      SStore 8 (EAt (EVar 55) 1 (EInt 24)) (EVar 61) ;;
      SSet 62 (EAt (EVar 7) 32 (EBin OAdd u32 (EVar 41) (EInt 0))) ;;
      SSet 63 (EAt (EVar 7) 32 (EBin OAdd u32 (EVar 41) (EInt 0))) ;;
      SSet 64 (EAt (EVar 42) 32 (EInt 2)) ;;
      SSet 65 (EBin OXor u64 (ELoad 8 (EVar 63)) (ELoad 8 (EVar 64))) ;;
      SSet 66 (EBin OXor u64 (ELoad 8 (EAt (EVar 63) 1 (EInt 8))) (ELoad 8 (EAt (EVar 64) 1 (EInt 8)))) ;;
      SSet 67 (EBin OXor u64 (ELoad 8 (EAt (EVar 63) 1 (EInt 16))) (ELoad 8 (EAt (EVar 64) 1 (EInt 16)))) ;;
      SSet 68 (EBin OXor u64 (ELoad 8 (EAt (EVar 63) 1 (EInt 24))) (ELoad 8 (EAt (EVar 64) 1 (EInt 24)))) ;;
      SStore 8 (EVar 62) (EVar 65) ;;
      SStore 8 (EAt (EVar 62) 1 (EInt 8)) (EVar 66) ;;
      SStore 8 (EAt (EVar 62) 1 (EInt 16)) (EVar 67) ;;
      SStore 8 (EAt (EVar 62) 1 (EInt 24)) (EVar 68) ;;
      SSet 69 (EAt (EVar 7) 32 (EBin OAdd u32 (EVar 41) (EInt 0))) ;;
      SSet 70 (EAt (EVar 7) 32 (EBin OAdd u32 (EVar 41) (EInt 0))) ;;
      SSet 71 (EAt (EVar 42) 32 (EInt 3)) ;;
      SSet 72 (EBin OXor u64 (ELoad 8 (EVar 70)) (ELoad 8 (EVar 71))) ;;
      SSet 73 (EBin OXor u64 (ELoad 8 (EAt (EVar 70) 1 (EInt 8))) (ELoad 8 (EAt (EVar 71) 1 (EInt 8)))) ;;
      SSet 74 (EBin OXor u64 (ELoad 8 (EAt (EVar 70) 1 (EInt 16))) (ELoad 8 (EAt (EVar 71) 1 (EInt 16)))))) ;;
      (
      (
      SSet 75 (EBin OXor u64 (ELoad 8 (EAt (EVar 70) 1 (EInt 24))) (ELoad 8 (EAt (EVar 71) 1 (EInt 24)))) ;;
      SStore 8 (EVar 69) (EVar 72) ;;
      SStore 8 (EAt (EVar 69) 1 (EInt 8)) (EVar 73) ;;
      SStore 8 (EAt (EVar 69) 1 (EInt 16)) (EVar 74) ;;
      SStore 8 (EAt (EVar 69) 1 (EInt 24)) (EVar 75) ;;
      SSet 76 (EAt (EVar 7) 32 (EBin OAdd u32 (EVar 41) (EInt 1))) ;;
      SSet 77 (EAt (EVar 43) 32 (EInt 1)) ;;
      SSet 78 (EBin OXor u64 (ELoad 8 (EVar 77)) (ELoad 8 (EVar 42))) ;;
      SSet 79 (EBin OXor u64 (ELoad 8 (EAt (EVar 77) 1 (EInt 8))) (ELoad 8 (EAt (EVar 42) 1 (EInt 8)))) ;;
      SSet 80 (EBin OXor u64 (ELoad 8 (EAt (EVar 77) 1 (EInt 16))) (ELoad 8 (EAt (EVar 42) 1 (EInt 16)))) ;;
      SSet 81 (EBin OXor u64 (ELoad 8 (EAt (EVar 77) 1 (EInt 24))) (ELoad 8 (EAt (EVar 42) 1 (EInt 24)))) ;;
      SStore 8 (EVar 76) (EVar 78) ;;
      SStore 8 (EAt (EVar 76) 1 (EInt 8)) (EVar 79) ;;
      SStore 8 (EAt (EVar 76) 1 (EInt 16)) (EVar 80) ;;
      SStore 8 (EAt (EVar 76) 1 (EInt 24)) (EVar 81) ;;
      SSet 82 (EAt (EVar 7) 32 (EBin OAdd u32 (EVar 41) (EInt 1))) ;;
      SSet 83 (EAt (EVar 7) 32 (EBin OAdd u32 (EVar 41) (EInt 1))) ;;
      SAlloc 84 (EInt 32) ;;
      SCall None f_bf192_mul [(EVar 84); (EAt (EVar 42) 32 (EInt 1)); (EVar 35)] ;;
      SSet 85 (EBin OXor u64 (ELoad 8 (EVar 83)) (ELoad 8 (EVar 84))) ;;
      SSet 86 (EBin OXor u64 (ELoad 8 (EAt (EVar 83) 1 (EInt 8))) (ELoad 8 (EAt (EVar 84) 1 (EInt 8)))) ;;
      SSet 87 (EBin OXor u64 (ELoad 8 (EAt (EVar 83) 1 (EInt 16))) (ELoad 8 (EAt (EVar 84) 1 (EInt 16)))) ;;
      SSet 88 (EBin OXor u64 (ELoad 8 (EAt (EVar 83) 1 (EInt 24))) (ELoad 8 (EAt (EVar 84) 1 (EInt 24))))) ;;
      (
      SStore 8 (EVar 82) (EVar 85) ;;
      SStore 8 (EAt (EVar 82) 1 (EInt 8)) (EVar 86) ;;
      SStore 8 (EAt (EVar 82) 1 (EInt 16)) (EVar 87) ;;
      SStore 8 (EAt (EVar 82) 1 (EInt 24)) (EVar 88) ;;
      SSet 89 (EAt (EVar 7) 32 (EBin OAdd u32 (EVar 41) (EInt 1))) ;;
      SSet 90 (EAt (EVar 7) 32 (EBin OAdd u32 (EVar 41) (EInt 1))) ;;
      SAlloc 91 (EInt 32) ;;
      SCall None f_bf192_mul [(EVar 91); (EAt (EVar 42) 32 (EInt 2)); (EVar 36)] ;;
      SSet 92 (EBin OXor u64 (ELoad 8 (EVar 90)) (ELoad 8 (EVar 91))) ;;
      SSet 93 (EBin OXor u64 (ELoad 8 (EAt (EVar 90) 1 (EInt 8))) (ELoad 8 (EAt (EVar 91) 1 (EInt 8)))) ;;
      SSet 94 (EBin OXor u64 (ELoad 8 (EAt (EVar 90) 1 (EInt 16))) (ELoad 8 (EAt (EVar 91) 1 (EInt 16)))) ;;
      SSet 95 (EBin OXor u64 (ELoad 8 (EAt (EVar 90) 1 (EInt 24))) (ELoad 8 (EAt (EVar 91) 1 (EInt 24)))) ;;
      SStore 8 (EVar 89) (EVar 92) ;;
      SStore 8 (EAt (EVar 89) 1 (EInt 8)) (EVar 93) ;;
      SStore 8 (EAt (EVar 89) 1 (EInt 16)) (EVar 94) ;;
      SStore 8 (EAt (EVar 89) 1 (EInt 24)) (EVar 95) ;;
      SSet 96 (EAt (EVar 7) 32 (EBin OAdd u32 (EVar 41) (EInt 1))) ;;
      SSet 97 (EAt (EVar 7) 32 (EBin OAdd u32 (EVar 41) (EInt 1))) ;;
      SSet 98 (EAt (EVar 42) 32 (EInt 3)) ;;
      SSet 99 (EBin OXor u64 (ELoad 8 (EVar 97)) (ELoad 8 (EVar 98))) ;;
      SSet 100 (EBin OXor u64 (ELoad 8 (EAt (EVar 97) 1 (EInt 8))) (ELoad 8 (EAt (EVar 98) 1 (EInt 8)))) ;;
      SSet 101 (EBin OXor u64 (ELoad 8 (EAt (EVar 97) 1 (EInt 16))) (ELoad 8 (EAt (EVar 98) 1 (EInt 16)))) ;;
      SSet 102 (EBin OXor u64 (ELoad 8 (EAt (EVar 97) 1 (EInt 24))) (ELoad 8 (EAt (EVar 98) 1 (EInt 24)))) ;;
      SStore 8 (EVar 96) (EVar 99)))) ;;
      (
      (
      (
      SStore 8 (EAt (EVar 96) 1 (EInt 8)) (EVar 100) ;;
      SStore 8 (EAt (EVar 96) 1 (EInt 16)) (EVar 101) ;;
      SStore 8 (EAt (EVar 96) 1 (EInt 24)) (EVar 102) ;;
      SSet 103 (EAt (EVar 7) 32 (EBin OAdd u32 (EVar 41) (EInt 2))) ;;
      SSet 104 (EAt (EVar 43) 32 (EInt 2)) ;;
      SSet 105 (EBin OXor u64 (ELoad 8 (EVar 104)) (ELoad 8 (EVar 42))) ;;
      SSet 106 (EBin OXor u64 (ELoad 8 (EAt (EVar 104) 1 (EInt 8))) (ELoad 8 (EAt (EVar 42) 1 (EInt 8)))) ;;
      SSet 107 (EBin OXor u64 (ELoad 8 (EAt (EVar 104) 1 (EInt 16))) (ELoad 8 (EAt (EVar 42) 1 (EInt 16)))) ;;
      SSet 108 (EBin OXor u64 (ELoad 8 (EAt (EVar 104) 1 (EInt 24))) (ELoad 8 (EAt (EVar 42) 1 (EInt 24)))) ;;
      SStore 8 (EVar 103) (EVar 105) ;;
      SStore 8 (EAt (EVar 103) 1 (EInt 8)) (EVar 106) ;;
      SStore 8 (EAt (EVar 103) 1 (EInt 16)) (EVar 107) ;;
      SStore 8 (EAt (EVar 103) 1 (EInt 24)) (EVar 108) ;;
      SSet 109 (EAt (EVar 7) 32 (EBin OAdd u32 (EVar 41) (EInt 2))) ;;
      SSet 110 (EAt (EVar 7) 32 (EBin OAdd u32 (EVar 41) (EInt 2))) ;;
      SSet 111 (EAt (EVar 42) 32 (EInt 1)) ;;
      SSet 112 (EBin OXor u64 (ELoad 8 (EVar 110)) (ELoad 8 (EVar 111))) ;;
      SSet 113 (EBin OXor u64 (ELoad 8 (EAt (EVar 110) 1 (EInt 8))) (ELoad 8 (EAt (EVar 111) 1 (EInt 8)))) ;;
      SSet 114 (EBin OXor u64 (ELoad 8 (EAt (EVar 110) 1 (EInt 16))) (ELoad 8 (EAt (EVar 111) 1 (EInt 16)))) ;;
      SSet 115 (EBin OXor u64 (ELoad 8 (EAt (EVar 110) 1 (EInt 24))) (ELoad 8 (EAt (EVar 111) 1 (EInt 24)))) ;;
      SStore 8 (EVar 109) (EVar 112) ;;
      SStore 8 (EAt (EVar 109) 1 (EInt 8)) (EVar 113) ;;
      SStore 8 (EAt (EVar 109) 1 (EInt 16)) (EVar 114)) ;;
      (
      SStore 8 (EAt (EVar 109) 1 (EInt 24)) (EVar 115) ;;
      SSet 116 (EAt (EVar 7) 32 (EBin OAdd u32 (EVar 41) (EInt 2))) ;;
      SSet 117 (EAt (EVar 7) 32 (EBin OAdd u32 (EVar 41) (EInt 2))) ;;
      SAlloc 118 (EInt 32) ;;
      SCall None f_bf192_mul [(EVar 118); (EAt (EVar 42) 32 (EInt 2)); (EVar 35)] ;;
      SSet 119 (EBin OXor u64 (ELoad 8 (EVar 117)) (ELoad 8 (EVar 118))) ;;
      SSet 120 (EBin OXor u64 (ELoad 8 (EAt (EVar 117) 1 (EInt 8))) (ELoad 8 (EAt (EVar 118) 1 (EInt 8)))) ;;
      SSet 121 (EBin OXor u64 (ELoad 8 (EAt (EVar 117) 1 (EInt 16))) (ELoad 8 (EAt (EVar 118) 1 (EInt 16)))) ;;
      SSet 122 (EBin OXor u64 (ELoad 8 (EAt (EVar 117) 1 (EInt 24))) (ELoad 8 (EAt (EVar 118) 1 (EInt 24)))) ;;
      SStore 8 (EVar 116) (EVar 119) ;;
      SStore 8 (EAt (EVar 116) 1 (EInt 8)) (EVar 120) ;;
      SStore 8 (EAt (EVar 116) 1 (EInt 16)) (EVar 121) ;;
      SStore 8 (EAt (EVar 116) 1 (EInt 24)) (EVar 122) ;;
      SSet 123 (EAt (EVar 7) 32 (EBin OAdd u32 (EVar 41) (EInt 2))) ;;
      SSet 124 (EAt (EVar 7) 32 (EBin OAdd u32 (EVar 41) (EInt 2))) ;;
      SAlloc 125 (EInt 32) ;;
      SCall None f_bf192_mul [(EVar 125); (EAt (EVar 42) 32 (EInt 3)); (EVar 36)] ;;
      SSet 126 (EBin OXor u64 (ELoad 8 (EVar 124)) (ELoad 8 (EVar 125))) ;;
      SSet 127 (EBin OXor u64 (ELoad 8 (EAt (EVar 124) 1 (EInt 8))) (ELoad 8 (EAt (EVar 125) 1 (EInt 8)))) ;;
      SSet 128 (EBin OXor u64 (ELoad 8 (EAt (EVar 124) 1 (EInt 16))) (ELoad 8 (EAt (EVar 125) 1 (EInt 16)))) ;;
      SSet 129 (EBin OXor u64 (ELoad 8 (EAt (EVar 124) 1 (EInt 24))) (ELoad 8 (EAt (EVar 125) 1 (EInt 24)))) ;;
      SStore 8 (EVar 123) (EVar 126) ;;
      SStore 8 (EAt (EVar 123) 1 (EInt 8)) (EVar 127) ;;
      SStore 8 (EAt (EVar 123) 1 (EInt 16)) (EVar 128))) ;;
      (
      (
      SStore 8 (EAt (EVar 123) 1 (EInt 24)) (EVar 129) ;;
      SSet 130 (EAt (EVar 7) 32 (EBin OAdd u32 (EVar 41) (EInt 3))) ;;
      SSet 131 (EAt (EVar 43) 32 (EInt 3)) ;;
      SAlloc 132 (EInt 32) ;;
      SCall None f_bf192_mul [(EVar 132); (EVar 42); (EVar 36)] ;;
      SSet 133 (EBin OXor u64 (ELoad 8 (EVar 131)) (ELoad 8 (EVar 132))) ;;
      SSet 134 (EBin OXor u64 (ELoad 8 (EAt (EVar 131) 1 (EInt 8))) (ELoad 8 (EAt (EVar 132) 1 (EInt 8)))) ;;
      SSet 135 (EBin OXor u64 (ELoad 8 (EAt (EVar 131) 1 (EInt 16))) (ELoad 8 (EAt (EVar 132) 1 (EInt 16)))) ;;
      SSet 136 (EBin OXor u64 (ELoad 8 (EAt (EVar 131) 1 (EInt 24))) (ELoad 8 (EAt (EVar 132) 1 (EInt 24)))) ;;
      SStore 8 (EVar 130) (EVar 133) ;;
      SStore 8 (EAt (EVar 130) 1 (EInt 8)) (EVar 134) ;;
      SStore 8 (EAt (EVar 130) 1 (EInt 16)) (EVar 135) ;;
      SStore 8 (EAt (EVar 130) 1 (EInt 24)) (EVar 136) ;;
      SSet 137 (EAt (EVar 7) 32 (EBin OAdd u32 (EVar 41) (EInt 3))) ;;
      SSet 138 (EAt (EVar 7) 32 (EBin OAdd u32 (EVar 41) (EInt 3))) ;;
      SSet 139 (EAt (EVar 42) 32 (EInt 1)) ;;
      SSet 140 (EBin OXor u64 (ELoad 8 (EVar 138)) (ELoad 8 (EVar 139))) ;;
      SSet 141 (EBin OXor u64 (ELoad 8 (EAt (EVar 138) 1 (EInt 8))) (ELoad 8 (EAt (EVar 139) 1 (EInt 8)))) ;;
      SSet 142 (EBin OXor u64 (ELoad 8 (EAt (EVar 138) 1 (EInt 16))) (ELoad 8 (EAt (EVar 139) 1 (EInt 16)))) ;;
      SSet 143 (EBin OXor u64 (ELoad 8 (EAt (EVar 138) 1 (EInt 24))) (ELoad 8 (EAt (EVar 139) 1 (EInt 24)))) ;;
      SStore 8 (EVar 137) (EVar 140) ;;
      SStore 8 (EAt (EVar 137) 1 (EInt 8)) (EVar 141) ;;
      SStore 8 (EAt (EVar 137) 1 (EInt 16)) (EVar 142)) ;;
      (
      SStore 8 (EAt (EVar 137) 1 (EInt 24)) (EVar 143) ;;
      SSet 144 (EAt (EVar 7) 32 (EBin OAdd u32 (EVar 41) (EInt 3))) ;;
      SSet 145 (EAt (EVar 7) 32 (EBin OAdd u32 (EVar 41) (EInt 3))) ;;
      SSet 146 (EAt (EVar 42) 32 (EInt 2)) ;;
      SSet 147 (EBin OXor u64 (ELoad 8 (EVar 145)) (ELoad 8 (EVar 146))) ;;
      SSet 148 (EBin OXor u64 (ELoad 8 (EAt (EVar 145) 1 (EInt 8))) (ELoad 8 (EAt (EVar 146) 1 (EInt 8)))) ;;
      SSet 149 (EBin OXor u64 (ELoad 8 (EAt (EVar 145) 1 (EInt 16))) (ELoad 8 (EAt (EVar 146) 1 (EInt 16)))) ;;
      SSet 150 (EBin OXor u64 (ELoad 8 (EAt (EVar 145) 1 (EInt 24))) (ELoad 8 (EAt (EVar 146) 1 (EInt 24)))) ;;
      SStore 8 (EVar 144) (EVar 147) ;;
      SStore 8 (EAt (EVar 144) 1 (EInt 8)) (EVar 148) ;;
      SStore 8 (EAt (EVar 144) 1 (EInt 16)) (EVar 149) ;;
      SStore 8 (EAt (EVar 144) 1 (EInt 24)) (EVar 150) ;;
      SSet 151 (EAt (EVar 7) 32 (EBin OAdd u32 (EVar 41) (EInt 3))) ;;
      SSet 152 (EAt (EVar 7) 32 (EBin OAdd u32 (EVar 41) (EInt 3))) ;;
      SAlloc 153 (EInt 32) ;;
      SCall None f_bf192_mul [(EVar 153); (EAt (EVar 42) 32 (EInt 3)); (EVar 35)] ;;
      SSet 154 (EBin OXor u64 (ELoad 8 (EVar 152)) (ELoad 8 (EVar 153))) ;;
      SSet 155 (EBin OXor u64 (ELoad 8 (EAt (EVar 152) 1 (EInt 8))) (ELoad 8 (EAt (EVar 153) 1 (EInt 8)))) ;;
      SSet 156 (EBin OXor u64 (ELoad 8 (EAt (EVar 152) 1 (EInt 16))) (ELoad 8 (EAt (EVar 153) 1 (EInt 16)))) ;;
      SSet 157 (EBin OXor u64 (ELoad 8 (EAt (EVar 152) 1 (EInt 24))) (ELoad 8 (EAt (EVar 153) 1 (EInt 24)))) ;;
      SStore 8 (EVar 151) (EVar 154) ;;
      SStore 8 (EAt (EVar 151) 1 (EInt 8)) (EVar 155) ;;
      SStore 8 (EAt (EVar 151) 1 (EInt 16)) (EVar 156) ;;
      SStore 8 (EAt (EVar 151) 1 (EInt 24)) (EVar 157))))))).

(** faest_aes.c:956-985, aes_enc_backward_192_1.
    Variables: 1 = x, 2 = xk, 3 = Mtag, 4 = Mkey, 5 = out, 6 = y_out, 7 = xtilde, 8 = j, 9 = c, 10 = r, 11 = ird, 12 = xout, 16 = ytilde. *)
Definition c_aes_enc_backward_192_1 : func := Func [1%positive; 2%positive; 3%positive; 4%positive; 5%positive; 6%positive] (
  SSet 8 (EInt 0) ;;
  SLoop (EBin OLt s32 (EVar 8) (EInt 12))
    (
    SSet 8 (EBin OAdd u32 (EVar 8) (EInt 1)))
    (
    SSet 9 (EInt 0) ;;
    SLoop (EBin OLe s32 (EVar 9) (EInt 3))
      (
      SSet 9 (EBin OAdd u32 (EVar 9) (EInt 1)))
      (
      SSet 10 (EInt 0) ;;
      SLoop (EBin OLe s32 (EVar 10) (EInt 3))
        (
        SSet 10 (EBin OAdd u32 (EVar 10) (EInt 1)))
        (
        SSet 11 (EBin OAdd u32 (EBin OAdd u32 (EBin OMul u32 (EInt 128) (EVar 8)) (EBin OMul u32 (EInt 32) (EDiv OMod u32 (EBin OAdd u32 (EBin OSub u32 (EVar 9) (EVar 10)) (EInt 4)) (EInt 4)))) (EBin OMul u32 (EInt 8) (EVar 10))) ;;
        SIf (EBin OLt s32 (EVar 8) (EInt 11))
          (
          SSet 7 (ELoad 1 (EAt (EVar 1) 1 (EDiv ODiv u32 (EVar 11) (EInt 8)))))
          (
          SSet 12 (EUn OCast u8 (EBin OAnd s32 (ELoad 1 (EAt (EVar 5) 1 (EDiv ODiv u32 (EBin OSub u32 (EVar 11) (EInt 1408)) (EInt 8)))) (EUn ONeg s32 (EBin OAnd s32 (EBin OXor s32 (EInt 1) (EVar 3)) (EBin OXor s32 (EInt 1) (EVar 4)))))) ;;
          SSet 7 (EUn OCast u8 (EBin OXor s32 (EVar 12) (ELoad 1 (EAt (EVar 2) 1 (EDiv ODiv u32 (EBin OAdd u32 (EInt 128) (EVar 11)) (EInt 8))))))) ;;
        SCall (Some 13%positive) f___rorb [(EVar 7); (EInt 7)] ;;
        SCall (Some 14%positive) f___rorb [(EVar 7); (EInt 5)] ;;
        SCall (Some 15%positive) f___rorb [(EVar 7); (EInt 2)] ;;
        SSet 16 (EUn OCast u8 (EBin OXor s32 (EBin OXor s32 (EVar 13) (EVar 14)) (EVar 15))) ;;
        SSet 16 (EUn OCast u8 (EBin OXor s32 (EVar 16) (EBin OShl s32 (EBin OAnd s32 (EBin OXor s32 (EInt 1) (EVar 3)) (EBin OXor s32 (EInt 1) (EVar 4))) (EInt 0)))) ;;
        SSet 16 (EUn OCast u8 (EBin OXor s32 (EVar 16) (EBin OShl s32 (EBin OAnd s32 (EBin OXor s32 (EInt 1) (EVar 3)) (EBin OXor s32 (EInt 1) (EVar 4))) (EInt 2)))) ;;
        SSet 17 (EAt (EVar 6) 32 (EBin OAdd u32 (EBin OAdd u32 (EBin OMul u32 (EInt 16) (EVar 8)) (EBin OMul u32 (EInt 4) (EVar 9))) (EVar 10))) ;;
        SAlloc 18 (EInt 32) ;;
        SCall None f_bf192_byte_combine_bits [(EVar 18); (EVar 16)] ;;
        SCopy (EVar 17) (EVar 18) (EInt 32)))) ;;
  SReturn (EInt 0)).

(** faest_aes.c:987-1030, aes_enc_backward_192.
    Variables: 1 = bf_x, 2 = bf_xk, 3 = Mtag, 4 = Mkey, 5 = delta, 6 = out, 7 = y_out, 8 = bf_delta, 12 = factor, 20 = j, 21 = c, 22 = r, 23 = bf_x_tilde, 24 = ird, 25 = i, 26 = bf_xout, 38 = bf_y_tilde, 39 = i. *)
Definition c_aes_enc_backward_192 : func := Func [1%positive; 2%positive; 3%positive; 4%positive; 5%positive; 6%positive; 7%positive] (
  SAlloc 8 (EInt 32) ;;
  SIf (EBin OEq s32 (EIsNull (EVar 5)) (EInt 0))
    (
    SAlloc 9 (EInt 32) ;;
    SCall None f_bf192_load [(EVar 9); (EVar 5)] ;;
    SSet 11 (EVar 9))
    (
    SAlloc 10 (EInt 32) ;;
    SCall None f_bf192_zero [(EVar 10)] ;;
    SSet 11 (EVar 10)) ;;
  SCopy (EVar 8) (EVar 11) (EInt 32) ;;
  SAlloc 12 (EInt 32) ;;
  SSet 13 (EUn ONeg u64 (EBin OAnd u64 (EVar 4) (EInt 1))) ;;
  SAlloc 14 (EInt 32) ;;
  SCall None f_bf192_from_bit [(EVar 14); (EUn OCast u8 (EBin OXor s32 (EInt 1) (EVar 4)))] ;;
  SSet 15 (EUn ONeg u64 (EBin OAnd u64 (EUn OCast u64 (EBin OXor s32 (EInt 1) (EVar 3))) (EInt 1))) ;;
  SSet 16 (EBin OAnd u64 (EBin OXor u64 (EBin OAnd u64 (ELoad 8 (EVar 8)) (EVar 13)) (ELoad 8 (EVar 14))) (EVar 15)) ;;
  SSet 17 (EBin OAnd u64 (EBin OXor u64 (EBin OAnd u64 (ELoad 8 (EAt (EVar 8) 1 (EInt 8))) (EVar 13)) (ELoad 8 (EAt (EVar 14) 1 (EInt 8)))) (EVar 15)) ;;
  SSet 18 (EBin OAnd u64 (EBin OXor u64 (EBin OAnd u64 (ELoad 8 (EAt (EVar 8) 1 (EInt 16))) (EVar 13)) (ELoad 8 (EAt (EVar 14) 1 (EInt 16)))) (EVar 15)) ;;
  SSet 19 (EBin OAnd u64 (EBin OXor u64 (EBin OAnd u64 (ELoad 8 (EAt (EVar 8) 1 (EInt 24))) (EVar 13)) (ELoad 8 (EAt (EVar 14) 1 (EInt 24)))) (EVar 15)) ;;
  SStore 8 (EVar 12) (EVar 16) ;;
  SStore 8 (EAt (EVar 12) 1 (EInt 8)) (EVar 17) ;;
  SStore 8 (EAt (EVar 12) 1 (EInt 16)) (EVar 18) ;;
  SStore 8 (EAt (EVar 12) 1 (EInt 24)) (EVar 19) ;;
  SSet 20 (EInt 0) ;;
  SLoop (EBin OLt s32 (EVar 20) (EInt 12))
    (
    SSet 20 (EBin OAdd u32 (EVar 20) (EInt 1)))
    (
    SSet 21 (EInt 0) ;;
    SLoop (EBin OLe s32 (EVar 21) (EInt 3))
      (
      SSet 21 (EBin OAdd u32 (EVar 21) (EInt 1)))
      (
      SSet 22 (EInt 0) ;;
      SLoop (EBin OLe s32 (EVar 22) (EInt 3))
        (
        SSet 22 (EBin OAdd u32 (EVar 22) (EInt 1)))
        (
        SAlloc 23 (EInt 256) ;;
        SSet 24 (EBin OAdd u32 (EBin OAdd u32 (EBin OMul u32 (EInt 128) (EVar 20)) (EBin OMul u32 (EInt 32) (EDiv OMod u32 (EBin OAdd u32 (EBin OSub u32 (EVar 21) (EVar 22)) (EInt 4)) (EInt 4)))) (EBin OMul u32 (EInt 8) (EVar 22))) ;;
        SIf (EBin OLt s32 (EVar 20) (EInt 11))
          (
          SCopy (EVar 23) (EAt (EVar 1) 32 (EVar 24)) (EInt 256))
          (
          SSet 25 (EInt 0) ;;
          SLoop (EBin OLt s32 (EVar 25) (EInt 8))
            (
            SSet 25 (EBin OAdd u32 (EVar 25) (EInt 1)))
            (
            SAlloc 26 (EInt 32) ;;
            SSet 27 (EUn ONeg u64 (EBin OAnd u64 (EUn OCast u64 (EBin OAnd s32 (EBin OShr s32 (ELoad 1 (EAt (EVar 6) 1 (EDiv ODiv u32 (EBin OSub u32 (EVar 24) (EInt 1408)) (EInt 8)))) (EVar 25)) (EInt 1))) (EInt 1))) ;;
            SSet 28 (EBin OAnd u64 (ELoad 8 (EVar 12)) (EVar 27)) ;;
            SSet 29 (EBin OAnd u64 (ELoad 8 (EAt (EVar 12) 1 (EInt 8))) (EVar 27)) ;;
            SSet 30 (EBin OAnd u64 (ELoad 8 (EAt (EVar 12) 1 (EInt 16))) (EVar 27)) ;;
            SSet 31 (EBin OAnd u64 (ELoad 8 (EAt (EVar 12) 1 (EInt 24))) (EVar 27)) ;;
            SStore 8 (EVar 26) (EVar 28) ;;
            SStore 8 (EAt (EVar 26) 1 (EInt 8)) (EVar 29) ;;
            SStore 8 (EAt (EVar 26) 1 (EInt 16)) (EVar 30) ;;
            SStore 8 (EAt (EVar 26) 1 (EInt 24)) (EVar 31) ;;
            SSet 32 (EAt (EVar 23) 32 (EVar 25)) ;;
            SSet 33 (EAt (EVar 2) 32 (EBin OAdd u32 (EBin OAdd u32 (EInt 128) (EVar 24)) (EVar 25))) ;;
            SSet 34 (EBin OXor u64 (ELoad 8 (EVar 26)) (ELoad 8 (EVar 33))) ;;
            SSet 35 (EBin OXor u64 (ELoad 8 (EAt (EVar 26) 1 (EInt 8))) (ELoad 8 (EAt (EVar 33) 1 (EInt 8)))) ;;
            SSet 36 (EBin OXor u64 (ELoad 8 (EAt (EVar 26) 1 (EInt 16))) (ELoad 8 (EAt (EVar 33) 1 (EInt 16)))) ;;
            SSet 37 (EBin OXor u64 (ELoad 8 (EAt (EVar 26) 1 (EInt 24))) (ELoad 8 (EAt (EVar 33) 1 (EInt 24)))) ;;
            SStore 8 (EVar 32) (EVar 34) ;;
            SStore 8 (EAt (EVar 32) 1 (EInt 8)) (EVar 35) ;;
            SStore 8 (EAt (EVar 32) 1 (EInt 16)) (EVar 36) ;;
            SStore 8 (EAt (EVar 32) 1 (EInt 24)) (EVar 37))) ;;
        SAlloc 38 (EInt 256) ;;
        SSet 39 (EInt 0) ;;
        SLoop (EBin OLt s32 (EVar 39) (EInt 8))
          (
          SSet 39 (EBin OAdd u32 (EVar 39) (EInt 1)))
          (
          SSet 40 (EAt (EVar 38) 32 (EVar 39)) ;;
          SSet 41 (EAt (EVar 23) 32 (EDiv OMod u32 (EBin OAdd u32 (EVar 39) (EInt 7)) (EInt 8))) ;;
          SSet 42 (EAt (EVar 23) 32 (EDiv OMod u32 (EBin OAdd u32 (EVar 39) (EInt 5)) (EInt 8))) ;;
          SSet 43 (EAt (EVar 23) 32 (EDiv OMod u32 (EBin OAdd u32 (EVar 39) (EInt 2)) (EInt 8))) ;;
          SSet 44 (EBin OXor u64 (EBin OXor u64 (ELoad 8 (EVar 41)) (ELoad 8 (EVar 42))) (ELoad 8 (EVar 43))) ;;
          SSet 45 (EBin OXor u64 (EBin OXor u64 (ELoad 8 (EAt (EVar 41) 1 (EInt 8))) (ELoad 8 (EAt (EVar 42) 1 (EInt 8)))) (ELoad 8 (EAt (EVar 43) 1 (EInt 8)))) ;;
          SSet 46 (EBin OXor u64 (EBin OXor u64 (ELoad 8 (EAt (EVar 41) 1 (EInt 16))) (ELoad 8 (EAt (EVar 42) 1 (EInt 16)))) (ELoad 8 (EAt (EVar 43) 1 (EInt 16)))) ;;
          SSet 47 (EBin OXor u64 (EBin OXor u64 (ELoad 8 (EAt (EVar 41) 1 (EInt 24))) (ELoad 8 (EAt (EVar 42) 1 (EInt 24)))) (ELoad 8 (EAt (EVar 43) 1 (EInt 24)))) ;;
          SStore 8 (EVar 40) (EVar 44) ;;
          SStore 8 (EAt (EVar 40) 1 (EInt 8)) (EVar 45) ;;
          SStore 8 (EAt (EVar 40) 1 (EInt 16)) (EVar 46) ;;
          SStore 8 (EAt (EVar 40) 1 (EInt 24)) (EVar 47)) ;;
        SSet 48 (EBin OXor u64 (ELoad 8 (EVar 38)) (ELoad 8 (EVar 12))) ;;
        SSet 49 (EBin OXor u64 (ELoad 8 (EAt (EVar 38) 1 (EInt 8))) (ELoad 8 (EAt (EVar 12) 1 (EInt 8)))) ;;
        SSet 50 (EBin OXor u64 (ELoad 8 (EAt (EVar 38) 1 (EInt 16))) (ELoad 8 (EAt (EVar 12) 1 (EInt 16)))) ;;
        SSet 51 (EBin OXor u64 (ELoad 8 (EAt (EVar 38) 1 (EInt 24))) (ELoad 8 (EAt (EVar 12) 1 (EInt 24)))) ;;
        SStore 8 (EVar 38) (EVar 48) ;;
        SStore 8 (EAt (EVar 38) 1 (EInt 8)) (EVar 49) ;;
        SStore 8 (EAt (EVar 38) 1 (EInt 16)) (EVar 50) ;;
        SStore 8 (EAt (EVar 38) 1 (EInt 24)) (EVar 51) ;;
        SSet 52 (EAt (EVar 38) 32 (EInt 2)) ;;
        SSet 53 (EAt (EVar 38) 32 (EInt 2)) ;;
        SSet 54 (EBin OXor u64 (ELoad 8 (EVar 53)) (ELoad 8 (EVar 12))) ;;
        SSet 55 (EBin OXor u64 (ELoad 8 (EAt (EVar 53) 1 (EInt 8))) (ELoad 8 (EAt (EVar 12) 1 (EInt 8)))) ;;
        SSet 56 (EBin OXor u64 (ELoad 8 (EAt (EVar 53) 1 (EInt 16))) (ELoad 8 (EAt (EVar 12) 1 (EInt 16)))) ;;
        SSet 57 (EBin OXor u64 (ELoad 8 (EAt (EVar 53) 1 (EInt 24))) (ELoad 8 (EAt (EVar 12) 1 (EInt 24)))) ;;
        SStore 8 (EVar 52) (EVar 54) ;;
        SStore 8 (EAt (EVar 52) 1 (EInt 8)) (EVar 55) ;;
        SStore 8 (EAt (EVar 52) 1 (EInt 16)) (EVar 56) ;;
        SStore 8 (EAt (EVar 52) 1 (EInt 24)) (EVar 57) ;;
        SSet 58 (EAt (EVar 7) 32 (EBin OAdd u32 (EBin OAdd u32 (EBin OMul u32 (EInt 16) (EVar 20)) (EBin OMul u32 (EInt 4) (EVar 21))) (EVar 22))) ;;
        SAlloc 59 (EInt 32) ;;
        SCall None f_bf192_byte_combine [(EVar 59); (EVar 38)] ;;
        SCopy (EVar 58) (EVar 59) (EInt 32))))).

(** faest_aes.c:1032-1053, aes_enc_constraints_Mkey_0_192.
    Variables: 1 = in, 2 = out, 3 = w, 4 = v, 5 = k, 6 = vk, 7 = a0_ctx, 8 = a1_ctx, 9 = s, 10 = vs, 11 = s_dash, 12 = vs_dash, 13 = j, 14 = tmp. *)
Definition c_aes_enc_constraints_Mkey_0_192 : func := Func [1%positive; 2%positive; 3%positive; 4%positive; 5%positive; 6%positive; 7%positive; 8%positive] (
  SAlloc 9 (EInt 6144) ;;
  SAlloc 10 (EInt 6144) ;;
  SAlloc 11 (EInt 6144) ;;
  SAlloc 12 (EInt 6144) ;;
  SCall None f_aes_enc_forward_192_1 [(EVar 3); (EVar 5); (EVar 1); (EInt 0); (EInt 0); (EVar 9)] ;;
  SCall None f_aes_enc_forward_192 [(EVar 4); (EVar 6); (EVar 1); (EInt 1); (EInt 0); ENull; (EVar 10)] ;;
  SCall None f_aes_enc_backward_192_1 [(EVar 3); (EVar 5); (EInt 0); (EInt 0); (EVar 2); (EVar 11)] ;;
  SCall None f_aes_enc_backward_192 [(EVar 4); (EVar 6); (EInt 1); (EInt 0); ENull; (EVar 2); (EVar 12)] ;;
  SSet 13 (EInt 0) ;;
  SLoop (EBin OLt s32 (EVar 13) (EInt 192))
    (
    SSet 13 (EBin OAdd u32 (EVar 13) (EInt 1)))
    (
    SAlloc 14 (EInt 32) ;;
    SCall None f_bf192_mul [(EVar 14); (EAt (EVar 10) 32 (EVar 13)); (EAt (EVar 12) 32 (EVar 13))] ;;
    SCall None f_zk_hash_192_update [(EVar 7); (EVar 14)] ;;
    SSet 15 (EAt (EVar 9) 32 (EVar 13)) ;;
    SSet 16 (EAt (EVar 10) 32 (EVar 13)) ;;
    SAlloc 17 (EInt 32) ;;
    SSet 18 (EBin OXor u64 (ELoad 8 (EVar 15)) (ELoad 8 (EVar 16))) ;;
    SSet 19 (EBin OXor u64 (ELoad 8 (EAt (EVar 15) 1 (EInt 8))) (ELoad 8 (EAt (EVar 16) 1 (EInt 8)))) ;;
    SSet 20 (EBin OXor u64 (ELoad 8 (EAt (EVar 15) 1 (EInt 16))) (ELoad 8 (EAt (EVar 16) 1 (EInt 16)))) ;;
    SSet 21 (EBin OXor u64 (ELoad 8 (EAt (EVar 15) 1 (EInt 24))) (ELoad 8 (EAt (EVar 16) 1 (EInt 24)))) ;;
    SStore 8 (EVar 17) (EVar 18) ;;
    SStore 8 (EAt (EVar 17) 1 (EInt 8)) (EVar 19) ;;
    SStore 8 (EAt (EVar 17) 1 (EInt 16)) (EVar 20) ;;
    SStore 8 (EAt (EVar 17) 1 (EInt 24)) (EVar 21) ;;
    SSet 22 (EAt (EVar 11) 32 (EVar 13)) ;;
    SSet 23 (EAt (EVar 12) 32 (EVar 13)) ;;
    SAlloc 24 (EInt 32) ;;
    SSet 25 (EBin OXor u64 (ELoad 8 (EVar 22)) (ELoad 8 (EVar 23))) ;;
    SSet 26 (EBin OXor u64 (ELoad 8 (EAt (EVar 22) 1 (EInt 8))) (ELoad 8 (EAt (EVar 23) 1 (EInt 8)))) ;;
    SSet 27 (EBin OXor u64 (ELoad 8 (EAt (EVar 22) 1 (EInt 16))) (ELoad 8 (EAt (EVar 23) 1 (EInt 16)))) ;;
    SSet 28 (EBin OXor u64 (ELoad 8 (EAt (EVar 22) 1 (EInt 24))) (ELoad 8 (EAt (EVar 23) 1 (EInt 24)))) ;;
    SStore 8 (EVar 24) (EVar 25) ;;
    SStore 8 (EAt (EVar 24) 1 (EInt 8)) (EVar 26) ;;
    SStore 8 (EAt (EVar 24) 1 (EInt 16)) (EVar 27) ;;
    SStore 8 (EAt (EVar 24) 1 (EInt 24)) (EVar 28) ;;
    SAlloc 29 (EInt 32) ;;
    SCall None f_bf192_mul [(EVar 29); (EVar 17); (EVar 24)] ;;
    SAlloc 30 (EInt 32) ;;
    SCall None f_bf192_one [(EVar 30)] ;;
    SAlloc 31 (EInt 32) ;;
    SSet 32 (EBin OXor u64 (EBin OXor u64 (ELoad 8 (EVar 29)) (ELoad 8 (EVar 14))) (ELoad 8 (EVar 30))) ;;
    SSet 33 (EBin OXor u64 (EBin OXor u64 (ELoad 8 (EAt (EVar 29) 1 (EInt 8))) (ELoad 8 (EAt (EVar 14) 1 (EInt 8)))) (ELoad 8 (EAt (EVar 30) 1 (EInt 8)))) ;;
    SSet 34 (EBin OXor u64 (EBin OXor u64 (ELoad 8 (EAt (EVar 29) 1 (EInt 16))) (ELoad 8 (EAt (EVar 14) 1 (EInt 16)))) (ELoad 8 (EAt (EVar 30) 1 (EInt 16)))) ;;
    SSet 35 (EBin OXor u64 (EBin OXor u64 (ELoad 8 (EAt (EVar 29) 1 (EInt 24))) (ELoad 8 (EAt (EVar 14) 1 (EInt 24)))) (ELoad 8 (EAt (EVar 30) 1 (EInt 24)))) ;;
    SStore 8 (EVar 31) (EVar 32) ;;
    SStore 8 (EAt (EVar 31) 1 (EInt 8)) (EVar 33) ;;
    SStore 8 (EAt (EVar 31) 1 (EInt 16)) (EVar 34) ;;
    SStore 8 (EAt (EVar 31) 1 (EInt 24)) (EVar 35) ;;
    SCall None f_zk_hash_192_update [(EVar 8); (EVar 31)])).

(** faest_aes.c:1055-1070, aes_enc_constraints_Mkey_1_192.
    Variables: 1 = in, 2 = out, 3 = q, 4 = qk, 5 = delta, 6 = b0_ctx, 7 = qs, 8 = qs_dash, 9 = minus_part, 12 = j. *)
Definition c_aes_enc_constraints_Mkey_1_192 : func := Func [1%positive; 2%positive; 3%positive; 4%positive; 5%positive; 6%positive] (
  SAlloc 7 (EInt 6144) ;;
  SAlloc 8 (EInt 6144) ;;
  SCall None f_aes_enc_forward_192 [(EVar 3); (EVar 4); (EVar 1); (EInt 0); (EInt 1); (EVar 5); (EVar 7)] ;;
  SCall None f_aes_enc_backward_192 [(EVar 3); (EVar 4); (EInt 0); (EInt 1); (EVar 5); (EVar 2); (EVar 8)] ;;
  SAlloc 9 (EInt 32) ;;
  SAlloc 10 (EInt 32) ;;
  SCall None f_bf192_load [(EVar 10); (EVar 5)] ;;
  SAlloc 11 (EInt 32) ;;
  SCall None f_bf192_load [(EVar 11); (EVar 5)] ;;
  SCall None f_bf192_mul [(EVar 9); (EVar 10); (EVar 11)] ;;
  SSet 12 (EInt 0) ;;
  SLoop (EBin OLt s32 (EVar 12) (EInt 192))
    (
    SSet 12 (EBin OAdd u32 (EVar 12) (EInt 1)))
    (
    SAlloc 13 (EInt 32) ;;
    SCall None f_bf192_mul [(EVar 13); (EAt (EVar 7) 32 (EVar 12)); (EAt (EVar 8) 32 (EVar 12))] ;;
    SAlloc 14 (EInt 32) ;;
    SSet 15 (EBin OXor u64 (ELoad 8 (EVar 13)) (ELoad 8 (EVar 9))) ;;
    SSet 16 (EBin OXor u64 (ELoad 8 (EAt (EVar 13) 1 (EInt 8))) (ELoad 8 (EAt (EVar 9) 1 (EInt 8)))) ;;
    SSet 17 (EBin OXor u64 (ELoad 8 (EAt (EVar 13) 1 (EInt 16))) (ELoad 8 (EAt (EVar 9) 1 (EInt 16)))) ;;
    SSet 18 (EBin OXor u64 (ELoad 8 (EAt (EVar 13) 1 (EInt 24))) (ELoad 8 (EAt (EVar 9) 1 (EInt 24)))) ;;
    SStore 8 (EVar 14) (EVar 15) ;;
    SStore 8 (EAt (EVar 14) 1 (EInt 8)) (EVar 16) ;;
    SStore 8 (EAt (EVar 14) 1 (EInt 16)) (EVar 17) ;;
    SStore 8 (EAt (EVar 14) 1 (EInt 24)) (EVar 18) ;;
    SCall None f_zk_hash_192_update [(EVar 6); (EVar 14)])).

(** faest_aes.c:1072-1108, aes_prove_192.
    Variables: 1 = w, 2 = u, 3 = V, 4 = in, 5 = out, 6 = chall, 7 = a_tilde, 8 = b_tilde, 9 = params, 11 = bf_v, 13 = k, 15 = vk, 16 = a0_ctx, 17 = h0, 18 = h1, 19 = s, 20 = t, 21 = sd, 22 = a1_ctx, 23 = h0, 24 = h1, 25 = s, 26 = t, 27 = sd. *)
Definition c_aes_prove_192 : func := Func [1%positive; 2%positive; 3%positive; 4%positive; 5%positive; 6%positive; 7%positive; 8%positive; 9%positive] (
  (
  SCall (Some 10%positive) f_column_to_row_major_and_shrink_V_192 [(EVar 3); (EInt 3264)] ;;
  SSet 11 (EVar 10) ;;
  SAlloc 12 (EInt 208) ;;
  SSet 13 (EVar 12) ;;
  SAlloc 14 (EInt 53248) ;;
  SSet 15 (EVar 14) ;;
  SAlloc 16 (EInt 5) ;;
  SAlloc 17 (EInt 32) ;;
  SStoreF (EVar 16) 5 0 (EVar 17) ;;
  SAlloc 18 (EInt 32) ;;
  SStoreF (EVar 16) 5 1 (EVar 18) ;;
  SAlloc 19 (EInt 32) ;;
  SStoreF (EVar 16) 5 2 (EVar 19) ;;
  SAlloc 20 (EInt 8) ;;
  SStoreF (EVar 16) 5 3 (EVar 20) ;;
  SAlloc 21 (EInt 1) ;;
  SStoreF (EVar 16) 5 4 (EVar 21) ;;
  SAlloc 22 (EInt 5) ;;
  SAlloc 23 (EInt 32) ;;
  SStoreF (EVar 22) 5 0 (EVar 23) ;;
  SAlloc 24 (EInt 32)) ;;
  (
  SStoreF (EVar 22) 5 1 (EVar 24) ;;
  SAlloc 25 (EInt 32) ;;
  SStoreF (EVar 22) 5 2 (EVar 25) ;;
  SAlloc 26 (EInt 8) ;;
  SStoreF (EVar 22) 5 3 (EVar 26) ;;
  SAlloc 27 (EInt 1) ;;
  SStoreF (EVar 22) 5 4 (EVar 27) ;;
  SCall None f_zk_hash_192_init [(EVar 16); (EVar 6)] ;;
  SCall None f_zk_hash_192_init [(EVar 22); (EVar 6)] ;;
  SCall None f_aes_key_schedule_constraints_Mkey_0_192 [(EVar 1); (EVar 11); (EVar 16); (EVar 22); (EVar 13); (EVar 15); (EVar 9)] ;;
  SCall None f_aes_enc_constraints_Mkey_0_192 [(EVar 4); (EVar 5); (EAt (EVar 1) 1 (EInt 56)); (EAt (EVar 11) 32 (EInt 448)); (EVar 13); (EVar 15); (EVar 16); (EVar 22)] ;;
  SCall None f_aes_enc_constraints_Mkey_0_192 [(EAt (EVar 4) 1 (EInt 16)); (EAt (EVar 5) 1 (EInt 16)); (EAt (EVar 1) 1 (EInt 232)); (EAt (EAt (EVar 11) 32 (EInt 448)) 32 (EInt 1408)); (EVar 13); (EVar 15); (EVar 16); (EVar 22)] ;;
  SEval (EVar 15) ;;
  SEval (EVar 13) ;;
  SAlloc 28 (EInt 32) ;;
  SCall None f_bf192_load [(EVar 28); (EAt (EVar 2) 1 (EInt 408))] ;;
  SCall None f_zk_hash_192_finalize [(EVar 7); (EVar 22); (EVar 28)] ;;
  SAlloc 29 (EInt 32) ;;
  SCall None f_bf192_sum_poly [(EVar 29); (EAt (EVar 11) 32 (EInt 3264))] ;;
  SCall None f_zk_hash_192_finalize [(EVar 8); (EVar 16); (EVar 29)] ;;
  SEval (EVar 11))).

(** faest_aes.c:1110-1163, aes_verify_192.
    Variables: 1 = d, 2 = Q, 3 = chall_2, 4 = chall_3, 5 = a_tilde, 6 = in, 7 = out, 8 = params, 9 = tau, 10 = t0, 11 = k0, 12 = t1, 13 = k1, 14 = delta, 15 = i, 16 = col, 17 = depth, 18 = decoded_challenge, 20 = j, 22 = bf_q, 24 = qk, 25 = b0_ctx, 26 = h0, 27 = h1, 28 = s, 29 = t, 30 = sd, 32 = q_tilde, 34 = bf_qtilde. *)
Definition c_aes_verify_192 : func := Func [1%positive; 2%positive; 3%positive; 4%positive; 5%positive; 6%positive; 7%positive; 8%positive] (
  (
  SSet 9 (ELoad 2 (EAt (EVar 8) 1 (EInt 16))) ;;
  SSet 10 (ELoad 2 (EAt (EVar 8) 1 (EInt 22))) ;;
  SSet 11 (ELoad 2 (EAt (EVar 8) 1 (EInt 18))) ;;
  SSet 12 (ELoad 2 (EAt (EVar 8) 1 (EInt 24))) ;;
  SSet 13 (ELoad 2 (EAt (EVar 8) 1 (EInt 20))) ;;
  SSet 14 (EVar 4) ;;
  SSet 15 (EInt 0) ;;
  SSet 16 (EInt 0) ;;
  SLoop (EBin OLt s32 (EVar 15) (EVar 9))
    (
    SSet 15 (EBin OAdd u32 (EVar 15) (EInt 1)))
    (
    SSet 17 (ECond (EBin OLt s32 (EVar 15) (EVar 10)) (EVar 11) (EVar 13)) ;;
    SAlloc 18 (EInt 12) ;;
    SCall None f_ChalDec [(EVar 4); (EVar 15); (EVar 11); (EVar 10); (EVar 13); (EVar 12); (EVar 18)] ;;
    SSet 20 (EInt 0) ;;
    SLoop (EBin OLt s32 (EVar 20) (EVar 17))
      (
      SSet 20 (EBin OAdd u32 (EVar 20) (EInt 1)) ;;
      SSet 16 (EBin OAdd u32 (EVar 16) (EInt 1)))
      (
      SIf (EBin OEq s32 (ELoad 1 (EAt (EVar 18) 1 (EVar 20))) (EInt 1))
        (
        SCall None f_xor_u8_array [(EVar 1); (ELoadP (EAt (EVar 2) 1 (EVar 16))); (ELoadP (EAt (EVar 2) 1 (EVar 16))); (EInt 408)])
        SSkip)) ;;
  SCall (Some 21%positive) f_column_to_row_major_and_shrink_V_192 [(EVar 2); (EInt 3264)] ;;
  SSet 22 (EVar 21) ;;
  SAlloc 23 (EInt 53248) ;;
  SSet 24 (EVar 23) ;;
  SAlloc 25 (EInt 5) ;;
  SAlloc 26 (EInt 32) ;;
  SStoreF (EVar 25) 5 0 (EVar 26) ;;
  SAlloc 27 (EInt 32) ;;
  SStoreF (EVar 25) 5 1 (EVar 27) ;;
  SAlloc 28 (EInt 32) ;;
  SStoreF (EVar 25) 5 2 (EVar 28) ;;
  SAlloc 29 (EInt 8) ;;
  SStoreF (EVar 25) 5 3 (EVar 29) ;;
  SAlloc 30 (EInt 1) ;;
  SStoreF (EVar 25) 5 4 (EVar 30) ;;
  SCall None f_zk_hash_192_init [(EVar 25); (EVar 3)] ;;
  SCall None f_aes_key_schedule_constraints_Mkey_1_192 [(EVar 22); (EVar 14); (EVar 25); (EVar 24)] ;;
  SCall None f_aes_enc_constraints_Mkey_1_192 [(EVar 6); (EVar 7); (EAt (EVar 22) 32 (EInt 448)); (EVar 24); (EVar 14); (EVar 25)]) ;;
  (
  SCall None f_aes_enc_constraints_Mkey_1_192 [(EAt (EVar 6) 1 (EInt 16)); (EAt (EVar 7) 1 (EInt 16)); (EAt (EAt (EVar 22) 32 (EInt 448)) 32 (EInt 1408)); (EVar 24); (EVar 14); (EVar 25)] ;;
  SEval (EVar 24) ;;
  SAlloc 31 (EInt 24) ;;
  SSet 32 (EVar 31) ;;
  SAlloc 33 (EInt 32) ;;
  SCall None f_bf192_sum_poly [(EVar 33); (EAt (EVar 22) 32 (EInt 3264))] ;;
  SCall None f_zk_hash_192_finalize [(EVar 32); (EVar 25); (EVar 33)] ;;
  SEval (EVar 22) ;;
  SAlloc 34 (EInt 32) ;;
  SCall None f_bf192_load [(EVar 34); (EVar 32)] ;;
  SAlloc 35 (EInt 32) ;;
  SCall None f_bf192_load [(EVar 35); (EVar 5)] ;;
  SAlloc 36 (EInt 32) ;;
  SCall None f_bf192_load [(EVar 36); (EVar 14)] ;;
  SAlloc 37 (EInt 32) ;;
  SCall None f_bf192_mul [(EVar 37); (EVar 35); (EVar 36)] ;;
  SAlloc 38 (EInt 32) ;;
  SSet 39 (EBin OXor u64 (ELoad 8 (EVar 34)) (ELoad 8 (EVar 37))) ;;
  SSet 40 (EBin OXor u64 (ELoad 8 (EAt (EVar 34) 1 (EInt 8))) (ELoad 8 (EAt (EVar 37) 1 (EInt 8)))) ;;
  SSet 41 (EBin OXor u64 (ELoad 8 (EAt (EVar 34) 1 (EInt 16))) (ELoad 8 (EAt (EVar 37) 1 (EInt 16)))) ;;
  SSet 42 (EBin OXor u64 (ELoad 8 (EAt (EVar 34) 1 (EInt 24))) (ELoad 8 (EAt (EVar 37) 1 (EInt 24)))) ;;
  SStore 8 (EVar 38) (EVar 39) ;;
  SStore 8 (EAt (EVar 38) 1 (EInt 8)) (EVar 40) ;;
  SStore 8 (EAt (EVar 38) 1 (EInt 16)) (EVar 41) ;;
  SStore 8 (EAt (EVar 38) 1 (EInt 24)) (EVar 42) ;;
  SCall None f_bf192_store [(EVar 32); (EVar 38)] ;;
  SReturn (EVar 32))).

(** faest_aes.c:1167-1186, aes_key_schedule_forward_256.
    Variables: 1 = v, 2 = bf_out, 3 = i_wd, 4 = j, 5 = i. *)
Definition c_aes_key_schedule_forward_256 : func := Func [1%positive; 2%positive] (
  SCopy (EVar 2) (EVar 1) (EInt 8192) ;;
  SSet 3 (EInt 256) ;;
  SSet 4 (EInt 8) ;;
  SLoop (EBin OLt s32 (EVar 4) (EInt 60))
    (
    SSet 4 (EBin OAdd u32 (EVar 4) (EInt 1)))
    (
    SIf (ECond (EBin OEq s32 (EDiv OMod u32 (EVar 4) (EInt 8)) (EInt 0)) (EInt 1) (EBin ONe s32 (ECond (EInt 1) (EBin ONe s32 (EBin OEq s32 (EDiv OMod u32 (EVar 4) (EInt 8)) (EInt 4)) (EInt 0)) (EInt 0)) (EInt 0)))
      (
      SCopy (EAt (EVar 2) 32 (EBin OMul u32 (EVar 4) (EInt 32))) (EAt (EVar 1) 32 (EVar 3)) (EInt 1024) ;;
      SSet 3 (EBin OAdd u32 (EVar 3) (EInt 32)))
      (
      SSet 5 (EInt 0) ;;
      SLoop (EBin OLt s32 (EVar 5) (EInt 32))
        (
        SSet 5 (EBin OAdd u32 (EVar 5) (EInt 1)))
        (
        SSet 6 (EAt (EVar 2) 32 (EBin OAdd u32 (EBin OMul u32 (EInt 32) (EVar 4)) (EVar 5))) ;;
        SSet 7 (EAt (EVar 2) 32 (EBin OAdd u32 (EBin OMul u32 (EInt 32) (EBin OSub u32 (EVar 4) (EInt 8))) (EVar 5))) ;;
        SSet 8 (EAt (EVar 2) 32 (EBin OAdd u32 (EBin OMul u32 (EInt 32) (EBin OSub u32 (EVar 4) (EInt 1))) (EVar 5))) ;;
        SSet 9 (EBin OXor u64 (ELoad 8 (EVar 7)) (ELoad 8 (EVar 8))) ;;
        SSet 10 (EBin OXor u64 (ELoad 8 (EAt (EVar 7) 1 (EInt 8))) (ELoad 8 (EAt (EVar 8) 1 (EInt 8)))) ;;
        SSet 11 (EBin OXor u64 (ELoad 8 (EAt (EVar 7) 1 (EInt 16))) (ELoad 8 (EAt (EVar 8) 1 (EInt 16)))) ;;
        SSet 12 (EBin OXor u64 (ELoad 8 (EAt (EVar 7) 1 (EInt 24))) (ELoad 8 (EAt (EVar 8) 1 (EInt 24)))) ;;
        SStore 8 (EVar 6) (EVar 9) ;;
        SStore 8 (EAt (EVar 6) 1 (EInt 8)) (EVar 10) ;;
        SStore 8 (EAt (EVar 6) 1 (EInt 16)) (EVar 11) ;;
        SStore 8 (EAt (EVar 6) 1 (EInt 24)) (EVar 12))))).

(** faest_aes.c:1188-1241, aes_key_schedule_backward_256.
    Variables: 1 = v, 2 = Vk, 3 = Mtag, 4 = Mkey, 5 = delta, 6 = bf_out, 7 = iwd, 8 = c, 9 = rmvRcon, 10 = ircon, 11 = bf_delta, 15 = bf_minus_mkey, 16 = minus_mtag, 17 = bf_mkey_times_delta, 27 = j, 28 = bf_x_tilde, 29 = i, 37 = r, 38 = bf_r, 39 = i, 53 = i. *)
Definition c_aes_key_schedule_backward_256 : func := Func [1%positive; 2%positive; 3%positive; 4%positive; 5%positive; 6%positive] (
  SIf (EUn OLNot s32 (ECond (ECond (EBin OEq s32 (EVar 3) (EInt 1)) (EBin ONe s32 (EBin OEq s32 (EVar 4) (EInt 1)) (EInt 0)) (EInt 0)) (EInt 1) (EBin ONe s32 (ECond (EBin OEq s32 (EVar 4) (EInt 1)) (EBin ONe s32 (EIsNull (EVar 5)) (EInt 0)) (EInt 0)) (EInt 0))))
    SSkip
    (
    SFail) ;;
  SSet 7 (EInt 0) ;;
  SSet 8 (EInt 0) ;;
  SSet 9 (EInt 1) ;;
  SSet 10 (EInt 0) ;;
  SAlloc 11 (EInt 32) ;;
  SIf (EBin OEq s32 (EIsNull (EVar 5)) (EInt 0))
    (
    SAlloc 12 (EInt 32) ;;
    SCall None f_bf256_load [(EVar 12); (EVar 5)] ;;
    SSet 14 (EVar 12))
    (
    SAlloc 13 (EInt 32) ;;
    SCall None f_bf256_zero [(EVar 13)] ;;
    SSet 14 (EVar 13)) ;;
  SCopy (EVar 11) (EVar 14) (EInt 32) ;;
  SAlloc 15 (EInt 32) ;;
  SCall None f_bf256_from_bit [(EVar 15); (EUn OCast u8 (EBin OXor s32 (EInt 1) (EVar 4)))] ;;
  SSet 16 (EUn OCast u8 (EBin OXor s32 (EInt 1) (EVar 3))) ;;
  SAlloc 17 (EInt 32) ;;
  SSet 18 (EUn ONeg u64 (EBin OAnd u64 (EVar 4) (EInt 1))) ;;
  SSet 19 (EBin OAnd u64 (ELoad 8 (EVar 11)) (EVar 18)) ;;
  SSet 20 (EBin OAnd u64 (ELoad 8 (EAt (EVar 11) 1 (EInt 8))) (EVar 18)) ;;
  SSet 21 (EBin OAnd u64 (ELoad 8 (EAt (EVar 11) 1 (EInt 16))) (EVar 18)) ;;
  SSet 22 (EBin OAnd u64 (ELoad 8 (EAt (EVar 11) 1 (EInt 24))) (EVar 18)) ;;
  SStore 8 (EVar 17) (EVar 19) ;;
  SStore 8 (EAt (EVar 17) 1 (EInt 8)) (EVar 20) ;;
  SStore 8 (EAt (EVar 17) 1 (EInt 16)) (EVar 21) ;;
  SStore 8 (EAt (EVar 17) 1 (EInt 24)) (EVar 22) ;;
  SSet 23 (EBin OXor u64 (ELoad 8 (EVar 17)) (ELoad 8 (EVar 15))) ;;
  SSet 24 (EBin OXor u64 (ELoad 8 (EAt (EVar 17) 1 (EInt 8))) (ELoad 8 (EAt (EVar 15) 1 (EInt 8)))) ;;
  SSet 25 (EBin OXor u64 (ELoad 8 (EAt (EVar 17) 1 (EInt 16))) (ELoad 8 (EAt (EVar 15) 1 (EInt 16)))) ;;
  SSet 26 (EBin OXor u64 (ELoad 8 (EAt (EVar 17) 1 (EInt 24))) (ELoad 8 (EAt (EVar 15) 1 (EInt 24)))) ;;
  SStore 8 (EVar 17) (EVar 23) ;;
  SStore 8 (EAt (EVar 17) 1 (EInt 8)) (EVar 24) ;;
  SStore 8 (EAt (EVar 17) 1 (EInt 16)) (EVar 25) ;;
  SStore 8 (EAt (EVar 17) 1 (EInt 24)) (EVar 26) ;;
  SSet 27 (EInt 0) ;;
  SLoop (EBin OLt s32 (EVar 27) (EInt 52))
    (
    SSet 27 (EBin OAdd u32 (EVar 27) (EInt 1)))
    (
    SAlloc 28 (EInt 256) ;;
    SSet 29 (EInt 0) ;;
    SLoop (EBin OLt s32 (EVar 29) (EInt 8))
      (
      SSet 29 (EBin OAdd u32 (EVar 29) (EInt 1)))
      (
      SSet 30 (EAt (EVar 28) 32 (EVar 29)) ;;
      SSet 31 (EAt (EVar 1) 32 (EBin OAdd u32 (EBin OMul u32 (EInt 8) (EVar 27)) (EVar 29))) ;;
      SSet 32 (EAt (EVar 2) 32 (EBin OAdd u32 (EBin OAdd u32 (EVar 7) (EBin OMul u32 (EInt 8) (EVar 8))) (EVar 29))) ;;
      SSet 33 (EBin OXor u64 (ELoad 8 (EVar 31)) (ELoad 8 (EVar 32))) ;;
      SSet 34 (EBin OXor u64 (ELoad 8 (EAt (EVar 31) 1 (EInt 8))) (ELoad 8 (EAt (EVar 32) 1 (EInt 8)))) ;;
      SSet 35 (EBin OXor u64 (ELoad 8 (EAt (EVar 31) 1 (EInt 16))) (ELoad 8 (EAt (EVar 32) 1 (EInt 16)))) ;;
      SSet 36 (EBin OXor u64 (ELoad 8 (EAt (EVar 31) 1 (EInt 24))) (ELoad 8 (EAt (EVar 32) 1 (EInt 24)))) ;;
      SStore 8 (EVar 30) (EVar 33) ;;
      SStore 8 (EAt (EVar 30) 1 (EInt 8)) (EVar 34) ;;
      SStore 8 (EAt (EVar 30) 1 (EInt 16)) (EVar 35) ;;
      SStore 8 (EAt (EVar 30) 1 (EInt 24)) (EVar 36)) ;;
    SIf (ECond (ECond (EBin OEq s32 (EVar 3) (EInt 0)) (EBin ONe s32 (EBin OEq s32 (EVar 9) (EInt 1)) (EInt 0)) (EInt 0)) (EBin ONe s32 (EBin OEq s32 (EVar 8) (EInt 0)) (EInt 0)) (EInt 0))
      (
      SSet 37 (ELoad 1 (EAt (EGlob 2) 1 (EVar 10))) ;;
      SSet 10 (EBin OAdd u32 (EVar 10) (EInt 1)) ;;
      SAlloc 38 (EInt 256) ;;
      SSet 39 (EInt 0) ;;
      SLoop (EBin OLt s32 (EVar 39) (EInt 8))
        (
        SSet 39 (EBin OAdd u32 (EVar 39) (EInt 1)))
        (
        SSet 40 (EAt (EVar 38) 32 (EVar 39)) ;;
        SSet 41 (EUn ONeg u64 (EBin OAnd u64 (EUn OCast u64 (EBin OAnd s32 (EBin OShr s32 (EVar 37) (EVar 39)) (EInt 1))) (EInt 1))) ;;
        SSet 42 (EBin OAnd u64 (ELoad 8 (EVar 17)) (EVar 41)) ;;
        SSet 43 (EBin OAnd u64 (ELoad 8 (EAt (EVar 17) 1 (EInt 8))) (EVar 41)) ;;
        SSet 44 (EBin OAnd u64 (ELoad 8 (EAt (EVar 17) 1 (EInt 16))) (EVar 41)) ;;
        SSet 45 (EBin OAnd u64 (ELoad 8 (EAt (EVar 17) 1 (EInt 24))) (EVar 41)) ;;
        SStore 8 (EVar 40) (EVar 42) ;;
        SStore 8 (EAt (EVar 40) 1 (EInt 8)) (EVar 43) ;;
        SStore 8 (EAt (EVar 40) 1 (EInt 16)) (EVar 44) ;;
        SStore 8 (EAt (EVar 40) 1 (EInt 24)) (EVar 45) ;;
        SSet 46 (EAt (EVar 28) 32 (EVar 39)) ;;
        SSet 47 (EAt (EVar 28) 32 (EVar 39)) ;;
        SSet 48 (EAt (EVar 38) 32 (EVar 39)) ;;
        SSet 49 (EBin OXor u64 (ELoad 8 (EVar 47)) (ELoad 8 (EVar 48))) ;;
        SSet 50 (EBin OXor u64 (ELoad 8 (EAt (EVar 47) 1 (EInt 8))) (ELoad 8 (EAt (EVar 48) 1 (EInt 8)))) ;;
        SSet 51 (EBin OXor u64 (ELoad 8 (EAt (EVar 47) 1 (EInt 16))) (ELoad 8 (EAt (EVar 48) 1 (EInt 16)))) ;;
        SSet 52 (EBin OXor u64 (ELoad 8 (EAt (EVar 47) 1 (EInt 24))) (ELoad 8 (EAt (EVar 48) 1 (EInt 24)))) ;;
        SStore 8 (EVar 46) (EVar 49) ;;
        SStore 8 (EAt (EVar 46) 1 (EInt 8)) (EVar 50) ;;
        SStore 8 (EAt (EVar 46) 1 (EInt 16)) (EVar 51) ;;
        SStore 8 (EAt (EVar 46) 1 (EInt 24)) (EVar 52)))
      SSkip ;;
    SSet 53 (EInt 0) ;;
    SLoop (EBin OLt s32 (EVar 53) (EInt 8))
      (
      SSet 53 (EBin OAdd u32 (EVar 53) (EInt 1)))
      (
      SSet 54 (EAt (EVar 6) 32 (EBin OAdd u32 (EVar 53) (EBin OMul u32 (EInt 8) (EVar 27)))) ;;
      SSet 55 (EAt (EVar 28) 32 (EDiv OMod u32 (EBin OAdd u32 (EVar 53) (EInt 7)) (EInt 8))) ;;
      SSet 56 (EAt (EVar 28) 32 (EDiv OMod u32 (EBin OAdd u32 (EVar 53) (EInt 5)) (EInt 8))) ;;
      SSet 57 (EAt (EVar 28) 32 (EDiv OMod u32 (EBin OAdd u32 (EVar 53) (EInt 2)) (EInt 8))) ;;
      SSet 58 (EBin OXor u64 (EBin OXor u64 (ELoad 8 (EVar 55)) (ELoad 8 (EVar 56))) (ELoad 8 (EVar 57))) ;;
      SSet 59 (EBin OXor u64 (EBin OXor u64 (ELoad 8 (EAt (EVar 55) 1 (EInt 8))) (ELoad 8 (EAt (EVar 56) 1 (EInt 8)))) (ELoad 8 (EAt (EVar 57) 1 (EInt 8)))) ;;
      SSet 60 (EBin OXor u64 (EBin OXor u64 (ELoad 8 (EAt (EVar 55) 1 (EInt 16))) (ELoad 8 (EAt (EVar 56) 1 (EInt 16)))) (ELoad 8 (EAt (EVar 57) 1 (EInt 16)))) ;;
      SSet 61 (EBin OXor u64 (EBin OXor u64 (ELoad 8 (EAt (EVar 55) 1 (EInt 24))) (ELoad 8 (EAt (EVar 56) 1 (EInt 24)))) (ELoad 8 (EAt (EVar 57) 1 (EInt 24)))) ;;
      SStore 8 (EVar 54) (EVar 58) ;;
      SStore 8 (EAt (EVar 54) 1 (EInt 8)) (EVar 59) ;;
      SStore 8 (EAt (EVar 54) 1 (EInt 16)) (EVar 60) ;;
      SStore 8 (EAt (EVar 54) 1 (EInt 24)) (EVar 61)) ;;
    SSet 62 (EAt (EVar 6) 32 (EBin OAdd u32 (EInt 0) (EBin OMul u32 (EInt 8) (EVar 27)))) ;;
    SSet 63 (EAt (EVar 6) 32 (EBin OAdd u32 (EInt 0) (EBin OMul u32 (EInt 8) (EVar 27)))) ;;
    SSet 64 (EUn ONeg u64 (EBin OAnd u64 (EVar 16) (EInt 1))) ;;
    SSet 65 (EBin OXor u64 (ELoad 8 (EVar 63)) (EBin OAnd u64 (ELoad 8 (EVar 17)) (EVar 64))) ;;
    SSet 66 (EBin OXor u64 (ELoad 8 (EAt (EVar 63) 1 (EInt 8))) (EBin OAnd u64 (ELoad 8 (EAt (EVar 17) 1 (EInt 8))) (EVar 64))) ;;
    SSet 67 (EBin OXor u64 (ELoad 8 (EAt (EVar 63) 1 (EInt 16))) (EBin OAnd u64 (ELoad 8 (EAt (EVar 17) 1 (EInt 16))) (EVar 64))) ;;
    SSet 68 (EBin OXor u64 (ELoad 8 (EAt (EVar 63) 1 (EInt 24))) (EBin OAnd u64 (ELoad 8 (EAt (EVar 17) 1 (EInt 24))) (EVar 64))) ;;
    SStore 8 (EVar 62) (EVar 65) ;;
    SStore 8 (EAt (EVar 62) 1 (EInt 8)) (EVar 66) ;;
    SStore 8 (EAt (EVar 62) 1 (EInt 16)) (EVar 67) ;;
    SStore 8 (EAt (EVar 62) 1 (EInt 24)) (EVar 68) ;;
    SSet 69 (EAt (EVar 6) 32 (EBin OAdd u32 (EInt 2) (EBin OMul u32 (EInt 8) (EVar 27)))) ;;
    SSet 70 (EAt (EVar 6) 32 (EBin OAdd u32 (EInt 2) (EBin OMul u32 (EInt 8) (EVar 27)))) ;;
    SSet 71 (EUn ONeg u64 (EBin OAnd u64 (EVar 16) (EInt 1))) ;;
    SSet 72 (EBin OXor u64 (ELoad 8 (EVar 70)) (EBin OAnd u64 (ELoad 8 (EVar 17)) (EVar 71))) ;;
    SSet 73 (EBin OXor u64 (ELoad 8 (EAt (EVar 70) 1 (EInt 8))) (EBin OAnd u64 (ELoad 8 (EAt (EVar 17) 1 (EInt 8))) (EVar 71))) ;;
    SSet 74 (EBin OXor u64 (ELoad 8 (EAt (EVar 70) 1 (EInt 16))) (EBin OAnd u64 (ELoad 8 (EAt (EVar 17) 1 (EInt 16))) (EVar 71))) ;;
    SSet 75 (EBin OXor u64 (ELoad 8 (EAt (EVar 70) 1 (EInt 24))) (EBin OAnd u64 (ELoad 8 (EAt (EVar 17) 1 (EInt 24))) (EVar 71))) ;;
    SStore 8 (EVar 69) (EVar 72) ;;
    SStore 8 (EAt (EVar 69) 1 (EInt 8)) (EVar 73) ;;
    SStore 8 (EAt (EVar 69) 1 (EInt 16)) (EVar 74) ;;
    SStore 8 (EAt (EVar 69) 1 (EInt 24)) (EVar 75) ;;
    SSet 8 (EBin OAdd u32 (EVar 8) (EInt 1)) ;;
    SIf (EBin OEq s32 (EVar 8) (EInt 4))
      (
      SSet 8 (EInt 0) ;;
      SSet 7 (EBin OAdd u32 (EVar 7) (EInt 128)) ;;
      SSet 9 (EBin ONe s32 (EUn OLNot s32 (EVar 9)) (EInt 0)))
      SSkip)).

(** faest_aes.c:1243-1299, aes_key_schedule_constraints_Mkey_0_256.
    Variables: 1 = w, 2 = v, 3 = a0_ctx, 4 = a1_ctx, 5 = k, 6 = vk, 7 = params, 8 = w_dash, 9 = v_w_dash, 10 = rotate_word, 11 = iwd, 12 = j, 13 = bf_k_hat, 14 = bf_v_k_hat, 15 = bf_w_dash_hat, 16 = bf_v_w_dash_hat, 17 = r, 34 = r, 35 = tmp. *)
Definition c_aes_key_schedule_constraints_Mkey_0_256 : func := Func [1%positive; 2%positive; 3%positive; 4%positive; 5%positive; 6%positive; 7%positive] (
  SIf (EBin OEq s32 (EInt 52) (ELoad 2 (EAt (EVar 7) 1 (EInt 4))))
    SSkip
    (
    SFail) ;;
  SCall None f_aes_key_schedule_forward_1 [(EVar 1); (EVar 5); (EVar 7)] ;;
  SCall None f_aes_key_schedule_forward_256 [(EVar 2); (EVar 6)] ;;
  SAlloc 8 (EInt 52) ;;
  SCall None f_aes_key_schedule_backward_1 [(EAt (EVar 1) 1 (EInt 32)); (EVar 5); (EVar 8); (EVar 7)] ;;
  SAlloc 9 (EInt 13312) ;;
  SCall None f_aes_key_schedule_backward_256 [(EAt (EVar 2) 32 (EInt 256)); (EVar 6); (EInt 1); (EInt 0); ENull; (EVar 9)] ;;
  SSet 10 (EInt 1) ;;
  SSet 11 (EInt 224) ;;
  SSet 12 (EInt 0) ;;
  SLoop (EBin OLt s32 (EVar 12) (EInt 13))
    (
    SSet 12 (EBin OAdd u32 (EVar 12) (EInt 1)))
    (
    SAlloc 13 (EInt 128) ;;
    SAlloc 14 (EInt 128) ;;
    SAlloc 15 (EInt 128) ;;
    SAlloc 16 (EInt 128) ;;
    SSet 17 (EInt 0) ;;
    SLoop (EBin OLe s32 (EVar 17) (EInt 3))
      (
      SSet 17 (EBin OAdd u32 (EVar 17) (EInt 1)))
      (
      SIf (EVar 10)
        (
        SSet 18 (EAt (EVar 13) 32 (EDiv OMod u32 (EBin OAdd u32 (EVar 17) (EInt 3)) (EInt 4))) ;;
        SAlloc 19 (EInt 32) ;;
        SCall None f_bf256_byte_combine_bits [(EVar 19); (ELoad 1 (EAt (EVar 5) 1 (EDiv ODiv u32 (EBin OAdd u32 (EVar 11) (EBin OMul u32 (EInt 8) (EVar 17))) (EInt 8))))] ;;
        SCopy (EVar 18) (EVar 19) (EInt 32) ;;
        SSet 20 (EAt (EVar 14) 32 (EDiv OMod u32 (EBin OAdd u32 (EVar 17) (EInt 3)) (EInt 4))) ;;
        SAlloc 21 (EInt 32) ;;
        SCall None f_bf256_byte_combine [(EVar 21); (EAt (EVar 6) 32 (EBin OAdd u32 (EVar 11) (EBin OMul u32 (EInt 8) (EVar 17))))] ;;
        SCopy (EVar 20) (EVar 21) (EInt 32) ;;
        SSet 22 (EAt (EVar 15) 32 (EVar 17)) ;;
        SAlloc 23 (EInt 32) ;;
        SCall None f_bf256_byte_combine_bits [(EVar 23); (ELoad 1 (EAt (EVar 8) 1 (EDiv ODiv u32 (EBin OAdd u32 (EBin OMul u32 (EInt 32) (EVar 12)) (EBin OMul u32 (EInt 8) (EVar 17))) (EInt 8))))] ;;
        SCopy (EVar 22) (EVar 23) (EInt 32) ;;
        SSet 24 (EAt (EVar 16) 32 (EVar 17)) ;;
        SAlloc 25 (EInt 32) ;;
        SCall None f_bf256_byte_combine [(EVar 25); (EAt (EVar 9) 32 (EBin OAdd u32 (EBin OMul u32 (EInt 32) (EVar 12)) (EBin OMul u32 (EInt 8) (EVar 17))))] ;;
        SCopy (EVar 24) (EVar 25) (EInt 32))
        (
        SSet 26 (EAt (EVar 13) 32 (EVar 17)) ;;
        SAlloc 27 (EInt 32) ;;
        SCall None f_bf256_byte_combine_bits [(EVar 27); (ELoad 1 (EAt (EVar 5) 1 (EDiv ODiv u32 (EBin OAdd u32 (EVar 11) (EBin OMul u32 (EInt 8) (EVar 17))) (EInt 8))))] ;;
        SCopy (EVar 26) (EVar 27) (EInt 32) ;;
        SSet 28 (EAt (EVar 14) 32 (EVar 17)) ;;
        SAlloc 29 (EInt 32) ;;
        SCall None f_bf256_byte_combine [(EVar 29); (EAt (EVar 6) 32 (EBin OAdd u32 (EVar 11) (EBin OMul u32 (EInt 8) (EVar 17))))] ;;
        SCopy (EVar 28) (EVar 29) (EInt 32) ;;
        SSet 30 (EAt (EVar 15) 32 (EVar 17)) ;;
        SAlloc 31 (EInt 32) ;;
        SCall None f_bf256_byte_combine_bits [(EVar 31); (ELoad 1 (EAt (EVar 8) 1 (EDiv ODiv u32 (EBin OAdd u32 (EBin OMul u32 (EInt 32) (EVar 12)) (EBin OMul u32 (EInt 8) (EVar 17))) (EInt 8))))] ;;
        SCopy (EVar 30) (EVar 31) (EInt 32) ;;
        SSet 32 (EAt (EVar 16) 32 (EVar 17)) ;;
        SAlloc 33 (EInt 32) ;;
        SCall None f_bf256_byte_combine [(EVar 33); (EAt (EVar 9) 32 (EBin OAdd u32 (EBin OMul u32 (EInt 32) (EVar 12)) (EBin OMul u32 (EInt 8) (EVar 17))))] ;;
        SCopy (EVar 32) (EVar 33) (EInt 32))) ;;
    SSet 34 (EInt 0) ;;
    SLoop (EBin OLe s32 (EVar 34) (EInt 3))
      (
      SSet 34 (EBin OAdd u32 (EVar 34) (EInt 1)))
      (
      SAlloc 35 (EInt 32) ;;
      SCall None f_bf256_mul [(EVar 35); (EAt (EVar 14) 32 (EVar 34)); (EAt (EVar 16) 32 (EVar 34))] ;;
      SCall None f_zk_hash_256_update [(EVar 3); (EVar 35)] ;;
      SSet 36 (EAt (EVar 13) 32 (EVar 34)) ;;
      SSet 37 (EAt (EVar 14) 32 (EVar 34)) ;;
      SAlloc 38 (EInt 32) ;;
      SSet 39 (EBin OXor u64 (ELoad 8 (EVar 36)) (ELoad 8 (EVar 37))) ;;
      SSet 40 (EBin OXor u64 (ELoad 8 (EAt (EVar 36) 1 (EInt 8))) (ELoad 8 (EAt (EVar 37) 1 (EInt 8)))) ;;
      SSet 41 (EBin OXor u64 (ELoad 8 (EAt (EVar 36) 1 (EInt 16))) (ELoad 8 (EAt (EVar 37) 1 (EInt 16)))) ;;
      SSet 42 (EBin OXor u64 (ELoad 8 (EAt (EVar 36) 1 (EInt 24))) (ELoad 8 (EAt (EVar 37) 1 (EInt 24)))) ;;
      SStore 8 (EVar 38) (EVar 39) ;;
      SStore 8 (EAt (EVar 38) 1 (EInt 8)) (EVar 40) ;;
      SStore 8 (EAt (EVar 38) 1 (EInt 16)) (EVar 41) ;;
      SStore 8 (EAt (EVar 38) 1 (EInt 24)) (EVar 42) ;;
      SSet 43 (EAt (EVar 15) 32 (EVar 34)) ;;
      SSet 44 (EAt (EVar 16) 32 (EVar 34)) ;;
      SAlloc 45 (EInt 32) ;;
      SSet 46 (EBin OXor u64 (ELoad 8 (EVar 43)) (ELoad 8 (EVar 44))) ;;
      SSet 47 (EBin OXor u64 (ELoad 8 (EAt (EVar 43) 1 (EInt 8))) (ELoad 8 (EAt (EVar 44) 1 (EInt 8)))) ;;
      SSet 48 (EBin OXor u64 (ELoad 8 (EAt (EVar 43) 1 (EInt 16))) (ELoad 8 (EAt (EVar 44) 1 (EInt 16)))) ;;
      SSet 49 (EBin OXor u64 (ELoad 8 (EAt (EVar 43) 1 (EInt 24))) (ELoad 8 (EAt (EVar 44) 1 (EInt 24)))) ;;
      SStore 8 (EVar 45) (EVar 46) ;;
      SStore 8 (EAt (EVar 45) 1 (EInt 8)) (EVar 47) ;;
      SStore 8 (EAt (EVar 45) 1 (EInt 16)) (EVar 48) ;;
      SStore 8 (EAt (EVar 45) 1 (EInt 24)) (EVar 49) ;;
      SAlloc 50 (EInt 32) ;;
      SCall None f_bf256_mul [(EVar 50); (EVar 38); (EVar 45)] ;;
      SAlloc 51 (EInt 32) ;;
      SCall None f_bf256_one [(EVar 51)] ;;
      SAlloc 52 (EInt 32) ;;
      SSet 53 (EBin OXor u64 (EBin OXor u64 (ELoad 8 (EVar 50)) (ELoad 8 (EVar 51))) (ELoad 8 (EVar 35))) ;;
      SSet 54 (EBin OXor u64 (EBin OXor u64 (ELoad 8 (EAt (EVar 50) 1 (EInt 8))) (ELoad 8 (EAt (EVar 51) 1 (EInt 8)))) (ELoad 8 (EAt (EVar 35) 1 (EInt 8)))) ;;
      SSet 55 (EBin OXor u64 (EBin OXor u64 (ELoad 8 (EAt (EVar 50) 1 (EInt 16))) (ELoad 8 (EAt (EVar 51) 1 (EInt 16)))) (ELoad 8 (EAt (EVar 35) 1 (EInt 16)))) ;;
      SSet 56 (EBin OXor u64 (EBin OXor u64 (ELoad 8 (EAt (EVar 50) 1 (EInt 24))) (ELoad 8 (EAt (EVar 51) 1 (EInt 24)))) (ELoad 8 (EAt (EVar 35) 1 (EInt 24)))) ;;
      SStore 8 (EVar 52) (EVar 53) ;;
      SStore 8 (EAt (EVar 52) 1 (EInt 8)) (EVar 54) ;;
      SStore 8 (EAt (EVar 52) 1 (EInt 16)) (EVar 55) ;;
      SStore 8 (EAt (EVar 52) 1 (EInt 24)) (EVar 56) ;;
      SCall None f_zk_hash_256_update [(EVar 4); (EVar 52)]) ;;
    SSet 11 (EBin OAdd u32 (EVar 11) (EInt 128)) ;;
    SSet 10 (EBin ONe s32 (EUn OLNot s32 (EVar 10)) (EInt 0)))).

(** faest_aes.c:1301-1335, aes_key_schedule_constraints_Mkey_1_256.
    Variables: 1 = q, 2 = delta, 3 = b0_ctx, 4 = qk, 5 = q_w_dash, 6 = bf_delta, 7 = bf_delta_squared, 8 = rotate_word, 9 = iwd, 10 = j, 11 = bf_q_hat_k, 12 = bf_q_hat_w_dash, 13 = r, 22 = r, 23 = bf_tmp. *)
Definition c_aes_key_schedule_constraints_Mkey_1_256 : func := Func [1%positive; 2%positive; 3%positive; 4%positive] (
  SCall None f_aes_key_schedule_forward_256 [(EVar 1); (EVar 4)] ;;
  SAlloc 5 (EInt 13312) ;;
  SCall None f_aes_key_schedule_backward_256 [(EAt (EVar 1) 32 (EInt 256)); (EVar 4); (EInt 0); (EInt 1); (EVar 2); (EVar 5)] ;;
  SAlloc 6 (EInt 32) ;;
  SCall None f_bf256_load [(EVar 6); (EVar 2)] ;;
  SAlloc 7 (EInt 32) ;;
  SCall None f_bf256_mul [(EVar 7); (EVar 6); (EVar 6)] ;;
  SSet 8 (EInt 1) ;;
  SSet 9 (EInt 224) ;;
  SSet 10 (EInt 0) ;;
  SLoop (EBin OLt s32 (EVar 10) (EInt 13))
    (
    SSet 10 (EBin OAdd u32 (EVar 10) (EInt 1)))
    (
    SAlloc 11 (EInt 128) ;;
    SAlloc 12 (EInt 128) ;;
    SSet 13 (EInt 0) ;;
    SLoop (EBin OLe s32 (EVar 13) (EInt 3))
      (
      SSet 13 (EBin OAdd u32 (EVar 13) (EInt 1)))
      (
      SIf (EVar 8)
        (
        SSet 14 (EAt (EVar 11) 32 (EDiv OMod u32 (EBin OAdd u32 (EVar 13) (EInt 3)) (EInt 4))) ;;
        SAlloc 15 (EInt 32) ;;
        SCall None f_bf256_byte_combine [(EVar 15); (EAt (EVar 4) 32 (EBin OAdd u32 (EVar 9) (EBin OMul u32 (EInt 8) (EVar 13))))] ;;
        SCopy (EVar 14) (EVar 15) (EInt 32) ;;
        SSet 16 (EAt (EVar 12) 32 (EVar 13)) ;;
        SAlloc 17 (EInt 32) ;;
        SCall None f_bf256_byte_combine [(EVar 17); (EAt (EVar 5) 32 (EBin OAdd u32 (EBin OMul u32 (EInt 32) (EVar 10)) (EBin OMul u32 (EInt 8) (EVar 13))))] ;;
        SCopy (EVar 16) (EVar 17) (EInt 32))
        (
        SSet 18 (EAt (EVar 11) 32 (EVar 13)) ;;
        SAlloc 19 (EInt 32) ;;
        SCall None f_bf256_byte_combine [(EVar 19); (EAt (EVar 4) 32 (EBin OAdd u32 (EVar 9) (EBin OMul u32 (EInt 8) (EVar 13))))] ;;
        SCopy (EVar 18) (EVar 19) (EInt 32) ;;
        SSet 20 (EAt (EVar 12) 32 (EVar 13)) ;;
        SAlloc 21 (EInt 32) ;;
        SCall None f_bf256_byte_combine [(EVar 21); (EAt (EVar 5) 32 (EBin OAdd u32 (EBin OMul u32 (EInt 32) (EVar 10)) (EBin OMul u32 (EInt 8) (EVar 13))))] ;;
        SCopy (EVar 20) (EVar 21) (EInt 32))) ;;
    SSet 22 (EInt 0) ;;
    SLoop (EBin OLe s32 (EVar 22) (EInt 3))
      (
      SSet 22 (EBin OAdd u32 (EVar 22) (EInt 1)))
      (
      SAlloc 23 (EInt 32) ;;
      SCall None f_bf256_mul [(EVar 23); (EAt (EVar 11) 32 (EVar 22)); (EAt (EVar 12) 32 (EVar 22))] ;;
      SAlloc 24 (EInt 32) ;;
      SSet 25 (EBin OXor u64 (ELoad 8 (EVar 23)) (ELoad 8 (EVar 7))) ;;
      SSet 26 (EBin OXor u64 (ELoad 8 (EAt (EVar 23) 1 (EInt 8))) (ELoad 8 (EAt (EVar 7) 1 (EInt 8)))) ;;
      SSet 27 (EBin OXor u64 (ELoad 8 (EAt (EVar 23) 1 (EInt 16))) (ELoad 8 (EAt (EVar 7) 1 (EInt 16)))) ;;
      SSet 28 (EBin OXor u64 (ELoad 8 (EAt (EVar 23) 1 (EInt 24))) (ELoad 8 (EAt (EVar 7) 1 (EInt 24)))) ;;
      SStore 8 (EVar 24) (EVar 25) ;;
      SStore 8 (EAt (EVar 24) 1 (EInt 8)) (EVar 26) ;;
      SStore 8 (EAt (EVar 24) 1 (EInt 16)) (EVar 27) ;;
      SStore 8 (EAt (EVar 24) 1 (EInt 24)) (EVar 28) ;;
      SCall None f_zk_hash_256_update [(EVar 3); (EVar 24)]) ;;
    SSet 9 (EBin OAdd u32 (EVar 9) (EInt 128)) ;;
    SSet 8 (EBin ONe s32 (EUn OLNot s32 (EVar 8)) (EInt 0)))).

(** faest_aes.c:1337-1389, aes_enc_forward_256_1.
    Variables: 1 = x, 2 = xk, 3 = in, 4 = Mtag, 5 = Mkey, 6 = bf_y, 7 = i, 8 = xin, 16 = bf_two, 17 = bf_three, 18 = j, 19 = c, 20 = ix, 21 = ik, 22 = iy, 23 = bf_x_hat, 24 = bf_xk_hat, 25 = r. *)
Definition c_aes_enc_forward_256_1 : func := Func [1%positive; 2%positive; 3%positive; 4%positive; 5%positive; 6%positive] (
  SSet 7 (EInt 0) ;;
  SLoop (EBin OLt s32 (EVar 7) (EInt 16))
    (
    SSet 7 (EBin OAdd u32 (EVar 7) (EInt 1)))
    (
    SSet 8 (EUn OCast u8 (EBin OAnd s32 (ELoad 1 (EAt (EVar 3) 1 (EVar 7))) (EUn ONeg s32 (EBin OAnd s32 (EBin OXor s32 (EInt 1) (EVar 4)) (EBin OXor s32 (EInt 1) (EVar 5)))))) ;;
    SSet 9 (EAt (EVar 6) 32 (EVar 7)) ;;
    SAlloc 10 (EInt 32) ;;
    SCall None f_bf256_byte_combine_bits [(EVar 10); (EVar 8)] ;;
    SAlloc 11 (EInt 32) ;;
    SCall None f_bf256_byte_combine_bits [(EVar 11); (ELoad 1 (EAt (EVar 2) 1 (EVar 7)))] ;;
    SSet 12 (EBin OXor u64 (ELoad 8 (EVar 10)) (ELoad 8 (EVar 11))) ;;
    SSet 13 (EBin OXor u64 (ELoad 8 (EAt (EVar 10) 1 (EInt 8))) (ELoad 8 (EAt (EVar 11) 1 (EInt 8)))) ;;
    SSet 14 (EBin OXor u64 (ELoad 8 (EAt (EVar 10) 1 (EInt 16))) (ELoad 8 (EAt (EVar 11) 1 (EInt 16)))) ;;
    SSet 15 (EBin OXor u64 (ELoad 8 (EAt (EVar 10) 1 (EInt 24))) (ELoad 8 (EAt (EVar 11) 1 (EInt 24)))) ;;
    SStore 8 (EVar 9) (EVar 12) ;;
    SStore 8 (EAt (EVar 9) 1 (EInt 8)) (EVar 13) ;;
    SStore 8 (EAt (EVar 9) 1 (EInt 16)) (EVar 14) ;;
    SStore 8 (EAt (EVar 9) 1 (EInt 24)) (EVar 15)) ;;
  SAlloc 16 (EInt 32) ;;
  SCall None f_bf256_byte_combine_bits [(EVar 16); (EInt 2)] ;;
  SAlloc 17 (EInt 32) ;;
  SCall None f_bf256_byte_combine_bits [(EVar 17); (EInt 3)] ;;
  SSet 18 (EInt 1) ;;
  SLoop (EBin OLt s32 (EVar 18) (EInt 14))
    (
    SSet 18 (EBin OAdd u32 (EVar 18) (EInt 1)))
    (
    SSet 19 (EInt 0) ;;
    SLoop (EBin OLe s32 (EVar 19) (EInt 3))
      (
      SSet 19 (EBin OAdd u32 (EVar 19) (EInt 1)))
      (
      (
      (
      (
      SSet 20 (EBin OAdd u32 (EBin OMul u32 (EInt 128) (EBin OSub u32 (EVar 18) (EInt 1))) (EBin OMul u32 (EInt 32) (EVar 19))) ;;
      SSet 21 (EBin OAdd u32 (EBin OMul u32 (EInt 128) (EVar 18)) (EBin OMul u32 (EInt 32) (EVar 19))) ;;
      SSet 22 (EBin OAdd u32 (EBin OMul u32 (EInt 16) (EVar 18)) (EBin OMul u32 (EInt 4) (EVar 19))) ;;
      SAlloc 23 (EInt 128) ;;
      SAlloc 24 (EInt 128) ;;
      SSet 25 (EInt 0) ;;
      SLoop (EBin OLe s32 (EVar 25) (EInt 3))
        (
        SSet 25 (EBin OAdd u32 (EVar 25) (EInt 1)))
        (
        SSet 26 (EAt (EVar 23) 32 (EVar 25)) ;;
        SAlloc 27 (EInt 32) ;;
        SCall None f_bf256_byte_combine_bits [(EVar 27); (ELoad 1 (EAt (EVar 1) 1 (EDiv ODiv u32 (EBin OAdd u32 (EVar 20) (EBin OMul u32 (EInt 8) (EVar 25))) (EInt 8))))] ;;
        SCopy (EVar 26) (EVar 27) (EInt 32) ;;
        SSet 28 (EAt (EVar 24) 32 (EVar 25)) ;;
        SAlloc 29 (EInt 32) ;;
        SCall None f_bf256_byte_combine_bits [(EVar 29); (ELoad 1 (EAt (EVar 2) 1 (EDiv ODiv u32 (EBin OAdd u32 (EVar 21) (EBin OMul u32 (EInt 8) (EVar 25))) (EInt 8))))] ;;
        SCopy (EVar 28) (EVar 29) (EInt 32)) ;;
      SSet 30 (EAt (EVar 6) 32 (EBin OAdd u32 (EVar 22) (EInt 0))) ;;
      SAlloc 31 (EInt 32) ;;
      SCall None f_bf256_mul [(EVar 31); (EVar 23); (EVar 16)] ;;
      SSet 32 (EBin OXor u64 (ELoad 8 (EVar 24)) (ELoad 8 (EVar 31))) ;;
      SSet 33 (EBin OXor u64 (ELoad 8 (EAt (EVar 24) 1 (EInt 8))) (ELoad 8 (EAt (EVar 31) 1 (EInt 8)))) ;;
      SSet 34 (EBin OXor u64 (ELoad 8 (EAt (EVar 24) 1 (EInt 16))) (ELoad 8 (EAt (EVar 31) 1 (EInt 16)))) ;;
      SSet 35 (EBin OXor u64 (ELoad 8 (EAt (EVar 24) 1 (EInt 24))) (ELoad 8 (EAt (EVar 31) 1 (EInt 24)))) ;;
      SStore 8 (EVar 30) (EVar 32) ;;
      SStore 8 (EAt (EVar 30) 1 (EInt 8)) (EVar 33) ;;
      SStore 8 (EAt (EVar 30) 1 (EInt 16)) (EVar 34) ;;
      SStore 8 (EAt (EVar 30) 1 (EInt 24)) (EVar 35) ;;
      SSet 36 (EAt (EVar 6) 32 (EBin OAdd u32 (EVar 22) (EInt 0))) ;;
      SSet 37 (EAt (EVar 6) 32 (EBin OAdd u32 (EVar 22) (EInt 0))) ;;
      SAlloc 38 (EInt 32) ;;
      SCall None f_bf256_mul [(EVar 38); (EAt (EVar 23) 32 (EInt 1)); (EVar 17)] ;;
      SSet 39 (EBin OXor u64 (ELoad 8 (EVar 37)) (ELoad 8 (EVar 38)))) ;;
      (
      SSet 40 (EBin OXor u64 (ELoad 8 (EAt (EVar 37) 1 (EInt 8))) (ELoad 8 (EAt (EVar 38) 1 (EInt 8)))) ;;
      SSet 41 (EBin OXor u64 (ELoad 8 (EAt (EVar 37) 1 (EInt 16))) (ELoad 8 (EAt (EVar 38) 1 (EInt 16)))) ;;
      SSet 42 (EBin OXor u64 (ELoad 8 (EAt (EVar 37) 1 (EInt 24))) (ELoad 8 (EAt (EVar 38) 1 (EInt 24)))) ;;
      SStore 8 (EVar 36) (EVar 39) ;;
      SStore 8 (EAt (EVar 36) 1 (EInt 8)) (EVar 40) ;;
      SStore 8 (EAt (EVar 36) 1 (EInt 16)) (EVar 41) ;;
      SStore 8 (EAt (EVar 36) 1 (EInt 24)) (EVar 42) ;;
      SSet 43 (EAt (EVar 6) 32 (EBin OAdd u32 (EVar 22) (EInt 0))) ;;
      SSet 44 (EAt (EVar 6) 32 (EBin OAdd u32 (EVar 22) (EInt 0))) ;;
      SSet 45 (EAt (EVar 23) 32 (EInt 2)) ;;
      SSet 46 (EBin OXor u64 (ELoad 8 (EVar 44)) (ELoad 8 (EVar 45))) ;;
      SSet 47 (EBin OXor u64 (ELoad 8 (EAt (EVar 44) 1 (EInt 8))) (ELoad 8 (EAt (EVar 45) 1 (EInt 8)))) ;;
      SSet 48 (EBin OXor u64 (ELoad 8 (EAt (EVar 44) 1 (EInt 16))) (ELoad 8 (EAt (EVar 45) 1 (EInt 16)))) ;;
      SSet 49 (EBin OXor u64 (ELoad 8 (EAt (EVar 44) 1 (EInt 24))) (ELoad 8 (EAt (EVar 45) 1 (EInt 24)))) ;;
      SStore 8 (EVar 43) (EVar 46) ;;
      SStore 8 (EAt (EVar 43) 1 (EInt 8)) (EVar 47) ;;
      SStore 8 (EAt (EVar 43) 1 (EInt 16)) (EVar 48) ;;
      SStore 8 (EAt (EVar 43) 1 (EInt 24)) (EVar 49) ;;
      SSet 50 (EAt (EVar 6) 32 (EBin OAdd u32 (EVar 22) (EInt 0))) ;;
      SSet 51 (EAt (EVar 6) 32 (EBin OAdd u32 (EVar 22) (EInt 0))) ;;
      SSet 52 (EAt (EVar 23) 32 (EInt 3)) ;;
      SSet 53 (EBin OXor u64 (ELoad 8 (EVar 51)) (ELoad 8 (EVar 52))) ;;
      SSet 54 (EBin OXor u64 (ELoad 8 (EAt (EVar 51) 1 (EInt 8))) (ELoad 8 (EAt (EVar 52) 1 (EInt 8)))) ;;
      SSet 55 (EBin OXor u64 (ELoad 8 (EAt (EVar 51) 1 (EInt 16))) (ELoad 8 (EAt (EVar 52) 1 (EInt 16)))))) ;;
      (
      (
      SSet 56 (EBin OXor u64 (ELoad 8 (EAt (EVar 51) 1 (EInt 24))) (ELoad 8 (EAt (EVar 52) 1 (EInt 24)))) ;;
      SStore 8 (EVar 50) (EVar 53) ;;
      SStore 8 (EAt (EVar 50) 1 (EInt 8)) (EVar 54) ;;
      SStore 8 (EAt (EVar 50) 1 (EInt 16)) (EVar 55) ;;
      SStore 8 (EAt (EVar 50) 1 (EInt 24)) (EVar 56) ;;
      SSet 57 (EAt (EVar 6) 32 (EBin OAdd u32 (EVar 22) (EInt 1))) ;;
      SSet 58 (EAt (EVar 24) 32 (EInt 1)) ;;
      SSet 59 (EBin OXor u64 (ELoad 8 (EVar 58)) (ELoad 8 (EVar 23))) ;;
      SSet 60 (EBin OXor u64 (ELoad 8 (EAt (EVar 58) 1 (EInt 8))) (ELoad 8 (EAt (EVar 23) 1 (EInt 8)))) ;;
      SSet 61 (EBin OXor u64 (ELoad 8 (EAt (EVar 58) 1 (EInt 16))) (ELoad 8 (EAt (EVar 23) 1 (EInt 16)))) ;;
      SSet 62 (EBin OXor u64 (ELoad 8 (EAt (EVar 58) 1 (EInt 24))) (ELoad 8 (EAt (EVar 23) 1 (EInt 24)))) ;;
      SStore 8 (EVar 57) (EVar 59) ;;
      SStore 8 (EAt (EVar 57) 1 (EInt 8)) (EVar 60) ;;
      SStore 8 (EAt (EVar 57) 1 (EInt 16)) (EVar 61) ;;
      SStore 8 (EAt (EVar 57) 1 (EInt 24)) (EVar 62) ;;
      SSet 63 (EAt (EVar 6) 32 (EBin OAdd u32 (EVar 22) (EInt 1))) ;;
      SSet 64 (EAt (EVar 6) 32 (EBin OAdd u32 (EVar 22) (EInt 1))) ;;
      SAlloc 65 (EInt 32) ;;
      SCall None f_bf256_mul [(EVar 65); (EAt (EVar 23) 32 (EInt 1)); (EVar 16)] ;;
      SSet 66 (EBin OXor u64 (ELoad 8 (EVar 64)) (ELoad 8 (EVar 65))) ;;
      SSet 67 (EBin OXor u64 (ELoad 8 (EAt (EVar 64) 1 (EInt 8))) (ELoad 8 (EAt (EVar 65) 1 (EInt 8)))) ;;
      SSet 68 (EBin OXor u64 (ELoad 8 (EAt (EVar 64) 1 (EInt 16))) (ELoad 8 (EAt (EVar 65) 1 (EInt 16)))) ;;
      SSet 69 (EBin OXor u64 (ELoad 8 (EAt (EVar 64) 1 (EInt 24))) (ELoad 8 (EAt (EVar 65) 1 (EInt 24))))) ;;
      (
      SStore 8 (EVar 63) (EVar 66) ;;
      SStore 8 (EAt (EVar 63) 1 (EInt 8)) (EVar 67) ;;
      SStore 8 (EAt (EVar 63) 1 (EInt 16)) (EVar 68) ;;
      SStore 8 (EAt (EVar 63) 1 (EInt 24)) (EVar 69) ;;
      SSet 70 (EAt (EVar 6) 32 (EBin OAdd u32 (EVar 22) (EInt 1))) ;;
      SSet 71 (EAt (EVar 6) 32 (EBin OAdd u32 (EVar 22) (EInt 1))) ;;
      SAlloc 72 (EInt 32) ;;
      SCall None f_bf256_mul [(EVar 72); (EAt (EVar 23) 32 (EInt 2)); (EVar 17)] ;;
      SSet 73 (EBin OXor u64 (ELoad 8 (EVar 71)) (ELoad 8 (EVar 72))) ;;
      SSet 74 (EBin OXor u64 (ELoad 8 (EAt (EVar 71) 1 (EInt 8))) (ELoad 8 (EAt (EVar 72) 1 (EInt 8)))) ;;
      SSet 75 (EBin OXor u64 (ELoad 8 (EAt (EVar 71) 1 (EInt 16))) (ELoad 8 (EAt (EVar 72) 1 (EInt 16)))) ;;
      SSet 76 (EBin OXor u64 (ELoad 8 (EAt (EVar 71) 1 (EInt 24))) (ELoad 8 (EAt (EVar 72) 1 (EInt 24)))) ;;
      SStore 8 (EVar 70) (EVar 73) ;;
      SStore 8 (EAt (EVar 70) 1 (EInt 8)) (EVar 74) ;;
      SStore 8 (EAt (EVar 70) 1 (EInt 16)) (EVar 75) ;;
      SStore 8 (EAt (EVar 70) 1 (EInt 24)) (EVar 76) ;;
      SSet 77 (EAt (EVar 6) 32 (EBin OAdd u32 (EVar 22) (EInt 1))) ;;
      SSet 78 (EAt (EVar 6) 32 (EBin OAdd u32 (EVar 22) (EInt 1))) ;;
      SSet 79 (EAt (EVar 23) 32 (EInt 3)) ;;
      SSet 80 (EBin OXor u64 (ELoad 8 (EVar 78)) (ELoad 8 (EVar 79))) ;;
      SSet 81 (EBin OXor u64 (ELoad 8 (EAt (EVar 78) 1 (EInt 8))) (ELoad 8 (EAt (EVar 79) 1 (EInt 8)))) ;;
      SSet 82 (EBin OXor u64 (ELoad 8 (EAt (EVar 78) 1 (EInt 16))) (ELoad 8 (EAt (EVar 79) 1 (EInt 16)))) ;;
      SSet 83 (EBin OXor u64 (ELoad 8 (EAt (EVar 78) 1 (EInt 24))) (ELoad 8 (EAt (EVar 79) 1 (EInt 24)))) ;;
      SStore 8 (EVar 77) (EVar 80)))) ;;
      (
      (
      (
      SStore 8 (EAt (EVar 77) 1 (EInt 8)) (EVar 81) ;;
      SStore 8 (EAt (EVar 77) 1 (EInt 16)) (EVar 82) ;;
      SStore 8 (EAt (EVar 77) 1 (EInt 24)) (EVar 83) ;;
      SSet 84 (EAt (EVar 6) 32 (EBin OAdd u32 (EVar 22) (EInt 2))) ;;
      SSet 85 (EAt (EVar 24) 32 (EInt 2)) ;;
      SSet 86 (EBin OXor u64 (ELoad 8 (EVar 85)) (ELoad 8 (EVar 23))) ;;
      SSet 87 (EBin OXor u64 (ELoad 8 (EAt (EVar 85) 1 (EInt 8))) (ELoad 8 (EAt (EVar 23) 1 (EInt 8)))) ;;
      SSet 88 (EBin OXor u64 (ELoad 8 (EAt (EVar 85) 1 (EInt 16))) (ELoad 8 (EAt (EVar 23) 1 (EInt 16)))) ;;
      SSet 89 (EBin OXor u64 (ELoad 8 (EAt (EVar 85) 1 (EInt 24))) (ELoad 8 (EAt (EVar 23) 1 (EInt 24)))) ;;
      SStore 8 (EVar 84) (EVar 86) ;;
      SStore 8 (EAt (EVar 84) 1 (EInt 8)) (EVar 87) ;;
      SStore 8 (EAt (EVar 84) 1 (EInt 16)) (EVar 88) ;;
      SStore 8 (EAt (EVar 84) 1 (EInt 24)) (EVar 89) ;;
      SSet 90 (EAt (EVar 6) 32 (EBin OAdd u32 (EVar 22) (EInt 2))) ;;
      SSet 91 (EAt (EVar 6) 32 (EBin OAdd u32 (EVar 22) (EInt 2))) ;;
      SSet 92 (EAt (EVar 23) 32 (EInt 1)) ;;
      SSet 93 (EBin OXor u64 (ELoad 8 (EVar 91)) (ELoad 8 (EVar 92))) ;;
      SSet 94 (EBin OXor u64 (ELoad 8 (EAt (EVar 91) 1 (EInt 8))) (ELoad 8 (EAt (EVar 92) 1 (EInt 8)))) ;;
      SSet 95 (EBin OXor u64 (ELoad 8 (EAt (EVar 91) 1 (EInt 16))) (ELoad 8 (EAt (EVar 92) 1 (EInt 16)))) ;;
      SSet 96 (EBin OXor u64 (ELoad 8 (EAt (EVar 91) 1 (EInt 24))) (ELoad 8 (EAt (EVar 92) 1 (EInt 24)))) ;;
      SStore 8 (EVar 90) (EVar 93) ;;
      SStore 8 (EAt (EVar 90) 1 (EInt 8)) (EVar 94) ;;
      SStore 8 (EAt (EVar 90) 1 (EInt 16)) (EVar 95)) ;;
      (
      SStore 8 (EAt (EVar 90) 1 (EInt 24)) (EVar 96) ;;
      SSet 97 (EAt (EVar 6) 32 (EBin OAdd u32 (EVar 22) (EInt 2))) ;;
      SSet 98 (EAt (EVar 6) 32 (EBin OAdd u32 (EVar 22) (EInt 2))) ;;
      SAlloc 99 (EInt 32) ;;
      SCall None f_bf256_mul [(EVar 99); (EAt (EVar 23) 32 (EInt 2)); (EVar 16)] ;;
      SSet 100 (EBin OXor u64 (ELoad 8 (EVar 98)) (ELoad 8 (EVar 99))) ;;
      SSet 101 (EBin OXor u64 (ELoad 8 (EAt (EVar 98) 1 (EInt 8))) (ELoad 8 (EAt (EVar 99) 1 (EInt 8)))) ;;
      SSet 102 (EBin OXor u64 (ELoad 8 (EAt (EVar 98) 1 (EInt 16))) (ELoad 8 (EAt (EVar 99) 1 (EInt 16)))) ;;
      SSet 103 (EBin OXor u64 (ELoad 8 (EAt (EVar 98) 1 (EInt 24))) (ELoad 8 (EAt (EVar 99) 1 (EInt 24)))) ;;
      SStore 8 (EVar 97) (EVar 100) ;;
      SStore 8 (EAt (EVar 97) 1 (EInt 8)) (EVar 101) ;;
      SStore 8 (EAt (EVar 97) 1 (EInt 16)) (EVar 102) ;;
      SStore 8 (EAt (EVar 97) 1 (EInt 24)) (EVar 103) ;;
      SSet 104 (EAt (EVar 6) 32 (EBin OAdd u32 (EVar 22) (EInt 2))) ;;
      SSet 105 (EAt (EVar 6) 32 (EBin OAdd u32 (EVar 22) (EInt 2))) ;;
      SAlloc 106 (EInt 32) ;;
      SCall None f_bf256_mul [(EVar 106); (EAt (EVar 23) 32 (EInt 3)); (EVar 17)] ;;
      SSet 107 (EBin OXor u64 (ELoad 8 (EVar 105)) (ELoad 8 (EVar 106))) ;;
      SSet 108 (EBin OXor u64 (ELoad 8 (EAt (EVar 105) 1 (EInt 8))) (ELoad 8 (EAt (EVar 106) 1 (EInt 8)))) ;;
      SSet 109 (EBin OXor u64 (ELoad 8 (EAt (EVar 105) 1 (EInt 16))) (ELoad 8 (EAt (EVar 106) 1 (EInt 16)))) ;;
      SSet 110 (EBin OXor u64 (ELoad 8 (EAt (EVar 105) 1 (EInt 24))) (ELoad 8 (EAt (EVar 106) 1 (EInt 24)))) ;;
      SStore 8 (EVar 104) (EVar 107) ;;
      SStore 8 (EAt (EVar 104) 1 (EInt 8)) (EVar 108) ;;
      SStore 8 (EAt (EVar 104) 1 (EInt 16)) (EVar 109))) ;;
      (
      (
      SStore 8 (EAt (EVar 104) 1 (EInt 24)) (EVar 110) ;;
      SSet 111 (EAt (EVar 6) 32 (EBin OAdd u32 (EVar 22) (EInt 3))) ;;
      SSet 112 (EAt (EVar 24) 32 (EInt 3)) ;;
      SAlloc 113 (EInt 32) ;;
      SCall None f_bf256_mul [(EVar 113); (EVar 23); (EVar 17)] ;;
      SSet 114 (EBin OXor u64 (ELoad 8 (EVar 112)) (ELoad 8 (EVar 113))) ;;
      SSet 115 (EBin OXor u64 (ELoad 8 (EAt (EVar 112) 1 (EInt 8))) (ELoad 8 (EAt (EVar 113) 1 (EInt 8)))) ;;
      SSet 116 (EBin OXor u64 (ELoad 8 (EAt (EVar 112) 1 (EInt 16))) (ELoad 8 (EAt (EVar 113) 1 (EInt 16)))) ;;
      SSet 117 (EBin OXor u64 (ELoad 8 (EAt (EVar 112) 1 (EInt 24))) (ELoad 8 (EAt (EVar 113) 1 (EInt 24)))) ;;
      SStore 8 (EVar 111) (EVar 114) ;;
      SStore 8 (EAt (EVar 111) 1 (EInt 8)) (EVar 115) ;;
      SStore 8 (EAt (EVar 111) 1 (EInt 16)) (EVar 116) ;;
      SStore 8 (EAt (EVar 111) 1 (EInt 24)) (EVar 117) ;;
      SSet 118 (EAt (EVar 6) 32 (EBin OAdd u32 (EVar 22) (EInt 3))) ;;
      SSet 119 (EAt (EVar 6) 32 (EBin OAdd u32 (EVar 22) (EInt 3))) ;;
      SSet 120 (EAt (EVar 23) 32 (EInt 1)) ;;
      SSet 121 (EBin OXor u64 (ELoad 8 (EVar 119)) (ELoad 8 (EVar 120))) ;;
      SSet 122 (EBin OXor u64 (ELoad 8 (EAt (EVar 119) 1 (EInt 8))) (ELoad 8 (EAt (EVar 120) 1 (EInt 8)))) ;;
      SSet 123 (EBin OXor u64 (ELoad 8 (EAt (EVar 119) 1 (EInt 16))) (ELoad 8 (EAt (EVar 120) 1 (EInt 16)))) ;;
      SSet 124 (EBin OXor u64 (ELoad 8 (EAt (EVar 119) 1 (EInt 24))) (ELoad 8 (EAt (EVar 120) 1 (EInt 24)))) ;;
      SStore 8 (EVar 118) (EVar 121) ;;
      SStore 8 (EAt (EVar 118) 1 (EInt 8)) (EVar 122) ;;
      SStore 8 (EAt (EVar 118) 1 (EInt 16)) (EVar 123)) ;;
      (
      SStore 8 (EAt (EVar 118) 1 (EInt 24)) (EVar 124) ;;
      SSet 125 (EAt (EVar 6) 32 (EBin OAdd u32 (EVar 22) (EInt 3))) ;;
      SSet 126 (EAt (EVar 6) 32 (EBin OAdd u32 (EVar 22) (EInt 3))) ;;
      SSet 127 (EAt (EVar 23) 32 (EInt 2)) ;;
      SSet 128 (EBin OXor u64 (ELoad 8 (EVar 126)) (ELoad 8 (EVar 127))) ;;
      SSet 129 (EBin OXor u64 (ELoad 8 (EAt (EVar 126) 1 (EInt 8))) (ELoad 8 (EAt (EVar 127) 1 (EInt 8)))) ;;
      SSet 130 (EBin OXor u64 (ELoad 8 (EAt (EVar 126) 1 (EInt 16))) (ELoad 8 (EAt (EVar 127) 1 (EInt 16)))) ;;
      SSet 131 (EBin OXor u64 (ELoad 8 (EAt (EVar 126) 1 (EInt 24))) (ELoad 8 (EAt (EVar 127) 1 (EInt 24)))) ;;
      SStore 8 (EVar 125) (EVar 128) ;;
      SStore 8 (EAt (EVar 125) 1 (EInt 8)) (EVar 129) ;;
      SStore 8 (EAt (EVar 125) 1 (EInt 16)) (EVar 130) ;;
      SStore 8 (EAt (EVar 125) 1 (EInt 24)) (EVar 131) ;;
      SSet 132 (EAt (EVar 6) 32 (EBin OAdd u32 (EVar 22) (EInt 3))) ;;
      SSet 133 (EAt (EVar 6) 32 (EBin OAdd u32 (EVar 22) (EInt 3))) ;;
      SAlloc 134 (EInt 32) ;;
      SCall None f_bf256_mul [(EVar 134); (EAt (EVar 23) 32 (EInt 3)); (EVar 16)] ;;
      SSet 135 (EBin OXor u64 (ELoad 8 (EVar 133)) (ELoad 8 (EVar 134))) ;;
      SSet 136 (EBin OXor u64 (ELoad 8 (EAt (EVar 133) 1 (EInt 8))) (ELoad 8 (EAt (EVar 134) 1 (EInt 8)))) ;;
      SSet 137 (EBin OXor u64 (ELoad 8 (EAt (EVar 133) 1 (EInt 16))) (ELoad 8 (EAt (EVar 134) 1 (EInt 16)))) ;;
      SSet 138 (EBin OXor u64 (ELoad 8 (EAt (EVar 133) 1 (EInt 24))) (ELoad 8 (EAt (EVar 134) 1 (EInt 24)))) ;;
      SStore 8 (EVar 132) (EVar 135) ;;
      SStore 8 (EAt (EVar 132) 1 (EInt 8)) (EVar 136) ;;
      SStore 8 (EAt (EVar 132) 1 (EInt 16)) (EVar 137) ;;
      SStore 8 (EAt (EVar 132) 1 (EInt 24)) (EVar 138))))))).

(** faest_aes.c:1391-1448, aes_enc_forward_256.
    Variables: 1 = bf_x, 2 = bf_xk, 3 = in, 4 = Mtag, 5 = Mkey, 6 = delta, 7 = bf_y, 8 = bf_delta, 12 = bf_factor, 19 = i, 20 = bf_xin, 21 = j, 35 = bf_two, 36 = bf_three, 37 = j, 38 = c, 39 = ix, 40 = ik, 41 = iy, 42 = bf_x_hat, 43 = bf_xk_hat, 44 = r. *)
Definition c_aes_enc_forward_256 : func := Func [1%positive; 2%positive; 3%positive; 4%positive; 5%positive; 6%positive; 7%positive] (
  SAlloc 8 (EInt 32) ;;
  SIf (EBin OEq s32 (EIsNull (EVar 6)) (EInt 0))
    (
    SAlloc 9 (EInt 32) ;;
    SCall None f_bf256_load [(EVar 9); (EVar 6)] ;;
    SSet 11 (EVar 9))
    (
    SAlloc 10 (EInt 32) ;;
    SCall None f_bf256_zero [(EVar 10)] ;;
    SSet 11 (EVar 10)) ;;
  SCopy (EVar 8) (EVar 11) (EInt 32) ;;
  SAlloc 12 (EInt 32) ;;
  SSet 13 (EUn ONeg u64 (EBin OAnd u64 (EVar 5) (EInt 1))) ;;
  SAlloc 14 (EInt 32) ;;
  SCall None f_bf256_from_bit [(EVar 14); (EUn OCast u8 (EBin OXor s32 (EInt 1) (EVar 5)))] ;;
  SSet 15 (EBin OXor u64 (EBin OAnd u64 (ELoad 8 (EVar 8)) (EVar 13)) (ELoad 8 (EVar 14))) ;;
  SSet 16 (EBin OXor u64 (EBin OAnd u64 (ELoad 8 (EAt (EVar 8) 1 (EInt 8))) (EVar 13)) (ELoad 8 (EAt (EVar 14) 1 (EInt 8)))) ;;
  SSet 17 (EBin OXor u64 (EBin OAnd u64 (ELoad 8 (EAt (EVar 8) 1 (EInt 16))) (EVar 13)) (ELoad 8 (EAt (EVar 14) 1 (EInt 16)))) ;;
  SSet 18 (EBin OXor u64 (EBin OAnd u64 (ELoad 8 (EAt (EVar 8) 1 (EInt 24))) (EVar 13)) (ELoad 8 (EAt (EVar 14) 1 (EInt 24)))) ;;
  SStore 8 (EVar 12) (EVar 15) ;;
  SStore 8 (EAt (EVar 12) 1 (EInt 8)) (EVar 16) ;;
  SStore 8 (EAt (EVar 12) 1 (EInt 16)) (EVar 17) ;;
  SStore 8 (EAt (EVar 12) 1 (EInt 24)) (EVar 18) ;;
  SSet 19 (EInt 0) ;;
  SLoop (EBin OLt s32 (EVar 19) (EInt 16))
    (
    SSet 19 (EBin OAdd u32 (EVar 19) (EInt 1)))
    (
    SAlloc 20 (EInt 256) ;;
    SSet 21 (EInt 0) ;;
    SLoop (EBin OLt s32 (EVar 21) (EInt 8))
      (
      SSet 21 (EBin OAdd u32 (EVar 21) (EInt 1)))
      (
      SSet 22 (EAt (EVar 20) 32 (EVar 21)) ;;
      SSet 23 (EUn ONeg u64 (EBin OAnd u64 (EUn OCast u64 (EBin OAnd s32 (EBin OXor s32 (EInt 1) (EVar 4)) (EBin OAnd s32 (EBin OShr s32 (ELoad 1 (EAt (EVar 3) 1 (EVar 19))) (EVar 21)) (EInt 1)))) (EInt 1))) ;;
      SSet 24 (EBin OAnd u64 (ELoad 8 (EVar 12)) (EVar 23)) ;;
      SSet 25 (EBin OAnd u64 (ELoad 8 (EAt (EVar 12) 1 (EInt 8))) (EVar 23)) ;;
      SSet 26 (EBin OAnd u64 (ELoad 8 (EAt (EVar 12) 1 (EInt 16))) (EVar 23)) ;;
      SSet 27 (EBin OAnd u64 (ELoad 8 (EAt (EVar 12) 1 (EInt 24))) (EVar 23)) ;;
      SStore 8 (EVar 22) (EVar 24) ;;
      SStore 8 (EAt (EVar 22) 1 (EInt 8)) (EVar 25) ;;
      SStore 8 (EAt (EVar 22) 1 (EInt 16)) (EVar 26) ;;
      SStore 8 (EAt (EVar 22) 1 (EInt 24)) (EVar 27)) ;;
    SSet 28 (EAt (EVar 7) 32 (EVar 19)) ;;
    SAlloc 29 (EInt 32) ;;
    SCall None f_bf256_byte_combine [(EVar 29); (EVar 20)] ;;
    SAlloc 30 (EInt 32) ;;
    SCall None f_bf256_byte_combine [(EVar 30); (EAt (EVar 2) 32 (EBin OMul u32 (EInt 8) (EVar 19)))] ;;
    SSet 31 (EBin OXor u64 (ELoad 8 (EVar 29)) (ELoad 8 (EVar 30))) ;;
    SSet 32 (EBin OXor u64 (ELoad 8 (EAt (EVar 29) 1 (EInt 8))) (ELoad 8 (EAt (EVar 30) 1 (EInt 8)))) ;;
    SSet 33 (EBin OXor u64 (ELoad 8 (EAt (EVar 29) 1 (EInt 16))) (ELoad 8 (EAt (EVar 30) 1 (EInt 16)))) ;;
    SSet 34 (EBin OXor u64 (ELoad 8 (EAt (EVar 29) 1 (EInt 24))) (ELoad 8 (EAt (EVar 30) 1 (EInt 24)))) ;;
    SStore 8 (EVar 28) (EVar 31) ;;
    SStore 8 (EAt (EVar 28) 1 (EInt 8)) (EVar 32) ;;
    SStore 8 (EAt (EVar 28) 1 (EInt 16)) (EVar 33) ;;
    SStore 8 (EAt (EVar 28) 1 (EInt 24)) (EVar 34)) ;;
  SAlloc 35 (EInt 32) ;;
  SCall None f_bf256_byte_combine_bits [(EVar 35); (EInt 2)] ;;
  SAlloc 36 (EInt 32) ;;
  SCall None f_bf256_byte_combine_bits [(EVar 36); (EInt 3)] ;;
  SSet 37 (EInt 1) ;;
  SLoop (EBin OLt s32 (EVar 37) (EInt 14))
    (
    SSet 37 (EBin OAdd u32 (EVar 37) (EInt 1)))
    (
    SSet 38 (EInt 0) ;;
    SLoop (EBin OLe s32 (EVar 38) (EInt 3))
      (
      SSet 38 (EBin OAdd u32 (EVar 38) (EInt 1)))
      (
      (
      (
      (
      SSet 39 (EBin OAdd u32 (EBin OMul u32 (EInt 128) (EBin OSub u32 (EVar 37) (EInt 1))) (EBin OMul u32 (EInt 32) (EVar 38))) ;;
      SSet 40 (EBin OAdd u32 (EBin OMul u32 (EInt 128) (EVar 37)) (EBin OMul u32 (EInt 32) (EVar 38))) ;;
      SSet 41 (EBin OAdd u32 (EBin OMul u32 (EInt 16) (EVar 37)) (EBin OMul u32 (EInt 4) (EVar 38))) ;;
      SAlloc 42 (EInt 128) ;;
      SAlloc 43 (EInt 128) ;;
      SSet 44 (EInt 0) ;;
      SLoop (EBin OLe s32 (EVar 44) (EInt 3))
        (
        SSet 44 (EBin OAdd u32 (EVar 44) (EInt 1)))
        (
        SSet 45 (EAt (EVar 42) 32 (EVar 44)) ;;
        SAlloc 46 (EInt 32) ;;
        SCall None f_bf256_byte_combine [(EVar 46); (EAt (EVar 1) 32 (EBin OAdd u32 (EVar 39) (EBin OMul u32 (EInt 8) (EVar 44))))] ;;
        SCopy (EVar 45) (EVar 46) (EInt 32) ;;
        SSet 47 (EAt (EVar 43) 32 (EVar 44)) ;;
        SAlloc 48 (EInt 32) ;;
        SCall None f_bf256_byte_combine [(EVar 48); (EAt (EVar 2) 32 (EBin OAdd u32 (EVar 40) (EBin OMul u32 (EInt 8) (EVar 44))))] ;;
        SCopy (EVar 47) (EVar 48) (EInt 32)) ;;
      SSet 49 (EAt (EVar 7) 32 (EBin OAdd u32 (EVar 41) (EInt 0))) ;;
      SAlloc 50 (EInt 32) ;;
      SCall None f_bf256_mul [(EVar 50); (EVar 42); (EVar 35)] ;;
      SSet 51 (EBin OXor u64 (ELoad 8 (EVar 43)) (ELoad 8 (EVar 50))) ;;
      SSet 52 (EBin OXor u64 (ELoad 8 (EAt (EVar 43) 1 (EInt 8))) (ELoad 8 (EAt (EVar 50) 1 (EInt 8)))) ;;
      SSet 53 (EBin OXor u64 (ELoad 8 (EAt (EVar 43) 1 (EInt 16))) (ELoad 8 (EAt (EVar 50) 1 (EInt 16)))) ;;
      SSet 54 (EBin OXor u64 (ELoad 8 (EAt (EVar 43) 1 (EInt 24))) (ELoad 8 (EAt (EVar 50) 1 (EInt 24)))) ;;
      SStore 8 (EVar 49) (EVar 51) ;;
      SStore 8 (EAt (EVar 49) 1 (EInt 8)) (EVar 52) ;;
      SStore 8 (EAt (EVar 49) 1 (EInt 16)) (EVar 53) ;;
      SStore 8 (EAt (EVar 49) 1 (EInt 24)) (EVar 54) ;;
      SSet 55 (EAt (EVar 7) 32 (EBin OAdd u32 (EVar 41) (EInt 0))) ;;
      SSet 56 (EAt (EVar 7) 32 (EBin OAdd u32 (EVar 41) (EInt 0))) ;;
      SAlloc 57 (EInt 32) ;;
      SCall None f_bf256_mul [(EVar 57); (EAt (EVar 42) 32 (EInt 1)); (EVar 36)] ;;
      SSet 58 (EBin OXor u64 (ELoad 8 (EVar 56)) (ELoad 8 (EVar 57)))) ;;
      (
      SSet 59 (EBin OXor u64 (ELoad 8 (EAt (EVar 56) 1 (EInt 8))) (ELoad 8 (EAt (EVar 57) 1 (EInt 8)))) ;;
      SSet 60 (EBin OXor u64 (ELoad 8 (EAt (EVar 56) 1 (EInt 16))) (ELoad 8 (EAt (EVar 57) 1 (EInt 16)))) ;;
      SSet 61 (EBin OXor u64 (ELoad 8 (EAt (EVar 56) 1 (EInt 24))) (ELoad 8 (EAt (EVar 57) 1 (EInt 24)))) ;;
      SStore 8 (EVar 55) (EVar 58) ;;
      SStore 8 (EAt (EVar 55) 1 (EInt 8)) (EVar 59) ;;
      SStore 8 (EAt (EVar 55) 1 (EInt 16)) (EVar 60) ;;
      SStore 8 (EAt (EVar 55) 1 (EInt 24)) (EVar 61) ;;
      SSet 62 (EAt (EVar 7) 32 (EBin OAdd u32 (EVar 41) (EInt 0))) ;;
      SSet 63 (EAt (EVar 7) 32 (EBin OAdd u32 (EVar 41) (EInt 0))) ;;
      SSet 64 (EAt (EVar 42) 32 (EInt 2)) ;;
      SSet 65 (EBin OXor u64 (ELoad 8 (EVar 63)) (ELoad 8 (EVar 64))) ;;
      SSet 66 (EBin OXor u64 (ELoad 8 (EAt (EVar 63) 1 (EInt 8))) (ELoad 8 (EAt (EVar 64) 1 (EInt 8)))) ;;
      SSet 67 (EBin OXor u64 (ELoad 8 (EAt (EVar 63) 1 (EInt 16))) (ELoad 8 (EAt (EVar 64) 1 (EInt 16)))) ;;
      SSet 68 (EBin OXor u64 (ELoad 8 (EAt (EVar 63) 1 (EInt 24))) (ELoad 8 (EAt (EVar 64) 1 (EInt 24)))) ;;
      SStore 8 (EVar 62) (EVar 65) ;;
      SStore 8 (EAt (EVar 62) 1 (EInt 8)) (EVar 66) ;;
      SStore 8 (EAt (EVar 62) 1 (EInt 16)) (EVar 67) ;;
      SStore 8 (EAt (EVar 62) 1 (EInt 24)) (EVar 68) ;;
      SSet 69 (EAt (EVar 7) 32 (EBin OAdd u32 (EVar 41) (EInt 0))) ;;
      SSet 70 (EAt (EVar 7) 32 (EBin OAdd u32 (EVar 41) (EInt 0))) ;;
      SSet 71 (EAt (EVar 42) 32 (EInt 3)) ;;
      SSet 72 (EBin OXor u64 (ELoad 8 (EVar 70)) (ELoad 8 (EVar 71))) ;;
      SSet 73 (EBin OXor u64 (ELoad 8 (EAt (EVar 70) 1 (EInt 8))) (ELoad 8 (EAt (EVar 71) 1 (EInt 8)))) ;;
      SSet 74 (EBin OXor u64 (ELoad 8 (EAt (EVar 70) 1 (EInt 16))) (ELoad 8 (EAt (EVar 71) 1 (EInt 16)))))) ;;
      (
      (
      SSet 75 (EBin OXor u64 (ELoad 8 (EAt (EVar 70) 1 (EInt 24))) (ELoad 8 (EAt (EVar 71) 1 (EInt 24)))) ;;
      SStore 8 (EVar 69) (EVar 72) ;;
      SStore 8 (EAt (EVar 69) 1 (EInt 8)) (EVar 73) ;;
      SStore 8 (EAt (EVar 69) 1 (EInt 16)) (EVar 74) ;;
      SStore 8 (EAt (EVar 69) 1 (EInt 24)) (EVar 75) ;;
      SSet 76 (EAt (EVar 7) 32 (EBin OAdd u32 (EVar 41) (EInt 1))) ;;
      SSet 77 (EAt (EVar 43) 32 (EInt 1)) ;;
      SSet 78 (EBin OXor u64 (ELoad 8 (EVar 77)) (ELoad 8 (EVar 42))) ;;
      SSet 79 (EBin OXor u64 (ELoad 8 (EAt (EVar 77) 1 (EInt 8))) (ELoad 8 (EAt (EVar 42) 1 (EInt 8)))) ;;
      SSet 80 (EBin OXor u64 (ELoad 8 (EAt (EVar 77) 1 (EInt 16))) (ELoad 8 (EAt (EVar 42) 1 (EInt 16)))) ;;
      SSet 81 (EBin OXor u64 (ELoad 8 (EAt (EVar 77) 1 (EInt 24))) (ELoad 8 (EAt (EVar 42) 1 (EInt 24)))) ;;
      SStore 8 (EVar 76) (EVar 78) ;;
      SStore 8 (EAt (EVar 76) 1 (EInt 8)) (EVar 79) ;;
      SStore 8 (EAt (EVar 76) 1 (EInt 16)) (EVar 80) ;;
      SStore 8 (EAt (EVar 76) 1 (EInt 24)) (EVar 81) ;;
      SSet 82 (EAt (EVar 7) 32 (EBin OAdd u32 (EVar 41) (EInt 1))) ;;
      SSet 83 (EAt (EVar 7) 32 (EBin OAdd u32 (EVar 41) (EInt 1))) ;;
      SAlloc 84 (EInt 32) ;;
      SCall None f_bf256_mul [(EVar 84); (EAt (EVar 42) 32 (EInt 1)); (EVar 35)] ;;
      SSet 85 (EBin OXor u64 (ELoad 8 (EVar 83)) (ELoad 8 (EVar 84))) ;;
      SSet 86 (EBin OXor u64 (ELoad 8 (EAt (EVar 83) 1 (EInt 8))) (ELoad 8 (EAt (EVar 84) 1 (EInt 8)))) ;;
      SSet 87 (EBin OXor u64 (ELoad 8 (EAt (EVar 83) 1 (EInt 16))) (ELoad 8 (EAt (EVar 84) 1 (EInt 16)))) ;;
      SSet 88 (EBin OXor u64 (ELoad 8 (EAt (EVar 83) 1 (EInt 24))) (ELoad 8 (EAt (EVar 84) 1 (EInt 24))))) ;;
      (
      SStore 8 (EVar 82) (EVar 85) ;;
      SStore 8 (EAt (EVar 82) 1 (EInt 8)) (EVar 86) ;;
      SStore 8 (EAt (EVar 82) 1 (EInt 16)) (EVar 87) ;;
      SStore 8 (EAt (EVar 82) 1 (EInt 24)) (EVar 88) ;;
      SSet 89 (EAt (EVar 7) 32 (EBin OAdd u32 (EVar 41) (EInt 1))) ;;
      SSet 90 (EAt (EVar 7) 32 (EBin OAdd u32 (EVar 41) (EInt 1))) ;;
      SAlloc 91 (EInt 32) ;;
      SCall None f_bf256_mul [(EVar 91); (EAt (EVar 42) 32 (EInt 2)); (EVar 36)] ;;
      SSet 92 (EBin OXor u64 (ELoad 8 (EVar 90)) (ELoad 8 (EVar 91))) ;;
      SSet 93 (EBin OXor u64 (ELoad 8 (EAt (EVar 90) 1 (EInt 8))) (ELoad 8 (EAt (EVar 91) 1 (EInt 8)))) ;;
      SSet 94 (EBin OXor u64 (ELoad 8 (EAt (EVar 90) 1 (EInt 16))) (ELoad 8 (EAt (EVar 91) 1 (EInt 16)))) ;;
      SSet 95 (EBin OXor u64 (ELoad 8 (EAt (EVar 90) 1 (EInt 24))) (ELoad 8 (EAt (EVar 91) 1 (EInt 24)))) ;;
      SStore 8 (EVar 89) (EVar 92) ;;
      SStore 8 (EAt (EVar 89) 1 (EInt 8)) (EVar 93) ;;
      SStore 8 (EAt (EVar 89) 1 (EInt 16)) (EVar 94) ;;
      SStore 8 (EAt (EVar 89) 1 (EInt 24)) (EVar 95) ;;
      SSet 96 (EAt (EVar 7) 32 (EBin OAdd u32 (EVar 41) (EInt 1))) ;;
      SSet 97 (EAt (EVar 7) 32 (EBin OAdd u32 (EVar 41) (EInt 1))) ;;
      SSet 98 (EAt (EVar 42) 32 (EInt 3)) ;;
      SSet 99 (EBin OXor u64 (ELoad 8 (EVar 97)) (ELoad 8 (EVar 98))) ;;
      SSet 100 (EBin OXor u64 (ELoad 8 (EAt (EVar 97) 1 (EInt 8))) (ELoad 8 (EAt (EVar 98) 1 (EInt 8)))) ;;
      SSet 101 (EBin OXor u64 (ELoad 8 (EAt (EVar 97) 1 (EInt 16))) (ELoad 8 (EAt (EVar 98) 1 (EInt 16)))) ;;
      SSet 102 (EBin OXor u64 (ELoad 8 (EAt (EVar 97) 1 (EInt 24))) (ELoad 8 (EAt (EVar 98) 1 (EInt 24)))) ;;
      SStore 8 (EVar 96) (EVar 99)))) ;;
      (
      (
      (
      SStore 8 (EAt (EVar 96) 1 (EInt 8)) (EVar 100) ;;
      SStore 8 (EAt (EVar 96) 1 (EInt 16)) (EVar 101) ;;
      SStore 8 (EAt (EVar 96) 1 (EInt 24)) (EVar 102) ;;
      SSet 103 (EAt (EVar 7) 32 (EBin OAdd u32 (EVar 41) (EInt 2))) ;;
      SSet 104 (EAt (EVar 43) 32 (EInt 2)) ;;
      SSet 105 (EBin OXor u64 (ELoad 8 (EVar 104)) (ELoad 8 (EVar 42))) ;;
      SSet 106 (EBin OXor u64 (ELoad 8 (EAt (EVar 104) 1 (EInt 8))) (ELoad 8 (EAt (EVar 42) 1 (EInt 8)))) ;;
      SSet 107 (EBin OXor u64 (ELoad 8 (EAt (EVar 104) 1 (EInt 16))) (ELoad 8 (EAt (EVar 42) 1 (EInt 16)))) ;;
      SSet 108 (EBin OXor u64 (ELoad 8 (EAt (EVar 104) 1 (EInt 24))) (ELoad 8 (EAt (EVar 42) 1 (EInt 24)))) ;;
      SStore 8 (EVar 103) (EVar 105) ;;
      SStore 8 (EAt (EVar 103) 1 (EInt 8)) (EVar 106) ;;
      SStore 8 (EAt (EVar 103) 1 (EInt 16)) (EVar 107) ;;
      SStore 8 (EAt (EVar 103) 1 (EInt 24)) (EVar 108) ;;
      SSet 109 (EAt (EVar 7) 32 (EBin OAdd u32 (EVar 41) (EInt 2))) ;;
      SSet 110 (EAt (EVar 7) 32 (EBin OAdd u32 (EVar 41) (EInt 2))) ;;
      SSet 111 (EAt (EVar 42) 32 (EInt 1)) ;;
      SSet 112 (EBin OXor u64 (ELoad 8 (EVar 110)) (ELoad 8 (EVar 111))) ;;
      SSet 113 (EBin OXor u64 (ELoad 8 (EAt (EVar 110) 1 (EInt 8))) (ELoad 8 (EAt (EVar 111) 1 (EInt 8)))) ;;
      SSet 114 (EBin OXor u64 (ELoad 8 (EAt (EVar 110) 1 (EInt 16))) (ELoad 8 (EAt (EVar 111) 1 (EInt 16)))) ;;
      SSet 115 (EBin OXor u64 (ELoad 8 (EAt (EVar 110) 1 (EInt 24))) (ELoad 8 (EAt (EVar 111) 1 (EInt 24)))) ;;
      SStore 8 (EVar 109) (EVar 112) ;;
      SStore 8 (EAt (EVar 109) 1 (EInt 8)) (EVar 113) ;;
      SStore 8 (EAt (EVar 109) 1 (EInt 16)) (EVar 114)) ;;
      (
      SStore 8 (EAt (EVar 109) 1 (EInt 24)) (EVar 115) ;;
      SSet 116 (EAt (EVar 7) 32 (EBin OAdd u32 (EVar 41) (EInt 2))) ;;
      SSet 117 (EAt (EVar 7) 32 (EBin OAdd u32 (EVar 41) (EInt 2))) ;;
      SAlloc 118 (EInt 32) ;;
      SCall None f_bf256_mul [(EVar 118); (EAt (EVar 42) 32 (EInt 2)); (EVar 35)] ;;
      SSet 119 (EBin OXor u64 (ELoad 8 (EVar 117)) (ELoad 8 (EVar 118))) ;;
      SSet 120 (EBin OXor u64 (ELoad 8 (EAt (EVar 117) 1 (EInt 8))) (ELoad 8 (EAt (EVar 118) 1 (EInt 8)))) ;;
      SSet 121 (EBin OXor u64 (ELoad 8 (EAt (EVar 117) 1 (EInt 16))) (ELoad 8 (EAt (EVar 118) 1 (EInt 16)))) ;;
      SSet 122 (EBin OXor u64 (ELoad 8 (EAt (EVar 117) 1 (EInt 24))) (ELoad 8 (EAt (EVar 118) 1 (EInt 24)))) ;;
      SStore 8 (EVar 116) (EVar 119) ;;
      SStore 8 (EAt (EVar 116) 1 (EInt 8)) (EVar 120) ;;
      SStore 8 (EAt (EVar 116) 1 (EInt 16)) (EVar 121) ;;
      SStore 8 (EAt (EVar 116) 1 (EInt 24)) (EVar 122) ;;
      SSet 123 (EAt (EVar 7) 32 (EBin OAdd u32 (EVar 41) (EInt 2))) ;;
      SSet 124 (EAt (EVar 7) 32 (EBin OAdd u32 (EVar 41) (EInt 2))) ;;
      SAlloc 125 (EInt 32) ;;
      SCall None f_bf256_mul [(EVar 125); (EAt (EVar 42) 32 (EInt 3)); (EVar 36)] ;;
      SSet 126 (EBin OXor u64 (ELoad 8 (EVar 124)) (ELoad 8 (EVar 125))) ;;
      SSet 127 (EBin OXor u64 (ELoad 8 (EAt (EVar 124) 1 (EInt 8))) (ELoad 8 (EAt (EVar 125) 1 (EInt 8)))) ;;
      SSet 128 (EBin OXor u64 (ELoad 8 (EAt (EVar 124) 1 (EInt 16))) (ELoad 8 (EAt (EVar 125) 1 (EInt 16)))) ;;
      SSet 129 (EBin OXor u64 (ELoad 8 (EAt (EVar 124) 1 (EInt 24))) (ELoad 8 (EAt (EVar 125) 1 (EInt 24)))) ;;
      SStore 8 (EVar 123) (EVar 126) ;;
      SStore 8 (EAt (EVar 123) 1 (EInt 8)) (EVar 127) ;;
      SStore 8 (EAt (EVar 123) 1 (EInt 16)) (EVar 128))) ;;
      (
      (
      SStore 8 (EAt (EVar 123) 1 (EInt 24)) (EVar 129) ;;
      SSet 130 (EAt (EVar 7) 32 (EBin OAdd u32 (EVar 41) (EInt 3))) ;;
      SSet 131 (EAt (EVar 43) 32 (EInt 3)) ;;
      SAlloc 132 (EInt 32) ;;
      SCall None f_bf256_mul [(EVar 132); (EVar 42); (EVar 36)] ;;
      SSet 133 (EBin OXor u64 (ELoad 8 (EVar 131)) (ELoad 8 (EVar 132))) ;;
      SSet 134 (EBin OXor u64 (ELoad 8 (EAt (EVar 131) 1 (EInt 8))) (ELoad 8 (EAt (EVar 132) 1 (EInt 8)))) ;;
      SSet 135 (EBin OXor u64 (ELoad 8 (EAt (EVar 131) 1 (EInt 16))) (ELoad 8 (EAt (EVar 132) 1 (EInt 16)))) ;;
      SSet 136 (EBin OXor u64 (ELoad 8 (EAt (EVar 131) 1 (EInt 24))) (ELoad 8 (EAt (EVar 132) 1 (EInt 24)))) ;;
      SStore 8 (EVar 130) (EVar 133) ;;
      SStore 8 (EAt (EVar 130) 1 (EInt 8)) (EVar 134) ;;
      SStore 8 (EAt (EVar 130) 1 (EInt 16)) (EVar 135) ;;
      SStore 8 (EAt (EVar 130) 1 (EInt 24)) (EVar 136) ;;
      SSet 137 (EAt (EVar 7) 32 (EBin OAdd u32 (EVar 41) (EInt 3))) ;;
      SSet 138 (EAt (EVar 7) 32 (EBin OAdd u32 (EVar 41) (EInt 3))) ;;
      SSet 139 (EAt (EVar 42) 32 (EInt 1)) ;;
      SSet 140 (EBin OXor u64 (ELoad 8 (EVar 138)) (ELoad 8 (EVar 139))) ;;
      SSet 141 (EBin OXor u64 (ELoad 8 (EAt (EVar 138) 1 (EInt 8))) (ELoad 8 (EAt (EVar 139) 1 (EInt 8)))) ;;
      SSet 142 (EBin OXor u64 (ELoad 8 (EAt (EVar 138) 1 (EInt 16))) (ELoad 8 (EAt (EVar 139) 1 (EInt 16)))) ;;
      SSet 143 (EBin OXor u64 (ELoad 8 (EAt (EVar 138) 1 (EInt 24))) (ELoad 8 (EAt (EVar 139) 1 (EInt 24)))) ;;
      SStore 8 (EVar 137) (EVar 140) ;;
      SStore 8 (EAt (EVar 137) 1 (EInt 8)) (EVar 141) ;;
      SStore 8 (EAt (EVar 137) 1 (EInt 16)) (EVar 142)) ;;
      (
      SStore 8 (EAt (EVar 137) 1 (EInt 24)) (EVar 143) ;;
      SSet 144 (EAt (EVar 7) 32 (EBin OAdd u32 (EVar 41) (EInt 3))) ;;
      SSet 145 (EAt (EVar 7) 32 (EBin OAdd u32 (EVar 41) (EInt 3))) ;;
      SSet 146 (EAt (EVar 42) 32 (EInt 2)) ;;
      SSet 147 (EBin OXor u64 (ELoad 8 (EVar 145)) (ELoad 8 (EVar 146))) ;;
      SSet 148 (EBin OXor u64 (ELoad 8 (EAt (EVar 145) 1 (EInt 8))) (ELoad 8 (EAt (EVar 146) 1 (EInt 8)))) ;;
      SSet 149 (EBin OXor u64 (ELoad 8 (EAt (EVar 145) 1 (EInt 16))) (ELoad 8 (EAt (EVar 146) 1 (EInt 16)))) ;;
      SSet 150 (EBin OXor u64 (ELoad 8 (EAt (EVar 145) 1 (EInt 24))) (ELoad 8 (EAt (EVar 146) 1 (EInt 24)))) ;;
      SStore 8 (EVar 144) (EVar 147) ;;
      SStore 8 (EAt (EVar 144) 1 (EInt 8)) (EVar 148) ;;
      SStore 8 (EAt (EVar 144) 1 (EInt 16)) (EVar 149) ;;
      SStore 8 (EAt (EVar 144) 1 (EInt 24)) (EVar 150) ;;
      SSet 151 (EAt (EVar 7) 32 (EBin OAdd u32 (EVar 41) (EInt 3))) ;;
      SSet 152 (EAt (EVar 7) 32 (EBin OAdd u32 (EVar 41) (EInt 3))) ;;
      SAlloc 153 (EInt 32) ;;
      SCall None f_bf256_mul [(EVar 153); (EAt (EVar 42) 32 (EInt 3)); (EVar 35)] ;;
      SSet 154 (EBin OXor u64 (ELoad 8 (EVar 152)) (ELoad 8 (EVar 153))) ;;
      SSet 155 (EBin OXor u64 (ELoad 8 (EAt (EVar 152) 1 (EInt 8))) (ELoad 8 (EAt (EVar 153) 1 (EInt 8)))) ;;
      SSet 156 (EBin OXor u64 (ELoad 8 (EAt (EVar 152) 1 (EInt 16))) (ELoad 8 (EAt (EVar 153) 1 (EInt 16)))) ;;
      SSet 157 (EBin OXor u64 (ELoad 8 (EAt (EVar 152) 1 (EInt 24))) (ELoad 8 (EAt (EVar 153) 1 (EInt 24)))) ;;
      SStore 8 (EVar 151) (EVar 154) ;;
      SStore 8 (EAt (EVar 151) 1 (EInt 8)) (EVar 155) ;;
      SStore 8 (EAt (EVar 151) 1 (EInt 16)) (EVar 156) ;;
      SStore 8 (EAt (EVar 151) 1 (EInt 24)) (EVar 157))))))).

(** faest_aes.c:1450-1478, aes_enc_backward_256_1.
    Variables: 1 = x, 2 = xk, 3 = Mtag, 4 = Mkey, 5 = out, 6 = y_out, 7 = xtilde, 8 = j, 9 = c, 10 = r, 11 = ird, 12 = xout, 16 = ytilde. *)
Definition c_aes_enc_backward_256_1 : func := Func [1%positive; 2%positive; 3%positive; 4%positive; 5%positive; 6%positive] (
  SSet 8 (EInt 0) ;;
  SLoop (EBin OLt s32 (EVar 8) (EInt 14))
    (
    SSet 8 (EBin OAdd u32 (EVar 8) (EInt 1)))
    (
    SSet 9 (EInt 0) ;;
    SLoop (EBin OLe s32 (EVar 9) (EInt 3))
      (
      SSet 9 (EBin OAdd u32 (EVar 9) (EInt 1)))
      (
      SSet 10 (EInt 0) ;;
      SLoop (EBin OLe s32 (EVar 10) (EInt 3))
        (
        SSet 10 (EBin OAdd u32 (EVar 10) (EInt 1)))
        (
        SSet 11 (EBin OAdd u32 (EBin OAdd u32 (EBin OMul u32 (EInt 128) (EVar 8)) (EBin OMul u32 (EInt 32) (EDiv OMod u32 (EBin OAdd u32 (EBin OSub u32 (EVar 9) (EVar 10)) (EInt 4)) (EInt 4)))) (EBin OMul u32 (EInt 8) (EVar 10))) ;;
        SIf (EBin OLt s32 (EVar 8) (EInt 13))
          (
          SSet 7 (ELoad 1 (EAt (EVar 1) 1 (EDiv ODiv u32 (EVar 11) (EInt 8)))))
          (
          SSet 12 (EUn OCast u8 (EBin OAnd s32 (ELoad 1 (EAt (EVar 5) 1 (EDiv ODiv u32 (EBin OSub u32 (EVar 11) (EInt 1664)) (EInt 8)))) (EUn ONeg s32 (EBin OAnd s32 (EBin OXor s32 (EInt 1) (EVar 3)) (EBin OXor s32 (EInt 1) (EVar 4)))))) ;;
          SSet 7 (EUn OCast u8 (EBin OXor s32 (EVar 12) (ELoad 1 (EAt (EVar 2) 1 (EDiv ODiv u32 (EBin OAdd u32 (EInt 128) (EVar 11)) (EInt 8))))))) ;;
        SCall (Some 13%positive) f___rorb [(EVar 7); (EInt 7)] ;;
        SCall (Some 14%positive) f___rorb [(EVar 7); (EInt 5)] ;;
        SCall (Some 15%positive) f___rorb [(EVar 7); (EInt 2)] ;;
        SSet 16 (EUn OCast u8 (EBin OXor s32 (EBin OXor s32 (EVar 13) (EVar 14)) (EVar 15))) ;;
        SSet 16 (EUn OCast u8 (EBin OXor s32 (EVar 16) (EBin OShl s32 (EBin OAnd s32 (EBin OXor s32 (EInt 1) (EVar 3)) (EBin OXor s32 (EInt 1) (EVar 4))) (EInt 0)))) ;;
        SSet 16 (EUn OCast u8 (EBin OXor s32 (EVar 16) (EBin OShl s32 (EBin OAnd s32 (EBin OXor s32 (EInt 1) (EVar 3)) (EBin OXor s32 (EInt 1) (EVar 4))) (EInt 2)))) ;;
        SSet 17 (EAt (EVar 6) 32 (EBin OAdd u32 (EBin OAdd u32 (EBin OMul u32 (EInt 16) (EVar 8)) (EBin OMul u32 (EInt 4) (EVar 9))) (EVar 10))) ;;
        SAlloc 18 (EInt 32) ;;
        SCall None f_bf256_byte_combine_bits [(EVar 18); (EVar 16)] ;;
        SCopy (EVar 17) (EVar 18) (EInt 32))))).

(** faest_aes.c:1480-1523, aes_enc_backward_256.
    Variables: 1 = bf_x, 2 = bf_xk, 3 = Mtag, 4 = Mkey, 5 = delta, 6 = out, 7 = y_out, 8 = bf_delta, 12 = factor, 20 = j, 21 = c, 22 = r, 23 = bf_x_tilde, 24 = ird, 25 = i, 26 = bf_xout, 38 = bf_y_tilde, 39 = i. *)
Definition c_aes_enc_backward_256 : func := Func [1%positive; 2%positive; 3%positive; 4%positive; 5%positive; 6%positive; 7%positive] (
  SAlloc 8 (EInt 32) ;;
  SIf (EBin OEq s32 (EIsNull (EVar 5)) (EInt 0))
    (
    SAlloc 9 (EInt 32) ;;
    SCall None f_bf256_load [(EVar 9); (EVar 5)] ;;
    SSet 11 (EVar 9))
    (
    SAlloc 10 (EInt 32) ;;
    SCall None f_bf256_zero [(EVar 10)] ;;
    SSet 11 (EVar 10)) ;;
  SCopy (EVar 8) (EVar 11) (EInt 32) ;;
  SAlloc 12 (EInt 32) ;;
  SSet 13 (EUn ONeg u64 (EBin OAnd u64 (EVar 4) (EInt 1))) ;;
  SAlloc 14 (EInt 32) ;;
  SCall None f_bf256_from_bit [(EVar 14); (EUn OCast u8 (EBin OXor s32 (EInt 1) (EVar 4)))] ;;
  SSet 15 (EUn ONeg u64 (EBin OAnd u64 (EUn OCast u64 (EBin OXor s32 (EInt 1) (EVar 3))) (EInt 1))) ;;
  SSet 16 (EBin OAnd u64 (EBin OXor u64 (EBin OAnd u64 (ELoad 8 (EVar 8)) (EVar 13)) (ELoad 8 (EVar 14))) (EVar 15)) ;;
  SSet 17 (EBin OAnd u64 (EBin OXor u64 (EBin OAnd u64 (ELoad 8 (EAt (EVar 8) 1 (EInt 8))) (EVar 13)) (ELoad 8 (EAt (EVar 14) 1 (EInt 8)))) (EVar 15)) ;;
  SSet 18 (EBin OAnd u64 (EBin OXor u64 (EBin OAnd u64 (ELoad 8 (EAt (EVar 8) 1 (EInt 16))) (EVar 13)) (ELoad 8 (EAt (EVar 14) 1 (EInt 16)))) (EVar 15)) ;;
  SSet 19 (EBin OAnd u64 (EBin OXor u64 (EBin OAnd u64 (ELoad 8 (EAt (EVar 8) 1 (EInt 24))) (EVar 13)) (ELoad 8 (EAt (EVar 14) 1 (EInt 24)))) (EVar 15)) ;;
  SStore 8 (EVar 12) (EVar 16) ;;
  SStore 8 (EAt (EVar 12) 1 (EInt 8)) (EVar 17) ;;
  SStore 8 (EAt (EVar 12) 1 (EInt 16)) (EVar 18) ;;
  SStore 8 (EAt (EVar 12) 1 (EInt 24)) (EVar 19) ;;
  SSet 20 (EInt 0) ;;
  SLoop (EBin OLt s32 (EVar 20) (EInt 14))
    (
    SSet 20 (EBin OAdd u32 (EVar 20) (EInt 1)))
    (
    SSet 21 (EInt 0) ;;
    SLoop (EBin OLe s32 (EVar 21) (EInt 3))
      (
      SSet 21 (EBin OAdd u32 (EVar 21) (EInt 1)))
      (
      SSet 22 (EInt 0) ;;
      SLoop (EBin OLe s32 (EVar 22) (EInt 3))
        (
        SSet 22 (EBin OAdd u32 (EVar 22) (EInt 1)))
        (
        SAlloc 23 (EInt 256) ;;
        SSet 24 (EBin OAdd u32 (EBin OAdd u32 (EBin OMul u32 (EInt 128) (EVar 20)) (EBin OMul u32 (EInt 32) (EDiv OMod u32 (EBin OAdd u32 (EBin OSub u32 (EVar 21) (EVar 22)) (EInt 4)) (EInt 4)))) (EBin OMul u32 (EInt 8) (EVar 22))) ;;
        SIf (EBin OLt s32 (EVar 20) (EInt 13))
          (
          SCopy (EVar 23) (EAt (EVar 1) 32 (EVar 24)) (EInt 256))
          (
          SSet 25 (EInt 0) ;;
          SLoop (EBin OLt s32 (EVar 25) (EInt 8))
            (
            SSet 25 (EBin OAdd u32 (EVar 25) (EInt 1)))
            (
            SAlloc 26 (EInt 32) ;;
            SSet 27 (EUn ONeg u64 (EBin OAnd u64 (EUn OCast u64 (EBin OAnd s32 (EBin OShr s32 (ELoad 1 (EAt (EVar 6) 1 (EDiv ODiv u32 (EBin OSub u32 (EVar 24) (EInt 1664)) (EInt 8)))) (EVar 25)) (EInt 1))) (EInt 1))) ;;
            SSet 28 (EBin OAnd u64 (ELoad 8 (EVar 12)) (EVar 27)) ;;
            SSet 29 (EBin OAnd u64 (ELoad 8 (EAt (EVar 12) 1 (EInt 8))) (EVar 27)) ;;
            SSet 30 (EBin OAnd u64 (ELoad 8 (EAt (EVar 12) 1 (EInt 16))) (EVar 27)) ;;
            SSet 31 (EBin OAnd u64 (ELoad 8 (EAt (EVar 12) 1 (EInt 24))) (EVar 27)) ;;
            SStore 8 (EVar 26) (EVar 28) ;;
            SStore 8 (EAt (EVar 26) 1 (EInt 8)) (EVar 29) ;;
            SStore 8 (EAt (EVar 26) 1 (EInt 16)) (EVar 30) ;;
            SStore 8 (EAt (EVar 26) 1 (EInt 24)) (EVar 31) ;;
            SSet 32 (EAt (EVar 23) 32 (EVar 25)) ;;
            SSet 33 (EAt (EVar 2) 32 (EBin OAdd u32 (EBin OAdd u32 (EInt 128) (EVar 24)) (EVar 25))) ;;
            SSet 34 (EBin OXor u64 (ELoad 8 (EVar 26)) (ELoad 8 (EVar 33))) ;;
            SSet 35 (EBin OXor u64 (ELoad 8 (EAt (EVar 26) 1 (EInt 8))) (ELoad 8 (EAt (EVar 33) 1 (EInt 8)))) ;;
            SSet 36 (EBin OXor u64 (ELoad 8 (EAt (EVar 26) 1 (EInt 16))) (ELoad 8 (EAt (EVar 33) 1 (EInt 16)))) ;;
            SSet 37 (EBin OXor u64 (ELoad 8 (EAt (EVar 26) 1 (EInt 24))) (ELoad 8 (EAt (EVar 33) 1 (EInt 24)))) ;;
            SStore 8 (EVar 32) (EVar 34) ;;
            SStore 8 (EAt (EVar 32) 1 (EInt 8)) (EVar 35) ;;
            SStore 8 (EAt (EVar 32) 1 (EInt 16)) (EVar 36) ;;
            SStore 8 (EAt (EVar 32) 1 (EInt 24)) (EVar 37))) ;;
        SAlloc 38 (EInt 256) ;;
        SSet 39 (EInt 0) ;;
        SLoop (EBin OLt s32 (EVar 39) (EInt 8))
          (
          SSet 39 (EBin OAdd u32 (EVar 39) (EInt 1)))
          (
          SSet 40 (EAt (EVar 38) 32 (EVar 39)) ;;
          SSet 41 (EAt (EVar 23) 32 (EDiv OMod u32 (EBin OAdd u32 (EVar 39) (EInt 7)) (EInt 8))) ;;
          SSet 42 (EAt (EVar 23) 32 (EDiv OMod u32 (EBin OAdd u32 (EVar 39) (EInt 5)) (EInt 8))) ;;
          SSet 43 (EAt (EVar 23) 32 (EDiv OMod u32 (EBin OAdd u32 (EVar 39) (EInt 2)) (EInt 8))) ;;
          SSet 44 (EBin OXor u64 (EBin OXor u64 (ELoad 8 (EVar 41)) (ELoad 8 (EVar 42))) (ELoad 8 (EVar 43))) ;;
          SSet 45 (EBin OXor u64 (EBin OXor u64 (ELoad 8 (EAt (EVar 41) 1 (EInt 8))) (ELoad 8 (EAt (EVar 42) 1 (EInt 8)))) (ELoad 8 (EAt (EVar 43) 1 (EInt 8)))) ;;
          SSet 46 (EBin OXor u64 (EBin OXor u64 (ELoad 8 (EAt (EVar 41) 1 (EInt 16))) (ELoad 8 (EAt (EVar 42) 1 (EInt 16)))) (ELoad 8 (EAt (EVar 43) 1 (EInt 16)))) ;;
          SSet 47 (EBin OXor u64 (EBin OXor u64 (ELoad 8 (EAt (EVar 41) 1 (EInt 24))) (ELoad 8 (EAt (EVar 42) 1 (EInt 24)))) (ELoad 8 (EAt (EVar 43) 1 (EInt 24)))) ;;
          SStore 8 (EVar 40) (EVar 44) ;;
          SStore 8 (EAt (EVar 40) 1 (EInt 8)) (EVar 45) ;;
          SStore 8 (EAt (EVar 40) 1 (EInt 16)) (EVar 46) ;;
          SStore 8 (EAt (EVar 40) 1 (EInt 24)) (EVar 47)) ;;
        SSet 48 (EBin OXor u64 (ELoad 8 (EVar 38)) (ELoad 8 (EVar 12))) ;;
        SSet 49 (EBin OXor u64 (ELoad 8 (EAt (EVar 38) 1 (EInt 8))) (ELoad 8 (EAt (EVar 12) 1 (EInt 8)))) ;;
        SSet 50 (EBin OXor u64 (ELoad 8 (EAt (EVar 38) 1 (EInt 16))) (ELoad 8 (EAt (EVar 12) 1 (EInt 16)))) ;;
        SSet 51 (EBin OXor u64 (ELoad 8 (EAt (EVar 38) 1 (EInt 24))) (ELoad 8 (EAt (EVar 12) 1 (EInt 24)))) ;;
        SStore 8 (EVar 38) (EVar 48) ;;
        SStore 8 (EAt (EVar 38) 1 (EInt 8)) (EVar 49) ;;
        SStore 8 (EAt (EVar 38) 1 (EInt 16)) (EVar 50) ;;
        SStore 8 (EAt (EVar 38) 1 (EInt 24)) (EVar 51) ;;
        SSet 52 (EAt (EVar 38) 32 (EInt 2)) ;;
        SSet 53 (EAt (EVar 38) 32 (EInt 2)) ;;
        SSet 54 (EBin OXor u64 (ELoad 8 (EVar 53)) (ELoad 8 (EVar 12))) ;;
        SSet 55 (EBin OXor u64 (ELoad 8 (EAt (EVar 53) 1 (EInt 8))) (ELoad 8 (EAt (EVar 12) 1 (EInt 8)))) ;;
        SSet 56 (EBin OXor u64 (ELoad 8 (EAt (EVar 53) 1 (EInt 16))) (ELoad 8 (EAt (EVar 12) 1 (EInt 16)))) ;;
        SSet 57 (EBin OXor u64 (ELoad 8 (EAt (EVar 53) 1 (EInt 24))) (ELoad 8 (EAt (EVar 12) 1 (EInt 24)))) ;;
        SStore 8 (EVar 52) (EVar 54) ;;
        SStore 8 (EAt (EVar 52) 1 (EInt 8)) (EVar 55) ;;
        SStore 8 (EAt (EVar 52) 1 (EInt 16)) (EVar 56) ;;
        SStore 8 (EAt (EVar 52) 1 (EInt 24)) (EVar 57) ;;
        SSet 58 (EAt (EVar 7) 32 (EBin OAdd u32 (EBin OAdd u32 (EBin OMul u32 (EInt 16) (EVar 20)) (EBin OMul u32 (EInt 4) (EVar 21))) (EVar 22))) ;;
        SAlloc 59 (EInt 32) ;;
        SCall None f_bf256_byte_combine [(EVar 59); (EVar 38)] ;;
        SCopy (EVar 58) (EVar 59) (EInt 32))))).

(** faest_aes.c:1525-1545, aes_enc_constraints_Mkey_0_256.
    Variables: 1 = in, 2 = out, 3 = w, 4 = v, 5 = k, 6 = vk, 7 = a0_ctx, 8 = a1_ctx, 9 = s, 10 = vs, 11 = s_dash, 12 = vs_dash, 13 = j, 14 = tmp. *)
Definition c_aes_enc_constraints_Mkey_0_256 : func := Func [1%positive; 2%positive; 3%positive; 4%positive; 5%positive; 6%positive; 7%positive; 8%positive] (
  SAlloc 9 (EInt 7168) ;;
  SAlloc 10 (EInt 7168) ;;
  SAlloc 11 (EInt 7168) ;;
  SAlloc 12 (EInt 7168) ;;
  SCall None f_aes_enc_forward_256_1 [(EVar 3); (EVar 5); (EVar 1); (EInt 0); (EInt 0); (EVar 9)] ;;
  SCall None f_aes_enc_forward_256 [(EVar 4); (EVar 6); (EVar 1); (EInt 1); (EInt 0); ENull; (EVar 10)] ;;
  SCall None f_aes_enc_backward_256_1 [(EVar 3); (EVar 5); (EInt 0); (EInt 0); (EVar 2); (EVar 11)] ;;
  SCall None f_aes_enc_backward_256 [(EVar 4); (EVar 6); (EInt 1); (EInt 0); ENull; (EVar 2); (EVar 12)] ;;
  SSet 13 (EInt 0) ;;
  SLoop (EBin OLt s32 (EVar 13) (EInt 224))
    (
    SSet 13 (EBin OAdd u32 (EVar 13) (EInt 1)))
    (
    SAlloc 14 (EInt 32) ;;
    SCall None f_bf256_mul [(EVar 14); (EAt (EVar 10) 32 (EVar 13)); (EAt (EVar 12) 32 (EVar 13))] ;;
    SCall None f_zk_hash_256_update [(EVar 7); (EVar 14)] ;;
    SSet 15 (EAt (EVar 9) 32 (EVar 13)) ;;
    SSet 16 (EAt (EVar 10) 32 (EVar 13)) ;;
    SAlloc 17 (EInt 32) ;;
    SSet 18 (EBin OXor u64 (ELoad 8 (EVar 15)) (ELoad 8 (EVar 16))) ;;
    SSet 19 (EBin OXor u64 (ELoad 8 (EAt (EVar 15) 1 (EInt 8))) (ELoad 8 (EAt (EVar 16) 1 (EInt 8)))) ;;
    SSet 20 (EBin OXor u64 (ELoad 8 (EAt (EVar 15) 1 (EInt 16))) (ELoad 8 (EAt (EVar 16) 1 (EInt 16)))) ;;
    SSet 21 (EBin OXor u64 (ELoad 8 (EAt (EVar 15) 1 (EInt 24))) (ELoad 8 (EAt (EVar 16) 1 (EInt 24)))) ;;
    SStore 8 (EVar 17) (EVar 18) ;;
    SStore 8 (EAt (EVar 17) 1 (EInt 8)) (EVar 19) ;;
    SStore 8 (EAt (EVar 17) 1 (EInt 16)) (EVar 20) ;;
    SStore 8 (EAt (EVar 17) 1 (EInt 24)) (EVar 21) ;;
    SSet 22 (EAt (EVar 11) 32 (EVar 13)) ;;
    SSet 23 (EAt (EVar 12) 32 (EVar 13)) ;;
    SAlloc 24 (EInt 32) ;;
    SSet 25 (EBin OXor u64 (ELoad 8 (EVar 22)) (ELoad 8 (EVar 23))) ;;
    SSet 26 (EBin OXor u64 (ELoad 8 (EAt (EVar 22) 1 (EInt 8))) (ELoad 8 (EAt (EVar 23) 1 (EInt 8)))) ;;
    SSet 27 (EBin OXor u64 (ELoad 8 (EAt (EVar 22) 1 (EInt 16))) (ELoad 8 (EAt (EVar 23) 1 (EInt 16)))) ;;
    SSet 28 (EBin OXor u64 (ELoad 8 (EAt (EVar 22) 1 (EInt 24))) (ELoad 8 (EAt (EVar 23) 1 (EInt 24)))) ;;
    SStore 8 (EVar 24) (EVar 25) ;;
    SStore 8 (EAt (EVar 24) 1 (EInt 8)) (EVar 26) ;;
    SStore 8 (EAt (EVar 24) 1 (EInt 16)) (EVar 27) ;;
    SStore 8 (EAt (EVar 24) 1 (EInt 24)) (EVar 28) ;;
    SAlloc 29 (EInt 32) ;;
    SCall None f_bf256_mul [(EVar 29); (EVar 17); (EVar 24)] ;;
    SAlloc 30 (EInt 32) ;;
    SCall None f_bf256_one [(EVar 30)] ;;
    SAlloc 31 (EInt 32) ;;
    SSet 32 (EBin OXor u64 (EBin OXor u64 (ELoad 8 (EVar 29)) (ELoad 8 (EVar 14))) (ELoad 8 (EVar 30))) ;;
    SSet 33 (EBin OXor u64 (EBin OXor u64 (ELoad 8 (EAt (EVar 29) 1 (EInt 8))) (ELoad 8 (EAt (EVar 14) 1 (EInt 8)))) (ELoad 8 (EAt (EVar 30) 1 (EInt 8)))) ;;
    SSet 34 (EBin OXor u64 (EBin OXor u64 (ELoad 8 (EAt (EVar 29) 1 (EInt 16))) (ELoad 8 (EAt (EVar 14) 1 (EInt 16)))) (ELoad 8 (EAt (EVar 30) 1 (EInt 16)))) ;;
    SSet 35 (EBin OXor u64 (EBin OXor u64 (ELoad 8 (EAt (EVar 29) 1 (EInt 24))) (ELoad 8 (EAt (EVar 14) 1 (EInt 24)))) (ELoad 8 (EAt (EVar 30) 1 (EInt 24)))) ;;
    SStore 8 (EVar 31) (EVar 32) ;;
    SStore 8 (EAt (EVar 31) 1 (EInt 8)) (EVar 33) ;;
    SStore 8 (EAt (EVar 31) 1 (EInt 16)) (EVar 34) ;;
    SStore 8 (EAt (EVar 31) 1 (EInt 24)) (EVar 35) ;;
    SCall None f_zk_hash_256_update [(EVar 8); (EVar 31)])).

(** faest_aes.c:1547-1561, aes_enc_constraints_Mkey_1_256.
    Variables: 1 = in, 2 = out, 3 = q, 4 = qk, 5 = delta, 6 = b0_ctx, 7 = qs, 8 = qs_dash, 9 = minus_part, 12 = j. *)
Definition c_aes_enc_constraints_Mkey_1_256 : func := Func [1%positive; 2%positive; 3%positive; 4%positive; 5%positive; 6%positive] (
  SAlloc 7 (EInt 7168) ;;
  SAlloc 8 (EInt 7168) ;;
  SCall None f_aes_enc_forward_256 [(EVar 3); (EVar 4); (EVar 1); (EInt 0); (EInt 1); (EVar 5); (EVar 7)] ;;
  SCall None f_aes_enc_backward_256 [(EVar 3); (EVar 4); (EInt 0); (EInt 1); (EVar 5); (EVar 2); (EVar 8)] ;;
  SAlloc 9 (EInt 32) ;;
  SAlloc 10 (EInt 32) ;;
  SCall None f_bf256_load [(EVar 10); (EVar 5)] ;;
  SAlloc 11 (EInt 32) ;;
  SCall None f_bf256_load [(EVar 11); (EVar 5)] ;;
  SCall None f_bf256_mul [(EVar 9); (EVar 10); (EVar 11)] ;;
  SSet 12 (EInt 0) ;;
  SLoop (EBin OLt s32 (EVar 12) (EInt 224))
    (
    SSet 12 (EBin OAdd u32 (EVar 12) (EInt 1)))
    (
    SAlloc 13 (EInt 32) ;;
    SCall None f_bf256_mul [(EVar 13); (EAt (EVar 7) 32 (EVar 12)); (EAt (EVar 8) 32 (EVar 12))] ;;
    SAlloc 14 (EInt 32) ;;
    SSet 15 (EBin OXor u64 (ELoad 8 (EVar 13)) (ELoad 8 (EVar 9))) ;;
    SSet 16 (EBin OXor u64 (ELoad 8 (EAt (EVar 13) 1 (EInt 8))) (ELoad 8 (EAt (EVar 9) 1 (EInt 8)))) ;;
    SSet 17 (EBin OXor u64 (ELoad 8 (EAt (EVar 13) 1 (EInt 16))) (ELoad 8 (EAt (EVar 9) 1 (EInt 16)))) ;;
    SSet 18 (EBin OXor u64 (ELoad 8 (EAt (EVar 13) 1 (EInt 24))) (ELoad 8 (EAt (EVar 9) 1 (EInt 24)))) ;;
    SStore 8 (EVar 14) (EVar 15) ;;
    SStore 8 (EAt (EVar 14) 1 (EInt 8)) (EVar 16) ;;
    SStore 8 (EAt (EVar 14) 1 (EInt 16)) (EVar 17) ;;
    SStore 8 (EAt (EVar 14) 1 (EInt 24)) (EVar 18) ;;
    SCall None f_zk_hash_256_update [(EVar 6); (EVar 14)])).

(** faest_aes.c:1563-1599, aes_prove_256.
    Variables: 1 = w, 2 = u, 3 = V, 4 = in, 5 = out, 6 = chall, 7 = a_tilde, 8 = b_tilde, 9 = params, 11 = bf_v, 13 = k, 15 = vk, 16 = a0_ctx, 17 = h0, 18 = h1, 19 = s, 20 = t, 21 = sd, 22 = a1_ctx, 23 = h0, 24 = h1, 25 = s, 26 = t, 27 = sd. *)
Definition c_aes_prove_256 : func := Func [1%positive; 2%positive; 3%positive; 4%positive; 5%positive; 6%positive; 7%positive; 8%positive; 9%positive] (
  (
  SCall (Some 10%positive) f_column_to_row_major_and_shrink_V_256 [(EVar 3); (EInt 4000)] ;;
  SSet 11 (EVar 10) ;;
  SAlloc 12 (EInt 240) ;;
  SSet 13 (EVar 12) ;;
  SAlloc 14 (EInt 61440) ;;
  SSet 15 (EVar 14) ;;
  SAlloc 16 (EInt 5) ;;
  SAlloc 17 (EInt 32) ;;
  SStoreF (EVar 16) 5 0 (EVar 17) ;;
  SAlloc 18 (EInt 32) ;;
  SStoreF (EVar 16) 5 1 (EVar 18) ;;
  SAlloc 19 (EInt 32) ;;
  SStoreF (EVar 16) 5 2 (EVar 19) ;;
  SAlloc 20 (EInt 8) ;;
  SStoreF (EVar 16) 5 3 (EVar 20) ;;
  SAlloc 21 (EInt 1) ;;
  SStoreF (EVar 16) 5 4 (EVar 21) ;;
  SAlloc 22 (EInt 5) ;;
  SAlloc 23 (EInt 32) ;;
  SStoreF (EVar 22) 5 0 (EVar 23) ;;
  SAlloc 24 (EInt 32)) ;;
  (
  SStoreF (EVar 22) 5 1 (EVar 24) ;;
  SAlloc 25 (EInt 32) ;;
  SStoreF (EVar 22) 5 2 (EVar 25) ;;
  SAlloc 26 (EInt 8) ;;
  SStoreF (EVar 22) 5 3 (EVar 26) ;;
  SAlloc 27 (EInt 1) ;;
  SStoreF (EVar 22) 5 4 (EVar 27) ;;
  SCall None f_zk_hash_256_init [(EVar 16); (EVar 6)] ;;
  SCall None f_zk_hash_256_init [(EVar 22); (EVar 6)] ;;
  SCall None f_aes_key_schedule_constraints_Mkey_0_256 [(EVar 1); (EVar 11); (EVar 16); (EVar 22); (EVar 13); (EVar 15); (EVar 9)] ;;
  SCall None f_aes_enc_constraints_Mkey_0_256 [(EVar 4); (EVar 5); (EAt (EVar 1) 1 (EInt 84)); (EAt (EVar 11) 32 (EInt 672)); (EVar 13); (EVar 15); (EVar 16); (EVar 22)] ;;
  SCall None f_aes_enc_constraints_Mkey_0_256 [(EAt (EVar 4) 1 (EInt 16)); (EAt (EVar 5) 1 (EInt 16)); (EAt (EVar 1) 1 (EInt 292)); (EAt (EAt (EVar 11) 32 (EInt 672)) 32 (EInt 1664)); (EVar 13); (EVar 15); (EVar 16); (EVar 22)] ;;
  SEval (EVar 15) ;;
  SEval (EVar 13) ;;
  SAlloc 28 (EInt 32) ;;
  SCall None f_bf256_load [(EVar 28); (EAt (EVar 2) 1 (EInt 500))] ;;
  SCall None f_zk_hash_256_finalize [(EVar 7); (EVar 22); (EVar 28)] ;;
  SAlloc 29 (EInt 32) ;;
  SCall None f_bf256_sum_poly [(EVar 29); (EAt (EVar 11) 32 (EInt 4000))] ;;
  SCall None f_zk_hash_256_finalize [(EVar 8); (EVar 16); (EVar 29)] ;;
  SEval (EVar 11))).

(** faest_aes.c:1601-1653, aes_verify_256.
    Variables: 1 = d, 2 = Q, 3 = chall_2, 4 = chall_3, 5 = a_tilde, 6 = in, 7 = out, 8 = params, 9 = tau, 10 = t0, 11 = k0, 12 = t1, 13 = k1, 14 = delta, 15 = i, 16 = col, 17 = depth, 18 = decoded_challenge, 20 = j, 22 = bf_q, 24 = qk, 25 = b0_ctx, 26 = h0, 27 = h1, 28 = s, 29 = t, 30 = sd, 32 = q_tilde, 34 = bf_qtilde. *)
Definition c_aes_verify_256 : func := Func [1%positive; 2%positive; 3%positive; 4%positive; 5%positive; 6%positive; 7%positive; 8%positive] (
  (
  SSet 9 (ELoad 2 (EAt (EVar 8) 1 (EInt 16))) ;;
  SSet 10 (ELoad 2 (EAt (EVar 8) 1 (EInt 22))) ;;
  SSet 11 (ELoad 2 (EAt (EVar 8) 1 (EInt 18))) ;;
  SSet 12 (ELoad 2 (EAt (EVar 8) 1 (EInt 24))) ;;
  SSet 13 (ELoad 2 (EAt (EVar 8) 1 (EInt 20))) ;;
  SSet 14 (EVar 4) ;;
  SSet 15 (EInt 0) ;;
  SSet 16 (EInt 0) ;;
  SLoop (EBin OLt s32 (EVar 15) (EVar 9))
    (
    SSet 15 (EBin OAdd u32 (EVar 15) (EInt 1)))
    (
    SSet 17 (ECond (EBin OLt s32 (EVar 15) (EVar 10)) (EVar 11) (EVar 13)) ;;
    SAlloc 18 (EInt 12) ;;
    SCall None f_ChalDec [(EVar 4); (EVar 15); (EVar 11); (EVar 10); (EVar 13); (EVar 12); (EVar 18)] ;;
    SSet 20 (EInt 0) ;;
    SLoop (EBin OLt s32 (EVar 20) (EVar 17))
      (
      SSet 20 (EBin OAdd u32 (EVar 20) (EInt 1)) ;;
      SSet 16 (EBin OAdd u32 (EVar 16) (EInt 1)))
      (
      SIf (EBin OEq s32 (ELoad 1 (EAt (EVar 18) 1 (EVar 20))) (EInt 1))
        (
        SCall None f_xor_u8_array [(EVar 1); (ELoadP (EAt (EVar 2) 1 (EVar 16))); (ELoadP (EAt (EVar 2) 1 (EVar 16))); (EInt 500)])
        SSkip)) ;;
  SCall (Some 21%positive) f_column_to_row_major_and_shrink_V_256 [(EVar 2); (EInt 4000)] ;;
  SSet 22 (EVar 21) ;;
  SAlloc 23 (EInt 61440) ;;
  SSet 24 (EVar 23) ;;
  SAlloc 25 (EInt 5) ;;
  SAlloc 26 (EInt 32) ;;
  SStoreF (EVar 25) 5 0 (EVar 26) ;;
  SAlloc 27 (EInt 32) ;;
  SStoreF (EVar 25) 5 1 (EVar 27) ;;
  SAlloc 28 (EInt 32) ;;
  SStoreF (EVar 25) 5 2 (EVar 28) ;;
  SAlloc 29 (EInt 8) ;;
  SStoreF (EVar 25) 5 3 (EVar 29) ;;
  SAlloc 30 (EInt 1) ;;
  SStoreF (EVar 25) 5 4 (EVar 30) ;;
  SCall None f_zk_hash_256_init [(EVar 25); (EVar 3)] ;;
  SCall None f_aes_key_schedule_constraints_Mkey_1_256 [(EVar 22); (EVar 14); (EVar 25); (EVar 24)] ;;
  SCall None f_aes_enc_constraints_Mkey_1_256 [(EVar 6); (EVar 7); (EAt (EVar 22) 32 (EInt 672)); (EVar 24); (EVar 14); (EVar 25)]) ;;
  (
  SCall None f_aes_enc_constraints_Mkey_1_256 [(EAt (EVar 6) 1 (EInt 16)); (EAt (EVar 7) 1 (EInt 16)); (EAt (EAt (EVar 22) 32 (EInt 672)) 32 (EInt 1664)); (EVar 24); (EVar 14); (EVar 25)] ;;
  SEval (EVar 24) ;;
  SAlloc 31 (EInt 32) ;;
  SSet 32 (EVar 31) ;;
  SAlloc 33 (EInt 32) ;;
  SCall None f_bf256_sum_poly [(EVar 33); (EAt (EVar 22) 32 (EInt 4000))] ;;
  SCall None f_zk_hash_256_finalize [(EVar 32); (EVar 25); (EVar 33)] ;;
  SEval (EVar 22) ;;
  SAlloc 34 (EInt 32) ;;
  SCall None f_bf256_load [(EVar 34); (EVar 32)] ;;
  SAlloc 35 (EInt 32) ;;
  SCall None f_bf256_load [(EVar 35); (EVar 5)] ;;
  SAlloc 36 (EInt 32) ;;
  SCall None f_bf256_load [(EVar 36); (EVar 14)] ;;
  SAlloc 37 (EInt 32) ;;
  SCall None f_bf256_mul [(EVar 37); (EVar 35); (EVar 36)] ;;
  SAlloc 38 (EInt 32) ;;
  SSet 39 (EBin OXor u64 (ELoad 8 (EVar 34)) (ELoad 8 (EVar 37))) ;;
  SSet 40 (EBin OXor u64 (ELoad 8 (EAt (EVar 34) 1 (EInt 8))) (ELoad 8 (EAt (EVar 37) 1 (EInt 8)))) ;;
  SSet 41 (EBin OXor u64 (ELoad 8 (EAt (EVar 34) 1 (EInt 16))) (ELoad 8 (EAt (EVar 37) 1 (EInt 16)))) ;;
  SSet 42 (EBin OXor u64 (ELoad 8 (EAt (EVar 34) 1 (EInt 24))) (ELoad 8 (EAt (EVar 37) 1 (EInt 24)))) ;;
  SStore 8 (EVar 38) (EVar 39) ;;
  SStore 8 (EAt (EVar 38) 1 (EInt 8)) (EVar 40) ;;
  SStore 8 (EAt (EVar 38) 1 (EInt 16)) (EVar 41) ;;
  SStore 8 (EAt (EVar 38) 1 (EInt 24)) (EVar 42) ;;
  SCall None f_bf256_store [(EVar 32); (EVar 38)] ;;
  SReturn (EVar 32))).

(** faest_aes.c:1657-1699, em_enc_forward_128_1.
    Variables: 1 = z, 2 = x, 3 = bf_y, 4 = j, 10 = bf_two, 11 = bf_three, 12 = j, 13 = c, 14 = i, 15 = iy, 16 = bf_x_hat, 17 = bf_z_hat, 18 = r. *)
Definition c_em_enc_forward_128_1 : func := Func [1%positive; 2%positive; 3%positive] (
  SSet 4 (EInt 0) ;;
  SLoop (EBin OLt s32 (EVar 4) (EInt 16))
    (
    SSet 4 (EBin OAdd u32 (EVar 4) (EInt 1)))
    (
    SSet 5 (EAt (EVar 3) 16 (EVar 4)) ;;
    SAlloc 6 (EInt 16) ;;
    SCall None f_bf128_byte_combine_bits [(EVar 6); (ELoad 1 (EAt (EVar 1) 1 (EVar 4)))] ;;
    SAlloc 7 (EInt 16) ;;
    SCall None f_bf128_byte_combine_bits [(EVar 7); (ELoad 1 (EAt (EVar 2) 1 (EVar 4)))] ;;
    SSet 8 (EBin OXor u64 (ELoad 8 (EVar 6)) (ELoad 8 (EVar 7))) ;;
    SSet 9 (EBin OXor u64 (ELoad 8 (EAt (EVar 6) 1 (EInt 8))) (ELoad 8 (EAt (EVar 7) 1 (EInt 8)))) ;;
    SStore 8 (EVar 5) (EVar 8) ;;
    SStore 8 (EAt (EVar 5) 1 (EInt 8)) (EVar 9)) ;;
  SAlloc 10 (EInt 16) ;;
  SCall None f_bf128_byte_combine_bits [(EVar 10); (EInt 2)] ;;
  SAlloc 11 (EInt 16) ;;
  SCall None f_bf128_byte_combine_bits [(EVar 11); (EInt 3)] ;;
  SSet 12 (EInt 1) ;;
  SLoop (EBin OLt s32 (EVar 12) (EInt 10))
    (
    SSet 12 (EBin OAdd u32 (EVar 12) (EInt 1)))
    (
    SSet 13 (EInt 0) ;;
    SLoop (EBin OLt s32 (EVar 13) (EInt 4))
      (
      SSet 13 (EBin OAdd u32 (EVar 13) (EInt 1)))
      (
      (
      (
      SSet 14 (EBin OAdd u32 (EBin OMul u32 (EInt 128) (EVar 12)) (EBin OMul u32 (EInt 32) (EVar 13))) ;;
      SSet 15 (EBin OAdd u32 (EBin OMul u32 (EInt 16) (EVar 12)) (EBin OMul u32 (EInt 4) (EVar 13))) ;;
      SAlloc 16 (EInt 64) ;;
      SAlloc 17 (EInt 64) ;;
      SSet 18 (EInt 0) ;;
      SLoop (EBin OLe s32 (EVar 18) (EInt 3))
        (
        SSet 18 (EBin OAdd u32 (EVar 18) (EInt 1)))
        (
        SSet 19 (EAt (EVar 17) 16 (EVar 18)) ;;
        SAlloc 20 (EInt 16) ;;
        SCall None f_bf128_byte_combine_bits [(EVar 20); (ELoad 1 (EAt (EVar 1) 1 (EDiv ODiv u32 (EBin OAdd u32 (EVar 14) (EBin OMul u32 (EInt 8) (EVar 18))) (EInt 8))))] ;;
        SCopy (EVar 19) (EVar 20) (EInt 16) ;;
        SSet 21 (EAt (EVar 16) 16 (EVar 18)) ;;
        SAlloc 22 (EInt 16) ;;
        SCall None f_bf128_byte_combine_bits [(EVar 22); (ELoad 1 (EAt (EVar 2) 1 (EDiv ODiv u32 (EBin OAdd u32 (EVar 14) (EBin OMul u32 (EInt 8) (EVar 18))) (EInt 8))))] ;;
        SCopy (EVar 21) (EVar 22) (EInt 16)) ;;
      SSet 23 (EAt (EVar 3) 16 (EBin OAdd u32 (EVar 15) (EInt 0))) ;;
      SAlloc 24 (EInt 16) ;;
      SCall None f_bf128_mul [(EVar 24); (EVar 17); (EVar 10)] ;;
      SAlloc 25 (EInt 16) ;;
      SCall None f_bf128_mul [(EVar 25); (EAt (EVar 17) 16 (EInt 1)); (EVar 11)] ;;
      SSet 26 (EBin OXor u64 (ELoad 8 (EVar 24)) (ELoad 8 (EVar 25))) ;;
      SSet 27 (EBin OXor u64 (ELoad 8 (EAt (EVar 24) 1 (EInt 8))) (ELoad 8 (EAt (EVar 25) 1 (EInt 8)))) ;;
      SStore 8 (EVar 23) (EVar 26) ;;
      SStore 8 (EAt (EVar 23) 1 (EInt 8)) (EVar 27) ;;
      SSet 28 (EAt (EVar 3) 16 (EBin OAdd u32 (EVar 15) (EInt 0))) ;;
      SSet 29 (EAt (EVar 3) 16 (EBin OAdd u32 (EVar 15) (EInt 0))) ;;
      SSet 30 (EAt (EVar 17) 16 (EInt 2)) ;;
      SSet 31 (EBin OXor u64 (ELoad 8 (EVar 29)) (ELoad 8 (EVar 30))) ;;
      SSet 32 (EBin OXor u64 (ELoad 8 (EAt (EVar 29) 1 (EInt 8))) (ELoad 8 (EAt (EVar 30) 1 (EInt 8)))) ;;
      SStore 8 (EVar 28) (EVar 31) ;;
      SStore 8 (EAt (EVar 28) 1 (EInt 8)) (EVar 32) ;;
      SSet 33 (EAt (EVar 3) 16 (EBin OAdd u32 (EVar 15) (EInt 0))) ;;
      SSet 34 (EAt (EVar 3) 16 (EBin OAdd u32 (EVar 15) (EInt 0))) ;;
      SSet 35 (EAt (EVar 17) 16 (EInt 3)) ;;
      SSet 36 (EBin OXor u64 (ELoad 8 (EVar 34)) (ELoad 8 (EVar 35))) ;;
      SSet 37 (EBin OXor u64 (ELoad 8 (EAt (EVar 34) 1 (EInt 8))) (ELoad 8 (EAt (EVar 35) 1 (EInt 8)))) ;;
      SStore 8 (EVar 33) (EVar 36) ;;
      SStore 8 (EAt (EVar 33) 1 (EInt 8)) (EVar 37) ;;
      SSet 38 (EAt (EVar 3) 16 (EBin OAdd u32 (EVar 15) (EInt 0)))) ;;
      (
      SSet 39 (EAt (EVar 3) 16 (EBin OAdd u32 (EVar 15) (EInt 0))) ;;
      SSet 40 (EBin OXor u64 (ELoad 8 (EVar 39)) (ELoad 8 (EVar 16))) ;;
      SSet 41 (EBin OXor u64 (ELoad 8 (EAt (EVar 39) 1 (EInt 8))) (ELoad 8 (EAt (EVar 16) 1 (EInt 8)))) ;;
      SStore 8 (EVar 38) (EVar 40) ;;
      SStore 8 (EAt (EVar 38) 1 (EInt 8)) (EVar 41) ;;
      SSet 42 (EAt (EVar 3) 16 (EBin OAdd u32 (EVar 15) (EInt 1))) ;;
      SAlloc 43 (EInt 16) ;;
      SCall None f_bf128_mul [(EVar 43); (EAt (EVar 17) 16 (EInt 1)); (EVar 10)] ;;
      SSet 44 (EBin OXor u64 (ELoad 8 (EVar 17)) (ELoad 8 (EVar 43))) ;;
      SSet 45 (EBin OXor u64 (ELoad 8 (EAt (EVar 17) 1 (EInt 8))) (ELoad 8 (EAt (EVar 43) 1 (EInt 8)))) ;;
      SStore 8 (EVar 42) (EVar 44) ;;
      SStore 8 (EAt (EVar 42) 1 (EInt 8)) (EVar 45) ;;
      SSet 46 (EAt (EVar 3) 16 (EBin OAdd u32 (EVar 15) (EInt 1))) ;;
      SSet 47 (EAt (EVar 3) 16 (EBin OAdd u32 (EVar 15) (EInt 1))) ;;
      SAlloc 48 (EInt 16) ;;
      SCall None f_bf128_mul [(EVar 48); (EAt (EVar 17) 16 (EInt 2)); (EVar 11)] ;;
      SSet 49 (EBin OXor u64 (ELoad 8 (EVar 47)) (ELoad 8 (EVar 48))) ;;
      SSet 50 (EBin OXor u64 (ELoad 8 (EAt (EVar 47) 1 (EInt 8))) (ELoad 8 (EAt (EVar 48) 1 (EInt 8)))) ;;
      SStore 8 (EVar 46) (EVar 49) ;;
      SStore 8 (EAt (EVar 46) 1 (EInt 8)) (EVar 50) ;;
      SSet 51 (EAt (EVar 3) 16 (EBin OAdd u32 (EVar 15) (EInt 1))) ;;
      SSet 52 (EAt (EVar 3) 16 (EBin OAdd u32 (EVar 15) (EInt 1))) ;;
      SSet 53 (EAt (EVar 17) 16 (EInt 3)) ;;
      SSet 54 (EBin OXor u64 (ELoad 8 (EVar 52)) (ELoad 8 (EVar 53))) ;;
      SSet 55 (EBin OXor u64 (ELoad 8 (EAt (EVar 52) 1 (EInt 8))) (ELoad 8 (EAt (EVar 53) 1 (EInt 8)))) ;;
      SStore 8 (EVar 51) (EVar 54) ;;
      SStore 8 (EAt (EVar 51) 1 (EInt 8)) (EVar 55) ;;
      SSet 56 (EAt (EVar 3) 16 (EBin OAdd u32 (EVar 15) (EInt 1))) ;;
      SSet 57 (EAt (EVar 3) 16 (EBin OAdd u32 (EVar 15) (EInt 1))) ;;
      SSet 58 (EAt (EVar 16) 16 (EInt 1)) ;;
      SSet 59 (EBin OXor u64 (ELoad 8 (EVar 57)) (ELoad 8 (EVar 58))))) ;;
      (
      (
      SSet 60 (EBin OXor u64 (ELoad 8 (EAt (EVar 57) 1 (EInt 8))) (ELoad 8 (EAt (EVar 58) 1 (EInt 8)))) ;;
      SStore 8 (EVar 56) (EVar 59) ;;
      SStore 8 (EAt (EVar 56) 1 (EInt 8)) (EVar 60) ;;
      SSet 61 (EAt (EVar 3) 16 (EBin OAdd u32 (EVar 15) (EInt 2))) ;;
      SSet 62 (EAt (EVar 17) 16 (EInt 1)) ;;
      SSet 63 (EBin OXor u64 (ELoad 8 (EVar 17)) (ELoad 8 (EVar 62))) ;;
      SSet 64 (EBin OXor u64 (ELoad 8 (EAt (EVar 17) 1 (EInt 8))) (ELoad 8 (EAt (EVar 62) 1 (EInt 8)))) ;;
      SStore 8 (EVar 61) (EVar 63) ;;
      SStore 8 (EAt (EVar 61) 1 (EInt 8)) (EVar 64) ;;
      SSet 65 (EAt (EVar 3) 16 (EBin OAdd u32 (EVar 15) (EInt 2))) ;;
      SSet 66 (EAt (EVar 3) 16 (EBin OAdd u32 (EVar 15) (EInt 2))) ;;
      SAlloc 67 (EInt 16) ;;
      SCall None f_bf128_mul [(EVar 67); (EAt (EVar 17) 16 (EInt 2)); (EVar 10)] ;;
      SSet 68 (EBin OXor u64 (ELoad 8 (EVar 66)) (ELoad 8 (EVar 67))) ;;
      SSet 69 (EBin OXor u64 (ELoad 8 (EAt (EVar 66) 1 (EInt 8))) (ELoad 8 (EAt (EVar 67) 1 (EInt 8)))) ;;
      SStore 8 (EVar 65) (EVar 68) ;;
      SStore 8 (EAt (EVar 65) 1 (EInt 8)) (EVar 69) ;;
      SSet 70 (EAt (EVar 3) 16 (EBin OAdd u32 (EVar 15) (EInt 2))) ;;
      SSet 71 (EAt (EVar 3) 16 (EBin OAdd u32 (EVar 15) (EInt 2))) ;;
      SAlloc 72 (EInt 16) ;;
      SCall None f_bf128_mul [(EVar 72); (EAt (EVar 17) 16 (EInt 3)); (EVar 11)] ;;
      SSet 73 (EBin OXor u64 (ELoad 8 (EVar 71)) (ELoad 8 (EVar 72))) ;;
      SSet 74 (EBin OXor u64 (ELoad 8 (EAt (EVar 71) 1 (EInt 8))) (ELoad 8 (EAt (EVar 72) 1 (EInt 8)))) ;;
      SStore 8 (EVar 70) (EVar 73) ;;
      SStore 8 (EAt (EVar 70) 1 (EInt 8)) (EVar 74) ;;
      SSet 75 (EAt (EVar 3) 16 (EBin OAdd u32 (EVar 15) (EInt 2))) ;;
      SSet 76 (EAt (EVar 3) 16 (EBin OAdd u32 (EVar 15) (EInt 2))) ;;
      SSet 77 (EAt (EVar 16) 16 (EInt 2)) ;;
      SSet 78 (EBin OXor u64 (ELoad 8 (EVar 76)) (ELoad 8 (EVar 77))) ;;
      SSet 79 (EBin OXor u64 (ELoad 8 (EAt (EVar 76) 1 (EInt 8))) (ELoad 8 (EAt (EVar 77) 1 (EInt 8)))) ;;
      SStore 8 (EVar 75) (EVar 78)) ;;
      (
      SStore 8 (EAt (EVar 75) 1 (EInt 8)) (EVar 79) ;;
      SSet 80 (EAt (EVar 3) 16 (EBin OAdd u32 (EVar 15) (EInt 3))) ;;
      SAlloc 81 (EInt 16) ;;
      SCall None f_bf128_mul [(EVar 81); (EVar 17); (EVar 11)] ;;
      SSet 82 (EAt (EVar 17) 16 (EInt 1)) ;;
      SSet 83 (EBin OXor u64 (ELoad 8 (EVar 81)) (ELoad 8 (EVar 82))) ;;
      SSet 84 (EBin OXor u64 (ELoad 8 (EAt (EVar 81) 1 (EInt 8))) (ELoad 8 (EAt (EVar 82) 1 (EInt 8)))) ;;
      SStore 8 (EVar 80) (EVar 83) ;;
      SStore 8 (EAt (EVar 80) 1 (EInt 8)) (EVar 84) ;;
      SSet 85 (EAt (EVar 3) 16 (EBin OAdd u32 (EVar 15) (EInt 3))) ;;
      SSet 86 (EAt (EVar 3) 16 (EBin OAdd u32 (EVar 15) (EInt 3))) ;;
      SSet 87 (EAt (EVar 17) 16 (EInt 2)) ;;
      SSet 88 (EBin OXor u64 (ELoad 8 (EVar 86)) (ELoad 8 (EVar 87))) ;;
      SSet 89 (EBin OXor u64 (ELoad 8 (EAt (EVar 86) 1 (EInt 8))) (ELoad 8 (EAt (EVar 87) 1 (EInt 8)))) ;;
      SStore 8 (EVar 85) (EVar 88) ;;
      SStore 8 (EAt (EVar 85) 1 (EInt 8)) (EVar 89) ;;
      SSet 90 (EAt (EVar 3) 16 (EBin OAdd u32 (EVar 15) (EInt 3))) ;;
      SSet 91 (EAt (EVar 3) 16 (EBin OAdd u32 (EVar 15) (EInt 3))) ;;
      SAlloc 92 (EInt 16) ;;
      SCall None f_bf128_mul [(EVar 92); (EAt (EVar 17) 16 (EInt 3)); (EVar 10)] ;;
      SSet 93 (EBin OXor u64 (ELoad 8 (EVar 91)) (ELoad 8 (EVar 92))) ;;
      SSet 94 (EBin OXor u64 (ELoad 8 (EAt (EVar 91) 1 (EInt 8))) (ELoad 8 (EAt (EVar 92) 1 (EInt 8)))) ;;
      SStore 8 (EVar 90) (EVar 93) ;;
      SStore 8 (EAt (EVar 90) 1 (EInt 8)) (EVar 94) ;;
      SSet 95 (EAt (EVar 3) 16 (EBin OAdd u32 (EVar 15) (EInt 3))) ;;
      SSet 96 (EAt (EVar 3) 16 (EBin OAdd u32 (EVar 15) (EInt 3))) ;;
      SSet 97 (EAt (EVar 16) 16 (EInt 3)) ;;
      SSet 98 (EBin OXor u64 (ELoad 8 (EVar 96)) (ELoad 8 (EVar 97))) ;;
      SSet 99 (EBin OXor u64 (ELoad 8 (EAt (EVar 96) 1 (EInt 8))) (ELoad 8 (EAt (EVar 97) 1 (EInt 8)))) ;;
      SStore 8 (EVar 95) (EVar 98) ;;
      SStore 8 (EAt (EVar 95) 1 (EInt 8)) (EVar 99)))))).

(** faest_aes.c:1701-1751, em_enc_forward_128.
    Variables: 1 = bf_z, 2 = bf_x, 3 = bf_y, 4 = j, 12 = bf_two, 13 = bf_three, 14 = j, 15 = c, 16 = i, 17 = iy, 18 = bf_x_hat, 19 = bf_z_hat, 20 = r. *)
Definition c_em_enc_forward_128 : func := Func [1%positive; 2%positive; 3%positive] (
  SSet 4 (EInt 0) ;;
  SLoop (EBin OLt s32 (EVar 4) (EInt 16))
    (
    SSet 4 (EBin OAdd u32 (EVar 4) (EInt 1)))
    (
    SSet 5 (EAt (EVar 3) 16 (EVar 4)) ;;
    SAlloc 6 (EInt 16) ;;
    SCall None f_bf128_byte_combine [(EVar 6); (EAt (EVar 1) 16 (EBin OMul u32 (EInt 8) (EVar 4)))] ;;
    SCopy (EVar 5) (EVar 6) (EInt 16) ;;
    SIf (EBin OEq s32 (EIsNull (EVar 2)) (EInt 0))
      (
      SSet 7 (EAt (EVar 3) 16 (EVar 4)) ;;
      SSet 8 (EAt (EVar 3) 16 (EVar 4)) ;;
      SAlloc 9 (EInt 16) ;;
      SCall None f_bf128_byte_combine [(EVar 9); (EAt (EVar 2) 16 (EBin OMul u32 (EInt 8) (EVar 4)))] ;;
      SSet 10 (EBin OXor u64 (ELoad 8 (EVar 8)) (ELoad 8 (EVar 9))) ;;
      SSet 11 (EBin OXor u64 (ELoad 8 (EAt (EVar 8) 1 (EInt 8))) (ELoad 8 (EAt (EVar 9) 1 (EInt 8)))) ;;
      SStore 8 (EVar 7) (EVar 10) ;;
      SStore 8 (EAt (EVar 7) 1 (EInt 8)) (EVar 11))
      SSkip) ;;
  SAlloc 12 (EInt 16) ;;
  SCall None f_bf128_byte_combine_bits [(EVar 12); (EInt 2)] ;;
  SAlloc 13 (EInt 16) ;;
  SCall None f_bf128_byte_combine_bits [(EVar 13); (EInt 3)] ;;
  SSet 14 (EInt 1) ;;
  SLoop (EBin OLt s32 (EVar 14) (EInt 10))
    (
    SSet 14 (EBin OAdd u32 (EVar 14) (EInt 1)))
    (
    SSet 15 (EInt 0) ;;
    SLoop (EBin OLt s32 (EVar 15) (EInt 4))
      (
      SSet 15 (EBin OAdd u32 (EVar 15) (EInt 1)))
      (
      (
      (
      SSet 16 (EBin OAdd u32 (EBin OMul u32 (EInt 128) (EVar 14)) (EBin OMul u32 (EInt 32) (EVar 15))) ;;
      SSet 17 (EBin OAdd u32 (EBin OMul u32 (EInt 16) (EVar 14)) (EBin OMul u32 (EInt 4) (EVar 15))) ;;
      SAlloc 18 (EInt 64) ;;
      SAlloc 19 (EInt 64) ;;
      SSet 20 (EInt 0) ;;
      SLoop (EBin OLe s32 (EVar 20) (EInt 3))
        (
        SSet 20 (EBin OAdd u32 (EVar 20) (EInt 1)))
        (
        SSet 21 (EAt (EVar 19) 16 (EVar 20)) ;;
        SAlloc 22 (EInt 16) ;;
        SCall None f_bf128_byte_combine [(EVar 22); (EAt (EVar 1) 16 (EBin OAdd u32 (EVar 16) (EBin OMul u32 (EInt 8) (EVar 20))))] ;;
        SCopy (EVar 21) (EVar 22) (EInt 16) ;;
        SIf (EBin OEq s32 (EIsNull (EVar 2)) (EInt 0))
          (
          SSet 23 (EAt (EVar 18) 16 (EVar 20)) ;;
          SAlloc 24 (EInt 16) ;;
          SCall None f_bf128_byte_combine [(EVar 24); (EAt (EVar 2) 16 (EBin OAdd u32 (EVar 16) (EBin OMul u32 (EInt 8) (EVar 20))))] ;;
          SCopy (EVar 23) (EVar 24) (EInt 16))
          (
          SSet 25 (EAt (EVar 18) 16 (EVar 20)) ;;
          SAlloc 26 (EInt 16) ;;
          SCall None f_bf128_zero [(EVar 26)] ;;
          SCopy (EVar 25) (EVar 26) (EInt 16))) ;;
      SSet 27 (EAt (EVar 3) 16 (EBin OAdd u32 (EVar 17) (EInt 0))) ;;
      SAlloc 28 (EInt 16) ;;
      SCall None f_bf128_mul [(EVar 28); (EVar 19); (EVar 12)] ;;
      SAlloc 29 (EInt 16) ;;
      SCall None f_bf128_mul [(EVar 29); (EAt (EVar 19) 16 (EInt 1)); (EVar 13)] ;;
      SSet 30 (EBin OXor u64 (ELoad 8 (EVar 28)) (ELoad 8 (EVar 29))) ;;
      SSet 31 (EBin OXor u64 (ELoad 8 (EAt (EVar 28) 1 (EInt 8))) (ELoad 8 (EAt (EVar 29) 1 (EInt 8)))) ;;
      SStore 8 (EVar 27) (EVar 30) ;;
      SStore 8 (EAt (EVar 27) 1 (EInt 8)) (EVar 31) ;;
      SSet 32 (EAt (EVar 3) 16 (EBin OAdd u32 (EVar 17) (EInt 0))) ;;
      SSet 33 (EAt (EVar 3) 16 (EBin OAdd u32 (EVar 17) (EInt 0))) ;;
      SSet 34 (EAt (EVar 19) 16 (EInt 2)) ;;
      SSet 35 (EBin OXor u64 (ELoad 8 (EVar 33)) (ELoad 8 (EVar 34))) ;;
      SSet 36 (EBin OXor u64 (ELoad 8 (EAt (EVar 33) 1 (EInt 8))) (ELoad 8 (EAt (EVar 34) 1 (EInt 8)))) ;;
      SStore 8 (EVar 32) (EVar 35) ;;
      SStore 8 (EAt (EVar 32) 1 (EInt 8)) (EVar 36) ;;
      SSet 37 (EAt (EVar 3) 16 (EBin OAdd u32 (EVar 17) (EInt 0))) ;;
      SSet 38 (EAt (EVar 3) 16 (EBin OAdd u32 (EVar 17) (EInt 0))) ;;
      SSet 39 (EAt (EVar 19) 16 (EInt 3)) ;;
      SSet 40 (EBin OXor u64 (ELoad 8 (EVar 38)) (ELoad 8 (EVar 39))) ;;
      SSet 41 (EBin OXor u64 (ELoad 8 (EAt (EVar 38) 1 (EInt 8))) (ELoad 8 (EAt (EVar 39) 1 (EInt 8)))) ;;
      SStore 8 (EVar 37) (EVar 40) ;;
      SStore 8 (EAt (EVar 37) 1 (EInt 8)) (EVar 41) ;;
      SSet 42 (EAt (EVar 3) 16 (EBin OAdd u32 (EVar 17) (EInt 0)))) ;;
      (
      SSet 43 (EAt (EVar 3) 16 (EBin OAdd u32 (EVar 17) (EInt 0))) ;;
      SSet 44 (EBin OXor u64 (ELoad 8 (EVar 43)) (ELoad 8 (EVar 18))) ;;
      SSet 45 (EBin OXor u64 (ELoad 8 (EAt (EVar 43) 1 (EInt 8))) (ELoad 8 (EAt (EVar 18) 1 (EInt 8)))) ;;
      SStore 8 (EVar 42) (EVar 44) ;;
      SStore 8 (EAt (EVar 42) 1 (EInt 8)) (EVar 45) ;;
      SSet 46 (EAt (EVar 3) 16 (EBin OAdd u32 (EVar 17) (EInt 1))) ;;
      SAlloc 47 (EInt 16) ;;
      SCall None f_bf128_mul [(EVar 47); (EAt (EVar 19) 16 (EInt 1)); (EVar 12)] ;;
      SSet 48 (EBin OXor u64 (ELoad 8 (EVar 19)) (ELoad 8 (EVar 47))) ;;
      SSet 49 (EBin OXor u64 (ELoad 8 (EAt (EVar 19) 1 (EInt 8))) (ELoad 8 (EAt (EVar 47) 1 (EInt 8)))) ;;
      SStore 8 (EVar 46) (EVar 48) ;;
      SStore 8 (EAt (EVar 46) 1 (EInt 8)) (EVar 49) ;;
      SSet 50 (EAt (EVar 3) 16 (EBin OAdd u32 (EVar 17) (EInt 1))) ;;
      SSet 51 (EAt (EVar 3) 16 (EBin OAdd u32 (EVar 17) (EInt 1))) ;;
      SAlloc 52 (EInt 16) ;;
      SCall None f_bf128_mul [(EVar 52); (EAt (EVar 19) 16 (EInt 2)); (EVar 13)] ;;
      SSet 53 (EBin OXor u64 (ELoad 8 (EVar 51)) (ELoad 8 (EVar 52))) ;;
      SSet 54 (EBin OXor u64 (ELoad 8 (EAt (EVar 51) 1 (EInt 8))) (ELoad 8 (EAt (EVar 52) 1 (EInt 8)))) ;;
      SStore 8 (EVar 50) (EVar 53) ;;
      SStore 8 (EAt (EVar 50) 1 (EInt 8)) (EVar 54) ;;
      SSet 55 (EAt (EVar 3) 16 (EBin OAdd u32 (EVar 17) (EInt 1))) ;;
      SSet 56 (EAt (EVar 3) 16 (EBin OAdd u32 (EVar 17) (EInt 1))) ;;
      SSet 57 (EAt (EVar 19) 16 (EInt 3)) ;;
      SSet 58 (EBin OXor u64 (ELoad 8 (EVar 56)) (ELoad 8 (EVar 57))) ;;
      SSet 59 (EBin OXor u64 (ELoad 8 (EAt (EVar 56) 1 (EInt 8))) (ELoad 8 (EAt (EVar 57) 1 (EInt 8)))) ;;
      SStore 8 (EVar 55) (EVar 58) ;;
      SStore 8 (EAt (EVar 55) 1 (EInt 8)) (EVar 59) ;;
      SSet 60 (EAt (EVar 3) 16 (EBin OAdd u32 (EVar 17) (EInt 1))) ;;
      SSet 61 (EAt (EVar 3) 16 (EBin OAdd u32 (EVar 17) (EInt 1))) ;;
      SSet 62 (EAt (EVar 18) 16 (EInt 1)) ;;
      SSet 63 (EBin OXor u64 (ELoad 8 (EVar 61)) (ELoad 8 (EVar 62))))) ;;
      (
      (
      SSet 64 (EBin OXor u64 (ELoad 8 (EAt (EVar 61) 1 (EInt 8))) (ELoad 8 (EAt (EVar 62) 1 (EInt 8)))) ;;
      SStore 8 (EVar 60) (EVar 63) ;;
      SStore 8 (EAt (EVar 60) 1 (EInt 8)) (EVar 64) ;;
      SSet 65 (EAt (EVar 3) 16 (EBin OAdd u32 (EVar 17) (EInt 2))) ;;
      SSet 66 (EAt (EVar 19) 16 (EInt 1)) ;;
      SSet 67 (EBin OXor u64 (ELoad 8 (EVar 19)) (ELoad 8 (EVar 66))) ;;
      SSet 68 (EBin OXor u64 (ELoad 8 (EAt (EVar 19) 1 (EInt 8))) (ELoad 8 (EAt (EVar 66) 1 (EInt 8)))) ;;
      SStore 8 (EVar 65) (EVar 67) ;;
      SStore 8 (EAt (EVar 65) 1 (EInt 8)) (EVar 68) ;;
      SSet 69 (EAt (EVar 3) 16 (EBin OAdd u32 (EVar 17) (EInt 2))) ;;
      SSet 70 (EAt (EVar 3) 16 (EBin OAdd u32 (EVar 17) (EInt 2))) ;;
      SAlloc 71 (EInt 16) ;;
      SCall None f_bf128_mul [(EVar 71); (EAt (EVar 19) 16 (EInt 2)); (EVar 12)] ;;
      SSet 72 (EBin OXor u64 (ELoad 8 (EVar 70)) (ELoad 8 (EVar 71))) ;;
      SSet 73 (EBin OXor u64 (ELoad 8 (EAt (EVar 70) 1 (EInt 8))) (ELoad 8 (EAt (EVar 71) 1 (EInt 8)))) ;;
      SStore 8 (EVar 69) (EVar 72) ;;
      SStore 8 (EAt (EVar 69) 1 (EInt 8)) (EVar 73) ;;
      SSet 74 (EAt (EVar 3) 16 (EBin OAdd u32 (EVar 17) (EInt 2))) ;;
      SSet 75 (EAt (EVar 3) 16 (EBin OAdd u32 (EVar 17) (EInt 2))) ;;
      SAlloc 76 (EInt 16) ;;
      SCall None f_bf128_mul [(EVar 76); (EAt (EVar 19) 16 (EInt 3)); (EVar 13)] ;;
      SSet 77 (EBin OXor u64 (ELoad 8 (EVar 75)) (ELoad 8 (EVar 76))) ;;
      SSet 78 (EBin OXor u64 (ELoad 8 (EAt (EVar 75) 1 (EInt 8))) (ELoad 8 (EAt (EVar 76) 1 (EInt 8)))) ;;
      SStore 8 (EVar 74) (EVar 77) ;;
      SStore 8 (EAt (EVar 74) 1 (EInt 8)) (EVar 78) ;;
      SSet 79 (EAt (EVar 3) 16 (EBin OAdd u32 (EVar 17) (EInt 2))) ;;
      SSet 80 (EAt (EVar 3) 16 (EBin OAdd u32 (EVar 17) (EInt 2))) ;;
      SSet 81 (EAt (EVar 18) 16 (EInt 2)) ;;
      SSet 82 (EBin OXor u64 (ELoad 8 (EVar 80)) (ELoad 8 (EVar 81))) ;;
      SSet 83 (EBin OXor u64 (ELoad 8 (EAt (EVar 80) 1 (EInt 8))) (ELoad 8 (EAt (EVar 81) 1 (EInt 8)))) ;;
      SStore 8 (EVar 79) (EVar 82)) ;;
      (
      SStore 8 (EAt (EVar 79) 1 (EInt 8)) (EVar 83) ;;
      SSet 84 (EAt (EVar 3) 16 (EBin OAdd u32 (EVar 17) (EInt 3))) ;;
      SAlloc 85 (EInt 16) ;;
      SCall None f_bf128_mul [(EVar 85); (EVar 19); (EVar 13)] ;;
      SSet 86 (EAt (EVar 19) 16 (EInt 1)) ;;
      SSet 87 (EBin OXor u64 (ELoad 8 (EVar 85)) (ELoad 8 (EVar 86))) ;;
      SSet 88 (EBin OXor u64 (ELoad 8 (EAt (EVar 85) 1 (EInt 8))) (ELoad 8 (EAt (EVar 86) 1 (EInt 8)))) ;;
      SStore 8 (EVar 84) (EVar 87) ;;
      SStore 8 (EAt (EVar 84) 1 (EInt 8)) (EVar 88) ;;
      SSet 89 (EAt (EVar 3) 16 (EBin OAdd u32 (EVar 17) (EInt 3))) ;;
      SSet 90 (EAt (EVar 3) 16 (EBin OAdd u32 (EVar 17) (EInt 3))) ;;
      SSet 91 (EAt (EVar 19) 16 (EInt 2)) ;;
      SSet 92 (EBin OXor u64 (ELoad 8 (EVar 90)) (ELoad 8 (EVar 91))) ;;
      SSet 93 (EBin OXor u64 (ELoad 8 (EAt (EVar 90) 1 (EInt 8))) (ELoad 8 (EAt (EVar 91) 1 (EInt 8)))) ;;
      SStore 8 (EVar 89) (EVar 92) ;;
      SStore 8 (EAt (EVar 89) 1 (EInt 8)) (EVar 93) ;;
      SSet 94 (EAt (EVar 3) 16 (EBin OAdd u32 (EVar 17) (EInt 3))) ;;
      SSet 95 (EAt (EVar 3) 16 (EBin OAdd u32 (EVar 17) (EInt 3))) ;;
      SAlloc 96 (EInt 16) ;;
      SCall None f_bf128_mul [(EVar 96); (EAt (EVar 19) 16 (EInt 3)); (EVar 12)] ;;
      SSet 97 (EBin OXor u64 (ELoad 8 (EVar 95)) (ELoad 8 (EVar 96))) ;;
      SSet 98 (EBin OXor u64 (ELoad 8 (EAt (EVar 95) 1 (EInt 8))) (ELoad 8 (EAt (EVar 96) 1 (EInt 8)))) ;;
      SStore 8 (EVar 94) (EVar 97) ;;
      SStore 8 (EAt (EVar 94) 1 (EInt 8)) (EVar 98) ;;
      SSet 99 (EAt (EVar 3) 16 (EBin OAdd u32 (EVar 17) (EInt 3))) ;;
      SSet 100 (EAt (EVar 3) 16 (EBin OAdd u32 (EVar 17) (EInt 3))) ;;
      SSet 101 (EAt (EVar 18) 16 (EInt 3)) ;;
      SSet 102 (EBin OXor u64 (ELoad 8 (EVar 100)) (ELoad 8 (EVar 101))) ;;
      SSet 103 (EBin OXor u64 (ELoad 8 (EAt (EVar 100) 1 (EInt 8))) (ELoad 8 (EAt (EVar 101) 1 (EInt 8)))) ;;
      SStore 8 (EVar 99) (EVar 102) ;;
      SStore 8 (EAt (EVar 99) 1 (EInt 8)) (EVar 103)))))).

(** faest_aes.c:1753-1780, em_enc_backward_128_1.
    Variables: 1 = z, 2 = x, 3 = z_out, 4 = y_out, 5 = j, 6 = c, 7 = r, 8 = icol, 9 = ird, 10 = z_tilde, 14 = y_tilde. *)
Definition c_em_enc_backward_128_1 : func := Func [1%positive; 2%positive; 3%positive; 4%positive] (
  SSet 5 (EInt 0) ;;
  SLoop (EBin OLt s32 (EVar 5) (EInt 10))
    (
    SSet 5 (EBin OAdd u32 (EVar 5) (EInt 1)))
    (
    SSet 6 (EInt 0) ;;
    SLoop (EBin OLt s32 (EVar 6) (EInt 4))
      (
      SSet 6 (EBin OAdd u32 (EVar 6) (EInt 1)))
      (
      SSet 7 (EInt 0) ;;
      SLoop (EBin OLe s32 (EVar 7) (EInt 3))
        (
        SSet 7 (EBin OAdd u32 (EVar 7) (EInt 1)))
        (
        SSet 8 (EDiv OMod u32 (EBin OAdd u32 (EBin OSub u32 (EVar 6) (EVar 7)) (EInt 4)) (EInt 4)) ;;
        SSet 9 (EBin OAdd u32 (EBin OAdd u32 (EBin OAdd u32 (EInt 128) (EBin OMul u32 (EInt 128) (EVar 5))) (EBin OMul u32 (EInt 32) (EVar 8))) (EBin OMul u32 (EInt 8) (EVar 7))) ;;
        SSet 10 (EInt 0) ;;
        SIf (EBin OLt s32 (EVar 5) (EInt 9))
          (
          SSet 10 (ELoad 1 (EAt (EVar 1) 1 (EDiv ODiv u32 (EVar 9) (EInt 8)))))
          (
          SSet 10 (EUn OCast u8 (EBin OXor s32 (ELoad 1 (EAt (EVar 3) 1 (EDiv ODiv u32 (EBin OSub u32 (EVar 9) (EBin OMul u32 (EInt 128) (EBin OAdd u32 (EVar 5) (EInt 1)))) (EInt 8)))) (ELoad 1 (EAt (EVar 2) 1 (EDiv ODiv u32 (EVar 9) (EInt 8))))))) ;;
        SCall (Some 11%positive) f___rorb [(EVar 10); (EInt 7)] ;;
        SCall (Some 12%positive) f___rorb [(EVar 10); (EInt 5)] ;;
        SCall (Some 13%positive) f___rorb [(EVar 10); (EInt 2)] ;;
        SSet 14 (EUn OCast u8 (EBin OXor s32 (EBin OXor s32 (EBin OXor s32 (EVar 11) (EVar 12)) (EVar 13)) (EInt 5))) ;;
        SSet 15 (EAt (EVar 4) 16 (EBin OAdd u32 (EBin OAdd u32 (EBin OMul u32 (EInt 16) (EVar 5)) (EBin OMul u32 (EInt 4) (EVar 6))) (EVar 7))) ;;
        SAlloc 16 (EInt 16) ;;
        SCall None f_bf128_byte_combine_bits [(EVar 16); (EVar 14)] ;;
        SCopy (EVar 15) (EVar 16) (EInt 16))))).

(** faest_aes.c:1782-1822, em_enc_backward_128.
    Variables: 1 = bf_z, 2 = bf_x, 3 = bf_z_out, 4 = Mtag, 5 = Mkey, 6 = delta, 7 = y_out, 8 = bf_delta, 12 = factor, 18 = j, 19 = c, 20 = r, 21 = bf_z_tilde, 22 = icol, 23 = ird, 24 = i, 31 = bf_y_tilde, 32 = i. *)
Definition c_em_enc_backward_128 : func := Func [1%positive; 2%positive; 3%positive; 4%positive; 5%positive; 6%positive; 7%positive] (
  SAlloc 8 (EInt 16) ;;
  SIf (EBin OEq s32 (EIsNull (EVar 6)) (EInt 0))
    (
    SAlloc 9 (EInt 16) ;;
    SCall None f_bf128_load [(EVar 9); (EVar 6)] ;;
    SSet 11 (EVar 9))
    (
    SAlloc 10 (EInt 16) ;;
    SCall None f_bf128_zero [(EVar 10)] ;;
    SSet 11 (EVar 10)) ;;
  SCopy (EVar 8) (EVar 11) (EInt 16) ;;
  SAlloc 12 (EInt 16) ;;
  SSet 13 (EUn ONeg u64 (EBin OAnd u64 (EVar 5) (EInt 1))) ;;
  SAlloc 14 (EInt 16) ;;
  SCall None f_bf128_from_bit [(EVar 14); (EUn OCast u8 (EBin OXor s32 (EInt 1) (EVar 5)))] ;;
  SSet 15 (EUn ONeg u64 (EBin OAnd u64 (EUn OCast u64 (EBin OXor s32 (EInt 1) (EVar 4))) (EInt 1))) ;;
  SSet 16 (EBin OAnd u64 (EBin OXor u64 (EBin OAnd u64 (ELoad 8 (EVar 8)) (EVar 13)) (ELoad 8 (EVar 14))) (EVar 15)) ;;
  SSet 17 (EBin OAnd u64 (EBin OXor u64 (EBin OAnd u64 (ELoad 8 (EAt (EVar 8) 1 (EInt 8))) (EVar 13)) (ELoad 8 (EAt (EVar 14) 1 (EInt 8)))) (EVar 15)) ;;
  SStore 8 (EVar 12) (EVar 16) ;;
  SStore 8 (EAt (EVar 12) 1 (EInt 8)) (EVar 17) ;;
  SSet 18 (EInt 0) ;;
  SLoop (EBin OLt s32 (EVar 18) (EInt 10))
    (
    SSet 18 (EBin OAdd u32 (EVar 18) (EInt 1)))
    (
    SSet 19 (EInt 0) ;;
    SLoop (EBin OLt s32 (EVar 19) (EInt 4))
      (
      SSet 19 (EBin OAdd u32 (EVar 19) (EInt 1)))
      (
      SSet 20 (EInt 0) ;;
      SLoop (EBin OLe s32 (EVar 20) (EInt 3))
        (
        SSet 20 (EBin OAdd u32 (EVar 20) (EInt 1)))
        (
        SAlloc 21 (EInt 128) ;;
        SSet 22 (EDiv OMod u32 (EBin OAdd u32 (EBin OSub u32 (EVar 19) (EVar 20)) (EInt 4)) (EInt 4)) ;;
        SSet 23 (EBin OAdd u32 (EBin OAdd u32 (EBin OAdd u32 (EInt 128) (EBin OMul u32 (EInt 128) (EVar 18))) (EBin OMul u32 (EInt 32) (EVar 22))) (EBin OMul u32 (EInt 8) (EVar 20))) ;;
        SIf (EBin OLt s32 (EVar 18) (EInt 9))
          (
          SCopy (EVar 21) (EAt (EVar 1) 16 (EVar 23)) (EInt 128))
          (
          SSet 24 (EInt 0) ;;
          SLoop (EBin OLt s32 (EVar 24) (EInt 8))
            (
            SSet 24 (EBin OAdd u32 (EVar 24) (EInt 1)))
            (
            SSet 25 (EAt (EVar 21) 16 (EVar 24)) ;;
            SCopy (EVar 25) (EAt (EVar 3) 16 (EBin OAdd u32 (EBin OSub u32 (EVar 23) (EBin OMul u32 (EInt 128) (EBin OAdd u32 (EVar 18) (EInt 1)))) (EVar 24))) (EInt 16) ;;
            SIf (EBin OEq s32 (EIsNull (EVar 2)) (EInt 0))
              (
              SSet 26 (EAt (EVar 21) 16 (EVar 24)) ;;
              SSet 27 (EAt (EVar 21) 16 (EVar 24)) ;;
              SSet 28 (EAt (EVar 2) 16 (EBin OAdd u32 (EVar 23) (EVar 24))) ;;
              SSet 29 (EBin OXor u64 (ELoad 8 (EVar 27)) (ELoad 8 (EVar 28))) ;;
              SSet 30 (EBin OXor u64 (ELoad 8 (EAt (EVar 27) 1 (EInt 8))) (ELoad 8 (EAt (EVar 28) 1 (EInt 8)))) ;;
              SStore 8 (EVar 26) (EVar 29) ;;
              SStore 8 (EAt (EVar 26) 1 (EInt 8)) (EVar 30))
              SSkip)) ;;
        SAlloc 31 (EInt 128) ;;
        SSet 32 (EInt 0) ;;
        SLoop (EBin OLt s32 (EVar 32) (EInt 8))
          (
          SSet 32 (EBin OAdd u32 (EVar 32) (EInt 1)))
          (
          SSet 33 (EAt (EVar 31) 16 (EVar 32)) ;;
          SSet 34 (EAt (EVar 21) 16 (EDiv OMod u32 (EBin OAdd u32 (EVar 32) (EInt 7)) (EInt 8))) ;;
          SSet 35 (EAt (EVar 21) 16 (EDiv OMod u32 (EBin OAdd u32 (EVar 32) (EInt 5)) (EInt 8))) ;;
          SSet 36 (EAt (EVar 21) 16 (EDiv OMod u32 (EBin OAdd u32 (EVar 32) (EInt 2)) (EInt 8))) ;;
          SSet 37 (EBin OXor u64 (EBin OXor u64 (ELoad 8 (EVar 34)) (ELoad 8 (EVar 35))) (ELoad 8 (EVar 36))) ;;
          SSet 38 (EBin OXor u64 (EBin OXor u64 (ELoad 8 (EAt (EVar 34) 1 (EInt 8))) (ELoad 8 (EAt (EVar 35) 1 (EInt 8)))) (ELoad 8 (EAt (EVar 36) 1 (EInt 8)))) ;;
          SStore 8 (EVar 33) (EVar 37) ;;
          SStore 8 (EAt (EVar 33) 1 (EInt 8)) (EVar 38)) ;;
        SSet 39 (EBin OXor u64 (ELoad 8 (EVar 31)) (ELoad 8 (EVar 12))) ;;
        SSet 40 (EBin OXor u64 (ELoad 8 (EAt (EVar 31) 1 (EInt 8))) (ELoad 8 (EAt (EVar 12) 1 (EInt 8)))) ;;
        SStore 8 (EVar 31) (EVar 39) ;;
        SStore 8 (EAt (EVar 31) 1 (EInt 8)) (EVar 40) ;;
        SSet 41 (EAt (EVar 31) 16 (EInt 2)) ;;
        SSet 42 (EAt (EVar 31) 16 (EInt 2)) ;;
        SSet 43 (EBin OXor u64 (ELoad 8 (EVar 42)) (ELoad 8 (EVar 12))) ;;
        SSet 44 (EBin OXor u64 (ELoad 8 (EAt (EVar 42) 1 (EInt 8))) (ELoad 8 (EAt (EVar 12) 1 (EInt 8)))) ;;
        SStore 8 (EVar 41) (EVar 43) ;;
        SStore 8 (EAt (EVar 41) 1 (EInt 8)) (EVar 44) ;;
        SSet 45 (EAt (EVar 7) 16 (EBin OAdd u32 (EBin OAdd u32 (EBin OMul u32 (EInt 16) (EVar 18)) (EBin OMul u32 (EInt 4) (EVar 19))) (EVar 20))) ;;
        SAlloc 46 (EInt 16) ;;
        SCall None f_bf128_byte_combine [(EVar 46); (EVar 31)] ;;
        SCopy (EVar 45) (EVar 46) (EInt 16))))).

(** faest_aes.c:1824-1849, em_enc_constraints_Mkey_0_128.
    Variables: 1 = out, 2 = x, 3 = w, 4 = bf_v, 5 = a0_ctx, 6 = a1_ctx, 7 = w_out, 8 = bf_s, 9 = bf_vs, 10 = bf_s_dash, 11 = bf_vs_dash, 12 = j, 13 = tmp. *)
Definition c_em_enc_constraints_Mkey_0_128 : func := Func [1%positive; 2%positive; 3%positive; 4%positive; 5%positive; 6%positive] (
  SAlloc 7 (EInt 16) ;;
  SCall None f_xor_u8_array [(EVar 1); (EVar 3); (EVar 7); (EInt 16)] ;;
  SAlloc 8 (EInt 2560) ;;
  SAlloc 9 (EInt 2560) ;;
  SAlloc 10 (EInt 2560) ;;
  SAlloc 11 (EInt 2560) ;;
  SCall None f_em_enc_forward_128_1 [(EVar 3); (EVar 2); (EVar 8)] ;;
  SCall None f_em_enc_forward_128 [(EVar 4); ENull; (EVar 9)] ;;
  SCall None f_em_enc_backward_128_1 [(EVar 3); (EVar 2); (EVar 7); (EVar 10)] ;;
  SCall None f_em_enc_backward_128 [(EVar 4); ENull; (EVar 4); (EInt 1); (EInt 0); ENull; (EVar 11)] ;;
  SSet 12 (EInt 0) ;;
  SLoop (EBin OLt s32 (EVar 12) (EInt 160))
    (
    SSet 12 (EBin OAdd u32 (EVar 12) (EInt 1)))
    (
    SAlloc 13 (EInt 16) ;;
    SCall None f_bf128_mul [(EVar 13); (EAt (EVar 9) 16 (EVar 12)); (EAt (EVar 11) 16 (EVar 12))] ;;
    SCall None f_zk_hash_128_update [(EVar 5); (EVar 13)] ;;
    SSet 14 (EAt (EVar 8) 16 (EVar 12)) ;;
    SSet 15 (EAt (EVar 9) 16 (EVar 12)) ;;
    SAlloc 16 (EInt 16) ;;
    SSet 17 (EBin OXor u64 (ELoad 8 (EVar 14)) (ELoad 8 (EVar 15))) ;;
    SSet 18 (EBin OXor u64 (ELoad 8 (EAt (EVar 14) 1 (EInt 8))) (ELoad 8 (EAt (EVar 15) 1 (EInt 8)))) ;;
    SStore 8 (EVar 16) (EVar 17) ;;
    SStore 8 (EAt (EVar 16) 1 (EInt 8)) (EVar 18) ;;
    SSet 19 (EAt (EVar 10) 16 (EVar 12)) ;;
    SSet 20 (EAt (EVar 11) 16 (EVar 12)) ;;
    SAlloc 21 (EInt 16) ;;
    SSet 22 (EBin OXor u64 (ELoad 8 (EVar 19)) (ELoad 8 (EVar 20))) ;;
    SSet 23 (EBin OXor u64 (ELoad 8 (EAt (EVar 19) 1 (EInt 8))) (ELoad 8 (EAt (EVar 20) 1 (EInt 8)))) ;;
    SStore 8 (EVar 21) (EVar 22) ;;
    SStore 8 (EAt (EVar 21) 1 (EInt 8)) (EVar 23) ;;
    SAlloc 24 (EInt 16) ;;
    SCall None f_bf128_mul [(EVar 24); (EVar 16); (EVar 21)] ;;
    SAlloc 25 (EInt 16) ;;
    SCall None f_bf128_one [(EVar 25)] ;;
    SAlloc 26 (EInt 16) ;;
    SSet 27 (EBin OXor u64 (EBin OXor u64 (ELoad 8 (EVar 24)) (ELoad 8 (EVar 13))) (ELoad 8 (EVar 25))) ;;
    SSet 28 (EBin OXor u64 (EBin OXor u64 (ELoad 8 (EAt (EVar 24) 1 (EInt 8))) (ELoad 8 (EAt (EVar 13) 1 (EInt 8)))) (ELoad 8 (EAt (EVar 25) 1 (EInt 8)))) ;;
    SStore 8 (EVar 26) (EVar 27) ;;
    SStore 8 (EAt (EVar 26) 1 (EInt 8)) (EVar 28) ;;
    SCall None f_zk_hash_128_update [(EVar 6); (EVar 26)])).

(** faest_aes.c:1851-1879, em_enc_constraints_Mkey_1_128.
    Variables: 1 = out, 2 = x, 3 = bf_q, 4 = delta, 5 = b0_ctx, 6 = bf_delta, 8 = bf_x, 9 = i, 15 = bf_q_out, 16 = i, 22 = bf_qs, 23 = bf_qs_dash, 24 = minus_part, 25 = j. *)
Definition c_em_enc_constraints_Mkey_1_128 : func := Func [1%positive; 2%positive; 3%positive; 4%positive; 5%positive] (
  SAlloc 6 (EInt 16) ;;
  SCall None f_bf128_load [(EVar 6); (EVar 4)] ;;
  SAlloc 7 (EInt 22528) ;;
  SSet 8 (EVar 7) ;;
  SSet 9 (EInt 0) ;;
  SLoop (EBin OLt s32 (EVar 9) (EInt 1408))
    (
    SSet 9 (EBin OAdd u32 (EVar 9) (EInt 1)))
    (
    SSet 10 (EAt (EVar 8) 16 (EVar 9)) ;;
    SSet 11 (EUn ONeg u64 (EBin OAnd u64 (EUn OCast u64 (EBin OAnd s32 (EBin OShr s32 (ELoad 1 (EAt (EVar 2) 1 (EDiv ODiv u32 (EVar 9) (EInt 8)))) (EDiv OMod u32 (EVar 9) (EInt 8))) (EInt 1))) (EInt 1))) ;;
    SSet 12 (EBin OAnd u64 (ELoad 8 (EVar 6)) (EVar 11)) ;;
    SSet 13 (EBin OAnd u64 (ELoad 8 (EAt (EVar 6) 1 (EInt 8))) (EVar 11)) ;;
    SStore 8 (EVar 10) (EVar 12) ;;
    SStore 8 (EAt (EVar 10) 1 (EInt 8)) (EVar 13)) ;;
  SAlloc 14 (EInt 2048) ;;
  SSet 15 (EVar 14) ;;
  SSet 16 (EInt 0) ;;
  SLoop (EBin OLt s32 (EVar 16) (EInt 128))
    (
    SSet 16 (EBin OAdd u32 (EVar 16) (EInt 1)))
    (
    SSet 17 (EAt (EVar 15) 16 (EVar 16)) ;;
    SSet 18 (EUn ONeg u64 (EBin OAnd u64 (EUn OCast u64 (EBin OAnd s32 (EBin OShr s32 (ELoad 1 (EAt (EVar 1) 1 (EDiv ODiv u32 (EVar 16) (EInt 8)))) (EDiv OMod u32 (EVar 16) (EInt 8))) (EInt 1))) (EInt 1))) ;;
    SSet 19 (EAt (EVar 3) 16 (EVar 16)) ;;
    SSet 20 (EBin OXor u64 (EBin OAnd u64 (ELoad 8 (EVar 6)) (EVar 18)) (ELoad 8 (EVar 19))) ;;
    SSet 21 (EBin OXor u64 (EBin OAnd u64 (ELoad 8 (EAt (EVar 6) 1 (EInt 8))) (EVar 18)) (ELoad 8 (EAt (EVar 19) 1 (EInt 8)))) ;;
    SStore 8 (EVar 17) (EVar 20) ;;
    SStore 8 (EAt (EVar 17) 1 (EInt 8)) (EVar 21)) ;;
  SAlloc 22 (EInt 2560) ;;
  SAlloc 23 (EInt 2560) ;;
  SCall None f_em_enc_forward_128 [(EVar 3); (EVar 8); (EVar 22)] ;;
  SCall None f_em_enc_backward_128 [(EVar 3); (EVar 8); (EVar 15); (EInt 0); (EInt 1); (EVar 4); (EVar 23)] ;;
  SEval (EVar 15) ;;
  SEval (EVar 8) ;;
  SAlloc 24 (EInt 16) ;;
  SCall None f_bf128_mul [(EVar 24); (EVar 6); (EVar 6)] ;;
  SSet 25 (EInt 0) ;;
  SLoop (EBin OLt s32 (EVar 25) (EInt 160))
    (
    SSet 25 (EBin OAdd u32 (EVar 25) (EInt 1)))
    (
    SAlloc 26 (EInt 16) ;;
    SCall None f_bf128_mul [(EVar 26); (EAt (EVar 22) 16 (EVar 25)); (EAt (EVar 23) 16 (EVar 25))] ;;
    SAlloc 27 (EInt 16) ;;
    SSet 28 (EBin OXor u64 (ELoad 8 (EVar 26)) (ELoad 8 (EVar 24))) ;;
    SSet 29 (EBin OXor u64 (ELoad 8 (EAt (EVar 26) 1 (EInt 8))) (ELoad 8 (EAt (EVar 24) 1 (EInt 8)))) ;;
    SStore 8 (EVar 27) (EVar 28) ;;
    SStore 8 (EAt (EVar 27) 1 (EInt 8)) (EVar 29) ;;
    SCall None f_zk_hash_128_update [(EVar 5); (EVar 27)])).

(** faest_aes.c:1881-1910, em_prove_128.
    Variables: 1 = w, 2 = u, 3 = V, 4 = in, 5 = out, 6 = chall, 7 = a_tilde, 8 = b_tilde, 9 = x, 10 = round_keys, 12 = tmp_x, 13 = r, 14 = i, 16 = bf_v, 17 = a0_ctx, 18 = h0, 19 = h1, 20 = s, 21 = t, 22 = sd, 23 = a1_ctx, 24 = h0, 25 = h1, 26 = s, 27 = t, 28 = sd. *)
Definition c_em_prove_128 : func := Func [1%positive; 2%positive; 3%positive; 4%positive; 5%positive; 6%positive; 7%positive; 8%positive] (
  SAlloc 9 (EInt 1408) ;;
  SAlloc 10 (EInt 480) ;;
  SCall None f_aes128_init_round_keys [(EVar 10); (EVar 4)] ;;
  SSet 12 (EVar 9) ;;
  SSet 13 (EInt 0) ;;
  SLoop (EBin ONe s32 (EVar 13) (EInt 11))
    (
    SSet 13 (EBin OAdd u32 (EVar 13) (EInt 1)))
    (
    SSet 14 (EInt 0) ;;
    SLoop (EBin ONe s32 (EVar 14) (EInt 4))
      (
      SSet 14 (EBin OAdd u32 (EVar 14) (EInt 1)))
      (
      SCopy (EVar 12) (EAt (EAt (EVar 10) 32 (EVar 13)) 4 (EVar 14)) (EInt 4) ;;
      SSet 12 (EAt (EVar 12) 1 (EInt 4)))) ;;
  SCall (Some 15%positive) f_column_to_row_major_and_shrink_V_128 [(EVar 3); (EInt 1280)] ;;
  SSet 16 (EVar 15) ;;
  SAlloc 17 (EInt 5) ;;
  SAlloc 18 (EInt 16) ;;
  SStoreF (EVar 17) 5 0 (EVar 18) ;;
  SAlloc 19 (EInt 16) ;;
  SStoreF (EVar 17) 5 1 (EVar 19) ;;
  SAlloc 20 (EInt 16) ;;
  SStoreF (EVar 17) 5 2 (EVar 20) ;;
  SAlloc 21 (EInt 8) ;;
  SStoreF (EVar 17) 5 3 (EVar 21) ;;
  SAlloc 22 (EInt 1) ;;
  SStoreF (EVar 17) 5 4 (EVar 22) ;;
  SAlloc 23 (EInt 5) ;;
  SAlloc 24 (EInt 16) ;;
  SStoreF (EVar 23) 5 0 (EVar 24) ;;
  SAlloc 25 (EInt 16) ;;
  SStoreF (EVar 23) 5 1 (EVar 25) ;;
  SAlloc 26 (EInt 16) ;;
  SStoreF (EVar 23) 5 2 (EVar 26) ;;
  SAlloc 27 (EInt 8) ;;
  SStoreF (EVar 23) 5 3 (EVar 27) ;;
  SAlloc 28 (EInt 1) ;;
  SStoreF (EVar 23) 5 4 (EVar 28) ;;
  SCall None f_zk_hash_128_init [(EVar 17); (EVar 6)] ;;
  SCall None f_zk_hash_128_init [(EVar 23); (EVar 6)] ;;
  SCall None f_em_enc_constraints_Mkey_0_128 [(EVar 5); (EVar 9); (EVar 1); (EVar 16); (EVar 17); (EVar 23)] ;;
  SAlloc 29 (EInt 16) ;;
  SCall None f_bf128_load [(EVar 29); (EAt (EVar 2) 1 (EInt 160))] ;;
  SCall None f_zk_hash_128_finalize [(EVar 7); (EVar 23); (EVar 29)] ;;
  SAlloc 30 (EInt 16) ;;
  SCall None f_bf128_sum_poly [(EVar 30); (EAt (EVar 16) 16 (EInt 1280))] ;;
  SCall None f_zk_hash_128_finalize [(EVar 8); (EVar 17); (EVar 30)] ;;
  SEval (EVar 16)).

(** faest_aes.c:1912-1962, em_verify_128.
    Variables: 1 = d, 2 = Q, 3 = chall_2, 4 = chall_3, 5 = a_tilde, 6 = in, 7 = out, 8 = params, 9 = tau, 10 = t0, 11 = k0, 12 = t1, 13 = k1, 14 = delta, 15 = i, 16 = col, 17 = depth, 18 = decoded_challenge, 20 = j, 22 = bf_q, 23 = x, 24 = round_keys, 26 = tmp_x, 27 = r, 28 = i, 29 = b0_ctx, 30 = h0, 31 = h1, 32 = s, 33 = t, 34 = sd, 36 = q_tilde, 38 = bf_qtilde. *)
Definition c_em_verify_128 : func := Func [1%positive; 2%positive; 3%positive; 4%positive; 5%positive; 6%positive; 7%positive; 8%positive] (
  (
  SSet 9 (ELoad 2 (EAt (EVar 8) 1 (EInt 16))) ;;
  SSet 10 (ELoad 2 (EAt (EVar 8) 1 (EInt 22))) ;;
  SSet 11 (ELoad 2 (EAt (EVar 8) 1 (EInt 18))) ;;
  SSet 12 (ELoad 2 (EAt (EVar 8) 1 (EInt 24))) ;;
  SSet 13 (ELoad 2 (EAt (EVar 8) 1 (EInt 20))) ;;
  SSet 14 (EVar 4) ;;
  SSet 15 (EInt 0) ;;
  SSet 16 (EInt 0) ;;
  SLoop (EBin OLt s32 (EVar 15) (EVar 9))
    (
    SSet 15 (EBin OAdd u32 (EVar 15) (EInt 1)))
    (
    SSet 17 (ECond (EBin OLt s32 (EVar 15) (EVar 10)) (EVar 11) (EVar 13)) ;;
    SAlloc 18 (EInt 12) ;;
    SCall None f_ChalDec [(EVar 4); (EVar 15); (EVar 11); (EVar 10); (EVar 13); (EVar 12); (EVar 18)] ;;
    SSet 20 (EInt 0) ;;
    SLoop (EBin OLt s32 (EVar 20) (EVar 17))
      (
      SSet 20 (EBin OAdd u32 (EVar 20) (EInt 1)) ;;
      SSet 16 (EBin OAdd u32 (EVar 16) (EInt 1)))
      (
      SIf (EBin OEq s32 (ELoad 1 (EAt (EVar 18) 1 (EVar 20))) (EInt 1))
        (
        SCall None f_xor_u8_array [(EVar 1); (ELoadP (EAt (EVar 2) 1 (EVar 16))); (ELoadP (EAt (EVar 2) 1 (EVar 16))); (EInt 160)])
        SSkip)) ;;
  SCall (Some 21%positive) f_column_to_row_major_and_shrink_V_128 [(EVar 2); (EInt 1280)] ;;
  SSet 22 (EVar 21) ;;
  SAlloc 23 (EInt 176) ;;
  SAlloc 24 (EInt 480) ;;
  SCall None f_aes128_init_round_keys [(EVar 24); (EVar 6)] ;;
  SSet 26 (EVar 23) ;;
  SSet 27 (EInt 0) ;;
  SLoop (EBin ONe s32 (EVar 27) (EInt 11))
    (
    SSet 27 (EBin OAdd u32 (EVar 27) (EInt 1)))
    (
    SSet 28 (EInt 0) ;;
    SLoop (EBin ONe s32 (EVar 28) (EInt 4))
      (
      SSet 28 (EBin OAdd u32 (EVar 28) (EInt 1)))
      (
      SCopy (EVar 26) (EAt (EAt (EVar 24) 32 (EVar 27)) 4 (EVar 28)) (EInt 4) ;;
      SSet 26 (EAt (EVar 26) 1 (EInt 4)))) ;;
  SAlloc 29 (EInt 5) ;;
  SAlloc 30 (EInt 16) ;;
  SStoreF (EVar 29) 5 0 (EVar 30) ;;
  SAlloc 31 (EInt 16) ;;
  SStoreF (EVar 29) 5 1 (EVar 31) ;;
  SAlloc 32 (EInt 16) ;;
  SStoreF (EVar 29) 5 2 (EVar 32) ;;
  SAlloc 33 (EInt 8)) ;;
  (
  SStoreF (EVar 29) 5 3 (EVar 33) ;;
  SAlloc 34 (EInt 1) ;;
  SStoreF (EVar 29) 5 4 (EVar 34) ;;
  SCall None f_zk_hash_128_init [(EVar 29); (EVar 3)] ;;
  SCall None f_em_enc_constraints_Mkey_1_128 [(EVar 7); (EVar 23); (EVar 22); (EVar 14); (EVar 29)] ;;
  SAlloc 35 (EInt 16) ;;
  SSet 36 (EVar 35) ;;
  SAlloc 37 (EInt 16) ;;
  SCall None f_bf128_sum_poly [(EVar 37); (EAt (EVar 22) 16 (EInt 1280))] ;;
  SCall None f_zk_hash_128_finalize [(EVar 36); (EVar 29); (EVar 37)] ;;
  SEval (EVar 22) ;;
  SAlloc 38 (EInt 16) ;;
  SCall None f_bf128_load [(EVar 38); (EVar 36)] ;;
  SAlloc 39 (EInt 16) ;;
  SCall None f_bf128_load [(EVar 39); (EVar 5)] ;;
  SAlloc 40 (EInt 16) ;;
  SCall None f_bf128_load [(EVar 40); (EVar 14)] ;;
  SAlloc 41 (EInt 16) ;;
  SCall None f_bf128_mul [(EVar 41); (EVar 39); (EVar 40)] ;;
  SAlloc 42 (EInt 16) ;;
  SSet 43 (EBin OXor u64 (ELoad 8 (EVar 38)) (ELoad 8 (EVar 41))) ;;
  SSet 44 (EBin OXor u64 (ELoad 8 (EAt (EVar 38) 1 (EInt 8))) (ELoad 8 (EAt (EVar 41) 1 (EInt 8)))) ;;
  SStore 8 (EVar 42) (EVar 43) ;;
  SStore 8 (EAt (EVar 42) 1 (EInt 8)) (EVar 44) ;;
  SCall None f_bf128_store [(EVar 36); (EVar 42)] ;;
  SReturn (EVar 36))).

(** faest_aes.c:1966-2009, em_enc_forward_192_1.
    Variables: 1 = z, 2 = x, 3 = bf_y, 4 = j, 12 = bf_two, 13 = bf_three, 14 = j, 15 = c, 16 = i, 17 = iy, 18 = bf_x_hat, 19 = bf_z_hat, 20 = r. *)
Definition c_em_enc_forward_192_1 : func := Func [1%positive; 2%positive; 3%positive] (
  SSet 4 (EInt 0) ;;
  SLoop (EBin OLt s32 (EVar 4) (EInt 24))
    (
    SSet 4 (EBin OAdd u32 (EVar 4) (EInt 1)))
    (
    SSet 5 (EAt (EVar 3) 32 (EVar 4)) ;;
    SAlloc 6 (EInt 32) ;;
    SCall None f_bf192_byte_combine_bits [(EVar 6); (ELoad 1 (EAt (EVar 1) 1 (EVar 4)))] ;;
    SAlloc 7 (EInt 32) ;;
    SCall None f_bf192_byte_combine_bits [(EVar 7); (ELoad 1 (EAt (EVar 2) 1 (EVar 4)))] ;;
    SSet 8 (EBin OXor u64 (ELoad 8 (EVar 6)) (ELoad 8 (EVar 7))) ;;
    SSet 9 (EBin OXor u64 (ELoad 8 (EAt (EVar 6) 1 (EInt 8))) (ELoad 8 (EAt (EVar 7) 1 (EInt 8)))) ;;
    SSet 10 (EBin OXor u64 (ELoad 8 (EAt (EVar 6) 1 (EInt 16))) (ELoad 8 (EAt (EVar 7) 1 (EInt 16)))) ;;
    SSet 11 (EBin OXor u64 (ELoad 8 (EAt (EVar 6) 1 (EInt 24))) (ELoad 8 (EAt (EVar 7) 1 (EInt 24)))) ;;
    SStore 8 (EVar 5) (EVar 8) ;;
    SStore 8 (EAt (EVar 5) 1 (EInt 8)) (EVar 9) ;;
    SStore 8 (EAt (EVar 5) 1 (EInt 16)) (EVar 10) ;;
    SStore 8 (EAt (EVar 5) 1 (EInt 24)) (EVar 11)) ;;
  SAlloc 12 (EInt 32) ;;
  SCall None f_bf192_byte_combine_bits [(EVar 12); (EInt 2)] ;;
  SAlloc 13 (EInt 32) ;;
  SCall None f_bf192_byte_combine_bits [(EVar 13); (EInt 3)] ;;
  SSet 14 (EInt 1) ;;
  SLoop (EBin OLt s32 (EVar 14) (EInt 12))
    (
    SSet 14 (EBin OAdd u32 (EVar 14) (EInt 1)))
    (
    SSet 15 (EInt 0) ;;
    SLoop (EBin OLt s32 (EVar 15) (EInt 6))
      (
      SSet 15 (EBin OAdd u32 (EVar 15) (EInt 1)))
      (
      (
      (
      (
      SSet 16 (EBin OAdd u32 (EBin OMul u32 (EInt 192) (EVar 14)) (EBin OMul u32 (EInt 32) (EVar 15))) ;;
      SSet 17 (EBin OAdd u32 (EBin OMul u32 (EInt 24) (EVar 14)) (EBin OMul u32 (EInt 4) (EVar 15))) ;;
      SAlloc 18 (EInt 128) ;;
      SAlloc 19 (EInt 128) ;;
      SSet 20 (EInt 0) ;;
      SLoop (EBin OLe s32 (EVar 20) (EInt 3))
        (
        SSet 20 (EBin OAdd u32 (EVar 20) (EInt 1)))
        (
        SSet 21 (EAt (EVar 19) 32 (EVar 20)) ;;
        SAlloc 22 (EInt 32) ;;
        SCall None f_bf192_byte_combine_bits [(EVar 22); (ELoad 1 (EAt (EVar 1) 1 (EDiv ODiv u32 (EBin OAdd u32 (EVar 16) (EBin OMul u32 (EInt 8) (EVar 20))) (EInt 8))))] ;;
        SCopy (EVar 21) (EVar 22) (EInt 32) ;;
        SSet 23 (EAt (EVar 18) 32 (EVar 20)) ;;
        SAlloc 24 (EInt 32) ;;
        SCall None f_bf192_byte_combine_bits [(EVar 24); (ELoad 1 (EAt (EVar 2) 1 (EDiv ODiv u32 (EBin OAdd u32 (EVar 16) (EBin OMul u32 (EInt 8) (EVar 20))) (EInt 8))))] ;;
        SCopy (EVar 23) (EVar 24) (EInt 32)) ;;
      SSet 25 (EAt (EVar 3) 32 (EBin OAdd u32 (EVar 17) (EInt 0))) ;;
      SAlloc 26 (EInt 32) ;;
      SCall None f_bf192_mul [(EVar 26); (EVar 19); (EVar 12)] ;;
      SAlloc 27 (EInt 32) ;;
      SCall None f_bf192_mul [(EVar 27); (EAt (EVar 19) 32 (EInt 1)); (EVar 13)] ;;
      SSet 28 (EBin OXor u64 (ELoad 8 (EVar 26)) (ELoad 8 (EVar 27))) ;;
      SSet 29 (EBin OXor u64 (ELoad 8 (EAt (EVar 26) 1 (EInt 8))) (ELoad 8 (EAt (EVar 27) 1 (EInt 8)))) ;;
      SSet 30 (EBin OXor u64 (ELoad 8 (EAt (EVar 26) 1 (EInt 16))) (ELoad 8 (EAt (EVar 27) 1 (EInt 16)))) ;;
      SSet 31 (EBin OXor u64 (ELoad 8 (EAt (EVar 26) 1 (EInt 24))) (ELoad 8 (EAt (EVar 27) 1 (EInt 24)))) ;;
      SStore 8 (EVar 25) (EVar 28) ;;
      SStore 8 (EAt (EVar 25) 1 (EInt 8)) (EVar 29) ;;
      SStore 8 (EAt (EVar 25) 1 (EInt 16)) (EVar 30) ;;
      SStore 8 (EAt (EVar 25) 1 (EInt 24)) (EVar 31) ;;
      SSet 32 (EAt (EVar 3) 32 (EBin OAdd u32 (EVar 17) (EInt 0))) ;;
      SSet 33 (EAt (EVar 3) 32 (EBin OAdd u32 (EVar 17) (EInt 0))) ;;
      SSet 34 (EAt (EVar 19) 32 (EInt 2)) ;;
      SSet 35 (EBin OXor u64 (ELoad 8 (EVar 33)) (ELoad 8 (EVar 34)))) ;;
      (
      SSet 36 (EBin OXor u64 (ELoad 8 (EAt (EVar 33) 1 (EInt 8))) (ELoad 8 (EAt (EVar 34) 1 (EInt 8)))) ;;
      SSet 37 (EBin OXor u64 (ELoad 8 (EAt (EVar 33) 1 (EInt 16))) (ELoad 8 (EAt (EVar 34) 1 (EInt 16)))) ;;
      SSet 38 (EBin OXor u64 (ELoad 8 (EAt (EVar 33) 1 (EInt 24))) (ELoad 8 (EAt (EVar 34) 1 (EInt 24)))) ;;
      SStore 8 (EVar 32) (EVar 35) ;;
      SStore 8 (EAt (EVar 32) 1 (EInt 8)) (EVar 36) ;;
      SStore 8 (EAt (EVar 32) 1 (EInt 16)) (EVar 37) ;;
      SStore 8 (EAt (EVar 32) 1 (EInt 24)) (EVar 38) ;;
      SSet 39 (EAt (EVar 3) 32 (EBin OAdd u32 (EVar 17) (EInt 0))) ;;
      SSet 40 (EAt (EVar 3) 32 (EBin OAdd u32 (EVar 17) (EInt 0))) ;;
      SSet 41 (EAt (EVar 19) 32 (EInt 3)) ;;
      SSet 42 (EBin OXor u64 (ELoad 8 (EVar 40)) (ELoad 8 (EVar 41))) ;;
      SSet 43 (EBin OXor u64 (ELoad 8 (EAt (EVar 40) 1 (EInt 8))) (ELoad 8 (EAt (EVar 41) 1 (EInt 8)))) ;;
      SSet 44 (EBin OXor u64 (ELoad 8 (EAt (EVar 40) 1 (EInt 16))) (ELoad 8 (EAt (EVar 41) 1 (EInt 16)))) ;;
      SSet 45 (EBin OXor u64 (ELoad 8 (EAt (EVar 40) 1 (EInt 24))) (ELoad 8 (EAt (EVar 41) 1 (EInt 24)))) ;;
      SStore 8 (EVar 39) (EVar 42) ;;
      SStore 8 (EAt (EVar 39) 1 (EInt 8)) (EVar 43) ;;
      SStore 8 (EAt (EVar 39) 1 (EInt 16)) (EVar 44) ;;
      SStore 8 (EAt (EVar 39) 1 (EInt 24)) (EVar 45) ;;
      SSet 46 (EAt (EVar 3) 32 (EBin OAdd u32 (EVar 17) (EInt 0))) ;;
      SSet 47 (EAt (EVar 3) 32 (EBin OAdd u32 (EVar 17) (EInt 0))) ;;
      SSet 48 (EBin OXor u64 (ELoad 8 (EVar 47)) (ELoad 8 (EVar 18))) ;;
      SSet 49 (EBin OXor u64 (ELoad 8 (EAt (EVar 47) 1 (EInt 8))) (ELoad 8 (EAt (EVar 18) 1 (EInt 8)))) ;;
      SSet 50 (EBin OXor u64 (ELoad 8 (EAt (EVar 47) 1 (EInt 16))) (ELoad 8 (EAt (EVar 18) 1 (EInt 16)))))) ;;
      (
      (
      SSet 51 (EBin OXor u64 (ELoad 8 (EAt (EVar 47) 1 (EInt 24))) (ELoad 8 (EAt (EVar 18) 1 (EInt 24)))) ;;
      SStore 8 (EVar 46) (EVar 48) ;;
      SStore 8 (EAt (EVar 46) 1 (EInt 8)) (EVar 49) ;;
      SStore 8 (EAt (EVar 46) 1 (EInt 16)) (EVar 50) ;;
      SStore 8 (EAt (EVar 46) 1 (EInt 24)) (EVar 51) ;;
      SSet 52 (EAt (EVar 3) 32 (EBin OAdd u32 (EVar 17) (EInt 1))) ;;
      SAlloc 53 (EInt 32) ;;
      SCall None f_bf192_mul [(EVar 53); (EAt (EVar 19) 32 (EInt 1)); (EVar 12)] ;;
      SSet 54 (EBin OXor u64 (ELoad 8 (EVar 19)) (ELoad 8 (EVar 53))) ;;
      SSet 55 (EBin OXor u64 (ELoad 8 (EAt (EVar 19) 1 (EInt 8))) (ELoad 8 (EAt (EVar 53) 1 (EInt 8)))) ;;
      SSet 56 (EBin OXor u64 (ELoad 8 (EAt (EVar 19) 1 (EInt 16))) (ELoad 8 (EAt (EVar 53) 1 (EInt 16)))) ;;
      SSet 57 (EBin OXor u64 (ELoad 8 (EAt (EVar 19) 1 (EInt 24))) (ELoad 8 (EAt (EVar 53) 1 (EInt 24)))) ;;
      SStore 8 (EVar 52) (EVar 54) ;;
      SStore 8 (EAt (EVar 52) 1 (EInt 8)) (EVar 55) ;;
      SStore 8 (EAt (EVar 52) 1 (EInt 16)) (EVar 56) ;;
      SStore 8 (EAt (EVar 52) 1 (EInt 24)) (EVar 57) ;;
      SSet 58 (EAt (EVar 3) 32 (EBin OAdd u32 (EVar 17) (EInt 1))) ;;
      SSet 59 (EAt (EVar 3) 32 (EBin OAdd u32 (EVar 17) (EInt 1))) ;;
      SAlloc 60 (EInt 32) ;;
      SCall None f_bf192_mul [(EVar 60); (EAt (EVar 19) 32 (EInt 2)); (EVar 13)] ;;
      SSet 61 (EBin OXor u64 (ELoad 8 (EVar 59)) (ELoad 8 (EVar 60))) ;;
      SSet 62 (EBin OXor u64 (ELoad 8 (EAt (EVar 59) 1 (EInt 8))) (ELoad 8 (EAt (EVar 60) 1 (EInt 8)))) ;;
      SSet 63 (EBin OXor u64 (ELoad 8 (EAt (EVar 59) 1 (EInt 16))) (ELoad 8 (EAt (EVar 60) 1 (EInt 16))))) ;;
      (
      SSet 64 (EBin OXor u64 (ELoad 8 (EAt (EVar 59) 1 (EInt 24))) (ELoad 8 (EAt (EVar 60) 1 (EInt 24)))) ;;
      SStore 8 (EVar 58) (EVar 61) ;;
      SStore 8 (EAt (EVar 58) 1 (EInt 8)) (EVar 62) ;;
      SStore 8 (EAt (EVar 58) 1 (EInt 16)) (EVar 63) ;;
      SStore 8 (EAt (EVar 58) 1 (EInt 24)) (EVar 64) ;;
      SSet 65 (EAt (EVar 3) 32 (EBin OAdd u32 (EVar 17) (EInt 1))) ;;
      SSet 66 (EAt (EVar 3) 32 (EBin OAdd u32 (EVar 17) (EInt 1))) ;;
      SSet 67 (EAt (EVar 19) 32 (EInt 3)) ;;
      SSet 68 (EBin OXor u64 (ELoad 8 (EVar 66)) (ELoad 8 (EVar 67))) ;;
      SSet 69 (EBin OXor u64 (ELoad 8 (EAt (EVar 66) 1 (EInt 8))) (ELoad 8 (EAt (EVar 67) 1 (EInt 8)))) ;;
      SSet 70 (EBin OXor u64 (ELoad 8 (EAt (EVar 66) 1 (EInt 16))) (ELoad 8 (EAt (EVar 67) 1 (EInt 16)))) ;;
      SSet 71 (EBin OXor u64 (ELoad 8 (EAt (EVar 66) 1 (EInt 24))) (ELoad 8 (EAt (EVar 67) 1 (EInt 24)))) ;;
      SStore 8 (EVar 65) (EVar 68) ;;
      SStore 8 (EAt (EVar 65) 1 (EInt 8)) (EVar 69) ;;
      SStore 8 (EAt (EVar 65) 1 (EInt 16)) (EVar 70) ;;
      SStore 8 (EAt (EVar 65) 1 (EInt 24)) (EVar 71) ;;
      SSet 72 (EAt (EVar 3) 32 (EBin OAdd u32 (EVar 17) (EInt 1))) ;;
      SSet 73 (EAt (EVar 3) 32 (EBin OAdd u32 (EVar 17) (EInt 1))) ;;
      SSet 74 (EAt (EVar 18) 32 (EInt 1)) ;;
      SSet 75 (EBin OXor u64 (ELoad 8 (EVar 73)) (ELoad 8 (EVar 74))) ;;
      SSet 76 (EBin OXor u64 (ELoad 8 (EAt (EVar 73) 1 (EInt 8))) (ELoad 8 (EAt (EVar 74) 1 (EInt 8)))) ;;
      SSet 77 (EBin OXor u64 (ELoad 8 (EAt (EVar 73) 1 (EInt 16))) (ELoad 8 (EAt (EVar 74) 1 (EInt 16)))) ;;
      SSet 78 (EBin OXor u64 (ELoad 8 (EAt (EVar 73) 1 (EInt 24))) (ELoad 8 (EAt (EVar 74) 1 (EInt 24)))) ;;
      SStore 8 (EVar 72) (EVar 75)))) ;;
      (
      (
      (
      SStore 8 (EAt (EVar 72) 1 (EInt 8)) (EVar 76) ;;
      SStore 8 (EAt (EVar 72) 1 (EInt 16)) (EVar 77) ;;
      SStore 8 (EAt (EVar 72) 1 (EInt 24)) (EVar 78) ;;
      SSet 79 (EAt (EVar 3) 32 (EBin OAdd u32 (EVar 17) (EInt 2))) ;;
      SSet 80 (EAt (EVar 19) 32 (EInt 1)) ;;
      SSet 81 (EBin OXor u64 (ELoad 8 (EVar 19)) (ELoad 8 (EVar 80))) ;;
      SSet 82 (EBin OXor u64 (ELoad 8 (EAt (EVar 19) 1 (EInt 8))) (ELoad 8 (EAt (EVar 80) 1 (EInt 8)))) ;;
      SSet 83 (EBin OXor u64 (ELoad 8 (EAt (EVar 19) 1 (EInt 16))) (ELoad 8 (EAt (EVar 80) 1 (EInt 16)))) ;;
      SSet 84 (EBin OXor u64 (ELoad 8 (EAt (EVar 19) 1 (EInt 24))) (ELoad 8 (EAt (EVar 80) 1 (EInt 24)))) ;;
      SStore 8 (EVar 79) (EVar 81) ;;
      SStore 8 (EAt (EVar 79) 1 (EInt 8)) (EVar 82) ;;
      SStore 8 (EAt (EVar 79) 1 (EInt 16)) (EVar 83) ;;
      SStore 8 (EAt (EVar 79) 1 (EInt 24)) (EVar 84) ;;
      SSet 85 (EAt (EVar 3) 32 (EBin OAdd u32 (EVar 17) (EInt 2))) ;;
      SSet 86 (EAt (EVar 3) 32 (EBin OAdd u32 (EVar 17) (EInt 2))) ;;
      SAlloc 87 (EInt 32) ;;
      SCall None f_bf192_mul [(EVar 87); (EAt (EVar 19) 32 (EInt 2)); (EVar 12)] ;;
      SSet 88 (EBin OXor u64 (ELoad 8 (EVar 86)) (ELoad 8 (EVar 87))) ;;
      SSet 89 (EBin OXor u64 (ELoad 8 (EAt (EVar 86) 1 (EInt 8))) (ELoad 8 (EAt (EVar 87) 1 (EInt 8)))) ;;
      SSet 90 (EBin OXor u64 (ELoad 8 (EAt (EVar 86) 1 (EInt 16))) (ELoad 8 (EAt (EVar 87) 1 (EInt 16)))) ;;
      SSet 91 (EBin OXor u64 (ELoad 8 (EAt (EVar 86) 1 (EInt 24))) (ELoad 8 (EAt (EVar 87) 1 (EInt 24)))) ;;
      SStore 8 (EVar 85) (EVar 88) ;;
      SStore 8 (EAt (EVar 85) 1 (EInt 8)) (EVar 89)) ;;
      (
      SStore 8 (EAt (EVar 85) 1 (EInt 16)) (EVar 90) ;;
      SStore 8 (EAt (EVar 85) 1 (EInt 24)) (EVar 91) ;;
      SSet 92 (EAt (EVar 3) 32 (EBin OAdd u32 (EVar 17) (EInt 2))) ;;
      SSet 93 (EAt (EVar 3) 32 (EBin OAdd u32 (EVar 17) (EInt 2))) ;;
      SAlloc 94 (EInt 32) ;;
      SCall None f_bf192_mul [(EVar 94); (EAt (EVar 19) 32 (EInt 3)); (EVar 13)] ;;
      SSet 95 (EBin OXor u64 (ELoad 8 (EVar 93)) (ELoad 8 (EVar 94))) ;;
      SSet 96 (EBin OXor u64 (ELoad 8 (EAt (EVar 93) 1 (EInt 8))) (ELoad 8 (EAt (EVar 94) 1 (EInt 8)))) ;;
      SSet 97 (EBin OXor u64 (ELoad 8 (EAt (EVar 93) 1 (EInt 16))) (ELoad 8 (EAt (EVar 94) 1 (EInt 16)))) ;;
      SSet 98 (EBin OXor u64 (ELoad 8 (EAt (EVar 93) 1 (EInt 24))) (ELoad 8 (EAt (EVar 94) 1 (EInt 24)))) ;;
      SStore 8 (EVar 92) (EVar 95) ;;
      SStore 8 (EAt (EVar 92) 1 (EInt 8)) (EVar 96) ;;
      SStore 8 (EAt (EVar 92) 1 (EInt 16)) (EVar 97) ;;
      SStore 8 (EAt (EVar 92) 1 (EInt 24)) (EVar 98) ;;
      SSet 99 (EAt (EVar 3) 32 (EBin OAdd u32 (EVar 17) (EInt 2))) ;;
      SSet 100 (EAt (EVar 3) 32 (EBin OAdd u32 (EVar 17) (EInt 2))) ;;
      SSet 101 (EAt (EVar 18) 32 (EInt 2)) ;;
      SSet 102 (EBin OXor u64 (ELoad 8 (EVar 100)) (ELoad 8 (EVar 101))) ;;
      SSet 103 (EBin OXor u64 (ELoad 8 (EAt (EVar 100) 1 (EInt 8))) (ELoad 8 (EAt (EVar 101) 1 (EInt 8)))) ;;
      SSet 104 (EBin OXor u64 (ELoad 8 (EAt (EVar 100) 1 (EInt 16))) (ELoad 8 (EAt (EVar 101) 1 (EInt 16)))) ;;
      SSet 105 (EBin OXor u64 (ELoad 8 (EAt (EVar 100) 1 (EInt 24))) (ELoad 8 (EAt (EVar 101) 1 (EInt 24)))) ;;
      SStore 8 (EVar 99) (EVar 102) ;;
      SStore 8 (EAt (EVar 99) 1 (EInt 8)) (EVar 103) ;;
      SStore 8 (EAt (EVar 99) 1 (EInt 16)) (EVar 104))) ;;
      (
      (
      SStore 8 (EAt (EVar 99) 1 (EInt 24)) (EVar 105) ;;
      SSet 106 (EAt (EVar 3) 32 (EBin OAdd u32 (EVar 17) (EInt 3))) ;;
      SAlloc 107 (EInt 32) ;;
      SCall None f_bf192_mul [(EVar 107); (EVar 19); (EVar 13)] ;;
      SSet 108 (EAt (EVar 19) 32 (EInt 1)) ;;
      SSet 109 (EBin OXor u64 (ELoad 8 (EVar 107)) (ELoad 8 (EVar 108))) ;;
      SSet 110 (EBin OXor u64 (ELoad 8 (EAt (EVar 107) 1 (EInt 8))) (ELoad 8 (EAt (EVar 108) 1 (EInt 8)))) ;;
      SSet 111 (EBin OXor u64 (ELoad 8 (EAt (EVar 107) 1 (EInt 16))) (ELoad 8 (EAt (EVar 108) 1 (EInt 16)))) ;;
      SSet 112 (EBin OXor u64 (ELoad 8 (EAt (EVar 107) 1 (EInt 24))) (ELoad 8 (EAt (EVar 108) 1 (EInt 24)))) ;;
      SStore 8 (EVar 106) (EVar 109) ;;
      SStore 8 (EAt (EVar 106) 1 (EInt 8)) (EVar 110) ;;
      SStore 8 (EAt (EVar 106) 1 (EInt 16)) (EVar 111) ;;
      SStore 8 (EAt (EVar 106) 1 (EInt 24)) (EVar 112) ;;
      SSet 113 (EAt (EVar 3) 32 (EBin OAdd u32 (EVar 17) (EInt 3))) ;;
      SSet 114 (EAt (EVar 3) 32 (EBin OAdd u32 (EVar 17) (EInt 3))) ;;
      SSet 115 (EAt (EVar 19) 32 (EInt 2)) ;;
      SSet 116 (EBin OXor u64 (ELoad 8 (EVar 114)) (ELoad 8 (EVar 115))) ;;
      SSet 117 (EBin OXor u64 (ELoad 8 (EAt (EVar 114) 1 (EInt 8))) (ELoad 8 (EAt (EVar 115) 1 (EInt 8)))) ;;
      SSet 118 (EBin OXor u64 (ELoad 8 (EAt (EVar 114) 1 (EInt 16))) (ELoad 8 (EAt (EVar 115) 1 (EInt 16)))) ;;
      SSet 119 (EBin OXor u64 (ELoad 8 (EAt (EVar 114) 1 (EInt 24))) (ELoad 8 (EAt (EVar 115) 1 (EInt 24)))) ;;
      SStore 8 (EVar 113) (EVar 116) ;;
      SStore 8 (EAt (EVar 113) 1 (EInt 8)) (EVar 117) ;;
      SStore 8 (EAt (EVar 113) 1 (EInt 16)) (EVar 118)) ;;
      (
      SStore 8 (EAt (EVar 113) 1 (EInt 24)) (EVar 119) ;;
      SSet 120 (EAt (EVar 3) 32 (EBin OAdd u32 (EVar 17) (EInt 3))) ;;
      SSet 121 (EAt (EVar 3) 32 (EBin OAdd u32 (EVar 17) (EInt 3))) ;;
      SAlloc 122 (EInt 32) ;;
      SCall None f_bf192_mul [(EVar 122); (EAt (EVar 19) 32 (EInt 3)); (EVar 12)] ;;
      SSet 123 (EBin OXor u64 (ELoad 8 (EVar 121)) (ELoad 8 (EVar 122))) ;;
      SSet 124 (EBin OXor u64 (ELoad 8 (EAt (EVar 121) 1 (EInt 8))) (ELoad 8 (EAt (EVar 122) 1 (EInt 8)))) ;;
      SSet 125 (EBin OXor u64 (ELoad 8 (EAt (EVar 121) 1 (EInt 16))) (ELoad 8 (EAt (EVar 122) 1 (EInt 16)))) ;;
      SSet 126 (EBin OXor u64 (ELoad 8 (EAt (EVar 121) 1 (EInt 24))) (ELoad 8 (EAt (EVar 122) 1 (EInt 24)))) ;;
      SStore 8 (EVar 120) (EVar 123) ;;
      SStore 8 (EAt (EVar 120) 1 (EInt 8)) (EVar 124) ;;
      SStore 8 (EAt (EVar 120) 1 (EInt 16)) (EVar 125) ;;
      SStore 8 (EAt (EVar 120) 1 (EInt 24)) (EVar 126) ;;
      SSet 127 (EAt (EVar 3) 32 (EBin OAdd u32 (EVar 17) (EInt 3))) ;;
      SSet 128 (EAt (EVar 3) 32 (EBin OAdd u32 (EVar 17) (EInt 3))) ;;
      SSet 129 (EAt (EVar 18) 32 (EInt 3)) ;;
      SSet 130 (EBin OXor u64 (ELoad 8 (EVar 128)) (ELoad 8 (EVar 129))) ;;
      SSet 131 (EBin OXor u64 (ELoad 8 (EAt (EVar 128) 1 (EInt 8))) (ELoad 8 (EAt (EVar 129) 1 (EInt 8)))) ;;
      SSet 132 (EBin OXor u64 (ELoad 8 (EAt (EVar 128) 1 (EInt 16))) (ELoad 8 (EAt (EVar 129) 1 (EInt 16)))) ;;
      SSet 133 (EBin OXor u64 (ELoad 8 (EAt (EVar 128) 1 (EInt 24))) (ELoad 8 (EAt (EVar 129) 1 (EInt 24)))) ;;
      SStore 8 (EVar 127) (EVar 130) ;;
      SStore 8 (EAt (EVar 127) 1 (EInt 8)) (EVar 131) ;;
      SStore 8 (EAt (EVar 127) 1 (EInt 16)) (EVar 132) ;;
      SStore 8 (EAt (EVar 127) 1 (EInt 24)) (EVar 133))))))).

(** faest_aes.c:2011-2061, em_enc_forward_192.
    Variables: 1 = bf_z, 2 = bf_x, 3 = bf_y, 4 = j, 14 = bf_two, 15 = bf_three, 16 = j, 17 = c, 18 = i, 19 = iy, 20 = bf_x_hat, 21 = bf_z_hat, 22 = r. *)
Definition c_em_enc_forward_192 : func := Func [1%positive; 2%positive; 3%positive] (
  SSet 4 (EInt 0) ;;
  SLoop (EBin OLt s32 (EVar 4) (EInt 24))
    (
    SSet 4 (EBin OAdd u32 (EVar 4) (EInt 1)))
    (
    SSet 5 (EAt (EVar 3) 32 (EVar 4)) ;;
    SAlloc 6 (EInt 32) ;;
    SCall None f_bf192_byte_combine [(EVar 6); (EAt (EVar 1) 32 (EBin OMul u32 (EInt 8) (EVar 4)))] ;;
    SCopy (EVar 5) (EVar 6) (EInt 32) ;;
    SIf (EBin OEq s32 (EIsNull (EVar 2)) (EInt 0))
      (
      SSet 7 (EAt (EVar 3) 32 (EVar 4)) ;;
      SSet 8 (EAt (EVar 3) 32 (EVar 4)) ;;
      SAlloc 9 (EInt 32) ;;
      SCall None f_bf192_byte_combine [(EVar 9); (EAt (EVar 2) 32 (EBin OMul u32 (EInt 8) (EVar 4)))] ;;
      SSet 10 (EBin OXor u64 (ELoad 8 (EVar 8)) (ELoad 8 (EVar 9))) ;;
      SSet 11 (EBin OXor u64 (ELoad 8 (EAt (EVar 8) 1 (EInt 8))) (ELoad 8 (EAt (EVar 9) 1 (EInt 8)))) ;;
      SSet 12 (EBin OXor u64 (ELoad 8 (EAt (EVar 8) 1 (EInt 16))) (ELoad 8 (EAt (EVar 9) 1 (EInt 16)))) ;;
      SSet 13 (EBin OXor u64 (ELoad 8 (EAt (EVar 8) 1 (EInt 24))) (ELoad 8 (EAt (EVar 9) 1 (EInt 24)))) ;;
      SStore 8 (EVar 7) (EVar 10) ;;
      SStore 8 (EAt (EVar 7) 1 (EInt 8)) (EVar 11) ;;
      SStore 8 (EAt (EVar 7) 1 (EInt 16)) (EVar 12) ;;
      SStore 8 (EAt (EVar 7) 1 (EInt 24)) (EVar 13))
      SSkip) ;;
  SAlloc 14 (EInt 32) ;;
  SCall None f_bf192_byte_combine_bits [(EVar 14); (EInt 2)] ;;
  SAlloc 15 (EInt 32) ;;
  SCall None f_bf192_byte_combine_bits [(EVar 15); (EInt 3)] ;;
  SSet 16 (EInt 1) ;;
  SLoop (EBin OLt s32 (EVar 16) (EInt 12))
    (
    SSet 16 (EBin OAdd u32 (EVar 16) (EInt 1)))
    (
    SSet 17 (EInt 0) ;;
    SLoop (EBin OLt s32 (EVar 17) (EInt 6))
      (
      SSet 17 (EBin OAdd u32 (EVar 17) (EInt 1)))
      (
      (
      (
      (
      SSet 18 (EBin OAdd u32 (EBin OMul u32 (EInt 192) (EVar 16)) (EBin OMul u32 (EInt 32) (EVar 17))) ;;
      SSet 19 (EBin OAdd u32 (EBin OMul u32 (EInt 24) (EVar 16)) (EBin OMul u32 (EInt 4) (EVar 17))) ;;
      SAlloc 20 (EInt 128) ;;
      SAlloc 21 (EInt 128) ;;
      SSet 22 (EInt 0) ;;
      SLoop (EBin OLe s32 (EVar 22) (EInt 3))
        (
        SSet 22 (EBin OAdd u32 (EVar 22) (EInt 1)))
        (
        SSet 23 (EAt (EVar 21) 32 (EVar 22)) ;;
        SAlloc 24 (EInt 32) ;;
        SCall None f_bf192_byte_combine [(EVar 24); (EAt (EVar 1) 32 (EBin OAdd u32 (EVar 18) (EBin OMul u32 (EInt 8) (EVar 22))))] ;;
        SCopy (EVar 23) (EVar 24) (EInt 32) ;;
        SIf (EBin OEq s32 (EIsNull (EVar 2)) (EInt 0))
          (
          SSet 25 (EAt (EVar 20) 32 (EVar 22)) ;;
          SAlloc 26 (EInt 32) ;;
          SCall None f_bf192_byte_combine [(EVar 26); (EAt (EVar 2) 32 (EBin OAdd u32 (EVar 18) (EBin OMul u32 (EInt 8) (EVar 22))))] ;;
          SCopy (EVar 25) (EVar 26) (EInt 32))
          (
          SSet 27 (EAt (EVar 20) 32 (EVar 22)) ;;
          SAlloc 28 (EInt 32) ;;
          SCall None f_bf192_zero [(EVar 28)] ;;
          SCopy (EVar 27) (EVar 28) (EInt 32))) ;;
      SSet 29 (EAt (EVar 3) 32 (EBin OAdd u32 (EVar 19) (EInt 0))) ;;
      SAlloc 30 (EInt 32) ;;
      SCall None f_bf192_mul [(EVar 30); (EVar 21); (EVar 14)] ;;
      SAlloc 31 (EInt 32) ;;
      SCall None f_bf192_mul [(EVar 31); (EAt (EVar 21) 32 (EInt 1)); (EVar 15)] ;;
      SSet 32 (EBin OXor u64 (ELoad 8 (EVar 30)) (ELoad 8 (EVar 31))) ;;
      SSet 33 (EBin OXor u64 (ELoad 8 (EAt (EVar 30) 1 (EInt 8))) (ELoad 8 (EAt (EVar 31) 1 (EInt 8)))) ;;
      SSet 34 (EBin OXor u64 (ELoad 8 (EAt (EVar 30) 1 (EInt 16))) (ELoad 8 (EAt (EVar 31) 1 (EInt 16)))) ;;
      SSet 35 (EBin OXor u64 (ELoad 8 (EAt (EVar 30) 1 (EInt 24))) (ELoad 8 (EAt (EVar 31) 1 (EInt 24)))) ;;
      SStore 8 (EVar 29) (EVar 32) ;;
      SStore 8 (EAt (EVar 29) 1 (EInt 8)) (EVar 33) ;;
      SStore 8 (EAt (EVar 29) 1 (EInt 16)) (EVar 34) ;;
      SStore 8 (EAt (EVar 29) 1 (EInt 24)) (EVar 35) ;;
      SSet 36 (EAt (EVar 3) 32 (EBin OAdd u32 (EVar 19) (EInt 0))) ;;
      SSet 37 (EAt (EVar 3) 32 (EBin OAdd u32 (EVar 19) (EInt 0))) ;;
      SSet 38 (EAt (EVar 21) 32 (EInt 2)) ;;
      SSet 39 (EBin OXor u64 (ELoad 8 (EVar 37)) (ELoad 8 (EVar 38)))) ;;
      (
      SSet 40 (EBin OXor u64 (ELoad 8 (EAt (EVar 37) 1 (EInt 8))) (ELoad 8 (EAt (EVar 38) 1 (EInt 8)))) ;;
      SSet 41 (EBin OXor u64 (ELoad 8 (EAt (EVar 37) 1 (EInt 16))) (ELoad 8 (EAt (EVar 38) 1 (EInt 16)))) ;;
      SSet 42 (EBin OXor u64 (ELoad 8 (EAt (EVar 37) 1 (EInt 24))) (ELoad 8 (EAt (EVar 38) 1 (EInt 24)))) ;;
      SStore 8 (EVar 36) (EVar 39) ;;
      SStore 8 (EAt (EVar 36) 1 (EInt 8)) (EVar 40) ;;
      SStore 8 (EAt (EVar 36) 1 (EInt 16)) (EVar 41) ;;
      SStore 8 (EAt (EVar 36) 1 (EInt 24)) (EVar 42) ;;
      SSet 43 (EAt (EVar 3) 32 (EBin OAdd u32 (EVar 19) (EInt 0))) ;;
      SSet 44 (EAt (EVar 3) 32 (EBin OAdd u32 (EVar 19) (EInt 0))) ;;
      SSet 45 (EAt (EVar 21) 32 (EInt 3)) ;;
      SSet 46 (EBin OXor u64 (ELoad 8 (EVar 44)) (ELoad 8 (EVar 45))) ;;
      SSet 47 (EBin OXor u64 (ELoad 8 (EAt (EVar 44) 1 (EInt 8))) (ELoad 8 (EAt (EVar 45) 1 (EInt 8)))) ;;
      SSet 48 (EBin OXor u64 (ELoad 8 (EAt (EVar 44) 1 (EInt 16))) (ELoad 8 (EAt (EVar 45) 1 (EInt 16)))) ;;
      SSet 49 (EBin OXor u64 (ELoad 8 (EAt (EVar 44) 1 (EInt 24))) (ELoad 8 (EAt (EVar 45) 1 (EInt 24)))) ;;
      SStore 8 (EVar 43) (EVar 46) ;;
      SStore 8 (EAt (EVar 43) 1 (EInt 8)) (EVar 47) ;;
      SStore 8 (EAt (EVar 43) 1 (EInt 16)) (EVar 48) ;;
      SStore 8 (EAt (EVar 43) 1 (EInt 24)) (EVar 49) ;;
      SSet 50 (EAt (EVar 3) 32 (EBin OAdd u32 (EVar 19) (EInt 0))) ;;
      SSet 51 (EAt (EVar 3) 32 (EBin OAdd u32 (EVar 19) (EInt 0))) ;;
      SSet 52 (EBin OXor u64 (ELoad 8 (EVar 51)) (ELoad 8 (EVar 20))) ;;
      SSet 53 (EBin OXor u64 (ELoad 8 (EAt (EVar 51) 1 (EInt 8))) (ELoad 8 (EAt (EVar 20) 1 (EInt 8)))) ;;
      SSet 54 (EBin OXor u64 (ELoad 8 (EAt (EVar 51) 1 (EInt 16))) (ELoad 8 (EAt (EVar 20) 1 (EInt 16)))))) ;;
      (
      (
      SSet 55 (EBin OXor u64 (ELoad 8 (EAt (EVar 51) 1 (EInt 24))) (ELoad 8 (EAt (EVar 20) 1 (EInt 24)))) ;;
      SStore 8 (EVar 50) (EVar 52) ;;
      SStore 8 (EAt (EVar 50) 1 (EInt 8)) (EVar 53) ;;
      SStore 8 (EAt (EVar 50) 1 (EInt 16)) (EVar 54) ;;
      SStore 8 (EAt (EVar 50) 1 (EInt 24)) (EVar 55) ;;
      SSet 56 (EAt (EVar 3) 32 (EBin OAdd u32 (EVar 19) (EInt 1))) ;;
      SAlloc 57 (EInt 32) ;;
      SCall None f_bf192_mul [(EVar 57); (EAt (EVar 21) 32 (EInt 1)); (EVar 14)] ;;
      SSet 58 (EBin OXor u64 (ELoad 8 (EVar 21)) (ELoad 8 (EVar 57))) ;;
      SSet 59 (EBin OXor u64 (ELoad 8 (EAt (EVar 21) 1 (EInt 8))) (ELoad 8 (EAt (EVar 57) 1 (EInt 8)))) ;;
      SSet 60 (EBin OXor u64 (ELoad 8 (EAt (EVar 21) 1 (EInt 16))) (ELoad 8 (EAt (EVar 57) 1 (EInt 16)))) ;;
      SSet 61 (EBin OXor u64 (ELoad 8 (EAt (EVar 21) 1 (EInt 24))) (ELoad 8 (EAt (EVar 57) 1 (EInt 24)))) ;;
      SStore 8 (EVar 56) (EVar 58) ;;
      SStore 8 (EAt (EVar 56) 1 (EInt 8)) (EVar 59) ;;
      SStore 8 (EAt (EVar 56) 1 (EInt 16)) (EVar 60) ;;
      SStore 8 (EAt (EVar 56) 1 (EInt 24)) (EVar 61) ;;
      SSet 62 (EAt (EVar 3) 32 (EBin OAdd u32 (EVar 19) (EInt 1))) ;;
      SSet 63 (EAt (EVar 3) 32 (EBin OAdd u32 (EVar 19) (EInt 1))) ;;
      SAlloc 64 (EInt 32) ;;
      SCall None f_bf192_mul [(EVar 64); (EAt (EVar 21) 32 (EInt 2)); (EVar 15)] ;;
      SSet 65 (EBin OXor u64 (ELoad 8 (EVar 63)) (ELoad 8 (EVar 64))) ;;
      SSet 66 (EBin OXor u64 (ELoad 8 (EAt (EVar 63) 1 (EInt 8))) (ELoad 8 (EAt (EVar 64) 1 (EInt 8)))) ;;
      SSet 67 (EBin OXor u64 (ELoad 8 (EAt (EVar 63) 1 (EInt 16))) (ELoad 8 (EAt (EVar 64) 1 (EInt 16))))) ;;
      (
      SSet 68 (EBin OXor u64 (ELoad 8 (EAt (EVar 63) 1 (EInt 24))) (ELoad 8 (EAt (EVar 64) 1 (EInt 24)))) ;;
      SStore 8 (EVar 62) (EVar 65) ;;
      SStore 8 (EAt (EVar 62) 1 (EInt 8)) (EVar 66) ;;
      SStore 8 (EAt (EVar 62) 1 (EInt 16)) (EVar 67) ;;
      SStore 8 (EAt (EVar 62) 1 (EInt 24)) (EVar 68) ;;
      SSet 69 (EAt (EVar 3) 32 (EBin OAdd u32 (EVar 19) (EInt 1))) ;;
      SSet 70 (EAt (EVar 3) 32 (EBin OAdd u32 (EVar 19) (EInt 1))) ;;
      SSet 71 (EAt (EVar 21) 32 (EInt 3)) ;;
      SSet 72 (EBin OXor u64 (ELoad 8 (EVar 70)) (ELoad 8 (EVar 71))) ;;
      SSet 73 (EBin OXor u64 (ELoad 8 (EAt (EVar 70) 1 (EInt 8))) (ELoad 8 (EAt (EVar 71) 1 (EInt 8)))) ;;
      SSet 74 (EBin OXor u64 (ELoad 8 (EAt (EVar 70) 1 (EInt 16))) (ELoad 8 (EAt (EVar 71) 1 (EInt 16)))) ;;
      SSet 75 (EBin OXor u64 (ELoad 8 (EAt (EVar 70) 1 (EInt 24))) (ELoad 8 (EAt (EVar 71) 1 (EInt 24)))) ;;
      SStore 8 (EVar 69) (EVar 72) ;;
      SStore 8 (EAt (EVar 69) 1 (EInt 8)) (EVar 73) ;;
      SStore 8 (EAt (EVar 69) 1 (EInt 16)) (EVar 74) ;;
      SStore 8 (EAt (EVar 69) 1 (EInt 24)) (EVar 75) ;;
      SSet 76 (EAt (EVar 3) 32 (EBin OAdd u32 (EVar 19) (EInt 1))) ;;
      SSet 77 (EAt (EVar 3) 32 (EBin OAdd u32 (EVar 19) (EInt 1))) ;;
      SSet 78 (EAt (EVar 20) 32 (EInt 1)) ;;
      SSet 79 (EBin OXor u64 (ELoad 8 (EVar 77)) (ELoad 8 (EVar 78))) ;;
      SSet 80 (EBin OXor u64 (ELoad 8 (EAt (EVar 77) 1 (EInt 8))) (ELoad 8 (EAt (EVar 78) 1 (EInt 8)))) ;;
      SSet 81 (EBin OXor u64 (ELoad 8 (EAt (EVar 77) 1 (EInt 16))) (ELoad 8 (EAt (EVar 78) 1 (EInt 16)))) ;;
      SSet 82 (EBin OXor u64 (ELoad 8 (EAt (EVar 77) 1 (EInt 24))) (ELoad 8 (EAt (EVar 78) 1 (EInt 24)))) ;;
      SStore 8 (EVar 76) (EVar 79)))) ;;
      (
      (
      (
      SStore 8 (EAt (EVar 76) 1 (EInt 8)) (EVar 80) ;;
      SStore 8 (EAt (EVar 76) 1 (EInt 16)) (EVar 81) ;;
      SStore 8 (EAt (EVar 76) 1 (EInt 24)) (EVar 82) ;;
      SSet 83 (EAt (EVar 3) 32 (EBin OAdd u32 (EVar 19) (EInt 2))) ;;
      SSet 84 (EAt (EVar 21) 32 (EInt 1)) ;;
      SSet 85 (EBin OXor u64 (ELoad 8 (EVar 21)) (ELoad 8 (EVar 84))) ;;
      SSet 86 (EBin OXor u64 (ELoad 8 (EAt (EVar 21) 1 (EInt 8))) (ELoad 8 (EAt (EVar 84) 1 (EInt 8)))) ;;
      SSet 87 (EBin OXor u64 (ELoad 8 (EAt (EVar 21) 1 (EInt 16))) (ELoad 8 (EAt (EVar 84) 1 (EInt 16)))) ;;
      SSet 88 (EBin OXor u64 (ELoad 8 (EAt (EVar 21) 1 (EInt 24))) (ELoad 8 (EAt (EVar 84) 1 (EInt 24)))) ;;
      SStore 8 (EVar 83) (EVar 85) ;;
      SStore 8 (EAt (EVar 83) 1 (EInt 8)) (EVar 86) ;;
      SStore 8 (EAt (EVar 83) 1 (EInt 16)) (EVar 87) ;;
      SStore 8 (EAt (EVar 83) 1 (EInt 24)) (EVar 88) ;;
      SSet 89 (EAt (EVar 3) 32 (EBin OAdd u32 (EVar 19) (EInt 2))) ;;
      SSet 90 (EAt (EVar 3) 32 (EBin OAdd u32 (EVar 19) (EInt 2))) ;;
      SAlloc 91 (EInt 32) ;;
      SCall None f_bf192_mul [(EVar 91); (EAt (EVar 21) 32 (EInt 2)); (EVar 14)] ;;
      SSet 92 (EBin OXor u64 (ELoad 8 (EVar 90)) (ELoad 8 (EVar 91))) ;;
      SSet 93 (EBin OXor u64 (ELoad 8 (EAt (EVar 90) 1 (EInt 8))) (ELoad 8 (EAt (EVar 91) 1 (EInt 8)))) ;;
      SSet 94 (EBin OXor u64 (ELoad 8 (EAt (EVar 90) 1 (EInt 16))) (ELoad 8 (EAt (EVar 91) 1 (EInt 16)))) ;;
      SSet 95 (EBin OXor u64 (ELoad 8 (EAt (EVar 90) 1 (EInt 24))) (ELoad 8 (EAt (EVar 91) 1 (EInt 24)))) ;;
      SStore 8 (EVar 89) (EVar 92) ;;
      SStore 8 (EAt (EVar 89) 1 (EInt 8)) (EVar 93)) ;;
      (
      SStore 8 (EAt (EVar 89) 1 (EInt 16)) (EVar 94) ;;
      SStore 8 (EAt (EVar 89) 1 (EInt 24)) (EVar 95) ;;
      SSet 96 (EAt (EVar 3) 32 (EBin OAdd u32 (EVar 19) (EInt 2))) ;;
      SSet 97 (EAt (EVar 3) 32 (EBin OAdd u32 (EVar 19) (EInt 2))) ;;
      SAlloc 98 (EInt 32) ;;
      SCall None f_bf192_mul [(EVar 98); (EAt (EVar 21) 32 (EInt 3)); (EVar 15)] ;;
      SSet 99 (EBin OXor u64 (ELoad 8 (EVar 97)) (ELoad 8 (EVar 98))) ;;
      SSet 100 (EBin OXor u64 (ELoad 8 (EAt (EVar 97) 1 (EInt 8))) (ELoad 8 (EAt (EVar 98) 1 (EInt 8)))) ;;
      SSet 101 (EBin OXor u64 (ELoad 8 (EAt (EVar 97) 1 (EInt 16))) (ELoad 8 (EAt (EVar 98) 1 (EInt 16)))) ;;
      SSet 102 (EBin OXor u64 (ELoad 8 (EAt (EVar 97) 1 (EInt 24))) (ELoad 8 (EAt (EVar 98) 1 (EInt 24)))) ;;
      SStore 8 (EVar 96) (EVar 99) ;;
      SStore 8 (EAt (EVar 96) 1 (EInt 8)) (EVar 100) ;;
      SStore 8 (EAt (EVar 96) 1 (EInt 16)) (EVar 101) ;;
      SStore 8 (EAt (EVar 96) 1 (EInt 24)) (EVar 102) ;;
      SSet 103 (EAt (EVar 3) 32 (EBin OAdd u32 (EVar 19) (EInt 2))) ;;
      SSet 104 (EAt (EVar 3) 32 (EBin OAdd u32 (EVar 19) (EInt 2))) ;;
      SSet 105 (EAt (EVar 20) 32 (EInt 2)) ;;
      SSet 106 (EBin OXor u64 (ELoad 8 (EVar 104)) (ELoad 8 (EVar 105))) ;;
      SSet 107 (EBin OXor u64 (ELoad 8 (EAt (EVar 104) 1 (EInt 8))) (ELoad 8 (EAt (EVar 105) 1 (EInt 8)))) ;;
      SSet 108 (EBin OXor u64 (ELoad 8 (EAt (EVar 104) 1 (EInt 16))) (ELoad 8 (EAt (EVar 105) 1 (EInt 16)))) ;;
      SSet 109 (EBin OXor u64 (ELoad 8 (EAt (EVar 104) 1 (EInt 24))) (ELoad 8 (EAt (EVar 105) 1 (EInt 24)))) ;;
      SStore 8 (EVar 103) (EVar 106) ;;
      SStore 8 (EAt (EVar 103) 1 (EInt 8)) (EVar 107) ;;
      SStore 8 (EAt (EVar 103) 1 (EInt 16)) (EVar 108))) ;;
      (
      (
      SStore 8 (EAt (EVar 103) 1 (EInt 24)) (EVar 109) ;;
      SSet 110 (EAt (EVar 3) 32 (EBin OAdd u32 (EVar 19) (EInt 3))) ;;
      SAlloc 111 (EInt 32) ;;
      SCall None f_bf192_mul [(EVar 111); (EVar 21); (EVar 15)] ;;
      SSet 112 (EAt (EVar 21) 32 (EInt 1)) ;;
      SSet 113 (EBin OXor u64 (ELoad 8 (EVar 111)) (ELoad 8 (EVar 112))) ;;
      SSet 114 (EBin OXor u64 (ELoad 8 (EAt (EVar 111) 1 (EInt 8))) (ELoad 8 (EAt (EVar 112) 1 (EInt 8)))) ;;
      SSet 115 (EBin OXor u64 (ELoad 8 (EAt (EVar 111) 1 (EInt 16))) (ELoad 8 (EAt (EVar 112) 1 (EInt 16)))) ;;
      SSet 116 (EBin OXor u64 (ELoad 8 (EAt (EVar 111) 1 (EInt 24))) (ELoad 8 (EAt (EVar 112) 1 (EInt 24)))) ;;
      SStore 8 (EVar 110) (EVar 113) ;;
      SStore 8 (EAt (EVar 110) 1 (EInt 8)) (EVar 114) ;;
      SStore 8 (EAt (EVar 110) 1 (EInt 16)) (EVar 115) ;;
      SStore 8 (EAt (EVar 110) 1 (EInt 24)) (EVar 116) ;;
      SSet 117 (EAt (EVar 3) 32 (EBin OAdd u32 (EVar 19) (EInt 3))) ;;
      SSet 118 (EAt (EVar 3) 32 (EBin OAdd u32 (EVar 19) (EInt 3))) ;;
      SSet 119 (EAt (EVar 21) 32 (EInt 2)) ;;
      SSet 120 (EBin OXor u64 (ELoad 8 (EVar 118)) (ELoad 8 (EVar 119))) ;;
      SSet 121 (EBin OXor u64 (ELoad 8 (EAt (EVar 118) 1 (EInt 8))) (ELoad 8 (EAt (EVar 119) 1 (EInt 8)))) ;;
      SSet 122 (EBin OXor u64 (ELoad 8 (EAt (EVar 118) 1 (EInt 16))) (ELoad 8 (EAt (EVar 119) 1 (EInt 16)))) ;;
      SSet 123 (EBin OXor u64 (ELoad 8 (EAt (EVar 118) 1 (EInt 24))) (ELoad 8 (EAt (EVar 119) 1 (EInt 24)))) ;;
      SStore 8 (EVar 117) (EVar 120) ;;
      SStore 8 (EAt (EVar 117) 1 (EInt 8)) (EVar 121) ;;
      SStore 8 (EAt (EVar 117) 1 (EInt 16)) (EVar 122)) ;;
      (
      SStore 8 (EAt (EVar 117) 1 (EInt 24)) (EVar 123) ;;
      SSet 124 (EAt (EVar 3) 32 (EBin OAdd u32 (EVar 19) (EInt 3))) ;;
      SSet 125 (EAt (EVar 3) 32 (EBin OAdd u32 (EVar 19) (EInt 3))) ;;
      SAlloc 126 (EInt 32) ;;
      SCall None f_bf192_mul [(EVar 126); (EAt (EVar 21) 32 (EInt 3)); (EVar 14)] ;;
      SSet 127 (EBin OXor u64 (ELoad 8 (EVar 125)) (ELoad 8 (EVar 126))) ;;
      SSet 128 (EBin OXor u64 (ELoad 8 (EAt (EVar 125) 1 (EInt 8))) (ELoad 8 (EAt (EVar 126) 1 (EInt 8)))) ;;
      SSet 129 (EBin OXor u64 (ELoad 8 (EAt (EVar 125) 1 (EInt 16))) (ELoad 8 (EAt (EVar 126) 1 (EInt 16)))) ;;
      SSet 130 (EBin OXor u64 (ELoad 8 (EAt (EVar 125) 1 (EInt 24))) (ELoad 8 (EAt (EVar 126) 1 (EInt 24)))) ;;
      SStore 8 (EVar 124) (EVar 127) ;;
      SStore 8 (EAt (EVar 124) 1 (EInt 8)) (EVar 128) ;;
      SStore 8 (EAt (EVar 124) 1 (EInt 16)) (EVar 129) ;;
      SStore 8 (EAt (EVar 124) 1 (EInt 24)) (EVar 130) ;;
      SSet 131 (EAt (EVar 3) 32 (EBin OAdd u32 (EVar 19) (EInt 3))) ;;
      SSet 132 (EAt (EVar 3) 32 (EBin OAdd u32 (EVar 19) (EInt 3))) ;;
      SSet 133 (EAt (EVar 20) 32 (EInt 3)) ;;
      SSet 134 (EBin OXor u64 (ELoad 8 (EVar 132)) (ELoad 8 (EVar 133))) ;;
      SSet 135 (EBin OXor u64 (ELoad 8 (EAt (EVar 132) 1 (EInt 8))) (ELoad 8 (EAt (EVar 133) 1 (EInt 8)))) ;;
      SSet 136 (EBin OXor u64 (ELoad 8 (EAt (EVar 132) 1 (EInt 16))) (ELoad 8 (EAt (EVar 133) 1 (EInt 16)))) ;;
      SSet 137 (EBin OXor u64 (ELoad 8 (EAt (EVar 132) 1 (EInt 24))) (ELoad 8 (EAt (EVar 133) 1 (EInt 24)))) ;;
      SStore 8 (EVar 131) (EVar 134) ;;
      SStore 8 (EAt (EVar 131) 1 (EInt 8)) (EVar 135) ;;
      SStore 8 (EAt (EVar 131) 1 (EInt 16)) (EVar 136) ;;
      SStore 8 (EAt (EVar 131) 1 (EInt 24)) (EVar 137))))))).

(** faest_aes.c:2063-2089, em_enc_backward_192_1.
    Variables: 1 = z, 2 = x, 3 = z_out, 4 = y_out, 5 = j, 6 = c, 7 = r, 8 = icol, 9 = ird, 10 = z_tilde, 14 = y_tilde. *)
Definition c_em_enc_backward_192_1 : func := Func [1%positive; 2%positive; 3%positive; 4%positive] (
  SSet 5 (EInt 0) ;;
  SLoop (EBin OLt s32 (EVar 5) (EInt 12))
    (
    SSet 5 (EBin OAdd u32 (EVar 5) (EInt 1)))
    (
    SSet 6 (EInt 0) ;;
    SLoop (EBin OLt s32 (EVar 6) (EInt 6))
      (
      SSet 6 (EBin OAdd u32 (EVar 6) (EInt 1)))
      (
      SSet 7 (EInt 0) ;;
      SLoop (EBin OLe s32 (EVar 7) (EInt 3))
        (
        SSet 7 (EBin OAdd u32 (EVar 7) (EInt 1)))
        (
        SSet 8 (EDiv OMod u32 (EBin OAdd u32 (EBin OSub u32 (EVar 6) (EVar 7)) (EInt 6)) (EInt 6)) ;;
        SSet 9 (EBin OAdd u32 (EBin OAdd u32 (EBin OAdd u32 (EInt 192) (EBin OMul u32 (EInt 192) (EVar 5))) (EBin OMul u32 (EInt 32) (EVar 8))) (EBin OMul u32 (EInt 8) (EVar 7))) ;;
        SSet 10 (EInt 0) ;;
        SIf (EBin OLt s32 (EVar 5) (EInt 11))
          (
          SSet 10 (ELoad 1 (EAt (EVar 1) 1 (EDiv ODiv u32 (EVar 9) (EInt 8)))))
          (
          SSet 10 (EUn OCast u8 (EBin OXor s32 (ELoad 1 (EAt (EVar 3) 1 (EDiv ODiv u32 (EBin OSub u32 (EVar 9) (EBin OMul u32 (EInt 192) (EBin OAdd u32 (EVar 5) (EInt 1)))) (EInt 8)))) (ELoad 1 (EAt (EVar 2) 1 (EDiv ODiv u32 (EVar 9) (EInt 8))))))) ;;
        SCall (Some 11%positive) f___rorb [(EVar 10); (EInt 7)] ;;
        SCall (Some 12%positive) f___rorb [(EVar 10); (EInt 5)] ;;
        SCall (Some 13%positive) f___rorb [(EVar 10); (EInt 2)] ;;
        SSet 14 (EUn OCast u8 (EBin OXor s32 (EBin OXor s32 (EBin OXor s32 (EVar 11) (EVar 12)) (EVar 13)) (EInt 5))) ;;
        SSet 15 (EAt (EVar 4) 32 (EBin OAdd u32 (EBin OAdd u32 (EBin OMul u32 (EInt 24) (EVar 5)) (EBin OMul u32 (EInt 4) (EVar 6))) (EVar 7))) ;;
        SAlloc 16 (EInt 32) ;;
        SCall None f_bf192_byte_combine_bits [(EVar 16); (EVar 14)] ;;
        SCopy (EVar 15) (EVar 16) (EInt 32))))).

(** faest_aes.c:2091-2131, em_enc_backward_192.
    Variables: 1 = bf_z, 2 = bf_x, 3 = bf_z_out, 4 = Mtag, 5 = Mkey, 6 = delta, 7 = y_out, 8 = bf_delta, 12 = factor, 20 = j, 21 = c, 22 = r, 23 = bf_z_tilde, 24 = icol, 25 = ird, 26 = i, 35 = bf_y_tilde, 36 = i. *)
Definition c_em_enc_backward_192 : func := Func [1%positive; 2%positive; 3%positive; 4%positive; 5%positive; 6%positive; 7%positive] (
  SAlloc 8 (EInt 32) ;;
  SIf (EBin OEq s32 (EIsNull (EVar 6)) (EInt 0))
    (
    SAlloc 9 (EInt 32) ;;
    SCall None f_bf192_load [(EVar 9); (EVar 6)] ;;
    SSet 11 (EVar 9))
    (
    SAlloc 10 (EInt 32) ;;
    SCall None f_bf192_zero [(EVar 10)] ;;
    SSet 11 (EVar 10)) ;;
  SCopy (EVar 8) (EVar 11) (EInt 32) ;;
  SAlloc 12 (EInt 32) ;;
  SSet 13 (EUn ONeg u64 (EBin OAnd u64 (EVar 5) (EInt 1))) ;;
  SAlloc 14 (EInt 32) ;;
  SCall None f_bf192_from_bit [(EVar 14); (EUn OCast u8 (EBin OXor s32 (EInt 1) (EVar 5)))] ;;
  SSet 15 (EUn ONeg u64 (EBin OAnd u64 (EUn OCast u64 (EBin OXor s32 (EInt 1) (EVar 4))) (EInt 1))) ;;
  SSet 16 (EBin OAnd u64 (EBin OXor u64 (EBin OAnd u64 (ELoad 8 (EVar 8)) (EVar 13)) (ELoad 8 (EVar 14))) (EVar 15)) ;;
  SSet 17 (EBin OAnd u64 (EBin OXor u64 (EBin OAnd u64 (ELoad 8 (EAt (EVar 8) 1 (EInt 8))) (EVar 13)) (ELoad 8 (EAt (EVar 14) 1 (EInt 8)))) (EVar 15)) ;;
  SSet 18 (EBin OAnd u64 (EBin OXor u64 (EBin OAnd u64 (ELoad 8 (EAt (EVar 8) 1 (EInt 16))) (EVar 13)) (ELoad 8 (EAt (EVar 14) 1 (EInt 16)))) (EVar 15)) ;;
  SSet 19 (EBin OAnd u64 (EBin OXor u64 (EBin OAnd u64 (ELoad 8 (EAt (EVar 8) 1 (EInt 24))) (EVar 13)) (ELoad 8 (EAt (EVar 14) 1 (EInt 24)))) (EVar 15)) ;;
  SStore 8 (EVar 12) (EVar 16) ;;
  SStore 8 (EAt (EVar 12) 1 (EInt 8)) (EVar 17) ;;
  SStore 8 (EAt (EVar 12) 1 (EInt 16)) (EVar 18) ;;
  SStore 8 (EAt (EVar 12) 1 (EInt 24)) (EVar 19) ;;
  SSet 20 (EInt 0) ;;
  SLoop (EBin OLt s32 (EVar 20) (EInt 12))
    (
    SSet 20 (EBin OAdd u32 (EVar 20) (EInt 1)))
    (
    SSet 21 (EInt 0) ;;
    SLoop (EBin OLt s32 (EVar 21) (EInt 6))
      (
      SSet 21 (EBin OAdd u32 (EVar 21) (EInt 1)))
      (
      SSet 22 (EInt 0) ;;
      SLoop (EBin OLe s32 (EVar 22) (EInt 3))
        (
        SSet 22 (EBin OAdd u32 (EVar 22) (EInt 1)))
        (
        SAlloc 23 (EInt 256) ;;
        SSet 24 (EDiv OMod u32 (EBin OAdd u32 (EBin OSub u32 (EVar 21) (EVar 22)) (EInt 6)) (EInt 6)) ;;
        SSet 25 (EBin OAdd u32 (EBin OAdd u32 (EBin OAdd u32 (EInt 192) (EBin OMul u32 (EInt 192) (EVar 20))) (EBin OMul u32 (EInt 32) (EVar 24))) (EBin OMul u32 (EInt 8) (EVar 22))) ;;
        SIf (EBin OLt s32 (EVar 20) (EInt 11))
          (
          SCopy (EVar 23) (EAt (EVar 1) 32 (EVar 25)) (EInt 256))
          (
          SSet 26 (EInt 0) ;;
          SLoop (EBin OLt s32 (EVar 26) (EInt 8))
            (
            SSet 26 (EBin OAdd u32 (EVar 26) (EInt 1)))
            (
            SSet 27 (EAt (EVar 23) 32 (EVar 26)) ;;
            SCopy (EVar 27) (EAt (EVar 3) 32 (EBin OAdd u32 (EBin OSub u32 (EVar 25) (EBin OMul u32 (EInt 192) (EBin OAdd u32 (EVar 20) (EInt 1)))) (EVar 26))) (EInt 32) ;;
            SIf (EBin OEq s32 (EIsNull (EVar 2)) (EInt 0))
              (
              SSet 28 (EAt (EVar 23) 32 (EVar 26)) ;;
              SSet 29 (EAt (EVar 23) 32 (EVar 26)) ;;
              SSet 30 (EAt (EVar 2) 32 (EBin OAdd u32 (EVar 25) (EVar 26))) ;;
              SSet 31 (EBin OXor u64 (ELoad 8 (EVar 29)) (ELoad 8 (EVar 30))) ;;
              SSet 32 (EBin OXor u64 (ELoad 8 (EAt (EVar 29) 1 (EInt 8))) (ELoad 8 (EAt (EVar 30) 1 (EInt 8)))) ;;
              SSet 33 (EBin OXor u64 (ELoad 8 (EAt (EVar 29) 1 (EInt 16))) (ELoad 8 (EAt (EVar 30) 1 (EInt 16)))) ;;
              SSet 34 (EBin OXor u64 (ELoad 8 (EAt (EVar 29) 1 (EInt 24))) (ELoad 8 (EAt (EVar 30) 1 (EInt 24)))) ;;
              SStore 8 (EVar 28) (EVar 31) ;;
              SStore 8 (EAt (EVar 28) 1 (EInt 8)) (EVar 32) ;;
              SStore 8 (EAt (EVar 28) 1 (EInt 16)) (EVar 33) ;;
              SStore 8 (EAt (EVar 28) 1 (EInt 24)) (EVar 34))
              SSkip)) ;;
        SAlloc 35 (EInt 256) ;;
        SSet 36 (EInt 0) ;;
        SLoop (EBin OLt s32 (EVar 36) (EInt 8))
          (
          SSet 36 (EBin OAdd u32 (EVar 36) (EInt 1)))
          (
          SSet 37 (EAt (EVar 35) 32 (EVar 36)) ;;
          SSet 38 (EAt (EVar 23) 32 (EDiv OMod u32 (EBin OAdd u32 (EVar 36) (EInt 7)) (EInt 8))) ;;
          SSet 39 (EAt (EVar 23) 32 (EDiv OMod u32 (EBin OAdd u32 (EVar 36) (EInt 5)) (EInt 8))) ;;
          SSet 40 (EAt (EVar 23) 32 (EDiv OMod u32 (EBin OAdd u32 (EVar 36) (EInt 2)) (EInt 8))) ;;
          SSet 41 (EBin OXor u64 (EBin OXor u64 (ELoad 8 (EVar 38)) (ELoad 8 (EVar 39))) (ELoad 8 (EVar 40))) ;;
          SSet 42 (EBin OXor u64 (EBin OXor u64 (ELoad 8 (EAt (EVar 38) 1 (EInt 8))) (ELoad 8 (EAt (EVar 39) 1 (EInt 8)))) (ELoad 8 (EAt (EVar 40) 1 (EInt 8)))) ;;
          SSet 43 (EBin OXor u64 (EBin OXor u64 (ELoad 8 (EAt (EVar 38) 1 (EInt 16))) (ELoad 8 (EAt (EVar 39) 1 (EInt 16)))) (ELoad 8 (EAt (EVar 40) 1 (EInt 16)))) ;;
          SSet 44 (EBin OXor u64 (EBin OXor u64 (ELoad 8 (EAt (EVar 38) 1 (EInt 24))) (ELoad 8 (EAt (EVar 39) 1 (EInt 24)))) (ELoad 8 (EAt (EVar 40) 1 (EInt 24)))) ;;
          SStore 8 (EVar 37) (EVar 41) ;;
          SStore 8 (EAt (EVar 37) 1 (EInt 8)) (EVar 42) ;;
          SStore 8 (EAt (EVar 37) 1 (EInt 16)) (EVar 43) ;;
          SStore 8 (EAt (EVar 37) 1 (EInt 24)) (EVar 44)) ;;
        SSet 45 (EBin OXor u64 (ELoad 8 (EVar 35)) (ELoad 8 (EVar 12))) ;;
        SSet 46 (EBin OXor u64 (ELoad 8 (EAt (EVar 35) 1 (EInt 8))) (ELoad 8 (EAt (EVar 12) 1 (EInt 8)))) ;;
        SSet 47 (EBin OXor u64 (ELoad 8 (EAt (EVar 35) 1 (EInt 16))) (ELoad 8 (EAt (EVar 12) 1 (EInt 16)))) ;;
        SSet 48 (EBin OXor u64 (ELoad 8 (EAt (EVar 35) 1 (EInt 24))) (ELoad 8 (EAt (EVar 12) 1 (EInt 24)))) ;;
        SStore 8 (EVar 35) (EVar 45) ;;
        SStore 8 (EAt (EVar 35) 1 (EInt 8)) (EVar 46) ;;
        SStore 8 (EAt (EVar 35) 1 (EInt 16)) (EVar 47) ;;
        SStore 8 (EAt (EVar 35) 1 (EInt 24)) (EVar 48) ;;
        SSet 49 (EAt (EVar 35) 32 (EInt 2)) ;;
        SSet 50 (EAt (EVar 35) 32 (EInt 2)) ;;
        SSet 51 (EBin OXor u64 (ELoad 8 (EVar 50)) (ELoad 8 (EVar 12))) ;;
        SSet 52 (EBin OXor u64 (ELoad 8 (EAt (EVar 50) 1 (EInt 8))) (ELoad 8 (EAt (EVar 12) 1 (EInt 8)))) ;;
        SSet 53 (EBin OXor u64 (ELoad 8 (EAt (EVar 50) 1 (EInt 16))) (ELoad 8 (EAt (EVar 12) 1 (EInt 16)))) ;;
        SSet 54 (EBin OXor u64 (ELoad 8 (EAt (EVar 50) 1 (EInt 24))) (ELoad 8 (EAt (EVar 12) 1 (EInt 24)))) ;;
        SStore 8 (EVar 49) (EVar 51) ;;
        SStore 8 (EAt (EVar 49) 1 (EInt 8)) (EVar 52) ;;
        SStore 8 (EAt (EVar 49) 1 (EInt 16)) (EVar 53) ;;
        SStore 8 (EAt (EVar 49) 1 (EInt 24)) (EVar 54) ;;
        SSet 55 (EAt (EVar 7) 32 (EBin OAdd u32 (EBin OAdd u32 (EBin OMul u32 (EInt 24) (EVar 20)) (EBin OMul u32 (EInt 4) (EVar 21))) (EVar 22))) ;;
        SAlloc 56 (EInt 32) ;;
        SCall None f_bf192_byte_combine [(EVar 56); (EVar 35)] ;;
        SCopy (EVar 55) (EVar 56) (EInt 32))))).

(** faest_aes.c:2133-2158, em_enc_constraints_Mkey_0_192.
    Variables: 1 = out, 2 = x, 3 = w, 4 = bf_v, 5 = a0_ctx, 6 = a1_ctx, 7 = w_out, 8 = bf_s, 9 = bf_vs, 10 = bf_s_dash, 11 = bf_vs_dash, 12 = j, 13 = tmp. *)
Definition c_em_enc_constraints_Mkey_0_192 : func := Func [1%positive; 2%positive; 3%positive; 4%positive; 5%positive; 6%positive] (
  SAlloc 7 (EInt 24) ;;
  SCall None f_xor_u8_array [(EVar 1); (EVar 3); (EVar 7); (EInt 24)] ;;
  SAlloc 8 (EInt 9216) ;;
  SAlloc 9 (EInt 9216) ;;
  SAlloc 10 (EInt 9216) ;;
  SAlloc 11 (EInt 9216) ;;
  SCall None f_em_enc_forward_192_1 [(EVar 3); (EVar 2); (EVar 8)] ;;
  SCall None f_em_enc_forward_192 [(EVar 4); ENull; (EVar 9)] ;;
  SCall None f_em_enc_backward_192_1 [(EVar 3); (EVar 2); (EVar 7); (EVar 10)] ;;
  SCall None f_em_enc_backward_192 [(EVar 4); ENull; (EVar 4); (EInt 1); (EInt 0); ENull; (EVar 11)] ;;
  SSet 12 (EInt 0) ;;
  SLoop (EBin OLt s32 (EVar 12) (EInt 288))
    (
    SSet 12 (EBin OAdd u32 (EVar 12) (EInt 1)))
    (
    SAlloc 13 (EInt 32) ;;
    SCall None f_bf192_mul [(EVar 13); (EAt (EVar 9) 32 (EVar 12)); (EAt (EVar 11) 32 (EVar 12))] ;;
    SCall None f_zk_hash_192_update [(EVar 5); (EVar 13)] ;;
    SSet 14 (EAt (EVar 8) 32 (EVar 12)) ;;
    SSet 15 (EAt (EVar 9) 32 (EVar 12)) ;;
    SAlloc 16 (EInt 32) ;;
    SSet 17 (EBin OXor u64 (ELoad 8 (EVar 14)) (ELoad 8 (EVar 15))) ;;
    SSet 18 (EBin OXor u64 (ELoad 8 (EAt (EVar 14) 1 (EInt 8))) (ELoad 8 (EAt (EVar 15) 1 (EInt 8)))) ;;
    SSet 19 (EBin OXor u64 (ELoad 8 (EAt (EVar 14) 1 (EInt 16))) (ELoad 8 (EAt (EVar 15) 1 (EInt 16)))) ;;
    SSet 20 (EBin OXor u64 (ELoad 8 (EAt (EVar 14) 1 (EInt 24))) (ELoad 8 (EAt (EVar 15) 1 (EInt 24)))) ;;
    SStore 8 (EVar 16) (EVar 17) ;;
    SStore 8 (EAt (EVar 16) 1 (EInt 8)) (EVar 18) ;;
    SStore 8 (EAt (EVar 16) 1 (EInt 16)) (EVar 19) ;;
    SStore 8 (EAt (EVar 16) 1 (EInt 24)) (EVar 20) ;;
    SSet 21 (EAt (EVar 10) 32 (EVar 12)) ;;
    SSet 22 (EAt (EVar 11) 32 (EVar 12)) ;;
    SAlloc 23 (EInt 32) ;;
    SSet 24 (EBin OXor u64 (ELoad 8 (EVar 21)) (ELoad 8 (EVar 22))) ;;
    SSet 25 (EBin OXor u64 (ELoad 8 (EAt (EVar 21) 1 (EInt 8))) (ELoad 8 (EAt (EVar 22) 1 (EInt 8)))) ;;
    SSet 26 (EBin OXor u64 (ELoad 8 (EAt (EVar 21) 1 (EInt 16))) (ELoad 8 (EAt (EVar 22) 1 (EInt 16)))) ;;
    SSet 27 (EBin OXor u64 (ELoad 8 (EAt (EVar 21) 1 (EInt 24))) (ELoad 8 (EAt (EVar 22) 1 (EInt 24)))) ;;
    SStore 8 (EVar 23) (EVar 24) ;;
    SStore 8 (EAt (EVar 23) 1 (EInt 8)) (EVar 25) ;;
    SStore 8 (EAt (EVar 23) 1 (EInt 16)) (EVar 26) ;;
    SStore 8 (EAt (EVar 23) 1 (EInt 24)) (EVar 27) ;;
    SAlloc 28 (EInt 32) ;;
    SCall None f_bf192_mul [(EVar 28); (EVar 16); (EVar 23)] ;;
    SAlloc 29 (EInt 32) ;;
    SCall None f_bf192_one [(EVar 29)] ;;
    SAlloc 30 (EInt 32) ;;
    SSet 31 (EBin OXor u64 (EBin OXor u64 (ELoad 8 (EVar 28)) (ELoad 8 (EVar 13))) (ELoad 8 (EVar 29))) ;;
    SSet 32 (EBin OXor u64 (EBin OXor u64 (ELoad 8 (EAt (EVar 28) 1 (EInt 8))) (ELoad 8 (EAt (EVar 13) 1 (EInt 8)))) (ELoad 8 (EAt (EVar 29) 1 (EInt 8)))) ;;
    SSet 33 (EBin OXor u64 (EBin OXor u64 (ELoad 8 (EAt (EVar 28) 1 (EInt 16))) (ELoad 8 (EAt (EVar 13) 1 (EInt 16)))) (ELoad 8 (EAt (EVar 29) 1 (EInt 16)))) ;;
    SSet 34 (EBin OXor u64 (EBin OXor u64 (ELoad 8 (EAt (EVar 28) 1 (EInt 24))) (ELoad 8 (EAt (EVar 13) 1 (EInt 24)))) (ELoad 8 (EAt (EVar 29) 1 (EInt 24)))) ;;
    SStore 8 (EVar 30) (EVar 31) ;;
    SStore 8 (EAt (EVar 30) 1 (EInt 8)) (EVar 32) ;;
    SStore 8 (EAt (EVar 30) 1 (EInt 16)) (EVar 33) ;;
    SStore 8 (EAt (EVar 30) 1 (EInt 24)) (EVar 34) ;;
    SCall None f_zk_hash_192_update [(EVar 6); (EVar 30)])).

(** faest_aes.c:2160-2188, em_enc_constraints_Mkey_1_192.
    Variables: 1 = out, 2 = x, 3 = bf_q, 4 = delta, 5 = b0_ctx, 6 = bf_delta, 8 = bf_x, 9 = i, 17 = bf_q_out, 18 = i, 26 = bf_qs, 27 = bf_qs_dash, 28 = minus_part, 29 = j. *)
Definition c_em_enc_constraints_Mkey_1_192 : func := Func [1%positive; 2%positive; 3%positive; 4%positive; 5%positive] (
  SAlloc 6 (EInt 32) ;;
  SCall None f_bf192_load [(EVar 6); (EVar 4)] ;;
  SAlloc 7 (EInt 79872) ;;
  SSet 8 (EVar 7) ;;
  SSet 9 (EInt 0) ;;
  SLoop (EBin OLt s32 (EVar 9) (EInt 2496))
    (
    SSet 9 (EBin OAdd u32 (EVar 9) (EInt 1)))
    (
    SSet 10 (EAt (EVar 8) 32 (EVar 9)) ;;
    SSet 11 (EUn ONeg u64 (EBin OAnd u64 (EUn OCast u64 (EBin OAnd s32 (EBin OShr s32 (ELoad 1 (EAt (EVar 2) 1 (EDiv ODiv u32 (EVar 9) (EInt 8)))) (EDiv OMod u32 (EVar 9) (EInt 8))) (EInt 1))) (EInt 1))) ;;
    SSet 12 (EBin OAnd u64 (ELoad 8 (EVar 6)) (EVar 11)) ;;
    SSet 13 (EBin OAnd u64 (ELoad 8 (EAt (EVar 6) 1 (EInt 8))) (EVar 11)) ;;
    SSet 14 (EBin OAnd u64 (ELoad 8 (EAt (EVar 6) 1 (EInt 16))) (EVar 11)) ;;
    SSet 15 (EBin OAnd u64 (ELoad 8 (EAt (EVar 6) 1 (EInt 24))) (EVar 11)) ;;
    SStore 8 (EVar 10) (EVar 12) ;;
    SStore 8 (EAt (EVar 10) 1 (EInt 8)) (EVar 13) ;;
    SStore 8 (EAt (EVar 10) 1 (EInt 16)) (EVar 14) ;;
    SStore 8 (EAt (EVar 10) 1 (EInt 24)) (EVar 15)) ;;
  SAlloc 16 (EInt 6144) ;;
  SSet 17 (EVar 16) ;;
  SSet 18 (EInt 0) ;;
  SLoop (EBin OLt s32 (EVar 18) (EInt 192))
    (
    SSet 18 (EBin OAdd u32 (EVar 18) (EInt 1)))
    (
    SSet 19 (EAt (EVar 17) 32 (EVar 18)) ;;
    SSet 20 (EUn ONeg u64 (EBin OAnd u64 (EUn OCast u64 (EBin OAnd s32 (EBin OShr s32 (ELoad 1 (EAt (EVar 1) 1 (EDiv ODiv u32 (EVar 18) (EInt 8)))) (EDiv OMod u32 (EVar 18) (EInt 8))) (EInt 1))) (EInt 1))) ;;
    SSet 21 (EAt (EVar 3) 32 (EVar 18)) ;;
    SSet 22 (EBin OXor u64 (EBin OAnd u64 (ELoad 8 (EVar 6)) (EVar 20)) (ELoad 8 (EVar 21))) ;;
    SSet 23 (EBin OXor u64 (EBin OAnd u64 (ELoad 8 (EAt (EVar 6) 1 (EInt 8))) (EVar 20)) (ELoad 8 (EAt (EVar 21) 1 (EInt 8)))) ;;
    SSet 24 (EBin OXor u64 (EBin OAnd u64 (ELoad 8 (EAt (EVar 6) 1 (EInt 16))) (EVar 20)) (ELoad 8 (EAt (EVar 21) 1 (EInt 16)))) ;;
    SSet 25 (EBin OXor u64 (EBin OAnd u64 (ELoad 8 (EAt (EVar 6) 1 (EInt 24))) (EVar 20)) (ELoad 8 (EAt (EVar 21) 1 (EInt 24)))) ;;
    SStore 8 (EVar 19) (EVar 22) ;;
    SStore 8 (EAt (EVar 19) 1 (EInt 8)) (EVar 23) ;;
    SStore 8 (EAt (EVar 19) 1 (EInt 16)) (EVar 24) ;;
    SStore 8 (EAt (EVar 19) 1 (EInt 24)) (EVar 25)) ;;
  SAlloc 26 (EInt 9216) ;;
  SAlloc 27 (EInt 9216) ;;
  SCall None f_em_enc_forward_192 [(EVar 3); (EVar 8); (EVar 26)] ;;
  SCall None f_em_enc_backward_192 [(EVar 3); (EVar 8); (EVar 17); (EInt 0); (EInt 1); (EVar 4); (EVar 27)] ;;
  SEval (EVar 17) ;;
  SEval (EVar 8) ;;
  SAlloc 28 (EInt 32) ;;
  SCall None f_bf192_mul [(EVar 28); (EVar 6); (EVar 6)] ;;
  SSet 29 (EInt 0) ;;
  SLoop (EBin OLt s32 (EVar 29) (EInt 288))
    (
    SSet 29 (EBin OAdd u32 (EVar 29) (EInt 1)))
    (
    SAlloc 30 (EInt 32) ;;
    SCall None f_bf192_mul [(EVar 30); (EAt (EVar 26) 32 (EVar 29)); (EAt (EVar 27) 32 (EVar 29))] ;;
    SAlloc 31 (EInt 32) ;;
    SSet 32 (EBin OXor u64 (ELoad 8 (EVar 30)) (ELoad 8 (EVar 28))) ;;
    SSet 33 (EBin OXor u64 (ELoad 8 (EAt (EVar 30) 1 (EInt 8))) (ELoad 8 (EAt (EVar 28) 1 (EInt 8)))) ;;
    SSet 34 (EBin OXor u64 (ELoad 8 (EAt (EVar 30) 1 (EInt 16))) (ELoad 8 (EAt (EVar 28) 1 (EInt 16)))) ;;
    SSet 35 (EBin OXor u64 (ELoad 8 (EAt (EVar 30) 1 (EInt 24))) (ELoad 8 (EAt (EVar 28) 1 (EInt 24)))) ;;
    SStore 8 (EVar 31) (EVar 32) ;;
    SStore 8 (EAt (EVar 31) 1 (EInt 8)) (EVar 33) ;;
    SStore 8 (EAt (EVar 31) 1 (EInt 16)) (EVar 34) ;;
    SStore 8 (EAt (EVar 31) 1 (EInt 24)) (EVar 35) ;;
    SCall None f_zk_hash_192_update [(EVar 5); (EVar 31)])).

(** faest_aes.c:2190-2219, em_prove_192.
    Variables: 1 = w, 2 = u, 3 = V, 4 = in, 5 = out, 6 = chall, 7 = a_tilde, 8 = b_tilde, 9 = x, 10 = round_keys, 12 = tmp_x, 13 = r, 14 = i, 16 = bf_v, 17 = a0_ctx, 18 = h0, 19 = h1, 20 = s, 21 = t, 22 = sd, 23 = a1_ctx, 24 = h0, 25 = h1, 26 = s, 27 = t, 28 = sd. *)
Definition c_em_prove_192 : func := Func [1%positive; 2%positive; 3%positive; 4%positive; 5%positive; 6%positive; 7%positive; 8%positive] (
  SAlloc 9 (EInt 312) ;;
  SAlloc 10 (EInt 480) ;;
  SCall None f_rijndael192_init_round_keys [(EVar 10); (EVar 4)] ;;
  SSet 12 (EVar 9) ;;
  SSet 13 (EInt 0) ;;
  SLoop (EBin ONe s32 (EVar 13) (EInt 13))
    (
    SSet 13 (EBin OAdd u32 (EVar 13) (EInt 1)))
    (
    SSet 14 (EInt 0) ;;
    SLoop (EBin ONe s32 (EVar 14) (EInt 6))
      (
      SSet 14 (EBin OAdd u32 (EVar 14) (EInt 1)))
      (
      SCopy (EVar 12) (EAt (EAt (EVar 10) 32 (EVar 13)) 4 (EVar 14)) (EInt 4) ;;
      SSet 12 (EAt (EVar 12) 1 (EInt 4)))) ;;
  SCall (Some 15%positive) f_column_to_row_major_and_shrink_V_192 [(EVar 3); (EInt 2304)] ;;
  SSet 16 (EVar 15) ;;
  SAlloc 17 (EInt 5) ;;
  SAlloc 18 (EInt 32) ;;
  SStoreF (EVar 17) 5 0 (EVar 18) ;;
  SAlloc 19 (EInt 32) ;;
  SStoreF (EVar 17) 5 1 (EVar 19) ;;
  SAlloc 20 (EInt 32) ;;
  SStoreF (EVar 17) 5 2 (EVar 20) ;;
  SAlloc 21 (EInt 8) ;;
  SStoreF (EVar 17) 5 3 (EVar 21) ;;
  SAlloc 22 (EInt 1) ;;
  SStoreF (EVar 17) 5 4 (EVar 22) ;;
  SAlloc 23 (EInt 5) ;;
  SAlloc 24 (EInt 32) ;;
  SStoreF (EVar 23) 5 0 (EVar 24) ;;
  SAlloc 25 (EInt 32) ;;
  SStoreF (EVar 23) 5 1 (EVar 25) ;;
  SAlloc 26 (EInt 32) ;;
  SStoreF (EVar 23) 5 2 (EVar 26) ;;
  SAlloc 27 (EInt 8) ;;
  SStoreF (EVar 23) 5 3 (EVar 27) ;;
  SAlloc 28 (EInt 1) ;;
  SStoreF (EVar 23) 5 4 (EVar 28) ;;
  SCall None f_zk_hash_192_init [(EVar 17); (EVar 6)] ;;
  SCall None f_zk_hash_192_init [(EVar 23); (EVar 6)] ;;
  SCall None f_em_enc_constraints_Mkey_0_192 [(EVar 5); (EVar 9); (EVar 1); (EVar 16); (EVar 17); (EVar 23)] ;;
  SAlloc 29 (EInt 32) ;;
  SCall None f_bf192_load [(EVar 29); (EAt (EVar 2) 1 (EInt 288))] ;;
  SCall None f_zk_hash_192_finalize [(EVar 7); (EVar 23); (EVar 29)] ;;
  SAlloc 30 (EInt 32) ;;
  SCall None f_bf192_sum_poly [(EVar 30); (EAt (EVar 16) 32 (EInt 2304))] ;;
  SCall None f_zk_hash_192_finalize [(EVar 8); (EVar 17); (EVar 30)] ;;
  SEval (EVar 16)).

(** faest_aes.c:2221-2271, em_verify_192.
    Variables: 1 = d, 2 = Q, 3 = chall_2, 4 = chall_3, 5 = a_tilde, 6 = in, 7 = out, 8 = params, 9 = tau, 10 = t0, 11 = k0, 12 = t1, 13 = k1, 14 = delta, 15 = i, 16 = col, 17 = depth, 18 = decoded_challenge, 20 = j, 22 = bf_q, 23 = x, 24 = round_keys, 26 = tmp_x, 27 = r, 28 = i, 29 = b0_ctx, 30 = h0, 31 = h1, 32 = s, 33 = t, 34 = sd, 36 = q_tilde, 38 = bf_qtilde. *)
Definition c_em_verify_192 : func := Func [1%positive; 2%positive; 3%positive; 4%positive; 5%positive; 6%positive; 7%positive; 8%positive] (
  (
  SSet 9 (ELoad 2 (EAt (EVar 8) 1 (EInt 16))) ;;
  SSet 10 (ELoad 2 (EAt (EVar 8) 1 (EInt 22))) ;;
  SSet 11 (ELoad 2 (EAt (EVar 8) 1 (EInt 18))) ;;
  SSet 12 (ELoad 2 (EAt (EVar 8) 1 (EInt 24))) ;;
  SSet 13 (ELoad 2 (EAt (EVar 8) 1 (EInt 20))) ;;
  SSet 14 (EVar 4) ;;
  SSet 15 (EInt 0) ;;
  SSet 16 (EInt 0) ;;
  SLoop (EBin OLt s32 (EVar 15) (EVar 9))
    (
    SSet 15 (EBin OAdd u32 (EVar 15) (EInt 1)))
    (
    SSet 17 (ECond (EBin OLt s32 (EVar 15) (EVar 10)) (EVar 11) (EVar 13)) ;;
    SAlloc 18 (EInt 12) ;;
    SCall None f_ChalDec [(EVar 4); (EVar 15); (EVar 11); (EVar 10); (EVar 13); (EVar 12); (EVar 18)] ;;
    SSet 20 (EInt 0) ;;
    SLoop (EBin OLt s32 (EVar 20) (EVar 17))
      (
      SSet 20 (EBin OAdd u32 (EVar 20) (EInt 1)) ;;
      SSet 16 (EBin OAdd u32 (EVar 16) (EInt 1)))
      (
      SIf (EBin OEq s32 (ELoad 1 (EAt (EVar 18) 1 (EVar 20))) (EInt 1))
        (
        SCall None f_xor_u8_array [(EVar 1); (ELoadP (EAt (EVar 2) 1 (EVar 16))); (ELoadP (EAt (EVar 2) 1 (EVar 16))); (EInt 288)])
        SSkip)) ;;
  SCall (Some 21%positive) f_column_to_row_major_and_shrink_V_192 [(EVar 2); (EInt 2304)] ;;
  SSet 22 (EVar 21) ;;
  SAlloc 23 (EInt 312) ;;
  SAlloc 24 (EInt 480) ;;
  SCall None f_rijndael192_init_round_keys [(EVar 24); (EVar 6)] ;;
  SSet 26 (EVar 23) ;;
  SSet 27 (EInt 0) ;;
  SLoop (EBin ONe s32 (EVar 27) (EInt 13))
    (
    SSet 27 (EBin OAdd u32 (EVar 27) (EInt 1)))
    (
    SSet 28 (EInt 0) ;;
    SLoop (EBin ONe s32 (EVar 28) (EInt 6))
      (
      SSet 28 (EBin OAdd u32 (EVar 28) (EInt 1)))
      (
      SCopy (EVar 26) (EAt (EAt (EVar 24) 32 (EVar 27)) 4 (EVar 28)) (EInt 4) ;;
      SSet 26 (EAt (EVar 26) 1 (EInt 4)))) ;;
  SAlloc 29 (EInt 5) ;;
  SAlloc 30 (EInt 32) ;;
  SStoreF (EVar 29) 5 0 (EVar 30) ;;
  SAlloc 31 (EInt 32) ;;
  SStoreF (EVar 29) 5 1 (EVar 31) ;;
  SAlloc 32 (EInt 32) ;;
  SStoreF (EVar 29) 5 2 (EVar 32) ;;
  SAlloc 33 (EInt 8) ;;
  SStoreF (EVar 29) 5 3 (EVar 33) ;;
  SAlloc 34 (EInt 1)) ;;
  (
  SStoreF (EVar 29) 5 4 (EVar 34) ;;
  SCall None f_zk_hash_192_init [(EVar 29); (EVar 3)] ;;
  SCall None f_em_enc_constraints_Mkey_1_192 [(EVar 7); (EVar 23); (EVar 22); (EVar 14); (EVar 29)] ;;
  SAlloc 35 (EInt 24) ;;
  SSet 36 (EVar 35) ;;
  SAlloc 37 (EInt 32) ;;
  SCall None f_bf192_sum_poly [(EVar 37); (EAt (EVar 22) 32 (EInt 2304))] ;;
  SCall None f_zk_hash_192_finalize [(EVar 36); (EVar 29); (EVar 37)] ;;
  SEval (EVar 22) ;;
  SAlloc 38 (EInt 32) ;;
  SCall None f_bf192_load [(EVar 38); (EVar 36)] ;;
  SAlloc 39 (EInt 32) ;;
  SCall None f_bf192_load [(EVar 39); (EVar 5)] ;;
  SAlloc 40 (EInt 32) ;;
  SCall None f_bf192_load [(EVar 40); (EVar 14)] ;;
  SAlloc 41 (EInt 32) ;;
  SCall None f_bf192_mul [(EVar 41); (EVar 39); (EVar 40)] ;;
  SAlloc 42 (EInt 32) ;;
  SSet 43 (EBin OXor u64 (ELoad 8 (EVar 38)) (ELoad 8 (EVar 41))) ;;
  SSet 44 (EBin OXor u64 (ELoad 8 (EAt (EVar 38) 1 (EInt 8))) (ELoad 8 (EAt (EVar 41) 1 (EInt 8)))) ;;
  SSet 45 (EBin OXor u64 (ELoad 8 (EAt (EVar 38) 1 (EInt 16))) (ELoad 8 (EAt (EVar 41) 1 (EInt 16)))) ;;
  SSet 46 (EBin OXor u64 (ELoad 8 (EAt (EVar 38) 1 (EInt 24))) (ELoad 8 (EAt (EVar 41) 1 (EInt 24)))) ;;
  SStore 8 (EVar 42) (EVar 43) ;;
  SStore 8 (EAt (EVar 42) 1 (EInt 8)) (EVar 44) ;;
  SStore 8 (EAt (EVar 42) 1 (EInt 16)) (EVar 45) ;;
  SStore 8 (EAt (EVar 42) 1 (EInt 24)) (EVar 46) ;;
  SCall None f_bf192_store [(EVar 36); (EVar 42)] ;;
  SReturn (EVar 36))).

(** faest_aes.c:2275-2318, em_enc_forward_256_1.
    Variables: 1 = z, 2 = x, 3 = bf_y, 4 = j, 12 = bf_two, 13 = bf_three, 14 = j, 15 = c, 16 = i, 17 = iy, 18 = bf_x_hat, 19 = bf_z_hat, 20 = r. *)
Definition c_em_enc_forward_256_1 : func := Func [1%positive; 2%positive; 3%positive] (
  SSet 4 (EInt 0) ;;
  SLoop (EBin OLt s32 (EVar 4) (EInt 32))
    (
    SSet 4 (EBin OAdd u32 (EVar 4) (EInt 1)))
    (
    SSet 5 (EAt (EVar 3) 32 (EVar 4)) ;;
    SAlloc 6 (EInt 32) ;;
    SCall None f_bf256_byte_combine_bits [(EVar 6); (ELoad 1 (EAt (EVar 1) 1 (EVar 4)))] ;;
    SAlloc 7 (EInt 32) ;;
    SCall None f_bf256_byte_combine_bits [(EVar 7); (ELoad 1 (EAt (EVar 2) 1 (EVar 4)))] ;;
    SSet 8 (EBin OXor u64 (ELoad 8 (EVar 6)) (ELoad 8 (EVar 7))) ;;
    SSet 9 (EBin OXor u64 (ELoad 8 (EAt (EVar 6) 1 (EInt 8))) (ELoad 8 (EAt (EVar 7) 1 (EInt 8)))) ;;
    SSet 10 (EBin OXor u64 (ELoad 8 (EAt (EVar 6) 1 (EInt 16))) (ELoad 8 (EAt (EVar 7) 1 (EInt 16)))) ;;
    SSet 11 (EBin OXor u64 (ELoad 8 (EAt (EVar 6) 1 (EInt 24))) (ELoad 8 (EAt (EVar 7) 1 (EInt 24)))) ;;
    SStore 8 (EVar 5) (EVar 8) ;;
    SStore 8 (EAt (EVar 5) 1 (EInt 8)) (EVar 9) ;;
    SStore 8 (EAt (EVar 5) 1 (EInt 16)) (EVar 10) ;;
    SStore 8 (EAt (EVar 5) 1 (EInt 24)) (EVar 11)) ;;
  SAlloc 12 (EInt 32) ;;
  SCall None f_bf256_byte_combine_bits [(EVar 12); (EInt 2)] ;;
  SAlloc 13 (EInt 32) ;;
  SCall None f_bf256_byte_combine_bits [(EVar 13); (EInt 3)] ;;
  SSet 14 (EInt 1) ;;
  SLoop (EBin OLt s32 (EVar 14) (EInt 14))
    (
    SSet 14 (EBin OAdd u32 (EVar 14) (EInt 1)))
    (
    SSet 15 (EInt 0) ;;
    SLoop (EBin OLt s32 (EVar 15) (EInt 8))
      (
      SSet 15 (EBin OAdd u32 (EVar 15) (EInt 1)))
      (
      (
      (
      (
      SSet 16 (EBin OAdd u32 (EBin OMul u32 (EInt 256) (EVar 14)) (EBin OMul u32 (EInt 32) (EVar 15))) ;;
      SSet 17 (EBin OAdd u32 (EBin OMul u32 (EInt 32) (EVar 14)) (EBin OMul u32 (EInt 4) (EVar 15))) ;;
      SAlloc 18 (EInt 128) ;;
      SAlloc 19 (EInt 128) ;;
      SSet 20 (EInt 0) ;;
      SLoop (EBin OLe s32 (EVar 20) (EInt 3))
        (
        SSet 20 (EBin OAdd u32 (EVar 20) (EInt 1)))
        (
        SSet 21 (EAt (EVar 19) 32 (EVar 20)) ;;
        SAlloc 22 (EInt 32) ;;
        SCall None f_bf256_byte_combine_bits [(EVar 22); (ELoad 1 (EAt (EVar 1) 1 (EDiv ODiv u32 (EBin OAdd u32 (EVar 16) (EBin OMul u32 (EInt 8) (EVar 20))) (EInt 8))))] ;;
        SCopy (EVar 21) (EVar 22) (EInt 32) ;;
        SSet 23 (EAt (EVar 18) 32 (EVar 20)) ;;
        SAlloc 24 (EInt 32) ;;
        SCall None f_bf256_byte_combine_bits [(EVar 24); (ELoad 1 (EAt (EVar 2) 1 (EDiv ODiv u32 (EBin OAdd u32 (EVar 16) (EBin OMul u32 (EInt 8) (EVar 20))) (EInt 8))))] ;;
        SCopy (EVar 23) (EVar 24) (EInt 32)) ;;
      SSet 25 (EAt (EVar 3) 32 (EBin OAdd u32 (EVar 17) (EInt 0))) ;;
      SAlloc 26 (EInt 32) ;;
      SCall None f_bf256_mul [(EVar 26); (EVar 19); (EVar 12)] ;;
      SAlloc 27 (EInt 32) ;;
      SCall None f_bf256_mul [(EVar 27); (EAt (EVar 19) 32 (EInt 1)); (EVar 13)] ;;
      SSet 28 (EBin OXor u64 (ELoad 8 (EVar 26)) (ELoad 8 (EVar 27))) ;;
      SSet 29 (EBin OXor u64 (ELoad 8 (EAt (EVar 26) 1 (EInt 8))) (ELoad 8 (EAt (EVar 27) 1 (EInt 8)))) ;;
      SSet 30 (EBin OXor u64 (ELoad 8 (EAt (EVar 26) 1 (EInt 16))) (ELoad 8 (EAt (EVar 27) 1 (EInt 16)))) ;;
      SSet 31 (EBin OXor u64 (ELoad 8 (EAt (EVar 26) 1 (EInt 24))) (ELoad 8 (EAt (EVar 27) 1 (EInt 24)))) ;;
      SStore 8 (EVar 25) (EVar 28) ;;
      SStore 8 (EAt (EVar 25) 1 (EInt 8)) (EVar 29) ;;
      SStore 8 (EAt (EVar 25) 1 (EInt 16)) (EVar 30) ;;
      SStore 8 (EAt (EVar 25) 1 (EInt 24)) (EVar 31) ;;
      SSet 32 (EAt (EVar 3) 32 (EBin OAdd u32 (EVar 17) (EInt 0))) ;;
      SSet 33 (EAt (EVar 3) 32 (EBin OAdd u32 (EVar 17) (EInt 0))) ;;
      SSet 34 (EAt (EVar 19) 32 (EInt 2)) ;;
      SSet 35 (EBin OXor u64 (ELoad 8 (EVar 33)) (ELoad 8 (EVar 34)))) ;;
      (
      SSet 36 (EBin OXor u64 (ELoad 8 (EAt (EVar 33) 1 (EInt 8))) (ELoad 8 (EAt (EVar 34) 1 (EInt 8)))) ;;
      SSet 37 (EBin OXor u64 (ELoad 8 (EAt (EVar 33) 1 (EInt 16))) (ELoad 8 (EAt (EVar 34) 1 (EInt 16)))) ;;
      SSet 38 (EBin OXor u64 (ELoad 8 (EAt (EVar 33) 1 (EInt 24))) (ELoad 8 (EAt (EVar 34) 1 (EInt 24)))) ;;
      SStore 8 (EVar 32) (EVar 35) ;;
      SStore 8 (EAt (EVar 32) 1 (EInt 8)) (EVar 36) ;;
      SStore 8 (EAt (EVar 32) 1 (EInt 16)) (EVar 37) ;;
      SStore 8 (EAt (EVar 32) 1 (EInt 24)) (EVar 38) ;;
      SSet 39 (EAt (EVar 3) 32 (EBin OAdd u32 (EVar 17) (EInt 0))) ;;
      SSet 40 (EAt (EVar 3) 32 (EBin OAdd u32 (EVar 17) (EInt 0))) ;;
      SSet 41 (EAt (EVar 19) 32 (EInt 3)) ;;
      SSet 42 (EBin OXor u64 (ELoad 8 (EVar 40)) (ELoad 8 (EVar 41))) ;;
      SSet 43 (EBin OXor u64 (ELoad 8 (EAt (EVar 40) 1 (EInt 8))) (ELoad 8 (EAt (EVar 41) 1 (EInt 8)))) ;;
      SSet 44 (EBin OXor u64 (ELoad 8 (EAt (EVar 40) 1 (EInt 16))) (ELoad 8 (EAt (EVar 41) 1 (EInt 16)))) ;;
      SSet 45 (EBin OXor u64 (ELoad 8 (EAt (EVar 40) 1 (EInt 24))) (ELoad 8 (EAt (EVar 41) 1 (EInt 24)))) ;;
      SStore 8 (EVar 39) (EVar 42) ;;
      SStore 8 (EAt (EVar 39) 1 (EInt 8)) (EVar 43) ;;
      SStore 8 (EAt (EVar 39) 1 (EInt 16)) (EVar 44) ;;
      SStore 8 (EAt (EVar 39) 1 (EInt 24)) (EVar 45) ;;
      SSet 46 (EAt (EVar 3) 32 (EBin OAdd u32 (EVar 17) (EInt 0))) ;;
      SSet 47 (EAt (EVar 3) 32 (EBin OAdd u32 (EVar 17) (EInt 0))) ;;
      SSet 48 (EBin OXor u64 (ELoad 8 (EVar 47)) (ELoad 8 (EVar 18))) ;;
      SSet 49 (EBin OXor u64 (ELoad 8 (EAt (EVar 47) 1 (EInt 8))) (ELoad 8 (EAt (EVar 18) 1 (EInt 8)))) ;;
      SSet 50 (EBin OXor u64 (ELoad 8 (EAt (EVar 47) 1 (EInt 16))) (ELoad 8 (EAt (EVar 18) 1 (EInt 16)))))) ;;
      (
      (
      SSet 51 (EBin OXor u64 (ELoad 8 (EAt (EVar 47) 1 (EInt 24))) (ELoad 8 (EAt (EVar 18) 1 (EInt 24)))) ;;
      SStore 8 (EVar 46) (EVar 48) ;;
      SStore 8 (EAt (EVar 46) 1 (EInt 8)) (EVar 49) ;;
      SStore 8 (EAt (EVar 46) 1 (EInt 16)) (EVar 50) ;;
      SStore 8 (EAt (EVar 46) 1 (EInt 24)) (EVar 51) ;;
      SSet 52 (EAt (EVar 3) 32 (EBin OAdd u32 (EVar 17) (EInt 1))) ;;
      SAlloc 53 (EInt 32) ;;
      SCall None f_bf256_mul [(EVar 53); (EAt (EVar 19) 32 (EInt 1)); (EVar 12)] ;;
      SSet 54 (EBin OXor u64 (ELoad 8 (EVar 19)) (ELoad 8 (EVar 53))) ;;
      SSet 55 (EBin OXor u64 (ELoad 8 (EAt (EVar 19) 1 (EInt 8))) (ELoad 8 (EAt (EVar 53) 1 (EInt 8)))) ;;
      SSet 56 (EBin OXor u64 (ELoad 8 (EAt (EVar 19) 1 (EInt 16))) (ELoad 8 (EAt (EVar 53) 1 (EInt 16)))) ;;
      SSet 57 (EBin OXor u64 (ELoad 8 (EAt (EVar 19) 1 (EInt 24))) (ELoad 8 (EAt (EVar 53) 1 (EInt 24)))) ;;
      SStore 8 (EVar 52) (EVar 54) ;;
      SStore 8 (EAt (EVar 52) 1 (EInt 8)) (EVar 55) ;;
      SStore 8 (EAt (EVar 52) 1 (EInt 16)) (EVar 56) ;;
      SStore 8 (EAt (EVar 52) 1 (EInt 24)) (EVar 57) ;;
      SSet 58 (EAt (EVar 3) 32 (EBin OAdd u32 (EVar 17) (EInt 1))) ;;
      SSet 59 (EAt (EVar 3) 32 (EBin OAdd u32 (EVar 17) (EInt 1))) ;;
      SAlloc 60 (EInt 32) ;;
      SCall None f_bf256_mul [(EVar 60); (EAt (EVar 19) 32 (EInt 2)); (EVar 13)] ;;
      SSet 61 (EBin OXor u64 (ELoad 8 (EVar 59)) (ELoad 8 (EVar 60))) ;;
      SSet 62 (EBin OXor u64 (ELoad 8 (EAt (EVar 59) 1 (EInt 8))) (ELoad 8 (EAt (EVar 60) 1 (EInt 8)))) ;;
      SSet 63 (EBin OXor u64 (ELoad 8 (EAt (EVar 59) 1 (EInt 16))) (ELoad 8 (EAt (EVar 60) 1 (EInt 16))))) ;;
      (
      SSet 64 (EBin OXor u64 (ELoad 8 (EAt (EVar 59) 1 (EInt 24))) (ELoad 8 (EAt (EVar 60) 1 (EInt 24)))) ;;
      SStore 8 (EVar 58) (EVar 61) ;;
      SStore 8 (EAt (EVar 58) 1 (EInt 8)) (EVar 62) ;;
      SStore 8 (EAt (EVar 58) 1 (EInt 16)) (EVar 63) ;;
      SStore 8 (EAt (EVar 58) 1 (EInt 24)) (EVar 64) ;;
      SSet 65 (EAt (EVar 3) 32 (EBin OAdd u32 (EVar 17) (EInt 1))) ;;
      SSet 66 (EAt (EVar 3) 32 (EBin OAdd u32 (EVar 17) (EInt 1))) ;;
      SSet 67 (EAt (EVar 19) 32 (EInt 3)) ;;
      SSet 68 (EBin OXor u64 (ELoad 8 (EVar 66)) (ELoad 8 (EVar 67))) ;;
      SSet 69 (EBin OXor u64 (ELoad 8 (EAt (EVar 66) 1 (EInt 8))) (ELoad 8 (EAt (EVar 67) 1 (EInt 8)))) ;;
      SSet 70 (EBin OXor u64 (ELoad 8 (EAt (EVar 66) 1 (EInt 16))) (ELoad 8 (EAt (EVar 67) 1 (EInt 16)))) ;;
      SSet 71 (EBin OXor u64 (ELoad 8 (EAt (EVar 66) 1 (EInt 24))) (ELoad 8 (EAt (EVar 67) 1 (EInt 24)))) ;;
      SStore 8 (EVar 65) (EVar 68) ;;
      SStore 8 (EAt (EVar 65) 1 (EInt 8)) (EVar 69) ;;
      SStore 8 (EAt (EVar 65) 1 (EInt 16)) (EVar 70) ;;
      SStore 8 (EAt (EVar 65) 1 (EInt 24)) (EVar 71) ;;
      SSet 72 (EAt (EVar 3) 32 (EBin OAdd u32 (EVar 17) (EInt 1))) ;;
      SSet 73 (EAt (EVar 3) 32 (EBin OAdd u32 (EVar 17) (EInt 1))) ;;
      SSet 74 (EAt (EVar 18) 32 (EInt 1)) ;;
      SSet 75 (EBin OXor u64 (ELoad 8 (EVar 73)) (ELoad 8 (EVar 74))) ;;
      SSet 76 (EBin OXor u64 (ELoad 8 (EAt (EVar 73) 1 (EInt 8))) (ELoad 8 (EAt (EVar 74) 1 (EInt 8)))) ;;
      SSet 77 (EBin OXor u64 (ELoad 8 (EAt (EVar 73) 1 (EInt 16))) (ELoad 8 (EAt (EVar 74) 1 (EInt 16)))) ;;
      SSet 78 (EBin OXor u64 (ELoad 8 (EAt (EVar 73) 1 (EInt 24))) (ELoad 8 (EAt (EVar 74) 1 (EInt 24)))) ;;
      SStore 8 (EVar 72) (EVar 75)))) ;;
      (
      (
      (
      SStore 8 (EAt (EVar 72) 1 (EInt 8)) (EVar 76) ;;
      SStore 8 (EAt (EVar 72) 1 (EInt 16)) (EVar 77) ;;
      SStore 8 (EAt (EVar 72) 1 (EInt 24)) (EVar 78) ;;
      SSet 79 (EAt (EVar 3) 32 (EBin OAdd u32 (EVar 17) (EInt 2))) ;;
      SSet 80 (EAt (EVar 19) 32 (EInt 1)) ;;
      SSet 81 (EBin OXor u64 (ELoad 8 (EVar 19)) (ELoad 8 (EVar 80))) ;;
      SSet 82 (EBin OXor u64 (ELoad 8 (EAt (EVar 19) 1 (EInt 8))) (ELoad 8 (EAt (EVar 80) 1 (EInt 8)))) ;;
      SSet 83 (EBin OXor u64 (ELoad 8 (EAt (EVar 19) 1 (EInt 16))) (ELoad 8 (EAt (EVar 80) 1 (EInt 16)))) ;;
      SSet 84 (EBin OXor u64 (ELoad 8 (EAt (EVar 19) 1 (EInt 24))) (ELoad 8 (EAt (EVar 80) 1 (EInt 24)))) ;;
      SStore 8 (EVar 79) (EVar 81) ;;
      SStore 8 (EAt (EVar 79) 1 (EInt 8)) (EVar 82) ;;
      SStore 8 (EAt (EVar 79) 1 (EInt 16)) (EVar 83) ;;
      SStore 8 (EAt (EVar 79) 1 (EInt 24)) (EVar 84) ;;
      SSet 85 (EAt (EVar 3) 32 (EBin OAdd u32 (EVar 17) (EInt 2))) ;;
      SSet 86 (EAt (EVar 3) 32 (EBin OAdd u32 (EVar 17) (EInt 2))) ;;
      SAlloc 87 (EInt 32) ;;
      SCall None f_bf256_mul [(EVar 87); (EAt (EVar 19) 32 (EInt 2)); (EVar 12)] ;;
      SSet 88 (EBin OXor u64 (ELoad 8 (EVar 86)) (ELoad 8 (EVar 87))) ;;
      SSet 89 (EBin OXor u64 (ELoad 8 (EAt (EVar 86) 1 (EInt 8))) (ELoad 8 (EAt (EVar 87) 1 (EInt 8)))) ;;
      SSet 90 (EBin OXor u64 (ELoad 8 (EAt (EVar 86) 1 (EInt 16))) (ELoad 8 (EAt (EVar 87) 1 (EInt 16)))) ;;
      SSet 91 (EBin OXor u64 (ELoad 8 (EAt (EVar 86) 1 (EInt 24))) (ELoad 8 (EAt (EVar 87) 1 (EInt 24)))) ;;
      SStore 8 (EVar 85) (EVar 88) ;;
      SStore 8 (EAt (EVar 85) 1 (EInt 8)) (EVar 89)) ;;
      (
      SStore 8 (EAt (EVar 85) 1 (EInt 16)) (EVar 90) ;;
      SStore 8 (EAt (EVar 85) 1 (EInt 24)) (EVar 91) ;;
      SSet 92 (EAt (EVar 3) 32 (EBin OAdd u32 (EVar 17) (EInt 2))) ;;
      SSet 93 (EAt (EVar 3) 32 (EBin OAdd u32 (EVar 17) (EInt 2))) ;;
      SAlloc 94 (EInt 32) ;;
      SCall None f_bf256_mul [(EVar 94); (EAt (EVar 19) 32 (EInt 3)); (EVar 13)] ;;
      SSet 95 (EBin OXor u64 (ELoad 8 (EVar 93)) (ELoad 8 (EVar 94))) ;;
      SSet 96 (EBin OXor u64 (ELoad 8 (EAt (EVar 93) 1 (EInt 8))) (ELoad 8 (EAt (EVar 94) 1 (EInt 8)))) ;;
      SSet 97 (EBin OXor u64 (ELoad 8 (EAt (EVar 93) 1 (EInt 16))) (ELoad 8 (EAt (EVar 94) 1 (EInt 16)))) ;;
      SSet 98 (EBin OXor u64 (ELoad 8 (EAt (EVar 93) 1 (EInt 24))) (ELoad 8 (EAt (EVar 94) 1 (EInt 24)))) ;;
      SStore 8 (EVar 92) (EVar 95) ;;
      SStore 8 (EAt (EVar 92) 1 (EInt 8)) (EVar 96) ;;
      SStore 8 (EAt (EVar 92) 1 (EInt 16)) (EVar 97) ;;
      SStore 8 (EAt (EVar 92) 1 (EInt 24)) (EVar 98) ;;
      SSet 99 (EAt (EVar 3) 32 (EBin OAdd u32 (EVar 17) (EInt 2))) ;;
      SSet 100 (EAt (EVar 3) 32 (EBin OAdd u32 (EVar 17) (EInt 2))) ;;
      SSet 101 (EAt (EVar 18) 32 (EInt 2)) ;;
      SSet 102 (EBin OXor u64 (ELoad 8 (EVar 100)) (ELoad 8 (EVar 101))) ;;
      SSet 103 (EBin OXor u64 (ELoad 8 (EAt (EVar 100) 1 (EInt 8))) (ELoad 8 (EAt (EVar 101) 1 (EInt 8)))) ;;
      SSet 104 (EBin OXor u64 (ELoad 8 (EAt (EVar 100) 1 (EInt 16))) (ELoad 8 (EAt (EVar 101) 1 (EInt 16)))) ;;
      SSet 105 (EBin OXor u64 (ELoad 8 (EAt (EVar 100) 1 (EInt 24))) (ELoad 8 (EAt (EVar 101) 1 (EInt 24)))) ;;
      SStore 8 (EVar 99) (EVar 102) ;;
      SStore 8 (EAt (EVar 99) 1 (EInt 8)) (EVar 103) ;;
      SStore 8 (EAt (EVar 99) 1 (EInt 16)) (EVar 104))) ;;
      (
      (
      SStore 8 (EAt (EVar 99) 1 (EInt 24)) (EVar 105) ;;
      SSet 106 (EAt (EVar 3) 32 (EBin OAdd u32 (EVar 17) (EInt 3))) ;;
      SAlloc 107 (EInt 32) ;;
      SCall None f_bf256_mul [(EVar 107); (EVar 19); (EVar 13)] ;;
      SSet 108 (EAt (EVar 19) 32 (EInt 1)) ;;
      SSet 109 (EBin OXor u64 (ELoad 8 (EVar 107)) (ELoad 8 (EVar 108))) ;;
      SSet 110 (EBin OXor u64 (ELoad 8 (EAt (EVar 107) 1 (EInt 8))) (ELoad 8 (EAt (EVar 108) 1 (EInt 8)))) ;;
      SSet 111 (EBin OXor u64 (ELoad 8 (EAt (EVar 107) 1 (EInt 16))) (ELoad 8 (EAt (EVar 108) 1 (EInt 16)))) ;;
      SSet 112 (EBin OXor u64 (ELoad 8 (EAt (EVar 107) 1 (EInt 24))) (ELoad 8 (EAt (EVar 108) 1 (EInt 24)))) ;;
      SStore 8 (EVar 106) (EVar 109) ;;
      SStore 8 (EAt (EVar 106) 1 (EInt 8)) (EVar 110) ;;
      SStore 8 (EAt (EVar 106) 1 (EInt 16)) (EVar 111) ;;
      SStore 8 (EAt (EVar 106) 1 (EInt 24)) (EVar 112) ;;
      SSet 113 (EAt (EVar 3) 32 (EBin OAdd u32 (EVar 17) (EInt 3))) ;;
      SSet 114 (EAt (EVar 3) 32 (EBin OAdd u32 (EVar 17) (EInt 3))) ;;
      SSet 115 (EAt (EVar 19) 32 (EInt 2)) ;;
      SSet 116 (EBin OXor u64 (ELoad 8 (EVar 114)) (ELoad 8 (EVar 115))) ;;
      SSet 117 (EBin OXor u64 (ELoad 8 (EAt (EVar 114) 1 (EInt 8))) (ELoad 8 (EAt (EVar 115) 1 (EInt 8)))) ;;
      SSet 118 (EBin OXor u64 (ELoad 8 (EAt (EVar 114) 1 (EInt 16))) (ELoad 8 (EAt (EVar 115) 1 (EInt 16)))) ;;
      SSet 119 (EBin OXor u64 (ELoad 8 (EAt (EVar 114) 1 (EInt 24))) (ELoad 8 (EAt (EVar 115) 1 (EInt 24)))) ;;
      SStore 8 (EVar 113) (EVar 116) ;;
      SStore 8 (EAt (EVar 113) 1 (EInt 8)) (EVar 117) ;;
      SStore 8 (EAt (EVar 113) 1 (EInt 16)) (EVar 118)) ;;
      (
      SStore 8 (EAt (EVar 113) 1 (EInt 24)) (EVar 119) ;;
      SSet 120 (EAt (EVar 3) 32 (EBin OAdd u32 (EVar 17) (EInt 3))) ;;
      SSet 121 (EAt (EVar 3) 32 (EBin OAdd u32 (EVar 17) (EInt 3))) ;;
      SAlloc 122 (EInt 32) ;;
      SCall None f_bf256_mul [(EVar 122); (EAt (EVar 19) 32 (EInt 3)); (EVar 12)] ;;
      SSet 123 (EBin OXor u64 (ELoad 8 (EVar 121)) (ELoad 8 (EVar 122))) ;;
      SSet 124 (EBin OXor u64 (ELoad 8 (EAt (EVar 121) 1 (EInt 8))) (ELoad 8 (EAt (EVar 122) 1 (EInt 8)))) ;;
      SSet 125 (EBin OXor u64 (ELoad 8 (EAt (EVar 121) 1 (EInt 16))) (ELoad 8 (EAt (EVar 122) 1 (EInt 16)))) ;;
      SSet 126 (EBin OXor u64 (ELoad 8 (EAt (EVar 121) 1 (EInt 24))) (ELoad 8 (EAt (EVar 122) 1 (EInt 24)))) ;;
      SStore 8 (EVar 120) (EVar 123) ;;
      SStore 8 (EAt (EVar 120) 1 (EInt 8)) (EVar 124) ;;
      SStore 8 (EAt (EVar 120) 1 (EInt 16)) (EVar 125) ;;
      SStore 8 (EAt (EVar 120) 1 (EInt 24)) (EVar 126) ;;
      SSet 127 (EAt (EVar 3) 32 (EBin OAdd u32 (EVar 17) (EInt 3))) ;;
      SSet 128 (EAt (EVar 3) 32 (EBin OAdd u32 (EVar 17) (EInt 3))) ;;
      SSet 129 (EAt (EVar 18) 32 (EInt 3)) ;;
      SSet 130 (EBin OXor u64 (ELoad 8 (EVar 128)) (ELoad 8 (EVar 129))) ;;
      SSet 131 (EBin OXor u64 (ELoad 8 (EAt (EVar 128) 1 (EInt 8))) (ELoad 8 (EAt (EVar 129) 1 (EInt 8)))) ;;
      SSet 132 (EBin OXor u64 (ELoad 8 (EAt (EVar 128) 1 (EInt 16))) (ELoad 8 (EAt (EVar 129) 1 (EInt 16)))) ;;
      SSet 133 (EBin OXor u64 (ELoad 8 (EAt (EVar 128) 1 (EInt 24))) (ELoad 8 (EAt (EVar 129) 1 (EInt 24)))) ;;
      SStore 8 (EVar 127) (EVar 130) ;;
      SStore 8 (EAt (EVar 127) 1 (EInt 8)) (EVar 131) ;;
      SStore 8 (EAt (EVar 127) 1 (EInt 16)) (EVar 132) ;;
      SStore 8 (EAt (EVar 127) 1 (EInt 24)) (EVar 133))))))).

(** faest_aes.c:2320-2370, em_enc_forward_256.
    Variables: 1 = bf_z, 2 = bf_x, 3 = bf_y, 4 = j, 14 = bf_two, 15 = bf_three, 16 = j, 17 = c, 18 = i, 19 = iy, 20 = bf_x_hat, 21 = bf_z_hat, 22 = r. *)
Definition c_em_enc_forward_256 : func := Func [1%positive; 2%positive; 3%positive] (
  SSet 4 (EInt 0) ;;
  SLoop (EBin OLt s32 (EVar 4) (EInt 32))
    (
    SSet 4 (EBin OAdd u32 (EVar 4) (EInt 1)))
    (
    SSet 5 (EAt (EVar 3) 32 (EVar 4)) ;;
    SAlloc 6 (EInt 32) ;;
    SCall None f_bf256_byte_combine [(EVar 6); (EAt (EVar 1) 32 (EBin OMul u32 (EInt 8) (EVar 4)))] ;;
    SCopy (EVar 5) (EVar 6) (EInt 32) ;;
    SIf (EBin OEq s32 (EIsNull (EVar 2)) (EInt 0))
      (
      SSet 7 (EAt (EVar 3) 32 (EVar 4)) ;;
      SSet 8 (EAt (EVar 3) 32 (EVar 4)) ;;
      SAlloc 9 (EInt 32) ;;
      SCall None f_bf256_byte_combine [(EVar 9); (EAt (EVar 2) 32 (EBin OMul u32 (EInt 8) (EVar 4)))] ;;
      SSet 10 (EBin OXor u64 (ELoad 8 (EVar 8)) (ELoad 8 (EVar 9))) ;;
      SSet 11 (EBin OXor u64 (ELoad 8 (EAt (EVar 8) 1 (EInt 8))) (ELoad 8 (EAt (EVar 9) 1 (EInt 8)))) ;;
      SSet 12 (EBin OXor u64 (ELoad 8 (EAt (EVar 8) 1 (EInt 16))) (ELoad 8 (EAt (EVar 9) 1 (EInt 16)))) ;;
      SSet 13 (EBin OXor u64 (ELoad 8 (EAt (EVar 8) 1 (EInt 24))) (ELoad 8 (EAt (EVar 9) 1 (EInt 24)))) ;;
      SStore 8 (EVar 7) (EVar 10) ;;
      SStore 8 (EAt (EVar 7) 1 (EInt 8)) (EVar 11) ;;
      SStore 8 (EAt (EVar 7) 1 (EInt 16)) (EVar 12) ;;
      SStore 8 (EAt (EVar 7) 1 (EInt 24)) (EVar 13))
      SSkip) ;;
  SAlloc 14 (EInt 32) ;;
  SCall None f_bf256_byte_combine_bits [(EVar 14); (EInt 2)] ;;
  SAlloc 15 (EInt 32) ;;
  SCall None f_bf256_byte_combine_bits [(EVar 15); (EInt 3)] ;;
  SSet 16 (EInt 1) ;;
  SLoop (EBin OLt s32 (EVar 16) (EInt 14))
    (
    SSet 16 (EBin OAdd u32 (EVar 16) (EInt 1)))
    (
    SSet 17 (EInt 0) ;;
    SLoop (EBin OLt s32 (EVar 17) (EInt 8))
      (
      SSet 17 (EBin OAdd u32 (EVar 17) (EInt 1)))
      (
      (
      (
      (
      SSet 18 (EBin OAdd u32 (EBin OMul u32 (EInt 256) (EVar 16)) (EBin OMul u32 (EInt 32) (EVar 17))) ;;
      SSet 19 (EBin OAdd u32 (EBin OMul u32 (EInt 32) (EVar 16)) (EBin OMul u32 (EInt 4) (EVar 17))) ;;
      SAlloc 20 (EInt 128) ;;
      SAlloc 21 (EInt 128) ;;
      SSet 22 (EInt 0) ;;
      SLoop (EBin OLe s32 (EVar 22) (EInt 3))
        (
        SSet 22 (EBin OAdd u32 (EVar 22) (EInt 1)))
        (
        SSet 23 (EAt (EVar 21) 32 (EVar 22)) ;;
        SAlloc 24 (EInt 32) ;;
        SCall None f_bf256_byte_combine [(EVar 24); (EAt (EVar 1) 32 (EBin OAdd u32 (EVar 18) (EBin OMul u32 (EInt 8) (EVar 22))))] ;;
        SCopy (EVar 23) (EVar 24) (EInt 32) ;;
        SIf (EBin OEq s32 (EIsNull (EVar 2)) (EInt 0))
          (
          SSet 25 (EAt (EVar 20) 32 (EVar 22)) ;;
          SAlloc 26 (EInt 32) ;;
          SCall None f_bf256_byte_combine [(EVar 26); (EAt (EVar 2) 32 (EBin OAdd u32 (EVar 18) (EBin OMul u32 (EInt 8) (EVar 22))))] ;;
          SCopy (EVar 25) (EVar 26) (EInt 32))
          (
          SSet 27 (EAt (EVar 20) 32 (EVar 22)) ;;
          SAlloc 28 (EInt 32) ;;
          SCall None f_bf256_zero [(EVar 28)] ;;
          SCopy (EVar 27) (EVar 28) (EInt 32))) ;;
      SSet 29 (EAt (EVar 3) 32 (EBin OAdd u32 (EVar 19) (EInt 0))) ;;
      SAlloc 30 (EInt 32) ;;
      SCall None f_bf256_mul [(EVar 30); (EVar 21); (EVar 14)] ;;
      SAlloc 31 (EInt 32) ;;
      SCall None f_bf256_mul [(EVar 31); (EAt (EVar 21) 32 (EInt 1)); (EVar 15)] ;;
      SSet 32 (EBin OXor u64 (ELoad 8 (EVar 30)) (ELoad 8 (EVar 31))) ;;
      SSet 33 (EBin OXor u64 (ELoad 8 (EAt (EVar 30) 1 (EInt 8))) (ELoad 8 (EAt (EVar 31) 1 (EInt 8)))) ;;
      SSet 34 (EBin OXor u64 (ELoad 8 (EAt (EVar 30) 1 (EInt 16))) (ELoad 8 (EAt (EVar 31) 1 (EInt 16)))) ;;
      SSet 35 (EBin OXor u64 (ELoad 8 (EAt (EVar 30) 1 (EInt 24))) (ELoad 8 (EAt (EVar 31) 1 (EInt 24)))) ;;
      SStore 8 (EVar 29) (EVar 32) ;;
      SStore 8 (EAt (EVar 29) 1 (EInt 8)) (EVar 33) ;;
      SStore 8 (EAt (EVar 29) 1 (EInt 16)) (EVar 34) ;;
      SStore 8 (EAt (EVar 29) 1 (EInt 24)) (EVar 35) ;;
      SSet 36 (EAt (EVar 3) 32 (EBin OAdd u32 (EVar 19) (EInt 0))) ;;
      SSet 37 (EAt (EVar 3) 32 (EBin OAdd u32 (EVar 19) (EInt 0))) ;;
      SSet 38 (EAt (EVar 21) 32 (EInt 2)) ;;
      SSet 39 (EBin OXor u64 (ELoad 8 (EVar 37)) (ELoad 8 (EVar 38)))) ;;
      (
      SSet 40 (EBin OXor u64 (ELoad 8 (EAt (EVar 37) 1 (EInt 8))) (ELoad 8 (EAt (EVar 38) 1 (EInt 8)))) ;;
      SSet 41 (EBin OXor u64 (ELoad 8 (EAt (EVar 37) 1 (EInt 16))) (ELoad 8 (EAt (EVar 38) 1 (EInt 16)))) ;;
      SSet 42 (EBin OXor u64 (ELoad 8 (EAt (EVar 37) 1 (EInt 24))) (ELoad 8 (EAt (EVar 38) 1 (EInt 24)))) ;;
      SStore 8 (EVar 36) (EVar 39) ;;
      SStore 8 (EAt (EVar 36) 1 (EInt 8)) (EVar 40) ;;
      SStore 8 (EAt (EVar 36) 1 (EInt 16)) (EVar 41) ;;
      SStore 8 (EAt (EVar 36) 1 (EInt 24)) (EVar 42) ;;
      SSet 43 (EAt (EVar 3) 32 (EBin OAdd u32 (EVar 19) (EInt 0))) ;;
      SSet 44 (EAt (EVar 3) 32 (EBin OAdd u32 (EVar 19) (EInt 0))) ;;
      SSet 45 (EAt (EVar 21) 32 (EInt 3)) ;;
      SSet 46 (EBin OXor u64 (ELoad 8 (EVar 44)) (ELoad 8 (EVar 45))) ;;
      SSet 47 (EBin OXor u64 (ELoad 8 (EAt (EVar 44) 1 (EInt 8))) (ELoad 8 (EAt (EVar 45) 1 (EInt 8)))) ;;
      SSet 48 (EBin OXor u64 (ELoad 8 (EAt (EVar 44) 1 (EInt 16))) (ELoad 8 (EAt (EVar 45) 1 (EInt 16)))) ;;
      SSet 49 (EBin OXor u64 (ELoad 8 (EAt (EVar 44) 1 (EInt 24))) (ELoad 8 (EAt (EVar 45) 1 (EInt 24)))) ;;
      SStore 8 (EVar 43) (EVar 46) ;;
      SStore 8 (EAt (EVar 43) 1 (EInt 8)) (EVar 47) ;;
      SStore 8 (EAt (EVar 43) 1 (EInt 16)) (EVar 48) ;;
      SStore 8 (EAt (EVar 43) 1 (EInt 24)) (EVar 49) ;;
      SSet 50 (EAt (EVar 3) 32 (EBin OAdd u32 (EVar 19) (EInt 0))) ;;
      SSet 51 (EAt (EVar 3) 32 (EBin OAdd u32 (EVar 19) (EInt 0))) ;;
      SSet 52 (EBin OXor u64 (ELoad 8 (EVar 51)) (ELoad 8 (EVar 20))) ;;
      SSet 53 (EBin OXor u64 (ELoad 8 (EAt (EVar 51) 1 (EInt 8))) (ELoad 8 (EAt (EVar 20) 1 (EInt 8)))) ;;
      SSet 54 (EBin OXor u64 (ELoad 8 (EAt (EVar 51) 1 (EInt 16))) (ELoad 8 (EAt (EVar 20) 1 (EInt 16)))))) ;;
      (
      (
      SSet 55 (EBin OXor u64 (ELoad 8 (EAt (EVar 51) 1 (EInt 24))) (ELoad 8 (EAt (EVar 20) 1 (EInt 24)))) ;;
      SStore 8 (EVar 50) (EVar 52) ;;
      SStore 8 (EAt (EVar 50) 1 (EInt 8)) (EVar 53) ;;
      SStore 8 (EAt (EVar 50) 1 (EInt 16)) (EVar 54) ;;
      SStore 8 (EAt (EVar 50) 1 (EInt 24)) (EVar 55) ;;
      SSet 56 (EAt (EVar 3) 32 (EBin OAdd u32 (EVar 19) (EInt 1))) ;;
      SAlloc 57 (EInt 32) ;;
      SCall None f_bf256_mul [(EVar 57); (EAt (EVar 21) 32 (EInt 1)); (EVar 14)] ;;
      SSet 58 (EBin OXor u64 (ELoad 8 (EVar 21)) (ELoad 8 (EVar 57))) ;;
      SSet 59 (EBin OXor u64 (ELoad 8 (EAt (EVar 21) 1 (EInt 8))) (ELoad 8 (EAt (EVar 57) 1 (EInt 8)))) ;;
      SSet 60 (EBin OXor u64 (ELoad 8 (EAt (EVar 21) 1 (EInt 16))) (ELoad 8 (EAt (EVar 57) 1 (EInt 16)))) ;;
      SSet 61 (EBin OXor u64 (ELoad 8 (EAt (EVar 21) 1 (EInt 24))) (ELoad 8 (EAt (EVar 57) 1 (EInt 24)))) ;;
      SStore 8 (EVar 56) (EVar 58) ;;
      SStore 8 (EAt (EVar 56) 1 (EInt 8)) (EVar 59) ;;
      SStore 8 (EAt (EVar 56) 1 (EInt 16)) (EVar 60) ;;
      SStore 8 (EAt (EVar 56) 1 (EInt 24)) (EVar 61) ;;
      SSet 62 (EAt (EVar 3) 32 (EBin OAdd u32 (EVar 19) (EInt 1))) ;;
      SSet 63 (EAt (EVar 3) 32 (EBin OAdd u32 (EVar 19) (EInt 1))) ;;
      SAlloc 64 (EInt 32) ;;
      SCall None f_bf256_mul [(EVar 64); (EAt (EVar 21) 32 (EInt 2)); (EVar 15)] ;;
      SSet 65 (EBin OXor u64 (ELoad 8 (EVar 63)) (ELoad 8 (EVar 64))) ;;
      SSet 66 (EBin OXor u64 (ELoad 8 (EAt (EVar 63) 1 (EInt 8))) (ELoad 8 (EAt (EVar 64) 1 (EInt 8)))) ;;
      SSet 67 (EBin OXor u64 (ELoad 8 (EAt (EVar 63) 1 (EInt 16))) (ELoad 8 (EAt (EVar 64) 1 (EInt 16))))) ;;
      (
      SSet 68 (EBin OXor u64 (ELoad 8 (EAt (EVar 63) 1 (EInt 24))) (ELoad 8 (EAt (EVar 64) 1 (EInt 24)))) ;;
      SStore 8 (EVar 62) (EVar 65) ;;
      SStore 8 (EAt (EVar 62) 1 (EInt 8)) (EVar 66) ;;
      SStore 8 (EAt (EVar 62) 1 (EInt 16)) (EVar 67) ;;
      SStore 8 (EAt (EVar 62) 1 (EInt 24)) (EVar 68) ;;
      SSet 69 (EAt (EVar 3) 32 (EBin OAdd u32 (EVar 19) (EInt 1))) ;;
      SSet 70 (EAt (EVar 3) 32 (EBin OAdd u32 (EVar 19) (EInt 1))) ;;
      SSet 71 (EAt (EVar 21) 32 (EInt 3)) ;;
      SSet 72 (EBin OXor u64 (ELoad 8 (EVar 70)) (ELoad 8 (EVar 71))) ;;
      SSet 73 (EBin OXor u64 (ELoad 8 (EAt (EVar 70) 1 (EInt 8))) (ELoad 8 (EAt (EVar 71) 1 (EInt 8)))) ;;
      SSet 74 (EBin OXor u64 (ELoad 8 (EAt (EVar 70) 1 (EInt 16))) (ELoad 8 (EAt (EVar 71) 1 (EInt 16)))) ;;
      SSet 75 (EBin OXor u64 (ELoad 8 (EAt (EVar 70) 1 (EInt 24))) (ELoad 8 (EAt (EVar 71) 1 (EInt 24)))) ;;
      SStore 8 (EVar 69) (EVar 72) ;;
      SStore 8 (EAt (EVar 69) 1 (EInt 8)) (EVar 73) ;;
      SStore 8 (EAt (EVar 69) 1 (EInt 16)) (EVar 74) ;;
      SStore 8 (EAt (EVar 69) 1 (EInt 24)) (EVar 75) ;;
      SSet 76 (EAt (EVar 3) 32 (EBin OAdd u32 (EVar 19) (EInt 1))) ;;
      SSet 77 (EAt (EVar 3) 32 (EBin OAdd u32 (EVar 19) (EInt 1))) ;;
      SSet 78 (EAt (EVar 20) 32 (EInt 1)) ;;
      SSet 79 (EBin OXor u64 (ELoad 8 (EVar 77)) (ELoad 8 (EVar 78))) ;;
      SSet 80 (EBin OXor u64 (ELoad 8 (EAt (EVar 77) 1 (EInt 8))) (ELoad 8 (EAt (EVar 78) 1 (EInt 8)))) ;;
      SSet 81 (EBin OXor u64 (ELoad 8 (EAt (EVar 77) 1 (EInt 16))) (ELoad 8 (EAt (EVar 78) 1 (EInt 16)))) ;;
      SSet 82 (EBin OXor u64 (ELoad 8 (EAt (EVar 77) 1 (EInt 24))) (ELoad 8 (EAt (EVar 78) 1 (EInt 24)))) ;;
      SStore 8 (EVar 76) (EVar 79)))) ;;
      (
      (
      (
      SStore 8 (EAt (EVar 76) 1 (EInt 8)) (EVar 80) ;;
      SStore 8 (EAt (EVar 76) 1 (EInt 16)) (EVar 81) ;;
      SStore 8 (EAt (EVar 76) 1 (EInt 24)) (EVar 82) ;;
      SSet 83 (EAt (EVar 3) 32 (EBin OAdd u32 (EVar 19) (EInt 2))) ;;
      SSet 84 (EAt (EVar 21) 32 (EInt 1)) ;;
      SSet 85 (EBin OXor u64 (ELoad 8 (EVar 21)) (ELoad 8 (EVar 84))) ;;
      SSet 86 (EBin OXor u64 (ELoad 8 (EAt (EVar 21) 1 (EInt 8))) (ELoad 8 (EAt (EVar 84) 1 (EInt 8)))) ;;
      SSet 87 (EBin OXor u64 (ELoad 8 (EAt (EVar 21) 1 (EInt 16))) (ELoad 8 (EAt (EVar 84) 1 (EInt 16)))) ;;
      SSet 88 (EBin OXor u64 (ELoad 8 (EAt (EVar 21) 1 (EInt 24))) (ELoad 8 (EAt (EVar 84) 1 (EInt 24)))) ;;
      SStore 8 (EVar 83) (EVar 85) ;;
      SStore 8 (EAt (EVar 83) 1 (EInt 8)) (EVar 86) ;;
      SStore 8 (EAt (EVar 83) 1 (EInt 16)) (EVar 87) ;;
      SStore 8 (EAt (EVar 83) 1 (EInt 24)) (EVar 88) ;;
      SSet 89 (EAt (EVar 3) 32 (EBin OAdd u32 (EVar 19) (EInt 2))) ;;
      SSet 90 (EAt (EVar 3) 32 (EBin OAdd u32 (EVar 19) (EInt 2))) ;;
      SAlloc 91 (EInt 32) ;;
      SCall None f_bf256_mul [(EVar 91); (EAt (EVar 21) 32 (EInt 2)); (EVar 14)] ;;
      SSet 92 (EBin OXor u64 (ELoad 8 (EVar 90)) (ELoad 8 (EVar 91))) ;;
      SSet 93 (EBin OXor u64 (ELoad 8 (EAt (EVar 90) 1 (EInt 8))) (ELoad 8 (EAt (EVar 91) 1 (EInt 8)))) ;;
      SSet 94 (EBin OXor u64 (ELoad 8 (EAt (EVar 90) 1 (EInt 16))) (ELoad 8 (EAt (EVar 91) 1 (EInt 16)))) ;;
      SSet 95 (EBin OXor u64 (ELoad 8 (EAt (EVar 90) 1 (EInt 24))) (ELoad 8 (EAt (EVar 91) 1 (EInt 24)))) ;;
      SStore 8 (EVar 89) (EVar 92) ;;
      SStore 8 (EAt (EVar 89) 1 (EInt 8)) (EVar 93)) ;;
      (
      SStore 8 (EAt (EVar 89) 1 (EInt 16)) (EVar 94) ;;
      SStore 8 (EAt (EVar 89) 1 (EInt 24)) (EVar 95) ;;
      SSet 96 (EAt (EVar 3) 32 (EBin OAdd u32 (EVar 19) (EInt 2))) ;;
      SSet 97 (EAt (EVar 3) 32 (EBin OAdd u32 (EVar 19) (EInt 2))) ;;
      SAlloc 98 (EInt 32) ;;
      SCall None f_bf256_mul [(EVar 98); (EAt (EVar 21) 32 (EInt 3)); (EVar 15)] ;;
      SSet 99 (EBin OXor u64 (ELoad 8 (EVar 97)) (ELoad 8 (EVar 98))) ;;
      SSet 100 (EBin OXor u64 (ELoad 8 (EAt (EVar 97) 1 (EInt 8))) (ELoad 8 (EAt (EVar 98) 1 (EInt 8)))) ;;
      SSet 101 (EBin OXor u64 (ELoad 8 (EAt (EVar 97) 1 (EInt 16))) (ELoad 8 (EAt (EVar 98) 1 (EInt 16)))) ;;
      SSet 102 (EBin OXor u64 (ELoad 8 (EAt (EVar 97) 1 (EInt 24))) (ELoad 8 (EAt (EVar 98) 1 (EInt 24)))) ;;
      SStore 8 (EVar 96) (EVar 99) ;;
      SStore 8 (EAt (EVar 96) 1 (EInt 8)) (EVar 100) ;;
      SStore 8 (EAt (EVar 96) 1 (EInt 16)) (EVar 101) ;;
      SStore 8 (EAt (EVar 96) 1 (EInt 24)) (EVar 102) ;;
      SSet 103 (EAt (EVar 3) 32 (EBin OAdd u32 (EVar 19) (EInt 2))) ;;
      SSet 104 (EAt (EVar 3) 32 (EBin OAdd u32 (EVar 19) (EInt 2))) ;;
      SSet 105 (EAt (EVar 20) 32 (EInt 2)) ;;
      SSet 106 (EBin OXor u64 (ELoad 8 (EVar 104)) (ELoad 8 (EVar 105))) ;;
      SSet 107 (EBin OXor u64 (ELoad 8 (EAt (EVar 104) 1 (EInt 8))) (ELoad 8 (EAt (EVar 105) 1 (EInt 8)))) ;;
      SSet 108 (EBin OXor u64 (ELoad 8 (EAt (EVar 104) 1 (EInt 16))) (ELoad 8 (EAt (EVar 105) 1 (EInt 16)))) ;;
      SSet 109 (EBin OXor u64 (ELoad 8 (EAt (EVar 104) 1 (EInt 24))) (ELoad 8 (EAt (EVar 105) 1 (EInt 24)))) ;;
      SStore 8 (EVar 103) (EVar 106) ;;
      SStore 8 (EAt (EVar 103) 1 (EInt 8)) (EVar 107) ;;
      SStore 8 (EAt (EVar 103) 1 (EInt 16)) (EVar 108))) ;;
      (
      (
      SStore 8 (EAt (EVar 103) 1 (EInt 24)) (EVar 109) ;;
      SSet 110 (EAt (EVar 3) 32 (EBin OAdd u32 (EVar 19) (EInt 3))) ;;
      SAlloc 111 (EInt 32) ;;
      SCall None f_bf256_mul [(EVar 111); (EVar 21); (EVar 15)] ;;
      SSet 112 (EAt (EVar 21) 32 (EInt 1)) ;;
      SSet 113 (EBin OXor u64 (ELoad 8 (EVar 111)) (ELoad 8 (EVar 112))) ;;
      SSet 114 (EBin OXor u64 (ELoad 8 (EAt (EVar 111) 1 (EInt 8))) (ELoad 8 (EAt (EVar 112) 1 (EInt 8)))) ;;
      SSet 115 (EBin OXor u64 (ELoad 8 (EAt (EVar 111) 1 (EInt 16))) (ELoad 8 (EAt (EVar 112) 1 (EInt 16)))) ;;
      SSet 116 (EBin OXor u64 (ELoad 8 (EAt (EVar 111) 1 (EInt 24))) (ELoad 8 (EAt (EVar 112) 1 (EInt 24)))) ;;
      SStore 8 (EVar 110) (EVar 113) ;;
      SStore 8 (EAt (EVar 110) 1 (EInt 8)) (EVar 114) ;;
      SStore 8 (EAt (EVar 110) 1 (EInt 16)) (EVar 115) ;;
      SStore 8 (EAt (EVar 110) 1 (EInt 24)) (EVar 116) ;;
      SSet 117 (EAt (EVar 3) 32 (EBin OAdd u32 (EVar 19) (EInt 3))) ;;
      SSet 118 (EAt (EVar 3) 32 (EBin OAdd u32 (EVar 19) (EInt 3))) ;;
      SSet 119 (EAt (EVar 21) 32 (EInt 2)) ;;
      SSet 120 (EBin OXor u64 (ELoad 8 (EVar 118)) (ELoad 8 (EVar 119))) ;;
      SSet 121 (EBin OXor u64 (ELoad 8 (EAt (EVar 118) 1 (EInt 8))) (ELoad 8 (EAt (EVar 119) 1 (EInt 8)))) ;;
      SSet 122 (EBin OXor u64 (ELoad 8 (EAt (EVar 118) 1 (EInt 16))) (ELoad 8 (EAt (EVar 119) 1 (EInt 16)))) ;;
      SSet 123 (EBin OXor u64 (ELoad 8 (EAt (EVar 118) 1 (EInt 24))) (ELoad 8 (EAt (EVar 119) 1 (EInt 24)))) ;;
      SStore 8 (EVar 117) (EVar 120) ;;
      SStore 8 (EAt (EVar 117) 1 (EInt 8)) (EVar 121) ;;
      SStore 8 (EAt (EVar 117) 1 (EInt 16)) (EVar 122)) ;;
      (
      SStore 8 (EAt (EVar 117) 1 (EInt 24)) (EVar 123) ;;
      SSet 124 (EAt (EVar 3) 32 (EBin OAdd u32 (EVar 19) (EInt 3))) ;;
      SSet 125 (EAt (EVar 3) 32 (EBin OAdd u32 (EVar 19) (EInt 3))) ;;
      SAlloc 126 (EInt 32) ;;
      SCall None f_bf256_mul [(EVar 126); (EAt (EVar 21) 32 (EInt 3)); (EVar 14)] ;;
      SSet 127 (EBin OXor u64 (ELoad 8 (EVar 125)) (ELoad 8 (EVar 126))) ;;
      SSet 128 (EBin OXor u64 (ELoad 8 (EAt (EVar 125) 1 (EInt 8))) (ELoad 8 (EAt (EVar 126) 1 (EInt 8)))) ;;
      SSet 129 (EBin OXor u64 (ELoad 8 (EAt (EVar 125) 1 (EInt 16))) (ELoad 8 (EAt (EVar 126) 1 (EInt 16)))) ;;
      SSet 130 (EBin OXor u64 (ELoad 8 (EAt (EVar 125) 1 (EInt 24))) (ELoad 8 (EAt (EVar 126) 1 (EInt 24)))) ;;
      SStore 8 (EVar 124) (EVar 127) ;;
      SStore 8 (EAt (EVar 124) 1 (EInt 8)) (EVar 128) ;;
      SStore 8 (EAt (EVar 124) 1 (EInt 16)) (EVar 129) ;;
      SStore 8 (EAt (EVar 124) 1 (EInt 24)) (EVar 130) ;;
      SSet 131 (EAt (EVar 3) 32 (EBin OAdd u32 (EVar 19) (EInt 3))) ;;
      SSet 132 (EAt (EVar 3) 32 (EBin OAdd u32 (EVar 19) (EInt 3))) ;;
      SSet 133 (EAt (EVar 20) 32 (EInt 3)) ;;
      SSet 134 (EBin OXor u64 (ELoad 8 (EVar 132)) (ELoad 8 (EVar 133))) ;;
      SSet 135 (EBin OXor u64 (ELoad 8 (EAt (EVar 132) 1 (EInt 8))) (ELoad 8 (EAt (EVar 133) 1 (EInt 8)))) ;;
      SSet 136 (EBin OXor u64 (ELoad 8 (EAt (EVar 132) 1 (EInt 16))) (ELoad 8 (EAt (EVar 133) 1 (EInt 16)))) ;;
      SSet 137 (EBin OXor u64 (ELoad 8 (EAt (EVar 132) 1 (EInt 24))) (ELoad 8 (EAt (EVar 133) 1 (EInt 24)))) ;;
      SStore 8 (EVar 131) (EVar 134) ;;
      SStore 8 (EAt (EVar 131) 1 (EInt 8)) (EVar 135) ;;
      SStore 8 (EAt (EVar 131) 1 (EInt 16)) (EVar 136) ;;
      SStore 8 (EAt (EVar 131) 1 (EInt 24)) (EVar 137))))))).

(** faest_aes.c:2372-2401, em_enc_backward_256_1.
    Variables: 1 = z, 2 = x, 3 = z_out, 4 = y_out, 5 = j, 6 = c, 7 = r, 8 = icol, 9 = ird, 10 = z_tilde, 14 = y_tilde. *)
Definition c_em_enc_backward_256_1 : func := Func [1%positive; 2%positive; 3%positive; 4%positive] (
  SSet 5 (EInt 0) ;;
  SLoop (EBin OLt s32 (EVar 5) (EInt 14))
    (
    SSet 5 (EBin OAdd u32 (EVar 5) (EInt 1)))
    (
    SSet 6 (EInt 0) ;;
    SLoop (EBin OLt s32 (EVar 6) (EInt 8))
      (
      SSet 6 (EBin OAdd u32 (EVar 6) (EInt 1)))
      (
      SSet 7 (EInt 0) ;;
      SLoop (EBin OLe s32 (EVar 7) (EInt 3))
        (
        SSet 7 (EBin OAdd u32 (EVar 7) (EInt 1)))
        (
        SSet 8 (EDiv OMod u32 (EBin OAdd u32 (EBin OSub u32 (EVar 6) (EVar 7)) (EInt 8)) (EInt 8)) ;;
        SIf (ECond (EInt 1) (EBin ONe s32 (EBin OGe s32 (EVar 7) (EInt 2)) (EInt 0)) (EInt 0))
          (
          SSet 8 (EDiv OMod u32 (EBin OAdd u32 (EBin OSub u32 (EVar 8) (EInt 1)) (EInt 8)) (EInt 8)))
          SSkip ;;
        SSet 9 (EBin OAdd u32 (EBin OAdd u32 (EBin OAdd u32 (EInt 256) (EBin OMul u32 (EInt 256) (EVar 5))) (EBin OMul u32 (EInt 32) (EVar 8))) (EBin OMul u32 (EInt 8) (EVar 7))) ;;
        SSet 10 (EInt 0) ;;
        SIf (EBin OLt s32 (EVar 5) (EInt 13))
          (
          SSet 10 (ELoad 1 (EAt (EVar 1) 1 (EDiv ODiv u32 (EVar 9) (EInt 8)))))
          (
          SSet 10 (EUn OCast u8 (EBin OXor s32 (ELoad 1 (EAt (EVar 3) 1 (EDiv ODiv u32 (EBin OSub u32 (EVar 9) (EBin OMul u32 (EInt 256) (EBin OAdd u32 (EVar 5) (EInt 1)))) (EInt 8)))) (ELoad 1 (EAt (EVar 2) 1 (EDiv ODiv u32 (EVar 9) (EInt 8))))))) ;;
        SCall (Some 11%positive) f___rorb [(EVar 10); (EInt 7)] ;;
        SCall (Some 12%positive) f___rorb [(EVar 10); (EInt 5)] ;;
        SCall (Some 13%positive) f___rorb [(EVar 10); (EInt 2)] ;;
        SSet 14 (EUn OCast u8 (EBin OXor s32 (EBin OXor s32 (EBin OXor s32 (EVar 11) (EVar 12)) (EVar 13)) (EInt 5))) ;;
        SSet 15 (EAt (EVar 4) 32 (EBin OAdd u32 (EBin OAdd u32 (EBin OMul u32 (EInt 32) (EVar 5)) (EBin OMul u32 (EInt 4) (EVar 6))) (EVar 7))) ;;
        SAlloc 16 (EInt 32) ;;
        SCall None f_bf256_byte_combine_bits [(EVar 16); (EVar 14)] ;;
        SCopy (EVar 15) (EVar 16) (EInt 32))))).

(** faest_aes.c:2403-2446, em_enc_backward_256.
    Variables: 1 = bf_z, 2 = bf_x, 3 = bf_z_out, 4 = Mtag, 5 = Mkey, 6 = delta, 7 = y_out, 8 = bf_delta, 12 = factor, 20 = j, 21 = c, 22 = r, 23 = bf_z_tilde, 24 = icol, 25 = ird, 26 = i, 35 = bf_y_tilde, 36 = i. *)
Definition c_em_enc_backward_256 : func := Func [1%positive; 2%positive; 3%positive; 4%positive; 5%positive; 6%positive; 7%positive] (
  SAlloc 8 (EInt 32) ;;
  SIf (EBin OEq s32 (EIsNull (EVar 6)) (EInt 0))
    (
    SAlloc 9 (EInt 32) ;;
    SCall None f_bf256_load [(EVar 9); (EVar 6)] ;;
    SSet 11 (EVar 9))
    (
    SAlloc 10 (EInt 32) ;;
    SCall None f_bf256_zero [(EVar 10)] ;;
    SSet 11 (EVar 10)) ;;
  SCopy (EVar 8) (EVar 11) (EInt 32) ;;
  SAlloc 12 (EInt 32) ;;
  SSet 13 (EUn ONeg u64 (EBin OAnd u64 (EVar 5) (EInt 1))) ;;
  SAlloc 14 (EInt 32) ;;
  SCall None f_bf256_from_bit [(EVar 14); (EUn OCast u8 (EBin OXor s32 (EInt 1) (EVar 5)))] ;;
  SSet 15 (EUn ONeg u64 (EBin OAnd u64 (EUn OCast u64 (EBin OXor s32 (EInt 1) (EVar 4))) (EInt 1))) ;;
  SSet 16 (EBin OAnd u64 (EBin OXor u64 (EBin OAnd u64 (ELoad 8 (EVar 8)) (EVar 13)) (ELoad 8 (EVar 14))) (EVar 15)) ;;
  SSet 17 (EBin OAnd u64 (EBin OXor u64 (EBin OAnd u64 (ELoad 8 (EAt (EVar 8) 1 (EInt 8))) (EVar 13)) (ELoad 8 (EAt (EVar 14) 1 (EInt 8)))) (EVar 15)) ;;
  SSet 18 (EBin OAnd u64 (EBin OXor u64 (EBin OAnd u64 (ELoad 8 (EAt (EVar 8) 1 (EInt 16))) (EVar 13)) (ELoad 8 (EAt (EVar 14) 1 (EInt 16)))) (EVar 15)) ;;
  SSet 19 (EBin OAnd u64 (EBin OXor u64 (EBin OAnd u64 (ELoad 8 (EAt (EVar 8) 1 (EInt 24))) (EVar 13)) (ELoad 8 (EAt (EVar 14) 1 (EInt 24)))) (EVar 15)) ;;
  SStore 8 (EVar 12) (EVar 16) ;;
  SStore 8 (EAt (EVar 12) 1 (EInt 8)) (EVar 17) ;;
  SStore 8 (EAt (EVar 12) 1 (EInt 16)) (EVar 18) ;;
  SStore 8 (EAt (EVar 12) 1 (EInt 24)) (EVar 19) ;;
  SSet 20 (EInt 0) ;;
  SLoop (EBin OLt s32 (EVar 20) (EInt 14))
    (
    SSet 20 (EBin OAdd u32 (EVar 20) (EInt 1)))
    (
    SSet 21 (EInt 0) ;;
    SLoop (EBin OLt s32 (EVar 21) (EInt 8))
      (
      SSet 21 (EBin OAdd u32 (EVar 21) (EInt 1)))
      (
      SSet 22 (EInt 0) ;;
      SLoop (EBin OLe s32 (EVar 22) (EInt 3))
        (
        SSet 22 (EBin OAdd u32 (EVar 22) (EInt 1)))
        (
        SAlloc 23 (EInt 256) ;;
        SSet 24 (EDiv OMod u32 (EBin OAdd u32 (EBin OSub u32 (EVar 21) (EVar 22)) (EInt 8)) (EInt 8)) ;;
        SIf (ECond (EInt 1) (EBin ONe s32 (EBin OGe s32 (EVar 22) (EInt 2)) (EInt 0)) (EInt 0))
          (
          SSet 24 (EDiv OMod u32 (EBin OAdd u32 (EBin OSub u32 (EVar 24) (EInt 1)) (EInt 8)) (EInt 8)))
          SSkip ;;
        SSet 25 (EBin OAdd u32 (EBin OAdd u32 (EBin OAdd u32 (EInt 256) (EBin OMul u32 (EInt 256) (EVar 20))) (EBin OMul u32 (EInt 32) (EVar 24))) (EBin OMul u32 (EInt 8) (EVar 22))) ;;
        SIf (EBin OLt s32 (EVar 20) (EInt 13))
          (
          SCopy (EVar 23) (EAt (EVar 1) 32 (EVar 25)) (EInt 256))
          (
          SSet 26 (EInt 0) ;;
          SLoop (EBin OLt s32 (EVar 26) (EInt 8))
            (
            SSet 26 (EBin OAdd u32 (EVar 26) (EInt 1)))
            (
            SSet 27 (EAt (EVar 23) 32 (EVar 26)) ;;
            SCopy (EVar 27) (EAt (EVar 3) 32 (EBin OAdd u32 (EBin OSub u32 (EVar 25) (EBin OMul u32 (EInt 256) (EBin OAdd u32 (EVar 20) (EInt 1)))) (EVar 26))) (EInt 32) ;;
            SIf (EBin OEq s32 (EIsNull (EVar 2)) (EInt 0))
              (
              SSet 28 (EAt (EVar 23) 32 (EVar 26)) ;;
              SSet 29 (EAt (EVar 23) 32 (EVar 26)) ;;
              SSet 30 (EAt (EVar 2) 32 (EBin OAdd u32 (EVar 25) (EVar 26))) ;;
              SSet 31 (EBin OXor u64 (ELoad 8 (EVar 29)) (ELoad 8 (EVar 30))) ;;
              SSet 32 (EBin OXor u64 (ELoad 8 (EAt (EVar 29) 1 (EInt 8))) (ELoad 8 (EAt (EVar 30) 1 (EInt 8)))) ;;
              SSet 33 (EBin OXor u64 (ELoad 8 (EAt (EVar 29) 1 (EInt 16))) (ELoad 8 (EAt (EVar 30) 1 (EInt 16)))) ;;
              SSet 34 (EBin OXor u64 (ELoad 8 (EAt (EVar 29) 1 (EInt 24))) (ELoad 8 (EAt (EVar 30) 1 (EInt 24)))) ;;
              SStore 8 (EVar 28) (EVar 31) ;;
              SStore 8 (EAt (EVar 28) 1 (EInt 8)) (EVar 32) ;;
              SStore 8 (EAt (EVar 28) 1 (EInt 16)) (EVar 33) ;;
              SStore 8 (EAt (EVar 28) 1 (EInt 24)) (EVar 34))
              SSkip)) ;;
        SAlloc 35 (EInt 256) ;;
        SSet 36 (EInt 0) ;;
        SLoop (EBin OLt s32 (EVar 36) (EInt 8))
          (
          SSet 36 (EBin OAdd u32 (EVar 36) (EInt 1)))
          (
          SSet 37 (EAt (EVar 35) 32 (EVar 36)) ;;
          SSet 38 (EAt (EVar 23) 32 (EDiv OMod u32 (EBin OAdd u32 (EVar 36) (EInt 7)) (EInt 8))) ;;
          SSet 39 (EAt (EVar 23) 32 (EDiv OMod u32 (EBin OAdd u32 (EVar 36) (EInt 5)) (EInt 8))) ;;
          SSet 40 (EAt (EVar 23) 32 (EDiv OMod u32 (EBin OAdd u32 (EVar 36) (EInt 2)) (EInt 8))) ;;
          SSet 41 (EBin OXor u64 (EBin OXor u64 (ELoad 8 (EVar 38)) (ELoad 8 (EVar 39))) (ELoad 8 (EVar 40))) ;;
          SSet 42 (EBin OXor u64 (EBin OXor u64 (ELoad 8 (EAt (EVar 38) 1 (EInt 8))) (ELoad 8 (EAt (EVar 39) 1 (EInt 8)))) (ELoad 8 (EAt (EVar 40) 1 (EInt 8)))) ;;
          SSet 43 (EBin OXor u64 (EBin OXor u64 (ELoad 8 (EAt (EVar 38) 1 (EInt 16))) (ELoad 8 (EAt (EVar 39) 1 (EInt 16)))) (ELoad 8 (EAt (EVar 40) 1 (EInt 16)))) ;;
          SSet 44 (EBin OXor u64 (EBin OXor u64 (ELoad 8 (EAt (EVar 38) 1 (EInt 24))) (ELoad 8 (EAt (EVar 39) 1 (EInt 24)))) (ELoad 8 (EAt (EVar 40) 1 (EInt 24)))) ;;
          SStore 8 (EVar 37) (EVar 41) ;;
          SStore 8 (EAt (EVar 37) 1 (EInt 8)) (EVar 42) ;;
          SStore 8 (EAt (EVar 37) 1 (EInt 16)) (EVar 43) ;;
          SStore 8 (EAt (EVar 37) 1 (EInt 24)) (EVar 44)) ;;
        SSet 45 (EBin OXor u64 (ELoad 8 (EVar 35)) (ELoad 8 (EVar 12))) ;;
        SSet 46 (EBin OXor u64 (ELoad 8 (EAt (EVar 35) 1 (EInt 8))) (ELoad 8 (EAt (EVar 12) 1 (EInt 8)))) ;;
        SSet 47 (EBin OXor u64 (ELoad 8 (EAt (EVar 35) 1 (EInt 16))) (ELoad 8 (EAt (EVar 12) 1 (EInt 16)))) ;;
        SSet 48 (EBin OXor u64 (ELoad 8 (EAt (EVar 35) 1 (EInt 24))) (ELoad 8 (EAt (EVar 12) 1 (EInt 24)))) ;;
        SStore 8 (EVar 35) (EVar 45) ;;
        SStore 8 (EAt (EVar 35) 1 (EInt 8)) (EVar 46) ;;
        SStore 8 (EAt (EVar 35) 1 (EInt 16)) (EVar 47) ;;
        SStore 8 (EAt (EVar 35) 1 (EInt 24)) (EVar 48) ;;
        SSet 49 (EAt (EVar 35) 32 (EInt 2)) ;;
        SSet 50 (EAt (EVar 35) 32 (EInt 2)) ;;
        SSet 51 (EBin OXor u64 (ELoad 8 (EVar 50)) (ELoad 8 (EVar 12))) ;;
        SSet 52 (EBin OXor u64 (ELoad 8 (EAt (EVar 50) 1 (EInt 8))) (ELoad 8 (EAt (EVar 12) 1 (EInt 8)))) ;;
        SSet 53 (EBin OXor u64 (ELoad 8 (EAt (EVar 50) 1 (EInt 16))) (ELoad 8 (EAt (EVar 12) 1 (EInt 16)))) ;;
        SSet 54 (EBin OXor u64 (ELoad 8 (EAt (EVar 50) 1 (EInt 24))) (ELoad 8 (EAt (EVar 12) 1 (EInt 24)))) ;;
        SStore 8 (EVar 49) (EVar 51) ;;
        SStore 8 (EAt (EVar 49) 1 (EInt 8)) (EVar 52) ;;
        SStore 8 (EAt (EVar 49) 1 (EInt 16)) (EVar 53) ;;
        SStore 8 (EAt (EVar 49) 1 (EInt 24)) (EVar 54) ;;
        SSet 55 (EAt (EVar 7) 32 (EBin OAdd u32 (EBin OAdd u32 (EBin OMul u32 (EInt 32) (EVar 20)) (EBin OMul u32 (EInt 4) (EVar 21))) (EVar 22))) ;;
        SAlloc 56 (EInt 32) ;;
        SCall None f_bf256_byte_combine [(EVar 56); (EVar 35)] ;;
        SCopy (EVar 55) (EVar 56) (EInt 32))))).

(** faest_aes.c:2448-2473, em_enc_constraints_Mkey_0_256.
    Variables: 1 = out, 2 = x, 3 = w, 4 = bf_v, 5 = a0_ctx, 6 = a1_ctx, 7 = w_out, 8 = bf_s, 9 = bf_vs, 10 = bf_s_dash, 11 = bf_vs_dash, 12 = j, 13 = tmp. *)
Definition c_em_enc_constraints_Mkey_0_256 : func := Func [1%positive; 2%positive; 3%positive; 4%positive; 5%positive; 6%positive] (
  SAlloc 7 (EInt 32) ;;
  SCall None f_xor_u8_array [(EVar 1); (EVar 3); (EVar 7); (EInt 32)] ;;
  SAlloc 8 (EInt 14336) ;;
  SAlloc 9 (EInt 14336) ;;
  SAlloc 10 (EInt 14336) ;;
  SAlloc 11 (EInt 14336) ;;
  SCall None f_em_enc_forward_256_1 [(EVar 3); (EVar 2); (EVar 8)] ;;
  SCall None f_em_enc_forward_256 [(EVar 4); ENull; (EVar 9)] ;;
  SCall None f_em_enc_backward_256_1 [(EVar 3); (EVar 2); (EVar 7); (EVar 10)] ;;
  SCall None f_em_enc_backward_256 [(EVar 4); ENull; (EVar 4); (EInt 1); (EInt 0); ENull; (EVar 11)] ;;
  SSet 12 (EInt 0) ;;
  SLoop (EBin OLt s32 (EVar 12) (EInt 448))
    (
    SSet 12 (EBin OAdd u32 (EVar 12) (EInt 1)))
    (
    SAlloc 13 (EInt 32) ;;
    SCall None f_bf256_mul [(EVar 13); (EAt (EVar 9) 32 (EVar 12)); (EAt (EVar 11) 32 (EVar 12))] ;;
    SCall None f_zk_hash_256_update [(EVar 5); (EVar 13)] ;;
    SSet 14 (EAt (EVar 8) 32 (EVar 12)) ;;
    SSet 15 (EAt (EVar 9) 32 (EVar 12)) ;;
    SAlloc 16 (EInt 32) ;;
    SSet 17 (EBin OXor u64 (ELoad 8 (EVar 14)) (ELoad 8 (EVar 15))) ;;
    SSet 18 (EBin OXor u64 (ELoad 8 (EAt (EVar 14) 1 (EInt 8))) (ELoad 8 (EAt (EVar 15) 1 (EInt 8)))) ;;
    SSet 19 (EBin OXor u64 (ELoad 8 (EAt (EVar 14) 1 (EInt 16))) (ELoad 8 (EAt (EVar 15) 1 (EInt 16)))) ;;
    SSet 20 (EBin OXor u64 (ELoad 8 (EAt (EVar 14) 1 (EInt 24))) (ELoad 8 (EAt (EVar 15) 1 (EInt 24)))) ;;
    SStore 8 (EVar 16) (EVar 17) ;;
    SStore 8 (EAt (EVar 16) 1 (EInt 8)) (EVar 18) ;;
    SStore 8 (EAt (EVar 16) 1 (EInt 16)) (EVar 19) ;;
    SStore 8 (EAt (EVar 16) 1 (EInt 24)) (EVar 20) ;;
    SSet 21 (EAt (EVar 10) 32 (EVar 12)) ;;
    SSet 22 (EAt (EVar 11) 32 (EVar 12)) ;;
    SAlloc 23 (EInt 32) ;;
    SSet 24 (EBin OXor u64 (ELoad 8 (EVar 21)) (ELoad 8 (EVar 22))) ;;
    SSet 25 (EBin OXor u64 (ELoad 8 (EAt (EVar 21) 1 (EInt 8))) (ELoad 8 (EAt (EVar 22) 1 (EInt 8)))) ;;
    SSet 26 (EBin OXor u64 (ELoad 8 (EAt (EVar 21) 1 (EInt 16))) (ELoad 8 (EAt (EVar 22) 1 (EInt 16)))) ;;
    SSet 27 (EBin OXor u64 (ELoad 8 (EAt (EVar 21) 1 (EInt 24))) (ELoad 8 (EAt (EVar 22) 1 (EInt 24)))) ;;
    SStore 8 (EVar 23) (EVar 24) ;;
    SStore 8 (EAt (EVar 23) 1 (EInt 8)) (EVar 25) ;;
    SStore 8 (EAt (EVar 23) 1 (EInt 16)) (EVar 26) ;;
    SStore 8 (EAt (EVar 23) 1 (EInt 24)) (EVar 27) ;;
    SAlloc 28 (EInt 32) ;;
    SCall None f_bf256_mul [(EVar 28); (EVar 16); (EVar 23)] ;;
    SAlloc 29 (EInt 32) ;;
    SCall None f_bf256_one [(EVar 29)] ;;
    SAlloc 30 (EInt 32) ;;
    SSet 31 (EBin OXor u64 (EBin OXor u64 (ELoad 8 (EVar 28)) (ELoad 8 (EVar 13))) (ELoad 8 (EVar 29))) ;;
    SSet 32 (EBin OXor u64 (EBin OXor u64 (ELoad 8 (EAt (EVar 28) 1 (EInt 8))) (ELoad 8 (EAt (EVar 13) 1 (EInt 8)))) (ELoad 8 (EAt (EVar 29) 1 (EInt 8)))) ;;
    SSet 33 (EBin OXor u64 (EBin OXor u64 (ELoad 8 (EAt (EVar 28) 1 (EInt 16))) (ELoad 8 (EAt (EVar 13) 1 (EInt 16)))) (ELoad 8 (EAt (EVar 29) 1 (EInt 16)))) ;;
    SSet 34 (EBin OXor u64 (EBin OXor u64 (ELoad 8 (EAt (EVar 28) 1 (EInt 24))) (ELoad 8 (EAt (EVar 13) 1 (EInt 24)))) (ELoad 8 (EAt (EVar 29) 1 (EInt 24)))) ;;
    SStore 8 (EVar 30) (EVar 31) ;;
    SStore 8 (EAt (EVar 30) 1 (EInt 8)) (EVar 32) ;;
    SStore 8 (EAt (EVar 30) 1 (EInt 16)) (EVar 33) ;;
    SStore 8 (EAt (EVar 30) 1 (EInt 24)) (EVar 34) ;;
    SCall None f_zk_hash_256_update [(EVar 6); (EVar 30)])).

(** faest_aes.c:2475-2503, em_enc_constraints_Mkey_1_256.
    Variables: 1 = out, 2 = x, 3 = bf_q, 4 = delta, 5 = b0_ctx, 6 = bf_delta, 8 = bf_x, 9 = i, 17 = bf_q_out, 18 = i, 26 = bf_qs, 27 = bf_qs_dash, 28 = minus_part, 29 = j. *)
Definition c_em_enc_constraints_Mkey_1_256 : func := Func [1%positive; 2%positive; 3%positive; 4%positive; 5%positive] (
  SAlloc 6 (EInt 32) ;;
  SCall None f_bf256_load [(EVar 6); (EVar 4)] ;;
  SAlloc 7 (EInt 122880) ;;
  SSet 8 (EVar 7) ;;
  SSet 9 (EInt 0) ;;
  SLoop (EBin OLt s32 (EVar 9) (EInt 3840))
    (
    SSet 9 (EBin OAdd u32 (EVar 9) (EInt 1)))
    (
    SSet 10 (EAt (EVar 8) 32 (EVar 9)) ;;
    SSet 11 (EUn ONeg u64 (EBin OAnd u64 (EUn OCast u64 (EBin OAnd s32 (EBin OShr s32 (ELoad 1 (EAt (EVar 2) 1 (EDiv ODiv u32 (EVar 9) (EInt 8)))) (EDiv OMod u32 (EVar 9) (EInt 8))) (EInt 1))) (EInt 1))) ;;
    SSet 12 (EBin OAnd u64 (ELoad 8 (EVar 6)) (EVar 11)) ;;
    SSet 13 (EBin OAnd u64 (ELoad 8 (EAt (EVar 6) 1 (EInt 8))) (EVar 11)) ;;
    SSet 14 (EBin OAnd u64 (ELoad 8 (EAt (EVar 6) 1 (EInt 16))) (EVar 11)) ;;
    SSet 15 (EBin OAnd u64 (ELoad 8 (EAt (EVar 6) 1 (EInt 24))) (EVar 11)) ;;
    SStore 8 (EVar 10) (EVar 12) ;;
    SStore 8 (EAt (EVar 10) 1 (EInt 8)) (EVar 13) ;;
    SStore 8 (EAt (EVar 10) 1 (EInt 16)) (EVar 14) ;;
    SStore 8 (EAt (EVar 10) 1 (EInt 24)) (EVar 15)) ;;
  SAlloc 16 (EInt 8192) ;;
  SSet 17 (EVar 16) ;;
  SSet 18 (EInt 0) ;;
  SLoop (EBin OLt s32 (EVar 18) (EInt 256))
    (
    SSet 18 (EBin OAdd u32 (EVar 18) (EInt 1)))
    (
    SSet 19 (EAt (EVar 17) 32 (EVar 18)) ;;
    SSet 20 (EUn ONeg u64 (EBin OAnd u64 (EUn OCast u64 (EBin OAnd s32 (EBin OShr s32 (ELoad 1 (EAt (EVar 1) 1 (EDiv ODiv u32 (EVar 18) (EInt 8)))) (EDiv OMod u32 (EVar 18) (EInt 8))) (EInt 1))) (EInt 1))) ;;
    SSet 21 (EAt (EVar 3) 32 (EVar 18)) ;;
    SSet 22 (EBin OXor u64 (EBin OAnd u64 (ELoad 8 (EVar 6)) (EVar 20)) (ELoad 8 (EVar 21))) ;;
    SSet 23 (EBin OXor u64 (EBin OAnd u64 (ELoad 8 (EAt (EVar 6) 1 (EInt 8))) (EVar 20)) (ELoad 8 (EAt (EVar 21) 1 (EInt 8)))) ;;
    SSet 24 (EBin OXor u64 (EBin OAnd u64 (ELoad 8 (EAt (EVar 6) 1 (EInt 16))) (EVar 20)) (ELoad 8 (EAt (EVar 21) 1 (EInt 16)))) ;;
    SSet 25 (EBin OXor u64 (EBin OAnd u64 (ELoad 8 (EAt (EVar 6) 1 (EInt 24))) (EVar 20)) (ELoad 8 (EAt (EVar 21) 1 (EInt 24)))) ;;
    SStore 8 (EVar 19) (EVar 22) ;;
    SStore 8 (EAt (EVar 19) 1 (EInt 8)) (EVar 23) ;;
    SStore 8 (EAt (EVar 19) 1 (EInt 16)) (EVar 24) ;;
    SStore 8 (EAt (EVar 19) 1 (EInt 24)) (EVar 25)) ;;
  SAlloc 26 (EInt 14336) ;;
  SAlloc 27 (EInt 14336) ;;
  SCall None f_em_enc_forward_256 [(EVar 3); (EVar 8); (EVar 26)] ;;
  SCall None f_em_enc_backward_256 [(EVar 3); (EVar 8); (EVar 17); (EInt 0); (EInt 1); (EVar 4); (EVar 27)] ;;
  SEval (EVar 17) ;;
  SEval (EVar 8) ;;
  SAlloc 28 (EInt 32) ;;
  SCall None f_bf256_mul [(EVar 28); (EVar 6); (EVar 6)] ;;
  SSet 29 (EInt 0) ;;
  SLoop (EBin OLt s32 (EVar 29) (EInt 448))
    (
    SSet 29 (EBin OAdd u32 (EVar 29) (EInt 1)))
    (
    SAlloc 30 (EInt 32) ;;
    SCall None f_bf256_mul [(EVar 30); (EAt (EVar 26) 32 (EVar 29)); (EAt (EVar 27) 32 (EVar 29))] ;;
    SAlloc 31 (EInt 32) ;;
    SSet 32 (EBin OXor u64 (ELoad 8 (EVar 30)) (ELoad 8 (EVar 28))) ;;
    SSet 33 (EBin OXor u64 (ELoad 8 (EAt (EVar 30) 1 (EInt 8))) (ELoad 8 (EAt (EVar 28) 1 (EInt 8)))) ;;
    SSet 34 (EBin OXor u64 (ELoad 8 (EAt (EVar 30) 1 (EInt 16))) (ELoad 8 (EAt (EVar 28) 1 (EInt 16)))) ;;
    SSet 35 (EBin OXor u64 (ELoad 8 (EAt (EVar 30) 1 (EInt 24))) (ELoad 8 (EAt (EVar 28) 1 (EInt 24)))) ;;
    SStore 8 (EVar 31) (EVar 32) ;;
    SStore 8 (EAt (EVar 31) 1 (EInt 8)) (EVar 33) ;;
    SStore 8 (EAt (EVar 31) 1 (EInt 16)) (EVar 34) ;;
    SStore 8 (EAt (EVar 31) 1 (EInt 24)) (EVar 35) ;;
    SCall None f_zk_hash_256_update [(EVar 5); (EVar 31)])).

(** faest_aes.c:2505-2534, em_prove_256.
    Variables: 1 = w, 2 = u, 3 = V, 4 = in, 5 = out, 6 = chall, 7 = a_tilde, 8 = b_tilde, 9 = x, 10 = round_keys, 12 = tmp_x, 13 = r, 14 = i, 16 = bf_v, 17 = a0_ctx, 18 = h0, 19 = h1, 20 = s, 21 = t, 22 = sd, 23 = a1_ctx, 24 = h0, 25 = h1, 26 = s, 27 = t, 28 = sd. *)
Definition c_em_prove_256 : func := Func [1%positive; 2%positive; 3%positive; 4%positive; 5%positive; 6%positive; 7%positive; 8%positive] (
  SAlloc 9 (EInt 480) ;;
  SAlloc 10 (EInt 480) ;;
  SCall None f_rijndael256_init_round_keys [(EVar 10); (EVar 4)] ;;
  SSet 12 (EVar 9) ;;
  SSet 13 (EInt 0) ;;
  SLoop (EBin ONe s32 (EVar 13) (EInt 15))
    (
    SSet 13 (EBin OAdd u32 (EVar 13) (EInt 1)))
    (
    SSet 14 (EInt 0) ;;
    SLoop (EBin ONe s32 (EVar 14) (EInt 8))
      (
      SSet 14 (EBin OAdd u32 (EVar 14) (EInt 1)))
      (
      SCopy (EVar 12) (EAt (EAt (EVar 10) 32 (EVar 13)) 4 (EVar 14)) (EInt 4) ;;
      SSet 12 (EAt (EVar 12) 1 (EInt 4)))) ;;
  SCall (Some 15%positive) f_column_to_row_major_and_shrink_V_256 [(EVar 3); (EInt 3584)] ;;
  SSet 16 (EVar 15) ;;
  SAlloc 17 (EInt 5) ;;
  SAlloc 18 (EInt 32) ;;
  SStoreF (EVar 17) 5 0 (EVar 18) ;;
  SAlloc 19 (EInt 32) ;;
  SStoreF (EVar 17) 5 1 (EVar 19) ;;
  SAlloc 20 (EInt 32) ;;
  SStoreF (EVar 17) 5 2 (EVar 20) ;;
  SAlloc 21 (EInt 8) ;;
  SStoreF (EVar 17) 5 3 (EVar 21) ;;
  SAlloc 22 (EInt 1) ;;
  SStoreF (EVar 17) 5 4 (EVar 22) ;;
  SAlloc 23 (EInt 5) ;;
  SAlloc 24 (EInt 32) ;;
  SStoreF (EVar 23) 5 0 (EVar 24) ;;
  SAlloc 25 (EInt 32) ;;
  SStoreF (EVar 23) 5 1 (EVar 25) ;;
  SAlloc 26 (EInt 32) ;;
  SStoreF (EVar 23) 5 2 (EVar 26) ;;
  SAlloc 27 (EInt 8) ;;
  SStoreF (EVar 23) 5 3 (EVar 27) ;;
  SAlloc 28 (EInt 1) ;;
  SStoreF (EVar 23) 5 4 (EVar 28) ;;
  SCall None f_zk_hash_256_init [(EVar 17); (EVar 6)] ;;
  SCall None f_zk_hash_256_init [(EVar 23); (EVar 6)] ;;
  SCall None f_em_enc_constraints_Mkey_0_256 [(EVar 5); (EVar 9); (EVar 1); (EVar 16); (EVar 17); (EVar 23)] ;;
  SAlloc 29 (EInt 32) ;;
  SCall None f_bf256_load [(EVar 29); (EAt (EVar 2) 1 (EInt 448))] ;;
  SCall None f_zk_hash_256_finalize [(EVar 7); (EVar 23); (EVar 29)] ;;
  SAlloc 30 (EInt 32) ;;
  SCall None f_bf256_sum_poly [(EVar 30); (EAt (EVar 16) 32 (EInt 3584))] ;;
  SCall None f_zk_hash_256_finalize [(EVar 8); (EVar 17); (EVar 30)] ;;
  SEval (EVar 16)).

(** faest_aes.c:2536-2586, em_verify_256.
    Variables: 1 = d, 2 = Q, 3 = chall_2, 4 = chall_3, 5 = a_tilde, 6 = in, 7 = out, 8 = params, 9 = tau, 10 = t0, 11 = k0, 12 = t1, 13 = k1, 14 = delta, 15 = i, 16 = col, 17 = depth, 18 = decoded_challenge, 20 = j, 22 = bf_q, 23 = x, 24 = round_keys, 26 = tmp_x, 27 = r, 28 = i, 29 = b0_ctx, 30 = h0, 31 = h1, 32 = s, 33 = t, 34 = sd, 36 = q_tilde, 38 = bf_qtilde. *)
Definition c_em_verify_256 : func := Func [1%positive; 2%positive; 3%positive; 4%positive; 5%positive; 6%positive; 7%positive; 8%positive] (
  (
  SSet 9 (ELoad 2 (EAt (EVar 8) 1 (EInt 16))) ;;
  SSet 10 (ELoad 2 (EAt (EVar 8) 1 (EInt 22))) ;;
  SSet 11 (ELoad 2 (EAt (EVar 8) 1 (EInt 18))) ;;
  SSet 12 (ELoad 2 (EAt (EVar 8) 1 (EInt 24))) ;;
  SSet 13 (ELoad 2 (EAt (EVar 8) 1 (EInt 20))) ;;
  SSet 14 (EVar 4) ;;
  SSet 15 (EInt 0) ;;
  SSet 16 (EInt 0) ;;
  SLoop (EBin OLt s32 (EVar 15) (EVar 9))
    (
    SSet 15 (EBin OAdd u32 (EVar 15) (EInt 1)))
    (
    SSet 17 (ECond (EBin OLt s32 (EVar 15) (EVar 10)) (EVar 11) (EVar 13)) ;;
    SAlloc 18 (EInt 12) ;;
    SCall None f_ChalDec [(EVar 4); (EVar 15); (EVar 11); (EVar 10); (EVar 13); (EVar 12); (EVar 18)] ;;
    SSet 20 (EInt 0) ;;
    SLoop (EBin OLt s32 (EVar 20) (EVar 17))
      (
      SSet 20 (EBin OAdd u32 (EVar 20) (EInt 1)) ;;
      SSet 16 (EBin OAdd u32 (EVar 16) (EInt 1)))
      (
      SIf (EBin OEq s32 (ELoad 1 (EAt (EVar 18) 1 (EVar 20))) (EInt 1))
        (
        SCall None f_xor_u8_array [(EVar 1); (ELoadP (EAt (EVar 2) 1 (EVar 16))); (ELoadP (EAt (EVar 2) 1 (EVar 16))); (EInt 448)])
        SSkip)) ;;
  SCall (Some 21%positive) f_column_to_row_major_and_shrink_V_256 [(EVar 2); (EInt 3584)] ;;
  SSet 22 (EVar 21) ;;
  SAlloc 23 (EInt 480) ;;
  SAlloc 24 (EInt 480) ;;
  SCall None f_rijndael256_init_round_keys [(EVar 24); (EVar 6)] ;;
  SSet 26 (EVar 23) ;;
  SSet 27 (EInt 0) ;;
  SLoop (EBin ONe s32 (EVar 27) (EInt 15))
    (
    SSet 27 (EBin OAdd u32 (EVar 27) (EInt 1)))
    (
    SSet 28 (EInt 0) ;;
    SLoop (EBin ONe s32 (EVar 28) (EInt 8))
      (
      SSet 28 (EBin OAdd u32 (EVar 28) (EInt 1)))
      (
      SCopy (EVar 26) (EAt (EAt (EVar 24) 32 (EVar 27)) 4 (EVar 28)) (EInt 4) ;;
      SSet 26 (EAt (EVar 26) 1 (EInt 4)))) ;;
  SAlloc 29 (EInt 5) ;;
  SAlloc 30 (EInt 32) ;;
  SStoreF (EVar 29) 5 0 (EVar 30) ;;
  SAlloc 31 (EInt 32) ;;
  SStoreF (EVar 29) 5 1 (EVar 31) ;;
  SAlloc 32 (EInt 32) ;;
  SStoreF (EVar 29) 5 2 (EVar 32) ;;
  SAlloc 33 (EInt 8) ;;
  SStoreF (EVar 29) 5 3 (EVar 33) ;;
  SAlloc 34 (EInt 1)) ;;
  (
  SStoreF (EVar 29) 5 4 (EVar 34) ;;
  SCall None f_zk_hash_256_init [(EVar 29); (EVar 3)] ;;
  SCall None f_em_enc_constraints_Mkey_1_256 [(EVar 7); (EVar 23); (EVar 22); (EVar 14); (EVar 29)] ;;
  SAlloc 35 (EInt 32) ;;
  SSet 36 (EVar 35) ;;
  SAlloc 37 (EInt 32) ;;
  SCall None f_bf256_sum_poly [(EVar 37); (EAt (EVar 22) 32 (EInt 3584))] ;;
  SCall None f_zk_hash_256_finalize [(EVar 36); (EVar 29); (EVar 37)] ;;
  SEval (EVar 22) ;;
  SAlloc 38 (EInt 32) ;;
  SCall None f_bf256_load [(EVar 38); (EVar 36)] ;;
  SAlloc 39 (EInt 32) ;;
  SCall None f_bf256_load [(EVar 39); (EVar 5)] ;;
  SAlloc 40 (EInt 32) ;;
  SCall None f_bf256_load [(EVar 40); (EVar 14)] ;;
  SAlloc 41 (EInt 32) ;;
  SCall None f_bf256_mul [(EVar 41); (EVar 39); (EVar 40)] ;;
  SAlloc 42 (EInt 32) ;;
  SSet 43 (EBin OXor u64 (ELoad 8 (EVar 38)) (ELoad 8 (EVar 41))) ;;
  SSet 44 (EBin OXor u64 (ELoad 8 (EAt (EVar 38) 1 (EInt 8))) (ELoad 8 (EAt (EVar 41) 1 (EInt 8)))) ;;
  SSet 45 (EBin OXor u64 (ELoad 8 (EAt (EVar 38) 1 (EInt 16))) (ELoad 8 (EAt (EVar 41) 1 (EInt 16)))) ;;
  SSet 46 (EBin OXor u64 (ELoad 8 (EAt (EVar 38) 1 (EInt 24))) (ELoad 8 (EAt (EVar 41) 1 (EInt 24)))) ;;
  SStore 8 (EVar 42) (EVar 43) ;;
  SStore 8 (EAt (EVar 42) 1 (EInt 8)) (EVar 44) ;;
  SStore 8 (EAt (EVar 42) 1 (EInt 16)) (EVar 45) ;;
  SStore 8 (EAt (EVar 42) 1 (EInt 24)) (EVar 46) ;;
  SCall None f_bf256_store [(EVar 36); (EVar 42)] ;;
  SReturn (EVar 36))).

(** faest_aes.c:2590-2615, aes_prove.
    Variables: 1 = w, 2 = u, 3 = V, 4 = in, 5 = out, 6 = chall, 7 = a_tilde, 8 = b_tilde, 9 = params. *)
Definition c_aes_prove : func := Func [1%positive; 2%positive; 3%positive; 4%positive; 5%positive; 6%positive; 7%positive; 8%positive; 9%positive] (
  SSet 10 (ELoad 2 (EVar 9)) ;;
  SIf (EBin OEq s32 (EVar 10) (EInt 256))
    (
    SIf (ELoad 2 (EAt (EVar 9) 1 (EInt 12)))
      (
      SCall None f_aes_prove_256 [(EVar 1); (EVar 2); (EVar 3); (EVar 4); (EVar 5); (EVar 6); (EVar 7); (EVar 8); (EVar 9)])
      (
      SCall None f_em_prove_256 [(EVar 1); (EVar 2); (EVar 3); (EVar 4); (EVar 5); (EVar 6); (EVar 7); (EVar 8)]))
    (
    SIf (EBin OEq s32 (EVar 10) (EInt 192))
      (
      SIf (ELoad 2 (EAt (EVar 9) 1 (EInt 12)))
        (
        SCall None f_aes_prove_192 [(EVar 1); (EVar 2); (EVar 3); (EVar 4); (EVar 5); (EVar 6); (EVar 7); (EVar 8); (EVar 9)])
        (
        SCall None f_em_prove_192 [(EVar 1); (EVar 2); (EVar 3); (EVar 4); (EVar 5); (EVar 6); (EVar 7); (EVar 8)]))
      (
      SIf (ELoad 2 (EAt (EVar 9) 1 (EInt 12)))
        (
        SCall None f_aes_prove_128 [(EVar 1); (EVar 2); (EVar 3); (EVar 4); (EVar 5); (EVar 6); (EVar 7); (EVar 8); (EVar 9)])
        (
        SCall None f_em_prove_128 [(EVar 1); (EVar 2); (EVar 3); (EVar 4); (EVar 5); (EVar 6); (EVar 7); (EVar 8)])))).

(** faest_aes.c:2617-2640, aes_verify.
    Variables: 1 = d, 2 = Q, 3 = chall_2, 4 = chall_3, 5 = a_tilde, 6 = in, 7 = out, 8 = params. *)
Definition c_aes_verify : func := Func [1%positive; 2%positive; 3%positive; 4%positive; 5%positive; 6%positive; 7%positive; 8%positive] (
  SSet 9 (ELoad 2 (EVar 8)) ;;
  SIf (EBin OEq s32 (EVar 9) (EInt 256))
    (
    SIf (ELoad 2 (EAt (EVar 8) 1 (EInt 12)))
      (
      SCall (Some 10%positive) f_aes_verify_256 [(EVar 1); (EVar 2); (EVar 3); (EVar 4); (EVar 5); (EVar 6); (EVar 7); (EVar 8)] ;;
      SReturn (EVar 10))
      (
      SCall (Some 11%positive) f_em_verify_256 [(EVar 1); (EVar 2); (EVar 3); (EVar 4); (EVar 5); (EVar 6); (EVar 7); (EVar 8)] ;;
      SReturn (EVar 11)) ;;
    SIf (ELoad 2 (EAt (EVar 8) 1 (EInt 12)))
      (
      SCall (Some 12%positive) f_aes_verify_192 [(EVar 1); (EVar 2); (EVar 3); (EVar 4); (EVar 5); (EVar 6); (EVar 7); (EVar 8)] ;;
      SReturn (EVar 12))
      (
      SCall (Some 13%positive) f_em_verify_192 [(EVar 1); (EVar 2); (EVar 3); (EVar 4); (EVar 5); (EVar 6); (EVar 7); (EVar 8)] ;;
      SReturn (EVar 13)) ;;
    SIf (ELoad 2 (EAt (EVar 8) 1 (EInt 12)))
      (
      SCall (Some 14%positive) f_aes_verify_128 [(EVar 1); (EVar 2); (EVar 3); (EVar 4); (EVar 5); (EVar 6); (EVar 7); (EVar 8)] ;;
      SReturn (EVar 14))
      (
      SCall (Some 15%positive) f_em_verify_128 [(EVar 1); (EVar 2); (EVar 3); (EVar 4); (EVar 5); (EVar 6); (EVar 7); (EVar 8)] ;;
      SReturn (EVar 15)))
    (
    SIf (EBin OEq s32 (EVar 9) (EInt 192))
      (
      SIf (ELoad 2 (EAt (EVar 8) 1 (EInt 12)))
        (
        SCall (Some 16%positive) f_aes_verify_192 [(EVar 1); (EVar 2); (EVar 3); (EVar 4); (EVar 5); (EVar 6); (EVar 7); (EVar 8)] ;;
        SReturn (EVar 16))
        (
        SCall (Some 17%positive) f_em_verify_192 [(EVar 1); (EVar 2); (EVar 3); (EVar 4); (EVar 5); (EVar 6); (EVar 7); (EVar 8)] ;;
        SReturn (EVar 17)) ;;
      SIf (ELoad 2 (EAt (EVar 8) 1 (EInt 12)))
        (
        SCall (Some 18%positive) f_aes_verify_128 [(EVar 1); (EVar 2); (EVar 3); (EVar 4); (EVar 5); (EVar 6); (EVar 7); (EVar 8)] ;;
        SReturn (EVar 18))
        (
        SCall (Some 19%positive) f_em_verify_128 [(EVar 1); (EVar 2); (EVar 3); (EVar 4); (EVar 5); (EVar 6); (EVar 7); (EVar 8)] ;;
        SReturn (EVar 19)))
      (
      SIf (ELoad 2 (EAt (EVar 8) 1 (EInt 12)))
        (
        SCall (Some 20%positive) f_aes_verify_128 [(EVar 1); (EVar 2); (EVar 3); (EVar 4); (EVar 5); (EVar 6); (EVar 7); (EVar 8)] ;;
        SReturn (EVar 20))
        (
        SCall (Some 21%positive) f_em_verify_128 [(EVar 1); (EVar 2); (EVar 3); (EVar 4); (EVar 5); (EVar 6); (EVar 7); (EVar 8)] ;;
        SReturn (EVar 21))))).

