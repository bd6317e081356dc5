(** Generated by tools/ctc/c2v.py from the sources in /repo; see DESIGN.md. *)
From Coq Require Import ZArith List.
From Verif Require Import Model.CtLang Model.CtNames.
Import ListNotations.
Local Open Scope Z_scope.

(** /repo/fields.h:75-77, bf8_load.
    Variables: 1 = src. *)
Definition c_bf8_load : func := Func [1%positive] (
  SReturn (ELoad 1 (EVar 1))).

(** /repo/fields.h:79-81, bf8_store.
    Variables: 1 = dst, 2 = src. *)
Definition c_bf8_store : func := Func [1%positive; 2%positive] (
  SStore 1 (EVar 1) (EVar 2)).

(** /repo/fields.h:106-113, bf64_load.
    Variables: 1 = src, 2 = ret. *)
Definition c_bf64_load : func := Func [1%positive] (
  SAlloc 2 (EInt 8) ;;
  SCopy (EVar 2) (EVar 1) (EInt 8) ;;
  SReturn (ELoad 8 (EVar 2))).

(** /repo/fields.h:122-124, bf64_zero.
    Variables: . *)
Definition c_bf64_zero : func := Func [] (
  SReturn (EInt 0)).

(** /repo/fields.h:126-128, bf64_one.
    Variables: . *)
Definition c_bf64_one : func := Func [] (
  SReturn (EInt 1)).

(** /repo/fields.h:132-134, bf64_add.
    Variables: 1 = lhs, 2 = rhs. *)
Definition c_bf64_add : func := Func [1%positive; 2%positive] (
  SReturn (EBin OXor u64 (EVar 1) (EVar 2))).

(** /repo/fields.h:144-155, bf128_load.
    Variables: 1 = return, 2 = src, 3 = ret. *)
Definition c_bf128_load : func := Func [1%positive; 2%positive] (
  SAlloc 3 (EInt 16) ;;
  SCopy (EVar 3) (EVar 2) (EInt 16) ;;
  SCopy (EVar 1) (EVar 3) (EInt 16) ;;
  SReturn (EInt 0)).

(** /repo/fields.h:157-166, bf128_store.
    Variables: 1 = dst, 2 = src, 3 = src. *)
Definition c_bf128_store : func := Func [1%positive; 2%positive] (
  SAlloc 3 (EInt 16) ;;
  SCopy (EVar 3) (EVar 2) (EInt 16) ;;
  SCopy (EVar 1) (EVar 3) (EInt 16)).

(** /repo/fields.h:174-178, bf128_from_bf8.
    Variables: 1 = return, 2 = src, 3 = ret. *)
Definition c_bf128_from_bf8 : func := Func [1%positive; 2%positive] (
  SAlloc 3 (EInt 16) ;;
  SStore 8 (EVar 3) (EVar 2) ;;
  SCopy (EVar 1) (EVar 3) (EInt 16) ;;
  SReturn (EInt 0)).

(** /repo/fields.h:180-182, bf128_from_bit.
    Variables: 1 = return, 2 = bit. *)
Definition c_bf128_from_bit : func := Func [1%positive; 2%positive] (
  SAlloc 3 (EInt 16) ;;
  SCall None f_bf128_from_bf8 [(EVar 3); (EUn OCast u8 (EBin OAnd s32 (EVar 2) (EInt 1)))] ;;
  SCopy (EVar 1) (EVar 3) (EInt 16) ;;
  SReturn (EInt 0)).

(** /repo/fields.h:184-187, bf128_zero.
    Variables: 1 = return, 2 = ret. *)
Definition c_bf128_zero : func := Func [1%positive] (
  SAlloc 2 (EInt 16) ;;
  SCopy (EVar 1) (EVar 2) (EInt 16) ;;
  SReturn (EInt 0)).

(** /repo/fields.h:189-192, bf128_one.
    Variables: 1 = return, 2 = ret. *)
Definition c_bf128_one : func := Func [1%positive] (
  SAlloc 2 (EInt 16) ;;
  SStore 8 (EVar 2) (EInt 1) ;;
  SCopy (EVar 1) (EVar 2) (EInt 16) ;;
  SReturn (EInt 0)).

(** /repo/fields.h:220-234, bf192_load.
    Variables: 1 = return, 2 = src, 3 = ret. *)
Definition c_bf192_load : func := Func [1%positive; 2%positive] (
  SAlloc 3 (EInt 32) ;;
  SCopy (EVar 3) (EVar 2) (EInt 24) ;;
  SStore 8 (EAt (EVar 3) 8 (EInt 3)) (EInt 0) ;;
  SCopy (EVar 1) (EVar 3) (EInt 32) ;;
  SReturn (EInt 0)).

(** /repo/fields.h:236-245, bf192_store.
    Variables: 1 = dst, 2 = src, 3 = src. *)
Definition c_bf192_store : func := Func [1%positive; 2%positive] (
  SAlloc 3 (EInt 32) ;;
  SCopy (EVar 3) (EVar 2) (EInt 32) ;;
  SCopy (EVar 1) (EVar 3) (EInt 24)).

(** /repo/fields.h:253-257, bf192_from_bf8.
    Variables: 1 = return, 2 = src, 3 = ret. *)
Definition c_bf192_from_bf8 : func := Func [1%positive; 2%positive] (
  SAlloc 3 (EInt 32) ;;
  SStore 8 (EAt (EVar 3) 8 (EInt 3)) (EInt 0) ;;
  SStore 8 (EVar 3) (EVar 2) ;;
  SCopy (EVar 1) (EVar 3) (EInt 32) ;;
  SReturn (EInt 0)).

(** /repo/fields.h:259-261, bf192_from_bit.
    Variables: 1 = return, 2 = bit. *)
Definition c_bf192_from_bit : func := Func [1%positive; 2%positive] (
  SAlloc 3 (EInt 32) ;;
  SCall None f_bf192_from_bf8 [(EVar 3); (EUn OCast u8 (EBin OAnd s32 (EVar 2) (EInt 1)))] ;;
  SCopy (EVar 1) (EVar 3) (EInt 32) ;;
  SReturn (EInt 0)).

(** /repo/fields.h:263-266, bf192_zero.
    Variables: 1 = return, 2 = ret. *)
Definition c_bf192_zero : func := Func [1%positive] (
  SAlloc 2 (EInt 32) ;;
  SStore 8 (EAt (EVar 2) 8 (EInt 3)) (EInt 0) ;;
  SCopy (EVar 1) (EVar 2) (EInt 32) ;;
  SReturn (EInt 0)).

(** /repo/fields.h:268-271, bf192_one.
    Variables: 1 = return, 2 = ret. *)
Definition c_bf192_one : func := Func [1%positive] (
  SAlloc 2 (EInt 32) ;;
  SStore 8 (EVar 2) (EInt 1) ;;
  SStore 8 (EAt (EVar 2) 8 (EInt 3)) (EInt 0) ;;
  SCopy (EVar 1) (EVar 2) (EInt 32) ;;
  SReturn (EInt 0)).

(** /repo/fields.h:299-310, bf256_load.
    Variables: 1 = return, 2 = src, 3 = ret. *)
Definition c_bf256_load : func := Func [1%positive; 2%positive] (
  SAlloc 3 (EInt 32) ;;
  SCopy (EVar 3) (EVar 2) (EInt 32) ;;
  SCopy (EVar 1) (EVar 3) (EInt 32) ;;
  SReturn (EInt 0)).

(** /repo/fields.h:312-321, bf256_store.
    Variables: 1 = dst, 2 = src, 3 = src. *)
Definition c_bf256_store : func := Func [1%positive; 2%positive] (
  SAlloc 3 (EInt 32) ;;
  SCopy (EVar 3) (EVar 2) (EInt 32) ;;
  SCopy (EVar 1) (EVar 3) (EInt 32)).

(** /repo/fields.h:329-333, bf256_from_bf8.
    Variables: 1 = return, 2 = src, 3 = ret. *)
Definition c_bf256_from_bf8 : func := Func [1%positive; 2%positive] (
  SAlloc 3 (EInt 32) ;;
  SStore 8 (EVar 3) (EVar 2) ;;
  SCopy (EVar 1) (EVar 3) (EInt 32) ;;
  SReturn (EInt 0)).

(** /repo/fields.h:335-337, bf256_from_bit.
    Variables: 1 = return, 2 = bit. *)
Definition c_bf256_from_bit : func := Func [1%positive; 2%positive] (
  SAlloc 3 (EInt 32) ;;
  SCall None f_bf256_from_bf8 [(EVar 3); (EUn OCast u8 (EBin OAnd s32 (EVar 2) (EInt 1)))] ;;
  SCopy (EVar 1) (EVar 3) (EInt 32) ;;
  SReturn (EInt 0)).

(** /repo/fields.h:339-342, bf256_zero.
    Variables: 1 = return, 2 = ret. *)
Definition c_bf256_zero : func := Func [1%positive] (
  SAlloc 2 (EInt 32) ;;
  SCopy (EVar 1) (EVar 2) (EInt 32) ;;
  SReturn (EInt 0)).

(** /repo/fields.h:344-347, bf256_one.
    Variables: 1 = return, 2 = ret. *)
Definition c_bf256_one : func := Func [1%positive] (
  SAlloc 2 (EInt 32) ;;
  SStore 8 (EVar 2) (EInt 1) ;;
  SCopy (EVar 1) (EVar 2) (EInt 32) ;;
  SReturn (EInt 0)).

(** /repo/utils.h:16-20, xor_u8_array.
    Variables: 1 = a, 2 = b, 3 = out, 4 = len, 5 = i. *)
Definition c_xor_u8_array : func := Func [1%positive; 2%positive; 3%positive; 4%positive] (
  SSet 5 (EInt 0) ;;
  SLoop (EBin OLt s32 (EVar 5) (EVar 4))
    (
    SSet 5 (EBin OAdd u64 (EVar 5) (EInt 1)))
    (
    SStore 1 (EAt (EVar 3) 1 (EVar 5)) (EUn OCast u8 (EBin OXor s32 (ELoad 1 (EAt (EVar 1) 1 (EVar 5))) (ELoad 1 (EAt (EVar 2) 1 (EVar 5))))))).

(** /repo/utils.h:22-28, masked_xor_u8_array.
    Variables: 1 = a, 2 = b, 3 = out, 4 = mask_bit, 5 = len, 6 = mask, 7 = i. *)
Definition c_masked_xor_u8_array : func := Func [1%positive; 2%positive; 3%positive; 4%positive; 5%positive] (
  SSet 6 (EUn OCast u8 (EUn ONeg s32 (EBin OAnd s32 (EVar 4) (EInt 1)))) ;;
  SSet 7 (EInt 0) ;;
  SLoop (EBin OLt s32 (EVar 7) (EVar 5))
    (
    SSet 7 (EBin OAdd u64 (EVar 7) (EInt 1)))
    (
    SStore 1 (EAt (EVar 3) 1 (EVar 7)) (EUn OCast u8 (EBin OXor s32 (ELoad 1 (EAt (EVar 1) 1 (EVar 7))) (EBin OAnd s32 (ELoad 1 (EAt (EVar 2) 1 (EVar 7))) (EVar 6)))))).

(** /verif/tools/ctc/inc/x86intrin.h:3-3, __rorb.
    Variables: 1 = n, 2 = c. *)
Definition c___rorb : func := Func [1%positive; 2%positive] (
  SReturn (EUn OCast u8 (EBin OOr s32 (EBin OShr s32 (EVar 1) (EBin OAnd s32 (EVar 2) (EInt 7))) (EBin OShl s32 (EVar 1) (EBin OAnd s32 (EUn ONeg s32 (EVar 2)) (EInt 7)))))).

(** compat.c:113-126, faest_timingsafe_bcmp.
    Variables: 1 = a, 2 = b, 3 = len, 4 = p1, 5 = p2, 6 = res. *)
Definition c_faest_timingsafe_bcmp : func := Func [1%positive; 2%positive; 3%positive] (
  SSet 4 (EVar 1) ;;
  SSet 5 (EVar 2) ;;
  SSet 6 (EInt 0) ;;
  SLoop (EVar 3)
    (
    SSet 3 (EBin OSub u64 (EVar 3) (EInt 1)) ;;
    SSet 4 (EAt (EVar 4) 1 (EInt 1)) ;;
    SSet 5 (EAt (EVar 5) 1 (EInt 1)))
    (
    SSet 6 (EBin OOr u32 (EVar 6) (EUn OCast u32 (EBin OXor s32 (ELoad 1 (EVar 4)) (ELoad 1 (EVar 5)))))) ;;
  SReturn (EUn OCast s32 (EVar 6))).

(** compat.c:134-143, faest_explicit_bzero.
    Variables: 1 = a, 2 = len, 3 = p. *)
Definition c_faest_explicit_bzero : func := Func [1%positive; 2%positive] (
  SSet 3 (EVar 1) ;;
  SLoop (EVar 2)
    (
    SSet 3 (EAt (EVar 3) 1 (EInt 1)) ;;
    SSet 2 (EBin OSub u64 (EVar 2) (EInt 1)))
    (
    SStore 1 (EVar 3) (EInt 0))).

(** fields.c:35-43, bf8_mul.
    Variables: 1 = lhs, 2 = rhs, 3 = result, 4 = idx, 5 = mask. *)
Definition c_bf8_mul : func := Func [1%positive; 2%positive] (
  SSet 3 (EUn OCast u8 (EBin OAnd s32 (EUn ONeg s32 (EBin OAnd s32 (EVar 2) (EInt 1))) (EVar 1))) ;;
  SSet 4 (EInt 1) ;;
  SLoop (EBin OLt s32 (EVar 4) (EInt 8))
    (
    SSet 4 (EBin OAdd u32 (EVar 4) (EInt 1)))
    (
    SSet 5 (EUn OCast u8 (EUn ONeg s32 (EBin OAnd s32 (EBin OShr s32 (EVar 1) (EInt 7)) (EInt 1)))) ;;
    SSet 1 (EUn OCast u8 (EBin OXor s32 (EBin OShl s32 (EVar 1) (EInt 1)) (EBin OAnd s32 (EVar 5) (EInt 27)))) ;;
    SSet 3 (EUn OCast u8 (EBin OXor s32 (EVar 3) (EBin OAnd s32 (EUn ONeg s32 (EBin OAnd s32 (EBin OShr s32 (EVar 2) (EVar 4)) (EInt 1))) (EVar 1))))) ;;
  SReturn (EVar 3)).

(** fields.c:45-54, bf8_square.
    Variables: 1 = lhs, 2 = result, 3 = rhs, 4 = idx, 5 = mask. *)
Definition c_bf8_square : func := Func [1%positive] (
  SSet 2 (EUn OCast u8 (EBin OAnd s32 (EUn ONeg s32 (EBin OAnd s32 (EVar 1) (EInt 1))) (EVar 1))) ;;
  SSet 3 (EVar 1) ;;
  SSet 4 (EInt 1) ;;
  SLoop (EBin OLt s32 (EVar 4) (EInt 8))
    (
    SSet 4 (EBin OAdd u32 (EVar 4) (EInt 1)))
    (
    SSet 5 (EUn OCast u8 (EUn ONeg s32 (EBin OAnd s32 (EBin OShr s32 (EVar 1) (EInt 7)) (EInt 1)))) ;;
    SSet 1 (EUn OCast u8 (EBin OXor s32 (EBin OShl s32 (EVar 1) (EInt 1)) (EBin OAnd s32 (EVar 5) (EInt 27)))) ;;
    SSet 2 (EUn OCast u8 (EBin OXor s32 (EVar 2) (EBin OAnd s32 (EUn ONeg s32 (EBin OAnd s32 (EBin OShr s32 (EVar 3) (EVar 4)) (EInt 1))) (EVar 1))))) ;;
  SReturn (EVar 2)).

(** fields.c:56-68, bf8_inv.
    Variables: 1 = in, 3 = t2, 5 = t3, 7 = t5, 9 = t7, 11 = t14, 13 = t28, 15 = t56, 17 = t63, 19 = t126, 21 = t252. *)
Definition c_bf8_inv : func := Func [1%positive] (
  SCall (Some 2%positive) f_bf8_square [(EVar 1)] ;;
  SSet 3 (EVar 2) ;;
  SCall (Some 4%positive) f_bf8_mul [(EVar 1); (EVar 3)] ;;
  SSet 5 (EVar 4) ;;
  SCall (Some 6%positive) f_bf8_mul [(EVar 5); (EVar 3)] ;;
  SSet 7 (EVar 6) ;;
  SCall (Some 8%positive) f_bf8_mul [(EVar 7); (EVar 3)] ;;
  SSet 9 (EVar 8) ;;
  SCall (Some 10%positive) f_bf8_square [(EVar 9)] ;;
  SSet 11 (EVar 10) ;;
  SCall (Some 12%positive) f_bf8_square [(EVar 11)] ;;
  SSet 13 (EVar 12) ;;
  SCall (Some 14%positive) f_bf8_square [(EVar 13)] ;;
  SSet 15 (EVar 14) ;;
  SCall (Some 16%positive) f_bf8_mul [(EVar 15); (EVar 9)] ;;
  SSet 17 (EVar 16) ;;
  SCall (Some 18%positive) f_bf8_square [(EVar 17)] ;;
  SSet 19 (EVar 18) ;;
  SCall (Some 20%positive) f_bf8_square [(EVar 19)] ;;
  SSet 21 (EVar 20) ;;
  SCall (Some 22%positive) f_bf8_mul [(EVar 21); (EVar 3)] ;;
  SReturn (EVar 22)).

(** fields.c:78-86, bf64_mul.
    Variables: 1 = lhs, 2 = rhs, 3 = result, 4 = idx, 5 = mask. *)
Definition c_bf64_mul : func := Func [1%positive; 2%positive] (
  SSet 3 (EBin OAnd u64 (EUn ONeg u64 (EBin OAnd u64 (EVar 2) (EInt 1))) (EVar 1)) ;;
  SSet 4 (EInt 1) ;;
  SLoop (EBin ONe s32 (EVar 4) (EInt 64))
    (
    SSet 4 (EBin OAdd u32 (EVar 4) (EInt 1)))
    (
    SSet 5 (EUn ONeg u64 (EBin OAnd u64 (EBin OShr u64 (EVar 1) (EInt 63)) (EInt 1))) ;;
    SSet 1 (EBin OXor u64 (EBin OShl u64 (EVar 1) (EInt 1)) (EBin OAnd u64 (EVar 5) (EInt 27))) ;;
    SSet 3 (EBin OXor u64 (EVar 3) (EBin OAnd u64 (EUn ONeg u64 (EBin OAnd u64 (EBin OShr u64 (EVar 2) (EVar 4)) (EInt 1))) (EVar 1)))) ;;
  SReturn (EVar 3)).

(** fields.c:109-115, bf128_byte_combine.
    Variables: 1 = return, 2 = x, 3 = bf_out, 4 = i. *)
Definition c_bf128_byte_combine : func := Func [1%positive; 2%positive] (
  SAlloc 3 (EInt 16) ;;
  SCopy (EVar 3) (EVar 2) (EInt 16) ;;
  SSet 4 (EInt 1) ;;
  SLoop (EBin OLt s32 (EVar 4) (EInt 8))
    (
    SSet 4 (EBin OAdd u32 (EVar 4) (EInt 1)))
    (
    SAlloc 5 (EInt 16) ;;
    SCall None f_bf128_mul [(EVar 5); (EAt (EVar 2) 16 (EVar 4)); (EAt (EGlob 5) 16 (EBin OSub u32 (EVar 4) (EInt 1)))] ;;
    SSet 6 (EBin OXor u64 (ELoad 8 (EVar 3)) (ELoad 8 (EVar 5))) ;;
    SSet 7 (EBin OXor u64 (ELoad 8 (EAt (EVar 3) 1 (EInt 8))) (ELoad 8 (EAt (EVar 5) 1 (EInt 8)))) ;;
    SStore 8 (EVar 3) (EVar 6) ;;
    SStore 8 (EAt (EVar 3) 1 (EInt 8)) (EVar 7)) ;;
  SCopy (EVar 1) (EVar 3) (EInt 16) ;;
  SReturn (EInt 0)).

(** fields.c:117-133, bf128_byte_combine_bits.
    Variables: 1 = return, 2 = x. *)
Definition c_bf128_byte_combine_bits : func := Func [1%positive; 2%positive] (
  SAlloc 3 (EInt 16) ;;
  SCall None f_bf128_from_bit [(EVar 3); (EUn OCast u8 (EBin OAnd s32 (EVar 2) (EInt 1)))] ;;
  SSet 4 (EUn ONeg u64 (EBin OAnd u64 (EUn OCast u64 (EBin OAnd s32 (EBin OShr s32 (EVar 2) (EInt 1)) (EInt 1))) (EInt 1))) ;;
  SSet 5 (EAt (EGlob 5) 16 (EInt 1)) ;;
  SSet 6 (EUn ONeg u64 (EBin OAnd u64 (EUn OCast u64 (EBin OAnd s32 (EBin OShr s32 (EVar 2) (EInt 2)) (EInt 1))) (EInt 1))) ;;
  SSet 7 (EAt (EGlob 5) 16 (EInt 2)) ;;
  SSet 8 (EUn ONeg u64 (EBin OAnd u64 (EUn OCast u64 (EBin OAnd s32 (EBin OShr s32 (EVar 2) (EInt 3)) (EInt 1))) (EInt 1))) ;;
  SSet 9 (EAt (EGlob 5) 16 (EInt 3)) ;;
  SSet 10 (EUn ONeg u64 (EBin OAnd u64 (EUn OCast u64 (EBin OAnd s32 (EBin OShr s32 (EVar 2) (EInt 4)) (EInt 1))) (EInt 1))) ;;
  SSet 11 (EAt (EGlob 5) 16 (EInt 4)) ;;
  SSet 12 (EUn ONeg u64 (EBin OAnd u64 (EUn OCast u64 (EBin OAnd s32 (EBin OShr s32 (EVar 2) (EInt 5)) (EInt 1))) (EInt 1))) ;;
  SSet 13 (EAt (EGlob 5) 16 (EInt 5)) ;;
  SSet 14 (EUn ONeg u64 (EBin OAnd u64 (EUn OCast u64 (EBin OAnd s32 (EBin OShr s32 (EVar 2) (EInt 6)) (EInt 1))) (EInt 1))) ;;
  SSet 15 (EAt (EGlob 5) 16 (EInt 6)) ;;
  SSet 16 (EUn ONeg u64 (EBin OAnd u64 (EUn OCast u64 (EBin OAnd s32 (EBin OShr s32 (EVar 2) (EInt 7)) (EInt 1))) (EInt 1))) ;;
  SSet 17 (EBin OXor u64 (EBin OXor u64 (EBin OXor u64 (EBin OXor u64 (EBin OXor u64 (EBin OXor u64 (EBin OXor u64 (ELoad 8 (EVar 3)) (EBin OAnd u64 (ELoad 8 (EGlob 5)) (EVar 4))) (EBin OAnd u64 (ELoad 8 (EVar 5)) (EVar 6))) (EBin OAnd u64 (ELoad 8 (EVar 7)) (EVar 8))) (EBin OAnd u64 (ELoad 8 (EVar 9)) (EVar 10))) (EBin OAnd u64 (ELoad 8 (EVar 11)) (EVar 12))) (EBin OAnd u64 (ELoad 8 (EVar 13)) (EVar 14))) (EBin OAnd u64 (ELoad 8 (EVar 15)) (EVar 16))) ;;
  SSet 18 (EBin OXor u64 (EBin OXor u64 (EBin OXor u64 (EBin OXor u64 (EBin OXor u64 (EBin OXor u64 (EBin OXor u64 (ELoad 8 (EAt (EVar 3) 1 (EInt 8))) (EBin OAnd u64 (ELoad 8 (EAt (EGlob 5) 1 (EInt 8))) (EVar 4))) (EBin OAnd u64 (ELoad 8 (EAt (EVar 5) 1 (EInt 8))) (EVar 6))) (EBin OAnd u64 (ELoad 8 (EAt (EVar 7) 1 (EInt 8))) (EVar 8))) (EBin OAnd u64 (ELoad 8 (EAt (EVar 9) 1 (EInt 8))) (EVar 10))) (EBin OAnd u64 (ELoad 8 (EAt (EVar 11) 1 (EInt 8))) (EVar 12))) (EBin OAnd u64 (ELoad 8 (EAt (EVar 13) 1 (EInt 8))) (EVar 14))) (EBin OAnd u64 (ELoad 8 (EAt (EVar 15) 1 (EInt 8))) (EVar 16))) ;;
  SStore 8 (EVar 1) (EVar 17) ;;
  SStore 8 (EAt (EVar 1) 1 (EInt 8)) (EVar 18) ;;
  SReturn (EInt 0)).

(** fields.c:175-181, bf128_bit_to_uint64_mask.
    Variables: 1 = value, 2 = bit, 3 = value, 4 = byte_idx, 5 = bit_idx. *)
Definition c_bf128_bit_to_uint64_mask : func := Func [1%positive; 2%positive] (
  SAlloc 3 (EInt 16) ;;
  SCopy (EVar 3) (EVar 1) (EInt 16) ;;
  SSet 4 (EDiv ODiv u32 (EVar 2) (EInt 64)) ;;
  SSet 5 (EDiv OMod u32 (EVar 2) (EInt 64)) ;;
  SReturn (EUn ONeg u64 (EBin OAnd u64 (EBin OShr u64 (ELoad 8 (EAt (EVar 3) 8 (EVar 4))) (EVar 5)) (EInt 1)))).

(** fields.c:183-193, bf128_mul.
    Variables: 1 = return, 2 = lhs, 3 = rhs, 4 = lhs, 5 = rhs, 6 = result, 10 = idx, 12 = mask. *)
Definition c_bf128_mul : func := Func [1%positive; 2%positive; 3%positive] (
  SAlloc 4 (EInt 16) ;;
  SCopy (EVar 4) (EVar 2) (EInt 16) ;;
  SAlloc 5 (EInt 16) ;;
  SCopy (EVar 5) (EVar 3) (EInt 16) ;;
  SAlloc 6 (EInt 16) ;;
  SCall (Some 7%positive) f_bf128_bit_to_uint64_mask [(EVar 5); (EInt 0)] ;;
  SSet 8 (EBin OAnd u64 (ELoad 8 (EVar 4)) (EVar 7)) ;;
  SSet 9 (EBin OAnd u64 (ELoad 8 (EAt (EVar 4) 1 (EInt 8))) (EVar 7)) ;;
  SStore 8 (EVar 6) (EVar 8) ;;
  SStore 8 (EAt (EVar 6) 1 (EInt 8)) (EVar 9) ;;
  SSet 10 (EInt 1) ;;
  SLoop (EBin ONe s32 (EVar 10) (EInt 128))
    (
    SSet 10 (EBin OAdd u32 (EVar 10) (EInt 1)))
    (
    SCall (Some 11%positive) f_bf128_bit_to_uint64_mask [(EVar 4); (EInt 127)] ;;
    SSet 12 (EVar 11) ;;
    SAlloc 13 (EInt 16) ;;
    SCall None f_bf128_zero [(EVar 13)] ;;
    SSet 14 (EBin OOr u64 (EBin OShl u64 (ELoad 8 (EVar 4)) (EInt 1)) (ELoad 8 (EVar 13))) ;;
    SSet 15 (EBin OOr u64 (EBin OShl u64 (ELoad 8 (EAt (EVar 4) 1 (EInt 8))) (EInt 1)) (EBin OShr u64 (ELoad 8 (EVar 4)) (EInt 63))) ;;
    SStore 8 (EVar 4) (EVar 14) ;;
    SStore 8 (EAt (EVar 4) 1 (EInt 8)) (EVar 15) ;;
    SStore 8 (EVar 4) (EBin OXor u64 (ELoad 8 (EVar 4)) (EBin OAnd u64 (EVar 12) (EInt 135))) ;;
    SCall (Some 16%positive) f_bf128_bit_to_uint64_mask [(EVar 5); (EVar 10)] ;;
    SSet 17 (EBin OXor u64 (ELoad 8 (EVar 6)) (EBin OAnd u64 (ELoad 8 (EVar 4)) (EVar 16))) ;;
    SSet 18 (EBin OXor u64 (ELoad 8 (EAt (EVar 6) 1 (EInt 8))) (EBin OAnd u64 (ELoad 8 (EAt (EVar 4) 1 (EInt 8))) (EVar 16))) ;;
    SStore 8 (EVar 6) (EVar 17) ;;
    SStore 8 (EAt (EVar 6) 1 (EInt 8)) (EVar 18)) ;;
  SCopy (EVar 1) (EVar 6) (EInt 16) ;;
  SReturn (EInt 0)).

(** fields.c:195-205, bf128_mul_64.
    Variables: 1 = return, 2 = lhs, 3 = rhs, 4 = lhs, 5 = result, 9 = idx, 11 = mask. *)
Definition c_bf128_mul_64 : func := Func [1%positive; 2%positive; 3%positive] (
  SAlloc 4 (EInt 16) ;;
  SCopy (EVar 4) (EVar 2) (EInt 16) ;;
  SAlloc 5 (EInt 16) ;;
  SSet 6 (EUn ONeg u64 (EBin OAnd u64 (EBin OShr u64 (EVar 3) (EInt 0)) (EInt 1))) ;;
  SSet 7 (EBin OAnd u64 (ELoad 8 (EVar 4)) (EVar 6)) ;;
  SSet 8 (EBin OAnd u64 (ELoad 8 (EAt (EVar 4) 1 (EInt 8))) (EVar 6)) ;;
  SStore 8 (EVar 5) (EVar 7) ;;
  SStore 8 (EAt (EVar 5) 1 (EInt 8)) (EVar 8) ;;
  SSet 9 (EInt 1) ;;
  SLoop (EBin ONe s32 (EVar 9) (EInt 64))
    (
    SSet 9 (EBin OAdd u32 (EVar 9) (EInt 1)))
    (
    SCall (Some 10%positive) f_bf128_bit_to_uint64_mask [(EVar 4); (EInt 127)] ;;
    SSet 11 (EVar 10) ;;
    SAlloc 12 (EInt 16) ;;
    SCall None f_bf128_zero [(EVar 12)] ;;
    SSet 13 (EBin OOr u64 (EBin OShl u64 (ELoad 8 (EVar 4)) (EInt 1)) (ELoad 8 (EVar 12))) ;;
    SSet 14 (EBin OOr u64 (EBin OShl u64 (ELoad 8 (EAt (EVar 4) 1 (EInt 8))) (EInt 1)) (EBin OShr u64 (ELoad 8 (EVar 4)) (EInt 63))) ;;
    SStore 8 (EVar 4) (EVar 13) ;;
    SStore 8 (EAt (EVar 4) 1 (EInt 8)) (EVar 14) ;;
    SStore 8 (EVar 4) (EBin OXor u64 (ELoad 8 (EVar 4)) (EBin OAnd u64 (EVar 11) (EInt 135))) ;;
    SSet 15 (EUn ONeg u64 (EBin OAnd u64 (EBin OShr u64 (EVar 3) (EVar 9)) (EInt 1))) ;;
    SSet 16 (EBin OXor u64 (ELoad 8 (EVar 5)) (EBin OAnd u64 (ELoad 8 (EVar 4)) (EVar 15))) ;;
    SSet 17 (EBin OXor u64 (ELoad 8 (EAt (EVar 5) 1 (EInt 8))) (EBin OAnd u64 (ELoad 8 (EAt (EVar 4) 1 (EInt 8))) (EVar 15))) ;;
    SStore 8 (EVar 5) (EVar 16) ;;
    SStore 8 (EAt (EVar 5) 1 (EInt 8)) (EVar 17)) ;;
  SCopy (EVar 1) (EVar 5) (EInt 16) ;;
  SReturn (EInt 0)).

(** fields.c:213-219, bf128_dbl.
    Variables: 1 = return, 2 = lhs, 3 = lhs, 5 = mask. *)
Definition c_bf128_dbl : func := Func [1%positive; 2%positive] (
  SAlloc 3 (EInt 16) ;;
  SCopy (EVar 3) (EVar 2) (EInt 16) ;;
  SCall (Some 4%positive) f_bf128_bit_to_uint64_mask [(EVar 3); (EInt 127)] ;;
  SSet 5 (EVar 4) ;;
  SAlloc 6 (EInt 16) ;;
  SCall None f_bf128_zero [(EVar 6)] ;;
  SSet 7 (EBin OOr u64 (EBin OShl u64 (ELoad 8 (EVar 3)) (EInt 1)) (ELoad 8 (EVar 6))) ;;
  SSet 8 (EBin OOr u64 (EBin OShl u64 (ELoad 8 (EAt (EVar 3) 1 (EInt 8))) (EInt 1)) (EBin OShr u64 (ELoad 8 (EVar 3)) (EInt 63))) ;;
  SStore 8 (EVar 3) (EVar 7) ;;
  SStore 8 (EAt (EVar 3) 1 (EInt 8)) (EVar 8) ;;
  SStore 8 (EVar 3) (EBin OXor u64 (ELoad 8 (EVar 3)) (EBin OAnd u64 (EVar 5) (EInt 135))) ;;
  SCopy (EVar 1) (EVar 3) (EInt 16) ;;
  SReturn (EInt 0)).

(** fields.c:221-227, bf128_sum_poly.
    Variables: 1 = return, 2 = xs, 3 = ret, 4 = i. *)
Definition c_bf128_sum_poly : func := Func [1%positive; 2%positive] (
  SAlloc 3 (EInt 16) ;;
  SCopy (EVar 3) (EAt (EVar 2) 16 (EInt 127)) (EInt 16) ;;
  SSet 4 (EInt 1) ;;
  SLoop (EBin OLt s32 (EVar 4) (EInt 128))
    (
    SSet 4 (EBin OAdd u64 (EVar 4) (EInt 1)))
    (
    SAlloc 5 (EInt 16) ;;
    SCall None f_bf128_dbl [(EVar 5); (EVar 3)] ;;
    SSet 6 (EAt (EVar 2) 16 (EBin OSub u64 (EInt 127) (EVar 4))) ;;
    SSet 7 (EBin OXor u64 (ELoad 8 (EVar 5)) (ELoad 8 (EVar 6))) ;;
    SSet 8 (EBin OXor u64 (ELoad 8 (EAt (EVar 5) 1 (EInt 8))) (ELoad 8 (EAt (EVar 6) 1 (EInt 8)))) ;;
    SStore 8 (EVar 3) (EVar 7) ;;
    SStore 8 (EAt (EVar 3) 1 (EInt 8)) (EVar 8)) ;;
  SCopy (EVar 1) (EVar 3) (EInt 16) ;;
  SReturn (EInt 0)).

(** fields.c:255-261, bf192_byte_combine.
    Variables: 1 = return, 2 = x, 3 = bf_out, 4 = i. *)
Definition c_bf192_byte_combine : func := Func [1%positive; 2%positive] (
  SAlloc 3 (EInt 32) ;;
  SCopy (EVar 3) (EVar 2) (EInt 32) ;;
  SSet 4 (EInt 1) ;;
  SLoop (EBin OLt s32 (EVar 4) (EInt 8))
    (
    SSet 4 (EBin OAdd u32 (EVar 4) (EInt 1)))
    (
    SAlloc 5 (EInt 32) ;;
    SCall None f_bf192_mul [(EVar 5); (EAt (EVar 2) 32 (EVar 4)); (EAt (EGlob 6) 32 (EBin OSub u32 (EVar 4) (EInt 1)))] ;;
    SSet 6 (EBin OXor u64 (ELoad 8 (EVar 3)) (ELoad 8 (EVar 5))) ;;
    SSet 7 (EBin OXor u64 (ELoad 8 (EAt (EVar 3) 1 (EInt 8))) (ELoad 8 (EAt (EVar 5) 1 (EInt 8)))) ;;
    SSet 8 (EBin OXor u64 (ELoad 8 (EAt (EVar 3) 1 (EInt 16))) (ELoad 8 (EAt (EVar 5) 1 (EInt 16)))) ;;
    SSet 9 (EBin OXor u64 (ELoad 8 (EAt (EVar 3) 1 (EInt 24))) (ELoad 8 (EAt (EVar 5) 1 (EInt 24)))) ;;
    SStore 8 (EVar 3) (EVar 6) ;;
    SStore 8 (EAt (EVar 3) 1 (EInt 8)) (EVar 7) ;;
    SStore 8 (EAt (EVar 3) 1 (EInt 16)) (EVar 8) ;;
    SStore 8 (EAt (EVar 3) 1 (EInt 24)) (EVar 9)) ;;
  SCopy (EVar 1) (EVar 3) (EInt 32) ;;
  SReturn (EInt 0)).

(** fields.c:263-279, bf192_byte_combine_bits.
    Variables: 1 = return, 2 = x. *)
Definition c_bf192_byte_combine_bits : func := Func [1%positive; 2%positive] (
  SAlloc 3 (EInt 32) ;;
  SCall None f_bf192_from_bit [(EVar 3); (EUn OCast u8 (EBin OAnd s32 (EVar 2) (EInt 1)))] ;;
  SSet 4 (EUn ONeg u64 (EBin OAnd u64 (EUn OCast u64 (EBin OAnd s32 (EBin OShr s32 (EVar 2) (EInt 1)) (EInt 1))) (EInt 1))) ;;
  SSet 5 (EAt (EGlob 6) 32 (EInt 1)) ;;
  SSet 6 (EUn ONeg u64 (EBin OAnd u64 (EUn OCast u64 (EBin OAnd s32 (EBin OShr s32 (EVar 2) (EInt 2)) (EInt 1))) (EInt 1))) ;;
  SSet 7 (EAt (EGlob 6) 32 (EInt 2)) ;;
  SSet 8 (EUn ONeg u64 (EBin OAnd u64 (EUn OCast u64 (EBin OAnd s32 (EBin OShr s32 (EVar 2) (EInt 3)) (EInt 1))) (EInt 1))) ;;
  SSet 9 (EAt (EGlob 6) 32 (EInt 3)) ;;
  SSet 10 (EUn ONeg u64 (EBin OAnd u64 (EUn OCast u64 (EBin OAnd s32 (EBin OShr s32 (EVar 2) (EInt 4)) (EInt 1))) (EInt 1))) ;;
  SSet 11 (EAt (EGlob 6) 32 (EInt 4)) ;;
  SSet 12 (EUn ONeg u64 (EBin OAnd u64 (EUn OCast u64 (EBin OAnd s32 (EBin OShr s32 (EVar 2) (EInt 5)) (EInt 1))) (EInt 1))) ;;
  SSet 13 (EAt (EGlob 6) 32 (EInt 5)) ;;
  SSet 14 (EUn ONeg u64 (EBin OAnd u64 (EUn OCast u64 (EBin OAnd s32 (EBin OShr s32 (EVar 2) (EInt 6)) (EInt 1))) (EInt 1))) ;;
  SSet 15 (EAt (EGlob 6) 32 (EInt 6)) ;;
  SSet 16 (EUn ONeg u64 (EBin OAnd u64 (EUn OCast u64 (EBin OAnd s32 (EBin OShr s32 (EVar 2) (EInt 7)) (EInt 1))) (EInt 1))) ;;
  SSet 17 (EBin OXor u64 (EBin OXor u64 (EBin OXor u64 (EBin OXor u64 (EBin OXor u64 (EBin OXor u64 (EBin OXor u64 (ELoad 8 (EVar 3)) (EBin OAnd u64 (ELoad 8 (EGlob 6)) (EVar 4))) (EBin OAnd u64 (ELoad 8 (EVar 5)) (EVar 6))) (EBin OAnd u64 (ELoad 8 (EVar 7)) (EVar 8))) (EBin OAnd u64 (ELoad 8 (EVar 9)) (EVar 10))) (EBin OAnd u64 (ELoad 8 (EVar 11)) (EVar 12))) (EBin OAnd u64 (ELoad 8 (EVar 13)) (EVar 14))) (EBin OAnd u64 (ELoad 8 (EVar 15)) (EVar 16))) ;;
  SSet 18 (EBin OXor u64 (EBin OXor u64 (EBin OXor u64 (EBin OXor u64 (EBin OXor u64 (EBin OXor u64 (EBin OXor u64 (ELoad 8 (EAt (EVar 3) 1 (EInt 8))) (EBin OAnd u64 (ELoad 8 (EAt (EGlob 6) 1 (EInt 8))) (EVar 4))) (EBin OAnd u64 (ELoad 8 (EAt (EVar 5) 1 (EInt 8))) (EVar 6))) (EBin OAnd u64 (ELoad 8 (EAt (EVar 7) 1 (EInt 8))) (EVar 8))) (EBin OAnd u64 (ELoad 8 (EAt (EVar 9) 1 (EInt 8))) (EVar 10))) (EBin OAnd u64 (ELoad 8 (EAt (EVar 11) 1 (EInt 8))) (EVar 12))) (EBin OAnd u64 (ELoad 8 (EAt (EVar 13) 1 (EInt 8))) (EVar 14))) (EBin OAnd u64 (ELoad 8 (EAt (EVar 15) 1 (EInt 8))) (EVar 16))) ;;
  SSet 19 (EBin OXor u64 (EBin OXor u64 (EBin OXor u64 (EBin OXor u64 (EBin OXor u64 (EBin OXor u64 (EBin OXor u64 (ELoad 8 (EAt (EVar 3) 1 (EInt 16))) (EBin OAnd u64 (ELoad 8 (EAt (EGlob 6) 1 (EInt 16))) (EVar 4))) (EBin OAnd u64 (ELoad 8 (EAt (EVar 5) 1 (EInt 16))) (EVar 6))) (EBin OAnd u64 (ELoad 8 (EAt (EVar 7) 1 (EInt 16))) (EVar 8))) (EBin OAnd u64 (ELoad 8 (EAt (EVar 9) 1 (EInt 16))) (EVar 10))) (EBin OAnd u64 (ELoad 8 (EAt (EVar 11) 1 (EInt 16))) (EVar 12))) (EBin OAnd u64 (ELoad 8 (EAt (EVar 13) 1 (EInt 16))) (EVar 14))) (EBin OAnd u64 (ELoad 8 (EAt (EVar 15) 1 (EInt 16))) (EVar 16))) ;;
  SSet 20 (EBin OXor u64 (EBin OXor u64 (EBin OXor u64 (EBin OXor u64 (EBin OXor u64 (EBin OXor u64 (EBin OXor u64 (ELoad 8 (EAt (EVar 3) 1 (EInt 24))) (EBin OAnd u64 (ELoad 8 (EAt (EGlob 6) 1 (EInt 24))) (EVar 4))) (EBin OAnd u64 (ELoad 8 (EAt (EVar 5) 1 (EInt 24))) (EVar 6))) (EBin OAnd u64 (ELoad 8 (EAt (EVar 7) 1 (EInt 24))) (EVar 8))) (EBin OAnd u64 (ELoad 8 (EAt (EVar 9) 1 (EInt 24))) (EVar 10))) (EBin OAnd u64 (ELoad 8 (EAt (EVar 11) 1 (EInt 24))) (EVar 12))) (EBin OAnd u64 (ELoad 8 (EAt (EVar 13) 1 (EInt 24))) (EVar 14))) (EBin OAnd u64 (ELoad 8 (EAt (EVar 15) 1 (EInt 24))) (EVar 16))) ;;
  SStore 8 (EVar 1) (EVar 17) ;;
  SStore 8 (EAt (EVar 1) 1 (EInt 8)) (EVar 18) ;;
  SStore 8 (EAt (EVar 1) 1 (EInt 16)) (EVar 19) ;;
  SStore 8 (EAt (EVar 1) 1 (EInt 24)) (EVar 20) ;;
  SReturn (EInt 0)).

(** fields.c:314-325, bf192_shift_left_1.
    Variables: 1 = return, 2 = value, 3 = value, 4 = mask. *)
Definition c_bf192_shift_left_1 : func := Func [1%positive; 2%positive] (
  SAlloc 3 (EInt 32) ;;
  SCopy (EVar 3) (EVar 2) (EInt 32) ;;
  SAlloc 4 (EInt 32) ;;
  SStore 8 (EVar 4) (EInt 18446744073709551615) ;;
  SStore 8 (EAt (EVar 4) 8 (EInt 1)) (EInt 18446744073709551615) ;;
  SStore 8 (EAt (EVar 4) 8 (EInt 2)) (EInt 18446744073709551615) ;;
  SStore 8 (EAt (EVar 4) 8 (EInt 3)) (EInt 0) ;;
  SAlloc 5 (EInt 32) ;;
  SCall None f_bf192_zero [(EVar 5)] ;;
  SSet 6 (EBin OAnd u64 (EBin OOr u64 (EBin OShl u64 (ELoad 8 (EVar 3)) (EInt 1)) (ELoad 8 (EVar 5))) (ELoad 8 (EVar 4))) ;;
  SSet 7 (EBin OAnd u64 (EBin OOr u64 (EBin OShl u64 (ELoad 8 (EAt (EVar 3) 1 (EInt 8))) (EInt 1)) (EBin OShr u64 (ELoad 8 (EVar 3)) (EInt 63))) (ELoad 8 (EAt (EVar 4) 1 (EInt 8)))) ;;
  SSet 8 (EBin OAnd u64 (EBin OOr u64 (EBin OShl u64 (ELoad 8 (EAt (EVar 3) 1 (EInt 16))) (EInt 1)) (EBin OShr u64 (ELoad 8 (EAt (EVar 3) 1 (EInt 8))) (EInt 63))) (ELoad 8 (EAt (EVar 4) 1 (EInt 16)))) ;;
  SSet 9 (EBin OAnd u64 (EBin OOr u64 (EBin OShl u64 (ELoad 8 (EAt (EVar 3) 1 (EInt 24))) (EInt 1)) (ELoad 8 (EAt (EVar 5) 1 (EInt 8)))) (ELoad 8 (EAt (EVar 4) 1 (EInt 24)))) ;;
  SStore 8 (EVar 1) (EVar 6) ;;
  SStore 8 (EAt (EVar 1) 1 (EInt 8)) (EVar 7) ;;
  SStore 8 (EAt (EVar 1) 1 (EInt 16)) (EVar 8) ;;
  SStore 8 (EAt (EVar 1) 1 (EInt 24)) (EVar 9) ;;
  SReturn (EInt 0) ;;
  SCopy (EVar 1) (EVar 3) (EInt 32) ;;
  SReturn (EInt 0)).

(** fields.c:327-333, bf192_bit_to_uint64_mask.
    Variables: 1 = value, 2 = bit, 3 = value, 4 = byte_idx, 5 = bit_idx. *)
Definition c_bf192_bit_to_uint64_mask : func := Func [1%positive; 2%positive] (
  SAlloc 3 (EInt 32) ;;
  SCopy (EVar 3) (EVar 1) (EInt 32) ;;
  SSet 4 (EDiv ODiv u32 (EVar 2) (EInt 64)) ;;
  SSet 5 (EDiv OMod u32 (EVar 2) (EInt 64)) ;;
  SReturn (EUn ONeg u64 (EBin OAnd u64 (EBin OShr u64 (ELoad 8 (EAt (EVar 3) 8 (EVar 4))) (EVar 5)) (EInt 1)))).

(** fields.c:335-345, bf192_mul.
    Variables: 1 = return, 2 = lhs, 3 = rhs, 4 = lhs, 5 = rhs, 6 = result, 12 = idx, 14 = mask. *)
Definition c_bf192_mul : func := Func [1%positive; 2%positive; 3%positive] (
  SAlloc 4 (EInt 32) ;;
  SCopy (EVar 4) (EVar 2) (EInt 32) ;;
  SAlloc 5 (EInt 32) ;;
  SCopy (EVar 5) (EVar 3) (EInt 32) ;;
  SAlloc 6 (EInt 32) ;;
  SCall (Some 7%positive) f_bf192_bit_to_uint64_mask [(EVar 5); (EInt 0)] ;;
  SSet 8 (EBin OAnd u64 (ELoad 8 (EVar 4)) (EVar 7)) ;;
  SSet 9 (EBin OAnd u64 (ELoad 8 (EAt (EVar 4) 1 (EInt 8))) (EVar 7)) ;;
  SSet 10 (EBin OAnd u64 (ELoad 8 (EAt (EVar 4) 1 (EInt 16))) (EVar 7)) ;;
  SSet 11 (EBin OAnd u64 (ELoad 8 (EAt (EVar 4) 1 (EInt 24))) (EVar 7)) ;;
  SStore 8 (EVar 6) (EVar 8) ;;
  SStore 8 (EAt (EVar 6) 1 (EInt 8)) (EVar 9) ;;
  SStore 8 (EAt (EVar 6) 1 (EInt 16)) (EVar 10) ;;
  SStore 8 (EAt (EVar 6) 1 (EInt 24)) (EVar 11) ;;
  SSet 12 (EInt 1) ;;
  SLoop (EBin ONe s32 (EVar 12) (EInt 192))
    (
    SSet 12 (EBin OAdd u32 (EVar 12) (EInt 1)))
    (
    SCall (Some 13%positive) f_bf192_bit_to_uint64_mask [(EVar 4); (EInt 191)] ;;
    SSet 14 (EVar 13) ;;
    SAlloc 15 (EInt 32) ;;
    SCall None f_bf192_shift_left_1 [(EVar 15); (EVar 4)] ;;
    SCopy (EVar 4) (EVar 15) (EInt 32) ;;
    SStore 8 (EVar 4) (EBin OXor u64 (ELoad 8 (EVar 4)) (EBin OAnd u64 (EVar 14) (EInt 135))) ;;
    SCall (Some 16%positive) f_bf192_bit_to_uint64_mask [(EVar 5); (EVar 12)] ;;
    SSet 17 (EBin OXor u64 (ELoad 8 (EVar 6)) (EBin OAnd u64 (ELoad 8 (EVar 4)) (EVar 16))) ;;
    SSet 18 (EBin OXor u64 (ELoad 8 (EAt (EVar 6) 1 (EInt 8))) (EBin OAnd u64 (ELoad 8 (EAt (EVar 4) 1 (EInt 8))) (EVar 16))) ;;
    SSet 19 (EBin OXor u64 (ELoad 8 (EAt (EVar 6) 1 (EInt 16))) (EBin OAnd u64 (ELoad 8 (EAt (EVar 4) 1 (EInt 16))) (EVar 16))) ;;
    SSet 20 (EBin OXor u64 (ELoad 8 (EAt (EVar 6) 1 (EInt 24))) (EBin OAnd u64 (ELoad 8 (EAt (EVar 4) 1 (EInt 24))) (EVar 16))) ;;
    SStore 8 (EVar 6) (EVar 17) ;;
    SStore 8 (EAt (EVar 6) 1 (EInt 8)) (EVar 18) ;;
    SStore 8 (EAt (EVar 6) 1 (EInt 16)) (EVar 19) ;;
    SStore 8 (EAt (EVar 6) 1 (EInt 24)) (EVar 20)) ;;
  SCopy (EVar 1) (EVar 6) (EInt 32) ;;
  SReturn (EInt 0)).

(** fields.c:347-357, bf192_mul_64.
    Variables: 1 = return, 2 = lhs, 3 = rhs, 4 = lhs, 5 = result, 11 = idx, 13 = mask. *)
Definition c_bf192_mul_64 : func := Func [1%positive; 2%positive; 3%positive] (
  SAlloc 4 (EInt 32) ;;
  SCopy (EVar 4) (EVar 2) (EInt 32) ;;
  SAlloc 5 (EInt 32) ;;
  SSet 6 (EUn ONeg u64 (EBin OAnd u64 (EBin OShr u64 (EVar 3) (EInt 0)) (EInt 1))) ;;
  SSet 7 (EBin OAnd u64 (ELoad 8 (EVar 4)) (EVar 6)) ;;
  SSet 8 (EBin OAnd u64 (ELoad 8 (EAt (EVar 4) 1 (EInt 8))) (EVar 6)) ;;
  SSet 9 (EBin OAnd u64 (ELoad 8 (EAt (EVar 4) 1 (EInt 16))) (EVar 6)) ;;
  SSet 10 (EBin OAnd u64 (ELoad 8 (EAt (EVar 4) 1 (EInt 24))) (EVar 6)) ;;
  SStore 8 (EVar 5) (EVar 7) ;;
  SStore 8 (EAt (EVar 5) 1 (EInt 8)) (EVar 8) ;;
  SStore 8 (EAt (EVar 5) 1 (EInt 16)) (EVar 9) ;;
  SStore 8 (EAt (EVar 5) 1 (EInt 24)) (EVar 10) ;;
  SSet 11 (EInt 1) ;;
  SLoop (EBin ONe s32 (EVar 11) (EInt 64))
    (
    SSet 11 (EBin OAdd u32 (EVar 11) (EInt 1)))
    (
    SCall (Some 12%positive) f_bf192_bit_to_uint64_mask [(EVar 4); (EInt 191)] ;;
    SSet 13 (EVar 12) ;;
    SAlloc 14 (EInt 32) ;;
    SCall None f_bf192_shift_left_1 [(EVar 14); (EVar 4)] ;;
    SCopy (EVar 4) (EVar 14) (EInt 32) ;;
    SStore 8 (EVar 4) (EBin OXor u64 (ELoad 8 (EVar 4)) (EBin OAnd u64 (EVar 13) (EInt 135))) ;;
    SSet 15 (EUn ONeg u64 (EBin OAnd u64 (EBin OShr u64 (EVar 3) (EVar 11)) (EInt 1))) ;;
    SSet 16 (EBin OXor u64 (ELoad 8 (EVar 5)) (EBin OAnd u64 (ELoad 8 (EVar 4)) (EVar 15))) ;;
    SSet 17 (EBin OXor u64 (ELoad 8 (EAt (EVar 5) 1 (EInt 8))) (EBin OAnd u64 (ELoad 8 (EAt (EVar 4) 1 (EInt 8))) (EVar 15))) ;;
    SSet 18 (EBin OXor u64 (ELoad 8 (EAt (EVar 5) 1 (EInt 16))) (EBin OAnd u64 (ELoad 8 (EAt (EVar 4) 1 (EInt 16))) (EVar 15))) ;;
    SSet 19 (EBin OXor u64 (ELoad 8 (EAt (EVar 5) 1 (EInt 24))) (EBin OAnd u64 (ELoad 8 (EAt (EVar 4) 1 (EInt 24))) (EVar 15))) ;;
    SStore 8 (EVar 5) (EVar 16) ;;
    SStore 8 (EAt (EVar 5) 1 (EInt 8)) (EVar 17) ;;
    SStore 8 (EAt (EVar 5) 1 (EInt 16)) (EVar 18) ;;
    SStore 8 (EAt (EVar 5) 1 (EInt 24)) (EVar 19)) ;;
  SCopy (EVar 1) (EVar 5) (EInt 32) ;;
  SReturn (EInt 0)).

(** fields.c:365-371, bf192_dbl.
    Variables: 1 = return, 2 = lhs, 3 = lhs, 5 = mask. *)
Definition c_bf192_dbl : func := Func [1%positive; 2%positive] (
  SAlloc 3 (EInt 32) ;;
  SCopy (EVar 3) (EVar 2) (EInt 32) ;;
  SCall (Some 4%positive) f_bf192_bit_to_uint64_mask [(EVar 3); (EInt 191)] ;;
  SSet 5 (EVar 4) ;;
  SAlloc 6 (EInt 32) ;;
  SCall None f_bf192_shift_left_1 [(EVar 6); (EVar 3)] ;;
  SCopy (EVar 3) (EVar 6) (EInt 32) ;;
  SStore 8 (EVar 3) (EBin OXor u64 (ELoad 8 (EVar 3)) (EBin OAnd u64 (EVar 5) (EInt 135))) ;;
  SCopy (EVar 1) (EVar 3) (EInt 32) ;;
  SReturn (EInt 0)).

(** fields.c:373-379, bf192_sum_poly.
    Variables: 1 = return, 2 = xs, 3 = ret, 4 = i. *)
Definition c_bf192_sum_poly : func := Func [1%positive; 2%positive] (
  SAlloc 3 (EInt 32) ;;
  SCopy (EVar 3) (EAt (EVar 2) 32 (EInt 191)) (EInt 32) ;;
  SSet 4 (EInt 1) ;;
  SLoop (EBin OLt s32 (EVar 4) (EInt 192))
    (
    SSet 4 (EBin OAdd u64 (EVar 4) (EInt 1)))
    (
    SAlloc 5 (EInt 32) ;;
    SCall None f_bf192_dbl [(EVar 5); (EVar 3)] ;;
    SSet 6 (EAt (EVar 2) 32 (EBin OSub u64 (EInt 191) (EVar 4))) ;;
    SSet 7 (EBin OXor u64 (ELoad 8 (EVar 5)) (ELoad 8 (EVar 6))) ;;
    SSet 8 (EBin OXor u64 (ELoad 8 (EAt (EVar 5) 1 (EInt 8))) (ELoad 8 (EAt (EVar 6) 1 (EInt 8)))) ;;
    SSet 9 (EBin OXor u64 (ELoad 8 (EAt (EVar 5) 1 (EInt 16))) (ELoad 8 (EAt (EVar 6) 1 (EInt 16)))) ;;
    SSet 10 (EBin OXor u64 (ELoad 8 (EAt (EVar 5) 1 (EInt 24))) (ELoad 8 (EAt (EVar 6) 1 (EInt 24)))) ;;
    SStore 8 (EVar 3) (EVar 7) ;;
    SStore 8 (EAt (EVar 3) 1 (EInt 8)) (EVar 8) ;;
    SStore 8 (EAt (EVar 3) 1 (EInt 16)) (EVar 9) ;;
    SStore 8 (EAt (EVar 3) 1 (EInt 24)) (EVar 10)) ;;
  SCopy (EVar 1) (EVar 3) (EInt 32) ;;
  SReturn (EInt 0)).

(** fields.c:414-420, bf256_byte_combine.
    Variables: 1 = return, 2 = x, 3 = bf_out, 4 = i. *)
Definition c_bf256_byte_combine : func := Func [1%positive; 2%positive] (
  SAlloc 3 (EInt 32) ;;
  SCopy (EVar 3) (EVar 2) (EInt 32) ;;
  SSet 4 (EInt 1) ;;
  SLoop (EBin OLt s32 (EVar 4) (EInt 8))
    (
    SSet 4 (EBin OAdd u32 (EVar 4) (EInt 1)))
    (
    SAlloc 5 (EInt 32) ;;
    SCall None f_bf256_mul [(EVar 5); (EAt (EVar 2) 32 (EVar 4)); (EAt (EGlob 7) 32 (EBin OSub u32 (EVar 4) (EInt 1)))] ;;
    SSet 6 (EBin OXor u64 (ELoad 8 (EVar 3)) (ELoad 8 (EVar 5))) ;;
    SSet 7 (EBin OXor u64 (ELoad 8 (EAt (EVar 3) 1 (EInt 8))) (ELoad 8 (EAt (EVar 5) 1 (EInt 8)))) ;;
    SSet 8 (EBin OXor u64 (ELoad 8 (EAt (EVar 3) 1 (EInt 16))) (ELoad 8 (EAt (EVar 5) 1 (EInt 16)))) ;;
    SSet 9 (EBin OXor u64 (ELoad 8 (EAt (EVar 3) 1 (EInt 24))) (ELoad 8 (EAt (EVar 5) 1 (EInt 24)))) ;;
    SStore 8 (EVar 3) (EVar 6) ;;
    SStore 8 (EAt (EVar 3) 1 (EInt 8)) (EVar 7) ;;
    SStore 8 (EAt (EVar 3) 1 (EInt 16)) (EVar 8) ;;
    SStore 8 (EAt (EVar 3) 1 (EInt 24)) (EVar 9)) ;;
  SCopy (EVar 1) (EVar 3) (EInt 32) ;;
  SReturn (EInt 0)).

(** fields.c:422-438, bf256_byte_combine_bits.
    Variables: 1 = return, 2 = x. *)
Definition c_bf256_byte_combine_bits : func := Func [1%positive; 2%positive] (
  SAlloc 3 (EInt 32) ;;
  SCall None f_bf256_from_bit [(EVar 3); (EUn OCast u8 (EBin OAnd s32 (EVar 2) (EInt 1)))] ;;
  SSet 4 (EUn ONeg u64 (EBin OAnd u64 (EUn OCast u64 (EBin OAnd s32 (EBin OShr s32 (EVar 2) (EInt 1)) (EInt 1))) (EInt 1))) ;;
  SSet 5 (EAt (EGlob 7) 32 (EInt 1)) ;;
  SSet 6 (EUn ONeg u64 (EBin OAnd u64 (EUn OCast u64 (EBin OAnd s32 (EBin OShr s32 (EVar 2) (EInt 2)) (EInt 1))) (EInt 1))) ;;
  SSet 7 (EAt (EGlob 7) 32 (EInt 2)) ;;
  SSet 8 (EUn ONeg u64 (EBin OAnd u64 (EUn OCast u64 (EBin OAnd s32 (EBin OShr s32 (EVar 2) (EInt 3)) (EInt 1))) (EInt 1))) ;;
  SSet 9 (EAt (EGlob 7) 32 (EInt 3)) ;;
  SSet 10 (EUn ONeg u64 (EBin OAnd u64 (EUn OCast u64 (EBin OAnd s32 (EBin OShr s32 (EVar 2) (EInt 4)) (EInt 1))) (EInt 1))) ;;
  SSet 11 (EAt (EGlob 7) 32 (EInt 4)) ;;
  SSet 12 (EUn ONeg u64 (EBin OAnd u64 (EUn OCast u64 (EBin OAnd s32 (EBin OShr s32 (EVar 2) (EInt 5)) (EInt 1))) (EInt 1))) ;;
  SSet 13 (EAt (EGlob 7) 32 (EInt 5)) ;;
  SSet 14 (EUn ONeg u64 (EBin OAnd u64 (EUn OCast u64 (EBin OAnd s32 (EBin OShr s32 (EVar 2) (EInt 6)) (EInt 1))) (EInt 1))) ;;
  SSet 15 (EAt (EGlob 7) 32 (EInt 6)) ;;
  SSet 16 (EUn ONeg u64 (EBin OAnd u64 (EUn OCast u64 (EBin OAnd s32 (EBin OShr s32 (EVar 2) (EInt 7)) (EInt 1))) (EInt 1))) ;;
  SSet 17 (EBin OXor u64 (EBin OXor u64 (EBin OXor u64 (EBin OXor u64 (EBin OXor u64 (EBin OXor u64 (EBin OXor u64 (ELoad 8 (EVar 3)) (EBin OAnd u64 (ELoad 8 (EGlob 7)) (EVar 4))) (EBin OAnd u64 (ELoad 8 (EVar 5)) (EVar 6))) (EBin OAnd u64 (ELoad 8 (EVar 7)) (EVar 8))) (EBin OAnd u64 (ELoad 8 (EVar 9)) (EVar 10))) (EBin OAnd u64 (ELoad 8 (EVar 11)) (EVar 12))) (EBin OAnd u64 (ELoad 8 (EVar 13)) (EVar 14))) (EBin OAnd u64 (ELoad 8 (EVar 15)) (EVar 16))) ;;
  SSet 18 (EBin OXor u64 (EBin OXor u64 (EBin OXor u64 (EBin OXor u64 (EBin OXor u64 (EBin OXor u64 (EBin OXor u64 (ELoad 8 (EAt (EVar 3) 1 (EInt 8))) (EBin OAnd u64 (ELoad 8 (EAt (EGlob 7) 1 (EInt 8))) (EVar 4))) (EBin OAnd u64 (ELoad 8 (EAt (EVar 5) 1 (EInt 8))) (EVar 6))) (EBin OAnd u64 (ELoad 8 (EAt (EVar 7) 1 (EInt 8))) (EVar 8))) (EBin OAnd u64 (ELoad 8 (EAt (EVar 9) 1 (EInt 8))) (EVar 10))) (EBin OAnd u64 (ELoad 8 (EAt (EVar 11) 1 (EInt 8))) (EVar 12))) (EBin OAnd u64 (ELoad 8 (EAt (EVar 13) 1 (EInt 8))) (EVar 14))) (EBin OAnd u64 (ELoad 8 (EAt (EVar 15) 1 (EInt 8))) (EVar 16))) ;;
  SSet 19 (EBin OXor u64 (EBin OXor u64 (EBin OXor u64 (EBin OXor u64 (EBin OXor u64 (EBin OXor u64 (EBin OXor u64 (ELoad 8 (EAt (EVar 3) 1 (EInt 16))) (EBin OAnd u64 (ELoad 8 (EAt (EGlob 7) 1 (EInt 16))) (EVar 4))) (EBin OAnd u64 (ELoad 8 (EAt (EVar 5) 1 (EInt 16))) (EVar 6))) (EBin OAnd u64 (ELoad 8 (EAt (EVar 7) 1 (EInt 16))) (EVar 8))) (EBin OAnd u64 (ELoad 8 (EAt (EVar 9) 1 (EInt 16))) (EVar 10))) (EBin OAnd u64 (ELoad 8 (EAt (EVar 11) 1 (EInt 16))) (EVar 12))) (EBin OAnd u64 (ELoad 8 (EAt (EVar 13) 1 (EInt 16))) (EVar 14))) (EBin OAnd u64 (ELoad 8 (EAt (EVar 15) 1 (EInt 16))) (EVar 16))) ;;
  SSet 20 (EBin OXor u64 (EBin OXor u64 (EBin OXor u64 (EBin OXor u64 (EBin OXor u64 (EBin OXor u64 (EBin OXor u64 (ELoad 8 (EAt (EVar 3) 1 (EInt 24))) (EBin OAnd u64 (ELoad 8 (EAt (EGlob 7) 1 (EInt 24))) (EVar 4))) (EBin OAnd u64 (ELoad 8 (EAt (EVar 5) 1 (EInt 24))) (EVar 6))) (EBin OAnd u64 (ELoad 8 (EAt (EVar 7) 1 (EInt 24))) (EVar 8))) (EBin OAnd u64 (ELoad 8 (EAt (EVar 9) 1 (EInt 24))) (EVar 10))) (EBin OAnd u64 (ELoad 8 (EAt (EVar 11) 1 (EInt 24))) (EVar 12))) (EBin OAnd u64 (ELoad 8 (EAt (EVar 13) 1 (EInt 24))) (EVar 14))) (EBin OAnd u64 (ELoad 8 (EAt (EVar 15) 1 (EInt 24))) (EVar 16))) ;;
  SStore 8 (EVar 1) (EVar 17) ;;
  SStore 8 (EAt (EVar 1) 1 (EInt 8)) (EVar 18) ;;
  SStore 8 (EAt (EVar 1) 1 (EInt 16)) (EVar 19) ;;
  SStore 8 (EAt (EVar 1) 1 (EInt 24)) (EVar 20) ;;
  SReturn (EInt 0)).

(** fields.c:484-490, bf256_bit_to_uint64_mask.
    Variables: 1 = value, 2 = bit, 3 = value, 4 = byte_idx, 5 = bit_idx. *)
Definition c_bf256_bit_to_uint64_mask : func := Func [1%positive; 2%positive] (
  SAlloc 3 (EInt 32) ;;
  SCopy (EVar 3) (EVar 1) (EInt 32) ;;
  SSet 4 (EDiv ODiv u32 (EVar 2) (EInt 64)) ;;
  SSet 5 (EDiv OMod u32 (EVar 2) (EInt 64)) ;;
  SReturn (EUn ONeg u64 (EBin OAnd u64 (EBin OShr u64 (ELoad 8 (EAt (EVar 3) 8 (EVar 4))) (EVar 5)) (EInt 1)))).

(** fields.c:492-509, bf256_mul.
    Variables: 1 = return, 2 = lhs, 3 = rhs, 4 = lhs, 5 = rhs, 6 = mod, 7 = result, 13 = idx, 15 = mask. *)
Definition c_bf256_mul : func := Func [1%positive; 2%positive; 3%positive] (
  SAlloc 4 (EInt 32) ;;
  SCopy (EVar 4) (EVar 2) (EInt 32) ;;
  SAlloc 5 (EInt 32) ;;
  SCopy (EVar 5) (EVar 3) (EInt 32) ;;
  SAlloc 6 (EInt 32) ;;
  SStore 8 (EVar 6) (EInt 1061) ;;
  SAlloc 7 (EInt 32) ;;
  SCall (Some 8%positive) f_bf256_bit_to_uint64_mask [(EVar 5); (EInt 0)] ;;
  SSet 9 (EBin OAnd u64 (ELoad 8 (EVar 4)) (EVar 8)) ;;
  SSet 10 (EBin OAnd u64 (ELoad 8 (EAt (EVar 4) 1 (EInt 8))) (EVar 8)) ;;
  SSet 11 (EBin OAnd u64 (ELoad 8 (EAt (EVar 4) 1 (EInt 16))) (EVar 8)) ;;
  SSet 12 (EBin OAnd u64 (ELoad 8 (EAt (EVar 4) 1 (EInt 24))) (EVar 8)) ;;
  SStore 8 (EVar 7) (EVar 9) ;;
  SStore 8 (EAt (EVar 7) 1 (EInt 8)) (EVar 10) ;;
  SStore 8 (EAt (EVar 7) 1 (EInt 16)) (EVar 11) ;;
  SStore 8 (EAt (EVar 7) 1 (EInt 24)) (EVar 12) ;;
  SSet 13 (EInt 1) ;;
  SLoop (EBin ONe s32 (EVar 13) (EInt 256))
    (
    SSet 13 (EBin OAdd u32 (EVar 13) (EInt 1)))
    (
    SCall (Some 14%positive) f_bf256_bit_to_uint64_mask [(EVar 4); (EInt 255)] ;;
    SSet 15 (EVar 14) ;;
    SAlloc 16 (EInt 32) ;;
    SCall None f_bf256_zero [(EVar 16)] ;;
    SSet 17 (EBin OOr u64 (EBin OShl u64 (ELoad 8 (EVar 4)) (EInt 1)) (ELoad 8 (EVar 16))) ;;
    SSet 18 (EBin OOr u64 (EBin OShl u64 (ELoad 8 (EAt (EVar 4) 1 (EInt 8))) (EInt 1)) (EBin OShr u64 (ELoad 8 (EVar 4)) (EInt 63))) ;;
    SSet 19 (EBin OOr u64 (EBin OShl u64 (ELoad 8 (EAt (EVar 4) 1 (EInt 16))) (EInt 1)) (EBin OShr u64 (ELoad 8 (EAt (EVar 4) 1 (EInt 8))) (EInt 63))) ;;
    SSet 20 (EBin OOr u64 (EBin OShl u64 (ELoad 8 (EAt (EVar 4) 1 (EInt 24))) (EInt 1)) (EBin OShr u64 (ELoad 8 (EAt (EVar 4) 1 (EInt 16))) (EInt 63))) ;;
    SStore 8 (EVar 4) (EVar 17) ;;
    SStore 8 (EAt (EVar 4) 1 (EInt 8)) (EVar 18) ;;
    SStore 8 (EAt (EVar 4) 1 (EInt 16)) (EVar 19) ;;
    SStore 8 (EAt (EVar 4) 1 (EInt 24)) (EVar 20) ;;
    SSet 21 (EBin OXor u64 (ELoad 8 (EVar 4)) (EBin OAnd u64 (ELoad 8 (EVar 6)) (EVar 15))) ;;
    SSet 22 (EBin OXor u64 (ELoad 8 (EAt (EVar 4) 1 (EInt 8))) (EBin OAnd u64 (ELoad 8 (EAt (EVar 6) 1 (EInt 8))) (EVar 15))) ;;
    SSet 23 (EBin OXor u64 (ELoad 8 (EAt (EVar 4) 1 (EInt 16))) (EBin OAnd u64 (ELoad 8 (EAt (EVar 6) 1 (EInt 16))) (EVar 15))) ;;
    SSet 24 (EBin OXor u64 (ELoad 8 (EAt (EVar 4) 1 (EInt 24))) (EBin OAnd u64 (ELoad 8 (EAt (EVar 6) 1 (EInt 24))) (EVar 15))) ;;
    SStore 8 (EVar 4) (EVar 21) ;;
    SStore 8 (EAt (EVar 4) 1 (EInt 8)) (EVar 22) ;;
    SStore 8 (EAt (EVar 4) 1 (EInt 16)) (EVar 23) ;;
    SStore 8 (EAt (EVar 4) 1 (EInt 24)) (EVar 24) ;;
    SCall (Some 25%positive) f_bf256_bit_to_uint64_mask [(EVar 5); (EVar 13)] ;;
    SSet 26 (EBin OXor u64 (ELoad 8 (EVar 7)) (EBin OAnd u64 (ELoad 8 (EVar 4)) (EVar 25))) ;;
    SSet 27 (EBin OXor u64 (ELoad 8 (EAt (EVar 7) 1 (EInt 8))) (EBin OAnd u64 (ELoad 8 (EAt (EVar 4) 1 (EInt 8))) (EVar 25))) ;;
    SSet 28 (EBin OXor u64 (ELoad 8 (EAt (EVar 7) 1 (EInt 16))) (EBin OAnd u64 (ELoad 8 (EAt (EVar 4) 1 (EInt 16))) (EVar 25))) ;;
    SSet 29 (EBin OXor u64 (ELoad 8 (EAt (EVar 7) 1 (EInt 24))) (EBin OAnd u64 (ELoad 8 (EAt (EVar 4) 1 (EInt 24))) (EVar 25))) ;;
    SStore 8 (EVar 7) (EVar 26) ;;
    SStore 8 (EAt (EVar 7) 1 (EInt 8)) (EVar 27) ;;
    SStore 8 (EAt (EVar 7) 1 (EInt 16)) (EVar 28) ;;
    SStore 8 (EAt (EVar 7) 1 (EInt 24)) (EVar 29)) ;;
  SCopy (EVar 1) (EVar 7) (EInt 32) ;;
  SReturn (EInt 0)).

(** fields.c:511-528, bf256_mul_64.
    Variables: 1 = return, 2 = lhs, 3 = rhs, 4 = lhs, 5 = mod, 6 = result, 12 = idx, 14 = mask. *)
Definition c_bf256_mul_64 : func := Func [1%positive; 2%positive; 3%positive] (
  SAlloc 4 (EInt 32) ;;
  SCopy (EVar 4) (EVar 2) (EInt 32) ;;
  SAlloc 5 (EInt 32) ;;
  SStore 8 (EVar 5) (EInt 1061) ;;
  SAlloc 6 (EInt 32) ;;
  SSet 7 (EUn ONeg u64 (EBin OAnd u64 (EBin OShr u64 (EVar 3) (EInt 0)) (EInt 1))) ;;
  SSet 8 (EBin OAnd u64 (ELoad 8 (EVar 4)) (EVar 7)) ;;
  SSet 9 (EBin OAnd u64 (ELoad 8 (EAt (EVar 4) 1 (EInt 8))) (EVar 7)) ;;
  SSet 10 (EBin OAnd u64 (ELoad 8 (EAt (EVar 4) 1 (EInt 16))) (EVar 7)) ;;
  SSet 11 (EBin OAnd u64 (ELoad 8 (EAt (EVar 4) 1 (EInt 24))) (EVar 7)) ;;
  SStore 8 (EVar 6) (EVar 8) ;;
  SStore 8 (EAt (EVar 6) 1 (EInt 8)) (EVar 9) ;;
  SStore 8 (EAt (EVar 6) 1 (EInt 16)) (EVar 10) ;;
  SStore 8 (EAt (EVar 6) 1 (EInt 24)) (EVar 11) ;;
  SSet 12 (EInt 1) ;;
  SLoop (EBin ONe s32 (EVar 12) (EInt 64))
    (
    SSet 12 (EBin OAdd u32 (EVar 12) (EInt 1)))
    (
    SCall (Some 13%positive) f_bf256_bit_to_uint64_mask [(EVar 4); (EInt 255)] ;;
    SSet 14 (EVar 13) ;;
    SAlloc 15 (EInt 32) ;;
    SCall None f_bf256_zero [(EVar 15)] ;;
    SSet 16 (EBin OOr u64 (EBin OShl u64 (ELoad 8 (EVar 4)) (EInt 1)) (ELoad 8 (EVar 15))) ;;
    SSet 17 (EBin OOr u64 (EBin OShl u64 (ELoad 8 (EAt (EVar 4) 1 (EInt 8))) (EInt 1)) (EBin OShr u64 (ELoad 8 (EVar 4)) (EInt 63))) ;;
    SSet 18 (EBin OOr u64 (EBin OShl u64 (ELoad 8 (EAt (EVar 4) 1 (EInt 16))) (EInt 1)) (EBin OShr u64 (ELoad 8 (EAt (EVar 4) 1 (EInt 8))) (EInt 63))) ;;
    SSet 19 (EBin OOr u64 (EBin OShl u64 (ELoad 8 (EAt (EVar 4) 1 (EInt 24))) (EInt 1)) (EBin OShr u64 (ELoad 8 (EAt (EVar 4) 1 (EInt 16))) (EInt 63))) ;;
    SStore 8 (EVar 4) (EVar 16) ;;
    SStore 8 (EAt (EVar 4) 1 (EInt 8)) (EVar 17) ;;
    SStore 8 (EAt (EVar 4) 1 (EInt 16)) (EVar 18) ;;
    SStore 8 (EAt (EVar 4) 1 (EInt 24)) (EVar 19) ;;
    SSet 20 (EBin OXor u64 (ELoad 8 (EVar 4)) (EBin OAnd u64 (ELoad 8 (EVar 5)) (EVar 14))) ;;
    SSet 21 (EBin OXor u64 (ELoad 8 (EAt (EVar 4) 1 (EInt 8))) (EBin OAnd u64 (ELoad 8 (EAt (EVar 5) 1 (EInt 8))) (EVar 14))) ;;
    SSet 22 (EBin OXor u64 (ELoad 8 (EAt (EVar 4) 1 (EInt 16))) (EBin OAnd u64 (ELoad 8 (EAt (EVar 5) 1 (EInt 16))) (EVar 14))) ;;
    SSet 23 (EBin OXor u64 (ELoad 8 (EAt (EVar 4) 1 (EInt 24))) (EBin OAnd u64 (ELoad 8 (EAt (EVar 5) 1 (EInt 24))) (EVar 14))) ;;
    SStore 8 (EVar 4) (EVar 20) ;;
    SStore 8 (EAt (EVar 4) 1 (EInt 8)) (EVar 21) ;;
    SStore 8 (EAt (EVar 4) 1 (EInt 16)) (EVar 22) ;;
    SStore 8 (EAt (EVar 4) 1 (EInt 24)) (EVar 23) ;;
    SSet 24 (EUn ONeg u64 (EBin OAnd u64 (EBin OShr u64 (EVar 3) (EVar 12)) (EInt 1))) ;;
    SSet 25 (EBin OXor u64 (ELoad 8 (EVar 6)) (EBin OAnd u64 (ELoad 8 (EVar 4)) (EVar 24))) ;;
    SSet 26 (EBin OXor u64 (ELoad 8 (EAt (EVar 6) 1 (EInt 8))) (EBin OAnd u64 (ELoad 8 (EAt (EVar 4) 1 (EInt 8))) (EVar 24))) ;;
    SSet 27 (EBin OXor u64 (ELoad 8 (EAt (EVar 6) 1 (EInt 16))) (EBin OAnd u64 (ELoad 8 (EAt (EVar 4) 1 (EInt 16))) (EVar 24))) ;;
    SSet 28 (EBin OXor u64 (ELoad 8 (EAt (EVar 6) 1 (EInt 24))) (EBin OAnd u64 (ELoad 8 (EAt (EVar 4) 1 (EInt 24))) (EVar 24))) ;;
    SStore 8 (EVar 6) (EVar 25) ;;
    SStore 8 (EAt (EVar 6) 1 (EInt 8)) (EVar 26) ;;
    SStore 8 (EAt (EVar 6) 1 (EInt 16)) (EVar 27) ;;
    SStore 8 (EAt (EVar 6) 1 (EInt 24)) (EVar 28)) ;;
  SCopy (EVar 1) (EVar 6) (EInt 32) ;;
  SReturn (EInt 0)).

(** fields.c:536-546, bf256_dbl.
    Variables: 1 = return, 2 = lhs, 3 = lhs, 5 = mask, 11 = mod. *)
Definition c_bf256_dbl : func := Func [1%positive; 2%positive] (
  SAlloc 3 (EInt 32) ;;
  SCopy (EVar 3) (EVar 2) (EInt 32) ;;
  SCall (Some 4%positive) f_bf256_bit_to_uint64_mask [(EVar 3); (EInt 255)] ;;
  SSet 5 (EVar 4) ;;
  SAlloc 6 (EInt 32) ;;
  SCall None f_bf256_zero [(EVar 6)] ;;
  SSet 7 (EBin OOr u64 (EBin OShl u64 (ELoad 8 (EVar 3)) (EInt 1)) (ELoad 8 (EVar 6))) ;;
  SSet 8 (EBin OOr u64 (EBin OShl u64 (ELoad 8 (EAt (EVar 3) 1 (EInt 8))) (EInt 1)) (EBin OShr u64 (ELoad 8 (EVar 3)) (EInt 63))) ;;
  SSet 9 (EBin OOr u64 (EBin OShl u64 (ELoad 8 (EAt (EVar 3) 1 (EInt 16))) (EInt 1)) (EBin OShr u64 (ELoad 8 (EAt (EVar 3) 1 (EInt 8))) (EInt 63))) ;;
  SSet 10 (EBin OOr u64 (EBin OShl u64 (ELoad 8 (EAt (EVar 3) 1 (EInt 24))) (EInt 1)) (EBin OShr u64 (ELoad 8 (EAt (EVar 3) 1 (EInt 16))) (EInt 63))) ;;
  SStore 8 (EVar 3) (EVar 7) ;;
  SStore 8 (EAt (EVar 3) 1 (EInt 8)) (EVar 8) ;;
  SStore 8 (EAt (EVar 3) 1 (EInt 16)) (EVar 9) ;;
  SStore 8 (EAt (EVar 3) 1 (EInt 24)) (EVar 10) ;;
  SAlloc 11 (EInt 32) ;;
  SStore 8 (EVar 11) (EInt 1061) ;;
  SSet 12 (EBin OXor u64 (ELoad 8 (EVar 3)) (EBin OAnd u64 (ELoad 8 (EVar 11)) (EVar 5))) ;;
  SSet 13 (EBin OXor u64 (ELoad 8 (EAt (EVar 3) 1 (EInt 8))) (EBin OAnd u64 (ELoad 8 (EAt (EVar 11) 1 (EInt 8))) (EVar 5))) ;;
  SSet 14 (EBin OXor u64 (ELoad 8 (EAt (EVar 3) 1 (EInt 16))) (EBin OAnd u64 (ELoad 8 (EAt (EVar 11) 1 (EInt 16))) (EVar 5))) ;;
  SSet 15 (EBin OXor u64 (ELoad 8 (EAt (EVar 3) 1 (EInt 24))) (EBin OAnd u64 (ELoad 8 (EAt (EVar 11) 1 (EInt 24))) (EVar 5))) ;;
  SStore 8 (EVar 1) (EVar 12) ;;
  SStore 8 (EAt (EVar 1) 1 (EInt 8)) (EVar 13) ;;
  SStore 8 (EAt (EVar 1) 1 (EInt 16)) (EVar 14) ;;
  SStore 8 (EAt (EVar 1) 1 (EInt 24)) (EVar 15) ;;
  SReturn (EInt 0)).

(** fields.c:548-554, bf256_sum_poly.
    Variables: 1 = return, 2 = xs, 3 = ret, 4 = i. *)
Definition c_bf256_sum_poly : func := Func [1%positive; 2%positive] (
  SAlloc 3 (EInt 32) ;;
  SCopy (EVar 3) (EAt (EVar 2) 32 (EInt 255)) (EInt 32) ;;
  SSet 4 (EInt 1) ;;
  SLoop (EBin OLt s32 (EVar 4) (EInt 256))
    (
    SSet 4 (EBin OAdd u64 (EVar 4) (EInt 1)))
    (
    SAlloc 5 (EInt 32) ;;
    SCall None f_bf256_dbl [(EVar 5); (EVar 3)] ;;
    SSet 6 (EAt (EVar 2) 32 (EBin OSub u64 (EInt 255) (EVar 4))) ;;
    SSet 7 (EBin OXor u64 (ELoad 8 (EVar 5)) (ELoad 8 (EVar 6))) ;;
    SSet 8 (EBin OXor u64 (ELoad 8 (EAt (EVar 5) 1 (EInt 8))) (ELoad 8 (EAt (EVar 6) 1 (EInt 8)))) ;;
    SSet 9 (EBin OXor u64 (ELoad 8 (EAt (EVar 5) 1 (EInt 16))) (ELoad 8 (EAt (EVar 6) 1 (EInt 16)))) ;;
    SSet 10 (EBin OXor u64 (ELoad 8 (EAt (EVar 5) 1 (EInt 24))) (ELoad 8 (EAt (EVar 6) 1 (EInt 24)))) ;;
    SStore 8 (EVar 3) (EVar 7) ;;
    SStore 8 (EAt (EVar 3) 1 (EInt 8)) (EVar 8) ;;
    SStore 8 (EAt (EVar 3) 1 (EInt 16)) (EVar 9) ;;
    SStore 8 (EAt (EVar 3) 1 (EInt 24)) (EVar 10)) ;;
  SCopy (EVar 1) (EVar 3) (EInt 32) ;;
  SReturn (EInt 0)).

(** libc_stub.c:3-12, memcmp.
    Variables: 1 = a, 2 = b, 3 = n, 4 = p, 5 = q. *)
Definition c_memcmp : func := Func [1%positive; 2%positive; 3%positive] (
  SSet 4 (EVar 1) ;;
  SSet 5 (EVar 2) ;;
  SLoop (EVar 3)
    (
    SSet 3 (EBin OSub u64 (EVar 3) (EInt 1)) ;;
    SSet 4 (EAt (EVar 4) 1 (EInt 1)) ;;
    SSet 5 (EAt (EVar 5) 1 (EInt 1)))
    (
    SIf (EBin ONe s32 (ELoad 1 (EVar 4)) (ELoad 1 (EVar 5)))
      (
      SReturn (ECond (EBin OLt s32 (ELoad 1 (EVar 4)) (ELoad 1 (EVar 5))) (EInt (-1)) (EInt 1)))
      SSkip) ;;
  SReturn (EInt 0)).

(** rand_stub.c:7-13, rand_bytes.
    Variables: 1 = dst, 2 = num_bytes, 3 = i. *)
Definition c_rand_bytes : func := Func [1%positive; 2%positive] (
  SSet 3 (EInt 0) ;;
  SLoop (EBin OLt s32 (EVar 3) (EVar 2))
    (
    SSet 3 (EBin OAdd u64 (EVar 3) (EInt 1)))
    (
    SStore 1 (EAt (EVar 1) 1 (EVar 3)) (ELoad 1 (EAt (EGlob 4) 1 (EBin OAdd u64 (ELoad 8 (EGlob 3)) (EVar 3))))) ;;
  SStore 8 (EGlob 3) (EBin OAdd u64 (ELoad 8 (EGlob 3)) (EVar 2)) ;;
  SReturn (EInt 0)).

