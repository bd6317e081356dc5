(** Generated by tools/ctc/c2v.py from the sources in /repo; see DESIGN.md. *)
From Coq Require Import ZArith List.
From Verif Require Import Model.CtLang Model.CtNames.
Import ListNotations.
Local Open Scope Z_scope.

(** universal_hashing.c:16-38, compute_h1.
    Variables: 1 = t, 2 = x, 3 = lambda, 4 = ell, 6 = b_t, 7 = lambda_bytes, 8 = length_lambda, 9 = tmp, 11 = h1, 13 = running_t, 14 = i. *)
Definition c_compute_h1 : func := Func [1%positive; 2%positive; 3%positive; 4%positive] (
  SCall (Some 5%positive) f_bf64_load [(EVar 1)] ;;
  SSet 6 (EVar 5) ;;
  SSet 7 (EDiv ODiv u32 (EVar 3) (EInt 8)) ;;
  SSet 8 (EDiv ODiv u32 (EBin OSub u32 (EBin OAdd u32 (EBin OAdd u32 (EVar 4) (EVar 3)) (EVar 3)) (EInt 1)) (EVar 3)) ;;
  SAlloc 9 (EInt 32) ;;
  SCopy (EVar 9) (EAt (EVar 2) 1 (EBin OMul u32 (EBin OSub u32 (EVar 8) (EInt 1)) (EVar 7))) (ECond (EBin OEq s32 (EDiv OMod u32 (EBin OAdd u32 (EVar 4) (EVar 3)) (EVar 3)) (EInt 0)) (EVar 7) (EDiv ODiv u32 (EDiv OMod u32 (EBin OAdd u32 (EVar 4) (EVar 3)) (EVar 3)) (EInt 8))) ;;
  SCall (Some 10%positive) f_bf64_zero [] ;;
  SSet 11 (EVar 10) ;;
  SCall (Some 12%positive) f_bf64_one [] ;;
  SSet 13 (EVar 12) ;;
  SSet 14 (EInt 0) ;;
  SLoop (EBin OLt s32 (EVar 14) (EVar 7))
    (
    SSet 14 (EBin OAdd u32 (EVar 14) (EInt 8)) ;;
    SCall (Some 18%positive) f_bf64_mul [(EVar 13); (EVar 6)] ;;
    SSet 13 (EVar 18))
    (
    SCall (Some 15%positive) f_bf64_load [(EAt (EVar 9) 1 (EBin OSub u32 (EBin OSub u32 (EVar 7) (EVar 14)) (EInt 8)))] ;;
    SCall (Some 16%positive) f_bf64_mul [(EVar 13); (EVar 15)] ;;
    SCall (Some 17%positive) f_bf64_add [(EVar 11); (EVar 16)] ;;
    SSet 11 (EVar 17)) ;;
  SLoop (EBin OLt s32 (EVar 14) (EBin OMul u32 (EVar 8) (EVar 7)))
    (
    SSet 14 (EBin OAdd u32 (EVar 14) (EInt 8)) ;;
    SCall (Some 22%positive) f_bf64_mul [(EVar 13); (EVar 6)] ;;
    SSet 13 (EVar 22))
    (
    SCall (Some 19%positive) f_bf64_load [(EAt (EVar 2) 1 (EBin OSub u32 (EBin OSub u32 (EBin OMul u32 (EVar 8) (EVar 7)) (EVar 14)) (EInt 8)))] ;;
    SCall (Some 20%positive) f_bf64_mul [(EVar 13); (EVar 19)] ;;
    SCall (Some 21%positive) f_bf64_add [(EVar 11); (EVar 20)] ;;
    SSet 11 (EVar 21)) ;;
  SReturn (EVar 11)).

(** universal_hashing.c:40-73, vole_hash_128.
    Variables: 1 = h, 2 = sd, 3 = x, 4 = ell, 5 = r0, 6 = r1, 7 = r2, 8 = r3, 9 = s, 10 = t, 11 = x1, 12 = length_lambda, 13 = tmp, 14 = h0, 15 = b_s, 16 = running_s, 17 = i, 24 = h1, 25 = h2, 32 = h3. *)
Definition c_vole_hash_128 : func := Func [1%positive; 2%positive; 3%positive; 4%positive] (
  (
  SSet 5 (EVar 2) ;;
  SSet 6 (EAt (EVar 2) 1 (EInt 16)) ;;
  SSet 7 (EAt (EVar 2) 1 (EInt 32)) ;;
  SSet 8 (EAt (EVar 2) 1 (EInt 48)) ;;
  SSet 9 (EAt (EVar 2) 1 (EInt 64)) ;;
  SSet 10 (EAt (EVar 2) 1 (EInt 80)) ;;
  SSet 11 (EAt (EVar 3) 1 (EDiv ODiv u32 (EBin OAdd u32 (EVar 4) (EInt 128)) (EInt 8))) ;;
  SSet 12 (EDiv ODiv u32 (EBin OSub u32 (EBin OAdd u32 (EVar 4) (EInt 256)) (EInt 1)) (EInt 128)) ;;
  SAlloc 13 (EInt 16) ;;
  SCopy (EVar 13) (EAt (EVar 3) 1 (EBin OMul u32 (EBin OSub u32 (EVar 12) (EInt 1)) (EInt 16))) (ECond (EBin OEq s32 (EDiv OMod u32 (EBin OAdd u32 (EVar 4) (EInt 128)) (EInt 128)) (EInt 0)) (EInt 16) (EDiv ODiv u32 (EDiv OMod u32 (EBin OAdd u32 (EVar 4) (EInt 128)) (EInt 128)) (EInt 8))) ;;
  SAlloc 14 (EInt 16) ;;
  SCall None f_bf128_load [(EVar 14); (EVar 13)] ;;
  SAlloc 15 (EInt 16) ;;
  SCall None f_bf128_load [(EVar 15); (EVar 9)] ;;
  SAlloc 16 (EInt 16) ;;
  SCopy (EVar 16) (EVar 15) (EInt 16) ;;
  SSet 17 (EInt 1) ;;
  SLoop (EBin ONe s32 (EVar 17) (EVar 12))
    (
    SSet 17 (EBin OAdd u32 (EVar 17) (EInt 1)) ;;
    SAlloc 22 (EInt 16) ;;
    SCall None f_bf128_mul [(EVar 22); (EVar 16); (EVar 15)] ;;
    SCopy (EVar 16) (EVar 22) (EInt 16))
    (
    SAlloc 18 (EInt 16) ;;
    SCall None f_bf128_load [(EVar 18); (EAt (EVar 3) 1 (EBin OMul u32 (EBin OSub u32 (EBin OSub u32 (EVar 12) (EInt 1)) (EVar 17)) (EInt 16)))] ;;
    SAlloc 19 (EInt 16) ;;
    SCall None f_bf128_mul [(EVar 19); (EVar 16); (EVar 18)] ;;
    SSet 20 (EBin OXor u64 (ELoad 8 (EVar 14)) (ELoad 8 (EVar 19))) ;;
    SSet 21 (EBin OXor u64 (ELoad 8 (EAt (EVar 14) 1 (EInt 8))) (ELoad 8 (EAt (EVar 19) 1 (EInt 8)))) ;;
    SStore 8 (EVar 14) (EVar 20) ;;
    SStore 8 (EAt (EVar 14) 1 (EInt 8)) (EVar 21)) ;;
  SCall (Some 23%positive) f_compute_h1 [(EVar 10); (EVar 3); (EInt 128); (EVar 4)] ;;
  SSet 24 (EVar 23) ;;
  SAlloc 25 (EInt 16) ;;
  SAlloc 26 (EInt 16) ;;
  SCall None f_bf128_load [(EVar 26); (EVar 5)] ;;
  SAlloc 27 (EInt 16) ;;
  SCall None f_bf128_mul [(EVar 27); (EVar 26); (EVar 14)]) ;;
  (
  SAlloc 28 (EInt 16) ;;
  SCall None f_bf128_load [(EVar 28); (EVar 6)] ;;
  SAlloc 29 (EInt 16) ;;
  SCall None f_bf128_mul_64 [(EVar 29); (EVar 28); (EVar 24)] ;;
  SSet 30 (EBin OXor u64 (ELoad 8 (EVar 27)) (ELoad 8 (EVar 29))) ;;
  SSet 31 (EBin OXor u64 (ELoad 8 (EAt (EVar 27) 1 (EInt 8))) (ELoad 8 (EAt (EVar 29) 1 (EInt 8)))) ;;
  SStore 8 (EVar 25) (EVar 30) ;;
  SStore 8 (EAt (EVar 25) 1 (EInt 8)) (EVar 31) ;;
  SAlloc 32 (EInt 16) ;;
  SAlloc 33 (EInt 16) ;;
  SCall None f_bf128_load [(EVar 33); (EVar 7)] ;;
  SAlloc 34 (EInt 16) ;;
  SCall None f_bf128_mul [(EVar 34); (EVar 33); (EVar 14)] ;;
  SAlloc 35 (EInt 16) ;;
  SCall None f_bf128_load [(EVar 35); (EVar 8)] ;;
  SAlloc 36 (EInt 16) ;;
  SCall None f_bf128_mul_64 [(EVar 36); (EVar 35); (EVar 24)] ;;
  SSet 37 (EBin OXor u64 (ELoad 8 (EVar 34)) (ELoad 8 (EVar 36))) ;;
  SSet 38 (EBin OXor u64 (ELoad 8 (EAt (EVar 34) 1 (EInt 8))) (ELoad 8 (EAt (EVar 36) 1 (EInt 8)))) ;;
  SStore 8 (EVar 32) (EVar 37) ;;
  SStore 8 (EAt (EVar 32) 1 (EInt 8)) (EVar 38) ;;
  SCall None f_bf128_store [(EVar 1); (EVar 25)] ;;
  SCall None f_bf128_store [(EVar 13); (EVar 32)] ;;
  SCopy (EAt (EVar 1) 1 (EInt 16)) (EVar 13) (EInt 2) ;;
  SCall None f_xor_u8_array [(EVar 1); (EVar 11); (EVar 1); (EInt 18)])).

(** universal_hashing.c:75-108, vole_hash_192.
    Variables: 1 = h, 2 = sd, 3 = x, 4 = ell, 5 = r0, 6 = r1, 7 = r2, 8 = r3, 9 = s, 10 = t, 11 = x1, 12 = length_lambda, 13 = tmp, 14 = h0, 15 = b_s, 16 = running_s, 17 = i, 26 = h1, 27 = h2, 36 = h3. *)
Definition c_vole_hash_192 : func := Func [1%positive; 2%positive; 3%positive; 4%positive] (
  (
  SSet 5 (EVar 2) ;;
  SSet 6 (EAt (EVar 2) 1 (EInt 24)) ;;
  SSet 7 (EAt (EVar 2) 1 (EInt 48)) ;;
  SSet 8 (EAt (EVar 2) 1 (EInt 72)) ;;
  SSet 9 (EAt (EVar 2) 1 (EInt 96)) ;;
  SSet 10 (EAt (EVar 2) 1 (EInt 120)) ;;
  SSet 11 (EAt (EVar 3) 1 (EDiv ODiv u32 (EBin OAdd u32 (EVar 4) (EInt 192)) (EInt 8))) ;;
  SSet 12 (EDiv ODiv u32 (EBin OSub u32 (EBin OAdd u32 (EVar 4) (EInt 384)) (EInt 1)) (EInt 192)) ;;
  SAlloc 13 (EInt 24) ;;
  SCopy (EVar 13) (EAt (EVar 3) 1 (EBin OMul u32 (EBin OSub u32 (EVar 12) (EInt 1)) (EInt 24))) (ECond (EBin OEq s32 (EDiv OMod u32 (EBin OAdd u32 (EVar 4) (EInt 192)) (EInt 192)) (EInt 0)) (EInt 24) (EDiv ODiv u32 (EDiv OMod u32 (EBin OAdd u32 (EVar 4) (EInt 192)) (EInt 192)) (EInt 8))) ;;
  SAlloc 14 (EInt 32) ;;
  SCall None f_bf192_load [(EVar 14); (EVar 13)] ;;
  SAlloc 15 (EInt 32) ;;
  SCall None f_bf192_load [(EVar 15); (EVar 9)] ;;
  SAlloc 16 (EInt 32) ;;
  SCopy (EVar 16) (EVar 15) (EInt 32) ;;
  SSet 17 (EInt 1) ;;
  SLoop (EBin ONe s32 (EVar 17) (EVar 12))
    (
    SSet 17 (EBin OAdd u32 (EVar 17) (EInt 1)) ;;
    SAlloc 24 (EInt 32) ;;
    SCall None f_bf192_mul [(EVar 24); (EVar 16); (EVar 15)] ;;
    SCopy (EVar 16) (EVar 24) (EInt 32))
    (
    SAlloc 18 (EInt 32) ;;
    SCall None f_bf192_load [(EVar 18); (EAt (EVar 3) 1 (EBin OMul u32 (EBin OSub u32 (EBin OSub u32 (EVar 12) (EInt 1)) (EVar 17)) (EInt 24)))] ;;
    SAlloc 19 (EInt 32) ;;
    SCall None f_bf192_mul [(EVar 19); (EVar 16); (EVar 18)] ;;
    SSet 20 (EBin OXor u64 (ELoad 8 (EVar 14)) (ELoad 8 (EVar 19))) ;;
    SSet 21 (EBin OXor u64 (ELoad 8 (EAt (EVar 14) 1 (EInt 8))) (ELoad 8 (EAt (EVar 19) 1 (EInt 8)))) ;;
    SSet 22 (EBin OXor u64 (ELoad 8 (EAt (EVar 14) 1 (EInt 16))) (ELoad 8 (EAt (EVar 19) 1 (EInt 16)))) ;;
    SSet 23 (EBin OXor u64 (ELoad 8 (EAt (EVar 14) 1 (EInt 24))) (ELoad 8 (EAt (EVar 19) 1 (EInt 24)))) ;;
    SStore 8 (EVar 14) (EVar 20) ;;
    SStore 8 (EAt (EVar 14) 1 (EInt 8)) (EVar 21) ;;
    SStore 8 (EAt (EVar 14) 1 (EInt 16)) (EVar 22) ;;
    SStore 8 (EAt (EVar 14) 1 (EInt 24)) (EVar 23)) ;;
  SCall (Some 25%positive) f_compute_h1 [(EVar 10); (EVar 3); (EInt 192); (EVar 4)] ;;
  SSet 26 (EVar 25) ;;
  SAlloc 27 (EInt 32) ;;
  SAlloc 28 (EInt 32) ;;
  SCall None f_bf192_load [(EVar 28); (EVar 5)] ;;
  SAlloc 29 (EInt 32) ;;
  SCall None f_bf192_mul [(EVar 29); (EVar 28); (EVar 14)] ;;
  SAlloc 30 (EInt 32) ;;
  SCall None f_bf192_load [(EVar 30); (EVar 6)] ;;
  SAlloc 31 (EInt 32) ;;
  SCall None f_bf192_mul_64 [(EVar 31); (EVar 30); (EVar 26)]) ;;
  (
  SSet 32 (EBin OXor u64 (ELoad 8 (EVar 29)) (ELoad 8 (EVar 31))) ;;
  SSet 33 (EBin OXor u64 (ELoad 8 (EAt (EVar 29) 1 (EInt 8))) (ELoad 8 (EAt (EVar 31) 1 (EInt 8)))) ;;
  SSet 34 (EBin OXor u64 (ELoad 8 (EAt (EVar 29) 1 (EInt 16))) (ELoad 8 (EAt (EVar 31) 1 (EInt 16)))) ;;
  SSet 35 (EBin OXor u64 (ELoad 8 (EAt (EVar 29) 1 (EInt 24))) (ELoad 8 (EAt (EVar 31) 1 (EInt 24)))) ;;
  SStore 8 (EVar 27) (EVar 32) ;;
  SStore 8 (EAt (EVar 27) 1 (EInt 8)) (EVar 33) ;;
  SStore 8 (EAt (EVar 27) 1 (EInt 16)) (EVar 34) ;;
  SStore 8 (EAt (EVar 27) 1 (EInt 24)) (EVar 35) ;;
  SAlloc 36 (EInt 32) ;;
  SAlloc 37 (EInt 32) ;;
  SCall None f_bf192_load [(EVar 37); (EVar 7)] ;;
  SAlloc 38 (EInt 32) ;;
  SCall None f_bf192_mul [(EVar 38); (EVar 37); (EVar 14)] ;;
  SAlloc 39 (EInt 32) ;;
  SCall None f_bf192_load [(EVar 39); (EVar 8)] ;;
  SAlloc 40 (EInt 32) ;;
  SCall None f_bf192_mul_64 [(EVar 40); (EVar 39); (EVar 26)] ;;
  SSet 41 (EBin OXor u64 (ELoad 8 (EVar 38)) (ELoad 8 (EVar 40))) ;;
  SSet 42 (EBin OXor u64 (ELoad 8 (EAt (EVar 38) 1 (EInt 8))) (ELoad 8 (EAt (EVar 40) 1 (EInt 8)))) ;;
  SSet 43 (EBin OXor u64 (ELoad 8 (EAt (EVar 38) 1 (EInt 16))) (ELoad 8 (EAt (EVar 40) 1 (EInt 16)))) ;;
  SSet 44 (EBin OXor u64 (ELoad 8 (EAt (EVar 38) 1 (EInt 24))) (ELoad 8 (EAt (EVar 40) 1 (EInt 24)))) ;;
  SStore 8 (EVar 36) (EVar 41) ;;
  SStore 8 (EAt (EVar 36) 1 (EInt 8)) (EVar 42) ;;
  SStore 8 (EAt (EVar 36) 1 (EInt 16)) (EVar 43) ;;
  SStore 8 (EAt (EVar 36) 1 (EInt 24)) (EVar 44) ;;
  SCall None f_bf192_store [(EVar 1); (EVar 27)] ;;
  SCall None f_bf192_store [(EVar 13); (EVar 36)] ;;
  SCopy (EAt (EVar 1) 1 (EInt 24)) (EVar 13) (EInt 2) ;;
  SCall None f_xor_u8_array [(EVar 1); (EVar 11); (EVar 1); (EInt 26)])).

(** universal_hashing.c:110-143, vole_hash_256.
    Variables: 1 = h, 2 = sd, 3 = x, 4 = ell, 5 = r0, 6 = r1, 7 = r2, 8 = r3, 9 = s, 10 = t, 11 = x1, 12 = length_lambda, 13 = tmp, 14 = h0, 15 = b_s, 16 = running_s, 17 = i, 26 = h1, 27 = h2, 36 = h3. *)
Definition c_vole_hash_256 : func := Func [1%positive; 2%positive; 3%positive; 4%positive] (
  (
  SSet 5 (EVar 2) ;;
  SSet 6 (EAt (EVar 2) 1 (EInt 32)) ;;
  SSet 7 (EAt (EVar 2) 1 (EInt 64)) ;;
  SSet 8 (EAt (EVar 2) 1 (EInt 96)) ;;
  SSet 9 (EAt (EVar 2) 1 (EInt 128)) ;;
  SSet 10 (EAt (EVar 2) 1 (EInt 160)) ;;
  SSet 11 (EAt (EVar 3) 1 (EDiv ODiv u32 (EBin OAdd u32 (EVar 4) (EInt 256)) (EInt 8))) ;;
  SSet 12 (EDiv ODiv u32 (EBin OSub u32 (EBin OAdd u32 (EVar 4) (EInt 512)) (EInt 1)) (EInt 256)) ;;
  SAlloc 13 (EInt 32) ;;
  SCopy (EVar 13) (EAt (EVar 3) 1 (EBin OMul u32 (EBin OSub u32 (EVar 12) (EInt 1)) (EInt 32))) (ECond (EBin OEq s32 (EDiv OMod u32 (EBin OAdd u32 (EVar 4) (EInt 256)) (EInt 256)) (EInt 0)) (EInt 32) (EDiv ODiv u32 (EDiv OMod u32 (EBin OAdd u32 (EVar 4) (EInt 256)) (EInt 256)) (EInt 8))) ;;
  SAlloc 14 (EInt 32) ;;
  SCall None f_bf256_load [(EVar 14); (EVar 13)] ;;
  SAlloc 15 (EInt 32) ;;
  SCall None f_bf256_load [(EVar 15); (EVar 9)] ;;
  SAlloc 16 (EInt 32) ;;
  SCopy (EVar 16) (EVar 15) (EInt 32) ;;
  SSet 17 (EInt 1) ;;
  SLoop (EBin ONe s32 (EVar 17) (EVar 12))
    (
    SSet 17 (EBin OAdd u32 (EVar 17) (EInt 1)) ;;
    SAlloc 24 (EInt 32) ;;
    SCall None f_bf256_mul [(EVar 24); (EVar 16); (EVar 15)] ;;
    SCopy (EVar 16) (EVar 24) (EInt 32))
    (
    SAlloc 18 (EInt 32) ;;
    SCall None f_bf256_load [(EVar 18); (EAt (EVar 3) 1 (EBin OMul u32 (EBin OSub u32 (EBin OSub u32 (EVar 12) (EInt 1)) (EVar 17)) (EInt 32)))] ;;
    SAlloc 19 (EInt 32) ;;
    SCall None f_bf256_mul [(EVar 19); (EVar 16); (EVar 18)] ;;
    SSet 20 (EBin OXor u64 (ELoad 8 (EVar 14)) (ELoad 8 (EVar 19))) ;;
    SSet 21 (EBin OXor u64 (ELoad 8 (EAt (EVar 14) 1 (EInt 8))) (ELoad 8 (EAt (EVar 19) 1 (EInt 8)))) ;;
    SSet 22 (EBin OXor u64 (ELoad 8 (EAt (EVar 14) 1 (EInt 16))) (ELoad 8 (EAt (EVar 19) 1 (EInt 16)))) ;;
    SSet 23 (EBin OXor u64 (ELoad 8 (EAt (EVar 14) 1 (EInt 24))) (ELoad 8 (EAt (EVar 19) 1 (EInt 24)))) ;;
    SStore 8 (EVar 14) (EVar 20) ;;
    SStore 8 (EAt (EVar 14) 1 (EInt 8)) (EVar 21) ;;
    SStore 8 (EAt (EVar 14) 1 (EInt 16)) (EVar 22) ;;
    SStore 8 (EAt (EVar 14) 1 (EInt 24)) (EVar 23)) ;;
  SCall (Some 25%positive) f_compute_h1 [(EVar 10); (EVar 3); (EInt 256); (EVar 4)] ;;
  SSet 26 (EVar 25) ;;
  SAlloc 27 (EInt 32) ;;
  SAlloc 28 (EInt 32) ;;
  SCall None f_bf256_load [(EVar 28); (EVar 5)] ;;
  SAlloc 29 (EInt 32) ;;
  SCall None f_bf256_mul [(EVar 29); (EVar 28); (EVar 14)] ;;
  SAlloc 30 (EInt 32) ;;
  SCall None f_bf256_load [(EVar 30); (EVar 6)] ;;
  SAlloc 31 (EInt 32) ;;
  SCall None f_bf256_mul_64 [(EVar 31); (EVar 30); (EVar 26)]) ;;
  (
  SSet 32 (EBin OXor u64 (ELoad 8 (EVar 29)) (ELoad 8 (EVar 31))) ;;
  SSet 33 (EBin OXor u64 (ELoad 8 (EAt (EVar 29) 1 (EInt 8))) (ELoad 8 (EAt (EVar 31) 1 (EInt 8)))) ;;
  SSet 34 (EBin OXor u64 (ELoad 8 (EAt (EVar 29) 1 (EInt 16))) (ELoad 8 (EAt (EVar 31) 1 (EInt 16)))) ;;
  SSet 35 (EBin OXor u64 (ELoad 8 (EAt (EVar 29) 1 (EInt 24))) (ELoad 8 (EAt (EVar 31) 1 (EInt 24)))) ;;
  SStore 8 (EVar 27) (EVar 32) ;;
  SStore 8 (EAt (EVar 27) 1 (EInt 8)) (EVar 33) ;;
  SStore 8 (EAt (EVar 27) 1 (EInt 16)) (EVar 34) ;;
  SStore 8 (EAt (EVar 27) 1 (EInt 24)) (EVar 35) ;;
  SAlloc 36 (EInt 32) ;;
  SAlloc 37 (EInt 32) ;;
  SCall None f_bf256_load [(EVar 37); (EVar 7)] ;;
  SAlloc 38 (EInt 32) ;;
  SCall None f_bf256_mul [(EVar 38); (EVar 37); (EVar 14)] ;;
  SAlloc 39 (EInt 32) ;;
  SCall None f_bf256_load [(EVar 39); (EVar 8)] ;;
  SAlloc 40 (EInt 32) ;;
  SCall None f_bf256_mul_64 [(EVar 40); (EVar 39); (EVar 26)] ;;
  SSet 41 (EBin OXor u64 (ELoad 8 (EVar 38)) (ELoad 8 (EVar 40))) ;;
  SSet 42 (EBin OXor u64 (ELoad 8 (EAt (EVar 38) 1 (EInt 8))) (ELoad 8 (EAt (EVar 40) 1 (EInt 8)))) ;;
  SSet 43 (EBin OXor u64 (ELoad 8 (EAt (EVar 38) 1 (EInt 16))) (ELoad 8 (EAt (EVar 40) 1 (EInt 16)))) ;;
  SSet 44 (EBin OXor u64 (ELoad 8 (EAt (EVar 38) 1 (EInt 24))) (ELoad 8 (EAt (EVar 40) 1 (EInt 24)))) ;;
  SStore 8 (EVar 36) (EVar 41) ;;
  SStore 8 (EAt (EVar 36) 1 (EInt 8)) (EVar 42) ;;
  SStore 8 (EAt (EVar 36) 1 (EInt 16)) (EVar 43) ;;
  SStore 8 (EAt (EVar 36) 1 (EInt 24)) (EVar 44) ;;
  SCall None f_bf256_store [(EVar 1); (EVar 27)] ;;
  SCall None f_bf256_store [(EVar 13); (EVar 36)] ;;
  SCopy (EAt (EVar 1) 1 (EInt 32)) (EVar 13) (EInt 2) ;;
  SCall None f_xor_u8_array [(EVar 1); (EVar 11); (EVar 1); (EInt 34)])).

(** universal_hashing.c:145-157, vole_hash.
    Variables: 1 = h, 2 = sd, 3 = x, 4 = ell, 5 = lambda. *)
Definition c_vole_hash : func := Func [1%positive; 2%positive; 3%positive; 4%positive; 5%positive] (
  SSet 6 (EVar 5) ;;
  SIf (EBin OEq s32 (EVar 6) (EInt 256))
    (
    SCall None f_vole_hash_256 [(EVar 1); (EVar 2); (EVar 3); (EVar 4)])
    (
    SIf (EBin OEq s32 (EVar 6) (EInt 192))
      (
      SCall None f_vole_hash_192 [(EVar 1); (EVar 2); (EVar 3); (EVar 4)])
      (
      SCall None f_vole_hash_128 [(EVar 1); (EVar 2); (EVar 3); (EVar 4)]))).

(** universal_hashing.c:159-168, zk_hash_128_init.
    Variables: 1 = ctx, 2 = sd, 3 = s, 4 = t. *)
Definition c_zk_hash_128_init : func := Func [1%positive; 2%positive] (
  SSet 3 (EAt (EVar 2) 1 (EInt 32)) ;;
  SSet 4 (EAt (EVar 2) 1 (EInt 48)) ;;
  SSet 5 (EField (EVar 1) 5 0) ;;
  SAlloc 6 (EInt 16) ;;
  SCall None f_bf128_zero [(EVar 6)] ;;
  SCopy (EVar 5) (EVar 6) (EInt 16) ;;
  SSet 7 (EField (EVar 1) 5 1) ;;
  SAlloc 8 (EInt 16) ;;
  SCall None f_bf128_zero [(EVar 8)] ;;
  SCopy (EVar 7) (EVar 8) (EInt 16) ;;
  SSet 9 (EField (EVar 1) 5 2) ;;
  SAlloc 10 (EInt 16) ;;
  SCall None f_bf128_load [(EVar 10); (EVar 3)] ;;
  SCopy (EVar 9) (EVar 10) (EInt 16) ;;
  SCall (Some 11%positive) f_bf64_load [(EVar 4)] ;;
  SStore 8 (EField (EVar 1) 5 3) (EVar 11) ;;
  SStoreP (EField (EVar 1) 5 4) (EVar 2)).

(** universal_hashing.c:170-173, zk_hash_128_update.
    Variables: 1 = ctx, 2 = v, 3 = v. *)
Definition c_zk_hash_128_update : func := Func [1%positive; 2%positive] (
  SAlloc 3 (EInt 16) ;;
  SCopy (EVar 3) (EVar 2) (EInt 16) ;;
  SSet 4 (EField (EVar 1) 5 0) ;;
  SAlloc 5 (EInt 16) ;;
  SCall None f_bf128_mul [(EVar 5); (EField (EVar 1) 5 0); (EField (EVar 1) 5 2)] ;;
  SSet 6 (EBin OXor u64 (ELoad 8 (EVar 5)) (ELoad 8 (EVar 3))) ;;
  SSet 7 (EBin OXor u64 (ELoad 8 (EAt (EVar 5) 1 (EInt 8))) (ELoad 8 (EAt (EVar 3) 1 (EInt 8)))) ;;
  SStore 8 (EVar 4) (EVar 6) ;;
  SStore 8 (EAt (EVar 4) 1 (EInt 8)) (EVar 7) ;;
  SSet 8 (EField (EVar 1) 5 1) ;;
  SAlloc 9 (EInt 16) ;;
  SCall None f_bf128_mul_64 [(EVar 9); (EField (EVar 1) 5 1); (ELoad 8 (EField (EVar 1) 5 3))] ;;
  SSet 10 (EBin OXor u64 (ELoad 8 (EVar 9)) (ELoad 8 (EVar 3))) ;;
  SSet 11 (EBin OXor u64 (ELoad 8 (EAt (EVar 9) 1 (EInt 8))) (ELoad 8 (EAt (EVar 3) 1 (EInt 8)))) ;;
  SStore 8 (EVar 8) (EVar 10) ;;
  SStore 8 (EAt (EVar 8) 1 (EInt 8)) (EVar 11)).

(** universal_hashing.c:175-182, zk_hash_128_finalize.
    Variables: 1 = h, 2 = ctx, 3 = x1, 4 = x1, 5 = r0, 6 = r1. *)
Definition c_zk_hash_128_finalize : func := Func [1%positive; 2%positive; 3%positive] (
  SAlloc 4 (EInt 16) ;;
  SCopy (EVar 4) (EVar 3) (EInt 16) ;;
  SSet 5 (ELoadP (EField (EVar 2) 5 4)) ;;
  SSet 6 (EAt (ELoadP (EField (EVar 2) 5 4)) 1 (EInt 16)) ;;
  SAlloc 7 (EInt 16) ;;
  SCall None f_bf128_load [(EVar 7); (EVar 5)] ;;
  SAlloc 8 (EInt 16) ;;
  SCall None f_bf128_mul [(EVar 8); (EVar 7); (EField (EVar 2) 5 0)] ;;
  SAlloc 9 (EInt 16) ;;
  SCall None f_bf128_load [(EVar 9); (EVar 6)] ;;
  SAlloc 10 (EInt 16) ;;
  SCall None f_bf128_mul [(EVar 10); (EVar 9); (EField (EVar 2) 5 1)] ;;
  SAlloc 11 (EInt 16) ;;
  SSet 12 (EBin OXor u64 (EBin OXor u64 (ELoad 8 (EVar 8)) (ELoad 8 (EVar 10))) (ELoad 8 (EVar 4))) ;;
  SSet 13 (EBin OXor u64 (EBin OXor u64 (ELoad 8 (EAt (EVar 8) 1 (EInt 8))) (ELoad 8 (EAt (EVar 10) 1 (EInt 8)))) (ELoad 8 (EAt (EVar 4) 1 (EInt 8)))) ;;
  SStore 8 (EVar 11) (EVar 12) ;;
  SStore 8 (EAt (EVar 11) 1 (EInt 8)) (EVar 13) ;;
  SCall None f_bf128_store [(EVar 1); (EVar 11)]).

(** universal_hashing.c:184-193, zk_hash_192_init.
    Variables: 1 = ctx, 2 = sd, 3 = s, 4 = t. *)
Definition c_zk_hash_192_init : func := Func [1%positive; 2%positive] (
  SSet 3 (EAt (EVar 2) 1 (EInt 48)) ;;
  SSet 4 (EAt (EVar 2) 1 (EInt 72)) ;;
  SSet 5 (EField (EVar 1) 5 0) ;;
  SAlloc 6 (EInt 32) ;;
  SCall None f_bf192_zero [(EVar 6)] ;;
  SCopy (EVar 5) (EVar 6) (EInt 32) ;;
  SSet 7 (EField (EVar 1) 5 1) ;;
  SAlloc 8 (EInt 32) ;;
  SCall None f_bf192_zero [(EVar 8)] ;;
  SCopy (EVar 7) (EVar 8) (EInt 32) ;;
  SSet 9 (EField (EVar 1) 5 2) ;;
  SAlloc 10 (EInt 32) ;;
  SCall None f_bf192_load [(EVar 10); (EVar 3)] ;;
  SCopy (EVar 9) (EVar 10) (EInt 32) ;;
  SCall (Some 11%positive) f_bf64_load [(EVar 4)] ;;
  SStore 8 (EField (EVar 1) 5 3) (EVar 11) ;;
  SStoreP (EField (EVar 1) 5 4) (EVar 2)).

(** universal_hashing.c:195-198, zk_hash_192_update.
    Variables: 1 = ctx, 2 = v, 3 = v. *)
Definition c_zk_hash_192_update : func := Func [1%positive; 2%positive] (
  SAlloc 3 (EInt 32) ;;
  SCopy (EVar 3) (EVar 2) (EInt 32) ;;
  SSet 4 (EField (EVar 1) 5 0) ;;
  SAlloc 5 (EInt 32) ;;
  SCall None f_bf192_mul [(EVar 5); (EField (EVar 1) 5 0); (EField (EVar 1) 5 2)] ;;
  SSet 6 (EBin OXor u64 (ELoad 8 (EVar 5)) (ELoad 8 (EVar 3))) ;;
  SSet 7 (EBin OXor u64 (ELoad 8 (EAt (EVar 5) 1 (EInt 8))) (ELoad 8 (EAt (EVar 3) 1 (EInt 8)))) ;;
  SSet 8 (EBin OXor u64 (ELoad 8 (EAt (EVar 5) 1 (EInt 16))) (ELoad 8 (EAt (EVar 3) 1 (EInt 16)))) ;;
  SSet 9 (EBin OXor u64 (ELoad 8 (EAt (EVar 5) 1 (EInt 24))) (ELoad 8 (EAt (EVar 3) 1 (EInt 24)))) ;;
  SStore 8 (EVar 4) (EVar 6) ;;
  SStore 8 (EAt (EVar 4) 1 (EInt 8)) (EVar 7) ;;
  SStore 8 (EAt (EVar 4) 1 (EInt 16)) (EVar 8) ;;
  SStore 8 (EAt (EVar 4) 1 (EInt 24)) (EVar 9) ;;
  SSet 10 (EField (EVar 1) 5 1) ;;
  SAlloc 11 (EInt 32) ;;
  SCall None f_bf192_mul_64 [(EVar 11); (EField (EVar 1) 5 1); (ELoad 8 (EField (EVar 1) 5 3))] ;;
  SSet 12 (EBin OXor u64 (ELoad 8 (EVar 11)) (ELoad 8 (EVar 3))) ;;
  SSet 13 (EBin OXor u64 (ELoad 8 (EAt (EVar 11) 1 (EInt 8))) (ELoad 8 (EAt (EVar 3) 1 (EInt 8)))) ;;
  SSet 14 (EBin OXor u64 (ELoad 8 (EAt (EVar 11) 1 (EInt 16))) (ELoad 8 (EAt (EVar 3) 1 (EInt 16)))) ;;
  SSet 15 (EBin OXor u64 (ELoad 8 (EAt (EVar 11) 1 (EInt 24))) (ELoad 8 (EAt (EVar 3) 1 (EInt 24)))) ;;
  SStore 8 (EVar 10) (EVar 12) ;;
  SStore 8 (EAt (EVar 10) 1 (EInt 8)) (EVar 13) ;;
  SStore 8 (EAt (EVar 10) 1 (EInt 16)) (EVar 14) ;;
  SStore 8 (EAt (EVar 10) 1 (EInt 24)) (EVar 15)).

(** universal_hashing.c:200-207, zk_hash_192_finalize.
    Variables: 1 = h, 2 = ctx, 3 = x1, 4 = x1, 5 = r0, 6 = r1. *)
Definition c_zk_hash_192_finalize : func := Func [1%positive; 2%positive; 3%positive] (
  SAlloc 4 (EInt 32) ;;
  SCopy (EVar 4) (EVar 3) (EInt 32) ;;
  SSet 5 (ELoadP (EField (EVar 2) 5 4)) ;;
  SSet 6 (EAt (ELoadP (EField (EVar 2) 5 4)) 1 (EInt 24)) ;;
  SAlloc 7 (EInt 32) ;;
  SCall None f_bf192_load [(EVar 7); (EVar 5)] ;;
  SAlloc 8 (EInt 32) ;;
  SCall None f_bf192_mul [(EVar 8); (EVar 7); (EField (EVar 2) 5 0)] ;;
  SAlloc 9 (EInt 32) ;;
  SCall None f_bf192_load [(EVar 9); (EVar 6)] ;;
  SAlloc 10 (EInt 32) ;;
  SCall None f_bf192_mul [(EVar 10); (EVar 9); (EField (EVar 2) 5 1)] ;;
  SAlloc 11 (EInt 32) ;;
  SSet 12 (EBin OXor u64 (EBin OXor u64 (ELoad 8 (EVar 8)) (ELoad 8 (EVar 10))) (ELoad 8 (EVar 4))) ;;
  SSet 13 (EBin OXor u64 (EBin OXor u64 (ELoad 8 (EAt (EVar 8) 1 (EInt 8))) (ELoad 8 (EAt (EVar 10) 1 (EInt 8)))) (ELoad 8 (EAt (EVar 4) 1 (EInt 8)))) ;;
  SSet 14 (EBin OXor u64 (EBin OXor u64 (ELoad 8 (EAt (EVar 8) 1 (EInt 16))) (ELoad 8 (EAt (EVar 10) 1 (EInt 16)))) (ELoad 8 (EAt (EVar 4) 1 (EInt 16)))) ;;
  SSet 15 (EBin OXor u64 (EBin OXor u64 (ELoad 8 (EAt (EVar 8) 1 (EInt 24))) (ELoad 8 (EAt (EVar 10) 1 (EInt 24)))) (ELoad 8 (EAt (EVar 4) 1 (EInt 24)))) ;;
  SStore 8 (EVar 11) (EVar 12) ;;
  SStore 8 (EAt (EVar 11) 1 (EInt 8)) (EVar 13) ;;
  SStore 8 (EAt (EVar 11) 1 (EInt 16)) (EVar 14) ;;
  SStore 8 (EAt (EVar 11) 1 (EInt 24)) (EVar 15) ;;
  SCall None f_bf192_store [(EVar 1); (EVar 11)]).

(** universal_hashing.c:209-218, zk_hash_256_init.
    Variables: 1 = ctx, 2 = sd, 3 = s, 4 = t. *)
Definition c_zk_hash_256_init : func := Func [1%positive; 2%positive] (
  SSet 3 (EAt (EVar 2) 1 (EInt 64)) ;;
  SSet 4 (EAt (EVar 2) 1 (EInt 96)) ;;
  SSet 5 (EField (EVar 1) 5 0) ;;
  SAlloc 6 (EInt 32) ;;
  SCall None f_bf256_zero [(EVar 6)] ;;
  SCopy (EVar 5) (EVar 6) (EInt 32) ;;
  SSet 7 (EField (EVar 1) 5 1) ;;
  SAlloc 8 (EInt 32) ;;
  SCall None f_bf256_zero [(EVar 8)] ;;
  SCopy (EVar 7) (EVar 8) (EInt 32) ;;
  SSet 9 (EField (EVar 1) 5 2) ;;
  SAlloc 10 (EInt 32) ;;
  SCall None f_bf256_load [(EVar 10); (EVar 3)] ;;
  SCopy (EVar 9) (EVar 10) (EInt 32) ;;
  SCall (Some 11%positive) f_bf64_load [(EVar 4)] ;;
  SStore 8 (EField (EVar 1) 5 3) (EVar 11) ;;
  SStoreP (EField (EVar 1) 5 4) (EVar 2)).

(** universal_hashing.c:220-223, zk_hash_256_update.
    Variables: 1 = ctx, 2 = v, 3 = v. *)
Definition c_zk_hash_256_update : func := Func [1%positive; 2%positive] (
  SAlloc 3 (EInt 32) ;;
  SCopy (EVar 3) (EVar 2) (EInt 32) ;;
  SSet 4 (EField (EVar 1) 5 0) ;;
  SAlloc 5 (EInt 32) ;;
  SCall None f_bf256_mul [(EVar 5); (EField (EVar 1) 5 0); (EField (EVar 1) 5 2)] ;;
  SSet 6 (EBin OXor u64 (ELoad 8 (EVar 5)) (ELoad 8 (EVar 3))) ;;
  SSet 7 (EBin OXor u64 (ELoad 8 (EAt (EVar 5) 1 (EInt 8))) (ELoad 8 (EAt (EVar 3) 1 (EInt 8)))) ;;
  SSet 8 (EBin OXor u64 (ELoad 8 (EAt (EVar 5) 1 (EInt 16))) (ELoad 8 (EAt (EVar 3) 1 (EInt 16)))) ;;
  SSet 9 (EBin OXor u64 (ELoad 8 (EAt (EVar 5) 1 (EInt 24))) (ELoad 8 (EAt (EVar 3) 1 (EInt 24)))) ;;
  SStore 8 (EVar 4) (EVar 6) ;;
  SStore 8 (EAt (EVar 4) 1 (EInt 8)) (EVar 7) ;;
  SStore 8 (EAt (EVar 4) 1 (EInt 16)) (EVar 8) ;;
  SStore 8 (EAt (EVar 4) 1 (EInt 24)) (EVar 9) ;;
  SSet 10 (EField (EVar 1) 5 1) ;;
  SAlloc 11 (EInt 32) ;;
  SCall None f_bf256_mul_64 [(EVar 11); (EField (EVar 1) 5 1); (ELoad 8 (EField (EVar 1) 5 3))] ;;
  SSet 12 (EBin OXor u64 (ELoad 8 (EVar 11)) (ELoad 8 (EVar 3))) ;;
  SSet 13 (EBin OXor u64 (ELoad 8 (EAt (EVar 11) 1 (EInt 8))) (ELoad 8 (EAt (EVar 3) 1 (EInt 8)))) ;;
  SSet 14 (EBin OXor u64 (ELoad 8 (EAt (EVar 11) 1 (EInt 16))) (ELoad 8 (EAt (EVar 3) 1 (EInt 16)))) ;;
  SSet 15 (EBin OXor u64 (ELoad 8 (EAt (EVar 11) 1 (EInt 24))) (ELoad 8 (EAt (EVar 3) 1 (EInt 24)))) ;;
  SStore 8 (EVar 10) (EVar 12) ;;
  SStore 8 (EAt (EVar 10) 1 (EInt 8)) (EVar 13) ;;
  SStore 8 (EAt (EVar 10) 1 (EInt 16)) (EVar 14) ;;
  SStore 8 (EAt (EVar 10) 1 (EInt 24)) (EVar 15)).

(** universal_hashing.c:225-232, zk_hash_256_finalize.
    Variables: 1 = h, 2 = ctx, 3 = x1, 4 = x1, 5 = r0, 6 = r1. *)
Definition c_zk_hash_256_finalize : func := Func [1%positive; 2%positive; 3%positive] (
  SAlloc 4 (EInt 32) ;;
  SCopy (EVar 4) (EVar 3) (EInt 32) ;;
  SSet 5 (ELoadP (EField (EVar 2) 5 4)) ;;
  SSet 6 (EAt (ELoadP (EField (EVar 2) 5 4)) 1 (EInt 32)) ;;
  SAlloc 7 (EInt 32) ;;
  SCall None f_bf256_load [(EVar 7); (EVar 5)] ;;
  SAlloc 8 (EInt 32) ;;
  SCall None f_bf256_mul [(EVar 8); (EVar 7); (EField (EVar 2) 5 0)] ;;
  SAlloc 9 (EInt 32) ;;
  SCall None f_bf256_load [(EVar 9); (EVar 6)] ;;
  SAlloc 10 (EInt 32) ;;
  SCall None f_bf256_mul [(EVar 10); (EVar 9); (EField (EVar 2) 5 1)] ;;
  SAlloc 11 (EInt 32) ;;
  SSet 12 (EBin OXor u64 (EBin OXor u64 (ELoad 8 (EVar 8)) (ELoad 8 (EVar 10))) (ELoad 8 (EVar 4))) ;;
  SSet 13 (EBin OXor u64 (EBin OXor u64 (ELoad 8 (EAt (EVar 8) 1 (EInt 8))) (ELoad 8 (EAt (EVar 10) 1 (EInt 8)))) (ELoad 8 (EAt (EVar 4) 1 (EInt 8)))) ;;
  SSet 14 (EBin OXor u64 (EBin OXor u64 (ELoad 8 (EAt (EVar 8) 1 (EInt 16))) (ELoad 8 (EAt (EVar 10) 1 (EInt 16)))) (ELoad 8 (EAt (EVar 4) 1 (EInt 16)))) ;;
  SSet 15 (EBin OXor u64 (EBin OXor u64 (ELoad 8 (EAt (EVar 8) 1 (EInt 24))) (ELoad 8 (EAt (EVar 10) 1 (EInt 24)))) (ELoad 8 (EAt (EVar 4) 1 (EInt 24)))) ;;
  SStore 8 (EVar 11) (EVar 12) ;;
  SStore 8 (EAt (EVar 11) 1 (EInt 8)) (EVar 13) ;;
  SStore 8 (EAt (EVar 11) 1 (EInt 16)) (EVar 14) ;;
  SStore 8 (EAt (EVar 11) 1 (EInt 24)) (EVar 15) ;;
  SCall None f_bf256_store [(EVar 1); (EVar 11)]).

