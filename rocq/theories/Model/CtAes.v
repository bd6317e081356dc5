(** Generated by tools/ctc/c2v.py from the sources in /repo; see DESIGN.md. *)
From Coq Require Import ZArith List.
From Verif Require Import Model.CtLang Model.CtNames.
Import ListNotations.
Local Open Scope Z_scope.

(** aes.c:37-39, contains_zero.
    Variables: 1 = block. *)
Definition c_contains_zero : func := Func [1%positive] (
  SReturn (EBin OOr s32 (EBin OOr s32 (EBin OOr s32 (EUn OLNot s32 (ELoad 1 (EVar 1))) (EUn OLNot s32 (ELoad 1 (EAt (EVar 1) 1 (EInt 1))))) (EUn OLNot s32 (ELoad 1 (EAt (EVar 1) 1 (EInt 2))))) (EUn OLNot s32 (ELoad 1 (EAt (EVar 1) 1 (EInt 3)))))).

(** aes.c:41-60, compute_sbox.
    Variables: 1 = in, 3 = t, 4 = t0. *)
Definition c_compute_sbox : func := Func [1%positive] (
  SCall (Some 2%positive) f_bf8_inv [(EVar 1)] ;;
  SSet 3 (EVar 2) ;;
  SSet 4 (EUn OCast u8 (EBin OShl s32 (EUn OParity u32 (EUn OCast u32 (EBin OAnd s32 (EVar 3) (EInt 241)))) (EInt 0))) ;;
  SSet 4 (EUn OCast u8 (EBin OXor s32 (EVar 4) (EBin OShl s32 (EUn OParity u32 (EUn OCast u32 (EBin OAnd s32 (EVar 3) (EInt 227)))) (EInt 1)))) ;;
  SSet 4 (EUn OCast u8 (EBin OXor s32 (EVar 4) (EBin OShl s32 (EUn OParity u32 (EUn OCast u32 (EBin OAnd s32 (EVar 3) (EInt 199)))) (EInt 2)))) ;;
  SSet 4 (EUn OCast u8 (EBin OXor s32 (EVar 4) (EBin OShl s32 (EUn OParity u32 (EUn OCast u32 (EBin OAnd s32 (EVar 3) (EInt 143)))) (EInt 3)))) ;;
  SSet 4 (EUn OCast u8 (EBin OXor s32 (EVar 4) (EBin OShl s32 (EUn OParity u32 (EUn OCast u32 (EBin OAnd s32 (EVar 3) (EInt 31)))) (EInt 4)))) ;;
  SSet 4 (EUn OCast u8 (EBin OXor s32 (EVar 4) (EBin OShl s32 (EUn OParity u32 (EUn OCast u32 (EBin OAnd s32 (EVar 3) (EInt 62)))) (EInt 5)))) ;;
  SSet 4 (EUn OCast u8 (EBin OXor s32 (EVar 4) (EBin OShl s32 (EUn OParity u32 (EUn OCast u32 (EBin OAnd s32 (EVar 3) (EInt 124)))) (EInt 6)))) ;;
  SSet 4 (EUn OCast u8 (EBin OXor s32 (EVar 4) (EBin OShl s32 (EUn OParity u32 (EUn OCast u32 (EBin OAnd s32 (EVar 3) (EInt 248)))) (EInt 7)))) ;;
  SReturn (EUn OCast u8 (EBin OXor s32 (EVar 4) (EInt 99)))).

(** aes.c:62-71, aes_increment_iv.
    Variables: 1 = iv, 2 = i. *)
Definition c_aes_increment_iv : func := Func [1%positive] (
  SSet 2 (EInt 16) ;;
  SLoop (EBin OGt s32 (EVar 2) (EInt 0))
    (
    SSet 2 (EBin OSub u32 (EVar 2) (EInt 1)))
    (
    SIf (EBin OEq s32 (ELoad 1 (EAt (EVar 1) 1 (EBin OSub u32 (EVar 2) (EInt 1)))) (EInt 255))
      (
      SStore 1 (EAt (EVar 1) 1 (EBin OSub u32 (EVar 2) (EInt 1))) (EInt 0) ;;
      SContinue)
      SSkip ;;
    SSet 3 (EAt (EVar 1) 1 (EBin OSub u32 (EVar 2) (EInt 1))) ;;
    SStore 1 (EVar 3) (EUn OCast u8 (EBin OAdd s32 (ELoad 1 (EVar 3)) (EInt 1))) ;;
    SBreak)).

(** aes.c:75-80, add_round_key.
    Variables: 1 = round, 2 = state, 3 = round_key, 4 = block_words, 5 = c. *)
Definition c_add_round_key : func := Func [1%positive; 2%positive; 3%positive; 4%positive] (
  SSet 5 (EInt 0) ;;
  SLoop (EBin OLt s32 (EVar 5) (EVar 4))
    (
    SSet 5 (EBin OAdd u32 (EVar 5) (EInt 1)))
    (
    SCall None f_xor_u8_array [(EAt (EVar 2) 4 (EVar 5)); (EAt (EAt (EVar 3) 32 (EVar 1)) 4 (EVar 5)); (EAt (EVar 2) 4 (EVar 5)); (EInt 4)])).

(** aes.c:82-93, sub_bytes.
    Variables: 1 = state, 2 = block_words, 3 = ret, 4 = c, 6 = r. *)
Definition c_sub_bytes : func := Func [1%positive; 2%positive] (
  SSet 3 (EInt 0) ;;
  SSet 4 (EInt 0) ;;
  SLoop (EBin OLt s32 (EVar 4) (EVar 2))
    (
    SSet 4 (EBin OAdd u32 (EVar 4) (EInt 1)))
    (
    SCall (Some 5%positive) f_contains_zero [(EAt (EVar 1) 4 (EVar 4))] ;;
    SSet 3 (EBin OOr s32 (EVar 3) (EVar 5)) ;;
    SSet 6 (EInt 0) ;;
    SLoop (EBin OLt s32 (EVar 6) (EInt 4))
      (
      SSet 6 (EBin OAdd u32 (EVar 6) (EInt 1)))
      (
      SCall (Some 7%positive) f_compute_sbox [(ELoad 1 (EAt (EAt (EVar 1) 4 (EVar 4)) 1 (EVar 6)))] ;;
      SStore 1 (EAt (EAt (EVar 1) 4 (EVar 4)) 1 (EVar 6)) (EVar 7))) ;;
  SReturn (EVar 3)).

(** aes.c:95-120, shift_row.
    Variables: 1 = state, 2 = block_words, 3 = new_state, 5 = i, 6 = i, 7 = i. *)
Definition c_shift_row : func := Func [1%positive; 2%positive] (
  SAlloc 3 (EInt 32) ;;
  SSet 4 (EVar 2) ;;
  SIf (ECond (EBin OEq s32 (EVar 4) (EInt 4)) (EInt 1) (EBin OEq s32 (EVar 4) (EInt 6)))
    (
    SSet 5 (EInt 0) ;;
    SLoop (EBin OLt s32 (EVar 5) (EVar 2))
      (
      SSet 5 (EBin OAdd u32 (EVar 5) (EInt 1)))
      (
      SStore 1 (EAt (EVar 3) 4 (EVar 5)) (ELoad 1 (EAt (EVar 1) 4 (EVar 5))) ;;
      SStore 1 (EAt (EAt (EVar 3) 4 (EVar 5)) 1 (EInt 1)) (ELoad 1 (EAt (EAt (EVar 1) 4 (EDiv OMod u32 (EBin OAdd u32 (EVar 5) (EInt 1)) (EVar 2))) 1 (EInt 1))) ;;
      SStore 1 (EAt (EAt (EVar 3) 4 (EVar 5)) 1 (EInt 2)) (ELoad 1 (EAt (EAt (EVar 1) 4 (EDiv OMod u32 (EBin OAdd u32 (EVar 5) (EInt 2)) (EVar 2))) 1 (EInt 2))) ;;
      SStore 1 (EAt (EAt (EVar 3) 4 (EVar 5)) 1 (EInt 3)) (ELoad 1 (EAt (EAt (EVar 1) 4 (EDiv OMod u32 (EBin OAdd u32 (EVar 5) (EInt 3)) (EVar 2))) 1 (EInt 3)))))
    (
    SIf (EBin OEq s32 (EVar 4) (EInt 8))
      (
      SSet 6 (EInt 0) ;;
      SLoop (EBin OLt s32 (EVar 6) (EVar 2))
        (
        SSet 6 (EBin OAdd u32 (EVar 6) (EInt 1)))
        (
        SStore 1 (EAt (EVar 3) 4 (EVar 6)) (ELoad 1 (EAt (EVar 1) 4 (EVar 6))) ;;
        SStore 1 (EAt (EAt (EVar 3) 4 (EVar 6)) 1 (EInt 1)) (ELoad 1 (EAt (EAt (EVar 1) 4 (EDiv OMod u32 (EBin OAdd u32 (EVar 6) (EInt 1)) (EInt 8))) 1 (EInt 1))) ;;
        SStore 1 (EAt (EAt (EVar 3) 4 (EVar 6)) 1 (EInt 2)) (ELoad 1 (EAt (EAt (EVar 1) 4 (EDiv OMod u32 (EBin OAdd u32 (EVar 6) (EInt 3)) (EInt 8))) 1 (EInt 2))) ;;
        SStore 1 (EAt (EAt (EVar 3) 4 (EVar 6)) 1 (EInt 3)) (ELoad 1 (EAt (EAt (EVar 1) 4 (EDiv OMod u32 (EBin OAdd u32 (EVar 6) (EInt 4)) (EInt 8))) 1 (EInt 3)))))
      SSkip) ;;
  SSet 7 (EInt 0) ;;
  SLoop (EBin OLt s32 (EVar 7) (EVar 2))
    (
    SSet 7 (EBin OAdd u32 (EVar 7) (EInt 1)))
    (
    SCopy (EAt (EVar 1) 4 (EVar 7)) (EAt (EVar 3) 4 (EVar 7)) (EInt 4))).

(** aes.c:122-137, mix_column.
    Variables: 1 = state, 2 = block_words, 3 = c, 6 = tmp, 9 = tmp_1, 12 = tmp_2, 15 = tmp_3. *)
Definition c_mix_column : func := Func [1%positive; 2%positive] (
  SSet 3 (EInt 0) ;;
  SLoop (EBin OLt s32 (EVar 3) (EVar 2))
    (
    SSet 3 (EBin OAdd u32 (EVar 3) (EInt 1)))
    (
    SCall (Some 4%positive) f_bf8_mul [(ELoad 1 (EAt (EVar 1) 4 (EVar 3))); (EInt 2)] ;;
    SCall (Some 5%positive) f_bf8_mul [(ELoad 1 (EAt (EAt (EVar 1) 4 (EVar 3)) 1 (EInt 1))); (EInt 3)] ;;
    SSet 6 (EUn OCast u8 (EBin OXor s32 (EBin OXor s32 (EBin OXor s32 (EVar 4) (EVar 5)) (ELoad 1 (EAt (EAt (EVar 1) 4 (EVar 3)) 1 (EInt 2)))) (ELoad 1 (EAt (EAt (EVar 1) 4 (EVar 3)) 1 (EInt 3))))) ;;
    SCall (Some 7%positive) f_bf8_mul [(ELoad 1 (EAt (EAt (EVar 1) 4 (EVar 3)) 1 (EInt 1))); (EInt 2)] ;;
    SCall (Some 8%positive) f_bf8_mul [(ELoad 1 (EAt (EAt (EVar 1) 4 (EVar 3)) 1 (EInt 2))); (EInt 3)] ;;
    SSet 9 (EUn OCast u8 (EBin OXor s32 (EBin OXor s32 (EBin OXor s32 (ELoad 1 (EAt (EVar 1) 4 (EVar 3))) (EVar 7)) (EVar 8)) (ELoad 1 (EAt (EAt (EVar 1) 4 (EVar 3)) 1 (EInt 3))))) ;;
    SCall (Some 10%positive) f_bf8_mul [(ELoad 1 (EAt (EAt (EVar 1) 4 (EVar 3)) 1 (EInt 2))); (EInt 2)] ;;
    SCall (Some 11%positive) f_bf8_mul [(ELoad 1 (EAt (EAt (EVar 1) 4 (EVar 3)) 1 (EInt 3))); (EInt 3)] ;;
    SSet 12 (EUn OCast u8 (EBin OXor s32 (EBin OXor s32 (EBin OXor s32 (ELoad 1 (EAt (EVar 1) 4 (EVar 3))) (ELoad 1 (EAt (EAt (EVar 1) 4 (EVar 3)) 1 (EInt 1)))) (EVar 10)) (EVar 11))) ;;
    SCall (Some 13%positive) f_bf8_mul [(ELoad 1 (EAt (EVar 1) 4 (EVar 3))); (EInt 3)] ;;
    SCall (Some 14%positive) f_bf8_mul [(ELoad 1 (EAt (EAt (EVar 1) 4 (EVar 3)) 1 (EInt 3))); (EInt 2)] ;;
    SSet 15 (EUn OCast u8 (EBin OXor s32 (EBin OXor s32 (EBin OXor s32 (EVar 13) (ELoad 1 (EAt (EAt (EVar 1) 4 (EVar 3)) 1 (EInt 1)))) (ELoad 1 (EAt (EAt (EVar 1) 4 (EVar 3)) 1 (EInt 2)))) (EVar 14))) ;;
    SStore 1 (EAt (EVar 1) 4 (EVar 3)) (EVar 6) ;;
    SStore 1 (EAt (EAt (EVar 1) 4 (EVar 3)) 1 (EInt 1)) (EVar 9) ;;
    SStore 1 (EAt (EAt (EVar 1) 4 (EVar 3)) 1 (EInt 2)) (EVar 12) ;;
    SStore 1 (EAt (EAt (EVar 1) 4 (EVar 3)) 1 (EInt 3)) (EVar 15))).

(** aes.c:140-145, sub_words.
    Variables: 1 = words. *)
Definition c_sub_words : func := Func [1%positive] (
  SCall (Some 2%positive) f_compute_sbox [(ELoad 1 (EVar 1))] ;;
  SStore 1 (EVar 1) (EVar 2) ;;
  SCall (Some 3%positive) f_compute_sbox [(ELoad 1 (EAt (EVar 1) 1 (EInt 1)))] ;;
  SStore 1 (EAt (EVar 1) 1 (EInt 1)) (EVar 3) ;;
  SCall (Some 4%positive) f_compute_sbox [(ELoad 1 (EAt (EVar 1) 1 (EInt 2)))] ;;
  SStore 1 (EAt (EVar 1) 1 (EInt 2)) (EVar 4) ;;
  SCall (Some 5%positive) f_compute_sbox [(ELoad 1 (EAt (EVar 1) 1 (EInt 3)))] ;;
  SStore 1 (EAt (EVar 1) 1 (EInt 3)) (EVar 5)).

(** aes.c:147-153, rot_word.
    Variables: 1 = words, 2 = tmp. *)
Definition c_rot_word : func := Func [1%positive] (
  SSet 2 (ELoad 1 (EVar 1)) ;;
  SStore 1 (EVar 1) (ELoad 1 (EAt (EVar 1) 1 (EInt 1))) ;;
  SStore 1 (EAt (EVar 1) 1 (EInt 1)) (ELoad 1 (EAt (EVar 1) 1 (EInt 2))) ;;
  SStore 1 (EAt (EVar 1) 1 (EInt 2)) (ELoad 1 (EAt (EVar 1) 1 (EInt 3))) ;;
  SStore 1 (EAt (EVar 1) 1 (EInt 3)) (EVar 2)).

(** aes.c:155-194, expand_key.
    Variables: 1 = round_keys, 2 = key, 3 = key_words, 4 = block_words, 5 = num_rounds, 6 = ret, 7 = k, 12 = k, 13 = tmp, 16 = m. *)
Definition c_expand_key : func := Func [1%positive; 2%positive; 3%positive; 4%positive; 5%positive] (
  SSet 6 (EInt 0) ;;
  SSet 7 (EInt 0) ;;
  SLoop (EBin OLt s32 (EVar 7) (EVar 3))
    (
    SSet 7 (EBin OAdd u32 (EVar 7) (EInt 1)))
    (
    SCall (Some 8%positive) f_bf8_load [(EAt (EVar 2) 1 (EBin OMul u32 (EInt 4) (EVar 7)))] ;;
    SStore 1 (EAt (EAt (EVar 1) 32 (EDiv ODiv u32 (EVar 7) (EVar 4))) 4 (EDiv OMod u32 (EVar 7) (EVar 4))) (EVar 8) ;;
    SCall (Some 9%positive) f_bf8_load [(EAt (EVar 2) 1 (EBin OAdd u32 (EBin OMul u32 (EInt 4) (EVar 7)) (EInt 1)))] ;;
    SStore 1 (EAt (EAt (EAt (EVar 1) 32 (EDiv ODiv u32 (EVar 7) (EVar 4))) 4 (EDiv OMod u32 (EVar 7) (EVar 4))) 1 (EInt 1)) (EVar 9) ;;
    SCall (Some 10%positive) f_bf8_load [(EAt (EVar 2) 1 (EBin OAdd u32 (EBin OMul u32 (EInt 4) (EVar 7)) (EInt 2)))] ;;
    SStore 1 (EAt (EAt (EAt (EVar 1) 32 (EDiv ODiv u32 (EVar 7) (EVar 4))) 4 (EDiv OMod u32 (EVar 7) (EVar 4))) 1 (EInt 2)) (EVar 10) ;;
    SCall (Some 11%positive) f_bf8_load [(EAt (EVar 2) 1 (EBin OAdd u32 (EBin OMul u32 (EInt 4) (EVar 7)) (EInt 3)))] ;;
    SStore 1 (EAt (EAt (EAt (EVar 1) 32 (EDiv ODiv u32 (EVar 7) (EVar 4))) 4 (EDiv OMod u32 (EVar 7) (EVar 4))) 1 (EInt 3)) (EVar 11)) ;;
  SSet 12 (EVar 3) ;;
  SLoop (EBin OLt s32 (EVar 12) (EBin OMul u32 (EVar 4) (EBin OAdd u32 (EVar 5) (EInt 1))))
    (
    SSet 12 (EBin OAdd u32 (EVar 12) (EInt 1)))
    (
    SAlloc 13 (EInt 4) ;;
    SCopy (EVar 13) (EAt (EAt (EVar 1) 32 (EDiv ODiv u32 (EBin OSub u32 (EVar 12) (EInt 1)) (EVar 4))) 4 (EDiv OMod u32 (EBin OSub u32 (EVar 12) (EInt 1)) (EVar 4))) (EInt 4) ;;
    SIf (EBin OEq s32 (EDiv OMod u32 (EVar 12) (EVar 3)) (EInt 0))
      (
      SCall None f_rot_word [(EVar 13)] ;;
      SCall (Some 14%positive) f_contains_zero [(EVar 13)] ;;
      SSet 6 (EBin OOr s32 (EVar 6) (EVar 14)) ;;
      SCall None f_sub_words [(EVar 13)] ;;
      SStore 1 (EVar 13) (EUn OCast u8 (EBin OXor s32 (ELoad 1 (EVar 13)) (ELoad 1 (EAt (EGlob 12) 1 (EBin OSub u32 (EDiv ODiv u32 (EVar 12) (EVar 3)) (EInt 1)))))))
      SSkip ;;
    SIf (ECond (EBin OGt s32 (EVar 3) (EInt 6)) (EBin ONe s32 (EBin OEq s32 (EDiv OMod u32 (EVar 12) (EVar 3)) (EInt 4)) (EInt 0)) (EInt 0))
      (
      SCall (Some 15%positive) f_contains_zero [(EVar 13)] ;;
      SSet 6 (EBin OOr s32 (EVar 6) (EVar 15)) ;;
      SCall None f_sub_words [(EVar 13)])
      SSkip ;;
    SSet 16 (EBin OSub u32 (EVar 12) (EVar 3)) ;;
    SStore 1 (EAt (EAt (EVar 1) 32 (EDiv ODiv u32 (EVar 12) (EVar 4))) 4 (EDiv OMod u32 (EVar 12) (EVar 4))) (EUn OCast u8 (EBin OXor s32 (ELoad 1 (EAt (EAt (EVar 1) 32 (EDiv ODiv u32 (EVar 16) (EVar 4))) 4 (EDiv OMod u32 (EVar 16) (EVar 4)))) (ELoad 1 (EVar 13)))) ;;
    SStore 1 (EAt (EAt (EAt (EVar 1) 32 (EDiv ODiv u32 (EVar 12) (EVar 4))) 4 (EDiv OMod u32 (EVar 12) (EVar 4))) 1 (EInt 1)) (EUn OCast u8 (EBin OXor s32 (ELoad 1 (EAt (EAt (EAt (EVar 1) 32 (EDiv ODiv u32 (EVar 16) (EVar 4))) 4 (EDiv OMod u32 (EVar 16) (EVar 4))) 1 (EInt 1))) (ELoad 1 (EAt (EVar 13) 1 (EInt 1))))) ;;
    SStore 1 (EAt (EAt (EAt (EVar 1) 32 (EDiv ODiv u32 (EVar 12) (EVar 4))) 4 (EDiv OMod u32 (EVar 12) (EVar 4))) 1 (EInt 2)) (EUn OCast u8 (EBin OXor s32 (ELoad 1 (EAt (EAt (EAt (EVar 1) 32 (EDiv ODiv u32 (EVar 16) (EVar 4))) 4 (EDiv OMod u32 (EVar 16) (EVar 4))) 1 (EInt 2))) (ELoad 1 (EAt (EVar 13) 1 (EInt 2))))) ;;
    SStore 1 (EAt (EAt (EAt (EVar 1) 32 (EDiv ODiv u32 (EVar 12) (EVar 4))) 4 (EDiv OMod u32 (EVar 12) (EVar 4))) 1 (EInt 3)) (EUn OCast u8 (EBin OXor s32 (ELoad 1 (EAt (EAt (EAt (EVar 1) 32 (EDiv ODiv u32 (EVar 16) (EVar 4))) 4 (EDiv OMod u32 (EVar 16) (EVar 4))) 1 (EInt 3))) (ELoad 1 (EAt (EVar 13) 1 (EInt 3)))))) ;;
  SReturn (EVar 6)).

(** aes.c:198-200, aes128_init_round_keys.
    Variables: 1 = round_key, 2 = key. *)
Definition c_aes128_init_round_keys : func := Func [1%positive; 2%positive] (
  SCall (Some 3%positive) f_expand_key [(EVar 1); (EVar 2); (EInt 4); (EInt 4); (EInt 10)] ;;
  SReturn (EVar 3)).

(** aes.c:202-204, aes192_init_round_keys.
    Variables: 1 = round_key, 2 = key. *)
Definition c_aes192_init_round_keys : func := Func [1%positive; 2%positive] (
  SCall (Some 3%positive) f_expand_key [(EVar 1); (EVar 2); (EInt 6); (EInt 4); (EInt 12)] ;;
  SReturn (EVar 3)).

(** aes.c:206-208, aes256_init_round_keys.
    Variables: 1 = round_key, 2 = key. *)
Definition c_aes256_init_round_keys : func := Func [1%positive; 2%positive] (
  SCall (Some 3%positive) f_expand_key [(EVar 1); (EVar 2); (EInt 8); (EInt 4); (EInt 14)] ;;
  SReturn (EVar 3)).

(** aes.c:210-212, rijndael192_init_round_keys.
    Variables: 1 = round_key, 2 = key. *)
Definition c_rijndael192_init_round_keys : func := Func [1%positive; 2%positive] (
  SCall (Some 3%positive) f_expand_key [(EVar 1); (EVar 2); (EInt 6); (EInt 6); (EInt 12)] ;;
  SReturn (EVar 3)).

(** aes.c:214-216, rijndael256_init_round_keys.
    Variables: 1 = round_key, 2 = key. *)
Definition c_rijndael256_init_round_keys : func := Func [1%positive; 2%positive] (
  SCall (Some 3%positive) f_expand_key [(EVar 1); (EVar 2); (EInt 8); (EInt 8); (EInt 14)] ;;
  SReturn (EVar 3)).

(** aes.c:218-222, load_state.
    Variables: 1 = state, 2 = src, 3 = block_words, 4 = i. *)
Definition c_load_state : func := Func [1%positive; 2%positive; 3%positive] (
  SSet 4 (EInt 0) ;;
  SLoop (EBin ONe s32 (EVar 4) (EBin OMul u32 (EVar 3) (EInt 4)))
    (
    SSet 4 (EBin OAdd u32 (EVar 4) (EInt 1)))
    (
    SCall (Some 5%positive) f_bf8_load [(EAt (EVar 2) 1 (EVar 4))] ;;
    SStore 1 (EAt (EAt (EVar 1) 4 (EDiv ODiv u32 (EVar 4) (EInt 4))) 1 (EDiv OMod u32 (EVar 4) (EInt 4))) (EVar 5))).

(** aes.c:224-228, store_state.
    Variables: 1 = dst, 2 = state, 3 = block_words, 4 = i. *)
Definition c_store_state : func := Func [1%positive; 2%positive; 3%positive] (
  SSet 4 (EInt 0) ;;
  SLoop (EBin ONe s32 (EVar 4) (EBin OMul u32 (EVar 3) (EInt 4)))
    (
    SSet 4 (EBin OAdd u32 (EVar 4) (EInt 1)))
    (
    SCall None f_bf8_store [(EAt (EVar 1) 1 (EVar 4)); (ELoad 1 (EAt (EAt (EVar 2) 4 (EDiv ODiv u32 (EVar 4) (EInt 4))) 1 (EDiv OMod u32 (EVar 4) (EInt 4))))])).

(** aes.c:230-250, aes_encrypt.
    Variables: 1 = keys, 2 = state, 3 = block_words, 4 = num_rounds, 5 = ret, 6 = round. *)
Definition c_aes_encrypt : func := Func [1%positive; 2%positive; 3%positive; 4%positive] (
  SSet 5 (EInt 0) ;;
  SCall None f_add_round_key [(EInt 0); (EVar 2); (EVar 1); (EVar 3)] ;;
  SSet 6 (EInt 1) ;;
  SLoop (EBin OLt s32 (EVar 6) (EVar 4))
    (
    SSet 6 (EBin OAdd u32 (EVar 6) (EInt 1)))
    (
    SCall (Some 7%positive) f_sub_bytes [(EVar 2); (EVar 3)] ;;
    SSet 5 (EBin OOr s32 (EVar 5) (EVar 7)) ;;
    SCall None f_shift_row [(EVar 2); (EVar 3)] ;;
    SCall None f_mix_column [(EVar 2); (EVar 3)] ;;
    SCall None f_add_round_key [(EVar 6); (EVar 2); (EVar 1); (EVar 3)]) ;;
  SCall (Some 8%positive) f_sub_bytes [(EVar 2); (EVar 3)] ;;
  SSet 5 (EBin OOr s32 (EVar 5) (EVar 8)) ;;
  SCall None f_shift_row [(EVar 2); (EVar 3)] ;;
  SCall None f_add_round_key [(EVar 4); (EVar 2); (EVar 1); (EVar 3)] ;;
  SReturn (EVar 5)).

(** aes.c:252-259, aes128_encrypt_block.
    Variables: 1 = key, 2 = plaintext, 3 = ciphertext, 4 = state, 6 = ret. *)
Definition c_aes128_encrypt_block : func := Func [1%positive; 2%positive; 3%positive] (
  SAlloc 4 (EInt 32) ;;
  SCall None f_load_state [(EVar 4); (EVar 2); (EInt 4)] ;;
  SCall (Some 5%positive) f_aes_encrypt [(EVar 1); (EVar 4); (EInt 4); (EInt 10)] ;;
  SSet 6 (EVar 5) ;;
  SCall None f_store_state [(EVar 3); (EVar 4); (EInt 4)] ;;
  SReturn (EVar 6)).

(** aes.c:261-268, aes192_encrypt_block.
    Variables: 1 = key, 2 = plaintext, 3 = ciphertext, 4 = state, 6 = ret. *)
Definition c_aes192_encrypt_block : func := Func [1%positive; 2%positive; 3%positive] (
  SAlloc 4 (EInt 32) ;;
  SCall None f_load_state [(EVar 4); (EVar 2); (EInt 4)] ;;
  SCall (Some 5%positive) f_aes_encrypt [(EVar 1); (EVar 4); (EInt 4); (EInt 12)] ;;
  SSet 6 (EVar 5) ;;
  SCall None f_store_state [(EVar 3); (EVar 4); (EInt 4)] ;;
  SReturn (EVar 6)).

(** aes.c:270-277, aes256_encrypt_block.
    Variables: 1 = key, 2 = plaintext, 3 = ciphertext, 4 = state, 6 = ret. *)
Definition c_aes256_encrypt_block : func := Func [1%positive; 2%positive; 3%positive] (
  SAlloc 4 (EInt 32) ;;
  SCall None f_load_state [(EVar 4); (EVar 2); (EInt 4)] ;;
  SCall (Some 5%positive) f_aes_encrypt [(EVar 1); (EVar 4); (EInt 4); (EInt 14)] ;;
  SSet 6 (EVar 5) ;;
  SCall None f_store_state [(EVar 3); (EVar 4); (EInt 4)] ;;
  SReturn (EVar 6)).

(** aes.c:279-286, rijndael192_encrypt_block.
    Variables: 1 = key, 2 = plaintext, 3 = ciphertext, 4 = state, 6 = ret. *)
Definition c_rijndael192_encrypt_block : func := Func [1%positive; 2%positive; 3%positive] (
  SAlloc 4 (EInt 32) ;;
  SCall None f_load_state [(EVar 4); (EVar 2); (EInt 6)] ;;
  SCall (Some 5%positive) f_aes_encrypt [(EVar 1); (EVar 4); (EInt 6); (EInt 12)] ;;
  SSet 6 (EVar 5) ;;
  SCall None f_store_state [(EVar 3); (EVar 4); (EInt 6)] ;;
  SReturn (EVar 6)).

(** aes.c:288-295, rijndael256_encrypt_block.
    Variables: 1 = key, 2 = plaintext, 3 = ciphertext, 4 = state, 6 = ret. *)
Definition c_rijndael256_encrypt_block : func := Func [1%positive; 2%positive; 3%positive] (
  SAlloc 4 (EInt 32) ;;
  SCall None f_load_state [(EVar 4); (EVar 2); (EInt 8)] ;;
  SCall (Some 5%positive) f_aes_encrypt [(EVar 1); (EVar 4); (EInt 8); (EInt 14)] ;;
  SSet 6 (EVar 5) ;;
  SCall None f_store_state [(EVar 3); (EVar 4); (EInt 8)] ;;
  SReturn (EVar 6)).

(** aes.c:297-391, prg.
    Variables: 1 = key, 2 = iv, 3 = out, 4 = seclvl, 5 = outlen, 6 = internal_iv, 7 = round_key, 10 = state, 12 = state, 14 = tmp, 16 = state, 18 = state, 20 = tmp, 22 = state, 24 = state, 26 = tmp. *)
Definition c_prg : func := Func [1%positive; 2%positive; 3%positive; 4%positive; 5%positive] (
  SAlloc 6 (EInt 16) ;;
  SCopy (EVar 6) (EVar 2) (EInt 16) ;;
  SAlloc 7 (EInt 480) ;;
  SSet 8 (EVar 4) ;;
  SIf (EBin OEq s32 (EVar 8) (EInt 256))
    (
    SCall None f_aes256_init_round_keys [(EVar 7); (EVar 1)] ;;
    SLoop (EBin OGe s32 (EVar 5) (EInt 16))
      (
      SSet 5 (EBin OSub u64 (EVar 5) (EInt 16)) ;;
      SSet 3 (EAt (EVar 3) 1 (EInt 16)))
      (
      SAlloc 10 (EInt 32) ;;
      SCall None f_load_state [(EVar 10); (EVar 6); (EInt 4)] ;;
      SCall None f_aes_encrypt [(EVar 7); (EVar 10); (EInt 4); (EInt 14)] ;;
      SCall None f_store_state [(EVar 3); (EVar 10); (EInt 4)] ;;
      SCall None f_aes_increment_iv [(EVar 6)]) ;;
    SIf (EVar 5)
      (
      SAlloc 12 (EInt 32) ;;
      SCall None f_load_state [(EVar 12); (EVar 6); (EInt 4)] ;;
      SCall None f_aes_encrypt [(EVar 7); (EVar 12); (EInt 4); (EInt 14)] ;;
      SAlloc 14 (EInt 16) ;;
      SCall None f_store_state [(EVar 14); (EVar 12); (EInt 4)] ;;
      SCopy (EVar 3) (EVar 14) (EVar 5))
      SSkip ;;
    SReturn (EInt 0))
    (
    SIf (EBin OEq s32 (EVar 8) (EInt 192))
      (
      SCall None f_aes192_init_round_keys [(EVar 7); (EVar 1)] ;;
      SLoop (EBin OGe s32 (EVar 5) (EInt 16))
        (
        SSet 5 (EBin OSub u64 (EVar 5) (EInt 16)) ;;
        SSet 3 (EAt (EVar 3) 1 (EInt 16)))
        (
        SAlloc 16 (EInt 32) ;;
        SCall None f_load_state [(EVar 16); (EVar 6); (EInt 4)] ;;
        SCall None f_aes_encrypt [(EVar 7); (EVar 16); (EInt 4); (EInt 12)] ;;
        SCall None f_store_state [(EVar 3); (EVar 16); (EInt 4)] ;;
        SCall None f_aes_increment_iv [(EVar 6)]) ;;
      SIf (EVar 5)
        (
        SAlloc 18 (EInt 32) ;;
        SCall None f_load_state [(EVar 18); (EVar 6); (EInt 4)] ;;
        SCall None f_aes_encrypt [(EVar 7); (EVar 18); (EInt 4); (EInt 12)] ;;
        SAlloc 20 (EInt 16) ;;
        SCall None f_store_state [(EVar 20); (EVar 18); (EInt 4)] ;;
        SCopy (EVar 3) (EVar 20) (EVar 5))
        SSkip ;;
      SReturn (EInt 0))
      (
      SCall None f_aes128_init_round_keys [(EVar 7); (EVar 1)] ;;
      SLoop (EBin OGe s32 (EVar 5) (EInt 16))
        (
        SSet 5 (EBin OSub u64 (EVar 5) (EInt 16)) ;;
        SSet 3 (EAt (EVar 3) 1 (EInt 16)))
        (
        SAlloc 22 (EInt 32) ;;
        SCall None f_load_state [(EVar 22); (EVar 6); (EInt 4)] ;;
        SCall None f_aes_encrypt [(EVar 7); (EVar 22); (EInt 4); (EInt 10)] ;;
        SCall None f_store_state [(EVar 3); (EVar 22); (EInt 4)] ;;
        SCall None f_aes_increment_iv [(EVar 6)]) ;;
      SIf (EVar 5)
        (
        SAlloc 24 (EInt 32) ;;
        SCall None f_load_state [(EVar 24); (EVar 6); (EInt 4)] ;;
        SCall None f_aes_encrypt [(EVar 7); (EVar 24); (EInt 4); (EInt 10)] ;;
        SAlloc 26 (EInt 16) ;;
        SCall None f_store_state [(EVar 26); (EVar 24); (EInt 4)] ;;
        SCopy (EVar 3) (EVar 26) (EVar 5))
        SSkip ;;
      SReturn (EInt 0)))).

(** aes.c:393-498, aes_extend_witness.
    Variables: 1 = key, 2 = in, 3 = params, 4 = lambda, 5 = l, 6 = L_ke, 7 = S_ke, 8 = num_rounds, 10 = w, 11 = w_out, 12 = block_words, 13 = beta, 15 = tmp, 16 = round_keys, 23 = i, 24 = j, 25 = ik, 26 = b, 27 = state, 28 = round. *)
Definition c_aes_extend_witness : func := Func [1%positive; 2%positive; 3%positive] (
  SSet 4 (ELoad 2 (EVar 3)) ;;
  SSet 5 (ELoad 2 (EAt (EVar 3) 1 (EInt 10))) ;;
  SSet 6 (ELoad 2 (EAt (EVar 3) 1 (EInt 12))) ;;
  SSet 7 (ELoad 2 (EAt (EVar 3) 1 (EInt 4))) ;;
  SSet 8 (ELoad 2 (EAt (EVar 3) 1 (EInt 6))) ;;
  SAlloc 9 (EDiv ODiv u32 (EBin OAdd u32 (EVar 5) (EInt 7)) (EInt 8)) ;;
  SSet 10 (EVar 9) ;;
  SSet 11 (EVar 10) ;;
  SSet 12 (EInt 4) ;;
  SSet 13 (EInt 1) ;;
  SSet 14 (ELoad 4 (EAt (EVar 3) 1 (EInt 32))) ;;
  SIf (ECond (ECond (ECond (EBin OEq s32 (EVar 14) (EInt 4)) (EInt 1) (EBin OEq s32 (EVar 14) (EInt 3))) (EInt 1) (EBin OEq s32 (EVar 14) (EInt 6))) (EInt 1) (EBin OEq s32 (EVar 14) (EInt 5)))
    (
    SSet 13 (EInt 2))
    (
    SIf (ECond (EBin OEq s32 (EVar 14) (EInt 10)) (EInt 1) (EBin OEq s32 (EVar 14) (EInt 9)))
      (
      SSet 12 (EInt 6))
      (
      SIf (ECond (EBin OEq s32 (EVar 14) (EInt 12)) (EInt 1) (EBin OEq s32 (EVar 14) (EInt 11)))
        (
        SSet 12 (EInt 8))
        SSkip)) ;;
  SIf (EUn OLNot s32 (EVar 6))
    (
    SSet 15 (EVar 1) ;;
    SSet 1 (EVar 2) ;;
    SSet 2 (EVar 15))
    SSkip ;;
  SAlloc 16 (EInt 480) ;;
  SSet 17 (EVar 4) ;;
  SIf (EBin OEq s32 (EVar 17) (EInt 256))
    (
    SIf (EBin OEq s32 (EVar 12) (EInt 8))
      (
      SCall None f_rijndael256_init_round_keys [(EVar 16); (EVar 1)])
      (
      SCall None f_aes256_init_round_keys [(EVar 16); (EVar 1)]))
    (
    SIf (EBin OEq s32 (EVar 17) (EInt 192))
      (
      SIf (EBin OEq s32 (EVar 12) (EInt 6))
        (
        SCall None f_rijndael192_init_round_keys [(EVar 16); (EVar 1)])
        (
        SCall None f_aes192_init_round_keys [(EVar 16); (EVar 1)]))
      (
      SCall None f_aes128_init_round_keys [(EVar 16); (EVar 1)])) ;;
  SIf (EBin OGt s32 (EVar 6) (EInt 0))
    (
    SSet 23 (EInt 0) ;;
    SLoop (EBin ONe s32 (EVar 23) (ELoad 2 (EAt (EVar 3) 1 (EInt 2))))
      (
      SSet 23 (EBin OAdd u32 (EVar 23) (EInt 1)))
      (
      SCopy (EVar 10) (EAt (EAt (EVar 16) 32 (EDiv ODiv u32 (EVar 23) (EInt 4))) 4 (EDiv OMod u32 (EVar 23) (EInt 4))) (EInt 4) ;;
      SSet 10 (EAt (EVar 10) 1 (EInt 4))) ;;
    SSet 24 (EInt 0) ;;
    SSet 25 (ELoad 2 (EAt (EVar 3) 1 (EInt 2))) ;;
    SLoop (EBin OLt s32 (EVar 24) (EDiv ODiv u32 (EVar 7) (EInt 4)))
      (
      SSet 24 (EBin OAdd u32 (EVar 24) (EInt 1)))
      (
      SCopy (EVar 10) (EAt (EAt (EVar 16) 32 (EDiv ODiv u32 (EVar 25) (EInt 4))) 4 (EDiv OMod u32 (EVar 25) (EInt 4))) (EInt 4) ;;
      SSet 10 (EAt (EVar 10) 1 (EInt 4)) ;;
      SSet 25 (EBin OAdd u32 (EVar 25) (EUn OCast u32 (ECond (EBin OEq s32 (EVar 4) (EInt 192)) (EInt 6) (EInt 4))))))
    (
    SCopy (EVar 10) (EVar 2) (EDiv ODiv u32 (EVar 4) (EInt 8)) ;;
    SSet 10 (EAt (EVar 10) 1 (EDiv ODiv u32 (EVar 4) (EInt 8)))) ;;
  SSet 26 (EInt 0) ;;
  SLoop (EBin OLt s32 (EVar 26) (EVar 13))
    (
    SSet 26 (EBin OAdd u32 (EVar 26) (EInt 1)) ;;
    SSet 2 (EAt (EVar 2) 1 (EBin OMul u64 (EInt 4) (EVar 12))))
    (
    SAlloc 27 (EInt 32) ;;
    SCall None f_load_state [(EVar 27); (EVar 2); (EVar 12)] ;;
    SCall None f_add_round_key [(EInt 0); (EVar 27); (EVar 16); (EVar 12)] ;;
    SSet 28 (EInt 1) ;;
    SLoop (EBin OLt s32 (EVar 28) (EVar 8))
      (
      SSet 28 (EBin OAdd u32 (EVar 28) (EInt 1)))
      (
      SCall None f_sub_bytes [(EVar 27); (EVar 12)] ;;
      SCall None f_shift_row [(EVar 27); (EVar 12)] ;;
      SCall None f_store_state [(EVar 10); (EVar 27); (EVar 12)] ;;
      SSet 10 (EAt (EVar 10) 1 (EBin OMul u64 (EInt 4) (EVar 12))) ;;
      SCall None f_mix_column [(EVar 27); (EVar 12)] ;;
      SCall None f_add_round_key [(EVar 28); (EVar 27); (EVar 16); (EVar 12)])) ;;
  SReturn (EVar 11)).

