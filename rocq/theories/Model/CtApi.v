(** Generated by tools/ctc/c2v.py from the sources in /repo; see DESIGN.md. *)
From Coq Require Import ZArith List.
From Verif Require Import Model.CtLang Model.CtNames.
Import ListNotations.
Local Open Scope Z_scope.

(** faest_param.c.in:28-46, faest_128f_keygen.
    Variables: 1 = pk, 2 = sk, 3 = done, 6 = shown. *)
Definition c_faest_128f_keygen : func := Func [1%positive; 2%positive] (
  SIf (ECond (EIsNull (EVar 1)) (EInt 1) (EBin ONe s32 (EIsNull (EVar 2)) (EInt 0)))
    (
    SReturn (EInt (-1)))
    SSkip ;;
  SSet 3 (EInt 0) ;;
  SLoop (EUn OLNot s32 (EVar 3))
    SSkip
    (
    SCall None f_rand_bytes [(EVar 2); (EInt 32)] ;;
    SCall (Some 5%positive) f_owf_128 [(EAt (EVar 2) 1 (EInt 16)); (EVar 2); (EAt (EVar 1) 1 (EInt 16))] ;;
    SShow 6 (EVar 5) ;;
    SSet 3 (EVar 6)) ;;
  SCopy (EVar 1) (EVar 2) (EInt 16) ;;
  SReturn (EInt 0)).

(** faest_param.c.in:28-46, faest_128s_keygen.
    Variables: 1 = pk, 2 = sk, 3 = done, 6 = shown. *)
Definition c_faest_128s_keygen : func := Func [1%positive; 2%positive] (
  SIf (ECond (EIsNull (EVar 1)) (EInt 1) (EBin ONe s32 (EIsNull (EVar 2)) (EInt 0)))
    (
    SReturn (EInt (-1)))
    SSkip ;;
  SSet 3 (EInt 0) ;;
  SLoop (EUn OLNot s32 (EVar 3))
    SSkip
    (
    SCall None f_rand_bytes [(EVar 2); (EInt 32)] ;;
    SCall (Some 5%positive) f_owf_128 [(EAt (EVar 2) 1 (EInt 16)); (EVar 2); (EAt (EVar 1) 1 (EInt 16))] ;;
    SShow 6 (EVar 5) ;;
    SSet 3 (EVar 6)) ;;
  SCopy (EVar 1) (EVar 2) (EInt 16) ;;
  SReturn (EInt 0)).

(** faest_param.c.in:28-46, faest_192f_keygen.
    Variables: 1 = pk, 2 = sk, 3 = done, 6 = shown. *)
Definition c_faest_192f_keygen : func := Func [1%positive; 2%positive] (
  SIf (ECond (EIsNull (EVar 1)) (EInt 1) (EBin ONe s32 (EIsNull (EVar 2)) (EInt 0)))
    (
    SReturn (EInt (-1)))
    SSkip ;;
  SSet 3 (EInt 0) ;;
  SLoop (EUn OLNot s32 (EVar 3))
    SSkip
    (
    SCall None f_rand_bytes [(EVar 2); (EInt 56)] ;;
    SCall (Some 5%positive) f_owf_192 [(EAt (EVar 2) 1 (EInt 32)); (EVar 2); (EAt (EVar 1) 1 (EInt 32))] ;;
    SShow 6 (EVar 5) ;;
    SSet 3 (EVar 6)) ;;
  SCopy (EVar 1) (EVar 2) (EInt 32) ;;
  SReturn (EInt 0)).

(** faest_param.c.in:28-46, faest_192s_keygen.
    Variables: 1 = pk, 2 = sk, 3 = done, 6 = shown. *)
Definition c_faest_192s_keygen : func := Func [1%positive; 2%positive] (
  SIf (ECond (EIsNull (EVar 1)) (EInt 1) (EBin ONe s32 (EIsNull (EVar 2)) (EInt 0)))
    (
    SReturn (EInt (-1)))
    SSkip ;;
  SSet 3 (EInt 0) ;;
  SLoop (EUn OLNot s32 (EVar 3))
    SSkip
    (
    SCall None f_rand_bytes [(EVar 2); (EInt 56)] ;;
    SCall (Some 5%positive) f_owf_192 [(EAt (EVar 2) 1 (EInt 32)); (EVar 2); (EAt (EVar 1) 1 (EInt 32))] ;;
    SShow 6 (EVar 5) ;;
    SSet 3 (EVar 6)) ;;
  SCopy (EVar 1) (EVar 2) (EInt 32) ;;
  SReturn (EInt 0)).

(** faest_param.c.in:28-46, faest_256f_keygen.
    Variables: 1 = pk, 2 = sk, 3 = done, 6 = shown. *)
Definition c_faest_256f_keygen : func := Func [1%positive; 2%positive] (
  SIf (ECond (EIsNull (EVar 1)) (EInt 1) (EBin ONe s32 (EIsNull (EVar 2)) (EInt 0)))
    (
    SReturn (EInt (-1)))
    SSkip ;;
  SSet 3 (EInt 0) ;;
  SLoop (EUn OLNot s32 (EVar 3))
    SSkip
    (
    SCall None f_rand_bytes [(EVar 2); (EInt 64)] ;;
    SCall (Some 5%positive) f_owf_256 [(EAt (EVar 2) 1 (EInt 32)); (EVar 2); (EAt (EVar 1) 1 (EInt 32))] ;;
    SShow 6 (EVar 5) ;;
    SSet 3 (EVar 6)) ;;
  SCopy (EVar 1) (EVar 2) (EInt 32) ;;
  SReturn (EInt 0)).

(** faest_param.c.in:28-46, faest_256s_keygen.
    Variables: 1 = pk, 2 = sk, 3 = done, 6 = shown. *)
Definition c_faest_256s_keygen : func := Func [1%positive; 2%positive] (
  SIf (ECond (EIsNull (EVar 1)) (EInt 1) (EBin ONe s32 (EIsNull (EVar 2)) (EInt 0)))
    (
    SReturn (EInt (-1)))
    SSkip ;;
  SSet 3 (EInt 0) ;;
  SLoop (EUn OLNot s32 (EVar 3))
    SSkip
    (
    SCall None f_rand_bytes [(EVar 2); (EInt 64)] ;;
    SCall (Some 5%positive) f_owf_256 [(EAt (EVar 2) 1 (EInt 32)); (EVar 2); (EAt (EVar 1) 1 (EInt 32))] ;;
    SShow 6 (EVar 5) ;;
    SSet 3 (EVar 6)) ;;
  SCopy (EVar 1) (EVar 2) (EInt 32) ;;
  SReturn (EInt 0)).

(** faest_param.c.in:28-46, faest_em_128f_keygen.
    Variables: 1 = pk, 2 = sk, 3 = done, 6 = shown. *)
Definition c_faest_em_128f_keygen : func := Func [1%positive; 2%positive] (
  SIf (ECond (EIsNull (EVar 1)) (EInt 1) (EBin ONe s32 (EIsNull (EVar 2)) (EInt 0)))
    (
    SReturn (EInt (-1)))
    SSkip ;;
  SSet 3 (EInt 0) ;;
  SLoop (EUn OLNot s32 (EVar 3))
    SSkip
    (
    SCall None f_rand_bytes [(EVar 2); (EInt 32)] ;;
    SCall (Some 5%positive) f_owf_em_128 [(EAt (EVar 2) 1 (EInt 16)); (EVar 2); (EAt (EVar 1) 1 (EInt 16))] ;;
    SShow 6 (EVar 5) ;;
    SSet 3 (EVar 6)) ;;
  SCopy (EVar 1) (EVar 2) (EInt 16) ;;
  SReturn (EInt 0)).

(** faest_param.c.in:28-46, faest_em_128s_keygen.
    Variables: 1 = pk, 2 = sk, 3 = done, 6 = shown. *)
Definition c_faest_em_128s_keygen : func := Func [1%positive; 2%positive] (
  SIf (ECond (EIsNull (EVar 1)) (EInt 1) (EBin ONe s32 (EIsNull (EVar 2)) (EInt 0)))
    (
    SReturn (EInt (-1)))
    SSkip ;;
  SSet 3 (EInt 0) ;;
  SLoop (EUn OLNot s32 (EVar 3))
    SSkip
    (
    SCall None f_rand_bytes [(EVar 2); (EInt 32)] ;;
    SCall (Some 5%positive) f_owf_em_128 [(EAt (EVar 2) 1 (EInt 16)); (EVar 2); (EAt (EVar 1) 1 (EInt 16))] ;;
    SShow 6 (EVar 5) ;;
    SSet 3 (EVar 6)) ;;
  SCopy (EVar 1) (EVar 2) (EInt 16) ;;
  SReturn (EInt 0)).

(** faest_param.c.in:28-46, faest_em_192f_keygen.
    Variables: 1 = pk, 2 = sk, 3 = done, 6 = shown. *)
Definition c_faest_em_192f_keygen : func := Func [1%positive; 2%positive] (
  SIf (ECond (EIsNull (EVar 1)) (EInt 1) (EBin ONe s32 (EIsNull (EVar 2)) (EInt 0)))
    (
    SReturn (EInt (-1)))
    SSkip ;;
  SSet 3 (EInt 0) ;;
  SLoop (EUn OLNot s32 (EVar 3))
    SSkip
    (
    SCall None f_rand_bytes [(EVar 2); (EInt 48)] ;;
    SCall (Some 5%positive) f_owf_em_192 [(EAt (EVar 2) 1 (EInt 24)); (EVar 2); (EAt (EVar 1) 1 (EInt 24))] ;;
    SShow 6 (EVar 5) ;;
    SSet 3 (EVar 6)) ;;
  SCopy (EVar 1) (EVar 2) (EInt 24) ;;
  SReturn (EInt 0)).

(** faest_param.c.in:28-46, faest_em_192s_keygen.
    Variables: 1 = pk, 2 = sk, 3 = done, 6 = shown. *)
Definition c_faest_em_192s_keygen : func := Func [1%positive; 2%positive] (
  SIf (ECond (EIsNull (EVar 1)) (EInt 1) (EBin ONe s32 (EIsNull (EVar 2)) (EInt 0)))
    (
    SReturn (EInt (-1)))
    SSkip ;;
  SSet 3 (EInt 0) ;;
  SLoop (EUn OLNot s32 (EVar 3))
    SSkip
    (
    SCall None f_rand_bytes [(EVar 2); (EInt 48)] ;;
    SCall (Some 5%positive) f_owf_em_192 [(EAt (EVar 2) 1 (EInt 24)); (EVar 2); (EAt (EVar 1) 1 (EInt 24))] ;;
    SShow 6 (EVar 5) ;;
    SSet 3 (EVar 6)) ;;
  SCopy (EVar 1) (EVar 2) (EInt 24) ;;
  SReturn (EInt 0)).

(** faest_param.c.in:28-46, faest_em_256f_keygen.
    Variables: 1 = pk, 2 = sk, 3 = done, 6 = shown. *)
Definition c_faest_em_256f_keygen : func := Func [1%positive; 2%positive] (
  SIf (ECond (EIsNull (EVar 1)) (EInt 1) (EBin ONe s32 (EIsNull (EVar 2)) (EInt 0)))
    (
    SReturn (EInt (-1)))
    SSkip ;;
  SSet 3 (EInt 0) ;;
  SLoop (EUn OLNot s32 (EVar 3))
    SSkip
    (
    SCall None f_rand_bytes [(EVar 2); (EInt 64)] ;;
    SCall (Some 5%positive) f_owf_em_256 [(EAt (EVar 2) 1 (EInt 32)); (EVar 2); (EAt (EVar 1) 1 (EInt 32))] ;;
    SShow 6 (EVar 5) ;;
    SSet 3 (EVar 6)) ;;
  SCopy (EVar 1) (EVar 2) (EInt 32) ;;
  SReturn (EInt 0)).

(** faest_param.c.in:28-46, faest_em_256s_keygen.
    Variables: 1 = pk, 2 = sk, 3 = done, 6 = shown. *)
Definition c_faest_em_256s_keygen : func := Func [1%positive; 2%positive] (
  SIf (ECond (EIsNull (EVar 1)) (EInt 1) (EBin ONe s32 (EIsNull (EVar 2)) (EInt 0)))
    (
    SReturn (EInt (-1)))
    SSkip ;;
  SSet 3 (EInt 0) ;;
  SLoop (EUn OLNot s32 (EVar 3))
    SSkip
    (
    SCall None f_rand_bytes [(EVar 2); (EInt 64)] ;;
    SCall (Some 5%positive) f_owf_em_256 [(EAt (EVar 2) 1 (EInt 32)); (EVar 2); (EAt (EVar 1) 1 (EInt 32))] ;;
    SShow 6 (EVar 5) ;;
    SSet 3 (EVar 6)) ;;
  SCopy (EVar 1) (EVar 2) (EInt 32) ;;
  SReturn (EInt 0)).

(** faest_param.c.in:48-61, faest_128f_validate_keypair.
    Variables: 1 = pk, 2 = sk, 3 = pk_check, 5 = shown, 7 = shown. *)
Definition c_faest_128f_validate_keypair : func := Func [1%positive; 2%positive] (
  SIf (ECond (EIsNull (EVar 2)) (EInt 1) (EBin ONe s32 (EIsNull (EVar 1)) (EInt 0)))
    (
    SReturn (EInt (-1)))
    SSkip ;;
  SAlloc 3 (EInt 32) ;;
  SCall (Some 4%positive) f_owf_128 [(EAt (EVar 2) 1 (EInt 16)); (EVar 2); (EAt (EVar 3) 1 (EInt 16))] ;;
  SShow 5 (EVar 4) ;;
  SIf (EUn OLNot s32 (EVar 5))
    (
    SReturn (EInt 1))
    SSkip ;;
  SCopy (EVar 3) (EVar 2) (EInt 16) ;;
  SCall (Some 6%positive) f_faest_timingsafe_bcmp [(EVar 3); (EVar 1); (EInt 32)] ;;
  SShow 7 (EBin OEq s32 (EVar 6) (EInt 0)) ;;
  SReturn (ECond (EVar 7) (EInt 0) (EInt 2))).

(** faest_param.c.in:48-61, faest_128s_validate_keypair.
    Variables: 1 = pk, 2 = sk, 3 = pk_check, 5 = shown, 7 = shown. *)
Definition c_faest_128s_validate_keypair : func := Func [1%positive; 2%positive] (
  SIf (ECond (EIsNull (EVar 2)) (EInt 1) (EBin ONe s32 (EIsNull (EVar 1)) (EInt 0)))
    (
    SReturn (EInt (-1)))
    SSkip ;;
  SAlloc 3 (EInt 32) ;;
  SCall (Some 4%positive) f_owf_128 [(EAt (EVar 2) 1 (EInt 16)); (EVar 2); (EAt (EVar 3) 1 (EInt 16))] ;;
  SShow 5 (EVar 4) ;;
  SIf (EUn OLNot s32 (EVar 5))
    (
    SReturn (EInt 1))
    SSkip ;;
  SCopy (EVar 3) (EVar 2) (EInt 16) ;;
  SCall (Some 6%positive) f_faest_timingsafe_bcmp [(EVar 3); (EVar 1); (EInt 32)] ;;
  SShow 7 (EBin OEq s32 (EVar 6) (EInt 0)) ;;
  SReturn (ECond (EVar 7) (EInt 0) (EInt 2))).

(** faest_param.c.in:48-61, faest_192f_validate_keypair.
    Variables: 1 = pk, 2 = sk, 3 = pk_check, 5 = shown, 7 = shown. *)
Definition c_faest_192f_validate_keypair : func := Func [1%positive; 2%positive] (
  SIf (ECond (EIsNull (EVar 2)) (EInt 1) (EBin ONe s32 (EIsNull (EVar 1)) (EInt 0)))
    (
    SReturn (EInt (-1)))
    SSkip ;;
  SAlloc 3 (EInt 64) ;;
  SCall (Some 4%positive) f_owf_192 [(EAt (EVar 2) 1 (EInt 32)); (EVar 2); (EAt (EVar 3) 1 (EInt 32))] ;;
  SShow 5 (EVar 4) ;;
  SIf (EUn OLNot s32 (EVar 5))
    (
    SReturn (EInt 1))
    SSkip ;;
  SCopy (EVar 3) (EVar 2) (EInt 32) ;;
  SCall (Some 6%positive) f_faest_timingsafe_bcmp [(EVar 3); (EVar 1); (EInt 64)] ;;
  SShow 7 (EBin OEq s32 (EVar 6) (EInt 0)) ;;
  SReturn (ECond (EVar 7) (EInt 0) (EInt 2))).

(** faest_param.c.in:48-61, faest_192s_validate_keypair.
    Variables: 1 = pk, 2 = sk, 3 = pk_check, 5 = shown, 7 = shown. *)
Definition c_faest_192s_validate_keypair : func := Func [1%positive; 2%positive] (
  SIf (ECond (EIsNull (EVar 2)) (EInt 1) (EBin ONe s32 (EIsNull (EVar 1)) (EInt 0)))
    (
    SReturn (EInt (-1)))
    SSkip ;;
  SAlloc 3 (EInt 64) ;;
  SCall (Some 4%positive) f_owf_192 [(EAt (EVar 2) 1 (EInt 32)); (EVar 2); (EAt (EVar 3) 1 (EInt 32))] ;;
  SShow 5 (EVar 4) ;;
  SIf (EUn OLNot s32 (EVar 5))
    (
    SReturn (EInt 1))
    SSkip ;;
  SCopy (EVar 3) (EVar 2) (EInt 32) ;;
  SCall (Some 6%positive) f_faest_timingsafe_bcmp [(EVar 3); (EVar 1); (EInt 64)] ;;
  SShow 7 (EBin OEq s32 (EVar 6) (EInt 0)) ;;
  SReturn (ECond (EVar 7) (EInt 0) (EInt 2))).

(** faest_param.c.in:48-61, faest_256f_validate_keypair.
    Variables: 1 = pk, 2 = sk, 3 = pk_check, 5 = shown, 7 = shown. *)
Definition c_faest_256f_validate_keypair : func := Func [1%positive; 2%positive] (
  SIf (ECond (EIsNull (EVar 2)) (EInt 1) (EBin ONe s32 (EIsNull (EVar 1)) (EInt 0)))
    (
    SReturn (EInt (-1)))
    SSkip ;;
  SAlloc 3 (EInt 64) ;;
  SCall (Some 4%positive) f_owf_256 [(EAt (EVar 2) 1 (EInt 32)); (EVar 2); (EAt (EVar 3) 1 (EInt 32))] ;;
  SShow 5 (EVar 4) ;;
  SIf (EUn OLNot s32 (EVar 5))
    (
    SReturn (EInt 1))
    SSkip ;;
  SCopy (EVar 3) (EVar 2) (EInt 32) ;;
  SCall (Some 6%positive) f_faest_timingsafe_bcmp [(EVar 3); (EVar 1); (EInt 64)] ;;
  SShow 7 (EBin OEq s32 (EVar 6) (EInt 0)) ;;
  SReturn (ECond (EVar 7) (EInt 0) (EInt 2))).

(** faest_param.c.in:48-61, faest_256s_validate_keypair.
    Variables: 1 = pk, 2 = sk, 3 = pk_check, 5 = shown, 7 = shown. *)
Definition c_faest_256s_validate_keypair : func := Func [1%positive; 2%positive] (
  SIf (ECond (EIsNull (EVar 2)) (EInt 1) (EBin ONe s32 (EIsNull (EVar 1)) (EInt 0)))
    (
    SReturn (EInt (-1)))
    SSkip ;;
  SAlloc 3 (EInt 64) ;;
  SCall (Some 4%positive) f_owf_256 [(EAt (EVar 2) 1 (EInt 32)); (EVar 2); (EAt (EVar 3) 1 (EInt 32))] ;;
  SShow 5 (EVar 4) ;;
  SIf (EUn OLNot s32 (EVar 5))
    (
    SReturn (EInt 1))
    SSkip ;;
  SCopy (EVar 3) (EVar 2) (EInt 32) ;;
  SCall (Some 6%positive) f_faest_timingsafe_bcmp [(EVar 3); (EVar 1); (EInt 64)] ;;
  SShow 7 (EBin OEq s32 (EVar 6) (EInt 0)) ;;
  SReturn (ECond (EVar 7) (EInt 0) (EInt 2))).

(** faest_param.c.in:48-61, faest_em_128f_validate_keypair.
    Variables: 1 = pk, 2 = sk, 3 = pk_check, 5 = shown, 7 = shown. *)
Definition c_faest_em_128f_validate_keypair : func := Func [1%positive; 2%positive] (
  SIf (ECond (EIsNull (EVar 2)) (EInt 1) (EBin ONe s32 (EIsNull (EVar 1)) (EInt 0)))
    (
    SReturn (EInt (-1)))
    SSkip ;;
  SAlloc 3 (EInt 32) ;;
  SCall (Some 4%positive) f_owf_em_128 [(EAt (EVar 2) 1 (EInt 16)); (EVar 2); (EAt (EVar 3) 1 (EInt 16))] ;;
  SShow 5 (EVar 4) ;;
  SIf (EUn OLNot s32 (EVar 5))
    (
    SReturn (EInt 1))
    SSkip ;;
  SCopy (EVar 3) (EVar 2) (EInt 16) ;;
  SCall (Some 6%positive) f_faest_timingsafe_bcmp [(EVar 3); (EVar 1); (EInt 32)] ;;
  SShow 7 (EBin OEq s32 (EVar 6) (EInt 0)) ;;
  SReturn (ECond (EVar 7) (EInt 0) (EInt 2))).

(** faest_param.c.in:48-61, faest_em_128s_validate_keypair.
    Variables: 1 = pk, 2 = sk, 3 = pk_check, 5 = shown, 7 = shown. *)
Definition c_faest_em_128s_validate_keypair : func := Func [1%positive; 2%positive] (
  SIf (ECond (EIsNull (EVar 2)) (EInt 1) (EBin ONe s32 (EIsNull (EVar 1)) (EInt 0)))
    (
    SReturn (EInt (-1)))
    SSkip ;;
  SAlloc 3 (EInt 32) ;;
  SCall (Some 4%positive) f_owf_em_128 [(EAt (EVar 2) 1 (EInt 16)); (EVar 2); (EAt (EVar 3) 1 (EInt 16))] ;;
  SShow 5 (EVar 4) ;;
  SIf (EUn OLNot s32 (EVar 5))
    (
    SReturn (EInt 1))
    SSkip ;;
  SCopy (EVar 3) (EVar 2) (EInt 16) ;;
  SCall (Some 6%positive) f_faest_timingsafe_bcmp [(EVar 3); (EVar 1); (EInt 32)] ;;
  SShow 7 (EBin OEq s32 (EVar 6) (EInt 0)) ;;
  SReturn (ECond (EVar 7) (EInt 0) (EInt 2))).

(** faest_param.c.in:48-61, faest_em_192f_validate_keypair.
    Variables: 1 = pk, 2 = sk, 3 = pk_check, 5 = shown, 7 = shown. *)
Definition c_faest_em_192f_validate_keypair : func := Func [1%positive; 2%positive] (
  SIf (ECond (EIsNull (EVar 2)) (EInt 1) (EBin ONe s32 (EIsNull (EVar 1)) (EInt 0)))
    (
    SReturn (EInt (-1)))
    SSkip ;;
  SAlloc 3 (EInt 48) ;;
  SCall (Some 4%positive) f_owf_em_192 [(EAt (EVar 2) 1 (EInt 24)); (EVar 2); (EAt (EVar 3) 1 (EInt 24))] ;;
  SShow 5 (EVar 4) ;;
  SIf (EUn OLNot s32 (EVar 5))
    (
    SReturn (EInt 1))
    SSkip ;;
  SCopy (EVar 3) (EVar 2) (EInt 24) ;;
  SCall (Some 6%positive) f_faest_timingsafe_bcmp [(EVar 3); (EVar 1); (EInt 48)] ;;
  SShow 7 (EBin OEq s32 (EVar 6) (EInt 0)) ;;
  SReturn (ECond (EVar 7) (EInt 0) (EInt 2))).

(** faest_param.c.in:48-61, faest_em_192s_validate_keypair.
    Variables: 1 = pk, 2 = sk, 3 = pk_check, 5 = shown, 7 = shown. *)
Definition c_faest_em_192s_validate_keypair : func := Func [1%positive; 2%positive] (
  SIf (ECond (EIsNull (EVar 2)) (EInt 1) (EBin ONe s32 (EIsNull (EVar 1)) (EInt 0)))
    (
    SReturn (EInt (-1)))
    SSkip ;;
  SAlloc 3 (EInt 48) ;;
  SCall (Some 4%positive) f_owf_em_192 [(EAt (EVar 2) 1 (EInt 24)); (EVar 2); (EAt (EVar 3) 1 (EInt 24))] ;;
  SShow 5 (EVar 4) ;;
  SIf (EUn OLNot s32 (EVar 5))
    (
    SReturn (EInt 1))
    SSkip ;;
  SCopy (EVar 3) (EVar 2) (EInt 24) ;;
  SCall (Some 6%positive) f_faest_timingsafe_bcmp [(EVar 3); (EVar 1); (EInt 48)] ;;
  SShow 7 (EBin OEq s32 (EVar 6) (EInt 0)) ;;
  SReturn (ECond (EVar 7) (EInt 0) (EInt 2))).

(** faest_param.c.in:48-61, faest_em_256f_validate_keypair.
    Variables: 1 = pk, 2 = sk, 3 = pk_check, 5 = shown, 7 = shown. *)
Definition c_faest_em_256f_validate_keypair : func := Func [1%positive; 2%positive] (
  SIf (ECond (EIsNull (EVar 2)) (EInt 1) (EBin ONe s32 (EIsNull (EVar 1)) (EInt 0)))
    (
    SReturn (EInt (-1)))
    SSkip ;;
  SAlloc 3 (EInt 64) ;;
  SCall (Some 4%positive) f_owf_em_256 [(EAt (EVar 2) 1 (EInt 32)); (EVar 2); (EAt (EVar 3) 1 (EInt 32))] ;;
  SShow 5 (EVar 4) ;;
  SIf (EUn OLNot s32 (EVar 5))
    (
    SReturn (EInt 1))
    SSkip ;;
  SCopy (EVar 3) (EVar 2) (EInt 32) ;;
  SCall (Some 6%positive) f_faest_timingsafe_bcmp [(EVar 3); (EVar 1); (EInt 64)] ;;
  SShow 7 (EBin OEq s32 (EVar 6) (EInt 0)) ;;
  SReturn (ECond (EVar 7) (EInt 0) (EInt 2))).

(** faest_param.c.in:48-61, faest_em_256s_validate_keypair.
    Variables: 1 = pk, 2 = sk, 3 = pk_check, 5 = shown, 7 = shown. *)
Definition c_faest_em_256s_validate_keypair : func := Func [1%positive; 2%positive] (
  SIf (ECond (EIsNull (EVar 2)) (EInt 1) (EBin ONe s32 (EIsNull (EVar 1)) (EInt 0)))
    (
    SReturn (EInt (-1)))
    SSkip ;;
  SAlloc 3 (EInt 64) ;;
  SCall (Some 4%positive) f_owf_em_256 [(EAt (EVar 2) 1 (EInt 32)); (EVar 2); (EAt (EVar 3) 1 (EInt 32))] ;;
  SShow 5 (EVar 4) ;;
  SIf (EUn OLNot s32 (EVar 5))
    (
    SReturn (EInt 1))
    SSkip ;;
  SCopy (EVar 3) (EVar 2) (EInt 32) ;;
  SCall (Some 6%positive) f_faest_timingsafe_bcmp [(EVar 3); (EVar 1); (EInt 64)] ;;
  SShow 7 (EBin OEq s32 (EVar 6) (EInt 0)) ;;
  SReturn (ECond (EVar 7) (EInt 0) (EInt 2))).

(** faest_param.c.in:63-81, faest_128f_sign_with_randomness.
    Variables: 1 = sk, 2 = message, 3 = message_len, 4 = rho, 5 = rho_len, 6 = signature, 7 = signature_len, 8 = owf_output, 10 = shown, 11 = params. *)
Definition c_faest_128f_sign_with_randomness : func := Func [1%positive; 2%positive; 3%positive; 4%positive; 5%positive; 6%positive; 7%positive] (
  SIf (ECond (ECond (ECond (ECond (EIsNull (EVar 1)) (EInt 1) (EBin ONe s32 (EIsNull (EVar 6)) (EInt 0))) (EInt 1) (EBin ONe s32 (EIsNull (EVar 7)) (EInt 0))) (EInt 1) (EBin ONe s32 (EBin OLt s32 (ELoad 8 (EVar 7)) (EInt 6336)) (EInt 0))) (EInt 1) (EBin ONe s32 (ECond (EIsNull (EVar 4)) (EBin ONe s32 (EVar 5) (EInt 0)) (EInt 0)) (EInt 0)))
    (
    SReturn (EInt (-1)))
    SSkip ;;
  SAlloc 8 (EInt 16) ;;
  SCall (Some 9%positive) f_owf_128 [(EAt (EVar 1) 1 (EInt 16)); (EVar 1); (EVar 8)] ;;
  SShow 10 (EVar 9) ;;
  SIf (EUn OLNot s32 (EVar 10))
    (
    SReturn (EInt (-1)))
    SSkip ;;
  SAlloc 11 (EInt 36) ;;
  SCall None f_faest_get_paramset [(EVar 11); (EInt 2)] ;;
  SCall None f_faest_sign [(EVar 6); (EVar 2); (EVar 3); (EAt (EVar 1) 1 (EInt 16)); (EVar 1); (EVar 8); (EVar 4); (EVar 5); (EVar 11)] ;;
  SStore 8 (EVar 7) (EInt 6336) ;;
  SReturn (EInt 0)).

(** faest_param.c.in:63-81, faest_128s_sign_with_randomness.
    Variables: 1 = sk, 2 = message, 3 = message_len, 4 = rho, 5 = rho_len, 6 = signature, 7 = signature_len, 8 = owf_output, 10 = shown, 11 = params. *)
Definition c_faest_128s_sign_with_randomness : func := Func [1%positive; 2%positive; 3%positive; 4%positive; 5%positive; 6%positive; 7%positive] (
  SIf (ECond (ECond (ECond (ECond (EIsNull (EVar 1)) (EInt 1) (EBin ONe s32 (EIsNull (EVar 6)) (EInt 0))) (EInt 1) (EBin ONe s32 (EIsNull (EVar 7)) (EInt 0))) (EInt 1) (EBin ONe s32 (EBin OLt s32 (ELoad 8 (EVar 7)) (EInt 5006)) (EInt 0))) (EInt 1) (EBin ONe s32 (ECond (EIsNull (EVar 4)) (EBin ONe s32 (EVar 5) (EInt 0)) (EInt 0)) (EInt 0)))
    (
    SReturn (EInt (-1)))
    SSkip ;;
  SAlloc 8 (EInt 16) ;;
  SCall (Some 9%positive) f_owf_128 [(EAt (EVar 1) 1 (EInt 16)); (EVar 1); (EVar 8)] ;;
  SShow 10 (EVar 9) ;;
  SIf (EUn OLNot s32 (EVar 10))
    (
    SReturn (EInt (-1)))
    SSkip ;;
  SAlloc 11 (EInt 36) ;;
  SCall None f_faest_get_paramset [(EVar 11); (EInt 1)] ;;
  SCall None f_faest_sign [(EVar 6); (EVar 2); (EVar 3); (EAt (EVar 1) 1 (EInt 16)); (EVar 1); (EVar 8); (EVar 4); (EVar 5); (EVar 11)] ;;
  SStore 8 (EVar 7) (EInt 5006) ;;
  SReturn (EInt 0)).

(** faest_param.c.in:63-81, faest_192f_sign_with_randomness.
    Variables: 1 = sk, 2 = message, 3 = message_len, 4 = rho, 5 = rho_len, 6 = signature, 7 = signature_len, 8 = owf_output, 10 = shown, 11 = params. *)
Definition c_faest_192f_sign_with_randomness : func := Func [1%positive; 2%positive; 3%positive; 4%positive; 5%positive; 6%positive; 7%positive] (
  SIf (ECond (ECond (ECond (ECond (EIsNull (EVar 1)) (EInt 1) (EBin ONe s32 (EIsNull (EVar 6)) (EInt 0))) (EInt 1) (EBin ONe s32 (EIsNull (EVar 7)) (EInt 0))) (EInt 1) (EBin ONe s32 (EBin OLt s32 (ELoad 8 (EVar 7)) (EInt 16792)) (EInt 0))) (EInt 1) (EBin ONe s32 (ECond (EIsNull (EVar 4)) (EBin ONe s32 (EVar 5) (EInt 0)) (EInt 0)) (EInt 0)))
    (
    SReturn (EInt (-1)))
    SSkip ;;
  SAlloc 8 (EInt 32) ;;
  SCall (Some 9%positive) f_owf_192 [(EAt (EVar 1) 1 (EInt 32)); (EVar 1); (EVar 8)] ;;
  SShow 10 (EVar 9) ;;
  SIf (EUn OLNot s32 (EVar 10))
    (
    SReturn (EInt (-1)))
    SSkip ;;
  SAlloc 11 (EInt 36) ;;
  SCall None f_faest_get_paramset [(EVar 11); (EInt 4)] ;;
  SCall None f_faest_sign [(EVar 6); (EVar 2); (EVar 3); (EAt (EVar 1) 1 (EInt 32)); (EVar 1); (EVar 8); (EVar 4); (EVar 5); (EVar 11)] ;;
  SStore 8 (EVar 7) (EInt 16792) ;;
  SReturn (EInt 0)).

(** faest_param.c.in:63-81, faest_192s_sign_with_randomness.
    Variables: 1 = sk, 2 = message, 3 = message_len, 4 = rho, 5 = rho_len, 6 = signature, 7 = signature_len, 8 = owf_output, 10 = shown, 11 = params. *)
Definition c_faest_192s_sign_with_randomness : func := Func [1%positive; 2%positive; 3%positive; 4%positive; 5%positive; 6%positive; 7%positive] (
  SIf (ECond (ECond (ECond (ECond (EIsNull (EVar 1)) (EInt 1) (EBin ONe s32 (EIsNull (EVar 6)) (EInt 0))) (EInt 1) (EBin ONe s32 (EIsNull (EVar 7)) (EInt 0))) (EInt 1) (EBin ONe s32 (EBin OLt s32 (ELoad 8 (EVar 7)) (EInt 12744)) (EInt 0))) (EInt 1) (EBin ONe s32 (ECond (EIsNull (EVar 4)) (EBin ONe s32 (EVar 5) (EInt 0)) (EInt 0)) (EInt 0)))
    (
    SReturn (EInt (-1)))
    SSkip ;;
  SAlloc 8 (EInt 32) ;;
  SCall (Some 9%positive) f_owf_192 [(EAt (EVar 1) 1 (EInt 32)); (EVar 1); (EVar 8)] ;;
  SShow 10 (EVar 9) ;;
  SIf (EUn OLNot s32 (EVar 10))
    (
    SReturn (EInt (-1)))
    SSkip ;;
  SAlloc 11 (EInt 36) ;;
  SCall None f_faest_get_paramset [(EVar 11); (EInt 3)] ;;
  SCall None f_faest_sign [(EVar 6); (EVar 2); (EVar 3); (EAt (EVar 1) 1 (EInt 32)); (EVar 1); (EVar 8); (EVar 4); (EVar 5); (EVar 11)] ;;
  SStore 8 (EVar 7) (EInt 12744) ;;
  SReturn (EInt 0)).

(** faest_param.c.in:63-81, faest_256f_sign_with_randomness.
    Variables: 1 = sk, 2 = message, 3 = message_len, 4 = rho, 5 = rho_len, 6 = signature, 7 = signature_len, 8 = owf_output, 10 = shown, 11 = params. *)
Definition c_faest_256f_sign_with_randomness : func := Func [1%positive; 2%positive; 3%positive; 4%positive; 5%positive; 6%positive; 7%positive] (
  SIf (ECond (ECond (ECond (ECond (EIsNull (EVar 1)) (EInt 1) (EBin ONe s32 (EIsNull (EVar 6)) (EInt 0))) (EInt 1) (EBin ONe s32 (EIsNull (EVar 7)) (EInt 0))) (EInt 1) (EBin ONe s32 (EBin OLt s32 (ELoad 8 (EVar 7)) (EInt 28400)) (EInt 0))) (EInt 1) (EBin ONe s32 (ECond (EIsNull (EVar 4)) (EBin ONe s32 (EVar 5) (EInt 0)) (EInt 0)) (EInt 0)))
    (
    SReturn (EInt (-1)))
    SSkip ;;
  SAlloc 8 (EInt 32) ;;
  SCall (Some 9%positive) f_owf_256 [(EAt (EVar 1) 1 (EInt 32)); (EVar 1); (EVar 8)] ;;
  SShow 10 (EVar 9) ;;
  SIf (EUn OLNot s32 (EVar 10))
    (
    SReturn (EInt (-1)))
    SSkip ;;
  SAlloc 11 (EInt 36) ;;
  SCall None f_faest_get_paramset [(EVar 11); (EInt 6)] ;;
  SCall None f_faest_sign [(EVar 6); (EVar 2); (EVar 3); (EAt (EVar 1) 1 (EInt 32)); (EVar 1); (EVar 8); (EVar 4); (EVar 5); (EVar 11)] ;;
  SStore 8 (EVar 7) (EInt 28400) ;;
  SReturn (EInt 0)).

(** faest_param.c.in:63-81, faest_256s_sign_with_randomness.
    Variables: 1 = sk, 2 = message, 3 = message_len, 4 = rho, 5 = rho_len, 6 = signature, 7 = signature_len, 8 = owf_output, 10 = shown, 11 = params. *)
Definition c_faest_256s_sign_with_randomness : func := Func [1%positive; 2%positive; 3%positive; 4%positive; 5%positive; 6%positive; 7%positive] (
  SIf (ECond (ECond (ECond (ECond (EIsNull (EVar 1)) (EInt 1) (EBin ONe s32 (EIsNull (EVar 6)) (EInt 0))) (EInt 1) (EBin ONe s32 (EIsNull (EVar 7)) (EInt 0))) (EInt 1) (EBin ONe s32 (EBin OLt s32 (ELoad 8 (EVar 7)) (EInt 22100)) (EInt 0))) (EInt 1) (EBin ONe s32 (ECond (EIsNull (EVar 4)) (EBin ONe s32 (EVar 5) (EInt 0)) (EInt 0)) (EInt 0)))
    (
    SReturn (EInt (-1)))
    SSkip ;;
  SAlloc 8 (EInt 32) ;;
  SCall (Some 9%positive) f_owf_256 [(EAt (EVar 1) 1 (EInt 32)); (EVar 1); (EVar 8)] ;;
  SShow 10 (EVar 9) ;;
  SIf (EUn OLNot s32 (EVar 10))
    (
    SReturn (EInt (-1)))
    SSkip ;;
  SAlloc 11 (EInt 36) ;;
  SCall None f_faest_get_paramset [(EVar 11); (EInt 5)] ;;
  SCall None f_faest_sign [(EVar 6); (EVar 2); (EVar 3); (EAt (EVar 1) 1 (EInt 32)); (EVar 1); (EVar 8); (EVar 4); (EVar 5); (EVar 11)] ;;
  SStore 8 (EVar 7) (EInt 22100) ;;
  SReturn (EInt 0)).

(** faest_param.c.in:63-81, faest_em_128f_sign_with_randomness.
    Variables: 1 = sk, 2 = message, 3 = message_len, 4 = rho, 5 = rho_len, 6 = signature, 7 = signature_len, 8 = owf_output, 10 = shown, 11 = params. *)
Definition c_faest_em_128f_sign_with_randomness : func := Func [1%positive; 2%positive; 3%positive; 4%positive; 5%positive; 6%positive; 7%positive] (
  SIf (ECond (ECond (ECond (ECond (EIsNull (EVar 1)) (EInt 1) (EBin ONe s32 (EIsNull (EVar 6)) (EInt 0))) (EInt 1) (EBin ONe s32 (EIsNull (EVar 7)) (EInt 0))) (EInt 1) (EBin ONe s32 (EBin OLt s32 (ELoad 8 (EVar 7)) (EInt 5696)) (EInt 0))) (EInt 1) (EBin ONe s32 (ECond (EIsNull (EVar 4)) (EBin ONe s32 (EVar 5) (EInt 0)) (EInt 0)) (EInt 0)))
    (
    SReturn (EInt (-1)))
    SSkip ;;
  SAlloc 8 (EInt 16) ;;
  SCall (Some 9%positive) f_owf_em_128 [(EAt (EVar 1) 1 (EInt 16)); (EVar 1); (EVar 8)] ;;
  SShow 10 (EVar 9) ;;
  SIf (EUn OLNot s32 (EVar 10))
    (
    SReturn (EInt (-1)))
    SSkip ;;
  SAlloc 11 (EInt 36) ;;
  SCall None f_faest_get_paramset [(EVar 11); (EInt 8)] ;;
  SCall None f_faest_sign [(EVar 6); (EVar 2); (EVar 3); (EAt (EVar 1) 1 (EInt 16)); (EVar 1); (EVar 8); (EVar 4); (EVar 5); (EVar 11)] ;;
  SStore 8 (EVar 7) (EInt 5696) ;;
  SReturn (EInt 0)).

(** faest_param.c.in:63-81, faest_em_128s_sign_with_randomness.
    Variables: 1 = sk, 2 = message, 3 = message_len, 4 = rho, 5 = rho_len, 6 = signature, 7 = signature_len, 8 = owf_output, 10 = shown, 11 = params. *)
Definition c_faest_em_128s_sign_with_randomness : func := Func [1%positive; 2%positive; 3%positive; 4%positive; 5%positive; 6%positive; 7%positive] (
  SIf (ECond (ECond (ECond (ECond (EIsNull (EVar 1)) (EInt 1) (EBin ONe s32 (EIsNull (EVar 6)) (EInt 0))) (EInt 1) (EBin ONe s32 (EIsNull (EVar 7)) (EInt 0))) (EInt 1) (EBin ONe s32 (EBin OLt s32 (ELoad 8 (EVar 7)) (EInt 4566)) (EInt 0))) (EInt 1) (EBin ONe s32 (ECond (EIsNull (EVar 4)) (EBin ONe s32 (EVar 5) (EInt 0)) (EInt 0)) (EInt 0)))
    (
    SReturn (EInt (-1)))
    SSkip ;;
  SAlloc 8 (EInt 16) ;;
  SCall (Some 9%positive) f_owf_em_128 [(EAt (EVar 1) 1 (EInt 16)); (EVar 1); (EVar 8)] ;;
  SShow 10 (EVar 9) ;;
  SIf (EUn OLNot s32 (EVar 10))
    (
    SReturn (EInt (-1)))
    SSkip ;;
  SAlloc 11 (EInt 36) ;;
  SCall None f_faest_get_paramset [(EVar 11); (EInt 7)] ;;
  SCall None f_faest_sign [(EVar 6); (EVar 2); (EVar 3); (EAt (EVar 1) 1 (EInt 16)); (EVar 1); (EVar 8); (EVar 4); (EVar 5); (EVar 11)] ;;
  SStore 8 (EVar 7) (EInt 4566) ;;
  SReturn (EInt 0)).

(** faest_param.c.in:63-81, faest_em_192f_sign_with_randomness.
    Variables: 1 = sk, 2 = message, 3 = message_len, 4 = rho, 5 = rho_len, 6 = signature, 7 = signature_len, 8 = owf_output, 10 = shown, 11 = params. *)
Definition c_faest_em_192f_sign_with_randomness : func := Func [1%positive; 2%positive; 3%positive; 4%positive; 5%positive; 6%positive; 7%positive] (
  SIf (ECond (ECond (ECond (ECond (EIsNull (EVar 1)) (EInt 1) (EBin ONe s32 (EIsNull (EVar 6)) (EInt 0))) (EInt 1) (EBin ONe s32 (EIsNull (EVar 7)) (EInt 0))) (EInt 1) (EBin ONe s32 (EBin OLt s32 (ELoad 8 (EVar 7)) (EInt 13912)) (EInt 0))) (EInt 1) (EBin ONe s32 (ECond (EIsNull (EVar 4)) (EBin ONe s32 (EVar 5) (EInt 0)) (EInt 0)) (EInt 0)))
    (
    SReturn (EInt (-1)))
    SSkip ;;
  SAlloc 8 (EInt 24) ;;
  SCall (Some 9%positive) f_owf_em_192 [(EAt (EVar 1) 1 (EInt 24)); (EVar 1); (EVar 8)] ;;
  SShow 10 (EVar 9) ;;
  SIf (EUn OLNot s32 (EVar 10))
    (
    SReturn (EInt (-1)))
    SSkip ;;
  SAlloc 11 (EInt 36) ;;
  SCall None f_faest_get_paramset [(EVar 11); (EInt 10)] ;;
  SCall None f_faest_sign [(EVar 6); (EVar 2); (EVar 3); (EAt (EVar 1) 1 (EInt 24)); (EVar 1); (EVar 8); (EVar 4); (EVar 5); (EVar 11)] ;;
  SStore 8 (EVar 7) (EInt 13912) ;;
  SReturn (EInt 0)).

(** faest_param.c.in:63-81, faest_em_192s_sign_with_randomness.
    Variables: 1 = sk, 2 = message, 3 = message_len, 4 = rho, 5 = rho_len, 6 = signature, 7 = signature_len, 8 = owf_output, 10 = shown, 11 = params. *)
Definition c_faest_em_192s_sign_with_randomness : func := Func [1%positive; 2%positive; 3%positive; 4%positive; 5%positive; 6%positive; 7%positive] (
  SIf (ECond (ECond (ECond (ECond (EIsNull (EVar 1)) (EInt 1) (EBin ONe s32 (EIsNull (EVar 6)) (EInt 0))) (EInt 1) (EBin ONe s32 (EIsNull (EVar 7)) (EInt 0))) (EInt 1) (EBin ONe s32 (EBin OLt s32 (ELoad 8 (EVar 7)) (EInt 10824)) (EInt 0))) (EInt 1) (EBin ONe s32 (ECond (EIsNull (EVar 4)) (EBin ONe s32 (EVar 5) (EInt 0)) (EInt 0)) (EInt 0)))
    (
    SReturn (EInt (-1)))
    SSkip ;;
  SAlloc 8 (EInt 24) ;;
  SCall (Some 9%positive) f_owf_em_192 [(EAt (EVar 1) 1 (EInt 24)); (EVar 1); (EVar 8)] ;;
  SShow 10 (EVar 9) ;;
  SIf (EUn OLNot s32 (EVar 10))
    (
    SReturn (EInt (-1)))
    SSkip ;;
  SAlloc 11 (EInt 36) ;;
  SCall None f_faest_get_paramset [(EVar 11); (EInt 9)] ;;
  SCall None f_faest_sign [(EVar 6); (EVar 2); (EVar 3); (EAt (EVar 1) 1 (EInt 24)); (EVar 1); (EVar 8); (EVar 4); (EVar 5); (EVar 11)] ;;
  SStore 8 (EVar 7) (EInt 10824) ;;
  SReturn (EInt 0)).

(** faest_param.c.in:63-81, faest_em_256f_sign_with_randomness.
    Variables: 1 = sk, 2 = message, 3 = message_len, 4 = rho, 5 = rho_len, 6 = signature, 7 = signature_len, 8 = owf_output, 10 = shown, 11 = params. *)
Definition c_faest_em_256f_sign_with_randomness : func := Func [1%positive; 2%positive; 3%positive; 4%positive; 5%positive; 6%positive; 7%positive] (
  SIf (ECond (ECond (ECond (ECond (EIsNull (EVar 1)) (EInt 1) (EBin ONe s32 (EIsNull (EVar 6)) (EInt 0))) (EInt 1) (EBin ONe s32 (EIsNull (EVar 7)) (EInt 0))) (EInt 1) (EBin ONe s32 (EBin OLt s32 (ELoad 8 (EVar 7)) (EInt 26736)) (EInt 0))) (EInt 1) (EBin ONe s32 (ECond (EIsNull (EVar 4)) (EBin ONe s32 (EVar 5) (EInt 0)) (EInt 0)) (EInt 0)))
    (
    SReturn (EInt (-1)))
    SSkip ;;
  SAlloc 8 (EInt 32) ;;
  SCall (Some 9%positive) f_owf_em_256 [(EAt (EVar 1) 1 (EInt 32)); (EVar 1); (EVar 8)] ;;
  SShow 10 (EVar 9) ;;
  SIf (EUn OLNot s32 (EVar 10))
    (
    SReturn (EInt (-1)))
    SSkip ;;
  SAlloc 11 (EInt 36) ;;
  SCall None f_faest_get_paramset [(EVar 11); (EInt 12)] ;;
  SCall None f_faest_sign [(EVar 6); (EVar 2); (EVar 3); (EAt (EVar 1) 1 (EInt 32)); (EVar 1); (EVar 8); (EVar 4); (EVar 5); (EVar 11)] ;;
  SStore 8 (EVar 7) (EInt 26736) ;;
  SReturn (EInt 0)).

(** faest_param.c.in:63-81, faest_em_256s_sign_with_randomness.
    Variables: 1 = sk, 2 = message, 3 = message_len, 4 = rho, 5 = rho_len, 6 = signature, 7 = signature_len, 8 = owf_output, 10 = shown, 11 = params. *)
Definition c_faest_em_256s_sign_with_randomness : func := Func [1%positive; 2%positive; 3%positive; 4%positive; 5%positive; 6%positive; 7%positive] (
  SIf (ECond (ECond (ECond (ECond (EIsNull (EVar 1)) (EInt 1) (EBin ONe s32 (EIsNull (EVar 6)) (EInt 0))) (EInt 1) (EBin ONe s32 (EIsNull (EVar 7)) (EInt 0))) (EInt 1) (EBin ONe s32 (EBin OLt s32 (ELoad 8 (EVar 7)) (EInt 20956)) (EInt 0))) (EInt 1) (EBin ONe s32 (ECond (EIsNull (EVar 4)) (EBin ONe s32 (EVar 5) (EInt 0)) (EInt 0)) (EInt 0)))
    (
    SReturn (EInt (-1)))
    SSkip ;;
  SAlloc 8 (EInt 32) ;;
  SCall (Some 9%positive) f_owf_em_256 [(EAt (EVar 1) 1 (EInt 32)); (EVar 1); (EVar 8)] ;;
  SShow 10 (EVar 9) ;;
  SIf (EUn OLNot s32 (EVar 10))
    (
    SReturn (EInt (-1)))
    SSkip ;;
  SAlloc 11 (EInt 36) ;;
  SCall None f_faest_get_paramset [(EVar 11); (EInt 11)] ;;
  SCall None f_faest_sign [(EVar 6); (EVar 2); (EVar 3); (EAt (EVar 1) 1 (EInt 32)); (EVar 1); (EVar 8); (EVar 4); (EVar 5); (EVar 11)] ;;
  SStore 8 (EVar 7) (EInt 20956) ;;
  SReturn (EInt 0)).

(** faest_param.c.in:83-92, faest_128f_sign.
    Variables: 1 = sk, 2 = message, 3 = message_len, 4 = signature, 5 = signature_len, 6 = rho. *)
Definition c_faest_128f_sign : func := Func [1%positive; 2%positive; 3%positive; 4%positive; 5%positive] (
  SIf (ECond (ECond (ECond (EIsNull (EVar 1)) (EInt 1) (EBin ONe s32 (EIsNull (EVar 4)) (EInt 0))) (EInt 1) (EBin ONe s32 (EIsNull (EVar 5)) (EInt 0))) (EInt 1) (EBin ONe s32 (EBin OLt s32 (ELoad 8 (EVar 5)) (EInt 6336)) (EInt 0)))
    (
    SReturn (EInt (-1)))
    SSkip ;;
  SAlloc 6 (EInt 16) ;;
  SCall None f_rand_bytes [(EVar 6); (EInt 16)] ;;
  SCall (Some 8%positive) f_faest_128f_sign_with_randomness [(EVar 1); (EVar 2); (EVar 3); (EVar 6); (EInt 16); (EVar 4); (EVar 5)] ;;
  SReturn (EVar 8)).

(** faest_param.c.in:83-92, faest_128s_sign.
    Variables: 1 = sk, 2 = message, 3 = message_len, 4 = signature, 5 = signature_len, 6 = rho. *)
Definition c_faest_128s_sign : func := Func [1%positive; 2%positive; 3%positive; 4%positive; 5%positive] (
  SIf (ECond (ECond (ECond (EIsNull (EVar 1)) (EInt 1) (EBin ONe s32 (EIsNull (EVar 4)) (EInt 0))) (EInt 1) (EBin ONe s32 (EIsNull (EVar 5)) (EInt 0))) (EInt 1) (EBin ONe s32 (EBin OLt s32 (ELoad 8 (EVar 5)) (EInt 5006)) (EInt 0)))
    (
    SReturn (EInt (-1)))
    SSkip ;;
  SAlloc 6 (EInt 16) ;;
  SCall None f_rand_bytes [(EVar 6); (EInt 16)] ;;
  SCall (Some 8%positive) f_faest_128s_sign_with_randomness [(EVar 1); (EVar 2); (EVar 3); (EVar 6); (EInt 16); (EVar 4); (EVar 5)] ;;
  SReturn (EVar 8)).

(** faest_param.c.in:83-92, faest_192f_sign.
    Variables: 1 = sk, 2 = message, 3 = message_len, 4 = signature, 5 = signature_len, 6 = rho. *)
Definition c_faest_192f_sign : func := Func [1%positive; 2%positive; 3%positive; 4%positive; 5%positive] (
  SIf (ECond (ECond (ECond (EIsNull (EVar 1)) (EInt 1) (EBin ONe s32 (EIsNull (EVar 4)) (EInt 0))) (EInt 1) (EBin ONe s32 (EIsNull (EVar 5)) (EInt 0))) (EInt 1) (EBin ONe s32 (EBin OLt s32 (ELoad 8 (EVar 5)) (EInt 16792)) (EInt 0)))
    (
    SReturn (EInt (-1)))
    SSkip ;;
  SAlloc 6 (EInt 24) ;;
  SCall None f_rand_bytes [(EVar 6); (EInt 24)] ;;
  SCall (Some 8%positive) f_faest_192f_sign_with_randomness [(EVar 1); (EVar 2); (EVar 3); (EVar 6); (EInt 24); (EVar 4); (EVar 5)] ;;
  SReturn (EVar 8)).

(** faest_param.c.in:83-92, faest_192s_sign.
    Variables: 1 = sk, 2 = message, 3 = message_len, 4 = signature, 5 = signature_len, 6 = rho. *)
Definition c_faest_192s_sign : func := Func [1%positive; 2%positive; 3%positive; 4%positive; 5%positive] (
  SIf (ECond (ECond (ECond (EIsNull (EVar 1)) (EInt 1) (EBin ONe s32 (EIsNull (EVar 4)) (EInt 0))) (EInt 1) (EBin ONe s32 (EIsNull (EVar 5)) (EInt 0))) (EInt 1) (EBin ONe s32 (EBin OLt s32 (ELoad 8 (EVar 5)) (EInt 12744)) (EInt 0)))
    (
    SReturn (EInt (-1)))
    SSkip ;;
  SAlloc 6 (EInt 24) ;;
  SCall None f_rand_bytes [(EVar 6); (EInt 24)] ;;
  SCall (Some 8%positive) f_faest_192s_sign_with_randomness [(EVar 1); (EVar 2); (EVar 3); (EVar 6); (EInt 24); (EVar 4); (EVar 5)] ;;
  SReturn (EVar 8)).

(** faest_param.c.in:83-92, faest_256f_sign.
    Variables: 1 = sk, 2 = message, 3 = message_len, 4 = signature, 5 = signature_len, 6 = rho. *)
Definition c_faest_256f_sign : func := Func [1%positive; 2%positive; 3%positive; 4%positive; 5%positive] (
  SIf (ECond (ECond (ECond (EIsNull (EVar 1)) (EInt 1) (EBin ONe s32 (EIsNull (EVar 4)) (EInt 0))) (EInt 1) (EBin ONe s32 (EIsNull (EVar 5)) (EInt 0))) (EInt 1) (EBin ONe s32 (EBin OLt s32 (ELoad 8 (EVar 5)) (EInt 28400)) (EInt 0)))
    (
    SReturn (EInt (-1)))
    SSkip ;;
  SAlloc 6 (EInt 32) ;;
  SCall None f_rand_bytes [(EVar 6); (EInt 32)] ;;
  SCall (Some 8%positive) f_faest_256f_sign_with_randomness [(EVar 1); (EVar 2); (EVar 3); (EVar 6); (EInt 32); (EVar 4); (EVar 5)] ;;
  SReturn (EVar 8)).

(** faest_param.c.in:83-92, faest_256s_sign.
    Variables: 1 = sk, 2 = message, 3 = message_len, 4 = signature, 5 = signature_len, 6 = rho. *)
Definition c_faest_256s_sign : func := Func [1%positive; 2%positive; 3%positive; 4%positive; 5%positive] (
  SIf (ECond (ECond (ECond (EIsNull (EVar 1)) (EInt 1) (EBin ONe s32 (EIsNull (EVar 4)) (EInt 0))) (EInt 1) (EBin ONe s32 (EIsNull (EVar 5)) (EInt 0))) (EInt 1) (EBin ONe s32 (EBin OLt s32 (ELoad 8 (EVar 5)) (EInt 22100)) (EInt 0)))
    (
    SReturn (EInt (-1)))
    SSkip ;;
  SAlloc 6 (EInt 32) ;;
  SCall None f_rand_bytes [(EVar 6); (EInt 32)] ;;
  SCall (Some 8%positive) f_faest_256s_sign_with_randomness [(EVar 1); (EVar 2); (EVar 3); (EVar 6); (EInt 32); (EVar 4); (EVar 5)] ;;
  SReturn (EVar 8)).

(** faest_param.c.in:83-92, faest_em_128f_sign.
    Variables: 1 = sk, 2 = message, 3 = message_len, 4 = signature, 5 = signature_len, 6 = rho. *)
Definition c_faest_em_128f_sign : func := Func [1%positive; 2%positive; 3%positive; 4%positive; 5%positive] (
  SIf (ECond (ECond (ECond (EIsNull (EVar 1)) (EInt 1) (EBin ONe s32 (EIsNull (EVar 4)) (EInt 0))) (EInt 1) (EBin ONe s32 (EIsNull (EVar 5)) (EInt 0))) (EInt 1) (EBin ONe s32 (EBin OLt s32 (ELoad 8 (EVar 5)) (EInt 5696)) (EInt 0)))
    (
    SReturn (EInt (-1)))
    SSkip ;;
  SAlloc 6 (EInt 16) ;;
  SCall None f_rand_bytes [(EVar 6); (EInt 16)] ;;
  SCall (Some 8%positive) f_faest_em_128f_sign_with_randomness [(EVar 1); (EVar 2); (EVar 3); (EVar 6); (EInt 16); (EVar 4); (EVar 5)] ;;
  SReturn (EVar 8)).

(** faest_param.c.in:83-92, faest_em_128s_sign.
    Variables: 1 = sk, 2 = message, 3 = message_len, 4 = signature, 5 = signature_len, 6 = rho. *)
Definition c_faest_em_128s_sign : func := Func [1%positive; 2%positive; 3%positive; 4%positive; 5%positive] (
  SIf (ECond (ECond (ECond (EIsNull (EVar 1)) (EInt 1) (EBin ONe s32 (EIsNull (EVar 4)) (EInt 0))) (EInt 1) (EBin ONe s32 (EIsNull (EVar 5)) (EInt 0))) (EInt 1) (EBin ONe s32 (EBin OLt s32 (ELoad 8 (EVar 5)) (EInt 4566)) (EInt 0)))
    (
    SReturn (EInt (-1)))
    SSkip ;;
  SAlloc 6 (EInt 16) ;;
  SCall None f_rand_bytes [(EVar 6); (EInt 16)] ;;
  SCall (Some 8%positive) f_faest_em_128s_sign_with_randomness [(EVar 1); (EVar 2); (EVar 3); (EVar 6); (EInt 16); (EVar 4); (EVar 5)] ;;
  SReturn (EVar 8)).

(** faest_param.c.in:83-92, faest_em_192f_sign.
    Variables: 1 = sk, 2 = message, 3 = message_len, 4 = signature, 5 = signature_len, 6 = rho. *)
Definition c_faest_em_192f_sign : func := Func [1%positive; 2%positive; 3%positive; 4%positive; 5%positive] (
  SIf (ECond (ECond (ECond (EIsNull (EVar 1)) (EInt 1) (EBin ONe s32 (EIsNull (EVar 4)) (EInt 0))) (EInt 1) (EBin ONe s32 (EIsNull (EVar 5)) (EInt 0))) (EInt 1) (EBin ONe s32 (EBin OLt s32 (ELoad 8 (EVar 5)) (EInt 13912)) (EInt 0)))
    (
    SReturn (EInt (-1)))
    SSkip ;;
  SAlloc 6 (EInt 24) ;;
  SCall None f_rand_bytes [(EVar 6); (EInt 24)] ;;
  SCall (Some 8%positive) f_faest_em_192f_sign_with_randomness [(EVar 1); (EVar 2); (EVar 3); (EVar 6); (EInt 24); (EVar 4); (EVar 5)] ;;
  SReturn (EVar 8)).

(** faest_param.c.in:83-92, faest_em_192s_sign.
    Variables: 1 = sk, 2 = message, 3 = message_len, 4 = signature, 5 = signature_len, 6 = rho. *)
Definition c_faest_em_192s_sign : func := Func [1%positive; 2%positive; 3%positive; 4%positive; 5%positive] (
  SIf (ECond (ECond (ECond (EIsNull (EVar 1)) (EInt 1) (EBin ONe s32 (EIsNull (EVar 4)) (EInt 0))) (EInt 1) (EBin ONe s32 (EIsNull (EVar 5)) (EInt 0))) (EInt 1) (EBin ONe s32 (EBin OLt s32 (ELoad 8 (EVar 5)) (EInt 10824)) (EInt 0)))
    (
    SReturn (EInt (-1)))
    SSkip ;;
  SAlloc 6 (EInt 24) ;;
  SCall None f_rand_bytes [(EVar 6); (EInt 24)] ;;
  SCall (Some 8%positive) f_faest_em_192s_sign_with_randomness [(EVar 1); (EVar 2); (EVar 3); (EVar 6); (EInt 24); (EVar 4); (EVar 5)] ;;
  SReturn (EVar 8)).

(** faest_param.c.in:83-92, faest_em_256f_sign.
    Variables: 1 = sk, 2 = message, 3 = message_len, 4 = signature, 5 = signature_len, 6 = rho. *)
Definition c_faest_em_256f_sign : func := Func [1%positive; 2%positive; 3%positive; 4%positive; 5%positive] (
  SIf (ECond (ECond (ECond (EIsNull (EVar 1)) (EInt 1) (EBin ONe s32 (EIsNull (EVar 4)) (EInt 0))) (EInt 1) (EBin ONe s32 (EIsNull (EVar 5)) (EInt 0))) (EInt 1) (EBin ONe s32 (EBin OLt s32 (ELoad 8 (EVar 5)) (EInt 26736)) (EInt 0)))
    (
    SReturn (EInt (-1)))
    SSkip ;;
  SAlloc 6 (EInt 32) ;;
  SCall None f_rand_bytes [(EVar 6); (EInt 32)] ;;
  SCall (Some 8%positive) f_faest_em_256f_sign_with_randomness [(EVar 1); (EVar 2); (EVar 3); (EVar 6); (EInt 32); (EVar 4); (EVar 5)] ;;
  SReturn (EVar 8)).

(** faest_param.c.in:83-92, faest_em_256s_sign.
    Variables: 1 = sk, 2 = message, 3 = message_len, 4 = signature, 5 = signature_len, 6 = rho. *)
Definition c_faest_em_256s_sign : func := Func [1%positive; 2%positive; 3%positive; 4%positive; 5%positive] (
  SIf (ECond (ECond (ECond (EIsNull (EVar 1)) (EInt 1) (EBin ONe s32 (EIsNull (EVar 4)) (EInt 0))) (EInt 1) (EBin ONe s32 (EIsNull (EVar 5)) (EInt 0))) (EInt 1) (EBin ONe s32 (EBin OLt s32 (ELoad 8 (EVar 5)) (EInt 20956)) (EInt 0)))
    (
    SReturn (EInt (-1)))
    SSkip ;;
  SAlloc 6 (EInt 32) ;;
  SCall None f_rand_bytes [(EVar 6); (EInt 32)] ;;
  SCall (Some 8%positive) f_faest_em_256s_sign_with_randomness [(EVar 1); (EVar 2); (EVar 3); (EVar 6); (EInt 32); (EVar 4); (EVar 5)] ;;
  SReturn (EVar 8)).

(** faest_param.c.in:94-101, faest_128f_verify.
    Variables: 1 = pk, 2 = message, 3 = message_len, 4 = signature, 5 = signature_len, 6 = params. *)
Definition c_faest_128f_verify : func := Func [1%positive; 2%positive; 3%positive; 4%positive; 5%positive] (
  SIf (ECond (ECond (EIsNull (EVar 1)) (EInt 1) (EBin ONe s32 (EIsNull (EVar 4)) (EInt 0))) (EInt 1) (EBin ONe s32 (EBin ONe s32 (EVar 5) (EInt 6336)) (EInt 0)))
    (
    SReturn (EInt (-1)))
    SSkip ;;
  SAlloc 6 (EInt 36) ;;
  SCall None f_faest_get_paramset [(EVar 6); (EInt 2)] ;;
  SCall (Some 7%positive) f_faest_verify [(EVar 2); (EVar 3); (EVar 4); (EVar 1); (EAt (EVar 1) 1 (EInt 16)); (EVar 6)] ;;
  SReturn (EVar 7)).

(** faest_param.c.in:94-101, faest_128s_verify.
    Variables: 1 = pk, 2 = message, 3 = message_len, 4 = signature, 5 = signature_len, 6 = params. *)
Definition c_faest_128s_verify : func := Func [1%positive; 2%positive; 3%positive; 4%positive; 5%positive] (
  SIf (ECond (ECond (EIsNull (EVar 1)) (EInt 1) (EBin ONe s32 (EIsNull (EVar 4)) (EInt 0))) (EInt 1) (EBin ONe s32 (EBin ONe s32 (EVar 5) (EInt 5006)) (EInt 0)))
    (
    SReturn (EInt (-1)))
    SSkip ;;
  SAlloc 6 (EInt 36) ;;
  SCall None f_faest_get_paramset [(EVar 6); (EInt 1)] ;;
  SCall (Some 7%positive) f_faest_verify [(EVar 2); (EVar 3); (EVar 4); (EVar 1); (EAt (EVar 1) 1 (EInt 16)); (EVar 6)] ;;
  SReturn (EVar 7)).

(** faest_param.c.in:94-101, faest_192f_verify.
    Variables: 1 = pk, 2 = message, 3 = message_len, 4 = signature, 5 = signature_len, 6 = params. *)
Definition c_faest_192f_verify : func := Func [1%positive; 2%positive; 3%positive; 4%positive; 5%positive] (
  SIf (ECond (ECond (EIsNull (EVar 1)) (EInt 1) (EBin ONe s32 (EIsNull (EVar 4)) (EInt 0))) (EInt 1) (EBin ONe s32 (EBin ONe s32 (EVar 5) (EInt 16792)) (EInt 0)))
    (
    SReturn (EInt (-1)))
    SSkip ;;
  SAlloc 6 (EInt 36) ;;
  SCall None f_faest_get_paramset [(EVar 6); (EInt 4)] ;;
  SCall (Some 7%positive) f_faest_verify [(EVar 2); (EVar 3); (EVar 4); (EVar 1); (EAt (EVar 1) 1 (EInt 32)); (EVar 6)] ;;
  SReturn (EVar 7)).

(** faest_param.c.in:94-101, faest_192s_verify.
    Variables: 1 = pk, 2 = message, 3 = message_len, 4 = signature, 5 = signature_len, 6 = params. *)
Definition c_faest_192s_verify : func := Func [1%positive; 2%positive; 3%positive; 4%positive; 5%positive] (
  SIf (ECond (ECond (EIsNull (EVar 1)) (EInt 1) (EBin ONe s32 (EIsNull (EVar 4)) (EInt 0))) (EInt 1) (EBin ONe s32 (EBin ONe s32 (EVar 5) (EInt 12744)) (EInt 0)))
    (
    SReturn (EInt (-1)))
    SSkip ;;
  SAlloc 6 (EInt 36) ;;
  SCall None f_faest_get_paramset [(EVar 6); (EInt 3)] ;;
  SCall (Some 7%positive) f_faest_verify [(EVar 2); (EVar 3); (EVar 4); (EVar 1); (EAt (EVar 1) 1 (EInt 32)); (EVar 6)] ;;
  SReturn (EVar 7)).

(** faest_param.c.in:94-101, faest_256f_verify.
    Variables: 1 = pk, 2 = message, 3 = message_len, 4 = signature, 5 = signature_len, 6 = params. *)
Definition c_faest_256f_verify : func := Func [1%positive; 2%positive; 3%positive; 4%positive; 5%positive] (
  SIf (ECond (ECond (EIsNull (EVar 1)) (EInt 1) (EBin ONe s32 (EIsNull (EVar 4)) (EInt 0))) (EInt 1) (EBin ONe s32 (EBin ONe s32 (EVar 5) (EInt 28400)) (EInt 0)))
    (
    SReturn (EInt (-1)))
    SSkip ;;
  SAlloc 6 (EInt 36) ;;
  SCall None f_faest_get_paramset [(EVar 6); (EInt 6)] ;;
  SCall (Some 7%positive) f_faest_verify [(EVar 2); (EVar 3); (EVar 4); (EVar 1); (EAt (EVar 1) 1 (EInt 32)); (EVar 6)] ;;
  SReturn (EVar 7)).

(** faest_param.c.in:94-101, faest_256s_verify.
    Variables: 1 = pk, 2 = message, 3 = message_len, 4 = signature, 5 = signature_len, 6 = params. *)
Definition c_faest_256s_verify : func := Func [1%positive; 2%positive; 3%positive; 4%positive; 5%positive] (
  SIf (ECond (ECond (EIsNull (EVar 1)) (EInt 1) (EBin ONe s32 (EIsNull (EVar 4)) (EInt 0))) (EInt 1) (EBin ONe s32 (EBin ONe s32 (EVar 5) (EInt 22100)) (EInt 0)))
    (
    SReturn (EInt (-1)))
    SSkip ;;
  SAlloc 6 (EInt 36) ;;
  SCall None f_faest_get_paramset [(EVar 6); (EInt 5)] ;;
  SCall (Some 7%positive) f_faest_verify [(EVar 2); (EVar 3); (EVar 4); (EVar 1); (EAt (EVar 1) 1 (EInt 32)); (EVar 6)] ;;
  SReturn (EVar 7)).

(** faest_param.c.in:94-101, faest_em_128f_verify.
    Variables: 1 = pk, 2 = message, 3 = message_len, 4 = signature, 5 = signature_len, 6 = params. *)
Definition c_faest_em_128f_verify : func := Func [1%positive; 2%positive; 3%positive; 4%positive; 5%positive] (
  SIf (ECond (ECond (EIsNull (EVar 1)) (EInt 1) (EBin ONe s32 (EIsNull (EVar 4)) (EInt 0))) (EInt 1) (EBin ONe s32 (EBin ONe s32 (EVar 5) (EInt 5696)) (EInt 0)))
    (
    SReturn (EInt (-1)))
    SSkip ;;
  SAlloc 6 (EInt 36) ;;
  SCall None f_faest_get_paramset [(EVar 6); (EInt 8)] ;;
  SCall (Some 7%positive) f_faest_verify [(EVar 2); (EVar 3); (EVar 4); (EVar 1); (EAt (EVar 1) 1 (EInt 16)); (EVar 6)] ;;
  SReturn (EVar 7)).

(** faest_param.c.in:94-101, faest_em_128s_verify.
    Variables: 1 = pk, 2 = message, 3 = message_len, 4 = signature, 5 = signature_len, 6 = params. *)
Definition c_faest_em_128s_verify : func := Func [1%positive; 2%positive; 3%positive; 4%positive; 5%positive] (
  SIf (ECond (ECond (EIsNull (EVar 1)) (EInt 1) (EBin ONe s32 (EIsNull (EVar 4)) (EInt 0))) (EInt 1) (EBin ONe s32 (EBin ONe s32 (EVar 5) (EInt 4566)) (EInt 0)))
    (
    SReturn (EInt (-1)))
    SSkip ;;
  SAlloc 6 (EInt 36) ;;
  SCall None f_faest_get_paramset [(EVar 6); (EInt 7)] ;;
  SCall (Some 7%positive) f_faest_verify [(EVar 2); (EVar 3); (EVar 4); (EVar 1); (EAt (EVar 1) 1 (EInt 16)); (EVar 6)] ;;
  SReturn (EVar 7)).

(** faest_param.c.in:94-101, faest_em_192f_verify.
    Variables: 1 = pk, 2 = message, 3 = message_len, 4 = signature, 5 = signature_len, 6 = params. *)
Definition c_faest_em_192f_verify : func := Func [1%positive; 2%positive; 3%positive; 4%positive; 5%positive] (
  SIf (ECond (ECond (EIsNull (EVar 1)) (EInt 1) (EBin ONe s32 (EIsNull (EVar 4)) (EInt 0))) (EInt 1) (EBin ONe s32 (EBin ONe s32 (EVar 5) (EInt 13912)) (EInt 0)))
    (
    SReturn (EInt (-1)))
    SSkip ;;
  SAlloc 6 (EInt 36) ;;
  SCall None f_faest_get_paramset [(EVar 6); (EInt 10)] ;;
  SCall (Some 7%positive) f_faest_verify [(EVar 2); (EVar 3); (EVar 4); (EVar 1); (EAt (EVar 1) 1 (EInt 24)); (EVar 6)] ;;
  SReturn (EVar 7)).

(** faest_param.c.in:94-101, faest_em_192s_verify.
    Variables: 1 = pk, 2 = message, 3 = message_len, 4 = signature, 5 = signature_len, 6 = params. *)
Definition c_faest_em_192s_verify : func := Func [1%positive; 2%positive; 3%positive; 4%positive; 5%positive] (
  SIf (ECond (ECond (EIsNull (EVar 1)) (EInt 1) (EBin ONe s32 (EIsNull (EVar 4)) (EInt 0))) (EInt 1) (EBin ONe s32 (EBin ONe s32 (EVar 5) (EInt 10824)) (EInt 0)))
    (
    SReturn (EInt (-1)))
    SSkip ;;
  SAlloc 6 (EInt 36) ;;
  SCall None f_faest_get_paramset [(EVar 6); (EInt 9)] ;;
  SCall (Some 7%positive) f_faest_verify [(EVar 2); (EVar 3); (EVar 4); (EVar 1); (EAt (EVar 1) 1 (EInt 24)); (EVar 6)] ;;
  SReturn (EVar 7)).

(** faest_param.c.in:94-101, faest_em_256f_verify.
    Variables: 1 = pk, 2 = message, 3 = message_len, 4 = signature, 5 = signature_len, 6 = params. *)
Definition c_faest_em_256f_verify : func := Func [1%positive; 2%positive; 3%positive; 4%positive; 5%positive] (
  SIf (ECond (ECond (EIsNull (EVar 1)) (EInt 1) (EBin ONe s32 (EIsNull (EVar 4)) (EInt 0))) (EInt 1) (EBin ONe s32 (EBin ONe s32 (EVar 5) (EInt 26736)) (EInt 0)))
    (
    SReturn (EInt (-1)))
    SSkip ;;
  SAlloc 6 (EInt 36) ;;
  SCall None f_faest_get_paramset [(EVar 6); (EInt 12)] ;;
  SCall (Some 7%positive) f_faest_verify [(EVar 2); (EVar 3); (EVar 4); (EVar 1); (EAt (EVar 1) 1 (EInt 32)); (EVar 6)] ;;
  SReturn (EVar 7)).

(** faest_param.c.in:94-101, faest_em_256s_verify.
    Variables: 1 = pk, 2 = message, 3 = message_len, 4 = signature, 5 = signature_len, 6 = params. *)
Definition c_faest_em_256s_verify : func := Func [1%positive; 2%positive; 3%positive; 4%positive; 5%positive] (
  SIf (ECond (ECond (EIsNull (EVar 1)) (EInt 1) (EBin ONe s32 (EIsNull (EVar 4)) (EInt 0))) (EInt 1) (EBin ONe s32 (EBin ONe s32 (EVar 5) (EInt 20956)) (EInt 0)))
    (
    SReturn (EInt (-1)))
    SSkip ;;
  SAlloc 6 (EInt 36) ;;
  SCall None f_faest_get_paramset [(EVar 6); (EInt 11)] ;;
  SCall (Some 7%positive) f_faest_verify [(EVar 2); (EVar 3); (EVar 4); (EVar 1); (EAt (EVar 1) 1 (EInt 32)); (EVar 6)] ;;
  SReturn (EVar 7)).

(** faest_param.c.in:103-105, faest_128f_clear_private_key.
    Variables: 1 = key. *)
Definition c_faest_128f_clear_private_key : func := Func [1%positive] (
  SCall None f_faest_explicit_bzero [(EVar 1); (EInt 32)]).

(** faest_param.c.in:103-105, faest_128s_clear_private_key.
    Variables: 1 = key. *)
Definition c_faest_128s_clear_private_key : func := Func [1%positive] (
  SCall None f_faest_explicit_bzero [(EVar 1); (EInt 32)]).

(** faest_param.c.in:103-105, faest_192f_clear_private_key.
    Variables: 1 = key. *)
Definition c_faest_192f_clear_private_key : func := Func [1%positive] (
  SCall None f_faest_explicit_bzero [(EVar 1); (EInt 56)]).

(** faest_param.c.in:103-105, faest_192s_clear_private_key.
    Variables: 1 = key. *)
Definition c_faest_192s_clear_private_key : func := Func [1%positive] (
  SCall None f_faest_explicit_bzero [(EVar 1); (EInt 56)]).

(** faest_param.c.in:103-105, faest_256f_clear_private_key.
    Variables: 1 = key. *)
Definition c_faest_256f_clear_private_key : func := Func [1%positive] (
  SCall None f_faest_explicit_bzero [(EVar 1); (EInt 64)]).

(** faest_param.c.in:103-105, faest_256s_clear_private_key.
    Variables: 1 = key. *)
Definition c_faest_256s_clear_private_key : func := Func [1%positive] (
  SCall None f_faest_explicit_bzero [(EVar 1); (EInt 64)]).

(** faest_param.c.in:103-105, faest_em_128f_clear_private_key.
    Variables: 1 = key. *)
Definition c_faest_em_128f_clear_private_key : func := Func [1%positive] (
  SCall None f_faest_explicit_bzero [(EVar 1); (EInt 32)]).

(** faest_param.c.in:103-105, faest_em_128s_clear_private_key.
    Variables: 1 = key. *)
Definition c_faest_em_128s_clear_private_key : func := Func [1%positive] (
  SCall None f_faest_explicit_bzero [(EVar 1); (EInt 32)]).

(** faest_param.c.in:103-105, faest_em_192f_clear_private_key.
    Variables: 1 = key. *)
Definition c_faest_em_192f_clear_private_key : func := Func [1%positive] (
  SCall None f_faest_explicit_bzero [(EVar 1); (EInt 48)]).

(** faest_param.c.in:103-105, faest_em_192s_clear_private_key.
    Variables: 1 = key. *)
Definition c_faest_em_192s_clear_private_key : func := Func [1%positive] (
  SCall None f_faest_explicit_bzero [(EVar 1); (EInt 48)]).

(** faest_param.c.in:103-105, faest_em_256f_clear_private_key.
    Variables: 1 = key. *)
Definition c_faest_em_256f_clear_private_key : func := Func [1%positive] (
  SCall None f_faest_explicit_bzero [(EVar 1); (EInt 64)]).

(** faest_param.c.in:103-105, faest_em_256s_clear_private_key.
    Variables: 1 = key. *)
Definition c_faest_em_256s_clear_private_key : func := Func [1%positive] (
  SCall None f_faest_explicit_bzero [(EVar 1); (EInt 64)]).

