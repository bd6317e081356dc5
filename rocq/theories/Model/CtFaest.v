(** Generated by tools/ctc/c2v.py from the sources in /repo; see DESIGN.md. *)
From Coq Require Import ZArith List.
From Verif Require Import Model.CtLang Model.CtNames.
Import ListNotations.
Local Open Scope Z_scope.

(** faest.c:22-29, signature_c.
    Variables: 1 = base_ptr, 2 = index, 3 = params, 4 = lambda_bytes, 5 = ell_bytes, 6 = ell_hat_bytes. *)
Definition c_signature_c : func := Func [1%positive; 2%positive; 3%positive] (
  SSet 4 (EUn OCast u64 (EDiv ODiv s32 (ELoad 2 (EVar 3)) (EInt 8))) ;;
  SSet 5 (EUn OCast u64 (EDiv ODiv s32 (ELoad 2 (EAt (EVar 3) 1 (EInt 10))) (EInt 8))) ;;
  SSet 6 (EBin OAdd u64 (EBin OAdd u64 (EVar 5) (EBin OMul u64 (EInt 2) (EVar 4))) (EInt 2)) ;;
  SReturn (EAt (EVar 1) 1 (EBin OMul u64 (EVar 2) (EVar 6)))).

(** faest.c:31-38, signature_u_tilde.
    Variables: 1 = base_ptr, 2 = params, 3 = lambda_bytes, 4 = ell_bytes, 5 = ell_hat_bytes. *)
Definition c_signature_u_tilde : func := Func [1%positive; 2%positive] (
  SSet 3 (EUn OCast u64 (EDiv ODiv s32 (ELoad 2 (EVar 2)) (EInt 8))) ;;
  SSet 4 (EUn OCast u64 (EDiv ODiv s32 (ELoad 2 (EAt (EVar 2) 1 (EInt 10))) (EInt 8))) ;;
  SSet 5 (EBin OAdd u64 (EBin OAdd u64 (EVar 4) (EBin OMul u64 (EInt 2) (EVar 3))) (EInt 2)) ;;
  SReturn (EAt (EVar 1) 1 (EBin OMul u64 (EUn OCast u64 (EBin OSub s32 (ELoad 2 (EAt (EVar 2) 1 (EInt 16))) (EInt 1))) (EVar 5)))).

(** faest.c:40-47, signature_d.
    Variables: 1 = base_ptr, 2 = params, 3 = lambda_bytes, 4 = ell_bytes, 5 = ell_hat_bytes, 6 = utilde_bytes. *)
Definition c_signature_d : func := Func [1%positive; 2%positive] (
  SSet 3 (EUn OCast u64 (EDiv ODiv s32 (ELoad 2 (EVar 2)) (EInt 8))) ;;
  SSet 4 (EUn OCast u64 (EDiv ODiv s32 (ELoad 2 (EAt (EVar 2) 1 (EInt 10))) (EInt 8))) ;;
  SSet 5 (EBin OAdd u64 (EBin OAdd u64 (EVar 4) (EBin OMul u64 (EInt 2) (EVar 3))) (EInt 2)) ;;
  SSet 6 (EBin OAdd u64 (EVar 3) (EInt 2)) ;;
  SReturn (EAt (EAt (EVar 1) 1 (EBin OMul u64 (EUn OCast u64 (EBin OSub s32 (ELoad 2 (EAt (EVar 2) 1 (EInt 16))) (EInt 1))) (EVar 5))) 1 (EVar 6))).

(** faest.c:49-57, signature_a_tilde.
    Variables: 1 = base_ptr, 2 = params, 3 = lambda_bytes, 4 = ell_bytes, 5 = ell_hat_bytes, 6 = utilde_bytes. *)
Definition c_signature_a_tilde : func := Func [1%positive; 2%positive] (
  SSet 3 (EUn OCast u64 (EDiv ODiv s32 (ELoad 2 (EVar 2)) (EInt 8))) ;;
  SSet 4 (EUn OCast u64 (EDiv ODiv s32 (ELoad 2 (EAt (EVar 2) 1 (EInt 10))) (EInt 8))) ;;
  SSet 5 (EBin OAdd u64 (EBin OAdd u64 (EVar 4) (EBin OMul u64 (EInt 2) (EVar 3))) (EInt 2)) ;;
  SSet 6 (EBin OAdd u64 (EVar 3) (EInt 2)) ;;
  SReturn (EAt (EAt (EAt (EVar 1) 1 (EBin OMul u64 (EUn OCast u64 (EBin OSub s32 (ELoad 2 (EAt (EVar 2) 1 (EInt 16))) (EInt 1))) (EVar 5))) 1 (EVar 6)) 1 (EVar 4))).

(** faest.c:59-76, signature_pdec.
    Variables: 1 = base_ptr, 2 = index, 3 = params, 4 = tau0, 5 = lambda_bytes, 6 = ell_bytes, 7 = ell_hat_bytes, 8 = utilde_bytes. *)
Definition c_signature_pdec : func := Func [1%positive; 2%positive; 3%positive] (
  SSet 4 (ELoad 2 (EAt (EVar 3) 1 (EInt 22))) ;;
  SSet 5 (EUn OCast u64 (EDiv ODiv s32 (ELoad 2 (EVar 3)) (EInt 8))) ;;
  SSet 6 (EUn OCast u64 (EDiv ODiv s32 (ELoad 2 (EAt (EVar 3) 1 (EInt 10))) (EInt 8))) ;;
  SSet 7 (EBin OAdd u64 (EBin OAdd u64 (EVar 6) (EBin OMul u64 (EInt 2) (EVar 5))) (EInt 2)) ;;
  SSet 8 (EBin OAdd u64 (EVar 5) (EInt 2)) ;;
  SSet 1 (EAt (EVar 1) 1 (EBin OAdd u64 (EBin OAdd u64 (EBin OAdd u64 (EBin OMul u64 (EUn OCast u64 (EBin OSub s32 (ELoad 2 (EAt (EVar 3) 1 (EInt 16))) (EInt 1))) (EVar 7)) (EVar 8)) (EVar 6)) (EVar 5))) ;;
  SIf (EBin OLt s32 (EVar 2) (EVar 4))
    (
    SReturn (EAt (EVar 1) 1 (EBin OMul u64 (EBin OMul u32 (EVar 2) (EUn OCast u32 (EBin OAdd s32 (ELoad 2 (EAt (EVar 3) 1 (EInt 18))) (EInt 2)))) (EVar 5))))
    (
    SReturn (EAt (EVar 1) 1 (EBin OMul u64 (EBin OAdd u32 (EBin OMul u32 (EBin OSub u32 (EVar 2) (EVar 4)) (EUn OCast u32 (EBin OAdd s32 (ELoad 2 (EAt (EVar 3) 1 (EInt 20))) (EInt 2)))) (EBin OMul u32 (EVar 4) (EUn OCast u32 (EBin OAdd s32 (ELoad 2 (EAt (EVar 3) 1 (EInt 18))) (EInt 2))))) (EVar 5))))).

(** faest.c:78-96, signature_com.
    Variables: 1 = base_ptr, 2 = index, 3 = params, 4 = tau0, 5 = lambda_bytes, 6 = ell_bytes, 7 = ell_hat_bytes, 8 = utilde_bytes. *)
Definition c_signature_com : func := Func [1%positive; 2%positive; 3%positive] (
  SSet 4 (ELoad 2 (EAt (EVar 3) 1 (EInt 22))) ;;
  SSet 5 (EUn OCast u64 (EDiv ODiv s32 (ELoad 2 (EVar 3)) (EInt 8))) ;;
  SSet 6 (EUn OCast u64 (EDiv ODiv s32 (ELoad 2 (EAt (EVar 3) 1 (EInt 10))) (EInt 8))) ;;
  SSet 7 (EBin OAdd u64 (EBin OAdd u64 (EVar 6) (EBin OMul u64 (EInt 2) (EVar 5))) (EInt 2)) ;;
  SSet 8 (EBin OAdd u64 (EVar 5) (EInt 2)) ;;
  SSet 1 (EAt (EVar 1) 1 (EBin OAdd u64 (EBin OAdd u64 (EBin OAdd u64 (EBin OMul u64 (EUn OCast u64 (EBin OSub s32 (ELoad 2 (EAt (EVar 3) 1 (EInt 16))) (EInt 1))) (EVar 7)) (EVar 8)) (EVar 6)) (EVar 5))) ;;
  SIf (EBin OLt s32 (EVar 2) (EVar 4))
    (
    SReturn (EAt (EVar 1) 1 (EBin OMul u64 (EBin OAdd u32 (EBin OMul u32 (EVar 2) (EUn OCast u32 (EBin OAdd s32 (ELoad 2 (EAt (EVar 3) 1 (EInt 18))) (EInt 2)))) (ELoad 2 (EAt (EVar 3) 1 (EInt 18)))) (EVar 5))))
    (
    SReturn (EAt (EVar 1) 1 (EBin OMul u64 (EBin OAdd u32 (EBin OAdd u32 (EBin OMul u32 (EBin OSub u32 (EVar 2) (EVar 4)) (EUn OCast u32 (EBin OAdd s32 (ELoad 2 (EAt (EVar 3) 1 (EInt 20))) (EInt 2)))) (ELoad 2 (EAt (EVar 3) 1 (EInt 20)))) (EBin OMul u32 (EVar 4) (EUn OCast u32 (EBin OAdd s32 (ELoad 2 (EAt (EVar 3) 1 (EInt 18))) (EInt 2))))) (EVar 5))))).

(** faest.c:98-102, signature_chall_3.
    Variables: 1 = base_ptr, 2 = params, 3 = lambda_bytes. *)
Definition c_signature_chall_3 : func := Func [1%positive; 2%positive] (
  SSet 3 (EUn OCast u64 (EDiv ODiv s32 (ELoad 2 (EVar 2)) (EInt 8))) ;;
  SReturn (EAt (EAt (EAt (EVar 1) 1 (ELoad 2 (EAt (EVar 2) 1 (EInt 26)))) (-1) (EInt 16)) (-1) (EVar 3))).

(** faest.c:104-106, signature_iv.
    Variables: 1 = base_ptr, 2 = params. *)
Definition c_signature_iv : func := Func [1%positive; 2%positive] (
  SReturn (EAt (EAt (EVar 1) 1 (ELoad 2 (EAt (EVar 2) 1 (EInt 26)))) (-1) (EInt 16))).

(** faest.c:110-117, dsignature_c.
    Variables: 1 = base_ptr, 2 = index, 3 = params, 4 = lambda_bytes, 5 = ell_bytes, 6 = ell_hat_bytes. *)
Definition c_dsignature_c : func := Func [1%positive; 2%positive; 3%positive] (
  SSet 4 (EUn OCast u64 (EDiv ODiv s32 (ELoad 2 (EVar 3)) (EInt 8))) ;;
  SSet 5 (EUn OCast u64 (EDiv ODiv s32 (ELoad 2 (EAt (EVar 3) 1 (EInt 10))) (EInt 8))) ;;
  SSet 6 (EBin OAdd u64 (EBin OAdd u64 (EVar 5) (EBin OMul u64 (EInt 2) (EVar 4))) (EInt 2)) ;;
  SReturn (EAt (EVar 1) 1 (EBin OMul u64 (EVar 2) (EVar 6)))).

(** faest.c:119-126, dsignature_u_tilde.
    Variables: 1 = base_ptr, 2 = params, 3 = lambda_bytes, 4 = ell_bytes, 5 = ell_hat_bytes. *)
Definition c_dsignature_u_tilde : func := Func [1%positive; 2%positive] (
  SSet 3 (EUn OCast u64 (EDiv ODiv s32 (ELoad 2 (EVar 2)) (EInt 8))) ;;
  SSet 4 (EUn OCast u64 (EDiv ODiv s32 (ELoad 2 (EAt (EVar 2) 1 (EInt 10))) (EInt 8))) ;;
  SSet 5 (EBin OAdd u64 (EBin OAdd u64 (EVar 4) (EBin OMul u64 (EInt 2) (EVar 3))) (EInt 2)) ;;
  SReturn (EAt (EVar 1) 1 (EBin OMul u64 (EUn OCast u64 (EBin OSub s32 (ELoad 2 (EAt (EVar 2) 1 (EInt 16))) (EInt 1))) (EVar 5)))).

(** faest.c:128-136, dsignature_d.
    Variables: 1 = base_ptr, 2 = params, 3 = lambda_bytes, 4 = ell_bytes, 5 = ell_hat_bytes, 6 = utilde_bytes. *)
Definition c_dsignature_d : func := Func [1%positive; 2%positive] (
  SSet 3 (EUn OCast u64 (EDiv ODiv s32 (ELoad 2 (EVar 2)) (EInt 8))) ;;
  SSet 4 (EUn OCast u64 (EDiv ODiv s32 (ELoad 2 (EAt (EVar 2) 1 (EInt 10))) (EInt 8))) ;;
  SSet 5 (EBin OAdd u64 (EBin OAdd u64 (EVar 4) (EBin OMul u64 (EInt 2) (EVar 3))) (EInt 2)) ;;
  SSet 6 (EBin OAdd u64 (EVar 3) (EInt 2)) ;;
  SReturn (EAt (EAt (EVar 1) 1 (EBin OMul u64 (EUn OCast u64 (EBin OSub s32 (ELoad 2 (EAt (EVar 2) 1 (EInt 16))) (EInt 1))) (EVar 5))) 1 (EVar 6))).

(** faest.c:138-146, dsignature_a_tilde.
    Variables: 1 = base_ptr, 2 = params, 3 = lambda_bytes, 4 = ell_bytes, 5 = ell_hat_bytes, 6 = utilde_bytes. *)
Definition c_dsignature_a_tilde : func := Func [1%positive; 2%positive] (
  SSet 3 (EUn OCast u64 (EDiv ODiv s32 (ELoad 2 (EVar 2)) (EInt 8))) ;;
  SSet 4 (EUn OCast u64 (EDiv ODiv s32 (ELoad 2 (EAt (EVar 2) 1 (EInt 10))) (EInt 8))) ;;
  SSet 5 (EBin OAdd u64 (EBin OAdd u64 (EVar 4) (EBin OMul u64 (EInt 2) (EVar 3))) (EInt 2)) ;;
  SSet 6 (EBin OAdd u64 (EVar 3) (EInt 2)) ;;
  SReturn (EAt (EAt (EAt (EVar 1) 1 (EBin OMul u64 (EUn OCast u64 (EBin OSub s32 (ELoad 2 (EAt (EVar 2) 1 (EInt 16))) (EInt 1))) (EVar 5))) 1 (EVar 6)) 1 (EVar 4))).

(** faest.c:148-165, dsignature_pdec.
    Variables: 1 = base_ptr, 2 = index, 3 = params, 4 = tau0, 5 = lambda_bytes, 6 = ell_bytes, 7 = ell_hat_bytes, 8 = utilde_bytes. *)
Definition c_dsignature_pdec : func := Func [1%positive; 2%positive; 3%positive] (
  SSet 4 (ELoad 2 (EAt (EVar 3) 1 (EInt 22))) ;;
  SSet 5 (EUn OCast u64 (EDiv ODiv s32 (ELoad 2 (EVar 3)) (EInt 8))) ;;
  SSet 6 (EUn OCast u64 (EDiv ODiv s32 (ELoad 2 (EAt (EVar 3) 1 (EInt 10))) (EInt 8))) ;;
  SSet 7 (EBin OAdd u64 (EBin OAdd u64 (EVar 6) (EBin OMul u64 (EInt 2) (EVar 5))) (EInt 2)) ;;
  SSet 8 (EBin OAdd u64 (EVar 5) (EInt 2)) ;;
  SSet 1 (EAt (EVar 1) 1 (EBin OAdd u64 (EBin OAdd u64 (EBin OAdd u64 (EBin OMul u64 (EUn OCast u64 (EBin OSub s32 (ELoad 2 (EAt (EVar 3) 1 (EInt 16))) (EInt 1))) (EVar 7)) (EVar 8)) (EVar 6)) (EVar 5))) ;;
  SIf (EBin OLt s32 (EVar 2) (EVar 4))
    (
    SReturn (EAt (EVar 1) 1 (EBin OMul u64 (EBin OMul u32 (EVar 2) (EUn OCast u32 (EBin OAdd s32 (ELoad 2 (EAt (EVar 3) 1 (EInt 18))) (EInt 2)))) (EVar 5))))
    (
    SReturn (EAt (EVar 1) 1 (EBin OMul u64 (EBin OAdd u32 (EBin OMul u32 (EBin OSub u32 (EVar 2) (EVar 4)) (EUn OCast u32 (EBin OAdd s32 (ELoad 2 (EAt (EVar 3) 1 (EInt 20))) (EInt 2)))) (EBin OMul u32 (EVar 4) (EUn OCast u32 (EBin OAdd s32 (ELoad 2 (EAt (EVar 3) 1 (EInt 18))) (EInt 2))))) (EVar 5))))).

(** faest.c:167-185, dsignature_com.
    Variables: 1 = base_ptr, 2 = index, 3 = params, 4 = tau0, 5 = lambda_bytes, 6 = ell_bytes, 7 = ell_hat_bytes, 8 = utilde_bytes. *)
Definition c_dsignature_com : func := Func [1%positive; 2%positive; 3%positive] (
  SSet 4 (ELoad 2 (EAt (EVar 3) 1 (EInt 22))) ;;
  SSet 5 (EUn OCast u64 (EDiv ODiv s32 (ELoad 2 (EVar 3)) (EInt 8))) ;;
  SSet 6 (EUn OCast u64 (EDiv ODiv s32 (ELoad 2 (EAt (EVar 3) 1 (EInt 10))) (EInt 8))) ;;
  SSet 7 (EBin OAdd u64 (EBin OAdd u64 (EVar 6) (EBin OMul u64 (EInt 2) (EVar 5))) (EInt 2)) ;;
  SSet 8 (EBin OAdd u64 (EVar 5) (EInt 2)) ;;
  SSet 1 (EAt (EVar 1) 1 (EBin OAdd u64 (EBin OAdd u64 (EBin OAdd u64 (EBin OMul u64 (EUn OCast u64 (EBin OSub s32 (ELoad 2 (EAt (EVar 3) 1 (EInt 16))) (EInt 1))) (EVar 7)) (EVar 8)) (EVar 6)) (EVar 5))) ;;
  SIf (EBin OLt s32 (EVar 2) (EVar 4))
    (
    SReturn (EAt (EVar 1) 1 (EBin OMul u64 (EBin OAdd u32 (EBin OMul u32 (EVar 2) (EUn OCast u32 (EBin OAdd s32 (ELoad 2 (EAt (EVar 3) 1 (EInt 18))) (EInt 2)))) (ELoad 2 (EAt (EVar 3) 1 (EInt 18)))) (EVar 5))))
    (
    SReturn (EAt (EVar 1) 1 (EBin OMul u64 (EBin OAdd u32 (EBin OAdd u32 (EBin OMul u32 (EBin OSub u32 (EVar 2) (EVar 4)) (EUn OCast u32 (EBin OAdd s32 (ELoad 2 (EAt (EVar 3) 1 (EInt 20))) (EInt 2)))) (ELoad 2 (EAt (EVar 3) 1 (EInt 20)))) (EBin OMul u32 (EVar 4) (EUn OCast u32 (EBin OAdd s32 (ELoad 2 (EAt (EVar 3) 1 (EInt 18))) (EInt 2))))) (EVar 5))))).

(** faest.c:187-191, dsignature_chall_3.
    Variables: 1 = base_ptr, 2 = params, 3 = lambda_bytes. *)
Definition c_dsignature_chall_3 : func := Func [1%positive; 2%positive] (
  SSet 3 (EUn OCast u64 (EDiv ODiv s32 (ELoad 2 (EVar 2)) (EInt 8))) ;;
  SReturn (EAt (EAt (EAt (EVar 1) 1 (ELoad 2 (EAt (EVar 2) 1 (EInt 26)))) (-1) (EInt 16)) (-1) (EVar 3))).

(** faest.c:193-196, dsignature_iv.
    Variables: 1 = base_ptr, 2 = params. *)
Definition c_dsignature_iv : func := Func [1%positive; 2%positive] (
  SReturn (EAt (EAt (EVar 1) 1 (ELoad 2 (EAt (EVar 2) 1 (EInt 26)))) (-1) (EInt 16))).

(** faest.c:198-206, hash_mu.
    Variables: 1 = mu, 2 = owf_input, 3 = owf_output, 4 = owf_size, 5 = msg, 6 = msglen, 7 = lambda, 8 = h1_ctx, 9 = sponge, 10 = state, 11 = rate, 12 = byteIOIndex, 13 = squeezing, 14 = fixedOutputLength, 15 = delimitedSuffix. *)
Definition c_hash_mu : func := Func [1%positive; 2%positive; 3%positive; 4%positive; 5%positive; 6%positive; 7%positive] (
  SAlloc 8 (EInt 3) ;;
  SAlloc 9 (EInt 4) ;;
  SAlloc 10 (EInt 200) ;;
  SStoreF (EVar 9) 4 0 (EVar 10) ;;
  SAlloc 11 (EInt 4) ;;
  SStoreF (EVar 9) 4 1 (EVar 11) ;;
  SAlloc 12 (EInt 4) ;;
  SStoreF (EVar 9) 4 2 (EVar 12) ;;
  SAlloc 13 (EInt 4) ;;
  SStoreF (EVar 9) 4 3 (EVar 13) ;;
  SStoreF (EVar 8) 3 0 (EVar 9) ;;
  SAlloc 14 (EInt 4) ;;
  SStoreF (EVar 8) 3 1 (EVar 14) ;;
  SAlloc 15 (EInt 1) ;;
  SStoreF (EVar 8) 3 2 (EVar 15) ;;
  SCall None f_H1_init [(EVar 8); (EVar 7)] ;;
  SCall None f_H1_update [(EVar 8); (EVar 2); (EVar 4)] ;;
  SCall None f_H1_update [(EVar 8); (EVar 3); (EVar 4)] ;;
  SCall None f_H1_update [(EVar 8); (EVar 5); (EVar 6)] ;;
  SCall None f_H1_final [(EVar 8); (EVar 1); (EDiv ODiv u32 (EBin OMul u32 (EInt 2) (EVar 7)) (EInt 8))]).

(** faest.c:208-221, hash_challenge_1.
    Variables: 1 = chall_1, 2 = mu, 3 = hcom, 4 = c, 5 = iv, 6 = lambda, 7 = ell, 8 = tau, 9 = lambda_bytes, 10 = ell_hat_bytes, 11 = h2_ctx, 12 = sponge, 13 = state, 14 = rate, 15 = byteIOIndex, 16 = squeezing, 17 = fixedOutputLength, 18 = delimitedSuffix. *)
Definition c_hash_challenge_1 : func := Func [1%positive; 2%positive; 3%positive; 4%positive; 5%positive; 6%positive; 7%positive; 8%positive] (
  SSet 9 (EDiv ODiv u32 (EVar 6) (EInt 8)) ;;
  SSet 10 (EBin OAdd u32 (EBin OAdd u32 (EDiv ODiv u32 (EVar 7) (EInt 8)) (EBin OMul u32 (EVar 9) (EInt 2))) (EInt 2)) ;;
  SAlloc 11 (EInt 3) ;;
  SAlloc 12 (EInt 4) ;;
  SAlloc 13 (EInt 200) ;;
  SStoreF (EVar 12) 4 0 (EVar 13) ;;
  SAlloc 14 (EInt 4) ;;
  SStoreF (EVar 12) 4 1 (EVar 14) ;;
  SAlloc 15 (EInt 4) ;;
  SStoreF (EVar 12) 4 2 (EVar 15) ;;
  SAlloc 16 (EInt 4) ;;
  SStoreF (EVar 12) 4 3 (EVar 16) ;;
  SStoreF (EVar 11) 3 0 (EVar 12) ;;
  SAlloc 17 (EInt 4) ;;
  SStoreF (EVar 11) 3 1 (EVar 17) ;;
  SAlloc 18 (EInt 1) ;;
  SStoreF (EVar 11) 3 2 (EVar 18) ;;
  SCall None f_H2_init [(EVar 11); (EVar 6)] ;;
  SCall None f_H2_update [(EVar 11); (EVar 2); (EBin OMul u32 (EVar 9) (EInt 2))] ;;
  SCall None f_H2_update [(EVar 11); (EVar 3); (EBin OMul u32 (EVar 9) (EInt 2))] ;;
  SCall None f_H2_update [(EVar 11); (EVar 4); (EBin OMul u32 (EVar 10) (EBin OSub u32 (EVar 8) (EInt 1)))] ;;
  SCall None f_H2_update [(EVar 11); (EVar 5); (EInt 16)] ;;
  SCall None f_H2_final [(EVar 11); (EVar 1); (EBin OAdd u32 (EBin OMul u32 (EInt 5) (EVar 9)) (EInt 8))]).

(** faest.c:223-237, hash_challenge_2.
    Variables: 1 = chall_2, 2 = chall_1, 3 = u_tilde, 4 = h_v, 5 = d, 6 = lambda, 7 = ell, 8 = lambda_bytes, 9 = ell_bytes, 10 = u_tilde_bytes, 11 = h2_ctx_1, 12 = sponge, 13 = state, 14 = rate, 15 = byteIOIndex, 16 = squeezing, 17 = fixedOutputLength, 18 = delimitedSuffix. *)
Definition c_hash_challenge_2 : func := Func [1%positive; 2%positive; 3%positive; 4%positive; 5%positive; 6%positive; 7%positive] (
  SSet 8 (EDiv ODiv u32 (EVar 6) (EInt 8)) ;;
  SSet 9 (EDiv ODiv u32 (EVar 7) (EInt 8)) ;;
  SSet 10 (EBin OAdd u32 (EVar 8) (EInt 2)) ;;
  SAlloc 11 (EInt 3) ;;
  SAlloc 12 (EInt 4) ;;
  SAlloc 13 (EInt 200) ;;
  SStoreF (EVar 12) 4 0 (EVar 13) ;;
  SAlloc 14 (EInt 4) ;;
  SStoreF (EVar 12) 4 1 (EVar 14) ;;
  SAlloc 15 (EInt 4) ;;
  SStoreF (EVar 12) 4 2 (EVar 15) ;;
  SAlloc 16 (EInt 4) ;;
  SStoreF (EVar 12) 4 3 (EVar 16) ;;
  SStoreF (EVar 11) 3 0 (EVar 12) ;;
  SAlloc 17 (EInt 4) ;;
  SStoreF (EVar 11) 3 1 (EVar 17) ;;
  SAlloc 18 (EInt 1) ;;
  SStoreF (EVar 11) 3 2 (EVar 18) ;;
  SCall None f_H2_init [(EVar 11); (EVar 6)] ;;
  SCall None f_H2_update [(EVar 11); (EVar 2); (EBin OAdd u32 (EBin OMul u32 (EInt 5) (EVar 8)) (EInt 8))] ;;
  SCall None f_H2_update [(EVar 11); (EVar 3); (EVar 10)] ;;
  SCall None f_H2_update [(EVar 11); (EVar 4); (EBin OMul u32 (EInt 2) (EVar 8))] ;;
  SCall None f_H2_update [(EVar 11); (EVar 5); (EVar 9)] ;;
  SCall None f_H2_final [(EVar 11); (EVar 1); (EBin OAdd u32 (EBin OMul u32 (EInt 3) (EVar 8)) (EInt 8))]).

(** faest.c:239-249, hash_challenge_3.
    Variables: 1 = chall_3, 2 = chall_2, 3 = a_tilde, 4 = b_tilde, 5 = lambda, 6 = lambda_bytes, 7 = h2_ctx_2, 8 = sponge, 9 = state, 10 = rate, 11 = byteIOIndex, 12 = squeezing, 13 = fixedOutputLength, 14 = delimitedSuffix. *)
Definition c_hash_challenge_3 : func := Func [1%positive; 2%positive; 3%positive; 4%positive; 5%positive] (
  SSet 6 (EDiv ODiv u32 (EVar 5) (EInt 8)) ;;
  SAlloc 7 (EInt 3) ;;
  SAlloc 8 (EInt 4) ;;
  SAlloc 9 (EInt 200) ;;
  SStoreF (EVar 8) 4 0 (EVar 9) ;;
  SAlloc 10 (EInt 4) ;;
  SStoreF (EVar 8) 4 1 (EVar 10) ;;
  SAlloc 11 (EInt 4) ;;
  SStoreF (EVar 8) 4 2 (EVar 11) ;;
  SAlloc 12 (EInt 4) ;;
  SStoreF (EVar 8) 4 3 (EVar 12) ;;
  SStoreF (EVar 7) 3 0 (EVar 8) ;;
  SAlloc 13 (EInt 4) ;;
  SStoreF (EVar 7) 3 1 (EVar 13) ;;
  SAlloc 14 (EInt 1) ;;
  SStoreF (EVar 7) 3 2 (EVar 14) ;;
  SCall None f_H2_init [(EVar 7); (EVar 5)] ;;
  SCall None f_H2_update [(EVar 7); (EVar 2); (EBin OAdd u32 (EBin OMul u32 (EInt 3) (EVar 6)) (EInt 8))] ;;
  SCall None f_H2_update [(EVar 7); (EVar 3); (EVar 6)] ;;
  SCall None f_H2_update [(EVar 7); (EVar 4); (EVar 6)] ;;
  SCall None f_H2_final [(EVar 7); (EVar 1); (EVar 6)]).

(** faest.c:251-360, faest_sign.
    Variables: 1 = sig, 2 = msg, 3 = msglen, 4 = owf_key, 5 = owf_input, 6 = owf_output, 7 = rho, 8 = rholen, 9 = params, 10 = l, 11 = ell_bytes, 12 = lambda, 13 = lambdaBytes, 14 = tau, 15 = tau0, 16 = ell_hat, 17 = ell_hat_bytes, 18 = mu, 19 = rootkey, 20 = h3_ctx, 21 = sponge, 22 = state, 23 = rate, 24 = byteIOIndex, 25 = squeezing, 26 = fixedOutputLength, 27 = delimitedSuffix, 29 = hcom, 33 = h, 34 = k, 35 = com, 36 = sd, 37 = vecCom, 39 = u, 41 = V, 43 = i, 45 = public, 47 = chall_1, 51 = h_v, 52 = h1_ctx_1, 53 = sponge, 54 = state, 55 = rate, 56 = byteIOIndex, 57 = squeezing, 58 = fixedOutputLength, 59 = delimitedSuffix, 60 = V_tilde, 61 = i, 63 = w, 65 = chall_2, 68 = b_tilde, 72 = i, 73 = s_, 75 = public, 77 = depth. *)
Definition c_faest_sign : func := Func [1%positive; 2%positive; 3%positive; 4%positive; 5%positive; 6%positive; 7%positive; 8%positive; 9%positive] (
  (
  (
  SSet 10 (ELoad 2 (EAt (EVar 9) 1 (EInt 10))) ;;
  SSet 11 (EDiv ODiv u32 (EVar 10) (EInt 8)) ;;
  SSet 12 (ELoad 2 (EVar 9)) ;;
  SSet 13 (EDiv ODiv u32 (EVar 12) (EInt 8)) ;;
  SSet 14 (ELoad 2 (EAt (EVar 9) 1 (EInt 16))) ;;
  SSet 15 (ELoad 2 (EAt (EVar 9) 1 (EInt 22))) ;;
  SSet 16 (EBin OAdd u32 (EBin OAdd u32 (EVar 10) (EBin OMul u32 (EVar 12) (EInt 2))) (EInt 16)) ;;
  SSet 17 (EDiv ODiv u32 (EVar 16) (EInt 8)) ;;
  SAlloc 18 (EInt 64) ;;
  SCall None f_hash_mu [(EVar 18); (EVar 5); (EVar 6); (EUn OCast u64 (EDiv ODiv s32 (ELoad 2 (EAt (EVar 9) 1 (EInt 28))) (EInt 2))); (EVar 2); (EVar 3); (EVar 12)] ;;
  SAlloc 19 (EInt 32) ;;
  SAlloc 20 (EInt 3) ;;
  SAlloc 21 (EInt 4) ;;
  SAlloc 22 (EInt 200) ;;
  SStoreF (EVar 21) 4 0 (EVar 22) ;;
  SAlloc 23 (EInt 4) ;;
  SStoreF (EVar 21) 4 1 (EVar 23) ;;
  SAlloc 24 (EInt 4) ;;
  SStoreF (EVar 21) 4 2 (EVar 24) ;;
  SAlloc 25 (EInt 4) ;;
  SStoreF (EVar 21) 4 3 (EVar 25) ;;
  SStoreF (EVar 20) 3 0 (EVar 21) ;;
  SAlloc 26 (EInt 4) ;;
  SStoreF (EVar 20) 3 1 (EVar 26) ;;
  SAlloc 27 (EInt 1)) ;;
  (
  SStoreF (EVar 20) 3 2 (EVar 27) ;;
  SCall None f_H3_init [(EVar 20); (EVar 12)] ;;
  SCall None f_H3_update [(EVar 20); (EVar 4); (EVar 13)] ;;
  SCall None f_H3_update [(EVar 20); (EVar 18); (EBin OMul u32 (EVar 13) (EInt 2))] ;;
  SIf (ECond (EBin OEq s32 (EIsNull (EVar 7)) (EInt 0)) (EBin ONe s32 (EVar 8) (EInt 0)) (EInt 0))
    (
    SCall None f_H3_update [(EVar 20); (EVar 7); (EVar 8)])
    SSkip ;;
  SCall (Some 28%positive) f_signature_iv [(EVar 1); (EVar 9)] ;;
  SCall None f_H3_final [(EVar 20); (EVar 19); (EVar 13); (EVar 28)] ;;
  SAlloc 29 (EInt 64) ;;
  SAlloc 30 (EBin OMul u64 (EInt 4) (EVar 14)) ;;
  SSet 31 (EVar 14) ;;
  SSet 32 (EInt 0) ;;
  SLoop (EBin OLt s32 (EVar 32) (EVar 31))
    (
    SSet 32 (EBin OAdd u64 (EVar 32) (EInt 1)))
    (
    SAlloc 33 (EInt 1) ;;
    SStoreF (EAt (EVar 30) 1 (EVar 32)) 4 0 (EVar 33) ;;
    SAlloc 34 (EInt 1) ;;
    SStoreF (EAt (EVar 30) 1 (EVar 32)) 4 1 (EVar 34) ;;
    SAlloc 35 (EInt 1) ;;
    SStoreF (EAt (EVar 30) 1 (EVar 32)) 4 2 (EVar 35) ;;
    SAlloc 36 (EInt 1) ;;
    SStoreF (EAt (EVar 30) 1 (EVar 32)) 4 3 (EVar 36)) ;;
  SSet 37 (EVar 30) ;;
  SAlloc 38 (EVar 17) ;;
  SSet 39 (EVar 38) ;;
  SAlloc 40 (EDiv ODiv u64 (EBin OMul u64 (EVar 12) (EInt 8)) (EInt 8)) ;;
  SSet 41 (EVar 40) ;;
  SAlloc 42 (EBin OMul u64 (EVar 12) (EVar 17)) ;;
  SStoreP (EVar 41) (EVar 42) ;;
  SSet 43 (EInt 1) ;;
  SLoop (EBin OLt s32 (EVar 43) (EVar 12))
    (
    SSet 43 (EBin OAdd u32 (EVar 43) (EInt 1)))
    (
    SStoreP (EAt (EVar 41) 1 (EVar 43)) (EAt (ELoadP (EVar 41)) 1 (EBin OMul u32 (EVar 43) (EVar 17)))) ;;
  SCall (Some 44%positive) f_signature_iv [(EVar 1); (EVar 9)] ;;
  SPublic 45 (EVar 44) (EInt 16) ;;
  SCall (Some 46%positive) f_signature_c [(EVar 1); (EInt 0); (EVar 9)] ;;
  SCall None f_vole_commit [(EVar 19); (EVar 45); (EVar 16); (EVar 9); (EVar 29); (EVar 37); (EVar 46); (EVar 39); (EVar 41)] ;;
  SAlloc 47 (EInt 168))) ;;
  (
  (
  SCall (Some 48%positive) f_signature_c [(EVar 1); (EInt 0); (EVar 9)] ;;
  SCall (Some 49%positive) f_signature_iv [(EVar 1); (EVar 9)] ;;
  SCall None f_hash_challenge_1 [(EVar 47); (EVar 18); (EVar 29); (EVar 48); (EVar 49); (EVar 12); (EVar 10); (EVar 14)] ;;
  SCall (Some 50%positive) f_signature_u_tilde [(EVar 1); (EVar 9)] ;;
  SCall None f_vole_hash [(EVar 50); (EVar 47); (EVar 39); (EVar 10); (EVar 12)] ;;
  SAlloc 51 (EInt 64) ;;
  SAlloc 52 (EInt 3) ;;
  SAlloc 53 (EInt 4) ;;
  SAlloc 54 (EInt 200) ;;
  SStoreF (EVar 53) 4 0 (EVar 54) ;;
  SAlloc 55 (EInt 4) ;;
  SStoreF (EVar 53) 4 1 (EVar 55) ;;
  SAlloc 56 (EInt 4) ;;
  SStoreF (EVar 53) 4 2 (EVar 56) ;;
  SAlloc 57 (EInt 4) ;;
  SStoreF (EVar 53) 4 3 (EVar 57) ;;
  SStoreF (EVar 52) 3 0 (EVar 53) ;;
  SAlloc 58 (EInt 4) ;;
  SStoreF (EVar 52) 3 1 (EVar 58) ;;
  SAlloc 59 (EInt 1) ;;
  SStoreF (EVar 52) 3 2 (EVar 59) ;;
  SCall None f_H1_init [(EVar 52); (EVar 12)] ;;
  SAlloc 60 (EInt 34) ;;
  SSet 61 (EInt 0) ;;
  SLoop (EBin ONe s32 (EVar 61) (EVar 12))
    (
    SSet 61 (EBin OAdd u32 (EVar 61) (EInt 1)))
    (
    SCall None f_vole_hash [(EVar 60); (EVar 47); (ELoadP (EAt (EVar 41) 1 (EVar 61))); (EVar 10); (EVar 12)] ;;
    SCall None f_H1_update [(EVar 52); (EVar 60); (EBin OAdd u32 (EVar 13) (EInt 2))])) ;;
  (
  SCall None f_H1_final [(EVar 52); (EVar 51); (EBin OMul u32 (EVar 13) (EInt 2))] ;;
  SCall (Some 62%positive) f_aes_extend_witness [(EVar 4); (EVar 5); (EVar 9)] ;;
  SSet 63 (EVar 62) ;;
  SCall (Some 64%positive) f_signature_d [(EVar 1); (EVar 9)] ;;
  SCall None f_xor_u8_array [(EVar 63); (EVar 39); (EVar 64); (EVar 11)] ;;
  SAlloc 65 (EInt 104) ;;
  SCall (Some 66%positive) f_signature_u_tilde [(EVar 1); (EVar 9)] ;;
  SCall (Some 67%positive) f_signature_d [(EVar 1); (EVar 9)] ;;
  SCall None f_hash_challenge_2 [(EVar 65); (EVar 47); (EVar 66); (EVar 51); (EVar 67); (EVar 12); (EVar 10)] ;;
  SAlloc 68 (EInt 32) ;;
  SCall (Some 69%positive) f_signature_a_tilde [(EVar 1); (EVar 9)] ;;
  SCall None f_aes_prove [(EVar 63); (EVar 39); (EVar 41); (EVar 5); (EVar 6); (EVar 65); (EVar 69); (EVar 68); (EVar 9)] ;;
  SEval (ELoadP (EVar 41)) ;;
  SEval (EVar 41) ;;
  SSet 41 ENull ;;
  SEval (EVar 63) ;;
  SSet 63 ENull ;;
  SEval (EVar 39) ;;
  SSet 39 ENull ;;
  SCall (Some 70%positive) f_signature_chall_3 [(EVar 1); (EVar 9)] ;;
  SCall (Some 71%positive) f_signature_a_tilde [(EVar 1); (EVar 9)] ;;
  SCall None f_hash_challenge_3 [(EVar 70); (EVar 65); (EVar 71); (EVar 68); (EVar 12)] ;;
  SSet 72 (EInt 0) ;;
  SLoop (EBin OLt s32 (EVar 72) (EVar 14))
    (
    SSet 72 (EBin OAdd u32 (EVar 72) (EInt 1)))
    (
    SAlloc 73 (EInt 12) ;;
    SCall (Some 74%positive) f_signature_chall_3 [(EVar 1); (EVar 9)] ;;
    SPublic 75 (EVar 74) (EVar 13) ;;
    SCall None f_ChalDec [(EVar 75); (EVar 72); (ELoad 2 (EAt (EVar 9) 1 (EInt 18))); (ELoad 2 (EAt (EVar 9) 1 (EInt 22))); (ELoad 2 (EAt (EVar 9) 1 (EInt 20))); (ELoad 2 (EAt (EVar 9) 1 (EInt 24))); (EVar 73)] ;;
    SSet 77 (EUn OCast u32 (ECond (EBin OLt s32 (EVar 72) (EVar 15)) (ELoad 2 (EAt (EVar 9) 1 (EInt 18))) (ELoad 2 (EAt (EVar 9) 1 (EInt 20))))) ;;
    SCall (Some 78%positive) f_signature_pdec [(EVar 1); (EVar 72); (EVar 9)] ;;
    SCall (Some 79%positive) f_signature_com [(EVar 1); (EVar 72); (EVar 9)] ;;
    SCall None f_vector_open [(ELoadP (EField (EAt (EVar 37) 1 (EVar 72)) 4 1)); (ELoadP (EField (EAt (EVar 37) 1 (EVar 72)) 4 2)); (EVar 73); (EVar 78); (EVar 79); (EVar 77); (EVar 13)] ;;
    SCall None f_vec_com_clear [(EAt (EVar 37) 1 (EVar 72))]) ;;
  SEval (EVar 37) ;;
  SSet 37 ENull))).

(** faest.c:362-492, faest_verify.
    Variables: 1 = msg, 2 = msglen, 3 = sig, 4 = owf_input, 5 = owf_output, 6 = params, 7 = l, 8 = lambda, 9 = lambdaBytes, 10 = tau, 11 = tau0, 12 = ell_hat, 13 = ell_hat_bytes, 14 = utilde_bytes, 15 = k0, 16 = k1, 17 = mu, 19 = qprime, 21 = i, 22 = hcom, 23 = pdec, 24 = com, 25 = i, 30 = chall_1, 34 = q, 36 = i, 38 = Dtilde, 40 = i, 41 = Dtilde_idx, 42 = q_idx, 43 = i, 44 = depth, 45 = delta, 48 = j, 50 = d, 52 = h_v, 53 = h1_ctx_1, 54 = sponge, 55 = state, 56 = rate, 57 = byteIOIndex, 58 = squeezing, 59 = fixedOutputLength, 60 = delimitedSuffix, 61 = Q_tilde, 62 = i, 63 = chall_2, 70 = b_tilde, 71 = chall_3. *)
Definition c_faest_verify : func := Func [1%positive; 2%positive; 3%positive; 4%positive; 5%positive; 6%positive] (
  (
  (
  SSet 7 (ELoad 2 (EAt (EVar 6) 1 (EInt 10))) ;;
  SSet 8 (ELoad 2 (EVar 6)) ;;
  SSet 9 (EDiv ODiv u32 (EVar 8) (EInt 8)) ;;
  SSet 10 (ELoad 2 (EAt (EVar 6) 1 (EInt 16))) ;;
  SSet 11 (ELoad 2 (EAt (EVar 6) 1 (EInt 22))) ;;
  SSet 12 (EBin OAdd u32 (EBin OAdd u32 (EVar 7) (EBin OMul u32 (EVar 8) (EInt 2))) (EInt 16)) ;;
  SSet 13 (EDiv ODiv u32 (EVar 12) (EInt 8)) ;;
  SSet 14 (EBin OAdd u32 (EVar 9) (EInt 2)) ;;
  SSet 15 (ELoad 2 (EAt (EVar 6) 1 (EInt 18))) ;;
  SSet 16 (ELoad 2 (EAt (EVar 6) 1 (EInt 20))) ;;
  SAlloc 17 (EInt 64) ;;
  SCall None f_hash_mu [(EVar 17); (EVar 4); (EVar 5); (EUn OCast u64 (EDiv ODiv s32 (ELoad 2 (EAt (EVar 6) 1 (EInt 28))) (EInt 2))); (EVar 1); (EVar 2); (EVar 8)] ;;
  SAlloc 18 (EDiv ODiv u64 (EBin OMul u64 (EVar 8) (EInt 8)) (EInt 8)) ;;
  SSet 19 (EVar 18) ;;
  SAlloc 20 (EBin OMul u64 (EVar 8) (EVar 13)) ;;
  SStoreP (EVar 19) (EVar 20) ;;
  SSet 21 (EInt 1) ;;
  SLoop (EBin OLt s32 (EVar 21) (EVar 8))
    (
    SSet 21 (EBin OAdd u32 (EVar 21) (EInt 1)))
    (
    SStoreP (EAt (EVar 19) 1 (EVar 21)) (EAt (ELoadP (EVar 19)) 1 (EBin OMul u32 (EVar 21) (EVar 13)))) ;;
  SAlloc 22 (EInt 64) ;;
  SAlloc 23 (EInt 32) ;;
  SAlloc 24 (EInt 32) ;;
  SSet 25 (EInt 0) ;;
  SLoop (EBin OLt s32 (EVar 25) (EVar 10))
    (
    SSet 25 (EBin OAdd u32 (EVar 25) (EInt 1)))
    (
    SCall (Some 26%positive) f_dsignature_pdec [(EVar 3); (EVar 25); (EVar 6)] ;;
    SStoreP (EAt (EVar 23) 1 (EVar 25)) (EVar 26) ;;
    SCall (Some 27%positive) f_dsignature_com [(EVar 3); (EVar 25); (EVar 6)] ;;
    SStoreP (EAt (EVar 24) 1 (EVar 25)) (EVar 27))) ;;
  (
  SCall (Some 28%positive) f_dsignature_iv [(EVar 3); (EVar 6)] ;;
  SCall (Some 29%positive) f_dsignature_chall_3 [(EVar 3); (EVar 6)] ;;
  SCall None f_vole_reconstruct [(EVar 28); (EVar 29); (EVar 23); (EVar 24); (EVar 22); (EVar 19); (EVar 12); (EVar 6)] ;;
  SAlloc 30 (EInt 168) ;;
  SCall (Some 31%positive) f_dsignature_c [(EVar 3); (EInt 0); (EVar 6)] ;;
  SCall (Some 32%positive) f_dsignature_iv [(EVar 3); (EVar 6)] ;;
  SCall None f_hash_challenge_1 [(EVar 30); (EVar 17); (EVar 22); (EVar 31); (EVar 32); (EVar 8); (EVar 7); (EVar 10)] ;;
  SAlloc 33 (EDiv ODiv u64 (EBin OMul u64 (EVar 8) (EInt 8)) (EInt 8)) ;;
  SSet 34 (EVar 33) ;;
  SAlloc 35 (EBin OMul u64 (EVar 8) (EVar 13)) ;;
  SStoreP (EVar 34) (EVar 35) ;;
  SSet 36 (EInt 1) ;;
  SLoop (EBin OLt s32 (EVar 36) (EVar 8))
    (
    SSet 36 (EBin OAdd u32 (EVar 36) (EInt 1)))
    (
    SStoreP (EAt (EVar 34) 1 (EVar 36)) (EAt (ELoadP (EVar 34)) 1 (EBin OMul u32 (EVar 36) (EVar 13)))) ;;
  SAlloc 37 (EDiv ODiv u64 (EBin OMul u64 (EVar 8) (EInt 8)) (EInt 8)) ;;
  SSet 38 (EVar 37) ;;
  SAlloc 39 (EBin OMul u64 (EVar 8) (EBin OAdd u32 (EVar 9) (EInt 2))) ;;
  SStoreP (EVar 38) (EVar 39) ;;
  SSet 40 (EInt 1) ;;
  SLoop (EBin OLt s32 (EVar 40) (EVar 8))
    (
    SSet 40 (EBin OAdd u32 (EVar 40) (EInt 1)))
    (
    SStoreP (EAt (EVar 38) 1 (EVar 40)) (EAt (ELoadP (EVar 38)) 1 (EBin OMul u32 (EVar 40) (EBin OAdd u32 (EVar 9) (EInt 2))))) ;;
  SSet 41 (EInt 0) ;;
  SSet 42 (EInt 0) ;;
  SSet 43 (EInt 0) ;;
  SLoop (EBin OLt s32 (EVar 43) (EVar 10))
    (
    SSet 43 (EBin OAdd u32 (EVar 43) (EInt 1)))
    (
    SSet 44 (ECond (EBin OLt s32 (EVar 43) (EVar 11)) (EVar 15) (EVar 16)) ;;
    SAlloc 45 (EInt 12) ;;
    SCall (Some 46%positive) f_dsignature_chall_3 [(EVar 3); (EVar 6)] ;;
    SCall None f_ChalDec [(EVar 46); (EVar 43); (ELoad 2 (EAt (EVar 6) 1 (EInt 18))); (ELoad 2 (EAt (EVar 6) 1 (EInt 22))); (ELoad 2 (EAt (EVar 6) 1 (EInt 20))); (ELoad 2 (EAt (EVar 6) 1 (EInt 24))); (EVar 45)] ;;
    SSet 48 (EInt 0) ;;
    SLoop (EBin ONe s32 (EVar 48) (EVar 44))
      (
      SSet 48 (EBin OAdd u32 (EVar 48) (EInt 1)) ;;
      SSet 41 (EBin OAdd u32 (EVar 41) (EInt 1)))
      (
      SIf (EBin OLt s32 (EVar 41) (EVar 8))
        SSkip
        (
        SFail) ;;
      SCall (Some 49%positive) f_dsignature_u_tilde [(EVar 3); (EVar 6)] ;;
      SCall None f_masked_xor_u8_array [(ELoadP (EAt (EVar 38) 1 (EVar 41))); (EVar 49); (ELoadP (EAt (EVar 38) 1 (EVar 41))); (ELoad 1 (EAt (EVar 45) 1 (EVar 48))); (EVar 14)]) ;;
    SIf (EBin OEq s32 (EVar 43) (EInt 0))
      (
      SCopy (ELoadP (EAt (EVar 34) 1 (EVar 42))) (ELoadP (EAt (EVar 19) 1 (EVar 42))) (EBin OMul u32 (EVar 13) (EVar 44)) ;;
      SSet 42 (EBin OAdd u32 (EVar 42) (EVar 44)))
      (
      SSet 50 (EInt 0) ;;
      SLoop (EBin OLt s32 (EVar 50) (EVar 44))
        (
        SSet 50 (EBin OAdd u32 (EVar 50) (EInt 1)) ;;
        SSet 42 (EBin OAdd u32 (EVar 42) (EInt 1)))
        (
        SCall (Some 51%positive) f_dsignature_c [(EVar 3); (EBin OSub u32 (EVar 43) (EInt 1)); (EVar 6)] ;;
        SCall None f_masked_xor_u8_array [(ELoadP (EAt (EVar 19) 1 (EVar 42))); (EVar 51); (ELoadP (EAt (EVar 34) 1 (EVar 42))); (ELoad 1 (EAt (EVar 45) 1 (EVar 50))); (EVar 13)]))))) ;;
  (
  (
  SEval (ELoadP (EVar 19)) ;;
  SEval (EVar 19) ;;
  SSet 19 ENull ;;
  SAlloc 52 (EInt 64) ;;
  SAlloc 53 (EInt 3) ;;
  SAlloc 54 (EInt 4) ;;
  SAlloc 55 (EInt 200) ;;
  SStoreF (EVar 54) 4 0 (EVar 55) ;;
  SAlloc 56 (EInt 4) ;;
  SStoreF (EVar 54) 4 1 (EVar 56) ;;
  SAlloc 57 (EInt 4) ;;
  SStoreF (EVar 54) 4 2 (EVar 57) ;;
  SAlloc 58 (EInt 4) ;;
  SStoreF (EVar 54) 4 3 (EVar 58) ;;
  SStoreF (EVar 53) 3 0 (EVar 54) ;;
  SAlloc 59 (EInt 4) ;;
  SStoreF (EVar 53) 3 1 (EVar 59) ;;
  SAlloc 60 (EInt 1) ;;
  SStoreF (EVar 53) 3 2 (EVar 60) ;;
  SCall None f_H1_init [(EVar 53); (EVar 8)] ;;
  SAlloc 61 (EInt 34) ;;
  SSet 62 (EInt 0) ;;
  SLoop (EBin ONe s32 (EVar 62) (EVar 8))
    (
    SSet 62 (EBin OAdd u32 (EVar 62) (EInt 1)))
    (
    SCall None f_vole_hash [(EVar 61); (EVar 30); (ELoadP (EAt (EVar 34) 1 (EVar 62))); (EVar 7); (EVar 8)] ;;
    SCall None f_xor_u8_array [(EVar 61); (ELoadP (EAt (EVar 38) 1 (EVar 62))); (EVar 61); (EBin OAdd u32 (EVar 9) (EInt 2))] ;;
    SCall None f_H1_update [(EVar 53); (EVar 61); (EBin OAdd u32 (EVar 9) (EInt 2))])) ;;
  (
  SCall None f_H1_final [(EVar 53); (EVar 52); (EBin OMul u32 (EVar 9) (EInt 2))] ;;
  SEval (ELoadP (EVar 38)) ;;
  SEval (EVar 38) ;;
  SSet 38 ENull ;;
  SAlloc 63 (EInt 104) ;;
  SCall (Some 64%positive) f_dsignature_u_tilde [(EVar 3); (EVar 6)] ;;
  SCall (Some 65%positive) f_dsignature_d [(EVar 3); (EVar 6)] ;;
  SCall None f_hash_challenge_2 [(EVar 63); (EVar 30); (EVar 64); (EVar 52); (EVar 65); (EVar 8); (EVar 7)] ;;
  SCall (Some 66%positive) f_dsignature_d [(EVar 3); (EVar 6)] ;;
  SCall (Some 67%positive) f_dsignature_chall_3 [(EVar 3); (EVar 6)] ;;
  SCall (Some 68%positive) f_dsignature_a_tilde [(EVar 3); (EVar 6)] ;;
  SCall (Some 69%positive) f_aes_verify [(EVar 66); (EVar 34); (EVar 63); (EVar 67); (EVar 68); (EVar 4); (EVar 5); (EVar 6)] ;;
  SSet 70 (EVar 69) ;;
  SEval (ELoadP (EVar 34)) ;;
  SEval (EVar 34) ;;
  SSet 34 ENull ;;
  SAlloc 71 (EInt 32) ;;
  SCall (Some 72%positive) f_dsignature_a_tilde [(EVar 3); (EVar 6)] ;;
  SCall None f_hash_challenge_3 [(EVar 71); (EVar 63); (EVar 72); (EVar 70); (EVar 8)] ;;
  SEval (EVar 70) ;;
  SSet 70 ENull ;;
  SCall (Some 73%positive) f_dsignature_chall_3 [(EVar 3); (EVar 6)] ;;
  SCall (Some 74%positive) f_memcmp [(EVar 71); (EVar 73); (EVar 9)] ;;
  SReturn (ECond (EBin OEq s32 (EVar 74) (EInt 0)) (EInt 0) (EInt (-1)))))).

(** instances.c:126-155, faest_get_paramset.
    Variables: 1 = return, 2 = paramid. *)
Definition c_faest_get_paramset : func := Func [1%positive; 2%positive] (
  SSet 3 (EVar 2) ;;
  SIf (EBin OEq s32 (EVar 3) (EInt 1))
    (
    SAlloc 4 (EInt 36) ;;
    SStore 2 (EVar 4) (EInt 128) ;;
    SStore 2 (EAt (EVar 4) 1 (EInt 2)) (EInt 4) ;;
    SStore 2 (EAt (EVar 4) 1 (EInt 4)) (EInt 40) ;;
    SStore 2 (EAt (EVar 4) 1 (EInt 6)) (EInt 10) ;;
    SStore 2 (EAt (EVar 4) 1 (EInt 8)) (EInt 160) ;;
    SStore 2 (EAt (EVar 4) 1 (EInt 10)) (EInt 1600) ;;
    SStore 2 (EAt (EVar 4) 1 (EInt 12)) (EInt 448) ;;
    SStore 2 (EAt (EVar 4) 1 (EInt 14)) (EInt 1152) ;;
    SStore 2 (EAt (EVar 4) 1 (EInt 16)) (EInt 11) ;;
    SStore 2 (EAt (EVar 4) 1 (EInt 18)) (EInt 12) ;;
    SStore 2 (EAt (EVar 4) 1 (EInt 20)) (EInt 11) ;;
    SStore 2 (EAt (EVar 4) 1 (EInt 22)) (EInt 7) ;;
    SStore 2 (EAt (EVar 4) 1 (EInt 24)) (EInt 4) ;;
    SStore 2 (EAt (EVar 4) 1 (EInt 26)) (EInt 5006) ;;
    SStore 2 (EAt (EVar 4) 1 (EInt 28)) (EInt 32) ;;
    SStore 4 (EAt (EVar 4) 1 (EInt 32)) (EInt 1) ;;
    SCopy (EVar 1) (EVar 4) (EInt 36) ;;
    SReturn (EInt 0))
    (
    SIf (EBin OEq s32 (EVar 3) (EInt 2))
      (
      SAlloc 5 (EInt 36) ;;
      SStore 2 (EVar 5) (EInt 128) ;;
      SStore 2 (EAt (EVar 5) 1 (EInt 2)) (EInt 4) ;;
      SStore 2 (EAt (EVar 5) 1 (EInt 4)) (EInt 40) ;;
      SStore 2 (EAt (EVar 5) 1 (EInt 6)) (EInt 10) ;;
      SStore 2 (EAt (EVar 5) 1 (EInt 8)) (EInt 160) ;;
      SStore 2 (EAt (EVar 5) 1 (EInt 10)) (EInt 1600) ;;
      SStore 2 (EAt (EVar 5) 1 (EInt 12)) (EInt 448) ;;
      SStore 2 (EAt (EVar 5) 1 (EInt 14)) (EInt 1152) ;;
      SStore 2 (EAt (EVar 5) 1 (EInt 16)) (EInt 16) ;;
      SStore 2 (EAt (EVar 5) 1 (EInt 18)) (EInt 8) ;;
      SStore 2 (EAt (EVar 5) 1 (EInt 20)) (EInt 8) ;;
      SStore 2 (EAt (EVar 5) 1 (EInt 24)) (EInt 16) ;;
      SStore 2 (EAt (EVar 5) 1 (EInt 26)) (EInt 6336) ;;
      SStore 2 (EAt (EVar 5) 1 (EInt 28)) (EInt 32) ;;
      SStore 4 (EAt (EVar 5) 1 (EInt 32)) (EInt 2) ;;
      SCopy (EVar 1) (EVar 5) (EInt 36) ;;
      SReturn (EInt 0))
      (
      SIf (EBin OEq s32 (EVar 3) (EInt 7))
        (
        SAlloc 6 (EInt 36) ;;
        SStore 2 (EVar 6) (EInt 128) ;;
        SStore 2 (EAt (EVar 6) 1 (EInt 2)) (EInt 4) ;;
        SStore 2 (EAt (EVar 6) 1 (EInt 6)) (EInt 10) ;;
        SStore 2 (EAt (EVar 6) 1 (EInt 8)) (EInt 160) ;;
        SStore 2 (EAt (EVar 6) 1 (EInt 10)) (EInt 1280) ;;
        SStore 2 (EAt (EVar 6) 1 (EInt 14)) (EInt 1280) ;;
        SStore 2 (EAt (EVar 6) 1 (EInt 16)) (EInt 11) ;;
        SStore 2 (EAt (EVar 6) 1 (EInt 18)) (EInt 12) ;;
        SStore 2 (EAt (EVar 6) 1 (EInt 20)) (EInt 11) ;;
        SStore 2 (EAt (EVar 6) 1 (EInt 22)) (EInt 7) ;;
        SStore 2 (EAt (EVar 6) 1 (EInt 24)) (EInt 4) ;;
        SStore 2 (EAt (EVar 6) 1 (EInt 26)) (EInt 4566) ;;
        SStore 2 (EAt (EVar 6) 1 (EInt 28)) (EInt 32) ;;
        SStore 4 (EAt (EVar 6) 1 (EInt 32)) (EInt 7) ;;
        SCopy (EVar 1) (EVar 6) (EInt 36) ;;
        SReturn (EInt 0))
        (
        SIf (EBin OEq s32 (EVar 3) (EInt 8))
          (
          SAlloc 7 (EInt 36) ;;
          SStore 2 (EVar 7) (EInt 128) ;;
          SStore 2 (EAt (EVar 7) 1 (EInt 2)) (EInt 4) ;;
          SStore 2 (EAt (EVar 7) 1 (EInt 6)) (EInt 10) ;;
          SStore 2 (EAt (EVar 7) 1 (EInt 8)) (EInt 160) ;;
          SStore 2 (EAt (EVar 7) 1 (EInt 10)) (EInt 1280) ;;
          SStore 2 (EAt (EVar 7) 1 (EInt 14)) (EInt 1280) ;;
          SStore 2 (EAt (EVar 7) 1 (EInt 16)) (EInt 16) ;;
          SStore 2 (EAt (EVar 7) 1 (EInt 18)) (EInt 8) ;;
          SStore 2 (EAt (EVar 7) 1 (EInt 20)) (EInt 8) ;;
          SStore 2 (EAt (EVar 7) 1 (EInt 24)) (EInt 16) ;;
          SStore 2 (EAt (EVar 7) 1 (EInt 26)) (EInt 5696) ;;
          SStore 2 (EAt (EVar 7) 1 (EInt 28)) (EInt 32) ;;
          SStore 4 (EAt (EVar 7) 1 (EInt 32)) (EInt 8) ;;
          SCopy (EVar 1) (EVar 7) (EInt 36) ;;
          SReturn (EInt 0))
          (
          SIf (EBin OEq s32 (EVar 3) (EInt 3))
            (
            SAlloc 8 (EInt 36) ;;
            SStore 2 (EVar 8) (EInt 192) ;;
            SStore 2 (EAt (EVar 8) 1 (EInt 2)) (EInt 6) ;;
            SStore 2 (EAt (EVar 8) 1 (EInt 4)) (EInt 32) ;;
            SStore 2 (EAt (EVar 8) 1 (EInt 6)) (EInt 12) ;;
            SStore 2 (EAt (EVar 8) 1 (EInt 8)) (EInt 192) ;;
            SStore 2 (EAt (EVar 8) 1 (EInt 10)) (EInt 3264) ;;
            SStore 2 (EAt (EVar 8) 1 (EInt 12)) (EInt 448) ;;
            SStore 2 (EAt (EVar 8) 1 (EInt 14)) (EInt 1408) ;;
            SStore 2 (EAt (EVar 8) 1 (EInt 16)) (EInt 16) ;;
            SStore 2 (EAt (EVar 8) 1 (EInt 18)) (EInt 12) ;;
            SStore 2 (EAt (EVar 8) 1 (EInt 20)) (EInt 12) ;;
            SStore 2 (EAt (EVar 8) 1 (EInt 24)) (EInt 16) ;;
            SStore 2 (EAt (EVar 8) 1 (EInt 26)) (EInt 12744) ;;
            SStore 2 (EAt (EVar 8) 1 (EInt 28)) (EInt 64) ;;
            SStore 4 (EAt (EVar 8) 1 (EInt 32)) (EInt 3) ;;
            SCopy (EVar 1) (EVar 8) (EInt 36) ;;
            SReturn (EInt 0))
            (
            SIf (EBin OEq s32 (EVar 3) (EInt 4))
              (
              SAlloc 9 (EInt 36) ;;
              SStore 2 (EVar 9) (EInt 192) ;;
              SStore 2 (EAt (EVar 9) 1 (EInt 2)) (EInt 6) ;;
              SStore 2 (EAt (EVar 9) 1 (EInt 4)) (EInt 32) ;;
              SStore 2 (EAt (EVar 9) 1 (EInt 6)) (EInt 12) ;;
              SStore 2 (EAt (EVar 9) 1 (EInt 8)) (EInt 192) ;;
              SStore 2 (EAt (EVar 9) 1 (EInt 10)) (EInt 3264) ;;
              SStore 2 (EAt (EVar 9) 1 (EInt 12)) (EInt 448) ;;
              SStore 2 (EAt (EVar 9) 1 (EInt 14)) (EInt 1408) ;;
              SStore 2 (EAt (EVar 9) 1 (EInt 16)) (EInt 24) ;;
              SStore 2 (EAt (EVar 9) 1 (EInt 18)) (EInt 8) ;;
              SStore 2 (EAt (EVar 9) 1 (EInt 20)) (EInt 8) ;;
              SStore 2 (EAt (EVar 9) 1 (EInt 24)) (EInt 24) ;;
              SStore 2 (EAt (EVar 9) 1 (EInt 26)) (EInt 16792) ;;
              SStore 2 (EAt (EVar 9) 1 (EInt 28)) (EInt 64) ;;
              SStore 4 (EAt (EVar 9) 1 (EInt 32)) (EInt 4) ;;
              SCopy (EVar 1) (EVar 9) (EInt 36) ;;
              SReturn (EInt 0))
              (
              SIf (EBin OEq s32 (EVar 3) (EInt 9))
                (
                SAlloc 10 (EInt 36) ;;
                SStore 2 (EVar 10) (EInt 192) ;;
                SStore 2 (EAt (EVar 10) 1 (EInt 2)) (EInt 6) ;;
                SStore 2 (EAt (EVar 10) 1 (EInt 6)) (EInt 12) ;;
                SStore 2 (EAt (EVar 10) 1 (EInt 8)) (EInt 288) ;;
                SStore 2 (EAt (EVar 10) 1 (EInt 10)) (EInt 2304) ;;
                SStore 2 (EAt (EVar 10) 1 (EInt 14)) (EInt 2304) ;;
                SStore 2 (EAt (EVar 10) 1 (EInt 16)) (EInt 16) ;;
                SStore 2 (EAt (EVar 10) 1 (EInt 18)) (EInt 12) ;;
                SStore 2 (EAt (EVar 10) 1 (EInt 20)) (EInt 12) ;;
                SStore 2 (EAt (EVar 10) 1 (EInt 24)) (EInt 16) ;;
                SStore 2 (EAt (EVar 10) 1 (EInt 26)) (EInt 10824) ;;
                SStore 2 (EAt (EVar 10) 1 (EInt 28)) (EInt 48) ;;
                SStore 4 (EAt (EVar 10) 1 (EInt 32)) (EInt 9) ;;
                SCopy (EVar 1) (EVar 10) (EInt 36) ;;
                SReturn (EInt 0))
                (
                SIf (EBin OEq s32 (EVar 3) (EInt 10))
                  (
                  SAlloc 11 (EInt 36) ;;
                  SStore 2 (EVar 11) (EInt 192) ;;
                  SStore 2 (EAt (EVar 11) 1 (EInt 2)) (EInt 6) ;;
                  SStore 2 (EAt (EVar 11) 1 (EInt 6)) (EInt 12) ;;
                  SStore 2 (EAt (EVar 11) 1 (EInt 8)) (EInt 288) ;;
                  SStore 2 (EAt (EVar 11) 1 (EInt 10)) (EInt 2304) ;;
                  SStore 2 (EAt (EVar 11) 1 (EInt 14)) (EInt 2304) ;;
                  SStore 2 (EAt (EVar 11) 1 (EInt 16)) (EInt 24) ;;
                  SStore 2 (EAt (EVar 11) 1 (EInt 18)) (EInt 8) ;;
                  SStore 2 (EAt (EVar 11) 1 (EInt 20)) (EInt 8) ;;
                  SStore 2 (EAt (EVar 11) 1 (EInt 24)) (EInt 24) ;;
                  SStore 2 (EAt (EVar 11) 1 (EInt 26)) (EInt 13912) ;;
                  SStore 2 (EAt (EVar 11) 1 (EInt 28)) (EInt 48) ;;
                  SStore 4 (EAt (EVar 11) 1 (EInt 32)) (EInt 10) ;;
                  SCopy (EVar 1) (EVar 11) (EInt 36) ;;
                  SReturn (EInt 0))
                  (
                  SIf (EBin OEq s32 (EVar 3) (EInt 5))
                    (
                    SAlloc 12 (EInt 36) ;;
                    SStore 2 (EVar 12) (EInt 256) ;;
                    SStore 2 (EAt (EVar 12) 1 (EInt 2)) (EInt 8) ;;
                    SStore 2 (EAt (EVar 12) 1 (EInt 4)) (EInt 52) ;;
                    SStore 2 (EAt (EVar 12) 1 (EInt 6)) (EInt 14) ;;
                    SStore 2 (EAt (EVar 12) 1 (EInt 8)) (EInt 224) ;;
                    SStore 2 (EAt (EVar 12) 1 (EInt 10)) (EInt 4000) ;;
                    SStore 2 (EAt (EVar 12) 1 (EInt 12)) (EInt 672) ;;
                    SStore 2 (EAt (EVar 12) 1 (EInt 14)) (EInt 1664) ;;
                    SStore 2 (EAt (EVar 12) 1 (EInt 16)) (EInt 22) ;;
                    SStore 2 (EAt (EVar 12) 1 (EInt 18)) (EInt 12) ;;
                    SStore 2 (EAt (EVar 12) 1 (EInt 20)) (EInt 11) ;;
                    SStore 2 (EAt (EVar 12) 1 (EInt 22)) (EInt 14) ;;
                    SStore 2 (EAt (EVar 12) 1 (EInt 24)) (EInt 8) ;;
                    SStore 2 (EAt (EVar 12) 1 (EInt 26)) (EInt 22100) ;;
                    SStore 2 (EAt (EVar 12) 1 (EInt 28)) (EInt 64) ;;
                    SStore 4 (EAt (EVar 12) 1 (EInt 32)) (EInt 5) ;;
                    SCopy (EVar 1) (EVar 12) (EInt 36) ;;
                    SReturn (EInt 0))
                    (
                    SIf (EBin OEq s32 (EVar 3) (EInt 6))
                      (
                      SAlloc 13 (EInt 36) ;;
                      SStore 2 (EVar 13) (EInt 256) ;;
                      SStore 2 (EAt (EVar 13) 1 (EInt 2)) (EInt 8) ;;
                      SStore 2 (EAt (EVar 13) 1 (EInt 4)) (EInt 52) ;;
                      SStore 2 (EAt (EVar 13) 1 (EInt 6)) (EInt 14) ;;
                      SStore 2 (EAt (EVar 13) 1 (EInt 8)) (EInt 224) ;;
                      SStore 2 (EAt (EVar 13) 1 (EInt 10)) (EInt 4000) ;;
                      SStore 2 (EAt (EVar 13) 1 (EInt 12)) (EInt 672) ;;
                      SStore 2 (EAt (EVar 13) 1 (EInt 14)) (EInt 1664) ;;
                      SStore 2 (EAt (EVar 13) 1 (EInt 16)) (EInt 32) ;;
                      SStore 2 (EAt (EVar 13) 1 (EInt 18)) (EInt 8) ;;
                      SStore 2 (EAt (EVar 13) 1 (EInt 20)) (EInt 8) ;;
                      SStore 2 (EAt (EVar 13) 1 (EInt 24)) (EInt 32) ;;
                      SStore 2 (EAt (EVar 13) 1 (EInt 26)) (EInt 28400) ;;
                      SStore 2 (EAt (EVar 13) 1 (EInt 28)) (EInt 64) ;;
                      SStore 4 (EAt (EVar 13) 1 (EInt 32)) (EInt 6) ;;
                      SCopy (EVar 1) (EVar 13) (EInt 36) ;;
                      SReturn (EInt 0))
                      (
                      SIf (EBin OEq s32 (EVar 3) (EInt 11))
                        (
                        SAlloc 14 (EInt 36) ;;
                        SStore 2 (EVar 14) (EInt 256) ;;
                        SStore 2 (EAt (EVar 14) 1 (EInt 2)) (EInt 8) ;;
                        SStore 2 (EAt (EVar 14) 1 (EInt 6)) (EInt 14) ;;
                        SStore 2 (EAt (EVar 14) 1 (EInt 8)) (EInt 448) ;;
                        SStore 2 (EAt (EVar 14) 1 (EInt 10)) (EInt 3584) ;;
                        SStore 2 (EAt (EVar 14) 1 (EInt 14)) (EInt 3584) ;;
                        SStore 2 (EAt (EVar 14) 1 (EInt 16)) (EInt 22) ;;
                        SStore 2 (EAt (EVar 14) 1 (EInt 18)) (EInt 12) ;;
                        SStore 2 (EAt (EVar 14) 1 (EInt 20)) (EInt 11) ;;
                        SStore 2 (EAt (EVar 14) 1 (EInt 22)) (EInt 14) ;;
                        SStore 2 (EAt (EVar 14) 1 (EInt 24)) (EInt 8) ;;
                        SStore 2 (EAt (EVar 14) 1 (EInt 26)) (EInt 20956) ;;
                        SStore 2 (EAt (EVar 14) 1 (EInt 28)) (EInt 64) ;;
                        SStore 4 (EAt (EVar 14) 1 (EInt 32)) (EInt 11) ;;
                        SCopy (EVar 1) (EVar 14) (EInt 36) ;;
                        SReturn (EInt 0))
                        (
                        SIf (EBin OEq s32 (EVar 3) (EInt 12))
                          (
                          SAlloc 15 (EInt 36) ;;
                          SStore 2 (EVar 15) (EInt 256) ;;
                          SStore 2 (EAt (EVar 15) 1 (EInt 2)) (EInt 8) ;;
                          SStore 2 (EAt (EVar 15) 1 (EInt 6)) (EInt 14) ;;
                          SStore 2 (EAt (EVar 15) 1 (EInt 8)) (EInt 448) ;;
                          SStore 2 (EAt (EVar 15) 1 (EInt 10)) (EInt 3584) ;;
                          SStore 2 (EAt (EVar 15) 1 (EInt 14)) (EInt 3584) ;;
                          SStore 2 (EAt (EVar 15) 1 (EInt 16)) (EInt 32) ;;
                          SStore 2 (EAt (EVar 15) 1 (EInt 18)) (EInt 8) ;;
                          SStore 2 (EAt (EVar 15) 1 (EInt 20)) (EInt 8) ;;
                          SStore 2 (EAt (EVar 15) 1 (EInt 24)) (EInt 32) ;;
                          SStore 2 (EAt (EVar 15) 1 (EInt 26)) (EInt 26736) ;;
                          SStore 2 (EAt (EVar 15) 1 (EInt 28)) (EInt 64) ;;
                          SStore 4 (EAt (EVar 15) 1 (EInt 32)) (EInt 12) ;;
                          SCopy (EVar 1) (EVar 15) (EInt 36) ;;
                          SReturn (EInt 0))
                          (
                          SAlloc 16 (EInt 36) ;;
                          SStore 4 (EAt (EVar 16) 1 (EInt 32)) (EInt 0) ;;
                          SCopy (EVar 1) (EVar 16) (EInt 36) ;;
                          SReturn (EInt 0)))))))))))))).

(** owf.c:12-17, owf_128.
    Variables: 1 = key, 2 = input, 3 = output, 4 = round_keys, 6 = ret. *)
Definition c_owf_128 : func := Func [1%positive; 2%positive; 3%positive] (
  SAlloc 4 (EInt 480) ;;
  SCall (Some 5%positive) f_aes128_init_round_keys [(EVar 4); (EVar 1)] ;;
  SSet 6 (EVar 5) ;;
  SCall (Some 7%positive) f_aes128_encrypt_block [(EVar 4); (EVar 2); (EVar 3)] ;;
  SSet 6 (EBin OOr s32 (EVar 6) (EVar 7)) ;;
  SReturn (EBin ONe s32 (EBin OEq s32 (EVar 6) (EInt 0)) (EInt 0))).

(** owf.c:19-25, owf_192.
    Variables: 1 = key, 2 = input, 3 = output, 4 = round_keys, 6 = ret. *)
Definition c_owf_192 : func := Func [1%positive; 2%positive; 3%positive] (
  SAlloc 4 (EInt 480) ;;
  SCall (Some 5%positive) f_aes192_init_round_keys [(EVar 4); (EVar 1)] ;;
  SSet 6 (EVar 5) ;;
  SCall (Some 7%positive) f_aes192_encrypt_block [(EVar 4); (EVar 2); (EVar 3)] ;;
  SSet 6 (EBin OOr s32 (EVar 6) (EVar 7)) ;;
  SCall (Some 8%positive) f_aes192_encrypt_block [(EVar 4); (EAt (EVar 2) 1 (EInt 16)); (EAt (EVar 3) 1 (EInt 16))] ;;
  SSet 6 (EBin OOr s32 (EVar 6) (EVar 8)) ;;
  SReturn (EBin ONe s32 (EBin OEq s32 (EVar 6) (EInt 0)) (EInt 0))).

(** owf.c:27-33, owf_256.
    Variables: 1 = key, 2 = input, 3 = output, 4 = round_keys, 6 = ret. *)
Definition c_owf_256 : func := Func [1%positive; 2%positive; 3%positive] (
  SAlloc 4 (EInt 480) ;;
  SCall (Some 5%positive) f_aes256_init_round_keys [(EVar 4); (EVar 1)] ;;
  SSet 6 (EVar 5) ;;
  SCall (Some 7%positive) f_aes256_encrypt_block [(EVar 4); (EVar 2); (EVar 3)] ;;
  SSet 6 (EBin OOr s32 (EVar 6) (EVar 7)) ;;
  SCall (Some 8%positive) f_aes256_encrypt_block [(EVar 4); (EAt (EVar 2) 1 (EInt 16)); (EAt (EVar 3) 1 (EInt 16))] ;;
  SSet 6 (EBin OOr s32 (EVar 6) (EVar 8)) ;;
  SReturn (EBin ONe s32 (EBin OEq s32 (EVar 6) (EInt 0)) (EInt 0))).

(** owf.c:35-43, owf_em_128.
    Variables: 1 = key, 2 = input, 3 = output, 4 = round_keys, 7 = ret, 8 = i. *)
Definition c_owf_em_128 : func := Func [1%positive; 2%positive; 3%positive] (
  SAlloc 4 (EInt 480) ;;
  SCall None f_aes128_init_round_keys [(EVar 4); (EVar 2)] ;;
  SCall (Some 6%positive) f_aes128_encrypt_block [(EVar 4); (EVar 1); (EVar 3)] ;;
  SSet 7 (EVar 6) ;;
  SSet 8 (EInt 0) ;;
  SLoop (EBin ONe s32 (EVar 8) (EInt 16))
    (
    SSet 8 (EBin OAdd u32 (EVar 8) (EInt 1)))
    (
    SSet 9 (EAt (EVar 3) 1 (EVar 8)) ;;
    SStore 1 (EVar 9) (EUn OCast u8 (EBin OXor s32 (ELoad 1 (EVar 9)) (ELoad 1 (EAt (EVar 1) 1 (EVar 8)))))) ;;
  SReturn (EBin ONe s32 (EBin OEq s32 (EVar 7) (EInt 0)) (EInt 0))).

(** owf.c:45-53, owf_em_192.
    Variables: 1 = key, 2 = input, 3 = output, 4 = round_keys, 7 = ret, 8 = i. *)
Definition c_owf_em_192 : func := Func [1%positive; 2%positive; 3%positive] (
  SAlloc 4 (EInt 480) ;;
  SCall None f_rijndael192_init_round_keys [(EVar 4); (EVar 2)] ;;
  SCall (Some 6%positive) f_rijndael192_encrypt_block [(EVar 4); (EVar 1); (EVar 3)] ;;
  SSet 7 (EVar 6) ;;
  SSet 8 (EInt 0) ;;
  SLoop (EBin ONe s32 (EVar 8) (EInt 24))
    (
    SSet 8 (EBin OAdd u32 (EVar 8) (EInt 1)))
    (
    SSet 9 (EAt (EVar 3) 1 (EVar 8)) ;;
    SStore 1 (EVar 9) (EUn OCast u8 (EBin OXor s32 (ELoad 1 (EVar 9)) (ELoad 1 (EAt (EVar 1) 1 (EVar 8)))))) ;;
  SReturn (EBin ONe s32 (EBin OEq s32 (EVar 7) (EInt 0)) (EInt 0))).

(** owf.c:55-63, owf_em_256.
    Variables: 1 = key, 2 = input, 3 = output, 4 = round_keys, 7 = ret, 8 = i. *)
Definition c_owf_em_256 : func := Func [1%positive; 2%positive; 3%positive] (
  SAlloc 4 (EInt 480) ;;
  SCall None f_rijndael256_init_round_keys [(EVar 4); (EVar 2)] ;;
  SCall (Some 6%positive) f_rijndael256_encrypt_block [(EVar 4); (EVar 1); (EVar 3)] ;;
  SSet 7 (EVar 6) ;;
  SSet 8 (EInt 0) ;;
  SLoop (EBin ONe s32 (EVar 8) (EInt 32))
    (
    SSet 8 (EBin OAdd u32 (EVar 8) (EInt 1)))
    (
    SSet 9 (EAt (EVar 3) 1 (EVar 8)) ;;
    SStore 1 (EVar 9) (EUn OCast u8 (EBin OXor s32 (ELoad 1 (EVar 9)) (ELoad 1 (EAt (EVar 1) 1 (EVar 8)))))) ;;
  SReturn (EBin ONe s32 (EBin OEq s32 (EVar 7) (EInt 0)) (EInt 0))).

