(** Generated by tools/ctc/c2v.py from the sources in /repo; see DESIGN.md. *)
From Coq Require Import ZArith List.
From Verif Require Import Model.CtLang Model.CtNames.
Import ListNotations.
Local Open Scope Z_scope.

(** vc.c:26-29, is_left_child.
    Variables: 1 = node. *)
Definition c_is_left_child : func := Func [1%positive] (
  SIf (EBin ONe s32 (EVar 1) (EInt 0))
    SSkip
    (
    SFail) ;;
  SReturn (EBin OEq s32 (EDiv OMod u64 (EVar 1) (EInt 2)) (EInt 1))).

(** vc.c:31-40, create_tree.
    Variables: 1 = return, 2 = params, 3 = depth, 4 = tree, 5 = nodes, 6 = numNodes, 7 = numLeaves, 8 = lambdaBytes. *)
Definition c_create_tree : func := Func [1%positive; 2%positive; 3%positive] (
  SAlloc 4 (EInt 3) ;;
  SAlloc 5 (EInt 1) ;;
  SStoreF (EVar 4) 3 0 (EVar 5) ;;
  SAlloc 6 (EInt 8) ;;
  SStoreF (EVar 4) 3 1 (EVar 6) ;;
  SAlloc 7 (EInt 8) ;;
  SStoreF (EVar 4) 3 2 (EVar 7) ;;
  SSet 8 (EUn OCast u32 (EDiv ODiv s32 (ELoad 2 (EVar 2)) (EInt 8))) ;;
  SCall (Some 9%positive) f_getBinaryTreeNodeCount [(EVar 3)] ;;
  SStore 8 (EField (EVar 4) 3 1) (EVar 9) ;;
  SStore 8 (EField (EVar 4) 3 2) (EBin OShl u64 (EInt 1) (EVar 3)) ;;
  SAlloc 10 (EBin OMul u64 (ELoad 8 (EField (EVar 4) 3 1)) (EVar 8)) ;;
  SStoreP (EField (EVar 4) 3 0) (EVar 10) ;;
  SStoreP (EField (EVar 1) 3 0) (ELoadP (EField (EVar 4) 3 0)) ;;
  SCopy (EField (EVar 1) 3 1) (EField (EVar 4) 3 1) (EInt 8) ;;
  SCopy (EField (EVar 1) 3 2) (EField (EVar 4) 3 2) (EInt 8) ;;
  SReturn (EInt 0)).

(** vc.c:42-49, get_parent.
    Variables: 1 = node. *)
Definition c_get_parent : func := Func [1%positive] (
  SIf (EBin ONe s32 (EVar 1) (EInt 0))
    SSkip
    (
    SFail) ;;
  SCall (Some 2%positive) f_is_left_child [(EVar 1)] ;;
  SIf (EVar 2)
    (
    SReturn (EDiv ODiv u64 (EBin OSub u64 (EVar 1) (EInt 1)) (EInt 2)))
    SSkip ;;
  SReturn (EDiv ODiv u64 (EBin OSub u64 (EVar 1) (EInt 2)) (EInt 2))).

(** vc.c:51-65, expand_seeds.
    Variables: 1 = tree, 2 = iv, 3 = params, 4 = lambda_bytes, 6 = lastNonLeaf, 7 = i. *)
Definition c_expand_seeds : func := Func [1%positive; 2%positive; 3%positive] (
  SSet 4 (EUn OCast u32 (EDiv ODiv s32 (ELoad 2 (EVar 3)) (EInt 8))) ;;
  SCall (Some 5%positive) f_get_parent [(EBin OSub u64 (ELoad 8 (EField (EVar 1) 3 1)) (EInt 1))] ;;
  SSet 6 (EVar 5) ;;
  SIf (EBin OLt s32 (EBin OAdd u64 (EBin OMul u64 (EInt 2) (EVar 6)) (EInt 2)) (ELoad 8 (EField (EVar 1) 3 1)))
    SSkip
    (
    SFail) ;;
  SSet 7 (EInt 0) ;;
  SLoop (EBin OLe s32 (EVar 7) (EVar 6))
    (
    SSet 7 (EBin OAdd u64 (EVar 7) (EInt 1)))
    (
    SCall None f_prg [(EAt (ELoadP (EField (EVar 1) 3 0)) 1 (EBin OMul u64 (EVar 7) (EVar 4))); (EVar 2); (EAt (ELoadP (EField (EVar 1) 3 0)) 1 (EBin OMul u64 (EBin OAdd u64 (EBin OMul u64 (EInt 2) (EVar 7)) (EInt 1)) (EVar 4))); (ELoad 2 (EVar 3)); (EBin OMul u32 (EVar 4) (EInt 2))])).

(** vc.c:67-76, generate_seeds.
    Variables: 1 = return, 2 = rootSeed, 3 = iv, 4 = params, 5 = depth, 6 = lambdaBytes, 7 = tree, 8 = nodes, 9 = numNodes, 10 = numLeaves. *)
Definition c_generate_seeds : func := Func [1%positive; 2%positive; 3%positive; 4%positive; 5%positive] (
  SSet 6 (EUn OCast u32 (EDiv ODiv s32 (ELoad 2 (EVar 4)) (EInt 8))) ;;
  SAlloc 7 (EInt 3) ;;
  SAlloc 8 (EInt 1) ;;
  SStoreF (EVar 7) 3 0 (EVar 8) ;;
  SAlloc 9 (EInt 8) ;;
  SStoreF (EVar 7) 3 1 (EVar 9) ;;
  SAlloc 10 (EInt 8) ;;
  SStoreF (EVar 7) 3 2 (EVar 10) ;;
  SCall None f_create_tree [(EVar 7); (EVar 4); (EVar 5)] ;;
  SCopy (EAt (ELoadP (EField (EVar 7) 3 0)) 1 (EBin OMul u32 (EInt 0) (EVar 6))) (EVar 2) (EVar 6) ;;
  SCall None f_expand_seeds [(EVar 7); (EVar 3); (EVar 4)] ;;
  SStoreP (EField (EVar 1) 3 0) (ELoadP (EField (EVar 7) 3 0)) ;;
  SCopy (EField (EVar 1) 3 1) (EField (EVar 7) 3 1) (EInt 8) ;;
  SCopy (EField (EVar 1) 3 2) (EField (EVar 7) 3 2) (EInt 8) ;;
  SReturn (EInt 0)).

(** vc.c:79-81, getBinaryTreeNodeCount.
    Variables: 1 = depth. *)
Definition c_getBinaryTreeNodeCount : func := Func [1%positive] (
  SReturn (EUn OCast u64 (EBin OSub s32 (EBin OShl s32 (EInt 1) (EBin OAdd u32 (EVar 1) (EInt 1))) (EInt 1)))).

(** vc.c:84-89, getNodeIndex.
    Variables: 1 = depth, 2 = levelIndex. *)
Definition c_getNodeIndex : func := Func [1%positive; 2%positive] (
  SIf (EBin OEq s32 (EVar 1) (EInt 0))
    (
    SReturn (EInt 0))
    SSkip ;;
  SReturn (EBin OAdd u64 (EUn OCast u64 (EBin OSub s32 (EBin OShl s32 (EInt 2) (EBin OSub u64 (EVar 1) (EInt 1))) (EInt 2))) (EBin OAdd u64 (EVar 2) (EInt 1)))).

(** vc.c:103-109, NumRec.
    Variables: 1 = depth, 2 = bi, 3 = out, 4 = i. *)
Definition c_NumRec : func := Func [1%positive; 2%positive] (
  SSet 3 (EInt 0) ;;
  SSet 4 (EInt 0) ;;
  SLoop (EBin OLt s32 (EVar 4) (EVar 1))
    (
    SSet 4 (EBin OAdd u32 (EVar 4) (EInt 1)))
    (
    SSet 3 (EBin OAdd u32 (EVar 3) (EBin OShl u32 (ELoad 1 (EAt (EVar 2) 1 (EVar 4))) (EVar 4)))) ;;
  SReturn (EVar 3)).

(** vc.c:111-164, vector_commitment.
    Variables: 1 = rootKey, 2 = iv, 3 = params, 4 = lambda, 5 = vecCom, 6 = depth, 7 = lambdaBytes, 8 = numVoleInstances, 9 = tree, 10 = nodes, 11 = numNodes, 12 = numLeaves, 16 = base_index, 17 = i, 18 = h0_ctx, 19 = sponge, 20 = state, 21 = rate, 22 = byteIOIndex, 23 = squeezing, 24 = fixedOutputLength, 25 = delimitedSuffix, 26 = h0_ctx, 27 = sponge, 28 = state, 29 = rate, 30 = byteIOIndex, 31 = squeezing, 32 = fixedOutputLength, 33 = delimitedSuffix, 34 = h1_ctx, 35 = sponge, 36 = state, 37 = rate, 38 = byteIOIndex, 39 = squeezing, 40 = fixedOutputLength, 41 = delimitedSuffix, 42 = j. *)
Definition c_vector_commitment : func := Func [1%positive; 2%positive; 3%positive; 4%positive; 5%positive; 6%positive] (
  (
  SSet 7 (EDiv ODiv u32 (EVar 4) (EInt 8)) ;;
  SSet 8 (EUn OCast u32 (EBin OShl s32 (EInt 1) (EVar 6))) ;;
  SAlloc 9 (EInt 3) ;;
  SAlloc 10 (EInt 1) ;;
  SStoreF (EVar 9) 3 0 (EVar 10) ;;
  SAlloc 11 (EInt 8) ;;
  SStoreF (EVar 9) 3 1 (EVar 11) ;;
  SAlloc 12 (EInt 8) ;;
  SStoreF (EVar 9) 3 2 (EVar 12) ;;
  SCall None f_generate_seeds [(EVar 9); (EVar 1); (EVar 2); (EVar 3); (EVar 6)] ;;
  SAlloc 13 (EBin OMul u32 (EVar 7) (EInt 2)) ;;
  SStoreP (EField (EVar 5) 4 0) (EVar 13) ;;
  SAlloc 14 (EBin OMul u32 (EBin OMul u32 (EVar 8) (EVar 7)) (EInt 2)) ;;
  SStoreP (EField (EVar 5) 4 2) (EVar 14) ;;
  SAlloc 15 (EBin OMul u32 (EVar 8) (EVar 7)) ;;
  SStoreP (EField (EVar 5) 4 3) (EVar 15) ;;
  SStoreP (EField (EVar 5) 4 1) (EAt (ELoadP (EField (EVar 9) 3 0)) 1 (EBin OMul u32 (EInt 0) (EVar 7))) ;;
  SSet 16 (EBin OSub u64 (ELoad 8 (EField (EVar 9) 3 1)) (ELoad 8 (EField (EVar 9) 3 2))) ;;
  SSet 17 (EInt 0) ;;
  SLoop (EBin OLt s32 (EVar 17) (EBin OMul u32 (EDiv ODiv u32 (EVar 8) (EInt 4)) (EInt 4)))
    (
    SSet 17 (EBin OAdd u32 (EVar 17) (EInt 4)))
    (
    SAlloc 18 (EInt 3) ;;
    SAlloc 19 (EInt 4) ;;
    SAlloc 20 (EInt 800) ;;
    SStoreF (EVar 19) 4 0 (EVar 20) ;;
    SAlloc 21 (EInt 4) ;;
    SStoreF (EVar 19) 4 1 (EVar 21) ;;
    SAlloc 22 (EInt 4) ;;
    SStoreF (EVar 19) 4 2 (EVar 22) ;;
    SAlloc 23 (EInt 4) ;;
    SStoreF (EVar 19) 4 3 (EVar 23) ;;
    SStoreF (EVar 18) 3 0 (EVar 19) ;;
    SAlloc 24 (EInt 4) ;;
    SStoreF (EVar 18) 3 1 (EVar 24) ;;
    SAlloc 25 (EInt 1) ;;
    SStoreF (EVar 18) 3 2 (EVar 25) ;;
    SCall None f_H0_x4_init [(EVar 18); (EVar 4)] ;;
    SCall None f_H0_x4_update [(EVar 18); (EAt (ELoadP (EField (EVar 9) 3 0)) 1 (EBin OMul u64 (EBin OAdd u64 (EVar 16) (EVar 17)) (EVar 7))); (EAt (ELoadP (EField (EVar 9) 3 0)) 1 (EBin OMul u64 (EBin OAdd u64 (EBin OAdd u64 (EVar 16) (EVar 17)) (EInt 1)) (EVar 7))); (EAt (ELoadP (EField (EVar 9) 3 0)) 1 (EBin OMul u64 (EBin OAdd u64 (EBin OAdd u64 (EVar 16) (EVar 17)) (EInt 2)) (EVar 7))); (EAt (ELoadP (EField (EVar 9) 3 0)) 1 (EBin OMul u64 (EBin OAdd u64 (EBin OAdd u64 (EVar 16) (EVar 17)) (EInt 3)) (EVar 7))); (EVar 7)] ;;
    SCall None f_H0_x4_update [(EVar 18); (EVar 2); (EVar 2); (EVar 2); (EVar 2); (EInt 16)] ;;
    SCall None f_H0_x4_final [(EVar 18); (EAt (ELoadP (EField (EVar 5) 4 3)) 1 (EBin OMul u32 (EVar 17) (EVar 7))); (EAt (ELoadP (EField (EVar 5) 4 3)) 1 (EBin OMul u32 (EBin OAdd u32 (EVar 17) (EInt 1)) (EVar 7))); (EAt (ELoadP (EField (EVar 5) 4 3)) 1 (EBin OMul u32 (EBin OAdd u32 (EVar 17) (EInt 2)) (EVar 7))); (EAt (ELoadP (EField (EVar 5) 4 3)) 1 (EBin OMul u32 (EBin OAdd u32 (EVar 17) (EInt 3)) (EVar 7))); (EVar 7); (EAt (ELoadP (EField (EVar 5) 4 2)) 1 (EBin OMul u32 (EBin OMul u32 (EVar 17) (EVar 7)) (EInt 2))); (EAt (ELoadP (EField (EVar 5) 4 2)) 1 (EBin OMul u32 (EBin OMul u32 (EBin OAdd u32 (EVar 17) (EInt 1)) (EVar 7)) (EInt 2))); (EAt (ELoadP (EField (EVar 5) 4 2)) 1 (EBin OMul u32 (EBin OMul u32 (EBin OAdd u32 (EVar 17) (EInt 2)) (EVar 7)) (EInt 2))); (EAt (ELoadP (EField (EVar 5) 4 2)) 1 (EBin OMul u32 (EBin OMul u32 (EBin OAdd u32 (EVar 17) (EInt 3)) (EVar 7)) (EInt 2))); (EBin OMul u32 (EVar 7) (EInt 2))])) ;;
  (
  SLoop (EBin OLt s32 (EVar 17) (EVar 8))
    (
    SSet 17 (EBin OAdd u32 (EVar 17) (EInt 1)))
    (
    SAlloc 26 (EInt 3) ;;
    SAlloc 27 (EInt 4) ;;
    SAlloc 28 (EInt 200) ;;
    SStoreF (EVar 27) 4 0 (EVar 28) ;;
    SAlloc 29 (EInt 4) ;;
    SStoreF (EVar 27) 4 1 (EVar 29) ;;
    SAlloc 30 (EInt 4) ;;
    SStoreF (EVar 27) 4 2 (EVar 30) ;;
    SAlloc 31 (EInt 4) ;;
    SStoreF (EVar 27) 4 3 (EVar 31) ;;
    SStoreF (EVar 26) 3 0 (EVar 27) ;;
    SAlloc 32 (EInt 4) ;;
    SStoreF (EVar 26) 3 1 (EVar 32) ;;
    SAlloc 33 (EInt 1) ;;
    SStoreF (EVar 26) 3 2 (EVar 33) ;;
    SCall None f_H0_init [(EVar 26); (EVar 4)] ;;
    SCall None f_H0_update [(EVar 26); (EAt (ELoadP (EField (EVar 9) 3 0)) 1 (EBin OMul u64 (EBin OAdd u64 (EVar 16) (EVar 17)) (EVar 7))); (EVar 7)] ;;
    SCall None f_H0_update [(EVar 26); (EVar 2); (EInt 16)] ;;
    SCall None f_H0_final [(EVar 26); (EAt (ELoadP (EField (EVar 5) 4 3)) 1 (EBin OMul u32 (EVar 17) (EVar 7))); (EVar 7); (EAt (ELoadP (EField (EVar 5) 4 2)) 1 (EBin OMul u32 (EVar 17) (EBin OMul u32 (EVar 7) (EInt 2)))); (EBin OMul u32 (EVar 7) (EInt 2))]) ;;
  SStoreP (EField (EVar 9) 3 0) ENull ;;
  SAlloc 34 (EInt 3) ;;
  SAlloc 35 (EInt 4) ;;
  SAlloc 36 (EInt 200) ;;
  SStoreF (EVar 35) 4 0 (EVar 36) ;;
  SAlloc 37 (EInt 4) ;;
  SStoreF (EVar 35) 4 1 (EVar 37) ;;
  SAlloc 38 (EInt 4) ;;
  SStoreF (EVar 35) 4 2 (EVar 38) ;;
  SAlloc 39 (EInt 4) ;;
  SStoreF (EVar 35) 4 3 (EVar 39) ;;
  SStoreF (EVar 34) 3 0 (EVar 35) ;;
  SAlloc 40 (EInt 4) ;;
  SStoreF (EVar 34) 3 1 (EVar 40) ;;
  SAlloc 41 (EInt 1) ;;
  SStoreF (EVar 34) 3 2 (EVar 41) ;;
  SCall None f_H1_init [(EVar 34); (EVar 4)] ;;
  SSet 42 (EInt 0) ;;
  SLoop (EBin OLt s32 (EVar 42) (EVar 8))
    (
    SSet 42 (EBin OAdd u32 (EVar 42) (EInt 1)))
    (
    SCall None f_H1_update [(EVar 34); (EAt (ELoadP (EField (EVar 5) 4 2)) 1 (EBin OMul u32 (EVar 42) (EBin OMul u32 (EVar 7) (EInt 2)))); (EBin OMul u32 (EVar 7) (EInt 2))]) ;;
  SCall None f_H1_final [(EVar 34); (ELoadP (EField (EVar 5) 4 0)); (EBin OMul u32 (EVar 7) (EInt 2))])).

(** vc.c:166-181, vector_open.
    Variables: 1 = k, 2 = com, 3 = b, 4 = cop, 5 = com_j, 6 = depth, 7 = lambdaBytes, 9 = leafIndex, 10 = a, 11 = i. *)
Definition c_vector_open : func := Func [1%positive; 2%positive; 3%positive; 4%positive; 5%positive; 6%positive; 7%positive] (
  SCall (Some 8%positive) f_NumRec [(EVar 6); (EVar 3)] ;;
  SSet 9 (EVar 8) ;;
  SSet 10 (EInt 0) ;;
  SSet 11 (EInt 0) ;;
  SLoop (EBin OLt s32 (EVar 11) (EVar 6))
    (
    SSet 11 (EBin OAdd u32 (EVar 11) (EInt 1)))
    (
    SCall (Some 12%positive) f_getNodeIndex [(EBin OAdd u32 (EVar 11) (EInt 1)); (EBin OAdd u32 (EBin OMul u32 (EInt 2) (EVar 10)) (EUn OCast u32 (EUn OLNot s32 (ELoad 1 (EAt (EVar 3) 1 (EBin OSub u32 (EBin OSub u32 (EVar 6) (EInt 1)) (EVar 11)))))))] ;;
    SCopy (EAt (EVar 4) 1 (EBin OMul u32 (EVar 7) (EVar 11))) (EAt (EVar 1) 1 (EBin OMul u64 (EVar 7) (EVar 12))) (EVar 7) ;;
    SSet 10 (EBin OAdd u32 (EBin OMul u32 (EInt 2) (EVar 10)) (ELoad 1 (EAt (EVar 3) 1 (EBin OSub u32 (EBin OSub u32 (EVar 6) (EInt 1)) (EVar 11)))))) ;;
  SCopy (EVar 5) (EAt (EVar 2) 1 (EBin OMul u64 (EBin OMul u64 (EVar 9) (EVar 7)) (EInt 2))) (EBin OMul u32 (EVar 7) (EInt 2))).

(** vc.c:183-284, vector_reconstruction.
    Variables: 1 = iv, 2 = cop, 3 = com_j, 4 = b, 5 = lambda, 6 = depth, 7 = vecComRec, 8 = lambdaBytes, 9 = numVoleInstances, 11 = leafIndex, 12 = a, 13 = i, 16 = current_depth, 17 = j, 18 = out, 22 = j, 23 = h0_ctx, 24 = sponge, 25 = state, 26 = rate, 27 = byteIOIndex, 28 = squeezing, 29 = fixedOutputLength, 30 = delimitedSuffix, 35 = h0_ctx, 36 = sponge, 37 = state, 38 = rate, 39 = byteIOIndex, 40 = squeezing, 41 = fixedOutputLength, 42 = delimitedSuffix, 44 = h0_ctx, 45 = sponge, 46 = state, 47 = rate, 48 = byteIOIndex, 49 = squeezing, 50 = fixedOutputLength, 51 = delimitedSuffix, 53 = h0_ctx, 54 = sponge, 55 = state, 56 = rate, 57 = byteIOIndex, 58 = squeezing, 59 = fixedOutputLength, 60 = delimitedSuffix, 65 = h0_ctx, 66 = sponge, 67 = state, 68 = rate, 69 = byteIOIndex, 70 = squeezing, 71 = fixedOutputLength, 72 = delimitedSuffix, 74 = h1_ctx, 75 = sponge, 76 = state, 77 = rate, 78 = byteIOIndex, 79 = squeezing, 80 = fixedOutputLength, 81 = delimitedSuffix. *)
Definition c_vector_reconstruction : func := Func [1%positive; 2%positive; 3%positive; 4%positive; 5%positive; 6%positive; 7%positive] (
  SSet 8 (EDiv ODiv u32 (EVar 5) (EInt 8)) ;;
  SSet 9 (EUn OCast u32 (EBin OShl s32 (EInt 1) (EVar 6))) ;;
  SCall (Some 10%positive) f_NumRec [(EVar 6); (EVar 4)] ;;
  SSet 11 (EVar 10) ;;
  SSet 12 (EInt 0) ;;
  SSet 13 (EInt 1) ;;
  SLoop (EBin OLe s32 (EVar 13) (EVar 6))
    (
    SSet 13 (EBin OAdd u32 (EVar 13) (EInt 1)))
    (
    SCall (Some 14%positive) f_getNodeIndex [(EVar 13); (EBin OAdd u32 (EBin OMul u32 (EInt 2) (EVar 12)) (EUn OCast u32 (EUn OLNot s32 (ELoad 1 (EAt (EVar 4) 1 (EBin OSub u32 (EVar 6) (EVar 13)))))))] ;;
    SCopy (EAt (ELoadP (EField (EVar 7) 4 1)) 1 (EBin OMul u64 (EVar 8) (EVar 14))) (EAt (EVar 2) 1 (EBin OMul u32 (EVar 8) (EBin OSub u32 (EVar 13) (EInt 1)))) (EVar 8) ;;
    SCall (Some 15%positive) f_getNodeIndex [(EVar 13); (EBin OAdd u32 (EBin OMul u32 (EInt 2) (EVar 12)) (ELoad 1 (EAt (EVar 4) 1 (EBin OSub u32 (EVar 6) (EVar 13)))))] ;;
    SFill (EAt (ELoadP (EField (EVar 7) 4 1)) 1 (EBin OMul u64 (EVar 8) (EVar 15))) (EInt 0) (EVar 8) ;;
    SSet 16 (EUn OCast u32 (EBin OShl s32 (EInt 1) (EBin OSub u32 (EVar 13) (EInt 1)))) ;;
    SSet 17 (EInt 0) ;;
    SLoop (EBin OLt s32 (EVar 17) (EVar 16))
      (
      SSet 17 (EBin OAdd u32 (EVar 17) (EInt 1)))
      (
      SIf (EBin OEq s32 (EVar 17) (EVar 12))
        (
        SContinue)
        SSkip ;;
      SAlloc 18 (EInt 64) ;;
      SCall (Some 19%positive) f_getNodeIndex [(EBin OSub u32 (EVar 13) (EInt 1)); (EVar 17)] ;;
      SCall None f_prg [(EAt (ELoadP (EField (EVar 7) 4 1)) 1 (EBin OMul u64 (EVar 8) (EVar 19))); (EVar 1); (EVar 18); (EVar 5); (EBin OMul u32 (EVar 8) (EInt 2))] ;;
      SCall (Some 20%positive) f_getNodeIndex [(EVar 13); (EBin OMul u32 (EInt 2) (EVar 17))] ;;
      SCopy (EAt (ELoadP (EField (EVar 7) 4 1)) 1 (EBin OMul u64 (EVar 8) (EVar 20))) (EVar 18) (EVar 8) ;;
      SCall (Some 21%positive) f_getNodeIndex [(EVar 13); (EBin OAdd u32 (EBin OMul u32 (EInt 2) (EVar 17)) (EInt 1))] ;;
      SCopy (EAt (ELoadP (EField (EVar 7) 4 1)) 1 (EBin OMul u64 (EVar 8) (EVar 21))) (EAt (EVar 18) 1 (EVar 8)) (EVar 8)) ;;
    SSet 12 (EBin OAdd u32 (EBin OMul u32 (EVar 12) (EInt 2)) (ELoad 1 (EAt (EVar 4) 1 (EBin OSub u32 (EVar 6) (EVar 13)))))) ;;
  SSet 22 (EInt 0) ;;
  SLoop (EBin OLt s32 (EVar 22) (EBin OMul u64 (EDiv ODiv u64 (EVar 11) (EInt 4)) (EInt 4)))
    (
    SSet 22 (EBin OAdd u32 (EVar 22) (EInt 4)))
    (
    SAlloc 23 (EInt 3) ;;
    SAlloc 24 (EInt 4) ;;
    SAlloc 25 (EInt 800) ;;
    SStoreF (EVar 24) 4 0 (EVar 25) ;;
    SAlloc 26 (EInt 4) ;;
    SStoreF (EVar 24) 4 1 (EVar 26) ;;
    SAlloc 27 (EInt 4) ;;
    SStoreF (EVar 24) 4 2 (EVar 27) ;;
    SAlloc 28 (EInt 4) ;;
    SStoreF (EVar 24) 4 3 (EVar 28) ;;
    SStoreF (EVar 23) 3 0 (EVar 24) ;;
    SAlloc 29 (EInt 4) ;;
    SStoreF (EVar 23) 3 1 (EVar 29) ;;
    SAlloc 30 (EInt 1) ;;
    SStoreF (EVar 23) 3 2 (EVar 30) ;;
    SCall None f_H0_x4_init [(EVar 23); (EVar 5)] ;;
    SCall (Some 31%positive) f_getNodeIndex [(EVar 6); (EVar 22)] ;;
    SCall (Some 32%positive) f_getNodeIndex [(EVar 6); (EBin OAdd u32 (EVar 22) (EInt 1))] ;;
    SCall (Some 33%positive) f_getNodeIndex [(EVar 6); (EBin OAdd u32 (EVar 22) (EInt 2))] ;;
    SCall (Some 34%positive) f_getNodeIndex [(EVar 6); (EBin OAdd u32 (EVar 22) (EInt 3))] ;;
    SCall None f_H0_x4_update [(EVar 23); (EAt (ELoadP (EField (EVar 7) 4 1)) 1 (EBin OMul u64 (EVar 31) (EVar 8))); (EAt (ELoadP (EField (EVar 7) 4 1)) 1 (EBin OMul u64 (EVar 32) (EVar 8))); (EAt (ELoadP (EField (EVar 7) 4 1)) 1 (EBin OMul u64 (EVar 33) (EVar 8))); (EAt (ELoadP (EField (EVar 7) 4 1)) 1 (EBin OMul u64 (EVar 34) (EVar 8))); (EVar 8)] ;;
    SCall None f_H0_x4_update [(EVar 23); (EVar 1); (EVar 1); (EVar 1); (EVar 1); (EInt 16)] ;;
    SCall None f_H0_x4_final [(EVar 23); (EAt (ELoadP (EField (EVar 7) 4 3)) 1 (EBin OMul u32 (EVar 22) (EVar 8))); (EAt (ELoadP (EField (EVar 7) 4 3)) 1 (EBin OMul u32 (EBin OAdd u32 (EVar 22) (EInt 1)) (EVar 8))); (EAt (ELoadP (EField (EVar 7) 4 3)) 1 (EBin OMul u32 (EBin OAdd u32 (EVar 22) (EInt 2)) (EVar 8))); (EAt (ELoadP (EField (EVar 7) 4 3)) 1 (EBin OMul u32 (EBin OAdd u32 (EVar 22) (EInt 3)) (EVar 8))); (EVar 8); (EAt (ELoadP (EField (EVar 7) 4 2)) 1 (EBin OMul u32 (EBin OMul u32 (EVar 22) (EVar 8)) (EInt 2))); (EAt (ELoadP (EField (EVar 7) 4 2)) 1 (EBin OMul u32 (EBin OMul u32 (EBin OAdd u32 (EVar 22) (EInt 1)) (EVar 8)) (EInt 2))); (EAt (ELoadP (EField (EVar 7) 4 2)) 1 (EBin OMul u32 (EBin OMul u32 (EBin OAdd u32 (EVar 22) (EInt 2)) (EVar 8)) (EInt 2))); (EAt (ELoadP (EField (EVar 7) 4 2)) 1 (EBin OMul u32 (EBin OMul u32 (EBin OAdd u32 (EVar 22) (EInt 3)) (EVar 8)) (EInt 2))); (EBin OMul u32 (EVar 8) (EInt 2))]) ;;
  SLoop (EBin OLt s32 (EVar 22) (EVar 11))
    (
    SSet 22 (EBin OAdd u32 (EVar 22) (EInt 1)))
    (
    SAlloc 35 (EInt 3) ;;
    SAlloc 36 (EInt 4) ;;
    SAlloc 37 (EInt 200) ;;
    SStoreF (EVar 36) 4 0 (EVar 37) ;;
    SAlloc 38 (EInt 4) ;;
    SStoreF (EVar 36) 4 1 (EVar 38) ;;
    SAlloc 39 (EInt 4) ;;
    SStoreF (EVar 36) 4 2 (EVar 39) ;;
    SAlloc 40 (EInt 4) ;;
    SStoreF (EVar 36) 4 3 (EVar 40) ;;
    SStoreF (EVar 35) 3 0 (EVar 36) ;;
    SAlloc 41 (EInt 4) ;;
    SStoreF (EVar 35) 3 1 (EVar 41) ;;
    SAlloc 42 (EInt 1) ;;
    SStoreF (EVar 35) 3 2 (EVar 42) ;;
    SCall None f_H0_init [(EVar 35); (EVar 5)] ;;
    SCall (Some 43%positive) f_getNodeIndex [(EVar 6); (EVar 22)] ;;
    SCall None f_H0_update [(EVar 35); (EAt (ELoadP (EField (EVar 7) 4 1)) 1 (EBin OMul u64 (EVar 43) (EVar 8))); (EVar 8)] ;;
    SCall None f_H0_update [(EVar 35); (EVar 1); (EInt 16)] ;;
    SCall None f_H0_final [(EVar 35); (EAt (ELoadP (EField (EVar 7) 4 3)) 1 (EBin OMul u32 (EVar 22) (EVar 8))); (EVar 8); (EAt (ELoadP (EField (EVar 7) 4 2)) 1 (EBin OMul u32 (EBin OMul u32 (EVar 22) (EVar 8)) (EInt 2))); (EBin OMul u32 (EVar 8) (EInt 2))]) ;;
  SSet 22 (EBin OAdd u32 (EVar 22) (EInt 1)) ;;
  SLoop (ECond (EBin OLt s32 (EVar 22) (EVar 9)) (EBin ONe s32 (EDiv OMod u32 (EVar 22) (EInt 4)) (EInt 0)) (EInt 0))
    (
    SSet 22 (EBin OAdd u32 (EVar 22) (EInt 1)))
    (
    SAlloc 44 (EInt 3) ;;
    SAlloc 45 (EInt 4) ;;
    SAlloc 46 (EInt 200) ;;
    SStoreF (EVar 45) 4 0 (EVar 46) ;;
    SAlloc 47 (EInt 4) ;;
    SStoreF (EVar 45) 4 1 (EVar 47) ;;
    SAlloc 48 (EInt 4) ;;
    SStoreF (EVar 45) 4 2 (EVar 48) ;;
    SAlloc 49 (EInt 4) ;;
    SStoreF (EVar 45) 4 3 (EVar 49) ;;
    SStoreF (EVar 44) 3 0 (EVar 45) ;;
    SAlloc 50 (EInt 4) ;;
    SStoreF (EVar 44) 3 1 (EVar 50) ;;
    SAlloc 51 (EInt 1) ;;
    SStoreF (EVar 44) 3 2 (EVar 51) ;;
    SCall None f_H0_init [(EVar 44); (EVar 5)] ;;
    SCall (Some 52%positive) f_getNodeIndex [(EVar 6); (EVar 22)] ;;
    SCall None f_H0_update [(EVar 44); (EAt (ELoadP (EField (EVar 7) 4 1)) 1 (EBin OMul u64 (EVar 52) (EVar 8))); (EVar 8)] ;;
    SCall None f_H0_update [(EVar 44); (EVar 1); (EInt 16)] ;;
    SCall None f_H0_final [(EVar 44); (EAt (ELoadP (EField (EVar 7) 4 3)) 1 (EBin OMul u32 (EVar 22) (EVar 8))); (EVar 8); (EAt (ELoadP (EField (EVar 7) 4 2)) 1 (EBin OMul u32 (EBin OMul u32 (EVar 22) (EVar 8)) (EInt 2))); (EBin OMul u32 (EVar 8) (EInt 2))]) ;;
  SLoop (EBin OLt s32 (EVar 22) (EBin OMul u32 (EDiv ODiv u32 (EVar 9) (EInt 4)) (EInt 4)))
    (
    SSet 22 (EBin OAdd u32 (EVar 22) (EInt 4)))
    (
    SAlloc 53 (EInt 3) ;;
    SAlloc 54 (EInt 4) ;;
    SAlloc 55 (EInt 800) ;;
    SStoreF (EVar 54) 4 0 (EVar 55) ;;
    SAlloc 56 (EInt 4) ;;
    SStoreF (EVar 54) 4 1 (EVar 56) ;;
    SAlloc 57 (EInt 4) ;;
    SStoreF (EVar 54) 4 2 (EVar 57) ;;
    SAlloc 58 (EInt 4) ;;
    SStoreF (EVar 54) 4 3 (EVar 58) ;;
    SStoreF (EVar 53) 3 0 (EVar 54) ;;
    SAlloc 59 (EInt 4) ;;
    SStoreF (EVar 53) 3 1 (EVar 59) ;;
    SAlloc 60 (EInt 1) ;;
    SStoreF (EVar 53) 3 2 (EVar 60) ;;
    SCall None f_H0_x4_init [(EVar 53); (EVar 5)] ;;
    SCall (Some 61%positive) f_getNodeIndex [(EVar 6); (EVar 22)] ;;
    SCall (Some 62%positive) f_getNodeIndex [(EVar 6); (EBin OAdd u32 (EVar 22) (EInt 1))] ;;
    SCall (Some 63%positive) f_getNodeIndex [(EVar 6); (EBin OAdd u32 (EVar 22) (EInt 2))] ;;
    SCall (Some 64%positive) f_getNodeIndex [(EVar 6); (EBin OAdd u32 (EVar 22) (EInt 3))] ;;
    SCall None f_H0_x4_update [(EVar 53); (EAt (ELoadP (EField (EVar 7) 4 1)) 1 (EBin OMul u64 (EVar 61) (EVar 8))); (EAt (ELoadP (EField (EVar 7) 4 1)) 1 (EBin OMul u64 (EVar 62) (EVar 8))); (EAt (ELoadP (EField (EVar 7) 4 1)) 1 (EBin OMul u64 (EVar 63) (EVar 8))); (EAt (ELoadP (EField (EVar 7) 4 1)) 1 (EBin OMul u64 (EVar 64) (EVar 8))); (EVar 8)] ;;
    SCall None f_H0_x4_update [(EVar 53); (EVar 1); (EVar 1); (EVar 1); (EVar 1); (EInt 16)] ;;
    SCall None f_H0_x4_final [(EVar 53); (EAt (ELoadP (EField (EVar 7) 4 3)) 1 (EBin OMul u32 (EVar 22) (EVar 8))); (EAt (ELoadP (EField (EVar 7) 4 3)) 1 (EBin OMul u32 (EBin OAdd u32 (EVar 22) (EInt 1)) (EVar 8))); (EAt (ELoadP (EField (EVar 7) 4 3)) 1 (EBin OMul u32 (EBin OAdd u32 (EVar 22) (EInt 2)) (EVar 8))); (EAt (ELoadP (EField (EVar 7) 4 3)) 1 (EBin OMul u32 (EBin OAdd u32 (EVar 22) (EInt 3)) (EVar 8))); (EVar 8); (EAt (ELoadP (EField (EVar 7) 4 2)) 1 (EBin OMul u32 (EBin OMul u32 (EVar 22) (EVar 8)) (EInt 2))); (EAt (ELoadP (EField (EVar 7) 4 2)) 1 (EBin OMul u32 (EBin OMul u32 (EBin OAdd u32 (EVar 22) (EInt 1)) (EVar 8)) (EInt 2))); (EAt (ELoadP (EField (EVar 7) 4 2)) 1 (EBin OMul u32 (EBin OMul u32 (EBin OAdd u32 (EVar 22) (EInt 2)) (EVar 8)) (EInt 2))); (EAt (ELoadP (EField (EVar 7) 4 2)) 1 (EBin OMul u32 (EBin OMul u32 (EBin OAdd u32 (EVar 22) (EInt 3)) (EVar 8)) (EInt 2))); (EBin OMul u32 (EVar 8) (EInt 2))]) ;;
  SLoop (EBin OLt s32 (EVar 22) (EVar 9))
    (
    SSet 22 (EBin OAdd u32 (EVar 22) (EInt 1)))
    (
    SAlloc 65 (EInt 3) ;;
    SAlloc 66 (EInt 4) ;;
    SAlloc 67 (EInt 200) ;;
    SStoreF (EVar 66) 4 0 (EVar 67) ;;
    SAlloc 68 (EInt 4) ;;
    SStoreF (EVar 66) 4 1 (EVar 68) ;;
    SAlloc 69 (EInt 4) ;;
    SStoreF (EVar 66) 4 2 (EVar 69) ;;
    SAlloc 70 (EInt 4) ;;
    SStoreF (EVar 66) 4 3 (EVar 70) ;;
    SStoreF (EVar 65) 3 0 (EVar 66) ;;
    SAlloc 71 (EInt 4) ;;
    SStoreF (EVar 65) 3 1 (EVar 71) ;;
    SAlloc 72 (EInt 1) ;;
    SStoreF (EVar 65) 3 2 (EVar 72) ;;
    SCall None f_H0_init [(EVar 65); (EVar 5)] ;;
    SCall (Some 73%positive) f_getNodeIndex [(EVar 6); (EVar 22)] ;;
    SCall None f_H0_update [(EVar 65); (EAt (ELoadP (EField (EVar 7) 4 1)) 1 (EBin OMul u64 (EVar 73) (EVar 8))); (EVar 8)] ;;
    SCall None f_H0_update [(EVar 65); (EVar 1); (EInt 16)] ;;
    SCall None f_H0_final [(EVar 65); (EAt (ELoadP (EField (EVar 7) 4 3)) 1 (EBin OMul u32 (EVar 22) (EVar 8))); (EVar 8); (EAt (ELoadP (EField (EVar 7) 4 2)) 1 (EBin OMul u32 (EBin OMul u32 (EVar 22) (EVar 8)) (EInt 2))); (EBin OMul u32 (EVar 8) (EInt 2))]) ;;
  SCopy (EAt (ELoadP (EField (EVar 7) 4 2)) 1 (EBin OMul u64 (EBin OMul u32 (EVar 8) (EInt 2)) (EVar 11))) (EVar 3) (EBin OMul u32 (EVar 8) (EInt 2)) ;;
  SAlloc 74 (EInt 3) ;;
  SAlloc 75 (EInt 4) ;;
  SAlloc 76 (EInt 200) ;;
  SStoreF (EVar 75) 4 0 (EVar 76) ;;
  SAlloc 77 (EInt 4) ;;
  SStoreF (EVar 75) 4 1 (EVar 77) ;;
  SAlloc 78 (EInt 4) ;;
  SStoreF (EVar 75) 4 2 (EVar 78) ;;
  SAlloc 79 (EInt 4) ;;
  SStoreF (EVar 75) 4 3 (EVar 79) ;;
  SStoreF (EVar 74) 3 0 (EVar 75) ;;
  SAlloc 80 (EInt 4) ;;
  SStoreF (EVar 74) 3 1 (EVar 80) ;;
  SAlloc 81 (EInt 1) ;;
  SStoreF (EVar 74) 3 2 (EVar 81) ;;
  SCall None f_H1_init [(EVar 74); (EVar 5)] ;;
  SCall None f_H1_update [(EVar 74); (ELoadP (EField (EVar 7) 4 2)); (EBin OMul u32 (EBin OMul u32 (EVar 8) (EInt 2)) (EVar 9))] ;;
  SCall None f_H1_final [(EVar 74); (ELoadP (EField (EVar 7) 4 0)); (EBin OMul u32 (EVar 8) (EInt 2))]).

(** vc.c:318-323, vec_com_clear.
    Variables: 1 = com. *)
Definition c_vec_com_clear : func := Func [1%positive] (
  SEval (ELoadP (EField (EVar 1) 4 3)) ;;
  SEval (ELoadP (EField (EVar 1) 4 2)) ;;
  SEval (ELoadP (EField (EVar 1) 4 1)) ;;
  SEval (ELoadP (EField (EVar 1) 4 0))).

(** vc.c:325-330, vec_com_rec_clear.
    Variables: 1 = rec. *)
Definition c_vec_com_rec_clear : func := Func [1%positive] (
  SEval (ELoadP (EField (EVar 1) 4 3)) ;;
  SEval (ELoadP (EField (EVar 1) 4 2)) ;;
  SEval (ELoadP (EField (EVar 1) 4 1)) ;;
  SEval (ELoadP (EField (EVar 1) 4 0))).

(** vole.c:18-56, ConvertToVole.
    Variables: 1 = iv, 2 = sd, 3 = sd0_bot, 4 = lambda, 5 = depth, 6 = outLenBytes, 7 = u, 8 = v, 9 = num_instances, 10 = lambda_bytes, 12 = r, 13 = i, 14 = j, 15 = depthloop, 16 = i. *)
Definition c_ConvertToVole : func := Func [1%positive; 2%positive; 3%positive; 4%positive; 5%positive; 6%positive; 7%positive; 8%positive] (
  SSet 9 (EUn OCast u32 (EBin OShl s32 (EInt 1) (EVar 5))) ;;
  SSet 10 (EDiv ODiv u32 (EVar 4) (EInt 8)) ;;
  SAlloc 11 (EBin OMul u64 (EBin OMul u32 (EInt 2) (EVar 9)) (EVar 6)) ;;
  SSet 12 (EVar 11) ;;
  SIf (EUn OLNot s32 (EVar 3))
    (
    SCall None f_prg [(EVar 2); (EVar 1); (EAt (EVar 12) 1 (EBin OMul u32 (EBin OAdd u32 (EBin OMul u32 (EInt 0) (EVar 9)) (EInt 0)) (EVar 6))); (EVar 4); (EVar 6)])
    SSkip ;;
  SSet 13 (EInt 1) ;;
  SLoop (EBin OLt s32 (EVar 13) (EVar 9))
    (
    SSet 13 (EBin OAdd u32 (EVar 13) (EInt 1)))
    (
    SCall None f_prg [(EAt (EVar 2) 1 (EBin OMul u32 (EVar 10) (EVar 13))); (EVar 1); (EAt (EVar 12) 1 (EBin OMul u32 (EBin OAdd u32 (EBin OMul u32 (EInt 0) (EVar 9)) (EVar 13)) (EVar 6))); (EVar 4); (EVar 6)]) ;;
  SFill (EVar 8) (EInt 0) (EBin OMul u32 (EVar 5) (EVar 6)) ;;
  SSet 14 (EInt 0) ;;
  SLoop (EBin OLt s32 (EVar 14) (EVar 5))
    (
    SSet 14 (EBin OAdd u32 (EVar 14) (EInt 1)))
    (
    SSet 15 (EBin OShr u32 (EVar 9) (EBin OAdd u32 (EVar 14) (EInt 1))) ;;
    SSet 16 (EInt 0) ;;
    SLoop (EBin OLt s32 (EVar 16) (EVar 15))
      (
      SSet 16 (EBin OAdd u32 (EVar 16) (EInt 1)))
      (
      SCall None f_xor_u8_array [(EAt (EVar 8) 1 (EBin OMul u32 (EVar 14) (EVar 6))); (EAt (EVar 12) 1 (EBin OMul u32 (EBin OAdd u32 (EBin OMul u32 (EDiv OMod u32 (EVar 14) (EInt 2)) (EVar 9)) (EBin OAdd u32 (EBin OMul u32 (EInt 2) (EVar 16)) (EInt 1))) (EVar 6))); (EAt (EVar 8) 1 (EBin OMul u32 (EVar 14) (EVar 6))); (EVar 6)] ;;
      SCall None f_xor_u8_array [(EAt (EVar 12) 1 (EBin OMul u32 (EBin OAdd u32 (EBin OMul u32 (EDiv OMod u32 (EVar 14) (EInt 2)) (EVar 9)) (EBin OMul u32 (EInt 2) (EVar 16))) (EVar 6))); (EAt (EVar 12) 1 (EBin OMul u32 (EBin OAdd u32 (EBin OMul u32 (EDiv OMod u32 (EVar 14) (EInt 2)) (EVar 9)) (EBin OAdd u32 (EBin OMul u32 (EInt 2) (EVar 16)) (EInt 1))) (EVar 6))); (EAt (EVar 12) 1 (EBin OMul u32 (EBin OAdd u32 (EBin OMul u32 (EDiv OMod u32 (EBin OAdd u32 (EVar 14) (EInt 1)) (EInt 2)) (EVar 9)) (EVar 16)) (EVar 6))); (EVar 6)])) ;;
  SIf (ECond (EUn OLNot s32 (EVar 3)) (EBin ONe s32 (EBin OEq s32 (EIsNull (EVar 7)) (EInt 0)) (EInt 0)) (EInt 0))
    (
    SCopy (EVar 7) (EAt (EVar 12) 1 (EBin OMul u32 (EBin OAdd u32 (EBin OMul u32 (EDiv OMod u32 (EVar 5) (EInt 2)) (EVar 9)) (EInt 0)) (EVar 6))) (EVar 6))
    SSkip ;;
  SEval (EVar 12)).

(** vole.c:58-81, ChalDec.
    Variables: 1 = chal, 2 = i, 3 = k0, 4 = t0, 5 = k1, 6 = t1, 7 = chalout, 8 = lo, 9 = hi, 10 = t, 11 = j. *)
Definition c_ChalDec : func := Func [1%positive; 2%positive; 3%positive; 4%positive; 5%positive; 6%positive; 7%positive] (
  SIf (EBin OGe s32 (EVar 2) (EBin OAdd u32 (EVar 4) (EVar 6)))
    (
    SReturn (EInt 0))
    SSkip ;;
  SIf (EBin OLt s32 (EVar 2) (EVar 4))
    (
    SSet 8 (EBin OMul u32 (EVar 2) (EVar 3)) ;;
    SSet 9 (EBin OMul u32 (EBin OAdd u32 (EVar 2) (EInt 1)) (EVar 3)))
    (
    SSet 10 (EBin OSub u32 (EVar 2) (EVar 4)) ;;
    SSet 8 (EBin OAdd u32 (EBin OMul u32 (EVar 4) (EVar 3)) (EBin OMul u32 (EVar 10) (EVar 5))) ;;
    SSet 9 (EBin OAdd u32 (EBin OMul u32 (EVar 4) (EVar 3)) (EBin OMul u32 (EBin OAdd u32 (EVar 10) (EInt 1)) (EVar 5)))) ;;
  SIf (ECond (EBin OEq s32 (EBin OSub u32 (EVar 9) (EVar 8)) (EVar 3)) (EInt 1) (EBin ONe s32 (EBin OEq s32 (EBin OSub u32 (EVar 9) (EVar 8)) (EVar 5)) (EInt 0)))
    SSkip
    (
    SFail) ;;
  SSet 11 (EVar 8) ;;
  SLoop (EBin OLt s32 (EVar 11) (EVar 9))
    (
    SSet 11 (EBin OAdd u32 (EVar 11) (EInt 1)))
    (
    SStore 1 (EAt (EVar 7) 1 (EBin OSub u32 (EVar 11) (EVar 8))) (EUn OCast u8 (EBin OAnd s32 (EBin OShr s32 (ELoad 1 (EAt (EVar 1) 1 (EDiv ODiv u32 (EVar 11) (EInt 8)))) (EDiv OMod u32 (EVar 11) (EInt 8))) (EInt 1)))) ;;
  SReturn (EInt 1)).

(** vole.c:83-130, vole_commit.
    Variables: 1 = rootKey, 2 = iv, 3 = ellhat, 4 = params, 5 = hcom, 6 = vecCom, 7 = c, 8 = u, 9 = v, 10 = lambda, 11 = lambda_bytes, 12 = ellhat_bytes, 13 = tau, 14 = tau0, 15 = k0, 16 = k1, 18 = ui, 20 = expanded_keys, 21 = h1_ctx, 22 = sponge, 23 = state, 24 = rate, 25 = byteIOIndex, 26 = squeezing, 27 = fixedOutputLength, 28 = delimitedSuffix, 29 = v_idx, 30 = i, 31 = depth, 32 = i. *)
Definition c_vole_commit : func := Func [1%positive; 2%positive; 3%positive; 4%positive; 5%positive; 6%positive; 7%positive; 8%positive; 9%positive] (
  SSet 10 (ELoad 2 (EVar 4)) ;;
  SSet 11 (EDiv ODiv u32 (EVar 10) (EInt 8)) ;;
  SSet 12 (EDiv ODiv u32 (EBin OAdd u32 (EVar 3) (EInt 7)) (EInt 8)) ;;
  SSet 13 (ELoad 2 (EAt (EVar 4) 1 (EInt 16))) ;;
  SSet 14 (ELoad 2 (EAt (EVar 4) 1 (EInt 22))) ;;
  SSet 15 (ELoad 2 (EAt (EVar 4) 1 (EInt 18))) ;;
  SSet 16 (ELoad 2 (EAt (EVar 4) 1 (EInt 20))) ;;
  SAlloc 17 (EBin OMul u32 (EVar 13) (EVar 12)) ;;
  SSet 18 (EVar 17) ;;
  SAlloc 19 (EBin OMul u32 (EVar 13) (EVar 11)) ;;
  SSet 20 (EVar 19) ;;
  SCall None f_prg [(EVar 1); (EVar 2); (EVar 20); (EVar 10); (EBin OMul u32 (EVar 11) (EVar 13))] ;;
  SAlloc 21 (EInt 3) ;;
  SAlloc 22 (EInt 4) ;;
  SAlloc 23 (EInt 200) ;;
  SStoreF (EVar 22) 4 0 (EVar 23) ;;
  SAlloc 24 (EInt 4) ;;
  SStoreF (EVar 22) 4 1 (EVar 24) ;;
  SAlloc 25 (EInt 4) ;;
  SStoreF (EVar 22) 4 2 (EVar 25) ;;
  SAlloc 26 (EInt 4) ;;
  SStoreF (EVar 22) 4 3 (EVar 26) ;;
  SStoreF (EVar 21) 3 0 (EVar 22) ;;
  SAlloc 27 (EInt 4) ;;
  SStoreF (EVar 21) 3 1 (EVar 27) ;;
  SAlloc 28 (EInt 1) ;;
  SStoreF (EVar 21) 3 2 (EVar 28) ;;
  SCall None f_H1_init [(EVar 21); (EVar 10)] ;;
  SSet 29 (EInt 0) ;;
  SSet 30 (EInt 0) ;;
  SLoop (EBin OLt s32 (EVar 30) (EVar 13))
    (
    SSet 30 (EBin OAdd u32 (EVar 30) (EInt 1)))
    (
    SSet 31 (ECond (EBin OLt s32 (EVar 30) (EVar 14)) (EVar 15) (EVar 16)) ;;
    SCall None f_vector_commitment [(EAt (EVar 20) 1 (EBin OMul u32 (EVar 30) (EVar 11))); (EVar 2); (EVar 4); (EVar 10); (EAt (EVar 6) 1 (EVar 30)); (EVar 31)] ;;
    SCall None f_ConvertToVole [(EVar 2); (ELoadP (EField (EAt (EVar 6) 1 (EVar 30)) 4 3)); (EInt 0); (EVar 10); (EVar 31); (EVar 12); (EAt (EVar 18) 1 (EBin OMul u32 (EVar 30) (EVar 12))); (ELoadP (EAt (EVar 9) 1 (EVar 29)))] ;;
    SSet 29 (EBin OAdd u32 (EVar 29) (EVar 31)) ;;
    SCall None f_H1_update [(EVar 21); (ELoadP (EField (EAt (EVar 6) 1 (EVar 30)) 4 0)); (EBin OMul u32 (EVar 11) (EInt 2))]) ;;
  SEval (EVar 20) ;;
  SCopy (EVar 8) (EVar 18) (EVar 12) ;;
  SSet 32 (EInt 1) ;;
  SLoop (EBin OLt s32 (EVar 32) (EVar 13))
    (
    SSet 32 (EBin OAdd u32 (EVar 32) (EInt 1)))
    (
    SCall None f_xor_u8_array [(EVar 8); (EAt (EVar 18) 1 (EBin OMul u32 (EVar 32) (EVar 12))); (EAt (EVar 7) 1 (EBin OMul u32 (EBin OSub u32 (EVar 32) (EInt 1)) (EVar 12))); (EVar 12)]) ;;
  SEval (EVar 18) ;;
  SCall None f_H1_final [(EVar 21); (EVar 5); (EBin OMul u32 (EVar 11) (EInt 2))]).

(** vole.c:132-190, vole_reconstruct.
    Variables: 1 = iv, 2 = chall, 3 = pdec, 4 = com_j, 5 = hcom, 6 = q, 7 = ellhat, 8 = params, 9 = lambda, 10 = lambda_bytes, 11 = ellhat_bytes, 12 = tau, 13 = tau0, 14 = tau1, 15 = k0, 16 = k1, 18 = sd, 19 = h1_ctx, 20 = sponge, 21 = state, 22 = rate, 23 = byteIOIndex, 24 = squeezing, 25 = fixedOutputLength, 26 = delimitedSuffix, 27 = vecComRec, 28 = h, 29 = k, 30 = com, 31 = s, 37 = q_idx, 38 = i, 39 = depth, 40 = N, 41 = chalout, 44 = idx, 45 = j. *)
Definition c_vole_reconstruct : func := Func [1%positive; 2%positive; 3%positive; 4%positive; 5%positive; 6%positive; 7%positive; 8%positive] (
  (
  SSet 9 (ELoad 2 (EVar 8)) ;;
  SSet 10 (EDiv ODiv u32 (EVar 9) (EInt 8)) ;;
  SSet 11 (EDiv ODiv u32 (EBin OAdd u32 (EVar 7) (EInt 7)) (EInt 8)) ;;
  SSet 12 (ELoad 2 (EAt (EVar 8) 1 (EInt 16))) ;;
  SSet 13 (ELoad 2 (EAt (EVar 8) 1 (EInt 22))) ;;
  SSet 14 (ELoad 2 (EAt (EVar 8) 1 (EInt 24))) ;;
  SSet 15 (ELoad 2 (EAt (EVar 8) 1 (EInt 18))) ;;
  SSet 16 (ELoad 2 (EAt (EVar 8) 1 (EInt 20))) ;;
  SAlloc 17 (EBin OMul u32 (EUn OCast u32 (EBin OShl s32 (EInt 1) (ECond (EBin OGt s32 (EVar 15) (EVar 16)) (EVar 15) (EVar 16)))) (EVar 10)) ;;
  SSet 18 (EVar 17) ;;
  SFill (EVar 18) (EInt 0) (EVar 10) ;;
  SAlloc 19 (EInt 3) ;;
  SAlloc 20 (EInt 4) ;;
  SAlloc 21 (EInt 200) ;;
  SStoreF (EVar 20) 4 0 (EVar 21) ;;
  SAlloc 22 (EInt 4) ;;
  SStoreF (EVar 20) 4 1 (EVar 22) ;;
  SAlloc 23 (EInt 4) ;;
  SStoreF (EVar 20) 4 2 (EVar 23) ;;
  SAlloc 24 (EInt 4) ;;
  SStoreF (EVar 20) 4 3 (EVar 24) ;;
  SStoreF (EVar 19) 3 0 (EVar 20) ;;
  SAlloc 25 (EInt 4) ;;
  SStoreF (EVar 19) 3 1 (EVar 25) ;;
  SAlloc 26 (EInt 1)) ;;
  (
  SStoreF (EVar 19) 3 2 (EVar 26) ;;
  SCall None f_H1_init [(EVar 19); (EVar 9)] ;;
  SAlloc 27 (EInt 4) ;;
  SAlloc 28 (EInt 1) ;;
  SStoreF (EVar 27) 4 0 (EVar 28) ;;
  SAlloc 29 (EInt 1) ;;
  SStoreF (EVar 27) 4 1 (EVar 29) ;;
  SAlloc 30 (EInt 1) ;;
  SStoreF (EVar 27) 4 2 (EVar 30) ;;
  SAlloc 31 (EInt 1) ;;
  SStoreF (EVar 27) 4 3 (EVar 31) ;;
  SAlloc 32 (EBin OMul u32 (EVar 10) (EInt 2)) ;;
  SStoreP (EField (EVar 27) 4 0) (EVar 32) ;;
  SCall (Some 33%positive) f_getBinaryTreeNodeCount [(ECond (EBin OGt s32 (EVar 15) (EVar 16)) (EVar 15) (EVar 16))] ;;
  SAlloc 34 (EBin OMul u64 (EVar 33) (EVar 10)) ;;
  SStoreP (EField (EVar 27) 4 1) (EVar 34) ;;
  SAlloc 35 (EBin OMul u32 (EBin OMul u32 (EUn OCast u32 (EBin OShl s32 (EInt 1) (ECond (EBin OGt s32 (EVar 15) (EVar 16)) (EVar 15) (EVar 16)))) (EVar 10)) (EInt 2)) ;;
  SStoreP (EField (EVar 27) 4 2) (EVar 35) ;;
  SAlloc 36 (EBin OMul u32 (EUn OCast u32 (EBin OShl s32 (EInt 1) (ECond (EBin OGt s32 (EVar 15) (EVar 16)) (EVar 15) (EVar 16)))) (EVar 10)) ;;
  SStoreP (EField (EVar 27) 4 3) (EVar 36) ;;
  SSet 37 (EInt 0) ;;
  SSet 38 (EInt 0) ;;
  SLoop (EBin OLt s32 (EVar 38) (EVar 12))
    (
    SSet 38 (EBin OAdd u32 (EVar 38) (EInt 1)))
    (
    SSet 39 (ECond (EBin OLt s32 (EVar 38) (EVar 13)) (EVar 15) (EVar 16)) ;;
    SSet 40 (EUn OCast u32 (EBin OShl s32 (EInt 1) (EVar 39))) ;;
    SAlloc 41 (EInt 12) ;;
    SCall None f_ChalDec [(EVar 2); (EVar 38); (EVar 15); (EVar 13); (EVar 16); (EVar 14); (EVar 41)] ;;
    SCall (Some 43%positive) f_NumRec [(EVar 39); (EVar 41)] ;;
    SSet 44 (EVar 43) ;;
    SCall None f_vector_reconstruction [(EVar 1); (ELoadP (EAt (EVar 3) 1 (EVar 38))); (ELoadP (EAt (EVar 4) 1 (EVar 38))); (EVar 41); (EVar 9); (EVar 39); (EVar 27)] ;;
    SSet 45 (EInt 1) ;;
    SLoop (EBin OLt s32 (EVar 45) (EVar 40))
      (
      SSet 45 (EBin OAdd u32 (EVar 45) (EInt 1)))
      (
      SCopy (EAt (EVar 18) 1 (EBin OMul u32 (EVar 45) (EVar 10))) (EAt (ELoadP (EField (EVar 27) 4 3)) 1 (EBin OMul u32 (EVar 10) (EBin OXor u32 (EVar 45) (EVar 44)))) (EVar 10)) ;;
    SCall None f_ConvertToVole [(EVar 1); (EVar 18); (EInt 1); (EVar 9); (EVar 39); (EVar 11); ENull; (ELoadP (EAt (EVar 6) 1 (EVar 37)))] ;;
    SSet 37 (EBin OAdd u32 (EVar 37) (EVar 39)) ;;
    SCall None f_H1_update [(EVar 19); (ELoadP (EField (EVar 27) 4 0)); (EBin OMul u32 (EVar 10) (EInt 2))]) ;;
  SCall None f_vec_com_rec_clear [(EVar 27)] ;;
  SEval (EVar 18) ;;
  SCall None f_H1_final [(EVar 19); (EVar 5); (EBin OMul u32 (EVar 10) (EInt 2))])).

