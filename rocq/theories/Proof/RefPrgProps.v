(** The translated counter-mode generator, in terms of what stands in memory. *)
From Coq Require Import ZArith NArith List Bool FMapPositive Lia.
From Verif Require Import Model.Base Proof.BaseProof Spec.AesSpec Spec.OwfSpec Proof.PrgProof.
From Verif Require Import Model.CtLang Model.CtNames Model.CtProgram Spec.RefSpec Proof.RefLogic Proof.RefMem Proof.RefOwf Proof.RefPrg Proof.RefProps.
Import ListNotations.
Local Open Scope Z_scope.

Theorem prg_returns lambda m kb ko key ib io iv ob oo n : In lambda [128; 192; 256]%N -> loaded m ->
  stands m kb ko key -> N.of_nat (length key) = (lambda / 8)%N -> Forall (fun b => (b < 256)%N) key ->
  stands m ib io iv -> length iv = 16%nat -> Forall (fun b => (b < 256)%N) iv ->
  room m ob oo n -> (n < 2 ^ 64)%N ->
  exists m' out, returns f_prg [VPtr kb ko; VPtr ib io; VPtr ob oo; VInt (Z.of_N lambda); VInt (Z.of_N n)] m (VInt 0) m' /\
    N.of_nat (length out) = n /\ (forall i, (i < n)%N -> nth (N.to_nat i) out 0%N = ctr_byte (aes_of lambda) key iv i) /\
    stands m' ob oo out /\ unchanged m m' (within ob oo n).
Proof.
  intros Hl LD S1 L1 B1 S2 L2 B2 R Hn. apply loaded_rconst in LD. apply holds_stands in S1, S2. apply room_inb in R.
  destruct (calls_returns _ _ _ _ (ref_prg lambda m kb ko key ib io iv ob oo (Z.of_N n) Hl S1 L1 B1 S2 ltac:(unfold lenN; lia) B2 R ltac:(lia) LD)) as (v & m' & Rt & -> & F & H).
  rewrite N2Z.id in H. exists m', (stream (aes_of lambda) key iv n). split; [exact Rt|]. split; [apply stream_len|]. split.
  - intros i Hi. apply (stream_nth lambda key iv n i Hi).
  - split; [apply holds_stands, H|]. eapply frame_unchanged; [exact F|]. intros b q K. exact K.
Qed.
Theorem increment_returns m b o iv : stands m b o iv -> length iv = 16%nat -> Forall (fun b => (b < 256)%N) iv ->
  exists v m', returns f_aes_increment_iv [VPtr b o] m v m' /\ stands m' b o (be_bytes 16 ((be_val iv + 1) mod 2 ^ 128)) /\ unchanged m m' (within b o 16).
Proof.
  intros S L B. apply holds_stands in S.
  destruct (calls_returns _ _ _ _ (ref_aes_increment_iv m b o iv S ltac:(unfold lenN; lia) B)) as (v & m' & Rt & F & H).
  exists v, m'. split; [exact Rt|]. split; [apply holds_stands, H|]. eapply frame_unchanged; [exact F|]. intros c q K. exact K.
Qed.
