(** C56: the C text of the pseudorandom generator writes AES in counter mode, for every length, ends, and stays within its memory. *)
From Coq Require Import ZArith NArith List Bool FMapPositive.
From Verif Require Import Spec.OwfSpec.
From Verif Require Import Model.CtLang Model.CtNames Model.CtProgram Spec.CtSpec Spec.RefSpec Proof.RefProps Proof.RefPrgProps.
Import ListNotations.
Local Open Scope Z_scope.

(** [ctr_byte]: byte i of AES(key, iv + 0) AES(key, iv + 1) ..., the iv a big-endian counter modulo 2^128.
    The buffers may overlap. *)
Theorem C56_prg : forall lambda m kb ko key ib io iv ob oo n, In lambda [128; 192; 256]%N -> loaded m ->
  stands m kb ko key -> N.of_nat (length key) = (lambda / 8)%N -> Forall (fun b => (b < 256)%N) key ->
  stands m ib io iv -> length iv = 16%nat -> Forall (fun b => (b < 256)%N) iv ->
  room m ob oo n -> (n < 2 ^ 64)%N ->
  exists m' out, returns f_prg [VPtr kb ko; VPtr ib io; VPtr ob oo; VInt (Z.of_N lambda); VInt (Z.of_N n)] m (VInt 0) m' /\
    N.of_nat (length out) = n /\ (forall i, (i < n)%N -> nth (N.to_nat i) out 0%N = ctr_byte (aes_of lambda) key iv i) /\
    stands m' ob oo out /\ unchanged m m' (within ob oo n).
Proof. exact prg_returns. Qed.
Print Assumptions C56_prg.

(** The counter step on its own. *)
Theorem C56_increment : forall m b o iv, stands m b o iv -> length iv = 16%nat -> Forall (fun b => (b < 256)%N) iv ->
  exists v m', returns f_aes_increment_iv [VPtr b o] m v m' /\ stands m' b o (be_bytes 16 ((be_val iv + 1) mod 2 ^ 128)) /\ unchanged m m' (within b o 16).
Proof. exact increment_returns. Qed.
Print Assumptions C56_increment.

(** ** Cases *)
(** 37 bytes under AES-192, with a counter that wraps after the first block *)
Example C56_case : let m := memory [] [repeat 7 24; repeat 255 16; repeat 0 40] in
  exists m' out, returns f_prg [block 1; block 2; VPtr (last_global + 3) 2; VInt 192; VInt 37] m (VInt 0) m' /\ length out = 37%nat /\
    stands m' (last_global + 3) 2 out /\ nth 20 out 0%N = ctr_byte (aes_of 192) (repeat 7%N 24) (repeat 0%N 16) 4.
Proof.
  cbv zeta. set (m := memory _ _).
  assert (L : loaded m) by (apply loadedb_ok; vm_compute; reflexivity).
  assert (H1 : stands m (last_global + 1) 0 (repeat 7%N 24)) by (vm_compute; reflexivity).
  assert (H2 : stands m (last_global + 2) 0 (repeat 255%N 16)) by (vm_compute; reflexivity).
  assert (H3 : room m (last_global + 3) 2 37) by (vm_compute; discriminate).
  assert (B : forall x n, (x < 256)%N -> Forall (fun b => (b < 256)%N) (repeat x n)) by (intros x n Hx; apply Forall_forall; intros b I; apply repeat_spec in I; subst b; exact Hx).
  destruct (C56_prg 192 m (last_global + 1) 0 (repeat 7%N 24) (last_global + 2) 0 (repeat 255%N 16) (last_global + 3) 2 37) as (m' & out & R & Ln & O & S & _);
    [cbn; auto|exact L|exact H1|reflexivity|apply B; reflexivity|exact H2|reflexivity|apply B; reflexivity|exact H3|reflexivity|].
  exists m', out. split; [exact R|]. split; [apply (f_equal N.to_nat) in Ln; rewrite Nnat.Nat2N.id in Ln; exact Ln|]. split; [exact S|]. etransitivity; [exact (O 20%N eq_refl)|]. unfold ctr_byte.
  assert (E : be_bytes 16 ((be_val (repeat 255%N 16) + 20 / 16) mod 2 ^ 128) = be_bytes 16 ((be_val (repeat 0%N 16) + 4 / 16) mod 2 ^ 128)) by (vm_compute; reflexivity).
  rewrite E. reflexivity.
Qed.
