(** What a caller of the state of the permutation sees: a history of operations on a fresh state, and the
    byte strings its extractions return, according to FIPS 202 (a string of 1600 bits, xor and KECCAK-f). *)
From Verif.Model Require Import Base Snp.
From Verif.Spec Require Import KeccakSpec.

Inductive state_op :=
  | OpAdd (offset : N) (data : list N)
  | OpAddByte (offset : N) (byte : N)
  | OpExtract (offset length : N)
  | OpPermute.

Definition xor_bits_at (S : list bool) (offset : N) (data : list N) : list bool :=
  xor_strings S (zero_bits (8 * offset) ++ bits_of_bytes data ++ zero_bits (1600 - 8 * offset - 8 * N.of_nat (length data))).
Fixpoint described (S : list bool) (h : list state_op) : list (list N) :=
  match h with
  | [] => []
  | OpAdd offset data :: h => described (xor_bits_at S offset data) h
  | OpAddByte offset byte :: h => described (xor_bits_at S offset [byte]) h
  | OpExtract offset length :: h => map (fun k => byte_of_bits S (offset + k)) (below length) :: described S h
  | OpPermute :: h => described (keccak_f S) h
  end.

(** the operations stay within the state, as those of the sponge do *)
Definition op_in_range (o : state_op) : Prop :=
  match o with
  | OpAdd offset data => offset + N.of_nat (length data) < 200 /\ Forall (fun b => b < 256) data
  | OpAddByte offset byte => offset < 200 /\ byte < 256
  | OpExtract offset length => offset + length < 200
  | OpPermute => True
  end.

(** the same history through the functions of an implementation *)
Fixpoint performed (I : snp) (s : snp_state I) (h : list state_op) : res (list (list N)) :=
  match h with
  | [] => Ok []
  | OpAdd offset data :: h => let! s := snp_add_bytes I s data offset in performed I s h
  | OpAddByte offset byte :: h => let! s := snp_add_byte I s byte offset in performed I s h
  | OpExtract offset length :: h =>
      let! o := snp_extract I s offset length in
      let! os := performed I s h in Ok (o :: os)
  | OpPermute :: h => let! s := snp_permute I s in performed I s h
  end.
