(** C51: the hash computes the same on 64-bit and 32-bit builds and on targets of both byte orders. *)
From Verif.Model Require Import Base Keccak Sponge Snp Keccak32 SpongeOn.
From Verif.Spec Require Import KeccakSpec StateSpec.
From Verif.Proof Require Import BaseProof StateProof.

(** any history of the state of either implementation returns what the standard describes *)
Theorem C51_state : forall I h, In I [opt64 LittleEndian; opt64 BigEndian; plain32 LittleEndian; plain32 BigEndian] ->
  Forall op_in_range h -> performed I (snp_init I) h = Ok (described (zero_bits 1600) h).
Proof. exact history_all. Qed.
Print Assumptions C51_state.

(** the XOF of each build is SHAKE *)
Theorem C51_shake : forall I sec pieces lens, In I [opt64 LittleEndian; opt64 BigEndian; plain32 LittleEndian; plain32 BigEndian] ->
  Forall (Forall (fun b => b < 256)) pieces -> Forall (fun m => lenN m + 200 <= 2 ^ 32) pieces -> Forall (fun n => n + 200 <= 2 ^ 32) lens ->
  exists outs, hash_run_on I sec pieces lens = Ok outs /\ map lenN outs = lens /\ concat outs = shake sec (concat pieces) (fold_right N.add 0 lens).
Proof. exact shake_all. Qed.
Print Assumptions C51_shake.

(** and so is each of the four lanes of the four-way XOF *)
Theorem C51_shake_x4 : forall I sec pieces lens, In I [opt64 LittleEndian; opt64 BigEndian; plain32 LittleEndian; plain32 BigEndian] ->
  Forall (fun m => length m = 4%nat /\ forall a b, In a m -> In b m -> lenN a = lenN b) pieces ->
  Forall (Forall (Forall (fun b => b < 256))) pieces -> Forall (Forall (fun m => lenN m + 200 <= 2 ^ 32)) pieces ->
  Forall (fun n => n + 200 <= 2 ^ 32) lens ->
  exists outs, hash_run_4_on I sec pieces lens = Ok outs /\ Forall (fun p => length p = 4%nat) outs /\
    forall j, j < 4 ->
      map (fun o => lenN (nth (N.to_nat j) o [])) outs = lens /\
      concat (map (fun o => nth (N.to_nat j) o []) outs) =
      shake sec (concat (map (fun m => nth (N.to_nat j) m []) pieces)) (fold_right N.add 0 lens).
Proof. exact shake4_all. Qed.
Print Assumptions C51_shake_x4.

(** for pieces of any length: where the model on 200 bytes used by the other theorems returns, so does every build, with
    the same bytes *)
Theorem C51_same : forall I sec pieces lens outs, In I [opt64 LittleEndian; opt64 BigEndian; plain32 LittleEndian; plain32 BigEndian] ->
  Forall (Forall (fun b => b < 256)) pieces ->
  hash_run KeccakP1600_Permute_24rounds sec pieces lens = Ok outs -> hash_run_on I sec pieces lens = Ok outs.
Proof. exact same_all. Qed.
Print Assumptions C51_same.

(** a history that straddles lanes, and the published SHAKE128 of the empty message computed by the 32-bit code for a
    big-endian target *)
Example C51_case_state : Forall op_in_range [OpAdd 5 [1; 2; 3; 4; 5; 6; 7; 8; 9]; OpPermute; OpAddByte 199 255; OpExtract 3 20; OpAdd 0 [7]; OpExtract 0 199] /\
  performed (plain32 BigEndian) (snp_init _) [OpAdd 5 [1; 2; 3; 4]; OpAddByte 7 16; OpExtract 4 6] = Ok [[0; 1; 2; 19; 4; 0]].
Proof. split; [|vm_compute; reflexivity]. repeat constructor; cbn; try reflexivity; repeat constructor. Qed.
Example C51_case : hash_run_on (plain32 BigEndian) 128 [] [32] =
  Ok [[127; 156; 43; 164; 232; 143; 130; 125; 97; 96; 69; 80; 118; 5; 133; 62; 215; 59; 128; 147; 246; 239; 188; 136; 235; 26; 110; 172; 250; 102; 239; 38]].
Proof. vm_compute. reflexivity. Qed.
