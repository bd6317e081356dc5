(** C41: the XOF is SHAKE128 / SHAKE256 of FIPS 202. *)
From Verif.Model Require Import Sponge Hash.
From Verif.Spec Require Import KeccakSpec VcSpec.
From Verif.Proof Require Import BaseProof KeccakProof ShakeRun.

(** the permutation is KECCAK-p[1600, 24] *)
Theorem C41_permutation : forall st, lenN st = 200 -> Forall (fun b => b < 256) st ->
  exists st', KeccakP1600_Permute_24rounds st = Ok st' /\ lenN st' = 200 /\ Forall (fun b => b < 256) st' /\
    bits_of_bytes st' = keccak_f (bits_of_bytes st).
Proof. exact permute_ok. Qed.
Print Assumptions C41_permutation.

(** the bytes squeezed from a context are those the standard prescribes for the bytes absorbed *)
Theorem C41_shake : forall sec pieces lens,
  Forall (Forall (fun b => b < 256)) pieces -> Forall (fun m => lenN m + 200 <= 2 ^ 32) pieces -> Forall (fun n => n + 200 <= 2 ^ 32) lens ->
  exists outs, hash_run KeccakP1600_Permute_24rounds sec pieces lens = Ok outs /\ map lenN outs = lens /\
    concat outs = shake sec (concat pieces) (fold_right N.add 0 lens).
Proof. exact run_ok. Qed.
Print Assumptions C41_shake.

(** hence the assumption the other theorems make of the XOF holds *)
Theorem C41_sized : xof_sized shake.
Proof. exact shake_sized. Qed.
Print Assumptions C41_sized.

(** SHAKE128 of the empty message, as published *)
Example C41_case : hash_run KeccakP1600_Permute_24rounds 128 [] [32] =
  Ok [[127; 156; 43; 164; 232; 143; 130; 125; 97; 96; 69; 80; 118; 5; 133; 62; 215; 59; 128; 147; 246; 239; 188; 136; 235; 26; 110; 172; 250; 102; 239; 38]].
Proof. vm_compute. reflexivity. Qed.
Example C41_case_spec : shake 128 [] 32 = [127; 156; 43; 164; 232; 143; 130; 125; 97; 96; 69; 80; 118; 5; 133; 62; 215; 59; 128; 147; 246; 239; 188; 136; 235; 26; 110; 172; 250; 102; 239; 38].
Proof.
  destruct (C41_shake 128 [] [32]) as (outs & E & _ & F); [constructor|constructor|repeat constructor; discriminate|].
  change (shake 128 [] 32) with (shake 128 (concat []) (fold_right N.add 0 [32])). rewrite <- F.
  rewrite C41_case in E. injection E as <-. reflexivity.
Qed.
