(** C45: the four-way hash of the default build is four hashes. *)
From Verif.Model Require Import Sponge Sponge4.
From Verif.Spec Require Import KeccakSpec.
From Verif.Proof Require Import BaseProof Sponge4Proof Sponge4Shake.

(** [hash_run_4] (one context with a common index and four states, the build with WITH_KECCAK_X4) and
    [hash_run_x4] (four separate contexts, the build without): hash_init_x4, one hash_update_x4 per element
    of [pieces] (four strings of one length), hash_final_x4, one hash_squeeze_x4 per element of [lens].
    The outcome is the same for every permutation and every length, also when it is undefined. *)
Theorem C45_builds_agree : forall permute sec pieces lens,
  Forall (fun m => length m = 4%nat /\ forall a b, In a m -> In b m -> lenN a = lenN b) pieces ->
  hash_run_4 permute sec pieces lens = hash_run_x4 permute sec pieces lens.
Proof. exact run_4. Qed.
Print Assumptions C45_builds_agree.

(** what lane [j] squeezes is SHAKE of what lane [j] absorbed, and of nothing else *)
Theorem C45_shake : forall sec pieces lens,
  Forall (fun m => length m = 4%nat /\ forall a b, In a m -> In b m -> lenN a = lenN b) pieces ->
  Forall (Forall (Forall (fun b => b < 256))) pieces -> Forall (Forall (fun m => lenN m + 200 <= 2 ^ 32)) pieces ->
  Forall (fun n => n + 200 <= 2 ^ 32) lens ->
  exists outs, hash_run_4 KeccakP1600_Permute_24rounds sec pieces lens = Ok outs /\ Forall (fun p => length p = 4%nat) outs /\
    forall j, j < 4 ->
      map (fun o => lenN (nth (N.to_nat j) o [])) outs = lens /\
      concat (map (fun o => nth (N.to_nat j) o []) outs) =
      shake sec (concat (map (fun m => nth (N.to_nat j) m []) pieces)) (fold_right N.add 0 lens).
Proof. exact run_4_shake. Qed.
Print Assumptions C45_shake.

(** four different messages of 137 bytes in two updates (across the block of 136), three squeezes, with
    a simple permutation *)
Example C45_case_agree :
  let permute := fun st => Ok (dropN 7 st ++ takeN 7 st) in
  let m := fun k => map (fun i => N.of_nat i + k) (seq 0 137) in
  let pieces := [map (fun k => takeN 100 (m k)) [0; 1; 2; 3]; map (fun k => dropN 100 (m k)) [0; 1; 2; 3]] in
  exists outs, hash_run_4 permute 256 pieces [5; 0; 140] = Ok outs /\
    hash_run_x4 permute 256 pieces [5; 0; 140] = Ok outs /\ map (map lenN) outs = [[5; 5; 5; 5]; [0; 0; 0; 0]; [140; 140; 140; 140]] /\
    NoDup (nth 0 outs []).
Proof.
  eexists. vm_compute. repeat split. repeat constructor; cbn; intuition discriminate.
Qed.

(** four messages of three bytes; the last lane against the single hash *)
Example C45_case :
  exists outs o3, hash_run_4 KeccakP1600_Permute_24rounds 256 [[[1; 2; 3]; [4; 5; 6]; [7; 8; 9]; [10; 11; 12]]] [5; 0; 2] = Ok outs /\
    hash_run KeccakP1600_Permute_24rounds 256 [[10; 11; 12]] [7] = Ok [o3] /\
    concat (map (fun o => nth 3 o []) outs) = o3 /\ lenN o3 = 7 /\
    nth 0 (nth 0 outs []) [] <> nth 3 (nth 0 outs []) [].
Proof. eexists _, _. vm_compute. repeat split; discriminate. Qed.
