(** C33: incremental hashing equals one-shot hashing. *)
From Verif.Model Require Import Sponge Hash.
From Verif.Spec Require Import KeccakSpec.
From Verif.Proof Require Import BaseProof ShakeRun.

(** [hash_run permute sec pieces lens]: hash_init, one hash_update per element of [pieces],
    hash_final, one hash_squeeze per element of [lens]; the outputs of the squeezes.  However
    input and output are cut, the outputs joined are those of one update with the whole message
    and one squeeze of the whole length. *)
Theorem C33_incremental : forall sec pieces lens,
  Forall (Forall (fun b => b < 256)) pieces -> Forall (fun m => lenN m + 200 <= 2 ^ 32) pieces -> Forall (fun n => n + 200 <= 2 ^ 32) lens ->
  lenN (concat pieces) + 200 <= 2 ^ 32 -> fold_right N.add 0 lens + 200 <= 2 ^ 32 ->
  exists outs whole,
    hash_run KeccakP1600_Permute_24rounds sec pieces lens = Ok outs /\ map lenN outs = lens /\
    hash_run KeccakP1600_Permute_24rounds sec [concat pieces] [fold_right N.add 0 lens] = Ok [whole] /\
    concat outs = whole.
Proof. exact incremental. Qed.
Print Assumptions C33_incremental.

(** a context of four (the build without the SIMD Keccak): the lanes are four separate contexts *)
Theorem C33_four : forall sec pieces lens, Forall (fun p => length p = 4%nat) pieces ->
  Forall (Forall (Forall (fun b => b < 256))) pieces -> Forall (Forall (fun m => lenN m + 200 <= 2 ^ 32)) pieces -> Forall (fun n => n + 200 <= 2 ^ 32) lens ->
  exists outs, hash_run_x4 KeccakP1600_Permute_24rounds sec pieces lens = Ok outs /\ Forall (fun p => length p = 4%nat) outs /\
    forall j, j < 4 ->
      hash_run KeccakP1600_Permute_24rounds sec (map (fun p => nth (N.to_nat j) p []) pieces) lens =
      Ok (map (fun p => nth (N.to_nat j) p []) outs).
Proof. exact run_x4. Qed.
Print Assumptions C33_four.

(** the contexts of the rest of the model (the bytes absorbed so far) describe the sponge: same
    output, and undefined exactly when the sponge is, for pieces of every length *)
Theorem C33_contexts : forall sec pieces n, Forall (Forall (fun b => b < 256)) pieces -> n + 200 <= 2 ^ 32 ->
  hash_run KeccakP1600_Permute_24rounds sec pieces [n] =
  (let! c := foldM (fun c m => H_update_any c m) pieces (H_init sec) in Ok [shake (h_sec c) (h_data c) n]).
Proof. exact contexts_run. Qed.
Print Assumptions C33_contexts.

(** SHAKE256 of the bytes 0 .. 199 in three pieces, 150 bytes of output in four, across the
    blocks of 136 bytes *)
Example C33_case :
  let m := map N.of_nat (seq 0 200) in
  exists outs, hash_run KeccakP1600_Permute_24rounds 256 [takeN 135 m; takeN 2 (dropN 135 m); dropN 137 m] [1; 135; 0; 14] = Ok outs /\
    map lenN outs = [1; 135; 0; 14] /\
    concat outs = [78; 225; 202; 3; 39; 43; 5; 211; 191; 177; 225; 199; 154; 150; 127; 130; 59; 159; 197; 228; 187; 57; 135; 177; 186; 158; 156; 181; 175; 176; 122; 94; 227; 160; 127; 189; 69; 122; 148; 54; 73; 100; 168; 65; 231; 244; 102; 229; 160; 34; 226; 26; 183; 246; 115; 193; 139; 169; 140; 219; 29; 90; 236; 250; 230; 34; 104; 176; 104; 241; 228; 191; 158; 233; 133; 59; 204; 224; 141; 205; 73; 28; 98; 154; 162; 24; 182; 13; 61; 69; 62; 131; 165; 84; 235; 23; 108; 254; 249; 114; 158; 153; 255; 58; 129; 39; 196; 158; 60; 60; 241; 154; 210; 96; 24; 237; 121; 111; 237; 206; 152; 197; 248; 103; 236; 43; 172; 189; 184; 1; 44; 197; 43; 118; 230; 210; 74; 128; 250; 54; 146; 208; 42; 3; 99; 75; 52; 178; 251; 51].
Proof. eexists. vm_compute. repeat split. Qed.
