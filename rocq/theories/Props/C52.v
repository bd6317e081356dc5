(** C52: which branches are taken, which addresses are accessed and what is divided does not depend on secrets. *)
From Coq Require Import ZArith List Bool FMapPositive.
From Verif Require Import Model.CtLang Model.CtNames Model.CtProgram Spec.CtSpec Proof.CtCheck Proof.CtTable Proof.CtQuiet Proof.CtCase.
Import ListNotations.
Local Open Scope Z_scope.

(** sign: the private key, the message, the random bytes and the buffer for the signature are secret *)
Theorem C52_sign : forall f secret m1 m2 sk msg len sig siglen fuel, In f signs -> start secret m1 m2 ->
  points_to m1 secret true sk -> points_to m1 secret true msg -> points_to m1 secret true sig -> points_to m1 secret false siglen ->
  alike_until_published secret (mnext m1) (call code fuel f [sk; msg; VInt len; sig; siglen] m1)
    (call code fuel f [sk; msg; VInt len; sig; siglen] m2).
Proof. exact sign_alike. Qed.
Print Assumptions C52_sign.

(** sign_with_randomness: so is the randomness of the caller *)
Theorem C52_sign_with_randomness : forall f secret m1 m2 sk msg len rho rholen sig siglen fuel,
  In f signs_with_randomness -> start secret m1 m2 ->
  points_to m1 secret true sk -> points_to m1 secret true msg -> points_to m1 secret true rho ->
  points_to m1 secret true sig -> points_to m1 secret false siglen ->
  alike_until_published secret (mnext m1) (call code fuel f [sk; msg; VInt len; rho; VInt rholen; sig; siglen] m1)
    (call code fuel f [sk; msg; VInt len; rho; VInt rholen; sig; siglen] m2).
Proof. exact sign_with_randomness_alike. Qed.
Print Assumptions C52_sign_with_randomness.

Theorem C52_keygen : forall f secret m1 m2 pk sk fuel, In f keygens -> start secret m1 m2 ->
  points_to m1 secret true pk -> points_to m1 secret true sk ->
  alike_until_published secret (mnext m1) (call code fuel f [pk; sk] m1) (call code fuel f [pk; sk] m2).
Proof. exact keygen_alike. Qed.
Print Assumptions C52_keygen.

Theorem C52_validate_keypair : forall f secret m1 m2 pk sk fuel, In f validates -> start secret m1 m2 ->
  points_to m1 secret true pk -> points_to m1 secret true sk ->
  alike_until_published secret (mnext m1) (call code fuel f [pk; sk] m1) (call code fuel f [pk; sk] m2).
Proof. exact validate_alike. Qed.
Print Assumptions C52_validate_keypair.

(** clear_private_key publishes nothing: its runs are always alike *)
Theorem C52_clear_private_key : forall f secret m1 m2 sk fuel, In f clears -> start secret m1 m2 -> points_to m1 secret true sk ->
  alike secret (mnext m1) (call code fuel f [sk] m1) (call code fuel f [sk] m2).
Proof. exact clear_alike_always. Qed.
Print Assumptions C52_clear_private_key.

(** runs that publish the same show the same *)
Theorem C52_published : forall secret old r1 r2, alike_until_published secret old r1 r2 ->
  published (fst r1) = published (fst r2) -> alike secret old r1 r2.
Proof. exact alike_published. Qed.
Print Assumptions C52_published.

(** Everything that is published: in faest_sign the iv and the third challenge, 16 and lambda/8 bytes that signature_iv and
    signature_chall_3 locate in the signature; in keygen, sign and validate_keypair whether the key is valid, and in
    validate_keypair whether the public key belongs to it; in the hash, the last bits of messages that are not whole bytes. *)
Example C52_case_published :
  flat_map (fun p => match publications (fbody (snd p)) with [] => [] | l => [(fst p, length l)] end) functions =
  (f_Keccak_HashUpdate, 1%nat) ::
  flat_map (fun '(k, s, v) => [(k, 1%nat); (s, 1%nat); (v, 2%nat)])
    (combine (combine [f_faest_128f_keygen; f_faest_128s_keygen; f_faest_192f_keygen; f_faest_192s_keygen; f_faest_256f_keygen; f_faest_256s_keygen;
                       f_faest_em_128f_keygen; f_faest_em_128s_keygen; f_faest_em_192f_keygen; f_faest_em_192s_keygen; f_faest_em_256f_keygen; f_faest_em_256s_keygen]
                      [f_faest_128f_sign_with_randomness; f_faest_128s_sign_with_randomness; f_faest_192f_sign_with_randomness; f_faest_192s_sign_with_randomness;
                       f_faest_256f_sign_with_randomness; f_faest_256s_sign_with_randomness; f_faest_em_128f_sign_with_randomness; f_faest_em_128s_sign_with_randomness;
                       f_faest_em_192f_sign_with_randomness; f_faest_em_192s_sign_with_randomness; f_faest_em_256f_sign_with_randomness; f_faest_em_256s_sign_with_randomness])
      [f_faest_128f_validate_keypair; f_faest_128s_validate_keypair; f_faest_192f_validate_keypair; f_faest_192s_validate_keypair;
       f_faest_256f_validate_keypair; f_faest_256s_validate_keypair; f_faest_em_128f_validate_keypair; f_faest_em_128s_validate_keypair;
       f_faest_em_192f_validate_keypair; f_faest_em_192s_validate_keypair; f_faest_em_256f_validate_keypair; f_faest_em_256s_validate_keypair])
  ++ [(f_faest_sign, 2%nat)].
Proof. vm_compute. reflexivity. Qed.

(** two calls of sign with different keys, messages and random bytes *)
Example C52_case_start :
  let secret b := negb (Pos.eqb b (last_global + 4)) && (Pos.eqb b tape || Pos.ltb last_global b) in
  let m1 := memory (repeat 1 40) [repeat 2 32; repeat 3 5; repeat 0 6336; [192; 24; 0; 0; 0; 0; 0; 0]] in
  let m2 := memory (repeat 9 40) [repeat 7 32; repeat 8 5; repeat 4 6336; [192; 24; 0; 0; 0; 0; 0; 0]] in
  In f_faest_128f_sign signs /\ start secret m1 m2 /\ points_to m1 secret true (block 1) /\ points_to m1 secret true (block 2) /\
  points_to m1 secret true (block 3) /\ points_to m1 secret false (block 4).
Proof.
  cbv zeta. split; [right; left; reflexivity|]. split; [|repeat split; right; do 2 eexists; repeat split].
  apply memory_start; [|reflexivity|cbn [same]; repeat split; intros H; try discriminate H].
  intros g H. assert (E : Pos.eqb g (last_global + 4) = false) by (apply Pos.eqb_neq; intros ->; apply H; reflexivity).
  assert (L : Pos.ltb last_global g = false) by (apply Pos.ltb_ge; exact H). cbv beta. rewrite E, L, orb_false_r. reflexivity.
Qed.

(** the translated code runs: clear_private_key and the comparison of validate_keypair, on keys that differ *)
Example C52_case_clear :
  let run key := call code 200 f_faest_128f_clear_private_key [block 1] (memory (repeat 1 40) [key]) in
  let bytes r := match snd r with RDone (_, m) => option_map (fun k => get_bytes (bcells k) 0 32) (PositiveMap.find 13%positive (mblocks m)) | _ => None end in
  bytes (run (repeat 5 32)) = Some (repeat 0 32) /\ fst (run (repeat 5 32)) = fst (run (repeat 6 32)) /\ length (fst (run (repeat 5 32))) = 67%nat.
Proof. vm_compute. auto. Qed.
Example C52_case_compare :
  let run a b := call code 200 f_faest_timingsafe_bcmp [block 1; block 2; VInt 3] (memory [] [a; b]) in
  let value r := match snd r with RDone (v, _) => Some v | _ => None end in
  value (run [1; 2; 3] [1; 2; 3]) = Some (VInt 0) /\ value (run [1; 2; 3] [9; 2; 4]) = Some (VInt 15) /\
  fst (run [1; 2; 3] [1; 2; 3]) = fst (run [1; 2; 3] [9; 2; 4]).
Proof. vm_compute. auto. Qed.
Example C52_case_inverse : map (fun x => match snd (call code 200 f_bf8_inv [VInt x] (memory [] [])) with RDone (v, _) => int_of v | _ => -1 end)
  [0; 1; 2; 83] = [0; 1; 141; 202].
Proof. vm_compute. reflexivity. Qed.

(** the observer is not blind: a look-up in a table and a comparison that stops early show the secret, and the checker refuses them *)
Example C52_case_leaks :
  let runs := PositiveMap.add 1%positive leaky_table (PositiveMap.add 2%positive leaky_branch (PositiveMap.empty func)) in
  fst (call runs 9 1 [block 1; VInt 0] (memory [] [[7; 7]])) <> fst (call runs 9 1 [block 1; VInt 1] (memory [] [[7; 7]])) /\
  fst (call runs 9 2 [block 1; block 2] (memory [] [[1]; [1]])) <> fst (call runs 9 2 [block 1; block 2] (memory [] [[1]; [2]])) /\
  forallb (fun '(f, args, vars) => negb (cprogram runs global_label [Entry f (Sig args (TInt true)) vars]))
    [(1%positive, [TPtr (PBytes false); TInt true], [(1%positive, TPtr (PBytes false)); (2%positive, TInt true)]);
     (2%positive, [TPtr (PBytes true); TPtr (PBytes true)], [(1%positive, TPtr (PBytes true)); (2%positive, TPtr (PBytes true))])] = true.
Proof. split; [vm_compute; discriminate|]. split; [vm_compute; discriminate|]. vm_compute. reflexivity. Qed.
