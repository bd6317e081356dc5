(** C53: a call writes only to its outputs and reads only its arguments. *)
From Coq Require Import ZArith List Bool FMapPositive Lia.
From Verif Require Import Model.CtLang Model.CtNames Model.CtProgram Spec.CtSpec Spec.FpSpec Proof.CtCheck Proof.CtTable
  Proof.FpCheck Proof.FpTable Proof.FpCase.
Import ListNotations.
Local Open Scope Z_scope.

Theorem C53_keygen : forall f m pk sk fuel, In f keygens -> apart m [] [pk; sk] ->
  confined true m [] [pk; sk] (call code fuel f [pk; sk] m).
Proof. exact keygen_confined. Qed.
Print Assumptions C53_keygen.

Theorem C53_sign : forall f m sk msg len sig siglen fuel, In f signs -> apart m [sk; msg] [sig; siglen] ->
  confined true m [sk; msg] [sig; siglen] (call code fuel f [sk; msg; VInt len; sig; siglen] m).
Proof. exact sign_confined. Qed.
Print Assumptions C53_sign.

Theorem C53_sign_with_randomness : forall f m sk msg len rho rholen sig siglen fuel, In f signs_with_randomness ->
  apart m [sk; msg; rho] [sig; siglen] ->
  confined false m [sk; msg; rho] [sig; siglen] (call code fuel f [sk; msg; VInt len; rho; VInt rholen; sig; siglen] m).
Proof. exact sign_with_randomness_confined. Qed.
Print Assumptions C53_sign_with_randomness.

Theorem C53_verify : forall f m pk msg len sig siglen fuel, In f verifies -> apart m [pk; msg; sig] [] ->
  confined false m [pk; msg; sig] [] (call code fuel f [pk; msg; VInt len; sig; VInt siglen] m).
Proof. exact verify_confined. Qed.
Print Assumptions C53_verify.

Theorem C53_validate_keypair : forall f m pk sk fuel, In f validates -> apart m [pk; sk] [] ->
  confined false m [pk; sk] [] (call code fuel f [pk; sk] m).
Proof. exact validate_confined. Qed.
Print Assumptions C53_validate_keypair.

Theorem C53_clear_private_key : forall f m sk fuel, In f clears -> apart m [] [sk] ->
  confined false m [] [sk] (call code fuel f [sk] m).
Proof. exact clear_confined. Qed.
Print Assumptions C53_clear_private_key.

(** Two confined calls whose outputs are not touched by the other conflict on
    no memory they share, except on the position in the random source. *)
Theorem C53_no_race : forall r1 r2 m in1 out1 in2 out2 x1 x2, apart m in1 out1 -> apart m in2 out2 ->
  confined r1 m in1 out1 x1 -> confined r2 m in2 out2 x2 -> (forall b, into out1 b -> ~ into (in2 ++ out2) b) ->
  forall b, (b < mnext m)%positive -> b <> tape_pos -> writes (fst x1) b -> ~ reads (fst x2) b /\ ~ writes (fst x2) b.
Proof. exact no_race. Qed.
Print Assumptions C53_no_race.

(** memory for a call of sign, and for two calls of sign with one key and one message *)
Example C53_case_apart :
  let m := memory (repeat 1 40) [repeat 2 32; repeat 3 5; repeat 0 6336; [192; 24; 0; 0; 0; 0; 0; 0]; repeat 0 6336; [192; 24; 0; 0; 0; 0; 0; 0]] in
  In f_faest_128f_sign signs /\ In f_faest_128f_verify verifies /\
  apart m [block 1; block 2] [block 3; block 4] /\ apart m [block 1; block 2] [block 5; block 6] /\
  (forall b, into [block 3; block 4] b -> ~ into ([block 1; block 2] ++ [block 5; block 6]) b).
Proof.
  cbv zeta. split; [right; left; reflexivity|]. split; [right; left; reflexivity|].
  split; [apply apart_of; reflexivity|]. split; [apply apart_of; reflexivity|].
  intros b H G. apply intob_spec in H, G. revert H G. cbn [intob existsb block app]. intros H G.
  repeat match goal with K : _ || _ = true |- _ => apply orb_prop in K as [K|K] end; try discriminate;
    apply Pos.eqb_eq in H, G; rewrite <- H in G; discriminate.
Qed.

(** the translated code runs, reads and writes: clear_private_key writes the 32 bytes of its argument, the comparison reads
    its two arguments *)
Example C53_case_clear :
  let r := call code 200 f_faest_128f_clear_private_key [block 2] (memory (repeat 1 40) [repeat 5 32; repeat 6 32; repeat 7 32]) in
  let bytes (k : positive) := match snd r with
                 | RDone (_, m) => option_map (fun k => get_bytes (bcells k) 0 32) (PositiveMap.find (last_global + k)%positive (mblocks m))
                 | _ => None end in
  (bytes 1%positive, bytes 2%positive, bytes 3%positive) = (Some (repeat 5 32), Some (repeat 0 32), Some (repeat 7 32)) /\
  nodup Pos.eq_dec (stores (fst r)) = [last_global + 2]%positive.
Proof. vm_compute. auto. Qed.
Example C53_case_compare :
  let r := call code 200 f_faest_timingsafe_bcmp [block 1; block 3; VInt 3] (memory [] [[1; 2; 3]; [4]; [1; 2; 3]]) in
  nodup Pos.eq_dec (loads (fst r)) = [last_global + 1; last_global + 3]%positive /\ stores (fst r) = [].
Proof. vm_compute. auto. Qed.

(** a function that writes to its input, and one that counts its calls in a global variable: not confined, and refused *)
Example C53_case_escapes :
  let runs := PositiveMap.add 1%positive writes_input (PositiveMap.add 2%positive counts_calls (PositiveMap.empty func)) in
  let m := memory [] [[1]; [2]] in
  apart m [block 1; block 2] [] /\
  ~ confined false m [block 1; block 2] [] (call runs 9 1 [block 1; block 2] m) /\
  ~ confined false m [block 1; block 2] [] (call runs 9 2 [block 1; block 2] m) /\
  forallb (fun f => negb (wprogram runs (global_use false) [Entry f (Sig [TPtr (PBytes false); TPtr (PBytes false)] (TInt false))
    [(1%positive, TPtr (PBytes false)); (2%positive, TPtr (PBytes false))]])) [1; 2]%positive = true.
Proof.
  cbv zeta. split; [apply apart_of; reflexivity|].
  split; [apply (escapes _ _ _ _ (last_global + 1)); reflexivity|].
  split; [apply (escapes _ _ _ _ 1); reflexivity|]. vm_compute. reflexivity.
Qed.
