(** C55: the C text of the field multiplications and of the universal hashes computes the specified products and hashes, ends, and stays within its memory. *)
From Coq Require Import ZArith NArith List Bool FMapPositive.
From Verif Require Import Spec.Poly Spec.UHashSpec.
From Verif Require Import Model.CtLang Model.CtNames Model.CtProgram Spec.CtSpec Spec.RefSpec Spec.RefHashSpec Proof.RefProps Proof.RefHashProps.
Import ListNotations.
Local Open Scope Z_scope.

(** The multiplications write the product in GF(2^lambda) of the two elements that stand at the
    given places (in the translation elements are passed and returned in memory). *)
Theorem C55_multiplication : forall lambda m b o b1 o1 x b2 o2 y, In lambda [128; 192; 256]%N ->
  room m b o (type_size lambda) -> stands m b1 o1 (element lambda x) -> stands m b2 o2 (element lambda y) -> (x < 2 ^ lambda)%N -> (y < 2 ^ lambda)%N ->
  disjoint b1 o1 (type_size lambda) b o (type_size lambda) -> disjoint b2 o2 (type_size lambda) b o (type_size lambda) ->
  exists v m' r, returns (mul_of lambda) [VPtr b o; VPtr b1 o1; VPtr b2 o2] m v m' /\ is_gf_product (gf_for lambda) x y r /\
    stands m' b o (element lambda r) /\ unchanged m m' (within b o (type_size lambda)).
Proof. exact mul_returns. Qed.
Print Assumptions C55_multiplication.

Theorem C55_multiplication_by_word : forall lambda m b o b1 o1 x y, In lambda [128; 192; 256]%N ->
  room m b o (type_size lambda) -> stands m b1 o1 (element lambda x) -> (x < 2 ^ lambda)%N -> (y < 2 ^ 64)%N ->
  disjoint b1 o1 (type_size lambda) b o (type_size lambda) ->
  exists v m' r, returns (mul_64_of lambda) [VPtr b o; VPtr b1 o1; VInt (Z.of_N y)] m v m' /\ is_gf_product (gf_for lambda) x y r /\
    stands m' b o (element lambda r) /\ unchanged m m' (within b o (type_size lambda)).
Proof. exact mul_64_returns. Qed.
Print Assumptions C55_multiplication_by_word.

Theorem C55_multiplication_of_words : forall m x y, (x < 2 ^ 64)%N -> (y < 2 ^ 64)%N ->
  exists m' r, returns f_bf64_mul [VInt (Z.of_N x); VInt (Z.of_N y)] m (VInt (Z.of_N r)) m' /\ is_gf_product gf64 x y r /\ unchanged m m' (fun _ _ => False).
Proof. exact mul64_returns. Qed.
Print Assumptions C55_multiplication_of_words.

(** The VOLE hash, for every length that is a multiple of 8 bits and every place of the arguments that
    leaves the result by itself. *)
Theorem C55_vole_hash : forall lambda m bh oh bs os sd bx ox x ell, In lambda [128; 192; 256]%N -> (ell mod 8 = 0)%N -> (ell + 2 * lambda < 2 ^ 32)%N ->
  room m bh oh (lambda / 8 + 2) -> stands m bs os sd -> stands m bx ox x -> Forall (fun b => (b < 256)%N) sd -> Forall (fun b => (b < 256)%N) x ->
  N.of_nat (length sd) = (5 * (lambda / 8) + 8)%N -> ((ell + lambda) / 8 + lambda / 8 + 2 <= N.of_nat (length x))%N ->
  disjoint bh oh (lambda / 8 + 2) bs os (N.of_nat (length sd)) -> disjoint bh oh (lambda / 8 + 2) bx ox (N.of_nat (length x)) ->
  exists v m', returns f_vole_hash [VPtr bh oh; VPtr bs os; VPtr bx ox; VInt (Z.of_N ell); VInt (Z.of_N lambda)] m v m' /\
    stands m' bh oh (vole_hash_spec (field_for lambda) sd x ell) /\ unchanged m m' (within bh oh (lambda / 8 + 2)).
Proof. exact vole_hash_returns. Qed.
Print Assumptions C55_vole_hash.

(** The ZK hash, by its history: [taken] says which elements an object has taken in since it was
    initialised.  It holds after init for no element; each update adds its element; it lasts as long as
    nobody else writes to the object; and finalize writes the hash of the elements and of its argument. *)
Theorem C55_zk_hash_init : forall lambda m c bs os sd, In lambda [128; 192; 256]%N -> is_object m lambda c ->
  stands m bs os sd -> Forall (fun b => (b < 256)%N) sd -> (3 * (lambda / 8) + 8 <= N.of_nat (length sd))%N -> ~ In bs (members c) ->
  exists v m', returns (init_of lambda) [VPtr (at_ctx c) 0; VPtr bs os] m v m' /\ taken m' lambda c bs os sd [] /\ unchanged m m' (fun b _ => In b (members c)).
Proof. exact zk_init_returns. Qed.
Print Assumptions C55_zk_hash_init.

Theorem C55_zk_hash_update : forall lambda m c bs os sd xs bv ov v, In lambda [128; 192; 256]%N -> taken m lambda c bs os sd xs -> Forall (fun b => (b < 256)%N) sd ->
  stands m bv ov (element lambda v) -> (v < 2 ^ lambda)%N -> ~ In bv [at_h0 c; at_h1 c] ->
  exists r m', returns (update_of lambda) [VPtr (at_ctx c) 0; VPtr bv ov] m r m' /\ taken m' lambda c bs os sd (xs ++ [v]) /\ unchanged m m' (fun b _ => In b [at_h0 c; at_h1 c]).
Proof. exact zk_update_returns. Qed.
Print Assumptions C55_zk_hash_update.

Theorem C55_zk_hash_kept : forall m m' written lambda c bs os sd xs, taken m lambda c bs os sd xs -> unchanged m m' written ->
  (forall b q, In b (at_ctx c :: members c) -> ~ written b q) -> taken m' lambda c bs os sd xs.
Proof. exact taken_kept. Qed.
Print Assumptions C55_zk_hash_kept.

Theorem C55_zk_hash_finalize : forall lambda m c bs os sd xs bh oh bx ox x1, In lambda [128; 192; 256]%N -> taken m lambda c bs os sd xs ->
  stands m bs os sd -> Forall (fun b => (b < 256)%N) sd -> (2 * (lambda / 8) <= N.of_nat (length sd))%N ->
  stands m bx ox (element lambda x1) -> (x1 < 2 ^ lambda)%N -> room m bh oh (lambda / 8) -> ~ In bh (at_ctx c :: members c) ->
  disjoint bh oh (lambda / 8) bs os (N.of_nat (length sd)) -> disjoint bh oh (lambda / 8) bx ox (type_size lambda) ->
  exists r m', returns (finalize_of lambda) [VPtr bh oh; VPtr (at_ctx c) 0; VPtr bx ox] m r m' /\
    stands m' bh oh (to_bytes (lambda / 8) (zk_hash_spec (field_for lambda) sd xs x1)) /\ unchanged m m' (within bh oh (lambda / 8)).
Proof. exact zk_finalize_returns. Qed.
Print Assumptions C55_zk_hash_finalize.

(** ** Cases *)
Definition some_bytes (n : nat) : list N := map (fun i => N.of_nat (i * 37 + 11) mod 256)%N (seq 0 n).
Definition bytes_in (l : list N) : bool := forallb (fun b => (b <? 256)%N) l.
Lemma bytes_in_ok l : bytes_in l = true -> Forall (fun b => (b < 256)%N) l.
Proof. intros H. apply Forall_forall. intros b I. apply N.ltb_lt. exact (proj1 (forallb_forall _ _) H b I). Qed.

(** a product of two elements of GF(2^192) *)
Example C55_case_multiplication :
  let m := memory [] [map Z.of_N (element 192 (2 ^ 191 + 5)); map Z.of_N (element 192 (2 ^ 190 + 2 ^ 64)); repeat 9 40] in
  exists v m' r, returns f_bf192_mul [VPtr (last_global + 3) 8; block 1; block 2] m v m' /\ is_gf_product gf192 (2 ^ 191 + 5) (2 ^ 190 + 2 ^ 64) r /\
    stands m' (last_global + 3) 8 (element 192 r).
Proof.
  cbv zeta. set (m := memory _ _).
  assert (H1 : room m (last_global + 3) 8 (type_size 192)) by (vm_compute; discriminate).
  assert (H2 : stands m (last_global + 1) 0 (element 192 (2 ^ 191 + 5))) by (vm_compute; reflexivity).
  assert (H3 : stands m (last_global + 2) 0 (element 192 (2 ^ 190 + 2 ^ 64))) by (vm_compute; reflexivity).
  destruct (C55_multiplication 192 m (last_global + 3) 8 (last_global + 1) 0 (2 ^ 191 + 5) (last_global + 2) 0 (2 ^ 190 + 2 ^ 64)) as (v & m' & r & R & P & S & _);
    [cbn; auto|exact H1|exact H2|exact H3|reflexivity|reflexivity|apply disjoint_blocks; discriminate|apply disjoint_blocks; discriminate|].
  exists v, m', r. auto.
Qed.

(** a VOLE hash with a last block that is not full *)
Example C55_case_vole_hash :
  let m := memory [] [map Z.of_N (some_bytes 88); map Z.of_N (some_bytes 60); repeat 0 20] in
  exists v m', returns f_vole_hash [VPtr (last_global + 3) 1; block 1; block 2; VInt 200; VInt 128] m v m' /\
    stands m' (last_global + 3) 1 (vole_hash_spec (field_for 128) (some_bytes 88) (some_bytes 60) 200).
Proof.
  cbv zeta. set (m := memory _ _).
  assert (H1 : room m (last_global + 3) 1 (128 / 8 + 2)) by (vm_compute; discriminate).
  assert (H2 : stands m (last_global + 1) 0 (some_bytes 88)) by (vm_compute; reflexivity).
  assert (H3 : stands m (last_global + 2) 0 (some_bytes 60)) by (vm_compute; reflexivity).
  destruct (C55_vole_hash 128 m (last_global + 3) 1 (last_global + 1) 0 (some_bytes 88) (last_global + 2) 0 (some_bytes 60) 200) as (v & m' & R & S & _);
    [cbn; auto|reflexivity|reflexivity|exact H1|exact H2|exact H3|apply bytes_in_ok; vm_compute; reflexivity|apply bytes_in_ok; vm_compute; reflexivity|reflexivity|discriminate|apply disjoint_blocks; discriminate|apply disjoint_blocks; discriminate|].
  exists v, m'. auto.
Qed.

(** a ZK hash of two elements and a last one *)
Definition case_object : object := Object (last_global + 9) (last_global + 1) (last_global + 2) (last_global + 3) (last_global + 4) (last_global + 5).
Definition case_memory : mem :=
  fresh (memory [] [repeat 7 32; repeat 7 32; repeat 7 32; repeat 7 8; [0]; map Z.of_N (some_bytes 80); repeat 0 24; map Z.of_N (element 192 3 ++ element 192 (2 ^ 191) ++ element 192 77)]) 5
    (fold_left (fun c i => put c (Z.of_nat i) (VPtr (last_global + Pos.of_succ_nat i) 0)) (seq 0 5) (PositiveMap.empty value)).
Lemma points_by m b i t o k : (b < mnext m)%positive -> PositiveMap.find b (mblocks m) = Some k -> (0 <=? i) && (i <? bsize k) = true -> get (bcells k) i = VPtr t o -> points m b i t o.
Proof. intros L F I G. apply andb_prop in I. destruct I as [I1 I2]. split; [exact L|]. exists k. split; [exact F|]. split; [|exact G]. split; [apply Z.leb_le, I1|apply Z.ltb_lt, I2]. Qed.
Example C55_case_zk_hash : exists v1 m1 v2 m2 v3 m3 v4 m4,
  returns f_zk_hash_192_init [block 9; block 6] case_memory v1 m1 /\
  returns f_zk_hash_192_update [block 9; VPtr (last_global + 8) 0] m1 v2 m2 /\
  returns f_zk_hash_192_update [block 9; VPtr (last_global + 8) 32] m2 v3 m3 /\
  returns f_zk_hash_192_finalize [block 7; block 9; VPtr (last_global + 8) 64] m3 v4 m4 /\
  stands m4 (last_global + 7) 0 (to_bytes 24 (zk_hash_spec (field_for 192) (some_bytes 80) [3; 2 ^ 191]%N 77)).
Proof.
  assert (I : In 192%N [128; 192; 256]%N) by (cbn; auto).
  assert (O : is_object case_memory 192 case_object).
  { split; [repeat constructor; cbn; intuition discriminate|].
    repeat (split; [eapply points_by; [reflexivity|vm_compute; reflexivity|reflexivity|reflexivity]|]). repeat (split; [vm_compute; discriminate|]). vm_compute; discriminate. }
  assert (B : Forall (fun b => (b < 256)%N) (some_bytes 80)) by (apply bytes_in_ok; vm_compute; reflexivity).
  assert (S0 : stands case_memory (last_global + 6) 0 (some_bytes 80)) by (vm_compute; reflexivity).
  assert (E1 : stands case_memory (last_global + 8) 0 (element 192 3)) by (vm_compute; reflexivity).
  assert (E2 : stands case_memory (last_global + 8) 32 (element 192 (2 ^ 191))) by (vm_compute; reflexivity).
  assert (E3 : stands case_memory (last_global + 8) 64 (element 192 77)) by (vm_compute; reflexivity).
  assert (R : room case_memory (last_global + 7) 0 24) by (vm_compute; discriminate).
  assert (Out : forall k, In k [last_global + 6; last_global + 7; last_global + 8]%positive -> ~ In k (members case_object)) by (intros k [<-|[<-|[<-|[]]]]; cbn; intuition discriminate).
  assert (Out2 : forall k, In k [last_global + 6; last_global + 7; last_global + 8]%positive -> ~ In k [at_h0 case_object; at_h1 case_object]) by (intros k [<-|[<-|[<-|[]]]]; cbn; intuition discriminate).
  assert (Ne : forall x, element 192 x <> []) by (intros x; discriminate).
  destruct (C55_zk_hash_init 192 case_memory case_object (last_global + 6) 0 (some_bytes 80) I O S0 B) as (v1 & m1 & R1 & T1 & U1); [discriminate|apply Out; cbn; auto|].
  assert (S1 : stands m1 (last_global + 6) 0 (some_bytes 80)) by (eapply stands_kept; [exact S0|discriminate|exact U1|intros q _; apply Out; cbn; auto]).
  assert (E11 : stands m1 (last_global + 8) 0 (element 192 3)) by (eapply stands_kept; [exact E1|apply Ne|exact U1|intros q _; apply Out; cbn; auto]).
  assert (E21 : stands m1 (last_global + 8) 32 (element 192 (2 ^ 191))) by (eapply stands_kept; [exact E2|apply Ne|exact U1|intros q _; apply Out; cbn; auto]).
  assert (E31 : stands m1 (last_global + 8) 64 (element 192 77)) by (eapply stands_kept; [exact E3|apply Ne|exact U1|intros q _; apply Out; cbn; auto]).
  assert (R1' : room m1 (last_global + 7) 0 24) by (eapply room_kept; [exact R|discriminate|exact U1]).
  destruct (C55_zk_hash_update 192 m1 case_object (last_global + 6) 0 (some_bytes 80) [] (last_global + 8) 0 3 I T1 B E11) as (v2 & m2 & R2 & T2 & U2); [reflexivity|apply Out2; cbn; auto|].
  assert (S2 : stands m2 (last_global + 6) 0 (some_bytes 80)) by (eapply stands_kept; [exact S1|discriminate|exact U2|intros q _; apply Out2; cbn; auto]).
  assert (E22 : stands m2 (last_global + 8) 32 (element 192 (2 ^ 191))) by (eapply stands_kept; [exact E21|apply Ne|exact U2|intros q _; apply Out2; cbn; auto]).
  assert (E32 : stands m2 (last_global + 8) 64 (element 192 77)) by (eapply stands_kept; [exact E31|apply Ne|exact U2|intros q _; apply Out2; cbn; auto]).
  assert (R2' : room m2 (last_global + 7) 0 24) by (eapply room_kept; [exact R1'|discriminate|exact U2]).
  destruct (C55_zk_hash_update 192 m2 case_object (last_global + 6) 0 (some_bytes 80) _ (last_global + 8) 32 (2 ^ 191) I T2 B E22) as (v3 & m3 & R3 & T3 & U3); [reflexivity|apply Out2; cbn; auto|].
  assert (S3 : stands m3 (last_global + 6) 0 (some_bytes 80)) by (eapply stands_kept; [exact S2|discriminate|exact U3|intros q _; apply Out2; cbn; auto]).
  assert (E33 : stands m3 (last_global + 8) 64 (element 192 77)) by (eapply stands_kept; [exact E32|apply Ne|exact U3|intros q _; apply Out2; cbn; auto]).
  assert (R3' : room m3 (last_global + 7) 0 24) by (eapply room_kept; [exact R2'|discriminate|exact U3]).
  destruct (C55_zk_hash_finalize 192 m3 case_object (last_global + 6) 0 (some_bytes 80) _ (last_global + 7) 0 (last_global + 8) 64 77 I T3 S3 B) as (v4 & m4 & R4 & H4 & _);
    [discriminate|exact E33|reflexivity|exact R3'|intros [K|K]; [discriminate K|revert K; apply Out; cbn; auto]|apply disjoint_blocks; discriminate|apply disjoint_blocks; discriminate|].
  exists v1, m1, v2, m2, v3, m3, v4, m4. auto.
Qed.
