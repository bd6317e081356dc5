(** From the logic of Proof/RefLogic to the notions of Spec/RefSpec. *)
From Coq Require Import ZArith NArith List Bool FMapPositive Lia ZifyBool ZifyNat ZifyN.
From Verif Require Import Spec.AesSpec Model.Base Model.Aes Proof.BaseProof Proof.AesProof.
From Verif Require Import Spec.OwfSpec Spec.KeySpec.
From Verif Require Model.Owf Proof.ApiProof Proof.KeyCases.
From Verif Require Import Model.CtLang Model.CtNames Model.CtProgram Spec.RefSpec Proof.RefLogic Proof.RefTac Proof.RefMem Proof.RefAes Proof.RefKeys Proof.RefOwf Proof.RefApi.
Import ListNotations.
Local Open Scope Z_scope.

Lemma contents_inb m b o n l : contents m b o n = Some l -> inb m b o (Z.of_nat n) /\ bytesat m b o n = l.
Proof.
  unfold contents. destruct (PositiveMap.find b (mblocks m)) as [k|] eqn:F; [|discriminate].
  destruct (_ && _ && _) eqn:C; [|discriminate]. intros [= <-]. split; [|symmetry; apply (get_bytes_at m b k F)].
  apply andb_prop in C as [C C3]. apply andb_prop in C as [C1 C2]. apply Pos.ltb_lt in C1. unfold inb, size. rewrite F. lia.
Qed.
Lemma inb_contents m b o n : inb m b o (Z.of_nat n) -> contents m b o n = Some (bytesat m b o n).
Proof.
  intros (A & B & C & D). unfold contents, size in *. destruct (PositiveMap.find b (mblocks m)) as [k|] eqn:F; [|lia].
  apply Pos.ltb_lt in A. rewrite A. replace (0 <=? o) with true by lia. replace (o + Z.of_nat n <=? bsize k) with true by lia. cbn [andb]. f_equal. apply (get_bytes_at m b k F).
Qed.
Lemma bytesat_nth m b : forall n o k, (k < n)%nat -> nth k (bytesat m b o n) 0 = byte m b (o + Z.of_nat k).
Proof.
  induction n as [|n IH]; intros o k L; [lia|]. cbn [bytesat]. destruct k as [|k]; cbn [nth]; [f_equal; lia|]. rewrite IH by lia. f_equal. lia.
Qed.
Lemma holds_stands m b o l : holds m b o l <-> stands m b o l.
Proof.
  unfold stands. split.
  - intros [I H]. assert (J : inb m b o (Z.of_nat (length l))) by (unfold lenN in I; rewrite nat_N_Z in I; exact I). rewrite (inb_contents _ _ _ _ J). f_equal.
    rewrite <- (map_length Z.of_N l) at 1. apply bytesat_list. intros i Hi. rewrite map_length in Hi.
    specialize (H (N.of_nat i) ltac:(unfold lenN; lia)). rewrite nat_N_Z in H. rewrite H. unfold nthN. rewrite Nat2N.id. symmetry. exact (map_nth Z.of_N l 0%N i).
  - intros C. destruct (contents_inb _ _ _ _ _ C) as [I E]. split; [unfold lenN; rewrite nat_N_Z; exact I|].
    intros i Hi. unfold lenN in Hi. assert (K := bytesat_nth m b (length l) o (N.to_nat i) ltac:(lia)). rewrite E in K. rewrite N_nat_Z in K. rewrite <- K. unfold nthN. exact (map_nth Z.of_N l 0%N (N.to_nat i)).
Qed.
Lemma room_inb m b o n : room m b o n <-> inb m b o (ofN n).
Proof.
  unfold room. split.
  - intros H. destruct (contents m b o (N.to_nat n)) as [l|] eqn:E; [|contradiction]. apply contents_inb in E as [I _]. rewrite N_nat_Z in I. exact I.
  - intros I. rewrite inb_contents; [discriminate|]. rewrite N_nat_Z. exact I.
Qed.
Lemma used_pos m p : used m p <-> pos_at m (Z.of_N p).
Proof.
  unfold used, pos_at. split.
  - intros (l & C & D). apply contents_inb in C as [I <-]. auto.
  - intros [I E]. exists (bytesat m 3 0 8). split; [apply (inb_contents m 3 0 8 I)|exact E].
Qed.
Lemma loaded_rconst m : loaded m -> rconst m.
Proof.
  intros H. specialize (H 12%positive g_round_constants ltac:(vm_compute; auto 20)). apply contents_inb in H as [I E]. split; [exact I|].
  intros j Hj. assert (K := bytesat_nth m 12 _ 0 (N.to_nat j) (proj1 (Nat.compare_lt_iff (N.to_nat j) 30) ltac:(apply Nat.compare_lt_iff; lia))).
  change 30%nat with (length g_round_constants) in K. rewrite E in K. rewrite N_nat_Z in K. change (0 + Z.of_N j) with (ofN j) in K. rewrite <- K.
  assert (A : forallb (fun k => nth (N.to_nat k) g_round_constants 0 =? ofN (N.iter k xtime 1%N)) (Nrange 30) = true) by (vm_compute; reflexivity).
  rewrite forallb_forall in A. apply Z.eqb_eq, A, In_Nrange, Hj.
Qed.
Lemma sep_disjoint b o n b' o' n' : (0 < n)%N -> (0 < n')%N -> disjoint b o n b' o' n' -> sep b o (ofN n) b' o' (ofN n').
Proof.
  intros N0 N1 D. unfold sep. destruct (Pos.eq_dec b b') as [<-|E]; [right|left; exact E]. unfold disjoint, within in D. specialize (D b (Z.max o o')). lia.
Qed.
Lemma frame_unchanged m m' S (S' : positive -> Z -> Prop) : frame m m' S -> (forall b q, S b q -> S' b q) -> unchanged m m' S'.
Proof.
  intros (A & B & C) SS. split; [exact A|]. intros b k o F L R. specialize (B b L). unfold size in B. rewrite F in B. specialize (C b o L ltac:(lia)). unfold cell in C. rewrite F in C.
  destruct (PositiveMap.find b (mblocks m')) as [k'|]; [|lia]. exists k'. split; [reflexivity|]. split; [exact B|]. intros N. apply C. intros X. apply N, SS, X.
Qed.
Lemma points_kept m m' S b i t o : points m b i t o -> unchanged m m' S -> ~ S b i -> points m' b i t o.
Proof.
  intros (L & k & F & I & G) [N U] X. destruct (U b k i F L I) as (k' & F' & Z' & G'). split; [lia|]. exists k'. split; [exact F'|]. split; [rewrite Z'; exact I|]. rewrite G'; assumption.
Qed.
Lemma get_bytes_ext c c' : forall n o, (forall q, o <= q < o + Z.of_nat n -> get c q = get c' q) -> get_bytes c o n = get_bytes c' o n.
Proof.
  induction n as [|n IH]; intros o H; [reflexivity|]. cbn [get_bytes]. rewrite H by lia. f_equal. apply IH. intros q Q. apply H. lia.
Qed.
Lemma contents_kept m m' S b o n l : contents m b o n = Some l -> n <> O -> unchanged m m' S -> (forall q, o <= q < o + Z.of_nat n -> ~ S b q) -> contents m' b o n = Some l.
Proof.
  unfold contents. intros C Nz [N U] X. destruct (PositiveMap.find b (mblocks m)) as [k|] eqn:F; [|discriminate]. destruct (_ && _ && _) eqn:D; [|discriminate].
  apply andb_prop in D as [D D3]. apply andb_prop in D as [D1 D2]. apply Pos.ltb_lt in D1.
  assert (G : forall q, o <= q < o + Z.of_nat n -> exists k', PositiveMap.find b (mblocks m') = Some k' /\ bsize k' = bsize k /\ get (bcells k') q = get (bcells k) q).
  { intros q Q. destruct (U b k q F D1 ltac:(lia)) as (k' & F' & Z' & G'). exists k'. split; [exact F'|]. split; [exact Z'|]. apply G', X, Q. }
  destruct (G o ltac:(lia)) as (k' & F' & Z' & _). rewrite F'. replace (Pos.ltb b (mnext m')) with true by (symmetry; apply Pos.ltb_lt; lia). rewrite Z', D2, D3. cbn [andb]. rewrite <- C. f_equal.
  apply get_bytes_ext. intros q Q. destruct (G q Q) as (k2 & F2 & _ & E). rewrite F' in F2. injection F2 as <-. exact E.
Qed.
Lemma stands_kept m m' S b o l : stands m b o l -> l <> [] -> unchanged m m' S -> (forall q, within b o (N.of_nat (length l)) b q -> ~ S b q) -> stands m' b o l.
Proof.
  intros C Nz U X. eapply contents_kept; [exact C|destruct l; [contradiction|discriminate]|exact U|]. intros q Q. apply X. split; [reflexivity|lia].
Qed.
Lemma room_kept m m' S b o n : room m b o n -> (n <> 0)%N -> unchanged m m' S -> room m' b o n.
Proof.
  unfold room. intros R Nz [N U]. unfold contents in *. destruct (PositiveMap.find b (mblocks m)) as [k|] eqn:F; [|contradiction]. destruct (_ && _ && _) eqn:D; [|contradiction].
  apply andb_prop in D as [D D3]. apply andb_prop in D as [D1 D2]. apply Pos.ltb_lt in D1. destruct (U b k o F D1 ltac:(lia)) as (k' & -> & Z' & _).
  replace (Pos.ltb b (mnext m')) with true by (symmetry; apply Pos.ltb_lt; lia). rewrite Z', D2, D3. discriminate.
Qed.
Lemma calls_returns f vs m (Q : value -> mem -> Prop) : calls code f vs m Q -> exists v m', returns f vs m v m' /\ Q v m'.
Proof. intros (n & [v m'] & H & K). exists v, m'. split; [|exact K]. exists n. exact H. Qed.
Lemma within_at b o n c q : at_ b o (ofN n) c q <-> within b o n c q.
Proof. reflexivity. Qed.

Lemma code_keygen i : PositiveMap.find (keygen_of i) code = Some (keygen_fun i). Proof. destruct i; vm_compute; reflexivity. Qed.
Lemma code_validate i : PositiveMap.find (validate_of i) code = Some (validate_fun i). Proof. destruct i; vm_compute; reflexivity. Qed.
Lemma code_clear i : PositiveMap.find (clear_of i) code = Some (clear_fun i). Proof. destruct i; vm_compute; reflexivity. Qed.

Lemma keygen_returns i m pb po sb so p random k :
  loaded m -> (last_global < pb)%positive -> (last_global < sb)%positive ->
  room m pb po (pk_bytes i) -> room m sb so (sk_bytes i) -> disjoint pb po (pk_bytes i) sb so (sk_bytes i) ->
  used m p -> stands m tape (Z.of_N p) random -> Forall (fun b => (b < 256)%N) random -> (p + N.of_nat (length random) < 2 ^ 64)%N ->
  ((k + 1) * sk_bytes i <= N.of_nat (length random))%N ->
  (forall j, (j < k)%N -> ~ valid_key i (RefSpec.attempt i random j)) -> valid_key i (RefSpec.attempt i random k) ->
  exists m', returns (keygen_of i) [VPtr pb po; VPtr sb so] m (VInt 0) m' /\
    stands m' sb so (RefSpec.attempt i random k) /\ stands m' pb po (public_of i (RefSpec.attempt i random k)) /\ used m' (p + (k + 1) * sk_bytes i) /\
    unchanged m m' (fun b q => within pb po (pk_bytes i) b q \/ within sb so (sk_bytes i) b q \/ b = tape_pos).
Proof.
  intros LD GP GS RP RS DJ U T B PM LT NV V. destruct (sizes i) as [SI SK].
  assert (SB : (0 < sk_bytes i)%N) by (unfold sk_bytes; lia).
  apply sep_disjoint in DJ; [|unfold pk_bytes; lia|exact SB]. apply room_inb in RP, RS. apply used_pos in U. apply loaded_rconst in LD. apply holds_stands in T.
  unfold pk_bytes in *. rewrite N2Z.inj_mul in RP, DJ. change (Z.of_N 2) with 2 in *.
  unfold last_global, tape, tape_pos in *.
  destruct (calls_returns _ _ _ _ (ref_keygen i _ m pb po sb so (Z.of_N p) random k (code_keygen i) RP RS DJ LD ltac:(repeat split; lia) U ltac:(lia) T B
    ltac:(unfold lenN; lia) LT NV V)) as (v & m' & R & -> & H1 & H2 & H3 & F).
  exists m'. split; [exact R|]. split; [apply holds_stands, H1|]. split; [apply holds_stands, H2|]. split; [apply used_pos; rewrite N2Z.inj_add; exact H3|].
  eapply frame_unchanged; [exact F|]. intros b q. unfold at_, within. rewrite N2Z.inj_mul. auto.
Qed.
Lemma keygen_null i m pk sk : pk = VNull \/ sk = VNull -> returns (keygen_of i) [pk; sk] m (VInt (-1)) m.
Proof.
  intros N. destruct (calls_returns (keygen_of i) [pk; sk] m (fun v m' => v = VInt (-1) /\ m' = m)) as (v & m' & R & -> & ->); [|exact R].
  apply (calls_intro code _ _ _ _ _ (code_keygen i)). unfold keygen_fun. cbn [fbody fparams bind_params].
  eapply wp_null_check; [look|look|]. destruct pk, sk; auto; destruct N; discriminate.
Qed.
Lemma validate_returns i m pb po sb so pk sk :
  loaded m -> stands m pb po pk -> stands m sb so sk -> Forall (fun b => (b < 256)%N) pk -> Forall (fun b => (b < 256)%N) sk ->
  N.of_nat (length pk) = pk_bytes i -> N.of_nat (length sk) = sk_bytes i ->
  exists v m', returns (validate_of i) [VPtr pb po; VPtr sb so] m v m' /\ unchanged m m' (fun _ _ => False) /\
    (~ valid_key i sk /\ v = VInt 1 \/ valid_key i sk /\ pk = public_of i sk /\ v = VInt 0 \/ valid_key i sk /\ pk <> public_of i sk /\ v = VInt 2).
Proof.
  intros LD HP HS BP BS LP LS. apply loaded_rconst in LD. apply holds_stands in HP, HS.
  destruct (calls_returns _ _ _ _ (ref_validate i _ m pb po sb so pk sk (code_validate i) HP HS BP BS LP LS LD)) as (v & m' & R & F & X).
  exists v, m'. split; [exact R|]. split; [eapply frame_unchanged; [exact F|auto]|exact X].
Qed.
Lemma validate_null i m pk sk : pk = VNull \/ sk = VNull -> returns (validate_of i) [pk; sk] m (VInt (-1)) m.
Proof.
  intros N. destruct (calls_returns (validate_of i) [pk; sk] m (fun v m' => v = VInt (-1) /\ m' = m)) as (v & m' & R & -> & ->); [|exact R].
  apply (calls_intro code _ _ _ _ _ (code_validate i)). unfold validate_fun. cbn [fbody fparams bind_params].
  eapply wp_null_check; [look|look|]. destruct pk, sk; auto; destruct N; discriminate.
Qed.
Lemma clear_returns i m b o : room m b o (sk_bytes i) ->
  exists v m', returns (clear_of i) [VPtr b o] m v m' /\ contents m' b o (N.to_nat (sk_bytes i)) = Some (repeat 0 (N.to_nat (sk_bytes i))) /\
    unchanged m m' (within b o (sk_bytes i)).
Proof.
  intros H. apply room_inb in H. destruct (calls_returns _ _ _ _ (ref_clear i _ m b o (code_clear i) H)) as (v & m' & R & F & X).
  exists v, m'. split; [exact R|]. split; [|eapply frame_unchanged; [exact F|auto]].
  rewrite inb_contents; [|rewrite N_nat_Z; eapply inb_frame; eassumption]. f_equal.
  rewrite <- (repeat_length 0 (N.to_nat (sk_bytes i))) at 1. apply bytesat_list. intros q Hq. rewrite repeat_length in Hq. rewrite X by lia. symmetry.
  rewrite nth_repeat. reflexivity.
Qed.

(** ** Cases *)
Definition loadedb (m : mem) : bool :=
  forallb (fun '(g, l) => match contents m g 0 (length l) with Some l' => if list_eq_dec Z.eq_dec l' l then true else false | None => false end) constants.
Lemma loadedb_ok m : loadedb m = true -> loaded m.
Proof.
  unfold loadedb. rewrite forallb_forall. intros H g l I. specialize (H _ I). cbn beta iota in H.
  destruct (contents m g 0 (length l)) as [l'|]; [|discriminate]. destruct (list_eq_dec Z.eq_dec l' l); [congruence|discriminate].
Qed.
Lemma disjoint_blocks b o n b' o' n' : b <> b' -> disjoint b o n b' o' n'.
Proof. intros N c q [-> _] [E _]. contradiction. Qed.

(** the public key of the private key of Proof/KeyCases, as a literal *)
Definition demo_pk : list N := Eval vm_compute in
  match Owf.owf FAEST_128S (owf_key_of FAEST_128S KeyCases.demo_sk) (owf_input_of FAEST_128S KeyCases.demo_sk) with
  | Ok r => owf_input_of FAEST_128S KeyCases.demo_sk ++ fst r | UB => [] end.
Lemma demo_public : public_of FAEST_128S KeyCases.demo_sk = demo_pk.
Proof.
  destruct (ApiProof.owf_sk FAEST_128S KeyCases.demo_sk (N.le_refl _) KeyCases.demo_bytes) as (ok & E & _).
  assert (D : demo_pk = match Owf.owf FAEST_128S (owf_key_of FAEST_128S KeyCases.demo_sk) (owf_input_of FAEST_128S KeyCases.demo_sk) with
    | Ok r => owf_input_of FAEST_128S KeyCases.demo_sk ++ fst r | UB => [] end) by (vm_compute; reflexivity).
  rewrite E in D. rewrite D. reflexivity.
Qed.
