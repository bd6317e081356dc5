(** The 24 unrolled rounds of the translated Keccak permutation. *)
From Coq Require Import ZArith NArith List Bool FMapPositive Lia ZifyBool ZifyNat ZifyN.
From Verif Require Import Model.Base Model.Keccak Proof.BaseProof.
From Verif Require Proof.KeccakProof Proof.RefWin Proof.RefOwf.
From Verif Require Import Model.CtLang Model.CtNames Model.CtKeccakP Model.CtProgram Proof.RefLogic Proof.RefTac Proof.RefMem Proof.RefReg.
Import ListNotations.
Local Open Scope Z_scope.
Arguments wrap : simpl never.

(** ** Segments of straight-line code *)
Definition regs (e : env) (xs : list positive) (l : list N) : Prop := Forall2 (fun x n => lookup e x = VInt (ofN n) /\ word n) xs l.
Definition sgl (l : list N) (x : positive) : N := nth (Pos.to_nat x - 1) l 0%N.
Fixpoint ini (i : positive) (xs : list positive) (s : PositiveMap.t term) : PositiveMap.t term :=
  match xs with [] => s | x :: xs => ini (Pos.succ i) xs (PositiveMap.add x (TV i) s) end.
Lemma ini_find xs : forall i s x t, PositiveMap.find x (ini i xs s) = Some t ->
  PositiveMap.find x s = Some t \/ exists k, nth_error xs k = Some x /\ t = TV (Pos.of_nat (Pos.to_nat i + k)).
Proof.
  induction xs as [|y xs IH]; intros i s x t H; [left; exact H|]. cbn [ini] in H. destruct (IH _ _ _ _ H) as [F|(k & K & E)].
  - rewrite PositiveMapAdditionalFacts.gsspec in F. destruct (PositiveMap.E.eq_dec x y) as [->|]; [|left; exact F].
    injection F as <-. right. exists O. split; [reflexivity|]. f_equal. lia.
  - right. exists (S k). split; [exact K|]. rewrite E. f_equal. lia.
Qed.
Lemma regs_nth e xs : forall l k x, regs e xs l -> nth_error xs k = Some x -> lookup e x = VInt (ofN (nth k l 0%N)) /\ word (nth k l 0%N).
Proof.
  induction xs as [|y xs IH]; intros l k x H K; [destruct k; discriminate|]. inversion H as [|? n ? l' A B]. subst. destruct k as [|k].
  - injection K as ->. exact A.
  - apply (IH l' k x B K).
Qed.
Lemma ini_rel ld e xs l : regs e xs l -> rel (sgl l) ld (ini 1 xs (PositiveMap.empty term)) e.
Proof.
  intros H x t F. destruct (ini_find _ _ _ _ _ F) as [G|(k & K & ->)]; [rewrite PositiveMap.gempty in G; discriminate|].
  cbn [dt]. unfold sgl. replace (Pos.to_nat (Pos.of_nat (Pos.to_nat 1 + k)) - 1)%nat with k by (rewrite Nat2Pos.id; lia).
  apply (regs_nth e xs l k x H K).
Qed.
Definition oterm_eqb (o : option term) (t : term) : bool := match o with Some u => term_eqb u t | None => false end.
Fixpoint all2 {A B} (f : A -> B -> bool) (l : list A) (k : list B) : bool :=
  match l, k with [], [] => true | x :: l, y :: k => f x y && all2 f l k | _, _ => false end.
Definition seg_ok (inr : positive -> bool) (bnd : base -> N) (kv : option (positive * Z)) (seg : list stmt) (src dst : list positive) (ts : list term) : bool :=
  match asteps inr bnd kv seg (ini 1 src (PositiveMap.empty term)) with
  | Some s => all2 (fun x t => oterm_eqb (PositiveMap.find x s) t) dst ts
  | None => false
  end.
Lemma seg_wp inr bnd kv ld seg src dst ts P rest l e m Q : seg_ok inr bnd kv seg src dst ts = true -> regs e src l -> ldok inr bnd ld e m -> known kv e ->
  (forall e', regs e' dst (map (dt (sgl l) ld) ts) -> same_out inr kv e e' -> wps P rest e' m Q) -> wps P (seg ++ rest) e m Q.
Proof.
  unfold seg_ok. intros H R L K W. destruct (asteps inr bnd kv seg _) as [s|] eqn:E; [|discriminate].
  eapply asteps_ok; [exact E|apply (ini_rel ld), R|exact L|exact K|]. intros e' R' S'. apply W; [|exact S'].
  clear - H R'. revert ts H. induction dst as [|x dst IH]; intros [|t ts] H; try discriminate; [constructor|]. cbn [all2] in H. apply andb_prop in H. destruct H as [H1 H2].
  unfold oterm_eqb in H1. destruct (PositiveMap.find x s) as [u|] eqn:F; [|discriminate]. apply term_eqb_ok in H1. subst u.
  constructor; [apply R', F|apply IH, H2].
Qed.

(** ** One round *)
Definition span (b : positive) (off n : nat) : list positive := map (fun k => Pos.of_nat (Pos.to_nat b + off + k)) (seq 0 n).
Definition fileA (b : positive) (odd : bool) : list positive := span b (if odd then 60 else 0) 25.
Definition file (b : positive) (odd : bool) : list positive := fileA b odd ++ span b 50 5.
Definition inrange (b : positive) (x : positive) : bool := Pos.leb b x && Pos.ltb x (b + 85).

Fixpoint sub (k : N) (t : term) : term :=
  match t with
  | TV x => TV x | TLd q i => TLd BG k
  | TXor a b => TXor (sub k a) (sub k b) | TAnd a b => TAnd (sub k a) (sub k b) | TNot a => TNot (sub k a)
  | TShl a n => TShl (sub k a) n | TShr a n => TShr (sub k a) n
  end.
Lemma dt_sub sg ld k t : dt sg ld (sub k t) = dt sg (fun _ _ => ld BG k) t.
Proof. induction t; cbn [sub dt]; congruence. Qed.

Definition lanesl (A : lanes) : list N :=
  let '(Lanes Aba Abe Abi Abo Abu Aga Age Agi Ago Agu Aka Ake Aki Ako Aku Ama Ame Ami Amo Amu Asa Ase Asi Aso Asu) := A in
  [Aba; Abe; Abi; Abo; Abu; Aga; Age; Agi; Ago; Agu; Aka; Ake; Aki; Ako; Aku; Ama; Ame; Ami; Amo; Amu; Asa; Ase; Asi; Aso; Asu].
Definition parl (C : parities) : list N := let '(Par Ca Ce Ci Co Cu) := C in [Ca; Ce; Ci; Co; Cu].
Definition acl (AC : lanes * parities) : list N := lanesl (fst AC) ++ parl (snd AC).

(** The text of the permutation. *)
Definition permF : list stmt := Eval vm_compute in flat (fbody c_KeccakP1600_Permute_24rounds).
Definition seg (F : list stmt) (n k : nat) : list stmt := firstn k (skipn n F).
Definition outs (s : option (PositiveMap.t term)) (dst : list positive) : list term :=
  match s with Some s => map (fun x => match PositiveMap.find x s with Some t => t | None => TV 1 end) dst | None => [] end.
Definition noload : base -> N := fun q => match q with BG => 24%N | BV _ => 0%N end.
Definition roundT : list term := Eval vm_compute in
  outs (asteps (inrange 2) noload None (seg permF 31 106) (ini 1 (file 2 false) (PositiveMap.empty term))) (file 2 true).
Definition lastT : list term := Eval vm_compute in
  map (sub 0) (outs (asteps (inrange 2) noload None (seg permF 2469 81) (ini 1 (file 2 true) (PositiveMap.empty term))) (fileA 2 false)).
Definition thetaT : list term := Eval vm_compute in
  outs (asteps (inrange 2) noload None (seg permF 26 5) (ini 1 (fileA 2 false) (PositiveMap.empty term))) (file 2 false).

Lemma round_eq rc AC : map (dt (sgl (acl AC)) (fun _ _ => rc)) roundT = acl (thetaRhoPiChiIotaPrepareTheta rc AC).
Proof.
  destruct AC as [[] []]. cbv [roundT map dt sgl acl lanesl parl fst snd app thetaRhoPiChiIotaPrepareTheta ROL64 not64 nth Pos.to_nat Pos.iter_op Init.Nat.add Init.Nat.sub].
  reflexivity.
Qed.
Lemma last_eq rc AC : map (dt (sgl (acl AC)) (fun _ _ => rc)) lastT = lanesl (thetaRhoPiChiIota rc AC).
Proof.
  destruct AC as [[] []]. cbv [lastT map dt sgl acl lanesl parl fst snd app thetaRhoPiChiIota ROL64 not64 nth Pos.to_nat Pos.iter_op Init.Nat.add Init.Nat.sub].
  reflexivity.
Qed.
Lemma theta_eq ld A : map (dt (sgl (lanesl A)) ld) thetaT = acl (A, prepareTheta A).
Proof.
  destruct A. cbv [thetaT map dt sgl acl lanesl parl fst snd app prepareTheta nth Pos.to_nat Pos.iter_op Init.Nat.add Init.Nat.sub].
  reflexivity.
Qed.

(** ** All rounds *)
Definition oddn (i : nat) : bool := Nat.odd i.
Definition rounds_ok (b : positive) (bnd : base -> N) (kv : option (positive * Z)) (F : list stmt) (n0 : nat) : bool :=
  seg_ok (inrange b) bnd kv (seg F n0 5) (fileA b false) (file b false) thetaT &&
  forallb (fun i => seg_ok (inrange b) bnd kv (seg F (n0 + 5 + 106 * i) 106) (file b (oddn i)) (file b (oddn (S i))) (map (sub (N.of_nat i)) roundT)) (List.seq 0 23) &&
  seg_ok (inrange b) bnd kv (seg F (n0 + 2443) 81) (file b true) (fileA b false) (map (sub 23) lastT).

Definition rcn (i : nat) : N := nth i KeccakF1600RoundConstants 0%N.
Fixpoint rnds (k i : nat) (AC : lanes * parities) : lanes * parities :=
  match k with O => AC | S k => rnds k (S i) (thetaRhoPiChiIotaPrepareTheta (rcn i) AC) end.
Definition perm (A : lanes) : lanes := thetaRhoPiChiIota (rcn 23) (rnds 23 0 (A, prepareTheta A)).
Lemma rounds24_perm A : rounds24 A = Ok (perm A).
Proof. reflexivity. Qed.

Lemma skipn_add {A} (l : list A) : forall n k, skipn k (skipn n l) = skipn (n + k) l.
Proof. induction l as [|x l IH]; intros [|n] k; cbn [skipn Nat.add]; try reflexivity; [destruct k; reflexivity|apply IH]. Qed.
Lemma seg_split F n k : skipn n F = seg F n k ++ skipn (n + k) F.
Proof. unfold seg. rewrite <- (firstn_skipn k (skipn n F)) at 1. f_equal. apply skipn_add. Qed.
Lemma map_sub_eq sg ld k ts : map (dt sg ld) (map (sub k) ts) = map (dt sg (fun _ _ => ld BG k)) ts.
Proof. rewrite map_map. apply map_ext. intros t. apply dt_sub. Qed.

Lemma rounds_wp b bnd kv ld F n0 P A e m Q : rounds_ok b bnd kv F n0 = true -> (forall i, (i < 24)%nat -> ld BG (N.of_nat i) = rcn i) ->
  regs e (fileA b false) (lanesl A) -> ldok (inrange b) bnd ld e m -> known kv e ->
  (forall e', regs e' (fileA b false) (lanesl (perm A)) -> same_out (inrange b) kv e e' -> wps P (skipn (n0 + 2524) F) e' m Q) ->
  wps P (skipn n0 F) e m Q.
Proof.
  unfold rounds_ok. intros H RC R L K W. apply andb_prop in H. destruct H as [H HL]. apply andb_prop in H. destruct H as [HT HR].
  rewrite (seg_split F n0 5). eapply seg_wp; [exact HT|exact R|exact L|exact K|]. intros e1 R1 S1. rewrite theta_eq in R1.
  assert (L1 := ldok_same _ _ _ _ _ _ _ L S1). assert (K1 := known_same _ _ _ _ K S1).
  assert (G : forall k i AC e1, (i + k = 23)%nat -> regs e1 (file b (oddn i)) (acl AC) -> ldok (inrange b) bnd ld e1 m -> known kv e1 ->
    (forall e', regs e' (file b true) (acl (rnds k i AC)) -> same_out (inrange b) kv e1 e' -> wps P (skipn (n0 + 2443) F) e' m Q) ->
    wps P (skipn (n0 + 5 + 106 * i) F) e1 m Q).
  { clear R L K W e e1 R1 S1 L1 K1. induction k as [|k IH]; intros i AC e1 E R L K W.
    - replace i with 23%nat in * by lia. replace (n0 + 5 + 106 * 23)%nat with (n0 + 2443)%nat by lia. apply W; [exact R|]. intros x _. reflexivity.
    - rewrite forallb_forall in HR. rewrite (seg_split F _ 106). eapply seg_wp; [apply (HR i); apply in_seq; lia|exact R|exact L|exact K|].
      intros e2 R2 S2. rewrite map_sub_eq, RC, round_eq in R2 by lia. replace (n0 + 5 + 106 * i + 106)%nat with (n0 + 5 + 106 * S i)%nat by lia.
      eapply IH; [lia|exact R2|eapply ldok_same; eassumption|eapply known_same; eassumption|].
      intros e3 R3 S3. apply W; [exact R3|]. eapply same_out_trans; eassumption. }
  specialize (G 23%nat 0%nat (A, prepareTheta A) e1 eq_refl R1 L1 K1). rewrite Nat.mul_0_r, Nat.add_0_r in G. apply G. clear G.
  intros e2 R2 S2. rewrite (seg_split F _ 81). eapply seg_wp; [exact HL|exact R2|eapply ldok_same; eassumption|eapply known_same; eassumption|].
  intros e3 R3 S3. rewrite map_sub_eq in R3. change 23%N with (N.of_nat 23) in R3. rewrite RC in R3 by lia. rewrite last_eq in R3. replace (n0 + 2443 + 81)%nat with (n0 + 2524)%nat by lia.
  apply W; [exact R3|]. eapply same_out_trans; [|exact S3]. eapply same_out_trans; eassumption.
Qed.

(** ** The state in memory *)
Definition lane_of (st : bytes) (i : N) : N := le_val (takeN 8 (dropN (8 * i) st)).
Lemma holds_lane m b o st i : holds m b o st -> bytes_ok st -> (8 * i + 8 <= lenN st)%N ->
  inb m b (o + 8 * ofN i) 8 /\ decode (bytesat m b (o + 8 * ofN i) 8) = ofN (lane_of st i) /\ word (lane_of st i).
Proof.
  intros H B L. assert (I := holds_inb _ _ _ _ H). split; [eapply inb_sub; [exact I|lia..]|].
  replace (8 * ofN i) with (ofN (8 * i)) by lia. rewrite (RefWin.holds_bytesat _ _ _ _ H 8 (8 * i)%N) by lia. rewrite RefWin.decode_ofN.
  split; [reflexivity|]. unfold word, lane_of. eapply N.lt_le_trans; [apply RefWin.le_val_bound, Forall_takeN, Forall_dropN, B|].
  rewrite lenN_takeN, lenN_dropN. rewrite N.min_l by lia. discriminate.
Qed.
Definition consts : bytes := Eval vm_compute in flat_map (le_bytes 8) KeccakF1600RoundConstants.
Definition kconst (m : mem) : Prop := holds m 1 0 consts.
Lemma consts_lane i : (i < 24)%nat -> lane_of consts (N.of_nat i) = rcn i.
Proof.
  intros L. assert (A : forallb (fun i => (lane_of consts (N.of_nat i) =? rcn i)%N) (List.seq 0 24) = true) by (vm_compute; reflexivity).
  rewrite forallb_forall in A. apply N.eqb_eq, A, in_seq. lia.
Qed.
Lemma consts_ok : bytes_ok consts.
Proof. repeat (constructor; [reflexivity|]). constructor. Qed.

Lemma encode_le : forall n v, encode n (ofN v) = map ofN (le_bytes n v).
Proof.
  induction n as [|n IH]; intros v; cbn [encode le_bytes map]; [reflexivity|]. f_equal.
  - change 255 with (Z.ones 8). rewrite Z.land_ones by lia. change (2 ^ 8) with (ofN 256). rewrite <- N2Z.inj_mod. reflexivity.
  - rewrite Z.shiftr_div_pow2 by lia. change (2 ^ 8) with (ofN 256). rewrite <- N2Z.inj_div. apply IH.
Qed.
Lemma holds_setb m b o l : inb m b o (ofN (lenN l)) -> holds (setb m b o (map ofN l)) b o l.
Proof.
  intros I. assert (L : Z.of_nat (length (map ofN l)) = ofN (lenN l)) by (rewrite map_length; unfold lenN; lia).
  split; [unfold setb; apply setc_inb, I|]. intros i Hi. assert (PO := proj1 (proj2 I)). rewrite byte_setb; [|rewrite L; exact I|lia]. rewrite Pos.eqb_refl, L.
  replace (o <=? o + ofN i) with true by lia. replace (o + ofN i <? o + ofN (lenN l)) with true by lia. cbn [andb].
  change 0 with (ofN 0). rewrite map_nth. unfold nthN. do 2 f_equal. lia.
Qed.

Definition addr (p : positive) (i : Z) : expr := if i =? 0 then EVar p else EAt (EVar p) 8 (EInt i).
Fixpoint sts (p : positive) (i : nat) (xs : list positive) : list stmt :=
  match xs with [] => [] | x :: xs => SStore 8 (addr p (Z.of_nat i)) (EVar x) :: sts p (S i) xs end.
Lemma pe_addr e m p i b o : 0 <= i -> lookup e p = VPtr b o -> pe e m (addr p i) (VPtr b (o + 8 * i)).
Proof.
  intros I H. unfold addr. destruct (Z.eqb_spec i 0) as [->|]; [rewrite Z.mul_0_r, Z.add_0_r; apply pe_var, H|]. apply pe_at; [apply pe_var, H|apply pe_int].
Qed.
Lemma lenN_lanes l : lenN (flat_map (le_bytes 8) l) = (8 * lenN l)%N.
Proof. induction l as [|x l IH]; [reflexivity|]. cbn [flat_map]. rewrite lenN_app, IH, lenN_le_bytes, lenN_cons. lia. Qed.
Lemma stores_wp P p rest e Q b o : lookup e p = VPtr b o -> forall xs l i m, regs e xs l -> inb m b (o + 8 * Z.of_nat i) (8 * ofN (lenN l)) ->
  (forall m', frame m m' (at_ b (o + 8 * Z.of_nat i) (8 * ofN (lenN l))) -> holds m' b (o + 8 * Z.of_nat i) (flat_map (le_bytes 8) l) -> wps P rest e m' Q) ->
  wps P (sts p i xs ++ rest) e m Q.
Proof.
  intros HP. induction xs as [|x xs IH]; intros l i m R I W; inversion R as [|? n ? l' [A _] B]; subst.
  - apply W; [apply frame_refl|]. split; [exact I|]. intros k Lk. unfold lenN in Lk. cbn in Lk. lia.
  - cbn [sts app wps]. rewrite lenN_cons in *. eapply wp_store; [apply pe_addr; [lia|exact HP]|apply pe_var, A|eapply inb_sub; [exact I|lia..]|].
    rewrite encode_le. set (m1 := setb m b _ _). assert (L8 := lenN_le_bytes 8 n). change (N.of_nat 8) with 8%N in L8.
    assert (F1 : frame m m1 (at_ b (o + 8 * Z.of_nat i) 8)).
    { unfold m1. replace 8 with (Z.of_nat (length (map ofN (le_bytes 8 n)))) at 4 by (rewrite map_length; unfold lenN in L8; lia). apply frame_setb.
      rewrite map_length. eapply inb_sub; [exact I|unfold lenN in L8; lia..]. }
    assert (H1 : holds m1 b (o + 8 * Z.of_nat i) (le_bytes 8 n)) by (apply holds_setb; rewrite L8; eapply inb_sub; [exact I|lia..]).
    apply (IH l' (S i) m1 B).
    + apply (inb_frame _ _ _ _ _ _ F1). eapply inb_sub; [exact I|lia..].
    + intros m' F H. apply W.
      * eapply frame_comp; [eapply frame_weak; [exact F1|in_at]|exact F|in_at].
      * cbn [flat_map]. apply RefOwf.holds_app; [eapply holds_frame; [exact H1|exact F|rewrite L8; in_at]|]. rewrite L8. replace (o + 8 * Z.of_nat i + ofN 8) with (o + 8 * Z.of_nat (S i)) by lia. exact H.
Qed.

(** ** The permutation *)
Definition lanes_at (st : bytes) : lanes := KeccakProof.lanes_of (KeccakProof.lane_at st).
Definition permuted (st : bytes) : bytes := copyToState (perm (lanes_at st)).
Lemma permuted_eq st : lenN st = 200%N -> KeccakP1600_Permute_24rounds st = Ok (permuted st).
Proof. intros L. unfold KeccakP1600_Permute_24rounds. rewrite KeccakProof.from_state by exact L. cbn [Base.bind]. rewrite rounds24_perm. cbn [Base.bind]. unfold permuted, lanes_at. reflexivity. Qed.
Lemma copy_lanes A : copyToState A = flat_map (le_bytes 8) (lanesl A).
Proof. destruct A. reflexivity. Qed.
Lemma permuted_len st : lenN (permuted st) = 200%N.
Proof. unfold permuted. rewrite copy_lanes, lenN_lanes. destruct (perm (lanes_at st)). reflexivity. Qed.
Lemma bytes_lanes l : bytes_ok (flat_map (le_bytes 8) l).
Proof. induction l as [|x l IH]; [constructor|]. cbn [flat_map]. apply Forall_app. split; [apply bytes_ok_le_bytes|exact IH]. Qed.
Lemma permuted_ok st : bytes_ok (permuted st).
Proof. unfold permuted. rewrite copy_lanes. apply bytes_lanes. Qed.

Definition loadT (p : positive) (n : nat) : list term := map (fun i => TLd (BV p) (N.of_nat i)) (List.seq 0 n).
Lemma load_eq sg ld p st : (forall i, (i < 25)%N -> ld (BV p) i = lane_of st i) -> map (dt sg ld) (loadT p 25) = lanesl (lanes_at st).
Proof. intros H. cbv [loadT List.seq map dt N.of_nat Pos.of_succ_nat Pos.succ]. rewrite !H by reflexivity. reflexivity. Qed.
Definition pbnd : base -> N := fun q => match q with BG => 24 | BV p => if Pos.eqb p 87 then 25 else 0 end%N.
Lemma perm_rounds_ok : rounds_ok 2 pbnd None permF 26 = true.
Proof. vm_compute. reflexivity. Qed.
Lemma perm_loads_ok : seg_ok (inrange 2) pbnd None (seg permF 1 25) [] (fileA 2 false) (loadT 87 25) = true.
Proof. vm_compute. reflexivity. Qed.
Lemma perm_first : permF = SSet 87 (EVar 1) :: skipn 1 permF.
Proof. reflexivity. Qed.
Lemma perm_last : skipn (26 + 2524) permF = sts 87 0 (fileA 2 false) ++ [].
Proof. vm_compute. reflexivity. Qed.
Lemma code_Permute : PositiveMap.find f_KeccakP1600_Permute_24rounds code = Some c_KeccakP1600_Permute_24rounds. Proof. vm_compute. reflexivity. Qed.

Definition ld2 (p q : positive) (st dat : bytes) : base -> N -> N :=
  fun b i => match b with BG => lane_of consts i | BV x => if Pos.eqb x p then lane_of st i else lane_of dat i end.
Lemma ref_Permute m b o st : holds m b o st -> lenN st = 200%N -> bytes_ok st -> kconst m ->
  calls code f_KeccakP1600_Permute_24rounds [VPtr b o] m (fun _ m' => frame m m' (at_ b o 200) /\ holds m' b o (permuted st)).
Proof.
  intros H L B C. eapply calls_intro; [exact code_Permute|]. cbn [fparams c_KeccakP1600_Permute_24rounds bind_params].
  apply wp_flat. change (flat (fbody c_KeccakP1600_Permute_24rounds)) with permF. rewrite perm_first. cbn [wps].
  eapply wp_set; [apply pe_var; reflexivity|]. set (e := PositiveMap.add 87%positive _ _).
  assert (E87 : lookup e 87 = VPtr b o) by reflexivity. clearbody e.
  assert (LD : ldok (inrange 2) pbnd (ld2 87 87 st []) e m).
  { intros [|p] i Hi _; cbn [pbnd] in Hi.
    - exists 1%positive, 0. split; [split; reflexivity|]. apply (holds_lane m 1 0 consts i C consts_ok). change (lenN consts) with 192%N. lia.
    - destruct (Pos.eqb_spec p 87) as [->|]; [|lia]. exists b, o. split; [exact E87|]. apply (holds_lane m b o st i H B). lia. }
  rewrite (seg_split permF 1 25). eapply seg_wp; [exact perm_loads_ok|constructor|exact LD|exact Logic.I|]. intros e1 R1 S1.
  rewrite (load_eq _ _ _ st) in R1 by reflexivity. change (1 + 25)%nat with 26%nat.
  eapply (rounds_wp 2 pbnd None (ld2 87 87 st [])); [exact perm_rounds_ok|intros i Hi; exact (consts_lane i Hi)|exact R1|eapply ldok_same; eassumption|exact Logic.I|]. intros e2 R2 S2.
  rewrite perm_last. assert (E2 : lookup e2 87 = VPtr b o) by (rewrite S2, S1 by (left; reflexivity); exact E87).
  assert (LL : lenN (lanesl (perm (lanes_at st))) = 25%N) by (destruct (perm (lanes_at st)); reflexivity).
  eapply (stores_wp code 87%positive [] e2 _ b o E2 _ _ 0%nat m R2); rewrite LL.
  - eapply inb_sub; [exact (holds_inb _ _ _ _ H)|lia..].
  - intros m' F K. cbn [wps]. rewrite Z.mul_0_r, Z.add_0_r in *. split; [exact F|]. unfold permuted. rewrite copy_lanes. exact K.
Qed.
