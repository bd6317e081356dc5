(** The four-way sponge is four sponges in step (property C45). *)
From Coq Require Import Lia ZifyBool ZifyNat ZifyN.
From Verif.Model Require Import Base Keccak Sponge Sponge4.
From Verif.Proof Require Import BaseProof.
Ltac Zify.zify_post_hook ::= Z.div_mod_to_equations.

Lemma mapM_bind {A B C} (f : A -> res B) (g : B -> res C) l :
  mapM (fun x => let! y := f x in g y) l = let! ys := mapM f l in mapM g ys.
Proof.
  induction l as [|x l IH]; cbn [mapM bind]; [reflexivity|].
  destruct (f x) as [y|]; cbn [bind]; [|reflexivity]. rewrite IH.
  destruct (mapM f l) as [ys|]; cbn [bind mapM]; [reflexivity|].
  destruct (g y); reflexivity.
Qed.
Lemma mapM_map {A B C} (f : A -> B) (g : B -> res C) l : mapM g (map f l) = mapM (fun x => g (f x)) l.
Proof. induction l as [|x l IH]; cbn [mapM map]; [reflexivity|]. rewrite IH. reflexivity. Qed.
Lemma mapM_Ok {A B} (f : A -> B) l : mapM (fun x => Ok (f x)) l = Ok (map f l).
Proof. apply mapM_pure. reflexivity. Qed.

(** the four lanes: pairs of a state and the data left to read *)
Definition four {A} (l : list A) : Prop := exists a b c d, l = [a; b; c; d].
Lemma four_length {A} (l : list A) : length l = 4%nat <-> four l.
Proof.
  split.
  - intros H. destruct l as [|a [|b [|c [|d [|]]]]]; try discriminate. exists a, b, c, d. reflexivity.
  - intros (a & b & c & d & ->). reflexivity.
Qed.

Lemma each4_1 {A B} (f : A -> res B) l : four l ->
  each4 (fun i => let! x := aget l i in f x) = mapM f l.
Proof. intros (a & b & c & d & ->). reflexivity. Qed.
Lemma each4_2 {A B C} (f : A -> B -> res C) l : four l ->
  each4 (fun i => let! x := aget (map fst l) i in let! y := aget (map snd l) i in f x y) =
  mapM (fun p => f (fst p) (snd p)) l.
Proof. intros (a & b & c & d & ->). reflexivity. Qed.
Lemma each4_2' {A B C} (f : A -> B -> res C) l : four l ->
  each4 (fun i => let! y := aget (map snd l) i in let! x := aget (map fst l) i in f x y) =
  mapM (fun p => f (fst p) (snd p)) l.
Proof. intros (a & b & c & d & ->). reflexivity. Qed.
Lemma four_map {A B} (f : A -> B) l : four l -> four (map f l).
Proof. intros (a & b & c & d & ->). exists (f a), (f b), (f c), (f d). reflexivity. Qed.
Lemma four_mapM {A B} (f : A -> res B) l ys : four l -> mapM f l = Ok ys -> four ys.
Proof.
  rewrite <- !four_length. intros H E. apply mapM_len in E. unfold lenN in E. lia.
Qed.

Lemma mapM_step {A B} (g : A * B -> res A) (k : A -> res A) (h : B -> B) (L : list (A * B)) :
  mapM (fun p => let! s := g p in let! s := k s in Ok (s, h (snd p))) L =
  let! S1 := mapM g L in let! S2 := mapM k S1 in Ok (combine S2 (map h (map snd L))).
Proof.
  induction L as [|p L IH]; cbn [mapM bind map combine]; [reflexivity|].
  destruct (g p) as [s|]; cbn [bind]; [|reflexivity].
  destruct (k s) as [s'|] eqn:K; cbn [bind].
  - rewrite IH. destruct (mapM g L) as [S1|]; cbn [bind mapM]; [|reflexivity]. rewrite K. cbn [bind].
    destruct (mapM k S1) as [S2|]; reflexivity.
  - destruct (mapM g L) as [S1|]; cbn [bind mapM]; [|reflexivity]. rewrite K. reflexivity.
Qed.
Lemma mapM_ext_in {A B} (f g : A -> res B) (P : A -> Prop) l :
  Forall P l -> (forall x, P x -> f x = g x) -> mapM f l = mapM g l.
Proof. intros H E. apply mapM_ext. intros x Hx. apply E. rewrite Forall_forall in H. apply H, Hx. Qed.
Lemma mapM_UB {A B} (l : list A) : l <> [] -> mapM (fun _ => (UB : res B)) l = UB.
Proof. destruct l; [congruence|reflexivity]. Qed.
Lemma four_nonempty {A} (l : list A) : four l -> l <> [].
Proof. intros (a & b & c & d & ->). discriminate. Qed.
Lemma fst_combine {A B} (l : list A) (m : list B) : length l = length m -> map fst (combine l m) = l.
Proof. revert m. induction l; intros [|y m] H; try discriminate; cbn; [reflexivity|]. f_equal. apply IHl. cbn in H. lia. Qed.
Lemma snd_combine {A B} (l : list A) (m : list B) : length l = length m -> map snd (combine l m) = m.
Proof. revert m. induction l; intros [|y m] H; try discriminate; cbn; [reflexivity|]. f_equal. apply IHl. cbn in H. lia. Qed.
Lemma combine_fst_snd {A B} (L : list (A * B)) : combine (map fst L) (map snd L) = L.
Proof. induction L as [|[a b] L IH]; cbn; congruence. Qed.

Section Steps.
Variable permute : bytes -> res bytes.

Definition lens_are (n : N) (L : list (bytes * bytes)) : Prop := Forall (fun p => lenN (snd p) = n) L.

Lemma add_bytes4 (L : list (bytes * bytes)) off len : four L -> lens_are len L \/ (exists n, lens_are n L /\ len <= n) ->
  each4 (fun i => let! d := aget (map snd L) i in PlSnP_AddBytes (map fst L) i d off len) =
  mapM (fun p => SnP_AddBytes (fst p) (takeN len (snd p)) off) L.
Proof.
  intros H4 HL. unfold PlSnP_AddBytes.
  rewrite (each4_2' (fun st d => let! d := slice d 0 len in SnP_AddBytes st d off)) by exact H4.
  assert (K : exists n, lens_are n L /\ len <= n).
  { destruct HL as [HL|HL]; [exists len; split; [exact HL|lia]|exact HL]. }
  destruct K as (n & K & Hn). apply (mapM_ext_in _ _ _ _ K). intros p Hp.
  rewrite slice_ok by lia. cbn [bind]. rewrite dropN_0. reflexivity.
Qed.
Lemma drop4 (L : list (bytes * bytes)) k : four L ->
  each4 (fun i => let! d := aget (map snd L) i in Ok (dropN k d)) = Ok (map (dropN k) (map snd L)).
Proof. intros H. rewrite each4_1 by (apply four_map, H). apply mapM_Ok. Qed.
Lemma permute4 S : four S -> PlSnP_Permute permute S = mapM permute S.
Proof. apply each4_1. Qed.
Lemma lens_drop n k L S : lens_are n L -> length S = length L ->
  lens_are (n - k) (combine S (map (dropN k) (map snd L))).
Proof.
  intros H E. unfold lens_are. revert S E. induction H as [|p L Hp HL IH]; intros [|s S] E; try discriminate; cbn; constructor.
  - cbn. rewrite lenN_dropN. lia.
  - apply IH. cbn in E. congruence.
Qed.
Lemma mapM_length {A B} (f : A -> res B) l ys : mapM f l = Ok ys -> length ys = length l.
Proof. intros H. apply mapM_len in H. unfold lenN in H. lia. Qed.

Lemma absorb_full_4 rate fuel : forall L j, four L -> lens_are j L ->
  exists j', absorb_full4 permute fuel (map fst L) rate (map snd L) j =
    (let! r := mapM (fun p => absorb_full permute fuel (fst p) rate (snd p)) L in
     Ok (map fst r, map snd r, j')) /\
    (forall r, mapM (fun p => absorb_full permute fuel (fst p) rate (snd p)) L = Ok r -> lens_are j' r /\ four r).
Proof.
  induction fuel as [|f IH]; intros L j H4 HL; cbn [absorb_full4].
  - destruct (rate <=? j) eqn:E.
    + exists 0. rewrite (mapM_ext_in _ (fun _ => UB) _ _ HL).
      2:{ intros p Hp. cbn [absorb_full]. rewrite Hp, E. reflexivity. }
      rewrite mapM_UB by (apply four_nonempty, H4). split; [reflexivity|discriminate].
    + exists j. rewrite (mapM_ext_in _ (fun p => Ok p) _ _ HL).
      2:{ intros p Hp. cbn [absorb_full]. rewrite Hp, E. destruct p; reflexivity. }
      rewrite mapM_Ok, map_id. split; [reflexivity|]. intros r Hr. inversion Hr; subst. split; assumption.
  - destruct (rate <=? j) eqn:E.
    + rewrite (mapM_ext_in (fun p => absorb_full permute (S f) (fst p) rate (snd p))
        (fun p => let! q := (let! s := SnP_AddBytes (fst p) (takeN rate (snd p)) 0 in
                             let! s := permute s in Ok (s, dropN rate (snd p))) in
                  absorb_full permute f (fst q) rate (snd q)) _ _ HL).
      2:{ intros p Hp. cbn [absorb_full]. rewrite Hp, E. destruct SnP_AddBytes; cbn [bind]; [|reflexivity].
          destruct permute; reflexivity. }
      rewrite mapM_bind, mapM_step.
      rewrite add_bytes4 by (exact H4 || (right; exists j; split; [exact HL|lia])).
      rewrite drop4 by exact H4.
      destruct (mapM (fun p => SnP_AddBytes (fst p) (takeN rate (snd p)) 0) L) as [S1|] eqn:E1; cbn [bind].
      2:{ exists 0. split; [reflexivity|discriminate]. }
      pose proof (four_mapM _ _ _ H4 E1) as H41. rewrite permute4 by exact H41.
      destruct (mapM permute S1) as [S2|] eqn:E2; cbn [bind].
      2:{ exists 0. split; [reflexivity|discriminate]. }
      assert (EL : length S2 = length L) by (rewrite (mapM_length _ _ _ E2); apply (mapM_length _ _ _ E1)).
      assert (EL' : length S2 = length (map (dropN rate) (map snd L))) by (rewrite !map_length; exact EL).
      destruct (IH (combine S2 (map (dropN rate) (map snd L))) (j - rate)) as (j' & E3 & E4).
      * apply four_length. rewrite combine_length, <- EL', EL, Nat.min_id. apply four_length, H4.
      * apply lens_drop; assumption.
      * rewrite fst_combine, snd_combine in E3 by exact EL'. exists j'. split; assumption.
    + exists j. rewrite (mapM_ext_in _ (fun p => Ok p) _ _ HL).
      2:{ intros p Hp. cbn [absorb_full]. rewrite Hp, E. destruct p; reflexivity. }
      rewrite mapM_Ok, map_id. split; [reflexivity|]. intros r Hr. inversion Hr; subst. split; assumption.
Qed.

(** the context of four as four contexts *)
Definition lanes4 (sp : sponge4) : list sponge :=
  map (fun st => mkSponge st (s4_rate sp) (s4_idx sp) (s4_squeezing sp)) (s4_states sp).

Lemma absorb_loop_4 rate sq fuel : forall idx L n, four L -> lens_are n L ->
  (let! c := absorb_loop4 permute fuel (mkSponge4 (map fst L) rate idx sq) (map snd L) n in
   Ok (lanes4 c)) =
  mapM (fun p => absorb_loop permute fuel (mkSponge (fst p) rate idx sq) (snd p)) L.
Proof.
  induction fuel as [|f IH]; intros idx L n H4 HL; cbn [absorb_loop4].
  - destruct (n =? 0) eqn:E; cbn [bind].
    + rewrite (mapM_ext_in _ (fun p => Ok (mkSponge (fst p) rate idx sq)) _ _ HL), mapM_Ok.
      2:{ intros p Hp. destruct (snd p) as [|x d]; [reflexivity|]. rewrite lenN_cons in Hp. lia. }
      unfold lanes4. cbn [s4_states s4_rate s4_idx s4_squeezing]. rewrite map_map. reflexivity.
    + rewrite (mapM_ext_in _ (fun _ => UB) _ _ HL).
      { rewrite mapM_UB by (apply four_nonempty, H4). reflexivity. }
      intros p Hp. destruct (snd p) as [|x d]; [change (0 = n) in Hp; lia|]. reflexivity.
  - destruct (n =? 0) eqn:E; cbn [bind].
    { rewrite (mapM_ext_in _ (fun p => Ok (mkSponge (fst p) rate idx sq)) _ _ HL), mapM_Ok.
      2:{ intros p Hp. destruct (snd p) as [|x d]; [reflexivity|]. rewrite lenN_cons in Hp. lia. }
      unfold lanes4. cbn [s4_states s4_rate s4_idx s4_squeezing]. rewrite map_map. reflexivity. }
    cbn [s4_states s4_rate s4_idx s4_squeezing].
    assert (NE : forall p : bytes * bytes, lenN (snd p) = n -> exists x d, snd p = x :: d).
    { intros p Hp. destruct (snd p) as [|x d]; [change (0 = n) in Hp; lia|]. eauto. }
    destruct ((idx =? 0) && (rate <=? n)) eqn:C.
    + rewrite (mapM_ext_in (fun p => absorb_loop permute (S f) _ (snd p))
        (fun p => let! q := absorb_full permute (N.to_nat n) (fst p) rate (snd p) in
                  absorb_loop permute f (mkSponge (fst q) rate idx sq) (snd q)) _ _ HL).
      2:{ intros p Hp. destruct (NE p Hp) as (x & d & D). rewrite D. cbn [absorb_loop sp_rate sp_idx sp_state sp_squeezing].
          rewrite <- D, Hp, C. rewrite (length_lenN (snd p)), Hp. reflexivity. }
      rewrite mapM_bind. destruct (absorb_full_4 rate (N.to_nat n) L n H4 HL) as (j' & -> & K).
      destruct (mapM (fun p => absorb_full permute (N.to_nat n) (fst p) rate (snd p)) L) as [r|]; cbn [bind]; [|reflexivity].
      destruct (K r eq_refl) as (K1 & K2). apply IH; assumption.
    + set (partial := if rate <? u32 (u32 n + idx) then rate - idx else u32 n).
      rewrite (mapM_ext_in (fun p => absorb_loop permute (S f) _ (snd p))
        (fun p => let! _ := guard (negb (partial =? 0)) in
                  let! q := (let! s := SnP_AddBytes (fst p) (takeN partial (snd p)) idx in
                             let! s := (if idx + partial =? rate then permute s else Ok s) in
                             Ok (s, dropN partial (snd p))) in
                  absorb_loop permute f (mkSponge (fst q) rate (if idx + partial =? rate then 0 else idx + partial) sq) (snd q)) _ _ HL).
      2:{ intros p Hp. destruct (NE p Hp) as (x & d & D). rewrite D. cbn [absorb_loop sp_rate sp_idx sp_state sp_squeezing].
          rewrite <- D, Hp, C. fold partial. destruct guard; cbn [bind]; [|reflexivity].
          destruct SnP_AddBytes; cbn [bind]; [|reflexivity].
          destruct (idx + partial =? rate); [destruct permute|]; reflexivity. }
      destruct (guard (negb (partial =? 0))) eqn:G; cbn [bind].
      2:{ rewrite mapM_UB by (apply four_nonempty, H4). reflexivity. }
      rewrite mapM_bind, mapM_step.
      (* the reads stay inside the data: partial <= n *)
      destruct (N.le_gt_cases partial n) as [Hpn|Hpn].
      * rewrite add_bytes4 by (exact H4 || (right; exists n; split; [exact HL|exact Hpn])).
        rewrite drop4 by exact H4.
        destruct (mapM (fun p => SnP_AddBytes (fst p) (takeN partial (snd p)) idx) L) as [S1|] eqn:E1; cbn [bind]; [|reflexivity].
        pose proof (four_mapM _ _ _ H4 E1) as H41.
        assert (EL1 : length S1 = length L) by apply (mapM_length _ _ _ E1).
        destruct (idx + partial =? rate).
        -- rewrite permute4 by exact H41. destruct (mapM permute S1) as [S2|] eqn:E2; cbn [bind]; [|reflexivity].
           assert (EL : length S2 = length L) by (rewrite (mapM_length _ _ _ E2); exact EL1).
           assert (EL' : length S2 = length (map (dropN partial) (map snd L))) by (rewrite !map_length; exact EL).
           rewrite <- (IH 0 (combine S2 (map (dropN partial) (map snd L))) (n - partial)).
           ++ rewrite fst_combine, snd_combine by exact EL'. reflexivity.
           ++ apply four_length. rewrite combine_length, <- EL', EL, Nat.min_id. apply four_length, H4.
           ++ apply lens_drop; assumption.
        -- rewrite mapM_Ok, map_id. cbn [bind].
           assert (EL' : length S1 = length (map (dropN partial) (map snd L))) by (rewrite !map_length; exact EL1).
           rewrite <- (IH (idx + partial) (combine S1 (map (dropN partial) (map snd L))) (n - partial)).
           ++ rewrite fst_combine, snd_combine by exact EL'. reflexivity.
           ++ apply four_length. rewrite combine_length, <- EL', EL1, Nat.min_id. apply four_length, H4.
           ++ apply lens_drop; assumption.
      * exfalso. unfold partial, u32 in Hpn. destruct (rate <? (n mod 2 ^ 32 + idx) mod 2 ^ 32) eqn:Q; 
          change (2 ^ 32) with 4294967296 in *; clear - Hpn Q; lia.
Qed.

Lemma mapM_pair {A B C D} (f : A -> res B) (g : A -> res C) (h : B -> C -> D) (l : list A) :
  mapM (fun x => let! b := f x in let! r := g x in Ok (h b r)) l =
  let! bs := mapM f l in let! rs := mapM g l in Ok (zipw h bs rs).
Proof using.
  induction l as [|x l IH]; cbn [mapM bind zipw]; [reflexivity|].
  destruct (f x) as [b|]; cbn [bind]; [|reflexivity].
  destruct (g x) as [r|]; cbn [bind].
  - rewrite IH. destruct (mapM f l) as [bs|]; cbn [bind]; [|reflexivity].
    destruct (mapM g l) as [rs|]; reflexivity.
  - destruct (mapM f l); reflexivity.
Qed.
Lemma map_zipw_r {A B C D} (h : A -> B -> C) (k : C -> D) (k' : B -> D) :
  (forall a b, k (h a b) = k' b) ->
  forall l m, length l = length m -> map k (zipw h l m) = map k' m.
Proof using.
  intros H l. induction l as [|a l IH]; intros [|b m] E; try discriminate; cbn; [reflexivity|].
  rewrite H, IH by (cbn in E; lia). reflexivity.
Qed.
Lemma map_zipw_b {A B C D E} (h : A -> B -> C) (k : C -> D) (k' : B -> E) (h' : A -> E -> D) :
  (forall a b, k (h a b) = h' a (k' b)) ->
  forall l m, map k (zipw h l m) = zipw h' l (map k' m).
Proof using.
  intros H l. induction l as [|a l IH]; intros [|b m]; cbn; try reflexivity.
  rewrite H, IH. reflexivity.
Qed.
Lemma zipw_length {A B C} (h : A -> B -> C) l m : length l = length m -> length (zipw h l m) = length m.
Proof using. revert m. induction l; intros [|b m] E; try discriminate; cbn; [reflexivity|]. rewrite IHl; cbn in E; lia. Qed.

Lemma extract4 S off len : four S ->
  each4 (fun i => PlSnP_ExtractBytes S i off len) = mapM (fun st => SnP_ExtractBytes st off len) S.
Proof using. apply each4_1. Qed.

Lemma squeeze_full_4 rate fuel : forall S j, four S ->
  match squeeze_full4 permute fuel S rate j with
  | Ok (S', outs, j') =>
      mapM (fun s => squeeze_full permute fuel s rate j) S = Ok (combine (combine S' outs) (map (fun _ => j') S')) /\
      four S' /\ four outs
  | UB => mapM (fun s => squeeze_full permute fuel s rate j) S = UB
  end.
Proof.
  induction fuel as [|f IH]; intros S j H4; cbn [squeeze_full4].
  - destruct (rate <=? j) eqn:E; cbn [squeeze_full]; rewrite E.
    + apply mapM_UB, four_nonempty, H4.
    + destruct H4 as (a & b & c & d & ->). repeat split; eexists _, _, _, _; reflexivity.
  - destruct (rate <=? j) eqn:E.
    + rewrite permute4 by exact H4.
      assert (E0 : mapM (fun s => squeeze_full permute (Datatypes.S f) s rate j) S =
        let! S2 := mapM permute S in
        mapM (fun st => let! b := SnP_ExtractBytes st 0 rate in
                        let! r := squeeze_full permute f st rate (j - rate) in
                        Ok (fst (fst r), b ++ snd (fst r), snd r)) S2).
      { rewrite <- mapM_bind. apply mapM_ext. intros s _. cbn [squeeze_full]. rewrite E. reflexivity. }
      rewrite E0. clear E0. destruct (mapM permute S) as [S2|] eqn:E2; cbn [bind]; [|reflexivity].
      pose proof (four_mapM _ _ _ H4 E2) as H42.
      rewrite extract4 by exact H42. rewrite (mapM_pair _ _ (fun b (r : bytes * bytes * N) => (fst (fst r), b ++ snd (fst r), snd r))).
      destruct (mapM (fun st => SnP_ExtractBytes st 0 rate) S2) as [bs|] eqn:EB; cbn [bind]; [|reflexivity].
      pose proof (four_mapM _ _ _ H42 EB) as H4b.
      specialize (IH S2 (j - rate) H42).
      destruct (squeeze_full4 permute f S2 rate (j - rate)) as [[[S' outs] j']|]; cbn [bind]; [|rewrite IH; reflexivity].
      destruct IH as (IH & H4s & H4o). rewrite IH. cbn [bind].
      destruct H4s as (s1 & s2 & s3 & s4 & ->), H4o as (o1 & o2 & o3 & o4 & ->), H4b as (b1 & b2 & b3 & b4 & ->).
      repeat split; eexists _, _, _, _; reflexivity.
    + rewrite (mapM_ext _ (fun s => Ok (s, [], j))).
      2:{ intros s _. cbn [squeeze_full]. rewrite E. reflexivity. }
      destruct H4 as (a & b & c & d & ->). repeat split; eexists _, _, _, _; reflexivity.
Qed.

(** the outcome of a squeeze of the four against the four squeezes *)
Definition agree4o (a : res (sponge4 * list bytes)) (b : res (list (sponge * bytes))) : Prop :=
  match a with
  | Ok (sp, outs) => b = Ok (combine (lanes4 sp) outs) /\ four (s4_states sp) /\ four outs
  | UB => b = UB
  end.

Lemma squeeze_loop_4 rate sq fuel : forall idx S n, four S ->
  agree4o (squeeze_loop4 permute fuel (mkSponge4 S rate idx sq) n)
          (mapM (fun s => squeeze_loop permute fuel (mkSponge s rate idx sq) n) S).
Proof.
  induction fuel as [|f IH]; intros idx S n H4; cbn [squeeze_loop4 squeeze_loop].
  - destruct (n =? 0).
    + destruct H4 as (a & b & c & d & ->). repeat split; eexists _, _, _, _; reflexivity.
    + apply mapM_UB, four_nonempty, H4.
  - destruct (n =? 0).
    { destruct H4 as (a & b & c & d & ->). repeat split; eexists _, _, _, _; reflexivity. }
    cbn [s4_states s4_rate s4_idx s4_squeezing sp_rate sp_idx sp_state sp_squeezing].
    destruct ((idx =? rate) && (rate <=? n)) eqn:C.
    + rewrite (mapM_bind (fun s => squeeze_full permute (N.to_nat n) s rate n)
        (fun r => let! r' := squeeze_loop permute f (mkSponge (fst (fst r)) rate idx sq) (snd r) in
                  Ok (fst r', snd (fst r) ++ snd r')) S).
      pose proof (squeeze_full_4 rate (N.to_nat n) S n H4) as K.
      destruct (squeeze_full4 permute (N.to_nat n) S rate n) as [[[S' outs] j']|]; cbn [bind]; [|rewrite K; reflexivity].
      destruct K as (K & H4s & H4o). rewrite K. cbn [bind].
      specialize (IH idx S' j' H4s).
      destruct H4s as (s1 & s2 & s3 & s4 & ->), H4o as (o1 & o2 & o3 & o4 & ->).
      cbn [map combine mapM fst snd] in IH |- *.
      destruct (squeeze_loop4 permute f (mkSponge4 [s1; s2; s3; s4] rate idx sq) j') as [[sp' outs']|]; cbn [bind agree4o fst snd] in IH |- *.
      * destruct IH as (IH & (t1 & t2 & t3 & t4 & Et) & (u1 & u2 & u3 & u4 & ->)).
        unfold lanes4 in *. rewrite Et in *. cbn [map combine] in IH.
        repeat (match type of IH with context [squeeze_loop permute f ?s j'] => destruct (squeeze_loop permute f s j') end; cbn [bind] in IH |- *; try discriminate).
        inversion IH; subst. repeat split; eexists _, _, _, _; reflexivity.
      * repeat (match type of IH with context [squeeze_loop permute f ?s j'] => destruct (squeeze_loop permute f s j') end; cbn [bind] in IH |- *; try discriminate; try reflexivity).
    + assert (Body : forall S' idx', four S' ->
        agree4o
          (let partial := if rate <? u32 (u32 n + idx') then rate - idx' else u32 n in
           let! _ := guard (negb (partial =? 0)) in
           let! b := each4 (fun i => PlSnP_ExtractBytes S' i idx' partial) in
           let! r' := squeeze_loop4 permute f (mkSponge4 S' rate (idx' + partial) sq) (n - partial) in
           Ok (fst r', zipw (@app N) b (snd r')))
          (mapM (fun st =>
           let partial := if rate <? u32 (u32 n + idx') then rate - idx' else u32 n in
           let! _ := guard (negb (partial =? 0)) in
           let! b := SnP_ExtractBytes st idx' partial in
           let! r' := squeeze_loop permute f (mkSponge st rate (idx' + partial) sq) (n - partial) in
           Ok (fst r', b ++ snd r')) S')).
      { intros S' idx' H4'. cbv zeta.
        set (partial := if rate <? u32 (u32 n + idx') then rate - idx' else u32 n).
        destruct (guard (negb (partial =? 0))); cbn [bind].
        2:{ cbn [agree4o]. apply mapM_UB, four_nonempty, H4'. }
        rewrite extract4 by exact H4'.
        rewrite (mapM_pair _ _ (fun b (r' : sponge * bytes) => (fst r', b ++ snd r'))).
        destruct (mapM (fun st => SnP_ExtractBytes st idx' partial) S') as [bs|] eqn:EB; cbn [bind agree4o]; [|reflexivity].
        pose proof (four_mapM _ _ _ H4' EB) as H4b.
        specialize (IH (idx' + partial) S' (n - partial) H4').
        destruct (squeeze_loop4 permute f (mkSponge4 S' rate (idx' + partial) sq) (n - partial)) as [[sp' outs']|]; cbn [bind agree4o fst snd] in IH |- *.
        - destruct IH as (IH & (t1 & t2 & t3 & t4 & Et) & (u1 & u2 & u3 & u4 & ->)). rewrite IH. cbn [bind].
          destruct H4b as (b1 & b2 & b3 & b4 & ->). unfold lanes4. rewrite Et.
          repeat split; eexists _, _, _, _; reflexivity.
        - rewrite IH. reflexivity. }
      destruct (idx =? rate) eqn:CI.
      * rewrite permute4 by exact H4.
        pose proof (mapM_bind permute (fun st =>
           let partial := if rate <? u32 (u32 n + 0) then rate - 0 else u32 n in
           let! _ := guard (negb (partial =? 0)) in
           let! b := SnP_ExtractBytes st 0 partial in
           let! r' := squeeze_loop permute f (mkSponge st rate (0 + partial) sq) (n - partial) in
           Ok (fst r', b ++ snd r')) S) as K.
        rewrite (mapM_ext _ (fun x => let! y := permute x in
           let partial := if rate <? u32 (u32 n + 0) then rate - 0 else u32 n in
           let! _ := guard (negb (partial =? 0)) in
           let! b := SnP_ExtractBytes y 0 partial in
           let! r' := squeeze_loop permute f (mkSponge y rate (0 + partial) sq) (n - partial) in
           Ok (fst r', b ++ snd r'))) by (intros x _; destruct (permute x); reflexivity).
        rewrite K. destruct (mapM permute S) as [S2|] eqn:E2; cbn [bind]; [|reflexivity].
        apply Body. apply (four_mapM _ _ _ H4 E2).
      * cbn [bind]. apply Body, H4.
Qed.

Definition agree4 (a : res sponge4) (b : res (list sponge)) : Prop :=
  match a with
  | Ok sp => b = Ok (lanes4 sp) /\ four (s4_states sp)
  | UB => b = UB
  end.

Lemma lanes4_four sp : four (lanes4 sp) -> four (s4_states sp).
Proof using. unfold lanes4. rewrite <- !four_length, map_length. auto. Qed.

Lemma update_4 sp data n : four (s4_states sp) -> four data -> Forall (fun d => lenN d = n) data ->
  agree4 (hash_update_4 permute sp data n) (hash_update_x4 permute (lanes4 sp) data).
Proof.
  intros H4 H4d HL. destruct sp as [S rate idx sq]. cbn [s4_states] in H4.
  assert (EQ : hash_update_x4 permute (lanes4 (mkSponge4 S rate idx sq)) data =
    mapM (fun p => hash_update permute (mkSponge (fst p) rate idx sq) (snd p)) (combine S data)).
  { destruct H4 as (a & b & c & d & ->), H4d as (a' & b' & c' & d' & ->). reflexivity. }
  rewrite EQ. unfold hash_update_4, SpongeAbsorb4, hash_update, SpongeAbsorb.
  cbn [s4_squeezing sp_squeezing]. destruct sq; cbn [bind snd agree4].
  { split; [|exact H4]. destruct H4 as (a & b & c & d & ->), H4d as (a' & b' & c' & d' & ->). reflexivity. }
  assert (EC : (if 0 <? n then each4 (fun i => aget data i) else Ok data) = Ok data).
  { destruct (0 <? n); [|reflexivity]. destruct H4d as (a' & b' & c' & d' & ->). reflexivity. }
  rewrite EC. cbn [bind].
  assert (LL : length S = length data) by (apply four_length in H4; apply four_length in H4d; lia).
  assert (HC : lens_are n (combine S data)).
  { unfold lens_are. clear - HL LL. revert S LL. induction HL as [|x l Hx Hl IH]; intros [|s S] LL; try discriminate; cbn; constructor.
    - exact Hx.
    - apply IH. cbn in LL. lia. }
  assert (H4c : four (combine S data)).
  { destruct H4 as (a & b & c & d & ->), H4d as (a' & b' & c' & d' & ->). eexists _, _, _, _; reflexivity. }
  pose proof (absorb_loop_4 rate false (N.to_nat n) idx (combine S data) n H4c HC) as K.
  rewrite fst_combine, snd_combine in K by exact LL.
  rewrite (mapM_ext_in (fun p => let! r := (let! sp := absorb_loop permute (length (snd p)) (mkSponge (fst p) rate idx false) (snd p) in Ok (0, sp)) in Ok (snd r))
    (fun p => absorb_loop permute (N.to_nat n) (mkSponge (fst p) rate idx false) (snd p)) _ _ HC).
  2:{ intros p Hp. rewrite length_lenN, Hp. destruct absorb_loop; reflexivity. }
  rewrite <- K. destruct (absorb_loop4 permute (N.to_nat n) (mkSponge4 S rate idx false) data n) as [sp'|]; cbn [bind snd agree4]; [|reflexivity].
  split; [reflexivity|]. apply lanes4_four. cbn [bind] in K. symmetry in K. exact (four_mapM _ _ _ H4c K).
Qed.

Lemma addbyte4 S b off : four S -> each4 (fun i => PlSnP_AddByte S i b off) = mapM (fun st => SnP_AddByte st b off) S.
Proof using. apply each4_1. Qed.

Lemma lastbits_4 sp x : four (s4_states sp) ->
  match SpongeAbsorbLastFewBits4 permute sp x with
  | Ok (c, sp') => mapM (fun s => SpongeAbsorbLastFewBits permute s x) (lanes4 sp) = Ok (map (fun s => (c, s)) (lanes4 sp')) /\
                   four (s4_states sp')
  | UB => mapM (fun s => SpongeAbsorbLastFewBits permute s x) (lanes4 sp) = UB
  end.
Proof.
  destruct sp as [S rate idx sq]. cbn [s4_states]. intros H4.
  assert (LE : mapM (fun s => SpongeAbsorbLastFewBits permute s x) (lanes4 (mkSponge4 S rate idx sq)) =
               mapM (fun st => SpongeAbsorbLastFewBits permute (mkSponge st rate idx sq) x) S).
  { unfold lanes4. rewrite mapM_map. reflexivity. }
  rewrite LE. clear LE. unfold SpongeAbsorbLastFewBits4, SpongeAbsorbLastFewBits.
  cbn [s4_states s4_rate s4_idx s4_squeezing sp_rate sp_idx sp_state sp_squeezing].
  destruct (x =? 0).
  { split; [|exact H4]. destruct H4 as (a & b & c & d & ->). reflexivity. }
  destruct sq.
  { split; [|exact H4]. destruct H4 as (a & b & c & d & ->). reflexivity. }
  rewrite addbyte4 by exact H4.
  rewrite (mapM_bind (fun st => SnP_AddByte st x idx)
    (fun st => let! st0 := (if (128 <=? x) && (idx =? rate - 1) then permute st else Ok st) in
               let! st1 := SnP_AddByte st0 128 (rate - 1) in
               let! st2 := permute st1 in Ok (0, mkSponge st2 rate 0 true)) S).
  destruct (mapM (fun st => SnP_AddByte st x idx) S) as [S1|] eqn:E1; cbn [bind]; [|reflexivity].
  pose proof (four_mapM _ _ _ H4 E1) as H41.
  rewrite (mapM_bind (fun st => if (128 <=? x) && (idx =? rate - 1) then permute st else Ok st)
    (fun st0 => let! st1 := SnP_AddByte st0 128 (rate - 1) in
                let! st2 := permute st1 in Ok (0, mkSponge st2 rate 0 true)) S1).
  assert (EP : (if (128 <=? x) && (idx =? rate - 1) then PlSnP_Permute permute S1 else Ok S1) =
    mapM (fun st => if (128 <=? x) && (idx =? rate - 1) then permute st else Ok st) S1).
  { destruct ((128 <=? x) && (idx =? rate - 1)); [apply permute4, H41|]. rewrite mapM_Ok, map_id. reflexivity. }
  rewrite EP. clear EP.
  destruct (mapM (fun st => if (128 <=? x) && (idx =? rate - 1) then permute st else Ok st) S1) as [S2|] eqn:E2; cbn [bind]; [|reflexivity].
  pose proof (four_mapM _ _ _ H41 E2) as H42.
  rewrite addbyte4 by exact H42.
  rewrite (mapM_bind (fun st => SnP_AddByte st 128 (rate - 1))
    (fun st1 => let! st2 := permute st1 in Ok (0, mkSponge st2 rate 0 true)) S2).
  destruct (mapM (fun st => SnP_AddByte st 128 (rate - 1)) S2) as [S3|] eqn:E3; cbn [bind]; [|reflexivity].
  pose proof (four_mapM _ _ _ H42 E3) as H43.
  rewrite permute4 by exact H43. rewrite (mapM_bind permute (fun st2 => Ok (0, mkSponge st2 rate 0 true)) S3).
  destruct (mapM permute S3) as [S4|] eqn:E4; cbn [bind]; [|reflexivity].
  pose proof (four_mapM _ _ _ H43 E4) as H44.
  split; [|exact H44]. rewrite mapM_Ok. unfold lanes4. cbn [s4_states s4_rate s4_idx s4_squeezing].
  rewrite map_map. reflexivity.
Qed.

Lemma squeeze_4 sp n : four (s4_states sp) ->
  agree4o (SpongeSqueeze4 permute sp n) (mapM (fun s => SpongeSqueeze permute s n) (lanes4 sp)).
Proof.
  intros H4. unfold SpongeSqueeze4, SpongeSqueeze.
  rewrite (mapM_bind (fun s => if sp_squeezing s then Ok s else let! r := SpongeAbsorbLastFewBits permute s 1 in Ok (snd r))
    (fun s => squeeze_loop permute (N.to_nat n) s n) (lanes4 sp)).
  assert (K : agree4 (if s4_squeezing sp then Ok sp else let! r := SpongeAbsorbLastFewBits4 permute sp 1 in Ok (snd r))
    (mapM (fun s => if sp_squeezing s then Ok s else let! r := SpongeAbsorbLastFewBits permute s 1 in Ok (snd r)) (lanes4 sp))).
  { pose proof (lastbits_4 sp 1 H4) as L. destruct sp as [S rate idx sq]. cbn [s4_squeezing s4_states] in *. destruct sq.
    - split; [|exact H4]. destruct H4 as (a & b & c & d & ->). reflexivity.
    - rewrite (mapM_ext _ (fun s => let! r := SpongeAbsorbLastFewBits permute s 1 in Ok (snd r))).
      2:{ intros s Hs. unfold lanes4 in Hs. apply in_map_iff in Hs. destruct Hs as (st & <- & _). reflexivity. }
      rewrite (mapM_bind (fun s => SpongeAbsorbLastFewBits permute s 1) (fun r => Ok (snd r))).
      destruct (SpongeAbsorbLastFewBits4 permute (mkSponge4 S rate idx false) 1) as [[c sp']|]; cbn [bind snd agree4].
      + destruct L as (L & L4). rewrite L. cbn [bind]. split; [|exact L4]. rewrite mapM_Ok, map_map. cbn [snd]. rewrite map_id. reflexivity.
      + rewrite L. reflexivity. }
  destruct (if s4_squeezing sp then Ok sp else _) as [sp'|]; cbn [bind agree4] in K |- *; [|rewrite K; reflexivity].
  destruct K as (K & K4). rewrite K. cbn [bind]. destruct sp' as [S rate idx sq].
  unfold lanes4 at 1. rewrite mapM_map. cbn [s4_states s4_rate s4_idx s4_squeezing]. apply squeeze_loop_4, K4.
Qed.

Lemma final_4 sp : four (s4_states sp) -> agree4 (hash_final_4 permute sp) (hash_final_x4 permute (lanes4 sp)).
Proof.
  intros H4. assert (E : hash_final_x4 permute (lanes4 sp) = mapM (hash_final permute) (lanes4 sp)).
  { destruct sp as [S rate idx sq]. destruct H4 as (a & b & c & d & H). cbn [s4_states] in H. subst S. reflexivity. }
  rewrite E. unfold hash_final_4, hash_final.
  rewrite (mapM_bind (fun s => SpongeAbsorbLastFewBits permute s shake_suffix)
    (fun r => if fst r =? 0 then let! r' := SpongeSqueeze permute (snd r) 0 in Ok (fst r') else Ok (snd r)) (lanes4 sp)).
  pose proof (lastbits_4 sp shake_suffix H4) as L.
  destruct (SpongeAbsorbLastFewBits4 permute sp shake_suffix) as [[c sp']|]; cbn [bind snd fst agree4]; [|rewrite L; reflexivity].
  destruct L as (L & L4). rewrite L. cbn [bind]. rewrite mapM_map. cbn [fst snd].
  destruct (c =? 0).
  - rewrite (mapM_bind (fun s => SpongeSqueeze permute s 0) (fun r' => Ok (fst r')) (lanes4 sp')).
    pose proof (squeeze_4 sp' 0 L4) as Q. destruct (SpongeSqueeze4 permute sp' 0) as [[sp2 outs]|]; cbn [bind agree4o agree4 fst] in Q |- *.
    + destruct Q as (Q & Q4 & Q4o). rewrite Q. cbn [bind]. split; [|exact Q4]. rewrite mapM_Ok. f_equal. apply fst_combine.
      unfold lanes4. rewrite map_length. apply four_length in Q4. apply four_length in Q4o. lia.
    + rewrite Q. reflexivity.
  - split; [|exact L4]. rewrite mapM_Ok, map_id. reflexivity.
Qed.

(** four strings of one length *)
Definition equal_lengths (m : list bytes) : Prop :=
  length m = 4%nat /\ forall a b, In a m -> In b m -> lenN a = lenN b.

Lemma updates_4 pieces : Forall equal_lengths pieces -> forall sp, four (s4_states sp) ->
  agree4 (hash_updates_4 permute sp pieces) (hash_updates_x4 permute (lanes4 sp) pieces).
Proof.
  induction 1 as [|m ms (Hm & He) Hms IH]; intros sp H4; cbn [hash_updates_4 hash_updates_x4].
  - split; [reflexivity|exact H4].
  - destruct (proj1 (four_length m) Hm) as (a & b & c & d & Em).
    assert (A0 : aget m 0 = Ok a) by (rewrite Em; reflexivity). rewrite A0. cbn [bind].
    assert (HL : Forall (fun x => lenN x = lenN a) m).
    { apply Forall_forall. intros x Hx. apply He; [exact Hx|]. rewrite Em. left. reflexivity. }
    pose proof (update_4 sp m (lenN a) H4 (proj1 (four_length m) Hm) HL) as K.
    destruct (hash_update_4 permute sp m (lenN a)) as [sp'|]; cbn [bind agree4] in K |- *; [|rewrite K; reflexivity].
    destruct K as (K & K4). rewrite K. cbn [bind]. apply IH, K4.
Qed.

Lemma squeezes_4 lens : forall sp, four (s4_states sp) ->
  hash_squeezes_4 permute sp lens = hash_squeezes_x4 permute (lanes4 sp) lens.
Proof.
  induction lens as [|n ns IH]; intros sp H4; cbn [hash_squeezes_4 hash_squeezes_x4]; [reflexivity|].
  unfold hash_squeeze_4, hash_squeeze_x4.
  assert (E : mapM (fun i => let! c := aget (lanes4 sp) i in hash_squeeze permute c n) [0; 1; 2; 3] =
              mapM (fun s => SpongeSqueeze permute s n) (lanes4 sp)).
  { destruct sp as [S rate idx sq]. destruct H4 as (a & b & c & d & H). cbn [s4_states] in H. subst S. reflexivity. }
  rewrite E. pose proof (squeeze_4 sp n H4) as Q.
  destruct (SpongeSqueeze4 permute sp n) as [[sp' outs]|]; cbn [bind agree4o fst snd] in Q |- *; [|rewrite Q; reflexivity].
  destruct Q as (Q & Q4 & Q4o). rewrite Q. cbn [bind fst snd].
  assert (LL : length (lanes4 sp') = length outs).
  { unfold lanes4. rewrite map_length. apply four_length in Q4. apply four_length in Q4o. lia. }
  rewrite fst_combine, snd_combine by exact LL. rewrite IH by exact Q4. reflexivity.
Qed.

Lemma run_4 sec pieces lens : Forall equal_lengths pieces ->
  hash_run_4 permute sec pieces lens = hash_run_x4 permute sec pieces lens.
Proof.
  intros H. unfold hash_run_4, hash_run_x4.
  assert (H4 : four (s4_states (hash_init_4 sec))) by (eexists _, _, _, _; reflexivity).
  pose proof (updates_4 pieces H (hash_init_4 sec) H4) as U.
  change (lanes4 (hash_init_4 sec)) with (hash_init_x4 sec) in U.
  destruct (hash_updates_4 permute (hash_init_4 sec) pieces) as [sp|]; cbn [bind agree4] in U |- *; [|rewrite U; reflexivity].
  destruct U as (U & U4). rewrite U. cbn [bind].
  pose proof (final_4 sp U4) as F.
  destruct (hash_final_4 permute sp) as [sp'|]; cbn [bind agree4] in F |- *; [|rewrite F; reflexivity].
  destruct F as (F & F4). rewrite F. cbn [bind]. apply squeezes_4, F4.
Qed.
End Steps.
