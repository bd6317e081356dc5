(** The sponge over an implementation of the state does what the sponge over the 200 bytes does. *)
From Verif.Model Require Import Keccak Sponge Sponge4 Snp Keccak32 SpongeOn.
From Verif.Spec Require Import KeccakSpec.
From Verif.Proof Require Import BaseProof KeccakProof CompatProof SpongeProof InterProof SnpProof SnpImpl ShakeRun.
From Coq Require Import Lia ZifyBool ZifyNat ZifyN.
Ltac Zify.zify_post_hook ::= Z.div_mod_to_equations.

(** [x] does what [y] does where [y] is defined *)
Definition sim {A B} (Q : A -> B -> Prop) (x : res A) (y : res B) : Prop := forall b, y = Ok b -> exists a, x = Ok a /\ Q a b.

Lemma sim_bind {A B A' B'} (Q : A -> B -> Prop) (Q' : A' -> B' -> Prop) x y f g :
  sim Q x y -> (forall a b, Q a b -> x = Ok a -> y = Ok b -> sim Q' (f a) (g b)) -> sim Q' (bind x f) (bind y g).
Proof.
  intros H1 H2 b' E. destruct y as [b|]; [|discriminate E]. destruct (H1 b eq_refl) as (a & -> & HQ). cbn [bind] in *. exact (H2 a b HQ eq_refl eq_refl b' E).
Qed.
Lemma sim_ok {A B} (Q : A -> B -> Prop) a b : Q a b -> sim Q (Ok a) (Ok b).
Proof. intros H b' E. injection E as <-. exists a. split; [reflexivity|exact H]. Qed.
Lemma sim_ub {A B} (Q : A -> B -> Prop) x : sim Q x (@UB B).
Proof. intros b E. discriminate E. Qed.
Lemma sim_refl {A} (x : res A) : sim eq x x.
Proof. intros b E. exists b. split; [exact E|reflexivity]. Qed.
Lemma sim_mapM {A B} (Q : A -> B -> Prop) (f : N -> res A) (g : N -> res B) l :
  (forall i, In i l -> sim Q (f i) (g i)) -> sim (Forall2 Q) (mapM f l) (mapM g l).
Proof.
  induction l as [|i l IH]; intros H; cbn [mapM]; [apply sim_ok; constructor|].
  eapply sim_bind; [apply H; left; reflexivity|]. intros a b HQ _ _. eapply sim_bind; [apply IH; intros j Hj; apply H; right; exact Hj|].
  intros a' b' HQ' _ _. apply sim_ok. constructor; assumption.
Qed.
Lemma sim_aget {A B} (Q : A -> B -> Prop) l l' i : Forall2 Q l l' -> sim Q (aget l i) (aget l' i).
Proof.
  intros H. unfold aget. intros b E. destruct (nth_error l' (N.to_nat i)) as [b'|] eqn:E'; [|discriminate E]. injection E as <-.
  revert E'. generalize (N.to_nat i). induction H as [|x y l l' HQ HF IH]; intros n E'; [destruct n; discriminate E'|].
  destruct n as [|n]; cbn [nth_error] in E' |- *; [injection E' as <-; exists x; split; [reflexivity|exact HQ]|]. apply IH, E'.
Qed.

Section On.
Variables (I : snp) (R : snp_state I -> bytes -> Prop).
Hypothesis HI : implements I R.

Lemma sim_add_bytes s b data off : R s b -> bytes_ok data -> off + lenN data < 200 -> sim R (snp_add_bytes I s data off) (SnP_AddBytes b data off).
Proof using HI.
  intros HR HB HO. destruct (im_bytes I R HI s b HR) as (HL & _). rewrite add_bytes by lia. destruct (im_add_bytes I R HI s b data off HR HB HO) as (s' & -> & HR').
  apply sim_ok, HR'.
Qed.
Lemma sim_add_byte s b x off : R s b -> x < 256 -> off < 200 -> sim R (snp_add_byte I s x off) (SnP_AddByte b x off).
Proof using HI.
  intros HR Hx HO. destruct (im_bytes I R HI s b HR) as (HL & _). unfold SnP_AddByte. rewrite (aget_ok b off 0) by lia. cbn [bind]. rewrite aset_ok by lia.
  rewrite upd_xor_at by lia. destruct (im_add_byte I R HI s b x off HR Hx HO) as (s' & -> & HR'). apply sim_ok, HR'.
Qed.
Lemma sim_extract s b off n : R s b -> off + n < 200 -> sim eq (snp_extract I s off n) (SnP_ExtractBytes b off n).
Proof using HI.
  intros HR HO. destruct (im_bytes I R HI s b HR) as (HL & _). unfold SnP_ExtractBytes. rewrite slice_ok by lia. rewrite (im_extract I R HI s b) by assumption. apply sim_ok. reflexivity.
Qed.
Lemma sim_permute s b : R s b -> sim R (snp_permute I s) (P b).
Proof using HI.
  intros HR. destruct (im_permute I R HI s b HR) as (s' & b' & -> & -> & HR'). apply sim_ok, HR'.
Qed.

(** * one state *)
Definition pair_rel {A} (x : snp_state I * A) (y : bytes * A) : Prop := R (fst x) (fst y) /\ snd x = snd y.
Lemma sim_blocks fuel : forall s b rate data, R s b -> 1 < rate < 200 -> bytes_ok data ->
  sim pair_rel (absorb_blocks_on I fuel s rate data) (absorb_full P fuel b rate data).
Proof using HI.
  induction fuel as [|fuel IH]; intros s b rate data HR Hr HB; cbn [absorb_blocks_on absorb_full]; (destruct (rate <=? lenN data) eqn:E; [|apply sim_ok; split; [exact HR|reflexivity]]);
    [apply sim_ub|].
  eapply sim_bind; [apply sim_add_bytes; [exact HR|apply Forall_takeN, HB|rewrite lenN_takeN; lia]|]. intros s1 b1 HR1 _ _.
  eapply sim_bind; [apply sim_permute, HR1|]. intros s2 b2 HR2 _ _. apply IH; [exact HR2|exact Hr|apply Forall_dropN, HB].
Qed.
Lemma sim_full s b rate data : R s b -> 1 < rate < 200 -> bytes_ok data ->
  sim pair_rel (absorb_full_on I s rate data) (absorb_full P (length data) b rate data).
Proof using HI.
  intros HR Hr HB. unfold absorb_full_on. pose proof (im_fast I R HI) as HF. destruct (snp_fast_loop I) as [fast|]; [|apply sim_blocks; assumption].
  destruct (rate mod 8 =? 0) eqn:E; [|apply sim_blocks; assumption].
  destruct (HF s b (rate / 8) data HR HB ltac:(lia)) as (s' & b' & rest & n & E1 & E2 & HR' & ->). rewrite E1. cbn [bind fst snd].
  replace (8 * (rate / 8)) with rate in E2 by lia. rewrite E2. apply sim_ok. split; [exact HR'|reflexivity].
Qed.
Lemma full_bytes fuel : forall b rate data b' rest, absorb_full P fuel b rate data = Ok (b', rest) -> bytes_ok data -> bytes_ok rest.
Proof.
  induction fuel as [|fuel IH]; intros b rate data b' rest E HB; cbn [absorb_full] in E; (destruct (rate <=? lenN data); [|injection E as _ <-; exact HB]); [discriminate E|].
  destruct (SnP_AddBytes b (takeN rate data) 0) as [b1|]; [|discriminate E]. cbn [bind] in E. destruct (P b1) as [b2|]; [|discriminate E]. cbn [bind] in E.
  eapply IH; [exact E|apply Forall_dropN, HB].
Qed.

Definition QS (x : sponge_on I) (y : sponge) : Prop :=
  R (so_state I x) (sp_state y) /\ so_rate I x = sp_rate y /\ so_idx I x = sp_idx y /\ so_squeezing I x = sp_squeezing y /\ 1 < sp_rate y < 200 /\ sp_idx y <= sp_rate y.

Lemma partial_fits rate idx n k : 1 < rate < 200 -> idx <= rate -> k = (if rate <? u32 (u32 n + idx) then rate - idx else u32 n) ->
  idx + k <= 200 -> idx + k <= rate.
Proof. unfold u32. intros Hr Hi -> H. destruct (rate <? (n mod 2 ^ 32 + idx) mod 2 ^ 32) eqn:E; lia. Qed.

Lemma sim_absorb_loop fuel : forall x y data, QS x y -> bytes_ok data -> sim QS (absorb_loop_on I fuel x data) (absorb_loop P fuel y data).
Proof using HI.
  induction fuel as [|fuel IH]; intros x y data (HR & E1 & E2 & E3 & Hr & Hi) HB; (destruct data as [|d data]; [apply sim_ok; repeat split; (assumption || lia)|]); [apply sim_ub|].
  cbn [absorb_loop_on absorb_loop]. rewrite E1, E2, E3. set (l := d :: data) in *. destruct ((sp_idx y =? 0) && (sp_rate y <=? lenN l)) eqn:EC.
  - eapply sim_bind; [apply sim_full; assumption|]. intros r r' (HR' & ER) _ E'. rewrite ER. apply IH.
    + split; [exact HR'|]. cbn. repeat split; (assumption || lia).
    + destruct r' as [b' rest]. eapply full_bytes; [exact E'|exact HB].
  - set (k := if sp_rate y <? u32 (u32 (lenN l) + sp_idx y) then sp_rate y - sp_idx y else u32 (lenN l)). eapply sim_bind; [apply sim_refl|]. intros _ _ _ _ _.
    assert (HN : u32 (lenN l) <= lenN l) by (unfold u32; apply N.mod_le; discriminate).
    destruct (N.le_gt_cases (sp_idx y + k) 200) as [HK|HK].
    + pose proof (partial_fits (sp_rate y) (sp_idx y) (lenN l) k Hr Hi eq_refl HK) as HK'.
      eapply sim_bind; [apply sim_add_bytes; [exact HR|apply Forall_takeN, HB|rewrite lenN_takeN; lia]|]. intros s1 b1 HR1 _ _.
      destruct (sp_idx y + k =? sp_rate y) eqn:EK.
      * eapply sim_bind; [apply sim_permute, HR1|]. intros s2 b2 HR2 _ _. apply IH; [|apply Forall_dropN, HB]. split; [exact HR2|]. cbn. repeat split; (reflexivity || lia).
      * apply IH; [|apply Forall_dropN, HB]. split; [exact HR1|]. cbn. repeat split; (reflexivity || lia).
    + assert (HU : SnP_AddBytes (sp_state y) (takeN k l) (sp_idx y) = UB); [|rewrite HU; apply sim_ub].
      unfold SnP_AddBytes. rewrite lenN_takeN. destruct (im_bytes I R HI _ _ HR) as (HL & _).
      assert (k <= lenN l) by (subst k; unfold u32 in *; destruct (_ <? _) eqn:?; lia).
      rewrite slice_UB by lia. reflexivity.
Qed.

Lemma sim_absorb x y data : QS x y -> bytes_ok data -> sim (fun a b => fst a = fst b /\ QS (snd a) (snd b)) (SpongeAbsorb_on I x data) (SpongeAbsorb P y data).
Proof using HI.
  intros HQ HB. pose proof HQ as (_ & _ & _ & E3 & _). unfold SpongeAbsorb_on, SpongeAbsorb. rewrite E3. destruct (sp_squeezing y); [apply sim_ok; split; [reflexivity|exact HQ]|].
  eapply sim_bind; [apply sim_absorb_loop; assumption|]. intros a b HQ' _ _. apply sim_ok. split; [reflexivity|exact HQ'].
Qed.
Lemma sim_last x y d : QS x y -> d < 256 -> sim (fun a b => fst a = fst b /\ QS (snd a) (snd b)) (SpongeAbsorbLastFewBits_on I x d) (SpongeAbsorbLastFewBits P y d).
Proof using HI.
  intros HQ Hd. pose proof HQ as (HR & E1 & E2 & E3 & Hr & Hi). unfold SpongeAbsorbLastFewBits_on, SpongeAbsorbLastFewBits. rewrite E1, E2, E3.
  destruct (d =? 0); [apply sim_ok; split; [reflexivity|exact HQ]|]. destruct (sp_squeezing y); [apply sim_ok; split; [reflexivity|exact HQ]|].
  eapply sim_bind; [apply sim_add_byte; [exact HR|exact Hd|lia]|]. intros s1 b1 HR1 _ _.
  eapply (sim_bind R); [destruct (_ && _); [apply sim_permute, HR1|apply sim_ok, HR1]|]. intros s2 b2 HR2 _ _.
  eapply sim_bind; [apply sim_add_byte; [exact HR2|lia|lia]|]. intros s3 b3 HR3 _ _. eapply sim_bind; [apply sim_permute, HR3|]. intros s4 b4 HR4 _ _.
  apply sim_ok. split; [reflexivity|]. split; [exact HR4|]. cbn. repeat split; (reflexivity || lia).
Qed.
Lemma sim_squeeze_full fuel : forall s b rate n, R s b -> 1 < rate < 200 ->
  sim (fun a b => R (fst (fst a)) (fst (fst b)) /\ snd (fst a) = snd (fst b) /\ snd a = snd b) (squeeze_full_on I fuel s rate n) (squeeze_full P fuel b rate n).
Proof using HI.
  induction fuel as [|fuel IH]; intros s b rate n HR Hr; cbn [squeeze_full_on squeeze_full]; (destruct (rate <=? n) eqn:E; [|apply sim_ok; split; [exact HR|split; reflexivity]]);
    [apply sim_ub|].
  eapply sim_bind; [apply sim_permute, HR|]. intros s1 b1 HR1 _ _. eapply sim_bind; [apply sim_extract; [exact HR1|lia]|]. intros o o' <- _ _.
  eapply sim_bind; [apply IH; assumption|]. intros r r' (HR2 & F1 & F2) _ _. apply sim_ok. cbn [fst snd]. rewrite F1, F2. split; [exact HR2|split; reflexivity].
Qed.
Definition QO (a : sponge_on I * bytes) (b : sponge * bytes) : Prop := QS (fst a) (fst b) /\ snd a = snd b.
Lemma sim_squeeze_loop fuel : forall x y n, QS x y -> sim QO (squeeze_loop_on I fuel x n) (squeeze_loop P fuel y n).
Proof using HI.
  induction fuel as [|fuel IH]; intros x y n HQ; cbn [squeeze_loop_on squeeze_loop]; (destruct (n =? 0); [apply sim_ok; split; [exact HQ|reflexivity]|]); [apply sim_ub|].
  destruct HQ as (HR & E1 & E2 & E3 & Hr & Hi). cbv zeta. rewrite E1, E2, E3. destruct ((sp_idx y =? sp_rate y) && (sp_rate y <=? n)).
  - eapply sim_bind; [apply sim_squeeze_full; assumption|]. intros r r' (HR' & F1 & F2) _ _. rewrite F1, F2.
    eapply sim_bind; [apply IH; split; [exact HR'|]; cbn; repeat split; (reflexivity || lia)|]. intros q q' (HQ' & F3) _ _. rewrite F3. apply sim_ok. split; [exact HQ'|reflexivity].
  - eapply (sim_bind (fun a b => R (fst a) (fst b) /\ snd a = snd b /\ snd b <= sp_rate y)).
    + destruct (sp_idx y =? sp_rate y).
      * eapply sim_bind; [apply sim_permute, HR|]. intros s1 b1 HR1 _ _. apply sim_ok. cbn. split; [exact HR1|split; [reflexivity|lia]].
      * apply sim_ok. cbn. split; [exact HR|split; [reflexivity|exact Hi]].
    + intros (s1, i1) (b1, i2) (HR1 & Ei & Hi2) _ _. cbn [fst snd] in HR1, Ei, Hi2. subst i1.
      set (k := if sp_rate y <? u32 (u32 n + i2) then sp_rate y - i2 else u32 n). eapply sim_bind; [apply sim_refl|]. intros _ _ _ _ _.
      destruct (N.le_gt_cases (i2 + k) 200) as [HK|HK].
      * pose proof (partial_fits (sp_rate y) i2 n k Hr Hi2 eq_refl HK) as HK'. eapply sim_bind; [apply sim_extract; [exact HR1|lia]|]. intros o o' <- _ _.
        eapply sim_bind; [apply IH; split; [exact HR1|]; cbn; repeat split; (reflexivity || lia)|]. intros q q' (HQ' & F3) _ _. rewrite F3. apply sim_ok. split; [exact HQ'|reflexivity].
      * assert (HU : SnP_ExtractBytes b1 i2 k = UB); [|rewrite HU; apply sim_ub]. destruct (im_bytes I R HI _ _ HR1) as (HL & _). apply slice_UB; lia.
Qed.
Lemma sim_squeeze x y n : QS x y -> sim QO (SpongeSqueeze_on I x n) (SpongeSqueeze P y n).
Proof using HI.
  intros HQ. unfold SpongeSqueeze_on, SpongeSqueeze. eapply (sim_bind QS); [|intros a b HQ' _ _; apply sim_squeeze_loop, HQ'].
  pose proof HQ as (_ & _ & _ & E3 & _). rewrite E3. destruct (sp_squeezing y); [apply sim_ok, HQ|].
  eapply sim_bind; [apply sim_last; [exact HQ|lia]|]. intros a b (_ & HQ') _ _. apply sim_ok, HQ'.
Qed.
Lemma sim_updates pieces : forall x y, QS x y -> Forall bytes_ok pieces -> sim QS (hash_updates_on I x pieces) (hash_updates P y pieces).
Proof using HI.
  induction pieces as [|m ms IH]; intros x y HQ HB; cbn [hash_updates_on hash_updates]; [apply sim_ok, HQ|]. inversion HB; subst. unfold hash_update_on, hash_update.
  eapply sim_bind; [eapply sim_bind; [apply sim_absorb; eassumption|]; intros a b (_ & HQ') _ _; apply sim_ok, HQ'|]. intros a b HQ' _ _. apply IH; assumption.
Qed.
Lemma sim_final x y : QS x y -> sim QS (hash_final_on I x) (hash_final P y).
Proof using HI.
  intros HQ. unfold hash_final_on, hash_final. eapply sim_bind; [apply sim_last; [exact HQ|reflexivity]|]. intros a b (E & HQ') _ _. rewrite E. destruct (fst b =? 0); [|apply sim_ok, HQ'].
  eapply sim_bind; [apply sim_squeeze, HQ'|]. intros q q' (HQ2 & _) _ _. apply sim_ok, HQ2.
Qed.
Lemma sim_squeezes lens : forall x y, QS x y -> sim eq (hash_squeezes_on I x lens) (hash_squeezes P y lens).
Proof using HI.
  induction lens as [|n ns IH]; intros x y HQ; cbn [hash_squeezes_on hash_squeezes]; [apply sim_ok; reflexivity|]. unfold hash_squeeze_on, hash_squeeze.
  eapply sim_bind; [apply sim_squeeze, HQ|]. intros q q' (HQ' & F) _ _. eapply sim_bind; [apply IH, HQ'|]. intros o o' <- _ _. rewrite F. apply sim_ok. reflexivity.
Qed.
Lemma sim_init sec : QS (hash_init_on I sec) (hash_init sec).
Proof using HI. pose proof (rate_ok sec) as Hr. split; [apply (im_init I R HI)|]. cbn. repeat split; (reflexivity || lia). Qed.
Lemma sim_run sec pieces lens : Forall bytes_ok pieces -> sim eq (hash_run_on I sec pieces lens) (hash_run P sec pieces lens).
Proof using HI.
  intros HB. unfold hash_run_on, hash_run. eapply sim_bind; [apply sim_updates; [apply sim_init|exact HB]|]. intros x y HQ _ _.
  eapply sim_bind; [apply sim_final, HQ|]. intros x' y' HQ' _ _. apply sim_squeezes, HQ'.
Qed.

(** * four states *)
Definition RS := Forall2 R.
Lemma sim_each {A B} (Q : A -> B -> Prop) (f : N -> res A) (g : N -> res B) : (forall i, In i [0; 1; 2; 3] -> sim Q (f i) (g i)) -> sim (Forall2 Q) (each4 f) (each4 g).
Proof. apply sim_mapM. Qed.
Lemma sim_Permute s b : RS s b -> sim RS (PlSnP_Permute_on I s) (PlSnP_Permute P b).
Proof using HI.
  intros HR. apply sim_each. intros i _. eapply sim_bind; [apply sim_aget, HR|]. intros s1 b1 HR1 _ _. apply sim_permute, HR1.
Qed.
Lemma sim_AddByte s b x off : RS s b -> x < 256 -> off < 200 -> sim RS (each4 (fun i => PlSnP_AddByte_on I s i x off)) (each4 (fun i => PlSnP_AddByte b i x off)).
Proof using HI.
  intros HR Hx HO. apply sim_each. intros i _. eapply sim_bind; [apply sim_aget, HR|]. intros s1 b1 HR1 _ _. apply sim_add_byte; assumption.
Qed.
Lemma Forall_aget {A} (Q : A -> Prop) l i x : Forall Q l -> aget l i = Ok x -> Q x.
Proof.
  intros H E. unfold aget in E. destruct (nth_error l (N.to_nat i)) as [y|] eqn:E'; [|discriminate E]. injection E as <-. rewrite Forall_forall in H. apply H. eapply nth_error_In, E'.
Qed.
Lemma sim_AddBytes s b cur off len : RS s b -> Forall bytes_ok cur -> off < 200 -> (off + len <= 200 -> off + len < 200) ->
  sim RS (each4 (fun i => let! d := aget cur i in PlSnP_AddBytes_on I s i d off len)) (each4 (fun i => let! d := aget cur i in PlSnP_AddBytes b i d off len)).
Proof using HI.
  intros HR HC HF HO. apply sim_each. intros i _. eapply sim_bind; [apply sim_refl|]. intros d d' <- E _. pose proof (Forall_aget _ _ _ _ HC E) as HD.
  eapply sim_bind; [apply sim_aget, HR|]. intros s1 b1 HR1 _ _. eapply sim_bind; [apply sim_refl|]. intros q q' <- E' _.
  apply slice_inv in E'. destruct E' as (HL' & ->). rewrite dropN_0 in *. destruct (im_bytes I R HI _ _ HR1) as (HL & _).
  destruct (N.le_gt_cases (off + len) 200) as [HK|HK]; [apply sim_add_bytes; [exact HR1|apply Forall_takeN, HD|rewrite lenN_takeN; lia]|].
  unfold SnP_AddBytes. rewrite HL', slice_UB by lia. apply sim_ub.
Qed.
Lemma sim_Extract s b off len : RS s b -> off < 200 -> (off + len <= 200 -> off + len < 200) ->
  sim eq (each4 (fun i => PlSnP_ExtractBytes_on I s i off len)) (each4 (fun i => PlSnP_ExtractBytes b i off len)).
Proof using HI.
  intros HR HF HO bb E. destruct (sim_each (@eq bytes) (fun i => PlSnP_ExtractBytes_on I s i off len) (fun i => PlSnP_ExtractBytes b i off len)) with (b := bb) as (a & Ea & F).
  - intros i _. eapply sim_bind; [apply sim_aget, HR|]. intros s1 b1 HR1 _ _. destruct (im_bytes I R HI _ _ HR1) as (HL & _).
    destruct (N.le_gt_cases (off + len) 200) as [HK|HK]; [apply sim_extract; [exact HR1|lia]|]. unfold SnP_ExtractBytes. rewrite slice_UB by lia. apply sim_ub.
  - exact E.
  - exists a. split; [exact Ea|]. clear - F. induction F; [reflexivity|]. subst. reflexivity.
Qed.
Lemma cur_bytes cur k cur' : Forall bytes_ok cur -> each4 (fun i => let! d := aget cur i in Ok (dropN k d)) = Ok cur' -> Forall bytes_ok cur'.
Proof.
  intros HC E. unfold each4 in E. revert cur' E. generalize [0; 1; 2; 3]. intros l. induction l as [|i l IH]; intros cur' E; cbn [mapM] in E; [injection E as <-; constructor|].
  destruct (aget cur i) as [d|] eqn:EA; [|discriminate E]. cbn [bind] in E. destruct (mapM _ l) as [t|]; [|discriminate E]. injection E as <-.
  constructor; [apply Forall_dropN; exact (Forall_aget _ _ _ _ HC EA)|apply IH; reflexivity].
Qed.
Lemma sim_full4 fuel : forall s b rate cur j, RS s b -> 1 < rate < 200 -> Forall bytes_ok cur ->
  sim (fun a b => RS (fst (fst a)) (fst (fst b)) /\ snd (fst a) = snd (fst b) /\ snd a = snd b /\ Forall bytes_ok (snd (fst b)))
    (absorb_full4_on I fuel s rate cur j) (absorb_full4 P fuel b rate cur j).
Proof using HI.
  induction fuel as [|fuel IH]; intros s b rate cur j HR Hr HC; cbn [absorb_full4_on absorb_full4]; (destruct (rate <=? j) eqn:E; [|apply sim_ok; repeat split; assumption]); [apply sim_ub|].
  eapply sim_bind; [apply sim_AddBytes; [exact HR|exact HC|reflexivity|lia]|]. intros s1 b1 HR1 _ _. eapply sim_bind; [apply sim_refl|]. intros c c' <- EC _.
  eapply sim_bind; [apply sim_Permute, HR1|]. intros s2 b2 HR2 _ _. apply IH; [exact HR2|exact Hr|eapply cur_bytes; [exact HC|exact EC]].
Qed.
Definition QS4 (x : sponge4_on I) (y : sponge4) : Prop :=
  RS (o4_states I x) (s4_states y) /\ o4_rate I x = s4_rate y /\ o4_idx I x = s4_idx y /\ o4_squeezing I x = s4_squeezing y /\ 1 < s4_rate y < 200 /\ s4_idx y <= s4_rate y.
Lemma sim_absorb_loop4 fuel : forall x y cur n, QS4 x y -> Forall bytes_ok cur -> sim QS4 (absorb_loop4_on I fuel x cur n) (absorb_loop4 P fuel y cur n).
Proof using HI.
  induction fuel as [|fuel IH]; intros x y cur n HQ HC; cbn [absorb_loop4_on absorb_loop4]; (destruct (n =? 0); [apply sim_ok, HQ|]); [apply sim_ub|].
  destruct HQ as (HR & E1 & E2 & E3 & Hr & Hi). cbv zeta. rewrite E1, E2, E3. destruct ((s4_idx y =? 0) && (s4_rate y <=? n)).
  - eapply sim_bind; [apply sim_full4; assumption|]. intros ((s1, c1), j1) ((b1, c2), j2) (HR1 & Ec & Ej & HC2) _ _. cbn [fst snd] in HR1, Ec, Ej, HC2. subst c1 j1.
    apply IH; [|exact HC2]. split; [exact HR1|]. cbn. repeat split; (reflexivity || lia).
  - set (k := if s4_rate y <? u32 (u32 n + s4_idx y) then s4_rate y - s4_idx y else u32 n). eapply sim_bind; [apply sim_refl|]. intros _ _ _ _ _.
    assert (HK : s4_idx y + k <= 200 -> s4_idx y + k <= s4_rate y) by (apply (partial_fits (s4_rate y) (s4_idx y) n k Hr Hi eq_refl)).
    eapply sim_bind; [apply sim_AddBytes; [exact HR|exact HC|lia|clear - HK Hr; lia]|]. intros s1 b1 HR1 _ EU. eapply sim_bind; [apply sim_refl|]. intros c c' <- EC _.
    assert (HK' : s4_idx y + k <= s4_rate y).
    { apply HK. clear - EU HR HI Hr Hi. unfold each4 in EU. cbn [mapM] in EU. destruct (aget cur 0) as [d|]; [|discriminate EU]. cbn [bind] in EU. unfold PlSnP_AddBytes in EU at 1.
      pose proof (sim_aget R (o4_states I x) (s4_states y) 0 HR) as HA. destruct (aget (s4_states y) 0) as [b|]; [|discriminate EU]. destruct (HA b eq_refl) as (a & _ & HRa).
      cbn [bind] in EU. destruct (slice d 0 k) as [q|] eqn:ES; [|discriminate EU]. cbn [bind] in EU. apply slice_inv in ES. destruct ES as (HS & ->).
      destruct (im_bytes I R HI _ _ HRa) as (HL & _). destruct (N.le_gt_cases (s4_idx y + k) 200) as [H|H]; [exact H|]. exfalso.
      unfold SnP_AddBytes in EU at 1. rewrite HS, slice_UB in EU by lia. discriminate EU. }
    pose proof (cur_bytes _ _ _ HC EC) as HC'. destruct (s4_idx y + k =? s4_rate y) eqn:EK.
    + eapply sim_bind; [apply sim_Permute, HR1|]. intros s2 b2 HR2 _ _. apply IH; [|exact HC']. split; [exact HR2|]. cbn. repeat split; (reflexivity || lia).
    + apply IH; [|exact HC']. split; [exact HR1|]. cbn. repeat split; (reflexivity || lia).
Qed.
Lemma sim_absorb4 x y data n : QS4 x y -> Forall bytes_ok data ->
  sim (fun a b => fst a = fst b /\ QS4 (snd a) (snd b)) (SpongeAbsorb4_on I x data n) (SpongeAbsorb4 P y data n).
Proof using HI.
  intros HQ HB. pose proof HQ as (_ & _ & _ & E3 & _). unfold SpongeAbsorb4_on, SpongeAbsorb4. rewrite E3. destruct (s4_squeezing y); [apply sim_ok; split; [reflexivity|exact HQ]|].
  eapply sim_bind; [apply sim_refl|]. intros cur cur' <- EC _. eapply sim_bind; [apply sim_absorb_loop4; [exact HQ|]|].
  - destruct (0 <? n); [|injection EC as <-; exact HB]. clear - HB EC. unfold each4 in EC. revert cur EC. generalize [0; 1; 2; 3]. intros l.
    induction l as [|i l IH]; intros cur' E; cbn [mapM] in E; [injection E as <-; constructor|].
    destruct (aget data i) as [d|] eqn:EA; [|discriminate E]. cbn [bind] in E. destruct (mapM _ l) as [t|]; [|discriminate E]. injection E as <-.
    constructor; [exact (Forall_aget _ _ _ _ HB EA)|apply IH; reflexivity].
  - intros a b HQ' _ _. apply sim_ok. split; [reflexivity|exact HQ'].
Qed.
Lemma sim_last4 x y d : QS4 x y -> d < 256 -> sim (fun a b => fst a = fst b /\ QS4 (snd a) (snd b)) (SpongeAbsorbLastFewBits4_on I x d) (SpongeAbsorbLastFewBits4 P y d).
Proof using HI.
  intros HQ Hd. pose proof HQ as (HR & E1 & E2 & E3 & Hr & Hi). unfold SpongeAbsorbLastFewBits4_on, SpongeAbsorbLastFewBits4. rewrite E1, E2, E3.
  destruct (d =? 0); [apply sim_ok; split; [reflexivity|exact HQ]|]. destruct (s4_squeezing y); [apply sim_ok; split; [reflexivity|exact HQ]|].
  eapply sim_bind; [apply sim_AddByte; [exact HR|exact Hd|lia]|]. intros s1 b1 HR1 _ _.
  eapply (sim_bind RS); [destruct (_ && _); [apply sim_Permute, HR1|apply sim_ok, HR1]|]. intros s2 b2 HR2 _ _.
  eapply sim_bind; [apply sim_AddByte; [exact HR2|lia|lia]|]. intros s3 b3 HR3 _ _. eapply sim_bind; [apply sim_Permute, HR3|]. intros s4 b4 HR4 _ _.
  apply sim_ok. split; [reflexivity|]. split; [exact HR4|]. cbn. repeat split; (reflexivity || lia).
Qed.
Lemma sim_squeeze_full4 fuel : forall s b rate n, RS s b -> 1 < rate < 200 ->
  sim (fun a b => RS (fst (fst a)) (fst (fst b)) /\ snd (fst a) = snd (fst b) /\ snd a = snd b) (squeeze_full4_on I fuel s rate n) (squeeze_full4 P fuel b rate n).
Proof using HI.
  induction fuel as [|fuel IH]; intros s b rate n HR Hr; cbn [squeeze_full4_on squeeze_full4]; (destruct (rate <=? n) eqn:E; [|apply sim_ok; split; [exact HR|split; reflexivity]]);
    [apply sim_ub|].
  eapply sim_bind; [apply sim_Permute, HR|]. intros s1 b1 HR1 _ _. eapply sim_bind; [apply sim_Extract; [exact HR1|reflexivity|lia]|]. intros o o' <- _ _.
  eapply sim_bind; [apply IH; assumption|]. intros ((s2, o2), j2) ((b2, o3), j3) (HR2 & F1 & F2) _ _. cbn [fst snd] in HR2, F1, F2. subst o2 j2. apply sim_ok. cbn [fst snd]. split; [exact HR2|split; reflexivity].
Qed.
Definition QO4 (a : sponge4_on I * list bytes) (b : sponge4 * list bytes) : Prop := QS4 (fst a) (fst b) /\ snd a = snd b.
Lemma sim_squeeze_loop4 fuel : forall x y n, QS4 x y -> sim QO4 (squeeze_loop4_on I fuel x n) (squeeze_loop4 P fuel y n).
Proof using HI.
  induction fuel as [|fuel IH]; intros x y n HQ; cbn [squeeze_loop4_on squeeze_loop4]; (destruct (n =? 0); [apply sim_ok; split; [exact HQ|reflexivity]|]); [apply sim_ub|].
  destruct HQ as (HR & E1 & E2 & E3 & Hr & Hi). cbv zeta. rewrite E1, E2, E3. destruct ((s4_idx y =? s4_rate y) && (s4_rate y <=? n)).
  - eapply sim_bind; [apply sim_squeeze_full4; assumption|]. intros ((s2, o2), j2) ((b2, o3), j3) (HR2 & F1 & F2) _ _. cbn [fst snd] in HR2, F1, F2. subst o2 j2.
    eapply sim_bind; [apply IH; split; [exact HR2|]; cbn; repeat split; (reflexivity || lia)|]. intros q q' (HQ' & F3) _ _. rewrite F3. apply sim_ok. split; [exact HQ'|reflexivity].
  - eapply (sim_bind (fun a b => RS (fst a) (fst b) /\ snd a = snd b /\ snd b <= s4_rate y)).
    + destruct (s4_idx y =? s4_rate y).
      * eapply sim_bind; [apply sim_Permute, HR|]. intros s1 b1 HR1 _ _. apply sim_ok. cbn. split; [exact HR1|split; [reflexivity|lia]].
      * apply sim_ok. cbn. split; [exact HR|split; [reflexivity|exact Hi]].
    + intros (s1, i1) (b1, i2) (HR1 & Ei & Hi2) _ _. cbn [fst snd] in HR1, Ei, Hi2. subst i1.
      set (k := if s4_rate y <? u32 (u32 n + i2) then s4_rate y - i2 else u32 n). eapply sim_bind; [apply sim_refl|]. intros _ _ _ _ _.
      assert (HK : i2 + k <= 200 -> i2 + k <= s4_rate y) by (apply (partial_fits (s4_rate y) i2 n k Hr Hi2 eq_refl)).
      eapply sim_bind; [apply sim_Extract; [exact HR1|lia|clear - HK Hr; lia]|]. intros o o' <- _ EU.
      assert (HK' : i2 + k <= s4_rate y).
      { apply HK. clear - EU HR1 HI Hr Hi2. unfold each4 in EU. cbn [mapM] in EU. unfold PlSnP_ExtractBytes in EU at 1.
        pose proof (sim_aget R s1 b1 0 HR1) as HA. destruct (aget b1 0) as [b|]; [|discriminate EU]. destruct (HA b eq_refl) as (a & _ & HRa).
        cbn [bind] in EU. destruct (im_bytes I R HI _ _ HRa) as (HL & _). destruct (N.le_gt_cases (i2 + k) 200) as [H|H]; [exact H|]. exfalso.
        unfold SnP_ExtractBytes in EU at 1. rewrite slice_UB in EU by lia. discriminate EU. }
      eapply sim_bind; [apply IH; split; [exact HR1|]; cbn; repeat split; (reflexivity || lia)|]. intros q q' (HQ' & F3) _ _. rewrite F3. apply sim_ok. split; [exact HQ'|reflexivity].
Qed.
Lemma sim_squeeze4 x y n : QS4 x y -> sim QO4 (SpongeSqueeze4_on I x n) (SpongeSqueeze4 P y n).
Proof using HI.
  intros HQ. unfold SpongeSqueeze4_on, SpongeSqueeze4. eapply (sim_bind QS4); [|intros a b HQ' _ _; apply sim_squeeze_loop4, HQ'].
  pose proof HQ as (_ & _ & _ & E3 & _). rewrite E3. destruct (s4_squeezing y); [apply sim_ok, HQ|].
  eapply sim_bind; [apply sim_last4; [exact HQ|lia]|]. intros a b (_ & HQ') _ _. apply sim_ok, HQ'.
Qed.
Lemma sim_updates4 pieces : forall x y, QS4 x y -> Forall (Forall bytes_ok) pieces -> sim QS4 (hash_updates_4_on I x pieces) (hash_updates_4 P y pieces).
Proof using HI.
  induction pieces as [|m ms IH]; intros x y HQ HB; cbn [hash_updates_4_on hash_updates_4]; [apply sim_ok, HQ|]. inversion HB; subst. unfold hash_update_4_on, hash_update_4.
  eapply sim_bind; [apply sim_refl|]. intros m0 m0' <- _ _.
  eapply sim_bind; [eapply sim_bind; [apply sim_absorb4; eassumption|]; intros a b (_ & HQ') _ _; apply sim_ok, HQ'|]. intros a b HQ' _ _. apply IH; assumption.
Qed.
Lemma sim_final4 x y : QS4 x y -> sim QS4 (hash_final_4_on I x) (hash_final_4 P y).
Proof using HI.
  intros HQ. unfold hash_final_4_on, hash_final_4. eapply sim_bind; [apply sim_last4; [exact HQ|reflexivity]|]. intros a b (E & HQ') _ _. rewrite E. destruct (fst b =? 0); [|apply sim_ok, HQ'].
  eapply sim_bind; [apply sim_squeeze4, HQ'|]. intros q q' (HQ2 & _) _ _. apply sim_ok, HQ2.
Qed.
Lemma sim_squeezes4 lens : forall x y, QS4 x y -> sim eq (hash_squeezes_4_on I x lens) (hash_squeezes_4 P y lens).
Proof using HI.
  induction lens as [|n ns IH]; intros x y HQ; cbn [hash_squeezes_4_on hash_squeezes_4]; [apply sim_ok; reflexivity|]. unfold hash_squeeze_4_on, hash_squeeze_4.
  eapply sim_bind; [apply sim_squeeze4, HQ|]. intros q q' (HQ' & F) _ _. eapply sim_bind; [apply IH, HQ'|]. intros o o' <- _ _. rewrite F. apply sim_ok. reflexivity.
Qed.
Lemma sim_init4 sec : QS4 (hash_init_4_on I sec) (hash_init_4 sec).
Proof using HI.
  pose proof (rate_ok sec) as Hr. pose proof (im_init I R HI) as H0. split; [repeat (constructor; [exact H0|]); constructor|]. cbn. repeat split; (reflexivity || lia).
Qed.
Lemma sim_run4 sec pieces lens : Forall (Forall bytes_ok) pieces -> sim eq (hash_run_4_on I sec pieces lens) (hash_run_4 P sec pieces lens).
Proof using HI.
  intros HB. unfold hash_run_4_on, hash_run_4. eapply sim_bind; [apply sim_updates4; [apply sim_init4|exact HB]|]. intros x y HQ _ _.
  eapply sim_bind; [apply sim_final4, HQ|]. intros x' y' HQ' _ _. apply sim_squeezes4, HQ'.
Qed.
End On.
