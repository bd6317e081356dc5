(** Uses of a SHAKE context: init, updates, final, squeezes. *)
From Verif.Model Require Import Sponge Hash.
From Verif.Spec Require Import KeccakSpec VcSpec.
From Verif.Proof Require Import BaseProof PrgProof KeccakProof SpongeProof ShakeProof.
From Coq Require Import Lia ZifyBool ZifyNat ZifyN.
Ltac Zify.zify_post_hook ::= Z.div_mod_to_equations.

Notation P := KeccakP1600_Permute_24rounds.

Lemma rate_ok sec : 1 < shake_rate sec < 200.
Proof. unfold shake_rate. destruct (sec =? 128); lia. Qed.

(** the state after absorbing [D] *)
Definition after (sec : N) (D : bytes) : bytes * N := fold_left (feed perm (shake_rate sec)) D (zeros 200, 0).
Lemma after_good sec D : bytes_ok D -> good (shake_rate sec) (after sec D).
Proof.
  intros HD. apply (feeds_good _ perm perm_ok _ (rate_ok sec)); [|exact HD]. pose proof (rate_ok sec). split; [reflexivity|split; [apply bytes_ok_zeros|cbn; lia]].
Qed.
Lemma after_index sec D : snd (after sec D) = lenN D mod shake_rate sec.
Proof. unfold after. rewrite (feeds_index _ perm perm_ok _ (rate_ok sec)) by (cbn [snd]; pose proof (rate_ok sec); lia). reflexivity. Qed.
Lemma after_app sec D E : fold_left (feed perm (shake_rate sec)) E (after sec D) = after sec (D ++ E).
Proof. unfold after. rewrite fold_left_app. reflexivity. Qed.

Definition ready (sec : N) (D : bytes) : sponge := of_pair (shake_rate sec) (after sec D) false.

Lemma init_ready sec : hash_init sec = ready sec [].
Proof. reflexivity. Qed.
(** one update: defined or not as [absorb_defined] says *)
Lemma update_exact sec D m : bytes_ok D -> bytes_ok m ->
  hash_update P (ready sec D) m = if absorb_defined (shake_rate sec) (lenN D mod shake_rate sec) (lenN m) then Ok (ready sec (D ++ m)) else UB.
Proof.
  intros HD Hm. unfold hash_update, SpongeAbsorb. change (sp_squeezing (ready sec D)) with false. cbv iota. unfold ready. rewrite <- after_index.
  destruct (absorb_defined (shake_rate sec) (snd (after sec D)) (lenN m)) eqn:E.
  - rewrite (absorb_ok P perm perm_ok _ (rate_ok sec)) by (apply after_good || idtac; assumption). cbn [bind snd]. rewrite after_app. reflexivity.
  - rewrite (absorb_undefined P _ (rate_ok sec)) by (apply after_good || idtac; assumption). reflexivity.
Qed.
Lemma short_defined rate k len : 1 < rate < 200 -> k < rate -> len + 200 <= 2 ^ 32 -> absorb_defined rate k len = true.
Proof.
  intros Hr Hk H. unfold absorb_defined. cbv zeta. rewrite (N.mod_small len) by lia. rewrite N.mod_small by lia. lia.
Qed.
Lemma updates_ok sec pieces : forall D, bytes_ok D -> Forall (Forall (fun b => b < 256)) pieces -> Forall (fun m => lenN m + 200 <= 2 ^ 32) pieces ->
  hash_updates P (ready sec D) pieces = Ok (ready sec (D ++ concat pieces)).
Proof.
  induction pieces as [|m pieces IH]; intros D HD HB HL; [cbn; rewrite app_nil_r; reflexivity|].
  inversion HB; subst. inversion HL; subst. cbn [hash_updates concat]. rewrite update_exact by assumption.
  rewrite short_defined; [|apply rate_ok|apply N.mod_lt; pose proof (rate_ok sec); lia|assumption]. cbn [bind]. rewrite IH; [|apply bytes_ok_app; assumption|assumption|assumption].
  rewrite app_assoc. reflexivity.
Qed.

(** finishing: the state from which the output is taken *)
Lemma final_ok sec D : bytes_ok D -> exists st, hash_final P (ready sec D) = Ok (of_pair (shake_rate sec) (st, 0) true) /\ lenN st = 200 /\ bytes_ok st /\
  bits_of_bytes st = absorbed (8 * shake_rate sec) (bits_of_bytes D ++ [true; true; true; true] ++ pad10star1 (8 * shake_rate sec) (8 * lenN D + 4)).
Proof.
  intros HD. pose proof (rate_ok sec) as Hr. set (rate := shake_rate sec) in *. set (m := rate - lenN D mod rate).
  assert (MM : lenN D mod rate < rate) by (apply N.mod_lt; lia). assert (HM : 0 < m <= rate) by (subst m; lia).
  pose proof (after_good sec D HD) as (HL & HB & HK). pose proof (after_index sec D) as HI. unfold ready. fold rate in HK, HI |- *. rewrite HI in HK.
  destruct (after sec D) as [st k] eqn:EA. cbn [fst snd] in HL, HB, HK, HI. subst k.
  destruct (absorb_blocks rate Hr (lenN D / rate + 1) (D ++ padding m)) as (st' & E1 & E2 & E3 & E4).
  { rewrite lenN_app, padding_len by lia. subst m. pose proof (N.div_mod (lenN D) rate ltac:(lia)). lia. }
  { apply bytes_ok_app; [exact HD|apply padding_bytes; lia]. }
  exists st'. split; [|split; [exact E2|split; [exact E3|]]].
  2:{ rewrite E4, bits_app. subst m. rewrite padding_bits by exact Hr. reflexivity. }
  rewrite fold_left_app in E1. change (fold_left (feed perm rate) D (zeros 200, 0)) with (after sec D) in E1. rewrite EA in E1.
  assert (LP : lenN (padding m) = m) by (apply padding_len; lia).
  rewrite (feed_part P perm perm_ok rate Hr) in E1; [|exact HL|exact HK|rewrite LP; subst m; lia|intros Z; rewrite Z in LP; change (lenN (@nil N)) with 0 in LP; lia].
  rewrite LP in E1. replace (lenN D mod rate + m =? rate) with true in E1 by (subst m; lia). inversion E1 as [E5]. clear E1.
  unfold hash_final, SpongeAbsorbLastFewBits, of_pair. cbn [fst snd sp_squeezing sp_rate sp_state sp_idx]. change (shake_suffix =? 0) with false. cbv iota.
  assert (L1 : forall b : N, lenN [b] = 1) by reflexivity.
  unfold SnP_AddByte. rewrite (aget_ok st _ 0) by lia. cbn [bind]. rewrite aset_ok by lia. cbn [bind]. rewrite upd_xor_at by lia.
  change (128 <=? shake_suffix) with false. cbn [andb bind].
  assert (LX : lenN (xor_at st (lenN D mod rate) [shake_suffix]) = 200) by (rewrite xor_at_len; rewrite ?L1; lia).
  rewrite (aget_ok _ _ 0) by lia. cbn [bind]. rewrite aset_ok by lia. cbn [bind]. rewrite upd_xor_at by lia.
  assert (EX : xor_at (xor_at st (lenN D mod rate) [shake_suffix]) (rate - 1) [128] = xor_at st (lenN D mod rate) (padding m)).
  { apply (list_ext 0); [rewrite !xor_at_len; rewrite ?xor_at_len; rewrite ?L1, ?LP; subst m; lia|]. intros j Hj. rewrite xor_at_len in Hj by (rewrite L1; lia). 
    rewrite !xor_at_nth by (rewrite ?L1, ?LP; subst m; lia). rewrite N.lxor_assoc. f_equal. rewrite !L1, LP.
    destruct ((lenN D mod rate <=? j) && (j <? lenN D mod rate + m)) eqn:Q.
    - rewrite padding_nth by lia. f_equal.
      + replace ((lenN D mod rate <=? j) && (j <? lenN D mod rate + 1)) with (j - lenN D mod rate =? 0) by lia.
        destruct (j - lenN D mod rate =? 0) eqn:Z; [|reflexivity]. replace (j - lenN D mod rate) with 0 by lia. reflexivity.
      + replace ((rate - 1 <=? j) && (j <? rate - 1 + 1)) with (j - lenN D mod rate =? m - 1) by (subst m; lia).
        destruct (j - lenN D mod rate =? m - 1) eqn:Z; [|reflexivity]. replace (j - (rate - 1)) with 0 by (subst m; lia). reflexivity.
    - replace ((lenN D mod rate <=? j) && (j <? lenN D mod rate + 1)) with false by lia.
      replace ((rate - 1 <=? j) && (j <? rate - 1 + 1)) with false by (subst m; lia). reflexivity. }
  rewrite EX. assert (LY : lenN (xor_at st (lenN D mod rate) (padding m)) = 200) by (rewrite xor_at_len; rewrite ?LP; subst m; lia).
  assert (BY : bytes_ok (xor_at st (lenN D mod rate) (padding m))) by (apply xor_at_bytes; [exact HB|apply padding_bytes; lia]).
  destruct (perm_ok _ LY BY) as (-> & _ & _). cbn [bind fst snd]. rewrite N.eqb_refl. unfold SpongeSqueeze. cbn [sp_squeezing bind squeeze_loop N.to_nat]. rewrite E5. reflexivity.
Qed.

Definition sum (l : list N) : N := fold_right N.add 0 l.
Lemma squeezes_ok sec lens : forall s, fine (shake_rate sec) s -> Forall (fun n => n + 200 <= 2 ^ 32) lens ->
  exists outs, hash_squeezes P (of_pair (shake_rate sec) s true) lens = Ok outs /\ map lenN outs = lens /\ concat outs = fst (pulls perm (shake_rate sec) (N.to_nat (sum lens)) s).
Proof.
  pose proof (rate_ok sec) as Hr. induction lens as [|n lens IH]; intros s HS HL; [exists []; repeat split|].
  inversion HL; subst. cbn [hash_squeezes]. unfold hash_squeeze, SpongeSqueeze. change (sp_squeezing (of_pair (shake_rate sec) s true)) with true. cbv iota. cbn [bind].
  rewrite (squeeze_ok P perm perm_ok _ Hr) by (assumption || lia). cbn [bind fst snd].
  destruct (IH (snd (pulls perm (shake_rate sec) (N.to_nat n) s))) as (outs & E1 & E2 & E3).
  { apply (pulls_fine P perm perm_ok _ Hr), HS. }
  { assumption. }
  rewrite E1. cbn [bind]. eexists. split; [reflexivity|]. cbn [map concat]. rewrite E2, E3. cbn [sum fold_right]. split.
  - f_equal. unfold lenN. rewrite pulls_length. lia.
  - replace (N.to_nat (n + fold_right N.add 0 lens)) with (N.to_nat n + N.to_nat (sum lens))%nat by (unfold sum; lia). rewrite pulls_app. reflexivity.
Qed.

(** the output bytes are those of the standard *)
Lemma shake_output sec D st n : bits_of_bytes st = absorbed (8 * shake_rate sec) (bits_of_bytes D ++ [true; true; true; true] ++ pad10star1 (8 * shake_rate sec) (8 * lenN D + 4)) ->
  lenN st = 200 -> bytes_ok st -> fst (pulls perm (shake_rate sec) (N.to_nat n) (st, 0)) = shake sec D n.
Proof.
  intros H HL HB. rewrite squeeze_bytes by (try apply rate_ok; assumption). unfold shake. rewrite H.
  assert (LD : N.of_nat (length (bits_of_bytes D ++ [true; true; true; true])) = 8 * lenN D + 4).
  { change (lenN (bits_of_bytes D ++ [true; true; true; true]) = 8 * lenN D + 4). rewrite lenN_app, bits_length. reflexivity. }
  unfold shake_rate. destruct (sec =? 128); unfold SHAKE128, SHAKE256, KECCAK, sponge_construction; rewrite LD, <- app_assoc; reflexivity.
Qed.

Lemma run_ok sec pieces lens : Forall (Forall (fun b => b < 256)) pieces -> Forall (fun m => lenN m + 200 <= 2 ^ 32) pieces -> Forall (fun n => n + 200 <= 2 ^ 32) lens ->
  exists outs, hash_run P sec pieces lens = Ok outs /\ map lenN outs = lens /\ concat outs = shake sec (concat pieces) (sum lens).
Proof.
  intros HB HL HN. unfold hash_run. rewrite init_ready, updates_ok by (assumption || constructor). cbn [bind app].
  assert (BC : bytes_ok (concat pieces)) by (apply Forall_concat, HB).
  destruct (final_ok sec (concat pieces) BC) as (st & -> & E2 & E3 & E4). cbn [bind].
  destruct (squeezes_ok sec lens (st, 0)) as (outs & F1 & F2 & F3); [split; [exact E2|split; [exact E3|cbn; lia]]|exact HN|].
  exists outs. rewrite (shake_output sec (concat pieces)) in F3 by assumption. auto.
Qed.

Lemma incremental sec pieces lens :
  Forall (Forall (fun b => b < 256)) pieces -> Forall (fun m => lenN m + 200 <= 2 ^ 32) pieces -> Forall (fun n => n + 200 <= 2 ^ 32) lens ->
  lenN (concat pieces) + 200 <= 2 ^ 32 -> fold_right N.add 0 lens + 200 <= 2 ^ 32 ->
  exists outs whole, hash_run P sec pieces lens = Ok outs /\ map lenN outs = lens /\
    hash_run P sec [concat pieces] [fold_right N.add 0 lens] = Ok [whole] /\ concat outs = whole.
Proof.
  intros HB HL HN HC HS. destruct (run_ok sec pieces lens HB HL HN) as (outs & E1 & E2 & E3).
  destruct (run_ok sec [concat pieces] [fold_right N.add 0 lens]) as (outs' & F1 & F2 & F3).
  { constructor; [apply Forall_concat, HB|constructor]. } { constructor; [exact HC|constructor]. } { constructor; [exact HS|constructor]. }
  destruct outs' as [|w [|w' outs']]; [discriminate| |discriminate]. exists outs, w. split; [exact E1|]. split; [exact E2|]. split; [exact F1|].
  cbn [concat sum fold_right] in F3. rewrite !app_nil_r, N.add_0_r in F3. rewrite E3, F3. reflexivity.
Qed.

(** contexts as byte strings absorbed (Hash.v) against the sponge *)
Lemma contexts sec pieces : forall D n, bytes_ok D -> Forall (Forall (fun b => b < 256)) pieces -> n + 200 <= 2 ^ 32 ->
  (let! sp := hash_updates P (ready sec D) pieces in let! sp := hash_final P sp in hash_squeezes P sp [n]) =
  (let! c := foldM (fun c m => H_update_any c m) pieces (mkH (if sec =? 128 then 128 else 256) D) in Ok [shake sec (h_data c) n]).
Proof.
  induction pieces as [|m pieces IH]; intros D n HD HB HN.
  - cbn [hash_updates bind foldM h_data]. destruct (final_ok sec D HD) as (st & -> & E2 & E3 & E4). cbn [bind].
    destruct (squeezes_ok sec [n] (st, 0)) as (outs & F1 & F2 & F3); [split; [exact E2|split; [exact E3|cbn; lia]]|repeat constructor; exact HN|].
    rewrite F1. rewrite (shake_output sec D) in F3 by assumption. cbn [sum fold_right] in F3. rewrite N.add_0_r in F3.
    destruct outs as [|o [|o' outs]]; [discriminate| |discriminate]. cbn [concat] in F3. rewrite app_nil_r in F3. rewrite F3. reflexivity.
  - inversion HB; subst. cbn [hash_updates foldM]. rewrite update_exact by assumption. unfold H_update_any at 1. unfold h_rate. cbn [h_sec h_data].
    replace (if (if sec =? 128 then 128 else 256) =? 128 then 168 else 136) with (shake_rate sec) by (unfold shake_rate; destruct (sec =? 128); reflexivity).
    destruct (absorb_defined _ _ _); [|reflexivity]. cbn [guard bind]. apply IH; [apply bytes_ok_app; assumption|assumption|assumption].
Qed.
Lemma contexts_run sec pieces n : Forall (Forall (fun b => b < 256)) pieces -> n + 200 <= 2 ^ 32 ->
  hash_run P sec pieces [n] = (let! c := foldM (fun c m => H_update_any c m) pieces (H_init sec) in Ok [shake (h_sec c) (h_data c) n]).
Proof.
  intros HB HN. unfold hash_run. rewrite init_ready, contexts by (assumption || constructor). unfold H_init.
  assert (HS : forall l c, foldM (fun c m => H_update_any c m) l c = (let! c' := foldM (fun c m => H_update_any c m) l c in Ok (mkH (h_sec c) (h_data c')))).
  { induction l as [|m l IH]; intros c; [destruct c; reflexivity|]. cbn [foldM]. unfold H_update_any at 1 3. destruct (guard _); [|reflexivity]. cbn [bind]. rewrite IH. cbn [H_update h_sec].
    destruct (foldM _ l _); reflexivity. }
  rewrite HS. destruct (foldM _ _ _); [|reflexivity]. cbn [bind h_sec h_data]. unfold shake. destruct (sec =? 128); reflexivity.
Qed.

(** four contexts *)
Definition lane {A} (d : A) (j : N) (l : list (list A)) : list A := map (fun p => nth (N.to_nat j) p d) l.
Lemma updates_x4 pieces : forall c0 c1 c2 c3 d0 d1 d2 d3, Forall (fun p => length p = 4%nat) pieces ->
  hash_updates P c0 (lane [] 0 pieces) = Ok d0 -> hash_updates P c1 (lane [] 1 pieces) = Ok d1 ->
  hash_updates P c2 (lane [] 2 pieces) = Ok d2 -> hash_updates P c3 (lane [] 3 pieces) = Ok d3 ->
  hash_updates_x4 P [c0; c1; c2; c3] pieces = Ok [d0; d1; d2; d3].
Proof.
  induction pieces as [|p pieces IH]; intros c0 c1 c2 c3 d0 d1 d2 d3 HL E0 E1 E2 E3.
  - unfold lane in E0, E1, E2, E3. cbn [map hash_updates hash_updates_x4] in *. inversion E0. inversion E1. inversion E2. inversion E3. reflexivity.
  - inversion HL as [|p' ps HP HL']; subst. destruct p as [|p0 [|p1 [|p2 [|p3 [|p4 p]]]]]; try discriminate.
    unfold lane in E0, E1, E2, E3. cbn [map hash_updates] in E0, E1, E2, E3. change (nth (N.to_nat 0) [p0; p1; p2; p3] []) with p0 in E0. change (nth (N.to_nat 1) [p0; p1; p2; p3] []) with p1 in E1.
    change (nth (N.to_nat 2) [p0; p1; p2; p3] []) with p2 in E2. change (nth (N.to_nat 3) [p0; p1; p2; p3] []) with p3 in E3.
    destruct (hash_update P c0 p0) as [e0|] eqn:F0; [|discriminate]. destruct (hash_update P c1 p1) as [e1|] eqn:F1; [|discriminate].
    destruct (hash_update P c2 p2) as [e2|] eqn:F2; [|discriminate]. destruct (hash_update P c3 p3) as [e3|] eqn:F3; [|discriminate].
    cbn [bind] in E0, E1, E2, E3. cbn [hash_updates_x4]. unfold hash_update_x4. cbn [mapM].
    change (aget [c0; c1; c2; c3] 0) with (Ok c0). change (aget [c0; c1; c2; c3] 1) with (Ok c1). change (aget [c0; c1; c2; c3] 2) with (Ok c2). change (aget [c0; c1; c2; c3] 3) with (Ok c3).
    change (aget [p0; p1; p2; p3] 0) with (Ok p0). change (aget [p0; p1; p2; p3] 1) with (Ok p1). change (aget [p0; p1; p2; p3] 2) with (Ok p2). change (aget [p0; p1; p2; p3] 3) with (Ok p3).
    cbn [bind]. rewrite F0, F1, F2, F3. cbn [bind]. apply IH; assumption.
Qed.
Lemma squeezes_x4 lens : forall c0 c1 c2 c3 o0 o1 o2 o3,
  hash_squeezes P c0 lens = Ok o0 -> hash_squeezes P c1 lens = Ok o1 -> hash_squeezes P c2 lens = Ok o2 -> hash_squeezes P c3 lens = Ok o3 ->
  exists outs, hash_squeezes_x4 P [c0; c1; c2; c3] lens = Ok outs /\ Forall (fun p => length p = 4%nat) outs /\
    lane [] 0 outs = o0 /\ lane [] 1 outs = o1 /\ lane [] 2 outs = o2 /\ lane [] 3 outs = o3.
Proof.
  induction lens as [|n lens IH]; intros c0 c1 c2 c3 o0 o1 o2 o3 E0 E1 E2 E3.
  - exists []. cbn [hash_squeezes hash_squeezes_x4] in *. inversion E0. inversion E1. inversion E2. inversion E3. split; [reflexivity|]. split; [constructor|]. repeat split.
  - cbn [hash_squeezes] in E0, E1, E2, E3.
    destruct (hash_squeeze P c0 n) as [[d0 b0]|] eqn:F0; [|discriminate]. destruct (hash_squeeze P c1 n) as [[d1 b1]|] eqn:F1; [|discriminate].
    destruct (hash_squeeze P c2 n) as [[d2 b2]|] eqn:F2; [|discriminate]. destruct (hash_squeeze P c3 n) as [[d3 b3]|] eqn:F3; [|discriminate].
    cbn [bind fst snd] in E0, E1, E2, E3.
    destruct (hash_squeezes P d0 lens) as [r0|] eqn:G0; [|discriminate]. destruct (hash_squeezes P d1 lens) as [r1|] eqn:G1; [|discriminate].
    destruct (hash_squeezes P d2 lens) as [r2|] eqn:G2; [|discriminate]. destruct (hash_squeezes P d3 lens) as [r3|] eqn:G3; [|discriminate].
    cbn [bind] in E0, E1, E2, E3. inversion E0; inversion E1; inversion E2; inversion E3; subst.
    destruct (IH d0 d1 d2 d3 r0 r1 r2 r3 G0 G1 G2 G3) as (outs & E & HF & L0 & L1 & L2 & L3).
    exists ([b0; b1; b2; b3] :: outs). cbn [hash_squeezes_x4]. unfold hash_squeeze_x4. cbn [mapM].
    change (aget [c0; c1; c2; c3] 0) with (Ok c0). change (aget [c0; c1; c2; c3] 1) with (Ok c1). change (aget [c0; c1; c2; c3] 2) with (Ok c2). change (aget [c0; c1; c2; c3] 3) with (Ok c3).
    cbn [bind]. rewrite F0, F1, F2, F3. cbn [bind map fst snd]. rewrite E. cbn [bind]. split; [reflexivity|]. split; [constructor; [reflexivity|exact HF]|].
    unfold lane in *. cbn [map]. rewrite L0, L1, L2, L3. repeat split.
Qed.
Lemma run_x4 sec pieces lens : Forall (fun p => length p = 4%nat) pieces ->
  Forall (Forall (Forall (fun b => b < 256))) pieces -> Forall (Forall (fun m => lenN m + 200 <= 2 ^ 32)) pieces -> Forall (fun n => n + 200 <= 2 ^ 32) lens ->
  exists outs, hash_run_x4 P sec pieces lens = Ok outs /\ Forall (fun p => length p = 4%nat) outs /\
    forall j, j < 4 -> hash_run P sec (lane [] j pieces) lens = Ok (lane [] j outs).
Proof.
  intros H4 HB HL HN.
  assert (LB : forall j, Forall (Forall (fun b => b < 256)) (lane [] j pieces)).
  { intros j. unfold lane. apply Forall_map. revert HB. apply Forall_impl. intros p Hp. destruct (nth_in_or_default (N.to_nat j) p []) as [I| ->]; [|constructor].
    rewrite Forall_forall in Hp. apply Hp, I. }
  assert (LL : forall j, Forall (fun m => lenN m + 200 <= 2 ^ 32) (lane [] j pieces)).
  { intros j. unfold lane. apply Forall_map. revert HL. apply Forall_impl. intros p Hp. destruct (nth_in_or_default (N.to_nat j) p []) as [I| ->]; [|discriminate].
    rewrite Forall_forall in Hp. apply Hp, I. }
  assert (BC : forall j, bytes_ok (concat (lane [] j pieces))) by (intros j; apply Forall_concat, LB).
  unfold hash_run_x4, hash_run. change (hash_init_x4 sec) with [ready sec []; ready sec []; ready sec []; ready sec []].
  rewrite (updates_x4 pieces _ _ _ _ _ _ _ _ H4 (updates_ok sec _ [] (Forall_nil _) (LB 0) (LL 0)) (updates_ok sec _ [] (Forall_nil _) (LB 1) (LL 1))
     (updates_ok sec _ [] (Forall_nil _) (LB 2) (LL 2)) (updates_ok sec _ [] (Forall_nil _) (LB 3) (LL 3))). cbn [bind app].
  assert (HF : forall j, exists sp outs, hash_final P (ready sec (concat (lane [] j pieces))) = Ok sp /\ hash_squeezes P sp lens = Ok outs).
  { intros j. destruct (final_ok sec _ (BC j)) as (st & E1 & E2 & E3 & E4).
    destruct (squeezes_ok sec lens (st, 0)) as (outs & F1 & F2 & F3); [split; [exact E2|split; [exact E3|cbn; lia]]|exact HN|].
    eexists. exists outs. split; [exact E1|exact F1]. }
  destruct (HF 0) as (d0 & o0 & F0 & G0). destruct (HF 1) as (d1 & o1 & F1 & G1). destruct (HF 2) as (d2 & o2 & F2 & G2). destruct (HF 3) as (d3 & o3 & F3 & G3).
  unfold hash_final_x4. cbn [mapM].
  match goal with |- context [aget ?c 0] => set (cc := c) end.
  change (aget cc 0) with (Ok (ready sec (concat (lane [] 0 pieces)))). change (aget cc 1) with (Ok (ready sec (concat (lane [] 1 pieces)))).
  change (aget cc 2) with (Ok (ready sec (concat (lane [] 2 pieces)))). change (aget cc 3) with (Ok (ready sec (concat (lane [] 3 pieces)))).
  cbn [bind]. rewrite F0, F1, F2, F3. cbn [bind]. destruct (squeezes_x4 lens _ _ _ _ _ _ _ _ G0 G1 G2 G3) as (outs & E & H4' & L0 & L1 & L2 & L3).
  exists outs. split; [exact E|]. split; [exact H4'|]. intros j Hj. rewrite init_ready, updates_ok by (try apply LB; try apply LL; constructor). cbn [bind app].
  assert (Q : j = 0 \/ j = 1 \/ j = 2 \/ j = 3) by lia. destruct Q as [-> |[-> |[-> | ->]]].
  - rewrite F0, L0. exact G0.
  - rewrite F1, L1. exact G1.
  - rewrite F2, L2. exact G2.
  - rewrite F3, L3. exact G3.
Qed.

Lemma shake_sized : xof_sized shake.
Proof.
  intros sec m n. split.
  - unfold shake, below. rewrite !map_length, seq_length. reflexivity.
  - unfold shake. apply Forall_map, Forall_forall. intros k _. unfold byte_of_bits. change (below 8) with [0; 1; 2; 3; 4; 5; 6; 7]. cbn [fold_right].
    repeat match goal with |- context [if ?b then _ else _] => destruct b end; reflexivity.
Qed.
