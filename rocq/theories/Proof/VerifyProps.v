(** Properties of verification: it is defined on all inputs, accepts exactly the runs whose last
    challenge is right, and binds key, message and signature up to collisions. *)
From Verif.Model Require Import Api.
From Verif.Spec Require Import OwfSpec VcSpec VoleSpec FormatSpec FormatMap UHashSpec ConstraintMap RunSpec.
From Verif.Proof Require Import BaseProof PrgProof VcProof VcProps VoleProof VoleProps FormatProof CorrectProof UHashProof VerifyProof.
From Coq Require Import Lia ZifyBool ZifyNat ZifyN.
Ltac Zify.zify_post_hook ::= Z.div_mod_to_equations.

Lemma absorb_short rate idx len : idx < rate -> rate <= 168 -> len + 168 <= 2 ^ 32 -> absorb_defined rate idx len = true.
Proof.
  intros H1 H2 H3. unfold absorb_defined. cbv zeta. change (2 ^ 32) with 4294967296 in *. rewrite (N.mod_small len) by lia.
  rewrite (N.mod_small (len + idx)) by lia. destruct (rate <? len + idx) eqn:E; [rewrite orb_true_r; reflexivity|].
  replace (len + idx <=? rate) with true by lia. replace (len <? 4294967296) with true by lia. rewrite !orb_true_r. reflexivity.
Qed.
Lemma mu_short i len : len + 168 <= 2 ^ 32 -> mu_defined i len = true.
Proof.
  intros H. unfold mu_defined. set (r := if p_lambda (param_of i) =? 128 then 168 else 136).
  assert (Hr : r = 168 \/ r = 136) by (subst r; destruct (_ =? _); auto). apply absorb_short; [apply N.mod_lt|..]; lia.
Qed.

Section Api.
Variable xof : N -> list N -> N -> list N.
Hypothesis HX : xof_sized xof.
Variable i : paramid.
Local Notation p := (param_of i).
Local Notation lb := (p_lambda p / 8).

Lemma pk_halves pk : lenN pk = pk_size i -> bytes_ok pk -> exists inp out, pk = inp ++ out /\
  lenN inp = owf_input_size i /\ lenN out = owf_input_size i /\ bytes_ok inp /\ bytes_ok out /\
  PK_INPUT i pk = Ok inp /\ PK_OUTPUT i pk = Ok out.
Proof using.
  intros HL HB. pose proof (half_half i) as HH. unfold pk_size in HL.
  exists (takeN (half i) pk), (dropN (half i) pk). unfold owf_input_size, PK_INPUT, PK_OUTPUT, half, pk_size in *.
  split; [symmetry; apply firstn_skipn|]. rewrite lenN_takeN, lenN_dropN. split; [lia|]. split; [lia|].
  split; [apply Forall_takeN, HB|]. split; [apply Forall_dropN, HB|].
  rewrite !slice_ok by lia. rewrite dropN_0. split; [reflexivity|]. f_equal. apply takeN_all. rewrite lenN_dropN. lia.
Qed.

Lemma verify_api pk msg sig : lenN pk = pk_size i -> bytes_ok pk -> lenN sig = sig_size i -> bytes_ok sig ->
  exists b, b_tilde xof i pk msg sig = Ok b /\ lenN b = lb /\
  verify xof i (Some pk) (Some msg) (lenN msg) (Some sig) (sig_size i) =
    if mu_defined i (lenN msg)
    then Ok (if bytes_eqb (H2 xof (p_lambda p) (chall_3_in xof i pk msg sig b) lb) (part_of i sig Challenge_3) then 0%Z else (-1)%Z)
    else UB.
Proof using HX.
  intros HL HB SL SB. destruct (pk_halves pk HL HB) as (inp & out & -> & LI & LO & BI & BO & EI & EO).
  destruct (verify_run xof HX i inp out msg sig SL SB LI BI LO BO) as (b & Lb & Bb & Eb & EV).
  exists b. split; [exact Eb|]. split; [exact Lb|]. unfold verify. rewrite N.eqb_refl. cbn [negb]. unfold read_msg.
  rewrite slice_full' by reflexivity. cbn [bind]. rewrite slice_full' by exact SL. cbn [bind]. rewrite EI, EO. cbn [bind]. rewrite EV.
  destruct (mu_defined i (lenN msg)); reflexivity.
Qed.

Lemma verify_defined pk msg sig : lenN pk = pk_size i -> bytes_ok pk -> lenN sig = sig_size i -> bytes_ok sig ->
  lenN msg + 168 <= 2 ^ 32 ->
  exists b, b_tilde xof i pk msg sig = Ok b /\
  (verify xof i (Some pk) (Some msg) (lenN msg) (Some sig) (sig_size i) = Ok 0%Z /\ accepts_with xof i pk msg sig b \/
   verify xof i (Some pk) (Some msg) (lenN msg) (Some sig) (sig_size i) = Ok (-1)%Z /\ ~ accepts_with xof i pk msg sig b).
Proof using HX.
  intros HL HB SL SB HM. destruct (verify_api pk msg sig HL HB SL SB) as (b & Eb & Lb & EV). exists b. split; [exact Eb|].
  rewrite mu_short in EV by exact HM. unfold accepts_with. destruct (bytes_eqb _ _) eqn:E.
  - left. split; [exact EV|]. apply bytes_eqb_eq, E.
  - right. split; [exact EV|]. intros H. apply bytes_eqb_eq in H. rewrite H in E. discriminate.
Qed.

Lemma app_inj (a b c d : list N) : lenN a = lenN c -> a ++ b = c ++ d -> a = c /\ b = d.
Proof.
  intros HL H. assert (length a = length c) by (unfold lenN in HL; lia). clear HL. revert c H0 H.
  induction a as [|x a IH]; intros [|y c] H0 H; try discriminate; [auto|]. cbn in *. injection H as -> H. injection H0 as H0.
  destruct (IH c H0 H) as [-> ->]. auto.
Qed.

Lemma accept_inv pk msg sig : lenN pk = pk_size i -> bytes_ok pk -> lenN sig = sig_size i -> bytes_ok sig ->
  verify xof i (Some pk) (Some msg) (lenN msg) (Some sig) (sig_size i) = Ok 0%Z ->
  exists b, b_tilde xof i pk msg sig = Ok b /\ lenN b = lb /\ H2 xof (p_lambda p) (chall_3_in xof i pk msg sig b) lb = part_of i sig Challenge_3.
Proof using HX.
  intros HL HB SL SB HV. destruct (verify_api pk msg sig HL HB SL SB) as (b & Eb & Lb & EV). exists b. split; [exact Eb|]. split; [exact Lb|].
  rewrite HV in EV. destruct (mu_defined _ _); [|discriminate]. destruct (bytes_eqb _ _) eqn:E; [|discriminate]. apply bytes_eqb_eq, E.
Qed.

Local Notation eqd := (list_eq_dec N.eq_dec).

Lemma binding_challenges pk msg sig pk' msg' sig' :
  lenN pk = pk_size i -> bytes_ok pk -> lenN sig = sig_size i -> bytes_ok sig ->
  lenN pk' = pk_size i -> bytes_ok pk' -> lenN sig' = sig_size i -> bytes_ok sig' ->
  verify xof i (Some pk) (Some msg) (lenN msg) (Some sig) (sig_size i) = Ok 0%Z ->
  verify xof i (Some pk') (Some msg') (lenN msg') (Some sig') (sig_size i) = Ok 0%Z ->
  part_of i sig Challenge_3 = part_of i sig' Challenge_3 ->
  (pk = pk' /\ msg = msg' /\ H1 xof (p_lambda p) (hcom_in xof i sig) = H1 xof (p_lambda p) (hcom_in xof i sig') /\
   forall x, match x with Opening _ | Com _ => False | Correction k => k < p_tau p - 1 | _ => True end -> part_of i sig x = part_of i sig' x) \/
  challenge_collision xof i pk msg sig pk' msg' sig'.
Proof using HX.
  intros HL HB SL SB HL' HB' SL' SB' V1 V2 HC.
  destruct (accept_inv pk msg sig HL HB SL SB V1) as (b & Eb & Lb & E1).
  destruct (accept_inv pk' msg' sig' HL' HB' SL' SB' V2) as (b' & Eb' & Lb' & E1').
  pose proof (part_len i sig SL) as PL. pose proof (part_len i sig' SL') as PL'.
  assert (IP : forall x, match x with Opening _ | Com _ => False | Correction k => k < p_tau p - 1 | _ => True end -> In x (parts p)).
  { intros x Hx. apply In_parts. destruct x; try exact I; [exact Hx|destruct Hx|destruct Hx]. }
  unfold challenge_collision. cbv zeta.
  destruct (eqd (chall_3_in xof i pk msg sig b) (chall_3_in xof i pk' msg' sig' b')) as [Q3|N3].
  2:{ right. left. exists b, b'. split; [exact Eb|]. split; [exact Eb'|]. split; [exact N3|]. cbv beta. rewrite E1, E1'. exact HC. }
  unfold chall_3_in in Q3. apply app_inj in Q3; [|unfold chall_2, H2; rewrite !(xof_len xof HX); reflexivity].
  destruct Q3 as [QC2 Q3]. apply app_inj in Q3; [|rewrite PL, PL' by (apply IP; exact I); reflexivity]. destruct Q3 as [QA _].
  destruct (eqd (chall_2_in xof i pk msg sig) (chall_2_in xof i pk' msg' sig')) as [Q2|N2].
  2:{ right. right. left. split; [exact N2|]. exact QC2. }
  unfold chall_2_in in Q2. cbv zeta in Q2. apply app_inj in Q2; [|unfold chall_1, H2; rewrite !(xof_len xof HX); reflexivity].
  destruct Q2 as [QC1 Q2]. apply app_inj in Q2; [|rewrite PL, PL' by (apply IP; exact I); reflexivity]. destruct Q2 as [QU Q2].
  apply app_inj in Q2; [|rewrite !(H1_len xof HX i); reflexivity]. destruct Q2 as [_ QD].
  destruct (eqd (chall_1_in xof i pk msg sig) (chall_1_in xof i pk' msg' sig')) as [Q1|N1].
  2:{ right. right. right. left. split; [exact N1|]. exact QC1. }
  unfold chall_1_in in Q1. cbv zeta in Q1. apply app_inj in Q1; [|rewrite !(H1_len xof HX i); reflexivity].
  destruct Q1 as [QM Q1]. apply app_inj in Q1; [|rewrite !(H1_len xof HX i); reflexivity]. destruct Q1 as [QH Q1]. rewrite !map_upto in Q1.
  assert (CL : forall s k, lenN s = sig_size i -> k < p_tau p - 1 -> lenN (part_of i s (Correction k)) = ellhat_bytes p).
  { intros s k Hs Hk. rewrite (part_len i s Hs) by (apply IP; exact Hk). apply L_eq. }
  assert (CC : forall s, lenN s = sig_size i -> lenN (concat (tab (p_tau p - 1) (fun k => part_of i s (Correction k)))) = (p_tau p - 1) * ellhat_bytes p).
  { intros s Hs. apply (concat_var_len (fun k => k * ellhat_bytes p)); [reflexivity|]. intros k Hk. rewrite CL by assumption. lia. }
  apply app_inj in Q1; [|rewrite !CC by assumption; reflexivity]. destruct Q1 as [QC QI].
  destruct (eqd (mu_in pk msg) (mu_in pk' msg')) as [Q0|N0].
  2:{ right. right. right. right. split; [exact N0|]. exact QM. }
  unfold mu_in in Q0. apply app_inj in Q0; [|lia]. destruct Q0 as [-> ->]. left. split; [reflexivity|]. split; [reflexivity|]. split; [exact QH|].
  intros x Hx. destruct x as [k| | | |t|t| |]; try assumption; [|destruct Hx|destruct Hx].
  apply (list_ext 0); [rewrite !CL by assumption; reflexivity|]. intros j Hj. rewrite CL in Hj by assumption.
  pose proof (f_equal (fun l => nthN l (k * ellhat_bytes p + j) 0) QC) as Q. cbv beta in Q.
  rewrite !(concat_var_nth 0 (fun k => k * ellhat_bytes p)) in Q; try exact Q; try reflexivity; try exact Hx;
    try (intros; rewrite CL by assumption; lia); rewrite CL by assumption; exact Hj.
Qed.

(** the same leaves come from the same tree, up to collisions of the length-doubling PRG *)
Lemma children_prg iv a b : child (p_lambda p) iv a false = child (p_lambda p) iv b false ->
  child (p_lambda p) iv a true = child (p_lambda p) iv b true ->
  ctr_bytes (p_lambda p) a iv (2 * lb) = ctr_bytes (p_lambda p) b iv (2 * lb).
Proof using.
  unfold child. cbv zeta. intros H1 H2.
  rewrite <- (firstn_skipn (N.to_nat lb) (ctr_bytes (p_lambda p) a iv (2 * lb))), H1, H2. apply firstn_skipn.
Qed.

Lemma level_or {A} (dec : forall x y : A, {x = y} + {x <> y}) (f g : N -> A) n (P : N -> bool) :
  (forall k, k < n -> P k = true -> f k = g k) \/ (exists k, k < n /\ P k = true /\ f k <> g k).
Proof.
  induction n as [|n IH] using N.peano_ind; [left; intros; lia|]. destruct IH as [IH|(k & H1 & H2)].
  - destruct (P n) eqn:E.
    + destruct (dec (f n) (g n)) as [D|D]; [|right; exists n; split; [lia|]; auto]. left. intros k Hk HP.
      destruct (N.eq_dec k n) as [->|Hn]; [exact D|]. apply IH; [lia|exact HP].
    + left. intros k Hk HP. destruct (N.eq_dec k n) as [->|Hn]; [congruence|]. apply IH; [lia|exact HP].
  - right. exists k. split; [lia|exact H2].
Qed.

Lemma odd_double n b : N.odd (2 * n + N.b2n b) = b.
Proof. rewrite N.odd_add, N.odd_mul. destruct b; reflexivity. Qed.

Lemma same_tree sig sig' t :
  part_of i sig Iv = part_of i sig' Iv -> part_of i sig Challenge_3 = part_of i sig' Challenge_3 ->
  (forall j, j < 2 ^ depth_of p t -> j <> hidden p (part_of i sig Challenge_3) t -> leaf_of i sig t j = leaf_of i sig' t j) ->
  (forall l pos, N.of_nat l <= depth_of p t -> pos < 2 ^ N.of_nat l ->
     pos <> ancestor (depth_of p t) (hidden p (part_of i sig Challenge_3) t) (N.of_nat l) -> node_of i sig t l pos = node_of i sig' t l pos) \/
  (exists l pos, N.of_nat l < depth_of p t /\ pos < 2 ^ N.of_nat l /\
     pos <> ancestor (depth_of p t) (hidden p (part_of i sig Challenge_3) t) (N.of_nat l) /\
     collide (fun node => ctr_bytes (p_lambda p) node (part_of i sig Iv) (2 * lb)) (node_of i sig t l pos) (node_of i sig' t l pos)).
Proof using.
  intros HI HC HLf. set (d := depth_of p t) in *. set (h := hidden p (part_of i sig Challenge_3) t) in *.
  assert (D : forall m l, N.of_nat l = d - N.of_nat m -> N.of_nat m <= d ->
    (forall l' pos, N.of_nat l <= N.of_nat l' <= d -> pos < 2 ^ N.of_nat l' -> pos <> ancestor d h (N.of_nat l') -> node_of i sig t l' pos = node_of i sig' t l' pos) \/
    (exists l pos, N.of_nat l < d /\ pos < 2 ^ N.of_nat l /\ pos <> ancestor d h (N.of_nat l) /\
     collide (fun node => ctr_bytes (p_lambda p) node (part_of i sig Iv) (2 * lb)) (node_of i sig t l pos) (node_of i sig' t l pos))).
  { induction m as [|m IH]; intros l El Hm.
    - left. intros l' pos Hl' Hp Hn. replace l' with (N.to_nat d) in * by lia. replace (N.of_nat (N.to_nat d)) with d in * by lia.
      rewrite ancestor_top in Hn. apply HLf; assumption.
    - destruct (IH (S l) ltac:(lia) ltac:(lia)) as [IH'|X]; [|right; exact X].
      destruct (level_or eqd (node_of i sig t l) (node_of i sig' t l) (2 ^ N.of_nat l) (fun pos => negb (pos =? ancestor d h (N.of_nat l)))) as [A|(pos & P1 & P2 & P3)].
      + left. intros l' pos Hl' Hp Hn. destruct (Nat.eq_dec l' l) as [->|Hne]; [apply A; [exact Hp|lia]|]. apply IH'; [lia|exact Hp|exact Hn].
      + right. exists l, pos. split; [lia|]. split; [exact P1|]. split; [lia|]. split; [exact P3|]. cbv beta.
        assert (ES : forall b, node_of i sig t (S l) (2 * pos + N.b2n b) = node_of i sig' t (S l) (2 * pos + N.b2n b)).
        { intros b. apply IH'; [lia| |].
          - rewrite Nat2N.inj_succ, <- N.add_1_r, pow2_S. destruct b; cbn [N.b2n]; lia.
          - intros E. rewrite Nat2N.inj_succ, <- N.add_1_r in E. apply (f_equal (fun x => x / 2)) in E. rewrite ancestor_half in E by lia.
            replace ((2 * pos + N.b2n b) / 2) with pos in E by (destruct b; cbn [N.b2n]; lia). lia. }
        assert (EN : forall s b, node_of i s t (S l) (2 * pos + N.b2n b) =
          if pos =? ancestor d (hidden p (part_of i s Challenge_3) t) (N.of_nat l) then sub (part_of i s (Opening t)) (lb * N.of_nat l) lb
          else child (p_lambda p) (part_of i s Iv) (node_of i s t l pos) b).
        { intros s b. unfold node_of. cbn [from_path]. replace ((2 * pos + N.b2n b) / 2) with pos by (destruct b; cbn [N.b2n]; lia).
          rewrite odd_double. reflexivity. }
        assert (EC : forall b, child (p_lambda p) (part_of i sig Iv) (node_of i sig t l pos) b = child (p_lambda p) (part_of i sig Iv) (node_of i sig' t l pos) b).
        { intros b. specialize (ES b). rewrite !EN in ES. rewrite <- HC, <- HI in ES. fold h in ES.
          replace (pos =? ancestor d h (N.of_nat l)) with false in ES by (symmetry; lia). exact ES. }
        apply children_prg; apply EC. }
  destruct (D (N.to_nat d) 0%nat ltac:(lia) ltac:(lia)) as [A|X]; [left|right; exact X]. intros l pos Hl. apply A. lia.
Qed.

Lemma same_opening sig sig' t : lenN sig = sig_size i -> lenN sig' = sig_size i -> t < p_tau p ->
  part_of i sig Challenge_3 = part_of i sig' Challenge_3 ->
  (forall l pos, N.of_nat l <= depth_of p t -> pos < 2 ^ N.of_nat l ->
     pos <> ancestor (depth_of p t) (hidden p (part_of i sig Challenge_3) t) (N.of_nat l) -> node_of i sig t l pos = node_of i sig' t l pos) ->
  part_of i sig (Opening t) = part_of i sig' (Opening t).
Proof using.
  intros SL SL' Ht HC HN. set (d := depth_of p t) in *. set (h := hidden p (part_of i sig Challenge_3) t) in *.
  assert (PL : forall s, lenN s = sig_size i -> lenN (part_of i s (Opening t)) = d * lb).
  { intros s Hs. apply (part_len i s Hs), In_parts, Ht. }
  assert (Hh : h < 2 ^ d) by (apply N.mod_lt; pose proof (pow2_pos d); lia).
  apply (list_ext 0); [rewrite !PL by assumption; reflexivity|]. intros n Hn. rewrite PL in Hn by exact SL.
  set (q := lb) in *. assert (Hq : 0 < q) by (destruct (q =? 0) eqn:E; [replace q with 0 in Hn by lia; lia|lia]).
  pose proof (N.div_mod n q ltac:(lia)) as EQ. pose proof (N.mod_lt n q ltac:(lia)) as HM.
  assert (Hl : n / q < d) by (apply N.div_lt_upper_bound; lia). set (l := n / q) in *.
  assert (HS : sibling (ancestor d h (l + 1)) < 2 ^ (l + 1)).
  { rewrite pow2_S. apply sibling_bound. rewrite <- pow2_S. apply ancestor_bound; [exact Hh|lia]. }
  assert (EN : forall s, part_of i s Challenge_3 = part_of i sig Challenge_3 ->
     node_of i s t (S (N.to_nat l)) (sibling (ancestor d h (l + 1))) = sub (part_of i s (Opening t)) (q * l) q).
  { intros s Hs. unfold node_of. cbn [from_path]. rewrite Hs. fold d h. replace (N.of_nat (N.to_nat l)) with l by lia.
    rewrite sibling_half, ancestor_half by exact Hl. rewrite N.eqb_refl. reflexivity. }
  assert (E : sub (part_of i sig (Opening t)) (q * l) q = sub (part_of i sig' (Opening t)) (q * l) q).
  { rewrite <- !EN by (try reflexivity; symmetry; exact HC). apply HN; replace (N.of_nat (S (N.to_nat l))) with (l + 1) by lia; [lia|exact HS|].
    apply sibling_neq. }
  rewrite !sub_eq in E. apply (f_equal (fun x => nthN x (n mod q) 0)) in E. rewrite !nthN_takeN, !nthN_dropN in E by exact HM.
  rewrite EQ. exact E.
Qed.

Lemma binding pk msg sig pk' msg' sig' :
  lenN pk = pk_size i -> bytes_ok pk -> lenN sig = sig_size i -> bytes_ok sig ->
  lenN pk' = pk_size i -> bytes_ok pk' -> lenN sig' = sig_size i -> bytes_ok sig' ->
  verify xof i (Some pk) (Some msg) (lenN msg) (Some sig) (sig_size i) = Ok 0%Z ->
  verify xof i (Some pk') (Some msg') (lenN msg') (Some sig') (sig_size i) = Ok 0%Z ->
  part_of i sig Challenge_3 = part_of i sig' Challenge_3 ->
  (pk = pk' /\ msg = msg' /\ sig = sig') \/
  challenge_collision xof i pk msg sig pk' msg' sig' \/ commitment_collision xof i sig sig'.
Proof using HX.
  intros HL HB SL SB HL' HB' SL' SB' V1 V2 HC.
  destruct (binding_challenges pk msg sig pk' msg' sig' HL HB SL SB HL' HB' SL' SB' V1 V2 HC) as [(E1 & E2 & EH & EP)|X]; [|auto].
  pose proof (EP Iv I) as HI. cut ((forall t, t < p_tau p -> part_of i sig (Opening t) = part_of i sig' (Opening t) /\ part_of i sig (Com t) = part_of i sig' (Com t))
    \/ commitment_collision xof i sig sig').
  { intros [C|C]; [left|auto]. split; [exact E1|]. split; [exact E2|].
    assert (G : forall s, lenN s = sig_size i -> s = concat (map (part_of i s) (parts p))).
    { intros s Hs. apply parts_determine; [exact Hs|]. intros x Hx. pose proof (part_in i s Hs x Hx). rewrite slice_ok by lia.
      rewrite (part_take i s). reflexivity. }
    rewrite (G sig SL), (G sig' SL'). f_equal. apply map_ext_in. intros x Hx. apply In_parts in Hx.
    destruct x as [k| | | |t|t| |]; try (apply EP; exact I); try (apply EP; exact Hx); apply C, Hx. }
  unfold commitment_collision. cbv zeta.
  destruct (eqd (hcom_in xof i sig) (hcom_in xof i sig')) as [QH|NH]; [|right; left; split; [exact NH|exact EH]].
  assert (ET : forall t, t < p_tau p -> H1 xof (p_lambda p) (tree_in xof i sig t) = H1 xof (p_lambda p) (tree_in xof i sig' t)).
  { intros t Ht. unfold hcom_in in QH. rewrite !map_upto in QH.
    apply (list_ext 0); [rewrite !(H1_len xof HX i); reflexivity|]. intros n Hn. rewrite (H1_len xof HX i) in Hn.
    pose proof (f_equal (fun l => nthN l (t * (2 * lb) + n) 0) QH) as Q. cbv beta in Q.
    rewrite !(concat_var_nth 0 (fun k => k * (2 * lb))) in Q; try exact Q; try reflexivity; try exact Ht;
      try (intros; rewrite (H1_len xof HX i); lia); rewrite (H1_len xof HX i); exact Hn. }
  clear EH QH.
  destruct (level_or eqd (tree_in xof i sig) (tree_in xof i sig') (p_tau p) (fun _ => true)) as [QT|(t & T1 & _ & T2)].
  2:{ right. right. left. exists t. split; [exact T1|]. split; [exact T2|apply ET, T1]. }
  set (chal := part_of i sig Challenge_3) in *.
  assert (CT : forall t, t < p_tau p -> part_of i sig (Com t) = part_of i sig' (Com t) /\
    forall j, j < 2 ^ depth_of p t -> j <> hidden p chal t ->
      leaf_com xof (p_lambda p) (leaf_of i sig t j) (part_of i sig Iv) = leaf_com xof (p_lambda p) (leaf_of i sig' t j) (part_of i sig Iv)).
  { intros t Ht. specialize (QT t Ht eq_refl). unfold tree_in in QT. cbv zeta in QT. rewrite !map_upto in QT. rewrite <- HC, <- HI in QT. fold chal in QT.
    set (f := fun s j => if j =? hidden p chal t then part_of i s (Com t) else leaf_com xof (p_lambda p) (leaf_of i s t j) (part_of i sig Iv)) in *.
    assert (FL : forall s j, lenN s = sig_size i -> lenN (f s j) = 2 * lb).
    { intros s j Hs. subst f. cbv beta. destruct (j =? hidden p chal t); [apply (part_len i s Hs), In_parts, Ht|].
      unfold leaf_com, H0. change (skipn (N.to_nat lb)) with (@dropN N lb). rewrite lenN_dropN, (xof_len xof HX). lia. }
    assert (FE : forall j, j < 2 ^ depth_of p t -> f sig j = f sig' j).
    { intros j Hj. apply (list_ext 0); [rewrite !FL by assumption; reflexivity|]. intros n Hn. rewrite FL in Hn by exact SL.
      pose proof (f_equal (fun l => nthN l (j * (2 * lb) + n) 0) QT) as Q. cbv beta in Q.
      rewrite (concat_var_nth 0 (fun k => k * (2 * lb)) (f sig)) in Q; [|reflexivity|intros; rewrite FL by exact SL; lia|exact Hj|rewrite FL by exact SL; exact Hn].
      rewrite (concat_var_nth 0 (fun k => k * (2 * lb)) (f sig')) in Q; [exact Q|reflexivity|intros; rewrite FL by exact SL'; lia|exact Hj|rewrite FL by exact SL'; exact Hn]. }
    split.
    - assert (Hh : hidden p chal t < 2 ^ depth_of p t) by (apply N.mod_lt; pose proof (pow2_pos (depth_of p t)); lia).
      specialize (FE _ Hh). subst f. cbv beta in FE. rewrite N.eqb_refl in FE. exact FE.
    - intros j Hj Hne. specialize (FE _ Hj). subst f. cbv beta in FE. replace (j =? hidden p chal t) with false in FE by (symmetry; lia). exact FE. }
  clear QT ET.
  assert (DL : (forall t, t < p_tau p -> part_of i sig (Opening t) = part_of i sig' (Opening t)) \/ exists t, t < p_tau p /\ part_of i sig (Opening t) <> part_of i sig' (Opening t)).
  { destruct (level_or eqd (fun t => part_of i sig (Opening t)) (fun t => part_of i sig' (Opening t)) (p_tau p) (fun _ => true)) as [Q|(t & T1 & _ & T2)].
    - left. intros t Ht. apply (Q t Ht eq_refl).
    - right. exists t. split; [exact T1|exact T2]. }
  destruct DL as [DL|(t & Ht & DN)]; [left; intros t Ht; split; [apply DL, Ht|apply CT, Ht]|].
  right. right. right. destruct (CT t Ht) as [_ CL].
  destruct (level_or eqd (leaf_of i sig t) (leaf_of i sig' t) (2 ^ depth_of p t) (fun j => negb (j =? hidden p chal t))) as [QL|(j & J1 & J2 & J3)].
  2:{ left. exists t, j. split; [exact Ht|]. split; [exact J1|]. split; [lia|]. split; [exact J3|]. apply CL; [exact J1|lia]. }
  destruct (same_tree sig sig' t HI HC) as [A|(l & pos & X)].
  { intros j Hj Hne. apply QL; [exact Hj|]. fold chal in Hne. lia. }
  { exfalso. apply DN. apply (same_opening sig sig' t SL SL' Ht HC A). }
  right. exists t, l, pos. split; [exact Ht|]. exact X.
Qed.
End Api.

(** the bytes at a message pointer *)
Lemma read_msg_ok message mlen :
  match message with Some m => mlen <= lenN m | None => mlen = 0 end ->
  exists m, lenN m = mlen /\ read_msg message mlen = Ok m /\
    m = match message with Some m => takeN mlen m | None => [] end.
Proof.
  destruct message as [m|]; cbn [read_msg]; intros H.
  - exists (takeN mlen m). rewrite slice_ok by lia. rewrite dropN_0, lenN_takeN. split; [lia|auto].
  - subst. exists []. auto.
Qed.

Lemma verify_reads xof i pk message mlen sig :
  pk_size i <= lenN pk -> match message with Some m => mlen <= lenN m | None => mlen = 0 end -> sig_size i <= lenN sig ->
  exists m, lenN m = mlen /\ m = match message with Some m => takeN mlen m | None => [] end /\
    verify xof i (Some pk) message mlen (Some sig) (sig_size i) =
    verify xof i (Some (takeN (pk_size i) pk)) (Some m) (lenN m) (Some (takeN (sig_size i) sig)) (sig_size i).
Proof.
  intros HP HM HS. destruct (read_msg_ok message mlen HM) as (m & Lm & Em & Vm). exists m. split; [exact Lm|]. split; [exact Vm|].
  unfold verify. rewrite N.eqb_refl. cbn [negb]. rewrite Em. cbn [bind read_msg]. rewrite (slice_full' m) by reflexivity. cbn [bind].
  rewrite slice_ok by lia. rewrite slice_ok by (rewrite lenN_takeN; lia). cbn [bind]. rewrite !dropN_0, takeN_takeN, N.min_id.
  unfold PK_INPUT, PK_OUTPUT, half. pose proof (half_half i) as HH. fold (pk_size i) in HH.
  rewrite !slice_ok by (rewrite ?lenN_takeN; lia). cbn [bind]. rewrite !dropN_0, takeN_takeN.
  replace (N.min (pk_size i / 2) (pk_size i)) with (pk_size i / 2) by lia. rewrite take_drop_take by lia. reflexivity.
Qed.

Lemma verify_total xof i pk message mlen sig siglen : xof_sized xof ->
  pk_size i <= lenN pk -> bytes_ok pk -> match message with Some m => mlen <= lenN m | None => mlen = 0 end ->
  mlen + 168 <= 2 ^ 32 -> sig_size i <= lenN sig -> bytes_ok sig ->
  exists r, verify xof i (Some pk) message mlen (Some sig) siglen = Ok r /\ (r = 0%Z \/ r = (-1)%Z).
Proof.
  intros HX HP BP HM HL HS BS. destruct (siglen =? sig_size i) eqn:E.
  2:{ exists (-1)%Z. split; [|auto]. cbn [verify]. rewrite E. reflexivity. }
  replace siglen with (sig_size i) by lia. destruct (verify_reads xof i pk message mlen sig HP HM HS) as (m & Lm & _ & EV). rewrite EV.
  destruct (verify_defined xof HX i (takeN (pk_size i) pk) m (takeN (sig_size i) sig)) as (b & _ & [[Q _]|[Q _]]).
  { rewrite lenN_takeN. lia. } { apply Forall_takeN, BP. } { rewrite lenN_takeN. lia. } { apply Forall_takeN, BS. } { lia. }
  { rewrite Q. eauto. } { rewrite Q. eauto. }
Qed.

Lemma verify_criterion xof i pk msg sig : xof_sized xof ->
  lenN pk = pk_size i -> bytes_ok pk -> lenN msg + 168 <= 2 ^ 32 -> lenN sig = sig_size i -> bytes_ok sig ->
  exists b, b_tilde xof i pk msg sig = Ok b /\
    (verify xof i (Some pk) (Some msg) (lenN msg) (Some sig) (sig_size i) = Ok 0%Z <-> accepts_with xof i pk msg sig b).
Proof.
  intros HX HP BP HM HS BS. destruct (verify_defined xof HX i pk msg sig HP BP HS BS HM) as (b & Eb & [[Q A]|[Q A]]); exists b; (split; [exact Eb|]).
  - tauto.
  - rewrite Q. split; [discriminate|tauto].
Qed.

Lemma same_signature xof i pk msg pk' msg' sig : xof_sized xof ->
  lenN pk = pk_size i -> bytes_ok pk -> lenN pk' = pk_size i -> bytes_ok pk' -> lenN sig = sig_size i -> bytes_ok sig ->
  verify xof i (Some pk) (Some msg) (lenN msg) (Some sig) (sig_size i) = Ok 0%Z ->
  verify xof i (Some pk') (Some msg') (lenN msg') (Some sig) (sig_size i) = Ok 0%Z ->
  (pk, msg) <> (pk', msg') -> challenge_collision xof i pk msg sig pk' msg' sig.
Proof.
  intros HX HP BP HP' BP' HS BS V1 V2 HN.
  destruct (binding_challenges xof HX i pk msg sig pk' msg' sig HP BP HS BS HP' BP' HS BS V1 V2 eq_refl) as [(-> & -> & _)|X]; [|exact X].
  destruct (HN eq_refl).
Qed.

Lemma verify_arguments xof i pk message mlen signature siglen :
  pk = None \/ signature = None \/ siglen <> sig_size i -> verify xof i pk message mlen signature siglen = Ok (-1)%Z.
Proof.
  intros H. unfold verify. destruct pk as [pk|]; [|reflexivity]. destruct signature as [sg|]; [|reflexivity].
  destruct H as [H|[H|H]]; try discriminate. replace (siglen =? sig_size i) with false by lia. reflexivity.
Qed.
Lemma verify_length xof i pk message mlen signature siglen :
  verify xof i pk message mlen signature siglen = Ok 0%Z -> pk <> None /\ signature <> None /\ siglen = sig_size i.
Proof.
  intros H. destruct pk as [pk|]; [|discriminate]. destruct signature as [sg|]; [|discriminate]. split; [discriminate|]. split; [discriminate|].
  cbn [verify] in H. destruct (siglen =? sig_size i) eqn:E; [lia|discriminate].
Qed.

(** For examples: under an XOF which always returns zeros the signatures with last challenge zero
    are the ones accepted. *)
Definition zero_xof (s : N) (data : list N) (n : N) : list N := repeat 0 (N.to_nat n).
Lemma zero_sized : xof_sized zero_xof.
Proof.
  intros s data n. unfold zero_xof. split; [apply repeat_length|].
  apply Forall_forall. intros b Hb. apply repeat_spec in Hb. subst. reflexivity.
Qed.
Lemma zero_accepts i pk msg sig : lenN pk = pk_size i -> bytes_ok pk -> lenN msg + 168 <= 2 ^ 32 -> lenN sig = sig_size i -> bytes_ok sig ->
  part_of i sig Challenge_3 = repeat 0 (N.to_nat (p_lambda (param_of i) / 8)) ->
  verify zero_xof i (Some pk) (Some msg) (lenN msg) (Some sig) (sig_size i) = Ok 0%Z.
Proof.
  intros HP BP HM HS BS HC. destruct (verify_criterion zero_xof i pk msg sig zero_sized HP BP HM HS BS) as (b & _ & E). apply E.
  unfold accepts_with. rewrite HC. reflexivity.
Qed.
