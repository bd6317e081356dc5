(** Closed forms of the functions of the constraint system. *)
From Verif.Model Require Import Aes FaestAes.
From Verif.Spec Require Import AesSpec OwfSpec ConstraintSpec ConstraintMap UHashSpec.
From Verif.Proof Require Import BaseProof PolyProof FieldProof EmbedProof AesProof UHashProof ClaimProof DefectProof WireProof.
From Coq Require Import Lia ZifyBool ZifyNat ZifyN.
Ltac Zify.zify_post_hook ::= Z.div_mod_to_equations.

(** * Lists of S-boxes *)
Definition idx3 (nb nr : N) : list (N * N * N) :=
  flat_map (fun n => flat_map (fun c => map (fun r => (n, c, r)) (Nrange 4)) (Nrange nb)) (Nrange nr).
Definition row {A} (nb : N) (g : N -> N -> N -> A) (n : N) : list A :=
  concat (map (fun c => map (g n c) (Nrange 4)) (Nrange nb)).
Definition un3 {A} (g : N -> N -> N -> A) (x : N * N * N) : A := g (fst (fst x)) (snd (fst x)) (snd x).

Lemma map_flat_map {A B C} (f : B -> C) (g : A -> list B) l : map f (flat_map g l) = flat_map (fun x => map f (g x)) l.
Proof. induction l as [|x l IH]; cbn; [reflexivity|]. rewrite map_app, IH. reflexivity. Qed.
Lemma flat_map_ext' {A B} (f g : A -> list B) l : (forall x, In x l -> f x = g x) -> flat_map f l = flat_map g l.
Proof.
  induction l as [|x l IH]; cbn; intros H; [reflexivity|]. rewrite H by auto. rewrite IH by auto. reflexivity.
Qed.
Lemma map_idx3 {A} (g : N -> N -> N -> A) nb nr : map (un3 g) (idx3 nb nr) = concat (map (row nb g) (Nrange nr)).
Proof.
  unfold idx3. rewrite map_flat_map, flat_map_concat_map. f_equal. apply map_ext. intros n.
  rewrite map_flat_map, flat_map_concat_map. reflexivity.
Qed.
Lemma In_idx3 nb nr n c r : In (n, c, r) (idx3 nb nr) <-> n < nr /\ c < nb /\ r < 4.
Proof.
  unfold idx3. rewrite in_flat_map. split.
  - intros (n' & Hn & H). apply in_flat_map in H. destruct H as (c' & Hc & H). apply in_map_iff in H.
    destruct H as (r' & E & Hr). injection E as -> -> ->. rewrite In_Nrange in *. tauto.
  - intros (Hn & Hc & Hr). exists n. split; [apply In_Nrange, Hn|]. apply in_flat_map. exists c.
    split; [apply In_Nrange, Hc|]. apply in_map_iff. exists r. split; [reflexivity|apply In_Nrange, Hr].
Qed.
Lemma lenN_idx3 nb nr : lenN (idx3 nb nr) = 4 * nb * nr.
Proof.
  unfold idx3. rewrite flat_map_concat_map.
  assert (G : forall n : N, lenN (flat_map (fun c => map (fun r => (n, c, r)) (Nrange 4)) (Nrange nb)) = 4 * nb).
  { intros n. rewrite flat_map_concat_map. induction nb as [|nb IH] using N.peano_ind; [reflexivity|].
    rewrite <- N.add_1_r, Nrange_succ, map_app, concat_app, lenN_app, IH. cbn [map concat]. rewrite app_nil_r, lenN_map, lenN_Nrange. lia. }
  induction nr as [|nr IH] using N.peano_ind; [rewrite N.mul_0_r; reflexivity|].
  rewrite <- N.add_1_r, Nrange_succ, map_app, concat_app, lenN_app, IH. cbn [map concat]. rewrite app_nil_r, G. lia.
Qed.

Lemma tab4 {A} nb (f : N -> A) : tab (4 * nb) f = concat (map (fun c => map (fun r => f (4 * c + r)) (Nrange 4)) (Nrange nb)).
Proof.
  induction nb as [|nb IH] using N.peano_ind; [reflexivity|].
  rewrite <- N.add_1_r, Nrange_succ, map_app, concat_app, <- IH.
  replace (4 * (nb + 1)) with (4 * nb + 1 + 1 + 1 + 1) by lia. rewrite !tab_succ, <- !app_assoc. cbn [map concat app].
  change (Nrange 4) with [0; 1; 2; 3]. cbn [map app]. rewrite N.add_0_r, <- !N.add_assoc. reflexivity.
Qed.
Lemma Nrange_cons n : 0 < n -> Nrange n = 0 :: Nfromto 1 n.
Proof.
  intros H. unfold Nrange, Nfromto. replace (N.to_nat n) with (S (N.to_nat (n - 1))) by lia. reflexivity.
Qed.

(** * Arrays of wires *)
Definition holds (l : list N) (n : N) (W : N -> N) : Prop := n <= lenN l /\ forall i, i < n -> nthN l i 0 = W i.

Lemma holds_nth l : holds l (lenN l) (fun i => nthN l i 0).
Proof. split; [lia|]. reflexivity. Qed.
Lemma holds_le l n m W : holds l n W -> m <= n -> holds l m W.
Proof. intros [H1 H2] Hm. split; [lia|]. intros. apply H2. lia. Qed.
Lemma holds_drop l n k W : holds l (k + n) W -> holds (dropN k l) n (fun i => W (k + i)).
Proof. intros [H1 H2]. split; [rewrite lenN_dropN; lia|]. intros i Hi. rewrite nthN_dropN. apply H2. lia. Qed.
Lemma holds_tab n W : holds (tab n W) n W.
Proof. split; [rewrite lenN_tab; lia|]. intros. apply nthN_tab. assumption. Qed.

Section Field.
Variable F : field.
Hypothesis HB : big_field F.

Lemma combine_ok l n W pos off : holds l n W -> off = 8 * pos -> 8 * pos + 8 <= n ->
  bf_byte_combine F l off = Ok (cmb F W pos).
Proof.
  intros [H1 H2] -> Hn. rewrite byte_combine_eq by (try assumption; lia). f_equal. apply combine8_ext.
  intros i Hi. apply H2. lia.
Qed.
(** bytes as wires *)
Definition bw (x : list N) (i : N) : N := bitw (nthN x (i / 8) 0) (i mod 8).
Lemma bw_carries x : bytes_ok x -> carries (bw x) (at_ 0 x).
Proof.
  intros H p. rewrite at_nthN. split; [apply nthN_byte, H|]. intros i Hi. unfold bw.
  replace ((8 * p + i) / 8) with p by lia. replace ((8 * p + i) mod 8) with i by lia. reflexivity.
Qed.
Lemma combine_byte_ok x pos : bytes_ok x -> pos < lenN x -> combine_byte F x pos = Ok (cmb F (bw x) pos).
Proof.
  intros H Hp. unfold combine_byte. rewrite (aget_ok _ _ 0) by exact Hp. cbn [bind].
  rewrite byte_combine_bits_emb by (try assumption; apply nthN_byte, H).
  rewrite (cmb_bits F HB (bw x) (at_ 0 x)) by (apply bw_carries, H). rewrite at_nthN. reflexivity.
Qed.

Lemma inv_affine_wires_ok x k : lenN x = 8 -> inv_affine_wires x k = Ok (tab 8 (invaff (fun i => nthN x i 0) k)).
Proof.
  intros H. do 8 (destruct x as [|? x]; [discriminate H|]). destruct x; [|rewrite !lenN_cons in H; lia].
  cbv -[N.lxor]. reflexivity.
Qed.
Lemma IA_wires x k W : lenN x = 8 -> (forall i, i < 8 -> nthN x i 0 = W i) ->
  (let! y := inv_affine_wires x k in bf_byte_combine F y 0) = Ok (IA F W k).
Proof.
  intros H HW. rewrite inv_affine_wires_ok by exact H. cbn [bind].
  rewrite (combine_ok _ 8 (invaff (fun i => nthN x i 0) k) 0) by (first [apply holds_tab|reflexivity|lia]).
  f_equal. apply combine8_ext. intros i Hi. rewrite N.mul_0_r, N.add_0_l. apply invaff_ext; assumption.
Qed.

(** * The common shape of the forward and backward functions *)
Lemma forward_gen R (g0 : N -> res N) (gx gk : N -> N -> N -> res N) (I K X : N -> N) : 0 < Nr R ->
  (forall p, p < 4 * Nb R -> g0 p = Ok (N.lxor (cmb F I p) (cmb F K p))) ->
  (forall n c r, 1 <= n -> n < Nr R -> c < Nb R -> r < 4 -> gx n c r = Ok (cmb F X (4 * Nb R * (n - 1) + 4 * c + r))) ->
  (forall n c r, 1 <= n -> n < Nr R -> c < Nb R -> r < 4 -> gk n c r = Ok (cmb F K (4 * Nb R * n + 4 * c + r))) ->
  (let! y0 := mapM g0 (Nrange (4 * Nb R)) in
   let! two := bf_byte_combine_bits F 2 in
   let! three := bf_byte_combine_bits F 3 in
   let! ys := mapM (fun j =>
     let! cs := mapM (fun c =>
       let! xh := mapM (fun r => gx j c r) (Nrange 4) in
       let! kh := mapM (fun r => gk j c r) (Nrange 4) in
       match xh, kh with
       | [x0; x1; x2; x3], [k0; k1; k2; k3] => Ok (mix_wires F two three x0 x1 x2 x3 k0 k1 k2 k3)
       | _, _ => UB
       end) (Nrange (Nb R)) in
     Ok (concat cs)) (Nfromto 1 (Nr R)) in
   Ok (y0 ++ concat ys)) = Ok (map (un3 (fwd F R I K X)) (idx3 (Nb R) (Nr R))).
Proof.
  intros HR H0 HX HK.
  rewrite (mapM_tab g0 (fun p => N.lxor (cmb F I p) (cmb F K p))) by exact H0. cbn [bind].
  rewrite !byte_combine_bits_emb by (first [exact HB|reflexivity]). cbn [bind].
  rewrite (mapM_pure _ (row (Nb R) (fwd F R I K X))).
  - cbn [bind]. f_equal. rewrite map_idx3, (Nrange_cons (Nr R)) by exact HR. cbn [map concat]. f_equal.
    rewrite tab4. reflexivity.
  - intros n Hn. apply In_Nfromto in Hn.
    rewrite (mapM_pure _ (fun c => map (fwd F R I K X n c) (Nrange 4))); [reflexivity|].
    intros c Hc. apply In_Nrange in Hc.
    rewrite (mapM_tab _ (fun r => cmb F X (4 * Nb R * (n - 1) + 4 * c + r))) by (intros; apply HX; lia).
    rewrite (mapM_tab _ (fun r => cmb F K (4 * Nb R * n + 4 * c + r))) by (intros; apply HK; lia).
    cbn [bind tab map Nrange N.to_nat Pos.to_nat Pos.iter_op Nseq Nat.add]. unfold fwd.
    destruct (N.eqb_spec n 0) as [->|_]; [lia|]. reflexivity.
Qed.

Lemma backward_gen nb nr (g : N -> N -> N -> res N) (h : N -> N -> N -> N) :
  (forall n c r, n < nr -> c < nb -> r < 4 -> g n c r = Ok (h n c r)) ->
  (let! ys := mapM (fun j =>
     let! cs := mapM (fun c => mapM (fun r => g j c r) (Nrange 4)) (Nrange nb) in
     Ok (concat cs)) (Nrange nr) in
   Ok (concat ys)) = Ok (map (un3 h) (idx3 nb nr)).
Proof.
  intros H. rewrite (mapM_pure _ (row nb h)); [rewrite map_idx3; reflexivity|].
  intros n Hn. apply In_Nrange in Hn. rewrite (mapM_pure _ (fun c => map (h n c) (Nrange 4))); [reflexivity|].
  intros c Hc. apply In_Nrange in Hc. apply mapM_pure. intros r Hr. apply In_Nrange in Hr. apply H; assumption.
Qed.
(** the constants, multiplied by the value standing for one *)
Definition kwire (k : N) (x : list N) (i : N) : N := bf_mul_bit k (bw x i).
Definition kap (Mtag Mkey : N) (delta : option N) : N :=
  bf_mul_bit (mkey_factor (opt_delta delta) Mkey) (N.lxor 1 Mtag).

Lemma get_bit_bitw x i : get_bit x i = bitw x i.
Proof.
  unfold get_bit, bitw. rewrite N.testbit_eqb. change 1 with (N.ones 1) at 1. rewrite N.land_ones, N.shiftr_div_pow2.
  change (2 ^ 1) with 2. generalize (x / 2 ^ i). intros y. destruct (N.eqb_spec (y mod 2) 1) as [E|E]; cbn [N.b2n]; lia.
Qed.
Lemma bf_mul_bit_land a m g : bf_mul_bit a (N.land m g) = bf_mul_bit (bf_mul_bit a m) g.
Proof. unfold bf_mul_bit. rewrite N.land_spec. destruct (N.testbit m 0), (N.testbit g 0); reflexivity. Qed.
Lemma bw_at x p i : i < 8 -> bw x (8 * p + i) = bitw (nthN x p 0) i.
Proof.
  intros Hi. unfold bw. replace ((8 * p + i) / 8) with p by lia. replace ((8 * p + i) mod 8) with i by lia. reflexivity.
Qed.

Lemma slice_wires l n W off : holds l n W -> off + 8 <= n ->
  exists s, slice l off 8 = Ok s /\ lenN s = 8 /\ forall i, i < 8 -> nthN s i 0 = W (off + i).
Proof.
  intros [H1 H2] Hn. exists (takeN 8 (dropN off l)). rewrite slice_ok by lia.
  split; [reflexivity|]. split; [rewrite lenN_takeN, lenN_dropN; lia|].
  intros i Hi. rewrite nthN_takeN, nthN_dropN by exact Hi. apply H2. lia.
Qed.

(** * AES *)
Section AesEnc.
Variable p : param.
Variable R : rijndael.
Hypothesis HNb : Nb R = 4.
Hypothesis HNr : 2 <= Nr R.
Hypothesis HpR : p_R p = Nr R.

Lemma enc_forward_ok x xk inp Mtag Mkey delta X K :
  holds x (128 * (Nr R - 1)) X -> holds xk (128 * (Nr R + 1)) K -> 16 <= lenN inp ->
  enc_forward F p x xk inp Mtag Mkey delta =
  Ok (map (un3 (fwd F R (kwire (kap Mtag Mkey delta) inp) K X)) (idx3 (Nb R) (Nr R))).
Proof.
  intros HX HK HI. unfold enc_forward. cbv zeta. rewrite HpR. clear HpR. destruct R as [nk nb nr]. cbn [Nb Nr] in *. subst nb.
  refine (forward_gen (mkRijndael nk 4 nr)
    (fun i => let! b := aget inp i in
      let! a := bf_byte_combine F (tab 8 (fun j => bf_mul_bit (mkey_factor (opt_delta delta) Mkey)
                                                     (N.land (N.lxor 1 Mtag) (get_bit b j)))) 0 in
      let! k := bf_byte_combine F xk (8 * i) in Ok (bf_add a k))
    (fun j c r => bf_byte_combine F x (128 * (j - 1) + 32 * c + 8 * r))
    (fun j c r => bf_byte_combine F xk (128 * j + 32 * c + 8 * r)) _ K X _ _ _ _); cbn [Nb Nr].
  - lia.
  - intros q Hq. rewrite (aget_ok _ _ 0) by lia. cbn [bind].
    rewrite (combine_ok _ 8 (fun i => kwire (kap Mtag Mkey delta) inp (8 * q + i)) 0);
      [|split; [rewrite lenN_tab; lia|]|reflexivity|lia].
    + cbn [bind]. rewrite (combine_ok _ _ K q _ HK) by lia. cbn [bind]. reflexivity.
    + intros i Hi. rewrite nthN_tab by exact Hi. unfold kwire, kap. rewrite bf_mul_bit_land, get_bit_bitw, bw_at by exact Hi.
      reflexivity.
  - intros n c r H1 H2 H3 H4. rewrite (combine_ok _ _ X (4 * 4 * (n - 1) + 4 * c + r) _ HX) by lia. reflexivity.
  - intros n c r H1 H2 H3 H4. rewrite (combine_ok _ _ K (4 * 4 * n + 4 * c + r) _ HK) by lia. reflexivity.
Qed.

Lemma enc_forward_1_ok x xk inp : bytes_ok x -> bytes_ok xk -> bytes_ok inp ->
  16 * (Nr R - 1) <= lenN x -> 16 * (Nr R + 1) <= lenN xk -> 16 <= lenN inp ->
  enc_forward_1 F p x xk inp = Ok (map (un3 (fwd F R (bw inp) (bw xk) (bw x))) (idx3 (Nb R) (Nr R))).
Proof.
  intros BX BK BI HX HK HI. unfold enc_forward_1. cbv zeta. rewrite HpR. clear HpR. destruct R as [nk nb nr]. cbn [Nb Nr] in *. subst nb.
  refine (forward_gen (mkRijndael nk 4 nr)
    (fun i => let! a := combine_byte F inp i in let! b := combine_byte F xk i in Ok (bf_add a b))
    (fun j c r => combine_byte F x ((128 * (j - 1) + 32 * c + 8 * r) / 8))
    (fun j c r => combine_byte F xk ((128 * j + 32 * c + 8 * r) / 8)) _ _ _ _ _ _ _); cbn [Nb Nr].
  - lia.
  - intros q Hq. rewrite !combine_byte_ok by (try assumption; lia). reflexivity.
  - intros n c r H1 H2 H3 H4. rewrite combine_byte_ok by (try assumption; lia). do 2 f_equal. lia.
  - intros n c r H1 H2 H3 H4. rewrite combine_byte_ok by (try assumption; lia). do 2 f_equal. lia.
Qed.

Lemma enc_backward_ok x xk out Mtag Mkey delta X K :
  holds x (128 * (Nr R - 1)) X -> holds xk (128 * (Nr R + 1)) K -> 16 <= lenN out ->
  enc_backward F p x xk Mtag Mkey delta out =
  Ok (map (un3 (bwd F R X (kwire (kap Mtag Mkey delta) out) K (kap Mtag Mkey delta))) (idx3 (Nb R) (Nr R))).
Proof.
  intros HX HK HO. unfold enc_backward. cbv zeta. rewrite HpR. clear HpR. destruct R as [nk nb nr]. cbn [Nb Nr] in *. subst nb.
  refine (backward_gen 4 nr _ _ _). intros n c r Hn Hc Hr.
  fold (kap Mtag Mkey delta). set (k := kap Mtag Mkey delta).
  assert (ES : spos (mkRijndael nk 4 nr) c r = 4 * ((c + 4 - r) mod 4) + r).
  { unfold spos. change (shift_offset (mkRijndael nk 4 nr) r) with r. cbn [Nb].
    replace (c + (4 - r)) with (c + 4 - r) by lia. reflexivity. }
  set (s := (c + 4 - r) mod 4) in *. assert (Hs : s < 4) by (apply N.mod_lt; discriminate).
  unfold bwd. rewrite ES. cbn [Nb Nr]. destruct (N.ltb_spec n (nr - 1)) as [L|L].
  - destruct (slice_wires x _ X (128 * n + 32 * s + 8 * r) HX) as (y & -> & Hy & Ey); [lia|]. cbn [bind].
    rewrite (IA_wires y k (fun i => X (8 * (4 * 4 * n + (4 * s + r)) + i)) Hy); [reflexivity|].
    intros i Hi. rewrite Ey by exact Hi. f_equal. lia.
  - rewrite (mapM_tab _ (fun i => N.lxor (kwire k out (8 * (4 * s + r) + i)) (K (8 * (4 * 4 * nr + (4 * s + r)) + i)))).
    + cbn [bind]. apply IA_wires; [apply lenN_tab|]. intros i Hi. rewrite nthN_tab by exact Hi. reflexivity.
    + intros i Hi. rewrite (aget_ok out _ 0) by lia. cbn [bind]. rewrite (aget_ok xk _ 0) by (destruct HK; lia). cbn [bind].
      unfold bf_add. rewrite get_bit_bitw. unfold kwire. rewrite bw_at by exact Hi. destruct HK as [_ HK]. rewrite HK by lia.
      replace ((128 * n + 32 * s + 8 * r - 128 * (nr - 1)) / 8) with (4 * s + r) by lia. do 3 f_equal. lia.
Qed.

Lemma enc_backward_1_ok x xk out : bytes_ok x -> bytes_ok xk -> bytes_ok out ->
  16 * (Nr R - 1) <= lenN x -> 16 * (Nr R + 1) <= lenN xk -> 16 <= lenN out ->
  enc_backward_1 F p x xk out = Ok (map (un3 (bwd F R (bw x) (bw out) (bw xk) 1)) (idx3 (Nb R) (Nr R))).
Proof.
  intros BX BK BO HX HK HO. unfold enc_backward_1. cbv zeta. rewrite HpR. clear HpR. destruct R as [nk nb nr]. cbn [Nb Nr] in *. subst nb.
  refine (backward_gen 4 nr _ _ _). intros n c r Hn Hc Hr.
  assert (ES : spos (mkRijndael nk 4 nr) c r = 4 * ((c + 4 - r) mod 4) + r).
  { unfold spos. change (shift_offset (mkRijndael nk 4 nr) r) with r. cbn [Nb].
    replace (c + (4 - r)) with (c + 4 - r) by lia. reflexivity. }
  set (s := (c + 4 - r) mod 4) in *. assert (Hs : s < 4) by (apply N.mod_lt; discriminate).
  unfold bwd. rewrite ES. cbn [Nb Nr]. destruct (N.ltb_spec n (nr - 1)) as [L|L].
  - rewrite (aget_ok x _ 0) by lia. cbn [bind].
    replace ((128 * n + 32 * s + 8 * r) / 8) with (4 * 4 * n + (4 * s + r)) by lia.
    rewrite InvAffine_eq by (apply nthN_byte, BX).
    rewrite byte_combine_bits_emb by (try assumption; apply InvAffine_lt, nthN_byte, BX). f_equal. symmetry. apply IA_bits.
    + assumption.
    + apply nthN_byte, BX.
    + intros i Hi. apply bw_at, Hi.
  - rewrite (aget_ok out _ 0) by lia. cbn [bind]. rewrite (aget_ok xk _ 0) by lia. cbn [bind].
    replace ((128 * n + 32 * s + 8 * r - 128 * (nr - 1)) / 8) with (4 * s + r) by lia.
    replace ((128 + (128 * n + 32 * s + 8 * r)) / 8) with (4 * 4 * nr + (4 * s + r)) by lia.
    assert (HL : N.lxor (nthN out (4 * s + r) 0) (nthN xk (4 * 4 * nr + (4 * s + r)) 0) < 256)
      by (apply lxor_lt8; apply nthN_byte; assumption).
    rewrite InvAffine_eq by exact HL.
    rewrite byte_combine_bits_emb by (try assumption; apply InvAffine_lt, HL). f_equal. symmetry. apply IA_bits.
    + assumption.
    + exact HL.
    + intros i Hi. rewrite bitw_lxor, !bw_at by exact Hi. reflexivity.
Qed.
End AesEnc.

(** * Even-Mansour *)
Lemma cmb_0 W q : (forall i, W i = 0) -> cmb F W q = 0.
Proof.
  intros H. unfold cmb, combine8. rewrite !H.
  rewrite !bf_mul_0_l by (first [apply big_field_ok, HB|apply emb_lt, HB]). reflexivity.
Qed.

Section EmEnc.
Variable p : param.
Variable R : rijndael.
Hypothesis HNb : In (Nb R) [4; 6; 8].
Hypothesis HNr : 2 <= Nr R.
Hypothesis HpR : p_R p = Nr R.
Hypothesis HpN : p_Nwd p = Nb R.
Hypothesis HpL : p_lambda p = 32 * Nb R.

Lemma em_icol_ok c r : c < Nb R -> r < 4 -> 4 * em_icol (Nb R) c r + r = spos R c r.
Proof.
  intros Hc Hr. unfold spos, em_icol, shift_offset. destruct R as [nk nb nr]. cbn [Nb] in *.
  assert (E : r = 0 \/ r = 1 \/ r = 2 \/ r = 3) by lia.
  destruct HNb as [<-|[<-|[<-|[]]]]; destruct E as [->|[->|[->| ->]]];
    repeat match goal with
    | |- context [N.eqb ?a ?b] => let v := eval vm_compute in (N.eqb a b) in change (N.eqb a b) with v
    | |- context [N.leb ?a ?b] => let v := eval vm_compute in (N.leb a b) in change (N.leb a b) with v
    end; cbn [andb]; lia.
Qed.

Definition em_key (bf_x : option (list N)) (K : N -> N) : Prop :=
  match bf_x with Some x => holds x (32 * Nb R * (Nr R + 1)) K | None => forall i, K i = 0 end.

Lemma em_forward_ok z bf_x Z K : holds z (32 * Nb R * Nr R) Z -> em_key bf_x K ->
  em_forward F p z bf_x = Ok (map (un3 (fwd F R Z K (fun i => Z (32 * Nb R + i)))) (idx3 (Nb R) (Nr R))).
Proof.
  intros HZ HK. unfold em_forward. cbv zeta. rewrite HpR, HpN. unfold em_key in HK.
  assert (XC : forall q off, off = 8 * q -> q < 4 * Nb R * (Nr R + 1) ->
    (match bf_x with Some x => bf_byte_combine F x off | None => Ok 0 end) = Ok (cmb F K q)).
  { intros q off -> Hq. destruct bf_x as [x|].
    - apply (combine_ok _ _ K q _ HK); [reflexivity|]. destruct HNb as [E|[E|[E|[]]]]; rewrite <- E in *; lia.
    - rewrite (cmb_0 K q HK). reflexivity. }
  refine (forward_gen R
    (fun j => let! a := bf_byte_combine F z (8 * j) in
              let! b := match bf_x with Some x => bf_byte_combine F x (8 * j) | None => Ok 0 end in Ok (bf_add a b))
    (fun j c r => bf_byte_combine F z (32 * Nb R * j + 32 * c + 8 * r))
    (fun j c r => match bf_x with Some x => bf_byte_combine F x (32 * Nb R * j + 32 * c + 8 * r) | None => Ok 0 end)
    Z K (fun i => Z (32 * Nb R + i)) _ _ _ _).
  - lia.
  - intros q Hq. rewrite (combine_ok _ _ Z q _ HZ); [|reflexivity|destruct HNb as [E|[E|[E|[]]]]; rewrite <- E in *; lia].
    rewrite (XC q) by (destruct HNb as [E|[E|[E|[]]]]; rewrite <- E in *; lia). reflexivity.
  - intros n c r H1 H2 H3 H4.
    rewrite (combine_ok _ _ Z (4 * Nb R * n + 4 * c + r) _ HZ);
      [|destruct HNb as [E|[E|[E|[]]]]; rewrite <- E in *; lia|destruct HNb as [E|[E|[E|[]]]]; rewrite <- E in *; lia].
    f_equal. apply combine8_ext. intros i Hi. f_equal. destruct HNb as [E|[E|[E|[]]]]; rewrite <- E in *; lia.
  - intros n c r H1 H2 H3 H4.
    apply XC; destruct HNb as [E|[E|[E|[]]]]; rewrite <- E in *; lia.
Qed.

Lemma em_forward_1_ok z x : bytes_ok z -> bytes_ok x -> 4 * Nb R * Nr R <= lenN z -> 4 * Nb R * (Nr R + 1) <= lenN x ->
  em_forward_1 F p z x = Ok (map (un3 (fwd F R (bw z) (bw x) (fun i => bw z (32 * Nb R + i)))) (idx3 (Nb R) (Nr R))).
Proof.
  intros BZ BX HZ HX. unfold em_forward_1. cbv zeta. rewrite HpR, HpN.
  refine (forward_gen R
    (fun i => let! a := combine_byte F z i in let! b := combine_byte F x i in Ok (bf_add a b))
    (fun j c r => combine_byte F z ((32 * Nb R * j + 32 * c + 8 * r) / 8))
    (fun j c r => combine_byte F x ((32 * Nb R * j + 32 * c + 8 * r) / 8)) _ _ _ _ _ _ _).
  - lia.
  - intros q Hq. rewrite !combine_byte_ok by (try assumption; destruct HNb as [E|[E|[E|[]]]]; rewrite <- E in *; lia). reflexivity.
  - intros n c r H1 H2 H3 H4.
    replace ((32 * Nb R * n + 32 * c + 8 * r) / 8) with (4 * Nb R * n + 4 * c + r)
      by (destruct HNb as [E|[E|[E|[]]]]; rewrite <- E in *; lia).
    rewrite combine_byte_ok by (try assumption; destruct HNb as [E|[E|[E|[]]]]; rewrite <- E in *; lia).
    f_equal. apply combine8_ext. intros i Hi. f_equal. destruct HNb as [E|[E|[E|[]]]]; rewrite <- E in *; lia.
  - intros n c r H1 H2 H3 H4.
    replace ((32 * Nb R * n + 32 * c + 8 * r) / 8) with (4 * Nb R * n + 4 * c + r)
      by (destruct HNb as [E|[E|[E|[]]]]; rewrite <- E in *; lia).
    apply combine_byte_ok; [assumption|]. destruct HNb as [E|[E|[E|[]]]]; rewrite <- E in *; lia.
Qed.

Lemma em_backward_ok z bf_x zo Mtag Mkey delta Z K O :
  holds z (32 * Nb R * Nr R) Z -> em_key bf_x K -> holds zo (32 * Nb R) O ->
  em_backward F p z bf_x zo Mtag Mkey delta =
  Ok (map (un3 (bwd F R (fun i => Z (32 * Nb R + i)) O K (kap Mtag Mkey delta))) (idx3 (Nb R) (Nr R))).
Proof.
  intros HZ HK HO. unfold em_backward. cbv zeta. rewrite HpR, HpN, HpL. unfold em_key in HK.
  refine (backward_gen (Nb R) (Nr R) _ _ _). intros n c r Hn Hc Hr.
  fold (kap Mtag Mkey delta). set (k := kap Mtag Mkey delta).
  unfold bwd. pose proof (em_icol_ok c r Hc Hr) as EI. pose proof (spos_lt R HNb c r Hr) as HS.
  set (s := spos R c r) in *. set (ic := em_icol (Nb R) c r) in *. clearbody s ic.
  destruct (N.ltb_spec n (Nr R - 1)) as [L|L].
  - destruct (slice_wires z _ Z (32 * Nb R + 32 * Nb R * n + 32 * ic + 8 * r) HZ) as (y & -> & Hy & Ey);
      [destruct HNb as [E|[E|[E|[]]]]; rewrite <- E in *; lia|]. cbn [bind].
    rewrite (IA_wires y k (fun i => Z (32 * Nb R + (8 * (4 * Nb R * n + s) + i))) Hy); [reflexivity|].
    intros i Hi. rewrite Ey by exact Hi. f_equal. destruct HNb as [E|[E|[E|[]]]]; rewrite <- E in *; lia.
  - rewrite (mapM_tab _ (fun i => N.lxor (O (8 * s + i)) (K (8 * (4 * Nb R * Nr R + s) + i)))).
    + cbn [bind]. apply IA_wires; [apply lenN_tab|]. intros i Hi. rewrite nthN_tab by exact Hi. reflexivity.
    + intros i Hi.
      replace (32 * Nb R + 32 * Nb R * n + 32 * ic + 8 * r - 32 * Nb R * (n + 1) + i) with (8 * s + i)
        by (destruct HNb as [E|[E|[E|[]]]]; rewrite <- E in *; lia).
      rewrite (aget_ok zo _ 0) by (destruct HO; lia). cbn [bind].
      destruct HO as [_ HO]. rewrite HO by lia. destruct bf_x as [x|].
      * replace (32 * Nb R + 32 * Nb R * n + 32 * ic + 8 * r + i) with (8 * (4 * Nb R * Nr R + s) + i)
          by (destruct HNb as [E|[E|[E|[]]]]; rewrite <- E in *; lia).
        destruct HK as [HK1 HK2].
        rewrite (aget_ok x _ 0) by (destruct HNb as [E|[E|[E|[]]]]; rewrite <- E in *; lia). cbn [bind].
        rewrite HK2 by (destruct HNb as [E|[E|[E|[]]]]; rewrite <- E in *; lia). reflexivity.
      * rewrite HK, N.lxor_0_r. reflexivity.
Qed.

Lemma em_backward_1_ok z x zo : bytes_ok z -> bytes_ok x -> bytes_ok zo ->
  4 * Nb R * Nr R <= lenN z -> 4 * Nb R * (Nr R + 1) <= lenN x -> 4 * Nb R <= lenN zo ->
  em_backward_1 F p z x zo =
  Ok (map (un3 (bwd F R (fun i => bw z (32 * Nb R + i)) (bw zo) (bw x) 1)) (idx3 (Nb R) (Nr R))).
Proof.
  intros BZ BX BO HZ HX HO. unfold em_backward_1. cbv zeta. rewrite HpR, HpN, HpL.
  refine (backward_gen (Nb R) (Nr R) _ _ _). intros n c r Hn Hc Hr.
  unfold bwd. pose proof (em_icol_ok c r Hc Hr) as EI. pose proof (spos_lt R HNb c r Hr) as HS.
  set (s := spos R c r) in *. set (ic := em_icol (Nb R) c r) in *. clearbody s ic.
  replace ((32 * Nb R + 32 * Nb R * n + 32 * ic + 8 * r) / 8) with (4 * Nb R * (n + 1) + s)
    by (destruct HNb as [E|[E|[E|[]]]]; rewrite <- E in *; lia).
  destruct (N.ltb_spec n (Nr R - 1)) as [L|L].
  - rewrite (aget_ok z _ 0) by (destruct HNb as [E|[E|[E|[]]]]; rewrite <- E in *; lia). cbn [bind].
    rewrite InvAffine_eq by (apply nthN_byte, BZ).
    rewrite byte_combine_bits_emb by (try assumption; apply InvAffine_lt, nthN_byte, BZ). f_equal. symmetry. apply IA_bits.
    + assumption.
    + apply nthN_byte, BZ.
    + intros i Hi. rewrite <- bw_at by exact Hi. f_equal. destruct HNb as [E|[E|[E|[]]]]; rewrite <- E in *; lia.
  - replace ((32 * Nb R + 32 * Nb R * n + 32 * ic + 8 * r - 32 * Nb R * (n + 1)) / 8) with s
      by (destruct HNb as [E|[E|[E|[]]]]; rewrite <- E in *; lia).
    rewrite (aget_ok zo _ 0) by lia. cbn [bind].
    rewrite (aget_ok x _ 0) by (destruct HNb as [E|[E|[E|[]]]]; rewrite <- E in *; lia). cbn [bind].
    replace (n + 1) with (Nr R) by lia.
    assert (HL : N.lxor (nthN zo s 0) (nthN x (4 * Nb R * Nr R + s) 0) < 256)
      by (apply lxor_lt8; apply nthN_byte; assumption).
    rewrite InvAffine_eq by exact HL.
    rewrite byte_combine_bits_emb by (try assumption; apply InvAffine_lt, HL). f_equal. symmetry. apply IA_bits.
    + assumption.
    + exact HL.
    + intros i Hi. rewrite bitw_lxor, !bw_at by exact Hi. reflexivity.
Qed.
End EmEnc.
End Field.
