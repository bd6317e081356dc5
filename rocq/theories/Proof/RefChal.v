(** The translated decoding of the challenge: vole.c, ChalDec. *)
From Coq Require Import ZArith NArith List Bool FMapPositive Lia ZifyBool ZifyNat ZifyN.
From Verif Require Import Model.Base Proof.BaseProof Spec.VoleSpec.
From Verif Require Proof.RefBytes.
From Verif Require Import Model.CtLang Model.CtNames Model.CtVole Model.CtProgram Proof.RefLogic Proof.RefTac Proof.RefMem Proof.RefKeys Proof.RefSnp Proof.RefKeccak Proof.RefSponge Proof.RefFresh Proof.RefTree.
Import ListNotations.
Local Open Scope Z_scope.
Arguments wrap : simpl never.

Lemma code_ChalDec : PositiveMap.find f_ChalDec code = Some c_ChalDec. Proof. vm_compute. reflexivity. Qed.
(** bits [lo .. lo + k) of the challenge, one in a byte *)
Definition chunk (chal : bytes) (lo k : N) : bytes := tab k (fun j => N.b2n (bit_at chal (lo + j))).
Lemma lenN_chunk chal lo k : lenN (chunk chal lo k) = k.
Proof. apply lenN_tab. Qed.
Lemma nthN_chunk chal lo k j : (j < k)%N -> nthN (chunk chal lo k) j 0%N = N.b2n (bit_at chal (lo + j)).
Proof. intros H. unfold chunk. rewrite nthN_tab by exact H. reflexivity. Qed.
Lemma bit_val c x : ofN (N.b2n (N.testbit c x)) = b2z (N.testbit c x).
Proof. destruct (N.testbit c x); reflexivity. Qed.

Lemma ref_ChalDec m chal cb co i k0 t0 k1 t1 ob oo (lo := (if i <? t0 then i * k0 else t0 * k0 + (i - t0) * k1)%N) (k := (if i <? t0 then k0 else k1)%N) :
  (i < t0 + t1)%N -> (t0 + t1 < 2 ^ 31)%N -> (lo + k <= 8 * lenN chal)%N -> (lo + k < 2 ^ 31)%N -> (k0 < 2 ^ 31)%N -> (k1 < 2 ^ 31)%N -> holds m cb co chal -> inb m ob oo (ofN k) -> sep ob oo (ofN k) cb co (ofN (lenN chal)) ->
  calls code f_ChalDec [VPtr cb co; VInt (ofN i); VInt (ofN k0); VInt (ofN t0); VInt (ofN k1); VInt (ofN t1); VPtr ob oo] m (fun v m' =>
    v = VInt 1 /\ frame m m' (at_ ob oo (ofN k)) /\ holds m' ob oo (chunk chal lo k)).
Proof.
  intros HI HT HB HB' K0 K1 HC IO SP. start code_ChalDec.
  assert (T0 : ofN t0 < 2 ^ 31) by lia. assert (I0 : ofN i < 2 ^ 31) by lia.
  seq. eapply wp_if; [ev|]. simp. rewrite truth_b, wrap_u32 by lia. replace (ofN t0 + ofN t1 <=? ofN i) with false by lia. cbv iota. apply wp_skip.
  seq. eapply (wp_weak _ _ _ _ (fun o e m' => o = ONormal /\ m' = m /\ has e [(1%positive, VPtr cb co); (3%positive, VInt (ofN k0)); (5%positive, VInt (ofN k1)); (7%positive, VPtr ob oo); (8%positive, VInt (ofN lo)); (9%positive, VInt (ofN (lo + k)))])).
  { eapply wp_if; [ev|]. simp. rewrite truth_b. subst lo k. destruct (N.ltb_spec i t0) as [C|C].
    - replace (ofN i <? ofN t0) with true by lia. cbv iota. assert (E : ofN (i * k0) = ofN i * ofN k0) by lia. assert (E' : ofN (i * k0 + k0) = (ofN i + 1) * ofN k0) by lia.
      seq. eapply wp_set; [ev|]. eapply wp_set; [ev|]. simp. split; [reflexivity|]. split; [reflexivity|]. cbn [has]. rewrite E, E'. splits; try look.
      + rewrite !lookup_add; cbn [Pos.eqb]. rewrite wrap_u32 by (clear - HB' E E'; lia). reflexivity.
      + rewrite !lookup_add; cbn [Pos.eqb]. rewrite (wrap_u32 (ofN i + 1)) by lia. rewrite wrap_u32 by (clear - HB' E E'; lia). reflexivity.
    - replace (ofN i <? ofN t0) with false by lia. cbv iota. assert (E : ofN (t0 * k0 + (i - t0) * k1) = ofN t0 * ofN k0 + (ofN i - ofN t0) * ofN k1) by (rewrite N2Z.inj_add, !N2Z.inj_mul, N2Z.inj_sub by lia; reflexivity).
      assert (E' : ofN (t0 * k0 + (i - t0) * k1 + k1) = ofN t0 * ofN k0 + (ofN i - ofN t0 + 1) * ofN k1) by lia.
      assert (P0 : 0 <= ofN t0 * ofN k0) by (apply Z.mul_nonneg_nonneg; lia). assert (P1 : 0 <= (ofN i - ofN t0) * ofN k1) by (apply Z.mul_nonneg_nonneg; lia).
      assert (P2 : (ofN i - ofN t0 + 1) * ofN k1 = (ofN i - ofN t0) * ofN k1 + ofN k1) by lia.
      seq. eapply wp_set; [ev|]. seq. eapply wp_set; [ev|]. eapply wp_set; [ev|]. simp. split; [reflexivity|]. split; [reflexivity|]. rewrite (wrap_u32 (ofN i - ofN t0)) by lia. cbn [has]. rewrite E, E'. splits; try look.
      + rewrite !lookup_add; cbn [Pos.eqb]. rewrite (wrap_u32 (ofN t0 * _)) by (clear - HB' E P0 P1; lia). rewrite (wrap_u32 ((ofN i - _) * _)) by (clear - HB' E P0 P1; lia). rewrite wrap_u32 by (clear - HB' E P0 P1; lia). reflexivity.
      + rewrite !lookup_add; cbn [Pos.eqb]. rewrite (wrap_u32 (ofN t0 * _)) by (clear - HB' E P0 P1; lia). rewrite (wrap_u32 (ofN i - ofN t0 + 1)) by lia. rewrite (wrap_u32 ((ofN i - _ + 1) * _)) by (clear - HB' E E' P0 P1 P2; lia). rewrite wrap_u32 by (clear - HB' E E' P0 P1 P2; lia). reflexivity. }
  intros o e m' (-> & -> & V). cbv iota. unhas.
  assert (EK : k = k0 \/ k = k1) by (subst k; destruct (i <? t0)%N; auto). clearbody lo k.
  assert (W : wrap u32 (ofN (lo + k) - ofN lo) = ofN k) by (rewrite wrap_u32 by lia; lia).
  seq. eapply (wp_if _ _ _ _ _ _ (VInt 1)).
  { eapply pe_cond; [ev|]. simp. rewrite W, truth_b. destruct (Z.eqb_spec (ofN k) (ofN k0)); cbv iota; [apply pe_int|].
    eapply pe_eq; [ev|]. simp. rewrite W. replace (ofN k =? ofN k1) with true by lia. reflexivity. }
  cbn [truth Z.eqb negb]. cbv iota. apply wp_skip. seq. eapply wp_set; [ev|].
  assert (IO' := IO). destruct (holds_inb _ _ _ _ HC) as (IC1 & IC2 & IC3).
  seq. eapply (wp_for _ 11%positive 32 _ (fun j e m' => has e [(1%positive, VPtr cb co); (7%positive, VPtr ob oo); (8%positive, VInt (ofN lo)); (9%positive, VInt (ofN (lo + k))); (11%positive, VInt j)] /\
    frame m m' (at_ ob oo (ofN k)) /\ (forall x, 0 <= x < j - ofN lo -> byte m' ob (oo + x) = ofN (nthN (chunk chal lo k) (Z.to_N x) 0%N))) _ (ofN lo) (ofN (lo + k))); [lia|lia|lia| | |].
  - intros j e' m' Hj (V' & F & DONE). repeat match goal with X : lookup e _ = _ |- _ => clear X end. unhas. split; [assumption|]. split.
    { eexists. split; [ev|]. simp. rewrite truth_b. lia. }
    assert (W2 : wrap u32 (j - ofN lo) = j - ofN lo) by (apply wrap_u32; lia).
    assert (Q8 : (Z.to_N (j / 8) < lenN chal)%N) by (assert (j / 8 < ofN (lenN chal)) by (apply Z.div_lt_upper_bound; lia); assert (0 <= j / 8) by (apply Z.div_pos; lia); lia).
    assert (HC' : holds m' cb co chal).
    { eapply holds_frame; [exact HC|exact F|]. intros q Hq [E Y]. destruct SP as [SP|SP]; [congruence|lia]. }
    assert (P8 : 0 <= j / 8) by (apply Z.div_pos; lia). assert (B8 := holds_byte _ _ _ _ (j / 8) HC' ltac:(lia)). assert (M8 := Z.mod_pos_bound j 8 ltac:(lia)).
    assert (IC' : inb m' cb (co + j / 8) 1) by (eapply inb_sub; [exact (holds_inb _ _ _ _ HC')|lia|lia|lia]).
    assert (IOj : inb m' ob (oo + (j - ofN lo)) 1) by (eapply inb_sub; [eapply inb_frame; [exact F|exact IO]|lia|lia|lia]).
    assert (VB : nthN (chunk chal lo k) (Z.to_N (j - ofN lo)) 0%N = N.b2n (N.testbit (nthN chal (Z.to_N (j / 8)) 0%N) (Z.to_N (j mod 8)))).
    { rewrite nthN_chunk by lia. unfold bit_at. replace (lo + Z.to_N (j - ofN lo))%N with (Z.to_N j) by lia. replace (Z.to_N j / 8)%N with (Z.to_N (j / 8)) by lia. replace (Z.to_N j mod 8)%N with (Z.to_N (j mod 8)) by lia. reflexivity. }
    eapply (wp_store1 _ _ _ _ ob (oo + (j - ofN lo)) (ofN (nthN (chunk chal lo k) (Z.to_N (j - ofN lo)) 0%N))).
    + eapply pe_eq; [ev|]. simp. rewrite W2. f_equal. lia.
    + assert (PL : pe e' m' (ELoad 1 (EAt (EVar 1) 1 (EDiv ODiv u32 (EVar 11) (EInt 8)))) (VInt (byte m' cb (co + j / 8)))).
      { apply pe_load1; [|exact IC']. eapply pe_eq; [ev; lia|]. simp. unfold u32. rewrite divu by lia. f_equal. lia. }
      eapply pe_eq; [eapply pe_un; eapply pe_bin; [eapply pe_bin; [exact PL|ev; lia]|apply pe_int]|]. simp. unfold u32. rewrite divu by lia. rewrite B8, VB. f_equal.
      replace (j mod 8) with (ofN (Z.to_N (j mod 8))) at 1 by lia. rewrite RefBytes.bit_N, bit_val. destruct (N.testbit _ _); reflexivity.
    + exact IOj.
    + rewrite VB. destruct (N.testbit _ _); cbn; lia.
    + split; [assumption|]. split; [|split].
      * hass.
      * eapply frame_comp; [exact F|apply frame_set1_at; exact IOj|]. intros b o _ _ [-> Y]. split; [reflexivity|lia].
      * intros x Hx. rewrite byte_set1 by (exact IOj || (destruct IO; lia)). rewrite Pos.eqb_refl. cbn [andb]. destruct (Z.eqb_spec (oo + x) (oo + (j - ofN lo))) as [E|E]; [replace x with (j - ofN lo) by lia; reflexivity|]. apply DONE. lia.
  - intros e' m' (V' & F & DONE). repeat match goal with X : lookup e _ = _ |- _ => clear X end. unhas. split.
    { eexists. split; [ev|]. simp. rewrite truth_b. lia. }
    eapply wp_return; [ev|]. split; [reflexivity|]. split; [exact F|]. split; [rewrite lenN_chunk; eapply inb_frame; [exact F|exact IO]|]. intros x Hx. rewrite lenN_chunk in Hx. rewrite DONE by lia. rewrite N2Z.id. reflexivity.
  - split; [hass|]. split; [apply frame_refl|]. intros x Hx. lia.
Qed.
Lemma ref_ChalDec_out m v1 i k0 t0 k1 t1 v7 : (t0 + t1 <= i)%N -> (t0 + t1 < 2 ^ 31)%N -> 
  calls code f_ChalDec [v1; VInt (ofN i); VInt (ofN k0); VInt (ofN t0); VInt (ofN k1); VInt (ofN t1); v7] m (fun v m' => v = VInt 0 /\ m' = m).
Proof.
  intros HI HT. start code_ChalDec. seq. eapply wp_if; [ev|]. simp. rewrite truth_b, wrap_u32 by lia. replace (ofN t0 + ofN t1 <=? ofN i) with true by lia. cbv iota. eapply wp_return; [ev|]. split; reflexivity.
Qed.
