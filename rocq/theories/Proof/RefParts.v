(** The translated functions for the places in a signature: faest.c, signature_c to signature_iv and dsignature_c to dsignature_iv. *)
From Coq Require Import ZArith NArith List Bool FMapPositive Lia ZifyBool ZifyNat ZifyN.
From Verif Require Import Model.Base Model.Params Spec.FormatSpec Spec.FormatMap Proof.BaseProof.
From Verif Require Model.Faest Proof.FormatProof.
From Verif Require Import Model.CtLang Model.CtNames Model.CtFaest Model.CtProgram Spec.RefSpec Spec.RefVoleSpec Spec.RefPartsSpec Proof.RefLogic Proof.RefTac Proof.RefMem Proof.RefProps Proof.RefSnp Proof.RefTree Proof.RefCommitProps.
Import ListNotations.
Local Open Scope Z_scope.
Arguments wrap : simpl never.

Definition place_code (x : part) : func :=
  match x with
  | Correction _ => c_signature_c | U_tilde => c_signature_u_tilde | D_masked_witness => c_signature_d | A_tilde => c_signature_a_tilde
  | Opening _ => c_signature_pdec | Com _ => c_signature_com | Challenge_3 => c_signature_chall_3 | Iv => c_signature_iv
  end.
Lemma code_place v x : PositiveMap.find (place_function v x) code = Some (place_code x).
Proof. destruct v, x; vm_compute; reflexivity. Qed.

(** what the proof needs of the numbers *)
Definition modest (p : param) : Prop := (p_lambda p < 2 ^ 9 /\ p_l p < 2 ^ 13 /\ 1 <= p_tau p < 2 ^ 6 /\ p_k0 p < 2 ^ 4 /\ p_k1 p < 2 ^ 4 /\ p_t0 p < 2 ^ 6 /\ p_sigSize p < 2 ^ 16 /\ 16 + p_lambda p / 8 <= p_sigSize p)%N.
Lemma modest_of i : modest (param_of i).
Proof. destruct i; vm_compute; intuition (discriminate || reflexivity). Qed.
Definition indexed (p : param) (x : part) : Prop := match x with Correction i | Opening i | Com i => (i < p_tau p)%N | _ => True end.
Lemma sdiv8 n : (n < 2^16)%N -> CtLang.div ODiv s32 (ofN n) 8 = ofN (n / 8).
Proof.
  intros L. unfold CtLang.div. rewrite Z.quot_div_nonneg, N2Z.inj_div by lia. change (ofN 8) with 8. assert (X := Z.div_le_upper_bound (ofN n) 8 (2^16) ltac:(lia) ltac:(lia)).
  assert (Y := Z.div_pos (ofN n) 8 ltac:(lia) ltac:(lia)). rewrite wrap_s32 by lia. reflexivity.
Qed.

Ltac pv := lazymatch goal with
  | |- pe _ _ (EVar _) _ => apply pe_var; look
  | |- pe _ _ (EInt _) _ => apply pe_int
  | |- pe _ _ (ELoad 2 _) _ => eapply pe_parm; [pv|eassumption|lia]
  | |- pe _ _ (EBin _ _ _ _) _ => eapply pe_bin; [pv|pv]
  | |- pe _ _ (EDiv _ _ _ _) _ => eapply pe_div; [pv|pv|discriminate]
  | |- pe _ _ (EUn _ _ _) _ => eapply pe_un; pv
  | |- pe _ _ (EAt _ _ _) _ => eapply pe_at; [pv|pv]
  end.

Section Places.
Variables (p : param) (m : mem) (b pb : positive) (o po : Z).
Hypothesis MO : modest p.
Hypothesis P0 : parm m pb po (p_lambda p).
Hypothesis P10 : parm m pb (po + 10) (p_l p).
Hypothesis P16 : parm m pb (po + 16) (p_tau p).
Hypothesis P18 : parm m pb (po + 18) (p_k0 p).
Hypothesis P20 : parm m pb (po + 20) (p_k1 p).
Hypothesis P22 : parm m pb (po + 22) (p_t0 p).
Hypothesis P26 : parm m pb (po + 26) (p_sigSize p).

Notation lb := (p_lambda p / 8)%N.
Notation eb := (p_l p / 8)%N.
Lemma small_b : (lb < 64 /\ eb < 1024)%N.
Proof using MO. destruct MO as (A & B & _). split; apply N.div_lt_upper_bound; lia. Qed.

Ltac lam_set := seq; eapply wp_set; [eapply pe_eq; [pv|cbn [un]; rewrite sdiv8 by lia; rewrite wrap_u64 by lia; reflexivity]|].
Ltac ell_set := seq; eapply wp_set; [eapply pe_eq; [pv|simp; rewrite !wrap_u64 by (rewrite ?wrap_u64; rewrite ?wrap_u64; lia); reflexivity]|].
Ltac tau_part := rewrite (wrap_s32 (ofN (p_tau p) - 1)) by lia; rewrite (wrap_u64 (ofN (p_tau p) - 1)) by lia; rewrite (wrap_u64 ((ofN (p_tau p) - 1) * (ofN eb + 2 * ofN lb + 2))) by lia.
Ltac off_eq := split; [reflexivity|]; f_equal; repeat first [rewrite N2Z.inj_add|rewrite N2Z.inj_mul|rewrite N2Z.inj_sub by lia]; change (ofN 1) with 1; change (ofN 2) with 2; ring.

Lemma place_calls x v : indexed p x ->
  calls code (place_function v x) (place_arguments (VPtr b o) x (VPtr pb po)) m (fun r m' => m' = m /\ r = VPtr b (o + ofN (part_off p x))).
Proof using MO P0 P10 P16 P18 P20 P22 P26.
  intros IX. destruct small_b as [B1 B2]. destruct MO as (M1 & M2 & M3 & M4 & M5 & M6 & M7 & M8).
  assert (M3' : 0 <= ofN (p_tau p) - 1 < 64) by lia.
  assert (HT : forall z y, 0 <= z < 64 -> 0 <= y < 8192 -> 0 <= z * y < 524288) by (clear; intros z y; nia).
  assert (HK : forall z y, 0 <= z < 64 -> 0 <= y < 32 -> 0 <= z * y < 2048) by (clear; intros z y; nia).
  assert (HA : forall z y w, 0 <= z < 2048 -> 0 <= y < 2048 -> 0 <= w < 32 -> 0 <= z + w + y < 8192) by (clear; intros; lia).
  assert (HL : forall z y, 0 <= z < 8192 -> 0 <= y < 64 -> 0 <= z * y < 524288) by (clear; intros z y; nia).
  assert (TP := HT (ofN (p_tau p) - 1) (ofN eb + 2 * ofN lb + 2) M3' ltac:(lia)).
  apply (calls_intro code _ _ _ _ _ (code_place v x)). destruct x as [i| | | |i|i| |]; cbn [place_code indexed part_off place_arguments] in *; unfold Faest.off_c, Faest.off_u_tilde, Faest.off_d, Faest.off_a_tilde, Faest.off_pdec, Faest.off_com, Faest.off_chall_3, Faest.off_iv, Faest.ell_hat_bytes_of, Faest.utilde_bytes_of, UNIVERSAL_HASH_B, IV_SIZE;
    match goal with |- context [fbody ?c] => unfold c end; cbn [fbody fparams bind_params].
  - lam_set. lam_set. ell_set. eapply wp_return; [eapply pe_eq; [pv|]|].
    + simp. assert (H := HT (ofN i) (ofN eb + 2 * ofN lb + 2) ltac:(lia) ltac:(lia)). rewrite wrap_u64 by lia. reflexivity.
    + split; [reflexivity|]. f_equal. lia.
  - lam_set. lam_set. ell_set. eapply wp_return; [eapply pe_eq; [pv|simp; tau_part; reflexivity]|]. off_eq.
  - lam_set. lam_set. ell_set. seq. eapply wp_set; [eapply pe_eq; [pv|simp; rewrite wrap_u64 by lia; reflexivity]|].
    eapply wp_return; [eapply pe_eq; [pv|simp; tau_part; reflexivity]|]. off_eq.
  - lam_set. lam_set. ell_set. seq. eapply wp_set; [eapply pe_eq; [pv|simp; rewrite wrap_u64 by lia; reflexivity]|].
    eapply wp_return; [eapply pe_eq; [pv|simp; tau_part; reflexivity]|]. off_eq.
  - seq. eapply wp_set; [pv|]. lam_set. lam_set. ell_set. seq. eapply wp_set; [eapply pe_eq; [pv|simp; rewrite wrap_u64 by lia; reflexivity]|].
    seq. eapply wp_set; [eapply pe_eq; [pv|simp; tau_part; rewrite !wrap_u64 by (rewrite ?wrap_u64; rewrite ?wrap_u64; lia); reflexivity]|].
    eapply wp_if; [pv|]. simp. rewrite truth_b. destruct (Z.ltb_spec (ofN i) (ofN (p_t0 p))) as [C|C]; (destruct (N.ltb_spec i (p_t0 p)) as [D|D]; [|try lia]); try lia.
    + eapply wp_return; [eapply pe_eq; [pv|]|].
      * simp. rewrite (wrap_s32 (ofN (p_k0 p) + 2)) by lia. rewrite (wrap_u32 (ofN (p_k0 p) + 2)) by lia. assert (H := HK (ofN i) (ofN (p_k0 p) + 2) ltac:(lia) ltac:(lia)). rewrite wrap_u32 by lia.
        assert (H' := HL (ofN i * (ofN (p_k0 p) + 2)) (ofN lb) ltac:(lia) ltac:(lia)). rewrite wrap_u64 by lia. reflexivity.
      * off_eq.
    + eapply wp_return; [eapply pe_eq; [pv|]|].
      * simp. rewrite (wrap_s32 (ofN (p_k0 p) + 2)), (wrap_s32 (ofN (p_k1 p) + 2)) by lia. rewrite (wrap_u32 (ofN (p_k0 p) + 2)), (wrap_u32 (ofN (p_k1 p) + 2)), (wrap_u32 (ofN i - ofN (p_t0 p))) by lia.
        assert (H := HK (ofN i - ofN (p_t0 p)) (ofN (p_k1 p) + 2) ltac:(lia) ltac:(lia)). assert (H0 := HK (ofN (p_t0 p)) (ofN (p_k0 p) + 2) ltac:(lia) ltac:(lia)).
        rewrite (wrap_u32 (_ * _)), (wrap_u32 (ofN (p_t0 p) * _)) by lia. rewrite wrap_u32 by lia.
        assert (H' := HL _ (ofN lb) (HA _ _ 0 H H0 ltac:(lia)) ltac:(lia)). rewrite Z.add_0_r in H'. rewrite wrap_u64 by lia. reflexivity.
      * off_eq.
  - seq. eapply wp_set; [pv|]. lam_set. lam_set. ell_set. seq. eapply wp_set; [eapply pe_eq; [pv|simp; rewrite wrap_u64 by lia; reflexivity]|].
    seq. eapply wp_set; [eapply pe_eq; [pv|simp; tau_part; rewrite !wrap_u64 by (rewrite ?wrap_u64; rewrite ?wrap_u64; lia); reflexivity]|].
    eapply wp_if; [pv|]. simp. rewrite truth_b. destruct (Z.ltb_spec (ofN i) (ofN (p_t0 p))) as [C|C]; (destruct (N.ltb_spec i (p_t0 p)) as [D|D]; [|try lia]); try lia.
    + eapply wp_return; [eapply pe_eq; [pv|]|].
      * simp. rewrite (wrap_s32 (ofN (p_k0 p) + 2)) by lia. rewrite (wrap_u32 (ofN (p_k0 p) + 2)) by lia. assert (H := HK (ofN i) (ofN (p_k0 p) + 2) ltac:(lia) ltac:(lia)). rewrite (wrap_u32 (_ * _)) by lia. rewrite wrap_u32 by lia.
        assert (H' := HL _ (ofN lb) (HA _ 0 (ofN (p_k0 p)) H ltac:(lia) ltac:(lia)) ltac:(lia)). rewrite Z.add_0_r in H'. rewrite wrap_u64 by lia. reflexivity.
      * off_eq.
    + eapply wp_return; [eapply pe_eq; [pv|]|].
      * simp. rewrite (wrap_s32 (ofN (p_k0 p) + 2)), (wrap_s32 (ofN (p_k1 p) + 2)) by lia. rewrite (wrap_u32 (ofN (p_k0 p) + 2)), (wrap_u32 (ofN (p_k1 p) + 2)), (wrap_u32 (ofN i - ofN (p_t0 p))) by lia.
        assert (H := HK (ofN i - ofN (p_t0 p)) (ofN (p_k1 p) + 2) ltac:(lia) ltac:(lia)). assert (H0 := HK (ofN (p_t0 p)) (ofN (p_k0 p) + 2) ltac:(lia) ltac:(lia)).
        rewrite (wrap_u32 (_ * _)), (wrap_u32 (ofN (p_t0 p) * _)) by lia. rewrite (wrap_u32 (_ + ofN (p_k1 p))) by lia. rewrite wrap_u32 by lia.
        assert (H' := HL _ (ofN lb) (HA _ _ (ofN (p_k1 p)) H H0 ltac:(lia)) ltac:(lia)). rewrite wrap_u64 by lia. reflexivity.
      * off_eq.
  - lam_set. eapply wp_return; [pv|]. split; [reflexivity|]. f_equal. lia.
  - eapply wp_return; [pv|]. split; [reflexivity|]. f_equal. lia.
Qed.
End Places.

Lemma in_upto n x : In x (upto n) -> (x < n)%N.
Proof. unfold upto. intros I. apply in_map_iff in I. destruct I as (k & <- & I). apply in_seq in I. lia. Qed.
Lemma part_indexed p x : In x (parts p) -> indexed p x.
Proof.
  unfold parts. rewrite !in_app_iff. intros [I|[I|[I|I]]].
  - apply in_map_iff in I. destruct I as (k & <- & I). apply in_upto in I. cbn. lia.
  - cbn in I. destruct I as [<-|[<-|[<-|[]]]]; exact Logic.I.
  - apply in_flat_map in I. destruct I as (t & I & J). apply in_upto in I. cbn in J. destruct J as [<-|[<-|[]]]; exact I.
  - cbn in I. destruct I as [<-|[<-|[]]]; exact Logic.I.
Qed.
Lemma place_returns i verifier before x after m b o pb po : parts (param_of i) = before ++ x :: after -> signature_parameters m pb po (param_of i) ->
  returns (place_function verifier x) (place_arguments (VPtr b o) x (VPtr pb po)) m (VPtr b (o + Z.of_N (total (param_of i) before))) m.
Proof.
  intros E (P0 & P10 & P16 & P18 & P20 & P22 & P26). assert (MO := modest_of i). assert (MO' := MO). destruct MO' as (M1 & M2 & M3 & M4 & M5 & M6 & M7 & M8).
  assert (IX : indexed (param_of i) x) by (apply part_indexed; rewrite E; apply in_or_app; right; left; reflexivity).
  apply number_parm in P0; [|lia]. apply number_parm in P10; [|lia]. apply number_parm in P16; [|lia]. apply number_parm in P18; [|lia]. apply number_parm in P20; [|lia]. apply number_parm in P22; [|lia]. apply number_parm in P26; [|lia].
  destruct (calls_returns _ _ _ _ (place_calls (param_of i) m b pb o po MO P0 P10 P16 P18 P20 P22 P26 x verifier IX)) as (v & m' & R & -> & ->).
  rewrite (FormatProof.layout_split i before x after E) in R. exact R.
Qed.
