(** Which message lengths are hashed: unsigned overflow in SpongeAbsorb. *)
From Verif.Model Require Import Api Sponge.
From Verif.Spec Require Import VcSpec KeySpec.
From Verif.Proof Require Import BaseProof VerifyProof VerifyProps ApiProof KeyCases ShakeRun.
From Coq Require Import Lia ZifyBool ZifyNat ZifyN.
Ltac Zify.zify_post_hook ::= Z.div_mod_to_equations.

Lemma pk_small i : 0 < pk_size i /\ pk_size i < (if p_lambda (param_of i) =? 128 then 168 else 136).
Proof. destruct i; vm_compute; auto. Qed.
Lemma mu_defined_exact i len :
  mu_defined i len = true <->
  len mod 2 ^ 32 + pk_size i < 2 ^ 32 /\ (len < 2 ^ 32 \/ (if p_lambda (param_of i) =? 128 then 168 else 136) <= len mod 2 ^ 32 + pk_size i).
Proof.
  unfold mu_defined, absorb_defined. cbv zeta. change (p_pkSize (param_of i)) with (pk_size i). destruct (pk_small i) as [P0 P1]. set (rate := if p_lambda (param_of i) =? 128 then 168 else 136) in *.
  assert (HR : rate < 200) by (subst rate; destruct (_ =? _); lia). rewrite (N.mod_small (pk_size i)) by exact P1.
  assert (HM : len mod 2 ^ 32 < 2 ^ 32) by (apply N.mod_lt; discriminate). set (r := len mod 2 ^ 32) in *. clearbody r rate. change (2 ^ 32) with 4294967296 in *.
  replace (pk_size i =? 0) with false by lia. cbn [orb]. destruct (N.lt_ge_cases (r + pk_size i) 4294967296) as [Q|Q].
  - rewrite N.mod_small by exact Q. lia.
  - assert (E : (r + pk_size i) mod 4294967296 = r + pk_size i - 4294967296) by (symmetry; apply (N.mod_unique _ _ 1); lia). rewrite E. lia.
Qed.
Lemma verify_exact xof i pk msg sig : xof_sized xof -> lenN pk = pk_size i -> bytes_ok pk -> lenN sig = sig_size i -> bytes_ok sig ->
  verify xof i (Some pk) (Some msg) (lenN msg) (Some sig) (sig_size i) <> UB <->
  lenN msg mod 2 ^ 32 + pk_size i < 2 ^ 32 /\ (lenN msg < 2 ^ 32 \/ (if p_lambda (param_of i) =? 128 then 168 else 136) <= lenN msg mod 2 ^ 32 + pk_size i).
Proof.
  intros HX HL HB SL SB. rewrite <- mu_defined_exact. destruct (verify_api xof HX i pk msg sig HL HB SL SB) as (b & _ & _ & ->).
  destruct (mu_defined i (lenN msg)); split; intros H; try discriminate; try reflexivity. contradiction.
Qed.
Lemma sign_exact_length xof i sk message mlen buf n : xof_sized xof -> sk_size i <= lenN sk -> bytes_ok sk -> valid_key i sk ->
  readable message mlen -> sig_size i <= n -> n <= lenN buf -> bytes_ok buf ->
  sign_with_randomness xof i (Some sk) message mlen None 0 (Some buf) (Some n) <> UB <->
  mlen mod 2 ^ 32 + pk_size i < 2 ^ 32 /\ (mlen < 2 ^ 32 \/ (if p_lambda (param_of i) =? 128 then 168 else 136) <= mlen mod 2 ^ 32 + pk_size i).
Proof.
  intros HX HL HB HV HM Hn Hbuf BB. rewrite <- mu_defined_exact.
  destruct (sign_valid xof i HX sk (given message mlen) [] HL HB HV) as (w & a & b & _ & _ & _ & _ & ES & _).
  rewrite (ES message mlen None 0 buf n Hn Hbuf BB HM eq_refl eq_refl eq_refl). cbn [SignProof.rho_defined]. rewrite andb_true_r.
  destruct (mu_defined i mlen); split; intros H; try discriminate; try reflexivity. contradiction.
Qed.

(** 2^32 - 32 zero bytes *)
Definition huge : list N := repeat 0 (N.to_nat (2 ^ 32 - 32)).
Lemma huge_len : lenN huge = 2 ^ 32 - 32.
Proof. exact (upto_length (2 ^ 32 - 32)). Qed.
Lemma huge_bytes : Forall (fun b => b < 256) huge.
Proof. exact (zeros_bytes (N.to_nat (2 ^ 32 - 32))). Qed.

Local Opaque huge.

Lemma verify_huge xof pk sig : xof_sized xof -> lenN pk = pk_size FAEST_128S -> bytes_ok pk -> lenN sig = sig_size FAEST_128S -> bytes_ok sig ->
  verify xof FAEST_128S (Some pk) (Some huge) (lenN huge) (Some sig) (sig_size FAEST_128S) = UB.
Proof.
  intros HX HL HB SL SB. pose proof (verify_exact xof FAEST_128S pk huge sig HX HL HB SL SB) as H. rewrite huge_len in *. 
  destruct (verify _ _ _ _ _ _ _); [|reflexivity]. destruct H as [H _]. destruct H as [H _]; [discriminate|]. vm_compute in H. discriminate.
Qed.
Lemma sign_huge xof sk buf : xof_sized xof -> sk_size FAEST_128S <= lenN sk -> bytes_ok sk -> valid_key FAEST_128S sk ->
  sig_size FAEST_128S <= lenN buf -> bytes_ok buf ->
  sign_with_randomness xof FAEST_128S (Some sk) (Some huge) (lenN huge) None 0 (Some buf) (Some (lenN buf)) = UB.
Proof.
  intros HX HL HB HV SL SB. assert (HR : readable (Some huge) (lenN huge)) by apply N.le_refl.
  pose proof (sign_exact_length xof FAEST_128S sk (Some huge) (lenN huge) buf (lenN buf) HX HL HB HV HR SL (N.le_refl _) SB) as H. rewrite huge_len in *. 
  destruct (sign_with_randomness _ _ _ _ _ _ _ _ _); [|reflexivity]. destruct H as [H _]. destruct H as [H _]; [discriminate|]. vm_compute in H. discriminate.
Qed.
(** the sponge: out of bounds *)
Lemma run_huge pk n : lenN pk = 32 -> bytes_ok pk -> hash_run P 128 [pk; huge] [n] = UB.
Proof.
  intros HL HB. unfold hash_run. rewrite init_ready. cbn [hash_updates]. rewrite update_exact by (assumption || constructor).
  rewrite short_defined by (try apply rate_ok; rewrite ?HL; reflexivity || discriminate). cbn [bind app].
  rewrite update_exact by (exact HB || exact huge_bytes). rewrite HL, huge_len. reflexivity.
Qed.

Lemma verify_refuted : exists msg, lenN msg < 2 ^ 64 /\ forall xof pk sig, xof_sized xof ->
  lenN pk = pk_size FAEST_128S -> Forall (fun b => b < 256) pk -> lenN sig = sig_size FAEST_128S -> Forall (fun b => b < 256) sig ->
  verify xof FAEST_128S (Some pk) (Some msg) (lenN msg) (Some sig) (sig_size FAEST_128S) = UB.
Proof. exists huge. split; [rewrite huge_len; reflexivity|exact verify_huge]. Qed.
Lemma sign_refuted : exists msg, lenN msg < 2 ^ 64 /\ forall xof sk buf, xof_sized xof ->
  sk_size FAEST_128S <= lenN sk -> Forall (fun b => b < 256) sk -> valid_key FAEST_128S sk ->
  sig_size FAEST_128S <= lenN buf -> Forall (fun b => b < 256) buf ->
  sign_with_randomness xof FAEST_128S (Some sk) (Some msg) (lenN msg) None 0 (Some buf) (Some (lenN buf)) = UB.
Proof. exists huge. split; [rewrite huge_len; reflexivity|exact sign_huge]. Qed.
Lemma sponge_refuted : exists msg, lenN msg < 2 ^ 64 /\ Forall (fun b => b < 256) msg /\
  forall pk n, lenN pk = 32 -> Forall (fun b => b < 256) pk -> hash_run P 128 [pk; msg] [n] = UB.
Proof. exists huge. split; [rewrite huge_len; reflexivity|]. split; [exact huge_bytes|exact run_huge]. Qed.
