(** C34: parameter sets are consistent. *)
From Verif.Model Require Import Params.
From Verif.Proof Require Import ParamProps.

Theorem C34_consistent : forall i,
  let p := param_of i in
  let lambda := p_lambda p in
  let l_hat := p_l p + 2 * lambda + 16 in
  In lambda [128; 192; 256] /\
  p_k0 p * p_t0 p + p_k1 p * p_t1 p = lambda /\
  p_tau p = p_t0 p + p_t1 p /\ p_tau p <= MAX_TAU /\
  p_k0 p <= MAX_DEPTH /\ p_k1 p <= MAX_DEPTH /\ 0 < p_k1 p <= p_k0 p /\
  p_l p = p_Lke p + beta_of i * p_Lenc p /\ p_l p mod 8 = 0 /\
  lambda <= MAX_LAMBDA /\ lambda = 8 * (lambda / 8) /\ lambda / 8 <= MAX_LAMBDA_BYTES /\
  8 * p_sigSize p =
    (p_tau p - 1) * l_hat                                   (* corrections *)
    + (lambda + 16)                                         (* u tilde *)
    + p_l p                                                 (* d *)
    + lambda                                                (* a tilde *)
    + p_t0 p * ((p_k0 p + 2) * lambda) + p_t1 p * ((p_k1 p + 2) * lambda) (* openings *)
    + lambda                                                (* last challenge *)
    + 128 /\                                                (* iv *)
  sk_size i = p_pkSize p / 2 + lambda / 8 /\ p_pkSize p mod 2 = 0 /\
  Forall (fun x => x < 2 ^ 16)
    [p_lambda p; p_Nwd p; p_Ske p; p_R p; p_Senc p; p_l p; p_Lke p; p_Lenc p; p_tau p;
     p_k0 p; p_k1 p; p_t0 p; p_t1 p; p_sigSize p; p_pkSize p].
Proof. exact params_consistent. Qed.
Print Assumptions C34_consistent.

(** the sizes published for FAEST version 1 *)
Theorem C34_published_sizes : forall i,
  sig_size i = match i with
               | FAEST_128S => 5006 | FAEST_128F => 6336 | FAEST_192S => 12744
               | FAEST_192F => 16792 | FAEST_256S => 22100 | FAEST_256F => 28400
               | FAEST_EM_128S => 4566 | FAEST_EM_128F => 5696 | FAEST_EM_192S => 10824
               | FAEST_EM_192F => 13912 | FAEST_EM_256S => 20956 | FAEST_EM_256F => 26736
               end.
Proof. exact published_sizes. Qed.
Print Assumptions C34_published_sizes.

Example C34_case : p_tau (param_of FAEST_EM_256S) = 22 /\ p_k0 (param_of FAEST_EM_256S) = 12.
Proof. split; reflexivity. Qed.
