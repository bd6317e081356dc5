(** Signing and verification: faest.c.

    A signature is the flat byte array of C; its parts are addressed by the offset helpers.
    [p_fits n cap]: n bytes are written to a local array of cap bytes. *)
From Verif.Model Require Export Base Params Fields Aes Owf Hash Vc Vole UHash FaestAes.

Definition p_fits (n cap : N) : res unit := guard (n <=? cap).

(** faest.c:24-26 and copies: bytes of one correction block *)
Definition ell_hat_bytes_of (p : param) : N := p_l p / 8 + 2 * (p_lambda p / 8) + UNIVERSAL_HASH_B.
Definition utilde_bytes_of (p : param) : N := p_lambda p / 8 + UNIVERSAL_HASH_B.

(** faest.c:22-30 signature_c, 110-117 dsignature_c *)
Definition off_c (p : param) (index : N) : N := index * ell_hat_bytes_of p.
(** faest.c:32-39, 119-126 *)
Definition off_u_tilde (p : param) : N := (p_tau p - 1) * ell_hat_bytes_of p.
(** faest.c:41-48, 128-136 *)
Definition off_d (p : param) : N := (p_tau p - 1) * ell_hat_bytes_of p + utilde_bytes_of p.
(** faest.c:50-58, 138-146 *)
Definition off_a_tilde (p : param) : N :=
  (p_tau p - 1) * ell_hat_bytes_of p + utilde_bytes_of p + p_l p / 8.
(** faest.c:60-77, 148-165 *)
Definition off_pdec (p : param) (index : N) : N :=
  let base := (p_tau p - 1) * ell_hat_bytes_of p + utilde_bytes_of p + p_l p / 8 + p_lambda p / 8 in
  if index <? p_t0 p then base + index * (p_k0 p + 2) * (p_lambda p / 8)
  else base + ((index - p_t0 p) * (p_k1 p + 2) + p_t0 p * (p_k0 p + 2)) * (p_lambda p / 8).
(** faest.c:79-97, 167-185 *)
Definition off_com (p : param) (index : N) : N :=
  let base := (p_tau p - 1) * ell_hat_bytes_of p + utilde_bytes_of p + p_l p / 8 + p_lambda p / 8 in
  if index <? p_t0 p then base + (index * (p_k0 p + 2) + p_k0 p) * (p_lambda p / 8)
  else base + ((index - p_t0 p) * (p_k1 p + 2) + p_k1 p + p_t0 p * (p_k0 p + 2)) * (p_lambda p / 8).
(** faest.c:99-103, 187-191 *)
Definition off_chall_3 (p : param) : N := p_sigSize p - IV_SIZE - p_lambda p / 8.
(** faest.c:105-107, 193-196 *)
Definition off_iv (p : param) : N := p_sigSize p - IV_SIZE.

Section Xof.
Variable xof : N -> bytes -> N -> bytes.

(** faest.c:198-206; [msg] is the message (msglen bytes) *)
Definition hash_mu (owf_input owf_output : bytes) (owf_size : N) (msg : bytes) (lambda : N)
  : res bytes :=
  let! i := slice owf_input 0 owf_size in
  let! o := slice owf_output 0 owf_size in
  let! ctx := H_update_any (H_update (H_update (H_init lambda) i) o) msg in
  Ok (H1_final xof ctx (2 * lambda / 8)).

(** faest.c:208-223; the pointers into the signature are given by the bytes read *)
Definition hash_challenge_1 (mu hcom c iv : bytes) (lambda ell tau : N) : res bytes :=
  let lambda_bytes := lambda / 8 in
  let ell_hat_bytes := ell / 8 + lambda_bytes * 2 + UNIVERSAL_HASH_B in
  let! mu := slice mu 0 (lambda_bytes * 2) in
  let! hcom := slice hcom 0 (lambda_bytes * 2) in
  let! c := slice c 0 (ell_hat_bytes * (tau - 1)) in
  let! iv := slice iv 0 IV_SIZE in
  Ok (H2_final xof (H_update (H_update (H_update (H_update (H_init lambda) mu) hcom) c) iv)
        (5 * lambda_bytes + 8)).

(** faest.c:225-237 *)
Definition hash_challenge_2 (chall_1 u_tilde h_v d : bytes) (lambda ell : N) : res bytes :=
  let lambda_bytes := lambda / 8 in
  let! c1 := slice chall_1 0 (5 * lambda_bytes + 8) in
  let! ut := slice u_tilde 0 (lambda_bytes + UNIVERSAL_HASH_B) in
  let! hv := slice h_v 0 (2 * lambda_bytes) in
  let! d := slice d 0 (ell / 8) in
  Ok (H2_final xof (H_update (H_update (H_update (H_update (H_init lambda) c1) ut) hv) d)
        (3 * lambda_bytes + 8)).

(** faest.c:239-249 *)
Definition hash_challenge_3 (chall_2 a_tilde b_tilde : bytes) (lambda : N) : res bytes :=
  let lambda_bytes := lambda / 8 in
  let! c2 := slice chall_2 0 (3 * lambda_bytes + 8) in
  let! a := slice a_tilde 0 lambda_bytes in
  let! b := slice b_tilde 0 lambda_bytes in
  Ok (H2_final xof (H_update (H_update (H_update (H_init lambda) c2) a) b) lambda_bytes).

(** faest.c:299-312: H1 over the vole_hash of the lambda columns *)
Definition hash_v (p : param) (chall_1 : bytes) (V : list bytes) : res bytes :=
  let lambda := p_lambda p in
  let! _ := p_fits (lambda / 8 + UNIVERSAL_HASH_B) (MAX_LAMBDA_BYTES + UNIVERSAL_HASH_B) in
  let! ctx :=
    foldM (fun ctx i =>
             let! col := aget V i in
             let! vt := vole_hash lambda chall_1 col (p_l p) in
             Ok (H_update ctx vt)) (Nrange lambda) (H_init lambda) in
  Ok (H1_final xof ctx (lambda / 8 * 2)).

(** faest.c:342-357, one opening written into the signature *)
Definition sign_open (p : param) (vecCom : list vec_com) (sig : bytes) (i : N) : res bytes :=
  let! chall_3 := from sig (off_chall_3 p) in
  let! cd := ChalDec chall_3 i (p_k0 p) (p_t0 p) (p_k1 p) (p_t1 p) in
  let depth := tree_depth p i in
  let! vc := aget vecCom i in
  let! o := vector_open (vc_k vc) (vc_com vc) (snd cd) depth in
  let! sig := blit sig (off_pdec p i) (fst o) in
  blit sig (off_com p i) (snd o).

(** faest.c:251-360.  [sig] is the caller's buffer before the call, the result the buffer after
    it; [rho] is [None] when the pointer is NULL.  [msg] and [rho] are the msglen resp. rholen
    bytes at the pointers. *)
Definition faest_sign (i : paramid) (sig msg owf_key owf_input owf_output : bytes)
    (rho : option bytes) : res bytes :=
  let p := param_of i in
  let l := p_l p in
  let lambda := p_lambda p in
  let lambdaBytes := lambda / 8 in
  let ell_hat := l + lambda * 2 + UNIVERSAL_HASH_B_BITS in
  let ell_bytes := l / 8 in
  let! mu := hash_mu owf_input owf_output (p_pkSize p / 2) msg lambda in
  let! _ := p_fits (lenN mu) (MAX_LAMBDA_BYTES * 2) in
  let! key := slice owf_key 0 lambdaBytes in
  let! mu' := slice mu 0 (lambdaBytes * 2) in
  let h3 := H_update (H_update (H_init lambda) key) mu' in
  let! h3 := match rho with
             | Some r => if lenN r =? 0 then Ok h3 else H_update_any h3 r
             | None => Ok h3
             end in
  let! _ := p_fits lambdaBytes MAX_LAMBDA_BYTES in
  let '(rootkey, iv) := H3_final xof h3 lambdaBytes in
  let! sig := blit sig (off_iv p) iv in
  let! iv := from sig (off_iv p) in
  let! r := vole_commit xof p rootkey iv ell_hat in
  let '(hcom, vecCom, c, u, V) := r in
  let! _ := p_fits (lenN hcom) (MAX_LAMBDA_BYTES * 2) in
  let! sig := blit sig (off_c p 0) c in
  let! c := from sig (off_c p 0) in
  let! iv := from sig (off_iv p) in
  let! chall_1 := hash_challenge_1 mu hcom c iv lambda l (p_tau p) in
  let! _ := p_fits (lenN chall_1) (5 * MAX_LAMBDA_BYTES + 8) in
  let! u_tilde := vole_hash lambda chall_1 u l in
  let! sig := blit sig (off_u_tilde p) u_tilde in
  let! h_v := hash_v p chall_1 V in
  let! _ := p_fits (lenN h_v) (MAX_LAMBDA_BYTES * 2) in
  let! w := aes_extend_witness i owf_key owf_input in
  let! w0 := slice w 0 ell_bytes in
  let! u0 := slice u 0 ell_bytes in
  let! sig := blit sig (off_d p) (xor_bytes w0 u0) in
  let! ut := from sig (off_u_tilde p) in
  let! d := from sig (off_d p) in
  let! chall_2 := hash_challenge_2 chall_1 ut h_v d lambda l in
  let! _ := p_fits (lenN chall_2) (3 * MAX_LAMBDA_BYTES + 8) in
  let! ab := aes_prove p w u V owf_input owf_output chall_2 in
  let '(a_tilde, b_tilde) := ab in
  let! _ := p_fits (lenN b_tilde) MAX_LAMBDA_BYTES in
  let! sig := blit sig (off_a_tilde p) a_tilde in
  let! a := from sig (off_a_tilde p) in
  let! chall_3 := hash_challenge_3 chall_2 a b_tilde lambda in
  let! sig := blit sig (off_chall_3 p) chall_3 in
  foldM (sign_open p vecCom) (Nrange (p_tau p)) sig.

(** faest.c:418-453, one iteration; state (q, Dtilde): the columns written so far.
    For i = 0 the columns of qprime are copied; for i > 0 column q_idx + d is
    qprime ^ (delta[d] ? c_{i-1} : 0). *)
Definition verify_correct (p : param) (sig : bytes) (qprime : list bytes)
    (s : list bytes * list bytes) (i : N) : res (list bytes * list bytes) :=
  let '(q, Dtilde) := s in
  let ehb := (p_l p + p_lambda p * 2 + UNIVERSAL_HASH_B_BITS) / 8 in
  let depth := tree_depth p i in
  let! chall_3 := from sig (off_chall_3 p) in
  let! cd := ChalDec chall_3 i (p_k0 p) (p_t0 p) (p_k1 p) (p_t1 p) in
  let delta := snd cd in
  let! ut := slice sig (off_u_tilde p) (utilde_bytes_of p) in
  let! ds := mapM (fun j =>
                     let! _ := guard (lenN Dtilde + j <? p_lambda p) in
                     let! dj := aget delta j in
                     Ok (masked_xor_bytes (zeros (utilde_bytes_of p)) ut dj)) (Nrange depth) in
  let q_idx := lenN q in
  let! qs :=
    (if i =? 0 then slice qprime q_idx depth
     else
       mapM (fun d =>
               let! qc := aget qprime (q_idx + d) in
               let! qc := slice qc 0 ehb in
               let! c := slice sig (off_c p (i - 1)) ehb in
               let! dd := aget delta d in
               Ok (masked_xor_bytes qc c dd)) (Nrange depth)) in
  Ok (q ++ qs, Dtilde ++ ds).

(** faest.c:458-475: H1 over vole_hash(q_i) ^ Dtilde_i *)
Definition hash_q (p : param) (chall_1 : bytes) (q Dtilde : list bytes) : res bytes :=
  let lambda := p_lambda p in
  let! _ := p_fits (lambda / 8 + UNIVERSAL_HASH_B) (MAX_LAMBDA_BYTES + UNIVERSAL_HASH_B) in
  let! ctx :=
    foldM (fun ctx i =>
             let! col := aget q i in
             let! qt := vole_hash lambda chall_1 col (p_l p) in
             let! d := aget Dtilde i in
             Ok (H_update ctx (xor_bytes qt d))) (Nrange lambda) (H_init lambda) in
  Ok (H1_final xof ctx (lambda / 8 * 2)).

(** faest.c:362-492: true when the C function returns 0, false when it returns -1 *)
Definition faest_verify (i : paramid) (msg sig owf_input owf_output : bytes) : res bool :=
  let p := param_of i in
  let l := p_l p in
  let lambda := p_lambda p in
  let lambdaBytes := lambda / 8 in
  let ell_hat := l + lambda * 2 + UNIVERSAL_HASH_B_BITS in
  let! mu := hash_mu owf_input owf_output (p_pkSize p / 2) msg lambda in
  let! _ := p_fits (lenN mu) (MAX_LAMBDA_BYTES * 2) in
  let! _ := p_fits (p_tau p) MAX_TAU in
  let! pdec := mapM (fun i => from sig (off_pdec p i)) (Nrange (p_tau p)) in
  let! com := mapM (fun i => from sig (off_com p i)) (Nrange (p_tau p)) in
  let! iv := from sig (off_iv p) in
  let! sig_chall_3 := from sig (off_chall_3 p) in
  let! r := vole_reconstruct xof p iv sig_chall_3 pdec com ell_hat in
  let '(hcom, qprime) := r in
  let! _ := p_fits (lenN hcom) (MAX_LAMBDA_BYTES * 2) in
  let! c := from sig (off_c p 0) in
  let! chall_1 := hash_challenge_1 mu hcom c iv lambda l (p_tau p) in
  let! _ := p_fits (lenN chall_1) (5 * MAX_LAMBDA_BYTES + 8) in
  let! s := foldM (verify_correct p sig qprime) (Nrange (p_tau p)) ([], []) in
  let '(q, Dtilde) := s in
  let! h_v := hash_q p chall_1 q Dtilde in
  let! _ := p_fits (lenN h_v) (MAX_LAMBDA_BYTES * 2) in
  let! ut := from sig (off_u_tilde p) in
  let! d := from sig (off_d p) in
  let! chall_2 := hash_challenge_2 chall_1 ut h_v d lambda l in
  let! _ := p_fits (lenN chall_2) (3 * MAX_LAMBDA_BYTES + 8) in
  let! a_tilde := from sig (off_a_tilde p) in
  let! b_tilde := aes_verify p d q chall_2 sig_chall_3 a_tilde owf_input owf_output in
  let! chall_3 := hash_challenge_3 chall_2 a_tilde b_tilde lambda in
  let! c3 := slice sig_chall_3 0 lambdaBytes in
  Ok (bytes_eqb chall_3 c3).

End Xof.
