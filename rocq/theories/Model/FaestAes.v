(** The AES constraint system: faest_aes.c.

    The C file repeats every function for lambda = 128, 192, 256 (and for AES and Even-Mansour).
    The copies were compared mechanically (replace the number in the names and diff); they differ
    only in the parameters and where a comment below says so.  One definition over the field [F]
    and the parameters [p] models the copies.

    Arrays filled by nested loops in increasing index order are built with [mapM] and [concat]. *)
From Verif.Model Require Export Base Params Fields Aes UHash Vole.

(** faest_aes.c:74-77 *)
Definition Rcon : list N :=
  [0x01; 0x02; 0x04; 0x08; 0x10; 0x20; 0x40; 0x80; 0x1b; 0x36; 0x6c; 0xd8; 0xab; 0x4d; 0x9a;
   0x2f; 0x5e; 0xbc; 0x63; 0xc6; 0x97; 0x35; 0x6a; 0xd4; 0xb3; 0x7d; 0xfa; 0xef; 0xc5; 0x91].

(** compat.h:139-143 *)
Definition rotr8 (n c : N) : N :=
  let c := N.land c 7 in
  N.lor (N.shiftr n c) (N.shiftl n (N.land (8 - c) 7) mod 256).

(** pointer + off *)
Definition from {A} (l : list A) (off : N) : res (list A) :=
  let! _ := guard (off <=? lenN l) in Ok (dropN off l).

(** utils.h:33-36 *)
Definition ptr_set_bit (dst : bytes) (value index : N) : res bytes :=
  let! b := aget dst (index / 8) in
  aset dst (index / 8) (N.lor b (N.shiftl value (index mod 8))).

(** faest_aes.c:86-91, 102-107, 118-123: one row of the transposed matrix *)
Definition transpose_row (F : field) (v : list bytes) (row : N) : res N :=
  let! new_row :=
    foldM (fun new_row column =>
             let! col := aget v column in
             let! b := ptr_get_bit col row in
             ptr_set_bit new_row b column)
          (Nrange (f_n F)) (zeros (f_n F / 8)) in
  bf_load F new_row 0.

(** faest_aes.c:79-125 column_to_row_major_and_shrink_V_128, _192, _256 *)
Definition column_to_row_major (F : field) (v : list bytes) (ell : N) : res (list N) :=
  mapM (transpose_row F v) (Nrange (ell + f_n F)).

(** ** Key schedule *)

(** (j % Nwd) == 0 || (Nwd > 6 && (j % Nwd) == 4) *)
Definition is_sbox_word (Nwd j : N) : bool :=
  (j mod Nwd =? 0) || ((6 <? Nwd) && (j mod Nwd =? 4)).

(** faest_aes.c:145-156, one iteration; state (out, i_wd) *)
Definition ks_forward_1_step (p : param) (x : bytes) (s : bytes * N) (j : N) : res (bytes * N) :=
  let '(out, i_wd) := s in
  if is_sbox_word (p_Nwd p) j then
    let! c := slice x (i_wd / 8) 4 in
    let! out := blit out (32 * j / 8) c in
    Ok (out, i_wd + 32)
  else
    let! out :=
      foldM (fun out i =>
               let! a := aget out ((32 * (j - p_Nwd p) + i) / 8) in
               let! b := aget out ((32 * (j - 1) + i) / 8) in
               let! o := aget out ((32 * j + i) / 8) in
               aset out ((32 * j + i) / 8) (N.lor o (N.lxor a b)))
            [0; 8; 16; 24] out in
    Ok (out, i_wd).

(** faest_aes.c:129-157 aes_key_schedule_forward_1: the (R + 1) * 16 bytes written *)
Definition ks_forward_1 (p : param) (x : bytes) : res bytes :=
  let lambdaBytes := p_lambda p / 8 in
  let out_len := (p_R p + 1) * 128 / 8 in
  let! h := slice x 0 lambdaBytes in
  let! s := foldM (ks_forward_1_step p x) (Nfromto (p_Nwd p) (4 * (p_R p + 1)))
                  (h ++ zeros (out_len - lambdaBytes), p_lambda p) in
  Ok (fst s).

(** faest_aes.c:172-203, one iteration; state (out, iwd, c, rmvRcon, ircon) *)
Definition ks_backward_1_step (p : param) (x xk : bytes) (s : bytes * N * N * bool * N) (j : N)
  : res (bytes * N * N * bool * N) :=
  let '(out, iwd, c, rmvRcon, ircon) := s in
  let! xj := aget x j in
  let! kj := aget xk (iwd + c) in
  let x_tilde := N.lxor xj kj in
  let! r :=
    (if rmvRcon && (c =? 0)
     then let! rc := aget Rcon ircon in Ok (N.lxor x_tilde rc, ircon + 1)
     else Ok (x_tilde, ircon)) in
  let '(x_tilde, ircon) := r in
  let y_tilde := N.lxor (N.lxor (rotr8 x_tilde 7) (rotr8 x_tilde 5)) (rotr8 x_tilde 2) in
  let out := out ++ [N.lxor y_tilde 5] in
  let c := c + 1 in
  if c =? 4 then
    if p_lambda p =? 192 then Ok (out, iwd + 192 / 8, 0, rmvRcon, ircon)
    else Ok (out, iwd + 128 / 8, 0, (if p_lambda p =? 256 then negb rmvRcon else rmvRcon), ircon)
  else Ok (out, iwd, c, rmvRcon, ircon).

(** faest_aes.c:159-204 aes_key_schedule_backward_1: the Ske bytes written *)
Definition ks_backward_1 (p : param) (x xk : bytes) : res bytes :=
  let! s := foldM (ks_backward_1_step p x xk) (Nrange (p_Ske p)) ([], 0, 0, true, 0) in
  let '(out, _, _, _, _) := s in
  Ok out.

(** faest_aes.c:215-227 (697-708, 1176-1187), one iteration; state (bf_out, i_wd); bf_out is
    written in increasing order, so it is represented by the part already written *)
Definition ks_forward_step (p : param) (v : list N) (s : list N * N) (j : N) : res (list N * N) :=
  let '(out, i_wd) := s in
  let! _ := guard (lenN out =? 32 * j) in
  if is_sbox_word (p_Nwd p) j then
    let! c := slice v i_wd 32 in
    Ok (out ++ c, i_wd + 32)
  else
    let! c := mapM (fun i =>
                      let! a := aget out (32 * (j - p_Nwd p) + i) in
                      let! b := aget out (32 * (j - 1) + i) in
                      Ok (bf_add a b)) (Nrange 32) in
    Ok (out ++ c, i_wd).

(** faest_aes.c:208-228 aes_key_schedule_forward_128, 688-709 _192, 1167-1188 _256 *)
Definition ks_forward (p : param) (v : list N) : res (list N) :=
  let! h := slice v 0 (p_lambda p) in
  let! s := foldM (ks_forward_step p v) (Nfromto (p_Nwd p) (4 * (p_R p + 1))) (h, p_lambda p) in
  Ok (fst s).

(** delta ? bf_load(delta) : 0 *)
Definition opt_delta (d : option N) : N := match d with Some x => x | None => 0 end.

(** bfN_add(bfN_mul_bit(delta, Mkey), bfN_from_bit(1 ^ Mkey)) *)
Definition mkey_factor (delta Mkey : N) : N :=
  bf_add (bf_mul_bit delta Mkey) (bf_from_bit (N.lxor 1 Mkey)).

(** faest_aes.c:263-270, 541-547: the inverse affine map on the eight wires of a byte,
    adding [factor] to wires 0 and 2 *)
Definition inv_affine_wires (x_tilde : list N) (factor : N) : res (list N) :=
  let! y := mapM (fun i =>
                    let! a := aget x_tilde ((i + 7) mod 8) in
                    let! b := aget x_tilde ((i + 5) mod 8) in
                    let! c := aget x_tilde ((i + 2) mod 8) in
                    Ok (bf_add (bf_add a b) c)) (Nrange 8) in
  let! y0 := aget y 0 in
  let! y := aset y 0 (bf_add y0 factor) in
  let! y2 := aget y 2 in
  aset y 2 (bf_add y2 factor).

(** faest_aes.c:246-281 (728-759, 1205-1240), one iteration;
    state (bf_out, iwd, c, rmvRcon, ircon); rmvRcon exists in the 256 copy only, the others behave
    as if it were always true *)
Definition ks_backward_step (p : param) (v Vk : list N) (Mtag Mkey : N) (delta : option N)
    (s : list N * N * N * bool * N) (j : N) : res (list N * N * N * bool * N) :=
  let '(out, iwd, c, rmvRcon, ircon) := s in
  let mkd := mkey_factor (opt_delta delta) Mkey in
  let! x_tilde := mapM (fun i =>
                          let! a := aget v (8 * j + i) in
                          let! b := aget Vk (iwd + 8 * c + i) in
                          Ok (bf_add a b)) (Nrange 8) in
  let! r :=
    (if (Mtag =? 0) && rmvRcon && (c =? 0)
     then
       let! rc := aget Rcon ircon in
       let! xt := mapM (fun i =>
                          let! x := aget x_tilde i in
                          Ok (bf_add x (bf_mul_bit mkd (get_bit rc i)))) (Nrange 8) in
       Ok (xt, ircon + 1)
     else Ok (x_tilde, ircon)) in
  let '(x_tilde, ircon) := r in
  let! y := inv_affine_wires x_tilde (bf_mul_bit mkd (N.lxor 1 Mtag)) in
  let out := out ++ y in
  let c := c + 1 in
  if c =? 4 then
    if p_lambda p =? 192 then Ok (out, iwd + 192, 0, rmvRcon, ircon)
    else Ok (out, iwd + 128, 0, (if p_lambda p =? 256 then negb rmvRcon else rmvRcon), ircon)
  else Ok (out, iwd, c, rmvRcon, ircon).

(** faest_aes.c:230-282 aes_key_schedule_backward_128, 709-760 _192, 1188-1241 _256 *)
Definition ks_backward (p : param) (v Vk : list N) (Mtag Mkey : N) (delta : option N)
  : res (list N) :=
  let! s := foldM (ks_backward_step p v Vk Mtag Mkey delta) (Nrange (p_Ske p))
                  ([], 0, 0, true, 0) in
  let '(out, _, _, _, _) := s in
  Ok out.

(** index of the key-schedule word entering S-box group j, in bits: iwd = 32 * (Nwd - 1) plus
    192 (lambda = 192) or 128 per group (faest_aes.c:307-330, 785-808, 1264-1297) *)
Definition ks_iwd (p : param) (j : N) : N :=
  32 * (p_Nwd p - 1) + j * (if p_lambda p =? 192 then 192 else 128).

(** the four cells filled by the loop over r: cell (r+3)%4 when the word is rotated, cell r
    otherwise; rotated for every group except the odd ones of the 256 copy
    (faest_aes.c:313-319, 1270-1281) *)
Definition ks_rotated (p : param) (j : N) : bool :=
  if p_lambda p =? 256 then j mod 2 =? 0 else true.

(** the array filled by [hat[(r + 3) % 4] = g(r)] (rotated) or [hat[r] = g(r)] for r = 0..3 *)
Definition fill4 (rot : bool) (g : N -> res N) : res (list N) :=
  foldM (fun hat r =>
           let! x := g r in
           aset hat (if rot then (r + 3) mod 4 else r) x) (Nrange 4) [0; 0; 0; 0].

(** the two values hashed by the prover for one S-box:
    a0 = v * v', a1 = (s + v) * (s' + v') + v * v' + 1 (faest_aes.c:321-328, 574-582) *)
Definition prove_terms (F : field) (s v s' v' : N) : N * N :=
  let tmp := bf_mul F v v' in
  (tmp, bf_add (bf_add (bf_mul F (bf_add s v) (bf_add s' v')) tmp) 1).

(** faest_aes.c:309-331: group j of key-schedule S-boxes; state (a0_ctx, a1_ctx).
    (In C the key-schedule code adds one() before tmp; addition is XOR.) *)
Definition ks_constraints_0_step (F : field) (p : param) (k : bytes) (vk : list N) (w_dash : bytes)
    (v_w_dash : list N) (s : zk_ctx * zk_ctx) (j : N) : res (zk_ctx * zk_ctx) :=
  let iwd := ks_iwd p j in
  let rot := ks_rotated p j in
  let! k_hat := fill4 rot (fun r => let! x := aget k ((iwd + 8 * r) / 8) in
                                    bf_byte_combine_bits F x) in
  let! v_k_hat := fill4 rot (fun r => bf_byte_combine F vk (iwd + 8 * r)) in
  let! w_dash_hat := fill4 false (fun r => let! x := aget w_dash ((32 * j + 8 * r) / 8) in
                                           bf_byte_combine_bits F x) in
  let! v_w_dash_hat := fill4 false (fun r => bf_byte_combine F v_w_dash (32 * j + 8 * r)) in
  foldM (fun '(a0, a1) r =>
           let! x := aget k_hat r in
           let! vx := aget v_k_hat r in
           let! y := aget w_dash_hat r in
           let! vy := aget v_w_dash_hat r in
           let '(t0, t1) := prove_terms F x vx y vy in
           Ok (zk_hash_update F a0 t0, zk_hash_update F a1 t1)) (Nrange 4) s.

(** faest_aes.c:284-332 aes_key_schedule_constraints_Mkey_0_128, 762-810 _192, 1243-1299 _256:
    ((a0_ctx, a1_ctx), k, vk) *)
Definition ks_constraints_0 (F : field) (p : param) (w : bytes) (v : list N) (ctxs : zk_ctx * zk_ctx)
  : res ((zk_ctx * zk_ctx) * bytes * list N) :=
  let! k := ks_forward_1 p w in
  let! vk := ks_forward p v in
  let! w1 := from w (p_lambda p / 8) in
  let! w_dash := ks_backward_1 p w1 k in
  let! v1 := from v (p_lambda p) in
  let! v_w_dash := ks_backward p v1 vk 1 0 None in
  let! ctxs := foldM (ks_constraints_0_step F p k vk w_dash v_w_dash) (Nrange (p_Ske p / 4)) ctxs in
  Ok (ctxs, k, vk).

(** faest_aes.c:346-361: group j for the verifier *)
Definition ks_constraints_1_step (F : field) (p : param) (qk q_w_dash : list N) (delta_squared : N)
    (b0 : zk_ctx) (j : N) : res zk_ctx :=
  let iwd := ks_iwd p j in
  let rot := ks_rotated p j in
  let! q_k_hat := fill4 rot (fun r => bf_byte_combine F qk (iwd + 8 * r)) in
  let! q_w_dash_hat := fill4 false (fun r => bf_byte_combine F q_w_dash (32 * j + 8 * r)) in
  foldM (fun b0 r =>
           let! x := aget q_k_hat r in
           let! y := aget q_w_dash_hat r in
           Ok (zk_hash_update F b0 (bf_add (bf_mul F x y) delta_squared))) (Nrange 4) b0.

(** faest_aes.c:334-362 aes_key_schedule_constraints_Mkey_1_128, 812-838 _192, 1301-1335 _256:
    (b0_ctx, qk) *)
Definition ks_constraints_1 (F : field) (p : param) (q : list N) (delta : N) (b0 : zk_ctx)
  : res (zk_ctx * list N) :=
  let! qk := ks_forward p q in
  let! q1 := from q (p_lambda p) in
  let! q_w_dash := ks_backward p q1 qk 0 1 (Some delta) in
  let! b0 := foldM (ks_constraints_1_step F p qk q_w_dash (bf_mul F delta delta))
                   (Nrange (p_Ske p / 4)) b0 in
  Ok (b0, qk).

(** ** AES encryption *)

(** faest_aes.c:394-417, 453-476: MixColumns on the four combined bytes x0..x3 of a column,
    plus the combined round-key bytes.  (The Even-Mansour copies add the same terms in a
    different order, faest_aes.c:1678-1698.) *)
Definition mix_wires (F : field) (two three x0 x1 x2 x3 k0 k1 k2 k3 : N) : list N :=
  [bf_add (bf_add (bf_add (bf_add k0 (bf_mul F x0 two)) (bf_mul F x1 three)) x2) x3;
   bf_add (bf_add (bf_add (bf_add k1 x0) (bf_mul F x1 two)) (bf_mul F x2 three)) x3;
   bf_add (bf_add (bf_add (bf_add k2 x0) x1) (bf_mul F x2 two)) (bf_mul F x3 three);
   bf_add (bf_add (bf_add (bf_add k3 (bf_mul F x0 three)) x1) x2) (bf_mul F x3 two)].

(** byte_combine_bits of byte [off] of x *)
Definition combine_byte (F : field) (x : bytes) (off : N) : res N :=
  let! b := aget x off in bf_byte_combine_bits F b.

(** faest_aes.c:364-419 aes_enc_forward_128_1, 842-895 _192_1, 1337-1389 _256_1 (the latter two
    take Mtag, Mkey and are called with 0, 0 only) *)
Definition enc_forward_1 (F : field) (p : param) (x xk inp : bytes) : res (list N) :=
  let! y0 := mapM (fun i =>
                     let! a := combine_byte F inp i in
                     let! b := combine_byte F xk i in
                     Ok (bf_add a b)) (Nrange 16) in
  let! two := bf_byte_combine_bits F 2 in
  let! three := bf_byte_combine_bits F 3 in
  let! ys := mapM (fun j =>
    let! cs := mapM (fun c =>
      let ix := 128 * (j - 1) + 32 * c in
      let ik := 128 * j + 32 * c in
      let! xh := mapM (fun r => combine_byte F x ((ix + 8 * r) / 8)) (Nrange 4) in
      let! kh := mapM (fun r => combine_byte F xk ((ik + 8 * r) / 8)) (Nrange 4) in
      match xh, kh with
      | [x0; x1; x2; x3], [k0; k1; k2; k3] => Ok (mix_wires F two three x0 x1 x2 x3 k0 k1 k2 k3)
      | _, _ => UB
      end) (Nrange 4) in
    Ok (concat cs)) (Nfromto 1 (p_R p)) in
  Ok (y0 ++ concat ys).

(** faest_aes.c:421-478 aes_enc_forward_128, 897-954 _192, 1391-1448 _256 (the loop bound of the
    256 copy is FAEST_256S_R, equal to FAEST_256F_R by the static assertion of line 40) *)
Definition enc_forward (F : field) (p : param) (x xk : list N) (inp : bytes) (Mtag Mkey : N)
    (delta : option N) : res (list N) :=
  let factor := mkey_factor (opt_delta delta) Mkey in
  let! y0 := mapM (fun i =>
                     let! b := aget inp i in
                     let xin := tab 8 (fun j => bf_mul_bit factor
                                                  (N.land (N.lxor 1 Mtag) (get_bit b j))) in
                     let! a := bf_byte_combine F xin 0 in
                     let! k := bf_byte_combine F xk (8 * i) in
                     Ok (bf_add a k)) (Nrange 16) in
  let! two := bf_byte_combine_bits F 2 in
  let! three := bf_byte_combine_bits F 3 in
  let! ys := mapM (fun j =>
    let! cs := mapM (fun c =>
      let ix := 128 * (j - 1) + 32 * c in
      let ik := 128 * j + 32 * c in
      let! xh := mapM (fun r => bf_byte_combine F x (ix + 8 * r)) (Nrange 4) in
      let! kh := mapM (fun r => bf_byte_combine F xk (ik + 8 * r)) (Nrange 4) in
      match xh, kh with
      | [x0; x1; x2; x3], [k0; k1; k2; k3] => Ok (mix_wires F two three x0 x1 x2 x3 k0 k1 k2 k3)
      | _, _ => UB
      end) (Nrange 4) in
    Ok (concat cs)) (Nfromto 1 (p_R p)) in
  Ok (y0 ++ concat ys).

(** rotr8(x, 7) ^ rotr8(x, 5) ^ rotr8(x, 2) ^ 0x5 *)
Definition inv_affine (x : N) : N :=
  N.lxor (N.lxor (N.lxor (rotr8 x 7) (rotr8 x 5)) (rotr8 x 2)) 5.

(** faest_aes.c:480-510 aes_enc_backward_128_1, 956-985 _192_1, 1450-1478 _256_1;
    (c - r + 4) % 4 on unsigned int *)
Definition enc_backward_1 (F : field) (p : param) (x xk out : bytes) : res (list N) :=
  let! ys := mapM (fun j =>
    let! cs := mapM (fun c =>
      mapM (fun r =>
        let ird := 128 * j + 32 * ((c + 4 - r) mod 4) + 8 * r in
        let! xtilde :=
          (if j <? p_R p - 1 then aget x (ird / 8)
           else
             let! xout := aget out ((ird - 128 * (p_R p - 1)) / 8) in
             let! k := aget xk ((128 + ird) / 8) in
             Ok (N.lxor xout k)) in
        bf_byte_combine_bits F (inv_affine xtilde)) (Nrange 4)) (Nrange 4) in
    Ok (concat cs)) (Nrange (p_R p)) in
  Ok (concat ys).

(** faest_aes.c:512-555 aes_enc_backward_128, 987-1030 _192, 1480-1523 _256 *)
Definition enc_backward (F : field) (p : param) (x xk : list N) (Mtag Mkey : N) (delta : option N)
    (out : bytes) : res (list N) :=
  let factor := bf_mul_bit (mkey_factor (opt_delta delta) Mkey) (N.lxor 1 Mtag) in
  let! ys := mapM (fun j =>
    let! cs := mapM (fun c =>
      mapM (fun r =>
        let ird := 128 * j + 32 * ((c + 4 - r) mod 4) + 8 * r in
        let! x_tilde :=
          (if j <? p_R p - 1 then slice x ird 8
           else
             mapM (fun i =>
                     let! o := aget out ((ird - 128 * (p_R p - 1)) / 8) in
                     let! k := aget xk (128 + ird + i) in
                     Ok (bf_add (bf_mul_bit factor (get_bit o i)) k)) (Nrange 8)) in
        let! y_tilde := inv_affine_wires x_tilde factor in
        bf_byte_combine F y_tilde 0) (Nrange 4)) (Nrange 4) in
    Ok (concat cs)) (Nrange (p_R p)) in
  Ok (concat ys).

(** faest_aes.c:572-583, 1840-1848: hash the constraints of Senc S-boxes, prover *)
Definition hash_constraints_0 (F : field) (senc : N) (s vs s_dash vs_dash : list N)
    (ctxs : zk_ctx * zk_ctx) : res (zk_ctx * zk_ctx) :=
  foldM (fun '(a0, a1) j =>
           let! x := aget s j in
           let! vx := aget vs j in
           let! y := aget s_dash j in
           let! vy := aget vs_dash j in
           let '(t0, t1) := prove_terms F x vx y vy in
           Ok (zk_hash_update F a0 t0, zk_hash_update F a1 t1)) (Nrange senc) ctxs.

(** faest_aes.c:591-595, 1875-1878: verifier *)
Definition hash_constraints_1 (F : field) (senc : N) (qs qs_dash : list N) (delta : N)
    (b0 : zk_ctx) : res zk_ctx :=
  let minus_part := bf_mul F delta delta in
  foldM (fun b0 j =>
           let! x := aget qs j in
           let! y := aget qs_dash j in
           Ok (zk_hash_update F b0 (bf_add (bf_mul F x y) minus_part))) (Nrange senc) b0.

(** faest_aes.c:557-583 aes_enc_constraints_Mkey_0_128, 1032-1053 _192, 1525-1545 _256 *)
Definition enc_constraints_0 (F : field) (p : param) (inp out w : bytes) (v : list N) (k : bytes)
    (vk : list N) (ctxs : zk_ctx * zk_ctx) : res (zk_ctx * zk_ctx) :=
  let! s := enc_forward_1 F p w k inp in
  let! vs := enc_forward F p v vk inp 1 0 None in
  let! s_dash := enc_backward_1 F p w k out in
  let! vs_dash := enc_backward F p v vk 1 0 None out in
  hash_constraints_0 F (p_Senc p) s vs s_dash vs_dash ctxs.

(** faest_aes.c:585-596 aes_enc_constraints_Mkey_1_128, 1055-1070 _192, 1547-1561 _256 *)
Definition enc_constraints_1 (F : field) (p : param) (inp out : bytes) (q qk : list N) (delta : N)
    (b0 : zk_ctx) : res zk_ctx :=
  let! qs := enc_forward F p q qk inp 0 1 (Some delta) in
  let! qs_dash := enc_backward F p q qk 0 1 (Some delta) out in
  hash_constraints_1 F (p_Senc p) qs qs_dash delta b0.

(** number of blocks encrypted: 1 for lambda = 128, 2 for 192 and 256
    (faest_aes.c:624-625, 1097-1101, 1588-1592) *)
Definition aes_blocks (p : param) : N := if p_lambda p =? 128 then 1 else 2.

(** faest_aes.c:598-632 aes_prove_128, 1072-1108 _192, 1563-1599 _256: (a_tilde, b_tilde) *)
Definition aes_prove_F (F : field) (p : param) (w u : bytes) (V : list bytes) (inp out chall : bytes)
  : res (bytes * bytes) :=
  let! bf_v := column_to_row_major F V (p_l p) in
  let! ctx := zk_hash_init F chall in
  let! r := ks_constraints_0 F p w bf_v (ctx, ctx) in
  let '(ctxs, k, vk) := r in
  let! ctxs :=
    foldM (fun ctxs b =>
             let! in_b := from inp (16 * b) in
             let! out_b := from out (16 * b) in
             let! w_b := from w ((p_Lke p + b * p_Lenc p) / 8) in
             let! v_b := from bf_v (p_Lke p + b * p_Lenc p) in
             enc_constraints_0 F p in_b out_b w_b v_b k vk ctxs)
          (Nrange (aes_blocks p)) ctxs in
  let '(a0_ctx, a1_ctx) := ctxs in
  let! us := bf_load F u (p_l p / 8) in
  let! vs := bf_sum_poly F bf_v (p_l p) in
  Ok (zk_hash_finalize F a1_ctx us, zk_hash_finalize F a0_ctx vs).

(** faest_aes.c:647-656 (1123-1132, 1614-1623, 1923-1932, 2232-2241, 2547-2556): add d to the
    columns of Q selected by the challenge; [dlen] bytes.  State (Q, col). *)
Definition mask_Q (p : param) (d : bytes) (dlen : N) (Q : list bytes) (chall_3 : bytes)
  : res (list bytes) :=
  let! s :=
    foldM (fun s i =>
             let depth := tree_depth p i in
             let! cd := ChalDec chall_3 i (p_k0 p) (p_t0 p) (p_k1 p) (p_t1 p) in
             foldM (fun '(Q, col) j =>
                      let! b := aget (snd cd) j in
                      if b =? 1 then
                        let! qc := aget Q col in
                        let! dd := slice d 0 dlen in
                        let! qq := slice qc 0 dlen in
                        let! qc := blit qc 0 (xor_bytes dd qq) in
                        let! Q := aset Q col qc in
                        Ok (Q, col + 1)
                      else Ok (Q, col + 1)) (Nrange depth) s)
          (Nrange (p_tau p)) (Q, 0) in
  Ok (fst s).

(** faest_aes.c:679-681: q_tilde + a_tilde * delta *)
Definition verify_final (F : field) (q_tilde a_tilde : bytes) (delta : N) : res bytes :=
  let! qt := bf_load F q_tilde 0 in
  let! at_ := bf_load F a_tilde 0 in
  Ok (bf_store F (bf_add qt (bf_mul F at_ delta))).

(** faest_aes.c:634-684 aes_verify_128, 1110-1163 _192, 1601-1651 _256 *)
Definition aes_verify_F (F : field) (p : param) (d : bytes) (Q : list bytes)
    (chall_2 chall_3 a_tilde inp out : bytes) : res bytes :=
  let! Q := mask_Q p d ((p_l p + 7) / 8) Q chall_3 in
  let! bf_q := column_to_row_major F Q (p_l p) in
  let! b0 := zk_hash_init F chall_2 in
  let! delta := bf_load F chall_3 0 in
  let! r := ks_constraints_1 F p bf_q delta b0 in
  let '(b0, qk) := r in
  let! b0 :=
    foldM (fun b0 b =>
             let! in_b := from inp (16 * b) in
             let! out_b := from out (16 * b) in
             let! q_b := from bf_q (p_Lke p + b * p_Lenc p) in
             enc_constraints_1 F p in_b out_b q_b qk delta b0)
          (Nrange (aes_blocks p)) b0 in
  let! qs := bf_sum_poly F bf_q (p_l p) in
  verify_final F (zk_hash_finalize F b0 qs) a_tilde delta.

(** ** Even-Mansour *)

(** faest_aes.c:1657-1699 em_enc_forward_128_1, 1966-2009 _192_1, 2275-2318 _256_1 *)
Definition em_forward_1 (F : field) (p : param) (z x : bytes) : res (list N) :=
  let nwd := p_Nwd p in
  let! y0 := mapM (fun j =>
                     let! a := combine_byte F z j in
                     let! b := combine_byte F x j in
                     Ok (bf_add a b)) (Nrange (4 * nwd)) in
  let! two := bf_byte_combine_bits F 2 in
  let! three := bf_byte_combine_bits F 3 in
  let! ys := mapM (fun j =>
    let! cs := mapM (fun c =>
      let i := 32 * nwd * j + 32 * c in
      let! zh := mapM (fun r => combine_byte F z ((i + 8 * r) / 8)) (Nrange 4) in
      let! xh := mapM (fun r => combine_byte F x ((i + 8 * r) / 8)) (Nrange 4) in
      match zh, xh with
      | [x0; x1; x2; x3], [k0; k1; k2; k3] => Ok (mix_wires F two three x0 x1 x2 x3 k0 k1 k2 k3)
      | _, _ => UB
      end) (Nrange nwd) in
    Ok (concat cs)) (Nfromto 1 (p_R p)) in
  Ok (y0 ++ concat ys).

(** faest_aes.c:1701-1751 em_enc_forward_128, 2011-2061 _192, 2320-2370 _256; [bf_x] may be NULL *)
Definition em_forward (F : field) (p : param) (bf_z : list N) (bf_x : option (list N))
  : res (list N) :=
  let nwd := p_Nwd p in
  let xcomb (off : N) : res N :=
    match bf_x with Some x => bf_byte_combine F x off | None => Ok 0 end in
  let! y0 := mapM (fun j =>
                     let! a := bf_byte_combine F bf_z (8 * j) in
                     let! b := xcomb (8 * j) in
                     Ok (bf_add a b)) (Nrange (4 * nwd)) in
  let! two := bf_byte_combine_bits F 2 in
  let! three := bf_byte_combine_bits F 3 in
  let! ys := mapM (fun j =>
    let! cs := mapM (fun c =>
      let i := 32 * nwd * j + 32 * c in
      let! zh := mapM (fun r => bf_byte_combine F bf_z (i + 8 * r)) (Nrange 4) in
      let! xh := mapM (fun r => xcomb (i + 8 * r)) (Nrange 4) in
      match zh, xh with
      | [x0; x1; x2; x3], [k0; k1; k2; k3] => Ok (mix_wires F two three x0 x1 x2 x3 k0 k1 k2 k3)
      | _, _ => UB
      end) (Nrange nwd) in
    Ok (concat cs)) (Nfromto 1 (p_R p)) in
  Ok (y0 ++ concat ys).

(** faest_aes.c:1760, 2069, 2380-2383 (the extra step exists in the 256 copy only) *)
Definition em_icol (nwd c r : N) : N :=
  let icol := (c + nwd - r) mod nwd in
  if (nwd =? 8) && (2 <=? r) then (icol + nwd - 1) mod nwd else icol.

(** faest_aes.c:1753-1780 em_enc_backward_128_1, 2063-2089 _192_1, 2372-2401 _256_1 *)
Definition em_backward_1 (F : field) (p : param) (z x z_out : bytes) : res (list N) :=
  let nwd := p_Nwd p in
  let! ys := mapM (fun j =>
    let! cs := mapM (fun c =>
      mapM (fun r =>
        let ird := p_lambda p + 32 * nwd * j + 32 * em_icol nwd c r + 8 * r in
        let! z_tilde :=
          (if j <? p_R p - 1 then aget z (ird / 8)
           else
             let! zo := aget z_out ((ird - 32 * nwd * (j + 1)) / 8) in
             let! k := aget x (ird / 8) in
             Ok (N.lxor zo k)) in
        bf_byte_combine_bits F (inv_affine z_tilde)) (Nrange 4)) (Nrange nwd) in
    Ok (concat cs)) (Nrange (p_R p)) in
  Ok (concat ys).

(** faest_aes.c:1782-1822 em_enc_backward_128, 2091-2131 _192, 2403-2446 _256 *)
Definition em_backward (F : field) (p : param) (bf_z : list N) (bf_x : option (list N))
    (bf_z_out : list N) (Mtag Mkey : N) (delta : option N) : res (list N) :=
  let nwd := p_Nwd p in
  let factor := bf_mul_bit (mkey_factor (opt_delta delta) Mkey) (N.lxor 1 Mtag) in
  let! ys := mapM (fun j =>
    let! cs := mapM (fun c =>
      mapM (fun r =>
        let ird := p_lambda p + 32 * nwd * j + 32 * em_icol nwd c r + 8 * r in
        let! z_tilde :=
          (if j <? p_R p - 1 then slice bf_z ird 8
           else
             mapM (fun i =>
                     let! a := aget bf_z_out (ird - 32 * nwd * (j + 1) + i) in
                     match bf_x with
                     | Some x => let! b := aget x (ird + i) in Ok (bf_add a b)
                     | None => Ok a
                     end) (Nrange 8)) in
        let! y_tilde := inv_affine_wires z_tilde factor in
        bf_byte_combine F y_tilde 0) (Nrange 4)) (Nrange nwd) in
    Ok (concat cs)) (Nrange (p_R p)) in
  Ok (concat ys).

(** faest_aes.c:1824-1849 em_enc_constraints_Mkey_0_128, 2133-2158 _192, 2448-2473 _256 *)
Definition em_constraints_0 (F : field) (p : param) (out x w : bytes) (v : list N)
    (ctxs : zk_ctx * zk_ctx) : res (zk_ctx * zk_ctx) :=
  let lb := p_lambda p / 8 in
  let! o := slice out 0 lb in
  let! w0 := slice w 0 lb in
  let w_out := xor_bytes o w0 in
  let! s := em_forward_1 F p w x in
  let! vs := em_forward F p v None in
  let! s_dash := em_backward_1 F p w x w_out in
  let! vs_dash := em_backward F p v None v 1 0 None in
  hash_constraints_0 F (p_Senc p) s vs s_dash vs_dash ctxs.

(** faest_aes.c:1851-1879 em_enc_constraints_Mkey_1_128, 2160-2188 _192, 2475-2503 _256 *)
Definition em_constraints_1 (F : field) (p : param) (out x : bytes) (q : list N) (delta : N)
    (b0 : zk_ctx) : res zk_ctx :=
  let! bf_x := mapM (fun i => let! b := ptr_get_bit x i in Ok (bf_mul_bit delta b))
                    (Nrange (p_lambda p * (p_R p + 1))) in
  let! q_out := mapM (fun i =>
                        let! b := ptr_get_bit out i in
                        let! qi := aget q i in
                        Ok (bf_add (bf_mul_bit delta b) qi)) (Nrange (p_lambda p)) in
  let! qs := em_forward F p q (Some bf_x) in
  let! qs_dash := em_backward F p q (Some bf_x) q_out 0 1 (Some delta) in
  hash_constraints_1 F (p_Senc p) qs qs_dash delta b0.

(** the key schedule of the public input: aes128 (faest_aes.c:1888, 1940), rijndael192 (2197,
    2249), rijndael256 (2512, 2564) *)
Definition em_cipher (lambda : N) : cipher :=
  match lambda with 256 => rijndael256 | 192 => rijndael192 | _ => aes128 end.

(** faest_aes.c:1884-1896, 1936-1948 and copies: the expanded key copied to the array x *)
Definition em_expand (p : param) (inp : bytes) : res bytes :=
  let! r := init_round_keys (em_cipher (p_lambda p)) inp in
  let rk := fst r in
  let! ws := mapM (fun r =>
               let! ws := mapM (fun i => rk_get rk r i) (Nrange (p_Nwd p)) in
               Ok (store_state ws)) (Nrange (p_R p + 1)) in
  Ok (concat ws).

(** faest_aes.c:1881-1910 em_prove_128, 2190-2219 _192, 2505-2534 _256.  (The array x of the 128
    copy is eight times larger than needed, line 1885.) *)
Definition em_prove_F (F : field) (p : param) (w u : bytes) (V : list bytes) (inp out chall : bytes)
  : res (bytes * bytes) :=
  let! x := em_expand p inp in
  let! bf_v := column_to_row_major F V (p_Lenc p) in
  let! ctx := zk_hash_init F chall in
  let! ctxs := em_constraints_0 F p out x w bf_v (ctx, ctx) in
  let '(a0_ctx, a1_ctx) := ctxs in
  let! us := bf_load F u (p_Lenc p / 8) in
  let! vs := bf_sum_poly F bf_v (p_Lenc p) in
  Ok (zk_hash_finalize F a1_ctx us, zk_hash_finalize F a0_ctx vs).

(** faest_aes.c:1912-1962 em_verify_128, 2221-2271 _192, 2536-2586 _256 *)
Definition em_verify_F (F : field) (p : param) (d : bytes) (Q : list bytes)
    (chall_2 chall_3 a_tilde inp out : bytes) : res bytes :=
  let! delta := bf_load F chall_3 0 in
  let! Q := mask_Q p d ((p_Lenc p + 7) / 8) Q chall_3 in
  let! bf_q := column_to_row_major F Q (p_Lenc p) in
  let! x := em_expand p inp in
  let! b0 := zk_hash_init F chall_2 in
  let! b0 := em_constraints_1 F p out x bf_q delta b0 in
  let! qs := bf_sum_poly F bf_q (p_Lenc p) in
  verify_final F (zk_hash_finalize F b0 qs) a_tilde delta.

(** faest_aes.c:2590-2615 *)
Definition aes_prove (p : param) (w u : bytes) (V : list bytes) (inp out chall : bytes)
  : res (bytes * bytes) :=
  if p_Lke p =? 0 then em_prove_F (field_of (p_lambda p)) p w u V inp out chall
  else aes_prove_F (field_of (p_lambda p)) p w u V inp out chall.

(** faest_aes.c:2617-2640 *)
Definition aes_verify (p : param) (d : bytes) (Q : list bytes)
    (chall_2 chall_3 a_tilde inp out : bytes) : res bytes :=
  if p_Lke p =? 0 then em_verify_F (field_of (p_lambda p)) p d Q chall_2 chall_3 a_tilde inp out
  else aes_verify_F (field_of (p_lambda p)) p d Q chall_2 chall_3 a_tilde inp out.
