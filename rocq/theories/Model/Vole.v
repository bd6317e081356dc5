(** VOLE correlations: vole.c. *)
From Verif.Model Require Export Base Params Aes Hash Vc.

(** vole.c:44-49, one level: row j of R (num_instances >> j entries, the live part) is combined
    pairwise; returns (row j+1, V(j)).  In C both rows live in one buffer addressed by the parity
    of the row; entries R(j, 0 .. 2*depthloop-1) are the ones read. *)
Fixpoint convert_level (row : list bytes) (vj : bytes) : res (list bytes * bytes) :=
  match row with
  | [] => Ok ([], vj)
  | [_] => UB
  | a :: b :: rest =>
      let! r := convert_level rest (xor_bytes vj b) in
      Ok (xor_bytes a b :: fst r, snd r)
  end.

(** vole.c:43-50: the loop over j < depth; returns (row depth, columns V(0) .. V(depth-1)) *)
Fixpoint convert_levels (depth : nat) (outLen : N) (row : list bytes) : res (list bytes * list bytes) :=
  match depth with
  | O => Ok (row, [])
  | S d =>
      let! r := convert_level row (zeros outLen) in
      let! rs := convert_levels d outLen (fst r) in
      Ok (fst rs, snd r :: snd rs)
  end.

(** vole.c:20-56: (u if computed, columns v).  [sd] is the array of seeds; when [sd0_bot] its
    first entry is not read and row 0 starts with zeros (calloc). *)
Definition ConvertToVole (lambda : N) (iv : bytes) (sd : list bytes) (sd0_bot : bool)
    (depth outLen : N) : res (option bytes * list bytes) :=
  let! num_instances := one_shl depth in
  let! r0 := (if sd0_bot then Ok (zeros outLen)
              else let! s := aget sd 0 in prg s iv lambda outLen) in
  let! rest := mapM (fun i => let! s := aget sd i in prg s iv lambda outLen)
                    (Nfromto 1 num_instances) in
  let! r := convert_levels (N.to_nat depth) outLen (r0 :: rest) in
  if sd0_bot then Ok (None, snd r)
  else let! u := aget (fst r) 0 in Ok (Some u, snd r).

(** vole.c:58-81: (return value is 1, bits written to chalout); chalout has MAX_DEPTH cells at
    every call site *)
Definition ChalDec (chal : bytes) (i k0 t0 k1 t1 : N) : res (bool * bytes) :=
  if t0 + t1 <=? i then Ok (false, [])
  else
    let '(lo, hi) :=
      if i <? t0 then (i * k0, (i + 1) * k0)
      else let t := i - t0 in (t0 * k0 + t * k1, t0 * k0 + (t + 1) * k1) in
    let! _ := guard (hi - lo <=? MAX_DEPTH) in
    let! bits := mapM (fun j => ptr_get_bit chal j) (Nfromto lo hi) in
    Ok (true, bits).

(** depth of tree i: vole.c:105, 160; faest.c:350, 422; faest_aes.c:648 *)
Definition tree_depth (p : param) (i : N) : N := if i <? p_t0 p then p_k0 p else p_k1 p.

Section Xof.
Variable xof : N -> bytes -> N -> bytes.

(** vole.c:83-130: (hcom, vecCom, c, u, v); [v] are the lambda columns.  [c] has
    tau - 1 blocks of ellhat_bytes.  The columns are written at v[v_idx]; in the model they are
    appended, and v_idx is the number of columns written so far. *)
Definition vole_commit (p : param) (rootKey iv : bytes) (ellhat : N)
  : res (bytes * list vec_com * bytes * bytes * list bytes) :=
  let lambda := p_lambda p in
  let lambda_bytes := lambda / 8 in
  let ellhat_bytes := (ellhat + 7) / 8 in
  let tau := p_tau p in
  let! expanded_keys := prg rootKey iv lambda (lambda_bytes * tau) in
  let! st :=
    foldM (fun '(ctx, vcs, uis, v) i =>
             let depth := tree_depth p i in
             let! key := slice expanded_keys (i * lambda_bytes) lambda_bytes in
             let! vc := vector_commitment xof lambda key iv depth in
             let! r := ConvertToVole lambda iv (vc_sd vc) false depth ellhat_bytes in
             match fst r with
             | None => UB
             | Some ui =>
                 let! _ := guard (lenN v + depth <=? lambda) in
                 Ok (H_update ctx (vc_h vc), vcs ++ [vc], uis ++ [ui], v ++ snd r)
             end)
          (Nrange tau) (H_init lambda, [], [], []) in
  let '(ctx, vcs, uis, v) := st in
  let! u := aget uis 0 in
  let! cs := mapM (fun i => let! ui := aget uis i in Ok (xor_bytes u ui)) (Nfromto 1 tau) in
  Ok (H1_final xof ctx (lambda_bytes * 2), vcs, concat cs, u, v).

(** vole.c:169-171: sd[j] = s[j ^ idx] for 1 <= j < N; [sd] keeps its cell 0 and any cells
    beyond N from earlier iterations *)
Definition permute_seeds (s : list (option bytes)) (idx n : N) (sd : list (option bytes))
  : res (list (option bytes)) :=
  foldM (fun sd j =>
           let! x := ginit s (N.lxor j idx) in
           aset sd j (Some x)) (Nfromto 1 n) sd.

(** the first n cells, all of which must be initialised (they are read by ConvertToVole) *)
Definition read_cells (sd : list (option bytes)) (n : N) : res (list bytes) :=
  mapM (ginit sd) (Nrange n).

(** vole.c:132-190: (hcom, q); [pdec] and [com_j] are the arrays of pointers *)
Definition vole_reconstruct (p : param) (iv chall : bytes) (pdec com_j : list bytes) (ellhat : N)
  : res (bytes * list bytes) :=
  let lambda := p_lambda p in
  let lambda_bytes := lambda / 8 in
  let ellhat_bytes := (ellhat + 7) / 8 in
  let tau := p_tau p in
  let maxk := N.max (p_k0 p) (p_k1 p) in
  let! m := one_shl maxk in
  let! sd := aset (repeat None (N.to_nat m)) 0 (Some (zeros lambda_bytes)) in
  let! vr := vec_com_rec_alloc lambda maxk in
  let! st :=
    foldM (fun '(ctx, vr, sd, q) i =>
             let depth := tree_depth p i in
             let! n := one_shl depth in
             let! cd := ChalDec chall i (p_k0 p) (p_t0 p) (p_k1 p) (p_t1 p) in
             let chalout := snd cd in
             let! idx := NumRec depth chalout in
             let! pd := aget pdec i in
             let! cj := aget com_j i in
             let! vr := vector_reconstruction xof lambda iv pd cj chalout depth vr in
             let! sd := permute_seeds (vr_s vr) idx n sd in
             let! seeds := read_cells sd n in
             let! r := ConvertToVole lambda iv seeds true depth ellhat_bytes in
             let! _ := guard (lenN q + depth <=? lambda) in
             Ok (H_update ctx (vr_h vr), vr, sd, q ++ snd r))
          (Nrange tau) (H_init lambda, vr, sd, []) in
  let '(ctx, _, _, q) := st in
  Ok (H1_final xof ctx (lambda_bytes * 2), q).

End Xof.
