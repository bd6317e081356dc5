(** Vector commitments from GGM trees: vc.c, vc.h.

    The flat node array of C (stride lambda/8 bytes) is the list of its nodes, each node a byte
    string of lambda/8 bytes; likewise the seed and commitment arrays. *)
From Verif.Model Require Export Base Params Aes Hash.

(** a C loop [for (; cond(j); j += step) body]; running out of fuel is an error *)
Fixpoint for_while {S : Type} (fuel : nat) (cond : N -> bool) (step : N)
    (body : S -> N -> res S) (j : N) (s : S) : res (N * S) :=
  if cond j then
    match fuel with
    | O => UB
    | Datatypes.S fuel' =>
        let! s' := body s j in for_while fuel' cond step body (j + step) s'
    end
  else Ok (j, s).

(** vc.c:79-81: the shift of the int 1 is undefined when the result does not fit *)
Definition getBinaryTreeNodeCount (depth : N) : res N :=
  let! _ := guard (depth + 1 <? 31) in
  Ok (N.shiftl 1 (depth + 1) - 1).

(** vc.c:84-89 *)
Definition getNodeIndex (depth levelIndex : N) : res N :=
  if depth =? 0 then Ok 0
  else
    let! _ := guard (depth - 1 <? 30) in
    Ok ((N.shiftl 2 (depth - 1) - 2) + (levelIndex + 1)).

(** vc.c:97-99: the loop of BitDec; returns the bits written *)
Fixpoint bitdec_loop (depth : nat) (leafIndex : N) : bytes :=
  match depth with
  | O => []
  | S d => leafIndex mod 2 :: bitdec_loop d (leafIndex / 2)
  end.

(** vc.c:93-101: (return value is 1, bits written to out) *)
Definition BitDec (leafIndex depth : N) : res (bool * bytes) :=
  let! _ := guard (depth <? 32) in
  if N.shiftl 1 depth <=? leafIndex then Ok (false, [])
  else Ok (true, bitdec_loop (N.to_nat depth) leafIndex).

(** vc.c:103-109 (unsigned int arithmetic wraps) *)
Definition NumRec (depth : N) (bi : bytes) : res N :=
  foldM (fun out i =>
           let! b := aget bi i in
           let! _ := guard (i <? 32) in
           Ok ((out + N.shiftl b i mod 2 ^ 32) mod 2 ^ 32)) (Nrange depth) 0.

(** vc.c:26-29 *)
Definition is_left_child (node : N) : bool := node mod 2 =? 1.

(** vc.c:42-49 *)
Definition get_parent (node : N) : N :=
  if is_left_child node then (node - 1) / 2 else (node - 2) / 2.

(** 1 << depth on int *)
Definition one_shl (depth : N) : res N :=
  let! _ := guard (depth <? 31) in Ok (N.shiftl 1 depth).

(** vc.c:60-64, one iteration: nodes 2i+1 and 2i+2 from node i *)
Definition expand_node (lambda : N) (iv : bytes) (nodes : list bytes) (i : N) : res (list bytes) :=
  let! n := aget nodes i in
  let! out := prg n iv lambda (lambda / 8 * 2) in
  let! nodes := aset nodes (2 * i + 1) (takeN (lambda / 8) out) in
  aset nodes (2 * i + 2) (dropN (lambda / 8) out).

(** vc.c:51-65 *)
Definition expand_seeds (lambda : N) (iv : bytes) (nodes : list bytes) : res (list bytes) :=
  let lastNonLeaf := get_parent (lenN nodes - 1) in
  foldM (expand_node lambda iv) (Nrange (lastNonLeaf + 1)) nodes.

(** vc.c:31-40, 67-76 (create_tree, generate_seeds): the nodes of the tree *)
Definition generate_seeds (lambda : N) (rootSeed iv : bytes) (depth : N) : res (list bytes) :=
  let! numNodes := getBinaryTreeNodeCount depth in
  let nodes := repeat (zeros (lambda / 8)) (N.to_nat numNodes) in
  let! seed := slice rootSeed 0 (lambda / 8) in
  let! nodes := aset nodes 0 seed in
  expand_seeds lambda iv nodes.

(** vc.h:17-22 *)
Record vec_com := mkVecCom {
  vc_h : bytes; vc_k : list bytes; vc_com : list bytes; vc_sd : list bytes }.

(** vc.h:24-29; [s] and [com] are malloc'd and reused, cells not written yet are [None] *)
Record vec_com_rec := mkVecComRec {
  vr_h : bytes; vr_k : list bytes; vr_com : list (option bytes); vr_s : list (option bytes) }.

Section Xof.
Variable xof : N -> bytes -> N -> bytes.

(** vc.c:143-147: seed and commitment of one leaf *)
Definition leaf_h0 (lambda : N) (node iv : bytes) : bytes * bytes :=
  H0_final xof (H_update (H_update (H_init lambda) node) iv) (lambda / 8) (lambda / 8 * 2).

(** vc.c:127-139: four leaves at once *)
Definition leaf_h0_x4 (lambda : N) (n0 n1 n2 n3 iv : bytes) : list (bytes * bytes) :=
  H0_x4_final xof (H0_x4_update (H0_x4_update (H0_x4_init lambda) n0 n1 n2 n3) iv iv iv iv)
    (lambda / 8) (lambda / 8 * 2).

(** vc.c:111-164; the arrays sd and com are written in increasing index order, the model
    accumulates the pairs (sd_i, com_i) and checks the index of each write *)
Definition vector_commitment (lambda : N) (rootKey iv : bytes) (depth : N) : res vec_com :=
  let! numVoleInstances := one_shl depth in
  let! nodes := generate_seeds lambda rootKey iv depth in
  let numLeaves := N.shiftl 1 depth in
  let base_index := lenN nodes - numLeaves in
  let! iv16 := slice iv 0 16 in
  let fuel := S (N.to_nat numVoleInstances) in
  let! r := for_while fuel (fun i => i <? numVoleInstances / 4 * 4) 4
    (fun acc i =>
       let! n0 := aget nodes (base_index + i) in
       let! n1 := aget nodes (base_index + i + 1) in
       let! n2 := aget nodes (base_index + i + 2) in
       let! n3 := aget nodes (base_index + i + 3) in
       let! _ := guard (lenN acc =? i) in
       Ok (acc ++ leaf_h0_x4 lambda n0 n1 n2 n3 iv16)) 0 [] in
  let! r := for_while fuel (fun i => i <? numVoleInstances) 1
    (fun acc i =>
       let! n := aget nodes (base_index + i) in
       let! _ := guard (lenN acc =? i) in
       Ok (acc ++ [leaf_h0 lambda n iv16])) (fst r) (snd r) in
  let leaves := snd r in
  let! h1_ctx := foldM (fun ctx j =>
                          let! c := aget leaves j in
                          Ok (H_update ctx (snd c))) (Nrange numVoleInstances) (H_init lambda) in
  Ok (mkVecCom (H1_final xof h1_ctx (lambda / 8 * 2)) nodes (map snd leaves) (map fst leaves)).

(** !x on a C integer *)
Definition lnot (x : N) : N := if x =? 0 then 1 else 0.

(** vc.c:173-177, one iteration; state (a, cop); cop is written in increasing order *)
Definition open_step (k : list bytes) (b : bytes) (depth : N) (s : N * bytes) (i : N)
  : res (N * bytes) :=
  let '(a, cop) := s in
  let! bi := aget b (depth - 1 - i) in
  let! idx := getNodeIndex (i + 1) (2 * a + lnot bi) in
  let! n := aget k idx in
  Ok (2 * a + bi, cop ++ n).

(** vc.c:166-181: (cop, com_j) *)
Definition vector_open (k com : list bytes) (b : bytes) (depth : N) : res (bytes * bytes) :=
  let! leafIndex := NumRec depth b in
  let! s := foldM (open_step k b depth) (Nrange depth) (0, []) in
  let! com_j := aget com leafIndex in
  Ok (snd s, com_j).

(** vc.c:201-209, one iteration of the inner loop: the children of node (i-1, j) *)
Definition rec_expand (lambda : N) (iv : bytes) (i a : N) (k : list bytes) (j : N)
  : res (list bytes) :=
  if j =? a then Ok k
  else
    let! src := getNodeIndex (i - 1) j in
    let! n := aget k src in
    let! _ := guard (lambda / 8 * 2 <=? 2 * MAX_LAMBDA_BYTES) in
    let! out := prg n iv lambda (lambda / 8 * 2) in
    let! l := getNodeIndex i (2 * j) in
    let! k := aset k l (takeN (lambda / 8) out) in
    let! r := getNodeIndex i (2 * j + 1) in
    aset k r (dropN (lambda / 8) out).

(** vc.c:193-212, one level; state (a, k) *)
Definition rec_level (lambda : N) (iv cop b : bytes) (depth : N) (s : N * list bytes) (i : N)
  : res (N * list bytes) :=
  let '(a, k) := s in
  let! bi := aget b (depth - i) in
  let! sib := getNodeIndex i (2 * a + lnot bi) in
  let! c := slice cop (lambda / 8 * (i - 1)) (lambda / 8) in
  let! k := aset k sib c in
  let! path := getNodeIndex i (2 * a + bi) in
  let! k := aset k path (zeros (lambda / 8)) in
  let! current_depth := one_shl (i - 1) in
  let! k := foldM (rec_expand lambda iv i a) (Nrange current_depth) k in
  Ok (a * 2 + bi, k).

(** state of the leaf loops: (s, com) *)
Definition rec_store (st : list (option bytes) * list (option bytes)) (j : N) (v : bytes * bytes)
  : res (list (option bytes) * list (option bytes)) :=
  let! s := aset (fst st) j (Some (fst v)) in
  let! com := aset (snd st) j (Some (snd v)) in
  Ok (s, com).

(** vc.c:231-236, 242-247, 269-275: one leaf *)
Definition rec_leaf (lambda : N) (iv : bytes) (k : list bytes) (depth : N)
    (st : list (option bytes) * list (option bytes)) (j : N)
  : res (list (option bytes) * list (option bytes)) :=
  let! i := getNodeIndex depth j in
  let! n := aget k i in
  rec_store st j (leaf_h0 lambda n iv).

(** vc.c:217-228, 251-262: four leaves *)
Definition rec_leaf_x4 (lambda : N) (iv : bytes) (k : list bytes) (depth : N)
    (st : list (option bytes) * list (option bytes)) (j : N)
  : res (list (option bytes) * list (option bytes)) :=
  let! i0 := getNodeIndex depth j in
  let! i1 := getNodeIndex depth (j + 1) in
  let! i2 := getNodeIndex depth (j + 2) in
  let! i3 := getNodeIndex depth (j + 3) in
  let! n0 := aget k i0 in
  let! n1 := aget k i1 in
  let! n2 := aget k i2 in
  let! n3 := aget k i3 in
  let out := leaf_h0_x4 lambda n0 n1 n2 n3 iv in
  let! v0 := aget out 0 in
  let! v1 := aget out 1 in
  let! v2 := aget out 2 in
  let! v3 := aget out 3 in
  let! st := rec_store st j v0 in
  let! st := rec_store st (j + 1) v1 in
  let! st := rec_store st (j + 2) v2 in
  rec_store st (j + 3) v3.

(** vc.c:215-276: the five loops over the leaves *)
Definition rec_leaves (lambda : N) (iv : bytes) (k : list bytes) (depth leafIndex numV : N)
    (st : list (option bytes) * list (option bytes))
  : res (list (option bytes) * list (option bytes)) :=
  let fuel := S (N.to_nat numV) in
  let one := rec_leaf lambda iv k depth in
  let four := rec_leaf_x4 lambda iv k depth in
  let! r := for_while fuel (fun j => j <? leafIndex / 4 * 4) 4 four 0 st in
  let! r := for_while fuel (fun j => j <? leafIndex) 1 one (fst r) (snd r) in
  let j := fst r + 1 in
  let! r := for_while fuel (fun j => (j <? numV) && negb (j mod 4 =? 0)) 1 one j (snd r) in
  let! r := for_while fuel (fun j => j <? numV / 4 * 4) 4 four (fst r) (snd r) in
  let! r := for_while fuel (fun j => j <? numV) 1 one (fst r) (snd r) in
  Ok (snd r).

(** vc.c:183-284; [vr] is the caller's structure (its buffers are overwritten) *)
Definition vector_reconstruction (lambda : N) (iv cop com_j b : bytes) (depth : N)
    (vr : vec_com_rec) : res vec_com_rec :=
  let! numV := one_shl depth in
  let! leafIndex := NumRec depth b in
  let! s := foldM (rec_level lambda iv cop b depth) (Nfromto 1 (depth + 1)) (0, vr_k vr) in
  let k := snd s in
  let! iv16 := slice iv 0 16 in
  let! st := rec_leaves lambda iv16 k depth leafIndex numV (vr_s vr, vr_com vr) in
  let '(sd, com) := st in
  let! cj := slice com_j 0 (lambda / 8 * 2) in
  let! com := aset com leafIndex (Some cj) in
  let! h1_ctx := foldM (fun ctx j => let! c := ginit com j in Ok (H_update ctx c))
                       (Nrange numV) (H_init lambda) in
  Ok (mkVecComRec (H1_final xof h1_ctx (lambda / 8 * 2)) k com sd).

(** the buffers a caller allocates for reconstructions up to [maxdepth]
    (vole.c:152-156; vc.c:291-295 with maxdepth = depth) *)
Definition vec_com_rec_alloc (lambda maxdepth : N) : res vec_com_rec :=
  let! n := getBinaryTreeNodeCount maxdepth in
  let! m := one_shl maxdepth in
  Ok (mkVecComRec [] (repeat (zeros (lambda / 8)) (N.to_nat n))
        (repeat None (N.to_nat m)) (repeat None (N.to_nat m))).

(** equality of byte strings (memcmp == 0) *)
Fixpoint bytes_eqb (a b : bytes) : bool :=
  match a, b with
  | [], [] => true
  | x :: a', y :: b' => (x =? y) && bytes_eqb a' b'
  | _, _ => false
  end.

(** vc.c:286-316 (compiled for the tests only): the reconstruction, if the hash matches *)
Definition vector_verify (lambda : N) (iv pdec com_j b : bytes) (depth : N) (vecComH : bytes)
  : res (option vec_com_rec) :=
  let! vr := vec_com_rec_alloc lambda depth in
  let! vr := vector_reconstruction lambda iv pdec com_j b depth vr in
  let! h := slice vecComH 0 (lambda / 8 * 2) in
  Ok (if bytes_eqb h (vr_h vr) then Some vr else None).

End Xof.
