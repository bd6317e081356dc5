(** The replacements for compiler and library functions in compat.h, compat.c and endian_compat.h, and the code that
    depends on the byte order of the target (fields.h, hash_shake.h).  Every branch that the
    preprocessor leaves to the program itself, not to a compiler builtin or a library, is here. *)
From Verif.Model Require Export Base Aes FaestAes Limbs.

(** conversions to size_t / uintptr_t / uint64_t and to uint32_t / unsigned int *)
Definition sz (x : N) : N := x mod 2 ^ 64.
Definition ui (x : N) : N := x mod 2 ^ 32.
(** a - b of an unsigned type of [n] bits *)
Definition usub (n a b : N) : N := (a + 2 ^ n - b) mod 2 ^ n.

(** compat.h:114-117 sub_overflow_size_t(x, y, diff): (result, *diff) *)
Definition sub_overflow_size_t (x y : N) : bool * N := (x <? y, usub 64 x y).

(** compat.h:133-137 rotl8 (139-143 rotr8 is in FaestAes.v, with (-c) & mask written (8 - c) & mask; here as
    in the code) *)
Definition rotl8 (n c : N) : N :=
  let c := N.land c 7 in
  N.lor (N.shiftl n c) (N.shiftr n (N.land (usub 32 0 c) 7)) mod 256.
Definition rotr8_c (n c : N) : N :=
  let c := N.land c 7 in
  N.lor (N.shiftr n c) (N.shiftl n (N.land (usub 32 0 c) 7)) mod 256.

(** compat.h:166-191 clz *)
Definition clz (x : N) : N :=
  if x =? 0 then 32
  else
    let n := 1 in
    let '(n, x) := if N.shiftr x 16 =? 0 then (n + 16, ui (N.shiftl x 16)) else (n, x) in
    let '(n, x) := if N.shiftr x 24 =? 0 then (n + 8, ui (N.shiftl x 8)) else (n, x) in
    let '(n, x) := if N.shiftr x 28 =? 0 then (n + 4, ui (N.shiftl x 4)) else (n, x) in
    let '(n, x) := if N.shiftr x 30 =? 0 then (n + 2, ui (N.shiftl x 2)) else (n, x) in
    usub 32 n (N.shiftr x 31).

(** compat.h:194-199 ceil_log2 *)
Definition ceil_log2 (x : N) : N := if x =? 0 then 0 else usub 32 32 (clz (usub 32 x 1)).

(** endian_compat.h:22-24, 26-29, 31-36 *)
Definition bswap16 (x : N) : N :=
  N.lor (N.shiftr (N.land x 0xff00) 8) (N.shiftl (N.land x 0xff) 8).
Definition bswap32 (x : N) : N :=
  N.lor (N.lor (N.lor (N.shiftr (N.land x 0xff000000) 24) (N.shiftr (N.land x 0xff0000) 8))
               (N.shiftl (N.land x 0xff00) 8))
        (N.shiftl (N.land x 0xff) 24).
Definition bswap64 (x : N) : N :=
  N.lor (N.lor (N.lor (N.lor (N.lor (N.lor (N.lor
    (N.shiftr (N.land x 0xff00000000000000) 56) (N.shiftr (N.land x 0x00ff000000000000) 40))
    (N.shiftr (N.land x 0x0000ff0000000000) 24)) (N.shiftr (N.land x 0x000000ff00000000) 8))
    (N.shiftl (N.land x 0x00000000ff000000) 8)) (N.shiftl (N.land x 0x0000000000ff0000) 24))
    (N.shiftl (N.land x 0x000000000000ff00) 40)) (N.shiftl (N.land x 0x00000000000000ff) 56).

(** endian_compat.h:151-182: byte order of the target; htoleX and leXtoh are the same function *)
Inductive endian := LittleEndian | BigEndian.
Definition le16 (e : endian) (x : N) : N := match e with LittleEndian => x | BigEndian => bswap16 x end.
Definition le32 (e : endian) (x : N) : N := match e with LittleEndian => x | BigEndian => bswap32 x end.
Definition le64 (e : endian) (x : N) : N := match e with LittleEndian => x | BigEndian => bswap64 x end.
(** ... and htobeX, beXtoh *)
Definition be64 (e : endian) (x : N) : N := match e with LittleEndian => bswap64 x | BigEndian => x end.

(** the bytes of an unsigned integer of [n] bytes in memory, and its value *)
Definition mem_of (e : endian) (n : nat) (x : N) : bytes :=
  match e with LittleEndian => le_bytes n x | BigEndian => rev (le_bytes n x) end.
Definition val_of (e : endian) (b : bytes) : N :=
  match e with LittleEndian => le_val b | BigEndian => le_val (rev b) end.

(** fields.h:106-113 bf64_load, 115-120 bf64_store *)
Definition bf64_load_on (e : endian) (src : bytes) (off : N) : res N :=
  let! s := slice src off 8 in
  let ret := val_of e s in
  Ok (match e with LittleEndian => ret | BigEndian => le64 e ret end).
Definition bf64_store_on (e : endian) (src : N) : bytes :=
  let src := match e with LittleEndian => src | BigEndian => le64 e src end in
  mem_of e 8 src.

(** fields.h:144-155, 220-234, 299-310 bfN_load; one memcpy on little-endian targets, a loop over the
    words on big-endian ones *)
Definition words_load_on (e : endian) (b : build) (n : N) (src : bytes) (off : N) : res bf :=
  let! ws :=
    (match e with
     | LittleEndian =>
         let! s := slice src off (n / 8) in
         Ok (map (fun i => val_of e (takeN 8 (dropN (8 * i) s))) (Nrange (n / 64)))
     | BigEndian =>
         mapM (fun i =>
                 let! s := slice src (off + 8 * i) 8 in
                 Ok (le64 e (val_of e s))) (Nrange (n / 64))
     end) in
  Ok (match b with Words => ws | Vectors => if n =? 192 then ws ++ [0] else ws end).

(** fields.h:157-166, 236-245, 312-321 bfN_store *)
Definition words_store_on (e : endian) (n : N) (v : bf) : res bytes :=
  match e with
  | LittleEndian => slice (flat_map (mem_of e 8) v) 0 (n / 8)
  | BigEndian =>
      let! bs := mapM (fun i => let! w := aget v i in Ok (mem_of e 8 (le64 e w))) (Nrange (n / 64)) in
      Ok (concat bs)
  end.

(** hash_shake.h:235-238 hash_update_uint16_le (358-361, 363-371 for four): the bytes hashed *)
Definition uint16_le_on (e : endian) (data : N) : bytes := mem_of e 2 (le16 e data).

(** compat.c:45-94 faest_aligned_alloc.  [malloc n]: the address of the block of [n] bytes, or None for NULL;
    addresses are numbers.  Result: NULL with the blocks freed, or the address together with the
    size asked from malloc and the address and value of the byte written. *)
Inductive alloc_result := AllocNull (freed : list N) | AllocPtr (ptr request cell value : N).
(** the check at compat.c:47-50 *)
Definition alloc_args_ok (alignment size : N) : bool :=
  (N.land alignment (usub 64 alignment 1) =? 0) && (N.land size (usub 64 alignment 1) =? 0).
(** compat.c:74-92, systems with none of the allocation functions *)
Definition aligned_alloc_own (malloc : N -> option N) (alignment size : N) : alloc_result :=
  if negb (alloc_args_ok alignment size) then AllocNull []
  else if size =? 0 then AllocNull []
  else
    let offset := sz (usub 64 alignment 1 + 1) in
    let request := sz (size + offset) in
    match malloc request with
    | None => AllocNull []
    | Some buffer =>
        let ptr := N.land (sz (buffer + offset)) (2 ^ 64 - 1 - usub 64 alignment 1) in
        let diff := (Z.of_N ptr - Z.of_N buffer)%Z in
        if (255 <? diff)%Z then AllocNull [buffer]
        else AllocPtr ptr request (usub 64 ptr 1) (Z.to_N (diff mod 256))
    end.
(** compat.c:104-107 faest_aligned_free(ptr) there: the address passed to free, with [cell] the byte at ptr - 1 *)
Definition aligned_free_own (ptr cell : N) : N := usub 64 ptr cell.
(** compat.c:53-62, systems with posix_memalign: the alignment and size passed to it, None if it is not
    called *)
Definition posix_memalign_args (alignment size : N) : option (N * N) :=
  if negb (alloc_args_ok alignment size) then None
  else if alignment <? 8 then Some (8, N.land (sz (size + 8 - 1)) (2 ^ 64 - 8))
  else Some (alignment, size).
