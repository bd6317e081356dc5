(** C47: the portable replacements and both byte orders. *)
From Verif.Model Require Import Compat.
From Verif.Proof Require Import BaseProof CompatProof AllocProof.

(** rotations of a byte, by any count *)
Theorem C47_rotations : forall n c i, n < 256 -> i < 8 ->
  N.testbit (rotl8 n c) ((i + c) mod 8) = N.testbit n i /\ rotl8 n c < 256 /\
  N.testbit (rotr8_c n c) i = N.testbit n ((i + c) mod 8) /\ rotr8_c n c = rotr8 n c.
Proof. exact rot_all. Qed.
Print Assumptions C47_rotations.

(** number of leading zeros of 32 bits; least power of two that is not smaller *)
Theorem C47_clz : forall x, x < 2 ^ 32 -> clz x = if x =? 0 then 32 else 31 - N.log2 x.
Proof. exact clz_ok. Qed.
Print Assumptions C47_clz.
Theorem C47_ceil_log2 : forall x, 0 < x < 2 ^ 32 ->
  x <= 2 ^ ceil_log2 x /\ forall j, x <= 2 ^ j -> ceil_log2 x <= j.
Proof. exact ceil_log2_least. Qed.
Print Assumptions C47_ceil_log2.

(** parity of the number of ones *)
Theorem C47_parity : forall n, n < 256 ->
  parity8 n = (fold_right (fun i a => N.b2n (N.testbit n i) + a) 0 [0; 1; 2; 3; 4; 5; 6; 7]) mod 2.
Proof. exact parity_ok. Qed.
Print Assumptions C47_parity.

(** checked subtraction *)
Theorem C47_sub_overflow : forall x y, x < 2 ^ 64 -> y < 2 ^ 64 ->
  sub_overflow_size_t x y = (x <? y, Z.to_N ((Z.of_N x - Z.of_N y) mod 2 ^ 64)).
Proof. exact sub_overflow_ok. Qed.
Print Assumptions C47_sub_overflow.

(** what is loaded from bytes and what is stored does not depend on the byte order of the machine: the first
    byte is the least significant one.  [words_load], [words_store] are those of C44. *)
Theorem C47_byte_order : forall e,
  (forall src off, Forall (fun b => b < 256) src -> off + 8 <= lenN src ->
     bf64_load_on e src off = Ok (le_val (takeN 8 (dropN off src)))) /\
  (forall w, w < 2 ^ 64 -> bf64_store_on e w = le_bytes 8 w) /\
  (forall b n src off, n mod 64 = 0 -> Forall (fun x => x < 256) src -> off + n / 8 <= lenN src ->
     words_load_on e b n src off = words_load b n src off) /\
  (forall n v, n mod 64 = 0 -> Forall (fun w => w < 2 ^ 64) v -> n / 64 <= lenN v ->
     words_store_on e n v = words_store n v) /\
  (forall x, x < 2 ^ 16 -> uint16_le_on e x = [x mod 256; x / 256]).
Proof.
  exact (fun e => conj (bf64_load_ok e) (conj (bf64_store_ok e) (conj (words_load_on_ok e)
    (conj (words_store_on_ok e) (mem_le16 e))))).
Qed.
Print Assumptions C47_byte_order.
Theorem C47_bswap :
  (forall x, x < 2 ^ 16 -> bswap16 x = le_val (rev (le_bytes 2 x))) /\
  (forall x, x < 2 ^ 32 -> bswap32 x = le_val (rev (le_bytes 4 x))) /\
  (forall x, x < 2 ^ 64 -> bswap64 x = le_val (rev (le_bytes 8 x))).
Proof. exact (conj bswap16_ok (conj bswap32_ok bswap64_ok)). Qed.
Print Assumptions C47_bswap.

(** aligned allocation where the system has none.  [malloc] is any function that, for the request made, returns
    a block inside the address space: the result is aligned, lies with its [size] bytes and the byte in front of
    it in that block, and faest_aligned_free gives exactly that block back.  For alignments above 255 the call may
    fail; the block is then freed. *)
Theorem C47_alloc : forall malloc k size block, k < 64 -> 0 < size -> size mod 2 ^ k = 0 -> size + 2 ^ k < 2 ^ 64 ->
  malloc (size + 2 ^ k) = Some block -> block + (size + 2 ^ k) <= 2 ^ 64 ->
  (255 < 2 ^ k /\ aligned_alloc_own malloc (2 ^ k) size = AllocNull [block]) \/
  exists ptr v, aligned_alloc_own malloc (2 ^ k) size = AllocPtr ptr (size + 2 ^ k) (ptr - 1) v /\
    ptr mod 2 ^ k = 0 /\ block < ptr /\ ptr + size <= block + (size + 2 ^ k) /\
    v < 256 /\ aligned_free_own ptr v = block.
Proof. exact own_ok. Qed.
Print Assumptions C47_alloc.
Theorem C47_alloc_null : forall malloc k size, k < 64 -> 0 < size -> size mod 2 ^ k = 0 -> size + 2 ^ k < 2 ^ 64 ->
  malloc (size + 2 ^ k) = None -> aligned_alloc_own malloc (2 ^ k) size = AllocNull [].
Proof. exact own_null. Qed.
Print Assumptions C47_alloc_null.
(** other alignments and sizes are refused *)
Theorem C47_alloc_rejects : forall malloc alignment size, alignment < 2 ^ 64 -> size < 2 ^ 64 ->
  (forall k, alignment = 2 ^ k -> size mod alignment <> 0) \/ size = 0 ->
  aligned_alloc_own malloc alignment size = AllocNull [].
Proof. exact own_rejects. Qed.
Print Assumptions C47_alloc_rejects.
(** without the bound on the size the request wraps around and the byte in front of the result is written outside
    the block *)
Theorem C47_alloc_refuted : exists malloc ptr request cell v block,
  malloc request = Some block /\ aligned_alloc_own malloc 16 (2 ^ 64 - 16) = AllocPtr ptr request cell v /\
  ~ (block <= cell < block + request).
Proof. exact own_wraps. Qed.
Print Assumptions C47_alloc_refuted.
(** with posix_memalign: its requirements (a power of two, multiple of sizeof(void * )) are met and the block is
    large enough *)
Theorem C47_posix : forall k size, k < 64 -> size mod 2 ^ k = 0 -> size + 8 <= 2 ^ 64 ->
  exists j size', posix_memalign_args (2 ^ k) size = Some (2 ^ j, size') /\
    3 <= j /\ k <= j /\ size' mod 2 ^ j = 0 /\ size <= size' /\ size' < size + 8.
Proof. exact posix_ok. Qed.
Print Assumptions C47_posix.
Theorem C47_posix_rejects : forall alignment size, alignment < 2 ^ 64 -> size < 2 ^ 64 -> 0 < size ->
  (forall k, alignment = 2 ^ k -> size mod alignment <> 0) -> posix_memalign_args alignment size = None.
Proof. exact posix_rejects. Qed.
Print Assumptions C47_posix_rejects.

Example C47_case :
  rotl8 0xc1 9 = 0x83 /\ rotr8 0xc1 9 = 0xe0 /\ clz 0x00010000 = 15 /\ clz 1 = 31 /\ ceil_log2 1025 = 11 /\ ceil_log2 1024 = 10 /\
  parity8 0x13 = 1 /\ bswap64 0x0102030405060708 = 0x0807060504030201 /\
  bf64_load_on BigEndian [0; 1; 2; 3; 4; 5; 6; 7; 8] 1 = Ok 0x0807060504030201 /\
  words_load_on BigEndian Vectors 192 (map N.of_nat (seq 0 24)) 0 = words_load_on LittleEndian Vectors 192 (map N.of_nat (seq 0 24)) 0 /\
  aligned_alloc_own (fun _ => Some 1001) 32 64 = AllocPtr 1024 96 1023 23 /\ aligned_free_own 1024 23 = 1001.
Proof. vm_compute. repeat split. Qed.
