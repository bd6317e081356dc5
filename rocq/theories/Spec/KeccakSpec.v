(** FIPS 202: the KECCAK-p[1600, 24] permutation, the sponge construction and SHAKE, on bit strings.
    Transcribed from the standard (sections 3.1-3.4, 4, 5.1, 5.2, 6.2, B.1); section and algorithm
    numbers refer to it. *)
From Coq Require Export List NArith Bool.
Export ListNotations.
Open Scope N_scope.

Definition below (n : N) : list N := map N.of_nat (seq 0 (N.to_nat n)).
Definition bit (s : list bool) (n : N) : bool := nth (N.to_nat n) s false.

(** 3.1: a state array A[x, y, z], 0 <= x, y < 5, 0 <= z < w = 64 *)
Definition array : Type := N -> N -> N -> bool.
(** 3.1.2, 3.1.3 *)
Definition to_array (S : list bool) : array := fun x y z => bit S (64 * (5 * y + x) + z).
Definition to_string (A : array) : list bool :=
  map (fun n => A (n / 64 mod 5) (n / 320) (n mod 64)) (below 1600).

(** 3.2.1, Algorithm 1 *)
Definition theta (A : array) : array :=
  let C x z := xorb (xorb (xorb (xorb (A x 0 z) (A x 1 z)) (A x 2 z)) (A x 3 z)) (A x 4 z) in
  let D x z := xorb (C ((x + 4) mod 5) z) (C ((x + 1) mod 5) ((z + 63) mod 64)) in
  fun x y z => xorb (A x y z) (D x z).

(** 3.2.2, Algorithm 2: the lanes (1, 0), (0, 2), ... visited for t = 0 .. 23, lane number t being
    rotated by (t + 1)(t + 2) / 2; lane (0, 0) is not rotated *)
Fixpoint rho_lane (t : nat) : N * N :=
  match t with
  | O => (1, 0)
  | S t => let '(x, y) := rho_lane t in (y, (2 * x + 3 * y) mod 5)
  end.
Definition rho_offset (x y : N) : N :=
  match find (fun t => let '(u, v) := rho_lane t in (x =? u) && (y =? v)) (seq 0 24) with
  | Some t => (N.of_nat t + 1) * (N.of_nat t + 2) / 2
  | None => 0
  end.
Definition rho (A : array) : array :=
  fun x y z => A x y ((z + 64 - rho_offset x y mod 64) mod 64).

(** 3.2.3, Algorithm 3 *)
Definition pi (A : array) : array := fun x y z => A ((x + 3 * y) mod 5) x z.

(** 3.2.4, Algorithm 4 *)
Definition chi (A : array) : array :=
  fun x y z => xorb (A x y z) (negb (A ((x + 1) mod 5) y z) && A ((x + 2) mod 5) y z).

(** 3.2.5, Algorithms 5 and 6.  R is R[0] .. R[7]. *)
Definition rc_step (R : list bool) : list bool :=
  match R with
  | [r0; r1; r2; r3; r4; r5; r6; r7] =>
      (* R = 0 || R, with 9 bits; R[0], R[4], R[5], R[6] += R[8]; truncated to 8 *)
      [r7; r0; r1; r2; xorb r3 r7; xorb r4 r7; xorb r5 r7; r6]
  | _ => R
  end.
Definition rc (t : N) : bool :=
  if t mod 255 =? 0 then true
  else hd false (Nat.iter (N.to_nat (t mod 255)) rc_step [true; false; false; false; false; false; false; false]).
Definition RC (ir z : N) : bool :=
  existsb (fun j => (z =? 2 ^ j - 1) && rc (j + 7 * ir)) (below 7).
Definition iota (ir : N) (A : array) : array :=
  fun x y z => if (x =? 0) && (y =? 0) then xorb (A x y z) (RC ir z) else A x y z.

(** 3.3, Algorithm 7, and 3.4 *)
Definition Rnd (A : array) (ir : N) : array := iota ir (chi (pi (rho (theta A)))).
Definition keccak_f (S : list bool) : list bool :=
  fold_left (fun S ir => to_string (Rnd (to_array S) ir)) (below 24) S.

(** 5.1, Algorithm 9 *)
Definition pad10star1 (x m : N) : list bool :=
  let j := (x * (m + 2) - m - 2) mod x in true :: repeat false (N.to_nat j) ++ [true].

(** 4, Algorithm 8, for the permutation above and rate [r] *)
Definition xor_strings (a b : list bool) : list bool := map (fun p => xorb (fst p) (snd p)) (combine a b).
Definition zero_bits (n : N) : list bool := repeat false (N.to_nat n).
Definition substring (s : list bool) (off len : N) : list bool := firstn (N.to_nat len) (skipn (N.to_nat off) s).
Definition absorbed (r : N) (P : list bool) : list bool :=
  fold_left (fun S k => keccak_f (xor_strings S (substring P (k * r) r ++ zero_bits (1600 - r))))
            (below (N.of_nat (length P) / r)) (zero_bits 1600).
Definition squeezed (r : N) (S : list bool) (d : N) : list bool :=
  firstn (N.to_nat d)
    (concat (map (fun k => firstn (N.to_nat r) (Nat.iter (N.to_nat k) keccak_f S)) (below (d / r + 1)))).
Definition sponge_construction (r : N) (M : list bool) (d : N) : list bool :=
  squeezed r (absorbed r (M ++ pad10star1 r (N.of_nat (length M)))) d.

(** 5.2 and 6.2: KECCAK[c](M, d), SHAKE128 and SHAKE256 *)
Definition KECCAK (c : N) (M : list bool) (d : N) : list bool := sponge_construction (1600 - c) M d.
Definition SHAKE128 (M : list bool) (d : N) : list bool := KECCAK 256 (M ++ [true; true; true; true]) d.
Definition SHAKE256 (M : list bool) (d : N) : list bool := KECCAK 512 (M ++ [true; true; true; true]) d.

(** B.1: bit strings of byte strings: the least significant bit of a byte comes first *)
Definition bits_of_bytes (s : list N) : list bool := flat_map (fun b => map (N.testbit b) (below 8)) s.

(** the XOF of the library: SHAKE128 at level 128, else SHAKE256, [n] bytes of output: the byte
    string whose bits are those of the standard *)
Definition byte_of_bits (s : list bool) (k : N) : N :=
  fold_right (fun j acc => (if bit s (8 * k + j) then 2 ^ j else 0) + acc) 0 (below 8).
Definition shake (sec : N) (m : list N) (n : N) : list N :=
  let out := (if sec =? 128 then SHAKE128 else SHAKE256) (bits_of_bytes m) (8 * n) in
  map (byte_of_bits out) (below n).
