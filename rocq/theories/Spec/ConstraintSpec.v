(** What a witness claims: the inputs and outputs of the S-boxes of the one-way function.

    A witness consists of the key, the words of the key schedule that an S-box enters (word i when
    Nk divides i and, for Nk > 6, when i = 4 modulo Nk), and for every block and every round but the
    last the state after ShiftRows.  The other words and states are linear in these. *)
From Verif.Spec Require Import AesSpec.

Definition nums (a b : N) : list N := map N.of_nat (seq (N.to_nat a) (N.to_nat (b - a))).
Definition piece (s : list N) (off len : N) : list N := firstn (N.to_nat len) (skipn (N.to_nat off) s).

(** the words of the key schedule that an S-box enters *)
Definition is_sub (nk i : N) : bool := (i mod nk =? 0) || ((6 <? nk) && (i mod nk =? 4)).
Definition subs (R : rijndael) : list N := filter (is_sub (Nk R)) (nums (Nk R) (Nb R * (Nr R + 1))).

(** the key schedule claimed by a witness: [ws] the words so far, [rest] the unread part *)
Fixpoint claimed_words (nk : N) (steps : nat) (ws : list (list N)) (rest : list N) : list (list N) :=
  match steps with
  | O => ws
  | S n =>
      let i := N.of_nat (length ws) in
      if is_sub nk i then claimed_words nk n (ws ++ [firstn 4 rest]) (skipn 4 rest)
      else claimed_words nk n (ws ++ [xor_words (at_ [] ws (i - nk)) (at_ [] ws (i - 1))]) rest
  end.
Definition schedule (R : rijndael) (w : list N) : list (list N) :=
  claimed_words (Nk R) (N.to_nat (Nb R * (Nr R + 1) - Nk R)) (map (key_word w) (nums 0 (Nk R)))
                (skipn (N.to_nat (4 * Nk R)) w).

(** (input, output) of the S-boxes of the key schedule [ws], four for every word in [subs] *)
Definition key_pairs (R : rijndael) (ws : list (list N)) : list (N * N) :=
  flat_map (fun i =>
    let prev := at_ [] ws (i - 1) in
    let diff := xor_words (at_ [] ws i) (at_ [] ws (i - Nk R)) in
    if i mod Nk R =? 0 then combine (RotWord prev) (xor_words diff (Rcon (i / Nk R)))
    else combine prev diff) (subs R).

(** (input, output) of the S-boxes of one encryption of [inp] to [out] with round keys [ws];
    [wit] holds the states after ShiftRows *)
Definition InvShiftRows (R : rijndael) (s : cstate) : cstate :=
  fun r c => s r ((c + (Nb R - shift_offset R r)) mod Nb R).
Definition state_in (R : rijndael) (ws : list (list N)) (inp wit : list N) (n : N) : cstate :=
  if n =? 0 then AddRoundKey R ws 0 (load inp)
  else AddRoundKey R ws n (MixColumns (load (piece wit (4 * Nb R * (n - 1)) (4 * Nb R)))).
Definition state_out (R : rijndael) (ws : list (list N)) (wit out : list N) (n : N) : cstate :=
  InvShiftRows R (if n <? Nr R - 1 then load (piece wit (4 * Nb R * n) (4 * Nb R))
                  else AddRoundKey R ws (Nr R) (load out)).
Definition enc_pairs (R : rijndael) (ws : list (list N)) (inp wit out : list N) : list (N * N) :=
  flat_map (fun n =>
    flat_map (fun c =>
      map (fun r => (state_in R ws inp wit n r c, state_out R ws wit out n r c)) (nums 0 4))
      (nums 0 (Nb R))) (nums 0 (Nr R)).

(** a pair is right: the S-box, applied to a nonzero byte *)
Definition right (xy : N * N) : Prop := fst xy <> 0 /\ snd xy = SBOX (fst xy).
