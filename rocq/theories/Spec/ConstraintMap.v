(** The S-boxes of the one-way function of each parameter set. *)
From Verif.Model Require Import Params Fields.
From Verif.Spec Require Import AesSpec ConstraintSpec UHashSpec UHashMap.

(** cipher of a parameter set, number of blocks, and whether it is an Even-Mansour set *)
Definition cipher_of (i : paramid) : rijndael :=
  match i with
  | FAEST_128S | FAEST_128F | FAEST_EM_128S | FAEST_EM_128F => AES128
  | FAEST_192S | FAEST_192F => AES192
  | FAEST_256S | FAEST_256F => AES256
  | FAEST_EM_192S | FAEST_EM_192F => RIJNDAEL192
  | FAEST_EM_256S | FAEST_EM_256F => RIJNDAEL256
  end.
Definition blocks_of (i : paramid) : N :=
  match i with FAEST_192S | FAEST_192F | FAEST_256S | FAEST_256F => 2 | _ => 1 end.
Definition is_em (i : paramid) : bool :=
  match i with
  | FAEST_EM_128S | FAEST_EM_128F | FAEST_EM_192S | FAEST_EM_192F | FAEST_EM_256S | FAEST_EM_256F => true
  | _ => false
  end.

(** bytes of the witness: for the key schedule (with the key), and for one encryption *)
Definition key_part (R : rijndael) : N := 4 * Nk R + 4 * N.of_nat (length (subs R)).
Definition enc_part (R : rijndael) : N := 4 * Nb R * (Nr R - 1).

(** (input, output) of every S-box, as claimed by witness [w], for input and output of the OWF.
    Even-Mansour: the public input is the cipher key; the secret key [k] is encrypted, to out + k. *)
Definition claims (i : paramid) (w inp out : list N) : list (N * N) :=
  let R := cipher_of i in
  let bl := 4 * Nb R in
  if is_em i then
    let k := piece w 0 bl in
    enc_pairs R (KeyExpansion R inp) k (piece w bl (enc_part R)) (xor_words (piece out 0 bl) k)
  else
    let ws := schedule R w in
    key_pairs R ws ++
    flat_map (fun b => enc_pairs R ws (piece inp (bl * b) bl) (piece w (key_part R + b * enc_part R) (enc_part R))
                                 (piece out (bl * b) bl)) (nums 0 (blocks_of i)).

(** the constraint of a pair (x, y), in the field of the security level: the input times the
    inverse affine map of the output is one.  A byte is embedded by sending X to the constant
    [alpha] of the field (that this is a ring homomorphism is property C21). *)
Definition InvAffine (y : N) : N :=
  let bit i := N.testbit y (i mod 8) in
  fold_right N.lxor 5
    (map (fun i => if xorb (xorb (bit (i + 2)) (bit (i + 5))) (bit (i + 7)) then 2 ^ i else 0) (nums 0 8)).
Definition alpha (F : field) : N := nth 0 (f_alpha F) 0.
Definition embed (F : field) (x : N) : N :=
  fold_right N.lxor 0 (map (fun i => if N.testbit x i then gpow F (alpha F) i else 0) (nums 0 8)).
Definition factors (F : field) (xy : N * N) : N * N := (embed F (fst xy), embed F (InvAffine (snd xy))).
(** what is missing *)
Definition defect (F : field) (xy : N * N) : N :=
  N.lxor (bf_mul F (fst (factors F xy)) (snd (factors F xy))) 1.

(** the field of a parameter set *)
Definition F_of (i : paramid) : field :=
  match p_lambda (param_of i) with 128 => F128 | 192 => F192 | _ => F256 end.
