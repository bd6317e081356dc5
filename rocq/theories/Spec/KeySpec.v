(** Keys (FAEST v1, section 7.1): a private key is OWF input || OWF key, the public key is OWF
    input || OWF output.  A private key is valid if no S-box that depends on the OWF key is fed a
    zero byte. *)
From Verif.Model Require Import Base Params.
From Verif.Spec Require Import OwfSpec UHashSpec.

Section Keys.
Variable i : paramid.
Let h := owf_input_size i.
Definition sk_bytes : N := h + owf_key_size i.
Definition owf_input_of (sk : list N) : list N := sub sk 0 h.
Definition owf_key_of (sk : list N) : list N := sub sk h (owf_key_size i).
Definition valid_key (sk : list N) : Prop := ~ owf_zero i (owf_key_of sk) (owf_input_of sk).
Definition public_of (sk : list N) : list N := owf_input_of sk ++ owf_value i (owf_key_of sk) (owf_input_of sk).
End Keys.

(** the [n] bytes an optional pointer points to: NULL stands for no bytes *)
Definition given (ptr : option (list N)) (n : N) : list N :=
  match ptr with Some b => firstn (N.to_nat n) b | None => [] end.
(** a pointer and a length that go together *)
Definition readable (ptr : option (list N)) (n : N) : Prop :=
  match ptr with Some b => n <= lenN b | None => n = 0 end.
(** [mem] with the bytes [b] written from position [pos] on *)
Definition overwrite (mem : list N) (pos : N) (b : list N) : list N :=
  firstn (N.to_nat pos) mem ++ b ++ skipn (N.to_nat (pos + lenN b)) mem.

(** The random bytes key generation asks for: the result of call number [k] of the random source,
    which sees the previous contents of the buffer (a failing source may leave them there). *)
Fixpoint draw (os : N -> list N -> bool * list N) (old : list N) (k : nat) : list N :=
  match k with
  | O => snd (os 0 old)
  | S j => snd (os (N.of_nat k) (draw os old j))
  end.
(** it fills the buffer with bytes *)
Definition fills (os : N -> list N -> bool * list N) : Prop :=
  forall k old, Forall (fun b => b < 256) old ->
    length (snd (os k old)) = length old /\ Forall (fun b => b < 256) (snd (os k old)).
(** every call fails *)
Definition broken (os : N -> list N -> bool * list N) : Prop := forall k old, fst (os k old) = false.
