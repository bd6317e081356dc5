(** Common vocabulary of the model: outcomes, checked arrays, loops, bytes.

    Nothing here models a particular C function except where a comment says so;
    it fixes how C constructs are rendered:
    - a C computation either finishes normally with a value ([Ok]) or performs
      undefined behaviour ([UB]): out-of-bounds access, read of an uninitialised
      cell, shift outside the defined range;
    - an array is a [list]; pointers into arrays are (list, offset) pairs;
    - a [uint8_t] is an [N] below 256; a [uint8_t] array is a [list N]. *)
From Coq Require Export List NArith ZArith Bool.
Export ListNotations.
#[global] Open Scope N_scope.

Inductive res (A : Type) : Type :=
| Ok (a : A)
| UB.
Arguments Ok {A} a.
Arguments UB {A}.

Definition bind {A B} (x : res A) (f : A -> res B) : res B :=
  match x with Ok a => f a | UB => UB end.

Notation "'let!' x ':=' e 'in' k" := (bind e (fun x => k))
  (at level 200, x pattern, e at level 100, k at level 200, right associativity).

Definition guard (b : bool) : res unit := if b then Ok tt else UB.

Notation byte := N (only parsing).
Notation bytes := (list N) (only parsing).

Definition lenN {A} (l : list A) : N := N.of_nat (length l).

(** [a; a+1; ...; a+n-1] *)
Fixpoint Nseq (a : N) (n : nat) : list N :=
  match n with
  | O => []
  | S n' => a :: Nseq (a + 1) n'
  end.

(** indices 0 .. n-1 of a C loop [for (i = 0; i < n; ++i)] *)
Definition Nrange (n : N) : list N := Nseq 0 (N.to_nat n).

(** indices a .. b-1 of a C loop [for (i = a; i < b; ++i)] *)
Definition Nfromto (a b : N) : list N := Nseq a (N.to_nat (b - a)).

(** a[i] *)
Definition aget {A} (l : list A) (i : N) : res A :=
  match nth_error l (N.to_nat i) with
  | Some x => Ok x
  | None => UB
  end.

Fixpoint upd {A} (l : list A) (i : nat) (x : A) : list A :=
  match l, i with
  | [], _ => []
  | _ :: l', O => x :: l'
  | y :: l', S i' => y :: upd l' i' x
  end.

(** a[i] = x *)
Definition aset {A} (l : list A) (i : N) (x : A) : res (list A) :=
  if i <? lenN l then Ok (upd l (N.to_nat i) x) else UB.

Definition takeN {A} (n : N) (l : list A) : list A := firstn (N.to_nat n) l.
Definition dropN {A} (n : N) (l : list A) : list A := skipn (N.to_nat n) l.

(** read of the [len] cells a[off] .. a[off+len-1], e.g. as source of memcpy *)
Definition slice {A} (l : list A) (off len : N) : res (list A) :=
  let s := takeN len (dropN off l) in
  if lenN s =? len then Ok s else UB.

(** memcpy(a + off, src, |src|) *)
Definition blit {A} (l : list A) (off : N) (src : list A) : res (list A) :=
  if off + lenN src <=? lenN l
  then Ok (takeN off l ++ src ++ dropN (off + lenN src) l)
  else UB.

(** cells that may be uninitialised: reading [None] is undefined behaviour *)
Definition ginit {A} (l : list (option A)) (i : N) : res A :=
  let! c := aget l i in
  match c with Some x => Ok x | None => UB end.

Fixpoint mapM {A B} (f : A -> res B) (l : list A) : res (list B) :=
  match l with
  | [] => Ok []
  | x :: l' =>
      let! y := f x in
      let! ys := mapM f l' in
      Ok (y :: ys)
  end.

Fixpoint foldM {S A} (f : S -> A -> res S) (l : list A) (s : S) : res S :=
  match l with
  | [] => Ok s
  | x :: l' => let! s' := f s x in foldM f l' s'
  end.

(** the array whose i-th cell is [f i], of length n *)
Definition tab {A} (n : N) (f : N -> A) : list A := map f (Nrange n).

Fixpoint zipw {A B C} (f : A -> B -> C) (a : list A) (b : list B) : list C :=
  match a, b with
  | x :: a', y :: b' => f x y :: zipw f a' b'
  | _, _ => []
  end.

(** n zero bytes (memset / calloc) *)
Definition zeros (n : N) : bytes := repeat 0 (N.to_nat n).

Definition byte_ok (b : N) : Prop := b < 256.
Definition bytes_ok (l : list N) : Prop := Forall byte_ok l.

(** b ? 1 : 0 *)
Definition b2n (b : bool) : N := if b then 1 else 0.

(** utils.h:30 [get_bit(value, index)] *)
Definition get_bit (value index : N) : N := N.land (N.shiftr value index) 1.

(** utils.h:32 [ptr_get_bit(value, index)] *)
Definition ptr_get_bit (v : bytes) (index : N) : res N :=
  let! b := aget v (index / 8) in
  Ok (N.land (N.shiftr b (index mod 8)) 1).

(** utils.h:17-21 [xor_u8_array(a, b, out, len)]: the [len] bytes written to out;
    the operands are the [len] bytes at a and at b (callers take the slices). *)
Definition xor_bytes (a b : bytes) : bytes := zipw N.lxor a b.

(** utils.h:23-29 [masked_xor_u8_array]: mask = -(mask_bit & 1) as uint8_t,
    i.e. 0xff or 0; out = a ^ (b & mask). *)
Definition masked_xor_bytes (a b : bytes) (mask_bit : N) : bytes :=
  let mask := if N.land mask_bit 1 =? 1 then 255 else 0 in
  zipw (fun x y => N.lxor x (N.land y mask)) a b.

(** little-endian value of a byte string *)
Fixpoint le_val (l : bytes) : N :=
  match l with
  | [] => 0
  | b :: l' => b + 256 * le_val l'
  end.

(** the [n] low bytes of x, little endian *)
Fixpoint le_bytes (n : nat) (x : N) : bytes :=
  match n with
  | O => []
  | S n' => x mod 256 :: le_bytes n' (x / 256)
  end.
