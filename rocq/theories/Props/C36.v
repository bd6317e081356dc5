(** C36: clearing a private key; comparing without early exit. *)
From Verif.Model Require Import Api.
From Verif.Proof Require Import ParamProps.

(** exactly the first PRIVATE_KEY_SIZE bytes become zero *)
Theorem C36_clear_private_key : forall i buf, sk_size i <= lenN buf ->
  clear_private_key i (Some buf) =
  Ok (repeat 0 (N.to_nat (sk_size i)) ++ skipn (N.to_nat (sk_size i)) buf).
Proof. exact clear_private_key_correct. Qed.
Print Assumptions C36_clear_private_key.

Example C36_clear_case : sk_size FAEST_128S <= lenN (repeat 7 34) /\
  clear_private_key FAEST_128S (Some (repeat 7 34)) = Ok (repeat 0 32 ++ [7; 7]).
Proof. split; [vm_compute; discriminate|reflexivity]. Qed.

(** the comparison returns 0 iff the two ranges are equal *)
Theorem C36_bcmp : forall a b len, len <= lenN a -> len <= lenN b ->
  exists d, timingsafe_bcmp a b len = Ok d /\
            (d = 0 <-> firstn (N.to_nat len) a = firstn (N.to_nat len) b).
Proof. exact timingsafe_bcmp_correct. Qed.
Print Assumptions C36_bcmp.

Example C36_bcmp_case : timingsafe_bcmp [1; 2; 3] [1; 2; 4] 2 = Ok 0 /\
  timingsafe_bcmp [1; 2; 3] [1; 2; 4] 3 = Ok 7.
Proof. split; reflexivity. Qed.

(** its memory accesses do not depend on the contents: it accesses every index below len, in
    order, whatever the bytes are; so it is defined exactly when both buffers have len bytes *)
Theorem C36_bcmp_defined : forall a b len,
  (exists d, timingsafe_bcmp a b len = Ok d) <-> (len <= lenN a /\ len <= lenN b \/ len = 0).
Proof. exact timingsafe_bcmp_defined. Qed.
Print Assumptions C36_bcmp_defined.
