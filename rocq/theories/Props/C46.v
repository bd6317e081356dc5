(** C46: rand_bytes reports success only when the buffer is filled by the operating system. *)
From Verif.Model Require Import Random.
From Verif.Spec Require Import RandomSpec.
From Verif.Proof Require Import BaseProof RandomProof.

(** /dev/urandom.  For every history of results of open, ioctl and read: success means that open
    succeeded after interruptions only, that the [len] bytes of the buffer are those read delivered, in order, with no byte
    left out or written elsewhere, and that the descriptor was closed once, at the end. *)
Theorem C46_success : forall mem off len opens ioctl_ok reads mem' trace,
  off + len <= lenN mem -> obeys len reads ->
  rand_bytes_urandom mem off len opens ioctl_ok reads = Ok (Returned 0 mem' trace) ->
  exists n fd rest used rest',
    opens = repeat (OpenError EINTR) n ++ OpenFd fd :: rest /\ ioctl_ok = true /\
    reads = used ++ rest' /\ lenN (delivered used) = len /\
    mem' = takeN off mem ++ delivered used ++ dropN (off + len) mem /\ closed fd trace.
Proof. exact urandom_success. Qed.
Print Assumptions C46_success.

(** any other result is -1, only after a failing call that is not a request to retry, with the descriptor
    closed if it was opened, and with nothing written outside the buffer *)
Theorem C46_failure : forall mem off len opens ioctl_ok reads code mem' trace,
  off + len <= lenN mem -> obeys len reads ->
  rand_bytes_urandom mem off len opens ioctl_ok reads = Ok (Returned code mem' trace) -> code <> 0%Z ->
  code = (-1)%Z /\ outside off len mem mem' /\
  ((exists n e rest, opens = repeat (OpenError EINTR) n ++ OpenError e :: rest /\ e <> EINTR /\
      forall fd, ~ In (Close fd) trace) \/
   (exists n fd rest, opens = repeat (OpenError EINTR) n ++ OpenFd fd :: rest /\ closed fd trace /\
      (ioctl_ok = false \/
       exists before rest', reads = before ++ IoError EOTHER :: rest' /\ lenN (delivered before) < len))).
Proof. exact urandom_failure. Qed.
Print Assumptions C46_failure.

(** interruptions and short reads do not prevent success *)
Theorem C46_returns : forall mem off len n fd rest used rest',
  off + len <= lenN mem -> obeys len (used ++ rest') ->
  Forall (fun r => r <> IoError EOTHER) used -> lenN (delivered used) = len ->
  exists mem' trace,
    rand_bytes_urandom mem off len (repeat (OpenError EINTR) n ++ OpenFd fd :: rest) true (used ++ rest') =
    Ok (Returned 0 mem' trace).
Proof. exact urandom_returns. Qed.
Print Assumptions C46_returns.

(** the call is never undefined; it does not return only while every open is interrupted, or while read neither
    fails nor has delivered enough bytes *)
Theorem C46_waits : forall mem off len opens ioctl_ok reads,
  off + len <= lenN mem -> obeys len reads ->
  exists o, rand_bytes_urandom mem off len opens ioctl_ok reads = Ok o /\
    forall trace, o = Waiting trace ->
      (exists n, opens = repeat (OpenError EINTR) n) \/
      (ioctl_ok = true /\ Forall (fun r => r <> IoError EOTHER) reads /\ lenN (delivered reads) < len).
Proof. exact urandom_waits. Qed.
Print Assumptions C46_waits.

(** getrandom: 0 exactly when the whole buffer was filled, else -1 *)
Theorem C46_getrandom : forall mem off len r,
  off + len <= lenN mem -> (forall b, r = IoBytes b -> lenN b <= len) ->
  exists code mem', rand_bytes_getrandom mem off len r = Ok (code, mem') /\ outside off len mem mem' /\
    (code = 0 \/ code = -1)%Z /\
    (code = 0%Z <-> exists b, r = IoBytes b /\ lenN b = len) /\
    (forall b, r = IoBytes b -> lenN b = len -> mem' = takeN off mem ++ b ++ dropN (off + len) mem).
Proof. exact getrandom_ok. Qed.
Print Assumptions C46_getrandom.

(** an interrupted open, a short read, an interruption, an empty read, the rest; a failing read *)
Example C46_case :
  rand_bytes_urandom [9; 9; 9; 9; 9; 9] 1 4 [OpenError EINTR; OpenFd 5] true
    [IoBytes [1; 2]; IoError EINTR; IoBytes []; IoBytes [3; 4]; IoBytes [7]] =
  Ok (Returned 0 [9; 1; 2; 3; 4; 9] [Open; Open; Ioctl 5; Read 5 4; Read 5 2; Read 5 2; Read 5 2; Close 5]).
Proof. reflexivity. Qed.
Example C46_case_hypothesis : obeys 4 [IoBytes [1; 2]; IoError EINTR; IoBytes []; IoBytes [3; 4]].
Proof. intros [|[|[|[|[|k]]]]]; vm_compute; discriminate. Qed.
Example C46_case_failure :
  rand_bytes_urandom [9; 9; 9; 9; 9; 9] 1 4 [OpenFd 5] true [IoBytes [1]; IoError EOTHER] =
  Ok (Returned (-1) [9; 1; 9; 9; 9; 9] [Open; Ioctl 5; Read 5 4; Read 5 3; Close 5]).
Proof. reflexivity. Qed.
