(** randomness.c: rand_bytes over the system calls it makes.

    The operating system is any history of results: the results of the successive calls of open, the result of
    ioctl, those of the successive calls of read.  When the program makes a call the history has no
    result for, the call has not returned yet ([Waiting]).  The buffer is the [len] bytes at [off] in an object
    [mem], so that writes outside it are visible or undefined. *)
From Verif.Model Require Export Base.
From Coq Require Export ZArith.

(** errno, as far as the program distinguishes values *)
Inductive errno := EINTR | EAGAIN | EOTHER.
(** a call that fills a buffer: -1 with errno, or the bytes written (the return value is their number) *)
Inductive io_result := IoError (e : errno) | IoBytes (b : bytes).
(** open: -1 with errno, or the file descriptor *)
Inductive open_result := OpenError (e : errno) | OpenFd (fd : N).

(** what the program does, in order *)
Inductive event := Open | Ioctl (fd : N) | Read (fd count : N) | Close (fd : N).
Inductive outcome := Returned (code : Z) (mem : bytes) (trace : list event) | Waiting (trace : list event).
Definition log (e : event) (o : outcome) : outcome :=
  match o with
  | Returned c m t => Returned c m (e :: t)
  | Waiting t => Waiting (e :: t)
  end.

(** randomness.c:38-44 rand_bytes over getrandom(dst, len, GRND_NONBLOCK); a kernel that writes more than
    [len] bytes is undefined behaviour *)
Definition rand_bytes_getrandom (mem : bytes) (off len : N) (r : io_result) : res (Z * bytes) :=
  match r with
  | IoError _ => Ok ((-1)%Z, mem)
  | IoBytes b =>
      let! _ := guard (lenN b <=? len) in
      let! mem := blit mem off b in
      if lenN b =? len then Ok (0%Z, mem) else Ok ((-1)%Z, mem)
  end.

(** randomness.c:102-118: the loop on read and what follows it; [off], [len] are dst and len *)
Fixpoint read_loop (fd : N) (reads : list io_result) (mem : bytes) (off len : N) : res outcome :=
  if len =? 0 then Ok (Returned 0 mem [Close fd])
  else
    match reads with
    | [] => Ok (Waiting [Read fd len])
    | r :: reads =>
        match r with
        | IoError EAGAIN | IoError EINTR =>
            let! o := read_loop fd reads mem off len in Ok (log (Read fd len) o)
        | IoError EOTHER => Ok (Returned (-1) mem [Read fd len; Close fd])
        | IoBytes b =>
            let! _ := guard (lenN b <=? len) in
            let! mem := blit mem off b in
            let! o := read_loop fd reads mem (off + lenN b) (len - lenN b) in
            Ok (log (Read fd len) o)
        end
    end.

(** randomness.c:81-119 rand_bytes over /dev/urandom, Linux (O_CLOEXEC is defined, so line 90 is not
    compiled); [ioctl_ok]: ioctl does not return -1 *)
Fixpoint rand_bytes_urandom (mem : bytes) (off len : N) (opens : list open_result) (ioctl_ok : bool)
  (reads : list io_result) : res outcome :=
  match opens with
  | [] => Ok (Waiting [Open])
  | OpenError EINTR :: opens =>
      let! o := rand_bytes_urandom mem off len opens ioctl_ok reads in Ok (log Open o)
  | OpenError _ :: _ => Ok (Returned (-1) mem [Open])
  | OpenFd fd :: _ =>
      if ioctl_ok then
        let! o := read_loop fd reads mem off len in Ok (log Open (log (Ioctl fd) o))
      else Ok (Returned (-1) mem [Open; Ioctl fd; Close fd])
  end.
