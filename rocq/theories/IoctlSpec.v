(** The client's side of an ioctl system call on a file of a FUSE file system
    or on a CUSE device: what Linux does between the call and its return
    (fs/fuse/ioctl.c, [fuse_do_ioctl], [fuse_copy_ioctl_iovec],
    [fuse_verify_ioctl_iov], [fuse_send_ioctl]).  Written from the kernel's side,
    for 64-bit processes and pages of 4096 bytes; it does not use the model of
    the server. *)

From Verif Require Import Base CoreModel OpsModel WireSpec ReplySpec.
From Coq Require Import List NArith ZArith Bool.
Import ListNotations.
Open Scope N_scope.

(** ** The memory of the calling process *)

(** [None] where nothing is mapped. *)
Definition memory := N -> option byte.

(** [n] bytes from [a] on. *)
Fixpoint load (m : memory) (a : N) (n : nat) : option bytes :=
  match n with
  | O => Some []
  | S n =>
    match m a, load m (a + 1) n with
    | Some b, Some bs => Some (b :: bs)
    | _, _ => None
    end
  end.
(** Bytes put at [a] and after it. *)
Fixpoint store (m : memory) (a : N) (bs : bytes) : option memory :=
  match bs with
  | [] => Some m
  | b :: bs =>
    match m a with
    | Some _ => store (fun x => if x =? a then Some b else m x) (a + 1) bs
    | None => None
    end
  end.

(** Address and length: [struct iovec]. *)
Definition iovec : Type := N * N.
(** What the vectors cover, one after the other. *)
Fixpoint gather (m : memory) (iov : list iovec) : option bytes :=
  match iov with
  | [] => Some []
  | (a, n) :: iov =>
    match load m a (N.to_nat n), gather m iov with
    | Some x, Some y => Some (x ++ y)
    | _, _ => None
    end
  end.
(** Bytes spread over the vectors; the last ones may stay unused. *)
Fixpoint scatter (m : memory) (iov : list iovec) (bs : bytes) : option memory :=
  match iov with
  | [] => Some m
  | (a, n) :: iov =>
    match store m a (take n bs) with
    | Some m => scatter m iov (drop n bs)
    | None => None
    end
  end.
Definition iov_length (iov : list iovec) : N := fold_right (fun v n => snd v + n) 0 iov.

(** ** The call *)

(** [Returns r m]: the call returns [r] and leaves the memory [m].  [Faults]: it
    returns [-EFAULT] while the result was copied; what was copied before is not
    said here. *)
Inductive returned := Returns (r : Z) (m : memory) | Faults.

Definition ENOMEM : Z := 12.
Definition EFAULT : Z := 14.
Definition ENOTTY : Z := 25.
Definition ENOSYS : Z := 38.
Definition no_tty (e : Z) : Z := if (e =? -ENOSYS)%Z then (-ENOTTY)%Z else e.

(** [FUSE_IOCTL_UNRESTRICTED] *)
Definition unrestricted (flags : N) : bool := N.testbit flags 1.

(** The vectors of the first request: none if the server may ask for any memory,
    or else one at the argument, in the directions and of the size encoded in
    the command ([_IOC_DIR], [_IOC_SIZE]; two commands have the size of an
    [int]). *)
Definition FS_IOC_GETFLAGS : N := 2148034049.
Definition FS_IOC_SETFLAGS : N := 1074292226.
Definition first_vectors (flags cmd arg : N) : list iovec * list iovec :=
  if unrestricted flags then ([], [])
  else
    let size := if (cmd =? FS_IOC_GETFLAGS) || (cmd =? FS_IOC_SETFLAGS) then 4
                else (cmd / 65536) mod 16384 in
    (if N.testbit cmd 30 then [(arg, size)] else [],
     if N.testbit cmd 31 then [(arg, size)] else []).

(** The request of a round, or the end of the call. *)
Definition pages (n : N) : N := (n + 4095) / 4096.
Definition ioctl_request (max_pages fh flags cmd arg : N) (m : memory) (vs : list iovec * list iovec)
  : client_op + returned :=
  let '(vin, vout) := vs in
  if max_pages <? pages (N.max (iov_length vin) (N.max (iov_length vout) 4096)) then
    inr (Returns (- ENOMEM) m)
  else
    match gather m vin with
    | None => inr (Returns (- EFAULT) m)
    | Some input => inl (OIoctl fh flags cmd arg (iov_length vout) input)
    end.

Section Client.
Context {E : Endian}.

(** The array of [struct fuse_ioctl_iovec] in a retry. *)
Fixpoint vectors (n : nat) (p : bytes) : list iovec :=
  match n with
  | O => []
  | S n => (u64_at 0 p, u64_at 8 p) :: vectors n (drop 16 p)
  end.
Definition too_long (max_pages : N) (iov : list iovec) : bool := 4096 * max_pages <? iov_length iov.

(** What follows from the result of the request: the data after the reply's
    header, or an error. *)
Definition ioctl_result (max_pages flags : N) (m : memory) (vs : list iovec * list iovec)
    (result : bytes + Z) : (list iovec * list iovec) + returned :=
  match result with
  | inr e => inr (Returns (no_tty e) m)
  | inl p =>
    let data := drop 16 p in
    if N.testbit (u32_at 4 p) 2 then
      let i := u32_at 8 p in
      let o := u32_at 12 p in
      if negb (unrestricted flags) then inr (Returns (-5) m)
      else if 256 <? i + o then inr (Returns (- ENOMEM) m)
      else if negb (nlen data =? 16 * (i + o)) then inr (Returns (-22) m)
      else
        let vin := vectors (N.to_nat i) data in
        let vout := vectors (N.to_nat o) (drop (16 * i) data) in
        if too_long max_pages vin || too_long max_pages vout then inr (Returns (- ENOMEM) m)
        else inl (vin, vout)
    else if iov_length (snd vs) <? nlen data then inr (Returns (-5) m)
    else
      match scatter m (snd vs) data with
      | Some m => inr (Returns (no_tty (as_i32 (u32_at 0 p))) m)
      | None => inr Faults
      end
  end.
End Client.
