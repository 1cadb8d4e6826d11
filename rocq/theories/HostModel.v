(** The host side: sockets over file descriptors (fuse-libc/io/socket.rs,
    fuse-linux/socket.rs) and mounting (fuse/os/linux.rs, fuse-libc/os/*.rs,
    fuse-linux/fuse-linux.rs).  System calls are results chosen by the caller
    of the model. *)

From Coq Require Import String.
From Verif Require Import Base Kernel CoreModel ReplyModel ServerModel.
From Coq Require Import List NArith ZArith Bool.
Import ListNotations.
Open Scope N_scope.

(** Error numbers of Linux (crate linux-errno, libc) and FreeBSD (libc); the
    two systems agree on these.  Used at fuse-linux/socket.rs:53, 72,
    fuse-libc/io/socket.rs:76, 100 *)
Definition ENOENT : N := 2.
(** fuse-linux/socket.rs:56, 71, fuse-libc/io/socket.rs:79, 95 *)
Definition EINTR : N := 4.
(** fuse-linux/socket.rs:93, fuse-libc/io/socket.rs:128 *)
Definition EIO : N := 5.
(** fuse-linux/socket.rs:60, fuse-libc/io/socket.rs:83-84 *)
Definition ENODEV : N := 19.
(** fuse-linux/fuse-linux.rs:141, fuse-libc/os/linux.rs:102 *)
Definition EINVAL : N := 22.
(** fuse-linux/sys.rs:66; 38 on Linux *)
Definition ENOSYS : N := 38.

(** ** Sockets *)

(** Result of one read(2): the message put in the buffer, or an error number
    (fuse-libc/io/socket.rs:63, fuse-linux/sys.rs:78-81). *)
Inductive read_result := ReadOk (msg : bytes) | ReadErr (errno : N).

(** Result of one writev(2): the number of bytes taken, or an error number
    (fuse-libc/io/socket.rs:117-119, fuse-linux/sys.rs:100-103). *)
Inductive write_result := WriteOk (n : N) | WriteErr (errno : N).

(** fuse-libc/io/socket.rs:45-48, fuse-linux/socket.rs:27-30 [Socket] *)
Record Socket := { so_fd : N; so_enodev_is_eof : bool }.

(** fuse-libc/io/socket.rs:72-90, fuse-linux/socket.rs:49-66
    [check_recv_err]; [None] is [Ok(())] *)
Definition check_recv_err (s : Socket) (errno : N) : option RecvError :=
  if errno =? ENOENT then None
  else if errno =? EINTR then None
  else if (errno =? ENODEV) && so_enodev_is_eof s then Some (RE_ConnectionClosed ENODEV)
  else Some (RE_Other errno).

(** fuse-libc/io/socket.rs:59-69, fuse-linux/socket.rs:39-46 [recv], against
    the results of the following calls of read(2).  The answer is what [recv]
    returns, if it returns, and the unused results. *)
Fixpoint Socket_recv (s : Socket) (results : list read_result) :
    option recv_event * list read_result :=
  match results with
  | [] => (None, [])
  | ReadOk msg :: rest => (Some (Message msg), rest)
  | ReadErr errno :: rest =>
    match check_recv_err s errno with
    | None => Socket_recv s rest
    | Some e => (Some (RecvFails e), rest)
    end
  end.

(** fuse-libc/io/socket.rs:93-103, fuse-linux/socket.rs:69-75
    [check_send_err]; [NotFound] carries [ENOENT], left out here *)
Definition check_send_err (errno : N) : option SendError :=
  if errno =? EINTR then None
  else if errno =? ENOENT then Some SE_NotFound
  else Some (SE_Other errno).

(** fuse-libc/io/socket.rs:105-131, fuse-linux/socket.rs:77-98 [send] of a
    buffer of length [len], against the results of the following calls of
    writev(2).  [buf.len() as isize] of fuse-libc line 125 is [as_i64]; the
    fuse-linux text compares as [usize], the same for lengths below 2^63. *)
Fixpoint Socket_send (len : N) (results : list write_result) :
    option send_event * list write_result :=
  match results with
  | [] => (None, [])
  | WriteErr errno :: rest =>
    match check_send_err errno with
    | None => Socket_send len rest
    | Some e => (Some (SendFails e), rest)
    end
  | WriteOk n :: rest =>
    if (Z.of_N n =? as_i64 len)%Z then (Some SendOk, rest)
    else (Some (SendFails (SE_Other EIO)), rest)
  end.

(** fuse-libc/io/socket.rs:153-156, fuse-linux/socket.rs:114-117 *)
Definition CuseServerSocket_open (fd : N) : Socket := {| so_fd := fd; so_enodev_is_eof := false |}.
(** fuse-libc/io/socket.rs:161-165, fuse-linux/socket.rs:122-126 *)
Definition CuseServerSocket_from_raw_fd (fd : N) : Socket :=
  {| so_fd := fd; so_enodev_is_eof := true |}.
(** fuse-libc/io/socket.rs:203-206, fuse-linux/socket.rs:158-161 *)
Definition FuseServerSocket_open (fd : N) : Socket := {| so_fd := fd; so_enodev_is_eof := true |}.
(** fuse-libc/io/socket.rs:216-220, fuse-linux/socket.rs:171-175 *)
Definition FuseServerSocket_from_raw_fd (fd : N) : Socket :=
  {| so_fd := fd; so_enodev_is_eof := true |}.

(** ** Mount data *)

(** A byte string literal, for example fuse/os/linux.rs:667. *)
Definition txt (s : string) : bytes := String.list_byte_of_string s.

(** [','], fuse/os/linux.rs:365-373, 661-709 *)
Definition comma : Byte.byte := Byte.x2c.

(** fuse/os/linux.rs:365-373 [FuseSubtype::new] of a C string (its bytes
    without the terminating NUL). *)
Definition FuseSubtype_new (s : bytes) : option bytes :=
  match s with
  | [] => None
  | _ => if existsb (Byte.eqb comma) s then None else Some s
  end.

(** fuse/os/linux.rs:276-281 [MountSource::new] *)
Definition MountSource_new (s : bytes) : option bytes :=
  match s with [] => None | _ => Some s end.

(** fuse/os/linux.rs:404-417 [MountOptions]; C strings as bytes without NUL.
    The setters (449-608) assign one field each. *)
Record MountOptions := {
  mo_source : bytes; mo_type : bytes; mo_allow_other : bool; mo_block_size : option N;
  mo_default_permissions : bool; mo_fd : option N; mo_subtype : option bytes;
  mo_group_id : option N; mo_max_read : option N; mo_root_mode : option N;
  mo_user_id : option N }.

(** fuse/os/linux.rs:422-437 [MountOptions::new], with 31-37 *)
Definition MountOptions_new : MountOptions :=
  {| mo_source := txt "fuse"; mo_type := txt "fuse"; mo_allow_other := false;
     mo_block_size := None; mo_default_permissions := false; mo_fd := None;
     mo_subtype := None; mo_group_id := None; mo_max_read := None; mo_root_mode := None;
     mo_user_id := None |}.

(** fuse/os/linux.rs:606-608 [set_user_id] *)
Definition MountOptions_set_user_id (v : option N) (o : MountOptions) : MountOptions :=
  {| mo_source := mo_source o; mo_type := mo_type o; mo_allow_other := mo_allow_other o;
     mo_block_size := mo_block_size o; mo_default_permissions := mo_default_permissions o;
     mo_fd := mo_fd o; mo_subtype := mo_subtype o; mo_group_id := mo_group_id o;
     mo_max_read := mo_max_read o; mo_root_mode := mo_root_mode o; mo_user_id := v |}.
(** fuse/os/linux.rs:509-511 [set_group_id] *)
Definition MountOptions_set_group_id (v : option N) (o : MountOptions) : MountOptions :=
  {| mo_source := mo_source o; mo_type := mo_type o; mo_allow_other := mo_allow_other o;
     mo_block_size := mo_block_size o; mo_default_permissions := mo_default_permissions o;
     mo_fd := mo_fd o; mo_subtype := mo_subtype o; mo_group_id := v;
     mo_max_read := mo_max_read o; mo_root_mode := mo_root_mode o; mo_user_id := mo_user_id o |}.
(** fuse/os/linux.rs:576-578 [set_root_mode] *)
Definition MountOptions_set_root_mode (v : option N) (o : MountOptions) : MountOptions :=
  {| mo_source := mo_source o; mo_type := mo_type o; mo_allow_other := mo_allow_other o;
     mo_block_size := mo_block_size o; mo_default_permissions := mo_default_permissions o;
     mo_fd := mo_fd o; mo_subtype := mo_subtype o; mo_group_id := mo_group_id o;
     mo_max_read := mo_max_read o; mo_root_mode := v; mo_user_id := mo_user_id o |}.
(** fuse/os/linux.rs:493-495 [set_fuse_device_fd] *)
Definition MountOptions_set_fd (v : option N) (o : MountOptions) : MountOptions :=
  {| mo_source := mo_source o; mo_type := mo_type o; mo_allow_other := mo_allow_other o;
     mo_block_size := mo_block_size o; mo_default_permissions := mo_default_permissions o;
     mo_fd := v; mo_subtype := mo_subtype o; mo_group_id := mo_group_id o;
     mo_max_read := mo_max_read o; mo_root_mode := mo_root_mode o; mo_user_id := mo_user_id o |}.

(** The digit of a value below ten, for the integers printed at
    fuse/os/linux.rs:667-702. *)
Definition digit (d : N) : Byte.byte :=
  match Byte.of_N (48 + d) with Some b => b | None => Byte.x00 end.

(** What [core::fmt] prints for an unsigned integer with [{}] (base 10) and
    [{:o}] (base 8): its digits, most significant first.  Not code of this
    repository; used at fuse/os/linux.rs:667-702.  [fuel] digits are enough
    for a u32 with 11. *)
Fixpoint show_digits (fuel : nat) (base n : N) (acc : bytes) : bytes :=
  match fuel with
  | O => acc
  | S fuel =>
    let acc := digit (n mod base) :: acc in
    if n / base =? 0 then acc else show_digits fuel base (n / base) acc
  end.
(** the same with enough fuel (fuse/os/linux.rs:667-702) *)
Definition show (base n : N) : bytes := show_digits 11 base n [].

(** fuse/os/linux.rs:715-718 [BufWriter]; [None] is [fmt::Error] *)
Record BufWriter := { bw_buf : bytes; bw_count : N }.

(** fuse/os/linux.rs:721-729 [write_bytes] and 733-735 [write_str].  Slicing
    past the end of the buffer (line 722) panics. *)
Definition write_bytes (b : bytes) (w : BufWriter) : out (option BufWriter) :=
  if nlen (bw_buf w) <? bw_count w then Panic
  else
    let avail := drop (bw_count w) (bw_buf w) in
    if nlen avail <? nlen b then Ret None
    else Ret (Some {| bw_buf := take (bw_count w) (bw_buf w) ++ b ++ drop (nlen b) avail;
                      bw_count := bw_count w + nlen b |}).

(** [write!] (fuse/os/linux.rs:667-702) writes its pieces one after the other
    and stops at the first error. *)
Fixpoint write_pieces (pieces : list bytes) (w : BufWriter) : out (option BufWriter) :=
  match pieces with
  | [] => Ret (Some w)
  | p :: r =>
    o <- write_bytes p w ;;
    match o with Some w => write_pieces r w | None => Ret None end
  end.

(** The body of an [if] of [write_mount_data] (fuse/os/linux.rs:666-703): write and set [sep]; [?]
    leaves the function. *)
Definition write_option (pieces : bytes -> list bytes) (st : option (BufWriter * bytes)) :
    out (option (BufWriter * bytes)) :=
  match st with
  | None => Ret None
  | Some (w, sep) =>
    o <- write_pieces (pieces sep) w ;;
    match o with Some w => Ret (Some (w, [comma])) | None => Ret None end
  end.

(** fuse/os/linux.rs:661-709 [write_mount_data] *)
Definition write_mount_data (w : BufWriter) (o : MountOptions) : out (option BufWriter) :=
  let when {A} (x : option A) (pieces : A -> bytes -> list bytes) st :=
    match x with Some v => write_option (pieces v) st | None => Ret st end in
  let if_set (b : bool) (pieces : bytes -> list bytes) st :=
    if b then write_option pieces st else Ret st in
  st <- when (mo_fd o) (fun v _ => [txt "fd="; show 10 v]) (Some (w, [])) ;;
  st <- if_set (mo_allow_other o) (fun sep => [sep; txt "allow_other"]) st ;;
  st <- when (mo_block_size o) (fun v sep => [sep; txt "blksize="; show 10 v]) st ;;
  st <- if_set (mo_default_permissions o) (fun sep => [sep; txt "default_permissions"]) st ;;
  st <- when (mo_group_id o) (fun v sep => [sep; txt "group_id="; show 10 v]) st ;;
  st <- when (mo_max_read o) (fun v sep => [sep; txt "max_read="; show 10 v]) st ;;
  st <- when (mo_root_mode o) (fun v sep => [sep; txt "rootmode="; show 8 v]) st ;;
  st <- when (mo_subtype o) (fun v sep => [sep; txt "subtype="; v]) st ;;
  st <- when (mo_user_id o) (fun v sep => [sep; txt "user_id="; show 10 v]) st ;;
  match st with
  | Some (w, _) => write_bytes [Byte.x00] w
  | None => Ret None
  end.

(** fuse/os/linux.rs:646-659 [mount_data] *)
Definition mount_data (o : MountOptions) (storage : bytes) : out (option bytes) :=
  r <- write_mount_data {| bw_buf := storage; bw_count := 0 |} o ;;
  match r with
  | None => Ret None
  | Some w =>
    if nlen (bw_buf w) <? bw_count w then Panic else Ret (Some (take (bw_count w) (bw_buf w)))
  end.

(** ** mount() on Linux *)

(** The outcomes of the system calls of [mount].  [open] is openat2(2) for
    fuse-linux and open(2) for fuse-libc; [openat] is only used by
    fuse-linux (fuse-linux/fuse-linux.rs:117-161, fuse-linux/sys.rs:47-204,
    fuse-libc/os/linux.rs:78-135). *)
Record system := {
  sys_statx : N + N; (* stx_mode, or error *)
  sys_uid : N; sys_gid : N;
  sys_open : N + N; (* descriptor, or error *)
  sys_openat : N + N;
  sys_mount : option N (* error *) }.

(** The system calls made that others can see (fuse-linux/sys.rs:25-186,
    fuse-libc/os/linux.rs:78-135). *)
Inductive syscall :=
| CallOpen (path : bytes) (fd : option N)
| CallMount (source target type : bytes) (flags : N) (data : bytes)
| CallClose (fd : N).

(** fuse-linux/fuse-linux.rs:81-85, fuse-libc/os/linux.rs:42-46 *)
Record HostMountOptions := {
  hm_opts : MountOptions; hm_dev_fuse : option bytes; hm_flags : N }.

(** fuse-linux/fuse-linux.rs:107-115 with 66-69, fuse-libc/os/linux.rs:68-76
    with 30-33 [From] *)
Definition HostMountOptions_from (o : MountOptions) : HostMountOptions :=
  {| hm_opts := o; hm_dev_fuse := None; hm_flags := 6 |}.

(** fuse-linux/fuse-linux.rs:89-91, fuse-libc/os/linux.rs:50-52 *)
Definition HostMountOptions_dev_fuse (h : HostMountOptions) : bytes :=
  match hm_dev_fuse h with Some p => p | None => txt "/dev/fuse" end.

(** fuse-linux/sys.rs:47-76 [open]: openat2, or openat if the kernel has no
    openat2; fuse-libc/io/socket.rs:147-152 calls open once. *)
Definition open_device (is_libc : bool) (y : system) : N + N :=
  if is_libc then sys_open y
  else match sys_open y with
       | inl fd => inl fd
       | inr e => if e =? ENOSYS then sys_openat y else inr e
       end.

(** fuse-linux/fuse-linux.rs:117-154 and fuse-libc/os/linux.rs:78-118
    [mount], with [PAGE_SIZE] 4096: the calls made and the returned socket or
    error number.  Dropping the socket on a failure after it was opened closes
    its descriptor (fuse-linux/socket.rs:32-36, fuse-libc/io/socket.rs:50-56).
    [fuse_device_fd() as u32] keeps nonnegative descriptors.
    [get_root_mode] is fuse-linux.rs:156-161 and os/linux.rs:120-135. *)
Definition mount (is_libc : bool) (y : system) (target : bytes) (h : HostMountOptions) :
    out (list syscall * (Socket + N)) :=
  let opts := hm_opts h in
  let root_mode := match mo_root_mode opts with Some m => inl m | None => sys_statx y end in
  match root_mode with
  | inr e => Ret ([], inr e)
  | inl m =>
    let opts := MountOptions_set_root_mode (Some m) opts in
    let opts := match mo_user_id opts with
                | Some _ => opts
                | None => MountOptions_set_user_id (Some (sys_uid y)) opts end in
    let opts := match mo_group_id opts with
                | Some _ => opts
                | None => MountOptions_set_group_id (Some (sys_gid y)) opts end in
    let path := HostMountOptions_dev_fuse h in
    match open_device is_libc y with
    | inr e => Ret ([CallOpen path None], inr e)
    | inl fd =>
      let socket := FuseServerSocket_open fd in
      let opts := MountOptions_set_fd (Some (wrap32 fd)) opts in
      data <- mount_data opts (repeat Byte.x00 4096) ;;
      match data with
      | None => Ret ([CallOpen path (Some fd); CallClose fd], inr EINVAL)
      | Some data =>
        let call := CallMount (mo_source opts) target (mo_type opts) (hm_flags h) data in
        match sys_mount y with
        | Some e => Ret ([CallOpen path (Some fd); call; CallClose fd], inr e)
        | None => Ret ([CallOpen path (Some fd); call], inl socket)
        end
      end
    end
  end.

(** ** mount() on FreeBSD *)

(** fuse/os/freebsd.rs:210-213 [MountOptions] *)
Record FreebsdOptions := { fo_default_permissions : bool; fo_subtype : option bytes }.

(** fuse/os/freebsd.rs:174-179 [FuseSubtype::new] *)
Definition FreebsdSubtype_new (s : bytes) : option bytes :=
  match s with [] => None | _ => Some s end.

(** fuse-libc/os/freebsd.rs:126-132 [fmt_raw_fd]: snprintf of at most 32
    bytes including the NUL into a zeroed buffer of 32. *)
Definition fmt_raw_fd (fd : N) : bytes :=
  let text := take 31 (show 10 fd) in
  take 32 (text ++ repeat Byte.x00 32).

(** Assigning two slots of the iovec array; an index past the end panics
    (fuse-libc/os/freebsd.rs:100-101, 107-108). *)
Fixpoint set_nth {A} (n : nat) (x : A) (l : list A) : option (list A) :=
  match n, l with
  | _, [] => None
  | O, _ :: r => Some (x :: r)
  | S n, y :: r => option_map (cons y) (set_nth n x r)
  end.
(** fuse-libc/os/freebsd.rs:100-101, 107-108 *)
Definition set_pair (len : N) (a b : bytes) (iov : list bytes) : out (list bytes) :=
  match set_nth (N.to_nat len) a iov with
  | None => Panic
  | Some iov =>
    match set_nth (N.to_nat (len + 1)) b iov with None => Panic | Some iov => Ret iov end
  end.

(** The system calls of FreeBSD's mount, fuse-libc/os/freebsd.rs:61-124. *)
Inductive freebsd_call :=
| FOpen (path : bytes) (fd : option N)
| FNmount (iovecs : list bytes) (flags : N)
| FClose (fd : N).

(** fuse-libc/os/freebsd.rs:61-124 [mount]; [sys_open] and [sys_mount] are
    open(2) and nmount(2); nmount reads [iovecs_len] elements. *)
Definition freebsd_mount (y : system) (target : bytes) (o : FreebsdOptions) (flags : N) :
    out (list freebsd_call * (Socket + N)) :=
  let path := txt "/dev/fuse" in
  match sys_open y with
  | inr e => Ret ([FOpen path None], inr e)
  | inl fd =>
    let socket := FuseServerSocket_open fd in
    let nul := [Byte.x00] in
    let iov := [txt "fstype" ++ nul; txt "fusefs" ++ nul; txt "from" ++ nul;
                txt "/dev/fuse" ++ nul; txt "fspath" ++ nul; target ++ nul; txt "fd" ++ nul;
                fmt_raw_fd (wrap32 fd); []; []; []; []] in
    '(iov, len) <-
      (if fo_default_permissions o
       then iov <- set_pair 8 (txt "default_permissions" ++ nul) nul iov ;; Ret (iov, 10)
       else Ret (iov, 8)) ;;
    '(iov, len) <-
      (match fo_subtype o with
       | Some s => iov <- set_pair len (txt "subtype=" ++ nul) (s ++ nul) iov ;; Ret (iov, len + 2)
       | None => Ret (iov, len)
       end) ;;
    let call := FNmount (firstn (N.to_nat len) iov) flags in
    match sys_mount y with
    | Some e => Ret ([FOpen path (Some fd); call; FClose fd], inr e)
    | None => Ret ([FOpen path (Some fd); call], inl socket)
    end
  end.
