(** The flag sets of the API (fuse/internal/bitflags.rs) and the names of
    their flags. *)

From Coq Require Import String.
From Verif Require Import Base Kernel CoreModel.
From Coq Require Import List NArith Bool.
Import ListNotations.
Open Scope string_scope.
Open Scope list_scope.
Open Scope N_scope.

(** ** Flags of the kernel ABI that Kernel.v does not list *)

(** fuse/kernel.rs:328 *)
Definition FOPEN_DIRECT_IO : N := 1.
(** fuse/kernel.rs:329 *)
Definition FOPEN_KEEP_CACHE : N := 2.
(** fuse/kernel.rs:330 *)
Definition FOPEN_NONSEEKABLE : N := 4.
(** fuse/kernel.rs:331 *)
Definition FOPEN_CACHE_DIR : N := 8.
(** fuse/kernel.rs:332 *)
Definition FOPEN_STREAM : N := 16.
(** fuse/kernel.rs:333 *)
Definition FOPEN_NOFLUSH : N := 32.
(** fuse/kernel.rs:380 *)
Definition FUSE_ASYNC_READ : N := 1.
(** fuse/kernel.rs:381 *)
Definition FUSE_POSIX_LOCKS : N := 2.
(** fuse/kernel.rs:382 *)
Definition FUSE_FILE_OPS : N := 4.
(** fuse/kernel.rs:383 *)
Definition FUSE_ATOMIC_O_TRUNC : N := 8.
(** fuse/kernel.rs:384 *)
Definition FUSE_EXPORT_SUPPORT : N := 16.
(** fuse/kernel.rs:386 *)
Definition FUSE_DONT_MASK : N := 64.
(** fuse/kernel.rs:387 *)
Definition FUSE_SPLICE_WRITE : N := 128.
(** fuse/kernel.rs:388 *)
Definition FUSE_SPLICE_MOVE : N := 256.
(** fuse/kernel.rs:389 *)
Definition FUSE_SPLICE_READ : N := 512.
(** fuse/kernel.rs:390 *)
Definition FUSE_FLOCK_LOCKS : N := 1024.
(** fuse/kernel.rs:391 *)
Definition FUSE_HAS_IOCTL_DIR : N := 2048.
(** fuse/kernel.rs:392 *)
Definition FUSE_AUTO_INVAL_DATA : N := 4096.
(** fuse/kernel.rs:393 *)
Definition FUSE_DO_READDIRPLUS : N := 8192.
(** fuse/kernel.rs:394 *)
Definition FUSE_READDIRPLUS_AUTO : N := 16384.
(** fuse/kernel.rs:395 *)
Definition FUSE_ASYNC_DIO : N := 32768.
(** fuse/kernel.rs:396 *)
Definition FUSE_WRITEBACK_CACHE : N := 65536.
(** fuse/kernel.rs:397 *)
Definition FUSE_NO_OPEN_SUPPORT : N := 131072.
(** fuse/kernel.rs:398 *)
Definition FUSE_PARALLEL_DIROPS : N := 262144.
(** fuse/kernel.rs:399 *)
Definition FUSE_HANDLE_KILLPRIV : N := 524288.
(** fuse/kernel.rs:400 *)
Definition FUSE_POSIX_ACL : N := 1048576.
(** fuse/kernel.rs:401 *)
Definition FUSE_ABORT_ERROR : N := 2097152.
(** fuse/kernel.rs:402 *)
Definition FUSE_MAX_PAGES : N := 4194304.
(** fuse/kernel.rs:403 *)
Definition FUSE_CACHE_SYMLINKS : N := 8388608.
(** fuse/kernel.rs:404 *)
Definition FUSE_NO_OPENDIR_SUPPORT : N := 16777216.
(** fuse/kernel.rs:405 *)
Definition FUSE_EXPLICIT_INVAL_DATA : N := 33554432.
(** fuse/kernel.rs:406 *)
Definition FUSE_MAP_ALIGNMENT : N := 67108864.
(** fuse/kernel.rs:407 *)
Definition FUSE_SUBMOUNTS : N := 134217728.
(** fuse/kernel.rs:408 *)
Definition FUSE_HANDLE_KILLPRIV_V2 : N := 268435456.
(** fuse/kernel.rs:410 *)
Definition FUSE_INIT_EXT : N := 1073741824.
(** fuse/kernel.rs:411 *)
Definition FUSE_INIT_RESERVED : N := 2147483648.
(** fuse/kernel.rs:413 *)
Definition FUSE_SECURITY_CTX : N := 4294967296.
(** fuse/kernel.rs:414 *)
Definition FUSE_HAS_INODE_DAX : N := 8589934592.
(** fuse/kernel.rs:437 *)
Definition FUSE_LK_FLOCK : N := 1.
(** fuse/kernel.rs:446 *)
Definition FUSE_WRITE_CACHE : N := 1.
(** fuse/kernel.rs:448 *)
Definition FUSE_WRITE_KILL_SUIDGID : N := 4.
(** fuse/kernel.rs:470 *)
Definition FUSE_IOCTL_COMPAT : N := 1.
(** fuse/kernel.rs:471 *)
Definition FUSE_IOCTL_UNRESTRICTED : N := 2.
(** fuse/kernel.rs:473 *)
Definition FUSE_IOCTL_32BIT : N := 8.
(** fuse/kernel.rs:474 *)
Definition FUSE_IOCTL_DIR : N := 16.
(** fuse/kernel.rs:475 *)
Definition FUSE_IOCTL_COMPAT_X32 : N := 32.
(** fuse/kernel.rs:484 *)
Definition FUSE_POLL_SCHEDULE_NOTIFY : N := 1.
(** fuse/kernel.rs:491 *)
Definition FUSE_FSYNC_FDATASYNC : N := 1.
(** fuse/kernel.rs:499 *)
Definition FUSE_ATTR_SUBMOUNT : N := 1.
(** fuse/kernel.rs:500 *)
Definition FUSE_ATTR_DAX : N := 2.
(** fuse/kernel.rs:506 *)
Definition FUSE_OPEN_KILL_SUIDGID : N := 1.
(** fuse/kernel.rs:512 *)
Definition FUSE_SETXATTR_ACL_KILL_SGID : N := 1.

(** ** Types made by the macro [bitflags!]: the name of the type of the set,
    the number of bits and the named flags with their masks *)
(** fuse/internal/bitflags.rs:17-33; the number of bits is that of
    fuse/internal/bitflags.rs:178-181 *)
Record flags_type := { ft_name : string; ft_bits : nat; ft_flags : list (string * N) }.

(** fuse/node_attr.rs:324-327 *)
Definition AttributeFlags : flags_type :=
  {| ft_name := "AttributeFlags"; ft_bits := 32%nat;
     ft_flags := [("FUSE_ATTR_SUBMOUNT", FUSE_ATTR_SUBMOUNT);
       ("FUSE_ATTR_DAX", FUSE_ATTR_DAX)] |}.
(** fuse/operations/copy_file_range.rs:120-121 *)
Definition CopyFileRangeRequestFlags : flags_type :=
  {| ft_name := "CopyFileRangeRequestFlags"; ft_bits := 64%nat;
     ft_flags := [] |}.
(** fuse/operations/create.rs:213-215 *)
Definition CreateRequestFlags : flags_type :=
  {| ft_name := "CreateRequestFlags"; ft_bits := 32%nat;
     ft_flags := [("KILL_SUIDGID", FUSE_OPEN_KILL_SUIDGID)] |}.
(** fuse/operations/create.rs:235-242 *)
Definition CreateResponseFlags : flags_type :=
  {| ft_name := "CreateResponseFlags"; ft_bits := 32%nat;
     ft_flags := [("DIRECT_IO", FOPEN_DIRECT_IO); ("KEEP_CACHE", FOPEN_KEEP_CACHE);
       ("NONSEEKABLE", FOPEN_NONSEEKABLE); ("CACHE_DIR", FOPEN_CACHE_DIR);
       ("STREAM", FOPEN_STREAM); ("NOFLUSH", FOPEN_NOFLUSH)] |}.
(** fuse/operations/cuse_init.rs:205-207 *)
Definition CuseInitFlags : flags_type :=
  {| ft_name := "CuseInitFlags"; ft_bits := 32%nat;
     ft_flags := [("UNRESTRICTED_IOCTL", CUSE_UNRESTRICTED_IOCTL)] |}.
(** fuse/operations/fsync.rs:103-105 *)
Definition FsyncRequestFlags : flags_type :=
  {| ft_name := "FsyncRequestFlags"; ft_bits := 32%nat;
     ft_flags := [("FDATASYNC", FUSE_FSYNC_FDATASYNC)] |}.
(** fuse/operations/fsyncdir.rs:87-89 *)
Definition FsyncdirRequestFlags : flags_type :=
  {| ft_name := "FsyncdirRequestFlags"; ft_bits := 32%nat;
     ft_flags := [("FDATASYNC", FUSE_FSYNC_FDATASYNC)] |}.
(** fuse/operations/fuse_init.rs:244-279 *)
Definition FuseInitFlags : flags_type :=
  {| ft_name := "FuseInitFlags"; ft_bits := 64%nat;
     ft_flags := [("ASYNC_READ", FUSE_ASYNC_READ); ("POSIX_LOCKS", FUSE_POSIX_LOCKS);
       ("FILE_OPS", FUSE_FILE_OPS); ("ATOMIC_O_TRUNC", FUSE_ATOMIC_O_TRUNC);
       ("EXPORT_SUPPORT", FUSE_EXPORT_SUPPORT); ("BIG_WRITES", FUSE_BIG_WRITES);
       ("DONT_MASK", FUSE_DONT_MASK); ("SPLICE_WRITE", FUSE_SPLICE_WRITE);
       ("SPLICE_MOVE", FUSE_SPLICE_MOVE); ("SPLICE_READ", FUSE_SPLICE_READ);
       ("FLOCK_LOCKS", FUSE_FLOCK_LOCKS); ("HAS_IOCTL_DIR", FUSE_HAS_IOCTL_DIR);
       ("AUTO_INVAL_DATA", FUSE_AUTO_INVAL_DATA);
       ("DO_READDIRPLUS", FUSE_DO_READDIRPLUS);
       ("READDIRPLUS_AUTO", FUSE_READDIRPLUS_AUTO);
       ("ASYNC_DIO", FUSE_ASYNC_DIO); ("WRITEBACK_CACHE", FUSE_WRITEBACK_CACHE);
       ("NO_OPEN_SUPPORT", FUSE_NO_OPEN_SUPPORT);
       ("PARALLEL_DIROPS", FUSE_PARALLEL_DIROPS);
       ("HANDLE_KILLPRIV", FUSE_HANDLE_KILLPRIV); ("POSIX_ACL", FUSE_POSIX_ACL);
       ("ABORT_ERROR", FUSE_ABORT_ERROR); ("MAX_PAGES", FUSE_MAX_PAGES);
       ("CACHE_SYMLINKS", FUSE_CACHE_SYMLINKS);
       ("NO_OPENDIR_SUPPORT", FUSE_NO_OPENDIR_SUPPORT);
       ("EXPLICIT_INVAL_DATA", FUSE_EXPLICIT_INVAL_DATA);
       ("MAP_ALIGNMENT", FUSE_MAP_ALIGNMENT); ("SUBMOUNTS", FUSE_SUBMOUNTS);
       ("HANDLE_KILLPRIV_V2", FUSE_HANDLE_KILLPRIV_V2);
       ("SETXATTR_EXT", FUSE_SETXATTR_EXT); ("INIT_EXT", FUSE_INIT_EXT);
       ("INIT_RESERVED", FUSE_INIT_RESERVED);
       ("SECURITY_CTX", FUSE_SECURITY_CTX);
       ("HAS_INODE_DAX", FUSE_HAS_INODE_DAX)] |}.
(** fuse/operations/ioctl.rs:580-586 *)
Definition IoctlRequestFlags : flags_type :=
  {| ft_name := "IoctlRequestFlags"; ft_bits := 32%nat;
     ft_flags := [("IOCTL_COMPAT", FUSE_IOCTL_COMPAT);
       ("IOCTL_UNRESTRICTED", FUSE_IOCTL_UNRESTRICTED);
       ("IOCTL_32BIT", FUSE_IOCTL_32BIT); ("IOCTL_DIR", FUSE_IOCTL_DIR);
       ("IOCTL_COMPAT_X32", FUSE_IOCTL_COMPAT_X32)] |}.
(** fuse/operations/open.rs:104-106 *)
Definition OpenRequestFlags : flags_type :=
  {| ft_name := "OpenRequestFlags"; ft_bits := 32%nat;
     ft_flags := [("KILL_SUIDGID", FUSE_OPEN_KILL_SUIDGID)] |}.
(** fuse/operations/open.rs:125-132 *)
Definition OpenResponseFlags : flags_type :=
  {| ft_name := "OpenResponseFlags"; ft_bits := 32%nat;
     ft_flags := [("DIRECT_IO", FOPEN_DIRECT_IO); ("KEEP_CACHE", FOPEN_KEEP_CACHE);
       ("NONSEEKABLE", FOPEN_NONSEEKABLE); ("CACHE_DIR", FOPEN_CACHE_DIR);
       ("STREAM", FOPEN_STREAM); ("NOFLUSH", FOPEN_NOFLUSH)] |}.
(** fuse/operations/opendir.rs:88-90 *)
Definition OpendirRequestFlags : flags_type :=
  {| ft_name := "OpendirRequestFlags"; ft_bits := 32%nat;
     ft_flags := [("KILL_SUIDGID", FUSE_OPEN_KILL_SUIDGID)] |}.
(** fuse/operations/opendir.rs:109-116 *)
Definition OpendirResponseFlags : flags_type :=
  {| ft_name := "OpendirResponseFlags"; ft_bits := 32%nat;
     ft_flags := [("DIRECT_IO", FOPEN_DIRECT_IO); ("KEEP_CACHE", FOPEN_KEEP_CACHE);
       ("NONSEEKABLE", FOPEN_NONSEEKABLE); ("CACHE_DIR", FOPEN_CACHE_DIR);
       ("STREAM", FOPEN_STREAM); ("NOFLUSH", FOPEN_NOFLUSH)] |}.
(** fuse/operations/poll.rs:142-144 *)
Definition PollRequestFlags : flags_type :=
  {| ft_name := "PollRequestFlags"; ft_bits := 32%nat;
     ft_flags := [("SCHEDULE_NOTIFY", FUSE_POLL_SCHEDULE_NOTIFY)] |}.
(** fuse/operations/setlk.rs:100-102 *)
Definition SetlkRequestFlags : flags_type :=
  {| ft_name := "SetlkRequestFlags"; ft_bits := 32%nat;
     ft_flags := [("LK_FLOCK", FUSE_LK_FLOCK)] |}.
(** fuse/operations/setxattr.rs:122-124 *)
Definition SetxattrRequestFlags : flags_type :=
  {| ft_name := "SetxattrRequestFlags"; ft_bits := 32%nat;
     ft_flags := [("ACL_KILL_SGID", FUSE_SETXATTR_ACL_KILL_SGID)] |}.
(** fuse/operations/write.rs:211-215 *)
Definition WriteRequestFlags : flags_type :=
  {| ft_name := "WriteRequestFlags"; ft_bits := 32%nat;
     ft_flags := [("WRITE_CACHE", FUSE_WRITE_CACHE);
       ("WRITE_LOCKOWNER", FUSE_WRITE_LOCKOWNER);
       ("WRITE_KILL_SUIDGID", FUSE_WRITE_KILL_SUIDGID)] |}.
(** the seventeen invocations of [bitflags!], fuse/node_attr.rs:324 and
    fuse/operations/*.rs as cited above *)
Definition all_flags_types : list flags_type :=
  [AttributeFlags; CopyFileRangeRequestFlags; CreateRequestFlags;
   CreateResponseFlags; CuseInitFlags; FsyncRequestFlags;
   FsyncdirRequestFlags; FuseInitFlags; IoctlRequestFlags;
   OpenRequestFlags; OpenResponseFlags; OpendirRequestFlags;
   OpendirResponseFlags; PollRequestFlags; SetlkRequestFlags;
   SetxattrRequestFlags; WriteRequestFlags].

(** ** Operations on a flag set with bits [bits] and a flag with mask [mask] *)
(** fuse/internal/bitflags.rs:79-81 [new] *)
Definition flags_new : N := 0.
(** fuse/internal/bitflags.rs:92-94 [get] *)
Definition flags_get (bits mask : N) : bool := N.land bits mask =? mask.
(** fuse/internal/bitflags.rs:97-99 [set] *)
Definition flags_set (bits mask : N) : N := N.lor bits mask.
(** fuse/internal/bitflags.rs:102-108 [set_to]; [ones] is the value of the
    type with all bits set, [!mask] its complement *)
Definition flags_set_to (ones bits mask : N) (set : bool) : N :=
  if set then N.lor bits mask else N.land bits (N.lxor ones mask).
(** fuse/internal/bitflags.rs:111-121 [PartialEq], both ways round *)
Definition flags_eq_flag (bits mask : N) : bool := bits =? mask.
(** fuse/internal/bitflags.rs:123-161 [BitOr] and [BitOrAssign] between flags
    and flag sets: all six are this function *)
Definition flags_or (a b : N) : N := N.lor a b.
(** fuse/internal/bitflags.rs:163-174 [BitAnd] and [BitAndAssign] *)
Definition flags_and (a b : N) : N := N.land a b.
(** fuse/internal/bitflags.rs:40-47 [flag_name]: the first name whose mask is
    the mask of the flag *)
Definition flag_name (t : flags_type) (mask : N) : option string :=
  match find (fun f => snd f =? mask) (ft_flags t) with
  | Some f => Some (fst f)
  | None => None
  end.
(** fuse/internal/bitflags.rs:64-70: the masks of the entries of the debug
    set, in order of printing *)
Definition flags_masks (t : flags_type) (bits : N) : list N :=
  filter (fun mask => negb (N.land bits mask =? 0))
    (map (fun off => N.shiftl 1 (N.of_nat off)) (seq 0 (ft_bits t))).
