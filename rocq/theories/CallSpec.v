(** System calls on names, nodes and open files on Linux: which request a call
    becomes, and what the program gets from the reply.

    Written from the Linux sources (fs/fuse/dir.c, fs/fuse/file.c), not from
    /repo.  A call here is one operation of the kernel on a node it knows: the
    walk along a path, the checks of permissions by the kernel and its caches
    are left out. *)

From Verif Require Import Base CoreModel DecodeModel OpsModel WireSpec ReplyModel DeviceSpec ClientSpec TakenSpec FileSpec.
From Coq Require Import List NArith ZArith Bool.
Import ListNotations.
Open Scope N_scope.

(** Directories and nodes are given by their ids; [t] is the type of the node as
    the kernel knows it, and [fh] a handle the server gave it.  Of a time, the
    flag says that it is the present time. *)
Inductive sys_call :=
| Lookup (dir : N) (name : bytes)
| Stat (node t : N)
| Setattr (node t : N) (mode uid gid size fh owner : option N) (atime mtime : option (bool * (Z * N)))
| Readlink (node : N)
| Access (node mask : N)
| Mkdir (dir : N) (name : bytes) (mode umask : N)
| Mknod (dir : N) (name : bytes) (mode rdev umask : N)
| Unlink (dir : N) (name : bytes)
| Rmdir (dir : N) (name : bytes)
| Rename (dir : N) (name : bytes) (newdir : N) (newname : bytes) (flags : N)
| Link (node t dir : N) (name : bytes)
| Create (dir : N) (name : bytes) (flags mode umask : N)
| Open (node flags : N)
| Opendir (node flags : N)
| Getlk (node fh owner first last type pid : N)
| Setlk (wait : bool) (node fh owner first last type pid : N)
| Lseek (node fh offset whence : N)
| Fallocate (node fh offset length mode : N)
| CopyFileRange (node fh offset node' fh' offset' length : N)
| Fsync (node fh flags : N)
| Fsyncdir (node fh flags : N)
| Symlink (dir : N) (name target : bytes)
| Statfs (node : N)
| Flush (node fh owner : N)
| Release (node fh flags : N) (owner : option N)
| Releasedir (node fh flags : N)
| Bmap (node block size : N)
| Poll (node fh kh flags events : N).

(** What statfs(2) tells a program. *)
Record space := {
  f_bsize : N; f_frsize : N; f_blocks : N; f_bfree : N; f_bavail : N; f_files : N; f_ffree : N; f_namelen : N }.

(** Errors are positive.  [OtherWay]: the kernel goes on with other requests. *)
Inductive sys_result :=
| Done
| Node (n : node)
| File (n : node) (fh flags : N)
| Attributes (s : stat) (valid : N * N)
| Text (target : bytes)
| Handle (fh flags : N)
| LockIs (l : lock_state)
| Number (n : N)
| Space (s : space)
| OtherWay
| Error (errno : Z).

(** ** The request *)

Definition bit {A} (k : N) (o : option A) : N := match o with Some _ => 2 ^ k | None => 0 end.
Definition value (o : option N) : N := match o with Some v => v | None => 0 end.
Definition now_bit (k : N) (o : option (bool * (Z * N))) : N :=
  match o with Some (true, _) => 2 ^ k | _ => 0 end.
Definition secs (o : option (bool * (Z * N))) : N :=
  match o with Some (_, (s, _)) => if (s <? 0)%Z then Z.to_N (s + 2 ^ 64) else Z.to_N s | None => 0 end.
Definition nanos (o : option (bool * (Z * N))) : N :=
  match o with Some (_, (_, n)) => n | None => 0 end.

(** The node in the header, and the request. *)
Definition request_of (c : sys_call) : N * client_op :=
  match c with
  | Lookup dir name => (dir, OLookup name)
  | Stat node _ => (node, OGetattr 0 0 0)
  (* [iattr_to_fattr]; bits of struct [fuse_setattr_in] [valid] *)
  | Setattr node _ mode uid gid size fh owner atime mtime =>
    (node, OSetattr (bit 0 mode + bit 1 uid + bit 2 gid + bit 3 size + bit 4 atime + bit 5 mtime + bit 6 fh +
                     now_bit 7 atime + now_bit 8 mtime + bit 9 owner)
             0 (value fh) (value size) (value owner) (secs atime) (secs mtime) 0 (nanos atime) (nanos mtime) 0
             (value mode) 0 (value uid) (value gid) 0)
  | Readlink node => (node, OReadlink)
  | Access node mask => (node, OAccess mask 0)
  | Mkdir dir name mode umask => (dir, OMkdir mode umask name)
  | Mknod dir name mode rdev umask => (dir, OMknod mode rdev umask 0 name)
  | Unlink dir name => (dir, OUnlink name)
  | Rmdir dir name => (dir, ORmdir name)
  (* [fuse_rename2]: RENAME2 only for what RENAME cannot say *)
  | Rename dir name newdir newname flags =>
    (dir, if flags =? 0 then ORename newdir name newname else ORename2 newdir flags 0 name newname)
  | Link node _ dir name => (dir, OLink node name)
  | Create dir name flags mode umask => (dir, OCreate flags mode umask 0 name)
  | Open node flags => (node, OOpen flags 0)
  | Opendir node flags => (node, OOpendir flags 0)
  | Getlk node fh owner first last type pid => (node, OGetlk fh owner first last type pid 0 0)
  | Setlk wait node fh owner first last type pid => (node, OSetlk wait fh owner first last type pid 0 0)
  | Lseek node fh offset whence => (node, OLseek fh offset whence 0)
  | Fallocate node fh offset length mode => (node, OFallocate fh offset length mode 0)
  | CopyFileRange node fh offset node' fh' offset' length =>
    (node, OCopyFileRange fh offset node' fh' offset' length 0)
  | Fsync node fh flags => (node, OFsync fh flags 0)
  | Fsyncdir node fh flags => (node, OFsyncdir fh flags 0)
  | Symlink dir name target => (dir, OSymlink name target)
  | Statfs node => (node, OStatfs)
  | Flush node fh owner => (node, OFlush fh 0 0 owner)
  (* [fuse_prepare_release], [fuse_file_release]: FUSE_RELEASE_FLOCK_UNLOCK if there was a flock(2) *)
  | Release node fh flags owner => (node, ORelease fh flags (bit 1 owner) (value owner))
  | Releasedir node fh flags => (node, OReleasedir fh flags 0 0)
  | Bmap node block size => (node, OBmap block size 0)
  | Poll node fh kh flags events => (node, OPoll fh kh flags events)
  end.

(** ** The result *)

Section Result.
Context {E : Endian}.

Definition node_result (l : looked) : sys_result :=
  match l with Absent => Error 2 | Found n => Node n | TakenSpec.Broken e => Error e end.

(** fs/fuse/inode.c [convert_fuse_statfs] and fs/statfs.c [statfs_by_dentry]:
    blocks are not divided if the server says nothing of it. *)
Definition linux_statfs (p : bytes) : space :=
  {| f_bsize := u32_at 40 p; f_frsize := if u32_at 48 p =? 0 then u32_at 40 p else u32_at 48 p;
     f_blocks := u64_at 0 p; f_bfree := u64_at 8 p; f_bavail := u64_at 16 p; f_files := u64_at 24 p;
     f_ffree := u64_at 32 p; f_namelen := u32_at 44 p |}.

(** The events of poll(2): POLLIN, POLLPRI, POLLOUT, POLLERR, POLLHUP, POLLNVAL,
    POLLRDNORM, POLLRDBAND, POLLWRNORM, POLLWRBAND, POLLMSG, POLLRDHUP
    (include/linux/poll.h [demangle_poll]). *)
Definition poll_events : N := 1 + 2 + 4 + 8 + 16 + 32 + 64 + 128 + 256 + 512 + 1024 + 8192.

(** From the payload of an accepted reply; [bs] is the block size of the
    mount. *)
Definition result_of (bs : N) (c : sys_call) (p : bytes) : sys_result :=
  match c with
  | Lookup _ _ => node_result (linux_lookup bs p)
  | Stat _ t | Setattr _ t _ _ _ _ _ _ _ _ =>
    match linux_getattr bs t p with inl (s, v) => Attributes s v | inr e => Error e end
  | Readlink _ => Text (linux_readlink p)
  | Mkdir _ _ _ _ => node_result (linux_created bs 16384 p)
  | Mknod _ _ mode _ _ => node_result (linux_created bs (file_type mode) p)
  | Link _ t _ _ => node_result (linux_created bs t p)
  | Symlink _ _ _ => node_result (linux_created bs 40960 p)
  | Create _ _ _ _ _ =>
    match linux_create bs p with
    | (Found n, (fh, flags)) => File n fh flags
    | (l, _) => node_result l
    end
  | Open _ _ | Opendir _ _ => Handle (u64_at 0 p) (u32_at 8 p)
  | Getlk _ _ _ _ _ _ _ => match linux_getlk p with inl l => LockIs l | inr e => Error e end
  | Lseek _ _ _ _ => match linux_lseek p with inl n => Number n | inr e => Error e end
  | CopyFileRange _ _ _ _ _ _ _ => Number (u32_at 0 p)
  | Statfs _ => Space (linux_statfs p)
  (* fs/ioctl.c [ioctl_fibmap]: a block is an [int] *)
  | Bmap _ _ _ => if u64_at 0 p <? 2 ^ 31 then Number (u64_at 0 p) else Error 34
  | Poll _ _ _ _ _ => Number (N.land (u32_at 0 p) poll_events)
  | _ => Done
  end.

(** From an error. *)
Definition failure (c : sys_call) (e : Z) : sys_result :=
  match c with
  (* nobody waits for the reply *)
  | Release _ _ _ _ | Releasedir _ _ _ => Done
  (* fs/fuse/file.c [fuse_bmap]: a hole *)
  | Bmap _ _ _ => Number 0
  (* fs/fuse/file.c [fuse_file_poll]: EPOLLERR *)
  | Poll _ _ _ _ _ => Number 8
  (* fs/fuse/file.c [fuse_copy_file_range]: by reading and writing, for EOPNOTSUPP and EXDEV *)
  | CopyFileRange _ _ _ _ _ _ _ => if (e =? 95)%Z || (e =? 18)%Z then OtherWay else Error e
  (* fs/fuse/file.c [fuse_setlk]: EINTR becomes ERESTARTSYS *)
  | Setlk _ _ _ _ _ _ _ _ => if (e =? 4)%Z then Error 512 else Error e
  | _ => Error e
  end.

(** ** Operations that are not implemented *)

(** What becomes of a call if the server does not implement the operation, if
    that is more than an error (fs/fuse/dir.c [fuse_access], [fuse_create_open],
    [fuse_rename2], fs/fuse/file.c [fuse_file_open], [fuse_flush], [fuse_fsync],
    [fuse_lseek], [fuse_file_fallocate], [__fuse_copy_file_range],
    [fuse_file_poll], [fuse_bmap]): access is granted, there is nothing to
    flush; files are open without a handle, with FOPEN_KEEP_CACHE and
    FOPEN_CACHE_DIR; the events are those of a file that never blocks. *)
Definition without_it (c : sys_call) : option sys_result :=
  match c with
  | Access _ _ | Flush _ _ _ | Fsync _ _ _ | Fsyncdir _ _ _ => Some Done
  | Open _ _ => Some (Handle 0 2)
  | Opendir _ _ => Some (Handle 0 (2 + 8))
  | Fallocate _ _ _ _ _ => Some (Error 95)
  | Rename _ _ _ _ flags => if flags =? 0 then None else Some (Error 22)
  | Create _ _ _ _ _ | Lseek _ _ _ _ | CopyFileRange _ _ _ _ _ _ _ => Some OtherWay
  | Poll _ _ _ _ _ => Some (Number (1 + 4 + 64 + 256))
  | Bmap _ _ _ => Some (Number 0)
  | _ => None
  end.

(** The kernel remembers the codes of these operations.  What is released it
    tells only a server that has OPEN or OPENDIR. *)
Definition remembers (known : list N) (code : N) : bool := existsb (N.eqb code) known.
Definition skipped (known : list N) (c : sys_call) : option sys_result :=
  match c with
  | Release _ _ _ _ => if remembers known 14 then Some Done else None
  | Releasedir _ _ _ => if remembers known 27 then Some Done else None
  | _ => if remembers known (op_code (snd (request_of c))) then without_it c else None
  end.
(** RENAME2 is since 7.23 ([fuse_rename2]). *)
Definition too_old (minor : N) (c : sys_call) : bool :=
  match c with Rename _ _ _ _ flags => negb (flags =? 0) && (minor <? 23) | _ => false end.

(** After an error of the server: what the kernel knows then, and the result. *)
Definition after_error (known : list N) (c : sys_call) (e : Z) : list N * sys_result :=
  match without_it c with
  | Some r => if (e =? 38)%Z then (op_code (snd (request_of c)) :: known, r) else (known, failure c e)
  | None => (known, failure c e)
  end.

(** ** A mounted file system *)

(** [m_hd k] is the header of the [k]-th request, but for the node. *)
Record mounted := {
  m_max_write : N; m_buf_len : N; m_cf : config; m_bs : N; m_hd : nat -> req_header }.
Definition header (m : mounted) (k : nat) (node : N) : req_header :=
  {| rh_unique := rh_unique (m_hd m k); rh_nodeid := node; rh_uid := rh_uid (m_hd m k);
     rh_gid := rh_gid (m_hd m k); rh_pid := rh_pid (m_hd m k); rh_padding := rh_padding (m_hd m k) |}.

Section Program.
Context {St : Type}.

(** One call; [known] is what the kernel knows of the server. *)
Definition sys (m : mounted) (prog : program St) (k : nat) (known : list N) (s : St) (c : sys_call)
    : option (list N * St * sys_result) :=
  if too_old (cf_minor (m_cf m)) c then Some (known, s, Error 22)
  else match skipped known c with
  | Some r => Some (known, s, r)
  | None =>
    let (node, op) := request_of c in
    match exchange false (m_max_write m) (m_buf_len m) (m_cf m) prog s (header m k node) op with
    | None => None
    | Some (s', inl p) => Some (known, s', result_of (m_bs m) c p)
    | Some (s', inr e) => let (known', r) := after_error known c (- e) in Some (known', s', r)
    end
  end.

(** The calls of a program, one after the other. *)
Fixpoint sys_calls (m : mounted) (prog : program St) (k : nat) (known : list N) (s : St) (l : list sys_call)
    : option (list N * St * list sys_result) :=
  match l with
  | [] => Some (known, s, [])
  | c :: l =>
    match sys m prog k known s c with
    | None => None
    | Some (known', s', r) =>
      match sys_calls m prog (S k) known' s' l with
      | None => None
      | Some (known'', s'', rs) => Some (known'', s'', r :: rs)
      end
    end
  end.
End Program.
End Result.
