(** Specification of the FUSE wire format, client side: what the kernel sends
    for each operation, and what a server should see of it through the API.

    This file is written from the kernel's <linux/fuse.h> structures (field
    order, widths and the protocol version in which each layout changed); it
    does not use the decoder model. *)

From Verif Require Import Base CoreModel OpsModel.
From Coq Require Import List NArith ZArith Bool.
Import ListNotations.
Open Scope N_scope.

(** An operation as the kernel issues it.  Fields named [pad] or [unused] are
    reserved; a server must ignore them.  The [fuse_file_lock] of GETLK/SETLK
    is [start], [end_], [type], [pid]. *)
Inductive client_op :=
| OAccess (mask pad : N)
| OBmap (block blocksize pad : N)
| OCopyFileRange (fh_in off_in nodeid_out fh_out off_out len flags : N)
| OCreate (flags mode umask open_flags : N) (name : bytes)
| OCuseInit (major minor unused flags : N)
| OFallocate (fh offset length mode pad : N)
| OFlush (fh unused pad lock_owner : N)
| OForget (nlookup : N)
| OBatchForget (dummy : N) (items : list (N * N))
| OFsync (fh fsync_flags pad : N)
| OFsyncdir (fh fsync_flags pad : N)
| OInit (major minor max_readahead flags flags2 : N) (unused : bytes)
| OGetattr (getattr_flags dummy fh : N)
| OGetlk (fh owner start end_ type pid lk_flags pad : N)
| OGetxattr (size pad : N) (name : bytes)
| OInterrupt (unique : N)
| OIoctl (fh flags cmd arg out_size : N) (input : bytes)
| OLink (oldnodeid : N) (newname : bytes)
| OListxattr (size pad : N)
| OLookup (name : bytes)
| OLseek (fh offset whence pad : N)
| OMkdir (mode umask : N) (name : bytes)
| OMknod (mode rdev umask pad : N) (name : bytes)
| OOpen (flags open_flags : N)
| OOpendir (flags open_flags : N)
| OPoll (fh kh flags events : N)
| ORead (fh offset size read_flags lock_owner flags pad : N)
| OReaddir (fh offset size read_flags lock_owner flags pad : N)
| OReaddirplus (fh offset size read_flags lock_owner flags pad : N)
| OReadlink
| ORelease (fh flags release_flags lock_owner : N)
| OReleasedir (fh flags release_flags lock_owner : N)
| ORemovexattr (name : bytes)
| ORename (newdir : N) (oldname newname : bytes)
| ORename2 (newdir flags pad : N) (oldname newname : bytes)
| ORmdir (name : bytes)
| OSetattr (valid pad fh size lock_owner atime mtime ctime
            atimensec mtimensec ctimensec mode unused4 uid gid unused5 : N)
| OSetlk (wait : bool) (fh owner start end_ type pid lk_flags pad : N)
| OSetxattr (flags setxattr_flags pad : N) (name value : bytes)
| OStatfs
| OSymlink (name target : bytes)
| OUnlink (name : bytes)
| OWrite (fh offset write_flags lock_owner flags pad : N) (data : bytes).

(** [enum fuse_opcode] *)
Definition op_code (op : client_op) : N :=
  match op with
  | OLookup _ => 1 | OForget _ => 2 | OGetattr _ _ _ => 3
  | OSetattr _ _ _ _ _ _ _ _ _ _ _ _ _ _ _ _ => 4
  | OReadlink => 5 | OSymlink _ _ => 6 | OMknod _ _ _ _ _ => 8 | OMkdir _ _ _ => 9
  | OUnlink _ => 10 | ORmdir _ => 11 | ORename _ _ _ => 12 | OLink _ _ => 13
  | OOpen _ _ => 14 | ORead _ _ _ _ _ _ _ => 15 | OWrite _ _ _ _ _ _ _ => 16
  | OStatfs => 17 | ORelease _ _ _ _ => 18 | OFsync _ _ _ => 20
  | OSetxattr _ _ _ _ _ => 21 | OGetxattr _ _ _ => 22 | OListxattr _ _ => 23
  | ORemovexattr _ => 24 | OFlush _ _ _ _ => 25 | OInit _ _ _ _ _ _ => 26
  | OOpendir _ _ => 27 | OReaddir _ _ _ _ _ _ _ => 28 | OReleasedir _ _ _ _ => 29
  | OFsyncdir _ _ _ => 30 | OGetlk _ _ _ _ _ _ _ _ => 31
  | OSetlk wait _ _ _ _ _ _ _ _ => if wait then 33 else 32
  | OAccess _ _ => 34 | OCreate _ _ _ _ _ => 35 | OInterrupt _ => 36
  | OBmap _ _ _ => 37 | OIoctl _ _ _ _ _ _ => 39 | OPoll _ _ _ _ => 40
  | OBatchForget _ _ => 42 | OFallocate _ _ _ _ _ => 43
  | OReaddirplus _ _ _ _ _ _ _ => 44 | ORename2 _ _ _ _ _ => 45
  | OLseek _ _ _ _ => 46 | OCopyFileRange _ _ _ _ _ _ _ => 47
  | OCuseInit _ _ _ _ => 4096
  end.

(** [struct fuse_read_in]: grew from 24 to 40 bytes in 7.9. *)
Definition read_in (minor fh offset size read_flags lock_owner flags pad : N) : list field :=
  if minor <? 9 then [u64 fh; u64 offset; u32 size; u32 read_flags]
  else [u64 fh; u64 offset; u32 size; u32 read_flags; u64 lock_owner; u32 flags; u32 pad].

(** [struct fuse_release_in]: grew from 16 to 24 bytes in 7.8. *)
Definition release_in (minor fh flags release_flags lock_owner : N) : list field :=
  if minor <? 8 then [u64 fh; u32 flags; u32 release_flags]
  else [u64 fh; u32 flags; u32 release_flags; u64 lock_owner].

Definition lk_in (fh owner start end_ type pid lk_flags pad : N) : list field :=
  [u64 fh; u64 owner; u64 start; u64 end_; u32 type; u32 pid; u32 lk_flags; u32 pad].

(** The fixed-size structure at the start of the body. *)
Definition op_fields (cf : config) (op : client_op) : list field :=
  let minor := cf_minor cf in
  match op with
  | OAccess mask pad => [u32 mask; u32 pad]
  | OBmap block blocksize pad => [u64 block; u32 blocksize; u32 pad]
  | OCopyFileRange fh_in off_in nodeid_out fh_out off_out len flags =>
    [u64 fh_in; u64 off_in; u64 nodeid_out; u64 fh_out; u64 off_out; u64 len; u64 flags]
  | OCreate flags mode umask open_flags _ =>
    if minor <? 12 then [u32 flags; u32 mode]
    else [u32 flags; u32 mode; u32 umask; u32 open_flags]
  | OCuseInit major minor unused flags => [u32 major; u32 minor; u32 unused; u32 flags]
  | OFallocate fh offset length mode pad =>
    [u64 fh; u64 offset; u64 length; u32 mode; u32 pad]
  | OFlush fh unused pad lock_owner => [u64 fh; u32 unused; u32 pad; u64 lock_owner]
  | OForget nlookup => [u64 nlookup]
  | OBatchForget dummy items => [u32 (nlen items); u32 dummy]
  | OFsync fh fsync_flags pad => [u64 fh; u32 fsync_flags; u32 pad]
  | OFsyncdir fh fsync_flags pad => [u64 fh; u32 fsync_flags; u32 pad]
  | OInit major minor max_readahead flags flags2 _ =>
    if negb (major =? 7) || (minor <? 6) then [u32 major; u32 minor]
    else if minor <? 36 then [u32 major; u32 minor; u32 max_readahead; u32 flags]
    else [u32 major; u32 minor; u32 max_readahead; u32 flags; u32 flags2]
  | OGetattr getattr_flags dummy fh =>
    if minor <? 9 then [] else [u32 getattr_flags; u32 dummy; u64 fh]
  | OGetlk fh owner start end_ type pid lk_flags pad =>
    lk_in fh owner start end_ type pid lk_flags pad
  | OGetxattr size pad _ => [u32 size; u32 pad]
  | OInterrupt unique => [u64 unique]
  | OIoctl fh flags cmd arg out_size input =>
    [u64 fh; u32 flags; u32 cmd; u64 arg; u32 (nlen input); u32 out_size]
  | OLink oldnodeid _ => [u64 oldnodeid]
  | OListxattr size pad => [u32 size; u32 pad]
  | OLookup _ => []
  | OLseek fh offset whence pad => [u64 fh; u64 offset; u32 whence; u32 pad]
  | OMkdir mode umask _ => [u32 mode; u32 umask]
  | OMknod mode rdev umask pad _ =>
    if minor <? 12 then [u32 mode; u32 rdev]
    else [u32 mode; u32 rdev; u32 umask; u32 pad]
  | OOpen flags open_flags => [u32 flags; u32 open_flags]
  | OOpendir flags open_flags => [u32 flags; u32 open_flags]
  | OPoll fh kh flags events => [u64 fh; u64 kh; u32 flags; u32 events]
  | ORead fh offset size read_flags lock_owner flags pad =>
    read_in minor fh offset size read_flags lock_owner flags pad
  | OReaddir fh offset size read_flags lock_owner flags pad =>
    read_in minor fh offset size read_flags lock_owner flags pad
  | OReaddirplus fh offset size read_flags lock_owner flags pad =>
    read_in minor fh offset size read_flags lock_owner flags pad
  | OReadlink => []
  | ORelease fh flags release_flags lock_owner =>
    release_in minor fh flags release_flags lock_owner
  | OReleasedir fh flags release_flags lock_owner =>
    release_in minor fh flags release_flags lock_owner
  | ORemovexattr _ => []
  | ORename newdir _ _ => [u64 newdir]
  | ORename2 newdir flags pad _ _ => [u64 newdir; u32 flags; u32 pad]
  | ORmdir _ => []
  | OSetattr valid pad fh size lock_owner atime mtime ctime
             atimensec mtimensec ctimensec mode unused4 uid gid unused5 =>
    [u32 valid; u32 pad; u64 fh; u64 size; u64 lock_owner; u64 atime; u64 mtime; u64 ctime;
     u32 atimensec; u32 mtimensec; u32 ctimensec; u32 mode; u32 unused4; u32 uid; u32 gid;
     u32 unused5]
  | OSetlk _ fh owner start end_ type pid lk_flags pad =>
    lk_in fh owner start end_ type pid lk_flags pad
  | OSetxattr flags setxattr_flags pad _ value =>
    if cf_setxattr_ext cf then [u32 (nlen value); u32 flags; u32 setxattr_flags; u32 pad]
    else [u32 (nlen value); u32 flags]
  | OStatfs => []
  | OSymlink _ _ => []
  | OUnlink _ => []
  | OWrite fh offset write_flags lock_owner flags pad data =>
    if minor <? 9 then [u64 fh; u64 offset; u32 (nlen data); u32 write_flags]
    else [u64 fh; u64 offset; u32 (nlen data); u32 write_flags; u64 lock_owner; u32 flags;
          u32 pad]
  end.

Section Wire.
Context {E : Endian}.

Definition item_bytes (item : N * N) : bytes := wire [u64 (fst item); u64 (snd item)].

(** What follows the fixed-size structure. *)
Definition op_tail (op : client_op) : bytes :=
  match op with
  | OCreate _ _ _ _ name => name ++ [x00]
  | OBatchForget _ items => concat (map item_bytes items)
  | OInit major minor _ _ _ unused =>
    if (major =? 7) && (36 <=? minor) then unused else []
  | OGetxattr _ _ name => name ++ [x00]
  | OIoctl _ _ _ _ _ input => input
  | OLink _ name => name ++ [x00]
  | OLookup name => name ++ [x00]
  | OMkdir _ _ name => name ++ [x00]
  | OMknod _ _ _ _ name => name ++ [x00]
  | ORemovexattr name => name ++ [x00]
  | ORename _ oldname newname => (oldname ++ [x00]) ++ newname ++ [x00]
  | ORename2 _ _ _ oldname newname => (oldname ++ [x00]) ++ newname ++ [x00]
  | ORmdir name => name ++ [x00]
  | OSetxattr _ _ _ name value => (name ++ [x00]) ++ value
  | OSymlink name target => (name ++ [x00]) ++ target ++ [x00]
  | OUnlink name => name ++ [x00]
  | OWrite _ _ _ _ _ _ data => data
  | _ => []
  end.

Definition op_body (cf : config) (op : client_op) : bytes :=
  wire (op_fields cf op) ++ op_tail op.

(** The request header, [struct fuse_in_header]. *)
Record req_header := {
  rh_unique : N; rh_nodeid : N; rh_uid : N; rh_gid : N; rh_pid : N; rh_padding : N }.

Definition header_fields (len opcode : N) (hd : req_header) : list field :=
  [u32 len; u32 opcode; u64 (rh_unique hd); u64 (rh_nodeid hd);
   u32 (rh_uid hd); u32 (rh_gid hd); u32 (rh_pid hd); u32 (rh_padding hd)].

(** The message for an operation. *)
Definition encode (cf : config) (hd : req_header) (op : client_op) : bytes :=
  wire (header_fields (40 + nlen (op_body cf op)) (op_code op) hd) ++ op_body cf op.

(** A message announcing only [len] bytes of the operation's body: the
    operation cut short (or, when [extra] is not empty, followed by bytes a
    newer protocol might add). *)
Definition encode_len (cf : config) (hd : req_header) (op : client_op) (extra : bytes)
    (len : N) : bytes :=
  wire (header_fields len (op_code op) hd) ++ take (len - 40) (op_body cf op ++ extra).

End Wire.

(** ** Well-formed operations *)

Definition in_range (f : field) : Prop := snd f < 256 ^ N.of_nat (fst f).

Definition good_header (hd : req_header) : Prop :=
  Forall in_range (header_fields 0 0 hd) /\ rh_unique hd <> 0.

Definition good_name (s : bytes) : Prop := s <> [] /\ ~ In x00 s /\ ~ In x2f s.
Definition good_cstr (s : bytes) : Prop := s <> [] /\ ~ In x00 s.

(** Node ids carried in the body. *)
Definition body_node_ids (op : client_op) : list N :=
  match op with
  | OCopyFileRange _ _ nodeid_out _ _ _ _ => [nodeid_out]
  | OLink oldnodeid _ => [oldnodeid]
  | ORename newdir _ _ => [newdir]
  | ORename2 newdir _ _ _ _ => [newdir]
  | _ => []
  end.

(** Operations that are about a node (so the header names one). *)
Definition about_node (op : client_op) : bool :=
  match op with
  | OCuseInit _ _ _ _ | OForget _ | OBatchForget _ _ | OInit _ _ _ _ _ _
  | OInterrupt _ => false
  | _ => true
  end.

Definition ns_limit : N := 999999999.

Definition good_op (cf : config) (op : client_op) : Prop :=
  Forall in_range (op_fields cf op) /\
  match op with
  | OCreate _ _ _ _ name | OLink _ name | OLookup name | OMkdir _ _ name
  | OMknod _ _ _ _ name | ORmdir name | OUnlink name => good_name name
  | ORename _ a b | ORename2 _ _ _ a b => good_name a /\ good_name b
  | OGetxattr _ _ name | ORemovexattr name => ~ In x00 name
  | OSetxattr _ _ _ name _ => good_cstr name
  | OSymlink name target => good_name name /\ good_cstr target
  | OBatchForget _ items =>
    nlen items < 268435456 /\
    Forall (fun i => Forall in_range [u64 (fst i); u64 (snd i)]) items
  | OInit _ _ _ _ _ unused => nlen unused = 44
  | OInterrupt unique => unique <> 0
  | OGetlk _ _ start end_ _ _ _ _ | OSetlk _ _ _ start end_ _ _ _ _ => start <= end_
  | OSetattr valid _ _ _ _ _ _ _ atimensec mtimensec ctimensec _ _ _ _ _ =>
    (N.testbit valid 4 = true -> atimensec <= ns_limit) /\
    (N.testbit valid 5 = true -> mtimensec <= ns_limit) /\
    (N.testbit valid 10 = true -> ctimensec <= ns_limit)
  | _ => True
  end.

(** ** What the server should see *)

Definition op_type (op : client_op) : rtype :=
  match op with
  | OAccess _ _ => RAccess | OBmap _ _ _ => RBmap
  | OCopyFileRange _ _ _ _ _ _ _ => RCopyFileRange
  | OCreate _ _ _ _ _ => RCreate | OCuseInit _ _ _ _ => RCuseInit
  | OFallocate _ _ _ _ _ => RFallocate | OFlush _ _ _ _ => RFlush
  | OForget _ | OBatchForget _ _ => RForget | OFsync _ _ _ => RFsync
  | OFsyncdir _ _ _ => RFsyncdir | OInit _ _ _ _ _ _ => RFuseInit
  | OGetattr _ _ _ => RGetattr | OGetlk _ _ _ _ _ _ _ _ => RGetlk
  | OGetxattr _ _ _ => RGetxattr | OInterrupt _ => RInterrupt
  | OIoctl _ _ _ _ _ _ => RIoctl | OLink _ _ => RLink | OListxattr _ _ => RListxattr
  | OLookup _ => RLookup | OLseek _ _ _ _ => RLseek | OMkdir _ _ _ => RMkdir
  | OMknod _ _ _ _ _ => RMknod | OOpen _ _ => ROpen | OOpendir _ _ => ROpendir
  | OPoll _ _ _ _ => RPoll | ORead _ _ _ _ _ _ _ => RRead
  | OReaddir _ _ _ _ _ _ _ => RReaddir | OReaddirplus _ _ _ _ _ _ _ => RReaddirplus
  | OReadlink => RReadlink | ORelease _ _ _ _ => RRelease
  | OReleasedir _ _ _ _ => RReleasedir | ORemovexattr _ => RRemovexattr
  | ORename _ _ _ | ORename2 _ _ _ _ _ => RRename | ORmdir _ => RRmdir
  | OSetattr _ _ _ _ _ _ _ _ _ _ _ _ _ _ _ _ => RSetattr
  | OSetlk _ _ _ _ _ _ _ _ _ => RSetlk | OSetxattr _ _ _ _ _ => RSetxattr
  | OStatfs => RStatfs | OSymlink _ _ => RSymlink | OUnlink _ => RUnlink
  | OWrite _ _ _ _ _ _ _ => RWrite
  end.

Definition nonzero (n : N) : option N := if n =? 0 then None else Some n.

(** The value of an optional attribute guarded by bit [k] of [flags]. *)
Definition guarded {A} (flags k : N) (v : A) : option A :=
  if N.testbit flags k then Some v else None.

(** The byte range of a POSIX lock: [end_] inclusive; from [i64::MAX] on it
    means "to the end of the file". *)
Definition lock_range (start end_ : N) : LockRange :=
  {| lr_start := start;
     lr_length := if 9223372036854775807 <=? end_ then None else Some (end_ - start + 1) |}.

Definition time (seconds nanos : N) : UnixTime :=
  {| ut_seconds := as_i64 seconds; ut_nanos := nanos |}.

(** [S_IFCHR] is 2, [S_IFBLK] is 6. *)
Definition is_device (mode : N) : bool :=
  ((mode / 4096) mod 16 =? 2) || ((mode / 4096) mod 16 =? 6).

(** The node a request is about.  A CUSE server has a single node, the root;
    CUSE requests may carry node id 0. *)
Definition subject (is_cuse : bool) (nodeid : N) : N :=
  if is_cuse then if nodeid =? 0 then 1 else nodeid else nodeid.

Definition expected (is_cuse : bool) (cf : config) (nodeid : N) (op : client_op) : view :=
  let since (v x : N) : N := if cf_minor cf <? v then 0 else x in
  let since_opt (v : N) (x : option N) : option N :=
    if cf_minor cf <? v then None else x in
  match op with
  | OAccess mask _ => VAccess nodeid mask
  | OBmap block blocksize _ => VBmap nodeid block blocksize
  | OCopyFileRange fh_in off_in nodeid_out fh_out off_out len flags =>
    VCopyFileRange nodeid fh_in off_in nodeid_out fh_out off_out len flags
  | OCreate flags mode umask open_flags name =>
    VCreate nodeid name (since 12 open_flags) flags mode (since 12 umask)
  | OCuseInit major minor _ flags => VCuseInit {| v_major := major; v_minor := minor |} flags
  | OFallocate fh offset length mode _ => VFallocate nodeid fh offset length mode
  | OFlush fh _ _ lock_owner => VFlush (if is_cuse then 1 else nodeid) fh lock_owner
  | OForget nlookup => VForget (if nodeid =? 0 then [] else [(nodeid, nlookup)])
  | OBatchForget _ items => VForget (filter (fun i => negb (fst i =? 0)) items)
  | OFsync fh flags _ => VFsync (subject is_cuse nodeid) fh flags
  | OFsyncdir fh flags _ => VFsyncdir nodeid fh flags
  | OInit major minor max_readahead flags flags2 _ =>
    let v := {| v_major := major; v_minor := minor |} in
    if negb (major =? 7) || (minor <? 6) then VFuseInit v 0 0
    else if minor <? 36 then VFuseInit v max_readahead flags
    else VFuseInit v max_readahead (flags + 4294967296 * flags2)
  | OGetattr getattr_flags _ fh => VGetattr nodeid (since_opt 9 (guarded getattr_flags 0 fh))
  | OGetlk fh owner start end_ type _ _ _ =>
    VGetlk nodeid fh owner type (lock_range start end_)
  | OGetxattr size _ name => VGetxattr nodeid (nonzero size) name
  | OInterrupt unique => VInterrupt unique
  | OIoctl fh flags cmd arg out_size input =>
    VIoctl (subject is_cuse nodeid) fh cmd arg input (nlen input) out_size flags
  | OLink oldnodeid name => VLink oldnodeid nodeid name
  | OListxattr size _ => VListxattr nodeid (nonzero size)
  | OLookup name => VLookup nodeid name
  | OLseek fh offset whence _ => VLseek nodeid fh offset whence
  | OMkdir mode umask name => VMkdir nodeid name mode umask
  | OMknod mode rdev umask _ name =>
    VMknod nodeid name mode (since 12 umask) (if is_device mode then Some rdev else None)
  | OOpen flags open_flags => VOpen (subject is_cuse nodeid) open_flags flags
  | OOpendir flags open_flags => VOpendir nodeid open_flags flags
  | OPoll fh kh flags events => VPoll nodeid events kh flags
  | ORead fh offset size read_flags lock_owner flags _ =>
    VRead (subject is_cuse nodeid) size offset fh
          (since_opt 9 (guarded read_flags 1 lock_owner)) (since 9 flags)
  | OReaddir fh offset size _ _ flags _ =>
    VReaddir nodeid size (nonzero offset) fh (since 9 flags)
  | OReaddirplus fh offset size _ _ flags _ =>
    VReaddirplus nodeid size (nonzero offset) fh (since 9 flags)
  | OReadlink => VReadlink nodeid
  | ORelease fh flags release_flags lock_owner =>
    VRelease (subject is_cuse nodeid) fh
             (since_opt 8 (guarded release_flags 1 lock_owner)) flags
  | OReleasedir fh flags release_flags lock_owner =>
    VReleasedir nodeid fh (since_opt 8 (guarded release_flags 1 lock_owner)) flags
  | ORemovexattr name => VRemovexattr nodeid name
  | ORename newdir a b => VRename nodeid a newdir b 0
  | ORename2 newdir flags _ a b => VRename nodeid a newdir b flags
  | ORmdir name => VRmdir nodeid name
  | OSetattr valid _ fh size lock_owner atime mtime ctime
             atimensec mtimensec ctimensec mode _ uid gid _ =>
    VSetattr nodeid (guarded valid 6 fh) (guarded valid 3 size) (guarded valid 9 lock_owner)
      (guarded valid 4 (time atime atimensec)) (N.testbit valid 7)
      (guarded valid 5 (time mtime mtimensec)) (N.testbit valid 8)
      (guarded valid 10 (time ctime ctimensec))
      (guarded valid 0 mode) (guarded valid 1 uid) (guarded valid 2 gid)
  | OSetlk wait fh owner start end_ type pid lk_flags _ =>
    VSetlk nodeid fh wait owner
      {| lk_mode := type; lk_range := lock_range start end_; lk_pid := nonzero pid |} lk_flags
  | OSetxattr flags setxattr_flags _ name value =>
    VSetxattr nodeid name (if cf_setxattr_ext cf then setxattr_flags else 0) flags value
  | OStatfs => VStatfs nodeid
  | OSymlink name target => VSymlink nodeid name target
  | OUnlink name => VUnlink nodeid name
  | OWrite fh offset write_flags lock_owner flags _ data =>
    VWrite (subject is_cuse nodeid) offset fh data write_flags
           (since_opt 9 (guarded write_flags 1 lock_owner)) (since 9 flags)
  end.
