(** What [{:?}] and [{:#?}] print: the [fmt::Debug] implementations of the
    requests, of the request header and of the values in them. *)

From Coq Require Import String.
From Verif Require Import Base Kernel CoreModel DecodeModel OpsModel FlagsModel HostModel.
From Coq Require Import List NArith ZArith Bool.
Import ListNotations.
Open Scope string_scope.
Open Scope list_scope.
Open Scope N_scope.

(** ** [core::fmt]

    Not code of this repository.  Used by fuse/internal/debug.rs,
    fuse/internal/bitflags.rs and all the implementations cited below. *)

(** What is passed to a formatter.  [DAtom]: text written as it is.  [DStr]: a
    string literal.  [DNode]: [debug_struct], [debug_tuple], [debug_list] or a
    name and [debug_set]; only the children of a struct have labels.
    [DInline]: [format_args!("{:?}", ...)] or [write!], which do not pass on
    the [#] of the formatter (used e.g. at fuse/operations/getattr.rs:70) *)
Inductive node_kind := KStruct | KTuple | KList | KSet.
(** see [node_kind]; used e.g. at fuse/operations/getattr.rs:66-73 *)
Inductive dbg :=
| DAtom (text : bytes)
| DStr (value : bytes)
| DNode (kind : node_kind) (name : bytes) (children : list (bytes * dbg))
| DInline (d : dbg).

(** The digits of a number; [X] and [#] of fuse/internal/debug.rs:34, 48 print
    the hexadecimal ones in upper case. *)
Definition digit_byte (d : N) : byte := nth (N.to_nat d) (txt "0123456789ABCDEF") x00.
(** [{:?}] of integers in base [base] (core::fmt::num), most significant digit
    first; used e.g. at fuse/operations/access.rs:59-60 *)
Fixpoint num_digits (fuel : nat) (base n : N) (acc : bytes) : bytes :=
  match fuel with
  | O => acc
  | S fuel =>
    let acc := digit_byte (n mod base) :: acc in
    if n / base =? 0 then acc else num_digits fuel base (n / base) acc
  end.
(** the same, used as above (fuse/operations/access.rs:59-60); a number has no
    more digits than bits *)
Definition num_text (base n : N) : bytes := num_digits (S (N.size_nat n)) base n [].
(** Zeros on the left up to [width]: the [0] flag and the width in
    fuse/internal/debug.rs:34, 48 and fuse/unix_time.rs:107 *)
Definition zero_pad (width : nat) (s : bytes) : bytes :=
  repeat x30 (width - List.length s) ++ s.

(** core::ascii::escape_default, used at fuse/internal/debug.rs:66 and by
    [CStr]'s own [Debug] *)
Definition escape_byte (b : byte) : bytes :=
  let n := Byte.to_N b in
  if n =? 9 then txt "\t"
  else if n =? 13 then txt "\r"
  else if n =? 10 then txt "\n"
  else if (n =? 39) || (n =? 34) || (n =? 92) then [x5c; b]
  else if (32 <=? n) && (n <=? 126) then [b]
  else txt "\x" ++ [nth (N.to_nat (n / 16)) (txt "0123456789abcdef") x00;
                    nth (N.to_nat (n mod 16)) (txt "0123456789abcdef") x00].
(** fuse/internal/debug.rs:62-71 [DebugBytesAsString] *)
Definition str_text (s : bytes) : bytes := [x22] ++ flat_map escape_byte s ++ [x22].

(** The brackets of the builders of core::fmt (used as cited at [dbg]: e.g.
    fuse/operations/getattr.rs:66-73, fuse/unix_time.rs:106,
    fuse/operations/forget.rs:170, fuse/internal/bitflags.rs:63). *)
Definition opening (k : node_kind) : bytes :=
  match k with KStruct => txt " {" | KTuple => txt "(" | KList => txt "[" | KSet => txt " {" end.
(** fuse/operations/getattr.rs:71 and the others cited at [opening] *)
Definition closing (k : node_kind) : bytes :=
  match k with KStruct => txt "}" | KTuple => txt ")" | KList => txt "]" | KSet => txt "}" end.
(** The space inside the braces of a struct on one line
    (fuse/operations/getattr.rs:66-73). *)
Definition inner_space (k : node_kind) : bytes :=
  match k with KStruct => txt " " | _ => [] end.
(** The label of a field (fuse/operations/getattr.rs:69-70). *)
Definition label_text (k : node_kind) (label : bytes) : bytes :=
  match k with KStruct => label ++ txt ": " | _ => [] end.
(** A builder that got no fields: a struct or tuple prints its name only
    (fuse/operations/forget.rs:170, fuse/internal/bitflags.rs:63 can be empty). *)
Definition empty_text (k : node_kind) : bytes :=
  match k with KStruct | KTuple => [] | KList => txt "[]" | KSet => txt " {}" end.

(** [{:?}] (core::fmt::builders, used as cited at [dbg]; e.g.
    fuse/operations/getattr.rs:66-73) *)
Fixpoint compact (d : dbg) : bytes :=
  match d with
  | DAtom s => s
  | DStr s => str_text s
  | DInline d => compact d
  | DNode k name [] => name ++ empty_text k
  | DNode k name (c :: rest) =>
    name ++ opening k ++ inner_space k ++
    label_text k (fst c) ++ compact (snd c) ++
    (fix more (l : list (bytes * dbg)) : bytes :=
       match l with
       | [] => []
       | c :: rest => txt ", " ++ label_text k (fst c) ++ compact (snd c) ++ more rest
       end) rest ++
    inner_space k ++ closing k
  end.

(** core::fmt::builders::PadAdapter: four spaces before whatever is written at
    the beginning of a line (used by [{:#?}] of all the implementations cited
    below, e.g. fuse/operations/getattr.rs:66-73). *)
Fixpoint pad (on_newline : bool) (s : bytes) : bytes :=
  match s with
  | [] => []
  | b :: rest =>
    (if on_newline then txt "    " else []) ++ [b] ++ pad (Byte.to_N b =? 10) rest
  end.
(** [{:#?}] (core::fmt::builders, used as cited at [dbg]; e.g.
    fuse/operations/getattr.rs:66-73) *)
Fixpoint pretty (d : dbg) : bytes :=
  match d with
  | DAtom s => s
  | DStr s => str_text s
  | DInline d => compact d
  | DNode k name [] => name ++ empty_text k
  | DNode k name (c :: rest) =>
    name ++ opening k ++ [x0a] ++
    pad true (label_text k (fst c) ++ pretty (snd c) ++ [x2c; x0a]) ++
    (fix more (l : list (bytes * dbg)) : bytes :=
       match l with
       | [] => []
       | c :: rest => pad true (label_text k (fst c) ++ pretty (snd c) ++ [x2c; x0a]) ++ more rest
       end) rest ++
    closing k
  end.

(** ** The implementations *)

(** [Formatter::debug_struct], called as cited below; also what
    [derive(Debug)] expands to (fuse/operations/lookup.rs:23) *)
Definition debug_struct (name : string) (fields : list (string * dbg)) : dbg :=
  DNode KStruct (txt name) (map (fun f => (txt (fst f), snd f)) fields).
(** [Formatter::debug_tuple] (fuse/unix_time.rs:106, fuse/operations/ioctl.rs:218) *)
Definition debug_tuple (name : string) (items : list dbg) : dbg :=
  DNode KTuple (txt name) (map (fun d => ([], d)) items).
(** [Formatter::debug_list] (fuse/operations/forget.rs:170) and slices
    (fuse/operations/ioctl.rs:218, fuse/server.rs:462, 519) *)
Definition debug_list (items : list dbg) : dbg := DNode KList [] (map (fun d => ([], d)) items).
(** [Option] (used at fuse/operations/getattr.rs:70 and wherever
    [format_args!] is cited below) *)
Definition debug_option {A} (f : A -> dbg) (o : option A) : dbg :=
  DInline match o with
          | None => DAtom (txt "None")
          | Some x => debug_tuple "Some" [f x]
          end.
(** unsigned integers (e.g. fuse/operations/access.rs:60), [NodeId]
    (fuse/node_id.rs:73-77) and [ProcessId] (fuse/lock.rs:169-173) *)
Definition debug_int (n : N) : dbg := DAtom (num_text 10 n).
(** a byte of a slice (fuse/operations/ioctl.rs:218) *)
Definition debug_u8 (b : byte) : dbg := debug_int (Byte.to_N b).
(** [bool] (fuse/operations/setattr.rs:159) *)
Definition debug_bool (b : bool) : dbg := DAtom (txt (if b then "true" else "false")).
(** fuse/internal/debug.rs:29-36; [LockOwner] is fuse/lock.rs:32-36 with
    [hex_u64] *)
Definition hex_u32 (n : N) : dbg := DAtom (txt "0x" ++ zero_pad 8 (num_text 16 n)).
(** fuse/internal/debug.rs:46-52 *)
Definition hex_u64 (n : N) : dbg := DAtom (txt "0x" ++ zero_pad 16 (num_text 16 n)).
(** [{:#o}]: [FileMode] (fuse/file_mode.rs:90-94) and umasks
    (fuse/operations/mkdir.rs:73) *)
Definition debug_octal (n : N) : dbg := DAtom (txt "0o" ++ num_text 8 n).
(** fuse/internal/debug.rs:54-71; [NodeName] (fuse/node_name.rs:123-127),
    [DeviceName] (fuse/cuse.rs:118-122) and [CStr] print the same *)
Definition debug_bytes (s : bytes) : dbg := DStr s.
(** fuse/internal/bitflags.rs:50-57 *)
Definition debug_flag (t : flags_type) (mask : N) : dbg :=
  match flag_name t mask with
  | Some name => DAtom (txt name)
  | None => if Nat.eqb (ft_bits t) 32 then hex_u32 mask else hex_u64 mask
  end.
(** fuse/internal/bitflags.rs:59-73 *)
Definition debug_flags (t : flags_type) (bits : N) : dbg :=
  DNode KSet (txt (ft_name t)) (map (fun mask => ([], debug_flag t mask)) (flags_masks t bits)).
(** fuse/unix_time.rs:104-110 *)
Definition debug_time (t : UnixTime) : dbg :=
  debug_tuple "UnixTime"
    [DAtom ((if (ut_seconds t <? 0)%Z then txt "-" else []) ++ num_text 10 (Z.abs_N (ut_seconds t)) ++
            txt "." ++ zero_pad 9 (num_text 10 (ut_nanos t)))].
(** fuse/fuse.rs:386-390 *)
Definition debug_version (v : Version) : dbg :=
  debug_struct "Version" [("major", debug_int (v_major v)); ("minor", debug_int (v_minor v))].
(** The lock modes of the target: fuse/lock.rs:190-209; os/linux.rs and
    os/freebsd.rs below *)
Record lock_modes := { F_RDLCK : N; F_WRLCK : N; F_UNLCK : N }.
(** fuse/os/linux.rs:43-104, for all targets but alpha, sparc and parisc *)
Definition linux_locks : lock_modes := {| F_RDLCK := 0; F_WRLCK := 1; F_UNLCK := 2 |}.
(** fuse/os/linux.rs:47-48, 68-69, 89-90 *)
Definition alpha_locks : lock_modes := {| F_RDLCK := 1; F_WRLCK := 2; F_UNLCK := 8 |}.
(** fuse/os/linux.rs:50-54, 71-75, 92-96 *)
Definition sparc_locks : lock_modes := {| F_RDLCK := 1; F_WRLCK := 2; F_UNLCK := 3 |}.
(** fuse/os/freebsd.rs:28-34 *)
Definition freebsd_locks : lock_modes := {| F_RDLCK := 1; F_WRLCK := 3; F_UNLCK := 2 |}.
(** fuse/lock.rs:211-223 *)
Definition debug_lock_mode (lm : lock_modes) (mode : N) : dbg :=
  if mode =? F_RDLCK lm then DAtom (txt "F_RDLCK")
  else if mode =? F_WRLCK lm then DAtom (txt "F_WRLCK")
  else if mode =? F_UNLCK lm then DAtom (txt "F_UNLCK")
  else DInline (debug_tuple "LockMode" [debug_int mode]).
(** fuse/lock.rs:119-126 *)
Definition debug_lock_range (r : LockRange) : dbg :=
  debug_struct "LockRange"
    [("start", debug_int (lr_start r)); ("length", debug_option debug_int (lr_length r))].
(** fuse/lock.rs:278-286 *)
Definition debug_lock (lm : lock_modes) (l : Lock) : dbg :=
  debug_struct "Lock"
    [("mode", debug_lock_mode lm (lk_mode l)); ("range", debug_lock_range (lk_range l));
     ("process_id", debug_option debug_int (lk_pid l))].
(** fuse/operations/forget.rs:25-29 *)
Definition debug_forget_item (item : N * N) : dbg :=
  debug_struct "ForgetRequestItem"
    [("node_id", debug_int (fst item)); ("lookup_count", debug_int (snd item))].
(** fuse/operations/lseek.rs:82-90 *)
Definition debug_whence (w : N) : dbg :=
  if w =? 3 then DAtom (txt "SEEK_DATA")
  else if w =? 4 then DAtom (txt "SEEK_HOLE")
  else debug_int w.

(** The [Debug] implementation of each request type, from the values its
    accessors return: fuse/operations/*.rs, lines cited at each case. *)
Definition debug_view (lm : lock_modes) (v : view) : dbg :=
  match v with
  (* fuse/operations/access.rs:56-63 *)
  | VAccess node_id mask =>
    debug_struct "AccessRequest"
      [("node_id", debug_int node_id); ("mask", debug_int mask)]
  (* fuse/operations/bmap.rs:58-66 *)
  | VBmap node_id block block_size =>
    debug_struct "BmapRequest"
      [("node_id", debug_int node_id); ("block", debug_int block);
       ("block_size", debug_int block_size)]
  (* fuse/operations/copy_file_range.rs:89-102 *)
  | VCopyFileRange in_id in_fh in_off out_id out_fh out_off len flags =>
    debug_struct "CopyFileRangeRequest"
      [("input_node_id", debug_int in_id); ("input_handle", debug_int in_fh);
       ("input_offset", debug_int in_off); ("output_node_id", debug_int out_id);
       ("output_handle", debug_int out_fh); ("output_offset", debug_int out_off);
       ("len", debug_int len); ("flags", debug_flags CopyFileRangeRequestFlags flags)]
  (* fuse/operations/create.rs:99-110 *)
  | VCreate node_id name flags open_flags mode umask =>
    debug_struct "CreateRequest"
      [("node_id", debug_int node_id); ("name", debug_bytes name);
       ("flags", debug_flags CreateRequestFlags flags);
       ("open_flags", hex_u32 open_flags); ("mode", debug_octal mode);
       ("umask", debug_int umask)]
  (* fuse/operations/cuse_init.rs:62-69 *)
  | VCuseInit version flags =>
    debug_struct "CuseInitRequest"
      [("version", debug_version version); ("flags", debug_flags CuseInitFlags flags)]
  (* fuse/operations/fallocate.rs:69-79 *)
  | VFallocate node_id handle offset length flags =>
    debug_struct "FallocateRequest"
      [("node_id", debug_int node_id); ("handle", debug_int handle);
       ("offset", debug_int offset); ("length", debug_int length);
       ("fallocate_flags", hex_u32 flags)]
  (* fuse/operations/flush.rs:84-92 *)
  | VFlush node_id handle lock_owner =>
    debug_struct "FlushRequest"
      [("node_id", debug_int node_id); ("handle", debug_int handle);
       ("lock_owner", hex_u64 lock_owner)]
  (* fuse/operations/forget.rs:25-29, 96-102, 168-172 *)
  | VForget items =>
    debug_struct "ForgetRequest"
      [("items", debug_list (map debug_forget_item items))]
  (* fuse/operations/fsync.rs:76-84 *)
  | VFsync node_id handle flags =>
    debug_struct "FsyncRequest"
      [("node_id", debug_int node_id); ("handle", debug_int handle);
       ("flags", debug_flags FsyncRequestFlags flags)]
  (* fuse/operations/fsyncdir.rs:60-68 *)
  | VFsyncdir node_id handle flags =>
    debug_struct "FsyncdirRequest"
      [("node_id", debug_int node_id); ("handle", debug_int handle);
       ("flags", debug_flags FsyncdirRequestFlags flags)]
  (* fuse/operations/fuse_init.rs:112-120 *)
  | VFuseInit version max_readahead flags =>
    debug_struct "FuseInitRequest"
      [("version", debug_version version); ("max_readahead", debug_int max_readahead);
       ("flags", debug_flags FuseInitFlags flags)]
  (* fuse/operations/getattr.rs:66-73 *)
  | VGetattr node_id handle =>
    debug_struct "GetattrRequest"
      [("node_id", debug_int node_id); ("handle", debug_option debug_int handle)]
  (* fuse/operations/getlk.rs:76-86 *)
  | VGetlk node_id handle owner lock_mode lock_range =>
    debug_struct "GetlkRequest"
      [("node_id", debug_int node_id); ("handle", debug_int handle);
       ("owner", hex_u64 owner); ("lock_mode", debug_lock_mode lm lock_mode);
       ("lock_range", debug_lock_range lock_range)]
  (* fuse/operations/getxattr.rs:66-74 *)
  | VGetxattr node_id size name =>
    debug_struct "GetxattrRequest"
      [("node_id", debug_int node_id); ("size", debug_option debug_int size);
       ("name", debug_bytes name)]
  (* fuse/operations/interrupt.rs:60-66 *)
  | VInterrupt request_id =>
    debug_struct "InterruptRequest"
      [("request_id", debug_int request_id)]
  (* fuse/operations/ioctl.rs:112-124; [input] is the slice itself (line 33) *)
  | VIoctl node_id handle command arg input input_len output_len flags =>
    debug_struct "IoctlRequest"
      [("node_id", debug_int node_id); ("handle", debug_int handle);
       ("command", hex_u32 command); ("arg", hex_u64 arg);
       ("output_len", debug_int output_len);
       ("flags", debug_flags IoctlRequestFlags flags);
       ("input", debug_list (map debug_u8 input))]
  (* fuse/operations/link.rs:23-28 *)
  | VLink node_id new_parent_id new_name =>
    debug_struct "LinkRequest"
      [("node_id", debug_int node_id); ("new_parent_id", debug_int new_parent_id);
       ("new_name", debug_bytes new_name)]
  (* fuse/operations/listxattr.rs:61-68 *)
  | VListxattr node_id size =>
    debug_struct "ListxattrRequest"
      [("node_id", debug_int node_id); ("size", debug_option debug_int size)]
  (* fuse/operations/lookup.rs:23-27 *)
  | VLookup parent_id name =>
    debug_struct "LookupRequest"
      [("parent_id", debug_int parent_id); ("name", debug_bytes name)]
  (* fuse/operations/lseek.rs:63-72 *)
  | VLseek node_id handle offset whence =>
    debug_struct "LseekRequest"
      [("node_id", debug_int node_id); ("handle", debug_int handle);
       ("offset", debug_int offset); ("whence", debug_whence whence)]
  (* fuse/operations/mkdir.rs:67-76 *)
  | VMkdir parent_id name mode umask =>
    debug_struct "MkdirRequest"
      [("parent_id", debug_int parent_id); ("name", debug_bytes name);
       ("mode", debug_octal mode); ("umask", debug_octal umask)]
  (* fuse/operations/mknod.rs:89-99 *)
  | VMknod parent_id name mode umask device_number =>
    debug_struct "MknodRequest"
      [("parent_id", debug_int parent_id); ("name", debug_bytes name);
       ("mode", debug_octal mode); ("umask", debug_octal umask);
       ("device_number", debug_option debug_int device_number)]
  (* fuse/operations/open.rs:78-86 *)
  | VOpen node_id flags open_flags =>
    debug_struct "OpenRequest"
      [("node_id", debug_int node_id); ("flags", debug_flags OpenRequestFlags flags);
       ("open_flags", hex_u32 open_flags)]
  (* fuse/operations/opendir.rs:62-70 *)
  | VOpendir node_id flags open_flags =>
    debug_struct "OpendirRequest"
      [("node_id", debug_int node_id); ("flags", debug_flags OpendirRequestFlags flags);
       ("open_flags", hex_u32 open_flags)]
  (* fuse/operations/poll.rs:31-35, 114-123 *)
  | VPoll node_id poll_events poll_handle flags =>
    debug_struct "PollRequest"
      [("node_id", debug_int node_id); ("poll_handle", debug_int poll_handle);
       ("poll_events", hex_u32 poll_events);
       ("flags", debug_flags PollRequestFlags flags)]
  (* fuse/operations/read.rs:112-123 *)
  | VRead node_id size offset handle lock_owner open_flags =>
    debug_struct "ReadRequest"
      [("node_id", debug_int node_id); ("size", debug_int size);
       ("offset", debug_int offset); ("handle", debug_int handle);
       ("lock_owner", debug_option hex_u64 lock_owner);
       ("open_flags", hex_u32 open_flags)]
  (* fuse/operations/readdir.rs:89-99 *)
  | VReaddir node_id size offset handle open_flags =>
    debug_struct "ReaddirRequest"
      [("node_id", debug_int node_id); ("size", debug_int size);
       ("offset", debug_option debug_int offset); ("handle", debug_int handle);
       ("open_flags", hex_u32 open_flags)]
  (* fuse/operations/readdirplus.rs:88-98 *)
  | VReaddirplus node_id size offset handle open_flags =>
    debug_struct "ReaddirplusRequest"
      [("node_id", debug_int node_id); ("size", debug_int size);
       ("offset", debug_option debug_int offset); ("handle", debug_int handle);
       ("open_flags", hex_u32 open_flags)]
  (* fuse/operations/readlink.rs:48-54 *)
  | VReadlink node_id =>
    debug_struct "ReadlinkRequest"
      [("node_id", debug_int node_id)]
  (* fuse/operations/release.rs:99-108 *)
  | VRelease node_id handle lock_owner open_flags =>
    debug_struct "ReleaseRequest"
      [("node_id", debug_int node_id); ("handle", debug_int handle);
       ("lock_owner", debug_option hex_u64 lock_owner);
       ("open_flags", hex_u32 open_flags)]
  (* fuse/operations/releasedir.rs:81-90 *)
  | VReleasedir node_id handle lock_owner open_flags =>
    debug_struct "ReleasedirRequest"
      [("node_id", debug_int node_id); ("handle", debug_int handle);
       ("lock_owner", debug_option hex_u64 lock_owner);
       ("open_flags", hex_u32 open_flags)]
  (* fuse/operations/removexattr.rs:55-62 *)
  | VRemovexattr node_id name =>
    debug_struct "RemovexattrRequest"
      [("node_id", debug_int node_id); ("name", debug_bytes name)]
  (* fuse/operations/rename.rs:88-98 *)
  | VRename old_id old_name new_id new_name rename_flags =>
    debug_struct "RenameRequest"
      [("old_directory_id", debug_int old_id); ("old_name", debug_bytes old_name);
       ("new_directory_id", debug_int new_id); ("new_name", debug_bytes new_name);
       ("rename_flags", hex_u32 rename_flags)]
  (* fuse/operations/rmdir.rs:23-27 *)
  | VRmdir parent_id name =>
    debug_struct "RmdirRequest"
      [("parent_id", debug_int parent_id); ("name", debug_bytes name)]
  (* fuse/operations/setattr.rs:151-168 *)
  | VSetattr node_id handle size lock_owner atime atime_now mtime mtime_now ctime mode uid gid =>
    debug_struct "SetattrRequest"
      [("node_id", debug_int node_id); ("handle", debug_option debug_int handle);
       ("size", debug_option debug_int size);
       ("lock_owner", debug_option hex_u64 lock_owner);
       ("atime", debug_option debug_time atime); ("atime_now", debug_bool atime_now);
       ("mtime", debug_option debug_time mtime); ("mtime_now", debug_bool mtime_now);
       ("ctime", debug_option debug_time ctime); ("mode", debug_option debug_octal mode);
       ("user_id", debug_option debug_int uid); ("group_id", debug_option debug_int gid)]
  (* fuse/operations/setlk.rs:105-116 *)
  | VSetlk node_id handle may_block owner lock flags =>
    debug_struct "SetlkRequest"
      [("node_id", debug_int node_id); ("handle", debug_int handle);
       ("may_block", debug_bool may_block); ("owner", hex_u64 owner);
       ("lock", debug_lock lm lock); ("flags", debug_flags SetlkRequestFlags flags)]
  (* fuse/operations/setxattr.rs:93-103 *)
  | VSetxattr node_id name flags setxattr_flags value =>
    debug_struct "SetxattrRequest"
      [("node_id", debug_int node_id); ("name", debug_bytes name);
       ("flags", debug_flags SetxattrRequestFlags flags);
       ("setxattr_flags", hex_u32 setxattr_flags); ("value", debug_bytes value)]
  (* fuse/operations/statfs.rs:49-55 *)
  | VStatfs node_id =>
    debug_struct "StatfsRequest"
      [("node_id", debug_int node_id)]
  (* fuse/operations/symlink.rs:63-71 *)
  | VSymlink parent_id name content =>
    debug_struct "SymlinkRequest"
      [("parent_id", debug_int parent_id); ("name", debug_bytes name);
       ("content", debug_bytes content)]
  (* fuse/operations/unlink.rs:25-29 *)
  | VUnlink parent_id name =>
    debug_struct "UnlinkRequest"
      [("parent_id", debug_int parent_id); ("name", debug_bytes name)]
  (* fuse/operations/write.rs:181-193 *)
  | VWrite node_id offset handle value flags lock_owner open_flags =>
    debug_struct "WriteRequest"
      [("node_id", debug_int node_id); ("offset", debug_int offset);
       ("handle", debug_int handle); ("value", debug_bytes value);
       ("flags", debug_flags WriteRequestFlags flags);
       ("lock_owner", debug_option hex_u64 lock_owner);
       ("open_flags", hex_u32 open_flags)]
  end.

(** ** Headers and requests that are not decoded *)

(** fuse/kernel.rs:576-632 [fuse_opcode]: the names *)
Definition opcode_names : list (N * string) :=
  [(1, "FUSE_LOOKUP"); (2, "FUSE_FORGET"); (3, "FUSE_GETATTR"); (4, "FUSE_SETATTR");
   (5, "FUSE_READLINK"); (6, "FUSE_SYMLINK"); (8, "FUSE_MKNOD"); (9, "FUSE_MKDIR");
   (10, "FUSE_UNLINK"); (11, "FUSE_RMDIR"); (12, "FUSE_RENAME"); (13, "FUSE_LINK");
   (14, "FUSE_OPEN"); (15, "FUSE_READ"); (16, "FUSE_WRITE"); (17, "FUSE_STATFS");
   (18, "FUSE_RELEASE"); (20, "FUSE_FSYNC"); (21, "FUSE_SETXATTR"); (22, "FUSE_GETXATTR");
   (23, "FUSE_LISTXATTR"); (24, "FUSE_REMOVEXATTR"); (25, "FUSE_FLUSH");
   (26, "FUSE_INIT"); (27, "FUSE_OPENDIR"); (28, "FUSE_READDIR"); (29, "FUSE_RELEASEDIR");
   (30, "FUSE_FSYNCDIR"); (31, "FUSE_GETLK"); (32, "FUSE_SETLK"); (33, "FUSE_SETLKW");
   (34, "FUSE_ACCESS"); (35, "FUSE_CREATE"); (36, "FUSE_INTERRUPT"); (37, "FUSE_BMAP");
   (38, "FUSE_DESTROY"); (39, "FUSE_IOCTL"); (40, "FUSE_POLL"); (41, "FUSE_NOTIFY_REPLY");
   (42, "FUSE_BATCH_FORGET"); (43, "FUSE_FALLOCATE"); (44, "FUSE_READDIRPLUS");
   (45, "FUSE_RENAME2"); (46, "FUSE_LSEEK"); (47, "FUSE_COPY_FILE_RANGE");
   (48, "FUSE_SETUPMAPPING"); (49, "FUSE_REMOVEMAPPING"); (50, "FUSE_SYNCFS");
   (4096, "CUSE_INIT"); (1048576, "CUSE_INIT_BSWAP_RESERVED");
   (436207616, "FUSE_INIT_BSWAP_RESERVED")].
(** fuse/kernel.rs:576-632 *)
Definition debug_opcode (n : N) : dbg :=
  match find (fun e => fst e =? n) opcode_names with
  | Some e => DAtom (txt (snd e))
  | None => DInline (debug_tuple "fuse_opcode" [debug_int n])
  end.

Section Debug.
Context {E : Endian}.

(** fuse/fuse.rs:254-266 [RequestHeader] *)
Definition debug_header (rq : Request) : out dbg :=
  id <- header_request_id rq ;; len <- header_request_len rq ;; op <- header_opcode rq ;;
  node <- header_node_id rq ;; uid <- header_user_id rq ;; gid <- header_group_id rq ;;
  pid <- header_process_id rq ;;
  Ret (debug_struct "RequestHeader"
    [("request_id", debug_int id); ("request_len", debug_int len); ("opcode", debug_opcode op);
     ("node_id", debug_option debug_int node); ("user_id", debug_int uid);
     ("group_id", debug_int gid); ("process_id", debug_option debug_int pid)]).
(** fuse/server.rs:458-465 [CuseRequest], 515-522 [FuseRequest] *)
Definition debug_raw (is_cuse : bool) (rq : Request) : out dbg :=
  h <- debug_header rq ;; b <- body rq ;;
  Ret (debug_struct (if is_cuse then "CuseRequest" else "FuseRequest")
    [("header", h); ("body", debug_list (map debug_u8 b))]).
(** Decoding a request and printing it: fuse/server.rs:467-500 and the
    implementations cited at [debug_view] *)
Definition debug_decoded (is_cuse : bool) (cf : config) (lm : lock_modes) (t : rtype)
    (rq : Request) : out dbg :=
  v <- decode_view is_cuse cf t rq ;; Ret (debug_view lm v).
End Debug.
