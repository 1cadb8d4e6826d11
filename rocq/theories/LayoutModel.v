(** How the structs of the protocol lie in memory: fuse/kernel.rs,
    fuse/internal/compat.rs, fuse/operations/fuse_init.rs, fuse/operations/write.rs,
    fuse/operations/ioctl.rs; and [repr(C)] itself. *)

From Coq Require Import String.
From Verif Require Import Base CoreModel.
From Coq Require Import List NArith Bool Lia.
Import ListNotations.
Open Scope string_scope.
Open Scope list_scope.
Open Scope N_scope.

(** The types of the fields of the structs in fuse/kernel.rs:233-1734: integers
    of the given number of bytes, signed or not (also [fuse_opcode], fuse/kernel.rs:514-516, which
    is [repr(transparent)]), arrays, structs; unions occur only in fuse/operations/write.rs:44-48. *)
Inductive ty :=
| TInt (w : nat)
| TArr (n : nat) (t : ty)
| TStruct (fields : list (string * ty))
| TUnion (variants : list (string * ty)).

Section Layout.
(** The alignment of [u64] and [i64], 4 or 8 depending on the target; the
    other integers are aligned to their size (as used by [repr(C)], for
    example fuse/kernel.rs:233). *)
Context (a64 : N).

(** The least multiple of [a] from [n] on ([repr(C)], fuse/kernel.rs:233) *)
Definition round_up (a n : N) : N := (n + a - 1) / a * a.

(** [align_of] ([repr(C)], for example fuse/kernel.rs:233): that of the field with the largest *)
Fixpoint align_of (t : ty) : N :=
  match t with
  | TInt w => if Nat.eqb w 8 then a64 else N.of_nat w
  | TArr _ t => align_of t
  | TStruct fs | TUnion fs => fold_right (fun f a => N.max (align_of (snd f)) a) 1 fs
  end.

(** [size_of] ([repr(C)], used for example in fuse/kernel.rs:1748): every field
    at the first offset with its alignment after the field before, and the end
    rounded up to the alignment of the struct *)
Fixpoint size_of (t : ty) : N :=
  match t with
  | TInt w => N.of_nat w
  | TArr n t => N.of_nat n * size_of t
  | TStruct fs =>
    round_up (align_of (TStruct fs))
      (fold_left (fun off f => round_up (align_of (snd f)) off + size_of (snd f)) fs 0)
  | TUnion fs =>
    round_up (align_of (TUnion fs)) (fold_right (fun f s => N.max (size_of (snd f)) s) 0 fs)
  end.

(** Where a field is and its type ([repr(C)], fuse/kernel.rs:233), starting
    after [off] bytes *)
Fixpoint find_field (off : N) (fs : list (string * ty)) (name : string) : option (N * ty) :=
  match fs with
  | [] => None
  | (n, t) :: fs =>
    let off := round_up (align_of t) off in
    if String.eqb n name then Some (off, t) else find_field (off + size_of t) fs name
  end.
(** A field of a field, as in [self.body.lk.type] (fuse/operations/getlk.rs:54) *)
Fixpoint place_of (t : ty) (path : list string) : option (N * ty) :=
  match path with
  | [] => Some (0, t)
  | n :: path =>
    match (match t with
           | TStruct fs => find_field 0 fs n
           | TUnion fs => option_map (fun f => (0, snd f)) (find (fun f => String.eqb (fst f) n) fs)
           | _ => None
           end) with
    | Some (off, t) => match place_of t path with Some (o, t) => Some (off + o, t) | None => None end
    | None => None
    end
  end.
(** Reading an integer field of the struct at the start of the given bytes, as
    in [self.body.block] (fuse/operations/bmap.rs:39) *)
Definition read_field {E : Endian} (t : ty) (path : list string) (b : bytes) : out N :=
  match place_of t path with
  | Some (off, TInt w) =>
    if Nat.eqb w 8 then rd64 off b else if Nat.eqb w 4 then rd32 off b else Ub
  | _ => Ub
  end.

(** fuse/io.rs:44-50 [AlignedSlice::new], 110-116 [AlignedSliceMut::new]:
    whether a slice at this address is accepted; [align_of::<u64>()] is 4 on
    some targets *)
Definition AlignedSlice_check (addr : N) : bool := addr mod a64 =? 0.

Context {E : Endian}.

(** The bytes of a value whose integers, in order, are the given ones; [None]
    is a byte of padding, which has no value ([repr(C)], as read in
    fuse/kernel.rs:1746-1749).  The second component are the integers not used. *)
Definition image_array (image : list N -> list (option byte) * list N)
    : nat -> list N -> list (option byte) * list N :=
  fix go n vs :=
    match n with
    | O => ([], vs)
    | S n => let '(b, vs) := image vs in let '(c, vs) := go n vs in (b ++ c, vs)
    end.
(** The fields of a struct of [total] bytes, after [off] bytes (fuse/kernel.rs:1746-1749) *)
Definition image_fields (image : ty -> list N -> list (option byte) * list N) (total : N)
    : N -> list (string * ty) -> list N -> list (option byte) * list N :=
  fix go off fs vs :=
    match fs with
    | [] => (repeat None (N.to_nat (total - off)), vs)
    | (_, t) :: fs =>
      let start := round_up (align_of t) off in
      let '(b, vs) := image t vs in
      let '(c, vs) := go (start + size_of t) fs vs in
      (repeat None (N.to_nat (start - off)) ++ b ++ c, vs)
    end.
(** fuse/kernel.rs:1746-1749 *)
Fixpoint image (t : ty) (vs : list N) : list (option byte) * list N :=
  match t with
  | TInt w => match vs with v :: vs => (map Some (enc w v), vs) | [] => (repeat None w, []) end
  | TArr n t => image_array (image t) n vs
  | TStruct fs => image_fields image (size_of (TStruct fs)) 0 fs vs
  | TUnion fs => (repeat None (N.to_nat (size_of (TUnion fs))), vs)
  end.

(** fuse/kernel.rs:1746-1749 [as_bytes]: reading a byte of padding is undefined *)
Fixpoint all_bytes (l : list (option byte)) : option bytes :=
  match l with
  | [] => Some []
  | Some b :: l => option_map (cons b) (all_bytes l)
  | None :: _ => None
  end.
(** fuse/kernel.rs:1746-1749, called in 259, 282, … *)
Definition as_bytes (t : ty) (vs : list N) : out bytes :=
  match all_bytes (fst (image t vs)) with Some b => Ret b | None => Ub end.
End Layout.

(** The integers in a value, with the names of their fields (fuse/kernel.rs:233-1734) *)
Fixpoint leaves (name : string) (t : ty) : list (string * nat) :=
  match t with
  | TInt w => [(name, w)]
  | TArr n t => concat (repeat (leaves name t) n)
  | TStruct fs => flat_map (fun f => leaves (fst f) (snd f)) fs
  | TUnion _ => []
  end.

(** *** The structs *)

(** fuse/kernel.rs:233-253 *)
Definition L_fuse_attr : ty := TStruct [("ino", TInt 8); ("size", TInt 8); ("blocks", TInt 8);
  ("atime", TInt 8); ("mtime", TInt 8); ("ctime", TInt 8); ("atimensec", TInt 4);
  ("mtimensec", TInt 4); ("ctimensec", TInt 4); ("mode", TInt 4); ("nlink", TInt 4);
  ("uid", TInt 4); ("gid", TInt 4); ("rdev", TInt 4); ("blksize", TInt 4); ("flags", TInt 4)].
(** fuse/kernel.rs:262-276 *)
Definition L_fuse_kstatfs : ty := TStruct [("blocks", TInt 8); ("bfree", TInt 8);
  ("bavail", TInt 8); ("files", TInt 8); ("ffree", TInt 8); ("bsize", TInt 4);
  ("namelen", TInt 4); ("frsize", TInt 4); ("padding", TInt 4); ("spare", TArr 6 (TInt 4))].
(** fuse/kernel.rs:285-293 *)
Definition L_fuse_file_lock : ty := TStruct [("start", TInt 8); ("end", TInt 8);
  ("type", TInt 4); ("pid", TInt 4)].
(** fuse/kernel.rs:669-680 *)
Definition L_fuse_entry_out : ty := TStruct [("nodeid", TInt 8); ("generation", TInt 8);
  ("entry_valid", TInt 8); ("attr_valid", TInt 8); ("entry_valid_nsec", TInt 4);
  ("attr_valid_nsec", TInt 4); ("attr", L_fuse_attr)].
(** fuse/kernel.rs:689-694 *)
Definition L_fuse_forget_in : ty := TStruct [("nlookup", TInt 8)].
(** fuse/kernel.rs:703-709 *)
Definition L_fuse_forget_one : ty := TStruct [("nodeid", TInt 8); ("nlookup", TInt 8)].
(** fuse/kernel.rs:718-724 *)
Definition L_fuse_batch_forget_in : ty := TStruct [("count", TInt 4); ("dummy", TInt 4)].
(** fuse/kernel.rs:733-740 *)
Definition L_fuse_getattr_in : ty := TStruct [("getattr_flags", TInt 4); ("dummy", TInt 4);
  ("fh", TInt 8)].
(** fuse/kernel.rs:751-759 *)
Definition L_fuse_attr_out : ty := TStruct [("attr_valid", TInt 8); ("attr_valid_nsec", TInt 4);
  ("dummy", TInt 4); ("attr", L_fuse_attr)].
(** fuse/kernel.rs:770-778 *)
Definition L_fuse_mknod_in : ty := TStruct [("mode", TInt 4); ("rdev", TInt 4);
  ("umask", TInt 4); ("padding", TInt 4)].
(** fuse/kernel.rs:787-793 *)
Definition L_fuse_mkdir_in : ty := TStruct [("mode", TInt 4); ("umask", TInt 4)].
(** fuse/kernel.rs:802-807 *)
Definition L_fuse_rename_in : ty := TStruct [("newdir", TInt 8)].
(** fuse/kernel.rs:816-823 *)
Definition L_fuse_rename2_in : ty := TStruct [("newdir", TInt 8); ("flags", TInt 4);
  ("padding", TInt 4)].
(** fuse/kernel.rs:832-837 *)
Definition L_fuse_link_in : ty := TStruct [("oldnodeid", TInt 8)].
(** fuse/kernel.rs:846-866 *)
Definition L_fuse_setattr_in : ty := TStruct [("valid", TInt 4); ("padding", TInt 4);
  ("fh", TInt 8); ("size", TInt 8); ("lock_owner", TInt 8); ("atime", TInt 8); ("mtime", TInt 8);
  ("ctime", TInt 8); ("atimensec", TInt 4); ("mtimensec", TInt 4); ("ctimensec", TInt 4);
  ("mode", TInt 4); ("unused4", TInt 4); ("uid", TInt 4); ("gid", TInt 4); ("unused5", TInt 4)].
(** fuse/kernel.rs:875-881 *)
Definition L_fuse_open_in : ty := TStruct [("flags", TInt 4); ("open_flags", TInt 4)].
(** fuse/kernel.rs:890-898 *)
Definition L_fuse_create_in : ty := TStruct [("flags", TInt 4); ("mode", TInt 4);
  ("umask", TInt 4); ("open_flags", TInt 4)].
(** fuse/kernel.rs:907-914 *)
Definition L_fuse_open_out : ty := TStruct [("fh", TInt 8); ("open_flags", TInt 4);
  ("padding", TInt 4)].
(** fuse/kernel.rs:923-931 *)
Definition L_fuse_release_in : ty := TStruct [("fh", TInt 8); ("flags", TInt 4);
  ("release_flags", TInt 4); ("lock_owner", TInt 8)].
(** fuse/kernel.rs:940-948 *)
Definition L_fuse_flush_in : ty := TStruct [("fh", TInt 8); ("unused", TInt 4);
  ("padding", TInt 4); ("lock_owner", TInt 8)].
(** fuse/kernel.rs:957-968 *)
Definition L_fuse_read_in : ty := TStruct [("fh", TInt 8); ("offset", TInt 8); ("size", TInt 4);
  ("read_flags", TInt 4); ("lock_owner", TInt 8); ("flags", TInt 4); ("padding", TInt 4)].
(** fuse/kernel.rs:979-990 *)
Definition L_fuse_write_in : ty := TStruct [("fh", TInt 8); ("offset", TInt 8); ("size", TInt 4);
  ("write_flags", TInt 4); ("lock_owner", TInt 8); ("flags", TInt 4); ("padding", TInt 4)].
(** fuse/kernel.rs:999-1005 *)
Definition L_fuse_write_out : ty := TStruct [("size", TInt 4); ("padding", TInt 4)].
(** fuse/kernel.rs:1016-1021 *)
Definition L_fuse_statfs_out : ty := TStruct [("st", L_fuse_kstatfs)].
(** fuse/kernel.rs:1030-1037 *)
Definition L_fuse_fsync_in : ty := TStruct [("fh", TInt 8); ("fsync_flags", TInt 4);
  ("padding", TInt 4)].
(** fuse/kernel.rs:1048-1056 *)
Definition L_fuse_setxattr_in : ty := TStruct [("size", TInt 4); ("flags", TInt 4);
  ("setxattr_flags", TInt 4); ("padding", TInt 4)].
(** fuse/kernel.rs:1065-1071 *)
Definition L_fuse_getxattr_in : ty := TStruct [("size", TInt 4); ("padding", TInt 4)].
(** fuse/kernel.rs:1080-1086 *)
Definition L_fuse_getxattr_out : ty := TStruct [("size", TInt 4); ("padding", TInt 4)].
(** fuse/kernel.rs:1095-1104 *)
Definition L_fuse_lk_in : ty := TStruct [("fh", TInt 8); ("owner", TInt 8);
  ("lk", L_fuse_file_lock); ("lk_flags", TInt 4); ("padding", TInt 4)].
(** fuse/kernel.rs:1113-1118 *)
Definition L_fuse_lk_out : ty := TStruct [("lk", L_fuse_file_lock)].
(** fuse/kernel.rs:1127-1133 *)
Definition L_fuse_access_in : ty := TStruct [("mask", TInt 4); ("padding", TInt 4)].
(** fuse/kernel.rs:1142-1152 *)
Definition L_fuse_init_in : ty := TStruct [("major", TInt 4); ("minor", TInt 4);
  ("max_readahead", TInt 4); ("flags", TInt 4); ("flags2", TInt 4); ("unused", TArr 11 (TInt 4))].
(** fuse/kernel.rs:1164-1180 *)
Definition L_fuse_init_out : ty := TStruct [("major", TInt 4); ("minor", TInt 4);
  ("max_readahead", TInt 4); ("flags", TInt 4); ("max_background", TInt 2);
  ("congestion_threshold", TInt 2); ("max_write", TInt 4); ("time_gran", TInt 4);
  ("max_pages", TInt 2); ("map_alignment", TInt 2); ("flags2", TInt 4);
  ("unused", TArr 7 (TInt 4))].
(** fuse/kernel.rs:1191-1199 *)
Definition L_cuse_init_in : ty := TStruct [("major", TInt 4); ("minor", TInt 4);
  ("unused", TInt 4); ("flags", TInt 4)].
(** fuse/kernel.rs:1208-1221 *)
Definition L_cuse_init_out : ty := TStruct [("major", TInt 4); ("minor", TInt 4);
  ("unused", TInt 4); ("flags", TInt 4); ("max_read", TInt 4); ("max_write", TInt 4);
  ("dev_major", TInt 4); ("dev_minor", TInt 4); ("spare", TArr 10 (TInt 4))].
(** fuse/kernel.rs:1230-1235 *)
Definition L_fuse_interrupt_in : ty := TStruct [("unique", TInt 8)].
(** fuse/kernel.rs:1244-1251 *)
Definition L_fuse_bmap_in : ty := TStruct [("block", TInt 8); ("blocksize", TInt 4);
  ("padding", TInt 4)].
(** fuse/kernel.rs:1260-1265 *)
Definition L_fuse_bmap_out : ty := TStruct [("block", TInt 8)].
(** fuse/kernel.rs:1274-1284 *)
Definition L_fuse_ioctl_in : ty := TStruct [("fh", TInt 8); ("flags", TInt 4); ("cmd", TInt 4);
  ("arg", TInt 8); ("in_size", TInt 4); ("out_size", TInt 4)].
(** fuse/kernel.rs:1293-1299 *)
Definition L_fuse_ioctl_iovec : ty := TStruct [("base", TInt 8); ("len", TInt 8)].
(** fuse/kernel.rs:1308-1316 *)
Definition L_fuse_ioctl_out : ty := TStruct [("result", TInt 4); ("flags", TInt 4);
  ("in_iovs", TInt 4); ("out_iovs", TInt 4)].
(** fuse/kernel.rs:1325-1333 *)
Definition L_fuse_poll_in : ty := TStruct [("fh", TInt 8); ("kh", TInt 8); ("flags", TInt 4);
  ("events", TInt 4)].
(** fuse/kernel.rs:1342-1348 *)
Definition L_fuse_poll_out : ty := TStruct [("revents", TInt 4); ("padding", TInt 4)].
(** fuse/kernel.rs:1357-1362 *)
Definition L_fuse_notify_poll_wakeup_out : ty := TStruct [("kh", TInt 8)].
(** fuse/kernel.rs:1371-1380 *)
Definition L_fuse_fallocate_in : ty := TStruct [("fh", TInt 8); ("offset", TInt 8);
  ("length", TInt 8); ("mode", TInt 4); ("padding", TInt 4)].
(** fuse/kernel.rs:1389-1401 *)
Definition L_fuse_in_header : ty := TStruct [("len", TInt 4); ("opcode", TInt 4);
  ("unique", TInt 8); ("nodeid", TInt 8); ("uid", TInt 4); ("gid", TInt 4); ("pid", TInt 4);
  ("padding", TInt 4)].
(** fuse/kernel.rs:1410-1417 *)
Definition L_fuse_out_header : ty := TStruct [("len", TInt 4); ("error", TInt 4);
  ("unique", TInt 8)].
(** fuse/kernel.rs:1426-1435 *)
Definition L_fuse_dirent : ty := TStruct [("ino", TInt 8); ("off", TInt 8); ("namelen", TInt 4);
  ("type", TInt 4); ("name", TArr 0 (TInt 1))].
(** fuse/kernel.rs:1451-1457 *)
Definition L_fuse_direntplus : ty := TStruct [("entry_out", L_fuse_entry_out);
  ("dirent", L_fuse_dirent)].
(** fuse/kernel.rs:1469-1476 *)
Definition L_fuse_notify_inval_inode_out : ty := TStruct [("ino", TInt 8); ("off", TInt 8);
  ("len", TInt 8)].
(** fuse/kernel.rs:1485-1492 *)
Definition L_fuse_notify_inval_entry_out : ty := TStruct [("parent", TInt 8);
  ("namelen", TInt 4); ("padding", TInt 4)].
(** fuse/kernel.rs:1501-1509 *)
Definition L_fuse_notify_delete_out : ty := TStruct [("parent", TInt 8); ("child", TInt 8);
  ("namelen", TInt 4); ("padding", TInt 4)].
(** fuse/kernel.rs:1518-1526 *)
Definition L_fuse_notify_store_out : ty := TStruct [("nodeid", TInt 8); ("offset", TInt 8);
  ("size", TInt 4); ("padding", TInt 4)].
(** fuse/kernel.rs:1535-1544 *)
Definition L_fuse_notify_retrieve_out : ty := TStruct [("notify_unique", TInt 8);
  ("nodeid", TInt 8); ("offset", TInt 8); ("size", TInt 4); ("padding", TInt 4)].
(** fuse/kernel.rs:1554-1564 *)
Definition L_fuse_notify_retrieve_in : ty := TStruct [("dummy1", TInt 8); ("offset", TInt 8);
  ("size", TInt 4); ("dummy2", TInt 4); ("dummy3", TInt 8); ("dummy4", TInt 8)].
(** fuse/kernel.rs:1577-1585 *)
Definition L_fuse_lseek_in : ty := TStruct [("fh", TInt 8); ("offset", TInt 8);
  ("whence", TInt 4); ("padding", TInt 4)].
(** fuse/kernel.rs:1594-1599 *)
Definition L_fuse_lseek_out : ty := TStruct [("offset", TInt 8)].
(** fuse/kernel.rs:1608-1619 *)
Definition L_fuse_copy_file_range_in : ty := TStruct [("fh_in", TInt 8); ("off_in", TInt 8);
  ("nodeid_out", TInt 8); ("fh_out", TInt 8); ("off_out", TInt 8); ("len", TInt 8);
  ("flags", TInt 8)].
(** fuse/kernel.rs:1630-1644 *)
Definition L_fuse_setupmapping_in : ty := TStruct [("fh", TInt 8); ("foffset", TInt 8);
  ("len", TInt 8); ("flags", TInt 8); ("moffset", TInt 8)].
(** fuse/kernel.rs:1653-1659 *)
Definition L_fuse_removemapping_in : ty := TStruct [("count", TInt 4)].
(** fuse/kernel.rs:1668-1676 *)
Definition L_fuse_removemapping_one : ty := TStruct [("moffset", TInt 8); ("len", TInt 8)].
(** fuse/kernel.rs:1687-1692 *)
Definition L_fuse_syncfs_in : ty := TStruct [("padding", TInt 8)].
(** fuse/kernel.rs:1707-1713 *)
Definition L_fuse_secctx : ty := TStruct [("size", TInt 4); ("padding", TInt 4)].
(** fuse/kernel.rs:1728-1734 *)
Definition L_fuse_secctx_header : ty := TStruct [("size", TInt 4); ("nr_secctx", TInt 4)].
(** fuse/internal/compat.rs:34-38 *)
Definition L_fuse_create_in_v7p1 : ty := TStruct [("flags", TInt 4); ("unused", TInt 4)].
(** fuse/internal/compat.rs:130-134 *)
Definition L_fuse_mknod_in_v7p1 : ty := TStruct [("mode", TInt 4); ("rdev", TInt 4)].
(** fuse/internal/compat.rs:184-188 *)
Definition L_fuse_setxattr_in_v7p1 : ty := TStruct [("size", TInt 4); ("flags", TInt 4)].
(** fuse/internal/compat.rs:236-242 *)
Definition L_fuse_read_in_v7p1 : ty := TStruct [("fh", TInt 8); ("offset", TInt 8);
  ("size", TInt 4); ("padding", TInt 4)].
(** fuse/internal/compat.rs:292-297 *)
Definition L_fuse_release_in_v7p1 : ty := TStruct [("fh", TInt 8); ("flags", TInt 4);
  ("padding", TInt 4)].
(** fuse/internal/compat.rs:341-347 *)
Definition L_fuse_write_in_v7p1 : ty := TStruct [("fh", TInt 8); ("offset", TInt 8);
  ("size", TInt 4); ("write_flags", TInt 4)].
(** fuse/operations/fuse_init.rs:34-38 *)
Definition L_fuse_init_in_v7p1 : ty := TStruct [("major", TInt 4); ("minor", TInt 4)].
(** fuse/operations/fuse_init.rs:40-46 *)
Definition L_fuse_init_in_v7p6 : ty := TStruct [("major", TInt 4); ("minor", TInt 4);
  ("max_readahead", TInt 4); ("flags", TInt 4)].
(** fuse/operations/ioctl.rs:406-410 *)
Definition L_IoctlSlice : ty := TStruct [("base", TInt 8); ("len", TInt 8)].
(** fuse/operations/write.rs:38-48 *)
Definition L_write_msg : ty :=
  TStruct [("header", L_fuse_in_header);
           ("body", TUnion [("v7p1", L_fuse_write_in_v7p1); ("v7p9", L_fuse_write_in)])].

(** All of them but [write_msg] (fuse/kernel.rs:233-1734, fuse/internal/compat.rs:35-349,
    fuse/operations/fuse_init.rs:34-46, fuse/operations/ioctl.rs:406-410) *)
Definition structs : list (string * ty) := [
  ("fuse_attr", L_fuse_attr);
  ("fuse_kstatfs", L_fuse_kstatfs);
  ("fuse_file_lock", L_fuse_file_lock);
  ("fuse_entry_out", L_fuse_entry_out);
  ("fuse_forget_in", L_fuse_forget_in);
  ("fuse_forget_one", L_fuse_forget_one);
  ("fuse_batch_forget_in", L_fuse_batch_forget_in);
  ("fuse_getattr_in", L_fuse_getattr_in);
  ("fuse_attr_out", L_fuse_attr_out);
  ("fuse_mknod_in", L_fuse_mknod_in);
  ("fuse_mkdir_in", L_fuse_mkdir_in);
  ("fuse_rename_in", L_fuse_rename_in);
  ("fuse_rename2_in", L_fuse_rename2_in);
  ("fuse_link_in", L_fuse_link_in);
  ("fuse_setattr_in", L_fuse_setattr_in);
  ("fuse_open_in", L_fuse_open_in);
  ("fuse_create_in", L_fuse_create_in);
  ("fuse_open_out", L_fuse_open_out);
  ("fuse_release_in", L_fuse_release_in);
  ("fuse_flush_in", L_fuse_flush_in);
  ("fuse_read_in", L_fuse_read_in);
  ("fuse_write_in", L_fuse_write_in);
  ("fuse_write_out", L_fuse_write_out);
  ("fuse_statfs_out", L_fuse_statfs_out);
  ("fuse_fsync_in", L_fuse_fsync_in);
  ("fuse_setxattr_in", L_fuse_setxattr_in);
  ("fuse_getxattr_in", L_fuse_getxattr_in);
  ("fuse_getxattr_out", L_fuse_getxattr_out);
  ("fuse_lk_in", L_fuse_lk_in);
  ("fuse_lk_out", L_fuse_lk_out);
  ("fuse_access_in", L_fuse_access_in);
  ("fuse_init_in", L_fuse_init_in);
  ("fuse_init_out", L_fuse_init_out);
  ("cuse_init_in", L_cuse_init_in);
  ("cuse_init_out", L_cuse_init_out);
  ("fuse_interrupt_in", L_fuse_interrupt_in);
  ("fuse_bmap_in", L_fuse_bmap_in);
  ("fuse_bmap_out", L_fuse_bmap_out);
  ("fuse_ioctl_in", L_fuse_ioctl_in);
  ("fuse_ioctl_iovec", L_fuse_ioctl_iovec);
  ("fuse_ioctl_out", L_fuse_ioctl_out);
  ("fuse_poll_in", L_fuse_poll_in);
  ("fuse_poll_out", L_fuse_poll_out);
  ("fuse_notify_poll_wakeup_out", L_fuse_notify_poll_wakeup_out);
  ("fuse_fallocate_in", L_fuse_fallocate_in);
  ("fuse_in_header", L_fuse_in_header);
  ("fuse_out_header", L_fuse_out_header);
  ("fuse_dirent", L_fuse_dirent);
  ("fuse_direntplus", L_fuse_direntplus);
  ("fuse_notify_inval_inode_out", L_fuse_notify_inval_inode_out);
  ("fuse_notify_inval_entry_out", L_fuse_notify_inval_entry_out);
  ("fuse_notify_delete_out", L_fuse_notify_delete_out);
  ("fuse_notify_store_out", L_fuse_notify_store_out);
  ("fuse_notify_retrieve_out", L_fuse_notify_retrieve_out);
  ("fuse_notify_retrieve_in", L_fuse_notify_retrieve_in);
  ("fuse_lseek_in", L_fuse_lseek_in);
  ("fuse_lseek_out", L_fuse_lseek_out);
  ("fuse_copy_file_range_in", L_fuse_copy_file_range_in);
  ("fuse_setupmapping_in", L_fuse_setupmapping_in);
  ("fuse_removemapping_in", L_fuse_removemapping_in);
  ("fuse_removemapping_one", L_fuse_removemapping_one);
  ("fuse_syncfs_in", L_fuse_syncfs_in);
  ("fuse_secctx", L_fuse_secctx);
  ("fuse_secctx_header", L_fuse_secctx_header);
  ("fuse_create_in_v7p1", L_fuse_create_in_v7p1);
  ("fuse_mknod_in_v7p1", L_fuse_mknod_in_v7p1);
  ("fuse_setxattr_in_v7p1", L_fuse_setxattr_in_v7p1);
  ("fuse_read_in_v7p1", L_fuse_read_in_v7p1);
  ("fuse_release_in_v7p1", L_fuse_release_in_v7p1);
  ("fuse_write_in_v7p1", L_fuse_write_in_v7p1);
  ("fuse_init_in_v7p1", L_fuse_init_in_v7p1);
  ("fuse_init_in_v7p6", L_fuse_init_in_v7p6);
  ("IoctlSlice", L_IoctlSlice)].
