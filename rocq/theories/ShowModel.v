(** What [{:?}] and [{:#?}] print, continued: replies, their parts, listings,
    notifications, the response header and mount options. *)

From Coq Require Import String.
From Verif Require Import Base Kernel CoreModel DecodeModel OpsModel FlagsModel HostModel DebugModel.
From Verif Require Import ReplyModel ListingModel OptionsModel.
From Coq Require Import List NArith ZArith Bool.
Import ListNotations.
Open Scope string_scope.
Open Scope list_scope.
Open Scope N_scope.

(** ** Values *)

(** signed integers: [i32] (fuse/operations/ioctl.rs:339, 344) and [i64]
    (fuse/notify.rs:271-272) *)
Definition debug_sint (z : Z) : dbg :=
  DAtom ((if (z <? 0)%Z then txt "-" else []) ++ num_text 10 (Z.abs_N z)).

(** core::time::Duration, used at fuse/entry.rs:126-127: the digits after the
    point; [divisor] is the weight of the next one. *)
Fixpoint fraction_digits (fuel : nat) (fraction divisor : N) : bytes :=
  match fuel with
  | O => []
  | S fuel =>
    if fraction =? 0 then []
    else digit_byte (fraction / divisor) :: fraction_digits fuel (fraction mod divisor) (divisor / 10)
  end.
(** the same type (fuse/entry.rs:126-127): number, point, digits and unit *)
Definition decimal_text (integer fraction divisor : N) (unit : bytes) : bytes :=
  num_text 10 integer ++
  match fraction_digits 9 fraction divisor with
  | [] => []
  | digits => txt "." ++ digits
  end ++ unit.
(** the same type (fuse/entry.rs:126-127).  The unit of microseconds begins
    with U+00B5, in UTF-8 the bytes C2 B5. *)
Definition debug_duration (d : N * N) : dbg :=
  let '(secs, nanos) := d in
  DAtom
    (if 0 <? secs then decimal_text secs nanos 100000000 (txt "s")
     else if 1000000 <=? nanos then
       decimal_text (nanos / 1000000) (nanos mod 1000000) 100000 (txt "ms")
     else if 1000 <=? nanos then
       decimal_text (nanos / 1000) (nanos mod 1000) 100 ([xc2; xb5] ++ txt "s")
     else decimal_text nanos 0 1 (txt "ns")).

(** fuse/file_mode.rs:132-167 [FileType], derived *)
Definition debug_file_type (t : FileType) : dbg :=
  DAtom (txt match t with
             | BlockDevice => "BlockDevice"
             | CharacterDevice => "CharacterDevice"
             | Directory => "Directory"
             | NamedPipe => "NamedPipe"
             | Regular => "Regular"
             | SocketFile => "Socket"
             | Symlink => "Symlink"
             end).
(** fuse/cuse.rs:160-164 [DeviceNumber], derived *)
Definition debug_device_number (major minor : N) : dbg :=
  debug_struct "DeviceNumber" [("major", debug_int major); ("minor", debug_int minor)].
(** fuse/kernel.rs:649-662 [fuse_notify_code] *)
Definition debug_notify_code (n : N) : dbg :=
  if n =? 1 then DAtom (txt "FUSE_NOTIFY_POLL")
  else if n =? 2 then DAtom (txt "FUSE_NOTIFY_INVAL_INODE")
  else if n =? 3 then DAtom (txt "FUSE_NOTIFY_INVAL_ENTRY")
  else if n =? 4 then DAtom (txt "FUSE_NOTIFY_STORE")
  else if n =? 5 then DAtom (txt "FUSE_NOTIFY_RETRIEVE")
  else if n =? 6 then DAtom (txt "FUSE_NOTIFY_DELETE")
  else if n =? 7 then DAtom (txt "FUSE_NOTIFY_CODE_MAX")
  else DInline (debug_tuple "fuse_notify_code" [debug_int n]).

(** ** Accessors not modelled elsewhere *)

(** fuse/node_attr.rs:278-282 [flags], private *)
Definition NodeAttr_flags (r : fuse_attr) : N := fa_flags r.
(** fuse/entry.rs:66-68 *)
Definition Entry_generation (r : fuse_entry_out) : N := eo_generation r.
(** fuse/entry.rs:79-81 *)
Definition Entry_attributes (r : fuse_entry_out) : fuse_attr := eo_attr r.
(** fuse/operations/statfs.rs:81-83 *)
Definition Statfs_block_count (r : fuse_kstatfs) : N := sf_blocks r.
(** fuse/operations/statfs.rs:90-92 *)
Definition Statfs_block_size (r : fuse_kstatfs) : N := sf_bsize r.
(** fuse/operations/statfs.rs:99-101 *)
Definition Statfs_blocks_available (r : fuse_kstatfs) : N := sf_bavail r.
(** fuse/operations/statfs.rs:108-110 *)
Definition Statfs_blocks_free (r : fuse_kstatfs) : N := sf_bfree r.
(** fuse/operations/statfs.rs:117-119 *)
Definition Statfs_fragment_size (r : fuse_kstatfs) : N := sf_frsize r.
(** fuse/operations/statfs.rs:126-128 *)
Definition Statfs_inode_count (r : fuse_kstatfs) : N := sf_files r.
(** fuse/operations/statfs.rs:135-137 *)
Definition Statfs_inodes_free (r : fuse_kstatfs) : N := sf_ffree r.
(** fuse/operations/statfs.rs:144-146 *)
Definition Statfs_max_filename_length (r : fuse_kstatfs) : N := sf_namelen r.
(** fuse/operations/fuse_init.rs:140-142 *)
Definition FuseInit_version (r : fuse_init_out) : Version :=
  {| v_major := io_major r; v_minor := io_minor r |}.
(** fuse/operations/fuse_init.rs:169-171 *)
Definition FuseInit_max_readahead (r : fuse_init_out) : N := io_max_readahead r.
(** fuse/operations/fuse_init.rs:178-180 *)
Definition FuseInit_max_background (r : fuse_init_out) : N := io_max_background r.
(** fuse/operations/fuse_init.rs:187-189 *)
Definition FuseInit_congestion_threshold (r : fuse_init_out) : N := io_congestion_threshold r.
(** fuse/operations/fuse_init.rs:196-198 *)
Definition FuseInit_max_write (r : fuse_init_out) : N := io_max_write r.
(** fuse/operations/fuse_init.rs:205-207 *)
Definition FuseInit_time_granularity (r : fuse_init_out) : N := io_time_gran r.
(** fuse/operations/cuse_init.rs:99-101 *)
Definition CuseInit_version (r : cuse_init_out) : Version :=
  {| v_major := co_major r; v_minor := co_minor r |}.
(** fuse/operations/cuse_init.rs:109-111 *)
Definition CuseInit_flags (r : cuse_init_out) : N := co_flags r.
(** fuse/operations/cuse_init.rs:125-127 *)
Definition CuseInit_max_read (r : cuse_init_out) : N := co_max_read r.
(** fuse/operations/cuse_init.rs:134-136 *)
Definition CuseInit_max_write (r : cuse_init_out) : N := co_max_write r.
(** fuse/operations/cuse_init.rs:143-148 *)
Definition CuseInit_device_number (r : cuse_init_out) : N * N := (co_dev_major r, co_dev_minor r).
(** fuse/operations/create.rs:134-136 *)
Definition CreateResponse_entry (r : CreateResponse) : fuse_entry_out := cr_entry r.
(** fuse/operations/create.rs:140-142 *)
Definition CreateResponse_entry_mut (f : fuse_entry_out -> fuse_entry_out) (r : CreateResponse)
  : CreateResponse :=
  {| cr_entry := f (cr_entry r); cr_open_out := cr_open_out r |}.
(** fuse/operations/create.rs:146-148 *)
Definition CreateResponse_handle (r : CreateResponse) : N := oo_fh (cr_open_out r).
(** fuse/operations/create.rs:157-159 *)
Definition CreateResponse_flags (r : CreateResponse) : N := oo_open_flags (cr_open_out r).
(** fuse/operations/ioctl.rs:323-325 *)
Definition IoctlResponse_result (r : IoctlResponse) : Z := ioo_result (ires_raw r).

(** fuse/fuse.rs:273-276 [ResponseHeader]: the fields of [fuse_out_header] *)
Record ResponseHeader := { rh_len : N; rh_error : Z; rh_unique : N }.
(** fuse/fuse.rs:287-295; [request_id] is not zero *)
Definition ResponseHeader_new (request_id : N) : ResponseHeader :=
  {| rh_len := OUT_HEADER_SIZE; rh_error := 0; rh_unique := request_id |}.
(** fuse/fuse.rs:302-310 *)
Definition ResponseHeader_new_notification : ResponseHeader :=
  {| rh_len := OUT_HEADER_SIZE; rh_error := 0; rh_unique := 0 |}.
(** fuse/fuse.rs:317-319 *)
Definition ResponseHeader_request_id (h : ResponseHeader) : option N :=
  if rh_unique h =? 0 then None else Some (rh_unique h).
(** fuse/fuse.rs:324-326; zero would be undefined behaviour *)
Definition ResponseHeader_response_len (h : ResponseHeader) : out N :=
  if rh_len h =? 0 then Ub else Ret (rh_len h).
(** fuse/fuse.rs:330-332 *)
Definition ResponseHeader_set_response_len (n : N) (h : ResponseHeader) : ResponseHeader :=
  {| rh_len := n; rh_error := rh_error h; rh_unique := rh_unique h |}.
(** fuse/fuse.rs:340-342 *)
Definition ResponseHeader_error (h : ResponseHeader) : option Z :=
  if (rh_error h =? 0)%Z then None else Some (rh_error h).
(** fuse/fuse.rs:346-348 *)
Definition ResponseHeader_set_error (e : Z) (h : ResponseHeader) : ResponseHeader :=
  {| rh_len := rh_len h; rh_error := e; rh_unique := rh_unique h |}.

(** fuse/notify.rs:140-142, 191-193 [parent_id]; nothing for notifications
    that do not have the method *)
Definition notification_parent_id (n : FuseNotification) : option (out N) :=
  match n with
  | NDelete parent _ _ _ | NInvalidateEntry parent _ _ => Some (NodeId_new_unchecked parent)
  | _ => None
  end.
(** fuse/notify.rs:145-147, 232-234 [node_id] *)
Definition notification_node_id (n : FuseNotification) : option (out N) :=
  match n with
  | NDelete _ child _ _ => Some (NodeId_new_unchecked child)
  | NInvalidateInode ino _ _ => Some (NodeId_new_unchecked ino)
  | _ => None
  end.
(** fuse/notify.rs:150-152, 196-198 [name] *)
Definition notification_name (n : FuseNotification) : option bytes :=
  match n with
  | NDelete _ _ _ name | NInvalidateEntry _ _ name => Some name
  | _ => None
  end.
(** fuse/notify.rs:237-239 [offset] *)
Definition notification_offset (n : FuseNotification) : option Z :=
  match n with NInvalidateInode _ off _ => Some off | _ => None end.
(** fuse/notify.rs:252-254 [size] *)
Definition notification_size (n : FuseNotification) : option Z :=
  match n with NInvalidateInode _ _ len => Some len | _ => None end.
(** fuse/notify.rs:297-299 [poll_handle] *)
Definition notification_poll_handle (n : FuseNotification) : option N :=
  match n with NPoll kh => Some kh | _ => None end.

(** fuse/operations/readdirplus.rs:143-145; zero would be undefined behaviour *)
Definition ReaddirplusEntry_offset (e : entry fuse_direntplus) : out N :=
  if de_off (dp_dirent (e_dirent e)) =? 0 then Ub else Ret (de_off (dp_dirent (e_dirent e))).
(** fuse/operations/readdirplus.rs:149-151 *)
Definition ReaddirplusEntry_entry (e : entry fuse_direntplus) : fuse_entry_out :=
  dp_entry_out (e_dirent e).

(** ** The implementations *)

(** fuse/node_attr.rs:291-310 *)
Definition debug_node_attr (r : fuse_attr) : out dbg :=
  id <- NodeAttr_node_id r ;;
  Ret (debug_struct "NodeAttr"
    [("node_id", debug_int id); ("mode", debug_octal (NodeAttr_mode r));
     ("size", debug_int (NodeAttr_size r)); ("atime", DInline (debug_time (NodeAttr_atime r)));
     ("mtime", DInline (debug_time (NodeAttr_mtime r)));
     ("ctime", DInline (debug_time (NodeAttr_ctime r)));
     ("link_count", debug_int (NodeAttr_link_count r));
     ("user_id", debug_int (NodeAttr_user_id r)); ("group_id", debug_int (NodeAttr_group_id r));
     ("device_number", debug_int (NodeAttr_device_number r));
     ("block_count", debug_int (NodeAttr_block_count r));
     ("block_size", debug_int (NodeAttr_block_size r));
     ("flags", debug_flags AttributeFlags (NodeAttr_flags r))]).
(** fuse/entry.rs:121-130 *)
Definition debug_entry (r : fuse_entry_out) : out dbg :=
  attr <- debug_node_attr (Entry_attributes r) ;;
  Ret (debug_struct "Entry"
    [("generation", debug_int (Entry_generation r)); ("attributes", attr);
     ("cache_timeout", debug_duration (Entry_cache_timeout r));
     ("attribute_cache_timeout", debug_duration (Entry_attribute_cache_timeout r))]).
(** fuse/operations/statfs.rs:153-166 *)
Definition debug_statfs (r : fuse_kstatfs) : dbg :=
  debug_struct "StatfsAttributes"
    [("block_count", debug_int (Statfs_block_count r));
     ("block_size", debug_int (Statfs_block_size r));
     ("blocks_available", debug_int (Statfs_blocks_available r));
     ("blocks_free", debug_int (Statfs_blocks_free r));
     ("fragment_size", debug_int (Statfs_fragment_size r));
     ("inode_count", debug_int (Statfs_inode_count r));
     ("inodes_free", debug_int (Statfs_inodes_free r));
     ("max_filename_length", debug_int (Statfs_max_filename_length r))].
(** fuse/operations/fuse_init.rs:214-225 *)
Definition debug_fuse_init (r : fuse_init_out) : dbg :=
  debug_struct "FuseInitResponse"
    [("max_readahead", debug_int (FuseInit_max_readahead r));
     ("flags", debug_flags FuseInitFlags (FuseInit_flags r));
     ("max_background", debug_int (FuseInit_max_background r));
     ("congestion_threshold", debug_int (FuseInit_congestion_threshold r));
     ("max_write", debug_int (FuseInit_max_write r));
     ("time_granularity", debug_int (FuseInit_time_granularity r))].
(** fuse/operations/cuse_init.rs:156-170 *)
Definition debug_cuse_init (r : CuseInitResponse) : dbg :=
  debug_struct "CuseInitResponse"
    (match cir_device_name r with
     | Some device_name => [("device_name", debug_bytes device_name)]
     | None => []
     end ++
     [("version", debug_version (CuseInit_version (cir_raw r)));
      ("flags", debug_flags CuseInitFlags (CuseInit_flags (cir_raw r)));
      ("max_read", debug_int (CuseInit_max_read (cir_raw r)));
      ("max_write", debug_int (CuseInit_max_write (cir_raw r)));
      ("device_number",
       debug_device_number (fst (CuseInit_device_number (cir_raw r)))
         (snd (CuseInit_device_number (cir_raw r))))]).
(** fuse/operations/create.rs:174-182 *)
Definition debug_create (r : CreateResponse) : out dbg :=
  entry <- debug_entry (CreateResponse_entry r) ;;
  Ret (debug_struct "CreateResponse"
    [("entry", entry); ("handle", debug_int (CreateResponse_handle r));
     ("flags", debug_flags CreateResponseFlags (CreateResponse_flags r))]).
(** fuse/operations/ioctl.rs:419-426 *)
Definition debug_ioctl_slice (s : IoctlSlice) : dbg :=
  debug_struct "IoctlSlice" [("base", hex_u64 (is_base s)); ("len", debug_int (is_len s))].
(** fuse/operations/ioctl.rs:434-438, derived *)
Definition debug_ioctl_retry (input output : list IoctlSlice) : dbg :=
  debug_struct "IoctlRetry"
    [("input_slices", debug_list (map debug_ioctl_slice input));
     ("output_slices", debug_list (map debug_ioctl_slice output))].
(** fuse/operations/ioctl.rs:334-357 *)
Definition debug_ioctl (r : IoctlResponse) : dbg :=
  debug_struct "IoctlResponse"
    match ires_output r with
    | IoctlBytes output =>
      [("result", debug_sint (ioo_result (ires_raw r))); ("output", debug_list (map debug_u8 output))]
    | IoctlRetryOut input output =>
      (if ires_set_result r then [("result", debug_sint (ioo_result (ires_raw r)))] else []) ++
      [("retry", debug_ioctl_retry input output)]
    end.
(** fuse/operations/ioctl.rs:143-149 [IoctlCmd] *)
Definition debug_ioctl_cmd (cmd : N) : dbg := debug_tuple "IoctlCmd" [hex_u32 cmd].
(** fuse/operations/ioctl.rs:173-179 [IoctlArg] *)
Definition debug_ioctl_arg (arg : N) : dbg := debug_tuple "IoctlArg" [hex_u64 arg].
(** fuse/operations/ioctl.rs:202-209 [IoctlPtr] to a type of [size] bytes *)
Definition debug_ioctl_ptr (addr size : N) : dbg :=
  debug_struct "IoctlPtr" [("addr", hex_u64 addr); ("len", debug_int size)].
(** fuse/operations/ioctl.rs:216-220 [IoctlInput] *)
Definition debug_ioctl_input (input : bytes) : dbg :=
  debug_tuple "IoctlInput" [debug_list (map debug_u8 input)].
(** fuse/fuse.rs:351-359 *)
Definition debug_response_header (h : ResponseHeader) : out dbg :=
  len <- ResponseHeader_response_len h ;;
  Ret (debug_struct "ResponseHeader"
    [("request_id", debug_option debug_int (ResponseHeader_request_id h));
     ("response_len", debug_int len);
     ("error", debug_option debug_sint (ResponseHeader_error h))]).
(** fuse/notify.rs:155-163, 201-208, 267-275, 302-308 *)
Definition debug_notification (n : FuseNotification) : out dbg :=
  match n with
  | NDelete parent child _ name =>
    parent <- NodeId_new_unchecked parent ;; child <- NodeId_new_unchecked child ;;
    Ret (debug_struct "Delete"
      [("parent_id", debug_int parent); ("node_id", debug_int child); ("name", debug_bytes name)])
  | NInvalidateEntry parent _ name =>
    parent <- NodeId_new_unchecked parent ;;
    Ret (debug_struct "InvalidateEntry"
      [("parent_id", debug_int parent); ("name", debug_bytes name)])
  | NInvalidateInode ino off len =>
    ino <- NodeId_new_unchecked ino ;;
    Ret (debug_struct "InvalidateInode"
      [("node_id", debug_int ino); ("offset", debug_sint off); ("size", debug_sint len)])
  | NPoll kh => Ret (debug_struct "Poll" [("poll_handle", debug_int kh)])
  end.

(** Printing each item of an iterator (fuse/operations/readdir.rs:190-192,
    fuse/operations/readdirplus.rs:183-185) *)
Fixpoint debug_items {A} (f : A -> out dbg) (l : list A) : out (list dbg) :=
  match l with
  | [] => Ret []
  | x :: l => d <- f x ;; ds <- debug_items f l ;; Ret (d :: ds)
  end.
(** fuse/operations/readdir.rs:160-169 *)
Definition debug_readdir_entry (e : entry fuse_dirent) : out dbg :=
  id <- ReaddirEntry_node_id e ;; offset <- ReaddirEntry_offset e ;;
  Ret (debug_struct "ReaddirEntry"
    [("node_id", debug_int id); ("offset", debug_int offset);
     ("file_type", debug_option debug_file_type (ReaddirEntry_file_type e));
     ("name", debug_bytes (e_name e))]).
(** fuse/operations/readdirplus.rs:154-162 *)
Definition debug_readdirplus_entry (e : entry fuse_direntplus) : out dbg :=
  offset <- ReaddirplusEntry_offset e ;; entry <- debug_entry (ReaddirplusEntry_entry e) ;;
  Ret (debug_struct "ReaddirEntry"
    [("name", debug_bytes (e_name e)); ("offset", debug_int offset); ("entry", entry)]).

(** fuse/os/linux.rs:611-630; [MountSource], [MountType] and [FuseSubtype]
    print as C strings (302-306, 342-346, 392-396) *)
Definition debug_mount_options (o : MountOptions) : dbg :=
  debug_struct "MountOptions"
    [("allow_other", debug_bool (MountOptions_allow_other o));
     ("block_size", debug_option debug_int (MountOptions_block_size o));
     ("default_permissions", debug_bool (MountOptions_default_permissions o));
     ("fuse_device_fd", debug_option debug_int (MountOptions_fuse_device_fd o));
     ("group_id", debug_option debug_int (MountOptions_group_id o));
     ("max_read", debug_option debug_int (MountOptions_max_read o));
     ("mount_source", debug_bytes (MountOptions_mount_source o));
     ("mount_type", debug_bytes (MountOptions_mount_type o));
     ("root_mode", debug_option debug_octal (MountOptions_root_mode o));
     ("subtype", debug_option debug_bytes (MountOptions_subtype o));
     ("user_id", debug_option debug_int (MountOptions_user_id o))].
(** fuse/os/freebsd.rs:251-258 *)
Definition debug_freebsd_options (o : FreebsdOptions) : dbg :=
  debug_struct "MountOptions"
    [("default_permissions", debug_bool (FreebsdOptions_default_permissions o));
     ("subtype", debug_option debug_bytes (FreebsdOptions_subtype o))].

Section Listings.
Context {E : Endian}.
(** fuse/operations/readdir.rs:188-194 *)
Definition debug_readdir_entries (buf : bytes) : out dbg :=
  l <- entries_list Dirent_fuse_dirent buf ;;
  ds <- debug_items debug_readdir_entry l ;; Ret (debug_list ds).
(** fuse/operations/readdirplus.rs:181-187 *)
Definition debug_readdirplus_entries (buf : bytes) : out dbg :=
  l <- entries_list Dirent_fuse_direntplus buf ;;
  ds <- debug_items debug_readdirplus_entry l ;; Ret (debug_list ds).
End Listings.
(** fuse/operations/listxattr.rs:87-93 *)
Definition debug_listxattr_names (buf : bytes) : out dbg :=
  l <- xattr_names_list buf ;; Ret (debug_list (map debug_bytes l)).
