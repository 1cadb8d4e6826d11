(** The client's end of the connection: what the device /dev/fuse of Linux does
    with a message a server writes to it (fs/fuse/dev.c,
    [fuse_dev_do_write], [copy_out_args] and [fuse_notify]; the room for each
    reply is set up in fs/fuse/dir.c, file.c, xattr.c, readdir.c, ioctl.c,
    inode.c and cuse.c, for old protocol versions adjusted by
    [fuse_adjust_compat]).  Written from the kernel's side; it does not use the
    model of the reply code. *)

From Verif Require Import Base CoreModel OpsModel WireSpec ReplyModel ReplySpec ServerModel.
From Coq Require Import List NArith ZArith Bool.
Import ListNotations.
Open Scope N_scope.

(** ** Replies *)

(** How many bytes may follow the header of a successful reply. *)
Inductive room := Exactly (n : N) | Between (least most : N).

Definition fits (r : room) (n : N) : bool :=
  match r with
  | Exactly k => n =? k
  | Between a b => (a <=? n) && (n <=? b)
  end.

(** [struct fuse_entry_out], [fuse_attr_out] and [fuse_kstatfs] grew in 7.9,
    7.9 and 7.4. *)
Definition entry_room (minor : N) : N := if minor <? 9 then 120 else 128.
Definition attr_room (minor : N) : N := if minor <? 9 then 96 else 104.
Definition statfs_room (minor : N) : N := if minor <? 4 then 48 else 80.

(** The room for the reply to an operation.  Sizes an operation asks for are
    upper limits, except that a size of zero in GETXATTR and LISTXATTR asks for
    a [struct fuse_getxattr_out].  An IOCTL has at least one page (of 4096
    bytes) after its [struct fuse_ioctl_out]; a link target is shorter than a
    page. *)
Definition op_room (minor : N) (op : client_op) : room :=
  match op with
  | OLookup _ | OMknod _ _ _ _ _ | OMkdir _ _ _ | OSymlink _ _ | OLink _ _ => Exactly (entry_room minor)
  | OCreate _ _ _ _ _ => Exactly (entry_room minor + 16)
  | OGetattr _ _ _ | OSetattr _ _ _ _ _ _ _ _ _ _ _ _ _ _ _ _ => Exactly (attr_room minor)
  | OReadlink => Between 0 4095
  | OOpen _ _ | OOpendir _ _ => Exactly 16
  | ORead _ _ size _ _ _ _ | OReaddir _ _ size _ _ _ _ | OReaddirplus _ _ size _ _ _ _ => Between 0 size
  | OWrite _ _ _ _ _ _ _ | OCopyFileRange _ _ _ _ _ _ _ => Exactly 8
  | OStatfs => Exactly (statfs_room minor)
  | OGetxattr size _ _ | OListxattr size _ => if size =? 0 then Exactly 8 else Between 0 size
  | OInit _ _ _ _ _ _ => Between 0 64
  | OCuseInit _ _ _ _ => Between 72 (72 + 4096)
  | OGetlk _ _ _ _ _ _ _ _ => Exactly 24
  | OBmap _ _ _ | OLseek _ _ _ _ | OPoll _ _ _ _ => Exactly 8
  | OIoctl _ _ _ _ out_size _ => Between 16 (16 + N.max out_size 4096)
  | OAccess _ _ | OFallocate _ _ _ _ _ | OFlush _ _ _ _ | OForget _ | OBatchForget _ _ | OFsync _ _ _
  | OFsyncdir _ _ _ | OInterrupt _ | ORelease _ _ _ _ | OReleasedir _ _ _ _ | ORemovexattr _
  | ORename _ _ _ | ORename2 _ _ _ _ _ | ORmdir _ | OSetlk _ _ _ _ _ _ _ _ _ | OSetxattr _ _ _ _ _
  | OUnlink _ => Exactly 0
  end.

(** FORGET and BATCH_FORGET wait for no reply, and an INTERRUPT is no operation
    of its own. *)
Definition waits (op : client_op) : bool :=
  match op with OForget _ | OBatchForget _ _ | OInterrupt _ => false | _ => true end.

(** ** Notifications *)

Inductive notice :=
| PollWakeup (kh : N)
| InodeStale (node : N) (offset length : Z)
| EntryStale (parent : N) (name : bytes)
| EntryGone (parent node : N) (name : bytes).

(** ** Writing to the device *)

(** What a write did.  The call returns the number of bytes for the first three;
    EINVAL for [Broken], when the reply was for a waiting operation but did not
    fit, and the operation fails with EIO; and the errno of [Refused]. *)
Inductive wrote :=
| Completed (id : N) (result : bytes + Z)
| Noticed (n : notice)
| Acknowledged (id : N) (error : Z)
| Broken (id : N)
| Refused (errno : N).

Definition name_max : N := 1024.
Definition EINVAL : N := 22.
Definition ENAMETOOLONG : N := 36.
Definition ENOENT : N := 2.

Section Device.
Context {E : Endian}.

(** A name of [n] bytes and a NUL at offset [o], and nothing else. *)
Definition device_name (p : bytes) (o n : N) (k : bytes -> notice) : wrote :=
  if name_max <? n then Refused ENAMETOOLONG
  else if negb (nlen p =? o + n + 1) then Refused EINVAL
  else Noticed (k (slice o n p)).

Definition device_notify (code : N) (p : bytes) : wrote :=
  if code =? 1 then
    if nlen p =? 8 then Noticed (PollWakeup (u64_at 0 p)) else Refused EINVAL
  else if code =? 2 then
    if nlen p =? 24 then
      Noticed (InodeStale (u64_at 0 p) (as_i64 (u64_at 8 p)) (as_i64 (u64_at 16 p)))
    else Refused EINVAL
  else if code =? 3 then
    if nlen p <? 16 then Refused EINVAL
    else device_name p 16 (u32_at 8 p) (EntryStale (u64_at 0 p))
  else if code =? 6 then
    if nlen p <? 24 then Refused EINVAL
    else device_name p 24 (u32_at 16 p) (EntryGone (u64_at 0 p) (u64_at 8 p))
  else Refused EINVAL.

(** [waiting] are the operations that were read from the device and not
    answered, by the id of the request.  These ids are even; the odd id after it
    is that of an INTERRUPT of the operation, whose answer is only looked at
    while the operation waits. *)
Definition device_write (minor : N) (waiting : N -> option client_op) (m : bytes) : wrote :=
  if nlen m <? 16 then Refused EINVAL
  else if negb (u32_at 0 m =? nlen m) then Refused EINVAL
  else
    let error := as_i32 (u32_at 4 m) in
    let id := u64_at 8 m in
    if id =? 0 then device_notify (u32_at 4 m) (drop 16 m)
    else if ((error <=? -512) || (0 <? error))%Z then Refused EINVAL
    else
      match waiting (if N.odd id then id - 1 else id) with
      | None => Refused ENOENT
      | Some op =>
        if N.odd id then if nlen m =? 16 then Acknowledged (id - 1) error else Refused EINVAL
        else if (error =? 0)%Z then
          if fits (op_room minor op) (nlen m - 16) then Completed id (inl (drop 16 m)) else Broken id
        else if nlen m =? 16 then Completed id (inr error) else Broken id
      end.

(** The operations that wait afterwards. *)
Definition after_write (w : wrote) (waiting : N -> option client_op) (id : N) : option client_op :=
  match w with
  | Completed i _ | Broken i => if id =? i then None else waiting id
  | _ => waiting id
  end.

(** What [send] of a socket over this device returns (HostSpec.v: an errno
    becomes [NotFound] or [Other]). *)
Definition send_result (w : wrote) : send_event :=
  match w with
  | Completed _ _ | Noticed _ | Acknowledged _ _ => SendOk
  | Broken _ => SendFails (SE_Other EINVAL)
  | Refused e => SendFails (if e =? ENOENT then SE_NotFound else SE_Other e)
  end.
End Device.
