(** What a FUSE client (the kernel) sees of the messages a server writes,
    and what a server asked to be told to it.  Independent of the model of
    the reply code: only byte offsets of the public C structs and the calls
    the server made. *)

From Verif Require Import Base CoreModel ReplyModel.
From Coq Require Import List NArith ZArith Bool.
Import ListNotations.
Open Scope N_scope.


Section Spec.
Context {E : Endian}.

(** What a [writev] of a scatter buffer puts on the wire. *)
Definition on_wire (b : SendBuf) : out bytes :=
  chunks <- SendBuf_chunks b ;; Ret (concat chunks).

(** A message as the client understands it: a reply to the request [unique]
    or, when [unique] is zero, a notification. *)
Inductive message :=
| Reply (unique : N) (error : Z) (payload : bytes)
| Notification (code : N) (payload : bytes).

(** The client refuses a message whose length field differs from the number
    of bytes written (fs/fuse/dev.c, [fuse_dev_do_write]). *)
Definition kernel_read (m : bytes) : option message :=
  if nlen m <? 16 then None
  else if negb (u32_at 0 m =? nlen m) then None
  else if u64_at 8 m =? 0 then Some (Notification (u32_at 4 m) (drop 16 m))
  else Some (Reply (u64_at 8 m) (as_i32 (u32_at 4 m)) (drop 16 m)).

(** Answering the request [id] of a session at protocol version 7.[minor]
    with [a] makes one [send] call; the client sees the reply [error] with
    [payload]. *)
Definition replies (minor id : N) (a : answer) (error : Z) (payload : bytes) : Prop :=
  exists b m, answer_call minor id a = Call b /\ on_wire b = Ret m /\ SendBuf_len b = nlen m /\
    kernel_read m = Some (Reply id error payload).

(** The values fitting the C types of the public API. *)
Definition is_i32 (z : Z) : Prop := (- 2 ^ 31 <= z < 2 ^ 31)%Z.
Definition is_id (n : N) : Prop := 0 < n < U64.

(** ** Attributes *)

Inductive attr_op :=
| SetMode (v : N) | SetSize (v : N) | SetAtime (t : UnixTime) | SetMtime (t : UnixTime)
| SetCtime (t : UnixTime) | SetLinkCount (v : N) | SetUserId (v : N) | SetGroupId (v : N)
| SetDeviceNumber (v : N) | SetBlockCount (v : N) | SetBlockSize (v : N)
| SetSubmount (b : bool) | SetDax (b : bool).

(** The setter calls of a server on a [NodeAttr]. *)
Definition attr_call (o : attr_op) : fuse_attr -> fuse_attr :=
  match o with
  | SetMode v => NodeAttr_set_mode v
  | SetSize v => NodeAttr_set_size v
  | SetAtime t => NodeAttr_set_atime t
  | SetMtime t => NodeAttr_set_mtime t
  | SetCtime t => NodeAttr_set_ctime t
  | SetLinkCount v => NodeAttr_set_link_count v
  | SetUserId v => NodeAttr_set_user_id v
  | SetGroupId v => NodeAttr_set_group_id v
  | SetDeviceNumber v => NodeAttr_set_device_number v
  | SetBlockCount v => NodeAttr_set_block_count v
  | SetBlockSize v => NodeAttr_set_block_size v
  | SetSubmount b => NodeAttr_set_flag_submount b
  | SetDax b => NodeAttr_set_flag_dax b
  end.
Definition attr_calls (ops : list attr_op) (a : fuse_attr) : fuse_attr :=
  fold_left (fun a o => attr_call o a) ops a.

(** A time a [UnixTime] can hold. *)
Definition time_ok (t : UnixTime) : Prop :=
  (- 2 ^ 63 <= ut_seconds t < 2 ^ 63)%Z /\ ut_nanos t < 1000000000.

Definition attr_op_ok (o : attr_op) : Prop :=
  match o with
  | SetSize v | SetBlockCount v => v < U64
  | SetAtime t | SetMtime t | SetCtime t => time_ok t
  | SetMode v | SetLinkCount v | SetUserId v | SetGroupId v | SetDeviceNumber v
  | SetBlockSize v => v < U32
  | SetSubmount _ | SetDax _ => True
  end.

(** The value given last, or [d] if none was given. *)
Fixpoint last_set {O A} (pick : O -> option A) (ops : list O) (d : A) : A :=
  match ops with
  | [] => d
  | o :: r => last_set pick r (match pick o with Some a => a | None => d end)
  end.

Definition epoch : UnixTime := {| ut_seconds := 0; ut_nanos := 0 |}.

(** The struct [fuse_attr] at offset [o] of [p] tells the client node id
    [node] and for every attribute the value given last (initially zero).
    [full]: the last eight bytes of the struct (block size and flags) are
    present. *)
Definition attr_reads (p : bytes) (o node : N) (full : bool) (ops : list attr_op) : Prop :=
  let time sec nsec pick :=
    {| ut_seconds := as_i64 (u64_at (o + sec) p); ut_nanos := u32_at (o + nsec) p |} =
    last_set pick ops epoch in
  u64_at o p = node /\
  u64_at (o + 8) p = last_set (fun c => match c with SetSize v => Some v | _ => None end) ops 0 /\
  u64_at (o + 16) p =
    last_set (fun c => match c with SetBlockCount v => Some v | _ => None end) ops 0 /\
  time 24 48 (fun c => match c with SetAtime t => Some t | _ => None end) /\
  time 32 52 (fun c => match c with SetMtime t => Some t | _ => None end) /\
  time 40 56 (fun c => match c with SetCtime t => Some t | _ => None end) /\
  u32_at (o + 60) p = last_set (fun c => match c with SetMode v => Some v | _ => None end) ops 0 /\
  u32_at (o + 64) p =
    last_set (fun c => match c with SetLinkCount v => Some v | _ => None end) ops 0 /\
  u32_at (o + 68) p =
    last_set (fun c => match c with SetUserId v => Some v | _ => None end) ops 0 /\
  u32_at (o + 72) p =
    last_set (fun c => match c with SetGroupId v => Some v | _ => None end) ops 0 /\
  u32_at (o + 76) p =
    last_set (fun c => match c with SetDeviceNumber v => Some v | _ => None end) ops 0 /\
  (full = true ->
   u32_at (o + 80) p =
     last_set (fun c => match c with SetBlockSize v => Some v | _ => None end) ops 0 /\
   u32_at (o + 84) p =
     (if last_set (fun c => match c with SetSubmount b => Some b | _ => None end) ops false
      then 1 else 0) +
     (if last_set (fun c => match c with SetDax b => Some b | _ => None end) ops false
      then 2 else 0)).

(** ** Entries *)

(** A duration: seconds and nanoseconds. *)
Definition duration_ok (d : N * N) : Prop := fst d < U64 /\ snd d < 1000000000.
(** What the protocol can say about it: at most [i64::MAX] seconds. *)
Definition capped (d : N * N) : N * N :=
  if fst d <? I64 then d else (9223372036854775807, 0).

Inductive entry_op :=
| SetGeneration (v : N) | SetAttr (o : attr_op) | SetCacheTimeout (d : N * N)
| SetAttrTimeout (d : N * N).

(** The calls of a server on an [Entry]; attributes are changed through
    [attributes_mut]. *)
Definition entry_call (o : entry_op) : fuse_entry_out -> fuse_entry_out :=
  match o with
  | SetGeneration v => Entry_set_generation v
  | SetAttr o => Entry_set_attributes (attr_call o)
  | SetCacheTimeout d => Entry_set_cache_timeout d
  | SetAttrTimeout d => Entry_set_attribute_cache_timeout d
  end.
Definition entry_calls (ops : list entry_op) (e : fuse_entry_out) : fuse_entry_out :=
  fold_left (fun e o => entry_call o e) ops e.
Definition entry_op_ok (o : entry_op) : Prop :=
  match o with
  | SetGeneration v => v < U64
  | SetAttr o => attr_op_ok o
  | SetCacheTimeout d | SetAttrTimeout d => duration_ok d
  end.
Definition entry_attr_ops (ops : list entry_op) : list attr_op :=
  flat_map (fun o => match o with SetAttr o => [o] | _ => [] end) ops.

(** The struct [fuse_entry_out] at offset 0 of [p]: for an entry made from
    attributes with calls [aops] for node [node] and then changed by
    [ops]. *)
Definition entry_reads (p : bytes) (node : N) (full : bool) (aops : list attr_op)
    (ops : list entry_op) : Prop :=
  u64_at 0 p = node /\
  u64_at 8 p = last_set (fun c => match c with SetGeneration v => Some v | _ => None end) ops 0 /\
  (u64_at 16 p, u32_at 32 p) =
    capped (last_set (fun c => match c with SetCacheTimeout d => Some d | _ => None end) ops (0, 0)) /\
  (u64_at 24 p, u32_at 36 p) =
    capped (last_set (fun c => match c with SetAttrTimeout d => Some d | _ => None end) ops (0, 0)) /\
  attr_reads p 40 node full (aops ++ entry_attr_ops ops).

(** ** Filesystem statistics and INIT replies *)

Inductive statfs_op :=
| SetBlocks (v : N) | SetBlkSize (v : N) | SetAvailable (v : N) | SetFree (v : N)
| SetFragment (v : N) | SetInodes (v : N) | SetInodesFree (v : N) | SetNameMax (v : N).
Definition statfs_call (o : statfs_op) : fuse_kstatfs -> fuse_kstatfs :=
  match o with
  | SetBlocks v => Statfs_set_block_count v
  | SetBlkSize v => Statfs_set_block_size v
  | SetAvailable v => Statfs_set_blocks_available v
  | SetFree v => Statfs_set_blocks_free v
  | SetFragment v => Statfs_set_fragment_size v
  | SetInodes v => Statfs_set_inode_count v
  | SetInodesFree v => Statfs_set_inodes_free v
  | SetNameMax v => Statfs_set_max_filename_length v
  end.
Definition statfs_op_ok (o : statfs_op) : Prop :=
  match o with
  | SetBlocks v | SetAvailable v | SetFree v | SetInodes v | SetInodesFree v => v < U64
  | SetBlkSize v | SetFragment v | SetNameMax v => v < U32
  end.

(** struct [fuse_kstatfs]: blocks, bfree, bavail, files, ffree, bsize,
    namelen, frsize; clients before 7.4 get no frsize. *)
Definition statfs_reads (p : bytes) (full : bool) (ops : list statfs_op) : Prop :=
  u64_at 0 p = last_set (fun c => match c with SetBlocks v => Some v | _ => None end) ops 0 /\
  u64_at 8 p = last_set (fun c => match c with SetFree v => Some v | _ => None end) ops 0 /\
  u64_at 16 p = last_set (fun c => match c with SetAvailable v => Some v | _ => None end) ops 0 /\
  u64_at 24 p = last_set (fun c => match c with SetInodes v => Some v | _ => None end) ops 0 /\
  u64_at 32 p = last_set (fun c => match c with SetInodesFree v => Some v | _ => None end) ops 0 /\
  u32_at 40 p = last_set (fun c => match c with SetBlkSize v => Some v | _ => None end) ops 0 /\
  u32_at 44 p = last_set (fun c => match c with SetNameMax v => Some v | _ => None end) ops 0 /\
  (full = true ->
   u32_at 48 p = last_set (fun c => match c with SetFragment v => Some v | _ => None end) ops 0).

Inductive init_op :=
| SetVersion (v : Version) | SetFlags (bits : N) | SetMaxReadahead (v : N)
| SetMaxBackground (v : N) | SetCongestionThreshold (v : N) | SetMaxWrite (v : N)
| SetTimeGranularity (v : N).
Definition init_call (o : init_op) : fuse_init_out -> fuse_init_out :=
  match o with
  | SetVersion v => FuseInit_set_version v
  | SetFlags bits => FuseInit_set_flags bits
  | SetMaxReadahead v => FuseInit_set_max_readahead v
  | SetMaxBackground v => FuseInit_set_max_background v
  | SetCongestionThreshold v => FuseInit_set_congestion_threshold v
  | SetMaxWrite v => FuseInit_set_max_write v
  | SetTimeGranularity v => FuseInit_set_time_granularity v
  end.
Definition init_op_ok (o : init_op) : Prop :=
  match o with
  | SetVersion v => v_major v < U32 /\ v_minor v < U32
  | SetFlags bits => bits < U64
  | SetMaxBackground v | SetCongestionThreshold v => v < U16
  | SetMaxReadahead v | SetMaxWrite v | SetTimeGranularity v => v < U32
  end.

(** struct [fuse_init_out] as far as the version in it goes. *)
Definition init_reads (p : bytes) (ops : list init_op) : Prop :=
  let v := last_set (fun c => match c with SetVersion v => Some v | _ => None end) ops
             {| v_major := 0; v_minor := 0 |} in
  let flags := last_set (fun c => match c with SetFlags v => Some v | _ => None end) ops 0 in
  nlen p = (if v_minor v <? 5 then 8 else if v_minor v <? 23 then 24 else 64) /\
  u32_at 0 p = v_major v /\ u32_at 4 p = v_minor v /\
  (5 <= v_minor v ->
   u32_at 8 p = last_set (fun c => match c with SetMaxReadahead v => Some v | _ => None end) ops 0 /\
   u32_at 12 p = flags mod 4294967296 /\
   u16_at 16 p = last_set (fun c => match c with SetMaxBackground v => Some v | _ => None end) ops 0 /\
   u16_at 18 p =
     last_set (fun c => match c with SetCongestionThreshold v => Some v | _ => None end) ops 0 /\
   u32_at 20 p = last_set (fun c => match c with SetMaxWrite v => Some v | _ => None end) ops 0) /\
  (23 <= v_minor v ->
   u32_at 24 p =
     last_set (fun c => match c with SetTimeGranularity v => Some v | _ => None end) ops 0 /\
   u32_at 32 p = flags / 4294967296 /\
   (* max_pages, map_alignment and the unused words *)
   u16_at 28 p = 0 /\ u16_at 30 p = 0 /\ drop 36 p = repeat x00 28).

Inductive cuse_init_op :=
| CSetVersion (v : Version) | CSetFlags (bits : N) | CSetMaxRead (v : N) | CSetMaxWrite (v : N)
| CSetDevice (major minor : N).
Definition cuse_init_call (o : cuse_init_op) : cuse_init_out -> cuse_init_out :=
  match o with
  | CSetVersion v => CuseInit_set_version v
  | CSetFlags bits => CuseInit_set_flags bits
  | CSetMaxRead v => CuseInit_set_max_read v
  | CSetMaxWrite v => CuseInit_set_max_write v
  | CSetDevice ma mi => CuseInit_set_device_number ma mi
  end.
Definition cuse_init_op_ok (o : cuse_init_op) : Prop :=
  match o with
  | CSetVersion v => v_major v < U32 /\ v_minor v < U32
  | CSetFlags v | CSetMaxRead v | CSetMaxWrite v => v < U32
  | CSetDevice ma mi => ma < U32 /\ mi < U32
  end.

(** struct [cuse_init_out], then for a named device the ASCII codes of
    DEVNAME=, the name and a NUL. *)
Definition cuse_init_reads (p : bytes) (name : option bytes) (ops : list cuse_init_op) : Prop :=
  let v := last_set (fun c => match c with CSetVersion v => Some v | _ => None end) ops
             {| v_major := 0; v_minor := 0 |} in
  u32_at 0 p = v_major v /\ u32_at 4 p = v_minor v /\
  u32_at 12 p = last_set (fun c => match c with CSetFlags v => Some v | _ => None end) ops 0 /\
  u32_at 16 p = last_set (fun c => match c with CSetMaxRead v => Some v | _ => None end) ops 0 /\
  u32_at 20 p = last_set (fun c => match c with CSetMaxWrite v => Some v | _ => None end) ops 0 /\
  (u32_at 24 p, u32_at 28 p) =
    last_set (fun c => match c with CSetDevice a i => Some (a, i) | _ => None end) ops (0, 0) /\
  72 <= nlen p /\
  drop 72 p = match name with
              | Some n => map n2b [68; 69; 86; 78; 65; 77; 69; 61] ++ n ++ [x00]
              | None => []
              end.

(** ** Sizes *)

(** The payload size the client expects at protocol version 7.[minor], for
    the replies with a size that does not depend on names or data. *)
Definition expected_len (minor : N) (r : reply) : option N :=
  match r with
  | RBmapOut _ => Some 8
  | RGetxattrOut _ => Some 8
  | RLkOut _ _ _ _ => Some 24
  | RLseekOut _ => Some 8
  | ROpenOut _ => Some 16
  | RPollOut _ => Some 8
  | RWriteOut _ => Some 8
  | RAttrOut _ => Some (if minor <? 9 then 96 else 104)
  | REntryOut _ => Some (if minor <? 9 then 120 else 128)
  | RStatfsOut _ => Some (if minor <? 4 then 48 else 80)
  | RInitOut r => Some (if io_minor r <? 5 then 8 else if io_minor r <? 23 then 24 else 64)
  | RCreateResponse _ => Some (if minor <? 9 then 120 + 16 else 128 + 16)
  | RReaddirEntries _ | RListxattrNames _ | RCuseInit _ | RIoctl _ => None
  end.

(** ** Ioctl retries *)

(** A server collecting the slices of a retry: each step adds an input
    ([true]) or output slice. *)
Definition retry_add (s : bool * IoctlSlice) (b : IoctlRetryBuf) : out (bool * IoctlRetryBuf) :=
  if fst s then IoctlRetryBuf_add_input (snd s) b else IoctlRetryBuf_add_output (snd s) b.
Fixpoint retry_adds (ss : list (bool * IoctlSlice)) (b : IoctlRetryBuf)
  : out (list bool * IoctlRetryBuf) :=
  match ss with
  | [] => Ret ([], b)
  | s :: ss =>
    '(ok, b) <- retry_add s b ;;
    '(oks, b) <- retry_adds ss b ;;
    Ret (ok :: oks, b)
  end.

(** The inputs and the outputs among these steps. *)
Definition inputs (ss : list (bool * IoctlSlice)) : list IoctlSlice := map snd (filter fst ss).
Definition outputs (ss : list (bool * IoctlSlice)) : list IoctlSlice :=
  map snd (filter (fun s => negb (fst s)) ss).

Definition slice_ok (s : IoctlSlice) : Prop := is_base s < U64 /\ is_len s < U64.

(** ** Scatter buffers *)

(** Applying a closure with state to a list, in order. *)
Fixpoint state_map {S A B} (f : S -> A -> S * B) (s : S) (l : list A) : S * list B :=
  match l with
  | [] => (s, [])
  | a :: l =>
    let '(s, b) := f s a in
    let '(s, bs) := state_map f s l in
    (s, b :: bs)
  end.

(** The buffer made of these one to five chunks, with the length computed by
    the caller. *)
Definition sendbuf (chunks : list bytes) : option SendBuf :=
  let len := nlen (concat chunks) in
  match chunks with
  | [c1] => Some (SendBuf_new_1 len c1)
  | [c1; c2] => Some (SendBuf_new_2 len c1 c2)
  | [c1; c2; c3] => Some (SendBuf_new_3 len c1 c2 c3)
  | [c1; c2; c3; c4] => Some (SendBuf_new_4 len c1 c2 c3 c4)
  | [c1; c2; c3; c4; c5] => Some (SendBuf_new_5 len c1 c2 c3 c4 c5)
  | _ => None
  end.

(** ** Notifications *)

(** The client sees the notification [code] with body [p]. *)
Definition notifies (n : FuseNotification) (code : N) (p : bytes) : Prop :=
  exists b m, notification_encode n = Ret b /\ on_wire b = Ret m /\ SendBuf_len b = nlen m /\
    kernel_read m = Some (Notification code p).

(** The kernel's reading of an optional u64 position: at most [i64::MAX]. *)
Definition clamp_i64 (x : N) : Z := Z.min (Z.of_N x) 9223372036854775807.

End Spec.
