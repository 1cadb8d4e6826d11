(** Linux's FUSE and CUSE clients as far as a session is concerned: what they
    take from the INIT reply, which messages they then send, and what reading
    the device returns.  Specification only, transcribed from Linux (version
    6.1): fs/fuse/inode.c [process_init_reply], fs/fuse/dev.c
    [fuse_dev_do_read], fs/fuse/cuse.c [cuse_process_init_reply] and
    [cuse_parse_devinfo]; nothing here is from /repo. *)

From Verif Require Import Base Kernel CoreModel DecodeModel OpsModel WireSpec.
From Coq Require Import List NArith ZArith Bool.
Import ListNotations.
Open Scope list_scope.
Open Scope N_scope.

Section Client.
Context {E : Endian}.

(** ** FUSE: the INIT reply *)

(** The settings of a connection.  [None]: the client's own default. *)
Record linux_session := {
  ls_minor : N;
  ls_flags : N;  (* the 64 flag bits it acts on *)
  ls_max_write : N;
  ls_max_pages : N;  (* pages of 4096 bytes in one request *)
  ls_max_readahead : option N;
  ls_max_background : option N;
  ls_congestion_threshold : option N;
  ls_time_gran : N
}.

(** The payload of an INIT reply, of at most 64 bytes ([OInit] in DeviceSpec.v);
    a shorter one is filled up with zeros.  [None]: the mount fails. *)
Definition linux_init (payload : bytes) : option linux_session :=
  let p := payload ++ repeat x00 64 in
  if negb (u32_at 0 p =? 7) then None
  else
    let minor := u32_at 4 p in
    let flags :=
      if minor <? 6 then 0
      else u32_at 12 p + (if N.testbit (u32_at 12 p) 30 then 4294967296 * u32_at 32 p else 0) in
    let since_13 (n : N) := if (minor <? 13) || (n =? 0) then None else Some n in
    Some {|
      ls_minor := minor;
      ls_flags := flags;
      ls_max_write := if minor <? 5 then 4096 else N.max 4096 (u32_at 20 p);
      ls_max_pages := if N.testbit flags 22 then N.min 256 (N.max 1 (u16_at 28 p)) else 32;
      ls_max_readahead := if minor <? 6 then None else Some (u32_at 8 p);
      ls_max_background := since_13 (u16_at 16 p);
      ls_congestion_threshold := since_13 (u16_at 18 p);
      ls_time_gran :=
        if (minor <? 6) || (u32_at 24 p =? 0) || (1000000000 <? u32_at 24 p) then 1 else u32_at 24 p |}.

(** ** CUSE: the CUSE_INIT reply *)

Record linux_cuse_session := {
  lcs_minor : N;
  lcs_max_read : N;
  lcs_max_write : N;
  lcs_unrestricted_ioctl : bool;
  lcs_device : N * N;
  lcs_name : bytes
}.

(** [isspace] of the kernel. *)
Definition is_space (b : byte) : bool :=
  let n := b2n b in ((9 <=? n) && (n <=? 13)) || (n =? 32) || (n =? 160).
Fixpoint strip_front (s : bytes) : bytes :=
  match s with
  | b :: r => if is_space b then strip_front r else s
  | [] => []
  end.
(** [strstrip]: without the whitespace at both ends *)
Definition strip (s : bytes) : bytes := rev (strip_front (rev (strip_front s))).

(** The parts of [s] between occurrences of [sep]. *)
Fixpoint parts (sep : byte) (s : bytes) : list bytes :=
  match s with
  | [] => [[]]
  | b :: r =>
    if Byte.eqb b sep then [] :: parts sep r
    else match parts sep r with p :: ps => (b :: p) :: ps | [] => [[b]] end
  end.

(** key=value: both stripped; no [=] means no value. *)
Fixpoint key_value (s : bytes) : bytes * bytes :=
  match s with
  | [] => ([], [])
  | b :: r => if Byte.eqb b x3d then ([], r) else let '(k, v) := key_value r in (b :: k, v)
  end.

Definition DEVNAME : bytes := [x44; x45; x56; x4e; x41; x4d; x45].

(** The device information after the [struct cuse_init_out]: NUL-terminated
    key=value strings, of which DEVNAME is the only key known; the last one
    counts, and it must not be empty. *)
Definition device_info (info : bytes) : option bytes :=
  let entries := map (fun s => let '(k, v) := key_value s in (strip k, strip v))
                     (filter (fun s => negb (nlen s =? 0)) (parts x00 info)) in
  if negb (nlen info =? 0) && negb (Byte.eqb (last info x00) x00) then None
  else if existsb (fun e => nlen (fst e) =? 0) entries then None
  else
    let name := fold_left (fun name e => if list_eq_dec Byte.byte_eq_dec (fst e) DEVNAME then snd e else name) entries [] in
    if nlen name =? 0 then None else Some name.

(** [None]: no device appears. *)
Definition linux_cuse_init (p : bytes) : option linux_cuse_session :=
  if negb (u32_at 0 p =? 7) || (u32_at 4 p <? 11) then None
  else
    match device_info (drop 72 p) with
    | None => None
    | Some name =>
      Some {|
        lcs_minor := u32_at 4 p;
        lcs_max_read := N.max 4096 (u32_at 16 p);
        lcs_max_write := N.max 4096 (u32_at 20 p);
        lcs_unrestricted_ioctl := N.testbit (u32_at 12 p) 0;
        lcs_device := (u32_at 24 p, u32_at 28 p);
        lcs_name := name |}
    end.

(** ** Requests *)

(** The settings of a session that decide how requests are laid out.  Whether
    the server was built with overflow checks has no influence on the client. *)
Definition session_config (overflow_checks : bool) (ls : linux_session) : config :=
  {| cf_minor := ls_minor ls; cf_setxattr_ext := N.testbit (ls_flags ls) 29;
     cf_overflow_checks := overflow_checks |}.
Definition cuse_session_config (overflow_checks : bool) (ls : linux_cuse_session) : config :=
  {| cf_minor := lcs_minor ls; cf_setxattr_ext := false; cf_overflow_checks := overflow_checks |}.

(** Linux has compatibility code for old servers for WRITE, MKNOD, CREATE and
    SETXATTR only: of the other structures that grew it sends the new form. *)
Definition surplus (minor : N) (op : client_op) : list field :=
  match op with
  | OGetattr getattr_flags dummy fh =>
    if minor <? 9 then [u32 getattr_flags; u32 dummy; u64 fh] else []
  | ORead _ _ _ _ lock_owner flags pad | OReaddir _ _ _ _ lock_owner flags pad
  | OReaddirplus _ _ _ _ lock_owner flags pad =>
    if minor <? 9 then [u64 lock_owner; u32 flags; u32 pad] else []
  | ORelease _ _ _ lock_owner | OReleasedir _ _ _ lock_owner =>
    if minor <? 8 then [u64 lock_owner] else []
  | _ => []
  end.
Definition linux_message (cf : config) (hd : req_header) (op : client_op) : bytes :=
  let body := op_body cf op ++ wire (surplus (cf_minor cf) op) in
  wire (header_fields (40 + nlen body) (op_code op) hd) ++ body.

(** What limits the sizes of requests: FUSE_NAME_MAX, PATH_MAX with its NUL,
    XATTR_NAME_MAX, XATTR_SIZE_MAX, the session's [max_write] and [max_pages];
    a BATCH_FORGET is made to fit the buffer of the [read] that takes it. *)
Definition within (max_write max_pages buf_len : N) (op : client_op) : Prop :=
  match op with
  | OCreate _ _ _ _ name | OLink _ name | OLookup name | OMkdir _ _ name
  | OMknod _ _ _ _ name | ORmdir name | OUnlink name => nlen name <= 1024
  | ORename _ a b | ORename2 _ _ _ a b => nlen a <= 1024 /\ nlen b <= 1024
  | OSymlink name target => nlen name <= 1024 /\ nlen target <= 4095
  | OGetxattr _ _ name | ORemovexattr name => nlen name <= 255
  | OSetxattr _ _ _ name value => nlen name <= 255 /\ nlen value <= 65536
  | OWrite _ _ _ _ _ _ data => nlen data <= max_write /\ nlen data <= 4096 * max_pages
  | OIoctl _ _ _ _ _ input => nlen input <= 4096 * max_pages
  | OBatchForget _ items => 48 + 16 * nlen items <= buf_len /\ 48 + 16 * nlen items < U32
  (* sent once, before there is a session *)
  | OInit _ _ _ _ _ _ | OCuseInit _ _ _ _ => False
  | _ => True
  end.

(** ** Reading the device *)

(** What a [read] with a buffer of [buf_len] bytes does with the next message:
    it returns the whole message; or the operation fails with an errno and the
    [read] takes the next message; or the [read] fails with EINVAL. *)
Inductive read_result := Gets (m : bytes) | OperationFails (errno : N) | ReadEinval.
Definition E2BIG : N := 7.
Definition EIO_ : N := 5.
Definition device_read (max_write buf_len : N) (op : client_op) (m : bytes) : read_result :=
  if buf_len <? N.max 8192 (80 + max_write) then ReadEinval
  else if buf_len <? nlen m then
    OperationFails (match op with OSetxattr _ _ _ _ _ => E2BIG | _ => EIO_ end)
  else Gets m.

End Client.
