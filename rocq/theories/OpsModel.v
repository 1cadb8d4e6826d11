(** Model of the typed request conversions, fuse/operations/*.rs: for every
    request type the conversion ([TryFrom]) and every public accessor.

    References into the message ([&'a T], [&'a [u8]]) are modelled by the
    bytes they point to.  A struct [{ header, body }] of two such references
    is the record [HB]; a [compat::Versioned] body carries its version.
    [Debug] implementations are not modelled. *)

From Verif Require Import Base Kernel CoreModel DecodeModel.
From Coq Require Import List NArith Bool.
Import ListNotations.
Open Scope N_scope.

Section Ops.
Context {E : Endian}.

(** What a conversion knows besides the message: the negotiated protocol
    minor version and SETXATTR_EXT feature ([FuseLayout], fuse/server.rs:
    240-280, [CuseLayout] 213-238), and whether the program was compiled with
    integer overflow checks (debug profile). *)
Record config := {
  cf_minor : N;
  cf_setxattr_ext : bool;
  cf_overflow_checks : bool;
}.

(** A request type holding references to the header and to a C struct, such
    as fuse/operations/bmap.rs:26-29 [BmapRequest]. *)
Record HB := { hb_header : bytes; hb_body : bytes }.

(** fuse/internal/compat.rs:20-23 [Versioned]; the union of references is the
    bytes of the struct that was decoded. *)
Record Versioned := { vs_minor : N; vs_body : bytes }.

(** fuse/internal/compat.rs:69-74, 111-116, 165-170, 217-222, 273-278,
    328-333: [as_v7pN] is [Some] exactly when [version_minor >= N]. *)
Definition as_v7p (n : N) (v : Versioned) : option bytes :=
  if n <=? vs_minor v then Some (vs_body v) else None.
(** fuse/internal/compat.rs:64, 160, 212, 268, 323 [as_v7p1] *)
Definition as_v7p1 (v : Versioned) : bytes := vs_body v.

(** A request type holding the header and a versioned body, such as
    fuse/operations/getattr.rs:27-30 [GetattrRequest]. *)
Record HV := { hv_header : bytes; hv_body : Versioned }.

(** [unsafe { NodeId::new_unchecked(self.header.nodeid) }], for example
    fuse/operations/bmap.rs:34 *)
Definition unchecked_node_id (h : bytes) : out N :=
  n <- hdr_nodeid h ;; NodeId_new_unchecked n.
(** [NodeId::new(self.header.nodeid).unwrap_or(NodeId::ROOT)], for example
    fuse/operations/open.rs:36 *)
Definition node_id_or_root (h : bytes) : out N :=
  n <- hdr_nodeid h ;; Ret (match NodeId_new n with Some x => x | None => FUSE_ROOT_ID end).

(** ** fuse/operations/access.rs *)
(** fuse/operations/access.rs:27-31 *)
Record AccessRequest := { access_node_id : N; access_mask : N }.
(** fuse/operations/access.rs:45-54; [size_of::<fuse_access_in>()] = 8 *)
Definition AccessRequest_try_from (rq : Request) : out AccessRequest :=
  dec <- decoder_new rq ;;
  expect_opcode dec FUSE_ACCESS ;;
  '(raw, dec) <- next_sized 8 dec ;;
  h <- d_header dec ;; n <- hdr_nodeid h ;;
  node_id <- decode_node_id n ;;
  mask <- rd32 0 raw ;;
  Ret {| access_node_id := node_id; access_mask := mask |}.

(** ** fuse/operations/bmap.rs *)
(** fuse/operations/bmap.rs:48-56; [size_of::<fuse_bmap_in>()] = 16 *)
Definition BmapRequest_try_from (rq : Request) : out HB :=
  dec <- decoder_new rq ;;
  expect_opcode dec FUSE_BMAP ;;
  header <- d_header dec ;;
  '(body, dec) <- next_sized 16 dec ;;
  n <- hdr_nodeid header ;;
  decode_node_id n ;;
  Ret {| hb_header := header; hb_body := body |}.
(** fuse/operations/bmap.rs:32-35 *)
Definition Bmap_node_id (r : HB) := unchecked_node_id (hb_header r).
(** fuse/operations/bmap.rs:37-40 *)
Definition Bmap_block (r : HB) := rd64 0 (hb_body r).
(** fuse/operations/bmap.rs:42-45 *)
Definition Bmap_block_size (r : HB) := rd32 8 (hb_body r).

(** ** fuse/operations/copy_file_range.rs *)
(** fuse/operations/copy_file_range.rs:75-87;
    [size_of::<fuse_copy_file_range_in>()] = 56 *)
Definition CopyFileRangeRequest_try_from (rq : Request) : out HB :=
  dec <- decoder_new rq ;;
  expect_opcode dec FUSE_COPY_FILE_RANGE ;;
  header <- d_header dec ;;
  '(body, dec) <- next_sized 56 dec ;;
  n <- hdr_nodeid header ;;
  decode_node_id n ;;
  m <- rd64 16 body ;;
  decode_node_id m ;;
  Ret {| hb_header := header; hb_body := body |}.
(** fuse/operations/copy_file_range.rs:32-35 *)
Definition Cfr_input_node_id (r : HB) := unchecked_node_id (hb_header r).
(** fuse/operations/copy_file_range.rs:37-40 *)
Definition Cfr_input_handle (r : HB) := rd64 0 (hb_body r).
(** fuse/operations/copy_file_range.rs:42-45 *)
Definition Cfr_input_offset (r : HB) := rd64 8 (hb_body r).
(** fuse/operations/copy_file_range.rs:47-50 *)
Definition Cfr_output_node_id (r : HB) :=
  n <- rd64 16 (hb_body r) ;; NodeId_new_unchecked n.
(** fuse/operations/copy_file_range.rs:52-55 *)
Definition Cfr_output_handle (r : HB) := rd64 24 (hb_body r).
(** fuse/operations/copy_file_range.rs:57-60 *)
Definition Cfr_output_offset (r : HB) := rd64 32 (hb_body r).
(** fuse/operations/copy_file_range.rs:62-65 *)
Definition Cfr_len (r : HB) := rd64 40 (hb_body r).
(** fuse/operations/copy_file_range.rs:67-72 *)
Definition Cfr_flags (r : HB) := rd64 48 (hb_body r).

(** ** fuse/operations/create.rs *)
(** fuse/operations/create.rs:29-33 *)
Record CreateRequest := {
  create_header : bytes; create_body : Versioned; create_name : bytes }.
(** fuse/operations/create.rs:78-97; [size_of::<fuse_create_in>()] = 16,
    [size_of::<fuse_create_in_v7p1>()] = 8 *)
Definition CreateRequest_try_from (cf : config) (rq : Request) : out CreateRequest :=
  let version_minor := cf_minor cf in
  dec <- decoder_new rq ;;
  expect_opcode dec FUSE_CREATE ;;
  header <- d_header dec ;;
  n <- hdr_nodeid header ;;
  decode_node_id n ;;
  '(b, dec) <- (if 12 <=? version_minor then next_sized 16 dec else next_sized 8 dec) ;;
  let body := {| vs_minor := version_minor; vs_body := b |} in
  '(name, dec) <- next_node_name dec ;;
  Ret {| create_header := header; create_body := body; create_name := name |}.
(** fuse/operations/create.rs:36-39 *)
Definition Create_node_id (r : CreateRequest) := unchecked_node_id (create_header r).
(** fuse/operations/create.rs:46-54 *)
Definition Create_flags (r : CreateRequest) : out N :=
  match as_v7p 12 (create_body r) with Some b => rd32 12 b | None => Ret 0 end.
(** fuse/operations/create.rs:56-59 *)
Definition Create_open_flags (r : CreateRequest) := rd32 0 (as_v7p1 (create_body r)).
(** fuse/operations/create.rs:61-67 *)
Definition Create_mode (r : CreateRequest) : out N :=
  match as_v7p 12 (create_body r) with Some b => rd32 4 b | None => Ret 0 end.
(** fuse/operations/create.rs:69-75 *)
Definition Create_umask (r : CreateRequest) : out N :=
  match as_v7p 12 (create_body r) with Some b => rd32 8 b | None => Ret 0 end.

(** ** fuse/operations/cuse_init.rs *)
(** fuse/operations/cuse_init.rs:32-36 *)
Record CuseInitRequest := { ci_version : Version; ci_flags : N }.
(** fuse/operations/cuse_init.rs:50-60; [size_of::<cuse_init_in>()] = 16 *)
Definition CuseInitRequest_try_from (rq : Request) : out CuseInitRequest :=
  dec <- decoder_new rq ;;
  expect_opcode dec CUSE_INIT ;;
  '(raw, dec) <- next_sized 16 dec ;;
  major <- rd32 0 raw ;;
  minor <- rd32 4 raw ;;
  flags <- rd32 12 raw ;;
  Ret {| ci_version := {| v_major := major; v_minor := minor |}; ci_flags := flags |}.

(** ** fuse/operations/fallocate.rs *)
(** fuse/operations/fallocate.rs:59-67; [size_of::<fuse_fallocate_in>()] = 32 *)
Definition FallocateRequest_try_from (rq : Request) : out HB :=
  dec <- decoder_new rq ;;
  expect_opcode dec FUSE_FALLOCATE ;;
  header <- d_header dec ;;
  '(body, dec) <- next_sized 32 dec ;;
  n <- hdr_nodeid header ;;
  decode_node_id n ;;
  Ret {| hb_header := header; hb_body := body |}.
(** fuse/operations/fallocate.rs:33-36 *)
Definition Fallocate_node_id (r : HB) := unchecked_node_id (hb_header r).
(** fuse/operations/fallocate.rs:38-41 *)
Definition Fallocate_handle (r : HB) := rd64 0 (hb_body r).
(** fuse/operations/fallocate.rs:43-46 *)
Definition Fallocate_offset (r : HB) := rd64 8 (hb_body r).
(** fuse/operations/fallocate.rs:48-51 *)
Definition Fallocate_length (r : HB) := rd64 16 (hb_body r).
(** fuse/operations/fallocate.rs:53-56 *)
Definition Fallocate_flags (r : HB) := rd32 24 (hb_body r).

(** ** fuse/operations/flush.rs *)
(** fuse/operations/flush.rs:28-33 *)
Record FlushRequest := { flush_node_id : N; flush_handle : N; flush_lock_owner : N }.
(** fuse/operations/flush.rs:52-82; [size_of::<fuse_flush_in>()] = 24 *)
Definition FlushRequest_try_from (is_cuse : bool) (rq : Request) : out FlushRequest :=
  dec <- decoder_new rq ;;
  expect_opcode dec FUSE_FLUSH ;;
  node_id <- (if is_cuse then Ret FUSE_ROOT_ID
              else h <- d_header dec ;; n <- hdr_nodeid h ;; decode_node_id n) ;;
  '(raw, dec) <- next_sized 24 dec ;;
  fh <- rd64 0 raw ;;
  lock_owner <- rd64 16 raw ;;
  Ret {| flush_node_id := node_id; flush_handle := fh; flush_lock_owner := lock_owner |}.

(** ** fuse/operations/forget.rs *)
(** fuse/kernel.rs:706-709 [fuse_forget_one] = (nodeid, nlookup) *)
Definition forget_one : Type := N * N.
(** fuse/operations/forget.rs:47-50 [ForgetRequest]; lines 26-29
    [ForgetRequestItem] =
    (node_id, lookup_count) *)
Record ForgetRequest := {
  fg_forget : option forget_one; fg_batch_forgets : list forget_one }.

(** fuse/operations/forget.rs:73-78: the slice of [count] structs
    [fuse_forget_one] over the bytes [b]. *)
Fixpoint forget_slice (count : nat) (b : bytes) : list forget_one :=
  match count with
  | O => []
  | S c => (u64_at 0 b, u64_at 8 b) :: forget_slice c (drop 16 b)
  end.

(** fuse/operations/forget.rs:70-71, [a * b] on [u32]: panics with overflow checks, wraps without. *)
Definition mul_u32 (checks : bool) (a b : N) : out N :=
  if a * b <? U32 then Ret (a * b) else if checks then Panic else Ret (wrap32 (a * b)).

(** fuse/operations/forget.rs:65-94; [size_of::<fuse_batch_forget_in>()] = 8,
    [size_of::<fuse_forget_one>()] = 16, [size_of::<fuse_forget_in>()] = 8.
    [slice::from_raw_parts(ptr, count)] (lines 73-78) covers [count * 16]
    bytes from the start of [batch_bytes]. *)
Definition ForgetRequest_try_from (cf : config) (rq : Request) : out ForgetRequest :=
  dec <- decoder_new rq ;;
  header <- d_header dec ;;
  opcode <- hdr_opcode header ;;
  if opcode =? FUSE_BATCH_FORGET then
    '(raw, dec) <- next_sized 8 dec ;;
    count <- rd32 0 raw ;;
    batch_size <- mul_u32 (cf_overflow_checks cf) count 16 ;;
    '(_, dec') <- next_bytes batch_size dec ;;
    batch <- d_cast 8 dec (d_consumed dec) (count * 16) ;;
    Ret {| fg_forget := None; fg_batch_forgets := forget_slice (N.to_nat count) batch |}
  else
    expect_opcode dec FUSE_FORGET ;;
    '(raw, dec) <- next_sized 8 dec ;;
    nodeid <- hdr_nodeid header ;;
    nlookup <- rd64 0 raw ;;
    Ret {| fg_forget := Some (nodeid, nlookup); fg_batch_forgets := [] |}.

(** fuse/operations/forget.rs:108-111 [ForgetRequestIter] *)
Inductive ForgetRequestIter :=
| IterOne (o : option forget_one)
| IterBatch (l : list forget_one).

(** fuse/operations/forget.rs:146-165 [next_batch_item] *)
Fixpoint next_batch_item (items : list forget_one) : option forget_one * list forget_one :=
  match items with
  | [] => (None, [])
  | head :: tail =>
    match NodeId_new (fst head) with
    | None => next_batch_item tail
    | Some node_id => (Some (node_id, snd head), tail)
    end
  end.

(** fuse/operations/forget.rs:122-143 [ForgetRequestIter::next] *)
Definition forget_next (it : ForgetRequestIter) : option forget_one * ForgetRequestIter :=
  match it with
  | IterOne None => (None, it)
  | IterOne (Some item) =>
    (match NodeId_new (fst item) with
     | Some node_id => Some (node_id, snd item)
     | None => None
     end, IterOne None)
  | IterBatch items =>
    let (head, tail) := next_batch_item items in (head, IterBatch tail)
  end.

(** Running the iterator of fuse/operations/forget.rs:122-143 until it returns
    [None], at most [fuel] items. *)
Fixpoint forget_collect (fuel : nat) (it : ForgetRequestIter) : list forget_one :=
  match fuel with
  | O => []
  | S f =>
    match forget_next it with
    | (None, _) => []
    | (Some x, it') => x :: forget_collect f it'
    end
  end.

(** fuse/operations/forget.rs:52-61 [items]; the fuel exceeds the number of
    items. *)
Definition Forget_items (r : ForgetRequest) : list forget_one :=
  let it := match fg_forget r with
            | Some item => IterOne (Some item)
            | None => IterBatch (fg_batch_forgets r)
            end in
  forget_collect (S (S (length (fg_batch_forgets r)))) it.

(** ** fuse/operations/fsync.rs *)
(** fuse/operations/fsync.rs:51-74; [size_of::<fuse_fsync_in>()] = 16 *)
Definition FsyncRequest_try_from (is_cuse : bool) (rq : Request) : out HB :=
  dec <- decoder_new rq ;;
  expect_opcode dec FUSE_FSYNC ;;
  header <- d_header dec ;;
  '(body, dec) <- next_sized 16 dec ;;
  (if is_cuse then Ret 0 else n <- hdr_nodeid header ;; decode_node_id n) ;;
  Ret {| hb_header := header; hb_body := body |}.
(** fuse/operations/fsync.rs:33-36 *)
Definition Fsync_node_id (r : HB) := node_id_or_root (hb_header r).
(** fuse/operations/fsync.rs:38-41 *)
Definition Fsync_handle (r : HB) := rd64 0 (hb_body r).
(** fuse/operations/fsync.rs:43-48 *)
Definition Fsync_flags (r : HB) := rd32 8 (hb_body r).

(** ** fuse/operations/fsyncdir.rs *)
(** fuse/operations/fsyncdir.rs:50-58 *)
Definition FsyncdirRequest_try_from (rq : Request) : out HB :=
  dec <- decoder_new rq ;;
  expect_opcode dec FUSE_FSYNCDIR ;;
  header <- d_header dec ;;
  '(body, dec) <- next_sized 16 dec ;;
  n <- hdr_nodeid header ;;
  decode_node_id n ;;
  Ret {| hb_header := header; hb_body := body |}.
(** fuse/operations/fsyncdir.rs:32-35 *)
Definition Fsyncdir_node_id (r : HB) := unchecked_node_id (hb_header r).
(** fuse/operations/fsyncdir.rs:37-40 *)
Definition Fsyncdir_handle (r : HB) := rd64 0 (hb_body r).
(** fuse/operations/fsyncdir.rs:42-47 *)
Definition Fsyncdir_flags (r : HB) := rd32 8 (hb_body r).

(** ** fuse/operations/fuse_init.rs *)
(** fuse/operations/fuse_init.rs:27-32 *)
Record FuseInitRequest := { fi_version : Version; fi_max_readahead : N; fi_flags : N }.
(** fuse/operations/fuse_init.rs:65-110; struct sizes 8 (v7p1), 16 (v7p6), 64
    ([fuse_init_in]) *)
Definition FuseInitRequest_try_from (rq : Request) : out FuseInitRequest :=
  dec <- decoder_new rq ;;
  expect_opcode dec FUSE_INIT ;;
  raw_v7p1 <- peek_sized 8 dec ;;
  major <- rd32 0 raw_v7p1 ;;
  minor <- rd32 4 raw_v7p1 ;;
  if (minor <? 6) || negb (major =? FUSE_KERNEL_VERSION) then
    Ret {| fi_version := {| v_major := major; v_minor := minor |};
           fi_max_readahead := 0; fi_flags := 0 |}
  else if minor <? 36 then
    '(raw, dec) <- next_sized 16 dec ;;
    major <- rd32 0 raw ;;
    minor <- rd32 4 raw ;;
    max_readahead <- rd32 8 raw ;;
    flags <- rd32 12 raw ;;
    Ret {| fi_version := {| v_major := major; v_minor := minor |};
           fi_max_readahead := max_readahead; fi_flags := flags |}
  else
    '(raw, dec) <- next_sized 64 dec ;;
    flags <- rd32 12 raw ;;
    flags2 <- rd32 16 raw ;;
    major <- rd32 0 raw ;;
    minor <- rd32 4 raw ;;
    max_readahead <- rd32 8 raw ;;
    Ret {| fi_version := {| v_major := major; v_minor := minor |};
           fi_max_readahead := max_readahead;
           fi_flags := N.lor flags (N.shiftl flags2 32) |}.

(** ** fuse/operations/getattr.rs *)
(** fuse/operations/getattr.rs:48-64; [size_of::<fuse_getattr_in>()] = 16 *)
Definition GetattrRequest_try_from (cf : config) (rq : Request) : out HV :=
  let version_minor := cf_minor cf in
  dec <- decoder_new rq ;;
  expect_opcode dec FUSE_GETATTR ;;
  header <- d_header dec ;;
  n <- hdr_nodeid header ;;
  decode_node_id n ;;
  '(b, dec) <- (if 9 <=? version_minor then next_sized 16 dec else Ret ([], dec)) ;;
  Ret {| hv_header := header; hv_body := {| vs_minor := version_minor; vs_body := b |} |}.
(** fuse/operations/getattr.rs:33-36 *)
Definition Getattr_node_id (r : HV) := unchecked_node_id (hv_header r).
(** fuse/operations/getattr.rs:38-45 *)
Definition Getattr_handle (r : HV) : out (option N) :=
  match as_v7p 9 (hv_body r) with
  | None => Ret None
  | Some b =>
    flags <- rd32 0 b ;;
    if 0 <? N.land flags FUSE_GETATTR_FH then fh <- rd64 8 b ;; Ret (Some fh)
    else Ret None
  end.

(** ** fuse/operations/getlk.rs *)
(** fuse/operations/getlk.rs:26-30 *)
Record GetlkRequest := {
  getlk_header : bytes; getlk_body : bytes; getlk_lock_range : LockRange }.
(** fuse/operations/getlk.rs:64-74; [size_of::<fuse_lk_in>()] = 48 with the
    [fuse_file_lock] at
    offset 16 *)
Definition GetlkRequest_try_from (rq : Request) : out GetlkRequest :=
  dec <- decoder_new rq ;;
  expect_opcode dec FUSE_GETLK ;;
  header <- d_header dec ;;
  n <- hdr_nodeid header ;;
  decode_node_id n ;;
  '(body, dec) <- next_sized 48 dec ;;
  start <- rd64 16 body ;;
  end_ <- rd64 24 body ;;
  lock_range <- LockRange_decode start end_ ;;
  Ret {| getlk_header := header; getlk_body := body; getlk_lock_range := lock_range |}.
(** fuse/operations/getlk.rs:33-37 *)
Definition Getlk_node_id (r : GetlkRequest) := unchecked_node_id (getlk_header r).
(** fuse/operations/getlk.rs:39-43 *)
Definition Getlk_handle (r : GetlkRequest) := rd64 0 (getlk_body r).
(** fuse/operations/getlk.rs:45-49 *)
Definition Getlk_owner (r : GetlkRequest) := rd64 8 (getlk_body r).
(** fuse/operations/getlk.rs:51-55 *)
Definition Getlk_lock_mode (r : GetlkRequest) := rd32 32 (getlk_body r).

(** ** fuse/operations/getxattr.rs *)
(** fuse/operations/getxattr.rs:27-31 *)
Record GetxattrRequest := {
  getxattr_header : bytes; getxattr_body : bytes; getxattr_name : bytes }.
(** fuse/operations/getxattr.rs:54-64; [size_of::<fuse_getxattr_in>()] = 8 *)
Definition GetxattrRequest_try_from (rq : Request) : out GetxattrRequest :=
  dec <- decoder_new rq ;;
  expect_opcode dec FUSE_GETXATTR ;;
  header <- d_header dec ;;
  n <- hdr_nodeid header ;;
  decode_node_id n ;;
  '(body, dec) <- next_sized 8 dec ;;
  '(name, dec) <- next_cstr dec ;;
  Ret {| getxattr_header := header; getxattr_body := body; getxattr_name := name |}.
(** fuse/operations/getxattr.rs:36-51; [NonZeroUsize::new] *)
Definition Getxattr_node_id (r : GetxattrRequest) := unchecked_node_id (getxattr_header r).
(** fuse/operations/getxattr.rs:40-45 *)
Definition Getxattr_size (r : GetxattrRequest) : out (option N) :=
  size <- rd32 0 (getxattr_body r) ;; Ret (if size =? 0 then None else Some size).

(** ** fuse/operations/interrupt.rs *)
(** fuse/operations/interrupt.rs:38-58; [size_of::<fuse_interrupt_in>()] = 8;
    the request is its
    body. *)
Definition InterruptRequest_try_from (rq : Request) : out bytes :=
  dec <- decoder_new rq ;;
  expect_opcode dec FUSE_INTERRUPT ;;
  '(body, dec) <- next_sized 8 dec ;;
  unique <- rd64 0 body ;;
  if unique =? 0 then Fail EMissingRequestId else Ret body.
(** fuse/operations/interrupt.rs:32-35 *)
Definition Interrupt_request_id (body : bytes) : out N :=
  n <- rd64 0 body ;; nonzero_unchecked n.

(** ** fuse/operations/ioctl.rs *)
(** fuse/operations/ioctl.rs:30-34 *)
Record IoctlRequest := { ioctl_header : bytes; ioctl_body : bytes; ioctl_input : bytes }.
(** fuse/operations/ioctl.rs:80-110; [size_of::<fuse_ioctl_in>()] = 32 *)
Definition IoctlRequest_try_from (is_cuse : bool) (rq : Request) : out IoctlRequest :=
  dec <- decoder_new rq ;;
  expect_opcode dec FUSE_IOCTL ;;
  header <- d_header dec ;;
  '(body, dec) <- next_sized 32 dec ;;
  (if is_cuse then Ret 0 else n <- hdr_nodeid header ;; decode_node_id n) ;;
  in_size <- rd32 24 body ;;
  '(input, dec) <- next_bytes in_size dec ;;
  Ret {| ioctl_header := header; ioctl_body := body; ioctl_input := input |}.
(** fuse/operations/ioctl.rs:37-40 *)
Definition Ioctl_node_id (r : IoctlRequest) := node_id_or_root (ioctl_header r).
(** fuse/operations/ioctl.rs:42-45 *)
Definition Ioctl_handle (r : IoctlRequest) := rd64 0 (ioctl_body r).
(** fuse/operations/ioctl.rs:47-50 *)
Definition Ioctl_command (r : IoctlRequest) := rd32 12 (ioctl_body r).
(** fuse/operations/ioctl.rs:52-55 *)
Definition Ioctl_arg (r : IoctlRequest) := rd64 16 (ioctl_body r).
(** fuse/operations/ioctl.rs:62-65 *)
Definition Ioctl_input_len (r : IoctlRequest) := rd32 24 (ioctl_body r).
(** fuse/operations/ioctl.rs:67-70 *)
Definition Ioctl_output_len (r : IoctlRequest) := rd32 28 (ioctl_body r).
(** fuse/operations/ioctl.rs:72-77 *)
Definition Ioctl_flags (r : IoctlRequest) := rd32 8 (ioctl_body r).

(** fuse/operations/ioctl.rs:250-262 [IoctlInputReader::read]; the state is
    the remaining bytes,
    [inl] the bytes read, [inr tt] the [UnexpectedEof] error. *)
Definition ioctl_reader_read (rest : bytes) (len : N) : (bytes + unit) * bytes :=
  if len =? nlen rest then (inl rest, [])
  else if nlen rest <? len then (inr tt, rest)
  else (inl (take len rest), drop len rest).

(** fuse/operations/ioctl.rs:239-241 [IoctlInputReader], with the address of
    its slice *)
Record IoctlInputReader := { ir_addr : N; ir_bytes : bytes }.
(** fuse/operations/ioctl.rs:250-262 [IoctlInputReader::read] with addresses:
    the slice returned and the one kept.  [empty] is the address of the
    literal [b""] of line 253. *)
Definition reader_read (empty : N) (r : IoctlInputReader) (len : N)
  : (IoctlInputReader + unit) * IoctlInputReader :=
  match ioctl_reader_read (ir_bytes r) len with
  | (inl out, rest) =>
    (inl {| ir_addr := ir_addr r; ir_bytes := out |},
     {| ir_addr := if len =? nlen (ir_bytes r) then empty else ir_addr r + len;
        ir_bytes := rest |})
  | (inr e, _) => (inr e, r)
  end.
(** fuse/operations/ioctl.rs:272-277 [read_transmute] of a type of that
    alignment and size; lines 264-269 [read_array] are alignment 1.  A
    reference to a [T] must be aligned. *)
Definition read_transmute (empty align size : N) (r : IoctlInputReader)
  : out ((bytes + unit) * IoctlInputReader) :=
  match reader_read empty r size with
  | (inr e, r) => Ret (inr e, r)
  | (inl b, r) => if ir_addr b mod align =? 0 then Ret (inl (ir_bytes b), r) else Ub
  end.

(** ** fuse/operations/link.rs *)
(** fuse/operations/link.rs:24-28 *)
Record LinkRequest := { link_node_id : N; link_new_parent_id : N; link_new_name : bytes }.
(** fuse/operations/link.rs:47-58; [size_of::<fuse_link_in>()] = 8 *)
Definition LinkRequest_try_from (rq : Request) : out LinkRequest :=
  dec <- decoder_new rq ;;
  expect_opcode dec FUSE_LINK ;;
  '(raw, dec) <- next_sized 8 dec ;;
  '(name, dec) <- next_node_name dec ;;
  old <- rd64 0 raw ;;
  node_id <- decode_node_id old ;;
  h <- d_header dec ;; n <- hdr_nodeid h ;;
  new_parent_id <- decode_node_id n ;;
  Ret {| link_node_id := node_id; link_new_parent_id := new_parent_id;
         link_new_name := name |}.

(** ** fuse/operations/listxattr.rs *)
(** fuse/operations/listxattr.rs:50-59; [size_of::<fuse_getxattr_in>()] = 8 *)
Definition ListxattrRequest_try_from (rq : Request) : out HB :=
  dec <- decoder_new rq ;;
  expect_opcode dec FUSE_LISTXATTR ;;
  header <- d_header dec ;;
  n <- hdr_nodeid header ;;
  decode_node_id n ;;
  '(body, dec) <- next_sized 8 dec ;;
  Ret {| hb_header := header; hb_body := body |}.
(** fuse/operations/listxattr.rs:36-40 *)
Definition Listxattr_node_id (r : HB) := unchecked_node_id (hb_header r).
(** fuse/operations/listxattr.rs:42-47 *)
Definition Listxattr_size (r : HB) : out (option N) :=
  size <- rd32 0 (hb_body r) ;; Ret (if size =? 0 then None else Some size).

(** ** fuse/operations/lookup.rs, rmdir.rs, unlink.rs *)
(** lookup.rs:24-27, rmdir.rs:24-27, unlink.rs:26-29 *)
Record ParentName := { pn_parent_id : N; pn_name : bytes }.
(** The common body of lookup.rs:41-48, rmdir.rs:41-48, unlink.rs:43-50 *)
Definition parent_name_try_from (opcode : N) (rq : Request) : out ParentName :=
  dec <- decoder_new rq ;;
  expect_opcode dec opcode ;;
  h <- d_header dec ;; n <- hdr_nodeid h ;;
  parent_id <- decode_node_id n ;;
  '(name, dec) <- next_node_name dec ;;
  Ret {| pn_parent_id := parent_id; pn_name := name |}.
(** lookup.rs:41-48 *)
Definition LookupRequest_try_from := parent_name_try_from FUSE_LOOKUP.
(** rmdir.rs:41-48 *)
Definition RmdirRequest_try_from := parent_name_try_from FUSE_RMDIR.
(** unlink.rs:43-50 *)
Definition UnlinkRequest_try_from := parent_name_try_from FUSE_UNLINK.

(** ** fuse/operations/lseek.rs *)
(** fuse/operations/lseek.rs:26-29 *)
Record LseekRequest := { lseek_raw : bytes; lseek_node_id : N }.
(** fuse/operations/lseek.rs:53-61; [size_of::<fuse_lseek_in>()] = 24 *)
Definition LseekRequest_try_from (rq : Request) : out LseekRequest :=
  dec <- decoder_new rq ;;
  expect_opcode dec FUSE_LSEEK ;;
  '(raw, dec) <- next_sized 24 dec ;;
  h <- d_header dec ;; n <- hdr_nodeid h ;;
  node_id <- decode_node_id n ;;
  Ret {| lseek_raw := raw; lseek_node_id := node_id |}.
(** fuse/operations/lseek.rs:37-40 *)
Definition Lseek_handle (r : LseekRequest) := rd64 0 (lseek_raw r).
(** fuse/operations/lseek.rs:42-45 *)
Definition Lseek_offset (r : LseekRequest) := rd64 8 (lseek_raw r).
(** fuse/operations/lseek.rs:47-50 *)
Definition Lseek_whence (r : LseekRequest) := rd32 16 (lseek_raw r).

(** ** fuse/operations/mkdir.rs *)
(** fuse/operations/mkdir.rs:26-30 *)
Record MkdirRequest := { mkdir_parent_id : N; mkdir_name : bytes; mkdir_raw : bytes }.
(** fuse/operations/mkdir.rs:54-65; [size_of::<fuse_mkdir_in>()] = 8 *)
Definition MkdirRequest_try_from (rq : Request) : out MkdirRequest :=
  dec <- decoder_new rq ;;
  expect_opcode dec FUSE_MKDIR ;;
  '(raw, dec) <- next_sized 8 dec ;;
  '(name, dec) <- next_node_name dec ;;
  h <- d_header dec ;; n <- hdr_nodeid h ;;
  parent_id <- decode_node_id n ;;
  Ret {| mkdir_parent_id := parent_id; mkdir_name := name; mkdir_raw := raw |}.
(** fuse/operations/mkdir.rs:43-46 *)
Definition Mkdir_mode (r : MkdirRequest) := rd32 0 (mkdir_raw r).
(** fuse/operations/mkdir.rs:48-51 *)
Definition Mkdir_umask (r : MkdirRequest) := rd32 4 (mkdir_raw r).

(** ** fuse/operations/mknod.rs *)
(** fuse/operations/mknod.rs:27-31 *)
Record MknodRequest := {
  mknod_header : bytes; mknod_body : Versioned; mknod_name : bytes }.
(** fuse/operations/mknod.rs:68-87; [size_of::<fuse_mknod_in>()] = 16,
    [size_of::<fuse_mknod_in_v7p1>()] = 8 *)
Definition MknodRequest_try_from (cf : config) (rq : Request) : out MknodRequest :=
  let version_minor := cf_minor cf in
  dec <- decoder_new rq ;;
  expect_opcode dec FUSE_MKNOD ;;
  header <- d_header dec ;;
  n <- hdr_nodeid header ;;
  decode_node_id n ;;
  '(b, dec) <- (if 12 <=? version_minor then next_sized 16 dec else next_sized 8 dec) ;;
  let body := {| vs_minor := version_minor; vs_body := b |} in
  '(name, dec) <- next_node_name dec ;;
  Ret {| mknod_header := header; mknod_body := body; mknod_name := name |}.
(** fuse/operations/mknod.rs:34-37 *)
Definition Mknod_parent_id (r : MknodRequest) := unchecked_node_id (mknod_header r).
(** fuse/operations/mknod.rs:44-47 *)
Definition Mknod_mode (r : MknodRequest) := rd32 0 (as_v7p1 (mknod_body r)).
(** fuse/operations/mknod.rs:49-55 *)
Definition Mknod_umask (r : MknodRequest) : out N :=
  match as_v7p 12 (mknod_body r) with Some b => rd32 8 b | None => Ret 0 end.
(** fuse/operations/mknod.rs:57-65 *)
Definition Mknod_device_number (r : MknodRequest) : out (option N) :=
  mode <- Mknod_mode r ;;
  match FileType_from_mode mode with
  | Some CharacterDevice | Some BlockDevice =>
    rdev <- rd32 4 (as_v7p1 (mknod_body r)) ;; Ret (Some rdev)
  | _ => Ret None
  end.

(** ** fuse/operations/open.rs *)
(** fuse/operations/open.rs:53-76; [size_of::<fuse_open_in>()] = 8 *)
Definition OpenRequest_try_from (is_cuse : bool) (rq : Request) : out HB :=
  dec <- decoder_new rq ;;
  expect_opcode dec FUSE_OPEN ;;
  header <- d_header dec ;;
  '(body, dec) <- next_sized 8 dec ;;
  (if is_cuse then Ret 0 else n <- hdr_nodeid header ;; decode_node_id n) ;;
  Ret {| hb_header := header; hb_body := body |}.
(** fuse/operations/open.rs:34-37 *)
Definition Open_node_id (r : HB) := node_id_or_root (hb_header r).
(** fuse/operations/open.rs:39-44 *)
Definition Open_flags (r : HB) := rd32 4 (hb_body r).
(** fuse/operations/open.rs:46-50 *)
Definition Open_open_flags (r : HB) := rd32 0 (hb_body r).

(** ** fuse/operations/opendir.rs *)
(** fuse/operations/opendir.rs:52-60 *)
Definition OpendirRequest_try_from (rq : Request) : out HB :=
  dec <- decoder_new rq ;;
  expect_opcode dec FUSE_OPENDIR ;;
  header <- d_header dec ;;
  '(body, dec) <- next_sized 8 dec ;;
  n <- hdr_nodeid header ;;
  decode_node_id n ;;
  Ret {| hb_header := header; hb_body := body |}.
(** fuse/operations/opendir.rs:33-36 *)
Definition Opendir_node_id (r : HB) := unchecked_node_id (hb_header r).
(** fuse/operations/opendir.rs:38-43 *)
Definition Opendir_flags (r : HB) := rd32 4 (hb_body r).
(** fuse/operations/opendir.rs:45-49 *)
Definition Opendir_open_flags (r : HB) := rd32 0 (hb_body r).

(** ** fuse/operations/poll.rs *)
(** fuse/operations/poll.rs:72-92; [size_of::<fuse_poll_in>()] = 24.  The same
    conversion serves
    FUSE and CUSE. *)
Definition PollRequest_try_from (rq : Request) : out HB :=
  dec <- decoder_new rq ;;
  expect_opcode dec FUSE_POLL ;;
  header <- d_header dec ;;
  '(body, dec) <- next_sized 24 dec ;;
  n <- hdr_nodeid header ;;
  decode_node_id n ;;
  Ret {| hb_header := header; hb_body := body |}.
(** fuse/operations/poll.rs:49-52 *)
Definition Poll_node_id (r : HB) := unchecked_node_id (hb_header r).
(** fuse/operations/poll.rs:54-57 *)
Definition Poll_events (r : HB) := rd32 20 (hb_body r).
(** fuse/operations/poll.rs:59-62 *)
Definition Poll_handle (r : HB) := rd64 8 (hb_body r).
(** fuse/operations/poll.rs:64-69 *)
Definition Poll_flags (r : HB) := rd32 16 (hb_body r).

(** ** fuse/operations/read.rs *)
(** fuse/operations/read.rs:76-110; [size_of::<fuse_read_in>()] = 40,
    [size_of::<fuse_read_in_v7p1>()] = 24 *)
Definition ReadRequest_try_from (is_cuse : bool) (cf : config) (rq : Request) : out HV :=
  let version_minor := cf_minor cf in
  dec <- decoder_new rq ;;
  expect_opcode dec FUSE_READ ;;
  header <- d_header dec ;;
  (if is_cuse then Ret 0 else n <- hdr_nodeid header ;; decode_node_id n) ;;
  '(b, dec) <- (if 9 <=? version_minor then next_sized 40 dec else next_sized 24 dec) ;;
  Ret {| hv_header := header; hv_body := {| vs_minor := version_minor; vs_body := b |} |}.
(** fuse/operations/read.rs:35-38 *)
Definition Read_node_id (r : HV) := node_id_or_root (hv_header r).
(** fuse/operations/read.rs:40-43 *)
Definition Read_size (r : HV) := rd32 16 (as_v7p1 (hv_body r)).
(** fuse/operations/read.rs:45-48 *)
Definition Read_offset (r : HV) := rd64 8 (as_v7p1 (hv_body r)).
(** fuse/operations/read.rs:53-56 *)
Definition Read_handle (r : HV) := rd64 0 (as_v7p1 (hv_body r)).
(** fuse/operations/read.rs:58-65 *)
Definition Read_lock_owner (r : HV) : out (option N) :=
  match as_v7p 9 (hv_body r) with
  | None => Ret None
  | Some b =>
    flags <- rd32 20 b ;;
    if N.land flags FUSE_READ_LOCKOWNER =? 0 then Ret None
    else lo <- rd64 24 b ;; Ret (Some lo)
  end.
(** fuse/operations/read.rs:67-73 *)
Definition Read_open_flags (r : HV) : out N :=
  match as_v7p 9 (hv_body r) with Some b => rd32 32 b | None => Ret 0 end.

(** ** fuse/operations/readdir.rs and readdirplus.rs *)
(** The common body of readdir.rs:70-87 and readdirplus.rs:69-86 *)
Definition readdir_try_from (opcode : N) (cf : config) (rq : Request) : out HV :=
  let version_minor := cf_minor cf in
  dec <- decoder_new rq ;;
  expect_opcode dec opcode ;;
  header <- d_header dec ;;
  n <- hdr_nodeid header ;;
  decode_node_id n ;;
  '(b, dec) <- (if 9 <=? version_minor then next_sized 40 dec else next_sized 24 dec) ;;
  Ret {| hv_header := header; hv_body := {| vs_minor := version_minor; vs_body := b |} |}.
(** readdir.rs:70-87 *)
Definition ReaddirRequest_try_from := readdir_try_from FUSE_READDIR.
(** readdirplus.rs:69-86 *)
Definition ReaddirplusRequest_try_from := readdir_try_from FUSE_READDIRPLUS.
(** readdir.rs:39-67, readdirplus.rs:38-66 *)
Definition Readdir_node_id (r : HV) := unchecked_node_id (hv_header r).
(** fuse/operations/readdir.rs:43-46 *)
Definition Readdir_size (r : HV) := rd32 16 (as_v7p1 (hv_body r)).
(** fuse/operations/readdir.rs:48-51 *)
Definition Readdir_offset (r : HV) : out (option N) :=
  o <- rd64 8 (as_v7p1 (hv_body r)) ;; Ret (if o =? 0 then None else Some o).
(** fuse/operations/readdir.rs:56-59 *)
Definition Readdir_handle (r : HV) := rd64 0 (as_v7p1 (hv_body r)).
(** fuse/operations/readdir.rs:61-67 *)
Definition Readdir_open_flags (r : HV) : out N :=
  match as_v7p 9 (hv_body r) with Some b => rd32 32 b | None => Ret 0 end.

(** ** fuse/operations/readlink.rs, statfs.rs *)
(** The common body of readlink.rs:39-46 and statfs.rs:39-47 *)
Definition node_only_try_from (opcode : N) (rq : Request) : out N :=
  dec <- decoder_new rq ;;
  expect_opcode dec opcode ;;
  h <- d_header dec ;; n <- hdr_nodeid h ;;
  decode_node_id n.
(** readlink.rs:39-46 *)
Definition ReadlinkRequest_try_from := node_only_try_from FUSE_READLINK.
(** statfs.rs:39-47 *)
Definition StatfsRequest_try_from := node_only_try_from FUSE_STATFS.

(** ** fuse/operations/release.rs *)
(** fuse/operations/release.rs:63-97; [size_of::<fuse_release_in>()] = 24,
    [size_of::<fuse_release_in_v7p1>()] = 16 *)
Definition ReleaseRequest_try_from (is_cuse : bool) (cf : config) (rq : Request) : out HV :=
  let version_minor := cf_minor cf in
  dec <- decoder_new rq ;;
  expect_opcode dec FUSE_RELEASE ;;
  header <- d_header dec ;;
  (if is_cuse then Ret 0 else n <- hdr_nodeid header ;; decode_node_id n) ;;
  '(b, dec) <- (if 8 <=? version_minor then next_sized 24 dec else next_sized 16 dec) ;;
  Ret {| hv_header := header; hv_body := {| vs_minor := version_minor; vs_body := b |} |}.
(** fuse/operations/release.rs:35-38 *)
Definition Release_node_id (r : HV) := node_id_or_root (hv_header r).
(** fuse/operations/release.rs:43-46 *)
Definition Release_handle (r : HV) := rd64 0 (as_v7p1 (hv_body r)).
(** fuse/operations/release.rs:48-55 *)
Definition Release_lock_owner (r : HV) : out (option N) :=
  match as_v7p 8 (hv_body r) with
  | None => Ret None
  | Some b =>
    flags <- rd32 12 b ;;
    if N.land flags FUSE_RELEASE_FLOCK_UNLOCK =? 0 then Ret None
    else lo <- rd64 16 b ;; Ret (Some lo)
  end.
(** fuse/operations/release.rs:57-60 *)
Definition Release_open_flags (r : HV) := rd32 8 (as_v7p1 (hv_body r)).

(** ** fuse/operations/releasedir.rs *)
(** fuse/operations/releasedir.rs:62-79 *)
Definition ReleasedirRequest_try_from (cf : config) (rq : Request) : out HV :=
  let version_minor := cf_minor cf in
  dec <- decoder_new rq ;;
  expect_opcode dec FUSE_RELEASEDIR ;;
  header <- d_header dec ;;
  n <- hdr_nodeid header ;;
  decode_node_id n ;;
  '(b, dec) <- (if 8 <=? version_minor then next_sized 24 dec else next_sized 16 dec) ;;
  Ret {| hv_header := header; hv_body := {| vs_minor := version_minor; vs_body := b |} |}.
(** fuse/operations/releasedir.rs:34-37 *)
Definition Releasedir_node_id (r : HV) := unchecked_node_id (hv_header r).
(** fuse/operations/releasedir.rs:42-45 *)
Definition Releasedir_handle (r : HV) := rd64 0 (as_v7p1 (hv_body r)).
(** fuse/operations/releasedir.rs:47-54 *)
Definition Releasedir_lock_owner (r : HV) : out (option N) :=
  match as_v7p 8 (hv_body r) with
  | None => Ret None
  | Some b =>
    flags <- rd32 12 b ;;
    if N.land flags FUSE_RELEASE_FLOCK_UNLOCK =? 0 then Ret None
    else lo <- rd64 16 b ;; Ret (Some lo)
  end.
(** fuse/operations/releasedir.rs:56-59 *)
Definition Releasedir_open_flags (r : HV) := rd32 8 (as_v7p1 (hv_body r)).

(** ** fuse/operations/removexattr.rs *)
(** fuse/operations/removexattr.rs:26-29 *)
Record RemovexattrRequest := { removexattr_header : bytes; removexattr_name : bytes }.
(** fuse/operations/removexattr.rs:45-53 *)
Definition RemovexattrRequest_try_from (rq : Request) : out RemovexattrRequest :=
  dec <- decoder_new rq ;;
  expect_opcode dec FUSE_REMOVEXATTR ;;
  header <- d_header dec ;;
  n <- hdr_nodeid header ;;
  decode_node_id n ;;
  '(name, dec) <- next_cstr dec ;;
  Ret {| removexattr_header := header; removexattr_name := name |}.
(** fuse/operations/removexattr.rs:32-36 *)
Definition Removexattr_node_id (r : RemovexattrRequest) :=
  unchecked_node_id (removexattr_header r).

(** ** fuse/operations/rename.rs *)
(** fuse/operations/rename.rs:27-33 *)
Record RenameRequest := {
  rename_old_directory_id : N; rename_old_name : bytes;
  rename_new_directory_id : N; rename_new_name : bytes; rename_flags : N }.
(** fuse/operations/rename.rs:62-86; [size_of::<fuse_rename2_in>()] = 16,
    [size_of::<fuse_rename_in>()] = 8 *)
Definition RenameRequest_try_from (rq : Request) : out RenameRequest :=
  dec <- decoder_new rq ;;
  header <- d_header dec ;;
  opcode <- hdr_opcode header ;;
  '(new_dir, flags, dec) <-
    (if opcode =? FUSE_RENAME2 then
       '(parsed, dec) <- next_sized 16 dec ;;
       flags <- rd32 8 parsed ;;
       new_dir <- rd64 0 parsed ;;
       Ret (new_dir, flags, dec)
     else
       expect_opcode dec FUSE_RENAME ;;
       '(parsed, dec) <- next_sized 8 dec ;;
       new_dir <- rd64 0 parsed ;;
       Ret (new_dir, 0, dec)) ;;
  '(old_name, dec) <- next_node_name dec ;;
  '(new_name, dec) <- next_node_name dec ;;
  n <- hdr_nodeid header ;;
  old_directory_id <- decode_node_id n ;;
  new_directory_id <- decode_node_id new_dir ;;
  Ret {| rename_old_directory_id := old_directory_id; rename_old_name := old_name;
         rename_new_directory_id := new_directory_id; rename_new_name := new_name;
         rename_flags := flags |}.

(** ** fuse/operations/setattr.rs *)
(** fuse/operations/setattr.rs:131-149; [size_of::<fuse_setattr_in>()] = 88 *)
Definition SetattrRequest_try_from (rq : Request) : out HB :=
  dec <- decoder_new rq ;;
  expect_opcode dec FUSE_SETATTR ;;
  header <- d_header dec ;;
  n <- hdr_nodeid header ;;
  decode_node_id n ;;
  '(raw, dec) <- next_sized 88 dec ;;
  valid <- rd32 0 raw ;;
  (if 0 <? N.land valid FATTR_ATIME
   then ns <- rd32 56 raw ;; check_timespec_nanos ns else Ret tt) ;;
  (if 0 <? N.land valid FATTR_MTIME
   then ns <- rd32 60 raw ;; check_timespec_nanos ns else Ret tt) ;;
  (if 0 <? N.land valid FATTR_CTIME
   then ns <- rd32 64 raw ;; check_timespec_nanos ns else Ret tt) ;;
  Ret {| hb_header := header; hb_body := raw |}.
(** fuse/operations/setattr.rs:38-43 [get] *)
Definition Setattr_get (r : HB) (bitmask : N) (value : out N) : out (option N) :=
  valid <- rd32 0 (hb_body r) ;;
  v <- value ;;
  if N.land valid bitmask =? 0 then Ret None else Ret (Some v).
(** fuse/operations/setattr.rs:46-58 [get_timestamp] *)
Definition Setattr_get_timestamp (r : HB) (bitmask : N) (seconds nanos : out N) :
    out (option UnixTime) :=
  valid <- rd32 0 (hb_body r) ;;
  s <- seconds ;;
  ns <- nanos ;;
  if N.land valid bitmask =? 0 then Ret None
  else Ret (Some (UnixTime_from_timespec s ns)).
(** fuse/operations/setattr.rs:32-35 *)
Definition Setattr_node_id (r : HB) := unchecked_node_id (hb_header r).
(** fuse/operations/setattr.rs:60-63 *)
Definition Setattr_handle (r : HB) := Setattr_get r FATTR_FH (rd64 8 (hb_body r)).
(** fuse/operations/setattr.rs:65-68 *)
Definition Setattr_size (r : HB) := Setattr_get r FATTR_SIZE (rd64 16 (hb_body r)).
(** fuse/operations/setattr.rs:70-76 *)
Definition Setattr_lock_owner (r : HB) :=
  Setattr_get r FATTR_LOCKOWNER (rd64 24 (hb_body r)).
(** fuse/operations/setattr.rs:78-85 *)
Definition Setattr_atime (r : HB) :=
  Setattr_get_timestamp r FATTR_ATIME (rd64 32 (hb_body r)) (rd32 56 (hb_body r)).
(** fuse/operations/setattr.rs:87-90 *)
Definition Setattr_atime_now (r : HB) : out bool :=
  valid <- rd32 0 (hb_body r) ;; Ret (0 <? N.land valid FATTR_ATIME_NOW).
(** fuse/operations/setattr.rs:92-99 *)
Definition Setattr_mtime (r : HB) :=
  Setattr_get_timestamp r FATTR_MTIME (rd64 40 (hb_body r)) (rd32 60 (hb_body r)).
(** fuse/operations/setattr.rs:101-104 *)
Definition Setattr_mtime_now (r : HB) : out bool :=
  valid <- rd32 0 (hb_body r) ;; Ret (0 <? N.land valid FATTR_MTIME_NOW).
(** fuse/operations/setattr.rs:106-113 *)
Definition Setattr_ctime (r : HB) :=
  Setattr_get_timestamp r FATTR_CTIME (rd64 48 (hb_body r)) (rd32 64 (hb_body r)).
(** fuse/operations/setattr.rs:115-118 *)
Definition Setattr_mode (r : HB) := Setattr_get r FATTR_MODE (rd32 68 (hb_body r)).
(** fuse/operations/setattr.rs:120-123 *)
Definition Setattr_user_id (r : HB) := Setattr_get r FATTR_UID (rd32 76 (hb_body r)).
(** fuse/operations/setattr.rs:125-128 *)
Definition Setattr_group_id (r : HB) := Setattr_get r FATTR_GID (rd32 80 (hb_body r)).

(** ** fuse/operations/setlk.rs *)
(** fuse/operations/setlk.rs:26-30 *)
Record SetlkRequest := { setlk_header : bytes; setlk_body : bytes; setlk_lock : Lock }.
(** fuse/operations/setlk.rs:72-85 *)
Definition SetlkRequest_try_from (rq : Request) : out SetlkRequest :=
  dec <- decoder_new rq ;;
  header <- d_header dec ;;
  opcode <- hdr_opcode header ;;
  (if negb (opcode =? FUSE_SETLKW) then expect_opcode dec FUSE_SETLK else Ret tt) ;;
  n <- hdr_nodeid header ;;
  decode_node_id n ;;
  '(body, dec) <- next_sized 48 dec ;;
  start <- rd64 16 body ;;
  end_ <- rd64 24 body ;;
  type <- rd32 32 body ;;
  pid <- rd32 36 body ;;
  lock <- Lock_decode start end_ type pid ;;
  Ret {| setlk_header := header; setlk_body := body; setlk_lock := lock |}.
(** fuse/operations/setlk.rs:33-37 *)
Definition Setlk_node_id (r : SetlkRequest) := unchecked_node_id (setlk_header r).
(** fuse/operations/setlk.rs:39-43 *)
Definition Setlk_handle (r : SetlkRequest) := rd64 0 (setlk_body r).
(** fuse/operations/setlk.rs:45-49 *)
Definition Setlk_may_block (r : SetlkRequest) : out bool :=
  op <- hdr_opcode (setlk_header r) ;; Ret (op =? FUSE_SETLKW).
(** fuse/operations/setlk.rs:51-55 *)
Definition Setlk_owner (r : SetlkRequest) := rd64 8 (setlk_body r).
(** fuse/operations/setlk.rs:63-69 *)
Definition Setlk_flags (r : SetlkRequest) := rd32 40 (setlk_body r).

(** ** fuse/operations/setxattr.rs *)
(** fuse/operations/setxattr.rs:28-33 *)
Record SetxattrRequest := {
  setxattr_header : bytes; setxattr_body : Versioned;
  setxattr_name : bytes; setxattr_value : bytes }.
(** fuse/operations/setxattr.rs:72-91; [size_of::<fuse_setxattr_in>()] = 16,
    [size_of::<fuse_setxattr_in_v7p1>()] = 8; the version tag is 33 or 1
    (compat.rs:192-209) *)
Definition SetxattrRequest_try_from (cf : config) (rq : Request) : out SetxattrRequest :=
  dec <- decoder_new rq ;;
  expect_opcode dec FUSE_SETXATTR ;;
  header <- d_header dec ;;
  n <- hdr_nodeid header ;;
  decode_node_id n ;;
  '(body, dec) <-
    (if cf_setxattr_ext cf then
       '(b, dec) <- next_sized 16 dec ;; Ret ({| vs_minor := 33; vs_body := b |}, dec)
     else
       '(b, dec) <- next_sized 8 dec ;; Ret ({| vs_minor := 1; vs_body := b |}, dec)) ;;
  '(name, dec) <- next_cstr dec ;;
  size <- rd32 0 (as_v7p1 body) ;;
  '(value, dec) <- next_bytes size dec ;;
  Ret {| setxattr_header := header; setxattr_body := body;
         setxattr_name := name; setxattr_value := value |}.
(** fuse/operations/setxattr.rs:36-40 *)
Definition Setxattr_node_id (r : SetxattrRequest) := unchecked_node_id (setxattr_header r).
(** fuse/operations/setxattr.rs:48-57 *)
Definition Setxattr_flags (r : SetxattrRequest) : out N :=
  match as_v7p 33 (setxattr_body r) with Some b => rd32 8 b | None => Ret 0 end.
(** fuse/operations/setxattr.rs:59-63 *)
Definition Setxattr_setxattr_flags (r : SetxattrRequest) :=
  rd32 4 (as_v7p1 (setxattr_body r)).

(** ** fuse/operations/symlink.rs *)
(** fuse/operations/symlink.rs:28-32 *)
Record SymlinkRequest := {
  symlink_parent_id : N; symlink_name : bytes; symlink_content : bytes }.
(** fuse/operations/symlink.rs:51-61 *)
Definition SymlinkRequest_try_from (rq : Request) : out SymlinkRequest :=
  dec <- decoder_new rq ;;
  expect_opcode dec FUSE_SYMLINK ;;
  '(content, dec) <- next_cstr dec ;;
  '(name, dec) <- next_node_name dec ;;
  h <- d_header dec ;; n <- hdr_nodeid h ;;
  parent_id <- decode_node_id n ;;
  Ret {| symlink_parent_id := parent_id; symlink_name := name;
         symlink_content := content |}.

(** ** fuse/operations/write.rs *)
(** fuse/operations/write.rs:33-36; [msg] is a pointer to the message, so the
    model keeps the
    message bytes (the first [header.len] bytes of the receive buffer). *)
Record WriteRequest := { write_msg : bytes; write_minor : N }.
(** fuse/operations/write.rs:140-179; [size_of::<fuse_write_in>()] = 40,
    [size_of::<fuse_write_in_v7p1>()] = 24 *)
Definition WriteRequest_try_from (is_cuse : bool) (cf : config) (rq : Request) :
    out WriteRequest :=
  let version_minor := cf_minor cf in
  dec <- decoder_new rq ;;
  expect_opcode dec FUSE_WRITE ;;
  header <- d_header dec ;;
  (if is_cuse then Ret 0 else n <- hdr_nodeid header ;; decode_node_id n) ;;
  '(value_len, dec) <-
    (if 9 <=? version_minor then
       '(body, dec) <- next_sized 40 dec ;; s <- rd32 16 body ;; Ret (s, dec)
     else
       '(body, dec) <- next_sized 24 dec ;; s <- rd32 16 body ;; Ret (s, dec)) ;;
  '(_, dec) <- next_bytes value_len dec ;;
  msg <- as_bytes rq ;;
  Ret {| write_msg := msg; write_minor := version_minor |}.
(** fuse/operations/write.rs:60-75: the header is at offset 0 and the body at
    offset 40 of the
    message ([write_msg], lines 39-48) *)
Definition Write_node_id (r : WriteRequest) : out N :=
  n <- rd64 16 (write_msg r) ;;
  Ret (match NodeId_new n with Some x => x | None => FUSE_ROOT_ID end).
(** fuse/operations/write.rs:84-87 *)
Definition Write_offset (r : WriteRequest) := rd64 (40 + 8) (write_msg r).
(** fuse/operations/write.rs:92-95 *)
Definition Write_handle (r : WriteRequest) := rd64 (40 + 0) (write_msg r).
(** fuse/operations/write.rs:97-113 *)
Definition Write_value (r : WriteRequest) : out bytes :=
  value_len <- rd32 (40 + 16) (write_msg r) ;;
  let offset := if 9 <=? write_minor r then 40 + 40 else 40 + 24 in
  mem_read (write_msg r) offset value_len.
(** fuse/operations/write.rs:115-120 *)
Definition Write_flags (r : WriteRequest) := rd32 (40 + 20) (write_msg r).
(** fuse/operations/write.rs:122-129 *)
Definition Write_lock_owner (r : WriteRequest) : out (option N) :=
  if 9 <=? write_minor r then
    flags <- rd32 (40 + 20) (write_msg r) ;;
    if N.land flags FUSE_WRITE_LOCKOWNER =? 0 then Ret None
    else lo <- rd64 (40 + 24) (write_msg r) ;; Ret (Some lo)
  else Ret None.
(** fuse/operations/write.rs:131-137 *)
Definition Write_open_flags (r : WriteRequest) : out N :=
  if 9 <=? write_minor r then rd32 (40 + 32) (write_msg r) else Ret 0.

(** ** What the API shows of a decoded request

    One constructor per request type; the arguments are the values returned
    by the public accessors of that type, under the accessor's name: the
    methods of the [impl] blocks in fuse/operations/*.rs cited above. *)
Inductive view :=
| VAccess (node_id mask : N)
| VBmap (node_id block block_size : N)
| VCopyFileRange (input_node_id input_handle input_offset
                  output_node_id output_handle output_offset len flags : N)
| VCreate (node_id : N) (name : bytes) (flags open_flags mode umask : N)
| VCuseInit (version : Version) (flags : N)
| VFallocate (node_id handle offset length fallocate_flags : N)
| VFlush (node_id handle lock_owner : N)
| VForget (items : list (N * N))
| VFsync (node_id handle flags : N)
| VFsyncdir (node_id handle flags : N)
| VFuseInit (version : Version) (max_readahead flags : N)
| VGetattr (node_id : N) (handle : option N)
| VGetlk (node_id handle owner lock_mode : N) (lock_range : LockRange)
| VGetxattr (node_id : N) (size : option N) (name : bytes)
| VInterrupt (request_id : N)
| VIoctl (node_id handle command arg : N) (input : bytes)
         (input_len output_len flags : N)
| VLink (node_id new_parent_id : N) (new_name : bytes)
| VListxattr (node_id : N) (size : option N)
| VLookup (parent_id : N) (name : bytes)
| VLseek (node_id handle offset whence : N)
| VMkdir (parent_id : N) (name : bytes) (mode umask : N)
| VMknod (parent_id : N) (name : bytes) (mode umask : N) (device_number : option N)
| VOpen (node_id flags open_flags : N)
| VOpendir (node_id flags open_flags : N)
| VPoll (node_id poll_events poll_handle flags : N)
| VRead (node_id size offset handle : N) (lock_owner : option N) (open_flags : N)
| VReaddir (node_id size : N) (offset : option N) (handle open_flags : N)
| VReaddirplus (node_id size : N) (offset : option N) (handle open_flags : N)
| VReadlink (node_id : N)
| VRelease (node_id handle : N) (lock_owner : option N) (open_flags : N)
| VReleasedir (node_id handle : N) (lock_owner : option N) (open_flags : N)
| VRemovexattr (node_id : N) (name : bytes)
| VRename (old_directory_id : N) (old_name : bytes)
          (new_directory_id : N) (new_name : bytes) (rename_flags : N)
| VRmdir (parent_id : N) (name : bytes)
| VSetattr (node_id : N) (handle size lock_owner : option N)
           (atime : option UnixTime) (atime_now : bool)
           (mtime : option UnixTime) (mtime_now : bool)
           (ctime : option UnixTime) (mode user_id group_id : option N)
| VSetlk (node_id handle : N) (may_block : bool) (owner : N) (lock : Lock) (flags : N)
| VSetxattr (node_id : N) (name : bytes) (flags setxattr_flags : N) (value : bytes)
| VStatfs (node_id : N)
| VSymlink (parent_id : N) (name content : bytes)
| VUnlink (parent_id : N) (name : bytes)
| VWrite (node_id offset handle : N) (value : bytes) (flags : N)
         (lock_owner : option N) (open_flags : N).

(** The request types (fuse/operations.rs:19-59). *)
Inductive rtype :=
| RAccess | RBmap | RCopyFileRange | RCreate | RCuseInit | RFallocate | RFlush
| RForget | RFsync | RFsyncdir | RFuseInit | RGetattr | RGetlk | RGetxattr
| RInterrupt | RIoctl | RLink | RListxattr | RLookup | RLseek | RMkdir | RMknod
| ROpen | ROpendir | RPoll | RRead | RReaddir | RReaddirplus | RReadlink
| RRelease | RReleasedir | RRemovexattr | RRename | RRmdir | RSetattr | RSetlk
| RSetxattr | RStatfs | RSymlink | RUnlink | RWrite.

(** Which conversions exist: [try_from_cuse_request!] and
    [try_from_fuse_request!] invocations in fuse/operations/*.rs. *)
Definition available (is_cuse : bool) (t : rtype) : bool :=
  match t with
  | RCuseInit => is_cuse
  | RFlush | RFsync | RInterrupt | RIoctl | ROpen | RPoll | RRead | RRelease
  | RWrite => true
  | _ => negb is_cuse
  end.

(** Converting a request with [TryFrom] (fuse/server.rs:430-505, the [impl]s in
    fuse/operations/*.rs cited above) and then calling every accessor of the
    result. *)
Definition decode_view (is_cuse : bool) (cf : config) (t : rtype) (rq : Request) : out view :=
  match t with
  | RAccess =>
    r <- AccessRequest_try_from rq ;; Ret (VAccess (access_node_id r) (access_mask r))
  | RBmap =>
    r <- BmapRequest_try_from rq ;;
    a <- Bmap_node_id r ;; b <- Bmap_block r ;; c <- Bmap_block_size r ;;
    Ret (VBmap a b c)
  | RCopyFileRange =>
    r <- CopyFileRangeRequest_try_from rq ;;
    a <- Cfr_input_node_id r ;; b <- Cfr_input_handle r ;; c <- Cfr_input_offset r ;;
    d <- Cfr_output_node_id r ;; e <- Cfr_output_handle r ;; f <- Cfr_output_offset r ;;
    g <- Cfr_len r ;; h <- Cfr_flags r ;;
    Ret (VCopyFileRange a b c d e f g h)
  | RCreate =>
    r <- CreateRequest_try_from cf rq ;;
    a <- Create_node_id r ;; b <- Create_flags r ;; c <- Create_open_flags r ;;
    d <- Create_mode r ;; e <- Create_umask r ;;
    Ret (VCreate a (create_name r) b c d e)
  | RCuseInit =>
    r <- CuseInitRequest_try_from rq ;; Ret (VCuseInit (ci_version r) (ci_flags r))
  | RFallocate =>
    r <- FallocateRequest_try_from rq ;;
    a <- Fallocate_node_id r ;; b <- Fallocate_handle r ;; c <- Fallocate_offset r ;;
    d <- Fallocate_length r ;; e <- Fallocate_flags r ;;
    Ret (VFallocate a b c d e)
  | RFlush =>
    r <- FlushRequest_try_from is_cuse rq ;;
    Ret (VFlush (flush_node_id r) (flush_handle r) (flush_lock_owner r))
  | RForget => r <- ForgetRequest_try_from cf rq ;; Ret (VForget (Forget_items r))
  | RFsync =>
    r <- FsyncRequest_try_from is_cuse rq ;;
    a <- Fsync_node_id r ;; b <- Fsync_handle r ;; c <- Fsync_flags r ;;
    Ret (VFsync a b c)
  | RFsyncdir =>
    r <- FsyncdirRequest_try_from rq ;;
    a <- Fsyncdir_node_id r ;; b <- Fsyncdir_handle r ;; c <- Fsyncdir_flags r ;;
    Ret (VFsyncdir a b c)
  | RFuseInit =>
    r <- FuseInitRequest_try_from rq ;;
    Ret (VFuseInit (fi_version r) (fi_max_readahead r) (fi_flags r))
  | RGetattr =>
    r <- GetattrRequest_try_from cf rq ;;
    a <- Getattr_node_id r ;; b <- Getattr_handle r ;; Ret (VGetattr a b)
  | RGetlk =>
    r <- GetlkRequest_try_from rq ;;
    a <- Getlk_node_id r ;; b <- Getlk_handle r ;; c <- Getlk_owner r ;;
    d <- Getlk_lock_mode r ;; Ret (VGetlk a b c d (getlk_lock_range r))
  | RGetxattr =>
    r <- GetxattrRequest_try_from rq ;;
    a <- Getxattr_node_id r ;; b <- Getxattr_size r ;;
    Ret (VGetxattr a b (getxattr_name r))
  | RInterrupt =>
    r <- InterruptRequest_try_from rq ;; a <- Interrupt_request_id r ;; Ret (VInterrupt a)
  | RIoctl =>
    r <- IoctlRequest_try_from is_cuse rq ;;
    a <- Ioctl_node_id r ;; b <- Ioctl_handle r ;; c <- Ioctl_command r ;;
    d <- Ioctl_arg r ;; e <- Ioctl_input_len r ;; f <- Ioctl_output_len r ;;
    g <- Ioctl_flags r ;;
    Ret (VIoctl a b c d (ioctl_input r) e f g)
  | RLink =>
    r <- LinkRequest_try_from rq ;;
    Ret (VLink (link_node_id r) (link_new_parent_id r) (link_new_name r))
  | RListxattr =>
    r <- ListxattrRequest_try_from rq ;;
    a <- Listxattr_node_id r ;; b <- Listxattr_size r ;; Ret (VListxattr a b)
  | RLookup =>
    r <- LookupRequest_try_from rq ;; Ret (VLookup (pn_parent_id r) (pn_name r))
  | RLseek =>
    r <- LseekRequest_try_from rq ;;
    a <- Lseek_handle r ;; b <- Lseek_offset r ;; c <- Lseek_whence r ;;
    Ret (VLseek (lseek_node_id r) a b c)
  | RMkdir =>
    r <- MkdirRequest_try_from rq ;;
    a <- Mkdir_mode r ;; b <- Mkdir_umask r ;;
    Ret (VMkdir (mkdir_parent_id r) (mkdir_name r) a b)
  | RMknod =>
    r <- MknodRequest_try_from cf rq ;;
    a <- Mknod_parent_id r ;; b <- Mknod_mode r ;; c <- Mknod_umask r ;;
    d <- Mknod_device_number r ;; Ret (VMknod a (mknod_name r) b c d)
  | ROpen =>
    r <- OpenRequest_try_from is_cuse rq ;;
    a <- Open_node_id r ;; b <- Open_flags r ;; c <- Open_open_flags r ;;
    Ret (VOpen a b c)
  | ROpendir =>
    r <- OpendirRequest_try_from rq ;;
    a <- Opendir_node_id r ;; b <- Opendir_flags r ;; c <- Opendir_open_flags r ;;
    Ret (VOpendir a b c)
  | RPoll =>
    r <- PollRequest_try_from rq ;;
    a <- Poll_node_id r ;; b <- Poll_events r ;; c <- Poll_handle r ;;
    d <- Poll_flags r ;; Ret (VPoll a b c d)
  | RRead =>
    r <- ReadRequest_try_from is_cuse cf rq ;;
    a <- Read_node_id r ;; b <- Read_size r ;; c <- Read_offset r ;;
    d <- Read_handle r ;; e <- Read_lock_owner r ;; f <- Read_open_flags r ;;
    Ret (VRead a b c d e f)
  | RReaddir =>
    r <- ReaddirRequest_try_from cf rq ;;
    a <- Readdir_node_id r ;; b <- Readdir_size r ;; c <- Readdir_offset r ;;
    d <- Readdir_handle r ;; e <- Readdir_open_flags r ;; Ret (VReaddir a b c d e)
  | RReaddirplus =>
    r <- ReaddirplusRequest_try_from cf rq ;;
    a <- Readdir_node_id r ;; b <- Readdir_size r ;; c <- Readdir_offset r ;;
    d <- Readdir_handle r ;; e <- Readdir_open_flags r ;; Ret (VReaddirplus a b c d e)
  | RReadlink => r <- ReadlinkRequest_try_from rq ;; Ret (VReadlink r)
  | RRelease =>
    r <- ReleaseRequest_try_from is_cuse cf rq ;;
    a <- Release_node_id r ;; b <- Release_handle r ;; c <- Release_lock_owner r ;;
    d <- Release_open_flags r ;; Ret (VRelease a b c d)
  | RReleasedir =>
    r <- ReleasedirRequest_try_from cf rq ;;
    a <- Releasedir_node_id r ;; b <- Releasedir_handle r ;;
    c <- Releasedir_lock_owner r ;; d <- Releasedir_open_flags r ;;
    Ret (VReleasedir a b c d)
  | RRemovexattr =>
    r <- RemovexattrRequest_try_from rq ;;
    a <- Removexattr_node_id r ;; Ret (VRemovexattr a (removexattr_name r))
  | RRename =>
    r <- RenameRequest_try_from rq ;;
    Ret (VRename (rename_old_directory_id r) (rename_old_name r)
                 (rename_new_directory_id r) (rename_new_name r) (rename_flags r))
  | RRmdir =>
    r <- RmdirRequest_try_from rq ;; Ret (VRmdir (pn_parent_id r) (pn_name r))
  | RSetattr =>
    r <- SetattrRequest_try_from rq ;;
    a <- Setattr_node_id r ;; b <- Setattr_handle r ;; c <- Setattr_size r ;;
    d <- Setattr_lock_owner r ;; e <- Setattr_atime r ;; f <- Setattr_atime_now r ;;
    g <- Setattr_mtime r ;; h <- Setattr_mtime_now r ;; i <- Setattr_ctime r ;;
    j <- Setattr_mode r ;; k <- Setattr_user_id r ;; l <- Setattr_group_id r ;;
    Ret (VSetattr a b c d e f g h i j k l)
  | RSetlk =>
    r <- SetlkRequest_try_from rq ;;
    a <- Setlk_node_id r ;; b <- Setlk_handle r ;; c <- Setlk_may_block r ;;
    d <- Setlk_owner r ;; e <- Setlk_flags r ;;
    Ret (VSetlk a b c d (setlk_lock r) e)
  | RSetxattr =>
    r <- SetxattrRequest_try_from cf rq ;;
    a <- Setxattr_node_id r ;; b <- Setxattr_flags r ;;
    c <- Setxattr_setxattr_flags r ;;
    Ret (VSetxattr a (setxattr_name r) b c (setxattr_value r))
  | RStatfs => r <- StatfsRequest_try_from rq ;; Ret (VStatfs r)
  | RSymlink =>
    r <- SymlinkRequest_try_from rq ;;
    Ret (VSymlink (symlink_parent_id r) (symlink_name r) (symlink_content r))
  | RUnlink =>
    r <- UnlinkRequest_try_from rq ;; Ret (VUnlink (pn_parent_id r) (pn_name r))
  | RWrite =>
    r <- WriteRequest_try_from is_cuse cf rq ;;
    a <- Write_node_id r ;; b <- Write_offset r ;; c <- Write_handle r ;;
    d <- Write_value r ;; e <- Write_flags r ;; f <- Write_lock_owner r ;;
    g <- Write_open_flags r ;; Ret (VWrite a b c d e f g)
  end.

End Ops.
