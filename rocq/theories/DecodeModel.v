(** Model of request admission (fuse/server.rs) and of the request decoder
    (fuse/server/decode.rs). *)

From Verif Require Import Base Kernel CoreModel.
From Coq Require Import List NArith Bool.
Import ListNotations.
Open Scope N_scope.

Section Decode.
Context {E : Endian}.

(** ** fuse/server.rs: [Request] *)

(** fuse/server.rs:340-344 [Request].  The code keeps only the pointer to the
    receive buffer; the model keeps the whole buffer, which is the memory the
    code may access through that pointer. *)
Record Request := { rq_mem : bytes }.

(** A read of [len] bytes at offset [off] from the request pointer
    (fuse/server.rs:384-385, 395). *)
Definition mem_read (mem : bytes) (off len : N) : out bytes :=
  if off + len <=? nlen mem then Ret (slice off len mem) else Ub.

(** fuse/server.rs:394-396 [raw_header] (and 389-391 [header]): the first 40
    bytes. *)
Definition raw_header (r : Request) : out bytes := mem_read (rq_mem r) 0 IN_HEADER_SIZE.

(** Fields of [fuse_in_header], fuse/kernel.rs:1392-1401: [len], line 1393 *)
Definition hdr_len (h : bytes) : out N := rd32 0 h.
(** [opcode], fuse/kernel.rs:1394 *)
Definition hdr_opcode (h : bytes) : out N := rd32 4 h.
(** [unique], fuse/kernel.rs:1395 *)
Definition hdr_unique (h : bytes) : out N := rd64 8 h.
(** [nodeid], fuse/kernel.rs:1396 *)
Definition hdr_nodeid (h : bytes) : out N := rd64 16 h.
(** [uid], fuse/kernel.rs:1397 *)
Definition hdr_uid (h : bytes) : out N := rd32 24 h.
(** [gid], fuse/kernel.rs:1398 *)
Definition hdr_gid (h : bytes) : out N := rd32 28 h.
(** [pid], fuse/kernel.rs:1399 *)
Definition hdr_pid (h : bytes) : out N := rd32 32 h.

(** fuse/server.rs:348-379 [Request::new].  [usize] is 64 bits wide, so lines
    363-371 compute [min(buf.len(), u32::MAX)]. *)
Definition Request_new (buf : bytes) : out Request :=
  if nlen buf <? IN_HEADER_SIZE then Fail EUnexpectedEof
  else
    header <- mem_read buf 0 IN_HEADER_SIZE ;;
    unique <- hdr_unique header ;;
    if unique =? 0 then Fail EInvalidRequestId
    else
      let buf_len := if u32_max <? nlen buf then u32_max else nlen buf in
      len <- hdr_len header ;;
      if buf_len <? len then Fail EUnexpectedEof
      else Ret {| rq_mem := buf |}.

(** fuse/server.rs:382-386 [as_bytes] *)
Definition as_bytes (r : Request) : out bytes :=
  h <- raw_header r ;;
  len <- hdr_len h ;;
  mem_read (rq_mem r) 0 len.

(** fuse/server.rs:399-401 [body]; slicing past the end panics. *)
Definition body (r : Request) : out bytes :=
  b <- as_bytes r ;;
  if nlen b <? IN_HEADER_SIZE then Panic else Ret (drop IN_HEADER_SIZE b).

(** ** fuse/fuse.rs: [RequestHeader] accessors *)

(** fuse/fuse.rs:197, 204: [NonZeroU64::new_unchecked] and
    [NonZeroU32::new_unchecked]; zero is undefined behaviour. *)
Definition nonzero_unchecked (n : N) : out N := if n =? 0 then Ub else Ret n.
(** fuse/fuse.rs:196-198 *)
Definition header_request_id (r : Request) : out N :=
  h <- raw_header r ;; n <- hdr_unique h ;; nonzero_unchecked n.
(** fuse/fuse.rs:203-205 *)
Definition header_request_len (r : Request) : out N :=
  h <- raw_header r ;; n <- hdr_len h ;; nonzero_unchecked n.
(** fuse/fuse.rs:210-212 *)
Definition header_opcode (r : Request) : out N := h <- raw_header r ;; hdr_opcode h.
(** fuse/fuse.rs:217-219 *)
Definition header_node_id (r : Request) : out (option N) :=
  h <- raw_header r ;; n <- hdr_nodeid h ;; Ret (NodeId_new n).
(** fuse/fuse.rs:224-226 *)
Definition header_user_id (r : Request) : out N := h <- raw_header r ;; hdr_uid h.
(** fuse/fuse.rs:231-233 *)
Definition header_group_id (r : Request) : out N := h <- raw_header r ;; hdr_gid h.
(** fuse/fuse.rs:249-251 *)
Definition header_process_id (r : Request) : out (option N) :=
  h <- raw_header r ;; n <- hdr_pid h ;; Ret (if n =? 0 then None else Some n).

(** ** fuse/server/decode.rs: [RequestDecoder] *)

(** fuse/server/decode.rs:56-60.  [d_mem] is the memory behind the pointer;
    the slice [buf] of the code is its first [d_header_len] bytes. *)
Record decoder := { d_mem : bytes; d_header_len : N; d_consumed : N }.

(** Assigning [self.consumed], fuse/server/decode.rs:124, 138, 162, 184 *)
Definition with_consumed (d : decoder) (c : N) : decoder :=
  {| d_mem := d_mem d; d_header_len := d_header_len d; d_consumed := c |}.

(** fuse/server/decode.rs:63-77 [new_unchecked] on [Request::as_bytes]
    (fuse/server.rs:404-407 [decoder]) *)
Definition decoder_new (r : Request) : out decoder :=
  _ <- as_bytes r ;;
  h <- raw_header r ;;
  len <- hdr_len h ;;
  Ret {| d_mem := rq_mem r; d_header_len := len; d_consumed := IN_HEADER_SIZE |}.

(** fuse/server/decode.rs:89-91 [header] *)
Definition d_header (d : decoder) : out bytes := mem_read (d_mem d) 0 IN_HEADER_SIZE.

(** A read through the message slice (fuse/server/decode.rs:109-110, 121-122,
    135-136, 147, 159, 171, 181): it must stay inside the first
    [d_header_len] bytes and inside the memory. *)
Definition d_read (d : decoder) (off len : N) : out bytes :=
  if off + len <=? d_header_len d then mem_read (d_mem d) off len else Ub.

(** A read through a reference to a struct made from a pointer into the
    message (fuse/server/decode.rs:109-112, 121-123,
    fuse/operations/forget.rs:73-78): the
    address must be a multiple of the struct's alignment.  The buffer starts at
    a multiple of 8 (fuse/io.rs:28-79 [AlignedSlice]), so for alignments up
    to 8 the offset must be a multiple of the alignment. *)
Definition d_cast (align : N) (d : decoder) (off len : N) : out bytes :=
  if off mod align =? 0 then d_read d off len else Ub.

(** fuse/server/decode.rs:79-87 [expect_opcode] *)
Definition expect_opcode (d : decoder) (opcode : N) : out unit :=
  h <- d_header d ;;
  op <- hdr_opcode h ;;
  if negb (op =? opcode) then Fail EOpcodeMismatch else Ret tt.

(** fuse/server/decode.rs:94-104 [consume]; [checked_add] on [usize]. *)
Definition consume (d : decoder) (len : N) : out N :=
  let new_consumed := d_consumed d + len in
  if u64_max <? new_consumed then Fail EUnexpectedEof
  else if d_header_len d <? new_consumed then Fail EUnexpectedEof
  else Ret new_consumed.

(** fuse/server/decode.rs:106-113 [peek_sized], asking alignment 8 of every
    struct, also of those that need only 4 *)
Definition peek_sized (size : N) (d : decoder) : out bytes :=
  _ <- consume d size ;;
  d_cast 8 d (d_consumed d) size.

(** fuse/server/decode.rs:116-126 [next_sized]; [align] and [size] are
    [align_of::<T>()] and [size_of::<T>()]. *)
Definition next_typed (align size : N) (d : decoder) : out (bytes * decoder) :=
  next_consumed <- consume d size ;;
  b <- d_cast align d (d_consumed d) size ;;
  Ret (b, with_consumed d next_consumed).

(** fuse/server/decode.rs:116-126 [next_sized] for the structs of
    fuse/kernel.rs, asking alignment 8 of every one, also of those that need
    only 4 *)
Definition next_sized (size : N) (d : decoder) : out (bytes * decoder) := next_typed 8 size d.

(** fuse/server/decode.rs:128-140 [next_bytes] *)
Definition next_bytes (len : N) (d : decoder) : out (bytes * decoder) :=
  new_consumed <- consume d len ;;
  b <- d_read d (d_consumed d) len ;;
  Ret (b, with_consumed d new_consumed).

(** fuse/server/decode.rs:146-165, the loop of [next_node_name] from offset
    [off]; [fuel] is the number of offsets left in [off..header_len]. *)
Fixpoint node_name_loop (fuel : nat) (d : decoder) (off : N) : out (bytes * decoder) :=
  match fuel with
  | O => Fail EUnexpectedEof
  | S fuel' =>
    c <- d_read d off 1 ;;
    let c := hd x00 c in
    if Byte.eqb c x2f then Fail (ENodeName NameContainsSlash)
    else if negb (Byte.eqb c x00) then node_name_loop fuel' d (off + 1)
    else if d_consumed d =? off then Fail (ENodeName NameEmpty)
    else
      name <- d_read d (d_consumed d) (off - d_consumed d) ;;
      Ret (name, with_consumed d (off + 1))
  end.

(** fuse/server/decode.rs:142-166 [next_node_name] *)
Definition next_node_name (d : decoder) : out (bytes * decoder) :=
  node_name_loop (N.to_nat (d_header_len d - d_consumed d)) d (d_consumed d).

(** fuse/server/decode.rs:170-187, the loop of [next_cstr].  A [CStr] is
    modelled by its bytes without the terminating NUL.  Note line 175-177: the
    empty string is returned without moving the cursor. *)
Fixpoint cstr_loop (fuel : nat) (d : decoder) (off : N) : out (bytes * decoder) :=
  match fuel with
  | O => Fail EUnexpectedEof
  | S fuel' =>
    c <- d_read d off 1 ;;
    let c := hd x00 c in
    if negb (Byte.eqb c x00) then cstr_loop fuel' d (off + 1)
    else if d_consumed d =? off then Ret ([], d)
    else
      let new_consumed := off + 1 in
      cstr <- d_read d (d_consumed d) (new_consumed - d_consumed d) ;;
      Ret (take (nlen cstr - 1) cstr, with_consumed d new_consumed)
  end.

(** fuse/server/decode.rs:168-188 [next_cstr] *)
Definition next_cstr (d : decoder) : out (bytes * decoder) :=
  cstr_loop (N.to_nat (d_header_len d - d_consumed d)) d (d_consumed d).

(** fuse/server/decode.rs:191-196 [node_id] *)
Definition decode_node_id (raw : N) : out N :=
  match NodeId_new raw with Some x => Ret x | None => Fail EMissingNodeId end.

(** fuse/server/decode.rs:198-203 [check_timespec_nanos] *)
Definition check_timespec_nanos (nanos : N) : out unit :=
  if MAX_NANOS <? nanos then Fail ETimestampOverflow else Ret tt.

End Decode.
