(** Model of the small value types of the [fuse] crate: outcomes and errors,
    node ids and names, file modes, timestamps, durations, lock ranges. *)

From Verif Require Import Base Kernel.
From Coq Require Import List NArith ZArith Bool.
Import ListNotations.
Open Scope N_scope.

(** ** Errors and outcomes *)

(** fuse/node_name.rs:24-31 [NodeNameError] *)
Inductive NodeNameError := NameEmpty | NameContainsNul | NameContainsSlash.

(** fuse/lock.rs:180-183 [LockError] *)
Inductive LockError := EmptyRange.

(** fuse/server.rs:289-327 [RequestError] *)
Inductive RequestError :=
| ELock (e : LockError)
| EMissingNodeId
| EMissingRequestId
| ENodeName (e : NodeNameError)
| ETimestampOverflow
| EInvalidRequestId
| EUnexpectedEof
| EOpcodeMismatch.

(** The outcome of running a piece of the code (the [Result]s with
    [RequestError], fuse/server.rs:289): a value, a returned [RequestError], a panic, or undefined behaviour ([Ub]: a read outside the
    memory the code may access, or a zero stored in a NonZero integer). *)
Inductive out (A : Type) :=
| Ret (a : A)
| Fail (e : RequestError)
| Panic
| Ub.
Arguments Ret {A}. Arguments Fail {A}. Arguments Panic {A}. Arguments Ub {A}.

(** Sequencing of Rust statements; [Fail] is the early return of the [?]
    operator, for example fuse/operations/access.rs:47-49. *)
Definition bind {A B} (m : out A) (k : A -> out B) : out B :=
  match m with
  | Ret a => k a
  | Fail e => Fail e
  | Panic => Panic
  | Ub => Ub
  end.
(** The same, as notation (access.rs:47-49) *)
Notation "x <- m ;; k" := (bind m (fun x => k))
  (at level 61, m at next level, right associativity).
(** with a pattern for the result (access.rs:47-49) *)
Notation "' p <- m ;; k" := (bind m (fun p => k))
  (at level 61, p pattern, m at next level, right associativity).
Notation "m ;; k" := (bind m (fun _ => k)) (at level 61, right associativity).

(** ** Checked reads of a C struct

    A reference [&T] obtained from a message is modelled by the bytes it
    points to; reading a field that does not lie inside those bytes is
    [Ub]. *)
Section Reads.
Context {E : Endian}.
(** Reading a field of width [w] at offset [off], for example
    fuse/operations/access.rs:52 ([raw.mask]) *)
Definition rd (w : nat) (off : N) (raw : bytes) : out N :=
  if off + N.of_nat w <=? nlen raw then Ret (fld w off raw) else Ub.
(** a u32 field (access.rs:52) *)
Definition rd32 := rd 4.
(** a u64 field (fuse/operations/bmap.rs:39) *)
Definition rd64 := rd 8.
End Reads.

(** ** fuse/node_id.rs *)

(** fuse/node_id.rs:37-42 [NodeId::new]; a [NodeId] is a nonzero [N]. *)
Definition NodeId_new (id : N) : option N := if id =? 0 then None else Some id.

(** fuse/node_id.rs:54-56 [NodeId::new_unchecked]: zero is undefined
    behaviour. *)
Definition NodeId_new_unchecked (id : N) : out N := if id =? 0 then Ub else Ret id.

(** fuse/node_id.rs:68-70 [NodeId::is_root] *)
Definition NodeId_is_root (id : N) : bool := id =? FUSE_ROOT_ID.

(** ** fuse/node_name.rs *)

(** fuse/node_name.rs:82-89, the loop of [NodeName::from_bytes] *)
Fixpoint name_loop (bs : bytes) : option NodeNameError :=
  match bs with
  | [] => None
  | b :: r =>
    if Byte.eqb b x00 then Some NameContainsNul
    else if Byte.eqb b x2f then Some NameContainsSlash
    else name_loop r
  end.

(** fuse/node_name.rs:78-91 [NodeName::from_bytes] *)
Definition NodeName_from_bytes (bs : bytes) : bytes + NodeNameError :=
  match bs with
  | [] => inr NameEmpty
  | _ => match name_loop bs with Some e => inr e | None => inl bs end
  end.

(** ** fuse/cuse.rs *)

(** fuse/cuse.rs:26-31 [DeviceNameError] *)
Inductive DeviceNameError := DevEmpty | DevContainsNul.

(** fuse/cuse.rs:78-86 [DeviceName::from_bytes]; [contains(&0)] is
    [existsb]. *)
Definition DeviceName_from_bytes (bs : bytes) : bytes + DeviceNameError :=
  match bs with
  | [] => inr DevEmpty
  | _ => if existsb (Byte.eqb x00) bs then inr DevContainsNul else inl bs
  end.

(** ** fuse/file_mode.rs *)

(** fuse/file_mode.rs:134-165 [FileType] *)
Inductive FileType :=
  BlockDevice | CharacterDevice | Directory | NamedPipe | Regular | SocketFile | Symlink.

(** fuse/file_mode.rs:79-81 [FileMode::permissions], mask 0o777 *)
Definition FileMode_permissions (bits : N) : N := N.land bits 511.

(** fuse/file_mode.rs:20, 85-87 [FileMode::type_bits], mask 0xF000 *)
Definition FileMode_type_bits (bits : N) : N := N.land bits 61440.

(** fuse/file_mode.rs:168-174, 195-205 [FileType::as_bits] *)
Definition FileType_as_bits (t : FileType) : N :=
  match t with
  | NamedPipe => 1
  | CharacterDevice => 2
  | Directory => 4
  | BlockDevice => 6
  | Regular => 8
  | Symlink => 10
  | SocketFile => 12
  end.

(** fuse/file_mode.rs:209-220 [FileType::from_bits] *)
Definition FileType_from_bits (bits : N) : option FileType :=
  if bits =? 1 then Some NamedPipe
  else if bits =? 2 then Some CharacterDevice
  else if bits =? 4 then Some Directory
  else if bits =? 6 then Some BlockDevice
  else if bits =? 8 then Some Regular
  else if bits =? 10 then Some Symlink
  else if bits =? 12 then Some SocketFile
  else None.

(** fuse/file_mode.rs:182-184 [FileType::from_mode] *)
Definition FileType_from_mode (mode : N) : option FileType :=
  FileType_from_bits (N.shiftr (FileMode_type_bits mode) 12).

(** fuse/file_mode.rs:189-191 [FileType::as_mode] *)
Definition FileType_as_mode (t : FileType) : N := N.shiftl (FileType_as_bits t) 12.

(** fuse/file_mode.rs:114-122 [FileMode | u32] *)
Definition FileMode_bitor (mode rhs : N) : N := N.lor mode rhs.

(** ** fuse/unix_time.rs *)

(** fuse/unix_time.rs:24-27 [UnixTime] *)
Record UnixTime := { ut_seconds : Z; ut_nanos : N }.

(** fuse/internal/timestamp.rs:21 *)
Definition MAX_NANOS : N := 999999999.

(** fuse/unix_time.rs:43-48 [UnixTime::new] *)
Definition UnixTime_new (seconds : Z) (nanos : N) : option UnixTime :=
  if MAX_NANOS <? nanos then None
  else Some {| ut_seconds := seconds; ut_nanos := nanos |}.

(** fuse/unix_time.rs:55-57 [UnixTime::from_seconds] *)
Definition UnixTime_from_seconds (seconds : Z) : UnixTime :=
  {| ut_seconds := seconds; ut_nanos := 0 |}.

(** fuse/unix_time.rs:73-81 [UnixTime::from_timespec_unchecked];
    [seconds as i64] *)
Definition UnixTime_from_timespec (seconds nanos : N) : UnixTime :=
  {| ut_seconds := as_i64 seconds; ut_nanos := nanos |}.

(** fuse/unix_time.rs:85-87 [UnixTime::as_timespec]; [seconds as u64] *)
Definition UnixTime_as_timespec (t : UnixTime) : N * N :=
  (i64_as_u64 (ut_seconds t), ut_nanos t).

(** fuse/unix_time.rs:29-36 [UnixTime::EPOCH] *)
Definition UnixTime_EPOCH : UnixTime := {| ut_seconds := 0; ut_nanos := 0 |}.

(** fuse/unix_time.rs:23 [derive(Ord)]: the fields in declaration order. *)
Definition UnixTime_cmp (a b : UnixTime) : comparison :=
  match (ut_seconds a ?= ut_seconds b)%Z with
  | Eq => ut_nanos a ?= ut_nanos b
  | c => c
  end.

(** ** fuse/internal/timestamp.rs

    A [core::time::Duration] is (seconds, nanoseconds) with nanoseconds below
    10^9. *)

(** fuse/internal/timestamp.rs:23-29 [new_duration].  [Duration::new] with
    nanoseconds below 10^9 keeps both components. *)
Definition new_duration (raw_seconds nanos : N) : N * N :=
  (N.min raw_seconds i64_max, N.min nanos MAX_NANOS).

(** fuse/internal/timestamp.rs:31-37 [split_duration] *)
Definition split_duration (d : N * N) : N * N :=
  if fst d <=? i64_max then (fst d, snd d) else (i64_max, 0).

(** ** fuse/lock.rs *)

(** fuse/lock.rs:25 *)
Definition OFFSET_MAX : N := i64_max.

(** fuse/lock.rs:40-43 [LockRange]; [lr_length] is a nonzero length or [None]
    for "to the end of the file". *)
Record LockRange := { lr_start : N; lr_length : option N }.

(** fuse/lock.rs:70-75 [LockRange::end] *)
Definition LockRange_end (r : LockRange) : option N :=
  match lr_length r with
  | None => None
  | Some l => Some (sat_add64 (lr_start r) (l - 1))
  end.

(** fuse/lock.rs:77-116 [LockRange::decode] of the [fuse_file_lock] fields
    [start], [end].  Line 112-114: a zero length stored in a NonZeroU64
    unchecked is [Ub]. *)
Definition LockRange_decode (start end_ : N) : out LockRange :=
  if end_ <? start then
    let start' := sat_add64 end_ 1 in
    let length := start - start' in
    if length =? 0 then Fail (ELock EmptyRange)
    else Ret {| lr_start := start'; lr_length := Some length |}
  else if OFFSET_MAX <=? end_ then
    Ret {| lr_start := start; lr_length := None |}
  else
    let length := sat_add64 (end_ - start) 1 in
    if length =? 0 then Ub
    else Ret {| lr_start := start; lr_length := Some length |}.

(** fuse/lock.rs:155-159 [ProcessId::new] *)
Definition ProcessId_new (pid : N) : option N := if pid =? 0 then None else Some pid.

(** fuse/lock.rs:229-233 [Lock] *)
Record Lock := { lk_mode : N; lk_range : LockRange; lk_pid : option N }.

(** fuse/lock.rs:268-275 [Lock::decode] *)
Definition Lock_decode (start end_ type pid : N) : out Lock :=
  range <- LockRange_decode start end_ ;;
  Ret {| lk_mode := type; lk_range := range; lk_pid := ProcessId_new pid |}.

(** ** fuse/fuse.rs: [Version] *)

(** fuse/fuse.rs:387-390 [Version]; 402-418 [new], [major], [minor] *)
Record Version := { v_major : N; v_minor : N }.
(** fuse/fuse.rs:393-396 [Version::LATEST] *)
Definition Version_LATEST : Version :=
  {| v_major := FUSE_KERNEL_VERSION; v_minor := FUSE_KERNEL_MINOR_VERSION |}.
