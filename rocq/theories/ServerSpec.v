(** What a client and the user's callbacks can observe of a session: the
    dialogue of a handshake, and the documented routing of opcodes.  Stated
    on message bytes and literal protocol numbers. *)

From Verif Require Import Base CoreModel DecodeModel OpsModel ReplyModel ReplySpec ServerModel.
From Coq Require Import List NArith ZArith Bool.
Import ListNotations.
Open Scope N_scope.

Section Spec.
Context {E : Endian}.

(** ** INIT messages *)

(** The checks every message goes through: header present, request id not
    zero, announced length received, opcode as expected. *)
Definition check_message (opcode : N) (m : bytes) : option RequestError :=
  if nlen m <? 40 then Some EUnexpectedEof
  else if u64_at 8 m =? 0 then Some EInvalidRequestId
  else if nlen m <? u32_at 0 m then Some EUnexpectedEof
  else if negb (u32_at 4 m =? opcode) then Some EOpcodeMismatch
  else None.

(** The length an INIT message needs: 8 bytes of version; after 7.6 16 bytes,
    from 7.36 on 64 bytes. *)
Definition init_need (major minor : N) : N :=
  if negb (major =? 7) || (minor <? 6) then 48 else if minor <? 36 then 56 else 104.

(** What an INIT message says: an error, or the request id and request. *)
Definition read_init (m : bytes) : RequestError + (N * FuseInitRequest) :=
  match check_message 26 m with
  | Some e => inl e
  | None =>
    let len := u32_at 0 m in
    let major := u32_at 40 m in
    let minor := u32_at 44 m in
    if len <? 48 then inl EUnexpectedEof
    else if len <? init_need major minor then inl EUnexpectedEof
    else inr (u64_at 8 m,
      {| fi_version := {| v_major := major; v_minor := minor |};
         fi_max_readahead := if 48 <? init_need major minor then u32_at 48 m else 0;
         fi_flags := (if 48 <? init_need major minor then u32_at 52 m else 0) +
                     4294967296 * (if 56 <? init_need major minor then u32_at 56 m else 0) |})
  end.

(** The same for CUSE_INIT, always 16 bytes. *)
Definition read_cuse_init (m : bytes) : RequestError + (N * CuseInitRequest) :=
  match check_message 4096 m with
  | Some e => inl e
  | None =>
    if u32_at 0 m <? 56 then inl EUnexpectedEof
    else inr (u64_at 8 m,
      {| ci_version := {| v_major := u32_at 40 m; v_minor := u32_at 44 m |};
         ci_flags := u32_at 52 m |})
  end.

(** ** The dialogue of a handshake *)

Inductive observation (I : Type) :=
| Callback (request : I)
| Sends (unique : N) (error : Z) (payload : bytes).

(** The effects of [connect] as seen from outside: every [send] is a message
    the client can read. *)
Inductive seen {I} : list (effect I) -> list (observation I) -> Prop :=
| seen_nil : seen [] []
| seen_callback i es os : seen es os -> seen (InitCalled i :: es) (Callback I i :: os)
| seen_send b m id error p es os :
  on_wire b = Ret m -> SendBuf_len b = nlen m -> kernel_read m = Some (Reply id error p) ->
  seen es os -> seen (Sent b :: es) (Sends I id error p :: os).

Section Dialogue.
Context {I S OP C : Type}.
(** how a message is read, the client's version in it *)
Context (read : bytes -> RequestError + (N * I)) (version : I -> Version).
(** the setters the init callback calls *)
Context (callback : S -> I -> S * list OP).
(** payload of a reply made by these setter calls *)
Context (reads : bytes -> list OP -> Prop) (set_version : Version -> OP).
Context (rejection : bytes -> Prop).
(** the resulting connection *)
Context (connected : list OP -> C -> Prop).

(** The rules of the handshake.  The first message that ends it decides the
    result; whatever the socket would have done later is irrelevant. *)
Inductive dialogue : S -> list exchange -> list (observation I) -> result C -> Prop :=
| D_waiting s : dialogue s [] [] Waiting
| D_recv_error s x xs e :
  x_recv x = RecvFails e -> dialogue s (x :: xs) [] (Failed (SrvRecv e))
| D_bad_message s x xs msg e :
  x_recv x = Message msg -> read (take 8192 msg) = inl e ->
  dialogue s (x :: xs) [] (Failed (SrvRequest e))
| D_foreign s x xs msg id i p os r :
  x_recv x = Message msg -> read (take 8192 msg) = inr (id, i) -> v_major (version i) <> 7 ->
  rejection p -> x_send x = SendOk -> dialogue s xs os r ->
  dialogue s (x :: xs) (Sends I id 0 p :: os) r
| D_foreign_send_error s x xs msg id i p e :
  x_recv x = Message msg -> read (take 8192 msg) = inr (id, i) -> v_major (version i) <> 7 ->
  rejection p -> x_send x = SendFails e ->
  dialogue s (x :: xs) [Sends I id 0 p] (Failed (SrvSend e))
| D_accept s x xs msg id i s' ops p c :
  x_recv x = Message msg -> read (take 8192 msg) = inr (id, i) -> v_major (version i) = 7 ->
  callback s i = (s', ops) ->
  (let ops := ops ++ [set_version {| v_major := 7; v_minor := N.min (v_minor (version i)) 36 |}] in
   reads p ops /\ connected ops c) ->
  x_send x = SendOk ->
  dialogue s (x :: xs) [Callback I i; Sends I id 0 p] (Finished c)
| D_accept_send_error s x xs msg id i s' ops p e :
  x_recv x = Message msg -> read (take 8192 msg) = inr (id, i) -> v_major (version i) = 7 ->
  callback s i = (s', ops) ->
  reads p (ops ++ [set_version {| v_major := 7; v_minor := N.min (v_minor (version i)) 36 |}]) ->
  x_send x = SendFails e ->
  dialogue s (x :: xs) [Callback I i; Sends I id 0 p] (Failed (SrvSend e)).
End Dialogue.

(** The reply to a foreign FUSE version: 7.36 and nothing else. *)
Definition fuse_rejection (p : bytes) : Prop :=
  init_reads p [SetVersion {| v_major := 7; v_minor := 36 |}].
Definition cuse_rejection (p : bytes) : Prop :=
  cuse_init_reads p None [CSetVersion {| v_major := 7; v_minor := 36 |}].

(** A connection made after an INIT reply with these settings: its layout
    and its receive buffer. *)
Definition fuse_connected (usize_max : N) (ops : list init_op) (c : FuseConnection) : Prop :=
  let v := last_set (fun o => match o with SetVersion v => Some v | _ => None end) ops
             {| v_major := 0; v_minor := 0 |} in
  let flags := last_set (fun o => match o with SetFlags f => Some f | _ => None end) ops 0 in
  let max_write := last_set (fun o => match o with SetMaxWrite n => Some n | _ => None end) ops 0 in
  fl_version_minor (fc_layout c) = v_minor v /\
  have_setxattr_ext (fc_layout c) = N.testbit flags 29 /\
  fc_recv_buf_len c = N.max 8192 (N.min usize_max (4096 + max_write)).
Definition cuse_connected (usize_max : N) (ops : list cuse_init_op) (c : CuseConnection) : Prop :=
  let v := last_set (fun o => match o with CSetVersion v => Some v | _ => None end) ops
             {| v_major := 0; v_minor := 0 |} in
  let max_write := last_set (fun o => match o with CSetMaxWrite n => Some n | _ => None end) ops 0 in
  cl_version_minor (cc_layout c) = v_minor v /\
  cc_recv_buf_len c = N.max 8192 (N.min usize_max (4096 + max_write)).

(** An init callback calls setters; it sees the request and its own state. *)
Definition fuse_callback {S} (callback : S -> FuseInitRequest -> S * list init_op)
  : S -> FuseInitRequest -> fuse_init_out -> S * fuse_init_out :=
  fun s request reply =>
    let '(s, ops) := callback s request in
    (s, fold_left (fun r o => init_call o r) ops reply).
Definition cuse_callback {S} (callback : S -> CuseInitRequest -> S * list cuse_init_op)
  : S -> CuseInitRequest -> CuseInitResponse -> S * CuseInitResponse :=
  fun s request reply =>
    let '(s, ops) := callback s request in
    (s, fold_left (fun r o => CuseInitResponse_update (cuse_init_call o) r) ops reply).

End Spec.

(** ** Server options *)

Inductive server_opt :=
| OptCongestionThreshold (n : N) | OptMaxBackground (n : N) | OptMaxReadahead (n : N)
| OptMaxWrite (n : N) | OptTimeGranularity (n : N) | OptUpdateFlags (f : N -> N).
Definition server_opt_call (o : server_opt) : FuseServer -> FuseServer :=
  match o with
  | OptCongestionThreshold n => FuseServer_congestion_threshold n
  | OptMaxBackground n => FuseServer_max_background n
  | OptMaxReadahead n => FuseServer_max_readahead n
  | OptMaxWrite n => FuseServer_max_write n
  | OptTimeGranularity n => FuseServer_time_granularity n
  | OptUpdateFlags f => FuseServer_update_flags f
  end.
Definition server_opt_ok (o : server_opt) : Prop :=
  match o with
  | OptCongestionThreshold n | OptMaxBackground n => n < U16
  | OptMaxReadahead n | OptMaxWrite n | OptTimeGranularity n => n < U32
  | OptUpdateFlags f => forall x, x < U64 -> f x < U64
  end.
(** The server built by these calls. *)
Definition build_server (opts : list server_opt) : FuseServer :=
  fold_left (fun s o => server_opt_call o s) opts FuseServer_new.
(** The flags these calls configure; a maximum write size above one page
    implies FUSE_BIG_WRITES (bit 5). *)
Fixpoint configured_flags (opts : list server_opt) (flags : N) : N :=
  match opts with
  | [] => flags
  | OptUpdateFlags f :: r => configured_flags r (f flags)
  | OptMaxWrite n :: r => configured_flags r (if 4096 <? n then N.setbit flags 5 else flags)
  | _ :: r => configured_flags r flags
  end.

Inductive cuse_opt :=
| COptMaxRead (n : N) | COptMaxWrite (n : N) | COptUpdateFlags (f : N -> N)
| COptUnrestrictedIoctl.
Definition cuse_opt_call (o : cuse_opt) : CuseServer -> CuseServer :=
  match o with
  | COptMaxRead n => CuseServer_max_read n
  | COptMaxWrite n => CuseServer_max_write n
  | COptUpdateFlags f => CuseServer_update_flags f
  | COptUnrestrictedIoctl => CuseServer_enable_unrestricted_ioctl
  end.
Definition cuse_opt_ok (o : cuse_opt) : Prop :=
  match o with
  | COptMaxRead n | COptMaxWrite n => n < U32
  | COptUpdateFlags f => forall x, x < U32 -> f x < U32
  | COptUnrestrictedIoctl => True
  end.
Definition build_cuse_server (name : bytes) (major minor : N) (opts : list cuse_opt) : CuseServer :=
  fold_left (fun s o => cuse_opt_call o s) opts (CuseServer_new name major minor).
Fixpoint cuse_configured_flags (opts : list cuse_opt) (flags : N) : N :=
  match opts with
  | [] => flags
  | COptUpdateFlags f :: r => cuse_configured_flags r (f flags)
  | COptUnrestrictedIoctl :: r => cuse_configured_flags r (N.setbit flags 0)
  | _ :: r => cuse_configured_flags r flags
  end.

(** ** Routing *)

(** The opcodes of the FUSE protocol (linux/fuse.h, [enum fuse_opcode]) and
    the handler documented for each. *)
Definition fuse_route (opcode : N) : fuse_method :=
  match opcode with
  | 1 => M_lookup | 2 => M_forget | 3 => M_getattr | 4 => M_setattr | 5 => M_readlink
  | 6 => M_symlink | 8 => M_mknod | 9 => M_mkdir | 10 => M_unlink | 11 => M_rmdir
  | 12 => M_rename | 13 => M_link | 14 => M_open | 15 => M_read | 16 => M_write
  | 17 => M_statfs | 18 => M_release | 20 => M_fsync | 21 => M_setxattr | 22 => M_getxattr
  | 23 => M_listxattr | 24 => M_removexattr | 25 => M_flush | 27 => M_opendir
  | 28 => M_readdir | 29 => M_releasedir | 30 => M_fsyncdir | 31 => M_getlk | 32 => M_setlk
  | 33 => M_setlkw | 34 => M_access | 35 => M_create | 36 => M_interrupt | 37 => M_bmap
  | 38 => M_destroy | 39 => M_ioctl | 40 => M_poll | 42 => M_batch_forget
  | 43 => M_fallocate | 44 => M_readdirplus | 45 => M_rename2 | 46 => M_lseek
  | 47 => M_copy_file_range | 50 => M_syncfs
  | _ => M_unimplemented
  end.
Definition cuse_route (opcode : N) : cuse_method :=
  match opcode with
  | 14 => CM_open | 15 => CM_read | 16 => CM_write | 18 => CM_release | 20 => CM_fsync
  | 25 => CM_flush | 36 => CM_interrupt | 39 => CM_ioctl | 40 => CM_poll
  | _ => CM_unimplemented
  end.

(** The requests nobody expects a reply to: FORGET, INTERRUPT and
    BATCH_FORGET. *)
Definition one_way (opcode : N) : bool := (opcode =? 2) || (opcode =? 36) || (opcode =? 42).

Section Handlers.
Context {E : Endian}.

(** A server whose handlers only implement [unimplemented], which answers
    with an error: the [send] calls for one request of a FUSE and a CUSE
    session. *)
Definition unimplemented_server (minor : N) (error : Z) (rq : Request) : out (list send_call) :=
  m <- FuseHandlers_dispatch rq ;;
  match fuse_user_method (fun m => match m with M_unimplemented => true | _ => false end) m with
  | Some M_unimplemented => id <- header_request_id rq ;; Ret [answer_call minor id (AErr error)]
  | _ => Ret []
  end.
Definition unimplemented_cuse_server (minor : N) (error : Z) (rq : Request) : out (list send_call) :=
  m <- CuseHandlers_dispatch rq ;;
  match cuse_user_method (fun m => match m with CM_unimplemented => true | _ => false end) m with
  | Some CM_unimplemented => id <- header_request_id rq ;; Ret [answer_call minor id (AErr error)]
  | _ => Ret []
  end.

(** These [send] calls carry exactly these replies. *)
Inductive carries : list send_call -> list (N * Z * bytes) -> Prop :=
| carries_nil : carries [] []
| carries_cons b m id error p cs rs :
  on_wire b = Ret m -> SendBuf_len b = nlen m -> kernel_read m = Some (Reply id error p) ->
  carries cs rs -> carries (Call b :: cs) ((id, error, p) :: rs).

(** ** Serve loops *)

(** A message a connection accepts as a request. *)
Definition acceptable (m : bytes) : Prop :=
  40 <= nlen m /\ u64_at 8 m <> 0 /\ u32_at 0 m <= nlen m.
(** Why it does not accept others. *)
Definition why_refused (m : bytes) : RequestError :=
  if (40 <=? nlen m) && (u64_at 8 m =? 0) then EInvalidRequestId else EUnexpectedEof.
End Handlers.
