(** Model of sessions, fuse/server.rs: version negotiation, the connection
    handshakes, the server builders, request dispatch and the single-threaded
    serve loops.

    The socket is the environment.  A run of a loop is given the list of what
    the socket does, one element per call of [recv]; when the list is
    exhausted the code is waiting inside [recv].  User code (callbacks and
    handlers) is assumed to return; a panic in user code is not modelled. *)

From Verif Require Import Base Kernel CoreModel DecodeModel OpsModel ReplyModel.
From Coq Require Import List NArith ZArith Bool.
Import ListNotations.
Open Scope N_scope.

(** fuse/server.rs:109-115 [RecvError]; I/O errors are error numbers *)
Inductive RecvError := RE_ConnectionClosed (code : N) | RE_Other (code : N).

(** fuse/server.rs:177-186 [ServerError] *)
Inductive ServerError :=
| SrvRequest (e : RequestError) | SrvRecv (e : RecvError) | SrvSend (e : SendError).

(** How a run ends: a [Result] with [ServerError] (fuse/server.rs:177-186), a
    crash, or waiting in [recv] (146). *)
Inductive result (A : Type) :=
| Finished (a : A) | Failed (e : ServerError) | Panicked | Undefined | Waiting.
Arguments Finished {A}. Arguments Failed {A}. Arguments Panicked {A}.
Arguments Undefined {A}. Arguments Waiting {A}.

(** What [Socket::recv] does (fuse/server.rs:146): it stores a message at the
    start of the buffer and returns its length, or fails. *)
Inductive recv_event := Message (msg : bytes) | RecvFails (e : RecvError).
(** What [Socket::send] returns (fuse/server.rs:149) *)
Inductive send_event := SendOk | SendFails (e : SendError).

(** The effect of a successful [recv] on a buffer, and the returned length
    (fuse/server.rs:146, called at 1144, 1184, 1285, 1323). *)
Definition recv_into (buf msg : bytes) : bytes * N :=
  (take (nlen buf) (msg ++ drop (nlen msg) buf), nlen msg).

(** fuse/io.rs:77-84 [AlignedSlice::truncate] (145-152 is the same) *)
Definition AlignedSlice_truncate (len : N) (inner : bytes) : bytes :=
  if nlen inner <=? len then inner else take len inner.
(** fuse/io.rs:44-50 [AlignedSlice::new] (110-116 is the same) for a slice at
    address [addr]: [align_offset] is 0 exactly for aligned addresses *)
Definition AlignedSlice_new (addr : N) (slice : bytes) : option bytes :=
  if addr mod 8 =? 0 then Some slice else None.
(** fuse/io.rs:196, 201-205 [MinReadBuffer::new] *)
Definition MinReadBuffer_new : bytes := repeat x00 (N.to_nat FUSE_MIN_READ_BUFFER).

(** ** Layouts *)

(** fuse/server.rs:215-217 [CuseLayout], 236-238 *)
Record CuseLayout := { cl_version_minor : N }.
(** fuse/server.rs:243-246 [FuseLayout], 276-278 *)
Record FuseLayout := { fl_version_minor : N; fl_features : N }.
(** fuse/server.rs:248 *)
Definition FEATURE_SETXATTR_EXT : N := 1.
(** [as u16] (fuse/server.rs:231, 270) *)
Definition wrap16 (n : N) : N := n mod 65536.

(** fuse/server.rs:221-233 [CuseLayout::new]; [None] is [Err] *)
Definition CuseLayout_new (init_out : cuse_init_out) : option CuseLayout :=
  if negb (co_major init_out =? FUSE_KERNEL_VERSION) then None
  else if FUSE_KERNEL_MINOR_VERSION <? co_minor init_out then None
  else Some {| cl_version_minor := wrap16 (co_minor init_out) |}.
(** fuse/server.rs:264-273 [FuseLayout::new2] *)
Definition FuseLayout_new2 (init_out : fuse_init_out) : FuseLayout :=
  {| fl_version_minor := wrap16 (io_minor init_out);
     fl_features := if negb (N.land (io_flags init_out) FUSE_SETXATTR_EXT =? 0)
                    then N.lor 0 FEATURE_SETXATTR_EXT else 0 |}.
(** fuse/server.rs:252-262 [FuseLayout::new] *)
Definition FuseLayout_new (init_out : fuse_init_out) : option FuseLayout :=
  if negb (io_major init_out =? FUSE_KERNEL_VERSION) then None
  else if FUSE_KERNEL_MINOR_VERSION <? io_minor init_out then None
  else Some (FuseLayout_new2 init_out).
(** fuse/server.rs:281-283 [have_setxattr_ext] *)
Definition have_setxattr_ext (l : FuseLayout) : bool :=
  negb (N.land (fl_features l) FEATURE_SETXATTR_EXT =? 0).

(** What the conversions of requests see of a layout (fuse/server.rs:240-280). *)
Definition layout_config (overflow_checks : bool) (l : FuseLayout) : config :=
  {| cf_minor := fl_version_minor l; cf_setxattr_ext := have_setxattr_ext l;
     cf_overflow_checks := overflow_checks |}.
(** The same of a CUSE layout, which has no features (fuse/server.rs:235-238). *)
Definition cuse_layout_config (overflow_checks : bool) (l : CuseLayout) : config :=
  {| cf_minor := cl_version_minor l; cf_setxattr_ext := false;
     cf_overflow_checks := overflow_checks |}.

(** ** Handshake *)

(** fuse/server.rs:1579-1588 [negotiate_version] *)
Definition negotiate_version (kernel : Version) : option Version :=
  if negb (v_major kernel =? v_major Version_LATEST) then None
  else Some {| v_major := v_major Version_LATEST;
               v_minor := N.min (v_minor kernel) (v_minor Version_LATEST) |}.

(** fuse/server.rs:1590-1596 [recv_buf_len]; [usize_max] is [usize::MAX] *)
Definition recv_buf_len (usize_max max_write : N) : N :=
  N.max (N.min (max_write + 4096) usize_max) FUSE_MIN_READ_BUFFER.

(** What [connect] (fuse/server.rs:1129-1176, 1271-1315) does in order: calls
    of the init callback, and of [Socket::send]. *)
Inductive effect (I : Type) := InitCalled (request : I) | Sent (buf : SendBuf).
Arguments InitCalled {I}. Arguments Sent {I}.

(** One round of the connection loop (fuse/server.rs:1143-1175, 1284-1314): the
    results of [recv] and, if it gets that far, of [send]. *)
Record exchange := { x_recv : recv_event; x_send : send_event }.

Section Connect.
(** The CUSE and FUSE handshakes have the same text up to the types: [I] is
    the INIT request, [R] the reply, [S] the state of the init callback
    ([FnMut]). *)
Context {E : Endian} {I R S : Type}.
Context (try_from : Request -> out I) (version : I -> Version).
Context (set_version : Version -> R -> R) (new_reply : S -> I -> S * R) (reject_reply : R).
Context (send : N -> R -> send_call).

(** fuse/server.rs:1235-1254 [cuse_handshake], 1380-1399 [fuse_handshake] *)
Definition handshake (s : S) (request : I) : S * R * bool * list (effect I) :=
  match negotiate_version (version request) with
  | Some version =>
    let '(s, reply) := new_reply s request in
    (s, set_version version reply, true, [InitCalled request])
  | None => (s, set_version Version_LATEST reject_reply, false, [])
  end.

(** fuse/server.rs:1143-1175 and 1284-1314: the loop of [connect]; returns
    the reply that was accepted *)
Fixpoint connect_loop (xs : list exchange) (buf : bytes) (s : S) : list (effect I) * result R :=
  match xs with
  | [] => ([], Waiting)
  | x :: xs =>
    match x_recv x with
    | RecvFails e => ([], Failed (SrvRecv e))
    | Message msg =>
      let '(buf, recv_len) := recv_into buf msg in
      let recv_buf := AlignedSlice_truncate recv_len buf in
      match (request <- Request_new recv_buf ;; init_req <- try_from request ;;
             Ret (request, init_req)) with
      | Fail e => ([], Failed (SrvRequest e))
      | Panic => ([], Panicked)
      | Ub => ([], Undefined)
      | Ret (request, init_req) =>
        let '(s, reply, ok, called) := handshake s init_req in
        match header_request_id request with
        | Fail e => (called, Failed (SrvRequest e))
        | Panic => (called, Panicked)
        | Ub => (called, Undefined)
        | Ret request_id =>
          match send request_id reply with
          | Refuse e => (called, Failed (SrvSend e))
          | Call b =>
            match x_send x with
            | SendFails e => (called ++ [Sent b], Failed (SrvSend e))
            | SendOk =>
              if ok then (called ++ [Sent b], Finished reply)
              else let '(l, r) := connect_loop xs buf s in (called ++ Sent b :: l, r)
            end
          end
        end
      end
    end
  end.

End Connect.

Section Server.
Context {E : Endian}.

(** fuse/server.rs:1257-1261 [FuseConnection] without its socket *)
Record FuseConnection := { fc_layout : FuseLayout; fc_recv_buf_len : N }.
(** fuse/server.rs:1115-1119 [CuseConnection] without its socket *)
Record CuseConnection := { cc_layout : CuseLayout; cc_recv_buf_len : N }.

(** fuse/server.rs:1271-1315 [FuseConnection::connect].  [init_fn] gets its
    own state, the request and the fresh reply.  The reply is sent with the
    layout of version 7.36; [fuse_init_out::send_to] looks at the version in
    the reply only. *)
Definition FuseConnection_connect {S} (usize_max : N)
    (init_fn : S -> FuseInitRequest -> fuse_init_out -> S * fuse_init_out) (s : S)
    (xs : list exchange) : list (effect FuseInitRequest) * result FuseConnection :=
  let '(l, r) :=
    connect_loop FuseInitRequest_try_from fi_version FuseInit_set_version
      (fun s req => init_fn s req FuseInit_new) FuseInit_new
      (fun id reply => send_to FUSE_KERNEL_MINOR_VERSION id (RInitOut reply))
      xs MinReadBuffer_new s in
  (l, match r with
      | Finished reply => Finished {| fc_layout := FuseLayout_new2 reply;
                                      fc_recv_buf_len := recv_buf_len usize_max (io_max_write reply) |}
      | Failed e => Failed e | Panicked => Panicked | Undefined => Undefined | Waiting => Waiting
      end).

(** An update of the raw part of a [CuseInitResponse]: its setters,
    fuse/operations/cuse_init.rs:103-106, 150-153 *)
Definition CuseInitResponse_update (f : cuse_init_out -> cuse_init_out) (r : CuseInitResponse)
  : CuseInitResponse :=
  {| cir_raw := f (cir_raw r); cir_device_name := cir_device_name r |}.

(** fuse/server.rs:1129-1176 [CuseConnection::connect] *)
Definition CuseConnection_connect {S} (usize_max : N) (device_name : bytes) (dev_major dev_minor : N)
    (init_fn : S -> CuseInitRequest -> CuseInitResponse -> S * CuseInitResponse) (s : S)
    (xs : list exchange) : list (effect CuseInitRequest) * result CuseConnection :=
  let '(l, r) :=
    connect_loop CuseInitRequest_try_from ci_version
      (fun v => CuseInitResponse_update (CuseInit_set_version v))
      (fun s req => init_fn s req
         (CuseInitResponse_update (CuseInit_set_device_number dev_major dev_minor)
            (CuseInitResponse_new device_name)))
      CuseInitResponse_new_nameless
      (fun id reply => send_to FUSE_KERNEL_MINOR_VERSION id (RCuseInit reply))
      xs MinReadBuffer_new s in
  (l, match r with
      | Finished reply =>
        Finished {| cc_layout := {| cl_version_minor := wrap16 (co_minor (cir_raw reply)) |};
                    cc_recv_buf_len := recv_buf_len usize_max (co_max_write (cir_raw reply)) |}
      | Failed e => Failed e | Panicked => Panicked | Undefined => Undefined | Waiting => Waiting
      end).

(** ** Server builders *)

(** fuse/server.rs:1483-1485 [FuseServer] is its [init_reply]. *)
Definition FuseServer := fuse_init_out.
(** fuse/server.rs:1490-1494 *)
Definition FuseServer_new : FuseServer := FuseInit_new.
(** fuse/server.rs:1515-1521 *)
Definition FuseServer_congestion_threshold : N -> FuseServer -> FuseServer :=
  FuseInit_set_congestion_threshold.
(** fuse/server.rs:1526-1529 *)
Definition FuseServer_max_background : N -> FuseServer -> FuseServer := FuseInit_set_max_background.
(** fuse/server.rs:1534-1537 *)
Definition FuseServer_max_readahead : N -> FuseServer -> FuseServer := FuseInit_set_max_readahead.
(** fuse/operations/fuse_init.rs:162-166 [update_flags],
    fuse/server.rs:1568-1574 *)
Definition FuseServer_update_flags (f : N -> N) (r : FuseServer) : FuseServer :=
  FuseInit_set_flags (f (FuseInit_flags r)) r.
(** fuse/server.rs:1546-1554 *)
Definition FuseServer_max_write (n : N) (r : FuseServer) : FuseServer :=
  let r := FuseInit_set_max_write n r in
  if 4096 <? n then FuseServer_update_flags (fun flags => flags_set flags FUSE_BIG_WRITES) r else r.
(** fuse/server.rs:1559-1562 *)
Definition FuseServer_time_granularity : N -> FuseServer -> FuseServer := FuseInit_set_time_granularity.
(** fuse/server.rs:1502-1509, the callback of [FuseServer::connect];
    [flags() & flags()] is fuse/internal/bitflags.rs [BitAnd] *)
Definition FuseServer_init_fn (opts : FuseServer) (s : unit) (request : FuseInitRequest)
    (reply : fuse_init_out) : unit * fuse_init_out :=
  let reply := FuseInit_set_congestion_threshold (io_congestion_threshold opts) reply in
  let reply := FuseInit_set_max_background (io_max_background opts) reply in
  let reply := FuseInit_set_max_readahead (io_max_readahead opts) reply in
  let reply := FuseInit_set_max_write (io_max_write opts) reply in
  let reply := FuseInit_set_time_granularity (io_time_gran opts) reply in
  (s, FuseInit_set_flags (N.land (fi_flags request) (FuseInit_flags opts)) reply).
(** fuse/server.rs:1497-1510 [FuseServer::connect] *)
Definition FuseServer_connect (usize_max : N) (opts : FuseServer) (xs : list exchange)
  : list (effect FuseInitRequest) * result FuseConnection :=
  FuseConnection_connect usize_max (FuseServer_init_fn opts) tt xs.

(** fuse/server.rs:1402-1408 [CuseServer] *)
Record CuseServer := {
  cs_device_name : bytes; cs_dev_major : N; cs_dev_minor : N;
  cs_flags : N; cs_max_read : N; cs_max_write : N }.
(** fuse/server.rs:1413-1424 *)
Definition CuseServer_new (device_name : bytes) (dev_major dev_minor : N) : CuseServer :=
  {| cs_device_name := device_name; cs_dev_major := dev_major; cs_dev_minor := dev_minor;
     cs_flags := 0; cs_max_read := 0; cs_max_write := 0 |}.
(** fuse/server.rs:1446-1449 *)
Definition CuseServer_max_read (n : N) (c : CuseServer) : CuseServer :=
  {| cs_device_name := cs_device_name c; cs_dev_major := cs_dev_major c;
     cs_dev_minor := cs_dev_minor c; cs_flags := cs_flags c; cs_max_read := n;
     cs_max_write := cs_max_write c |}.
(** fuse/server.rs:1454-1457 *)
Definition CuseServer_max_write (n : N) (c : CuseServer) : CuseServer :=
  {| cs_device_name := cs_device_name c; cs_dev_major := cs_dev_major c;
     cs_dev_minor := cs_dev_minor c; cs_flags := cs_flags c; cs_max_read := cs_max_read c;
     cs_max_write := n |}.
(** fuse/server.rs:1463-1469 *)
Definition CuseServer_update_flags (f : N -> N) (c : CuseServer) : CuseServer :=
  {| cs_device_name := cs_device_name c; cs_dev_major := cs_dev_major c;
     cs_dev_minor := cs_dev_minor c; cs_flags := f (cs_flags c); cs_max_read := cs_max_read c;
     cs_max_write := cs_max_write c |}.
(** fuse/server.rs:1474-1479 *)
Definition CuseServer_enable_unrestricted_ioctl : CuseServer -> CuseServer :=
  CuseServer_update_flags (fun flags => flags_set flags CUSE_UNRESTRICTED_IOCTL).
(** fuse/server.rs:1435-1439, the callback of [CuseServer::connect] *)
Definition CuseServer_init_fn (c : CuseServer) (s : unit) (request : CuseInitRequest)
    (reply : CuseInitResponse) : unit * CuseInitResponse :=
  let reply := CuseInitResponse_update (CuseInit_set_max_read (cs_max_read c)) reply in
  let reply := CuseInitResponse_update (CuseInit_set_max_write (cs_max_write c)) reply in
  (s, CuseInitResponse_update (CuseInit_set_flags (N.land (ci_flags request) (cs_flags c))) reply).
(** fuse/server.rs:1427-1441 [CuseServer::connect] *)
Definition CuseServer_connect (usize_max : N) (c : CuseServer) (xs : list exchange)
  : list (effect CuseInitRequest) * result CuseConnection :=
  CuseConnection_connect usize_max (cs_device_name c) (cs_dev_major c) (cs_dev_minor c)
    (CuseServer_init_fn c) tt xs.

(** ** Dispatch *)

(** The methods of fuse/server.rs:827-1112 [FuseHandlers] *)
Inductive fuse_method :=
| M_access | M_batch_forget | M_bmap | M_copy_file_range | M_create | M_destroy | M_fallocate
| M_flush | M_forget | M_fsync | M_fsyncdir | M_getattr | M_getlk | M_getxattr | M_interrupt
| M_ioctl | M_link | M_listxattr | M_lookup | M_lseek | M_mkdir | M_mknod | M_open | M_opendir
| M_poll | M_read | M_readdir | M_readdirplus | M_readlink | M_release | M_releasedir
| M_removexattr | M_rename | M_rename2 | M_rmdir | M_setattr | M_setlk | M_setlkw | M_setxattr
| M_statfs | M_symlink | M_syncfs | M_unlink | M_write | M_unimplemented.

(** A Rust [match] on constants (fuse/server.rs:842-886, 768-777): the first
    arm with that value. *)
Fixpoint match_arms {A} (arms : list (N * A)) (default : A) (x : N) : A :=
  match arms with
  | [] => default
  | (k, a) :: r => if x =? k then a else match_arms r default x
  end.

(** fuse/server.rs:832-887 [FuseHandlers::dispatch]: the method it calls *)
Definition FuseHandlers_dispatch (request : Request) : out fuse_method :=
  opcode <- header_opcode request ;;
  if opcode =? FUSE_READ then Ret M_read
  else if opcode =? FUSE_WRITE then Ret M_write
  else Ret (match_arms
    [(FUSE_ACCESS, M_access); (FUSE_BATCH_FORGET, M_batch_forget); (FUSE_BMAP, M_bmap);
     (FUSE_COPY_FILE_RANGE, M_copy_file_range); (FUSE_CREATE, M_create);
     (FUSE_DESTROY, M_destroy); (FUSE_FALLOCATE, M_fallocate); (FUSE_FLUSH, M_flush);
     (FUSE_FORGET, M_forget); (FUSE_FSYNC, M_fsync); (FUSE_FSYNCDIR, M_fsyncdir);
     (FUSE_GETATTR, M_getattr); (FUSE_GETLK, M_getlk); (FUSE_GETXATTR, M_getxattr);
     (FUSE_INTERRUPT, M_interrupt); (FUSE_IOCTL, M_ioctl); (FUSE_LINK, M_link);
     (FUSE_LISTXATTR, M_listxattr); (FUSE_LOOKUP, M_lookup); (FUSE_LSEEK, M_lseek);
     (FUSE_MKDIR, M_mkdir); (FUSE_MKNOD, M_mknod); (FUSE_OPEN, M_open);
     (FUSE_OPENDIR, M_opendir); (FUSE_POLL, M_poll); (FUSE_READDIR, M_readdir);
     (FUSE_READDIRPLUS, M_readdirplus); (FUSE_READLINK, M_readlink);
     (FUSE_RELEASE, M_release); (FUSE_RELEASEDIR, M_releasedir);
     (FUSE_REMOVEXATTR, M_removexattr); (FUSE_RENAME, M_rename); (FUSE_RENAME2, M_rename2);
     (FUSE_RMDIR, M_rmdir); (FUSE_SETATTR, M_setattr); (FUSE_SETLK, M_setlk);
     (FUSE_SETLKW, M_setlkw); (FUSE_SETXATTR, M_setxattr); (FUSE_STATFS, M_statfs);
     (FUSE_SYMLINK, M_symlink); (FUSE_SYNCFS, M_syncfs); (FUSE_UNLINK, M_unlink)]
    M_unimplemented opcode).

(** The methods of fuse/server.rs:753-824 [CuseHandlers] *)
Inductive cuse_method :=
| CM_flush | CM_fsync | CM_interrupt | CM_ioctl | CM_open | CM_poll | CM_read | CM_release
| CM_write | CM_unimplemented.

(** fuse/server.rs:758-778 [CuseHandlers::dispatch] *)
Definition CuseHandlers_dispatch (request : Request) : out cuse_method :=
  opcode <- header_opcode request ;;
  if opcode =? FUSE_READ then Ret CM_read
  else if opcode =? FUSE_WRITE then Ret CM_write
  else Ret (match_arms
    [(FUSE_FLUSH, CM_flush); (FUSE_FSYNC, CM_fsync); (FUSE_INTERRUPT, CM_interrupt);
     (FUSE_IOCTL, CM_ioctl); (FUSE_OPEN, CM_open); (FUSE_POLL, CM_poll);
     (FUSE_RELEASE, CM_release)]
    CM_unimplemented opcode).

(** The provided bodies of the methods, fuse/server.rs:890-1111 (FUSE) and
    781-823 (CUSE): a call of [self.unimplemented(request)] ([true]) or
    nothing ([false]).  [unimplemented] itself has no provided body. *)
Definition fuse_default_calls_unimplemented (m : fuse_method) : bool :=
  match m with
  | M_batch_forget | M_forget | M_interrupt => false
  | _ => true
  end.
(** fuse/server.rs:781-823, the same for [CuseHandlers] *)
Definition cuse_default_calls_unimplemented (m : cuse_method) : bool :=
  match m with CM_interrupt => false | _ => true end.

(** The user's method that runs when a method is called, in an
    implementation that overrides the methods given by [overrides]
    (fuse/server.rs:827-1112). *)
Definition fuse_user_method (overrides : fuse_method -> bool) (m : fuse_method) : option fuse_method :=
  if overrides m then Some m
  else if fuse_default_calls_unimplemented m then Some M_unimplemented else None.
(** The same for [CuseHandlers], fuse/server.rs:753-824 *)
Definition cuse_user_method (overrides : cuse_method -> bool) (m : cuse_method) : option cuse_method :=
  if overrides m then Some m
  else if cuse_default_calls_unimplemented m then Some CM_unimplemented else None.

(** ** Serve loops *)

(** fuse/server.rs:1318-1330 [FuseConnection::recv] after a successful
    [Socket::recv], 1183-1186 in [CuseConnection::recv].  Returns the changed
    buffer too. *)
Definition recv_request (buf msg : bytes) : bytes * out Request :=
  let '(buf, recv_len) := recv_into buf msg in
  (buf, Request_new (AlignedSlice_truncate recv_len buf)).

(** fuse/server.rs:1614-1623 [fuse_serve_local] with 1318-1330
    [FuseConnection::recv]: the requests given to [dispatch], in order, and
    the result. *)
Fixpoint fuse_serve_local (evs : list recv_event) (buf : bytes) : list Request * result unit :=
  match evs with
  | [] => ([], Waiting)
  | RecvFails (RE_ConnectionClosed _) :: _ => ([], Finished tt)
  | RecvFails e :: _ => ([], Failed (SrvRecv e))
  | Message msg :: evs =>
    let '(buf, r) := recv_request buf msg in
    match r with
    | Fail e => ([], Failed (SrvRequest e))
    | Panic => ([], Panicked)
    | Ub => ([], Undefined)
    | Ret request =>
      let '(l, r) := fuse_serve_local evs buf in (request :: l, r)
    end
  end.

(** fuse/server.rs:1599-1608 [cuse_serve_local] with 1179-1187
    [CuseConnection::recv] *)
Fixpoint cuse_serve_local (evs : list recv_event) (buf : bytes) : list Request * result unit :=
  match evs with
  | [] => ([], Waiting)
  | RecvFails e :: _ => ([], Failed (SrvRecv e))
  | Message msg :: evs =>
    let '(buf, r) := recv_request buf msg in
    match r with
    | Fail e => ([], Failed (SrvRequest e))
    | Panic => ([], Panicked)
    | Ub => ([], Undefined)
    | Ret request =>
      let '(l, r) := cuse_serve_local evs buf in (request :: l, r)
    end
  end.

End Server.
