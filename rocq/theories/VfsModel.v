(** Model of fuse-vfs: [Filesystem] with its node and handle tables, and
    [StaticDirectoryHandle].

    A handler is a program over atomic actions: every action is either one
    critical section of a lock, one [send] on the socket or one call of user
    code.  Running the programs of several requests interleaved gives the
    multi-threaded server, running one to the end gives [dispatch] on a
    single thread.

    Simplifications: user code returns (it does not panic, so locks are never
    poisoned); a trait object obtained from [as_directory] and the like is
    identified with the object it was obtained from; a HashMap is a function
    from keys to optional values. *)

From Verif Require Import Base Kernel CoreModel DecodeModel OpsModel ReplyModel ListingModel ServerModel.
From Coq Require Import List NArith ZArith Bool.
Import ListNotations.
Open Scope N_scope.

(** The error constants the crate uses, as they are sent: fuse/os/linux.rs:205,
    215, 225, 250 and fuse/os/freebsd.rs:103, 113, 123, 148. *)
Record OsErrors := {
  INVALID_ARGUMENT : Z; NOT_DIRECTORY : Z; NOT_SUPPORTED : Z; XATTR_NOT_FOUND : Z }.
(** fuse/os/linux.rs:205, 215, 225, 250; EINVAL, ENOTDIR, EOPNOTSUPP, ENODATA
    of the generic Linux ABI *)
Definition linux_errors : OsErrors :=
  {| INVALID_ARGUMENT := linux_fuse_error 22; NOT_DIRECTORY := linux_fuse_error 20;
     NOT_SUPPORTED := linux_fuse_error 95; XATTR_NOT_FOUND := linux_fuse_error 61 |}.
(** fuse/os/freebsd.rs:103, 113, 123, 148; EINVAL, ENOTDIR, EOPNOTSUPP,
    ENOATTR of FreeBSD after [fuse_error] (43-53) *)
Definition freebsd_errors : OsErrors :=
  {| INVALID_ARGUMENT := -22; NOT_DIRECTORY := -20; NOT_SUPPORTED := -45;
     XATTR_NOT_FOUND := -87 |}.

(** A [core::time::Duration], fuse-vfs/fuse-vfs.rs:1184: seconds and
    nanoseconds. *)
Definition Duration : Type := N * N.

(** ** Results of user code *)

(** fuse-vfs/fuse-vfs.rs:129-132 [GetattrResult] *)
Record GetattrResult := { gar_attr : fuse_attr; gar_cache_timeout : Duration }.
(** fuse-vfs/fuse-vfs.rs:136-141 *)
Definition GetattrResult_new (attr : fuse_attr) : GetattrResult :=
  {| gar_attr := attr; gar_cache_timeout := (0, 0) |}.
(** fuse-vfs/fuse-vfs.rs:213-218 [LookupResult] *)
Record LookupResult {Node : Type} := {
  lr_node : option (Node * fuse_attr);
  lr_generation : N;
  lr_entry_cache_timeout : Duration;
  lr_attr_cache_timeout : Duration }.
Arguments LookupResult : clear implicits.
(** fuse-vfs/fuse-vfs.rs:222-232 *)
Definition LookupResult_found {Node} (node : Node) (attr : fuse_attr) : LookupResult Node :=
  {| lr_node := Some (node, attr); lr_generation := 0; lr_entry_cache_timeout := (0, 0);
     lr_attr_cache_timeout := (0, 0) |}.
(** fuse-vfs/fuse-vfs.rs:235-242 *)
Definition LookupResult_not_found {Node} : LookupResult Node :=
  {| lr_node := None; lr_generation := 0; lr_entry_cache_timeout := (0, 0);
     lr_attr_cache_timeout := (0, 0) |}.
(** fuse-vfs/fuse-vfs.rs:245-248 [OpendirResult], 347-350 [OpenResult] *)
Record OpenedResult {H : Type} := { or_handle : H; or_open_flags : N }.
Arguments OpenedResult : clear implicits.
(** fuse-vfs/fuse-vfs.rs:252-257 [OpendirResult::new], 354-359 [OpenResult::new] *)
Definition OpenedResult_new {H} (handle : H) : OpenedResult H :=
  {| or_handle := handle; or_open_flags := 0 |}.

(** fuse-vfs/fuse-vfs.rs:1184-1194 [split_duration]; [old] is what the output
    fields held before *)
Definition vfs_split_duration (d : Duration) (old : N * N) : N * N :=
  if (fst d =? 0) && (snd d =? 0) then old
  else if fst d <=? i64_max then (fst d, snd d) else (i64_max, 0).

Section Vfs.
Context {E : Endian} {W Node FH DH : Type}.

(** fuse-vfs/fuse-vfs.rs:150-156 [GetxattrResult::size], 170-176
    [ListxattrResult::size]; [value] and [names] (159, 179) keep the bytes *)
Definition XattrResult_size (size : N) : bytes := wire [u32 size; u32 0].

(** User code: the traits [Node] (fuse-vfs/fuse-vfs.rs:85-127), [Directory]
    (199-211), [DirectoryHandle] (264-281), [ReaddirHandle] (293-299),
    [ReaddirplusHandle] (314-320), [File] (339-345), [FileHandle] (366-383),
    [ReadHandle] (395-401), [WriteHandle] (414-420), [Symlink] (437-443).
    Every method may look at and change the state [W] of the program; the
    request and its header are functions of the raw request.  Errors are
    the code in [fuse::Error]. *)
Record user := {
  u_as_directory : Node -> W -> W * bool;
  u_as_file : Node -> W -> W * bool;
  u_as_symlink : Node -> W -> W * bool;
  u_getattr : Node -> Request -> W -> W * (GetattrResult + Z);
  u_getxattr : Node -> Request -> W -> W * (bytes + Z);
  u_listxattr : Node -> Request -> W -> W * (bytes + Z);
  u_statfs : Node -> Request -> W -> W * (fuse_kstatfs + Z);
  u_lookup : Node -> Request -> W -> W * (LookupResult Node + Z);
  u_opendir : Node -> Request -> W -> W * (OpenedResult DH + Z);
  u_open : Node -> Request -> W -> W * (OpenedResult FH + Z);
  u_readlink : Node -> Request -> W -> W * (bytes + Z);
  u_as_readdir_handle : DH -> W -> W * bool;
  u_as_readdirplus_handle : DH -> W -> W * bool;
  u_readdir : DH -> Request -> W -> W * (bytes + Z);
  u_readdirplus : DH -> Request -> W -> W * (bytes + Z);
  u_releasedir : DH -> Request -> W -> W * option Z;
  u_as_read_handle : FH -> W -> W * bool;
  u_as_write_handle : FH -> W -> W * bool;
  u_read : FH -> Request -> W -> W * (bytes + Z);
  u_write : FH -> Request -> W -> W * (N + Z);
  u_release : FH -> Request -> W -> W * option Z }.

(** Provided trait methods: fuse-vfs/fuse-vfs.rs:86-96 [as_directory],
    [as_file], [as_symlink], 265-272 [as_readdir_handle],
    [as_readdirplus_handle], 367-374 [as_read_handle], [as_write_handle] *)
Definition default_as (w : W) : W * bool := (w, false).
(** fuse-vfs/fuse-vfs.rs:104-110 [getxattr] *)
Definition default_getxattr (os : OsErrors) (w : W) : W * (bytes + Z) :=
  (w, inr (XATTR_NOT_FOUND os)).
(** fuse-vfs/fuse-vfs.rs:112-118 [listxattr] *)
Definition default_listxattr (w : W) : W * (bytes + Z) := (w, inl []).
(** fuse-vfs/fuse-vfs.rs:120-126 [statfs] *)
Definition default_statfs (w : W) : W * (fuse_kstatfs + Z) := (w, inl Statfs_new).
(** fuse-vfs/fuse-vfs.rs:274-280 [releasedir], 376-382 [release] *)
Definition default_release (w : W) : W * option Z := (w, None).

(** ** Tables *)

(** fuse-vfs/fuse-vfs.rs:922-929 [NodeMap] and [NodeLookup], 994-998
    [HandlesMap], 462-466 [Filesystem]: nodes with their lookup counts, the
    next handle, open directories and open files *)
Record vfs := {
  v_nodes : N -> option (Node * N);
  v_next_handle_id : N;
  v_open_dirs : N -> option DH;
  v_open_files : N -> option FH }.

(** Changing one key of a map ([HashMap::insert], [remove], fuse-vfs/fuse-vfs.rs:
    943-978, 1009-1058) *)
Definition upd {A} (m : N -> option A) (k : N) (v : option A) : N -> option A :=
  fun x => if x =? k then v else m x.

(** fuse-vfs/fuse-vfs.rs:470-479 [Filesystem::new], 932-941 [NodeMap::new],
    1001-1007 [HandlesMap::new] *)
Definition Filesystem_new (root : Node) : vfs :=
  {| v_nodes := upd (fun _ => None) FUSE_ROOT_ID (Some (root, 0));
     v_next_handle_id := 1;
     v_open_dirs := fun _ => None;
     v_open_files := fun _ => None |}.

(** The state after a change of the node table (fuse-vfs/fuse-vfs.rs:943-978). *)
Definition with_nodes (s : vfs) (m : N -> option (Node * N)) : vfs :=
  {| v_nodes := m; v_next_handle_id := v_next_handle_id s; v_open_dirs := v_open_dirs s;
     v_open_files := v_open_files s |}.

(** u64 [+= 1] (fuse-vfs/fuse-vfs.rs:950, 1011, 1018): panics or wraps around at the end of the range. *)
Definition incr64 (checks : bool) (n : N) : option N :=
  if n + 1 <? U64 then Some (n + 1) else if checks then None else Some 0.

(** fuse-vfs/fuse-vfs.rs:943-959 [NodeMap::add]; [None] is a panic *)
Definition NodeMap_add (checks : bool) (node_id : N) (node : Node)
    (m : N -> option (Node * N)) : option (N -> option (Node * N)) :=
  match m node_id with
  | Some (n, count) =>
    match incr64 checks count with
    | Some c => Some (upd m node_id (Some (n, c)))
    | None => None
    end
  | None => Some (upd m node_id (Some (node, 1)))
  end.

(** fuse-vfs/fuse-vfs.rs:967-977, the body of the loop; the second component
    of an item is the number of lookups to forget *)
Definition forget_item (item : N * N) (m : N -> option (Node * N)) : N -> option (Node * N) :=
  let node_id := fst item in
  match m node_id with
  | Some (n, count) =>
    let new_count := count - 1 in
    if new_count =? 0 then upd m node_id None else upd m node_id (Some (n, new_count))
  | None => m
  end.
(** fuse-vfs/fuse-vfs.rs:961-978 [NodeMap::forget] *)
Definition NodeMap_forget (items : list (N * N)) (m : N -> option (Node * N)) :=
  fold_left (fun m item => forget_item item m) items m.

(** fuse-vfs/fuse-vfs.rs:980-987 [NodeMap::get]; no node is the error
    INVALID_ARGUMENT *)
Definition NodeMap_get (node_id : N) (m : N -> option (Node * N)) : option Node :=
  match m node_id with Some (n, _) => Some n | None => None end.

(** fuse-vfs/fuse-vfs.rs:1009-1014 [HandlesMap::open_file] *)
Definition HandlesMap_open_file (checks : bool) (h : FH) (s : vfs) : option (N * vfs) :=
  match incr64 checks (v_next_handle_id s) with
  | None => None
  | Some next =>
    Some (v_next_handle_id s,
          {| v_nodes := v_nodes s; v_next_handle_id := next; v_open_dirs := v_open_dirs s;
             v_open_files := upd (v_open_files s) (v_next_handle_id s) (Some h) |})
  end.
(** fuse-vfs/fuse-vfs.rs:1016-1021 [HandlesMap::open_dir] *)
Definition HandlesMap_open_dir (checks : bool) (h : DH) (s : vfs) : option (N * vfs) :=
  match incr64 checks (v_next_handle_id s) with
  | None => None
  | Some next =>
    Some (v_next_handle_id s,
          {| v_nodes := v_nodes s; v_next_handle_id := next;
             v_open_dirs := upd (v_open_dirs s) (v_next_handle_id s) (Some h);
             v_open_files := v_open_files s |})
  end.
(** fuse-vfs/fuse-vfs.rs:1023-1032 [get_file], 1034-1043 [get_dir]; the node
    id is ignored and no entry is the error INVALID_ARGUMENT *)
Definition HandlesMap_get_file (node_id h : N) (s : vfs) : option FH := v_open_files s h.
(** fuse-vfs/fuse-vfs.rs:1034-1043 [get_dir] *)
Definition HandlesMap_get_dir (node_id h : N) (s : vfs) : option DH := v_open_dirs s h.
(** fuse-vfs/fuse-vfs.rs:1045-1050 [close_file] *)
Definition HandlesMap_close_file (node_id h : N) (s : vfs) : vfs :=
  {| v_nodes := v_nodes s; v_next_handle_id := v_next_handle_id s; v_open_dirs := v_open_dirs s;
     v_open_files := upd (v_open_files s) h None |}.
(** fuse-vfs/fuse-vfs.rs:1052-1057 [close_dir] *)
Definition HandlesMap_close_dir (node_id h : N) (s : vfs) : vfs :=
  {| v_nodes := v_nodes s; v_next_handle_id := v_next_handle_id s;
     v_open_dirs := upd (v_open_dirs s) h None; v_open_files := v_open_files s |}.

(** ** Handlers *)

(** What a release that holds the lock found: no such handle, an error of the
    user's [release], or success (fuse-vfs/fuse-vfs.rs:821-834, 849-862). *)
Inductive released := NoHandle | ReleaseFailed (error : Z) | Released.

(** A running handler, fuse-vfs/fuse-vfs.rs:515-915, cut into the actions that
    touch shared state.  [PDone] returns a [Result]. *)
Inductive prog :=
| PDone (r : unit + ServerError)
| PPanic
| PUb
| PUser {A : Type} (f : W -> W * A) (k : A -> prog)
| PNodeGet (node_id : N) (k : option Node -> prog)
| PNodeAdd (node_id : N) (node : Node) (k : prog)
| PNodeForget (items : list (N * N)) (k : prog)
| POpenFile (h : FH) (k : N -> prog)
| POpenDir (h : DH) (k : N -> prog)
| PGetFile (node_id h : N) (k : option FH -> prog)
| PGetDir (node_id h : N) (k : option DH -> prog)
| PReleaseFile (node_id h : N) (rq : Request) (k : released -> prog)
| PReleaseDir (node_id h : N) (rq : Request) (k : released -> prog)
| PSend (buf : SendBuf) (k : send_event -> prog).

Context (U : user) (os : OsErrors) (cf : config).

(** The [?] operator on a conversion: a [RequestError] becomes the result
    (fuse/server.rs:188-193, [From<RequestError> for ServerError]). *)
Definition attempt {A} (m : out A) (k : A -> prog) : prog :=
  match m with
  | Ret a => k a
  | Fail e => PDone (inr (SrvRequest e))
  | Panic => PPanic
  | Ub => PUb
  end.

(** [send_reply.ok(..)], [ok_buf], [ok_empty], [err] (fuse/server.rs:729-749):
    one [send] at most, then the rest of the handler with its result. *)
Definition reply_then (request_id : N) (a : answer) (k : unit + SendError -> prog) : prog :=
  match answer_call (cf_minor cf) request_id a with
  | Refuse e => k (inr e)
  | Call buf => PSend buf (fun ev => match ev with SendOk => k (inl tt) | SendFails e => k (inr e) end)
  end.
(** [Ok(send_reply.….(..)?)], for example fuse-vfs/fuse-vfs.rs:534 *)
Definition reply (request_id : N) (a : answer) : prog :=
  reply_then request_id a
    (fun r => PDone (match r with inl _ => inl tt | inr e => inr (SrvSend e) end)).

(** Calling user code and replying with its error, if any:
    [match … { Ok(result) => result, Err(err) => return Ok(send_reply.err(err)?) }],
    for example fuse-vfs/fuse-vfs.rs:536-539 *)
Definition call {A} (id : N) (f : W -> W * (A + Z)) (k : A -> prog) : prog :=
  PUser f (fun r => match r with inl x => k x | inr e => reply id (AErr e) end).
(** Looking up a node and replying with the error of [NodeMap::get], for
    example fuse-vfs/fuse-vfs.rs:532-535 *)
Definition with_node (id node_id : N) (k : Node -> prog) : prog :=
  PNodeGet node_id (fun o => match o with
    | Some n => k n | None => reply id (AErr (INVALID_ARGUMENT os)) end).
(** Asking an object for another trait and replying with [error] if it has
    none, for example fuse-vfs/fuse-vfs.rs:601-604 *)
Definition with_trait (id : N) (f : W -> W * bool) (error : Z) (k : prog) : prog :=
  PUser f (fun b : bool => if b then k else reply id (AErr error)).

(** fuse-vfs/fuse-vfs.rs:515-522 [forget] *)
Definition do_forget (rq : Request) : prog :=
  attempt (ForgetRequest_try_from cf rq) (fun r =>
  PNodeForget (Forget_items r) (PDone (inl tt))).

(** fuse-vfs/fuse-vfs.rs:524-549 [getattr] *)
Definition do_getattr (rq : Request) : prog :=
  attempt (header_request_id rq) (fun id =>
  attempt (GetattrRequest_try_from cf rq) (fun r =>
  attempt (Getattr_node_id r) (fun node_id =>
  with_node id node_id (fun node =>
  call id (u_getattr U node rq) (fun result =>
  let valid := vfs_split_duration (gar_cache_timeout result) (0, 0) in
  reply id (AOk (RAttrOut {| ao_attr_valid := fst valid; ao_attr_valid_nsec := snd valid;
                             ao_attr := gar_attr result |}))))))).

(** fuse-vfs/fuse-vfs.rs:551-568 [getxattr] *)
Definition do_getxattr (rq : Request) : prog :=
  attempt (header_request_id rq) (fun id =>
  attempt (GetxattrRequest_try_from rq) (fun r =>
  attempt (Getxattr_node_id r) (fun node_id =>
  with_node id node_id (fun node =>
  call id (u_getxattr U node rq) (fun buf => reply id (AOkBuf buf)))))).

(** fuse-vfs/fuse-vfs.rs:570-587 [listxattr] *)
Definition do_listxattr (rq : Request) : prog :=
  attempt (header_request_id rq) (fun id =>
  attempt (ListxattrRequest_try_from rq) (fun r =>
  attempt (Listxattr_node_id r) (fun node_id =>
  with_node id node_id (fun node =>
  call id (u_listxattr U node rq) (fun buf => reply id (AOkBuf buf)))))).

(** fuse-vfs/fuse-vfs.rs:589-634 [lookup] *)
Definition do_lookup (rq : Request) : prog :=
  attempt (header_request_id rq) (fun id =>
  attempt (LookupRequest_try_from rq) (fun r =>
  with_node id (pn_parent_id r) (fun parent =>
  with_trait id (u_as_directory U parent) (NOT_DIRECTORY os) (
  call id (u_lookup U parent rq) (fun result =>
  let entry := vfs_split_duration (lr_entry_cache_timeout result) (0, 0) in
  match lr_node result with
  | Some (node, attr) =>
    attempt (NodeAttr_node_id attr) (fun node_id =>
    let valid := vfs_split_duration (lr_attr_cache_timeout result) (0, 0) in
    let e := {| eo_nodeid := node_id; eo_generation := lr_generation result;
                eo_entry_valid := fst entry; eo_attr_valid := fst valid;
                eo_entry_valid_nsec := snd entry; eo_attr_valid_nsec := snd valid;
                eo_attr := attr |} in
    reply_then id (AOk (REntryOut e)) (fun r =>
    match r with
    | inl _ => PNodeAdd node_id node (PDone (inl tt))
    | inr e => PDone (inr (SrvSend e))
    end))
  | None =>
    let e := {| eo_nodeid := 0; eo_generation := 0; eo_entry_valid := fst entry;
                eo_attr_valid := 0; eo_entry_valid_nsec := snd entry; eo_attr_valid_nsec := 0;
                eo_attr := NodeAttr_new 0 |} in
    reply id (AOk (REntryOut e))
  end))))).

(** fuse-vfs/fuse-vfs.rs:636-666 [open] *)
Definition do_open (rq : Request) : prog :=
  attempt (header_request_id rq) (fun id =>
  attempt (OpenRequest_try_from false rq) (fun r =>
  attempt (Open_node_id r) (fun node_id =>
  with_node id node_id (fun node =>
  with_trait id (u_as_file U node) (NOT_SUPPORTED os) (
  call id (u_open U node rq) (fun result =>
  POpenFile (or_handle result) (fun handle_id =>
  reply id (AOk (ROpenOut {| oo_fh := handle_id; oo_open_flags := or_open_flags result |}))))))))).

(** fuse-vfs/fuse-vfs.rs:668-700 [opendir] *)
Definition do_opendir (rq : Request) : prog :=
  attempt (header_request_id rq) (fun id =>
  attempt (OpendirRequest_try_from rq) (fun r =>
  attempt (Opendir_node_id r) (fun node_id =>
  with_node id node_id (fun node =>
  with_trait id (u_as_directory U node) (NOT_DIRECTORY os) (
  call id (u_opendir U node rq) (fun result =>
  POpenDir (or_handle result) (fun handle_id =>
  reply id (AOk (ROpenOut {| oo_fh := handle_id; oo_open_flags := or_open_flags result |}))))))))).

(** [get_file] and replying with its error, fuse-vfs/fuse-vfs.rs:715-718,
    900-903 *)
Definition with_file (id node_id h : N) (k : FH -> prog) : prog :=
  PGetFile node_id h (fun o => match o with
    | Some f => k f | None => reply id (AErr (INVALID_ARGUMENT os)) end).
(** [get_dir] and replying with its error, fuse-vfs/fuse-vfs.rs:744-747, 772-775 *)
Definition with_dir (id node_id h : N) (k : DH -> prog) : prog :=
  PGetDir node_id h (fun o => match o with
    | Some d => k d | None => reply id (AErr (INVALID_ARGUMENT os)) end).

(** fuse-vfs/fuse-vfs.rs:702-729 [read] *)
Definition do_read (rq : Request) : prog :=
  attempt (header_request_id rq) (fun id =>
  attempt (ReadRequest_try_from false cf rq) (fun r =>
  attempt (Read_node_id r) (fun node_id =>
  attempt (Read_handle r) (fun h =>
  with_file id node_id h (fun f =>
  with_trait id (u_as_read_handle U f) (NOT_SUPPORTED os) (
  call id (u_read U f rq) (fun data => reply id (AOkBuf data)))))))).

(** fuse-vfs/fuse-vfs.rs:731-757 [readdir] *)
Definition do_readdir (rq : Request) : prog :=
  attempt (header_request_id rq) (fun id =>
  attempt (ReaddirRequest_try_from cf rq) (fun r =>
  attempt (Readdir_node_id r) (fun node_id =>
  attempt (Readdir_handle r) (fun h =>
  with_dir id node_id h (fun d =>
  with_trait id (u_as_readdir_handle U d) (NOT_SUPPORTED os) (
  call id (u_readdir U d rq) (fun entries => reply id (AOkBuf entries)))))))).

(** fuse-vfs/fuse-vfs.rs:759-785 [readdirplus] *)
Definition do_readdirplus (rq : Request) : prog :=
  attempt (header_request_id rq) (fun id =>
  attempt (ReaddirplusRequest_try_from cf rq) (fun r =>
  attempt (Readdir_node_id r) (fun node_id =>
  attempt (Readdir_handle r) (fun h =>
  with_dir id node_id h (fun d =>
  with_trait id (u_as_readdirplus_handle U d) (NOT_SUPPORTED os) (
  call id (u_readdirplus U d rq) (fun entries => reply id (AOkBuf entries)))))))).

(** fuse-vfs/fuse-vfs.rs:787-808 [readlink]; a CStr is given by its bytes
    without the NUL, which is what [to_bytes] returns *)
Definition do_readlink (rq : Request) : prog :=
  attempt (header_request_id rq) (fun id =>
  attempt (ReadlinkRequest_try_from rq) (fun node_id =>
  with_node id node_id (fun node =>
  with_trait id (u_as_symlink U node) (NOT_SUPPORTED os) (
  call id (u_readlink U node rq) (fun target => reply id (AOkBuf target)))))).

(** fuse-vfs/fuse-vfs.rs:810-836 [release]; lines 821-834 run under the
    write lock *)
Definition do_release (rq : Request) : prog :=
  attempt (header_request_id rq) (fun id =>
  attempt (ReleaseRequest_try_from false cf rq) (fun r =>
  attempt (Release_node_id r) (fun node_id =>
  attempt (Release_handle r) (fun h =>
  PReleaseFile node_id h rq (fun o =>
  match o with
  | NoHandle => reply id (AErr (INVALID_ARGUMENT os))
  | ReleaseFailed e => reply id (AErr e)
  | Released => reply id AOkEmpty
  end))))).

(** fuse-vfs/fuse-vfs.rs:838-864 [releasedir]; lines 849-862 run under the
    write lock *)
Definition do_releasedir (rq : Request) : prog :=
  attempt (header_request_id rq) (fun id =>
  attempt (ReleasedirRequest_try_from cf rq) (fun r =>
  attempt (Releasedir_node_id r) (fun node_id =>
  attempt (Releasedir_handle r) (fun h =>
  PReleaseDir node_id h rq (fun o =>
  match o with
  | NoHandle => reply id (AErr (INVALID_ARGUMENT os))
  | ReleaseFailed e => reply id (AErr e)
  | Released => reply id AOkEmpty
  end))))).

(** fuse-vfs/fuse-vfs.rs:866-885 [statfs] *)
Definition do_statfs (rq : Request) : prog :=
  attempt (header_request_id rq) (fun id =>
  attempt (StatfsRequest_try_from rq) (fun node_id =>
  with_node id node_id (fun node =>
  call id (u_statfs U node rq) (fun st => reply id (AOk (RStatfsOut st)))))).

(** fuse-vfs/fuse-vfs.rs:887-915 [write] *)
Definition do_write (rq : Request) : prog :=
  attempt (header_request_id rq) (fun id =>
  attempt (WriteRequest_try_from false cf rq) (fun r =>
  attempt (Write_node_id r) (fun node_id =>
  attempt (Write_handle r) (fun h =>
  with_file id node_id h (fun f =>
  with_trait id (u_as_write_handle U f) (NOT_SUPPORTED os) (
  call id (u_write U f rq) (fun size => reply id (AOk (RWriteOut size))))))))).

(** fuse-vfs/fuse-vfs.rs:484-513 [Filesystem::dispatch]; [None] is returned
    for other opcodes *)
Definition dispatch (rq : Request) : option prog :=
  match header_opcode rq with
  | Ret opcode =>
    match_arms
      [(FUSE_READ, Some (do_read rq)); (FUSE_WRITE, Some (do_write rq));
       (FUSE_BATCH_FORGET, Some (do_forget rq)); (FUSE_FORGET, Some (do_forget rq));
       (FUSE_GETATTR, Some (do_getattr rq)); (FUSE_GETXATTR, Some (do_getxattr rq));
       (FUSE_LISTXATTR, Some (do_listxattr rq)); (FUSE_LOOKUP, Some (do_lookup rq));
       (FUSE_OPEN, Some (do_open rq)); (FUSE_OPENDIR, Some (do_opendir rq));
       (FUSE_READDIR, Some (do_readdir rq)); (FUSE_READDIRPLUS, Some (do_readdirplus rq));
       (FUSE_READLINK, Some (do_readlink rq)); (FUSE_RELEASE, Some (do_release rq));
       (FUSE_RELEASEDIR, Some (do_releasedir rq)); (FUSE_STATFS, Some (do_statfs rq))]
      None opcode
  | _ => Some PUb
  end.

(** ** Running *)

(** What one atomic action of a handler (fuse-vfs/fuse-vfs.rs:515-915) was, with
    the values it returned. *)
Inductive event :=
| EvUser
| EvNodeGet (node_id : N) (found : option Node)
| EvNodeAdd (node_id : N) (node : Node)
| EvNodeForget (items : list (N * N))
| EvOpenFile (h : FH) (handle_id : N)
| EvOpenDir (h : DH) (handle_id : N)
| EvGetFile (h : N) (found : option FH)
| EvGetDir (h : N) (found : option DH)
| EvReleaseFile (h : N) (found : option FH) (r : released)
| EvReleaseDir (h : N) (found : option DH) (r : released)
| EvSend (buf : SendBuf) (r : send_event)
| EvPanic.

(** One action of a handler (fuse-vfs/fuse-vfs.rs:515-915); [None] if it has returned or crashed.  [ev] is
    what the socket answers if the action is a [send].  A counter overflow
    makes the thread panic. *)
Definition exec (p : prog) (s : vfs) (w : W) (ev : send_event) : option (event * prog * vfs * W) :=
  let checks := cf_overflow_checks cf in
  match p with
  | PDone _ | PPanic | PUb => None
  | PUser f k => let '(w, a) := f w in Some (EvUser, k a, s, w)
  | PNodeGet i k =>
    let o := NodeMap_get i (v_nodes s) in Some (EvNodeGet i o, k o, s, w)
  | PNodeAdd i n k =>
    match NodeMap_add checks i n (v_nodes s) with
    | Some m => Some (EvNodeAdd i n, k, with_nodes s m, w)
    | None => Some (EvPanic, PPanic, s, w)
    end
  | PNodeForget items k =>
    Some (EvNodeForget items, k, with_nodes s (NodeMap_forget items (v_nodes s)), w)
  | POpenFile h k =>
    match HandlesMap_open_file checks h s with
    | Some (i, s) => Some (EvOpenFile h i, k i, s, w)
    | None => Some (EvPanic, PPanic, s, w)
    end
  | POpenDir h k =>
    match HandlesMap_open_dir checks h s with
    | Some (i, s) => Some (EvOpenDir h i, k i, s, w)
    | None => Some (EvPanic, PPanic, s, w)
    end
  | PGetFile i h k =>
    let o := HandlesMap_get_file i h s in Some (EvGetFile h o, k o, s, w)
  | PGetDir i h k =>
    let o := HandlesMap_get_dir i h s in Some (EvGetDir h o, k o, s, w)
  | PReleaseFile i h rq k =>
    match HandlesMap_get_file i h s with
    | None => Some (EvReleaseFile h None NoHandle, k NoHandle, s, w)
    | Some f =>
      let '(w, r) := u_release U f rq w in
      match r with
      | Some e => Some (EvReleaseFile h (Some f) (ReleaseFailed e), k (ReleaseFailed e), s, w)
      | None => Some (EvReleaseFile h (Some f) Released, k Released, HandlesMap_close_file i h s, w)
      end
    end
  | PReleaseDir i h rq k =>
    match HandlesMap_get_dir i h s with
    | None => Some (EvReleaseDir h None NoHandle, k NoHandle, s, w)
    | Some d =>
      let '(w, r) := u_releasedir U d rq w in
      match r with
      | Some e => Some (EvReleaseDir h (Some d) (ReleaseFailed e), k (ReleaseFailed e), s, w)
      | None => Some (EvReleaseDir h (Some d) Released, k Released, HandlesMap_close_dir i h s, w)
      end
    end
  | PSend buf k => Some (EvSend buf ev, k ev, s, w)
  end.

(** A server: its threads, each running a handler, and the shared state
    (fuse-vfs/fuse-vfs.rs:462-466 [Filesystem]). *)
Record server := { sv_threads : list prog; sv_vfs : vfs; sv_world : W }.

(** Replacing the program of one thread (fuse-vfs/fuse-vfs.rs:484-513). *)
Fixpoint set_thread (i : nat) (p : prog) (l : list prog) : list prog :=
  match l, i with
  | [], _ => []
  | _ :: l, O => p :: l
  | q :: l, S i => q :: set_thread i p l
  end.

(** One step of some thread, or the arrival of a request on a new one
    (fuse-vfs/fuse-vfs.rs:484-513 [dispatch]), or a change of the user's state
    by other parts of the program: the traits take [&self] and are [Sync]
    (fuse-vfs/fuse-vfs.rs:85-440), so their objects can be shared. *)
Inductive label :=
| Did (thread : nat) (e : event)
| Arrived (thread : nat) (rq : Request)
| Elsewhere.
(** the steps (fuse-vfs/fuse-vfs.rs:484-915) *)
Inductive step : server -> label -> server -> Prop :=
| step_thread i p ev e p' v v' w w' ts :
  nth_error ts i = Some p -> exec p v w ev = Some (e, p', v', w') ->
  step {| sv_threads := ts; sv_vfs := v; sv_world := w |} (Did i e)
       {| sv_threads := set_thread i p' ts; sv_vfs := v'; sv_world := w' |}
| step_request rq p v w ts :
  dispatch rq = Some p ->
  step {| sv_threads := ts; sv_vfs := v; sv_world := w |} (Arrived (length ts) rq)
       {| sv_threads := ts ++ [p]; sv_vfs := v; sv_world := w |}
| step_world v w w' ts :
  step {| sv_threads := ts; sv_vfs := v; sv_world := w |} Elsewhere
       {| sv_threads := ts; sv_vfs := v; sv_world := w' |}.

(** Any interleaving of calls of [dispatch] (fuse-vfs/fuse-vfs.rs:484-915). *)
Inductive steps : server -> list label -> server -> Prop :=
| steps_nil s : steps s [] s
| steps_snoc s tr s1 l s2 : steps s tr s1 -> step s1 l s2 -> steps s (tr ++ [l]) s2.

(** A whole handler (fuse-vfs/fuse-vfs.rs:515-915) on one thread: the actions it did and the state left.
    [ev] is the answer of the socket to the (only) [send]. *)
Inductive runs : prog -> vfs -> W -> send_event -> list event -> prog -> vfs -> W -> Prop :=
| runs_end p v w ev : exec p v w ev = None -> runs p v w ev [] p v w
| runs_act p v w ev e p1 v1 w1 l p2 v2 w2 :
  exec p v w ev = Some (e, p1, v1, w1) -> runs p1 v1 w1 ev l p2 v2 w2 ->
  runs p v w ev (e :: l) p2 v2 w2.

End Vfs.
Arguments prog : clear implicits.
Arguments user : clear implicits.
Arguments vfs : clear implicits.
Arguments event : clear implicits.
Arguments server : clear implicits.
Arguments label : clear implicits.

(** ** StaticDirectoryHandle *)

(** fuse-vfs/fuse-vfs.rs:1075-1081 [StaticDirectoryEntry] *)
Record StaticDirectoryEntry := {
  se_name : bytes; se_node_attr : fuse_attr; se_generation : N;
  se_entry_cache_timeout : Duration; se_attr_cache_timeout : Duration }.
(** fuse-vfs/fuse-vfs.rs:1085-1096 *)
Definition StaticDirectoryEntry_new (name : bytes) (node_id : N) : StaticDirectoryEntry :=
  {| se_name := name; se_node_attr := NodeAttr_new node_id; se_generation := 0;
     se_entry_cache_timeout := (0, 0); se_attr_cache_timeout := (0, 0) |}.

Section Static.
Context {E : Endian} {T : Type} (D : Dirent T).
Context (make : StaticDirectoryEntry -> N -> out (entry T)).

(** fuse-vfs/fuse-vfs.rs:1127-1138 and 1164-1174, the loops *)
Fixpoint static_loop (entries : list StaticDirectoryEntry) (offset : N) (w : writer) : out writer :=
  match entries with
  | [] => Ret w
  | e :: r =>
    dirent <- make e offset ;;
    '(ok, w) <- try_push D dirent w ;;
    if ok : bool then static_loop r (sat_add64 offset 1) w else Ret w
  end.

(** fuse-vfs/fuse-vfs.rs:1117-1142 and 1154-1178.  [addr] is the address of
    the allocated buffer; [Vec<u8>] does not promise any alignment. *)
Definition static_page (addr : N) (entries : list StaticDirectoryEntry) (offset : option N) (size : N)
  : out bytes :=
  let start_offset := match offset with Some o => o | None => 0 end in
  if nlen entries <=? start_offset then Ret []
  else
    let size := N.min size 65535 in
    let buf := repeat Byte.x00 (N.to_nat size) in
    w <- static_loop (drop start_offset entries) (sat_add64 1 start_offset) (writer_new addr buf) ;;
    Ret (take (w_position w) (w_buf w)).
End Static.

Section StaticDirectory.
Context {E : Endian}.

(** fuse-vfs/fuse-vfs.rs:1128-1134 *)
Definition static_dirent (e : StaticDirectoryEntry) (offset : N) : out (entry fuse_dirent) :=
  node_id <- NodeAttr_node_id (se_node_attr e) ;;
  let d := ReaddirEntry_new node_id (se_name e) offset in
  Ret (match FileType_from_mode (NodeAttr_mode (se_node_attr e)) with
       | Some t => ReaddirEntry_set_file_type t d
       | None => d
       end).
(** fuse-vfs/fuse-vfs.rs:1165-1169 *)
Definition static_direntplus (e : StaticDirectoryEntry) (offset : N) : out (entry fuse_direntplus) :=
  let out_entry :=
    Entry_set_attribute_cache_timeout (se_attr_cache_timeout e)
      (Entry_set_cache_timeout (se_entry_cache_timeout e)
         (Entry_set_generation (se_generation e) (Entry_new (se_node_attr e)))) in
  ReaddirplusEntry_new (se_name e) offset out_entry.

(** fuse-vfs/fuse-vfs.rs:1109-1144 [readdir] *)
Definition static_readdir := static_page Dirent_fuse_dirent static_dirent.
(** fuse-vfs/fuse-vfs.rs:1146-1180 [readdirplus] *)
Definition static_readdirplus := static_page Dirent_fuse_direntplus static_direntplus.
End StaticDirectory.
