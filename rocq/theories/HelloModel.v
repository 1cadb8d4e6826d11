(** Model of examples/helloworld/helloworld.rs: a file system made with this
    crate, with its handlers and its use of the connection and of fuse-std.

    [unwrap] of an error or of [None] is a panic.  Left out: the mount call
    before the handshake (see HostModel.v), failure to allocate memory. *)

From Coq Require Import String.
From Verif Require Import Base Kernel CoreModel DecodeModel OpsModel ReplyModel ListingModel ServerModel
  ThreadModel HostModel.
From Coq Require Import List NArith ZArith Bool.
Import ListNotations.
Open Scope N_scope.

(** [unwrap] (examples/helloworld/helloworld.rs:69, 88, ...): every error is a
    panic *)
Definition unwrap {A} (m : out A) : out A := match m with Fail _ => Panic | _ => m end.

(** examples/helloworld/helloworld.rs:30 [HELLO_WORLD] *)
Definition HELLO_WORLD : bytes := txt "Hello, world!" ++ [x0a].

(** examples/helloworld/helloworld.rs:35-37 [HelloTxt::name] *)
Definition HelloTxt_name : out bytes :=
  match NodeName_from_bytes (txt "hello.txt") with inl n => Ret n | inr _ => Panic end.
(** examples/helloworld/helloworld.rs:39-41 [HelloTxt::node_id] *)
Definition HelloTxt_node_id : out N := match NodeId_new 100 with Some n => Ret n | None => Panic end.

(** The errors used (fuse/os/linux.rs:205, 220, 245) *)
Record HelloErrors := { HE_INVALID_ARGUMENT : Z; HE_NOT_FOUND : Z; HE_UNIMPLEMENTED : Z }.
(** fuse/os/linux.rs:205, 220, 245: EINVAL, ENOENT, ENOSYS of Linux *)
Definition hello_linux : HelloErrors :=
  {| HE_INVALID_ARGUMENT := linux_fuse_error 22; HE_NOT_FOUND := linux_fuse_error 2;
     HE_UNIMPLEMENTED := linux_fuse_error 38 |}.
(** fuse/os/freebsd.rs:103, 118, 143: EINVAL, ENOENT, ENOSYS of FreeBSD *)
Definition hello_freebsd : HelloErrors :=
  {| HE_INVALID_ARGUMENT := -22; HE_NOT_FOUND := -2; HE_UNIMPLEMENTED := -78 |}.

Section Hello.
(** [getuid], [getgid]: the results of the libc functions
    (examples/helloworld/helloworld.rs:188-194); [vec_addr]: the address of
    the listing's buffer, made by [vec!] (162) *)
Context {E : Endian} (os : HelloErrors) (getuid getgid : N) (vec_addr : N) (cf : config).

(** examples/helloworld/helloworld.rs:43-49 [HelloTxt::set_attr] *)
Definition HelloTxt_set_attr (attr : fuse_attr) : fuse_attr :=
  let attr := NodeAttr_set_user_id getuid attr in
  let attr := NodeAttr_set_group_id getgid attr in
  let attr := NodeAttr_set_mode (FileMode_bitor (FileType_as_mode Regular) 420) attr in
  let attr := NodeAttr_set_size (nlen HELLO_WORLD) attr in
  NodeAttr_set_link_count 1 attr.

(** examples/helloworld/helloworld.rs:63-65 [unimplemented] *)
Definition Hello_unimplemented (rq : Request) : out answer := Ret (AErr (HE_UNIMPLEMENTED os)).

(** examples/helloworld/helloworld.rs:67-84 [lookup] *)
Definition Hello_lookup (rq : Request) : out answer :=
  request <- unwrap (LookupRequest_try_from rq) ;;
  if negb (NodeId_is_root (pn_parent_id request)) then Ret (AErr (HE_NOT_FOUND os))
  else
    name <- HelloTxt_name ;;
    if list_eq_dec Byte.byte_eq_dec (pn_name request) name then
      node_id <- HelloTxt_node_id ;;
      let attr := HelloTxt_set_attr (NodeAttr_new node_id) in
      Ret (AOk (REntryOut (Entry_new attr)))
    else Ret (AErr (HE_NOT_FOUND os)).

(** [fuse_attr_out::new()] with [attr] replaced
    (examples/helloworld/helloworld.rs:97-98) *)
Definition attr_out (attr : fuse_attr) : fuse_attr_out :=
  {| ao_attr_valid := 0; ao_attr_valid_nsec := 0; ao_attr := attr |}.

(** examples/helloworld/helloworld.rs:86-112 [getattr] *)
Definition Hello_getattr (rq : Request) : out answer :=
  request <- unwrap (GetattrRequest_try_from cf rq) ;;
  node_id <- Getattr_node_id request ;;
  let attr := NodeAttr_new node_id in
  if NodeId_is_root node_id then
    let attr := NodeAttr_set_user_id getuid attr in
    let attr := NodeAttr_set_group_id getgid attr in
    let attr := NodeAttr_set_mode (FileMode_bitor (FileType_as_mode Directory) 493) attr in
    let attr := NodeAttr_set_link_count 2 attr in
    Ret (AOk (RAttrOut (attr_out attr)))
  else
    hello <- HelloTxt_node_id ;;
    if node_id =? hello then Ret (AOk (RAttrOut (attr_out (HelloTxt_set_attr attr))))
    else Ret (AErr (HE_NOT_FOUND os)).

(** [fuse_open_out::new()] with [fh] replaced
    (examples/helloworld/helloworld.rs:121-122, 143-144) *)
Definition open_out (fh : N) : fuse_open_out := {| oo_fh := fh; oo_open_flags := 0 |}.

(** examples/helloworld/helloworld.rs:114-124 [open] *)
Definition Hello_open (rq : Request) : out answer :=
  request <- unwrap (OpenRequest_try_from false rq) ;;
  node_id <- Open_node_id request ;;
  hello <- HelloTxt_node_id ;;
  if negb (node_id =? hello) then Ret (AErr (HE_NOT_FOUND os))
  else Ret (AOk (ROpenOut (open_out 1001))).

(** examples/helloworld/helloworld.rs:126-134 [read] *)
Definition Hello_read (rq : Request) : out answer :=
  request <- unwrap (ReadRequest_try_from false cf rq) ;;
  handle <- Read_handle request ;;
  if negb (handle =? 1001) then Ret (AErr (HE_INVALID_ARGUMENT os))
  else Ret (AOkBuf HELLO_WORLD).

(** examples/helloworld/helloworld.rs:136-146 [opendir] *)
Definition Hello_opendir (rq : Request) : out answer :=
  request <- unwrap (OpendirRequest_try_from rq) ;;
  node_id <- Opendir_node_id request ;;
  if negb (NodeId_is_root node_id) then Ret (AErr (HE_NOT_FOUND os))
  else Ret (AOk (ROpenOut (open_out 1002))).

(** examples/helloworld/helloworld.rs:148-175 [readdir] *)
Definition Hello_readdir (rq : Request) : out answer :=
  request <- unwrap (ReaddirRequest_try_from cf rq) ;;
  handle <- Readdir_handle request ;;
  if negb (handle =? 1002) then Ret (AErr (HE_INVALID_ARGUMENT os))
  else
    offset <- Readdir_offset request ;;
    match offset with
    | Some _ => Ret AOkEmpty
    | None =>
      size <- Readdir_size request ;;
      let buf := repeat x00 (N.to_nat size) in
      let entries := writer_new vec_addr buf in
      node_id <- HelloTxt_node_id ;;
      name <- HelloTxt_name ;;
      let entry := ReaddirEntry_new node_id name 1 in
      let entry := ReaddirEntry_set_file_type Regular entry in
      '(ok, entries) <- try_push Dirent_fuse_dirent entry entries ;;
      if negb ok then Panic
      else
        listing <- into_entries entries ;;
        Ret (AOk (RReaddirEntries listing))
    end.

(** examples/helloworld/helloworld.rs:177-185 [releasedir] *)
Definition Hello_releasedir (rq : Request) : out answer :=
  request <- unwrap (ReleasedirRequest_try_from cf rq) ;;
  handle <- Releasedir_handle request ;;
  if negb (handle =? 1002) then Ret (AErr (HE_INVALID_ARGUMENT os))
  else Ret AOkEmpty.

(** The methods of examples/helloworld/helloworld.rs:58-186 *)
Definition Hello_overrides (m : fuse_method) : bool :=
  match m with
  | M_unimplemented | M_lookup | M_getattr | M_open | M_read | M_opendir | M_readdir | M_releasedir => true
  | _ => false
  end.
(** and what they do (examples/helloworld/helloworld.rs:63-185); methods not overridden are never called, see
    [fuse_user_method] *)
Definition Hello_method (m : fuse_method) (rq : Request) : out answer :=
  match m with
  | M_lookup => Hello_lookup rq
  | M_getattr => Hello_getattr rq
  | M_open => Hello_open rq
  | M_read => Hello_read rq
  | M_opendir => Hello_opendir rq
  | M_readdir => Hello_readdir rq
  | M_releasedir => Hello_releasedir rq
  | _ => Hello_unimplemented rq
  end.

(** [FuseHandlers::dispatch] (fuse/server.rs:832-887) of this file system: the
    buffers given to the socket's [send] and how the handler ended, if the
    socket answers [ev].  Every handler ends with one reply and [unwrap] of
    its result (examples/helloworld/helloworld.rs:64, 72, 83, ...). *)
Definition Hello_dispatch (rq : Request) (ev : send_event) : list SendBuf * out unit :=
  match (m <- FuseHandlers_dispatch rq ;;
         match fuse_user_method Hello_overrides m with
         | None => Ret None
         | Some m =>
           id <- header_request_id rq ;;
           a <- Hello_method m rq ;;
           Ret (Some (answer_call (cf_minor cf) id a))
         end) with
  | Ret None => ([], Ret tt)
  | Ret (Some (Refuse _)) => ([], Panic)
  | Ret (Some (Call b)) => ([b], match ev with SendOk => Ret tt | SendFails _ => Panic end)
  | Fail _ | Panic => ([], Panic)
  | Ub => ([], Ub)
  end.
End Hello.

(** examples/helloworld/helloworld.rs:228: the connection made with the
    default options; a failed handshake is a panic.  The layouts used by the
    connection are those of the negotiated version. *)
Definition Hello_connect {E : Endian} (usize_max : N) (xs : list exchange) :=
  FuseServer_connect usize_max FuseServer_new xs.
(** The connection's layout (fuse/server.rs:240-280) as the configuration the
    conversions use; [checks]: compiled with overflow checks *)
Definition connection_config (checks : bool) (c : FuseConnection) : config :=
  {| cf_minor := fl_version_minor (fc_layout c); cf_setxattr_ext := have_setxattr_ext (fc_layout c);
     cf_overflow_checks := checks |}.
