(** Model of fuse-std/fuse-std.rs: the multi-threaded serve functions and
    their receive buffers.

    The workers of [serve_fuse]/[serve_cuse] and the calling thread run
    interleaved.  One step is one call that matters to other threads:
    receiving from the socket, dispatching, sending to the error channel,
    spawning, returning.  The socket is the environment: it may give any
    worker waiting in [recv] any message or error, each message to one worker.
    [handlers.dispatch] is user code and assumed to return.  Left out: panics
    of user code (see PanicModel), failure to spawn a thread. *)

From Verif Require Import Base Kernel CoreModel DecodeModel OpsModel ReplyModel ServerModel.
From Coq Require Import List NArith ZArith Bool.
Import ListNotations.
Open Scope N_scope.

(** ** Buffers *)

(** fuse-std/fuse-std.rs:213-216 [AlignedBuf] with the memory it owns *)
Record AlignedBuf := { ab_ptr : N; ab_len : N; ab_mem : bytes }.
(** core::alloc::Layout, of a size and an alignment (fuse-std/fuse-std.rs:242) *)
Record Layout := { ly_size : N; ly_align : N }.
(** [Layout::from_size_align] (fuse-std/fuse-std.rs:242) for a power of two [align]: fails if the size
    rounded up to the alignment exceeds [isize::MAX] *)
Definition Layout_from_size_align (isize_max size align : N) : option Layout :=
  if isize_max - (align - 1) <? size then None else Some {| ly_size := size; ly_align := align |}.

(** fuse-std/fuse-std.rs:240-248 [AlignedBuf::with_capacity]; [alloc] is the
    global allocator: an address and the (uninitialised) memory there, or a
    null pointer, for which [handle_alloc_error] does not return. *)
Definition AlignedBuf_with_capacity (isize_max : N) (alloc : Layout -> option (N * bytes)) (capacity : N)
  : out AlignedBuf :=
  let capacity := N.max capacity FUSE_MIN_READ_BUFFER in
  match Layout_from_size_align isize_max capacity 8 with
  | None => Panic
  | Some layout =>
    match alloc layout with
    | Some (ptr, mem) => Ret {| ab_ptr := ptr; ab_len := capacity; ab_mem := mem |}
    | None => Panic
    end
  end.
(** fuse-std/fuse-std.rs:234-236 [AlignedBuf::new] *)
Definition AlignedBuf_new (isize_max : N) (alloc : Layout -> option (N * bytes)) : out AlignedBuf :=
  AlignedBuf_with_capacity isize_max alloc FUSE_MIN_READ_BUFFER.
(** fuse-std/fuse-std.rs:222-229 [drop]: the address and layout given to
    [dealloc] *)
Definition AlignedBuf_drop (b : AlignedBuf) : N * Layout :=
  (ab_ptr b, {| ly_size := ab_len b; ly_align := 8 |}).
(** fuse-std/fuse-std.rs:253-257 [as_slice], 262-266 [as_mut_slice]: a slice
    reaching beyond the owned memory is undefined behaviour *)
Definition AlignedBuf_as_slice (b : AlignedBuf) : out bytes :=
  if nlen (ab_mem b) <? ab_len b then Ub else Ret (take (ab_len b) (ab_mem b)).
(** fuse-std/fuse-std.rs:269-285 [as_aligned_slice], [as_aligned_slice_mut]:
    [new_unchecked] (fuse/io.rs:60-62, 126-130) with a slice that is not
    aligned to 8 bytes is undefined behaviour *)
Definition AlignedBuf_as_aligned_slice (b : AlignedBuf) : out bytes :=
  s <- AlignedBuf_as_slice b ;;
  match AlignedSlice_new (ab_ptr b) s with Some s => Ret s | None => Ub end.

(** ** Workers *)

Section Threads.
Context {E : Endian}.

(** FUSE or CUSE: [serve_fuse] (fuse-std/fuse-std.rs:112-148) or [serve_cuse]
    (167-203), which differ only in the connection *)
Inductive kind := Fuse | Cuse.

(** fuse-std/fuse-std.rs:76-91 [server_threads]; [parallelism] is the result
    of [available_parallelism] *)
Definition server_threads (parallelism : option N) : N :=
  N.min (match parallelism with Some n => n | None => 1 end) 16.

(** fuse-std/fuse-std.rs:205-210 [is_fatal_error] *)
Definition is_fatal_error (err : ServerError) : bool :=
  match err with SrvRequest _ => false | _ => true end.

(** Where a worker (fuse-std/fuse-std.rs:135-143) is: about to receive or waiting in [recv]; with a request
    to dispatch; with an error to send; returned (its sender dropped);
    crashed *)
Inductive worker :=
| WRecv (buf : bytes) | WDispatch (buf : bytes) (request : Request) | WSend (buf : bytes) (err : ServerError)
| WExit | WPanic | WUb.

(** fuse/server.rs:1318-1330 [FuseConnection::recv], 1179-1187
    [CuseConnection::recv], and what the loops 1599-1608 [cuse_serve_local],
    1614-1623 [fuse_serve_local] and fuse-std/fuse-std.rs:136-142, 191-197 do
    next *)
Definition after_recv (k : kind) (buf : bytes) (ev : recv_event) : worker :=
  match ev with
  | RecvFails (RE_ConnectionClosed e) =>
    match k with Fuse => WExit | Cuse => WSend buf (SrvRecv (RE_ConnectionClosed e)) end
  | RecvFails e => WSend buf (SrvRecv e)
  | Message msg =>
    let '(buf, r) := recv_request buf msg in
    match r with
    | Ret request => WDispatch buf request
    | Fail e => WSend buf (SrvRequest e)
    | Panic => WPanic
    | Ub => WUb
    end
  end.
(** fuse-std/fuse-std.rs:136-142, 191-197 after [send] has returned *)
Definition after_send (buf : bytes) (err : ServerError) : worker :=
  if is_fatal_error err then WExit else WRecv buf.

(** The thread that called [serve_fuse] (fuse-std/fuse-std.rs:131-145): spawning, with the buffers not yet
    handed out; waiting for the end of [thread::scope]; returned; crashed *)
Inductive caller := MSpawn (ii : N) (recv_bufs : list bytes) | MScope | MReturned | MPanic.

(** fuse-std/fuse-std.rs:123-131: [threads] is the number of threads and the
    capacity of the channel; the
    channel holds errors nobody has received, the oldest first *)
Record pool := { p_caller : caller; p_workers : list worker; p_channel : list ServerError }.

(** fuse-std/fuse-std.rs:126-128, 181-183: allocating [count] buffers; [alloc]
    is what the allocator does in each iteration *)
Fixpoint alloc_bufs (isize_max : N) (alloc : nat -> Layout -> option (N * bytes)) (recv_buf_len : N)
  (count : nat) : out (list AlignedBuf) :=
  match count with
  | O => Ret []
  | S n => bufs <- alloc_bufs isize_max alloc recv_buf_len n ;;
           b <- AlignedBuf_with_capacity isize_max (alloc n) recv_buf_len ;; Ret (bufs ++ [b])
  end.
(** The slices of these buffers (fuse-std/fuse-std.rs:136, 278-285) *)
Fixpoint slices_of (bufs : list AlignedBuf) : out (list bytes) :=
  match bufs with
  | [] => Ret []
  | b :: bufs => s <- AlignedBuf_as_aligned_slice b ;; r <- slices_of bufs ;; Ret (s :: r)
  end.
(** fuse-std/fuse-std.rs:120-131, 175-186: the state before the first spawn.
    [as_aligned_slice_mut] is called in every iteration of the serve loops;
    here once. *)
Definition pool_new (recv_bufs : list bytes) : pool :=
  {| p_caller := MSpawn 0 recv_bufs; p_workers := []; p_channel := [] |}.
(** fuse-std/fuse-std.rs:121-131: what happens before a thread is spawned *)
Definition serve_start (isize_max : N) (parallelism : option N) (recv_buf_len : N)
    (alloc : nat -> Layout -> option (N * bytes)) : out pool :=
  bufs <- alloc_bufs isize_max alloc recv_buf_len (N.to_nat (server_threads parallelism)) ;;
  slices <- slices_of bufs ;; Ret (pool_new slices).

(** [Vec::remove(len() - 1)] (fuse-std/fuse-std.rs:134); panics for an empty
    vector *)
Fixpoint remove_last (l : list bytes) : option (list bytes * bytes) :=
  match l with
  | [] => None
  | [b] => Some ([], b)
  | a :: l => match remove_last l with Some (r, b) => Some (a :: r, b) | None => None end
  end.

(** The list with another element at one place (a step of one of the workers,
    fuse-std/fuse-std.rs:135-143) *)
Fixpoint set_worker (i : nat) (w : worker) (l : list worker) : list worker :=
  match l, i with
  | [], _ => []
  | _ :: l, O => w :: l
  | x :: l, S i => x :: set_worker i w l
  end.

(** Has this worker ended (fuse-std/fuse-std.rs:131-145, the end of the scope)? *)
Definition exited (w : worker) : bool := match w with WExit => true | _ => false end.

(** What can be seen of one step (fuse-std/fuse-std.rs:131-147) *)
Inductive tlabel :=
| TSpawn | TScope | TRecv (i : nat) (ev : recv_event) | TDispatch (i : nat) (request : Request)
| TReport (i : nat) (err : ServerError) | TReturn.

(** One step.  fuse-std/fuse-std.rs:131-147 and 186-202. *)
Inductive tstep (k : kind) (threads : N) : pool -> tlabel -> pool -> Prop :=
| step_spawn ii bufs rest buf ws ch :
  ii < threads -> remove_last bufs = Some (rest, buf) ->
  tstep k threads {| p_caller := MSpawn ii bufs; p_workers := ws; p_channel := ch |} TSpawn
    {| p_caller := MSpawn (ii + 1) rest; p_workers := ws ++ [WRecv buf]; p_channel := ch |}
| step_spawn_panic ii bufs ws ch :
  ii < threads -> remove_last bufs = None ->
  tstep k threads {| p_caller := MSpawn ii bufs; p_workers := ws; p_channel := ch |} TSpawn
    {| p_caller := MPanic; p_workers := ws; p_channel := ch |}
| step_scope ii bufs ws ch :
  threads <= ii ->
  tstep k threads {| p_caller := MSpawn ii bufs; p_workers := ws; p_channel := ch |} TScope
    {| p_caller := MScope; p_workers := ws; p_channel := ch |}
| step_recv c ws ch i buf ev :
  nth_error ws i = Some (WRecv buf) ->
  tstep k threads {| p_caller := c; p_workers := ws; p_channel := ch |} (TRecv i ev)
    {| p_caller := c; p_workers := set_worker i (after_recv k buf ev) ws; p_channel := ch |}
| step_dispatch c ws ch i buf rq :
  nth_error ws i = Some (WDispatch buf rq) ->
  tstep k threads {| p_caller := c; p_workers := ws; p_channel := ch |} (TDispatch i rq)
    {| p_caller := c; p_workers := set_worker i (WRecv buf) ws; p_channel := ch |}
(** a bounded channel: [send] waits while it is full; the receiver exists, so
    it does not fail *)
| step_send c ws ch i buf err :
  nth_error ws i = Some (WSend buf err) -> nlen ch < threads ->
  tstep k threads {| p_caller := c; p_workers := ws; p_channel := ch |} (TReport i err)
    {| p_caller := c; p_workers := set_worker i (after_send buf err) ws; p_channel := ch ++ [err] |}
(** the scope ends when every spawned thread has ended *)
| step_return ws ch :
  forallb exited ws = true ->
  tstep k threads {| p_caller := MScope; p_workers := ws; p_channel := ch |} TReturn
    {| p_caller := MReturned; p_workers := ws; p_channel := ch |}.

(** Executions of fuse-std/fuse-std.rs:131-147, the last step last *)
Inductive texec (k : kind) (threads : N) : pool -> list tlabel -> pool -> Prop :=
| texec_nil s : texec k threads s [] s
| texec_snoc s tr s' l s'' :
  texec k threads s tr s' -> tstep k threads s' l s'' -> texec k threads s (tr ++ [l]) s''.
End Threads.
