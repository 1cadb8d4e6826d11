(** What happens when user code panics, in fuse-vfs and in the worker threads
    of fuse-std.

    A panic unwinds the thread it happens in.  It leaves the user's state as
    far changed as it was.  A write guard dropped while unwinding poisons its
    [RwLock] for ever, and [read().unwrap()] or [write().unwrap()] of a
    poisoned lock panics (std::sync, not code of this repository).  Left out:
    panics while a value of the user is dropped, and panics with
    [panic = "abort"]. *)

From Verif Require Import Base Kernel CoreModel DecodeModel OpsModel ReplyModel ServerModel VfsModel ThreadModel.
From Coq Require Import List NArith ZArith Bool.
Import ListNotations.
Open Scope N_scope.

Section Poison.
Context {E : Endian} {W Node FH DH : Type} (U : user W Node FH DH) (os : OsErrors) (cf : config).

(** The two locks: fuse-vfs/fuse-vfs.rs:922-924 [nodes], 462-466 [handles] *)
Inductive lock := LNodes | LHandles.
(** The lock an action takes: fuse-vfs/fuse-vfs.rs:947, 966, 982 [nodes]; 659,
    693, 712, 741, 769, 821, 849, 897 [handles] *)
Definition lock_of (p : prog W Node FH DH) : option lock :=
  match p with
  | PNodeGet _ _ | PNodeAdd _ _ _ | PNodeForget _ _ => Some LNodes
  | POpenFile _ _ | POpenDir _ _ | PGetFile _ _ _ | PGetDir _ _ _
  | PReleaseFile _ _ _ _ | PReleaseDir _ _ _ _ => Some LHandles
  | _ => None
  end.
(** Does the action call user code in this state?  [release] and [releasedir]
    are called with the write lock held (fuse-vfs/fuse-vfs.rs:829, 857), all
    others without a lock. *)
Definition calls_user (p : prog W Node FH DH) (v : vfs Node FH DH) : bool :=
  match p with
  | PUser _ _ => true
  | PReleaseFile n h _ _ => match HandlesMap_get_file n h v with Some _ => true | None => false end
  | PReleaseDir n h _ _ => match HandlesMap_get_dir n h v with Some _ => true | None => false end
  | _ => false
  end.

(** A server with the state of its locks (fuse-vfs/fuse-vfs.rs:462-466,
    922-924). *)
Record pserver := { ps_server : server W Node FH DH; ps_poisoned : lock -> bool }.
(** The locks after a panic of a thread that holds [l] for writing, if any
    (fuse-vfs/fuse-vfs.rs:659, 693, 821, 849, 947) *)
Definition poison (l : option lock) (f : lock -> bool) : lock -> bool :=
  fun k => f k || match l, k with Some LNodes, LNodes => true | Some LHandles, LHandles => true | _, _ => false end.
(** Does taking the lock for the action panic (fuse-vfs/fuse-vfs.rs:659-982,
    the [unwrap]s)? *)
Definition blocked (p : prog W Node FH DH) (f : lock -> bool) : bool :=
  match lock_of p with Some l => f l | None => false end.

(** What happened: a step as before; user code of the given thread panicked,
    with the handle table locked or not; taking a lock panicked
    (fuse-vfs/fuse-vfs.rs:484-982). *)
Inductive plabel :=
| Ran (l : label Node FH DH)
| UserPanics (thread : nat) (in_release : bool)
| LockPanics (thread : nat) (l : lock).

(** One step (fuse-vfs/fuse-vfs.rs:484-982).  A counter overflow is a panic under
    the write lock (fuse-vfs/fuse-vfs.rs:950, 1011, 1018). *)
Inductive pstep : pserver -> plabel -> pserver -> Prop :=
| pstep_thread i p ev e p' v v' w w' ts f :
  nth_error ts i = Some p -> blocked p f = false -> exec U cf p v w ev = Some (e, p', v', w') ->
  pstep {| ps_server := {| sv_threads := ts; sv_vfs := v; sv_world := w |}; ps_poisoned := f |}
    (Ran (Did i e))
    {| ps_server := {| sv_threads := set_thread i p' ts; sv_vfs := v'; sv_world := w' |};
       ps_poisoned := match e with EvPanic => poison (lock_of p) f | _ => f end |}
| pstep_other s l s' f :
  step U os cf s l s' -> match l with Did _ _ => False | _ => True end ->
  pstep {| ps_server := s; ps_poisoned := f |} (Ran l) {| ps_server := s'; ps_poisoned := f |}
| pstep_user i p v w w' ts f :
  nth_error ts i = Some p -> blocked p f = false -> calls_user p v = true ->
  pstep {| ps_server := {| sv_threads := ts; sv_vfs := v; sv_world := w |}; ps_poisoned := f |}
    (UserPanics i match lock_of p with Some _ => true | None => false end)
    {| ps_server := {| sv_threads := set_thread i PPanic ts; sv_vfs := v; sv_world := w' |};
       ps_poisoned := poison (lock_of p) f |}
| pstep_lock i p l v w ts f :
  nth_error ts i = Some p -> lock_of p = Some l -> f l = true ->
  pstep {| ps_server := {| sv_threads := ts; sv_vfs := v; sv_world := w |}; ps_poisoned := f |}
    (LockPanics i l)
    {| ps_server := {| sv_threads := set_thread i PPanic ts; sv_vfs := v; sv_world := w |};
       ps_poisoned := f |}.

(** Any interleaving (fuse-vfs/fuse-vfs.rs:484-982). *)
Inductive psteps : pserver -> list plabel -> pserver -> Prop :=
| psteps_nil s : psteps s [] s
| psteps_snoc s tr s1 l s2 : psteps s tr s1 -> pstep s1 l s2 -> psteps s (tr ++ [l]) s2.

(** fuse-vfs/fuse-vfs.rs:470-479 [Filesystem::new]: new locks are not
    poisoned *)
Definition Filesystem_start (root : Node) (w : W) : pserver :=
  {| ps_server := {| sv_threads := []; sv_vfs := Filesystem_new root; sv_world := w |};
     ps_poisoned := fun _ => false |}.
End Poison.
Arguments pserver : clear implicits.
Arguments plabel : clear implicits.

(** ** Worker threads *)

Section Workers.
Context {E : Endian}.

(** A step of the pool (fuse-std/fuse-std.rs:131-147), or a handler called by
    worker [i] panicked, or the scope panicked *)
Inductive wlabel :=
| WRan (l : tlabel)
| WHandlerPanics (i : nat) (request : Request)
| WScopePanics.

(** Has this worker ended, in one way or the other (fuse-std/fuse-std.rs:135-143)? *)
Definition gone (w : worker) : bool := match w with WExit | WPanic => true | _ => false end.

(** fuse-std/fuse-std.rs:131-147 and 186-202.  [handlers.dispatch]
    (fuse/server.rs:1606, 1620) may panic; the worker has no [catch_unwind].
    [std::thread::scope] waits for all threads and panics if one of them
    did. *)
Inductive wstep (k : kind) (threads : N) : pool -> wlabel -> pool -> Prop :=
| wstep_ran s l s' : tstep k threads s l s' -> wstep k threads s (WRan l) s'
| wstep_panic c ws ch i buf rq :
  nth_error ws i = Some (WDispatch buf rq) ->
  wstep k threads {| p_caller := c; p_workers := ws; p_channel := ch |} (WHandlerPanics i rq)
    {| p_caller := c; p_workers := set_worker i WPanic ws; p_channel := ch |}
| wstep_scope ws ch :
  forallb gone ws = true -> forallb exited ws = false ->
  wstep k threads {| p_caller := MScope; p_workers := ws; p_channel := ch |} WScopePanics
    {| p_caller := MPanic; p_workers := ws; p_channel := ch |}.

(** Executions of fuse-std/fuse-std.rs:131-147, the last step last *)
Inductive wexec (k : kind) (threads : N) : pool -> list wlabel -> pool -> Prop :=
| wexec_nil s : wexec k threads s [] s
| wexec_snoc s tr s' l s'' :
  wexec k threads s tr s' -> wstep k threads s' l s'' -> wexec k threads s (tr ++ [l]) s''.
End Workers.
