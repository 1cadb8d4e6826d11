(** What can be observed of a [fuse_vfs::Filesystem]: the history of what its
    threads did with nodes and handles, and the messages the client gets. *)

From Verif Require Import Base CoreModel DecodeModel OpsModel ReplyModel ServerModel ReplySpec VfsModel.
From Coq Require Import List NArith ZArith Bool.
Import ListNotations.
Open Scope N_scope.

Section Spec.
Context {E : Endian} {W Node FH DH : Type}.
Notation label := (label Node FH DH).
Notation event := (event Node FH DH).
Notation prog := (prog W Node FH DH).
Notation server := (server W Node FH DH).

(** A file system with this root that has not served any request. *)
Definition start (root : Node) (w : W) : server :=
  {| sv_threads := []; sv_vfs := Filesystem_new root; sv_world := w |}.

(** ** Nodes *)

Definition count {A} (f : A -> N) (l : list A) : N := fold_right (fun a n => f a + n) 0 l.

(** How often a node was registered under [id] by a lookup. *)
Definition lookups (id : N) : list label -> N :=
  count (fun l => match l with
                  | Did _ (EvNodeAdd i _) => if i =? id then 1 else 0
                  | _ => 0 end).
(** How many items of FORGET and BATCH_FORGET requests named [id]. *)
Definition named (id : N) (items : list (N * N)) : N :=
  count (fun item => if fst item =? id then 1 else 0) items.
Definition forgets (id : N) : list label -> N :=
  count (fun l => match l with Did _ (EvNodeForget items) => named id items | _ => 0 end).
(** How many lookups of [id] the client gave up in them. *)
Definition given_up (id : N) : list label -> N :=
  count (fun l => match l with
                  | Did _ (EvNodeForget items) =>
                    count (fun item => if fst item =? id then snd item else 0) items
                  | _ => 0 end).
(** Every item gives up at least one lookup. *)
Definition real_items (l : label) : Prop :=
  match l with
  | Did _ (EvNodeForget items) => Forall (fun item => 1 <= snd item) items
  | _ => True
  end.

(** There was a period until now with more lookups than forget items, or
    this is the root and it was never named in a forget item. *)
Definition resolvable (id : N) (tr : list label) : Prop :=
  (id = 1 /\ forgets id tr = 0) \/
  exists before since, tr = before ++ since /\ forgets id since < lookups id since.

(** [node] was registered when [id] was not resolvable, or is the root of the
    file system, and [id] was resolvable ever since. *)
Definition resolves_to (root : Node) (id : N) (tr : list label) (node : Node) : Prop :=
  exists before since,
    tr = before ++ since /\
    ((before = [] /\ id = 1 /\ node = root) \/
     exists before' i, before = before' ++ [Did i (EvNodeAdd id node)] /\ ~ resolvable id before') /\
    forall s1 s2, since = s1 ++ s2 -> resolvable id (before ++ s1).

(** ** Handles *)

(** All handles ever given out. *)
Definition handles (tr : list label) : list N :=
  flat_map (fun l => match l with
                     | Did _ (EvOpenFile _ h) => [h]
                     | Did _ (EvOpenDir _ h) => [h]
                     | _ => [] end) tr.
(** [h] was given out for [f] and not released since. *)
Definition live_file (tr : list label) (h : N) (f : FH) : Prop :=
  exists before i since, tr = before ++ Did i (EvOpenFile f h) :: since /\
    ~ exists j g, In (Did j (EvReleaseFile h g Released)) since.
Definition live_dir (tr : list label) (h : N) (d : DH) : Prop :=
  exists before i since, tr = before ++ Did i (EvOpenDir d h) :: since /\
    ~ exists j g, In (Did j (EvReleaseDir h g Released)) since.

(** ** Requests *)

(** The requests fuse-vfs serves, by opcode. *)
Definition vfs_type (opcode : N) : option rtype :=
  if opcode =? 1 then Some RLookup
  else if opcode =? 2 then Some RForget
  else if opcode =? 3 then Some RGetattr
  else if opcode =? 5 then Some RReadlink
  else if opcode =? 14 then Some ROpen
  else if opcode =? 15 then Some RRead
  else if opcode =? 16 then Some RWrite
  else if opcode =? 17 then Some RStatfs
  else if opcode =? 18 then Some RRelease
  else if opcode =? 22 then Some RGetxattr
  else if opcode =? 23 then Some RListxattr
  else if opcode =? 27 then Some ROpendir
  else if opcode =? 28 then Some RReaddir
  else if opcode =? 29 then Some RReleasedir
  else if opcode =? 42 then Some RForget
  else if opcode =? 44 then Some RReaddirplus
  else None.

(** ** Messages *)

(** The client reads the buffer [b] given to [send] as a reply. *)
Definition reads_as (b : SendBuf) (id : N) (error : Z) (payload : bytes) : Prop :=
  exists m, on_wire b = Ret m /\ SendBuf_len b = nlen m /\ kernel_read m = Some (Reply id error payload).

(** The buffers a handler gave to [send]. *)
Definition sent (l : list event) : list SendBuf :=
  flat_map (fun e => match e with EvSend b _ => [b] | _ => [] end) l.
(** What the given thread did in a history. *)
Definition of_thread (i : nat) (tr : list label) : list event :=
  flat_map (fun l => match l with Did j e => if Nat.eqb j i then [e] else [] | _ => [] end) tr.

End Spec.
