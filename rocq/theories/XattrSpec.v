(** The extended attributes of a file on Linux: how setxattr(2), getxattr(2),
    listxattr(2) and removexattr(2) become requests and what becomes of the
    replies.

    Written from the Linux sources (fs/xattr.c, fs/fuse/xattr.c), not from
    /repo.  The answers ENOSYS and EOPNOTSUPP, after which Linux asks no more,
    are left out, and so are the handlers of single namespaces (ACLs, labels). *)

From Verif Require Import Base CoreModel DecodeModel OpsModel WireSpec ReplyModel ReplySpec DeviceSpec ClientSpec TakenSpec FileSpec.
From Coq Require Import List NArith ZArith Bool.
Import ListNotations.
Open Scope N_scope.

(** [flags]: XATTR_CREATE is 1, XATTR_REPLACE is 2.  [size] is the room the
    program has; 0 asks for the size. *)
Inductive xattr_call :=
| Setxattr (name value : bytes) (flags : N)
| Getxattr (name : bytes) (size : N)
| Listxattr (size : N)
| Removexattr (name : bytes).
(** Errors are positive. *)
Inductive xattr_result :=
| XDone | XSize (n : N) | XValue (v : bytes) | XNames (l : list bytes) | XError (e : Z).

Section Calls.
Context {E : Endian} {St : Type}.

(** A file in a session; [xs_hd k] is the header of the [k]-th request. *)
Record xattr_session := {
  xs_max_write : N; xs_buf_len : N; xs_cf : config; xs_hd : nat -> req_header; xs_node : N }.
Definition good_session (x : xattr_session) : Prop :=
  N.max 8192 (80 + xs_max_write x) <= xs_buf_len x /\ xs_node x <> 0 /\
  (forall k, good_header (xs_hd x k) /\ N.odd (rh_unique (xs_hd x k)) = false /\
             rh_nodeid (xs_hd x k) = xs_node x).

(** Names are of 1 to XATTR_NAME_MAX bytes. *)
Definition name_fits (name : bytes) : bool := (0 <? nlen name) && (nlen name <=? 255).

(** [as_program]: fs/xattr.c [do_getxattr], [listxattr]: with room for the
    longest value there is no ERANGE. *)
Definition as_program (size : N) (e : Z) : xattr_result :=
  XError (if (e =? -34)%Z && (65536 <=? size) then 7%Z else (- e)%Z).

Definition linux_xattr (x : xattr_session) (prog : program St) (k : nat) (s : St) (c : xattr_call)
    : option (nat * St * xattr_result) :=
  let ask op (ok : bytes -> xattr_result) (failed : Z -> xattr_result) :=
    match exchange false (xs_max_write x) (xs_buf_len x) (xs_cf x) prog s (xs_hd x k) op with
    | None => None
    | Some (s', inl p) => Some (S k, s', ok p)
    | Some (s', inr e) => Some (S k, s', failed e)
    end in
  let failed e := XError (- e)%Z in
  match c with
  | Setxattr name value flags =>
    if 3 <? flags then Some (k, s, XError 22)
    else if negb (name_fits name) then Some (k, s, XError 34)
    else if 65536 <? nlen value then Some (k, s, XError 7)
    else ask (OSetxattr flags 0 0 name value) (fun _ => XDone) failed
  | Getxattr name size =>
    if negb (name_fits name) then Some (k, s, XError 34)
    else
      let size := N.min size 65536 in
      ask (OGetxattr size 0 name)
        (fun p => if size =? 0 then XSize (N.min (u32_at 0 p) 65536) else XValue p) (as_program size)
  | Listxattr size =>
    let size := N.min size 65536 in
    ask (OListxattr size 0)
      (fun p => if size =? 0 then XSize (linux_listxattr_size p)
                else match linux_listxattr p with inl l => XNames l | inr e => XError e end)
      (as_program size)
  | Removexattr name =>
    if negb (name_fits name) then Some (k, s, XError 34)
    else ask (ORemovexattr name) (fun _ => XDone) failed
  end.

Fixpoint linux_xattrs (x : xattr_session) (prog : program St) (k : nat) (s : St) (l : list xattr_call)
    : option (St * list xattr_result) :=
  match l with
  | [] => Some (s, [])
  | c :: l =>
    match linux_xattr x prog k s c with
    | None => None
    | Some (k, s, r) =>
      match linux_xattrs x prog k s l with
      | Some (s, rs) => Some (s, r :: rs)
      | None => None
      end
    end
  end.
End Calls.

(** ** The attributes of a file *)

Definition attributes := list (bytes * bytes).
Fixpoint attr_get (name : bytes) (a : attributes) : option bytes :=
  match a with
  | [] => None
  | (n, v) :: a => if list_eq_dec Byte.byte_eq_dec n name then Some v else attr_get name a
  end.
(** A new attribute comes last. *)
Fixpoint attr_put (name value : bytes) (a : attributes) : attributes :=
  match a with
  | [] => [(name, value)]
  | (n, v) :: a => if list_eq_dec Byte.byte_eq_dec n name then (n, value) :: a else (n, v) :: attr_put name value a
  end.
Fixpoint attr_remove (name : bytes) (a : attributes) : attributes :=
  match a with
  | [] => []
  | (n, v) :: a => if list_eq_dec Byte.byte_eq_dec n name then a else (n, v) :: attr_remove name a
  end.
(** The length of the list of names, each with its NUL. *)
Definition list_length (a : attributes) : N := fold_right (fun e n => nlen (fst e) + 1 + n) 0 a.

(** xattr(7): EINVAL 22, ERANGE 34, E2BIG 7, EEXIST 17, ENODATA 61.  [limit]:
    how long name and value of a new attribute can be together. *)
Definition xattr_step (limit : N) (a : attributes) (c : xattr_call) : attributes * xattr_result :=
  match c with
  | Setxattr name value flags =>
    if 3 <? flags then (a, XError 22)
    else if negb (name_fits name) then (a, XError 34)
    else if (65536 <? nlen value) || (limit <? nlen name + nlen value) then (a, XError 7)
    else match attr_get name a with
         | Some _ => if N.testbit flags 0 then (a, XError 17) else (attr_put name value a, XDone)
         | None => if N.testbit flags 1 then (a, XError 61) else (attr_put name value a, XDone)
         end
  | Getxattr name size =>
    if negb (name_fits name) then (a, XError 34)
    else match attr_get name a with
         | None => (a, XError 61)
         | Some v => if size =? 0 then (a, XSize (nlen v))
                     else if size <? nlen v then (a, XError 34) else (a, XValue v)
         end
  | Listxattr size =>
    if size =? 0 then (a, XSize (N.min (list_length a) 65536))
    else if N.min size 65536 <? list_length a then (a, XError (if 65536 <=? size then 7 else 34))
    else (a, XNames (map fst a))
  | Removexattr name =>
    if negb (name_fits name) then (a, XError 34)
    else match attr_get name a with
         | None => (a, XError 61)
         | Some _ => (attr_remove name a, XDone)
         end
  end.
Fixpoint xattr_steps (limit : N) (a : attributes) (l : list xattr_call) : attributes * list xattr_result :=
  match l with
  | [] => (a, [])
  | c :: l =>
    let (a, r) := xattr_step limit a c in
    let (a, rs) := xattr_steps limit a l in
    (a, r :: rs)
  end.
