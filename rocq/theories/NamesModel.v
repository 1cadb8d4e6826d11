(** Names as strings: fuse/node_name.rs, fuse/cuse.rs; [core::str::from_utf8]
    and the orders derived for byte slices belong to Rust's library. *)

From Verif Require Import Base CoreModel.
From Coq Require Import List NArith Bool.
Import ListNotations.
Open Scope N_scope.

(** A Rust [&str] is given by its bytes (fuse/node_name.rs:54, fuse/cuse.rs:57,
    [name.as_bytes()]). *)
Definition str_bytes := bytes.

(** *** [core::str::from_utf8], as called in fuse/node_name.rs:118 and
    fuse/cuse.rs:114 *)

(** A byte within the given bounds (validity table of [core::str], used by
    fuse/node_name.rs:118) *)
Definition byte_in (lo hi : N) (b : byte) : bool := (lo <=? b2n b) && (b2n b <=? hi).

(** The first character of a string: its number of bytes, or [None] if the
    bytes do not start with one (library function behind
    fuse/node_name.rs:118) *)
Definition utf8_width (bs : bytes) : option N :=
  match bs with
  | [] => None
  | a :: r =>
    if byte_in 0 127 a then Some 1
    else if byte_in 194 223 a then
      match r with b :: _ => if byte_in 128 191 b then Some 2 else None | _ => None end
    else if byte_in 224 239 a then
      match r with
      | b :: c :: _ =>
        if (if b2n a =? 224 then byte_in 160 191 b
            else if b2n a =? 237 then byte_in 128 159 b
            else byte_in 128 191 b) && byte_in 128 191 c
        then Some 3 else None
      | _ => None
      end
    else if byte_in 240 244 a then
      match r with
      | b :: c :: d :: _ =>
        if (if b2n a =? 240 then byte_in 144 191 b
            else if b2n a =? 244 then byte_in 128 143 b
            else byte_in 128 191 b) && byte_in 128 191 c && byte_in 128 191 d
        then Some 4 else None
      | _ => None
      end
    else None
  end.

(** How many bytes from the start are valid, looking at [fuel] characters at
    most (the loop of the library function behind fuse/node_name.rs:118) *)
Fixpoint valid_up_to (fuel : nat) (bs : bytes) : N :=
  match fuel with
  | O => 0
  | S fuel =>
    match utf8_width bs with
    | Some w => w + valid_up_to fuel (drop w bs)
    | None => 0
    end
  end.

(** [core::str::from_utf8] (fuse/node_name.rs:118, fuse/cuse.rs:114); of the
    error only [valid_up_to] is modelled *)
Definition from_utf8 (bs : bytes) : str_bytes + N :=
  let n := valid_up_to (length bs) bs in
  if n =? nlen bs then inl bs else inr n.

(** *** [NodeName] *)

(** fuse/node_name.rs:54-56 [NodeName::new], 149-154 [TryFrom<&str>] *)
Definition NodeName_new (name : str_bytes) : bytes + NodeNameError := NodeName_from_bytes name.
(** fuse/node_name.rs:135-140 [TryFrom<&[u8]>] *)
Definition NodeName_try_from (name : bytes) : bytes + NodeNameError := NodeName_from_bytes name.
(** fuse/node_name.rs:106-108 [as_bytes], 129-133 [From<&NodeName> for &[u8]] *)
Definition NodeName_as_bytes (name : bytes) : bytes := name.
(** fuse/node_name.rs:117-119 [as_str], 142-147 [TryFrom<&NodeName> for &str] *)
Definition NodeName_as_str (name : bytes) : str_bytes + N := from_utf8 name.

(** Equality of byte slices (fuse/node_name.rs:158, 164, 170, 176) *)
Fixpoint bytes_eq (a b : bytes) : bool :=
  match a, b with
  | [], [] => true
  | x :: a, y :: b => Byte.eqb x y && bytes_eq a b
  | _, _ => false
  end.
(** fuse/node_name.rs:156-160, 168-172 [PartialEq] with a string or bytes, and
    the equality derived in 42 *)
Definition NodeName_eq (name other : bytes) : bool := bytes_eq (NodeName_as_bytes name) other.
(** fuse/node_name.rs:162-166, 174-178 the other way round *)
Definition eq_NodeName (other name : bytes) : bool := bytes_eq other (NodeName_as_bytes name).
(** fuse/node_name.rs:42 [derive(Ord)]: bytes are compared from the first on *)
Fixpoint NodeName_cmp (a b : bytes) : comparison :=
  match a, b with
  | [], [] => Eq
  | [], _ => Lt
  | _, [] => Gt
  | x :: a, y :: b =>
    match b2n x ?= b2n y with Eq => NodeName_cmp a b | c => c end
  end.

(** *** [DeviceName] *)

(** fuse/cuse.rs:57-59 [DeviceName::new] *)
Definition DeviceName_new (name : str_bytes) : bytes + DeviceNameError := DeviceName_from_bytes name.
(** fuse/cuse.rs:103-105 [as_bytes] *)
Definition DeviceName_as_bytes (name : bytes) : bytes := name.
(** fuse/cuse.rs:113-115 [as_str] *)
Definition DeviceName_as_str (name : bytes) : str_bytes + N := from_utf8 name.
(** fuse/cuse.rs:124-134, and derived in 45 *)
Definition DeviceName_eq (name other : bytes) : bool := bytes_eq (DeviceName_as_bytes name) other.
(** fuse/cuse.rs:136-146 *)
Definition eq_DeviceName (other name : bytes) : bool := bytes_eq other (DeviceName_as_bytes name).
(** fuse/cuse.rs:45 [derive(Ord)] *)
Definition DeviceName_cmp (a b : bytes) : comparison := NodeName_cmp a b.
