(** Model of the buffers for variable-length replies: directory listings
    (READDIR and READDIRPLUS) and extended attribute name lists. *)

From Verif Require Import Base Kernel CoreModel ReplyModel.
From Coq Require Import List NArith ZArith Bool.
Import ListNotations.
Open Scope N_scope.

(** A write of [data] at byte [pos] of a buffer through a raw pointer
    (fuse/internal/dirent.rs:69-87, fuse/operations/listxattr.rs:192-196):
    outside the buffer it is undefined behaviour. *)
Definition mem_write (pos : N) (data : bytes) (buf : bytes) : out bytes :=
  if pos + nlen data <=? nlen buf
  then Ret (take pos buf ++ data ++ drop (pos + nlen data) buf) else Ub.

(** A read of [len] bytes at [pos] through a raw pointer, or an unchecked
    sub-slice (fuse/internal/dirent.rs:49-66). *)
Definition mem_slice (pos len : N) (buf : bytes) : out bytes :=
  if pos + len <=? nlen buf then Ret (slice pos len buf) else Ub.

(** ** fuse/kernel.rs dirents *)

(** fuse/kernel.rs:1429-1435 [fuse_dirent] *)
Record fuse_dirent := { de_ino : N; de_off : N; de_namelen : N; de_type : N }.
(** fuse/kernel.rs:1454-1457 [fuse_direntplus] *)
Record fuse_direntplus := { dp_entry_out : fuse_entry_out; dp_dirent : fuse_dirent }.

(** The trait fuse/internal/dirent.rs:23-25 [Dirent: Sized], with the size
    of the type, its byte image and how its bytes are read back. *)
Record Dirent (T : Type) := {
  dt_size : N;
  dt_bytes : T -> bytes;
  dt_read : bytes -> T;
  dt_namelen : T -> N }.
Arguments dt_size {T}. Arguments dt_bytes {T}. Arguments dt_read {T}. Arguments dt_namelen {T}.

Section Dirents.
Context {E : Endian}.

(** fuse/kernel.rs:1429-1435, the fields in memory order *)
Definition fuse_dirent_fields (d : fuse_dirent) : list field :=
  [u64 (de_ino d); u64 (de_off d); u32 (de_namelen d); u32 (de_type d)].
(** the same struct (fuse/kernel.rs:1429-1435) found at offset [o] *)
Definition read_fuse_dirent (o : N) (b : bytes) : fuse_dirent :=
  {| de_ino := u64_at o b; de_off := u64_at (o + 8) b; de_namelen := u32_at (o + 16) b;
     de_type := u32_at (o + 20) b |}.
(** fuse/kernel.rs:236-253 [fuse_attr] found at offset [o] *)
Definition read_fuse_attr (o : N) (b : bytes) : fuse_attr :=
  {| fa_ino := u64_at o b; fa_size := u64_at (o + 8) b; fa_blocks := u64_at (o + 16) b;
     fa_atime := u64_at (o + 24) b; fa_mtime := u64_at (o + 32) b; fa_ctime := u64_at (o + 40) b;
     fa_atimensec := u32_at (o + 48) b; fa_mtimensec := u32_at (o + 52) b;
     fa_ctimensec := u32_at (o + 56) b; fa_mode := u32_at (o + 60) b;
     fa_nlink := u32_at (o + 64) b; fa_uid := u32_at (o + 68) b; fa_gid := u32_at (o + 72) b;
     fa_rdev := u32_at (o + 76) b; fa_blksize := u32_at (o + 80) b; fa_flags := u32_at (o + 84) b |}.
(** fuse/kernel.rs:672-680 [fuse_entry_out] found at offset [o] *)
Definition read_fuse_entry_out (o : N) (b : bytes) : fuse_entry_out :=
  {| eo_nodeid := u64_at o b; eo_generation := u64_at (o + 8) b;
     eo_entry_valid := u64_at (o + 16) b; eo_attr_valid := u64_at (o + 24) b;
     eo_entry_valid_nsec := u32_at (o + 32) b; eo_attr_valid_nsec := u32_at (o + 36) b;
     eo_attr := read_fuse_attr (o + 40) b |}.

(** fuse/internal/dirent.rs:27-32; 24 bytes *)
Definition Dirent_fuse_dirent : Dirent fuse_dirent :=
  {| dt_size := 24;
     dt_bytes := fun d => wire (fuse_dirent_fields d);
     dt_read := read_fuse_dirent 0;
     dt_namelen := de_namelen |}.
(** fuse/internal/dirent.rs:34-39; 152 bytes *)
Definition Dirent_fuse_direntplus : Dirent fuse_direntplus :=
  {| dt_size := 152;
     dt_bytes := fun d =>
       wire (fuse_entry_out_fields (dp_entry_out d) ++ fuse_dirent_fields (dp_dirent d));
     dt_read := fun b =>
       {| dp_entry_out := read_fuse_entry_out 0 b; dp_dirent := read_fuse_dirent 128 b |};
     dt_namelen := fun d => de_namelen (dp_dirent d) |}.

End Dirents.

(** ** fuse/internal/dirent.rs *)
Section Generic.
Context {T : Type} (D : Dirent T).

(** fuse/internal/dirent.rs:44, 79 *)
Definition padding_len (name : bytes) : N := (8 - nlen name mod 8) mod 8.

(** fuse/internal/dirent.rs:42-46.  A slice has at most [isize::MAX] bytes,
    so the sum does not overflow. *)
Definition entry_size (name : bytes) : N := dt_size D + nlen name + padding_len name.

(** fuse/internal/dirent.rs:49-66 *)
Definition read_unchecked (buf : bytes) : out (T * bytes) :=
  raw <- mem_slice 0 (dt_size D) buf ;;
  let dirent := dt_read D raw in
  name <- mem_slice (dt_size D) (dt_namelen D dirent) buf ;;
  Ret (dirent, name).

(** fuse/internal/dirent.rs:69-87 on the slice [buf] at address [addr];
    [ptr::write] at line 81 requires the address to be aligned for [T], which
    contains u64 fields: otherwise undefined behaviour. *)
Definition write_unchecked (addr : N) (dirent : T) (name : bytes) (buf : bytes) : out bytes :=
  if negb (addr mod 8 =? 0) then Ub
  else
    buf <- mem_write 0 (dt_bytes D dirent) buf ;;
    buf <- mem_write (dt_size D) name buf ;;
    if 0 <? padding_len name
    then mem_write (dt_size D + nlen name) (repeat x00 (N.to_nat (padding_len name))) buf
    else Ret buf.

(** An entry to be listed: fuse/operations/readdir.rs:106-109 [ReaddirEntry]
    and fuse/operations/readdirplus.rs:105-108 [ReaddirplusEntry]. *)
Record entry := { e_dirent : T; e_name : bytes }.

(** fuse/operations/readdir.rs:213-216 and readdirplus.rs:197-200: the
    writers.  [w_addr] is the address of the buffer. *)
Record writer := { w_addr : N; w_buf : bytes; w_position : N }.

(** fuse/operations/readdir.rs:221-227, readdirplus.rs:205-211 *)
Definition writer_new (addr : N) (buf : bytes) : writer :=
  {| w_addr := addr;
     w_buf := if 65535 <? nlen buf then take 65535 buf else buf;
     w_position := 0 |}.

(** fuse/operations/readdir.rs:243-247, readdirplus.rs:227-231
    [into_entries]; the result is its bytes *)
Definition into_entries (w : writer) : out bytes := mem_slice 0 (w_position w) (w_buf w).

(** fuse/operations/readdir.rs:255-273, readdirplus.rs:239-257 [try_push];
    the boolean is whether it returned [Ok].  Line 259 is a checked
    subtraction (in debug builds it panics when negative). *)
Definition try_push (e : entry) (w : writer) : out (bool * writer) :=
  if nlen (w_buf w) <? w_position w then Panic
  else
    let remaining_capacity := nlen (w_buf w) - w_position w in
    let size := entry_size (e_name e) in
    if remaining_capacity <? size then Ret (false, w)
    else
      let start := w_position w in
      let position := w_position w + size in
      dst <- mem_slice start (position - start) (w_buf w) ;;
      dst <- write_unchecked (w_addr w + start) (e_dirent e) (e_name e) dst ;;
      buf <- mem_write start dst (w_buf w) ;;
      Ret (true, {| w_addr := w_addr w; w_buf := buf; w_position := position |}).

(** fuse/operations/readdir.rs:295-308, readdirplus.rs:279-292: [next] of the
    iterators used for the Debug format *)
Definition entries_next (buf : bytes) : out (option (entry * bytes)) :=
  match buf with
  | [] => Ret None
  | _ =>
    '(dirent, name) <- read_unchecked buf ;;
    let size := entry_size name in
    rest <- mem_slice size (nlen buf - size) buf ;;
    Ret (Some ({| e_dirent := dirent; e_name := name |}, rest))
  end.

(** Running the iterator (fuse/operations/readdir.rs:292-309) to the end.  Every step consumes at least
    [dt_size] bytes, so the fuel never runs out (see the theorems). *)
Fixpoint entries_loop (fuel : nat) (buf : bytes) : out (list entry) :=
  match fuel with
  | O => Panic
  | S fuel =>
    o <- entries_next buf ;;
    match o with
    | None => Ret []
    | Some (e, rest) =>
      l <- entries_loop fuel rest ;;
      Ret (e :: l)
    end
  end.
(** the same with enough fuel (fuse/operations/readdir.rs:292-309) *)
Definition entries_list (buf : bytes) : out (list entry) := entries_loop (S (length buf)) buf.

(** A server filling a listing: any sequence of [try_push] calls
    (fuse/operations/readdir.rs:255-273). *)
Fixpoint push_all (es : list entry) (w : writer) : out (list bool * writer) :=
  match es with
  | [] => Ret ([], w)
  | e :: es =>
    '(ok, w) <- try_push e w ;;
    '(oks, w) <- push_all es w ;;
    Ret (ok :: oks, w)
  end.

End Generic.
Arguments entry : clear implicits.
Arguments e_dirent {T}. Arguments e_name {T}.

(** ** Entries *)

(** fuse/operations/readdir.rs:114-128 [ReaddirEntry::new];
    [len() as u32] *)
Definition ReaddirEntry_new (node_id : N) (name : bytes) (offset : N) : entry fuse_dirent :=
  {| e_dirent := {| de_ino := node_id; de_off := offset; de_namelen := wrap32 (nlen name);
                    de_type := 0 |};
     e_name := name |}.
(** fuse/operations/readdir.rs:155-157 *)
Definition ReaddirEntry_set_file_type (t : FileType) (e : entry fuse_dirent) : entry fuse_dirent :=
  let d := e_dirent e in
  {| e_dirent := {| de_ino := de_ino d; de_off := de_off d; de_namelen := de_namelen d;
                    de_type := FileType_as_bits t |};
     e_name := e_name e |}.
(** fuse/operations/readdir.rs:132-134 *)
Definition ReaddirEntry_node_id (e : entry fuse_dirent) : out N :=
  NodeId_new_unchecked (de_ino (e_dirent e)).
(** fuse/operations/readdir.rs:144-146; zero would be undefined behaviour *)
Definition ReaddirEntry_offset (e : entry fuse_dirent) : out N :=
  if de_off (e_dirent e) =? 0 then Ub else Ret (de_off (e_dirent e)).
(** fuse/operations/readdir.rs:150-152 *)
Definition ReaddirEntry_file_type (e : entry fuse_dirent) : option FileType :=
  FileType_from_bits (de_type (e_dirent e)).

(** fuse/operations/readdirplus.rs:113-133 [ReaddirplusEntry::new] *)
Definition ReaddirplusEntry_new (name : bytes) (offset : N) (e : fuse_entry_out)
  : out (entry fuse_direntplus) :=
  node_id <- NodeAttr_node_id (eo_attr e) ;;
  Ret {| e_dirent :=
           {| dp_entry_out := e;
              dp_dirent := {| de_ino := node_id; de_off := offset;
                              de_namelen := wrap32 (nlen name);
                              de_type := FileMode_type_bits (fa_mode (eo_attr e)) |} |};
         e_name := name |}.

(** ** fuse/operations/listxattr.rs *)

(** fuse/operations/listxattr.rs:148-155 [ListxattrNamesWriter::new];
    [list_max] is [XATTR_LIST_MAX] (fuse/os.rs:73-82: Some 65536 on Linux, otherwise
    none).  The writer record is the same as above; its address is not used. *)
Definition ListxattrNamesWriter_new (list_max : option N) (buf : bytes) : writer :=
  {| w_addr := 0;
     w_buf := match list_max with
              | Some m => if m <? nlen buf then take m buf else buf
              | None => buf
              end;
     w_position := 0 |}.

(** fuse/operations/listxattr.rs:177-199 [try_push]; a [CStr] is given by
    its bytes without the final NUL. *)
Definition ListxattrNamesWriter_try_push (name : bytes) (w : writer) : out (bool * writer) :=
  let name := name ++ [x00] in
  if nlen (w_buf w) <? w_position w then Panic
  else
    let remaining_capacity := nlen (w_buf w) - w_position w in
    if remaining_capacity <? nlen name then Ret (false, w)
    else
      let name_start := w_position w in
      let position := w_position w + nlen name in
      buf <- mem_write name_start name (w_buf w) ;;
      Ret (true, {| w_addr := w_addr w; w_buf := buf; w_position := position |}).

(** fuse/operations/listxattr.rs:171-175 [into_names] *)
Definition ListxattrNamesWriter_into_names (w : writer) : out bytes :=
  mem_slice 0 (w_position w) (w_buf w).

(** fuse/operations/listxattr.rs:117-125, the scan for the next NUL *)
Fixpoint find_nul (i : N) (bs : bytes) : option N :=
  match bs with
  | [] => None
  | b :: r => if Byte.eqb b x00 then Some i else find_nul (i + 1) r
  end.

(** fuse/operations/listxattr.rs:113-129 [XattrNamesIter::next].  The item is
    the content of the CStr without its NUL; line 126 makes a CStr out of
    bytes that do not end in NUL, undefined behaviour. *)
Definition XattrNamesIter_next (buf : bytes) : out (option (bytes * bytes)) :=
  match buf with
  | [] => Ret None
  | _ => match find_nul 0 buf with
         | Some i => Ret (Some (take i buf, drop (i + 1) buf))
         | None => Ub
         end
  end.

(** Running that iterator (fuse/operations/listxattr.rs:110-129) to the end. *)
Fixpoint xattr_names_loop (fuel : nat) (buf : bytes) : out (list bytes) :=
  match fuel with
  | O => Panic
  | S fuel =>
    o <- XattrNamesIter_next buf ;;
    match o with
    | None => Ret []
    | Some (n, rest) => l <- xattr_names_loop fuel rest ;; Ret (n :: l)
    end
  end.
(** the same with enough fuel (fuse/operations/listxattr.rs:110-129) *)
Definition xattr_names_list (buf : bytes) : out (list bytes) :=
  xattr_names_loop (S (length buf)) buf.

(** Any sequence of [try_push] calls (fuse/operations/listxattr.rs:177-199). *)
Fixpoint xattr_push_all (names : list bytes) (w : writer) : out (list bool * writer) :=
  match names with
  | [] => Ret ([], w)
  | n :: names =>
    '(ok, w) <- ListxattrNamesWriter_try_push n w ;;
    '(oks, w) <- xattr_push_all names w ;;
    Ret (ok :: oks, w)
  end.
