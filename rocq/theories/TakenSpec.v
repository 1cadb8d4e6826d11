(** What Linux makes of a reply it has accepted.

    Written from the Linux sources (fs/fuse/dir.c, fs/fuse/readdir.c,
    fs/fuse/file.c, fs/fuse/xattr.c, fs/fuse/inode.c), not from /repo: this is
    the other side of the protocol.  A reply that was accepted by the device
    (see ClientSpec.v) is not yet a result: the kernel checks node ids, file
    types, sizes, names and ranges, and fails the system call with EIO if they
    make no sense.  Only the parts of these functions that depend on the reply
    are written down; the caches of the kernel and the order of the requests of
    different processes are left out. *)

From Verif Require Import Base.
From Coq Require Import List NArith ZArith Bool.
Import ListNotations.
Open Scope N_scope.

Definition EIO : Z := 5.
Definition EINVAL : Z := 22.

(** ** Attributes *)

(** What stat(2) tells a program. *)
Record stat := {
  st_ino : N; st_mode : N; st_nlink : N; st_uid : N; st_gid : N; st_rdev : N;
  st_size : N; st_blksize : N; st_blocks : N;
  st_atime : Z * N; st_mtime : Z * N; st_ctime : Z * N }.

Section Taken.
Context {E : Endian}.

(** Nanoseconds are cut to a second (fs/fuse/inode.c
    [fuse_change_attributes_common]). *)
Definition linux_time (p : bytes) (sec nsec : N) : Z * N :=
  (as_i64 (u64_at sec p), N.min (u32_at nsec p) 999999999).

(** The block size is rounded down to a power of two; zero stands for the one
    of the mount, [bs] (fs/fuse/dir.c [fuse_fillattr]). *)
Definition linux_blksize (bs v : N) : N := if v =? 0 then bs else 2 ^ N.log2 v.

(** struct [fuse_attr] at offset [o]. *)
Definition linux_stat (bs : N) (o : N) (p : bytes) : stat :=
  {| st_ino := u64_at o p; st_mode := u32_at (o + 60) p; st_nlink := u32_at (o + 64) p;
     st_uid := u32_at (o + 68) p; st_gid := u32_at (o + 72) p; st_rdev := u32_at (o + 76) p;
     st_size := u64_at (o + 8) p; st_blksize := linux_blksize bs (u32_at (o + 80) p);
     st_blocks := u64_at (o + 16) p;
     st_atime := linux_time p (o + 24) (o + 48); st_mtime := linux_time p (o + 32) (o + 52);
     st_ctime := linux_time p (o + 40) (o + 56) |}.

(** fs/fuse/dir.c [fuse_valid_type], [fuse_valid_size], [fuse_invalid_attr]:
    S_IFIFO, S_IFCHR, S_IFDIR, S_IFBLK, S_IFREG, S_IFLNK or S_IFSOCK, and a
    size that is a [loff_t]. *)
Definition S_IFMT : N := 61440.
Definition file_type (mode : N) : N := N.land mode S_IFMT.
Definition file_types : list N := [4096; 8192; 16384; 24576; 32768; 40960; 49152].
Definition valid_attr (s : stat) : bool :=
  existsb (N.eqb (file_type (st_mode s))) file_types && (st_size s <? 2 ^ 63).

(** ** Entries *)

(** A node as the kernel knows it after a reply with an entry: node id,
    generation, attributes, and for how long name and attributes may be used
    without asking again (seconds, nanoseconds). *)
Record node := {
  n_id : N; n_generation : N; n_stat : stat; n_name_valid : N * N; n_attr_valid : N * N }.
Definition linux_node (bs : N) (p : bytes) : node :=
  {| n_id := u64_at 0 p; n_generation := u64_at 8 p; n_stat := linux_stat bs 40 p;
     n_name_valid := (u64_at 16 p, N.min (u32_at 32 p) 999999999);
     n_attr_valid := (u64_at 24 p, N.min (u32_at 36 p) 999999999) |}.

Inductive looked := Absent | Found (n : node) | Broken (errno : Z).
Definition ROOT : N := 1.

(** fs/fuse/dir.c [fuse_lookup_name], [fuse_lookup]: node id zero says that
    there is no such name; nothing but the mount point is the root. *)
Definition linux_lookup (bs : N) (p : bytes) : looked :=
  let n := linux_node bs p in
  if n_id n =? 0 then Absent
  else if negb (valid_attr (n_stat n)) then Broken EIO
  else if n_id n =? ROOT then Broken EIO
  else Found n.

(** fs/fuse/dir.c [create_new_entry], for MKNOD, MKDIR, SYMLINK and LINK: the
    new node has the type [t] that was asked for. *)
Definition linux_created (bs t : N) (p : bytes) : looked :=
  let n := linux_node bs p in
  if (n_id n =? 0) || (n_id n =? ROOT) then Broken EIO
  else if negb (valid_attr (n_stat n)) then Broken EIO
  else if negb (file_type (st_mode (n_stat n)) =? t) then Broken EIO
  else Found n.

(** fs/fuse/dir.c [fuse_create_open]: a regular file, then the handle and the
    flags of the open file. *)
Definition linux_create (bs : N) (p : bytes) : looked * (N * N) :=
  (linux_created bs 32768 p, (u64_at 128 p, u32_at 136 p)).

(** fs/fuse/dir.c [fuse_do_getattr], [fuse_do_setattr]: a node never changes
    its type [t]. *)
Definition linux_getattr (bs t : N) (p : bytes) : (stat * (N * N)) + Z :=
  let s := linux_stat bs 16 p in
  if negb (valid_attr s) then inr EIO
  else if negb (file_type (st_mode s) =? t) then inr EIO
  else inl (s, (u64_at 0 p, N.min (u32_at 8 p) 999999999)).

(** ** Directories *)

(** Rounded up to a multiple of eight. *)
Definition padded (n : N) : N := 8 * ((n + 7) / 8).

(** An entry as getdents(2) tells a program: the type is one byte. *)
Record dirent := { d_ino : N; d_off : N; d_type : N; d_name : bytes }.
Definition NAME_MAX : N := 1024.
Definition slash (b : byte) : bool := Byte.eqb b x2f.

(** fs/fuse/readdir.c [parse_dirfile]: [room] is the number of entries the
    buffer of the program can hold.  The result is the entries and an error, if
    one was found. *)
Fixpoint parse_dirfile (fuel room : nat) (p : bytes) : list dirent * option Z :=
  match fuel with
  | O => ([], None)
  | S fuel =>
    if nlen p <? 24 then ([], None)
    else
      let namelen := u32_at 16 p in
      let reclen := padded (24 + namelen) in
      if (namelen =? 0) || (NAME_MAX <? namelen) then ([], Some EIO)
      else if nlen p <? reclen then ([], None)
      else if existsb slash (slice 24 namelen p) then ([], Some EIO)
      else match room with
           | O => ([], None)
           | S room =>
             let (l, e) := parse_dirfile fuel room (drop reclen p) in
             ({| d_ino := u64_at 0 p; d_off := u64_at 8 p; d_type := u32_at 20 p mod 256;
                 d_name := slice 24 namelen p |} :: l, e)
           end
  end.

(** fs/readdir.c [getdents64]: an error counts only if there was no entry. *)
Definition getdents (r : list dirent * option Z) : list dirent + Z :=
  match r with
  | ([], Some e) => inr e
  | (l, _) => inl l
  end.
Definition linux_readdir (room : nat) (p : bytes) : list dirent + Z :=
  getdents (parse_dirfile (S (length p)) room p).

(** fs/fuse/readdir.c [parse_dirplusfile], [fuse_direntplus_link]: every entry
    with a node id, except "." and "..", is also looked up, even if the program
    has no room for it; the lookup is given back (FORGET) if its node makes no
    sense. *)
Record plus := { pl_entries : list dirent; pl_linked : list (bytes * node); pl_forgotten : list N }.
Definition dots (name : bytes) : bool :=
  match name with [x2e] | [x2e; x2e] => true | _ => false end.
Fixpoint parse_dirplusfile (bs : N) (fuel room : nat) (p : bytes) : plus * option Z :=
  match fuel with
  | O => ({| pl_entries := []; pl_linked := []; pl_forgotten := [] |}, None)
  | S fuel =>
    let stop e := ({| pl_entries := []; pl_linked := []; pl_forgotten := [] |}, e) in
    if nlen p <? 152 then stop None
    else
      let namelen := u32_at 144 p in
      let reclen := padded (152 + namelen) in
      if (namelen =? 0) || (NAME_MAX <? namelen) then stop (Some EIO)
      else if nlen p <? reclen then stop None
      else if existsb slash (slice 152 namelen p) then stop (Some EIO)
      else
        let name := slice 152 namelen p in
        let (r, e) := parse_dirplusfile bs fuel (pred room) (drop reclen p) in
        let n := linux_node bs p in
        let bad := (n_id n =? ROOT) || negb (valid_attr (n_stat n)) in
        let skip := (n_id n =? 0) || dots name in
        ({| pl_entries :=
              match room with
              | O => []
              | S _ => {| d_ino := u64_at 128 p; d_off := u64_at 136 p;
                          d_type := u32_at 148 p mod 256; d_name := name |} :: pl_entries r
              end;
            pl_linked := if skip || bad then pl_linked r else (name, n) :: pl_linked r;
            pl_forgotten := if negb skip && bad then n_id n :: pl_forgotten r else pl_forgotten r |}, e)
  end.
Definition linux_readdirplus (bs : N) (room : nat) (p : bytes) : plus * option Z :=
  parse_dirplusfile bs (S (length p)) room p.

(** ** Extended attributes *)

(** fs/fuse/xattr.c [fuse_verify_xattr_list]: NUL-terminated names, none of
    them empty.  [cur] is the name being read. *)
Fixpoint verify_list (cur : bytes) (p : bytes) : option (list bytes) :=
  match p with
  | [] => match cur with [] => Some [] | _ => None end
  | b :: p =>
    if Byte.eqb b x00 then
      match cur with
      | [] => None
      | _ => match verify_list [] p with Some l => Some (rev cur :: l) | None => None end
      end
    else verify_list (b :: cur) p
  end.
(** [fuse_listxattr]: with room for a list, the list; without, its size, at
    most XATTR_LIST_MAX. *)
Definition linux_listxattr (p : bytes) : list bytes + Z :=
  match verify_list [] p with Some l => inl l | None => inr EIO end.
Definition linux_listxattr_size (p : bytes) : N := N.min (u32_at 0 p) 65536.

(** ** Files *)

(** fs/fuse/file.c [fuse_perform_write], [fuse_send_write]: no more can have
    been written than there was. *)
Definition linux_write (count : N) (p : bytes) : N + Z :=
  if count <? u32_at 0 p then inr EIO else inl (u32_at 0 p).

(** fs/fuse/file.c [convert_fuse_file_lock]: F_RDLCK, F_WRLCK, F_UNLCK are 0, 1,
    2; the range is within a [loff_t] and not empty. *)
Inductive lock_state := Unlocked | Locked (exclusive : bool) (first last pid : N).
Definition linux_getlk (p : bytes) : lock_state + Z :=
  let start := u64_at 0 p in
  let end_ := u64_at 8 p in
  let t := u32_at 16 p in
  if t =? 2 then inl Unlocked
  else if negb ((t =? 0) || (t =? 1)) then inr EIO
  else if (2 ^ 63 <=? start) || (2 ^ 63 <=? end_) || (end_ <? start) then inr EIO
  else inl (Locked (t =? 1) start end_ (u32_at 20 p)).

(** fs/fuse/file.c [fuse_lseek] and fs/read_write.c [vfs_setpos]. *)
Definition linux_lseek (p : bytes) : N + Z :=
  if u64_at 0 p <? 2 ^ 63 then inl (u64_at 0 p) else inr EINVAL.

(** fs/fuse/dir.c [fuse_readlink_page]: the text ends at the first NUL. *)
Fixpoint linux_readlink (p : bytes) : bytes :=
  match p with
  | [] => []
  | b :: p => if Byte.eqb b x00 then [] else b :: linux_readlink p
  end.

End Taken.
