(** Model of the reply side of the [fuse] crate: scatter buffers, reply
    senders, the reply objects and the C structs in them, and
    notifications. *)

From Verif Require Import Base Kernel CoreModel.
From Coq Require Import List NArith ZArith Bool.
Import ListNotations.
Open Scope N_scope.

(** ** fuse/io.rs: [SendBuf] *)

(** fuse/io.rs:261-265 [SendBuf]; the array [chunks] always has 5 entries. *)
Record SendBuf := { sb_len : N; sb_chunks : list bytes; sb_chunks_len : N }.

(** fuse/io.rs:272 *)
Definition MAX_CHUNKS_LEN : N := 5.

(** fuse/io.rs:278-284 *)
Definition SendBuf_new_1 (len : N) (c1 : bytes) : SendBuf :=
  {| sb_len := len; sb_chunks := [c1; []; []; []; []]; sb_chunks_len := 1 |}.
(** fuse/io.rs:288-298 *)
Definition SendBuf_new_2 (len : N) (c1 c2 : bytes) : SendBuf :=
  {| sb_len := len; sb_chunks := [c1; c2; []; []; []]; sb_chunks_len := 2 |}.
(** fuse/io.rs:302-313 *)
Definition SendBuf_new_3 (len : N) (c1 c2 c3 : bytes) : SendBuf :=
  {| sb_len := len; sb_chunks := [c1; c2; c3; []; []]; sb_chunks_len := 3 |}.
(** fuse/io.rs:317-329 *)
Definition SendBuf_new_4 (len : N) (c1 c2 c3 c4 : bytes) : SendBuf :=
  {| sb_len := len; sb_chunks := [c1; c2; c3; c4; []]; sb_chunks_len := 4 |}.
(** fuse/io.rs:333-346 *)
Definition SendBuf_new_5 (len : N) (c1 c2 c3 c4 c5 : bytes) : SendBuf :=
  {| sb_len := len; sb_chunks := [c1; c2; c3; c4; c5]; sb_chunks_len := 5 |}.

(** fuse/io.rs:368-373; line 372 is [unreachable_unchecked]. *)
Definition SendBuf_chunks_len (b : SendBuf) : out N :=
  if sb_chunks_len b <=? MAX_CHUNKS_LEN then Ret (sb_chunks_len b) else Ub.

(** fuse/io.rs:357-359; slicing an array beyond its end panics. *)
Definition SendBuf_chunks (b : SendBuf) : out (list bytes) :=
  n <- SendBuf_chunks_len b ;;
  if n <=? nlen (sb_chunks b) then Ret (take n (sb_chunks b)) else Panic.

(** fuse/io.rs:378-380 *)
Definition SendBuf_len (b : SendBuf) : N := sb_len b.

(** [storage[i] = v] in Rust (fuse/io.rs:411): panics if [i] is out of range. *)
Definition array_set {T} (i : N) (v : T) (storage : list T) : out (list T) :=
  if i <? nlen storage then Ret (take i storage ++ v :: drop (i + 1) storage) else Panic.

(** fuse/io.rs:410-412, the loop of [map_chunks_into]; the closure ([FnMut])
    has a state of type [S]. *)
Fixpoint map_chunks_loop {S T} (f : S -> bytes -> S * T) (i : N) (chunks : list bytes)
    (s : S) (storage : list T) : out (S * list T) :=
  match chunks with
  | [] => Ret (s, storage)
  | c :: chunks =>
    let '(s, v) := f s c in
    storage <- array_set i v storage ;;
    map_chunks_loop f (i + 1) chunks s storage
  end.

(** fuse/io.rs:405-414 [map_chunks_into], and 447-459
    [map_chunks_into_uninit], which differs only in the storage being
    uninitialised (reading an entry that was not written would be undefined
    behaviour; entries of [storage] model those). *)
Definition map_chunks_into {S T} (b : SendBuf) (f : S -> bytes -> S * T) (s : S)
    (storage : list T) : out (S * list T) :=
  chunks <- SendBuf_chunks b ;;
  '(s, storage) <- map_chunks_loop f 0 chunks s storage ;;
  n <- SendBuf_chunks_len b ;;
  if n <=? nlen storage then Ret (s, take n storage) else Panic.

(** ** C structs of replies *)

(** fuse/internal/bitflags.rs:92-94 *)
Definition flags_get (bits mask : N) : bool := N.land bits mask =? mask.
(** fuse/internal/bitflags.rs:97-99 *)
Definition flags_set (bits mask : N) : N := N.lor bits mask.
(** fuse/internal/bitflags.rs:102-108; [!mask] clears the bits of the mask. *)
Definition flags_set_to (bits mask : N) (set : bool) : N :=
  if set then N.lor bits mask else N.ldiff bits mask.

(** fuse/kernel.rs:236-253 [fuse_attr]; also [NodeAttr]
    (fuse/node_attr.rs:25-27), a wrapper of it *)
Record fuse_attr := {
  fa_ino : N;
  fa_size : N;
  fa_blocks : N;
  fa_atime : N;
  fa_mtime : N;
  fa_ctime : N;
  fa_atimensec : N;
  fa_mtimensec : N;
  fa_ctimensec : N;
  fa_mode : N;
  fa_nlink : N;
  fa_uid : N;
  fa_gid : N;
  fa_rdev : N;
  fa_blksize : N;
  fa_flags : N }.
(** fuse/node_attr.rs:83-85 *)
Definition NodeAttr_set_mode (mode : N) (r : fuse_attr) : fuse_attr :=
  {| fa_ino := fa_ino r; fa_size := fa_size r; fa_blocks := fa_blocks r;
     fa_atime := fa_atime r; fa_mtime := fa_mtime r; fa_ctime := fa_ctime r;
     fa_atimensec := fa_atimensec r; fa_mtimensec := fa_mtimensec r;
     fa_ctimensec := fa_ctimensec r; fa_mode := mode; fa_nlink := fa_nlink r;
     fa_uid := fa_uid r; fa_gid := fa_gid r; fa_rdev := fa_rdev r; fa_blksize := fa_blksize r;
     fa_flags := fa_flags r |}.
(** fuse/node_attr.rs:96-98 *)
Definition NodeAttr_set_size (size : N) (r : fuse_attr) : fuse_attr :=
  {| fa_ino := fa_ino r; fa_size := size; fa_blocks := fa_blocks r; fa_atime := fa_atime r;
     fa_mtime := fa_mtime r; fa_ctime := fa_ctime r; fa_atimensec := fa_atimensec r;
     fa_mtimensec := fa_mtimensec r; fa_ctimensec := fa_ctimensec r; fa_mode := fa_mode r;
     fa_nlink := fa_nlink r; fa_uid := fa_uid r; fa_gid := fa_gid r; fa_rdev := fa_rdev r;
     fa_blksize := fa_blksize r; fa_flags := fa_flags r |}.
(** fuse/node_attr.rs:114-116 *)
Definition NodeAttr_set_atime (t : UnixTime) (r : fuse_attr) : fuse_attr :=
  {| fa_ino := fa_ino r; fa_size := fa_size r; fa_blocks := fa_blocks r;
     fa_atime := fst (UnixTime_as_timespec t); fa_mtime := fa_mtime r; fa_ctime := fa_ctime r;
     fa_atimensec := snd (UnixTime_as_timespec t); fa_mtimensec := fa_mtimensec r;
     fa_ctimensec := fa_ctimensec r; fa_mode := fa_mode r; fa_nlink := fa_nlink r;
     fa_uid := fa_uid r; fa_gid := fa_gid r; fa_rdev := fa_rdev r; fa_blksize := fa_blksize r;
     fa_flags := fa_flags r |}.
(** fuse/node_attr.rs:132-134 *)
Definition NodeAttr_set_mtime (t : UnixTime) (r : fuse_attr) : fuse_attr :=
  {| fa_ino := fa_ino r; fa_size := fa_size r; fa_blocks := fa_blocks r;
     fa_atime := fa_atime r; fa_mtime := fst (UnixTime_as_timespec t); fa_ctime := fa_ctime r;
     fa_atimensec := fa_atimensec r; fa_mtimensec := snd (UnixTime_as_timespec t);
     fa_ctimensec := fa_ctimensec r; fa_mode := fa_mode r; fa_nlink := fa_nlink r;
     fa_uid := fa_uid r; fa_gid := fa_gid r; fa_rdev := fa_rdev r; fa_blksize := fa_blksize r;
     fa_flags := fa_flags r |}.
(** fuse/node_attr.rs:150-152 *)
Definition NodeAttr_set_ctime (t : UnixTime) (r : fuse_attr) : fuse_attr :=
  {| fa_ino := fa_ino r; fa_size := fa_size r; fa_blocks := fa_blocks r;
     fa_atime := fa_atime r; fa_mtime := fa_mtime r; fa_ctime := fst (UnixTime_as_timespec t);
     fa_atimensec := fa_atimensec r; fa_mtimensec := fa_mtimensec r;
     fa_ctimensec := snd (UnixTime_as_timespec t); fa_mode := fa_mode r;
     fa_nlink := fa_nlink r; fa_uid := fa_uid r; fa_gid := fa_gid r; fa_rdev := fa_rdev r;
     fa_blksize := fa_blksize r; fa_flags := fa_flags r |}.
(** fuse/node_attr.rs:167-169 *)
Definition NodeAttr_set_link_count (n : N) (r : fuse_attr) : fuse_attr :=
  {| fa_ino := fa_ino r; fa_size := fa_size r; fa_blocks := fa_blocks r;
     fa_atime := fa_atime r; fa_mtime := fa_mtime r; fa_ctime := fa_ctime r;
     fa_atimensec := fa_atimensec r; fa_mtimensec := fa_mtimensec r;
     fa_ctimensec := fa_ctimensec r; fa_mode := fa_mode r; fa_nlink := n; fa_uid := fa_uid r;
     fa_gid := fa_gid r; fa_rdev := fa_rdev r; fa_blksize := fa_blksize r;
     fa_flags := fa_flags r |}.
(** fuse/node_attr.rs:180-182 *)
Definition NodeAttr_set_user_id (id : N) (r : fuse_attr) : fuse_attr :=
  {| fa_ino := fa_ino r; fa_size := fa_size r; fa_blocks := fa_blocks r;
     fa_atime := fa_atime r; fa_mtime := fa_mtime r; fa_ctime := fa_ctime r;
     fa_atimensec := fa_atimensec r; fa_mtimensec := fa_mtimensec r;
     fa_ctimensec := fa_ctimensec r; fa_mode := fa_mode r; fa_nlink := fa_nlink r;
     fa_uid := id; fa_gid := fa_gid r; fa_rdev := fa_rdev r; fa_blksize := fa_blksize r;
     fa_flags := fa_flags r |}.
(** fuse/node_attr.rs:193-195 *)
Definition NodeAttr_set_group_id (id : N) (r : fuse_attr) : fuse_attr :=
  {| fa_ino := fa_ino r; fa_size := fa_size r; fa_blocks := fa_blocks r;
     fa_atime := fa_atime r; fa_mtime := fa_mtime r; fa_ctime := fa_ctime r;
     fa_atimensec := fa_atimensec r; fa_mtimensec := fa_mtimensec r;
     fa_ctimensec := fa_ctimensec r; fa_mode := fa_mode r; fa_nlink := fa_nlink r;
     fa_uid := fa_uid r; fa_gid := id; fa_rdev := fa_rdev r; fa_blksize := fa_blksize r;
     fa_flags := fa_flags r |}.
(** fuse/node_attr.rs:216-218 *)
Definition NodeAttr_set_device_number (dev : N) (r : fuse_attr) : fuse_attr :=
  {| fa_ino := fa_ino r; fa_size := fa_size r; fa_blocks := fa_blocks r;
     fa_atime := fa_atime r; fa_mtime := fa_mtime r; fa_ctime := fa_ctime r;
     fa_atimensec := fa_atimensec r; fa_mtimensec := fa_mtimensec r;
     fa_ctimensec := fa_ctimensec r; fa_mode := fa_mode r; fa_nlink := fa_nlink r;
     fa_uid := fa_uid r; fa_gid := fa_gid r; fa_rdev := dev; fa_blksize := fa_blksize r;
     fa_flags := fa_flags r |}.
(** fuse/node_attr.rs:229-231 *)
Definition NodeAttr_set_block_count (n : N) (r : fuse_attr) : fuse_attr :=
  {| fa_ino := fa_ino r; fa_size := fa_size r; fa_blocks := n; fa_atime := fa_atime r;
     fa_mtime := fa_mtime r; fa_ctime := fa_ctime r; fa_atimensec := fa_atimensec r;
     fa_mtimensec := fa_mtimensec r; fa_ctimensec := fa_ctimensec r; fa_mode := fa_mode r;
     fa_nlink := fa_nlink r; fa_uid := fa_uid r; fa_gid := fa_gid r; fa_rdev := fa_rdev r;
     fa_blksize := fa_blksize r; fa_flags := fa_flags r |}.
(** fuse/node_attr.rs:242-244 *)
Definition NodeAttr_set_block_size (n : N) (r : fuse_attr) : fuse_attr :=
  {| fa_ino := fa_ino r; fa_size := fa_size r; fa_blocks := fa_blocks r;
     fa_atime := fa_atime r; fa_mtime := fa_mtime r; fa_ctime := fa_ctime r;
     fa_atimensec := fa_atimensec r; fa_mtimensec := fa_mtimensec r;
     fa_ctimensec := fa_ctimensec r; fa_mode := fa_mode r; fa_nlink := fa_nlink r;
     fa_uid := fa_uid r; fa_gid := fa_gid r; fa_rdev := fa_rdev r; fa_blksize := n;
     fa_flags := fa_flags r |}.
(** fuse/node_attr.rs:255-257, mask fuse/kernel.rs:499 *)
Definition NodeAttr_set_flag_submount (b : bool) (r : fuse_attr) : fuse_attr :=
  {| fa_ino := fa_ino r; fa_size := fa_size r; fa_blocks := fa_blocks r;
     fa_atime := fa_atime r; fa_mtime := fa_mtime r; fa_ctime := fa_ctime r;
     fa_atimensec := fa_atimensec r; fa_mtimensec := fa_mtimensec r;
     fa_ctimensec := fa_ctimensec r; fa_mode := fa_mode r; fa_nlink := fa_nlink r;
     fa_uid := fa_uid r; fa_gid := fa_gid r; fa_rdev := fa_rdev r; fa_blksize := fa_blksize r;
     fa_flags := flags_set_to (fa_flags r) 1 b |}.
(** fuse/node_attr.rs:272-274, mask fuse/kernel.rs:500 *)
Definition NodeAttr_set_flag_dax (b : bool) (r : fuse_attr) : fuse_attr :=
  {| fa_ino := fa_ino r; fa_size := fa_size r; fa_blocks := fa_blocks r;
     fa_atime := fa_atime r; fa_mtime := fa_mtime r; fa_ctime := fa_ctime r;
     fa_atimensec := fa_atimensec r; fa_mtimensec := fa_mtimensec r;
     fa_ctimensec := fa_ctimensec r; fa_mode := fa_mode r; fa_nlink := fa_nlink r;
     fa_uid := fa_uid r; fa_gid := fa_gid r; fa_rdev := fa_rdev r; fa_blksize := fa_blksize r;
     fa_flags := flags_set_to (fa_flags r) 2 b |}.

(** fuse/kernel.rs:672-680 [fuse_entry_out]; also [Entry]
    (fuse/entry.rs:29-31), a wrapper of it *)
Record fuse_entry_out := {
  eo_nodeid : N;
  eo_generation : N;
  eo_entry_valid : N;
  eo_attr_valid : N;
  eo_entry_valid_nsec : N;
  eo_attr_valid_nsec : N;
  eo_attr : fuse_attr }.
(** fuse/entry.rs:72-74 *)
Definition Entry_set_generation (n : N) (r : fuse_entry_out) : fuse_entry_out :=
  {| eo_nodeid := eo_nodeid r; eo_generation := n; eo_entry_valid := eo_entry_valid r;
     eo_attr_valid := eo_attr_valid r; eo_entry_valid_nsec := eo_entry_valid_nsec r;
     eo_attr_valid_nsec := eo_attr_valid_nsec r; eo_attr := eo_attr r |}.
(** fuse/entry.rs:86-88, an update through [Entry::attributes_mut] *)
Definition Entry_set_attributes (f : fuse_attr -> fuse_attr) (r : fuse_entry_out) : fuse_entry_out :=
  {| eo_nodeid := eo_nodeid r; eo_generation := eo_generation r;
     eo_entry_valid := eo_entry_valid r; eo_attr_valid := eo_attr_valid r;
     eo_entry_valid_nsec := eo_entry_valid_nsec r; eo_attr_valid_nsec := eo_attr_valid_nsec r;
     eo_attr := f (eo_attr r) |}.
(** fuse/entry.rs:99-103 *)
Definition Entry_set_cache_timeout (d : N * N) (r : fuse_entry_out) : fuse_entry_out :=
  {| eo_nodeid := eo_nodeid r; eo_generation := eo_generation r;
     eo_entry_valid := fst (split_duration d); eo_attr_valid := eo_attr_valid r;
     eo_entry_valid_nsec := snd (split_duration d);
     eo_attr_valid_nsec := eo_attr_valid_nsec r; eo_attr := eo_attr r |}.
(** fuse/entry.rs:114-118 *)
Definition Entry_set_attribute_cache_timeout (d : N * N) (r : fuse_entry_out) : fuse_entry_out :=
  {| eo_nodeid := eo_nodeid r; eo_generation := eo_generation r;
     eo_entry_valid := eo_entry_valid r; eo_attr_valid := fst (split_duration d);
     eo_entry_valid_nsec := eo_entry_valid_nsec r;
     eo_attr_valid_nsec := snd (split_duration d); eo_attr := eo_attr r |}.

(** fuse/kernel.rs:754-759 [fuse_attr_out] *)
Record fuse_attr_out := {
  ao_attr_valid : N;
  ao_attr_valid_nsec : N;
  ao_attr : fuse_attr }.

(** fuse/kernel.rs:910-914 [fuse_open_out] *)
Record fuse_open_out := {
  oo_fh : N;
  oo_open_flags : N }.

(** fuse/kernel.rs:265-276 [fuse_kstatfs]; also [StatfsAttributes]
    (fuse/operations/statfs.rs:62-64) and [fuse_statfs_out] (fuse/kernel.rs:1019),
    wrappers of it *)
Record fuse_kstatfs := {
  sf_blocks : N;
  sf_bfree : N;
  sf_bavail : N;
  sf_files : N;
  sf_ffree : N;
  sf_bsize : N;
  sf_namelen : N;
  sf_frsize : N }.
(** fuse/operations/statfs.rs:85-87 *)
Definition Statfs_set_block_count (n : N) (r : fuse_kstatfs) : fuse_kstatfs :=
  {| sf_blocks := n; sf_bfree := sf_bfree r; sf_bavail := sf_bavail r; sf_files := sf_files r;
     sf_ffree := sf_ffree r; sf_bsize := sf_bsize r; sf_namelen := sf_namelen r;
     sf_frsize := sf_frsize r |}.
(** fuse/operations/statfs.rs:94-96 *)
Definition Statfs_set_block_size (n : N) (r : fuse_kstatfs) : fuse_kstatfs :=
  {| sf_blocks := sf_blocks r; sf_bfree := sf_bfree r; sf_bavail := sf_bavail r;
     sf_files := sf_files r; sf_ffree := sf_ffree r; sf_bsize := n;
     sf_namelen := sf_namelen r; sf_frsize := sf_frsize r |}.
(** fuse/operations/statfs.rs:103-105 *)
Definition Statfs_set_blocks_available (n : N) (r : fuse_kstatfs) : fuse_kstatfs :=
  {| sf_blocks := sf_blocks r; sf_bfree := sf_bfree r; sf_bavail := n; sf_files := sf_files r;
     sf_ffree := sf_ffree r; sf_bsize := sf_bsize r; sf_namelen := sf_namelen r;
     sf_frsize := sf_frsize r |}.
(** fuse/operations/statfs.rs:112-114 *)
Definition Statfs_set_blocks_free (n : N) (r : fuse_kstatfs) : fuse_kstatfs :=
  {| sf_blocks := sf_blocks r; sf_bfree := n; sf_bavail := sf_bavail r;
     sf_files := sf_files r; sf_ffree := sf_ffree r; sf_bsize := sf_bsize r;
     sf_namelen := sf_namelen r; sf_frsize := sf_frsize r |}.
(** fuse/operations/statfs.rs:121-123 *)
Definition Statfs_set_fragment_size (n : N) (r : fuse_kstatfs) : fuse_kstatfs :=
  {| sf_blocks := sf_blocks r; sf_bfree := sf_bfree r; sf_bavail := sf_bavail r;
     sf_files := sf_files r; sf_ffree := sf_ffree r; sf_bsize := sf_bsize r;
     sf_namelen := sf_namelen r; sf_frsize := n |}.
(** fuse/operations/statfs.rs:130-132 *)
Definition Statfs_set_inode_count (n : N) (r : fuse_kstatfs) : fuse_kstatfs :=
  {| sf_blocks := sf_blocks r; sf_bfree := sf_bfree r; sf_bavail := sf_bavail r;
     sf_files := n; sf_ffree := sf_ffree r; sf_bsize := sf_bsize r;
     sf_namelen := sf_namelen r; sf_frsize := sf_frsize r |}.
(** fuse/operations/statfs.rs:139-141 *)
Definition Statfs_set_inodes_free (n : N) (r : fuse_kstatfs) : fuse_kstatfs :=
  {| sf_blocks := sf_blocks r; sf_bfree := sf_bfree r; sf_bavail := sf_bavail r;
     sf_files := sf_files r; sf_ffree := n; sf_bsize := sf_bsize r;
     sf_namelen := sf_namelen r; sf_frsize := sf_frsize r |}.
(** fuse/operations/statfs.rs:148-150 *)
Definition Statfs_set_max_filename_length (n : N) (r : fuse_kstatfs) : fuse_kstatfs :=
  {| sf_blocks := sf_blocks r; sf_bfree := sf_bfree r; sf_bavail := sf_bavail r;
     sf_files := sf_files r; sf_ffree := sf_ffree r; sf_bsize := sf_bsize r; sf_namelen := n;
     sf_frsize := sf_frsize r |}.

(** fuse/kernel.rs:1167-1180 [fuse_init_out]; also [FuseInitResponse]
    (fuse/operations/fuse_init.rs:127-129), a wrapper of it *)
Record fuse_init_out := {
  io_major : N;
  io_minor : N;
  io_max_readahead : N;
  io_flags : N;
  io_max_background : N;
  io_congestion_threshold : N;
  io_max_write : N;
  io_time_gran : N;
  io_max_pages : N;
  io_map_alignment : N;
  io_flags2 : N }.
(** fuse/operations/fuse_init.rs:144-147 *)
Definition FuseInit_set_version (v : Version) (r : fuse_init_out) : fuse_init_out :=
  {| io_major := v_major v; io_minor := v_minor v; io_max_readahead := io_max_readahead r;
     io_flags := io_flags r; io_max_background := io_max_background r;
     io_congestion_threshold := io_congestion_threshold r; io_max_write := io_max_write r;
     io_time_gran := io_time_gran r; io_max_pages := io_max_pages r;
     io_map_alignment := io_map_alignment r; io_flags2 := io_flags2 r |}.
(** fuse/operations/fuse_init.rs:156-159 *)
Definition FuseInit_set_flags (bits : N) (r : fuse_init_out) : fuse_init_out :=
  {| io_major := io_major r; io_minor := io_minor r; io_max_readahead := io_max_readahead r;
     io_flags := N.land bits u32_max; io_max_background := io_max_background r;
     io_congestion_threshold := io_congestion_threshold r; io_max_write := io_max_write r;
     io_time_gran := io_time_gran r; io_max_pages := io_max_pages r;
     io_map_alignment := io_map_alignment r; io_flags2 := wrap32 (N.shiftr bits 32) |}.
(** fuse/operations/fuse_init.rs:173-175 *)
Definition FuseInit_set_max_readahead (n : N) (r : fuse_init_out) : fuse_init_out :=
  {| io_major := io_major r; io_minor := io_minor r; io_max_readahead := n;
     io_flags := io_flags r; io_max_background := io_max_background r;
     io_congestion_threshold := io_congestion_threshold r; io_max_write := io_max_write r;
     io_time_gran := io_time_gran r; io_max_pages := io_max_pages r;
     io_map_alignment := io_map_alignment r; io_flags2 := io_flags2 r |}.
(** fuse/operations/fuse_init.rs:182-184 *)
Definition FuseInit_set_max_background (n : N) (r : fuse_init_out) : fuse_init_out :=
  {| io_major := io_major r; io_minor := io_minor r; io_max_readahead := io_max_readahead r;
     io_flags := io_flags r; io_max_background := n;
     io_congestion_threshold := io_congestion_threshold r; io_max_write := io_max_write r;
     io_time_gran := io_time_gran r; io_max_pages := io_max_pages r;
     io_map_alignment := io_map_alignment r; io_flags2 := io_flags2 r |}.
(** fuse/operations/fuse_init.rs:191-193 *)
Definition FuseInit_set_congestion_threshold (n : N) (r : fuse_init_out) : fuse_init_out :=
  {| io_major := io_major r; io_minor := io_minor r; io_max_readahead := io_max_readahead r;
     io_flags := io_flags r; io_max_background := io_max_background r;
     io_congestion_threshold := n; io_max_write := io_max_write r;
     io_time_gran := io_time_gran r; io_max_pages := io_max_pages r;
     io_map_alignment := io_map_alignment r; io_flags2 := io_flags2 r |}.
(** fuse/operations/fuse_init.rs:200-202 *)
Definition FuseInit_set_max_write (n : N) (r : fuse_init_out) : fuse_init_out :=
  {| io_major := io_major r; io_minor := io_minor r; io_max_readahead := io_max_readahead r;
     io_flags := io_flags r; io_max_background := io_max_background r;
     io_congestion_threshold := io_congestion_threshold r; io_max_write := n;
     io_time_gran := io_time_gran r; io_max_pages := io_max_pages r;
     io_map_alignment := io_map_alignment r; io_flags2 := io_flags2 r |}.
(** fuse/operations/fuse_init.rs:209-211 *)
Definition FuseInit_set_time_granularity (n : N) (r : fuse_init_out) : fuse_init_out :=
  {| io_major := io_major r; io_minor := io_minor r; io_max_readahead := io_max_readahead r;
     io_flags := io_flags r; io_max_background := io_max_background r;
     io_congestion_threshold := io_congestion_threshold r; io_max_write := io_max_write r;
     io_time_gran := n; io_max_pages := io_max_pages r;
     io_map_alignment := io_map_alignment r; io_flags2 := io_flags2 r |}.

(** fuse/kernel.rs:1211-1221 [cuse_init_out] *)
Record cuse_init_out := {
  co_major : N;
  co_minor : N;
  co_flags : N;
  co_max_read : N;
  co_max_write : N;
  co_dev_major : N;
  co_dev_minor : N }.
(** fuse/operations/cuse_init.rs:103-106 *)
Definition CuseInit_set_version (v : Version) (r : cuse_init_out) : cuse_init_out :=
  {| co_major := v_major v; co_minor := v_minor v; co_flags := co_flags r;
     co_max_read := co_max_read r; co_max_write := co_max_write r;
     co_dev_major := co_dev_major r; co_dev_minor := co_dev_minor r |}.
(** fuse/operations/cuse_init.rs:113-115 *)
Definition CuseInit_set_flags (bits : N) (r : cuse_init_out) : cuse_init_out :=
  {| co_major := co_major r; co_minor := co_minor r; co_flags := bits;
     co_max_read := co_max_read r; co_max_write := co_max_write r;
     co_dev_major := co_dev_major r; co_dev_minor := co_dev_minor r |}.
(** fuse/operations/cuse_init.rs:129-131 *)
Definition CuseInit_set_max_read (n : N) (r : cuse_init_out) : cuse_init_out :=
  {| co_major := co_major r; co_minor := co_minor r; co_flags := co_flags r; co_max_read := n;
     co_max_write := co_max_write r; co_dev_major := co_dev_major r;
     co_dev_minor := co_dev_minor r |}.
(** fuse/operations/cuse_init.rs:138-140 *)
Definition CuseInit_set_max_write (n : N) (r : cuse_init_out) : cuse_init_out :=
  {| co_major := co_major r; co_minor := co_minor r; co_flags := co_flags r;
     co_max_read := co_max_read r; co_max_write := n; co_dev_major := co_dev_major r;
     co_dev_minor := co_dev_minor r |}.
(** fuse/operations/cuse_init.rs:150-153 *)
Definition CuseInit_set_device_number (maj min : N) (r : cuse_init_out) : cuse_init_out :=
  {| co_major := co_major r; co_minor := co_minor r; co_flags := co_flags r;
     co_max_read := co_max_read r; co_max_write := co_max_write r; co_dev_major := maj;
     co_dev_minor := min |}.

(** fuse/node_attr.rs:33-40 [NodeAttr::new] *)
Definition NodeAttr_new (node_id : N) : fuse_attr :=
  {| fa_ino := node_id; fa_size := 0; fa_blocks := 0; fa_atime := 0; fa_mtime := 0;
     fa_ctime := 0; fa_atimensec := 0; fa_mtimensec := 0; fa_ctimensec := 0; fa_mode := 0;
     fa_nlink := 0; fa_uid := 0; fa_gid := 0; fa_rdev := 0; fa_blksize := 0; fa_flags := 0 |}.

(** fuse/node_attr.rs:70-72; zero would be undefined behaviour. *)
Definition NodeAttr_node_id (r : fuse_attr) : out N := NodeId_new_unchecked (fa_ino r).
(** fuse/node_attr.rs:103-110 *)
Definition NodeAttr_atime (r : fuse_attr) : UnixTime :=
  UnixTime_from_timespec (fa_atime r) (fa_atimensec r).
(** fuse/node_attr.rs:121-128 *)
Definition NodeAttr_mtime (r : fuse_attr) : UnixTime :=
  UnixTime_from_timespec (fa_mtime r) (fa_mtimensec r).
(** fuse/node_attr.rs:139-146 *)
Definition NodeAttr_ctime (r : fuse_attr) : UnixTime :=
  UnixTime_from_timespec (fa_ctime r) (fa_ctimensec r).
(** fuse/node_attr.rs:77-79 *)
Definition NodeAttr_mode (r : fuse_attr) : N := fa_mode r.
(** fuse/node_attr.rs:90-92 *)
Definition NodeAttr_size (r : fuse_attr) : N := fa_size r.
(** fuse/node_attr.rs:157-159 *)
Definition NodeAttr_link_count (r : fuse_attr) : N := fa_nlink r.
(** fuse/node_attr.rs:174-176 *)
Definition NodeAttr_user_id (r : fuse_attr) : N := fa_uid r.
(** fuse/node_attr.rs:187-189 *)
Definition NodeAttr_group_id (r : fuse_attr) : N := fa_gid r.
(** fuse/node_attr.rs:205-207 *)
Definition NodeAttr_device_number (r : fuse_attr) : N := fa_rdev r.
(** fuse/node_attr.rs:223-225 *)
Definition NodeAttr_block_count (r : fuse_attr) : N := fa_blocks r.
(** fuse/node_attr.rs:236-238 *)
Definition NodeAttr_block_size (r : fuse_attr) : N := fa_blksize r.
(** fuse/node_attr.rs:249-251 *)
Definition NodeAttr_flag_submount (r : fuse_attr) : bool := flags_get (fa_flags r) 1.
(** fuse/node_attr.rs:264-266 *)
Definition NodeAttr_flag_dax (r : fuse_attr) : bool := flags_get (fa_flags r) 2.

(** fuse/entry.rs:37-45 [Entry::new] *)
Definition Entry_new (attr : fuse_attr) : fuse_entry_out :=
  {| eo_nodeid := fa_ino attr; eo_generation := 0; eo_entry_valid := 0; eo_attr_valid := 0;
     eo_entry_valid_nsec := 0; eo_attr_valid_nsec := 0; eo_attr := attr |}.

(** fuse/entry.rs:93-95 [Entry::cache_timeout] *)
Definition Entry_cache_timeout (r : fuse_entry_out) : N * N :=
  new_duration (eo_entry_valid r) (eo_entry_valid_nsec r).
(** fuse/entry.rs:108-110 [Entry::attribute_cache_timeout] *)
Definition Entry_attribute_cache_timeout (r : fuse_entry_out) : N * N :=
  new_duration (eo_attr_valid r) (eo_attr_valid_nsec r).

(** fuse/operations/statfs.rs:68-72 [StatfsAttributes::new] *)
Definition Statfs_new : fuse_kstatfs :=
  {| sf_blocks := 0; sf_bfree := 0; sf_bavail := 0; sf_files := 0; sf_ffree := 0;
     sf_bsize := 0; sf_namelen := 0; sf_frsize := 0 |}.

(** fuse/operations/fuse_init.rs:133-137 [FuseInitResponse::new] *)
Definition FuseInit_new : fuse_init_out :=
  {| io_major := 0; io_minor := 0; io_max_readahead := 0; io_flags := 0;
     io_max_background := 0; io_congestion_threshold := 0; io_max_write := 0;
     io_time_gran := 0; io_max_pages := 0; io_map_alignment := 0; io_flags2 := 0 |}.
(** fuse/operations/fuse_init.rs:150-154 [FuseInitResponse::flags] *)
Definition FuseInit_flags (r : fuse_init_out) : N :=
  N.lor (io_flags r) (N.shiftl (io_flags2 r) 32).

(** fuse/operations/cuse_init.rs:76-79 [CuseInitResponse] *)
Record CuseInitResponse := { cir_raw : cuse_init_out; cir_device_name : option bytes }.
(** fuse/kernel.rs:1224 [cuse_init_out::new] *)
Definition cuse_init_out_new : cuse_init_out :=
  {| co_major := 0; co_minor := 0; co_flags := 0; co_max_read := 0; co_max_write := 0;
     co_dev_major := 0; co_dev_minor := 0 |}.
(** fuse/operations/cuse_init.rs:83-88 *)
Definition CuseInitResponse_new (device_name : bytes) : CuseInitResponse :=
  {| cir_raw := cuse_init_out_new; cir_device_name := Some device_name |}.
(** fuse/operations/cuse_init.rs:91-96 *)
Definition CuseInitResponse_new_nameless : CuseInitResponse :=
  {| cir_raw := cuse_init_out_new; cir_device_name := None |}.

(** fuse/operations/create.rs:117-120 [CreateResponse] *)
Record CreateResponse := { cr_entry : fuse_entry_out; cr_open_out : fuse_open_out }.
(** fuse/operations/create.rs:125-130 *)
Definition CreateResponse_new (entry : fuse_entry_out) : CreateResponse :=
  {| cr_entry := entry; cr_open_out := {| oo_fh := 0; oo_open_flags := 0 |} |}.
(** fuse/operations/create.rs:151-153 *)
Definition CreateResponse_set_handle (h : N) (r : CreateResponse) : CreateResponse :=
  {| cr_entry := cr_entry r;
     cr_open_out := {| oo_fh := h; oo_open_flags := oo_open_flags (cr_open_out r) |} |}.
(** fuse/operations/create.rs:162-164 *)
Definition CreateResponse_set_flags (bits : N) (r : CreateResponse) : CreateResponse :=
  {| cr_entry := cr_entry r;
     cr_open_out := {| oo_fh := oo_fh (cr_open_out r); oo_open_flags := bits |} |}.

(** ** IOCTL replies *)

(** fuse/operations/ioctl.rs:407-410 [IoctlSlice] *)
Record IoctlSlice := { is_base : N; is_len : N }.

(** fuse/operations/ioctl.rs:435-438 [IoctlRetry] *)
Record IoctlRetry := { ir_input : list IoctlSlice; ir_output : list IoctlSlice }.

(** fuse/operations/ioctl.rs:440-461 [IoctlRetry::new]; [None] is
    [Err(TooManySlices)].  The sum at line 453 cannot overflow because both
    terms are at most 256. *)
Definition IoctlRetry_new (input output : list IoctlSlice) : option IoctlRetry :=
  if FUSE_IOCTL_MAX_IOV <? nlen input then None
  else if FUSE_IOCTL_MAX_IOV <? nlen output then None
  else if FUSE_IOCTL_MAX_IOV <? nlen input + nlen output then None
  else Some {| ir_input := input; ir_output := output |}.

(** fuse/operations/ioctl.rs:474-479 [IoctlRetryBuf] *)
Record IoctlRetryBuf := {
  rb_input : list IoctlSlice; rb_output : list IoctlSlice;
  rb_input_len : N; rb_output_len : N }.

(** fuse/operations/ioctl.rs:483-491 [IoctlRetryBuf::new] *)
Definition IoctlRetryBuf_new : IoctlRetryBuf :=
  let zero := {| is_base := 0; is_len := 0 |} in
  {| rb_input := repeat zero (N.to_nat FUSE_IOCTL_MAX_IOV);
     rb_output := repeat zero (N.to_nat FUSE_IOCTL_MAX_IOV);
     rb_input_len := 0; rb_output_len := 0 |}.

(** fuse/operations/ioctl.rs:494-496; slicing beyond the array panics. *)
Definition IoctlRetryBuf_input_slices (b : IoctlRetryBuf) : out (list IoctlSlice) :=
  if rb_input_len b <=? nlen (rb_input b) then Ret (take (rb_input_len b) (rb_input b)) else Panic.
(** fuse/operations/ioctl.rs:499-501 *)
Definition IoctlRetryBuf_output_slices (b : IoctlRetryBuf) : out (list IoctlSlice) :=
  if rb_output_len b <=? nlen (rb_output b) then Ret (take (rb_output_len b) (rb_output b))
  else Panic.

(** fuse/operations/ioctl.rs:504-509 [borrow] *)
Definition IoctlRetryBuf_borrow (b : IoctlRetryBuf) : out IoctlRetry :=
  i <- IoctlRetryBuf_input_slices b ;;
  o <- IoctlRetryBuf_output_slices b ;;
  Ret {| ir_input := i; ir_output := o |}.

(** fuse/operations/ioctl.rs:511-518 [check_add] *)
Definition IoctlRetryBuf_check_add (b : IoctlRetryBuf) : bool :=
  negb (FUSE_IOCTL_MAX_IOV <? rb_input_len b + rb_output_len b + 1).

(** fuse/operations/ioctl.rs:531-539 [add_input_slice].  The boolean is
    whether it returned [Ok]. *)
Definition IoctlRetryBuf_add_input (s : IoctlSlice) (b : IoctlRetryBuf)
  : out (bool * IoctlRetryBuf) :=
  if IoctlRetryBuf_check_add b then
    a <- array_set (rb_input_len b) s (rb_input b) ;;
    Ret (true, {| rb_input := a; rb_output := rb_output b;
                  rb_input_len := rb_input_len b + 1; rb_output_len := rb_output_len b |})
  else Ret (false, b).

(** fuse/operations/ioctl.rs:552-560 [add_output_slice] *)
Definition IoctlRetryBuf_add_output (s : IoctlSlice) (b : IoctlRetryBuf)
  : out (bool * IoctlRetryBuf) :=
  if IoctlRetryBuf_check_add b then
    a <- array_set (rb_output_len b) s (rb_output b) ;;
    Ret (true, {| rb_input := rb_input b; rb_output := a;
                  rb_input_len := rb_input_len b; rb_output_len := rb_output_len b + 1 |})
  else Ret (false, b).

(** fuse/operations/ioctl.rs:520-529 [add_input_ptr]: the slice covers one
    value of the pointed-to type, of [size] bytes. *)
Definition IoctlRetryBuf_add_input_ptr (addr size : N) : IoctlRetryBuf -> out (bool * IoctlRetryBuf) :=
  IoctlRetryBuf_add_input {| is_base := addr; is_len := size |}.
(** fuse/operations/ioctl.rs:541-550 [add_output_ptr] *)
Definition IoctlRetryBuf_add_output_ptr (addr size : N) : IoctlRetryBuf -> out (bool * IoctlRetryBuf) :=
  IoctlRetryBuf_add_output {| is_base := addr; is_len := size |}.

(** fuse/kernel.rs:1311-1316 [fuse_ioctl_out] *)
Record fuse_ioctl_out := {
  ioo_result : Z; ioo_flags : N; ioo_in_iovs : N; ioo_out_iovs : N }.

(** fuse/operations/ioctl.rs:291-294 [IoctlResponseOutput] *)
Inductive IoctlResponseOutput :=
| IoctlBytes (output : bytes)
| IoctlRetryOut (input output : list IoctlSlice).

(** fuse/operations/ioctl.rs:285-289 [IoctlResponse] *)
Record IoctlResponse := {
  ires_raw : fuse_ioctl_out; ires_output : IoctlResponseOutput; ires_set_result : bool }.

(** fuse/operations/ioctl.rs:298-304 *)
Definition IoctlResponse_new (output : bytes) : IoctlResponse :=
  {| ires_raw := {| ioo_result := 0; ioo_flags := 0; ioo_in_iovs := 0; ioo_out_iovs := 0 |};
     ires_output := IoctlBytes output; ires_set_result := false |}.
(** fuse/operations/ioctl.rs:307-321; [len() as u32] *)
Definition IoctlResponse_new_retry (retry : IoctlRetry) : IoctlResponse :=
  {| ires_raw := {| ioo_result := 0; ioo_flags := FUSE_IOCTL_RETRY;
                    ioo_in_iovs := wrap32 (nlen (ir_input retry));
                    ioo_out_iovs := wrap32 (nlen (ir_output retry)) |};
     ires_output := IoctlRetryOut (ir_input retry) (ir_output retry); ires_set_result := false |}.
(** fuse/operations/ioctl.rs:328-331 *)
Definition IoctlResponse_set_result (result : Z) (r : IoctlResponse) : IoctlResponse :=
  {| ires_raw := {| ioo_result := result; ioo_flags := ioo_flags (ires_raw r);
                    ioo_in_iovs := ioo_in_iovs (ires_raw r);
                    ioo_out_iovs := ioo_out_iovs (ires_raw r) |};
     ires_output := ires_output r; ires_set_result := true |}.

(** ** Byte images of the structs *)
Section Bytes.
Context {E : Endian}.

(** fuse/kernel.rs:236-253, 88 bytes *)
Definition fuse_attr_fields (r : fuse_attr) : list field :=
  [u64 (fa_ino r); u64 (fa_size r); u64 (fa_blocks r); u64 (fa_atime r); u64 (fa_mtime r);
   u64 (fa_ctime r); u32 (fa_atimensec r); u32 (fa_mtimensec r); u32 (fa_ctimensec r);
   u32 (fa_mode r); u32 (fa_nlink r); u32 (fa_uid r); u32 (fa_gid r); u32 (fa_rdev r);
   u32 (fa_blksize r); u32 (fa_flags r)].
(** fuse/kernel.rs:672-680, 128 bytes *)
Definition fuse_entry_out_fields (r : fuse_entry_out) : list field :=
  [u64 (eo_nodeid r); u64 (eo_generation r); u64 (eo_entry_valid r); u64 (eo_attr_valid r);
   u32 (eo_entry_valid_nsec r); u32 (eo_attr_valid_nsec r)] ++ fuse_attr_fields (eo_attr r).
(** fuse/kernel.rs:686 [fuse_entry_out::as_bytes] *)
Definition fuse_entry_out_bytes (r : fuse_entry_out) : bytes := wire (fuse_entry_out_fields r).
(** fuse/kernel.rs:754-759, 104 bytes; [dummy] is zero *)
Definition fuse_attr_out_bytes (r : fuse_attr_out) : bytes :=
  wire ([u64 (ao_attr_valid r); u32 (ao_attr_valid_nsec r); u32 0] ++ fuse_attr_fields (ao_attr r)).
(** fuse/kernel.rs:910-914, 16 bytes *)
Definition fuse_open_out_bytes (r : fuse_open_out) : bytes :=
  wire [u64 (oo_fh r); u32 (oo_open_flags r); u32 0].
(** fuse/kernel.rs:265-276, 80 bytes; [padding] and [spare] are zero *)
Definition fuse_kstatfs_bytes (r : fuse_kstatfs) : bytes :=
  wire [u64 (sf_blocks r); u64 (sf_bfree r); u64 (sf_bavail r); u64 (sf_files r);
        u64 (sf_ffree r); u32 (sf_bsize r); u32 (sf_namelen r); u32 (sf_frsize r);
        u32 0; u32 0; u32 0; u32 0; u32 0; u32 0; u32 0].
(** fuse/kernel.rs:1167-1180, 64 bytes; [unused] is zero *)
Definition fuse_init_out_bytes (r : fuse_init_out) : bytes :=
  wire [u32 (io_major r); u32 (io_minor r); u32 (io_max_readahead r); u32 (io_flags r);
        u16 (io_max_background r); u16 (io_congestion_threshold r); u32 (io_max_write r);
        u32 (io_time_gran r); u16 (io_max_pages r); u16 (io_map_alignment r);
        u32 (io_flags2 r); u32 0; u32 0; u32 0; u32 0; u32 0; u32 0; u32 0].
(** fuse/kernel.rs:1211-1221, 72 bytes; [unused] and [spare] are zero *)
Definition cuse_init_out_bytes (r : cuse_init_out) : bytes :=
  wire [u32 (co_major r); u32 (co_minor r); u32 0; u32 (co_flags r); u32 (co_max_read r);
        u32 (co_max_write r); u32 (co_dev_major r); u32 (co_dev_minor r);
        u32 0; u32 0; u32 0; u32 0; u32 0; u32 0; u32 0; u32 0; u32 0; u32 0].
(** fuse/kernel.rs:1311-1316, 16 bytes *)
Definition fuse_ioctl_out_bytes (r : fuse_ioctl_out) : bytes :=
  wire [u32 (i32_as_u32 (ioo_result r)); u32 (ioo_flags r); u32 (ioo_in_iovs r);
        u32 (ioo_out_iovs r)].
(** fuse/operations/ioctl.rs:406-410 [repr(C)] [IoctlSlice], 16 bytes each *)
Definition IoctlSlice_bytes (s : IoctlSlice) : bytes := wire [u64 (is_base s); u64 (is_len s)].
(** fuse/operations/ioctl.rs:369-380, a slice of [IoctlSlice] as bytes *)
Definition ioctl_slices_bytes (l : list IoctlSlice) : bytes := flat_map IoctlSlice_bytes l.
(** fuse/kernel.rs:1413-1417 [fuse_out_header], 16 bytes *)
Definition out_header_bytes (len : N) (error : Z) (unique : N) : bytes :=
  wire [u32 len; u32 (i32_as_u32 error); u64 unique].

(** ** fuse/server.rs: sending *)

(** fuse/server.rs [SendError]; the payload of [Other] is an error number. *)
Inductive SendError := SE_NotFound | SE_ReplyTooBig (len : N) | SE_Other (code : N).

(** Every sender function ends either by returning an error without touching
    the socket or by one call of [socket.send] whose result it returns
    (fuse/server.rs:548-656). *)
Inductive send_call := Refuse (e : SendError) | Call (buf : SendBuf).

(** fuse/server.rs:548-558 [send_0] *)
Definition send_0 (request_id : N) (error : Z) : send_call :=
  Call (SendBuf_new_1 OUT_HEADER_SIZE (out_header_bytes OUT_HEADER_SIZE error request_id)).

(** fuse/server.rs:560-578 [send_1] *)
Definition send_1 (request_id : N) (b1 : bytes) : send_call :=
  let len := sat_add64 OUT_HEADER_SIZE (nlen b1) in
  if u32_max <? len then Refuse (SE_ReplyTooBig len)
  else Call (SendBuf_new_2 len (out_header_bytes (wrap32 len) 0 request_id) b1).

(** fuse/server.rs:580-601 [send_2] *)
Definition send_2 (request_id : N) (b1 b2 : bytes) : send_call :=
  let len := sat_add64 (sat_add64 OUT_HEADER_SIZE (nlen b1)) (nlen b2) in
  if u32_max <? len then Refuse (SE_ReplyTooBig len)
  else Call (SendBuf_new_3 len (out_header_bytes (wrap32 len) 0 request_id) b1 b2).

(** fuse/server.rs:603-627 [send_3] *)
Definition send_3 (request_id : N) (b1 b2 b3 : bytes) : send_call :=
  let len := sat_add64 (sat_add64 (sat_add64 OUT_HEADER_SIZE (nlen b1)) (nlen b2)) (nlen b3) in
  if u32_max <? len then Refuse (SE_ReplyTooBig len)
  else Call (SendBuf_new_4 len (out_header_bytes (wrap32 len) 0 request_id) b1 b2 b3).

(** fuse/server.rs:629-656 [send_4] *)
Definition send_4 (request_id : N) (b1 b2 b3 b4 : bytes) : send_call :=
  let len := sat_add64 (sat_add64 (sat_add64 (sat_add64 OUT_HEADER_SIZE (nlen b1)) (nlen b2))
               (nlen b3)) (nlen b4) in
  if u32_max <? len then Refuse (SE_ReplyTooBig len)
  else Call (SendBuf_new_5 len (out_header_bytes (wrap32 len) 0 request_id) b1 b2 b3 b4).

(** [&buf[..n]] in Rust on bytes known to be long enough (the structs have a
    fixed size above [n]), fuse/kernel_traits.rs:62-109. *)
Definition prefix (n : N) (b : bytes) : bytes := take n b.

(** The reply objects: every type with a [FuseReply] or [CuseReply]
    implementation.  fuse/kernel_traits.rs:46-55 (one-struct replies),
    57-109, fuse/entry.rs:132-140, and the operations. *)
Inductive reply :=
| RBmapOut (block : N)
| RGetxattrOut (size : N)
| RLkOut (start end_ type pid : N)
| RLseekOut (offset : N)
| ROpenOut (r : fuse_open_out)
| RPollOut (revents : N)
| RWriteOut (size : N)
| RAttrOut (r : fuse_attr_out)
| REntryOut (r : fuse_entry_out)
| RInitOut (r : fuse_init_out)
| RStatfsOut (r : fuse_kstatfs)
| RReaddirEntries (buf : bytes)
| RListxattrNames (buf : bytes)
| RCuseInit (r : CuseInitResponse)
| RIoctl (r : IoctlResponse)
| RCreateResponse (r : CreateResponse).

(** fuse/server.rs:525-541 [CuseReply::send_to], [FuseReply::send_to] for the
    session's minor version; the implementations are cited at each case. *)
Definition send_to (minor request_id : N) (r : reply) : send_call :=
  match r with
  (* fuse/kernel_traits.rs:40,27 *)
  | RBmapOut block => send_1 request_id (wire [u64 block])
  | RGetxattrOut size => send_1 request_id (wire [u32 size; u32 0])
  | RLkOut start end_ type pid => send_1 request_id (wire [u64 start; u64 end_; u32 type; u32 pid])
  | RLseekOut offset => send_1 request_id (wire [u64 offset])
  | ROpenOut r => send_1 request_id (fuse_open_out_bytes r)
  | RPollOut revents => send_1 request_id (wire [u32 revents; u32 0])
  | RWriteOut size => send_1 request_id (wire [u32 size; u32 0])
  (* fuse/kernel_traits.rs:57-68 *)
  | RAttrOut r =>
    let buf := fuse_attr_out_bytes r in
    send_1 request_id (if minor <? 9 then prefix FUSE_COMPAT_ATTR_OUT_SIZE buf else buf)
  (* fuse/kernel_traits.rs:70-81 *)
  | REntryOut r =>
    let buf := fuse_entry_out_bytes r in
    send_1 request_id (if minor <? 9 then prefix FUSE_COMPAT_ENTRY_OUT_SIZE buf else buf)
  (* fuse/kernel_traits.rs:83-96: sized by the minor version in the reply *)
  | RInitOut r =>
    let buf := fuse_init_out_bytes r in
    send_1 request_id
      (if io_minor r <? 5 then prefix FUSE_COMPAT_INIT_OUT_SIZE buf
       else if io_minor r <? 23 then prefix FUSE_COMPAT_22_INIT_OUT_SIZE buf else buf)
  (* fuse/kernel_traits.rs:98-109 *)
  | RStatfsOut r =>
    let buf := fuse_kstatfs_bytes r in
    send_1 request_id (if minor <? 4 then prefix FUSE_COMPAT_STATFS_SIZE buf else buf)
  (* fuse/operations/readdir.rs:196-203 *)
  | RReaddirEntries buf => send_1 request_id buf
  (* fuse/operations/listxattr.rs:95-102 *)
  | RListxattrNames buf => send_1 request_id buf
  (* fuse/operations/cuse_init.rs:172-187 *)
  | RCuseInit r =>
    match cir_device_name r with
    | Some name =>
      send_4 request_id (cuse_init_out_bytes (cir_raw r))
        [x44; x45; x56; x4e; x41; x4d; x45; x3d] name [x00]
    | None => send_1 request_id (cuse_init_out_bytes (cir_raw r))
    end
  (* fuse/operations/ioctl.rs:359-403 *)
  | RIoctl r =>
    match ires_output r with
    | IoctlBytes output => send_2 request_id (fuse_ioctl_out_bytes (ires_raw r)) output
    | IoctlRetryOut i o =>
      send_3 request_id (fuse_ioctl_out_bytes (ires_raw r)) (ioctl_slices_bytes i)
        (ioctl_slices_bytes o)
    end
  (* fuse/operations/create.rs:184-195 *)
  | RCreateResponse r =>
    let buf := fuse_entry_out_bytes (cr_entry r) in
    send_2 request_id (if minor <? 9 then prefix FUSE_COMPAT_ENTRY_OUT_SIZE buf else buf)
      (fuse_open_out_bytes (cr_open_out r))
  end.

(** The ways to reply to a request: the methods at fuse/server.rs:682-702,
    729-749. *)
Inductive answer :=
| AOk (r : reply)
| AOkBuf (buf : bytes)
| AOkEmpty
| AErr (error : Z).

(** fuse/server.rs:682-702 [CuseReplySender], 729-749 [FuseReplySender]:
    [ok], [ok_buf], [ok_empty], [err]; [minor] is the session's version and
    [request_id] the (nonzero) id of the request being answered. *)
Definition answer_call (minor request_id : N) (a : answer) : send_call :=
  match a with
  | AOk r => send_to minor request_id r
  | AOkBuf buf => send_1 request_id buf
  | AOkEmpty => send_0 request_id 0
  | AErr error => send_0 request_id error
  end.

(** ** Error numbers *)

(** fuse/os/linux.rs:150-154 [fuse_error]; [errno] is a nonzero u16. *)
Definition linux_fuse_error (errno : N) : Z := - Z.of_N errno.

(** [i32::wrapping_neg], fuse/os/freebsd.rs:50 *)
Definition wrapping_neg32 (x : Z) : Z := if (x =? - 2 ^ 31)%Z then x else (- x)%Z.

(** fuse/os/freebsd.rs:43-53 [fuse_error]; [errno] is an i32.  The result 0
    stored in a NonZeroI32 is undefined behaviour. *)
Definition freebsd_fuse_error (errno : Z) : out Z :=
  let neg := if ((errno <? 0) || (65535 <? errno))%Z then (-65535)%Z else wrapping_neg32 errno in
  if (neg =? 0)%Z then Ub else Ret neg.

(** ** fuse/notify.rs *)

(** fuse/notify.rs:30-35 [FuseNotification] with the raw structs of its
    variants (fuse/kernel.rs:1360, 1472-1476, 1488-1492, 1504-1509). *)
Inductive FuseNotification :=
| NDelete (parent child namelen : N) (name : bytes)
| NInvalidateEntry (parent namelen : N) (name : bytes)
| NInvalidateInode (ino : N) (off len : Z)
| NPoll (kh : N).

(** fuse/notify.rs:124-137 [Delete::new]; [len() as u32] *)
Definition Delete_new (parent_id node_id : N) (name : bytes) : FuseNotification :=
  NDelete parent_id node_id (wrap32 (nlen name)) name.
(** fuse/notify.rs:177-188 [InvalidateEntry::new] *)
Definition InvalidateEntry_new (parent_id : N) (name : bytes) : FuseNotification :=
  NInvalidateEntry parent_id (wrap32 (nlen name)) name.
(** [u64 -> i64] conversion of fuse/notify.rs:243-246 and 258-261 *)
Definition try_into_i64_or_max (x : N) : Z :=
  if x <=? i64_max then Z.of_N x else Z.of_N i64_max.
(** fuse/notify.rs:241-249 [InvalidateInode::set_offset] *)
Definition InvalidateInode_off (offset : option N) : Z :=
  match offset with Some o => try_into_i64_or_max o | None => (-1)%Z end.
(** fuse/notify.rs:256-264 [InvalidateInode::set_size] *)
Definition InvalidateInode_len (size : option N) : Z :=
  match size with Some s => try_into_i64_or_max s | None => 0%Z end.
(** fuse/notify.rs:221-229 [InvalidateInode::new] *)
Definition InvalidateInode_new (node_id : N) : FuseNotification := NInvalidateInode node_id 0 0.
(** fuse/notify.rs:241-249; a no-op on other notifications, which do not have
    the method *)
Definition InvalidateInode_set_offset (offset : option N) (n : FuseNotification)
  : FuseNotification :=
  match n with
  | NInvalidateInode ino _ len => NInvalidateInode ino (InvalidateInode_off offset) len
  | _ => n
  end.
(** fuse/notify.rs:256-264 *)
Definition InvalidateInode_set_size (size : option N) (n : FuseNotification) : FuseNotification :=
  match n with
  | NInvalidateInode ino off _ => NInvalidateInode ino off (InvalidateInode_len size)
  | _ => n
  end.

(** fuse/notify.rs:71-104 [encode_notify] with the header of
    [ResponseHeader::new_notification] (fuse/fuse.rs:302-310).  Line 83-85: a
    zero length stored in a NonZeroU32 is undefined behaviour. *)
Definition encode_notify (code : N) (body : bytes) (name : option bytes) : out SendBuf :=
  let message_len := OUT_HEADER_SIZE + nlen body +
    match name with Some n => nlen n + 1 | None => 0 end in
  if wrap32 message_len =? 0 then Ub
  else
    let header := out_header_bytes (wrap32 message_len) (Z.of_N code) 0 in
    Ret match name with
        | Some n => SendBuf_new_4 message_len header body n [x00]
        | None => SendBuf_new_2 message_len header body
        end.

(** fuse/notify.rs:38-69 [FuseNotification::encode] *)
Definition notification_encode (n : FuseNotification) : out SendBuf :=
  match n with
  | NPoll kh => encode_notify FUSE_NOTIFY_POLL (wire [u64 kh]) None
  | NInvalidateEntry parent namelen name =>
    encode_notify FUSE_NOTIFY_INVAL_ENTRY (wire [u64 parent; u32 namelen; u32 0]) (Some name)
  | NInvalidateInode ino off len =>
    encode_notify FUSE_NOTIFY_INVAL_INODE
      (wire [u64 ino; u64 (i64_as_u64 off); u64 (i64_as_u64 len)]) None
  | NDelete parent child namelen name =>
    encode_notify FUSE_NOTIFY_DELETE (wire [u64 parent; u64 child; u32 namelen; u32 0]) (Some name)
  end.

End Bytes.
