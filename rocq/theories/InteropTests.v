(** The texts which the interoperability tests of the repository expect for
    requests sent by a kernel, replayed in the model: each message below was
    laid out as Linux does, with the numbers of the text; decoding and printing
    it must give the text, after the replacements the tests make of values that
    differ between runs.  None of this is used by the theorems. *)

From Coq Require Import String.
From Verif Require Import Base Kernel CoreModel DecodeModel OpsModel FlagsModel HostModel DebugModel.
From Coq Require Import List NArith Bool.
Import ListNotations.
Open Scope string_scope.
Open Scope list_scope.
Open Scope N_scope.

Local Instance LE : Endian := false.

(** [request_str.replace_range]: what is after [key: ] up to the next comma
    (e.g. fuse/operations/flush/flush_interop_test.rs:104-111) *)
Fixpoint until_comma (s : bytes) : bytes :=
  match s with
  | [] => []
  | b :: rest => if Byte.eqb b x2c then s else until_comma rest
  end.
(** the same (fuse/operations/flush/flush_interop_test.rs:104-111) *)
Fixpoint starts (key s : bytes) : option bytes :=
  match key, s with
  | [], _ => Some s
  | k :: key, b :: s => if Byte.eqb k b then starts key s else None
  | _, [] => None
  end.
(** the same (fuse/operations/flush/flush_interop_test.rs:104-111) *)
Fixpoint stub (key value s : bytes) : bytes :=
  match s with
  | [] => []
  | b :: rest =>
    match starts key s with
    | Some after => key ++ value ++ until_comma after
    | None => b :: stub key value rest
    end
  end.
(** what the tests compare (e.g. fuse/operations/fsync/fsync_interop_test.rs:88-90);
    Linux 5.10 or later, and no extension of [setxattr] *)
Definition shown (is_cuse : bool) (t : rtype) (buf : bytes) : bytes :=
  match rq <- Request_new buf ;;
        decode_view is_cuse {| cf_minor := 38; cf_setxattr_ext := false; cf_overflow_checks := true |} t rq with
  | Ret v => pretty (debug_view linux_locks v)
  | _ => txt "not decoded"
  end.

(** fuse/operations/access/access_interop_test.rs:125-128 *)
Example interop_access_1 :
  shown false RAccess [x30; x00; x00; x00; x22; x00; x00; x00; xcd; xab; x00; x00; x00; x00; x00; x00;
    x02; x00; x00; x00; x00; x00; x00; x00; xe8; x03; x00; x00; x64; x00; x00; x00; xe1; x10; x00;
    x00; x00; x00; x00; x00; x00; x00; x00; x00; x00; x00; x00; x00] =
  txt "AccessRequest {
    node_id: 2,
    mask: 0,
}".
Proof. vm_compute. reflexivity. Qed.

(** fuse/operations/access/access_interop_test.rs:138-141, 176-179, 223-226, 279-282 *)
Example interop_access_2 :
  shown false RAccess [x30; x00; x00; x00; x22; x00; x00; x00; xcd; xab; x00; x00; x00; x00; x00; x00;
    x01; x00; x00; x00; x00; x00; x00; x00; xe8; x03; x00; x00; x64; x00; x00; x00; xe1; x10; x00;
    x00; x00; x00; x00; x00; x01; x00; x00; x00; x00; x00; x00; x00] =
  txt "AccessRequest {
    node_id: 1,
    mask: 1,
}".
Proof. vm_compute. reflexivity. Qed.

(** fuse/operations/access/access_interop_test.rs:162-165, 185-188 *)
Example interop_access_3 :
  shown false RAccess [x30; x00; x00; x00; x22; x00; x00; x00; xcd; xab; x00; x00; x00; x00; x00; x00;
    x02; x00; x00; x00; x00; x00; x00; x00; xe8; x03; x00; x00; x64; x00; x00; x00; xe1; x10; x00;
    x00; x00; x00; x00; x00; x04; x00; x00; x00; x00; x00; x00; x00] =
  txt "AccessRequest {
    node_id: 2,
    mask: 4,
}".
Proof. vm_compute. reflexivity. Qed.

(** fuse/operations/access/access_interop_test.rs:209-212, 232-235 *)
Example interop_access_4 :
  shown false RAccess [x30; x00; x00; x00; x22; x00; x00; x00; xcd; xab; x00; x00; x00; x00; x00; x00;
    x02; x00; x00; x00; x00; x00; x00; x00; xe8; x03; x00; x00; x64; x00; x00; x00; xe1; x10; x00;
    x00; x00; x00; x00; x00; x02; x00; x00; x00; x00; x00; x00; x00] =
  txt "AccessRequest {
    node_id: 2,
    mask: 2,
}".
Proof. vm_compute. reflexivity. Qed.

(** fuse/operations/access/access_interop_test.rs:256-259 *)
Example interop_getattr_1 :
  shown false RGetattr [x38; x00; x00; x00; x03; x00; x00; x00; xcd; xab; x00; x00; x00; x00; x00;
    x00; x02; x00; x00; x00; x00; x00; x00; x00; xe8; x03; x00; x00; x64; x00; x00; x00; xe1; x10;
    x00; x00; x00; x00; x00; x00; x00; x00; x00; x00; x00; x00; x00; x00; x00; x00; x00; x00; x00;
    x00; x00; x00] =
  txt "GetattrRequest {
    node_id: 2,
    handle: None,
}".
Proof. vm_compute. reflexivity. Qed.

(** fuse/operations/access/access_interop_test.rs:265-268, 288-291 *)
Example interop_access_5 :
  shown false RAccess [x30; x00; x00; x00; x22; x00; x00; x00; xcd; xab; x00; x00; x00; x00; x00; x00;
    x02; x00; x00; x00; x00; x00; x00; x00; xe8; x03; x00; x00; x64; x00; x00; x00; xe1; x10; x00;
    x00; x00; x00; x00; x00; x01; x00; x00; x00; x00; x00; x00; x00] =
  txt "AccessRequest {
    node_id: 2,
    mask: 1,
}".
Proof. vm_compute. reflexivity. Qed.

(** fuse/operations/bmap/bmap_interop_test.rs:167-171 *)
Example interop_bmap_1 :
  shown false RBmap [x38; x00; x00; x00; x25; x00; x00; x00; xcd; xab; x00; x00; x00; x00; x00; x00;
    x02; x00; x00; x00; x00; x00; x00; x00; xe8; x03; x00; x00; x64; x00; x00; x00; xe1; x10; x00;
    x00; x00; x00; x00; x00; xd2; x04; x00; x00; x00; x00; x00; x00; x00; x02; x00; x00; x00; x00;
    x00; x00] =
  txt "BmapRequest {
    node_id: 2,
    block: 1234,
    block_size: 512,
}".
Proof. vm_compute. reflexivity. Qed.

(** fuse/operations/bmap/bmap_interop_test.rs:198-202 *)
Example interop_bmap_2 :
  shown false RBmap [x38; x00; x00; x00; x25; x00; x00; x00; xcd; xab; x00; x00; x00; x00; x00; x00;
    x02; x00; x00; x00; x00; x00; x00; x00; xe8; x03; x00; x00; x64; x00; x00; x00; xe1; x10; x00;
    x00; x00; x00; x00; x00; xd2; x04; x00; x00; x00; x00; x00; x00; x00; x04; x00; x00; x00; x00;
    x00; x00] =
  txt "BmapRequest {
    node_id: 2,
    block: 1234,
    block_size: 1024,
}".
Proof. vm_compute. reflexivity. Qed.

(** fuse/operations/copy_file_range/copy_file_range_interop_test.rs:179-183 *)
Example interop_open_1 :
  shown false ROpen [x30; x00; x00; x00; x0e; x00; x00; x00; xcd; xab; x00; x00; x00; x00; x00; x00;
    x02; x00; x00; x00; x00; x00; x00; x00; xe8; x03; x00; x00; x64; x00; x00; x00; xe1; x10; x00;
    x00; x00; x00; x00; x00; x00; x80; x00; x00; x00; x00; x00; x00] =
  txt "OpenRequest {
    node_id: 2,
    flags: OpenRequestFlags {},
    open_flags: 0x00008000,
}".
Proof. vm_compute. reflexivity. Qed.

(** fuse/operations/copy_file_range/copy_file_range_interop_test.rs:191-195 *)
Example interop_open_2 :
  shown false ROpen [x30; x00; x00; x00; x0e; x00; x00; x00; xcd; xab; x00; x00; x00; x00; x00; x00;
    x03; x00; x00; x00; x00; x00; x00; x00; xe8; x03; x00; x00; x64; x00; x00; x00; xe1; x10; x00;
    x00; x00; x00; x00; x00; x01; x80; x00; x00; x00; x00; x00; x00] =
  txt "OpenRequest {
    node_id: 3,
    flags: OpenRequestFlags {},
    open_flags: 0x00008001,
}".
Proof. vm_compute. reflexivity. Qed.

(** fuse/operations/copy_file_range/copy_file_range_interop_test.rs:203-212 *)
Example interop_copyfilerange_1 :
  shown false RCopyFileRange [x60; x00; x00; x00; x2f; x00; x00; x00; xcd; xab; x00; x00; x00; x00;
    x00; x00; x02; x00; x00; x00; x00; x00; x00; x00; xe8; x03; x00; x00; x64; x00; x00; x00; xe1;
    x10; x00; x00; x00; x00; x00; x00; x0a; x00; x00; x00; x00; x00; x00; x00; xd2; x04; x00; x00;
    x00; x00; x00; x00; x03; x00; x00; x00; x00; x00; x00; x00; x14; x00; x00; x00; x00; x00; x00;
    x00; x2e; x16; x00; x00; x00; x00; x00; x00; xe8; x03; x00; x00; x00; x00; x00; x00; x00; x00;
    x00; x00; x00; x00; x00; x00] =
  txt "CopyFileRangeRequest {
    input_node_id: 2,
    input_handle: 10,
    input_offset: 1234,
    output_node_id: 3,
    output_handle: 20,
    output_offset: 5678,
    len: 1000,
    flags: CopyFileRangeRequestFlags {},
}".
Proof. vm_compute. reflexivity. Qed.

(** fuse/operations/create/create_interop_test.rs:114-121, 152-159, 194-201 *)
Example interop_create_1 :
  shown false RCreate [x43; x00; x00; x00; x23; x00; x00; x00; xcd; xab; x00; x00; x00; x00; x00; x00;
    x01; x00; x00; x00; x00; x00; x00; x00; xe8; x03; x00; x00; x64; x00; x00; x00; xe1; x10; x00;
    x00; x00; x00; x00; x00; xc1; x80; x00; x00; xa4; x81; x00; x00; x12; x00; x00; x00; x00; x00;
    x00; x00; x63; x72; x65; x61; x74; x65; x2e; x74; x78; x74; x00] =
  txt "CreateRequest {
    node_id: 1,
    name: ""create.txt"",
    flags: CreateRequestFlags {},
    open_flags: 0x000080C1,
    mode: 0o100644,
    umask: 18,
}".
Proof. vm_compute. reflexivity. Qed.

(** fuse/operations/cuse_init/cuse_init_interop_test.rs:164-168, 224-228 *)
Example interop_open_cuse_1 :
  shown true ROpen [x30; x00; x00; x00; x0e; x00; x00; x00; xcd; xab; x00; x00; x00; x00; x00; x00;
    x01; x00; x00; x00; x00; x00; x00; x00; xe8; x03; x00; x00; x64; x00; x00; x00; xe1; x10; x00;
    x00; x00; x00; x00; x00; x02; x80; x00; x00; x00; x00; x00; x00] =
  txt "OpenRequest {
    node_id: 1,
    flags: OpenRequestFlags {},
    open_flags: 0x00008002,
}".
Proof. vm_compute. reflexivity. Qed.

(** fuse/operations/cuse_init/cuse_init_interop_test.rs:174-181 *)
Example interop_read_cuse_1 :
  stub (txt " lock_owner: ") (txt "FAKE_LOCK_OWNER")   (shown true RRead [x50; x00; x00; x00; x0f;
    x00; x00; x00; xcd; xab; x00; x00; x00; x00; x00; x00; x01; x00; x00; x00; x00; x00; x00; x00;
    xe8; x03; x00; x00; x64; x00; x00; x00; xe1; x10; x00; x00; x00; x00; x00; x00; x39; x30; x00;
    x00; x00; x00; x00; x00; x00; x00; x00; x00; x00; x00; x00; x00; x0f; x00; x00; x00; x02; x00;
    x00; x00; x15; x5f; xd0; xac; x4b; x9b; xb6; x01; x02; x80; x00; x00; x00; x00; x00; x00]) =
  txt "ReadRequest {
    node_id: 1,
    size: 15,
    offset: 0,
    handle: 12345,
    lock_owner: FAKE_LOCK_OWNER,
    open_flags: 0x00008002,
}".
Proof. vm_compute. reflexivity. Qed.

(** fuse/operations/cuse_init/cuse_init_interop_test.rs:187-192, 250-255 *)
Example interop_release_cuse_1 :
  shown true RRelease [x40; x00; x00; x00; x12; x00; x00; x00; xcd; xab; x00; x00; x00; x00; x00; x00;
    x01; x00; x00; x00; x00; x00; x00; x00; xe8; x03; x00; x00; x64; x00; x00; x00; xe1; x10; x00;
    x00; x00; x00; x00; x00; x39; x30; x00; x00; x00; x00; x00; x00; x02; x80; x00; x00; x00; x00;
    x00; x00; x00; x00; x00; x00; x00; x00; x00; x00] =
  txt "ReleaseRequest {
    node_id: 1,
    handle: 12345,
    lock_owner: None,
    open_flags: 0x00008002,
}".
Proof. vm_compute. reflexivity. Qed.

(** fuse/operations/cuse_init/cuse_init_interop_test.rs:234-244 *)
Example interop_write_cuse_1 :
  stub (txt " lock_owner: ") (txt "FAKE_LOCK_OWNER")   (shown true RWrite [x60; x00; x00; x00; x10;
    x00; x00; x00; xcd; xab; x00; x00; x00; x00; x00; x00; x01; x00; x00; x00; x00; x00; x00; x00;
    xe8; x03; x00; x00; x64; x00; x00; x00; xe1; x10; x00; x00; x00; x00; x00; x00; x39; x30; x00;
    x00; x00; x00; x00; x00; x00; x00; x00; x00; x00; x00; x00; x00; x10; x00; x00; x00; x02; x00;
    x00; x00; x15; x5f; xd0; xac; x4b; x9b; xb6; x01; x02; x80; x00; x00; x00; x00; x00; x00; x6e;
    x65; x77; x5f; x66; x69; x6c; x65; x5f; x63; x6f; x6e; x74; x65; x6e; x74]) =
  txt "WriteRequest {
    node_id: 1,
    offset: 0,
    handle: 12345,
    value: ""new_file_content"",
    flags: WriteRequestFlags {
        WRITE_LOCKOWNER,
    },
    lock_owner: FAKE_LOCK_OWNER,
    open_flags: 0x00008002,
}".
Proof. vm_compute. reflexivity. Qed.

(** fuse/operations/fallocate/fallocate_interop_test.rs:122-128, 150-156 *)
Example interop_fallocate_1 :
  shown false RFallocate [x48; x00; x00; x00; x2b; x00; x00; x00; xcd; xab; x00; x00; x00; x00; x00;
    x00; x02; x00; x00; x00; x00; x00; x00; x00; xe8; x03; x00; x00; x64; x00; x00; x00; xe1; x10;
    x00; x00; x00; x00; x00; x00; x39; x30; x00; x00; x00; x00; x00; x00; x00; x04; x00; x00; x00;
    x00; x00; x00; x00; x10; x00; x00; x00; x00; x00; x00; x00; x00; x00; x00; x00; x00; x00; x00] =
  txt "FallocateRequest {
    node_id: 2,
    handle: 12345,
    offset: 1024,
    length: 4096,
    fallocate_flags: 0x00000000,
}".
Proof. vm_compute. reflexivity. Qed.

(** fuse/operations/fallocate/fallocate_interop_test.rs:180-186 *)
Example interop_fallocate_2 :
  shown false RFallocate [x48; x00; x00; x00; x2b; x00; x00; x00; xcd; xab; x00; x00; x00; x00; x00;
    x00; x02; x00; x00; x00; x00; x00; x00; x00; xe8; x03; x00; x00; x64; x00; x00; x00; xe1; x10;
    x00; x00; x00; x00; x00; x00; x39; x30; x00; x00; x00; x00; x00; x00; x00; x04; x00; x00; x00;
    x00; x00; x00; x00; x10; x00; x00; x00; x00; x00; x00; x01; x00; x00; x00; x00; x00; x00; x00] =
  txt "FallocateRequest {
    node_id: 2,
    handle: 12345,
    offset: 1024,
    length: 4096,
    fallocate_flags: 0x00000001,
}".
Proof. vm_compute. reflexivity. Qed.

(** fuse/operations/fallocate/fallocate_interop_test.rs:215-221 *)
Example interop_fallocate_3 :
  shown false RFallocate [x48; x00; x00; x00; x2b; x00; x00; x00; xcd; xab; x00; x00; x00; x00; x00;
    x00; x02; x00; x00; x00; x00; x00; x00; x00; xe8; x03; x00; x00; x64; x00; x00; x00; xe1; x10;
    x00; x00; x00; x00; x00; x00; x39; x30; x00; x00; x00; x00; x00; x00; x00; x04; x00; x00; x00;
    x00; x00; x00; x00; x10; x00; x00; x00; x00; x00; x00; x03; x00; x00; x00; x00; x00; x00; x00] =
  txt "FallocateRequest {
    node_id: 2,
    handle: 12345,
    offset: 1024,
    length: 4096,
    fallocate_flags: 0x00000003,
}".
Proof. vm_compute. reflexivity. Qed.

(** fuse/operations/flush/flush_interop_test.rs:146-150 *)
Example interop_flush_1 :
  stub (txt " lock_owner: ") (txt "FAKE_LOCK_OWNER")   (shown false RFlush [x40; x00; x00; x00; x19;
    x00; x00; x00; xcd; xab; x00; x00; x00; x00; x00; x00; x02; x00; x00; x00; x00; x00; x00; x00;
    xe8; x03; x00; x00; x64; x00; x00; x00; xe1; x10; x00; x00; x00; x00; x00; x00; xea; x03; x00;
    x00; x00; x00; x00; x00; x00; x00; x00; x00; x00; x00; x00; x00; x15; x5f; xd0; xac; x4b; x9b;
    xb6; x01]) =
  txt "FlushRequest {
    node_id: 2,
    handle: 1002,
    lock_owner: FAKE_LOCK_OWNER,
}".
Proof. vm_compute. reflexivity. Qed.

(** fuse/operations/flush/flush_interop_test.rs:170-174 *)
Example interop_flush_2 :
  stub (txt " lock_owner: ") (txt "FAKE_LOCK_OWNER")   (shown false RFlush [x40; x00; x00; x00; x19;
    x00; x00; x00; xcd; xab; x00; x00; x00; x00; x00; x00; x03; x00; x00; x00; x00; x00; x00; x00;
    xe8; x03; x00; x00; x64; x00; x00; x00; xe1; x10; x00; x00; x00; x00; x00; x00; xeb; x03; x00;
    x00; x00; x00; x00; x00; x00; x00; x00; x00; x00; x00; x00; x00; x15; x5f; xd0; xac; x4b; x9b;
    xb6; x01]) =
  txt "FlushRequest {
    node_id: 3,
    handle: 1003,
    lock_owner: FAKE_LOCK_OWNER,
}".
Proof. vm_compute. reflexivity. Qed.

(** fuse/operations/fsync/fsync_interop_test.rs:121-125 *)
Example interop_fsync_1 :
  shown false RFsync [x38; x00; x00; x00; x14; x00; x00; x00; xcd; xab; x00; x00; x00; x00; x00; x00;
    x02; x00; x00; x00; x00; x00; x00; x00; xe8; x03; x00; x00; x64; x00; x00; x00; xe1; x10; x00;
    x00; x00; x00; x00; x00; x39; x30; x00; x00; x00; x00; x00; x00; x00; x00; x00; x00; x00; x00;
    x00; x00] =
  txt "FsyncRequest {
    node_id: 2,
    handle: 12345,
    flags: FsyncRequestFlags {},
}".
Proof. vm_compute. reflexivity. Qed.

(** fuse/operations/fsync/fsync_interop_test.rs:147-153 *)
Example interop_fsync_2 :
  shown false RFsync [x38; x00; x00; x00; x14; x00; x00; x00; xcd; xab; x00; x00; x00; x00; x00; x00;
    x02; x00; x00; x00; x00; x00; x00; x00; xe8; x03; x00; x00; x64; x00; x00; x00; xe1; x10; x00;
    x00; x00; x00; x00; x00; x39; x30; x00; x00; x00; x00; x00; x00; x01; x00; x00; x00; x00; x00;
    x00; x00] =
  txt "FsyncRequest {
    node_id: 2,
    handle: 12345,
    flags: FsyncRequestFlags {
        FDATASYNC,
    },
}".
Proof. vm_compute. reflexivity. Qed.

(** fuse/operations/fsyncdir/fsyncdir_interop_test.rs:121-125 *)
Example interop_fsyncdir_1 :
  shown false RFsyncdir [x38; x00; x00; x00; x1e; x00; x00; x00; xcd; xab; x00; x00; x00; x00; x00;
    x00; x02; x00; x00; x00; x00; x00; x00; x00; xe8; x03; x00; x00; x64; x00; x00; x00; xe1; x10;
    x00; x00; x00; x00; x00; x00; x39; x30; x00; x00; x00; x00; x00; x00; x00; x00; x00; x00; x00;
    x00; x00; x00] =
  txt "FsyncdirRequest {
    node_id: 2,
    handle: 12345,
    flags: FsyncdirRequestFlags {},
}".
Proof. vm_compute. reflexivity. Qed.

(** fuse/operations/fsyncdir/fsyncdir_interop_test.rs:147-153 *)
Example interop_fsyncdir_2 :
  shown false RFsyncdir [x38; x00; x00; x00; x1e; x00; x00; x00; xcd; xab; x00; x00; x00; x00; x00;
    x00; x02; x00; x00; x00; x00; x00; x00; x00; xe8; x03; x00; x00; x64; x00; x00; x00; xe1; x10;
    x00; x00; x00; x00; x00; x00; x39; x30; x00; x00; x00; x00; x00; x00; x01; x00; x00; x00; x00;
    x00; x00; x00] =
  txt "FsyncdirRequest {
    node_id: 2,
    handle: 12345,
    flags: FsyncdirRequestFlags {
        FDATASYNC,
    },
}".
Proof. vm_compute. reflexivity. Qed.

(** fuse/operations/getlk/getlk_interop_test.rs:237-246, 287-296 *)
Example interop_getlk_1 :
  stub (txt " owner: ") (txt "123456789123456789")   (shown false RGetlk [x58; x00; x00; x00; x1f;
    x00; x00; x00; xcd; xab; x00; x00; x00; x00; x00; x00; x02; x00; x00; x00; x00; x00; x00; x00;
    xe8; x03; x00; x00; x64; x00; x00; x00; xe1; x10; x00; x00; x00; x00; x00; x00; xea; x03; x00;
    x00; x00; x00; x00; x00; x15; x5f; xd0; xac; x4b; x9b; xb6; x01; x64; x00; x00; x00; x00; x00;
    x00; x00; x95; x00; x00; x00; x00; x00; x00; x00; x00; x00; x00; x00; x00; x00; x00; x00; x00;
    x00; x00; x00; x00; x00; x00; x00]) =
  txt "GetlkRequest {
    node_id: 2,
    handle: 1002,
    owner: 123456789123456789,
    lock_mode: F_RDLCK,
    lock_range: LockRange {
        start: 100,
        length: Some(50),
    },
}".
Proof. vm_compute. reflexivity. Qed.

(** fuse/operations/getlk/getlk_interop_test.rs:347-356 *)
Example interop_getlk_2 :
  stub (txt " owner: ") (txt "123456789123456789")   (shown false RGetlk [x58; x00; x00; x00; x1f;
    x00; x00; x00; xcd; xab; x00; x00; x00; x00; x00; x00; x02; x00; x00; x00; x00; x00; x00; x00;
    xe8; x03; x00; x00; x64; x00; x00; x00; xe1; x10; x00; x00; x00; x00; x00; x00; xea; x03; x00;
    x00; x00; x00; x00; x00; x15; x5f; xd0; xac; x4b; x9b; xb6; x01; x64; x00; x00; x00; x00; x00;
    x00; x00; x95; x00; x00; x00; x00; x00; x00; x00; x01; x00; x00; x00; x00; x00; x00; x00; x00;
    x00; x00; x00; x00; x00; x00; x00]) =
  txt "GetlkRequest {
    node_id: 2,
    handle: 1002,
    owner: 123456789123456789,
    lock_mode: F_WRLCK,
    lock_range: LockRange {
        start: 100,
        length: Some(50),
    },
}".
Proof. vm_compute. reflexivity. Qed.

(** fuse/operations/getlk/getlk_interop_test.rs:407-416 *)
Example interop_getlk_3 :
  stub (txt " owner: ") (txt "123456789123456789")   (shown false RGetlk [x58; x00; x00; x00; x1f;
    x00; x00; x00; xcd; xab; x00; x00; x00; x00; x00; x00; x02; x00; x00; x00; x00; x00; x00; x00;
    xe8; x03; x00; x00; x64; x00; x00; x00; xe1; x10; x00; x00; x00; x00; x00; x00; xea; x03; x00;
    x00; x00; x00; x00; x00; x15; x5f; xd0; xac; x4b; x9b; xb6; x01; x64; x00; x00; x00; x00; x00;
    x00; x00; xff; xff; xff; xff; xff; xff; xff; x7f; x00; x00; x00; x00; x00; x00; x00; x00; x00;
    x00; x00; x00; x00; x00; x00; x00]) =
  txt "GetlkRequest {
    node_id: 2,
    handle: 1002,
    owner: 123456789123456789,
    lock_mode: F_RDLCK,
    lock_range: LockRange {
        start: 100,
        length: None,
    },
}".
Proof. vm_compute. reflexivity. Qed.

(** fuse/operations/getlk/getlk_interop_test.rs:467-476 *)
Example interop_getlk_4 :
  stub (txt " owner: ") (txt "123456789123456789")   (shown false RGetlk [x58; x00; x00; x00; x1f;
    x00; x00; x00; xcd; xab; x00; x00; x00; x00; x00; x00; x02; x00; x00; x00; x00; x00; x00; x00;
    xe8; x03; x00; x00; x64; x00; x00; x00; xe1; x10; x00; x00; x00; x00; x00; x00; xea; x03; x00;
    x00; x00; x00; x00; x00; x15; x5f; xd0; xac; x4b; x9b; xb6; x01; x00; x00; x00; x00; x00; x00;
    x00; x00; x00; x00; x00; x00; x00; x00; x00; x00; x00; x00; x00; x00; x00; x00; x00; x00; x00;
    x00; x00; x00; x00; x00; x00; x00]) =
  txt "GetlkRequest {
    node_id: 2,
    handle: 1002,
    owner: 123456789123456789,
    lock_mode: F_RDLCK,
    lock_range: LockRange {
        start: 0,
        length: Some(1),
    },
}".
Proof. vm_compute. reflexivity. Qed.

(** fuse/operations/getlk/getlk_interop_test.rs:527-536 *)
Example interop_getlk_5 :
  stub (txt " owner: ") (txt "123456789123456789")   (shown false RGetlk [x58; x00; x00; x00; x1f;
    x00; x00; x00; xcd; xab; x00; x00; x00; x00; x00; x00; x02; x00; x00; x00; x00; x00; x00; x00;
    xe8; x03; x00; x00; x64; x00; x00; x00; xe1; x10; x00; x00; x00; x00; x00; x00; xea; x03; x00;
    x00; x00; x00; x00; x00; x15; x5f; xd0; xac; x4b; x9b; xb6; x01; x32; x00; x00; x00; x00; x00;
    x00; x00; x63; x00; x00; x00; x00; x00; x00; x00; x00; x00; x00; x00; x00; x00; x00; x00; x00;
    x00; x00; x00; x00; x00; x00; x00]) =
  txt "GetlkRequest {
    node_id: 2,
    handle: 1002,
    owner: 123456789123456789,
    lock_mode: F_RDLCK,
    lock_range: LockRange {
        start: 50,
        length: Some(50),
    },
}".
Proof. vm_compute. reflexivity. Qed.

(** fuse/operations/getlk/getlk_interop_test.rs:587-596 *)
Example interop_getlk_6 :
  stub (txt " owner: ") (txt "123456789123456789")   (shown false RGetlk [x58; x00; x00; x00; x1f;
    x00; x00; x00; xcd; xab; x00; x00; x00; x00; x00; x00; x03; x00; x00; x00; x00; x00; x00; x00;
    xe8; x03; x00; x00; x64; x00; x00; x00; xe1; x10; x00; x00; x00; x00; x00; x00; xeb; x03; x00;
    x00; x00; x00; x00; x00; x15; x5f; xd0; xac; x4b; x9b; xb6; x01; x64; x00; x00; x00; x00; x00;
    x00; x00; x95; x00; x00; x00; x00; x00; x00; x00; x00; x00; x00; x00; x00; x00; x00; x00; x00;
    x00; x00; x00; x00; x00; x00; x00]) =
  txt "GetlkRequest {
    node_id: 3,
    handle: 1003,
    owner: 123456789123456789,
    lock_mode: F_RDLCK,
    lock_range: LockRange {
        start: 100,
        length: Some(50),
    },
}".
Proof. vm_compute. reflexivity. Qed.

(** fuse/operations/getlk/getlk_interop_test.rs:647-656 *)
Example interop_getlk_7 :
  stub (txt " owner: ") (txt "123456789123456789")   (shown false RGetlk [x58; x00; x00; x00; x1f;
    x00; x00; x00; xcd; xab; x00; x00; x00; x00; x00; x00; x03; x00; x00; x00; x00; x00; x00; x00;
    xe8; x03; x00; x00; x64; x00; x00; x00; xe1; x10; x00; x00; x00; x00; x00; x00; xeb; x03; x00;
    x00; x00; x00; x00; x00; x15; x5f; xd0; xac; x4b; x9b; xb6; x01; x64; x00; x00; x00; x00; x00;
    x00; x00; x95; x00; x00; x00; x00; x00; x00; x00; x01; x00; x00; x00; x00; x00; x00; x00; x00;
    x00; x00; x00; x00; x00; x00; x00]) =
  txt "GetlkRequest {
    node_id: 3,
    handle: 1003,
    owner: 123456789123456789,
    lock_mode: F_WRLCK,
    lock_range: LockRange {
        start: 100,
        length: Some(50),
    },
}".
Proof. vm_compute. reflexivity. Qed.

(** fuse/operations/getlk/getlk_interop_test.rs:707-716 *)
Example interop_getlk_8 :
  stub (txt " owner: ") (txt "123456789123456789")   (shown false RGetlk [x58; x00; x00; x00; x1f;
    x00; x00; x00; xcd; xab; x00; x00; x00; x00; x00; x00; x04; x00; x00; x00; x00; x00; x00; x00;
    xe8; x03; x00; x00; x64; x00; x00; x00; xe1; x10; x00; x00; x00; x00; x00; x00; xec; x03; x00;
    x00; x00; x00; x00; x00; x15; x5f; xd0; xac; x4b; x9b; xb6; x01; x64; x00; x00; x00; x00; x00;
    x00; x00; x95; x00; x00; x00; x00; x00; x00; x00; x00; x00; x00; x00; x00; x00; x00; x00; x00;
    x00; x00; x00; x00; x00; x00; x00]) =
  txt "GetlkRequest {
    node_id: 4,
    handle: 1004,
    owner: 123456789123456789,
    lock_mode: F_RDLCK,
    lock_range: LockRange {
        start: 100,
        length: Some(50),
    },
}".
Proof. vm_compute. reflexivity. Qed.

(** fuse/operations/getlk/getlk_interop_test.rs:767-776 *)
Example interop_getlk_9 :
  stub (txt " owner: ") (txt "123456789123456789")   (shown false RGetlk [x58; x00; x00; x00; x1f;
    x00; x00; x00; xcd; xab; x00; x00; x00; x00; x00; x00; x04; x00; x00; x00; x00; x00; x00; x00;
    xe8; x03; x00; x00; x64; x00; x00; x00; xe1; x10; x00; x00; x00; x00; x00; x00; xec; x03; x00;
    x00; x00; x00; x00; x00; x15; x5f; xd0; xac; x4b; x9b; xb6; x01; x64; x00; x00; x00; x00; x00;
    x00; x00; x95; x00; x00; x00; x00; x00; x00; x00; x01; x00; x00; x00; x00; x00; x00; x00; x00;
    x00; x00; x00; x00; x00; x00; x00]) =
  txt "GetlkRequest {
    node_id: 4,
    handle: 1004,
    owner: 123456789123456789,
    lock_mode: F_WRLCK,
    lock_range: LockRange {
        start: 100,
        length: Some(50),
    },
}".
Proof. vm_compute. reflexivity. Qed.

(** fuse/operations/getxattr/getxattr_interop_test.rs:155-159 *)
Example interop_getxattr_1 :
  shown false RGetxattr [x41; x00; x00; x00; x16; x00; x00; x00; xcd; xab; x00; x00; x00; x00; x00;
    x00; x02; x00; x00; x00; x00; x00; x00; x00; xe8; x03; x00; x00; x64; x00; x00; x00; xe1; x10;
    x00; x00; x00; x00; x00; x00; x00; x00; x00; x00; x00; x00; x00; x00; x75; x73; x65; x72; x2e;
    x78; x61; x74; x74; x72; x5f; x73; x6d; x61; x6c; x6c; x00] =
  txt "GetxattrRequest {
    node_id: 2,
    size: None,
    name: ""user.xattr_small"",
}".
Proof. vm_compute. reflexivity. Qed.

(** fuse/operations/getxattr/getxattr_interop_test.rs:199-203 *)
Example interop_getxattr_2 :
  shown false RGetxattr [x41; x00; x00; x00; x16; x00; x00; x00; xcd; xab; x00; x00; x00; x00; x00;
    x00; x02; x00; x00; x00; x00; x00; x00; x00; xe8; x03; x00; x00; x64; x00; x00; x00; xe1; x10;
    x00; x00; x00; x00; x00; x00; x14; x00; x00; x00; x00; x00; x00; x00; x75; x73; x65; x72; x2e;
    x78; x61; x74; x74; x72; x5f; x73; x6d; x61; x6c; x6c; x00] =
  txt "GetxattrRequest {
    node_id: 2,
    size: Some(20),
    name: ""user.xattr_small"",
}".
Proof. vm_compute. reflexivity. Qed.

(** fuse/operations/getxattr/getxattr_interop_test.rs:243-247 *)
Example interop_getxattr_3 :
  shown false RGetxattr [x43; x00; x00; x00; x16; x00; x00; x00; xcd; xab; x00; x00; x00; x00; x00;
    x00; x02; x00; x00; x00; x00; x00; x00; x00; xe8; x03; x00; x00; x64; x00; x00; x00; xe1; x10;
    x00; x00; x00; x00; x00; x00; x00; x00; x00; x00; x00; x00; x00; x00; x75; x73; x65; x72; x2e;
    x78; x61; x74; x74; x72; x5f; x6e; x6f; x65; x78; x69; x73; x74; x00] =
  txt "GetxattrRequest {
    node_id: 2,
    size: None,
    name: ""user.xattr_noexist"",
}".
Proof. vm_compute. reflexivity. Qed.

(** fuse/operations/getxattr/getxattr_interop_test.rs:287-291 *)
Example interop_getxattr_4 :
  shown false RGetxattr [x41; x00; x00; x00; x16; x00; x00; x00; xcd; xab; x00; x00; x00; x00; x00;
    x00; x02; x00; x00; x00; x00; x00; x00; x00; xe8; x03; x00; x00; x64; x00; x00; x00; xe1; x10;
    x00; x00; x00; x00; x00; x00; x01; x00; x00; x00; x00; x00; x00; x00; x75; x73; x65; x72; x2e;
    x78; x61; x74; x74; x72; x5f; x73; x6d; x61; x6c; x6c; x00] =
  txt "GetxattrRequest {
    node_id: 2,
    size: Some(1),
    name: ""user.xattr_small"",
}".
Proof. vm_compute. reflexivity. Qed.

(** fuse/operations/getxattr/getxattr_interop_test.rs:331-335 *)
Example interop_getxattr_5 :
  shown false RGetxattr [x42; x00; x00; x00; x16; x00; x00; x00; xcd; xab; x00; x00; x00; x00; x00;
    x00; x02; x00; x00; x00; x00; x00; x00; x00; xe8; x03; x00; x00; x64; x00; x00; x00; xe1; x10;
    x00; x00; x00; x00; x00; x00; x20; x00; x00; x00; x00; x00; x00; x00; x75; x73; x65; x72; x2e;
    x78; x61; x74; x74; x72; x5f; x74; x6f; x6f; x62; x69; x67; x00] =
  txt "GetxattrRequest {
    node_id: 2,
    size: Some(32),
    name: ""user.xattr_toobig"",
}".
Proof. vm_compute. reflexivity. Qed.

(** fuse/operations/ioctl/ioctl_cuse_interop_test.rs:183-193 *)
Example interop_ioctl_cuse_1 :
  stub (txt " arg: ") (txt "FAKE_ARG")   (shown true RIoctl [x48; x00; x00; x00; x27; x00; x00; x00;
    xcd; xab; x00; x00; x00; x00; x00; x00; x01; x00; x00; x00; x00; x00; x00; x00; xe8; x03; x00;
    x00; x64; x00; x00; x00; xe1; x10; x00; x00; x00; x00; x00; x00; xea; x03; x00; x00; x00; x00;
    x00; x00; x02; x00; x00; x00; x13; x54; x00; x00; x78; x56; x34; x12; xfc; x7f; x00; x00; x00;
    x00; x00; x00; x00; x00; x00; x00]) =
  txt "IoctlRequest {
    node_id: 1,
    handle: 1002,
    command: 0x00005413,
    arg: FAKE_ARG,
    output_len: 0,
    flags: IoctlRequestFlags {
        IOCTL_UNRESTRICTED,
    },
    input: [],
}".
Proof. vm_compute. reflexivity. Qed.

(** fuse/operations/ioctl/ioctl_cuse_interop_test.rs:200-210 *)
Example interop_ioctl_cuse_2 :
  stub (txt " arg: ") (txt "FAKE_ARG")   (shown true RIoctl [x48; x00; x00; x00; x27; x00; x00; x00;
    xcd; xab; x00; x00; x00; x00; x00; x00; x01; x00; x00; x00; x00; x00; x00; x00; xe8; x03; x00;
    x00; x64; x00; x00; x00; xe1; x10; x00; x00; x00; x00; x00; x00; xea; x03; x00; x00; x00; x00;
    x00; x00; x02; x00; x00; x00; x13; x54; x00; x00; x78; x56; x34; x12; xfc; x7f; x00; x00; x00;
    x00; x00; x00; x08; x00; x00; x00]) =
  txt "IoctlRequest {
    node_id: 1,
    handle: 1002,
    command: 0x00005413,
    arg: FAKE_ARG,
    output_len: 8,
    flags: IoctlRequestFlags {
        IOCTL_UNRESTRICTED,
    },
    input: [],
}".
Proof. vm_compute. reflexivity. Qed.

(** fuse/operations/ioctl/ioctl_cuse_interop_test.rs:247-257 *)
Example interop_ioctl_cuse_3 :
  stub (txt " arg: ") (txt "FAKE_ARG")   (shown true RIoctl [x48; x00; x00; x00; x27; x00; x00; x00;
    xcd; xab; x00; x00; x00; x00; x00; x00; x01; x00; x00; x00; x00; x00; x00; x00; xe8; x03; x00;
    x00; x64; x00; x00; x00; xe1; x10; x00; x00; x00; x00; x00; x00; xea; x03; x00; x00; x00; x00;
    x00; x00; x02; x00; x00; x00; x14; x54; x00; x00; x78; x56; x34; x12; xfc; x7f; x00; x00; x00;
    x00; x00; x00; x00; x00; x00; x00]) =
  txt "IoctlRequest {
    node_id: 1,
    handle: 1002,
    command: 0x00005414,
    arg: FAKE_ARG,
    output_len: 0,
    flags: IoctlRequestFlags {
        IOCTL_UNRESTRICTED,
    },
    input: [],
}".
Proof. vm_compute. reflexivity. Qed.

(** fuse/operations/ioctl/ioctl_cuse_interop_test.rs:270-280 *)
Example interop_ioctl_cuse_4 :
  stub (txt " arg: ") (txt "FAKE_ARG")   (shown true RIoctl [x50; x00; x00; x00; x27; x00; x00; x00;
    xcd; xab; x00; x00; x00; x00; x00; x00; x01; x00; x00; x00; x00; x00; x00; x00; xe8; x03; x00;
    x00; x64; x00; x00; x00; xe1; x10; x00; x00; x00; x00; x00; x00; xea; x03; x00; x00; x00; x00;
    x00; x00; x02; x00; x00; x00; x14; x54; x00; x00; x78; x56; x34; x12; xfc; x7f; x00; x00; x08;
    x00; x00; x00; x00; x00; x00; x00; x0a; x14; x00; x00; x1e; xff; x01; x02]) =
  txt "IoctlRequest {
    node_id: 1,
    handle: 1002,
    command: 0x00005414,
    arg: FAKE_ARG,
    output_len: 0,
    flags: IoctlRequestFlags {
        IOCTL_UNRESTRICTED,
    },
    input: [
        10,
        20,
        0,
        0,
        30,
        255,
        1,
        2,
    ],
}".
Proof. vm_compute. reflexivity. Qed.

(** fuse/operations/ioctl/ioctl_fuse_interop_test.rs:221-229 *)
Example interop_ioctl_1 :
  stub (txt " arg: ") (txt "FAKE_ARG")   (shown false RIoctl [x48; x00; x00; x00; x27; x00; x00; x00;
    xcd; xab; x00; x00; x00; x00; x00; x00; x02; x00; x00; x00; x00; x00; x00; x00; xe8; x03; x00;
    x00; x64; x00; x00; x00; xe1; x10; x00; x00; x00; x00; x00; x00; xea; x03; x00; x00; x00; x00;
    x00; x00; x00; x00; x00; x00; x2a; x54; x2c; x80; x78; x56; x34; x12; xfc; x7f; x00; x00; x00;
    x00; x00; x00; x2c; x00; x00; x00]) =
  txt "IoctlRequest {
    node_id: 2,
    handle: 1002,
    command: 0x802C542A,
    arg: FAKE_ARG,
    output_len: 44,
    flags: IoctlRequestFlags {},
    input: [],
}".
Proof. vm_compute. reflexivity. Qed.

(** fuse/operations/ioctl/ioctl_fuse_interop_test.rs:279-287 *)
Example interop_ioctl_2 :
  stub (txt " arg: ") (txt "FAKE_ARG")   (shown false RIoctl [x74; x00; x00; x00; x27; x00; x00; x00;
    xcd; xab; x00; x00; x00; x00; x00; x00; x02; x00; x00; x00; x00; x00; x00; x00; xe8; x03; x00;
    x00; x64; x00; x00; x00; xe1; x10; x00; x00; x00; x00; x00; x00; xea; x03; x00; x00; x00; x00;
    x00; x00; x00; x00; x00; x00; x2b; x54; x2c; x40; x78; x56; x34; x12; xfc; x7f; x00; x00; x2c;
    x00; x00; x00; x00; x00; x00; x00; x28; x29; x2a; x2b; x2c; x2d; x2e; x2f; x30; x31; x32; x33;
    x34; x35; x36; x37; x38; x39; x3a; x3b; x3c; x3d; x3e; x3f; x40; x41; x42; x43; x44; x45; x46;
    x47; x48; x49; x4a; x4b; x4c; x4d; x4e; x4f; x50; x51; x52; x53]) =
  txt "IoctlRequest {
    node_id: 2,
    handle: 1002,
    command: 0x402C542B,
    arg: FAKE_ARG,
    output_len: 0,
    flags: IoctlRequestFlags {},
    input: [
        40,
        41,
        42,
        43,
        44,
        45,
        46,
        47,
        48,
        49,
        50,
        51,
        52,
        53,
        54,
        55,
        56,
        57,
        58,
        59,
        60,
        61,
        62,
        63,
        64,
        65,
        66,
        67,
        68,
        69,
        70,
        71,
        72,
        73,
        74,
        75,
        76,
        77,
        78,
        79,
        80,
        81,
        82,
        83,
    ],
}".
Proof. vm_compute. reflexivity. Qed.

(** fuse/operations/link/link_interop_test.rs:118-122 *)
Example interop_link_1 :
  shown false RLink [x39; x00; x00; x00; x0d; x00; x00; x00; xcd; xab; x00; x00; x00; x00; x00; x00;
    x01; x00; x00; x00; x00; x00; x00; x00; xe8; x03; x00; x00; x64; x00; x00; x00; xe1; x10; x00;
    x00; x00; x00; x00; x00; x02; x00; x00; x00; x00; x00; x00; x00; x6c; x69; x6e; x6b; x2e; x74;
    x78; x74; x00] =
  txt "LinkRequest {
    node_id: 2,
    new_parent_id: 1,
    new_name: ""link.txt"",
}".
Proof. vm_compute. reflexivity. Qed.

(** fuse/operations/listxattr/listxattr_interop_test.rs:154-157, 183-186, 254-257, 323-326 *)
Example interop_listxattr_1 :
  shown false RListxattr [x30; x00; x00; x00; x17; x00; x00; x00; xcd; xab; x00; x00; x00; x00; x00;
    x00; x02; x00; x00; x00; x00; x00; x00; x00; xe8; x03; x00; x00; x64; x00; x00; x00; xe1; x10;
    x00; x00; x00; x00; x00; x00; x00; x00; x00; x00; x00; x00; x00; x00] =
  txt "ListxattrRequest {
    node_id: 2,
    size: None,
}".
Proof. vm_compute. reflexivity. Qed.

(** fuse/operations/listxattr/listxattr_interop_test.rs:191-194, 262-265, 331-334 *)
Example interop_listxattr_2 :
  shown false RListxattr [x30; x00; x00; x00; x17; x00; x00; x00; xcd; xab; x00; x00; x00; x00; x00;
    x00; x02; x00; x00; x00; x00; x00; x00; x00; xe8; x03; x00; x00; x64; x00; x00; x00; xe1; x10;
    x00; x00; x00; x00; x00; x00; x23; x00; x00; x00; x00; x00; x00; x00] =
  txt "ListxattrRequest {
    node_id: 2,
    size: Some(35),
}".
Proof. vm_compute. reflexivity. Qed.

(** fuse/operations/listxattr/listxattr_interop_test.rs:223-226 *)
Example interop_listxattr_3 :
  shown false RListxattr [x30; x00; x00; x00; x17; x00; x00; x00; xcd; xab; x00; x00; x00; x00; x00;
    x00; x02; x00; x00; x00; x00; x00; x00; x00; xe8; x03; x00; x00; x64; x00; x00; x00; xe1; x10;
    x00; x00; x00; x00; x00; x00; x28; x00; x00; x00; x00; x00; x00; x00] =
  txt "ListxattrRequest {
    node_id: 2,
    size: Some(40),
}".
Proof. vm_compute. reflexivity. Qed.

(** fuse/operations/listxattr/listxattr_interop_test.rs:292-295 *)
Example interop_listxattr_4 :
  shown false RListxattr [x30; x00; x00; x00; x17; x00; x00; x00; xcd; xab; x00; x00; x00; x00; x00;
    x00; x02; x00; x00; x00; x00; x00; x00; x00; xe8; x03; x00; x00; x64; x00; x00; x00; xe1; x10;
    x00; x00; x00; x00; x00; x00; x05; x00; x00; x00; x00; x00; x00; x00] =
  txt "ListxattrRequest {
    node_id: 2,
    size: Some(5),
}".
Proof. vm_compute. reflexivity. Qed.

(** fuse/operations/listxattr/listxattr_interop_test.rs:361-364 *)
Example interop_listxattr_5 :
  shown false RListxattr [x30; x00; x00; x00; x17; x00; x00; x00; xcd; xab; x00; x00; x00; x00; x00;
    x00; x03; x00; x00; x00; x00; x00; x00; x00; xe8; x03; x00; x00; x64; x00; x00; x00; xe1; x10;
    x00; x00; x00; x00; x00; x00; x1e; x00; x00; x00; x00; x00; x00; x00] =
  txt "ListxattrRequest {
    node_id: 3,
    size: Some(30),
}".
Proof. vm_compute. reflexivity. Qed.

(** fuse/operations/listxattr/listxattr_interop_test.rs:392-395 *)
Example interop_listxattr_6 :
  shown false RListxattr [x30; x00; x00; x00; x17; x00; x00; x00; xcd; xab; x00; x00; x00; x00; x00;
    x00; x03; x00; x00; x00; x00; x00; x00; x00; xe8; x03; x00; x00; x64; x00; x00; x00; xe1; x10;
    x00; x00; x00; x00; x00; x00; x00; x00; x00; x00; x00; x00; x00; x00] =
  txt "ListxattrRequest {
    node_id: 3,
    size: None,
}".
Proof. vm_compute. reflexivity. Qed.

(** fuse/operations/lseek/lseek_interop_test.rs:140-145 *)
Example interop_lseek_1 :
  shown false RLseek [x40; x00; x00; x00; x2e; x00; x00; x00; xcd; xab; x00; x00; x00; x00; x00; x00;
    x02; x00; x00; x00; x00; x00; x00; x00; xe8; x03; x00; x00; x64; x00; x00; x00; xe1; x10; x00;
    x00; x00; x00; x00; x00; x39; x30; x00; x00; x00; x00; x00; x00; x00; x04; x00; x00; x00; x00;
    x00; x00; x03; x00; x00; x00; x00; x00; x00; x00] =
  txt "LseekRequest {
    node_id: 2,
    handle: 12345,
    offset: 1024,
    whence: SEEK_DATA,
}".
Proof. vm_compute. reflexivity. Qed.

(** fuse/operations/lseek/lseek_interop_test.rs:167-172 *)
Example interop_lseek_2 :
  shown false RLseek [x40; x00; x00; x00; x2e; x00; x00; x00; xcd; xab; x00; x00; x00; x00; x00; x00;
    x02; x00; x00; x00; x00; x00; x00; x00; xe8; x03; x00; x00; x64; x00; x00; x00; xe1; x10; x00;
    x00; x00; x00; x00; x00; x39; x30; x00; x00; x00; x00; x00; x00; x00; x04; x00; x00; x00; x00;
    x00; x00; x04; x00; x00; x00; x00; x00; x00; x00] =
  txt "LseekRequest {
    node_id: 2,
    handle: 12345,
    offset: 1024,
    whence: SEEK_HOLE,
}".
Proof. vm_compute. reflexivity. Qed.

(** fuse/operations/opendir/opendir_interop_test.rs:116-120 *)
Example interop_opendir_1 :
  shown false ROpendir [x30; x00; x00; x00; x1b; x00; x00; x00; xcd; xab; x00; x00; x00; x00; x00;
    x00; x02; x00; x00; x00; x00; x00; x00; x00; xe8; x03; x00; x00; x64; x00; x00; x00; xe1; x10;
    x00; x00; x00; x00; x00; x00; x00; x80; x01; x00; x00; x00; x00; x00] =
  txt "OpendirRequest {
    node_id: 2,
    flags: OpendirRequestFlags {},
    open_flags: 0x00018000,
}".
Proof. vm_compute. reflexivity. Qed.

(** fuse/operations/opendir/opendir_interop_test.rs:122-126, 153-157 *)
Example interop_opendir_2 :
  shown false ROpendir [x30; x00; x00; x00; x1b; x00; x00; x00; xcd; xab; x00; x00; x00; x00; x00;
    x00; x02; x00; x00; x00; x00; x00; x00; x00; xe8; x03; x00; x00; x64; x00; x00; x00; xe1; x10;
    x00; x00; x00; x00; x00; x00; x00; x00; x00; x00; x00; x00; x00; x00] =
  txt "OpendirRequest {
    node_id: 2,
    flags: OpendirRequestFlags {},
    open_flags: 0x00000000,
}".
Proof. vm_compute. reflexivity. Qed.

(** fuse/operations/opendir/opendir_interop_test.rs:147-151 *)
Example interop_opendir_3 :
  shown false ROpendir [x30; x00; x00; x00; x1b; x00; x00; x00; xcd; xab; x00; x00; x00; x00; x00;
    x00; x02; x00; x00; x00; x00; x00; x00; x00; xe8; x03; x00; x00; x64; x00; x00; x00; xe1; x10;
    x00; x00; x00; x00; x00; x00; x00; x80; x00; x00; x00; x00; x00; x00] =
  txt "OpendirRequest {
    node_id: 2,
    flags: OpendirRequestFlags {},
    open_flags: 0x00008000,
}".
Proof. vm_compute. reflexivity. Qed.

(** fuse/operations/poll/poll_interop_test.rs:181-188, 229-236, 276-283, 330-337, 383-390, 432-439 *)
Example interop_poll_1 :
  stub (txt " poll_handle: ") (txt "STUB_POLL_HANDLE")   (shown false RPoll [x40; x00; x00; x00; x28;
    x00; x00; x00; xcd; xab; x00; x00; x00; x00; x00; x00; x02; x00; x00; x00; x00; x00; x00; x00;
    xe8; x03; x00; x00; x64; x00; x00; x00; xe1; x10; x00; x00; x00; x00; x00; x00; x0a; x00; x00;
    x00; x00; x00; x00; x00; x4d; x00; x00; x00; x00; x00; x00; x00; x01; x00; x00; x00; x41; x00;
    x00; x00]) =
  txt "PollRequest {
    node_id: 2,
    poll_handle: STUB_POLL_HANDLE,
    poll_events: 0x00000041,
    flags: PollRequestFlags {
        SCHEDULE_NOTIFY,
    },
}".
Proof. vm_compute. reflexivity. Qed.

(** fuse/operations/readdir/readdir_interop_test.rs:223-229 *)
Example interop_readdir_1 :
  shown false RReaddir [x50; x00; x00; x00; x1c; x00; x00; x00; xcd; xab; x00; x00; x00; x00; x00;
    x00; x02; x00; x00; x00; x00; x00; x00; x00; xe8; x03; x00; x00; x64; x00; x00; x00; xe1; x10;
    x00; x00; x00; x00; x00; x00; x39; x30; x00; x00; x00; x00; x00; x00; x00; x00; x00; x00; x00;
    x00; x00; x00; x00; x10; x00; x00; x00; x00; x00; x00; x00; x00; x00; x00; x00; x00; x00; x00;
    x00; x80; x01; x00; x00; x00; x00; x00] =
  txt "ReaddirRequest {
    node_id: 2,
    size: 4096,
    offset: None,
    handle: 12345,
    open_flags: 0x00018000,
}".
Proof. vm_compute. reflexivity. Qed.

(** fuse/operations/readdir/readdir_interop_test.rs:235-241 *)
Example interop_readdir_2 :
  shown false RReaddir [x50; x00; x00; x00; x1c; x00; x00; x00; xcd; xab; x00; x00; x00; x00; x00;
    x00; x02; x00; x00; x00; x00; x00; x00; x00; xe8; x03; x00; x00; x64; x00; x00; x00; xe1; x10;
    x00; x00; x00; x00; x00; x00; x39; x30; x00; x00; x00; x00; x00; x00; x01; x00; x00; x00; x00;
    x00; x00; x00; x00; x10; x00; x00; x00; x00; x00; x00; x00; x00; x00; x00; x00; x00; x00; x00;
    x00; x80; x01; x00; x00; x00; x00; x00] =
  txt "ReaddirRequest {
    node_id: 2,
    size: 4096,
    offset: Some(1),
    handle: 12345,
    open_flags: 0x00018000,
}".
Proof. vm_compute. reflexivity. Qed.

(** fuse/operations/readdir/readdir_interop_test.rs:247-253 *)
Example interop_readdir_3 :
  shown false RReaddir [x50; x00; x00; x00; x1c; x00; x00; x00; xcd; xab; x00; x00; x00; x00; x00;
    x00; x02; x00; x00; x00; x00; x00; x00; x00; xe8; x03; x00; x00; x64; x00; x00; x00; xe1; x10;
    x00; x00; x00; x00; x00; x00; x39; x30; x00; x00; x00; x00; x00; x00; x02; x00; x00; x00; x00;
    x00; x00; x00; x00; x10; x00; x00; x00; x00; x00; x00; x00; x00; x00; x00; x00; x00; x00; x00;
    x00; x80; x01; x00; x00; x00; x00; x00] =
  txt "ReaddirRequest {
    node_id: 2,
    size: 4096,
    offset: Some(2),
    handle: 12345,
    open_flags: 0x00018000,
}".
Proof. vm_compute. reflexivity. Qed.

(** fuse/operations/readdir/readdir_interop_test.rs:264-270 *)
Example interop_readdir_4 :
  shown false RReaddir [x50; x00; x00; x00; x1c; x00; x00; x00; xcd; xab; x00; x00; x00; x00; x00;
    x00; x02; x00; x00; x00; x00; x00; x00; x00; xe8; x03; x00; x00; x64; x00; x00; x00; xe1; x10;
    x00; x00; x00; x00; x00; x00; x39; x30; x00; x00; x00; x00; x00; x00; x00; x00; x00; x00; x00;
    x00; x00; x00; x00; x10; x00; x00; x00; x00; x00; x00; x00; x00; x00; x00; x00; x00; x00; x00;
    x00; x00; x00; x00; x00; x00; x00; x00] =
  txt "ReaddirRequest {
    node_id: 2,
    size: 4096,
    offset: None,
    handle: 12345,
    open_flags: 0x00000000,
}".
Proof. vm_compute. reflexivity. Qed.

(** fuse/operations/readdir/readdir_interop_test.rs:276-282 *)
Example interop_readdir_5 :
  shown false RReaddir [x50; x00; x00; x00; x1c; x00; x00; x00; xcd; xab; x00; x00; x00; x00; x00;
    x00; x02; x00; x00; x00; x00; x00; x00; x00; xe8; x03; x00; x00; x64; x00; x00; x00; xe1; x10;
    x00; x00; x00; x00; x00; x00; x39; x30; x00; x00; x00; x00; x00; x00; x02; x00; x00; x00; x00;
    x00; x00; x00; x00; x10; x00; x00; x00; x00; x00; x00; x00; x00; x00; x00; x00; x00; x00; x00;
    x00; x00; x00; x00; x00; x00; x00; x00] =
  txt "ReaddirRequest {
    node_id: 2,
    size: 4096,
    offset: Some(2),
    handle: 12345,
    open_flags: 0x00000000,
}".
Proof. vm_compute. reflexivity. Qed.

(** fuse/operations/readlink/readlink_interop_test.rs:120-122 *)
Example interop_readlink_1 :
  shown false RReadlink [x28; x00; x00; x00; x05; x00; x00; x00; xcd; xab; x00; x00; x00; x00; x00;
    x00; x02; x00; x00; x00; x00; x00; x00; x00; xe8; x03; x00; x00; x64; x00; x00; x00; xe1; x10;
    x00; x00; x00; x00; x00; x00] =
  txt "ReadlinkRequest {
    node_id: 2,
}".
Proof. vm_compute. reflexivity. Qed.

(** fuse/operations/removexattr/removexattr_interop_test.rs:125-128 *)
Example interop_removexattr_1 :
  shown false RRemovexattr [x38; x00; x00; x00; x18; x00; x00; x00; xcd; xab; x00; x00; x00; x00; x00;
    x00; x02; x00; x00; x00; x00; x00; x00; x00; xe8; x03; x00; x00; x64; x00; x00; x00; xe1; x10;
    x00; x00; x00; x00; x00; x00; x75; x73; x65; x72; x2e; x78; x61; x74; x74; x72; x5f; x6e; x61;
    x6d; x65; x00] =
  txt "RemovexattrRequest {
    node_id: 2,
    name: ""user.xattr_name"",
}".
Proof. vm_compute. reflexivity. Qed.

(** fuse/operations/rename/rename_interop_test.rs:140-146 *)
Example interop_rename_1 :
  shown false RRename [x4e; x00; x00; x00; x0c; x00; x00; x00; xcd; xab; x00; x00; x00; x00; x00; x00;
    x01; x00; x00; x00; x00; x00; x00; x00; xe8; x03; x00; x00; x64; x00; x00; x00; xe1; x10; x00;
    x00; x00; x00; x00; x00; x01; x00; x00; x00; x00; x00; x00; x00; x72; x65; x6e; x61; x6d; x65;
    x5f; x6f; x6c; x64; x2e; x74; x78; x74; x00; x72; x65; x6e; x61; x6d; x65; x5f; x6e; x65; x77;
    x2e; x74; x78; x74; x00] =
  txt "RenameRequest {
    old_directory_id: 1,
    old_name: ""rename_old.txt"",
    new_directory_id: 1,
    new_name: ""rename_new.txt"",
    rename_flags: 0x00000000,
}".
Proof. vm_compute. reflexivity. Qed.

(** fuse/operations/rename/rename_interop_test.rs:200-206 *)
Example interop_rename_2 :
  shown false RRename [x54; x00; x00; x00; x2d; x00; x00; x00; xcd; xab; x00; x00; x00; x00; x00; x00;
    x01; x00; x00; x00; x00; x00; x00; x00; xe8; x03; x00; x00; x64; x00; x00; x00; xe1; x10; x00;
    x00; x00; x00; x00; x00; x01; x00; x00; x00; x00; x00; x00; x00; x02; x00; x00; x00; x00; x00;
    x00; x00; x72; x65; x6e; x61; x6d; x65; x5f; x6f; x6c; x64; x2e; x74; x78; x74; x00; x72; x65;
    x6e; x61; x6d; x65; x5f; x64; x69; x72; x2e; x64; x00] =
  txt "RenameRequest {
    old_directory_id: 1,
    old_name: ""rename_old.txt"",
    new_directory_id: 1,
    new_name: ""rename_dir.d"",
    rename_flags: 0x00000002,
}".
Proof. vm_compute. reflexivity. Qed.

(** fuse/operations/rename/rename_interop_test.rs:234-240 *)
Example interop_rename_3 :
  shown false RRename [x5a; x00; x00; x00; x2d; x00; x00; x00; xcd; xab; x00; x00; x00; x00; x00; x00;
    x01; x00; x00; x00; x00; x00; x00; x00; xe8; x03; x00; x00; x64; x00; x00; x00; xe1; x10; x00;
    x00; x00; x00; x00; x00; x01; x00; x00; x00; x00; x00; x00; x00; x01; x00; x00; x00; x00; x00;
    x00; x00; x72; x65; x6e; x61; x6d; x65; x5f; x6f; x6c; x64; x2e; x74; x78; x74; x00; x72; x65;
    x6e; x61; x6d; x65; x5f; x6e; x6f; x65; x78; x69; x73; x74; x2e; x74; x78; x74; x00] =
  txt "RenameRequest {
    old_directory_id: 1,
    old_name: ""rename_old.txt"",
    new_directory_id: 1,
    new_name: ""rename_noexist.txt"",
    rename_flags: 0x00000001,
}".
Proof. vm_compute. reflexivity. Qed.

(** fuse/operations/rename/rename_interop_test.rs:268-274 *)
Example interop_rename_4 :
  shown false RRename [x5a; x00; x00; x00; x2d; x00; x00; x00; xcd; xab; x00; x00; x00; x00; x00; x00;
    x01; x00; x00; x00; x00; x00; x00; x00; xe8; x03; x00; x00; x64; x00; x00; x00; xe1; x10; x00;
    x00; x00; x00; x00; x00; x01; x00; x00; x00; x00; x00; x00; x00; x04; x00; x00; x00; x00; x00;
    x00; x00; x72; x65; x6e; x61; x6d; x65; x5f; x6f; x6c; x64; x2e; x74; x78; x74; x00; x72; x65;
    x6e; x61; x6d; x65; x5f; x6e; x6f; x65; x78; x69; x73; x74; x2e; x74; x78; x74; x00] =
  txt "RenameRequest {
    old_directory_id: 1,
    old_name: ""rename_old.txt"",
    new_directory_id: 1,
    new_name: ""rename_noexist.txt"",
    rename_flags: 0x00000004,
}".
Proof. vm_compute. reflexivity. Qed.

(** fuse/operations/setattr/setattr_interop_test.rs:174-187 *)
Example interop_setattr_1 :
  shown false RSetattr [x80; x00; x00; x00; x04; x00; x00; x00; xcd; xab; x00; x00; x00; x00; x00;
    x00; x02; x00; x00; x00; x00; x00; x00; x00; xe8; x03; x00; x00; x64; x00; x00; x00; xe1; x10;
    x00; x00; x00; x00; x00; x00; x06; x00; x00; x00; x00; x00; x00; x00; x00; x00; x00; x00; x00;
    x00; x00; x00; x00; x00; x00; x00; x00; x00; x00; x00; x00; x00; x00; x00; x00; x00; x00; x00;
    x00; x00; x00; x00; x00; x00; x00; x00; x00; x00; x00; x00; x00; x00; x00; x00; x00; x00; x00;
    x00; x00; x00; x00; x00; x00; x00; x00; x00; x00; x00; x00; x00; x00; x00; x00; x00; x00; x00;
    x00; x00; x00; x00; x00; x00; x7b; x00; x00; x00; xc8; x01; x00; x00; x00; x00; x00; x00] =
  txt "SetattrRequest {
    node_id: 2,
    handle: None,
    size: None,
    lock_owner: None,
    atime: None,
    atime_now: false,
    mtime: None,
    mtime_now: false,
    ctime: None,
    mode: None,
    user_id: Some(123),
    group_id: Some(456),
}".
Proof. vm_compute. reflexivity. Qed.

(** fuse/operations/setattr/setattr_interop_test.rs:211-224 *)
Example interop_setattr_2 :
  shown false RSetattr [x80; x00; x00; x00; x04; x00; x00; x00; xcd; xab; x00; x00; x00; x00; x00;
    x00; x02; x00; x00; x00; x00; x00; x00; x00; xe8; x03; x00; x00; x64; x00; x00; x00; xe1; x10;
    x00; x00; x00; x00; x00; x00; x01; x00; x00; x00; x00; x00; x00; x00; x00; x00; x00; x00; x00;
    x00; x00; x00; x00; x00; x00; x00; x00; x00; x00; x00; x00; x00; x00; x00; x00; x00; x00; x00;
    x00; x00; x00; x00; x00; x00; x00; x00; x00; x00; x00; x00; x00; x00; x00; x00; x00; x00; x00;
    x00; x00; x00; x00; x00; x00; x00; x00; x00; x00; x00; x00; x00; x00; x00; x00; x00; x80; x81;
    x00; x00; x00; x00; x00; x00; x00; x00; x00; x00; x00; x00; x00; x00; x00; x00; x00; x00] =
  txt "SetattrRequest {
    node_id: 2,
    handle: None,
    size: None,
    lock_owner: None,
    atime: None,
    atime_now: false,
    mtime: None,
    mtime_now: false,
    ctime: None,
    mode: Some(0o100600),
    user_id: None,
    group_id: None,
}".
Proof. vm_compute. reflexivity. Qed.

(** fuse/operations/setattr/setattr_interop_test.rs:256-269 *)
Example interop_setattr_3 :
  shown false RSetattr [x80; x00; x00; x00; x04; x00; x00; x00; xcd; xab; x00; x00; x00; x00; x00;
    x00; x02; x00; x00; x00; x00; x00; x00; x00; xe8; x03; x00; x00; x64; x00; x00; x00; xe1; x10;
    x00; x00; x00; x00; x00; x00; x30; x00; x00; x00; x00; x00; x00; x00; x00; x00; x00; x00; x00;
    x00; x00; x00; x00; x00; x00; x00; x00; x00; x00; x00; x00; x00; x00; x00; x00; x00; x00; x00;
    x00; x4e; x72; x53; x00; x00; x00; x00; x00; x2f; x68; x59; x00; x00; x00; x00; x00; x00; x00;
    x00; x00; x00; x00; x00; x50; xd4; x12; x00; xb0; xa3; x56; x00; x00; x00; x00; x00; x00; x00;
    x00; x00; x00; x00; x00; x00; x00; x00; x00; x00; x00; x00; x00; x00; x00; x00; x00; x00] =
  txt "SetattrRequest {
    node_id: 2,
    handle: None,
    size: None,
    lock_owner: None,
    atime: Some(UnixTime(1400000000.001234000)),
    atime_now: false,
    mtime: Some(UnixTime(1500000000.005678000)),
    mtime_now: false,
    ctime: None,
    mode: None,
    user_id: None,
    group_id: None,
}".
Proof. vm_compute. reflexivity. Qed.

(** fuse/operations/setattr/setattr_interop_test.rs:299-312 *)
Example interop_setattr_4 :
  shown false RSetattr [x80; x00; x00; x00; x04; x00; x00; x00; xcd; xab; x00; x00; x00; x00; x00;
    x00; x02; x00; x00; x00; x00; x00; x00; x00; xe8; x03; x00; x00; x64; x00; x00; x00; xe1; x10;
    x00; x00; x00; x00; x00; x00; x30; x00; x00; x00; x00; x00; x00; x00; x00; x00; x00; x00; x00;
    x00; x00; x00; x00; x00; x00; x00; x00; x00; x00; x00; x00; x00; x00; x00; x00; x00; x00; x00;
    x00; xb2; x8d; xac; xff; xff; xff; xff; x00; xd1; x97; xa6; xff; xff; xff; xff; x00; x00; x00;
    x00; x00; x00; x00; x00; x50; xd4; x12; x00; xb0; xa3; x56; x00; x00; x00; x00; x00; x00; x00;
    x00; x00; x00; x00; x00; x00; x00; x00; x00; x00; x00; x00; x00; x00; x00; x00; x00; x00] =
  txt "SetattrRequest {
    node_id: 2,
    handle: None,
    size: None,
    lock_owner: None,
    atime: Some(UnixTime(-1400000000.001234000)),
    atime_now: false,
    mtime: Some(UnixTime(-1500000000.005678000)),
    mtime_now: false,
    ctime: None,
    mode: None,
    user_id: None,
    group_id: None,
}".
Proof. vm_compute. reflexivity. Qed.

(** fuse/operations/setattr/setattr_interop_test.rs:332-345 *)
Example interop_setattr_5 :
  stub (txt " lock_owner: ") (txt "FAKE_LOCK_OWNER")   (shown false RSetattr [x80; x00; x00; x00; x04;
    x00; x00; x00; xcd; xab; x00; x00; x00; x00; x00; x00; x02; x00; x00; x00; x00; x00; x00; x00;
    xe8; x03; x00; x00; x64; x00; x00; x00; xe1; x10; x00; x00; x00; x00; x00; x00; x08; x02; x00;
    x00; x00; x00; x00; x00; x00; x00; x00; x00; x00; x00; x00; x00; x39; x30; x00; x00; x00; x00;
    x00; x00; x15; x5f; xd0; xac; x4b; x9b; xb6; x01; x00; x00; x00; x00; x00; x00; x00; x00; x00;
    x00; x00; x00; x00; x00; x00; x00; x00; x00; x00; x00; x00; x00; x00; x00; x00; x00; x00; x00;
    x00; x00; x00; x00; x00; x00; x00; x00; x00; x00; x00; x00; x00; x00; x00; x00; x00; x00; x00;
    x00; x00; x00; x00; x00; x00; x00; x00; x00]) =
  txt "SetattrRequest {
    node_id: 2,
    handle: None,
    size: Some(12345),
    lock_owner: FAKE_LOCK_OWNER,
    atime: None,
    atime_now: false,
    mtime: None,
    mtime_now: false,
    ctime: None,
    mode: None,
    user_id: None,
    group_id: None,
}".
Proof. vm_compute. reflexivity. Qed.

(** fuse/operations/setattr/setattr_interop_test.rs:370-383 *)
Example interop_setattr_6 :
  stub (txt " lock_owner: ") (txt "FAKE_LOCK_OWNER")   (shown false RSetattr [x80; x00; x00; x00; x04;
    x00; x00; x00; xcd; xab; x00; x00; x00; x00; x00; x00; x02; x00; x00; x00; x00; x00; x00; x00;
    xe8; x03; x00; x00; x64; x00; x00; x00; xe1; x10; x00; x00; x00; x00; x00; x00; x48; x02; x00;
    x00; x00; x00; x00; x00; xea; x03; x00; x00; x00; x00; x00; x00; x39; x30; x00; x00; x00; x00;
    x00; x00; x15; x5f; xd0; xac; x4b; x9b; xb6; x01; x00; x00; x00; x00; x00; x00; x00; x00; x00;
    x00; x00; x00; x00; x00; x00; x00; x00; x00; x00; x00; x00; x00; x00; x00; x00; x00; x00; x00;
    x00; x00; x00; x00; x00; x00; x00; x00; x00; x00; x00; x00; x00; x00; x00; x00; x00; x00; x00;
    x00; x00; x00; x00; x00; x00; x00; x00; x00]) =
  txt "SetattrRequest {
    node_id: 2,
    handle: Some(1002),
    size: Some(12345),
    lock_owner: FAKE_LOCK_OWNER,
    atime: None,
    atime_now: false,
    mtime: None,
    mtime_now: false,
    ctime: None,
    mode: None,
    user_id: None,
    group_id: None,
}".
Proof. vm_compute. reflexivity. Qed.

(** fuse/operations/setlk/setlk_interop_test.rs:196-210 *)
Example interop_setlk_1 :
  stub (txt " owner: ") (txt "123456789123456789")   (shown false RSetlk [x58; x00; x00; x00; x20;
    x00; x00; x00; xcd; xab; x00; x00; x00; x00; x00; x00; x02; x00; x00; x00; x00; x00; x00; x00;
    xe8; x03; x00; x00; x64; x00; x00; x00; xe1; x10; x00; x00; x00; x00; x00; x00; x39; x30; x00;
    x00; x00; x00; x00; x00; x15; x5f; xd0; xac; x4b; x9b; xb6; x01; x64; x00; x00; x00; x00; x00;
    x00; x00; x95; x00; x00; x00; x00; x00; x00; x00; x00; x00; x00; x00; xe1; x10; x00; x00; x00;
    x00; x00; x00; x00; x00; x00; x00]) =
  txt "SetlkRequest {
    node_id: 2,
    handle: 12345,
    may_block: false,
    owner: 123456789123456789,
    lock: Lock {
        mode: F_RDLCK,
        range: LockRange {
            start: 100,
            length: Some(50),
        },
        process_id: Some(4321),
    },
    flags: SetlkRequestFlags {},
}".
Proof. vm_compute. reflexivity. Qed.

(** fuse/operations/setlk/setlk_interop_test.rs:224-238, 384-398 *)
Example interop_setlk_2 :
  stub (txt " owner: ") (txt "123456789123456789")   (shown false RSetlk [x58; x00; x00; x00; x20;
    x00; x00; x00; xcd; xab; x00; x00; x00; x00; x00; x00; x02; x00; x00; x00; x00; x00; x00; x00;
    xe8; x03; x00; x00; x64; x00; x00; x00; xe1; x10; x00; x00; x00; x00; x00; x00; x39; x30; x00;
    x00; x00; x00; x00; x00; x15; x5f; xd0; xac; x4b; x9b; xb6; x01; x00; x00; x00; x00; x00; x00;
    x00; x00; xff; xff; xff; xff; xff; xff; xff; x7f; x02; x00; x00; x00; x00; x00; x00; x00; x00;
    x00; x00; x00; x00; x00; x00; x00]) =
  txt "SetlkRequest {
    node_id: 2,
    handle: 12345,
    may_block: false,
    owner: 123456789123456789,
    lock: Lock {
        mode: F_UNLCK,
        range: LockRange {
            start: 0,
            length: None,
        },
        process_id: None,
    },
    flags: SetlkRequestFlags {},
}".
Proof. vm_compute. reflexivity. Qed.

(** fuse/operations/setlk/setlk_interop_test.rs:282-296 *)
Example interop_setlk_3 :
  stub (txt " owner: ") (txt "123456789123456789")   (shown false RSetlk [x58; x00; x00; x00; x21;
    x00; x00; x00; xcd; xab; x00; x00; x00; x00; x00; x00; x02; x00; x00; x00; x00; x00; x00; x00;
    xe8; x03; x00; x00; x64; x00; x00; x00; xe1; x10; x00; x00; x00; x00; x00; x00; x39; x30; x00;
    x00; x00; x00; x00; x00; x15; x5f; xd0; xac; x4b; x9b; xb6; x01; x64; x00; x00; x00; x00; x00;
    x00; x00; x95; x00; x00; x00; x00; x00; x00; x00; x00; x00; x00; x00; xe1; x10; x00; x00; x00;
    x00; x00; x00; x00; x00; x00; x00]) =
  txt "SetlkRequest {
    node_id: 2,
    handle: 12345,
    may_block: true,
    owner: 123456789123456789,
    lock: Lock {
        mode: F_RDLCK,
        range: LockRange {
            start: 100,
            length: Some(50),
        },
        process_id: Some(4321),
    },
    flags: SetlkRequestFlags {},
}".
Proof. vm_compute. reflexivity. Qed.

(** fuse/operations/setlk/setlk_interop_test.rs:356-370 *)
Example interop_setlk_4 :
  stub (txt " owner: ") (txt "123456789123456789")   (shown false RSetlk [x58; x00; x00; x00; x20;
    x00; x00; x00; xcd; xab; x00; x00; x00; x00; x00; x00; x02; x00; x00; x00; x00; x00; x00; x00;
    xe8; x03; x00; x00; x64; x00; x00; x00; xe1; x10; x00; x00; x00; x00; x00; x00; x39; x30; x00;
    x00; x00; x00; x00; x00; x15; x5f; xd0; xac; x4b; x9b; xb6; x01; x64; x00; x00; x00; x00; x00;
    x00; x00; x95; x00; x00; x00; x00; x00; x00; x00; x01; x00; x00; x00; xe1; x10; x00; x00; x00;
    x00; x00; x00; x00; x00; x00; x00]) =
  txt "SetlkRequest {
    node_id: 2,
    handle: 12345,
    may_block: false,
    owner: 123456789123456789,
    lock: Lock {
        mode: F_WRLCK,
        range: LockRange {
            start: 100,
            length: Some(50),
        },
        process_id: Some(4321),
    },
    flags: SetlkRequestFlags {},
}".
Proof. vm_compute. reflexivity. Qed.

(** fuse/operations/setlk/setlk_interop_test.rs:431-445 *)
Example interop_setlk_5 :
  stub (txt " owner: ") (txt "123456789123456789")   (shown false RSetlk [x58; x00; x00; x00; x21;
    x00; x00; x00; xcd; xab; x00; x00; x00; x00; x00; x00; x02; x00; x00; x00; x00; x00; x00; x00;
    xe8; x03; x00; x00; x64; x00; x00; x00; xe1; x10; x00; x00; x00; x00; x00; x00; x39; x30; x00;
    x00; x00; x00; x00; x00; x15; x5f; xd0; xac; x4b; x9b; xb6; x01; x64; x00; x00; x00; x00; x00;
    x00; x00; x95; x00; x00; x00; x00; x00; x00; x00; x01; x00; x00; x00; xe1; x10; x00; x00; x00;
    x00; x00; x00; x00; x00; x00; x00]) =
  txt "SetlkRequest {
    node_id: 2,
    handle: 12345,
    may_block: true,
    owner: 123456789123456789,
    lock: Lock {
        mode: F_WRLCK,
        range: LockRange {
            start: 100,
            length: Some(50),
        },
        process_id: Some(4321),
    },
    flags: SetlkRequestFlags {},
}".
Proof. vm_compute. reflexivity. Qed.

(** fuse/operations/setlk/setlk_interop_test.rs:474-488 *)
Example interop_setlk_6 :
  stub (txt " owner: ") (txt "123456789123456789")   (shown false RSetlk [x58; x00; x00; x00; x20;
    x00; x00; x00; xcd; xab; x00; x00; x00; x00; x00; x00; x02; x00; x00; x00; x00; x00; x00; x00;
    xe8; x03; x00; x00; x64; x00; x00; x00; xe1; x10; x00; x00; x00; x00; x00; x00; x39; x30; x00;
    x00; x00; x00; x00; x00; x15; x5f; xd0; xac; x4b; x9b; xb6; x01; x64; x00; x00; x00; x00; x00;
    x00; x00; x95; x00; x00; x00; x00; x00; x00; x00; x02; x00; x00; x00; x00; x00; x00; x00; x00;
    x00; x00; x00; x00; x00; x00; x00]) =
  txt "SetlkRequest {
    node_id: 2,
    handle: 12345,
    may_block: false,
    owner: 123456789123456789,
    lock: Lock {
        mode: F_UNLCK,
        range: LockRange {
            start: 100,
            length: Some(50),
        },
        process_id: None,
    },
    flags: SetlkRequestFlags {},
}".
Proof. vm_compute. reflexivity. Qed.

(** fuse/operations/setlk/setlk_interop_test.rs:515-529 *)
Example interop_setlk_7 :
  stub (txt " owner: ") (txt "123456789123456789")   (shown false RSetlk [x58; x00; x00; x00; x21;
    x00; x00; x00; xcd; xab; x00; x00; x00; x00; x00; x00; x02; x00; x00; x00; x00; x00; x00; x00;
    xe8; x03; x00; x00; x64; x00; x00; x00; xe1; x10; x00; x00; x00; x00; x00; x00; x39; x30; x00;
    x00; x00; x00; x00; x00; x15; x5f; xd0; xac; x4b; x9b; xb6; x01; x64; x00; x00; x00; x00; x00;
    x00; x00; x95; x00; x00; x00; x00; x00; x00; x00; x02; x00; x00; x00; x00; x00; x00; x00; x00;
    x00; x00; x00; x00; x00; x00; x00]) =
  txt "SetlkRequest {
    node_id: 2,
    handle: 12345,
    may_block: true,
    owner: 123456789123456789,
    lock: Lock {
        mode: F_UNLCK,
        range: LockRange {
            start: 100,
            length: Some(50),
        },
        process_id: None,
    },
    flags: SetlkRequestFlags {},
}".
Proof. vm_compute. reflexivity. Qed.

(** fuse/operations/setlk/setlk_interop_test.rs:548-564 *)
Example interop_setlk_8 :
  stub (txt " owner: ") (txt "123456789123456789")   (shown false RSetlk [x58; x00; x00; x00; x20;
    x00; x00; x00; xcd; xab; x00; x00; x00; x00; x00; x00; x02; x00; x00; x00; x00; x00; x00; x00;
    xe8; x03; x00; x00; x64; x00; x00; x00; xe1; x10; x00; x00; x00; x00; x00; x00; x39; x30; x00;
    x00; x00; x00; x00; x00; x15; x5f; xd0; xac; x4b; x9b; xb6; x01; x00; x00; x00; x00; x00; x00;
    x00; x00; xff; xff; xff; xff; xff; xff; xff; x7f; x00; x00; x00; x00; xe1; x10; x00; x00; x01;
    x00; x00; x00; x00; x00; x00; x00]) =
  txt "SetlkRequest {
    node_id: 2,
    handle: 12345,
    may_block: false,
    owner: 123456789123456789,
    lock: Lock {
        mode: F_RDLCK,
        range: LockRange {
            start: 0,
            length: None,
        },
        process_id: Some(4321),
    },
    flags: SetlkRequestFlags {
        LK_FLOCK,
    },
}".
Proof. vm_compute. reflexivity. Qed.

(** fuse/operations/setlk/setlk_interop_test.rs:585-601 *)
Example interop_setlk_9 :
  stub (txt " owner: ") (txt "123456789123456789")   (shown false RSetlk [x58; x00; x00; x00; x21;
    x00; x00; x00; xcd; xab; x00; x00; x00; x00; x00; x00; x02; x00; x00; x00; x00; x00; x00; x00;
    xe8; x03; x00; x00; x64; x00; x00; x00; xe1; x10; x00; x00; x00; x00; x00; x00; x39; x30; x00;
    x00; x00; x00; x00; x00; x15; x5f; xd0; xac; x4b; x9b; xb6; x01; x00; x00; x00; x00; x00; x00;
    x00; x00; xff; xff; xff; xff; xff; xff; xff; x7f; x00; x00; x00; x00; xe1; x10; x00; x00; x01;
    x00; x00; x00; x00; x00; x00; x00]) =
  txt "SetlkRequest {
    node_id: 2,
    handle: 12345,
    may_block: true,
    owner: 123456789123456789,
    lock: Lock {
        mode: F_RDLCK,
        range: LockRange {
            start: 0,
            length: None,
        },
        process_id: Some(4321),
    },
    flags: SetlkRequestFlags {
        LK_FLOCK,
    },
}".
Proof. vm_compute. reflexivity. Qed.

(** fuse/operations/setlk/setlk_interop_test.rs:622-638 *)
Example interop_setlk_10 :
  stub (txt " owner: ") (txt "123456789123456789")   (shown false RSetlk [x58; x00; x00; x00; x20;
    x00; x00; x00; xcd; xab; x00; x00; x00; x00; x00; x00; x02; x00; x00; x00; x00; x00; x00; x00;
    xe8; x03; x00; x00; x64; x00; x00; x00; xe1; x10; x00; x00; x00; x00; x00; x00; x39; x30; x00;
    x00; x00; x00; x00; x00; x15; x5f; xd0; xac; x4b; x9b; xb6; x01; x00; x00; x00; x00; x00; x00;
    x00; x00; xff; xff; xff; xff; xff; xff; xff; x7f; x01; x00; x00; x00; xe1; x10; x00; x00; x01;
    x00; x00; x00; x00; x00; x00; x00]) =
  txt "SetlkRequest {
    node_id: 2,
    handle: 12345,
    may_block: false,
    owner: 123456789123456789,
    lock: Lock {
        mode: F_WRLCK,
        range: LockRange {
            start: 0,
            length: None,
        },
        process_id: Some(4321),
    },
    flags: SetlkRequestFlags {
        LK_FLOCK,
    },
}".
Proof. vm_compute. reflexivity. Qed.

(** fuse/operations/setlk/setlk_interop_test.rs:659-675 *)
Example interop_setlk_11 :
  stub (txt " owner: ") (txt "123456789123456789")   (shown false RSetlk [x58; x00; x00; x00; x21;
    x00; x00; x00; xcd; xab; x00; x00; x00; x00; x00; x00; x02; x00; x00; x00; x00; x00; x00; x00;
    xe8; x03; x00; x00; x64; x00; x00; x00; xe1; x10; x00; x00; x00; x00; x00; x00; x39; x30; x00;
    x00; x00; x00; x00; x00; x15; x5f; xd0; xac; x4b; x9b; xb6; x01; x00; x00; x00; x00; x00; x00;
    x00; x00; xff; xff; xff; xff; xff; xff; xff; x7f; x01; x00; x00; x00; xe1; x10; x00; x00; x01;
    x00; x00; x00; x00; x00; x00; x00]) =
  txt "SetlkRequest {
    node_id: 2,
    handle: 12345,
    may_block: true,
    owner: 123456789123456789,
    lock: Lock {
        mode: F_WRLCK,
        range: LockRange {
            start: 0,
            length: None,
        },
        process_id: Some(4321),
    },
    flags: SetlkRequestFlags {
        LK_FLOCK,
    },
}".
Proof. vm_compute. reflexivity. Qed.

(** fuse/operations/setlk/setlk_interop_test.rs:693-709 *)
Example interop_setlk_12 :
  stub (txt " owner: ") (txt "123456789123456789")   (shown false RSetlk [x58; x00; x00; x00; x20;
    x00; x00; x00; xcd; xab; x00; x00; x00; x00; x00; x00; x02; x00; x00; x00; x00; x00; x00; x00;
    xe8; x03; x00; x00; x64; x00; x00; x00; xe1; x10; x00; x00; x00; x00; x00; x00; x39; x30; x00;
    x00; x00; x00; x00; x00; x15; x5f; xd0; xac; x4b; x9b; xb6; x01; x00; x00; x00; x00; x00; x00;
    x00; x00; xff; xff; xff; xff; xff; xff; xff; x7f; x02; x00; x00; x00; x00; x00; x00; x00; x01;
    x00; x00; x00; x00; x00; x00; x00]) =
  txt "SetlkRequest {
    node_id: 2,
    handle: 12345,
    may_block: false,
    owner: 123456789123456789,
    lock: Lock {
        mode: F_UNLCK,
        range: LockRange {
            start: 0,
            length: None,
        },
        process_id: None,
    },
    flags: SetlkRequestFlags {
        LK_FLOCK,
    },
}".
Proof. vm_compute. reflexivity. Qed.

(** fuse/operations/setlk/setlk_interop_test.rs:725-741 *)
Example interop_setlk_13 :
  stub (txt " owner: ") (txt "123456789123456789")   (shown false RSetlk [x58; x00; x00; x00; x21;
    x00; x00; x00; xcd; xab; x00; x00; x00; x00; x00; x00; x02; x00; x00; x00; x00; x00; x00; x00;
    xe8; x03; x00; x00; x64; x00; x00; x00; xe1; x10; x00; x00; x00; x00; x00; x00; x39; x30; x00;
    x00; x00; x00; x00; x00; x15; x5f; xd0; xac; x4b; x9b; xb6; x01; x00; x00; x00; x00; x00; x00;
    x00; x00; xff; xff; xff; xff; xff; xff; xff; x7f; x02; x00; x00; x00; x00; x00; x00; x00; x01;
    x00; x00; x00; x00; x00; x00; x00]) =
  txt "SetlkRequest {
    node_id: 2,
    handle: 12345,
    may_block: true,
    owner: 123456789123456789,
    lock: Lock {
        mode: F_UNLCK,
        range: LockRange {
            start: 0,
            length: None,
        },
        process_id: None,
    },
    flags: SetlkRequestFlags {
        LK_FLOCK,
    },
}".
Proof. vm_compute. reflexivity. Qed.

(** fuse/operations/setxattr/setxattr_interop_test.rs:135-141 *)
Example interop_setxattr_1 :
  shown false RSetxattr [x4a; x00; x00; x00; x15; x00; x00; x00; xcd; xab; x00; x00; x00; x00; x00;
    x00; x02; x00; x00; x00; x00; x00; x00; x00; xe8; x03; x00; x00; x64; x00; x00; x00; xe1; x10;
    x00; x00; x00; x00; x00; x00; x0a; x00; x00; x00; x00; x00; x00; x00; x75; x73; x65; x72; x2e;
    x78; x61; x74; x74; x72; x5f; x6e; x61; x6d; x65; x00; x73; x6f; x6d; x65; x00; x76; x61; x6c;
    x75; x65] =
  txt "SetxattrRequest {
    node_id: 2,
    name: ""user.xattr_name"",
    flags: SetxattrRequestFlags {},
    setxattr_flags: 0x00000000,
    value: ""some\x00value"",
}".
Proof. vm_compute. reflexivity. Qed.

(** fuse/operations/setxattr/setxattr_interop_test.rs:168-174 *)
Example interop_setxattr_2 :
  shown false RSetxattr [x4a; x00; x00; x00; x15; x00; x00; x00; xcd; xab; x00; x00; x00; x00; x00;
    x00; x02; x00; x00; x00; x00; x00; x00; x00; xe8; x03; x00; x00; x64; x00; x00; x00; xe1; x10;
    x00; x00; x00; x00; x00; x00; x0a; x00; x00; x00; x01; x00; x00; x00; x75; x73; x65; x72; x2e;
    x78; x61; x74; x74; x72; x5f; x6e; x61; x6d; x65; x00; x73; x6f; x6d; x65; x00; x76; x61; x6c;
    x75; x65] =
  txt "SetxattrRequest {
    node_id: 2,
    name: ""user.xattr_name"",
    flags: SetxattrRequestFlags {},
    setxattr_flags: 0x00000001,
    value: ""some\x00value"",
}".
Proof. vm_compute. reflexivity. Qed.

(** fuse/operations/setxattr/setxattr_interop_test.rs:201-207 *)
Example interop_setxattr_3 :
  shown false RSetxattr [x4a; x00; x00; x00; x15; x00; x00; x00; xcd; xab; x00; x00; x00; x00; x00;
    x00; x02; x00; x00; x00; x00; x00; x00; x00; xe8; x03; x00; x00; x64; x00; x00; x00; xe1; x10;
    x00; x00; x00; x00; x00; x00; x0a; x00; x00; x00; x02; x00; x00; x00; x75; x73; x65; x72; x2e;
    x78; x61; x74; x74; x72; x5f; x6e; x61; x6d; x65; x00; x73; x6f; x6d; x65; x00; x76; x61; x6c;
    x75; x65] =
  txt "SetxattrRequest {
    node_id: 2,
    name: ""user.xattr_name"",
    flags: SetxattrRequestFlags {},
    setxattr_flags: 0x00000002,
    value: ""some\x00value"",
}".
Proof. vm_compute. reflexivity. Qed.

(** fuse/operations/statfs/statfs_interop_test.rs:154-156, 212-214 *)
Example interop_statfs_1 :
  shown false RStatfs [x28; x00; x00; x00; x11; x00; x00; x00; xcd; xab; x00; x00; x00; x00; x00; x00;
    x02; x00; x00; x00; x00; x00; x00; x00; xe8; x03; x00; x00; x64; x00; x00; x00; xe1; x10; x00;
    x00; x00; x00; x00; x00] =
  txt "StatfsRequest {
    node_id: 2,
}".
Proof. vm_compute. reflexivity. Qed.

(** fuse/operations/statfs/statfs_interop_test.rs:158-160, 216-218 *)
Example interop_statfs_2 :
  shown false RStatfs [x28; x00; x00; x00; x11; x00; x00; x00; xcd; xab; x00; x00; x00; x00; x00; x00;
    x01; x00; x00; x00; x00; x00; x00; x00; xe8; x03; x00; x00; x64; x00; x00; x00; xe1; x10; x00;
    x00; x00; x00; x00; x00] =
  txt "StatfsRequest {
    node_id: 1,
}".
Proof. vm_compute. reflexivity. Qed.

(** fuse/operations/symlink/symlink_interop_test.rs:119-123 *)
Example interop_symlink_1 :
  shown false RSymlink [x47; x00; x00; x00; x06; x00; x00; x00; xcd; xab; x00; x00; x00; x00; x00;
    x00; x01; x00; x00; x00; x00; x00; x00; x00; xe8; x03; x00; x00; x64; x00; x00; x00; xe1; x10;
    x00; x00; x00; x00; x00; x00; x73; x79; x6d; x6c; x69; x6e; x6b; x2e; x74; x78; x74; x00; x73;
    x79; x6d; x6c; x69; x6e; x6b; x5f; x74; x61; x72; x67; x65; x74; x2e; x74; x78; x74; x00] =
  txt "SymlinkRequest {
    parent_id: 1,
    name: ""symlink_target.txt"",
    content: ""symlink.txt"",
}".
Proof. vm_compute. reflexivity. Qed.
