(** The unit tests of the repository, replayed on the model: the message each
    test builds, and what it asserts about the decoded request.

    Generated from the sources of the tests; the bytes of the messages are
    those [MessageBuilder] (fuse/internal/testing/fuse_testutil.rs:29-98) lays
    out on a little-endian host, as hexadecimal digits. *)

From Coq Require Import String Ascii.
From Verif Require Import Base Kernel CoreModel DecodeModel OpsModel ReplyModel ReplySpec ListingModel
  FlagsModel HostModel OptionsModel DebugModel ShowModel.
From Coq Require Import List NArith ZArith Bool.
Import ListNotations.
Open Scope string_scope.
Open Scope list_scope.
Open Scope N_scope.

Local Instance LE : Endian := false.

(** ** Reading the test data *)
Definition hex_digit (c : ascii) : N :=
  let n := N_of_ascii c in if n <? 58 then n - 48 else n - 87.
Fixpoint hex (s : string) : bytes :=
  match s with
  | String a (String b r) =>
    match Byte.of_N (16 * hex_digit a + hex_digit b) with Some x => x :: hex r | None => [] end
  | _ => []
  end.

(** [build_aligned] and [decode_request!] (fuse_testutil.rs:61-66, 108-137):
    the message in a buffer of 8192 zero bytes, decoded at a version. *)
Definition buffer (message : bytes) : bytes := message ++ repeat x00 (N.to_nat (8192 - nlen message)).
Definition layout (minor : N) : config :=
  {| cf_minor := minor; cf_setxattr_ext := false; cf_overflow_checks := true |}.
Definition decoded (is_cuse : bool) (minor : N) (t : rtype) (message : string) : out view :=
  rq <- Request_new (buffer (hex message)) ;;
  decode_view is_cuse (layout minor) t rq.
Definition shown (o : out view) : bytes :=
  match o with Ret v => pretty (debug_view linux_locks v) | _ => [] end.

(** ** Comparing *)
Fixpoint bytes_eqb (a b : bytes) : bool :=
  match a, b with
  | [], [] => true
  | x :: a, y :: b => Byte.eqb x y && bytes_eqb a b
  | _, _ => false
  end.
Definition opt_eqb (a b : option N) : bool :=
  match a, b with Some x, Some y => x =? y | None, None => true | _, _ => false end.
Definition time_eqb (t : option UnixTime) (seconds : Z) (nanos : N) : bool :=
  match t with Some t => (ut_seconds t =? seconds)%Z && (ut_nanos t =? nanos) | None => false end.
Definition has (t : flags_type) (name : string) (bits : N) : bool :=
  match find (fun f => String.eqb (fst f) name) (ft_flags t) with
  | Some f => flags_get bits (snd f)
  | None => false
  end.
Definition the (o : option N) : N := match o with Some x => x | None => 0 end.
Definition is_type (a : option FileType) (b : FileType) : bool :=
  match a with Some a => FileType_as_bits a =? FileType_as_bits b | None => false end.

(** The bytes of a message handed to the socket *)
Definition sent_as (c : send_call) : out bytes :=
  match c with Call b => on_wire b | Refuse _ => Panic end.

(** ** The tests *)

(** fuse/operations/access/access_test.rs:23-37 *)
Example access_request :
  match decoded false 36 RAccess
    "3000000022000000ddccbbaa000000007b0000000000000000000000000000000000000000000000ff00000000000000" with
  | Ret (VAccess _ mask) =>
    N.eqb mask 255
  | _ => false
  end = true.
Proof. vm_compute. reflexivity. Qed.

(** fuse/operations/access/access_test.rs:39-59 *)
Example access_request_impl_debug :
  shown (decoded false 36 RAccess
    "3000000022000000ddccbbaa000000000100000000000000000000000000000000000000000000000000000000000000") =
  txt "AccessRequest {
    node_id: 1,
    mask: 0,
}".
Proof. vm_compute. reflexivity. Qed.

(** fuse/operations/copy_file_range/copy_file_range_test.rs:23-50 *)
Example copy_file_range_request :
  match decoded false 36 RCopyFileRange
    "600000002f000000ddccbbaa000000000a00000000000000000000000000000000000000000000000b000000000000000c000000000000000d000000000000000e000000000000000f0000000000000010000000000000000000000000000000" with
  | Ret (VCopyFileRange input_node_id input_handle input_offset output_node_id output_handle output_offset len flags) =>
    N.eqb input_node_id 10 &&
    N.eqb input_handle 11 &&
    N.eqb input_offset 12 &&
    N.eqb output_node_id 13 &&
    N.eqb output_handle 14 &&
    N.eqb output_offset 15 &&
    N.eqb len 16 &&
    N.eqb flags 0
  | _ => false
  end = true.
Proof. vm_compute. reflexivity. Qed.

(** fuse/operations/copy_file_range/copy_file_range_test.rs:52-85 *)
Example copy_file_range_request_impl_debug :
  shown (decoded false 36 RCopyFileRange
    "600000002f000000ddccbbaa000000000a00000000000000000000000000000000000000000000000b000000000000000c000000000000000d000000000000000e000000000000000f0000000000000010000000000000000000000000000000") =
  txt "CopyFileRangeRequest {
    input_node_id: 10,
    input_handle: 11,
    input_offset: 12,
    output_node_id: 13,
    output_handle: 14,
    output_offset: 15,
    len: 16,
    flags: CopyFileRangeRequestFlags {},
}".
Proof. vm_compute. reflexivity. Qed.

(** fuse/operations/create/create_test.rs:23-44 *)
Example create_request_v7p1 :
  match decoded false 1 RCreate
    "3d00000023000000ddccbbaa000000007b0000000000000000000000000000000000000000000000ff0000000000000068656c6c6f2e776f726c642100" with
  | Ret (VCreate _ name flags open_flags mode umask) =>
    bytes_eqb name (hex "68656c6c6f2e776f726c6421") &&
    N.eqb flags 0 &&
    N.eqb open_flags 255 &&
    N.eqb mode 0 &&
    N.eqb umask 0
  | _ => false
  end = true.
Proof. vm_compute. reflexivity. Qed.

(** fuse/operations/create/create_test.rs:46-71 *)
Example create_request_v7p12 :
  match decoded false 12 RCreate
    "4500000023000000ddccbbaa000000007b0000000000000000000000000000000000000000000000ff000000ee000000dd0000000000000068656c6c6f2e776f726c642100" with
  | Ret (VCreate _ name flags open_flags mode umask) =>
    bytes_eqb name (hex "68656c6c6f2e776f726c6421") &&
    N.eqb flags 0 &&
    N.eqb open_flags 255 &&
    N.eqb mode 238 &&
    N.eqb umask 221
  | _ => false
  end = true.
Proof. vm_compute. reflexivity. Qed.

(** fuse/operations/create/create_test.rs:73-103 *)
Example create_request_impl_debug :
  shown (decoded false 36 RCreate
    "4400000023000000ddccbbaa000000000100000000000000000000000000000000000000000000007b000000a4810000120000000000000068656c6c6f2e776f726c6400") =
  txt "CreateRequest {
    node_id: 1,
    name: ""hello.world"",
    flags: CreateRequestFlags {},
    open_flags: 0x0000007B,
    mode: 0o100644,
    umask: 18,
}".
Proof. vm_compute. reflexivity. Qed.

(** fuse/operations/cuse_init/cuse_init_test.rs:48-66 *)
Example cuse_init_request :
  match decoded true 36 OpsModel.RCuseInit
    "3800000000100000ddccbbaa0000000000000000000000000000000000000000000000000000000007000000060000000000000001000000" with
  | Ret (VCuseInit version flags) =>
    N.eqb (v_major version) 7 &&
    N.eqb (v_minor version) 6 &&
    N.eqb flags 1
  | _ => false
  end = true.
Proof. vm_compute. reflexivity. Qed.

(** fuse/operations/cuse_init/cuse_init_test.rs:68-97 *)
Example cuse_init_request_impl_debug :
  shown (decoded true 36 OpsModel.RCuseInit
    "3800000000100000ddccbbaa0000000000000000000000000000000000000000000000000000000007000000010000000000000001000000") =
  txt "CuseInitRequest {
    version: Version {
        major: 7,
        minor: 1,
    },
    flags: CuseInitFlags {
        UNRESTRICTED_IOCTL,
    },
}".
Proof. vm_compute. reflexivity. Qed.

(** fuse/operations/fallocate/fallocate_test.rs:23-44 *)
Example fallocate_request :
  match decoded false 36 RFallocate
    "480000002b000000ddccbbaa000000007b00000000000000000000000000000000000000000000000c00000000000000220000000000000038000000000000000300000000000000" with
  | Ret (VFallocate _ handle offset length fallocate_flags) =>
    N.eqb handle 12 &&
    N.eqb offset 34 &&
    N.eqb length 56 &&
    N.eqb fallocate_flags 3
  | _ => false
  end = true.
Proof. vm_compute. reflexivity. Qed.

(** fuse/operations/fallocate/fallocate_test.rs:46-74 *)
Example fallocate_request_impl_debug :
  shown (decoded false 36 RFallocate
    "480000002b000000ddccbbaa000000000100000000000000000000000000000000000000000000007b00000000000000000400000000000000100000000000000300000000000000") =
  txt "FallocateRequest {
    node_id: 1,
    handle: 123,
    offset: 1024,
    length: 4096,
    fallocate_flags: 0x00000003,
}".
Proof. vm_compute. reflexivity. Qed.

(** fuse/operations/flush/flush_test.rs:23-40 *)
Example flush_request :
  match decoded false 36 RFlush
    "4000000019000000ddccbbaa000000007b00000000000000000000000000000000000000000000007b000000000000000000000000000000c801000000000000" with
  | Ret (VFlush _ handle lock_owner) =>
    N.eqb handle 123 &&
    N.eqb lock_owner 456
  | _ => false
  end = true.
Proof. vm_compute. reflexivity. Qed.

(** fuse/operations/flush/flush_test.rs:42-65 *)
Example flush_request_impl_debug :
  shown (decoded false 36 RFlush
    "4000000019000000ddccbbaa000000000100000000000000000000000000000000000000000000000c0000000000000000000000000000002200000000000000") =
  txt "FlushRequest {
    node_id: 1,
    handle: 12,
    lock_owner: 0x0000000000000022,
}".
Proof. vm_compute. reflexivity. Qed.

(** fuse/operations/forget/forget_test.rs:23-41 *)
Example forget_request_single :
  match decoded false 36 RForget
    "3000000002000000ddccbbaa000000007b0000000000000000000000000000000000000000000000c801000000000000" with
  | Ret (VForget items) =>
    N.eqb (nlen items) 1 &&
    N.eqb (fst (nth 0 items (0, 0))) 123 &&
    N.eqb (snd (nth 0 items (0, 0))) 456
  | _ => false
  end = true.
Proof. vm_compute. reflexivity. Qed.

(** fuse/operations/forget/forget_test.rs:43-68 *)
Example forget_request_batch :
  match decoded false 36 RForget
    "500000002a000000ddccbbaa0000000000000000000000000000000000000000000000000000000002000000000000000c00000000000000220000000000000038000000000000004e00000000000000" with
  | Ret (VForget items) =>
    N.eqb (nlen items) 2 &&
    N.eqb (fst (nth 0 items (0, 0))) 12 &&
    N.eqb (snd (nth 0 items (0, 0))) 34 &&
    N.eqb (fst (nth 1 items (0, 0))) 56 &&
    N.eqb (snd (nth 1 items (0, 0))) 78
  | _ => false
  end = true.
Proof. vm_compute. reflexivity. Qed.

(** fuse/operations/forget/forget_test.rs:70-97 *)
Example forget_request_impl_debug :
  shown (decoded false 36 RForget
    "3000000002000000ddccbbaa000000007b0000000000000000000000000000000000000000000000c801000000000000") =
  txt "ForgetRequest {
    items: [
        ForgetRequestItem {
            node_id: 123,
            lookup_count: 456,
        },
    ],
}".
Proof. vm_compute. reflexivity. Qed.

(** fuse/operations/fsync/fsync_test.rs:23-40 *)
Example fsync_request :
  match decoded false 36 RFsync
    "3800000014000000ddccbbaa000000007b000000000000000000000000000000000000000000000003000000000000000100000000000000" with
  | Ret (VFsync _ handle flags) =>
    N.eqb handle 3 &&
    Bool.eqb (has FsyncRequestFlags "FDATASYNC" flags) true
  | _ => false
  end = true.
Proof. vm_compute. reflexivity. Qed.

(** fuse/operations/fsync/fsync_test.rs:42-68 *)
Example fsync_request_impl_debug :
  shown (decoded false 36 RFsync
    "3800000014000000ddccbbaa0000000001000000000000000000000000000000000000000000000003000000000000000100000000000000") =
  txt "FsyncRequest {
    node_id: 1,
    handle: 3,
    flags: FsyncRequestFlags {
        FDATASYNC,
    },
}".
Proof. vm_compute. reflexivity. Qed.

(** fuse/operations/fsyncdir/fsyncdir_test.rs:23-42 *)
Example fsyncdir_request :
  match decoded false 1 RFsyncdir
    "380000001e000000ddccbbaa000000007b000000000000000000000000000000000000000000000003000000000000000100000000000000" with
  | Ret (VFsyncdir _ handle flags) =>
    N.eqb handle 3 &&
    Bool.eqb (has FsyncdirRequestFlags "FDATASYNC" flags) true
  | _ => false
  end = true.
Proof. vm_compute. reflexivity. Qed.

(** fuse/operations/fsyncdir/fsyncdir_test.rs:44-70 *)
Example fsyncdir_request_impl_debug :
  shown (decoded false 36 RFsyncdir
    "380000001e000000ddccbbaa0000000001000000000000000000000000000000000000000000000003000000000000000100000000000000") =
  txt "FsyncdirRequest {
    node_id: 1,
    handle: 3,
    flags: FsyncdirRequestFlags {
        FDATASYNC,
    },
}".
Proof. vm_compute. reflexivity. Qed.

(** fuse/operations/fuse_init/fuse_init_test.rs:23-36 *)
Example fuse_init_request_v7p1 :
  match decoded false 36 RFuseInit
    "300000001a000000ddccbbaa000000000000000000000000000000000000000000000000000000000700000001000000" with
  | Ret (VFuseInit version max_readahead flags) =>
    N.eqb (v_major version) 7 &&
    N.eqb (v_minor version) 1 &&
    N.eqb max_readahead 0 &&
    N.eqb flags 0
  | _ => false
  end = true.
Proof. vm_compute. reflexivity. Qed.

(** fuse/operations/fuse_init/fuse_init_test.rs:38-53 *)
Example fuse_init_request_v7p6 :
  match decoded false 36 RFuseInit
    "380000001a000000ddccbbaa0000000000000000000000000000000000000000000000000000000007000000060000000900000001000000" with
  | Ret (VFuseInit version max_readahead flags) =>
    N.eqb (v_major version) 7 &&
    N.eqb (v_minor version) 6 &&
    N.eqb max_readahead 9 &&
    N.eqb flags 1
  | _ => false
  end = true.
Proof. vm_compute. reflexivity. Qed.

(** fuse/operations/fuse_init/fuse_init_test.rs:55-76 *)
Example fuse_init_request_v7p36 :
  match decoded false 36 RFuseInit
    "680000001a000000ddccbbaa0000000000000000000000000000000000000000000000000000000007000000240000000900000001000000020000000000000000000000000000000000000000000000000000000000000000000000000000000000000000000000" with
  | Ret (VFuseInit version max_readahead flags) =>
    N.eqb (v_major version) 7 &&
    N.eqb (v_minor version) 36 &&
    N.eqb max_readahead 9 &&
    N.eqb flags 8589934593
  | _ => false
  end = true.
Proof. vm_compute. reflexivity. Qed.

(** fuse/operations/fuse_init/fuse_init_test.rs:78-96 *)
Example fuse_init_request_major_mismatch :
  match decoded false 36 RFuseInit
    "680000001a000000ddccbbaa00000000000000000000000000000000000000000000000000000000ff000000ff000000ff000000ffffffffffffffff0000000000000000000000000000000000000000000000000000000000000000000000000000000000000000" with
  | Ret (VFuseInit version max_readahead flags) =>
    N.eqb (v_major version) 255 &&
    N.eqb (v_minor version) 255 &&
    N.eqb max_readahead 0 &&
    N.eqb flags 0
  | _ => false
  end = true.
Proof. vm_compute. reflexivity. Qed.

(** fuse/operations/fuse_init/fuse_init_test.rs:98-125 *)
Example fuse_init_init_flags :
  match decoded false 36 RFuseInit
    "680000001a000000ddccbbaa0000000000000000000000000000000000000000000000000000000007000000240000000000000003000000030000800000000000000000000000000000000000000000000000000000000000000000000000000000000000000000" with
  | Ret (VFuseInit _ _ flags) => pretty (debug_flags FuseInitFlags flags)
  | _ => []
  end =
  txt "FuseInitFlags {
    ASYNC_READ,
    POSIX_LOCKS,
    SECURITY_CTX,
    HAS_INODE_DAX,
    0x8000000000000000,
}".
Proof. vm_compute. reflexivity. Qed.

(** fuse/operations/fuse_init/fuse_init_test.rs:127-155 *)
Example fuse_init_request_impl_debug :
  shown (decoded false 36 RFuseInit
    "680000001a000000ddccbbaa0000000000000000000000000000000000000000000000000000000007000000060000000010000001000000000000000000000000000000000000000000000000000000000000000000000000000000000000000000000000000000") =
  txt "FuseInitRequest {
    version: Version {
        major: 7,
        minor: 6,
    },
    max_readahead: 4096,
    flags: FuseInitFlags {
        ASYNC_READ,
    },
}".
Proof. vm_compute. reflexivity. Qed.

(** fuse/operations/getattr/getattr_test.rs:23-37 *)
Example getattr_request_v7p1 :
  match decoded false 1 RGetattr
    "2800000003000000ddccbbaa000000007b0000000000000000000000000000000000000000000000" with
  | Ret (VGetattr _ handle) =>
    opt_eqb handle None
  | _ => false
  end = true.
Proof. vm_compute. reflexivity. Qed.

(** fuse/operations/getattr/getattr_test.rs:39-54 *)
Example getattr_request_v7p9 :
  match decoded false 9 RGetattr
    "3800000003000000ddccbbaa000000007b000000000000000000000000000000000000000000000000000000000000000000000000000000" with
  | Ret (VGetattr _ handle) =>
    opt_eqb handle None
  | _ => false
  end = true.
Proof. vm_compute. reflexivity. Qed.

(** fuse/operations/getattr/getattr_test.rs:56-74 *)
Example getattr_request_v7p9_with_handle :
  match decoded false 9 RGetattr
    "3800000003000000ddccbbaa000000007b000000000000000000000000000000000000000000000001000000000000007b00000000000000" with
  | Ret (VGetattr _ handle) =>
    opt_eqb handle (Some 123)
  | _ => false
  end = true.
Proof. vm_compute. reflexivity. Qed.

(** fuse/operations/getattr/getattr_test.rs:76-99 *)
Example getattr_request_impl_debug :
  shown (decoded false 36 RGetattr
    "3800000003000000ddccbbaa0000000001000000000000000000000000000000000000000000000001000000000000007b00000000000000") =
  txt "GetattrRequest {
    node_id: 1,
    handle: Some(123),
}".
Proof. vm_compute. reflexivity. Qed.

(** fuse/operations/getxattr/getxattr_test.rs:25-42 *)
Example getxattr_request_sized :
  match decoded false 36 RGetxattr
    "3d00000016000000ddccbbaa000000007b00000000000000000000000000000000000000000000000a0000000000000068656c6c6f2e776f726c642100" with
  | Ret (VGetxattr _ size name) =>
    opt_eqb size (Some 10) &&
    bytes_eqb name (hex "68656c6c6f2e776f726c6421")
  | _ => false
  end = true.
Proof. vm_compute. reflexivity. Qed.

(** fuse/operations/getxattr/getxattr_test.rs:44-59 *)
Example getxattr_request_unsized :
  match decoded false 36 RGetxattr
    "3d00000016000000ddccbbaa000000007b0000000000000000000000000000000000000000000000000000000000000068656c6c6f2e776f726c642100" with
  | Ret (VGetxattr _ size name) =>
    opt_eqb size None &&
    bytes_eqb name (hex "68656c6c6f2e776f726c6421")
  | _ => false
  end = true.
Proof. vm_compute. reflexivity. Qed.

(** fuse/operations/getxattr/getxattr_test.rs:61-85 *)
Example getxattr_request_impl_debug :
  shown (decoded false 36 RGetxattr
    "3d00000016000000ddccbbaa000000000100000000000000000000000000000000000000000000000b0000000000000068656c6c6f2e776f726c642100") =
  txt "GetxattrRequest {
    node_id: 1,
    size: Some(11),
    name: ""hello.world!"",
}".
Proof. vm_compute. reflexivity. Qed.

(** fuse/operations/link/link_test.rs:23-41 *)
Example link_request :
  match decoded false 36 RLink
    "3d0000000d000000ddccbbaa000000006400000000000000000000000000000000000000000000007b0000000000000068656c6c6f2e776f726c642100" with
  | Ret (VLink node_id new_parent_id new_name) =>
    N.eqb node_id 123 &&
    N.eqb new_parent_id 100 &&
    bytes_eqb new_name (hex "68656c6c6f2e776f726c6421")
  | _ => false
  end = true.
Proof. vm_compute. reflexivity. Qed.

(** fuse/operations/link/link_test.rs:43-67 *)
Example link_request_impl_debug :
  shown (decoded false 36 RLink
    "3d0000000d000000ddccbbaa000000006400000000000000000000000000000000000000000000007b0000000000000068656c6c6f2e776f726c642100") =
  txt "LinkRequest {
    node_id: 123,
    new_parent_id: 100,
    new_name: ""hello.world!"",
}".
Proof. vm_compute. reflexivity. Qed.

(** fuse/operations/listxattr/listxattr_test.rs:28-43 *)
Example listxattr_request_sized :
  match decoded false 36 RListxattr
    "3000000017000000ddccbbaa000000007b00000000000000000000000000000000000000000000000a00000000000000" with
  | Ret (VListxattr _ size) =>
    opt_eqb size (Some 10)
  | _ => false
  end = true.
Proof. vm_compute. reflexivity. Qed.

(** fuse/operations/listxattr/listxattr_test.rs:45-58 *)
Example listxattr_request_unsized :
  match decoded false 36 RListxattr
    "3000000017000000ddccbbaa000000007b00000000000000000000000000000000000000000000000000000000000000" with
  | Ret (VListxattr _ size) =>
    opt_eqb size None
  | _ => false
  end = true.
Proof. vm_compute. reflexivity. Qed.

(** fuse/operations/listxattr/listxattr_test.rs:60-82 *)
Example listxattr_request_impl_debug :
  shown (decoded false 36 RListxattr
    "3000000017000000ddccbbaa000000000100000000000000000000000000000000000000000000000b00000000000000") =
  txt "ListxattrRequest {
    node_id: 1,
    size: Some(11),
}".
Proof. vm_compute. reflexivity. Qed.

(** fuse/operations/lookup/lookup_test.rs:22-34 *)
Example lookup_request :
  match decoded false 36 RLookup
    "3500000001000000ddccbbaa000000007b000000000000000000000000000000000000000000000068656c6c6f2e776f726c642100" with
  | Ret (VLookup _ name) =>
    bytes_eqb name (hex "68656c6c6f2e776f726c6421")
  | _ => false
  end = true.
Proof. vm_compute. reflexivity. Qed.

(** fuse/operations/lookup/lookup_test.rs:36-56 *)
Example lookup_request_impl_debug :
  shown (decoded false 36 RLookup
    "3500000001000000ddccbbaa000000007b000000000000000000000000000000000000000000000068656c6c6f2e776f726c642100") =
  txt "LookupRequest {
    parent_id: 123,
    name: ""hello.world!"",
}".
Proof. vm_compute. reflexivity. Qed.

(** fuse/operations/lseek/lseek_test.rs:23-42 *)
Example lseek_request :
  match decoded false 36 RLseek
    "400000002e000000ddccbbaa000000007b00000000000000000000000000000000000000000000000c0000000000000022000000000000000300000000000000" with
  | Ret (VLseek _ handle offset whence) =>
    N.eqb handle 12 &&
    N.eqb offset 34 &&
    N.eqb whence 3
  | _ => false
  end = true.
Proof. vm_compute. reflexivity. Qed.

(** fuse/operations/lseek/lseek_test.rs:44-70 *)
Example lseek_request_impl_debug :
  shown (decoded false 36 RLseek
    "400000002e000000ddccbbaa000000000100000000000000000000000000000000000000000000000c0000000000000022000000000000000300000000000000") =
  txt "LseekRequest {
    node_id: 1,
    handle: 12,
    offset: 34,
    whence: SEEK_DATA,
}".
Proof. vm_compute. reflexivity. Qed.

(** fuse/operations/mkdir/mkdir_test.rs:23-43 *)
Example mkdir_request :
  match decoded false 36 RMkdir
    "3d00000009000000ddccbbaa00000000640000000000000000000000000000000000000000000000ed0100004900000068656c6c6f2e776f726c642100" with
  | Ret (VMkdir parent_id name mode umask) =>
    N.eqb parent_id 100 &&
    bytes_eqb name (hex "68656c6c6f2e776f726c6421") &&
    N.eqb mode 493 &&
    N.eqb umask 73
  | _ => false
  end = true.
Proof. vm_compute. reflexivity. Qed.

(** fuse/operations/mkdir/mkdir_test.rs:45-71 *)
Example mkdir_request_impl_debug :
  shown (decoded false 36 RMkdir
    "3d00000009000000ddccbbaa00000000640000000000000000000000000000000000000000000000ed0100004900000068656c6c6f2e776f726c642100") =
  txt "MkdirRequest {
    parent_id: 100,
    name: ""hello.world!"",
    mode: 0o755,
    umask: 0o111,
}".
Proof. vm_compute. reflexivity. Qed.

(** fuse/operations/mknod/mknod_test.rs:25-46 *)
Example mknod_request_v7p1 :
  match decoded false 1 RMknod
    "3d00000008000000ddccbbaa00000000640000000000000000000000000000000000000000000000a40100000000000068656c6c6f2e776f726c642100" with
  | Ret (VMknod parent_id name mode umask device_number) =>
    N.eqb parent_id 100 &&
    bytes_eqb name (hex "68656c6c6f2e776f726c6421") &&
    N.eqb mode 420 &&
    N.eqb umask 0 &&
    opt_eqb device_number None
  | _ => false
  end = true.
Proof. vm_compute. reflexivity. Qed.

(** fuse/operations/mknod/mknod_test.rs:48-71 *)
Example mknod_request_v7p12 :
  match decoded false 12 RMknod
    "4500000008000000ddccbbaa00000000640000000000000000000000000000000000000000000000a401000000000000490000000000000068656c6c6f2e776f726c642100" with
  | Ret (VMknod parent_id name mode umask device_number) =>
    N.eqb parent_id 100 &&
    bytes_eqb name (hex "68656c6c6f2e776f726c6421") &&
    N.eqb mode 420 &&
    N.eqb umask 73 &&
    opt_eqb device_number None
  | _ => false
  end = true.
Proof. vm_compute. reflexivity. Qed.

(** fuse/operations/mknod/mknod_test.rs:73-98 *)
Example mknod_request_device_number :
  match decoded false 12 RMknod
    "4500000008000000ddccbbaa00000000640000000000000000000000000000000000000000000000a46100007b000000490000000000000068656c6c6f2e776f726c642100" with
  | Ret (VMknod _ _ mode _ device_number) =>
    is_type (FileType_from_mode mode) BlockDevice &&
    N.eqb (FileMode_permissions mode) 420 &&
    opt_eqb device_number (Some 123)
  | _ => false
  end = true.
Proof. vm_compute. reflexivity. Qed.

(** fuse/operations/mknod/mknod_test.rs:100-128 *)
Example mknod_request_impl_debug :
  shown (decoded false 36 RMknod
    "4500000008000000ddccbbaa00000000640000000000000000000000000000000000000000000000a46100007b000000490000000000000068656c6c6f2e776f726c642100") =
  txt "MknodRequest {
    parent_id: 100,
    name: ""hello.world!"",
    mode: 0o60644,
    umask: 0o111,
    device_number: Some(123),
}".
Proof. vm_compute. reflexivity. Qed.

(** fuse/operations/open/open_test.rs:23-40 *)
Example open_request :
  match decoded false 36 ROpen
    "300000000e000000ddccbbaa000000007b0000000000000000000000000000000000000000000000ff00000001000000" with
  | Ret (VOpen _ flags open_flags) =>
    Bool.eqb (has OpenRequestFlags "KILL_SUIDGID" flags) true &&
    N.eqb open_flags 255
  | _ => false
  end = true.
Proof. vm_compute. reflexivity. Qed.

(** fuse/operations/open/open_test.rs:42-68 *)
Example open_request_impl_debug :
  shown (decoded false 36 ROpen
    "300000000e000000ddccbbaa00000000010000000000000000000000000000000000000000000000ff00000001000000") =
  txt "OpenRequest {
    node_id: 1,
    flags: OpenRequestFlags {
        KILL_SUIDGID,
    },
    open_flags: 0x000000FF,
}".
Proof. vm_compute. reflexivity. Qed.

(** fuse/operations/opendir/opendir_test.rs:23-39 *)
Example opendir_request :
  match decoded false 36 ROpendir
    "300000001b000000ddccbbaa000000007b0000000000000000000000000000000000000000000000ff00000000000000" with
  | Ret (VOpendir _ _ open_flags) =>
    N.eqb open_flags 255
  | _ => false
  end = true.
Proof. vm_compute. reflexivity. Qed.

(** fuse/operations/opendir/opendir_test.rs:41-64 *)
Example opendir_request_impl_debug :
  shown (decoded false 36 ROpendir
    "300000001b000000ddccbbaa000000000100000000000000000000000000000000000000000000000100000000000000") =
  txt "OpendirRequest {
    node_id: 1,
    flags: OpendirRequestFlags {},
    open_flags: 0x00000001,
}".
Proof. vm_compute. reflexivity. Qed.

(** fuse/operations/read/read_test.rs:25-47 *)
Example read_request_v7p1 :
  match decoded false 1 RRead
    "400000000f000000ddccbbaa000000007b00000000000000000000000000000000000000000000007b000000000000002d000000000000000c00000000000000" with
  | Ret (VRead _ size offset handle lock_owner open_flags) =>
    N.eqb handle 123 &&
    N.eqb offset 45 &&
    N.eqb size 12 &&
    opt_eqb lock_owner None &&
    N.eqb open_flags 0
  | _ => false
  end = true.
Proof. vm_compute. reflexivity. Qed.

(** fuse/operations/read/read_test.rs:49-73 *)
Example read_request_v7p9 :
  match decoded false 9 RRead
    "500000000f000000ddccbbaa000000007b00000000000000000000000000000000000000000000007b000000000000002d000000000000000c0000000000000000000000000000004300000000000000" with
  | Ret (VRead _ size offset handle lock_owner open_flags) =>
    N.eqb handle 123 &&
    N.eqb offset 45 &&
    N.eqb size 12 &&
    opt_eqb lock_owner None &&
    N.eqb open_flags 67
  | _ => false
  end = true.
Proof. vm_compute. reflexivity. Qed.

(** fuse/operations/read/read_test.rs:75-95 *)
Example read_request_lock_owner :
  match decoded false 36 RRead
    "500000000f000000ddccbbaa000000007b00000000000000000000000000000000000000000000007b000000000000002d000000000000000c000000020000807b000000000000004300000000000000" with
  | Ret (VRead _ _ _ _ lock_owner _) =>
    opt_eqb lock_owner (Some 123)
  | _ => false
  end = true.
Proof. vm_compute. reflexivity. Qed.

(** fuse/operations/read/read_test.rs:97-126 *)
Example read_request_impl_debug :
  shown (decoded false 36 RRead
    "500000000f000000ddccbbaa0000000001000000000000000000000000000000000000000000000003000000000000000200000000000000010000000000000000000000000000000400000000000000") =
  txt "ReadRequest {
    node_id: 1,
    size: 1,
    offset: 2,
    handle: 3,
    lock_owner: None,
    open_flags: 0x00000004,
}".
Proof. vm_compute. reflexivity. Qed.

(** fuse/operations/readdir/readdir_test.rs:30-50 *)
Example readdir_readdir_request_v7p1 :
  match decoded false 1 RReaddir
    "400000001c000000ddccbbaa000000007b00000000000000000000000000000000000000000000007b000000000000002d000000000000000010000000000000" with
  | Ret (VReaddir _ size offset handle _) =>
    N.eqb handle 123 &&
    opt_eqb offset (Some 45) &&
    N.eqb size 4096
  | _ => false
  end = true.
Proof. vm_compute. reflexivity. Qed.

(** fuse/operations/readdir/readdir_test.rs:52-75 *)
Example readdir_readdir_request_v7p9 :
  match decoded false 9 RReaddir
    "500000001c000000ddccbbaa000000007b00000000000000000000000000000000000000000000007b000000000000002d00000000000000001000000000000000000000000000004300000000000000" with
  | Ret (VReaddir _ size offset handle open_flags) =>
    N.eqb handle 123 &&
    opt_eqb offset (Some 45) &&
    N.eqb open_flags 67 &&
    N.eqb size 4096
  | _ => false
  end = true.
Proof. vm_compute. reflexivity. Qed.

(** fuse/operations/readdir/readdir_test.rs:77-105 *)
Example readdir_request_impl_debug :
  shown (decoded false 36 RReaddir
    "500000001c000000ddccbbaa0000000001000000000000000000000000000000000000000000000003000000000000000200000000000000010000000000000000000000000000000400000000000000") =
  txt "ReaddirRequest {
    node_id: 1,
    size: 1,
    offset: Some(2),
    handle: 3,
    open_flags: 0x00000004,
}".
Proof. vm_compute. reflexivity. Qed.

(** fuse/operations/release/release_test.rs:25-44 *)
Example release_request_v7p1 :
  match decoded false 1 RRelease
    "3800000012000000ddccbbaa000000007b00000000000000000000000000000000000000000000007b00000000000000ff00000000000000" with
  | Ret (VRelease _ handle lock_owner open_flags) =>
    N.eqb handle 123 &&
    N.eqb open_flags 255 &&
    opt_eqb lock_owner None
  | _ => false
  end = true.
Proof. vm_compute. reflexivity. Qed.

(** fuse/operations/release/release_test.rs:46-66 *)
Example release_request_v7p8 :
  match decoded false 8 RRelease
    "4000000012000000ddccbbaa000000007b00000000000000000000000000000000000000000000007b00000000000000ff000000000000000000000000000000" with
  | Ret (VRelease _ handle lock_owner open_flags) =>
    N.eqb handle 123 &&
    N.eqb open_flags 255 &&
    opt_eqb lock_owner None
  | _ => false
  end = true.
Proof. vm_compute. reflexivity. Qed.

(** fuse/operations/release/release_test.rs:68-89 *)
Example release_request_lock_owner :
  match decoded false 8 RRelease
    "4000000012000000ddccbbaa000000007b00000000000000000000000000000000000000000000007b00000000000000ff000000020000807b00000000000000" with
  | Ret (VRelease _ _ lock_owner _) =>
    opt_eqb lock_owner (Some 123)
  | _ => false
  end = true.
Proof. vm_compute. reflexivity. Qed.

(** fuse/operations/release/release_test.rs:91-116 *)
Example release_request_impl_debug :
  shown (decoded false 36 RRelease
    "4000000012000000ddccbbaa00000000010000000000000000000000000000000000000000000000030000000000000004000000000000000000000000000000") =
  txt "ReleaseRequest {
    node_id: 1,
    handle: 3,
    lock_owner: None,
    open_flags: 0x00000004,
}".
Proof. vm_compute. reflexivity. Qed.

(** fuse/operations/releasedir/releasedir_test.rs:25-44 *)
Example releasedir_request_v7p1 :
  match decoded false 1 RReleasedir
    "380000001d000000ddccbbaa000000007b00000000000000000000000000000000000000000000007b00000000000000ff00000000000000" with
  | Ret (VReleasedir _ handle lock_owner open_flags) =>
    N.eqb handle 123 &&
    N.eqb open_flags 255 &&
    opt_eqb lock_owner None
  | _ => false
  end = true.
Proof. vm_compute. reflexivity. Qed.

(** fuse/operations/releasedir/releasedir_test.rs:46-66 *)
Example releasedir_request_v7p8 :
  match decoded false 8 RReleasedir
    "400000001d000000ddccbbaa000000007b00000000000000000000000000000000000000000000007b00000000000000ff000000000000000000000000000000" with
  | Ret (VReleasedir _ handle lock_owner open_flags) =>
    N.eqb handle 123 &&
    N.eqb open_flags 255 &&
    opt_eqb lock_owner None
  | _ => false
  end = true.
Proof. vm_compute. reflexivity. Qed.

(** fuse/operations/releasedir/releasedir_test.rs:68-89 *)
Example releasedir_request_lock_owner :
  match decoded false 8 RReleasedir
    "400000001d000000ddccbbaa000000007b00000000000000000000000000000000000000000000007b00000000000000ff000000020000807b00000000000000" with
  | Ret (VReleasedir _ _ lock_owner _) =>
    opt_eqb lock_owner (Some 123)
  | _ => false
  end = true.
Proof. vm_compute. reflexivity. Qed.

(** fuse/operations/releasedir/releasedir_test.rs:91-116 *)
Example releasedir_request_impl_debug :
  shown (decoded false 36 RReleasedir
    "400000001d000000ddccbbaa00000000010000000000000000000000000000000000000000000000030000000000000004000000000000000000000000000000") =
  txt "ReleasedirRequest {
    node_id: 1,
    handle: 3,
    lock_owner: None,
    open_flags: 0x00000004,
}".
Proof. vm_compute. reflexivity. Qed.

(** fuse/operations/removexattr/removexattr_test.rs:22-34 *)
Example removexattr_request :
  match decoded false 36 RRemovexattr
    "3500000018000000ddccbbaa000000007b000000000000000000000000000000000000000000000068656c6c6f2e776f726c642100" with
  | Ret (VRemovexattr _ name) =>
    bytes_eqb name (hex "68656c6c6f2e776f726c6421")
  | _ => false
  end = true.
Proof. vm_compute. reflexivity. Qed.

(** fuse/operations/removexattr/removexattr_test.rs:36-56 *)
Example removexattr_request_impl_debug :
  shown (decoded false 36 RRemovexattr
    "3500000018000000ddccbbaa0000000001000000000000000000000000000000000000000000000068656c6c6f2e776f726c642100") =
  txt "RemovexattrRequest {
    node_id: 1,
    name: ""hello.world!"",
}".
Proof. vm_compute. reflexivity. Qed.

(** fuse/operations/rename/rename_test.rs:23-44 *)
Example rename_request_rename :
  match decoded false 36 RRename
    "380000000c000000ddccbbaa000000007b0000000000000000000000000000000000000000000000c8010000000000006f6c64006e657700" with
  | Ret (VRename old_directory_id old_name new_directory_id new_name rename_flags) =>
    bytes_eqb old_name (hex "6f6c64") &&
    bytes_eqb new_name (hex "6e6577") &&
    N.eqb old_directory_id 123 &&
    N.eqb new_directory_id 456 &&
    N.eqb rename_flags 0
  | _ => false
  end = true.
Proof. vm_compute. reflexivity. Qed.

(** fuse/operations/rename/rename_test.rs:46-68 *)
Example rename_request_rename2 :
  match decoded false 36 RRename
    "400000002d000000ddccbbaa000000007b0000000000000000000000000000000000000000000000c80100000000000007000000000000006f6c64006e657700" with
  | Ret (VRename old_directory_id old_name new_directory_id new_name rename_flags) =>
    bytes_eqb old_name (hex "6f6c64") &&
    bytes_eqb new_name (hex "6e6577") &&
    N.eqb old_directory_id 123 &&
    N.eqb new_directory_id 456 &&
    N.eqb rename_flags 7
  | _ => false
  end = true.
Proof. vm_compute. reflexivity. Qed.

(** fuse/operations/rename/rename_test.rs:70-98 *)
Example rename_request_impl_debug :
  shown (decoded false 36 RRename
    "400000002d000000ddccbbaa000000007b0000000000000000000000000000000000000000000000c80100000000000007000000000000006f6c64006e657700") =
  txt "RenameRequest {
    old_directory_id: 123,
    old_name: ""old"",
    new_directory_id: 456,
    new_name: ""new"",
    rename_flags: 0x00000007,
}".
Proof. vm_compute. reflexivity. Qed.

(** fuse/operations/rmdir/rmdir_test.rs:22-35 *)
Example rmdir_request :
  match decoded false 36 RRmdir
    "350000000b000000ddccbbaa0000000064000000000000000000000000000000000000000000000068656c6c6f2e776f726c642100" with
  | Ret (VRmdir parent_id name) =>
    N.eqb parent_id 100 &&
    bytes_eqb name (hex "68656c6c6f2e776f726c6421")
  | _ => false
  end = true.
Proof. vm_compute. reflexivity. Qed.

(** fuse/operations/rmdir/rmdir_test.rs:37-57 *)
Example rmdir_request_impl_debug :
  shown (decoded false 36 RRmdir
    "350000000b000000ddccbbaa0000000064000000000000000000000000000000000000000000000068656c6c6f2e776f726c642100") =
  txt "RmdirRequest {
    parent_id: 100,
    name: ""hello.world!"",
}".
Proof. vm_compute. reflexivity. Qed.

(** fuse/operations/setattr/setattr_test.rs:24-64 *)
Example setattr_request :
  match decoded false 36 RSetattr
    "8000000004000000ddccbbaa00000000e80300000000000000000000000000000000000000000000ffff000000000000010000000000000002000000000000000300000000000000040000000000000005000000000000000600000000000000070000000800000009000000a4810000000000000c0000000d00000000000000" with
  | Ret (VSetattr node_id handle size lock_owner atime atime_now mtime mtime_now ctime mode user_id group_id) =>
    N.eqb node_id 1000 &&
    opt_eqb handle (Some 1) &&
    opt_eqb size (Some 2) &&
    opt_eqb lock_owner (Some 3) &&
    time_eqb atime (4) 7 &&
    Bool.eqb atime_now true &&
    time_eqb mtime (5) 8 &&
    Bool.eqb mtime_now true &&
    time_eqb ctime (6) 9 &&
    opt_eqb user_id (Some 12) &&
    opt_eqb group_id (Some 13) &&
    is_type (FileType_from_mode (the mode)) Regular &&
    N.eqb (FileMode_permissions (the mode)) 420
  | _ => false
  end = true.
Proof. vm_compute. reflexivity. Qed.

(** fuse/operations/setattr/setattr_test.rs:66-88 *)
Example setattr_request_negative_unix_times :
  match decoded false 36 RSetattr
    "8000000004000000ddccbbaa00000000e80300000000000000000000000000000000000000000000ffff000000000000000000000000000000000000000000000000000000000000fcfffffffffffffffbfffffffffffffffaffffffffffffff0700000008000000090000000000000000000000000000000000000000000000" with
  | Ret (VSetattr _ _ _ _ atime _ mtime _ ctime _ _ _) =>
    time_eqb atime (-4) 7 &&
    time_eqb mtime (-5) 8 &&
    time_eqb ctime (-6) 9
  | _ => false
  end = true.
Proof. vm_compute. reflexivity. Qed.

(** fuse/operations/setattr/setattr_test.rs:90-134 *)
Example setattr_request_impl_debug :
  shown (decoded false 36 RSetattr
    "8000000004000000ddccbbaa00000000e80300000000000000000000000000000000000000000000ffff000000000000010000000000000002000000000000000300000000000000040000000000000005000000000000000600000000000000070000000800000009000000a4810000000000000c0000000d00000000000000") =
  txt "SetattrRequest {
    node_id: 1000,
    handle: Some(1),
    size: Some(2),
    lock_owner: Some(0x0000000000000003),
    atime: Some(UnixTime(4.000000007)),
    atime_now: true,
    mtime: Some(UnixTime(5.000000008)),
    mtime_now: true,
    ctime: Some(UnixTime(6.000000009)),
    mode: Some(0o100644),
    user_id: Some(12),
    group_id: Some(13),
}".
Proof. vm_compute. reflexivity. Qed.

(** fuse/operations/setxattr/setxattr_test.rs:22-40 *)
Example setxattr_request :
  match decoded false 36 RSetxattr
    "4700000015000000ddccbbaa000000007b00000000000000000000000000000000000000000000000a0000000300000068656c6c6f2e776f726c642100736f6d650076616c7565" with
  | Ret (VSetxattr _ name _ setxattr_flags value) =>
    bytes_eqb name (hex "68656c6c6f2e776f726c6421") &&
    bytes_eqb value (hex "736f6d650076616c7565") &&
    N.eqb setxattr_flags 3
  | _ => false
  end = true.
Proof. vm_compute. reflexivity. Qed.

(** fuse/operations/setxattr/setxattr_test.rs:42-68 *)
Example setxattr_request_impl_debug :
  shown (decoded false 36 RSetxattr
    "4700000015000000ddccbbaa000000000100000000000000000000000000000000000000000000000a0000000000000068656c6c6f2e776f726c642100736f6d650076616c7565") =
  txt "SetxattrRequest {
    node_id: 1,
    name: ""hello.world!"",
    flags: SetxattrRequestFlags {},
    setxattr_flags: 0x00000000,
    value: ""some\x00value"",
}".
Proof. vm_compute. reflexivity. Qed.

(** fuse/operations/symlink/symlink_test.rs:22-37 *)
Example symlink_request :
  match decoded false 36 RSymlink
    "3f00000006000000ddccbbaa000000006400000000000000000000000000000000000000000000006c696e6b20636f6e74656e74006c696e6b206e616d6500" with
  | Ret (VSymlink parent_id name content) =>
    N.eqb parent_id 100 &&
    bytes_eqb name (hex "6c696e6b206e616d65") &&
    bytes_eqb content (hex "6c696e6b20636f6e74656e74")
  | _ => false
  end = true.
Proof. vm_compute. reflexivity. Qed.

(** fuse/operations/symlink/symlink_test.rs:39-61 *)
Example symlink_request_impl_debug :
  shown (decoded false 36 RSymlink
    "3f00000006000000ddccbbaa000000006400000000000000000000000000000000000000000000006c696e6b20636f6e74656e74006c696e6b206e616d6500") =
  txt "SymlinkRequest {
    parent_id: 100,
    name: ""link name"",
    content: ""link content"",
}".
Proof. vm_compute. reflexivity. Qed.

(** fuse/operations/unlink/unlink_test.rs:22-35 *)
Example unlink_request :
  match decoded false 36 RUnlink
    "350000000a000000ddccbbaa0000000064000000000000000000000000000000000000000000000068656c6c6f2e776f726c642100" with
  | Ret (VUnlink parent_id name) =>
    N.eqb parent_id 100 &&
    bytes_eqb name (hex "68656c6c6f2e776f726c6421")
  | _ => false
  end = true.
Proof. vm_compute. reflexivity. Qed.

(** fuse/operations/unlink/unlink_test.rs:37-57 *)
Example unlink_request_impl_debug :
  shown (decoded false 36 RUnlink
    "350000000a000000ddccbbaa0000000064000000000000000000000000000000000000000000000068656c6c6f2e776f726c642100") =
  txt "UnlinkRequest {
    parent_id: 100,
    name: ""hello.world!"",
}".
Proof. vm_compute. reflexivity. Qed.

(** fuse/operations/write/write_test.rs:25-49 *)
Example write_request_v7p1 :
  match decoded false 1 RWrite
    "4c00000010000000ddccbbaa000000007b00000000000000000000000000000000000000000000007b000000000000002d000000000000000c0000000000000068656c6c6f2e776f726c6421" with
  | Ret (VWrite _ offset handle value flags lock_owner open_flags) =>
    N.eqb handle 123 &&
    N.eqb offset 45 &&
    opt_eqb lock_owner None &&
    Bool.eqb (has WriteRequestFlags "WRITE_CACHE" flags) false &&
    N.eqb open_flags 0 &&
    bytes_eqb value (hex "68656c6c6f2e776f726c6421")
  | _ => false
  end = true.
Proof. vm_compute. reflexivity. Qed.

(** fuse/operations/write/write_test.rs:51-77 *)
Example write_request_v7p9 :
  match decoded false 9 RWrite
    "5c00000010000000ddccbbaa000000007b00000000000000000000000000000000000000000000007b000000000000002d000000000000000c000000000000000000000000000000430000000000000068656c6c6f2e776f726c6421" with
  | Ret (VWrite _ offset handle value flags lock_owner open_flags) =>
    N.eqb handle 123 &&
    N.eqb offset 45 &&
    opt_eqb lock_owner None &&
    Bool.eqb (has WriteRequestFlags "WRITE_CACHE" flags) false &&
    N.eqb open_flags 67 &&
    bytes_eqb value (hex "68656c6c6f2e776f726c6421")
  | _ => false
  end = true.
Proof. vm_compute. reflexivity. Qed.

(** fuse/operations/write/write_test.rs:79-95 *)
Example write_request_lock_owner :
  match decoded false 36 RWrite
    "5000000010000000ddccbbaa000000007b00000000000000000000000000000000000000000000000000000000000000000000000000000000000000020000807b000000000000000000000000000000" with
  | Ret (VWrite _ _ _ _ _ lock_owner _) =>
    opt_eqb lock_owner (Some 123)
  | _ => false
  end = true.
Proof. vm_compute. reflexivity. Qed.

(** fuse/operations/write/write_test.rs:97-112 *)
Example write_request_page_cache :
  match decoded false 36 RWrite
    "5000000010000000ddccbbaa000000007b000000000000000000000000000000000000000000000000000000000000000000000000000000000000000100008000000000000000000000000000000000" with
  | Ret (VWrite _ _ _ _ flags _ _) =>
    Bool.eqb (has WriteRequestFlags "WRITE_CACHE" flags) true
  | _ => false
  end = true.
Proof. vm_compute. reflexivity. Qed.

(** ** Replies *)

(** fuse/operations/listxattr/listxattr_test.rs:84-103 *)
Example listxattr_names :
  exists w,
    xattr_push_all [txt "12345678901"; txt "123"; txt "456"]
      (ListxattrNamesWriter_new None (repeat x00 10)) = Ret ([false; true; true], w) /\
    ListingModel.w_position w = 8 /\
    ListxattrNamesWriter_into_names w = Ret (hex "3132330034353600").
Proof. eexists. split; [vm_compute; reflexivity|]. split; vm_compute; reflexivity. Qed.

(** fuse/operations/readdir/readdir_test.rs:107-156 *)
Example readdir_entries :
  exists w,
    push_all Dirent_fuse_dirent
      [ReaddirEntry_new 100 (txt "123456789ABCDEF") 1;
       ReaddirEntry_new 100 (txt "123456789") 1;
       ReaddirEntry_set_file_type Regular (ReaddirEntry_new 100 (txt "foobar") 1)]
      (writer_new 0 (repeat x00 36)) = Ret ([false; false; true], w) /\
    into_entries w = Ret (hex "640000000000000001000000000000000600000008000000666f6f6261720000").
Proof. eexists. split; [vm_compute; reflexivity|]. vm_compute; reflexivity. Qed.

(** fuse/operations/cuse_init/cuse_init_test.rs:99-134 *)
Example cuse_init_response :
  sent_as (answer_call 36 2864434397 (AOk (ReplyModel.RCuseInit
    (let r := CuseInitResponse_new (txt "test-device") in
     {| cir_raw := CuseInit_set_flags CUSE_UNRESTRICTED_IOCTL (CuseInit_set_max_write 4096
          (CuseInit_set_version {| v_major := 7; v_minor := 23 |} (cir_raw r)));
        cir_device_name := cir_device_name r |})))) =
  Ret (hex "6c00000000000000ddccbbaa000000000700000017000000000000000100000000000000001000000000000000000000000000000000000000000000000000000000000000000000000000000000000000000000000000004445564e414d453d746573742d64657669636500").
Proof. vm_compute. reflexivity. Qed.

(** ** The decoder *)

(** The message of fuse/server/decode_test.rs:28-31, with the bytes given *)
Definition framed (body : list byte) : bytes :=
  buffer (hex "3100000000000000ddccbbaa00000000000000000000000000000000000000000000000000000000" ++ body).

(** fuse/server/decode_test.rs:26-38 *)
Example request_decoder_new :
  (rq <- Request_new (framed [x01; x02; x03; x04; x05; x06; x07; x08; x09]) ;;
   d <- decoder_new rq ;; Ret (d_consumed d)) = Ret IN_HEADER_SIZE.
Proof. vm_compute. reflexivity. Qed.

(** fuse/server/decode_test.rs:40-58 *)
Example request_decoder_eof_handling :
  exists d1 d2,
    (rq <- Request_new (framed [x0a; x14; x1e; x28; x32; x3c; x46; x50; x5a]) ;;
     d <- decoder_new rq ;; next_bytes 8 d) = Ret ([x0a; x14; x1e; x28; x32; x3c; x46; x50], d1) /\
    next_bytes 1 d1 = Ret ([x5a], d2) /\
    next_bytes 1 d2 = Fail EUnexpectedEof.
Proof. do 2 eexists. split; [vm_compute; reflexivity|]. split; vm_compute; reflexivity. Qed.

(** fuse/server/decode_test.rs:89-111 *)
Example request_decoder_sized :
  exists d1 d2,
    (rq <- Request_new (framed [x01; x02; x03; x04; x05; x06; x07; x08; x09]) ;;
     d <- decoder_new rq ;; next_typed 1 4 d) = Ret ([x01; x02; x03; x04], d1) /\
    next_typed 1 4 d1 = Ret ([x05; x06; x07; x08], d2) /\
    next_typed 4 4 d2 = Fail EUnexpectedEof.
Proof. do 2 eexists. split; [vm_compute; reflexivity|]. split; vm_compute; reflexivity. Qed.

(** fuse/server/decode_test.rs:113-135 *)
Example frame_decoder_bytes :
  exists d1 d2,
    (rq <- Request_new (framed [x01; x02; x03; x04; x05; x06; x07; x08; x09]) ;;
     d <- decoder_new rq ;; next_bytes 4 d) = Ret ([x01; x02; x03; x04], d1) /\
    next_bytes 4 d1 = Ret ([x05; x06; x07; x08], d2) /\
    next_bytes 4 d2 = Fail EUnexpectedEof.
Proof. do 2 eexists. split; [vm_compute; reflexivity|]. split; vm_compute; reflexivity. Qed.

(** ** Mount data *)

(** fuse/os/linux_test.rs:131-159 *)
Example mount_data_full :
  mount_data
    {| mo_source := txt "fuse"; mo_type := txt "fuse"; mo_allow_other := true;
       mo_block_size := Some 10; mo_default_permissions := true; mo_fd := Some 20;
       mo_subtype := FuseSubtype_new (txt "rust_subtype"); mo_group_id := Some 30;
       mo_max_read := Some 40; mo_root_mode := Some 50; mo_user_id := Some 60 |}
    (repeat x00 512) =
  Ret (Some (txt "fd=20,allow_other,blksize=10,default_permissions,group_id=30,max_read=40,rootmode=62,subtype=rust_subtype,user_id=60" ++ [x00])).
Proof. vm_compute. reflexivity. Qed.

(** fuse/os/linux_test.rs:161-167 *)
Example mount_data_empty : mount_data MountOptions_new (repeat x00 512) = Ret (Some [x00]).
Proof. vm_compute. reflexivity. Qed.

(** fuse/os/linux_test.rs:169-186 *)
Example mount_data_small_buf :
  let opts := MountOptions_set_fd (Some 20) MountOptions_new in
  mount_data opts [] = Ret None /\
  mount_data opts (repeat x00 5) = Ret None /\
  mount_data opts (repeat x00 6) = Ret (Some (txt "fd=20" ++ [x00])).
Proof. vm_compute. now repeat split. Qed.

(** fuse/os/linux_test.rs:188-192 *)
Example subtype_new :
  FuseSubtype_new [] = None /\ FuseSubtype_new (txt "bad,subtype") = None.
Proof. vm_compute. now split. Qed.

(** ** Mount options

    The tests fuse/os/linux_test.rs:29-128.  [opt_subtype] and
    [opt_mount_source] compare with a variable that is not defined; here with
    the string they set.  [opt_root_mode] sets a number where the API takes a
    [FileMode]. *)

(** fuse/os/linux_test.rs:29-36 *)
Example opt_allow_other :
  MountOptions_allow_other MountOptions_new = false /\
  MountOptions_allow_other (MountOptions_set_allow_other true MountOptions_new) = true.
Proof. vm_compute. now split. Qed.

(** fuse/os/linux_test.rs:38-45 *)
Example opt_block_size :
  MountOptions_block_size MountOptions_new = None /\
  MountOptions_block_size (MountOptions_set_block_size (Some 123) MountOptions_new) = Some 123.
Proof. vm_compute. now split. Qed.

(** fuse/os/linux_test.rs:47-54 *)
Example opt_default_permissions :
  MountOptions_default_permissions MountOptions_new = false /\
  MountOptions_default_permissions (MountOptions_set_default_permissions true MountOptions_new) = true.
Proof. vm_compute. now split. Qed.

(** fuse/os/linux_test.rs:56-63 *)
Example opt_subtype :
  MountOptions_subtype MountOptions_new = None /\
  MountOptions_subtype (MountOptions_set_subtype (FuseSubtype_new (txt "rust_subtype")) MountOptions_new) = Some (txt "rust_subtype").
Proof. vm_compute. now split. Qed.

(** fuse/os/linux_test.rs:86-93 *)
Example opt_fuse_device_fd :
  MountOptions_fuse_device_fd MountOptions_new = None /\
  MountOptions_fuse_device_fd (MountOptions_set_fd (Some 123) MountOptions_new) = Some 123.
Proof. vm_compute. now split. Qed.

(** fuse/os/linux_test.rs:95-102 *)
Example opt_group_id :
  MountOptions_group_id MountOptions_new = None /\
  MountOptions_group_id (MountOptions_set_group_id (Some 123) MountOptions_new) = Some 123.
Proof. vm_compute. now split. Qed.

(** fuse/os/linux_test.rs:104-111 *)
Example opt_max_read :
  MountOptions_max_read MountOptions_new = None /\
  MountOptions_max_read (MountOptions_set_max_read (Some 123) MountOptions_new) = Some 123.
Proof. vm_compute. now split. Qed.

(** fuse/os/linux_test.rs:113-120 *)
Example opt_root_mode :
  MountOptions_root_mode MountOptions_new = None /\
  MountOptions_root_mode (MountOptions_set_root_mode (Some 123) MountOptions_new) = Some 123.
Proof. vm_compute. now split. Qed.

(** fuse/os/linux_test.rs:122-129 *)
Example opt_user_id :
  MountOptions_user_id MountOptions_new = None /\
  MountOptions_user_id (MountOptions_set_user_id (Some 123) MountOptions_new) = Some 123.
Proof. vm_compute. now split. Qed.

(** fuse/os/linux_test.rs:65-72 *)
Example opt_mount_source :
  MountOptions_mount_source MountOptions_new = txt "fuse" /\
  exists source, MountSource_new (txt "rust_fuse_source") = Some source /\
    MountOptions_mount_source (MountOptions_set_mount_source source MountOptions_new) = txt "rust_fuse_source".
Proof. split; [reflexivity|]. eexists. split; reflexivity. Qed.

(** fuse/os/linux_test.rs:74-84 *)
Example opt_mount_type :
  MountType_FUSE = txt "fuse" /\ MountType_FUSEBLK = txt "fuseblk" /\
  MountOptions_mount_type MountOptions_new = MountType_FUSE /\
  MountOptions_mount_type (MountOptions_set_mount_type MountType_FUSEBLK MountOptions_new) = MountType_FUSEBLK.
Proof. vm_compute. now repeat split. Qed.

(** fuse/operations/cuse_init/cuse_init_test.rs:136-172 *)
Example cuse_init_response_impl_debug :
  pretty (debug_cuse_init
    {| cir_raw := CuseInit_set_flags CUSE_UNRESTRICTED_IOCTL (CuseInit_set_device_number 10 11
         (CuseInit_set_max_write 8192 (CuseInit_set_max_read 4096
           (CuseInit_set_version {| v_major := 123; v_minor := 456 |} cuse_init_out_new))));
       cir_device_name := Some (txt "test-device") |}) =
  txt "CuseInitResponse {
    device_name: ""test-device"",
    version: Version {
        major: 123,
        minor: 456,
    },
    flags: CuseInitFlags {
        UNRESTRICTED_IOCTL,
    },
    max_read: 4096,
    max_write: 8192,
    device_number: DeviceNumber {
        major: 10,
        minor: 11,
    },
}".
Proof. vm_compute. reflexivity. Qed.

(** fuse/operations/readdir/readdir_test.rs:158-203 *)
Example readdir_entries_debug :
  match push_all Dirent_fuse_dirent
    [ReaddirEntry_set_file_type Regular (ReaddirEntry_new 100 (txt "hello.txt") 1);
     ReaddirEntry_set_file_type Regular (ReaddirEntry_new 101 (txt "world.txt") 2)]
    (writer_new 0 (repeat x00 1024)) with
  | Ret ([true; true], w) =>
    match p <- into_entries w ;; debug_readdir_entries p with Ret d => pretty d | _ => [] end
  | _ => []
  end =
  txt "[
    ReaddirEntry {
        node_id: 100,
        offset: 1,
        file_type: Some(Regular),
        name: ""hello.txt"",
    },
    ReaddirEntry {
        node_id: 101,
        offset: 2,
        file_type: Some(Regular),
        name: ""world.txt"",
    },
]".
Proof. vm_compute. reflexivity. Qed.
