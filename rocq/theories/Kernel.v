(** Constants of the FUSE kernel ABI as they appear in the code. *)

From Verif Require Import Base.
From Coq Require Import NArith.
Open Scope N_scope.

(** fuse/kernel.rs:222 *)
Definition FUSE_KERNEL_VERSION : N := 7.
(** fuse/kernel.rs:225 *)
Definition FUSE_KERNEL_MINOR_VERSION : N := 36.
(** fuse/kernel.rs:228 *)
Definition FUSE_ROOT_ID : N := 1.

(** ** fuse/kernel.rs:519-568, constants of [fuse_opcode] *)
(** fuse/kernel.rs:519 *)
Definition FUSE_LOOKUP : N := 1.
(** fuse/kernel.rs:520 *)
Definition FUSE_FORGET : N := 2.
(** fuse/kernel.rs:521 *)
Definition FUSE_GETATTR : N := 3.
(** fuse/kernel.rs:522 *)
Definition FUSE_SETATTR : N := 4.
(** fuse/kernel.rs:523 *)
Definition FUSE_READLINK : N := 5.
(** fuse/kernel.rs:524 *)
Definition FUSE_SYMLINK : N := 6.
(** fuse/kernel.rs:525 *)
Definition FUSE_MKNOD : N := 8.
(** fuse/kernel.rs:526 *)
Definition FUSE_MKDIR : N := 9.
(** fuse/kernel.rs:527 *)
Definition FUSE_UNLINK : N := 10.
(** fuse/kernel.rs:528 *)
Definition FUSE_RMDIR : N := 11.
(** fuse/kernel.rs:529 *)
Definition FUSE_RENAME : N := 12.
(** fuse/kernel.rs:530 *)
Definition FUSE_LINK : N := 13.
(** fuse/kernel.rs:531 *)
Definition FUSE_OPEN : N := 14.
(** fuse/kernel.rs:532 *)
Definition FUSE_READ : N := 15.
(** fuse/kernel.rs:533 *)
Definition FUSE_WRITE : N := 16.
(** fuse/kernel.rs:534 *)
Definition FUSE_STATFS : N := 17.
(** fuse/kernel.rs:535 *)
Definition FUSE_RELEASE : N := 18.
(** fuse/kernel.rs:536 *)
Definition FUSE_FSYNC : N := 20.
(** fuse/kernel.rs:537 *)
Definition FUSE_SETXATTR : N := 21.
(** fuse/kernel.rs:538 *)
Definition FUSE_GETXATTR : N := 22.
(** fuse/kernel.rs:539 *)
Definition FUSE_LISTXATTR : N := 23.
(** fuse/kernel.rs:540 *)
Definition FUSE_REMOVEXATTR : N := 24.
(** fuse/kernel.rs:541 *)
Definition FUSE_FLUSH : N := 25.
(** fuse/kernel.rs:542 *)
Definition FUSE_INIT : N := 26.
(** fuse/kernel.rs:543 *)
Definition FUSE_OPENDIR : N := 27.
(** fuse/kernel.rs:544 *)
Definition FUSE_READDIR : N := 28.
(** fuse/kernel.rs:545 *)
Definition FUSE_RELEASEDIR : N := 29.
(** fuse/kernel.rs:546 *)
Definition FUSE_FSYNCDIR : N := 30.
(** fuse/kernel.rs:547 *)
Definition FUSE_GETLK : N := 31.
(** fuse/kernel.rs:548 *)
Definition FUSE_SETLK : N := 32.
(** fuse/kernel.rs:549 *)
Definition FUSE_SETLKW : N := 33.
(** fuse/kernel.rs:550 *)
Definition FUSE_ACCESS : N := 34.
(** fuse/kernel.rs:551 *)
Definition FUSE_CREATE : N := 35.
(** fuse/kernel.rs:552 *)
Definition FUSE_INTERRUPT : N := 36.
(** fuse/kernel.rs:553 *)
Definition FUSE_BMAP : N := 37.
(** fuse/kernel.rs:554 *)
Definition FUSE_DESTROY : N := 38.
(** fuse/kernel.rs:555 *)
Definition FUSE_IOCTL : N := 39.
(** fuse/kernel.rs:556 *)
Definition FUSE_POLL : N := 40.
(** fuse/kernel.rs:558 *)
Definition FUSE_BATCH_FORGET : N := 42.
(** fuse/kernel.rs:559 *)
Definition FUSE_FALLOCATE : N := 43.
(** fuse/kernel.rs:560 *)
Definition FUSE_READDIRPLUS : N := 44.
(** fuse/kernel.rs:561 *)
Definition FUSE_RENAME2 : N := 45.
(** fuse/kernel.rs:562 *)
Definition FUSE_LSEEK : N := 46.
(** fuse/kernel.rs:563 *)
Definition FUSE_COPY_FILE_RANGE : N := 47.
(** fuse/kernel.rs:566 *)
Definition FUSE_SYNCFS : N := 50.
(** fuse/kernel.rs:569 *)
Definition CUSE_INIT : N := 4096.

(** ** fuse/kernel.rs:305-315, [FATTR_*] bit masks *)
(** fuse/kernel.rs:305 *)
Definition FATTR_MODE : N := 1.
(** fuse/kernel.rs:306 *)
Definition FATTR_UID : N := 2.
(** fuse/kernel.rs:307 *)
Definition FATTR_GID : N := 4.
(** fuse/kernel.rs:308 *)
Definition FATTR_SIZE : N := 8.
(** fuse/kernel.rs:309 *)
Definition FATTR_ATIME : N := 16.
(** fuse/kernel.rs:310 *)
Definition FATTR_MTIME : N := 32.
(** fuse/kernel.rs:311 *)
Definition FATTR_FH : N := 64.
(** fuse/kernel.rs:312 *)
Definition FATTR_ATIME_NOW : N := 128.
(** fuse/kernel.rs:313 *)
Definition FATTR_MTIME_NOW : N := 256.
(** fuse/kernel.rs:314 *)
Definition FATTR_LOCKOWNER : N := 512.
(** fuse/kernel.rs:315 *)
Definition FATTR_CTIME : N := 1024.

(** fuse/kernel.rs:385 *)
Definition FUSE_BIG_WRITES : N := 32.
(** fuse/kernel.rs:409 *)
Definition FUSE_SETXATTR_EXT : N := 536870912.
(** fuse/kernel.rs:421 *)
(** fuse/kernel.rs:421 *)
Definition CUSE_UNRESTRICTED_IOCTL : N := 1.
(** fuse/kernel.rs:427 *)
(** fuse/kernel.rs:427 *)
Definition FUSE_RELEASE_FLOCK_UNLOCK : N := 2.
(** fuse/kernel.rs:432 *)
(** fuse/kernel.rs:432 *)
Definition FUSE_GETATTR_FH : N := 1.
(** fuse/kernel.rs:447 *)
(** fuse/kernel.rs:447 *)
Definition FUSE_WRITE_LOCKOWNER : N := 2.
(** fuse/kernel.rs:456 *)
(** fuse/kernel.rs:456 *)
Definition FUSE_READ_LOCKOWNER : N := 2.
(** fuse/kernel.rs:472 *)
Definition FUSE_IOCTL_RETRY : N := 4.
(** fuse/kernel.rs:477 *)
Definition FUSE_IOCTL_MAX_IOV : N := 256.
(** ** fuse/kernel.rs:640-646, notification codes *)
(** fuse/kernel.rs:640 *)
Definition FUSE_NOTIFY_POLL : N := 1.
(** fuse/kernel.rs:641 *)
Definition FUSE_NOTIFY_INVAL_INODE : N := 2.
(** fuse/kernel.rs:642 *)
Definition FUSE_NOTIFY_INVAL_ENTRY : N := 3.
(** fuse/kernel.rs:645 *)
Definition FUSE_NOTIFY_DELETE : N := 6.
(** fuse/kernel.rs:665 *)
(** fuse/kernel.rs:665 *)
Definition FUSE_MIN_READ_BUFFER : N := 8192.
(** fuse/kernel.rs:667 *)
Definition FUSE_COMPAT_ENTRY_OUT_SIZE : N := 120.
(** fuse/kernel.rs:749 *)
Definition FUSE_COMPAT_ATTR_OUT_SIZE : N := 96.
(** fuse/kernel.rs:1014 *)
Definition FUSE_COMPAT_STATFS_SIZE : N := 48.
(** fuse/kernel.rs:1161 *)
Definition FUSE_COMPAT_INIT_OUT_SIZE : N := 8.
(** fuse/kernel.rs:1162 *)
Definition FUSE_COMPAT_22_INIT_OUT_SIZE : N := 24.

(** [size_of::<fuse_in_header>()], fuse/kernel.rs:1392-1401 *)
Definition IN_HEADER_SIZE : N := 40.
(** [size_of::<fuse_out_header>()], fuse/kernel.rs:1413-1417 *)
Definition OUT_HEADER_SIZE : N := 16.
