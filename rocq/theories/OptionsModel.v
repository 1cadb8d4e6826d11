(** The builders of mount options: the accessors and setters of
    [MountOptions] of fuse, fuse-linux and fuse-libc, and programs that call
    them one after the other. *)

From Coq Require Import String.
From Verif Require Import Base HostModel.
From Coq Require Import List NArith Bool.
Import ListNotations.
Open Scope N_scope.

(** ** Linux *)

(** fuse/os/linux.rs:449-451 [set_allow_other] *)
Definition MountOptions_set_allow_other (v : bool) (o : MountOptions) : MountOptions :=
  {| mo_source := mo_source o; mo_type := mo_type o; mo_allow_other := v;
     mo_block_size := mo_block_size o;
     mo_default_permissions := mo_default_permissions o; mo_fd := mo_fd o;
     mo_subtype := mo_subtype o; mo_group_id := mo_group_id o;
     mo_max_read := mo_max_read o; mo_root_mode := mo_root_mode o;
     mo_user_id := mo_user_id o |}.
(** fuse/os/linux.rs:465-467 [set_block_size] *)
Definition MountOptions_set_block_size (v : option N) (o : MountOptions) : MountOptions :=
  {| mo_source := mo_source o; mo_type := mo_type o;
     mo_allow_other := mo_allow_other o; mo_block_size := v;
     mo_default_permissions := mo_default_permissions o; mo_fd := mo_fd o;
     mo_subtype := mo_subtype o; mo_group_id := mo_group_id o;
     mo_max_read := mo_max_read o; mo_root_mode := mo_root_mode o;
     mo_user_id := mo_user_id o |}.
(** fuse/os/linux.rs:479-481 [set_default_permissions] *)
Definition MountOptions_set_default_permissions (v : bool) (o : MountOptions) : MountOptions :=
  {| mo_source := mo_source o; mo_type := mo_type o;
     mo_allow_other := mo_allow_other o; mo_block_size := mo_block_size o;
     mo_default_permissions := v; mo_fd := mo_fd o; mo_subtype := mo_subtype o;
     mo_group_id := mo_group_id o; mo_max_read := mo_max_read o;
     mo_root_mode := mo_root_mode o; mo_user_id := mo_user_id o |}.
(** fuse/os/linux.rs:524-526 [set_max_read] *)
Definition MountOptions_set_max_read (v : option N) (o : MountOptions) : MountOptions :=
  {| mo_source := mo_source o; mo_type := mo_type o;
     mo_allow_other := mo_allow_other o; mo_block_size := mo_block_size o;
     mo_default_permissions := mo_default_permissions o; mo_fd := mo_fd o;
     mo_subtype := mo_subtype o; mo_group_id := mo_group_id o; mo_max_read := v;
     mo_root_mode := mo_root_mode o; mo_user_id := mo_user_id o |}.
(** fuse/os/linux.rs:540-542 [set_mount_source] *)
Definition MountOptions_set_mount_source (v : bytes) (o : MountOptions) : MountOptions :=
  {| mo_source := v; mo_type := mo_type o; mo_allow_other := mo_allow_other o;
     mo_block_size := mo_block_size o;
     mo_default_permissions := mo_default_permissions o; mo_fd := mo_fd o;
     mo_subtype := mo_subtype o; mo_group_id := mo_group_id o;
     mo_max_read := mo_max_read o; mo_root_mode := mo_root_mode o;
     mo_user_id := mo_user_id o |}.
(** fuse/os/linux.rs:560-562 [set_mount_type] *)
Definition MountOptions_set_mount_type (v : bytes) (o : MountOptions) : MountOptions :=
  {| mo_source := mo_source o; mo_type := v; mo_allow_other := mo_allow_other o;
     mo_block_size := mo_block_size o;
     mo_default_permissions := mo_default_permissions o; mo_fd := mo_fd o;
     mo_subtype := mo_subtype o; mo_group_id := mo_group_id o;
     mo_max_read := mo_max_read o; mo_root_mode := mo_root_mode o;
     mo_user_id := mo_user_id o |}.
(** fuse/os/linux.rs:590-592 [set_subtype] *)
Definition MountOptions_set_subtype (v : option bytes) (o : MountOptions) : MountOptions :=
  {| mo_source := mo_source o; mo_type := mo_type o;
     mo_allow_other := mo_allow_other o; mo_block_size := mo_block_size o;
     mo_default_permissions := mo_default_permissions o; mo_fd := mo_fd o;
     mo_subtype := v; mo_group_id := mo_group_id o; mo_max_read := mo_max_read o;
     mo_root_mode := mo_root_mode o; mo_user_id := mo_user_id o |}.

(** fuse/os/linux.rs:441-443 [allow_other] *)
Definition MountOptions_allow_other (o : MountOptions) : bool := mo_allow_other o.
(** fuse/os/linux.rs:455-457 [block_size] *)
Definition MountOptions_block_size (o : MountOptions) : option N := mo_block_size o.
(** fuse/os/linux.rs:471-473 [default_permissions] *)
Definition MountOptions_default_permissions (o : MountOptions) : bool := mo_default_permissions o.
(** fuse/os/linux.rs:485-487 [fuse_device_fd] *)
Definition MountOptions_fuse_device_fd (o : MountOptions) : option N := mo_fd o.
(** fuse/os/linux.rs:499-501 [group_id] *)
Definition MountOptions_group_id (o : MountOptions) : option N := mo_group_id o.
(** fuse/os/linux.rs:515-517 [max_read] *)
Definition MountOptions_max_read (o : MountOptions) : option N := mo_max_read o.
(** fuse/os/linux.rs:530-532 [mount_source] *)
Definition MountOptions_mount_source (o : MountOptions) : bytes := mo_source o.
(** fuse/os/linux.rs:546-548 [mount_type] *)
Definition MountOptions_mount_type (o : MountOptions) : bytes := mo_type o.
(** fuse/os/linux.rs:566-568 [root_mode] *)
Definition MountOptions_root_mode (o : MountOptions) : option N := mo_root_mode o.
(** fuse/os/linux.rs:582-584 [subtype] *)
Definition MountOptions_subtype (o : MountOptions) : option bytes := mo_subtype o.
(** fuse/os/linux.rs:596-598 [user_id] *)
Definition MountOptions_user_id (o : MountOptions) : option N := mo_user_id o.

(** fuse/os/linux.rs:28-41, 314-321 [MountType::FUSE] *)
Definition MountType_FUSE : bytes := txt "fuse"%string.
(** fuse/os/linux.rs:28-41, 314-321 [MountType::FUSEBLK] *)
Definition MountType_FUSEBLK : bytes := txt "fuseblk"%string.

(** One call on a [MountOptions].  Sources and subtypes are C strings given to
    [MountSource::new] and [FuseSubtype::new]; a program has no other way to
    make them without [unsafe].  [MountType] has only two values
    (fuse/os/linux.rs:276-281, 314-321, 365-373). *)
Inductive option_call :=
| SetAllowOther (b : bool)
| SetBlockSize (n : option N)
| SetDefaultPermissions (b : bool)
| SetFuseDeviceFd (n : option N)
| SetGroupId (n : option N)
| SetMaxRead (n : option N)
| SetMountSource (s : bytes)
| SetMountType (is_block_device : bool)
| SetRootMode (n : option N)
| SetSubtype (s : option bytes)
| SetUserId (n : option N).

(** The call, fuse/os/linux.rs:449-608.  A source that [MountSource::new]
    refuses cannot be set: the program then leaves the options as they are.  A
    subtype is passed as [FuseSubtype::new] returned it, as in
    fuse/os/linux_test.rs (a refused one is [None]). *)
Definition do_option_call (o : MountOptions) (c : option_call) : MountOptions :=
  match c with
  | SetAllowOther b => MountOptions_set_allow_other b o
  | SetBlockSize n => MountOptions_set_block_size n o
  | SetDefaultPermissions b => MountOptions_set_default_permissions b o
  | SetFuseDeviceFd n => MountOptions_set_fd n o
  | SetGroupId n => MountOptions_set_group_id n o
  | SetMaxRead n => MountOptions_set_max_read n o
  | SetMountSource s =>
    match MountSource_new s with Some s => MountOptions_set_mount_source s o | None => o end
  | SetMountType b => MountOptions_set_mount_type (if b then MountType_FUSEBLK else MountType_FUSE) o
  | SetRootMode n => MountOptions_set_root_mode n o
  | SetSubtype s =>
    MountOptions_set_subtype (match s with Some s => FuseSubtype_new s | None => None end) o
  | SetUserId n => MountOptions_set_user_id n o
  end.
(** A program: [MountOptions::new] and calls, fuse/os/linux.rs:422-608 *)
Definition build_options (calls : list option_call) : MountOptions :=
  fold_left do_option_call calls MountOptions_new.

(** fuse-linux/fuse-linux.rs:93-95, fuse-libc/os/linux.rs:54-56 [set_dev_fuse] *)
Definition HostMountOptions_set_dev_fuse (p : option bytes) (h : HostMountOptions) : HostMountOptions :=
  {| hm_opts := hm_opts h; hm_dev_fuse := p; hm_flags := hm_flags h |}.
(** fuse-linux/fuse-linux.rs:102-104, fuse-libc/os/linux.rs:63-65 [set_flags] *)
Definition HostMountOptions_set_flags (flags : N) (h : HostMountOptions) : HostMountOptions :=
  {| hm_opts := hm_opts h; hm_dev_fuse := hm_dev_fuse h; hm_flags := flags |}.
(** fuse-linux/fuse-linux.rs:98-100, fuse-libc/os/linux.rs:59-61 [flags] *)
Definition HostMountOptions_flags (h : HostMountOptions) : N := hm_flags h.

(** Calls on the [MountOptions] of fuse-linux and fuse-libc
    (fuse-linux/fuse-linux.rs:87-105, fuse-libc/os/linux.rs:48-66). *)
Inductive host_call := SetDevFuse (p : option bytes) | SetFlags (flags : N).
(** fuse-linux/fuse-linux.rs:93-104, fuse-libc/os/linux.rs:54-65 *)
Definition do_host_call (h : HostMountOptions) (c : host_call) : HostMountOptions :=
  match c with
  | SetDevFuse p => HostMountOptions_set_dev_fuse p h
  | SetFlags flags => HostMountOptions_set_flags flags h
  end.
(** fuse-linux/fuse-linux.rs:87-115, fuse-libc/os/linux.rs:48-76: [into()] and calls *)
Definition build_host (o : MountOptions) (calls : list host_call) : HostMountOptions :=
  fold_left do_host_call calls (HostMountOptions_from o).

(** ** FreeBSD *)

(** fuse/os/freebsd.rs:218-223 [MountOptions::new] *)
Definition FreebsdOptions_new : FreebsdOptions :=
  {| fo_default_permissions := false; fo_subtype := None |}.
(** fuse/os/freebsd.rs:235-237 [set_default_permissions] *)
Definition FreebsdOptions_set_default_permissions (b : bool) (o : FreebsdOptions) : FreebsdOptions :=
  {| fo_default_permissions := b; fo_subtype := fo_subtype o |}.
(** fuse/os/freebsd.rs:246-248 [set_subtype] *)
Definition FreebsdOptions_set_subtype (s : option bytes) (o : FreebsdOptions) : FreebsdOptions :=
  {| fo_default_permissions := fo_default_permissions o; fo_subtype := s |}.
(** fuse/os/freebsd.rs:230-232 [default_permissions] *)
Definition FreebsdOptions_default_permissions (o : FreebsdOptions) : bool := fo_default_permissions o.
(** fuse/os/freebsd.rs:241-243 [subtype] *)
Definition FreebsdOptions_subtype (o : FreebsdOptions) : option bytes := fo_subtype o.

(** One call; a subtype as in [option_call] (fuse/os/freebsd.rs:174-179, 235-248). *)
Inductive freebsd_option_call := FSetDefaultPermissions (b : bool) | FSetSubtype (s : option bytes).
(** fuse/os/freebsd.rs:235-248 *)
Definition do_freebsd_call (o : FreebsdOptions) (c : freebsd_option_call) : FreebsdOptions :=
  match c with
  | FSetDefaultPermissions b => FreebsdOptions_set_default_permissions b o
  | FSetSubtype s =>
    FreebsdOptions_set_subtype (match s with Some s => FreebsdSubtype_new s | None => None end) o
  end.
(** fuse/os/freebsd.rs:218-248: [MountOptions::new] and calls *)
Definition build_freebsd (calls : list freebsd_option_call) : FreebsdOptions :=
  fold_left do_freebsd_call calls FreebsdOptions_new.

(** fuse-libc/os/freebsd.rs:31-33, 36-40 [MountOptions] *)
Record FreebsdHostOptions := { fh_opts : FreebsdOptions; fh_flags : N }.
(** fuse-libc/os/freebsd.rs:52-59 [From], with 31-33 *)
Definition FreebsdHostOptions_from (o : FreebsdOptions) : FreebsdHostOptions :=
  {| fh_opts := o; fh_flags := 8 |}.
(** fuse-libc/os/freebsd.rs:47-49 [set_flags] *)
Definition FreebsdHostOptions_set_flags (flags : N) (h : FreebsdHostOptions) : FreebsdHostOptions :=
  {| fh_opts := fh_opts h; fh_flags := flags |}.
(** fuse-libc/os/freebsd.rs:43-45 [flags] *)
Definition FreebsdHostOptions_flags (h : FreebsdHostOptions) : N := fh_flags h.
