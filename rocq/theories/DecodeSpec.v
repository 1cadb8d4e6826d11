(** Specification vocabulary for decoded requests, stated on what the API
    shows ([view]) and on the raw message bytes. *)

From Verif Require Import Base Kernel CoreModel DecodeModel OpsModel.
From Coq Require Import List NArith Bool.
Import ListNotations.
Open Scope N_scope.

(** The node ids a decoded request shows. *)
Definition view_node_ids (v : view) : list N :=
  match v with
  | VAccess n _ => [n]
  | VBmap n _ _ => [n]
  | VCopyFileRange n _ _ m _ _ _ _ => [n; m]
  | VCreate n _ _ _ _ _ => [n]
  | VCuseInit _ _ => []
  | VFallocate n _ _ _ _ => [n]
  | VFlush n _ _ => [n]
  | VForget items => map fst items
  | VFsync n _ _ => [n]
  | VFsyncdir n _ _ => [n]
  | VFuseInit _ _ _ => []
  | VGetattr n _ => [n]
  | VGetlk n _ _ _ _ => [n]
  | VGetxattr n _ _ => [n]
  | VInterrupt _ => []
  | VIoctl n _ _ _ _ _ _ _ => [n]
  | VLink n m _ => [n; m]
  | VListxattr n _ => [n]
  | VLookup n _ => [n]
  | VLseek n _ _ _ => [n]
  | VMkdir n _ _ _ => [n]
  | VMknod n _ _ _ _ => [n]
  | VOpen n _ _ => [n]
  | VOpendir n _ _ => [n]
  | VPoll n _ _ _ => [n]
  | VRead n _ _ _ _ _ => [n]
  | VReaddir n _ _ _ _ => [n]
  | VReaddirplus n _ _ _ _ => [n]
  | VReadlink n => [n]
  | VRelease n _ _ _ => [n]
  | VReleasedir n _ _ _ => [n]
  | VRemovexattr n _ => [n]
  | VRename n _ m _ _ => [n; m]
  | VRmdir n _ => [n]
  | VSetattr n _ _ _ _ _ _ _ _ _ _ _ => [n]
  | VSetlk n _ _ _ _ _ => [n]
  | VSetxattr n _ _ _ _ => [n]
  | VStatfs n => [n]
  | VSymlink n _ _ => [n]
  | VUnlink n _ => [n]
  | VWrite n _ _ _ _ _ _ => [n]
  end.

(** The file names a decoded request shows. *)
Definition view_names (v : view) : list bytes :=
  match v with
  | VCreate _ s _ _ _ _ => [s]
  | VLink _ _ s => [s]
  | VLookup _ s => [s]
  | VMkdir _ s _ _ => [s]
  | VMknod _ s _ _ _ => [s]
  | VRename _ s _ s' _ => [s; s']
  | VRmdir _ s => [s]
  | VSymlink _ s _ => [s]
  | VUnlink _ s => [s]
  | _ => []
  end.

(** Every NUL-terminated string (file name, attribute name, link target) a
    decoded request shows, in the order in which the message carries them. *)
Definition view_strings (v : view) : list bytes :=
  match v with
  | VGetxattr _ _ s => [s]
  | VRemovexattr _ s => [s]
  | VSetxattr _ s _ _ _ => [s]
  | VSymlink _ name content => [content; name]
  | _ => view_names v
  end.

(** A file name the server may hand to the file system. *)
Definition valid_name (s : bytes) : Prop := s <> [] /\ ~ In x00 s /\ ~ In x2f s.

(** Where the strings of a message start: right after the 40-byte header and
    the fixed part of the body, whose size depends on the operation and on
    the negotiated protocol. *)
Definition strings_offset (cf : config) (opcode : N) (v : view) : N :=
  40 + match v with
       | VCreate _ _ _ _ _ _ | VMknod _ _ _ _ _ => if cf_minor cf <? 12 then 8 else 16
       | VLink _ _ _ | VMkdir _ _ _ _ | VGetxattr _ _ _ => 8
       | VRename _ _ _ _ _ => if opcode =? 45 then 16 else 8
       | VSetxattr _ _ _ _ _ => if cf_setxattr_ext cf then 16 else 8
       | _ => 0
       end.

(** A list of strings as it lies in a message. *)
Definition nul_terminated (l : list bytes) : bytes := concat (map (fun s => s ++ [x00]) l).

(** The opcodes a request type accepts. *)
Definition type_opcodes (t : rtype) : list N :=
  match t with
  | RAccess => [34] | RBmap => [37] | RCopyFileRange => [47] | RCreate => [35]
  | RCuseInit => [4096] | RFallocate => [43] | RFlush => [25] | RForget => [2; 42]
  | RFsync => [20] | RFsyncdir => [30] | RFuseInit => [26] | RGetattr => [3]
  | RGetlk => [31] | RGetxattr => [22] | RInterrupt => [36] | RIoctl => [39]
  | RLink => [13] | RListxattr => [23] | RLookup => [1] | RLseek => [46]
  | RMkdir => [9] | RMknod => [8] | ROpen => [14] | ROpendir => [27] | RPoll => [40]
  | RRead => [15] | RReaddir => [28] | RReaddirplus => [44] | RReadlink => [5]
  | RRelease => [18] | RReleasedir => [29] | RRemovexattr => [24] | RRename => [12; 45]
  | RRmdir => [11] | RSetattr => [4] | RSetlk => [32; 33] | RSetxattr => [21]
  | RStatfs => [17] | RSymlink => [6] | RUnlink => [10] | RWrite => [16]
  end.
