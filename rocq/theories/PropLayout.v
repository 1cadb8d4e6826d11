(** C69: how the structs of the protocol lie in memory. *)

From Coq Require Import String.
From Verif Require Import Base Kernel CoreModel DecodeModel DecodeProofs OpsModel OpsSafety WireSpec OpsRoundTrip PropDecode ReplyModel
  ListingModel LayoutModel.
From Coq Require Import List NArith Bool Lia ZifyBool ZifyNat ZifyN.
Import ListNotations.
Open Scope string_scope.
Open Scope list_scope.
Open Scope N_scope.

(** ** Proofs about [repr(C)] *)

Section TyInd.
Context (P : ty -> Prop).
Context (H_int : forall w, P (TInt w)).
Context (H_arr : forall n t, P t -> P (TArr n t)).
Context (H_struct : forall fs, Forall (fun f => P (snd f)) fs -> P (TStruct fs)).
Context (H_union : forall fs, P (TUnion fs)).
Fixpoint ty_ind' (t : ty) : P t :=
  match t with
  | TInt w => H_int w
  | TArr n t => H_arr n t (ty_ind' t)
  | TStruct fs =>
    H_struct fs ((fix go fs : Forall (fun f => P (snd f)) fs :=
      match fs with [] => Forall_nil _ | f :: fs => Forall_cons f (ty_ind' (snd f)) (go fs) end) fs)
  | TUnion fs => H_union fs
  end.
End TyInd.

Definition widths (t : ty) : list nat := map snd (leaves "" t).
Definition total (ws : list nat) : N := fold_right (fun w s => N.of_nat w + s) 0 ws.

Lemma leaves_names t : forall n m, map snd (leaves n t) = map snd (leaves m t).
Proof.
  induction t as [w|k t IH|fs _|fs] using ty_ind'; intros n m; cbn [leaves map]; auto.
  induction k as [|k IHk]; [reflexivity|]. cbn [repeat concat]. rewrite !map_app. now rewrite (IH n m), IHk.
Qed.
Lemma widths_fields f fs : widths (TStruct (f :: fs)) = widths (snd f) ++ widths (TStruct fs).
Proof. unfold widths. cbn [leaves flat_map]. rewrite map_app. f_equal. apply leaves_names. Qed.
Lemma widths_array n t : widths (TArr (S n) t) = widths t ++ widths (TArr n t).
Proof. unfold widths. cbn [leaves repeat concat]. now rewrite map_app. Qed.
Lemma total_app a b : total (a ++ b) = total a + total b.
Proof. unfold total. induction a; cbn [app fold_right]; lia. Qed.

Section Packed.
Context (a64 : N).

(** No padding anywhere. *)
Definition packed_fields (packed : ty -> bool) (align : N) : N -> list (string * ty) -> bool :=
  fix go off fs :=
    match fs with
    | [] => off mod align =? 0
    | (_, t) :: fs => (off mod align_of a64 t =? 0) && packed t && go (off + size_of a64 t) fs
    end.
Fixpoint packed (t : ty) : bool :=
  match t with
  | TInt w => negb (Nat.eqb w O)
  | TArr _ t => packed t
  | TStruct fs => packed_fields packed (align_of a64 (TStruct fs)) 0 fs
  | TUnion _ => false
  end.

Context (A : 0 < a64).

Lemma max_aligns fs a : 0 < a -> 0 < fold_right (fun (f : string * ty) a => N.max (align_of a64 (snd f)) a) a fs.
Proof. intros H. induction fs; cbn [fold_right]; lia. Qed.
Lemma align_positive t : packed t = true -> 0 < align_of a64 t.
Proof.
  induction t as [w|n t IH|fs _|fs] using ty_ind'; cbn [align_of packed]; intros H; auto.
  - destruct (Nat.eqb w 8); lia.
  - apply max_aligns. lia.
  - discriminate.
Qed.
Lemma round_up_same a n : 0 < a -> n mod a = 0 -> round_up a n = n.
Proof.
  intros Ha H. unfold round_up. apply N.mod_divides in H as [k ->]; [|lia].
  replace (a * k + a - 1) with (a * k + (a - 1)) by lia.
  rewrite (N.mul_comm a k), N.div_add_l by lia. rewrite (N.div_small (a - 1) a) by lia. lia.
Qed.

Lemma packed_size t : packed t = true -> size_of a64 t = total (widths t).
Proof.
  induction t as [w|n t IH|fs IH|fs] using ty_ind'; intros P; cbn [size_of] in *.
  - cbn. lia.
  - cbn [packed] in P. rewrite (IH P). clear -n. induction n as [|n IHn]; [reflexivity|].
    rewrite widths_array, total_app. rewrite Nat2N.inj_succ, N.mul_succ_l. lia.
  - cbn [packed] in P. assert (Ha : 0 < align_of a64 (TStruct fs)) by (cbn [align_of]; apply max_aligns; lia).
    set (al := align_of a64 (TStruct fs)) in *. clearbody al.
    assert (G : forall off, packed_fields packed al off fs = true ->
      fold_left (fun off (f : string * ty) => round_up (align_of a64 (snd f)) off + size_of a64 (snd f)) fs off =
        off + total (widths (TStruct fs)) /\ (off + total (widths (TStruct fs))) mod al = 0).
    { clear P. induction IH as [|[n t] fs IHt _ IHfs]; intros off P; cbn [packed_fields] in P.
      - cbn. rewrite N.add_0_r. split; [reflexivity|lia].
      - apply andb_prop in P as [P P3]. apply andb_prop in P as [P1 P2]. cbn [fold_left snd] in *.
        rewrite round_up_same by (try apply align_positive; auto; lia).
        destruct (IHfs _ P3) as [IH1 IH2]. rewrite widths_fields, total_app. cbn [snd]. rewrite <- (IHt P2).
        rewrite IH1. split; [lia|]. now rewrite N.add_assoc. }
    destruct (G 0 P) as [G1 G2]. rewrite G1. now apply round_up_same.
  - discriminate.
Qed.

Context {E : Endian}.

Lemma wire_app a b : wire (a ++ b) = wire a ++ wire b.
Proof. induction a as [|[w v] a IH]; [reflexivity|]. cbn [app wire]. now rewrite IH, app_assoc. Qed.
Lemma skipn_twice {T} a b (l : list T) : skipn a (skipn b l) = skipn (b + a) l.
Proof. revert l. induction b as [|b IH]; intros [|x l]; cbn; auto. now rewrite skipn_nil. Qed.
Lemma combine_app_l (a b : list nat) (vs : list N) : (List.length a <= List.length vs)%nat ->
  combine (a ++ b) vs = combine a vs ++ combine b (skipn (List.length a) vs).
Proof.
  revert vs. induction a as [|x a IH]; intros vs H; [reflexivity|].
  destruct vs as [|v vs]; [cbn in H; lia|]. cbn in *. f_equal. apply IH. lia.
Qed.

Lemma packed_image t : packed t = true -> forall vs, (List.length (widths t) <= List.length vs)%nat ->
  image a64 t vs = (map Some (wire (combine (widths t) vs)), skipn (List.length (widths t)) vs).
Proof.
  induction t as [w|n t IH|fs IH|fs] using ty_ind'; intros P vs L; cbn [image].
  - destruct vs as [|v vs]; [cbn in L; lia|]. cbn. now rewrite app_nil_r.
  - cbn [packed] in P. specialize (IH P). revert vs L. induction n as [|n IHn]; intros vs L; [reflexivity|].
    rewrite widths_array, app_length in L. cbn [image_array]. rewrite IH by lia. cbn [image] in IHn.
    rewrite IHn by (rewrite skipn_length; lia). rewrite widths_array, combine_app_l by lia.
    rewrite wire_app, map_app, app_length, skipn_twice. reflexivity.
  - pose proof (packed_size (TStruct fs) P) as Sz. set (tt := size_of a64 (TStruct fs)) in *. clearbody tt.
    cbn [packed] in P. set (al := align_of a64 (TStruct fs)) in *. clearbody al.
    assert (G : forall off vs, packed_fields packed al off fs = true -> tt = off + total (widths (TStruct fs)) ->
      (List.length (widths (TStruct fs)) <= List.length vs)%nat ->
      image_fields a64 (image a64) tt off fs vs =
        (map Some (wire (combine (widths (TStruct fs)) vs)), skipn (List.length (widths (TStruct fs))) vs)).
    { clear Sz P vs L. induction IH as [|[n t] fs IHt _ IHfs]; intros off vs P Sz L; cbn [packed_fields] in P.
      - cbn in Sz |- *. replace (tt - off) with 0 by lia. reflexivity.
      - apply andb_prop in P as [P P3]. apply andb_prop in P as [P1 P2]. cbn [snd] in *.
        rewrite widths_fields in L, Sz |- *. rewrite app_length in L. rewrite total_app in Sz. cbn [snd] in *.
        cbn [image_fields]. rewrite round_up_same by (try apply align_positive; auto; lia).
        rewrite IHt by (auto; lia).
        pose proof (packed_size t P2) as St.
        rewrite (IHfs (off + size_of a64 t)); [|exact P3|lia|rewrite skipn_length; lia].
        rewrite N.sub_diag. cbn [N.to_nat repeat app]. rewrite combine_app_l by lia.
        rewrite wire_app, map_app, app_length, skipn_twice. reflexivity. }
    apply G; auto; lia.
  - discriminate.
Qed.

Lemma all_bytes_some b : all_bytes (map Some b) = Some b.
Proof. induction b as [|x b IH]; [reflexivity|]. cbn. now rewrite IH. Qed.

Lemma packed_bytes t vs : packed t = true -> (List.length (widths t) <= List.length vs)%nat ->
  as_bytes a64 t vs = Ret (wire (combine (widths t) vs)).
Proof. intros P L. unfold as_bytes. rewrite packed_image by auto. cbn [fst]. now rewrite all_bytes_some. Qed.
End Packed.

(** ** C69 *)

(** The alignment of [u64] on 32-bit x86, and elsewhere. *)
Definition u64_align (a64 : N) : Prop := a64 = 4 \/ a64 = 8.

Section Theorems.
Context {E : Endian}.

Lemma table_packed a64 name t : u64_align a64 -> In (name, t) structs -> packed a64 t = true.
Proof.
  intros A H. assert (G : forallb (fun e => packed a64 (snd e)) structs = true) by (destruct A as [-> | ->]; vm_compute; reflexivity).
  rewrite forallb_forall in G. exact (G _ H).
Qed.
Lemma align_pos a64 : u64_align a64 -> 0 < a64.
Proof. intros [-> | ->]; reflexivity. Qed.

Lemma zero_bytes w : enc w 0 = repeat x00 w.
Proof.
  unfold enc. assert (Z : le_enc w 0 = repeat x00 w) by (induction w as [|w IH]; [reflexivity|cbn; now rewrite IH]).
  rewrite Z. destruct big_endian; [|reflexivity]. clear.
  assert (S : forall w, repeat x00 w ++ [x00] = repeat x00 (S w)) by (intros n; induction n as [|n IH]; [reflexivity|cbn; now rewrite IH]).
  induction w as [|w IH]; [reflexivity|]. cbn [repeat rev]. now rewrite IH, S.
Qed.

(** Every struct of the protocol, on every target: a value is its integers one
    after the other.  [as_bytes] reads no padding (it would be undefined), and
    the bytes do not depend on the target's alignment. *)
Theorem C69_no_padding a64 name t vs :
  u64_align a64 -> In (name, t) structs -> List.length vs = List.length (leaves "" t) ->
  as_bytes a64 t vs = Ret (wire (combine (map snd (leaves "" t)) vs)) /\
  size_of a64 t = fold_right (fun f n => N.of_nat (snd f) + n) 0 (leaves "" t).
Proof.
  intros A H L. pose proof (table_packed _ _ _ A H) as P. pose proof (align_pos _ A) as A'. split.
  - apply packed_bytes; auto. unfold widths. rewrite map_length. lia.
  - rewrite packed_size by auto. unfold widths, total.
    clear. induction (leaves "" t) as [|[n w] l IH]; [reflexivity|]. cbn [map fold_right snd]. now rewrite IH.
Qed.

(** The sizes of the structs in the header of Linux (include/uapi/linux/fuse.h),
    on every platform; of those that grew, also in the old versions. *)
Definition linux_sizes : list (string * N) := [
  ("fuse_attr", 88); ("fuse_kstatfs", 80); ("fuse_file_lock", 24); ("fuse_entry_out", 128);
  ("fuse_forget_in", 8); ("fuse_forget_one", 16); ("fuse_batch_forget_in", 8); ("fuse_getattr_in", 16);
  ("fuse_attr_out", 104); ("fuse_mknod_in", 16); ("fuse_mkdir_in", 8); ("fuse_rename_in", 8);
  ("fuse_rename2_in", 16); ("fuse_link_in", 8); ("fuse_setattr_in", 88); ("fuse_open_in", 8);
  ("fuse_create_in", 16); ("fuse_open_out", 16); ("fuse_release_in", 24); ("fuse_flush_in", 24);
  ("fuse_read_in", 40); ("fuse_write_in", 40); ("fuse_write_out", 8); ("fuse_statfs_out", 80);
  ("fuse_fsync_in", 16); ("fuse_setxattr_in", 16); ("fuse_getxattr_in", 8); ("fuse_getxattr_out", 8);
  ("fuse_lk_in", 48); ("fuse_lk_out", 24); ("fuse_access_in", 8); ("fuse_init_in", 64);
  ("fuse_init_out", 64); ("cuse_init_in", 16); ("cuse_init_out", 72); ("fuse_interrupt_in", 8);
  ("fuse_bmap_in", 16); ("fuse_bmap_out", 8); ("fuse_ioctl_in", 32); ("fuse_ioctl_iovec", 16);
  ("fuse_ioctl_out", 16); ("fuse_poll_in", 24); ("fuse_poll_out", 8); ("fuse_notify_poll_wakeup_out", 8);
  ("fuse_fallocate_in", 32); ("fuse_in_header", 40); ("fuse_out_header", 16); ("fuse_dirent", 24);
  ("fuse_direntplus", 152); ("fuse_notify_inval_inode_out", 24); ("fuse_notify_inval_entry_out", 16);
  ("fuse_notify_delete_out", 24); ("fuse_notify_store_out", 24); ("fuse_notify_retrieve_out", 32);
  ("fuse_notify_retrieve_in", 40); ("fuse_lseek_in", 24); ("fuse_lseek_out", 8);
  ("fuse_copy_file_range_in", 56); ("fuse_setupmapping_in", 40); ("fuse_removemapping_in", 4);
  ("fuse_removemapping_one", 16); ("fuse_syncfs_in", 8); ("fuse_secctx", 8); ("fuse_secctx_header", 8);
  ("fuse_create_in_v7p1", 8); ("fuse_mknod_in_v7p1", 8); ("fuse_setxattr_in_v7p1", 8);
  ("fuse_read_in_v7p1", 24); ("fuse_release_in_v7p1", 16); ("fuse_write_in_v7p1", 24);
  ("fuse_init_in_v7p1", 8); ("fuse_init_in_v7p6", 16); ("IoctlSlice", 16)].
Theorem C69_sizes a64 : u64_align a64 ->
  map (fun e => (fst e, size_of a64 (snd e))) structs = linux_sizes /\
  (* the lock in a reply to GETLK *)
  place_of a64 L_fuse_lk_out ["lk"] = Some (0, L_fuse_file_lock).
Proof. intros [-> | ->]; split; vm_compute; reflexivity. Qed.

(** [new()] is all zeroes. *)
Theorem C69_new a64 name t :
  u64_align a64 -> In (name, t) structs ->
  as_bytes a64 t (repeat 0 (List.length (leaves "" t))) = Ret (repeat x00 (N.to_nat (size_of a64 t))).
Proof.
  intros A H. destruct (C69_no_padding a64 name t _ A H (repeat_length 0 _)) as [-> ->]. f_equal.
  clear. induction (leaves "" t) as [|[n w] l IH]; [reflexivity|]. cbn [map fold_right snd List.length repeat combine wire].
  rewrite IH, N2Nat.inj_add, Nat2N.id, repeat_app. f_equal.
  apply zero_bytes.
Qed.

(** A struct may be read at every offset that is a multiple of 8 in a slice
    that [AlignedSlice::new] accepts; on targets where [u64] is aligned to 4 it
    accepts more slices. *)
Theorem C69_aligned a64 name t addr off :
  u64_align a64 -> In (name, t) structs -> AlignedSlice_check a64 addr = true -> off mod 8 = 0 ->
  (addr + off) mod align_of a64 t = 0.
Proof.
  intros A H C O.
  assert (G : forallb (fun e => a64 mod align_of a64 (snd e) =? 0) structs = true)
    by (destruct A as [-> | ->]; vm_compute; reflexivity).
  rewrite forallb_forall in G. specialize (G _ H). cbn [snd] in G.
  pose proof (align_positive a64 (align_pos _ A) t (table_packed _ _ _ A H)) as P.
  unfold AlignedSlice_check in C. apply N.eqb_eq in C, G.
  apply N.mod_divides in C as [k ->]; [|destruct A; lia]. apply N.mod_divides in O as [l ->]; [|lia].
  apply N.mod_divides in G as [m G]; [|lia].
  assert (E8 : exists q, 8 = a64 * q) by (destruct A as [-> | ->]; [exists 2|exists 1]; reflexivity).
  destruct E8 as [q E8]. set (al := align_of a64 t) in *. clearbody al.
  replace (a64 * k + 8 * l) with ((m * (k + q * l)) * al) by (rewrite E8, G; lia).
  apply N.mod_mul. lia.
Qed.
(** *** Requests *)

(** The struct that comes after the header of a request, with the fields it
    has in the version of the protocol in use, by name; [ws] is the reserved
    array at the end of the [fuse_init_in] of 7.36. *)
Definition lk_fields (fh owner start end_ type pid lk_flags pad : N) : list (string * N) :=
  [("fh", fh); ("owner", owner); ("start", start); ("end", end_); ("type", type); ("pid", pid);
   ("lk_flags", lk_flags); ("padding", pad)].
Definition read_struct (minor fh offset size read_flags lock_owner flags pad : N) : ty * list (string * N) :=
  if minor <? 9
  then (L_fuse_read_in_v7p1, [("fh", fh); ("offset", offset); ("size", size); ("padding", read_flags)])
  else (L_fuse_read_in, [("fh", fh); ("offset", offset); ("size", size); ("read_flags", read_flags);
                         ("lock_owner", lock_owner); ("flags", flags); ("padding", pad)]).
Definition release_struct (minor fh flags release_flags lock_owner : N) : ty * list (string * N) :=
  if minor <? 8
  then (L_fuse_release_in_v7p1, [("fh", fh); ("flags", flags); ("padding", release_flags)])
  else (L_fuse_release_in, [("fh", fh); ("flags", flags); ("release_flags", release_flags);
                            ("lock_owner", lock_owner)]).
Definition request_struct (cf : config) (op : client_op) (ws : list N) : ty * list (string * N) :=
  let minor := cf_minor cf in
  match op with
  | OAccess mask pad => (L_fuse_access_in, [("mask", mask); ("padding", pad)])
  | OBmap block blocksize pad =>
    (L_fuse_bmap_in, [("block", block); ("blocksize", blocksize); ("padding", pad)])
  | OCopyFileRange fh_in off_in nodeid_out fh_out off_out len flags =>
    (L_fuse_copy_file_range_in,
     [("fh_in", fh_in); ("off_in", off_in); ("nodeid_out", nodeid_out); ("fh_out", fh_out);
      ("off_out", off_out); ("len", len); ("flags", flags)])
  | OCreate flags mode umask open_flags _ =>
    if minor <? 12 then (L_fuse_create_in_v7p1, [("flags", flags); ("unused", mode)])
    else (L_fuse_create_in,
          [("flags", flags); ("mode", mode); ("umask", umask); ("open_flags", open_flags)])
  | OCuseInit major minor unused flags =>
    (L_cuse_init_in, [("major", major); ("minor", minor); ("unused", unused); ("flags", flags)])
  | OFallocate fh offset length mode pad =>
    (L_fuse_fallocate_in,
     [("fh", fh); ("offset", offset); ("length", length); ("mode", mode); ("padding", pad)])
  | OFlush fh unused pad lock_owner =>
    (L_fuse_flush_in, [("fh", fh); ("unused", unused); ("padding", pad); ("lock_owner", lock_owner)])
  | OForget nlookup => (L_fuse_forget_in, [("nlookup", nlookup)])
  | OBatchForget dummy items =>
    (L_fuse_batch_forget_in, [("count", nlen items); ("dummy", dummy)])
  | OFsync fh fsync_flags pad | OFsyncdir fh fsync_flags pad =>
    (L_fuse_fsync_in, [("fh", fh); ("fsync_flags", fsync_flags); ("padding", pad)])
  | OInit major minor max_readahead flags flags2 _ =>
    if negb (major =? 7) || (minor <? 6)
    then (L_fuse_init_in_v7p1, [("major", major); ("minor", minor)])
    else if minor <? 36
    then (L_fuse_init_in_v7p6,
          [("major", major); ("minor", minor); ("max_readahead", max_readahead); ("flags", flags)])
    else (L_fuse_init_in,
          [("major", major); ("minor", minor); ("max_readahead", max_readahead); ("flags", flags);
           ("flags2", flags2)] ++ map (fun w => ("unused", w)) ws)
  | OGetattr getattr_flags dummy fh =>
    if minor <? 9 then (TStruct [], [])
    else (L_fuse_getattr_in, [("getattr_flags", getattr_flags); ("dummy", dummy); ("fh", fh)])
  | OGetlk fh owner start end_ type pid lk_flags pad
  | OSetlk _ fh owner start end_ type pid lk_flags pad =>
    (L_fuse_lk_in, lk_fields fh owner start end_ type pid lk_flags pad)
  | OGetxattr size pad _ | OListxattr size pad =>
    (L_fuse_getxattr_in, [("size", size); ("padding", pad)])
  | OInterrupt unique => (L_fuse_interrupt_in, [("unique", unique)])
  | OIoctl fh flags cmd arg out_size input =>
    (L_fuse_ioctl_in,
     [("fh", fh); ("flags", flags); ("cmd", cmd); ("arg", arg); ("in_size", nlen input);
      ("out_size", out_size)])
  | OLink oldnodeid _ => (L_fuse_link_in, [("oldnodeid", oldnodeid)])
  | OLseek fh offset whence pad =>
    (L_fuse_lseek_in, [("fh", fh); ("offset", offset); ("whence", whence); ("padding", pad)])
  | OMkdir mode umask _ => (L_fuse_mkdir_in, [("mode", mode); ("umask", umask)])
  | OMknod mode rdev umask pad _ =>
    if minor <? 12 then (L_fuse_mknod_in_v7p1, [("mode", mode); ("rdev", rdev)])
    else (L_fuse_mknod_in, [("mode", mode); ("rdev", rdev); ("umask", umask); ("padding", pad)])
  | OOpen flags open_flags | OOpendir flags open_flags =>
    (L_fuse_open_in, [("flags", flags); ("open_flags", open_flags)])
  | OPoll fh kh flags events =>
    (L_fuse_poll_in, [("fh", fh); ("kh", kh); ("flags", flags); ("events", events)])
  | ORead fh offset size read_flags lock_owner flags pad
  | OReaddir fh offset size read_flags lock_owner flags pad
  | OReaddirplus fh offset size read_flags lock_owner flags pad =>
    read_struct minor fh offset size read_flags lock_owner flags pad
  | ORelease fh flags release_flags lock_owner | OReleasedir fh flags release_flags lock_owner =>
    release_struct minor fh flags release_flags lock_owner
  | ORename newdir _ _ => (L_fuse_rename_in, [("newdir", newdir)])
  | ORename2 newdir flags pad _ _ =>
    (L_fuse_rename2_in, [("newdir", newdir); ("flags", flags); ("padding", pad)])
  | OSetattr valid pad fh size lock_owner atime mtime ctime
             atimensec mtimensec ctimensec mode unused4 uid gid unused5 =>
    (L_fuse_setattr_in,
     [("valid", valid); ("padding", pad); ("fh", fh); ("size", size); ("lock_owner", lock_owner);
      ("atime", atime); ("mtime", mtime); ("ctime", ctime); ("atimensec", atimensec);
      ("mtimensec", mtimensec); ("ctimensec", ctimensec); ("mode", mode); ("unused4", unused4);
      ("uid", uid); ("gid", gid); ("unused5", unused5)])
  | OSetxattr flags setxattr_flags pad _ value =>
    if cf_setxattr_ext cf
    then (L_fuse_setxattr_in,
          [("size", nlen value); ("flags", flags); ("setxattr_flags", setxattr_flags); ("padding", pad)])
    else (L_fuse_setxattr_in_v7p1, [("size", nlen value); ("flags", flags)])
  | OWrite fh offset write_flags lock_owner flags pad data =>
    if minor <? 9
    then (L_fuse_write_in_v7p1,
          [("fh", fh); ("offset", offset); ("size", nlen data); ("write_flags", write_flags)])
    else (L_fuse_write_in,
          [("fh", fh); ("offset", offset); ("size", nlen data); ("write_flags", write_flags);
           ("lock_owner", lock_owner); ("flags", flags); ("padding", pad)])
  | OLookup _ | OReadlink | ORemovexattr _ | ORmdir _ | OStatfs | OSymlink _ _ | OUnlink _ =>
    (TStruct [], [])
  end.

(** The bytes of [unused] are the words [ws]; what comes after the struct. *)
Definition reserved_words (op : client_op) (ws : list N) : Prop :=
  match op with
  | OInit _ _ _ _ _ unused => unused = wire (map u32 ws) /\ List.length ws = 11%nat
  | _ => True
  end.
Definition after_struct (op : client_op) : bytes :=
  match op with OInit _ _ _ _ _ _ => [] | _ => op_tail op end.

Lemma eleven {A} (l : list A) : List.length l = 11%nat ->
  exists a b c d e f g h i j k, l = [a; b; c; d; e; f; g; h; i; j; k].
Proof.
  intros H. do 11 (destruct l as [|? l]; [discriminate H|]).
  destruct l; [|discriminate H]. repeat eexists.
Qed.

Lemma struct_bytes a64 t vs fs : u64_align a64 -> packed a64 t = true ->
  List.length vs = List.length (widths t) -> combine (widths t) vs = fs ->
  as_bytes a64 t vs = Ret (wire fs).
Proof. intros A P L <-. apply packed_bytes; auto using align_pos. lia. Qed.
Lemma struct_size a64 t vs b : u64_align a64 -> packed a64 t = true ->
  as_bytes a64 t vs = Ret b -> List.length vs = List.length (widths t) -> nlen b = size_of a64 t.
Proof.
  intros A P H L. rewrite packed_bytes in H by (auto using align_pos; lia). injection H as <-.
  rewrite packed_size by auto using align_pos. rewrite nlen_wire. revert vs L.
  induction (widths t) as [|w l IH]; intros [|v vs] L; try discriminate L; [reflexivity|].
  injection L as L. cbn [combine fields_size total fold_right]. now rewrite (IH _ L).
Qed.
Lemma request_packed a64 cf op ws : u64_align a64 -> packed a64 (fst (request_struct cf op ws)) = true.
Proof.
  intros A. destruct op; cbn [request_struct]; unfold read_struct, release_struct;
    repeat match goal with |- context [if ?c then _ else _] => destruct c end;
    destruct A as [-> | ->]; vm_compute; reflexivity.
Qed.
Ltac layout A :=
  split; [reflexivity|]; apply struct_bytes;
  [exact A | destruct A as [-> | ->]; vm_compute; reflexivity | reflexivity | reflexivity].

(** The structs have the fields of the protocol, by the same names, in the
    same places. *)
Theorem C69_request a64 cf op ws :
  u64_align a64 -> reserved_words op ws ->
  let '(t, fields) := request_struct cf op ws in
  map fst fields = map fst (leaves "" t) /\
  exists b, as_bytes a64 t (map snd fields) = Ret b /\ op_body cf op = b ++ after_struct op.
Proof.
  intros A W.
  assert (G : let '(t, fields) := request_struct cf op ws in
    map fst fields = map fst (leaves "" t) /\
    as_bytes a64 t (map snd fields) =
      Ret (wire (op_fields cf op ++
        match op with
        | OInit major minor _ _ _ _ =>
          if negb (major =? 7) || (minor <? 6) then [] else if minor <? 36 then [] else map u32 ws
        | _ => [] end))).
  { destruct op; cbn [request_struct op_fields after_struct]; rewrite ?app_nil_r;
      unfold read_struct, release_struct, read_in, release_in, lk_in;
      repeat match goal with |- context [if ?c then _ else _] => destruct c end;
      try layout A.
    cbn [reserved_words] in W. destruct W as [_ W].
    destruct (eleven ws W) as (?&?&?&?&?&?&?&?&?&?&?&->). layout A. }
  destruct (request_struct cf op ws) as [t fields]. destruct G as [G1 G2]. split; [exact G1|].
  eexists; split; [exact G2|]. unfold op_body. rewrite wire_app, <- app_assoc. f_equal.
  destruct op; cbn [after_struct op_tail wire app]; auto.
  destruct W as [-> _].
  destruct (N.eqb_spec major 7); cbn [negb orb andb]; [|reflexivity].
  destruct (N.ltb_spec minor 6), (N.ltb_spec minor 36), (N.leb_spec 36 minor); try lia; cbn [wire app]; auto.
  now rewrite app_nil_r.
Qed.

(** So a message made of the structs with those values in the fields of those
    names is understood: its content is the operation's. *)
Definition header_values (len opcode : N) (hd : req_header) : list (string * N) :=
  [("len", len); ("opcode", opcode); ("unique", rh_unique hd); ("nodeid", rh_nodeid hd);
   ("uid", rh_uid hd); ("gid", rh_gid hd); ("pid", rh_pid hd); ("padding", rh_padding hd)].
Theorem C69_request_understood a64 is_cuse cf hd op ws rest hb sb :
  u64_align a64 -> reserved_words op ws ->
  sendable is_cuse cf hd op -> (op_type op = RCreate -> 12 <= cf_minor cf) ->
  let '(t, fields) := request_struct cf op ws in
  as_bytes a64 t (map snd fields) = Ret sb ->
  let len := size_of a64 L_fuse_in_header + size_of a64 t + nlen (after_struct op) in
  len < U32 ->
  as_bytes a64 L_fuse_in_header (map snd (header_values len (op_code op) hd)) = Ret hb ->
  map fst (header_values len (op_code op) hd) = map fst (leaves "" L_fuse_in_header) /\
  exists rq, Request_new (hb ++ sb ++ after_struct op ++ rest) = Ret rq /\
    decode_view is_cuse cf (op_type op) rq = taken_for is_cuse cf (rh_nodeid hd) op.
Proof.
  intros A W S V. pose proof (C69_request a64 cf op ws A W) as G.
  pose proof (request_packed a64 cf op ws A) as Pk.
  destruct (request_struct cf op ws) as [t fields]. destruct G as (G1 & b & G2 & G3).
  intros S1 len L H. split; [reflexivity|].
  rewrite S1 in G2. injection G2 as <-.
  assert (P : packed a64 t = true) by exact Pk.
  pose proof (struct_size a64 t _ _ A P S1) as Sz. rewrite !map_length in Sz.
  assert (Ln : len = 40 + nlen (op_body cf op)).
  { unfold len. rewrite G3, nlen_app. rewrite Sz.
    - destruct A as [-> | ->]; change (size_of _ L_fuse_in_header) with 40; lia.
    - rewrite <- (map_length fst), G1. unfold widths. now rewrite !map_length. }
  assert (Hb : hb = wire (header_fields len (op_code op) hd)).
  { rewrite (struct_bytes a64 L_fuse_in_header _ (header_fields len (op_code op) hd) A) in H;
      [now injection H as <-|destruct A as [-> | ->]; vm_compute; reflexivity|reflexivity|reflexivity]. }
  destruct (deliver_all is_cuse cf hd op [] rest S V) as (rq & D1 & D2); [rewrite app_nil_r, <- Ln; exact L|].
  exists rq. split; [|exact D2]. rewrite <- D1, sent_encode. unfold encode.
  rewrite <- Ln, Hb, G3, <- !app_assoc. reflexivity.
Qed.

(** *** Replies *)

(** [b] are the bytes of the struct with these fields. *)
Definition is_struct (a64 : N) (t : ty) (fields : list (string * N)) (b : bytes) : Prop :=
  map fst fields = map fst (leaves "" t) /\ as_bytes a64 t (map snd fields) = Ret b.

Definition attr_values (r : fuse_attr) : list (string * N) :=
  [("ino", fa_ino r); ("size", fa_size r); ("blocks", fa_blocks r); ("atime", fa_atime r);
   ("mtime", fa_mtime r); ("ctime", fa_ctime r); ("atimensec", fa_atimensec r);
   ("mtimensec", fa_mtimensec r); ("ctimensec", fa_ctimensec r); ("mode", fa_mode r);
   ("nlink", fa_nlink r); ("uid", fa_uid r); ("gid", fa_gid r); ("rdev", fa_rdev r);
   ("blksize", fa_blksize r); ("flags", fa_flags r)].
Definition entry_values (r : fuse_entry_out) : list (string * N) :=
  [("nodeid", eo_nodeid r); ("generation", eo_generation r); ("entry_valid", eo_entry_valid r);
   ("attr_valid", eo_attr_valid r); ("entry_valid_nsec", eo_entry_valid_nsec r);
   ("attr_valid_nsec", eo_attr_valid_nsec r)] ++ attr_values (eo_attr r).
Definition dirent_values (d : fuse_dirent) : list (string * N) :=
  [("ino", de_ino d); ("off", de_off d); ("namelen", de_namelen d); ("type", de_type d)].
Definition zeroes (name : string) (n : nat) : list (string * N) := repeat (name, 0) n.

(** What is sent of every reply and notification with a struct in it is the
    struct, each value in the field of its name. *)
Theorem C69_reply a64 : u64_align a64 ->
  (forall len error unique,
     is_struct a64 L_fuse_out_header
       [("len", len); ("error", i32_as_u32 error); ("unique", unique)]
       (out_header_bytes len error unique)) /\
  (forall r, is_struct a64 L_fuse_entry_out (entry_values r) (fuse_entry_out_bytes r)) /\
  (forall r, is_struct a64 L_fuse_attr_out
     ([("attr_valid", ao_attr_valid r); ("attr_valid_nsec", ao_attr_valid_nsec r); ("dummy", 0)] ++
      attr_values (ao_attr r)) (fuse_attr_out_bytes r)) /\
  (forall r, is_struct a64 L_fuse_open_out
     [("fh", oo_fh r); ("open_flags", oo_open_flags r); ("padding", 0)] (fuse_open_out_bytes r)) /\
  (forall r, is_struct a64 L_fuse_statfs_out
     ([("blocks", sf_blocks r); ("bfree", sf_bfree r); ("bavail", sf_bavail r);
       ("files", sf_files r); ("ffree", sf_ffree r); ("bsize", sf_bsize r);
       ("namelen", sf_namelen r); ("frsize", sf_frsize r); ("padding", 0)] ++ zeroes "spare" 6)
     (fuse_kstatfs_bytes r)) /\
  (forall r, is_struct a64 L_fuse_init_out
     ([("major", io_major r); ("minor", io_minor r); ("max_readahead", io_max_readahead r);
       ("flags", io_flags r); ("max_background", io_max_background r);
       ("congestion_threshold", io_congestion_threshold r); ("max_write", io_max_write r);
       ("time_gran", io_time_gran r); ("max_pages", io_max_pages r);
       ("map_alignment", io_map_alignment r); ("flags2", io_flags2 r)] ++ zeroes "unused" 7)
     (fuse_init_out_bytes r)) /\
  (forall r, is_struct a64 L_cuse_init_out
     ([("major", co_major r); ("minor", co_minor r); ("unused", 0); ("flags", co_flags r);
       ("max_read", co_max_read r); ("max_write", co_max_write r); ("dev_major", co_dev_major r);
       ("dev_minor", co_dev_minor r)] ++ zeroes "spare" 10) (cuse_init_out_bytes r)) /\
  (forall r, is_struct a64 L_fuse_ioctl_out
     [("result", i32_as_u32 (ioo_result r)); ("flags", ioo_flags r); ("in_iovs", ioo_in_iovs r);
      ("out_iovs", ioo_out_iovs r)] (fuse_ioctl_out_bytes r)) /\
  (forall s, is_struct a64 L_IoctlSlice [("base", is_base s); ("len", is_len s)] (IoctlSlice_bytes s) /\
     is_struct a64 L_fuse_ioctl_iovec [("base", is_base s); ("len", is_len s)] (IoctlSlice_bytes s)) /\
  (forall d, is_struct a64 L_fuse_dirent (dirent_values d) (dt_bytes Dirent_fuse_dirent d)) /\
  (forall d, is_struct a64 L_fuse_direntplus (entry_values (dp_entry_out d) ++ dirent_values (dp_dirent d))
     (dt_bytes Dirent_fuse_direntplus d)) /\
  (* the name of an entry begins where the struct ends *)
  place_of a64 L_fuse_dirent ["name"] = Some (size_of a64 L_fuse_dirent, TArr 0 (TInt 1)) /\
  place_of a64 L_fuse_direntplus ["dirent"; "name"] = Some (size_of a64 L_fuse_direntplus, TArr 0 (TInt 1)).
Proof.
  intros A. unfold is_struct.
  repeat match goal with |- _ /\ _ => split | |- forall _, _ => intros ? end;
    try reflexivity; first [apply struct_bytes;
      [exact A | destruct A as [-> | ->]; vm_compute; reflexivity | reflexivity | reflexivity]
    | destruct A as [-> | ->]; vm_compute; reflexivity].
Qed.

(** The replies of a single struct, and the notifications. *)
Theorem C69_small_replies a64 minor id : u64_align a64 ->
  (forall block, exists b, is_struct a64 L_fuse_bmap_out [("block", block)] b /\
     send_to minor id (RBmapOut block) = send_1 id b) /\
  (forall size, exists b, is_struct a64 L_fuse_getxattr_out [("size", size); ("padding", 0)] b /\
     send_to minor id (RGetxattrOut size) = send_1 id b) /\
  (forall start end_ type pid, exists b,
     is_struct a64 L_fuse_lk_out [("start", start); ("end", end_); ("type", type); ("pid", pid)] b /\
     send_to minor id (RLkOut start end_ type pid) = send_1 id b) /\
  (forall offset, exists b, is_struct a64 L_fuse_lseek_out [("offset", offset)] b /\
     send_to minor id (RLseekOut offset) = send_1 id b) /\
  (forall revents, exists b, is_struct a64 L_fuse_poll_out [("revents", revents); ("padding", 0)] b /\
     send_to minor id (RPollOut revents) = send_1 id b) /\
  (forall size, exists b, is_struct a64 L_fuse_write_out [("size", size); ("padding", 0)] b /\
     send_to minor id (RWriteOut size) = send_1 id b) /\
  (forall kh, exists b, is_struct a64 L_fuse_notify_poll_wakeup_out [("kh", kh)] b /\
     notification_encode (NPoll kh) = encode_notify FUSE_NOTIFY_POLL b None) /\
  (forall parent namelen name, exists b,
     is_struct a64 L_fuse_notify_inval_entry_out
       [("parent", parent); ("namelen", namelen); ("padding", 0)] b /\
     notification_encode (NInvalidateEntry parent namelen name) =
       encode_notify FUSE_NOTIFY_INVAL_ENTRY b (Some name)) /\
  (forall ino off len, exists b,
     is_struct a64 L_fuse_notify_inval_inode_out
       [("ino", ino); ("off", i64_as_u64 off); ("len", i64_as_u64 len)] b /\
     notification_encode (NInvalidateInode ino off len) = encode_notify FUSE_NOTIFY_INVAL_INODE b None) /\
  (forall parent child namelen name, exists b,
     is_struct a64 L_fuse_notify_delete_out
       [("parent", parent); ("child", child); ("namelen", namelen); ("padding", 0)] b /\
     notification_encode (NDelete parent child namelen name) =
       encode_notify FUSE_NOTIFY_DELETE b (Some name)).
Proof.
  intros A. unfold is_struct.
  repeat match goal with |- _ /\ _ => split | |- forall _, _ => intros ? end;
    (eexists; split; [split; [reflexivity|apply struct_bytes;
      [exact A | destruct A as [-> | ->]; vm_compute; reflexivity | reflexivity | reflexivity]]|reflexivity]).
Qed.

(** Where older versions of the protocol end a struct a field begins: that of
    the first value they do not have. *)
Theorem C69_compat_prefix a64 : u64_align a64 ->
  place_of a64 L_fuse_attr_out ["attr"; "blksize"] = Some (FUSE_COMPAT_ATTR_OUT_SIZE, TInt 4) /\
  place_of a64 L_fuse_entry_out ["attr"; "blksize"] = Some (FUSE_COMPAT_ENTRY_OUT_SIZE, TInt 4) /\
  place_of a64 L_fuse_init_out ["max_readahead"] = Some (FUSE_COMPAT_INIT_OUT_SIZE, TInt 4) /\
  place_of a64 L_fuse_init_out ["time_gran"] = Some (FUSE_COMPAT_22_INIT_OUT_SIZE, TInt 4) /\
  place_of a64 L_fuse_statfs_out ["st"; "frsize"] = Some (FUSE_COMPAT_STATFS_SIZE, TInt 4).
Proof. intros [-> | ->]; repeat split; vm_compute; reflexivity. Qed.

(** *** Accessors *)

(** What an accessor returns is in the field of the struct that the source
    names (open flags are called [flags] in the structs, and the flags that
    the server calls [flags] are [open_flags] there). *)
Theorem C69_accessors a64 : u64_align a64 ->
  (forall h, hdr_len h = read_field a64 L_fuse_in_header ["len"] h) /\
  (forall h, hdr_opcode h = read_field a64 L_fuse_in_header ["opcode"] h) /\
  (forall h, hdr_unique h = read_field a64 L_fuse_in_header ["unique"] h) /\
  (forall h, hdr_nodeid h = read_field a64 L_fuse_in_header ["nodeid"] h) /\
  (forall h, hdr_uid h = read_field a64 L_fuse_in_header ["uid"] h) /\
  (forall h, hdr_gid h = read_field a64 L_fuse_in_header ["gid"] h) /\
  (forall h, hdr_pid h = read_field a64 L_fuse_in_header ["pid"] h) /\
  (forall r, Bmap_block r = read_field a64 L_fuse_bmap_in ["block"] (hb_body r)) /\
  (forall r, Bmap_block_size r = read_field a64 L_fuse_bmap_in ["blocksize"] (hb_body r)) /\
  (forall r, Cfr_input_handle r = read_field a64 L_fuse_copy_file_range_in ["fh_in"] (hb_body r)) /\
  (forall r, Cfr_input_offset r = read_field a64 L_fuse_copy_file_range_in ["off_in"] (hb_body r)) /\
  (forall r, Cfr_output_handle r = read_field a64 L_fuse_copy_file_range_in ["fh_out"] (hb_body r)) /\
  (forall r, Cfr_output_offset r = read_field a64 L_fuse_copy_file_range_in ["off_out"] (hb_body r)) /\
  (forall r, Cfr_len r = read_field a64 L_fuse_copy_file_range_in ["len"] (hb_body r)) /\
  (forall r, Cfr_flags r = read_field a64 L_fuse_copy_file_range_in ["flags"] (hb_body r)) /\
  (forall r, Fallocate_handle r = read_field a64 L_fuse_fallocate_in ["fh"] (hb_body r)) /\
  (forall r, Fallocate_offset r = read_field a64 L_fuse_fallocate_in ["offset"] (hb_body r)) /\
  (forall r, Fallocate_length r = read_field a64 L_fuse_fallocate_in ["length"] (hb_body r)) /\
  (forall r, Fallocate_flags r = read_field a64 L_fuse_fallocate_in ["mode"] (hb_body r)) /\
  (forall r, Fsync_handle r = read_field a64 L_fuse_fsync_in ["fh"] (hb_body r)) /\
  (forall r, Fsync_flags r = read_field a64 L_fuse_fsync_in ["fsync_flags"] (hb_body r)) /\
  (forall r, Fsyncdir_handle r = read_field a64 L_fuse_fsync_in ["fh"] (hb_body r)) /\
  (forall r, Fsyncdir_flags r = read_field a64 L_fuse_fsync_in ["fsync_flags"] (hb_body r)) /\
  (forall r, Getlk_handle r = read_field a64 L_fuse_lk_in ["fh"] (getlk_body r)) /\
  (forall r, Getlk_owner r = read_field a64 L_fuse_lk_in ["owner"] (getlk_body r)) /\
  (forall r, Getlk_lock_mode r = read_field a64 L_fuse_lk_in ["lk"; "type"] (getlk_body r)) /\
  (forall r, Ioctl_handle r = read_field a64 L_fuse_ioctl_in ["fh"] (ioctl_body r)) /\
  (forall r, Ioctl_command r = read_field a64 L_fuse_ioctl_in ["cmd"] (ioctl_body r)) /\
  (forall r, Ioctl_arg r = read_field a64 L_fuse_ioctl_in ["arg"] (ioctl_body r)) /\
  (forall r, Ioctl_input_len r = read_field a64 L_fuse_ioctl_in ["in_size"] (ioctl_body r)) /\
  (forall r, Ioctl_output_len r = read_field a64 L_fuse_ioctl_in ["out_size"] (ioctl_body r)) /\
  (forall r, Ioctl_flags r = read_field a64 L_fuse_ioctl_in ["flags"] (ioctl_body r)) /\
  (forall r, Lseek_handle r = read_field a64 L_fuse_lseek_in ["fh"] (lseek_raw r)) /\
  (forall r, Lseek_offset r = read_field a64 L_fuse_lseek_in ["offset"] (lseek_raw r)) /\
  (forall r, Lseek_whence r = read_field a64 L_fuse_lseek_in ["whence"] (lseek_raw r)) /\
  (forall r, Mkdir_mode r = read_field a64 L_fuse_mkdir_in ["mode"] (mkdir_raw r)) /\
  (forall r, Mkdir_umask r = read_field a64 L_fuse_mkdir_in ["umask"] (mkdir_raw r)) /\
  (forall r, Open_flags r = read_field a64 L_fuse_open_in ["open_flags"] (hb_body r)) /\
  (forall r, Open_open_flags r = read_field a64 L_fuse_open_in ["flags"] (hb_body r)) /\
  (forall r, Opendir_flags r = read_field a64 L_fuse_open_in ["open_flags"] (hb_body r)) /\
  (forall r, Opendir_open_flags r = read_field a64 L_fuse_open_in ["flags"] (hb_body r)) /\
  (forall r, Poll_events r = read_field a64 L_fuse_poll_in ["events"] (hb_body r)) /\
  (forall r, Poll_handle r = read_field a64 L_fuse_poll_in ["kh"] (hb_body r)) /\
  (forall r, Poll_flags r = read_field a64 L_fuse_poll_in ["flags"] (hb_body r)) /\
  (forall r, Setlk_handle r = read_field a64 L_fuse_lk_in ["fh"] (setlk_body r)) /\
  (forall r, Setlk_owner r = read_field a64 L_fuse_lk_in ["owner"] (setlk_body r)) /\
  (forall r, Setlk_flags r = read_field a64 L_fuse_lk_in ["lk_flags"] (setlk_body r)) /\
  (forall r, Create_open_flags r = read_field a64 L_fuse_create_in_v7p1 ["flags"] (as_v7p1 (create_body r))) /\
  (forall r, Mknod_mode r = read_field a64 L_fuse_mknod_in_v7p1 ["mode"] (as_v7p1 (mknod_body r))) /\
  (forall r, Read_size r = read_field a64 L_fuse_read_in_v7p1 ["size"] (as_v7p1 (hv_body r))) /\
  (forall r, Read_offset r = read_field a64 L_fuse_read_in_v7p1 ["offset"] (as_v7p1 (hv_body r))) /\
  (forall r, Read_handle r = read_field a64 L_fuse_read_in_v7p1 ["fh"] (as_v7p1 (hv_body r))) /\
  (forall r, Readdir_size r = read_field a64 L_fuse_read_in_v7p1 ["size"] (as_v7p1 (hv_body r))) /\
  (forall r, Readdir_handle r = read_field a64 L_fuse_read_in_v7p1 ["fh"] (as_v7p1 (hv_body r))) /\
  (forall r, Release_handle r = read_field a64 L_fuse_release_in_v7p1 ["fh"] (as_v7p1 (hv_body r))) /\
  (forall r, Release_open_flags r = read_field a64 L_fuse_release_in_v7p1 ["flags"] (as_v7p1 (hv_body r))) /\
  (forall r, Releasedir_handle r = read_field a64 L_fuse_release_in_v7p1 ["fh"] (as_v7p1 (hv_body r))) /\
  (forall r, Releasedir_open_flags r = read_field a64 L_fuse_release_in_v7p1 ["flags"] (as_v7p1 (hv_body r))) /\
  (forall r, Setxattr_setxattr_flags r = read_field a64 L_fuse_setxattr_in_v7p1 ["flags"] (as_v7p1 (setxattr_body r))) /\
  (forall r, Write_offset r = read_field a64 L_write_msg ["body"; "v7p1"; "offset"] (write_msg r)) /\
  (forall r, Write_handle r = read_field a64 L_write_msg ["body"; "v7p1"; "fh"] (write_msg r)) /\
  (forall r, Write_flags r = read_field a64 L_write_msg ["body"; "v7p1"; "write_flags"] (write_msg r)).
Proof. intros [-> | ->]; repeat match goal with |- _ /\ _ => split end; intros ?; reflexivity. Qed.

(** Those that only some versions have, or only with a flag. *)
Theorem C69_optional_accessors a64 : u64_align a64 ->
  (forall r, Create_flags r =
     match as_v7p 12 (create_body r) with Some b => read_field a64 L_fuse_create_in ["open_flags"] b | None => Ret 0 end) /\
  (forall r, Create_mode r =
     match as_v7p 12 (create_body r) with Some b => read_field a64 L_fuse_create_in ["mode"] b | None => Ret 0 end) /\
  (forall r, Create_umask r =
     match as_v7p 12 (create_body r) with Some b => read_field a64 L_fuse_create_in ["umask"] b | None => Ret 0 end) /\
  (forall r, Mknod_umask r =
     match as_v7p 12 (mknod_body r) with Some b => read_field a64 L_fuse_mknod_in ["umask"] b | None => Ret 0 end) /\
  (forall r, Read_open_flags r =
     match as_v7p 9 (hv_body r) with Some b => read_field a64 L_fuse_read_in ["flags"] b | None => Ret 0 end) /\
  (forall r, Readdir_open_flags r =
     match as_v7p 9 (hv_body r) with Some b => read_field a64 L_fuse_read_in ["flags"] b | None => Ret 0 end) /\
  (forall r, Setxattr_flags r =
     match as_v7p 33 (setxattr_body r) with Some b => read_field a64 L_fuse_setxattr_in ["setxattr_flags"] b | None => Ret 0 end) /\
  (forall r, Read_lock_owner r =
     match as_v7p 9 (hv_body r) with
     | None => Ret None
     | Some b =>
       flags <- read_field a64 L_fuse_read_in ["read_flags"] b ;;
       if N.land flags FUSE_READ_LOCKOWNER =? 0 then Ret None
       else o <- read_field a64 L_fuse_read_in ["lock_owner"] b ;; Ret (Some o)
     end) /\
  (forall r, Release_lock_owner r =
     match as_v7p 8 (hv_body r) with
     | None => Ret None
     | Some b =>
       flags <- read_field a64 L_fuse_release_in ["release_flags"] b ;;
       if N.land flags FUSE_RELEASE_FLOCK_UNLOCK =? 0 then Ret None
       else o <- read_field a64 L_fuse_release_in ["lock_owner"] b ;; Ret (Some o)
     end) /\
  (forall r, Releasedir_lock_owner r =
     match as_v7p 8 (hv_body r) with
     | None => Ret None
     | Some b =>
       flags <- read_field a64 L_fuse_release_in ["release_flags"] b ;;
       if N.land flags FUSE_RELEASE_FLOCK_UNLOCK =? 0 then Ret None
       else o <- read_field a64 L_fuse_release_in ["lock_owner"] b ;; Ret (Some o)
     end) /\
  (forall r, Write_lock_owner r =
     if 9 <=? write_minor r then
       flags <- read_field a64 L_write_msg ["body"; "v7p9"; "write_flags"] (write_msg r) ;;
       if N.land flags FUSE_WRITE_LOCKOWNER =? 0 then Ret None
       else o <- read_field a64 L_write_msg ["body"; "v7p9"; "lock_owner"] (write_msg r) ;; Ret (Some o)
     else Ret None) /\
  (forall r, Write_open_flags r =
     if 9 <=? write_minor r then read_field a64 L_write_msg ["body"; "v7p9"; "flags"] (write_msg r)
     else Ret 0) /\
  (forall r, Getattr_handle r =
     match as_v7p 9 (hv_body r) with
     | None => Ret None
     | Some b =>
       flags <- read_field a64 L_fuse_getattr_in ["getattr_flags"] b ;;
       if 0 <? N.land flags FUSE_GETATTR_FH
       then h <- read_field a64 L_fuse_getattr_in ["fh"] b ;; Ret (Some h) else Ret None
     end) /\
  (forall r, Setattr_handle r = Setattr_get r FATTR_FH (read_field a64 L_fuse_setattr_in ["fh"] (hb_body r))) /\
  (forall r, Setattr_size r = Setattr_get r FATTR_SIZE (read_field a64 L_fuse_setattr_in ["size"] (hb_body r))) /\
  (forall r, Setattr_lock_owner r = Setattr_get r FATTR_LOCKOWNER (read_field a64 L_fuse_setattr_in ["lock_owner"] (hb_body r))) /\
  (forall r, Setattr_mode r = Setattr_get r FATTR_MODE (read_field a64 L_fuse_setattr_in ["mode"] (hb_body r))) /\
  (forall r, Setattr_user_id r = Setattr_get r FATTR_UID (read_field a64 L_fuse_setattr_in ["uid"] (hb_body r))) /\
  (forall r, Setattr_group_id r = Setattr_get r FATTR_GID (read_field a64 L_fuse_setattr_in ["gid"] (hb_body r))) /\
  (forall r, Setattr_atime r = Setattr_get_timestamp r FATTR_ATIME
     (read_field a64 L_fuse_setattr_in ["atime"] (hb_body r)) (read_field a64 L_fuse_setattr_in ["atimensec"] (hb_body r))) /\
  (forall r, Setattr_mtime r = Setattr_get_timestamp r FATTR_MTIME
     (read_field a64 L_fuse_setattr_in ["mtime"] (hb_body r)) (read_field a64 L_fuse_setattr_in ["mtimensec"] (hb_body r))) /\
  (forall r, Setattr_ctime r = Setattr_get_timestamp r FATTR_CTIME
     (read_field a64 L_fuse_setattr_in ["ctime"] (hb_body r)) (read_field a64 L_fuse_setattr_in ["ctimensec"] (hb_body r))).
Proof. intros [-> | ->]; repeat match goal with |- _ /\ _ => split end; intros ?; reflexivity. Qed.

(** An accessor that does not look at the version reads through the struct of
    the oldest one.  The newer structs have the field at the same place. *)
Theorem C69_versions_agree a64 : u64_align a64 ->
  Forall (fun '(old, new, names) => Forall (fun name =>
      exists p, place_of a64 old [name] = Some p /\ place_of a64 new [name] = Some p) names)
    [(L_fuse_create_in_v7p1, L_fuse_create_in, ["flags"]);
     (L_fuse_mknod_in_v7p1, L_fuse_mknod_in, ["mode"; "rdev"]);
     (L_fuse_read_in_v7p1, L_fuse_read_in, ["fh"; "offset"; "size"]);
     (L_fuse_release_in_v7p1, L_fuse_release_in, ["fh"; "flags"]);
     (L_fuse_setxattr_in_v7p1, L_fuse_setxattr_in, ["size"; "flags"]);
     (L_fuse_write_in_v7p1, L_fuse_write_in, ["fh"; "offset"; "size"; "write_flags"]);
     (L_fuse_init_in_v7p1, L_fuse_init_in_v7p6, ["major"; "minor"]);
     (L_fuse_init_in_v7p6, L_fuse_init_in, ["major"; "minor"; "max_readahead"; "flags"])].
Proof. intros [-> | ->]; repeat constructor; eexists; split; vm_compute; reflexivity. Qed.
End Theorems.

Section WriteMsg.
Context {E : Endian}.

Lemma bind_ret {A B} (m : out A) (k : A -> out B) x :
  bind m k = Ret x -> exists a, m = Ret a /\ k a = Ret x.
Proof. destruct m; cbn; intros H; try discriminate H. eauto. Qed.

(** A WRITE of a session from 7.9 on holds all of a [write_msg], to which its
    request keeps a reference. *)
Theorem C69_write_msg a64 is_cuse cf buf rq r :
  u64_align a64 -> Request_new buf = Ret rq -> 9 <= cf_minor cf ->
  WriteRequest_try_from is_cuse cf rq = Ret r ->
  size_of a64 L_write_msg <= nlen (write_msg r) /\ nlen (write_msg r) <= nlen buf.
Proof.
  intros A R M H. destruct (Request_new_accepted buf rq R) as [-> Ac].
  assert (Sz : size_of a64 L_write_msg = 80) by (destruct A as [-> | ->]; vm_compute; reflexivity).
  rewrite Sz. clear Sz A.
  unfold WriteRequest_try_from in H. rewrite decoder_new_eq in H by exact Ac. cbn [bind] in H.
  destruct (N.leb_spec 9 (cf_minor cf)); [|lia].
  apply bind_ret in H as (u1 & _ & H). apply bind_ret in H as (hd & _ & H).
  apply bind_ret in H as (u2 & _ & H). apply bind_ret in H as ([vl d] & H1 & H).
  apply bind_ret in H as ([u3 d3] & _ & H). apply bind_ret in H as (msg & H2 & H).
  injection H as <-. cbn [write_msg].
  rewrite as_bytes_slice in H2 by exact Ac. injection H2 as <-.
  destruct Ac as (A1 & A2 & A3). cbn [rq_mem] in *.
  apply bind_ret in H1 as ([b d'] & H1 & _).
  unfold next_sized, next_typed in H1. apply bind_ret in H1 as (n & H1 & _).
  unfold consume in H1. cbn [d_consumed d_header_len] in H1.
  destruct (u64_max <? _); [discriminate H1|].
  destruct (N.ltb_spec (u32_at 0 buf) (40 + 40)) as [|L]; [discriminate H1|].
  rewrite nlen_slice. lia.
Qed.

(** A server of a session before 7.9 makes a reference to a [write_msg] too,
    and it is as large as the newer of its bodies.  The message of an accepted
    WRITE (and the buffer it was read to) can end before it. *)
Theorem C69_write_msg_refuted : exists buf cf rq r,
  Request_new buf = Ret rq /\ cf_minor cf < 9 /\
  WriteRequest_try_from false cf rq = Ret r /\
  Write_value r = Ret [x61] /\
  forall a64, u64_align a64 -> nlen buf < size_of a64 L_write_msg.
Proof.
  exists (wire (header_fields 65 16 {| rh_unique := 1; rh_nodeid := 1; rh_uid := 0; rh_gid := 0; rh_pid := 0; rh_padding := 0 |} ++
            [u64 3; u64 0; u32 1; u32 0; (1%nat, 97)])).
  exists {| cf_minor := 8; cf_setxattr_ext := false; cf_overflow_checks := true |}.
  destruct E; eexists _, _;
  (split; [vm_compute; reflexivity|]; split; [reflexivity|]; split; [vm_compute; reflexivity|];
   split; [vm_compute; reflexivity|]; intros a64 [-> | ->]; vm_compute; reflexivity).
Qed.
End WriteMsg.

(** *** Examples *)
Local Instance LE : Endian := false.

(** 32-bit x86 aligns [u64] to 4; [fuse_attr_out] is 104 bytes anyway. *)
Example C69_no_padding_example :
  In ("fuse_attr_out", L_fuse_attr_out) structs /\ size_of 4 L_fuse_attr_out = 104 /\
  size_of 8 L_fuse_attr_out = 104 /\
  as_bytes 8 L_fuse_open_out [7; 1; 0] = Ret [x07; x00; x00; x00; x00; x00; x00; x00; x01; x00; x00; x00; x00; x00; x00; x00] /\
  (* without its last field the same struct has padding, and is smaller on 32-bit x86 *)
  as_bytes 8 (TStruct [("fh", TInt 8); ("open_flags", TInt 4)]) [7; 1] = Ub /\
  size_of 8 (TStruct [("fh", TInt 8); ("open_flags", TInt 4)]) = 16 /\
  size_of 4 (TStruct [("fh", TInt 8); ("open_flags", TInt 4)]) = 12.
Proof. split; [|repeat split; vm_compute; reflexivity]. repeat (left; reflexivity) || right; repeat (first [left; reflexivity | right]). Qed.
Example C69_sizes_example :
  In ("fuse_out_header", 16) linux_sizes /\ In ("fuse_dirent", 24) linux_sizes /\
  u64_align 4 /\ u64_align 8 /\ size_of 4 L_fuse_out_header = 16.
Proof. repeat split; try (vm_compute; reflexivity); try (vm_compute; tauto). Qed.
Example C69_new_example :
  as_bytes 4 L_fuse_write_out [0; 0] = Ret (repeat x00 8) /\ List.length (leaves "" L_fuse_write_out) = 2%nat.
Proof. split; vm_compute; reflexivity. Qed.
Example C69_aligned_example :
  align_of 8 L_fuse_read_in = 8 /\ align_of 4 L_fuse_read_in = 4 /\
  AlignedSlice_check 8 4096 = true /\ (4096 + 40) mod 8 = 0 /\
  AlignedSlice_check 4 4092 = true /\ (4092 + 40) mod 4 = 0 /\ AlignedSlice_check 8 4092 = false.
Proof. repeat split; vm_compute; reflexivity. Qed.

Definition cf8 : config := {| cf_minor := 8; cf_setxattr_ext := false; cf_overflow_checks := true |}.
Definition cf36 : config := {| cf_minor := 36; cf_setxattr_ext := true; cf_overflow_checks := true |}.
Definition hd1 : req_header :=
  {| rh_unique := 9; rh_nodeid := 5; rh_uid := 1000; rh_gid := 1000; rh_pid := 77; rh_padding := 0 |}.
Example C69_request_example :
  request_struct cf8 (ORead 11 4096 512 2 99 0 0) [] =
    (L_fuse_read_in_v7p1, [("fh", 11); ("offset", 4096); ("size", 512); ("padding", 2)]) /\
  size_of 8 L_fuse_read_in_v7p1 = 24 /\
  fst (request_struct cf36 (ORead 11 4096 512 2 99 0 0) []) = L_fuse_read_in /\
  reserved_words (OInit 7 36 65536 1 1 (repeat x00 44)) (repeat 0 11).
Proof. repeat split; vm_compute; reflexivity. Qed.
Example C69_request_understood_example :
  let op := ORead 11 4096 512 2 99 32768 0 in
  sendable false cf36 hd1 op /\
  exists hb sb, as_bytes 8 L_fuse_read_in [11; 4096; 512; 2; 99; 32768; 0] = Ret sb /\
    as_bytes 8 L_fuse_in_header [80; 15; 9; 5; 1000; 1000; 77; 0] = Ret hb /\
    exists rq, Request_new (hb ++ sb ++ [x63]) = Ret rq /\
    decode_view false cf36 RRead rq = Ret (VRead 5 512 4096 11 (Some 99) 32768).
Proof.
  split.
  - unfold sendable, good_header, good_op, ids_present. cbn.
    repeat first [apply Forall_cons | apply Forall_nil | split | intros; reflexivity | exact I | discriminate | lia]; unfold in_range; cbn; try lia.
  - eexists _, _. split; [vm_compute; reflexivity|]. split; [vm_compute; reflexivity|].
    eexists. split; vm_compute; reflexivity.
Qed.
Example C69_reply_example :
  is_struct 8 L_fuse_out_header [("len", 16); ("error", 4294967294); ("unique", 5)]
    [x10; x00; x00; x00; xfe; xff; xff; xff; x05; x00; x00; x00; x00; x00; x00; x00] /\
  dt_bytes Dirent_fuse_dirent {| de_ino := 3; de_off := 2; de_namelen := 1; de_type := 8 |} =
    wire [u64 3; u64 2; u32 1; u32 8].
Proof. repeat split; vm_compute; reflexivity. Qed.
Example C69_small_replies_example :
  is_struct 8 L_fuse_getxattr_out [("size", 300); ("padding", 0)] [x2c; x01; x00; x00; x00; x00; x00; x00] /\
  ~ is_struct 8 L_fuse_getxattr_out [("padding", 300); ("size", 0)] [x2c; x01; x00; x00; x00; x00; x00; x00].
Proof. split; [split; vm_compute; reflexivity|]. intros [H _]. discriminate H. Qed.
Example C69_compat_prefix_example :
  place_of 8 L_fuse_entry_out ["attr"; "blksize"] = Some (120, TInt 4) /\ size_of 8 L_fuse_entry_out = 128.
Proof. split; vm_compute; reflexivity. Qed.
Example C69_accessors_example :
  place_of 8 L_fuse_lk_in ["lk"; "type"] = Some (32, TInt 4) /\
  read_field 8 L_fuse_lk_in ["lk"; "type"]
    (wire [u64 1; u64 2; u64 3; u64 4; u32 5; u32 6; u32 7; u32 0]) = Ret 5 /\
  place_of 4 L_write_msg ["body"; "v7p9"; "flags"] = Some (72, TInt 4).
Proof. repeat split; vm_compute; reflexivity. Qed.
Example C69_optional_accessors_example :
  Create_mode {| create_header := []; create_body := {| vs_minor := 12; vs_body := wire [u32 1; u32 420; u32 18; u32 0] |};
                 create_name := [] |} = Ret 420.
Proof. vm_compute; reflexivity. Qed.
Example C69_versions_agree_example :
  place_of 8 L_fuse_release_in_v7p1 ["flags"] = Some (8, TInt 4) /\
  place_of 8 L_fuse_release_in ["flags"] = Some (8, TInt 4) /\
  (* not every field the older one has *)
  place_of 8 L_fuse_read_in_v7p1 ["padding"] <> place_of 8 L_fuse_read_in ["padding"].
Proof. repeat split; vm_compute; try reflexivity; discriminate. Qed.
Example C69_write_msg_example :
  exists r, WriteRequest_try_from false cf36 {| rq_mem := encode cf36 hd1 (OWrite 3 100 0 0 0 0 [x61]) |} = Ret r /\
    nlen (write_msg r) = 81 /\ size_of 8 L_write_msg = 80.
Proof. eexists. split; [vm_compute; reflexivity|]. split; vm_compute; reflexivity. Qed.

Print Assumptions C69_no_padding.
Print Assumptions C69_sizes.
Print Assumptions C69_new.
Print Assumptions C69_aligned.
Print Assumptions C69_request.
Print Assumptions C69_request_understood.
Print Assumptions C69_reply.
Print Assumptions C69_small_replies.
Print Assumptions C69_compat_prefix.
Print Assumptions C69_accessors.
Print Assumptions C69_optional_accessors.
Print Assumptions C69_versions_agree.
Print Assumptions C69_write_msg.
Print Assumptions C69_write_msg_refuted.
