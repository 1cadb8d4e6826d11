(** Every typed conversion and accessor stays inside the message, whatever the
    message contains. *)

From Verif Require Import Base Kernel CoreModel DecodeModel OpsModel DecodeSpec DecodeProofs.
From Coq Require Import List NArith Bool Lia.
From Coq Require Import ZifyBool ZifyNat ZifyN.
Import ListNotations.
Open Scope N_scope.

Global Hint Unfold
  AccessRequest_try_from BmapRequest_try_from Bmap_node_id Bmap_block Bmap_block_size
  CopyFileRangeRequest_try_from Cfr_input_node_id Cfr_input_handle Cfr_input_offset
  Cfr_output_node_id Cfr_output_handle Cfr_output_offset Cfr_len Cfr_flags
  CreateRequest_try_from Create_node_id Create_flags Create_open_flags Create_mode Create_umask
  CuseInitRequest_try_from FallocateRequest_try_from Fallocate_node_id Fallocate_handle
  Fallocate_offset Fallocate_length Fallocate_flags FlushRequest_try_from
  ForgetRequest_try_from FsyncRequest_try_from Fsync_node_id Fsync_handle Fsync_flags
  FsyncdirRequest_try_from Fsyncdir_node_id Fsyncdir_handle Fsyncdir_flags
  FuseInitRequest_try_from GetattrRequest_try_from Getattr_node_id Getattr_handle
  GetlkRequest_try_from Getlk_node_id Getlk_handle Getlk_owner Getlk_lock_mode
  GetxattrRequest_try_from Getxattr_node_id Getxattr_size
  InterruptRequest_try_from Interrupt_request_id IoctlRequest_try_from Ioctl_node_id
  Ioctl_handle Ioctl_command Ioctl_arg Ioctl_input_len Ioctl_output_len Ioctl_flags
  LinkRequest_try_from ListxattrRequest_try_from Listxattr_node_id Listxattr_size
  parent_name_try_from LookupRequest_try_from RmdirRequest_try_from UnlinkRequest_try_from
  LseekRequest_try_from Lseek_handle Lseek_offset Lseek_whence
  MkdirRequest_try_from Mkdir_mode Mkdir_umask MknodRequest_try_from Mknod_parent_id
  Mknod_mode Mknod_umask Mknod_device_number OpenRequest_try_from Open_node_id Open_flags
  Open_open_flags OpendirRequest_try_from Opendir_node_id Opendir_flags Opendir_open_flags
  PollRequest_try_from Poll_node_id Poll_events Poll_handle Poll_flags
  ReadRequest_try_from Read_node_id Read_size Read_offset Read_handle Read_lock_owner
  Read_open_flags readdir_try_from ReaddirRequest_try_from ReaddirplusRequest_try_from
  Readdir_node_id Readdir_size Readdir_offset Readdir_handle Readdir_open_flags
  node_only_try_from ReadlinkRequest_try_from StatfsRequest_try_from
  ReleaseRequest_try_from Release_node_id Release_handle Release_lock_owner Release_open_flags
  ReleasedirRequest_try_from Releasedir_node_id Releasedir_handle Releasedir_lock_owner
  Releasedir_open_flags RemovexattrRequest_try_from Removexattr_node_id
  RenameRequest_try_from SetattrRequest_try_from Setattr_get Setattr_get_timestamp
  Setattr_node_id Setattr_handle Setattr_size Setattr_lock_owner Setattr_atime
  Setattr_atime_now Setattr_mtime Setattr_mtime_now Setattr_ctime Setattr_mode
  Setattr_user_id Setattr_group_id SetlkRequest_try_from Setlk_node_id Setlk_handle
  Setlk_may_block Setlk_owner Setlk_flags SetxattrRequest_try_from Setxattr_node_id
  Setxattr_flags Setxattr_setxattr_flags SymlinkRequest_try_from
  WriteRequest_try_from Write_node_id Write_offset Write_handle Write_value Write_flags
  Write_lock_owner Write_open_flags
  unchecked_node_id node_id_or_root NodeId_new_unchecked
  check_timespec_nanos as_v7p as_v7p1 nonzero_unchecked
  hdr_len hdr_opcode hdr_unique hdr_nodeid hdr_uid hdr_gid hdr_pid Lock_decode : ops.

Section Safety.
Context {E : Endian}.

(** A decoder over [mem] with message length [h] and cursor [c]. *)
Definition at_ (mem : bytes) (h c : N) : decoder :=
  {| d_mem := mem; d_header_len := h; d_consumed := c |}.

Definition fits (mem : bytes) (h : N) : Prop :=
  40 <= nlen mem /\ h <= nlen mem /\ h < U32.
Definition cursor (h c : N) : Prop := 40 <= c /\ c <= N.max 40 h.

Lemma at_wf mem h c : fits mem h -> cursor h c -> wf (at_ mem h c).
Proof. unfold fits, cursor, wf, at_; cbn. lia. Qed.

Lemma at_new rq :
  accepted rq -> decoder_new rq = Ret (at_ (rq_mem rq) (u32_at 0 (rq_mem rq)) 40).
Proof. apply decoder_new_eq. Qed.

Lemma accepted_fits rq : accepted rq -> fits (rq_mem rq) (u32_at 0 (rq_mem rq)).
Proof.
  intros (A & B & C). pose proof (u32_bound 0 (rq_mem rq)). unfold fits; lia.
Qed.

Lemma wp_next_sized {A} mem h c n (k : bytes * decoder -> out A) P :
  fits mem h -> cursor h c -> c mod 8 = 0 ->
  (c + n <= h -> cursor h (c + n) -> nlen (slice c n mem) = n ->
   safe (k (slice c n mem, at_ mem h (c + n))) P) ->
  safe (bind (next_sized n (at_ mem h c)) k) P.
Proof.
  intros F C M H. rewrite next_sized_eq by (now apply at_wf || exact M). cbn.
  destruct (N.ltb_spec h (c + n)); [exact I|]. cbn [bind]. apply H; auto.
  - unfold cursor in *. lia.
  - unfold fits in F. rewrite nlen_slice. lia.
Qed.

Lemma wp_next_bytes {A} mem h c n (k : bytes * decoder -> out A) P :
  fits mem h -> cursor h c ->
  (c + n <= h -> cursor h (c + n) -> nlen (slice c n mem) = n ->
   safe (k (slice c n mem, at_ mem h (c + n))) P) ->
  safe (bind (next_bytes n (at_ mem h c)) k) P.
Proof.
  intros F C H. rewrite next_bytes_eq by (now apply at_wf). cbn.
  destruct (N.ltb_spec h (c + n)); [exact I|]. cbn [bind]. apply H; auto.
  - unfold cursor in *. lia.
  - unfold fits in F. rewrite nlen_slice. lia.
Qed.

Lemma wp_peek_sized {A} mem h c n (k : bytes -> out A) P :
  fits mem h -> cursor h c -> c mod 8 = 0 ->
  (c + n <= h -> nlen (slice c n mem) = n -> safe (k (slice c n mem)) P) ->
  safe (bind (peek_sized n (at_ mem h c)) k) P.
Proof.
  intros F C M H. rewrite peek_sized_eq by (now apply at_wf || exact M). cbn.
  destruct (N.ltb_spec h (c + n)); [exact I|]. cbn [bind]. apply H; auto.
  unfold fits in F. rewrite nlen_slice. lia.
Qed.

Lemma wp_name {A} mem h c (k : bytes * decoder -> out A) P :
  fits mem h -> cursor h c ->
  (forall s, valid_name s -> c + nlen s + 1 <= h -> cursor h (c + nlen s + 1) ->
   slice c (nlen s + 1) mem = s ++ [x00] ->
   safe (k (s, at_ mem h (c + nlen s + 1))) P) ->
  safe (bind (next_node_name (at_ mem h c)) k) P.
Proof.
  intros F C H. apply safe_bind.
  eapply safe_mono; [apply next_node_name_safe; now apply at_wf|].
  intros [s d'] (H1 & -> & H3 & H4). cbn in *. apply H; auto. unfold cursor in *; lia.
Qed.

Lemma wp_cstr {A} mem h c (k : bytes * decoder -> out A) P :
  fits mem h -> cursor h c ->
  (forall s, ~ In x00 s -> s <> [] -> c + nlen s + 1 <= h -> cursor h (c + nlen s + 1) ->
   slice c (nlen s + 1) mem = s ++ [x00] ->
   safe (k (s, at_ mem h (c + nlen s + 1))) P) ->
  (c + 1 <= h -> slice c 1 mem = [x00] -> safe (k ([], at_ mem h c)) P) ->
  safe (bind (next_cstr (at_ mem h c)) k) P.
Proof.
  intros F C H H'. apply safe_bind.
  eapply safe_mono; [apply next_cstr_safe; now apply at_wf|].
  intros [s d'] (H1 & [(H2 & -> & H3 & H4) | (-> & -> & H3 & H4)]); cbn in *.
  - apply H; auto. unfold cursor in *; lia.
  - apply H'; auto. lia.
Qed.

Lemma wp_lock_range {A} s e (k : LockRange -> out A) P :
  (forall r, safe (k r) P) -> safe (bind (LockRange_decode s e) k) P.
Proof.
  intros H. apply safe_bind. unfold LockRange_decode.
  destruct (e <? s).
  - destruct (s - sat_add64 e 1 =? 0); [exact I|]. apply H.
  - destruct (OFFSET_MAX <=? e); [apply H|].
    destruct (N.eqb_spec (sat_add64 (e - s) 1) 0) as [C|C]; [|apply H].
    exfalso. unfold sat_add64, u64_max in C. lia.
Qed.

Lemma d_header_at mem h c :
  fits mem h -> cursor h c -> d_header (at_ mem h c) = Ret (slice 0 40 mem).
Proof. intros. apply (d_header_eq (at_ mem h c)). now apply at_wf. Qed.

Lemma expect_at mem h c op :
  fits mem h -> cursor h c ->
  expect_opcode (at_ mem h c) op =
    if u32_at 4 mem =? op then Ret tt else Fail EOpcodeMismatch.
Proof. intros. apply (expect_opcode_eq (at_ mem h c)). now apply at_wf. Qed.

Lemma rd32_slice c n off mem :
  nlen (slice c n mem) = n -> off + 4 <= n ->
  rd32 off (slice c n mem) = Ret (u32_at (c + off) mem).
Proof.
  intros. rewrite rd32_ok by lia. f_equal. apply (fld_slice 4). lia.
Qed.
Lemma rd64_slice c n off mem :
  nlen (slice c n mem) = n -> off + 8 <= n ->
  rd64 off (slice c n mem) = Ret (u64_at (c + off) mem).
Proof.
  intros. rewrite rd64_ok by lia. f_equal. apply (fld_slice 8). lia.
Qed.

Lemma hdr32 off mem h :
  fits mem h -> off + 4 <= 40 -> rd32 off (slice 0 40 mem) = Ret (u32_at off mem).
Proof. intros (F & _) ?. now apply hdr_rd32. Qed.
Lemma hdr64 off mem h :
  fits mem h -> off + 8 <= 40 -> rd64 off (slice 0 40 mem) = Ret (u64_at off mem).
Proof. intros (F & _) ?. now apply hdr_rd64. Qed.

Lemma as_bytes_slice rq :
  accepted rq -> as_bytes rq = Ret (slice 0 (u32_at 0 (rq_mem rq)) (rq_mem rq)).
Proof. exact (as_bytes_eq rq). Qed.

Lemma decode_node_id_eq n :
  decode_node_id n = if n =? 0 then Fail EMissingNodeId else Ret n.
Proof. unfold decode_node_id, NodeId_new. now destruct (n =? 0). Qed.

Definition or_root (n : N) : N := if n =? 0 then 1 else n.
Lemma or_root_eq n :
  match NodeId_new n with Some x => x | None => FUSE_ROOT_ID end = or_root n.
Proof. unfold NodeId_new, or_root. now destruct (n =? 0). Qed.
Lemma or_root_nz n : or_root n <> 0.
Proof. unfold or_root. destruct (n =? 0) eqn:?; lia. Qed.

Lemma if_ret {A} (b : bool) (x y : A) :
  (if b then Ret x else Ret y) = Ret (if b then x else y).
Proof. now destruct b. Qed.

Ltac lits := solve [vm_compute; discriminate].
Ltac side := first [assumption | lits | unfold fits, cursor in *; lia].

Ltac fold_goal := repeat match goal with x := _ |- _ => progress fold x end.

Ltac reads :=
  match goal with
  | F : fits ?m ?h |- context [rd32 ?o (slice 0 40 ?m)] =>
      rewrite (hdr32 o m h F) by lits; cbn [bind]
  | F : fits ?m ?h |- context [rd64 ?o (slice 0 40 ?m)] =>
      rewrite (hdr64 o m h F) by lits; cbn [bind]
  | A : accepted ?rq |- context [as_bytes ?rq] =>
      rewrite (as_bytes_slice rq A); fold_goal; cbn [bind]
  | |- context [33 <=? 33] => change (33 <=? 33) with true; cbn [bind]
  | |- context [33 <=? 1] => change (33 <=? 1) with false; cbn [bind]
  | |- context [mem_read ?m ?o ?n] =>
      rewrite (mem_read_ok m o n) by side; cbn [bind]
  | |- context [decode_node_id ?n] => rewrite (decode_node_id_eq n); cbn [bind]
  | |- context [match NodeId_new ?n with Some x => x | None => FUSE_ROOT_ID end] =>
      rewrite (or_root_eq n); cbn [bind]
  | |- context [rd32 ?o (slice ?c ?n ?m)] => rewrite (rd32_slice c n o m) by side; rewrite ?N.add_0_l; cbn [bind]
  | |- context [rd64 ?o (slice ?c ?n ?m)] => rewrite (rd64_slice c n o m) by side; rewrite ?N.add_0_l; cbn [bind]
  | |- context [d_header (at_ ?m ?h ?c)] => rewrite (d_header_at m h c) by side; cbn [bind]
  | |- context [expect_opcode (at_ ?m ?h ?c) ?o] => rewrite (expect_at m h c o) by side; cbn [bind]
  end.

Ltac known :=
  match goal with
  | H : ?b = true |- context [if ?b then _ else _] => rewrite H; cbn [bind]
  | H : ?b = false |- context [if ?b then _ else _] => rewrite H; cbn [bind]
  end.

Ltac split_head :=
  match goal with
  | |- context [if ?b then Ret ?x else Ret ?y] => rewrite (if_ret b x y); cbn [bind]
  | |- safe (bind (if ?b then _ else _) _) _ => destruct b eqn:?; cbn [bind]
  | |- safe (if ?b then _ else _) _ => destruct b eqn:?; cbn [bind]
  | |- safe (bind (match ?x with _ => _ end) _) _ => destruct x eqn:?; cbn [bind]
  | |- safe (match ?x with _ => _ end) _ => destruct x eqn:?; cbn [bind]
  end.

Ltac wp1 :=
  match goal with
  | |- safe (Fail _) _ => exact I
  | |- safe (bind (Fail _) _) _ => exact I
  | |- safe (bind (Ret _) _) _ => cbn [bind]
  | |- safe (bind (bind _ _) _) _ => rewrite bind_assoc
  | |- _ => known
  | |- safe (bind (next_sized _ (at_ _ _ _)) _) _ =>
      apply wp_next_sized; [side|side|reflexivity|intros; cbn [bind]]
  | |- safe (bind (next_bytes _ (at_ _ _ _)) _) _ =>
      apply wp_next_bytes; [side|side|intros; cbn [bind]]
  | |- safe (bind (peek_sized _ (at_ _ _ _)) _) _ =>
      apply wp_peek_sized; [side|side|reflexivity|intros; cbn [bind]]
  | |- safe (bind (next_node_name (at_ _ _ _)) _) _ =>
      apply wp_name; [side|side|intros; cbn [bind]]
  | |- safe (bind (next_cstr (at_ _ _ _)) _) _ =>
      apply wp_cstr; [side|side|intros; cbn [bind]|intros; cbn [bind]]
  | |- safe (bind (LockRange_decode _ _) _) _ => apply wp_lock_range; intros; cbn [bind]
  | |- _ => reads
  | |- _ => split_head
  end.

Ltac projs :=
  cbn [hb_header hb_body hv_header hv_body vs_minor vs_body access_node_id access_mask
       create_header create_body create_name ci_version ci_flags flush_node_id flush_handle
       flush_lock_owner fi_version fi_max_readahead fi_flags getlk_header getlk_body
       getlk_lock_range getxattr_header getxattr_body getxattr_name ioctl_header ioctl_body
       ioctl_input link_node_id link_new_parent_id link_new_name pn_parent_id pn_name
       lseek_raw lseek_node_id mkdir_parent_id mkdir_name mkdir_raw mknod_header mknod_body
       mknod_name removexattr_header removexattr_name rename_old_directory_id
       rename_old_name rename_new_directory_id rename_new_name rename_flags
       setlk_header setlk_body setlk_lock setxattr_header setxattr_body setxattr_name
       setxattr_value symlink_parent_id symlink_name symlink_content write_msg write_minor
       bind].

(** What a decoded request shows is well formed: nonzero node ids, valid
    names, and strings that lie in the message where its layout puts them. *)
Definition view_good (cf : config) (mem : bytes) (h : N) (v : view) : Prop :=
  Forall (fun n => n <> 0) (view_node_ids v) /\
  Forall valid_name (view_names v) /\
  Forall (fun s => ~ In x00 s) (view_strings v) /\
  (let off := strings_offset cf (u32_at 4 mem) v in
   let l := nul_terminated (view_strings v) in
   l <> [] -> off + nlen l <= h /\ slice off (nlen l) mem = l).

Lemma neqb_false n m : (n =? m) = false -> n <> m.
Proof. lia. Qed.

Ltac ids := repeat constructor; auto; try (apply neqb_false; assumption); try apply or_root_nz; try discriminate;
  try (match goal with H : valid_name _ |- _ => apply H; assumption end).

Lemma slice_app2 {A} (a b : N) (m : list A) (x y : list A) :
  slice a (nlen x) m = x -> b = a + nlen x -> slice b (nlen y) m = y ->
  slice a (nlen (x ++ y)) m = x ++ y.
Proof.
  intros H1 -> H2. unfold slice in *. rewrite nlen_app.
  rewrite <- (take_drop (nlen x) (drop a m)). rewrite H1.
  rewrite take_app_ge by lia. f_equal. rewrite drop_drop.
  replace (nlen x + nlen y - nlen x) with (nlen y) by lia. exact H2.
Qed.

Lemma nlen_snoc (s : bytes) b : nlen (s ++ [b]) = nlen s + 1.
Proof. rewrite nlen_app, nlen_cons, nlen_nil. lia. Qed.

Lemma one_string (a : N) h (mem s : bytes) :
  a + nlen s + 1 <= h -> slice a (nlen s + 1) mem = s ++ [x00] ->
  a + nlen (nul_terminated [s]) <= h /\
  slice a (nlen (nul_terminated [s])) mem = nul_terminated [s].
Proof.
  intros. unfold nul_terminated. cbn [map concat]. rewrite app_nil_r, nlen_snoc.
  split; [lia|assumption].
Qed.

Lemma two_strings (a b : N) h (mem s t : bytes) :
  slice a (nlen s + 1) mem = s ++ [x00] ->
  b = a + nlen s + 1 -> b + nlen t + 1 <= h ->
  slice b (nlen t + 1) mem = t ++ [x00] ->
  a + nlen (nul_terminated [s; t]) <= h /\
  slice a (nlen (nul_terminated [s; t])) mem = nul_terminated [s; t].
Proof.
  intros. unfold nul_terminated. cbn [map concat]. rewrite app_nil_r.
  split.
  - rewrite nlen_app, !nlen_snoc. lia.
  - apply slice_app2 with b; rewrite ?nlen_snoc; auto. lia.
Qed.

Lemma no_empty_then_name c (mem s : bytes) :
  slice c 1 mem = [x00] -> slice c (nlen s + 1) mem = s ++ [x00] -> valid_name s -> False.
Proof.
  intros H1 H2 (N1 & N2 & _). destruct s as [|b r]; [easy|].
  assert (H3 : take 1 (slice c (nlen (b :: r) + 1) mem) = slice c 1 mem).
  { unfold slice. rewrite take_take. f_equal. lia. }
  rewrite H1, H2 in H3. cbn in H3. injection H3 as ->. apply N2. now left.
Qed.

Ltac offset :=
  unfold strings_offset; change FUSE_RENAME2 with 45 in *;
  repeat match goal with
  | H : ?b = _ |- context [if ?b then _ else _] => rewrite H
  | |- context [?a <? ?b] => destruct (N.ltb_spec a b); try lia
  end; change (40 + 0) with 40.

Ltac strings0 := cbn; congruence.
Ltac strings1 :=
  offset; cbn [view_strings view_names]; cbv zeta; intros _;
  first
  [ apply one_string; [side|assumption]
  | eapply two_strings; [eassumption|reflexivity|side|eassumption]
  | exfalso; eapply no_empty_then_name; eassumption ].

Ltac go :=
  match goal with A : accepted ?rq |- _ =>
    pose proof (accepted_fits rq A) as F;
    set (mem := rq_mem rq) in *; set (h := u32_at 0 mem) in *;
    assert (C0 : cursor h 40) by (unfold cursor; lia);
    assert (L0 : nlen (slice 0 h mem) = h) by (rewrite nlen_slice; side);
    cbn [decode_view]; repeat autounfold with ops;
    rewrite at_new by auto; fold mem; fold h; cbn [bind];
    repeat (wp1; projs)
  end.
Ltac finish :=
  apply safe_ret; unfold view_good; split; [ids|]; split; [ids|]; split; [ids|];
  first [strings0 | strings1].

Theorem decode_view_safe is_cuse cf t rq :
  accepted rq -> t <> RForget ->
  safe (decode_view is_cuse cf t rq)
       (view_good cf (rq_mem rq) (u32_at 0 (rq_mem rq))).
Proof.
  intros A Nt.
  destruct t; try congruence. 
  all: go.
  all: finish.
Qed.

(** *** Ranges *)

(** The flags a decoded request shows fit the width of their type, and the
    length of the input of an IOCTL is the length it shows. *)
Definition view_ranged (v : view) : Prop :=
  match v with
  | VCreate _ _ f _ _ _ | VCuseInit _ f | VFsync _ _ f | VFsyncdir _ _ f | VOpen _ f _
  | VOpendir _ f _ | VPoll _ _ _ f | VSetlk _ _ _ _ _ f | VSetxattr _ _ f _ _
  | VWrite _ _ _ _ f _ _ => f < U32
  | VIoctl _ _ _ _ input n _ f => f < U32 /\ n = nlen input
  | VCopyFileRange _ _ _ _ _ _ _ f | VFuseInit _ _ f => f < U64
  | _ => True
  end.

Lemma init_flags_bound a b mem : N.lor (u32_at a mem) (N.shiftl (u32_at b mem) 32) < U64.
Proof.
  pose proof (u32_bound a mem) as A. pose proof (u32_bound b mem) as B.
  assert (S : N.shiftl (u32_at b mem) 32 = u32_at b mem * U32) by (rewrite N.shiftl_mul_pow2; reflexivity).
  assert (L : N.lor (u32_at a mem) (N.shiftl (u32_at b mem) 32) =
              u32_at a mem + N.shiftl (u32_at b mem) 32).
  { assert (Z : N.land (u32_at a mem) (N.shiftl (u32_at b mem) 32) = 0).
    { apply N.bits_inj; intros k; rewrite N.land_spec, N.bits_0.
      destruct (N.lt_ge_cases k 32) as [K|K].
      - rewrite N.shiftl_spec_low by exact K. apply andb_false_r.
      - assert (T : N.testbit (u32_at a mem) k = false); [|now rewrite T].
        destruct (N.eq_dec (u32_at a mem) 0) as [->|Z]; [apply N.bits_0|].
        apply N.bits_above_log2; change U32 with (2 ^ 32) in A; apply N.log2_lt_pow2 in A; lia. }
    rewrite <- N.lxor_lor by exact Z. symmetry. now apply N.add_nocarry_lxor. }
  rewrite L, S. change U64 with (U32 * U32). nia.
Qed.

Theorem decode_view_ranged is_cuse cf t rq v :
  accepted rq -> decode_view is_cuse cf t rq = Ret v -> view_ranged v.
Proof.
  intros A H.
  assert (G : t = RForget \/ safe (decode_view is_cuse cf t rq) view_ranged).
  { destruct t; try (left; reflexivity); right.
    all: go.
    all: apply safe_ret; cbn [view_ranged]; try exact I.
    all: try apply u32_bound; try apply u64_bound; try apply init_flags_bound; try reflexivity.
    all: try (match goal with |- u32_at ?o ?m < U64 => pose proof (u32_bound o m); unfold U32, U64 in *; lia end).
    all: split; [apply u32_bound|]. all: symmetry; assumption. }
  destruct G as [->|G].
  - cbn [decode_view] in H. destruct (ForgetRequest_try_from cf rq); try discriminate H.
    cbn [bind] in H. injection H as <-. exact I.
  - rewrite H in G. exact G.
Qed.

(** *** FORGET and BATCH_FORGET *)

(** The number of items a BATCH_FORGET message announces. *)
Definition batch_count (mem : bytes) : N := u32_at 40 mem.

Lemma mul_u32_small b n : n < 268435456 -> mul_u32 b n 16 = Ret (n * 16).
Proof.
  intros. unfold mul_u32, U32. destruct (N.ltb_spec (n * 16) 4294967296); [reflexivity|lia].
Qed.

Lemma forget_collect_nz fuel it :
  Forall (fun n => n <> 0) (map fst (forget_collect fuel it)).
Proof.
  revert it; induction fuel as [|f IH]; intros it; cbn [forget_collect]; [constructor|].
  destruct (forget_next it) as [[x|] it'] eqn:En; cbn [map]; constructor; auto.
  assert (NB : forall l x l', next_batch_item l = (Some x, l') -> fst x <> 0).
  { induction l as [|a l IHl]; cbn [next_batch_item]; intros y l'; [discriminate|].
    unfold NodeId_new. destruct (N.eqb_spec (fst a) 0); eauto.
    intros [= <- <-]. cbn. auto. }
  destruct it as [[o|]|l]; cbn [forget_next] in En.
  - unfold NodeId_new in En. destruct (N.eqb_spec (fst o) 0); [discriminate|].
    injection En as <- <-. cbn; auto.
  - discriminate.
  - destruct (next_batch_item l) as [o l'] eqn:Nb. injection En as -> <-. eauto.
Qed.

Theorem forget_view_safe is_cuse cf rq :
  accepted rq -> batch_count (rq_mem rq) < 268435456 ->
  safe (decode_view is_cuse cf RForget rq)
       (fun v => Forall (fun n => n <> 0) (view_node_ids v)).
Proof.
  intros A B. unfold batch_count in B.
  pose proof (accepted_fits rq A) as F.
  set (mem := rq_mem rq) in *; set (h := u32_at 0 mem) in *.
  assert (C0 : cursor h 40) by (unfold cursor; lia).
  cbn [decode_view]; repeat autounfold with ops.
  rewrite at_new by auto; fold mem; fold h; cbn [bind].
  repeat wp1.
  - change (40 + 0) with 40. rewrite mul_u32_small by auto. cbn [bind].
    rewrite bind_assoc. apply wp_next_bytes; [side|side|intros; cbn [bind]].
    assert (R : d_cast 8 (at_ mem h (40 + 8)) (40 + 8) (u32_at 40 mem * 16) =
                Ret (slice (40 + 8) (u32_at 40 mem * 16) mem)).
    { apply (d_cast_ok 8 (at_ mem h (40 + 8))); [now apply at_wf|reflexivity|assumption]. }
    cbn [d_consumed at_]. rewrite R. cbn [bind safe view_node_ids].
    apply forget_collect_nz.
  - cbn [safe view_node_ids]. apply forget_collect_nz.
Qed.

(** *** Wrong opcodes *)

Lemma decode_view_opcode is_cuse cf t rq :
  accepted rq -> ~ In (u32_at 4 (rq_mem rq)) (type_opcodes t) ->
  decode_view is_cuse cf t rq = Fail EOpcodeMismatch.
Proof.
  intros A N. pose proof (accepted_fits rq A) as F.
  set (mem := rq_mem rq) in *; set (h := u32_at 0 mem) in *.
  assert (C0 : cursor h 40) by (unfold cursor; lia).
  assert (Op : forall k, In k (type_opcodes t) -> (u32_at 4 mem =? k) = false)
    by (intros k Hk; apply N.eqb_neq; intros e; apply N; now rewrite e).
  destruct t; cbn [decode_view]; repeat autounfold with ops;
    rewrite at_new by auto; fold mem; fold h; cbn [bind];
    repeat reads;
    repeat match goal with
    | |- context [u32_at 4 mem =? ?k] => rewrite (Op k) by (cbn; auto); cbn [bind negb]
    end; repeat reads;
    repeat match goal with
    | |- context [u32_at 4 mem =? ?k] => rewrite (Op k) by (cbn; auto); cbn [bind negb]
    end; reflexivity.
Qed.

End Safety.
