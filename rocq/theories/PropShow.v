(** Theorems about what [Debug] prints of replies, notifications, listings and
    options: C61 of properties.jsonl. *)

From Coq Require Import String.
From Verif Require Import Base Kernel CoreModel DecodeModel OpsModel.
From Verif Require Import FlagsModel HostModel DebugModel DebugProofs PropFlags DebugRead PropDebug.
From Verif Require Import OptionsModel ReplyModel ListingModel ShowModel ShowProofs.
From Verif Require Import ReplySpec ReplyProofs PropListing.
From Coq Require Import List NArith ZArith Bool Lia ZifyBool ZifyNat ZifyN.
Import ListNotations.
Open Scope string_scope.
Open Scope list_scope.
Open Scope N_scope.

Local Notation wf := DebugProofs.wf.

(** ** Specification *)

(** What can be printed, and its [Debug]. *)
Inductive thing :=
| TAttr (r : fuse_attr) | TEntry (r : fuse_entry_out) | TStatfs (r : fuse_kstatfs)
| TFuseInit (r : fuse_init_out) | TCuseInit (r : CuseInitResponse) | TCreate (r : CreateResponse)
| TIoctl (r : IoctlResponse) | THeader (h : ResponseHeader) | TNotification (n : FuseNotification)
| TReaddirEntry (e : entry fuse_dirent) | TReaddirplusEntry (e : entry fuse_direntplus)
| TOptions (o : MountOptions) | TFreebsdOptions (o : FreebsdOptions).
Definition show (t : thing) : out dbg :=
  match t with
  | TAttr r => debug_node_attr r
  | TEntry r => debug_entry r
  | TStatfs r => Ret (debug_statfs r)
  | TFuseInit r => Ret (debug_fuse_init r)
  | TCuseInit r => Ret (debug_cuse_init r)
  | TCreate r => debug_create r
  | TIoctl r => Ret (debug_ioctl r)
  | THeader h => debug_response_header h
  | TNotification n => debug_notification n
  | TReaddirEntry e => debug_readdir_entry e
  | TReaddirplusEntry e => debug_readdirplus_entry e
  | TOptions o => Ret (debug_mount_options o)
  | TFreebsdOptions o => Ret (debug_freebsd_options o)
  end.

(** The name it has and the names of its parts, in the order of the text.  The
    entries of a READDIRPLUS listing call themselves [ReaddirEntry]. *)
Definition thing_title (t : thing) : string :=
  match t with
  | TAttr _ => "NodeAttr"
  | TEntry _ => "Entry"
  | TStatfs _ => "StatfsAttributes"
  | TFuseInit _ => "FuseInitResponse"
  | TCuseInit _ => "CuseInitResponse"
  | TCreate _ => "CreateResponse"
  | TIoctl _ => "IoctlResponse"
  | THeader _ => "ResponseHeader"
  | TNotification (NDelete _ _ _ _) => "Delete"
  | TNotification (NInvalidateEntry _ _ _) => "InvalidateEntry"
  | TNotification (NInvalidateInode _ _ _) => "InvalidateInode"
  | TNotification (NPoll _) => "Poll"
  | TReaddirEntry _ => "ReaddirEntry"
  | TReaddirplusEntry _ => "ReaddirEntry"
  | TOptions _ => "MountOptions"
  | TFreebsdOptions _ => "MountOptions"
  end.
Definition thing_labels (t : thing) : list string :=
  match t with
  | TAttr _ => ["node_id"; "mode"; "size"; "atime"; "mtime"; "ctime"; "link_count"; "user_id";
      "group_id"; "device_number"; "block_count"; "block_size"; "flags"]
  | TEntry _ => ["generation"; "attributes"; "cache_timeout"; "attribute_cache_timeout"]
  | TStatfs _ => ["block_count"; "block_size"; "blocks_available"; "blocks_free"; "fragment_size";
      "inode_count"; "inodes_free"; "max_filename_length"]
  | TFuseInit _ => ["max_readahead"; "flags"; "max_background"; "congestion_threshold"; "max_write";
      "time_granularity"]
  | TCuseInit r => match cir_device_name r with Some _ => ["device_name"] | None => [] end ++
      ["version"; "flags"; "max_read"; "max_write"; "device_number"]
  | TCreate _ => ["entry"; "handle"; "flags"]
  | TIoctl r => match ires_output r with
                | IoctlBytes _ => ["result"; "output"]
                | IoctlRetryOut _ _ => (if ires_set_result r then ["result"] else []) ++ ["retry"]
                end
  | THeader _ => ["request_id"; "response_len"; "error"]
  | TNotification (NDelete _ _ _ _) => ["parent_id"; "node_id"; "name"]
  | TNotification (NInvalidateEntry _ _ _) => ["parent_id"; "name"]
  | TNotification (NInvalidateInode _ _ _) => ["node_id"; "offset"; "size"]
  | TNotification (NPoll _) => ["poll_handle"]
  | TReaddirEntry _ => ["node_id"; "offset"; "file_type"; "name"]
  | TReaddirplusEntry _ => ["name"; "offset"; "entry"]
  | TOptions _ => ["allow_other"; "block_size"; "default_permissions"; "fuse_device_fd"; "group_id";
      "max_read"; "mount_source"; "mount_type"; "root_mode"; "subtype"; "user_id"]
  | TFreebsdOptions _ => ["default_permissions"; "subtype"]
  end.

(** Things with a timeout in them can have the micro sign in their text. *)
Definition timed (t : thing) : bool :=
  match t with TEntry _ | TCreate _ | TReaddirplusEntry _ => true | _ => false end.
(** Characters in the text: ASCII without control characters; in durations
    also others. *)
Definition text_char (t : thing) (b : byte) : Prop :=
  visible b \/ timed t = true /\ 128 <= Byte.to_N b.

Definition same_text (d1 d2 : dbg) : Prop := compact d1 = compact d2 \/ pretty d1 = pretty d2.

(** Attributes and entries a server can make with the functions of the API. *)
Definition made_attr (a : fuse_attr) : Prop := exists node ops,
  0 < node < U64 /\ Forall attr_op_ok ops /\ a = attr_calls ops (NodeAttr_new node).
Definition made_entry (e : fuse_entry_out) : Prop := exists node aops ops,
  0 < node < U64 /\ Forall attr_op_ok aops /\ Forall entry_op_ok ops /\
  e = entry_calls ops (Entry_new (attr_calls aops (NodeAttr_new node))).
Inductive made_create : CreateResponse -> Prop :=
| mc_new e : made_entry e -> made_create (CreateResponse_new e)
| mc_entry r ops : made_create r -> Forall entry_op_ok ops ->
    made_create (CreateResponse_entry_mut (entry_calls ops) r)
| mc_handle r h : made_create r -> h < U64 -> made_create (CreateResponse_set_handle h r)
| mc_flags r f : made_create r -> f < U32 -> made_create (CreateResponse_set_flags f r).
Definition made_init (r : fuse_init_out) : Prop := exists ops,
  Forall init_op_ok ops /\ r = fold_left (fun r o => init_call o r) ops FuseInit_new.
Definition made_cuse_init (r : CuseInitResponse) : Prop := exists ops,
  Forall cuse_init_op_ok ops /\
  cir_raw r = fold_left (fun r o => cuse_init_call o r) ops cuse_init_out_new.
Inductive made_ioctl : IoctlResponse -> Prop :=
| mi_new output : made_ioctl (IoctlResponse_new output)
| mi_retry retry : made_ioctl (IoctlResponse_new_retry retry)
| mi_result r z : made_ioctl r -> made_ioctl (IoctlResponse_set_result z r).
Inductive made_header : ResponseHeader -> Prop :=
| mh_new id : id <> 0 -> made_header (ResponseHeader_new id)
| mh_notification : made_header ResponseHeader_new_notification
| mh_len h n : made_header h -> n <> 0 -> made_header (ResponseHeader_set_response_len n h)
| mh_error h e : made_header h -> e <> 0%Z -> made_header (ResponseHeader_set_error e h).
Inductive made_notification : FuseNotification -> Prop :=
| mn_delete parent child name : parent <> 0 -> child <> 0 ->
    made_notification (Delete_new parent child name)
| mn_entry parent name : parent <> 0 -> made_notification (InvalidateEntry_new parent name)
| mn_inode node : node <> 0 -> made_notification (InvalidateInode_new node)
| mn_offset n o : made_notification n -> made_notification (InvalidateInode_set_offset o n)
| mn_size n s : made_notification n -> made_notification (InvalidateInode_set_size s n)
| mn_poll kh : made_notification (NPoll kh).

(** ** Lemmas *)

Lemma show_struct t d : show t = Ret d -> exists fields,
  d = debug_struct (thing_title t) fields /\ map fst fields = thing_labels t.
Proof.
  destruct t; cbn [show]; intros H;
    try (apply ret_inj in H as <-; eexists; split; reflexivity).
  - unfold debug_node_attr in H. apply bind_ret in H as (? & _ & H). apply ret_inj in H as <-.
    eexists; split; reflexivity.
  - unfold debug_entry in H. apply bind_ret in H as (? & _ & H). apply ret_inj in H as <-.
    eexists; split; reflexivity.
  - apply ret_inj in H as <-. unfold debug_cuse_init. cbn [thing_title thing_labels].
    eexists; split; [reflexivity|]. now destruct (cir_device_name r).
  - unfold debug_create in H. apply bind_ret in H as (? & _ & H). apply ret_inj in H as <-.
    eexists; split; reflexivity.
  - apply ret_inj in H as <-. unfold debug_ioctl. cbn [thing_title thing_labels].
    eexists; split; [reflexivity|]. destruct (ires_output r); [reflexivity|]. now destruct (ires_set_result r).
  - unfold debug_response_header in H. apply bind_ret in H as (? & _ & H). apply ret_inj in H as <-.
    eexists; split; reflexivity.
  - destruct n; cbn [debug_notification] in H; repeat (apply bind_ret in H as (? & _ & H));
      apply ret_inj in H as <-; eexists; split; reflexivity.
  - unfold debug_readdir_entry in H. repeat (apply bind_ret in H as (? & _ & H)).
    apply ret_inj in H as <-. eexists; split; reflexivity.
  - unfold debug_readdirplus_entry in H. repeat (apply bind_ret in H as (? & _ & H)).
    apply ret_inj in H as <-. eexists; split; reflexivity.
Qed.

Lemma show_wf_ascii {Ch : Charset} t d : timed t = false -> show t = Ret d -> wf d.
Proof.
  destruct t; cbn [show timed]; intros T H; try discriminate T;
    try (apply ret_inj in H as <-).
  - exact (attr_wf _ _ H).
  - apply statfs_wf.
  - apply fuse_init_wf.
  - apply cuse_init_wf.
  - apply ioctl_wf.
  - exact (header_wf _ _ H).
  - exact (notification_wf _ _ H).
  - exact (readdir_entry_wf _ _ H).
  - apply mount_options_ok.
  - apply freebsd_options_ok.
Qed.

(** The characters of a text with durations. *)
Definition utf8 : Charset := true.
Definition only_ascii : Charset := false.
Lemma show_wf_utf8 t d : show t = Ret d -> @DebugProofs.wf utf8 d.
Proof.
  intros H. destruct (timed t) eqn:T; [|now apply (@show_wf_ascii utf8) with t].
  destruct t; try discriminate T; cbn [show] in H.
  - exact (@entry_wf utf8 _ _ eq_refl H).
  - exact (@create_wf utf8 _ _ eq_refl H).
  - exact (@readdirplus_entry_wf utf8 _ _ eq_refl H).
Qed.
Lemma same_flat d1 d2 : @DebugProofs.wf utf8 d1 -> @DebugProofs.wf utf8 d2 ->
  same_text d1 d2 -> flat d1 = flat d2.
Proof.
  intros W1 W2 [H|H]; [exact (@compact_inj utf8 _ _ W1 W2 H)|exact (@pretty_inj utf8 _ _ W1 W2 H)].
Qed.

Lemma as_i64_inj a b : a < U64 -> b < U64 -> as_i64 a = as_i64 b -> a = b.
Proof.
  unfold as_i64, U64, I64. intros A B H.
  destruct (N.ltb_spec a 9223372036854775808), (N.ltb_spec b 9223372036854775808); lia.
Qed.
Lemma timespec_inj s1 n1 s2 n2 : s1 < U64 -> s2 < U64 ->
  UnixTime_from_timespec s1 n1 = UnixTime_from_timespec s2 n2 -> s1 = s2 /\ n1 = n2.
Proof. intros A B [= H ->]. split; [now apply as_i64_inj|reflexivity]. Qed.

Lemma attr_new_id node ops : fa_ino (attr_calls ops (NodeAttr_new node)) = node.
Proof.
  rewrite (attr_calls_field fa_ino (fun _ => None)) by (destruct o; reflexivity).
  induction ops; cbn; auto.
Qed.
Lemma made_attr_fits a : made_attr a -> attr_fits a /\ fa_ino a <> 0.
Proof.
  intros (node & ops & N & O & ->). split.
  - apply attr_calls_fits; auto. apply attr_new_fits. lia.
  - rewrite attr_new_id. lia.
Qed.
Lemma shown_attr a1 a2 :
  attr_fits a1 -> attr_fits a2 -> fa_ino a1 <> 0 -> fa_ino a2 <> 0 ->
  attr_shown a1 = attr_shown a2 -> a1 = a2.
Proof.
  intros F1 F2 I1 I2 H. unfold attr_shown in H.
  unfold NodeAttr_node_id, NodeId_new_unchecked in H.
  destruct (N.eqb_spec (fa_ino a1) 0); [contradiction|]. destruct (N.eqb_spec (fa_ino a2) 0); [contradiction|].
  unfold attr_fits in *. destruct a1, a2; cbn in *.
  injection H as -> -> -> A1 A2 M1 M2 C1 C2 -> -> -> -> -> -> ->. subst.
  f_equal; apply as_i64_inj; tauto.
Qed.

Definition timeouts_fit (e : fuse_entry_out) : Prop :=
  eo_entry_valid e <= i64_max /\ eo_attr_valid e <= i64_max /\
  eo_entry_valid_nsec e <= MAX_NANOS /\ eo_attr_valid_nsec e <= MAX_NANOS.
Definition good_entry (e : fuse_entry_out) : Prop :=
  attr_fits (eo_attr e) /\ fa_ino (eo_attr e) <> 0 /\ eo_nodeid e = fa_ino (eo_attr e) /\ timeouts_fit e.
Lemma attr_call_id o a : fa_ino (attr_call o a) = fa_ino a.
Proof. destruct o; reflexivity. Qed.
Lemma entry_call_good o e : entry_op_ok o -> good_entry e -> good_entry (entry_call o e).
Proof.
  unfold good_entry, timeouts_fit. intros O (F & I & N & T1 & T2 & T3 & T4). destruct o as [v|o|d|d].
  - cbn. tauto.
  - cbn [entry_call Entry_set_attributes eo_attr eo_nodeid eo_entry_valid eo_attr_valid eo_entry_valid_nsec eo_attr_valid_nsec].
    rewrite attr_call_id. pose proof (attr_call_fits o _ O F). tauto.
  - cbn. destruct O as [O1 O2]. unfold split_duration, MAX_NANOS.
    refine (conj F (conj I (conj N _))). unfold MAX_NANOS in *.
    destruct (N.leb_spec (fst d) i64_max); cbn [fst snd]; repeat apply conj; unfold i64_max in *; lia.
  - cbn. destruct O as [O1 O2]. unfold split_duration, MAX_NANOS.
    refine (conj F (conj I (conj N _))). unfold MAX_NANOS in *.
    destruct (N.leb_spec (fst d) i64_max); cbn [fst snd]; repeat apply conj; unfold i64_max in *; lia.
Qed.
Lemma entry_calls_good ops e : Forall entry_op_ok ops -> good_entry e -> good_entry (entry_calls ops e).
Proof. apply (calls_inv entry_call). apply entry_call_good. Qed.
Lemma made_entry_good e : made_entry e -> good_entry e.
Proof.
  intros (node & aops & ops & N & A & O & ->). apply entry_calls_good; [exact O|].
  destruct (made_attr_fits (attr_calls aops (NodeAttr_new node))) as [F I].
  { exists node, aops. auto. }
  refine (conj F (conj I (conj eq_refl _))). unfold timeouts_fit. cbn. repeat apply conj; discriminate.
Qed.
Lemma shown_entry e1 e2 : good_entry e1 -> good_entry e2 -> entry_shown e1 = entry_shown e2 -> e1 = e2.
Proof.
  unfold good_entry, timeouts_fit, entry_shown, Entry_generation, Entry_attributes,
    Entry_cache_timeout, Entry_attribute_cache_timeout, new_duration.
  intros (F1 & I1 & N1 & T11 & T12 & T13 & T14) (F2 & I2 & N2 & T21 & T22 & T23 & T24) H.
  rewrite !N.min_l in H by assumption.
  assert (G : forall B (a a' : N) (b b' : B) (c c' d d' : N * N),
    (a, b, c, d) = (a', b', c', d') -> a = a' /\ b = b' /\ c = c' /\ d = d').
  { intros. repeat apply conj; congruence. }
  apply G in H as (H1 & H2 & H3 & H4). apply shown_attr in H2; auto.
  destruct e1, e2; cbn in *. congruence.
Qed.

Lemma made_create_good r : made_create r -> good_entry (cr_entry r) /\ oo_open_flags (cr_open_out r) < U32.
Proof.
  induction 1 as [e M|r ops _ [IH1 IH2] O|r h _ [IH1 IH2] _|r f _ [IH1 IH2] F]; cbn.
  - split; [now apply made_entry_good|reflexivity].
  - split; [now apply entry_calls_good|exact IH2].
  - now split.
  - now split.
Qed.

Definition good_init (r : fuse_init_out) : Prop :=
  io_flags r < U32 /\ io_flags2 r < U32 /\ io_max_pages r = 0 /\ io_map_alignment r = 0.
Lemma made_init_good r : made_init r -> good_init r.
Proof.
  intros (ops & O & ->). apply (calls_inv init_call init_op_ok good_init); auto.
  - intros o a Ho (H1 & H2 & H3 & H4). unfold good_init. destruct o; cbn; try tauto.
    refine (conj _ (conj _ (conj H3 H4))).
    + change u32_max with (N.ones 32). rewrite N.land_ones. apply N.mod_lt. discriminate.
    + unfold wrap32. apply N.mod_lt. discriminate.
  - repeat apply conj; reflexivity.
Qed.
Lemma init_flags_parts r : good_init r ->
  FuseInit_flags r < U64 /\ io_flags r = FuseInit_flags r mod U32 /\ io_flags2 r = FuseInit_flags r / U32.
Proof.
  intros (H1 & H2 & _). unfold FuseInit_flags.
  assert (E : N.lor (io_flags r) (N.shiftl (io_flags2 r) 32) = io_flags r + io_flags2 r * U32).
  { rewrite N.shiftl_mul_pow2. change (2 ^ 32) with U32. 
    assert (Z : N.land (io_flags r) (io_flags2 r * U32) = 0);
      [|rewrite N.add_nocarry_lxor by exact Z; symmetry; now apply N.lxor_lor].
    apply N.bits_inj. intros i. rewrite N.land_spec, N.bits_0. change U32 with (2 ^ 32) in *.
    destruct (N.ltb_spec i 32) as [L|L].
    - rewrite N.mul_pow2_bits_low by exact L. apply andb_false_r.
    - destruct (N.eq_dec (io_flags r) 0) as [->|Z]; [now rewrite N.bits_0|].
      rewrite N.bits_above_log2; [reflexivity|]. apply N.log2_lt_pow2 in H1; lia. }
  rewrite E. unfold U32, U64 in *. repeat apply conj; [lia| |].
  - rewrite N.mod_add by discriminate. symmetry. now apply N.mod_small.
  - rewrite N.div_add by discriminate. rewrite N.div_small by exact H1. reflexivity.
Qed.
Lemma made_cuse_flags r : made_cuse_init r -> CuseInit_flags (cir_raw r) < U32.
Proof.
  intros (ops & O & E). unfold CuseInit_flags. rewrite E.
  apply (calls_inv cuse_init_call cuse_init_op_ok (fun r => co_flags r < U32)); auto; [|reflexivity].
  intros o a Ho H. destruct o; cbn in *; assumption.
Qed.

Definition good_ioctl (r : IoctlResponse) : Prop :=
  (ires_set_result r = false -> ioo_result (ires_raw r) = 0%Z) /\
  match ires_output r with
  | IoctlBytes _ => ioo_flags (ires_raw r) = 0 /\ ioo_in_iovs (ires_raw r) = 0 /\ ioo_out_iovs (ires_raw r) = 0
  | IoctlRetryOut input output =>
    ioo_flags (ires_raw r) = FUSE_IOCTL_RETRY /\ ioo_in_iovs (ires_raw r) = wrap32 (nlen input) /\
    ioo_out_iovs (ires_raw r) = wrap32 (nlen output)
  end.
Lemma made_ioctl_good r : made_ioctl r -> good_ioctl r.
Proof.
  unfold good_ioctl. induction 1 as [o|[i o]|r z _ [_ IH]]; cbn.
  - repeat apply conj; reflexivity.
  - repeat apply conj; reflexivity.
  - split; [discriminate|]. exact IH.
Qed.

(** The numbers a header has are those its functions took. *)
Lemma made_header_good h : made_header h -> rh_len h <> 0.
Proof. induction 1; cbn; auto; discriminate. Qed.

Definition good_notification (n : FuseNotification) : Prop :=
  match n with
  | NDelete parent child len name => parent <> 0 /\ child <> 0 /\ len = wrap32 (nlen name)
  | NInvalidateEntry parent len name => parent <> 0 /\ len = wrap32 (nlen name)
  | NInvalidateInode node _ _ => node <> 0
  | NPoll _ => True
  end.
Lemma made_notification_good n : made_notification n -> good_notification n.
Proof.
  induction 1 as [| | |n o _ IH|n s _ IH|]; cbn; auto.
  - destruct n; exact IH.
  - destruct n; exact IH.
Qed.

Ltac struct_eq H := apply struct_inj in H as [_ H]; cbn [map snd] in H; shows H.

Local Existing Instance utf8.

(** ** Theorems *)

(** What is printed is a type name, then names and values in a fixed order;
    nothing in it - no name, no device, no mount source - puts a control
    character into the text, and on one line it stays on one line. *)
Theorem C61_shape t d :
  show t = Ret d ->
  Forall (text_char t) (compact d) /\ Forall (fun b => text_char t b \/ b = x0a) (pretty d) /\
  (exists values, List.length values = List.length (thing_labels t) /\
     compact d = one_line (txt (thing_title t)) (map txt (thing_labels t)) values) /\
  (exists values, List.length values = List.length (thing_labels t) /\
     pretty d = many_lines (txt (thing_title t)) (map txt (thing_labels t)) values).
Proof.
  intros H. pose proof (show_wf_utf8 t d H) as W.
  assert (V : Forall (text_char t) (compact d) /\ Forall (fun b => text_char t b \/ b = x0a) (pretty d)).
  { destruct (timed t) eqn:T.
    - rewrite compact_layout, pretty_layout by exact W. split.
      + eapply Forall_impl; [|exact (layout_printable d W)].
        intros b [P|[_ P]]; [left; exact P|right; split; assumption].
      + eapply Forall_impl; [|exact (layout_lines d W (Some 0%nat))].
        intros b [[P|[_ P]]|P]; [left; left; exact P|left; right; split; assumption|right; exact P].
    - pose proof (@show_wf_ascii only_ascii t d T H) as A.
      rewrite compact_layout, pretty_layout by exact W. split.
      + eapply Forall_impl; [|exact (@layout_printable only_ascii d A)].
        intros b [P|[P _]]; [left; exact P|discriminate P].
      + eapply Forall_impl; [|exact (@layout_lines only_ascii d A (Some 0%nat))].
        intros b [[P|[P _]]|P]; [left; left; exact P|discriminate P|right; exact P]. }
  destruct V as [V1 V2]. split; [exact V1|]. split; [exact V2|].
  destruct (show_struct t d H) as (fields & -> & El).
  destruct fields as [|f fields].
  { exfalso. destruct W as (_ & W & _). apply W. reflexivity. }
  rewrite <- El, !map_map, compact_struct, pretty_struct by exact W.
  split; eexists; (split; [|reflexivity]); rewrite !map_length; reflexivity.
Qed.

(** Attributes a server made can be printed, and two that print the same are
    the same: the text shows all that is sent. *)
Theorem C61_attr a1 a2 :
  made_attr a1 -> made_attr a2 -> exists d1 d2,
  show (TAttr a1) = Ret d1 /\ show (TAttr a2) = Ret d2 /\ (same_text d1 d2 -> a1 = a2).
Proof.
  intros M1 M2. apply made_attr_fits in M1 as [F1 I1], M2 as [F2 I2].
  assert (P : forall a, fa_ino a <> 0 -> exists d, debug_node_attr a = Ret d).
  { intros a I. unfold debug_node_attr, NodeAttr_node_id, NodeId_new_unchecked.
    destruct (N.eqb_spec (fa_ino a) 0); [contradiction|]. eexists. reflexivity. }
  destruct (P a1 I1) as [d1 D1], (P a2 I2) as [d2 D2]. exists d1, d2. cbn [show].
  split; [exact D1|]. split; [exact D2|]. intros S.
  apply same_flat in S; [|exact (attr_wf _ _ D1)|exact (attr_wf _ _ D2)].
  apply shown_attr; auto. apply (attr_readback _ _ _ _ D1 D2); auto.
  - unfold attr_fits, NodeAttr_flags, U32 in *. lia.
  - unfold attr_fits, NodeAttr_flags, U32 in *. lia.
Qed.

Lemma entry_prints e : fa_ino (eo_attr e) <> 0 -> exists d, debug_entry e = Ret d.
Proof.
  intros I. unfold debug_entry, Entry_attributes, debug_node_attr, NodeAttr_node_id, NodeId_new_unchecked.
  destruct (N.eqb_spec (fa_ino (eo_attr e)) 0); [contradiction|]. eexists. reflexivity.
Qed.
Lemma good_flags e : good_entry e -> NodeAttr_flags (Entry_attributes e) < U32.
Proof. intros (F & _). unfold attr_fits, NodeAttr_flags, Entry_attributes, U32 in *. lia. Qed.
Lemma good_entry_eq e1 e2 d1 d2 :
  good_entry e1 -> good_entry e2 -> debug_entry e1 = Ret d1 -> debug_entry e2 = Ret d2 ->
  flat d1 = flat d2 -> e1 = e2.
Proof.
  intros G1 G2 D1 D2 S. apply shown_entry; auto.
  apply (entry_readback _ _ _ _ eq_refl D1 D2); auto using good_flags.
Qed.

(** The same of entries, if their attributes are changed by calls of setters
    (see [C61_entry_refuted]). *)
Theorem C61_entry e1 e2 :
  made_entry e1 -> made_entry e2 -> exists d1 d2,
  show (TEntry e1) = Ret d1 /\ show (TEntry e2) = Ret d2 /\ (same_text d1 d2 -> e1 = e2).
Proof.
  intros M1 M2. apply made_entry_good in M1 as G1, M2 as G2.
  destruct (entry_prints e1) as [d1 D1]; [apply G1|]. destruct (entry_prints e2) as [d2 D2]; [apply G2|].
  exists d1, d2. cbn [show]. split; [exact D1|]. split; [exact D2|]. intros S.
  apply same_flat in S; [|exact (entry_wf _ _ eq_refl D1)|exact (entry_wf _ _ eq_refl D2)].
  now apply (good_entry_eq _ _ _ _ G1 G2 D1 D2).
Qed.

(** The same of the replies to CREATE. *)
Theorem C61_create r1 r2 :
  made_create r1 -> made_create r2 -> exists d1 d2,
  show (TCreate r1) = Ret d1 /\ show (TCreate r2) = Ret d2 /\ (same_text d1 d2 -> r1 = r2).
Proof.
  intros M1 M2. apply made_create_good in M1 as [G1 F1], M2 as [G2 F2].
  destruct (entry_prints (cr_entry r1)) as [e1 E1]; [apply G1|].
  destruct (entry_prints (cr_entry r2)) as [e2 E2]; [apply G2|].
  assert (D1 : exists d, debug_create r1 = Ret d)
    by (unfold debug_create, CreateResponse_entry; rewrite E1; eexists; reflexivity).
  assert (D2 : exists d, debug_create r2 = Ret d)
    by (unfold debug_create, CreateResponse_entry; rewrite E2; eexists; reflexivity).
  destruct D1 as [d1 D1], D2 as [d2 D2]. exists d1, d2. cbn [show].
  split; [exact D1|]. split; [exact D2|]. intros S.
  apply same_flat in S; [|exact (create_wf _ _ eq_refl D1)|exact (create_wf _ _ eq_refl D2)].
  unfold debug_create, CreateResponse_entry in D1, D2. rewrite E1 in D1. rewrite E2 in D2. cbn [bind] in D1, D2.
  apply ret_inj in D1 as <-. apply ret_inj in D2 as <-.
  unfold CreateResponse_flags, CreateResponse_handle in S.
  struct_eq S. apply (good_entry_eq _ _ _ _ G1 G2 E1 E2) in G.
  destruct r1 as [x1 [h1 f1]], r2 as [x2 [h2 f2]]. cbn in *. congruence.
Qed.

(** The same of the replies to STATFS and of CUSE_INIT. *)
Theorem C61_statfs r1 r2 : same_text (debug_statfs r1) (debug_statfs r2) -> r1 = r2.
Proof. intros S. apply same_flat in S; [|exact (statfs_wf r1)|exact (statfs_wf r2)]. now apply statfs_inj. Qed.
Theorem C61_cuse_init r1 r2 :
  made_cuse_init r1 -> made_cuse_init r2 ->
  same_text (debug_cuse_init r1) (debug_cuse_init r2) -> r1 = r2.
Proof.
  intros M1 M2 S. apply same_flat in S; [|exact (cuse_init_wf r1)|exact (cuse_init_wf r2)].
  apply cuse_init_inj in S; auto using made_cuse_flags.
Qed.

(** Replies to FUSE_INIT that print the same differ at most in the version,
    which is not printed (see [C61_init_refuted]). *)
Theorem C61_init r1 r2 v :
  made_init r1 -> made_init r2 -> same_text (debug_fuse_init r1) (debug_fuse_init r2) ->
  FuseInit_set_version v r1 = FuseInit_set_version v r2.
Proof.
  intros M1 M2 S. apply made_init_good in M1 as G1, M2 as G2.
  destruct (init_flags_parts r1 G1) as (A1 & B1 & C1). destruct (init_flags_parts r2 G2) as (A2 & B2 & C2).
  apply same_flat in S; [|exact (fuse_init_wf r1)|exact (fuse_init_wf r2)].
  struct_eq S. destruct G1 as (_ & _ & P1 & Q1), G2 as (_ & _ & P2 & Q2).
  unfold FuseInit_max_readahead, FuseInit_max_background, FuseInit_congestion_threshold,
    FuseInit_max_write, FuseInit_time_granularity in *.
  unfold FuseInit_set_version. congruence.
Qed.

Lemma labels_inj n1 n2 f1 f2 :
  flat (debug_struct n1 f1) = flat (debug_struct n2 f2) -> map fst f1 = map fst f2.
Proof.
  rewrite !flat_struct. intros H. apply node_inj in H as [_ H].
  apply (f_equal (map fst)) in H. rewrite !map_map in H. cbn [fst] in H.
  revert f2 H. induction f1 as [|a f1 IH]; intros [|b f2] H; cbn [map] in *;
    try discriminate H; [reflexivity|].
  apply cons_inj in H as [H1 H2]. apply txt_inj in H1. rewrite H1. f_equal. now apply IH.
Qed.

(** Replies to IOCTL that print the same send the same. *)
Theorem C61_ioctl r1 r2 :
  made_ioctl r1 -> made_ioctl r2 -> same_text (debug_ioctl r1) (debug_ioctl r2) ->
  ires_raw r1 = ires_raw r2 /\ ires_output r1 = ires_output r2.
Proof.
  intros M1 M2 S. apply made_ioctl_good in M1, M2.
  apply same_flat in S; [|exact (ioctl_wf r1)|exact (ioctl_wf r2)].
  destruct r1 as [[z1 f1 a1 b1] o1 s1], r2 as [[z2 f2 a2 b2] o2 s2].
  unfold good_ioctl in M1, M2. unfold debug_ioctl in S. cbn [ires_raw ires_output ires_set_result
    ioo_result ioo_flags ioo_in_iovs ioo_out_iovs] in *.
  destruct M1 as [Z1 M1], M2 as [Z2 M2].
  destruct o1 as [y1|i1 y1], o2 as [y2|i2 y2]; [|exfalso|exfalso|].
  - struct_eq S. intuition congruence.
  - apply labels_inj in S. destruct s2; discriminate S.
  - apply labels_inj in S. destruct s1; discriminate S.
  - destruct s1, s2; cbn [app] in S; try (exfalso; apply labels_inj in S; discriminate S).
    + struct_eq S. destruct G0. intuition congruence.
    + struct_eq S. destruct G. rewrite Z1, Z2 by reflexivity. intuition congruence.
Qed.

(** The result of an IOCTL reply reads back as the last one set, 0 if none
    was, and setting it changes nothing else that is sent. *)
Theorem C61_ioctl_result first results :
  (exists output, first = IoctlResponse_new output) \/ (exists retry, first = IoctlResponse_new_retry retry) ->
  let r := fold_left (fun r z => IoctlResponse_set_result z r) results first in
  IoctlResponse_result r = last results 0%Z /\ ires_output r = ires_output first /\
  ioo_flags (ires_raw r) = ioo_flags (ires_raw first).
Proof.
  intros H. assert (Z : IoctlResponse_result first = 0%Z) by (destruct H as [[? ->]|[? ->]]; reflexivity).
  cbv zeta. rewrite <- Z. clear H Z. revert first.
  induction results as [|z l IH]; intros first; [repeat split|]. cbn [fold_left].
  destruct (IH (IoctlResponse_set_result z first)) as (A & B & C). rewrite A, B, C.
  split; [|split; reflexivity]. destruct l as [|y l]; [reflexivity|]. cbn [last].
  clear. revert y. induction l as [|x l IH]; intros y; [reflexivity|]. apply IH.
Qed.

(** Headers of responses can be printed and are what they print. *)
Theorem C61_header h1 h2 :
  made_header h1 -> made_header h2 -> exists d1 d2,
  show (THeader h1) = Ret d1 /\ show (THeader h2) = Ret d2 /\ (same_text d1 d2 -> h1 = h2).
Proof.
  intros M1 M2. apply made_header_good in M1, M2. cbn [show].
  assert (P : forall h, rh_len h <> 0 -> exists d, debug_response_header h = Ret d /\ wf d /\
    d = debug_struct "ResponseHeader"
     [("request_id", debug_option debug_int (ResponseHeader_request_id h));
      ("response_len", debug_int (rh_len h));
      ("error", debug_option debug_sint (ResponseHeader_error h))]).
  { intros h L. unfold debug_response_header, ResponseHeader_response_len.
    destruct (N.eqb_spec (rh_len h) 0); [contradiction|]. eexists. split; [reflexivity|]. split; [|reflexivity].
    apply (header_wf h). unfold debug_response_header, ResponseHeader_response_len.
    destruct (N.eqb_spec (rh_len h) 0); [contradiction|]. reflexivity. }
  destruct (P h1 M1) as (d1 & D1 & W1 & E1), (P h2 M2) as (d2 & D2 & W2 & E2).
  exists d1, d2. split; [exact D1|]. split; [exact D2|]. intros S. apply same_flat in S; auto.
  rewrite E1, E2 in S. struct_eq S.
  destruct h1 as [l1 z1 u1], h2 as [l2 z2 u2].
  unfold ResponseHeader_request_id, ResponseHeader_error in *. cbn [rh_len rh_error rh_unique] in *.
  destruct (N.eqb_spec u1 0), (N.eqb_spec u2 0); try discriminate G;
  destruct (Z.eqb_spec z1 0), (Z.eqb_spec z2 0); try discriminate G1; congruence.
Qed.

(** What the functions of a header set is what its accessors give. *)
Theorem C61_header_values id n e :
  id <> 0 -> n <> 0 -> e <> 0%Z ->
  let h := ResponseHeader_new id in
  let v := ResponseHeader_new_notification in
  ResponseHeader_request_id h = Some id /\ ResponseHeader_request_id v = None /\
  ResponseHeader_response_len h = Ret 16 /\ ResponseHeader_response_len v = Ret 16 /\
  ResponseHeader_error h = None /\ ResponseHeader_error v = None /\
  forall x, let s := ResponseHeader_set_response_len n x in let f := ResponseHeader_set_error e x in
    ResponseHeader_response_len s = Ret n /\ ResponseHeader_error f = Some e /\
    ResponseHeader_request_id s = ResponseHeader_request_id x /\
    ResponseHeader_request_id f = ResponseHeader_request_id x /\
    ResponseHeader_error s = ResponseHeader_error x /\
    ResponseHeader_response_len f = ResponseHeader_response_len x.
Proof.
  intros I L Z. cbv zeta. unfold ResponseHeader_request_id, ResponseHeader_response_len,
    ResponseHeader_error. cbn.
  destruct (N.eqb_spec id 0); [contradiction|]. destruct (N.eqb_spec n 0); [contradiction|].
  destruct (Z.eqb_spec e 0); [contradiction|]. repeat apply conj; try reflexivity.
  intros x. repeat apply conj; reflexivity.
Qed.

(** Notifications can be printed and are what they print. *)
Theorem C61_notification n1 n2 :
  made_notification n1 -> made_notification n2 -> exists d1 d2,
  show (TNotification n1) = Ret d1 /\ show (TNotification n2) = Ret d2 /\
  (same_text d1 d2 -> n1 = n2).
Proof.
  intros M1 M2. apply made_notification_good in M1, M2. cbn [show].
  assert (P : forall n, good_notification n -> exists d, debug_notification n = Ret d).
  { intros n. unfold debug_notification, NodeId_new_unchecked.
    destruct n as [p c l s|p l s|i o l|k]; cbn [good_notification]; intros G.
    - destruct (N.eqb_spec p 0), (N.eqb_spec c 0); try tauto. eexists; reflexivity.
    - destruct (N.eqb_spec p 0); try tauto. eexists; reflexivity.
    - destruct (N.eqb_spec i 0); try tauto. eexists; reflexivity.
    - eexists; reflexivity. }
  destruct (P n1 M1) as (d1 & D1), (P n2 M2) as (d2 & D2).
  exists d1, d2. split; [exact D1|]. split; [exact D2|]. intros S.
  apply same_flat in S; [|exact (notification_wf _ _ D1)|exact (notification_wf _ _ D2)].
  unfold debug_notification, NodeId_new_unchecked in D1, D2.
  destruct n1 as [p1 c1 l1 s1|p1 l1 s1|i1 o1 l1|k1], n2 as [p2 c2 l2 s2|p2 l2 s2|i2 o2 l2|k2];
    cbn [good_notification] in *;
    repeat match goal with
    | H : context [if ?x =? 0 then _ else _] |- _ => destruct (N.eqb_spec x 0); [tauto|]
    end; cbn [bind] in D1, D2; apply ret_inj in D1 as <-; apply ret_inj in D2 as <-;
    try (exfalso; apply struct_inj in S as [S _]; apply txt_inj in S; discriminate S);
    struct_eq S; intuition congruence.
Qed.

(** The methods of notifications return what the notification was made of. *)
Theorem C61_notification_values parent node name off len kh :
  parent <> 0 -> node <> 0 ->
  let del := Delete_new parent node name in
  let ent := InvalidateEntry_new parent name in
  let ino := InvalidateInode_set_size len (InvalidateInode_set_offset off (InvalidateInode_new node)) in
  notification_parent_id del = Some (Ret parent) /\ notification_node_id del = Some (Ret node) /\
  notification_name del = Some name /\
  notification_parent_id ent = Some (Ret parent) /\ notification_name ent = Some name /\
  notification_node_id ino = Some (Ret node) /\
  notification_offset ino = Some match off with
    | Some o => Z.min (Z.of_N o) (2 ^ 63 - 1) | None => -1 end%Z /\
  notification_size ino = Some match len with
    | Some n => Z.min (Z.of_N n) (2 ^ 63 - 1) | None => 0 end%Z /\
  notification_node_id (InvalidateInode_new node) = Some (Ret node) /\
  notification_offset (InvalidateInode_new node) = Some 0%Z /\
  notification_size (InvalidateInode_new node) = Some 0%Z /\
  notification_poll_handle (NPoll kh) = Some kh.
Proof.
  intros P Q. cbv zeta. unfold Delete_new, InvalidateEntry_new, InvalidateInode_new.
  cbn [InvalidateInode_set_size InvalidateInode_set_offset notification_parent_id
       notification_node_id notification_name notification_offset notification_size
       notification_poll_handle].
  unfold NodeId_new_unchecked, InvalidateInode_off, InvalidateInode_len, try_into_i64_or_max, i64_max.
  destruct (N.eqb_spec parent 0), (N.eqb_spec node 0); try contradiction.
  split; [reflexivity|]. split; [reflexivity|]. split; [reflexivity|].
  split; [reflexivity|]. split; [reflexivity|]. split; [reflexivity|].
  split.
  { f_equal. destruct off as [o|]; [|reflexivity]. destruct (N.leb_spec o 9223372036854775807); lia. }
  split.
  { f_equal. destruct len as [o|]; [|reflexivity]. destruct (N.leb_spec o 9223372036854775807); lia. }
  repeat apply conj; reflexivity.
Qed.

(** Mount options are what they print. *)
Theorem C61_options o1 o2 :
  same_text (debug_mount_options o1) (debug_mount_options o2) -> o1 = o2.
Proof.
  intros S. apply same_flat in S; try apply mount_options_ok; try exact S; exact I.
Qed.
Theorem C61_freebsd_options o1 o2 :
  same_text (debug_freebsd_options o1) (debug_freebsd_options o2) -> o1 = o2.
Proof.
  intros S. apply same_flat in S; try apply freebsd_options_ok; try exact S; exact I.
Qed.

(** Small values: the things they print for are different. *)
Theorem C61_values :
  (forall a b, same_text (debug_ioctl_cmd a) (debug_ioctl_cmd b) -> a = b) /\
  (forall a b, same_text (debug_ioctl_arg a) (debug_ioctl_arg b) -> a = b) /\
  (forall a n b m, same_text (debug_ioctl_ptr a n) (debug_ioctl_ptr b m) -> a = b /\ n = m) /\
  (forall a b, same_text (debug_ioctl_input a) (debug_ioctl_input b) -> a = b) /\
  (forall a b, same_text (debug_notify_code a) (debug_notify_code b) -> a = b) /\
  (forall a b c d, same_text (debug_device_number a b) (debug_device_number c d) -> a = c /\ b = d) /\
  (forall a b, same_text (debug_file_type a) (debug_file_type b) -> a = b) /\
  (forall s n t m, n < 1000000000 -> m < 1000000000 ->
     same_text (debug_duration (s, n)) (debug_duration (t, m)) -> s = t /\ n = m).
Proof.
  assert (T : forall A (f : A -> dbg) name a b, word (txt name) -> faithful any f ->
    same_text (debug_tuple name [f a]) (debug_tuple name [f b]) -> a = b).
  { intros A f name a b W [F1 F2] S.
    apply same_flat in S; [|now apply wf_tuple1|now apply wf_tuple1].
    rewrite !flat_tuple in S. apply node_inj in S as [_ S]. cbn [map] in S.
    apply cons_inj in S as [S _]. apply F2; try exact I. congruence. }
  assert (G : forall A (f : A -> dbg) a b, faithful any f -> same_text (f a) (f b) -> a = b).
  { intros A f a b [F1 F2] S. apply same_flat in S; auto. apply F2; auto; exact I. }
  repeat apply conj; intros *.
  - apply T; [now apply word_dec|exact hex_u32_ok].
  - apply T; [now apply word_dec|exact hex_u64_ok].
  - intros S. apply same_flat in S; [|struct_wf|struct_wf]. struct_eq S. now split.
  - apply (T _ (fun l => debug_list (map debug_u8 l))); [now apply word_dec|exact (list_ok _ u8_ok)].
  - apply G, notify_code_ok.
  - intros S. apply same_flat in S; try apply device_number_wf. now apply device_number_inj.
  - apply G, file_type_ok.
  - intros L1 L2 S. destruct (duration_reads eq_refl) as [W D].
    assert (E : (s, n) = (t, m)); [|split; congruence].
    apply D; auto. apply same_flat in S; auto.
Qed.

(** ** Listings *)

Lemma lists_inj {A} (P : A -> Prop) (f : A -> out dbg) (pr : A -> dbg) l :
  (forall a, P a -> f a = Ret (pr a)) -> Forall P l -> debug_items f l = Ret (map pr l).
Proof.
  intros H. induction 1 as [|a l Pa _ IH]; [reflexivity|]. cbn [debug_items map].
  rewrite H by exact Pa. cbn [bind]. rewrite IH. reflexivity.
Qed.
Lemma list_same {A} (P : A -> Prop) (pr : A -> dbg) l m :
  (forall a, P a -> wf (pr a)) -> (forall a b, P a -> P b -> flat (pr a) = flat (pr b) -> a = b) ->
  Forall P l -> Forall P m -> same_text (debug_list (map pr l)) (debug_list (map pr m)) -> l = m.
Proof.
  intros W Inj Pl Pm S. apply same_flat in S;
    [|apply wf_list, Forall_map; eapply Forall_impl; [exact W|assumption]..].
  rewrite !flat_list, !map_map in S. apply node_inj in S as [_ S].
  revert m Pm S. induction Pl as [|a l Pa _ IH]; intros [|b m] Pm S; cbn [map] in S;
    try discriminate S; [reflexivity|].
  apply cons_inj in S as [S1 S2]. pose proof (Forall_inv Pm) as Pb. apply Forall_inv_tail in Pm.
  f_equal; [apply Inj; auto; congruence|]. now apply IH.
Qed.

(** What is printed of an item. *)
Definition item_text (i : dir_item) : dbg :=
  debug_struct "ReaddirEntry"
    [("node_id", debug_int (i_node i)); ("offset", debug_int (i_off i));
     ("file_type", debug_option debug_file_type (i_type i)); ("name", debug_bytes (i_name i))].
Lemma item_prints i : dir_item_ok i -> debug_readdir_entry (make_entry i) = Ret (item_text i).
Proof.
  destruct i as [n s o t]. intros ((? & _) & (? & _) & _). cbn [i_node i_off] in *.
  unfold debug_readdir_entry, make_entry, item_text, ReaddirEntry_node_id, ReaddirEntry_offset,
    ReaddirEntry_file_type, NodeId_new_unchecked. cbn [i_type i_node i_off i_name].
  destruct t as [t|]; cbn [ReaddirEntry_set_file_type ReaddirEntry_new e_dirent de_ino de_off de_type e_name];
    (destruct (N.eqb_spec n 0); [lia|]); (destruct (N.eqb_spec o 0); [lia|]).
  - destruct t; reflexivity.
  - reflexivity.
Qed.
Lemma item_wf i : wf (item_text i).
Proof. struct_wf. Qed.
Lemma item_inj i j : flat (item_text i) = flat (item_text j) -> i = j.
Proof. destruct i, j. intros H. struct_eq H. cbn in *. congruence. Qed.

Section Printed.
Context {E : Endian}.

(** A buffer of directory entries prints as the list of the entries whose
    push succeeded, and buffers that print the same hold the same entries. *)
Theorem C61_readdir items :
  Forall dir_item_ok items -> forall addr buf, addr mod 8 = 0 ->
  exists oks w p ds,
    push_all Dirent_fuse_dirent (map make_entry items) (writer_new addr buf) = Ret (oks, w) /\
    into_entries w = Ret p /\
    debug_readdir_entries p = Ret (debug_list ds) /\
    Forall2 (fun i d => show (TReaddirEntry (make_entry i)) = Ret d) (kept oks items) ds.
Proof.
  intros Ok addr buf A.
  destruct (C23_readdir addr buf items A Ok) as (w & p & H1 & H2 & _ & H4 & _).
  set (oks := accepted _ _ _) in *.
  assert (K : Forall dir_item_ok (kept oks items)) by (now apply kept_forall).
  exists oks, w, p, (map item_text (kept oks items)).
  split; [exact H1|]. split; [exact H2|]. split.
  - unfold debug_readdir_entries. rewrite H4. cbn [bind].
    assert (G : debug_items debug_readdir_entry (map make_entry (kept oks items)) =
                Ret (map item_text (kept oks items))).
    { clear -K. induction K as [|i l Ki _ IH]; [reflexivity|]. cbn [map debug_items].
      rewrite item_prints by exact Ki. cbn [bind]. rewrite IH. reflexivity. }
    rewrite G. reflexivity.
  - clear -K. induction K; cbn [map]; constructor; auto. now apply item_prints.
Qed.
Theorem C61_readdir_same items1 items2 addr1 buf1 addr2 buf2 oks1 oks2 w1 w2 p1 p2 d1 d2 :
  Forall dir_item_ok items1 -> Forall dir_item_ok items2 -> addr1 mod 8 = 0 -> addr2 mod 8 = 0 ->
  push_all Dirent_fuse_dirent (map make_entry items1) (writer_new addr1 buf1) = Ret (oks1, w1) ->
  push_all Dirent_fuse_dirent (map make_entry items2) (writer_new addr2 buf2) = Ret (oks2, w2) ->
  into_entries w1 = Ret p1 -> into_entries w2 = Ret p2 ->
  debug_readdir_entries p1 = Ret d1 -> debug_readdir_entries p2 = Ret d2 ->
  same_text d1 d2 -> kept oks1 items1 = kept oks2 items2.
Proof.
  intros Ok1 Ok2 A1 A2 P1 P2 I1 I2 D1 D2 S.
  destruct (C61_readdir items1 Ok1 addr1 buf1 A1) as (o1 & w1' & p1' & l1 & Q1 & J1 & E1 & F1).
  destruct (C61_readdir items2 Ok2 addr2 buf2 A2) as (o2 & w2' & p2' & l2 & Q2 & J2 & E2 & F2).
  rewrite Q1 in P1. rewrite Q2 in P2. apply ret_inj in P1, P2.
  apply pair_equal_spec in P1 as [<- <-], P2 as [<- <-].
  rewrite J1 in I1. rewrite J2 in I2. apply ret_inj in I1 as <-. apply ret_inj in I2 as <-.
  rewrite E1 in D1. rewrite E2 in D2. apply ret_inj in D1 as <-. apply ret_inj in D2 as <-.
  assert (G : forall items ds, Forall dir_item_ok items ->
    Forall2 (fun i d => show (TReaddirEntry (make_entry i)) = Ret d) items ds -> ds = map item_text items).
  { intros items ds Ok. induction 1 as [|i d items ds X _ IH]; [reflexivity|]. cbn [map].
    cbn [show] in X. rewrite item_prints in X by (now apply Forall_inv in Ok).
    apply ret_inj in X as <-. f_equal. apply IH. now apply Forall_inv_tail in Ok. }
  apply G in F1 as ->; [|now apply kept_forall]. apply G in F2 as ->; [|now apply kept_forall].
  apply (list_same (fun _ => True) item_text) in S; auto using item_wf, item_inj.
  - apply Forall_forall; trivial.
  - apply Forall_forall; trivial.
Qed.
(** The same of READDIRPLUS: its entries can be printed, and what prints the
    same is the same entry. *)
Theorem C61_readdirplus items addr buf :
  Forall plus_item_ok items -> addr mod 8 = 0 ->
  exists es oks w p ds,
    Forall2 (fun i e => ReaddirplusEntry_new (p_name i) (p_off i) (item_entry i) = Ret e) items es /\
    push_all Dirent_fuse_direntplus es (writer_new addr buf) = Ret (oks, w) /\
    into_entries w = Ret p /\
    debug_readdirplus_entries p = Ret (debug_list ds) /\
    Forall2 (fun e d => show (TReaddirplusEntry e) = Ret d) (kept oks es) ds.
Proof.
  intros Ok A.
  destruct (C24_readdirplus addr buf items A Ok) as (es & w & p & l & H1 & H2 & H3 & _ & _ & H4 & _).
  set (oks := accepted _ _ _) in *.
  assert (K : Forall (fun e => exists d, debug_readdirplus_entry e = Ret d) (kept oks es)).
  { apply kept_forall. clear -H1 Ok. induction H1 as [|i e items es X _ IH]; constructor.
    - apply Forall_inv in Ok. rewrite plus_made_eq in X by exact Ok. apply ret_inj in X as <-.
      destruct Ok as (On & Oo & _ & Oa & Oe).
      destruct (entry_prints (item_entry i)) as [d D].
      { apply made_entry_good. exists (p_node i), (p_attr i), (p_entry i). auto. }
      unfold debug_readdirplus_entry, ReaddirplusEntry_offset, ReaddirplusEntry_entry, plus_made.
      cbn [e_dirent dp_dirent dp_entry_out de_off]. destruct (N.eqb_spec (p_off i) 0); [lia|].
      cbn [bind]. rewrite D. eexists. reflexivity.
    - apply IH. now apply Forall_inv_tail in Ok. }
  assert (G : exists ds, debug_items debug_readdirplus_entry (kept oks es) = Ret ds /\
    Forall2 (fun e d => debug_readdirplus_entry e = Ret d) (kept oks es) ds).
  { clear -K. induction K as [|e l [d D] _ (ds & IH1 & IH2)]; [exists []; now split|].
    exists (d :: ds). split; [|now constructor]. cbn [debug_items]. rewrite D. cbn [bind].
    rewrite IH1. reflexivity. }
  destruct G as (ds & G1 & G2). exists es, oks, w, p, ds.
  split; [exact H1|]. split; [exact H2|]. split; [exact H3|]. split; [|exact G2].
  unfold debug_readdirplus_entries. rewrite H4. cbn [bind]. rewrite G1. reflexivity.
Qed.
End Printed.

Theorem C61_readdirplus_entry i1 i2 e1 e2 :
  plus_item_ok i1 -> plus_item_ok i2 ->
  ReaddirplusEntry_new (p_name i1) (p_off i1) (item_entry i1) = Ret e1 ->
  ReaddirplusEntry_new (p_name i2) (p_off i2) (item_entry i2) = Ret e2 ->
  exists d1 d2, show (TReaddirplusEntry e1) = Ret d1 /\ show (TReaddirplusEntry e2) = Ret d2 /\
    (same_text d1 d2 -> e1 = e2).
Proof.
  intros Ok1 Ok2 N1 N2. rewrite plus_made_eq in N1, N2 by assumption.
  apply ret_inj in N1 as <-. apply ret_inj in N2 as <-.
  assert (P : forall i, plus_item_ok i -> good_entry (item_entry i) /\ p_node i = fa_ino (eo_attr (item_entry i)) /\
    exists x, debug_entry (item_entry i) = Ret x /\
      debug_readdirplus_entry (plus_made i) = Ret (debug_struct "ReaddirEntry"
        [("name", debug_bytes (p_name i)); ("offset", debug_int (p_off i)); ("entry", x)])).
  { intros i (On & Oo & _ & Oa & Oe).
    assert (G : good_entry (item_entry i)).
    { apply made_entry_good. exists (p_node i), (p_attr i), (p_entry i). auto. }
    split; [exact G|]. split.
    { destruct G as (_ & _ & <- & _). unfold item_entry. symmetry.
      apply (calls_inv entry_call (fun _ => True) (fun e => eo_nodeid e = p_node i)).
      - intros o e _ H. destruct o; exact H.
      - apply Forall_forall; trivial.
      - cbn [Entry_new eo_nodeid]. apply attr_new_id. }
    destruct (entry_prints (item_entry i)) as [x X]; [apply G|]. exists x. split; [exact X|].
    unfold debug_readdirplus_entry, ReaddirplusEntry_offset, ReaddirplusEntry_entry, plus_made.
    cbn [e_dirent dp_dirent dp_entry_out de_off e_name]. destruct (N.eqb_spec (p_off i) 0); [lia|].
    cbn [bind]. rewrite X. reflexivity. }
  destruct (P i1 Ok1) as (G1 & M1 & x1 & X1 & D1), (P i2 Ok2) as (G2 & M2 & x2 & X2 & D2).
  eexists. eexists. cbn [show]. split; [exact D1|]. split; [exact D2|]. intros S.
  apply same_flat in S; [|exact (readdirplus_entry_wf _ _ eq_refl D1)|exact (readdirplus_entry_wf _ _ eq_refl D2)].
  struct_eq S. apply (good_entry_eq _ _ _ _ G1 G2 X1 X2) in G3.
  unfold plus_made. rewrite M1, M2, G, G0, G3. reflexivity.
Qed.

(** The names of extended attributes print as the list of the names whose push
    succeeded. *)
Theorem C61_names list_max buf names :
  Forall cstr names ->
  exists oks w p, xattr_push_all names (ListxattrNamesWriter_new list_max buf) = Ret (oks, w) /\
    ListxattrNamesWriter_into_names w = Ret p /\
    debug_listxattr_names p = Ret (debug_list (map debug_bytes (kept oks names))).
Proof.
  intros Ok. destruct (C25_names list_max buf names Ok) as (w & p & H1 & H2 & _ & H4 & _).
  eexists. exists w, p. split; [exact H1|]. split; [exact H2|].
  unfold debug_listxattr_names. rewrite H4. reflexivity.
Qed.
Theorem C61_names_same l1 l2 :
  same_text (debug_list (map debug_bytes l1)) (debug_list (map debug_bytes l2)) -> l1 = l2.
Proof.
  intros S. destruct (list_ok _ bytes_ok) as [W Inj]. apply same_flat in S; auto.
  apply Inj; try exact I. exact S.
Qed.

(** Notification codes print as the kernel calls them (include/uapi/linux/fuse.h). *)
Definition notify_name (n : N) : option string :=
  nth_error ["POLL"; "INVAL_INODE"; "INVAL_ENTRY"; "STORE"; "RETRIEVE"; "DELETE"; "CODE_MAX"]%string
    (N.to_nat (N.min n 100) - 1).
Theorem C61_notify_codes n : 0 < n ->
  compact (debug_notify_code n) =
  match notify_name n with
  | Some s => txt "FUSE_NOTIFY_" ++ txt s
  | None => txt "fuse_notify_code(" ++ compact (debug_int n) ++ txt ")"
  end.
Proof.
  intros P. destruct (N.le_gt_cases n 7) as [L|L].
  - assert (G : forallb (fun k => let n := N.of_nat k in
        if list_eq_dec Byte.byte_eq_dec (compact (debug_notify_code n))
             match notify_name n with
             | Some s => txt "FUSE_NOTIFY_" ++ txt s
             | None => txt "fuse_notify_code(" ++ compact (debug_int n) ++ txt ")"
             end then true else false) (seq 1 7) = true) by (vm_compute; reflexivity).
    rewrite forallb_forall in G. specialize (G (N.to_nat n)). cbv zeta in G. rewrite N2Nat.id in G.
    destruct (list_eq_dec _ _ _) as [H|H]; [exact H|].
    assert (false = true) by (apply G, in_seq; lia). discriminate.
  - replace (notify_name n) with (@None string).
    2: { symmetry. apply nth_error_None. cbn. lia. }
    unfold debug_notify_code.
    repeat match goal with |- context [n =? ?k] => destruct (N.eqb_spec n k) as [X|_]; [lia|] end.
    reflexivity.
Qed.

(** The accessors of the INIT replies return what was set last. *)
Theorem C61_init_values ops : Forall init_op_ok ops ->
  let r := fold_left (fun r o => init_call o r) ops FuseInit_new in
  FuseInit_version r = last_set (fun c => match c with SetVersion v => Some v | _ => None end) ops
                         {| v_major := 0; v_minor := 0 |} /\
  FuseInit_max_readahead r = last_set (fun c => match c with SetMaxReadahead v => Some v | _ => None end) ops 0 /\
  FuseInit_max_background r = last_set (fun c => match c with SetMaxBackground v => Some v | _ => None end) ops 0 /\
  FuseInit_congestion_threshold r =
    last_set (fun c => match c with SetCongestionThreshold v => Some v | _ => None end) ops 0 /\
  FuseInit_max_write r = last_set (fun c => match c with SetMaxWrite v => Some v | _ => None end) ops 0 /\
  FuseInit_time_granularity r =
    last_set (fun c => match c with SetTimeGranularity v => Some v | _ => None end) ops 0.
Proof.
  intros F. cbv zeta. induction ops as [|o ops IH] using rev_ind; [repeat split; reflexivity|].
  apply Forall_app in F as [F _]. specialize (IH F). destruct IH as (A1 & A2 & A3 & A4 & A5 & A6).
  rewrite !fold_left_app, !last_set_app. cbn [fold_left last_set].
  set (r := fold_left _ ops FuseInit_new) in *. clearbody r.
  destruct o; cbn [init_call]; repeat apply conj; assumption || reflexivity || (destruct v; reflexivity).
Qed.
Theorem C61_cuse_init_values ops :
  let r := fold_left (fun r o => cuse_init_call o r) ops cuse_init_out_new in
  CuseInit_version r = last_set (fun c => match c with CSetVersion v => Some v | _ => None end) ops
                         {| v_major := 0; v_minor := 0 |} /\
  CuseInit_flags r = last_set (fun c => match c with CSetFlags v => Some v | _ => None end) ops 0 /\
  CuseInit_max_read r = last_set (fun c => match c with CSetMaxRead v => Some v | _ => None end) ops 0 /\
  CuseInit_max_write r = last_set (fun c => match c with CSetMaxWrite v => Some v | _ => None end) ops 0 /\
  CuseInit_device_number r = last_set (fun c => match c with CSetDevice a b => Some (a, b) | _ => None end) ops (0, 0).
Proof.
  cbv zeta. induction ops as [|o ops IH] using rev_ind; [repeat split; reflexivity|].
  destruct IH as (A1 & A2 & A3 & A4 & A5).
  rewrite !fold_left_app, !last_set_app. cbn [fold_left last_set].
  set (r := fold_left _ ops cuse_init_out_new) in *. clearbody r.
  destruct o; cbn [cuse_init_call]; repeat apply conj; assumption || reflexivity || (destruct v; reflexivity).
Qed.

Local Instance LE : Endian := false.

(** ** Findings and examples *)

(** The texts of the small values replies and [ioctl] requests are made of. *)
Theorem C61_texts :
  let int n := compact (debug_int n) in
  let commas := fix commas (l : list bytes) : bytes :=
    match l with [] => [] | s :: l => txt ", " ++ s ++ commas l end in
  let items l := match l with [] => txt "[]" | s :: l => txt "[" ++ s ++ commas l ++ txt "]" end in
  map (fun t => compact (debug_file_type t))
      [BlockDevice; CharacterDevice; Directory; NamedPipe; Regular; SocketFile; Symlink] =
  map txt ["BlockDevice"; "CharacterDevice"; "Directory"; "NamedPipe"; "Regular"; "Socket"; "Symlink"] /\
  (forall major minor, compact (debug_device_number major minor) =
     txt "DeviceNumber { major: " ++ int major ++ txt ", minor: " ++ int minor ++ txt " }") /\
  (forall s, compact (debug_ioctl_slice s) =
     txt "IoctlSlice { base: " ++ compact (hex_u64 (is_base s)) ++ txt ", len: " ++ int (is_len s) ++ txt " }") /\
  (forall input output, compact (debug_ioctl_retry input output) =
     txt "IoctlRetry { input_slices: " ++ items (map (fun s => compact (debug_ioctl_slice s)) input) ++
     txt ", output_slices: " ++ items (map (fun s => compact (debug_ioctl_slice s)) output) ++ txt " }") /\
  (forall cmd, compact (debug_ioctl_cmd cmd) = txt "IoctlCmd(" ++ compact (hex_u32 cmd) ++ txt ")") /\
  (forall arg, compact (debug_ioctl_arg arg) = txt "IoctlArg(" ++ compact (hex_u64 arg) ++ txt ")") /\
  (forall addr size, compact (debug_ioctl_ptr addr size) =
     txt "IoctlPtr { addr: " ++ compact (hex_u64 addr) ++ txt ", len: " ++ int size ++ txt " }") /\
  (forall input, compact (debug_ioctl_input input) =
     txt "IoctlInput(" ++ items (map (fun b => int (Byte.to_N b)) input) ++ txt ")").
Proof.
  cbv zeta. set (commas := fix commas (l : list bytes) : bytes := _).
  assert (C : forall {A} (f : A -> dbg) l,
    compact (debug_list (map f l)) =
    match map (fun x => compact (f x)) l with [] => txt "[]" | s :: l => txt "[" ++ s ++ commas l ++ txt "]" end).
  { intros A f [|a l]; [reflexivity|]. unfold debug_list. cbn [map compact fst snd].
    cbn [opening inner_space label_text closing app]. f_equal. f_equal.
    induction l as [|b l IH]; [reflexivity|].
    cbn [map compact fst snd commas]. rewrite <- !app_assoc. f_equal. f_equal. exact IH. }
  split; [reflexivity|].
  split; [intros; cbn -[num_text]; rewrite <- ?app_assoc; reflexivity|].
  split; [intros; do 3 (cbn -[num_text zero_pad]; rewrite <- ?app_assoc); reflexivity|].
  split; [intros; unfold debug_ioctl_retry, debug_struct; rewrite <- !C; cbn -[debug_list debug_ioctl_slice];
          rewrite <- ?app_assoc; reflexivity|].
  split; [intros; do 3 (cbn -[num_text zero_pad]; rewrite <- ?app_assoc); reflexivity|].
  split; [intros; do 3 (cbn -[num_text zero_pad]; rewrite <- ?app_assoc); reflexivity|].
  split; [intros; do 3 (cbn -[num_text zero_pad]; rewrite <- ?app_assoc); reflexivity|].
  intros. unfold debug_ioctl_input, debug_u8.
  transitivity (txt "IoctlInput(" ++ compact (debug_list (map (fun b => debug_int (Byte.to_N b)) input)) ++ txt ")");
    [|now rewrite C].
  cbn -[debug_list debug_int]. rewrite <- ?app_assoc. reflexivity.
Qed.

(** [FuseInitResponse] does not print its version. *)
Definition init_33 : list init_op :=
  [SetVersion {| v_major := 7; v_minor := 33 |}; SetMaxWrite 4096].
Definition init_31 : list init_op :=
  [SetVersion {| v_major := 7; v_minor := 31 |}; SetMaxWrite 4096].
Definition init_of (ops : list init_op) : fuse_init_out :=
  fold_left (fun r o => init_call o r) ops FuseInit_new.
Theorem C61_init_refuted : exists r1 r2,
  made_init r1 /\ made_init r2 /\ debug_fuse_init r1 = debug_fuse_init r2 /\
  FuseInit_version r1 <> FuseInit_version r2.
Proof.
  exists (init_of init_33), (init_of init_31).
  split; [exists init_33; split; [repeat constructor|reflexivity]|].
  split; [exists init_31; split; [repeat constructor|reflexivity]|].
  split; [vm_compute; reflexivity|]. discriminate.
Qed.

Example C61_texts_example :
  compact (debug_ioctl_retry [] [{| is_base := 4096; is_len := 8 |}; {| is_base := 0; is_len := 1 |}]) =
  txt "IoctlRetry { input_slices: [], output_slices: [IoctlSlice { base: 0x0000000000001000, len: 8 }, IoctlSlice { base: 0x0000000000000000, len: 1 }] }".
Proof. vm_compute; reflexivity. Qed.

Example C61_notify_codes_example :
  compact (debug_notify_code 5) = txt "FUSE_NOTIFY_RETRIEVE" /\
  compact (debug_notify_code 9) = txt "fuse_notify_code(9)".
Proof. split; vm_compute; reflexivity. Qed.
Example C61_init_values_example :
  Forall init_op_ok init_33 /\ FuseInit_version (init_of init_33) = {| v_major := 7; v_minor := 33 |} /\
  FuseInit_max_write (init_of init_33) = 4096.
Proof. split; [repeat constructor|]. split; reflexivity. Qed.
Example C61_cuse_init_values_example :
  CuseInit_device_number (fold_left (fun r o => cuse_init_call o r)
    [CSetDevice 1 2; CSetMaxRead 9; CSetDevice 3 4] cuse_init_out_new) = (3, 4).
Proof. reflexivity. Qed.

(** An entry has its id twice.  [attributes_mut] gives access to one of them:
    entries with other ids, sent as different replies, can print the same. *)
Theorem C61_entry_refuted : exists node1 node2 a d,
  node1 <> node2 /\ made_attr a /\
  let e1 := Entry_set_attributes (fun _ => a) (Entry_new (NodeAttr_new node1)) in
  let e2 := Entry_set_attributes (fun _ => a) (Entry_new (NodeAttr_new node2)) in
  show (TEntry e1) = Ret d /\ show (TEntry e2) = Ret d /\
  u64_at 0 (fuse_entry_out_bytes e1) = node1 /\ u64_at 0 (fuse_entry_out_bytes e2) = node2.
Proof.
  exists 5, 6, (NodeAttr_new 7). eexists. split; [discriminate|].
  split; [exists 7, []; repeat constructor|]. cbv zeta.
  split; [vm_compute; reflexivity|]. repeat apply conj; vm_compute; reflexivity.
Qed.

Definition an_attr : fuse_attr :=
  attr_calls [SetMode 33188; SetSize 102; SetAtime {| ut_seconds := (-3)%Z; ut_nanos := 5 |};
    SetMtime {| ut_seconds := 104; ut_nanos := 6 |}; SetCtime {| ut_seconds := 105; ut_nanos := 7 |};
    SetLinkCount 106; ReplySpec.SetUserId 107; ReplySpec.SetGroupId 108; SetDeviceNumber 109;
    SetBlockCount 110; ReplySpec.SetBlockSize 111; SetDax true] (NodeAttr_new 101).
Definition an_entry : fuse_entry_out :=
  entry_calls [SetGeneration 201; SetCacheTimeout (3, 250000000); SetAttrTimeout (0, 2500)]
    (Entry_new (NodeAttr_new 7)).
Definition a_header : ResponseHeader :=
  ResponseHeader_set_error (-5)%Z (ResponseHeader_set_response_len 301 (ResponseHeader_new 302)).
Definition a_plus : entry fuse_direntplus :=
  {| e_dirent := {| dp_entry_out := an_entry;
       dp_dirent := {| de_ino := 7; de_off := 401; de_namelen := 1; de_type := 0 |} |};
     e_name := txt "p" |}.

(** Where each value goes in the text. *)
Definition texts : list thing :=
  [TAttr an_attr; TEntry an_entry;
   TStatfs {| sf_blocks := 1; sf_bfree := 2; sf_bavail := 3; sf_files := 4; sf_ffree := 5;
     sf_bsize := 6; sf_namelen := 7; sf_frsize := 8 |};
   TFuseInit (init_of [SetVersion {| v_major := 1; v_minor := 2 |}; SetFlags 4294967297;
     SetMaxReadahead 3; SetMaxBackground 4; SetCongestionThreshold 5; SetMaxWrite 6;
     SetTimeGranularity 7]);
   TCuseInit {| cir_raw := fold_left (fun r o => cuse_init_call o r)
       [CSetVersion {| v_major := 1; v_minor := 2 |}; CSetFlags 1; CSetMaxRead 3; CSetMaxWrite 4;
        CSetDevice 5 6] cuse_init_out_new;
     cir_device_name := None |};
   TCreate (CreateResponse_set_handle 501 (CreateResponse_set_flags 3 (CreateResponse_new an_entry)));
   TIoctl (IoctlResponse_set_result (-2)%Z (IoctlResponse_new [x01; xff]));
   TIoctl (IoctlResponse_new_retry {| ir_input := [{| is_base := 16; is_len := 1 |}];
     ir_output := [{| is_base := 32; is_len := 2 |}] |});
   THeader a_header; THeader ResponseHeader_new_notification;
   TNotification (Delete_new 1 2 (txt "x")); TNotification (InvalidateEntry_new 3 (txt "y"));
   TNotification (InvalidateInode_set_size (Some 6) (InvalidateInode_set_offset None (InvalidateInode_new 4)));
   TNotification (NPoll 7);
   TReaddirEntry (make_entry {| i_node := 1; i_name := txt "n"; i_off := 2; i_type := Some SocketFile |});
   TReaddirplusEntry a_plus;
   TOptions (build_options [SetAllowOther true; OptionsModel.SetBlockSize (Some 1); SetFuseDeviceFd (Some 2);
     OptionsModel.SetGroupId (Some 3); SetMaxRead (Some 4); SetMountSource (txt "/dev/x"); SetMountType true;
     SetRootMode (Some 16877); SetSubtype (Some (txt "s")); OptionsModel.SetUserId (Some 5)]);
   TOptions MountOptions_new;
   TFreebsdOptions (build_freebsd [FSetDefaultPermissions true; FSetSubtype (Some (txt "t"))])].
Definition expected_texts : list string :=
  ["NodeAttr { node_id: 101, mode: 0o100644, size: 102, atime: UnixTime(-3.000000005), mtime: UnixTime(104.000000006), ctime: UnixTime(105.000000007), link_count: 106, user_id: 107, group_id: 108, device_number: 109, block_count: 110, block_size: 111, flags: AttributeFlags {FUSE_ATTR_DAX} }";
   "Entry { generation: 201, attributes: NodeAttr { node_id: 7, mode: 0o0, size: 0, atime: UnixTime(0.000000000), mtime: UnixTime(0.000000000), ctime: UnixTime(0.000000000), link_count: 0, user_id: 0, group_id: 0, device_number: 0, block_count: 0, block_size: 0, flags: AttributeFlags {} }, cache_timeout: 3.25s, attribute_cache_timeout: 2.5µs }";
   "StatfsAttributes { block_count: 1, block_size: 6, blocks_available: 3, blocks_free: 2, fragment_size: 8, inode_count: 4, inodes_free: 5, max_filename_length: 7 }";
   "FuseInitResponse { max_readahead: 3, flags: FuseInitFlags {ASYNC_READ, SECURITY_CTX}, max_background: 4, congestion_threshold: 5, max_write: 6, time_granularity: 7 }";
   "CuseInitResponse { version: Version { major: 1, minor: 2 }, flags: CuseInitFlags {UNRESTRICTED_IOCTL}, max_read: 3, max_write: 4, device_number: DeviceNumber { major: 5, minor: 6 } }";
   "CreateResponse { entry: Entry { generation: 201, attributes: NodeAttr { node_id: 7, mode: 0o0, size: 0, atime: UnixTime(0.000000000), mtime: UnixTime(0.000000000), ctime: UnixTime(0.000000000), link_count: 0, user_id: 0, group_id: 0, device_number: 0, block_count: 0, block_size: 0, flags: AttributeFlags {} }, cache_timeout: 3.25s, attribute_cache_timeout: 2.5µs }, handle: 501, flags: CreateResponseFlags {DIRECT_IO, KEEP_CACHE} }";
   "IoctlResponse { result: -2, output: [1, 255] }";
   "IoctlResponse { retry: IoctlRetry { input_slices: [IoctlSlice { base: 0x0000000000000010, len: 1 }], output_slices: [IoctlSlice { base: 0x0000000000000020, len: 2 }] } }";
   "ResponseHeader { request_id: Some(302), response_len: 301, error: Some(-5) }";
   "ResponseHeader { request_id: None, response_len: 16, error: None }";
   "Delete { parent_id: 1, node_id: 2, name: ""x"" }";
   "InvalidateEntry { parent_id: 3, name: ""y"" }";
   "InvalidateInode { node_id: 4, offset: -1, size: 6 }";
   "Poll { poll_handle: 7 }";
   "ReaddirEntry { node_id: 1, offset: 2, file_type: Some(Socket), name: ""n"" }";
   "ReaddirEntry { name: ""p"", offset: 401, entry: Entry { generation: 201, attributes: NodeAttr { node_id: 7, mode: 0o0, size: 0, atime: UnixTime(0.000000000), mtime: UnixTime(0.000000000), ctime: UnixTime(0.000000000), link_count: 0, user_id: 0, group_id: 0, device_number: 0, block_count: 0, block_size: 0, flags: AttributeFlags {} }, cache_timeout: 3.25s, attribute_cache_timeout: 2.5µs } }";
   "MountOptions { allow_other: true, block_size: Some(1), default_permissions: false, fuse_device_fd: Some(2), group_id: Some(3), max_read: Some(4), mount_source: ""/dev/x"", mount_type: ""fuseblk"", root_mode: Some(0o40755), subtype: Some(""s""), user_id: Some(5) }";
   "MountOptions { allow_other: false, block_size: None, default_permissions: false, fuse_device_fd: None, group_id: None, max_read: None, mount_source: ""fuse"", mount_type: ""fuse"", root_mode: None, subtype: None, user_id: None }";
   "MountOptions { default_permissions: true, subtype: Some(""t"") }"].
Example C61_shape_example :
  map (fun t => match show t with Ret d => compact d | _ => [] end) texts = map txt expected_texts.
Proof. vm_compute. reflexivity. Qed.

Example C61_attr_example : made_attr an_attr /\ made_attr (NodeAttr_new 101) /\
  exists d1 d2, show (TAttr an_attr) = Ret d1 /\ show (TAttr (NodeAttr_new 101)) = Ret d2 /\
    ~ same_text d1 d2.
Proof.
  split; [eexists; eexists; split; [|split; [|reflexivity]]; [split; reflexivity|repeat constructor; discriminate]|].
  split; [exists 101, []; repeat constructor|].
  eexists. eexists. split; [vm_compute; reflexivity|]. split; [vm_compute; reflexivity|].
  intros [H|H]; apply (f_equal (@List.length byte)) in H; vm_compute in H; discriminate H.
Qed.
Lemma an_entry_made : made_entry an_entry.
Proof.
  exists 7, [], [SetGeneration 201; SetCacheTimeout (3, 250000000); SetAttrTimeout (0, 2500)].
  split; [split; reflexivity|]. split; [constructor|]. split; [|reflexivity].
  repeat constructor.
Qed.
(** 2500 and 2501 nanoseconds are told apart. *)
Example C61_entry_example :
  made_entry an_entry /\ made_entry (Entry_set_attribute_cache_timeout (0, 2501) an_entry) /\
  map (fun e => match show (TEntry e) with Ret d => drop 309 (compact d) | _ => [] end)
    [an_entry; Entry_set_attribute_cache_timeout (0, 2501) an_entry] =
  [txt "attribute_cache_timeout: 2.5µs }"; txt "attribute_cache_timeout: 2.501µs }"].
Proof.
  split; [exact an_entry_made|]. split; [|vm_compute; reflexivity].
  exists 7, [], [SetGeneration 201; SetCacheTimeout (3, 250000000); SetAttrTimeout (0, 2500);
    SetAttrTimeout (0, 2501)].
  split; [split; reflexivity|]. split; [constructor|]. split; [|reflexivity].
  repeat constructor.
Qed.
Example C61_create_example :
  made_create (CreateResponse_set_handle 501 (CreateResponse_set_flags 3 (CreateResponse_new an_entry))).
Proof. apply mc_handle; [apply mc_flags; [apply mc_new, an_entry_made|reflexivity]|reflexivity]. Qed.
Example C61_statfs_example :
  compact (debug_statfs (Statfs_set_block_count 9 Statfs_new)) <>
  compact (debug_statfs (Statfs_set_blocks_free 9 Statfs_new)).
Proof. intros H. vm_compute in H. discriminate H. Qed.
Example C61_init_example :
  made_init (init_of init_33) /\ made_init (init_of init_31) /\
  same_text (debug_fuse_init (init_of init_33)) (debug_fuse_init (init_of init_31)) /\
  init_of init_33 <> init_of init_31.
Proof.
  split; [exists init_33; split; [repeat constructor|reflexivity]|].
  split; [exists init_31; split; [repeat constructor|reflexivity]|].
  split; [left; vm_compute; reflexivity|discriminate].
Qed.
(** A device that cannot have a name that looks like what follows it. *)
Example C61_cuse_init_example :
  let r name := {| cir_raw := cuse_init_out_new; cir_device_name := name |} in
  made_cuse_init (r None) /\ made_cuse_init (r (Some (txt "a""b"))) /\
  take 44 (compact (debug_cuse_init (r (Some (txt "a""b"))))) =
    txt "CuseInitResponse { device_name: ""a\""b"", vers".
Proof.
  cbv zeta. split; [exists []; now split|]. split; [exists []; now split|]. vm_compute. reflexivity.
Qed.
Example C61_ioctl_example :
  let retry := {| ir_input := []; ir_output := [] |} in
  made_ioctl (IoctlResponse_set_result 0 (IoctlResponse_new_retry retry)) /\
  compact (debug_ioctl (IoctlResponse_set_result 0 (IoctlResponse_new_retry retry))) =
    txt "IoctlResponse { result: 0, retry: IoctlRetry { input_slices: [], output_slices: [] } }".
Proof. cbv zeta. split; [apply mi_result, mi_retry|vm_compute; reflexivity]. Qed.
Example C61_header_example : made_header a_header /\ made_header ResponseHeader_new_notification.
Proof.
  split; [|apply mh_notification]. apply mh_error; [|discriminate]. apply mh_len; [|discriminate].
  now apply mh_new.
Qed.
Example C61_header_values_example :
  ResponseHeader_request_id a_header = Some 302 /\ ResponseHeader_response_len a_header = Ret 301 /\
  ResponseHeader_error a_header = Some (-5)%Z.
Proof. repeat apply conj; reflexivity. Qed.
Example C61_notification_example :
  made_notification (InvalidateInode_set_size (Some 6) (InvalidateInode_new 4)) /\
  made_notification (Delete_new 1 2 (txt "x")).
Proof. split; [apply mn_size; now apply mn_inode|now apply mn_delete]. Qed.
Example C61_notification_values_example :
  notification_offset (InvalidateInode_set_offset (Some (2 ^ 64 - 1)) (InvalidateInode_new 4)) =
    Some 9223372036854775807%Z /\
  notification_name (Delete_new 1 2 (txt "x")) = Some (txt "x").
Proof. split; reflexivity. Qed.
Example C61_options_example :
  compact (debug_mount_options MountOptions_new) <>
  compact (debug_mount_options (build_options [SetDefaultPermissions true])).
Proof. intros H. vm_compute in H. discriminate H. Qed.
Example C61_freebsd_options_example :
  compact (debug_freebsd_options FreebsdOptions_new) =
    txt "MountOptions { default_permissions: false, subtype: None }".
Proof. vm_compute. reflexivity. Qed.
Example C61_ioctl_result_example :
  let r := IoctlResponse_set_result 7 (IoctlResponse_set_result (-2)%Z (IoctlResponse_new [x01])) in
  r = fold_left (fun r z => IoctlResponse_set_result z r) [(-2)%Z; 7%Z] (IoctlResponse_new [x01]) /\
  IoctlResponse_result r = 7%Z.
Proof. split; reflexivity. Qed.
Example C61_values_example :
  map compact [debug_ioctl_cmd 16; debug_ioctl_arg 17; debug_ioctl_ptr 18 19; debug_ioctl_input [x01];
    debug_notify_code 6; debug_notify_code 8; debug_device_number 1 2; debug_file_type SocketFile;
    debug_duration (0, 1500000); debug_duration (0, 999); debug_duration (5, 1)] =
  map txt ["IoctlCmd(0x00000010)"; "IoctlArg(0x0000000000000011)";
    "IoctlPtr { addr: 0x0000000000000012, len: 19 }"; "IoctlInput([1])"; "FUSE_NOTIFY_DELETE";
    "fuse_notify_code(8)"; "DeviceNumber { major: 1, minor: 2 }"; "Socket"; "1.5ms"; "999ns";
    "5.000000001s"].
Proof. vm_compute. reflexivity. Qed.
(** The second entry does not fit. *)
Example C61_readdir_example :
  Forall dir_item_ok three /\ exists w p d,
  push_all Dirent_fuse_dirent (map make_entry three) (writer_new 4096 (repeat xff 65))
    = Ret ([true; false; true], w) /\ into_entries w = Ret p /\ debug_readdir_entries p = Ret d /\
  compact d = txt "[ReaddirEntry { node_id: 1, offset: 1, file_type: Some(Directory), name: ""a"" }, ReaddirEntry { node_id: 9, offset: 3, file_type: None, name: ""cd"" }]".
Proof.
  split; [repeat constructor|]. do 3 eexists. split; [vm_compute; reflexivity|].
  split; [vm_compute; reflexivity|]. split; [vm_compute; reflexivity|]. vm_compute. reflexivity.
Qed.
Definition first_item : list dir_item := take 1 three.
(** Two listings in different buffers that print the same. *)
Example C61_readdir_same_example :
  exists w1 p1 w2 p2 d,
  push_all Dirent_fuse_dirent (map make_entry first_item) (writer_new 0 (repeat xff 65))
    = Ret ([true], w1) /\ into_entries w1 = Ret p1 /\ debug_readdir_entries p1 = Ret d /\
  push_all Dirent_fuse_dirent (map make_entry three) (writer_new 8 (repeat xff 33))
    = Ret ([true; false; false], w2) /\ into_entries w2 = Ret p2 /\ debug_readdir_entries p2 = Ret d /\
  kept [true] first_item = kept [true; false; false] three.
Proof.
  do 5 eexists. split; [vm_compute; reflexivity|].
  split; [vm_compute; reflexivity|]. split; [vm_compute; reflexivity|].
  split; [vm_compute; reflexivity|]. split; [vm_compute; reflexivity|].
  split; vm_compute; reflexivity.
Qed.
Example C61_readdirplus_example : Forall plus_item_ok [a_dir; a_dir].
Proof. repeat constructor. Qed.
Example C61_readdirplus_entry_example :
  plus_item_ok a_dir /\ ReaddirplusEntry_new (p_name a_dir) (p_off a_dir) (item_entry a_dir) = Ret (plus_made a_dir).
Proof. split; [repeat constructor|reflexivity]. Qed.
Example C61_names_example :
  Forall cstr [txt "user.a"; txt "user.b"] /\ exists w p d,
  xattr_push_all [txt "user.a"; txt "user.b"] (ListxattrNamesWriter_new None (repeat x00 20))
    = Ret ([true; true], w) /\ ListxattrNamesWriter_into_names w = Ret p /\
  debug_listxattr_names p = Ret d /\ compact d = txt "[""user.a"", ""user.b""]".
Proof.
  split; [repeat constructor; unfold cstr; cbn; intuition discriminate|].
  do 3 eexists. split; [vm_compute; reflexivity|]. split; [vm_compute; reflexivity|].
  split; [vm_compute; reflexivity|]. vm_compute. reflexivity.
Qed.
Example C61_names_same_example :
  compact (debug_list (map debug_bytes [txt "a"", ""b"])) <> compact (debug_list (map debug_bytes [txt "a"; txt "b"])).
Proof. intros H. vm_compute in H. discriminate H. Qed.

Print Assumptions C61_texts.
Print Assumptions C61_shape.
Print Assumptions C61_attr.
Print Assumptions C61_entry.
Print Assumptions C61_create.
Print Assumptions C61_statfs.
Print Assumptions C61_cuse_init.
Print Assumptions C61_init.
Print Assumptions C61_ioctl.
Print Assumptions C61_ioctl_result.
Print Assumptions C61_header.
Print Assumptions C61_header_values.
Print Assumptions C61_notification.
Print Assumptions C61_notification_values.
Print Assumptions C61_options.
Print Assumptions C61_freebsd_options.
Print Assumptions C61_values.
Print Assumptions C61_readdir.
Print Assumptions C61_readdir_same.
Print Assumptions C61_readdirplus.
Print Assumptions C61_readdirplus_entry.
Print Assumptions C61_names.
Print Assumptions C61_names_same.
Print Assumptions C61_notify_codes.
Print Assumptions C61_init_values.
Print Assumptions C61_cuse_init_values.
Print Assumptions C61_init_refuted.
Print Assumptions C61_entry_refuted.
