(** Theorems about what [Debug] prints: C58 of properties.jsonl. *)

From Coq Require Import String.
From Verif Require Import Base Kernel CoreModel DecodeModel DecodeProofs OpsModel OpsSafety.
From Verif Require Import FlagsModel HostModel DebugModel DebugProofs PropFlags DebugRead.
From Coq Require Import List NArith ZArith Bool Lia ZifyBool ZifyNat ZifyN.
Import ListNotations.
Open Scope string_scope.
Open Scope list_scope.
Open Scope N_scope.

(** ** Specification *)

(** The name a request type has in the API. *)
Definition title (t : rtype) : string :=
  match t with
  | RAccess => "AccessRequest"
  | RBmap => "BmapRequest"
  | RCopyFileRange => "CopyFileRangeRequest"
  | RCreate => "CreateRequest"
  | RCuseInit => "CuseInitRequest"
  | RFallocate => "FallocateRequest"
  | RFlush => "FlushRequest"
  | RForget => "ForgetRequest"
  | RFsync => "FsyncRequest"
  | RFsyncdir => "FsyncdirRequest"
  | RFuseInit => "FuseInitRequest"
  | RGetattr => "GetattrRequest"
  | RGetlk => "GetlkRequest"
  | RGetxattr => "GetxattrRequest"
  | RInterrupt => "InterruptRequest"
  | RIoctl => "IoctlRequest"
  | RLink => "LinkRequest"
  | RListxattr => "ListxattrRequest"
  | RLookup => "LookupRequest"
  | RLseek => "LseekRequest"
  | RMkdir => "MkdirRequest"
  | RMknod => "MknodRequest"
  | ROpen => "OpenRequest"
  | ROpendir => "OpendirRequest"
  | RPoll => "PollRequest"
  | RRead => "ReadRequest"
  | RReaddir => "ReaddirRequest"
  | RReaddirplus => "ReaddirplusRequest"
  | RReadlink => "ReadlinkRequest"
  | RRelease => "ReleaseRequest"
  | RReleasedir => "ReleasedirRequest"
  | RRemovexattr => "RemovexattrRequest"
  | RRename => "RenameRequest"
  | RRmdir => "RmdirRequest"
  | RSetattr => "SetattrRequest"
  | RSetlk => "SetlkRequest"
  | RSetxattr => "SetxattrRequest"
  | RStatfs => "StatfsRequest"
  | RSymlink => "SymlinkRequest"
  | RUnlink => "UnlinkRequest"
  | RWrite => "WriteRequest"
  end.

(** What a request shows when printed, in this order; each is the name of an
    accessor. *)
Definition labels (t : rtype) : list string :=
  match t with
  | RAccess => ["node_id"; "mask"]
  | RBmap => ["node_id"; "block"; "block_size"]
  | RCopyFileRange => ["input_node_id"; "input_handle"; "input_offset"; "output_node_id";
      "output_handle"; "output_offset"; "len"; "flags"]
  | RCreate => ["node_id"; "name"; "flags"; "open_flags"; "mode"; "umask"]
  | RCuseInit => ["version"; "flags"]
  | RFallocate => ["node_id"; "handle"; "offset"; "length"; "fallocate_flags"]
  | RFlush => ["node_id"; "handle"; "lock_owner"]
  | RForget => ["items"]
  | RFsync => ["node_id"; "handle"; "flags"]
  | RFsyncdir => ["node_id"; "handle"; "flags"]
  | RFuseInit => ["version"; "max_readahead"; "flags"]
  | RGetattr => ["node_id"; "handle"]
  | RGetlk => ["node_id"; "handle"; "owner"; "lock_mode"; "lock_range"]
  | RGetxattr => ["node_id"; "size"; "name"]
  | RInterrupt => ["request_id"]
  | RIoctl => ["node_id"; "handle"; "command"; "arg"; "output_len"; "flags"; "input"]
  | RLink => ["node_id"; "new_parent_id"; "new_name"]
  | RListxattr => ["node_id"; "size"]
  | RLookup => ["parent_id"; "name"]
  | RLseek => ["node_id"; "handle"; "offset"; "whence"]
  | RMkdir => ["parent_id"; "name"; "mode"; "umask"]
  | RMknod => ["parent_id"; "name"; "mode"; "umask"; "device_number"]
  | ROpen => ["node_id"; "flags"; "open_flags"]
  | ROpendir => ["node_id"; "flags"; "open_flags"]
  | RPoll => ["node_id"; "poll_handle"; "poll_events"; "flags"]
  | RRead => ["node_id"; "size"; "offset"; "handle"; "lock_owner"; "open_flags"]
  | RReaddir => ["node_id"; "size"; "offset"; "handle"; "open_flags"]
  | RReaddirplus => ["node_id"; "size"; "offset"; "handle"; "open_flags"]
  | RReadlink => ["node_id"]
  | RRelease => ["node_id"; "handle"; "lock_owner"; "open_flags"]
  | RReleasedir => ["node_id"; "handle"; "lock_owner"; "open_flags"]
  | RRemovexattr => ["node_id"; "name"]
  | RRename => ["old_directory_id"; "old_name"; "new_directory_id"; "new_name"; "rename_flags"]
  | RRmdir => ["parent_id"; "name"]
  | RSetattr => ["node_id"; "handle"; "size"; "lock_owner"; "atime"; "atime_now"; "mtime";
      "mtime_now"; "ctime"; "mode"; "user_id"; "group_id"]
  | RSetlk => ["node_id"; "handle"; "may_block"; "owner"; "lock"; "flags"]
  | RSetxattr => ["node_id"; "name"; "flags"; "setxattr_flags"; "value"]
  | RStatfs => ["node_id"]
  | RSymlink => ["parent_id"; "name"; "content"]
  | RUnlink => ["parent_id"; "name"]
  | RWrite => ["node_id"; "offset"; "handle"; "value"; "flags"; "lock_owner"; "open_flags"]
  end.

(** The shape of the text: on one line, and with one line for each value. *)
Fixpoint join (sep : bytes) (l : list bytes) : bytes :=
  match l with [] => [] | [x] => x | x :: r => x ++ sep ++ join sep r end.
Definition labelled (label value : bytes) : bytes := label ++ txt ": " ++ value.
Definition one_line (name : bytes) (labels values : list bytes) : bytes :=
  name ++ txt " { " ++ join (txt ", ") (map (fun p => labelled (fst p) (snd p)) (combine labels values)) ++
  txt " }".
Definition many_lines (name : bytes) (labels values : list bytes) : bytes :=
  name ++ txt " {" ++ [x0a] ++
  concat (map (fun p => txt "    " ++ labelled (fst p) (snd p) ++ txt "," ++ [x0a])
            (combine labels values)) ++
  txt "}".

(** Characters that do not act on a terminal or end a line of a log. *)
Definition visible (b : byte) : Prop := 32 <= Byte.to_N b <= 126.
Definition visible_or_newline (b : byte) : Prop := visible b \/ b = x0a.

(** The inside of a string literal and what it stands for: [read_literal] of
    DebugProofs.v is the reader (escapes of Rust byte strings, up to the first
    quote that is not escaped). *)

(** ** Lemmas *)

Definition type_of (v : view) : rtype :=
  match v with
  | VAccess _ _ => RAccess
  | VBmap _ _ _ => RBmap
  | VCopyFileRange _ _ _ _ _ _ _ _ => RCopyFileRange
  | VCreate _ _ _ _ _ _ => RCreate
  | VCuseInit _ _ => RCuseInit
  | VFallocate _ _ _ _ _ => RFallocate
  | VFlush _ _ _ => RFlush
  | VForget _ => RForget
  | VFsync _ _ _ => RFsync
  | VFsyncdir _ _ _ => RFsyncdir
  | VFuseInit _ _ _ => RFuseInit
  | VGetattr _ _ => RGetattr
  | VGetlk _ _ _ _ _ => RGetlk
  | VGetxattr _ _ _ => RGetxattr
  | VInterrupt _ => RInterrupt
  | VIoctl _ _ _ _ _ _ _ _ => RIoctl
  | VLink _ _ _ => RLink
  | VListxattr _ _ => RListxattr
  | VLookup _ _ => RLookup
  | VLseek _ _ _ _ => RLseek
  | VMkdir _ _ _ _ => RMkdir
  | VMknod _ _ _ _ _ => RMknod
  | VOpen _ _ _ => ROpen
  | VOpendir _ _ _ => ROpendir
  | VPoll _ _ _ _ => RPoll
  | VRead _ _ _ _ _ _ => RRead
  | VReaddir _ _ _ _ _ => RReaddir
  | VReaddirplus _ _ _ _ _ => RReaddirplus
  | VReadlink _ => RReadlink
  | VRelease _ _ _ _ => RRelease
  | VReleasedir _ _ _ _ => RReleasedir
  | VRemovexattr _ _ => RRemovexattr
  | VRename _ _ _ _ _ => RRename
  | VRmdir _ _ => RRmdir
  | VSetattr _ _ _ _ _ _ _ _ _ _ _ _ => RSetattr
  | VSetlk _ _ _ _ _ _ => RSetlk
  | VSetxattr _ _ _ _ _ => RSetxattr
  | VStatfs _ => RStatfs
  | VSymlink _ _ _ => RSymlink
  | VUnlink _ _ => RUnlink
  | VWrite _ _ _ _ _ _ _ => RWrite
  end.

Section Text.
Context {Ch : Charset}.

Lemma join_cons sep x y r : join sep (x :: y :: r) = x ++ sep ++ join sep (y :: r).
Proof. reflexivity. Qed.
Lemma compact_struct name f fields :
  compact (debug_struct name (f :: fields)) =
  one_line (txt name) (map (fun f => txt (fst f)) (f :: fields)) (map (fun f => compact (snd f)) (f :: fields)).
Proof.
  unfold debug_struct. cbn [map]. rewrite compact_node. unfold one_line. cbn [combine map fst snd].
  f_equal. rewrite (app_assoc (opening KStruct)). change (opening KStruct ++ inner_space KStruct) with (txt " { ").
  f_equal. change (inner_space KStruct ++ closing KStruct) with (txt " }").
  rewrite !(app_assoc _ _ (txt " }")). f_equal.
  unfold label_text, labelled. rewrite <- app_assoc.
  generalize (txt (fst f)) (compact (snd f)). induction fields as [|g r IH]; intros x y.
  - cbn [map compact_more join]. rewrite app_nil_r. now rewrite <- app_assoc.
  - cbn [map compact_more combine]. rewrite join_cons. unfold label_text, labelled in *. cbn [fst snd].
    specialize (IH (txt (fst g)) (compact (snd g))). cbn [fst snd] in IH.
    rewrite <- !app_assoc in *. do 4 f_equal. exact IH.
Qed.

Lemma pretty_struct name f fields :
  DebugProofs.wf (debug_struct name (f :: fields)) ->
  pretty (debug_struct name (f :: fields)) =
  many_lines (txt name) (map (fun f => txt (fst f)) (f :: fields))
    (map (fun f => layout (Some 1%nat) (snd f)) (f :: fields)).
Proof.
  intros W. rewrite pretty_layout by exact W. unfold debug_struct. cbn [map]. rewrite layout_node.
  unfold many_lines. cbn [after_open before_close]. f_equal. f_equal. f_equal.
  change (indent 0 ++ closing KStruct) with (txt "}"). f_equal.
  change ((txt (fst f), snd f) :: map (fun f => (txt (fst f), snd f)) fields)
    with (map (fun f => (txt (fst f), snd f)) (f :: fields)).
  change (txt (fst f) :: map (fun f => txt (fst f)) fields) with (map (fun f => txt (fst f)) (f :: fields)).
  change (layout (Some 1%nat) (snd f) :: map (fun f => layout (Some 1%nat) (snd f)) fields)
    with (map (fun f => layout (Some 1%nat) (snd f)) (f :: fields)).
  clear W. generalize (f :: fields) as l. clear f fields. intros l.
  assert (G : forall first, items KStruct (Some 0%nat) first (map (fun f => (txt (fst f), snd f)) l) =
    concat (map (fun p => txt "    " ++ labelled (fst p) (snd p) ++ txt "," ++ [x0a])
      (combine (map (fun f => txt (fst f)) l) (map (fun f => layout (Some 1%nat) (snd f)) l)))).
  { induction l as [|g r IH]; intros first; [reflexivity|].
    cbn [map combine concat fst snd]. rewrite items_cons. cbn [fst snd deeper option_map lead trail].
    rewrite IH. unfold labelled, label_text. rewrite <- !app_assoc. reflexivity. }
  apply G.
Qed.

End Text.

(** Only ASCII here. *)
Local Instance ascii : Charset := false.

Section Debug.
Context {E : Endian}.

Lemma decode_type is_cuse cf t rq v : decode_view is_cuse cf t rq = Ret v -> type_of v = t.
Proof.
  intros H. destruct t; cbn [decode_view] in H.
  all: repeat match type of H with
       | bind ?m _ = Ret _ => destruct m; cbn [bind] in H; try discriminate H
       end.
  all: injection H as <-; reflexivity.
Qed.

Lemma view_struct lm v : exists fields,
  debug_view lm v = debug_struct (title (type_of v)) fields /\
  map fst fields = labels (type_of v).
Proof. destruct v; eexists; split; reflexivity. Qed.

Lemma labels_some t : labels t <> [].
Proof. destruct t; discriminate. Qed.

Lemma printable_visible b : printable b -> visible b.
Proof. intros [H|[H _]]; [exact H|discriminate H]. Qed.
Lemma compact_visible d : DebugProofs.wf d -> Forall visible (compact d).
Proof.
  intros W. rewrite compact_layout. eapply Forall_impl; [exact printable_visible|]. now apply layout_printable.
Qed.
Lemma pretty_visible d : DebugProofs.wf d -> Forall visible_or_newline (pretty d).
Proof.
  intros W. rewrite pretty_layout by exact W. eapply Forall_impl; [|now apply layout_lines].
  intros b [H|H]; [left; now apply printable_visible|now right].
Qed.

(** ** Theorems *)

(** A decoded request prints as its type, then each accessor's name and value
    in a fixed order; nothing in it - no file name, no attribute, no written
    data - puts a control character or a byte above 126 into the text, and on
    one line it stays on one line. *)
Theorem C58_shape is_cuse cf lm t buf rq d :
  In lm lock_targets -> Request_new buf = Ret rq -> debug_decoded is_cuse cf lm t rq = Ret d ->
  Forall visible (compact d) /\ Forall visible_or_newline (pretty d) /\
  (exists values, List.length values = List.length (labels t) /\
     compact d = one_line (txt (title t)) (map txt (labels t)) values) /\
  (exists values, List.length values = List.length (labels t) /\
     pretty d = many_lines (txt (title t)) (map txt (labels t)) values).
Proof.
  intros T Rq D. unfold debug_decoded in D.
  destruct (decode_view is_cuse cf t rq) as [v| | |] eqn:V; try discriminate D.
  cbn [bind] in D. injection D as <-. pose proof (decode_type _ _ _ _ _ V) as Ty.
  pose proof (view_wf lm v T) as W.
  split; [now apply compact_visible|].
  split; [now apply pretty_visible|].
  destruct (view_struct lm v) as (fields & Ev & El). rewrite Ev in *. rewrite Ty in *.
  destruct fields as [|f fields]; [exfalso; now apply (labels_some t)|].
  rewrite <- El, !map_map, compact_struct, pretty_struct by exact W.
  split; eexists; (split; [|reflexivity]); rewrite !map_length; reflexivity.
Qed.

(** The text tells everything: if two decoded requests print the same - by
    [{:?}] or by [{:#?}] - every accessor of them returns the same. *)
Theorem C58_faithful lm is_cuse1 cf1 t1 buf1 rq1 v1 is_cuse2 cf2 t2 buf2 rq2 v2 :
  In lm lock_targets ->
  Request_new buf1 = Ret rq1 -> decode_view is_cuse1 cf1 t1 rq1 = Ret v1 ->
  Request_new buf2 = Ret rq2 -> decode_view is_cuse2 cf2 t2 rq2 = Ret v2 ->
  compact (debug_view lm v1) = compact (debug_view lm v2) \/
  pretty (debug_view lm v1) = pretty (debug_view lm v2) ->
  t1 = t2 /\ v1 = v2.
Proof.
  intros T R1 V1 R2 V2 H.
  apply Request_new_accepted in R1 as [_ A1], R2 as [_ A2].
  pose proof (decode_view_ranged _ _ _ _ _ A1 V1) as G1.
  pose proof (decode_view_ranged _ _ _ _ _ A2 V2) as G2.
  assert (v1 = v2) as ->.
  { apply (view_inj lm); auto. destruct H as [H|H]; [apply compact_inj|apply pretty_inj]; auto using view_wf. }
  split; [|reflexivity]. rewrite <- (decode_type _ _ _ _ _ V1). apply (decode_type _ _ _ _ _ V2).
Qed.

(** A string in the text ends at its first quote that is not escaped, and what
    is before it stands for the bytes of the string: no name or value can look
    like the end of itself followed by other fields. *)
Theorem C58_literal s rest :
  exists body, str_text s = [x22] ++ body ++ [x22] /\
  read_literal (S (List.length s)) (body ++ x22 :: rest) = Some (s, rest).
Proof.
  exists (flat_map escape_byte s). split; [reflexivity|]. apply read_literal_end. lia.
Qed.

(** Lock modes print as the names the kernel of the target gives to the
    numbers: Linux, Linux on alpha, on sparc and parisc, FreeBSD. *)
Theorem C58_lock_modes mode :
  let name lm := compact (debug_lock_mode lm mode) in
  Forall2 (fun lm '(read, write, unlock) =>
    (name lm = txt "F_RDLCK" <-> mode = read) /\ (name lm = txt "F_WRLCK" <-> mode = write) /\
    (name lm = txt "F_UNLCK" <-> mode = unlock))
    lock_targets [(0, 1, 2); (1, 2, 8); (1, 2, 3); (1, 3, 2)].
Proof.
  intros name.
  assert (X : forall lm r w u, F_RDLCK lm = r -> F_WRLCK lm = w -> F_UNLCK lm = u -> r <> w -> r <> u -> w <> u ->
    (name lm = txt "F_RDLCK" <-> mode = r) /\ (name lm = txt "F_WRLCK" <-> mode = w) /\
    (name lm = txt "F_UNLCK" <-> mode = u)).
  { intros lm r w u <- <- <- N1 N2 N3. unfold name, debug_lock_mode.
    destruct (N.eqb_spec mode (F_RDLCK lm)) as [->|M1].
    { split; [|split]; (split; intros H; first [reflexivity|discriminate H|congruence]). }
    destruct (N.eqb_spec mode (F_WRLCK lm)) as [->|M2].
    { split; [|split]; (split; intros H; first [reflexivity|discriminate H|congruence]). }
    destruct (N.eqb_spec mode (F_UNLCK lm)) as [->|M3].
    { split; [|split]; (split; intros H; first [reflexivity|discriminate H|congruence]). }
    split; [|split]; (split; intros H; [exfalso; discriminate H|congruence]). }
  do 4 (apply Forall2_cons; [apply X; (reflexivity || discriminate)|]). constructor.
Qed.

(** The opcodes in the order of the kernel's header, from 1 on; 7 and 19 are
    not used.  The three numbers outside this range are CUSE_INIT and the two
    reserved byte-swapped ones. *)
Definition opcode_list : list string :=
  ["LOOKUP"; "FORGET"; "GETATTR"; "SETATTR"; "READLINK"; "SYMLINK"; ""; "MKNOD"; "MKDIR"; "UNLINK";
   "RMDIR"; "RENAME"; "LINK"; "OPEN"; "READ"; "WRITE"; "STATFS"; "RELEASE"; ""; "FSYNC"; "SETXATTR";
   "GETXATTR"; "LISTXATTR"; "REMOVEXATTR"; "FLUSH"; "INIT"; "OPENDIR"; "READDIR"; "RELEASEDIR";
   "FSYNCDIR"; "GETLK"; "SETLK"; "SETLKW"; "ACCESS"; "CREATE"; "INTERRUPT"; "BMAP"; "DESTROY"; "IOCTL";
   "POLL"; "NOTIFY_REPLY"; "BATCH_FORGET"; "FALLOCATE"; "READDIRPLUS"; "RENAME2"; "LSEEK";
   "COPY_FILE_RANGE"; "SETUPMAPPING"; "REMOVEMAPPING"; "SYNCFS"]%string.
Definition opcode_name (n : N) : option bytes :=
  if n =? 0x1000 then Some (txt "CUSE_INIT")
  else if n =? 0x100000 then Some (txt "CUSE_INIT_BSWAP_RESERVED")
  else if n =? 0x1a000000 then Some (txt "FUSE_INIT_BSWAP_RESERVED")
  else if n =? 0 then None
  else match nth_error opcode_list (N.to_nat (N.min n 64 - 1)) with
       | Some ""%string | None => None
       | Some s => Some (txt "FUSE_" ++ txt s)
       end.

Theorem C58_opcodes n :
  compact (debug_opcode n) =
  match opcode_name n with
  | Some s => s
  | None => txt "fuse_opcode(" ++ compact (debug_int n) ++ txt ")"
  end.
Proof.
  destruct (N.le_gt_cases n 50) as [L|L].
  - assert (G : forallb (fun k => let n := N.of_nat k in
        if list_eq_dec Byte.byte_eq_dec (compact (debug_opcode n))
             match opcode_name n with
             | Some s => s
             | None => txt "fuse_opcode(" ++ compact (debug_int n) ++ txt ")"
             end then true else false) (seq 0 51) = true) by (vm_compute; reflexivity).
    rewrite forallb_forall in G. specialize (G (N.to_nat n)). cbv zeta in G. rewrite N2Nat.id in G.
    destruct (list_eq_dec _ _ _) as [H|H]; [exact H|].
    assert (false = true) by (apply G, in_seq; lia). discriminate.
  - unfold opcode_name. destruct (N.eqb_spec n 0x1000) as [->|N1]; [vm_compute; reflexivity|].
    destruct (N.eqb_spec n 0x100000) as [->|N2]; [vm_compute; reflexivity|].
    destruct (N.eqb_spec n 0x1a000000) as [->|N3]; [vm_compute; reflexivity|].
    destruct (N.eqb_spec n 0); [lia|].
    replace (nth_error opcode_list _) with (@None string).
    2: { symmetry. apply nth_error_None. change (length opcode_list) with 50%nat. lia. }
    unfold debug_opcode.
    destruct (find (fun e => fst e =? n) opcode_names) as [e|] eqn:F; [|reflexivity].
    apply find_some in F as [F1 F2]. exfalso. apply N.eqb_eq in F2. subst n.
    assert (G : forallb (fun e => (fst e <=? 50) || (fst e =? 0x1000) || (fst e =? 0x100000)
                                  || (fst e =? 0x1a000000)) opcode_names = true) by reflexivity.
    rewrite forallb_forall in G. specialize (G e F1). lia.
Qed.

(** Where LSEEK is to search is named as by lseek(2), other values are numbers. *)
Theorem C58_whence n :
  (compact (debug_whence n) = txt "SEEK_DATA" <-> n = 3) /\
  (compact (debug_whence n) = txt "SEEK_HOLE" <-> n = 4) /\
  (n <> 3 -> n <> 4 -> compact (debug_whence n) = compact (debug_int n)).
Proof.
  assert (K : forall s, compact (debug_int n) = x53 :: s -> False).
  { intros s H. eapply (int_not_letter n x53); [reflexivity|]. unfold debug_int in *. cbn [compact] in H.
    rewrite H. reflexivity. }
  unfold debug_whence. destruct (N.eqb_spec n 3) as [->|N3]; [repeat split; intros; (discriminate || contradiction || reflexivity)|].
  destruct (N.eqb_spec n 4) as [->|N4]; [repeat split; intros; (discriminate || contradiction || reflexivity)|].
  split; [split; [intros H; now apply K in H|contradiction]|].
  split; [split; [intros H; now apply K in H|contradiction]|]. reflexivity.
Qed.

(** [s] is [n] written in base [base] with at least [width] digits and no
    zeros on the left beyond these. *)
Definition numeral (base : N) (width : nat) (n : N) (s : bytes) : Prop :=
  forallb (fun b => digitc b && (digit_value b <? base)) s = true /\
  read_number base 0 s = n /\
  (width <= List.length s)%nat /\ ((width < List.length s)%nat -> hd_error s <> Some x30).

Lemma num_digits_below fuel base n acc :
  2 <= base -> base <= 16 ->
  forallb (fun b => digitc b && (digit_value b <? base)) acc = true ->
  forallb (fun b => digitc b && (digit_value b <? base)) (num_digits fuel base n acc) = true.
Proof.
  intros B1 B2. revert n acc; induction fuel as [|f IH]; intros n acc H; cbn [num_digits]; [exact H|].
  pose proof (N.mod_lt n base ltac:(lia)) as M.
  assert (D : forallb (fun b => digitc b && (digit_value b <? base)) (digit_byte (n mod base) :: acc) = true).
  { cbn [forallb]. rewrite H, digit_byte_digitc, digit_value_byte by lia. lia. }
  destruct (n / base =? 0); [exact D|]. now apply IH.
Qed.
Lemma digit_byte_zero d : d < 16 -> digit_byte d = x30 -> d = 0.
Proof.
  intros L. apply (digit_cases (fun d => digit_byte d = x30 -> d = 0)); auto; vm_compute; discriminate.
Qed.
(** The first digit of a number other than 0 is not 0. *)
Lemma num_digits_first fuel base n acc :
  2 <= base -> base <= 16 -> n <> 0 -> n < 2 ^ N.of_nat fuel ->
  hd_error (num_digits fuel base n acc) <> Some x30.
Proof.
  intros B1 B2. revert n acc; induction fuel as [|f IH]; intros n acc Z L; cbn [num_digits].
  { change (2 ^ N.of_nat 0) with 1 in L. lia. }
  pose proof (N.mod_lt n base ltac:(lia)) as M. pose proof (N.div_mod n base ltac:(lia)) as D.
  destruct (N.eqb_spec (n / base) 0) as [Q|Q].
  - cbn [hd_error]. intros Y. injection Y as Y. apply digit_byte_zero in Y; [|lia]. rewrite Q, Y in D. lia.
  - apply IH; [exact Q|]. apply N.div_lt_upper_bound; [lia|].
    rewrite Nat2N.inj_succ, N.pow_succ_r' in L. nia.
Qed.
Lemma numeral_text base n : 2 <= base -> base <= 16 -> numeral base 1 n (num_text base n).
Proof.
  intros B1 B2. split; [now apply num_digits_below|]. split; [now apply read_num_text|].
  split. { pose proof (num_text_nonempty base n). destruct (num_text base n); [congruence|cbn; lia]. }
  intros W. destruct (N.eq_dec n 0) as [->|Z].
  - exfalso. unfold num_text in W. change (N.size_nat 0) with 0%nat in W. cbn [num_digits] in W.
    rewrite N.div_0_l in W by lia. change (0 =? 0) with true in W. cbn [List.length] in W. lia.
  - unfold num_text. apply num_digits_first; auto.
    pose proof (size_nat_bound n). rewrite Nat2N.inj_succ, N.pow_succ_r'. lia.
Qed.
Lemma numeral_pad base width n :
  2 <= base -> base <= 16 -> (1 <= width)%nat -> numeral base width n (zero_pad width (num_text base n)).
Proof.
  intros B1 B2 W. destruct (numeral_text base n B1 B2) as (F & R & L & H). unfold zero_pad.
  split. { rewrite forallb_app, F, andb_true_r. apply forallb_forall. intros c I. apply repeat_spec in I. subst c.
           change (digitc x30) with true. change (digit_value x30) with 0. lia. }
  split; [now rewrite read_zeros|]. rewrite app_length, repeat_length. split; [lia|].
  intros G. replace (width - List.length (num_text base n))%nat with 0%nat by lia. apply H. lia.
Qed.
(** Such a text is the only one, and has exactly [width] digits if the number
    fits in them. *)
Lemma read_below base s acc :
  2 <= base -> forallb (fun b => digitc b && (digit_value b <? base)) s = true ->
  acc * base ^ N.of_nat (List.length s) <= read_number base acc s.
Proof.
  intros B. revert acc. induction s as [|b s IH]; intros acc F.
  - cbn. lia.
  - cbn [forallb] in F. apply andb_prop in F as [F1 F2].
    change (read_number base acc (b :: s)) with (read_number base (acc * base + digit_value b) s).
    pose proof (IH (acc * base + digit_value b) F2) as G. cbn [List.length].
    rewrite Nat2N.inj_succ, N.pow_succ_r'. nia.
Qed.
Lemma numeral_width base width n s :
  2 <= base -> numeral base width n s -> n < base ^ N.of_nat width -> List.length s = width.
Proof.
  intros B (F & R & W & H) L. destruct (Nat.eq_dec (List.length s) width) as [Y|Y]; [exact Y|].
  exfalso. assert (W' : (width < List.length s)%nat) by lia. specialize (H W').
  destruct s as [|b s]; [cbn in W'; lia|]. cbn [hd_error] in H.
  cbn [forallb] in F. apply andb_prop in F as [F1 F2]. cbn [List.length] in W'.
  assert (D : digit_value b <> 0).
  { intros D. apply H. f_equal. apply andb_prop in F1 as [F1 _]. clear - F1 D.
    destruct b; vm_compute in F1, D; congruence. }
  pose proof (read_below base s (0 * base + digit_value b) B F2) as G.
  change (read_number base (0 * base + digit_value b) s) with (read_number base 0 (b :: s)) in G.
  rewrite R in G.
  assert (base ^ N.of_nat width <= base ^ N.of_nat (List.length s)) by (apply N.pow_le_mono_r; lia).
  nia.
Qed.

(** The text of a number, of numbers in the widths of the API, and of the
    values made of them. *)
Theorem C58_numbers n :
  (exists s, compact (debug_int n) = s /\ numeral 10 1 n s) /\
  (exists s, compact (debug_octal n) = txt "0o" ++ s /\ numeral 8 1 n s) /\
  (n < 2 ^ 32 -> exists s, compact (hex_u32 n) = txt "0x" ++ s /\ numeral 16 8 n s /\ List.length s = 8%nat) /\
  (n < 2 ^ 64 -> exists s, compact (hex_u64 n) = txt "0x" ++ s /\ numeral 16 16 n s /\ List.length s = 16%nat).
Proof.
  split; [exists (num_text 10 n); split; [reflexivity|apply numeral_text; lia]|].
  split; [exists (num_text 8 n); split; [reflexivity|apply numeral_text; lia]|].
  split; intros L.
  - exists (zero_pad 8 (num_text 16 n)). split; [reflexivity|].
    assert (X : numeral 16 8 n (zero_pad 8 (num_text 16 n))) by (apply numeral_pad; lia).
    split; [exact X|]. eapply numeral_width; [|exact X|]; [lia|]. change (16 ^ N.of_nat 8) with (2 ^ 32). lia.
  - exists (zero_pad 16 (num_text 16 n)). split; [reflexivity|].
    assert (X : numeral 16 16 n (zero_pad 16 (num_text 16 n))) by (apply numeral_pad; lia).
    split; [exact X|]. eapply numeral_width; [|exact X|]; [lia|]. change (16 ^ N.of_nat 16) with (2 ^ 64). lia.
Qed.

Theorem C58_time_text t :
  ut_nanos t < 1000000000 ->
  exists s f, compact (debug_time t) =
    txt "UnixTime(" ++ (if (ut_seconds t <? 0)%Z then txt "-" else []) ++ s ++ txt "." ++ f ++ txt ")" /\
  numeral 10 1 (Z.abs_N (ut_seconds t)) s /\ numeral 10 9 (ut_nanos t) f /\ List.length f = 9%nat.
Proof.
  intros L. exists (num_text 10 (Z.abs_N (ut_seconds t))), (zero_pad 9 (num_text 10 (ut_nanos t))).
  split. { unfold debug_time. cbn -[num_text zero_pad]. rewrite ?app_nil_r. destruct (ut_seconds t <? 0)%Z;
    cbn -[num_text zero_pad]; rewrite <- ?app_assoc; cbn -[num_text zero_pad]; rewrite <- ?app_assoc; reflexivity. }
  assert (X : numeral 10 9 (ut_nanos t) (zero_pad 9 (num_text 10 (ut_nanos t)))) by (apply numeral_pad; lia).
  split; [apply numeral_text; lia|]. split; [exact X|].
  eapply numeral_width; [|exact X|]; [lia|]. exact L.
Qed.

Theorem C58_texts lm (v : Version) (r : LockRange) (l : Lock) (item : N * N) (o : option N) :
  let int n := compact (debug_int n) in
  let opt o := match o with Some n => txt "Some(" ++ int n ++ txt ")" | None => txt "None" end in
  compact (debug_bool true) = txt "true" /\ compact (debug_bool false) = txt "false" /\
  compact (debug_option debug_int o) = opt o /\
  compact (debug_version v) =
    txt "Version { major: " ++ int (v_major v) ++ txt ", minor: " ++ int (v_minor v) ++ txt " }" /\
  compact (debug_lock_range r) =
    txt "LockRange { start: " ++ int (lr_start r) ++ txt ", length: " ++ opt (lr_length r) ++ txt " }" /\
  compact (debug_lock lm l) =
    txt "Lock { mode: " ++ compact (debug_lock_mode lm (lk_mode l)) ++
    txt ", range: " ++ compact (debug_lock_range (lk_range l)) ++
    txt ", process_id: " ++ opt (lk_pid l) ++ txt " }" /\
  compact (debug_forget_item item) =
    txt "ForgetRequestItem { node_id: " ++ int (fst item) ++ txt ", lookup_count: " ++ int (snd item) ++ txt " }".
Proof.
  cbv zeta.
  split; [reflexivity|]. split; [reflexivity|].
  split; [destruct o; reflexivity|].
  split; [cbn -[num_text]; rewrite <- ?app_assoc; reflexivity|].
  split; [destruct r as [a [b|]]; cbn -[num_text]; rewrite <- ?app_assoc; reflexivity|].
  split; [|cbn -[num_text]; rewrite <- ?app_assoc; reflexivity].
  destruct l as [m r1 [p|]]; do 3 (cbn -[num_text debug_lock_mode debug_lock_range]; rewrite <- ?app_assoc); reflexivity.
Qed.

(** A request that is not decoded can be printed if its length field covers
    the header.  Otherwise printing panics, or is undefined if the length is 0:
    [FuseRequest::new] accepts such a message. *)
Lemma debug_raw_eq is_cuse buf rq :
  Request_new buf = Ret rq ->
  debug_raw is_cuse rq =
  if u32_at 0 buf =? 0 then Ub else if u32_at 0 buf <? 40 then Panic else
  Ret (debug_struct (if is_cuse then "CuseRequest" else "FuseRequest")
    [("header", debug_struct "RequestHeader"
       [("request_id", debug_int (u64_at 8 buf)); ("request_len", debug_int (u32_at 0 buf));
        ("opcode", debug_opcode (u32_at 4 buf)); ("node_id", debug_option debug_int (NodeId_new (u64_at 16 buf)));
        ("user_id", debug_int (u32_at 24 buf)); ("group_id", debug_int (u32_at 28 buf));
        ("process_id", debug_option debug_int (if u32_at 32 buf =? 0 then None else Some (u32_at 32 buf)))]);
     ("body", debug_list (map debug_u8 (slice 40 (u32_at 0 buf - 40) buf)))]).
Proof.
  intros H. destruct (Request_new_accepted buf rq H) as [-> A].
  pose proof (as_bytes_eq _ A) as AB. destruct A as (A1 & A2 & A3). cbn [rq_mem] in *.
  unfold debug_raw, debug_header, body. rewrite AB.
  unfold header_request_id, header_request_len, header_opcode, header_node_id,
    header_user_id, header_group_id, header_process_id, raw_header, IN_HEADER_SIZE,
    hdr_unique, hdr_len, hdr_opcode, hdr_nodeid, hdr_uid, hdr_gid, hdr_pid, nonzero_unchecked.
  cbn [rq_mem]. rewrite mem_read_ok by lia. cbn [bind].
  rewrite !hdr_rd32, !hdr_rd64 by lia. cbn [bind].
  destruct (N.eqb_spec (u64_at 8 buf) 0); [lia|]. cbn [bind].
  destruct (N.eqb_spec (u32_at 0 buf) 0); [reflexivity|]. cbn [bind].
  assert (L : nlen (take (u32_at 0 buf) buf) = u32_at 0 buf) by (rewrite nlen_take; lia).
  rewrite L. destruct (N.ltb_spec (u32_at 0 buf) 40); [reflexivity|]. cbn [bind].
  rewrite drop_take. reflexivity.
Qed.

Lemma raw_wf is_cuse buf rq d :
  Request_new buf = Ret rq -> debug_raw is_cuse rq = Ret d -> DebugProofs.wf d.
Proof.
  intros H D. rewrite (debug_raw_eq _ _ _ H) in D.
  destruct (u32_at 0 buf =? 0); [discriminate D|]. destruct (u32_at 0 buf <? 40); [discriminate D|].
  injection D as <-. apply wf_struct; [destruct is_cuse; now apply word_dec|discriminate|].
  fields.
  - apply wf_struct; [now apply word_dec|discriminate|].
    fields; try apply int_ok; try apply opcode_ok; apply (option_any _ int_ok).
  - apply (list_ok _ u8_ok).
Qed.

Theorem C58_raw_defined is_cuse buf rq :
  Request_new buf = Ret rq ->
  (u32_at 0 buf = 0 -> debug_raw is_cuse rq = Ub) /\
  (0 < u32_at 0 buf < 40 -> debug_raw is_cuse rq = Panic) /\
  (40 <= u32_at 0 buf -> exists d, debug_raw is_cuse rq = Ret d /\
     Forall visible (compact d) /\ Forall visible_or_newline (pretty d)).
Proof.
  intros H. pose proof (debug_raw_eq is_cuse buf rq H) as Q. split; [|split].
  - intros L. rewrite L in Q. exact Q.
  - intros L. destruct (N.eqb_spec (u32_at 0 buf) 0); [lia|].
    destruct (N.ltb_spec (u32_at 0 buf) 40); [exact Q|lia].
  - intros L. destruct (N.eqb_spec (u32_at 0 buf) 0); [lia|].
    destruct (N.ltb_spec (u32_at 0 buf) 40); [lia|].
    eexists. split; [exact Q|]. apply (raw_wf _ _ _ _ H) in Q.
    split; [now apply compact_visible|].
    now apply pretty_visible.
Qed.

(** Two such requests that print the same are the same, but for the padding of
    the header and what follows the message in the buffer. *)
Theorem C58_raw_faithful c1 buf1 rq1 d1 c2 buf2 rq2 d2 :
  Request_new buf1 = Ret rq1 -> debug_raw c1 rq1 = Ret d1 ->
  Request_new buf2 = Ret rq2 -> debug_raw c2 rq2 = Ret d2 ->
  compact d1 = compact d2 \/ pretty d1 = pretty d2 ->
  c1 = c2 /\ u32_at 0 buf1 = u32_at 0 buf2 /\ u32_at 4 buf1 = u32_at 4 buf2 /\
  u64_at 8 buf1 = u64_at 8 buf2 /\ u64_at 16 buf1 = u64_at 16 buf2 /\
  u32_at 24 buf1 = u32_at 24 buf2 /\ u32_at 28 buf1 = u32_at 28 buf2 /\
  u32_at 32 buf1 = u32_at 32 buf2 /\
  slice 40 (u32_at 0 buf1 - 40) buf1 = slice 40 (u32_at 0 buf2 - 40) buf2.
Proof.
  intros R1 D1 R2 D2 H.
  assert (F : flat d1 = flat d2).
  { destruct H; [apply compact_inj|apply pretty_inj]; eauto using raw_wf. }
  clear H. rewrite (debug_raw_eq _ _ _ R1) in D1. rewrite (debug_raw_eq _ _ _ R2) in D2.
  destruct (u32_at 0 buf1 =? 0); [discriminate D1|]. destruct (u32_at 0 buf1 <? 40); [discriminate D1|].
  destruct (u32_at 0 buf2 =? 0); [discriminate D2|]. destruct (u32_at 0 buf2 <? 40); [discriminate D2|].
  injection D1 as <-. injection D2 as <-.
  apply struct_inj in F as [N F]. cbn [map snd] in F.
  apply cons_inj in F as [Fh F]. apply cons_inj in F as [Fb _].
  apply (proj2 (list_ok _ u8_ok)) in Fb; try exact I.
  apply struct_inj in Fh as [_ F]. cbn [map snd] in F.
  apply cons_inj in F as [F1 F]. apply cons_inj in F as [F2 F]. apply cons_inj in F as [F3 F].
  apply cons_inj in F as [F4 F]. apply cons_inj in F as [F5 F]. apply cons_inj in F as [F6 F].
  apply cons_inj in F as [F7 _].
  apply (proj2 int_ok) in F1, F2, F5, F6; try exact I.
  apply (proj2 opcode_ok) in F3; try exact I.
  apply (proj2 (option_any _ int_ok)) in F4, F7; try exact I.
  unfold NodeId_new in F4.
  split; [destruct c1, c2; try reflexivity; discriminate N|].
  split; [exact F2|]. split; [exact F3|]. split; [exact F1|].
  split; [destruct (N.eqb_spec (u64_at 16 buf1) 0), (N.eqb_spec (u64_at 16 buf2) 0); congruence|].
  split; [exact F5|]. split; [exact F6|].
  split; [destruct (N.eqb_spec (u32_at 32 buf1) 0), (N.eqb_spec (u32_at 32 buf2) 0); congruence|].
  exact Fb.
Qed.
End Debug.

(** * Examples *)

Local Instance LE : Endian := false.

Definition num32 (n : N) : bytes := wire [u32 n].
Definition num64 (n : N) : bytes := wire [u64 n].
(** A message with the length field, opcode and content given, from node 5 *)
Definition message (len opcode : N) (content : bytes) : bytes :=
  num32 len ++ num32 opcode ++ num64 3 ++ num64 5 ++ num32 1000 ++ num32 100 ++ num32 77 ++ num32 0
  ++ content.
Definition latest : config :=
  {| cf_minor := 36; cf_setxattr_ext := false; cf_overflow_checks := true |}.

(** A name made of a quote, a newline, a backslash, a NUL-free control
    character and a byte above 127 *)
Definition nasty : bytes := [x22; x0a; x5c; x01; xff].

Example C58_shape_example :
  In linux_locks lock_targets /\
  exists rq d,
    Request_new (message 46 1 (nasty ++ [x00])) = Ret rq /\
    debug_decoded false latest linux_locks RLookup rq = Ret d /\
    compact d = txt "LookupRequest { parent_id: 5, name: ""\""\n\\\x01\xff"" }" /\
    pretty d = txt "LookupRequest {
    parent_id: 5,
    name: ""\""\n\\\x01\xff"",
}".
Proof.
  split; [left; reflexivity|]. do 2 eexists. split; [vm_compute; reflexivity|].
  split; [vm_compute; reflexivity|]. split; vm_compute; reflexivity.
Qed.

Example C58_opcodes_example :
  compact (debug_opcode 21) = txt "FUSE_SETXATTR" /\ compact (debug_opcode 7) = txt "fuse_opcode(7)".
Proof. split; vm_compute; reflexivity. Qed.

Example C58_whence_example :
  compact (debug_whence 4) = txt "SEEK_HOLE" /\ compact (debug_whence 2) = txt "2".
Proof. split; vm_compute; reflexivity. Qed.

Example C58_numbers_example :
  compact (debug_int 0) = txt "0" /\ compact (debug_octal 420) = txt "0o644" /\
  compact (hex_u32 48879) = txt "0x0000BEEF" /\ compact (hex_u64 48879) = txt "0x000000000000BEEF".
Proof. repeat split; vm_compute; reflexivity. Qed.

Example C58_time_text_example :
  ut_nanos {| ut_seconds := -7; ut_nanos := 30 |} < 1000000000 /\
  compact (debug_time {| ut_seconds := -7; ut_nanos := 30 |}) = txt "UnixTime(-7.000000030)".
Proof. split; vm_compute; reflexivity. Qed.

Example C58_texts_example :
  compact (debug_lock linux_locks {| lk_mode := 1; lk_range := {| lr_start := 5; lr_length := None |}; lk_pid := Some 9 |})
  = txt "Lock { mode: F_WRLCK, range: LockRange { start: 5, length: None }, process_id: Some(9) }".
Proof. vm_compute; reflexivity. Qed.

Example C58_lock_modes_example :
  compact (debug_lock_mode alpha_locks 8) = txt "F_UNLCK" /\
  compact (debug_lock_mode linux_locks 8) = txt "LockMode(8)".
Proof. split; vm_compute; reflexivity. Qed.

(** The same name in two requests of different types, and two names in requests
    of the same type, print differently. *)
Example C58_faithful_example :
  exists rq1 v1 rq2 v2 rq3 v3,
    Request_new (message 46 1 (nasty ++ [x00])) = Ret rq1 /\
    decode_view false latest RLookup rq1 = Ret v1 /\
    Request_new (message 46 10 (nasty ++ [x00])) = Ret rq2 /\
    decode_view false latest RUnlink rq2 = Ret v2 /\
    Request_new (message 44 1 [x5c; x78; x61; x00]) = Ret rq3 /\
    decode_view false latest RLookup rq3 = Ret v3 /\
    compact (debug_view linux_locks v2) = txt "UnlinkRequest { parent_id: 5, name: ""\""\n\\\x01\xff"" }" /\
    compact (debug_view linux_locks v3) = txt "LookupRequest { parent_id: 5, name: ""\\xa"" }".
Proof.
  do 6 eexists. split; [vm_compute; reflexivity|]. split; [vm_compute; reflexivity|].
  split; [vm_compute; reflexivity|]. split; [vm_compute; reflexivity|].
  split; [vm_compute; reflexivity|]. split; [vm_compute; reflexivity|].
  split; vm_compute; reflexivity.
Qed.

Example C58_literal_example :
  str_text nasty = txt """\""\n\\\x01\xff""" /\
  read_literal 6 (txt "\""\n\\\x01\xff"" }") = Some (nasty, txt " }").
Proof. split; vm_compute; reflexivity. Qed.

(** Three requests that [FuseRequest::new] accepts: the last can be printed. *)
Example C58_raw_defined_example :
  exists rq0 rq39 rq42 d,
    Request_new (message 0 1 [x61; x00]) = Ret rq0 /\ debug_raw false rq0 = Ub /\
    Request_new (message 39 1 [x61; x00]) = Ret rq39 /\ debug_raw false rq39 = Panic /\
    Request_new (message 42 1 [x61; x00]) = Ret rq42 /\ debug_raw false rq42 = Ret d /\
    compact d = txt "FuseRequest { header: RequestHeader { request_id: 3, request_len: 42, opcode: FUSE_LOOKUP, node_id: Some(5), user_id: 1000, group_id: 100, process_id: Some(77) }, body: [97, 0] }".
Proof.
  do 4 eexists. split; [vm_compute; reflexivity|]. split; [vm_compute; reflexivity|].
  split; [vm_compute; reflexivity|]. split; [vm_compute; reflexivity|].
  split; [vm_compute; reflexivity|]. split; vm_compute; reflexivity.
Qed.

(** What follows the message in the buffer is not printed. *)
Example C58_raw_faithful_example :
  exists rq1 d1 rq2 d2,
    Request_new (message 42 1 [x61; x00; xff]) = Ret rq1 /\ debug_raw true rq1 = Ret d1 /\
    Request_new (message 42 1 [x61; x00]) = Ret rq2 /\ debug_raw true rq2 = Ret d2 /\
    pretty d1 = pretty d2.
Proof.
  do 4 eexists. split; [vm_compute; reflexivity|]. split; [vm_compute; reflexivity|].
  split; [vm_compute; reflexivity|]. split; vm_compute; reflexivity.
Qed.

(** What is printed for a request of each type, with a different value in each
    place; the texts were compared with the [fmt] functions of /repo. *)
Definition samples : list (view * string) :=
  [(VAccess 101 102,
    "AccessRequest { node_id: 101, mask: 102 }");
   (VBmap 101 102 103,
    "BmapRequest { node_id: 101, block: 102, block_size: 103 }");
   (VCopyFileRange 101 102 103 104 105 106 107 1,
    "CopyFileRangeRequest { input_node_id: 101, input_handle: 102, input_offset: 103, output_node_id: 104, output_handle: 105, output_offset: 106, len: 107, flags: CopyFileRangeRequestFlags {0x0000000000000001} }");
   (VCreate 101 (txt "n2") 1 104 420 106,
    "CreateRequest { node_id: 101, name: ""n2"", flags: CreateRequestFlags {KILL_SUIDGID}, open_flags: 0x00000068, mode: 0o644, umask: 106 }");
   (VCuseInit {| v_major := 7; v_minor := 31 |} 1,
    "CuseInitRequest { version: Version { major: 7, minor: 31 }, flags: CuseInitFlags {UNRESTRICTED_IOCTL} }");
   (VFallocate 101 102 103 104 105,
    "FallocateRequest { node_id: 101, handle: 102, offset: 103, length: 104, fallocate_flags: 0x00000069 }");
   (VFlush 101 102 103,
    "FlushRequest { node_id: 101, handle: 102, lock_owner: 0x0000000000000067 }");
   (VForget [(101, 2); (102, 3)],
    "ForgetRequest { items: [ForgetRequestItem { node_id: 101, lookup_count: 2 }, ForgetRequestItem { node_id: 102, lookup_count: 3 }] }");
   (VFsync 101 102 1,
    "FsyncRequest { node_id: 101, handle: 102, flags: FsyncRequestFlags {FDATASYNC} }");
   (VFsyncdir 101 102 1,
    "FsyncdirRequest { node_id: 101, handle: 102, flags: FsyncdirRequestFlags {FDATASYNC} }");
   (VFuseInit {| v_major := 7; v_minor := 31 |} 102 1,
    "FuseInitRequest { version: Version { major: 7, minor: 31 }, max_readahead: 102, flags: FuseInitFlags {ASYNC_READ} }");
   (VGetattr 101 (Some 102),
    "GetattrRequest { node_id: 101, handle: Some(102) }");
   (VGetlk 101 102 103 1 {| lr_start := 105; lr_length := Some 106 |},
    "GetlkRequest { node_id: 101, handle: 102, owner: 0x0000000000000067, lock_mode: F_WRLCK, lock_range: LockRange { start: 105, length: Some(106) } }");
   (VGetxattr 101 (Some 102) (txt "n3"),
    "GetxattrRequest { node_id: 101, size: Some(102), name: ""n3"" }");
   (VInterrupt 101,
    "InterruptRequest { request_id: 101 }");
   (VIoctl 101 102 103 104 (txt "n5") 106 107 1,
    "IoctlRequest { node_id: 101, handle: 102, command: 0x00000067, arg: 0x0000000000000068, output_len: 107, flags: IoctlRequestFlags {IOCTL_COMPAT}, input: [110, 53] }");
   (VLink 101 102 (txt "n3"),
    "LinkRequest { node_id: 101, new_parent_id: 102, new_name: ""n3"" }");
   (VListxattr 101 (Some 102),
    "ListxattrRequest { node_id: 101, size: Some(102) }");
   (VLookup 101 (txt "n2"),
    "LookupRequest { parent_id: 101, name: ""n2"" }");
   (VLseek 101 102 103 3,
    "LseekRequest { node_id: 101, handle: 102, offset: 103, whence: SEEK_DATA }");
   (VMkdir 101 (txt "n2") 420 104,
    "MkdirRequest { parent_id: 101, name: ""n2"", mode: 0o644, umask: 0o150 }");
   (VMknod 101 (txt "n2") 420 104 (Some 105),
    "MknodRequest { parent_id: 101, name: ""n2"", mode: 0o644, umask: 0o150, device_number: Some(105) }");
   (VOpen 101 1 103,
    "OpenRequest { node_id: 101, flags: OpenRequestFlags {KILL_SUIDGID}, open_flags: 0x00000067 }");
   (VOpendir 101 1 103,
    "OpendirRequest { node_id: 101, flags: OpendirRequestFlags {KILL_SUIDGID}, open_flags: 0x00000067 }");
   (VPoll 101 102 103 1,
    "PollRequest { node_id: 101, poll_handle: 103, poll_events: 0x00000066, flags: PollRequestFlags {SCHEDULE_NOTIFY} }");
   (VRead 101 102 103 104 (Some 105) 106,
    "ReadRequest { node_id: 101, size: 102, offset: 103, handle: 104, lock_owner: Some(0x0000000000000069), open_flags: 0x0000006A }");
   (VReaddir 101 102 (Some 103) 104 105,
    "ReaddirRequest { node_id: 101, size: 102, offset: Some(103), handle: 104, open_flags: 0x00000069 }");
   (VReaddirplus 101 102 (Some 103) 104 105,
    "ReaddirplusRequest { node_id: 101, size: 102, offset: Some(103), handle: 104, open_flags: 0x00000069 }");
   (VReadlink 101,
    "ReadlinkRequest { node_id: 101 }");
   (VRelease 101 102 (Some 103) 104,
    "ReleaseRequest { node_id: 101, handle: 102, lock_owner: Some(0x0000000000000067), open_flags: 0x00000068 }");
   (VReleasedir 101 102 (Some 103) 104,
    "ReleasedirRequest { node_id: 101, handle: 102, lock_owner: Some(0x0000000000000067), open_flags: 0x00000068 }");
   (VRemovexattr 101 (txt "n2"),
    "RemovexattrRequest { node_id: 101, name: ""n2"" }");
   (VRename 101 (txt "n2") 103 (txt "n4") 105,
    "RenameRequest { old_directory_id: 101, old_name: ""n2"", new_directory_id: 103, new_name: ""n4"", rename_flags: 0x00000069 }");
   (VRmdir 101 (txt "n2"),
    "RmdirRequest { parent_id: 101, name: ""n2"" }");
   (VSetattr 101 (Some 102) (Some 103) (Some 104) (Some {| ut_seconds := 105; ut_nanos := 5 |}) true (Some {| ut_seconds := 107; ut_nanos := 7 |}) true (Some {| ut_seconds := 109; ut_nanos := 9 |}) (Some 420) (Some 111) (Some 112),
    "SetattrRequest { node_id: 101, handle: Some(102), size: Some(103), lock_owner: Some(0x0000000000000068), atime: Some(UnixTime(105.000000005)), atime_now: true, mtime: Some(UnixTime(107.000000007)), mtime_now: true, ctime: Some(UnixTime(109.000000009)), mode: Some(0o644), user_id: Some(111), group_id: Some(112) }");
   (VSetlk 101 102 true 104 {| lk_mode := 1; lk_range := {| lr_start := 105; lr_length := Some 106 |}; lk_pid := Some 107 |} 1,
    "SetlkRequest { node_id: 101, handle: 102, may_block: true, owner: 0x0000000000000068, lock: Lock { mode: F_WRLCK, range: LockRange { start: 105, length: Some(106) }, process_id: Some(107) }, flags: SetlkRequestFlags {LK_FLOCK} }");
   (VSetxattr 101 (txt "n2") 1 104 (txt "n5"),
    "SetxattrRequest { node_id: 101, name: ""n2"", flags: SetxattrRequestFlags {ACL_KILL_SGID}, setxattr_flags: 0x00000068, value: ""n5"" }");
   (VStatfs 101,
    "StatfsRequest { node_id: 101 }");
   (VSymlink 101 (txt "n2") (txt "n3"),
    "SymlinkRequest { parent_id: 101, name: ""n2"", content: ""n3"" }");
   (VUnlink 101 (txt "n2"),
    "UnlinkRequest { parent_id: 101, name: ""n2"" }");
   (VWrite 101 102 103 (txt "n4") 1 (Some 106) 107,
    "WriteRequest { node_id: 101, offset: 102, handle: 103, value: ""n4"", flags: WriteRequestFlags {WRITE_CACHE}, lock_owner: Some(0x000000000000006A), open_flags: 0x0000006B }")].
Example C58_values_example :
  map (fun p => compact (debug_view linux_locks (fst p))) samples = map (fun p => txt (snd p)) samples.
Proof. vm_compute. reflexivity. Qed.

Print Assumptions C58_shape.
Print Assumptions C58_faithful.
Print Assumptions C58_literal.
Print Assumptions C58_raw_defined.
Print Assumptions C58_raw_faithful.
Print Assumptions C58_lock_modes.
Print Assumptions C58_opcodes.
Print Assumptions C58_whence.
Print Assumptions C58_numbers.
Print Assumptions C58_time_text.
Print Assumptions C58_texts.
