(** Theorems about whole system calls on names, nodes and open files: C75 of
    properties.jsonl. *)

From Verif Require Import Base Kernel CoreModel DecodeModel OpsModel WireSpec OpsRoundTrip DecodeProofs
  ReplyModel ReplySpec ReplyProofs PropDecode PropHeader PropReply ListingModel PropListing
  ServerModel ServerSpec PropServer DeviceSpec PropDevice
  ClientSpec PropClient TakenSpec PropTaken FileSpec PropFile CallSpec.
From Coq Require Import List NArith ZArith Bool Lia ZifyBool ZifyNat ZifyN Strings.Byte.
Import ListNotations.
Open Scope list_scope.
Open Scope N_scope.

(** ** Specification *)

(** What a handler says; an entry and attributes are given by the setter calls
    that make them. *)
Inductive said :=
| SaidEntry (node : N) (aops : list attr_op) (ops : list entry_op)
| SaidFile (node : N) (aops : list attr_op) (ops : list entry_op) (fh flags : N)
| SaidAttr (node : N) (aops : list attr_op) (valid nsec : N)
| SaidText (t : bytes)
| SaidOpen (fh flags : N)
| SaidLock (first last type pid : N)
| SaidOffset (n : N)
| SaidCount (n : N)
| SaidSpace (ops : list statfs_op)
| SaidBlock (n : N)
| SaidEvents (n : N)
| SaidOk
| SaidError (e : Z).

Section Spec.
Context {E : Endian} {St : Type}.

(** The calls of the API it makes for that. *)
Definition answer_of (s : said) : answer :=
  match s with
  | SaidEntry node aops ops => AOk (REntryOut (entry_calls ops (Entry_new (attr_calls aops (NodeAttr_new node)))))
  | SaidFile node aops ops fh flags =>
    AOk (RCreateResponse (CreateResponse_set_flags flags (CreateResponse_set_handle fh
           (CreateResponse_new (entry_calls ops (Entry_new (attr_calls aops (NodeAttr_new node))))))))
  | SaidAttr node aops valid nsec =>
    AOk (RAttrOut {| ao_attr_valid := valid; ao_attr_valid_nsec := nsec; ao_attr := attr_calls aops (NodeAttr_new node) |})
  | SaidText t => AOkBuf t
  | SaidOpen fh flags => AOk (ROpenOut {| oo_fh := fh; oo_open_flags := flags |})
  | SaidLock first last type pid => AOk (RLkOut first last type pid)
  | SaidOffset n => AOk (RLseekOut n)
  | SaidCount n => AOk (RWriteOut n)
  | SaidSpace ops => AOk (RStatfsOut (fold_left (fun r o => statfs_call o r) ops Statfs_new))
  | SaidBlock n => AOk (RBmapOut n)
  | SaidEvents n => AOk (RPollOut n)
  | SaidOk => AOkEmpty
  | SaidError e => AErr e
  end.

(** A handler, and the program around it. *)
Definition handler := St -> view -> St * said.
Definition program_with (h : handler) : program St := fun s v =>
  let (s', a) := h s v in (s', answer_of a).

(** What the handler is asked: what the program that made the call said. *)
Definition moment (o : option (bool * (Z * N))) : option UnixTime :=
  match o with Some (_, (s, n)) => Some {| ut_seconds := s; ut_nanos := n |} | None => None end.
Definition is_now (o : option (bool * (Z * N))) : bool :=
  match o with Some (now, _) => now | None => false end.
(** A lock that goes to the end has no length. *)
Definition range_asked (first last : N) : LockRange :=
  {| lr_start := first; lr_length := if last =? 2 ^ 63 - 1 then None else Some (last - first + 1) |}.
Definition asked (c : sys_call) : view :=
  match c with
  | Lookup dir name => VLookup dir name
  | Stat node _ => VGetattr node None
  | Setattr node _ mode uid gid size fh owner atime mtime =>
    VSetattr node fh size owner (moment atime) (is_now atime) (moment mtime) (is_now mtime) None mode uid gid
  | Readlink node => VReadlink node
  | Access node mask => VAccess node mask
  | Mkdir dir name mode umask => VMkdir dir name mode umask
  (* a device number only for devices *)
  | Mknod dir name mode rdev umask =>
    VMknod dir name mode umask
      (if (file_type mode =? 8192) || (file_type mode =? 24576) then Some rdev else None)
  | Unlink dir name => VUnlink dir name
  | Rmdir dir name => VRmdir dir name
  | Rename dir name newdir newname flags => VRename dir name newdir newname flags
  | Link node _ dir name => VLink node dir name
  | Create dir name flags mode umask => VCreate dir name 0 flags mode umask
  | Open node flags => VOpen node 0 flags
  | Opendir node flags => VOpendir node 0 flags
  | Getlk node fh owner first last type _ => VGetlk node fh owner type (range_asked first last)
  | Setlk wait node fh owner first last type pid =>
    VSetlk node fh wait owner
      {| lk_mode := type; lk_range := range_asked first last; lk_pid := if pid =? 0 then None else Some pid |} 0
  | Lseek node fh offset whence => VLseek node fh offset whence
  | Fallocate node fh offset length mode => VFallocate node fh offset length mode
  | CopyFileRange node fh offset node' fh' offset' length =>
    VCopyFileRange node fh offset node' fh' offset' length 0
  | Fsync node fh flags => VFsync node fh flags
  | Fsyncdir node fh flags => VFsyncdir node fh flags
  | Symlink dir name target => VSymlink dir name target
  | Statfs node => VStatfs node
  | Flush node fh owner => VFlush node fh owner
  | Release node fh flags owner => VRelease node fh owner flags
  | Releasedir node fh flags => VReleasedir node fh None flags
  | Bmap node block size => VBmap node block size
  (* not the open file: see [C75_poll_refuted] *)
  | Poll node fh kh flags events => VPoll node events kh flags
  end.

(** The calls the kernel makes: node ids it was told, names that fit, numbers
    that fit their fields.  Not SYMLINK: see [C75_symlink_refuted]. *)
Definition id_ok (n : N) : Prop := 0 < n < U64.
Definition call_name (s : bytes) : Prop := good_name s /\ nlen s <= 1024.
Definition opt_below (bound : N) (o : option N) : Prop := match o with Some v => v < bound | None => True end.
Definition time_given (o : option (bool * (Z * N))) : Prop :=
  match o with Some (_, (s, n)) => (- 2 ^ 63 <= s < 2 ^ 63)%Z /\ n < 1000000000 | None => True end.
Definition call_ok (c : sys_call) : Prop :=
  match c with
  | Lookup dir name | Unlink dir name | Rmdir dir name => id_ok dir /\ call_name name
  | Stat node t => id_ok node /\ In t file_types
  | Setattr node t mode uid gid size fh owner atime mtime =>
    id_ok node /\ In t file_types /\ opt_below U32 mode /\ opt_below U32 uid /\ opt_below U32 gid /\
    opt_below U64 size /\ opt_below U64 fh /\ opt_below U64 owner /\ time_given atime /\ time_given mtime
  | Readlink node => id_ok node
  | Access node mask => id_ok node /\ mask < U32
  | Mkdir dir name mode umask => id_ok dir /\ call_name name /\ mode < U32 /\ umask < U32
  | Mknod dir name mode rdev umask =>
    id_ok dir /\ call_name name /\ mode < U32 /\ rdev < U32 /\ umask < U32 /\ In (file_type mode) file_types
  | Rename dir name newdir newname flags =>
    id_ok dir /\ call_name name /\ id_ok newdir /\ call_name newname /\ flags < U32
  | Link node t dir name => id_ok node /\ In t file_types /\ id_ok dir /\ call_name name
  | Create dir name flags mode umask => id_ok dir /\ call_name name /\ flags < U32 /\ mode < U32 /\ umask < U32
  | Open node flags | Opendir node flags => id_ok node /\ flags < U32
  | Getlk node fh owner first last type pid | Setlk _ node fh owner first last type pid =>
    id_ok node /\ fh < U64 /\ owner < U64 /\ first <= last < 2 ^ 63 /\ type < 3 /\ pid < U32
  | Lseek node fh offset whence => id_ok node /\ fh < U64 /\ offset < U64 /\ whence < U32
  | Fallocate node fh offset length mode =>
    id_ok node /\ fh < U64 /\ offset < U64 /\ length < U64 /\ mode < U32
  | CopyFileRange node fh offset node' fh' offset' length =>
    id_ok node /\ fh < U64 /\ offset < U64 /\ id_ok node' /\ fh' < U64 /\ offset' < U64 /\ length < U64
  | Fsync node fh flags | Fsyncdir node fh flags => id_ok node /\ fh < U64 /\ flags < U32
  | Symlink _ _ _ => False
  | Statfs node => id_ok node
  | Flush node fh owner => id_ok node /\ fh < U64 /\ owner < U64
  | Release node fh flags owner => id_ok node /\ fh < U64 /\ flags < U32 /\ opt_below U64 owner
  | Releasedir node fh flags => id_ok node /\ fh < U64 /\ flags < U32
  | Bmap node block size => id_ok node /\ block < U64 /\ size < U32
  | Poll node fh kh flags events => id_ok node /\ fh < U64 /\ kh < U64 /\ flags < U32 /\ events < U32
  end.

(** What a handler can say to a call: the kind of answer that belongs to it, or
    an error of Linux. *)
Definition entry_ok (node : N) (aops : list attr_op) (ops : list entry_op) : Prop :=
  id_ok node /\ Forall attr_op_ok aops /\ Forall entry_op_ok ops.
Definition answers (c : sys_call) (s : said) : Prop :=
  match s with
  | SaidError e => (-512 < e < 0)%Z
  | SaidEntry node aops ops =>
    entry_ok node aops ops /\
    match c with Lookup _ _ | Mkdir _ _ _ _ | Mknod _ _ _ _ _ | Link _ _ _ _ | Symlink _ _ _ => True | _ => False end
  | SaidFile node aops ops fh flags =>
    entry_ok node aops ops /\ fh < U64 /\ flags < U32 /\ match c with Create _ _ _ _ _ => True | _ => False end
  | SaidAttr node aops valid nsec =>
    id_ok node /\ Forall attr_op_ok aops /\ valid < U64 /\ nsec < 1000000000 /\
    match c with Stat _ _ | Setattr _ _ _ _ _ _ _ _ _ _ => True | _ => False end
  | SaidText t =>
    nlen t <= 4294967000 /\ ~ In x00 t /\ match c with Readlink _ => True | _ => False end
  | SaidOpen fh flags =>
    fh < U64 /\ flags < U32 /\ match c with Open _ _ | Opendir _ _ => True | _ => False end
  | SaidLock first last type pid =>
    first < U64 /\ last < U64 /\ type < U32 /\ pid < U32 /\
    match c with Getlk _ _ _ _ _ _ _ => True | _ => False end
  | SaidOffset n => n < U64 /\ match c with Lseek _ _ _ _ => True | _ => False end
  | SaidCount n => n < U32 /\ match c with CopyFileRange _ _ _ _ _ _ _ => True | _ => False end
  | SaidSpace ops => Forall statfs_op_ok ops /\ match c with Statfs _ => True | _ => False end
  | SaidBlock n => n < U64 /\ match c with Bmap _ _ _ => True | _ => False end
  | SaidEvents n => n < U32 /\ match c with Poll _ _ _ _ _ => True | _ => False end
  | SaidOk =>
    match c with
    | Access _ _ | Flush _ _ _ | Release _ _ _ _ | Releasedir _ _ _ | Unlink _ _ | Rmdir _ _ | Rename _ _ _ _ _ | Setlk _ _ _ _ _ _ _ _ | Fallocate _ _ _ _ _
    | Fsync _ _ _ | Fsyncdir _ _ _ => True
    | _ => False
    end
  end.

(** What the program gets: what the handler said, or EIO if it makes no sense to
    the kernel. *)
Definition sane (s : stat) (types : list N) : bool :=
  existsb (N.eqb (file_type (st_mode s))) types && (st_size s <? 2 ^ 63).
Definition node_types (c : sys_call) : list N :=
  match c with
  | Mkdir _ _ _ _ => [16384]
  | Mknod _ _ mode _ _ => [file_type mode]
  | Create _ _ _ _ _ => [32768]
  | Symlink _ _ _ => [40960]
  | Link _ t _ _ | Stat _ t | Setattr _ t _ _ _ _ _ _ _ _ => [t]
  | _ => file_types
  end.
(** statfs(2): the last call of every setter. *)
Definition space_said (ops : list statfs_op) : space :=
  let size := last_set (fun c => match c with SetBlkSize v => Some v | _ => None end) ops 0 in
  let part := last_set (fun c => match c with SetFragment v => Some v | _ => None end) ops 0 in
  {| f_bsize := size; f_frsize := if part =? 0 then size else part;
     f_blocks := last_set (fun c => match c with SetBlocks v => Some v | _ => None end) ops 0;
     f_bfree := last_set (fun c => match c with SetFree v => Some v | _ => None end) ops 0;
     f_bavail := last_set (fun c => match c with SetAvailable v => Some v | _ => None end) ops 0;
     f_files := last_set (fun c => match c with SetInodes v => Some v | _ => None end) ops 0;
     f_ffree := last_set (fun c => match c with SetInodesFree v => Some v | _ => None end) ops 0;
     f_namelen := last_set (fun c => match c with SetNameMax v => Some v | _ => None end) ops 0 |}.
Definition seen (bs : N) (c : sys_call) (s : said) : sys_result :=
  match s with
  | SaidError e => failure c (- e)
  | SaidEntry node aops ops =>
    if sane (told bs node (aops ++ entry_attr_ops ops)) (node_types c) && negb (node =? 1)
    then Node (described bs node aops ops) else Error 5
  | SaidFile node aops ops fh flags =>
    if sane (told bs node (aops ++ entry_attr_ops ops)) (node_types c) && negb (node =? 1)
    then File (described bs node aops ops) fh flags else Error 5
  | SaidAttr node aops valid nsec =>
    if sane (told bs node aops) (node_types c) then Attributes (told bs node aops) (valid, nsec) else Error 5
  | SaidText t => if nlen t <=? 4095 then Text t else Error 5
  | SaidOpen fh flags => Handle fh flags
  | SaidLock first last type pid =>
    if type =? 2 then LockIs Unlocked
    else if (type <? 2) && (first <=? last) && (last <? 2 ^ 63) then LockIs (Locked (type =? 1) first last pid)
    else Error 5
  | SaidOffset n => if n <? 2 ^ 63 then Number n else Error 22
  | SaidCount n => Number n
  | SaidSpace ops => Space (space_said ops)
  | SaidBlock n => if n <? 2 ^ 31 then Number n else Error 34
  | SaidEvents n => Number (N.land n poll_events)
  | SaidOk => Done
  end.

(** Calling the handler instead, unless the kernel knows that there is none. *)
Definition handled_one (minor bs : N) (h : handler) (known : list N) (s : St) (c : sys_call) : list N * St * sys_result :=
  if too_old minor c then (known, s, Error 22)
  else match skipped known c with
  | Some r => (known, s, r)
  | None =>
    let (s', a) := h s (asked c) in
    match a with
    | SaidError e => let (known', r) := after_error known c (- e) in (known', s', r)
    | _ => (known, s', seen bs c a)
    end
  end.
Fixpoint handled (minor bs : N) (h : handler) (known : list N) (s : St) (l : list sys_call)
    : list N * St * list sys_result :=
  match l with
  | [] => (known, s, [])
  | c :: l =>
    let '(known', s', r) := handled_one minor bs h known s c in
    let '(known'', s'', rs) := handled minor bs h known' s' l in
    (known'', s'', r :: rs)
  end.

(** Sessions as Linux sets them up, since protocol 7.12; the ids of requests are
    even. *)
Definition good_mount (m : mounted) : Prop :=
  N.max 8192 (80 + m_max_write m) <= m_buf_len m /\ 12 <= cf_minor (m_cf m) /\
  (forall k, good_header (m_hd m k) /\ N.odd (rh_unique (m_hd m k)) = false).

End Spec.

(** ** Proofs *)

Section Proofs.
Context {E : Endian} {St : Type}.

Lemma with_node_good m k node : good_mount m -> id_ok node ->
  good_header (header m k node) /\ N.odd (rh_unique (header m k node)) = false.
Proof.
  intros (_ & _ & H) Hn. destruct (H k) as [[Gh Gu] Od]. split; [|exact Od]. split; [|exact Gu].
  unfold header_fields in *. unfold header. cbn [rh_unique rh_nodeid rh_uid rh_gid rh_pid rh_padding].
  repeat match goal with X : Forall _ (_ :: _) |- _ => apply Forall_cons_iff in X as [? X] end.
  repeat constructor; auto. unfold in_range. cbn. unfold id_ok, U64 in Hn. lia.
Qed.

Lemma secs_u64 o : time_given o -> secs o < U64 /\ as_i64 (secs o) = match o with Some (_, (s, _)) => s | None => 0%Z end.
Proof.
  destruct o as [[now [s n]]|]; cbn [time_given secs]; [|intros _; split; [reflexivity|reflexivity]].
  intros [Hs _]. unfold U64, as_i64, I64. destruct (Z.ltb_spec s 0); (split; [lia|]).
  - replace (Z.to_N (s + 2 ^ 64) <? 9223372036854775808) with false by lia. lia.
  - replace (Z.to_N s <? 9223372036854775808) with true by lia. lia.
Qed.

Lemma file_type_div mode : file_type mode = 4096 * ((mode / 4096) mod 16).
Proof.
  unfold file_type, S_IFMT. change 61440 with (N.shiftl (N.ones 4) 12).
  rewrite <- (N.shiftr_div_pow2 mode 12 : _ = mode / 4096).
  rewrite <- (N.land_ones (N.shiftr mode 12) 4 : _ = _ mod 16).
  rewrite N.mul_comm. rewrite <- (N.shiftl_mul_pow2 _ 12 : _ = _ * 4096).
  rewrite N.shiftl_land. apply N.bits_inj. intros k. rewrite !N.land_spec.
  destruct (N.lt_ge_cases k 12) as [L|L].
  - rewrite !(N.shiftl_spec_low _ 12 k L). now rewrite andb_false_r.
  - rewrite (N.shiftl_spec_high' (N.shiftr mode 12) 12 k L), N.shiftr_spec'. f_equal. f_equal. lia.
Qed.
Lemma device_types mode : is_device mode = (file_type mode =? 8192) || (file_type mode =? 24576).
Proof.
  rewrite file_type_div. unfold is_device. set (x := (mode / 4096) mod 16). lia.
Qed.

(** The bits of [valid]. *)
Lemma valid_bits (mode uid gid size fh owner : option N) (atime mtime : option (bool * (Z * N))) :
  let valid := bit 0 mode + bit 1 uid + bit 2 gid + bit 3 size + bit 4 atime + bit 5 mtime + bit 6 fh +
               now_bit 7 atime + now_bit 8 mtime + bit 9 owner in
  valid < U32 /\
  N.testbit valid 0 = (match mode with Some _ => true | None => false end) /\
  N.testbit valid 1 = (match uid with Some _ => true | None => false end) /\
  N.testbit valid 2 = (match gid with Some _ => true | None => false end) /\
  N.testbit valid 3 = (match size with Some _ => true | None => false end) /\
  N.testbit valid 4 = (match atime with Some _ => true | None => false end) /\
  N.testbit valid 5 = (match mtime with Some _ => true | None => false end) /\
  N.testbit valid 6 = (match fh with Some _ => true | None => false end) /\
  N.testbit valid 7 = is_now atime /\ N.testbit valid 8 = is_now mtime /\
  N.testbit valid 9 = (match owner with Some _ => true | None => false end) /\
  N.testbit valid 10 = false.
Proof.
  cbv zeta.
  destruct mode, uid, gid, size, fh, owner, atime as [[[] ?]|], mtime as [[[] ?]|];
    cbn [bit now_bit is_now]; repeat (split; [reflexivity|]); reflexivity.
Qed.

Lemma in_u32 v : v < U32 -> in_range (u32 v). Proof. exact (fun H => H). Qed.
Lemma in_u64 v : v < U64 -> in_range (u64 v). Proof. exact (fun H => H). Qed.
Lemma below_value b o : 0 < b -> opt_below b o -> value o < b.
Proof. destruct o; cbn [opt_below value]; auto. Qed.

Lemma range_same first last : last < 2 ^ 63 -> lock_range first last = range_asked first last.
Proof.
  intros L. unfold lock_range, range_asked. f_equal.
  destruct (N.leb_spec 9223372036854775807 last), (N.eqb_spec last (2 ^ 63 - 1)); try reflexivity; lia.
Qed.

Lemma request_ok m k c node op : good_mount m -> call_ok c -> request_of c = (node, op) ->
  sendable false (m_cf m) (header m k node) op /\
  ClientSpec.within (m_max_write m) 32 (m_buf_len m) op /\ may_be_long op = false /\
  taken_for false (m_cf m) node op = Ret (asked c).
Proof.
  intros G C R. pose proof G as (_ & M12 & _).
  assert (Hn : id_ok node).
  { destruct c; injection R as <- _; cbn [call_ok] in C; try contradiction C; try exact C; try apply C. }
  destruct (with_node_good m k node G Hn) as [Gh _].
  assert (X : good_op (m_cf m) op /\ available false (op_type op) = true /\ Forall (fun n => n <> 0) (body_node_ids op) /\
    ClientSpec.within (m_max_write m) 32 (m_buf_len m) op /\ may_be_long op = false /\
    taken_for false (m_cf m) node op = Ret (asked c)).
  { assert (L12 : (cf_minor (m_cf m) <? 12) = false) by lia. assert (L9 : (cf_minor (m_cf m) <? 9) = false) by lia.
    assert (L8 : (cf_minor (m_cf m) <? 8) = false) by lia.
    destruct c; injection R as <- <-; cbn [call_ok] in C; try contradiction C; unfold call_name in C.
    10:{ (* RENAME and RENAME2 *)
      destruct C as (C1 & (C2 & C2') & C3 & (C4 & C4') & C5).
      destruct (N.eqb_spec flags 0) as [->|F];
        (unfold good_op; cbn [op_fields op_type available body_node_ids ClientSpec.within may_be_long taken_for expected asked];
         split; [split; [repeat apply Forall_cons; try apply Forall_nil; first [apply in_u64; apply C3|apply in_u32; first [exact C5|reflexivity]]|split; assumption]|];
         split; [reflexivity|]; split; [constructor; [unfold id_ok in C3; lia|constructor]|]; split; [split; assumption|]; split; reflexivity). }
    3:{ (* SETATTR *)
      destruct C as (C1 & C2 & C3 & C4 & C5 & C6 & C7 & C8 & C9 & C10).
      destruct (valid_bits mode uid gid size fh owner atime mtime) as (V & V0 & V1 & V2 & V3 & V4 & V5 & V6 & V7 & V8 & V9 & V10).
      destruct (secs_u64 atime C9) as [Sa Ia]. destruct (secs_u64 mtime C10) as [Sm Im].
      unfold good_op; cbn [op_fields op_type available body_node_ids ClientSpec.within may_be_long taken_for expected asked].
      set (valid := bit 0 mode + _) in *. clearbody valid.
      split; [split|].
      - assert (Na : nanos atime < U32) by (clear - C9; destruct atime as [[? [? ?]]|]; cbn [nanos time_given] in *; unfold U32; lia).
        assert (Nm : nanos mtime < U32) by (clear - C10; destruct mtime as [[? [? ?]]|]; cbn [nanos time_given] in *; unfold U32; lia).
        assert (B32 : forall o, opt_below U32 o -> in_range (u32 (value o))) by (intros o Ho; apply in_u32, below_value; [reflexivity|exact Ho]).
        assert (B64 : forall o, opt_below U64 o -> in_range (u64 (value o))) by (intros o Ho; apply in_u64, below_value; [reflexivity|exact Ho]).
        assert (Z32 : in_range (u32 0)) by reflexivity. assert (Z64 : in_range (u64 0)) by reflexivity.
        repeat (apply Forall_cons; [first [exact Z32|exact Z64|exact (in_u32 _ V)|exact (in_u64 _ Sa)|exact (in_u64 _ Sm)
          |exact (in_u32 _ Na)|exact (in_u32 _ Nm)|apply B64; assumption|apply B32; assumption]|]). apply Forall_nil.
      - unfold ns_limit. rewrite V4, V5, V10.
        split; [|split; [|discriminate]]; intros _.
        + clear - C9. destruct atime as [[? [? ?]]|]; cbn [nanos time_given] in *; lia.
        + clear - C10. destruct mtime as [[? [? ?]]|]; cbn [nanos time_given] in *; lia.
      - split; [reflexivity|]; split; [constructor|]; split; [exact I|]; split; [reflexivity|].
        unfold guarded. rewrite V0, V1, V2, V3, V4, V5, V6, V7, V8, V9, V10. unfold time. rewrite Ia, Im.
        clear. f_equal. f_equal.
        all: match goal with
             | |- _ = moment ?o => destruct o as [[? [? ?]]|]
             | |- _ = ?o => destruct o
             end; reflexivity. }
    all: unfold good_op; cbn [op_fields op_type available body_node_ids ClientSpec.within may_be_long taken_for expected asked];
      unfold release_in, lk_in; rewrite ?L12, ?L9, ?L8.
    all: split; [split; [repeat apply Forall_cons; try apply Forall_nil;
      first [apply in_u64; unfold id_ok, U64 in *; lia|apply in_u32; unfold id_ok, U32 in *; lia
        |apply in_u64, below_value; [reflexivity|apply C]|apply in_u32; clear; destruct owner; reflexivity]|]|].
    all: try exact I; try apply C.
    all: split; [reflexivity|]; split; [repeat constructor; unfold id_ok in *; lia|]; split; [try exact I; try apply C|].
    all: split; [reflexivity|].
    all: try reflexivity.
    - now rewrite device_types.
    - now rewrite range_same by apply C.
    - now rewrite range_same by apply C.
    - (* RELEASE *) clear. unfold guarded. destruct owner; reflexivity. }
  destruct X as (X1 & X2 & X3 & X4 & X5 & X6). split; [|now split].
  split; [exact Gh|]. split; [exact X1|]. split; [exact X2|]. split; [|exact X3].
  intros _ _. unfold header, id_ok in *. cbn [rh_nodeid]. lia.
Qed.

Lemma replied_len minor id r p n : is_id id -> replies minor id (AOk r) 0 p ->
  expected_len minor r = Some n -> n <= 1000 -> nlen p = n.
Proof.
  intros Id (b' & m' & A' & O' & _ & K') L N.
  assert (R : replies minor id (AOk r) 0 (payload minor r))
    by (apply ok_replies; [exact Id|rewrite (nlen_payload _ _ _ L); unfold u32_max; lia]).
  destruct R as (b & m & A & O & _ & K).
  rewrite A in A'. injection A' as <-. rewrite O in O'. injection O' as <-. rewrite K in K'.
  assert (X : payload minor r = p) by congruence. rewrite <- X. exact (nlen_payload _ _ _ L).
Qed.

(** An answer in a message, and what the program gets of it. *)
Lemma reply_ok m id bs c a : 12 <= cf_minor (m_cf m) -> is_id id -> call_ok c -> answers c a ->
  exists e p, replies (cf_minor (m_cf m)) id (answer_of a) e p /\ (-512 < e <= 0)%Z /\ (e <> 0%Z -> p = []) /\
  match a with SaidError x => x = e | _ => e = 0%Z end /\
  (if (e =? 0)%Z then
     if fits (op_room (cf_minor (m_cf m)) (snd (request_of c))) (nlen p) then result_of bs c p else failure c 5
   else failure c (- e)) = seen bs c a.
Proof.
  intros M Id C A. set (minor := cf_minor (m_cf m)) in *.
  assert (Er : entry_room minor = 128) by (unfold entry_room; now replace (minor <? 9) with false by lia).
  assert (Ar : attr_room minor = 104) by (unfold attr_room; now replace (minor <? 9) with false by lia).
  assert (M9 : 9 <= minor) by lia.
  assert (SM := C22_small_replies minor id Id).
  destruct a as [node aops ops|node aops ops fh flags|node aops valid nsec|t|fh flags|first last type pid|n|n|ops|n|n| |e];
    cbn [answers] in A.
  - (* an entry *)
    destruct A as [(Hn & Ha & Ho) Hc].
    assert (X : forall (f : bytes -> looked) g, (exists p, replies minor id (AOk (REntryOut (entry_calls ops (Entry_new (attr_calls aops (NodeAttr_new node)))))) 0 p /\ f p = g) ->
      (forall p : bytes, fits (op_room minor (snd (request_of c))) (nlen p) = (nlen p =? 128)) ->
      (forall p, f p = g -> result_of bs c p = seen bs c (SaidEntry node aops ops)) ->
      exists e p, replies minor id (answer_of (SaidEntry node aops ops)) e p /\ (-512 < e <= 0)%Z /\ (e <> 0%Z -> p = []) /\
      e = 0%Z /\
      (if (e =? 0)%Z then if fits (op_room minor (snd (request_of c))) (nlen p) then result_of bs c p else failure c 5
       else failure c (- e)) = seen bs c (SaidEntry node aops ops)).
    { intros f g (p & R & F) Fi Re. exists 0%Z, p. split; [exact R|]. split; [lia|]. split; [easy|]. split; [reflexivity|].
      change (0 =? 0)%Z with true. cbv iota. rewrite Fi.
      rewrite (replied_len minor id _ p 128 Id R); [|cbn [expected_len]; now replace (minor <? 9) with false by lia|lia].
      apply Re. exact F. }
    destruct c; try contradiction Hc; cbn [call_ok] in C; try contradiction C.
    + apply (X (linux_lookup bs) _ (C72_lookup minor id bs node aops ops Id M9 Hn Ha Ho)).
      * intros p. cbn [request_of snd op_room fits]. now rewrite Er.
      * intros p F. cbn [result_of seen node_types]. rewrite F. unfold sane. now destruct (_ && _ && _).
    + assert (Hd : In 16384 [4096; 8192; 16384; 24576; 32768; 40960; 49152]) by (cbn; tauto).
      apply (X (linux_created bs 16384) _ (C72_created minor id bs 16384 node aops ops Id M9 Hn Ha Ho Hd)).
      * intros p. cbn [request_of snd op_room fits]. now rewrite Er.
      * intros p F. cbn [result_of seen node_types]. rewrite F. unfold sane. cbn [existsb]. rewrite orb_false_r.
        now destruct (_ && _ && _).
    + assert (Hd : In (file_type mode) [4096; 8192; 16384; 24576; 32768; 40960; 49152]) by apply C.
      apply (X (linux_created bs (file_type mode)) _ (C72_created minor id bs (file_type mode) node aops ops Id M9 Hn Ha Ho Hd)).
      * intros p. cbn [request_of snd op_room fits]. now rewrite Er.
      * intros p F. cbn [result_of seen node_types]. rewrite F. unfold sane. cbn [existsb]. rewrite orb_false_r.
        now destruct (_ && _ && _).
    + assert (Hd : In t [4096; 8192; 16384; 24576; 32768; 40960; 49152]) by apply C.
      apply (X (linux_created bs t) _ (C72_created minor id bs t node aops ops Id M9 Hn Ha Ho Hd)).
      * intros p. cbn [request_of snd op_room fits]. now rewrite Er.
      * intros p F. cbn [result_of seen node_types]. rewrite F. unfold sane. cbn [existsb]. rewrite orb_false_r.
        now destruct (_ && _ && _).
  - (* a file *)
    destruct A as ((Hn & Ha & Ho) & Hf & Hg & Hc). destruct c; try contradiction Hc.
    destruct (C72_create minor id bs node aops ops fh flags Id M9 Hn Ha Ho Hf Hg) as (p & R & F).
    exists 0%Z, p. split; [exact R|]. split; [lia|]. split; [easy|]. split; [reflexivity|].
    change (0 =? 0)%Z with true. cbv iota. cbn [request_of snd op_room fits]. rewrite Er.
    rewrite (replied_len minor id _ p 144 Id R); [|cbn [expected_len]; now replace (minor <? 9) with false by lia|lia].
    change (144 =? 128 + 16) with true. cbv iota. cbn [result_of seen node_types]. rewrite F.
    unfold sane. cbn [existsb]. rewrite orb_false_r. now destruct (_ && _ && _).
  - (* attributes *)
    destruct A as (Hn & Ha & Hv & Hs & Hc).
    assert (X : forall t, In t file_types -> node_types c = [t] ->
      (forall p : bytes, fits (op_room minor (snd (request_of c))) (nlen p) = (nlen p =? 104)) ->
      (forall p, result_of bs c p = match linux_getattr bs t p with inl (s, v) => Attributes s v | inr e => Error e end) ->
      exists e p, replies minor id (answer_of (SaidAttr node aops valid nsec)) e p /\ (-512 < e <= 0)%Z /\ (e <> 0%Z -> p = []) /\
      e = 0%Z /\
      (if (e =? 0)%Z then if fits (op_room minor (snd (request_of c))) (nlen p) then result_of bs c p else failure c 5
       else failure c (- e)) = seen bs c (SaidAttr node aops valid nsec)).
    { intros t Ht Nt Fi Re. destruct (C72_getattr minor id bs t node aops valid nsec Id M9 Hn Ha Hv Hs Ht) as (p & R & F).
      exists 0%Z, p. split; [exact R|]. split; [lia|]. split; [easy|]. split; [reflexivity|].
      change (0 =? 0)%Z with true. cbv iota. rewrite Fi.
      rewrite (replied_len minor id _ p 104 Id R); [|cbn [expected_len]; now replace (minor <? 9) with false by lia|lia].
      change (104 =? 104) with true. cbv iota. rewrite Re, F. cbn [seen]. rewrite Nt. unfold sane. cbn [existsb].
      rewrite orb_false_r. now destruct (_ && _). }
    destruct c; try contradiction Hc; cbn [call_ok] in C; apply (X t); try apply C; try reflexivity;
      intros p; cbn [request_of snd op_room fits]; now rewrite Ar.
  - (* text *)
    destruct A as (L & Nz & Hc). destruct c; try contradiction Hc.
    destruct (C72_readlink minor id t [] Id) as [R F]; rewrite ?app_nil_r; [unfold u32_max; lia|exact Nz|exact I|].
    rewrite app_nil_r in R, F. exists 0%Z, t. split; [exact R|]. split; [lia|]. split; [easy|]. split; [reflexivity|].
    change (0 =? 0)%Z with true. cbv iota. cbn [request_of snd op_room fits seen result_of]. rewrite F.
    replace (0 <=? nlen t) with true by lia. reflexivity.
  - (* a handle *)
    destruct A as (Hf & Hg & Hc). destruct SM as (S & _). destruct (S fh flags Hf Hg) as (p & R & F1 & F2 & _).
    exists 0%Z, p. split; [exact R|]. split; [lia|]. split; [easy|]. split; [reflexivity|].
    change (0 =? 0)%Z with true. cbv iota.
    pose proof (replied_len minor id _ p 16 Id R eq_refl ltac:(lia)) as L.
    destruct c; try contradiction Hc; cbn [request_of snd op_room fits seen result_of]; rewrite L, F1, F2; reflexivity.
  - (* a lock *)
    destruct A as (H1 & H2 & H3 & H4 & Hc). destruct c; try contradiction Hc.
    destruct (C72_files minor id Id) as (_ & _ & _ & K). destruct (K first last pid H1 H2 H4) as (K2 & K1 & K3).
    assert (X : exists p, replies minor id (AOk (RLkOut first last type pid)) 0 p /\
      match linux_getlk p with inl l => LockIs l | inr e => Error e end = seen bs (Getlk node fh owner first0 last0 type0 pid0) (SaidLock first last type pid)).
    { cbn [seen]. destruct (N.lt_trichotomy type 2) as [T|[->|T]].
      - destruct (K1 type T) as (p & R & F). exists p. split; [exact R|]. rewrite F.
        replace (type =? 2) with false by lia. replace (type <? 2) with true by lia. cbn [andb]. now destruct (_ && _).
      - destruct K2 as (p & R & F). exists p. split; [exact R|]. now rewrite F.
      - destruct (K3 type (conj T H3)) as (p & R & F). exists p. split; [exact R|]. rewrite F.
        replace (type =? 2) with false by lia. now replace (type <? 2) with false by lia. }
    destruct X as (p & R & F). exists 0%Z, p. split; [exact R|]. split; [lia|]. split; [easy|]. split; [reflexivity|].
    change (0 =? 0)%Z with true. cbv iota. cbn [request_of snd op_room fits].
    rewrite (replied_len minor id _ p 24 Id R eq_refl ltac:(lia)). change (24 =? 24) with true. cbv iota. exact F.
  - (* an offset *)
    destruct A as (H1 & Hc). destruct c; try contradiction Hc.
    destruct SM as (_ & _ & _ & _ & _ & S & _). destruct (S n H1) as (p & R & F).
    exists 0%Z, p. split; [exact R|]. split; [lia|]. split; [easy|]. split; [reflexivity|].
    change (0 =? 0)%Z with true. cbv iota. cbn [request_of snd op_room fits seen result_of].
    rewrite (replied_len minor id _ p 8 Id R eq_refl ltac:(lia)). change (8 =? 8) with true. cbv iota.
    unfold linux_lseek. rewrite F. now destruct (n <? 2 ^ 63).
  - (* a count *)
    destruct A as (H1 & Hc). destruct c; try contradiction Hc.
    destruct SM as (_ & S & _). destruct (S n H1) as (p & R & F & _).
    exists 0%Z, p. split; [exact R|]. split; [lia|]. split; [easy|]. split; [reflexivity|].
    change (0 =? 0)%Z with true. cbv iota. cbn [request_of snd op_room fits seen result_of].
    rewrite (replied_len minor id _ p 8 Id R eq_refl ltac:(lia)). change (8 =? 8) with true. cbv iota. now rewrite F.
  - (* space *)
    destruct A as (H1 & Hc). destruct c; try contradiction Hc.
    destruct (C22_statfs_reply minor id ops Id H1) as (p & R & F1 & F2 & F3 & F4 & F5 & F6 & F7 & F8).
    specialize (F8 ltac:(lia)).
    exists 0%Z, p. split; [exact R|]. split; [lia|]. split; [easy|]. split; [reflexivity|].
    change (0 =? 0)%Z with true. cbv iota. cbn [request_of snd op_room fits seen result_of].
    assert (Sr : statfs_room minor = 80) by (unfold statfs_room; now replace (minor <? 4) with false by lia).
    rewrite Sr, (replied_len minor id _ p 80 Id R); [|cbn [expected_len]; now replace (minor <? 4) with false by lia|lia].
    change (80 =? 80) with true. cbv iota. unfold linux_statfs, space_said.
    rewrite F1, F2, F3, F4, F5, F6, F7, F8. reflexivity.
  - (* a block *)
    destruct A as (H1 & Hc). destruct c; try contradiction Hc.
    destruct SM as (_ & _ & _ & _ & S & _). destruct (S n H1) as (p & R & F).
    exists 0%Z, p. split; [exact R|]. split; [lia|]. split; [easy|]. split; [reflexivity|].
    change (0 =? 0)%Z with true. cbv iota. cbn [request_of snd op_room fits seen result_of].
    rewrite (replied_len minor id _ p 8 Id R eq_refl ltac:(lia)). change (8 =? 8) with true. cbv iota. now rewrite F.
  - (* events *)
    destruct A as (H1 & Hc). destruct c; try contradiction Hc.
    destruct SM as (_ & _ & _ & S & _). destruct (S n H1) as (p & R & F & _).
    exists 0%Z, p. split; [exact R|]. split; [lia|]. split; [easy|]. split; [reflexivity|].
    change (0 =? 0)%Z with true. cbv iota. cbn [request_of snd op_room fits seen result_of].
    rewrite (replied_len minor id _ p 8 Id R eq_refl ltac:(lia)). change (8 =? 8) with true. cbv iota. now rewrite F.
  - (* nothing but success *)
    destruct (C18_payload minor id [] [] [] [] Id) as (_ & _ & _ & _ & _ & R).
    exists 0%Z, []. split; [exact R|]. split; [lia|]. split; [easy|]. split; [reflexivity|].
    change (0 =? 0)%Z with true. cbv iota.
    destruct c; try contradiction A; cbn [request_of snd]; try destruct (flags =? 0); reflexivity.
  - (* an error *)
    exists e, []. split; [apply C20_error_reply; [exact Id|unfold is_i32; lia]|]. split; [lia|]. split; [easy|]. split; [reflexivity|].
    replace (e =? 0)%Z with false by lia. reflexivity.
Qed.

(** One call: the handler is asked what the program asked for, and the program
    gets what the handler said. *)
Theorem C75_call m (h : handler (St := St)) k known s c :
  good_mount m -> call_ok c -> answers c (snd (h s (asked c))) ->
  sys m (program_with h) k known s c = Some (handled_one (cf_minor (m_cf m)) (m_bs m) h known s c).
Proof.
  intros G C A. unfold sys, handled_one. destruct (too_old _ c); [reflexivity|].
  destruct (skipped known c); [reflexivity|].
  destruct (h s (asked c)) as [s' a] eqn:H. cbn [snd] in A.
  destruct (request_of c) as [node op] eqn:R.
  destruct (request_ok m k c node op G C R) as (S & W & Lg & T).
  pose proof G as (B & M & _). assert (Hn : id_ok node).
  { destruct c; injection R as <- _; cbn [call_ok] in C; try contradiction C; try exact C; try apply C. }
  destruct (with_node_good m k node G Hn) as [Gh Od].
  destruct (message_fits _ _ _ (m_cf m) (header m k node) op W ltac:(lia) B) as [L L']. specialize (L' Lg).
  destruct (reply_ok m (rh_unique (header m k node)) (m_bs m) c a M (header_id _ Gh) C A) as (e & p & Rp & He & Hp & Qe & Q).
  rewrite R in Q. cbn [snd] in Q.
  rewrite (exchange_ok false (m_max_write m) (m_buf_len m) (m_cf m) (program_with h) s (header m k node) op
             (asked c) s' (answer_of a) e p B S (fun _ => M) L L' Od T ltac:(unfold program_with; now rewrite H) Rp He Hp).
  assert (F5 : after_error known c 5 = (known, failure c 5)) by (unfold after_error; now destruct (without_it c)).
  clear - Q Qe F5 A. destruct (Z.eqb_spec e 0) as [E0|E0].
  - assert (X : match a with SaidError x => let (known', r) := after_error known c (- x) in (known', s', r)
                | _ => (known, s', seen (m_bs m) c a) end = (known, s', seen (m_bs m) c a)).
    { destruct a; try reflexivity. cbn [answers] in A. lia. }
    rewrite X. destruct (fits _ _); [now rewrite Q|]. change (- -5)%Z with 5%Z. rewrite F5. now rewrite Q.
  - destruct a; try contradiction. subst e0. now destruct (after_error known c (- e)).
Qed.

(** Any sequence of calls: messages, buffers, layouts and ids change nothing; it
    is as if the program had called the handler.  [ok] are the states the
    handler keeps to. *)
Theorem C75_calls m (h : handler (St := St)) (ok : St -> Prop) l :
  good_mount m -> Forall call_ok l ->
  (forall s c, ok s -> call_ok c -> ok (fst (h s (asked c))) /\ answers c (snd (h s (asked c)))) ->
  forall k known s, ok s ->
  sys_calls m (program_with h) k known s l = Some (handled (cf_minor (m_cf m)) (m_bs m) h known s l).
Proof.
  intros G Cl Can. induction Cl as [|c l C Cl IH]; intros k known s Hs; cbn [sys_calls handled]; [reflexivity|].
  destruct (Can s c Hs C) as [Hs' A]. rewrite (C75_call m h k known s c G C A).
  assert (Hs'' : ok (snd (fst (handled_one (cf_minor (m_cf m)) (m_bs m) h known s c)))).
  { clear - Hs Hs'. unfold handled_one. destruct (too_old _ c); [exact Hs|]. destruct (skipped known c); [exact Hs|].
    destruct (h s (asked c)) as [s' a]. cbn [fst] in Hs'. destruct a; try exact Hs'. now destruct (after_error _ _ _). }
  destruct (handled_one _ _ h known s c) as [[known' s'] r]. cbn [fst snd] in Hs''.
  rewrite IH by exact Hs''. now destruct (handled _ _ h known' s' l) as [[? ?] ?].
Qed.
End Proofs.

(** ** A tree *)

(** Names in directories, and of every node its mode and the target of a
    link. *)
Record tree := { t_next : N; t_names : list (N * bytes * N); t_nodes : list (N * (N * bytes)) }.
Definition same_name (d : N) (n : bytes) (e : N * bytes * N) : bool :=
  (fst (fst e) =? d) && (if list_eq_dec byte_eq_dec (snd (fst e)) n then true else false).
Definition find_name (t : tree) (d : N) (n : bytes) : option N := option_map snd (find (same_name d n) (t_names t)).
Definition node_info (t : tree) (id : N) : N * bytes :=
  match find (fun x => fst x =? id) (t_nodes t) with Some x => snd x | None => (32768, []) end.
Definition without (t : tree) (d : N) (n : bytes) : list (N * bytes * N) :=
  filter (fun e => negb (same_name d n e)) (t_names t).
Definition entry_said (t : tree) (id : N) : said := SaidEntry id [SetMode (fst (node_info t id))] [].
Definition put_new (t : tree) (d : N) (n : bytes) (mode : N) (target : bytes) : tree * said :=
  match find_name t d n with
  | Some _ => (t, SaidError (-17))
  | None =>
    if 2 ^ 63 <=? t_next t then (t, SaidError (-28))
    else
      let t' := {| t_next := t_next t + 1; t_names := (d, n, t_next t) :: t_names t;
                   t_nodes := (t_next t, (mode, target)) :: t_nodes t |} in
      (t', entry_said t' (t_next t))
  end.
Definition tree_server : tree -> view -> tree * said := fun t v =>
  match v with
  | VLookup d n => (t, match find_name t d n with Some id => entry_said t id | None => SaidError (-2) end)
  | VGetattr id _ => (t, SaidAttr id [SetMode (fst (node_info t id))] 1 0)
  | VReadlink id => (t, SaidText (snd (node_info t id)))
  | VMkdir d n mode _ => put_new t d n (16384 + mode mod 4096) []
  | VMknod d n mode _ _ => put_new t d n mode []
  | VSymlink d n target => put_new t d n 41471 target
  | VUnlink d n | VRmdir d n =>
    match find_name t d n with
    | Some _ => ({| t_next := t_next t; t_names := without t d n; t_nodes := t_nodes t |}, SaidOk)
    | None => (t, SaidError (-2))
    end
  | VRename d n d' n' _ =>
    match find_name t d n with
    | Some id =>
      let t1 := {| t_next := t_next t; t_names := without t d n; t_nodes := t_nodes t |} in
      ({| t_next := t_next t; t_names := (d', n', id) :: without t1 d' n'; t_nodes := t_nodes t |}, SaidOk)
    | None => (t, SaidError (-2))
    end
  | _ => (t, SaidError (-95))
  end.
Definition tree_ok (t : tree) : Prop :=
  2 <= t_next t /\ Forall (fun e => id_ok (snd e)) (t_names t) /\
  Forall (fun x => fst (snd x) < U32 /\ nlen (snd (snd x)) <= 4095 /\ ~ In x00 (snd (snd x))) (t_nodes t).
Definition empty_tree : tree := {| t_next := 2; t_names := []; t_nodes := [(1, (16877, []))] |}.

Lemma info_ok t id : tree_ok t -> fst (node_info t id) < U32 /\ nlen (snd (node_info t id)) <= 4095 /\ ~ In x00 (snd (node_info t id)).
Proof.
  intros (_ & _ & H). unfold node_info. destruct (find _ (t_nodes t)) as [x|] eqn:F.
  - apply find_some in F as [F _]. rewrite Forall_forall in H. exact (H x F).
  - cbn. split; [reflexivity|]. split; [lia|]. tauto.
Qed.
Lemma found_ok t d n id : tree_ok t -> find_name t d n = Some id -> id_ok id.
Proof.
  intros (_ & H & _). unfold find_name. destruct (find _ (t_names t)) as [x|] eqn:F; [|discriminate].
  apply find_some in F as [F _]. rewrite Forall_forall in H. intros [= <-]. exact (H x F).
Qed.
Lemma without_ok t d n : tree_ok t -> Forall (fun e => id_ok (snd e)) (without t d n).
Proof.
  intros (_ & H & _). unfold without. rewrite Forall_forall in *. intros x Hx. apply filter_In in Hx as [Hx _]. auto.
Qed.
Lemma entry_said_ok t id : tree_ok t -> id_ok id -> entry_ok id [SetMode (fst (node_info t id))] [].
Proof.
  intros T I. split; [exact I|]. split; [|constructor]. constructor; [|constructor]. exact (proj1 (info_ok t id T)).
Qed.
Lemma put_new_ok t d n mode target : tree_ok t -> mode < U32 -> nlen target <= 4095 -> ~ In x00 target ->
  tree_ok (fst (put_new t d n mode target)) /\
  (forall c, (match c with Mkdir _ _ _ _ | Mknod _ _ _ _ _ | Symlink _ _ _ => True | _ => False end) ->
     answers c (snd (put_new t d n mode target))).
Proof.
  intros T Hm Ht Hz. unfold put_new. destruct (find_name t d n); [split; [exact T|intros; cbn; lia]|].
  destruct (N.leb_spec (2 ^ 63) (t_next t)) as [F|F]; [split; [exact T|intros; cbn; lia]|].
  set (t' := Build_tree _ _ _).
  assert (I : id_ok (t_next t)) by (destruct T as (T & _); unfold id_ok, U64; lia).
  assert (T' : tree_ok t').
  { destruct T as (T1 & T2 & T3). split; [cbn; lia|]. split; constructor; auto. }
  split; [exact T'|]. intros c Hc. cbn [snd]. unfold entry_said. cbn [answers].
  split; [exact (entry_said_ok t' _ T' I)|]. destruct c; auto.
Qed.

(** It keeps its states, and answers as it should. *)
Lemma tree_server_ok t c : tree_ok t -> call_ok c ->
  tree_ok (fst (tree_server t (asked c))) /\ answers c (snd (tree_server t (asked c))).
Proof.
  intros T C.
  assert (Nz : ~ In x00 (@nil byte)) by (intros []).
  assert (L0 : nlen (@nil byte) <= 4095) by (cbn; lia).
  assert (W : forall d n, tree_ok {| t_next := t_next t; t_names := without t d n; t_nodes := t_nodes t |}).
  { intros d n. pose proof (without_ok t d n T). destruct T as (T1 & T2 & T3). now split. }
  destruct c; cbn [call_ok] in C; try contradiction C; cbn [asked tree_server];
    try (split; [exact T|cbn [snd answers]; lia]).
  - (* Lookup *)
    split; [exact T|]. cbn [snd]. destruct (find_name t dir name) as [id|] eqn:F; [|cbn; lia].
    unfold entry_said. cbn [answers]. split; [|exact I]. apply entry_said_ok; [exact T|]. exact (found_ok _ _ _ _ T F).
  - (* Stat *)
    split; [exact T|]. cbn [snd answers]. split; [apply C|]. split; [|split; [reflexivity|split; [reflexivity|exact I]]].
    constructor; [|constructor]. exact (proj1 (info_ok t node T)).
  - (* Readlink *)
    split; [exact T|]. cbn [snd answers]. destruct (info_ok t node T) as (_ & L & Z). split; [lia|]. now split.
  - (* Mkdir *)
    destruct (put_new_ok t dir name (16384 + mode mod 4096) [] T ltac:(unfold U32; lia) L0 Nz) as [K A].
    split; [exact K|]. apply A. exact I.
  - (* Mknod *)
    destruct (put_new_ok t dir name mode [] T ltac:(apply C) L0 Nz) as [K A]. split; [exact K|]. apply A. exact I.
  - (* Unlink *)
    destruct (find_name t dir name); (split; [first [exact T|apply W]|cbn; try exact I; try lia]).
  - (* Rmdir *)
    destruct (find_name t dir name); (split; [first [exact T|apply W]|cbn; try exact I; try lia]).
  - (* Rename *)
    destruct (find_name t dir name) as [id|] eqn:F; (split; [|cbn; try exact I; try lia]); [|exact T].
    set (t1 := Build_tree _ (without t dir name) _). pose proof (W dir name) as T1. fold t1 in T1.
    pose proof (without_ok t1 newdir newname T1) as T2.
    destruct T as (Ta & Tb & Tc). split; [exact Ta|]. split; [|exact Tc]. cbn [fst t_names].
    constructor; [|exact T2]. cbn [snd]. apply (found_ok t dir name id); [now split|exact F].
Qed.

Section Tree.
Context {E : Endian}.
(** A file system that is a tree in memory: programs see the tree. *)
Theorem C75_tree m l k t :
  good_mount m -> Forall call_ok l -> tree_ok t ->
  sys_calls m (program_with tree_server) k [] t l = Some (handled (cf_minor (m_cf m)) (m_bs m) tree_server [] t l).
Proof. intros G C T. apply (C75_calls m tree_server tree_ok l G C tree_server_ok k [] t T). Qed.
End Tree.

(** ** Symbolic links *)

Local Instance LE : Endian := false.
Definition demo_mount : mounted :=
  {| m_max_write := 8112; m_buf_len := 8192;
     m_cf := {| cf_minor := 36; cf_setxattr_ext := false; cf_overflow_checks := true |}; m_bs := 4096;
     m_hd := fun k => {| rh_unique := 2 + 2 * N.of_nat (Nat.min k 100); rh_nodeid := 0; rh_uid := 1000; rh_gid := 100; rh_pid := 7;
                         rh_padding := 0 |} |}.
Lemma demo_mount_good : good_mount demo_mount.
Proof.
  split; [cbn; lia|]. split; [cbn; lia|]. intros k. cbn [m_hd demo_mount].
  set (j := N.of_nat (Nat.min k 100)). assert (Hj : j <= 100) by lia. clearbody j. split.
  - split; [|cbn [rh_unique]; lia]. unfold header_fields. cbn [rh_unique rh_nodeid rh_uid rh_gid rh_pid rh_padding].
    repeat (apply Forall_cons; [first [apply in_u64; unfold U64; lia|apply in_u32; unfold U32; lia]|]). apply Forall_nil.
  - cbn [rh_unique]. rewrite N.odd_add. change (N.odd 2) with false. rewrite N.odd_mul. reflexivity.
Qed.

(** symlink("b", "a"): the program is told that it worked, but there is no "a"; there
    is a "b" that points to "a".  symlink("/b", "a"): the server cannot decode
    the request, and no reply is sent. *)
Theorem C75_symlink_refuted :
  good_mount demo_mount /\ tree_ok empty_tree /\
  (exists n1 n2 t, sys_calls demo_mount (program_with tree_server) 0 [] empty_tree
     [Symlink 1 [x61] [x62]; Lookup 1 [x61]; Lookup 1 [x62]; Readlink 2] =
   Some ([], t, [Node n1; Error 2; Node n2; Text [x61]])) /\
  sys demo_mount (program_with tree_server) 0 [] empty_tree (Symlink 1 [x61] [x2f; x62]) = None.
Proof.
  split; [exact demo_mount_good|]. split.
  { split; [cbn; lia|]. split; [constructor|]. constructor; [|constructor]. cbn. split; [reflexivity|]. split; [lia|tauto]. }
  split; [|vm_compute; reflexivity]. do 3 eexists. vm_compute. reflexivity.
Qed.

(** ** Polling *)

(** The handler is not told which of the open files of a node is polled. *)
Theorem C75_poll_refuted {E : Endian} {St} m (h : handler (St := St)) k known s node fh fh' kh flags events :
  good_mount m -> call_ok (Poll node fh kh flags events) -> call_ok (Poll node fh' kh flags events) ->
  answers (Poll node fh kh flags events) (snd (h s (VPoll node events kh flags))) ->
  sys m (program_with h) k known s (Poll node fh kh flags events) =
  sys m (program_with h) k known s (Poll node fh' kh flags events).
Proof.
  intros G C C' A. rewrite (C75_call m h k known s _ G C A).
  rewrite (C75_call m h k known s (Poll node fh' kh flags events) G C'); [reflexivity|].
  cbn [asked]. destruct (snd (h s _)); exact A.
Qed.

(** ** Examples *)

(** Two open files of a node; one has something to read. *)
Example C75_poll_refuted_example :
  let h : N -> view -> N * said := fun s v => (s + 1, SaidEvents 65) in
  good_mount demo_mount /\ call_ok (Poll 2 7 1 0 1) /\ call_ok (Poll 2 8 1 0 1) /\
  answers (Poll 2 7 1 0 1) (snd (h 0 (VPoll 2 1 1 0))) /\
  sys demo_mount (program_with h) 0 [] 0 (Poll 2 7 1 0 1) = Some ([], 1, Number 65).
Proof.
  split; [exact demo_mount_good|]. split; [|split; [|split; [|vm_compute; reflexivity]]]; cbn; unfold id_ok, U64, U32; repeat split; lia.
Qed.

Example C75_call_example :
  call_ok (Mkdir 1 [x61] 493 18) /\
  answers (Mkdir 1 [x61] 493 18) (snd (tree_server empty_tree (asked (Mkdir 1 [x61] 493 18)))) /\
  (exists n, seen 4096 (Mkdir 1 [x61] 493 18) (snd (tree_server empty_tree (asked (Mkdir 1 [x61] 493 18)))) = Node n /\
     n_id n = 2 /\ st_mode (n_stat n) = 16877).
Proof.
  split; [|split].
  - cbn [call_ok]. split; [split; reflexivity|]. split; [split; [|cbn; lia]|split; reflexivity].
    split; [discriminate|]. split; cbn; intuition discriminate.
  - cbn. repeat split; repeat constructor.
  - eexists. split; [vm_compute; reflexivity|]. split; reflexivity.
Qed.

(** mkdir a; mkdir a/b; mknod a/b/c; rename a/b to d; then a/b is gone, and c is in d. *)
Definition demo_calls : list sys_call :=
  [Mkdir 1 [x61] 493 18; Mkdir 2 [x62] 493 18; Mknod 3 [x63] 33188 0 18; Mkdir 1 [x61] 448 18;
   Rename 2 [x62] 1 [x64] 0; Lookup 2 [x62]; Lookup 1 [x64]; Lookup 3 [x63]; Stat 4 32768; Unlink 3 [x63];
   Lookup 3 [x63]; Readlink 4; Access 1 7].
Definition brief (r : sys_result) : sys_result + N :=
  match r with Node n => inr (n_id n) | Attributes s _ => inr (st_mode s) | _ => inl r end.
Example C75_calls_example :
  Forall call_ok demo_calls /\
  map brief (snd (handled 36 4096 tree_server [] empty_tree demo_calls)) =
    [inr 2; inr 3; inr 4; inl (Error 17); inl Done; inl (Error 2); inr 3; inr 4; inr 33188; inl Done; inl (Error 2);
     inl (Text []); inl (Error 95)].
Proof.
  split; [|vm_compute; reflexivity].
  assert (G : forall b, b <> x00 -> b <> x2f -> call_name [b]).
  { intros b B0 B1. split; [|cbn; lia]. split; [discriminate|]. split; cbn; intuition congruence. }
  unfold demo_calls. repeat (apply Forall_cons; [cbn [call_ok]; unfold id_ok, U64, U32; repeat split;
    first [reflexivity|lia|cbn; tauto|apply G; discriminate|idtac]|]). all: try apply Forall_nil.
  all: try (apply G; discriminate). all: cbn; intuition discriminate.
Qed.
Example C75_tree_example :
  option_map (fun x => map brief (snd x)) (sys_calls demo_mount (program_with tree_server) 0 [] empty_tree demo_calls) =
    Some [inr 2; inr 3; inr 4; inl (Error 17); inl Done; inl (Error 2); inr 3; inr 4; inr 33188; inl Done; inl (Error 2);
     inl (Text []); inl (Error 95)].
Proof. vm_compute. reflexivity. Qed.

Print Assumptions C75_call.
Print Assumptions C75_calls.
Print Assumptions C75_tree.
Print Assumptions C75_symlink_refuted.
Print Assumptions C75_poll_refuted.
