(** Theorems about what Linux's FUSE device does with the messages of this
    server: C62 of properties.jsonl. *)

From Coq Require Import String.
From Verif Require Import Base Kernel CoreModel DecodeModel OpsModel WireSpec OpsRoundTrip DecodeProofs
  ReplyModel ListingModel ReplySpec ReplyProofs PropDecode PropReply PropListing ServerModel ServerSpec PropServer VfsModel VfsSpec VfsRun
  VfsProofs PropVfs HostModel HelloModel PropHello DeviceSpec.
From Coq Require Import List NArith ZArith Bool Lia ZifyBool ZifyNat ZifyN.
Import ListNotations.
Open Scope list_scope.
Open Scope N_scope.

(** ** Specification *)

Section Spec.
Context {E : Endian}.

(** The answers that suit an operation: an error number below 512, or the reply
    object of this operation, with no more data than was asked for. *)
Definition suits (op : client_op) (a : answer) : Prop :=
  match a with
  | AErr e => (-512 < e < 0)%Z
  | AOkEmpty =>
    match op with
    | OAccess _ _ | OFallocate _ _ _ _ _ | OFlush _ _ _ _ | OFsync _ _ _ | OFsyncdir _ _ _
    | ORelease _ _ _ _ | OReleasedir _ _ _ _ | ORemovexattr _ | ORename _ _ _ | ORename2 _ _ _ _ _
    | ORmdir _ | OSetlk _ _ _ _ _ _ _ _ _ | OSetxattr _ _ _ _ _ | OUnlink _
    | ORead _ _ _ _ _ _ _ | OReaddir _ _ _ _ _ _ _ | OReaddirplus _ _ _ _ _ _ _ => True
    | _ => False
    end
  | AOkBuf b =>
    match op with
    | ORead _ _ size _ _ _ _ | OReaddir _ _ size _ _ _ _ | OReaddirplus _ _ size _ _ _ _ => nlen b <= size
    | OReadlink => nlen b <= 4095
    | OGetxattr size _ _ | OListxattr size _ => if size =? 0 then nlen b = 8 else nlen b <= size
    | _ => False
    end
  | AOk r =>
    match r, op with
    | REntryOut _, (OLookup _ | OMknod _ _ _ _ _ | OMkdir _ _ _ | OSymlink _ _ | OLink _ _)
    | RCreateResponse _, OCreate _ _ _ _ _
    | RAttrOut _, (OGetattr _ _ _ | OSetattr _ _ _ _ _ _ _ _ _ _ _ _ _ _ _ _)
    | ROpenOut _, (OOpen _ _ | OOpendir _ _)
    | RWriteOut _, (OWrite _ _ _ _ _ _ _ | OCopyFileRange _ _ _ _ _ _ _)
    | RStatfsOut _, OStatfs
    | RInitOut _, OInit _ _ _ _ _ _
    | RLkOut _ _ _ _, OGetlk _ _ _ _ _ _ _ _
    | RBmapOut _, OBmap _ _ _
    | RLseekOut _, OLseek _ _ _ _
    | RPollOut _, OPoll _ _ _ _ => True
    | RGetxattrOut _, (OGetxattr size _ _ | OListxattr size _) => size = 0
    | RListxattrNames b, OListxattr size _ => size <> 0 /\ nlen b <= size
    | RReaddirEntries b, (OReaddir _ _ size _ _ _ _ | OReaddirplus _ _ size _ _ _ _) => nlen b <= size
    | RCuseInit r, OCuseInit _ _ _ _ =>
      match cir_device_name r with Some n => nlen n <= 4087 | None => True end
    | RIoctl r, OIoctl _ _ _ _ out_size _ =>
      match ires_output r with
      | IoctlBytes b => nlen b <= out_size
      | IoctlRetryOut i o => nlen i + nlen o <= 256
      end
    | _, _ => False
    end
  end.

(** The sizes an operation carries are 32-bit numbers. *)
Definition size_of (op : client_op) : N :=
  match op with
  | ORead _ _ size _ _ _ _ | OReaddir _ _ size _ _ _ _ | OReaddirplus _ _ size _ _ _ _
  | OGetxattr size _ _ | OListxattr size _ => size
  | OIoctl _ _ _ _ out_size _ => out_size
  | _ => 0
  end.

(** What a completed operation is told. *)
Definition told (e : Z) (p : bytes) : bytes + Z := if (e =? 0)%Z then inl p else inr e.

(** The device's verdict on a reply with error [e] and payload [p]. *)
Definition verdict (minor : N) (op : client_op) (id : N) (e : Z) (p : bytes) : wrote :=
  if ((e <=? -512) || (0 <? e))%Z then Refused EINVAL
  else if (if (e =? 0)%Z then fits (op_room minor op) (nlen p) else nlen p =? 0)
       then Completed id (told e p) else Broken id.
End Spec.

(** ** Replies *)

Section Replies.
Context {E : Endian}.

(** What the device does with a message that is framed as a reply. *)
Lemma device_reply minor waiting m id e p :
  kernel_read m = Some (Reply id e p) ->
  device_write minor waiting m =
  if ((e <=? -512) || (0 <? e))%Z then Refused EINVAL
  else match waiting (if N.odd id then id - 1 else id) with
       | None => Refused ENOENT
       | Some op =>
         if N.odd id then if nlen p =? 0 then Acknowledged (id - 1) e else Refused EINVAL
         else if (e =? 0)%Z then
           if fits (op_room minor op) (nlen p) then Completed id (inl p) else Broken id
         else if nlen p =? 0 then Completed id (inr e) else Broken id
       end.
Proof.
  unfold kernel_read, device_write. destruct (N.ltb_spec (nlen m) 16) as [L|L]; [discriminate|].
  destruct (negb (u32_at 0 m =? nlen m)); [discriminate|].
  destruct (u64_at 8 m =? 0); [discriminate|]. intros [= <- <- <-].
  rewrite nlen_drop. replace (nlen m - 16 =? 0) with (nlen m =? 16) by lia. reflexivity.
Qed.

Lemma device_verdict minor waiting m id e p op :
  kernel_read m = Some (Reply id e p) -> N.odd id = false -> waiting id = Some op ->
  device_write minor waiting m = verdict minor op id e p.
Proof.
  intros K O W. rewrite (device_reply minor waiting m id e p K), O, W. unfold verdict, told.
  destruct ((e <=? -512) || (0 <? e))%Z; [reflexivity|].
  destruct (e =? 0)%Z; [reflexivity|]. now destruct (nlen p =? 0).
Qed.

(** ** C62 *)

(** Whatever a server answers: the reply is refused by the crate because it is
    too long for any message, or its bytes arrive at the device as they were
    given, and the device takes all of them or none. *)
Theorem C62_verdict minor waiting id op a :
  is_id id -> N.odd id = false -> waiting id = Some op -> is_i32 (error_of a) ->
  (exists n, answer_call minor id a = Refuse (SE_ReplyTooBig n) /\ u32_max < n) \/
  (exists b m p, answer_call minor id a = Call b /\ on_wire b = Ret m /\
     kernel_read m = Some (Reply id (error_of a) p) /\
     device_write minor waiting m = verdict minor op id (error_of a) p).
Proof.
  intros Hid O W He.
  destruct (C18_reply_framing minor id a Hid He) as [(p & b & m & C & Wr & _ & K)|(n & C & L)]; [right|left; eauto].
  exists b, m, p. split; [exact C|]. split; [exact Wr|]. split; [exact K|]. now apply device_verdict.
Qed.

Lemma nlen_slices l : nlen (ioctl_slices_bytes l) = 16 * nlen l.
Proof.
  unfold ioctl_slices_bytes. induction l as [|s l IH]; [reflexivity|].
  cbn [flat_map]. rewrite nlen_app, IH, nlen_cons. unfold IoctlSlice_bytes. rewrite nlen_wire. change (fields_size _) with 16. lia.
Qed.

Lemma suits_fits minor op r :
  suits op (AOk r) -> size_of op + 32 <= u32_max ->
  fits (op_room minor op) (nlen (payload minor r)) = true /\ 16 + nlen (payload minor r) <= u32_max.
Proof.
  intros S L. unfold U32, u32_max in *.
  destruct r; cbn [suits] in S.
  all: try (destruct op; try contradiction; cbn [op_room fits];
    match goal with
    | |- context [payload ?m ?r] =>
      rewrite (nlen_payload m r _ eq_refl)
    end; unfold entry_room, attr_room, statfs_room; cbn [fits];
    repeat match goal with |- context [if ?c then _ else _] => destruct c end; cbn [fits]; lia).
  - destruct op; try contradiction; cbn [op_room]; subst size0;
      rewrite (nlen_payload minor (RGetxattrOut size) _ eq_refl); (split; [reflexivity|lia]).
  - destruct op; try contradiction; cbn [op_room fits payload size_of] in *; lia.
  - destruct op; try contradiction; cbn [op_room fits payload size_of] in *.
    destruct S as [S1 S2]. replace (size =? 0) with false by lia. cbn [fits]. lia.
  - destruct op; try contradiction. cbn [op_room fits payload].
    assert (X : nlen (cuse_init_out_bytes (cir_raw r)) = 72) by (unfold cuse_init_out_bytes; now rewrite nlen_wire).
    rewrite nlen_app, X. destruct (cir_device_name r); [|cbn; lia].
    rewrite !nlen_app. change (nlen [x44; x45; x56; x4e; x41; x4d; x45; x3d]) with 8.
    change (nlen [x00]) with 1. lia.
  - destruct op; try contradiction. cbn [op_room fits payload size_of] in *.
    assert (X : nlen (fuse_ioctl_out_bytes (ires_raw r)) = 16) by (unfold fuse_ioctl_out_bytes; now rewrite nlen_wire).
    rewrite nlen_app, X. destruct (ires_output r) as [o|i o]; [lia|].
    rewrite nlen_app, !nlen_slices. lia.
Qed.

Lemma suits_verdict minor id op a :
  is_id id -> suits op a -> size_of op + 32 <= u32_max ->
  exists p, replies minor id a (error_of a) p /\
    verdict minor op id (error_of a) p = Completed id (told (error_of a) p).
Proof.
  intros Hid S L. destruct a as [r|b| |e]; cbn [error_of].
  - destruct (suits_fits minor op r S L) as [F B]. exists (payload minor r).
    split; [now apply ok_replies|]. unfold verdict. cbn [Z.eqb]. now rewrite F.
  - assert (F : fits (op_room minor op) (nlen b) = true /\ 16 + nlen b <= u32_max).
    { unfold u32_max in *. destruct op; cbn [suits op_room fits size_of] in *; try contradiction; try lia;
        destruct (size =? 0); cbn [fits]; lia. }
    destruct F as [F B]. exists b. split.
    + destruct (C18_payload minor id b [] [] [] Hid) as (_ & _ & _ & _ & P & _). now apply P.
    + unfold verdict. cbn [Z.eqb]. now rewrite F.
  - exists []. split; [apply send_0_replies; auto; exact zero_i32|].
    unfold verdict. destruct op; cbn [suits] in S; try contradiction; cbn; try reflexivity;
      now destruct size.
  - cbn [suits] in S. exists []. split.
    + apply send_0_replies; auto. unfold is_i32. lia.
    + unfold verdict, told. replace ((e <=? -512) || (0 <? e))%Z with false by lia.
      now replace (e =? 0)%Z with false by lia.
Qed.

(** An answer that suits the operation completes it. *)
Theorem C62_accepted minor waiting id op a :
  is_id id -> N.odd id = false -> waiting id = Some op ->
  suits op a -> size_of op + 32 <= u32_max ->
  exists b m p, answer_call minor id a = Call b /\ on_wire b = Ret m /\
    kernel_read m = Some (Reply id (error_of a) p) /\
    let w := device_write minor waiting m in
    w = Completed id (told (error_of a) p) /\ send_result w = SendOk /\
    forall i, after_write w waiting i = if i =? id then None else waiting i.
Proof.
  intros Hid O W S L.
  destruct (suits_verdict minor id op a Hid S L) as (p & (b & m & C & Wr & _ & K) & V). exists b, m, p.
  split; [exact C|]. split; [exact Wr|]. split; [exact K|]. cbv zeta.
  rewrite (device_verdict minor waiting m id _ p op K O W), V. auto.
Qed.

(** Data that is longer than the operation asked for is not cut off: the
    operation fails, and the server is told. *)
Theorem C62_oversized minor waiting id op b :
  is_id id -> N.odd id = false -> waiting id = Some op -> 16 + nlen b <= u32_max ->
  match op with
  | ORead _ _ size _ _ _ _ | OReaddir _ _ size _ _ _ _ | OReaddirplus _ _ size _ _ _ _ => size < nlen b
  | OReadlink => 4095 < nlen b
  | OGetxattr size _ _ | OListxattr size _ => size < nlen b /\ (size = 0 -> nlen b <> 8)
  | _ => False
  end ->
  exists sb m, answer_call minor id (AOkBuf b) = Call sb /\ on_wire sb = Ret m /\
    device_write minor waiting m = Broken id /\
    send_result (device_write minor waiting m) = SendFails (SE_Other EINVAL).
Proof.
  intros Hid O W L S.
  destruct (C18_payload minor id b [] [] [] Hid) as (_ & _ & _ & _ & P & _).
  destruct (P L) as ((sb & m & C & Wr & _ & K) & _). exists sb, m. split; [exact C|]. split; [exact Wr|].
  assert (V : verdict minor op id 0 b = Broken id).
  { unfold verdict. cbn [Z.leb Z.ltb Z.compare orb Z.eqb].
    assert (F : fits (op_room minor op) (nlen b) = false); [|now rewrite F].
    destruct op; try contradiction; cbn [op_room fits]; try lia;
      destruct S as [S1 S2]; destruct (N.eqb_spec size 0); cbn [fits]; lia. }
  rewrite (device_verdict minor waiting m id _ b op K O W), V. auto.
Qed.

(** A size query of an extended attribute is answered by the size, not by
    data: no data of another length than the eight bytes of the reply object
    is taken. *)
Theorem C62_size_query minor waiting id op b :
  is_id id -> N.odd id = false -> waiting id = Some op -> 16 + nlen b <= u32_max ->
  match op with OGetxattr size _ _ | OListxattr size _ => size = 0 | _ => False end ->
  exists sb m, answer_call minor id (AOkBuf b) = Call sb /\ on_wire sb = Ret m /\
    device_write minor waiting m = if nlen b =? 8 then Completed id (inl b) else Broken id.
Proof.
  intros Hid O W L S.
  destruct (C18_payload minor id b [] [] [] Hid) as (_ & _ & _ & _ & P & _).
  destruct (P L) as ((sb & m & C & Wr & _ & K) & _). exists sb, m. split; [exact C|]. split; [exact Wr|].
  rewrite (device_verdict minor waiting m id _ b op K O W). unfold verdict, told.
  cbn [Z.leb Z.ltb Z.compare orb Z.eqb].
  destruct op; try contradiction; subst size; cbn [op_room N.eqb fits]; reflexivity.
Qed.

(** Errors: the device takes the numbers from 1 to 511; any other number is
    refused and leaves the operation waiting. *)
Theorem C62_errno minor waiting id op errno :
  is_id id -> N.odd id = false -> waiting id = Some op -> 0 < errno < U16 ->
  exists b m, answer_call minor id (AErr (linux_fuse_error errno)) = Call b /\ on_wire b = Ret m /\
    device_write minor waiting m =
      (if errno <? 512 then Completed id (inr (- Z.of_N errno)%Z) else Refused EINVAL) /\
    after_write (device_write minor waiting m) waiting id = (if errno <? 512 then None else Some op).
Proof.
  intros Hid O W L. unfold U16 in L.
  assert (He : is_i32 (linux_fuse_error errno)) by (unfold is_i32, linux_fuse_error; lia).
  destruct (send_0_replies minor id (AErr (linux_fuse_error errno)) _ Hid He eq_refl) as (b & m & C & Wr & _ & K).
  exists b, m. split; [exact C|]. split; [exact Wr|].
  rewrite (device_verdict minor waiting m id _ [] op K O W). unfold verdict, told, linux_fuse_error.
  replace (- Z.of_N errno =? 0)%Z with false by lia.
  destruct (N.ltb_spec errno 512).
  - replace ((- Z.of_N errno <=? -512) || (0 <? - Z.of_N errno))%Z with false by lia.
    change (nlen [] =? 0) with true. cbn [after_write]. now rewrite N.eqb_refl.
  - replace ((- Z.of_N errno <=? -512) || (0 <? - Z.of_N errno))%Z with true by lia. auto.
Qed.

(** An answer to an INTERRUPT is taken while the interrupted operation waits,
    and the operation goes on waiting; afterwards the server is told that there
    is nothing to answer. *)
Theorem C62_interrupt minor waiting id a :
  is_id id -> N.odd id = true -> a = AOkEmpty \/ (exists e, a = AErr e /\ (-512 < e < 0)%Z) ->
  exists b m, answer_call minor id a = Call b /\ on_wire b = Ret m /\
    (forall i, after_write (device_write minor waiting m) waiting i = waiting i) /\
    send_result (device_write minor waiting m) =
      match waiting (id - 1) with Some _ => SendOk | None => SendFails SE_NotFound end.
Proof.
  intros Hid O A.
  assert (X : exists e, (-512 < e <= 0)%Z /\ replies minor id a e []).
  { destruct A as [->|(e & -> & He)].
    - exists 0%Z. split; [lia|]. apply send_0_replies; auto; exact zero_i32.
    - exists e. split; [lia|]. apply send_0_replies; auto. unfold is_i32. lia. }
  destruct X as (e & He & b & m & C & Wr & _ & K). exists b, m. split; [exact C|]. split; [exact Wr|].
  rewrite (device_reply minor waiting m id e [] K), O.
  replace ((e <=? -512) || (0 <? e))%Z with false by lia.
  destruct (waiting (id - 1)); auto.
Qed.

(** A reply to an operation that does not wait (any more) is refused. *)
Theorem C62_forgotten minor waiting id a b m :
  is_id id -> N.odd id = false -> waiting id = None -> (-512 < error_of a <= 0)%Z ->
  answer_call minor id a = Call b -> on_wire b = Ret m ->
  device_write minor waiting m = Refused ENOENT /\
  send_result (device_write minor waiting m) = SendFails SE_NotFound.
Proof.
  intros Hid O W He C Wr.
  destruct (C18_reply_framing minor id a Hid) as [(p & b' & m' & C' & Wr' & _ & K)|(n & C' & _)].
  - unfold is_i32. lia.
  - rewrite C in C'. injection C' as <-. rewrite Wr in Wr'. injection Wr' as <-.
    rewrite (device_reply minor waiting m id _ p K), O, W.
    replace ((error_of a <=? -512) || (0 <? error_of a))%Z with false by lia. auto.
  - congruence.
Qed.

(** ** Notifications *)

Lemma device_notification minor waiting m code p :
  kernel_read m = Some (Notification code p) -> device_write minor waiting m = device_notify code p.
Proof.
  unfold kernel_read, device_write. destruct (nlen m <? 16); [discriminate|].
  destruct (negb (u32_at 0 m =? nlen m)); [discriminate|].
  destruct (u64_at 8 m =? 0); [|discriminate]. now intros [= <- <-].
Qed.

(** What sending a notification does. *)
Definition noticed (minor : N) (waiting : N -> option client_op) (n : FuseNotification) (w : wrote) : Prop :=
  exists b m, notification_encode n = Ret b /\ on_wire b = Ret m /\ device_write minor waiting m = w.

Lemma notifies_noticed minor waiting n code p :
  notifies n code p -> noticed minor waiting n (device_notify code p).
Proof.
  intros (b & m & H1 & H2 & _ & K). exists b, m. split; [exact H1|]. split; [exact H2|].
  now apply device_notification.
Qed.

Lemma split_name o p name : o <= nlen p -> drop o p = name ++ [x00] ->
  nlen p = o + nlen name + 1 /\ slice o (nlen name) p = name.
Proof.
  intros L H. assert (X : nlen (drop o p) = nlen name + 1) by (rewrite H, nlen_app; reflexivity).
  rewrite nlen_drop in X. split; [lia|]. unfold slice. rewrite H. now apply take_app.
Qed.

(** Every notification is understood as it was made, except that a name longer
    than 1024 bytes is refused. *)
Theorem C62_notifications minor waiting parent node kh name offset size :
  parent < U64 -> node < U64 -> kh < U64 -> nlen name <= 4294967000 ->
  noticed minor waiting (NPoll kh) (Noticed (PollWakeup kh)) /\
  noticed minor waiting
    (InvalidateInode_set_size size (InvalidateInode_set_offset offset (InvalidateInode_new node)))
    (Noticed (InodeStale node (match offset with Some o => clamp_i64 o | None => (-1)%Z end)
                              (match size with Some s => clamp_i64 s | None => 0%Z end))) /\
  noticed minor waiting (InvalidateEntry_new parent name)
    (if nlen name <=? 1024 then Noticed (EntryStale parent name) else Refused ENAMETOOLONG) /\
  noticed minor waiting (Delete_new parent node name)
    (if nlen name <=? 1024 then Noticed (EntryGone parent node name) else Refused ENAMETOOLONG).
Proof.
  intros Hp Hn Hk Hl. repeat apply conj.
  - destruct (C28_poll kh Hk) as (p & N & L & V). apply (notifies_noticed minor waiting) in N.
    unfold device_notify in N.
    change (1 =? 1) with true in N. cbv iota in N. now rewrite L, V in N.
  - destruct (C28_invalidate_inode node offset size Hn) as (p & N & V1 & V2 & V3 & L).
    apply (notifies_noticed minor waiting) in N. unfold device_notify in N.
    change (2 =? 1) with false in N. change (2 =? 2) with true in N. cbv iota in N.
    rewrite L, V1, V2, V3 in N. exact N.
  - destruct (C28_invalidate_entry parent name Hp Hl) as (p & N & V1 & V2 & L & D).
    apply (notifies_noticed minor waiting) in N. unfold device_notify in N.
    change (3 =? 1) with false in N. change (3 =? 2) with false in N. change (3 =? 3) with true in N. cbv iota in N.
    replace (nlen p <? 16) with false in N by lia. destruct (split_name 16 p name L D) as [L2 S].
    unfold device_name, name_max in N. rewrite V1, V2, L2, S, N.eqb_refl in N. cbn [negb] in N.
    replace (1024 <? nlen name) with (negb (nlen name <=? 1024)) in N by lia.
    revert N. now destruct (nlen name <=? 1024).
  - destruct (C28_delete parent node name Hp Hn Hl) as (p & N & V1 & V2 & V3 & L & D).
    apply (notifies_noticed minor waiting) in N. unfold device_notify in N.
    change (6 =? 1) with false in N. change (6 =? 2) with false in N. change (6 =? 3) with false in N. change (6 =? 6) with true in N. cbv iota in N.
    replace (nlen p <? 24) with false in N by lia. destruct (split_name 24 p name L D) as [L2 S].
    unfold device_name, name_max in N. rewrite V1, V2, V3, L2, S, N.eqb_refl in N. cbn [negb] in N.
    replace (1024 <? nlen name) with (negb (nlen name <=? 1024)) in N by lia.
    revert N. now destruct (nlen name <=? 1024).
Qed.
End Replies.

(** ** A file system on the device *)

Section VfsSpec.
Context {E : Endian} {W Node FH DH : Type} (U : user W Node FH DH) (os : OsErrors) (cf : config).
Notation label := (label Node FH DH).

(** A user's file system that reports error numbers below 512 and returns no
    more data than a request asks for; for the size query of an extended
    attribute, the reply object of eight bytes. *)
Definition small_error (e : Z) : Prop := (-512 < e < 0)%Z.
Definition within {A} (P : A -> Prop) (r : A + Z) : Prop :=
  match r with inl a => P a | inr e => small_error e end.
Definition xattr_room (size : option N) (b : bytes) : Prop :=
  match size with Some s => nlen b <= s | None => nlen b = 8 end.
Record polite : Prop := {
  p_errors : small_error (INVALID_ARGUMENT os) /\ small_error (NOT_DIRECTORY os) /\
    small_error (NOT_SUPPORTED os);
  p_getattr n rq w : within (fun _ => True) (snd (u_getattr U n rq w));
  p_getxattr n rq w : within (fun b => forall node size name,
    decode_view false cf RGetxattr rq = Ret (VGetxattr node size name) -> xattr_room size b)
    (snd (u_getxattr U n rq w));
  p_listxattr n rq w : within (fun b => forall node size,
    decode_view false cf RListxattr rq = Ret (VListxattr node size) -> xattr_room size b)
    (snd (u_listxattr U n rq w));
  p_statfs n rq w : within (fun _ => True) (snd (u_statfs U n rq w));
  p_lookup n rq w : within (fun r => match lr_node r with
    | Some (_, attr) => 0 < fa_ino attr < U64 | None => True end) (snd (u_lookup U n rq w));
  p_opendir n rq w : within (fun _ => True) (snd (u_opendir U n rq w));
  p_open n rq w : within (fun _ => True) (snd (u_open U n rq w));
  p_readlink n rq w : within (fun b => nlen b <= 4095) (snd (u_readlink U n rq w));
  p_readdir d rq w : within (fun b => forall node size offset h flags,
    decode_view false cf RReaddir rq = Ret (VReaddir node size offset h flags) -> nlen b <= size)
    (snd (u_readdir U d rq w));
  p_readdirplus d rq w : within (fun b => forall node size offset h flags,
    decode_view false cf RReaddirplus rq = Ret (VReaddirplus node size offset h flags) -> nlen b <= size)
    (snd (u_readdirplus U d rq w));
  p_releasedir d rq w : match snd (u_releasedir U d rq w) with Some e => small_error e | None => True end;
  p_read f rq w : within (fun b => forall node size offset h owner flags,
    decode_view false cf RRead rq = Ret (VRead node size offset h owner flags) -> nlen b <= size)
    (snd (u_read U f rq w));
  p_write f rq w : within (fun _ => True) (snd (u_write U f rq w));
  p_release f rq w : match snd (u_release U f rq w) with Some e => small_error e | None => True end }.

(** The device and the server: which operations wait after a history.  Requests
    arrive under even ids that are not in use, what is given to [send] is
    written to the device, and the device's answer is the result of [send]. *)
Inductive session : list label -> (N -> option client_op) -> Prop :=
| session_start : session [] (fun _ => None)
| session_request tr waiting i rq hd op rest :
  session tr waiting ->
  sendable false cf hd op -> size_of op + 32 <= u32_max -> 40 + nlen (op_body cf op) < U32 ->
  rq_mem rq = encode cf hd op ++ rest ->
  N.odd (rh_unique hd) = false -> waiting (rh_unique hd) = None ->
  session (tr ++ [Arrived i rq])
    (fun id => if waits op && (id =? rh_unique hd) then Some op else waiting id)
| session_send tr waiting i b m :
  session tr waiting -> on_wire b = Ret m ->
  session (tr ++ [Did i (EvSend b (send_result (device_write (cf_minor cf) waiting m)))])
    (after_write (device_write (cf_minor cf) waiting m) waiting)
| session_other tr waiting i e :
  session tr waiting -> (forall b ev, e <> EvSend b ev) -> session (tr ++ [Did i e]) waiting
| session_elsewhere tr waiting : session tr waiting -> session (tr ++ [Elsewhere]) waiting.
End VfsSpec.
(* appended *)
Section VfsProofs.
Context {E : Endian} {W Node FH DH : Type} (U : user W Node FH DH) (os : OsErrors) (cf : config).
Hypothesis P : polite U os cf.
Notation prog := (prog W Node FH DH).
Notation event := (event Node FH DH).
Notation label := (label Node FH DH).

Lemma small_i32 e : small_error e -> is_i32 e.
Proof. unfold small_error, is_i32. lia. Qed.
Lemma within_typed {A} (Q : A -> Prop) r : within Q r -> error_ok r.
Proof. destruct r; cbn; auto using small_i32. Qed.
Lemma polite_typed : typed_user U.
Proof.
  constructor; intros;
    try (eapply within_typed; first [ apply (p_getattr _ _ _ P) | apply (p_getxattr _ _ _ P)
      | apply (p_listxattr _ _ _ P) | apply (p_statfs _ _ _ P) | apply (p_opendir _ _ _ P)
      | apply (p_open _ _ _ P) | apply (p_readlink _ _ _ P) | apply (p_readdir _ _ _ P)
      | apply (p_readdirplus _ _ _ P) | apply (p_read _ _ _ P) | apply (p_write _ _ _ P) ]).
  - pose proof (p_lookup _ _ _ P n rq w) as H. destruct (snd (u_lookup U n rq w)); [exact H|].
    now apply small_i32.
  - pose proof (p_releasedir _ _ _ P d rq w) as H. unfold released_ok.
    destruct (snd (u_releasedir U d rq w)); auto using small_i32.
  - pose proof (p_release _ _ _ P f rq w) as H. unfold released_ok.
    destruct (snd (u_release U f rq w)); auto using small_i32.
Qed.
Lemma polite_errors : typed_errors os.
Proof. destruct (p_errors _ _ _ P) as (H1 & H2 & H3). constructor; now apply small_i32. Qed.

(** The reply that is sent completes the operation. *)
Definition taken (id : N) (op : client_op) (b : SendBuf) (ev : send_event) (p : prog) : Prop :=
  exists e pl, reads_as b id e pl /\ verdict (cf_minor cf) op id e pl = Completed id (told e pl).

Lemma suits_then_once id op a k :
  is_id id -> suits op a -> size_of op + 32 <= u32_max ->
  (forall ev, after (outcome ev) (k (match ev with SendOk => inl tt | SendFails e => inr e end))) ->
  (forall e, k (inr e) = PDone (inr (SrvSend e))) ->
  once U (taken id op) id (reply_then cf id a k).
Proof.
  intros Hid S L Hk Hf. destruct (suits_verdict (cf_minor cf) id op a Hid S L) as (p & (b & m & C & R) & V).
  apply reply_then_once; auto.
  - destruct a as [| | |e]; try exact zero_i32. cbn [error_of suits] in *. unfold is_i32. lia.
  - intros n C'. congruence.
  - intros b' ev p' R' C'. rewrite C in C'. injection C' as <-. exists (error_of a), p.
    split; [now exists m|exact V].
Qed.
Lemma suits_once id op a :
  is_id id -> suits op a -> size_of op + 32 <= u32_max ->
  once U (taken id op) id (reply cf id a).
Proof.
  intros Hid S L. apply suits_then_once; auto. intros ev. left. now destruct ev.
Qed.

Lemma body_taken rq id op nodeid :
  is_id id -> waits op = true -> vfs_type (op_code op) = Some (op_type op) ->
  size_of op + 32 <= u32_max ->
  decode_view false cf (op_type op) rq = Ret (WireSpec.expected false cf nodeid op) ->
  once U (taken id op) id (vfs_body U os cf rq id (op_type op) (WireSpec.expected false cf nodeid op)).
Proof.
  intros Hid Wt T L D. destruct (p_errors _ _ _ P) as (E1 & E2 & E3).
  assert (Err : forall e, small_error e -> once U (taken id op) id (reply cf id (AErr e))).
  { intros e He. now apply suits_once. }
  destruct op; try discriminate Wt; try discriminate T; try (destruct wait; discriminate T); clear Wt T;
    cbn [op_type WireSpec.expected] in *;
    cbn [vfs_body getattr_body getxattr_body listxattr_body lookup_body open_body
      opendir_body read_body readdir_body readdirplus_body readlink_body release_body releasedir_body
      statfs_body write_body]; unfold with_node, with_file, with_dir, with_trait, call; cbn [once].
  - intros [n|]; [|now apply Err]. cbn [once]. intros w. pose proof (p_getattr _ _ _ P n rq w) as He.
    destruct (snd (u_getattr U n rq w)); [|now apply Err]. cbv zeta. now apply suits_once.
  - intros [n|]; [|now apply Err]. cbn [once]. intros w. pose proof (p_getxattr _ _ _ P n rq w) as He.
    destruct (snd (u_getxattr U n rq w)); [|now apply Err]. apply suits_once; auto.
    specialize (He _ _ _ D). cbn [suits]. unfold xattr_room, nonzero in He. now destruct (size =? 0).
  - intros [n|]; [|now apply Err]. cbn [once]. intros w. pose proof (p_listxattr _ _ _ P n rq w) as He.
    destruct (snd (u_listxattr U n rq w)); [|now apply Err]. apply suits_once; auto.
    specialize (He _ _ D). cbn [suits]. unfold xattr_room, nonzero in He. now destruct (size =? 0).
  - intros [n|]; [|now apply Err]. cbn [once]. intros w. destruct (snd (u_as_directory U n w)); [|now apply Err].
    cbn [once]. intros w1. pose proof (p_lookup _ _ _ P n rq w1) as He.
    destruct (snd (u_lookup U n rq w1)) as [r|]; [|now apply Err]. unfold lookup_rest.
    cbn [within] in He. destruct (lr_node r) as [[node attr]|].
    + unfold NodeAttr_node_id, NodeId_new_unchecked.
      destruct (N.eqb_spec (fa_ino attr) 0); [lia|]. cbn [attempt]. cbv zeta.
      apply suits_then_once; auto; [exact I|]. intros [|]; [right; eauto|now left].
    + cbv zeta. now apply suits_once.
  - intros [n|]; [|now apply Err]. cbn [once]. intros w. destruct (snd (u_as_file U n w)); [|now apply Err].
    cbn [once]. intros w1. pose proof (p_open _ _ _ P n rq w1) as He.
    destruct (snd (u_open U n rq w1)) as [r|]; [|now apply Err]. cbn [once]. intros h. now apply suits_once.
  - intros [n|]; [|now apply Err]. cbn [once]. intros w. destruct (snd (u_as_directory U n w)); [|now apply Err].
    cbn [once]. intros w1. pose proof (p_opendir _ _ _ P n rq w1) as He.
    destruct (snd (u_opendir U n rq w1)) as [r|]; [|now apply Err]. cbn [once]. intros h. now apply suits_once.
  - intros [n|]; [|now apply Err]. cbn [once]. intros w. destruct (snd (u_as_read_handle U n w)); [|now apply Err].
    cbn [once]. intros w1. pose proof (p_read _ _ _ P n rq w1) as He.
    destruct (snd (u_read U n rq w1)) as [r|]; [|now apply Err]. apply suits_once; auto. exact (He _ _ _ _ _ _ D).
  - intros [n|]; [|now apply Err]. cbn [once]. intros w. destruct (snd (u_as_readdir_handle U n w)); [|now apply Err].
    cbn [once]. intros w1. pose proof (p_readdir _ _ _ P n rq w1) as He.
    destruct (snd (u_readdir U n rq w1)) as [r|]; [|now apply Err]. apply suits_once; auto. exact (He _ _ _ _ _ D).
  - intros [n|]; [|now apply Err]. cbn [once]. intros w.
    destruct (snd (u_as_readdirplus_handle U n w)); [|now apply Err].
    cbn [once]. intros w1. pose proof (p_readdirplus _ _ _ P n rq w1) as He.
    destruct (snd (u_readdirplus U n rq w1)) as [r|]; [|now apply Err]. apply suits_once; auto. exact (He _ _ _ _ _ D).
  - intros [n|]; [|now apply Err]. cbn [once]. intros w. destruct (snd (u_as_symlink U n w)); [|now apply Err].
    cbn [once]. intros w1. pose proof (p_readlink _ _ _ P n rq w1) as He.
    destruct (snd (u_readlink U n rq w1)) as [r|]; [|now apply Err]. now apply suits_once.
  - intros [|e|] He; [now apply Err| |now apply suits_once]. destruct He as (f & w & He).
    pose proof (p_release _ _ _ P f rq w) as X. rewrite He in X. now apply Err.
  - intros [|e|] He; [now apply Err| |now apply suits_once]. destruct He as (f & w & He).
    pose proof (p_releasedir _ _ _ P f rq w) as X. rewrite He in X. now apply Err.
  - intros [n|]; [|now apply Err]. cbn [once]. intros w. pose proof (p_statfs _ _ _ P n rq w) as He.
    destruct (snd (u_statfs U n rq w)); [|now apply Err]. now apply suits_once.
  - intros [n|]; [|now apply Err]. cbn [once]. intros w. destruct (snd (u_as_write_handle U n w)); [|now apply Err].
    cbn [once]. intros w1. pose proof (p_write _ _ _ P n rq w1) as He.
    destruct (snd (u_write U n rq w1)); [|now apply Err]. now apply suits_once.
Qed.

(** A request from the device and the thread it is served by. *)
Record job := { j_hd : req_header; j_op : client_op; j_rest : bytes }.
Definition job_ok (j : job) (rq : Request) : Prop :=
  sendable false cf (j_hd j) (j_op j) /\ size_of (j_op j) + 32 <= u32_max /\
  40 + nlen (op_body cf (j_op j)) < U32 /\
  Request_new (PropDecode.sent cf (j_hd j) (j_op j) [] (j_rest j)) = Ret rq /\
  N.odd (rh_unique (j_hd j)) = false.
Definition job_id (j : job) : N := rh_unique (j_hd j).

Lemma device_header hd op extra rest rq :
  good_header hd -> 40 + nlen (op_body cf op ++ extra) < U32 ->
  Request_new (PropDecode.sent cf hd op extra rest) = Ret rq ->
  u32_at 4 (PropDecode.sent cf hd op extra rest) = op_code op /\
  u64_at 8 (PropDecode.sent cf hd op extra rest) = rh_unique hd.
Proof.
  intros G L H. unfold PropDecode.sent. set (k := 40 + nlen (op_body cf op ++ extra)) in *.
  assert (M : OpsRoundTrip.message cf hd op extra k (encode_len cf hd op extra k ++ rest))
    by (apply encode_message; auto; lia).
  split; [apply M|]. unfold encode_len. rewrite <- app_assoc. unfold u64_at.
  apply fld_wire; [reflexivity|]. destruct G as [G _]. unfold header_fields in G.
  apply Forall_cons_iff in G as [_ G]. apply Forall_cons_iff in G as [_ G].
  apply Forall_cons_iff in G as [G _]. exact G.
Qed.

Lemma job_facts j rq : job_ok j rq ->
  is_id (job_id j) /\
  u32_at 4 (PropDecode.sent cf (j_hd j) (j_op j) [] (j_rest j)) = op_code (j_op j) /\
  u64_at 8 (PropDecode.sent cf (j_hd j) (j_op j) [] (j_rest j)) = job_id j /\
  (op_type (j_op j) <> RCreate -> op_type (j_op j) <> RSymlink ->
   decode_view false cf (op_type (j_op j)) rq =
   Ret (WireSpec.expected false cf (rh_nodeid (j_hd j)) (j_op j))).
Proof.
  intros (S & L & L2 & R & O).
  assert (L2' : 40 + nlen (op_body cf (j_op j) ++ []) < U32) by (now rewrite app_nil_r).
  destruct (device_header (j_hd j) (j_op j) [] (j_rest j) rq ltac:(apply S) L2' R) as [Ho Hu].
  split; [|split; [exact Ho|split; [exact Hu|]]].
  - unfold job_id. rewrite <- Hu. apply (header_opcode_eq _ _ R).
  - intros Hc Hy. destruct (deliver false cf (j_hd j) (j_op j) S) with (extra := @nil byte) (rest := j_rest j)
      as (rq' & R' & D'); auto.
    + intros C. contradiction.
    + rewrite R in R'. injection R' as <-. exact D'.
Qed.

Lemma type_of_code op t : vfs_type (op_code op) = Some t -> t = op_type op.
Proof.
  destruct op; cbn [op_code op_type]; try (destruct wait); intros H; vm_compute in H; try discriminate H;
    injection H as <-; reflexivity.
Qed.
Lemma vfs_not_create op : vfs_type (op_code op) <> None -> op_type op <> RCreate.
Proof. destruct op; cbn; try discriminate; intros H _; now apply H. Qed.
Lemma vfs_not_symlink op : vfs_type (op_code op) <> None -> op_type op <> RSymlink.
Proof. destruct op; cbn; try discriminate; intros H _; now apply H. Qed.

Lemma job_dispatched j rq p0 : job_ok j rq -> dispatch U os cf rq = Some p0 ->
  (waits (j_op j) = false /\ exists items, decode_view false cf RForget rq = Ret (VForget items) /\
     u32_at 4 (PropDecode.sent cf (j_hd j) (j_op j) [] (j_rest j)) = op_code (j_op j) /\
     vfs_type (op_code (j_op j)) = Some RForget) \/
  (waits (j_op j) = true /\ once U (taken (job_id j) (j_op j)) (job_id j) p0).
Proof.
  intros J D. destruct (job_facts j rq J) as (Hid & Ho & Hu & Hd). destruct J as (S & L & L2 & R & O).
  pose proof (dispatch_eq U os cf _ rq R) as X. rewrite Ho in X.
  destruct (vfs_type (op_code (j_op j))) as [t|] eqn:T; [|congruence].
  pose proof (type_of_code _ _ T) as ->. specialize (Hd (vfs_not_create (j_op j) ltac:(now rewrite T)) (vfs_not_symlink (j_op j) ltac:(now rewrite T))).
  destruct (waits (j_op j)) eqn:Wt.
  - right. split; [reflexivity|].
    assert (Nf : op_type (j_op j) <> RForget) by (destruct (j_op j); discriminate).
    rewrite <- Ho in T. destruct (dispatch_view U os cf _ rq _ R T Nf) as (p1 & D1 & Y).
    rewrite D in D1. injection D1 as <-. destruct Y as [(e & Y & _)|(v & Y & ->)]; [congruence|].
    rewrite Hd in Y. injection Y as <-. rewrite Hu. rewrite Ho in T. now apply body_taken.
  - left. split; [reflexivity|].
    destruct (j_op j); try discriminate Wt; try discriminate T; cbn [op_type WireSpec.expected] in *; eauto.
Qed.

Lemma arrived_all root w tr s i p :
  steps U os cf (start root w) tr s -> nth_error (sv_threads s) i = Some p ->
  exists rq, In (Arrived i rq) tr.
Proof.
  intros H. remember (start root w) as s0 eqn:S0. revert p. induction H as [s|s tr s1 l s2 H IH St]; intros p N.
  - subst s. destruct i; discriminate.
  - specialize (IH S0).
    inversion St as [k q ev e p' v v' w0 w' ts Hn He Es El Es2|rq q v w0 ts Hd Es El Es2|v w0 w' ts Es El Es2]; subst l s2 s1;
      cbn [sv_threads] in *.
    + rewrite nth_set in N.
      assert (X : exists q, nth_error ts i = Some q).
      { destruct (nth_error ts i) eqn:Y; [eauto|]. destruct (Nat.eqb k i); discriminate. }
      destruct X as [q' X]. destruct (IH q' X) as [rq I]. exists rq. apply in_or_app. now left.
    + destruct (Nat.lt_ge_cases i (length ts)) as [Lt|Ge].
      * rewrite nth_error_app1 in N by exact Lt. destruct (IH p N) as [rq' I]. exists rq'. apply in_or_app. now left.
      * rewrite nth_error_app2 in N by exact Ge. destruct (i - length ts)%nat as [|k] eqn:D0; [|destruct k; discriminate].
        replace i with (length ts) by lia. exists rq. apply in_or_app. right. now left.
    + destruct (IH p N) as [rq I]. exists rq. apply in_or_app. now left.
Qed.

Definition unsent (tr : list label) (i : nat) : Prop := VfsSpec.sent (of_thread i tr) = [].

(** Which jobs the threads have, after a history, and what waits. *)
Record tracks (tr : list label) (waiting : N -> option client_op) (own : nat -> option job) : Prop := {
  k_owned i rq : In (Arrived i rq) tr -> exists j, own i = Some j /\ job_ok j rq;
  k_arrived i j : own i = Some j -> exists rq, In (Arrived i rq) tr;
  k_waiting i j : own i = Some j -> waits (j_op j) = true -> unsent tr i ->
    waiting (job_id j) = Some (j_op j);
  k_distinct i i' j j' : own i = Some j -> own i' = Some j' ->
    waits (j_op j) = true -> waits (j_op j') = true -> unsent tr i -> unsent tr i' ->
    job_id j = job_id j' -> i = i';
  k_served id op : waiting id = Some op ->
    exists i j, own i = Some j /\ job_id j = id /\ j_op j = op /\ waits op = true /\ unsent tr i;
  k_sends i b ev : In (Did i (EvSend b ev)) tr -> ev = SendOk }.

Lemma unsent_snoc_other tr i l :
  match l with Did k (EvSend _ _) => k <> i | _ => True end -> (unsent (tr ++ [l]) i <-> unsent tr i).
Proof.
  intros H. unfold unsent. rewrite of_thread_app, sent_app.
  assert (X : VfsSpec.sent (of_thread i [l]) = []); [|now rewrite X, app_nil_r].
  destruct l as [k e| |]; [|reflexivity|reflexivity]. cbn [of_thread flat_map].
  destruct (Nat.eqb_spec k i) as [->|]; [|reflexivity]. destruct e; try reflexivity. now contradiction H.
Qed.

(** The thread that sends has a job that waits, and what it sends completes it. *)
Lemma sender root w tr s i b m ev own waiting s' :
  steps U os cf (start root w) tr s -> step U os cf s (Did i (EvSend b ev)) s' ->
  tracks tr waiting own -> on_wire b = Ret m ->
  exists j e pl, own i = Some j /\ waits (j_op j) = true /\ unsent tr i /\
    kernel_read m = Some (Reply (job_id j) e pl) /\
    device_write (cf_minor cf) waiting m = Completed (job_id j) (told e pl).
Proof.
  intros St St1 K Wr.
  inversion St1 as [k q ev0 e p' v v' w0 w' ts Hn He Es El Es2| |]; subst.
  destruct (arrived_all root w tr _ i q St Hn) as [rq A].
  destruct (k_owned _ _ _ K i rq A) as (j & Oj & J).
  destruct (threads_inv U os cf root w tr _ St) as [_ TI].
  destruct (TI i rq A) as (p0 & p & N & D & Pa). cbn [sv_threads] in *. rewrite Hn in N. injection N as <-.
  pose proof J as (S & L & L2 & R & O).
  destruct (job_dispatched j rq p0 J D) as [(Wt & items & Df & Ho & T)|(Wt & On)].
  - exfalso. rewrite <- Ho in T.
    destruct (C47_forget U os cf _ rq items R T Df) as (p1 & _ & _ & F).
    assert (St2 : steps U os cf (start root w) (tr ++ [Did i (EvSend b ev)])
                    {| sv_threads := set_thread i p' ts; sv_vfs := v'; sv_world := w' |})
      by (eapply steps_snoc; eauto).
    specialize (F root w _ _ i St2 ltac:(apply in_or_app; now left)).
    rewrite of_thread_app, sent_app in F. cbn [of_thread flat_map] in F. rewrite Nat.eqb_refl in F.
    cbn in F. now destruct (VfsSpec.sent (of_thread i tr)).
  - destruct (job_facts j rq J) as (Hid & _ & _ & _).
    pose proof (progress_path U cf _ _ _ _ _ On Pa) as Pr.
    assert (Q : exists k, q = PSend b k).
    { destruct q; cbn [exec] in He; try discriminate He.
      - destruct (f w0); discriminate.
      - now destruct (NodeMap_add _ _ _ _).
      - now destruct (HandlesMap_open_file _ _ _) as [[? ?]|].
      - now destruct (HandlesMap_open_dir _ _ _) as [[? ?]|].
      - destruct (HandlesMap_get_file _ _ _); [|discriminate]. now destruct (u_release U _ _ _) as [? []].
      - destruct (HandlesMap_get_dir _ _ _); [|discriminate]. now destruct (u_releasedir U _ _ _) as [? []].
      - injection He as -> _ _ _ _. eauto. }
    destruct Q as [k ->].
    destruct Pr as [[Un On2]|[(b' & ev' & e' & pl & q' & l' & _ & _ & _ & Af & X)|(_ & X & _)]].
    + cbn [once] in On2. destruct On2 as [_ X]. destruct (X ev) as [_ (e1 & pl & (m' & Wr' & _ & K1) & V)].
      rewrite Wr in Wr'. injection Wr' as <-. exists j, e1, pl.
      split; [exact Oj|]. split; [exact Wt|]. split; [exact Un|]. split; [exact K1|].
      rewrite (device_verdict _ waiting m (job_id j) e1 pl (j_op j) K1 O); [exact V|].
      exact (k_waiting _ _ _ K i j Oj Wt Un).
    + exfalso. destruct X as [[<- _]|(i0 & n & -> & [[_ X]|[_ X]])]; try discriminate.
      destruct Af as [Af|(? & ? & Af)]; discriminate.
    + discriminate.
Qed.

Lemma session_tracks root w tr s waiting :
  steps U os cf (start root w) tr s -> session cf tr waiting -> exists own, tracks tr waiting own.
Proof.
  intros H. remember (start root w) as s0 eqn:S0. revert waiting.
  induction H as [s|s tr s1 l s2 H IH St]; intros waiting Se.
  - inversion Se as [Hx|tr0 ? ? ? ? ? ? ? ? ? ? ? ? ? Hx|tr0 ? ? ? ? ? ? Hx|tr0 ? ? ? ? ? Hx|tr0 ? ? Hx];
      try (now destruct tr0). exists (fun _ => None). constructor; try discriminate; try contradiction.
  - subst s. specialize (IH eq_refl).
    inversion Se as [Hx|tr0 wt i rq hd op rest Se0 Sd L L2 Rm O Fr Hx Hy|tr0 wt i b m Se0 Wr Hx Hy|tr0 wt i e Se0 Ne Hx Hy|tr0 wt Se0 Hx Hy].
    + now destruct tr.
    + apply app_inj_tail in Hx as [-> <-]. destruct (IH wt Se0) as [own K].
      inversion St as [|rq' q v w0 ts Hd Es El Es2|]; subst rq' s1 s2 i.
      set (jb := {| j_hd := hd; j_op := op; j_rest := rest |}).
      assert (Jk : job_ok jb rq).
      { split; [exact Sd|]. split; [exact L|]. split; [exact L2|]. split; [|exact O].
        cbn [j_hd j_op j_rest jb]. rewrite sent_encode.
        assert (Rn : Request_new (PropDecode.sent cf hd op [] rest) =
                     Ret {| rq_mem := PropDecode.sent cf hd op [] rest |}).
        { unfold PropDecode.sent. apply new_accepts; try apply Sd; rewrite ?app_nil_r; lia. }
        rewrite sent_encode in Rn. rewrite Rn, <- Rm. now destruct rq. }
      assert (None_ : own (length ts) = None).
      { destruct (own (length ts)) as [j|] eqn:Y; [|reflexivity]. exfalso.
        destruct (k_arrived _ _ _ K _ _ Y) as [rq' A].
        destruct (threads_inv U os cf root w tr _ H) as [_ TI].
        destruct (TI _ _ A) as (_ & p & N & _). cbn [sv_threads] in N.
        assert (X : nth_error ts (length ts) <> None) by congruence. apply nth_error_Some in X. lia. }
      exists (fun k => if Nat.eqb k (length ts) then Some jb else own k).
      assert (Un : forall k, unsent (tr ++ [Arrived (length ts) rq]) k <-> unsent tr k)
        by (intros k; now apply unsent_snoc_other).
      assert (Arr : forall k rq', In (Arrived k rq') tr -> k <> length ts).
      { intros k rq' A ->. destruct (k_owned _ _ _ K _ _ A) as (j & Y & _). congruence. }
      constructor.
      * intros k rq' A. apply in_app_iff in A as [A|[A|[]]].
        -- destruct (Nat.eqb_spec k (length ts)) as [->|]; [exfalso; now apply (Arr _ _ A)|].
           exact (k_owned _ _ _ K _ _ A).
        -- injection A as <- <-. rewrite Nat.eqb_refl. eauto.
      * intros k j Y. destruct (Nat.eqb_spec k (length ts)) as [->|].
        -- exists rq. apply in_or_app. right. now left.
        -- destruct (k_arrived _ _ _ K _ _ Y) as [rq' A]. exists rq'. apply in_or_app. now left.
      * intros k j Y Wt U1. apply Un in U1. destruct (Nat.eqb_spec k (length ts)) as [->|].
        -- injection Y as <-. cbn [jb j_op job_id j_hd] in *. unfold job_id. cbn [jb j_hd].
           now rewrite Wt, N.eqb_refl.
        -- pose proof (k_waiting _ _ _ K k j Y Wt U1) as X.
           destruct (N.eqb_spec (job_id j) (rh_unique hd)) as [Eq|]; [|now rewrite andb_false_r].
           rewrite Eq, Fr in X. discriminate.
      * assert (Clash : forall k j, own k = Some j -> waits (j_op j) = true -> unsent tr k ->
                  job_id j = rh_unique hd -> False).
        { intros k j Y Wt U1 Eq. pose proof (k_waiting _ _ _ K k j Y Wt U1) as X. rewrite Eq, Fr in X. discriminate. }
        intros k k' j j' Y Y' Wt Wt' U1 U2 Eq. apply Un in U1, U2.
        destruct (Nat.eqb_spec k (length ts)) as [->|]; destruct (Nat.eqb_spec k' (length ts)) as [->|]; auto.
        -- injection Y as <-. exfalso. now apply (Clash k' j').
        -- injection Y' as <-. exfalso. now apply (Clash k j).
        -- exact (k_distinct _ _ _ K k k' j j' Y Y' Wt Wt' U1 U2 Eq).
      * intros id op' X. destruct (waits op) eqn:Wt; [destruct (N.eqb_spec id (rh_unique hd)) as [->|]|]; cbn [andb] in X.
        -- injection X as <-. exists (length ts), jb. rewrite Nat.eqb_refl.
           repeat split; auto. apply Un. unfold unsent.
           assert (F : of_thread (length ts) tr = []); [|now rewrite F].
           destruct (threads_inv U os cf root w tr _ H) as [TI _]. cbn [sv_threads] in TI.
           assert (G : forall i e, In (Did i e) tr -> i <> length ts)
             by (intros i e Y; apply TI in Y; lia).
           clear -G. induction tr as [|l tr IH]; [reflexivity|]. cbn [of_thread flat_map].
           fold (of_thread (length ts) tr). rewrite IH by (intros i e Y; apply (G i e); now right).
           destruct l as [i e| |]; [|reflexivity|reflexivity].
           destruct (Nat.eqb_spec i (length ts)) as [->|]; [|reflexivity].
           exfalso. apply (G (length ts) e); [now left|reflexivity].
        -- destruct (k_served _ _ _ K id op' X) as (k & j & Y & Y1 & Y2 & Y3 & Y4). exists k, j.
           destruct (Nat.eqb_spec k (length ts)) as [->|]; [congruence|]. repeat split; auto. now apply Un.
        -- destruct (k_served _ _ _ K id op' X) as (k & j & Y & Y1 & Y2 & Y3 & Y4). exists k, j.
           destruct (Nat.eqb_spec k (length ts)) as [->|]; [congruence|]. repeat split; auto. now apply Un.
      * intros k b ev A. apply in_app_iff in A as [A|[A|[]]]; [|discriminate]. exact (k_sends _ _ _ K _ _ _ A).
    + apply app_inj_tail in Hx as [-> <-]. destruct (IH wt Se0) as [own K].
      destruct (sender root w tr s1 i b m _ own wt s2 H St K Wr) as (j & e & pl & Oj & Wt & Ui & Kr & Dw).
      rewrite Dw in *. cbn [send_result] in *.
      assert (Aw : forall id, waiting id = if id =? job_id j then None else wt id) by (intros id; now rewrite <- Hy).
      rewrite ?Hy. exists own.
      assert (Un : forall k, k <> i -> (unsent (tr ++ [Did i (EvSend b SendOk)]) k <-> unsent tr k))
        by (intros k Nk; apply unsent_snoc_other; congruence).
      assert (Si : ~ unsent (tr ++ [Did i (EvSend b SendOk)]) i).
      { unfold unsent. rewrite of_thread_app, sent_app. cbn [of_thread flat_map]. rewrite Nat.eqb_refl.
        cbn. intros X. now destruct (VfsSpec.sent (of_thread i tr)). }
      constructor.
      * intros k rq A. apply in_app_iff in A as [A|[A|[]]]; [|discriminate]. exact (k_owned _ _ _ K _ _ A).
      * intros k j' Y. destruct (k_arrived _ _ _ K _ _ Y) as [rq' A]. exists rq'. apply in_or_app. now left.
      * intros k j' Y Wt' U1. destruct (Nat.eq_dec k i) as [->|Nk]; [contradiction|]. apply Un in U1; [|exact Nk].
        rewrite Aw. destruct (N.eqb_spec (job_id j') (job_id j)) as [Eq|]; [|exact (k_waiting _ _ _ K k j' Y Wt' U1)].
        exfalso. apply Nk. exact (k_distinct _ _ _ K k i j' j Y Oj Wt' Wt U1 Ui Eq).
      * intros k k' j1 j2 Y Y' W1 W2 U1 U2 Eq.
        destruct (Nat.eq_dec k i) as [->|Nk]; [contradiction|]. destruct (Nat.eq_dec k' i) as [->|Nk']; [contradiction|].
        apply Un in U1, U2; auto. exact (k_distinct _ _ _ K k k' j1 j2 Y Y' W1 W2 U1 U2 Eq).
      * intros id op' X. rewrite Aw in X. destruct (N.eqb_spec id (job_id j)) as [|Ni]; [discriminate|].
        destruct (k_served _ _ _ K id op' X) as (k & j' & Y & Y1 & Y2 & Y3 & Y4). exists k, j'.
        repeat split; auto. apply Un; [|exact Y4]. intros ->. rewrite Oj in Y. injection Y as <-. congruence.
      * intros k b' ev A. apply in_app_iff in A as [A|[A|[]]]; [exact (k_sends _ _ _ K _ _ _ A)|].
        now injection A as <- <- <-.
    + apply app_inj_tail in Hx as [-> <-]. subst wt. destruct (IH waiting Se0) as [own K]. exists own.
      assert (Un : forall k, unsent (tr ++ [Did i e]) k <-> unsent tr k).
      { intros k. apply unsent_snoc_other. destruct e; auto. exfalso. now apply (Ne buf r). }
      constructor.
      * intros k rq A. apply in_app_iff in A as [A|[A|[]]]; [|discriminate]. exact (k_owned _ _ _ K _ _ A).
      * intros k j' Y. destruct (k_arrived _ _ _ K _ _ Y) as [rq' A]. exists rq'. apply in_or_app. now left.
      * intros k j' Y Wt' U1. apply Un in U1. exact (k_waiting _ _ _ K k j' Y Wt' U1).
      * intros k k' j1 j2 Y Y' W1 W2 U1 U2 Eq. apply Un in U1, U2.
        exact (k_distinct _ _ _ K k k' j1 j2 Y Y' W1 W2 U1 U2 Eq).
      * intros id op' X. destruct (k_served _ _ _ K id op' X) as (k & j' & Y & Y1 & Y2 & Y3 & Y4). exists k, j'.
        repeat split; auto. now apply Un.
      * intros k b' ev A. apply in_app_iff in A as [A|[A|[]]]; [exact (k_sends _ _ _ K _ _ _ A)|].
        exfalso. injection A as _ ->. now apply (Ne b' ev).
    + apply app_inj_tail in Hx as [-> <-]. subst wt. destruct (IH waiting Se0) as [own K]. exists own.
      assert (Un : forall k, unsent (tr ++ [Elsewhere]) k <-> unsent tr k).
      { intros k. now apply unsent_snoc_other. }
      constructor.
      * intros k rq A. apply in_app_iff in A as [A|[A|[]]]; [|discriminate]. exact (k_owned _ _ _ K _ _ A).
      * intros k j' Y. destruct (k_arrived _ _ _ K _ _ Y) as [rq' A]. exists rq'. apply in_or_app. now left.
      * intros k j' Y Wt' U1. apply Un in U1. exact (k_waiting _ _ _ K k j' Y Wt' U1).
      * intros k k' j1 j2 Y Y' W1 W2 U1 U2 Eq. apply Un in U1, U2.
        exact (k_distinct _ _ _ K k k' j1 j2 Y Y' W1 W2 U1 U2 Eq).
      * intros id op' X. destruct (k_served _ _ _ K id op' X) as (k & j' & Y & Y1 & Y2 & Y3 & Y4). exists k, j'.
        repeat split; auto. now apply Un.
      * intros k b' ev A. apply in_app_iff in A as [A|[A|[]]]; [exact (k_sends _ _ _ K _ _ _ A)|discriminate].
Qed.
End VfsProofs.

Section VfsTheorems.
Context {E : Endian} {W Node FH DH : Type} (U : user W Node FH DH) (os : OsErrors) (cf : config).

(** Over the device, with every interleaving of the handlers: no reply of
    fuse-vfs is refused or breaks its operation, and an operation waits only
    while the handler of its request has not sent its reply. *)
Theorem C62_vfs_session root w tr s waiting :
  polite U os cf -> steps U os cf (start root w) tr s -> session cf tr waiting ->
  (forall i b ev, In (Did i (EvSend b ev)) tr -> ev = SendOk) /\
  (forall id op, waiting id = Some op ->
   exists i rq hd rest, In (Arrived i rq) tr /\ rq_mem rq = encode cf hd op ++ rest /\
     rh_unique hd = id /\ VfsSpec.sent (of_thread i tr) = []).
Proof.
  intros P St Se. destruct (session_tracks U os cf P root w tr s waiting St Se) as [own K].
  split; [apply (k_sends _ _ _ _ K)|].
  intros id op Wt. destruct (k_served _ _ _ _ K id op Wt) as (i & j & Oj & Ji & Jo & _ & Un).
  destruct (k_arrived _ _ _ _ K i j Oj) as [rq A]. destruct (k_owned _ _ _ _ K i rq A) as (j' & Oj' & J).
  rewrite Oj in Oj'. injection Oj' as <-. exists i, rq, (j_hd j), (j_rest j).
  split; [exact A|]. split; [|split; [exact Ji|exact Un]].
  destruct J as (_ & _ & _ & R & _). destruct (Request_new_accepted _ _ R) as [-> _]. cbn [rq_mem].
  now rewrite sent_encode, Jo.
Qed.

(** When every handler has returned, no operation waits. *)
Theorem C62_vfs_drained root w tr s waiting :
  polite U os cf -> small_user U -> steps U os cf (start root w) tr s -> session cf tr waiting ->
  (forall i p, nth_error (sv_threads s) i = Some p -> exists r, p = PDone r) ->
  forall id, waiting id = None.
Proof.
  intros P Sm St Se Dn id. destruct (session_tracks U os cf P root w tr s waiting St Se) as [own K].
  destruct (waiting id) as [op|] eqn:Wt; [|reflexivity]. exfalso.
  destruct (k_served _ _ _ _ K id op Wt) as (i & j & Oj & Ji & Jo & Wo & Un).
  destruct (k_arrived _ _ _ _ K i j Oj) as [rq A]. destruct (k_owned _ _ _ _ K i rq A) as (j' & Oj' & J).
  rewrite Oj in Oj'. injection Oj' as <-. subst op.
  destruct (threads_inv U os cf root w tr s St) as [_ TI]. destruct (TI i rq A) as (p0 & p & N & D & Pa).
  destruct (Dn i p N) as [r ->].
  destruct (job_dispatched U os cf P j rq p0 J D) as [(X & _)|(_ & On)]; [congruence|].
  destruct (progress_path U cf _ _ _ _ _ On Pa) as [[_ X]|[(b & ev & e & pl & q & l & X & _)|(_ & X & _)]].
  - cbn [once] in X. destruct X as (n & _ & _ & X). contradiction.
  - unfold unsent in Un. rewrite Un in X. discriminate.
  - discriminate.
Qed.
End VfsTheorems.


Section Hello.
Context {E : Endian} (os : HelloErrors) (uid gid vec_addr : N) (cf : config).
Hypothesis Huid : uid < U32.
Hypothesis Hgid : gid < U32.
Hypothesis Haddr : vec_addr mod 8 = 0.
Hypothesis Herrors : small_error (HE_INVALID_ARGUMENT os) /\ small_error (HE_NOT_FOUND os) /\
  small_error (HE_UNIMPLEMENTED os).

(** The sizes of READ and READDIR have room for the file and the listing. *)
Definition hello_room (op : client_op) : Prop :=
  match op with ORead fh _ size _ _ _ _ => fh = 1001 -> 14 <= size | _ => has_room op end.

Lemma hello_suits hd op rest rq :
  sendable false cf hd op -> hello_room op -> 40 + nlen (op_body cf op) < U32 ->
  Request_new (PropDecode.sent cf hd op [] rest) = Ret rq -> waits op = true ->
  exists a, Hello_method os uid gid vec_addr cf (fuse_route (op_code op)) rq = Ret a /\ suits op a.
Proof.
  intros S Room L Rq W. destruct Herrors as (He1 & He2 & He3). unfold small_error in *.
  assert (D : op_type op <> RCreate -> op_type op <> RSymlink ->
    decode_view false cf (op_type op) rq = Ret (WireSpec.expected false cf (rh_nodeid hd) op)).
  { intros Hc Hy. destruct (deliver false cf hd op S) with (extra := @nil byte) (rest := rest) as (rq' & R' & D'); auto.
    - intros C. contradiction.
    - now rewrite app_nil_r.
    - rewrite Rq in R'. injection R' as <-. exact D'. }
  assert (Err : forall e, (-512 < e < 0)%Z -> exists a, @Ret answer (AErr e) = Ret a /\ suits op a)
    by (intros e He; exists (AErr e); split; [reflexivity|exact He]).
  destruct op; try discriminate W; try (now apply Err);
    try (match goal with |- context [OSetlk ?w] => destruct w end; now apply Err);
    specialize (D ltac:(discriminate) ltac:(discriminate)); cbn [op_type] in D.
  all: cbn [op_code] in *;
       change (fuse_route 1) with M_lookup || change (fuse_route 3) with M_getattr ||
       change (fuse_route 14) with M_open || change (fuse_route 15) with M_read ||
       change (fuse_route 27) with M_opendir || change (fuse_route 28) with M_readdir ||
       change (fuse_route 29) with M_releasedir.
  - pose proof (getattr_handles os uid gid vec_addr cf rq) as Hh. rewrite D in Hh. cbn [handles WireSpec.expected] in Hh. rewrite Hh.
    destruct (rh_nodeid hd =? 1); [eexists; split; [reflexivity|exact I]|].
    destruct (rh_nodeid hd =? 100); [eexists; split; [reflexivity|exact I]|now apply Err].
  - pose proof (lookup_handles os uid gid vec_addr cf rq) as Hh. rewrite D in Hh. cbn [handles WireSpec.expected] in Hh. rewrite Hh.
    destruct (rh_nodeid hd =? 1); cbn [negb andb]; [|now apply Err].
    destruct (name_is name "hello.txt"); [|now apply Err]. eexists; split; [reflexivity|exact I].
  - pose proof (open_handles os uid gid vec_addr cf rq) as Hh. rewrite D in Hh. cbn [handles WireSpec.expected] in Hh. rewrite Hh.
    destruct (negb _); [now apply Err|]. eexists; split; [reflexivity|exact I].
  - pose proof (opendir_handles os uid gid vec_addr cf rq) as Hh. rewrite D in Hh. cbn [handles WireSpec.expected] in Hh. rewrite Hh.
    destruct (negb _); [now apply Err|]. eexists; split; [reflexivity|exact I].
  - pose proof (read_handles os uid gid vec_addr cf rq) as Hh. rewrite D in Hh. cbn [handles WireSpec.expected] in Hh. rewrite Hh.
    cbn [hello_room] in Room. destruct (N.eqb_spec fh 1001); cbn [negb]; [|now apply Err].
    eexists; split; [reflexivity|]. cbn [suits]. now apply Room.
  - pose proof (readdir_handles os uid gid vec_addr cf rq) as Hh. rewrite D in Hh. cbn [handles WireSpec.expected] in Hh. rewrite Hh.
    cbn [hello_room has_room] in Room. destruct (N.eqb_spec fh 1002); cbn [negb]; [|now apply Err].
    unfold WireSpec.nonzero. destruct (N.eqb_spec offset 0); cbn [negb]; [|eexists; split; [reflexivity|exact I]].
    unfold listing_answer.
    destruct (hello_listing uid gid vec_addr Huid Hgid Haddr size) as (w & p & P1 & P2 & P3 & P4); auto.
    rewrite P1. cbn [bind negb]. rewrite P2. cbn [bind]. eexists; split; [reflexivity|]. cbn [suits]. lia.
  - pose proof (releasedir_handles os uid gid vec_addr cf rq) as Hh. rewrite D in Hh. cbn [handles WireSpec.expected] in Hh. rewrite Hh.
    destruct (negb _); [now apply Err|]. eexists; split; [reflexivity|exact I].
Qed.

(** The hello-world example behind the device: every operation with room for
    the file is completed, and its handler does not panic. *)
Theorem C62_hello hd op rest waiting :
  sendable false cf hd op -> hello_room op -> 40 + nlen (op_body cf op) < U32 -> size_of op + 32 <= u32_max ->
  waits op = true -> N.odd (rh_unique hd) = false -> waiting (rh_unique hd) = Some op ->
  exists rq b m e p,
    Request_new (encode cf hd op ++ rest) = Ret rq /\
    Hello_dispatch os uid gid vec_addr cf rq SendOk = ([b], Ret tt) /\
    on_wire b = Ret m /\ kernel_read m = Some (Reply (rh_unique hd) e p) /\
    device_write (cf_minor cf) waiting m = Completed (rh_unique hd) (told e p).
Proof.
  intros S Room L L2 W O Wt.
  assert (Rq : Request_new (PropDecode.sent cf hd op [] rest) =
               Ret {| rq_mem := PropDecode.sent cf hd op [] rest |}).
  { unfold PropDecode.sent. apply new_accepts; try apply S; rewrite ?app_nil_r; lia. }
  set (rq := {| rq_mem := _ |}) in Rq.
  destruct (hello_suits hd op rest rq S Room L Rq W) as (a & M & Su).
  assert (L' : 40 + nlen (op_body cf op ++ []) < U32) by (now rewrite app_nil_r).
  destruct (device_header cf hd op [] rest rq ltac:(apply S) L' Rq) as [Ho Hu].
  assert (Hid : is_id (rh_unique hd)) by (rewrite <- Hu; apply (header_opcode_eq _ _ Rq)).
  destruct (C62_accepted (cf_minor cf) waiting (rh_unique hd) op a Hid O Wt Su L2) as (b & m & p & C & Wr & K & V & _).
  exists rq, b, m, (error_of a), p. rewrite <- sent_encode. split; [exact Rq|]. split; [|auto].
  rewrite (hello_dispatch_eq os uid gid vec_addr cf Huid Hgid Haddr _ _ SendOk Rq), Ho, Hu.
  assert (X : one_way (op_code op) = false) by (destruct op; try discriminate W; try reflexivity; now destruct wait).
  rewrite X, M. cbn [finish]. rewrite C. reflexivity.
Qed.
End Hello.

(** * Examples *)

Local Instance LE : Endian := false.

(** The file system of VfsRun.v with readers that stop at the size they are
    given and without extended attributes. *)
Definition courteous : user N N N N := {|
  u_as_directory := u_as_directory demo; u_as_file := u_as_file demo; u_as_symlink := u_as_symlink demo;
  u_getattr := u_getattr demo; u_getxattr n rq := default_getxattr linux_errors;
  u_listxattr n rq w := (w, inr (-95)%Z); u_statfs n rq := default_statfs;
  u_lookup := u_lookup demo;
  u_opendir := u_opendir demo; u_open := u_open demo; u_readlink := u_readlink demo;
  u_as_readdir_handle := u_as_readdir_handle demo; u_as_readdirplus_handle := u_as_readdirplus_handle demo;
  u_readdir := u_readdir demo; u_readdirplus := u_readdirplus demo; u_releasedir := u_releasedir demo;
  u_as_read_handle := u_as_read_handle demo; u_as_write_handle := u_as_write_handle demo;
  u_read f rq w := (w, match decode_view false demo_cf RRead rq with
    | Ret (VRead _ size _ _ _ _) => inl (take size [n2b 104; n2b 105]) | _ => inr (-5)%Z end);
  u_write := u_write demo; u_release := u_release demo |}.
Lemma courteous_polite : polite courteous linux_errors demo_cf.
Proof.
  constructor; try (intros; cbn; exact I).
  - cbn. unfold small_error. repeat split; lia.
  - intros. cbn. unfold small_error. lia.
  - intros. cbn. unfold small_error. lia.
  - intros n rq w. cbn. destruct (LookupRequest_try_from rq); try (unfold within, small_error; lia).
    destruct (nlen _ =? 1); cbn; unfold U64; lia.
  - intros. cbn. lia.
  - intros d rq w node size offset h flags _. cbn. lia.
  - intros d rq w node size offset h flags _. cbn. lia.
  - intros f rq w. cbn [courteous u_read snd].
    destruct (decode_view false demo_cf RRead rq) as [v|e| |] eqn:D; try (unfold within, small_error; lia).
    destruct v; try (unfold within, small_error; lia).
    intros node1 size1 offset1 h1 owner1 flags1 X. injection X as <- <- <- <- <- <-. 
    rewrite nlen_take. lia.
  - intros f rq w. cbn. destruct (f =? 100); cbn; [exact I|unfold small_error; lia].
Qed.

(** A history checked against the device, given the requests in order. *)
Fixpoint replayed (cf : config) (ops : list (req_header * client_op)) (tr : list (label N N N))
  (waiting : N -> option client_op) : Prop :=
  match tr with
  | [] => True
  | Arrived i rq :: tr =>
    match ops with
    | (hd, op) :: ops =>
      rq_mem rq = encode cf hd op /\ N.odd (rh_unique hd) = false /\ waiting (rh_unique hd) = None /\
      replayed cf ops tr (fun id => if waits op && (id =? rh_unique hd) then Some op else waiting id)
    | [] => False
    end
  | Did i (EvSend b ev) :: tr =>
    match on_wire b with
    | Ret m =>
      ev = send_result (device_write (cf_minor cf) waiting m) /\
      replayed cf ops tr (after_write (device_write (cf_minor cf) waiting m) waiting)
    | _ => False
    end
  | Did _ _ :: tr | Elsewhere :: tr => replayed cf ops tr waiting
  end.
Lemma replayed_session cf tr : forall ops tr0 waiting,
  session cf tr0 waiting -> replayed cf ops tr waiting ->
  Forall (fun x => sendable false cf (fst x) (snd x) /\ size_of (snd x) + 32 <= u32_max /\
                   40 + nlen (op_body cf (snd x)) < U32) ops ->
  exists waiting', session cf (tr0 ++ tr) waiting'.
Proof.
  induction tr as [|l tr IH]; intros ops tr0 waiting Se R F; [rewrite app_nil_r; eauto|].
  assert (Next : forall ops' wt, session cf (tr0 ++ [l]) wt -> replayed cf ops' tr wt ->
    Forall (fun x => sendable false cf (fst x) (snd x) /\ size_of (snd x) + 32 <= u32_max /\
                   40 + nlen (op_body cf (snd x)) < U32) ops' ->
    exists waiting', session cf (tr0 ++ l :: tr) waiting').
  { intros ops' wt S' R' F'. destruct (IH ops' _ wt S' R' F') as [wt' X]. exists wt'.
    now rewrite <- app_assoc in X. }
  destruct l as [i e|i rq|]; cbn [replayed] in R.
  - destruct e; try (eapply Next; [apply session_other; [exact Se|discriminate]|exact R|exact F]).
    destruct (on_wire buf) as [m| | |] eqn:Wr; try contradiction. destruct R as [-> R].
    eapply Next; [eapply session_send; eauto|exact R|exact F].
  - destruct ops as [|[hd op] ops]; [contradiction|]. destruct R as (R1 & R2 & R3 & R4).
    apply Forall_cons_iff in F as [(F1 & F2 & F3) F]. cbn [fst snd] in *.
    eapply Next; [eapply (session_request cf tr0 waiting i rq hd op []); eauto|exact R4|exact F].
    now rewrite app_nil_r.
  - eapply Next; [apply session_elsewhere; exact Se|exact R|exact F].
Qed.

(** GETATTR and OPENDIR of the root, interleaved. *)
Definition demo_hd (unique node : N) : req_header :=
  {| rh_unique := unique; rh_nodeid := node; rh_uid := 0; rh_gid := 0; rh_pid := 7; rh_padding := 0 |}.
Definition hist (U : user N N N N) (cs : list choice) : list (label N N N) :=
  match schedule U linux_errors demo_cf cs (start 1 0) with Some (tr, _) => tr | None => [] end.
Definition steps_of (i n : nat) : list choice := repeat (Takes i SendOk) n.
Definition session_history : list choice :=
  [Arrives (demo_rq 4 1 (OGetattr 0 0 0)); Arrives (demo_rq 6 1 (OOpendir 0 0))] ++
  steps_of 0 1 ++ steps_of 1 3 ++ steps_of 0 2 ++ steps_of 1 2.
Lemma session_ops : Forall (fun x => sendable false demo_cf (fst x) (snd x) /\ size_of (snd x) + 32 <= u32_max /\
                   40 + nlen (op_body demo_cf (snd x)) < U32)
  [(demo_hd 4 1, OGetattr 0 0 0); (demo_hd 6 1, OOpendir 0 0)].
Proof.
  repeat constructor; cbn [fst snd]; try (vm_compute; auto; discriminate).
Qed.
Example C62_vfs_drained_example :
  polite courteous linux_errors demo_cf /\ small_user courteous /\
  exists tr s waiting, steps courteous linux_errors demo_cf (start 1 0) tr s /\ session demo_cf tr waiting /\
    (length tr = 10)%nat /\ nth_error (sv_threads s) 1 = Some (PDone (inl tt)) /\
    (forall i p, nth_error (sv_threads s) i = Some p -> exists r, p = PDone r).
Proof.
  split; [exact courteous_polite|]. split.
  { split; intros; try (cbn; unfold u32_max; solve [auto|lia]).
    assert (T : forall n, 16 + nlen (take n [n2b 104; n2b 105]) <= 4294967295)
      by (intros n; rewrite nlen_take; change (nlen [n2b 104; n2b 105]) with 2; lia).
    cbn [courteous u_read snd]. destruct (decode_view false demo_cf RRead rq) as [v| | |]; try exact I. destruct v; try exact I. apply T. }
  destruct (scheduled_view courteous linux_errors demo_cf (fun s => sv_threads s) session_history (start 1 0)
    (hist courteous session_history) [PDone (inl tt); PDone (inl tt)]) as (s & H1 & H2).
  { vm_compute. reflexivity. }
  destruct (replayed_session demo_cf (hist courteous session_history)
    [(demo_hd 4 1, OGetattr 0 0 0); (demo_hd 6 1, OOpendir 0 0)] [] (fun _ => None) (session_start demo_cf)
    ltac:(vm_compute; repeat split) session_ops) as [wt Se].
  exists (hist courteous session_history), s, wt. split; [exact H1|]. split; [exact Se|].
  split; [vm_compute; reflexivity|]. rewrite H2. split; [reflexivity|].
  intros [|[|i]] p X; [injection X as <-; eauto|injection X as <-; eauto|destruct i; discriminate].
Qed.

Example C62_vfs_session_example :
  polite courteous linux_errors demo_cf /\
  exists tr s waiting, steps courteous linux_errors demo_cf (start 1 0) tr s /\ session demo_cf tr waiting /\
    (exists b, In (Did 1 (EvSend b SendOk)) tr).
Proof.
  destruct C62_vfs_drained_example as (P & _ & tr & s & wt & H1 & H2 & H3 & H4 & H5).
  split; [exact P|].
  destruct (scheduled_view courteous linux_errors demo_cf (fun s => sv_threads s) session_history (start 1 0)
    (hist courteous session_history) [PDone (inl tt); PDone (inl tt)]) as (s' & H1' & _).
  { vm_compute. reflexivity. }
  destruct (replayed_session demo_cf (hist courteous session_history)
    [(demo_hd 4 1, OGetattr 0 0 0); (demo_hd 6 1, OOpendir 0 0)] [] (fun _ => None) (session_start demo_cf)
    ltac:(vm_compute; repeat split) session_ops) as [wt' Se].
  exists (hist courteous session_history), s', wt'. split; [exact H1'|]. split; [exact Se|].
  eexists. vm_compute. tauto.
Qed.

(** A file system that leaves [listxattr] as provided (fuse-vfs.rs:112-118) is
    not polite: the reply to a size query breaks the operation, and the
    handler is told. *)
Definition size_query_history : list choice :=
  [Arrives (demo_rq 4 1 (OListxattr 0 0))] ++ steps_of 0 2 ++ [Takes 0 (SendFails (SE_Other EINVAL))].
Theorem C62_default_listxattr_refuted :
  exists tr s waiting i b, steps demo linux_errors demo_cf (start 1 0) tr s /\ session demo_cf tr waiting /\
    (forall n rq w, u_listxattr demo n rq w = default_listxattr w) /\
    In (Did i (EvSend b (SendFails (SE_Other EINVAL)))) tr /\
    (forall m, on_wire b = Ret m ->
     device_write 36 (fun id => if id =? 4 then Some (OListxattr 0 0) else None) m = Broken 4).
Proof.
  destruct (scheduled_view demo linux_errors demo_cf (fun s => 0) size_query_history (start 1 0)
    (hist demo size_query_history) 0) as (s & H1 & _).
  { vm_compute. reflexivity. }
  destruct (replayed_session demo_cf (hist demo size_query_history) [(demo_hd 4 1, OListxattr 0 0)] [] (fun _ => None)
    (session_start demo_cf) ltac:(vm_compute; repeat split)) as [wt Se].
  { repeat constructor; cbn [fst snd]; try (vm_compute; auto; discriminate). }
  exists (hist demo size_query_history), s, wt, 0%nat. eexists.
  split; [exact H1|]. split; [exact Se|]. split; [reflexivity|].
  split; [vm_compute; tauto|]. intros m X. vm_compute in X. injection X as <-. vm_compute. reflexivity.
Qed.

(** ** Examples of replies *)

Definition reading (size : N) (id : N) : option client_op :=
  if id =? 4 then Some (ORead 1001 0 size 0 0 0 0) else None.
Example C62_verdict_example :
  is_id 4 /\ N.odd 4 = false /\ reading 5 4 = Some (ORead 1001 0 5 0 0 0 0) /\
  is_i32 (error_of (AOkBuf content)) /\ verdict 36 (ORead 1001 0 5 0 0 0 0) 4 0 content = Broken 4 /\
  verdict 36 (ORead 1001 0 20 0 0 0 0) 4 0 content = Completed 4 (inl content).
Proof. repeat split; vm_compute; auto; discriminate. Qed.
Example C62_accepted_example :
  is_id 4 /\ N.odd 4 = false /\ reading 20 4 = Some (ORead 1001 0 20 0 0 0 0) /\
  suits (ORead 1001 0 20 0 0 0 0) (AOkBuf content) /\ size_of (ORead 1001 0 20 0 0 0 0) + 32 <= u32_max.
Proof. repeat split; vm_compute; auto; discriminate. Qed.
Example C62_oversized_example :
  is_id 4 /\ N.odd 4 = false /\ reading 5 4 = Some (ORead 1001 0 5 0 0 0 0) /\
  16 + nlen content <= u32_max /\ 5 < nlen content.
Proof. repeat split; vm_compute; auto; discriminate. Qed.
Example C62_size_query_example :
  let waiting (id : N) := if id =? 4 then Some (OListxattr 0 0) else None in
  is_id 4 /\ N.odd 4 = false /\ waiting 4 = Some (OListxattr 0 0) /\ 16 + nlen [x00] <= u32_max /\
  (nlen [x00] =? 8) = false.
Proof. repeat split; vm_compute; auto; discriminate. Qed.
(** 524 is ENOTSUPP of the kernel, no error number of user space. *)
Example C62_errno_example :
  is_id 4 /\ N.odd 4 = false /\ reading 5 4 = Some (ORead 1001 0 5 0 0 0 0) /\ 0 < 524 < U16 /\
  (524 <? 512) = false.
Proof. repeat split. Qed.
Example C62_interrupt_example :
  is_id 5 /\ N.odd 5 = true /\ (exists e, AErr (-11) = AErr e /\ (-512 < e < 0)%Z) /\
  reading 5 (5 - 1) <> None.
Proof. repeat split; [|discriminate]. exists (-11)%Z. now split. Qed.
Example C62_forgotten_example :
  exists b m, is_id 6 /\ N.odd 6 = false /\ reading 5 6 = None /\
  answer_call 36 6 (AOkBuf content) = Call b /\ on_wire b = Ret m.
Proof. do 2 eexists. split; [now split|]. split; [reflexivity|]. split; [reflexivity|].
  split; [vm_compute; reflexivity|]. vm_compute; reflexivity. Qed.
Example C62_notifications_example :
  1 < U64 /\ 100 < U64 /\ 9 < U64 /\ nlen content <= 4294967000.
Proof. repeat split; vm_compute; auto; discriminate. Qed.
Example C62_hello_example :
  let op := ORead 1001 0 20 0 0 0 0 in
  small_error (HE_INVALID_ARGUMENT hello_linux) /\ small_error (HE_NOT_FOUND hello_linux) /\
  small_error (HE_UNIMPLEMENTED hello_linux) /\
  sendable false hello_cf (client_header 4 100) op /\ hello_room op /\ reading 20 4 = Some op /\
  exists rq b m, Request_new (encode hello_cf (client_header 4 100) op) = Ret rq /\
    Hello_dispatch hello_linux 1000 1000 4096 hello_cf rq SendOk = ([b], Ret tt) /\ on_wire b = Ret m /\
    device_write 36 (reading 20) m = Completed 4 (inl content).
Proof.
  intros op. unfold small_error. cbn [hello_linux HE_INVALID_ARGUMENT HE_NOT_FOUND HE_UNIMPLEMENTED].
  split; [vm_compute; split; reflexivity|]. split; [vm_compute; split; reflexivity|].
  split; [vm_compute; split; reflexivity|].
  split; [sendable_tac; vm_compute; auto|].
  split; [intros _; vm_compute; discriminate|]. split; [reflexivity|].
  do 3 eexists. split; [vm_compute; reflexivity|]. split; [vm_compute; reflexivity|].
  split; [vm_compute; reflexivity|]. vm_compute; reflexivity.
Qed.

(** Reading five bytes of hello.txt: the reply has fourteen, the client's read
    fails with an I/O error, and the handler panics. *)
Theorem C62_hello_read_refuted :
  let op := ORead 1001 0 5 0 0 0 0 in
  exists hd rq b m, sendable false hello_cf hd op /\ Request_new (encode hello_cf hd op) = Ret rq /\
    on_wire b = Ret m /\ device_write 36 (reading 5) m = Broken (rh_unique hd) /\
    Hello_dispatch hello_linux 1000 1000 4096 hello_cf rq
      (send_result (device_write 36 (reading 5) m)) = ([b], Panic).
Proof.
  intros op. set (rq := {| rq_mem := encode hello_cf (client_header 4 100) op |}).
  assert (X : exists b, Hello_dispatch hello_linux 1000 1000 4096 hello_cf rq
    (SendFails (SE_Other EINVAL)) = ([b], Panic) /\
    exists m, on_wire b = Ret m /\ device_write 36 (reading 5) m = Broken 4).
  { eexists. split; [vm_compute; reflexivity|]. eexists. split; [vm_compute; reflexivity|]. vm_compute; reflexivity. }
  destruct X as (b & X & m & W & D). exists (client_header 4 100), rq, b, m.
  split; [sendable_tac; vm_compute; auto|]. split; [vm_compute; reflexivity|].
  split; [exact W|]. split; [exact D|]. rewrite D. exact X.
Qed.

Print Assumptions C62_verdict.
Print Assumptions C62_accepted.
Print Assumptions C62_oversized.
Print Assumptions C62_size_query.
Print Assumptions C62_errno.
Print Assumptions C62_interrupt.
Print Assumptions C62_forgotten.
Print Assumptions C62_notifications.
Print Assumptions C62_vfs_session.
Print Assumptions C62_vfs_drained.
Print Assumptions C62_default_listxattr_refuted.
Print Assumptions C62_hello.
Print Assumptions C62_hello_read_refuted.
