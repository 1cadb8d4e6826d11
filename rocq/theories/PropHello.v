(** C56: the file system of examples/helloworld, from the client's requests to
    the replies it reads. *)

From Coq Require Import String.
From Verif Require Import Base Kernel CoreModel DecodeModel OpsModel WireSpec DecodeProofs OpsSafety
  OpsRoundTrip PropDecode ReplyModel ListingModel ReplySpec ReplyProofs PropReply PropListing ServerModel
  ServerSpec PropServer VfsProofs ThreadModel PropThreads HostModel HelloModel.
From Coq Require Import List NArith ZArith Bool Lia ZifyBool ZifyNat ZifyN.
Import ListNotations.
Open Scope N_scope.

(** ** Specification *)

(** What the file system says to a request. *)
Inductive says :=
| Nothing
| Error (error : Z)
| Entry (node : N) (attrs : list attr_op)
| Attributes (node : N) (attrs : list attr_op)
| Handle (fh : N)
| Data (b : bytes)
| Listing (l : list PropListing.seen)
| Done.

Definition name_is (a : bytes) (b : string) : bool :=
  if list_eq_dec Byte.byte_eq_dec a (String.list_byte_of_string b) then true else false.

Section Spec.
Context {E : Endian} (os : HelloErrors) (uid gid : N).

(** A directory (node 1) with one file, hello.txt (node 100), of 14 bytes.
    0o40755 and 0o100644. *)
Definition root_attrs : list attr_op := [SetUserId uid; SetGroupId gid; SetMode 16877; SetLinkCount 2].
Definition file_attrs : list attr_op :=
  [SetUserId uid; SetGroupId gid; SetMode 33188; SetSize 14; SetLinkCount 1].
Definition content : bytes := String.list_byte_of_string "Hello, world!" ++ [x0a].

Definition hello_says (nodeid : N) (op : client_op) : says :=
  match op with
  | OLookup name =>
    if (nodeid =? 1) && name_is name "hello.txt" then Entry 100 file_attrs else Error (HE_NOT_FOUND os)
  | OGetattr _ _ _ =>
    if nodeid =? 1 then Attributes 1 root_attrs
    else if nodeid =? 100 then Attributes 100 file_attrs
    else Error (HE_NOT_FOUND os)
  | OOpen _ _ => if nodeid =? 100 then Handle 1001 else Error (HE_NOT_FOUND os)
  | OOpendir _ _ => if nodeid =? 1 then Handle 1002 else Error (HE_NOT_FOUND os)
  | ORead fh _ _ _ _ _ _ => if fh =? 1001 then Data content else Error (HE_INVALID_ARGUMENT os)
  | OReaddir fh offset _ _ _ _ _ =>
    if negb (fh =? 1002) then Error (HE_INVALID_ARGUMENT os)
    else if negb (offset =? 0) then Done
    else Listing [{| s_ino := 100; s_off := 1; s_type := 8; s_name := String.list_byte_of_string "hello.txt" |}]
  | OReleasedir fh _ _ _ => if fh =? 1002 then Done else Error (HE_INVALID_ARGUMENT os)
  | OForget _ | OBatchForget _ _ | OInterrupt _ => Nothing
  | _ => Error (HE_UNIMPLEMENTED os)
  end.

(** The reply [error], [payload] says this, at protocol version 7.[minor]. *)
Definition means (minor : N) (s : says) (error : Z) (p : bytes) : Prop :=
  match s with
  | Nothing => False
  | Error e => error = e /\ p = []
  | Entry node attrs => error = 0%Z /\ entry_reads p node (9 <=? minor) attrs []
  | Attributes node attrs =>
    error = 0%Z /\ u64_at 0 p = 0 /\ u32_at 8 p = 0 /\ attr_reads p 16 node (9 <=? minor) attrs
  | Handle fh => error = 0%Z /\ u64_at 0 p = fh /\ u32_at 8 p = 0
  | Data b => error = 0%Z /\ p = b
  | Listing l => error = 0%Z /\ client_readdir p = Some l
  | Done => error = 0%Z /\ p = []
  end.

(** Room for the directory entry: 24 bytes and the name, rounded up to a
    multiple of 8. *)
Definition has_room (op : client_op) : Prop :=
  match op with
  | OReaddir fh offset size _ _ _ _ => fh = 1002 -> offset = 0 -> 40 <= size
  | _ => True
  end.

(** One [send] call that the client reads as the reply to [id] saying [s]. *)
Definition one_reply (minor id : N) (s : says) (sends : list SendBuf) : Prop :=
  exists b m error p, sends = [b] /\ on_wire b = Ret m /\ SendBuf_len b = nlen m /\
    kernel_read m = Some (Reply id error p) /\ means minor s error p.

Definition says_it (minor id : N) (s : says) (sends : list SendBuf) : Prop :=
  match s with Nothing => sends = [] | _ => one_reply minor id s sends end.
End Spec.

(** The request types this file system looks at, by opcode. *)
Definition looked_at (opcode : N) : option rtype :=
  match opcode with
  | 1 => Some RLookup | 3 => Some RGetattr | 14 => Some ROpen | 15 => Some RRead
  | 27 => Some ROpendir | 28 => Some RReaddir | 29 => Some RReleasedir
  | _ => None
  end.

Definition errors_ok (os : HelloErrors) : Prop :=
  is_i32 (HE_INVALID_ARGUMENT os) /\ is_i32 (HE_NOT_FOUND os) /\ is_i32 (HE_UNIMPLEMENTED os).

(** ** Proofs *)

Section Proofs.
Context {E : Endian} (os : HelloErrors) (uid gid vec_addr : N) (cf : config).
Hypothesis Hos : errors_ok os.
Hypothesis Huid : uid < U32.
Hypothesis Hgid : gid < U32.
Hypothesis Haddr : vec_addr mod 8 = 0.
Notation dispatch := (Hello_dispatch os uid gid vec_addr cf).
Notation method := (Hello_method os uid gid vec_addr cf).
Notation minor := (cf_minor cf).

Lemma hello_name_eq : HelloTxt_name = Ret (txt "hello.txt").
Proof. reflexivity. Qed.
Lemma hello_id_eq : HelloTxt_node_id = Ret 100.
Proof. reflexivity. Qed.

(** The listing. *)
Lemma hello_listing size :
  40 <= size ->
  exists w p, try_push Dirent_fuse_dirent
      (ReaddirEntry_set_file_type Regular (ReaddirEntry_new 100 (txt "hello.txt") 1))
      (writer_new vec_addr (repeat x00 (N.to_nat size))) = Ret (true, w) /\
    into_entries w = Ret p /\ nlen p <= N.min size 65535 /\
    client_readdir p = Some [{| s_ino := 100; s_off := 1; s_type := 8; s_name := txt "hello.txt" |}].
Proof.
  intros L. set (buf := repeat x00 (N.to_nat size)).
  assert (Lb : nlen buf = size) by (unfold buf; rewrite nlen_repeat; lia).
  set (i := {| i_node := 100; i_name := txt "hello.txt"; i_off := 1; i_type := Some Regular |}).
  destruct (C23_readdir vec_addr buf [i]) as (w & p & H1 & H2 & H3 & _ & H5 & H6); auto.
  { constructor; [|constructor]. split; [split; reflexivity|]. split; [split; reflexivity|]. reflexivity. }
  cbn [map] in *. change (readdir_size (i_name i)) with 40 in *. rewrite Lb in *. unfold PropListing.accepted in *.
  change (0 + 40) with 40 in *.
  destruct (N.leb_spec 40 (N.min size 65535)); [|lia].
  cbn [push_all] in H1. change (make_entry i) with
    (ReaddirEntry_set_file_type Regular (ReaddirEntry_new 100 (txt "hello.txt") 1)) in H1.
  destruct (try_push _ _ _) as [[ok w']| | |]; cbn [bind] in H1; try discriminate.
  injection H1 as -> ->. exists w, p. repeat split; auto; lia.
Qed.

(** What each method does in terms of the request's accessors. *)
Definition handles (m : out view) (a : out answer) (k : view -> out answer) : Prop :=
  match m with Ret v => a = k v | Fail _ => a = Panic | Panic | Ub => True end.

Ltac nofail_tac :=
  repeat first
    [ apply nofail_rd | apply nofail_mem | apply nofail_ret | apply nofail_node
    | apply nofail_bind; [|intros]
    | match goal with |- nofail (match ?x with _ => _ end) => destruct x end ].
Ltac step :=
  match goal with
  | |- context [bind ?m _] =>
    let H := fresh "M" in
    first
      [ assert (H : nofail m) by
          (repeat autounfold with ops; unfold unchecked_node_id, node_id_or_root, hdr_nodeid, rd32, rd64;
           nofail_tac)
      | idtac ];
    destruct m eqn:?; cbn [bind unwrap];
    try (exfalso; eapply H; reflexivity)
  end.
Ltac views :=
  intros; unfold handles; cbn [decode_view]; repeat step; try reflexivity; try exact I.

Lemma lookup_handles rq :
  handles (decode_view false cf RLookup rq) (method M_lookup rq)
    (fun v => match v with
     | VLookup parent name =>
       if negb (parent =? 1) then Ret (AErr (HE_NOT_FOUND os))
       else if name_is name "hello.txt"
       then Ret (AOk (REntryOut (Entry_new (HelloTxt_set_attr uid gid (NodeAttr_new 100)))))
       else Ret (AErr (HE_NOT_FOUND os))
     | _ => Ub end).
Proof.
  unfold Hello_method, Hello_lookup, handles. cbn [decode_view].
  destruct (LookupRequest_try_from rq) as [r| | |]; cbn [bind unwrap]; auto.
  rewrite hello_name_eq. unfold NodeId_is_root, name_is. change FUSE_ROOT_ID with 1.
  change (String.list_byte_of_string "hello.txt") with (txt "hello.txt").
  destruct (negb (pn_parent_id r =? 1)); auto. cbn [bind].
  destruct (list_eq_dec _ _ _); reflexivity.
Qed.

Lemma getattr_handles rq :
  handles (decode_view false cf RGetattr rq) (method M_getattr rq)
    (fun v => match v with
     | VGetattr node _ =>
       if node =? 1 then Ret (AOk (RAttrOut (attr_out (attr_calls (root_attrs uid gid) (NodeAttr_new node)))))
       else if node =? 100
       then Ret (AOk (RAttrOut (attr_out (HelloTxt_set_attr uid gid (NodeAttr_new node)))))
       else Ret (AErr (HE_NOT_FOUND os))
     | _ => Ub end).
Proof. unfold Hello_method, Hello_getattr. rewrite hello_id_eq. cbn [bind]. views. Qed.

Lemma open_handles rq :
  handles (decode_view false cf ROpen rq) (method M_open rq)
    (fun v => match v with
     | VOpen node _ _ => if negb (node =? 100) then Ret (AErr (HE_NOT_FOUND os))
                         else Ret (AOk (ROpenOut (open_out 1001)))
     | _ => Ub end).
Proof. unfold Hello_method, Hello_open. rewrite hello_id_eq. cbn [bind]. views. Qed.

Lemma read_handles rq :
  handles (decode_view false cf RRead rq) (method M_read rq)
    (fun v => match v with
     | VRead _ _ _ fh _ _ => if negb (fh =? 1001) then Ret (AErr (HE_INVALID_ARGUMENT os))
                             else Ret (AOkBuf content)
     | _ => Ub end).
Proof. unfold Hello_method, Hello_read. views. Qed.

Lemma opendir_handles rq :
  handles (decode_view false cf ROpendir rq) (method M_opendir rq)
    (fun v => match v with
     | VOpendir node _ _ => if negb (node =? 1) then Ret (AErr (HE_NOT_FOUND os))
                            else Ret (AOk (ROpenOut (open_out 1002)))
     | _ => Ub end).
Proof. unfold Hello_method, Hello_opendir. views. Qed.

Lemma releasedir_handles rq :
  handles (decode_view false cf RReleasedir rq) (method M_releasedir rq)
    (fun v => match v with
     | VReleasedir _ fh _ _ => if negb (fh =? 1002) then Ret (AErr (HE_INVALID_ARGUMENT os))
                               else Ret AOkEmpty
     | _ => Ub end).
Proof. unfold Hello_method, Hello_releasedir. views. Qed.

Definition listing_answer (size : N) : out answer :=
  '(ok, entries) <- try_push Dirent_fuse_dirent
      (ReaddirEntry_set_file_type Regular (ReaddirEntry_new 100 (txt "hello.txt") 1))
      (writer_new vec_addr (repeat x00 (N.to_nat size))) ;;
  if negb ok then Panic
  else listing <- into_entries entries ;; Ret (AOk (RReaddirEntries listing)).
Lemma readdir_handles rq :
  handles (decode_view false cf RReaddir rq) (method M_readdir rq)
    (fun v => match v with
     | VReaddir _ size offset fh _ =>
       if negb (fh =? 1002) then Ret (AErr (HE_INVALID_ARGUMENT os))
       else match offset with Some _ => Ret AOkEmpty | None => listing_answer size end
     | _ => Ub end).
Proof.
  unfold Hello_method, Hello_readdir, handles. rewrite hello_id_eq, hello_name_eq. cbn [bind decode_view].
  destruct (ReaddirRequest_try_from cf rq) as [r| | |]; cbn [bind unwrap]; auto.
  assert (N : nofail (Readdir_node_id r) /\ nofail (Readdir_size r) /\ nofail (Readdir_offset r) /\
    nofail (Readdir_handle r) /\ nofail (Readdir_open_flags r)).
  { repeat match goal with |- _ /\ _ => split end; repeat autounfold with ops;
      unfold unchecked_node_id, node_id_or_root, hdr_nodeid, rd32, rd64; nofail_tac. }
  destruct N as (N1 & N2 & N3 & N4 & N5).
  destruct (Readdir_node_id r); cbn [bind]; auto; try (exfalso; eapply N1; reflexivity).
  destruct (Readdir_size r) as [size| | |]; cbn [bind]; auto; try (exfalso; eapply N2; reflexivity).
  destruct (Readdir_offset r) as [o| | |]; cbn [bind]; auto; try (exfalso; eapply N3; reflexivity).
  destruct (Readdir_handle r) as [h| | |]; cbn [bind]; auto; try (exfalso; eapply N4; reflexivity).
  destruct (Readdir_open_flags r); cbn [bind]; auto; try (exfalso; eapply N5; reflexivity).
Qed.


Definition finish (r : out answer) (id : N) (ev : send_event) : list SendBuf * out unit :=
  match r with
  | Ret a =>
    match answer_call minor id a with
    | Refuse _ => ([], Panic)
    | Call b => ([b], match ev with SendOk => Ret tt | SendFails _ => Panic end)
    end
  | Fail _ | Panic => ([], Panic)
  | Ub => ([], Ub)
  end.

Lemma hello_route x :
  fuse_user_method Hello_overrides (fuse_route x) =
  if one_way x then None
  else Some (if Hello_overrides (fuse_route x) then fuse_route x else M_unimplemented).
Proof.
  destruct (N.ltb_spec x 64) as [L|L].
  - apply (up_to 64) in L. repeat (destruct L as [<-|L]; [reflexivity|]). destruct L.
  - rewrite (proj1 (route_default x ltac:(lia))). unfold one_way.
    destruct (N.eqb_spec x 2); [lia|]. destruct (N.eqb_spec x 36); [lia|].
    destruct (N.eqb_spec x 42); [lia|]. reflexivity.
Qed.

Lemma hello_dispatch_eq buf rq ev :
  Request_new buf = Ret rq ->
  dispatch rq ev = if one_way (u32_at 4 buf) then ([], Ret tt)
                   else finish (method (fuse_route (u32_at 4 buf)) rq) (u64_at 8 buf) ev.
Proof.
  intros H. destruct (header_opcode_eq _ _ H) as (_ & Hi & _). unfold Hello_dispatch.
  rewrite (C33_fuse _ _ H). cbn [bind]. rewrite hello_route. destruct (one_way _); [reflexivity|].
  rewrite Hi. cbn [bind].
  assert (M : method (if Hello_overrides (fuse_route (u32_at 4 buf)) then fuse_route (u32_at 4 buf)
                      else M_unimplemented) rq = method (fuse_route (u32_at 4 buf)) rq).
  { now destruct (fuse_route (u32_at 4 buf)). }
  rewrite M. clear M. unfold finish. destruct (method (fuse_route (u32_at 4 buf)) rq); cbn [bind]; reflexivity.
Qed.

(** A reply built by a handler. *)
Lemma finish_reply id a ev s error p :
  replies minor id a error p -> means minor s error p ->
  exists l r, finish (Ret a) id ev = (l, r) /\ one_reply minor id s l /\
    r = match ev with SendOk => Ret tt | SendFails _ => Panic end.
Proof.
  intros (b & m & C & W & L & K) M. cbn [finish]. rewrite C. do 2 eexists. split; [reflexivity|].
  split; [|reflexivity]. exists b, m, error, p. auto.
Qed.
Lemma finish_error id e ev :
  is_id id -> is_i32 e ->
  exists l r, finish (Ret (AErr e)) id ev = (l, r) /\ one_reply minor id (Error e) l /\
    r = match ev with SendOk => Ret tt | SendFails _ => Panic end.
Proof.
  intros Hid He. destruct (C20_error_reply minor id e Hid He) as [R _].
  eapply finish_reply; [exact R|]. now split.
Qed.
Lemma finish_empty id ev :
  is_id id ->
  exists l r, finish (Ret AOkEmpty) id ev = (l, r) /\ one_reply minor id Done l /\
    r = match ev with SendOk => Ret tt | SendFails _ => Panic end.
Proof.
  intros Hid. destruct (C18_payload minor id [] [] [] [] Hid) as (_ & _ & _ & _ & _ & P).
  eapply finish_reply; [exact P|]. now split.
Qed.
Lemma finish_data id ev b :
  is_id id -> 16 + nlen b <= u32_max ->
  exists l r, finish (Ret (AOkBuf b)) id ev = (l, r) /\ one_reply minor id (Data b) l /\
    r = match ev with SendOk => Ret tt | SendFails _ => Panic end.
Proof.
  intros Hid L. destruct (C18_payload minor id b [] [] [] Hid) as (_ & _ & _ & _ & P & _).
  eapply finish_reply; [now apply P|]. now split.
Qed.
Lemma finish_handle id ev fh :
  is_id id -> fh < U64 ->
  exists l r, finish (Ret (AOk (ROpenOut (open_out fh)))) id ev = (l, r) /\ one_reply minor id (Handle fh) l /\
    r = match ev with SendOk => Ret tt | SendFails _ => Panic end.
Proof.
  intros Hid L. destruct (C22_small_replies minor id Hid) as (P & _).
  destruct (P fh 0 L) as (p & R & R1 & R2 & _); [reflexivity|].
  eapply finish_reply; [exact R|]. now split.
Qed.
Lemma file_attrs_ok : Forall attr_op_ok (file_attrs uid gid).
Proof using Huid Hgid.
  repeat apply Forall_cons; cbn [attr_op_ok]; auto; try reflexivity.
Qed.
Lemma root_attrs_ok : Forall attr_op_ok (root_attrs uid gid).
Proof using Huid Hgid.
  repeat apply Forall_cons; cbn [attr_op_ok]; auto; try reflexivity.
Qed.
Lemma finish_attr id ev node ops :
  is_id id -> 0 < node < U64 -> Forall attr_op_ok ops ->
  exists l r, finish (Ret (AOk (RAttrOut (attr_out (attr_calls ops (NodeAttr_new node)))))) id ev = (l, r) /\
    one_reply minor id (Attributes node ops) l /\
    r = match ev with SendOk => Ret tt | SendFails _ => Panic end.
Proof.
  intros Hid L Ho. destruct (C22_attr_reply minor id node ops 0 0 Hid L Ho) as (p & R & R1 & R2 & R3);
    [reflexivity|reflexivity|].
  eapply finish_reply; [exact R|]. now split.
Qed.
Lemma finish_entry id ev node ops :
  is_id id -> 0 < node < U64 -> Forall attr_op_ok ops ->
  exists l r, finish (Ret (AOk (REntryOut (Entry_new (attr_calls ops (NodeAttr_new node)))))) id ev = (l, r) /\
    one_reply minor id (Entry node ops) l /\
    r = match ev with SendOk => Ret tt | SendFails _ => Panic end.
Proof.
  intros Hid L Ho. destruct (C22_entry_reply minor id node ops [] Hid L Ho) as (p & R & R1);
    [constructor|].
  eapply finish_reply; [exact R|]. now split.
Qed.
Lemma finish_listing id ev p l :
  is_id id -> nlen p <= 65535 -> client_readdir p = Some l ->
  exists l0 r, finish (Ret (AOk (RReaddirEntries p))) id ev = (l0, r) /\
    one_reply minor id (Listing l) l0 /\
    r = match ev with SendOk => Ret tt | SendFails _ => Panic end.
Proof.
  intros Hid L C. eapply finish_reply; [|split; [reflexivity|exact C]].
  change p with (payload minor (RReaddirEntries p)) at 2. apply ok_replies; auto.
  cbn [payload]. unfold u32_max. lia.
Qed.


(** ** C56 *)

Lemma sent_header hd op extra rest rq :
  good_header hd -> 40 + nlen (op_body cf op ++ extra) < U32 ->
  Request_new (PropDecode.sent cf hd op extra rest) = Ret rq ->
  u32_at 4 (PropDecode.sent cf hd op extra rest) = op_code op /\
  u64_at 8 (PropDecode.sent cf hd op extra rest) = rh_unique hd.
Proof.
  intros G L H. unfold PropDecode.sent. set (k := 40 + nlen (op_body cf op ++ extra)) in *.
  assert (M : OpsRoundTrip.message cf hd op extra k (encode_len cf hd op extra k ++ rest))
    by (apply encode_message; auto; lia).
  split; [apply M|]. unfold encode_len. rewrite <- app_assoc. unfold u64_at.
  apply fld_wire; [reflexivity|]. destruct G as [G _]. unfold header_fields in G.
  apply Forall_cons_iff in G as [_ G]. apply Forall_cons_iff in G as [_ G].
  apply Forall_cons_iff in G as [G _]. exact G.
Qed.

(** Every request the client sends, except a READDIR without room for the
    entry, is answered by one reply, to this request, with what the file
    system has to say to it.  The handler returns if the reply could be sent
    and panics otherwise. *)
Theorem C56_answers hd op extra rest ev :
  sendable false cf hd op -> has_room op -> 40 + nlen (op_body cf op ++ extra) < U32 ->
  exists rq sends r,
    Request_new (PropDecode.sent cf hd op extra rest) = Ret rq /\ dispatch rq ev = (sends, r) /\
    says_it minor (rh_unique hd) (hello_says os uid gid (rh_nodeid hd) op) sends /\
    r = (if one_way (op_code op) then Ret tt
         else match ev with SendOk => Ret tt | SendFails _ => Panic end).
Proof.
  intros S Room L.
  assert (G : good_header hd) by apply S.
  assert (Rq : Request_new (PropDecode.sent cf hd op extra rest) =
               Ret {| rq_mem := PropDecode.sent cf hd op extra rest |})
    by (unfold PropDecode.sent; apply new_accepts; auto; lia).
  set (rq := {| rq_mem := _ |}) in Rq. exists rq.
  destruct (sent_header hd op extra rest rq G L Rq) as [Ho Hu].
  assert (D : op_type op <> RCreate -> op_type op <> RSymlink ->
    decode_view false cf (op_type op) rq = Ret (WireSpec.expected false cf (rh_nodeid hd) op)).
  { intros Hc Hy. destruct (deliver false cf hd op S) with (extra := extra) (rest := rest) as (rq' & R' & D'); auto.
    - intros C. contradiction.
    - rewrite Rq in R'. injection R' as <-. exact D'. }
  assert (Hid : is_id (rh_unique hd)).
  { rewrite <- Hu. apply (header_opcode_eq _ _ Rq). }
  rewrite (hello_dispatch_eq _ _ ev Rq), Ho, Hu.
  assert (X : one_way (op_code op) = false ->
    exists l r, finish (method (fuse_route (op_code op)) rq) (rh_unique hd) ev = (l, r) /\
      one_reply minor (rh_unique hd) (hello_says os uid gid (rh_nodeid hd) op) l /\
      r = match ev with SendOk => Ret tt | SendFails _ => Panic end).
  { intros W. destruct Hos as (He1 & He2 & He3).
    destruct op; try discriminate W;
      try (now apply finish_error);
      try (match goal with |- context [OSetlk ?w] => destruct w end; now apply finish_error);
      specialize (D ltac:(discriminate) ltac:(discriminate)); cbn [op_type] in D.
    all: cbn [op_code] in *;
         change (fuse_route 1) with M_lookup || change (fuse_route 3) with M_getattr ||
         change (fuse_route 14) with M_open || change (fuse_route 15) with M_read ||
         change (fuse_route 27) with M_opendir || change (fuse_route 28) with M_readdir ||
         change (fuse_route 29) with M_releasedir.
    - pose proof (getattr_handles rq) as Hh. rewrite D in Hh. cbn [handles WireSpec.expected] in Hh. rewrite Hh.
      cbn [hello_says]. destruct (N.eqb_spec (rh_nodeid hd) 1) as [->|].
      + apply finish_attr; auto; [split; reflexivity|apply root_attrs_ok].
      + destruct (N.eqb_spec (rh_nodeid hd) 100) as [->|]; [|now apply finish_error].
        apply (finish_attr _ _ 100 (file_attrs uid gid)); auto; [split; reflexivity|apply file_attrs_ok].
    - pose proof (lookup_handles rq) as Hh. rewrite D in Hh. cbn [handles WireSpec.expected] in Hh. rewrite Hh.
      cbn [hello_says]. destruct (rh_nodeid hd =? 1); cbn [negb andb]; [|now apply finish_error].
      destruct (name_is name "hello.txt"); [|now apply finish_error].
      apply (finish_entry _ _ 100 (file_attrs uid gid)); auto; [split; reflexivity|apply file_attrs_ok].
    - pose proof (open_handles rq) as Hh. rewrite D in Hh. cbn [handles WireSpec.expected subject] in Hh. rewrite Hh.
      cbn [hello_says]. destruct (rh_nodeid hd =? 100); cbn [negb]; [|now apply finish_error].
      now apply finish_handle.
    - pose proof (opendir_handles rq) as Hh. rewrite D in Hh. cbn [handles WireSpec.expected] in Hh. rewrite Hh.
      cbn [hello_says]. destruct (rh_nodeid hd =? 1); cbn [negb]; [|now apply finish_error].
      now apply finish_handle.
    - pose proof (read_handles rq) as Hh. rewrite D in Hh. cbn [handles WireSpec.expected] in Hh. rewrite Hh.
      cbn [hello_says]. destruct (fh =? 1001); cbn [negb]; [|now apply finish_error].
      apply finish_data; auto. discriminate.
    - pose proof (readdir_handles rq) as Hh. rewrite D in Hh. cbn [handles WireSpec.expected] in Hh. rewrite Hh.
      cbn [hello_says has_room] in *. destruct (N.eqb_spec fh 1002); cbn [negb]; [|now apply finish_error].
      unfold nonzero. destruct (N.eqb_spec offset 0); cbn [negb]; [|now apply finish_empty].
      unfold listing_answer. destruct (hello_listing size) as (w & p & P1 & P2 & P3 & P4); auto.
      rewrite P1. cbn [bind negb]. rewrite P2. cbn [bind]. apply finish_listing; auto. lia.
    - pose proof (releasedir_handles rq) as Hh. rewrite D in Hh. cbn [handles WireSpec.expected] in Hh. rewrite Hh.
      cbn [hello_says]. destruct (fh =? 1002); cbn [negb]; [|now apply finish_error].
      now apply finish_empty. }
  destruct (one_way (op_code op)) eqn:W.
  - do 2 eexists. split; [exact Rq|]. split; [reflexivity|]. split; [|reflexivity].
    destruct op; try discriminate W; try reflexivity. now destruct wait.
  - destruct (X eq_refl) as (l & r & X1 & X2 & X3). exists l, r. split; [exact Rq|]. split; [exact X1|].
    split; [|exact X3]. unfold says_it. destruct (hello_says _ _ _ _ _) eqn:Sy; auto.
    destruct X2 as (? & ? & ? & ? & ? & ? & ? & ? & []).
Qed.


(** A request of a type the file system looks at that cannot be decoded
    makes the handler panic without a reply. *)
Theorem C56_malformed buf rq ev t e :
  Request_new buf = Ret rq -> looked_at (u32_at 4 buf) = Some t ->
  decode_view false cf t rq = Fail e -> dispatch rq ev = ([], Panic).
Proof.
  intros Rq T D. rewrite (hello_dispatch_eq _ _ ev Rq).
  assert (X : one_way (u32_at 4 buf) = false /\ method (fuse_route (u32_at 4 buf)) rq = Panic).
  { revert T. generalize (u32_at 4 buf). intros x T.
    assert (L : x < 64).
    { destruct (N.ltb_spec x 64); auto. exfalso. unfold looked_at in T.
      destruct x as [|q]; [lia|]. do 6 (try (destruct q as [q|q|]; try discriminate T)); lia. }
    apply (up_to 64) in L. repeat (destruct L as [<-|L];
      [first [discriminate T|injection T as <-; split; [reflexivity|]];
       first [pose proof (lookup_handles rq) as Hh; rewrite D in Hh; exact Hh
             |pose proof (getattr_handles rq) as Hh; rewrite D in Hh; exact Hh
             |pose proof (open_handles rq) as Hh; rewrite D in Hh; exact Hh
             |pose proof (read_handles rq) as Hh; rewrite D in Hh; exact Hh
             |pose proof (opendir_handles rq) as Hh; rewrite D in Hh; exact Hh
             |pose proof (readdir_handles rq) as Hh; rewrite D in Hh; exact Hh
             |pose proof (releasedir_handles rq) as Hh; rewrite D in Hh; exact Hh]|]). destruct L. }
  destruct X as [-> ->]. reflexivity.
Qed.

Definition answers (a : answer) : Prop :=
  forall id, is_id id -> exists error p, replies minor id a error p.

Lemma answers_error e : is_i32 e -> answers (AErr e).
Proof. intros He id Hid. destruct (C20_error_reply minor id e Hid He) as [R _]. eauto. Qed.
Lemma answers_empty : answers AOkEmpty.
Proof. intros id Hid. destruct (C18_payload minor id [] [] [] [] Hid) as (_ & _ & _ & _ & _ & P). eauto. Qed.
Lemma answers_handle fh : fh < U64 -> answers (AOk (ROpenOut (open_out fh))).
Proof.
  intros L id Hid. destruct (C22_small_replies minor id Hid) as (P & _).
  destruct (P fh 0 L) as (p & R & R1 & R2 & _); [reflexivity|]. eauto.
Qed.
Lemma answers_attr node ops :
  0 < node < U64 -> Forall attr_op_ok ops ->
  answers (AOk (RAttrOut (attr_out (attr_calls ops (NodeAttr_new node))))).
Proof.
  intros L Ho id Hid. destruct (C22_attr_reply minor id node ops 0 0 Hid L Ho) as (p & R & R1 & R2 & R3);
    [reflexivity|reflexivity|]. eauto.
Qed.

Lemma listing_short size : size < 40 -> listing_answer size = Panic.
Proof.
  intros L. set (buf := repeat x00 (N.to_nat size)).
  assert (Lb : nlen buf = size) by (unfold buf; rewrite nlen_repeat; lia).
  set (i := {| i_node := 100; i_name := txt "hello.txt"; i_off := 1; i_type := Some Regular |}).
  destruct (C23_readdir vec_addr buf [i]) as (w & p & H1 & _); auto.
  { constructor; [|constructor]. split; [split; reflexivity|]. split; [split; reflexivity|]. reflexivity. }
  cbn [map] in *. change (readdir_size (i_name i)) with 40 in *. rewrite Lb in *. unfold PropListing.accepted in *.
  change (0 + 40) with 40 in *.
  destruct (N.leb_spec 40 (N.min size 65535)); [lia|].
  cbn [push_all] in H1. change (make_entry i) with
    (ReaddirEntry_set_file_type Regular (ReaddirEntry_new 100 (txt "hello.txt") 1)) in H1.
  unfold listing_answer. fold buf.
  destruct (try_push _ _ _) as [[ok w']| | |]; cbn [bind] in *; try discriminate.
  injection H1 as -> _. reflexivity.
Qed.

Ltac shape D :=
  cbn [decode_view] in D;
  repeat match type of D with bind ?x _ = _ => destruct x; cbn [bind] in D; try discriminate D end;
  injection D as <-; eauto 10.
Lemma method_result buf rq m :
  Request_new buf = Ret rq ->
  method m rq = Panic \/ exists a, method m rq = Ret a /\ answers a.
Proof.
  intros Rq. destruct Hos as (He1 & He2 & He3).
  assert (Q : forall e, is_i32 e -> exists a, Ret (AErr e) = Ret a /\ answers a).
  { intros e He. eexists. split; [reflexivity|]. now apply answers_error. }
  assert (Gen : forall t a k,
    handles (decode_view false cf t rq) a k -> t <> RForget ->
    (forall v, decode_view false cf t rq = Ret v -> k v = Panic \/ exists x, k v = Ret x /\ answers x) ->
    a = Panic \/ exists x, a = Ret x /\ answers x).
  { intros t a k Hh T K. destruct (C02_no_read_outside false cf t buf rq Rq T) as [D _].
    unfold defined, handles in *. destruct (decode_view false cf t rq) as [v|e| |]; try contradiction.
    - rewrite Hh. auto.
    - now left. }
  destruct m; try (right; cbn [Hello_method]; unfold Hello_unimplemented; now apply Q).
  - refine (Gen _ _ _ (getattr_handles rq) ltac:(discriminate) _).
    intros v D. assert (V : exists n h, v = VGetattr n h).
    { shape D. }
    destruct V as (n & h & ->). right. destruct (N.eqb_spec n 1) as [->|].
    + eexists. split; [reflexivity|]. apply answers_attr; [split; reflexivity|apply root_attrs_ok].
    + destruct (N.eqb_spec n 100) as [->|]; [|now apply Q].
      eexists. split; [reflexivity|]. apply (answers_attr 100 (file_attrs uid gid)); [split; reflexivity|apply file_attrs_ok].
  - refine (Gen _ _ _ (lookup_handles rq) ltac:(discriminate) _).
    intros v D. assert (V : exists p n, v = VLookup p n) by shape D.
    destruct V as (n & h & ->). right. destruct (n =? 1); [|now apply Q]. cbn [negb].
    destruct (name_is _ _); [|now apply Q]. eexists. split; [reflexivity|].
    intros id Hid. destruct (C22_entry_reply minor id 100 (file_attrs uid gid) [] Hid) as (p & R & R1);
      [split; reflexivity|apply file_attrs_ok|constructor|]. eauto.
  - refine (Gen _ _ _ (open_handles rq) ltac:(discriminate) _).
    intros v D. assert (V : exists a b c, v = VOpen a b c) by shape D.
    destruct V as (n & b & c & ->). right. destruct (n =? 100); [|now apply Q]. cbn [negb].
    eexists. split; [reflexivity|]. now apply answers_handle.
  - refine (Gen _ _ _ (opendir_handles rq) ltac:(discriminate) _).
    intros v D. assert (V : exists a b c, v = VOpendir a b c) by shape D.
    destruct V as (n & b & c & ->). right. destruct (n =? 1); [|now apply Q]. cbn [negb].
    eexists. split; [reflexivity|]. now apply answers_handle.
  - refine (Gen _ _ _ (read_handles rq) ltac:(discriminate) _).
    intros v D. assert (V : exists a b c d e f, v = VRead a b c d e f) by shape D.
    destruct V as (a & b & c & d & e & f & ->). right. destruct (d =? 1001); [|now apply Q]. cbn [negb].
    eexists. split; [reflexivity|]. intros id Hid.
    destruct (C18_payload minor id content [] [] [] Hid) as (_ & _ & _ & _ & P & _).
    do 2 eexists. apply P. discriminate.
  - refine (Gen _ _ _ (readdir_handles rq) ltac:(discriminate) _).
    intros v D. assert (V : exists a b c d e, v = VReaddir a b c d e) by shape D.
    destruct V as (a & size & c & d & e & ->). destruct (d =? 1002); [|right; now apply Q]. cbn [negb].
    destruct c; [right; eexists; split; [reflexivity|apply answers_empty]|].
    destruct (N.ltb_spec size 40); [left; now apply listing_short|right].
    unfold listing_answer. destruct (hello_listing size) as (w & p & P1 & P2 & P3 & P4); auto.
    rewrite P1. cbn [bind negb]. rewrite P2. cbn [bind]. eexists. split; [reflexivity|].
    intros id Hid. destruct (finish_listing id SendOk p _ Hid ltac:(lia) P4) as (l0 & r & F & _).
    do 2 eexists. apply ok_replies; auto. cbn [payload]. unfold u32_max. lia.
  - refine (Gen _ _ _ (releasedir_handles rq) ltac:(discriminate) _).
    intros v D. assert (V : exists a b c d, v = VReleasedir a b c d) by shape D.
    destruct V as (a & b & c & d & ->). right. destruct (b =? 1002); [|now apply Q]. cbn [negb].
    eexists. split; [reflexivity|]. apply answers_empty.
Qed.

(** Whatever request arrives: nothing but at most one reply, to this request;
    the handler returns or panics, and returns without having replied only
    for requests that have no reply. *)
Theorem C56_any_request buf rq ev :
  Request_new buf = Ret rq ->
  exists sends r, dispatch rq ev = (sends, r) /\
    match sends with
    | [] => r = if one_way (u32_at 4 buf) then Ret tt else Panic
    | [b] =>
      one_way (u32_at 4 buf) = false /\
      (exists m error p, on_wire b = Ret m /\ SendBuf_len b = nlen m /\
         kernel_read m = Some (Reply (u64_at 8 buf) error p)) /\
      r = match ev with SendOk => Ret tt | SendFails _ => Panic end
    | _ => False
    end.
Proof.
  intros Rq. rewrite (hello_dispatch_eq _ _ ev Rq).
  destruct (one_way (u32_at 4 buf)); [do 2 eexists; split; reflexivity|].
  destruct (header_opcode_eq _ _ Rq) as (_ & _ & Hid).
  destruct (method_result buf rq (fuse_route (u32_at 4 buf)) Rq) as [-> | (a & -> & A)].
  - cbn [finish]. do 2 eexists. split; reflexivity.
  - destruct (A _ Hid) as (error & p & b & m & C & W & L & K). cbn [finish]. rewrite C.
    do 2 eexists. split; [reflexivity|]. cbn beta iota. split; [reflexivity|]. split; [|reflexivity]. eauto 10.
Qed.

End Proofs.

(** ** The whole program *)

Section Session.
Context {E : Endian}.

(** A client that speaks version 7: the connection is made, with the smaller
    of both versions and 8 KiB receive buffers (on 16-bit addresses and more). *)
Theorem C56_connects usize_max id minor ra flags flags2 xs :
  8192 <= usize_max ->
  is_id id -> minor < U32 -> ra < U32 -> flags < U32 -> flags2 < U32 ->
  let x := {| x_recv := Message (init_message id 7 minor ra flags flags2); x_send := SendOk |} in
  exists es c, Hello_connect usize_max (x :: xs) = (es, Finished c) /\
    forall checks, connection_config checks c =
      {| cf_minor := N.min minor 36; cf_setxattr_ext := false; cf_overflow_checks := checks |} /\
      fc_recv_buf_len c = 8192.
Proof.
  intros U Iid H2 H3 H4 H5 x. unfold Hello_connect. change FuseServer_new with (build_server []).
  pose proof (C31_fuse_server usize_max [] (x :: xs) (Forall_nil _)) as D.
  destruct (FuseServer_connect _ _ _) as [es r]. destruct D as (os & So & D).
  destruct (init_message_reads id 7 minor ra flags flags2) as [Rd L]; auto; [reflexivity|].
  assert (T : take 8192 (init_message id 7 minor ra flags flags2) =
              init_message id 7 minor ra flags flags2) by (apply take_all; lia).
  inversion D; subst; cbn [x x_recv x_send] in *;
    try match goal with H : Message _ = Message _ |- _ => injection H as <- end;
    try discriminate;
    match goal with H : read_init (take 8192 _) = _ |- _ => rewrite T, Rd in H end;
    try discriminate;
    match goal with H : inr _ = inr _ |- _ => injection H as <- <- end;
    cbn [init_seen fi_version v_major v_minor] in *; [congruence|].
  match goal with H : (_, _) = (_, _) |- _ => injection H as <- <- end.
  match goal with H : _ /\ fuse_connected _ _ _ |- _ => destruct H as [_ Cn] end.
  exists es, c. split; [reflexivity|]. intros checks.
  unfold fuse_connected in Cn. rewrite last_version in Cn. cbn [v_minor] in Cn.
  destruct Cn as (C1 & C2 & C3). unfold connection_config. rewrite C1, C2, C3. split.
  - f_equal. cbn [last_set server_answer app configured_flags]. now rewrite N.land_0_r, N.bits_0.
  - cbn [last_set server_answer app]. lia.
Qed.

(** A client's request: header, operation and trailing bytes. *)
Definition request : Type := req_header * client_op * bytes.
Definition message_of (cf : config) (r : request) : bytes :=
  let '(hd, op, extra) := r in PropDecode.sent cf hd op extra [].
Definition proper (cf : config) (len : N) (r : request) : Prop :=
  let '(hd, op, extra) := r in
  sendable false cf hd op /\ has_room op /\ nlen (message_of cf r) <= len.

(** Then, as long as the client's requests are well-formed and fit into the
    buffers, in every execution of the worker threads: what an idle worker has
    handed to the handlers are the messages it received, and their replies
    are what the file system has to say to them, in this order. *)
Theorem C56_session os uid gid vec_addr usize_max xs es c checks threads bufs tr s i b reqs :
  errors_ok os -> uid < U32 -> gid < U32 -> vec_addr mod 8 = 0 ->
  let cf := connection_config checks c in
  let len := fc_recv_buf_len c in
  Hello_connect usize_max xs = (es, Finished c) -> len < U32 ->
  nlen bufs = threads -> Forall (fun b => nlen b = len) bufs ->
  texec Fuse threads (pool_new bufs) tr s ->
  received i tr = map (fun r => Message (message_of cf r)) reqs -> Forall (proper cf len) reqs ->
  nth_error (p_workers s) i = Some (WRecv b) ->
  handled i tr = map (fun r => Dispatched (message_of cf r)) reqs /\
  Forall (fun r => exists rq sends,
    Request_new (message_of cf r) = Ret rq /\
    Hello_dispatch os uid gid vec_addr cf rq SendOk = (sends, Ret tt) /\
    let '(hd, op, _) := r in
    says_it (cf_minor cf) (rh_unique hd) (hello_says os uid gid (rh_nodeid hd) op) sends) reqs.
Proof.
  intros Hos Hu Hg Ha cf len _ U Lb Fb X R P W.
  destruct (C51_once Fuse threads bufs len Lb Fb tr s X) as [_ O]. specialize (O i). rewrite W in O.
  destruct O as (_ & _ & _ & todo & O & ->). rewrite app_nil_r, R in O.
  assert (A : Forall (fun r => 40 + nlen (op_body cf (snd (fst r)) ++ snd r) < U32 /\
    take len (message_of cf r) = message_of cf r /\
    Request_new (message_of cf r) = Ret {| rq_mem := message_of cf r |}) reqs).
  { eapply Forall_impl; [|exact P]. intros [[hd op] extra] (S1 & S2 & S3). cbn [fst snd message_of] in *.
    assert (N : nlen (PropDecode.sent cf hd op extra []) = 40 + nlen (op_body cf op ++ extra)).
    { unfold PropDecode.sent, encode_len. rewrite !nlen_app, nlen_nil, nlen_take, nlen_app.
      assert (NW : nlen (wire (header_fields (40 + (nlen (op_body cf op) + nlen extra)) (op_code op) hd)) = 40)
        by apply nlen_wire. lia. }
    split; [lia|]. split; [apply take_all; lia|]. unfold PropDecode.sent. apply new_accepts; [apply S1|lia|lia|lia]. }
  split.
  - rewrite <- O. clear - A. induction A as [|r l (A1 & A2 & A3) _ IH]; [reflexivity|].
    cbn [map flat_map]. rewrite IH. unfold expected at 1. rewrite A2.
    destruct (C01_accepted_only _ _ A3) as [_ (B1 & B2 & B3)].
    assert (Ac : accepted (message_of cf r) = true) by (unfold accepted; lia).
    rewrite Ac. reflexivity.
  - clear - Hos Hu Hg Ha A P. induction A as [|[[hd op] extra] l (A1 & A2 & A3) _ IH]; [constructor|].
    apply Forall_cons_iff in P as [Pr P']. destruct Pr as (S1 & S2 & S3). cbn [fst snd] in A1. constructor; [|now apply IH].
    destruct (C56_answers os uid gid vec_addr cf Hos Hu Hg Ha hd op extra [] SendOk S1 S2 A1)
      as (rq & sends & r & Q1 & Q2 & Q3 & Q4).
    exists rq, sends. split; [exact Q1|]. split; [|exact Q3]. rewrite Q2. f_equal. rewrite Q4.
    now destruct (one_way _).
Qed.
End Session.

(** ** Examples *)

Local Instance LE : Endian := false.

Definition client_header (unique node : N) : req_header :=
  {| rh_unique := unique; rh_nodeid := node; rh_uid := 1000; rh_gid := 1000; rh_pid := 77; rh_padding := 0 |}.
Definition hello_cf : config :=
  {| cf_minor := 36; cf_setxattr_ext := false; cf_overflow_checks := false |}.
Definition run (hd : req_header) (op : client_op) (ev : send_event) :=
  match Request_new (PropDecode.sent hello_cf hd op [] []) with
  | Ret rq => Some (Hello_dispatch hello_linux 1000 1000 4096 hello_cf rq ev)
  | _ => None
  end.
(** What the client reads *)
Definition client_reads (r : option (list SendBuf * out unit)) : list (option message) :=
  match r with
  | Some (l, _) => map (fun b => match on_wire b with Ret m => kernel_read m | _ => None end) l
  | None => []
  end.
Definition ended (r : option (list SendBuf * out unit)) : option (out unit) := option_map snd r.

Example errors_ok_example : errors_ok hello_linux /\ errors_ok hello_freebsd.
Proof. unfold errors_ok, is_i32. vm_compute. repeat split; discriminate. Qed.

(** LOOKUP of hello.txt and of another name, READ, READDIR, MKDIR, FORGET. *)
Example C56_answers_example :
  sendable false hello_cf (client_header 5 1) (OLookup (String.list_byte_of_string "hello.txt")) /\
  map (fun m => match m with Some (Reply id e p) => Some (id, e, u64_at 0 p, u32_at 100 p) | _ => None end)
    (client_reads (run (client_header 5 1) (OLookup (String.list_byte_of_string "hello.txt")) SendOk)) =
    [Some (5, 0%Z, 100, 33188)] /\
  client_reads (run (client_header 6 1) (OLookup (String.list_byte_of_string "hello")) SendOk) =
    [Some (Reply 6 (-2) [])] /\
  client_reads (run (client_header 7 100) (ORead 1001 0 4096 0 0 0 0) SendOk) = [Some (Reply 7 0 content)] /\
  map (fun m => match m with Some (Reply id e p) => client_readdir p | _ => None end)
    (client_reads (run (client_header 8 1) (OReaddir 1002 0 4096 0 0 0 0) SendOk)) =
    [Some [{| s_ino := 100; s_off := 1; s_type := 8; s_name := String.list_byte_of_string "hello.txt" |}]] /\
  client_reads (run (client_header 9 1) (OMkdir 493 18 [x61]) SendOk) = [Some (Reply 9 (-38) [])] /\
  run (client_header 10 100) (OForget 1) SendOk = Some ([], Ret tt) /\
  ended (run (client_header 7 100) (ORead 1001 0 4096 0 0 0 0) (SendFails SE_NotFound)) = Some Panic.
Proof.
  split; [sendable_tac; vm_compute; auto|].
  repeat (split; [vm_compute; reflexivity|]). vm_compute; reflexivity.
Qed.

(** A READ of 5 bytes at offset 14 (the end of the file) is answered with the
    whole file: more than was asked for, from another offset. *)
Theorem C56_read_refuted :
  exists hd offset size p,
    sendable false hello_cf hd (ORead 1001 offset size 0 0 0 0) /\
    client_reads (run hd (ORead 1001 offset size 0 0 0 0) SendOk) = [Some (Reply (rh_unique hd) 0 p)] /\
    nlen content <= offset /\ size < nlen p.
Proof.
  exists (client_header 7 100), 14, 5, content.
  split; [sendable_tac; vm_compute; auto|]. split; [vm_compute; reflexivity|].
  split; vm_compute; [discriminate|reflexivity].
Qed.

(** The error numbers clients see on Linux and FreeBSD: ENOENT (2) for a name
    that does not exist, EINVAL (22) for a handle that was not given out,
    ENOSYS (38 or 78) for operations the file system lacks. *)
Theorem C56_errnos {E : Endian} (linux : bool) uid gid node name fh offset size rflags lock_owner flags pad :
  let os := if linux then hello_linux else hello_freebsd in
  let says := hello_says os uid gid node in
  (name <> txt "hello.txt" -> says (OLookup name) = Error (-2)) /\
  (fh <> 1001 -> says (ORead fh offset size rflags lock_owner flags pad) = Error (-22)) /\
  says (OUnlink name) = Error (if linux then -38 else -78)%Z.
Proof.
  intros os says. unfold says, hello_says, name_is.
  split; [|split].
  - intros N. destruct (list_eq_dec _ _ _) as [->|]; [contradiction|]. rewrite andb_false_r. now destruct linux.
  - intros N. destruct (N.eqb_spec fh 1001); [contradiction|]. now destruct linux.
  - now destruct linux.
Qed.
Example C56_errnos_example :
  txt "other.txt" <> txt "hello.txt" /\ 7 <> 1001.
Proof. split; discriminate. Qed.

(** A READDIR with 39 bytes makes the handler panic. *)
Theorem C56_readdir_refuted :
  exists hd size,
    sendable false hello_cf hd (OReaddir 1002 0 size 0 0 0 0) /\
    run hd (OReaddir 1002 0 size 0 0 0 0) SendOk = Some ([], Panic).
Proof.
  exists (client_header 8 1), 39. split; [sendable_tac; vm_compute; auto|]. vm_compute; reflexivity.
Qed.

(** The buffer of READDIR is a [Vec<u8>], which need not be aligned. *)
Theorem C56_unaligned_refuted :
  exists rq, Request_new (PropDecode.sent hello_cf (client_header 8 1) (OReaddir 1002 0 64 0 0 0 0) [] []) = Ret rq /\
    Hello_dispatch hello_linux 1000 1000 4097 hello_cf rq SendOk = ([], Ub).
Proof. eexists. split; [vm_compute; reflexivity|]. vm_compute; reflexivity. Qed.

(** An OPEN request without its body. *)
Example C56_malformed_example :
  let m := wire (header_fields 40 14 (client_header 3 100)) in
  exists rq, Request_new m = Ret rq /\ looked_at (u32_at 4 m) = Some ROpen /\
    decode_view false hello_cf ROpen rq = Fail EUnexpectedEof /\
    Hello_dispatch hello_linux 1000 1000 4096 hello_cf rq SendOk = ([], Panic).
Proof. eexists. repeat (split; [vm_compute; reflexivity|]). vm_compute; reflexivity. Qed.
Example C56_any_request_example :
  exists rq b, Request_new (wire (header_fields 40 63 (client_header 3 0)) ++ [x00]) = Ret rq /\
    Hello_dispatch hello_linux 1000 1000 4096 hello_cf rq SendOk = ([b], Ret tt).
Proof. do 2 eexists. split; [vm_compute; reflexivity|]. vm_compute; reflexivity. Qed.

Definition first_init : exchange :=
  {| x_recv := Message (init_message 2 7 31 65536 (2 ^ 29 + 1) 0); x_send := SendOk |}.
Example C56_connects_example :
  match Hello_connect u64_max [first_init] with
  | (_, Finished c) => fc_recv_buf_len c = 8192 /\ connection_config false c =
      {| cf_minor := 31; cf_setxattr_ext := false; cf_overflow_checks := false |}
  | _ => False
  end.
Proof. vm_compute. auto. Qed.

Definition cf31 : config :=
  {| cf_minor := 31; cf_setxattr_ext := false; cf_overflow_checks := false |}.
Definition demo_requests : list request :=
  [(client_header 4 1, OLookup (String.list_byte_of_string "hello.txt"), []);
   (client_header 6 100, OOpen 0 0, []); (client_header 8 100, ORead 1001 0 4096 0 0 0 0, [])].
Lemma texec_cons k n s l s1 tr s2 : tstep k n s l s1 -> texec k n s1 tr s2 -> texec k n s (l :: tr) s2.
Proof.
  intros St H. change (l :: tr) with ([l] ++ tr). eapply texec_app; [|exact H].
  change [l] with ([] ++ [l]). econstructor; [constructor|exact St].
Qed.
Lemma demo_proper : Forall (proper cf31 8192) demo_requests.
Proof.
  assert (S1 : sendable false cf31 (client_header 4 1) (OLookup (String.list_byte_of_string "hello.txt")))
    by (sendable_tac; vm_compute; auto).
  assert (S2 : sendable false cf31 (client_header 6 100) (OOpen 0 0)) by (sendable_tac; vm_compute; auto).
  assert (S3 : sendable false cf31 (client_header 8 100) (ORead 1001 0 4096 0 0 0 0))
    by (sendable_tac; vm_compute; auto).
  unfold demo_requests. apply Forall_cons; [|apply Forall_cons; [|apply Forall_cons; [|apply Forall_nil]]];
    unfold proper; (split; [assumption|split; [exact I|]]); unfold N.le; vm_compute; discriminate.
Qed.
Lemma one_worker_serves threads c ch msgs : forall buf,
  Forall (fun m => nlen m <= nlen buf /\ exists rq, Request_new m = Ret rq) msgs ->
  exists buf', texec Fuse threads {| p_caller := c; p_workers := [WRecv buf]; p_channel := ch |}
    (flat_map (fun m => [TRecv 0 (Message m); TDispatch 0 {| rq_mem := m |}]) msgs)
    {| p_caller := c; p_workers := [WRecv buf']; p_channel := ch |}.
Proof.
  induction msgs as [|m msgs IH]; intros buf F; [exists buf; constructor|].
  apply Forall_cons_iff in F as [[L [rq R]] F]. destruct (C01_accepted_only _ _ R) as [-> _].
  pose proof (PropServer.received buf m) as Rv. destruct (recv_into buf m) as [b n] eqn:Ri.
  destruct Rv as [Rv Lb]. rewrite take_all in Rv by lia.
  destruct (IH b) as [buf' X]; [now rewrite Lb|]. exists buf'. cbn [flat_map app].
  eapply texec_cons; [eapply step_recv; reflexivity|].
  assert (W : after_recv Fuse buf (Message m) = WDispatch b {| rq_mem := m |}).
  { cbn [after_recv]. unfold recv_request. rewrite Ri, Rv, R. reflexivity. }
  cbn [set_worker]. rewrite W. cbn [set_worker].
  eapply texec_cons; [eapply step_dispatch; reflexivity|]. exact X.
Qed.
Example C56_session_example :
  exists es c s b,
    Hello_connect u64_max [first_init] = (es, Finished c) /\
    let cf := connection_config false c in
    let tr := TSpawn :: flat_map (fun r =>
      [TRecv 0 (Message (message_of cf r)); TDispatch 0 {| rq_mem := message_of cf r |}]) demo_requests in
    texec Fuse 1 (pool_new [repeat x00 (N.to_nat (fc_recv_buf_len c))]) tr s /\
    received 0 tr = map (fun r => Message (message_of cf r)) demo_requests /\
    Forall (proper cf (fc_recv_buf_len c)) demo_requests /\
    nth_error (p_workers s) 0 = Some (WRecv b).
Proof.
  destruct (Hello_connect u64_max [first_init]) as [es r] eqn:H.
  assert (C : exists c, r = Finished c /\ fc_recv_buf_len c = 8192 /\ connection_config false c =
    {| cf_minor := 31; cf_setxattr_ext := false; cf_overflow_checks := false |}).
  { pose proof C56_connects_example as P. rewrite H in P. destruct r; try contradiction. eauto. }
  destruct C as (c & -> & L & Cf). exists es, c. rewrite Cf, L.
  assert (Nz : nlen (repeat x00 (N.to_nat 8192)) = 8192) by (rewrite nlen_repeat; apply N2Nat.id).
  revert Nz. generalize (repeat x00 (N.to_nat 8192)). intros zeros Nz.
  fold cf31.
  destruct (one_worker_serves 1 (MSpawn 1 []) [] (map (message_of cf31) demo_requests) zeros)
    as [b X].
  { rewrite Nz.
    repeat (apply Forall_cons; [split; [vm_compute; discriminate|eexists; vm_compute; reflexivity]|]).
    apply Forall_nil. }
  rewrite flat_map_concat_map, map_map, <- flat_map_concat_map in X.
  eexists _, b. split; [reflexivity|]. cbv zeta. split.
  { eapply texec_cons; [eapply step_spawn; reflexivity|]. exact X. }
  split; [vm_compute; reflexivity|]. split; [|reflexivity].
  exact demo_proper.
Qed.

Print Assumptions C56_answers.
Print Assumptions C56_malformed.
Print Assumptions C56_any_request.
Print Assumptions C56_connects.
Print Assumptions C56_session.
Print Assumptions C56_read_refuted.
Print Assumptions C56_readdir_refuted.
Print Assumptions C56_unaligned_refuted.
Print Assumptions C56_errnos.
