(** What the handlers of fuse-vfs do in terms of the public view of a request:
    either the request is refused, or the handler works with the values the
    accessors return. *)

From Verif Require Import Base Kernel CoreModel DecodeModel OpsModel DecodeSpec DecodeProofs OpsSafety
  ReplyModel ReplySpec PropDecode PropServer ServerModel VfsModel VfsSpec.
From Coq Require Import List NArith ZArith Bool Lia ZifyBool ZifyNat ZifyN.
Import ListNotations.
Open Scope N_scope.

Section Proofs.
Context {E : Endian} {W Node FH DH : Type} (U : user W Node FH DH) (os : OsErrors) (cf : config).

(** Accessors do not return errors. *)
Definition nofail {A} (m : out A) : Prop := forall e, m <> Fail e.
Lemma nofail_bind {A B} (m : out A) (k : A -> out B) :
  nofail m -> (forall a, nofail (k a)) -> nofail (bind m k).
Proof. unfold nofail. destruct m as [a|e0| |]; cbn; intros H1 H2 e; [apply H2|intros _; exact (H1 e0 eq_refl)|easy|easy]. Qed.
Lemma nofail_rd w o b : nofail (rd w o b).
Proof. unfold nofail, rd. intros e. now destruct (_ <=? _). Qed.
Lemma nofail_mem b o n : nofail (mem_read b o n).
Proof. unfold nofail, mem_read. intros e. now destruct (_ <=? _). Qed.
Lemma nofail_ret {A} (a : A) : nofail (Ret a).
Proof. unfold nofail. intros e. discriminate. Qed.
Lemma nofail_node n : nofail (NodeId_new_unchecked n).
Proof. unfold nofail, NodeId_new_unchecked. intros e. now destruct (_ =? _). Qed.

Ltac nofail_tac :=
  repeat first
    [ apply nofail_rd | apply nofail_mem | apply nofail_ret | apply nofail_node
    | apply nofail_bind; [|intros]
    | match goal with |- nofail (match ?x with _ => _ end) => destruct x end ].

(** Going through the binds of [decode_view] and of a handler together. *)
Ltac same_step :=
  match goal with
  | |- context [bind ?m _] =>
    let H := fresh "M" in
    first
      [ assert (H : nofail m) by
          (repeat autounfold with ops; unfold unchecked_node_id, node_id_or_root, hdr_nodeid, rd32, rd64;
           nofail_tac)
      | idtac ];
    destruct m eqn:?; cbn [bind attempt];
    try (exfalso; eapply H; reflexivity)
  end.

(** A handler decodes the request to the view [v] and goes on with [k v], or
    returns the decoding error. *)
Definition handles_view (m : out view) (p : prog W Node FH DH) (k : view -> prog W Node FH DH) : Prop :=
  match m with
  | Ret v => p = k v
  | Fail e => p = PDone (inr (SrvRequest e))
  | Panic | Ub => True
  end.

Ltac views :=
  intros; cbn [decode_view];
  repeat same_step; try reflexivity; try exact I.

Lemma forget_view rq :
  match decode_view false cf RForget rq with
  | Ret (VForget items) => do_forget (W := W) (Node := Node) (FH := FH) (DH := DH) cf rq =
                           PNodeForget items (PDone (inl tt))
  | Ret _ => False
  | Fail e => do_forget (W := W) (Node := Node) (FH := FH) (DH := DH) cf rq = PDone (inr (SrvRequest e))
  | Panic => do_forget (W := W) (Node := Node) (FH := FH) (DH := DH) cf rq = PPanic
  | Ub => do_forget (W := W) (Node := Node) (FH := FH) (DH := DH) cf rq = PUb
  end.
Proof.
  unfold do_forget. cbn [decode_view]. destruct (ForgetRequest_try_from cf rq); cbn [bind attempt]; reflexivity.
Qed.

Section Views.
Context (rq : Request) (id : N) (Hid : header_request_id rq = Ret id).

(** The rest of [lookup] when the user's code has answered. *)
Definition lookup_rest (result : LookupResult Node) : prog W Node FH DH :=
  let entry := vfs_split_duration (lr_entry_cache_timeout result) (0, 0) in
  match lr_node result with
  | Some (node, attr) =>
    attempt (NodeAttr_node_id attr) (fun node_id =>
    let valid := vfs_split_duration (lr_attr_cache_timeout result) (0, 0) in
    let e := {| eo_nodeid := node_id; eo_generation := lr_generation result;
                eo_entry_valid := fst entry; eo_attr_valid := fst valid;
                eo_entry_valid_nsec := snd entry; eo_attr_valid_nsec := snd valid;
                eo_attr := attr |} in
    reply_then cf id (AOk (REntryOut e)) (fun r =>
    match r with
    | inl _ => PNodeAdd node_id node (PDone (inl tt))
    | inr e => PDone (inr (SrvSend e))
    end))
  | None =>
    let e := {| eo_nodeid := 0; eo_generation := 0; eo_entry_valid := fst entry;
                eo_attr_valid := 0; eo_entry_valid_nsec := snd entry; eo_attr_valid_nsec := 0;
                eo_attr := NodeAttr_new 0 |} in
    reply cf id (AOk (REntryOut e))
  end.

Definition getattr_body (v : view) : prog W Node FH DH :=
   match v with
   | VGetattr node_id _ =>
     with_node os cf id node_id (fun node =>
     call cf id (u_getattr U node rq) (fun result =>
     let valid := vfs_split_duration (gar_cache_timeout result) (0, 0) in
     reply cf id (AOk (RAttrOut {| ao_attr_valid := fst valid; ao_attr_valid_nsec := snd valid;
                             ao_attr := gar_attr result |}))))
   | _ => PUb end.
Lemma getattr_view : handles_view (decode_view false cf RGetattr rq) (do_getattr U os cf rq) getattr_body.
Proof. unfold handles_view, do_getattr. rewrite Hid. cbn [attempt]. views. Qed.

Definition getxattr_body (v : view) : prog W Node FH DH :=
   match v with
   | VGetxattr node_id _ _ =>
     with_node os cf id node_id (fun node =>
     call cf id (u_getxattr U node rq) (fun buf => reply cf id (AOkBuf buf)))
   | _ => PUb end.
Lemma getxattr_view : handles_view (decode_view false cf RGetxattr rq) (do_getxattr U os cf rq) getxattr_body.
Proof. unfold handles_view, do_getxattr. rewrite Hid. cbn [attempt]. views. Qed.

Definition listxattr_body (v : view) : prog W Node FH DH :=
   match v with
   | VListxattr node_id _ =>
     with_node os cf id node_id (fun node =>
     call cf id (u_listxattr U node rq) (fun buf => reply cf id (AOkBuf buf)))
   | _ => PUb end.
Lemma listxattr_view : handles_view (decode_view false cf RListxattr rq) (do_listxattr U os cf rq) listxattr_body.
Proof. unfold handles_view, do_listxattr. rewrite Hid. cbn [attempt]. views. Qed.

Definition lookup_body (v : view) : prog W Node FH DH :=
   match v with
   | VLookup parent_id _ =>
     with_node os cf id parent_id (fun parent =>
     with_trait cf id (u_as_directory U parent) (NOT_DIRECTORY os) (
     call cf id (u_lookup U parent rq) (lookup_rest)))
   | _ => PUb end.
Lemma lookup_view : handles_view (decode_view false cf RLookup rq) (do_lookup U os cf rq) lookup_body.
Proof. unfold handles_view, do_lookup. rewrite Hid. cbn [attempt]. views. Qed.

Definition open_body (v : view) : prog W Node FH DH :=
   match v with
   | VOpen node_id _ _ =>
     with_node os cf id node_id (fun node =>
     with_trait cf id (u_as_file U node) (NOT_SUPPORTED os) (
     call cf id (u_open U node rq) (fun result =>
     POpenFile (or_handle result) (fun handle_id =>
     reply cf id (AOk (ROpenOut {| oo_fh := handle_id; oo_open_flags := or_open_flags result |}))))))
   | _ => PUb end.
Lemma open_view : handles_view (decode_view false cf ROpen rq) (do_open U os cf rq) open_body.
Proof. unfold handles_view, do_open. rewrite Hid. cbn [attempt]. views. Qed.

Definition opendir_body (v : view) : prog W Node FH DH :=
   match v with
   | VOpendir node_id _ _ =>
     with_node os cf id node_id (fun node =>
     with_trait cf id (u_as_directory U node) (NOT_DIRECTORY os) (
     call cf id (u_opendir U node rq) (fun result =>
     POpenDir (or_handle result) (fun handle_id =>
     reply cf id (AOk (ROpenOut {| oo_fh := handle_id; oo_open_flags := or_open_flags result |}))))))
   | _ => PUb end.
Lemma opendir_view : handles_view (decode_view false cf ROpendir rq) (do_opendir U os cf rq) opendir_body.
Proof. unfold handles_view, do_opendir. rewrite Hid. cbn [attempt]. views. Qed.

Definition read_body (v : view) : prog W Node FH DH :=
   match v with
   | VRead node_id _ _ h _ _ =>
     with_file os cf id node_id h (fun f =>
     with_trait cf id (u_as_read_handle U f) (NOT_SUPPORTED os) (
     call cf id (u_read U f rq) (fun data => reply cf id (AOkBuf data))))
   | _ => PUb end.
Lemma read_view : handles_view (decode_view false cf RRead rq) (do_read U os cf rq) read_body.
Proof. unfold handles_view, do_read. rewrite Hid. cbn [attempt]. views. Qed.

Definition readdir_body (v : view) : prog W Node FH DH :=
   match v with
   | VReaddir node_id _ _ h _ =>
     with_dir os cf id node_id h (fun d =>
     with_trait cf id (u_as_readdir_handle U d) (NOT_SUPPORTED os) (
     call cf id (u_readdir U d rq) (fun data => reply cf id (AOkBuf data))))
   | _ => PUb end.
Lemma readdir_view : handles_view (decode_view false cf RReaddir rq) (do_readdir U os cf rq) readdir_body.
Proof. unfold handles_view, do_readdir. rewrite Hid. cbn [attempt]. views. Qed.

Definition readdirplus_body (v : view) : prog W Node FH DH :=
   match v with
   | VReaddirplus node_id _ _ h _ =>
     with_dir os cf id node_id h (fun d =>
     with_trait cf id (u_as_readdirplus_handle U d) (NOT_SUPPORTED os) (
     call cf id (u_readdirplus U d rq) (fun data => reply cf id (AOkBuf data))))
   | _ => PUb end.
Lemma readdirplus_view : handles_view (decode_view false cf RReaddirplus rq) (do_readdirplus U os cf rq) readdirplus_body.
Proof. unfold handles_view, do_readdirplus. rewrite Hid. cbn [attempt]. views. Qed.

Definition readlink_body (v : view) : prog W Node FH DH :=
   match v with
   | VReadlink node_id =>
     with_node os cf id node_id (fun node =>
     with_trait cf id (u_as_symlink U node) (NOT_SUPPORTED os) (
     call cf id (u_readlink U node rq) (fun data => reply cf id (AOkBuf data))))
   | _ => PUb end.
Lemma readlink_view : handles_view (decode_view false cf RReadlink rq) (do_readlink U os cf rq) readlink_body.
Proof. unfold handles_view, do_readlink. rewrite Hid. cbn [attempt]. views. Qed.

Definition release_body (v : view) : prog W Node FH DH :=
   match v with
   | VRelease node_id h _ _ =>
     PReleaseFile node_id h rq (fun o =>
     match o with
     | NoHandle => reply cf id (AErr (INVALID_ARGUMENT os))
     | ReleaseFailed e => reply cf id (AErr e)
     | Released => reply cf id AOkEmpty
     end)
   | _ => PUb end.
Lemma release_view : handles_view (decode_view false cf RRelease rq) (do_release os cf rq) release_body.
Proof. unfold handles_view, do_release. rewrite Hid. cbn [attempt]. views. Qed.

Definition releasedir_body (v : view) : prog W Node FH DH :=
   match v with
   | VReleasedir node_id h _ _ =>
     PReleaseDir node_id h rq (fun o =>
     match o with
     | NoHandle => reply cf id (AErr (INVALID_ARGUMENT os))
     | ReleaseFailed e => reply cf id (AErr e)
     | Released => reply cf id AOkEmpty
     end)
   | _ => PUb end.
Lemma releasedir_view : handles_view (decode_view false cf RReleasedir rq) (do_releasedir os cf rq) releasedir_body.
Proof. unfold handles_view, do_releasedir. rewrite Hid. cbn [attempt]. views. Qed.

Definition statfs_body (v : view) : prog W Node FH DH :=
   match v with
   | VStatfs node_id =>
     with_node os cf id node_id (fun node =>
     call cf id (u_statfs U node rq) (fun st => reply cf id (AOk (RStatfsOut st))))
   | _ => PUb end.
Lemma statfs_view : handles_view (decode_view false cf RStatfs rq) (do_statfs U os cf rq) statfs_body.
Proof. unfold handles_view, do_statfs. rewrite Hid. cbn [attempt]. views. Qed.

Definition write_body (v : view) : prog W Node FH DH :=
   match v with
   | VWrite node_id _ h _ _ _ _ =>
     with_file os cf id node_id h (fun f =>
     with_trait cf id (u_as_write_handle U f) (NOT_SUPPORTED os) (
     call cf id (u_write U f rq) (fun size => reply cf id (AOk (RWriteOut size)))))
   | _ => PUb end.
Lemma write_view : handles_view (decode_view false cf RWrite rq) (do_write U os cf rq) write_body.
Proof. unfold handles_view, do_write. rewrite Hid. cbn [attempt]. views. Qed.

Definition vfs_body (t : rtype) : view -> prog W Node FH DH :=
  match t with
  | RGetattr => getattr_body | RGetxattr => getxattr_body | RListxattr => listxattr_body
  | RLookup => lookup_body | ROpen => open_body | ROpendir => opendir_body | RRead => read_body
  | RReaddir => readdir_body | RReaddirplus => readdirplus_body | RReadlink => readlink_body
  | RRelease => release_body | RReleasedir => releasedir_body | RStatfs => statfs_body
  | RWrite => write_body | _ => fun _ => PUb
  end.
End Views.

Lemma dispatch_eq buf rq :
  Request_new buf = Ret rq ->
  match vfs_type (u32_at 4 buf) with
  | None => dispatch U os cf rq = None
  | Some RForget => dispatch U os cf rq = Some (do_forget cf rq)
  | Some t => exists p, dispatch U os cf rq = Some p /\
      handles_view (decode_view false cf t rq) p (vfs_body rq (u64_at 8 buf) t)
  end.
Proof.
  intros H. destruct (header_opcode_eq buf rq H) as (Ho & Hi & _).
  unfold dispatch. rewrite Ho. set (op := u32_at 4 buf) in *. clearbody op. unfold vfs_type.
  repeat match goal with
  | |- context [if op =? ?k then Some _ else _] =>
    destruct (N.eqb_spec op k) as [->|?];
    [try (eexists; split; [reflexivity|];
          first [ now apply lookup_view | now apply getattr_view | now apply getxattr_view
                | now apply listxattr_view | now apply open_view | now apply opendir_view
                | now apply read_view | now apply readdir_view | now apply readdirplus_view
                | now apply readlink_view | now apply release_view | now apply releasedir_view
                | now apply statfs_view | now apply write_view ]); try reflexivity|]
  end.
  apply match_arms_default.
  repeat (apply Forall_cons; [cbn [fst]; intros <-; match goal with H : _ <> _ |- _ => now apply H end|]).
  apply Forall_nil.
Qed.

(** A request of a supported type is refused or handled as described, without
    undefined behaviour or panic. *)
Lemma dispatch_view buf rq t :
  Request_new buf = Ret rq -> vfs_type (u32_at 4 buf) = Some t -> t <> RForget ->
  exists p, dispatch U os cf rq = Some p /\
    ((exists e, decode_view false cf t rq = Fail e /\ p = PDone (inr (SrvRequest e))) \/
     (exists v, decode_view false cf t rq = Ret v /\ p = vfs_body rq (u64_at 8 buf) t v)).
Proof.
  intros H T Nf. pose proof (dispatch_eq buf rq H) as D. rewrite T in D.
  assert (D' : exists p, dispatch U os cf rq = Some p /\
    handles_view (decode_view false cf t rq) p (vfs_body rq (u64_at 8 buf) t))
    by (destruct t; try exact D; contradiction).
  destruct D' as (p & D1 & D2). exists p. split; [exact D1|].
  destruct (Request_new_accepted buf rq H) as [_ A].
  pose proof (decode_view_safe false cf t rq A Nf) as S.
  unfold handles_view in D2. destruct (decode_view false cf t rq); try contradiction; eauto.
Qed.
End Proofs.
