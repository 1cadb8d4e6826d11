(** Theorems about what the replies of fuse-vfs say: C54 of properties.jsonl. *)

From Verif Require Import Base Kernel CoreModel DecodeModel OpsModel WireSpec DecodeProofs
  ReplyModel ReplySpec ReplyProofs PropReply PropServer ServerModel VfsModel VfsSpec VfsRun VfsProofs
  PropTables PropStatic PropVfs.
From Coq Require Import List NArith ZArith Bool Lia ZifyBool ZifyNat ZifyN.
Import ListNotations.
Open Scope N_scope.

(** ** Specification *)

Section Spec.
Context {E : Endian} {W Node FH DH : Type} (U : user W Node FH DH) (os : OsErrors) (cf : config).

(** Handling [rq] alone in the state [v], [w]: the handler sends one reply to
    [id], which the client reads as [error] and [payload], the socket
    answers [ev], the handler returns that result and leaves the state [v'],
    [w']. *)
Definition served (rq : Request) (id : N) (v : vfs Node FH DH) (w : W) (ev : send_event)
    (error : Z) (payload : bytes) (v' : vfs Node FH DH) (w' : W) : Prop :=
  exists p l b, dispatch U os cf rq = Some p /\
    runs U cf p v w ev l (PDone (outcome ev)) v' w' /\
    sent l = [b] /\ reads_as b id error payload.

(** The node a request is about; requests that only use a handle have none. *)
Definition node_of (v : view) : option N :=
  match v with
  | VGetattr n _ | VGetxattr n _ _ | VListxattr n _ | VLookup n _ | VOpen n _ _ | VOpendir n _ _
  | VReadlink n | VStatfs n => Some n
  | _ => None
  end.
Definition file_of (v : view) : option N :=
  match v with
  | VRead _ _ _ h _ _ | VRelease _ h _ _ | VWrite _ _ h _ _ _ _ => Some h
  | _ => None
  end.
Definition dir_of (v : view) : option N :=
  match v with
  | VReaddir _ _ _ h _ | VReaddirplus _ _ _ h _ | VReleasedir _ h _ _ => Some h
  | _ => None
  end.
End Spec.

(** ** Proofs *)

Section Proofs.
Context {E : Endian} {W Node FH DH : Type} (U : user W Node FH DH) (os : OsErrors) (cf : config).
Context (TU : typed_user U) (TE : typed_errors os).
Notation vfs := (vfs Node FH DH).
Notation prog := (prog W Node FH DH).
Notation served := (served U os cf).

(** Running a handler alone is deterministic. *)
Theorem C54_deterministic (p : prog) (v : vfs) w ev l p1 v1 w1 l' p2 v2 w2 :
  runs U cf p v w ev l p1 v1 w1 -> runs U cf p v w ev l' p2 v2 w2 ->
  l = l' /\ p1 = p2 /\ v1 = v2 /\ w1 = w2.
Proof.
  intros H. revert l' p2 v2 w2. induction H as [p v w ev X|p v w ev e q v0 w0 l p1 v1 w1 X R IH];
    intros l' p2 v2 w2 H2; inversion H2 as [? ? ? ? Y|? ? ? ? ? ? ? ? ? ? ? ? Y R2]; subst.
  - auto.
  - congruence.
  - congruence.
  - rewrite X in Y. injection Y as <- <- <- <-. destruct (IH _ _ _ _ R2) as (-> & -> & -> & ->). auto.
Qed.

Section Request.
Context (buf : bytes) (rq : Request) (Hrq : Request_new buf = Ret rq).
Let id := u64_at 8 buf.

Lemma Hid : is_id id.
Proof. destruct (header_opcode_eq buf rq Hrq) as (_ & _ & H). exact H. Qed.

Definition done (p : prog) (v : vfs) (w : W) (ev : send_event) (error : Z) (payload : bytes)
    (v' : vfs) (w' : W) : Prop :=
  exists l b, runs U cf p v w ev l (PDone (outcome ev)) v' w' /\ sent l = [b] /\
    reads_as b id error payload.

Lemma done_act p v w ev e p1 v1 w1 error pl v' w' :
  exec U cf p v w ev = Some (e, p1, v1, w1) -> sent [e] = [] ->
  done p1 v1 w1 ev error pl v' w' -> done p v w ev error pl v' w'.
Proof.
  intros X S (l & b & R & Sl & Rd). exists (e :: l), b. split; [eapply runs_act; eauto|].
  split; [|exact Rd]. change (e :: l) with ([e] ++ l). now rewrite sent_app, S, Sl.
Qed.

Lemma done_reply a v w ev error pl :
  replies (cf_minor cf) id a error pl -> done (reply cf id a) v w ev error pl v w.
Proof.
  intros (b & m & C & R). unfold reply, reply_then. rewrite C. exists [EvSend b ev], b.
  split; [|split; [reflexivity|exists m; exact R]].
  eapply runs_act; [reflexivity|]. destruct ev; apply runs_end; reflexivity.
Qed.
Lemma done_err e v w ev : is_i32 e -> done (reply cf id (AErr e)) v w ev e [] v w.
Proof. intros He. apply done_reply. apply C20_error_reply; auto. apply Hid. Qed.
Lemma done_buf data v w ev : 16 + nlen data <= u32_max ->
  done (reply cf id (AOkBuf data)) v w ev 0 data v w.
Proof.
  intros L. apply done_reply.
  destruct (C18_payload (cf_minor cf) id data [] [] [] Hid) as (_ & _ & _ & _ & P & _). now apply P.
Qed.
Lemma done_empty v w ev : done (reply cf id AOkEmpty) v w ev 0 [] v w.
Proof.
  apply done_reply. destruct (C18_payload (cf_minor cf) id [] [] [] [] Hid) as (_ & _ & _ & _ & _ & P).
  exact P.
Qed.

Lemma node_found n k v w ev node c error pl v' w' :
  v_nodes v n = Some (node, c) -> done (k node) v w ev error pl v' w' ->
  done (with_node os cf id n k) v w ev error pl v' w'.
Proof.
  intros H. unfold with_node. apply done_act with (EvNodeGet n (Some node)); [|reflexivity].
  cbn [exec]. unfold NodeMap_get. now rewrite H.
Qed.
Lemma node_none n k v w ev :
  v_nodes v n = None -> done (with_node os cf id n k) v w ev (INVALID_ARGUMENT os) [] v w.
Proof.
  intros H. unfold with_node.
  apply done_act with (EvNodeGet n None) (reply cf id (AErr (INVALID_ARGUMENT os))) v w; [|reflexivity|].
  - cbn [exec]. unfold NodeMap_get. now rewrite H.
  - apply done_err. apply TE.
Qed.
Lemma file_found n h k v w ev f error pl v' w' :
  v_open_files v h = Some f -> done (k f) v w ev error pl v' w' ->
  done (with_file os cf id n h k) v w ev error pl v' w'.
Proof.
  intros H. unfold with_file. apply done_act with (EvGetFile h (Some f)); [|reflexivity].
  cbn [exec]. unfold HandlesMap_get_file. now rewrite H.
Qed.
Lemma file_none n h k v w ev :
  v_open_files v h = None -> done (with_file os cf id n h k) v w ev (INVALID_ARGUMENT os) [] v w.
Proof.
  intros H. unfold with_file.
  apply done_act with (EvGetFile h None) (reply cf id (AErr (INVALID_ARGUMENT os))) v w; [|reflexivity|].
  - cbn [exec]. unfold HandlesMap_get_file. now rewrite H.
  - apply done_err. apply TE.
Qed.
Lemma dir_found n h k v w ev f error pl v' w' :
  v_open_dirs v h = Some f -> done (k f) v w ev error pl v' w' ->
  done (with_dir os cf id n h k) v w ev error pl v' w'.
Proof.
  intros H. unfold with_dir. apply done_act with (EvGetDir h (Some f)); [|reflexivity].
  cbn [exec]. unfold HandlesMap_get_dir. now rewrite H.
Qed.
Lemma dir_none n h k v w ev :
  v_open_dirs v h = None -> done (with_dir os cf id n h k) v w ev (INVALID_ARGUMENT os) [] v w.
Proof.
  intros H. unfold with_dir.
  apply done_act with (EvGetDir h None) (reply cf id (AErr (INVALID_ARGUMENT os))) v w; [|reflexivity|].
  - cbn [exec]. unfold HandlesMap_get_dir. now rewrite H.
  - apply done_err. apply TE.
Qed.
Lemma call_ok {A} (f : W -> W * (A + Z)) k v w ev w1 a error pl v' w' :
  f w = (w1, inl a) -> done (k a) v w1 ev error pl v' w' -> done (call cf id f k) v w ev error pl v' w'.
Proof.
  intros H. unfold call. apply done_act with EvUser; [|reflexivity]. cbn [exec]. now rewrite H.
Qed.
Lemma call_err {A} (f : W -> W * (A + Z)) k v w ev w1 e :
  f w = (w1, inr e) -> is_i32 e -> done (call cf id f k) v w ev e [] v w1.
Proof.
  intros H He. unfold call. apply done_act with EvUser (reply cf id (AErr e)) v w1; [|reflexivity|now apply done_err].
  cbn [exec]. now rewrite H.
Qed.
Lemma trait_yes (f : W -> W * bool) e k v w ev w1 error pl v' w' :
  f w = (w1, true) -> done k v w1 ev error pl v' w' -> done (with_trait cf id f e k) v w ev error pl v' w'.
Proof.
  intros H. unfold with_trait. apply done_act with EvUser; [|reflexivity]. cbn [exec]. now rewrite H.
Qed.
Lemma trait_no (f : W -> W * bool) e k v w ev w1 :
  f w = (w1, false) -> is_i32 e -> done (with_trait cf id f e k) v w ev e [] v w1.
Proof.
  intros H He. unfold with_trait.
  apply done_act with EvUser (reply cf id (AErr e)) v w1; [|reflexivity|now apply done_err].
  cbn [exec]. now rewrite H.
Qed.

Lemma served_body t v view ev w error pl v' w' :
  vfs_type (u32_at 4 buf) = Some t -> t <> RForget -> decode_view false cf t rq = Ret view ->
  done (vfs_body U os cf rq id t view) v w ev error pl v' w' ->
  served rq id v w ev error pl v' w'.
Proof.
  intros T Nf D (l & b & R & S & Rd). destruct (dispatch_view U os cf buf rq t Hrq T Nf) as (p & Dp & X).
  destruct X as [(e & X & _)|(v0 & X & ->)]; [congruence|]. rewrite D in X. injection X as <-.
  eexists. exists l, b. eauto.
Qed.

(** The request is of the given type and its accessors return this view. *)
Definition is_request (t : rtype) (view : view) : Prop :=
  vfs_type (u32_at 4 buf) = Some t /\ decode_view false cf t rq = Ret view.

Lemma served_request t view v ev w error pl v' w' :
  is_request t view -> t <> RForget ->
  done (vfs_body U os cf rq id t view) v w ev error pl v' w' ->
  served rq id v w ev error pl v' w'.
Proof. intros [T D] Nf Hd. now apply (served_body t v view). Qed.

Ltac views t D :=
  destruct t; try (now exfalso; unfold vfs_type in D;
    repeat match type of D with context [if ?c then _ else _] => destruct c end; discriminate).

(** ** Errors *)

(** An id that is not in the table: EINVAL, nothing changes, no user code
    runs. *)
Theorem C54_unknown_node t view n v w ev :
  is_request t view -> node_of view = Some n -> v_nodes v n = None ->
  served rq id v w ev (INVALID_ARGUMENT os) [] v w.
Proof.
  intros R N Hn. assert (Nf : t <> RForget).
  { intros ->. destruct R as [_ R]. cbn [decode_view] in R.
    destruct (ForgetRequest_try_from cf rq); try discriminate. injection R as <-. discriminate. }
  apply (served_request t view); auto. destruct R as [T D].
  views t T; cbn [decode_view] in D;
    repeat match type of D with bind ?m _ = Ret _ => destruct m; cbn [bind] in D; try discriminate end;
    injection D as <-; cbn [node_of] in N; try discriminate; injection N as <-;
    now apply node_none.
Qed.

Ltac open_request t R D :=
  apply (served_request _ _ _ _ _ _ _ _ _ R); [discriminate|];
  cbn [vfs_body getattr_body getxattr_body listxattr_body lookup_body open_body
      opendir_body read_body readdir_body readdirplus_body readlink_body release_body releasedir_body
      statfs_body write_body].

Lemma type_cases (P : rtype -> view -> Prop) t view :
  is_request t view ->
  (forall a b, P RGetattr (VGetattr a b)) -> (forall a b c, P RGetxattr (VGetxattr a b c)) ->
  (forall a b, P RListxattr (VListxattr a b)) -> (forall a b, P RLookup (VLookup a b)) ->
  (forall a b c, P ROpen (VOpen a b c)) -> (forall a b c, P ROpendir (VOpendir a b c)) ->
  (forall a b c d e f, P RRead (VRead a b c d e f)) ->
  (forall a b c d e, P RReaddir (VReaddir a b c d e)) ->
  (forall a b c d e, P RReaddirplus (VReaddirplus a b c d e)) ->
  (forall a, P RReadlink (VReadlink a)) -> (forall a b c d, P RRelease (VRelease a b c d)) ->
  (forall a b c d, P RReleasedir (VReleasedir a b c d)) -> (forall a, P RStatfs (VStatfs a)) ->
  (forall a b c d e f g, P RWrite (VWrite a b c d e f g)) ->
  (forall a, P RForget (VForget a)) -> P t view.
Proof.
  intros [T D]; intros. views t T; cbn [decode_view] in D;
    repeat match type of D with bind ?m _ = Ret _ => destruct m; cbn [bind] in D; try discriminate end;
    injection D as <-; auto.
Qed.

(** A handle that is not open: EINVAL, nothing changes, no user code runs. *)
Theorem C54_unknown_handle t view h v w ev :
  is_request t view ->
  (file_of view = Some h /\ v_open_files v h = None) \/ (dir_of view = Some h /\ v_open_dirs v h = None) ->
  served rq id v w ev (INVALID_ARGUMENT os) [] v w.
Proof.
  intros R N. assert (R' := R). revert R N.
  apply (type_cases (fun t view => is_request t view -> _ -> served rq id v w ev (INVALID_ARGUMENT os) [] v w) t view R');
    clear R' t view; intros; match goal with H : _ \/ _ |- _ => destruct H as [[N Hh]|[N Hh]] end;
    try discriminate N; injection N as <-;
    (eapply served_request; [eassumption|discriminate|]); cbn [vfs_body read_body write_body release_body
      readdir_body readdirplus_body releasedir_body];
    try (now apply file_none); try (now apply dir_none).
  - eapply done_act; [cbn [exec]; unfold HandlesMap_get_file; now rewrite Hh|reflexivity|].
    apply done_err, TE.
  - eapply done_act; [cbn [exec]; unfold HandlesMap_get_dir; now rewrite Hh|reflexivity|].
    apply done_err, TE.
Qed.

(** Objects that do not have the trait a request needs. *)
Theorem C54_missing_trait v w ev w' :
  (forall parent name node c,
     is_request RLookup (VLookup parent name) -> v_nodes v parent = Some (node, c) ->
     u_as_directory U node w = (w', false) -> served rq id v w ev (NOT_DIRECTORY os) [] v w') /\
  (forall n a b node c,
     is_request ROpendir (VOpendir n a b) -> v_nodes v n = Some (node, c) ->
     u_as_directory U node w = (w', false) -> served rq id v w ev (NOT_DIRECTORY os) [] v w') /\
  (forall n a b node c,
     is_request ROpen (VOpen n a b) -> v_nodes v n = Some (node, c) ->
     u_as_file U node w = (w', false) -> served rq id v w ev (NOT_SUPPORTED os) [] v w') /\
  (forall n node c,
     is_request RReadlink (VReadlink n) -> v_nodes v n = Some (node, c) ->
     u_as_symlink U node w = (w', false) -> served rq id v w ev (NOT_SUPPORTED os) [] v w') /\
  (forall n a b h c d f,
     is_request RRead (VRead n a b h c d) -> v_open_files v h = Some f ->
     u_as_read_handle U f w = (w', false) -> served rq id v w ev (NOT_SUPPORTED os) [] v w') /\
  (forall n a h b c d e f,
     is_request RWrite (VWrite n a h b c d e) -> v_open_files v h = Some f ->
     u_as_write_handle U f w = (w', false) -> served rq id v w ev (NOT_SUPPORTED os) [] v w') /\
  (forall n a b h c d,
     is_request RReaddir (VReaddir n a b h c) -> v_open_dirs v h = Some d ->
     u_as_readdir_handle U d w = (w', false) -> served rq id v w ev (NOT_SUPPORTED os) [] v w') /\
  (forall n a b h c d,
     is_request RReaddirplus (VReaddirplus n a b h c) -> v_open_dirs v h = Some d ->
     u_as_readdirplus_handle U d w = (w', false) -> served rq id v w ev (NOT_SUPPORTED os) [] v w').
Proof.
  repeat match goal with |- _ /\ _ => split end; intros;
    (eapply served_request; [eassumption|discriminate|]);
    cbn [vfs_body lookup_body open_body opendir_body read_body readdir_body readdirplus_body readlink_body write_body];
    first [eapply node_found; [eassumption|]|eapply file_found; [eassumption|]|eapply dir_found; [eassumption|]];
    (apply trait_no; [assumption|apply TE]).
Qed.

(** Errors of user code are replied as they are; handles stay open if
    releasing them fails. *)
Theorem C54_user_error v w ev w1 w2 e :
  (forall n a node c,
     is_request RGetattr (VGetattr n a) -> v_nodes v n = Some (node, c) ->
     u_getattr U node rq w = (w1, inr e) -> served rq id v w ev e [] v w1) /\
  (forall n a b node c,
     is_request RGetxattr (VGetxattr n a b) -> v_nodes v n = Some (node, c) ->
     u_getxattr U node rq w = (w1, inr e) -> served rq id v w ev e [] v w1) /\
  (forall n a node c,
     is_request RListxattr (VListxattr n a) -> v_nodes v n = Some (node, c) ->
     u_listxattr U node rq w = (w1, inr e) -> served rq id v w ev e [] v w1) /\
  (forall n node c,
     is_request RStatfs (VStatfs n) -> v_nodes v n = Some (node, c) ->
     u_statfs U node rq w = (w1, inr e) -> served rq id v w ev e [] v w1) /\
  (forall parent name node c,
     is_request RLookup (VLookup parent name) -> v_nodes v parent = Some (node, c) ->
     u_as_directory U node w = (w1, true) -> u_lookup U node rq w1 = (w2, inr e) ->
     served rq id v w ev e [] v w2) /\
  (forall n a b node c,
     is_request ROpendir (VOpendir n a b) -> v_nodes v n = Some (node, c) ->
     u_as_directory U node w = (w1, true) -> u_opendir U node rq w1 = (w2, inr e) ->
     served rq id v w ev e [] v w2) /\
  (forall n a b node c,
     is_request ROpen (VOpen n a b) -> v_nodes v n = Some (node, c) ->
     u_as_file U node w = (w1, true) -> u_open U node rq w1 = (w2, inr e) ->
     served rq id v w ev e [] v w2) /\
  (forall n node c,
     is_request RReadlink (VReadlink n) -> v_nodes v n = Some (node, c) ->
     u_as_symlink U node w = (w1, true) -> u_readlink U node rq w1 = (w2, inr e) ->
     served rq id v w ev e [] v w2) /\
  (forall n a b h c d f,
     is_request RRead (VRead n a b h c d) -> v_open_files v h = Some f ->
     u_as_read_handle U f w = (w1, true) -> u_read U f rq w1 = (w2, inr e) ->
     served rq id v w ev e [] v w2) /\
  (forall n a h b c d g f,
     is_request RWrite (VWrite n a h b c d g) -> v_open_files v h = Some f ->
     u_as_write_handle U f w = (w1, true) -> u_write U f rq w1 = (w2, inr e) ->
     served rq id v w ev e [] v w2) /\
  (forall n a b h c d,
     is_request RReaddir (VReaddir n a b h c) -> v_open_dirs v h = Some d ->
     u_as_readdir_handle U d w = (w1, true) -> u_readdir U d rq w1 = (w2, inr e) ->
     served rq id v w ev e [] v w2) /\
  (forall n a b h c d,
     is_request RReaddirplus (VReaddirplus n a b h c) -> v_open_dirs v h = Some d ->
     u_as_readdirplus_handle U d w = (w1, true) -> u_readdirplus U d rq w1 = (w2, inr e) ->
     served rq id v w ev e [] v w2) /\
  (forall n h a b f,
     is_request RRelease (VRelease n h a b) -> v_open_files v h = Some f ->
     u_release U f rq w = (w1, Some e) -> served rq id v w ev e [] v w1) /\
  (forall n h a b d,
     is_request RReleasedir (VReleasedir n h a b) -> v_open_dirs v h = Some d ->
     u_releasedir U d rq w = (w1, Some e) -> served rq id v w ev e [] v w1).
Proof.
  repeat match goal with |- _ /\ _ => split end; intros;
    (eapply served_request; [eassumption|discriminate|]);
    cbn [vfs_body getattr_body getxattr_body listxattr_body lookup_body open_body
      opendir_body read_body readdir_body readdirplus_body readlink_body release_body releasedir_body
      statfs_body write_body];
    try first [eapply node_found; [eassumption|]|eapply file_found; [eassumption|]|eapply dir_found; [eassumption|]];
    try (eapply trait_yes; [eassumption|]).
  all: try (apply call_err; [assumption|]).
  - pose proof (t_getattr U TU node rq w) as X. now rewrite H1 in X.
  - pose proof (t_getxattr U TU node rq w) as X. now rewrite H1 in X.
  - pose proof (t_listxattr U TU node rq w) as X. now rewrite H1 in X.
  - pose proof (t_statfs U TU node rq w) as X. now rewrite H1 in X.
  - pose proof (t_lookup U TU node rq w1) as X. now rewrite H2 in X.
  - pose proof (t_opendir U TU node rq w1) as X. now rewrite H2 in X.
  - pose proof (t_open U TU node rq w1) as X. now rewrite H2 in X.
  - pose proof (t_readlink U TU node rq w1) as X. now rewrite H2 in X.
  - pose proof (t_read U TU f rq w1) as X. now rewrite H2 in X.
  - pose proof (t_write U TU f rq w1) as X. now rewrite H2 in X.
  - pose proof (t_readdir U TU d rq w1) as X. now rewrite H2 in X.
  - pose proof (t_readdirplus U TU d rq w1) as X. now rewrite H2 in X.
  - eapply done_act; [cbn [exec]; unfold HandlesMap_get_file; rewrite H0, H1; reflexivity|reflexivity|].
    apply done_err. pose proof (t_release U TU f rq w) as X. now rewrite H1 in X.
  - eapply done_act; [cbn [exec]; unfold HandlesMap_get_dir; rewrite H0, H1; reflexivity|reflexivity|].
    apply done_err. pose proof (t_releasedir U TU d rq w) as X. now rewrite H1 in X.
Qed.

(** ** Successes *)

(** GETATTR tells the attributes and the timeout the user gave. *)
Theorem C54_getattr n a v w ev w' node c ino ops timeout :
  is_request RGetattr (VGetattr n a) -> v_nodes v n = Some (node, c) ->
  0 < ino < U64 -> Forall attr_op_ok ops -> duration_ok timeout ->
  u_getattr U node rq w =
    (w', inl {| gar_attr := attr_calls ops (NodeAttr_new ino); gar_cache_timeout := timeout |}) ->
  exists p, served rq id v w ev 0 p v w' /\
    (u64_at 0 p, u32_at 8 p) = capped timeout /\ attr_reads p 16 ino (9 <=? cf_minor cf) ops.
Proof.
  intros R Hn Hino Hops Hd Hu. pose proof (C37_vfs timeout Hd) as X.
  destruct (vfs_split_duration timeout (0, 0)) as [sec nsec] eqn:Sp. destruct X as (_ & X & L1 & L2).
  assert (P63 : 2 ^ 63 = 9223372036854775808) by reflexivity. rewrite P63 in L1.
  destruct (C22_attr_reply (cf_minor cf) id ino ops sec nsec Hid Hino Hops) as (p & Rp & A1 & A2 & A3);
    [unfold U64; lia|unfold U32; lia|].
  exists p. split; [|split; [now rewrite A1, A2|exact A3]].
  eapply served_request; [exact R|discriminate|]. cbn [vfs_body getattr_body].
  eapply node_found; [exact Hn|]. eapply call_ok; [exact Hu|]. cbn [gar_attr gar_cache_timeout].
  rewrite Sp. cbn [fst snd]. now apply done_reply.
Qed.

Lemma split_agrees d : duration_ok d -> vfs_split_duration d (0, 0) = split_duration d.
Proof.
  intros [H1 H2]. destruct d as [s n]. unfold vfs_split_duration, split_duration. cbn [fst snd] in *.
  destruct (N.eqb_spec s 0), (N.eqb_spec n 0); cbn [andb]; try reflexivity. subst. reflexivity.
Qed.

(** LOOKUP of a name the user finds: the entry; the node is registered (or
    one more lookup of it is counted) if the reply was sent. *)
Theorem C54_lookup_found parent name v w ev w1 w2 pnode c node ino aops gen entry_timeout attr_timeout :
  is_request RLookup (VLookup parent name) -> v_nodes v parent = Some (pnode, c) ->
  0 < ino < U64 -> Forall attr_op_ok aops -> gen < U64 ->
  duration_ok entry_timeout -> duration_ok attr_timeout ->
  u_as_directory U pnode w = (w1, true) ->
  u_lookup U pnode rq w1 =
    (w2, inl {| lr_node := Some (node, attr_calls aops (NodeAttr_new ino)); lr_generation := gen;
                lr_entry_cache_timeout := entry_timeout; lr_attr_cache_timeout := attr_timeout |}) ->
  (forall n k, v_nodes v ino = Some (n, k) -> k + 1 < U64) ->
  exists p v', served rq id v w ev 0 p v' w2 /\
    entry_reads p ino (9 <=? cf_minor cf) aops
      [SetGeneration gen; SetCacheTimeout entry_timeout; SetAttrTimeout attr_timeout] /\
    match ev with
    | SendOk =>
      v_nodes v' ino = Some (match v_nodes v ino with Some (n, k) => (n, k + 1) | None => (node, 1) end) /\
      (forall i, i <> ino -> v_nodes v' i = v_nodes v i) /\
      v_next_handle_id v' = v_next_handle_id v /\
      v_open_files v' = v_open_files v /\ v_open_dirs v' = v_open_dirs v
    | SendFails _ => v' = v
    end.
Proof.
  intros R Hn Hino Ha Hg De Da Ht Hu Hc.
  set (attr := attr_calls aops (NodeAttr_new ino)) in *.
  set (ops := [SetGeneration gen; SetCacheTimeout entry_timeout; SetAttrTimeout attr_timeout]).
  assert (Fi : fa_ino attr = ino).
  { unfold attr. clear -aops. unfold attr_calls. change ino with (fa_ino (NodeAttr_new ino)) at 2.
    generalize (NodeAttr_new ino). induction aops as [|o l IH]; intros f; [reflexivity|].
    cbn [fold_left]. rewrite IH. destruct o; reflexivity. }
  assert (Hops : Forall entry_op_ok ops) by (repeat constructor; assumption || apply De || apply Da).
  destruct (C22_entry_reply (cf_minor cf) id ino aops ops Hid Hino Ha Hops) as (p & Rp & Ep).
  fold attr in Rp.
  assert (Ee : entry_calls ops (Entry_new attr) =
    {| eo_nodeid := ino; eo_generation := gen;
       eo_entry_valid := fst (vfs_split_duration entry_timeout (0, 0));
       eo_attr_valid := fst (vfs_split_duration attr_timeout (0, 0));
       eo_entry_valid_nsec := snd (vfs_split_duration entry_timeout (0, 0));
       eo_attr_valid_nsec := snd (vfs_split_duration attr_timeout (0, 0)); eo_attr := attr |}).
  { rewrite !split_agrees by assumption. rewrite <- Fi. reflexivity. }
  destruct Rp as (b & m & C & Rd). rewrite Ee in C.
  set (nd := match v_nodes v ino with Some (n, k) => (n, k + 1) | None => (node, 1) end).
  assert (Add : NodeMap_add (cf_overflow_checks cf) ino node (v_nodes v) = Some (upd (v_nodes v) ino (Some nd))).
  { unfold NodeMap_add, nd. destruct (v_nodes v ino) as [[n k]|] eqn:V; [|reflexivity].
    unfold incr64. specialize (Hc n k eq_refl). now replace (k + 1 <? U64) with true by lia. }
  exists p, (match ev with SendOk => with_nodes v (upd (v_nodes v) ino (Some nd)) | SendFails _ => v end).
  split; [|split; [exact Ep|]].
  - eapply served_request; [exact R|discriminate|]. cbn [vfs_body lookup_body].
    eapply node_found; [exact Hn|]. eapply trait_yes; [exact Ht|]. eapply call_ok; [exact Hu|].
    unfold lookup_rest. cbn [lr_node lr_generation lr_entry_cache_timeout lr_attr_cache_timeout].
    unfold NodeAttr_node_id, NodeId_new_unchecked. rewrite Fi.
    replace (ino =? 0) with false by lia. cbn [attempt]. unfold reply_then. cbv zeta. fold id. rewrite C.
    destruct ev as [|e].
    + exists [EvSend b SendOk; EvNodeAdd ino node], b.
      split; [|split; [reflexivity|exists m; exact Rd]].
      eapply runs_act; [reflexivity|]. eapply runs_act; [cbn [exec]; rewrite Add; reflexivity|].
      apply runs_end. reflexivity.
    + exists [EvSend b (SendFails e)], b. split; [|split; [reflexivity|exists m; exact Rd]].
      eapply runs_act; [reflexivity|]. apply runs_end. reflexivity.
  - destruct ev; [|reflexivity]. cbn [with_nodes v_nodes v_next_handle_id v_open_files v_open_dirs].
    split; [unfold upd; now rewrite N.eqb_refl|]. split; [|auto].
    intros i Hi. unfold upd. now destruct (N.eqb_spec i ino).
Qed.

(** LOOKUP of a name the user does not find: node id 0 and how long the
    client may remember that. *)
Theorem C54_lookup_not_found parent name v w ev w1 w2 pnode c gen entry_timeout attr_timeout :
  is_request RLookup (VLookup parent name) -> v_nodes v parent = Some (pnode, c) ->
  duration_ok entry_timeout ->
  u_as_directory U pnode w = (w1, true) ->
  u_lookup U pnode rq w1 =
    (w2, inl {| lr_node := None; lr_generation := gen;
                lr_entry_cache_timeout := entry_timeout; lr_attr_cache_timeout := attr_timeout |}) ->
  exists p, served rq id v w ev 0 p v w2 /\
    u64_at 0 p = 0 /\ (u64_at 16 p, u32_at 32 p) = capped entry_timeout /\
    nlen p = (if cf_minor cf <? 9 then 120 else 128).
Proof.
  intros R Hn De Ht Hu. pose proof (C37_vfs entry_timeout De) as X.
  destruct (vfs_split_duration entry_timeout (0, 0)) as [sec nsec] eqn:Sp. destruct X as (_ & X & L1 & L2).
  assert (P63 : 2 ^ 63 = 9223372036854775808) by reflexivity. rewrite P63 in L1.
  set (e := {| eo_nodeid := 0; eo_generation := 0; eo_entry_valid := sec; eo_attr_valid := 0;
               eo_entry_valid_nsec := nsec; eo_attr_valid_nsec := 0; eo_attr := NodeAttr_new 0 |}).
  exists (payload (cf_minor cf) (REntryOut e)).
  assert (Ln : nlen (payload (cf_minor cf) (REntryOut e)) = if cf_minor cf <? 9 then 120 else 128)
    by (now erewrite nlen_payload by reflexivity).
  split; [|split; [|split]]; [| | |exact Ln].
  - eapply served_request; [exact R|discriminate|]. cbn [vfs_body lookup_body].
    eapply node_found; [exact Hn|]. eapply trait_yes; [exact Ht|]. eapply call_ok; [exact Hu|].
    unfold lookup_rest. cbn [lr_node lr_generation lr_entry_cache_timeout lr_attr_cache_timeout].
    rewrite Sp. cbn [fst snd]. fold e. apply done_reply. apply ok_replies; [apply Hid|].
    rewrite Ln. unfold u32_max. destruct (cf_minor cf <? 9); lia.
  - cbn [payload]. unfold u64_at, fuse_entry_out_bytes.
    rewrite fld_take by (destruct (cf_minor cf <? 9); cbn; lia).
    rewrite <- app_nil_r at 1. now apply fld_wire.
  - rewrite <- X. cbn [payload]. unfold u64_at, u32_at, fuse_entry_out_bytes.
    rewrite !fld_take by (destruct (cf_minor cf <? 9); cbn; lia). f_equal.
    + rewrite <- app_nil_r at 1. apply fld_wire; [reflexivity|]. cbn [e eo_entry_valid]. unfold U64. lia.
    + rewrite <- app_nil_r at 1. apply fld_wire; [reflexivity|]. cbn [e eo_entry_valid_nsec]. unfold U32. lia.
Qed.

(** OPEN and OPENDIR: the reply names a handle under which what the user
    opened is found from now on, and its flags. *)
Theorem C54_open n a b v w ev w1 w2 node c r :
  is_request ROpen (VOpen n a b) -> v_nodes v n = Some (node, c) ->
  u_as_file U node w = (w1, true) -> u_open U node rq w1 = (w2, inl r) ->
  or_open_flags r < U32 -> v_next_handle_id v + 1 < U64 ->
  exists p v', let h := u64_at 0 p in
    served rq id v w ev 0 p v' w2 /\ u32_at 8 p = or_open_flags r /\
    h = v_next_handle_id v /\ v_next_handle_id v' = h + 1 /\
    v_open_files v' h = Some (or_handle r) /\
    (forall k, k <> h -> v_open_files v' k = v_open_files v k) /\
    v_open_dirs v' = v_open_dirs v /\ v_nodes v' = v_nodes v.
Proof.
  intros R Hn Ht Hu Hf Hh. set (h := v_next_handle_id v) in *.
  destruct (C22_small_replies (cf_minor cf) id Hid) as (Ro & _).
  destruct (Ro h (or_open_flags r)) as (p & Rp & P1 & P2 & _); [lia|exact Hf|].
  exists p, {| v_nodes := v_nodes v; v_next_handle_id := h + 1; v_open_dirs := v_open_dirs v;
               v_open_files := upd (v_open_files v) h (Some (or_handle r)) |}.
  cbv zeta. rewrite P1. cbn [v_nodes v_next_handle_id v_open_dirs v_open_files].
  split.
  - eapply served_request; [exact R|discriminate|]. cbn [vfs_body open_body].
    eapply node_found; [exact Hn|]. eapply trait_yes; [exact Ht|]. eapply call_ok; [exact Hu|].
    eapply done_act; [|shelve|apply done_reply; exact Rp].
    cbn [exec]. unfold HandlesMap_open_file, incr64. fold h.
    replace (h + 1 <? U64) with true by lia. reflexivity.
    Unshelve. reflexivity.
  - repeat match goal with |- _ /\ _ => split end; auto.
    + unfold upd. now rewrite N.eqb_refl.
    + intros k Hk. unfold upd. now destruct (N.eqb_spec k h).
Qed.
Theorem C54_opendir n a b v w ev w1 w2 node c r :
  is_request ROpendir (VOpendir n a b) -> v_nodes v n = Some (node, c) ->
  u_as_directory U node w = (w1, true) -> u_opendir U node rq w1 = (w2, inl r) ->
  or_open_flags r < U32 -> v_next_handle_id v + 1 < U64 ->
  exists p v', let h := u64_at 0 p in
    served rq id v w ev 0 p v' w2 /\ u32_at 8 p = or_open_flags r /\
    h = v_next_handle_id v /\ v_next_handle_id v' = h + 1 /\
    v_open_dirs v' h = Some (or_handle r) /\
    (forall k, k <> h -> v_open_dirs v' k = v_open_dirs v k) /\
    v_open_files v' = v_open_files v /\ v_nodes v' = v_nodes v.
Proof.
  intros R Hn Ht Hu Hf Hh. set (h := v_next_handle_id v) in *.
  destruct (C22_small_replies (cf_minor cf) id Hid) as (Ro & _).
  destruct (Ro h (or_open_flags r)) as (p & Rp & P1 & P2 & _); [lia|exact Hf|].
  exists p, {| v_nodes := v_nodes v; v_next_handle_id := h + 1; v_open_files := v_open_files v;
               v_open_dirs := upd (v_open_dirs v) h (Some (or_handle r)) |}.
  cbv zeta. rewrite P1. cbn [v_nodes v_next_handle_id v_open_dirs v_open_files].
  split.
  - eapply served_request; [exact R|discriminate|]. cbn [vfs_body opendir_body].
    eapply node_found; [exact Hn|]. eapply trait_yes; [exact Ht|]. eapply call_ok; [exact Hu|].
    eapply done_act; [|shelve|apply done_reply; exact Rp].
    cbn [exec]. unfold HandlesMap_open_dir, incr64. fold h.
    replace (h + 1 <? U64) with true by lia. reflexivity.
    Unshelve. reflexivity.
  - repeat match goal with |- _ /\ _ => split end; auto.
    + unfold upd. now rewrite N.eqb_refl.
    + intros k Hk. unfold upd. now destruct (N.eqb_spec k h).
Qed.

(** Results as the constructors make them: nothing may be cached, the
    generation is 0. *)
Theorem C54_new_results v w ev n node c :
  v_nodes v n = Some (node, c) ->
  (forall a w' ino ops, is_request RGetattr (VGetattr n a) -> 0 < ino < U64 -> Forall attr_op_ok ops ->
     u_getattr U node rq w = (w', inl (GetattrResult_new (attr_calls ops (NodeAttr_new ino)))) ->
     exists p, served rq id v w ev 0 p v w' /\ u64_at 0 p = 0 /\ u32_at 8 p = 0 /\
       attr_reads p 16 ino (9 <=? cf_minor cf) ops) /\
  (forall name w1 w2 child ino ops, is_request RLookup (VLookup n name) ->
     0 < ino < U64 -> Forall attr_op_ok ops ->
     u_as_directory U node w = (w1, true) ->
     u_lookup U node rq w1 = (w2, inl (LookupResult_found child (attr_calls ops (NodeAttr_new ino)))) ->
     (forall m k, v_nodes v ino = Some (m, k) -> k + 1 < U64) ->
     exists p v', served rq id v w ev 0 p v' w2 /\ entry_reads p ino (9 <=? cf_minor cf) ops []) /\
  (forall name w1 w2, is_request RLookup (VLookup n name) ->
     u_as_directory U node w = (w1, true) ->
     u_lookup U node rq w1 = (w2, inl LookupResult_not_found) ->
     exists p, served rq id v w ev 0 p v w2 /\
       u64_at 0 p = 0 /\ u64_at 16 p = 0 /\ u32_at 32 p = 0) /\
  (forall a b w1 w2 h, is_request ROpen (VOpen n a b) -> u_as_file U node w = (w1, true) ->
     u_open U node rq w1 = (w2, inl (OpenedResult_new h)) -> v_next_handle_id v + 1 < U64 ->
     exists p v', served rq id v w ev 0 p v' w2 /\ u32_at 8 p = 0 /\
       v_open_files v' (u64_at 0 p) = Some h) /\
  (forall a b w1 w2 h, is_request ROpendir (VOpendir n a b) -> u_as_directory U node w = (w1, true) ->
     u_opendir U node rq w1 = (w2, inl (OpenedResult_new h)) -> v_next_handle_id v + 1 < U64 ->
     exists p v', served rq id v w ev 0 p v' w2 /\ u32_at 8 p = 0 /\
       v_open_dirs v' (u64_at 0 p) = Some h).
Proof.
  intros Hn. assert (D0 : duration_ok (0, 0)) by (split; reflexivity).
  split; [|split; [|split; [|split]]].
  - intros a w' ino ops R Hi Ho Hu.
    destruct (C54_getattr n a v w ev w' node c ino ops (0, 0) R Hn Hi Ho D0 Hu) as (p & S & T & A).
    exists p. cbn in T. injection T as T1 T2. auto.
  - intros name w1 w2 child ino ops R Hi Ho Hd Hu Hk.
    destruct (C54_lookup_found n name v w ev w1 w2 node c child ino ops 0 (0, 0) (0, 0)
                R Hn Hi Ho eq_refl D0 D0 Hd Hu Hk) as (p & v' & S & A & _).
    exists p, v'. split; [exact S|exact A].
  - intros name w1 w2 R Hd Hu.
    destruct (C54_lookup_not_found n name v w ev w1 w2 node c 0 (0, 0) (0, 0) R Hn D0 Hd Hu)
      as (p & S & A & T & _).
    exists p. cbn in T. injection T as T1 T2. auto.
  - intros a b w1 w2 h R Ht Hu Hh.
    destruct (C54_open n a b v w ev w1 w2 node c _ R Hn Ht Hu eq_refl Hh)
      as (p & v' & S & A & _ & _ & B & _).
    exists p, v'. auto.
  - intros a b w1 w2 h R Ht Hu Hh.
    destruct (C54_opendir n a b v w ev w1 w2 node c _ R Hn Ht Hu eq_refl Hh)
      as (p & v' & S & A & _ & _ & B & _).
    exists p, v'. auto.
Qed.

(** READ, READDIR, READDIRPLUS, READLINK, GETXATTR, LISTXATTR: the bytes the
    user returned and nothing else. *)
Theorem C54_data v w ev w1 w2 data :
  16 + nlen data <= u32_max ->
  (forall n a b node c,
     is_request RGetxattr (VGetxattr n a b) -> v_nodes v n = Some (node, c) ->
     u_getxattr U node rq w = (w1, inl data) -> served rq id v w ev 0 data v w1) /\
  (forall n a node c,
     is_request RListxattr (VListxattr n a) -> v_nodes v n = Some (node, c) ->
     u_listxattr U node rq w = (w1, inl data) -> served rq id v w ev 0 data v w1) /\
  (forall n node c,
     is_request RReadlink (VReadlink n) -> v_nodes v n = Some (node, c) ->
     u_as_symlink U node w = (w1, true) -> u_readlink U node rq w1 = (w2, inl data) ->
     served rq id v w ev 0 data v w2) /\
  (forall n a b h c d f,
     is_request RRead (VRead n a b h c d) -> v_open_files v h = Some f ->
     u_as_read_handle U f w = (w1, true) -> u_read U f rq w1 = (w2, inl data) ->
     served rq id v w ev 0 data v w2) /\
  (forall n a b h c d,
     is_request RReaddir (VReaddir n a b h c) -> v_open_dirs v h = Some d ->
     u_as_readdir_handle U d w = (w1, true) -> u_readdir U d rq w1 = (w2, inl data) ->
     served rq id v w ev 0 data v w2) /\
  (forall n a b h c d,
     is_request RReaddirplus (VReaddirplus n a b h c) -> v_open_dirs v h = Some d ->
     u_as_readdirplus_handle U d w = (w1, true) -> u_readdirplus U d rq w1 = (w2, inl data) ->
     served rq id v w ev 0 data v w2).
Proof.
  intros L. repeat match goal with |- _ /\ _ => split end; intros;
    (eapply served_request; [eassumption|discriminate|]);
    cbn [vfs_body getxattr_body listxattr_body read_body readdir_body readdirplus_body readlink_body];
    first [eapply node_found; [eassumption|]|eapply file_found; [eassumption|]|eapply dir_found; [eassumption|]];
    try (eapply trait_yes; [eassumption|]); (eapply call_ok; [eassumption|]); now apply done_buf.
Qed.

(** A size the user returned is replied as a struct [fuse_getxattr_out]. *)
Theorem C54_size v w ev w1 node c n size :
  size < U32 -> v_nodes v n = Some (node, c) ->
  (forall a b, is_request RGetxattr (VGetxattr n a b) ->
     u_getxattr U node rq w = (w1, inl (XattrResult_size size)) ->
     exists p, served rq id v w ev 0 p v w1 /\ nlen p = 8 /\ u32_at 0 p = size /\ u32_at 4 p = 0) /\
  (forall a, is_request RListxattr (VListxattr n a) ->
     u_listxattr U node rq w = (w1, inl (XattrResult_size size)) ->
     exists p, served rq id v w ev 0 p v w1 /\ nlen p = 8 /\ u32_at 0 p = size /\ u32_at 4 p = 0).
Proof.
  intros Hs Hn.
  assert (L : nlen (XattrResult_size size) = 8) by apply nlen_wire.
  assert (F : u32_at 0 (XattrResult_size size) = size /\ u32_at 4 (XattrResult_size size) = 0).
  { unfold u32_at, XattrResult_size. rewrite <- (app_nil_r (wire _)).
    split; apply fld_wire; first [reflexivity|assumption]. }
  destruct (C54_data v w ev w1 w1 (XattrResult_size size)) as (D1 & D2 & _);
    [rewrite L; unfold u32_max; lia|].
  split; intros; exists (XattrResult_size size); (split; [eauto|auto]).
Qed.

(** WRITE: the number of bytes the user says it wrote. *)
Theorem C54_write n a h b c d g f v w ev w1 w2 size :
  is_request RWrite (VWrite n a h b c d g) -> v_open_files v h = Some f ->
  u_as_write_handle U f w = (w1, true) -> u_write U f rq w1 = (w2, inl size) -> size < U32 ->
  exists p, served rq id v w ev 0 p v w2 /\ nlen p = 8 /\ u32_at 0 p = size.
Proof.
  intros R Hf Ht Hu L. exists (payload (cf_minor cf) (RWriteOut size)).
  assert (Ln : nlen (payload (cf_minor cf) (RWriteOut size)) = 8) by (now erewrite nlen_payload by reflexivity).
  split; [|split; [exact Ln|]].
  - eapply served_request; [exact R|discriminate|]. cbn [vfs_body write_body].
    eapply file_found; [exact Hf|]. eapply trait_yes; [exact Ht|]. eapply call_ok; [exact Hu|].
    apply done_reply. apply ok_replies; [apply Hid|]. rewrite Ln. unfold u32_max. lia.
  - cbn [payload]. unfold u32_at. rewrite <- app_nil_r at 1. apply fld_wire; [reflexivity|exact L].
Qed.

(** STATFS: the statistics the user set. *)
Theorem C54_statfs n v w ev w' node c ops :
  is_request RStatfs (VStatfs n) -> v_nodes v n = Some (node, c) -> Forall statfs_op_ok ops ->
  u_statfs U node rq w = (w', inl (fold_left (fun r o => statfs_call o r) ops Statfs_new)) ->
  exists p, served rq id v w ev 0 p v w' /\ statfs_reads p (4 <=? cf_minor cf) ops.
Proof.
  intros R Hn Ho Hu. destruct (C22_statfs_reply (cf_minor cf) id ops Hid Ho) as (p & Rp & S).
  exists p. split; [|exact S]. eapply served_request; [exact R|discriminate|]. cbn [vfs_body statfs_body].
  eapply node_found; [exact Hn|]. eapply call_ok; [exact Hu|]. now apply done_reply.
Qed.

(** RELEASE and RELEASEDIR: the user's [release] ran, the handle is gone and
    the client gets an empty reply. *)
Theorem C54_release n h a b f v w ev w' :
  is_request RRelease (VRelease n h a b) -> v_open_files v h = Some f ->
  u_release U f rq w = (w', None) ->
  exists v', served rq id v w ev 0 [] v' w' /\ v_open_files v' h = None /\
    (forall k, k <> h -> v_open_files v' k = v_open_files v k) /\
    v_open_dirs v' = v_open_dirs v /\ v_nodes v' = v_nodes v /\ v_next_handle_id v' = v_next_handle_id v.
Proof.
  intros R Hf Hu. exists (HandlesMap_close_file n h v). split.
  - eapply served_request; [exact R|discriminate|]. cbn [vfs_body release_body].
    eapply done_act; [cbn [exec]; unfold HandlesMap_get_file; rewrite Hf, Hu; reflexivity|reflexivity|].
    apply done_empty.
  - cbn [HandlesMap_close_file v_open_files v_open_dirs v_nodes v_next_handle_id].
    repeat match goal with |- _ /\ _ => split end; auto.
    + unfold upd. now rewrite N.eqb_refl.
    + intros k Hk. unfold upd. now destruct (N.eqb_spec k h).
Qed.
Theorem C54_releasedir n h a b d v w ev w' :
  is_request RReleasedir (VReleasedir n h a b) -> v_open_dirs v h = Some d ->
  u_releasedir U d rq w = (w', None) ->
  exists v', served rq id v w ev 0 [] v' w' /\ v_open_dirs v' h = None /\
    (forall k, k <> h -> v_open_dirs v' k = v_open_dirs v k) /\
    v_open_files v' = v_open_files v /\ v_nodes v' = v_nodes v /\ v_next_handle_id v' = v_next_handle_id v.
Proof.
  intros R Hf Hu. exists (HandlesMap_close_dir n h v). split.
  - eapply served_request; [exact R|discriminate|]. cbn [vfs_body releasedir_body].
    eapply done_act; [cbn [exec]; unfold HandlesMap_get_dir; rewrite Hf, Hu; reflexivity|reflexivity|].
    apply done_empty.
  - cbn [HandlesMap_close_dir v_open_files v_open_dirs v_nodes v_next_handle_id].
    repeat match goal with |- _ /\ _ => split end; auto.
    + unfold upd. now rewrite N.eqb_refl.
    + intros k Hk. unfold upd. now destruct (N.eqb_spec k h).
Qed.

(** ** Provided methods *)

(** A node that overrides none of the provided methods. *)
Definition plain_node (node : Node) : Prop :=
  (forall w, u_as_directory U node w = default_as w) /\ (forall w, u_as_file U node w = default_as w) /\
  (forall w, u_as_symlink U node w = default_as w) /\
  (forall rq w, u_getxattr U node rq w = default_getxattr os w) /\
  (forall rq w, u_listxattr U node rq w = default_listxattr w) /\
  (forall rq w, u_statfs U node rq w = default_statfs w).

(** Such a node is no directory, file or link, has no attributes and an all
    zero file system. *)
Theorem C54_defaults n node c v w ev :
  v_nodes v n = Some (node, c) -> plain_node node ->
  (forall name, is_request RLookup (VLookup n name) -> served rq id v w ev (NOT_DIRECTORY os) [] v w) /\
  (forall a b, is_request ROpendir (VOpendir n a b) -> served rq id v w ev (NOT_DIRECTORY os) [] v w) /\
  (forall a b, is_request ROpen (VOpen n a b) -> served rq id v w ev (NOT_SUPPORTED os) [] v w) /\
  (is_request RReadlink (VReadlink n) -> served rq id v w ev (NOT_SUPPORTED os) [] v w) /\
  (forall size name, is_request RGetxattr (VGetxattr n size name) ->
     served rq id v w ev (XATTR_NOT_FOUND os) [] v w) /\
  (forall size, is_request RListxattr (VListxattr n size) -> served rq id v w ev 0 [] v w) /\
  (is_request RStatfs (VStatfs n) ->
     exists p, served rq id v w ev 0 p v w /\ statfs_reads p (4 <=? cf_minor cf) []).
Proof.
  intros Hn (H1 & H2 & H3 & H4 & H5 & H6).
  destruct (C54_missing_trait v w ev w) as (M1 & M2 & M3 & M4 & _).
  destruct (C54_user_error v w ev w w (XATTR_NOT_FOUND os)) as (_ & U2 & _).
  destruct (C54_data v w ev w w []) as (_ & D2 & _); [cbn; unfold u32_max; lia|].
  repeat match goal with |- _ /\ _ => split end; intros; eauto.
  apply (C54_statfs n v w ev w node c []); auto. now rewrite H6.
Qed.
End Request.
End Proofs.

Lemma freebsd_typed : typed_errors freebsd_errors.
Proof. split; cbn; unfold is_i32; lia. Qed.

(** The errors of Linux and FreeBSD as numbers: an unknown node is answered
    EINVAL (22), a node that is no directory ENOTDIR (20), one that is no file
    EOPNOTSUPP (95 or 45), one without extended attributes ENODATA (61) or
    ENOATTR (87). *)
Theorem C54_errnos {E : Endian} {W Node FH DH} (U : user W Node FH DH) (os : OsErrors) cf buf rq
    (linux : bool) n node c v w ev :
  typed_user U -> os = (if linux then linux_errors else freebsd_errors) ->
  Request_new buf = Ret rq -> plain_node U os node -> v_nodes v n = Some (node, c) ->
  let id := u64_at 8 buf in
  (forall t view m, is_request cf buf rq t view -> node_of view = Some m -> v_nodes v m = None ->
     served U os cf rq id v w ev (-22) [] v w) /\
  (forall name, is_request cf buf rq RLookup (VLookup n name) ->
     served U os cf rq id v w ev (-20) [] v w) /\
  (forall a b, is_request cf buf rq ROpen (VOpen n a b) ->
     served U os cf rq id v w ev (if linux then -95 else -45) [] v w) /\
  (forall size name, is_request cf buf rq RGetxattr (VGetxattr n size name) ->
     served U os cf rq id v w ev (if linux then -61 else -87) [] v w).
Proof.
  intros TU Ho A Hp Hn id.
  assert (TE : typed_errors os) by (subst os; destruct linux; [apply linux_typed|apply freebsd_typed]).
  destruct (C54_defaults U os cf TU TE _ _ A n node c v w ev Hn Hp) as (D1 & _ & D3 & _ & D5 & _).
  pose proof (C54_unknown_node U os cf TE _ _ A) as Un.
  assert (X : INVALID_ARGUMENT os = (-22)%Z /\ NOT_DIRECTORY os = (-20)%Z /\
    NOT_SUPPORTED os = (if linux then -95 else -45)%Z /\
    XATTR_NOT_FOUND os = (if linux then -61 else -87)%Z) by (subst os; now destruct linux).
  destruct X as (X1 & X2 & X3 & X4).
  split; [|split; [|split]].
  - intros t view m R Hm Hv. rewrite <- X1. exact (Un t view m v w ev R Hm Hv).
  - intros name R. rewrite <- X2. exact (D1 name R).
  - intros a b R. rewrite <- X3. exact (D3 a b R).
  - intros size name R. rewrite <- X4. exact (D5 size name R).
Qed.

(** * Examples (little-endian) *)

Local Instance LE : Endian := false.

(** A state with the directory 1, the file 5, the link 9, the open file 100
    (handle 1) and the open directory 200 (handle 2). *)
Definition v0 : vfs N N N := {|
  v_nodes n := if n =? 1 then Some (1, 0) else if n =? 5 then Some (5, 1)
               else if n =? 9 then Some (9, 1) else None;
  v_next_handle_id := 3;
  v_open_dirs h := if h =? 2 then Some 200 else None;
  v_open_files h := if h =? 1 then Some 100 else None |}.
Definition requested (op : client_op) (node : N) (t : rtype) (v : view) : Prop :=
  let rq := demo_rq 7 node op in
  Request_new (rq_mem rq) = Ret rq /\ is_request demo_cf (rq_mem rq) rq t v.
Ltac requested :=
  repeat match goal with |- _ /\ _ => split | |- requested _ _ _ _ => split | |- is_request _ _ _ _ _ => split
    | |- duration_ok _ => split end;
  vm_compute; reflexivity.

(** Asking for the attributes of a node nobody looked up: EINVAL. *)
Example C54_deterministic_example :
  let rq := demo_rq 7 6 (OGetattr 0 0 0) in
  exists p l, dispatch demo linux_errors demo_cf rq = Some p /\
    runs demo demo_cf p v0 0 SendOk l (PDone (outcome SendOk)) v0 0 /\ nlen (sent l) = 1.
Proof.
  assert (R : requested (OGetattr 0 0 0) 6 RGetattr (VGetattr 6 None)) by requested.
  destruct R as [R1 R2].
  destruct (C54_unknown_node demo linux_errors demo_cf linux_typed _ _ R1 _ _ 6 v0 0 SendOk R2 eq_refl eq_refl)
    as (p & l & b & D & R & X & _).
  exists p, l. rewrite X. auto.
Qed.
Example C54_unknown_node_example :
  requested (OGetattr 0 0 0) 6 RGetattr (VGetattr 6 None) /\ v_nodes v0 6 = None.
Proof. requested. Qed.
Example C54_unknown_handle_example :
  requested (ORead 2 0 10 0 0 0 0) 5 RRead (VRead 5 10 0 2 None 0) /\ v_open_files v0 2 = None /\
  requested (OReaddir 1 0 10 0 0 0 0) 1 RReaddir (VReaddir 1 10 None 1 0) /\ v_open_dirs v0 1 = None.
Proof. requested. Qed.
Example C54_missing_trait_example :
  requested (OLookup ab) 5 RLookup (VLookup 5 ab) /\ u_as_directory demo 5 0 = (0, false) /\
  requested (OReaddirplus 2 0 10 0 0 0 0) 1 RReaddirplus (VReaddirplus 1 10 None 2 0) /\
  v_open_dirs v0 2 = Some 200 /\ u_as_readdirplus_handle demo 200 0 = (0, false).
Proof. requested. Qed.
Example C54_user_error_example :
  requested (OGetxattr 16 0 ab) 5 RGetxattr (VGetxattr 5 (Some 16) ab) /\
  u_getxattr demo 5 (demo_rq 7 5 (OGetxattr 16 0 ab)) 0 = (0, inr (-61)%Z).
Proof. requested. Qed.
Example C54_getattr_example :
  requested (OGetattr 0 0 0) 5 RGetattr (VGetattr 5 None) /\ v_nodes v0 5 = Some (5, 1) /\
  u_getattr demo 5 (demo_rq 7 5 (OGetattr 0 0 0)) 0 =
    (0, inl {| gar_attr := attr_calls [SetMode 33188] (NodeAttr_new 5); gar_cache_timeout := (60, 5) |}).
Proof. requested. Qed.
Example C54_lookup_found_example :
  requested (OLookup ab) 1 RLookup (VLookup 1 ab) /\ u_as_directory demo 1 0 = (0, true) /\
  u_lookup demo 1 (demo_rq 7 1 (OLookup ab)) 0 =
    (0, inl {| lr_node := Some (5, attr_calls [SetMode 33188] (NodeAttr_new 5)); lr_generation := 0;
               lr_entry_cache_timeout := (0, 0); lr_attr_cache_timeout := (0, 0) |}).
Proof. requested. Qed.
(** A directory in which nothing is found, to be remembered for 1.5 s. *)
Definition empty_dir : user N N N N := {|
  u_as_directory := u_as_directory demo; u_as_file := u_as_file demo; u_as_symlink := u_as_symlink demo;
  u_getattr := u_getattr demo; u_getxattr := u_getxattr demo; u_listxattr := u_listxattr demo;
  u_statfs n rq w := (w, inl (Statfs_set_block_count 77 Statfs_new));
  u_lookup n rq w := (w, inl {| lr_node := None; lr_generation := 0;
                                lr_entry_cache_timeout := (1, 500000000);
                                lr_attr_cache_timeout := (0, 0) |});
  u_opendir := u_opendir demo; u_open := u_open demo; u_readlink := u_readlink demo;
  u_as_readdir_handle := u_as_readdir_handle demo; u_as_readdirplus_handle := u_as_readdirplus_handle demo;
  u_readdir := u_readdir demo; u_readdirplus := u_readdirplus demo; u_releasedir := u_releasedir demo;
  u_as_read_handle := u_as_read_handle demo; u_as_write_handle := u_as_write_handle demo;
  u_read := u_read demo; u_write := u_write demo; u_release := u_release demo |}.
Example C54_lookup_not_found_example :
  requested (OLookup ab) 1 RLookup (VLookup 1 ab) /\ u_as_directory empty_dir 1 0 = (0, true) /\
  u_lookup empty_dir 1 (demo_rq 7 1 (OLookup ab)) 0 =
    (0, inl {| lr_node := None; lr_generation := 0; lr_entry_cache_timeout := (1, 500000000);
               lr_attr_cache_timeout := (0, 0) |}) /\ duration_ok (1, 500000000).
Proof. requested. Qed.
Example C54_open_example :
  requested (OOpen 2 0) 5 ROpen (VOpen 5 0 2) /\ u_as_file demo 5 0 = (0, true) /\
  u_open demo 5 (demo_rq 7 5 (OOpen 2 0)) 0 = (1, inl {| or_handle := 100; or_open_flags := 2 |}).
Proof. requested. Qed.
Example C54_opendir_example :
  requested (OOpendir 2 0) 1 ROpendir (VOpendir 1 0 2) /\ u_as_directory demo 1 0 = (0, true) /\
  u_opendir demo 1 (demo_rq 7 1 (OOpendir 2 0)) 0 = (1, inl {| or_handle := 200; or_open_flags := 0 |}).
Proof. requested. Qed.
Example C54_new_results_example :
  v_nodes v0 1 = Some (1, 0) /\
  requested (OLookup ab) 1 RLookup (VLookup 1 ab) /\ u_as_directory demo 1 0 = (0, true) /\
  u_lookup demo 1 (demo_rq 7 1 (OLookup ab)) 0 = (0, inl (LookupResult_found 5 (demo_attr 5))) /\
  requested (OOpendir 2 0) 1 ROpendir (VOpendir 1 0 2) /\
  u_opendir demo 1 (demo_rq 7 1 (OOpendir 2 0)) 0 = (1, inl (OpenedResult_new 200)).
Proof. split; [reflexivity|]. split; [requested|]. split; [reflexivity|]. split; [reflexivity|]. requested. Qed.
Example C54_data_example :
  requested (ORead 1 0 10 0 0 0 0) 5 RRead (VRead 5 10 0 1 None 0) /\ v_open_files v0 1 = Some 100 /\
  u_read demo 100 (demo_rq 7 5 (ORead 1 0 10 0 0 0 0)) 0 = (0, inl [n2b 104; n2b 105]).
Proof. requested. Qed.
Example C54_size_example :
  requested (OGetxattr 0 0 ab) 5 RGetxattr (VGetxattr 5 None ab) /\ v_nodes v0 5 = Some (5, 1) /\
  XattrResult_size 300 = map n2b [44; 1; 0; 0; 0; 0; 0; 0].
Proof. requested. Qed.
Example C54_write_example :
  requested (OWrite 1 0 0 0 0 0 ab) 5 RWrite (VWrite 5 0 1 ab 0 None 0) /\
  u_write demo 100 (demo_rq 7 5 (OWrite 1 0 0 0 0 0 ab)) 0 = (0, inl 2).
Proof. requested. Qed.
Example C54_statfs_example :
  requested OStatfs 5 RStatfs (VStatfs 5) /\
  u_statfs empty_dir 5 (demo_rq 7 5 OStatfs) 0 =
    (0, inl (fold_left (fun r o => statfs_call o r) [SetBlocks 77] Statfs_new)).
Proof. requested. Qed.
Example C54_release_example :
  requested (ORelease 1 0 0 0) 5 RRelease (VRelease 5 1 None 0) /\ v_open_files v0 1 = Some 100 /\
  u_release demo 100 (demo_rq 7 5 (ORelease 1 0 0 0)) 0 = (0, None).
Proof. requested. Qed.
Example C54_releasedir_example :
  requested (OReleasedir 2 0 0 0) 1 RReleasedir (VReleasedir 1 2 None 0) /\ v_open_dirs v0 2 = Some 200 /\
  u_releasedir demo 200 (demo_rq 7 1 (OReleasedir 2 0 0 0)) 0 = (0, None).
Proof. requested. Qed.
(** Node 7 of [demo] is no directory, file or link. *)
Example C54_defaults_example :
  requested (OListxattr 16 0) 7 RListxattr (VListxattr 7 (Some 16)) /\
  plain_node demo linux_errors 7.
Proof. split; [requested|]. repeat split; intros; reflexivity. Qed.

(** The node 9 of FreeBSD without attributes. *)
Definition bare : user N N N N := {|
  u_as_directory n := default_as; u_as_file n := default_as; u_as_symlink n := default_as;
  u_getattr := u_getattr demo; u_getxattr n rq := default_getxattr freebsd_errors;
  u_listxattr n rq := default_listxattr; u_statfs n rq := default_statfs;
  u_lookup := u_lookup demo;
  u_opendir := u_opendir demo; u_open := u_open demo; u_readlink := u_readlink demo;
  u_as_readdir_handle := u_as_readdir_handle demo; u_as_readdirplus_handle := u_as_readdirplus_handle demo;
  u_readdir := u_readdir demo; u_readdirplus := u_readdirplus demo; u_releasedir := u_releasedir demo;
  u_as_read_handle := u_as_read_handle demo; u_as_write_handle := u_as_write_handle demo;
  u_read := u_read demo; u_write := u_write demo; u_release := u_release demo |}.
Example C54_errnos_example :
  plain_node bare freebsd_errors 9 /\ requested (OOpen 2 0) 9 ROpen (VOpen 9 0 2) /\
  v_nodes v0 9 = Some (9, 1).
Proof. split; [repeat split; intros; reflexivity|requested]. Qed.

(** A client asking how long the list of attribute names is (LISTXATTR with
    size 0) expects a struct [fuse_getxattr_out] of eight bytes and gets an
    empty reply from a node that does not override [listxattr]. *)
Theorem C54_default_listxattr_refuted :
  exists rq, requested (OListxattr 0 0) 7 RListxattr (VListxattr 7 None) /\
  rq = demo_rq 7 7 (OListxattr 0 0) /\ plain_node demo linux_errors 7 /\
  let v := with_nodes v0 (upd (v_nodes v0) 7 (Some (7, 1))) in
  served demo linux_errors demo_cf rq 7 v 0 SendOk 0 [] v 0.
Proof.
  eexists. split; [requested|]. split; [reflexivity|]. split; [repeat split; intros; reflexivity|].
  assert (R : requested (OListxattr 0 0) 7 RListxattr (VListxattr 7 None)) by requested.
  destruct R as [R1 R2].
  destruct (C54_defaults demo linux_errors demo_cf demo_typed linux_typed _ _ R1 7 7 1
    (with_nodes v0 (upd (v_nodes v0) 7 (Some (7, 1)))) 0 SendOk) as (_ & _ & _ & _ & _ & D & _).
  - reflexivity.
  - repeat split; intros; reflexivity.
  - exact (D None R2).
Qed.

Print Assumptions C54_deterministic.
Print Assumptions C54_unknown_node.
Print Assumptions C54_unknown_handle.
Print Assumptions C54_missing_trait.
Print Assumptions C54_user_error.
Print Assumptions C54_getattr.
Print Assumptions C54_lookup_found.
Print Assumptions C54_lookup_not_found.
Print Assumptions C54_new_results.
Print Assumptions C54_open.
Print Assumptions C54_opendir.
Print Assumptions C54_data.
Print Assumptions C54_size.
Print Assumptions C54_errnos.
Print Assumptions C54_write.
Print Assumptions C54_statfs.
Print Assumptions C54_release.
Print Assumptions C54_releasedir.
Print Assumptions C54_defaults.
Print Assumptions C54_default_listxattr_refuted.
