(** C66: what a request can do to the nodes and handles of a
    [fuse_vfs::Filesystem]. *)

From Verif Require Import Base Kernel CoreModel DecodeModel OpsModel WireSpec DecodeProofs
  ReplyModel ReplySpec ReplyProofs ListingModel ServerModel VfsModel VfsSpec VfsRun VfsProofs
  PropListing PropTables PropVfs PropAnswers.
From Coq Require Import List NArith ZArith Bool Lia ZifyBool ZifyNat ZifyN.
Import ListNotations.
Open Scope N_scope.

(** ** Specification *)

Section Spec.
Context {E : Endian} {W Node FH DH : Type}.

(** What the handler of a request of type [t] whose accessors return [view]
    may do. *)
Definition may_do (t : rtype) (view : view) (e : event Node FH DH) : Prop :=
  match e with
  | EvNodeGet id _ => node_of view = Some id
  | EvNodeAdd _ _ => t = RLookup
  | EvNodeForget items => view = VForget items
  | EvOpenFile _ _ => t = ROpen
  | EvOpenDir _ _ => t = ROpendir
  | EvGetFile h _ => (t = RRead \/ t = RWrite) /\ file_of view = Some h
  | EvGetDir h _ => (t = RReaddir \/ t = RReaddirplus) /\ dir_of view = Some h
  | EvReleaseFile h _ _ => t = RRelease /\ file_of view = Some h
  | EvReleaseDir h _ _ => t = RReleasedir /\ dir_of view = Some h
  | EvUser | EvSend _ _ | EvPanic => True
  end.
End Spec.

Section Proofs.
Context {E : Endian} {W Node FH DH : Type} (U : user W Node FH DH) (os : OsErrors) (cf : config).
Notation prog := (prog W Node FH DH).
Notation event := (event Node FH DH).

(** All actions a program can do satisfy [P]. *)
Fixpoint all_do (P : event -> Prop) (p : prog) : Prop :=
  match p with
  | PDone _ | PPanic | PUb => True
  | PUser f k => forall a, all_do P (k a)
  | PNodeGet id k => forall o, P (EvNodeGet id o) /\ all_do P (k o)
  | PNodeAdd id n k => P (EvNodeAdd id n) /\ all_do P k
  | PNodeForget items k => P (EvNodeForget items) /\ all_do P k
  | POpenFile f k => forall h, P (EvOpenFile f h) /\ all_do P (k h)
  | POpenDir d k => forall h, P (EvOpenDir d h) /\ all_do P (k h)
  | PGetFile _ h k => forall o, P (EvGetFile h o) /\ all_do P (k o)
  | PGetDir _ h k => forall o, P (EvGetDir h o) /\ all_do P (k o)
  | PReleaseFile _ h _ k => forall o r, P (EvReleaseFile h o r) /\ all_do P (k r)
  | PReleaseDir _ h _ k => forall o r, P (EvReleaseDir h o r) /\ all_do P (k r)
  | PSend b k => forall ev, P (EvSend b ev) /\ all_do P (k ev)
  end.

Lemma all_do_exec (P : event -> Prop) p v w ev e p' v' w' :
  P EvUser -> P EvPanic -> all_do P p -> exec U cf p v w ev = Some (e, p', v', w') -> P e /\ all_do P p'.
Proof.
  intros Pu Pp A X. destruct p; cbn [exec all_do] in *; try discriminate.
  - destruct (f w) as [w1 a]. injection X as <- <- <- <-. auto.
  - injection X as <- <- <- <-. apply A.
  - destruct (NodeMap_add _ _ _ _); injection X as <- <- <- <-; [exact A|now split].
  - injection X as <- <- <- <-. exact A.
  - destruct (HandlesMap_open_file _ _ _) as [[i s]|]; injection X as <- <- <- <-; [apply A|now split].
  - destruct (HandlesMap_open_dir _ _ _) as [[i s]|]; injection X as <- <- <- <-; [apply A|now split].
  - injection X as <- <- <- <-. apply A.
  - injection X as <- <- <- <-. apply A.
  - destruct (HandlesMap_get_file _ _ _) as [f|]; [|injection X as <- <- <- <-; apply A].
    destruct (u_release U f rq w) as [w1 [z|]]; injection X as <- <- <- <-; apply A.
  - destruct (HandlesMap_get_dir _ _ _) as [d|]; [|injection X as <- <- <- <-; apply A].
    destruct (u_releasedir U d rq w) as [w1 [z|]]; injection X as <- <- <- <-; apply A.
  - injection X as <- <- <- <-. apply A.
Qed.

Lemma all_do_path (P : event -> Prop) p l p' :
  P EvUser -> P EvPanic -> all_do P p -> path U cf p l p' -> Forall P l /\ all_do P p'.
Proof.
  intros Pu Pp A H. induction H as [p|p l p1 v w ev e p2 v' w' H IH X]; [auto|].
  destruct (IH A) as [F A1]. destruct (all_do_exec P p1 v w ev e p2 v' w' Pu Pp A1 X) as [Pe A2].
  split; [|exact A2]. apply Forall_app. auto.
Qed.

Lemma all_do_reply_then (P : event -> Prop) id a k :
  (forall b ev, P (EvSend b ev)) -> (forall r, all_do P (k r)) -> all_do P (reply_then cf id a k).
Proof.
  intros Ps Pk. unfold reply_then. destruct (answer_call _ _ _); cbn [all_do]; [apply Pk|].
  intros [|e]; auto.
Qed.
Lemma all_do_reply (P : event -> Prop) id a : (forall b ev, P (EvSend b ev)) -> all_do P (reply cf id a).
Proof. intros Ps. apply all_do_reply_then; [exact Ps|]. intros [|]; exact I. Qed.

Lemma body_does rq id t v :
  decode_view false cf t rq = Ret v -> (exists op, vfs_type op = Some t) -> t <> RForget ->
  all_do (may_do t v) (vfs_body U os cf rq id t v).
Proof.
  intros D [op T] Nf.
  assert (Ps : forall b ev, may_do (Node := Node) (FH := FH) (DH := DH) t v (EvSend b ev)) by (intros; exact I).
  destruct t; try (unfold vfs_type in T;
    repeat match type of T with context [if ?c then _ else _] => destruct c end; discriminate);
  try contradiction.
  all: cbn [decode_view] in D;
    repeat match type of D with
    | bind ?m _ = Ret _ => destruct m; cbn [bind] in D; try discriminate
    end; injection D as <-; cbn [vfs_body getattr_body getxattr_body listxattr_body lookup_body open_body
      opendir_body read_body readdir_body readdirplus_body readlink_body release_body releasedir_body
      statfs_body write_body]; unfold with_node, with_file, with_dir, with_trait, call, lookup_rest; cbn [all_do].
  all: repeat match goal with
    | |- forall _, _ => intro
    | |- _ /\ _ => split
    | |- all_do _ (reply _ _ _) => apply all_do_reply; exact Ps
    | |- all_do _ (reply_then _ _ _ _) => apply all_do_reply_then; [exact Ps|]
    | |- all_do _ (match ?x with _ => _ end) => destruct x
    | |- all_do _ (let _ := _ in _) => cbv zeta
    | |- all_do _ (attempt ?m _) => destruct m; cbn [attempt all_do]
    | |- all_do _ _ => cbn [all_do]
    | |- may_do _ _ _ => cbn [may_do node_of file_of dir_of]; auto
    | |- True => exact I
    end.
Qed.

(** A request is dispatched to a handler that does what it may do. *)
Lemma dispatch_does buf rq t view p :
  Request_new buf = Ret rq -> vfs_type (u32_at 4 buf) = Some t -> decode_view false cf t rq = Ret view ->
  dispatch U os cf rq = Some p -> all_do (may_do t view) p.
Proof.
  intros H T D Dp. assert (Nf : t = RForget \/ t <> RForget) by (destruct t; (now left) || (right; discriminate)).
  destruct Nf as [->|Nf].
  - pose proof (dispatch_eq U os cf buf rq H) as X. rewrite T in X. rewrite X in Dp. injection Dp as <-.
    pose proof (forget_view (W := W) (Node := Node) (FH := FH) (DH := DH) cf rq) as F. rewrite D in F.
    destruct view; try (cbn [decode_view] in D; destruct (ForgetRequest_try_from cf rq); discriminate).
    rewrite F. cbn [all_do may_do]. auto.
  - destruct (dispatch_view U os cf buf rq t H T Nf) as (p' & Dp' & [(e & De & _)|(v & Dv & P)]); [congruence|].
    rewrite D in Dv. injection Dv as <-. rewrite Dp in Dp'. injection Dp' as <-. subst p.
    apply body_does; eauto.
Qed.

Lemma in_of_thread i e (tr : list (label Node FH DH)) : In (Did i e) tr -> In e (of_thread i tr).
Proof.
  intros H. unfold of_thread. apply in_flat_map. exists (Did i e). split; [exact H|].
  rewrite Nat.eqb_refl. now left.
Qed.

(** Whatever the requests of other threads do: the handler of a request looks
    up only the node the request names, uses only the handle it names,
    registers nodes only for LOOKUP, gives out handles only for OPEN and
    OPENDIR, releases only the handle named by RELEASE and RELEASEDIR, and
    forgets only the items of FORGET and BATCH_FORGET. *)
Theorem C66_touches root w tr s i e buf rq t view :
  steps U os cf (start root w) tr s -> In (Arrived i rq) tr -> In (Did i e) tr ->
  Request_new buf = Ret rq -> vfs_type (u32_at 4 buf) = Some t -> decode_view false cf t rq = Ret view ->
  may_do t view e.
Proof.
  intros St A De H T D. destruct (threads_inv U os cf root w tr s St) as [_ I].
  destruct (I i rq A) as (p0 & p & _ & Dp & P).
  pose proof (dispatch_does buf rq t view p0 H T D Dp) as Q.
  destruct (all_do_path (may_do t view) p0 _ _ Logic.I Logic.I Q P) as [F _].
  rewrite Forall_forall in F. apply F. now apply in_of_thread.
Qed.

(** A malformed request changes nothing, uses nothing and gets no reply. *)
Theorem C66_malformed root w tr s i buf rq t e :
  steps U os cf (start root w) tr s -> In (Arrived i rq) tr ->
  Request_new buf = Ret rq -> vfs_type (u32_at 4 buf) = Some t -> decode_view false cf t rq = Fail e ->
  of_thread i tr = [].
Proof.
  intros St A H T D. destruct (threads_inv U os cf root w tr s St) as [_ I].
  destruct (I i rq A) as (p0 & p & _ & Dp & P).
  rewrite (C47_malformed U os cf buf rq t e H T D) in Dp. injection Dp as <-.
  assert (Q : all_do (fun _ => False) (PDone (W := W) (Node := Node) (FH := FH) (DH := DH) (inr (SrvRequest e)))) by exact Logic.I.
  clear St A I. remember (PDone (inr (SrvRequest e))) as q eqn:Eq.
  assert (G : of_thread i tr = [] /\ p = q); [|apply G].
  induction P as [p|p l p1 v w0 ev ee p2 v' w' P IH X]; [auto|].
  specialize (IH Eq Q) as [-> ->]. subst p. cbn in X. discriminate.
Qed.

(** What a step of the handler of a request can change.  Nodes: only LOOKUP and
    FORGET change what an id resolves to; a FORGET only for the ids it names.
    Handles: only OPEN, OPENDIR, RELEASE and RELEASEDIR; a RELEASE only its
    own handle. *)
Theorem C66_unchanged root w tr s s' i e buf rq t view :
  steps U os cf (start root w) tr s -> step U os cf s (Did i e) s' -> In (Arrived i rq) tr ->
  Request_new buf = Ret rq -> vfs_type (u32_at 4 buf) = Some t -> decode_view false cf t rq = Ret view ->
  (t <> RLookup -> t <> RForget -> v_nodes (sv_vfs s') = v_nodes (sv_vfs s)) /\
  (forall items n, view = VForget items -> ~ In n (map fst items) ->
     v_nodes (sv_vfs s') n = v_nodes (sv_vfs s) n) /\
  (t <> ROpen -> t <> RRelease -> v_open_files (sv_vfs s') = v_open_files (sv_vfs s)) /\
  (t <> ROpendir -> t <> RReleasedir -> v_open_dirs (sv_vfs s') = v_open_dirs (sv_vfs s)) /\
  (forall h, t = RRelease -> file_of view <> Some h ->
     v_open_files (sv_vfs s') h = v_open_files (sv_vfs s) h) /\
  (forall h, t = RReleasedir -> dir_of view <> Some h ->
     v_open_dirs (sv_vfs s') h = v_open_dirs (sv_vfs s) h).
Proof.
  intros St X A H T D.
  assert (M : may_do t view e).
  { apply (C66_touches root w (tr ++ [Did i e]) s' i e buf rq t view); auto.
    - econstructor; eauto.
    - apply in_or_app. now left.
    - apply in_or_app. right. now left. }
  pose proof (step_nodes U os cf s _ s' X) as [Nn _]. pose proof (step_handles U os cf s _ s' X) as Hh.
  assert (Tf : forall items, view = VForget items -> t = RForget).
  { intros items Ev. rewrite Ev in D. clear -D. destruct t; try reflexivity; exfalso; cbn [decode_view] in D;
    repeat match type of D with bind ?m _ = Ret _ => destruct m; cbn [bind] in D; try discriminate end;
    discriminate. }
  assert (Nn' : nodes_after cf e (v_nodes (sv_vfs s)) = Some (v_nodes (sv_vfs s')) ) by exact Nn. clear Nn.
  repeat split.
  - intros N1 N2. destruct e; cbn [nodes_after may_do] in *; try (now injection Nn' as ->); try contradiction.
    exfalso. apply N2. eapply Tf. exact M.
  - intros items n Ev Ni. destruct e; cbn [nodes_after may_do] in *; try (injection Nn' as <-; reflexivity).
    + specialize (Tf items Ev). congruence.
    + injection Nn' as <-. rewrite M in Ev. injection Ev as ->. rewrite forget_other; [reflexivity|].
      clear -Ni. induction items as [|x items IH]; [reflexivity|]. cbn [named count fold_right map In] in *.
      destruct (N.eqb_spec (fst x) n) as [X|]; [exfalso; apply Ni; now left|].
      apply IH. tauto.
  - intros N1 N2. destruct e; cbn [handles_after may_do] in *; try contradiction;
      try (apply proj1 in M; contradiction);
      repeat match goal with H : _ /\ _ |- _ => destruct H end; try congruence.
    unfold HandlesMap_open_dir in Hh. destruct (incr64 _ _); [|discriminate]. injection Hh as _ <-. reflexivity.
  - intros N1 N2. destruct e; cbn [handles_after may_do] in *; try contradiction;
      try (apply proj1 in M; contradiction);
      repeat match goal with H : _ /\ _ |- _ => destruct H end; try congruence.
    unfold HandlesMap_open_file in Hh. destruct (incr64 _ _); [|discriminate]. injection Hh as _ <-. reflexivity.
  - intros h' -> Nh. destruct e; cbn [handles_after may_do] in *; try contradiction; try discriminate;
      try (apply proj1 in M; discriminate);
      repeat match goal with H : _ /\ _ |- _ => destruct H end; try congruence.
    match goal with H : v_open_files (sv_vfs s') = _ |- _ => rewrite H end. destruct r; auto.
    unfold upd. destruct (N.eqb_spec h' h); [|reflexivity]. congruence.
  - intros h' -> Nh. destruct e; cbn [handles_after may_do] in *; try contradiction; try discriminate;
      try (apply proj1 in M; discriminate);
      repeat match goal with H : _ /\ _ |- _ => destruct H end; try congruence.
    match goal with H : v_open_dirs (sv_vfs s') = _ |- _ => rewrite H end. destruct r; auto.
    unfold upd. destruct (N.eqb_spec h' h); [|reflexivity]. congruence.
Qed.
End Proofs.

(** ** Concrete cases *)

Local Instance LE : Endian := false.

(** Node 5 is looked up (thread 0) and opened (thread 1), read (2) and released
    (3), while the root is opened as a directory (4); all interleaved with a
    FORGET of two nodes (5). *)
Definition busy : list choice :=
  [Arrives (rq_lookup ab)] ++ steps_of 0 5 ++ [Arrives (demo_rq 4 5 (OOpen 0 0))] ++ steps_of 1 5 ++
  [Arrives (demo_rq 5 5 (ORead 1 0 10 0 0 0 0)); Arrives (demo_rq 6 5 (ORelease 1 0 0 0));
   Arrives (demo_rq 7 1 (OOpendir 0 0)); Arrives (demo_rq 8 0 (OBatchForget 0 [(5, 1); (77, 2)]))] ++
  steps_of 4 2 ++ steps_of 2 2 ++ steps_of 3 2 ++ steps_of 4 3 ++ steps_of 5 1 ++ steps_of 2 1.
Definition busy_trace : list (label N N N) :=
  match schedule demo linux_errors demo_cf busy (start 1 0) with Some (tr, _) => tr | None => [] end.

(** Finds an element of a computed list. *)
Ltac found k :=
  lazymatch k with
  | 60%nat => fail
  | _ => first [apply nth_error_In with (n := k); vm_compute; reflexivity|let k' := eval compute in (S k) in found k']
  end.

Example C66_touches_example :
  exists s, steps demo linux_errors demo_cf (start 1 0) busy_trace s /\
  In (Arrived 2 (demo_rq 5 5 (ORead 1 0 10 0 0 0 0))) busy_trace /\
  In (Did 2 (EvGetFile 1 (Some 100))) busy_trace /\
  In (Did 3 (EvReleaseFile 1 (Some 100) Released)) busy_trace /\
  In (Did 5 (EvNodeForget [(5, 1); (77, 2)])) busy_trace /\
  In (Did 4 (EvOpenDir 201 2)) busy_trace /\
  (let rq := demo_rq 5 5 (ORead 1 0 10 0 0 0 0) in
   Request_new (rq_mem rq) = Ret rq /\ vfs_type (u32_at 4 (rq_mem rq)) = Some RRead /\
   exists view, decode_view false demo_cf RRead rq = Ret view /\ file_of view = Some 1) /\
  (let rq := demo_rq 8 0 (OBatchForget 0 [(5, 1); (77, 2)]) in
   Request_new (rq_mem rq) = Ret rq /\ vfs_type (u32_at 4 (rq_mem rq)) = Some RForget /\
   decode_view false demo_cf RForget rq = Ret (VForget [(5, 1); (77, 2)])).
Proof.
  assert (H : exists s, steps demo linux_errors demo_cf (start 1 0) busy_trace s).
  { apply (scheduled demo linux_errors demo_cf busy). vm_compute. reflexivity. }
  destruct H as [s H]. exists s. split; [exact H|]. clear H.
  split; [found 0%nat|]. split; [found 0%nat|]. split; [found 0%nat|]. split; [found 0%nat|]. split; [found 0%nat|].
  split; cbv zeta.
  - split; [vm_compute; reflexivity|]. split; [vm_compute; reflexivity|].
    eexists. split; vm_compute; reflexivity.
  - split; [vm_compute; reflexivity|]. split; vm_compute; reflexivity.
Qed.

(** The same, with the RELEASE as the last step. *)
Definition release_last : list choice :=
  [Arrives (rq_lookup ab)] ++ steps_of 0 5 ++ [Arrives (demo_rq 4 5 (OOpen 0 0)); Arrives (demo_rq 5 5 (OOpen 0 0))] ++
  steps_of 1 5 ++ steps_of 2 5 ++ [Arrives (demo_rq 6 5 (ORelease 1 0 0 0))] ++ steps_of 3 1.
Example C66_unchanged_example :
  exists s s', steps demo linux_errors demo_cf (start 1 0) (all_but_last release_last) s /\
  step demo linux_errors demo_cf s (Did 3 (EvReleaseFile 1 (Some 100) Released)) s' /\
  In (Arrived 3 (demo_rq 6 5 (ORelease 1 0 0 0))) (all_but_last release_last) /\
  (let rq := demo_rq 6 5 (ORelease 1 0 0 0) in
   Request_new (rq_mem rq) = Ret rq /\ vfs_type (u32_at 4 (rq_mem rq)) = Some RRelease /\
   exists view, decode_view false demo_cf RRelease rq = Ret view /\ file_of view = Some 1 /\
     file_of view <> Some 2).
Proof.
  assert (H : exists s s', steps demo linux_errors demo_cf (start 1 0) (all_but_last release_last) s /\
    step demo linux_errors demo_cf s (Did 3 (EvReleaseFile 1 (Some 100) Released)) s') by last_step release_last.
  destruct H as (s & s' & H1 & H2). exists s, s'. split; [exact H1|]. split; [exact H2|]. clear.
  split; [found 0%nat|]. split; [vm_compute; reflexivity|]. split; [vm_compute; reflexivity|].
  eexists. split; [vm_compute; reflexivity|]. split; [reflexivity|discriminate].
Qed.

(** A READ whose body ends in the middle. *)
Definition short_read : Request :=
  let m := take 60 (rq_mem (demo_rq 5 5 (ORead 1 0 10 0 0 0 0))) in
  {| rq_mem := wire [u32 60] ++ drop 4 m |}.
Example C66_malformed_example :
  Request_new (rq_mem short_read) = Ret short_read /\
  vfs_type (u32_at 4 (rq_mem short_read)) = Some RRead /\
  (exists e, decode_view false demo_cf RRead short_read = Fail e) /\
  exists s, steps demo linux_errors demo_cf (start 1 0) [Arrived 0 short_read] s.
Proof.
  split; [vm_compute; reflexivity|]. split; [vm_compute; reflexivity|]. split; [eexists; vm_compute; reflexivity|].
  apply (scheduled demo linux_errors demo_cf [Arrives short_read]). vm_compute. reflexivity.
Qed.

(** *** Refuted *)

(** A READ with a handle of another node reads the file of the handle: the node
    ids of requests with handles are not looked at. *)
Definition wrong_node : list choice :=
  [Arrives (rq_lookup ab)] ++ steps_of 0 5 ++ [Arrives (demo_rq 4 5 (OOpen 0 0))] ++ steps_of 1 5 ++
  [Arrives (demo_rq 5 12345 (ORead 1 0 10 0 0 0 0))] ++ steps_of 2 4.
Theorem C66_wrong_node_refuted :
  exists tr s b ev, steps demo linux_errors demo_cf (start 1 0) tr s /\
  In (Arrived 2 (demo_rq 5 12345 (ORead 1 0 10 0 0 0 0))) tr /\
  lookups 12345 tr = 0 /\ In (Did 1 (EvOpenFile 100 1)) tr /\
  In (Did 2 (EvSend b ev)) tr /\ reads_as b 5 0 [x68; x69].
Proof.
  set (tr := match schedule demo linux_errors demo_cf wrong_node (start 1 0) with Some (tr, _) => tr | None => [] end).
  exists tr.
  assert (H : exists s, steps demo linux_errors demo_cf (start 1 0) tr s).
  { apply (scheduled demo linux_errors demo_cf wrong_node). vm_compute. reflexivity. }
  destruct H as [s H]. exists s.
  destruct (sent (of_thread 2 tr)) as [|b l] eqn:B; [vm_compute in B; discriminate|]. exists b, SendOk.
  split; [exact H|]. clear H. vm_compute in B. injection B as <- <-.
  split; [found 0%nat|]. split; [vm_compute; reflexivity|]. split; [found 0%nat|].
  split; [found 0%nat|]. eexists. split; [vm_compute; reflexivity|]. split; vm_compute; reflexivity.
Qed.

(** An OPEN whose reply could not be sent leaves the file in the table: the
    client never learns the handle and nothing releases it; a READ that
    guesses it is served. *)
Definition delivered (i : nat) (tr : list (label N N N)) : bool :=
  existsb (fun l => match l with Did j (EvSend _ SendOk) => Nat.eqb j i | _ => false end) tr.
Definition lost_open : list choice :=
  [Arrives (rq_lookup ab)] ++ steps_of 0 5 ++ [Arrives (demo_rq 4 5 (OOpen 0 0))] ++
  repeat (Takes 1 (SendFails (SE_Other 5))) 5 ++ [Arrives (demo_rq 5 5 (ORead 1 0 10 0 0 0 0))] ++ steps_of 2 1.
Theorem C66_lost_open_refuted :
  exists tr s s', steps demo linux_errors demo_cf (start 1 0) tr s /\
  step demo linux_errors demo_cf s (Did 2 (EvGetFile 1 (Some 100))) s' /\
  In (Arrived 1 (demo_rq 4 5 (OOpen 0 0))) tr /\
  length (sent (of_thread 1 tr)) = 1%nat /\ delivered 1 tr = false.
Proof.
  exists (all_but_last lost_open).
  assert (H : exists s s', steps demo linux_errors demo_cf (start 1 0) (all_but_last lost_open) s /\
    step demo linux_errors demo_cf s (Did 2 (EvGetFile 1 (Some 100))) s') by last_step lost_open.
  destruct H as (s & s' & H1 & H2). exists s, s'. split; [exact H1|]. split; [exact H2|]. clear.
  split; [found 0%nat|]. split; vm_compute; reflexivity.
Qed.

(** The entries of READDIRPLUS are not registered: a client that was told of
    node 5 in such a reply, which counts as a lookup of it, is then told that
    node 5 does not exist. *)
Definition plus_data : bytes :=
  wire [u64 5] ++ repeat x00 120 ++ wire [u64 5; u64 1; u32 1; u32 8] ++ [x61] ++ repeat x00 7.
Definition plus_demo : user N N N N := {|
  u_as_directory := u_as_directory demo; u_as_file := u_as_file demo; u_as_symlink := u_as_symlink demo;
  u_getattr := u_getattr demo; u_getxattr := u_getxattr demo; u_listxattr := u_listxattr demo;
  u_statfs := u_statfs demo; u_lookup := u_lookup demo; u_opendir := u_opendir demo;
  u_open := u_open demo; u_readlink := u_readlink demo;
  u_as_readdir_handle := u_as_readdir_handle demo; u_as_readdirplus_handle d w := (w, true);
  u_readdir := u_readdir demo; u_readdirplus d rq w := (w, inl plus_data);
  u_releasedir := u_releasedir demo; u_as_read_handle := u_as_read_handle demo;
  u_as_write_handle := u_as_write_handle demo; u_read := u_read demo; u_write := u_write demo;
  u_release := u_release demo |}.
Definition plus_history : list choice :=
  [Arrives (demo_rq 3 1 (OOpendir 0 0))] ++ steps_of 0 5 ++
  [Arrives (demo_rq 4 1 (OReaddirplus 1 0 4096 0 0 0 0))] ++ steps_of 1 4 ++
  [Arrives (demo_rq 5 5 (OGetattr 0 0 0))] ++ steps_of 2 1.
Theorem C66_readdirplus_refuted :
  exists tr s b d, steps plus_demo linux_errors demo_cf (start 1 0) (tr ++ [Did 2 (EvNodeGet 5 None)]) s /\
  In (Arrived 1 (demo_rq 4 1 (OReaddirplus 1 0 4096 0 0 0 0))) tr /\
  In (Did 1 (EvSend b SendOk)) tr /\ reads_as b 4 0 plus_data /\
  client_readdirplus plus_data = Some [d] /\ u64_at 0 (fst d) = 5 /\ forgets 5 tr = 0.
Proof.
  set (tr := match schedule plus_demo linux_errors demo_cf plus_history (start 1 0) with
             | Some (tr, _) => removelast tr | None => [] end).
  exists tr.
  assert (H : exists s, steps plus_demo linux_errors demo_cf (start 1 0) (tr ++ [Did 2 (EvNodeGet 5 None)]) s).
  { apply (scheduled plus_demo linux_errors demo_cf plus_history). vm_compute. reflexivity. }
  destruct H as [s H]. exists s.
  destruct (sent (of_thread 1 tr)) as [|b l] eqn:B; [vm_compute in B; discriminate|]. exists b.
  exists (take 128 plus_data, {| s_ino := 5; s_off := 1; s_type := 8; s_name := [x61] |}).
  split; [exact H|]. clear H. vm_compute in B. injection B as <- <-.
  split; [found 0%nat|]. split; [found 0%nat|].
  split; [eexists; split; [vm_compute; reflexivity|]; split; vm_compute; reflexivity|].
  split; [vm_compute; reflexivity|]. split; vm_compute; reflexivity.
Qed.

Print Assumptions C66_touches.
Print Assumptions C66_malformed.
Print Assumptions C66_unchanged.
Print Assumptions C66_wrong_node_refuted.
Print Assumptions C66_lost_open_refuted.
Print Assumptions C66_readdirplus_refuted.
