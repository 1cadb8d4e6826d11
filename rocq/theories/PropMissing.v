(** Theorems about file systems that do not implement every operation: C76 of
    properties.jsonl. *)

From Verif Require Import Base Kernel CoreModel DecodeModel OpsModel WireSpec OpsRoundTrip DecodeProofs
  ReplyModel ReplySpec ReplyProofs PropDecode PropHeader PropReply
  ServerModel ServerSpec PropServer DeviceSpec PropDevice
  ClientSpec PropClient TakenSpec PropTaken FileSpec PropFile CallSpec PropCalls.
From Coq Require Import List NArith ZArith Bool Lia ZifyBool ZifyNat ZifyN Strings.Byte.
Import ListNotations.
Open Scope list_scope.
Open Scope N_scope.

(** ** Specification *)

Section Spec.
Context {E : Endian} {St : Type}.

(** A program that implements [FuseHandlers]: it has its own methods for some
    operations, of which each decodes its request and answers it; the other
    methods are the ones the trait provides; and [unimplemented], which it has
    to write, notes the operation and answers ENOSYS. *)
Record file_system := {
  fs_has : fuse_method -> bool;
  fs_handler : handler (St := St);
  fs_notes : St -> N -> St }.

(** The type of the requests of a method (its argument in fuse/server.rs). *)
Definition method_type (m : fuse_method) : option rtype :=
  match m with
  | M_access => Some RAccess | M_bmap => Some RBmap | M_copy_file_range => Some RCopyFileRange
  | M_create => Some RCreate | M_fallocate => Some RFallocate | M_flush => Some RFlush
  | M_batch_forget | M_forget => Some RForget | M_fsync => Some RFsync | M_fsyncdir => Some RFsyncdir
  | M_getattr => Some RGetattr | M_getlk => Some RGetlk | M_getxattr => Some RGetxattr
  | M_interrupt => Some RInterrupt | M_ioctl => Some OpsModel.RIoctl | M_link => Some RLink
  | M_listxattr => Some RListxattr | M_lookup => Some RLookup | M_lseek => Some RLseek
  | M_mkdir => Some RMkdir | M_mknod => Some RMknod | M_open => Some ROpen | M_opendir => Some ROpendir
  | M_poll => Some RPoll | M_read => Some RRead | M_readdir => Some RReaddir
  | M_readdirplus => Some RReaddirplus | M_readlink => Some RReadlink | M_release => Some RRelease
  | M_releasedir => Some RReleasedir | M_removexattr => Some RRemovexattr
  | M_rename | M_rename2 => Some RRename | M_rmdir => Some RRmdir | M_setattr => Some RSetattr
  | M_setlk | M_setlkw => Some RSetlk | M_setxattr => Some RSetxattr | M_statfs => Some RStatfs
  | M_symlink => Some RSymlink | M_unlink => Some RUnlink | M_write => Some RWrite
  | M_destroy | M_syncfs | M_unimplemented => None
  end.

Definition is_unimplemented (m : fuse_method) : bool := match m with M_unimplemented => true | _ => false end.

(** From the bytes of a request to those of the reply. *)
Definition serve_fs (cf : config) (fs : file_system) (s : St) (msg : bytes) : option (St * bytes) :=
  let sent (s : St) (id : N) (a : answer) :=
    match answer_call (cf_minor cf) id a with
    | Call b => match on_wire b with Ret m => Some (s, m) | _ => None end
    | _ => None
    end in
  match rq <- Request_new msg ;; id <- header_request_id rq ;; code <- header_opcode rq ;;
        m <- FuseHandlers_dispatch rq ;; Ret (rq, id, code, m) with
  | Ret (rq, id, code, m) =>
    match fuse_user_method (fs_has fs) m with
    | None => None
    | Some m =>
      if is_unimplemented m then sent (fs_notes fs s code) id (AErr (-38))
      else match method_type m with
      | None => None
      | Some t =>
        match decode_view false cf t rq with
        | Ret v => let (s', a) := fs_handler fs s v in sent s' id (answer_of a)
        | _ => None
        end
      end
    end
  | _ => None
  end.

(** One call on a mount of it, as [sys] of CallSpec.v. *)
Definition fs_sys (m : mounted) (fs : file_system) (k : nat) (known : list N) (s : St) (c : sys_call)
    : option (list N * St * sys_result) :=
  if too_old (cf_minor (m_cf m)) c then Some (known, s, Error 22)
  else match skipped known c with
  | Some r => Some (known, s, r)
  | None =>
    let (node, op) := request_of c in
    match device_read (m_max_write m) (m_buf_len m) op (linux_message (m_cf m) (header m k node) op) with
    | Gets msg =>
      match serve_fs (m_cf m) fs s msg with
      | None => None
      | Some (s', w) =>
        match device_write (cf_minor (m_cf m))
                (fun i => if i =? rh_unique (m_hd m k) then Some op else None) w with
        | DeviceSpec.Broken _ => let (known', r) := after_error known c 5 in Some (known', s', r)
        | Completed _ (inl p) => Some (known, s', result_of (m_bs m) c p)
        | Completed _ (inr e) => let (known', r) := after_error known c (- e) in Some (known', s', r)
        | _ => None
        end
      end
    | _ => None
    end
  end.
Fixpoint fs_calls (m : mounted) (fs : file_system) (k : nat) (known : list N) (s : St) (l : list sys_call)
    : option (list N * St * list sys_result) :=
  match l with
  | [] => Some (known, s, [])
  | c :: l =>
    match fs_sys m fs k known s c with
    | None => None
    | Some (known', s', r) =>
      match fs_calls m fs (S k) known' s' l with
      | None => None
      | Some (known'', s'', rs) => Some (known'', s'', r :: rs)
      end
    end
  end.

(** The method of a call. *)
Definition code_of (c : sys_call) : N := op_code (snd (request_of c)).
Definition implemented (fs : file_system) (c : sys_call) : bool := fs_has fs (fuse_route (code_of c)).

(** What should happen: methods the program has are called as in C75; of the
    others the program only notes that they were wanted. *)
Definition fs_handled_one (minor bs : N) (fs : file_system) (known : list N) (s : St) (c : sys_call)
    : list N * St * sys_result :=
  if implemented fs c then handled_one minor bs (fs_handler fs) known s c
  else if too_old minor c then (known, s, Error 22)
  else match skipped known c with
  | Some r => (known, s, r)
  | None =>
    (match without_it c with Some _ => code_of c :: known | None => known end,
     fs_notes fs s (code_of c),
     match without_it c with Some r => r | None => failure c 38 end)
  end.
Fixpoint fs_handled (minor bs : N) (fs : file_system) (known : list N) (s : St) (l : list sys_call)
    : list N * St * list sys_result :=
  match l with
  | [] => (known, s, [])
  | c :: l =>
    let '(known', s', r) := fs_handled_one minor bs fs known s c in
    let '(known'', s'', rs) := fs_handled minor bs fs known' s' l in
    (known'', s'', r :: rs)
  end.

End Spec.
Arguments file_system : clear implicits.

(** ** Proofs *)

Section Proofs.
Context {E : Endian} {St : Type}.

Lemma method_of_op op : one_way (op_code op) = false -> op_type op <> RFuseInit -> op_type op <> OpsModel.RCuseInit ->
  method_type (fuse_route (op_code op)) = Some (op_type op) /\ is_unimplemented (fuse_route (op_code op)) = false /\
  fuse_default_calls_unimplemented (fuse_route (op_code op)) = true.
Proof.
  destruct op; intros W I1 I2; try discriminate W; try (now contradiction I1); try (now contradiction I2);
    try destruct wait; (split; [reflexivity|split; reflexivity]).
Qed.
Lemma call_two_way c : one_way (code_of c) = false /\ op_type (snd (request_of c)) <> RFuseInit /\
  op_type (snd (request_of c)) <> OpsModel.RCuseInit.
Proof.
  unfold code_of. destruct c; cbn [request_of snd]; try destruct wait; try destruct (flags =? 0);
    (split; [reflexivity|split; discriminate]).
Qed.

(** The handler that stands for the method of one call. *)
Definition method_for (fs : file_system St) (c : sys_call) : handler (St := St) :=
  if implemented fs c then fs_handler fs else fun s _ => (fs_notes fs s (code_of c), SaidError (-38)).

Lemma fs_sys_eq m fs k known s c : good_mount m -> call_ok c ->
  fs_sys m fs k known s c = sys m (program_with (method_for fs c)) k known s c.
Proof.
  intros G C. unfold fs_sys, sys. destruct (too_old _ c); [reflexivity|]. destruct (skipped known c); [reflexivity|].
  destruct (call_two_way c) as (W1 & W2 & W3). pose proof (method_of_op _ W1 W2 W3) as (Mt & Mu & Md).
  unfold method_for, implemented, code_of in *. destruct (request_of c) as [node op] eqn:R. cbn [snd] in *.
  destruct (request_ok m k c node op G C R) as (S & W & Lg & T).
  pose proof G as (B & M & _). assert (Hn : id_ok node).
  { clear - R C. destruct c; injection R as <- _; cbn [call_ok] in C; try contradiction C; try exact C; try apply C. }
  destruct (message_fits _ _ _ (m_cf m) (header m k node) op W ltac:(lia) B) as [L L']. specialize (L' Lg).
  set (hd := header m k node) in *. set (msg := linux_message (m_cf m) hd op) in *.
  destruct (message_understood false (m_cf m) hd op S (fun _ => M) L) as (Acc & (len & Hs & _ & Hc & _) & D).
  fold msg in Acc, Hs, Hc, D.
  unfold exchange, device_read. fold msg.
  replace (m_buf_len m <? N.max 8192 (80 + m_max_write m)) with false by (clear - B; lia).
  replace (m_buf_len m <? nlen msg) with false by (clear - L'; lia).
  unfold serve_fs, serve. pose proof (not_refused msg Acc) as Nr. rewrite Nr. cbn [bind].
  rewrite Hs. cbn [bind]. change (rh_nodeid hd) with node in D. rewrite T in D. rewrite D. cbn [bind].
  destruct (header_opcode_eq _ _ Nr) as (Ho & _). rewrite Hc in Ho. assert (Cd : u32_at 4 msg = op_code op) by congruence.
  rewrite (C33_fuse _ _ Nr), Hc. cbn [bind]. rewrite Cd. unfold fuse_user_method. rewrite Md.
  unfold program_with. change (rh_unique (m_hd m k)) with (rh_unique hd).
  clear - D Mt Mu. destruct (fs_has fs (fuse_route (op_code op))).
  - rewrite Mu, Mt, D. destruct (fs_handler fs s (asked c)) as [s' a].
    destruct (answer_call _ _ (answer_of a)) as [|b]; try reflexivity; destruct (on_wire b); try reflexivity.
    now destruct (device_write _ _ _) as [? []| | | |].
  - cbn [is_unimplemented]. change (answer_of (SaidError (-38))) with (AErr (-38)).
    destruct (answer_call _ _ (AErr (-38))) as [|b]; try reflexivity; destruct (on_wire b); try reflexivity.
    now destruct (device_write _ _ _) as [? []| | | |].
Qed.

(** One call. *)
Theorem C76_call m (fs : file_system St) k known s c :
  good_mount m -> call_ok c -> (implemented fs c = true -> answers c (snd (fs_handler fs s (asked c)))) ->
  fs_sys m fs k known s c = Some (fs_handled_one (cf_minor (m_cf m)) (m_bs m) fs known s c).
Proof.
  intros G C A. rewrite fs_sys_eq by assumption. unfold fs_handled_one, method_for. destruct (implemented fs c) eqn:I.
  - apply C75_call; auto.
  - rewrite C75_call; [|assumption|assumption|cbn; lia]. unfold handled_one.
    destruct (too_old _ c); [reflexivity|]. destruct (skipped known c); [reflexivity|].
    unfold after_error, code_of. change (- -38)%Z with 38%Z. change (38 =? 38)%Z with true.
    now destruct (without_it c).
Qed.

(** Any sequence of calls. *)
Theorem C76_calls m (fs : file_system St) (ok : St -> Prop) l :
  good_mount m -> Forall call_ok l ->
  (forall s c, ok s -> call_ok c -> ok (fs_notes fs s (code_of c)) /\
     (implemented fs c = true -> ok (fst (fs_handler fs s (asked c))) /\ answers c (snd (fs_handler fs s (asked c))))) ->
  forall k known s, ok s ->
  fs_calls m fs k known s l = Some (fs_handled (cf_minor (m_cf m)) (m_bs m) fs known s l).
Proof.
  intros G Cl Can. induction Cl as [|c l C Cl IH]; intros k known s Hs; cbn [fs_calls fs_handled]; [reflexivity|].
  destruct (Can s c Hs C) as [Hn A]. rewrite (C76_call m fs k known s c G C (fun I => proj2 (A I))).
  assert (Hs' : ok (snd (fst (fs_handled_one (cf_minor (m_cf m)) (m_bs m) fs known s c)))).
  { clear - Hs Hn A. unfold fs_handled_one. destruct (implemented fs c).
    - destruct (A eq_refl) as [A' _]. clear A. unfold handled_one. destruct (too_old _ c); [exact Hs|].
      destruct (skipped known c); [exact Hs|]. destruct (fs_handler fs s (asked c)) as [s' a]. cbn [fst] in A'.
      destruct a; try exact A'. now destruct (after_error _ _ _).
    - destruct (too_old _ c); [exact Hs|]. destruct (skipped known c); [exact Hs|]. exact Hn. }
  destruct (fs_handled_one _ _ fs known s c) as [[known' s'] r]. cbn [fst snd] in Hs'.
  rewrite IH by exact Hs'. now destruct (fs_handled _ _ fs known' s' l) as [[? ?] ?].
Qed.

(** What programs get from operations that are not implemented, whatever
    happened before. *)
Definition default_result (c : sys_call) : sys_result :=
  match c with
  | Access _ _ | Flush _ _ _ | Fsync _ _ _ | Fsyncdir _ _ _ | Release _ _ _ _ | Releasedir _ _ _ => Done
  | Open _ _ => Handle 0 2
  | Opendir _ _ => Handle 0 10
  | Fallocate _ _ _ _ _ => Error 95
  | Rename _ _ _ _ flags => if flags =? 0 then Error 38 else Error 22
  | Create _ _ _ _ _ | Lseek _ _ _ _ | CopyFileRange _ _ _ _ _ _ _ => OtherWay
  | Poll _ _ _ _ _ => Number 325
  | Bmap _ _ _ => Number 0
  | _ => Error 38
  end.
Lemma default_one minor bs (fs : file_system St) known s c : implemented fs c = false ->
  snd (fs_handled_one minor bs fs known s c) = default_result c.
Proof.
  intros I. unfold fs_handled_one. rewrite I.
  destruct c; cbn [too_old skipped without_it failure default_result];
    try destruct (flags =? 0) eqn:F; cbn [negb andb];
    repeat match goal with |- context [remembers ?a ?b] => destruct (remembers a b) end;
    try destruct (minor <? 23); reflexivity.
Qed.

Theorem C76_missing m (fs : file_system St) k known s l :
  good_mount m -> Forall (fun c => call_ok c /\ implemented fs c = false) l ->
  exists known' s', fs_calls m fs k known s l = Some (known', s', map default_result l).
Proof.
  intros G Cl. revert k known s. induction Cl as [|c l [C I] Cl IH]; intros k known s; cbn [fs_calls map].
  { now exists known, s. }
  rewrite (C76_call m fs k known s c G C) by (rewrite I; discriminate).
  pose proof (default_one (cf_minor (m_cf m)) (m_bs m) fs known s c I) as D.
  destruct (fs_handled_one _ _ fs known s c) as [[known1 s1] r]. cbn [snd] in D. subst r.
  destruct (IH (Datatypes.S k) known1 s1) as (known' & s' & ->). now exists known', s'.
Qed.
End Proofs.

(** ** The program is asked once *)

(** The operations the kernel gives up on, by their codes: OPEN, FSYNC, FLUSH,
    OPENDIR, FSYNCDIR, ACCESS, CREATE, BMAP, POLL, FALLOCATE, RENAME2, LSEEK,
    COPY_FILE_RANGE. *)
Definition given_up : list N := [14; 20; 25; 27; 30; 34; 35; 37; 40; 43; 45; 46; 47].
Lemma given_up_iff c : In (code_of c) given_up <-> without_it c <> None.
Proof.
  unfold code_of. destruct c; cbn [request_of snd without_it]; try destruct wait; try destruct (flags =? 0); cbn [op_code];
    split; intros H; try discriminate; try (now contradiction H); try (cbn; tauto);
    cbn in H; intuition discriminate.
Qed.
Lemma remembers_in known x : remembers known x = true <-> In x known.
Proof.
  unfold remembers. rewrite existsb_exists. split.
  - intros (y & Hy & Ey). apply N.eqb_eq in Ey. now subst y.
  - intros H. exists x. split; [exact H|apply N.eqb_refl].
Qed.

Section Once.
Context {E : Endian}.
(** A program that has none of its own methods, and whose state is the list of
    operations that were wanted. *)
Definition nothing : file_system (list N) :=
  {| fs_has := is_unimplemented; fs_handler := fun s _ => (s, SaidError (-38)); fs_notes := fun s code => code :: s |}.
Lemma nothing_missing c : implemented nothing c = false.
Proof.
  unfold implemented, code_of. destruct c; cbn [request_of snd]; try destruct wait; try destruct (flags =? 0); reflexivity.
Qed.

Definition noted_once (known log : list N) : Prop :=
  forall x, In x given_up -> (count_occ N.eq_dec log x <= 1)%nat /\ (In x log -> In x known).
Lemma once_step minor bs known log c known' log' r :
  noted_once known log -> fs_handled_one minor bs nothing known log c = (known', log', r) -> noted_once known' log'.
Proof.
  intros H. unfold fs_handled_one. rewrite nothing_missing.
  destruct (too_old minor c); [intros [= <- <- _]; exact H|].
  destruct (skipped known c) as [r0|] eqn:Sk; [intros [= <- <- _]; exact H|].
  intros X. assert (Lg : log' = code_of c :: log) by (cbn [fs_notes nothing] in X; congruence).
  assert (Kn : known' = match without_it c with Some _ => code_of c :: known | None => known end) by congruence.
  clear X. subst log' known'. intros x Hx. destruct (H x Hx) as [Hc Hk].
  destruct (N.eq_dec (code_of c) x) as [Ex|Ex].
  - assert (Wi : without_it c <> None) by (apply given_up_iff; now rewrite Ex).
    assert (Nk : ~ In x known).
    { intros Ik. apply remembers_in in Ik. rewrite <- Ex in Ik. unfold code_of in Ik.
      destruct c; cbn [skipped] in Sk; try (rewrite Ik in Sk); try (now apply Wi). }
    destruct (without_it c); [|now contradiction Wi]. split.
    + cbn [count_occ]. destruct (N.eq_dec (code_of c) x); [|contradiction].
      rewrite (proj1 (count_occ_not_In N.eq_dec log x)) by tauto. lia.
    + intros _. left. exact Ex.
  - split.
    + cbn [count_occ]. destruct (N.eq_dec (code_of c) x); [contradiction|exact Hc].
    + intros [F|F]; [contradiction|]. destruct (without_it c); [right|]; auto.
Qed.

(** Of a mount of it, the kernel wants each of these operations at most once. *)
Theorem C76_once m k l :
  good_mount m -> Forall call_ok l ->
  exists known log, fs_calls m nothing k [] [] l = Some (known, log, map default_result l) /\
  forall x, In x given_up -> (count_occ N.eq_dec log x <= 1)%nat.
Proof.
  intros G Cl.
  assert (X : forall k known log, noted_once known log -> exists known' log',
    fs_calls m nothing k known log l = Some (known', log', map default_result l) /\ noted_once known' log').
  { clear k. induction Cl as [|c l C Cl IH]; intros k known log H; cbn [fs_calls map].
    { now exists known, log. }
    rewrite (C76_call m nothing k known log c G C) by (rewrite nothing_missing; discriminate).
    pose proof (default_one (cf_minor (m_cf m)) (m_bs m) nothing known log c (nothing_missing c)) as D.
    destruct (fs_handled_one _ _ nothing known log c) as [[known1 log1] r] eqn:Q. cbn [snd] in D. subst r.
    destruct (IH (Datatypes.S k) known1 log1 (once_step _ _ _ _ _ _ _ _ H Q)) as (known' & log' & -> & N').
    now exists known', log'. }
  destruct (X k [] []) as (known & log & F & O); [intros x _; split; [cbn; lia|intros []]|].
  exists known, log. split; [exact F|]. intros x Hx. apply (O x Hx).
Qed.
End Once.

(** ** Examples *)

(** The tree of PropCalls.v has methods for some operations only. *)
Definition tree_system : file_system (tree * list N) :=
  {| fs_has := fun m => match m with
       | M_lookup | M_getattr | M_readlink | M_mkdir | M_mknod | M_unlink | M_rmdir | M_rename | M_unimplemented => true
       | _ => false end;
     fs_handler := fun s v => let (t, a) := tree_server (fst s) v in ((t, snd s), a);
     fs_notes := fun s code => (fst s, code :: snd s) |}.
Definition demo_missing : list sys_call :=
  [Mkdir 1 [x61] 493 18; Access 2 7; Opendir 2 0; Access 2 7; Statfs 2; Releasedir 2 0 0; Rename 1 [x61] 1 [x62] 1;
   Rename 1 [x61] 1 [x62] 0; Flush 2 0 5; Flush 2 0 5; Statfs 2].
Lemma demo_missing_ok : Forall call_ok demo_missing.
Proof.
  assert (G : forall b, b <> x00 -> b <> x2f -> call_name [b]).
  { intros b B0 B1. split; [|cbn; lia]. split; [discriminate|]. split; cbn; intuition congruence. }
  unfold demo_missing. repeat (apply Forall_cons; [cbn [call_ok]; unfold id_ok, U64, U32; repeat split;
    first [reflexivity|lia|cbn; tauto|apply G; discriminate|idtac]|]). all: try apply Forall_nil.
  all: try (apply G; discriminate). all: cbn; intuition discriminate.
Qed.
Local Instance LE : Endian := false.
Example C76_call_example :
  implemented tree_system (Access 2 7) = false /\ implemented tree_system (Mkdir 1 [x61] 493 18) = true /\
  snd (fs_handled_one 36 4096 tree_system [] (empty_tree, []) (Access 2 7)) = Done /\
  snd (fs_handled_one 36 4096 tree_system [] (empty_tree, []) (Statfs 1)) = Error 38.
Proof. repeat split. Qed.
Example C76_calls_example :
  good_mount demo_mount /\ Forall call_ok demo_missing /\
  (forall s c, tree_ok (fst s) -> call_ok c -> tree_ok (fst (fs_notes tree_system s (code_of c))) /\
     (implemented tree_system c = true -> tree_ok (fst (fst (fs_handler tree_system s (asked c)))) /\
        answers c (snd (fs_handler tree_system s (asked c))))) /\
  option_map (fun x => (fst (fst x), snd (snd (fst x)), map brief (snd x)))
    (fs_calls demo_mount tree_system 0 [] (empty_tree, []) demo_missing) =
  Some ([25; 45; 27; 34], [17; 25; 45; 17; 27; 34],
        [inr 2; inl Done; inl (Handle 0 10); inl Done; inl (Error 38); inl Done; inl (Error 22); inl Done; inl Done;
         inl Done; inl (Error 38)]).
Proof.
  split; [exact demo_mount_good|]. split; [exact demo_missing_ok|]. split.
  - intros s c T C. split; [exact T|]. intros _. pose proof (tree_server_ok (fst s) c T C) as X.
    cbn [fs_handler tree_system]. destruct (tree_server (fst s) (asked c)). exact X.
  - vm_compute. reflexivity.
Qed.
Example C76_missing_example :
  Forall (fun c => call_ok c /\ implemented tree_system c = false) [Access 2 7; Access 2 7; Open 2 1; Statfs 2].
Proof. repeat constructor; cbn; unfold U32; lia. Qed.
Example C76_once_example :
  option_map (fun x => (snd (fst x), snd x)) (fs_calls demo_mount nothing 0 [] [] demo_missing) =
  Some ([17; 25; 12; 45; 17; 27; 34; 9],
        [Error 38; Done; Handle 0 10; Done; Error 38; Done; Error 22; Error 38; Done; Done; Error 38]).
Proof. vm_compute. reflexivity. Qed.

Print Assumptions C76_call.
Print Assumptions C76_calls.
Print Assumptions C76_missing.
Print Assumptions C76_once.
