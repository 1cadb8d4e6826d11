(** Theorems about how fuse-vfs answers requests: C47, C49 and C54 of
    properties.jsonl. *)

From Verif Require Import Base Kernel CoreModel DecodeModel OpsModel WireSpec DecodeProofs
  ReplyModel ReplySpec ReplyProofs PropReply PropServer ServerModel VfsModel VfsSpec VfsRun VfsProofs
  PropTables PropStatic.
From Coq Require Import List NArith ZArith Bool Lia ZifyBool ZifyNat ZifyN.
Import ListNotations.
Open Scope N_scope.

(** ** Specification *)

Section Spec.
Context {E : Endian} {W Node FH DH : Type} (U : user W Node FH DH) (os : OsErrors).

(** What the type system guarantees of user code: error codes are C ints, and
    attributes are for a node id that is not zero. *)
Definition error_ok {A} (r : A + Z) : Prop := match r with inl _ => True | inr e => is_i32 e end.
Definition released_ok (r : option Z) : Prop := match r with Some e => is_i32 e | None => True end.
Record typed_user : Prop := {
  t_getattr n rq w : error_ok (snd (u_getattr U n rq w));
  t_getxattr n rq w : error_ok (snd (u_getxattr U n rq w));
  t_listxattr n rq w : error_ok (snd (u_listxattr U n rq w));
  t_statfs n rq w : error_ok (snd (u_statfs U n rq w));
  t_lookup n rq w :
    match snd (u_lookup U n rq w) with
    | inl r => match lr_node r with Some (_, attr) => 0 < fa_ino attr < U64 | None => True end
    | inr e => is_i32 e
    end;
  t_opendir n rq w : error_ok (snd (u_opendir U n rq w));
  t_open n rq w : error_ok (snd (u_open U n rq w));
  t_readlink n rq w : error_ok (snd (u_readlink U n rq w));
  t_readdir d rq w : error_ok (snd (u_readdir U d rq w));
  t_readdirplus d rq w : error_ok (snd (u_readdirplus U d rq w));
  t_releasedir d rq w : released_ok (snd (u_releasedir U d rq w));
  t_read f rq w : error_ok (snd (u_read U f rq w));
  t_write f rq w : error_ok (snd (u_write U f rq w));
  t_release f rq w : released_ok (snd (u_release U f rq w)) }.
Record typed_errors : Prop := {
  t_invalid : is_i32 (INVALID_ARGUMENT os); t_not_dir : is_i32 (NOT_DIRECTORY os);
  t_not_supported : is_i32 (NOT_SUPPORTED os) }.

(** No reply the user asks for exceeds the largest message. *)
Definition small {A} (size : A -> N) (r : A + Z) : Prop :=
  match r with inl a => 16 + size a <= u32_max | inr _ => True end.
Record small_user : Prop := {
  s_getxattr n rq w : small nlen (snd (u_getxattr U n rq w));
  s_listxattr n rq w : small nlen (snd (u_listxattr U n rq w));
  s_readlink n rq w : small nlen (snd (u_readlink U n rq w));
  s_readdir d rq w : small nlen (snd (u_readdir U d rq w));
  s_readdirplus d rq w : small nlen (snd (u_readdirplus U d rq w));
  s_read f rq w : small nlen (snd (u_read U f rq w)) }.

(** The result of a handler whose reply was answered like this by the
    socket. *)
Definition outcome (ev : send_event) : unit + ServerError :=
  match ev with SendOk => inl tt | SendFails e => inr (SrvSend e) end.
End Spec.

(** ** Proofs *)

Section Proofs.
Context {E : Endian} {W Node FH DH : Type} (U : user W Node FH DH) (os : OsErrors) (cf : config).
Context (TU : typed_user U) (TE : typed_errors os).
Notation prog := (prog W Node FH DH).
Notation event := (event Node FH DH).
Notation label := (label Node FH DH).

(** *** One reply *)

(** After the reply. *)
Definition after (r : unit + ServerError) (p : prog) : Prop :=
  p = PDone r \/ exists i n, p = PNodeAdd i n (PDone r).

(** A program that will give one reply to [id]; [Q] holds between the message,
    the answer of the socket and the rest of the program. *)
Section Once.
Context (Q : SendBuf -> send_event -> prog -> Prop).
Fixpoint once (id : N) (p : prog) : Prop :=
  match p with
  | PDone r => exists n, r = inr (SrvSend (SE_ReplyTooBig n)) /\ u32_max < n /\ ~ small_user U
  | PPanic | PUb | PNodeAdd _ _ _ | PNodeForget _ _ => False
  | PUser f k => forall w, once id (k (snd (f w)))
  | PNodeGet _ k => forall o, once id (k o)
  | POpenFile _ k | POpenDir _ k => forall h, once id (k h)
  | PGetFile _ _ k => forall o, once id (k o)
  | PGetDir _ _ k => forall o, once id (k o)
  | PReleaseFile _ _ rq k =>
    forall r, match r with ReleaseFailed e => exists f w, snd (u_release U f rq w) = Some e
                         | _ => True end -> once id (k r)
  | PReleaseDir _ _ rq k =>
    forall r, match r with ReleaseFailed e => exists d w, snd (u_releasedir U d rq w) = Some e
                         | _ => True end -> once id (k r)
  | PSend b k =>
    (exists e p, reads_as b id e p) /\ forall ev, after (outcome ev) (k ev) /\ Q b ev (k ev)
  end.

Lemma reply_then_once id a k :
  is_id id -> is_i32 (error_of a) ->
  (forall n, answer_call (cf_minor cf) id a = Refuse (SE_ReplyTooBig n) -> ~ small_user U) ->
  (forall ev, after (outcome ev) (k (match ev with SendOk => inl tt | SendFails e => inr e end))) ->
  (forall e, k (inr e) = PDone (inr (SrvSend e))) ->
  (forall b ev p, reads_as b id (error_of a) p -> answer_call (cf_minor cf) id a = Call b ->
     Q b ev (k (match ev with SendOk => inl tt | SendFails e => inr e end))) ->
  once id (reply_then cf id a k).
Proof.
  intros Hid He Hs Hk Hf Hq. unfold reply_then.
  destruct (C18_reply_framing (cf_minor cf) id a Hid He) as [(p & b & m & C & R)|(n & C & L)].
  - rewrite C. cbn [once]. split.
    + exists (error_of a), p. exists m. exact R.
    + intros ev. specialize (Hk ev). specialize (Hq b ev p (ex_intro _ m R) C).
      destruct ev; split; assumption.
  - rewrite C. rewrite Hf. cbn [once]. exists n. split; [reflexivity|]. split; [exact L|eauto].
Qed.

Lemma reply_once id a :
  is_id id -> is_i32 (error_of a) ->
  (forall n, answer_call (cf_minor cf) id a = Refuse (SE_ReplyTooBig n) -> ~ small_user U) ->
  (forall b ev p, reads_as b id (error_of a) p -> answer_call (cf_minor cf) id a = Call b ->
     Q b ev (PDone (outcome ev))) ->
  once id (reply cf id a).
Proof.
  intros Hid He Hs Hq. apply reply_then_once; auto.
  - intros ev. left. now destruct ev.
  - intros b ev p R C. specialize (Hq b ev p R C). now destruct ev.
Qed.
End Once.
Definition any (b : SendBuf) (ev : send_event) (p : prog) : Prop := True.

Lemma zero_i32 : is_i32 0.
Proof. unfold is_i32. lia. Qed.
Lemma err_once id e : is_id id -> is_i32 e -> once any id (reply cf id (AErr e)).
Proof. intros. apply reply_once; unfold any; auto. discriminate. Qed.
Lemma empty_once id : is_id id -> once any id (reply cf id AOkEmpty).
Proof. intros. apply reply_once; [auto|exact zero_i32|discriminate|unfold any; auto]. Qed.

(** A fixed-size reply is never refused. *)
Lemma fixed_ok id r n : is_id id -> expected_len (cf_minor cf) r = Some n ->
  forall k, answer_call (cf_minor cf) id (AOk r) = Refuse (SE_ReplyTooBig k) -> ~ small_user U.
Proof.
  intros Hid H k C. destruct (C21_reply_sizes (cf_minor cf) id r n Hid H) as (p & (b & m & C' & _) & _).
  congruence.
Qed.
Lemma fixed_once id r n : is_id id -> expected_len (cf_minor cf) r = Some n ->
  once any id (reply cf id (AOk r)).
Proof.
  intros Hid H. apply reply_once; [auto|exact zero_i32| |unfold any; auto]. eapply fixed_ok; eauto.
Qed.

(** A buffer of the user is refused only if it is too large. *)
Lemma buf_once id b : is_id id -> (small_user U -> 16 + nlen b <= u32_max) ->
  once any id (reply cf id (AOkBuf b)).
Proof.
  intros Hid H. apply reply_once; [auto|exact zero_i32| |unfold any; auto]. intros n C S. specialize (H S).
  destruct (C18_payload (cf_minor cf) id b [] [] [] Hid) as (_ & _ & _ & _ & P & _).
  destruct (P H) as ((b' & m & C' & _) & _). congruence.
Qed.

Ltac errs := apply err_once; auto; try apply TE.

Lemma body_once rq id t v : is_id id -> t <> RForget ->
  decode_view false cf t rq = Ret v -> (exists op, vfs_type op = Some t) ->
  once any id (vfs_body U os cf rq id t v).
Proof.
  intros Hid Nf D [op T].
  destruct t; try (unfold vfs_type in T;
    repeat match type of T with context [if ?c then _ else _] => destruct c end; discriminate);
  try contradiction.
  all: cbn [decode_view] in D;
    repeat match type of D with
    | bind ?m _ = Ret _ => destruct m; cbn [bind] in D; try discriminate
    end; injection D as <-; cbn [vfs_body getattr_body getxattr_body listxattr_body lookup_body open_body
      opendir_body read_body readdir_body readdirplus_body readlink_body release_body releasedir_body
      statfs_body write_body]; unfold with_node, with_file, with_dir, with_trait, call; cbn [once].
  - intros [n|]; [|errs]. cbn [once]. intros w. pose proof (t_getattr U TU n rq w) as He.
    destruct (snd (u_getattr U n rq w)); [|now errs]. cbv zeta. eapply fixed_once; [auto|reflexivity].
  - intros [n|]; [|errs]. cbn [once]. intros w. pose proof (t_getxattr U TU n rq w) as He.
    destruct (snd (u_getxattr U n rq w)) eqn:R; [|now errs]. apply buf_once; auto.
    intros S. pose proof (s_getxattr U S n rq w) as X. now rewrite R in X.
  - intros [n|]; [|errs]. cbn [once]. intros w. pose proof (t_listxattr U TU n rq w) as He.
    destruct (snd (u_listxattr U n rq w)) eqn:R; [|now errs]. apply buf_once; auto.
    intros S. pose proof (s_listxattr U S n rq w) as X. now rewrite R in X.
  - intros [n|]; [|errs]. cbn [once]. intros w. destruct (snd (u_as_directory U n w)); [|errs].
    cbn [once]. intros w1. pose proof (t_lookup U TU n rq w1) as He.
    destruct (snd (u_lookup U n rq w1)) as [r|]; [|now errs]. unfold lookup_rest.
    destruct (lr_node r) as [[node attr]|].
    + unfold NodeAttr_node_id, NodeId_new_unchecked.
      destruct (N.eqb_spec (fa_ino attr) 0); [lia|]. cbn [attempt].
      apply reply_then_once; [auto|exact zero_i32|eapply fixed_ok; [auto|reflexivity]| | |].
      * intros [|]; [right; eauto|now left].
      * reflexivity.
      * unfold any. auto.
    + eapply fixed_once; [auto|reflexivity].
  - intros [n|]; [|errs]. cbn [once]. intros w. destruct (snd (u_as_file U n w)); [|errs].
    cbn [once]. intros w1. pose proof (t_open U TU n rq w1) as He.
    destruct (snd (u_open U n rq w1)) as [r|]; [|now errs]. cbn [once]. intros h.
    eapply fixed_once; [auto|reflexivity].
  - intros [n|]; [|errs]. cbn [once]. intros w. destruct (snd (u_as_directory U n w)); [|errs].
    cbn [once]. intros w1. pose proof (t_opendir U TU n rq w1) as He.
    destruct (snd (u_opendir U n rq w1)) as [r|]; [|now errs]. cbn [once]. intros h.
    eapply fixed_once; [auto|reflexivity].
  - intros [n|]; [|errs]. cbn [once]. intros w. destruct (snd (u_as_read_handle U n w)); [|errs].
    cbn [once]. intros w1. pose proof (t_read U TU n rq w1) as He.
    destruct (snd (u_read U n rq w1)) eqn:R; [|now errs]. apply buf_once; auto.
    intros S. pose proof (s_read U S n rq w1) as X. now rewrite R in X.
  - intros [n|]; [|errs]. cbn [once]. intros w. destruct (snd (u_as_readdir_handle U n w)); [|errs].
    cbn [once]. intros w1. pose proof (t_readdir U TU n rq w1) as He.
    destruct (snd (u_readdir U n rq w1)) eqn:R; [|now errs]. apply buf_once; auto.
    intros S. pose proof (s_readdir U S n rq w1) as X. now rewrite R in X.
  - intros [n|]; [|errs]. cbn [once]. intros w. destruct (snd (u_as_readdirplus_handle U n w)); [|errs].
    cbn [once]. intros w1. pose proof (t_readdirplus U TU n rq w1) as He.
    destruct (snd (u_readdirplus U n rq w1)) eqn:R; [|now errs]. apply buf_once; auto.
    intros S. pose proof (s_readdirplus U S n rq w1) as X. now rewrite R in X.
  - intros [n|]; [|errs]. cbn [once]. intros w. destruct (snd (u_as_symlink U n w)); [|errs].
    cbn [once]. intros w1. pose proof (t_readlink U TU n rq w1) as He.
    destruct (snd (u_readlink U n rq w1)) eqn:R; [|now errs]. apply buf_once; auto.
    intros S. pose proof (s_readlink U S n rq w1) as X. now rewrite R in X.
  - intros [|e|] He; [errs| |now apply empty_once]. destruct He as (f & w & He).
    pose proof (t_release U TU f rq w) as T'. rewrite He in T'. now errs.
  - intros [|e|] He; [errs| |now apply empty_once]. destruct He as (d & w & He).
    pose proof (t_releasedir U TU d rq w) as T'. rewrite He in T'. now errs.
  - intros [n|]; [|errs]. cbn [once]. intros w. pose proof (t_statfs U TU n rq w) as He.
    destruct (snd (u_statfs U n rq w)); [|now errs]. eapply fixed_once; [auto|reflexivity].
  - intros [n|]; [|errs]. cbn [once]. intros w. destruct (snd (u_as_write_handle U n w)); [|errs].
    cbn [once]. intros w1. pose proof (t_write U TU n rq w1) as He.
    destruct (snd (u_write U n rq w1)); [|now errs]. eapply fixed_once; [auto|reflexivity].
Qed.

(** *** Threads *)

Inductive path : prog -> list event -> prog -> Prop :=
| path_nil p : path p [] p
| path_snoc p l p1 v w ev e p2 v' w' :
  path p l p1 -> exec U cf p1 v w ev = Some (e, p2, v', w') -> path p (l ++ [e]) p2.

Lemma nth_set i j (p : prog) l :
  nth_error (set_thread i p l) j =
  if Nat.eqb i j then match nth_error l j with Some _ => Some p | None => None end else nth_error l j.
Proof.
  revert i j. induction l as [|q l IH]; intros [|i] [|j]; cbn [set_thread nth_error Nat.eqb]; auto.
  now destruct (Nat.eqb i j).
Qed.
Lemma length_set i (p : prog) l : length (set_thread i p l) = length l.
Proof. revert i. induction l; intros [|i]; cbn; auto. Qed.

Lemma of_thread_app i (a b : list label) : of_thread i (a ++ b) = of_thread i a ++ of_thread i b.
Proof. unfold of_thread. apply flat_map_app. Qed.

Lemma threads_inv root w tr s :
  steps U os cf (start root w) tr s ->
  (forall i e, In (Did i e) tr -> (i < length (sv_threads s))%nat) /\
  (forall i rq, In (Arrived i rq) tr ->
     exists p0 p, nth_error (sv_threads s) i = Some p /\ dispatch U os cf rq = Some p0 /\
       path p0 (of_thread i tr) p).
Proof.
  intros H. remember (start root w) as s0 eqn:S0. induction H as [s|s tr s1 l s2 H IH St].
  - split; intros; contradiction.
  - specialize (IH S0). destruct IH as [I1 I2].
    inversion St as [i p ev e p' v v' w0 w' ts Hn He Es El Es2|rq p v w0 ts Hd Es El Es2|v w0 w' ts Es El Es2]; subst l s2 s1;
      cbn [sv_threads] in *.
    + split.
      * intros j e' X. rewrite length_set. apply in_app_iff in X as [X|[X|[]]]; eauto.
        injection X as <- <-. apply nth_error_Some. congruence.
      * intros j rq X. apply in_app_iff in X as [X|[X|[]]]; [|discriminate].
        destruct (I2 j rq X) as (p0 & q & N & D & P). rewrite nth_set, N. exists p0.
        rewrite of_thread_app. cbn [of_thread flat_map].
        destruct (Nat.eqb_spec i j) as [<-|Ne].
        -- exists p'. split; [reflexivity|]. split; [exact D|]. cbn [app].
           rewrite N in Hn. injection Hn as ->. eapply path_snoc; eauto.
        -- exists q. cbn [app]. rewrite app_nil_r. repeat split; auto.
    + split.
      * intros j e' X. rewrite app_length. apply in_app_iff in X as [X|[X|[]]]; [|discriminate].
        apply I1 in X. lia.
      * intros j rq' X. rewrite of_thread_app. cbn [of_thread flat_map]. rewrite app_nil_r.
        apply in_app_iff in X as [X|[X|[]]].
        -- destruct (I2 j rq' X) as (p0 & q & N & D & P). exists p0, q. split; [|auto].
           rewrite nth_error_app1; [exact N|]. apply nth_error_Some. congruence.
        -- injection X as <- <-. exists p, p. split; [|split; [exact Hd|]].
           ++ rewrite nth_error_app2 by lia. now rewrite Nat.sub_diag.
           ++ assert (F : of_thread (length ts) tr = []); [|rewrite F; constructor].
              assert (G : forall i e, In (Did i e) tr -> i <> length ts)
                by (intros i e Y; apply I1 in Y; lia).
              clear -G. induction tr as [|l tr IH]; [reflexivity|]. cbn [of_thread flat_map].
              fold (of_thread (length ts) tr). rewrite IH by (intros i e Y; apply (G i e); now right).
              destruct l as [i e| |]; [|reflexivity|reflexivity].
              destruct (Nat.eqb_spec i (length ts)) as [->|]; [|reflexivity].
              exfalso. apply (G (length ts) e); [now left|reflexivity].
    + split.
      * intros j e' X. apply in_app_iff in X as [X|[X|[]]]; [eauto|discriminate].
      * intros j rq X. apply in_app_iff in X as [X|[X|[]]]; [|discriminate].
        rewrite of_thread_app. cbn [of_thread flat_map]. rewrite app_nil_r. auto.
Qed.

(** Where a handler that replies once can be. *)
Definition progress (Q : SendBuf -> send_event -> prog -> Prop) (id : N) (l : list event) (p : prog) : Prop :=
  (sent l = [] /\ once Q id p) \/
  (exists b ev e pl q l', sent l = [b] /\ reads_as b id e pl /\ Q b ev q /\ after (outcome ev) q /\
     ((p = q /\ l = l' ++ [EvSend b ev]) \/
      (exists i n, q = PNodeAdd i n (PDone (outcome ev)) /\
       ((l = l' ++ [EvSend b ev; EvNodeAdd i n] /\ p = PDone (outcome ev)) \/
        (l = l' ++ [EvSend b ev; EvPanic] /\ p = PPanic))))) \/
  (sent l = [] /\ p = PPanic /\ In EvPanic l).

Lemma sent_app (a b : list event) : sent (a ++ b) = sent a ++ sent b.
Proof. unfold sent. apply flat_map_app. Qed.

Lemma progress_path Q id p0 l p : once Q id p0 -> path p0 l p -> progress Q id l p.
Proof.
  intros H0 P. induction P as [p|p l p1 v w ev e p2 v' w' P IH X].
  - left. split; auto.
  - specialize (IH H0). clear H0 P.
    destruct IH as [[S O]|[(b & ev' & e' & pl & q & l' & S & R & HQ & A & D)|(S & -> & _)]].
    + assert (Plain : sent [e] = [] -> once Q id p2 -> progress Q id (l ++ [e]) p2).
      { intros Se O2. left. now rewrite sent_app, S, Se. }
      assert (Pan : Some (@EvPanic Node FH DH, @PPanic W Node FH DH, v, w) = Some (e, p2, v', w') ->
        progress Q id (l ++ [e]) p2).
      { intros [= <- <- <- <-]. right. right. split; [now rewrite sent_app, S|]. split; [reflexivity|].
        apply in_or_app. right. now left. }
      destruct p1; cbn [exec once] in *; try discriminate; try contradiction.
      * specialize (O w). destruct (f w) as [w1 a]. injection X as <- <- <- <-. now apply Plain.
      * injection X as <- <- <- <-. now apply Plain.
      * destruct (HandlesMap_open_file _ _ v) as [[h' v1]|]; [|now apply Pan].
        injection X as <- <- <- <-. now apply Plain.
      * destruct (HandlesMap_open_dir _ _ v) as [[h' v1]|]; [|now apply Pan].
        injection X as <- <- <- <-. now apply Plain.
      * injection X as <- <- <- <-. now apply Plain.
      * injection X as <- <- <- <-. now apply Plain.
      * destruct (HandlesMap_get_file node_id h v) as [f|].
        -- destruct (u_release U f rq w) as [w1 [e1|]] eqn:T;
             injection X as <- <- <- <-; (apply Plain; [reflexivity|]); apply O;
             [exists f, w; now rewrite T|exact I].
        -- injection X as <- <- <- <-. apply Plain; [reflexivity|]. apply O; exact I.
      * destruct (HandlesMap_get_dir node_id h v) as [f|].
        -- destruct (u_releasedir U f rq w) as [w1 [e1|]] eqn:T;
             injection X as <- <- <- <-; (apply Plain; [reflexivity|]); apply O;
             [exists f, w; now rewrite T|exact I].
        -- injection X as <- <- <- <-. apply Plain; [reflexivity|]. apply O; exact I.
      * injection X as <- <- <- <-. destruct O as [(e1 & pl & R) O]. destruct (O ev) as [A HQ].
        right. left. exists buf, ev, e1, pl, (k ev), l. rewrite sent_app, S. cbn [sent flat_map app].
        repeat split; auto.
    + right. left. exists b, ev', e', pl, q.
      destruct D as [[-> ->]|(i & n & -> & [[-> ->]|[-> ->]])]; [|discriminate|discriminate].
      destruct A as [->|(i & n & ->)]; [discriminate|].
      exists l'. cbn [exec] in X.
      assert (S' : forall e1 : event, sent [e1] = [] -> sent ((l' ++ [EvSend b ev']) ++ [e1]) = [b]).
      { intros e1 Y. rewrite (sent_app _ [e1]), S, Y. reflexivity. }
      destruct (NodeMap_add _ i n (v_nodes v)); injection X as <- <- <- <-; rewrite S' by reflexivity;
        repeat split; auto; try (right; eauto; fail); right; exists i, n; (split; [reflexivity|]).
      * left. split; [|reflexivity]. now rewrite <- app_assoc.
      * right. split; [|reflexivity]. now rewrite <- app_assoc.
    + discriminate.
Qed.

(** ** C47 *)

(** A request of another type is not handled, and nothing is sent. *)
Theorem C47_unsupported buf rq :
  Request_new buf = Ret rq -> vfs_type (u32_at 4 buf) = None -> dispatch U os cf rq = None.
Proof. intros H T. pose proof (dispatch_eq U os cf buf rq H) as D. now rewrite T in D. Qed.

(** A malformed request: the handler returns the error and does nothing. *)
Theorem C47_malformed buf rq t e :
  Request_new buf = Ret rq -> vfs_type (u32_at 4 buf) = Some t ->
  decode_view false cf t rq = Fail e ->
  dispatch U os cf rq = Some (PDone (inr (SrvRequest e))).
Proof.
  intros H T D. pose proof (dispatch_eq U os cf buf rq H) as X. rewrite T in X.
  destruct t; try (destruct X as (p & X & Y); unfold handles_view in Y; rewrite D in Y; subst p; exact X).
  rewrite X. pose proof (forget_view (W := W) (Node := Node) (FH := FH) (DH := DH) cf rq) as F.
  rewrite D in F. now rewrite F.
Qed.

(** FORGET and BATCH_FORGET: the items are forgotten in one action and nothing
    is sent. *)
Theorem C47_forget buf rq items :
  Request_new buf = Ret rq -> vfs_type (u32_at 4 buf) = Some RForget ->
  decode_view false cf RForget rq = Ret (VForget items) ->
  exists p, dispatch U os cf rq = Some p /\
    (forall v w ev l p' v' w', runs U cf p v w ev l p' v' w' ->
       l = [EvNodeForget items] /\ p' = PDone (inl tt) /\ w' = w) /\
    (forall root w tr s i, steps U os cf (start root w) tr s -> In (Arrived i rq) tr ->
       sent (of_thread i tr) = []).
Proof.
  intros H T D. pose proof (dispatch_eq U os cf buf rq H) as X. rewrite T in X.
  pose proof (forget_view (W := W) (Node := Node) (FH := FH) (DH := DH) cf rq) as F.
  rewrite D in F. rewrite F in X. exists (PNodeForget items (PDone (inl tt))). split; [exact X|]. split.
  - intros v w ev l p' v' w' R. inversion R as [? ? ? ? Hx|? ? ? ? ? ? ? ? ? ? ? ? Hx R2]; subst.
    + discriminate.
    + injection Hx as <- <- <- <-.
      inversion R2 as [? ? ? ? Hy|? ? ? ? ? ? ? ? ? ? ? ? Hy R3]; subst; [auto|discriminate].
  - intros root w tr s i St A. destruct (threads_inv root w tr s St) as [_ I].
    destruct (I i rq A) as (p0 & p & _ & D0 & P). rewrite X in D0. injection D0 as <-.
    remember (PNodeForget items (PDone (inl tt))) as p0 eqn:P0.
    assert (G : (p = p0 /\ of_thread i tr = []) \/ (p = PDone (inl tt) /\ sent (of_thread i tr) = []));
      [|destruct G as [[_ ->]|[_ ->]]; reflexivity].
    clear A St I. induction P as [p|p l p1 v0 w0 ev e p2 v' w' P IH Hx]; [now left|].
    destruct (IH P0 X F) as [[-> ->]|[-> S]].
    + rewrite P0 in Hx. injection Hx as <- <- <- <-. now right.
    + discriminate.
Qed.

(** Every other well-formed request, in every interleaving of the threads: at
    most one reply is sent until the handler returns, and exactly one, to
    this request, when it has returned, unless the user asked for a reply
    larger than any message can be.  The handler returns what the socket
    answered.  Undefined behaviour does not occur, and a panic only where a
    counter overflows. *)
Theorem C47_one_reply buf rq t v root w tr s i :
  Request_new buf = Ret rq -> vfs_type (u32_at 4 buf) = Some t -> t <> RForget ->
  decode_view false cf t rq = Ret v ->
  steps U os cf (start root w) tr s -> In (Arrived i rq) tr ->
  exists p, nth_error (sv_threads s) i = Some p /\
  match p with
  | PDone r =>
    (exists b ev error payload, sent (of_thread i tr) = [b] /\ In (EvSend b ev) (of_thread i tr) /\
       reads_as b (u64_at 8 buf) error payload /\ r = outcome ev) \/
    (sent (of_thread i tr) = [] /\ ~ small_user U /\
     exists n, r = inr (SrvSend (SE_ReplyTooBig n)) /\ u32_max < n)
  | PPanic => (length (sent (of_thread i tr)) <= 1)%nat /\ In EvPanic (of_thread i tr)
  | PUb => False
  | _ => (length (sent (of_thread i tr)) <= 1)%nat
  end.
Proof.
  intros H T Nf D St A. destruct (threads_inv root w tr s St) as [_ I].
  destruct (I i rq A) as (p0 & p & N & D0 & P). exists p. split; [exact N|].
  destruct (dispatch_view U os cf buf rq t H T Nf) as (p1 & D1 & X).
  rewrite D1 in D0. injection D0 as <-.
  destruct X as [(e & X & _)|(v' & X & ->)]; [congruence|].
  rewrite D in X. injection X as <-.
  destruct (header_opcode_eq buf rq H) as (_ & _ & Hid).
  pose proof (body_once rq (u64_at 8 buf) t v Hid Nf D (ex_intro _ _ T)) as O.
  pose proof (progress_path any _ _ _ _ O P) as [[S O2]|[(b & ev & e & pl & q & l' & S & R & _ & A2 & X)|(S & -> & X)]].
  - destruct p; try (rewrite S; cbn; lia); cbn [once] in O2; try contradiction.
    right. destruct O2 as (n & -> & L & Ns). eauto 6.
  - destruct X as [[-> L]|(k & n & -> & [[L ->]|[L ->]])].
    + destruct A2 as [->|(k & n & ->)]; [|rewrite S; cbn; lia].
      left. exists b, ev, e, pl. split; [exact S|]. split; [|auto]. rewrite L. apply in_or_app. right. now left.
    + left. exists b, ev, e, pl. split; [exact S|]. split; [|auto]. rewrite L. apply in_or_app. right. now left.
    + split; [rewrite S; cbn; lia|]. rewrite L. apply in_or_app. right. right. now left.
  - split; [rewrite S; cbn; lia|exact X].
Qed.

(** Every handler ends, whatever the state. *)
Theorem C47_terminates p : forall v w ev, exists l p' v' w', runs U cf p v w ev l p' v' w'.
Proof.
  assert (End : forall p v w ev, exec U cf p v w ev = None ->
    exists l p' v' w', runs U cf p v w ev l p' v' w').
  { intros. do 4 eexists. now apply runs_end. }
  induction p; intros v w ev; try (apply End; reflexivity).
  all: match goal with |- context [runs U cf ?p ?v ?w ?ev] => destruct (exec U cf p v w ev)
         as [[[[e p1] v1] w1]|] eqn:X; [|now apply End] end.
  all: enough (Next : exists l p' v' w', runs U cf p1 v1 w1 ev l p' v' w')
         by (destruct Next as (l & p' & v' & w' & R); do 4 eexists; eapply runs_act; eauto).
  all: cbn [exec] in X;
    repeat match type of X with
    | (let '(_, _) := ?m in _) = _ => destruct m
    | match ?m with _ => _ end = _ => destruct m as [[? ?]|] || destruct m
    end; try discriminate; injection X as <- <- <- <-; auto; apply End; reflexivity.
Qed.

Lemma panic_late root w tr s i s' :
  steps U os cf (start root w) tr s -> step U os cf s (Did i EvPanic) s' ->
  U64 <= nlen (handles tr) + 2 \/ exists id, U64 <= lookups id tr + 1.
Proof.
  intros H St. destruct (N.lt_ge_cases (nlen (handles tr) + 2) U64) as [L|L]; [|now left].
  inversion St as [? p ev e p' v v' w0 w' ts Hn He| |]; subst.
  destruct (handles_inv U os cf root w tr _ H) as (_ & Hk & _); [lia|]. cbn [sv_vfs] in Hk.
  assert (Inc : forall n, n + 1 < U64 -> incr64 (cf_overflow_checks cf) n = Some (n + 1)).
  { intros n Ln. unfold incr64. now replace (n + 1 <? U64) with true by lia. }
  assert (Hk' : v_next_handle_id v = nlen (handles tr) + 1).
  { rewrite Hk. now replace (nlen (handles tr) + 1 <? U64) with true by lia. }
  destruct p; cbn [exec] in He; try discriminate.
  - destruct (f w0). discriminate.
  - unfold NodeMap_add in He. destruct (N.lt_ge_cases (lookups node_id tr + 1) U64) as [Li|Li]; [|eauto].
    pose proof (nodes_inv U os cf root w tr _ node_id H ltac:(lia)) as I. unfold table_inv in I.
    cbn [sv_vfs] in I. destruct (v_nodes v node_id) as [[n c]|]; [|discriminate].
    destruct I as (-> & _ & _). pose proof (net_le node_id tr). rewrite Inc in He by lia. discriminate.
  - unfold HandlesMap_open_file in He. rewrite Hk' in He.
    rewrite Inc in He by lia. discriminate.
  - unfold HandlesMap_open_dir in He. rewrite Hk' in He.
    rewrite Inc in He by lia. discriminate.
  - destruct (HandlesMap_get_file node_id h v); [destruct (u_release U f rq w0) as [? []]|]; discriminate.
  - destruct (HandlesMap_get_dir node_id h v); [destruct (u_releasedir U d rq w0) as [? []]|]; discriminate.
Qed.

Lemma nlen_handles_app (a b : list label) : nlen (handles (a ++ b)) = nlen (handles a) + nlen (handles b).
Proof. unfold handles. now rewrite flat_map_app, nlen_app. Qed.

(** No thread panics before some 2^64 handles are opened or one node is looked
    up as often. *)
Theorem C47_no_panic root w tr s i :
  steps U os cf (start root w) tr s ->
  nlen (handles tr) + 2 < U64 -> (forall id, lookups id tr + 1 < U64) ->
  ~ In (Did i EvPanic) tr.
Proof.
  intros H. remember (start root w) as s0. induction H as [s|s tr s1 l s2 H IH St]; subst s; [auto|].
  intros L1 L2 I. rewrite nlen_handles_app in L1.
  assert (L2' : forall id, lookups id tr + 1 < U64).
  { intros id. specialize (L2 id). pose proof (lookups_snoc id tr l). lia. }
  apply in_app_iff in I as [I|[->|[]]]; [apply IH; auto; lia|].
  destruct (panic_late root w tr s1 i s2 H St) as [X|[id X]]; [lia|]. specialize (L2' id). lia.
Qed.

(** So with users that do not ask for oversized replies: a handler that has
    ended has returned, after sending exactly one reply. *)
Theorem C47_exactly_one buf rq t v root w tr s i p :
  Request_new buf = Ret rq -> vfs_type (u32_at 4 buf) = Some t -> t <> RForget ->
  decode_view false cf t rq = Ret v -> small_user U ->
  steps U os cf (start root w) tr s -> In (Arrived i rq) tr ->
  nlen (handles tr) + 2 < U64 -> (forall id, lookups id tr + 1 < U64) ->
  nth_error (sv_threads s) i = Some p -> (forall v w ev, exec U cf p v w ev = None) ->
  exists b ev error payload, sent (of_thread i tr) = [b] /\ In (EvSend b ev) (of_thread i tr) /\
    reads_as b (u64_at 8 buf) error payload /\ p = PDone (outcome ev).
Proof.
  intros H T Nf D Sm St A L1 L2 N End.
  destruct (C47_one_reply buf rq t v root w tr s i H T Nf D St A) as (p' & N' & X).
  rewrite N in N'. injection N' as <-. specialize (End (sv_vfs s) (sv_world s) SendOk).
  destruct p; try (cbn [exec] in End; discriminate).
  - destruct X as [(b & ev & e & pl & S & I & R & ->)|(_ & X & _)]; [eauto 8|contradiction].
  - exfalso. destruct X as [_ X]. unfold of_thread in X. apply in_flat_map in X as (l & X1 & X2).
    destruct l as [j e| |]; [|contradiction|contradiction]. destruct (Nat.eqb_spec j i) as [->|]; [|contradiction].
    destruct X2 as [->|[]]. exact (C47_no_panic root w tr s i St L1 L2 X1).
  - contradiction.
  - exfalso. cbn [exec] in End. destruct (f (sv_world s)). discriminate.
  - exfalso. cbn [exec] in End. now destruct (NodeMap_add _ _ _ _).
  - exfalso. cbn [exec] in End. now destruct (HandlesMap_open_file _ _ _) as [[? ?]|].
  - exfalso. cbn [exec] in End. now destruct (HandlesMap_open_dir _ _ _) as [[? ?]|].
  - exfalso. cbn [exec] in End. destruct (HandlesMap_get_file _ _ _); [|discriminate].
    now destruct (u_release U _ _ _) as [? []].
  - exfalso. cbn [exec] in End. destruct (HandlesMap_get_dir _ _ _); [|discriminate].
    now destruct (u_releasedir U _ _ _) as [? []].
Qed.

(** ** C49 *)

Lemma reads_as_fun b id e p id' e' p' :
  reads_as b id e p -> reads_as b id' e' p' -> id = id' /\ e = e' /\ p = p'.
Proof.
  intros (m & W1 & _ & K) (m' & W' & _ & K'). rewrite W1 in W'. injection W' as <-.
  rewrite K in K'. now injection K' as -> -> ->.
Qed.

(** After a successful LOOKUP reply only the registration of the node is left. *)
Definition registers (id : N) (b : SendBuf) (ev : send_event) (p : prog) : Prop :=
  ev = SendOk -> forall payload, reads_as b id 0 payload -> u64_at 0 payload <> 0 ->
  exists node, p = PNodeAdd (u64_at 0 payload) node (PDone (inl tt)).

Lemma entry_payload id e b : is_id id ->
  answer_call (cf_minor cf) id (AOk (REntryOut e)) = Call b ->
  eo_nodeid e < U64 ->
  reads_as b id 0 (payload (cf_minor cf) (REntryOut e)) /\
  u64_at 0 (payload (cf_minor cf) (REntryOut e)) = eo_nodeid e.
Proof.
  intros Hid C L. split.
  - destruct (ok_replies (cf_minor cf) id (REntryOut e) Hid) as (b' & m & C' & R).
    + erewrite nlen_payload by reflexivity. unfold u32_max. destruct (cf_minor cf <? 9); lia.
    + rewrite C in C'. injection C' as <-. exists m. exact R.
  - cbn [payload]. unfold u64_at, fuse_entry_out_bytes.
    rewrite fld_take by (destruct (cf_minor cf <? 9); cbn; lia).
    rewrite <- app_nil_r at 1. apply fld_wire; [reflexivity|exact L].
Qed.

Lemma lookup_once rq id parent name : is_id id ->
  once (registers id) id (lookup_body U os cf rq id (VLookup parent name)).
Proof.
  intros Hid.
  assert (Err : forall e, is_i32 e -> once (registers id) id (reply cf id (AErr e))).
  { intros e He. apply reply_once; auto; [discriminate|]. intros b ev p R C Ev pl R' NZ. exfalso.
    destruct (C20_error_reply (cf_minor cf) id e Hid He) as ((b' & m & C' & R2) & _).
    rewrite C in C'. injection C' as <-.
    destruct (reads_as_fun b id 0 pl id e [] R' (ex_intro _ m R2)) as (_ & _ & ->). apply NZ. unfold u64_at, fld.
    unfold dec. now destruct (big_endian). }
  unfold lookup_body, with_node, with_trait, call. cbn [once].
  intros [n|]; [|apply Err; apply TE]. cbn [once]. intros w.
  destruct (snd (u_as_directory U n w)); [|apply Err; apply TE].
  cbn [once]. intros w1. pose proof (t_lookup U TU n rq w1) as He.
  destruct (snd (u_lookup U n rq w1)) as [r|]; [|apply Err; auto]. unfold lookup_rest.
  destruct (lr_node r) as [[node attr]|].
  - unfold NodeAttr_node_id, NodeId_new_unchecked.
    destruct (N.eqb_spec (fa_ino attr) 0); [lia|]. cbn [attempt].
    apply reply_then_once; [auto|exact zero_i32|eapply fixed_ok; [auto|reflexivity]| | |].
    + intros [|]; [right; eauto|now left].
    + reflexivity.
    + intros b ev p R C -> pl R' NZ. destruct He as [_ He].
      destruct (entry_payload id _ b Hid C He) as [R2 Hn].
      destruct (reads_as_fun _ _ _ _ _ _ _ R' R2) as (_ & _ & ->). rewrite Hn. eauto.
  - apply reply_once; [auto|exact zero_i32|eapply fixed_ok; [auto|reflexivity]|].
    intros b ev p R C Ev pl R' NZ. exfalso. cbv zeta in C.
    destruct (entry_payload id _ b Hid C ltac:(reflexivity)) as [R2 Hn].
    destruct (reads_as_fun _ _ _ _ _ _ _ R' R2) as (_ & _ & ->). now apply NZ.
Qed.

Lemma sent_split (a c l' : list event) b ev b0 rest :
  a ++ EvSend b SendOk :: c = l' ++ EvSend b0 ev :: rest ->
  sent (a ++ EvSend b SendOk :: c) = [b0] -> sent rest = [] -> ev = SendOk /\ b = b0 /\ c = rest.
Proof.
  intros H S R. rewrite sent_app in S. cbn [sent flat_map app] in S.
  assert (Sa : sent a = [] /\ sent c = []).
  { fold (sent c) in S. destruct (sent a) as [|x [|y z]]; cbn in S; try discriminate.
    split; auto. now injection S. }
  destruct Sa as [Sa Sc]. clear S. revert l' H. induction a as [|x a IH]; intros [|y l'] H; cbn [app] in H.
  - injection H as -> -> ->. auto.
  - injection H as <- ->. rewrite sent_app in Sc. cbn [sent flat_map] in Sc.
    apply app_eq_nil in Sc as [_ Sc]. discriminate.
  - injection H as -> _. discriminate.
  - injection H as -> H. cbn [sent flat_map] in Sa. apply app_eq_nil in Sa as [Sx Sa].
    apply IH with l'; auto.
Qed.

(** Where the handler of a LOOKUP is once the client has got the node. *)
Lemma lookup_where buf rq root w before since i b payload s :
  Request_new buf = Ret rq -> u32_at 4 buf = 1 ->
  steps U os cf (start root w) (before ++ Did i (EvSend b SendOk) :: since) s ->
  In (Arrived i rq) (before ++ Did i (EvSend b SendOk) :: since) ->
  reads_as b (u64_at 8 buf) 0 payload -> u64_at 0 payload <> 0 ->
  exists node p, nth_error (sv_threads s) i = Some p /\
    ((p = PNodeAdd (u64_at 0 payload) node (PDone (inl tt)) /\ of_thread i since = []) \/
     (p = PDone (inl tt) /\ of_thread i since = [EvNodeAdd (u64_at 0 payload) node]) \/
     (p = PPanic /\ of_thread i since = [EvPanic])).
Proof.
  intros H T St A R NZ. destruct (threads_inv root w _ s St) as [_ I].
  destruct (I i rq A) as (p0 & p & N & D0 & P).
  assert (T' : vfs_type (u32_at 4 buf) = Some RLookup) by (now rewrite T).
  destruct (dispatch_view U os cf buf rq RLookup H T' ltac:(discriminate)) as (p1 & D1 & X).
  rewrite D1 in D0. injection D0 as <-.
  assert (O : of_thread i (before ++ Did i (EvSend b SendOk) :: since) =
              of_thread i before ++ EvSend b SendOk :: of_thread i since).
  { rewrite of_thread_app. cbn [of_thread flat_map]. now rewrite Nat.eqb_refl. }
  rewrite O in P.
  destruct X as [(e & _ & ->)|(v & X & ->)].
  { exfalso. remember (of_thread i before ++ EvSend b SendOk :: of_thread i since) as l eqn:El.
    remember (PDone (inr (SrvRequest e))) as p0 eqn:E0.
    assert (G : l = [] /\ p = p0).
    { clear -P E0. induction P as [|p l p1 v w ev e1 p2 v' w' P IH Hx]; [auto|].
      destruct (IH E0) as [_ ->]. rewrite E0 in Hx. discriminate. }
    destruct G as [G _]. rewrite G in El. symmetry in El. apply app_eq_nil in El as [_ El]. discriminate. }
  destruct (header_opcode_eq buf rq H) as (_ & _ & Hid).
  cbn [decode_view] in X. destruct (LookupRequest_try_from rq) as [r| | |]; try discriminate.
  injection X as <-. cbn [vfs_body] in P.
  pose proof (lookup_once rq (u64_at 8 buf) (pn_parent_id r) (pn_name r) Hid) as On.
  pose proof (progress_path _ _ _ _ _ On P) as [[S _]|[(b0 & ev & e & pl & q & l' & S & R0 & HQ & A2 & X)|(S & _)]].
  - exfalso. rewrite sent_app in S. apply app_eq_nil in S as [_ S]. discriminate.
  - assert (Next : forall rest, sent rest = [] ->
      of_thread i before ++ EvSend b SendOk :: of_thread i since = l' ++ EvSend b0 ev :: rest ->
      of_thread i since = rest /\ exists node, q = PNodeAdd (u64_at 0 payload) node (PDone (inl tt))).
    { intros rest Sr El. destruct (sent_split _ _ _ _ _ _ _ El S Sr) as (-> & -> & Er).
      split; [exact Er|]. exact (HQ eq_refl payload R NZ). }
    destruct X as [[-> L]|(k & n & -> & [[L ->]|[L ->]])].
    + destruct (Next [] eq_refl L) as (Er & node & ->). exists node. eexists. split; [exact N|]. now left.
    + destruct (Next [EvNodeAdd k n] eq_refl L) as (Er & node & Q).
      injection Q as -> -> Q. exists node. eexists. split; [exact N|]. right. left.
      split; [now rewrite Q|exact Er].
    + destruct (Next [EvPanic] eq_refl L) as (Er & node & Q).
      exists node. eexists. split; [exact N|]. right. right. auto.
  - exfalso. rewrite sent_app in S. apply app_eq_nil in S as [_ S]. discriminate.
Qed.

Lemma thread_lookups id i (tr : list label) n : In (EvNodeAdd id n) (of_thread i tr) -> 0 < lookups id tr.
Proof.
  intros H. unfold of_thread in H. apply in_flat_map in H as (l & H1 & H2).
  destruct l as [j e| |]; [|contradiction|contradiction]. destruct (Nat.eqb j i); [|contradiction].
  destruct H2 as [->|[]]. apply in_split in H1 as (a & c & ->). unfold lookups. rewrite count_app.
  cbn [count fold_right]. rewrite N.eqb_refl. lia.
Qed.

(** Any number of threads: once the handler of a successful LOOKUP has
    returned, and as long as the client forgets nothing of the node it got,
    requests find the node. *)
Theorem C49_returned buf rq root w before since i b payload r j found s s' :
  Request_new buf = Ret rq -> u32_at 4 buf = 1 ->
  let tr := before ++ Did i (EvSend b SendOk) :: since in
  let n := u64_at 0 payload in
  steps U os cf (start root w) tr s -> In (Arrived i rq) tr ->
  reads_as b (u64_at 8 buf) 0 payload -> n <> 0 ->
  nth_error (sv_threads s) i = Some (PDone r) ->
  lookups n tr < U64 -> forgets n since = 0 ->
  step U os cf s (Did j (EvNodeGet n found)) s' -> found <> None.
Proof.
  intros H T tr n St A R NZ Nth L F Sg ->.
  destruct (lookup_where buf rq root w before since i b payload s H T St A R NZ)
    as (node & p & N & [(-> & _)|[(-> & O)|(-> & _)]]); try (rewrite Nth in N; discriminate).
  apply (C45_resolves U os cf root w tr s j n None s' St L Sg).
  right. exists (before ++ [Did i (EvSend b SendOk)]), since. split.
  - unfold tr. now rewrite <- app_assoc.
  - rewrite F. apply (thread_lookups n i since node). rewrite O. now left.
Qed.

(** A server that handles one request after the other: as soon as the client
    has the reply to a LOOKUP (and until it forgets the node) requests find
    the node. *)
Theorem C49_sequential buf rq root w before since i b payload j found s s' :
  Request_new buf = Ret rq -> u32_at 4 buf = 1 ->
  let tr := before ++ Did i (EvSend b SendOk) :: since in
  let n := u64_at 0 payload in
  steps U os cf (start root w) tr s -> In (Arrived i rq) tr ->
  reads_as b (u64_at 8 buf) 0 payload -> n <> 0 ->
  (forall k p, k <> j -> nth_error (sv_threads s) k = Some p -> exists r, p = PDone r) ->
  lookups n tr < U64 -> forgets n since = 0 ->
  step U os cf s (Did j (EvNodeGet n found)) s' -> found <> None.
Proof.
  intros H T tr n St A R NZ Seq L F Sg.
  destruct (lookup_where buf rq root w before since i b payload s H T St A R NZ) as (node & p & Nth & W0).
  assert (Nij : i <> j).
  { intros ->. inversion Sg as [? q ev e q' v v' w0 w' ts Hn He| |]; subst.
    cbn [sv_threads] in Nth. rewrite Nth in Hn. injection Hn as <-.
    destruct W0 as [(-> & _)|[(-> & _)|(-> & _)]]; cbn [exec] in He; try discriminate.
    destruct (NodeMap_add _ _ _ _); discriminate. }
  destruct (Seq i p Nij Nth) as [r ->].
  eapply C49_returned; eauto.
Qed.
End Proofs.

(** * Examples (little-endian) *)

Local Instance LE : Endian := false.

Lemma demo_typed : typed_user demo.
Proof.
  split; intros; cbn; auto; try (unfold is_i32, linux_fuse_error; lia).
  - unfold demo, u_lookup. cbn [snd]. destruct (LookupRequest_try_from rq); try (unfold is_i32; lia).
    destruct (_ =? _); cbn; unfold U64; lia.
  - destruct (f =? 100); cbn; unfold is_i32; auto; lia.
Qed.
Lemma linux_typed : typed_errors linux_errors.
Proof. split; cbn; unfold is_i32, linux_fuse_error; lia. Qed.
Lemma demo_small : small_user demo.
Proof. split; intros; cbn; unfold u32_max; auto; lia. Qed.

(** The two threads of C49: the LOOKUP of "ab" has sent its reply, the client
    uses node 5 it read in it, and the server does not know it. *)
Definition history_early : list choice :=
  [Arrives (rq_lookup ab)] ++ steps_of 0 4 ++ [Arrives (demo_rq 5 5 (OGetattr 0 0 0))] ++ steps_of 1 1.
Definition early_trace : list (label N N N) := all_but_last history_early.
Definition send_of (tr : list (label N N N)) : SendBuf :=
  match flat_map (fun l => match l with Did _ (EvSend b _) => [b] | _ => [] end) tr with
  | b :: _ => b | [] => SendBuf_new_1 0 [] end.
Definition early_payload : bytes :=
  match on_wire (send_of early_trace) with Ret m => drop 16 m | _ => [] end.
Theorem C49_refuted :
  exists tr s s' b payload,
  steps demo linux_errors demo_cf (start 1 0) tr s /\
  In (Arrived 0 (rq_lookup ab)) tr /\ In (Did 0 (EvSend b SendOk)) tr /\
  reads_as b 3 0 payload /\ u64_at 0 payload = 5 /\ (forall id, forgets id tr = 0) /\
  step demo linux_errors demo_cf s (Did 1 (EvNodeGet 5 None)) s'.
Proof.
  exists early_trace.
  assert (H : exists s s', steps demo linux_errors demo_cf (start 1 0) early_trace s /\
    step demo linux_errors demo_cf s (Did 1 (EvNodeGet 5 None)) s') by last_step history_early.
  destruct H as (s & s' & H1 & H2). exists s, s', (send_of early_trace), early_payload.
  split; [exact H1|]. clear H1.
  split; [left; reflexivity|]. split; [vm_compute; tauto|].
  split; [eexists; split; [vm_compute; reflexivity|]; split; vm_compute; reflexivity|].
  split; [vm_compute; reflexivity|]. split; [intros id; reflexivity|exact H2].
Qed.

(** An unknown opcode (4, SETATTR, is not served), a LOOKUP without a name, a
    FORGET and a READ of two bytes from the second of two interleaved opens. *)
Definition bytes_of (rq : Request) : bytes := rq_mem rq.
Fixpoint run_all (fuel : nat) (p : prog N N N N) v w ev : option (list (event N N N) * prog N N N N * vfs N N N * N) :=
  match fuel with
  | O => None
  | S fuel =>
    match exec demo demo_cf p v w ev with
    | None => Some ([], p, v, w)
    | Some (e, p, v, w) =>
      match run_all fuel p v w ev with
      | Some (l, p, v, w) => Some (e :: l, p, v, w)
      | None => None
      end
    end
  end.
Lemma run_all_runs fuel : forall p v w ev l p' v' w',
  run_all fuel p v w ev = Some (l, p', v', w') -> runs demo demo_cf p v w ev l p' v' w'.
Proof.
  induction fuel as [|fuel IH]; intros p v w ev l p' v' w' H; [discriminate|]. cbn [run_all] in H.
  destruct (exec demo demo_cf p v w ev) as [[[[e p1] v1] w1]|] eqn:X; [|injection H as <- <- <- <-; now apply runs_end].
  destruct (run_all fuel p1 v1 w1 ev) as [[[[l1 p2] v2] w2]|] eqn:R; [|discriminate].
  injection H as <- <- <- <-. eapply runs_act; [exact X|]. now apply IH.
Qed.
Example C47_terminates_example :
  exists l p' v' w', runs demo demo_cf (do_lookup demo linux_errors demo_cf (rq_lookup ab)) (Filesystem_new 1) 0 SendOk
    l p' v' w' /\ p' = PDone (inl tt) /\ length l = 5%nat /\ NodeMap_get 5 (v_nodes v') = Some 5.
Proof.
  assert (C : match run_all 9 (do_lookup demo linux_errors demo_cf (rq_lookup ab)) (Filesystem_new 1) 0 SendOk with
              | Some (l, PDone (inl tt), v', w') =>
                Nat.eqb (length l) 5 && match NodeMap_get 5 (v_nodes v') with Some n => n =? 5 | None => false end
              | _ => false
              end = true) by (vm_compute; reflexivity).
  destruct (run_all _ _ _ _ _) as [[[[l p'] v'] w']|] eqn:R; [|discriminate].
  exists l, p', v', w'. split; [exact (run_all_runs _ _ _ _ _ _ _ _ _ R)|]. clear R.
  destruct p' as [[[]|]| | | | | | | | | | | | |]; try discriminate.
  apply andb_true_iff in C as [C1 C2]. split; [reflexivity|]. split; [now apply Nat.eqb_eq|].
  destruct (NodeMap_get 5 (v_nodes v')) as [n|]; [|discriminate]. apply N.eqb_eq in C2. now rewrite C2.
Qed.
Example C47_unsupported_example :
  let rq := demo_rq 3 1 (OUnlink ab) in
  Request_new (bytes_of rq) = Ret rq /\ vfs_type (u32_at 4 (bytes_of rq)) = None.
Proof. split; vm_compute; reflexivity. Qed.
Example C47_malformed_example :
  let rq := demo_rq 3 1 (OLookup []) in
  Request_new (bytes_of rq) = Ret rq /\ vfs_type (u32_at 4 (bytes_of rq)) = Some RLookup /\
  decode_view false demo_cf RLookup rq = Fail (ENodeName NameEmpty).
Proof. split; [|split]; vm_compute; reflexivity. Qed.
Example C47_forget_example :
  let rq := demo_rq 3 0 (OBatchForget 0 [(5, 2); (6, 1)]) in
  Request_new (bytes_of rq) = Ret rq /\ vfs_type (u32_at 4 (bytes_of rq)) = Some RForget /\
  decode_view false demo_cf RForget rq = Ret (VForget [(5, 2); (6, 1)]).
Proof. split; [|split]; vm_compute; reflexivity. Qed.

Definition history_read : list choice :=
  [Arrives (rq_lookup ab)] ++ steps_of 0 5 ++
  [Arrives (demo_rq 4 5 (OOpen 0 0)); Arrives (demo_rq 5 5 (OOpen 0 0))] ++
  steps_of 1 3 ++ steps_of 2 5 ++ steps_of 1 1 ++
  [Arrives (demo_rq 6 5 (ORead 1 0 10 0 0 0 0))] ++ steps_of 3 2 ++ steps_of 1 1 ++ steps_of 3 2.
Definition trace_of (cs : list choice) : list (label N N N) :=
  match schedule demo linux_errors demo_cf cs (start 1 0) with Some (tr, _) => tr | None => [] end.
Lemma lookups_le id (tr : list (label N N N)) : lookups id tr <= nlen tr.
Proof.
  induction tr as [|l tr IH]; [cbn; lia|]. rewrite nlen_cons. unfold lookups in *.
  cbn [count fold_right]. fold (count (fun l : label N N N => match l with
    | Did _ (EvNodeAdd i _) => if i =? id then 1 else 0 | _ => 0 end) tr).
  destruct l as [? []| |]; try lia. destruct (_ =? _); lia.
Qed.
Example C47_exactly_one_example :
  let rq := demo_rq 6 5 (ORead 1 0 10 0 0 0 0) in
  Request_new (bytes_of rq) = Ret rq /\ vfs_type (u32_at 4 (bytes_of rq)) = Some RRead /\
  (exists v, decode_view false demo_cf RRead rq = Ret v) /\
  typed_user demo /\ typed_errors linux_errors /\ small_user demo /\
  exists tr s, steps demo linux_errors demo_cf (start 1 0) tr s /\ In (Arrived 3 rq) tr /\
    nlen (handles tr) = 2 /\ (forall id, lookups id tr <= 40) /\
    nth_error (sv_threads s) 3 = Some (PDone (inl tt)).
Proof.
  intros rq. split; [vm_compute; reflexivity|]. split; [vm_compute; reflexivity|].
  split; [eexists; vm_compute; reflexivity|]. split; [exact demo_typed|]. split; [exact linux_typed|].
  split; [exact demo_small|].
  destruct (scheduled_view demo linux_errors demo_cf returned history_read (start 1 0) (trace_of history_read)
    [true; true; true; true]) as (s & H1 & H2).
  { vm_compute. reflexivity. }
  exists (trace_of history_read), s. split; [exact H1|]. clear H1.
  split; [vm_compute; tauto|]. split; [vm_compute; reflexivity|]. split.
  - intros id. eapply N.le_trans; [apply lookups_le|]. vm_compute. discriminate.
  - apply returned_nth. now rewrite H2.
Qed.

Example C47_one_reply_example :
  let rq := demo_rq 6 5 (ORead 1 0 10 0 0 0 0) in
  Request_new (bytes_of rq) = Ret rq /\ vfs_type (u32_at 4 (bytes_of rq)) = Some RRead /\
  (exists v, decode_view false demo_cf RRead rq = Ret v) /\
  exists tr s, steps demo linux_errors demo_cf (start 1 0) tr s /\ In (Arrived 3 rq) tr.
Proof.
  intros rq. destruct C47_exactly_one_example as (H1 & H2 & H3 & _ & _ & _ & tr & s & H4 & H5 & _).
  eauto 10.
Qed.
Example C47_no_panic_example :
  exists tr s, steps demo linux_errors demo_cf (start 1 0) tr s /\
    nlen (handles tr) + 2 < U64 /\ (forall id, lookups id tr + 1 < U64).
Proof.
  destruct C47_exactly_one_example as (_ & _ & _ & _ & _ & _ & tr & s & H1 & _ & H2 & H3 & _).
  exists tr, s. split; [exact H1|]. rewrite H2. split; [reflexivity|].
  intros id. specialize (H3 id). unfold U64. lia.
Qed.

(** C49: the LOOKUP has returned, then a GETATTR arrives. *)
Definition history_late : list choice :=
  [Arrives (rq_lookup ab)] ++ steps_of 0 5 ++ [Arrives (demo_rq 5 5 (OGetattr 0 0 0))] ++ steps_of 1 1.
Definition late_trace : list (label N N N) := all_but_last history_late.
Example C49_sequential_example :
  Request_new (bytes_of (rq_lookup ab)) = Ret (rq_lookup ab) /\ u32_at 4 (bytes_of (rq_lookup ab)) = 1 /\
  exists before since b payload s s', let tr := before ++ Did 0 (EvSend b SendOk) :: since in
  steps demo linux_errors demo_cf (start 1 0) tr s /\ In (Arrived 0 (rq_lookup ab)) tr /\
  reads_as b (u64_at 8 (bytes_of (rq_lookup ab))) 0 payload /\ u64_at 0 payload = 5 /\
  lookups 5 tr = 1 /\ forgets 5 since = 0 /\
  (forall k p, k <> 1%nat -> nth_error (sv_threads s) k = Some p -> exists r, p = PDone r) /\
  step demo linux_errors demo_cf s (Did 1 (EvNodeGet 5 (Some 5))) s'.
Proof.
  split; [vm_compute; reflexivity|]. split; [vm_compute; reflexivity|].
  exists (firstn 4 late_trace), (skipn 5 late_trace), (send_of late_trace), early_payload.
  set (tr := firstn 4 late_trace ++ Did 0 (EvSend (send_of late_trace) SendOk) :: skipn 5 late_trace).
  assert (Et : late_trace = tr) by (vm_compute; reflexivity).
  destruct (scheduled_view demo linux_errors demo_cf
    (fun s => (returned s, next_label demo linux_errors demo_cf (Takes 1 SendOk) s))
    (removelast history_late) (start 1 0) late_trace
    ([true; false], Some (Did 1 (EvNodeGet 5 (Some 5))))) as (s & H1 & H4).
  { vm_compute. reflexivity. }
  injection H4 as H3 H4. apply next_label_step in H4 as [s' H2].
  exists s, s'. cbv zeta. fold tr. rewrite <- Et.
  split; [exact H1|]. clear H1.
  split; [vm_compute; tauto|].
  split; [eexists; split; [vm_compute; reflexivity|]; split; vm_compute; reflexivity|].
  split; [vm_compute; reflexivity|]. split; [vm_compute; reflexivity|]. split; [vm_compute; reflexivity|].
  split; [|exact H2]. intros k p Nk Hk.
  destruct k as [|[|k]]; [|now destruct Nk|].
  - rewrite (returned_nth s 0) in Hk by (now rewrite H3). injection Hk as <-. eauto.
  - exfalso. assert (L : nth_error (returned s) (S (S k)) <> None).
    { unfold returned. rewrite nth_error_map, Hk. discriminate. }
    apply L. rewrite H3. now destruct k.
Qed.

Example C49_returned_example :
  exists before since b payload r s s', let tr := before ++ Did 0 (EvSend b SendOk) :: since in
  steps demo linux_errors demo_cf (start 1 0) tr s /\ In (Arrived 0 (rq_lookup ab)) tr /\
  reads_as b (u64_at 8 (bytes_of (rq_lookup ab))) 0 payload /\ u64_at 0 payload = 5 /\
  nth_error (sv_threads s) 0 = Some (PDone r) /\
  lookups 5 tr = 1 /\ forgets 5 since = 0 /\
  step demo linux_errors demo_cf s (Did 1 (EvNodeGet 5 (Some 5))) s'.
Proof.
  destruct C49_sequential_example as (_ & _ & before & since & b & payload & s & s' & H1 & H2 & H3 & H4 & H5 & H6 & H7 & H8).
  destruct (nth_error (sv_threads s) 0) as [p|] eqn:N.
  - destruct (H7 0%nat p) as [r ->]; [discriminate|exact N|].
    exists before, since, b, payload, r, s, s'. auto 10.
  - exfalso. apply nth_error_None in N.
    inversion H8 as [? q ev e q' v v' w0 w' ts Hn He| |]; subst. cbn [sv_threads] in N.
    destruct ts; [discriminate|cbn in N; lia].
Qed.

Print Assumptions C47_unsupported.
Print Assumptions C47_malformed.
Print Assumptions C47_forget.
Print Assumptions C47_one_reply.
Print Assumptions C47_terminates.
Print Assumptions C47_no_panic.
Print Assumptions C47_exactly_one.
Print Assumptions C49_returned.
Print Assumptions C49_sequential.
Print Assumptions C49_refuted.
