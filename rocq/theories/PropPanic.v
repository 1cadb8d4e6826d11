(** C65: what a panic in user code does to the other requests. *)

From Verif Require Import Base Kernel CoreModel DecodeModel OpsModel ReplyModel ServerModel ServerSpec ReplySpec
  WireSpec VfsModel ThreadModel PropThreads VfsSpec VfsRun VfsProofs PropTables PropVfs PanicModel.
From Coq Require Import List NArith ZArith Bool Lia ZifyBool ZifyNat ZifyN.
Import ListNotations.
Open Scope N_scope.

(** ** Specification *)

Section Spec.
Context {E : Endian} {W Node FH DH : Type}.

(** What of a history with panics an observer without them would see: the
    steps of the handlers, and that the user's state may have changed. *)
Definition ran (tr : list (plabel Node FH DH)) : list (label Node FH DH) :=
  flat_map (fun l => match l with Ran l => [l] | UserPanics _ _ => [Elsewhere] | LockPanics _ _ => [] end) tr.

(** Requests that cannot be answered without looking at the open handles. *)
Definition needs_handle (t : rtype) : Prop :=
  In t [RRead; RWrite; RReaddir; RReaddirplus; RRelease; RReleasedir].
(** A step that read or changed the open handles. *)
Definition used_handles (l : label Node FH DH) : Prop :=
  match l with
  | Did _ (EvOpenFile _ _) | Did _ (EvOpenDir _ _) | Did _ (EvGetFile _ _) | Did _ (EvGetDir _ _)
  | Did _ (EvReleaseFile _ _ _) | Did _ (EvReleaseDir _ _ _) => True
  | _ => False
  end.
(** Requests that cannot be answered without looking for a node, and steps that
    read or changed the table of nodes. *)
Definition needs_node (t : rtype) : Prop :=
  In t [RLookup; RGetattr; RGetxattr; RListxattr; ROpen; ROpendir; RReadlink; RStatfs].
Definition used_nodes (l : label Node FH DH) : Prop :=
  match l with Did _ (EvNodeGet _ _) | Did _ (EvNodeAdd _ _) | Did _ (EvNodeForget _) => True | _ => False end.
End Spec.

Section Vfs.
Context {E : Endian} {W Node FH DH : Type} (U : user W Node FH DH) (os : OsErrors) (cf : config).
Notation prog := (prog W Node FH DH).
Notation psteps := (psteps U os cf).
Notation pstep := (pstep U os cf).

Lemma ran_app (a b : list (plabel Node FH DH)) : ran (a ++ b) = ran a ++ ran b.
Proof. apply flat_map_app. Qed.

(** The same server, except that some threads have panicked in the first. *)
Definition alike (s s0 : server W Node FH DH) : Prop :=
  sv_vfs s = sv_vfs s0 /\ sv_world s = sv_world s0 /\
  length (sv_threads s) = length (sv_threads s0) /\
  forall i p, nth_error (sv_threads s) i = Some p -> p = PPanic \/ nth_error (sv_threads s0) i = Some p.

Lemma nth_set_same i (p : prog) l q : nth_error l i = Some q -> nth_error (set_thread i p l) i = Some p.
Proof. intros H. now rewrite nth_set, Nat.eqb_refl, H. Qed.

Lemma alike_step s s0 l s' f f' :
  alike s s0 -> pstep {| ps_server := s; ps_poisoned := f |} l {| ps_server := s'; ps_poisoned := f' |} ->
  exists s0', alike s' s0' /\ steps U os cf s0 (ran [l]) s0'.
Proof.
  intros (Av & Aw & Al & At) St.
  assert (One : forall l s1, step U os cf s0 l s1 -> steps U os cf s0 [l] s1).
  { intros k s1 H. apply (steps_snoc U os cf s0 [] s0 k s1); [constructor|exact H]. }
  inversion St as [i p ev e p' v v' w w' ts f0 Hn Hb Hx E1 E2|s1 k s2 f0 Hs Hk E1 E2
    |i p v w w' ts f0 Hn Hb Hc E1 E2|i p k v w ts f0 Hn Hl Hf E1 E2]; subst; cbn [sv_vfs sv_world sv_threads] in *.
  - destruct s0 as [ts0 v0 w0]. cbn [sv_vfs sv_world sv_threads] in *. subst v0 w0.
    assert (Hn0 : nth_error ts0 i = Some p).
    { destruct (At i p Hn) as [->|X]; [discriminate Hx|exact X]. }
    exists {| sv_threads := set_thread i p' ts0; sv_vfs := v'; sv_world := w' |}. split.
    + split; [reflexivity|]. split; [reflexivity|]. cbn [sv_threads]. rewrite !length_set. split; [exact Al|].
      intros j q. rewrite !nth_set. destruct (Nat.eqb_spec i j) as [<-|]; [rewrite Hn, Hn0; auto|apply At].
    + apply One. econstructor; eauto.
  - inversion Hs as [|rq p v w ts Hd|v w w' ts]; subst; try contradiction; cbn [sv_vfs sv_world sv_threads] in *;
      destruct s0 as [ts0 v0 w0]; cbn [sv_vfs sv_world sv_threads] in *; subst v0 w0.
    + exists {| sv_threads := ts0 ++ [p]; sv_vfs := v; sv_world := w |}. split.
      * split; [reflexivity|]. split; [reflexivity|]. cbn [sv_threads]. rewrite !app_length. split; [now rewrite Al|].
        intros j q H. destruct (Nat.lt_ge_cases j (length ts)) as [L|L].
        -- rewrite nth_error_app1 in H by exact L. rewrite nth_error_app1 by lia. auto.
        -- rewrite nth_error_app2 in H by exact L. rewrite nth_error_app2 by lia. rewrite <- Al. auto.
      * apply One. rewrite Al. now constructor.
    + exists {| sv_threads := ts0; sv_vfs := v; sv_world := w' |}. split; [repeat split; auto|].
      apply One. constructor.
  - destruct s0 as [ts0 v0 w0]. cbn [sv_vfs sv_world sv_threads] in *. subst v0 w0.
    exists {| sv_threads := ts0; sv_vfs := v; sv_world := w' |}. split; [|apply One; constructor].
    split; [reflexivity|]. split; [reflexivity|]. cbn [sv_threads]. rewrite length_set. split; [exact Al|].
    intros j q. rewrite nth_set. destruct (Nat.eqb_spec i j) as [<-|]; [|apply At].
    rewrite Hn. intros [= <-]. now left.
  - destruct s0 as [ts0 v0 w0]. cbn [sv_vfs sv_world sv_threads] in *. subst v0 w0.
    exists {| sv_threads := ts0; sv_vfs := v; sv_world := w |}. split; [|constructor].
    split; [reflexivity|]. split; [reflexivity|]. cbn [sv_threads]. rewrite length_set. split; [exact Al|].
    intros j q. rewrite nth_set. destruct (Nat.eqb_spec i j) as [<-|]; [|apply At].
    rewrite Hn. intros [= <-]. now left.
Qed.

Lemma steps_app s tr1 s1 tr2 s2 :
  steps U os cf s tr1 s1 -> steps U os cf s1 tr2 s2 -> steps U os cf s (tr1 ++ tr2) s2.
Proof.
  intros H1 H2. induction H2 as [s1|s1 tr s2 l s3 H IH St]; [now rewrite app_nil_r|].
  rewrite app_assoc. econstructor; eauto.
Qed.

Lemma steps_one s l s' : steps U os cf s [l] s' -> step U os cf s l s'.
Proof.
  intros H. remember [l] as tr eqn:T. destruct H as [|s tr s1 l' s2 H St]; [discriminate|].
  apply (app_inj_tail tr []) in T as [-> <-]. remember [] as tr eqn:T. destruct H as [|s tr s1 k s3 H St']; [exact St|].
  now destruct tr.
Qed.

(** However often user code panics, and whatever the locks do: the history of
    what the handlers did is one that could have happened without panics,
    with the same nodes and handles; the threads that panicked are merely
    slow there.  So all that is said of histories (C45, C46, C49) holds. *)
Theorem C65_contained root w tr s :
  psteps (Filesystem_start root w) tr s ->
  exists s0, steps U os cf (start root w) (ran tr) s0 /\
    sv_vfs (ps_server s) = sv_vfs s0 /\ sv_world (ps_server s) = sv_world s0 /\
    length (sv_threads (ps_server s)) = length (sv_threads s0) /\
    forall i p, nth_error (sv_threads (ps_server s)) i = Some p ->
      p = PPanic \/ nth_error (sv_threads s0) i = Some p.
Proof.
  intros H. enough (X : exists s0, steps U os cf (start root w) (ran tr) s0 /\ alike (ps_server s) s0)
    by (destruct X as (s0 & X & Y); exists s0; split; [exact X|exact Y]).
  remember (Filesystem_start root w) as p0 eqn:P0. induction H as [|s tr s1 l s2 H IH St]; subst.
  - exists (start root w). split; [constructor|]. repeat split; auto.
  - destruct (IH eq_refl) as (s0 & H0 & A). destruct s1 as [s1 f1], s2 as [s2 f2]. cbn [ps_server] in *.
    destruct (alike_step s1 s0 l s2 f1 f2 A St) as (s0' & A' & H1). exists s0'. split; [|exact A'].
    rewrite ran_app. eapply steps_app; eauto.
Qed.

(** For example: an id a client holds more lookups of than it has given up is
    found whenever it is looked for, and no request is answered twice. *)
Theorem C65_held root w tr s i id found s' :
  psteps (Filesystem_start root w) tr s -> lookups id (ran tr) < U64 -> Forall real_items (ran tr) ->
  given_up id (ran tr) < lookups id (ran tr) ->
  pstep s (Ran (Did i (EvNodeGet id found))) s' -> found <> None.
Proof.
  intros H L R G St. destruct (C65_contained root w tr s H) as (s0 & H0 & A).
  destruct s as [s f], s' as [s' f']. cbn [ps_server] in *.
  destruct (alike_step s s0 _ s' f f' A St) as (s0' & _ & H1). cbn [ran flat_map app] in H1.
  apply steps_one in H1.
  eapply (C45_held U os cf root w (ran tr)); eauto.
Qed.
Theorem C65_one_reply buf rq t v root w tr s i :
  typed_user U -> typed_errors os ->
  Request_new buf = Ret rq -> vfs_type (u32_at 4 buf) = Some t -> t <> RForget ->
  decode_view false cf t rq = Ret v ->
  psteps (Filesystem_start root w) tr s -> In (Ran (Arrived i rq)) tr ->
  (length (VfsSpec.sent (of_thread i (ran tr))) <= 1)%nat.
Proof.
  intros TU TE H T Nf D St A. destruct (C65_contained root w tr s St) as (s0 & H0 & _).
  assert (A0 : In (Arrived i rq) (ran tr)).
  { apply in_flat_map. exists (Ran (Arrived i rq)). split; [exact A|now left]. }
  destruct (C47_one_reply U os cf TU TE buf rq t v root w (ran tr) s0 i H T Nf D H0 A0) as (p & _ & X).
  destruct p; try exact X.
  - destruct X as [(b & ev & e & pl & -> & _)|(-> & _)]; cbn; lia.
  - apply X.
  - contradiction.
Qed.

(** *** Locks *)

Lemma poison_cause root w tr s :
  psteps (Filesystem_start root w) tr s ->
  (exists l, ps_poisoned s l = true) \/ (exists i l, In (LockPanics i l) tr) ->
  (exists i, In (UserPanics i true) tr) \/ (exists i, In (Ran (Did i EvPanic)) tr).
Proof.
  intros H. remember (Filesystem_start root w) as p0 eqn:P0. induction H as [|s tr s1 k s2 H IH St]; subst.
  - intros [[l X]|(i & l & [])]. discriminate.
  - specialize (IH eq_refl).
    assert (Old : (exists l, ps_poisoned s1 l = true) \/ (exists i l, In (LockPanics i l) tr) ->
      (exists i, In (UserPanics i true) (tr ++ [k])) \/ (exists i, In (Ran (Did i EvPanic)) (tr ++ [k]))).
    { intros X. destruct (IH X) as [[i Y]|[i Y]]; [left|right]; exists i; apply in_or_app; now left. }
    assert (New : forall f l o, (forall m, ps_poisoned s1 m = f m) -> poison o f l = true ->
      (exists m, ps_poisoned s1 m = true) \/ o = Some l).
    { intros f l o Hf X. unfold poison in X. apply orb_prop in X as [X|X].
      - left. exists l. now rewrite Hf.
      - right. destruct o as [[]|], l; congruence. }
    assert (Tr : (exists i l, In (LockPanics i l) (tr ++ [k])) ->
      (exists i l, In (LockPanics i l) tr) \/ exists i l, k = LockPanics i l).
    { intros (i & l & X). apply in_app_iff in X as [X|[X|[]]]; eauto. }
    inversion St as [i p ev e p' v v' w0 w' ts f0 Hn Hb Hx E1 E2|a b c f0 Hs Hk E1 E2
      |i p v w0 w' ts f0 Hn Hb Hc E1 E2|i p m v w0 ts f0 Hn Hl Hf E1 E2]; subst; cbn [ps_poisoned] in *.
    + intros [[l X]|X].
      * destruct e; try (apply Old; left; exists l; exact X).
        right. exists i. apply in_or_app. right. now left.
      * destruct (Tr X) as [Y|(? & ? & Y)]; [apply Old; now right|discriminate].
    + intros [[l X]|X]; [apply Old; left; eauto|].
      destruct (Tr X) as [Y|(? & ? & Y)]; [apply Old; now right|discriminate].
    + intros [[l X]|X].
      * destruct (New f0 l (lock_of p) (fun _ => eq_refl) X) as [Y|Y]; [apply Old; now left|].
        left. exists i. rewrite Y. apply in_or_app. right. now left.
      * destruct (Tr X) as [Y|(? & ? & Y)]; [apply Old; now right|discriminate].
    + intros [[l X]|X]; apply Old; left; eauto.
Qed.

(** As long as no [release] or [releasedir] panics (and the counters do not
    overflow), a panic concerns only the thread it happens in: no lock is
    poisoned, taking a lock never panics, and every other thread can go on. *)
Theorem C65_isolated root w tr s :
  psteps (Filesystem_start root w) tr s -> (forall i, ~ In (UserPanics i true) tr) ->
  nlen (handles (ran tr)) + 2 < U64 -> (forall id, lookups id (ran tr) + 1 < U64) ->
  (forall l, ps_poisoned s l = false) /\ (forall i l, ~ In (LockPanics i l) tr) /\
  (forall i p ev e p' v' w', nth_error (sv_threads (ps_server s)) i = Some p ->
     exec U cf p (sv_vfs (ps_server s)) (sv_world (ps_server s)) ev = Some (e, p', v', w') ->
     exists s', pstep s (Ran (Did i e)) s').
Proof.
  intros H No L1 L2.
  assert (C : ~ ((exists l, ps_poisoned s l = true) \/ (exists i l, In (LockPanics i l) tr))).
  { intros X. destruct (poison_cause root w tr s H X) as [[i Y]|[i Y]]; [now apply (No i)|].
    destruct (C65_contained root w tr s H) as (s0 & H0 & _).
    apply (C47_no_panic U os cf root w (ran tr) s0 i H0 L1 L2).
    apply in_flat_map. exists (Ran (Did i EvPanic)). split; [exact Y|now left]. }
  assert (F : forall l, ps_poisoned s l = false).
  { intros l. destruct (ps_poisoned s l) eqn:X; [|reflexivity]. exfalso. apply C. left. eauto. }
  split; [exact F|]. split; [intros i l X; apply C; right; eauto|].
  intros i p ev e p' v' w' Hn Hx. destruct s as [[ts v w0] f]. cbn [ps_server ps_poisoned sv_threads sv_vfs sv_world] in *.
  eexists. econstructor; eauto. unfold blocked. now destruct (lock_of p).
Qed.

Lemma psteps_app s a : forall b s', psteps s (a ++ b) s' -> exists s1, psteps s a s1 /\ psteps s1 b s'.
Proof.
  intros b. induction b as [|l b IH] using rev_ind; intros s' H.
  - rewrite app_nil_r in H. exists s'. split; [exact H|constructor].
  - rewrite app_assoc in H. remember ((a ++ b) ++ [l]) as tr eqn:T.
    destruct H as [|s tr s1 l' s2 H St]; [now destruct (a ++ b)|].
    apply app_inj_tail in T as [-> ->]. destruct (IH s1 H) as (s3 & H1 & H2). exists s3. split; [exact H1|].
    econstructor; eauto.
Qed.

Lemma poisoned_stays s l s' m : pstep s l s' -> ps_poisoned s m = true -> ps_poisoned s' m = true.
Proof.
  intros St H. destruct St as [i p ev e p' v v' w w' ts f Hn Hb Hx| |i p v w w' ts f Hn Hb Hc|]; cbn [ps_poisoned] in *;
    auto.
  - destruct e; auto. unfold poison. now rewrite H.
  - unfold poison. now rewrite H.
Qed.

Lemma exec_event p v w ev e p' v' w' i :
  exec U cf p v w ev = Some (e, p', v', w') -> used_handles (Did i e) -> lock_of p = Some LHandles.
Proof.
  destruct p; cbn [exec lock_of]; intros H X; try discriminate; auto; exfalso.
  - destruct (f w). injection H as <- <- <- <-. exact X.
  - injection H as <- <- <- <-. exact X.
  - destruct (NodeMap_add _ _ _ _); injection H as <- <- <- <-; exact X.
  - injection H as <- <- <- <-. exact X.
  - injection H as <- <- <- <-. exact X.
Qed.

Lemma no_handles_any_more s tr s' :
  psteps s tr s' -> ps_poisoned s LHandles = true ->
  ps_poisoned s' LHandles = true /\ forall l, In (Ran l) tr -> ~ used_handles l.
Proof.
  intros H P. induction H as [|s tr s1 l s2 H IH St]; [split; [exact P|contradiction]|].
  destruct (IH P) as [P1 No]. split; [eapply poisoned_stays; eauto|].
  intros k X. apply in_app_iff in X as [X|[->|[]]]; [auto|]. intros Us.
  inversion St as [i p ev e p' v v' w w' ts f Hn Hb Hx E1 E2|s3 k' s4 f Hs Hk| |]; subst; cbn [ps_poisoned] in *.
  - pose proof (exec_event _ _ _ _ _ _ _ _ i Hx Us) as Lk. unfold blocked in Hb. rewrite Lk in Hb. congruence.
  - destruct k; contradiction.
Qed.

(** A thread about to take a poisoned lock. *)
Lemma dead_thread s tr s' i p m :
  psteps s tr s' -> ps_poisoned s m = true -> lock_of p = Some m ->
  nth_error (sv_threads (ps_server s)) i = Some p ->
  of_thread i (ran tr) = [] /\
  (nth_error (sv_threads (ps_server s')) i = Some p \/ nth_error (sv_threads (ps_server s')) i = Some PPanic).
Proof.
  intros H P L N. induction H as [|s tr s1 l s2 H IH St]; [auto|].
  destruct (IH P N) as [O X]. rewrite ran_app, of_thread_app, O. cbn [app].
  assert (P1 : ps_poisoned s1 m = true).
  { clear -H P. induction H; [exact P|]. eapply poisoned_stays; eauto. }
  inversion St as [j q ev e p' v v' w w' ts f Hn Hb Hx E1 E2|s3 k s4 f Hs Hk E1 E2
    |j q v w w' ts f Hn Hb Hc E1 E2|j q k v w ts f Hn Hl Hf E1 E2]; subst;
    cbn [ps_poisoned ps_server sv_threads ran flat_map app of_thread] in *.
  - destruct (Nat.eqb_spec j i) as [->|Ne].
    + exfalso. destruct X as [X|X]; rewrite Hn in X; injection X as ->; [|discriminate Hx].
      unfold blocked in Hb. rewrite L in Hb. congruence.
    + split; [reflexivity|]. rewrite nth_set. destruct (Nat.eqb_spec j i); [contradiction|exact X].
  - destruct k as [|j rq|]; [contradiction| |]; (split; [reflexivity|]).
    + inversion Hs as [|rq' q v w ts Hd|]; subst. cbn [sv_threads] in *.
      assert (Lt : (i < length ts)%nat) by (apply nth_error_Some; destruct X; congruence).
      rewrite nth_error_app1 by exact Lt. exact X.
    + inversion Hs; subst. exact X.
  - split; [reflexivity|]. rewrite nth_set. destruct (Nat.eqb_spec j i) as [->|]; [rewrite Hn; now right|exact X].
  - split; [reflexivity|]. rewrite nth_set. destruct (Nat.eqb_spec j i) as [->|]; [rewrite Hn; now right|exact X].
Qed.

Lemma needs_lock buf rq t v p0 :
  Request_new buf = Ret rq -> vfs_type (u32_at 4 buf) = Some t -> needs_handle t ->
  decode_view false cf t rq = Ret v -> dispatch U os cf rq = Some p0 -> lock_of p0 = Some LHandles.
Proof.
  intros H T Nh D Dp.
  assert (Nf : t <> RForget) by (intros ->; unfold needs_handle in Nh; cbn in Nh; intuition discriminate).
  destruct (dispatch_view U os cf buf rq t H T Nf) as (p & Dp' & X). rewrite Dp in Dp'. injection Dp' as <-.
  destruct X as [(e & X & _)|(v' & X & ->)]; [congruence|]. rewrite D in X. injection X as <-.
  unfold needs_handle in Nh. cbn [In] in Nh.
  destruct Nh as [<-|[<-|[<-|[<-|[<-|[<-|[]]]]]]]; cbn [decode_view] in D;
    repeat match type of D with
    | bind ?m _ = Ret _ => destruct m; cbn [bind] in D; try discriminate
    end; injection D as <-; reflexivity.
Qed.

Lemma needs_node_lock buf rq t v p0 :
  Request_new buf = Ret rq -> vfs_type (u32_at 4 buf) = Some t -> needs_node t ->
  decode_view false cf t rq = Ret v -> dispatch U os cf rq = Some p0 -> lock_of p0 = Some LNodes.
Proof.
  intros H T Nh D Dp.
  assert (Nf : t <> RForget) by (intros ->; unfold needs_node in Nh; cbn in Nh; intuition discriminate).
  destruct (dispatch_view U os cf buf rq t H T Nf) as (p & Dp' & X). rewrite Dp in Dp'. injection Dp' as <-.
  destruct X as [(e & X & _)|(v' & X & ->)]; [congruence|]. rewrite D in X. injection X as <-.
  unfold needs_node in Nh. cbn [In] in Nh.
  destruct Nh as [<-|[<-|[<-|[<-|[<-|[<-|[<-|[<-|[]]]]]]]]]; cbn [decode_view] in D;
    repeat match type of D with
    | bind ?m _ = Ret _ => destruct m; cbn [bind] in D; try discriminate
    end; injection D as <-; reflexivity.
Qed.
Lemma exec_nodes p v w ev e p' v' w' i :
  exec U cf p v w ev = Some (e, p', v', w') -> used_nodes (Did i e) -> lock_of p = Some LNodes.
Proof.
  destruct p; cbn [exec lock_of]; intros H X; try discriminate; auto; exfalso.
  - destruct (f w). injection H as <- <- <- <-. exact X.
  - destruct (HandlesMap_open_file _ _ _) as [[? ?]|]; injection H as <- <- <- <-; exact X.
  - destruct (HandlesMap_open_dir _ _ _) as [[? ?]|]; injection H as <- <- <- <-; exact X.
  - injection H as <- <- <- <-. exact X.
  - injection H as <- <- <- <-. exact X.
  - destruct (HandlesMap_get_file _ _ _); [destruct (u_release U _ _ _) as [? []]|]; injection H as <- <- <- <-; exact X.
  - destruct (HandlesMap_get_dir _ _ _); [destruct (u_releasedir U _ _ _) as [? []]|]; injection H as <- <- <- <-; exact X.
  - injection H as <- <- <- <-. exact X.
Qed.
Lemma poisoned_for_ever s tr s' m : psteps s tr s' -> ps_poisoned s m = true -> ps_poisoned s' m = true.
Proof. intros H P. induction H; [exact P|]. eapply poisoned_stays; eauto. Qed.
Lemma no_nodes_any_more s tr s' :
  psteps s tr s' -> ps_poisoned s LNodes = true -> forall l, In (Ran l) tr -> ~ used_nodes l.
Proof.
  intros H P. induction H as [|s tr s1 l s2 H IH St]; [contradiction|].
  pose proof (poisoned_for_ever _ _ _ _ H P) as P1.
  intros k X. apply in_app_iff in X as [X|[->|[]]]; [now apply (IH P)|]. intros Us.
  inversion St as [i p ev e p' v v' w w' ts f Hn Hb Hx E1 E2|s3 k' s4 f Hs Hk| |]; subst; cbn [ps_poisoned] in *.
  - pose proof (exec_nodes _ _ _ _ _ _ _ _ i Hx Us) as Lk. unfold blocked in Hb. rewrite Lk in Hb. congruence.
  - destruct k; contradiction.
Qed.

(** A request that arrives when the lock its handler takes first is poisoned is
    never answered. *)
Lemma unanswered root w before s1 since s m j rq p0 :
  psteps (Filesystem_start root w) before s1 -> ps_poisoned s1 m = true -> psteps s1 since s ->
  In (Ran (Arrived j rq)) since -> dispatch U os cf rq = Some p0 -> lock_of p0 = Some m ->
  VfsSpec.sent (of_thread j (ran (before ++ since))) = [] /\
  forall r, nth_error (sv_threads (ps_server s)) j <> Some (PDone r).
Proof.
  intros H1 P H2 A Hd0 Lk. apply in_split in A as (a & b & ->).
  change (Ran (Arrived j rq) :: b) with ([Ran (Arrived j rq)] ++ b) in H2 |- *.
  rewrite app_assoc in H2. destruct (psteps_app _ _ _ _ H2) as (s3 & H3 & H4).
  assert (P3 := poisoned_for_ever s1 _ s3 m H3 P).
  remember (a ++ [Ran (Arrived j rq)]) as tr eqn:Tr. destruct H3 as [|s0 tr s2 l s3 H3 St]; [now destruct a|].
  apply app_inj_tail in Tr as [-> ->].
  inversion St as [|sa k sb f Hs Hk E1 E2| |]; subst. inversion Hs as [|rq' p1 v0 w0 ts Hd|]; subst. cbn [ps_poisoned] in *.
  assert (p1 = p0) by congruence. subst p1.
  destruct (dead_thread _ b s (length ts) p0 m H4) as [O X]; auto.
  { cbn [ps_server sv_threads]. rewrite nth_error_app2 by lia. now rewrite Nat.sub_diag. }
  split.
  - rewrite !ran_app, !of_thread_app. cbn [ran flat_map app of_thread]. fold (@ran Node FH DH b).
    fold (@of_thread Node FH DH (length ts) (ran b)). rewrite O, !app_nil_r.
    assert (Z : of_thread (length ts) (ran (before ++ a)) = []).
    { assert (H5 : psteps (Filesystem_start root w) (before ++ a)
                {| ps_server := {| sv_threads := ts; sv_vfs := v0; sv_world := w0 |}; ps_poisoned := f |}).
      { clear -H1 H3. revert H1 H3. generalize before as tr0. intros tr0 H1 H3.
        induction H3; [now rewrite app_nil_r|]. rewrite app_assoc. econstructor; [apply IHpsteps|]; eauto. }
      destruct (C65_contained root w _ _ H5) as (s5 & H6 & _ & _ & Le & _). cbn [ps_server sv_threads] in Le.
      destruct (threads_inv U os cf root w _ _ H6) as [I _]. rewrite Le.
      revert I. generalize (ran (before ++ a)) as tr. clear.
      intros tr I. induction tr as [|l tr IH]; [reflexivity|]. cbn [of_thread flat_map].
      fold (of_thread (length (sv_threads s5)) tr). rewrite IH by (intros i e Y; apply (I i e); now right).
      destruct l as [k e| |]; [|reflexivity|reflexivity].
      destruct (Nat.eqb_spec k (length (sv_threads s5))) as [->|]; [|reflexivity].
      exfalso. assert (length (sv_threads s5) < length (sv_threads s5))%nat by (apply (I _ e); now left). lia. }
    rewrite !ran_app, !of_thread_app in Z. rewrite Z. reflexivity.
  - intros r Y. destruct X as [X|X]; rewrite Y in X; [|discriminate]. injection X as <-. discriminate.
Qed.

(** After a panic in [release] or [releasedir] no handler ever gets at an open
    handle again, and no request that names a handle is ever answered: its
    handler panics. *)
Theorem C65_release_panics root w before i since s :
  psteps (Filesystem_start root w) (before ++ UserPanics i true :: since) s ->
  (forall l, In (Ran l) since -> ~ used_handles l) /\
  (forall j rq buf t v, In (Ran (Arrived j rq)) since ->
     Request_new buf = Ret rq -> vfs_type (u32_at 4 buf) = Some t -> needs_handle t ->
     decode_view false cf t rq = Ret v ->
     VfsSpec.sent (of_thread j (ran (before ++ UserPanics i true :: since))) = [] /\
     forall r, nth_error (sv_threads (ps_server s)) j <> Some (PDone r)).
Proof.
  intros H. change (UserPanics i true :: since) with ([UserPanics i true] ++ since) in *.
  rewrite app_assoc in *. destruct (psteps_app _ _ _ _ H) as (s1 & H1 & H2).
  assert (P : ps_poisoned s1 LHandles = true).
  { remember (before ++ [UserPanics i true]) as tr eqn:T. destruct H1 as [|s0 tr s1 l s2 H1 St]; [now destruct before|].
    apply app_inj_tail in T as [-> ->]. inversion St as [| |j p v w0 w' ts f Hn Hb Hc E1 E2|]; subst.
    cbn [ps_poisoned]. destruct p; cbn [calls_user lock_of] in *; try discriminate; unfold poison; now rewrite orb_true_r. }
  split; [now apply (no_handles_any_more s1 since s)|].
  intros j rq buf t v A Hr T Nh D.
  assert (Dp : exists p0, dispatch U os cf rq = Some p0).
  { assert (Nf : t <> RForget) by (intros ->; unfold needs_handle in Nh; cbn in Nh; intuition discriminate).
    destruct (dispatch_view U os cf buf rq t Hr T Nf) as (p & X & _). eauto. }
  destruct Dp as [p0 Dp]. eapply unanswered; eauto. eapply needs_lock; eauto.
Qed.

(** *** Counters *)

(** Which lock a counter that overflows poisons. *)
Lemma overflow_of root w tr s i p v w0 ts ev p' v' w' :
  steps U os cf (start root w) tr s -> s = {| sv_threads := ts; sv_vfs := v; sv_world := w0 |} ->
  nth_error ts i = Some p -> exec U cf p v w0 ev = Some (EvPanic, p', v', w') ->
  match lock_of p with
  | Some LNodes => exists id, U64 <= lookups id tr + 1
  | Some LHandles => U64 <= nlen (handles tr) + 2
  | None => False
  end.
Proof.
  intros H -> Hn He.
  assert (Inc : forall n, n + 1 < U64 -> incr64 (cf_overflow_checks cf) n = Some (n + 1)).
  { intros n Ln. unfold incr64. now replace (n + 1 <? U64) with true by lia. }
  assert (Hk' : nlen (handles tr) + 2 < U64 -> v_next_handle_id v = nlen (handles tr) + 1).
  { intros L. destruct (handles_inv U os cf root w tr _ H) as (_ & Hk & _); [lia|]. cbn [sv_vfs] in Hk.
    rewrite Hk. now replace (nlen (handles tr) + 1 <? U64) with true by lia. }
  destruct p; cbn [exec lock_of] in *; try discriminate.
  - destruct (f w0). discriminate.
  - unfold NodeMap_add in He. destruct (N.lt_ge_cases (lookups node_id tr + 1) U64) as [Li|Li]; [|eauto].
    pose proof (nodes_inv U os cf root w tr _ node_id H ltac:(lia)) as I. unfold table_inv in I.
    cbn [sv_vfs] in I. destruct (v_nodes v node_id) as [[n c]|]; [|discriminate].
    destruct I as (-> & _ & _). pose proof (net_le node_id tr). rewrite Inc in He by lia. discriminate.
  - unfold HandlesMap_open_file in He. destruct (N.lt_ge_cases (nlen (handles tr) + 2) U64) as [L|L]; [|exact L].
    rewrite (Hk' L) in He. rewrite Inc in He by lia. discriminate.
  - unfold HandlesMap_open_dir in He. destruct (N.lt_ge_cases (nlen (handles tr) + 2) U64) as [L|L]; [|exact L].
    rewrite (Hk' L) in He. rewrite Inc in He by lia. discriminate.
  - destruct (HandlesMap_get_file node_id h v); [destruct (u_release U f rq w0) as [? []]|]; discriminate.
  - destruct (HandlesMap_get_dir node_id h v); [destruct (u_releasedir U d rq w0) as [? []]|]; discriminate.
Qed.
Lemma lookups_mono id (a b : list (label Node FH DH)) : lookups id a <= lookups id (a ++ b).
Proof. unfold lookups. rewrite PropTables.count_app. lia. Qed.
Lemma poison_reason root w tr s :
  psteps (Filesystem_start root w) tr s ->
  (ps_poisoned s LNodes = true -> exists id, U64 <= lookups id (ran tr) + 1) /\
  (ps_poisoned s LHandles = true -> (exists i, In (UserPanics i true) tr) \/ U64 <= nlen (handles (ran tr)) + 2).
Proof.
  intros H. remember (Filesystem_start root w) as p0 eqn:P0. induction H as [|s tr s1 k s2 H IH St]; subst.
  - split; discriminate.
  - destruct (IH eq_refl) as [IN IH']. clear IH.
    assert (ON : ps_poisoned s1 LNodes = true -> exists id, U64 <= lookups id (ran (tr ++ [k])) + 1).
    { intros X. destruct (IN X) as [id Y]. exists id. rewrite ran_app. pose proof (lookups_mono id (ran tr) (ran [k])). lia. }
    assert (OH : ps_poisoned s1 LHandles = true ->
      (exists i, In (UserPanics i true) (tr ++ [k])) \/ U64 <= nlen (handles (ran (tr ++ [k]))) + 2).
    { intros X. destruct (IH' X) as [[i Y]|Y]; [left; exists i; apply in_or_app; now left|right].
      rewrite ran_app, nlen_handles_app. lia. }
    destruct (C65_contained root w _ _ H) as (s0 & H0 & Ev & Ew & _ & At).
    inversion St as [i p ev e p' v v' w0 w' ts f0 Hn Hb Hx E1 E2|a b c f0 Hs Hk E1 E2
      |i p v w0 w' ts f0 Hn Hb Hc E1 E2|i p m v w0 ts f0 Hn Hl Hf E1 E2]; subst;
      cbn [ps_poisoned ps_server sv_threads sv_vfs sv_world] in *.
    + destruct e; try (split; [exact ON|exact OH]).
      destruct (At i p Hn) as [->|Hn0]; [discriminate Hx|].
      destruct s0 as [ts0 v0 w1]. cbn [sv_threads sv_vfs sv_world] in *. subst v0 w1.
      pose proof (overflow_of root w (ran tr) _ i p v w0 ts0 ev p' v' w' H0 eq_refl Hn0 Hx) as Of.
      unfold poison. split; intros X; apply orb_prop in X as [X|X]; auto.
      * destruct (lock_of p) as [[]|]; try discriminate. destruct Of as [id Of]. exists id.
        rewrite ran_app. pose proof (lookups_mono id (ran tr) (ran [Ran (Did i EvPanic)])). lia.
      * destruct (lock_of p) as [[]|]; try discriminate. right. rewrite ran_app, nlen_handles_app. lia.
    + split; [exact ON|exact OH].
    + unfold poison. split; intros X; apply orb_prop in X as [X|X]; auto.
      * destruct p; cbn [calls_user lock_of] in *; discriminate.
      * destruct p; cbn [calls_user lock_of] in *; try discriminate; left; exists i; apply in_or_app; right; now left.
    + split; [exact ON|exact OH].
Qed.

(** Which threads can go on in spite of panics: whoever calls user code or sends
    a reply, always; whoever uses the table of nodes, unless some node was
    looked up 2^64 times; whoever uses the handles, unless [release] or
    [releasedir] panicked or as many handles were given out. *)
Theorem C65_goes_on root w tr s i p ev e p' v' w' :
  psteps (Filesystem_start root w) tr s ->
  nth_error (sv_threads (ps_server s)) i = Some p ->
  exec U cf p (sv_vfs (ps_server s)) (sv_world (ps_server s)) ev = Some (e, p', v', w') -> e <> EvPanic ->
  (used_nodes (Did i e) -> forall id, lookups id (ran tr) + 1 < U64) ->
  (used_handles (Did i e) -> (forall j, ~ In (UserPanics j true) tr) /\ nlen (handles (ran tr)) + 2 < U64) ->
  exists s', pstep s (Ran (Did i e)) s'.
Proof.
  intros H Hn Hx Np Un Uh. destruct (poison_reason root w tr s H) as [RN RH].
  destruct s as [[ts v w0] f]. cbn [ps_server ps_poisoned sv_threads sv_vfs sv_world] in *.
  eexists. econstructor; eauto. unfold blocked. destruct (lock_of p) as [[]|] eqn:L; [| |reflexivity].
  - destruct (f LNodes); [|reflexivity]. destruct (RN eq_refl) as [id X].
    assert (used_nodes (Did i e)); [|specialize (Un H0 id); lia].
    destruct p; try discriminate; cbn [exec] in Hx.
    + injection Hx as <- <- <- <-. exact I.
    + destruct (NodeMap_add _ _ _ _); injection Hx as <- <- <- <-; [exact I|contradiction].
    + injection Hx as <- <- <- <-. exact I.
  - destruct (f LHandles); [|reflexivity].
    assert (used_handles (Did i e)).
    { destruct p; try discriminate; cbn [exec] in Hx.
      - destruct (HandlesMap_open_file _ _ _) as [[? ?]|]; injection Hx as <- <- <- <-; [exact I|contradiction].
      - destruct (HandlesMap_open_dir _ _ _) as [[? ?]|]; injection Hx as <- <- <- <-; [exact I|contradiction].
      - injection Hx as <- <- <- <-. exact I.
      - injection Hx as <- <- <- <-. exact I.
      - destruct (HandlesMap_get_file _ _ _); [destruct (u_release U _ _ _) as [? []]|]; injection Hx as <- <- <- <-; exact I.
      - destruct (HandlesMap_get_dir _ _ _); [destruct (u_releasedir U _ _ _) as [? []]|]; injection Hx as <- <- <- <-; exact I. }
    destruct (Uh H0) as [A B]. destruct (RH eq_refl) as [[j X]|X]; [now destruct (A j)|lia].
Qed.

(** Any call of user code outside [release] and [releasedir] may panic, and all
    that comes of it is that its thread is gone, whatever it did to the user's
    state [w1]. *)
Theorem C65_user_call s i p ev p' v' w' w1 :
  nth_error (sv_threads (ps_server s)) i = Some p ->
  exec U cf p (sv_vfs (ps_server s)) (sv_world (ps_server s)) ev = Some (EvUser, p', v', w') ->
  exists s', pstep s (UserPanics i false) s' /\
    nth_error (sv_threads (ps_server s')) i = Some PPanic /\
    (forall j, j <> i -> nth_error (sv_threads (ps_server s')) j = nth_error (sv_threads (ps_server s)) j) /\
    sv_vfs (ps_server s') = sv_vfs (ps_server s) /\ sv_world (ps_server s') = w1 /\
    forall l, ps_poisoned s' l = ps_poisoned s l.
Proof.
  intros Hn Hx. destruct s as [[ts v w] f]. cbn [ps_server ps_poisoned sv_threads sv_vfs sv_world] in *.
  assert (P : lock_of p = None /\ calls_user p v = true).
  { destruct p; cbn [exec] in Hx; try discriminate; try (split; reflexivity); exfalso.
    - destruct (NodeMap_add _ _ _ _); discriminate.
    - destruct (HandlesMap_open_file _ _ _) as [[? ?]|]; discriminate.
    - destruct (HandlesMap_open_dir _ _ _) as [[? ?]|]; discriminate.
    - destruct (HandlesMap_get_file _ _ _); [destruct (u_release U _ _ _) as [? []]|]; discriminate.
    - destruct (HandlesMap_get_dir _ _ _); [destruct (u_releasedir U _ _ _) as [? []]|]; discriminate. }
  destruct P as [L C]. eexists. split.
  - pose proof (pstep_user U os cf i p v w w1 ts f Hn) as St. rewrite L in St. apply St; [|exact C].
    unfold blocked. now rewrite L.
  - cbn [ps_server ps_poisoned sv_threads sv_vfs sv_world]. split; [now apply nth_set_same with p|].
    split; [|split; [reflexivity|split; [reflexivity|intros l; apply orb_false_r]]].
    intros j Ne. rewrite nth_set. destruct (Nat.eqb_spec i j); [congruence|reflexivity].
Qed.

(** If the count of lookups of a node overflows (with overflow checks), no
    handler gets at any node any more, and no request that names a node is
    answered; what happens with the handles goes on (C65_goes_on). *)
Theorem C65_lookups_overflow root w before i since s :
  psteps (Filesystem_start root w) (before ++ Ran (Did i EvPanic) :: since) s ->
  nlen (handles (ran before)) + 2 < U64 ->
  (exists id, U64 <= lookups id (ran before) + 1) /\
  (forall l, In (Ran l) since -> ~ used_nodes l) /\
  (forall j rq buf t v, In (Ran (Arrived j rq)) since ->
     Request_new buf = Ret rq -> vfs_type (u32_at 4 buf) = Some t -> needs_node t ->
     decode_view false cf t rq = Ret v ->
     VfsSpec.sent (of_thread j (ran (before ++ Ran (Did i EvPanic) :: since))) = [] /\
     forall r, nth_error (sv_threads (ps_server s)) j <> Some (PDone r)).
Proof.
  intros H L. change (Ran (Did i EvPanic) :: since) with ([Ran (Did i EvPanic)] ++ since) in *.
  rewrite app_assoc in *. destruct (psteps_app _ _ _ _ H) as (s1 & H1 & H2).
  assert (P : ps_poisoned s1 LNodes = true /\ exists id, U64 <= lookups id (ran before) + 1).
  { clear H H2. remember (before ++ [Ran (Did i EvPanic)]) as tr eqn:T.
    remember (Filesystem_start root w) as s0 eqn:S0.
    destruct H1 as [|s0 tr s1 l s2 H1 St]; [now destruct before|].
    apply app_inj_tail in T as [-> ->]. subst s0.
    destruct (C65_contained root w _ _ H1) as (s0 & H0 & Ev & Ew & _ & At).
    inversion St as [j p ev e p' v v' w0 w' ts f0 Hn Hb Hx E1 E2|a b c f0 Hs Hk E1 E2| |]; subst; [|destruct Hk].
    cbn [ps_poisoned ps_server sv_threads sv_vfs sv_world] in *.
    destruct (At i p Hn) as [->|Hn0]; [discriminate Hx|].
    destruct s0 as [ts0 v0 w1]. cbn [sv_threads sv_vfs sv_world] in *. subst v0 w1.
    pose proof (overflow_of root w (ran before) _ i p v w0 ts0 ev p' v' w' H0 eq_refl Hn0 Hx) as Of.
    destruct (lock_of p) as [[]|]; [|lia|destruct Of]. split; [|exact Of].
    unfold poison. apply orb_true_r. }
  destruct P as [P Id]. split; [exact Id|]. split; [now apply (no_nodes_any_more s1 since s)|].
  intros j rq buf t v A Hr T Nn D.
  assert (Dp : exists p0, dispatch U os cf rq = Some p0).
  { assert (Nf : t <> RForget) by (intros ->; unfold needs_node in Nn; cbn in Nn; intuition discriminate).
    destruct (dispatch_view U os cf buf rq t Hr T Nf) as (p & X & _). eauto. }
  destruct Dp as [p0 Dp]. eapply unanswered; eauto. eapply needs_node_lock; eauto.
Qed.
End Vfs.

(** ** Worker threads *)

Lemma nth_last {A} (l : list A) x i y :
  nth_error (l ++ [x]) i = Some y -> nth_error l i = Some y \/ i = length l /\ y = x.
Proof.
  intros H. destruct (Nat.lt_ge_cases i (length l)) as [L|L].
  - left. now rewrite nth_error_app1 in H.
  - right. rewrite nth_error_app2 in H by lia.
    destruct (i - length l)%nat as [|d] eqn:D; [|destruct d; discriminate].
    cbn in H. injection H as <-. split; [lia|reflexivity].
Qed.

Section Pool.
Context {E : Endian} (k : kind) (threads : N) (bufs : list bytes) (len : N).
Let start := pool_new bufs.
Notation texec := (texec k threads).
Notation wexec := (wexec k threads).

(** An execution without the panics *)
Definition wran (tr : list wlabel) : list tlabel := flat_map (fun l => match l with WRan l => [l] | _ => [] end) tr.
(** The number of panics of handlers *)
Definition panics (tr : list wlabel) : N :=
  nlen (flat_map (fun l => match l with WHandlerPanics _ _ => [tt] | _ => [] end) tr).

Lemma wran_app a b : wran (a ++ b) = wran a ++ wran b.
Proof. apply flat_map_app. Qed.
Lemma panics_app a b : panics (a ++ b) = panics a + panics b.
Proof. unfold panics. now rewrite flat_map_app, nlen_app. Qed.

Definition pool_alike (tr : list wlabel) (s s0 : pool) : Prop :=
  p_channel s = p_channel s0 /\ length (p_workers s) = length (p_workers s0) /\
  (p_caller s = p_caller s0 \/ p_caller s = MPanic /\ p_caller s0 = MScope) /\
  forall i w, nth_error (p_workers s) i = Some w ->
    nth_error (p_workers s0) i = Some w \/
    (w = WPanic /\ exists buf rq, nth_error (p_workers s0) i = Some (WDispatch buf rq) /\
                                  In (WHandlerPanics i rq) tr).

Lemma alike_set tr tr' i w ws ws0 :
  (forall x, In x tr -> In x tr') ->
  (forall j v, nth_error ws j = Some v -> nth_error ws0 j = Some v \/
     (v = WPanic /\ exists buf rq, nth_error ws0 j = Some (WDispatch buf rq) /\ In (WHandlerPanics j rq) tr)) ->
  length ws = length ws0 ->
  forall j v, nth_error (set_worker i w ws) j = Some v -> nth_error (set_worker i w ws0) j = Some v \/
     (v = WPanic /\ exists buf rq, nth_error (set_worker i w ws0) j = Some (WDispatch buf rq) /\
                                   In (WHandlerPanics j rq) tr').
Proof.
  intros Inc A L j v. rewrite !PropThreads.nth_set. destruct (Nat.eqb_spec i j) as [<-|].
  - destruct (nth_error ws i) eqn:N; [|discriminate]. intros [= <-]. left.
    destruct (nth_error ws0 i) eqn:N0; [reflexivity|]. exfalso. apply nth_error_None in N0.
    assert (i < length ws)%nat by (apply nth_error_Some; congruence). lia.
  - intros H. destruct (A j v H) as [X|(X & buf & rq & Y & Z)]; [now left|]. right. eauto 7.
Qed.

(** Panics of handlers change nothing for the other workers: the execution is
    one of a pool without panics in which the handlers that panicked never
    return. *)
Theorem C65_pool tr s :
  wexec start tr s ->
  exists s0, texec start (wran tr) s0 /\ p_channel s = p_channel s0 /\
    length (p_workers s) = length (p_workers s0) /\
    (p_caller s = p_caller s0 \/ p_caller s = MPanic /\ p_caller s0 = MScope) /\
    forall i w, nth_error (p_workers s) i = Some w ->
      nth_error (p_workers s0) i = Some w \/
      (w = WPanic /\ exists buf rq, nth_error (p_workers s0) i = Some (WDispatch buf rq) /\
                                    In (WHandlerPanics i rq) tr).
Proof.
  intros H. enough (X : exists s0, texec start (wran tr) s0 /\ pool_alike tr s s0)
    by (destruct X as (s0 & X & Y); exists s0; split; [exact X|exact Y]).
  remember start as s0 eqn:S0. induction H as [|s tr s' l s'' H IH St]; subst.
  - exists start. split; [constructor|]. repeat split; auto.
  - destruct (IH eq_refl) as (s0 & H0 & Ac & Al & Am & Aw). clear IH H.
    assert (Inc : forall x, In x tr -> In x (tr ++ [l])) by (intros; apply in_or_app; now left).
    assert (Aw' : forall i w, nth_error (p_workers s') i = Some w ->
      nth_error (p_workers s0) i = Some w \/
      (w = WPanic /\ exists buf rq, nth_error (p_workers s0) i = Some (WDispatch buf rq) /\
                                    In (WHandlerPanics i rq) (tr ++ [l]))).
    { intros i w X. destruct (Aw i w X) as [Y|(Y & buf & rq & Z1 & Z2)]; [now left|right; eauto 7]. }
    destruct s0 as [c0 ws0 ch0]. rewrite wran_app.
    destruct St as [s l s' St|c ws ch i buf rq Hn|ws ch Hg He]; cbn [wran flat_map app];
      rewrite ?app_nil_r.
    + destruct St as [ii bs rest buf ws ch Hi Hr|ii bs ws ch Hi Hr|ii bs ws ch Hi
        |c ws ch i buf ev Hw|c ws ch i buf rq Hw|c ws ch i buf err Hw Hc|ws ch Hx];
        cbn [p_caller p_workers p_channel] in *; subst ch0.
      * destruct Am as [<-|[? _]]; [|discriminate]. eexists.
        split; [eapply texec_snoc; [exact H0|eapply step_spawn; eauto]|].
        split; [reflexivity|]. cbn [p_workers p_caller]. rewrite !app_length. split; [now rewrite Al|].
        split; [now left|].
        intros j w X. apply nth_last in X as [X|[-> ->]].
        -- assert (j < length ws)%nat by (apply nth_error_Some; congruence).
           rewrite nth_error_app1 by lia. auto.
        -- left. rewrite Al, nth_error_app2 by lia. now rewrite Nat.sub_diag.
      * destruct Am as [<-|[? _]]; [|discriminate]. eexists.
        split; [eapply texec_snoc; [exact H0|eapply step_spawn_panic; eauto]|].
        repeat split; auto.
      * destruct Am as [<-|[? _]]; [|discriminate]. eexists.
        split; [eapply texec_snoc; [exact H0|eapply step_scope; eauto]|].
        repeat split; auto.
      * destruct (Aw i _ Hw) as [X|[X _]]; [|discriminate]. eexists.
        split; [eapply texec_snoc; [exact H0|eapply step_recv; eauto]|].
        split; [reflexivity|]. cbn [p_workers p_caller]. rewrite !PropThreads.length_set.
        split; [exact Al|]. split; [exact Am|]. now apply (alike_set tr).
      * destruct (Aw i _ Hw) as [X|[X _]]; [|discriminate]. eexists.
        split; [eapply texec_snoc; [exact H0|eapply step_dispatch; eauto]|].
        split; [reflexivity|]. cbn [p_workers p_caller]. rewrite !PropThreads.length_set.
        split; [exact Al|]. split; [exact Am|]. now apply (alike_set tr).
      * destruct (Aw i _ Hw) as [X|[X _]]; [|discriminate]. eexists.
        split; [eapply texec_snoc; [exact H0|eapply step_send; eauto]|].
        split; [reflexivity|]. cbn [p_workers p_caller]. rewrite !PropThreads.length_set.
        split; [exact Al|]. split; [exact Am|]. now apply (alike_set tr).
      * destruct Am as [<-|[? _]]; [|discriminate]. eexists.
        split; [eapply texec_snoc; [exact H0|eapply step_return]|].
        2: { repeat split; auto. }
        rewrite forallb_forall in *. intros w X. apply In_nth_error in X as [j X].
        assert (L : (j < length ws)%nat) by (rewrite Al; apply nth_error_Some; congruence).
        apply nth_error_Some in L. destruct (nth_error ws j) as [w'|] eqn:N; [|contradiction].
        pose proof (Hx w' (nth_error_In _ _ N)) as Ex.
        destruct (Aw j w' N) as [Y|[-> _]]; [|discriminate]. congruence.
    + cbn [p_caller p_workers p_channel] in *. subst ch0. eexists. split; [exact H0|].
      split; [reflexivity|]. cbn [p_workers p_caller]. rewrite PropThreads.length_set.
      split; [exact Al|]. split; [exact Am|]. intros j w. rewrite PropThreads.nth_set.
      destruct (Nat.eqb_spec i j) as [<-|]; [|apply Aw'].
      rewrite Hn. intros [= <-]. right. split; [reflexivity|].
      destruct (Aw i _ Hn) as [X|[X _]]; [|discriminate]. exists buf, rq. split; [exact X|].
      apply in_or_app. right. now left.
    + cbn [p_caller p_workers p_channel] in *. subst ch0. destruct Am as [<-|[? _]]; [|discriminate].
      eexists. split; [exact H0|]. repeat split; auto.
Qed.

Definition panicked (w : worker) : bool := match w with WPanic => true | _ => false end.

Lemma wexec_app s a : forall b s', wexec s (a ++ b) s' -> exists s1, wexec s a s1 /\ wexec s1 b s'.
Proof.
  intros b. induction b as [|l b IH] using rev_ind; intros s' H.
  - rewrite app_nil_r in H. exists s'. split; [exact H|constructor].
  - rewrite app_assoc in H. remember ((a ++ b) ++ [l]) as tr eqn:T.
    destruct H as [|s tr s1 l' s2 H St]; [now destruct (a ++ b)|].
    apply app_inj_tail in T as [-> ->]. destruct (IH s1 H) as (s3 & H1 & H2). exists s3. split; [exact H1|].
    econstructor; eauto.
Qed.

Lemma panicked_stays s tr s' i :
  wexec s tr s' -> nth_error (p_workers s) i = Some WPanic ->
  nth_error (p_workers s') i = Some WPanic /\ received i (wran tr) = [] /\ handled i (wran tr) = [] /\
  (forall rq, ~ In (WHandlerPanics i rq) tr) /\ (p_caller s <> MReturned -> p_caller s' <> MReturned).
Proof.
  intros H N. induction H as [|s tr s1 l s2 H IH St]; [auto 6|].
  destruct (IH N) as (X & R & Hd & Np & Mr). clear IH.
  rewrite wran_app, received_app, handled_app, R, Hd.
  enough (Y : nth_error (p_workers s2) i = Some WPanic /\ received i (wran [l]) = [] /\ handled i (wran [l]) = [] /\
    (forall rq, l <> WHandlerPanics i rq) /\ (p_caller s1 <> MReturned -> p_caller s2 <> MReturned)).
  { destruct Y as (Y1 & Y2 & Y3 & Y4 & Y5). split; [exact Y1|]. rewrite Y2, Y3. split; [reflexivity|].
    split; [reflexivity|]. split; [|auto].
    intros rq Z. apply in_app_iff in Z as [Z|[Z|[]]]; [now apply (Np rq)|now apply (Y4 rq)]. }
  destruct St as [s3 l s4 St|c ws ch j buf rq Hn|ws ch Hg He]; cbn [p_caller p_workers] in *.
  - destruct St as [ii bs rest buf ws ch Hi Hr|ii bs ws ch Hi Hr|ii bs ws ch Hi
      |c ws ch j buf ev Hw|c ws ch j buf rq Hw|c ws ch j buf err Hw Hc|ws ch Hx];
      cbn [p_caller p_workers wran flat_map app received handled] in *;
      rewrite ?PropThreads.nth_set; try destruct (Nat.eqb_spec j i) as [->|Ne]; try congruence;
      repeat split; auto; try congruence; try discriminate.
    + rewrite nth_error_app1; [exact X|]. apply nth_error_Some. congruence.
    + rewrite forallb_forall in Hx. specialize (Hx _ (nth_error_In _ _ X)). discriminate.
  - rewrite PropThreads.nth_set. destruct (Nat.eqb_spec j i) as [->|Ne]; [congruence|].
    repeat split; auto. congruence.
  - repeat split; auto; discriminate.
Qed.

Hypothesis bufs_count : nlen bufs = threads.
Hypothesis bufs_len : Forall (fun b => nlen b = len) bufs.

(** [subst] that leaves [threads] alone *)
Ltac psubst := revert bufs_count; subst; intros bufs_count.

(** Each panic costs a worker for ever: it receives and handles nothing any
    more.  There are as many panics as workers lost, so never more than
    [threads]; and after a panic the serve function never returns, so that
    nobody gets the errors reported to the channel. *)
Theorem C65_capacity before i rq since s :
  wexec start (before ++ WHandlerPanics i rq :: since) s ->
  nth_error (p_workers s) i = Some WPanic /\
  received i (wran since) = [] /\ handled i (wran since) = [] /\
  panics (before ++ WHandlerPanics i rq :: since) = number panicked (p_workers s) /\
  panics (before ++ WHandlerPanics i rq :: since) <= threads /\
  p_caller s <> MReturned.
Proof.
  intros H.
  assert (C : panics (before ++ WHandlerPanics i rq :: since) = number panicked (p_workers s)).
  { revert H. generalize (before ++ WHandlerPanics i rq :: since) as tr. intros tr H.
    remember start as s0 eqn:S0. induction H as [|s tr s1 l s2 H IH St]; psubst; [reflexivity|].
    specialize (IH eq_refl). rewrite panics_app, IH.
    destruct (C65_pool _ _ H) as (s0 & H0 & _ & _ & _ & Aw).
    destruct (C51_once k threads bufs len bufs_count bufs_len _ _ H0) as [_ On].
    destruct St as [s3 l s4 St|c ws ch j buf rq' Hn|ws ch Hg He]; cbn [p_workers] in *.
    - change (panics [WRan l]) with 0. rewrite N.add_0_r.
      assert (Nw : forall j w w' ws, (nth_error ws j = Some w) -> panicked w = false -> panicked w' = false ->
        number panicked ws = number panicked (set_worker j w' ws)).
      { intros j w w' ws Hn P P'. pose proof (number_set threads bufs bufs_count panicked j w' w ws Hn) as X. rewrite P, P' in X. lia. }
      inversion St as [ii bs rest buf ws ch Hi Hr|ii bs ws ch Hi Hr|ii bs ws ch Hi
        |c ws ch j buf ev Hw|c ws ch j buf rq' Hw|c ws ch j buf err Hw Hc|ws ch Hx]; psubst; cbn [p_workers] in *; auto.
      + rewrite number_app. change (number panicked [WRecv buf]) with 0. lia.
      + apply (Nw j (WRecv buf)); auto.
        destruct (Aw j _ Hw) as [X|[X _]]; [|discriminate].
        assert (St0 : exists s0', texec start (wran tr ++ [TRecv j ev]) s0' /\
                  nth_error (p_workers s0') j = Some (after_recv k buf ev)).
        { destruct s0 as [c0 ws0 ch0]. cbn [p_workers] in X. eexists. split.
          - eapply texec_snoc; [exact H0|]. eapply step_recv; eauto.
          - cbn [p_workers]. rewrite PropThreads.nth_set, Nat.eqb_refl, X. reflexivity. }
        destruct St0 as (s0' & Ex & Nx).
        destruct (C51_once k threads bufs len bufs_count bufs_len _ _ Ex) as [_ On'].
        specialize (On' j). rewrite Nx in On'. destruct On' as (_ & Np & _).
        destruct (after_recv k buf ev); auto. contradiction.
      + apply (Nw j (WDispatch buf rq')); auto.
      + apply (Nw j (WSend buf err)); auto. unfold after_send. now destruct (is_fatal_error err).
    - pose proof (number_set threads bufs bufs_count panicked j WPanic _ ws Hn) as X. cbn [panicked] in X.
      change (panics [WHandlerPanics j rq']) with 1. lia.
    - change (panics [WScopePanics]) with 0. lia. }
  assert (Le : nlen (p_workers s) <= threads).
  { destruct (C65_pool _ _ H) as (s0 & H0 & _ & Al & _). unfold nlen. rewrite Al.
    destruct (C51_once k threads bufs len bufs_count bufs_len _ _ H0) as [_ On].
    destruct (length (p_workers s0)) as [|n] eqn:Ln; [lia|]. specialize (On n).
    destruct (nth_error (p_workers s0) n) eqn:X.
    - destruct On as [On _]. lia.
    - apply nth_error_None in X. lia. }
  pose proof (number_le threads bufs bufs_count panicked (p_workers s)) as Nl.
  change (WHandlerPanics i rq :: since) with ([WHandlerPanics i rq] ++ since) in H.
  rewrite app_assoc in H. destruct (wexec_app _ _ _ _ H) as (s1 & H1 & H2).
  assert (X : nth_error (p_workers s1) i = Some WPanic /\ p_caller s1 <> MReturned).
  { remember (before ++ [WHandlerPanics i rq]) as tr eqn:T. remember start as s0 eqn:S0.
    destruct H1 as [|s0 tr s' l s1 H1 St]; [now destruct before|]. apply app_inj_tail in T as [-> ->]. subst s0.
    inversion St as [|c ws ch j buf rq' Hn|]; psubst. cbn [p_workers p_caller].
    rewrite PropThreads.nth_set, Nat.eqb_refl, Hn. split; [reflexivity|]. intros ->.
    destruct (C65_pool _ _ H1) as (s0 & H0 & _ & _ & [Am|[Am _]] & Aw); cbn [p_caller p_workers] in *; [|discriminate].
    destruct (Aw i _ Hn) as [Y|[Y _]]; [|discriminate].
    destruct (C51_returns k threads bufs len bufs_count bufs_len _ _ H0 (eq_sym Am)) as (_ & _ & No).
    destruct s0 as [c0 ws0 ch0]. eapply No. eapply step_dispatch. exact Y. }
  destruct X as [X Xm]. destruct (panicked_stays _ _ _ i H2 X) as (Y1 & Y2 & Y3 & _ & Y5).
  repeat split; auto. lia.
Qed.

(** When a handler has panicked and every worker has ended, one way or the
    other, the serve function can only panic, and does. *)
Theorem C65_scope tr s :
  wexec start tr s -> 0 < panics tr -> p_caller s = MScope ->
  Forall (fun w => w = WExit \/ w = WPanic) (p_workers s) ->
  (exists s', wstep k threads s WScopePanics s') /\
  forall l s', wstep k threads s l s' -> l = WScopePanics /\ p_caller s' = MPanic.
Proof.
  intros H Pos Cs F.
  assert (P : exists i, nth_error (p_workers s) i = Some WPanic).
  { assert (X : exists i rq, In (WHandlerPanics i rq) tr).
    { clear - Pos. induction tr as [|l tr IH]; [discriminate|].
      destruct l as [l|i rq|]; [|exists i, rq; now left|];
        (destruct IH as (i & rq & X); [exact Pos|exists i, rq; now right]). }
    destruct X as (i & rq & X). apply in_split in X as (a & b & ->).
    destruct (C65_capacity a i rq b s H) as (Y & _). eauto. }
  destruct P as [i P].
  assert (Ex : forallb exited (p_workers s) = false).
  { destruct (forallb exited (p_workers s)) eqn:X; [|reflexivity].
    rewrite forallb_forall in X. discriminate (X _ (nth_error_In _ _ P)). }
  destruct s as [c ws ch]. cbn [p_caller p_workers] in *. subst c. rewrite Forall_forall in F. split.
  - eexists. apply wstep_scope; [|exact Ex]. apply forallb_forall. intros w I. now destruct (F w I) as [->| ->].
  - assert (No : forall j w, nth_error ws j = Some w -> w = WExit \/ w = WPanic).
    { intros j w X. apply F. eapply nth_error_In; eauto. }
    intros l s' St. inversion St as [s1 l1 s2 T|c ws1 ch1 j buf rq Hn|ws1 ch1 Hg He]; psubst.
    + inversion T as [| | |c ws1 ch1 j buf ev Hw|c ws1 ch1 j buf rq Hw|c ws1 ch1 j buf err Hw Hc|ws1 ch1 Hx]; psubst;
        try (destruct (No _ _ Hw); discriminate). congruence.
    + destruct (No _ _ Hn); discriminate.
    + split; reflexivity.
Qed.

(** It does so only then: not while a worker goes on, and not without a panic. *)
Theorem C65_waits s s' :
  wstep k threads s WScopePanics s' ->
  p_caller s = MScope /\ Forall (fun w => w = WExit \/ w = WPanic) (p_workers s) /\
  In WPanic (p_workers s) /\ p_caller s' = MPanic.
Proof.
  intros H. inversion H as [| |ws ch Hg He]; psubst. cbn [p_caller p_workers].
  assert (A : Forall (fun w => w = WExit \/ w = WPanic) ws).
  { apply Forall_forall. intros w I. rewrite forallb_forall in Hg. specialize (Hg w I).
    destruct w; try discriminate Hg; auto. }
  split; [reflexivity|]. split; [exact A|]. split; [|reflexivity].
  clear - A He. induction A as [|w ws [->| ->] A IH]; [discriminate|right; now apply IH|now left].
Qed.

(** So as many panics as there are threads end the service although receiving
    never failed: nothing is received any more.  [m] is any message that
    reaches a handler. *)
Theorem C65_pool_refuted m :
  1 <= threads -> accepted (take len m) = true ->
  exists tr s, wexec start tr s /\ PropThreads.count fails (wran tr) = 0 /\ panics tr = threads /\
    forall tr' s', wexec s tr' s' ->
      (forall i ev, ~ In (WRan (TRecv i ev)) tr') /\ p_caller s' <> MReturned.
Proof.
  intros T A.
  assert (Rounds : forall (n : nat) bs (gone : list bytes), length bs = n -> bufs = bs ++ gone ->
    forall j, j = nlen gone ->
    exists tr ws, wexec start tr {| p_caller := MSpawn j bs; p_workers := ws; p_channel := [] |} /\
      ws = repeat WPanic (length gone) /\ PropThreads.count fails (wran tr) = 0 /\ panics tr = nlen gone).
  { intros n bs gone. revert n bs. induction gone as [|b gone IH]; intros n bs Ln Eb j ->.
    - exists [], []. rewrite app_nil_r in Eb. subst bs. repeat split; auto. constructor.
    - destruct (IH (S n) (bs ++ [b])) with (j := nlen gone) as (tr & ws & Ex & -> & Cf & Cp); auto.
      { rewrite app_length, Ln. cbn. lia. } { now rewrite <- app_assoc. }
      assert (Lb : nlen b = len).
      { rewrite Eb in bufs_len. apply Forall_app in bufs_len as [_ F]. now apply Forall_cons_iff in F as [F _]. }
      assert (Hr : remove_last (bs ++ [b]) = Some (bs, b)).
      { clear. induction bs as [|x bs IH]; [reflexivity|]. cbn [app remove_last].
        destruct (bs ++ [b]) eqn:Y; [now destruct bs|]. now rewrite IH. }
      assert (Lt : nlen gone < threads).
      { rewrite <- bufs_count, Eb, nlen_app, nlen_cons. lia. }
      destruct (after_recv_spec k threads bufs len bufs_count b (Message m) Lb) as (P & _). cbn [expected] in P. rewrite A in P.
      destruct (after_recv k b (Message m)) as [|b' rq| | | |] eqn:Ar; try discriminate.
      set (i := length (repeat WPanic (length gone))).
      assert (Ln' : length (repeat WPanic (length gone)) = i) by reflexivity.
      assert (Sl : forall w, set_worker i w (repeat WPanic (length gone) ++ [WRecv b]) = repeat WPanic (length gone) ++ [w]).
      { subst i. clear. intros w. induction (length gone) as [|n IH]; [reflexivity|]. cbn in *. now rewrite IH. }
      assert (Sl' : forall w w', set_worker i w' (repeat WPanic (length gone) ++ [w]) = repeat WPanic (length gone) ++ [w']).
      { subst i. clear. intros w w'. induction (length gone) as [|n IH]; [reflexivity|]. cbn in *. now rewrite IH. }
      assert (Nl : forall w, nth_error (repeat WPanic (length gone) ++ [w]) i = Some w).
      { intros w. rewrite nth_error_app2 by lia. subst i. now rewrite Nat.sub_diag. }
      exists (((tr ++ [WRan TSpawn]) ++ [WRan (TRecv i (Message m))]) ++ [WHandlerPanics i rq]), (repeat WPanic (length gone) ++ [WPanic]).
      split.
      + eapply wexec_snoc; [eapply wexec_snoc; [eapply wexec_snoc; [exact Ex|]|]|].
        * apply wstep_ran. eapply step_spawn; [exact Lt|exact Hr].
        * apply wstep_ran. eapply step_recv. apply Nl.
        * rewrite Ar, Sl, nlen_cons. rewrite <- (Sl' (WDispatch b' rq) WPanic). replace (1 + nlen gone) with (nlen gone + 1) by lia.
          eapply wstep_panic. apply Nl.
      + split; [now rewrite <- repeat_cons|]. rewrite !wran_app, !PropThreads.count_app, !panics_app, Cf, Cp, nlen_cons.
        split; [reflexivity|]. change (panics [WRan TSpawn]) with 0.
        change (panics [WRan (TRecv i (Message m))]) with 0. change (panics [WHandlerPanics i rq]) with 1. lia. }
  destruct (Rounds O [] bufs eq_refl eq_refl threads (eq_sym bufs_count)) as (tr & ws & Ex & -> & Cf & Cp).
  exists tr, {| p_caller := MSpawn threads []; p_workers := repeat WPanic (length bufs); p_channel := [] |}.
  split; [exact Ex|]. split; [exact Cf|]. split; [lia|].
  intros tr' s' H'.
  enough (X : (forall i ev, ~ In (WRan (TRecv i ev)) tr') /\ p_caller s' <> MReturned /\
    p_workers s' = repeat WPanic (length bufs) /\
    match p_caller s' with MSpawn ii _ => ii = threads | _ => True end) by tauto.
  assert (Np : forall i w, nth_error (repeat WPanic (length bufs)) i = Some w -> w = WPanic).
  { intros i w X. apply nth_error_In, repeat_spec in X. exact X. }
  clear Ex Cf Cp Rounds.
  remember {| p_caller := MSpawn threads []; p_workers := repeat WPanic (length bufs); p_channel := [] |} as s0 eqn:S0.
  induction H' as [|s0 tr' s1 l s2 H IH St]; psubst.
  { cbn [p_caller p_workers]. repeat split; auto. discriminate. }
  destruct (IH eq_refl) as (I1 & I2 & I3 & I4). clear IH.
  enough (Y : (forall i ev, l <> WRan (TRecv i ev)) /\ p_caller s2 <> MReturned /\
    p_workers s2 = repeat WPanic (length bufs) /\
    match p_caller s2 with MSpawn ii _ => ii = threads | _ => True end).
  { destruct Y as (Y1 & Y). split; [|exact Y]. intros i ev Z. apply in_app_iff in Z as [Z|[Z|[]]].
    - now apply (I1 i ev). - now apply (Y1 i ev). }
  destruct St as [s3 l s4 St|c ws ch j buf rq Hn|ws ch Hg He]; cbn [p_caller p_workers] in *.
  - destruct St as [ii bs rest buf ws ch Hi Hr|ii bs ws ch Hi Hr|ii bs ws ch Hi
      |c ws ch j buf ev Hw|c ws ch j buf rq Hw|c ws ch j buf err Hw Hc|ws ch Hx];
      cbn [p_caller p_workers] in *; psubst; try lia;
      try (apply Np in Hw; discriminate); try (repeat split; auto; discriminate).
    exfalso. unfold nlen in bufs_count. destruct (length bufs) as [|n]; [lia|discriminate Hx].
  - subst ws. apply Np in Hn. discriminate.
  - repeat split; auto; discriminate.
Qed.
End Pool.

(** * Examples (little-endian) *)

Local Instance LE : Endian := false.

(** Schedules with panics: a choice as before; the user code thread [i] is
    about to call panics; thread [i] finds its lock poisoned. *)
Inductive pchoice := Goes (c : choice) | Panics (i : nat) | Poisoned (i : nat).
Definition pschedule1 (c : pchoice) (s : pserver N N N N) : option (plabel N N N * pserver N N N N) :=
  let sv := ps_server s in
  match c with
  | Goes (Arrives rq) =>
    match schedule1 demo linux_errors demo_cf (Arrives rq) sv with
    | Some (l, sv') => Some (Ran l, {| ps_server := sv'; ps_poisoned := ps_poisoned s |})
    | None => None
    end
  | Goes (Takes i ev) =>
    match nth_error (sv_threads sv) i with
    | Some p =>
      if blocked p (ps_poisoned s) then None
      else match exec demo demo_cf p (sv_vfs sv) (sv_world sv) ev with
           | Some (e, p', v', w') =>
             Some (Ran (Did i e),
               {| ps_server := {| sv_threads := set_thread i p' (sv_threads sv); sv_vfs := v'; sv_world := w' |};
                  ps_poisoned := match e with EvPanic => poison (lock_of p) (ps_poisoned s) | _ => ps_poisoned s end |})
           | None => None
           end
    | None => None
    end
  | Panics i =>
    match nth_error (sv_threads sv) i with
    | Some p =>
      if blocked p (ps_poisoned s) then None
      else if calls_user p (sv_vfs sv) then
        Some (UserPanics i match lock_of p with Some _ => true | None => false end,
          {| ps_server := {| sv_threads := set_thread i PPanic (sv_threads sv); sv_vfs := sv_vfs sv;
                             sv_world := sv_world sv |};
             ps_poisoned := poison (lock_of p) (ps_poisoned s) |})
      else None
    | None => None
    end
  | Poisoned i =>
    match nth_error (sv_threads sv) i with
    | Some p =>
      match lock_of p with
      | Some l =>
        if ps_poisoned s l then
          Some (LockPanics i l,
            {| ps_server := {| sv_threads := set_thread i PPanic (sv_threads sv); sv_vfs := sv_vfs sv;
                               sv_world := sv_world sv |}; ps_poisoned := ps_poisoned s |})
        else None
      | None => None
      end
    | None => None
    end
  end.
Fixpoint pschedule (cs : list pchoice) (s : pserver N N N N) : option (list (plabel N N N) * pserver N N N N) :=
  match cs with
  | [] => Some ([], s)
  | c :: cs =>
    match pschedule1 c s with
    | Some (l, s) => match pschedule cs s with Some (tr, s) => Some (l :: tr, s) | None => None end
    | None => None
    end
  end.

Notation dsteps := (psteps demo linux_errors demo_cf).
Lemma pschedule1_step c s l s' : pschedule1 c s = Some (l, s') -> pstep demo linux_errors demo_cf s l s'.
Proof.
  destruct s as [[ts v w] f]. destruct c as [[rq|i ev]|i|i]; unfold pschedule1;
    cbn [ps_server ps_poisoned sv_threads sv_vfs sv_world].
  - cbn [schedule1 sv_threads sv_vfs sv_world]. destruct (dispatch demo linux_errors demo_cf rq) eqn:D; [|discriminate].
    intros [= <- <-]. apply pstep_other; [now constructor|exact I].
  - destruct (nth_error ts i) as [p|] eqn:N; [|discriminate]. destruct (blocked p f) eqn:B; [discriminate|].
    destruct (exec demo demo_cf p v w ev) as [[[[e p'] v'] w']|] eqn:X; [|discriminate].
    intros [= <- <-]. econstructor; eauto.
  - destruct (nth_error ts i) as [p|] eqn:N; [|discriminate]. destruct (blocked p f) eqn:B; [discriminate|].
    destruct (calls_user p v) eqn:C; [|discriminate]. intros [= <- <-]. econstructor; eauto.
  - destruct (nth_error ts i) as [p|] eqn:N; [|discriminate]. destruct (lock_of p) as [m|] eqn:L; [|discriminate].
    destruct (f m) eqn:F; [|discriminate]. intros [= <- <-]. econstructor; eauto.
Qed.
Lemma psteps_cons s l s1 tr s2 :
  pstep demo linux_errors demo_cf s l s1 -> dsteps s1 tr s2 -> dsteps s (l :: tr) s2.
Proof.
  intros H1 H2. induction H2 as [s1|s1 tr s2 l' s3 H IH H3].
  - apply (psteps_snoc demo linux_errors demo_cf s [] s l s1); [constructor|exact H1].
  - change (l :: tr ++ [l']) with ((l :: tr) ++ [l']). econstructor; eauto.
Qed.
Lemma pschedule_steps cs : forall s tr s', pschedule cs s = Some (tr, s') -> dsteps s tr s'.
Proof.
  induction cs as [|c cs IH]; intros s tr s'; cbn [pschedule].
  - intros [= <- <-]. constructor.
  - destruct (pschedule1 c s) as [[l s1]|] eqn:S1; [|discriminate].
    destruct (pschedule cs s1) as [[tr1 s2]|] eqn:S2; [|discriminate].
    intros [= <- <-]. eapply psteps_cons; [eapply pschedule1_step; exact S1|eauto].
Qed.
(** What a schedule does, and what [g] shows of the state afterwards *)
Lemma pscheduled {Y} (g : pserver N N N N -> Y) cs s tr y :
  option_map (fun x => (fst x, g (snd x))) (pschedule cs s) = Some (tr, y) ->
  exists s', dsteps s tr s' /\ g s' = y.
Proof.
  destruct (pschedule cs s) as [[tr' s']|] eqn:S; [|discriminate]. cbn [option_map fst snd].
  intros H. injection H as <- H. exists s'. split; [now apply pschedule_steps with cs|exact H].
Qed.
Definition outcome_of (cs : list pchoice) : list (plabel N N N) :=
  match pschedule cs (Filesystem_start 1 0) with Some (tr, _) => tr | None => [] end.
(** Which threads have panicked or still run *)
Definition fates (s : pserver N N N N) : list N :=
  map (fun p => match p with PDone _ => 0 | PPanic => 1 | _ => 2 end) (sv_threads (ps_server s)).
Lemma fates_panic s i : nth_error (fates s) i = Some 1 -> nth_error (sv_threads (ps_server s)) i = Some PPanic.
Proof.
  unfold fates. rewrite nth_error_map. destruct (nth_error (sv_threads (ps_server s)) i) as [p|]; [|discriminate].
  cbn [option_map]. destruct p; try discriminate. reflexivity.
Qed.
Definition goes (cs : list choice) : list pchoice := map Goes cs.

(** Two requests look a file up, the handler of a third panics, and the file is
    still found afterwards. *)
Definition history_panic : list pchoice :=
  goes ([Arrives (rq_lookup ab)] ++ steps_of 0 5) ++ goes ([Arrives (rq_lookup ab)] ++ steps_of 1 5) ++
  goes [Arrives (demo_rq 4 5 (OGetattr 0 0 0)); Takes 2 SendOk] ++ [Panics 2] ++
  goes ([Arrives (demo_rq 5 5 (OGetattr 0 0 0))] ++ steps_of 3 3).
(** Two open files; releasing the first one panics. *)
Definition history_release : list pchoice :=
  goes ([Arrives (rq_lookup ab)] ++ steps_of 0 5) ++
  goes ([Arrives (demo_rq 4 5 (OOpen 0 0))] ++ steps_of 1 5) ++
  goes ([Arrives (demo_rq 6 5 (OOpen 0 0))] ++ steps_of 2 5) ++
  goes [Arrives (demo_rq 7 5 (ORelease 1 0 0 0))] ++ [Panics 3] ++
  goes [Arrives (demo_rq 9 5 (ORead 2 0 10 0 0 0 0))] ++ [Poisoned 4].

Lemma panic_run : exists s, dsteps (Filesystem_start 1 0) (outcome_of history_panic) s /\ fates s = [0; 0; 1; 0].
Proof. apply (pscheduled fates history_panic). vm_compute. reflexivity. Qed.
Lemma panic_in : In (UserPanics 2 false) (outcome_of history_panic).
Proof. apply nth_error_In with (n := 14%nat). vm_compute. reflexivity. Qed.
Example C65_contained_example :
  exists tr s, dsteps (Filesystem_start 1 0) tr s /\ In (UserPanics 2 false) tr /\ fates s = [0; 0; 1; 0].
Proof. destruct panic_run as (s & H & F). exists (outcome_of history_panic), s.
  split; [exact H|]. split; [exact panic_in|exact F]. Qed.

Definition panic_before : list (plabel N N N) := firstn 16 (outcome_of history_panic).
Lemma panic_split : outcome_of history_panic =
  panic_before ++ [Ran (Did 3 (EvNodeGet 5 (Some 5)))] ++ skipn 17 (outcome_of history_panic).
Proof. vm_compute. reflexivity. Qed.
Lemma dsteps_one s l s' : dsteps s [l] s' -> pstep demo linux_errors demo_cf s l s'.
Proof.
  intros H. remember [l] as t eqn:T. destruct H as [|s tr s1 l' s2 H St]; [discriminate|].
  apply (app_inj_tail tr []) in T as [-> <-]. remember [] as tr eqn:T.
  destruct H as [|s tr s1 k s3 H St']; [exact St|now destruct tr].
Qed.
Example C65_held_example :
  exists tr s s', dsteps (Filesystem_start 1 0) tr s /\ In (UserPanics 2 false) tr /\
  lookups 5 (ran tr) < U64 /\ Forall real_items (ran tr) /\ given_up 5 (ran tr) < lookups 5 (ran tr) /\
  pstep demo linux_errors demo_cf s (Ran (Did 3 (EvNodeGet 5 (Some 5)))) s'.
Proof.
  destruct panic_run as (s & H & _). rewrite panic_split in H.
  apply psteps_app in H as (s1 & H1 & H). apply psteps_app in H as (s2 & H2 & _).
  exists panic_before, s1, s2. split; [exact H1|]. clear H1.
  split; [apply nth_error_In with (n := 14%nat); vm_compute; reflexivity|].
  split; [vm_compute; reflexivity|]. split; [|split; [vm_compute; reflexivity|now apply dsteps_one]].
  clear. vm_compute. repeat constructor; discriminate.
Qed.
Example C65_one_reply_example :
  let rq := demo_rq 5 5 (OGetattr 0 0 0) in
  typed_user demo /\ typed_errors linux_errors /\
  Request_new (bytes_of rq) = Ret rq /\ vfs_type (u32_at 4 (bytes_of rq)) = Some RGetattr /\
  (exists v, decode_view false demo_cf RGetattr rq = Ret v) /\
  exists tr s, dsteps (Filesystem_start 1 0) tr s /\ In (Ran (Arrived 3 rq)) tr /\ In (UserPanics 2 false) tr /\
    length (VfsSpec.sent (of_thread 3 (ran tr))) = 1%nat.
Proof.
  intros rq. split; [exact demo_typed|]. split; [exact linux_typed|]. split; [vm_compute; reflexivity|].
  split; [vm_compute; reflexivity|]. split; [eexists; vm_compute; reflexivity|].
  destruct panic_run as (s & H & F). exists (outcome_of history_panic), s. split; [exact H|].
  split; [apply nth_error_In with (n := 15%nat); vm_compute; reflexivity|]. split; [exact panic_in|].
  vm_compute. reflexivity.
Qed.
Example C65_isolated_example :
  exists tr s, dsteps (Filesystem_start 1 0) tr s /\ In (UserPanics 2 false) tr /\
    (forall i, ~ In (UserPanics i true) tr) /\ nlen (handles (ran tr)) + 2 < U64 /\
    (forall id, lookups id (ran tr) + 1 < U64).
Proof.
  destruct panic_run as (s & H & F). exists (outcome_of history_panic), s. split; [exact H|].
  split; [exact panic_in|]. split.
  - intros i X. 
    assert (Y : existsb (fun l : plabel N N N => match l with UserPanics _ b => b | _ => false end) (outcome_of history_panic) = true).
    { apply existsb_exists. eexists. split; [exact X|reflexivity]. }
    vm_compute in Y. discriminate.
  - split; [vm_compute; reflexivity|]. intros id. pose proof (lookups_le id (ran (outcome_of history_panic))) as L.
    assert (nlen (ran (outcome_of history_panic)) < 100) by (vm_compute; reflexivity). unfold U64. lia.
Qed.

Lemma release_run : exists s, dsteps (Filesystem_start 1 0) (outcome_of history_release) s /\ fates s = [0; 0; 0; 1; 1].
Proof. apply (pscheduled fates history_release). vm_compute. reflexivity. Qed.
(** Without the panic in [release] the READ request would have been answered
    (C47_exactly_one): its file is open. *)
Theorem C65_release_refuted :
  let rq := demo_rq 9 5 (ORead 2 0 10 0 0 0 0) in
  exists before since s,
    dsteps (Filesystem_start 1 0) (before ++ UserPanics 3 true :: since) s /\
    In (Ran (Did 2 (EvOpenFile 101 2))) before /\ ~ In (UserPanics 4 false) since /\
    In (Ran (Arrived 4 rq)) since /\
    nth_error (sv_threads (ps_server s)) 4 = Some PPanic /\
    VfsSpec.sent (of_thread 4 (ran (before ++ UserPanics 3 true :: since))) = [].
Proof.
  intros rq. destruct release_run as (s & H & F).
  assert (X : outcome_of history_release =
    firstn 19 (outcome_of history_release) ++ UserPanics 3 true :: skipn 20 (outcome_of history_release))
    by (vm_compute; reflexivity).
  exists (firstn 19 (outcome_of history_release)), (skipn 20 (outcome_of history_release)), s.
  rewrite <- X. split; [exact H|]. split; [apply nth_error_In with (n := 16%nat); vm_compute; reflexivity|].
  split; [vm_compute; intros [Y|[Y|[]]]; discriminate|].
  split; [apply nth_error_In with (n := 0%nat); vm_compute; reflexivity|].
  split; [|vm_compute; reflexivity].
  clear - F. apply fates_panic. now rewrite F.
Qed.
Example C65_release_panics_example :
  let rq := demo_rq 9 5 (ORead 2 0 10 0 0 0 0) in
  (exists before since s, dsteps (Filesystem_start 1 0) (before ++ UserPanics 3 true :: since) s /\
    In (Ran (Arrived 4 rq)) since) /\
  Request_new (bytes_of rq) = Ret rq /\ vfs_type (u32_at 4 (bytes_of rq)) = Some RRead /\ needs_handle RRead /\
  exists v, decode_view false demo_cf RRead rq = Ret v.
Proof.
  intros rq. split.
  - destruct C65_release_refuted as (a & b & s & H & _ & _ & A & _). eauto.
  - split; [vm_compute; reflexivity|]. split; [vm_compute; reflexivity|]. split; [now left|].
    eexists. vm_compute. reflexivity.
Qed.

(** Although releasing a file panicked, the attributes of the node can still be
    asked for: thread 5 is about to call the user's [getattr]. *)
Example C65_goes_on_example :
  let history := history_release ++ goes ([Arrives (demo_rq 11 5 (OGetattr 0 0 0))] ++ steps_of 5 1) in
  exists s p p' v' w',
    dsteps (Filesystem_start 1 0) (outcome_of history) s /\ In (UserPanics 3 true) (outcome_of history) /\
    nth_error (sv_threads (ps_server s)) 5 = Some p /\
    exec demo demo_cf p (sv_vfs (ps_server s)) (sv_world (ps_server s)) SendOk = Some (EvUser, p', v', w').
Proof.
  intros history.
  destruct (pscheduled (fun s => (length (sv_threads (ps_server s)),
    match nth_error (sv_threads (ps_server s)) 5 with
    | Some p => match exec demo demo_cf p (sv_vfs (ps_server s)) (sv_world (ps_server s)) SendOk with
                | Some (EvUser, _, _, _) => true | _ => false end
    | None => false end)) history (Filesystem_start 1 0) (outcome_of history) (6%nat, true)) as (s & H & F).
  { vm_compute. reflexivity. }
  apply (f_equal snd) in F. cbn [snd] in F. exists s.
  destruct (nth_error (sv_threads (ps_server s)) 5) as [p|]; [|discriminate].
  destruct (exec demo demo_cf p (sv_vfs (ps_server s)) (sv_world (ps_server s)) SendOk) as [[[[e p'] v'] w']|] eqn:X; [|discriminate].
  destruct e; try discriminate. exists p, p', v', w'. split; [exact H|].
  split; [|split; [reflexivity|exact X]]. apply nth_error_In with (n := 19%nat). vm_compute. reflexivity.
Qed.

Example C65_user_call_example :
  exists s p p' v' w', nth_error (sv_threads (ps_server s)) 5 = Some p /\
    exec demo demo_cf p (sv_vfs (ps_server s)) (sv_world (ps_server s)) SendOk = Some (EvUser, p', v', w').
Proof. destruct C65_goes_on_example as (s & p & p' & v' & w' & _ & _ & H). eauto 6. Qed.

(** *** 2^64 lookups of one node *)

(** [n] steps of one handler, the reply sent *)
Fixpoint prun (n : nat) (p : prog N N N N) (v : vfs N N N) (w : N) : option (list (event N N N) * prog N N N N * vfs N N N * N) :=
  match n with
  | O => Some ([], p, v, w)
  | S n =>
    match exec demo demo_cf p v w SendOk with
    | Some (e, p, v, w) =>
      match prun n p v w with Some (l, p, v, w) => Some (e :: l, p, v, w) | None => None end
    | None => None
    end
  end.
Definition calm (e : event N N N) : bool := match e with EvPanic => false | _ => true end.
Lemma psteps_trans s a s1 b s2 : dsteps s a s1 -> dsteps s1 b s2 -> dsteps s (a ++ b) s2.
Proof.
  intros H1 H2. induction H2 as [|s1 tr s2 l s3 H IH St]; [now rewrite app_nil_r|].
  rewrite app_assoc. econstructor; eauto.
Qed.
Lemma set_last ts (p q : prog N N N N) :
  set_thread (length ts) q (ts ++ [p]) = ts ++ [q].
Proof. induction ts as [|t ts IH]; [reflexivity|]. cbn [length app set_thread]. now rewrite IH. Qed.
Lemma nth_last_thread (ts : list (prog N N N N)) p : nth_error (ts ++ [p]) (length ts) = Some p.
Proof. rewrite nth_error_app2 by lia. now rewrite Nat.sub_diag. Qed.
Lemma prun_steps n : forall p v w l p2 v2 w2 ts f,
  prun n p v w = Some (l, p2, v2, w2) -> forallb calm l = true -> (forall m, f m = false) ->
  dsteps {| ps_server := {| sv_threads := ts ++ [p]; sv_vfs := v; sv_world := w |}; ps_poisoned := f |}
    (map (fun e => Ran (Did (length ts) e)) l)
    {| ps_server := {| sv_threads := ts ++ [p2]; sv_vfs := v2; sv_world := w2 |}; ps_poisoned := f |}.
Proof.
  induction n as [|n IH]; intros p v w l p2 v2 w2 ts f H C F; cbn [prun] in H.
  - injection H as <- <- <- <-. constructor.
  - destruct (exec demo demo_cf p v w SendOk) as [[[[e p1] v1] w1]|] eqn:X; [|discriminate].
    destruct (prun n p1 v1 w1) as [[[[l1 p3] v3] w3]|] eqn:R; [|discriminate].
    injection H as <- <- <- <-. cbn [forallb] in C. apply andb_prop in C as [C1 C2].
    cbn [map]. eapply psteps_cons; [|apply (IH _ _ _ _ _ _ _ ts f R C2 F)].
    pose proof (pstep_thread demo linux_errors demo_cf (length ts) p SendOk e p1 v v1 w w1 (ts ++ [p]) f
      (nth_last_thread ts p)) as St.
    rewrite set_last in St.
    destruct e; try discriminate C1; apply St; auto; unfold blocked; destruct (lock_of p); auto.
Qed.

Definition lookup_prog : prog N N N N := vfs_body demo linux_errors demo_cf (rq_lookup ab) 3 RLookup (VLookup 1 ab).
Definition add_prog : prog N N N N := PNodeAdd 5 5 (PDone (inl tt)).
Lemma lookup_dispatched : dispatch demo linux_errors demo_cf (rq_lookup ab) = Some lookup_prog.
Proof.
  assert (R : Request_new (bytes_of (rq_lookup ab)) = Ret (rq_lookup ab)) by (vm_compute; reflexivity).
  assert (T : vfs_type (u32_at 4 (bytes_of (rq_lookup ab))) = Some RLookup) by (vm_compute; reflexivity).
  assert (I : u64_at 8 (bytes_of (rq_lookup ab)) = 3) by (vm_compute; reflexivity).
  assert (D : decode_view false demo_cf RLookup (rq_lookup ab) = Ret (VLookup 1 ab)) by (vm_compute; reflexivity).
  destruct (dispatch_view demo linux_errors demo_cf _ _ _ R T ltac:(discriminate)) as (p & -> & [(e & X & _)|(v & X & ->)]).
  - congruence.
  - rewrite D in X. injection X as <-. rewrite I. reflexivity.
Qed.
Lemma prun_S n p v w e p1 v1 w1 l p2 v2 w2 :
  exec demo demo_cf p v w SendOk = Some (e, p1, v1, w1) -> prun n p1 v1 w1 = Some (l, p2, v2, w2) ->
  prun (S n) p v w = Some (e :: l, p2, v2, w2).
Proof. intros H1 H2. cbn [prun]. now rewrite H1, H2. Qed.
Lemma lookup_runs v : NodeMap_get 1 (v_nodes v) = Some 1 ->
  exists b, prun 4 lookup_prog v 0 =
    Some ([EvNodeGet 1 (Some 1); EvUser; EvUser; EvSend b SendOk], add_prog, v, 0).
Proof.
  intros H. eexists. unfold lookup_prog. cbn [vfs_body lookup_body]. unfold with_node.
  eapply prun_S; [cbn [exec]; rewrite H; reflexivity|]. cbn beta iota. unfold with_trait.
  eapply prun_S; [cbn [exec]; reflexivity|]. cbn beta iota zeta. unfold call.
  eapply prun_S; [cbn [exec]; reflexivity|].
  eapply prun_S; [|reflexivity]. vm_compute. reflexivity.
Qed.
Lemma one_more ts v f : NodeMap_get 1 (v_nodes v) = Some 1 -> (forall m, f m = false) ->
  exists tr, dsteps {| ps_server := {| sv_threads := ts; sv_vfs := v; sv_world := 0 |}; ps_poisoned := f |} tr
    {| ps_server := {| sv_threads := ts ++ [add_prog]; sv_vfs := v; sv_world := 0 |}; ps_poisoned := f |} /\
    handles (ran tr) = [].
Proof.
  intros G F. destruct (lookup_runs v G) as [b R].
  eexists ([Ran (Arrived (length ts) (rq_lookup ab))] ++ _). split.
  - eapply psteps_trans.
    + apply (psteps_cons _ _
        {| ps_server := {| sv_threads := ts ++ [lookup_prog]; sv_vfs := v; sv_world := 0 |}; ps_poisoned := f |}); [|constructor].
      apply pstep_other; [|exact I]. constructor. exact lookup_dispatched.
    + apply (prun_steps 4 _ _ _ _ _ _ _ ts f R); [reflexivity|exact F].
  - rewrite ran_app. reflexivity.
Qed.
Lemma many_lookups n : n < U64 -> exists tr s,
  dsteps (Filesystem_start 1 0) tr s /\ handles (ran tr) = [] /\ sv_world (ps_server s) = 0 /\
  (forall m, ps_poisoned s m = false) /\ NodeMap_get 1 (v_nodes (sv_vfs (ps_server s))) = Some 1 /\
  v_nodes (sv_vfs (ps_server s)) 5 = if n =? 0 then None else Some (5, n).
Proof.
  induction n as [|n IH] using N.peano_ind; intros L.
  - exists [], (Filesystem_start 1 0). split; [constructor|]. repeat split; reflexivity.
  - destruct IH as (tr & [[ts v w] f] & H & Hh & Hw & Hf & Hr & Hc); [lia|].
    cbn [ps_server ps_poisoned sv_threads sv_vfs sv_world] in *. subst w.
    destruct (one_more ts v f Hr Hf) as (tr1 & H1 & Hh1).
    assert (A : exists m, NodeMap_add true 5 5 (v_nodes v) = Some m /\ m 5 = Some (5, N.succ n) /\ m 1 = v_nodes v 1).
    { unfold NodeMap_add. rewrite Hc. destruct (N.eqb_spec n 0) as [->|Nz].
      - eexists. split; [reflexivity|]. split; reflexivity.
      - unfold incr64. replace (n + 1 <? U64) with true by lia. eexists. split; [reflexivity|].
        split; [unfold upd; cbn [N.eqb Pos.eqb]; now rewrite N.add_1_r|reflexivity]. }
    destruct A as (m & A & M5 & M1).
    exists ((tr ++ tr1) ++ [Ran (Did (length ts) (EvNodeAdd 5 5))]). eexists. split.
    + eapply psteps_snoc; [eapply psteps_trans; [exact H|exact H1]|].
      eapply (pstep_thread demo linux_errors demo_cf (length ts) add_prog SendOk (EvNodeAdd 5 5)).
      * apply nth_last_thread.
      * apply Hf.
      * cbn [exec add_prog cf_overflow_checks demo_cf]. rewrite A. reflexivity.
    + cbn [ps_server ps_poisoned sv_threads sv_vfs sv_world].
      rewrite !ran_app. unfold handles in *. rewrite !flat_map_app, Hh, Hh1. split; [reflexivity|].
      split; [reflexivity|]. split; [exact Hf|].
      replace (N.succ n =? 0) with false by lia. split; [|exact M5].
      unfold NodeMap_get in *. cbn [with_nodes v_nodes]. rewrite M1. exact Hr.
Qed.
(** After one lookup too many, the next one is not answered. *)
Example C65_lookups_overflow_example :
  exists before i since s,
    dsteps (Filesystem_start 1 0) (before ++ Ran (Did i EvPanic) :: since) s /\
    nlen (handles (ran before)) + 2 < U64 /\ (exists j, In (Ran (Arrived j (rq_lookup ab))) since) /\
    Request_new (bytes_of (rq_lookup ab)) = Ret (rq_lookup ab) /\
    vfs_type (u32_at 4 (bytes_of (rq_lookup ab))) = Some RLookup /\ needs_node RLookup /\
    exists v, decode_view false demo_cf RLookup (rq_lookup ab) = Ret v.
Proof.
  destruct (many_lookups (U64 - 1)) as (tr & [[ts v w] f] & H & Hh & Hw & Hf & Hr & Hc); [reflexivity|].
  cbn [ps_server ps_poisoned sv_threads sv_vfs sv_world] in *. subst w.
  destruct (one_more ts v f Hr Hf) as (tr1 & H1 & Hh1).
  eexists (tr ++ tr1), (length ts), [_], _. split; [|split; [|split]].
  - change (Ran (Did (length ts) EvPanic) :: ?x) with ([Ran (Did (length ts) EvPanic)] ++ x) at 1.
    rewrite app_assoc. eapply psteps_snoc; [eapply psteps_snoc; [eapply psteps_trans; [exact H|exact H1]|]|].
    + eapply (pstep_thread demo linux_errors demo_cf (length ts) add_prog SendOk EvPanic).
      * apply nth_last_thread.
      * apply Hf.
      * cbn [exec add_prog cf_overflow_checks demo_cf]. unfold NodeMap_add. rewrite Hc. reflexivity.
    + eapply pstep_other; [|shelve].
      apply (step_request demo linux_errors demo_cf (rq_lookup ab) lookup_prog). exact lookup_dispatched.
      Unshelve. exact I.
  - rewrite ran_app. unfold handles in *. rewrite flat_map_app, Hh, Hh1. reflexivity.
  - eexists. left. reflexivity.
  - split; [vm_compute; reflexivity|]. split; [vm_compute; reflexivity|]. split; [now left|].
    eexists. vm_compute. reflexivity.
Qed.

(** Two threads: a handler panics, the other worker goes on; then its handler
    panics as well, and the serve function panics in turn. *)
Definition wdemo : list wlabel :=
  [WRan TSpawn; WRan TSpawn; WRan (TRecv 0 (Message good)); WHandlerPanics 0 {| rq_mem := good |};
   WRan (TRecv 1 (Message good)); WRan TScope; WRan (TDispatch 1 {| rq_mem := good |});
   WRan (TRecv 1 (Message good)); WHandlerPanics 1 {| rq_mem := good |}; WScopePanics].
Lemma wexec_cons k n s l s1 tr s2 : wstep k n s l s1 -> wexec k n s1 tr s2 -> wexec k n s (l :: tr) s2.
Proof.
  intros St H. induction H as [s1|s1 tr s' l' s'' H IH St'].
  - change [l] with ([] ++ [l]). econstructor; [constructor|exact St].
  - change (l :: tr ++ [l']) with ((l :: tr) ++ [l']). econstructor; [apply IH; exact St|exact St'].
Qed.
Ltac wsteps := repeat (eapply wexec_cons;
  [first [apply wstep_ran; first [eapply step_spawn; [reflexivity|reflexivity]|eapply step_scope; discriminate
         |eapply step_recv; reflexivity|eapply step_dispatch; reflexivity]
         |eapply wstep_panic; reflexivity|eapply wstep_scope; reflexivity]|cbn [set_worker]; lazy]);
  try apply wexec_nil.
Lemma wdemo_runs : exists s, wexec Fuse 2 (pool_new demo_bufs) wdemo s /\ p_caller s = MPanic.
Proof. eexists. split; [unfold wdemo; wsteps|reflexivity]. Qed.
Example C65_pool_example :
  exists s, wexec Fuse 2 (pool_new demo_bufs) wdemo s /\ p_caller s = MPanic /\ panics wdemo = 2 /\
    handled 1 (wran wdemo) = [Dispatched good].
Proof. destruct wdemo_runs as (s & H & C). exists s. repeat split; auto. Qed.
Example C65_scope_example :
  exists s, wexec Fuse 2 (pool_new demo_bufs) (firstn 9 wdemo) s /\ panics (firstn 9 wdemo) = 2 /\
    p_caller s = MScope /\ Forall (fun w => w = WExit \/ w = WPanic) (p_workers s).
Proof.
  eexists. split; [unfold wdemo; cbn [firstn]; wsteps|]. split; [reflexivity|]. split; [reflexivity|].
  cbn [p_workers]. repeat constructor; now right.
Qed.
Example C65_waits_example :
  exists s s', wexec Fuse 2 (pool_new demo_bufs) (firstn 9 wdemo) s /\ wstep Fuse 2 s WScopePanics s'.
Proof.
  eexists. eexists. split; [unfold wdemo; cbn [firstn]; wsteps|]. now apply wstep_scope.
Qed.
Example C65_capacity_example :
  exists before since s,
    wexec Fuse 2 (pool_new demo_bufs) (before ++ WHandlerPanics 0 {| rq_mem := good |} :: since) s /\
    received 1 (wran since) = [Message good; Message good] /\
    nlen demo_bufs = 2 /\ Forall (fun b => nlen b = 64) demo_bufs.
Proof.
  destruct wdemo_runs as (s & H & C). exists (firstn 3 wdemo), (skipn 4 wdemo), s. split; [exact H|].
  split; [reflexivity|]. split; [reflexivity|]. repeat constructor.
Qed.
Example C65_pool_refuted_example :
  accepted (take 64 good) = true /\ nlen demo_bufs = 2 /\ Forall (fun b => nlen b = 64) demo_bufs.
Proof. split; [vm_compute; reflexivity|]. split; [reflexivity|]. repeat constructor. Qed.

Print Assumptions C65_contained.
Print Assumptions C65_held.
Print Assumptions C65_one_reply.
Print Assumptions C65_isolated.
Print Assumptions C65_release_panics.
Print Assumptions C65_release_refuted.
Print Assumptions C65_goes_on.
Print Assumptions C65_user_call.
Print Assumptions C65_lookups_overflow.
Print Assumptions C65_pool.
Print Assumptions C65_capacity.
Print Assumptions C65_scope.
Print Assumptions C65_waits.
Print Assumptions C65_pool_refuted.
