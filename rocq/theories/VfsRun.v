(** Running the file system model on given schedules, and a small file system
    to run: used for examples and counterexamples. *)

From Verif Require Import Base Kernel CoreModel DecodeModel OpsModel WireSpec ReplyModel ServerModel
  ReplySpec VfsModel VfsSpec.
From Coq Require Import List NArith ZArith Bool.
Import ListNotations.
Open Scope N_scope.

Section Schedules.
Context {E : Endian} {W Node FH DH : Type} (U : user W Node FH DH) (os : OsErrors) (cf : config).

(** A schedule: a request arrives, or a thread takes a step during which a
    [send] (if it is one) is answered as given. *)
Inductive choice := Arrives (rq : Request) | Takes (thread : nat) (ev : send_event).

Definition schedule1 (c : choice) (s : server W Node FH DH)
  : option (label Node FH DH * server W Node FH DH) :=
  match c with
  | Arrives rq =>
    match dispatch U os cf rq with
    | Some p => Some (Arrived (length (sv_threads s)) rq,
                      {| sv_threads := sv_threads s ++ [p]; sv_vfs := sv_vfs s; sv_world := sv_world s |})
    | None => None
    end
  | Takes i ev =>
    match nth_error (sv_threads s) i with
    | Some p =>
      match exec U cf p (sv_vfs s) (sv_world s) ev with
      | Some (e, p', v', w') =>
        Some (Did i e, {| sv_threads := set_thread i p' (sv_threads s); sv_vfs := v'; sv_world := w' |})
      | None => None
      end
    | None => None
    end
  end.
Fixpoint schedule (cs : list choice) (s : server W Node FH DH)
  : option (list (label Node FH DH) * server W Node FH DH) :=
  match cs with
  | [] => Some ([], s)
  | c :: cs =>
    match schedule1 c s with
    | Some (l, s) =>
      match schedule cs s with Some (tr, s) => Some (l :: tr, s) | None => None end
    | None => None
    end
  end.

Lemma schedule1_step c s l s' : schedule1 c s = Some (l, s') -> step U os cf s l s'.
Proof.
  destruct s as [ts v w]. destruct c as [rq|i ev]; cbn [schedule1 sv_threads sv_vfs sv_world].
  - destruct (dispatch U os cf rq) eqn:D; [|discriminate]. intros [= <- <-]. now constructor.
  - destruct (nth_error ts i) eqn:N; [|discriminate].
    destruct (exec U cf p v w ev) as [[[[e p'] v'] w']|] eqn:X; [|discriminate].
    intros [= <- <-]. now econstructor; eauto.
Qed.

Lemma steps_cons s l s1 tr s2 :
  step U os cf s l s1 -> steps U os cf s1 tr s2 -> steps U os cf s (l :: tr) s2.
Proof.
  intros H1 H2. induction H2 as [s1|s1 tr s2 l' s3 H IH H3].
  - apply (steps_snoc U os cf s [] s l s1); [constructor|exact H1].
  - change (l :: tr ++ [l']) with ((l :: tr) ++ [l']). econstructor; eauto.
Qed.

Lemma schedule_steps cs : forall s tr s', schedule cs s = Some (tr, s') -> steps U os cf s tr s'.
Proof.
  induction cs as [|c cs IH]; intros s tr s'; cbn [schedule].
  - intros [= <- <-]. constructor.
  - destruct (schedule1 c s) as [[l s1]|] eqn:S1; [|discriminate].
    destruct (schedule cs s1) as [[tr1 s2]|] eqn:S2; [|discriminate].
    intros [= <- <-]. eapply steps_cons; [eapply schedule1_step; exact S1|eauto].
Qed.

(** The same, looking only at the history. *)
Lemma scheduled cs s tr :
  option_map fst (schedule cs s) = Some tr -> exists s', steps U os cf s tr s'.
Proof.
  destruct (schedule cs s) as [[tr' s']|] eqn:S; [|discriminate]. intros [= <-].
  exists s'. now apply schedule_steps with cs.
Qed.
Lemma scheduled_last cs s tr l :
  option_map fst (schedule cs s) = Some (tr ++ [l]) ->
  exists s1 s2, steps U os cf s tr s1 /\ step U os cf s1 l s2.
Proof.
  intros H. apply scheduled in H as [s' H]. remember (tr ++ [l]) as t eqn:T.
  destruct H as [s|s tr' s1 l' s2 H1 H2].
  - destruct tr; discriminate.
  - apply app_inj_tail in T as [-> ->]. eauto.
Qed.

(** Looking at what [g] shows of the state. *)
Lemma scheduled_view {Y} (g : server W Node FH DH -> Y) cs s tr y :
  option_map (fun x => (fst x, g (snd x))) (schedule cs s) = Some (tr, y) ->
  exists s', steps U os cf s tr s' /\ g s' = y.
Proof.
  destruct (schedule cs s) as [[tr' s']|] eqn:S; [|discriminate]. cbn [option_map fst snd].
  intros H. injection H as <- H. exists s'. split; [now apply schedule_steps with cs|exact H].
Qed.
(** Which handlers have returned successfully. *)
Definition returned (s : server W Node FH DH) : list bool :=
  map (fun p => match p with PDone (inl _) => true | _ => false end) (sv_threads s).
Lemma returned_nth s i : nth_error (returned s) i = Some true ->
  nth_error (sv_threads s) i = Some (PDone (inl tt)).
Proof.
  unfold returned. rewrite nth_error_map. destruct (nth_error (sv_threads s) i) as [p|]; [|discriminate].
  cbn [option_map]. now destruct p as [[[]|]| | | | | | | | | | | | |].
Qed.
(** What the given choice would do next. *)
Definition next_label (c : choice) (s : server W Node FH DH) : option (label Node FH DH) :=
  option_map fst (schedule1 c s).
Lemma next_label_step c s l : next_label c s = Some l -> exists s', step U os cf s l s'.
Proof.
  unfold next_label. destruct (schedule1 c s) as [[l' s']|] eqn:S; [|discriminate]. intros [= <-].
  exists s'. now apply schedule1_step with c.
Qed.

(** A handler alone, with the given number of steps at most. *)
Fixpoint run (fuel : nat) (p : prog W Node FH DH) (v : vfs Node FH DH) (w : W) (ev : send_event)
  : list (event Node FH DH) * prog W Node FH DH * vfs Node FH DH * W :=
  match fuel with
  | O => ([], p, v, w)
  | S fuel =>
    match exec U cf p v w ev with
    | None => ([], p, v, w)
    | Some (e, p, v, w) =>
      let '(l, p, v, w) := run fuel p v w ev in (e :: l, p, v, w)
    end
  end.
End Schedules.

(** A file system whose nodes are named by their numbers: 1 is a directory in
    which names of one character lead to itself, others to file 5; 9 is a
    symbolic link.  The state counts the calls of [open] and [opendir]. *)
Definition demo_attr (n : N) : fuse_attr := NodeAttr_set_mode 33188 (NodeAttr_new n).
Definition demo {E : Endian} : user N N N N := {|
  u_as_directory n w := (w, n =? 1);
  u_as_file n w := (w, n =? 5);
  u_as_symlink n w := (w, n =? 9);
  u_getattr n rq w := (w, inl {| gar_attr := demo_attr n; gar_cache_timeout := (60, 5) |});
  u_getxattr n rq w := default_getxattr linux_errors w;
  u_listxattr n rq w := default_listxattr w;
  u_statfs n rq w := default_statfs w;
  u_lookup n rq w :=
    (w, match LookupRequest_try_from rq with
        | Ret r => if nlen (pn_name r) =? 1 then inl (LookupResult_found 1 (demo_attr 1))
                   else inl (LookupResult_found 5 (demo_attr 5))
        | _ => inr (-5)%Z
        end);
  u_opendir n rq w := (w + 1, inl {| or_handle := 200 + w; or_open_flags := 0 |});
  u_open n rq w := (w + 1, inl {| or_handle := 100 + w; or_open_flags := 2 |});
  u_readlink n rq w := (w, inl [n2b 97; n2b 98]);
  u_as_readdir_handle d w := (w, true);
  u_as_readdirplus_handle d w := (w, false);
  u_readdir d rq w := (w, inl []);
  u_readdirplus d rq w := (w, inl []);
  u_releasedir d rq w := default_release w;
  u_as_read_handle f w := (w, true);
  u_as_write_handle f w := (w, true);
  u_read f rq w := (w, inl [n2b 104; n2b 105]);
  u_write f rq w := (w, if f =? 100 then inl 2 else inr (-28)%Z);
  u_release f rq w := default_release w |}.

Definition demo_cf : config :=
  {| cf_minor := 36; cf_setxattr_ext := false; cf_overflow_checks := true |}.
(** A request to this file system *)
Definition demo_rq {E : Endian} (unique node : N) (op : client_op) : Request :=
  {| rq_mem := encode demo_cf {| rh_unique := unique; rh_nodeid := node; rh_uid := 0; rh_gid := 0;
                                 rh_pid := 7; rh_padding := 0 |} op |}.
