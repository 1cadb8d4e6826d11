(** C68: what a client was told of it can use. *)

From Verif Require Import Base Kernel CoreModel DecodeModel OpsModel WireSpec DecodeProofs
  ReplyModel ReplySpec ReplyProofs PropReply PropServer ServerModel VfsModel VfsSpec VfsRun VfsProofs
  PropTables PropVfs PropAnswers PropFootprint.
From Coq Require Import List NArith ZArith Bool Lia ZifyBool ZifyNat ZifyN.
Import ListNotations.
Open Scope N_scope.

(** ** Specification *)

Section Spec.
Context {E : Endian} {W Node FH DH : Type} (cf : config).
Notation label := (label Node FH DH).
Notation server := (server W Node FH DH).

(** The requests are what arrived in messages. *)
Definition genuine (tr : list label) : Prop :=
  forall i rq, In (Arrived i rq) tr -> exists buf, Request_new buf = Ret rq.

(** Request [i] has the opcode [op] and was answered: the client got a reply
    without error whose payload starts with [n] (the node id in the reply
    to LOOKUP, the handle in those to OPEN and OPENDIR). *)
Definition told (op n : N) (tr : list label) (i : nat) : Prop :=
  exists buf rq b payload,
    Request_new buf = Ret rq /\ u32_at 4 buf = op /\ In (Arrived i rq) tr /\
    In (Did i (EvSend b SendOk)) tr /\ reads_as b (u64_at 8 buf) 0 payload /\ u64_at 0 payload = n.
(** Its handler has returned. *)
Definition finished (s : server) (i : nat) : Prop :=
  exists r, nth_error (sv_threads s) i = Some (PDone r).

(** How many lookups of [n] the client gave up in a request. *)
Definition gives_up (n : N) (rq : Request) : N :=
  match decode_view false cf RForget rq with
  | Ret (VForget items) => count (fun item => if fst item =? n then snd item else 0) items
  | _ => 0
  end.
(** In all requests so far *)
Definition gave_up (n : N) : list label -> N :=
  count (fun l => match l with Arrived _ rq => gives_up n rq | _ => 0 end).
(** Every item of a FORGET or BATCH_FORGET gives up at least one lookup. *)
Definition sincere (tr : list label) : Prop :=
  forall i rq items, In (Arrived i rq) tr -> decode_view false cf RForget rq = Ret (VForget items) ->
  Forall (fun item => 1 <= snd item) items.

(** A request to release the file or directory [h] has arrived. *)
Definition asked_release (t : rtype) (h : N) (tr : list label) (i : nat) : Prop :=
  exists rq view, In (Arrived i rq) tr /\ decode_view false cf t rq = Ret view /\
    (if match t with RRelease => true | _ => false end then file_of view else dir_of view) = Some h.
End Spec.

(** ** Proofs *)

Section Proofs.
Context {E : Endian} {W Node FH DH : Type} (U : user W Node FH DH) (os : OsErrors) (cf : config).
Context (TU : typed_user U) (TE : typed_errors os).
Notation prog := (prog W Node FH DH).
Notation event := (event Node FH DH).
Notation label := (label Node FH DH).

Lemma did_arrived root w tr s :
  steps U os cf (start root w) tr s ->
  (forall i p, nth_error (sv_threads s) i = Some p -> exists rq, In (Arrived i rq) tr) /\
  (forall i e, In (Did i e) tr -> exists rq, In (Arrived i rq) tr).
Proof.
  intros H. remember (start root w) as s0 eqn:S0. induction H as [s|s tr s1 l s2 H IH St].
  - subst s. split; [intros [|i] p; discriminate|contradiction].
  - specialize (IH S0) as [I1 I2].
    assert (K : forall i rq, In (Arrived i rq) tr -> In (Arrived i rq) (tr ++ [l])) by (intros; apply in_or_app; now left).
    assert (J : forall i p, nth_error (sv_threads s2) i = Some p -> exists rq, In (Arrived i rq) (tr ++ [l])).
    { inversion St as [i p ev e p' v v' w0 w' ts Hn He Es El Es2|rq p v w0 ts Hd Es El Es2|v w0 w' ts Es El Es2];
        subst l s2 s1; cbn [sv_threads] in *; intros j q Q.
      - rewrite nth_set in Q. destruct (nth_error ts j) as [p1|] eqn:Nj; [|destruct (Nat.eqb i j); discriminate].
        destruct (I1 j p1 Nj) as [rq R]. eauto.
      - destruct (lt_dec j (length ts)) as [L|L].
        + rewrite nth_error_app1 in Q by exact L. destruct (I1 j q Q) as [rq' R]. eauto.
        + assert (j = length ts).
          { assert (X : nth_error (ts ++ [p]) j <> None) by congruence. apply nth_error_Some in X.
            rewrite app_length in X. cbn in X. lia. }
          subst j. exists rq. apply in_or_app. right. now left.
      - destruct (I1 j q Q) as [rq R]. eauto. }
    split; [exact J|]. intros i e X. apply in_app_iff in X as [X|[X|[]]].
    + destruct (I2 i e X) as [rq R]. eauto.
    + subst l. inversion St as [i' p ev e' p' v v' w0 w' ts Hn He Es El Es2| |]; subst.
      cbn [sv_threads] in I1. destruct (I1 i p Hn) as [rq R]. eauto.
Qed.


Lemma path_stuck p l p' : (forall v w ev, exec U cf p v w ev = None) -> path U cf p l p' -> l = [] /\ p' = p.
Proof.
  intros X H. induction H as [p|p l p1 v w ev e p2 v' w' H IH Y]; [auto|].
  destruct (IH X) as [-> ->]. rewrite X in Y. discriminate.
Qed.

(** Which request an action belongs to. *)
Lemma did_of root w tr s i e :
  steps U os cf (start root w) tr s -> genuine tr -> In (Did i e) tr ->
  exists buf rq t view, Request_new buf = Ret rq /\ In (Arrived i rq) tr /\
    vfs_type (u32_at 4 buf) = Some t /\ decode_view false cf t rq = Ret view /\ may_do t view e.
Proof.
  intros St G D. destruct (did_arrived root w tr s St) as [_ A]. destruct (A i e D) as [rq R].
  destruct (G i rq R) as [buf B]. destruct (threads_inv U os cf root w tr s St) as [_ I].
  destruct (I i rq R) as (p0 & p & _ & Dp & P).
  destruct (vfs_type (u32_at 4 buf)) as [t|] eqn:T.
  2: { pose proof (dispatch_eq U os cf buf rq B) as X. rewrite T in X. congruence. }
  exists buf, rq, t.
  assert (X : (exists view, decode_view false cf t rq = Ret view) \/ of_thread i tr = []).
  { assert (Nf : t = RForget \/ t <> RForget) by (destruct t; (now left) || (right; discriminate)).
    destruct Nf as [->|Nf].
    - pose proof (dispatch_eq U os cf buf rq B) as X. rewrite T in X. rewrite Dp in X. injection X as ->.
      unfold do_forget in P. unfold decode_view. destruct (ForgetRequest_try_from cf rq) as [r|er| |]; cbn in *;
        [eauto|right; now apply path_stuck in P..].
    - destruct (dispatch_view U os cf buf rq t B T Nf) as (p' & Dp' & [(er & De & ->)|(v & Dv & _)]); [|eauto].
      right. rewrite Dp in Dp'. injection Dp' as ->. now apply path_stuck in P. }
  destruct X as [[view V]|X].
  - exists view. split; [exact B|]. split; [exact R|]. split; [exact T|]. split; [exact V|].
    eapply C66_touches; eauto.
  - exfalso. apply in_of_thread in D. rewrite X in D. contradiction.
Qed.

(** *** Lookups given up *)

(** How many lookups a thread is about to give up. *)
Definition going (n : N) (p : prog) : N :=
  match p with
  | PNodeForget items _ => count (fun item => if fst item =? n then snd item else 0) items
  | _ => 0
  end.
Definition no_forget (e : event) : Prop := match e with EvNodeForget _ => False | _ => True end.
Definition calm (p : prog) : Prop :=
  (exists items, p = PNodeForget items (PDone (inl tt))) \/ all_do no_forget p.

Lemma going_none n p : all_do no_forget p -> going n p = 0.
Proof. destruct p; cbn; try reflexivity. intros [[] _]. Qed.

Lemma dispatch_calm n buf rq p :
  Request_new buf = Ret rq -> dispatch U os cf rq = Some p -> calm p /\ going n p <= gives_up cf n rq.
Proof.
  intros B Dp. destruct (vfs_type (u32_at 4 buf)) as [t|] eqn:T.
  2: { pose proof (dispatch_eq U os cf buf rq B) as X. rewrite T in X. congruence. }
  assert (Nf : t = RForget \/ t <> RForget) by (destruct t; (now left) || (right; discriminate)).
  destruct Nf as [->|Nf].
  - pose proof (dispatch_eq U os cf buf rq B) as X. rewrite T in X. rewrite Dp in X. injection X as ->.
    unfold do_forget, gives_up, decode_view. destruct (ForgetRequest_try_from cf rq) as [r|er| |]; cbn [bind attempt going].
    + split; [left; eauto|apply N.le_refl].
    + split; [right; exact I|lia].
    + split; [right; exact I|lia].
    + split; [right; exact I|lia].
  - assert (Q : all_do no_forget p).
    { destruct (dispatch_view U os cf buf rq t B T Nf) as (p' & Dp' & [(er & De & ->)|(v & Dv & Hp)]);
        rewrite Dp in Dp'; injection Dp' as ->; [exact I|].
      pose proof (dispatch_does U os cf buf rq t v p' B T Dv Dp) as Q.
      revert Q. clear -Nf Dv. assert (M : forall e : event, may_do t v e -> no_forget e).
      { intros e M. destruct e; try exact I. cbn in M. subst v. exfalso.
        destruct t; try contradiction; cbn [decode_view] in Dv;
          repeat match type of Dv with bind ?m _ = Ret _ => destruct m; cbn [bind] in Dv; try discriminate end. }
      revert M. clear. intros M.
      induction p' as [r| | |? ? k IH|? k IH|? ? ? IH|? ? IH|? k IH|? k IH|? ? k IH|? ? k IH|? ? ? k IH|? ? ? k IH|? k IH];
        cbn [all_do]; try exact (fun x => x); intros Q; firstorder. }
    split; [now right|]. rewrite (going_none n p Q). lia.
Qed.

Lemma calm_exec n p v w ev e p' v' w' :
  calm p -> exec U cf p v w ev = Some (e, p', v', w') ->
  calm p' /\ going n p = given_up n [Did 0 e] + going n p'.
Proof.
  intros [[items ->]|A] X.
  - cbn [exec] in X. injection X as <- <- <- <-. split; [right; exact I|]. cbn. lia.
  - destruct (all_do_exec U cf no_forget p v w ev e p' v' w' I I A X) as [Pe A'].
    split; [now right|]. rewrite (going_none n p A), (going_none n p' A').
    destruct e; try contradiction; reflexivity.
Qed.

Definition going_all (n : N) : list prog -> N := count (going n).

Lemma going_set n i p p' ts : nth_error ts i = Some p ->
  going_all n (set_thread i p' ts) + going n p = going_all n ts + going n p'.
Proof.
  unfold going_all. revert i. induction ts as [|q ts IH]; intros [|i] H; try discriminate.
  - injection H as ->. cbn. lia.
  - cbn in H. specialize (IH i H). cbn [set_thread count fold_right]. unfold count in IH. lia.
Qed.

Lemma given_label n (i : nat) (e : event) : given_up n [Did i e] = given_up n [Did 0 e].
Proof. destruct e; reflexivity. Qed.

Lemma given_inv root w tr s n :
  steps U os cf (start root w) tr s -> genuine tr ->
  Forall calm (sv_threads s) /\ given_up n tr + going_all n (sv_threads s) <= gave_up cf n tr.
Proof.
  intros H. remember (start root w) as s0 eqn:S0. induction H as [s|s tr s1 l s2 H IH St]; intros G.
  - subst s. split; [constructor|cbn; lia].
  - assert (G1 : genuine tr) by (intros i rq X; apply (G i rq); apply in_or_app; now left).
    destruct (IH S0 G1) as [C L]. clear IH.
    unfold given_up, gave_up. rewrite !count_app. fold (given_up n tr) (given_up n [l]) (gave_up cf n tr) (gave_up cf n [l]).
    inversion St as [i p ev e p' v v' w0 w' ts Hn He Es El Es2|rq p v w0 ts Hd Es El Es2|v w0 w' ts Es El Es2];
      subst l s2 s1; cbn [sv_threads] in *.
    + assert (Cp : calm p) by (rewrite Forall_forall in C; apply C; eapply nth_error_In; eauto).
      destruct (calm_exec n p _ _ _ _ _ _ _ Cp He) as [Cp' Ep]. split.
      * apply Forall_forall. intros q Q. apply In_nth_error in Q as [j Q]. rewrite nth_set in Q.
        destruct (Nat.eqb i j).
        -- destruct (nth_error ts j); [|discriminate]. injection Q as <-. exact Cp'.
        -- rewrite Forall_forall in C. apply C. eapply nth_error_In; eauto.
      * pose proof (going_set n i p p' ts Hn) as Gs. rewrite given_label.
        cbn [gave_up count fold_right]. lia.
    + destruct (G (length ts) rq) as [buf B]; [apply in_or_app; right; now left|].
      destruct (dispatch_calm n buf rq p B Hd) as [Cp Lp]. split.
      * apply Forall_app. split; [exact C|]. constructor; [exact Cp|constructor].
      * unfold going_all in *. rewrite count_app. cbn [given_up gave_up count fold_right]. lia.
    + split; [exact C|]. cbn. lia.
Qed.

(** *** Lookups the client was told of *)

Definition adders (n : N) (tr : list label) : list nat :=
  flat_map (fun l => match l with Did i (EvNodeAdd k _) => if k =? n then [i] else [] | _ => [] end) tr.
Lemma adders_length n tr : nlen (adders n tr) = lookups n tr.
Proof.
  unfold nlen. induction tr as [|l tr IH]; [reflexivity|].
  unfold adders in *. cbn [flat_map]. rewrite app_length. unfold lookups in *. cbn [count fold_right].
  unfold count in IH. rewrite Nat2N.inj_add, IH. f_equal.
  destruct l as [i e| |]; try reflexivity. destruct e; try reflexivity. now destruct (_ =? n).
Qed.

Lemma told_adder root w tr s n i :
  steps U os cf (start root w) tr s -> n <> 0 -> told 1 n tr i -> finished s i -> In i (adders n tr).
Proof.
  intros St Nz (buf & rq & b & payload & B & T & A & D & R & Hn) [r F]. subst n.
  apply in_split in D as (before & since & Etr). rewrite Etr in St, A.
  destruct (lookup_where U os cf TU TE buf rq root w before since i b payload s B T St A R Nz)
    as (node & p & N & [[-> _]|[[-> O]|[-> _]]]); rewrite F in N; try discriminate.
  assert (X : In (EvNodeAdd (u64_at 0 payload) node) (of_thread i since)) by (rewrite O; now left).
  unfold of_thread in X. apply in_flat_map in X as (l & Hl & X).
  destruct l as [j e| |]; try contradiction. destruct (Nat.eqb_spec j i) as [->|]; [|contradiction].
  destruct X as [->|[]]. unfold adders. apply in_flat_map. exists (Did i (EvNodeAdd (u64_at 0 payload) node)).
  split; [subst tr; apply in_or_app; right; now right|]. rewrite N.eqb_refl. now left.
Qed.

Lemma lookups_le n (tr : list label) : lookups n tr <= nlen tr.
Proof.
  unfold nlen, lookups. induction tr as [|l tr IH]; [cbn; lia|]. cbn [count fold_right length]. unfold count in IH.
  destruct l as [i e| |]; try lia. destruct e; try lia. destruct (_ =? n); lia.
Qed.
Lemma handles_le (tr : list label) : nlen (handles tr) <= nlen tr.
Proof.
  unfold nlen, handles. induction tr as [|l tr IH]; [cbn; lia|]. cbn [flat_map]. rewrite app_length. cbn [length].
  destruct l as [i e| |]; try (cbn; lia). destruct e; cbn; lia.
Qed.

Lemma sincere_real root w tr s :
  steps U os cf (start root w) tr s -> genuine tr -> sincere cf tr -> Forall real_items tr.
Proof.
  intros St G Si. apply Forall_forall. intros l X. destruct l as [i e| |]; try exact I.
  destruct e; try exact I. cbn [real_items].
  destruct (did_of root w tr s i _ St G X) as (buf & rq & t & view & B & A & T & V & M). cbn in M. subst view.
  apply (Si i rq items A). destruct t; try exact V; cbn [decode_view] in V;
    repeat match type of V with bind ?m _ = Ret _ => destruct m; cbn [bind] in V; try discriminate end.
Qed.

(** Any number of requests at once: as long as a client has been told of a node
    more often than it gave up, requests find that node. *)
Theorem C68_node root w tr s s' n is j found :
  steps U os cf (start root w) tr s -> genuine tr -> sincere cf tr -> nlen tr < U64 -> n <> 0 ->
  NoDup is -> Forall (told 1 n tr) is -> Forall (finished s) is -> gave_up cf n tr < nlen is ->
  step U os cf s (Did j (EvNodeGet n found)) s' ->
  exists node, found = Some node /\ resolves_to root n tr node.
Proof.
  intros St G Si L Nz Nd To Fi Lt Sg.
  assert (A : nlen is <= lookups n tr).
  { rewrite <- (adders_length n tr). unfold nlen.
    assert (Q : (length is <= length (adders n tr))%nat); [|lia].
    apply NoDup_incl_length; [exact Nd|]. intros i X.
    rewrite Forall_forall in To, Fi. eapply told_adder; eauto. }
  pose proof (lookups_le n tr) as A2. pose proof (proj2 (given_inv root w tr s n St G)) as A3.
  assert (F : found <> None).
  { eapply (C45_held U os cf root w tr s j n found s'); eauto; [lia|eapply sincere_real; eauto|lia]. }
  destruct found as [node|]; [|contradiction]. exists node. split; [reflexivity|].
  apply (proj2 (C45_resolves U os cf root w tr s j n (Some node) s' St ltac:(lia) Sg)).
Qed.

(** The root is found as long as the client never gives it up. *)
Theorem C68_root root w tr s s' j found :
  steps U os cf (start root w) tr s -> genuine tr -> sincere cf tr -> nlen tr < U64 ->
  gave_up cf 1 tr = 0 -> step U os cf s (Did j (EvNodeGet 1 found)) s' -> found = Some root.
Proof.
  intros St G Si L Z Sg. pose proof (lookups_le 1 tr) as A2.
  pose proof (proj2 (given_inv root w tr s 1 St G)) as A3.
  pose proof (given_le 1 tr (sincere_real root w tr s St G Si)) as A4.
  eapply (C45_root U os cf root w tr s j found s'); eauto; lia.
Qed.

(** *** Handles *)

(** Whatever a program does, it does it after what [P] allows. *)
Fixpoint along (P : list event -> event -> Prop) (past : list event) (p : prog) : Prop :=
  match p with
  | PDone _ | PPanic | PUb => True
  | PUser f k => forall w, along P (past ++ [EvUser]) (k (snd (f w)))
  | PNodeGet id k => forall o, P past (EvNodeGet id o) /\ along P (past ++ [EvNodeGet id o]) (k o)
  | PNodeAdd id n k => P past (EvNodeAdd id n) /\ along P (past ++ [EvNodeAdd id n]) k
  | PNodeForget items k => P past (EvNodeForget items) /\ along P (past ++ [EvNodeForget items]) k
  | POpenFile f k => forall h, P past (EvOpenFile f h) /\ along P (past ++ [EvOpenFile f h]) (k h)
  | POpenDir d k => forall h, P past (EvOpenDir d h) /\ along P (past ++ [EvOpenDir d h]) (k h)
  | PGetFile _ h k => forall o, P past (EvGetFile h o) /\ along P (past ++ [EvGetFile h o]) (k o)
  | PGetDir _ h k => forall o, P past (EvGetDir h o) /\ along P (past ++ [EvGetDir h o]) (k o)
  | PReleaseFile _ h _ k =>
    forall o r, P past (EvReleaseFile h o r) /\ along P (past ++ [EvReleaseFile h o r]) (k r)
  | PReleaseDir _ h _ k =>
    forall o r, P past (EvReleaseDir h o r) /\ along P (past ++ [EvReleaseDir h o r]) (k r)
  | PSend b k => forall ev, P past (EvSend b ev) /\ along P (past ++ [EvSend b ev]) (k ev)
  end.

Lemma along_exec (P : list event -> event -> Prop) past p v w ev e p' v' w' :
  (forall l, P l EvUser) -> (forall l, P l EvPanic) -> along P past p ->
  exec U cf p v w ev = Some (e, p', v', w') -> P past e /\ along P (past ++ [e]) p'.
Proof.
  intros Pu Pp A X. destruct p; cbn [exec along] in *; try discriminate.
  - specialize (A w). destruct (f w) as [w1 a]. injection X as <- <- <- <-. auto.
  - injection X as <- <- <- <-. apply A.
  - destruct (NodeMap_add _ _ _ _); injection X as <- <- <- <-; [exact A|split; [apply Pp|exact I]].
  - injection X as <- <- <- <-. exact A.
  - destruct (HandlesMap_open_file _ _ _) as [[i s]|]; injection X as <- <- <- <-; [apply A|split; [apply Pp|exact I]].
  - destruct (HandlesMap_open_dir _ _ _) as [[i s]|]; injection X as <- <- <- <-; [apply A|split; [apply Pp|exact I]].
  - injection X as <- <- <- <-. apply A.
  - injection X as <- <- <- <-. apply A.
  - destruct (HandlesMap_get_file _ _ _) as [f|]; [|injection X as <- <- <- <-; apply A].
    destruct (u_release U f rq w) as [w1 [z|]]; injection X as <- <- <- <-; apply A.
  - destruct (HandlesMap_get_dir _ _ _) as [d|]; [|injection X as <- <- <- <-; apply A].
    destruct (u_releasedir U d rq w) as [w1 [z|]]; injection X as <- <- <- <-; apply A.
  - injection X as <- <- <- <-. apply A.
Qed.

Lemma along_path (P : list event -> event -> Prop) p l p' :
  (forall l, P l EvUser) -> (forall l, P l EvPanic) -> along P [] p -> path U cf p l p' ->
  (forall l1 e l2, l = l1 ++ e :: l2 -> P l1 e) /\ along P l p'.
Proof.
  intros Pu Pp A H. induction H as [p|p l p1 v w ev e p2 v' w' H IH X].
  - split; [|exact A]. intros [|? ?]; discriminate.
  - destruct (IH A) as [F A1]. destruct (along_exec P l p1 v w ev e p2 v' w' Pu Pp A1 X) as [Pe A2].
    split; [|exact A2]. intros l1 e1 l2 El.
    destruct l2 as [|y l2 _] using rev_ind.
    + apply app_inj_tail in El as [<- <-]. exact Pe.
    + rewrite app_comm_cons, app_assoc in El. apply app_inj_tail in El as [El <-]. eauto.
Qed.

(** A successful reply names a handle given out before. *)
Definition names_handle (id : N) (dir : bool) (past : list event) (e : event) : Prop :=
  match e with
  | EvSend b _ => forall pl, reads_as b id 0 pl -> u64_at 0 pl <> 0 ->
      Forall (fun e => match e with EvOpenFile _ h | EvOpenDir _ h => h < U64 | _ => True end) past ->
      if dir then exists d, In (EvOpenDir d (u64_at 0 pl)) past
      else exists f, In (EvOpenFile f (u64_at 0 pl)) past
  | _ => True
  end.

Lemma along_err dir id e past : is_id id -> is_i32 e -> along (names_handle id dir) past (reply cf id (AErr e)).
Proof.
  intros Hid He. unfold reply, reply_then.
  destruct (C20_error_reply (cf_minor cf) id e Hid He) as ((b' & m & C' & R2) & _). rewrite C'.
  cbn [along]. intros ev. split; [|destruct ev; exact I]. intros pl R NZ. exfalso.
  destruct (reads_as_fun b' id 0 pl id e [] R (ex_intro _ m R2)) as (_ & _ & ->). apply NZ. unfold u64_at, fld.
  unfold dec. now destruct (big_endian).
Qed.

Lemma open_payload id r b : is_id id ->
  answer_call (cf_minor cf) id (AOk (ROpenOut r)) = Call b -> oo_fh r < U64 ->
  forall pl, reads_as b id 0 pl -> u64_at 0 pl = oo_fh r.
Proof.
  intros Hid C L pl R.
  destruct (ok_replies (cf_minor cf) id (ROpenOut r) Hid) as (b' & m & C' & R').
  { erewrite nlen_payload by reflexivity. unfold u32_max. lia. }
  rewrite C in C'. injection C' as <-.
  destruct (reads_as_fun b id 0 pl id 0 _ R (ex_intro _ m R')) as (_ & _ & ->).
  cbn [payload]. unfold u64_at. rewrite <- (app_nil_r (fuse_open_out_bytes _)). apply fld_wire; [reflexivity|exact L].
Qed.

Lemma along_ok (dir : bool) id h fl past : is_id id ->
  (if dir then exists d, In (EvOpenDir d h) past else exists f, In (EvOpenFile f h) past) ->
  along (names_handle id dir) past (reply cf id (AOk (ROpenOut {| oo_fh := h; oo_open_flags := fl |}))).
Proof.
  intros Hid X. unfold reply, reply_then. destruct (answer_call _ _ _) as [|b] eqn:C; [exact I|].
  cbn [along]. intros ev. split; [|destruct ev; exact I]. intros pl R NZ F. rewrite Forall_forall in F.
  assert (L : h < U64) by (destruct dir; destruct X as [x X]; exact (F _ X)).
  rewrite (open_payload id _ b Hid C L pl R). exact X.
Qed.

Lemma open_along rq id v : is_id id -> along (names_handle id false) [] (open_body U os cf rq id v).
Proof.
  intros Hid. destruct v; try exact I. unfold open_body, with_node, with_trait, call. cbn [along app].
  intros [n|]; (split; [exact I|]); [|apply along_err; [exact Hid|apply TE]]. cbn [along app]. intros w.
  destruct (snd (u_as_file U n w)); [|apply along_err; [exact Hid|apply TE]].
  cbn [along app]. intros w1. pose proof (t_open U TU n rq w1) as He.
  destruct (snd (u_open U n rq w1)) as [r|e]; [|apply along_err; [exact Hid|exact He]].
  cbn [along app]. intros h. split; [exact I|]. apply along_ok; [exact Hid|]. eexists. cbn. eauto.
Qed.
Lemma opendir_along rq id v : is_id id -> along (names_handle id true) [] (opendir_body U os cf rq id v).
Proof.
  intros Hid. destruct v; try exact I. unfold opendir_body, with_node, with_trait, call. cbn [along app].
  intros [n|]; (split; [exact I|]); [|apply along_err; [exact Hid|apply TE]]. cbn [along app]. intros w.
  destruct (snd (u_as_directory U n w)); [|apply along_err; [exact Hid|apply TE]].
  cbn [along app]. intros w1. pose proof (t_opendir U TU n rq w1) as He.
  destruct (snd (u_opendir U n rq w1)) as [r|e]; [|apply along_err; [exact Hid|exact He]].
  cbn [along app]. intros h. split; [exact I|]. apply along_ok; [exact Hid|]. eexists. cbn. eauto 6.
Qed.

Lemma did_in i e (tr : list label) : In e (of_thread i tr) -> In (Did i e) tr.
Proof.
  unfold of_thread. intros X. apply in_flat_map in X as (l & Hl & X).
  destruct l as [j e'| |]; try contradiction. destruct (Nat.eqb_spec j i) as [->|]; [|contradiction].
  destruct X as [->|[]]. exact Hl.
Qed.

(** The handle a client read is the one its request was given. *)
Lemma told_open root w tr s (dir : bool) h i :
  steps U os cf (start root w) tr s -> nlen tr < U64 -> h <> 0 -> told (if dir then 27 else 14) h tr i ->
  if dir then exists d, In (Did i (EvOpenDir d h)) tr else exists f, In (Did i (EvOpenFile f h)) tr.
Proof.
  intros St L Nz (buf & rq & b & payload & B & T & A & D & R & Hn). subst h.
  destruct (threads_inv U os cf root w tr s St) as [_ I]. destruct (I i rq A) as (p0 & p & _ & Dp & P).
  destruct (header_opcode_eq buf rq B) as (_ & _ & Hid).
  assert (Q : along (names_handle (u64_at 8 buf) dir) [] p0).
  { set (t := if dir then ROpendir else ROpen).
    assert (T' : vfs_type (u32_at 4 buf) = Some t) by (rewrite T; now destruct dir).
    destruct (dispatch_view U os cf buf rq t B T') as (p' & Dp' & X); [now destruct dir|].
    rewrite Dp in Dp'. injection Dp' as ->. destruct X as [(e & _ & ->)|(v & _ & ->)]; [exact Logic.I|].
    subst t. destruct dir; [now apply opendir_along|now apply open_along]. }
  destruct (along_path (names_handle (u64_at 8 buf) dir) _ _ _ (fun _ => Logic.I) (fun _ => Logic.I) Q P) as [F _].
  apply in_of_thread in D. apply in_split in D as (l1 & l2 & El).
  pose proof (C46_unique U os cf root w tr s St ltac:(pose proof (handles_le tr); lia)) as [_ Hh].
  rewrite Forall_forall in Hh.
  assert (K : forall x, In x l1 -> In x (of_thread i tr)) by (intros x X; rewrite El; apply in_or_app; now left).
  specialize (F l1 _ l2 El payload R Nz).
  assert (Fa : Forall (fun e : event => match e with EvOpenFile _ h | EvOpenDir _ h => h < U64 | _ => True end) l1).
  { apply Forall_forall. intros x X. apply K, did_in in X. destruct x; try exact Logic.I;
      (apply Hh; unfold handles; apply in_flat_map; eexists; split; [exact X|now left]). }
  specialize (F Fa). destruct dir; destruct F as [x X]; exists x; apply did_in, K, X.
Qed.

(** A thread releases at most one handle, as its first action. *)
Definition release_first (past : list event) (e : event) : Prop :=
  match e with EvReleaseFile _ _ _ | EvReleaseDir _ _ _ => past = [] | _ => True end.

Definition no_release (e : event) : Prop :=
  match e with EvReleaseFile _ _ _ | EvReleaseDir _ _ _ => False | _ => True end.

Lemma along_plain (p : prog) : all_do no_release p -> forall past, along release_first past p.
Proof.
  assert (K : forall past e, no_release e -> release_first past e) by (intros past []; cbn; tauto).
  induction p as [r| | |? ? k IH|? k IH|? ? ? IH|? ? IH|? k IH|? k IH|? ? k IH|? ? k IH|? ? ? k IH|? ? ? k IH|? k IH];
    intros Hd past; cbn [all_do along] in *; try exact I.
  - intros w. apply IH. apply Hd.
  - intros o. destruct (Hd o). split; [now apply K|now apply IH].
  - destruct Hd. split; [now apply K|now apply IH].
  - destruct Hd. split; [now apply K|now apply IH].
  - intros o. destruct (Hd o). split; [now apply K|now apply IH].
  - intros o. destruct (Hd o). split; [now apply K|now apply IH].
  - intros o. destruct (Hd o). split; [now apply K|now apply IH].
  - intros o. destruct (Hd o). split; [now apply K|now apply IH].
  - intros o r. destruct (Hd o r). split; [now apply K|now apply IH].
  - intros o r. destruct (Hd o r). split; [now apply K|now apply IH].
  - intros o. destruct (Hd o). split; [now apply K|now apply IH].
Qed.

Lemma release_along buf rq t v p :
  Request_new buf = Ret rq -> vfs_type (u32_at 4 buf) = Some t -> t = RRelease \/ t = RReleasedir ->
  decode_view false cf t rq = Ret v -> dispatch U os cf rq = Some p -> along release_first [] p.
Proof.
  intros B T Ty V Dp.
  destruct (dispatch_view U os cf buf rq t B T) as (p' & Dp' & X); [destruct Ty; subst t; discriminate|].
  rewrite Dp in Dp'. injection Dp' as ->. destruct X as [(e & _ & ->)|(v' & V' & ->)]; [exact I|].
  assert (R : forall a past, along release_first past (reply cf (u64_at 8 buf) a)).
  { intros a past. apply along_plain. apply all_do_reply. intros; exact I. }
  destruct Ty; subst t; cbn [vfs_body]; destruct v'; try exact I; cbn [release_body releasedir_body along];
    intros o r; (split; [reflexivity|destruct r; apply R]).
Qed.

(** Which requests have released a handle. *)
Lemma no_release_before root w tr s s' j h e :
  steps U os cf (start root w) tr s -> genuine tr -> step U os cf s (Did j e) s' ->
  match e with
  | EvGetFile k _ => k = h /\ forall k, ~ asked_release cf RRelease h tr k
  | EvGetDir k _ => k = h /\ forall k, ~ asked_release cf RReleasedir h tr k
  | EvReleaseFile k _ _ => k = h /\ forall k, asked_release cf RRelease h tr k -> k = j
  | EvReleaseDir k _ _ => k = h /\ forall k, asked_release cf RReleasedir h tr k -> k = j
  | _ => False
  end ->
  match e with
  | EvGetFile _ _ | EvReleaseFile _ _ _ => ~ exists k g, In (Did k (EvReleaseFile h g Released)) tr
  | _ => ~ exists k g, In (Did k (EvReleaseDir h g Released)) tr
  end.
Proof.
  intros St G Sg H.
  assert (RF : forall k g, In (Did k (EvReleaseFile h g Released)) tr -> asked_release cf RRelease h tr k).
  { intros k g X. destruct (did_of root w tr s k _ St G X) as (buf & rq & t & view & B & A & T & V & -> & F).
    exists rq, view. auto. }
  assert (RD : forall k g, In (Did k (EvReleaseDir h g Released)) tr -> asked_release cf RReleasedir h tr k).
  { intros k g X. destruct (did_of root w tr s k _ St G X) as (buf & rq & t & view & B & A & T & V & -> & F).
    exists rq, view. auto. }
  assert (Sj : steps U os cf (start root w) (tr ++ [Did j e]) s') by (eapply steps_snoc; eauto).
  assert (Own : forall e', In (Did j e') tr -> ~ no_release e' -> ~ no_release e -> False).
  { intros e' X N1 N2. destruct (did_of root w tr s j e' St G X) as (buf & rq & t & view & B & A & T & V & M).
    assert (Ty : t = RRelease \/ t = RReleasedir).
    { destruct e'; cbn in N1; try (exfalso; apply N1; exact I); destruct M as [-> _]; auto. }
    destruct (threads_inv U os cf root w _ s' Sj) as [_ In'].
    destruct (In' j rq ltac:(apply in_or_app; now left)) as (p0 & p & _ & Dp & P).
    pose proof (release_along buf rq t view p0 B T Ty V Dp) as Q.
    destruct (along_path release_first _ _ _ (fun _ => I) (fun _ => I) Q P) as [F _].
    rewrite of_thread_app in F. cbn [of_thread flat_map] in F. rewrite Nat.eqb_refl in F. cbn [app] in F.
    specialize (F (of_thread j tr) e [] eq_refl). apply in_of_thread in X.
    assert (Z : of_thread j tr = []) by (destruct e; cbn in N2; try (exfalso; apply N2; exact I); exact F).
    rewrite Z in X. contradiction. }
  destruct e; try contradiction; destruct H as [-> H].
  - intros (k & g & X). exact (H k (RF k g X)).
  - intros (k & g & X). exact (H k (RD k g X)).
  - intros (k & g & X). pose proof (H k (RF k g X)) as ->. eapply Own; [exact X|auto|auto].
  - intros (k & g & X). pose proof (H k (RD k g X)) as ->. eapply Own; [exact X|auto|auto].
Qed.

(** Whoever uses a handle the client read in the reply to an OPEN gets the file
    that this OPEN opened, until a RELEASE of it arrives; and the first
    RELEASE releases that file. *)
Theorem C68_file root w tr s s' i j h e :
  steps U os cf (start root w) tr s -> genuine tr -> nlen tr < U64 ->
  told 14 h tr i -> h <> 0 -> step U os cf s (Did j e) s' ->
  match e with
  | EvGetFile k found => k = h -> (forall k, ~ asked_release cf RRelease h tr k) ->
    exists f, found = Some f /\ In (Did i (EvOpenFile f h)) tr
  | EvReleaseFile k found r => k = h -> (forall k, asked_release cf RRelease h tr k -> k = j) ->
    exists f, found = Some f /\ In (Did i (EvOpenFile f h)) tr
  | _ => True
  end.
Proof.
  intros St G L To Nz Sg.
  destruct (told_open root w tr s false h i St L Nz To) as [f Of].
  pose proof (C46_live U os cf root w tr s j s' e St ltac:(pose proof (handles_le tr); lia) Sg) as Lv.
  pose proof (no_release_before root w tr s s' j h e St G Sg) as Nr.
  assert (K : (~ exists k g, In (Did k (EvReleaseFile h g Released)) tr) -> live_file tr h f).
  { intros X. apply in_split in Of as (a & c & ->). exists a, i, c. split; [reflexivity|].
    intros (k & g & Y). apply X. exists k, g. apply in_or_app. right. now right. }
  destruct e; try exact I; intros -> Q; specialize (Nr (conj eq_refl Q)); exists f; (split; [|exact Of]).
  - apply Lv, K, Nr.
  - apply (proj1 Lv), K, Nr.
Qed.

(** The same for OPENDIR and RELEASEDIR. *)
Theorem C68_dir root w tr s s' i j h e :
  steps U os cf (start root w) tr s -> genuine tr -> nlen tr < U64 ->
  told 27 h tr i -> h <> 0 -> step U os cf s (Did j e) s' ->
  match e with
  | EvGetDir k found => k = h -> (forall k, ~ asked_release cf RReleasedir h tr k) ->
    exists d, found = Some d /\ In (Did i (EvOpenDir d h)) tr
  | EvReleaseDir k found r => k = h -> (forall k, asked_release cf RReleasedir h tr k -> k = j) ->
    exists d, found = Some d /\ In (Did i (EvOpenDir d h)) tr
  | _ => True
  end.
Proof.
  intros St G L To Nz Sg.
  destruct (told_open root w tr s true h i St L Nz To) as [d Of].
  pose proof (C46_live U os cf root w tr s j s' e St ltac:(pose proof (handles_le tr); lia) Sg) as Lv.
  pose proof (no_release_before root w tr s s' j h e St G Sg) as Nr.
  assert (K : (~ exists k g, In (Did k (EvReleaseDir h g Released)) tr) -> live_dir tr h d).
  { intros X. apply in_split in Of as (a & c & ->). exists a, i, c. split; [reflexivity|].
    intros (k & g & Y). apply X. exists k, g. apply in_or_app. right. now right. }
  destruct e; try exact I; intros -> Q; specialize (Nr (conj eq_refl Q)); exists d; (split; [|exact Of]).
  - apply Lv, K, Nr.
  - apply (proj1 Lv), K, Nr.
Qed.
End Proofs.

(** ** Concrete cases *)

Local Instance LE : Endian := false.

Definition genuine_check (tr : list (label N N N)) : bool :=
  forallb (fun l => match l with
                    | Arrived _ rq => match Request_new (rq_mem rq) with Ret _ => true | _ => false end
                    | _ => true end) tr.
Lemma genuine_if tr : genuine_check tr = true -> genuine tr.
Proof.
  unfold genuine_check. rewrite forallb_forall. intros H i rq X. specialize (H _ X). cbn in H.
  exists (rq_mem rq). destruct (Request_new (rq_mem rq)) as [r| | |] eqn:B; try discriminate.
  destruct (Request_new_accepted _ _ B) as [-> _]. now destruct rq.
Qed.
Definition sincere_check (tr : list (label N N N)) : bool :=
  forallb (fun l => match l with
                    | Arrived _ rq =>
                      match decode_view false demo_cf RForget rq with
                      | Ret (VForget items) => forallb (fun item => 1 <=? snd item) items
                      | _ => true end
                    | _ => true end) tr.
Lemma sincere_if tr : sincere_check tr = true -> sincere demo_cf tr.
Proof.
  unfold sincere_check. rewrite forallb_forall. intros H i rq items X D. specialize (H _ X). cbn beta iota in H.
  rewrite D in H. rewrite forallb_forall in H. apply Forall_forall. intros item Y. specialize (H item Y). lia.
Qed.

Definition trace_of (U : user N N N N) (cs : list choice) : list (label N N N) :=
  match schedule U linux_errors demo_cf cs (start 1 0) with Some (tr, _) => tr | None => [] end.
Definition reply_of (tr : list (label N N N)) (i : nat) : SendBuf :=
  match sent (of_thread i tr) with b :: _ => b | [] => SendBuf_new_1 0 [] end.
Definition payload_of (tr : list (label N N N)) (i : nat) : bytes :=
  match on_wire (reply_of tr i) with Ret m => drop 16 m | _ => [] end.
Ltac told_by tr i rq :=
  exists (rq_mem rq), rq, (reply_of tr i), (payload_of tr i);
  split; [vm_compute; reflexivity|]; split; [vm_compute; reflexivity|];
  split; [found 0%nat|]; split; [found 0%nat|];
  split; [eexists; split; [vm_compute; reflexivity|]; split; vm_compute; reflexivity|];
  vm_compute; reflexivity.
(** The state before the last step and that step. *)
Ltac before_last U cs i :=
  match goal with |- exists s s', steps _ _ _ _ _ s /\ step _ _ _ s ?l s' /\ returned s = ?r =>
    let H := fresh in
    assert (H : exists s, steps U linux_errors demo_cf (start 1 0) (trace_of U cs) s /\
      (next_label U linux_errors demo_cf (Takes i SendOk) s, returned s) = (Some l, r))
      by (apply (scheduled_view U linux_errors demo_cf
            (fun s => (next_label U linux_errors demo_cf (Takes i SendOk) s, returned s)) cs);
          vm_compute; reflexivity);
    destruct H as (s & ? & H); injection H as H ?; apply next_label_step in H as [s' H];
    exists s, s'; auto
  end.

(** File 5 is looked up three times, by interleaved handlers; two lookups are
    given up, in a FORGET and in a BATCH_FORGET; then a GETATTR. *)
Definition three : list choice :=
  [Arrives (demo_rq 3 1 (OLookup ab)); Arrives (demo_rq 4 1 (OLookup ab))] ++ steps_of 0 4 ++ steps_of 1 5 ++
  [Arrives (demo_rq 5 1 (OLookup ab))] ++ steps_of 0 1 ++ steps_of 2 5 ++
  [Arrives (demo_rq 6 5 (OForget 1)); Arrives (demo_rq 7 0 (OBatchForget 0 [(77, 3); (5, 1)]))] ++
  steps_of 3 1 ++ steps_of 4 1 ++ [Arrives (demo_rq 8 5 (OGetattr 0 0 0))].
Example C68_node_example :
  exists s s', steps demo linux_errors demo_cf (start 1 0) (trace_of demo three) s /\
  step demo linux_errors demo_cf s (Did 5 (EvNodeGet 5 (Some 5))) s' /\
  genuine (trace_of demo three) /\ sincere demo_cf (trace_of demo three) /\
  Forall (told 1 5 (trace_of demo three)) [0; 1; 2]%nat /\ Forall (finished s) [0; 1; 2]%nat /\
  gave_up demo_cf 5 (trace_of demo three) = 2.
Proof.
  assert (H : exists s s', steps demo linux_errors demo_cf (start 1 0) (trace_of demo three) s /\
    step demo linux_errors demo_cf s (Did 5 (EvNodeGet 5 (Some 5))) s' /\
    returned s = [true; true; true; true; true; false]) by before_last demo three 5%nat.
  destruct H as (s & s' & H1 & H2 & R). exists s, s'. split; [exact H1|]. split; [exact H2|]. clear H1 H2.
  split; [apply genuine_if; vm_compute; reflexivity|]. split; [apply sincere_if; vm_compute; reflexivity|]. split.
  - constructor; [|constructor; [|constructor; [|constructor]]].
    + told_by (trace_of demo three) 0%nat (demo_rq 3 1 (OLookup ab)).
    + told_by (trace_of demo three) 1%nat (demo_rq 4 1 (OLookup ab)).
    + told_by (trace_of demo three) 2%nat (demo_rq 5 1 (OLookup ab)).
  - split; [|vm_compute; reflexivity].
    assert (F : forall i, nth_error [true; true; true; true; true; false] i = Some true -> finished s i).
    { intros i X. rewrite <- R in X. apply returned_nth in X. eexists. exact X. }
    constructor; [|constructor; [|constructor; [|constructor]]]; apply F; reflexivity.
Qed.

(** The root is looked up and looked at while file 5 is looked up and forgotten. *)
Definition rooted : list choice :=
  [Arrives (demo_rq 3 1 (OLookup r_)); Arrives (demo_rq 4 1 (OLookup ab))] ++ steps_of 0 5 ++ steps_of 1 5 ++
  [Arrives (demo_rq 6 5 (OForget 1))] ++ steps_of 2 1 ++ [Arrives (demo_rq 8 1 (OGetattr 0 0 0))].
Example C68_root_example :
  exists s s', steps demo linux_errors demo_cf (start 1 0) (trace_of demo rooted) s /\
  step demo linux_errors demo_cf s (Did 3 (EvNodeGet 1 (Some 1))) s' /\
  genuine (trace_of demo rooted) /\ sincere demo_cf (trace_of demo rooted) /\
  gave_up demo_cf 1 (trace_of demo rooted) = 0 /\ gave_up demo_cf 5 (trace_of demo rooted) = 1.
Proof.
  assert (H : exists s s', steps demo linux_errors demo_cf (start 1 0) (trace_of demo rooted) s /\
    step demo linux_errors demo_cf s (Did 3 (EvNodeGet 1 (Some 1))) s' /\
    returned s = [true; true; true; false]) by before_last demo rooted 3%nat.
  destruct H as (s & s' & H1 & H2 & R). exists s, s'. split; [exact H1|]. split; [exact H2|]. clear.
  split; [apply genuine_if; vm_compute; reflexivity|]. split; [apply sincere_if; vm_compute; reflexivity|].
  split; vm_compute; reflexivity.
Qed.

(** Two files and a directory are opened; one file is read, the other
    released; the directory is released. *)
Definition opened (last : list choice) : list choice :=
  [Arrives (demo_rq 3 1 (OLookup ab))] ++ steps_of 0 5 ++
  [Arrives (demo_rq 4 5 (OOpen 0 0)); Arrives (demo_rq 5 5 (OOpen 0 0)); Arrives (demo_rq 6 1 (OOpendir 0 0))] ++
  steps_of 1 4 ++ steps_of 2 5 ++ steps_of 1 1 ++ steps_of 3 5 ++ [Arrives (demo_rq 7 5 (ORelease 2 0 0 0))] ++
  steps_of 4 1 ++ last.
Definition opened_read := opened [Arrives (demo_rq 8 5 (ORead 1 0 10 0 0 0 0))].
Definition opened_release := opened [Arrives (demo_rq 8 5 (ORelease 1 0 0 0))].
Definition opened_releasedir := opened [Arrives (demo_rq 8 1 (OReleasedir 3 0 0 0))].

Definition asked_check (t : rtype) (h : N) (tr : list (label N N N)) : list nat :=
  flat_map (fun l => match l with
    | Arrived i rq =>
      match decode_view false demo_cf t rq with
      | Ret view =>
        match (if match t with RRelease => true | _ => false end then file_of view else dir_of view) with
        | Some k => if k =? h then [i] else []
        | None => []
        end
      | _ => []
      end
    | _ => [] end) tr.
Lemma asked_if t h tr i : asked_release demo_cf t h tr i <-> In i (asked_check t h tr).
Proof.
  unfold asked_check. rewrite in_flat_map. split.
  - intros (rq & view & A & D & F). exists (Arrived i rq). split; [exact A|]. rewrite D, F, N.eqb_refl. now left.
  - intros (l & A & X). destruct l as [|j rq|]; try contradiction.
    destruct (decode_view false demo_cf t rq) as [view| | |] eqn:D; try contradiction.
    destruct (if match t with RRelease => true | _ => false end then file_of view else dir_of view)
      as [k|] eqn:F; [|contradiction].
    destruct (N.eqb_spec k h) as [->|]; [|contradiction]. destruct X as [->|[]]. exists rq, view. auto.
Qed.

Example C68_file_example :
  (exists s s', steps demo linux_errors demo_cf (start 1 0) (trace_of demo opened_read) s /\
   step demo linux_errors demo_cf s (Did 5 (EvGetFile 1 (Some 100))) s' /\
   genuine (trace_of demo opened_read) /\ told 14 1 (trace_of demo opened_read) 1 /\
   (forall k, ~ asked_release demo_cf RRelease 1 (trace_of demo opened_read) k) /\
   asked_release demo_cf RRelease 2 (trace_of demo opened_read) 4) /\
  (exists s s', steps demo linux_errors demo_cf (start 1 0) (trace_of demo opened_release) s /\
   step demo linux_errors demo_cf s (Did 5 (EvReleaseFile 1 (Some 100) Released)) s' /\
   genuine (trace_of demo opened_release) /\ told 14 1 (trace_of demo opened_release) 1 /\
   (forall k, asked_release demo_cf RRelease 1 (trace_of demo opened_release) k -> k = 5%nat) /\
   In (Did 1 (EvOpenFile 100 1)) (trace_of demo opened_release)).
Proof.
  split.
  - assert (H : exists s s', steps demo linux_errors demo_cf (start 1 0) (trace_of demo opened_read) s /\
      step demo linux_errors demo_cf s (Did 5 (EvGetFile 1 (Some 100))) s' /\
      returned s = [true; true; true; true; false; false]) by before_last demo opened_read 5%nat.
    destruct H as (s & s' & H1 & H2 & _). exists s, s'. split; [exact H1|]. split; [exact H2|]. clear.
    split; [apply genuine_if; vm_compute; reflexivity|].
    split; [told_by (trace_of demo opened_read) 1%nat (demo_rq 4 5 (OOpen 0 0))|]. split.
    + assert (Y : asked_check RRelease 1 (trace_of demo opened_read) = []) by (vm_compute; reflexivity).
      intros k X. apply asked_if in X. rewrite Y in X. exact X.
    + assert (Y : asked_check RRelease 2 (trace_of demo opened_read) = [4%nat]) by (vm_compute; reflexivity).
      apply asked_if. rewrite Y. now left.
  - assert (H : exists s s', steps demo linux_errors demo_cf (start 1 0) (trace_of demo opened_release) s /\
      step demo linux_errors demo_cf s (Did 5 (EvReleaseFile 1 (Some 100) Released)) s' /\
      returned s = [true; true; true; true; false; false]) by before_last demo opened_release 5%nat.
    destruct H as (s & s' & H1 & H2 & _). exists s, s'. split; [exact H1|]. split; [exact H2|]. clear.
    split; [apply genuine_if; vm_compute; reflexivity|].
    split; [told_by (trace_of demo opened_release) 1%nat (demo_rq 4 5 (OOpen 0 0))|].
    split; [|found 0%nat].
    assert (Y : asked_check RRelease 1 (trace_of demo opened_release) = [5%nat]) by (vm_compute; reflexivity).
    intros k X. apply asked_if in X. rewrite Y in X. destruct X as [<-|[]]. reflexivity.
Qed.
Example C68_dir_example :
  exists s s', steps demo linux_errors demo_cf (start 1 0) (trace_of demo opened_releasedir) s /\
  step demo linux_errors demo_cf s (Did 5 (EvReleaseDir 3 (Some 202) Released)) s' /\
  genuine (trace_of demo opened_releasedir) /\ told 27 3 (trace_of demo opened_releasedir) 3 /\
  (forall k, asked_release demo_cf RReleasedir 3 (trace_of demo opened_releasedir) k -> k = 5%nat) /\
  In (Did 3 (EvOpenDir 202 3)) (trace_of demo opened_releasedir).
Proof.
  assert (H : exists s s', steps demo linux_errors demo_cf (start 1 0) (trace_of demo opened_releasedir) s /\
    step demo linux_errors demo_cf s (Did 5 (EvReleaseDir 3 (Some 202) Released)) s' /\
    returned s = [true; true; true; true; false; false]) by before_last demo opened_releasedir 5%nat.
  destruct H as (s & s' & H1 & H2 & _). exists s, s'. split; [exact H1|]. split; [exact H2|]. clear.
  split; [apply genuine_if; vm_compute; reflexivity|].
  split; [told_by (trace_of demo opened_releasedir) 3%nat (demo_rq 6 1 (OOpendir 0 0))|].
  split; [|found 0%nat].
  assert (Y : asked_check RReleasedir 3 (trace_of demo opened_releasedir) = [5%nat]) by (vm_compute; reflexivity).
  intros k X. apply asked_if in X. rewrite Y in X. destruct X as [<-|[]]. reflexivity.
Qed.

(** *** Refuted *)

(** A file system that reuses a node id after the client has given up all its
    lookups of it: the first two lookups find object 5, later ones object 6,
    all under node id 5. *)
Definition reusing : user N N N N := {|
  u_as_directory := u_as_directory demo; u_as_file := u_as_file demo; u_as_symlink := u_as_symlink demo;
  u_getattr := u_getattr demo; u_getxattr := u_getxattr demo; u_listxattr := u_listxattr demo;
  u_statfs := u_statfs demo;
  u_lookup n rq w := (w + 1, inl (LookupResult_found (if w <? 2 then 5 else 6) (demo_attr 5)));
  u_opendir := u_opendir demo; u_open := u_open demo; u_readlink := u_readlink demo;
  u_as_readdir_handle := u_as_readdir_handle demo; u_as_readdirplus_handle := u_as_readdirplus_handle demo;
  u_readdir := u_readdir demo; u_readdirplus := u_readdirplus demo;
  u_releasedir := u_releasedir demo; u_as_read_handle := u_as_read_handle demo;
  u_as_write_handle := u_as_write_handle demo; u_read := u_read demo; u_write := u_write demo;
  u_release := u_release demo |}.
Definition reuse_before : list choice :=
  [Arrives (demo_rq 3 1 (OLookup ab))] ++ steps_of 0 5 ++ [Arrives (demo_rq 4 1 (OLookup ab))] ++ steps_of 1 5 ++
  [Arrives (demo_rq 5 5 (OForget 2))] ++ steps_of 2 1.
Definition reuse_history : list choice :=
  reuse_before ++ [Arrives (demo_rq 6 1 (OLookup ab))] ++ steps_of 3 5 ++ [Arrives (demo_rq 8 5 (OGetattr 0 0 0))].
(** The handler of a GETATTR gets the old object. *)
Theorem C68_stale_refuted :
  exists s s' since, trace_of reusing reuse_history = trace_of reusing reuse_before ++ since /\
  steps reusing linux_errors demo_cf (start 1 0) (trace_of reusing reuse_history) s /\
  genuine (trace_of reusing reuse_history) /\
  Forall (told 1 5 (trace_of reusing reuse_before)) [0; 1]%nat /\
  lookups 5 (trace_of reusing reuse_before) = 2 /\
  gave_up demo_cf 5 (trace_of reusing reuse_before) = 2 /\
  In (Did 2 (EvNodeForget [(5, 2)])) (trace_of reusing reuse_before) /\
  lookups 5 since = 1 /\ In (Did 3 (EvNodeAdd 5 6)) since /\ told 1 5 (trace_of reusing reuse_history) 3 /\
  step reusing linux_errors demo_cf s (Did 4 (EvNodeGet 5 (Some 5))) s'.
Proof.
  assert (H : exists s s', steps reusing linux_errors demo_cf (start 1 0) (trace_of reusing reuse_history) s /\
    step reusing linux_errors demo_cf s (Did 4 (EvNodeGet 5 (Some 5))) s' /\
    returned s = [true; true; true; true; false]) by before_last reusing reuse_history 4%nat.
  destruct H as (s & s' & H1 & H2 & _). exists s, s', (skipn 14 (trace_of reusing reuse_history)).
  split; [vm_compute; reflexivity|]. split; [exact H1|]. clear H1.
  split; [apply genuine_if; vm_compute; reflexivity|]. split.
  { constructor; [|constructor; [|constructor]].
    - told_by (trace_of reusing reuse_before) 0%nat (demo_rq 3 1 (OLookup ab)).
    - told_by (trace_of reusing reuse_before) 1%nat (demo_rq 4 1 (OLookup ab)). }
  split; [vm_compute; reflexivity|]. split; [vm_compute; reflexivity|]. split; [found 0%nat|].
  split; [vm_compute; reflexivity|]. split; [found 0%nat|].
  split; [told_by (trace_of reusing reuse_history) 3%nat (demo_rq 6 1 (OLookup ab))|exact H2].
Qed.

Print Assumptions C68_node.
Print Assumptions C68_root.
Print Assumptions C68_file.
Print Assumptions C68_dir.
Print Assumptions C68_stale_refuted.
