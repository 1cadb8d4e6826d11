(** Theorems about programs that sleep in poll(2): C84 of properties.jsonl. *)

From Verif Require Import Base Kernel CoreModel DecodeModel OpsModel WireSpec OpsRoundTrip DecodeProofs
  ReplyModel ReplySpec ReplyProofs PropDecode PropHeader PropReply
  ServerModel ThreadModel ServerSpec PropServer DeviceSpec PropDevice
  ClientSpec PropClient TakenSpec PropTaken FileSpec PropFile CallSpec PropCalls.
From Coq Require Import List NArith ZArith Bool Lia ZifyBool ZifyNat ZifyN Strings.Byte.
Import ListNotations.
Open Scope list_scope.
Open Scope N_scope.

(** ** A server *)

(** Written with the library: what the nodes are ready for, and the poll handles
    of those who asked to be told when this changes. *)
Record box := { x_ready : N -> N; x_asked : list (N * N) }.
Definition mailbox : PropCalls.handler (St := box) := fun s v =>
  match v with
  | VPoll node events kh flags =>
    ({| x_ready := x_ready s;
        x_asked := if N.testbit flags 0 then (node, kh) :: x_asked s else x_asked s |},
     SaidEvents (N.land (x_ready s node) events))
  | _ => (s, SaidError (-38))
  end.
(** A node becomes ready for other events: all who asked about it are to be told. *)
Definition change (s : box) (node events : N) : box * list N :=
  ({| x_ready := fun n => if n =? node then events else x_ready s n;
      x_asked := filter (fun a => negb (fst a =? node)) (x_asked s) |},
   map snd (filter (fun a => fst a =? node) (x_asked s))).
Definition quiet : box := {| x_ready := fun _ => 0; x_asked := [] |}.

(** ** Specification *)

(** A program in poll(2), by the poll handle of its open file: the node, the open
    file and the events it wants. *)
Record sleeper := { z_node : N; z_fh : N; z_events : N }.
Record sleepers := { z_k : nat; z_box : box; z_sleeps : N -> option sleeper; z_woken : list (N * N) }.
Definition all_awake : sleepers := {| z_k := 0; z_box := quiet; z_sleeps := fun _ => None; z_woken := [] |}.

Section Spec.
Context {E : Endian}.

(** fs/fuse/file.c [fuse_file_poll], and poll(2): the server is asked, and told to
    notify (FUSE_POLL_SCHEDULE_NOTIFY); when there is nothing the program sleeps. *)
Definition polls (m : mounted) (z : sleepers) (kh : N) (p : sleeper) : option sleepers :=
  match sys m (program_with mailbox) (z_k z) [] (z_box z) (Poll (z_node p) (z_fh p) kh 1 (z_events p)) with
  | Some (_, s', Number r) =>
    Some {| z_k := Datatypes.S (z_k z); z_box := s';
            z_sleeps := fun i => if i =? kh then if r =? 0 then Some p else None else z_sleeps z i;
            z_woken := if r =? 0 then z_woken z else z_woken z ++ [(kh, r)] |}
  | _ => None
  end.
(** fs/fuse/file.c [fuse_notify_poll_wakeup]: who sleeps wakes up and asks again. *)
Fixpoint tell_all (m : mounted) (z : sleepers) (l : list N) : option sleepers :=
  match l with
  | [] => Some z
  | kh :: l =>
    match b <- notification_encode (NPoll kh) ;; on_wire b with
    | Ret msg =>
      match device_write (cf_minor (m_cf m)) (fun _ => None) msg with
      | Noticed (PollWakeup kh') =>
        match match z_sleeps z kh' with Some p => polls m z kh' p | None => Some z end with
        | Some z' => tell_all m z' l
        | None => None
        end
      | _ => None
      end
    | _ => None
    end
  end.
Inductive occurs := CallsPoll (kh : N) (p : sleeper) | Changes (node events : N).
Definition occur (m : mounted) (z : sleepers) (o : occurs) : option sleepers :=
  match o with
  | CallsPoll kh p => polls m z kh p
  | Changes node events =>
    let (s', l) := change (z_box z) node events in
    tell_all m {| z_k := z_k z; z_box := s'; z_sleeps := z_sleeps z; z_woken := z_woken z |} l
  end.
(** A program that sleeps makes no calls. *)
Definition can_occur (z : sleepers) (o : occurs) : Prop :=
  match o with
  | CallsPoll kh p => kh < U64 /\ 0 < z_node p < U64 /\ z_fh p < U64 /\ z_events p < U32 /\ z_sleeps z kh = None
  | Changes _ events => events < U32
  end.
Inductive occurred (m : mounted) : list occurs -> sleepers -> Prop :=
| occurred_none : occurred m [] all_awake
| occurred_more l z o z' : occurred m l z -> can_occur z o -> occur m z o = Some z' -> occurred m (l ++ [o]) z'.

(** What poll(2) reports: events the program wants and the node is ready for, of
    those that there are. *)
Definition reported (z : sleepers) (p : sleeper) : N :=
  N.land (N.land (x_ready (z_box z) (z_node p)) (z_events p)) poll_events.

(** ** Proofs *)

Definition sleeper_ok (kh : N) (p : sleeper) : Prop :=
  kh < U64 /\ 0 < z_node p < U64 /\ z_fh p < U64 /\ z_events p < U32.
(** All who sleep have nothing to do and will be told; but for those in [l]. *)
Definition good_sleep (l : list N) (z : sleepers) : Prop :=
  (forall n, x_ready (z_box z) n < U32) /\
  (forall n kh, In (n, kh) (x_asked (z_box z)) -> kh < U64) /\
  (forall kh p, z_sleeps z kh = Some p -> sleeper_ok kh p /\
     (In kh l \/ In (z_node p, kh) (x_asked (z_box z)) /\ reported z p = 0)).

Lemma polls_ok m z kh p : good_mount m -> sleeper_ok kh p -> (forall n, x_ready (z_box z) n < U32) ->
  polls m z kh p = Some
    {| z_k := Datatypes.S (z_k z);
       z_box := {| x_ready := x_ready (z_box z); x_asked := (z_node p, kh) :: x_asked (z_box z) |};
       z_sleeps := fun i => if i =? kh then if reported z p =? 0 then Some p else None else z_sleeps z i;
       z_woken := if reported z p =? 0 then z_woken z else z_woken z ++ [(kh, reported z p)] |}.
Proof.
  intros G (Hk & Hn & Hf & He) R. unfold polls. set (c := Poll (z_node p) (z_fh p) kh 1 (z_events p)).
  assert (C : call_ok c) by (cbn; unfold id_ok, U32 in *; repeat split; lia).
  rewrite (C75_call m mailbox (z_k z) [] (z_box z) c G C).
  - unfold handled_one. cbn [c too_old skipped remembers existsb asked mailbox seen]. reflexivity.
  - cbn [c asked mailbox snd answers]. split; [|exact I]. specialize (R (z_node p)).
    destruct (N.eq_dec (N.land (x_ready (z_box z) (z_node p)) (z_events p)) 0) as [->|Nz]; [reflexivity|].
    unfold U32 in *. change 4294967296 with (2 ^ 32) in *. apply N.log2_lt_pow2; [lia|].
    eapply N.le_lt_trans; [apply N.log2_land|].
    destruct (N.eq_dec (z_events p) 0) as [Z|Z]; [rewrite Z, N.land_0_r in Nz; congruence|].
    assert (N.log2 (z_events p) < 32) by (apply N.log2_lt_pow2; lia). lia.
Qed.

Lemma polls_good m z kh p l : good_mount m -> sleeper_ok kh p -> good_sleep (kh :: l) z ->
  exists z', polls m z kh p = Some z' /\ good_sleep l z' /\
    z_woken z' = (if reported z p =? 0 then z_woken z else z_woken z ++ [(kh, reported z p)]) /\
    (forall i, z_sleeps z' i = if i =? kh then if reported z p =? 0 then Some p else None else z_sleeps z i) /\
    x_ready (z_box z') = x_ready (z_box z).
Proof.
  intros G P (R & A & S). rewrite (polls_ok m z kh p G P R). eexists. split; [reflexivity|]. cbn [z_woken z_sleeps z_box x_ready].
  split; [|auto]. split; [exact R|]. split.
  - cbn [z_box x_asked]. intros n j [Q|I]; [injection Q as <- <-; apply P|exact (A n j I)].
  - cbn [z_box x_asked z_sleeps]. intros i q Hq. destruct (N.eqb_spec i kh) as [->|Ne].
    + destruct (N.eqb_spec (reported z p) 0) as [Z|Z]; [|discriminate]. injection Hq as <-.
      split; [exact P|]. right. split; [left; reflexivity|exact Z].
    + destruct (S i q Hq) as [O [[Q|I]|[I Z]]]; [congruence| |]; (split; [exact O|]); [left; exact I|].
      right. split; [right; exact I|exact Z].
Qed.

Lemma not_told z l kh : good_sleep (kh :: l) z -> z_sleeps z kh = None -> good_sleep l z.
Proof.
  intros (R & A & S) N0. split; [exact R|]. split; [exact A|]. intros i q Hq.
  destruct (S i q Hq) as [O [[Q|I]|I]]; [congruence| |]; auto.
Qed.

Lemma tell_all_ok m l : good_mount m -> forall z, Forall (fun kh => kh < U64) l -> good_sleep l z ->
  exists z', tell_all m z l = Some z' /\ good_sleep [] z' /\ x_ready (z_box z') = x_ready (z_box z) /\
    exists new, z_woken z' = z_woken z ++ new /\
      (forall kh r, In (kh, r) new -> exists p, z_sleeps z kh = Some p /\ r = reported z p /\ r <> 0) /\
      (forall kh, z_sleeps z' kh = z_sleeps z kh \/ z_sleeps z' kh = None /\ exists r, In (kh, r) new).
Proof.
  intros G. induction l as [|kh l IH]; intros z F Gs.
  - exists z. split; [reflexivity|]. split; [exact Gs|]. split; [reflexivity|]. exists []. rewrite app_nil_r.
    split; [reflexivity|]. split; [intros ? ? []|auto].
  - apply Forall_cons_iff in F as [Hk F]. cbn [tell_all].
    assert (Nt : noticed (cf_minor (m_cf m)) (fun _ => None) (NPoll kh) (Noticed (PollWakeup kh))).
    { apply (C62_notifications (cf_minor (m_cf m)) (fun _ => None) 1 1 kh [] None None); unfold U64 in *; try lia. cbn. lia. }
    destruct Nt as (b & msg & Nb & Nw & Nd). rewrite Nb. cbn [bind]. rewrite Nw, Nd.
    destruct (z_sleeps z kh) as [p|] eqn:Sk.
    + pose proof Gs as (_ & _ & S). destruct (S kh p Sk) as [P _].
      destruct (polls_good m z kh p l G P Gs) as (z1 & D1 & G1 & W1 & S1 & R1). rewrite D1.
      destruct (IH z1 F G1) as (z' & D' & G' & R' & new & W' & N' & S').
      assert (Rp : forall q, reported z1 q = reported z q) by (intros q; unfold reported; now rewrite R1).
      exists z'. split; [exact D'|]. split; [exact G'|]. split; [congruence|].
      exists ((if reported z p =? 0 then [] else [(kh, reported z p)]) ++ new). split; [|split].
      * rewrite W', W1. destruct (reported z p =? 0); [reflexivity|]. now rewrite <- app_assoc.
      * intros i r I. apply in_app_iff in I as [I|I].
        -- destruct (N.eqb_spec (reported z p) 0) as [|Nz]; [contradiction|]. destruct I as [Q|[]]. injection Q as <- <-. eauto.
        -- destruct (N' i r I) as (q & Hq & -> & Nz). rewrite S1 in Hq. rewrite Rp in *.
           destruct (N.eqb_spec i kh) as [->|Ne]; [|eauto].
           destruct (reported z p =? 0); [|discriminate]. injection Hq as <-. eauto.
      * intros i. destruct (S' i) as [Q|[Q [r I]]].
        -- rewrite Q, S1. destruct (N.eqb_spec i kh) as [->|]; [|auto]. rewrite Sk.
           destruct (reported z p =? 0) eqn:Z; [auto|]. right. split; [reflexivity|]. exists (reported z p). left. reflexivity.
        -- right. split; [exact Q|]. exists r. apply in_app_iff. auto.
    + apply IH; [exact F|]. eapply not_told; eauto.
Qed.

Lemma occur_ok m z o : good_mount m -> good_sleep [] z -> can_occur z o ->
  exists z', occur m z o = Some z' /\ good_sleep [] z' /\
  match o with
  | CallsPoll kh p =>
    if reported z p =? 0 then z_woken z' = z_woken z /\ (forall i, z_sleeps z' i = if i =? kh then Some p else z_sleeps z i)
    else z_woken z' = z_woken z ++ [(kh, reported z p)] /\ (forall i, z_sleeps z' i = z_sleeps z i)
  | Changes node events =>
    (forall n, x_ready (z_box z') n = if n =? node then events else x_ready (z_box z) n) /\
    exists new, z_woken z' = z_woken z ++ new /\
      (forall kh r, In (kh, r) new -> exists p, z_sleeps z kh = Some p /\ r = reported z' p /\ r <> 0) /\
      (forall kh, z_sleeps z' kh = z_sleeps z kh \/ z_sleeps z' kh = None /\ exists r, In (kh, r) new)
  end.
Proof.
  intros G Gs C. destruct o as [kh p|node events]; cbn [can_occur occur] in *.
  - destruct C as (Hk & Hn & Hf & He & Sk). assert (P : sleeper_ok kh p) by (repeat split; lia || assumption).
    assert (Gs' : good_sleep [kh] z).
    { destruct Gs as (R & A & S). split; [exact R|]. split; [exact A|]. intros i q Hq. destruct (S i q Hq) as [O [[]|I]]. auto. }
    destruct (polls_good m z kh p [] G P Gs') as (z' & D & G' & W & S & _). exists z'. split; [exact D|]. split; [exact G'|].
    destruct (reported z p =? 0); (split; [exact W|]); intros i; rewrite S; [reflexivity|].
    destruct (N.eqb_spec i kh) as [->|]; [now rewrite Sk|reflexivity].
  - destruct (change (z_box z) node events) as [s' l] eqn:Ch. unfold change in Ch. injection Ch as Es El.
    set (z0 := {| z_k := z_k z; z_box := s'; z_sleeps := z_sleeps z; z_woken := z_woken z |}).
    destruct Gs as (R & A & S).
    assert (Rd : forall n, x_ready (z_box z0) n = if n =? node then events else x_ready (z_box z) n) by (subst s'; reflexivity).
    assert (G0 : good_sleep l z0).
    { split; [intros n; rewrite Rd; destruct (n =? node); auto|]. split.
      - unfold z0. subst s'. cbn [z_box x_asked]. intros n j I. apply filter_In in I as [I _]. exact (A n j I).
      - unfold z0 at 1. cbn [z_sleeps]. intros kh p Hp. destruct (S kh p Hp) as [O [[]|[I Z]]]. split; [exact O|].
        destruct (N.eqb_spec (z_node p) node) as [Q|Ne].
        + left. subst l. apply in_map_iff. exists (z_node p, kh). split; [reflexivity|]. apply filter_In. split; [exact I|].
          cbn [fst]. now apply N.eqb_eq.
        + right. split.
          * unfold z0. subst s'. cbn [z_box x_asked]. apply filter_In. split; [exact I|]. cbn [fst].
            apply negb_true_iff. now apply N.eqb_neq.
          * unfold reported in *. rewrite Rd. apply N.eqb_neq in Ne. now rewrite Ne. }
    assert (Fl : Forall (fun kh => kh < U64) l).
    { subst l. apply Forall_forall. intros kh I. apply in_map_iff in I as ([n j] & <- & I). apply filter_In in I as [I _].
      exact (A n j I). }
    destruct (tell_all_ok m l G z0 Fl G0) as (z' & D & G' & R' & new & W & N' & S'). exists z'. split; [exact D|]. split; [exact G'|].
    split; [intros n; rewrite R'; apply Rd|]. exists new. split; [exact W|]. split; [|exact S'].
    intros kh r I. destruct (N' kh r I) as (p & Hp & -> & Nz). exists p. split; [exact Hp|]. split; [|exact Nz].
    unfold reported. now rewrite R'.
Qed.

Lemma occurred_good m l z : good_mount m -> occurred m l z -> good_sleep [] z.
Proof.
  intros G H. induction H as [|l z o z' H IH C D].
  - split; [intros n; reflexivity|]. split; [intros n kh []|discriminate].
  - destruct (occur_ok m z o G IH C) as (z1 & D1 & G1 & _). rewrite D in D1. injection D1 as ->. exact G1.
Qed.

(** No program sleeps though there is something for it. *)
Theorem C84_sleeps m l z kh p :
  good_mount m -> occurred m l z -> z_sleeps z kh = Some p -> reported z p = 0.
Proof.
  intros G H Hp. destruct (occurred_good m l z G H) as (_ & _ & S). destruct (S kh p Hp) as [_ [[]|[_ Z]]]. exact Z.
Qed.

(** Whatever happens next, the server can do its part.  A call reports what there is,
    or sleeps when there is nothing.  When something changes those who sleep and
    now have something wake up and are told what it is, and nobody else. *)
Theorem C84_steps m l z o :
  good_mount m -> occurred m l z -> can_occur z o ->
  exists z', occur m z o = Some z' /\ occurred m (l ++ [o]) z' /\
  match o with
  | CallsPoll kh p =>
    if reported z p =? 0 then z_woken z' = z_woken z /\ (forall i, z_sleeps z' i = if i =? kh then Some p else z_sleeps z i)
    else z_woken z' = z_woken z ++ [(kh, reported z p)] /\ (forall i, z_sleeps z' i = z_sleeps z i)
  | Changes node events =>
    (forall n, x_ready (z_box z') n = if n =? node then events else x_ready (z_box z) n) /\
    exists new, z_woken z' = z_woken z ++ new /\
      (forall kh r, In (kh, r) new -> exists p, z_sleeps z kh = Some p /\ r = reported z' p /\ r <> 0) /\
      (forall kh, z_sleeps z' kh = z_sleeps z kh \/ z_sleeps z' kh = None /\ exists r, In (kh, r) new)
  end.
Proof.
  intros G H C. destruct (occur_ok m z o G (occurred_good m l z G H) C) as (z' & D & _ & X).
  exists z'. split; [exact D|]. split; [econstructor; eauto|exact X].
Qed.
End Spec.

(** ** Examples *)

Local Instance LE : Endian := false.

(** Programs sleep on node 2, one to read (1) and one to write (4), and one on node
    3.  Node 2 can be read: the first wakes up.  Then it can be written as well. *)
Definition reads : sleeper := {| z_node := 2; z_fh := 10; z_events := 1 |}.
Definition writes : sleeper := {| z_node := 2; z_fh := 11; z_events := 4 |}.
Definition elsewhere : sleeper := {| z_node := 3; z_fh := 12; z_events := 5 |}.
Definition poll_demo : list occurs :=
  [CallsPoll 100 reads; CallsPoll 101 writes; CallsPoll 102 elsewhere; Changes 2 1; Changes 2 5].
Fixpoint occur_all (z : sleepers) (l : list occurs) : option sleepers :=
  match l with
  | [] => Some z
  | o :: l => match occur demo_mount z o with Some z' => occur_all z' l | None => None end
  end.
Definition asleep (z : sleepers) : list bool :=
  map (fun i => match z_sleeps z i with Some _ => true | None => false end) [100; 101; 102].
Definition may_call (z : sleepers) (o : occurs) : bool :=
  match o with CallsPoll kh _ => match z_sleeps z kh with None => true | Some _ => false end | Changes _ _ => true end.
Fixpoint may_all (z : sleepers) (l : list occurs) : bool :=
  match l with
  | [] => true
  | o :: l => may_call z o && match occur demo_mount z o with Some z' => may_all z' l | None => false end
  end.
Definition fine_occurs (o : occurs) : Prop :=
  match o with
  | CallsPoll kh p => kh < U64 /\ 0 < z_node p < U64 /\ z_fh p < U64 /\ z_events p < U32
  | Changes _ events => events < U32
  end.
Lemma run_occurred l : forall z l0, occurred demo_mount l0 z -> Forall fine_occurs l -> may_all z l = true ->
  exists z', occur_all z l = Some z' /\ occurred demo_mount (l0 ++ l) z'.
Proof.
  induction l as [|o l IH]; intros z l0 R F A.
  - exists z. rewrite app_nil_r. split; [reflexivity|exact R].
  - cbn [may_all occur_all] in *. apply andb_true_iff in A as [A1 A2]. inversion F as [|? ? F1 F2]; subst.
    destruct (occur demo_mount z o) as [z1|] eqn:D; [|discriminate].
    destruct (IH z1 (l0 ++ [o])) as (z' & D' & R'); auto.
    + econstructor; eauto. destruct o as [kh p|]; cbn [can_occur fine_occurs may_call] in *; [|exact F1].
      destruct F1 as (X1 & X2 & X3 & X4). destruct (z_sleeps z kh); [discriminate|]. auto.
    + rewrite <- app_assoc in R'. eauto.
Qed.
Lemma poll_demo_fine : Forall fine_occurs poll_demo.
Proof. repeat apply Forall_cons; try apply Forall_nil; cbn; unfold U64, U32; repeat split; lia. Qed.
Lemma poll_demo_runs :
  option_map (fun z => (z_woken z, asleep z)) (occur_all all_awake (firstn 3 poll_demo)) = Some ([], [true; true; true]) /\
  option_map (fun z => (z_woken z, asleep z)) (occur_all all_awake poll_demo) = Some ([(100, 1); (101, 4)], [false; false; true]).
Proof. split; vm_compute; reflexivity. Qed.

Lemma poll_demo_half : exists z, occurred demo_mount (firstn 3 poll_demo) z /\ z_woken z = [] /\ asleep z = [true; true; true].
Proof.
  destruct (run_occurred (firstn 3 poll_demo) all_awake [] (occurred_none _)) as (z & D & R).
  - pose proof poll_demo_fine as F. rewrite <- (firstn_skipn 3 poll_demo) in F. now apply Forall_app in F.
  - vm_compute. reflexivity.
  - exists z. split; [exact R|]. pose proof (proj1 poll_demo_runs) as W. rewrite D in W. cbn [option_map] in W.
    split; [exact (f_equal (fun o => match o with Some x => fst x | None => [] end) W)|].
    exact (f_equal (fun o => match o with Some x => snd x | None => [] end) W).
Qed.
Example C84_sleeps_example :
  good_mount demo_mount /\
  exists z p, occurred demo_mount (firstn 3 poll_demo) z /\ z_sleeps z 101 = Some p.
Proof.
  split; [exact demo_mount_good|]. destruct poll_demo_half as (z & R & _ & A).
  unfold asleep in A. cbn [map] in A. destruct (z_sleeps z 101) as [p|] eqn:S; [|discriminate]. eauto.
Qed.
Example C84_steps_example :
  good_mount demo_mount /\
  (exists z, occurred demo_mount (firstn 3 poll_demo) z /\ can_occur z (Changes 2 1)) /\
  exists z, occurred demo_mount poll_demo z /\ z_woken z = [(100, 1); (101, 4)] /\ asleep z = [false; false; true].
Proof.
  split; [exact demo_mount_good|]. split.
  - destruct poll_demo_half as (z & R & _). exists z. split; [exact R|reflexivity].
  - destruct (run_occurred poll_demo all_awake [] (occurred_none _) poll_demo_fine) as (z & D & R); [vm_compute; reflexivity|].
    exists z. split; [exact R|]. pose proof (proj2 poll_demo_runs) as W. rewrite D in W. cbn [option_map] in W.
    split; [exact (f_equal (fun o => match o with Some x => fst x | None => [] end) W)|].
    exact (f_equal (fun o => match o with Some x => snd x | None => [] end) W).
Qed.

Print Assumptions C84_sleeps.
Print Assumptions C84_steps.
