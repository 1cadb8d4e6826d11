(** Theorems about attributes that Linux remembers: C86 of properties.jsonl. *)

From Verif Require Import Base Kernel CoreModel DecodeModel OpsModel WireSpec OpsRoundTrip DecodeProofs
  ReplyModel ReplySpec ReplyProofs PropDecode PropHeader PropReply
  ServerModel ThreadModel ServerSpec PropServer DeviceSpec PropDevice
  ClientSpec PropClient TakenSpec PropTaken FileSpec PropFile CallSpec PropCalls.
From Coq Require Import List NArith ZArith Bool Lia ZifyBool ZifyNat ZifyN Strings.Byte.
Import ListNotations.
Open Scope list_scope.
Open Scope N_scope.

(** ** A server *)

(** Written with the library: files by node with their sizes, which Linux may
    remember for the time [d].  They change without the help of Linux. *)
Definition sizes := N -> N.
Definition remote (d : N * N) : PropCalls.handler (St := sizes) := fun s v =>
  match v with
  | VGetattr node _ => (s, SaidAttr node [SetMode 33188; SetSize (s node)] (fst d) (snd d))
  | _ => (s, SaidError (-38))
  end.

(** ** Specification *)

Definition put {A} (f : N -> A) (n : N) (v : A) : N -> A := fun n' => if n' =? n then v else f n'.
(** In nanoseconds. *)
Definition length_of (d : N * N) : N := fst d * 1000000000 + snd d.

(** The requests so far, the time, the sizes at the server, what Linux remembers of
    them and until when, and when a file last changed with Linux not told. *)
Record world :=
  { w_k : nat; w_now : N; w_sizes : sizes; w_acache : N -> option (N * N); w_silent : N -> option N }.
Definition fresh (s : sizes) : world :=
  {| w_k := 0; w_now := 0; w_sizes := s; w_acache := fun _ => None; w_silent := fun _ => None |}.

Inductive happens := Stats (node : N) | Resized (node size : N) (tells : bool) | Time (d : N).

Section Spec.
Context {E : Endian}.

(** fs/fuse/dir.c [fuse_update_get_attr] and fs/fuse/inode.c
    [fuse_change_attributes]: the server is asked when nothing is remembered or the
    time is over.  [fuse_reverse_inval_inode]: what is remembered is dropped. *)
Definition happen (m : mounted) (d : N * N) (w : world) (h : happens) : option (world * option N) :=
  match h with
  | Stats node =>
    let ask :=
      match sys m (program_with (remote d)) (w_k w) [] (w_sizes w) (Stat node 32768) with
      | Some (_, s', Attributes st valid) =>
        Some ({| w_k := Datatypes.S (w_k w); w_now := w_now w; w_sizes := s';
                 w_acache := put (w_acache w) node (Some (st_size st, w_now w + length_of valid));
                 w_silent := w_silent w |}, Some (st_size st))
      | _ => None
      end in
    match w_acache w node with
    | Some (size, until) => if w_now w <? until then Some (w, Some size) else ask
    | None => ask
    end
  | Resized node size false =>
    Some ({| w_k := w_k w; w_now := w_now w; w_sizes := put (w_sizes w) node size;
             w_acache := w_acache w; w_silent := put (w_silent w) node (Some (w_now w)) |}, None)
  | Resized node size true =>
    match b <- notification_encode (InvalidateInode_new node) ;; on_wire b with
    | Ret msg =>
      match device_write (cf_minor (m_cf m)) (fun _ => None) msg with
      | Noticed (InodeStale node' _ _) =>
        Some ({| w_k := w_k w; w_now := w_now w; w_sizes := put (w_sizes w) node size;
                 w_acache := put (w_acache w) node' None; w_silent := put (w_silent w) node None |}, None)
      | _ => None
      end
    | _ => None
    end
  | Time t =>
    Some ({| w_k := w_k w; w_now := w_now w + t; w_sizes := w_sizes w; w_acache := w_acache w; w_silent := w_silent w |}, None)
  end.
(** Linux refuses larger files. *)
Definition possible (h : happens) : Prop :=
  match h with
  | Stats node => id_ok node
  | Resized node size _ => id_ok node /\ size < 2 ^ 63
  | Time _ => True
  end.
Inductive happened (m : mounted) (d : N * N) (w : world) : list happens -> world -> Prop :=
| happened_none : happened m d w [] w
| happened_more l w1 h w2 r : happened m d w l w1 -> possible h -> happen m d w1 h = Some (w2, r) ->
    happened m d w (l ++ [h]) w2.
Definition good_sizes (s : sizes) : Prop := forall n, s n < 2 ^ 63.

(** ** Proofs *)

(** What the library and Linux make of a stat(2). *)
Lemma asked_ok m d w node : good_mount m -> duration_ok d -> good_sizes (w_sizes w) -> id_ok node ->
  exists k' st, sys m (program_with (remote d)) (w_k w) [] (w_sizes w) (Stat node 32768) =
    Some (k', w_sizes w, Attributes st d) /\ st_size st = w_sizes w node.
Proof.
  intros G D S Hn. assert (C : call_ok (Stat node 32768)) by (split; [exact Hn|cbn; tauto]).
  destruct D as [D1 D2]. specialize (S node).
  rewrite (C75_call m (remote d) (w_k w) [] (w_sizes w) (Stat node 32768) G C).
  - unfold handled_one. cbn [too_old skipped existsb asked remote].
    exists [], (told (m_bs m) node [SetMode 33188; SetSize (w_sizes w node)]). split; [|reflexivity].
    cbn [seen]. assert (Sn : sane (told (m_bs m) node [SetMode 33188; SetSize (w_sizes w node)]) (node_types (Stat node 32768)) = true).
    { unfold sane. apply andb_true_iff. split; [reflexivity|]. apply N.ltb_lt. exact S. }
    rewrite Sn. now destruct d.
  - cbn [asked remote snd answers]. split; [exact Hn|]. split; [|repeat split; assumption].
    apply Forall_cons; [reflexivity|]. apply Forall_cons; [|apply Forall_nil]. cbn [attr_op_ok]. unfold U64.
    change (2 ^ 63) with 9223372036854775808 in S. lia.
Qed.
Lemma told_ok m node : id_ok node -> exists b msg a c,
  notification_encode (InvalidateInode_new node) = Ret b /\ on_wire b = Ret msg /\
  device_write (cf_minor (m_cf m)) (fun _ => None) msg = Noticed (InodeStale node a c).
Proof.
  intros [_ Hu].
  assert (Nt : noticed (cf_minor (m_cf m)) (fun _ => None)
                 (InvalidateInode_set_size None (InvalidateInode_set_offset (Some 0) (InvalidateInode_new node)))
                 (Noticed (InodeStale node 0%Z 0%Z))).
  { apply (C62_notifications (cf_minor (m_cf m)) (fun _ => None) 1 node 1 [] (Some 0) None); unfold U64 in *; cbn; lia. }
  destruct Nt as (b & msg & Nb & Nw & Nd). exists b, msg, 0%Z, 0%Z. split; [exact Nb|]. split; assumption.
Qed.

Definition good_world (d : N * N) (w : world) : Prop :=
  good_sizes (w_sizes w) /\
  (forall node size e, w_acache w node = Some (size, e) ->
     w_sizes w node = size \/ exists t, w_silent w node = Some t /\ e <= t + length_of d) /\
  (forall node size e, w_acache w node = Some (size, e) -> e <= w_now w + length_of d).

Lemma good_sizes_put s n v : good_sizes s -> v < 2 ^ 63 -> good_sizes (put s n v).
Proof. intros S V n'. unfold put. destruct (n' =? n); [exact V|apply S]. Qed.

(** What each step does. *)
Lemma happen_ok m d w h : good_mount m -> duration_ok d -> good_world d w -> possible h ->
  exists w' r, happen m d w h = Some (w', r) /\ good_world d w' /\
  match h with
  | Stats node =>
    w_sizes w' = w_sizes w /\ w_now w' = w_now w /\
    (w' = w /\ (exists size e, w_acache w node = Some (size, e) /\ w_now w < e /\ r = Some size) \/
     w_k w' = Datatypes.S (w_k w) /\ r = Some (w_sizes w node) /\
     (forall size e, w_acache w node = Some (size, e) -> e <= w_now w) /\
     w_acache w' = put (w_acache w) node (Some (w_sizes w node, w_now w + length_of d)))
  | Resized node size tells =>
    w_sizes w' = put (w_sizes w) node size /\ w_k w' = w_k w /\ w_now w' = w_now w /\
    w_acache w' = (if tells then put (w_acache w) node None else w_acache w)
  | Time t => w_sizes w' = w_sizes w /\ w_now w' = w_now w + t /\ w_k w' = w_k w /\ w_acache w' = w_acache w
  end.
Proof.
  intros G D (S & C & X) P. destruct h as [node|node size tells|t]; cbn [possible happen] in *.
  - destruct (asked_ok m d w node G D S P) as (k' & st & Sy & R). rewrite Sy, R.
    set (w1 := {| w_k := Datatypes.S (w_k w); w_now := w_now w; w_sizes := w_sizes w;
                  w_acache := put (w_acache w) node (Some (w_sizes w node, w_now w + length_of d));
                  w_silent := w_silent w |}).
    assert (G1 : good_world d w1).
    { split; [exact S|]. unfold w1. cbn [w_sizes w_now w_acache w_silent]. unfold put.
      split; intros n s e; destruct (N.eqb_spec n node) as [->|]; [|apply C| |apply X]; intros V; injection V as <- <-;
        [now left|apply N.le_refl]. }
    destruct (w_acache w node) as [[size e]|] eqn:Q.
    + destruct (N.ltb_spec (w_now w) e) as [L|L].
      * exists w, (Some size). split; [reflexivity|]. split; [split; [exact S|split; assumption]|].
        split; [reflexivity|]. split; [reflexivity|]. left. split; [reflexivity|]. eauto.
      * exists w1, (Some (w_sizes w node)). split; [reflexivity|]. split; [exact G1|]. split; [reflexivity|]. split; [reflexivity|].
        right. split; [reflexivity|]. split; [reflexivity|]. split; [|reflexivity]. intros s e' V. injection V as <- <-. exact L.
    + exists w1, (Some (w_sizes w node)). split; [reflexivity|]. split; [exact G1|]. split; [reflexivity|]. split; [reflexivity|].
      right. split; [reflexivity|]. split; [reflexivity|]. split; [discriminate|reflexivity].
  - destruct P as [Hn Hs]. destruct tells.
    + destruct (told_ok m node Hn) as (b & msg & x & y & Nb & Nw & Nd). rewrite Nb. cbn [bind]. rewrite Nw, Nd.
      eexists _, _. split; [reflexivity|]. split; [|repeat split].
      split; [now apply good_sizes_put|]. cbn [w_sizes w_now w_acache w_silent]. unfold put.
      split; intros n s e; destruct (N.eqb_spec n node) as [->|]; try discriminate; [apply C|apply X].
    + eexists _, _. split; [reflexivity|]. split; [|repeat split].
      split; [now apply good_sizes_put|]. cbn [w_sizes w_now w_acache w_silent]. split; [|exact X]. unfold put.
      intros n s e V. destruct (N.eqb_spec n node) as [->|]; [|exact (C _ _ _ V)].
      right. exists (w_now w). split; [reflexivity|exact (X _ _ _ V)].
  - eexists _, _. split; [reflexivity|]. split; [|repeat split].
    split; [exact S|]. cbn [w_sizes w_now w_acache w_silent]. split; [exact C|]. intros n s e V. specialize (X _ _ _ V). lia.
Qed.

Lemma happened_good m d w l w' : good_mount m -> duration_ok d -> good_world d w -> happened m d w l w' -> good_world d w'.
Proof.
  intros G D Gw H. induction H as [|l w1 h w2 r H IH P Hp]; [exact Gw|].
  destruct (happen_ok m d w1 h G D IH P) as (w3 & r3 & H3 & G3 & _). rewrite Hp in H3. injection H3 as -> ->. exact G3.
Qed.
Lemma fresh_good d s : good_sizes s -> good_world d (fresh s).
Proof. intros S. split; [exact S|]. cbn [fresh w_acache]. split; discriminate. Qed.

(** Whatever happens next, the server and the library can do their part.  stat(2)
    reports the size that the server has, or the file has changed with Linux not
    told, not longer ago than the server lets Linux remember attributes. *)
Theorem C86_stats m d s l w h :
  good_mount m -> duration_ok d -> good_sizes s -> happened m d (fresh s) l w -> possible h ->
  exists w' r, happen m d w h = Some (w', r) /\ happened m d (fresh s) (l ++ [h]) w' /\
  match h with
  | Stats node =>
    w_sizes w' = w_sizes w /\
    (r = Some (w_sizes w node) \/ exists t, w_silent w node = Some t /\ w_now w < t + length_of d)
  | Resized node size _ => w_sizes w' = put (w_sizes w) node size /\ w_k w' = w_k w
  | Time t => w_now w' = w_now w + t /\ w_k w' = w_k w
  end.
Proof.
  intros G D S H P. pose proof (happened_good _ _ _ _ _ G D (fresh_good d s S) H) as Gw.
  destruct (happen_ok m d w h G D Gw P) as (w' & r & Hp & _ & R). exists w', r. split; [exact Hp|].
  split; [econstructor; eauto|]. destruct h as [node|node size tells|t]; [|split; apply R|split; apply R].
  destruct R as (R1 & _ & R). split; [exact R1|]. destruct R as [(_ & size & e & Q & L & ->)|(_ & -> & _)]; [|now left].
  destruct Gw as (_ & C & _). destruct (C _ _ _ Q) as [Y|(t & Y & Le)]; [left; now rewrite Y|].
  right. exists t. split; [exact Y|lia].
Qed.

(** The size for which the server was asked is reported without asking again, for the
    time the server said, unless it tells Linux that the file has changed. *)
Theorem C86_remembers m d s l0 w0 node w1 size l w2 :
  good_mount m -> duration_ok d -> good_sizes s -> happened m d (fresh s) l0 w0 -> id_ok node ->
  happen m d w0 (Stats node) = Some (w1, Some size) -> w_k w1 <> w_k w0 ->
  happened m d w1 l w2 -> (forall i, ~ In (Resized node i true) l) ->
  w_now w2 < w_now w0 + length_of d ->
  happen m d w2 (Stats node) = Some (w2, Some size).
Proof.
  intros G D S H0 Hn F K H Nt L.
  pose proof (happened_good _ _ _ _ _ G D (fresh_good d s S) H0) as G0.
  destruct (happen_ok m d w0 (Stats node) G D G0 Hn) as (w1' & r1 & F' & G1 & R1).
  rewrite F in F'. injection F' as <- <-. destruct R1 as (_ & _ & [(-> & _)|(_ & Rs & _ & R2)]); [now contradiction K|].
  injection Rs as ->.
  assert (Q : w_now w2 < w_now w0 + length_of d ->
    w_acache w2 node = Some (w_sizes w0 node, w_now w0 + length_of d)).
  { clear L. induction H as [|l w3 h w4 r H IH P Hp]; intros L; [rewrite R2; unfold put; now rewrite N.eqb_refl|].
    pose proof (happened_good _ _ _ _ _ G D G1 H) as G3.
    destruct (happen_ok m d w3 h G D G3 P) as (w4' & r' & Hp' & _ & X). rewrite Hp in Hp'. injection Hp' as <- <-.
    assert (IH' := IH (fun i I => Nt i (in_or_app _ _ _ (or_introl I)))). clear IH.
    destruct h as [n'|n' i' tells|t].
    - destruct X as (_ & X1 & X). rewrite X1 in L. specialize (IH' L).
      destruct X as [(-> & _)|(_ & _ & X2 & X3)]; [exact IH'|]. rewrite X3. unfold put.
      destruct (N.eqb_spec node n') as [<-|]; [|exact IH']. specialize (X2 _ _ IH'). lia.
    - destruct X as (_ & _ & X1 & X2). rewrite X1 in L. specialize (IH' L). rewrite X2. destruct tells; [|exact IH'].
      unfold put. destruct (N.eqb_spec node n') as [<-|]; [|exact IH'].
      exfalso. apply (Nt i'). apply in_app_iff. right. now left.
    - destruct X as (_ & X1 & _ & X2). rewrite X2. apply IH'. lia. }
  cbn [happen]. rewrite (Q L). assert (Lt : (w_now w2 <? w_now w0 + length_of d) = true) by (apply N.ltb_lt; exact L).
  now rewrite Lt.
Qed.

(** When nobody has used stat(2) on a file for that time the server is asked. *)
Theorem C86_expires m d s l0 w1 l w2 node :
  good_mount m -> duration_ok d -> good_sizes s -> happened m d (fresh s) l0 w1 -> id_ok node ->
  happened m d w1 l w2 -> ~ In (Stats node) l -> w_now w1 + length_of d <= w_now w2 ->
  exists w', happen m d w2 (Stats node) = Some (w', Some (w_sizes w2 node)) /\ w_k w' = Datatypes.S (w_k w2).
Proof.
  intros G D S H0 Hn H Nf L.
  pose proof (happened_good _ _ _ _ _ G D (fresh_good d s S) H0) as G1.
  pose proof (happened_good _ _ _ _ _ G D G1 H) as G2.
  assert (Q : w_acache w2 node = w_acache w1 node \/ w_acache w2 node = None).
  { clear L G2. induction H as [|l w3 h w4 r H IH P Hp]; [now left|].
    pose proof (happened_good _ _ _ _ _ G D G1 H) as G3.
    destruct (happen_ok m d w3 h G D G3 P) as (w4' & r' & Hp' & _ & X). rewrite Hp in Hp'. injection Hp' as <- <-.
    assert (IH' := IH (fun I => Nf (in_or_app _ _ _ (or_introl I)))). clear IH.
    destruct h as [n'|n' i' tells|t].
    - destruct X as (_ & _ & [(-> & _)|(_ & _ & _ & X3)]); [exact IH'|]. rewrite X3. unfold put.
      destruct (N.eqb_spec node n') as [<-|]; [|exact IH']. exfalso. apply Nf. apply in_app_iff. right. now left.
    - destruct X as (_ & _ & _ & X2). rewrite X2. destruct tells; [|exact IH']. unfold put.
      destruct (node =? n'); [now right|exact IH'].
    - destruct X as (_ & _ & _ & X2). rewrite X2. exact IH'. }
  destruct (happen_ok m d w2 (Stats node) G D G2 Hn) as (w' & r & Hp & _ & R). exists w'.
  destruct R as (_ & _ & [(_ & size & e & V & Le & _)|(K & -> & _)]); [|split; assumption].
  exfalso. destruct Q as [Q|Q]; [|congruence]. rewrite V in Q. symmetry in Q. destruct G1 as (_ & _ & X). specialize (X _ _ _ Q). lia.
Qed.
End Spec.

(** ** Examples *)

Local Instance LE : Endian := false.

(** Node 2 has ten bytes, and this may be remembered for a second.  It grows and Linux
    is not told: programs see ten bytes until the second is over.  It grows again
    and Linux is told: programs see it at once. *)
Definition one_second : N * N := (1, 0).
Definition start : sizes := fun n => if n =? 2 then 10 else 0.
Definition attr_demo : list happens :=
  [Stats 2; Resized 2 20 false; Time 999999999; Stats 2; Time 1; Stats 2; Resized 2 30 true; Stats 2; Stats 3].
Fixpoint happen_all (w : world) (l : list happens) : option (world * list (option N)) :=
  match l with
  | [] => Some (w, [])
  | h :: l =>
    match happen demo_mount one_second w h with
    | Some (w', r) => match happen_all w' l with Some (w2, rs) => Some (w2, r :: rs) | None => None end
    | None => None
    end
  end.
Lemma run_happened l : forall w0 w l0, happened demo_mount one_second w0 l0 w -> Forall possible l ->
  forall w' rs, happen_all w l = Some (w', rs) -> happened demo_mount one_second w0 (l0 ++ l) w'.
Proof.
  induction l as [|h l IH]; intros w0 w l0 H F w' rs R; cbn [happen_all] in R.
  - injection R as <- _. now rewrite app_nil_r.
  - inversion F as [|? ? F1 F2]; subst. destruct (happen demo_mount one_second w h) as [[w1 r]|] eqn:Hp; [|discriminate].
    destruct (happen_all w1 l) as [[w2 rs2]|] eqn:R2; [|discriminate]. injection R as <- _.
    change (l0 ++ h :: l) with (l0 ++ [h] ++ l). rewrite app_assoc.
    apply (IH w0 w1 (l0 ++ [h])) with (rs := rs2); [econstructor; eauto|exact F2|exact R2].
Qed.
Lemma attr_demo_possible : Forall possible attr_demo.
Proof. repeat apply Forall_cons; try apply Forall_nil; cbn [possible]; try exact I; repeat apply conj; reflexivity. Qed.
Lemma start_good : good_sizes start.
Proof. intros n. unfold start. destruct (n =? 2); reflexivity. Qed.
Lemma attr_demo_runs :
  option_map (fun x => (snd x, w_k (fst x))) (happen_all (fresh start) attr_demo) =
  Some ([Some 10; None; None; Some 10; None; Some 20; None; Some 30; Some 0], 4%nat).
Proof. vm_compute. reflexivity. Qed.
Lemma attr_demo_first : exists w1, happen demo_mount one_second (fresh start) (Stats 2) = Some (w1, Some 10) /\
  w_k w1 = 1%nat /\ w_now w1 = 0 /\ w_acache w1 2 = Some (10, 1000000000).
Proof.
  destruct (happen demo_mount one_second (fresh start) (Stats 2)) as [[w1 r]|] eqn:R; [|vm_compute in R; discriminate].
  assert (V : match happen demo_mount one_second (fresh start) (Stats 2) with
              | Some (w, r) => Some (w_k w, w_now w, w_acache w 2, r) | None => None end =
              Some (1%nat, 0, Some (10, 1000000000), Some 10)) by (vm_compute; reflexivity).
  rewrite R in V. injection V as V1 V2 V3 V4. subst r. eauto.
Qed.

Example C86_stats_example :
  good_mount demo_mount /\ duration_ok one_second /\ good_sizes start /\
  exists w, happened demo_mount one_second (fresh start) (firstn 3 attr_demo) w /\ possible (Stats 2) /\
    option_map snd (happen demo_mount one_second w (Stats 2)) = Some (Some 10).
Proof.
  split; [exact demo_mount_good|]. split; [split; reflexivity|]. split; [exact start_good|].
  destruct (happen_all (fresh start) (firstn 3 attr_demo)) as [[w rs]|] eqn:R; [|vm_compute in R; discriminate].
  exists w. split; [|split].
  - apply (run_happened (firstn 3 attr_demo) (fresh start) (fresh start) []) with (rs := rs); [constructor| |exact R].
    pose proof attr_demo_possible as F. rewrite <- (firstn_skipn 3 attr_demo) in F. now apply Forall_app in F.
  - split; reflexivity.
  - assert (V : match happen_all (fresh start) (firstn 3 attr_demo) with
                | Some (w, _) => option_map snd (happen demo_mount one_second w (Stats 2))
                | None => None end = Some (Some 10)) by (vm_compute; reflexivity).
    rewrite R in V. exact V.
Qed.
Example C86_remembers_example :
  exists w1 w2, happened demo_mount one_second (fresh start) [] (fresh start) /\ id_ok 2 /\
    happen demo_mount one_second (fresh start) (Stats 2) = Some (w1, Some 10) /\ w_k w1 <> w_k (fresh start) /\
    happened demo_mount one_second w1 [Resized 2 20 false; Time 999999999] w2 /\
    (forall i, ~ In (Resized 2 i true) [Resized 2 20 false; Time 999999999]) /\
    w_now w2 < w_now (fresh start) + length_of one_second.
Proof.
  destruct attr_demo_first as (w1 & R & V1 & V2 & V3).
  eexists w1, _. split; [constructor|]. split; [split; reflexivity|].
  split; [exact R|]. split; [rewrite V1; discriminate|]. split.
  { apply (run_happened [Resized 2 20 false; Time 999999999] w1 w1 []) with (rs := [None; None]); [constructor| |reflexivity].
    repeat apply Forall_cons; try apply Forall_nil; cbn [possible]; try exact I; repeat apply conj; reflexivity. }
  split; [intros i [Q|[Q|[]]]; discriminate|]. cbn [w_now]. rewrite V2. reflexivity.
Qed.
Example C86_expires_example :
  exists w1 w2, happened demo_mount one_second (fresh start) [Stats 2] w1 /\ id_ok 2 /\
    happened demo_mount one_second w1 [Resized 2 20 false; Time 1000000000] w2 /\
    ~ In (Stats 2) [Resized 2 20 false; Time 1000000000] /\
    w_now w1 + length_of one_second <= w_now w2 /\ w_sizes w2 2 = 20 /\
    exists e, w_acache w2 2 = Some (10, e).
Proof.
  destruct attr_demo_first as (w1 & R & V1 & V2 & V3). assert (P1 : possible (Stats 2)) by (split; reflexivity).
  eexists w1, _. split; [exact (happened_more _ _ _ [] _ _ _ _ (happened_none _ _ _) P1 R)|]. split; [split; reflexivity|]. split.
  { apply (run_happened [Resized 2 20 false; Time 1000000000] w1 w1 []) with (rs := [None; None]); [constructor| |reflexivity].
    repeat apply Forall_cons; try apply Forall_nil; cbn [possible]; try exact I; repeat apply conj; reflexivity. }
  split; [intros [Q|[Q|[]]]; discriminate|]. cbn [w_now w_sizes w_acache]. rewrite V2, V3.
  split; [discriminate|]. split; [reflexivity|eauto].
Qed.

Print Assumptions C86_stats.
Print Assumptions C86_remembers.
Print Assumptions C86_expires.
