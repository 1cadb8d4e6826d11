(** Theorems about names that Linux remembers: C85 of properties.jsonl. *)

From Verif Require Import Base Kernel CoreModel DecodeModel OpsModel WireSpec OpsRoundTrip DecodeProofs
  ReplyModel ReplySpec ReplyProofs PropDecode PropHeader PropReply
  ServerModel ThreadModel ServerSpec PropServer DeviceSpec PropDevice
  ClientSpec PropClient TakenSpec PropTaken FileSpec PropFile CallSpec PropCalls.
From Coq Require Import List NArith ZArith Bool Lia ZifyBool ZifyNat ZifyN Strings.Byte.
Import ListNotations.
Open Scope list_scope.
Open Scope N_scope.

(** ** A server *)

(** Written with the library: files by name, which Linux may remember for the time
    [d].  The names change without the help of Linux, as on a server elsewhere. *)
Definition names := N -> bytes -> option N.
Definition remote (d : N * N) : PropCalls.handler (St := names) := fun s v =>
  match v with
  | VLookup dir name =>
    (s, match s dir name with
        | Some id => SaidEntry id [SetMode 33188] [SetCacheTimeout d]
        | None => SaidError (-2)
        end)
  | _ => (s, SaidError (-38))
  end.

(** ** Specification *)

Definition is_name (d : N) (n : bytes) (d' : N) (n' : bytes) : bool :=
  (d' =? d) && (if list_eq_dec byte_eq_dec n' n then true else false).
Definition put {A} (f : N -> bytes -> option A) (d : N) (n : bytes) (v : option A) : N -> bytes -> option A :=
  fun d' n' => if is_name d n d' n' then v else f d' n'.
(** In nanoseconds. *)
Definition length_of (d : N * N) : N := fst d * 1000000000 + snd d.

(** The requests so far, the time, the names of the server, what Linux remembers of
    them and until when, and when a name last changed with Linux not told. *)
Record world :=
  { w_k : nat; w_now : N; w_names : names; w_dcache : N -> bytes -> option (N * N); w_silent : N -> bytes -> option N }.
Definition fresh (s : names) : world :=
  {| w_k := 0; w_now := 0; w_names := s; w_dcache := fun _ _ => None; w_silent := fun _ _ => None |}.

Inductive happens :=
| Finds (dir : N) (name : bytes)
| Renamed (dir : N) (name : bytes) (id : option N) (tells : bool)
| Time (d : N).

Section Spec.
Context {E : Endian}.

(** fs/fuse/dir.c [fuse_dentry_revalidate], [fuse_lookup_name] and
    [fuse_change_entry_timeout]: the server is asked when nothing is remembered or
    the time is over.  [fuse_reverse_inval_entry]: what is remembered is dropped. *)
Definition happen (m : mounted) (d : N * N) (w : world) (h : happens) : option (world * option N) :=
  match h with
  | Finds dir name =>
    let ask :=
      match sys m (program_with (remote d)) (w_k w) [] (w_names w) (Lookup dir name) with
      | Some (_, s', Node nd) =>
        Some ({| w_k := Datatypes.S (w_k w); w_now := w_now w; w_names := s';
                 w_dcache := put (w_dcache w) dir name (Some (n_id nd, w_now w + length_of (n_name_valid nd)));
                 w_silent := w_silent w |}, Some (n_id nd))
      | Some (_, s', Error 2) =>
        Some ({| w_k := Datatypes.S (w_k w); w_now := w_now w; w_names := s';
                 w_dcache := put (w_dcache w) dir name None; w_silent := w_silent w |}, None)
      | _ => None
      end in
    match w_dcache w dir name with
    | Some (id, until) => if w_now w <? until then Some (w, Some id) else ask
    | None => ask
    end
  | Renamed dir name id false =>
    Some ({| w_k := w_k w; w_now := w_now w; w_names := put (w_names w) dir name id;
             w_dcache := w_dcache w; w_silent := put (w_silent w) dir name (Some (w_now w)) |}, None)
  | Renamed dir name id true =>
    match b <- notification_encode (InvalidateEntry_new dir name) ;; on_wire b with
    | Ret msg =>
      match device_write (cf_minor (m_cf m)) (fun _ => None) msg with
      | Noticed (EntryStale dir' name') =>
        Some ({| w_k := w_k w; w_now := w_now w; w_names := put (w_names w) dir name id;
                 w_dcache := put (w_dcache w) dir' name' None; w_silent := put (w_silent w) dir name None |}, None)
      | _ => None
      end
    | _ => None
    end
  | Time t =>
    Some ({| w_k := w_k w; w_now := w_now w + t; w_names := w_names w; w_dcache := w_dcache w; w_silent := w_silent w |}, None)
  end.
(** Nodes of files have numbers other than that of the root. *)
Definition file_id (id : N) : Prop := 1 < id < U64.
Definition possible (h : happens) : Prop :=
  match h with
  | Finds dir name => id_ok dir /\ call_name name
  | Renamed dir name id _ => id_ok dir /\ call_name name /\ match id with Some i => file_id i | None => True end
  | Time _ => True
  end.
Inductive happened (m : mounted) (d : N * N) (w : world) : list happens -> world -> Prop :=
| happened_none : happened m d w [] w
| happened_more l w1 h w2 r : happened m d w l w1 -> possible h -> happen m d w1 h = Some (w2, r) ->
    happened m d w (l ++ [h]) w2.
Definition good_names (s : names) : Prop := forall d n i, s d n = Some i -> file_id i.

(** ** Proofs *)

Lemma is_name_spec d n d' n' : is_name d n d' n' = true <-> d' = d /\ n' = n.
Proof.
  unfold is_name. rewrite andb_true_iff, N.eqb_eq. destruct (list_eq_dec byte_eq_dec n' n) as [Q|Q]; split; intros [A B]; auto; try discriminate; contradiction.
Qed.
Lemma is_name_refl d n : is_name d n d n = true.
Proof. now apply is_name_spec. Qed.

(** What the library and Linux make of a lookup. *)
Lemma asked_ok m d w dir name : good_mount m -> duration_ok d -> good_names (w_names w) -> id_ok dir -> call_name name ->
  exists k' res, sys m (program_with (remote d)) (w_k w) [] (w_names w) (Lookup dir name) = Some (k', w_names w, res) /\
  match w_names w dir name with
  | Some id => exists nd, res = Node nd /\ n_id nd = id /\ n_name_valid nd = capped d
  | None => res = Error 2
  end.
Proof.
  intros G D S Hd Hn. assert (C : call_ok (Lookup dir name)) by (split; assumption).
  rewrite (C75_call m (remote d) (w_k w) [] (w_names w) (Lookup dir name) G C).
  - unfold handled_one. cbn [too_old skipped existsb asked remote].
    destruct (w_names w dir name) as [id|] eqn:Q.
    + eexists _, _. split; [reflexivity|]. pose proof (S _ _ _ Q) as [I1 I2].
      exists (described (m_bs m) id [SetMode 33188] [SetCacheTimeout d]). split; [|split; reflexivity].
      cbn [seen]. assert (N1 : (id =? 1) = false) by (apply N.eqb_neq; lia). now rewrite N1.
    + eexists _, _. split; reflexivity.
  - cbn [asked remote snd]. destruct (w_names w dir name) as [id|] eqn:Q; [|cbn [answers]; lia].
    pose proof (S _ _ _ Q) as [I1 I2]. cbn [answers]. split; [|exact I]. unfold entry_ok.
    unfold id_ok. repeat split; try lia; repeat constructor; cbn; try apply D; unfold U32; lia.
Qed.

Definition good_world (d : N * N) (w : world) : Prop :=
  good_names (w_names w) /\
  (forall dir name id e, w_dcache w dir name = Some (id, e) ->
     w_names w dir name = Some id \/
     exists t, w_silent w dir name = Some t /\ e <= t + length_of (capped d)) /\
  (forall dir name t, w_silent w dir name = Some t -> t <= w_now w) /\
  (forall dir name id e, w_dcache w dir name = Some (id, e) -> e <= w_now w + length_of (capped d)).

Lemma good_names_put s d n v : good_names s -> match v with Some i => file_id i | None => True end -> good_names (put s d n v).
Proof. intros S V d' n' i. unfold put. destruct (is_name d n d' n'); [intros ->; exact V|apply S]. Qed.

Lemma happen_ok m d w h : good_mount m -> duration_ok d -> good_world d w -> possible h ->
  exists w' r, happen m d w h = Some (w', r) /\ good_world d w' /\
  match h with
  | Finds dir name =>
    w_names w' = w_names w /\ w_now w' = w_now w /\
    (r = w_names w dir name \/ w_k w' = w_k w /\ exists t, w_silent w dir name = Some t /\ w_now w < t + length_of (capped d)) /\
    (w_k w' <> w_k w -> r = w_names w dir name /\
       forall id, r = Some id -> w_dcache w' dir name = Some (id, w_now w + length_of (capped d))) /\
    (forall dir' name', is_name dir name dir' name' = false -> w_dcache w' dir' name' = w_dcache w dir' name')
  | Renamed dir name id _ => w_names w' = put (w_names w) dir name id /\ w_k w' = w_k w
  | Time t => w_names w' = w_names w /\ w_now w' = w_now w + t /\ w_k w' = w_k w
  end.
Proof.
  intros G D (S & C & T & X) P. destruct h as [dir name|dir name id tells|t]; cbn [possible happen] in *.
  - destruct P as [Hd Hn]. destruct (asked_ok m d w dir name G D S Hd Hn) as (k' & res & Sy & R). rewrite Sy.
    assert (A : exists w' r,
      match res with
      | Node nd =>
        Some ({| w_k := Datatypes.S (w_k w); w_now := w_now w; w_names := w_names w;
                 w_dcache := put (w_dcache w) dir name (Some (n_id nd, w_now w + length_of (n_name_valid nd)));
                 w_silent := w_silent w |}, Some (n_id nd))
      | Error 2 =>
        Some ({| w_k := Datatypes.S (w_k w); w_now := w_now w; w_names := w_names w;
                 w_dcache := put (w_dcache w) dir name None; w_silent := w_silent w |}, None)
      | _ => None
      end = Some (w', r) /\ good_world d w' /\ w_names w' = w_names w /\ w_now w' = w_now w /\ r = w_names w dir name /\
      (forall id, r = Some id -> w_dcache w' dir name = Some (id, w_now w + length_of (capped d))) /\
      (forall dir' name', is_name dir name dir' name' = false -> w_dcache w' dir' name' = w_dcache w dir' name')).
    { destruct (w_names w dir name) as [id|] eqn:Q.
      - destruct R as (nd & -> & Ni & Nv). rewrite Ni, Nv. eexists _, _. split; [reflexivity|].
        split; [|cbn [w_names w_now w_dcache]; repeat split].
        + split; [exact S|]. cbn [w_names w_now w_dcache w_silent]. split; [|split; [exact T|]].
          * intros d' n' i e. unfold put. destruct (is_name dir name d' n') eqn:B; [|apply C].
            apply is_name_spec in B as [-> ->]. intros V. injection V as <- <-. now left.
          * intros d' n' i e. unfold put. destruct (is_name dir name d' n') eqn:B; [|apply X].
            intros V. injection V as <- <-. apply N.le_refl.
        + intros i V. injection V as <-. unfold put. now rewrite is_name_refl.
        + intros d' n' B. unfold put. now rewrite B.
      - subst res. eexists _, _. split; [reflexivity|].
        split; [|cbn [w_names w_now w_dcache]; repeat split].
        + split; [exact S|]. cbn [w_names w_now w_dcache w_silent]. split; [|split; [exact T|]].
          * intros d' n' i e. unfold put. destruct (is_name dir name d' n') eqn:B; [discriminate|apply C].
          * intros d' n' i e. unfold put. destruct (is_name dir name d' n') eqn:B; [discriminate|apply X].
        + discriminate.
        + intros d' n' B. unfold put. now rewrite B. }
    destruct A as (w' & r & A & Gw & A1 & A2 & A3 & A4 & A5).
    assert (Asked : exists w' r,
      match res with
      | Node nd =>
        Some ({| w_k := Datatypes.S (w_k w); w_now := w_now w; w_names := w_names w;
                 w_dcache := put (w_dcache w) dir name (Some (n_id nd, w_now w + length_of (n_name_valid nd)));
                 w_silent := w_silent w |}, Some (n_id nd))
      | Error 2 =>
        Some ({| w_k := Datatypes.S (w_k w); w_now := w_now w; w_names := w_names w;
                 w_dcache := put (w_dcache w) dir name None; w_silent := w_silent w |}, None)
      | _ => None
      end = Some (w', r) /\ good_world d w' /\ w_names w' = w_names w /\ w_now w' = w_now w /\
      (r = w_names w dir name \/ w_k w' = w_k w /\ exists t, w_silent w dir name = Some t /\ w_now w < t + length_of (capped d)) /\
      (w_k w' <> w_k w -> r = w_names w dir name /\
         forall id, r = Some id -> w_dcache w' dir name = Some (id, w_now w + length_of (capped d))) /\
      (forall dir' name', is_name dir name dir' name' = false -> w_dcache w' dir' name' = w_dcache w dir' name')).
    { exists w', r. rewrite A. split; [reflexivity|]. split; [exact Gw|]. split; [exact A1|]. split; [exact A2|].
      split; [left; exact A3|]. split; [intros _; split; assumption|exact A5]. }
    destruct (w_dcache w dir name) as [[id e]|] eqn:Q; [|exact Asked].
    destruct (N.ltb_spec (w_now w) e) as [L|L]; [|exact Asked].
    exists w, (Some id). split; [reflexivity|]. split; [repeat (split; [assumption|]); assumption|].
    split; [reflexivity|]. split; [reflexivity|]. split; [|split; [intros K; now contradiction K|reflexivity]].
    destruct (C _ _ _ _ Q) as [Y|(t & Y & Le)]; [left; congruence|]. right. split; [reflexivity|]. exists t. split; [exact Y|lia].
  - destruct P as (Hd & Hn & Hi). destruct tells.
    + assert (Nl : nlen name <= 1024) by apply Hn. assert (Hu : dir < U64) by apply Hd.
      assert (Nt : noticed (cf_minor (m_cf m)) (fun _ => None) (InvalidateEntry_new dir name)
                     (if nlen name <=? 1024 then Noticed (EntryStale dir name) else Refused ENAMETOOLONG)).
      { apply (C62_notifications (cf_minor (m_cf m)) (fun _ => None) dir 1 1 name None None); unfold U64 in *; lia. }
      apply N.leb_le in Nl. rewrite Nl in Nt.
      destruct Nt as (b & msg & Nb & Nw & Nd). rewrite Nb. cbn [bind]. rewrite Nw, Nd.
      eexists _, _. split; [reflexivity|]. split; [|split; reflexivity].
      split; [cbn [w_names]; now apply good_names_put|]. cbn [w_names w_now w_dcache w_silent].
      split; [|split]; intros d' n'; unfold put; destruct (is_name dir name d' n') eqn:B; try discriminate; [apply C|apply T|apply X].
    + eexists _, _. split; [reflexivity|]. split; [|split; reflexivity].
      split; [cbn [w_names]; now apply good_names_put|]. cbn [w_names w_now w_dcache w_silent].
      split; [|split; [|exact X]]; intros d' n'; unfold put; destruct (is_name dir name d' n') eqn:B.
      * intros i e V. right. exists (w_now w). split; [reflexivity|]. exact (X _ _ _ _ V).
      * apply C.
      * intros t V. injection V as <-. apply N.le_refl.
      * apply T.
  - eexists _, _. split; [reflexivity|]. split; [|repeat split].
    split; [exact S|]. cbn [w_names w_now w_dcache w_silent]. split; [exact C|]. split.
    + intros d' n' u V. specialize (T _ _ _ V). lia.
    + intros d' n' i e V. specialize (X _ _ _ _ V). lia.
Qed.

Lemma happened_good m d w l w' : good_mount m -> duration_ok d -> good_world d w -> happened m d w l w' -> good_world d w'.
Proof.
  intros G D Gw H. induction H as [|l w1 h w2 r H IH P Hp]; [exact Gw|].
  destruct (happen_ok m d w1 h G D IH P) as (w3 & r3 & H3 & G3 & _). rewrite Hp in H3. injection H3 as -> ->. exact G3.
Qed.
Lemma fresh_good d s : good_names s -> good_world d (fresh s).
Proof. intros S. split; [exact S|]. cbn [fresh w_dcache w_silent w_now]. repeat split; discriminate. Qed.

(** Whatever happens next, the server and the library can do their part.  A program
    that looks up a name finds what the server has, or the name has changed with
    Linux not told, not longer ago than the server lets Linux remember names. *)
Theorem C85_finds m d s l w h :
  good_mount m -> duration_ok d -> good_names s -> happened m d (fresh s) l w -> possible h ->
  exists w' r, happen m d w h = Some (w', r) /\ happened m d (fresh s) (l ++ [h]) w' /\
  match h with
  | Finds dir name =>
    w_names w' = w_names w /\
    (r = w_names w dir name \/ exists t, w_silent w dir name = Some t /\ w_now w < t + length_of (capped d))
  | Renamed dir name id _ => w_names w' = put (w_names w) dir name id /\ w_k w' = w_k w
  | Time t => w_now w' = w_now w + t /\ w_k w' = w_k w
  end.
Proof.
  intros G D S H P. pose proof (happened_good _ _ _ _ _ G D (fresh_good d s S) H) as Gw.
  destruct (happen_ok m d w h G D Gw P) as (w' & r & Hp & _ & R). exists w', r. split; [exact Hp|].
  split; [econstructor; eauto|]. destruct h; [|exact R|split; apply R].
  destruct R as (R1 & _ & [R2|[_ R2]] & _); split; auto.
Qed.

(** A name the server was asked for is found again without asking, for the time the
    server said, unless it tells Linux that the name has changed. *)
Theorem C85_remembers m d s l0 w0 dir name w1 id l w2 :
  good_mount m -> duration_ok d -> good_names s -> happened m d (fresh s) l0 w0 -> id_ok dir -> call_name name ->
  happen m d w0 (Finds dir name) = Some (w1, Some id) -> w_k w1 <> w_k w0 ->
  happened m d w1 l w2 -> (forall i, ~ In (Renamed dir name i true) l) ->
  w_now w2 < w_now w0 + length_of (capped d) ->
  happen m d w2 (Finds dir name) = Some (w2, Some id).
Proof.
  intros G D S H0 Hd Hn F K H Nt L.
  pose proof (happened_good _ _ _ _ _ G D (fresh_good d s S) H0) as G0.
  destruct (happen_ok m d w0 (Finds dir name) G D G0 (conj Hd Hn)) as (w1' & r1 & F' & G1 & R1).
  rewrite F in F'. injection F' as <- <-. destruct R1 as (_ & _ & _ & R1 & _). destruct (R1 K) as [_ R2]. specialize (R2 id eq_refl).
  assert (Q : w_now w2 < w_now w0 + length_of (capped d) -> w_dcache w2 dir name = Some (id, w_now w0 + length_of (capped d))).
  { clear L. induction H as [|l w3 h w4 r H IH P Hp]; intros L; [exact R2|].
    pose proof (happened_good _ _ _ _ _ G D G1 H) as G3.
    destruct (happen_ok m d w3 h G D G3 P) as (w4' & r' & Hp' & _ & X). rewrite Hp in Hp'. injection Hp' as <- <-.
    assert (IH' : w_now w3 < w_now w0 + length_of (capped d) -> w_dcache w3 dir name = Some (id, w_now w0 + length_of (capped d))).
    { apply IH. intros i I. apply (Nt i). apply in_app_iff. now left. }
    destruct h as [d' n'|d' n' i' tells|t]; cbn [happen] in Hp.
    - destruct X as (_ & X1 & _ & _ & X2). rewrite X1 in L. specialize (IH' L).
      destruct (is_name d' n' dir name) eqn:B; [|rewrite X2; assumption].
      apply is_name_spec in B as [<- <-]. rewrite IH' in Hp.
      assert (Lt : (w_now w3 <? w_now w0 + length_of (capped d)) = true) by (apply N.ltb_lt; exact L).
      rewrite Lt in Hp. injection Hp as <- _. exact IH'.
    - destruct tells.
      + destruct P as (Pd & Pn & _). assert (Nl : nlen n' <= 1024) by apply Pn. assert (Hu : d' < U64) by apply Pd.
        assert (Nt' : noticed (cf_minor (m_cf m)) (fun _ => None) (InvalidateEntry_new d' n')
                     (if nlen n' <=? 1024 then Noticed (EntryStale d' n') else Refused ENAMETOOLONG)).
        { apply (C62_notifications (cf_minor (m_cf m)) (fun _ => None) d' 1 1 n' None None); unfold U64 in *; lia. }
        apply N.leb_le in Nl. rewrite Nl in Nt'. destruct Nt' as (b & msg & Nb & Nw & Nd).
        rewrite Nb in Hp. cbn [bind] in Hp. rewrite Nw, Nd in Hp. injection Hp as <- _.
        cbn [w_now w_dcache] in *. unfold put. destruct (is_name d' n' dir name) eqn:B; [|exact (IH' L)].
        apply is_name_spec in B as [<- <-]. exfalso. apply (Nt i'). apply in_app_iff. right. now left.
      + injection Hp as <- _. cbn [w_now w_dcache] in *. exact (IH' L).
    - injection Hp as <- _. cbn [w_now w_dcache] in *. apply IH'. lia. }
  cbn [happen]. rewrite (Q L). assert (Lt : (w_now w2 <? w_now w0 + length_of (capped d)) = true) by (apply N.ltb_lt; exact L).
  now rewrite Lt.
Qed.
(** A name nobody has looked up for that time is asked for, and what the server has
    now is found. *)
Theorem C85_expires m d s l0 w1 l w2 dir name :
  good_mount m -> duration_ok d -> good_names s -> happened m d (fresh s) l0 w1 -> id_ok dir -> call_name name ->
  happened m d w1 l w2 -> ~ In (Finds dir name) l -> w_now w1 + length_of (capped d) <= w_now w2 ->
  exists w', happen m d w2 (Finds dir name) = Some (w', w_names w2 dir name) /\ w_k w' = Datatypes.S (w_k w2).
Proof.
  intros G D S H0 Hd Hn H Nf L.
  pose proof (happened_good _ _ _ _ _ G D (fresh_good d s S) H0) as G1.
  pose proof (happened_good _ _ _ _ _ G D G1 H) as G2.
  assert (Q : w_dcache w2 dir name = w_dcache w1 dir name \/ w_dcache w2 dir name = None).
  { clear L G2. induction H as [|l w3 h w4 r H IH P Hp]; [now left|].
    pose proof (happened_good _ _ _ _ _ G D G1 H) as G3.
    assert (IH' := IH (fun I => Nf (in_or_app _ _ _ (or_introl I)))). clear IH.
    destruct h as [d' n'|d' n' i' tells|t].
    - destruct (happen_ok m d w3 (Finds d' n') G D G3 P) as (w4' & r' & Hp' & _ & X).
      rewrite Hp in Hp'. injection Hp' as <- <-. destruct X as (_ & _ & _ & _ & X2).
      destruct (is_name d' n' dir name) eqn:B; [|rewrite X2 by exact B; exact IH'].
      apply is_name_spec in B as [<- <-]. exfalso. apply Nf. apply in_app_iff. right. now left.
    - cbn [happen] in Hp. destruct tells; [|injection Hp as <- _; exact IH'].
      destruct (b <- notification_encode (InvalidateEntry_new d' n') ;; on_wire b) as [msg| | |]; try discriminate Hp.
      destruct (device_write _ _ msg); try discriminate Hp.
      match type of Hp with match ?nt with _ => _ end = _ => destruct nt end; try discriminate Hp.
      injection Hp as <- _. cbn [w_dcache]. unfold put. destruct (is_name _ _ dir name); [now right|exact IH'].
    - cbn [happen] in Hp. injection Hp as <- _. exact IH'. }
  assert (Fr : match w_dcache w2 dir name with Some (_, e) => (w_now w2 <? e) = false | None => True end).
  { destruct (w_dcache w2 dir name) as [[id e]|]; [|exact I]. destruct Q as [Q|Q]; [|discriminate].
    destruct G1 as (_ & _ & _ & X). symmetry in Q. specialize (X _ _ _ _ Q). apply N.ltb_ge. lia. }
  destruct G2 as (S2 & _). destruct (asked_ok m d w2 dir name G D S2 Hd Hn) as (k' & res & Sy & R).
  cbn [happen]. rewrite Sy. clear - Fr R.
  destruct (w_dcache w2 dir name) as [[i e]|]; [rewrite Fr|]; destruct (w_names w2 dir name) as [id|];
    try (destruct R as (nd & -> & <- & _)); try subst res; eexists; split; reflexivity.
Qed.
End Spec.

(** ** Examples *)

Local Instance LE : Endian := false.

(** The name "a" is node 2, and may be remembered for a second.  It becomes node 3
    and Linux is not told: programs find node 2 until the second is over.  It
    becomes node 4 and Linux is told: programs find node 4 at once. *)
Definition one_second : N * N := (1, 0).
Definition start : names := fun d n => if is_name 1 [x61] d n then Some 2 else None.
Definition cache_demo : list happens :=
  [Finds 1 [x61]; Renamed 1 [x61] (Some 3) false; Time 999999999; Finds 1 [x61]; Time 1; Finds 1 [x61];
   Renamed 1 [x61] (Some 4) true; Finds 1 [x61]; Finds 1 [x62]].
Fixpoint happen_all (w : world) (l : list happens) : option (world * list (option N)) :=
  match l with
  | [] => Some (w, [])
  | h :: l =>
    match happen demo_mount one_second w h with
    | Some (w', r) => match happen_all w' l with Some (w2, rs) => Some (w2, r :: rs) | None => None end
    | None => None
    end
  end.
Lemma run_happened l : forall w0 w l0, happened demo_mount one_second w0 l0 w -> Forall possible l ->
  forall w' rs, happen_all w l = Some (w', rs) -> happened demo_mount one_second w0 (l0 ++ l) w'.
Proof.
  induction l as [|h l IH]; intros w0 w l0 H F w' rs R; cbn [happen_all] in R.
  - injection R as <- _. now rewrite app_nil_r.
  - inversion F as [|? ? F1 F2]; subst. destruct (happen demo_mount one_second w h) as [[w1 r]|] eqn:Hp; [|discriminate].
    destruct (happen_all w1 l) as [[w2 rs2]|] eqn:R2; [|discriminate]. injection R as <- _.
    change (l0 ++ h :: l) with (l0 ++ [h] ++ l). rewrite app_assoc.
    apply (IH w0 w1 (l0 ++ [h])) with (rs := rs2); [econstructor; eauto|exact F2|exact R2].
Qed.
Lemma demo_name b : b <> x00 -> b <> x2f -> call_name [b].
Proof.
  intros H0 H1. split; [|cbn; lia]. repeat split; try discriminate; try (intros [Q|[]]; congruence).
Qed.
Lemma cache_demo_possible : Forall possible cache_demo.
Proof.
  repeat apply Forall_cons; try apply Forall_nil; cbn [possible]; try exact I; repeat apply conj; try reflexivity;
    try (apply demo_name; discriminate).
Qed.
Lemma start_good : good_names start.
Proof. intros d n i. unfold start. destruct (is_name 1 [x61] d n); [|discriminate]. intros Q. injection Q as <-. split; reflexivity. Qed.
Lemma cache_demo_runs :
  option_map (fun x => (snd x, w_k (fst x))) (happen_all (fresh start) cache_demo) =
  Some ([Some 2; None; None; Some 2; None; Some 3; None; Some 4; None], 4%nat).
Proof. vm_compute. reflexivity. Qed.

Example C85_finds_example :
  good_mount demo_mount /\ duration_ok one_second /\ good_names start /\
  exists w, happened demo_mount one_second (fresh start) (firstn 3 cache_demo) w /\ possible (Finds 1 [x61]) /\
    option_map snd (happen demo_mount one_second w (Finds 1 [x61])) = Some (Some 2).
Proof.
  split; [exact demo_mount_good|]. split; [split; reflexivity|]. split; [exact start_good|].
  destruct (happen_all (fresh start) (firstn 3 cache_demo)) as [[w rs]|] eqn:R; [|vm_compute in R; discriminate].
  exists w. split; [|split].
  - apply (run_happened (firstn 3 cache_demo) (fresh start) (fresh start) []) with (rs := rs); [constructor| |exact R].
    pose proof cache_demo_possible as F. rewrite <- (firstn_skipn 3 cache_demo) in F. now apply Forall_app in F.
  - split; [split; reflexivity|apply demo_name; discriminate].
  - assert (V : match happen_all (fresh start) (firstn 3 cache_demo) with
                | Some (w, _) => option_map snd (happen demo_mount one_second w (Finds 1 [x61]))
                | None => None end = Some (Some 2)) by (vm_compute; reflexivity).
    rewrite R in V. exact V.
Qed.
Example C85_remembers_example :
  exists w1 w2, happened demo_mount one_second (fresh start) [] (fresh start) /\
    id_ok 1 /\ call_name [x61] /\
    happen demo_mount one_second (fresh start) (Finds 1 [x61]) = Some (w1, Some 2) /\ w_k w1 <> w_k (fresh start) /\
    happened demo_mount one_second w1 [Renamed 1 [x61] (Some 3) false; Time 999999999] w2 /\
    (forall i, ~ In (Renamed 1 [x61] i true) [Renamed 1 [x61] (Some 3) false; Time 999999999]) /\
    w_now w2 < w_now (fresh start) + length_of (capped one_second).
Proof.
  destruct (happen demo_mount one_second (fresh start) (Finds 1 [x61])) as [[w1 r]|] eqn:R; [|vm_compute in R; discriminate].
  assert (V : match happen demo_mount one_second (fresh start) (Finds 1 [x61]) with
              | Some (w, r) => Some (w_k w, w_now w, r) | None => None end = Some (1%nat, 0, Some 2)) by (vm_compute; reflexivity).
  rewrite R in V. injection V as V1 V2 V3. subst r.
  eexists w1, _. split; [constructor|]. split; [split; reflexivity|]. split; [apply demo_name; discriminate|].
  split; [reflexivity|]. split; [rewrite V1; discriminate|]. split.
  { apply (run_happened [Renamed 1 [x61] (Some 3) false; Time 999999999] w1 w1 []) with (rs := [None; None]);
      [constructor| |reflexivity].
    pose proof cache_demo_possible as F. rewrite <- (firstn_skipn 1 cache_demo) in F. apply Forall_app in F as [_ F].
    rewrite <- (firstn_skipn 2 (skipn 1 cache_demo)) in F. now apply Forall_app in F. }
  split; [intros i [Q|[Q|[]]]; discriminate|]. cbn [w_now]. rewrite V2. reflexivity.
Qed.

Example C85_expires_example :
  exists w1 w2, happened demo_mount one_second (fresh start) [Finds 1 [x61]] w1 /\
    happened demo_mount one_second w1 [Renamed 1 [x61] (Some 3) false; Time 1000000000] w2 /\
    ~ In (Finds 1 [x61]) [Renamed 1 [x61] (Some 3) false; Time 1000000000] /\
    w_now w1 + length_of (capped one_second) <= w_now w2 /\ w_names w2 1 [x61] = Some 3 /\
    exists e, w_dcache w2 1 [x61] = Some (2, e).
Proof.
  assert (P1 : possible (Finds 1 [x61])) by (split; [split; reflexivity|apply demo_name; discriminate]).
  destruct (happen demo_mount one_second (fresh start) (Finds 1 [x61])) as [[w1 r]|] eqn:R; [|vm_compute in R; discriminate].
  assert (V : match happen demo_mount one_second (fresh start) (Finds 1 [x61]) with
              | Some (w, r) => Some (w_now w, w_dcache w 1 [x61]) | None => None end = Some (0, Some (2, 1000000000)))
    by (vm_compute; reflexivity).
  rewrite R in V. injection V as V1 V2.
  eexists w1, _. split; [exact (happened_more _ _ _ [] _ _ _ _ (happened_none _ _ _) P1 R)|]. split.
  { apply (run_happened [Renamed 1 [x61] (Some 3) false; Time 1000000000] w1 w1 []) with (rs := [None; None]);
      [constructor| |reflexivity].
    repeat apply Forall_cons; try apply Forall_nil; cbn [possible]; try exact I; repeat apply conj; try reflexivity;
      try (apply demo_name; discriminate). }
  split; [intros [Q|[Q|[]]]; discriminate|]. cbn [w_now w_names w_dcache]. rewrite V1, V2.
  split; [discriminate|]. split; [reflexivity|eauto].
Qed.

Print Assumptions C85_finds.
Print Assumptions C85_remembers.
Print Assumptions C85_expires.
