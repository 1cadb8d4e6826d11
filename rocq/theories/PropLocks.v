(** Theorems about record locks of programs: C82 of properties.jsonl. *)

From Verif Require Import Base Kernel CoreModel DecodeModel OpsModel WireSpec OpsRoundTrip DecodeProofs
  ReplyModel ReplySpec ReplyProofs PropDecode PropHeader PropReply
  ServerModel ThreadModel ServerSpec PropServer DeviceSpec PropDevice
  ClientSpec PropClient TakenSpec PropTaken FileSpec PropFile CallSpec PropCalls PropDisk PropBusy.
From Coq Require Import List NArith ZArith Bool Lia Permutation ZifyBool ZifyNat ZifyN Strings.Byte.
Import ListNotations.
Open Scope list_scope.
Open Scope N_scope.

(** ** Specification *)

(** fcntl(2), "Advisory record locking": of every byte of a file, whether an owner
    has it locked; [Some true] for writing.  No table, no ranges. *)
Definition world := N -> N -> N -> option bool.
Definition nothing_locked : world := fun _ _ _ => None.
(** Another owner has a byte of the range locked, and one of the two locks is for writing. *)
Definition blocked (w : world) (node owner first last : N) (excl : bool) : Prop :=
  exists o b e, o <> owner /\ first <= b <= last /\ w node o b = Some e /\ (e || excl) = true.
Definition becomes (w w' : world) (node owner first last : N) (x : option bool) : Prop :=
  (forall b, first <= b <= last -> w' node owner b = x) /\
  (forall n o b, n <> node \/ o <> owner \/ b < first \/ last < b -> w' n o b = w n o b).
Definition stays (w w' : world) : Prop := forall n o b, w' n o b = w n o b.

(** The lock calls: F_GETLK, F_SETLK and close(2), which drops all locks of the
    process on the file. *)
Definition lock_call (c : sys_call) : Prop :=
  match c with
  | Getlk _ _ _ _ _ type _ => type < 2
  | Setlk wait _ _ _ _ _ _ _ => wait = false
  | Flush _ _ _ => True
  | _ => False
  end.
Definition lock_step (w : world) (c : sys_call) (w' : world) (r : sys_result) : Prop :=
  match c with
  | Setlk _ node _ owner first last type _ =>
    if type =? 2 then r = Done /\ becomes w w' node owner first last None
    else (blocked w node owner first last (type =? 1) -> r = Error 11 /\ stays w w') /\
         (~ blocked w node owner first last (type =? 1) ->
          r = Done /\ becomes w w' node owner first last (Some (type =? 1)))
  | Getlk node _ owner first last type _ =>
    stays w w' /\
    (~ blocked w node owner first last (type =? 1) -> r = LockIs Unlocked) /\
    (blocked w node owner first last (type =? 1) -> exists e f l pid o,
       r = LockIs (Locked e f l pid) /\ o <> owner /\ (e || (type =? 1)) = true /\
       f <= last /\ first <= l /\ forall b, f <= b <= l -> w node o b = Some e)
  | Flush node _ owner => r = Done /\ becomes w w' node owner 0 (2 ^ 63 - 1) None
  | _ => False
  end.
Inductive lock_steps : world -> list sys_call -> world -> list sys_result -> Prop :=
| no_steps w : lock_steps w [] w []
| more_steps w c w1 r l w' rs :
    lock_step w c w1 r -> lock_steps w1 l w' rs -> lock_steps w (c :: l) w' (r :: rs).

(** Locks exclude each other. *)
Definition excluding (w : world) : Prop :=
  forall n o o' b e e', o <> o' -> w n o b = Some e -> w n o' b = Some e' -> e = false /\ e' = false.

(** ** A lock server *)

(** Written with the library: a list of locks. *)
Record hold := { h_node : N; h_owner : N; h_excl : bool; h_first : N; h_last : N; h_pid : N }.
Definition with_range (h : hold) (f l : N) : hold :=
  {| h_node := h_node h; h_owner := h_owner h; h_excl := h_excl h; h_first := f; h_last := l; h_pid := h_pid h |}.
(** What stays of a lock when its owner unlocks a range. *)
Definition cut (node owner first last : N) (h : hold) : list hold :=
  if (h_node h =? node) && (h_owner h =? owner) then
    (if h_first h <? first then [with_range h (h_first h) (N.min (h_last h) (first - 1))] else []) ++
    (if last <? h_last h then [with_range h (N.max (h_first h) (last + 1)) (h_last h)] else [])
  else [h].
Definition in_way (node owner first last : N) (excl : bool) (h : hold) : bool :=
  (h_node h =? node) && negb (h_owner h =? owner) && (h_first h <=? last) && (first <=? h_last h) &&
  (h_excl h || excl).
(** fuse/lock.rs:70-75 [LockRange::end] *)
Definition last_of (r : LockRange) : N :=
  match LockRange_end r with Some e => e | None => 2 ^ 63 - 1 end.
Definition locker : PropCalls.handler (St := list hold) := fun t v =>
  match v with
  | VGetlk node _ owner mode range =>
    (t, match find (in_way node owner (lr_start range) (last_of range) (mode =? 1)) t with
        | Some h => SaidLock (h_first h) (h_last h) (if h_excl h then 1 else 0) (h_pid h)
        | None => SaidLock 0 0 2 0
        end)
  | VSetlk node _ _ owner lock _ =>
    let first := lr_start (lk_range lock) in
    let last := last_of (lk_range lock) in
    let rest := flat_map (cut node owner first last) t in
    if lk_mode lock =? 2 then (rest, SaidOk)
    else if existsb (in_way node owner first last (lk_mode lock =? 1)) t then (t, SaidError (-11))
    else ({| h_node := node; h_owner := owner; h_excl := lk_mode lock =? 1; h_first := first; h_last := last;
             h_pid := match lk_pid lock with Some p => p | None => 0 end |} :: rest, SaidOk)
  | VFlush node _ owner => (flat_map (cut node owner 0 (2 ^ 63 - 1)) t, SaidOk)
  | _ => (t, SaidError (-38))
  end.

(** The locks of a table. *)
Definition covers_byte (n o b : N) (h : hold) : bool :=
  (h_node h =? n) && (h_owner h =? o) && (h_first h <=? b) && (b <=? h_last h).
Definition locks_of (t : list hold) : world := fun n o b => option_map h_excl (find (covers_byte n o b) t).
Definition table_ok (t : list hold) : Prop :=
  (forall h, In h t -> h_first h <= h_last h < 2 ^ 63 /\ h_pid h < U32) /\
  (forall h h' n o b, In h t -> In h' t -> covers_byte n o b h = true -> covers_byte n o b h' = true ->
     h_excl h = h_excl h').

(** ** Proofs *)

Lemma last_asked first last : first <= last < 2 ^ 63 -> last_of (range_asked first last) = last.
Proof.
  intros H. unfold last_of, LockRange_end, range_asked. cbn [lr_length lr_start].
  destruct (N.eqb_spec last (2 ^ 63 - 1)) as [->|Ne]; [reflexivity|].
  unfold sat_add64, u64_max. lia.
Qed.

Lemma locks_some t n o b e : table_ok t ->
  (locks_of t n o b = Some e <-> exists h, In h t /\ covers_byte n o b h = true /\ h_excl h = e).
Proof.
  intros [_ Tc]. unfold locks_of. split.
  - intros H. destruct (find _ t) as [h|] eqn:F; [|discriminate]. injection H as <-.
    apply find_some in F as [I C]. eauto.
  - intros (h & I & C & <-). destruct (find (covers_byte n o b) t) as [h'|] eqn:F.
    + apply find_some in F as [I' C']. cbn [option_map]. f_equal. eapply Tc; eauto.
    + pose proof (find_none _ _ F h I) as N0. congruence.
Qed.

Lemma locks_none t n o b : locks_of t n o b = None <-> forall h, In h t -> covers_byte n o b h = false.
Proof.
  unfold locks_of. split.
  - intros H. destruct (find _ t) eqn:F; [discriminate|]. apply (find_none _ _ F).
  - intros H. destruct (find (covers_byte n o b) t) as [h|] eqn:F; [|reflexivity].
    apply find_some in F as [I C]. rewrite (H h I) in C. discriminate.
Qed.

Lemma cut_spec node owner first last h p : h_first h <= h_last h < 2 ^ 63 -> first <= last -> In p (cut node owner first last h) ->
  h_first p <= h_last p < 2 ^ 63 /\ h_pid p = h_pid h /\ h_excl p = h_excl h /\
  forall n o b, covers_byte n o b p = true -> covers_byte n o b h = true /\
    (n <> node \/ o <> owner \/ b < first \/ last < b).
Proof.
  intros Hh Hr. unfold cut, covers_byte. destruct ((h_node h =? node) && (h_owner h =? owner)) eqn:Q.
  - intros I. apply in_app_iff in I as [I|I].
    + destruct (h_first h <? first) eqn:L; [|contradiction]. destruct I as [<-|[]]. cbn. repeat split; try lia.
    + destruct (last <? h_last h) eqn:L; [|contradiction]. destruct I as [<-|[]]. cbn. repeat split; try lia.
  - intros [<-|[]]. repeat split; try lia.
Qed.

Lemma cut_keeps node owner first last h n o b : first <= last -> covers_byte n o b h = true ->
  n <> node \/ o <> owner \/ b < first \/ last < b ->
  exists p, In p (cut node owner first last h) /\ covers_byte n o b p = true /\ h_excl p = h_excl h.
Proof.
  intros Hr C O. unfold cut, covers_byte in *. destruct ((h_node h =? node) && (h_owner h =? owner)) eqn:Q.
  - assert (B : b < first \/ last < b) by lia. destruct B as [B|B].
    + assert (L : (h_first h <? first) = true) by lia. rewrite L. eexists. split; [left; reflexivity|]. cbn. split; [lia|reflexivity].
    + assert (L : (last <? h_last h) = true) by lia. rewrite L. eexists. split; [apply in_app_iff; right; left; reflexivity|].
      cbn. split; [lia|reflexivity].
  - exists h. split; [left; reflexivity|]. split; [lia|reflexivity].
Qed.

Lemma cut_table node owner first last t : table_ok t -> first <= last ->
  table_ok (flat_map (cut node owner first last) t) /\
  becomes (locks_of t) (locks_of (flat_map (cut node owner first last) t)) node owner first last None.
Proof.
  intros T Hr. pose proof T as [Tf Tc].
  assert (P : forall p, In p (flat_map (cut node owner first last) t) -> exists h, In h t /\ In p (cut node owner first last h)).
  { intros p I. apply in_flat_map in I as (h & I & J). eauto. }
  assert (T' : table_ok (flat_map (cut node owner first last) t)).
  { split.
    - intros p I. destruct (P p I) as (h & I1 & J). destruct (Tf h I1) as [R Pd].
      destruct (cut_spec node owner first last h p R Hr J) as (A & B & _). rewrite B. auto.
    - intros p p' n o b I I' C C'. destruct (P p I) as (h & I1 & J), (P p' I') as (h' & I1' & J').
      destruct (Tf h I1) as [R _], (Tf h' I1') as [R' _].
      destruct (cut_spec _ _ _ _ h p R Hr J) as (_ & _ & X & D). destruct (cut_spec _ _ _ _ h' p' R' Hr J') as (_ & _ & X' & D').
      rewrite X, X'. apply (Tc h h' n o b I1 I1'); [apply (D n o b C)|apply (D' n o b C')]. }
  split; [exact T'|]. split.
  - intros b Hb. apply locks_none. intros p I. destruct (P p I) as (h & I1 & J). destruct (Tf h I1) as [R _].
    destruct (cut_spec _ _ _ _ h p R Hr J) as (_ & _ & _ & D). destruct (covers_byte node owner b p) eqn:C; [|reflexivity].
    destruct (D _ _ _ C) as [_ Z]. lia.
  - intros n o b O. destruct (locks_of t n o b) as [e|] eqn:L.
    + apply (locks_some _ _ _ _ _ T) in L as (h & I & C & X). apply (locks_some _ _ _ _ _ T').
      destruct (cut_keeps node owner first last h n o b Hr C O) as (p & J & C' & X').
      exists p. split; [apply in_flat_map; eauto|]. split; [exact C'|congruence].
    + rewrite locks_none in L |- *. intros p I. destruct (P p I) as (h & I1 & J). destruct (Tf h I1) as [R _].
      destruct (cut_spec _ _ _ _ h p R Hr J) as (_ & _ & _ & D). destruct (covers_byte n o b p) eqn:C; [|reflexivity].
      destruct (D _ _ _ C) as [Z _]. now rewrite (L h I1) in Z.
Qed.

Lemma in_way_blocked t node owner first last excl h : table_ok t -> In h t ->
  in_way node owner first last excl h = true ->
  h_owner h <> owner /\ (h_excl h || excl) = true /\ h_first h <= last /\ first <= h_last h /\
  forall b, h_first h <= b <= h_last h -> locks_of t node (h_owner h) b = Some (h_excl h).
Proof.
  intros T I W. unfold in_way in W. repeat split; try lia.
  intros b Hb. apply (locks_some _ _ _ _ _ T). exists h. split; [exact I|]. split; [|reflexivity].
  unfold covers_byte. lia.
Qed.

Lemma blocked_iff t node owner first last excl : table_ok t -> first <= last ->
  (blocked (locks_of t) node owner first last excl <-> exists h, In h t /\ in_way node owner first last excl h = true).
Proof.
  intros T Hr. split.
  - intros (o & b & e & No & Hb & L & X). apply (locks_some _ _ _ _ _ T) in L as (h & I & C & Q).
    exists h. split; [exact I|]. unfold covers_byte in C. unfold in_way. rewrite Q, X. lia.
  - intros (h & I & W). pose proof T as [Tf _]. destruct (Tf h I) as [R _].
    destruct (in_way_blocked t _ _ _ _ _ h T I W) as (No & X & A & B & L).
    exists (h_owner h), (N.max first (h_first h)), (h_excl h). split; [exact No|]. split; [lia|]. split; [|exact X].
    apply L. lia.
Qed.

Lemma not_blocked_find t node owner first last excl : table_ok t -> first <= last ->
  find (in_way node owner first last excl) t = None -> ~ blocked (locks_of t) node owner first last excl.
Proof.
  intros T Hr F B. apply (blocked_iff _ _ _ _ _ _ T Hr) in B as (h & I & W).
  pose proof (find_none _ _ F h I) as Z. congruence.
Qed.

Lemma put_table node owner first last excl pid t :
  table_ok t -> first <= last < 2 ^ 63 -> pid < U32 ->
  let t' := {| h_node := node; h_owner := owner; h_excl := excl; h_first := first; h_last := last; h_pid := pid |} ::
            flat_map (cut node owner first last) t in
  table_ok t' /\ becomes (locks_of t) (locks_of t') node owner first last (Some excl).
Proof.
  intros T Hr Hp. set (h0 := {| h_node := node |}). cbv zeta.
  destruct (cut_table node owner first last t T ltac:(lia)) as [T1 [B1 B2]].
  set (t1 := flat_map (cut node owner first last) t) in *. clearbody t1.
  assert (C0 : forall n o b, covers_byte n o b h0 = true -> n = node /\ o = owner /\ first <= b <= last).
  { intros n o b. unfold covers_byte, h0. cbn. lia. }
  assert (N0 : forall b h, first <= b <= last -> In h t1 -> covers_byte node owner b h = false).
  { intros b h Hb. pose proof (B1 b Hb) as L. rewrite locks_none in L. apply L. }
  split.
  - destruct T1 as [Tf Tc]. split.
    + intros h [<-|I]; [cbn; lia|]. now apply Tf.
    + intros h h' n o b [<-|I] [<-|I'] C C'; [reflexivity| | |].
      * apply C0 in C as (-> & -> & Hb). rewrite (N0 b h' Hb I') in C'. discriminate.
      * apply C0 in C' as (-> & -> & Hb). rewrite (N0 b h Hb I) in C. discriminate.
      * eapply Tc; eauto.
  - split.
    + intros b Hb. unfold locks_of. cbn [find]. replace (covers_byte node owner b h0) with true by (unfold covers_byte, h0; cbn; lia).
      reflexivity.
    + intros n o b O. rewrite <- (B2 n o b O). unfold locks_of. cbn [find].
      destruct (covers_byte n o b h0) eqn:C; [|reflexivity]. apply C0 in C. lia.
Qed.

Lemma empty_table : table_ok [].
Proof. split; [intros h []|intros h h' n o b []]. Qed.

Section Proofs.
Context {E : Endian}.

(** One call of the handler. *)
Lemma locker_step minor bs t c : table_ok t -> call_ok c -> lock_call c ->
  let '(known, t', r) := handled_one minor bs locker [] t c in
  known = [] /\ table_ok t' /\ lock_step (locks_of t) c (locks_of t') r.
Proof.
  intros T C L. destruct c; cbn [lock_call] in L; try contradiction L; cbn [call_ok] in C.
  - (* Getlk *)
    destruct C as (Hn & Hf & Ho & Hr & Ht & Hp). unfold handled_one. cbn [too_old skipped remembers existsb asked].
    cbn [locker]. rewrite last_asked by exact Hr. cbn [lr_start range_asked].
    destruct (find _ t) as [h|] eqn:F; cbn [seen].
    + apply find_some in F as [I W]. pose proof T as [Tf _]. destruct (Tf h I) as [R _].
      destruct (in_way_blocked t _ _ _ _ _ h T I W) as (No & X & A & B & Lk).
      split; [reflexivity|]. split; [exact T|]. cbn [lock_step]. split; [intros ? ? ?; reflexivity|]. split.
      * intros NB. exfalso. apply NB. apply (blocked_iff _ _ _ _ _ _ T); [lia|]. eauto.
      * intros _. exists (h_excl h), (h_first h), (h_last h), (h_pid h), (h_owner h).
        split; [|repeat split; assumption].
        destruct (h_excl h); cbn [N.eqb Pos.eqb]; replace (_ && _ && _) with true by lia; reflexivity.
    + split; [reflexivity|]. split; [exact T|]. cbn [lock_step]. split; [intros ? ? ?; reflexivity|]. split; [reflexivity|].
      intros Bl. exfalso. revert Bl. apply (not_blocked_find _ _ _ _ _ _ T); [lia|exact F].
  - (* Setlk *)
    subst. destruct C as (Hn & Hf & Ho & Hr & Ht & Hp). unfold handled_one. cbn [too_old skipped remembers existsb asked].
    cbn [locker lk_range lk_mode lk_pid]. rewrite last_asked by exact Hr. cbn [lr_start range_asked].
    cbn [lock_step]. destruct (type =? 2) eqn:Ty.
    + cbn [seen]. destruct (cut_table node owner first last t T ltac:(lia)) as [T' B]. auto.
    + destruct (existsb _ t) eqn:Ex.
      * cbn. split; [reflexivity|]. split; [exact T|]. split; [intros _; split; [reflexivity|intros ? ? ?; reflexivity]|].
        intros NB. exfalso. apply NB. apply (blocked_iff _ _ _ _ _ _ T); [lia|]. now apply existsb_exists.
      * cbn [seen].
        destruct (put_table node owner first last (type =? 1) (match (if pid =? 0 then None else Some pid) with Some p => p | None => 0 end) t
                    T Hr ltac:(destruct (pid =? 0); [reflexivity|exact Hp])) as [T' B].
        split; [reflexivity|]. split; [exact T'|]. split; [|intros _; split; [reflexivity|exact B]].
        intros Bl. exfalso. apply (blocked_iff _ _ _ _ _ _ T) in Bl; [|lia].
        apply existsb_exists in Bl. congruence.
  - (* Flush *)
    unfold handled_one. cbn [too_old skipped remembers existsb asked locker seen].
    destruct (cut_table node owner 0 (2 ^ 63 - 1) t T ltac:(lia)) as [T' B]. cbn [lock_step]. auto.
Qed.

(** Any call at all leaves a good table, and is answered. *)
Lemma locker_can t c : table_ok t -> call_ok c ->
  table_ok (fst (locker t (asked c))) /\ answers c (snd (locker t (asked c))).
Proof.
  intros T C. destruct c; cbn [asked locker fst snd]; try (split; [exact T|cbn [answers]; lia]).
  - (* Getlk *)
    split; [exact T|]. destruct (find _ t) as [h|] eqn:F; cbn [answers]; [|unfold U64, U32; repeat split; lia].
    apply find_some in F as [I _]. destruct T as [Tf _]. destruct (Tf h I) as [R P].
    unfold U64, U32 in *. destruct (h_excl h); repeat split; lia.
  - (* Setlk *)
    cbn [call_ok] in C. destruct C as (Hn & Hf & Ho & Hr & Ht & Hp).
    cbn [lk_range lk_mode lk_pid]. rewrite last_asked by exact Hr. cbn [lr_start range_asked].
    destruct (type =? 2).
    + split; [|exact I]. now apply cut_table; [|lia].
    + destruct (existsb _ t); [split; [exact T|cbn; lia]|]. split; [|exact I].
      apply put_table; [exact T|exact Hr|]. destruct (pid =? 0); [reflexivity|exact Hp].
  - split; [|exact I]. cbn [fst]. now apply cut_table; [|lia].
Qed.

Lemma lock_step_excluding w c w' r : excluding w -> lock_step w c w' r -> excluding w'.
Proof.
  assert (St : forall w w', excluding w -> stays w w' -> excluding w').
  { clear. intros w w' X S n o o' b e e' No H H'. rewrite S in H, H'. eapply X; eauto. }
  assert (Cl : forall w w' node owner first last, excluding w -> becomes w w' node owner first last None -> excluding w').
  { clear. intros w w' node owner first last X [B1 B2] n o o' b e e' No H H'.
    assert (D : forall q x, w' n q b = Some x -> w n q b = Some x).
    { intros q x Hq. destruct (N.eq_dec n node) as [->|]; [|now rewrite B2 in Hq by auto].
      destruct (N.eq_dec q owner) as [->|]; [|now rewrite B2 in Hq by auto].
      destruct (N.leb_spec first b); [destruct (N.leb_spec b last)|].
      - rewrite B1 in Hq by auto. discriminate.
      - now rewrite B2 in Hq by auto.
      - now rewrite B2 in Hq by auto. }
    eapply X; eauto. }
  intros X L. destruct c; cbn [lock_step] in L; try contradiction L.
  - destruct L as [S _]. eapply St; eauto.
  - destruct (type =? 2); [destruct L as [_ B]; eapply Cl; eauto|]. destruct L as [L1 L2].
    (* whether the range is blocked is not decided here *)
    assert (NN : ~ ~ excluding w').
    { intros K. assert (NB : ~ blocked w node owner first last (type =? 1)).
      { intros Bl. destruct (L1 Bl) as [_ S]. apply K. eapply St; eauto. }
      apply K. destruct (L2 NB) as [_ [B1 B2]]. clear - X B1 B2 NB.
      assert (New : forall o b e, o <> owner -> first <= b <= last -> w node o b = Some e -> e = false /\ (type =? 1) = false).
      { intros o b e No Hb H. destruct (e || (type =? 1)) eqn:Q.
        - exfalso. apply NB. exists o, b, e. auto.
        - now apply orb_false_iff in Q. }
      assert (D : forall n o b x, w' n o b = Some x -> (n = node /\ o = owner /\ first <= b <= last /\ x = (type =? 1)) \/
                    (w n o b = Some x /\ (n <> node \/ o <> owner \/ b < first \/ last < b))).
      { intros n o b x Hq. destruct (N.eq_dec n node) as [->|]; [|rewrite B2 in Hq by auto; auto].
        destruct (N.eq_dec o owner) as [->|]; [|rewrite B2 in Hq by auto; auto].
        destruct (N.leb_spec first b); [destruct (N.leb_spec b last)|].
        - rewrite B1 in Hq by auto. injection Hq as <-. left. auto.
        - rewrite B2 in Hq by auto. right. auto.
        - rewrite B2 in Hq by auto. right. auto. }
      intros n o o' b e e' No H H'.
      destruct (D _ _ _ _ H) as [(-> & -> & Hb & ->)|[Hw _]], (D _ _ _ _ H') as [(Q1 & Q2 & Hb' & Q3)|[Hw' _]].
      - congruence.
      - apply and_comm, (New o' b); auto.
      - subst. apply (New o b); auto.
      - eapply X; eauto. }
    intros n o o' b e e' No H H'. destruct e, e'; [| | |auto]; exfalso; apply NN; intros X';
      destruct (X' _ _ _ _ _ _ No H H'); discriminate.
  - destruct L as [_ B]. eapply Cl; eauto.
Qed.

(** Locks exclude each other after any lock calls, whoever makes them. *)
Theorem C82_excluding w l w' rs : excluding w -> lock_steps w l w' rs -> excluding w'.
Proof. intros X H. induction H; [exact X|]. apply IHlock_steps. eapply lock_step_excluding; eauto. Qed.

Lemma locker_steps m l t : table_ok t -> Forall (fun c => call_ok c /\ lock_call c) l ->
  exists t' rs, handled (cf_minor (m_cf m)) (m_bs m) locker [] t l = ([], t', rs) /\
    one_by_one m locker t l = (t', rs) /\ table_ok t' /\ lock_steps (locks_of t) l (locks_of t') rs.
Proof.
  intros T F. revert t T. induction F as [|c l [C L] F IH]; intros t T.
  - exists t, []. split; [reflexivity|]. split; [reflexivity|]. split; [exact T|constructor].
  - pose proof (locker_step (cf_minor (m_cf m)) (m_bs m) t c T C L) as H. cbn [handled one_by_one].
    destruct (handled_one _ _ locker [] t c) as [[kn t1] r]. destruct H as (-> & T1 & S).
    destruct (IH t1 T1) as (t' & rs & H1 & H2 & T' & S'). rewrite H1, H2.
    exists t', (r :: rs). split; [reflexivity|]. split; [reflexivity|]. split; [exact T'|]. econstructor; eauto.
Qed.

(** Lock calls of programs on a mounted file system, by messages: the results are those
    of fcntl(2), for the bytes that are locked, and locks exclude each other. *)
Theorem C82_locks m l k :
  good_mount m -> Forall (fun c => call_ok c /\ lock_call c) l ->
  exists t rs, sys_calls m (program_with locker) k [] [] l = Some ([], t, rs) /\
    lock_steps nothing_locked l (locks_of t) rs /\ excluding (locks_of t).
Proof.
  intros G F. destruct (locker_steps m l [] empty_table F) as (t & rs & H & _ & T & S).
  assert (Fc : Forall call_ok l) by (eapply Forall_impl; [|exact F]; intros ? [? _]; assumption).
  exists t, rs. rewrite (C75_calls m locker table_ok l G Fc locker_can k [] [] empty_table), H.
  split; [reflexivity|]. change (locks_of []) with nothing_locked in S. split; [exact S|].
  eapply C82_excluding; [|exact S]. intros n o o' b e e' _ D. discriminate.
Qed.

(** At the same time, with any number of threads: as in some order. *)
Theorem C82_busy m cs l b :
  good_mount m -> Forall (fun kc => call_ok (snd kc) /\ lock_call (snd kc)) cs ->
  work false (m_max_write m) (m_buf_len m) (m_cf m) (program_with locker) (idle []) l b ->
  arrivals l = map (calling m) cs -> left_over b = 0%nat ->
  exists ds rs,
    Permutation cs ds /\ Permutation (b_results b) rs /\
    map fst rs = map (fun kc => ask_id (calling m kc)) ds /\
    lock_steps nothing_locked (map snd ds) (locks_of (b_state b)) (all_return m (map snd ds) (map snd rs)) /\
    excluding (locks_of (b_state b)).
Proof.
  intros G F W Ar L.
  assert (Fc : Forall (fun kc => call_ok (snd kc) /\ too_old (cf_minor (m_cf m)) (snd kc) = false) cs).
  { eapply Forall_impl; [|exact F]. intros [k c] [C K]. split; [exact C|]. cbn [snd] in *. clear - K. destruct c; try contradiction K; reflexivity. }
  destruct (C81_calls m locker table_ok cs [] l b G locker_can empty_table Fc W Ar L) as (ds & rs & Pd & Pr & Ids & One & _).
  assert (Fd : Forall (fun c => call_ok c /\ lock_call c) (map snd ds)).
  { apply Forall_map. eapply perm_forall; [exact Pd|exact F]. }
  destruct (locker_steps m (map snd ds) [] empty_table Fd) as (t & rs' & _ & One' & T & S).
  rewrite One in One'. injection One' as <- <-. change (locks_of []) with nothing_locked in S.
  exists ds, rs. split; [exact Pd|]. split; [exact Pr|]. split; [exact Ids|]. split; [exact S|].
  eapply C82_excluding; [|exact S]. intros n o o' q e e' _ D. discriminate.
Qed.
End Proofs.

(** ** Examples *)

Local Instance LE : Endian := false.

(** Owner 5 locks bytes 0 to 99 for writing and unlocks 40 to 49; owner 6 gets 40
    to 49 but not 45 to 50, and is told which lock is in the way; owner 5 closes
    the file, and owner 6 locks to the end. *)
Definition lock_demo : list sys_call :=
  [Setlk false 2 1 5 0 99 1 70; Setlk false 2 1 5 40 49 2 70; Setlk false 2 2 6 40 49 0 71; Setlk false 2 2 6 45 50 0 71;
   Getlk 2 2 6 45 50 0 71; Getlk 2 2 6 45 49 1 71; Flush 2 1 5; Setlk false 2 2 6 45 (2 ^ 63 - 1) 1 71;
   Getlk 2 1 5 0 44 1 70].
Lemma lock_demo_ok : Forall (fun c => call_ok c /\ lock_call c) lock_demo.
Proof.
  unfold lock_demo.
  repeat (apply Forall_cons; [split; [cbn [call_ok]; unfold id_ok, U64, U32; repeat split; lia|first [reflexivity|exact I]]|]).
  apply Forall_nil.
Qed.
Example C82_locks_example :
  good_mount demo_mount /\ Forall (fun c => call_ok c /\ lock_call c) lock_demo /\
  exists t, sys_calls demo_mount (program_with locker) 0 [] [] lock_demo =
    Some ([], t, [Done; Done; Done; Error 11; LockIs (Locked true 50 99 70); LockIs Unlocked; Done; Done;
                  LockIs (Locked false 40 44 71)]) /\
    locks_of t 2 6 (2 ^ 62) = Some true /\ locks_of t 2 5 0 = None.
Proof.
  split; [exact demo_mount_good|]. split; [exact lock_demo_ok|].
  eexists. split; [vm_compute; reflexivity|]. split; vm_compute; reflexivity.
Qed.

(** The same calls one after the other, for any result that fcntl(2) allows. *)
Example C82_excluding_example :
  excluding nothing_locked /\ (exists w' rs, lock_steps nothing_locked lock_demo w' rs /\ excluding w' /\ length rs = 9%nat).
Proof.
  assert (X : excluding nothing_locked) by (intros n o o' b e e' _ D; discriminate).
  split; [exact X|]. destruct (C82_locks demo_mount lock_demo 0 demo_mount_good lock_demo_ok) as (t & rs & _ & S & Y).
  exists (locks_of t), rs. split; [exact S|]. split; [exact Y|].
  assert (Ln : forall w l w' q, lock_steps w l w' q -> length q = length l).
  { clear. intros w l w' q H. induction H; cbn [length]; congruence. }
  now rewrite (Ln _ _ _ _ S).
Qed.

(** Two owners try to lock the same byte for writing at the same time: the request
    that arrived last is handled first, and the other owner gets EAGAIN. *)
Definition two_locks : list (nat * sys_call) :=
  [(0%nat, Setlk false 2 1 5 0 99 1 70); (1%nat, Setlk false 2 2 6 50 50 1 71)].
Definition r_five : asking := calling demo_mount (0%nat, Setlk false 2 1 5 0 99 1 70).
Definition r_six : asking := calling demo_mount (1%nat, Setlk false 2 2 6 50 50 1 71).
Definition lock_events : list event :=
  [Arrives r_five; Arrives r_six; Taken r_five; Taken r_six; Handled r_six; Handled r_five; Written 2; Written 4].
Notation lock_work := (work false (m_max_write demo_mount) (m_buf_len demo_mount) (m_cf demo_mount) (program_with locker)).
Lemma lock_take r s q t ms w rs :
  device_read (m_max_write demo_mount) (m_buf_len demo_mount) (snd r) (rq_mem (raw r)) = Gets (rq_mem (raw r)) ->
  nlen (rq_mem (raw r)) <= 8192 -> acceptable (rq_mem (raw r)) ->
  happens false (m_max_write demo_mount) (m_buf_len demo_mount) (m_cf demo_mount) (program_with locker)
    {| b_state := s; b_queue := r :: q; b_taken := t; b_made := ms; b_waiting := w; b_results := rs |} (Taken r)
    {| b_state := s; b_queue := q; b_taken := t ++ [(r, raw r)]; b_made := ms; b_waiting := w; b_results := rs |}.
Proof.
  intros D L A. apply (happens_take false _ _ _ _ r (rq_mem (raw r)) some_buf (fst (recv_request some_buf (rq_mem (raw r)))) (raw r));
    [exact D|reflexivity|].
  unfold recv_request. pose proof (received some_buf (rq_mem (raw r))) as Rv.
  destruct (recv_into some_buf (rq_mem (raw r))) as [b1 n]. destruct Rv as [Rv _]. cbn [fst]. f_equal. rewrite Rv.
  replace (nlen some_buf) with 8192 by reflexivity. rewrite take_all by exact L. now rewrite not_refused.
Qed.
Definition after_lock (s : list hold) (r : asking) : list hold * bytes :=
  match serve false (m_cf demo_mount) (program_with locker) s (op_type (snd r)) (rq_mem (raw r)) with
  | Some x => x
  | None => (s, [])
  end.
Example C82_busy_example :
  Forall (fun kc => call_ok (snd kc) /\ lock_call (snd kc)) two_locks /\ arrivals lock_events = map (calling demo_mount) two_locks /\
  exists b, lock_work (idle []) lock_events b /\ left_over b = 0%nat /\ b_results b = [(2, inr (-11)%Z); (4, inl [])] /\
    locks_of (b_state b) 2 6 50 = Some true /\ locks_of (b_state b) 2 5 50 = None.
Proof.
  split.
  { repeat (apply Forall_cons; [split; [cbn [call_ok snd]; unfold id_ok, U64, U32; repeat split; lia|reflexivity]|]). apply Forall_nil. }
  split; [reflexivity|].
  pose (s1 := fst (after_lock [] r_six)). pose (m1 := snd (after_lock [] r_six)).
  pose (s2 := fst (after_lock s1 r_five)). pose (m2 := snd (after_lock s1 r_five)).
  assert (H1 : serve false (m_cf demo_mount) (program_with locker) [] (op_type (snd r_six)) (rq_mem (raw r_six)) = Some (s1, m1))
    by (vm_compute; reflexivity).
  assert (H2 : serve false (m_cf demo_mount) (program_with locker) s1 (op_type (snd r_five)) (rq_mem (raw r_five)) = Some (s2, m2))
    by (vm_compute; reflexivity).
  assert (D1 : device_read (m_max_write demo_mount) (m_buf_len demo_mount) (snd r_five) (rq_mem (raw r_five)) = Gets (rq_mem (raw r_five)) /\
    nlen (rq_mem (raw r_five)) <= 8192 /\ acceptable (rq_mem (raw r_five))) by (vm_compute; repeat split; discriminate).
  assert (D2 : device_read (m_max_write demo_mount) (m_buf_len demo_mount) (snd r_six) (rq_mem (raw r_six)) = Gets (rq_mem (raw r_six)) /\
    nlen (rq_mem (raw r_six)) <= 8192 /\ acceptable (rq_mem (raw r_six))) by (vm_compute; repeat split; discriminate).
  destruct D1 as (D1 & L1 & A1). destruct D2 as (D2 & L2 & A2).
  pose (x1 := @inl bytes Z []). pose (x2 := @inr bytes Z (-11)%Z).
  assert (E1 : ends (m_cf demo_mount) (r_six, x1) m1) by (vm_compute; reflexivity).
  assert (E2 : ends (m_cf demo_mount) (r_five, x2) m2) by (vm_compute; reflexivity).
  assert (Ns : locks_of s2 2 6 50 = Some true /\ locks_of s2 2 5 50 = None) by (vm_compute; split; reflexivity).
  clearbody m1 m2 s2.
  pose proof (work_nil false (m_max_write demo_mount) (m_buf_len demo_mount) (m_cf demo_mount) (program_with locker) (idle [])) as W.
  eapply work_snoc in W; [|exact (happens_arrive _ _ _ _ _ r_five _ _ _ _ _ _ eq_refl)].
  eapply work_snoc in W; [|exact (happens_arrive _ _ _ _ _ r_six _ _ _ _ _ _ eq_refl)].
  cbn [app] in W.
  eapply work_snoc in W; [|exact (lock_take r_five _ _ _ _ _ _ D1 L1 A1)].
  eapply work_snoc in W; [|exact (lock_take r_six _ _ _ _ _ _ D2 L2 A2)].
  cbn [app] in W.
  eapply work_snoc in W; [|exact (happens_handle _ _ _ _ _ r_six (raw r_six) _ s1 m1 _ [(r_five, raw r_five)] [] _ _ _ H1)].
  cbn [app] in W.
  eapply work_snoc in W; [|exact (happens_handle _ _ _ _ _ r_five (raw r_five) _ s2 m2 _ [] [] _ _ _ H2)].
  cbn [app] in W.
  eapply work_snoc in W;
    [|refine (happens_write _ _ _ _ _ m2 2 x2 _ _ _ [m1] [] _ _ _); exact (ends_so _ (r_five, x2) m2 _ E2 eq_refl)].
  cbn [app] in W.
  eapply work_snoc in W;
    [|refine (happens_write _ _ _ _ _ m1 4 x1 _ _ _ [] [] _ _ _); apply (ends_so _ (r_six, x1) m1); [exact E1|] ].
  - eexists. split; [exact W|]. split; [reflexivity|]. split; [reflexivity|exact Ns].
  - match goal with |- after_write (device_write _ ?w _) _ _ = _ =>
      destruct (ends_so (m_cf demo_mount) (r_five, x2) m2 w E2 eq_refl) as [Y|[_ Y]]; [rewrite Y|discriminate Y] end.
    reflexivity.
Qed.

Print Assumptions C82_excluding.
Print Assumptions C82_locks.
Print Assumptions C82_busy.
