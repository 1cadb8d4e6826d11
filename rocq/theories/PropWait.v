(** Theorems about requests that are answered later, and interrupts: C83 of
    properties.jsonl. *)

From Verif Require Import Base Kernel CoreModel DecodeModel OpsModel WireSpec OpsRoundTrip DecodeProofs
  ReplyModel ReplySpec ReplyProofs PropDecode PropHeader PropReply
  ServerModel ThreadModel ServerSpec PropServer DeviceSpec PropDevice
  ClientSpec PropClient TakenSpec PropTaken FileSpec PropFile CallSpec PropCalls PropDisk PropBusy PropLocks.
From Coq Require Import List NArith ZArith Bool Lia Permutation ZifyBool ZifyNat ZifyN Strings.Byte.
Import ListNotations.
Open Scope list_scope.
Open Scope N_scope.

(** ** Specification *)

Section Spec.
Context {E : Endian} {St : Type}.

(** A server that answers when it likes: a request may be answered when another
    one comes.  Replies are sent with the ids that the server has kept
    (fuse/server.rs:707-749 [FuseReplySender::new] takes any id). *)
Definition deferring := St -> N -> view -> St * list (N * answer).
Fixpoint all_messages (minor : N) (l : list (N * answer)) : option (list bytes) :=
  match l with
  | [] => Some []
  | (id, a) :: l =>
    match answer_call minor id a with
    | ReplyModel.Call b => match on_wire b, all_messages minor l with Ret m, Some ms => Some (m :: ms) | _, _ => None end
    | _ => None
    end
  end.
Definition serve_many (cf : config) (h : deferring) (s : St) (t : rtype) (msg : bytes) : option (St * list bytes) :=
  match rq <- Request_new msg ;; id <- header_request_id rq ;; v <- decode_view false cf t rq ;; Ret (id, v) with
  | Ret (id, v) => let (s', l) := h s id v in option_map (pair s') (all_messages (cf_minor cf) l)
  | _ => None
  end.

(** The calls that wait, by the ids of their requests, and those that returned. *)
Definition ops_of (calls : N -> option sys_call) (i : N) : option client_op :=
  option_map (fun c => snd (request_of c)) (calls i).
Definition returned : Type := (N * sys_call * sys_result)%type.
Fixpoint write_all (m : mounted) (calls : N -> option sys_call) (rs : list returned) (ms : list bytes)
    : option ((N -> option sys_call) * list returned) :=
  match ms with
  | [] => Some (calls, rs)
  | b :: ms =>
    let wr := device_write (cf_minor (m_cf m)) (ops_of calls) b in
    let calls' := fun i => match after_write wr (ops_of calls) i with Some _ => calls i | None => None end in
    let ends id x := match calls id with Some c => write_all m calls' (rs ++ [(id, c, returns m c x)]) ms | None => None end in
    match wr with
    | Completed id x => ends id x
    | DeviceSpec.Broken id => ends id (inr (-5)%Z)
    | Acknowledged _ _ => write_all m calls rs ms
    | _ => None
    end
  end.

Record pending := { p_state : St; p_calls : N -> option sys_call; p_results : list returned }.
Definition nobody (s : St) : pending := {| p_state := s; p_calls := fun _ => None; p_results := [] |}.

(** A program makes a call, with the [k]-th request; or a program that waits gets a
    signal: fs/fuse/dev.c [fuse_read_interrupt] sends a header with the id plus one
    and nothing else. *)
Inductive moves := Asks (k : nat) (c : sys_call) | Interrupts (id : N).
Definition sent_for (m : mounted) (e : moves) : asking :=
  match e with
  | Asks k c => calling m (k, c)
  | Interrupts id =>
    ({| rh_unique := id + 1; rh_nodeid := 0; rh_uid := 0; rh_gid := 0; rh_pid := 0; rh_padding := 0 |}, OInterrupt id)
  end.
Definition calls_with (m : mounted) (calls : N -> option sys_call) (e : moves) : N -> option sys_call :=
  match e with
  | Asks k c => fun i => if i =? ask_id (calling m (k, c)) then Some c else calls i
  | Interrupts _ => calls
  end.
Definition deliver (m : mounted) (h : deferring) (p : pending) (e : moves) : option pending :=
  let (hd, op) := sent_for m e in
  match device_read (m_max_write m) (m_buf_len m) op (linux_message (m_cf m) hd op) with
  | Gets msg =>
    match serve_many (m_cf m) h (p_state p) (op_type op) msg with
    | Some (s', ms) =>
      match write_all m (calls_with m (p_calls p) e) (p_results p) ms with
      | Some (calls', rs') => Some {| p_state := s'; p_calls := calls'; p_results := rs' |}
      | None => None
      end
    | None => None
    end
  | _ => None
  end.

(** What Linux does: the id of a new request is not in use, and only programs that
    wait are interrupted. *)
Definition may (m : mounted) (allowed : sys_call -> Prop) (p : pending) (e : moves) : Prop :=
  match e with
  | Asks k c => call_ok c /\ too_old (cf_minor (m_cf m)) c = false /\ allowed c /\ p_calls p (ask_id (calling m (k, c))) = None
  | Interrupts id => p_calls p id <> None
  end.
Inductive reaches (m : mounted) (allowed : sys_call -> Prop) (h : deferring) (s0 : St) : list moves -> pending -> Prop :=
| reach_none : reaches m allowed h s0 [] (nobody s0)
| reach_more l p e p' :
    reaches m allowed h s0 l p -> may m allowed p e -> deliver m h p e = Some p' -> reaches m allowed h s0 (l ++ [e]) p'.
End Spec.

(** ** A lock server that waits *)

Record wish := { w_id : N; w_lock : hold }.
Definition put (t : list hold) (h : hold) : list hold :=
  h :: flat_map (cut (h_node h) (h_owner h) (h_first h) (h_last h)) t.
Definition free (t : list hold) (h : hold) : bool :=
  negb (existsb (in_way (h_node h) (h_owner h) (h_first h) (h_last h) (h_excl h)) t).
(** The first that need not wait any more. *)
Fixpoint pick (t : list hold) (ws : list wish) : option (wish * list wish) :=
  match ws with
  | [] => None
  | w :: r => if free t (w_lock w) then Some (w, r)
              else match pick t r with Some (x, r') => Some (x, w :: r') | None => None end
  end.
Fixpoint wake (n : nat) (t : list hold) (ws : list wish) : list hold * list wish * list wish :=
  match n with
  | O => (t, ws, [])
  | Datatypes.S n =>
    match pick t ws with
    | None => (t, ws, [])
    | Some (w, r) => let '(t', ws', got) := wake n (put t (w_lock w)) r in (t', ws', w :: got)
    end
  end.
Definition locks : Type := (list hold * list wish)%type.
Definition granted (id : N) (t : list hold) (ws : list wish) : locks * list (N * answer) :=
  let '(t', ws', got) := wake (length ws) t ws in
  ((t', ws'), (id, AOkEmpty) :: map (fun w => (w_id w, AOkEmpty)) got).
Definition waiter : deferring (St := locks) := fun s id v =>
  let (t, ws) := s in
  match v with
  | VSetlk node _ wait owner lock _ =>
    let first := lr_start (lk_range lock) in
    let last := last_of (lk_range lock) in
    let h := {| h_node := node; h_owner := owner; h_excl := lk_mode lock =? 1; h_first := first; h_last := last;
                h_pid := match lk_pid lock with Some p => p | None => 0 end |} in
    if lk_mode lock =? 2 then granted id (flat_map (cut node owner first last) t) ws
    else if free t h then granted id (put t h) ws
    else if wait then ((t, ws ++ [{| w_id := id; w_lock := h |}]), [])
    else (s, [(id, AErr (-11))])
  | VFlush node _ owner => granted id (flat_map (cut node owner 0 (2 ^ 63 - 1)) t) ws
  | VInterrupt i =>
    if existsb (fun w => w_id w =? i) ws
    then ((t, filter (fun w => negb (w_id w =? i)) ws), [(i, AErr (-4))])
    else (s, [])
  | _ => (s, [(id, AErr (-38))])
  end.

(** F_SETLK, F_SETLKW and close(2). *)
Definition locking (c : sys_call) : Prop :=
  match c with Setlk _ _ _ _ _ _ _ _ | Flush _ _ _ => True | _ => False end.

(** ** Proofs: messages *)

Section Messages.
Context {E : Endian} {St : Type}.

(** Replies without data. *)
Definition plain (a : answer) (x : bytes + Z) : Prop :=
  a = AOkEmpty /\ x = inl [] \/ exists e, a = AErr e /\ (-512 < e < 0)%Z /\ x = inr e.
Definition small (calls : N -> option sys_call) (ia : N * answer) (icx : N * sys_call * (bytes + Z)) : Prop :=
  fst ia = fst (fst icx) /\ is_id (fst ia) /\ N.odd (fst ia) = false /\
  calls (fst ia) = Some (snd (fst icx)) /\ (forall minor, op_room minor (snd (request_of (snd (fst icx)))) = Exactly 0) /\
  plain (snd ia) (snd icx).

Lemma writes_ok m l : forall calls rs xs, Forall2 (small calls) l xs -> NoDup (map fst l) ->
  exists ms calls', all_messages (cf_minor (m_cf m)) l = Some ms /\
    write_all m calls rs ms = Some (calls', rs ++ map (fun x => (fst x, returns m (snd (fst x)) (snd x))) xs) /\
    forall i, calls' i = if existsb (N.eqb i) (map fst l) then None else calls i.
Proof.
  induction l as [|[id a] l IH]; intros calls rs xs F Nd.
  - inversion F; subst. exists [], calls. cbn [map]. rewrite app_nil_r. repeat split.
  - inversion F as [|? [[i c] x] ? xs' Sm F']; subst. inversion Nd as [|? ? Ni Nd']; subst.
    destruct Sm as (Ei & Hid & Od & Cl & Room & Pl). cbn [fst snd] in *. subst i.
    assert (R : exists e, replies (cf_minor (m_cf m)) id a e [] /\ (-512 < e <= 0)%Z /\
                  x = if (e =? 0)%Z then inl [] else inr e).
    { destruct Pl as [[-> ->]|(e & -> & He & ->)].
      - exists 0%Z. split; [|split; [lia|reflexivity]]. apply send_0_replies; auto; unfold is_i32; lia.
      - exists e. split; [|split; [lia|]]. + apply send_0_replies; auto. unfold is_i32. lia.
        + now replace (e =? 0)%Z with false by lia. }
    destruct R as (e & (b & msg & A & O & _ & K) & He & X).
    assert (V : device_write (cf_minor (m_cf m)) (ops_of calls) msg = Completed id x).
    { rewrite (device_verdict (cf_minor (m_cf m)) (ops_of calls) msg id e [] (snd (request_of c)) K Od).
      2:{ unfold ops_of. now rewrite Cl. }
      unfold verdict, PropDevice.told. replace ((e <=? -512) || (0 <? e))%Z with false by lia. rewrite Room, X.
      destruct (e =? 0)%Z; reflexivity. }
    set (calls1 := fun i => match after_write (Completed id x) (ops_of calls) i with Some _ => calls i | None => None end).
    assert (C1 : forall i, calls1 i = if i =? id then None else calls i).
    { intros i. unfold calls1. cbn [after_write]. destruct (i =? id); [reflexivity|].
      unfold ops_of. destruct (calls i); reflexivity. }
    assert (F1 : Forall2 (small calls1) l xs').
    { clear - F' Ni C1. induction F' as [|[j a'] y l xs' S F' IH]; constructor.
      - destruct S as (S1 & S2 & S3 & S4 & S5). repeat split; try assumption; try apply S2; try apply S5.
        cbn [fst] in *. rewrite C1. destruct (N.eqb_spec j id) as [->|]; [|exact S4].
        exfalso. apply Ni. left. reflexivity.
      - apply IH. intros I. apply Ni. right. exact I. }
    destruct (IH calls1 (rs ++ [(id, c, returns m c x)]) xs' F1 Nd') as (ms & calls' & M & W & C').
    exists (msg :: ms), calls'. split; [cbn [all_messages]; now rewrite A, O, M|]. split.
    + cbn [write_all]. rewrite V. rewrite Cl. fold calls1. rewrite W, <- app_assoc. reflexivity.
    + intros i. rewrite C', C1. cbn [map fst existsb]. destruct (i =? id); cbn [orb]; [|reflexivity].
      now destruct (existsb _ _).
Qed.

(** What the server is asked. *)
Definition view_of (e : moves) : view :=
  match e with Asks _ c => asked c | Interrupts id => VInterrupt id end.

Lemma deliver_ok m (h : deferring (St := St)) p e s' l xs :
  good_mount m ->
  match e with Asks _ c => call_ok c | Interrupts id => is_id id /\ id + 1 < U64 end ->
  h (p_state p) (ask_id (sent_for m e)) (view_of e) = (s', l) ->
  Forall2 (small (calls_with m (p_calls p) e)) l xs -> NoDup (map fst l) ->
  exists calls', deliver m h p e =
    Some {| p_state := s'; p_calls := calls';
            p_results := p_results p ++ map (fun x => (fst x, returns m (snd (fst x)) (snd x))) xs |} /\
    forall i, calls' i = if existsb (N.eqb i) (map fst l) then None else calls_with m (p_calls p) e i.
Proof.
  intros G Ok H F Nd.
  destruct (writes_ok m l _ (p_results p) xs F Nd) as (ms & calls' & M & W & C'). exists calls'. split; [|exact C'].
  unfold deliver. destruct (sent_for m e) as [hd op] eqn:Sf.
  assert (X : sendable false (m_cf m) hd op /\ (op_type op = RCreate -> 12 <= cf_minor (m_cf m)) /\
              nlen (linux_message (m_cf m) hd op) < U32 /\ nlen (linux_message (m_cf m) hd op) <= m_buf_len m /\
              taken_for false (m_cf m) (rh_nodeid hd) op = Ret (view_of e)).
  { pose proof G as (B & M12 & _). destruct e as [k c|id].
    - cbn [sent_for] in Sf. unfold calling in Sf. cbn [snd fst] in Sf.
      destruct (request_of c) as [node o] eqn:R. injection Sf as <- <-.
      destruct (request_ok m k c node o G Ok R) as (S & Wi & Lg & T).
      destruct (message_fits _ _ _ (m_cf m) (header m k node) o Wi ltac:(lia) B) as [L L']. specialize (L' Lg).
      split; [exact S|]. split; [intros _; exact M12|]. split; [exact L|]. split; [exact L'|exact T].
    - cbn [sent_for] in Sf. injection Sf as <- <-. destruct Ok as [Hid Hu].
      assert (Wi : ClientSpec.within (m_max_write m) 32 (m_buf_len m) (OInterrupt id)) by exact I.
      match goal with |- sendable _ _ ?hd _ /\ _ =>
        destruct (message_fits _ _ _ (m_cf m) hd (OInterrupt id) Wi ltac:(lia) B) as [L L'] end.
      specialize (L' eq_refl). split; [|split; [intros; discriminate|split; [exact L|split; [exact L'|reflexivity]]]].
      split; [|split; [|split; [reflexivity|]]].
      + split; [|cbn [rh_unique]; lia]. unfold header_fields. cbn [rh_unique rh_nodeid rh_uid rh_gid rh_pid rh_padding].
        repeat (apply Forall_cons; [first [apply in_u64; unfold U64 in *; lia|apply in_u32; unfold U32; lia]|]). apply Forall_nil.
      + split; [|unfold is_id in Hid; lia]. apply Forall_cons; [|apply Forall_nil]. apply in_u64. apply Hid.
      + split; [discriminate|apply Forall_nil]. }
  destruct X as (S & Cr & L & L' & T). pose proof G as (B & _).
  destruct (message_understood false (m_cf m) hd op S Cr L) as (Acc & (len & Hs & _) & D).
  unfold device_read.
  replace (m_buf_len m <? N.max 8192 (80 + m_max_write m)) with false by lia.
  replace (m_buf_len m <? nlen (linux_message (m_cf m) hd op)) with false by lia.
  unfold serve_many. rewrite not_refused by exact Acc. cbn [bind]. rewrite Hs. cbn [bind]. rewrite D, T. cbn [bind].
  unfold ask_id in H. cbn [fst] in H. rewrite H, M. cbn [option_map]. now rewrite W.
Qed.
End Messages.

(** ** Proofs: locks *)

Definition hold_ok (h : hold) : Prop := h_first h <= h_last h < 2 ^ 63 /\ h_pid h < U32.
Definition in_the_way (t : list hold) (h : hold) : Prop :=
  blocked (locks_of t) (h_node h) (h_owner h) (h_first h) (h_last h) (h_excl h).
(** The lock a call asks for. *)
Definition wants (c : sys_call) (h : hold) : Prop :=
  exists fh type, c = Setlk true (h_node h) fh (h_owner h) (h_first h) (h_last h) type (h_pid h) /\
    type < 2 /\ h_excl h = (type =? 1).

Lemma free_iff t h : table_ok t -> hold_ok h -> (free t h = true <-> ~ in_the_way t h).
Proof.
  intros T [R _]. unfold free, in_the_way. rewrite blocked_iff by (auto; lia). rewrite <- existsb_exists.
  destruct (existsb _ t); cbn; split; auto; try discriminate; intros H; exfalso; now apply H.
Qed.

Lemma put_ok t h : table_ok t -> hold_ok h ->
  table_ok (put t h) /\
  becomes (locks_of t) (locks_of (put t h)) (h_node h) (h_owner h) (h_first h) (h_last h) (Some (h_excl h)).
Proof.
  intros T [R P]. pose proof (put_table (h_node h) (h_owner h) (h_first h) (h_last h) (h_excl h) (h_pid h) t T R P) as H.
  cbv zeta in H. unfold put. destruct h. exact H.
Qed.

(** Locks given one after the other. *)
Inductive grants : list hold -> list hold -> list hold -> Prop :=
| grants_none t : grants t [] t
| grants_more t h l t' : free t h = true -> grants (put t h) l t' -> grants t (h :: l) t'.

Lemma pick_some t ws w r : pick t ws = Some (w, r) -> free t (w_lock w) = true /\ Permutation ws (w :: r).
Proof.
  revert w r. induction ws as [|x ws IH]; intros w r H; [discriminate|]. cbn [pick] in H.
  destruct (free t (w_lock x)) eqn:F; [injection H as <- <-; auto|].
  destruct (pick t ws) as [[y r']|]; [|discriminate]. injection H as <- <-.
  destruct (IH _ _ eq_refl) as [A B]. split; [exact A|]. rewrite B. apply perm_swap.
Qed.
Lemma pick_none t ws : pick t ws = None -> forall w, In w ws -> free t (w_lock w) = false.
Proof.
  induction ws as [|x ws IH]; intros H w I; [contradiction|]. cbn [pick] in H.
  destruct (free t (w_lock x)) eqn:F; [discriminate|]. destruct (pick t ws) as [[? ?]|]; [discriminate|].
  destruct I as [<-|I]; auto.
Qed.
Lemma wake_ok n : forall t ws t' ws' got, wake n t ws = (t', ws', got) -> (length ws <= n)%nat ->
  table_ok t -> (forall w, In w ws -> hold_ok (w_lock w)) ->
  table_ok t' /\ Permutation ws (got ++ ws') /\ grants t (map w_lock got) t' /\
  (forall w, In w ws' -> in_the_way t' (w_lock w)).
Proof.
  induction n as [|n IH]; intros t ws t' ws' got H L T Ok; cbn [wake] in H.
  - injection H as <- <- <-. destruct ws; [|cbn in L; lia]. split; [exact T|]. split; [constructor|].
    split; [constructor|intros ? []].
  - destruct (pick t ws) as [[w r]|] eqn:P.
    + apply pick_some in P as [F Pm]. destruct (wake n (put t (w_lock w)) r) as [[t1 ws1] got1] eqn:W.
      injection H as <- <- <-. assert (Ow : hold_ok (w_lock w)) by (apply Ok; rewrite Pm; left; reflexivity).
      destruct (put_ok t (w_lock w) T Ow) as [T1 _].
      destruct (IH _ _ _ _ _ W) as (A & B & C & D).
      * apply Permutation_length in Pm. cbn [length] in Pm. lia.
      * exact T1.
      * intros x I. apply Ok. rewrite Pm. right. exact I.
      * split; [exact A|]. split; [rewrite Pm, B; reflexivity|]. split; [constructor; assumption|exact D].
    + injection H as <- <- <-. split; [exact T|]. split; [reflexivity|]. split; [constructor|].
      intros w I. pose proof (pick_none _ _ P w I) as F. pose proof (Ok w I) as [R _]. unfold in_the_way.
      apply (blocked_iff _ _ _ _ _ _ T); [lia|]. apply existsb_exists. unfold free in F. now apply negb_false_iff in F.
Qed.

Lemma grants_steps t l t' : grants t l t' -> table_ok t -> (forall h, In h l -> hold_ok h) ->
  forall cs, Forall2 wants cs l -> lock_steps (locks_of t) cs (locks_of t') (map (fun _ => Done) cs).
Proof.
  intros H. induction H as [t|t h l t' F H IH]; intros T Ok cs W.
  - inversion W; subst. constructor.
  - inversion W as [|c ? cs' ? Wc W']; subst. cbn [map]. assert (Oh : hold_ok h) by (apply Ok; left; reflexivity).
    destruct (put_ok t h T Oh) as [T1 B]. econstructor; [|apply IH; auto; intros x I; apply Ok; right; exact I].
    destruct Wc as (fh & type & -> & Ht & X). cbn [lock_step]. replace (type =? 2) with false by lia.
    apply (free_iff t h T Oh) in F. unfold in_the_way in F. rewrite X in F, B. split; [intros Bl; contradiction|auto].
Qed.

Section Proofs.
Context {E : Endian}.

(** The server and the programs agree on who waits, and everybody who waits has a
    reason to. *)
Definition agreed (p : pending (St := locks)) : Prop :=
  let (t, ws) := p_state p in
  table_ok t /\ excluding (locks_of t) /\ NoDup (map w_id ws) /\
  (forall w, In w ws -> hold_ok (w_lock w) /\ in_the_way t (w_lock w) /\ is_id (w_id w) /\ N.odd (w_id w) = false /\
     exists c, p_calls p (w_id w) = Some c /\ wants c (w_lock w)) /\
  (forall i c, p_calls p i = Some c -> exists w, In w ws /\ w_id w = i).

(** What a step does. *)
Definition step_does (m : mounted) (p : pending (St := locks)) (e : moves) (p' : pending (St := locks)) : Prop :=
  let w := locks_of (fst (p_state p)) in
  let w' := locks_of (fst (p_state p')) in
  match e with
  (* the program is told to go on with the signal, and nothing else happens *)
  | Interrupts i => exists c,
      p_calls p i = Some c /\ p_results p' = p_results p ++ [(i, c, Error 512)] /\ stays w w' /\
      forall j, p_calls p' j = if j =? i then None else p_calls p j
  | Asks k c =>
    let id := ask_id (calling m (k, c)) in
    (* it waits *)
    (exists node fh owner first last type pid, c = Setlk true node fh owner first last type pid /\ type < 2 /\
       blocked w node owner first last (type =? 1) /\ stays w w' /\ p_results p' = p_results p /\
       forall j, p_calls p' j = if j =? id then Some c else p_calls p j) \/
    (* or it returns, and after it others that waited: each as fcntl(2) says *)
    (exists r others, p_results p' = p_results p ++ (id, c, r) :: map (fun jc => (fst jc, snd jc, Done)) others /\
       lock_steps w (c :: map snd others) w' (r :: map (fun _ => Done) others) /\
       Forall (fun jc => p_calls p (fst jc) = Some (snd jc)) others /\
       (match c with Setlk true _ _ _ _ _ _ _ => r = Done | _ => True end) /\
       (forall j, p_calls p' j = if existsb (N.eqb j) (map fst others) then None else p_calls p j))
  end.

Lemma nodup_parts {A} (l l' : list A) : NoDup (l ++ l') -> NoDup l /\ NoDup l'.
Proof.
  induction l as [|x l IH]; cbn [app]; intros H; [split; [constructor|exact H]|].
  inversion H as [|? ? N1 N2]; subst. destruct (IH N2) as [I1 I2]. split; [|exact I2].
  constructor; [|exact I1]. intros I. apply N1. apply in_app_iff. auto.
Qed.

Lemma wish_find (ws : list wish) i : existsb (fun w => w_id w =? i) ws = true <-> exists w, In w ws /\ w_id w = i.
Proof.
  rewrite existsb_exists. split; intros (w & I & Q); exists w; split; auto; lia.
Qed.

Lemma room_0 c : locking c -> forall minor, op_room minor (snd (request_of c)) = Exactly 0.
Proof. intros L minor. destruct c; try contradiction L; reflexivity. Qed.

Lemma wants_locking c h : wants c h -> locking c.
Proof. intros (fh & type & -> & _). exact I. Qed.

(** A call is done, and others can go on. *)
Lemma granted_ok m p k c t1 :
  good_mount m -> call_ok c -> locking c -> agreed p -> p_calls p (ask_id (calling m (k, c))) = None ->
  table_ok t1 -> lock_step (locks_of (fst (p_state p))) c (locks_of t1) Done ->
  waiter (p_state p) (ask_id (calling m (k, c))) (asked c) = granted (ask_id (calling m (k, c))) t1 (snd (p_state p)) ->
  exists p', deliver m waiter p (Asks k c) = Some p' /\ agreed p' /\ step_does m p (Asks k c) p'.
Proof.
  intros G C Lk A Fresh T1 St H. unfold agreed in A. destruct (p_state p) as [t ws] eqn:Ps. cbn [fst snd] in *.
  destruct A as (T & X & Nd & Ws & Cs). set (id := ask_id (calling m (k, c))) in *.
  unfold granted in H. destruct (wake (length ws) t1 ws) as [[t' ws'] got] eqn:Wk.
  destruct (wake_ok _ _ _ _ _ _ Wk (le_n _) T1 (fun w I => proj1 (Ws w I))) as (T' & Pm & Gr & Bl).
  (* the calls of those that go on *)
  assert (Ig : forall w, In w got -> In w ws) by (intros w I; rewrite Pm; apply in_app_iff; auto).
  assert (Iw : forall w, In w ws' -> In w ws) by (intros w I; rewrite Pm; apply in_app_iff; auto).
  assert (Cg : exists cs, Forall2 (fun w c => p_calls p (w_id w) = Some c /\ wants c (w_lock w)) got cs).
  { clear - Ig Ws. induction got as [|w got IH]; [exists []; constructor|].
    destruct IH as [cs Hc]; [intros x I; apply Ig; right; exact I|].
    destruct (Ws w (Ig w (or_introl eq_refl))) as (_ & _ & _ & _ & c & H). exists (c :: cs). constructor; auto. }
  destruct Cg as [cs Cg].
  assert (Nd2 : NoDup (map w_id got ++ map w_id ws')).
  { rewrite <- map_app. eapply Permutation_NoDup; [apply Permutation_map, Pm|exact Nd]. }
  assert (Hid : is_id id /\ N.odd id = false).
  { unfold id, calling, ask_id. cbn [snd fst]. destruct (request_of c) as [node op] eqn:R. cbn [fst].
    destruct (request_ok m k c node op G C R) as ((Gh & _) & _). split; [now apply header_id|].
    pose proof G as (_ & _ & Hh). exact (proj2 (Hh k)). }
  assert (Nid : forall w, In w ws -> w_id w <> id).
  { intros w I Q. destruct (Ws w I) as (_ & _ & _ & _ & c' & Pc & _). rewrite Q in Pc. congruence. }
  set (l0 := (id, AOkEmpty) :: map (fun w => (w_id w, AOkEmpty)) got) in *.
  assert (Ml : map fst l0 = id :: map w_id got) by (unfold l0; cbn [map fst]; rewrite map_map; reflexivity).
  set (others := combine (map w_id got) cs).
  assert (Fst : map fst others = map w_id got /\ map snd others = cs).
  { unfold others. clear - Cg. induction Cg; [split; reflexivity|]. cbn [map combine]. destruct IHCg as [I1 I2].
    cbn [fst snd]. now rewrite I1, I2. }
  destruct Fst as [Fst Snd].
  destruct (deliver_ok m waiter p (Asks k c) (t', ws') l0 ((id, c, inl []) :: map (fun jc => (fst jc, snd jc, inl [])) others) G C)
    as (calls' & D & Cl).
  - rewrite Ps. exact H.
  - unfold l0. constructor.
    + repeat split; cbn [fst snd]; try apply Hid; try (apply room_0, Lk); [|left; auto].
      cbn [calls_with]. fold id. now rewrite N.eqb_refl.
    + unfold others. clear - Cg Ws Ig Nid. fold id.
      assert (Q : forall w, In w got -> is_id (w_id w) /\ N.odd (w_id w) = false /\ w_id w <> id).
      { intros w I. destruct (Ws w (Ig w I)) as (_ & _ & A & B & _). auto. }
      clear - Cg Q. induction Cg as [|w c' got cs [Pc Wc] Cg IH]; cbn [map combine]; constructor.
      * destruct (Q w (or_introl eq_refl)) as (A & B & Ne). repeat split; cbn [fst snd]; try apply A; try exact B;
          try (eapply room_0, wants_locking; exact Wc); [|left; auto].
        cbn [calls_with]. fold id. replace (w_id w =? id) with false by lia. exact Pc.
      * apply IH. intros x I. apply Q. right. exact I.
  - rewrite Ml. constructor; [|exact (proj1 (nodup_parts _ _ Nd2))].
    intros I. apply in_map_iff in I as (w & Q & I). exact (Nid w (Ig w I) Q).
  - cbn [calls_with] in Cl. fold id in Cl. rewrite Ml in Cl.
    assert (Cl' : forall j, calls' j = if existsb (N.eqb j) (map w_id got) then None else p_calls p j).
    { intros j. rewrite Cl. cbn [existsb]. destruct (N.eqb_spec j id) as [->|]; cbn [orb]; [|reflexivity].
      rewrite Fresh. now destruct (existsb _ _). }
    assert (Steps : lock_steps (locks_of t) (c :: map snd others) (locks_of t') (Done :: map (fun _ => Done) others)).
    { econstructor; [exact St|]. replace (map (fun _ : N * sys_call => Done) others) with (map (fun _ : sys_call => Done) (map snd others))
        by (rewrite map_map; reflexivity).
      rewrite Snd. apply (grants_steps _ _ _ Gr T1).
      - intros h I. apply in_map_iff in I as (w & <- & I). exact (proj1 (Ws w (Ig w I))).
      - clear - Cg. induction Cg as [|w c' got cs [_ Wc] Cg IH]; cbn [map]; constructor; auto. }
    eexists. split; [exact D|]. split.
    + unfold agreed. cbn [p_state p_calls]. split; [exact T'|]. split; [eapply C82_excluding; [exact X|exact Steps]|].
      split; [exact (proj2 (nodup_parts _ _ Nd2))|]. split.
      * intros w I. destruct (Ws w (Iw w I)) as (A1 & _ & A3 & A4 & c' & Pc & Wc). split; [exact A1|]. split; [now apply Bl|].
        split; [exact A3|]. split; [exact A4|]. exists c'. split; [|exact Wc]. rewrite Cl'.
        destruct (existsb (N.eqb (w_id w)) (map w_id got)) eqn:Ex; [|exact Pc]. exfalso.
        apply existsb_exists in Ex as (j & Ij & Q). apply N.eqb_eq in Q. subst j.
        clear - Nd2 Ij I. induction (map w_id got) as [|x xs IH]; [contradiction|].
        cbn [app] in Nd2. inversion Nd2 as [|? ? N1 N2]; subst. destruct Ij as [->|Ij]; [|now apply IH].
        apply N1. apply in_app_iff. right. apply in_map. exact I.
      * intros i c' Hi. rewrite Cl' in Hi. destruct (existsb (N.eqb i) (map w_id got)) eqn:Ex; [discriminate|].
        destruct (Cs i c' Hi) as (w & I & Q). exists w. split; [|exact Q]. rewrite Pm in I. apply in_app_iff in I as [I|I]; [|exact I].
        exfalso. assert (Z : existsb (N.eqb i) (map w_id got) = true); [|congruence].
        apply existsb_exists. exists i. split; [rewrite <- Q; now apply in_map|apply N.eqb_refl].
    + unfold step_does. cbn [p_state p_calls p_results]. rewrite Ps. cbn [fst]. fold id. right. exists Done, others.
      assert (Rt : forall c', locking c' -> returns m c' (inl []) = Done).
      { clear. intros c' L. destruct c'; try contradiction L; reflexivity. }
      assert (Lo : Forall (fun jc => p_calls p (fst jc) = Some (snd jc) /\ locking (snd jc)) others).
      { unfold others. clear - Cg. induction Cg as [|w c' got cs [Pc Wc] Cg IH]; cbn [map combine]; constructor; auto.
        split; [exact Pc|]. eapply wants_locking; exact Wc. }
      split; [|split; [exact Steps|split; [|split; [destruct c; try exact I; destruct wait; auto|]]]].
      * f_equal. cbn [map fst snd]. rewrite Rt by exact Lk. f_equal. rewrite map_map.
        clear - Lo Rt. induction Lo as [|[j c'] o [_ L] Lo IH]; [reflexivity|]. cbn [map fst snd] in *. now rewrite Rt, IH.
      * eapply Forall_impl; [|exact Lo]. intros jc [Q _]. exact Q.
      * rewrite Fst. exact Cl'.
Qed.

Lemma step_ok m p e : good_mount m -> agreed p -> may m locking p e ->
  exists p', deliver m waiter p e = Some p' /\ agreed p' /\ step_does m p e p'.
Proof.
  intros G A M. destruct e as [k c|i]; cbn [may] in M.
  - destruct M as (C & _ & Lk & Fresh). pose proof A as A'. unfold agreed in A'.
    destruct (p_state p) as [t ws] eqn:Ps. destruct A' as (T & X & Nd & Ws & Cs).
    destruct c; try contradiction Lk.
    + (* Setlk *)
      pose proof C as (Hn & Hf & Ho & Hr & Ht & Hp).
      set (c := Setlk wait node fh owner first last type pid) in *. set (id := ask_id (calling m (k, c))) in *.
      set (h := {| h_node := node; h_owner := owner; h_excl := type =? 1; h_first := first; h_last := last; h_pid := pid |}).
      assert (Oh : hold_ok h) by (split; cbn [h h_first h_last h_pid]; [exact Hr|exact Hp]).
      assert (V : waiter (t, ws) id (asked c) =
        if type =? 2 then granted id (flat_map (cut node owner first last) t) ws
        else if free t h then granted id (put t h) ws
        else if wait then ((t, ws ++ [{| w_id := id; w_lock := h |}]), [])
        else ((t, ws), [(id, AErr (-11))])).
      { unfold c. cbn [asked waiter lk_range lk_mode lk_pid]. rewrite last_asked by exact Hr. cbn [lr_start range_asked].
        replace (match (if pid =? 0 then None else Some pid) with Some p0 => p0 | None => 0 end) with pid
          by (destruct (N.eqb_spec pid 0); congruence).
        reflexivity. }
      destruct (type =? 2) eqn:Ty.
      * destruct (cut_table node owner first last t T ltac:(lia)) as [T1 B].
        apply (granted_ok m p k c (flat_map (cut node owner first last) t) G C Lk A Fresh T1).
        -- rewrite Ps. cbn [fst]. unfold c. cbn [lock_step]. rewrite Ty. split; [reflexivity|exact B].
        -- rewrite Ps. exact V.
      * destruct (free t h) eqn:F.
        -- destruct (put_ok t h T Oh) as [T1 B]. pose proof F as F'. apply (free_iff t h T Oh) in F'.
           apply (granted_ok m p k c (put t h) G C Lk A Fresh T1).
           ++ rewrite Ps. cbn [fst]. unfold c. cbn [lock_step]. rewrite Ty.
              split; [intros Bl; exfalso; apply F'; exact Bl|]. intros _. split; [reflexivity|exact B].
           ++ rewrite Ps. exact V.
        -- assert (Bl : in_the_way t h).
           { unfold in_the_way. apply (blocked_iff _ _ _ _ _ _ T); [cbn [h h_first h_last]; lia|]. apply existsb_exists.
             unfold free in F. now apply negb_false_iff in F. }
           assert (Hid : is_id id /\ N.odd id = false).
           { unfold id, calling, ask_id. cbn [snd fst]. destruct (request_of c) as [nd op] eqn:R. cbn [fst].
             destruct (request_ok m k c nd op G C R) as ((Gh & _) & _). split; [now apply header_id|].
             pose proof G as (_ & _ & Hh). exact (proj2 (Hh k)). }
           destruct wait.
           ++ destruct (deliver_ok m waiter p (Asks k c) (t, ws ++ [{| w_id := id; w_lock := h |}]) [] [] G C) as (calls' & D & Cl);
                [rewrite Ps; exact V|constructor|constructor|].
              cbn [map existsb calls_with] in Cl. fold id in Cl.
              eexists. split; [exact D|]. split.
              ** unfold agreed. cbn [p_state p_calls]. split; [exact T|]. split; [exact X|]. split.
                 { rewrite map_app. cbn [map w_id]. eapply Permutation_NoDup; [apply Permutation_cons_append|].
                   constructor; [|exact Nd]. intros I. apply in_map_iff in I as (w & Q & I).
                   destruct (Ws w I) as (_ & _ & _ & _ & c' & Pc & _). rewrite Q in Pc. congruence. }
                 split.
                 { intros w I. apply in_app_iff in I as [I|[<-|[]]].
                   - destruct (Ws w I) as (A1 & A2 & A3 & A4 & c' & Pc & Wc). split; [exact A1|]. split; [exact A2|].
                     split; [exact A3|]. split; [exact A4|]. exists c'. split; [|exact Wc]. rewrite Cl.
                     destruct (N.eqb_spec (w_id w) id) as [Q|_]; [rewrite Q in Pc; congruence|exact Pc].
                   - cbn [w_id w_lock]. split; [exact Oh|]. split; [exact Bl|]. split; [apply Hid|]. split; [apply Hid|].
                     exists c. split; [rewrite Cl; now rewrite N.eqb_refl|]. exists fh, type. repeat split. lia. }
                 { intros i c' Hi. rewrite Cl in Hi. destruct (N.eqb_spec i id) as [->|_].
                   - eexists. split; [apply in_app_iff; right; left; reflexivity|reflexivity].
                   - destruct (Cs i c' Hi) as (w & I & Q). exists w. split; [apply in_app_iff; left; exact I|exact Q]. }
              ** unfold step_does. cbn [p_state p_calls p_results]. rewrite Ps. cbn [fst]. fold id. left.
                 exists node, fh, owner, first, last, type, pid. split; [reflexivity|]. split; [lia|]. split; [exact Bl|].
                 split; [intros ? ? ?; reflexivity|]. split; [cbn [map]; apply app_nil_r|exact Cl].
           ++ destruct (deliver_ok m waiter p (Asks k c) (t, ws) [(id, AErr (-11))] [(id, c, inr (-11)%Z)] G C) as (calls' & D & Cl).
              ** rewrite Ps. exact V.
              ** constructor; [|constructor]. repeat split; cbn [fst snd]; try apply Hid; try (apply room_0, Lk).
                 --- cbn [calls_with]. fold id. now rewrite N.eqb_refl.
                 --- right. exists (-11)%Z. repeat split; lia.
              ** constructor; [intros []|constructor].
              ** cbn [map fst existsb calls_with] in Cl. fold id in Cl.
                 assert (Cl' : forall j, calls' j = p_calls p j).
                 { intros j. rewrite Cl, orb_false_r. destruct (N.eqb_spec j id) as [->|]; [now rewrite Fresh|reflexivity]. }
                 eexists. split; [exact D|]. split.
                 --- unfold agreed. cbn [p_state p_calls]. split; [exact T|]. split; [exact X|]. split; [exact Nd|]. split.
                     +++ intros w I. destruct (Ws w I) as (A1 & A2 & A3 & A4 & c' & Pc & Wc). split; [exact A1|]. split; [exact A2|].
                         split; [exact A3|]. split; [exact A4|]. exists c'. split; [now rewrite Cl'|exact Wc].
                     +++ intros i c' Hi. rewrite Cl' in Hi. exact (Cs i c' Hi).
                 --- unfold step_does. cbn [p_state p_calls p_results]. rewrite Ps. cbn [fst]. fold id. right.
                     exists (Error 11), []. split; [reflexivity|]. split.
                     { econstructor; [|constructor]. unfold c. cbn [lock_step]. rewrite Ty.
                       split; [intros _; split; [reflexivity|intros ? ? ?; reflexivity]|]. intros NB. exfalso. apply NB. exact Bl. }
                     split; [constructor|]. split; [exact I|exact Cl'].
    + (* Flush *)
      destruct (cut_table node owner 0 (2 ^ 63 - 1) t T ltac:(lia)) as [T1 B].
      apply (granted_ok m p k (Flush node fh owner) (flat_map (cut node owner 0 (2 ^ 63 - 1)) t) G C Lk A Fresh T1).
      * rewrite Ps. cbn [fst lock_step]. split; [reflexivity|exact B].
      * rewrite Ps. reflexivity.
  - (* a signal *)
    destruct (p_calls p i) as [c|] eqn:Pi; [|congruence]. clear M. unfold agreed in A.
    destruct (p_state p) as [t ws] eqn:Ps. destruct A as (T & X & Nd & Ws & Cs).
    destruct (Cs i c Pi) as (w0 & I0 & Q0). destruct (Ws w0 I0) as (_ & _ & Hid & Od & c0 & Pc & Wc). rewrite Q0 in Hid, Od, Pc.
    assert (c0 = c) by congruence. subst c0.
    assert (Ex : existsb (fun w => w_id w =? i) ws = true) by (apply wish_find; eauto).
    assert (Hu : i + 1 < U64).
    { clear - Hid Od. unfold is_id, U64 in *. assert (Ev : N.even i = true) by (rewrite <- N.negb_odd; now rewrite Od).
      apply N.even_spec in Ev as [j ->]. lia. }
    destruct (deliver_ok m waiter p (Interrupts i) (t, filter (fun w => negb (w_id w =? i)) ws) [(i, AErr (-4))] [(i, c, inr (-4)%Z)] G
                (conj Hid Hu)) as (calls' & D & Cl).
    + rewrite Ps. cbn [view_of waiter]. now rewrite Ex.
    + constructor; [|constructor]. repeat split; cbn [fst snd]; try apply Hid; try exact Od;
        try (eapply room_0, wants_locking; exact Wc); [exact Pi|].
      right. exists (-4)%Z. repeat split; lia.
    + constructor; [intros []|constructor].
    + cbn [map fst existsb calls_with] in Cl.
      assert (Cl' : forall j, calls' j = if j =? i then None else p_calls p j) by (intros j; rewrite Cl, orb_false_r; reflexivity).
      eexists. split; [exact D|]. split.
      * unfold agreed. cbn [p_state p_calls]. split; [exact T|]. split; [exact X|]. split.
        { clear - Nd. induction ws as [|w ws IH]; [constructor|]. cbn [map] in Nd. inversion Nd as [|? ? N1 N2]; subst.
          cbn [filter]. destruct (negb _); [|now apply IH]. cbn [map]. constructor; [|now apply IH].
          intros I. apply N1. apply in_map_iff in I as (x & Q & I). apply filter_In in I as [I _]. rewrite <- Q. now apply in_map. }
        split.
        { intros w I. apply filter_In in I as [I Ne]. destruct (Ws w I) as (A1 & A2 & A3 & A4 & c' & Pc' & Wc').
          split; [exact A1|]. split; [exact A2|]. split; [exact A3|]. split; [exact A4|]. exists c'. split; [|exact Wc'].
          rewrite Cl'. apply negb_true_iff in Ne. now rewrite Ne. }
        { intros j c' Hj. rewrite Cl' in Hj. destruct (N.eqb_spec j i) as [|Ne]; [discriminate|].
          destruct (Cs j c' Hj) as (w & I & Q). exists w. split; [|exact Q]. apply filter_In. split; [exact I|].
          rewrite Q. apply negb_true_iff. now apply N.eqb_neq. }
      * unfold step_does. cbn [p_state p_calls p_results]. rewrite Ps. cbn [fst]. exists c. split; [exact Pi|].
        split; [|split; [intros ? ? ?; reflexivity|exact Cl']].
        cbn [map fst snd]. do 2 f_equal. destruct Wc as (fh & type & -> & _). reflexivity.
Qed.

Lemma start_agreed : agreed (nobody ([], [])).
Proof.
  split; [exact empty_table|]. split; [intros n o o' b e e' _ D; discriminate|]. split; [constructor|].
  split; [intros w []|intros i c D; discriminate].
Qed.
Lemma reaches_agreed m l p : good_mount m -> reaches m locking waiter ([], []) l p -> agreed p.
Proof.
  intros G H. induction H as [|l p e p' H IH M D]; [exact start_agreed|].
  destruct (step_ok m p e G IH M) as (q & Dq & Aq & _). rewrite D in Dq. injection Dq as <-. exact Aq.
Qed.

(** Whatever programs do, locks exclude each other, and a program waits only for a
    lock that is in its way now: nobody is forgotten. *)
Theorem C83_waits m l p : good_mount m -> reaches m locking waiter ([], []) l p ->
  let w := locks_of (fst (p_state p)) in
  excluding w /\
  forall i c, p_calls p i = Some c -> exists node fh owner first last type pid,
    c = Setlk true node fh owner first last type pid /\ type < 2 /\ blocked w node owner first last (type =? 1).
Proof.
  intros G H. pose proof (reaches_agreed m l p G H) as A. unfold agreed in A. destruct (p_state p) as [t ws].
  destruct A as (_ & X & _ & Ws & Cs). cbn [fst]. split; [exact X|]. intros i c Hc.
  destruct (Cs i c Hc) as (w & I & Q). destruct (Ws w I) as (_ & B & _ & _ & c' & Pc & fh & type & Ec & Ht & Ex).
  rewrite Q in Pc. assert (Same : c' = c) by congruence. rewrite Same in Ec. do 7 eexists. split; [exact Ec|]. split; [exact Ht|].
  unfold in_the_way in B. rewrite Ex in B. exact B.
Qed.

(** Whatever a program does next, the server can do its part, and does what
    fcntl(2) and signal(7) say. *)
Theorem C83_steps m l p e : good_mount m -> reaches m locking waiter ([], []) l p -> may m locking p e ->
  exists p', deliver m waiter p e = Some p' /\ reaches m locking waiter ([], []) (l ++ [e]) p' /\ step_does m p e p'.
Proof.
  intros G H M. destruct (step_ok m p e G (reaches_agreed m l p G H) M) as (p' & D & _ & S).
  exists p'. split; [exact D|]. split; [econstructor; eauto|exact S].
Qed.
End Proofs.

(** ** Examples *)

Local Instance LE : Endian := false.

(** Owner 5 locks bytes 0 to 99; owners 6 and 7 wait for some of them, owner 7 in
    vain: it gets a signal.  Then owner 5 unlocks 50 to 99, and owner 6 goes on. *)
Definition six_waits : sys_call := Setlk true 2 2 6 50 60 1 71.
Definition seven_waits : sys_call := Setlk true 2 3 7 40 60 0 72.
Definition wait_demo : list moves :=
  [Asks 0 (Setlk false 2 1 5 0 99 1 70); Asks 1 six_waits; Asks 2 seven_waits; Interrupts 6;
   Asks 3 (Setlk false 2 1 5 50 99 2 70)].
Fixpoint deliver_all_of (p : pending (St := locks)) (l : list moves) : option (pending (St := locks)) :=
  match l with
  | [] => Some p
  | e :: l => match deliver demo_mount waiter p e with Some p' => deliver_all_of p' l | None => None end
  end.
Definition ids_of (p : pending (St := locks)) : list bool :=
  map (fun i => match p_calls p i with Some _ => true | None => false end) [2; 4; 6; 8].
Lemma wait_demo_runs :
  option_map (fun p => (p_results p, ids_of p)) (deliver_all_of (nobody ([], [])) (firstn 3 wait_demo)) =
    Some ([(2, Setlk false 2 1 5 0 99 1 70, Done)], [false; true; true; false]) /\
  option_map (fun p => (p_results p, ids_of p, locks_of (fst (p_state p)) 2 6 55)) (deliver_all_of (nobody ([], [])) wait_demo) =
    Some ([(2, Setlk false 2 1 5 0 99 1 70, Done); (6, seven_waits, Error 512);
           (8, Setlk false 2 1 5 50 99 2 70, Done); (4, six_waits, Done)], [false; false; false; false], Some true).
Proof. split; vm_compute; reflexivity. Qed.

(** A run of the demo is one that Linux may make. *)
Definition fresh (p : pending (St := locks)) (e : moves) : bool :=
  match e with
  | Asks k c => match p_calls p (ask_id (calling demo_mount (k, c))) with None => true | Some _ => false end
  | Interrupts i => match p_calls p i with None => false | Some _ => true end
  end.
Fixpoint all_fresh (p : pending (St := locks)) (l : list moves) : bool :=
  match l with
  | [] => true
  | e :: l => fresh p e && match deliver demo_mount waiter p e with Some p' => all_fresh p' l | None => false end
  end.
Definition fine_move (e : moves) : Prop :=
  match e with Asks _ c => call_ok c /\ too_old (cf_minor (m_cf demo_mount)) c = false /\ locking c | Interrupts _ => True end.
Lemma fresh_may p e : fine_move e -> fresh p e = true -> may demo_mount locking p e.
Proof.
  destruct e as [k c|i]; cbn [fine_move fresh may].
  - intros (C & T & L) F. destruct (p_calls p _); [discriminate|]. auto.
  - intros _ F. destruct (p_calls p i); [discriminate|discriminate F].
Qed.
Lemma run_reaches l : forall p l0, reaches demo_mount locking waiter ([], []) l0 p -> Forall fine_move l -> all_fresh p l = true ->
  exists p', deliver_all_of p l = Some p' /\ reaches demo_mount locking waiter ([], []) (l0 ++ l) p'.
Proof.
  induction l as [|e l IH]; intros p l0 R F A.
  - exists p. rewrite app_nil_r. split; [reflexivity|exact R].
  - cbn [all_fresh deliver_all_of] in *. apply andb_true_iff in A as [A1 A2]. inversion F as [|? ? F1 F2]; subst.
    destruct (deliver demo_mount waiter p e) as [p1|] eqn:D; [|discriminate].
    destruct (IH p1 (l0 ++ [e])) as (p' & D' & R'); auto.
    + econstructor; eauto. now apply fresh_may.
    + rewrite <- app_assoc in R'. eauto.
Qed.
Lemma wait_demo_fine : Forall fine_move wait_demo.
Proof.
  unfold wait_demo, six_waits, seven_waits. repeat apply Forall_cons; try apply Forall_nil; try exact I;
    (split; [cbn [call_ok]; unfold id_ok, U64, U32; repeat split; lia|split; [reflexivity|exact I]]).
Qed.

(** Two programs wait. *)
Example C83_waits_example :
  good_mount demo_mount /\
  exists p, reaches demo_mount locking waiter ([], []) (firstn 3 wait_demo) p /\ ids_of p = [false; true; true; false].
Proof.
  split; [exact demo_mount_good|].
  destruct (run_reaches (firstn 3 wait_demo) (nobody ([], [])) [] (reach_none _ _ _ _)) as (p & D & R).
  - pose proof wait_demo_fine as F. rewrite <- (firstn_skipn 3 wait_demo) in F. now apply Forall_app in F.
  - vm_compute. reflexivity.
  - exists p. split; [exact R|]. pose proof (proj1 wait_demo_runs) as W. rewrite D in W. cbn [option_map] in W.
    exact (f_equal (fun o => match o with Some x => snd x | None => [] end) W).
Qed.
(** One of them gets a signal, and then the other gets its lock. *)
Example C83_steps_example :
  good_mount demo_mount /\
  (exists p, reaches demo_mount locking waiter ([], []) (firstn 3 wait_demo) p /\ may demo_mount locking p (Interrupts 6)) /\
  exists p, reaches demo_mount locking waiter ([], []) wait_demo p /\
    p_results p = [(2, Setlk false 2 1 5 0 99 1 70, Done); (6, seven_waits, Error 512);
                   (8, Setlk false 2 1 5 50 99 2 70, Done); (4, six_waits, Done)] /\
    locks_of (fst (p_state p)) 2 6 55 = Some true.
Proof.
  split; [exact demo_mount_good|]. split.
  - destruct C83_waits_example as (_ & p & R & Q). exists p. split; [exact R|]. cbn [may]. unfold ids_of in Q. cbn [map] in Q.
    destruct (p_calls p 6); [discriminate|]. now injection Q.
  - destruct (run_reaches wait_demo (nobody ([], [])) [] (reach_none _ _ _ _) wait_demo_fine) as (p & D & R); [vm_compute; reflexivity|].
    exists p. split; [exact R|]. pose proof (proj2 wait_demo_runs) as W. rewrite D in W. cbn [option_map] in W.
    split; [exact (f_equal (fun o => match o with Some x => fst (fst x) | None => [] end) W)|].
    exact (f_equal (fun o => match o with Some x => snd x | None => None end) W).
Qed.

Print Assumptions C83_waits.
Print Assumptions C83_steps.
