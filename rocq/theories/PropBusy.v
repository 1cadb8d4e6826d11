(** Theorems about servers that work on many requests at once: C81 of
    properties.jsonl. *)

From Verif Require Import Base Kernel CoreModel DecodeModel OpsModel WireSpec OpsRoundTrip DecodeProofs
  ReplyModel ReplySpec ReplyProofs PropDecode PropHeader PropReply
  ServerModel ThreadModel ServerSpec PropServer DeviceSpec PropDevice
  ClientSpec PropClient TakenSpec PropTaken FileSpec PropFile CallSpec PropCalls PropDisk.
From Coq Require Import List NArith ZArith Bool Lia Permutation ZifyBool ZifyNat ZifyN Strings.Byte.
Import ListNotations.
Open Scope list_scope.
Open Scope N_scope.

(** ** Specification *)

Section Spec.
Context {E : Endian} {St : Type}.
Context (is_cuse : bool) (max_write buf_len : N) (cf : config) (prog : program St).

(** A request: its header and the operation. *)
Definition asking : Type := (req_header * client_op)%type.
Definition ask_id (r : asking) : N := rh_unique (fst r).

(** A server at work: requests that it has not read, in the order in which they
    arrived; requests it has read; messages it has made and not written; the
    operations that wait in the client, and the results of those that returned. *)
Record busy := {
  b_state : St;
  b_queue : list asking;
  b_taken : list (asking * Request);
  b_made : list bytes;
  b_waiting : N -> option client_op;
  b_results : list (N * (bytes + Z)) }.
Definition idle (s : St) : busy :=
  {| b_state := s; b_queue := []; b_taken := []; b_made := []; b_waiting := fun _ => None; b_results := [] |}.

Inductive event :=
| Arrives (r : asking) | Fails (r : asking) | Taken (r : asking) | Handled (r : asking) | Written (id : N).

(** What may happen.  Any thread that is free reads the next request into its own
    buffer, whatever that held before; handlers are called, and replies written,
    in any order.  A request is new only if no other one with its id waits. *)
Inductive happens : busy -> event -> busy -> Prop :=
| happens_arrive r s q t ms w rs :
  w (ask_id r) = None ->
  happens {| b_state := s; b_queue := q; b_taken := t; b_made := ms; b_waiting := w; b_results := rs |} (Arrives r)
          {| b_state := s; b_queue := q ++ [r]; b_taken := t; b_made := ms;
             b_waiting := fun i => if i =? ask_id r then Some (snd r) else w i; b_results := rs |}
| happens_fail r e s q t ms w rs :
  device_read max_write buf_len (snd r) (linux_message cf (fst r) (snd r)) = OperationFails e ->
  happens {| b_state := s; b_queue := r :: q; b_taken := t; b_made := ms; b_waiting := w; b_results := rs |} (Fails r)
          {| b_state := s; b_queue := q; b_taken := t; b_made := ms;
             b_waiting := fun i => if i =? ask_id r then None else w i;
             b_results := rs ++ [(ask_id r, inr (- Z.of_N e)%Z)] |}
| happens_take r msg buf buf' rq s q t ms w rs :
  device_read max_write buf_len (snd r) (linux_message cf (fst r) (snd r)) = Gets msg ->
  nlen buf = buf_len -> recv_request buf msg = (buf', Ret rq) ->
  happens {| b_state := s; b_queue := r :: q; b_taken := t; b_made := ms; b_waiting := w; b_results := rs |} (Taken r)
          {| b_state := s; b_queue := q; b_taken := t ++ [(r, rq)]; b_made := ms; b_waiting := w; b_results := rs |}
| happens_handle r rq s s' m q t1 t2 ms w rs :
  serve is_cuse cf prog s (op_type (snd r)) (rq_mem rq) = Some (s', m) ->
  happens {| b_state := s; b_queue := q; b_taken := t1 ++ (r, rq) :: t2; b_made := ms; b_waiting := w; b_results := rs |}
          (Handled r)
          {| b_state := s'; b_queue := q; b_taken := t1 ++ t2; b_made := ms ++ [m]; b_waiting := w; b_results := rs |}
| happens_write m id x s q t ms1 ms2 w rs :
  (device_write (cf_minor cf) w m = Completed id x \/
   device_write (cf_minor cf) w m = DeviceSpec.Broken id /\ x = inr (-5)%Z) ->
  happens {| b_state := s; b_queue := q; b_taken := t; b_made := ms1 ++ m :: ms2; b_waiting := w; b_results := rs |}
          (Written id)
          {| b_state := s; b_queue := q; b_taken := t; b_made := ms1 ++ ms2;
             b_waiting := after_write (device_write (cf_minor cf) w m) w; b_results := rs ++ [(id, x)] |}.

Inductive work : busy -> list event -> busy -> Prop :=
| work_nil b : work b [] b
| work_snoc b l b' e b'' : work b l b' -> happens b' e b'' -> work b (l ++ [e]) b''.

Definition arrivals (l : list event) : list asking :=
  flat_map (fun e => match e with Arrives r => [r] | _ => [] end) l.
(** The requests in the order in which they were decided. *)
Definition decided (l : list event) : list asking :=
  flat_map (fun e => match e with Handled r | Fails r => [r] | _ => [] end) l.

(** One request after the other, each from its arrival to its result. *)
Fixpoint in_turn (s : St) (l : list asking) : option (St * list (N * (bytes + Z))) :=
  match l with
  | [] => Some (s, [])
  | r :: l =>
    match exchange is_cuse max_write buf_len cf prog s (fst r) (snd r) with
    | Some (s', x) =>
      match in_turn s' l with
      | Some (s'', rs) => Some (s'', (ask_id r, x) :: rs)
      | None => None
      end
    | None => None
    end
  end.

(** The server can do its part of all requests that [allowed] says, in the states
    that it keeps to. *)
Definition able (ok : St -> Prop) (allowed : asking -> Prop) : Prop :=
  forall s r, ok s -> allowed r ->
  exists s' x, exchange is_cuse max_write buf_len cf prog s (fst r) (snd r) = Some (s', x) /\ ok s'.
End Spec.

(** ** Proofs *)

Section Proofs.
Context {E : Endian} {St : Type}.
Context (is_cuse : bool) (max_write buf_len : N) (cf : config) (prog : program St).

Lemma in_turn_snoc l : forall s s' rs r s'' x,
  in_turn is_cuse max_write buf_len cf prog s l = Some (s', rs) ->
  exchange is_cuse max_write buf_len cf prog s' (fst r) (snd r) = Some (s'', x) ->
  in_turn is_cuse max_write buf_len cf prog s (l ++ [r]) = Some (s'', rs ++ [(ask_id r, x)]).
Proof.
  induction l as [|a l IH]; intros s s' rs r s'' x H X; cbn [in_turn app] in *.
  - injection H as <- <-. now rewrite X.
  - destruct (exchange _ _ _ _ _ s _ _) as [[s1 y]|]; [|discriminate].
    destruct (in_turn _ _ _ _ _ s1 l) as [[s2 rs2]|] eqn:T; [|discriminate]. injection H as <- <-.
    now rewrite (IH _ _ _ _ _ _ T X).
Qed.

(** What a message does when only the operation of [r] waits. *)
Definition ends (rx : asking * (bytes + Z)) (m : bytes) : Prop :=
  match device_write (cf_minor cf) (fun i => if i =? ask_id (fst rx) then Some (snd (fst rx)) else None) m with
  | Completed _ y => snd rx = y
  | DeviceSpec.Broken _ => snd rx = inr (-5)%Z
  | _ => False
  end.

Lemma no_result code p : match device_notify code p with Noticed _ | Refused _ => True | _ => False end.
Proof.
  unfold device_notify, device_name.
  repeat match goal with |- match (if ?b then _ else _) with _ => _ end => destruct b end; exact I.
Qed.

Lemma ends_so rx m w : ends rx m -> w (ask_id (fst rx)) = Some (snd (fst rx)) ->
  device_write (cf_minor cf) w m = Completed (ask_id (fst rx)) (snd rx) \/
  device_write (cf_minor cf) w m = DeviceSpec.Broken (ask_id (fst rx)) /\ snd rx = inr (-5)%Z.
Proof.
  destruct rx as [[hd op] x]. unfold ends, ask_id. cbn [fst snd]. intros H W.
  unfold device_write in *.
  destruct (nlen m <? 16); [contradiction|].
  destruct (negb (u32_at 0 m =? nlen m)); [contradiction|].
  destruct (u64_at 8 m =? 0).
  { pose proof (no_result (u32_at 4 m) (drop 16 m)) as N.
    destruct (device_notify (u32_at 4 m) (drop 16 m)); contradiction. }
  destruct ((_ <=? -512) || _)%Z; [contradiction|].
  destruct (N.odd (u64_at 8 m)).
  { destruct (_ =? rh_unique hd) in H; [|contradiction]. destruct (nlen m =? 16) in H; contradiction. }
  destruct (N.eqb_spec (u64_at 8 m) (rh_unique hd)) as [Q|Q]; [|contradiction].
  rewrite Q, W.
  destruct (as_i32 (u32_at 4 m) =? 0)%Z.
  - destruct (fits _ _); [left|right]; subst x; auto.
  - destruct (nlen m =? 16); [left|right]; subst x; auto.
Qed.

(** ** Working on many requests *)

Context (s0 : St) (ok : St -> Prop) (allowed : asking -> Prop).

(** What is so at any time; [pend] are the requests whose reply was made and not
    written, with their results. *)
Definition fine (l : list event) (b : busy) (rs : list (N * (bytes + Z))) (pend : list (asking * (bytes + Z))) : Prop :=
  let inside := b_queue b ++ map fst (b_taken b) ++ map fst pend in
  ok (b_state b) /\
  in_turn is_cuse max_write buf_len cf prog s0 (decided l) = Some (b_state b, rs) /\
  Forall allowed (b_queue b ++ map fst (b_taken b)) /\
  Forall (fun x => device_read max_write buf_len (snd (fst x)) (linux_message cf (fst (fst x)) (snd (fst x)))
                   = Gets (rq_mem (snd x))) (b_taken b) /\
  Forall2 ends pend (b_made b) /\
  Permutation rs (b_results b ++ map (fun x => (ask_id (fst x), snd x)) pend) /\
  NoDup (map ask_id inside) /\
  Forall (fun r => b_waiting b (ask_id r) = Some (snd r)) inside /\
  (forall i, b_waiting b i <> None -> In i (map ask_id inside)) /\
  Permutation (arrivals l) (decided l ++ b_queue b ++ map fst (b_taken b)).

Lemma perm_forall {A} (f : A -> Prop) l l' : Permutation l l' -> Forall f l -> Forall f l'.
Proof. rewrite !Forall_forall. intros P H x Hx. apply H. now apply (Permutation_in x (Permutation_sym P)). Qed.

Lemma fine_inside l b rs pend inside' :
  fine l b rs pend -> Permutation (b_queue b ++ map fst (b_taken b) ++ map fst pend) inside' ->
  NoDup (map ask_id inside') /\
  Forall (fun r => b_waiting b (ask_id r) = Some (snd r)) inside' /\
  (forall i, b_waiting b i <> None -> In i (map ask_id inside')).
Proof.
  intros (_ & _ & _ & _ & _ & _ & A & B & C & _) P. split; [|split].
  - eapply Permutation_NoDup; [|exact A]. now apply Permutation_map.
  - eapply perm_forall; eauto.
  - intros i H. eapply Permutation_in; [|exact (C i H)]. now apply Permutation_map.
Qed.

Lemma removed (w : N -> option client_op) r l :
  NoDup (map ask_id (r :: l)) -> Forall (fun x => w (ask_id x) = Some (snd x)) (r :: l) ->
  (forall i, w i <> None -> In i (map ask_id (r :: l))) ->
  NoDup (map ask_id l) /\
  Forall (fun x => (if ask_id x =? ask_id r then None else w (ask_id x)) = Some (snd x)) l /\
  (forall i, (if i =? ask_id r then None else w i) <> None -> In i (map ask_id l)).
Proof.
  intros A B C. cbn [map] in A. apply NoDup_cons_iff in A as [A A'].
  split; [exact A'|]. split.
  - apply Forall_inv_tail in B. rewrite Forall_forall in *. intros x Hx.
    destruct (N.eqb_spec (ask_id x) (ask_id r)) as [Q|Q]; [|now apply B].
    destruct A. rewrite <- Q. now apply in_map.
  - intros i Hi. destruct (N.eqb_spec i (ask_id r)); [contradiction|].
    destruct (C i Hi) as [C'|C']; [now destruct n|exact C'].
Qed.

Lemma arrivals_snoc l e : arrivals (l ++ [e]) = arrivals l ++ arrivals [e].
Proof. apply flat_map_app. Qed.
Lemma decided_snoc l e : decided (l ++ [e]) = decided l ++ decided [e].
Proof. apply flat_map_app. Qed.

(** A request that is decided. *)
Lemma decide l b rs pend r s' x :
  able is_cuse max_write buf_len cf prog ok allowed ->
  fine l b rs pend -> allowed r ->
  exchange is_cuse max_write buf_len cf prog (b_state b) (fst r) (snd r) = Some (s', x) ->
  ok s' /\ in_turn is_cuse max_write buf_len cf prog s0 (decided l ++ [r]) = Some (s', rs ++ [(ask_id r, x)]).
Proof.
  intros Can (O & T & _) A X. destruct (Can _ r O A) as (s1 & x1 & X1 & O1).
  rewrite X in X1. injection X1 as <- <-. split; [exact O1|]. eapply in_turn_snoc; eauto.
Qed.

Lemma fine_step l b rs pend e b' :
  able is_cuse max_write buf_len cf prog ok allowed ->
  fine l b rs pend -> happens is_cuse max_write buf_len cf prog b e b' ->
  Forall allowed (arrivals [e]) ->
  exists rs' pend', fine (l ++ [e]) b' rs' pend'.
Proof.
  intros Can F H Al. destruct H as [r s q t ms w res Hw|r e s q t ms w res D
    |r msg buf buf' rq s q t ms w res D Lb R|r rq s s' m q t1 t2 ms w res Sv|m id x s q t ms1 ms2 w res Dw].
  - (* a new request *)
    apply Forall_inv in Al. exists rs, pend.
    assert (P : Permutation (r :: q ++ map fst t ++ map fst pend) ((q ++ [r]) ++ map fst t ++ map fst pend)).
    { rewrite <- app_assoc. apply Permutation_middle. }
    destruct F as (O & T & A & G & En & Pr & Nd & Wt & Ow & Pa). cbn [b_state b_queue b_taken b_made b_waiting b_results] in *.
    unfold fine. cbn [b_state b_queue b_taken b_made b_waiting b_results].
    rewrite arrivals_snoc, decided_snoc. cbn [arrivals decided flat_map app]. rewrite app_nil_r.
    split; [exact O|]. split; [exact T|].
    split; [rewrite !Forall_app in *; repeat split; try apply A; constructor; [exact Al|constructor]|].
    split; [exact G|]. split; [exact En|]. split; [exact Pr|].
    assert (Nw : ~ In (ask_id r) (map ask_id (q ++ map fst t ++ map fst pend))).
    { intros Hi. apply in_map_iff in Hi as (x & Hx & Hi). rewrite Forall_forall in Wt. specialize (Wt x Hi).
      rewrite Hx, Hw in Wt. discriminate. }
    split; [eapply Permutation_NoDup; [apply Permutation_map; exact P|]; now constructor|].
    split; [eapply perm_forall; [exact P|]|].
    { constructor; [now rewrite N.eqb_refl|]. rewrite Forall_forall in *. intros x Hx.
      destruct (N.eqb_spec (ask_id x) (ask_id r)) as [Q|Q]; [|now apply Wt].
      destruct Nw. rewrite <- Q. now apply in_map. }
    split.
    { intros i Hi. eapply Permutation_in; [apply Permutation_map; exact P|].
      destruct (N.eqb_spec i (ask_id r)) as [Q|Q]; [left; now rewrite Q|right; now apply Ow]. }
    rewrite Pa, <- !app_assoc. apply Permutation_app_head, Permutation_app_head, Permutation_app_comm.
  - (* too long for the device *)
    pose proof F as F'. destruct F as (O & T & A & G & En & Pr & Nd & Wt & Ow & Pa).
    cbn [b_state b_queue b_taken b_made b_waiting b_results] in *.
    assert (X : exchange is_cuse max_write buf_len cf prog s (fst r) (snd r) = Some (s, inr (- Z.of_N e)%Z))
      by (unfold exchange; now rewrite D).
    pose proof (Forall_inv A) as Ar. apply Forall_inv_tail in A.
    destruct (decide _ _ _ _ r s _ Can F' Ar X) as [O' T'].
    destruct (removed w r _ Nd Wt Ow) as (R1 & R2 & R3).
    exists (rs ++ [(ask_id r, inr (- Z.of_N e)%Z)]), pend.
    unfold fine. cbn [b_state b_queue b_taken b_made b_waiting b_results].
    rewrite arrivals_snoc, decided_snoc. cbn [arrivals decided flat_map app]. rewrite app_nil_r.
    repeat (split; [assumption|]). split.
    { rewrite Pr, <- !app_assoc. apply Permutation_app_head, Permutation_app_comm. }
    repeat (split; [assumption|]). now rewrite Pa, <- app_assoc.
  - (* read *)
    pose proof F as F'. destruct F as (O & T & A & G & En & Pr & Nd & Wt & Ow & Pa).
    cbn [b_state b_queue b_taken b_made b_waiting b_results] in *.
    assert (Q : rq_mem rq = msg).
    { unfold recv_request in R. pose proof (received buf msg) as Rv. destruct (recv_into buf msg) as [b1 n].
      destruct Rv as [Rv _]. injection R as _ R. rewrite Rv in R.
      assert (L : nlen msg <= buf_len).
      { unfold device_read in D. destruct (buf_len <? N.max 8192 (80 + max_write)); [discriminate|].
        destruct (N.ltb_spec buf_len (nlen (linux_message cf (fst r) (snd r)))); [discriminate|].
        injection D as <-. lia. }
      rewrite take_all in R by lia. destruct (acceptable_dec msg) as [Ac|Ac].
      - rewrite not_refused in R by exact Ac. now injection R as <-.
      - rewrite refused in R by exact Ac. discriminate. }
    assert (P : Permutation (r :: q ++ map fst t) (q ++ map fst (t ++ [(r, rq)]))).
    { rewrite map_app. cbn [map fst]. rewrite app_assoc. apply Permutation_cons_append. }
    assert (P' : Permutation (r :: q ++ map fst t ++ map fst pend) (q ++ map fst (t ++ [(r, rq)]) ++ map fst pend)).
    { rewrite (app_assoc q), (app_assoc q). rewrite <- P. reflexivity. }
    destruct (fine_inside _ _ _ _ _ F' P') as (I1 & I2 & I3).
    exists rs, pend. unfold fine. cbn [b_state b_queue b_taken b_made b_waiting b_results] in *.
    rewrite arrivals_snoc, decided_snoc. cbn [arrivals decided flat_map app]. rewrite !app_nil_r.
    split; [exact O|]. split; [exact T|]. split; [eapply perm_forall; [exact P|exact A]|].
    split; [apply Forall_app; split; [exact G|]; constructor; [cbn [fst snd]; rewrite D, Q; reflexivity|constructor]|].
    repeat (split; [assumption|]). rewrite Pa. apply Permutation_app_head. exact P.
  - (* handled *)
    pose proof F as F'. destruct F as (O & T & A & G & En & Pr & Nd & Wt & Ow & Pa).
    cbn [b_state b_queue b_taken b_made b_waiting b_results] in *.
    rewrite map_app in A, Pa. cbn [map fst] in A, Pa.
    assert (P : Permutation (q ++ map fst t1 ++ r :: map fst t2) (r :: q ++ map fst (t1 ++ t2))).
    { rewrite map_app, !app_assoc. symmetry. apply Permutation_middle. }
    assert (Ar : allowed r) by (apply (perm_forall _ _ _ P) in A; exact (Forall_inv A)).
    assert (At : Forall allowed (q ++ map fst (t1 ++ t2))) by (apply (perm_forall _ _ _ P) in A; exact (Forall_inv_tail A)).
    apply Forall_app in G as [G1 G2]. pose proof (Forall_inv G2) as Gr. apply Forall_inv_tail in G2. cbn [fst snd] in Gr.
    destruct (Can _ r O Ar) as (s1 & x & X & _).
    assert (Q : s1 = s' /\ ends (r, x) m).
    { unfold exchange in X. rewrite Gr, Sv in X. unfold ends. cbn [fst snd]. unfold ask_id.
      destruct (device_write _ _ m); try discriminate; injection X as <- <-; auto. }
    destruct Q as [-> Em]. destruct (decide _ _ _ _ r s' x Can F' Ar X) as [O' T'].
    assert (P' : Permutation (q ++ map fst (t1 ++ (r, rq) :: t2) ++ map fst pend)
                   (q ++ map fst (t1 ++ t2) ++ map fst (pend ++ [(r, x)]))).
    { rewrite (map_app fst t1). cbn [map fst]. rewrite app_assoc, P. cbn [app].
      rewrite (map_app fst pend). cbn [map fst]. rewrite (app_assoc q), (app_assoc (q ++ _)).
      apply Permutation_cons_append. }
    destruct (fine_inside _ _ _ _ _ F' P') as (I1 & I2 & I3).
    exists (rs ++ [(ask_id r, x)]), (pend ++ [(r, x)]).
    unfold fine. cbn [b_state b_queue b_taken b_made b_waiting b_results] in *.
    rewrite arrivals_snoc, decided_snoc. cbn [arrivals decided flat_map app]. rewrite app_nil_r.
    split; [exact O'|]. split; [exact T'|]. split; [exact At|]. split; [apply Forall_app; now split|].
    split; [apply Forall2_app; [exact En|]; constructor; [exact Em|constructor]|].
    split; [rewrite (map_app _ pend), app_assoc; apply Permutation_app_tail; exact Pr|].
    repeat (split; [assumption|]). rewrite Pa, <- app_assoc. apply Permutation_app_head. exact P.
  - (* written *)
    pose proof F as F'. destruct F as (O & T & A & G & En & Pr & Nd & Wt & Ow & Pa).
    cbn [b_state b_queue b_taken b_made b_waiting b_results] in *.
    apply Forall2_app_inv_r in En as (p1 & p2' & E1 & E2 & ->). inversion E2 as [|rx ? p2 ? Ex E2']; subst.
    assert (P : Permutation (q ++ map fst t ++ map fst (p1 ++ rx :: p2)) (fst rx :: q ++ map fst t ++ map fst (p1 ++ p2))).
    { rewrite !map_app. cbn [map]. rewrite !app_assoc. symmetry. apply Permutation_middle. }
    destruct (fine_inside _ _ _ _ _ F' P) as (I1 & I2 & I3). cbn [b_waiting] in I1, I2, I3.
    pose proof (Forall_inv I2) as Wr. cbv beta in Wr.
    assert (Q : id = ask_id (fst rx) /\ x = snd rx /\
      after_write (device_write (cf_minor cf) w m) w = fun i => if i =? ask_id (fst rx) then None else w i).
    { destruct (ends_so rx m w Ex Wr) as [Y|[Y Y']]; rewrite Y in *;
        destruct Dw as [Dw|[Dw Dw']]; try discriminate Dw; injection Dw as <-; try subst x; repeat split; auto. }
    destruct Q as (-> & -> & ->).
    destruct (removed w (fst rx) _ I1 I2 I3) as (R1 & R2 & R3).
    exists rs, (p1 ++ p2). unfold fine. cbn [b_state b_queue b_taken b_made b_waiting b_results].
    rewrite arrivals_snoc, decided_snoc. cbn [arrivals decided flat_map app]. rewrite !app_nil_r.
    repeat (split; [assumption|]). split; [now apply Forall2_app|]. split.
    { rewrite Pr, !map_app, <- app_assoc. apply Permutation_app_head. cbn [map app]. symmetry. apply Permutation_middle. }
    repeat (split; [assumption|]). exact Pa.
Qed.

Lemma fine_always l b :
  able is_cuse max_write buf_len cf prog ok allowed -> ok s0 ->
  work is_cuse max_write buf_len cf prog (idle s0) l b -> Forall allowed (arrivals l) ->
  exists rs pend, fine l b rs pend.
Proof.
  intros Can O W. remember (idle s0) as b0 eqn:B0. induction W as [b|b l b' e b'' W IH H]; intros A.
  - subst b. exists [], []. unfold fine. cbn.
    split; [exact O|]. split; [reflexivity|]. repeat (split; [constructor|]). split; [easy|constructor].
  - subst b. rewrite arrivals_snoc in A. apply Forall_app in A as [A1 A2].
    destruct (IH eq_refl A1) as (rs & pend & F). eapply fine_step; eauto.
Qed.

(** However the threads of a server share the work, and in whichever order the
    replies are written: it is as if the requests had been served one after the
    other, in the order in which they were decided.  Every result that a client
    got is its own; those still missing are in the messages not written.  Since
    this is so at any time, a request that returned before another one arrived
    comes before it in that order. *)
Theorem C81_in_turn l b :
  able is_cuse max_write buf_len cf prog ok allowed -> ok s0 ->
  work is_cuse max_write buf_len cf prog (idle s0) l b -> Forall allowed (arrivals l) ->
  exists rs missing,
    in_turn is_cuse max_write buf_len cf prog s0 (decided l) = Some (b_state b, rs) /\
    Permutation rs (b_results b ++ missing) /\ length missing = length (b_made b) /\
    Permutation (arrivals l) (decided l ++ b_queue b ++ map fst (b_taken b)) /\
    (b_queue b = [] -> b_taken b = [] -> b_made b = [] -> forall i, b_waiting b i = None).
Proof.
  intros Can O W A. destruct (fine_always l b Can O W A) as (rs & pend & F).
  destruct F as (_ & T & _ & _ & En & Pr & _ & _ & Ow & Pa).
  exists rs, (map (fun x => (ask_id (fst x), snd x)) pend).
  split; [exact T|]. split; [exact Pr|]. split; [rewrite map_length; clear - En; induction En; cbn; congruence|].
  split; [exact Pa|]. intros Q1 Q2 Q3 i. rewrite Q3 in En. inversion En; subst pend.
  rewrite Q1, Q2 in Ow. destruct (b_waiting b i) eqn:Wi; [|reflexivity].
  now destruct (Ow i ltac:(congruence)).
Qed.

Definition left_over (b : @busy St) : nat :=
  (3 * length (b_queue b) + 2 * length (b_taken b) + length (b_made b))%nat.

(** Nothing gets stuck: whoever is free can read the next request (or it fails in
    the client), every request that was read can be handled, every message can be
    written and ends an operation. *)
Theorem C81_goes_on l b :
  able is_cuse max_write buf_len cf prog ok allowed -> ok s0 ->
  work is_cuse max_write buf_len cf prog (idle s0) l b -> Forall allowed (arrivals l) ->
  (forall r q (buf : bytes), b_queue b = r :: q -> nlen buf = buf_len ->
     exists b', happens is_cuse max_write buf_len cf prog b (Taken r) b' \/
                happens is_cuse max_write buf_len cf prog b (Fails r) b') /\
  (forall r rq, In (r, rq) (b_taken b) -> exists b', happens is_cuse max_write buf_len cf prog b (Handled r) b') /\
  (forall m, In m (b_made b) -> exists id b', happens is_cuse max_write buf_len cf prog b (Written id) b').
Proof.
  intros Can O W A. destruct (fine_always l b Can O W A) as (rs & pend & F).
  destruct F as (Ok & _ & Al & G & En & _ & _ & Wt & _). destruct b as [s q t ms w res].
  cbn [b_state b_queue b_taken b_made b_waiting b_results] in *. split; [|split].
  - intros r q' buf -> Lb. pose proof (Forall_inv Al) as Ar.
    destruct (Can s r Ok Ar) as (s' & x & X & _). unfold exchange in X.
    destruct (device_read _ _ _ _) as [msg|e|] eqn:D; [| |discriminate].
    + destruct (recv_request buf msg) as [buf' r'] eqn:R.
      assert (Q : r' = Ret {| rq_mem := msg |}).
      { unfold recv_request in R. pose proof (received buf msg) as Rv. destruct (recv_into buf msg) as [b1 n].
        destruct Rv as [Rv _]. injection R as _ <-. rewrite Rv.
        assert (L : nlen msg <= buf_len).
        { unfold device_read in D. destruct (buf_len <? N.max 8192 (80 + max_write)); [discriminate|].
          destruct (N.ltb_spec buf_len (nlen (linux_message cf (fst r) (snd r)))); [discriminate|].
          injection D as <-. lia. }
        rewrite take_all by lia. destruct (acceptable_dec msg) as [Ac|Ac]; [now apply not_refused|].
        exfalso. unfold serve in X. rewrite (refused _ Ac) in X. discriminate. }
      subst r'. eexists. left. eapply happens_take; eauto.
    + eexists. right. eapply happens_fail; eauto.
  - intros r rq Hr. apply in_split in Hr as (t1 & t2 & ->).
    rewrite Forall_forall in Al, G. assert (Ar : allowed r).
    { apply Al. apply in_or_app. right. apply (in_map fst _ (r, rq)). apply in_or_app. right. now left. }
    assert (Gr := G (r, rq) ltac:(apply in_or_app; right; now left)). cbn [fst snd] in Gr.
    destruct (Can s r Ok Ar) as (s' & x & X & _). unfold exchange in X. rewrite Gr in X.
    destruct (serve _ _ _ _ _ _) as [[s1 m]|] eqn:Sv; [|discriminate].
    eexists. eapply happens_handle. exact Sv.
  - intros m Hm. apply in_split in Hm as (ms1 & ms2 & ->).
    apply Forall2_app_inv_r in En as (p1 & p2' & E1 & E2 & ->). inversion E2 as [|rx ? p2 ? Ex E2']; subst.
    rewrite Forall_forall in Wt. assert (Wr : w (ask_id (fst rx)) = Some (snd (fst rx))).
    { apply Wt. apply in_or_app. right. apply in_or_app. right. apply in_map. apply in_or_app. right. now left. }
    exists (ask_id (fst rx)). eexists. apply happens_write. exact (ends_so rx m w Ex Wr).
Qed.

(** The threads of fuse-std read requests so: a worker that is free gets the next
    request and goes on to dispatch it; it never reports an error, panics or ends
    because of a request. *)
Theorem C81_worker l b k threads p p' i buf r q msg :
  able is_cuse max_write buf_len cf prog ok allowed -> ok s0 ->
  work is_cuse max_write buf_len cf prog (idle s0) l b -> Forall allowed (arrivals l) ->
  b_queue b = r :: q ->
  device_read max_write buf_len (snd r) (linux_message cf (fst r) (snd r)) = Gets msg ->
  nth_error (p_workers p) i = Some (WRecv buf) -> nlen buf = buf_len ->
  tstep k threads p (TRecv i (Message msg)) p' ->
  exists buf' rq b',
    p' = {| p_caller := p_caller p; p_workers := set_worker i (WDispatch buf' rq) (p_workers p); p_channel := p_channel p |} /\
    nlen buf' = buf_len /\
    happens is_cuse max_write buf_len cf prog b (Taken r) b' /\
    b_queue b' = q /\ b_taken b' = b_taken b ++ [(r, rq)] /\
    exists b'', happens is_cuse max_write buf_len cf prog b' (Handled r) b''.
Proof.
  intros Can O W A Q D Hw Lb T. destruct (fine_always l b Can O W A) as (rs & pend & F).
  destruct F as (Ok & _ & Al & _). rewrite Q in Al. pose proof (Forall_inv Al) as Ar.
  destruct (Can _ r Ok Ar) as (s' & x & X & _). unfold exchange in X. rewrite D in X.
  inversion T as [| | |c ws ch j b0 ev Hw' Ep El Ep'| | |]; subst p p' j ev. cbn [p_workers p_caller p_channel] in *.
  rewrite Hw in Hw'. injection Hw' as <-.
  destruct (recv_request buf msg) as [buf' r'] eqn:R. pose proof R as R'.
  assert (Z : r' = Ret {| rq_mem := msg |} /\ nlen buf' = buf_len).
  { unfold recv_request in R. pose proof (received buf msg) as Rv. destruct (recv_into buf msg) as [b1 n].
    destruct Rv as [Rv Lv]. injection R as <- <-. rewrite Rv. split; [|congruence].
    assert (L : nlen msg <= buf_len).
    { unfold device_read in D. destruct (buf_len <? N.max 8192 (80 + max_write)); [discriminate|].
      destruct (N.ltb_spec buf_len (nlen (linux_message cf (fst r) (snd r)))); [discriminate|].
      injection D as <-. lia. }
    rewrite take_all by lia. destruct (acceptable_dec msg) as [Ac|Ac]; [now apply not_refused|].
    exfalso. unfold serve in X. rewrite (refused _ Ac) in X. discriminate. }
  destruct Z as [-> Lb']. destruct b as [s qq t ms w res]. cbn [b_state b_queue b_taken] in *. subst qq.
  exists buf', {| rq_mem := msg |}. eexists. unfold after_recv. rewrite R.
  split; [reflexivity|]. split; [exact Lb'|].
  split; [exact (happens_take _ _ _ _ _ r msg buf buf' {| rq_mem := msg |} s q t ms w res D Lb R')|].
  split; [reflexivity|]. split; [reflexivity|].
  destruct (serve is_cuse cf prog s (op_type (snd r)) msg) as [[s1 m]|] eqn:Sv; [|discriminate].
  eexists. apply (happens_handle _ _ _ _ _ r {| rq_mem := msg |} s s1 m q t []). exact Sv.
Qed.

Lemma less_left b e b' : happens is_cuse max_write buf_len cf prog b e b' -> arrivals [e] = [] ->
  (left_over b' < left_over b)%nat.
Proof.
  intros H N. destruct H; try discriminate N; unfold left_over; cbn [b_queue b_taken b_made];
    rewrite ?app_length; cbn [length]; rewrite ?app_length; cbn [length]; lia.
Qed.

(** Once no more requests arrive the work comes to an end, whatever is done next:
    all have their results.  (And since every step leaves less to do, every way
    to go on leads there.) *)
Theorem C81_ends l b :
  able is_cuse max_write buf_len cf prog ok allowed -> ok s0 ->
  work is_cuse max_write buf_len cf prog (idle s0) l b -> Forall allowed (arrivals l) ->
  (exists l' b', work is_cuse max_write buf_len cf prog (idle s0) (l ++ l') b' /\ arrivals l' = [] /\ left_over b' = 0%nat) /\
  (forall e b', happens is_cuse max_write buf_len cf prog b e b' -> arrivals [e] = [] -> (left_over b' < left_over b)%nat).
Proof.
  intros Can O W A. split; [|intros; eapply less_left; eauto].
  remember (left_over b) as n eqn:Hn. revert l b W A Hn.
  induction n as [n IH] using lt_wf_ind. intros l b W A Hn.
  destruct (Nat.eq_dec n 0) as [Z|Z].
  { exists [], b. rewrite app_nil_r. split; [exact W|]. split; [reflexivity|congruence]. }
  assert (X : exists e b', happens is_cuse max_write buf_len cf prog b e b' /\ arrivals [e] = []).
  { destruct (C81_goes_on l b Can O W A) as (H1 & H2 & H3).
    destruct (b_queue b) as [|r q] eqn:Q.
    - destruct (b_taken b) as [|[r rq] t] eqn:T.
      + destruct (b_made b) as [|m ms] eqn:M.
        * destruct Z. subst n. unfold left_over. now rewrite Q, T, M.
        * destruct (H3 m ltac:(now left)) as (id & b' & H). eauto.
      + destruct (H2 r rq ltac:(now left)) as (b' & H). eauto.
    - destruct (H1 r q (repeat x00 (N.to_nat buf_len)) eq_refl) as (b' & [H|H]);
        [unfold nlen; rewrite repeat_length; lia|eauto..]. }
  destruct X as (e & b' & H & Ne).
  destruct (IH (left_over b')) with (l := l ++ [e]) (b := b') as (l' & b'' & W' & N' & L').
  - subst n. eapply less_left; eauto.
  - eapply work_snoc; eauto.
  - rewrite arrivals_snoc, Ne, app_nil_r. exact A.
  - reflexivity.
  - exists (e :: l'), b''. rewrite <- app_assoc in W'. split; [exact W'|]. split; [|exact L'].
    change (e :: l') with ([e] ++ l'). unfold arrivals in *. rewrite flat_map_app, Ne. exact N'.
Qed.
End Proofs.

(** ** Programs that make system calls at the same time *)

Section Calls.
Context {E : Endian} {St : Type}.

(** The [k]-th request of a session, when it is for the call [c]. *)
Definition calling (m : mounted) (kc : nat * sys_call) : asking :=
  let (node, op) := request_of (snd kc) in (header m (fst kc) node, op).
(** What a call returns when its request has this result. *)
Definition returns (m : mounted) (c : sys_call) (x : bytes + Z) : sys_result :=
  match x with inl p => result_of (m_bs m) c p | inr e => snd (after_error [] c (- e)) end.
(** The handlers called with one call after the other. *)
Fixpoint one_by_one (m : mounted) (h : PropCalls.handler (St := St)) (s : St) (l : list sys_call) : St * list sys_result :=
  match l with
  | [] => (s, [])
  | c :: l =>
    let '(_, s', r) := handled_one (cf_minor (m_cf m)) (m_bs m) h [] s c in
    let (s'', rs) := one_by_one m h s' l in (s'', r :: rs)
  end.
Fixpoint all_return (m : mounted) (cs : list sys_call) (xs : list (bytes + Z)) : list sys_result :=
  match cs, xs with c :: cs, x :: xs => returns m c x :: all_return m cs xs | _, _ => [] end.

Lemma call_exchange m (h : PropCalls.handler (St := St)) k s c :
  good_mount m -> call_ok c -> too_old (cf_minor (m_cf m)) c = false -> answers c (snd (h s (asked c))) ->
  exists x,
    exchange false (m_max_write m) (m_buf_len m) (m_cf m) (program_with h) s (fst (calling m (k, c))) (snd (calling m (k, c))) =
      Some (fst (h s (asked c)), x) /\
    exists kn, handled_one (cf_minor (m_cf m)) (m_bs m) h [] s c = (kn, fst (h s (asked c)), returns m c x).
Proof.
  intros G C T A. pose proof (C75_call m h k [] s c G C A) as H.
  assert (Sk : skipped [] c = None) by (clear; destruct c; reflexivity).
  assert (Hs : exists kn r, handled_one (cf_minor (m_cf m)) (m_bs m) h [] s c = (kn, fst (h s (asked c)), r)).
  { clear - T Sk. unfold handled_one. rewrite T, Sk. destruct (h s (asked c)) as [s' a]. cbn [fst].
    destruct a; try (do 2 eexists; reflexivity). destruct (after_error _ _ _). do 2 eexists. reflexivity. }
  destruct Hs as (kn & r & Hs). rewrite Hs in *.
  unfold sys in H. rewrite T, Sk in H. unfold calling. cbn [snd fst].
  destruct (request_of c) as [node op]. cbn [fst snd].
  destruct (exchange _ _ _ _ _ s _ _) as [[s' [p|e]]|]; [| |discriminate].
  - exists (inl p). cbn [returns]. injection H as <- -> <-. split; [reflexivity|]. exists []. reflexivity.
  - exists (inr e). cbn [returns]. destruct (after_error [] c (- e)) as [kn' r'] eqn:Ae.
    injection H as <- -> <-. split; [reflexivity|]. exists kn'. cbn [snd]. reflexivity.
Qed.

(** The requests of calls. *)
Definition call_allowed (m : mounted) (r : asking) : Prop :=
  exists kc, r = calling m kc /\ call_ok (snd kc) /\ too_old (cf_minor (m_cf m)) (snd kc) = false.
Lemma able_calls m (h : PropCalls.handler (St := St)) (ok : St -> Prop) :
  good_mount m ->
  (forall s c, ok s -> call_ok c -> ok (fst (h s (asked c))) /\ answers c (snd (h s (asked c)))) ->
  able false (m_max_write m) (m_buf_len m) (m_cf m) (program_with h) ok (call_allowed m).
Proof.
  intros G Can s r Hs ([k c] & -> & C & T). cbn [snd] in C, T. destruct (Can s c Hs C) as [O' A].
  destruct (call_exchange m h k s c G C T A) as (x & X & _). eauto.
Qed.

(** Programs make calls at the same time, and the server works on them with any
    number of threads.  When all have returned, each got the result, and the
    server has the state, of handlers called once for each call, one after the
    other. *)
Theorem C81_calls m (h : PropCalls.handler (St := St)) (ok : St -> Prop) cs s0 l b :
  good_mount m ->
  (forall s c, ok s -> call_ok c -> ok (fst (h s (asked c))) /\ answers c (snd (h s (asked c)))) -> ok s0 ->
  Forall (fun kc => call_ok (snd kc) /\ too_old (cf_minor (m_cf m)) (snd kc) = false) cs ->
  work false (m_max_write m) (m_buf_len m) (m_cf m) (program_with h) (idle s0) l b ->
  arrivals l = map (calling m) cs -> left_over b = 0%nat ->
  exists ds rs,
    Permutation cs ds /\ Permutation (b_results b) rs /\
    map fst rs = map (fun kc => ask_id (calling m kc)) ds /\
    one_by_one m h s0 (map snd ds) = (b_state b, all_return m (map snd ds) (map snd rs)) /\
    forall i, b_waiting b i = None.
Proof.
  intros G Can O Cs W Ar L.
  set (may := fun kc : nat * sys_call => call_ok (snd kc) /\ too_old (cf_minor (m_cf m)) (snd kc) = false) in *.
  set (allowed := call_allowed m). pose proof (able_calls m h ok G Can) as Able. fold allowed in Able.
  assert (Al : Forall allowed (arrivals l)).
  { rewrite Ar. apply Forall_forall. intros r Hr. apply in_map_iff in Hr as (kc & <- & Hk).
    exists kc. split; [reflexivity|]. rewrite Forall_forall in Cs. now apply Cs. }
  destruct (C81_in_turn false _ _ _ _ s0 ok allowed l b Able O W Al) as (rs & missing & T & Pr & Lm & Pa & Nb).
  unfold left_over in L.
  assert (Q : b_queue b = [] /\ b_taken b = [] /\ b_made b = []).
  { destruct (b_queue b), (b_taken b), (b_made b); cbn [length] in L; try lia; auto. }
  destruct Q as (Q1 & Q2 & Q3). rewrite Q3 in Lm. destruct missing; [|discriminate]. rewrite app_nil_r in Pr.
  rewrite Q1, Q2, app_nil_r, Ar in Pa. symmetry in Pa. apply Permutation_map_inv in Pa as (ds & Ed & Pd).
  exists ds, rs. split; [exact Pd|]. split; [now symmetry|]. rewrite Ed in T.
  assert (F : Forall may ds) by (eapply perm_forall; [exact Pd|exact Cs]).
  cut (map fst rs = map (fun kc => ask_id (calling m kc)) ds /\
       one_by_one m h s0 (map snd ds) = (b_state b, all_return m (map snd ds) (map snd rs))).
  { intros [X1 X2]. split; [exact X1|]. split; [exact X2|]. now apply Nb. }
  clear - G Can O T F. revert s0 O rs T. induction ds as [|[k c] ds IH]; intros s0 O rs T.
  - cbn [map in_turn] in T. injection T as <- <-. split; reflexivity.
  - apply Forall_cons_iff in F as [[C To] F]. cbn [snd] in C, To.
    destruct (Can s0 c O C) as [O' A]. destruct (call_exchange m h k s0 c G C To A) as (x & X & kn & H).
    cbn [map in_turn] in T. rewrite X in T.
    destruct (in_turn _ _ _ _ _ _ (map (calling m) ds)) as [[s2 rs2]|] eqn:T2; [|discriminate].
    injection T as -> <-. destruct (IH F _ O' rs2 T2) as [I1 I2].
    split; [cbn [map fst]; now rewrite I1|]. cbn [map snd one_by_one all_return]. rewrite H, I2. reflexivity.
Qed.
End Calls.

(** ** Examples *)

Local Instance LE : Endian := false.

(** mkdir("a") and a look-up of "a" at the same time: both requests are read before
    one is handled, the look-up is handled first and answered last. *)
Definition two_calls : list (nat * sys_call) := [(0%nat, Mkdir 1 [x61] 493 18); (1%nat, Lookup 1 [x61])].
Definition r_mkdir : asking := calling demo_mount (0%nat, Mkdir 1 [x61] 493 18).
Definition r_look : asking := calling demo_mount (1%nat, Lookup 1 [x61]).
Definition two_events : list event :=
  [Arrives r_mkdir; Arrives r_look; Taken r_mkdir; Taken r_look; Handled r_look; Handled r_mkdir; Written 2; Written 4].
Notation happens_here := (happens false (m_max_write demo_mount) (m_buf_len demo_mount) (m_cf demo_mount) (program_with disk)).
Notation work_here := (work false (m_max_write demo_mount) (m_buf_len demo_mount) (m_cf demo_mount) (program_with disk)).
Definition raw (r : asking) : Request := {| rq_mem := linux_message (m_cf demo_mount) (fst r) (snd r) |}.
Definition some_buf : bytes := repeat xff (N.to_nat 8192).
Definition after_serve (s : tree) (r : asking) : tree * bytes :=
  match serve false (m_cf demo_mount) (program_with disk) s (op_type (snd r)) (rq_mem (raw r)) with
  | Some x => x
  | None => (s, [])
  end.
Lemma demo_take r s q t ms w rs :
  device_read (m_max_write demo_mount) (m_buf_len demo_mount) (snd r) (rq_mem (raw r)) = Gets (rq_mem (raw r)) ->
  nlen (rq_mem (raw r)) <= 8192 -> acceptable (rq_mem (raw r)) ->
  happens_here {| b_state := s; b_queue := r :: q; b_taken := t; b_made := ms; b_waiting := w; b_results := rs |} (Taken r)
    {| b_state := s; b_queue := q; b_taken := t ++ [(r, raw r)]; b_made := ms; b_waiting := w; b_results := rs |}.
Proof.
  intros D L A. apply (happens_take false _ _ _ _ r (rq_mem (raw r)) some_buf (fst (recv_request some_buf (rq_mem (raw r)))) (raw r));
    [exact D|reflexivity|].
  unfold recv_request. pose proof (received some_buf (rq_mem (raw r))) as Rv.
  destruct (recv_into some_buf (rq_mem (raw r))) as [b1 n]. destruct Rv as [Rv _]. cbn [fst]. f_equal. rewrite Rv.
  replace (nlen some_buf) with 8192 by reflexivity. rewrite take_all by exact L. now rewrite not_refused.
Qed.
Lemma two_work : exists b, work_here (idle empty_tree) two_events b /\ left_over b = 0%nat /\
  map fst (b_results b) = [2; 4] /\ map (fun x => match snd x with inl p => nlen p | inr e => Z.to_N (- e) end) (b_results b) = [128; 2] /\
  map (fun e => snd (fst e)) (t_names (b_state b)) = [[x61]].
Proof.
  pose (s1 := fst (after_serve empty_tree r_look)). pose (m1 := snd (after_serve empty_tree r_look)).
  pose (s2 := fst (after_serve s1 r_mkdir)). pose (m2 := snd (after_serve s1 r_mkdir)).
  assert (H1 : serve false (m_cf demo_mount) (program_with disk) empty_tree (op_type (snd r_look)) (rq_mem (raw r_look)) = Some (s1, m1))
    by (vm_compute; reflexivity).
  assert (H2 : serve false (m_cf demo_mount) (program_with disk) s1 (op_type (snd r_mkdir)) (rq_mem (raw r_mkdir)) = Some (s2, m2))
    by (vm_compute; reflexivity).
  assert (D1 : device_read (m_max_write demo_mount) (m_buf_len demo_mount) (snd r_mkdir) (rq_mem (raw r_mkdir)) = Gets (rq_mem (raw r_mkdir)) /\
    nlen (rq_mem (raw r_mkdir)) <= 8192 /\ acceptable (rq_mem (raw r_mkdir))) by (vm_compute; repeat split; discriminate).
  assert (D2 : device_read (m_max_write demo_mount) (m_buf_len demo_mount) (snd r_look) (rq_mem (raw r_look)) = Gets (rq_mem (raw r_look)) /\
    nlen (rq_mem (raw r_look)) <= 8192 /\ acceptable (rq_mem (raw r_look))) by (vm_compute; repeat split; discriminate).
  destruct D1 as (D1 & L1 & A1). destruct D2 as (D2 & L2 & A2).
  pose (x2 := @inl bytes Z (drop 16 m2)). pose (x1 := @inr bytes Z (-2)%Z).
  assert (E1 : ends (m_cf demo_mount) (r_look, x1) m1) by (vm_compute; reflexivity).
  assert (E2 : ends (m_cf demo_mount) (r_mkdir, x2) m2) by (vm_compute; reflexivity).
  assert (Ln : nlen (drop 16 m2) = 128) by (vm_compute; reflexivity).
  assert (Ns : map (fun e => snd (fst e)) (t_names s2) = [[x61]]) by (vm_compute; reflexivity).
  clearbody m1 m2 s2.
  pose proof (work_nil false (m_max_write demo_mount) (m_buf_len demo_mount) (m_cf demo_mount) (program_with disk) (idle empty_tree)) as W.
  eapply work_snoc in W; [|exact (happens_arrive _ _ _ _ _ r_mkdir _ _ _ _ _ _ eq_refl)].
  eapply work_snoc in W; [|exact (happens_arrive _ _ _ _ _ r_look _ _ _ _ _ _ eq_refl)].
  cbn [app] in W.
  eapply work_snoc in W; [|exact (demo_take r_mkdir _ _ _ _ _ _ D1 L1 A1)].
  eapply work_snoc in W; [|exact (demo_take r_look _ _ _ _ _ _ D2 L2 A2)].
  cbn [app] in W.
  eapply work_snoc in W; [|exact (happens_handle _ _ _ _ _ r_look (raw r_look) _ s1 m1 _ [(r_mkdir, raw r_mkdir)] [] _ _ _ H1)].
  cbn [app] in W.
  eapply work_snoc in W; [|exact (happens_handle _ _ _ _ _ r_mkdir (raw r_mkdir) _ s2 m2 _ [] [] _ _ _ H2)].
  cbn [app] in W.
  eapply work_snoc in W;
    [|refine (happens_write _ _ _ _ _ m2 2 x2 _ _ _ [m1] [] _ _ _); exact (ends_so _ (r_mkdir, x2) m2 _ E2 eq_refl)].
  cbn [app] in W.
  eapply work_snoc in W;
    [|refine (happens_write _ _ _ _ _ m1 4 x1 _ _ _ [] [] _ _ _); apply (ends_so _ (r_look, x1) m1); [exact E1|] ].
  - eexists. split; [exact W|]. split; [reflexivity|]. split; [reflexivity|].
    split; [cbn [b_results map snd app x1 x2]; rewrite Ln; reflexivity|exact Ns].
  - match goal with |- after_write (device_write _ ?w _) _ _ = _ =>
      destruct (ends_so (m_cf demo_mount) (r_mkdir, x2) m2 w E2 eq_refl) as [Y|[_ Y]]; [rewrite Y|discriminate Y] end.
    reflexivity.
Qed.

Lemma two_ok : Forall (fun kc => call_ok (snd kc) /\ too_old (cf_minor (m_cf demo_mount)) (snd kc) = false) two_calls.
Proof.
  assert (G : call_name [x61]).
  { split; [|cbn; lia]. split; [discriminate|]. split; cbn; intuition congruence. }
  assert (I : id_ok 1) by (unfold id_ok, U64; lia).
  apply Forall_cons; [|apply Forall_cons; [|apply Forall_nil]]; cbn [snd call_ok].
  - split; [|reflexivity]. split; [exact I|]. split; [exact G|]. unfold U32. lia.
  - split; [|reflexivity]. split; [exact I|exact G].
Qed.
Lemma two_allowed : Forall (call_allowed demo_mount) (arrivals two_events).
Proof.
  change (arrivals two_events) with (map (calling demo_mount) two_calls). apply Forall_forall. intros r H.
  apply in_map_iff in H as (kc & <- & H). exists kc. split; [reflexivity|].
  exact (proj1 (Forall_forall _ _) two_ok kc H).
Qed.
(** The file system in memory is able to answer the requests of calls. *)
Lemma disk_able : able false (m_max_write demo_mount) (m_buf_len demo_mount) (m_cf demo_mount) (program_with disk)
  disk_ok (call_allowed demo_mount).
Proof. exact (able_calls demo_mount disk disk_ok demo_mount_good disk_server_ok). Qed.

Example C81_in_turn_example :
  able false (m_max_write demo_mount) (m_buf_len demo_mount) (m_cf demo_mount) (program_with disk) disk_ok (call_allowed demo_mount) /\
  disk_ok empty_tree /\ Forall (call_allowed demo_mount) (arrivals two_events) /\
  decided two_events = [r_look; r_mkdir] /\
  exists b, work_here (idle empty_tree) two_events b /\ map fst (b_results b) = [2; 4].
Proof.
  split; [exact disk_able|]. split; [exact empty_disk_ok|]. split; [exact two_allowed|]. split; [reflexivity|].
  destruct two_work as (b & W & _ & R & _). eauto.
Qed.
Lemma two_arrived : exists b, work_here (idle empty_tree) [Arrives r_mkdir; Arrives r_look] b /\ b_queue b = [r_mkdir; r_look] /\ left_over b = 6%nat.
Proof.
  pose proof (work_nil false (m_max_write demo_mount) (m_buf_len demo_mount) (m_cf demo_mount) (program_with disk) (idle empty_tree)) as W.
  eapply work_snoc in W; [|exact (happens_arrive _ _ _ _ _ r_mkdir _ _ _ _ _ _ eq_refl)].
  eapply work_snoc in W; [|exact (happens_arrive _ _ _ _ _ r_look _ _ _ _ _ _ eq_refl)].
  eexists. split; [exact W|]. split; reflexivity.
Qed.
Example C81_goes_on_example :
  exists b b', work_here (idle empty_tree) [Arrives r_mkdir; Arrives r_look] b /\
    (happens_here b (Taken r_mkdir) b' \/ happens_here b (Fails r_mkdir) b').
Proof.
  destruct two_arrived as (b & W & Q & _). exists b.
  destruct (C81_goes_on _ _ _ _ _ _ _ _ _ b disk_able empty_disk_ok W two_allowed) as (H & _).
  destruct (H r_mkdir [r_look] some_buf Q eq_refl) as (b' & H'). eauto.
Qed.
Example C81_worker_example :
  exists b p', work_here (idle empty_tree) [Arrives r_mkdir; Arrives r_look] b /\ b_queue b = [r_mkdir; r_look] /\
    device_read (m_max_write demo_mount) (m_buf_len demo_mount) (snd r_mkdir)
      (linux_message (m_cf demo_mount) (fst r_mkdir) (snd r_mkdir)) = Gets (rq_mem (raw r_mkdir)) /\
    tstep Fuse 1 {| p_caller := MScope; p_workers := [WRecv some_buf]; p_channel := [] |}
      (TRecv 0 (Message (rq_mem (raw r_mkdir)))) p'.
Proof.
  destruct two_arrived as (b & W & Q & _). exists b. eexists. split; [exact W|]. split; [exact Q|].
  split; [vm_compute; reflexivity|]. now apply step_recv.
Qed.
Example C81_ends_example :
  exists b, work_here (idle empty_tree) [Arrives r_mkdir; Arrives r_look] b /\ left_over b = 6%nat /\
  exists l' b', work_here (idle empty_tree) ([Arrives r_mkdir; Arrives r_look] ++ l') b' /\ left_over b' = 0%nat /\
    decided l' <> [].
Proof.
  destruct two_arrived as (b & W & _ & Q). exists b. split; [exact W|]. split; [exact Q|].
  exists (skipn 2 two_events). destruct two_work as (b' & W' & L & _). exists b'.
  split; [exact W'|]. split; [exact L|discriminate].
Qed.
Example C81_calls_example :
  good_mount demo_mount /\ disk_ok empty_tree /\
  (forall t c, disk_ok t -> call_ok c -> disk_ok (fst (disk t (asked c))) /\ answers c (snd (disk t (asked c)))) /\
  Forall (fun kc => call_ok (snd kc) /\ too_old (cf_minor (m_cf demo_mount)) (snd kc) = false) two_calls /\
  arrivals two_events = map (calling demo_mount) two_calls /\
  exists b, work_here (idle empty_tree) two_events b /\ left_over b = 0%nat /\
    map (fun x => match snd x with inl p => nlen p | inr e => Z.to_N (- e) end) (b_results b) = [128; 2].
Proof.
  split; [exact demo_mount_good|]. split; [exact empty_disk_ok|]. split; [exact disk_server_ok|].
  split; [exact two_ok|]. split; [reflexivity|].
  destruct two_work as (b & W & L & _ & R & _). eauto.
Qed.

Print Assumptions C81_in_turn.
Print Assumptions C81_goes_on.
Print Assumptions C81_worker.
Print Assumptions C81_ends.
Print Assumptions C81_calls.
