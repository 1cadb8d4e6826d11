(** C50, C51, C55: the multi-threaded serve functions of fuse-std and their
    buffers. *)

From Verif Require Import Base Kernel CoreModel DecodeModel OpsModel ReplyModel ServerModel ServerSpec PropServer
  ThreadModel.
From Coq Require Import List NArith ZArith Bool Lia ZifyBool ZifyNat ZifyN.
Import ListNotations.
Open Scope N_scope.

(** ** Specification *)

(** An allocator: memory of the size asked for, aligned as asked for. *)
Definition honest (alloc : Layout -> option (N * bytes)) : Prop :=
  forall ly ptr mem, alloc ly = Some (ptr, mem) -> nlen mem = ly_size ly /\ ptr mod ly_align ly = 0.

Section Spec.
Context {E : Endian}.

(** What a message or receive error leads to: a request handed to the user's
    handlers, or an error in the channel. *)
Inductive outcome := Dispatched (m : bytes) | Reported (e : ServerError).
Definition accepted (m : bytes) : bool :=
  (40 <=? nlen m) && negb (u64_at 8 m =? 0) && (u32_at 0 m <=? nlen m).
(** [n] is the length of the receive buffers *)
Definition expected (k : kind) (n : N) (ev : recv_event) : list outcome :=
  match ev, k with
  | Message m, _ =>
    if accepted (take n m) then [Dispatched (take n m)]
    else [Reported (SrvRequest (why_refused (take n m)))]
  | RecvFails (RE_ConnectionClosed _), Fuse => []
  | RecvFails e, _ => [Reported (SrvRecv e)]
  end.

(** What worker [i] received, and what came of it, in an execution. *)
Definition received (i : nat) (tr : list tlabel) : list recv_event :=
  flat_map (fun l => match l with TRecv j ev => if Nat.eqb j i then [ev] else [] | _ => [] end) tr.
Definition handled (i : nat) (tr : list tlabel) : list outcome :=
  flat_map (fun l => match l with
    | TDispatch j rq => if Nat.eqb j i then [Dispatched (rq_mem rq)] else []
    | TReport j e => if Nat.eqb j i then [Reported e] else []
    | _ => []
    end) tr.
(** All errors sent to the channel *)
Definition reports (tr : list tlabel) : list ServerError :=
  flat_map (fun l => match l with TReport _ e => [e] | _ => [] end) tr.

(** Events that make an error, and malformed messages *)
Definition fault (k : kind) (n : N) (ev : recv_event) : bool :=
  match expected k n ev with [Reported _] => true | _ => false end.
Definition malformed (n : N) (ev : recv_event) : bool :=
  match ev with Message m => negb (accepted (take n m)) | _ => false end.
Definition fails (ev : recv_event) : bool := match ev with RecvFails _ => true | _ => false end.
(** Number of received events that satisfy a condition *)
Definition count (f : recv_event -> bool) (tr : list tlabel) : N :=
  nlen (flat_map (fun l => match l with TRecv _ ev => if f ev then [tt] else [] | _ => [] end) tr).

(** The connection is closed: nothing else is received any more. *)
Definition closed (l : tlabel) : Prop :=
  match l with TRecv _ (RecvFails (RE_ConnectionClosed _)) => True | TRecv _ _ => False | _ => True end.
End Spec.

(** ** C55 *)

(** [with_capacity] gives an aligned slice of the asked length, at least the
    protocol's minimum, owns exactly that memory and frees what it allocated;
    it crashes exactly if the length is not a valid size or memory is
    exhausted. *)
Theorem C55_buffers isize_max alloc capacity :
  honest alloc ->
  let size := N.max capacity 8192 in
  match AlignedBuf_with_capacity isize_max alloc capacity with
  | Ret b =>
    (exists mem, alloc {| ly_size := size; ly_align := 8 |} = Some (ab_ptr b, mem) /\
      AlignedBuf_as_aligned_slice b = Ret mem /\ nlen mem = size) /\
    AlignedBuf_drop b = (ab_ptr b, {| ly_size := size; ly_align := 8 |})
  | Panic => isize_max - 7 < size \/ alloc {| ly_size := size; ly_align := 8 |} = None
  | Fail _ | Ub => False
  end.
Proof.
  intros H size. unfold AlignedBuf_with_capacity, Layout_from_size_align. fold FUSE_MIN_READ_BUFFER in size.
  change (N.max capacity FUSE_MIN_READ_BUFFER) with size. change (8 - 1) with 7.
  destruct (N.ltb_spec (isize_max - 7) size); [now left|].
  destruct (alloc {| ly_size := size; ly_align := 8 |}) as [[ptr mem]|] eqn:A; [|now right].
  destruct (H _ _ _ A) as [L M]. cbn [ly_size ly_align] in *. split; [|reflexivity].
  exists mem. cbn [ab_ptr]. split; [reflexivity|]. split; [|exact L].
  unfold AlignedBuf_as_aligned_slice, AlignedBuf_as_slice. cbn [ab_ptr ab_len ab_mem].
  rewrite L, N.ltb_irrefl. cbn [bind]. rewrite take_all by lia. unfold AlignedSlice_new. now rewrite M.
Qed.

(** [new] does the same with the protocol's minimum. *)
Theorem C55_new isize_max alloc :
  honest alloc ->
  match AlignedBuf_new isize_max alloc with
  | Ret b =>
    exists mem, alloc {| ly_size := 8192; ly_align := 8 |} = Some (ab_ptr b, mem) /\
      AlignedBuf_as_aligned_slice b = Ret mem /\ nlen mem = 8192
  | Panic => isize_max - 7 < 8192 \/ alloc {| ly_size := 8192; ly_align := 8 |} = None
  | Fail _ | Ub => False
  end.
Proof.
  intros H. pose proof (C55_buffers isize_max alloc FUSE_MIN_READ_BUFFER H) as X. unfold AlignedBuf_new.
  destruct (AlignedBuf_with_capacity isize_max alloc FUSE_MIN_READ_BUFFER); try exact X. apply X.
Qed.

Lemma remove_last_spec l :
  match remove_last l with Some (r, b) => l = r ++ [b] | None => l = [] end.
Proof.
  induction l as [|a l IH]; [reflexivity|]. cbn [remove_last]. destruct l as [|b l]; [reflexivity|].
  destruct (remove_last (b :: l)) as [[r c]|]; [|discriminate]. now rewrite IH.
Qed.

(** Before the first thread is spawned there are as many buffers as threads,
    each long enough for the connection. *)
Theorem C55_start isize_max parallelism recv_buf_len alloc :
  (forall i, honest (alloc i)) ->
  match serve_start isize_max parallelism recv_buf_len alloc with
  | Ret s => exists bufs, s = pool_new bufs /\ nlen bufs = server_threads parallelism /\
      Forall (fun b => nlen b = N.max recv_buf_len 8192) bufs
  | Panic => isize_max - 7 < N.max recv_buf_len 8192 \/ exists i ly, alloc i ly = None
  | Fail _ | Ub => False
  end.
Proof.
  intros H. unfold serve_start.
  assert (A : match alloc_bufs isize_max alloc recv_buf_len (N.to_nat (server_threads parallelism)) with
    | Ret bs => length bs = N.to_nat (server_threads parallelism) /\ exists sl, slices_of bs = Ret sl /\
        length sl = length bs /\ Forall (fun b => nlen b = N.max recv_buf_len 8192) sl
    | Panic => isize_max - 7 < N.max recv_buf_len 8192 \/ exists i ly, alloc i ly = None
    | Fail _ | Ub => False
    end).
  { induction (N.to_nat (server_threads parallelism)) as [|n IH]; cbn [alloc_bufs].
    - split; [reflexivity|]. exists []. repeat split. constructor.
    - destruct (alloc_bufs isize_max alloc recv_buf_len n) as [bs| | |]; cbn [bind]; try contradiction; auto.
      destruct IH as (Lb & sl & Sl & Ls & F).
      pose proof (C55_buffers isize_max (alloc n) recv_buf_len (H n)) as B. cbv zeta in B.
      destruct (AlignedBuf_with_capacity isize_max (alloc n) recv_buf_len) as [b| | |]; cbn [bind];
        try contradiction.
      + destruct B as [(mem & _ & As & Lm) _]. rewrite app_length, Lb. split; [cbn; lia|].
        exists (sl ++ [mem]). split; [|split].
        * revert sl Sl Ls F. clear Lb. induction bs as [|c bs IHb]; intros sl Sl Ls F; cbn [slices_of app] in *.
          -- injection Sl as <-. rewrite As. reflexivity.
          -- destruct (AlignedBuf_as_aligned_slice c); cbn [bind] in *; try discriminate.
             destruct (slices_of bs) as [r| | |]; cbn [bind] in *; try discriminate.
             injection Sl as <-. cbn [length] in Ls. apply Forall_cons_iff in F as [_ F].
             rewrite (IHb r); auto.
        * rewrite app_length, Ls. cbn. lia.
        * apply Forall_app. auto.
      + destruct B as [B|B]; [now left|]. right. eauto. }
  destruct (alloc_bufs _ _ _ _) as [bs| | |]; cbn [bind]; try contradiction; auto.
  destruct A as (Lb & sl & -> & Ls & F). cbn [bind]. exists sl. repeat split; auto. unfold nlen. lia.
Qed.

(** There is at least one thread and there are at most 16. *)
Theorem C51_threads parallelism :
  parallelism <> Some 0 -> 1 <= server_threads parallelism <= 16.
Proof. unfold server_threads. destruct parallelism as [n|]; intros H; [|lia]. assert (n <> 0) by congruence. lia. Qed.

Lemma accepted_iff {E : Endian} m : accepted m = true <-> acceptable m.
Proof. unfold accepted, acceptable. lia. Qed.

Section Proofs.
Context {E : Endian} (k : kind) (threads : N) (bufs : list bytes) (len : N).
Hypothesis bufs_count : nlen bufs = threads.
Hypothesis bufs_len : Forall (fun b => nlen b = len) bufs.
Let start := pool_new bufs.
Notation texec := (texec k threads).
Notation tstep := (tstep k threads).

(** What a worker still has to do about the last event it received *)
Definition pending (w : worker) : list outcome :=
  match w with WDispatch _ rq => [Dispatched (rq_mem rq)] | WSend _ e => [Reported e] | _ => [] end.
Definition buffer_of (w : worker) : option bytes :=
  match w with WRecv b | WDispatch b _ | WSend b _ => Some b | _ => None end.
Definition crashed (w : worker) : Prop := w = WPanic \/ w = WUb.
Definition ending (w : worker) : bool :=
  match w with WExit => true | WSend _ e => is_fatal_error e | _ => false end.
Definition sending (w : worker) : bool := match w with WSend _ _ => true | _ => false end.

Lemma after_recv_spec buf ev :
  nlen buf = len ->
  let w := after_recv k buf ev in
  pending w = expected k len ev /\ ~ crashed w /\ ending w = fails ev /\ sending w = fault k len ev /\
  (forall b, buffer_of w = Some b -> nlen b = len).
Proof.
  intros L. cbv zeta. unfold crashed, fault. destruct ev as [m|[c|c]]; cbn [after_recv expected fails].
  - unfold recv_request. pose proof (PropServer.received buf m) as Rv. destruct (recv_into buf m) as [buf' n].
    destruct Rv as [-> Lb]. rewrite L.
    destruct (accepted (take len m)) eqn:A.
    + apply accepted_iff in A. rewrite not_refused by auto. cbn. repeat split; auto.
      * intros [?|?]; discriminate.
      * intros b [= <-]. lia.
    + rewrite refused by (rewrite <- accepted_iff, A; discriminate). cbn. repeat split; auto.
      * intros [?|?]; discriminate.
      * intros b [= <-]. lia.
  - destruct k; cbn; repeat split; auto; try (intros [?|?]; discriminate).
    all: intros b [= <-]; lia.
  - cbn. destruct k; repeat split; auto; try (intros [?|?]; discriminate); intros b [= <-]; lia.
Qed.

Lemma nth_set i j (w : worker) l :
  nth_error (set_worker i w l) j =
  if Nat.eqb i j then match nth_error l j with Some _ => Some w | None => None end else nth_error l j.
Proof.
  revert i j. induction l as [|q l IH]; intros [|i] [|j]; cbn [set_worker nth_error Nat.eqb]; auto.
  now destruct (Nat.eqb i j).
Qed.
Lemma length_set i (w : worker) l : length (set_worker i w l) = length l.
Proof. revert i. induction l; intros [|i]; cbn; auto. Qed.

(** Number of workers with a property *)
Definition number (f : worker -> bool) (l : list worker) : N := nlen (filter f l).
Lemma number_app f a b : number f (a ++ b) = number f a + number f b.
Proof. unfold number. now rewrite filter_app, nlen_app. Qed.
Lemma number_set f i w old l :
  nth_error l i = Some old ->
  number f (set_worker i w l) + (if f old then 1 else 0) = number f l + (if f w then 1 else 0).
Proof.
  revert i. induction l as [|x l IH]; intros [|i] H; try discriminate; cbn [nth_error set_worker] in *.
  - injection H as ->. unfold number. cbn [filter]. destruct (f old), (f w); rewrite ?nlen_cons; lia.
  - specialize (IH i H). unfold number in *. cbn [filter]. destruct (f x); rewrite ?nlen_cons; lia.
Qed.
Lemma number_le f l : number f l <= nlen l.
Proof.
  unfold number. induction l as [|x l IH]; [reflexivity|]. cbn [filter]. destruct (f x); rewrite ?nlen_cons; lia.
Qed.
Lemma number_all f l : forallb f l = true -> number f l = nlen l.
Proof. induction l as [|x l IH]; cbn [forallb]; [reflexivity|]. unfold number in *. cbn [filter].
  destruct (f x); [|discriminate]. intros H. rewrite !nlen_cons, IH; auto. Qed.
Lemma number_none f l : (forall w, In w l -> f w = false) -> number f l = 0.
Proof.
  intros H. unfold number. induction l as [|x l IH]; [reflexivity|]. cbn [filter].
  rewrite (H x) by now left. apply IH. intros w Hw. apply H. now right.
Qed.

(** *** Invariant *)

Record inv (tr : list tlabel) (s : pool) : Prop := {
  i_caller :
    match p_caller s with
    | MSpawn ii bs => ii = nlen (p_workers s) /\ ii + nlen bs = threads /\ Forall (fun b => nlen b = len) bs
    | MScope | MReturned => nlen (p_workers s) = threads
    | MPanic => False
    end;
  i_returned : p_caller s = MReturned -> forallb exited (p_workers s) = true;
  i_worker : forall i w, nth_error (p_workers s) i = Some w ->
    ~ crashed w /\ (forall b, buffer_of w = Some b -> nlen b = len) /\
    flat_map (expected k len) (received i tr) = handled i tr ++ pending w /\
    (exists evs, Forall (fun ev => fails ev = false) evs /\
       if ending w then exists e, received i tr = evs ++ [RecvFails e] else received i tr = evs);
  i_unborn : forall i, nth_error (p_workers s) i = None -> received i tr = [] /\ handled i tr = [];
  i_channel : p_channel s = reports tr;
  i_capacity : nlen (p_channel s) <= threads;
  i_faults : count (fault k len) tr = nlen (reports tr) + number sending (p_workers s);
  i_fails : count fails tr = number ending (p_workers s) }.

Lemma received_app i a b : received i (a ++ b) = received i a ++ received i b.
Proof. apply flat_map_app. Qed.
Lemma handled_app i a b : handled i (a ++ b) = handled i a ++ handled i b.
Proof. apply flat_map_app. Qed.
Lemma reports_app a b : reports (a ++ b) = reports a ++ reports b.
Proof. apply flat_map_app. Qed.
Lemma count_app f a b : count f (a ++ b) = count f a + count f b.
Proof. unfold count. now rewrite flat_map_app, nlen_app. Qed.
Lemma nth_app_last {A} (l : list A) x i y :
  nth_error (l ++ [x]) i = Some y -> nth_error l i = Some y \/ i = length l /\ y = x.
Proof.
  intros H. destruct (Nat.lt_ge_cases i (length l)) as [L|L].
  - left. now rewrite nth_error_app1 in H.
  - right. rewrite nth_error_app2 in H by lia.
    destruct (i - length l)%nat as [|d] eqn:D; [|destruct d; discriminate].
    cbn in H. injection H as <-. split; [lia|reflexivity].
Qed.

Lemma inv_start : inv [] start.
Proof.
  constructor; cbn; auto; try discriminate; try lia.
  intros i w H. now destruct i.
Qed.

Lemma inv_step tr s l s' : inv tr s -> tstep s l s' -> inv (tr ++ [l]) s'.
Proof.
  intros I H. destruct H as [ii bs rest buf ws ch Hi Hr|ii bs ws ch Hi Hr|ii bs ws ch Hi
    |c ws ch i buf ev Hw|c ws ch i buf rq Hw|c ws ch i buf err Hw Hc|ws ch Hx];
    destruct I as [I1 I2 I3 I4 I5 I6 I7 I8]; cbn [p_caller p_workers p_channel] in *.
  - pose proof (remove_last_spec bs) as Rs. rewrite Hr in Rs. subst bs.
    destruct I1 as (-> & I1 & F). apply Forall_app in F as [F1 F2]. apply Forall_cons_iff in F2 as [F2 _].
    rewrite nlen_app, nlen_cons in I1. change (nlen (@nil bytes)) with 0 in I1.
    constructor; cbn [p_caller p_workers p_channel]; try discriminate; auto.
    + rewrite nlen_app, nlen_cons. change (nlen (@nil worker)) with 0. repeat split; auto; lia.
    + intros i w H. rewrite received_app, handled_app. cbn [received handled flat_map]. rewrite !app_nil_r.
      apply nth_app_last in H as [H|[-> ->]]; [apply I3; auto|].
      assert (X : nth_error ws (length ws) = None) by (apply nth_error_None; lia).
      destruct (I4 _ X) as [-> ->]. cbn. split; [intros [?|?]; discriminate|]. split; [now intros b [= <-]|].
      split; [reflexivity|]. exists []. auto.
    + intros i H. rewrite received_app, handled_app. cbn [received handled flat_map]. rewrite !app_nil_r.
      apply I4. apply nth_error_None in H. apply nth_error_None. rewrite app_length in H. lia.
    + rewrite reports_app. cbn. now rewrite app_nil_r.
    + rewrite reports_app, count_app, number_app. cbn [reports flat_map]. rewrite app_nil_r.
      change (count (fault k len) [TSpawn]) with 0. change (number sending [WRecv buf]) with 0. lia.
    + rewrite count_app, number_app. change (count fails [TSpawn]) with 0.
      change (number ending [WRecv buf]) with 0. lia.
  - pose proof (remove_last_spec bs) as Rs. rewrite Hr in Rs. subst bs.
    destruct I1 as (-> & I1 & F). change (nlen (@nil bytes)) with 0 in I1. lia.
  - destruct I1 as (-> & I1 & F).
    constructor; cbn [p_caller p_workers p_channel]; try discriminate; auto.
    + lia.
    + intros i w H. rewrite received_app, handled_app. cbn [received handled flat_map]. rewrite !app_nil_r. auto.
    + intros i H. rewrite received_app, handled_app. cbn [received handled flat_map]. rewrite !app_nil_r. auto.
    + rewrite reports_app. cbn. now rewrite app_nil_r.
    + rewrite reports_app, count_app. cbn [reports flat_map]. rewrite app_nil_r.
      change (count (fault k len) [TScope]) with 0. lia.
    + rewrite count_app. change (count fails [TScope]) with 0. lia.
  - destruct (I3 _ _ Hw) as (_ & Lb & Ex & evs & Fe & Re). cbn [buffer_of pending ending] in *.
    specialize (Lb buf eq_refl). rewrite app_nil_r in Ex.
    destruct (after_recv_spec buf ev Lb) as (Pe & Cr & En & Se & Bu).
    set (w' := after_recv k buf ev) in *.
    assert (R1 : received i [TRecv i ev] = [ev]) by (cbn; now rewrite Nat.eqb_refl).
    assert (Ln : nlen (set_worker i w' ws) = nlen ws) by (unfold nlen; now rewrite length_set).
    constructor; cbn [p_caller p_workers p_channel]; rewrite ?Ln; auto.
    + intros H. apply I2 in H. rewrite forallb_forall in H.
      specialize (H _ (nth_error_In _ _ Hw)). discriminate.
    + intros j w H. rewrite nth_set in H. rewrite received_app, handled_app.
      destruct (Nat.eqb_spec i j) as [<-|Ne].
      * rewrite Hw in H. injection H as <-. rewrite R1. cbn [handled flat_map]. rewrite app_nil_r.
        split; [exact Cr|]. split; [exact Bu|]. split.
        -- rewrite flat_map_app, Ex. cbn [flat_map]. now rewrite app_nil_r, Pe.
        -- rewrite En. rewrite Re. destruct (fails ev) eqn:Fv.
           ++ exists evs. split; [exact Fe|]. destruct ev as [|e]; [discriminate|]. now exists e.
           ++ exists (evs ++ [ev]). split; [|reflexivity]. apply Forall_app. auto.
      * cbn [received handled flat_map]. destruct (Nat.eqb_spec i j); [lia|]. rewrite !app_nil_r. auto.
    + intros j H. rewrite nth_set in H. rewrite received_app, handled_app. cbn [received handled flat_map].
      destruct (Nat.eqb_spec i j) as [Eq|Ne]; [subst j; now rewrite Hw in H|].
      rewrite !app_nil_r. auto.
    + rewrite reports_app. cbn. now rewrite app_nil_r.
    + rewrite reports_app, count_app. cbn [reports flat_map]. rewrite app_nil_r.
      pose proof (number_set sending i w' _ ws Hw) as Nn. rewrite Se in Nn. cbn [sending] in Nn.
      assert (C1 : count (fault k len) [TRecv i ev] = if fault k len ev then 1 else 0)
        by (unfold count; cbn [flat_map]; now destruct (fault k len ev)).
      rewrite C1. destruct (fault k len ev); lia.
    + rewrite count_app. pose proof (number_set ending i w' _ ws Hw) as Nn. rewrite En in Nn.
      cbn [ending] in Nn.
      assert (C1 : count fails [TRecv i ev] = if fails ev then 1 else 0)
        by (unfold count; cbn [flat_map]; now destruct (fails ev)).
      rewrite C1. destruct (fails ev); lia.
  - destruct (I3 _ _ Hw) as (_ & Lb & Ex & evs & Fe & Re). cbn [buffer_of pending ending] in *.
    specialize (Lb buf eq_refl).
    assert (Ln : nlen (set_worker i (WRecv buf) ws) = nlen ws) by (unfold nlen; now rewrite length_set).
    constructor; cbn [p_caller p_workers p_channel]; rewrite ?Ln; auto.
    + intros H. apply I2 in H. rewrite forallb_forall in H.
      specialize (H _ (nth_error_In _ _ Hw)). discriminate.
    + intros j w H. rewrite nth_set in H. rewrite received_app, handled_app.
      cbn [received handled flat_map]. rewrite !app_nil_r.
      destruct (Nat.eqb_spec i j) as [<-|Ne].
      * rewrite Hw in H. injection H as <-.
        split; [intros [?|?]; discriminate|]. split; [now intros b [= <-]|]. split.
        -- cbn [pending]. now rewrite app_nil_r, Ex.
        -- cbn [ending]. eauto.
      * rewrite app_nil_r. auto.
    + intros j H. rewrite nth_set in H. rewrite received_app, handled_app. cbn [received handled flat_map].
      destruct (Nat.eqb_spec i j) as [Eq|Ne]; [subst j; now rewrite Hw in H|].
      rewrite !app_nil_r. auto.
    + rewrite reports_app. cbn. now rewrite app_nil_r.
    + rewrite reports_app, count_app. cbn [reports flat_map]. rewrite app_nil_r.
      pose proof (number_set sending i (WRecv buf) _ ws Hw) as Nn. cbn [sending] in Nn.
      change (count (fault k len) [TDispatch i rq]) with 0. lia.
    + rewrite count_app. pose proof (number_set ending i (WRecv buf) _ ws Hw) as Nn.
      cbn [ending] in Nn. change (count fails [TDispatch i rq]) with 0. lia.
  - destruct (I3 _ _ Hw) as (_ & Lb & Ex & evs & Fe & Re). cbn [buffer_of pending ending] in *.
    specialize (Lb buf eq_refl).
    assert (Ln : nlen (set_worker i (after_send buf err) ws) = nlen ws) by (unfold nlen; now rewrite length_set).
    assert (En : ending (after_send buf err) = is_fatal_error err)
      by (unfold after_send; now destruct (is_fatal_error err)).
    assert (Sn : sending (after_send buf err) = false)
      by (unfold after_send; now destruct (is_fatal_error err)).
    constructor; cbn [p_caller p_workers p_channel]; rewrite ?Ln; auto.
    + intros H. apply I2 in H. rewrite forallb_forall in H.
      specialize (H _ (nth_error_In _ _ Hw)). discriminate.
    + intros j w H. rewrite nth_set in H. rewrite received_app, handled_app.
      cbn [received handled flat_map]. rewrite !app_nil_r.
      destruct (Nat.eqb_spec i j) as [<-|Ne].
      * rewrite Hw in H. injection H as <-. rewrite En.
        split; [unfold after_send, crashed; destruct (is_fatal_error err); intros [?|?]; discriminate|].
        split; [unfold after_send; destruct (is_fatal_error err); [discriminate|now intros b [= <-]]|].
        split; [|eauto].
        rewrite Ex. unfold after_send. now destruct (is_fatal_error err); cbn [pending]; rewrite app_nil_r.
      * rewrite app_nil_r. auto.
    + intros j H. rewrite nth_set in H. rewrite received_app, handled_app. cbn [received handled flat_map].
      destruct (Nat.eqb_spec i j) as [Eq|Ne]; [subst j; now rewrite Hw in H|].
      rewrite !app_nil_r. auto.
    + rewrite reports_app. cbn. now rewrite I5.
    + rewrite nlen_app. change (nlen [err]) with 1. lia.
    + rewrite reports_app, count_app, nlen_app. change (nlen (reports [TReport i err])) with 1.
      pose proof (number_set sending i (after_send buf err) _ ws Hw) as Nn. rewrite Sn in Nn. cbn [sending] in Nn.
      change (count (fault k len) [TReport i err]) with 0. lia.
    + rewrite count_app. pose proof (number_set ending i (after_send buf err) _ ws Hw) as Nn. rewrite En in Nn.
      cbn [ending] in Nn. change (count fails [TReport i err]) with 0. destruct (is_fatal_error err); lia.
  - constructor; cbn [p_caller p_workers p_channel]; auto.
    + intros i w H. rewrite received_app, handled_app. cbn [received handled flat_map]. rewrite !app_nil_r. auto.
    + intros i H. rewrite received_app, handled_app. cbn [received handled flat_map]. rewrite !app_nil_r. auto.
    + rewrite reports_app. cbn. now rewrite app_nil_r.
    + rewrite reports_app, count_app. cbn [reports flat_map]. rewrite app_nil_r.
      change (count (fault k len) [TReturn]) with 0. lia.
    + rewrite count_app. change (count fails [TReturn]) with 0. lia.
Qed.

Lemma inv_exec tr s : texec start tr s -> inv tr s.
Proof.
  intros H. remember start as s0 eqn:S0. induction H as [|s tr s' l s'' H IH St].
  - subst. apply inv_start.
  - eapply inv_step; eauto.
Qed.

(** ** C51 *)

(** In every interleaving every event a worker received was turned by that
    worker into what it should lead to, once and in order; only the last one
    may still be being worked on.  Workers are at most as many as threads, and
    nothing crashes. *)
Theorem C51_once tr s :
  texec start tr s ->
  p_caller s <> MPanic /\
  forall i, match nth_error (p_workers s) i with
    | None => received i tr = [] /\ handled i tr = []
    | Some w => N.of_nat i < threads /\ w <> WPanic /\ w <> WUb /\
        exists todo, flat_map (expected k len) (received i tr) = handled i tr ++ todo /\
          match w with WRecv _ | WExit => todo = [] | _ => exists x, todo = [x] end
    end.
Proof.
  intros H. apply inv_exec in H. destruct H as [I1 I2 I3 I4 I5 I6 I7 I8]. split.
  { intros C. now rewrite C in I1. }
  intros i. destruct (nth_error (p_workers s) i) as [w|] eqn:N; [|auto].
  destruct (I3 _ _ N) as (C & _ & X & _). split.
  { assert (L : (i < length (p_workers s))%nat) by (apply nth_error_Some; congruence).
    unfold nlen in *. destruct (p_caller s); try contradiction; lia. }
  split; [intros ->; apply C; now left|]. split; [intros ->; apply C; now right|].
  exists (pending w). split; [exact X|]. destruct w; cbn [pending]; eauto.
  - exfalso. apply C. now left.
  - exfalso. apply C. now right.
Qed.

(** A worker ends only because receiving failed; until then it receives only
    messages, and afterwards nothing. *)
Theorem C51_ends tr s i w :
  texec start tr s -> nth_error (p_workers s) i = Some w ->
  (w = WExit -> exists msgs e, received i tr = map Message msgs ++ [RecvFails e]) /\
  (forall buf, w = WRecv buf -> exists msgs, received i tr = map Message msgs).
Proof.
  intros H N. apply inv_exec in H. destruct (i_worker _ _ H _ _ N) as (_ & _ & _ & evs & F & X).
  assert (M : exists msgs, evs = map Message msgs).
  { clear X. induction F as [|ev evs Hv F [msgs ->]]; [now exists []|].
    destruct ev as [m|]; [|discriminate]. now exists (m :: msgs). }
  destruct M as [msgs ->]. split.
  - intros ->. destruct X as [e X]. eauto.
  - intros buf ->. cbn [ending] in X. eauto.
Qed.

(** The serve function returns only after every worker was spawned and has
    stopped because receiving failed, with nothing left undone; the channel
    it returns holds every reported error in order, and nothing happens
    afterwards. *)
Theorem C51_returns tr s :
  texec start tr s -> p_caller s = MReturned ->
  p_channel s = reports tr /\
  (forall i, N.of_nat i < threads ->
     (exists msgs e, received i tr = map Message msgs ++ [RecvFails e]) /\
     flat_map (expected k len) (received i tr) = handled i tr) /\
  (forall l s', ~ tstep s l s').
Proof.
  intros H R. assert (I := inv_exec _ _ H). destruct I as [I1 I2 I3 I4 I5 I6 I7 I8].
  specialize (I2 R). rewrite R in I1. rewrite forallb_forall in I2. split; [exact I5|]. split.
  - intros i L. destruct (nth_error (p_workers s) i) as [w|] eqn:N.
    2: { apply nth_error_None in N. unfold nlen in I1. lia. }
    pose proof (I2 _ (nth_error_In _ _ N)) as Ew. destruct w; try discriminate.
    destruct (C51_ends _ _ _ _ H N) as [X _]. split; [now apply X|].
    destruct (I3 _ _ N) as (_ & _ & X3 & _). cbn [pending] in X3. now rewrite app_nil_r in X3.
  - intros l s' St. destruct St; cbn [p_caller p_workers] in *; try discriminate;
      match goal with N : nth_error _ _ = Some _ |- _ => apply nth_error_In, I2 in N; discriminate end.
Qed.

(** As long as it makes no errors a worker does what the single-threaded
    loop does with the events the worker received. *)
Theorem C51_local tr s i buf :
  k = Fuse -> texec start tr s -> nlen buf = len ->
  (forall e, ~ In (Reported e) (handled i tr)) ->
  (exists b, nth_error (p_workers s) i = Some (WRecv b)) ->
  handled i tr = map (fun rq => Dispatched (rq_mem rq)) (fst (fuse_serve_local (received i tr) buf)) /\
  snd (fuse_serve_local (received i tr) buf) = Waiting.
Proof.
  intros K H Lb No [b N]. destruct (C51_ends _ _ _ _ H N) as [_ X]. destruct (X b eq_refl) as [msgs Rm].
  apply inv_exec in H. destruct (i_worker _ _ H _ _ N) as (_ & _ & Ex & _). cbn [pending] in Ex.
  rewrite app_nil_r in Ex. rewrite <- Ex in No |- *. rewrite Rm in *. clear - No Lb.
  revert buf Lb. induction msgs as [|m msgs IH]; intros buf Lb; [now split|].
  cbn [map flat_map fuse_serve_local].
  assert (A : accepted (take len m) = true).
  { destruct (accepted (take len m)) eqn:A; [reflexivity|]. exfalso. eapply No. cbn [map flat_map expected].
    rewrite A. now left. }
  unfold recv_request. pose proof (PropServer.received buf m) as Rv. destruct (recv_into buf m) as [buf' n].
  destruct Rv as [-> Lb']. rewrite Lb. pose proof A as A'. apply accepted_iff in A'.
  rewrite not_refused by auto. cbn [expected]. rewrite A.
  destruct (IH) with (buf := buf') as [I1 I2]; [|lia|].
  { intros e He. eapply No. cbn [map flat_map expected]. rewrite A. right. exact He. }
  destruct (fuse_serve_local (map Message msgs) buf') as [l r]. cbn [fst snd] in *. split; [|exact I2].
  cbn [map app rq_mem]. now rewrite I1.
Qed.

(** ** C50 *)

Lemma faults_bound tr s : texec start tr s -> count (fault k len) tr <= threads + number sending (p_workers s).
Proof. intros H. apply inv_exec in H. destruct H as [I1 I2 I3 I4 I5 I6 I7 I8]. rewrite I5 in I6. lia. Qed.
Lemma workers_bound tr s : texec start tr s -> nlen (p_workers s) <= threads.
Proof.
  intros H. apply inv_exec in H. destruct H as [I1 _ _ _ _ _ _ _]. destruct (p_caller s); try contradiction; lia.
Qed.
Lemma malformed_fault tr : count (malformed len) tr + count fails tr >= count (fault k len) tr /\
  count (malformed len) tr <= count (fault k len) tr.
Proof.
  unfold count, fault. induction tr as [|l tr IH]; cbn [flat_map]; [lia|]. rewrite !nlen_app.
  destruct l as [| |i ev| | |]; try (change (nlen (@nil unit)) with 0; lia).
  destruct ev as [m|[c|c]]; cbn [malformed fails expected].
  - destruct (accepted (take len m)); cbn [negb]; change (nlen [tt]) with 1; change (nlen (@nil unit)) with 0; lia.
  - destruct k; change (nlen [tt]) with 1; change (nlen (@nil unit)) with 0; lia.
  - destruct k; change (nlen [tt]) with 1; change (nlen (@nil unit)) with 0; lia.
Qed.

(** What holds: as long as no more errors were made than there are threads,
    every worker can go on, whatever the others do: receive any event,
    dispatch its request, or report its error. *)
Theorem C50_serves tr s i w :
  texec start tr s -> count (fault k len) tr <= threads -> nth_error (p_workers s) i = Some w ->
  match w with
  | WRecv _ => forall ev, exists s', tstep s (TRecv i ev) s'
  | WDispatch _ rq => exists s', tstep s (TDispatch i rq) s'
  | WSend _ e => exists s', tstep s (TReport i e) s'
  | _ => w = WExit
  end.
Proof.
  intros H Fc N. pose proof (inv_exec _ _ H) as [I1 I2 I3 I4 I5 I6 I7 I8].
  destruct s as [c ws ch]. cbn [p_caller p_workers p_channel] in *.
  destruct w as [b|b rq|b e| | |]; auto.
  - intros ev. eexists. eapply step_recv. exact N.
  - eexists. econstructor. exact N.
  - eexists. econstructor; [exact N|].
    assert (1 <= number sending ws).
    { pose proof (number_set sending i (WRecv b) _ ws N) as X. cbn [sending] in X. lia. }
    rewrite I5. lia.
  - destruct (I3 _ _ N) as [C _]. exfalso. apply C. now left.
  - destruct (I3 _ _ N) as [C _]. exfalso. apply C. now right.
Qed.

(** ... and once a FUSE connection is closed, every execution that goes on
    takes boundedly many steps and can only end with the return of
    [serve_fuse]. *)
Lemma closed_snoc tr l : Forall closed (tr ++ [l]) -> Forall closed tr /\ closed l.
Proof. intros H. apply Forall_app in H as [H1 H2]. split; [exact H1|]. now apply Forall_cons_iff in H2 as [H2 _]. Qed.
Definition work (w : worker) : N :=
  match w with WRecv _ => 1 | WDispatch _ _ | WSend _ _ => 2 | _ => 0 end.
Definition work_of (l : list worker) : N := fold_right (fun w n => work w + n) 0 l.
Definition measure (s : pool) : N :=
  work_of (p_workers s) +
  match p_caller s with MSpawn ii _ => 2 * (threads - ii) + 2 | MScope => 1 | _ => 0 end.
Lemma work_of_app a b : work_of (a ++ b) = work_of a + work_of b.
Proof. unfold work_of. induction a as [|w a IH]; cbn [app fold_right]; lia. Qed.
Lemma work_of_set i w old l :
  nth_error l i = Some old -> work_of (set_worker i w l) + work old = work_of l + work w.
Proof.
  unfold work_of. revert i. induction l as [|x l IH]; intros [|i] H; try discriminate; cbn [nth_error set_worker fold_right] in *.
  - injection H as ->. lia.
  - specialize (IH i H). lia.
Qed.
Lemma measure_step s l s' : k = Fuse -> tstep s l s' -> closed l -> measure s' + 1 <= measure s.
Proof.
  intros K H Cl. unfold measure. destruct H as [ii bs rest buf ws ch Hi Hr|ii bs ws ch Hi Hr|ii bs ws ch Hi
    |c ws ch i buf ev Hw|c ws ch i buf rq Hw|c ws ch i buf err Hw Hc|ws ch Hx];
    cbn [p_caller p_workers].
  - rewrite work_of_app. change (work_of [WRecv buf]) with 1. lia.
  - lia.
  - lia.
  - pose proof (work_of_set i (after_recv k buf ev) _ ws Hw) as X. cbn [closed] in Cl.
    destruct ev as [m|[e|e]]; try contradiction. rewrite K in *. cbn [after_recv work] in *. lia.
  - pose proof (work_of_set i (WRecv buf) _ ws Hw) as X. cbn [work] in *. lia.
  - pose proof (work_of_set i (after_send buf err) _ ws Hw) as X. cbn [work] in *.
    unfold after_send in *. destruct (is_fatal_error err); cbn [work] in *; lia.
  - lia.
Qed.
Lemma texec_app a tr1 b tr2 c : texec a tr1 b -> texec b tr2 c -> texec a (tr1 ++ tr2) c.
Proof.
  intros H1 H2. induction H2 as [|s tr s' l s'' H2 IH St]; [now rewrite app_nil_r|].
  rewrite app_assoc. econstructor; eauto.
Qed.
Lemma count_closed tr : k = Fuse -> Forall closed tr -> count (fault k len) tr = 0.
Proof.
  intros K F. unfold count. induction F as [|l tr Cl F IH]; cbn [flat_map]; [reflexivity|].
  rewrite nlen_app, IH. destruct l as [| |i [m|[c|c]]| | |]; try contradiction; try reflexivity.
  rewrite K. reflexivity.
Qed.
Lemma work_of_le l : work_of l <= 2 * nlen l.
Proof.
  unfold work_of. induction l as [|w l IH]; cbn [fold_right]; rewrite ?nlen_cons; [lia|]. destruct w; cbn [work]; lia.
Qed.

Theorem C50_unmount tr s tr' s' :
  k = Fuse -> texec start tr s -> count (fault k len) tr <= threads ->
  texec s tr' s' -> Forall closed tr' ->
  nlen tr' <= 2 * threads + 2 /\
  (p_caller s' = MReturned \/ exists l s'', closed l /\ tstep s' l s'').
Proof.
  intros K H Fc H' Cl. split.
  - assert (M : measure s' + nlen tr' <= measure s).
    { clear H. induction H' as [|s tr' s' l s'' H' IH St]; [unfold nlen; cbn; lia|].
      apply closed_snoc in Cl as [Cl1 Cl2]. specialize (IH Cl1). pose proof (measure_step _ _ _ K St Cl2).
      rewrite nlen_app. change (nlen [l]) with 1. lia. }
    enough (measure s <= 2 * threads + 2) by lia.
    unfold measure. pose proof (work_of_le (p_workers s)).
    apply inv_exec in H. destruct H as [I1 _ _ _ _ _ _ _]. destruct (p_caller s); try contradiction; lia.
  - pose proof (texec_app _ _ _ _ _ H H') as H2.
    assert (Fc2 : count (fault k len) (tr ++ tr') <= threads)
      by (rewrite count_app, (count_closed tr') by auto; lia).
    destruct (forallb exited (p_workers s')) eqn:Ex.
    + pose proof (inv_exec _ _ H2) as [I1 _ _ _ _ _ _ _].
      destruct s' as [c ws ch]. cbn [p_caller p_workers] in *. destruct c as [ii bs| | |].
      * right. destruct (N.lt_ge_cases ii threads) as [L|L].
        -- destruct (remove_last bs) as [[r b]|] eqn:Rl; exists TSpawn; eexists; (split; [exact I|]).
           ++ now eapply step_spawn; eauto.
           ++ now eapply step_spawn_panic; eauto.
        -- exists TScope. eexists. split; [exact I|]. now constructor.
      * right. exists TReturn. eexists. split; [exact I|]. now constructor.
      * now left.
      * contradiction.
    + right. assert (X : exists i w, nth_error (p_workers s') i = Some w /\ exited w = false).
      { clear - Ex. induction (p_workers s') as [|w l IH]; [discriminate|]. cbn [forallb] in Ex.
        destruct (exited w) eqn:Ew.
        - destruct (IH Ex) as (i & v & N & X). now exists (S i), v.
        - now exists O, w. }
      destruct X as (i & w & N & X). pose proof (C50_serves _ _ _ _ H2 Fc2 N) as Y.
      destruct w as [b|b rq|b e| | |]; try discriminate.
      * destruct (Y (RecvFails (RE_ConnectionClosed 19))) as [s'' St]. eexists. exists s''. split; [|exact St]. exact I.
      * destruct Y as [s'' St]. exists (TDispatch i rq), s''. split; [exact I|exact St].
      * destruct Y as [s'' St]. exists (TReport i e), s''. split; [exact I|exact St].
Qed.

(** What does not hold.  A worker with an error to send to a full channel
    never does anything again, and the serve function does not return. *)
Theorem C50_stuck s i buf e tr' s' :
  nth_error (p_workers s) i = Some (WSend buf e) -> threads <= nlen (p_channel s) -> p_caller s <> MReturned ->
  texec s tr' s' ->
  nth_error (p_workers s') i = Some (WSend buf e) /\ p_caller s' <> MReturned /\
  received i tr' = [] /\ handled i tr' = [].
Proof.
  intros N F C H. assert (X : nth_error (p_workers s') i = Some (WSend buf e) /\ p_caller s' <> MReturned /\
    received i tr' = [] /\ handled i tr' = [] /\ threads <= nlen (p_channel s')).
  { induction H as [|s tr' s1 l s2 H IH St]; [repeat split; auto|].
    destruct (IH N F C) as (N1 & C1 & R1 & H1 & F1). rewrite received_app, handled_app, R1, H1. cbn [app].
    destruct St; cbn [p_caller p_workers p_channel] in *; repeat match goal with |- _ /\ _ => split end;
      try discriminate; auto; try lia.
    - apply nth_error_app1 with (l' := [WRecv buf0]) in N1 || rewrite nth_error_app1; auto.
      apply nth_error_Some. congruence.
    - rewrite nth_set. destruct (Nat.eqb_spec i0 i) as [->|]; [congruence|auto].
    - cbn. destruct (Nat.eqb_spec i0 i) as [->|]; [congruence|auto].
    - rewrite nth_set. destruct (Nat.eqb_spec i0 i) as [->|]; [congruence|auto].
    - cbn. destruct (Nat.eqb_spec i0 i) as [->|]; [congruence|auto].
    - exfalso. apply nth_error_In in N1. rewrite forallb_forall in H0. now apply H0 in N1. }
  tauto.
Qed.

(** In every execution at most two malformed messages per thread are ever
    received: then all workers wait for room in the channel. *)
Theorem C50_limit tr s :
  texec start tr s -> count (malformed len) tr <= 2 * threads.
Proof.
  intros H. pose proof (faults_bound _ _ H). pose proof (workers_bound _ _ H).
  pose proof (number_le sending (p_workers s)). pose proof (malformed_fault tr). lia.
Qed.

(** No serve function returns if more errors were made than there are
    threads, *)
Theorem C50_many_errors tr s :
  texec start tr s -> threads < count (fault k len) tr -> p_caller s <> MReturned.
Proof.
  intros H Fc R. pose proof (inv_exec _ _ H) as [I1 I2 I3 I4 I5 I6 I7 I8]. specialize (I2 R).
  assert (number sending (p_workers s) = 0).
  { apply number_none. intros w Hw. rewrite forallb_forall in I2. apply I2 in Hw. now destruct w. }
  rewrite I5 in I6. lia.
Qed.

(** and [serve_cuse], whose workers each end with an error, never returns
    after a single malformed message. *)
Theorem C50_cuse_never_returns tr s :
  k = Cuse -> texec start tr s -> 1 <= count (malformed len) tr -> p_caller s <> MReturned.
Proof.
  intros K H M R. pose proof (inv_exec _ _ H) as [I1 I2 I3 I4 I5 I6 I7 I8]. specialize (I2 R). rewrite R in I1.
  revert R. apply (C50_many_errors _ _ H).
  assert (X : number ending (p_workers s) = nlen (p_workers s)).
  { apply number_all. rewrite forallb_forall in *. intros w Hw. apply I2 in Hw. now destruct w. }
  assert (Y : count (fault k len) tr = count (malformed len) tr + count fails tr).
  { clear - K. unfold count, fault. induction tr as [|l tr IH]; cbn [flat_map]; [reflexivity|]. rewrite !nlen_app.
    destruct l as [| |i ev| | |]; try (change (nlen (@nil unit)) with 0; lia). rewrite K in *.
    destruct ev as [m|[c|c]]; cbn [malformed fails expected].
    - destruct (accepted (take len m)); cbn [negb]; change (nlen [tt]) with 1; change (nlen (@nil unit)) with 0; lia.
    - change (nlen [tt]) with 1; change (nlen (@nil unit)) with 0; lia.
    - change (nlen [tt]) with 1; change (nlen (@nil unit)) with 0; lia. }
  lia.
Qed.

Lemma number_full f l : number f l = nlen l -> forall w, In w l -> f w = true.
Proof.
  unfold number. induction l as [|x l IH]; intros H w Hw; [destruct Hw|]. cbn [filter] in H.
  pose proof (number_le f l) as Nl. unfold number in Nl.
  destruct (f x) eqn:Fx; rewrite ?nlen_cons in H; [|lia]. destruct Hw as [<-|Hw]; [exact Fx|]. apply IH; [lia|auto].
Qed.

(** After two malformed messages per thread nothing happens any more. *)
Theorem C50_deadlock tr s tr' s' :
  texec start tr s -> count (malformed len) tr = 2 * threads -> 1 <= threads -> texec s tr' s' ->
  (forall i, received i tr' = [] /\ handled i tr' = []) /\ p_caller s' <> MReturned.
Proof.
  intros H M T H'. pose proof (workers_bound _ _ H) as B. pose proof (number_le sending (p_workers s)) as B2.
  pose proof (malformed_fault tr) as [_ Mf]. pose proof (faults_bound _ _ H) as Fb.
  pose proof (inv_exec _ _ H) as [I1 I2 I3 I4 I5 I6 I7 I8].
  assert (All : forall w, In w (p_workers s) -> sending w = true) by (apply number_full; lia).
  assert (Full : threads <= nlen (p_channel s)) by (rewrite I5; lia).
  assert (Nr : p_caller s <> MReturned).
  { intros R. specialize (I2 R). rewrite forallb_forall in I2.
    destruct (p_workers s) as [|w ws] eqn:Ws; [unfold nlen in *; cbn in *; lia|].
    specialize (All w (or_introl eq_refl)). specialize (I2 w (or_introl eq_refl)). now destruct w. }
  assert (St : forall i, N.of_nat i < threads -> exists b e, nth_error (p_workers s) i = Some (WSend b e)).
  { intros i L. destruct (nth_error (p_workers s) i) as [w|] eqn:Nw.
    - pose proof (All _ (nth_error_In _ _ Nw)) as Sw. destruct w; try discriminate. eauto.
    - apply nth_error_None in Nw. unfold nlen in *. lia. }
  split.
  - intros i. destruct (N.lt_ge_cases (N.of_nat i) threads) as [L|L].
    + destruct (St i L) as (b & e & Nw). destruct (C50_stuck _ _ _ _ _ _ Nw Full Nr H') as (_ & _ & X). exact X.
    + pose proof (texec_app _ _ _ _ _ H H') as H2. pose proof (workers_bound _ _ H2) as B3.
      pose proof (inv_exec _ _ H2) as [_ _ _ J4 _ _ _ _].
      destruct (J4 i) as [X Y]; [apply nth_error_None; unfold nlen in *; lia|].
      rewrite received_app in X. rewrite handled_app in Y.
      apply app_eq_nil in X as [_ X]. apply app_eq_nil in Y as [_ Y]. auto.
  - destruct (St O) as (b & e & Nw); [lia|]. destruct (C50_stuck _ _ _ _ _ _ Nw Full Nr H') as (_ & X & _). exact X.
Qed.

(** One malformed message more than there are threads, all received by one
    worker, can block that worker for ever and keep the function from
    returning even after the connection is closed: for every number of
    threads. *)
Lemma one_round c ch b :
  nlen b = len -> nlen ch < threads ->
  exists b' e, nlen b' = len /\
    tstep {| p_caller := c; p_workers := [WRecv b]; p_channel := ch |} (TRecv 0 (Message []))
      {| p_caller := c; p_workers := [WSend b' e]; p_channel := ch |} /\
    tstep {| p_caller := c; p_workers := [WSend b' e]; p_channel := ch |} (TReport 0 e)
      {| p_caller := c; p_workers := [WRecv b']; p_channel := ch ++ [e] |}.
Proof.
  intros L Hc. destruct (after_recv_spec b (Message []) L) as (P & C & En & S & B).
  assert (A : accepted (take len []) = false) by (rewrite take_nil || (unfold take; rewrite firstn_nil); reflexivity).
  cbn [expected] in P. rewrite A in P.
  destruct (after_recv k b (Message [])) as [| |b' e| | |] eqn:Ar; try discriminate.
  exists b', e. split; [now apply B|]. cbn [ending fails] in En. split.
  - pose proof (step_recv k threads c [WRecv b] ch 0 b (Message []) eq_refl) as X. now rewrite Ar in X.
  - pose proof (step_send k threads c [WSend b' e] ch 0 b' e eq_refl Hc) as X. cbn [set_worker] in X.
    unfold after_send in X. now rewrite En in X.
Qed.
Theorem C50_refuted :
  1 <= threads ->
  exists tr s, texec start tr s /\ count (malformed len) tr = threads + 1 /\ count fails tr = 0 /\
    forall tr' s', texec s tr' s' ->
      p_caller s' <> MReturned /\ received 0 tr' = [] /\ handled 0 tr' = [].
Proof.
  intros T. pose proof (remove_last_spec bufs) as Rl. destruct (remove_last bufs) as [[rest b0]|] eqn:Rb.
  2: { rewrite Rl in bufs_count. unfold nlen in bufs_count. cbn in bufs_count. lia. }
  assert (L0 : nlen b0 = len).
  { rewrite Rl in bufs_len. apply Forall_app in bufs_len as [_ F]. now apply Forall_cons_iff in F as [F _]. }
  assert (A : accepted (take len []) = false) by (unfold take; rewrite firstn_nil; reflexivity).
  assert (M1 : count (malformed len) [TRecv 0 (Message [])] = 1).
  { unfold count. cbn [flat_map malformed]. now rewrite A. }
  assert (Rounds : forall j : nat, N.of_nat j <= threads ->
    exists tr b ch, texec start tr {| p_caller := MSpawn 1 rest; p_workers := [WRecv b]; p_channel := ch |} /\
      nlen b = len /\ nlen ch = N.of_nat j /\ count (malformed len) tr = N.of_nat j /\ count fails tr = 0).
  { induction j as [|j IH]; intros Hj.
    - exists ([] ++ [TSpawn]), b0, []. split; [|repeat split; auto].
      eapply texec_snoc; [constructor|].
      apply (step_spawn k threads 0 bufs rest b0 [] []); [lia|exact Rb].
    - destruct IH as (tr & b & ch & Ex & Lb & Lc & Cm & Cf); [lia|].
      destruct (one_round (MSpawn 1 rest) ch b Lb) as (b' & e & Lb' & S1 & S2); [lia|].
      exists ((tr ++ [TRecv 0 (Message [])]) ++ [TReport 0 e]), b', (ch ++ [e]). split.
      + eapply texec_snoc; [|exact S2]. eapply texec_snoc; [exact Ex|exact S1].
      + split; [exact Lb'|]. rewrite nlen_app, !count_app, M1. change (nlen [e]) with 1.
        change (count (malformed len) [TReport 0 e]) with 0. change (count fails [TReport 0 e]) with 0.
        change (count fails [TRecv 0 (Message [])]) with 0. lia. }
  destruct (Rounds (N.to_nat threads)) as (tr & b & ch & Ex & Lb & Lc & Cm & Cf); [lia|].
  destruct (after_recv_spec b (Message []) Lb) as (P & C & En & S & B).
  cbn [expected] in P. rewrite A in P.
  destruct (after_recv k b (Message [])) as [| |b' e| | |] eqn:Ar; try discriminate.
  pose proof (step_recv k threads (MSpawn 1 rest) [WRecv b] ch 0 b (Message []) eq_refl) as X.
  rewrite Ar in X. cbn [set_worker] in X.
  eexists _, _. split; [eapply texec_snoc; [exact Ex|exact X]|]. rewrite !count_app, M1.
  change (count fails [TRecv 0 (Message [])]) with 0. split; [lia|]. split; [lia|].
  intros tr' s' H'. eapply (C50_stuck _ 0 b' e) in H'; [tauto| | |]; cbn [p_workers p_channel p_caller].
  - reflexivity.
  - lia.
  - discriminate.
Qed.
End Proofs.

(** * Examples (little-endian) *)

Local Instance LE : Endian := false.

Lemma texec_cons k n s l s1 tr s2 : tstep k n s l s1 -> texec k n s1 tr s2 -> texec k n s (l :: tr) s2.
Proof.
  intros St H. induction H as [s1|s1 tr s' l' s'' H IH St'].
  - change [l] with ([] ++ [l]). econstructor; [constructor|exact St].
  - change (l :: tr ++ [l']) with ((l :: tr) ++ [l']). econstructor; [apply IH; exact St|exact St'].
Qed.
Ltac steps := repeat (eapply texec_cons;
  [first [eapply step_spawn; [reflexivity|reflexivity]|eapply step_scope; discriminate
         |eapply step_recv; reflexivity|eapply step_dispatch; reflexivity
         |eapply step_send; [reflexivity|reflexivity]|eapply step_return; reflexivity]|cbn [set_worker]; lazy]);
  try apply texec_nil.

(** Two threads with small buffers *)
Definition demo_bufs : list bytes := [repeat x00 64; repeat xff 64].
Definition good : bytes := opcode_msg 26 7.
Definition shut : recv_event := RecvFails (RE_ConnectionClosed 19).

(** An allocator handing out memory at address 4096 *)
Definition demo_alloc (ly : Layout) : option (N * bytes) :=
  if 4096 mod ly_align ly =? 0 then Some (4096, repeat xaa (N.to_nat (ly_size ly))) else None.
Lemma demo_alloc_honest : honest demo_alloc.
Proof.
  intros ly ptr mem. unfold demo_alloc. destruct (N.eqb_spec (4096 mod ly_align ly) 0) as [A|]; [|discriminate].
  intros [= <- <-]. split; [unfold nlen; rewrite repeat_length; lia|exact A].
Qed.
Example C55_buffers_example :
  AlignedBuf_with_capacity 9223372036854775807 demo_alloc 100 =
    Ret {| ab_ptr := 4096; ab_len := 8192; ab_mem := repeat xaa (N.to_nat 8192) |} /\
  AlignedBuf_with_capacity 2147483647 demo_alloc 4294967295 = Panic.
Proof. split; vm_compute; reflexivity. Qed.
Example C55_new_example :
  honest demo_alloc /\ exists b, AlignedBuf_new 9223372036854775807 demo_alloc = Ret b /\ ab_len b = 8192.
Proof.
  split; [exact demo_alloc_honest|].
  exists {| ab_ptr := 4096; ab_len := 8192; ab_mem := repeat xaa (N.to_nat 8192) |}. split; [vm_compute; reflexivity|reflexivity].
Qed.
Example C55_start_example :
  match serve_start 9223372036854775807 (Some 2) 100 (fun _ => demo_alloc) with
  | Ret s => match p_caller s with MSpawn 0 bs => map nlen bs = [8192; 8192] | _ => False end
  | _ => False
  end.
Proof. vm_compute. reflexivity. Qed.
Example C51_threads_example : server_threads (Some 64) = 16 /\ server_threads None = 1.
Proof. split; reflexivity. Qed.

(** Both workers get messages; one of them is malformed; then the connection
    is closed and the function returns with one error. *)
Definition demo_run : list tlabel :=
  [TSpawn; TRecv 0 (Message good); TSpawn; TRecv 1 (Message (opcode_msg 3 0)); TScope;
   TDispatch 0 {| rq_mem := good |}; TRecv 0 shut; TReport 1 (SrvRequest EInvalidRequestId);
   TRecv 1 (Message good); TDispatch 1 {| rq_mem := good |}; TRecv 1 shut; TReturn].
Lemma demo_runs : exists s, texec Fuse 2 (pool_new demo_bufs) demo_run s /\ p_caller s = MReturned /\
  p_channel s = [SrvRequest EInvalidRequestId].
Proof. eexists. split; [unfold demo_run; steps|split; reflexivity]. Qed.
Example C51_once_example :
  (exists s, texec Fuse 2 (pool_new demo_bufs) demo_run s) /\
  handled 1 demo_run = [Reported (SrvRequest EInvalidRequestId); Dispatched good] /\
  flat_map (expected Fuse 64) (received 1 demo_run) = handled 1 demo_run.
Proof. split; [destruct demo_runs as (s & H & _); now exists s|]. split; vm_compute; reflexivity. Qed.
Example C51_ends_example :
  received 1 demo_run = map Message [opcode_msg 3 0; good] ++ [shut].
Proof. reflexivity. Qed.
Example C51_returns_example :
  exists s, texec Fuse 2 (pool_new demo_bufs) demo_run s /\ p_caller s = MReturned.
Proof. destruct demo_runs as (s & H & R & _). now exists s. Qed.
Example C51_local_example :
  exists s b, texec Fuse 2 (pool_new demo_bufs) [TSpawn; TRecv 0 (Message good); TDispatch 0 {| rq_mem := good |}] s /\
    nth_error (p_workers s) 0 = Some (WRecv b) /\
    fuse_serve_local [Message good] (repeat x00 64) = ([{| rq_mem := good |}], Waiting).
Proof. eexists _, _. split; [steps|split; reflexivity]. Qed.
Example C50_serves_example :
  exists s b, texec Fuse 2 (pool_new demo_bufs) [TSpawn; TRecv 0 (Message [])] s /\
    nth_error (p_workers s) 0 = Some (WSend b (SrvRequest EUnexpectedEof)) /\
    count (fault Fuse 64) [TSpawn; TRecv 0 (Message [])] = 1.
Proof. eexists _, _. split; [steps|split; reflexivity]. Qed.
Example C50_unmount_example :
  exists s s', texec Fuse 2 (pool_new demo_bufs) (firstn 5 demo_run) s /\
    texec Fuse 2 s [TDispatch 0 {| rq_mem := good |}; TReport 1 (SrvRequest EInvalidRequestId);
      TRecv 1 shut; TRecv 0 shut; TReturn] s' /\ p_caller s' = MReturned.
Proof. eexists _, _. split; [cbn [firstn demo_run]; steps|]. split; [steps|reflexivity]. Qed.
(** One thread, two malformed messages *)
Definition bad_run : list tlabel :=
  [TSpawn; TScope; TRecv 0 (Message []); TReport 0 (SrvRequest EUnexpectedEof); TRecv 0 (Message [])].
Example C50_deadlock_example :
  exists s b, texec Cuse 1 (pool_new [repeat x00 64]) bad_run s /\
    nth_error (p_workers s) 0 = Some (WSend b (SrvRequest EUnexpectedEof)) /\
    nlen (p_channel s) = 1 /\ p_caller s = MScope /\ count (malformed 64) bad_run = 2.
Proof. eexists _, _. split; [unfold bad_run; steps|]. repeat split; reflexivity. Qed.
Example C50_stuck_example :
  exists s b, texec Cuse 1 (pool_new [repeat x00 64]) bad_run s /\
    nth_error (p_workers s) 0 = Some (WSend b (SrvRequest EUnexpectedEof)) /\ 1 <= nlen (p_channel s).
Proof. destruct C50_deadlock_example as (s & b & H & N & C & _). exists s, b. rewrite C. repeat split; auto. lia. Qed.
Example C50_limit_example : count (malformed 64) bad_run = 2 * 1.
Proof. reflexivity. Qed.
(** One malformed message, then both workers see the connection closed: three
    errors, room for two. *)
Definition cuse_run : list tlabel :=
  [TSpawn; TSpawn; TScope; TRecv 0 (Message []); TReport 0 (SrvRequest EUnexpectedEof); TRecv 0 shut;
   TRecv 1 shut; TReport 1 (SrvRecv (RE_ConnectionClosed 19))].
Example C50_cuse_never_returns_example :
  exists s b, texec Cuse 2 (pool_new demo_bufs) cuse_run s /\
    p_workers s = [WSend b (SrvRecv (RE_ConnectionClosed 19)); WExit] /\
    count (malformed 64) cuse_run = 1.
Proof. eexists _, _. split; [unfold cuse_run; steps|]. split; reflexivity. Qed.
Example C50_many_errors_example : count (fault Cuse 64) cuse_run = 3.
Proof. reflexivity. Qed.
Example C50_refuted_example : nlen demo_bufs = 2 /\ Forall (fun b => nlen b = 64) demo_bufs.
Proof. split; [reflexivity|]. repeat constructor. Qed.

Print Assumptions C55_buffers.
Print Assumptions C55_new.
Print Assumptions C55_start.
Print Assumptions C51_threads.
Print Assumptions C51_once.
Print Assumptions C51_ends.
Print Assumptions C51_returns.
Print Assumptions C51_local.
Print Assumptions C50_serves.
Print Assumptions C50_unmount.
Print Assumptions C50_stuck.
Print Assumptions C50_limit.
Print Assumptions C50_many_errors.
Print Assumptions C50_cuse_never_returns.
Print Assumptions C50_deadlock.
Print Assumptions C50_refuted.
