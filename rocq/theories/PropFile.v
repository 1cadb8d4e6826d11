(** Theorems about whole read and write calls, from the system call to its
    return: C73 of properties.jsonl. *)

From Verif Require Import Base Kernel CoreModel DecodeModel OpsModel WireSpec OpsRoundTrip DecodeProofs
  ReplyModel ReplySpec ReplyProofs PropDecode PropHeader PropReply ServerModel ServerSpec PropServer DeviceSpec PropDevice
  ClientSpec PropClient TakenSpec FileSpec.
From Coq Require Import Strings.Byte.
From Coq Require Import List NArith ZArith Bool Lia ZifyBool ZifyNat ZifyN.
Import ListNotations.
Open Scope list_scope.
Open Scope N_scope.

(** ** Specification *)

Section Spec.
Context {E : Endian} {St : Type}.

(** The handlers of a server for one file: data or a count, or an error. *)
Record handlers := {
  on_read : St -> view -> St * (bytes + Z);
  on_write : St -> view -> St * (N + Z) }.

(** What they can answer to requests of at most 1 MiB: more than was asked for,
    but no more than fits a message; any count; the errors of Linux. *)
Definition can (h : handlers) : Prop :=
  (forall s node size off fh lock flags, size <= 1048576 ->
     match snd (on_read h s (VRead node size off fh lock flags)) with
     | inl b => nlen b <= 4294967000 | inr e => (-512 < e < 0)%Z end) /\
  (forall s node off fh data wflags lock flags, nlen data <= 1048576 ->
     match snd (on_write h s (VWrite node off fh data wflags lock flags)) with
     | inl n => n < U32 | inr e => (-512 < e < 0)%Z end).

(** The calls they make for that. *)
Definition program_of (h : handlers) : program St := fun s v =>
  match v with
  | VRead _ _ _ _ _ _ =>
    let (s', r) := on_read h s v in (s', match r with inl b => AOkBuf b | inr e => AErr e end)
  | VWrite _ _ _ _ _ _ _ =>
    let (s', r) := on_write h s v in (s', match r with inl n => AOk (RWriteOut n) | inr e => AErr e end)
  | _ => (s, AErr (-38)%Z)
  end.

(** What a call means: the handlers are called with what the program passed,
    cut into requests, and it gets what they return. *)
Definition open_flags (f : open_file) : N := if cf_minor (of_cf f) <? 9 then 0 else of_flags f.
Definition write_view (f : open_file) (off : N) (data : bytes) : view :=
  VWrite (subject (of_cuse f) (of_node f)) off (of_fh f) data 0 None (open_flags f).
Definition read_view (f : open_file) (off size : N) : view :=
  VRead (subject (of_cuse f) (of_node f)) size off (of_fh f) None (open_flags f).

Fixpoint meant_write (f : open_file) (h : handlers) (fuel k : nat) (s : St) (off : N) (data : bytes)
    (done : N) : option (result (St := St) N) :=
  match data, fuel with
  | [], _ => Some (k, s, inl done)
  | _, O => None
  | _, S fuel =>
    let chunk := take (of_wcut f k) data in
    let (s', r) := on_write h s (write_view f off chunk) in
    match r with
    | inr e => Some (S k, s', if done =? 0 then inr (- e)%Z else inl done)
    | inl n =>
      (* more than was written *)
      if nlen chunk <? n then Some (S k, s', if done =? 0 then inr EIO else inl done)
      else if n =? nlen chunk then meant_write f h fuel (S k) s' (off + n) (drop n data) (done + n)
      else Some (S k, s', inl (done + n))
    end
  end.
Fixpoint meant_read (f : open_file) (h : handlers) (fuel k : nat) (s : St) (off n : N) (got : bytes)
    : option (result (St := St) bytes) :=
  match n, fuel with
  | 0, _ => Some (k, s, inl got)
  | _, O => None
  | _, S fuel =>
    let size := N.min n (of_rcut f k) in
    let (s', r) := on_read h s (read_view f off size) in
    match r with
    | inr e => Some (S k, s', match got with [] => inr (- e)%Z | _ => inl got end)
    | inl p =>
      (* more than was asked for *)
      if size <? nlen p then Some (S k, s', match got with [] => inr EIO | _ => inl got end)
      else if nlen p =? size then meant_read f h fuel (S k) s' (off + size) (n - size) (got ++ p)
      else Some (S k, s', inl (got ++ p))
    end
  end.

End Spec.
Arguments handlers : clear implicits.

(** A file in memory. *)
Definition memory_file : handlers bytes := {|
  on_read := fun c v =>
    match v with
    | VRead _ size off _ _ _ => (c, inl (slice off size c))
    | _ => (c, inr (-22)%Z)
    end;
  on_write := fun c v =>
    match v with
    | VWrite _ off _ data _ _ _ => (written c off data, inl (nlen data))
    | _ => (c, inr (-22)%Z)
    end |}.

(** ** Proofs *)

Section Proofs.
Context {E : Endian} {St : Type}.

Lemma header_id hd : good_header hd -> is_id (rh_unique hd).
Proof.
  intros [Gh Gu]. unfold header_fields in Gh.
  apply Forall_cons_iff in Gh as [_ Gh]. apply Forall_cons_iff in Gh as [_ Gh].
  apply Forall_cons_iff in Gh as [Gh _]. unfold is_id. split; [lia|exact Gh].
Qed.

(** One request: what the handler is given, and what becomes of its answer. *)
Lemma exchange_ok is_cuse max_write buf_len cf (prog : program St) s hd op v s' a e p :
  N.max 8192 (80 + max_write) <= buf_len ->
  sendable is_cuse cf hd op -> (op_type op = RCreate -> 12 <= cf_minor cf) ->
  nlen (linux_message cf hd op) < U32 -> nlen (linux_message cf hd op) <= buf_len ->
  N.odd (rh_unique hd) = false ->
  taken_for is_cuse cf (rh_nodeid hd) op = Ret v ->
  prog s v = (s', a) -> replies (cf_minor cf) (rh_unique hd) a e p -> (-512 < e <= 0)%Z ->
  (e <> 0%Z -> p = []) ->
  exchange is_cuse max_write buf_len cf prog s hd op =
  Some (s', if (e =? 0)%Z then if fits (op_room (cf_minor cf) op) (nlen p) then inl p else inr (-5)%Z
            else inr e).
Proof.
  intros B S C L L' Od T P R He Hp.
  destruct (message_understood is_cuse cf hd op S C L) as (Acc & (len & Hs & _) & D).
  unfold exchange, device_read.
  replace (buf_len <? N.max 8192 (80 + max_write)) with false by lia.
  replace (buf_len <? nlen (linux_message cf hd op)) with false by lia.
  unfold serve. rewrite not_refused by exact Acc. cbn [bind]. rewrite Hs. cbn [bind].
  rewrite D, T. cbn [bind]. rewrite P.
  destruct R as (b & m & A & O & _ & K). rewrite A, O.
  rewrite (device_verdict (cf_minor cf) _ m (rh_unique hd) e p op K Od); [|now rewrite N.eqb_refl].
  unfold verdict, told. replace ((e <=? -512) || (0 <? e))%Z with false by lia.
  destruct (Z.eqb_spec e 0) as [Z0|Z0].
  - destruct (fits _ _); reflexivity.
  - rewrite (Hp Z0). reflexivity.
Qed.

Lemma write_exchange f (h : handlers St) k s off data :
  good_file f -> can h -> off < U64 -> nlen data <= of_wcut f k ->
  forall s' r, on_write h s (write_view f off data) = (s', r) ->
  exists q,
  exchange (of_cuse f) (of_max_write f) (of_buf_len f) (of_cf f) (program_of h) s (of_hd f k)
    (OWrite (of_fh f) off 0 0 (of_flags f) 0 data) = Some (s', q) /\
  match r with
  | inl n => exists p, q = inl p /\ u32_at 0 p = n
  | inr e => q = inr e
  end.
Proof.
  intros (B & Pg & Hf & Hg & Hn & Wc & _ & Hh) [_ Can] Ho Ld s' r P.
  specialize (Wc k). assert (Can' : match r with inl n => n < U32 | inr e => (-512 < e < 0)%Z end).
  { specialize (Can s (subject (of_cuse f) (of_node f)) off (of_fh f) data 0 None (open_flags f)).
    fold (write_view f off data) in Can. rewrite P in Can. apply Can. lia. }
  clear Can. rename Can' into Can.
  destruct (Hh k) as (Gh & Od & Nd). set (hd := of_hd f k) in *.
  set (op := OWrite (of_fh f) off 0 0 (of_flags f) 0 data).
  assert (W : ClientSpec.within (of_max_write f) (of_max_pages f) (of_buf_len f) op)
    by (unfold op; cbn [ClientSpec.within]; lia).
  destruct (message_fits _ _ _ (of_cf f) hd op W Pg B) as [L L']. specialize (L' eq_refl).
  assert (S : sendable (of_cuse f) (of_cf f) hd op).
  { split; [exact Gh|]. split; [split; [|exact I]|].
    - unfold op. cbn [op_fields]. destruct (cf_minor (of_cf f) <? 9);
        unfold in_range, U64, U32 in *; repeat constructor; cbn; lia.
    - split; [now destruct (of_cuse f)|]. split; [|constructor].
      intros _ [Cu|Cu]; [rewrite Nd; auto|discriminate Cu]. }
  pose proof (header_id hd Gh) as Id.
  assert (T : taken_for (of_cuse f) (of_cf f) (rh_nodeid hd) op = Ret (write_view f off data)).
  { unfold taken_for, op, write_view, open_flags. cbn [expected]. rewrite Nd.
    now destruct (cf_minor (of_cf f) <? 9). }
  destruct r as [n|e].
  - destruct (C22_small_replies (cf_minor (of_cf f)) (rh_unique hd) Id) as (_ & R & _).
    destruct (R n Can) as (p & Rp & P0 & P4).
    assert (Lp : nlen p = 8).
    { assert (R8 : replies (cf_minor (of_cf f)) (rh_unique hd) (AOk (RWriteOut n)) 0
                (payload (cf_minor (of_cf f)) (RWriteOut n))) by
        (apply ok_replies; [exact Id|rewrite (nlen_payload _ (RWriteOut n) _ eq_refl); unfold u32_max; lia]).
      destruct R8 as (b & m & A & O & _ & K). destruct Rp as (b' & m' & A' & O' & _ & K').
      rewrite A in A'. injection A' as <-. rewrite O in O'. injection O' as <-.
      rewrite K in K'.
      assert (X : payload (cf_minor (of_cf f)) (RWriteOut n) = p) by congruence.
      rewrite <- X. apply (nlen_payload (cf_minor (of_cf f)) (RWriteOut n) _ eq_refl). }
    eexists. split.
    + eapply (exchange_ok (of_cuse f) _ _ (of_cf f) _ s hd op _ s' _ 0%Z p B S); try eassumption;
        [discriminate| |lia|easy].
      cbn [program_of write_view]. unfold program_of, write_view in *. rewrite P. reflexivity.
    + exists p. split; [|exact P0]. rewrite Lp. reflexivity.
  - eexists. split.
    + eapply (exchange_ok (of_cuse f) _ _ (of_cf f) _ s hd op _ s' (AErr e) e [] B S); try eassumption;
        [discriminate| |apply C20_error_reply; [exact Id|unfold is_i32; lia]|lia|easy].
      unfold program_of, write_view in *. rewrite P. reflexivity.
    + cbv beta iota. replace (e =? 0)%Z with false by lia. reflexivity.
Qed.

Lemma read_exchange f (h : handlers St) k s off size :
  good_file f -> can h -> off < U64 -> size <= of_rcut f k ->
  forall s' r, on_read h s (read_view f off size) = (s', r) ->
  exchange (of_cuse f) (of_max_write f) (of_buf_len f) (of_cf f) (program_of h) s (of_hd f k)
    (ORead (of_fh f) off size 0 0 (of_flags f) 0) =
  Some (s', match r with
            | inl p => if size <? nlen p then inr (-5)%Z else inl p
            | inr e => inr e
            end).
Proof.
  intros (B & Pg & Hf & Hg & Hn & _ & Rc & Hh) [Can _] Ho Ls s' r P.
  specialize (Rc k). assert (Can' : match r with inl b => nlen b <= 4294967000 | inr e => (-512 < e < 0)%Z end).
  { specialize (Can s (subject (of_cuse f) (of_node f)) size off (of_fh f) None (open_flags f)).
    fold (read_view f off size) in Can. rewrite P in Can. apply Can. lia. }
  clear Can. rename Can' into Can.
  destruct (Hh k) as (Gh & Od & Nd). set (hd := of_hd f k) in *.
  set (op := ORead (of_fh f) off size 0 0 (of_flags f) 0).
  assert (W : ClientSpec.within (of_max_write f) (of_max_pages f) (of_buf_len f) op) by exact I.
  destruct (message_fits _ _ _ (of_cf f) hd op W Pg B) as [L L']. specialize (L' eq_refl).
  assert (S : sendable (of_cuse f) (of_cf f) hd op).
  { split; [exact Gh|]. split; [split; [|exact I]|].
    - unfold op. cbn [op_fields]. unfold read_in. destruct (cf_minor (of_cf f) <? 9);
        unfold in_range, U64, U32 in *; repeat constructor; cbn; lia.
    - split; [now destruct (of_cuse f)|]. split; [|constructor].
      intros _ [Cu|Cu]; [rewrite Nd; auto|discriminate Cu]. }
  pose proof (header_id hd Gh) as Id.
  assert (T : taken_for (of_cuse f) (of_cf f) (rh_nodeid hd) op = Ret (read_view f off size)).
  { unfold taken_for, op, read_view, open_flags. cbn [expected]. rewrite Nd.
    now destruct (cf_minor (of_cf f) <? 9). }
  destruct r as [p|e].
  - rewrite (exchange_ok (of_cuse f) _ _ (of_cf f) (program_of h) s hd op
      (read_view f off size) s' (AOkBuf p) 0%Z p B S); try assumption; try lia; try easy.
    + cbn [Z.eqb]. unfold op. cbn [op_room fits]. destruct (N.ltb_spec size (nlen p)).
      * replace (_ && _) with false by lia. reflexivity.
      * replace (_ && _) with true by lia. reflexivity.
    + unfold program_of, read_view in *. rewrite P. reflexivity.
    + destruct (C18_payload (cf_minor (of_cf f)) (rh_unique hd) p [] [] [] Id) as (_ & _ & _ & _ & R & _).
      apply R. unfold u32_max. lia.
  - rewrite (exchange_ok (of_cuse f) _ _ (of_cf f) (program_of h) s hd op
      (read_view f off size) s' (AErr e) e [] B S); try assumption; try lia; try easy.
    + replace (e =? 0)%Z with false by lia. reflexivity.
    + unfold program_of, read_view in *. rewrite P. reflexivity.
    + apply C20_error_reply; [exact Id|unfold is_i32; lia].
Qed.

(** ** C73 *)

Lemma pwrite_meant f (h : handlers St) : good_file f -> can h ->
  forall fuel k s off data done, off + nlen data <= U64 ->
  pwrite_loop f (program_of h) fuel k s off data done = meant_write f h fuel k s off data done.
Proof.
  intros G Can. induction fuel as [|fuel IH]; intros k s off data done Lo;
    (destruct data as [|x data]; [reflexivity|]); [reflexivity|].
  cbn [pwrite_loop meant_write]. rewrite nlen_cons in Lo.
  set (d := x :: data). assert (Ld : nlen d = 1 + nlen data) by apply nlen_cons.
  destruct (on_write h s (write_view f off (take (of_wcut f k) d))) as [s' r] eqn:P.
  destruct (write_exchange f h k s off (take (of_wcut f k) d) G Can) with (s' := s') (r := r)
    as (q & -> & Q); [lia|rewrite nlen_take; lia|exact P|].
  destruct r as [n|e].
  - destruct Q as (p & -> & Pn). unfold linux_write. rewrite Pn.
    destruct (N.ltb_spec (nlen (take (of_wcut f k) d)) n) as [Ln|Ln]; [reflexivity|].
    destruct (n =? nlen (take (of_wcut f k) d)) eqn:En; [|reflexivity].
    apply IH. rewrite nlen_drop. rewrite nlen_take in Ln, En. lia.
  - subst q. reflexivity.
Qed.

Lemma pread_meant f (h : handlers St) : good_file f -> can h ->
  forall fuel k s off n got, off + n <= U64 ->
  pread_loop f (program_of h) fuel k s off n got = meant_read f h fuel k s off n got.
Proof.
  intros G Can. induction fuel as [|fuel IH]; intros k s off n got Lo;
    (destruct n as [|n]; [reflexivity|]); [reflexivity|].
  cbn [pread_loop meant_read]. set (m := N.pos n) in *.
  destruct (on_read h s (read_view f off (N.min m (of_rcut f k)))) as [s' r] eqn:P.
  rewrite (read_exchange f h k s off (N.min m (of_rcut f k)) G Can) with (s' := s') (r := r);
    [|lia|lia|exact P].
  destruct r as [p|e]; [|reflexivity].
  destruct (N.ltb_spec (N.min m (of_rcut f k)) (nlen p)); [reflexivity|].
  destruct (nlen p =? N.min m (of_rcut f k)); [|reflexivity].
  apply IH. lia.
Qed.

(** The loops end. *)
Lemma meant_write_ends f (h : handlers St) : good_file f ->
  forall fuel k s off data done, (length data <= fuel)%nat ->
  exists r, meant_write f h fuel k s off data done = Some r.
Proof.
  intros (_ & _ & _ & _ & _ & Wc & _). induction fuel as [|fuel IH]; intros k s off data done L;
    (destruct data as [|x data]; [eexists; reflexivity|]); [cbn in L; lia|].
  cbn [meant_write]. set (d := x :: data) in *. destruct (on_write h s _) as [s' [n|e]]; [|eexists; reflexivity].
  destruct (_ <? n); [eexists; reflexivity|].
  destruct (N.eqb_spec n (nlen (take (of_wcut f k) d))) as [En|En]; [|eexists; reflexivity].
  apply IH. specialize (Wc k). rewrite nlen_take in En. unfold drop. rewrite skipn_length.
  assert (nlen d = N.of_nat (length d)) by reflexivity.
  assert (0 < nlen d) by (unfold d; rewrite nlen_cons; lia). lia.
Qed.
Lemma meant_read_ends f (h : handlers St) : good_file f ->
  forall fuel k s off n got, n <= N.of_nat fuel ->
  exists r, meant_read f h fuel k s off n got = Some r.
Proof.
  intros (_ & _ & _ & _ & _ & _ & Rc & _). induction fuel as [|fuel IH]; intros k s off n got L;
    (destruct n as [|n]; [eexists; reflexivity|]); [lia|].
  cbn [meant_read]. set (m := N.pos n) in *. specialize (Rc k).
  destruct (on_read h s _) as [s' [p|e]]; [|eexists; reflexivity].
  destruct (_ <? _); [eexists; reflexivity|]. destruct (_ =? _); [|eexists; reflexivity].
  apply IH. lia.
Qed.

(** What a write call returns and does is what it means in terms of the
    handlers. *)
Theorem C73_pwrite f (h : handlers St) k s off data :
  good_file f -> can h -> off + nlen data <= U64 ->
  exists r, pwrite f (program_of h) k s off data = Some r /\
            meant_write f h (length data) k s off data 0 = Some r.
Proof.
  intros G Can L. destruct (meant_write_ends f h G (length data) k s off data 0) as [r R]; [lia|].
  exists r. split; [|exact R]. unfold pwrite. now rewrite pwrite_meant.
Qed.

(** And a read call. *)
Theorem C73_pread f (h : handlers St) k s off n :
  good_file f -> can h -> off + n <= U64 ->
  exists r, pread f (program_of h) k s off n = Some r /\
            meant_read f h (N.to_nat n) k s off n [] = Some r.
Proof.
  intros G Can L. destruct (meant_read_ends f h G (N.to_nat n) k s off n []) as [r R]; [lia|].
  exists r. split; [|exact R]. unfold pread. now rewrite pread_meant.
Qed.
End Proofs.

(** ** A file in memory *)

Section Memory.
Context {E : Endian}.

Lemma memory_can : can memory_file.
Proof.
  split; intros; cbn [memory_file on_read on_write snd].
  - rewrite nlen_slice. lia.
  - unfold U32. lia.
Qed.

Lemma nlen_written c off data : data <> [] -> nlen (written c off data) = N.max (nlen c) (off + nlen data).
Proof.
  intros Nd. unfold written. destruct data as [|x data]; [easy|]. set (d := x :: data).
  rewrite !nlen_app, nlen_take, nlen_repeat, nlen_drop. lia.
Qed.

(** A write in two parts. *)
Lemma written_app c off a b : a <> [] ->
  written (written c off a) (off + nlen a) b = written c off (a ++ b).
Proof.
  intros Na. destruct b as [|y b0]; [now rewrite app_nil_r|]. set (b := y :: b0).
  pose proof (nlen_written c off a Na) as L.
  unfold written at 1. fold b. cbv beta iota.
  assert (W : forall d, d <> [] -> written c off d = take off c ++ repeat Byte.x00 (N.to_nat (off - nlen c)) ++ d ++
         drop (off + nlen d) c) by (intros [|? ?] ?; [easy|reflexivity]).
  replace (off + nlen a - nlen (written c off a)) with 0 by lia. cbn [N.to_nat repeat app].
  rewrite (W (a ++ b)) by (destruct a; [easy|discriminate]).
  rewrite (W a Na). rewrite nlen_app.
  assert (L0 : nlen (take off c ++ repeat Byte.x00 (N.to_nat (off - nlen c))) = off)
    by (rewrite nlen_app, nlen_take, nlen_repeat; lia).
  set (pre := take off c ++ repeat Byte.x00 (N.to_nat (off - nlen c))) in *.
  rewrite !(app_assoc (take off c)). fold pre.
  replace (pre ++ a ++ drop (off + nlen a) c) with ((pre ++ a) ++ drop (off + nlen a) c) by (now rewrite app_assoc).
  rewrite take_app by (rewrite nlen_app; lia).
  rewrite drop_app_ge by (rewrite nlen_app; lia). rewrite drop_drop, nlen_app.
  rewrite <- !app_assoc.
  replace (off + nlen a + (off + nlen a + nlen b - (nlen pre + nlen a))) with (off + (nlen a + nlen b)) by lia.
  reflexivity.
Qed.

Lemma memory_write f : good_file f ->
  forall fuel k c off data done, (length data <= fuel)%nat ->
  exists k', meant_write f memory_file fuel k c off data done =
    Some (k', written c off data, inl (done + nlen data)).
Proof.
  intros (_ & _ & _ & _ & _ & Wc & _). induction fuel as [|fuel IH]; intros k c off data done L.
  1,2: destruct data as [|x data]; [exists k; cbn; do 3 f_equal; lia|].
  1: cbn in L; lia.
  cbn [meant_write]. set (d := x :: data) in *. cbn [memory_file on_write write_view].
  unfold write_view. rewrite N.ltb_irrefl, N.eqb_refl.
  specialize (Wc k).
  assert (Ld : nlen d = N.of_nat (length d)) by reflexivity.
  assert (Pd : 0 < nlen d) by (unfold d; rewrite nlen_cons; lia).
  assert (Lt : nlen (take (of_wcut f k) d) = N.min (of_wcut f k) (nlen d)) by apply nlen_take.
  destruct (IH (S k) (written c off (take (of_wcut f k) d)) (off + nlen (take (of_wcut f k) d))
    (drop (nlen (take (of_wcut f k) d)) d) (done + nlen (take (of_wcut f k) d))) as [k' R].
  { unfold drop. rewrite skipn_length. lia. }
  exists k'. rewrite R, written_app.
  - assert (X : take (of_wcut f k) d ++ drop (nlen (take (of_wcut f k) d)) d = d).
    { rewrite Lt. destruct (N.le_gt_cases (of_wcut f k) (nlen d)).
      - rewrite N.min_l by lia. apply take_drop.
      - rewrite N.min_r by lia. rewrite take_all, drop_all by lia. apply app_nil_r. }
    rewrite X. do 3 f_equal. rewrite nlen_drop. lia.
  - intros Z. rewrite Z in Lt. cbn in Lt. lia.
Qed.

Lemma slice_split (c : bytes) off a n : a <= n -> slice off a c ++ slice (off + a) (n - a) c = slice off n c.
Proof.
  intros L. unfold slice. rewrite <- (drop_drop a off c).
  rewrite <- (take_drop a (take n (drop off c))) at 1. rewrite take_take, drop_take.
  now rewrite N.min_l by lia.
Qed.

Lemma memory_read f : good_file f ->
  forall fuel k c off n got, n <= N.of_nat fuel ->
  exists k', meant_read f memory_file fuel k c off n got = Some (k', c, inl (got ++ slice off n c)).
Proof.
  intros (_ & _ & _ & _ & _ & _ & Rc & _). induction fuel as [|fuel IH]; intros k c off n got L.
  1,2: destruct n as [|n]; [exists k; cbn; rewrite app_nil_r; reflexivity|].
  1: lia.
  cbn [meant_read]. set (m := N.pos n) in *. cbn [memory_file on_read].
  unfold read_view. specialize (Rc k). set (sz := N.min m (of_rcut f k)).
  assert (Ls : nlen (slice off sz c) <= sz) by (rewrite nlen_slice; lia).
  replace (sz <? nlen (slice off sz c)) with false by lia.
  destruct (N.eqb_spec (nlen (slice off sz c)) sz) as [Eq|Ne].
  - destruct (IH (S k) c (off + sz) (m - sz) (got ++ slice off sz c)) as [k' R]; [lia|].
    exists k'. rewrite R, <- app_assoc, slice_split by lia. reflexivity.
  - exists (S k). do 3 f_equal. rewrite nlen_slice in Ne.
    unfold slice. rewrite !take_all by (rewrite nlen_drop; lia). reflexivity.
Qed.

(** Calls within the range of [loff_t]. *)
Definition in_file (c : file_call) : Prop :=
  match c with
  | Pwrite off data => off + nlen data < 2 ^ 63
  | Pread off n => off + n < 2 ^ 63
  end.

(** Programs that read and write a file this server keeps in memory get what
    POSIX says, however Linux cuts the calls into requests. *)
Theorem C73_memory_file f c l : forall k,
  good_file f -> Forall in_file l ->
  calls f (program_of memory_file) k c l = Some (file_steps c l).
Proof.
  revert c. induction l as [|x l IH]; intros c k G Hl; [reflexivity|].
  apply Forall_cons_iff in Hl as [Hx Hl]. cbn [calls file_steps]. destruct x as [off data|off n]; cbn [in_file file_step] in *.
  - destruct (C73_pwrite f memory_file k c off data G memory_can) as (r & -> & R); [unfold U64; lia|].
    destruct (memory_write f G (length data) k c off data 0) as [k' R']; [lia|].
    rewrite R' in R. injection R as <-. rewrite (IH _ k' G Hl). cbn [N.add].
    now destruct (file_steps _ l).
  - destruct (C73_pread f memory_file k c off n G memory_can) as (r & -> & R); [unfold U64; lia|].
    destruct (memory_read f G (N.to_nat n) k c off n []) as [k' R']; [lia|].
    rewrite R' in R. injection R as <-. rewrite (IH _ k' G Hl). cbn [app].
    now destruct (file_steps _ l).
Qed.
End Memory.

(** ** Examples *)

Local Instance LE : Endian := false.

(** Sessions in which requests write 3 or 4 bytes and read 3, although 4096 are
    allowed; node 7 is open as handle 5. *)
Definition demo_open (is_cuse : bool) (minor : N) : open_file := {|
  of_cuse := is_cuse; of_max_write := 4096; of_max_pages := 1; of_max_read := 4096; of_buf_len := 8192;
  of_cf := {| cf_minor := minor; cf_setxattr_ext := false; cf_overflow_checks := true |};
  of_hd := fun k => demo_hd (2 * (N.of_nat k mod 1000) + 2) 7;
  of_wcut := fun k => if Nat.even k then 3 else 4; of_rcut := fun _ => 3;
  of_node := 7; of_fh := 5; of_flags := 2 |}.

Lemma demo_good is_cuse minor : good_file (demo_open is_cuse minor).
Proof.
  unfold good_file, demo_open. cbn [of_cuse of_max_write of_max_pages of_max_read of_buf_len of_cf of_hd
    of_wcut of_rcut of_node of_fh of_flags]. unfold U64, U32.
  repeat match goal with |- _ /\ _ => split end; try (intros; lia).
  - intros k. destruct (Nat.even k); lia.
  - intros k. assert (B : N.of_nat k mod 1000 < 1000) by (apply N.mod_lt; lia).
    set (i := N.of_nat k mod 1000) in *. cbn [demo_hd rh_unique rh_nodeid]. split; [|split; [|reflexivity]].
    + unfold good_header, header_fields. cbn [demo_hd rh_unique rh_nodeid rh_uid rh_gid rh_pid rh_padding].
      split; [unfold in_range; repeat constructor; cbn; lia|lia].
    + replace (2 * i + 2) with (2 * (i + 1)) by lia. rewrite N.odd_mul. reflexivity.
Qed.

(** Five bytes at 2 in an empty file, read whole and in part; one byte changed;
    a read past the end; nothing written. *)
Definition demo_calls : list file_call :=
  [Pwrite 2 [x68; x65; x6c; x6c; x6f]; Pread 0 20; Pwrite 3 [x61]; Pread 3 4; Pread 100 4; Pwrite 50 []; Pread 6 1000].
Example C73_memory_file_example :
  (forall is_cuse minor, good_file (demo_open is_cuse minor)) /\ Forall in_file demo_calls /\
  calls (demo_open false 31) (program_of memory_file) 0 [] demo_calls =
  Some ([x00; x00; x68; x61; x6c; x6c; x6f],
        [Wrote (inl 5); Got (inl [x00; x00; x68; x65; x6c; x6c; x6f]); Wrote (inl 1);
         Got (inl [x61; x6c; x6c; x6f]); Got (inl []); Wrote (inl 0); Got (inl [x6f])]) /\
  calls (demo_open true 7) (program_of memory_file) 0 [] demo_calls =
  calls (demo_open false 31) (program_of memory_file) 0 [] demo_calls.
Proof.
  split; [exact demo_good|]. split; [repeat constructor|].
  split; vm_compute; reflexivity.
Qed.

(** A server whose state is the list of what it was asked. *)
Definition recorder (taken : N -> N + Z) (data : bytes + Z) : handlers (list view) := {|
  on_read := fun s v => (s ++ [v], data);
  on_write := fun s v =>
    (s ++ [v], match v with VWrite _ _ _ d _ _ _ => taken (nlen d) | _ => inr (-22)%Z end) |}.
(** Writing 5 bytes at 10 in requests of 3 and 2; a short count ends the call; an
    error after something was written does not show; one at once does; a count
    too large is EIO. *)
Example C73_pwrite_example :
  let d := [x01; x02; x03; x04; x05] in
  let run (taken : N -> N + Z) := pwrite (demo_open false 31) (program_of (recorder taken (inl []))) 0 [] 10 d in
  let both := [VWrite 7 10 5 [x01; x02; x03] 0 None 2; VWrite 7 13 5 [x04; x05] 0 None 2] in
  good_file (demo_open false 31) /\ can (recorder inl (inl [])) /\
  run inl = Some (2%nat, both, inl 5) /\
  run (fun n => inl (n - 1)) = Some (1%nat, [VWrite 7 10 5 [x01; x02; x03] 0 None 2], inl 2) /\
  run (fun n => if n =? 3 then inl 3 else inr (-28)%Z) = Some (2%nat, both, inl 3) /\
  run (fun n => inr (-28)%Z) = Some (1%nat, [VWrite 7 10 5 [x01; x02; x03] 0 None 2], inr 28%Z) /\
  run (fun n => inl (n + 1)) = Some (1%nat, [VWrite 7 10 5 [x01; x02; x03] 0 None 2], inr 5%Z).
Proof.
  intros d run both. split; [apply demo_good|]. split.
  - split; intros; cbn [recorder on_read on_write snd]; [cbn; lia|unfold U32; lia].
  - split; [vm_compute; reflexivity|]. split; [vm_compute; reflexivity|]. split; [vm_compute; reflexivity|].
    split; vm_compute; reflexivity.
Qed.

(** Reading 5 bytes at 10: requests of 3 and 2; a short reply ends the call;
    errors; more than was asked for is EIO. *)
Example C73_pread_example :
  let run (data : bytes + Z) := pread (demo_open true 7) (program_of (recorder inl data)) 0 [] 10 5 in
  good_file (demo_open true 7) /\ can (recorder inl (inl [x01; x02; x03])) /\
  run (inl [x01; x02; x03]) = Some (2%nat, [VRead 7 3 10 5 None 0; VRead 7 2 13 5 None 0], inl [x01; x02; x03]) /\
  run (inl [x01; x02]) = Some (1%nat, [VRead 7 3 10 5 None 0], inl [x01; x02]) /\
  run (inr (-28)%Z) = Some (1%nat, [VRead 7 3 10 5 None 0], inr 28%Z) /\
  run (inl [x01; x02; x03; x04]) = Some (1%nat, [VRead 7 3 10 5 None 0], inr 5%Z).
Proof.
  intros run. split; [apply demo_good|]. split.
  - split; intros; cbn [recorder on_read on_write snd]; [cbn; lia|unfold U32; lia].
  - split; [vm_compute; reflexivity|]. split; [vm_compute; reflexivity|].
    split; vm_compute; reflexivity.
Qed.

Print Assumptions C73_pwrite.
Print Assumptions C73_pread.
Print Assumptions C73_memory_file.
