(** Lemmas about the reply model. *)

From Verif Require Import Base Kernel CoreModel ReplyModel ReplySpec.
From Coq Require Import List NArith ZArith Bool Lia.
From Coq Require Import ZifyBool ZifyNat ZifyN.
Import ListNotations.
Open Scope N_scope.

Arguments N.add : simpl never.
Arguments N.sub : simpl never.
Arguments N.mul : simpl never.
Arguments N.leb : simpl never.
Arguments N.ltb : simpl never.
Arguments N.eqb : simpl never.

Section Frames.
Context {E : Endian}.

Lemma wire_app a b : wire (a ++ b) = wire a ++ wire b.
Proof. induction a as [|[w v] r IH]; cbn; auto. now rewrite IH, app_assoc. Qed.

Lemma nlen_header l e i : nlen (out_header_bytes l e i) = 16.
Proof. unfold out_header_bytes. now rewrite nlen_wire. Qed.

Lemma header_reads l e i rest :
  l < U32 -> i < U64 ->
  let m := out_header_bytes l e i ++ rest in
  u32_at 0 m = l /\ u32_at 4 m = i32_as_u32 e /\ u64_at 8 m = i /\ drop 16 m = rest.
Proof.
  intros Hl Hi m. unfold m, out_header_bytes, u32_at, u64_at.
  pose proof (i32_as_u32_bound e).
  repeat split; try (apply fld_wire; [reflexivity|]; assumption).
  apply drop_app. now rewrite nlen_wire.
Qed.

Lemma kernel_read_reply i e p l :
  is_id i -> is_i32 e -> l = 16 + nlen p -> l <= u32_max ->
  kernel_read (out_header_bytes l e i ++ p) = Some (Reply i e p).
Proof.
  unfold is_id, is_i32. intros Hi He -> Hl. unfold u32_max, kernel_read in *.
  destruct (header_reads (16 + nlen p) e i p) as (R0 & R4 & R8 & Rd); [unfold U32; lia|lia|].
  rewrite R0, R4, R8, Rd, nlen_app, nlen_header.
  destruct (N.ltb_spec (16 + nlen p) 16); [lia|].
  rewrite N.eqb_refl. cbn [negb].
  destruct (N.eqb_spec i 0); [lia|]. now rewrite as_i32_of_i32.
Qed.

(** The chunks of every kind of send: header, then the payload. *)
Lemma sat_sum a b : sat_add64 a b <= u32_max -> sat_add64 a b = a + b.
Proof. unfold sat_add64, u32_max, u64_max. lia. Qed.

Lemma sat_nest a b c : sat_add64 (sat_add64 a b) c = N.min u64_max (a + b + c).
Proof. unfold sat_add64, u64_max. lia. Qed.

(** [sends c id p]: the send call [c] frames payload [p] for request [id]. *)
Definition sends (c : send_call) (id : N) (p : bytes) : Prop :=
  (16 + nlen p <= u32_max ->
   exists b, c = Call b /\ SendBuf_len b = 16 + nlen p /\
     on_wire b = Ret (out_header_bytes (16 + nlen p) 0 id ++ p)) /\
  (u32_max < 16 + nlen p -> c = Refuse (SE_ReplyTooBig (N.min u64_max (16 + nlen p)))).

Lemma on_wire_1 l c1 : on_wire (SendBuf_new_1 l c1) = Ret c1.
Proof.
  unfold on_wire. change (SendBuf_chunks (SendBuf_new_1 l c1)) with (Ret [c1]).
  cbn. now rewrite app_nil_r.
Qed.
Lemma on_wire_2 l c1 c2 : on_wire (SendBuf_new_2 l c1 c2) = Ret (c1 ++ c2).
Proof.
  unfold on_wire. change (SendBuf_chunks (SendBuf_new_2 l c1 c2)) with (Ret [c1; c2]).
  cbn. now rewrite app_nil_r.
Qed.
Lemma on_wire_3 l c1 c2 c3 : on_wire (SendBuf_new_3 l c1 c2 c3) = Ret (c1 ++ c2 ++ c3).
Proof.
  unfold on_wire. change (SendBuf_chunks (SendBuf_new_3 l c1 c2 c3)) with (Ret [c1; c2; c3]).
  cbn. now rewrite app_nil_r.
Qed.
Lemma on_wire_4 l c1 c2 c3 c4 : on_wire (SendBuf_new_4 l c1 c2 c3 c4) = Ret (c1 ++ c2 ++ c3 ++ c4).
Proof.
  unfold on_wire. change (SendBuf_chunks (SendBuf_new_4 l c1 c2 c3 c4)) with (Ret [c1; c2; c3; c4]).
  cbn. now rewrite app_nil_r.
Qed.
Lemma on_wire_5 l c1 c2 c3 c4 c5 :
  on_wire (SendBuf_new_5 l c1 c2 c3 c4 c5) = Ret (c1 ++ c2 ++ c3 ++ c4 ++ c5).
Proof.
  unfold on_wire. change (SendBuf_chunks (SendBuf_new_5 l c1 c2 c3 c4 c5)) with (Ret [c1; c2; c3; c4; c5]).
  cbn. now rewrite app_nil_r.
Qed.

Ltac sends_tac :=
  cbv zeta; unfold sends; rewrite ?nlen_app; split; intros H; unfold u32_max in H;
  [ match goal with |- context [u32_max <? ?len] =>
      match type of H with ?t <= _ =>
        replace len with t by (unfold sat_add64, u64_max, OUT_HEADER_SIZE; lia);
        replace (u32_max <? t) with false by (unfold u32_max; lia);
        replace (wrap32 t) with t by (unfold wrap32, U32; lia)
      end end;
    eexists; split; [reflexivity|]; split; [reflexivity|];
    rewrite ?on_wire_2, ?on_wire_3, ?on_wire_4, ?on_wire_5; reflexivity
  | match goal with |- context [u32_max <? ?len] =>
      replace (u32_max <? len) with true
        by (unfold sat_add64, u32_max, u64_max, OUT_HEADER_SIZE; lia) end;
    do 2 f_equal; unfold sat_add64, u64_max, OUT_HEADER_SIZE; lia ].

Lemma send_1_sends id b1 : sends (send_1 id b1) id b1.
Proof. unfold send_1. sends_tac. Qed.
Lemma send_2_sends id b1 b2 : sends (send_2 id b1 b2) id (b1 ++ b2).
Proof. unfold send_2. sends_tac. Qed.
Lemma send_3_sends id b1 b2 b3 : sends (send_3 id b1 b2 b3) id (b1 ++ b2 ++ b3).
Proof. unfold send_3. sends_tac. Qed.
Lemma send_4_sends id b1 b2 b3 b4 : sends (send_4 id b1 b2 b3 b4) id (b1 ++ b2 ++ b3 ++ b4).
Proof. unfold send_4. sends_tac. Qed.

Lemma sends_replies minor id a p :
  is_id id -> sends (answer_call minor id a) id p ->
  16 + nlen p <= u32_max -> replies minor id a 0 p.
Proof.
  intros Hid [S _] Hl. destruct (S Hl) as (b & C & L & W).
  exists b, (out_header_bytes (16 + nlen p) 0 id ++ p).
  repeat split; auto.
  - now rewrite L, nlen_app, nlen_header.
  - apply kernel_read_reply; auto. unfold is_i32. lia.
Qed.

Lemma send_0_replies minor id a e :
  is_id id -> is_i32 e -> answer_call minor id a = send_0 id e -> replies minor id a e [].
Proof.
  intros Hid He C. exists (SendBuf_new_1 16 (out_header_bytes 16 e id)), (out_header_bytes 16 e id).
  split; [exact C|]. split; [apply on_wire_1|]. split; [now rewrite nlen_header|].
  rewrite <- (app_nil_r (out_header_bytes 16 e id)). apply kernel_read_reply; auto.
  unfold u32_max. cbn. lia.
Qed.

(** The payload of a reply object. *)
Definition payload (minor : N) (r : reply) : bytes :=
  match r with
  | RBmapOut block => wire [u64 block]
  | RGetxattrOut size => wire [u32 size; u32 0]
  | RLkOut start end_ type pid => wire [u64 start; u64 end_; u32 type; u32 pid]
  | RLseekOut offset => wire [u64 offset]
  | ROpenOut r => fuse_open_out_bytes r
  | RPollOut revents => wire [u32 revents; u32 0]
  | RWriteOut size => wire [u32 size; u32 0]
  | RAttrOut r => take (if minor <? 9 then 96 else 104) (fuse_attr_out_bytes r)
  | REntryOut r => take (if minor <? 9 then 120 else 128) (fuse_entry_out_bytes r)
  | RInitOut r =>
    take (if io_minor r <? 5 then 8 else if io_minor r <? 23 then 24 else 64)
      (fuse_init_out_bytes r)
  | RStatfsOut r => take (if minor <? 4 then 48 else 80) (fuse_kstatfs_bytes r)
  | RReaddirEntries buf => buf
  | RListxattrNames buf => buf
  | RCuseInit r =>
    cuse_init_out_bytes (cir_raw r) ++
    match cir_device_name r with
    | Some name => [x44; x45; x56; x4e; x41; x4d; x45; x3d] ++ name ++ [x00]
    | None => []
    end
  | RIoctl r =>
    fuse_ioctl_out_bytes (ires_raw r) ++
    match ires_output r with
    | IoctlBytes output => output
    | IoctlRetryOut i o => ioctl_slices_bytes i ++ ioctl_slices_bytes o
    end
  | RCreateResponse r =>
    take (if minor <? 9 then 120 else 128) (fuse_entry_out_bytes (cr_entry r)) ++
    fuse_open_out_bytes (cr_open_out r)
  end.

Lemma take_128 r : take 128 (fuse_entry_out_bytes r) = fuse_entry_out_bytes r.
Proof. apply take_all. unfold fuse_entry_out_bytes. now rewrite nlen_wire. Qed.

Lemma send_to_sends minor id r : sends (send_to minor id r) id (payload minor r).
Proof.
  destruct r; cbn [send_to payload]; try apply send_1_sends.
  - destruct (minor <? 9); [apply send_1_sends|].
    rewrite take_all; [apply send_1_sends|]. unfold fuse_attr_out_bytes. now rewrite nlen_wire.
  - destruct (minor <? 9); [apply send_1_sends|]. rewrite take_128. apply send_1_sends.
  - destruct (io_minor r <? 5); [apply send_1_sends|].
    destruct (io_minor r <? 23); [apply send_1_sends|].
    rewrite take_all; [apply send_1_sends|]. unfold fuse_init_out_bytes. now rewrite nlen_wire.
  - destruct (minor <? 4); [apply send_1_sends|].
    rewrite take_all; [apply send_1_sends|]. unfold fuse_kstatfs_bytes. now rewrite nlen_wire.
  - destruct (cir_device_name r).
    + rewrite app_assoc. rewrite <- (app_assoc (cuse_init_out_bytes _)). apply send_4_sends.
    + rewrite app_nil_r. apply send_1_sends.
  - destruct (ires_output r); [apply send_2_sends|apply send_3_sends].
  - destruct (minor <? 9); [apply send_2_sends|]. rewrite take_128. apply send_2_sends.
Qed.

Lemma nlen_payload minor r n : expected_len minor r = Some n -> nlen (payload minor r) = n.
Proof.
  destruct r; cbn [expected_len payload]; try discriminate;
    intros H; injection H as <-;
    rewrite ?nlen_app, ?nlen_take; unfold fuse_open_out_bytes, fuse_attr_out_bytes,
      fuse_entry_out_bytes, fuse_init_out_bytes, fuse_kstatfs_bytes; rewrite ?nlen_wire; cbn.
  all: repeat match goal with |- context [if ?c then _ else _] => destruct c end; reflexivity.
Qed.

Lemma answer_refuse minor id r :
  u32_max < 16 + nlen (payload minor r) ->
  send_to minor id r = Refuse (SE_ReplyTooBig (N.min u64_max (16 + nlen (payload minor r)))).
Proof. intros. now apply send_to_sends. Qed.

Lemma ok_replies minor id r :
  is_id id -> 16 + nlen (payload minor r) <= u32_max ->
  replies minor id (AOk r) 0 (payload minor r).
Proof. intros. apply sends_replies; auto. apply send_to_sends. Qed.

End Frames.

(** ** Setter sequences *)

Lemma last_set_app {O A} (pick : O -> option A) a b d :
  last_set pick (a ++ b) d = last_set pick b (last_set pick a d).
Proof. revert d; induction a; intros; cbn; auto. Qed.

Lemma attr_calls_field {A} (f : fuse_attr -> A) (pick : attr_op -> option A) :
  (forall o a, f (attr_call o a) = match pick o with Some v => v | None => f a end) ->
  forall ops a, f (attr_calls ops a) = last_set pick ops (f a).
Proof.
  intros H ops. induction ops as [|o r IH]; intros a; cbn; auto.
  unfold attr_calls in IH. rewrite IH, H. reflexivity.
Qed.

Definition raw_time (s : fuse_attr -> N) (n : fuse_attr -> N) (a : fuse_attr) : N * N := (s a, n a).

Definition bflag (a b : bool) : N := (if a then 1 else 0) + (if b then 2 else 0).

Lemma attr_calls_flags ops : forall a s d,
  fa_flags a = bflag s d ->
  fa_flags (attr_calls ops a) =
  bflag (last_set (fun c => match c with SetSubmount b => Some b | _ => None end) ops s)
        (last_set (fun c => match c with SetDax b => Some b | _ => None end) ops d).
Proof.
  induction ops as [|o r IH]; intros a s d H; cbn; auto.
  apply IH. destruct o; auto; cbn; rewrite H; destruct b, s, d; reflexivity.
Qed.

(** All values in an attribute struct fit their fields. *)
Definition attr_fits (a : fuse_attr) : Prop :=
  fa_ino a < U64 /\ fa_size a < U64 /\ fa_blocks a < U64 /\ fa_atime a < U64 /\
  fa_mtime a < U64 /\ fa_ctime a < U64 /\ fa_atimensec a < U32 /\ fa_mtimensec a < U32 /\
  fa_ctimensec a < U32 /\ fa_mode a < U32 /\ fa_nlink a < U32 /\ fa_uid a < U32 /\
  fa_gid a < U32 /\ fa_rdev a < U32 /\ fa_blksize a < U32 /\ fa_flags a < 4.

Lemma flags_small f m b : f < 4 -> m = 1 \/ m = 2 -> flags_set_to f m b < 4.
Proof.
  intros H [-> | ->]; assert (f = 0 \/ f = 1 \/ f = 2 \/ f = 3) as [->|[->|[->| ->]]] by lia;
    destruct b; reflexivity.
Qed.

Lemma attr_call_fits o a : attr_op_ok o -> attr_fits a -> attr_fits (attr_call o a).
Proof.
  unfold attr_fits. intros Ho (?&?&?&?&?&?&?&?&?&?&?&?&?&?&?&?).
  destruct o; cbn in *;
    try match type of Ho with time_ok _ => destruct Ho as [? ?] end; repeat split; auto;
    try apply i64_as_u64_bound; try (unfold U32; lia); apply flags_small; auto.
Qed.

Lemma attr_calls_fits ops a : Forall attr_op_ok ops -> attr_fits a -> attr_fits (attr_calls ops a).
Proof.
  revert a; induction ops as [|o r IH]; intros a H Ha; cbn; auto.
  apply IH; [eapply Forall_inv_tail; eauto|]. apply attr_call_fits; auto.
  eapply Forall_inv; eauto.
Qed.

Lemma attr_new_fits n : n < U64 -> attr_fits (NodeAttr_new n).
Proof. intros. repeat split; cbn; auto; reflexivity. Qed.

Section AttrReads.
Context {E : Endian}.

Lemma field_at_skip l1 l2 o :
  fields_size l1 <= o ->
  (forall w v, In (w, v) l1 -> (0 < w)%nat) ->
  field_at o (l1 ++ l2) = field_at (o - fields_size l1) l2.
Proof.
  revert o; induction l1 as [|[w v] r IH]; intros o H Hw; cbn [app fields_size] in *.
  - f_equal. lia.
  - cbn [field_at]. assert (0 < w)%nat by (eapply Hw; left; reflexivity).
    destruct (N.eqb_spec o 0); [lia|]. destruct (N.ltb_spec o (N.of_nat w)); [lia|].
    rewrite IH; [f_equal; lia|lia|]. intros; eapply Hw; right; eauto.
Qed.

Ltac exact_bound := match goal with H : ?x < ?y |- ?x < ?y => exact H end.

(** The image of the attributes, preceded by [pre]. *)
Lemma attr_reads_gen pre a rest node ops :
  attr_fits a ->
  a = attr_calls ops (NodeAttr_new node) -> Forall attr_op_ok ops ->
  attr_reads (pre ++ wire (fuse_attr_fields a) ++ rest) (nlen pre) node true ops.
Proof.
  intros F Ha Hops.
  assert (R : forall w k v, field_at k (fuse_attr_fields a) = Some (w, v) ->
    v < 256 ^ N.of_nat w ->
    fld w (nlen pre + k) (pre ++ wire (fuse_attr_fields a) ++ rest) = v).
  { intros w k v Hf Hv. rewrite fld_app by lia.
    replace (nlen pre + k - nlen pre) with k by lia. now apply fld_wire. }
  assert (R0 : forall w v, field_at 0 (fuse_attr_fields a) = Some (w, v) ->
    v < 256 ^ N.of_nat w ->
    fld w (nlen pre) (pre ++ wire (fuse_attr_fields a) ++ rest) = v).
  { intros w v Hf Hv. rewrite <- (R w 0 v Hf Hv). f_equal. lia. }
  set (m := pre ++ _) in *. clearbody m.
  unfold attr_fits in F. destruct F as (?&?&?&?&?&?&?&?&?&?&?&?&?&?&?&?).
  assert (T : forall (fs fn : fuse_attr -> N) (pick : attr_op -> option UnixTime),
    (forall o a, (fs (attr_call o a), fn (attr_call o a)) =
       match pick o with Some t => UnixTime_as_timespec t | None => (fs a, fn a) end) ->
    (forall o t, pick o = Some t -> attr_op_ok o -> time_ok t) ->
    (fs (NodeAttr_new node), fn (NodeAttr_new node)) = (0, 0) ->
    {| ut_seconds := as_i64 (fs a); ut_nanos := fn a |} = last_set pick ops epoch).
  { intros fs fn pick Hstep Hok Hzero.
    assert (G : forall ops r t, Forall attr_op_ok ops -> time_ok t ->
      (fs r, fn r) = UnixTime_as_timespec t ->
      (fs (attr_calls ops r), fn (attr_calls ops r)) =
        UnixTime_as_timespec (last_set pick ops t) /\ time_ok (last_set pick ops t)).
    { clear - Hstep Hok. induction ops as [|o r IH]; intros x t Hf Ht Hx; cbn; auto.
      inversion Hf as [|? ? Ho Hr]; clear Hf.
      apply IH; auto.
      - destruct (pick o) eqn:P; auto. eapply Hok; eauto.
      - rewrite Hstep. destruct (pick o); auto. }
    destruct (G ops (NodeAttr_new node) epoch Hops) as [G1 G2].
    { split; cbn; lia. }
    { rewrite Hzero. reflexivity. }
    rewrite <- Ha in G1. unfold UnixTime_as_timespec in G1. injection G1 as -> ->.
    rewrite as_i64_of_i64 by apply G2. now destruct (last_set pick ops epoch). }
  change U64 with (256 ^ N.of_nat 8) in *. change U32 with (256 ^ N.of_nat 4) in *.
  unfold attr_reads, u64_at, u32_at. cbv zeta.
  rewrite (R0 8%nat (fa_ino a)) by first [reflexivity|exact_bound].
  rewrite (R 8%nat 8 (fa_size a)) by first [reflexivity|exact_bound].
  rewrite (R 8%nat 16 (fa_blocks a)) by first [reflexivity|exact_bound].
  rewrite (R 8%nat 24 (fa_atime a)) by first [reflexivity|exact_bound].
  rewrite (R 8%nat 32 (fa_mtime a)) by first [reflexivity|exact_bound].
  rewrite (R 8%nat 40 (fa_ctime a)) by first [reflexivity|exact_bound].
  rewrite (R 4%nat 48 (fa_atimensec a)) by first [reflexivity|exact_bound].
  rewrite (R 4%nat 52 (fa_mtimensec a)) by first [reflexivity|exact_bound].
  rewrite (R 4%nat 56 (fa_ctimensec a)) by first [reflexivity|exact_bound].
  rewrite (R 4%nat 60 (fa_mode a)) by first [reflexivity|exact_bound].
  rewrite (R 4%nat 64 (fa_nlink a)) by first [reflexivity|exact_bound].
  rewrite (R 4%nat 68 (fa_uid a)) by first [reflexivity|exact_bound].
  rewrite (R 4%nat 72 (fa_gid a)) by first [reflexivity|exact_bound].
  rewrite (R 4%nat 76 (fa_rdev a)) by first [reflexivity|exact_bound].
  rewrite (R 4%nat 80 (fa_blksize a)) by first [reflexivity|exact_bound].
  rewrite (R 4%nat 84 (fa_flags a)) by first [reflexivity|cbn; lia].
  repeat split.
  - rewrite Ha. change node with (fa_ino (NodeAttr_new node)) at 2.
    rewrite (attr_calls_field fa_ino (fun _ => None)); [|now destruct o].
    clear. induction ops; cbn; auto.
  - rewrite Ha. apply (attr_calls_field fa_size). now destruct o.
  - rewrite Ha. apply (attr_calls_field fa_blocks). now destruct o.
  - apply (T fa_atime fa_atimensec); [destruct o; reflexivity| |reflexivity].
    destruct o; try discriminate. cbn. congruence.
  - apply (T fa_mtime fa_mtimensec); [destruct o; reflexivity| |reflexivity].
    destruct o; try discriminate. cbn. congruence.
  - apply (T fa_ctime fa_ctimensec); [destruct o; reflexivity| |reflexivity].
    destruct o; try discriminate. cbn. congruence.
  - rewrite Ha. apply (attr_calls_field fa_mode). now destruct o.
  - rewrite Ha. apply (attr_calls_field fa_nlink). now destruct o.
  - rewrite Ha. apply (attr_calls_field fa_uid). now destruct o.
  - rewrite Ha. apply (attr_calls_field fa_gid). now destruct o.
  - rewrite Ha. apply (attr_calls_field fa_rdev). now destruct o.
  - rewrite Ha.
    apply (attr_calls_field fa_blksize). now destruct o.
  - rewrite Ha.
    rewrite (attr_calls_flags ops (NodeAttr_new node) false false eq_refl). reflexivity.
Qed.

Lemma attr_reads_take p o node ops n (full : bool) :
  attr_reads p o node true ops ->
  (if full then o + 88 <= n else o + 80 <= n) ->
  attr_reads (take n p) o node full ops.
Proof.
  unfold attr_reads, u64_at, u32_at. cbv zeta. intros H Hn.
  assert (o + 80 <= n) by (destruct full; lia).
  assert (T : forall w k, o + k + N.of_nat w <= n ->
    fld w (o + k) (take n p) = fld w (o + k) p) by (intros; now apply fld_take).
  rewrite (fld_take 8 o) by lia.
  rewrite !(T 8%nat) by lia.
  rewrite (T 4%nat 48), (T 4%nat 52), (T 4%nat 56), (T 4%nat 60), (T 4%nat 64), (T 4%nat 68),
    (T 4%nat 72), (T 4%nat 76) by lia.
  destruct H as (?&?&?&?&?&?&?&?&?&?&?&H). repeat (split; [assumption|]).
  intros ->. specialize (H eq_refl). now rewrite !T by lia.
Qed.

(** ** Entries *)

Lemma calls_field {O R A} (call : O -> R -> R) (f : R -> A) (pick : O -> option A) :
  (forall o r, f (call o r) = match pick o with Some v => v | None => f r end) ->
  forall ops r, f (fold_left (fun r o => call o r) ops r) = last_set pick ops (f r).
Proof.
  intros H ops. induction ops as [|o l IH]; intros r; cbn; auto. now rewrite IH, H.
Qed.

Lemma calls_inv {O R} (call : O -> R -> R) (ok : O -> Prop) (I : R -> Prop) :
  (forall o r, ok o -> I r -> I (call o r)) ->
  forall ops r, Forall ok ops -> I r -> I (fold_left (fun r o => call o r) ops r).
Proof.
  intros H ops. induction ops as [|o l IH]; intros r Ho Hr; cbn; auto.
  apply IH; [now apply Forall_inv_tail in Ho|]. apply H; auto. now apply Forall_inv in Ho.
Qed.

Lemma last_set_map {O A B} (pick : O -> option A) (g : A -> B) ops d :
  last_set (fun o => option_map g (pick o)) ops (g d) = g (last_set pick ops d).
Proof.
  revert d; induction ops as [|o r IH]; intros; cbn; auto.
  rewrite <- IH. f_equal. now destruct (pick o).
Qed.

Lemma split_capped d : split_duration d = capped d.
Proof.
  unfold split_duration, capped, i64_max, I64. destruct d as [s n]; cbn [fst snd].
  destruct (N.leb_spec s 9223372036854775807), (N.ltb_spec s 9223372036854775808);
    auto; lia.
Qed.

Definition entry_fits (e : fuse_entry_out) : Prop :=
  eo_nodeid e < U64 /\ eo_generation e < U64 /\ eo_entry_valid e < U64 /\ eo_attr_valid e < U64 /\
  eo_entry_valid_nsec e < U32 /\ eo_attr_valid_nsec e < U32 /\ attr_fits (eo_attr e).

Lemma split_fits d : duration_ok d -> fst (split_duration d) < U64 /\ snd (split_duration d) < U32.
Proof.
  unfold duration_ok, split_duration, U64, U32, i64_max. intros [? ?].
  destruct (N.leb_spec (fst d) 9223372036854775807); cbn [fst snd]; lia.
Qed.

Lemma entry_call_fits o e : entry_op_ok o -> entry_fits e -> entry_fits (entry_call o e).
Proof.
  unfold entry_fits. intros Ho (?&?&?&?&?&?&?).
  destruct o; cbn in *;
    try match type of Ho with duration_ok _ => apply split_fits in Ho; destruct Ho end;
    repeat match goal with |- _ /\ _ => split end; auto; now apply attr_call_fits.
Qed.

Lemma entry_calls_fits ops e : Forall entry_op_ok ops -> entry_fits e -> entry_fits (entry_calls ops e).
Proof. apply (calls_inv entry_call). apply entry_call_fits. Qed.

Lemma entry_calls_attr ops e :
  eo_attr (entry_calls ops e) = attr_calls (entry_attr_ops ops) (eo_attr e).
Proof.
  unfold entry_calls, attr_calls, entry_attr_ops. revert e.
  induction ops as [|o r IH]; intros e; cbn; auto. rewrite IH, fold_left_app. f_equal.
  now destruct o.
Qed.

Lemma entry_reads_gen rest node aops ops :
  0 < node < U64 -> Forall attr_op_ok aops -> Forall entry_op_ok ops ->
  let e := entry_calls ops (Entry_new (attr_calls aops (NodeAttr_new node))) in
  entry_reads (fuse_entry_out_bytes e ++ rest) node true aops ops.
Proof.
  intros Hn Ha Hops e.
  assert (Fa : attr_fits (attr_calls aops (NodeAttr_new node)))
    by (apply attr_calls_fits; auto; apply attr_new_fits; lia).
  assert (Ino : fa_ino (attr_calls aops (NodeAttr_new node)) = node).
  { rewrite (attr_calls_field fa_ino (fun _ => None)); [|now destruct o].
    cbn. clear. induction aops; cbn; auto. }
  assert (Fe : entry_fits e).
  { apply entry_calls_fits; auto. unfold entry_fits, Entry_new.
    cbn [eo_nodeid eo_generation eo_entry_valid eo_attr_valid eo_entry_valid_nsec
      eo_attr_valid_nsec eo_attr]. rewrite Ino.
    split; [lia|]. repeat (split; [reflexivity|]). exact Fa. }
  assert (Ae : eo_attr e = attr_calls (aops ++ entry_attr_ops ops) (NodeAttr_new node)).
  { unfold e. rewrite entry_calls_attr. cbn [Entry_new eo_attr]. unfold attr_calls.
    now rewrite fold_left_app. }
  unfold entry_fits in Fe. destruct Fe as (?&?&?&?&?&?&Fe).
  change U64 with (256 ^ N.of_nat 8) in *. change U32 with (256 ^ N.of_nat 4) in *.
  unfold entry_reads. split; [|split; [|split; [|split]]].
  - unfold u64_at, fuse_entry_out_bytes. rewrite (fld_wire (fuse_entry_out_fields e) rest 0 8 (eo_nodeid e) eq_refl) by exact_bound.
    unfold e, entry_calls. rewrite (calls_field entry_call eo_nodeid (fun _ => None));
      [|now destruct o]. cbn [Entry_new eo_nodeid]. rewrite Ino.
    clear. induction ops; cbn; auto.
  - unfold u64_at, fuse_entry_out_bytes.
    rewrite (fld_wire (fuse_entry_out_fields e) rest 8 8 (eo_generation e) eq_refl) by exact_bound.
    apply (calls_field entry_call eo_generation). now destruct o.
  - unfold u64_at, u32_at, fuse_entry_out_bytes.
    rewrite (fld_wire (fuse_entry_out_fields e) rest 16 8 (eo_entry_valid e) eq_refl) by exact_bound.
    rewrite (fld_wire (fuse_entry_out_fields e) rest 32 4 (eo_entry_valid_nsec e) eq_refl) by exact_bound.
    rewrite <- split_capped, <- last_set_map.
    apply (calls_field entry_call (fun e => (eo_entry_valid e, eo_entry_valid_nsec e))).
    destruct o; auto. cbn. now destruct (split_duration d).
  - unfold u64_at, u32_at, fuse_entry_out_bytes.
    rewrite (fld_wire (fuse_entry_out_fields e) rest 24 8 (eo_attr_valid e) eq_refl) by exact_bound.
    rewrite (fld_wire (fuse_entry_out_fields e) rest 36 4 (eo_attr_valid_nsec e) eq_refl) by exact_bound.
    rewrite <- split_capped, <- last_set_map.
    apply (calls_field entry_call (fun e => (eo_attr_valid e, eo_attr_valid_nsec e))).
    destruct o; auto. cbn. now destruct (split_duration d).
  - unfold fuse_entry_out_bytes, fuse_entry_out_fields. rewrite wire_app, <- app_assoc.
    set (pre := wire [_; _; _; _; _; _]).
    replace 40 with (nlen pre) by (unfold pre; now rewrite nlen_wire).
    apply attr_reads_gen; auto. apply Forall_app. split; auto.
    clear - Hops. induction ops as [|o r IH]; cbn; auto. inversion Hops; subst.
    destruct o; cbn; auto.
Qed.

Lemma entry_reads_take p node aops ops n (full : bool) :
  entry_reads p node true aops ops ->
  (if full then 128 <= n else 120 <= n) ->
  entry_reads (take n p) node full aops ops.
Proof.
  unfold entry_reads. intros (H0&H1&H2&H3&H4) Hn.
  assert (120 <= n) by (destruct full; lia).
  assert (T : forall w k, k + N.of_nat w <= n -> fld w k (take n p) = fld w k p)
    by (intros; now apply fld_take).
  unfold u64_at, u32_at in *. rewrite !T by lia. repeat (split; [assumption|]).
  apply attr_reads_take; [assumption|exact Hn].
Qed.

(** ** Statistics and INIT *)

Definition statfs_fits (r : fuse_kstatfs) : Prop :=
  sf_blocks r < U64 /\ sf_bfree r < U64 /\ sf_bavail r < U64 /\ sf_files r < U64 /\
  sf_ffree r < U64 /\ sf_bsize r < U32 /\ sf_namelen r < U32 /\ sf_frsize r < U32.

Ltac fits_tac := let o := fresh in intros o ? ? ?; destruct o; cbn in *; intuition.

Lemma statfs_reads_gen minor ops :
  Forall statfs_op_ok ops ->
  let r := fold_left (fun r o => statfs_call o r) ops Statfs_new in
  statfs_reads (take (if minor <? 4 then 48 else 80) (fuse_kstatfs_bytes r)) (4 <=? minor) ops.
Proof.
  intros Hops r.
  assert (F : statfs_fits r).
  { apply (calls_inv statfs_call statfs_op_ok statfs_fits); auto.
    - unfold statfs_fits. fits_tac.
    - repeat split. }
  assert (R : forall w k v, field_at k [u64 (sf_blocks r); u64 (sf_bfree r); u64 (sf_bavail r);
      u64 (sf_files r); u64 (sf_ffree r); u32 (sf_bsize r); u32 (sf_namelen r); u32 (sf_frsize r);
      u32 0; u32 0; u32 0; u32 0; u32 0; u32 0; u32 0] = Some (w, v) ->
    v < 256 ^ N.of_nat w -> k + N.of_nat w <= (if minor <? 4 then 48 else 80) ->
    fld w k (take (if minor <? 4 then 48 else 80) (fuse_kstatfs_bytes r)) = v).
  { intros w k v Hf Hv Hk. rewrite fld_take by auto. rewrite <- (app_nil_r (fuse_kstatfs_bytes r)).
    unfold fuse_kstatfs_bytes. now apply fld_wire. }
  unfold statfs_fits in F. destruct F as (?&?&?&?&?&?&?&?).
  change U64 with (256 ^ N.of_nat 8) in *. change U32 with (256 ^ N.of_nat 4) in *.
  assert (48 <= if minor <? 4 then 48 else 80) by (destruct (minor <? 4); lia).
  set (n := if minor <? 4 then 48 else 80) in *.
  unfold statfs_reads, u64_at, u32_at.
  rewrite (R 8%nat 0 (sf_blocks r)) by first [reflexivity|exact_bound|lia].
  rewrite (R 8%nat 8 (sf_bfree r)) by first [reflexivity|exact_bound|lia].
  rewrite (R 8%nat 16 (sf_bavail r)) by first [reflexivity|exact_bound|lia].
  rewrite (R 8%nat 24 (sf_files r)) by first [reflexivity|exact_bound|lia].
  rewrite (R 8%nat 32 (sf_ffree r)) by first [reflexivity|exact_bound|lia].
  rewrite (R 4%nat 40 (sf_bsize r)) by first [reflexivity|exact_bound|lia].
  rewrite (R 4%nat 44 (sf_namelen r)) by first [reflexivity|exact_bound|lia].
  repeat split.
  - apply (calls_field statfs_call sf_blocks). now destruct o.
  - apply (calls_field statfs_call sf_bfree). now destruct o.
  - apply (calls_field statfs_call sf_bavail). now destruct o.
  - apply (calls_field statfs_call sf_files). now destruct o.
  - apply (calls_field statfs_call sf_ffree). now destruct o.
  - apply (calls_field statfs_call sf_bsize). now destruct o.
  - apply (calls_field statfs_call sf_namelen). now destruct o.
  - intros M. rewrite (R 4%nat 48 (sf_frsize r));
      [|reflexivity|exact_bound|unfold n; destruct (N.ltb_spec minor 4); lia].
    apply (calls_field statfs_call sf_frsize). now destruct o.
Qed.

Definition init_fits (r : fuse_init_out) : Prop :=
  io_major r < U32 /\ io_minor r < U32 /\ io_max_readahead r < U32 /\ io_flags r < U32 /\
  io_max_background r < U16 /\ io_congestion_threshold r < U16 /\ io_max_write r < U32 /\
  io_time_gran r < U32 /\ io_flags2 r < U32.

Lemma land_max_bound x : N.land x u32_max < U32.
Proof.
  change u32_max with (N.ones 32). rewrite N.land_ones. unfold U32.
  apply N.mod_upper_bound. discriminate.
Qed.

Lemma init_reads_gen ops :
  Forall init_op_ok ops ->
  let r := fold_left (fun r o => init_call o r) ops FuseInit_new in
  init_reads (take (if io_minor r <? 5 then 8 else if io_minor r <? 23 then 24 else 64)
    (fuse_init_out_bytes r)) ops.
Proof.
  intros Hops r.
  assert (F : init_fits r).
  { apply (calls_inv init_call init_op_ok init_fits); auto.
    - unfold init_fits. intros o x Ho H. destruct o; cbn in *; intuition.
      + apply land_max_bound.
      + unfold wrap32, U32. lia.
    - repeat split. }
  assert (V : {| v_major := io_major r; v_minor := io_minor r |} =
    last_set (fun c => match c with SetVersion v => Some v | _ => None end) ops
             {| v_major := 0; v_minor := 0 |}).
  { apply (calls_field init_call (fun r => {| v_major := io_major r; v_minor := io_minor r |})).
    destruct o; auto. now destruct v. }
  unfold init_reads. rewrite <- V. cbn [v_major v_minor].
  set (n := if io_minor r <? 5 then 8 else if io_minor r <? 23 then 24 else 64).
  assert (Hn : n = 8 \/ n = 24 \/ n = 64)
    by (unfold n; destruct (io_minor r <? 5), (io_minor r <? 23); auto).
  assert (R : forall w k v, field_at k [u32 (io_major r); u32 (io_minor r);
       u32 (io_max_readahead r); u32 (io_flags r);
        u16 (io_max_background r); u16 (io_congestion_threshold r); u32 (io_max_write r);
        u32 (io_time_gran r); u16 (io_max_pages r); u16 (io_map_alignment r);
        u32 (io_flags2 r); u32 0; u32 0; u32 0; u32 0; u32 0; u32 0; u32 0] = Some (w, v) ->
    v < 256 ^ N.of_nat w -> k + N.of_nat w <= n ->
    fld w k (take n (fuse_init_out_bytes r)) = v).
  { intros w k v Hf Hv Hk. rewrite fld_take by auto. rewrite <- (app_nil_r (fuse_init_out_bytes r)).
    unfold fuse_init_out_bytes. now apply fld_wire. }
  unfold init_fits in F. destruct F as (?&?&?&?&?&?&?&?&?).
  change U32 with (256 ^ N.of_nat 4) in *. change U16 with (256 ^ N.of_nat 2) in *.
  unfold u16_at, u32_at.
  assert (FL : (io_flags r, io_flags2 r) =
    (fun f => (f mod 4294967296, f / 4294967296))
      (last_set (fun c => match c with SetFlags v => Some v | _ => None end) ops 0) ).
  { assert (B : Forall init_op_ok ops -> forall d, d < U64 ->
      last_set (fun c => match c with SetFlags v => Some v | _ => None end) ops d < U64).
    { clear. induction ops as [|o l IH]; intros Hf d Hd; cbn; auto. inversion Hf; subst.
      apply IH; auto. destruct o; auto. }
    assert (G : forall d, d < U64 -> forall x, (io_flags x, io_flags2 x) =
      (fun f => (N.land f u32_max, wrap32 (N.shiftr f 32))) d ->
      (io_flags (fold_left (fun r o => init_call o r) ops x),
       io_flags2 (fold_left (fun r o => init_call o r) ops x)) =
      (fun f => (N.land f u32_max, wrap32 (N.shiftr f 32)))
        (last_set (fun c => match c with SetFlags v => Some v | _ => None end) ops d)).
    { clear. intros d Hd x Hx. rewrite (calls_field init_call (fun x => (io_flags x, io_flags2 x))
        (fun c => option_map (fun f => (N.land f u32_max, wrap32 (N.shiftr f 32)))
           (match c with SetFlags v => Some v | _ => None end))); [|now destruct o].
      rewrite Hx. exact (last_set_map (fun c => match c with SetFlags v => Some v | _ => None end)
        (fun f => (N.land f u32_max, wrap32 (N.shiftr f 32))) ops d). }
    specialize (B Hops 0 eq_refl). unfold r. rewrite (G 0 eq_refl); [|reflexivity].
    cbv beta. set (f := last_set _ ops 0) in *.
    f_equal.
    - change u32_max with (N.ones 32). now rewrite N.land_ones.
    - rewrite N.shiftr_div_pow2. unfold wrap32. change (2 ^ 32) with 4294967296.
      apply N.mod_small. unfold U64, U32 in *. lia. }
  injection FL as FL1 FL2.
  rewrite nlen_take. unfold fuse_init_out_bytes at 1. rewrite nlen_wire.
  split; [cbn; destruct Hn as [->|[->| ->]]; reflexivity|].
  split; [apply R; [reflexivity|exact_bound|lia]|].
  split; [apply R; [reflexivity|exact_bound|lia]|].
  split.
  - intros M. assert (24 <= n).
    { unfold n. destruct (N.ltb_spec (io_minor r) 5); [lia|]. destruct (io_minor r <? 23); lia. }
    rewrite <- FL1.
    rewrite (R 4%nat 8 (io_max_readahead r)) by first [reflexivity|exact_bound|lia].
    rewrite (R 4%nat 12 (io_flags r)) by first [reflexivity|exact_bound|lia].
    rewrite (R 2%nat 16 (io_max_background r)) by first [reflexivity|exact_bound|lia].
    rewrite (R 2%nat 18 (io_congestion_threshold r)) by first [reflexivity|exact_bound|lia].
    rewrite (R 4%nat 20 (io_max_write r)) by first [reflexivity|exact_bound|lia].
    repeat split.
    + apply (calls_field init_call io_max_readahead). now destruct o.
    + apply (calls_field init_call io_max_background). now destruct o.
    + apply (calls_field init_call io_congestion_threshold). now destruct o.
    + apply (calls_field init_call io_max_write). now destruct o.
  - intros M. assert (n = 64).
    { unfold n. destruct (N.ltb_spec (io_minor r) 5); [lia|].
      destruct (N.ltb_spec (io_minor r) 23); lia. }
    rewrite <- FL2.
    rewrite (R 4%nat 24 (io_time_gran r)) by first [reflexivity|exact_bound|lia].
    rewrite (R 4%nat 32 (io_flags2 r)) by first [reflexivity|exact_bound|lia].
    assert (Z : forall f : fuse_init_out -> N, (forall o x, f (init_call o x) = f x) -> f r = f FuseInit_new).
    { intros f Hf. unfold r. clear - Hf. generalize FuseInit_new.
      induction ops as [|o l IH]; intros x; cbn [fold_left]; auto. now rewrite IH. }
    assert (Z1 : io_max_pages r = 0) by (apply (Z io_max_pages); now destruct o).
    assert (Z2 : io_map_alignment r = 0) by (apply (Z io_map_alignment); now destruct o).
    rewrite (R 2%nat 28 (io_max_pages r)) by first [reflexivity|rewrite Z1; reflexivity|lia].
    rewrite (R 2%nat 30 (io_map_alignment r)) by first [reflexivity|rewrite Z2; reflexivity|lia].
    repeat split.
    + apply (calls_field init_call io_time_gran). now destruct o.
    + exact Z1.
    + exact Z2.
    + replace n with 64 by auto. unfold fuse_init_out_bytes. rewrite take_all by (now rewrite nlen_wire).
      change (wire ?l) with (wire (firstn 11 l ++ skipn 11 l)). cbn [firstn skipn].
      rewrite wire_app. rewrite drop_app_ge by (rewrite nlen_wire; cbn; lia).
      rewrite nlen_wire. change (36 - fields_size _) with 0. rewrite drop_0. clear.
      generalize E. intros []; reflexivity.
Qed.

Definition cuse_init_fits (r : cuse_init_out) : Prop :=
  co_major r < U32 /\ co_minor r < U32 /\ co_flags r < U32 /\ co_max_read r < U32 /\
  co_max_write r < U32 /\ co_dev_major r < U32 /\ co_dev_minor r < U32.

Lemma cuse_init_reads_gen name ops :
  Forall cuse_init_op_ok ops ->
  let r := {| cir_raw := fold_left (fun r o => cuse_init_call o r) ops cuse_init_out_new;
              cir_device_name := name |} in
  cuse_init_reads
    (cuse_init_out_bytes (cir_raw r) ++
     match cir_device_name r with
     | Some name => [x44; x45; x56; x4e; x41; x4d; x45; x3d] ++ name ++ [x00]
     | None => []
     end) name ops.
Proof.
  intros Hops. cbv zeta. cbn [cir_raw cir_device_name].
  set (r := fold_left _ ops _). set (rest := match name with Some _ => _ | None => _ end).
  assert (F : cuse_init_fits r).
  { apply (calls_inv cuse_init_call cuse_init_op_ok cuse_init_fits); auto.
    - unfold cuse_init_fits. fits_tac.
    - repeat split. }
  assert (V : {| v_major := co_major r; v_minor := co_minor r |} =
    last_set (fun c => match c with CSetVersion v => Some v | _ => None end) ops
             {| v_major := 0; v_minor := 0 |}).
  { apply (calls_field cuse_init_call (fun r => {| v_major := co_major r; v_minor := co_minor r |})).
    destruct o; auto. now destruct v. }
  unfold cuse_init_reads. rewrite <- V. cbn [v_major v_minor].
  unfold cuse_init_fits in F. destruct F as (?&?&?&?&?&?&?).
  change U32 with (256 ^ N.of_nat 4) in *. unfold u32_at.
  assert (L : nlen (cuse_init_out_bytes r) = 72) by (unfold cuse_init_out_bytes; now rewrite nlen_wire).
  assert (R : forall w k v, field_at k [u32 (co_major r); u32 (co_minor r); u32 0;
       u32 (co_flags r); u32 (co_max_read r);
        u32 (co_max_write r); u32 (co_dev_major r); u32 (co_dev_minor r);
        u32 0; u32 0; u32 0; u32 0; u32 0; u32 0; u32 0; u32 0; u32 0; u32 0] = Some (w, v) ->
    v < 256 ^ N.of_nat w -> fld w k (cuse_init_out_bytes r ++ rest) = v).
  { intros w k v Hf Hv. unfold cuse_init_out_bytes. now apply fld_wire. }
  rewrite (R 4%nat 0 (co_major r)) by first [reflexivity|exact_bound].
  rewrite (R 4%nat 4 (co_minor r)) by first [reflexivity|exact_bound].
  rewrite (R 4%nat 12 (co_flags r)) by first [reflexivity|exact_bound].
  rewrite (R 4%nat 16 (co_max_read r)) by first [reflexivity|exact_bound].
  rewrite (R 4%nat 20 (co_max_write r)) by first [reflexivity|exact_bound].
  rewrite (R 4%nat 24 (co_dev_major r)) by first [reflexivity|exact_bound].
  rewrite (R 4%nat 28 (co_dev_minor r)) by first [reflexivity|exact_bound].
  repeat split.
  - apply (calls_field cuse_init_call co_flags). now destruct o.
  - apply (calls_field cuse_init_call co_max_read). now destruct o.
  - apply (calls_field cuse_init_call co_max_write). now destruct o.
  - apply (calls_field cuse_init_call (fun r => (co_dev_major r, co_dev_minor r))). now destruct o.
  - rewrite nlen_app, L. lia.
  - rewrite drop_app by (now rewrite L). unfold rest. now destruct name.
Qed.

End AttrReads.
