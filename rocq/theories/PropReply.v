(** Properties C18-C22 and C26-C28: replies, ioctl retries, scatter buffers
    and notifications. *)

From Verif Require Import Base Kernel CoreModel ReplyModel ReplySpec ReplyProofs.
From Coq Require Import List NArith ZArith Bool Lia.
From Coq Require Import ZifyBool ZifyNat ZifyN.
Import ListNotations.
Open Scope N_scope.

Section Props.
Context {E : Endian}.

(** ** C18 *)

Definition error_of (a : answer) : Z := match a with AErr e => e | _ => 0 end.

(** Whatever the handler answers, the client sees one well-formed reply to
    that request with that error, or the server is told the reply was too
    big. *)
Theorem C18_reply_framing minor id a :
  is_id id -> is_i32 (error_of a) ->
  (exists p, replies minor id a (error_of a) p) \/
  (exists n, answer_call minor id a = Refuse (SE_ReplyTooBig n) /\ u32_max < n).
Proof.
  intros Hid He. destruct a; cbn [error_of] in *.
  - destruct (N.le_gt_cases (16 + nlen (payload minor r)) u32_max).
    + left. eexists. now apply ok_replies.
    + right. eexists. split; [now apply answer_refuse|]. unfold u32_max, u64_max in *. lia.
  - destruct (N.le_gt_cases (16 + nlen buf) u32_max).
    + left. eexists. apply sends_replies; eauto. apply send_1_sends.
    + right. eexists. split; [now apply send_1_sends|]. unfold u32_max, u64_max in *. lia.
  - left. exists []. now apply send_0_replies.
  - left. exists []. now apply send_0_replies.
Qed.

(** Whoever sends one to four chunks: the payload is their concatenation. *)
Theorem C18_payload minor id b1 b2 b3 b4 :
  is_id id ->
  let sent c p := 16 + nlen p <= u32_max ->
    exists b m, c = Call b /\ on_wire b = Ret m /\ SendBuf_len b = nlen m /\
      kernel_read m = Some (Reply id 0 p) in
  sent (send_1 id b1) b1 /\
  sent (send_2 id b1 b2) (b1 ++ b2) /\
  sent (send_3 id b1 b2 b3) (b1 ++ b2 ++ b3) /\
  sent (send_4 id b1 b2 b3 b4) (b1 ++ b2 ++ b3 ++ b4) /\
  (16 + nlen b1 <= u32_max ->
   replies minor id (AOkBuf b1) 0 b1 /\
   replies minor id (AOk (RReaddirEntries b1)) 0 b1 /\
   replies minor id (AOk (RListxattrNames b1)) 0 b1) /\
  replies minor id AOkEmpty 0 [].
Proof.
  intros Hid sent.
  assert (G : forall c p, sends c id p -> sent c p).
  { intros c p [H _] L. destruct (H L) as (b & -> & L' & W).
    exists b, (out_header_bytes (16 + nlen p) 0 id ++ p). repeat split; auto.
    - now rewrite L', nlen_app, nlen_header.
    - apply kernel_read_reply; auto. unfold is_i32. lia. }
  split; [apply G, send_1_sends|]. split; [apply G, send_2_sends|].
  split; [apply G, send_3_sends|]. split; [apply G, send_4_sends|]. split.
  - intros L. split; [|split]; apply sends_replies; auto; apply send_1_sends.
  - apply send_0_replies; auto. unfold is_i32. lia.
Qed.

(** ** C19 *)

(** The total length of a reply of these chunks. *)
Definition total (bs : list bytes) : N := fold_left (fun n b => n + nlen b) bs 16.

Definition refused_iff_too_big (c : send_call) (n : N) : Prop :=
  if 4294967295 <? n then c = Refuse (SE_ReplyTooBig (N.min n 18446744073709551615))
  else exists b, c = Call b /\ SendBuf_len b = n.

Theorem C19_too_big id b1 b2 b3 b4 :
  refused_iff_too_big (send_1 id b1) (total [b1]) /\
  refused_iff_too_big (send_2 id b1 b2) (total [b1; b2]) /\
  refused_iff_too_big (send_3 id b1 b2 b3) (total [b1; b2; b3]) /\
  refused_iff_too_big (send_4 id b1 b2 b3 b4) (total [b1; b2; b3; b4]).
Proof.
  assert (G : forall c p n, sends c id p -> n = 16 + nlen p -> refused_iff_too_big c n).
  { intros c p n [S1 S2] ->. unfold refused_iff_too_big, u32_max in *.
    destruct (N.ltb_spec 4294967295 (16 + nlen p)).
    - rewrite S2 by auto. do 2 f_equal. unfold u64_max. lia.
    - destruct S1 as (b & ? & ? & _); eauto. }
  unfold total; cbn [fold_left].
  repeat split; (eapply G;
    [first [apply send_1_sends|apply send_2_sends|apply send_3_sends|apply send_4_sends]|]);
    rewrite ?nlen_app; lia.
Qed.

(** Every answer: refused exactly when its reply would not fit, and then
    nothing is sent (a refusal makes no [send] call). *)
Theorem C19_answers minor id a n :
  is_id id -> is_i32 (error_of a) ->
  answer_call minor id a = Refuse (SE_ReplyTooBig n) ->
  u32_max < n /\ forall p e, ~ replies minor id a e p.
Proof.
  intros Hid He H. destruct (C18_reply_framing minor id a Hid He) as [[p R]|[k [R L]]].
  - destruct R as (b & m & C & _). congruence.
  - rewrite H in R. injection R as <-. split; auto.
    intros p e (b & m & C & _). congruence.
Qed.

(** ** C20 *)

Theorem C20_error_reply minor id e :
  is_id id -> is_i32 e ->
  replies minor id (AErr e) e [] /\
  exists b m, answer_call minor id (AErr e) = Call b /\ on_wire b = Ret m /\ nlen m = 16.
Proof.
  intros Hid He. split; [now apply send_0_replies|].
  destruct (send_0_replies minor id (AErr e) e Hid He eq_refl) as (b & m & C & W & L & K).
  exists b, m. repeat split; auto.
  injection C as <-. rewrite on_wire_1 in W. injection W as <-. apply nlen_header.
Qed.

Theorem C20_linux_error errno :
  0 < errno < 65536 ->
  (-65535 <= linux_fuse_error errno <= -1)%Z /\ (linux_fuse_error errno = - Z.of_N errno)%Z.
Proof. unfold linux_fuse_error. lia. Qed.

Theorem C20_freebsd_error errno :
  is_i32 errno -> errno <> 0%Z ->
  exists e, freebsd_fuse_error errno = Ret e /\ (-65535 <= e <= -1)%Z /\
    ((0 < errno <= 65535)%Z -> e = (- errno)%Z) /\
    ((errno < 0 \/ 65535 < errno)%Z -> e = (-65535)%Z).
Proof.
  unfold is_i32, freebsd_fuse_error, wrapping_neg32. intros B Z0.
  destruct ((errno <? 0) || (65535 <? errno))%Z eqn:C.
  - exists (-65535)%Z. repeat split; lia.
  - destruct (Z.eqb_spec errno (- 2 ^ 31)); [lia|].
    destruct (Z.eqb_spec (- errno) 0); [lia|].
    exists (- errno)%Z. repeat split; lia.
Qed.

(** An error made from an errno reaches the client as that errno. *)
Theorem C20_errno_reaches_client minor id errno :
  is_id id -> 0 < errno < 65536 ->
  replies minor id (AErr (linux_fuse_error errno)) (- Z.of_N errno) [].
Proof.
  intros Hid He. apply C20_error_reply; auto. unfold linux_fuse_error, is_i32. lia.
Qed.

(** ** C21 *)

Theorem C21_reply_sizes minor id r n :
  is_id id -> expected_len minor r = Some n ->
  exists p, replies minor id (AOk r) 0 p /\ nlen p = n.
Proof.
  intros Hid H. pose proof (nlen_payload minor r n H) as L.
  exists (payload minor r). split; auto. apply ok_replies; auto.
  rewrite L. destruct r; cbn [expected_len] in H; try discriminate; injection H as <-;
    unfold u32_max; repeat match goal with |- context [if ?c then _ else _] => destruct c end; lia.
Qed.

(** For attributes, entries and statistics: what an old client gets is the
    beginning of what the newest one would get. *)
Theorem C21_prefix_of_latest minor id r p :
  is_id id ->
  match r with RAttrOut _ | REntryOut _ | RStatfsOut _ => True | _ => False end ->
  replies minor id (AOk r) 0 p ->
  exists q, replies 36 id (AOk r) 0 (p ++ q).
Proof.
  intros Hid Hr R.
  assert (P : p = payload minor r).
  { assert (L : 16 + nlen (payload minor r) <= u32_max).
    { destruct r; try easy; erewrite nlen_payload by reflexivity; unfold u32_max;
        match goal with |- context [if ?c then _ else _] => destruct c end; lia. }
    pose proof (ok_replies minor id r Hid L) as (b & m & C & W & _ & K).
    destruct R as (b' & m' & C' & W' & _ & K').
    rewrite C in C'. injection C' as <-. rewrite W in W'. injection W' as <-. congruence. }
  assert (Q : exists q, payload 36 r = payload minor r ++ q).
  { destruct r; try easy; cbn [payload];
      [destruct (minor <? 9)|destruct (minor <? 9)|destruct (minor <? 4)];
      try (exists []; now rewrite app_nil_r);
      change (36 <? 9) with false; change (36 <? 4) with false; cbv iota.
    - exists (drop 96 (take 104 (fuse_attr_out_bytes r))).
      rewrite <- (take_drop 96 (take 104 (fuse_attr_out_bytes r))) at 1.
      now rewrite take_take.
    - exists (drop 120 (take 128 (fuse_entry_out_bytes r))).
      rewrite <- (take_drop 120 (take 128 (fuse_entry_out_bytes r))) at 1.
      now rewrite take_take.
    - exists (drop 48 (take 80 (fuse_kstatfs_bytes r))).
      rewrite <- (take_drop 48 (take 80 (fuse_kstatfs_bytes r))) at 1.
      now rewrite take_take. }
  destruct Q as [q Q]. exists q. rewrite P, <- Q. apply ok_replies; auto.
  destruct r; try easy; erewrite nlen_payload by reflexivity; unfold u32_max;
    match goal with |- context [if ?c then _ else _] => destruct c end; lia.
Qed.

(** ** C22 *)

Definition sec_nsec_ok (d : N * N) : Prop := fst d < U64 /\ snd d < U32.

(** Reply to GETATTR/SETATTR: the attributes of the node and their
    validity. *)
Theorem C22_attr_reply minor id node ops valid nsec :
  is_id id -> 0 < node < U64 -> Forall attr_op_ok ops -> valid < U64 -> nsec < U32 ->
  let attr := attr_calls ops (NodeAttr_new node) in
  exists p,
    replies minor id
      (AOk (RAttrOut {| ao_attr_valid := valid; ao_attr_valid_nsec := nsec; ao_attr := attr |})) 0 p /\
    u64_at 0 p = valid /\ u32_at 8 p = nsec /\
    attr_reads p 16 node (9 <=? minor) ops.
Proof.
  intros Hid Hn Hops Hv Hs attr.
  set (r := {| ao_attr_valid := valid; ao_attr_valid_nsec := nsec; ao_attr := attr |}).
  exists (payload minor (RAttrOut r)).
  assert (F : attr_fits attr) by (apply attr_calls_fits; auto; apply attr_new_fits; lia).
  split; [|split; [|split]].
  - apply ok_replies; auto. erewrite nlen_payload by reflexivity. unfold u32_max.
    destruct (minor <? 9); lia.
  - cbn [payload]. unfold u64_at, fuse_attr_out_bytes.
    rewrite fld_take by (destruct (minor <? 9); cbn; lia).
    rewrite <- app_nil_r at 1. apply fld_wire; [reflexivity|exact Hv].
  - cbn [payload]. unfold u32_at, fuse_attr_out_bytes.
    rewrite fld_take by (destruct (minor <? 9); cbn; lia).
    rewrite <- app_nil_r at 1. apply fld_wire; [reflexivity|exact Hs].
  - cbn [payload]. apply attr_reads_take.
    + unfold fuse_attr_out_bytes.
      pose proof (attr_reads_gen (wire [u64 valid; u32 nsec; u32 0]) attr [] node ops F eq_refl Hops)
        as A.
      rewrite nlen_wire, app_nil_r in A.
      rewrite wire_app. exact A.
    + destruct (N.leb_spec 9 minor), (N.ltb_spec minor 9); lia.
Qed.

(** Reply to LOOKUP, MKDIR, MKNOD, SYMLINK, LINK. *)
Theorem C22_entry_reply minor id node aops ops :
  is_id id -> 0 < node < U64 -> Forall attr_op_ok aops -> Forall entry_op_ok ops ->
  let e := entry_calls ops (Entry_new (attr_calls aops (NodeAttr_new node))) in
  exists p, replies minor id (AOk (REntryOut e)) 0 p /\
    entry_reads p node (9 <=? minor) aops ops.
Proof.
  intros Hid Hn Ha Hops e. exists (payload minor (REntryOut e)). split.
  - apply ok_replies; auto. erewrite nlen_payload by reflexivity. unfold u32_max.
    destruct (minor <? 9); lia.
  - cbn [payload]. apply entry_reads_take.
    + rewrite <- (app_nil_r (fuse_entry_out_bytes e)). now apply entry_reads_gen.
    + destruct (N.leb_spec 9 minor), (N.ltb_spec minor 9); lia.
Qed.

(** Reply to CREATE: an entry, then the handle and flags of the open
    file. *)
Theorem C22_create_reply minor id node aops ops fh flags :
  is_id id -> 0 < node < U64 -> Forall attr_op_ok aops -> Forall entry_op_ok ops ->
  fh < U64 -> flags < U32 ->
  let e := entry_calls ops (Entry_new (attr_calls aops (NodeAttr_new node))) in
  let r := CreateResponse_set_flags flags (CreateResponse_set_handle fh (CreateResponse_new e)) in
  let n := if minor <? 9 then 120 else 128 in
  exists p, replies minor id (AOk (RCreateResponse r)) 0 p /\
    entry_reads (take n p) node (9 <=? minor) aops ops /\
    u64_at n p = fh /\ u32_at (n + 8) p = flags /\ nlen p = n + 16.
Proof.
  intros Hid Hn Ha Hops Hfh Hfl e r n. exists (payload minor (RCreateResponse r)).
  assert (L : nlen (payload minor (RCreateResponse r)) = n + 16).
  { erewrite nlen_payload by reflexivity. unfold n. now destruct (minor <? 9). }
  assert (Ln : nlen (take n (fuse_entry_out_bytes e)) = n).
  { rewrite nlen_take. unfold fuse_entry_out_bytes. rewrite nlen_wire. unfold n.
    now destruct (minor <? 9). }
  split; [|split; [|split; [|split]]]; auto.
  - apply ok_replies; auto. rewrite L. unfold u32_max, n. destruct (minor <? 9); lia.
  - cbn [payload]. fold n. cbn [r CreateResponse_set_flags CreateResponse_set_handle
      CreateResponse_new cr_entry cr_open_out].
    rewrite take_app by (now rewrite Ln).
    apply entry_reads_take.
    + rewrite <- (app_nil_r (fuse_entry_out_bytes e)). now apply entry_reads_gen.
    + unfold n. destruct (N.leb_spec 9 minor), (N.ltb_spec minor 9); lia.
  - cbn [payload]. fold n. cbn [r CreateResponse_set_flags CreateResponse_set_handle
      CreateResponse_new cr_entry cr_open_out].
    unfold u64_at. rewrite fld_app by lia. rewrite Ln, N.sub_diag.
    rewrite <- (app_nil_r (fuse_open_out_bytes _)). apply fld_wire; [reflexivity|exact Hfh].
  - cbn [payload]. fold n. cbn [r CreateResponse_set_flags CreateResponse_set_handle
      CreateResponse_new cr_entry cr_open_out].
    unfold u32_at. rewrite fld_app by lia. rewrite Ln. replace (n + 8 - n) with 8 by lia.
    rewrite <- (app_nil_r (fuse_open_out_bytes _)). apply fld_wire; [reflexivity|exact Hfl].
Qed.

(** Without a handle and flags both are 0. *)
Theorem C22_create_default minor id node aops ops :
  is_id id -> 0 < node < U64 -> Forall attr_op_ok aops -> Forall entry_op_ok ops ->
  let e := entry_calls ops (Entry_new (attr_calls aops (NodeAttr_new node))) in
  let n := if minor <? 9 then 120 else 128 in
  exists p, replies minor id (AOk (RCreateResponse (CreateResponse_new e))) 0 p /\
    entry_reads (take n p) node (9 <=? minor) aops ops /\
    u64_at n p = 0 /\ u32_at (n + 8) p = 0 /\ nlen p = n + 16.
Proof.
  intros Hid Hn Ha Ho.
  exact (C22_create_reply minor id node aops ops 0 0 Hid Hn Ha Ho eq_refl eq_refl).
Qed.

Theorem C22_statfs_reply minor id ops :
  is_id id -> Forall statfs_op_ok ops ->
  let r := fold_left (fun r o => statfs_call o r) ops Statfs_new in
  exists p, replies minor id (AOk (RStatfsOut r)) 0 p /\ statfs_reads p (4 <=? minor) ops.
Proof.
  intros Hid Hops r. exists (payload minor (RStatfsOut r)). split.
  - apply ok_replies; auto. erewrite nlen_payload by reflexivity. unfold u32_max.
    destruct (minor <? 4); lia.
  - cbn [payload]. now apply statfs_reads_gen.
Qed.

Theorem C22_init_reply minor id ops :
  is_id id -> Forall init_op_ok ops ->
  let r := fold_left (fun r o => init_call o r) ops FuseInit_new in
  exists p, replies minor id (AOk (RInitOut r)) 0 p /\ init_reads p ops.
Proof.
  intros Hid Hops r. exists (payload minor (RInitOut r)). split.
  - apply ok_replies; auto. erewrite nlen_payload by reflexivity. unfold u32_max.
    destruct (io_minor r <? 5), (io_minor r <? 23); lia.
  - cbn [payload]. now apply init_reads_gen.
Qed.

Theorem C22_cuse_init_reply minor id name ops :
  is_id id -> Forall cuse_init_op_ok ops ->
  match name with Some n => nlen n <= 4294967000 | None => True end ->
  let r := {| cir_raw := fold_left (fun r o => cuse_init_call o r) ops cuse_init_out_new;
              cir_device_name := name |} in
  exists p, replies minor id (AOk (RCuseInit r)) 0 p /\ cuse_init_reads p name ops.
Proof.
  intros Hid Hops Hname r. exists (payload minor (RCuseInit r)). split.
  - apply ok_replies; auto. cbn [payload]. unfold cuse_init_out_bytes. rewrite nlen_app, nlen_wire.
    cbn [r cir_device_name]. unfold u32_max. destruct name; rewrite ?nlen_app; cbn; lia.
  - cbn [payload]. now apply cuse_init_reads_gen.
Qed.

(** The remaining fixed-size replies. *)
Theorem C22_small_replies minor id :
  is_id id ->
  (forall fh flags, fh < U64 -> flags < U32 -> exists p,
     replies minor id (AOk (ROpenOut {| oo_fh := fh; oo_open_flags := flags |})) 0 p /\
     u64_at 0 p = fh /\ u32_at 8 p = flags /\ u32_at 12 p = 0) /\
  (forall n, n < U32 -> exists p, replies minor id (AOk (RWriteOut n)) 0 p /\ u32_at 0 p = n /\ u32_at 4 p = 0) /\
  (forall n, n < U32 -> exists p, replies minor id (AOk (RGetxattrOut n)) 0 p /\ u32_at 0 p = n /\ u32_at 4 p = 0) /\
  (forall n, n < U32 -> exists p, replies minor id (AOk (RPollOut n)) 0 p /\ u32_at 0 p = n /\ u32_at 4 p = 0) /\
  (forall n, n < U64 -> exists p, replies minor id (AOk (RBmapOut n)) 0 p /\ u64_at 0 p = n) /\
  (forall n, n < U64 -> exists p, replies minor id (AOk (RLseekOut n)) 0 p /\ u64_at 0 p = n) /\
  (forall s e t pid, s < U64 -> e < U64 -> t < U32 -> pid < U32 -> exists p,
     replies minor id (AOk (RLkOut s e t pid)) 0 p /\
     u64_at 0 p = s /\ u64_at 8 p = e /\ u32_at 16 p = t /\ u32_at 20 p = pid).
Proof.
  intros Hid.
  assert (G : forall r n, expected_len minor r = Some n -> n <= 24 ->
    replies minor id (AOk r) 0 (payload minor r)).
  { intros r n Hn L. apply ok_replies; auto. rewrite (nlen_payload _ _ _ Hn). unfold u32_max. lia. }
  repeat split; intros; (eexists; split; [eapply G; [reflexivity|lia]|]);
    cbn [payload]; unfold fuse_open_out_bytes, u32_at, u64_at; cbn [oo_fh oo_open_flags];
    repeat split; rewrite <- (app_nil_r (wire _)); apply fld_wire;
    first [reflexivity|assumption].
Qed.

(** ** C26 *)

Theorem C26_ioctl_reply minor id result output :
  is_id id -> is_i32 result -> nlen output <= 4294967000 ->
  exists p,
    replies minor id
      (AOk (RIoctl (IoctlResponse_set_result result (IoctlResponse_new output)))) 0 p /\
    as_i32 (u32_at 0 p) = result /\ u32_at 4 p = 0 /\ u32_at 8 p = 0 /\ u32_at 12 p = 0 /\
    16 <= nlen p /\ drop 16 p = output.
Proof.
  intros Hid Hr Hl. set (r := IoctlResponse_set_result _ _).
  exists (payload minor (RIoctl r)).
  assert (L : nlen (fuse_ioctl_out_bytes (ires_raw r)) = 16)
    by (unfold fuse_ioctl_out_bytes; now rewrite nlen_wire).
  split.
  { apply ok_replies; auto. cbn [payload]. rewrite nlen_app, L. unfold u32_max. cbn. lia. }
  cbn [payload]. unfold u32_at.
  pose proof (i32_as_u32_bound result).
  unfold fuse_ioctl_out_bytes at 1 2 3 4.
  rewrite (fld_wire _ _ 0 4 (i32_as_u32 result)); [|reflexivity|assumption].
  rewrite !(fld_wire _ _ _ 4 0); [|reflexivity..].
  repeat split.
  - now apply as_i32_of_i32.
  - rewrite nlen_app, L. lia.
  - apply drop_app. now rewrite L.
Qed.

(** Without [set_result] the result is 0. *)
Theorem C26_ioctl_default minor id output :
  is_id id -> nlen output <= 4294967000 ->
  exists p, replies minor id (AOk (RIoctl (IoctlResponse_new output))) 0 p /\
    as_i32 (u32_at 0 p) = 0%Z /\ u32_at 4 p = 0 /\ u32_at 8 p = 0 /\ u32_at 12 p = 0 /\
    16 <= nlen p /\ drop 16 p = output.
Proof.
  intros Hid Hl. assert (Z0 : is_i32 0) by (unfold is_i32; lia).
  exact (C26_ioctl_reply minor id 0 output Hid Z0 Hl).
Qed.

(** A retry holds at most 256 slices. *)
Theorem C26_retry_limit input output :
  (nlen input + nlen output <= 256 <->
   IoctlRetry_new input output = Some {| ir_input := input; ir_output := output |}) /\
  (256 < nlen input + nlen output <-> IoctlRetry_new input output = None).
Proof.
  unfold IoctlRetry_new, FUSE_IOCTL_MAX_IOV.
  destruct (N.ltb_spec 256 (nlen input)); [split; split; intros; try easy; lia|].
  destruct (N.ltb_spec 256 (nlen output)); [split; split; intros; try easy; lia|].
  destruct (N.ltb_spec 256 (nlen input + nlen output)); split; split; intros; try easy; lia.
Qed.

(** A retry reply lists exactly the slices, inputs first. *)
Theorem C26_retry_reply minor id input output retry :
  is_id id -> IoctlRetry_new input output = Some retry ->
  Forall slice_ok (input ++ output) ->
  exists p,
    replies minor id (AOk (RIoctl (IoctlResponse_new_retry retry))) 0 p /\
    u32_at 0 p = 0 /\ u32_at 4 p = 4 /\
    u32_at 8 p = nlen input /\ u32_at 12 p = nlen output /\
    nlen p = 16 + 16 * (nlen input + nlen output) /\
    forall k s, nth_error (input ++ output) k = Some s ->
      u64_at (16 + 16 * N.of_nat k) p = is_base s /\
      u64_at (24 + 16 * N.of_nat k) p = is_len s.
Proof.
  intros Hid Hnew Hs.
  destruct (C26_retry_limit input output) as [_ HB].
  assert (HL : nlen input + nlen output <= 256).
  { destruct (N.le_gt_cases (nlen input + nlen output) 256); auto. apply HB in H. congruence. }
  apply C26_retry_limit in HL as HN. rewrite HN in Hnew. injection Hnew as <-.
  set (r := IoctlResponse_new_retry _).
  exists (payload minor (RIoctl r)).
  assert (L : nlen (fuse_ioctl_out_bytes (ires_raw r)) = 16)
    by (unfold fuse_ioctl_out_bytes; now rewrite nlen_wire).
  assert (P : payload minor (RIoctl r) =
    fuse_ioctl_out_bytes (ires_raw r) ++ ioctl_slices_bytes (input ++ output)).
  { cbn [payload r IoctlResponse_new_retry ires_output ir_input ir_output].
    unfold ioctl_slices_bytes. now rewrite flat_map_app. }
  assert (S : forall l, nlen (ioctl_slices_bytes l) = 16 * nlen l).
  { clear. induction l as [|s l IH]; [reflexivity|]. unfold ioctl_slices_bytes in *.
    cbn [flat_map]. rewrite nlen_app, IH, nlen_cons. unfold IoctlSlice_bytes. rewrite nlen_wire.
    cbn. lia. }
  assert (Lp : nlen (payload minor (RIoctl r)) = 16 + 16 * (nlen input + nlen output)).
  { rewrite P, nlen_app, L, S, nlen_app. reflexivity. }
  assert (W : wrap32 (nlen input) = nlen input /\ wrap32 (nlen output) = nlen output)
    by (unfold wrap32, U32; lia).
  split; [apply ok_replies; auto; rewrite Lp; unfold u32_max; lia|].
  rewrite P in *. clear P. unfold u32_at, u64_at.
  split; [unfold fuse_ioctl_out_bytes; apply fld_wire; reflexivity|].
  split; [unfold fuse_ioctl_out_bytes; apply fld_wire; reflexivity|].
  split.
  { unfold fuse_ioctl_out_bytes. apply fld_wire; [|cbn; lia].
    cbn [r ires_raw IoctlResponse_new_retry ioo_in_iovs ir_input].
    destruct W as [-> _]. reflexivity. }
  split.
  { unfold fuse_ioctl_out_bytes. apply fld_wire; [|cbn; lia].
    cbn [r ires_raw IoctlResponse_new_retry ioo_out_iovs ir_output].
    destruct W as [_ ->]. reflexivity. }
  split; [exact Lp|]. intros k s Hk.
  assert (G : forall l k s pre, Forall slice_ok l -> nth_error l k = Some s ->
    fld 8 (nlen pre + 16 * N.of_nat k) (pre ++ ioctl_slices_bytes l) = is_base s /\
    fld 8 (nlen pre + 8 + 16 * N.of_nat k) (pre ++ ioctl_slices_bytes l) = is_len s).
  { clear. induction l as [|x l IH]; intros k s pre Hs Hk; [now destruct k|].
    unfold ioctl_slices_bytes. cbn [flat_map]. fold (ioctl_slices_bytes l).
    assert (Lx : nlen (IoctlSlice_bytes x) = 16) by (unfold IoctlSlice_bytes; now rewrite nlen_wire).
    destruct k as [|k]; cbn [nth_error] in Hk.
    - injection Hk as ->. apply Forall_inv in Hs. destruct Hs as [Hb Hl].
      rewrite (fld_app 8 (nlen pre + 16 * N.of_nat 0)) by lia.
      rewrite (fld_app 8 (nlen pre + 8 + 16 * N.of_nat 0)) by lia. unfold IoctlSlice_bytes.
      replace (nlen pre + 16 * N.of_nat 0 - nlen pre) with 0 by lia.
      replace (nlen pre + 8 + 16 * N.of_nat 0 - nlen pre) with 8 by lia.
      split; apply fld_wire; [reflexivity|exact Hb|reflexivity|exact Hl].
    - apply Forall_inv_tail in Hs. destruct (IH k s (pre ++ IoctlSlice_bytes x) Hs Hk) as [A B].
      rewrite nlen_app, Lx, <- app_assoc in A, B.
      split; [rewrite <- A|rewrite <- B]; f_equal; lia. }
  destruct (G (input ++ output) k s (fuse_ioctl_out_bytes (ires_raw r)) Hs Hk) as [A B].
  rewrite L in A, B. split; [exact A|exact B].
Qed.

(** Adding slices one by one: the first 256 are kept, later ones refused. *)
Theorem C26_retry_buf ss :
  exists oks b,
    retry_adds ss IoctlRetryBuf_new = Ret (oks, b) /\
    (forall k, (k < length ss)%nat -> nth_error oks k = Some (N.of_nat k <? 256)) /\
    length oks = length ss /\
    IoctlRetryBuf_borrow b =
      Ret {| ir_input := inputs (firstn 256 ss); ir_output := outputs (firstn 256 ss) |} /\
    nlen (inputs (firstn 256 ss)) + nlen (outputs (firstn 256 ss)) <= 256.
Proof.
  (* invariant *)
  set (holds := fun (b : IoctlRetryBuf) (kept : list (bool * IoctlSlice)) =>
    nlen (rb_input b) = 256 /\ nlen (rb_output b) = 256 /\
    take (nlen (inputs kept)) (rb_input b) = inputs kept /\
    take (nlen (outputs kept)) (rb_output b) = outputs kept /\
    rb_input_len b = nlen (inputs kept) /\ rb_output_len b = nlen (outputs kept)).
  assert (Len : forall kept, nlen (inputs kept) + nlen (outputs kept) = nlen kept).
  { induction kept as [|[[] s] r IH]; auto; unfold inputs, outputs in *; cbn [filter fst map negb];
      rewrite !nlen_cons; lia. }
  assert (Ia : forall a x, inputs (a ++ [x]) = inputs a ++ (if fst x then [snd x] else [])).
  { intros. unfold inputs. rewrite filter_app, map_app. cbn. now destruct (fst x). }
  assert (Oa : forall a x, outputs (a ++ [x]) = outputs a ++ (if fst x then [] else [snd x])).
  { intros. unfold outputs. rewrite filter_app, map_app. cbn. now destruct (fst x). }
  assert (Set1 : forall (l : list IoctlSlice) kept s, take (nlen kept) l = kept ->
    nlen kept < nlen l ->
    exists l', array_set (nlen kept) s l = Ret l' /\ nlen l' = nlen l /\
      take (nlen (kept ++ [s])) l' = kept ++ [s]).
  { clear. intros l kept s Ht Hl. unfold array_set.
    destruct (N.ltb_spec (nlen kept) (nlen l)); [|lia].
    eexists; split; [reflexivity|]. rewrite Ht. split.
    - rewrite nlen_app, nlen_cons, nlen_drop. lia.
    - change (s :: drop (nlen kept + 1) l) with ([s] ++ drop (nlen kept + 1) l).
      rewrite app_assoc. now apply take_app. }
  assert (Step : forall b kept s, holds b kept -> nlen kept <= 256 ->
    exists b', retry_add s b = Ret (nlen kept <? 256, b') /\
      holds b' (if nlen kept <? 256 then kept ++ [s] else kept)).
  { intros b kept s (I & O & TI & TO & LI & LO) K. specialize (Len kept).
    unfold retry_add, IoctlRetryBuf_add_input, IoctlRetryBuf_add_output,
      IoctlRetryBuf_check_add, FUSE_IOCTL_MAX_IOV.
    rewrite LI, LO, Len.
    destruct (N.ltb_spec (nlen kept) 256) as [K'|K'].
    - replace (negb (256 <? nlen kept + 1)) with true by lia.
      destruct s as [[] s]; cbn [fst snd].
      + destruct (Set1 (rb_input b) (inputs kept) s TI) as (l' & -> & Ll & Tl); [lia|].
        cbn [bind]. eexists; split; [reflexivity|]. unfold holds.
        cbn [rb_input rb_output rb_input_len rb_output_len].
        rewrite Ia, Oa. cbn [fst snd]. rewrite app_nil_r.
        repeat split; auto; try congruence. rewrite nlen_app. cbn. lia.
      + destruct (Set1 (rb_output b) (outputs kept) s TO) as (l' & -> & Ll & Tl); [lia|].
        cbn [bind]. eexists; split; [reflexivity|]. unfold holds.
        cbn [rb_input rb_output rb_input_len rb_output_len].
        rewrite Ia, Oa. cbn [fst snd]. rewrite app_nil_r.
        repeat split; auto; try congruence. rewrite nlen_app. cbn. lia.
    - replace (negb (256 <? nlen kept + 1)) with false by lia.
      exists b. split; [now destruct (fst s)|]. now unfold holds. }
  assert (Run : forall ss b kept, holds b kept -> nlen kept <= 256 ->
    exists oks b', retry_adds ss b = Ret (oks, b') /\
      (forall k, (k < length ss)%nat ->
         nth_error oks k = Some (nlen kept + N.of_nat k <? 256)) /\
      length oks = length ss /\
      holds b' (firstn 256 (kept ++ ss))).
  { clear ss. induction ss as [|s ss IH]; intros b kept H K.
    - exists [], b. repeat split; try apply H; [cbn; lia|..];
        rewrite app_nil_r, firstn_all2 by (unfold nlen in K; lia); apply H.
    - destruct (Step b kept s H K) as (b1 & E1 & H1).
      assert (K1 : nlen (if nlen kept <? 256 then kept ++ [s] else kept) <= 256).
      { destruct (N.ltb_spec (nlen kept) 256); auto. rewrite nlen_app. cbn. lia. }
      destruct (IH b1 _ H1 K1) as (oks & b2 & E2 & O2 & L2 & H2).
      exists ((nlen kept <? 256) :: oks), b2. split; [|split; [|split]].
      + cbn [retry_adds]. rewrite E1. cbn [bind]. rewrite E2. reflexivity.
      + intros [|k] Hk; cbn [nth_error]; [do 2 f_equal; lia|].
        cbn [length] in Hk. rewrite O2 by lia. f_equal.
        destruct (N.ltb_spec (nlen kept) 256); rewrite ?nlen_app; cbn; lia.
      + cbn [length]. lia.
      + destruct (N.ltb_spec (nlen kept) 256).
        * now rewrite <- app_assoc in H2.
        * assert (F : forall r : list (bool * IoctlSlice), firstn 256 (kept ++ r) = kept).
          { intros r0. rewrite firstn_app, firstn_all2 by (unfold nlen in *; lia).
            replace (256 - length kept)%nat with O by (unfold nlen in *; lia).
            cbn. apply app_nil_r. }
          rewrite F in *. exact H2. }
  destruct (Run ss IoctlRetryBuf_new []) as (oks & b & E1 & O & L & H).
  { repeat split. }
  { cbn. lia. }
  exists oks, b. split; [exact E1|]. split; [intros; now rewrite O by auto|]. split; [exact L|].
  cbn [app] in H. destruct H as (I & Oo & TI & TO & LI & LO).
  assert (K : nlen (firstn 256 ss) <= 256) by (unfold nlen; rewrite firstn_length; lia).
  specialize (Len (firstn 256 ss)).
  split; [|lia].
  unfold IoctlRetryBuf_borrow, IoctlRetryBuf_input_slices, IoctlRetryBuf_output_slices.
  rewrite LI, LO.
  destruct (N.leb_spec (nlen (inputs (firstn 256 ss))) (nlen (rb_input b))); [|lia].
  destruct (N.leb_spec (nlen (outputs (firstn 256 ss))) (nlen (rb_output b))); [|lia].
  cbn [bind]. now rewrite TI, TO.
Qed.

(** ** C27 *)

Theorem C27_content chunks b :
  sendbuf chunks = Some b ->
  SendBuf_chunks b = Ret chunks /\ on_wire b = Ret (concat chunks) /\
  SendBuf_chunks_len b = Ret (nlen chunks) /\ nlen chunks <= 5 /\
  SendBuf_len b = nlen (concat chunks).
Proof.
  destruct chunks as [|c1 [|c2 [|c3 [|c4 [|c5 [|c6 r]]]]]]; intros H; try discriminate H;
    injection H as <-; repeat split; try (vm_compute; discriminate);
    rewrite ?on_wire_1, ?on_wire_2, ?on_wire_3, ?on_wire_4, ?on_wire_5;
    cbn [concat]; now rewrite ?app_nil_r.
Qed.

Theorem C27_map {S T} (f : S -> bytes -> S * T) s chunks b storage :
  sendbuf chunks = Some b ->
  (nlen chunks <= nlen storage -> map_chunks_into b f s storage = Ret (state_map f s chunks)) /\
  (nlen storage < nlen chunks -> map_chunks_into b f s storage = Panic).
Proof.
  intros Hb. apply C27_content in Hb as (C & _ & CL & _).
  assert (A : forall i (v : T) st, i < nlen st ->
    exists st', array_set i v st = Ret st' /\ nlen st' = nlen st /\
      take (i + 1) st' = take i st ++ [v]).
  { clear. intros i v st Hi. unfold array_set. destruct (N.ltb_spec i (nlen st)); [|lia].
    eexists; split; [reflexivity|].
    assert (nlen (take i st) = i) by (rewrite nlen_take; lia). split.
    - rewrite nlen_app, nlen_cons, nlen_drop. lia.
    - change (v :: drop (i + 1) st) with ([v] ++ drop (i + 1) st).
      rewrite app_assoc. apply take_app. rewrite nlen_app. cbn. lia. }
  assert (G : forall cs i s st, i <= nlen st ->
    (i + nlen cs <= nlen st -> exists st',
      map_chunks_loop f i cs s st = Ret (fst (state_map f s cs), st') /\
      nlen st' = nlen st /\ take (i + nlen cs) st' = take i st ++ snd (state_map f s cs)) /\
    (nlen st < i + nlen cs -> map_chunks_loop f i cs s st = Panic)).
  { clear - A. induction cs as [|c cs IH]; intros i s st Hi.
    - split; [|change (nlen []) with 0; lia]. intros _. exists st.
      split; [reflexivity|]. split; [reflexivity|]. cbn. rewrite app_nil_r. f_equal. lia.
    - cbn [map_chunks_loop state_map]. destruct (f s c) as [s1 v]. rewrite nlen_cons. split.
      + intros H. destruct (A i v st) as (st1 & -> & L1 & T1); [lia|]. cbn [bind].
        destruct (IH (i + 1) s1 st1) as [IH1 _]; [lia|].
        destruct IH1 as (st2 & -> & L2 & T2); [lia|].
        exists st2. destruct (state_map f s1 cs) as [s2 vs]. cbn [fst snd] in *.
        split; [reflexivity|]. split; [lia|].
        replace (i + (1 + nlen cs)) with (i + 1 + nlen cs) by lia.
        rewrite T2, T1, <- app_assoc. reflexivity.
      + intros H. destruct (N.lt_ge_cases i (nlen st)).
        * destruct (A i v st) as (st1 & -> & L1 & T1); [lia|]. cbn [bind].
          apply IH; lia.
        * unfold array_set. destruct (N.ltb_spec i (nlen st)); [lia|]. reflexivity. }
  unfold map_chunks_into. rewrite C, CL. cbn [bind].
  destruct (G chunks 0 s storage) as [G1 G2]; [lia|]. split; intros H.
  - destruct G1 as (st & -> & L & Ts); [lia|]. cbn [bind].
    destruct (N.leb_spec (nlen chunks) (nlen st)); [|lia].
    replace (0 + nlen chunks) with (nlen chunks) in Ts by lia. rewrite Ts. cbn.
    now destruct (state_map f s chunks).
  - rewrite G2 by lia. reflexivity.
Qed.

(** ** C28 *)

Lemma notify_gen code body name :
  code < U32 -> (code < 2147483648) ->
  let p := body ++ match name with Some n => n ++ [x00] | None => [] end in
  16 + nlen p <= u32_max ->
  exists b m, encode_notify code body name = Ret b /\ on_wire b = Ret m /\
    SendBuf_len b = nlen m /\ kernel_read m = Some (Notification code p).
Proof.
  intros Hc Hc' p Hl. unfold u32_max in Hl.
  assert (L : OUT_HEADER_SIZE + nlen body +
    match name with Some n => nlen n + 1 | None => 0 end = 16 + nlen p).
  { unfold p, OUT_HEADER_SIZE. rewrite nlen_app. destruct name; rewrite ?nlen_app; cbn; lia. }
  unfold encode_notify. rewrite L.
  assert (W : wrap32 (16 + nlen p) = 16 + nlen p) by (unfold wrap32, U32; lia).
  rewrite W. destruct (N.eqb_spec (16 + nlen p) 0); [lia|].
  assert (Hz : i32_as_u32 (Z.of_N code) = code) by (unfold i32_as_u32; lia).
  assert (K : kernel_read (out_header_bytes (16 + nlen p) (Z.of_N code) 0 ++ p) =
    Some (Notification code p)).
  { unfold kernel_read.
    destruct (header_reads (16 + nlen p) (Z.of_N code) 0 p) as (R0 & R4 & R8 & Rd);
      [unfold U32; lia|reflexivity|].
    rewrite R0, R4, R8, Rd, nlen_app, nlen_header, Hz.
    destruct (N.ltb_spec (16 + nlen p) 16); [lia|]. now rewrite !N.eqb_refl. }
  destruct name as [n0|].
  - eexists; exists (out_header_bytes (16 + nlen p) (Z.of_N code) 0 ++ p).
    split; [reflexivity|]. split; [apply on_wire_4|].
    split; [now rewrite nlen_app, nlen_header|]. exact K.
  - eexists; exists (out_header_bytes (16 + nlen p) (Z.of_N code) 0 ++ p).
    split; [reflexivity|]. split; [unfold p; rewrite app_nil_r; apply on_wire_2|].
    split; [now rewrite nlen_app, nlen_header|]. exact K.
Qed.

Theorem C28_delete parent node name :
  parent < U64 -> node < U64 -> nlen name <= 4294967000 ->
  exists p, notifies (Delete_new parent node name) 6 p /\
    u64_at 0 p = parent /\ u64_at 8 p = node /\ u32_at 16 p = nlen name /\
    24 <= nlen p /\ drop 24 p = name ++ [x00].
Proof.
  intros Hp Hn Hl.
  set (body := wire [u64 parent; u64 node; u32 (wrap32 (nlen name)); u32 0]).
  assert (L : nlen body = 24) by (unfold body; now rewrite nlen_wire).
  exists (body ++ name ++ [x00]). split.
  { apply (notify_gen 6 body (Some name)); try reflexivity.
    rewrite !nlen_app, L. unfold u32_max. cbn. lia. }
  assert (W : wrap32 (nlen name) = nlen name) by (unfold wrap32, U32; lia).
  unfold u64_at, u32_at. repeat split.
  - apply fld_wire; [reflexivity|exact Hp].
  - apply fld_wire; [reflexivity|exact Hn].
  - unfold body. rewrite W. apply fld_wire; [reflexivity|cbn; lia].
  - rewrite nlen_app, L. lia.
  - apply drop_app. now rewrite L.
Qed.

Theorem C28_invalidate_entry parent name :
  parent < U64 -> nlen name <= 4294967000 ->
  exists p, notifies (InvalidateEntry_new parent name) 3 p /\
    u64_at 0 p = parent /\ u32_at 8 p = nlen name /\
    16 <= nlen p /\ drop 16 p = name ++ [x00].
Proof.
  intros Hp Hl.
  set (body := wire [u64 parent; u32 (wrap32 (nlen name)); u32 0]).
  assert (L : nlen body = 16) by (unfold body; now rewrite nlen_wire).
  exists (body ++ name ++ [x00]). split.
  { apply (notify_gen 3 body (Some name)); try reflexivity.
    rewrite !nlen_app, L. unfold u32_max. cbn. lia. }
  assert (W : wrap32 (nlen name) = nlen name) by (unfold wrap32, U32; lia).
  unfold u64_at, u32_at. repeat split.
  - apply fld_wire; [reflexivity|exact Hp].
  - unfold body. rewrite W. apply fld_wire; [reflexivity|cbn; lia].
  - rewrite nlen_app, L. lia.
  - apply drop_app. now rewrite L.
Qed.

(** [None] for the offset is the kernel's -1 (attributes only), [None] for
    the size is 0 (to the end of the file). *)
Theorem C28_invalidate_inode node offset size :
  node < U64 ->
  exists p,
    notifies (InvalidateInode_set_size size (InvalidateInode_set_offset offset
      (InvalidateInode_new node))) 2 p /\
    u64_at 0 p = node /\
    as_i64 (u64_at 8 p) = match offset with Some o => clamp_i64 o | None => (-1)%Z end /\
    as_i64 (u64_at 16 p) = match size with Some s => clamp_i64 s | None => 0%Z end /\
    nlen p = 24.
Proof.
  intros Hn. cbn [InvalidateInode_new InvalidateInode_set_offset InvalidateInode_set_size].
  set (o := InvalidateInode_off offset). set (l := InvalidateInode_len size).
  set (body := wire [u64 node; u64 (i64_as_u64 o); u64 (i64_as_u64 l)]).
  assert (L : nlen body = 24) by (unfold body; now rewrite nlen_wire).
  exists body. split.
  { unfold notifies. cbn [notification_encode]. fold body.
    destruct (notify_gen FUSE_NOTIFY_INVAL_INODE body None) as (b & m & H);
      [reflexivity|reflexivity| |exists b, m; now rewrite app_nil_r in H].
    rewrite app_nil_r, L. unfold u32_max. lia. }
  assert (T : forall x, try_into_i64_or_max x = clamp_i64 x).
  { intros x. unfold try_into_i64_or_max, clamp_i64, i64_max.
    destruct (N.leb_spec x 9223372036854775807); lia. }
  assert (R : forall w k v, field_at k [u64 node; u64 (i64_as_u64 o); u64 (i64_as_u64 l)] = Some (w, v) ->
     v < 256 ^ N.of_nat w -> fld w k body = v).
  { intros. rewrite <- (app_nil_r body). now apply fld_wire. }
  unfold u64_at.
  rewrite (R 8%nat 0 node); [|reflexivity|exact Hn].
  rewrite (R 8%nat 8 (i64_as_u64 o)); [|reflexivity|exact (i64_as_u64_bound o)].
  rewrite (R 8%nat 16 (i64_as_u64 l)); [|reflexivity|exact (i64_as_u64_bound l)].
  assert (C : forall x, (0 <= clamp_i64 x < 2 ^ 63)%Z) by (unfold clamp_i64; lia).
  repeat split; auto.
  - unfold o, InvalidateInode_off. destruct offset; [rewrite T|]; apply as_i64_of_i64; [|lia].
    specialize (C n). lia.
  - unfold l, InvalidateInode_len. destruct size; [rewrite T|]; apply as_i64_of_i64; [|lia].
    specialize (C n). lia.
Qed.

(** As constructed it is about the whole file. *)
Theorem C28_inode_default node :
  node < U64 ->
  exists p, notifies (InvalidateInode_new node) 2 p /\
    u64_at 0 p = node /\ as_i64 (u64_at 8 p) = 0%Z /\ as_i64 (u64_at 16 p) = 0%Z /\ nlen p = 24.
Proof. exact (C28_invalidate_inode node (Some 0) (Some 0)). Qed.

Theorem C28_poll kh :
  kh < U64 -> exists p, notifies (NPoll kh) 1 p /\ nlen p = 8 /\ u64_at 0 p = kh.
Proof.
  intros Hk. exists (wire [u64 kh]). split; [|split].
  - unfold notifies. cbn [notification_encode].
    destruct (notify_gen FUSE_NOTIFY_POLL (wire [u64 kh]) None) as (b & m & H);
      [reflexivity|reflexivity| |exists b, m; now rewrite app_nil_r in H].
    rewrite app_nil_r, nlen_wire. cbn. unfold u32_max. lia.
  - now rewrite nlen_wire.
  - rewrite <- (app_nil_r (wire _)). apply fld_wire; [reflexivity|assumption].
Qed.

(** A name of almost 4 GiB: the length field is not the number of bytes
    sent, and for one length the code constructs a zero NonZeroU32. *)
Definition long_name (n : N) : bytes := repeat x61 (N.to_nat n).
Lemma long_name_ok n : 0 < n ->
  NodeName_from_bytes (long_name n) = inl (long_name n) /\ nlen (long_name n) = n.
Proof.
  intros Hn. split; [|unfold long_name; rewrite nlen_repeat; lia].
  assert (L : forall k, name_loop (repeat x61 k) = None) by (induction k; auto).
  unfold long_name. destruct (N.to_nat n) eqn:E1; [lia|].
  unfold NodeName_from_bytes. change (repeat x61 (S n0)) with (x61 :: repeat x61 n0). cbv iota.
  now rewrite (L (S n0) : name_loop (x61 :: repeat x61 n0) = None).
Qed.

Theorem C28_length_refuted :
  exists name b m, NodeName_from_bytes name = inl name /\
    notification_encode (InvalidateEntry_new 1 name) = Ret b /\ on_wire b = Ret m /\
    kernel_read m = None /\ u32_at 0 m <> nlen m.
Proof.
  set (name := long_name 4294967295). destruct (long_name_ok 4294967295 eq_refl) as [Hok Hlen].
  fold name in Hok, Hlen. exists name.
  unfold InvalidateEntry_new. cbn [notification_encode]. unfold encode_notify.
  set (body := wire [u64 1; u32 (wrap32 (nlen name)); u32 0]).
  assert (L : nlen body = 16) by (unfold body; now rewrite nlen_wire).
  rewrite L, Hlen.
  change (wrap32 (OUT_HEADER_SIZE + 16 + (4294967295 + 1))) with 32.
  change (32 =? 0) with false. cbv iota.
  eexists; eexists. split; [exact Hok|]. split; [reflexivity|]. split; [apply on_wire_4|].
  set (m := out_header_bytes 32 (Z.of_N FUSE_NOTIFY_INVAL_ENTRY) 0 ++ body ++ name ++ [x00]).
  assert (M0 : u32_at 0 m = 32).
  { unfold m, u32_at, out_header_bytes. apply fld_wire; reflexivity. }
  assert (ML : nlen m = 4294967328).
  { unfold m. rewrite !nlen_app, nlen_header, L, Hlen. reflexivity. }
  split.
  - unfold kernel_read. rewrite M0, ML. reflexivity.
  - rewrite M0, ML. discriminate.
Qed.

Theorem C28_zero_length_refuted :
  exists name, NodeName_from_bytes name = inl name /\
    notification_encode (InvalidateEntry_new 1 name) = Ub.
Proof.
  set (name := long_name 4294967263). destruct (long_name_ok 4294967263 eq_refl) as [Hok Hlen].
  fold name in Hok, Hlen. exists name. split; [exact Hok|].
  unfold InvalidateEntry_new. cbn [notification_encode]. unfold encode_notify.
  set (body := wire [u64 1; u32 (wrap32 (nlen name)); u32 0]).
  assert (L : nlen body = 16) by (unfold body; now rewrite nlen_wire).
  rewrite L, Hlen. reflexivity.
Qed.

End Props.

(** ** Examples *)

Local Instance LE : Endian := false.

Ltac replies_tac := do 2 eexists; split; [reflexivity|]; split; [reflexivity|]; split; reflexivity.

Example C18_reply_framing_example :
  is_id 7 /\ is_i32 (error_of (AOkBuf [x61; x62])) /\
  replies 31 7 (AOkBuf [x61; x62]) 0 [x61; x62] /\
  answer_call 31 7 (AOkBuf [x61; x62]) =
    Call (SendBuf_new_2 18 [x12; x00; x00; x00; x00; x00; x00; x00;
                            x07; x00; x00; x00; x00; x00; x00; x00] [x61; x62]).
Proof.
  split; [split; reflexivity|]. split; [split; [discriminate|reflexivity]|].
  split; [replies_tac|reflexivity].
Qed.

Example C18_payload_example :
  is_id 7 /\ 16 + nlen ([x61] ++ [x62; x63] ++ [] ++ [x64]) <= u32_max /\
  send_4 7 [x61] [x62; x63] [] [x64] =
    Call (SendBuf_new_5 20 [x14; x00; x00; x00; x00; x00; x00; x00;
                            x07; x00; x00; x00; x00; x00; x00; x00] [x61] [x62; x63] [] [x64]).
Proof. split; [split; reflexivity|]. split; [discriminate|reflexivity]. Qed.

(** Two chunks that fit one by one but not together. *)
Example C19_too_big_example :
  send_2 7 (long_name 4000000000) (long_name 4000000000) = Refuse (SE_ReplyTooBig 8000000016) /\
  (exists b, send_1 7 (long_name 4000000000) = Call b /\ SendBuf_len b = 4000000016) /\
  (exists b, send_1 7 (long_name 4294967279) = Call b /\ SendBuf_len b = 4294967295) /\
  send_1 7 (long_name 4294967280) = Refuse (SE_ReplyTooBig 4294967296).
Proof.
  assert (L : forall n, 0 < n -> nlen (long_name n) = n) by (intros; now apply long_name_ok).
  assert (G2 : forall a b, nlen a = 4000000000 -> nlen b = 4000000000 ->
    send_2 7 a b = Refuse (SE_ReplyTooBig 8000000016)).
  { intros a b La Lb. destruct (C19_too_big 7 a b [] []) as (_ & H & _).
    unfold total in H. cbn [fold_left] in H. rewrite La, Lb in H. exact H. }
  assert (G1 : forall a n, nlen a = n -> refused_iff_too_big (send_1 7 a) (16 + n)).
  { intros a n <-. apply (C19_too_big 7 a [] [] []). }
  split; [apply G2; now apply L|]. split; [|split].
  - apply (G1 (long_name 4000000000) 4000000000). now apply L.
  - apply (G1 (long_name 4294967279) 4294967279). now apply L.
  - apply (G1 (long_name 4294967280) 4294967280). now apply L.
Qed.

Example C19_answers_example :
  answer_call 31 7 (AOkBuf (long_name 4294967280)) = Refuse (SE_ReplyTooBig 4294967296).
Proof. apply C19_too_big_example. Qed.

Example C20_error_reply_example :
  replies 31 7 (AErr (-2)) (-2) [] /\
  answer_call 31 7 (AErr (-2)) =
    Call (SendBuf_new_1 16 [x10; x00; x00; x00; xfe; xff; xff; xff;
                            x07; x00; x00; x00; x00; x00; x00; x00]).
Proof. split; [replies_tac|reflexivity]. Qed.

Example C20_linux_error_example : linux_fuse_error 2 = (-2)%Z /\ linux_fuse_error 65535 = (-65535)%Z.
Proof. split; reflexivity. Qed.

Example C20_freebsd_error_example :
  freebsd_fuse_error 2 = Ret (-2)%Z /\ freebsd_fuse_error 65536 = Ret (-65535)%Z /\
  freebsd_fuse_error (-5) = Ret (-65535)%Z.
Proof. repeat split. Qed.

Example C20_errno_reaches_client_example : replies 8 7 (AErr (linux_fuse_error 38)) (-38) [].
Proof. replies_tac. Qed.

(** The attributes of a 5-byte file, mode 0o100644, modified 1.5 s before the
    epoch, set twice. *)
Definition ex_ops : list attr_op :=
  [SetMode 33188; SetSize 4; SetMtime {| ut_seconds := -2; ut_nanos := 500000000 |};
   SetSize 5; SetBlockSize 4096; SetDax true; SetSubmount true; SetDax false].
Definition ex_attr := attr_calls ex_ops (NodeAttr_new 42).

Example C21_reply_sizes_example :
  expected_len 8 (REntryOut (Entry_new ex_attr)) = Some 120 /\
  expected_len 9 (REntryOut (Entry_new ex_attr)) = Some 128 /\
  (exists p, replies 8 7 (AOk (REntryOut (Entry_new ex_attr))) 0 p /\ nlen p = 120) /\
  (exists p, replies 9 7 (AOk (REntryOut (Entry_new ex_attr))) 0 p /\ nlen p = 128).
Proof.
  split; [reflexivity|]. split; [reflexivity|].
  split; eexists; (split; [replies_tac|reflexivity]).
Qed.

Example C21_prefix_of_latest_example :
  exists p q, replies 8 7 (AOk (REntryOut (Entry_new ex_attr))) 0 p /\
    replies 36 7 (AOk (REntryOut (Entry_new ex_attr))) 0 (p ++ q) /\ nlen q = 8.
Proof.
  exists (payload 8 (REntryOut (Entry_new ex_attr))),
    (drop 120 (payload 36 (REntryOut (Entry_new ex_attr)))).
  split; [replies_tac|]. split; [replies_tac|reflexivity].
Qed.

Example C22_attr_reply_example :
  Forall attr_op_ok ex_ops /\
  exists p,
    replies 31 7 (AOk (RAttrOut {| ao_attr_valid := 3; ao_attr_valid_nsec := 9;
                                   ao_attr := ex_attr |})) 0 p /\
    attr_reads p 16 42 true ex_ops /\
    u64_at 24 p = 5 /\ u32_at (16 + 60) p = 33188 /\ u32_at (16 + 84) p = 1 /\
    as_i64 (u64_at (16 + 32) p) = (-2)%Z /\ u32_at (16 + 52) p = 500000000.
Proof.
  split; [repeat constructor; cbn; unfold U32, U64; lia|].
  eexists; split; [replies_tac|]. vm_compute. tauto.
Qed.

Definition ex_entry_ops : list entry_op :=
  [SetGeneration 3; SetCacheTimeout (10, 500); SetAttr (SetUserId 1000);
   SetAttrTimeout (18446744073709551615, 999999999)].

Example C22_entry_reply_example :
  Forall entry_op_ok ex_entry_ops /\
  exists p,
    replies 8 7 (AOk (REntryOut (entry_calls ex_entry_ops (Entry_new ex_attr)))) 0 p /\
    entry_reads p 42 false ex_ops ex_entry_ops /\
    u64_at 16 p = 10 /\ u32_at 32 p = 500 /\ u32_at (40 + 68) p = 1000 /\
    u64_at 24 p = 9223372036854775807 /\ u32_at 36 p = 0.
Proof.
  split; [repeat constructor; cbn; unfold U32, U64; lia|].
  eexists; split; [replies_tac|]. split; [|repeat split].
  unfold entry_reads, attr_reads. vm_compute. intuition discriminate.
Qed.

Example C22_create_reply_example :
  exists p,
    replies 8 7 (AOk (RCreateResponse (CreateResponse_set_flags 2 (CreateResponse_set_handle 77
      (CreateResponse_new (Entry_new ex_attr)))))) 0 p /\
    nlen p = 136 /\ u64_at 120 p = 77 /\ u32_at 128 p = 2 /\ u64_at 0 p = 42.
Proof. eexists; split; [replies_tac|]. repeat split. Qed.

Example C22_create_default_example :
  exists p, replies 36 7 (AOk (RCreateResponse (CreateResponse_new
    (entry_calls ex_entry_ops (Entry_new ex_attr))))) 0 p /\
    drop 128 p = repeat x00 16.
Proof. eexists; split; [replies_tac|]. reflexivity. Qed.

Example C22_statfs_reply_example :
  exists p,
    replies 3 7 (AOk (RStatfsOut (fold_left (fun r o => statfs_call o r)
      [SetBlocks 100; SetFree 50; SetAvailable 40; SetNameMax 255] Statfs_new))) 0 p /\
    nlen p = 48 /\ u64_at 0 p = 100 /\ u64_at 8 p = 50 /\ u64_at 16 p = 40 /\ u32_at 44 p = 255.
Proof. eexists; split; [replies_tac|]. repeat split. Qed.

Example C22_init_reply_example :
  exists p,
    replies 36 7 (AOk (RInitOut (fold_left (fun r o => init_call o r)
      [SetVersion {| v_major := 7; v_minor := 36 |}; SetFlags 8589934593; SetMaxWrite 65536]
      FuseInit_new))) 0 p /\
    nlen p = 64 /\ u32_at 4 p = 36 /\ u32_at 12 p = 1 /\ u32_at 20 p = 65536 /\ u32_at 32 p = 2.
Proof. eexists; split; [replies_tac|]. repeat split. Qed.

Example C22_cuse_init_reply_example :
  exists p,
    replies 36 7 (AOk (RCuseInit {| cir_raw := fold_left (fun r o => cuse_init_call o r)
      [CSetVersion {| v_major := 7; v_minor := 36 |}; CSetDevice 10 200] cuse_init_out_new;
      cir_device_name := Some [x6e; x75] |})) 0 p /\
    nlen p = 72 + 8 + 2 + 1 /\ u32_at 24 p = 10 /\ u32_at 28 p = 200 /\
    drop 80 p = [x6e; x75; x00].
Proof. eexists; split; [replies_tac|]. repeat split. Qed.

Example C22_small_replies_example :
  replies 36 7 (AOk (RWriteOut 300)) 0 [x2c; x01; x00; x00; x00; x00; x00; x00] /\
  replies 36 7 (AOk (ROpenOut {| oo_fh := 5; oo_open_flags := 1 |})) 0
    [x05; x00; x00; x00; x00; x00; x00; x00; x01; x00; x00; x00; x00; x00; x00; x00].
Proof. split; replies_tac. Qed.

Example C26_ioctl_reply_example :
  replies 36 7 (AOk (RIoctl (IoctlResponse_set_result (-1) (IoctlResponse_new [x61])))) 0
    [xff; xff; xff; xff; x00; x00; x00; x00; x00; x00; x00; x00; x00; x00; x00; x00; x61].
Proof. replies_tac. Qed.

Example C26_ioctl_default_example :
  replies 36 7 (AOk (RIoctl (IoctlResponse_new [x61; x62]))) 0
    [x00; x00; x00; x00; x00; x00; x00; x00; x00; x00; x00; x00; x00; x00; x00; x00; x61; x62].
Proof. replies_tac. Qed.

Definition ex_slice (n : N) : IoctlSlice := {| is_base := 4096 * n; is_len := n |}.

Example C26_retry_limit_example :
  IoctlRetry_new (repeat (ex_slice 1) 200) (repeat (ex_slice 2) 56) <> None /\
  IoctlRetry_new (repeat (ex_slice 1) 200) (repeat (ex_slice 2) 57) = None.
Proof. split; [discriminate|reflexivity]. Qed.

Example C26_retry_reply_example :
  exists retry p,
    IoctlRetry_new [ex_slice 1; ex_slice 2] [ex_slice 3] = Some retry /\
    replies 36 7 (AOk (RIoctl (IoctlResponse_new_retry retry))) 0 p /\
    nlen p = 64 /\ u32_at 4 p = 4 /\ u32_at 8 p = 2 /\ u32_at 12 p = 1 /\
    u64_at 48 p = 12288 /\ u64_at 56 p = 3.
Proof. do 2 eexists. split; [reflexivity|]. split; [replies_tac|]. repeat split. Qed.

Example C26_retry_buf_example :
  exists b, retry_adds [(true, ex_slice 1); (false, ex_slice 2); (true, ex_slice 3)]
      IoctlRetryBuf_new = Ret ([true; true; true], b) /\
    IoctlRetryBuf_borrow b =
      Ret {| ir_input := [ex_slice 1; ex_slice 3]; ir_output := [ex_slice 2] |}.
Proof. eexists. split; [reflexivity|]. reflexivity. Qed.

Example C27_content_example :
  exists b, sendbuf [[x61]; []; [x62; x63]] = Some b /\
    SendBuf_chunks b = Ret [[x61]; []; [x62; x63]] /\ SendBuf_len b = 3.
Proof. eexists. split; [reflexivity|]. split; reflexivity. Qed.

(** A closure that counts the chunks and numbers them. *)
Example C27_map_example :
  exists b, sendbuf [[x61]; []; [x62; x63]] = Some b /\
    let f := fun (s : N) (c : bytes) => (s + nlen c, (s, c)) in
    map_chunks_into b f 0 (repeat (9, []) 3) =
      Ret (3, [(0, [x61]); (1, []); (1, [x62; x63])]) /\
    map_chunks_into b f 0 (repeat (9, []) 2) = Panic.
Proof. eexists. split; [reflexivity|]. split; reflexivity. Qed.

Example C28_delete_example :
  notifies (Delete_new 1 42 [x61; x62]) 6
    [x01; x00; x00; x00; x00; x00; x00; x00; x2a; x00; x00; x00; x00; x00; x00; x00;
     x02; x00; x00; x00; x00; x00; x00; x00; x61; x62; x00].
Proof. replies_tac. Qed.

Example C28_invalidate_entry_example :
  notifies (InvalidateEntry_new 1 [x61]) 3
    [x01; x00; x00; x00; x00; x00; x00; x00; x01; x00; x00; x00; x00; x00; x00; x00; x61; x00].
Proof. replies_tac. Qed.

Example C28_invalidate_inode_example :
  notifies (InvalidateInode_set_size (Some 18446744073709551615) (InvalidateInode_set_offset None
      (InvalidateInode_new 5))) 2
    [x05; x00; x00; x00; x00; x00; x00; x00; xff; xff; xff; xff; xff; xff; xff; xff;
     xff; xff; xff; xff; xff; xff; xff; x7f].
Proof. replies_tac. Qed.

Example C28_inode_default_example :
  notifies (InvalidateInode_new 3) 2
    [x03; x00; x00; x00; x00; x00; x00; x00; x00; x00; x00; x00; x00; x00; x00; x00;
     x00; x00; x00; x00; x00; x00; x00; x00].
Proof. replies_tac. Qed.

Example C28_poll_example : notifies (NPoll 3) 1 [x03; x00; x00; x00; x00; x00; x00; x00].
Proof. replies_tac. Qed.

Print Assumptions C18_reply_framing.
Print Assumptions C18_payload.
Print Assumptions C19_too_big.
Print Assumptions C19_answers.
Print Assumptions C20_error_reply.
Print Assumptions C20_linux_error.
Print Assumptions C20_freebsd_error.
Print Assumptions C20_errno_reaches_client.
Print Assumptions C21_reply_sizes.
Print Assumptions C21_prefix_of_latest.
Print Assumptions C22_attr_reply.
Print Assumptions C22_entry_reply.
Print Assumptions C22_create_reply.
Print Assumptions C22_create_default.
Print Assumptions C22_statfs_reply.
Print Assumptions C22_init_reply.
Print Assumptions C22_cuse_init_reply.
Print Assumptions C22_small_replies.
Print Assumptions C26_ioctl_reply.
Print Assumptions C26_ioctl_default.
Print Assumptions C26_retry_limit.
Print Assumptions C26_retry_reply.
Print Assumptions C26_retry_buf.
Print Assumptions C27_content.
Print Assumptions C27_map.
Print Assumptions C28_delete.
Print Assumptions C28_invalidate_entry.
Print Assumptions C28_invalidate_inode.
Print Assumptions C28_inode_default.
Print Assumptions C28_poll.
Print Assumptions C28_length_refuted.
Print Assumptions C28_zero_length_refuted.
