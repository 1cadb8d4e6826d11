(** Theorems about sessions: C29-C36 of properties.jsonl. *)

From Verif Require Import Base Kernel CoreModel DecodeModel OpsModel DecodeProofs WireSpec ReplyModel
  ReplySpec ReplyProofs PropReply ServerModel ServerSpec.
From Coq Require Import List NArith ZArith Bool Lia ZifyBool ZifyNat ZifyN.
Import ListNotations.
Open Scope N_scope.

(** What the code sees after [recv] and [truncate]. *)
Lemma received buf msg :
  let '(buf', n) := recv_into buf msg in
  AlignedSlice_truncate n buf' = take (nlen buf) msg /\ nlen buf' = nlen buf.
Proof.
  unfold recv_into, AlignedSlice_truncate.
  assert (L : nlen (take (nlen buf) (msg ++ drop (nlen msg) buf)) = nlen buf)
    by (rewrite nlen_take, nlen_app, nlen_drop; lia).
  rewrite L. split; [|reflexivity].
  destruct (N.leb_spec (nlen buf) (nlen msg)).
  - rewrite take_app_le by lia. reflexivity.
  - rewrite take_take. rewrite N.min_l by lia. rewrite take_app by reflexivity.
    now rewrite take_all by lia.
Qed.

Section Server.
Context {E : Endian}.

(** ** Reading INIT messages *)

Lemma check_message_eq opcode m (A : Type) (k : decoder -> out A) :
  (rq <- Request_new m ;;
   i <- (dec <- decoder_new rq ;; expect_opcode dec opcode ;; k dec) ;; Ret (rq, i)) =
  match check_message opcode m with
  | Some e => Fail e
  | None => i <- k {| d_mem := m; d_header_len := u32_at 0 m; d_consumed := 40 |} ;;
            Ret ({| rq_mem := m |}, i)
  end.
Proof.
  unfold check_message. rewrite Request_new_eq. pose proof (u32_bound 0 m) as B. unfold U32 in B.
  destruct (N.ltb_spec (nlen m) 40); [reflexivity|].
  destruct (N.eqb_spec (u64_at 8 m) 0); [reflexivity|].
  replace (N.min (nlen m) u32_max <? u32_at 0 m) with (nlen m <? u32_at 0 m) by (unfold u32_max; lia).
  destruct (N.ltb_spec (nlen m) (u32_at 0 m)); [reflexivity|].
  cbn [bind]. assert (Ac : accepted {| rq_mem := m |}) by (repeat split; auto).
  rewrite decoder_new_eq by auto. cbn [bind rq_mem].
  rewrite expect_opcode_eq by (now apply (decoder_new_wf {| rq_mem := m |})). cbn [d_mem].
  destruct (u32_at 4 m =? opcode); reflexivity.
Qed.

Lemma check_message_wf opcode m :
  check_message opcode m = None ->
  wf {| d_mem := m; d_header_len := u32_at 0 m; d_consumed := 40 |} /\ is_id (u64_at 8 m) /\
  header_request_id {| rq_mem := m |} = Ret (u64_at 8 m).
Proof.
  unfold check_message.
  destruct (N.ltb_spec (nlen m) 40); [discriminate|].
  destruct (N.eqb_spec (u64_at 8 m) 0); [discriminate|].
  destruct (N.ltb_spec (nlen m) (u32_at 0 m)); [discriminate|]. intros _.
  pose proof (u32_bound 0 m). pose proof (u64_bound 8 m).
  split; [|split].
  - unfold wf; cbn. lia.
  - unfold is_id. lia.
  - unfold header_request_id, raw_header, IN_HEADER_SIZE. cbn [rq_mem].
    rewrite mem_read_ok by lia. cbn [bind]. unfold hdr_unique. rewrite hdr_rd64 by lia. cbn [bind].
    unfold nonzero_unchecked. destruct (N.eqb_spec (u64_at 8 m) 0); [contradiction|reflexivity].
Qed.

Lemma slice_rd32 off o n (m : bytes) :
  o + 4 <= n -> off + n <= nlen m -> rd32 o (slice off n m) = Ret (u32_at (off + o) m).
Proof.
  intros. rewrite rd32_ok by (rewrite nlen_slice; lia).
  unfold u32_at. now rewrite fld_slice by lia.
Qed.

Lemma lor_words a b : a < U32 -> N.lor a (N.shiftl b 32) = a + 4294967296 * b.
Proof.
  intros Ha. rewrite N.shiftl_mul_pow2. change (2 ^ 32) with 4294967296.
  rewrite <- N.lxor_lor, <- N.add_nocarry_lxor; try lia.
  all: apply N.bits_inj; intros i; rewrite N.land_spec, N.bits_0.
  all: change 4294967296 with (2 ^ 32); rewrite <- N.shiftl_mul_pow2.
  all: destruct (N.ltb_spec i 32);
    [now rewrite N.shiftl_spec_low by auto; rewrite andb_false_r|].
  all: rewrite <- (N.mod_small a (2 ^ 32)) by exact Ha.
  all: now rewrite N.mod_pow2_bits_high by auto.
Qed.

Lemma read_init_eq m :
  (rq <- Request_new m ;; i <- FuseInitRequest_try_from rq ;; Ret (rq, i)) =
  match read_init m with
  | inl e => Fail e
  | inr (_, i) => Ret ({| rq_mem := m |}, i)
  end.
Proof.
  unfold FuseInitRequest_try_from, read_init.
  rewrite check_message_eq. destruct (check_message FUSE_INIT m) eqn:C;
    change (check_message 26 m) with (check_message FUSE_INIT m); rewrite C; [reflexivity|].
  destruct (check_message_wf _ _ C) as (W & _). pose proof W as (W1 & W2 & W3 & _). cbn in W1, W2, W3.
  rewrite peek_sized_eq by (auto; reflexivity). cbn [d_header_len d_consumed d_mem].
  change (40 + 8) with 48. destruct (N.ltb_spec (u32_at 0 m) 48); [reflexivity|].
  cbn [bind]. rewrite !slice_rd32 by lia. cbn [bind].
  change (40 + 0) with 40. change (40 + 4) with 44.
  unfold init_need. change FUSE_KERNEL_VERSION with 7.
  rewrite (orb_comm (u32_at 44 m <? 6)).
  destruct (negb (u32_at 40 m =? 7) || (u32_at 44 m <? 6)).
  { change (48 <? 48) with false. change (56 <? 48) with false.
    destruct (N.ltb_spec (u32_at 0 m) 48); [lia|]. reflexivity. }
  destruct (u32_at 44 m <? 36).
  - rewrite next_sized_eq by (auto; reflexivity). cbn [d_header_len d_consumed d_mem].
    change (40 + 16) with 56. destruct (N.ltb_spec (u32_at 0 m) 56); [reflexivity|].
    cbn [bind]. rewrite !slice_rd32 by lia. cbn [bind].
    change (48 <? 56) with true. change (56 <? 56) with false. cbn [negb].
    now rewrite N.mul_0_r, (N.add_0_r (u32_at 52 m)).
  - rewrite next_sized_eq by (auto; reflexivity). cbn [d_header_len d_consumed d_mem].
    change (40 + 64) with 104. destruct (N.ltb_spec (u32_at 0 m) 104); [reflexivity|].
    cbn [bind]. rewrite !slice_rd32 by lia. cbn [bind].
    change (48 <? 104) with true. change (56 <? 104) with true.
    now rewrite lor_words by apply u32_bound.
Qed.

Lemma read_cuse_init_eq m :
  (rq <- Request_new m ;; i <- CuseInitRequest_try_from rq ;; Ret (rq, i)) =
  match read_cuse_init m with
  | inl e => Fail e
  | inr (_, i) => Ret ({| rq_mem := m |}, i)
  end.
Proof.
  unfold CuseInitRequest_try_from, read_cuse_init.
  rewrite check_message_eq. destruct (check_message CUSE_INIT m) eqn:C;
    change (check_message 4096 m) with (check_message CUSE_INIT m); rewrite C; [reflexivity|].
  destruct (check_message_wf _ _ C) as (W & _). pose proof W as (W1 & W2 & W3 & _). cbn in W1, W2, W3.
  rewrite next_sized_eq by (auto; reflexivity). cbn [d_header_len d_consumed d_mem].
  change (40 + 16) with 56. destruct (N.ltb_spec (u32_at 0 m) 56); [reflexivity|].
  cbn [bind]. rewrite !slice_rd32 by lia. reflexivity.
Qed.

Lemma read_init_id m id i :
  read_init m = inr (id, i) ->
  is_id id /\ header_request_id {| rq_mem := m |} = Ret id /\
  v_major (fi_version i) < U32 /\ v_minor (fi_version i) < U32 /\ fi_flags i < U64.
Proof.
  unfold read_init. destruct (check_message 26 m) eqn:C; [discriminate|].
  destruct (check_message_wf _ _ C) as (_ & I & H).
  destruct (u32_at 0 m <? 48); [discriminate|].
  destruct (u32_at 0 m <? init_need _ _); [discriminate|].
  intros [= <- <-]. cbn.
  pose proof (u32_bound 40 m). pose proof (u32_bound 44 m). pose proof (u32_bound 52 m).
  pose proof (u32_bound 56 m).
  repeat match goal with |- _ /\ _ => split end; auto.
  unfold U32, U64 in *. repeat match goal with |- context [if ?c then _ else _] => destruct c end; lia.
Qed.

Lemma read_cuse_init_id m id i :
  read_cuse_init m = inr (id, i) ->
  is_id id /\ header_request_id {| rq_mem := m |} = Ret id /\
  v_major (ci_version i) < U32 /\ v_minor (ci_version i) < U32 /\ ci_flags i < U32.
Proof.
  unfold read_cuse_init. destruct (check_message 4096 m) eqn:C; [discriminate|].
  destruct (check_message_wf _ _ C) as (_ & I & H).
  destruct (u32_at 0 m <? 56); [discriminate|].
  intros [= <- <-]. cbn.
  repeat match goal with |- _ /\ _ => split end; auto; apply u32_bound.
Qed.

(** ** The handshake *)

Section Generic.
Context {I R S OP C : Type}.
Context (try_from : Request -> out I) (version : I -> Version).
Context (set_v : Version -> R -> R) (new_reply : S -> I -> S * R) (reject_reply : R).
Context (send : N -> R -> send_call).
Context (read : bytes -> RequestError + (N * I)) (callback : S -> I -> S * list OP).
Context (reads : bytes -> list OP -> Prop) (set_version : Version -> OP) (rejection : bytes -> Prop).
Context (connected : list OP -> C -> Prop) (made : R -> C).

Definition sends_reply (call : send_call) (id : N) (P : bytes -> Prop) : Prop :=
  exists b m p, call = Call b /\ on_wire b = Ret m /\ SendBuf_len b = nlen m /\
    kernel_read m = Some (Reply id 0 p) /\ P p.

Context (Hread : forall m, (rq <- Request_new m ;; i <- try_from rq ;; Ret (rq, i)) =
  match read m with inl e => Fail e | inr (_, i) => Ret ({| rq_mem := m |}, i) end).
Context (Hid : forall m id i, read m = inr (id, i) ->
  is_id id /\ header_request_id {| rq_mem := m |} = Ret id /\
  v_major (version i) < U32 /\ v_minor (version i) < U32).
Context (Hreject : forall id, is_id id ->
  sends_reply (send id (set_v Version_LATEST reject_reply)) id rejection).
Context (Hok : forall s i s' r v, new_reply s i = (s', r) -> v_major v < U32 -> v_minor v <= 36 ->
  exists ops, callback s i = (s', ops) /\ connected (ops ++ [set_version v]) (made (set_v v r)) /\
  forall id, is_id id -> sends_reply (send id (set_v v r)) id
    (fun p => reads p (ops ++ [set_version v]))).

Definition finish (r : result R) : result C :=
  match r with
  | Finished reply => Finished (made reply)
  | Failed e => Failed e | Panicked => Panicked | Undefined => Undefined | Waiting => Waiting
  end.

Lemma connect_dialogue xs : forall buf s,
  nlen buf = 8192 ->
  let '(es, r) := connect_loop try_from version set_v new_reply reject_reply send xs buf s in
  exists os, seen es os /\
    dialogue read version callback reads set_version rejection connected s xs os (finish r).
Proof using Hread Hid Hreject Hok.
  induction xs as [|x xs IH]; intros buf s Lb; cbn [connect_loop].
  { exists []. split; constructor. }
  destruct (x_recv x) as [msg|e] eqn:Rx.
  2:{ exists []. split; [constructor|]. cbn. now apply D_recv_error. }
  pose proof (received buf msg) as Rv. destruct (recv_into buf msg) as [buf' n].
  destruct Rv as [Rv Lb']. rewrite Rv, Lb, Hread.
  destruct (read (take 8192 msg)) as [e|[id i]] eqn:Rd.
  { exists []. split; [constructor|]. cbn. eapply D_bad_message; eauto. }
  destruct (Hid _ _ _ Rd) as (Iid & Hreq & Bma & Bmi).
  unfold handshake, negotiate_version. change (v_major Version_LATEST) with 7.
  change (v_minor Version_LATEST) with 36.
  destruct (N.eqb_spec (v_major (version i)) 7) as [M|M]; cbn [negb].
  - destruct (new_reply s i) as [s' reply] eqn:Nr.
    rewrite Hreq.
    destruct (Hok s i s' reply {| v_major := 7; v_minor := N.min (v_minor (version i)) 36 |} Nr)
      as (ops & Hcb & Hc & Hs); [now rewrite <- M|cbn; lia|].
    destruct (Hs id Iid) as (b & m & p & -> & W & L & K & P).
    destruct (x_send x) eqn:Sx.
    + exists [Callback I i; Sends I id 0 p].
      split; [constructor; econstructor; eauto; constructor|].
      cbn [finish]. eapply D_accept; eauto.
    + exists [Callback I i; Sends I id 0 p].
      split; [constructor; econstructor; eauto; constructor|].
      cbn [finish]. eapply D_accept_send_error; eauto.
  - rewrite Hreq. destruct (Hreject id Iid) as (b & m & p & -> & W & L & K & P).
    destruct (x_send x) eqn:Sx.
    + rewrite <- Lb' in Lb. specialize (IH buf' s). rewrite Lb in *.
      destruct (connect_loop _ _ _ _ _ _ xs buf' s) as [l r].
      destruct IH as (os & So & D); [lia|].
      exists (Sends I id 0 p :: os). split; [cbn; econstructor; eauto|].
      eapply D_foreign; eauto.
    + exists [Sends I id 0 p]. split; [cbn; econstructor; eauto; constructor|].
      cbn [finish]. eapply D_foreign_send_error; eauto.
Qed.

End Generic.

Lemma nlen_min_buffer : nlen MinReadBuffer_new = 8192.
Proof. unfold MinReadBuffer_new. now rewrite nlen_repeat. Qed.

Lemma replies_sends minor id r p (P : bytes -> Prop) :
  replies minor id (AOk r) 0 p -> P p -> sends_reply (send_to minor id r) id P.
Proof. intros (b & m & C & W & L & K) HP. exists b, m, p. auto. Qed.

Lemma flag_29 flags : negb (N.land flags FUSE_SETXATTR_EXT =? 0) = N.testbit flags 29.
Proof.
  change FUSE_SETXATTR_EXT with (2 ^ 29). now rewrite testbit_land_pow2, negb_involutive.
Qed.


Lemma init_calls_flags ops : forall r d,
  io_flags r = N.land d u32_max ->
  io_flags (fold_left (fun r o => init_call o r) ops r) =
  N.land (last_set (fun o => match o with SetFlags f => Some f | _ => None end) ops d) u32_max.
Proof.
  induction ops as [|o ops IH]; intros r d H; cbn [fold_left last_set]; auto.
  apply IH. destruct o; cbn; auto.
Qed.

Lemma fuse_connected_calls usize_max ops v :
  v_minor v <= 36 ->
  let r := fold_left (fun r o => init_call o r) (ops ++ [SetVersion v]) FuseInit_new in
  fuse_connected usize_max (ops ++ [SetVersion v])
    {| fc_layout := FuseLayout_new2 r; fc_recv_buf_len := recv_buf_len usize_max (io_max_write r) |}.
Proof.
  intros Hv r. unfold fuse_connected. cbn [fc_layout fc_recv_buf_len].
  assert (V : last_set (fun o => match o with SetVersion v => Some v | _ => None end)
                (ops ++ [SetVersion v]) {| v_major := 0; v_minor := 0 |} = v)
    by (now rewrite last_set_app).
  assert (Rm : io_minor r = v_minor v).
  { unfold r. rewrite fold_left_app. reflexivity. }
  split; [|split].
  - rewrite V. unfold FuseLayout_new2. cbn [fl_version_minor]. rewrite Rm. unfold wrap16. lia.
  - unfold have_setxattr_ext, FuseLayout_new2. cbn [fl_features]. rewrite flag_29.
    pose proof (init_calls_flags (ops ++ [SetVersion v]) FuseInit_new 0 eq_refl) as F.
    fold r in F. rewrite F, N.land_spec. change (N.testbit u32_max 29) with true.
    rewrite andb_true_r. now destruct (N.testbit _ 29).
  - replace (io_max_write r) with
      (last_set (fun o => match o with SetMaxWrite n => Some n | _ => None end)
         (ops ++ [SetVersion v]) 0).
    2:{ symmetry. apply (calls_field init_call io_max_write). now destruct o. }
    unfold recv_buf_len. change FUSE_MIN_READ_BUFFER with 8192. lia.
Qed.

Lemma init_op_version v : v_major v < U32 -> v_minor v <= 36 -> init_op_ok (SetVersion v).
Proof. cbn. unfold U32. lia. Qed.

(** ** C30 *)

Theorem C30_fuse {S} usize_max (cb : S -> FuseInitRequest -> S * list init_op) s xs :
  (forall s i, Forall init_op_ok (snd (cb s i))) ->
  let '(es, r) := FuseConnection_connect usize_max (fuse_callback cb) s xs in
  exists os, seen es os /\
    dialogue read_init fi_version cb init_reads SetVersion fuse_rejection
      (fuse_connected usize_max) s xs os r.
Proof.
  intros Hcb. unfold FuseConnection_connect.
  pose proof (connect_dialogue FuseInitRequest_try_from fi_version FuseInit_set_version
    (fun s req => fuse_callback cb s req FuseInit_new) FuseInit_new
    (fun id reply => send_to FUSE_KERNEL_MINOR_VERSION id (RInitOut reply))
    read_init cb init_reads SetVersion fuse_rejection (fuse_connected usize_max)
    (fun reply => {| fc_layout := FuseLayout_new2 reply;
                     fc_recv_buf_len := recv_buf_len usize_max (io_max_write reply) |})) as D.
  specialize (D read_init_eq).
  assert (H1 : forall m id i, read_init m = inr (id, i) ->
    is_id id /\ header_request_id {| rq_mem := m |} = Ret id /\
    v_major (fi_version i) < U32 /\ v_minor (fi_version i) < U32)
    by (intros m id i H; apply read_init_id in H; intuition).
  specialize (D H1). clear H1.
  assert (H2 : forall id, is_id id -> sends_reply
    (send_to FUSE_KERNEL_MINOR_VERSION id (RInitOut (FuseInit_set_version Version_LATEST FuseInit_new)))
    id fuse_rejection).
  { intros id Iid.
    destruct (C22_init_reply FUSE_KERNEL_MINOR_VERSION id [SetVersion {| v_major := 7; v_minor := 36 |}])
      as (p & Rp & P); auto.
    { constructor; [|constructor]. now apply init_op_version. }
    exact (replies_sends _ _ _ _ _ Rp P). }
  specialize (D H2). clear H2.
  assert (H3 : forall s i s' r v, fuse_callback cb s i FuseInit_new = (s', r) ->
    v_major v < U32 -> v_minor v <= 36 ->
    exists ops, cb s i = (s', ops) /\
    fuse_connected usize_max (ops ++ [SetVersion v])
      {| fc_layout := FuseLayout_new2 (FuseInit_set_version v r);
         fc_recv_buf_len := recv_buf_len usize_max (io_max_write (FuseInit_set_version v r)) |} /\
    forall id, is_id id -> sends_reply
      (send_to FUSE_KERNEL_MINOR_VERSION id (RInitOut (FuseInit_set_version v r))) id
      (fun p => init_reads p (ops ++ [SetVersion v]))).
  { intros s0 i s' r v Hr Hma Hmi. unfold fuse_callback in Hr. specialize (Hcb s0 i).
    destruct (cb s0 i) as [s1 ops]. injection Hr as <- <-. cbn [snd] in Hcb.
    exists ops. split; [reflexivity|].
    assert (Eq : FuseInit_set_version v (fold_left (fun r o => init_call o r) ops FuseInit_new) =
      fold_left (fun r o => init_call o r) (ops ++ [SetVersion v]) FuseInit_new)
      by (now rewrite fold_left_app).
    rewrite Eq. split; [now apply fuse_connected_calls|].
    intros id Iid.
    destruct (C22_init_reply FUSE_KERNEL_MINOR_VERSION id (ops ++ [SetVersion v])) as (p & Rp & P); auto.
    { apply Forall_app. split; auto. constructor; [|constructor]. now apply init_op_version. }
    exact (replies_sends _ _ _ _ _ Rp P). }
  specialize (D H3 xs MinReadBuffer_new s nlen_min_buffer). clear H3.
  destruct (connect_loop _ _ _ _ _ _ xs MinReadBuffer_new s) as [es r].
  destruct D as (os & So & D). exists os. split; auto.
Qed.

Lemma cuse_update_fold ops : forall raw name,
  fold_left (fun r o => CuseInitResponse_update (cuse_init_call o) r) ops
    {| cir_raw := raw; cir_device_name := name |} =
  {| cir_raw := fold_left (fun r o => cuse_init_call o r) ops raw; cir_device_name := name |}.
Proof. induction ops as [|o ops IH]; intros; cbn [fold_left]; auto. apply IH. Qed.

(** The callback of a CUSE server runs after the device number was set. *)
Definition with_device {S} (major minor : N) (cb : S -> CuseInitRequest -> S * list cuse_init_op)
  : S -> CuseInitRequest -> S * list cuse_init_op :=
  fun s i => let '(s, ops) := cb s i in (s, CSetDevice major minor :: ops).

Theorem C30_cuse {S} usize_max name dev_major dev_minor
    (cb : S -> CuseInitRequest -> S * list cuse_init_op) s xs :
  nlen name <= 4294967000 -> dev_major < U32 -> dev_minor < U32 ->
  (forall s i, Forall cuse_init_op_ok (snd (cb s i))) ->
  let '(es, r) :=
    CuseConnection_connect usize_max name dev_major dev_minor (cuse_callback cb) s xs in
  exists os, seen es os /\
    dialogue read_cuse_init ci_version (with_device dev_major dev_minor cb)
      (fun p => cuse_init_reads p (Some name)) CSetVersion
      cuse_rejection (cuse_connected usize_max) s xs os r.
Proof.
  intros Hn Hdma Hdmi Hcb. unfold CuseConnection_connect.
  pose proof (connect_dialogue CuseInitRequest_try_from ci_version
    (fun v => CuseInitResponse_update (CuseInit_set_version v))
    (fun s req => cuse_callback cb s req
       (CuseInitResponse_update (CuseInit_set_device_number dev_major dev_minor)
          (CuseInitResponse_new name)))
    CuseInitResponse_new_nameless
    (fun id reply => send_to FUSE_KERNEL_MINOR_VERSION id (RCuseInit reply))
    read_cuse_init (with_device dev_major dev_minor cb)
    (fun p => cuse_init_reads p (Some name)) CSetVersion cuse_rejection (cuse_connected usize_max)
    (fun reply => {| cc_layout := {| cl_version_minor := wrap16 (co_minor (cir_raw reply)) |};
                     cc_recv_buf_len := recv_buf_len usize_max (co_max_write (cir_raw reply)) |})) as D.
  specialize (D read_cuse_init_eq).
  assert (H1 : forall m id i, read_cuse_init m = inr (id, i) ->
    is_id id /\ header_request_id {| rq_mem := m |} = Ret id /\
    v_major (ci_version i) < U32 /\ v_minor (ci_version i) < U32)
    by (intros m id i H; apply read_cuse_init_id in H; intuition).
  specialize (D H1). clear H1.
  assert (H2 : forall id, is_id id -> sends_reply
    (send_to FUSE_KERNEL_MINOR_VERSION id (RCuseInit
      (CuseInitResponse_update (CuseInit_set_version Version_LATEST) CuseInitResponse_new_nameless)))
    id cuse_rejection).
  { intros id Iid.
    destruct (C22_cuse_init_reply FUSE_KERNEL_MINOR_VERSION id None
      [CSetVersion {| v_major := 7; v_minor := 36 |}]) as (p & Rp & P); auto.
    { constructor; [|constructor]. split; reflexivity. }
    exact (replies_sends _ _ _ _ _ Rp P). }
  specialize (D H2). clear H2.
  match type of D with (?A -> _) => assert (H3 : A) end.
  { intros s0 i s' r v Hr Hma Hmi. unfold cuse_callback in Hr. unfold with_device.
    specialize (Hcb s0 i).
    destruct (cb s0 i) as [s1 ops]. injection Hr as <- <-. cbn [snd] in Hcb.
    exists (CSetDevice dev_major dev_minor :: ops). split; [reflexivity|].
    change (CuseInitResponse_update (CuseInit_set_device_number dev_major dev_minor)
      (CuseInitResponse_new name)) with
      {| cir_raw := CuseInit_set_device_number dev_major dev_minor cuse_init_out_new;
         cir_device_name := Some name |}.
    rewrite cuse_update_fold.
    assert (Eq : CuseInitResponse_update (CuseInit_set_version v)
        {| cir_raw := fold_left (fun r o => cuse_init_call o r) ops
             (CuseInit_set_device_number dev_major dev_minor cuse_init_out_new);
           cir_device_name := Some name |} =
      {| cir_raw := fold_left (fun r o => cuse_init_call o r)
             ((CSetDevice dev_major dev_minor :: ops) ++ [CSetVersion v]) cuse_init_out_new;
         cir_device_name := Some name |})
      by (now rewrite fold_left_app).
    rewrite Eq. cbn [cir_raw]. clear Eq. split.
    - unfold cuse_connected. cbn [cc_layout cc_recv_buf_len cl_version_minor].
      rewrite last_set_app. cbn [last_set].
      rewrite (calls_field cuse_init_call co_max_write
        (fun o => match o with CSetMaxWrite n => Some n | _ => None end)) by (now destruct o).
      rewrite fold_left_app. cbn [fold_left cuse_init_call CuseInit_set_version co_minor].
      unfold wrap16, recv_buf_len. change FUSE_MIN_READ_BUFFER with 8192.
      change (co_max_write cuse_init_out_new) with 0. lia.
    - intros id Iid.
      destruct (C22_cuse_init_reply FUSE_KERNEL_MINOR_VERSION id (Some name)
        ((CSetDevice dev_major dev_minor :: ops) ++ [CSetVersion v])) as (p & Rp & P); auto.
      { apply Forall_app. split; [constructor; [split|]; auto|].
        constructor; [|constructor]. split; [exact Hma|unfold U32; lia]. }
      exact (replies_sends _ _ _ _ _ Rp P). }
  specialize (D H3 xs MinReadBuffer_new s nlen_min_buffer). clear H3.
  destruct (connect_loop _ _ _ _ _ _ xs MinReadBuffer_new s) as [es r].
  destruct D as (os & So & D). exists os. split; auto.
Qed.

(** In every dialogue the callback is called at most once, last, and
    whenever a connection is made; before it only rejections are sent. *)
Definition is_send {I} (o : observation I) : Prop :=
  match o with Sends _ _ _ _ => True | Callback _ _ => False end.

Theorem C30_callback_once {I S OP C} read version (callback : S -> I -> S * list OP)
    reads set_version rejection (connected : list OP -> C -> Prop) s xs os r :
  dialogue read version callback reads set_version rejection connected s xs os r ->
  (exists pre, Forall is_send pre /\
     (os = pre \/ exists i id p, os = pre ++ [Callback I i; Sends I id 0 p] /\
        v_major (version i) = 7)) /\
  (forall c, r = Finished c -> exists pre i id p,
     Forall is_send pre /\ os = pre ++ [Callback I i; Sends I id 0 p]).
Proof.
  induction 1; try (split; [exists []; split; [constructor|now left]|discriminate]).
  - destruct IHdialogue as [(pre & Fp & A) B]. split.
    + exists (Sends I id 0 p :: pre). split; [now constructor|].
      destruct A as [-> | (i' & id' & p' & -> & M)]; [now left|right].
      exists i', id', p'. split; [reflexivity|exact M].
    + intros c Hc. destruct (B c Hc) as (pre' & i' & id' & p' & Fp' & ->).
      exists (Sends I id 0 p :: pre'), i', id', p'. split; [now constructor|reflexivity].
  - split; [|discriminate]. exists [Sends I id 0 p]. split; [repeat constructor|now left].
  - split.
    + exists []. split; [constructor|]. right. exists i, id, p. split; [reflexivity|assumption].
    + intros. exists [], i, id, p. split; [constructor|reflexivity].
  - split; [|discriminate]. exists []. split; [constructor|]. right. exists i, id, p. split; [reflexivity|assumption].
Qed.

(** The replies of a handshake answer the first messages, one each, in
    order. *)
Definition reply_ids {I} (os : list (observation I)) : list N :=
  flat_map (fun o => match o with Sends _ id _ _ => [id] | Callback _ _ => [] end) os.
Definition message_id (x : exchange) : list N :=
  match x_recv x with Message m => [u64_at 8 (take 8192 m)] | RecvFails _ => [] end.

Theorem C30_ids {I S OP C} read version (callback : S -> I -> S * list OP)
    reads set_version rejection (connected : list OP -> C -> Prop) s xs os r :
  (forall m id i, read m = inr (id, i) -> id = u64_at 8 m) ->
  dialogue read version callback reads set_version rejection connected s xs os r ->
  exists ys zs, xs = ys ++ zs /\ reply_ids os = flat_map message_id ys /\
    length (reply_ids os) = length ys.
Proof.
  intros Hr.
  assert (One : forall x msg id i, x_recv x = Message msg ->
    read (take 8192 msg) = inr (id, i) -> message_id x = [id]).
  { intros x msg id i Hx Rd. unfold message_id. rewrite Hx. now rewrite <- (Hr _ _ _ Rd). }
  induction 1; try (exists [], (x :: xs); now repeat split).
  - exists [], []. now repeat split.
  - destruct IHdialogue as (ys & zs & -> & A & L). exists (x :: ys), zs.
    split; [reflexivity|]. cbn. rewrite (One _ _ _ _ H H0). cbn. now rewrite <- A, <- L.
  - exists [x], xs. cbn. now rewrite (One _ _ _ _ H H0).
  - exists [x], xs. cbn. now rewrite (One _ _ _ _ H H0).
  - exists [x], xs. cbn. now rewrite (One _ _ _ _ H H0).
Qed.

Lemma read_init_unique m id i : read_init m = inr (id, i) -> id = u64_at 8 m.
Proof.
  unfold read_init. destruct (check_message 26 m); [discriminate|].
  destruct (_ <? 48); [discriminate|]. destruct (_ <? init_need _ _); [discriminate|].
  congruence.
Qed.
Lemma read_cuse_init_unique m id i : read_cuse_init m = inr (id, i) -> id = u64_at 8 m.
Proof.
  unfold read_cuse_init. destruct (check_message 4096 m); [discriminate|].
  destruct (_ <? 56); [discriminate|]. congruence.
Qed.


(** ** C29 *)

(** An INIT message of any client: 104 bytes, [struct fuse_in_header] and
    [struct fuse_init_in]. *)
Definition init_message (id major minor max_readahead flags flags2 : N) : bytes :=
  wire ([u32 104; u32 26; u64 id; u64 0; u32 0; u32 0; u32 0; u32 0;
         u32 major; u32 minor; u32 max_readahead; u32 flags; u32 flags2] ++ repeat (u32 0) 11).
(** A CUSE_INIT message, 56 bytes. *)
Definition cuse_init_message (id major minor flags : N) : bytes :=
  wire [u32 56; u32 4096; u64 id; u64 0; u32 0; u32 0; u32 0; u32 0;
        u32 major; u32 minor; u32 0; u32 flags].

Definition init_seen (major minor max_readahead flags flags2 : N) : FuseInitRequest :=
  let old := negb (major =? 7) || (minor <? 6) in
  {| fi_version := {| v_major := major; v_minor := minor |};
     fi_max_readahead := if old then 0 else max_readahead;
     fi_flags := if old then 0 else if minor <? 36 then flags else flags + 4294967296 * flags2 |}.

Lemma init_message_reads id major minor ra flags flags2 :
  is_id id -> major < U32 -> minor < U32 -> ra < U32 -> flags < U32 -> flags2 < U32 ->
  read_init (init_message id major minor ra flags flags2) =
    inr (id, init_seen major minor ra flags flags2) /\
  nlen (init_message id major minor ra flags flags2) = 104.
Proof.
  intros [Hid1 Hid2] H1 H2 H3 H4 H5.
  change U32 with (256 ^ N.of_nat 4) in H1, H2, H3, H4, H5. change U64 with (256 ^ N.of_nat 8) in Hid2.
  set (m := init_message id major minor ra flags flags2).
  assert (L : nlen m = 104) by (unfold m, init_message; now rewrite nlen_wire).
  assert (R : forall w k v, field_at k ([u32 104; u32 26; u64 id; u64 0; u32 0; u32 0; u32 0; u32 0;
         u32 major; u32 minor; u32 ra; u32 flags; u32 flags2] ++ repeat (u32 0) 11) = Some (w, v) ->
    v < 256 ^ N.of_nat w -> fld w k m = v).
  { intros w k v Hf Hv. unfold m, init_message.
    match goal with |- fld w k (wire ?l) = _ => rewrite <- (app_nil_r (wire l)) end.
    now apply fld_wire. }
  split; [|exact L].
  unfold read_init, check_message. rewrite L. unfold u32_at, u64_at.
  rewrite (R 4%nat 0 104) by reflexivity.
  rewrite (R 4%nat 4 26) by reflexivity.
  rewrite (R 8%nat 8 id) by first [reflexivity|exact Hid2].
  rewrite (R 4%nat 40 major) by first [reflexivity|exact H1].
  rewrite (R 4%nat 44 minor) by first [reflexivity|exact H2].
  rewrite (R 4%nat 48 ra) by first [reflexivity|exact H3].
  rewrite (R 4%nat 52 flags) by first [reflexivity|exact H4].
  rewrite (R 4%nat 56 flags2) by first [reflexivity|exact H5].
  change (104 <? 40) with false. change (104 <? 104) with false. change (26 =? 26) with true.
  change (104 <? 48) with false. cbn [negb].
  destruct (N.eqb_spec id 0); [lia|].
  unfold init_seen, init_need.
  destruct (negb (major =? 7) || (minor <? 6)); [reflexivity|].
  destruct (minor <? 36); [|reflexivity].
  change (104 <? 56) with false. change (48 <? 56) with true. change (56 <? 56) with false.
  cbv beta iota. now rewrite N.mul_0_r, N.add_0_r.
Qed.

Lemma cuse_init_message_reads id major minor flags :
  is_id id -> major < U32 -> minor < U32 -> flags < U32 ->
  read_cuse_init (cuse_init_message id major minor flags) =
    inr (id, {| ci_version := {| v_major := major; v_minor := minor |}; ci_flags := flags |}) /\
  nlen (cuse_init_message id major minor flags) = 56.
Proof.
  intros [Hid1 Hid2] H1 H2 H3.
  change U32 with (256 ^ N.of_nat 4) in H1, H2, H3. change U64 with (256 ^ N.of_nat 8) in Hid2.
  set (m := cuse_init_message id major minor flags).
  assert (L : nlen m = 56) by (unfold m, cuse_init_message; now rewrite nlen_wire).
  assert (R : forall w k v, field_at k [u32 56; u32 4096; u64 id; u64 0; u32 0; u32 0; u32 0; u32 0;
        u32 major; u32 minor; u32 0; u32 flags] = Some (w, v) ->
    v < 256 ^ N.of_nat w -> fld w k m = v).
  { intros w k v Hf Hv. unfold m, cuse_init_message.
    match goal with |- fld w k (wire ?l) = _ => rewrite <- (app_nil_r (wire l)) end.
    now apply fld_wire. }
  split; [|exact L].
  unfold read_cuse_init, check_message. rewrite L. unfold u32_at, u64_at.
  rewrite (R 4%nat 0 56) by reflexivity.
  rewrite (R 4%nat 4 4096) by reflexivity.
  rewrite (R 8%nat 8 id) by first [reflexivity|exact Hid2].
  rewrite (R 4%nat 40 major) by first [reflexivity|exact H1].
  rewrite (R 4%nat 44 minor) by first [reflexivity|exact H2].
  rewrite (R 4%nat 52 flags) by first [reflexivity|exact H3].
  change (56 <? 40) with false. change (56 <? 56) with false. change (4096 =? 4096) with true.
  cbn [negb]. destruct (N.eqb_spec id 0); [lia|]. reflexivity.
Qed.

Lemma last_version ops v d :
  last_set (fun o => match o with SetVersion v => Some v | _ => None end) (ops ++ [SetVersion v]) d = v.
Proof. now rewrite last_set_app. Qed.
Lemma cuse_last_version ops v d :
  last_set (fun o => match o with CSetVersion v => Some v | _ => None end) (ops ++ [CSetVersion v]) d = v.
Proof. now rewrite last_set_app. Qed.

(** The answer to an INIT of any version, and whether a session starts. *)
Theorem C29_fuse {S} usize_max (cb : S -> FuseInitRequest -> S * list init_op) s
    id major minor ra flags flags2 xs :
  (forall s i, Forall init_op_ok (snd (cb s i))) ->
  is_id id -> major < U32 -> minor < U32 -> ra < U32 -> flags < U32 -> flags2 < U32 ->
  let x := {| x_recv := Message (init_message id major minor ra flags flags2); x_send := SendOk |} in
  let '(es, r) := FuseConnection_connect usize_max (fuse_callback cb) s (x :: xs) in
  exists os p, seen es os /\
  if major =? 7 then
    os = [Callback _ (init_seen major minor ra flags flags2); Sends _ id 0 p] /\
    u32_at 0 p = 7 /\ u32_at 4 p = N.min minor 36 /\
    exists c, r = Finished c /\ fl_version_minor (fc_layout c) = N.min minor 36
  else
    (exists os', os = Sends _ id 0 p :: os') /\ u32_at 0 p = 7 /\ u32_at 4 p = 36 /\
    (xs = [] -> r = Waiting).
Proof.
  intros Hcb Iid H1 H2 H3 H4 H5 x.
  pose proof (C30_fuse usize_max cb s (x :: xs) Hcb) as D.
  destruct (FuseConnection_connect _ _ _ _) as [es r]. destruct D as (os & So & D).
  destruct (init_message_reads id major minor ra flags flags2) as [Rd L]; auto.
  exists os.
  assert (T : take 8192 (init_message id major minor ra flags flags2) =
              init_message id major minor ra flags flags2) by (apply take_all; lia).
  inversion D; subst; cbn [x x_recv x_send] in *;
    try match goal with H : Message _ = Message _ |- _ => injection H as <- end;
    try discriminate;
    match goal with H : read_init (take 8192 _) = _ |- _ => rewrite T, Rd in H end;
    try discriminate;
    match goal with H : inr _ = inr _ |- _ => injection H as <- <- end;
    cbn [init_seen fi_version v_major v_minor] in *.
  - destruct (N.eqb_spec major 7); [contradiction|].
    exists p. split; [exact So|]. match goal with H : fuse_rejection p |- _ =>
      unfold fuse_rejection, init_reads in H; cbn [last_set v_major v_minor] in H;
      destruct H as (_ & P1 & P2 & _) end.
    split; [eexists; reflexivity|]. split; [exact P1|]. split; [exact P2|].
    intros ->. match goal with H : dialogue _ _ _ _ _ _ _ _ [] _ _ |- _ => inversion H end. reflexivity.
  - subst major. rewrite N.eqb_refl. exists p. split; [exact So|]. split; [reflexivity|].
    match goal with H : _ /\ fuse_connected _ _ _ |- _ => destruct H as [P Cn] end.
    unfold init_reads in P. rewrite last_version in P. cbn [v_major v_minor] in P.
    destruct P as (_ & P1 & P2 & _). split; [exact P1|]. split; [exact P2|].
    exists c. split; [reflexivity|]. destruct Cn as (Cn & _). rewrite Cn, last_version. reflexivity.
Qed.

Theorem C29_cuse {S} usize_max name dma dmi (cb : S -> CuseInitRequest -> S * list cuse_init_op) s
    id major minor flags xs :
  nlen name <= 4294967000 -> dma < U32 -> dmi < U32 ->
  (forall s i, Forall cuse_init_op_ok (snd (cb s i))) ->
  is_id id -> major < U32 -> minor < U32 -> flags < U32 ->
  let x := {| x_recv := Message (cuse_init_message id major minor flags); x_send := SendOk |} in
  let '(es, r) := CuseConnection_connect usize_max name dma dmi (cuse_callback cb) s (x :: xs) in
  exists os p, seen es os /\
  if major =? 7 then
    os = [Callback _ {| ci_version := {| v_major := major; v_minor := minor |}; ci_flags := flags |};
          Sends _ id 0 p] /\
    u32_at 0 p = 7 /\ u32_at 4 p = N.min minor 36 /\
    drop 72 p = map n2b [68; 69; 86; 78; 65; 77; 69; 61] ++ name ++ [x00] /\
    exists c, r = Finished c /\ cl_version_minor (cc_layout c) = N.min minor 36
  else
    (exists os', os = Sends _ id 0 p :: os') /\ u32_at 0 p = 7 /\ u32_at 4 p = 36 /\
    drop 72 p = [] /\ (xs = [] -> r = Waiting).
Proof.
  intros Hn Hd1 Hd2 Hcb Iid H1 H2 H3 x.
  pose proof (C30_cuse usize_max name dma dmi cb s (x :: xs) Hn Hd1 Hd2 Hcb) as D.
  destruct (CuseConnection_connect _ _ _ _ _ _ _) as [es r]. destruct D as (os & So & D).
  destruct (cuse_init_message_reads id major minor flags) as [Rd L]; auto.
  exists os.
  assert (T : take 8192 (cuse_init_message id major minor flags) =
              cuse_init_message id major minor flags) by (apply take_all; lia).
  inversion D; subst; cbn [x x_recv x_send] in *;
    try match goal with H : Message _ = Message _ |- _ => injection H as <- end;
    try discriminate;
    match goal with H : read_cuse_init (take 8192 _) = _ |- _ => rewrite T, Rd in H end;
    try discriminate;
    match goal with H : inr _ = inr _ |- _ => injection H as <- <- end;
    cbn [ci_version v_major v_minor] in *.
  - destruct (N.eqb_spec major 7); [contradiction|].
    exists p. split; [exact So|]. match goal with H : cuse_rejection p |- _ =>
      unfold cuse_rejection, cuse_init_reads in H; cbn [last_set v_major v_minor] in H;
      destruct H as (P1 & P2 & _ & _ & _ & _ & _ & P3) end.
    split; [eexists; reflexivity|]. split; [exact P1|]. split; [exact P2|]. split; [exact P3|].
    intros ->. match goal with H : dialogue _ _ _ _ _ _ _ _ [] _ _ |- _ => inversion H end. reflexivity.
  - subst major. rewrite N.eqb_refl. exists p. split; [exact So|]. split; [reflexivity|].
    match goal with H : _ /\ cuse_connected _ _ _ |- _ => destruct H as [P Cn] end.
    unfold cuse_init_reads in P. rewrite cuse_last_version in P. cbn [v_major v_minor] in P.
    destruct P as (P1 & P2 & _ & _ & _ & _ & _ & P3). split; [exact P1|]. split; [exact P2|].
    split; [exact P3|].
    exists c. split; [reflexivity|]. destruct Cn as (Cn & _). rewrite Cn, cuse_last_version. reflexivity.
Qed.

(** A CUSE device name that does not fit into a message: the handshake ends
    with that error after the callback and sends nothing. *)
Theorem C30_cuse_name_too_big {S} usize_max name dma dmi
    (cb : S -> CuseInitRequest -> S * list cuse_init_op) s id minor flags se xs :
  4294967198 < nlen name -> is_id id -> minor < U32 -> flags < U32 ->
  let i := {| ci_version := {| v_major := 7; v_minor := minor |}; ci_flags := flags |} in
  CuseConnection_connect usize_max name dma dmi (cuse_callback cb) s
    ({| x_recv := Message (cuse_init_message id 7 minor flags); x_send := se |} :: xs) =
  ([InitCalled i], Failed (SrvSend (SE_ReplyTooBig (N.min u64_max (97 + nlen name))))).
Proof.
  intros Hn Iid H2 H3 i.
  destruct (cuse_init_message_reads id 7 minor flags) as [Rd L]; auto; [reflexivity|].
  unfold CuseConnection_connect. cbn [connect_loop x_recv].
  pose proof (received MinReadBuffer_new (cuse_init_message id 7 minor flags)) as Rv.
  destruct (recv_into MinReadBuffer_new _) as [buf' n]. destruct Rv as [-> _].
  rewrite nlen_min_buffer, take_all by lia. rewrite read_cuse_init_eq, Rd.
  destruct (read_cuse_init_id _ _ _ Rd) as (_ & -> & _).
  unfold handshake, negotiate_version. cbn [ci_version v_major v_minor].
  change (negb (7 =? v_major Version_LATEST)) with false. cbv iota.
  unfold cuse_callback. destruct (cb s _) as [s' ops].
  change (CuseInitResponse_update (CuseInit_set_device_number dma dmi) (CuseInitResponse_new name))
    with {| cir_raw := CuseInit_set_device_number dma dmi cuse_init_out_new;
            cir_device_name := Some name |}.
  rewrite cuse_update_fold. unfold CuseInitResponse_update at 1. cbn [cir_raw cir_device_name].
  rewrite answer_refuse.
  all: cbn [payload cir_raw cir_device_name]; rewrite !nlen_app;
    unfold cuse_init_out_bytes; rewrite nlen_wire.
  2:{ cbn. unfold u32_max. lia. }
  do 4 f_equal. f_equal. cbn. lia.
Qed.


(** ** C31 *)

Lemma flags_round_trip f r : f < U64 -> FuseInit_flags (FuseInit_set_flags f r) = f.
Proof.
  intros H. unfold FuseInit_flags, FuseInit_set_flags. cbn [io_flags io_flags2].
  rewrite lor_words by apply land_max_bound.
  change u32_max with (N.ones 32). rewrite N.land_ones, N.shiftr_div_pow2.
  unfold wrap32, U32, U64 in *. change (2 ^ 32) with 4294967296.
  rewrite (N.mod_small (f / 4294967296)) by lia. lia.
Qed.

Lemma setbit_bound f : f < U64 -> N.setbit f 5 < U64.
Proof.
  intros H. rewrite N.setbit_spec'. change (2 ^ 5) with 32.
  change U64 with (2 ^ 64) in *. destruct (N.eq_dec (N.lor f 32) 0) as [->|Ne]; [reflexivity|].
  apply N.log2_lt_pow2; [lia|]. rewrite N.log2_lor. change (N.log2 32) with 5.
  destruct (N.eq_dec f 0) as [->|Nf]; [cbn; lia|].
  apply N.max_lub_lt; [|lia]. apply N.log2_lt_pow2; lia.
Qed.

Lemma setbit32_bound f : f < U32 -> N.setbit f 0 < U32.
Proof.
  intros H. rewrite N.setbit_spec'. change (2 ^ 0) with 1.
  change U32 with (2 ^ 32) in *. destruct (N.eq_dec (N.lor f 1) 0) as [->|Ne]; [reflexivity|].
  apply N.log2_lt_pow2; [lia|]. rewrite N.log2_lor. change (N.log2 1) with 0.
  destruct (N.eq_dec f 0) as [->|Nf]; [cbn; lia|].
  apply N.max_lub_lt; [|lia]. apply N.log2_lt_pow2; lia.
Qed.

Lemma build_flags opts : forall r f,
  Forall server_opt_ok opts -> f < U64 -> FuseInit_flags r = f ->
  FuseInit_flags (fold_left (fun s o => server_opt_call o s) opts r) = configured_flags opts f /\
  configured_flags opts f < U64.
Proof.
  induction opts as [|o opts IH]; intros r f Ho Hf Hr; cbn [fold_left configured_flags]; auto.
  inversion Ho as [|? ? Ho1 Ho2]; subst. destruct o; try (apply IH; auto; fail); cbn [server_opt_call].
  - unfold FuseServer_max_write. destruct (4096 <? n).
    + apply IH; auto; [now apply setbit_bound|].
      unfold FuseServer_update_flags. rewrite flags_round_trip; [reflexivity|].
      apply setbit_bound. exact Hf.
    + apply IH; auto.
  - cbn in Ho1. apply IH; auto.
    unfold FuseServer_update_flags. now rewrite flags_round_trip by auto.
Qed.

(** What a server with these options answers an INIT request: the values
    given last, and no flag that was not both offered and configured. *)
Definition server_answer (opts : list server_opt) (i : FuseInitRequest) : list init_op :=
  let last pick := last_set pick opts 0 in
  [SetCongestionThreshold (last (fun o => match o with OptCongestionThreshold n => Some n | _ => None end));
   SetMaxBackground (last (fun o => match o with OptMaxBackground n => Some n | _ => None end));
   SetMaxReadahead (last (fun o => match o with OptMaxReadahead n => Some n | _ => None end));
   SetMaxWrite (last (fun o => match o with OptMaxWrite n => Some n | _ => None end));
   SetTimeGranularity (last (fun o => match o with OptTimeGranularity n => Some n | _ => None end));
   SetFlags (N.land (fi_flags i) (configured_flags opts 0))].

Lemma last_set_bound {O} (pick : O -> option N) (ok : O -> Prop) b ops : forall d,
  Forall ok ops -> (forall o n, ok o -> pick o = Some n -> n < b) -> d < b -> last_set pick ops d < b.
Proof.
  induction ops as [|o ops IH]; intros d Ho Hp Hd; cbn [last_set]; auto.
  inversion Ho; subst. apply IH; auto. destruct (pick o) eqn:Eo; eauto.
Qed.

Lemma land_bound a b n : b < 2 ^ n -> N.land a b < 2 ^ n.
Proof.
  intros H. destruct (N.eq_dec (N.land a b) 0) as [->|Ne]; [pose proof (N.pow_nonzero 2 n); lia|].
  destruct (N.eq_dec n 0) as [->|Nn].
  { change (2 ^ 0) with 1 in *. assert (b = 0) by lia. subst. now rewrite N.land_0_r in Ne. }
  apply N.log2_lt_pow2; [lia|].
  eapply N.le_lt_trans; [apply N.log2_land|].
  assert (b <> 0) by (intros ->; now rewrite N.land_0_r in Ne).
  eapply N.le_lt_trans; [apply N.le_min_r|]. apply N.log2_lt_pow2; lia.
Qed.

Lemma server_answer_ok opts i : Forall server_opt_ok opts -> Forall init_op_ok (server_answer opts i).
Proof.
  intros Ho. unfold server_answer.
  repeat constructor; cbn;
    try (apply (last_set_bound _ server_opt_ok); auto; try reflexivity;
         intros o n Hn Ep; destruct o; try discriminate; injection Ep as <-; exact Hn).
  change U64 with (2 ^ 64). apply land_bound.
  exact (proj2 (build_flags opts FuseInit_new 0 Ho eq_refl eq_refl)).
Qed.

Lemma server_init_fn opts s i r :
  Forall server_opt_ok opts ->
  FuseServer_init_fn (build_server opts) s i r =
  fuse_callback (fun s i => (s, server_answer opts i)) s i r.
Proof.
  intros Ho. unfold FuseServer_init_fn, fuse_callback, server_answer, build_server.
  destruct (build_flags opts FuseServer_new 0 Ho eq_refl eq_refl) as [F _].
  cbn [fold_left init_call]. f_equal. rewrite F.
  rewrite (calls_field server_opt_call io_congestion_threshold
    (fun o => match o with OptCongestionThreshold n => Some n | _ => None end))
    by (intros [] ?; cbn; auto; unfold FuseServer_max_write; destruct (4096 <? n); reflexivity).
  rewrite (calls_field server_opt_call io_max_background
    (fun o => match o with OptMaxBackground n => Some n | _ => None end))
    by (intros [] ?; cbn; auto; unfold FuseServer_max_write; destruct (4096 <? n); reflexivity).
  rewrite (calls_field server_opt_call io_max_readahead
    (fun o => match o with OptMaxReadahead n => Some n | _ => None end))
    by (intros [] ?; cbn; auto; unfold FuseServer_max_write; destruct (4096 <? n); reflexivity).
  rewrite (calls_field server_opt_call io_max_write
    (fun o => match o with OptMaxWrite n => Some n | _ => None end))
    by (intros [] ?; cbn; auto; unfold FuseServer_max_write; destruct (4096 <? n); reflexivity).
  rewrite (calls_field server_opt_call io_time_gran
    (fun o => match o with OptTimeGranularity n => Some n | _ => None end))
    by (intros [] ?; cbn; auto; unfold FuseServer_max_write; destruct (4096 <? n); reflexivity).
  reflexivity.
Qed.

Lemma connect_loop_ext {I R S} tf (ver : I -> Version) sv (nr nr' : S -> I -> S * R) rej snd_ xs :
  (forall s i, nr s i = nr' s i) -> forall buf s,
  connect_loop tf ver sv nr rej snd_ xs buf s = connect_loop tf ver sv nr' rej snd_ xs buf s.
Proof.
  intros H. induction xs as [|x xs IH]; intros buf s; cbn [connect_loop]; auto.
  destruct (x_recv x); auto. destruct (recv_into buf msg) as [buf' n].
  match goal with |- context [match ?e with Ret _ => _ | _ => _ end] => destruct e as [[rq i]| | |]; auto end.
  unfold handshake. rewrite H. destruct (negotiate_version (ver i)).
  - destruct (nr' s i) as [s' r]. destruct (header_request_id rq); auto.
  - destruct (header_request_id rq); auto. destruct (snd_ a _); auto. destruct (x_send x); auto.
    now rewrite IH.
Qed.

Theorem C31_fuse_server usize_max opts xs :
  Forall server_opt_ok opts ->
  let '(es, r) := FuseServer_connect usize_max (build_server opts) xs in
  exists os, seen es os /\
    dialogue read_init fi_version (fun s i => (s, server_answer opts i)) init_reads SetVersion
      fuse_rejection (fuse_connected usize_max) tt xs os r.
Proof.
  intros Ho. unfold FuseServer_connect, FuseConnection_connect.
  rewrite (connect_loop_ext _ _ _ _
    (fun s req => fuse_callback (fun s i => (s, server_answer opts i)) s req FuseInit_new))
    by (intros; now apply server_init_fn).
  exact (C30_fuse usize_max (fun s i => (s, server_answer opts i)) tt xs
    (fun _ i => server_answer_ok opts i Ho)).
Qed.

Lemma testbit_low f k : k < 32 -> N.testbit (f mod 4294967296) k = N.testbit f k.
Proof. intros. change 4294967296 with (2 ^ 32). now apply N.mod_pow2_bits_low. Qed.
Lemma testbit_high f k : N.testbit (f / 4294967296) k = N.testbit f (32 + k).
Proof.
  change 4294967296 with (2 ^ 32). rewrite <- N.shiftr_div_pow2, N.shiftr_spec by lia. f_equal. lia.
Qed.
Lemma testbit_words a b k : a < U32 ->
  N.testbit (a + 4294967296 * b) k = if k <? 32 then N.testbit a k else N.testbit b (k - 32).
Proof.
  intros Ha. rewrite <- lor_words by auto. rewrite N.lor_spec.
  destruct (N.ltb_spec k 32).
  - now rewrite N.shiftl_spec_low, orb_false_r by auto.
  - rewrite N.shiftl_spec_high by lia. rewrite <- (N.mod_small a (2 ^ 32)) at 1 by exact Ha.
    now rewrite N.mod_pow2_bits_high by auto.
Qed.

(** Every flag bit the client reads in the reply. *)
Theorem C31_bits usize_max opts id minor ra flags flags2 xs :
  Forall server_opt_ok opts ->
  is_id id -> minor < U32 -> ra < U32 -> flags < U32 -> flags2 < U32 ->
  let x := {| x_recv := Message (init_message id 7 minor ra flags flags2); x_send := SendOk |} in
  let conf := configured_flags opts 0 in
  exists es p c,
    FuseServer_connect usize_max (build_server opts) (x :: xs) = (es, Finished c) /\
    seen es [Callback _ (init_seen 7 minor ra flags flags2); Sends _ id 0 p] /\
    (5 <= minor -> forall k, k < 32 ->
       N.testbit (u32_at 12 p) k = (6 <=? minor) && N.testbit flags k && N.testbit conf k) /\
    (23 <= minor -> forall k, k < 32 ->
       N.testbit (u32_at 32 p) k = (36 <=? minor) && N.testbit flags2 k && N.testbit conf (32 + k)) /\
    have_setxattr_ext (fc_layout c) = (6 <=? minor) && N.testbit flags 29 && N.testbit conf 29.
Proof.
  intros Ho Iid H2 H3 H4 H5 x conf.
  pose proof (C31_fuse_server usize_max opts (x :: xs) Ho) as D.
  destruct (FuseServer_connect _ _ _) as [es r]. destruct D as (os & So & D).
  destruct (init_message_reads id 7 minor ra flags flags2) as [Rd L]; auto; [reflexivity|].
  assert (T : take 8192 (init_message id 7 minor ra flags flags2) =
              init_message id 7 minor ra flags flags2) by (apply take_all; lia).
  inversion D; subst; cbn [x x_recv x_send] in *;
    try match goal with H : Message _ = Message _ |- _ => injection H as <- end;
    try discriminate;
    match goal with H : read_init (take 8192 _) = _ |- _ => rewrite T, Rd in H end;
    try discriminate;
    match goal with H : inr _ = inr _ |- _ => injection H as <- <- end;
    cbn [init_seen fi_version v_major v_minor] in *; [congruence|].
  match goal with H : (_, _) = (_, _) |- _ => injection H as <- <- end.
  match goal with H : _ /\ fuse_connected _ _ _ |- _ => destruct H as [P Cn] end.
  exists es, p, c. split; [reflexivity|]. split; [exact So|].
  unfold init_reads in P. rewrite last_version in P. cbn [v_major v_minor] in P.
  unfold fuse_connected in Cn. rewrite last_version in Cn.
  set (fl := last_set (fun o => match o with SetFlags f => Some f | _ => None end) _ 0) in *.
  assert (Fl : fl = N.land (fi_flags (init_seen 7 minor ra flags flags2)) conf) by reflexivity.
  assert (Bits : forall k, N.testbit fl k =
    if k <? 32 then (6 <=? minor) && N.testbit flags k && N.testbit conf k
    else (36 <=? minor) && N.testbit flags2 (k - 32) && N.testbit conf k).
  { intros k. rewrite Fl, N.land_spec. unfold init_seen. cbn [fi_flags].
    change (negb (7 =? 7)) with false. cbn [orb].
    destruct (N.ltb_spec minor 6); cbn [negb].
    { rewrite N.bits_0. destruct (N.leb_spec 6 minor); [lia|]. destruct (N.leb_spec 36 minor); [lia|].
      now destruct (k <? 32). }
    destruct (N.leb_spec 6 minor); [|lia].
    destruct (N.ltb_spec minor 36).
    - destruct (N.leb_spec 36 minor); [lia|]. destruct (N.ltb_spec k 32); [reflexivity|].
      rewrite <- (N.mod_small flags (2 ^ 32)) by exact H4.
      now rewrite N.mod_pow2_bits_high by auto.
    - destruct (N.leb_spec 36 minor); [|lia]. rewrite testbit_words by auto.
      destruct (N.ltb_spec k 32); reflexivity. }
  destruct P as (_ & _ & _ & P5 & P23). destruct Cn as (_ & Cn & _).
  split; [|split].
  - intros M k Hk. destruct P5 as (_ & -> & _); [lia|]. rewrite testbit_low by auto. rewrite Bits.
    now destruct (N.ltb_spec k 32); [|lia].
  - intros M k Hk. destruct P23 as (_ & -> & _); [lia|]. rewrite testbit_high, Bits.
    destruct (N.ltb_spec (32 + k) 32); [lia|]. do 3 f_equal. lia.
  - rewrite Cn, Bits. reflexivity.
Qed.

Lemma cuse_build opts : forall c,
  Forall cuse_opt_ok opts -> cs_flags c < U32 -> cs_max_read c < U32 -> cs_max_write c < U32 ->
  let c' := fold_left (fun s o => cuse_opt_call o s) opts c in
  cs_device_name c' = cs_device_name c /\ cs_dev_major c' = cs_dev_major c /\
  cs_dev_minor c' = cs_dev_minor c /\
  cs_flags c' = cuse_configured_flags opts (cs_flags c) /\ cs_flags c' < U32 /\
  cs_max_read c' = last_set (fun o => match o with COptMaxRead n => Some n | _ => None end) opts (cs_max_read c) /\
  cs_max_read c' < U32 /\
  cs_max_write c' = last_set (fun o => match o with COptMaxWrite n => Some n | _ => None end) opts (cs_max_write c) /\
  cs_max_write c' < U32.
Proof.
  induction opts as [|o opts IH]; intros c Ho H1 H2 H3 c'.
  { subst c'. cbn [fold_left]. repeat match goal with |- _ /\ _ => split end; auto. }
  inversion Ho as [|? ? Ho1 Ho2]; subst. subst c'. cbn [fold_left].
  specialize (IH (cuse_opt_call o c) Ho2). cbn [cuse_configured_flags last_set].
  destruct o; cbn [cuse_opt_ok] in Ho1; apply IH; auto.
  - now apply Ho1.
  - cbn [cuse_opt_call CuseServer_enable_unrestricted_ioctl CuseServer_update_flags cs_flags].
    now apply setbit32_bound.
Qed.

(** What a CUSE server answers. *)
Definition cuse_answer (c : CuseServer) (s : unit) (i : CuseInitRequest) : unit * list cuse_init_op :=
  (s, [CSetMaxRead (cs_max_read c); CSetMaxWrite (cs_max_write c);
       CSetFlags (N.land (ci_flags i) (cs_flags c))]).

Lemma CuseServer_connect_eq usize_max c xs :
  CuseServer_connect usize_max c xs =
  CuseConnection_connect usize_max (cs_device_name c) (cs_dev_major c) (cs_dev_minor c)
    (cuse_callback (cuse_answer c)) tt xs.
Proof.
  unfold CuseServer_connect, CuseConnection_connect.
  rewrite (connect_loop_ext _ _ _ _ (fun s req => cuse_callback (cuse_answer c) s req
    (CuseInitResponse_update (CuseInit_set_device_number (cs_dev_major c) (cs_dev_minor c))
       (CuseInitResponse_new (cs_device_name c))))); [reflexivity|].
  intros s i. reflexivity.
Qed.

(** The same for CUSE. *)
Theorem C31_cuse usize_max name dma dmi opts id minor flags xs :
  Forall cuse_opt_ok opts ->
  nlen name <= 4294967000 -> dma < U32 -> dmi < U32 ->
  is_id id -> minor < U32 -> flags < U32 ->
  let x := {| x_recv := Message (cuse_init_message id 7 minor flags); x_send := SendOk |} in
  exists es p c i,
    CuseServer_connect usize_max (build_cuse_server name dma dmi opts) (x :: xs) = (es, Finished c) /\
    seen es [Callback _ i; Sends _ id 0 p] /\
    (forall k, N.testbit (u32_at 12 p) k =
       N.testbit flags k && N.testbit (cuse_configured_flags opts 0) k) /\
    u32_at 16 p = last_set (fun o => match o with COptMaxRead n => Some n | _ => None end) opts 0 /\
    u32_at 20 p = last_set (fun o => match o with COptMaxWrite n => Some n | _ => None end) opts 0 /\
    u32_at 24 p = dma /\ u32_at 28 p = dmi.
Proof.
  intros Ho Hn Hd1 Hd2 Iid H2 H3 x.
  pose proof (cuse_build opts (CuseServer_new name dma dmi) Ho eq_refl eq_refl eq_refl) as B.
  cbv zeta in B. fold (build_cuse_server name dma dmi opts) in B.
  cbn [CuseServer_new cs_device_name cs_dev_major cs_dev_minor cs_flags cs_max_read cs_max_write] in B.
  generalize dependent (build_cuse_server name dma dmi opts). intros sv B.
  destruct B as (B1 & B2 & B3 & B4 & B5 & B6 & B7 & B8 & B9).
  assert (Hcb : forall s i, Forall cuse_init_op_ok (snd (cuse_answer sv s i))).
  { intros s i. cbn. repeat constructor; cbn; auto.
    change U32 with (2 ^ 32). apply land_bound. exact B5. }
  pose proof (C30_cuse usize_max name dma dmi (cuse_answer sv) tt (x :: xs) Hn Hd1 Hd2 Hcb) as D'.
  rewrite CuseServer_connect_eq, B1, B2, B3.
  destruct (CuseConnection_connect _ _ _ _ _ _ _) as [es r].
  destruct D' as (os & So & D').
  destruct (cuse_init_message_reads id 7 minor flags) as [Rd L]; auto; [reflexivity|].
  assert (T : take 8192 (cuse_init_message id 7 minor flags) =
              cuse_init_message id 7 minor flags) by (apply take_all; lia).
  inversion D'; subst; cbn [x x_recv x_send] in *;
    try match goal with H : Message _ = Message _ |- _ => injection H as <- end;
    try discriminate;
    match goal with H : read_cuse_init (take 8192 _) = _ |- _ => rewrite T, Rd in H end;
    try discriminate;
    match goal with H : inr _ = inr _ |- _ => injection H as <- <- end;
    cbn [ci_version v_major v_minor] in *; [congruence|].
  match goal with H : with_device _ _ _ _ _ = _ |- _ => cbn in H; injection H as <- <- end.
  match goal with H : _ /\ cuse_connected _ _ _ |- _ => destruct H as [P _] end.
  exists es, p, c. eexists. split; [reflexivity|]. split; [exact So|].
  unfold cuse_init_reads in P. cbn [last_set app ci_flags] in P.
  destruct P as (_ & _ & P12 & P16 & P20 & P24 & _).
  rewrite P12, P16, P20, <- B6, <- B8. rewrite <- B4.
  injection P24 as P24 P28.
  split; [intros k; apply N.land_spec|]. auto.
Qed.


(** ** C32, C36 *)

Lemma finished_dialogue {I S OP C} read version (callback : S -> I -> S * list OP)
    reads set_version rejection (connected : list OP -> C -> Prop) s xs os r c :
  dialogue read version callback reads set_version rejection connected s xs os r ->
  r = Finished c ->
  exists pre i id p ops s0 s',
    Forall is_send pre /\ os = pre ++ [Callback I i; Sends I id 0 p] /\
    callback s0 i = (s', ops) /\
    let ops := ops ++ [set_version {| v_major := 7; v_minor := N.min (v_minor (version i)) 36 |}] in
    reads p ops /\ connected ops c.
Proof.
  induction 1; try discriminate.
  - intros Hr. destruct (IHdialogue Hr) as (pre & i' & id' & p' & ops & s0 & s' & Fp & -> & rest).
    exists (Sends I id 0 p :: pre), i', id', p', ops, s0, s'. split; [now constructor|].
    split; [reflexivity|exact rest].
  - intros [= ->]. exists [], i, id, p, ops, s, s'. split; [constructor|]. auto.
Qed.

(** The longest WRITE message: 80 bytes of headers and the data. *)
Lemma nlen_write cf hd fh offset wf_ lo fl pad data :
  nlen (encode cf hd (OWrite fh offset wf_ lo fl pad data)) <= 80 + nlen data.
Proof.
  unfold encode, op_body. cbn [op_fields op_tail]. rewrite !nlen_app, !nlen_wire.
  destruct (cf_minor cf <? 9); cbn; lia.
Qed.

(** After a handshake the receive buffer holds every WRITE message with as
    much data as the INIT reply allowed, and at least one page of data.
    [usize_max] is at least 2^32+4095 on 64-bit targets. *)
Theorem C32_fuse {S} usize_max (cb : S -> FuseInitRequest -> S * list init_op) s xs es c :
  (forall s i, Forall init_op_ok (snd (cb s i))) ->
  FuseConnection_connect usize_max (fuse_callback cb) s xs = (es, Finished c) ->
  exists pre i id p,
    seen es (pre ++ [Callback _ i; Sends _ id 0 p]) /\
    (let max_write := if u32_at 4 p <? 5 then 4096 else N.max 4096 (u32_at 20 p) in
     8192 <= fc_recv_buf_len c <= N.max 8192 usize_max /\
     (4096 + max_write <= usize_max ->
      forall cf hd fh offset wf_ lo fl pad data,
      nlen data <= max_write ->
      nlen (encode cf hd (OWrite fh offset wf_ lo fl pad data)) <= fc_recv_buf_len c)).
Proof.
  intros Hcb Hc. pose proof (C30_fuse usize_max cb s xs Hcb) as D. rewrite Hc in D.
  destruct D as (os & So & D).
  destruct (finished_dialogue _ _ _ _ _ _ _ _ _ _ _ _ D eq_refl)
    as (pre & i & id & p & ops & s0 & s' & Fp & -> & _ & P & Cn).
  exists pre, i, id, p. split; [exact So|]. cbv zeta.
  unfold init_reads in P. unfold fuse_connected in Cn. rewrite last_version in P, Cn.
  cbn [v_major v_minor] in P, Cn. destruct P as (_ & _ & P4 & P5 & _). destruct Cn as (_ & _ & ->).
  set (mw := last_set _ _ 0) in *.
  split; [lia|]. intros Hu cf hd fh offset wf_ lo fl pad data Hd.
  pose proof (nlen_write cf hd fh offset wf_ lo fl pad data).
  rewrite P4 in *. destruct (N.ltb_spec (N.min (v_minor (fi_version i)) 36) 5).
  - lia.
  - destruct P5 as (_ & _ & _ & _ & P20); auto. rewrite P20 in *. lia.
Qed.

Theorem C32_cuse {S} usize_max name dma dmi (cb : S -> CuseInitRequest -> S * list cuse_init_op) s xs es c :
  nlen name <= 4294967000 -> dma < U32 -> dmi < U32 ->
  (forall s i, Forall cuse_init_op_ok (snd (cb s i))) ->
  CuseConnection_connect usize_max name dma dmi (cuse_callback cb) s xs = (es, Finished c) ->
  exists pre i id p,
    seen es (pre ++ [Callback _ i; Sends _ id 0 p]) /\
    cl_version_minor (cc_layout c) = u32_at 4 p /\
    8192 <= cc_recv_buf_len c <= N.max 8192 usize_max /\
    (4096 + N.max 4096 (u32_at 20 p) <= usize_max ->
     forall cf hd fh offset wf_ lo fl pad data,
     nlen data <= N.max 4096 (u32_at 20 p) ->
     nlen (encode cf hd (OWrite fh offset wf_ lo fl pad data)) <= cc_recv_buf_len c).
Proof.
  intros Hn H1 H2 Hcb Hc. pose proof (C30_cuse usize_max name dma dmi cb s xs Hn H1 H2 Hcb) as D.
  rewrite Hc in D. destruct D as (os & So & D).
  destruct (finished_dialogue _ _ _ _ _ _ _ _ _ _ _ _ D eq_refl)
    as (pre & i & id & p & ops & s0 & s' & Fp & -> & _ & P & Cn).
  exists pre, i, id, p. split; [exact So|].
  unfold cuse_init_reads in P. unfold cuse_connected in Cn. rewrite cuse_last_version in P, Cn.
  cbn [v_major v_minor] in P, Cn. destruct P as (_ & P4 & _ & _ & P20 & _). destruct Cn as (-> & ->).
  rewrite P4, P20. set (mw := last_set _ _ 0) in *.
  split; [reflexivity|]. split; [lia|]. intros Hu cf hd fh offset wf_ lo fl pad data Hd.
  pose proof (nlen_write cf hd fh offset wf_ lo fl pad data). lia.
Qed.

(** The layout of the session is what the INIT reply said. *)
Theorem C36_session {S} usize_max (cb : S -> FuseInitRequest -> S * list init_op) s xs es c :
  (forall s i, Forall init_op_ok (snd (cb s i))) ->
  FuseConnection_connect usize_max (fuse_callback cb) s xs = (es, Finished c) ->
  exists pre i id p,
    seen es (pre ++ [Callback _ i; Sends _ id 0 p]) /\
    fl_version_minor (fc_layout c) = u32_at 4 p /\
    u32_at 4 p <= 36 /\ u32_at 4 p <= v_minor (fi_version i) /\
    (5 <= u32_at 4 p -> have_setxattr_ext (fc_layout c) = N.testbit (u32_at 12 p) 29).
Proof.
  intros Hcb Hc. pose proof (C30_fuse usize_max cb s xs Hcb) as D. rewrite Hc in D.
  destruct D as (os & So & D).
  destruct (finished_dialogue _ _ _ _ _ _ _ _ _ _ _ _ D eq_refl)
    as (pre & i & id & p & ops & s0 & s' & Fp & -> & _ & P & Cn).
  exists pre, i, id, p. split; [exact So|].
  unfold init_reads in P. unfold fuse_connected in Cn. rewrite last_version in P, Cn.
  cbn [v_major v_minor] in P, Cn. destruct P as (_ & _ & P4 & P5 & _). destruct Cn as (-> & -> & _).
  rewrite P4. split; [reflexivity|]. split; [lia|]. split; [lia|].
  intros M. destruct (P5 M) as (_ & -> & _). now rewrite testbit_low.
Qed.

(** The public constructors of layouts. *)
Theorem C36_fuse_layout r :
  (io_major r = 7 /\ io_minor r <= 36 ->
   exists l, FuseLayout_new r = Some l /\ fl_version_minor l = io_minor r /\
     have_setxattr_ext l = N.testbit (io_flags r) 29) /\
  (io_major r <> 7 \/ 36 < io_minor r -> FuseLayout_new r = None).
Proof.
  unfold FuseLayout_new, FUSE_KERNEL_VERSION, FUSE_KERNEL_MINOR_VERSION. split.
  - intros [Ma Mi]. rewrite Ma. cbn [N.eqb Pos.eqb negb].
    destruct (N.ltb_spec 36 (io_minor r)); [lia|].
    eexists. split; [reflexivity|]. unfold FuseLayout_new2, have_setxattr_ext.
    cbn [fl_version_minor fl_features]. rewrite flag_29. split; [unfold wrap16; lia|].
    now destruct (N.testbit (io_flags r) 29).
  - intros H. destruct (N.eqb_spec (io_major r) 7); [|reflexivity]. cbn [negb].
    destruct (N.ltb_spec 36 (io_minor r)); [reflexivity|lia].
Qed.

Theorem C36_cuse_layout r :
  (co_major r = 7 /\ co_minor r <= 36 ->
   exists l, CuseLayout_new r = Some l /\ cl_version_minor l = co_minor r) /\
  (co_major r <> 7 \/ 36 < co_minor r -> CuseLayout_new r = None).
Proof.
  unfold CuseLayout_new, FUSE_KERNEL_VERSION, FUSE_KERNEL_MINOR_VERSION. split.
  - intros [Ma Mi]. rewrite Ma. cbn [N.eqb Pos.eqb negb].
    destruct (N.ltb_spec 36 (co_minor r)); [lia|].
    eexists. split; [reflexivity|]. cbn. unfold wrap16. lia.
  - intros H. destruct (N.eqb_spec (co_major r) 7); [|reflexivity]. cbn [negb].
    destruct (N.ltb_spec 36 (co_minor r)); [reflexivity|lia].
Qed.

(** ** C33 *)

Lemma header_opcode_eq buf rq :
  Request_new buf = Ret rq -> header_opcode rq = Ret (u32_at 4 buf) /\
  header_request_id rq = Ret (u64_at 8 buf) /\ is_id (u64_at 8 buf).
Proof.
  intros H. destruct (Request_new_accepted _ _ H) as [-> (A & B & C)]. cbn [rq_mem] in *.
  unfold header_opcode, header_request_id, raw_header, IN_HEADER_SIZE. cbn [rq_mem].
  rewrite mem_read_ok by lia. cbn [bind]. unfold hdr_opcode, hdr_unique.
  rewrite hdr_rd32, hdr_rd64 by lia. cbn [bind]. unfold nonzero_unchecked.
  destruct (N.eqb_spec (u64_at 8 buf) 0); [contradiction|].
  repeat split; auto; [lia|apply u64_bound].
Qed.

Lemma match_arms_default {A} (arms : list (N * A)) d x :
  Forall (fun a => fst a <> x) arms -> match_arms arms d x = d.
Proof.
  induction 1 as [|[k a] r H Hr IH]; cbn [match_arms]; auto.
  cbn in H. destruct (N.eqb_spec x k); [congruence|exact IH].
Qed.

Lemma up_to (n : nat) x : x < N.of_nat n -> In x (map N.of_nat (seq 0 n)).
Proof.
  intros H. apply in_map_iff. exists (N.to_nat x). split; [lia|]. apply in_seq. lia.
Qed.

Lemma route_default x : 63 < x -> fuse_route x = M_unimplemented /\ cuse_route x = CM_unimplemented.
Proof.
  intros H. destruct x as [|p]; [lia|].
  do 6 (destruct p as [p|p|]; [| |split; vm_compute in H |- *; (reflexivity || discriminate)]).
  all: split; reflexivity.
Qed.

Theorem C33_fuse buf rq :
  Request_new buf = Ret rq -> FuseHandlers_dispatch rq = Ret (fuse_route (u32_at 4 buf)).
Proof.
  intros H. destruct (header_opcode_eq _ _ H) as (Ho & _). unfold FuseHandlers_dispatch.
  rewrite Ho. cbn [bind]. generalize (u32_at 4 buf). intros x.
  destruct (N.ltb_spec x 64) as [L|L].
  - apply (up_to 64) in L. repeat (destruct L as [<-|L]; [reflexivity|]). destruct L.
  - rewrite (proj1 (route_default x ltac:(lia))). unfold FUSE_READ, FUSE_WRITE.
    destruct (N.eqb_spec x 15); [lia|]. destruct (N.eqb_spec x 16); [lia|].
    f_equal. apply match_arms_default. repeat constructor; cbn;
      match goal with |- ?k <> _ => let k' := eval vm_compute in k in change k with k' end; lia.
Qed.

Theorem C33_cuse buf rq :
  Request_new buf = Ret rq -> CuseHandlers_dispatch rq = Ret (cuse_route (u32_at 4 buf)).
Proof.
  intros H. destruct (header_opcode_eq _ _ H) as (Ho & _). unfold CuseHandlers_dispatch.
  rewrite Ho. cbn [bind]. generalize (u32_at 4 buf). intros x.
  destruct (N.ltb_spec x 64) as [L|L].
  - apply (up_to 64) in L. repeat (destruct L as [<-|L]; [reflexivity|]). destruct L.
  - rewrite (proj2 (route_default x ltac:(lia))). unfold FUSE_READ, FUSE_WRITE.
    destruct (N.eqb_spec x 15); [lia|]. destruct (N.eqb_spec x 16); [lia|].
    f_equal. apply match_arms_default. repeat constructor; cbn;
      match goal with |- ?k <> _ => let k' := eval vm_compute in k in change k with k' end; lia.
Qed.

(** ** C35 *)

Lemma refused buf : ~ acceptable buf -> Request_new buf = Fail (why_refused buf).
Proof.
  unfold acceptable, why_refused. rewrite Request_new_eq. intros H.
  pose proof (u32_bound 0 buf) as B. unfold U32 in B.
  destruct (N.ltb_spec (nlen buf) 40).
  { destruct (N.leb_spec 40 (nlen buf)); [lia|reflexivity]. }
  destruct (N.leb_spec 40 (nlen buf)); [|lia].
  destruct (N.eqb_spec (u64_at 8 buf) 0); [reflexivity|]. cbn [andb].
  destruct (N.ltb_spec (N.min (nlen buf) u32_max) (u32_at 0 buf)) as [L|L]; [reflexivity|].
  unfold u32_max in L. lia.
Qed.
Lemma not_refused buf : acceptable buf -> Request_new buf = Ret {| rq_mem := buf |}.
Proof.
  unfold acceptable. rewrite Request_new_eq. intros (A & B & C).
  pose proof (u32_bound 0 buf) as Bd. unfold U32 in Bd.
  destruct (N.ltb_spec (nlen buf) 40); [lia|].
  destruct (N.eqb_spec (u64_at 8 buf) 0); [lia|].
  destruct (N.ltb_spec (N.min (nlen buf) u32_max) (u32_at 0 buf)) as [L|L]; [|reflexivity].
  unfold u32_max in L. lia.
Qed.

Lemma acceptable_dec m : acceptable m \/ ~ acceptable m.
Proof. unfold acceptable. lia. Qed.

(** How a serve loop of a FUSE connection ends: waiting, when the connection
    is closed, at the first other receive error, or at the first message it
    does not accept. *)
Definition fuse_ends (n : N) (rest : list recv_event) (r : result unit) : Prop :=
  match rest with
  | [] => r = Waiting
  | RecvFails (RE_ConnectionClosed _) :: _ => r = Finished tt
  | RecvFails (RE_Other e) :: _ => r = Failed (SrvRecv (RE_Other e))
  | Message m :: _ =>
    ~ acceptable (take n m) /\ r = Failed (SrvRequest (why_refused (take n m)))
  end.
Definition cuse_ends (n : N) (rest : list recv_event) (r : result unit) : Prop :=
  match rest with
  | [] => r = Waiting
  | RecvFails e :: _ => r = Failed (SrvRecv e)
  | Message m :: _ =>
    ~ acceptable (take n m) /\ r = Failed (SrvRequest (why_refused (take n m)))
  end.

(** [buf] is the receive buffer, of any length and content. *)
Theorem C35_fuse evs : forall buf,
  let '(dispatched, r) := fuse_serve_local evs buf in
  exists msgs rest, evs = map Message msgs ++ rest /\
    Forall (fun m => acceptable (take (nlen buf) m)) msgs /\
    dispatched = map (fun m => {| rq_mem := take (nlen buf) m |}) msgs /\
    fuse_ends (nlen buf) rest r.
Proof.
  induction evs as [|ev evs IH]; intros buf; cbn [fuse_serve_local].
  { exists [], []. repeat split. constructor. }
  destruct ev as [m|[e|e]].
  - unfold recv_request. pose proof (received buf m) as Rv. destruct (recv_into buf m) as [buf' n].
    destruct Rv as [-> Lb].
    destruct (acceptable_dec (take (nlen buf) m)) as [A|A].
    + rewrite not_refused by auto. specialize (IH buf'). destruct (fuse_serve_local evs buf') as [l r].
      destruct IH as (msgs & rest & -> & Fm & -> & En). rewrite Lb in *.
      exists (m :: msgs), rest. repeat split; auto.
    + rewrite refused by auto. exists [], (Message m :: evs).
      split; [reflexivity|]. split; [constructor|]. split; [reflexivity|]. now split.
  - exists [], (RecvFails (RE_ConnectionClosed e) :: evs). repeat split. constructor.
  - exists [], (RecvFails (RE_Other e) :: evs). repeat split. constructor.
Qed.

Theorem C35_cuse evs : forall buf,
  let '(dispatched, r) := cuse_serve_local evs buf in
  (exists msgs rest, evs = map Message msgs ++ rest /\
    Forall (fun m => acceptable (take (nlen buf) m)) msgs /\
    dispatched = map (fun m => {| rq_mem := take (nlen buf) m |}) msgs /\
    cuse_ends (nlen buf) rest r) /\
  r <> Finished tt.
Proof.
  induction evs as [|ev evs IH]; intros buf; cbn [cuse_serve_local].
  { split; [|discriminate]. exists [], []. repeat split. constructor. }
  destruct ev as [m|e].
  - unfold recv_request. pose proof (received buf m) as Rv. destruct (recv_into buf m) as [buf' n].
    destruct Rv as [-> Lb].
    destruct (acceptable_dec (take (nlen buf) m)) as [A|A].
    + rewrite not_refused by auto. specialize (IH buf'). destruct (cuse_serve_local evs buf') as [l r].
      destruct IH as [(msgs & rest & -> & Fm & -> & En) Nf]. rewrite Lb in *. split; [|exact Nf].
      exists (m :: msgs), rest. repeat split; auto.
    + rewrite refused by auto. split; [|discriminate]. exists [], (Message m :: evs).
      split; [reflexivity|]. split; [constructor|]. split; [reflexivity|]. now split.
  - split; [|discriminate]. exists [], (RecvFails e :: evs). repeat split. constructor.
Qed.

(** ** C34 *)

(** The replies expected to a list of messages. *)
Definition expected_replies (error : Z) (one_way : N -> bool) (msgs : list bytes) : list (N * Z * bytes) :=
  flat_map (fun m => if one_way (u32_at 4 m) then [] else [(u64_at 8 m, error, [])]) msgs.

Lemma error_call minor id error :
  is_id id -> is_i32 error -> carries [answer_call minor id (AErr error)] [(id, error, [])].
Proof.
  intros Hid He. destruct (C20_error_reply minor id error Hid He) as ((b & m & -> & W & L & K) & _).
  econstructor; eauto. constructor.
Qed.

Lemma one_way_route x :
  fuse_user_method (fun m => match m with M_unimplemented => true | _ => false end) (fuse_route x) =
  if one_way x then None else Some M_unimplemented.
Proof.
  destruct (N.ltb_spec x 64) as [L|L].
  - apply (up_to 64) in L. repeat (destruct L as [<-|L]; [reflexivity|]). destruct L.
  - rewrite (proj1 (route_default x ltac:(lia))). unfold one_way.
    destruct (N.eqb_spec x 2); [lia|]. destruct (N.eqb_spec x 36); [lia|].
    destruct (N.eqb_spec x 42); [lia|]. reflexivity.
Qed.
Lemma cuse_one_way_route x :
  cuse_user_method (fun m => match m with CM_unimplemented => true | _ => false end) (cuse_route x) =
  if x =? 36 then None else Some CM_unimplemented.
Proof.
  destruct (N.ltb_spec x 64) as [L|L].
  - apply (up_to 64) in L. repeat (destruct L as [<-|L]; [reflexivity|]). destruct L.
  - rewrite (proj2 (route_default x ltac:(lia))). destruct (N.eqb_spec x 36); [lia|]. reflexivity.
Qed.

(** One request. *)
Theorem C34_request minor error buf rq :
  Request_new buf = Ret rq -> is_i32 error ->
  exists calls, unimplemented_server minor error rq = Ret calls /\
    carries calls (expected_replies error one_way [buf]).
Proof.
  intros H He. destruct (header_opcode_eq _ _ H) as (_ & Hi & Hid). unfold unimplemented_server.
  rewrite (C33_fuse _ _ H). cbn [bind]. rewrite one_way_route. cbn [expected_replies flat_map].
  destruct (one_way (u32_at 4 buf)).
  - exists []. split; [reflexivity|constructor].
  - rewrite Hi. cbn [bind]. eexists. split; [reflexivity|]. now apply error_call.
Qed.
Theorem C34_cuse_request minor error buf rq :
  Request_new buf = Ret rq -> is_i32 error ->
  exists calls, unimplemented_cuse_server minor error rq = Ret calls /\
    carries calls (expected_replies error (fun x => x =? 36) [buf]).
Proof.
  intros H He. destruct (header_opcode_eq _ _ H) as (_ & Hi & Hid). unfold unimplemented_cuse_server.
  rewrite (C33_cuse _ _ H). cbn [bind]. rewrite cuse_one_way_route. cbn [expected_replies flat_map].
  destruct (u32_at 4 buf =? 36).
  - exists []. split; [reflexivity|constructor].
  - rewrite Hi. cbn [bind]. eexists. split; [reflexivity|]. now apply error_call.
Qed.

Lemma carries_app a b x y : carries a x -> carries b y -> carries (a ++ b) (x ++ y).
Proof. induction 1; intros; cbn; auto. econstructor; eauto. Qed.

(** A whole session. *)
Fixpoint serve_all (f : Request -> out (list send_call)) (rqs : list Request) : out (list send_call) :=
  match rqs with
  | [] => Ret []
  | rq :: rqs => a <- f rq ;; b <- serve_all f rqs ;; Ret (a ++ b)
  end.

Theorem C34_session minor error evs buf :
  is_i32 error ->
  let '(dispatched, r) := fuse_serve_local evs buf in
  exists msgs rest calls,
    evs = map Message msgs ++ rest /\ fuse_ends (nlen buf) rest r /\
    serve_all (unimplemented_server minor error) dispatched = Ret calls /\
    carries calls (expected_replies error one_way (map (take (nlen buf)) msgs)).
Proof.
  intros He. pose proof (C35_fuse evs buf) as H. destruct (fuse_serve_local evs buf) as [l r].
  destruct H as (msgs & rest & -> & Fm & -> & En). exists msgs, rest.
  assert (X : exists calls, serve_all (unimplemented_server minor error)
      (map (fun m => {| rq_mem := take (nlen buf) m |}) msgs) = Ret calls /\
    carries calls (expected_replies error one_way (map (take (nlen buf)) msgs))).
  { clear En. induction Fm as [|m msgs A Fm IH]; cbn [map serve_all].
    - exists []. split; [reflexivity|constructor].
    - destruct IH as (calls & Hc & K).
      destruct (C34_request minor error _ _ (not_refused _ A) He) as (c1 & Hc1 & K1).
      rewrite Hc1, Hc. cbn [bind]. exists (c1 ++ calls). split; [reflexivity|].
      unfold expected_replies in *. cbn [flat_map] in *. rewrite app_nil_r in K1. now apply carries_app. }
  destruct X as (calls & X1 & X2). exists calls. auto.
Qed.

End Server.

(** ** Examples *)

Local Instance LE : Endian := false.

Definition usize64 : N := 18446744073709551615.
Definition ok_msg (m : bytes) : exchange := {| x_recv := Message m; x_send := SendOk |}.

(** A client speaking version 8.1 first, then 7.31 with ASYNC_READ (bit 0),
    BIG_WRITES (bit 5) and SETXATTR_EXT (bit 29), then a LOOKUP that is not
    looked at; the callback counts its calls. *)
Definition demo_xs : list exchange :=
  [ok_msg (init_message 2 8 1 0 0 0);
   ok_msg (init_message 4 7 31 65536 (1 + 32 + 2 ^ 29) 5);
   ok_msg (wire [u32 42; u32 1; u64 6; u64 1; u32 0; u32 0; u32 0; u32 0] ++ [x61; x00])].
Definition demo_cb (n : N) (i : FuseInitRequest) : N * list init_op :=
  (n + 1, [SetMaxWrite 131072; SetFlags (fi_flags i mod U64)]).

Definition client_view (es : list (effect FuseInitRequest)) : list (option message) :=
  map (fun e => match e with
    | InitCalled _ => None
    | Sent b => match on_wire b with Ret m => kernel_read m | _ => None end
    end) es.

Example C30_fuse_example :
  (forall s i, Forall init_op_ok (snd (demo_cb s i))) /\
  let '(es, r) := FuseConnection_connect usize64 (fuse_callback demo_cb) 0 demo_xs in
  r = Finished {| fc_layout := {| fl_version_minor := 31; fl_features := 1 |};
                  fc_recv_buf_len := 135168 |} /\
  match client_view es with
  | [Some (Reply 2 0 p); None; Some (Reply 4 0 q)] =>
    u32_at 0 p = 7 /\ u32_at 4 p = 36 /\ u32_at 4 q = 31 /\ u32_at 20 q = 131072
  | _ => False
  end.
Proof.
  split; [intros s i; repeat constructor; apply N.mod_upper_bound; discriminate|].
  vm_compute. repeat split.
Qed.

(** A bad message, a receive error and a send error during the handshake. *)
Example C30_errors_example :
  snd (FuseConnection_connect usize64 (fuse_callback demo_cb) 0
    [ok_msg (init_message 2 8 1 0 0 0); ok_msg (wire [u32 40; u32 17; u64 6; u64 1; u64 0; u64 0])])
  = Failed (SrvRequest EOpcodeMismatch) /\
  FuseConnection_connect usize64 (fuse_callback demo_cb) 0
    [{| x_recv := RecvFails (RE_Other 5); x_send := SendOk |}] = ([], Failed (SrvRecv (RE_Other 5))) /\
  snd (FuseConnection_connect usize64 (fuse_callback demo_cb) 0
    [{| x_recv := Message (init_message 4 7 31 0 0 0); x_send := SendFails (SE_Other 5) |}])
  = Failed (SrvSend (SE_Other 5)).
Proof. vm_compute. repeat split. Qed.

Definition demo_name : bytes := [x61; x62].
Definition demo_ccb (n : N) (i : CuseInitRequest) : N * list cuse_init_op := (n + 1, [CSetMaxWrite 8192]).
Example C30_cuse_example :
  (forall s i, Forall cuse_init_op_ok (snd (demo_ccb s i))) /\
  let '(es, r) := CuseConnection_connect usize64 demo_name 10 200 (cuse_callback demo_ccb) 0
    [ok_msg (cuse_init_message 3 6 0 0); ok_msg (cuse_init_message 5 7 40 1)] in
  r = Finished {| cc_layout := {| cl_version_minor := 36 |}; cc_recv_buf_len := 12288 |} /\
  length es = 3%nat.
Proof. split; [intros; repeat constructor|]. vm_compute. split; reflexivity. Qed.

Example C30_cuse_name_too_big_example :
  exists name : bytes, 4294967198 < nlen name /\ is_id 5.
Proof.
  exists (repeat x61 (N.to_nat 4294967199)). rewrite nlen_repeat. split; [lia|split; reflexivity].
Qed.

(** Versions: older, newer minor, foreign major. *)
Example C29_fuse_example :
  let reply major minor :=
    match client_view (fst (FuseConnection_connect usize64 (fuse_callback demo_cb) 0
      [ok_msg (init_message 2 major minor 0 0 0)])) with
    | [Some (Reply 2 0 p)] => Some (false, u32_at 0 p, u32_at 4 p)
    | [None; Some (Reply 2 0 p)] => Some (true, u32_at 0 p, u32_at 4 p)
    | _ => None
    end in
  reply 7 12 = Some (true, 7, 12) /\ reply 7 99 = Some (true, 7, 36) /\
  reply 6 12 = Some (false, 7, 36) /\ reply 4294967295 0 = Some (false, 7, 36).
Proof. vm_compute. repeat split. Qed.

Example C29_cuse_example :
  let reply major minor :=
    map (fun e => match e with
      | InitCalled _ => None
      | Sent b => match on_wire b with
        | Ret m => match kernel_read m with
          | Some (Reply 2 0 p) => Some (u32_at 0 p, u32_at 4 p, drop 72 p)
          | _ => None
          end
        | _ => None
        end
      end) (fst (CuseConnection_connect usize64 demo_name 10 200 (cuse_callback demo_ccb) 0
                   [ok_msg (cuse_init_message 2 major minor 0)])) in
  reply 7 12 = [None; Some (7, 12, [x44; x45; x56; x4e; x41; x4d; x45; x3d; x61; x62; x00])] /\
  reply 8 12 = [Some (7, 36, [])].
Proof. vm_compute. split; reflexivity. Qed.

(** The dialogue of [demo_xs]. *)
Definition demo_dialogue os r : Prop :=
  dialogue read_init fi_version demo_cb init_reads SetVersion fuse_rejection (fuse_connected usize64)
    0 demo_xs os r.
Lemma demo_dialogue_holds : exists os r c, demo_dialogue os r /\ r = Finished c.
Proof.
  pose proof (C30_fuse usize64 demo_cb 0 demo_xs (proj1 C30_fuse_example)) as D.
  destruct (FuseConnection_connect _ _ _ _) as [es r] eqn:Hc. destruct D as (os & So & D).
  assert (X : exists c, r = Finished c).
  { change r with (snd (es, r)). rewrite <- Hc. eexists. vm_compute; reflexivity. }
  destruct X as (c & ->). exists os, (Finished c), c. auto.
Qed.
Example C30_callback_once_example : exists os r c, demo_dialogue os r /\ r = Finished c.
Proof. exact demo_dialogue_holds. Qed.
Example C30_ids_example :
  (forall m id i, read_init m = inr (id, i) -> id = u64_at 8 m) /\ exists os r, demo_dialogue os r.
Proof.
  split; [|destruct demo_dialogue_holds as (os & r & c & H1 & _); eauto].
  intros m id i H. unfold read_init in H. destruct (check_message 26 m); [discriminate|].
  destruct (u32_at 0 m <? 48); [discriminate|].
  destruct (u32_at 0 m <? init_need _ _); [discriminate|]. injection H as <- _. reflexivity.
Qed.

(** Offered: bits 0, 5, 29 and 33; configured: bits 0, 1, 33 and, by a large
    max_write, 5. *)
Definition demo_opts : list server_opt :=
  [OptUpdateFlags (fun f => (N.lor f (3 + 2 ^ 33)) mod U64); OptMaxWrite 65536; OptMaxBackground 12].
Example C31_bits_example :
  Forall server_opt_ok demo_opts /\ configured_flags demo_opts 0 = 1 + 2 + 32 + 2 ^ 33 /\
  match client_view (fst (FuseServer_connect usize64 (build_server demo_opts)
      [ok_msg (init_message 2 7 36 0 (1 + 32 + 2 ^ 29) 2)])) with
  | [None; Some (Reply 2 0 p)] =>
    u32_at 12 p = 1 + 32 /\ u32_at 32 p = 2 /\ u32_at 20 p = 65536 /\ u16_at 16 p = 12
  | _ => False
  end.
Proof.
  split; [|vm_compute; repeat split].
  constructor; [|repeat constructor]. cbn. intros x _. apply N.mod_upper_bound. discriminate.
Qed.
Example C31_fuse_server_example :
  exists es c, FuseServer_connect usize64 (build_server demo_opts) demo_xs = (es, Finished c) /\
  have_setxattr_ext (fc_layout c) = false.
Proof. do 2 eexists. split; vm_compute; reflexivity. Qed.
Example C31_cuse_example :
  let opts := [COptUnrestrictedIoctl; COptMaxWrite 4096; COptMaxRead 100] in
  Forall cuse_opt_ok opts /\ cuse_configured_flags opts 0 = 1 /\
  exists es c, CuseServer_connect usize64 (build_cuse_server demo_name 1 2 opts)
    [ok_msg (cuse_init_message 5 7 36 3)] = (es, Finished c).
Proof. repeat split; [repeat constructor|]. do 2 eexists. vm_compute. reflexivity. Qed.

(** A 128 KiB limit needs a buffer of 132 KiB; without one it has 8 KiB. *)
Example C32_fuse_example :
  exists es1 c1 es2 c2,
  FuseConnection_connect usize64 (fuse_callback demo_cb) 0 demo_xs = (es1, Finished c1) /\
  fc_recv_buf_len c1 = 135168 /\
  FuseConnection_connect usize64 (fuse_callback (fun (_ : unit) _ => (tt, []))) tt demo_xs
    = (es2, Finished c2) /\ fc_recv_buf_len c2 = 8192.
Proof. do 4 eexists. repeat match goal with |- _ /\ _ => split end; vm_compute; reflexivity. Qed.
Example C32_cuse_example :
  exists es c, CuseConnection_connect usize64 demo_name 10 200 (cuse_callback demo_ccb) 0
    [ok_msg (cuse_init_message 5 7 40 1)] = (es, Finished c) /\ cc_recv_buf_len c = 12288.
Proof. do 2 eexists. split; vm_compute; reflexivity. Qed.

(** On a 32-bit target the buffer cannot cover the largest [max_write]. *)
Theorem C32_32bit_refuted :
  exists (cb : unit -> FuseInitRequest -> unit * list init_op) max_write,
  (forall s i, snd (cb s i) = [SetMaxWrite max_write]) /\ max_write < U32 /\
  match snd (FuseConnection_connect 4294967295 (fuse_callback cb) tt demo_xs) with
  | Finished c => fc_recv_buf_len c < 80 + max_write
  | _ => False
  end.
Proof.
  exists (fun _ _ => (tt, [SetMaxWrite 4294967295])), 4294967295.
  split; [reflexivity|]. split; vm_compute; reflexivity.
Qed.

Example C36_session_example :
  exists es c, FuseConnection_connect usize64 (fuse_callback demo_cb) 0 demo_xs = (es, Finished c) /\
  fl_version_minor (fc_layout c) = 31 /\ have_setxattr_ext (fc_layout c) = true.
Proof. do 2 eexists. repeat match goal with |- _ /\ _ => split end; vm_compute; reflexivity. Qed.
Example C36_fuse_layout_example :
  let r major minor := FuseInit_set_flags (2 ^ 29)
    (FuseInit_set_version {| v_major := major; v_minor := minor |} FuseInit_new) in
  FuseLayout_new (r 7 33) = Some {| fl_version_minor := 33; fl_features := 1 |} /\
  FuseLayout_new (r 7 37) = None /\ FuseLayout_new (r 8 0) = None.
Proof. repeat split. Qed.
Example C36_cuse_layout_example :
  let r major minor := CuseInit_set_version {| v_major := major; v_minor := minor |} cuse_init_out_new in
  CuseLayout_new (r 7 12) = Some {| cl_version_minor := 12 |} /\
  CuseLayout_new (r 7 37) = None /\ CuseLayout_new (r 8 0) = None.
Proof. repeat split. Qed.

(** Old clients (before 7.5) get no flags in the INIT reply; a callback that
    grants SETXATTR_EXT all the same changes the layout of the session. *)
Theorem C36_old_client_refuted :
  exists cb : unit -> FuseInitRequest -> unit * list init_op,
  (forall s i, Forall init_op_ok (snd (cb s i))) /\
  let '(es, r) :=
    FuseConnection_connect usize64 (fuse_callback cb) tt [ok_msg (init_message 4 7 4 0 0 0)] in
  match r, client_view es with
  | Finished c, [None; Some (Reply 4 0 p)] =>
    have_setxattr_ext (fc_layout c) = true /\ nlen p = 8
  | _, _ => False
  end.
Proof.
  exists (fun _ _ => (tt, [SetFlags (2 ^ 29)])).
  split; [intros; repeat constructor|]. vm_compute. split; reflexivity.
Qed.

Definition opcode_msg (opcode id : N) : bytes :=
  wire [u32 40; u32 opcode; u64 id; u64 1; u32 0; u32 0; u32 0; u32 0].
Example C33_fuse_example :
  let d op := rq <- Request_new (opcode_msg op 9) ;; FuseHandlers_dispatch rq in
  d 1 = Ret M_lookup /\ d 42 = Ret M_batch_forget /\ d 26 = Ret M_unimplemented /\
  d 7 = Ret M_unimplemented /\ d 4294967295 = Ret M_unimplemented.
Proof. vm_compute. repeat split. Qed.
Example C33_cuse_example :
  let d op := rq <- Request_new (opcode_msg op 9) ;; CuseHandlers_dispatch rq in
  d 15 = Ret CM_read /\ d 1 = Ret CM_unimplemented /\ d 4096 = Ret CM_unimplemented.
Proof. vm_compute. repeat split. Qed.

(** LOOKUP, FORGET, INIT, INTERRUPT, an unknown opcode, then the connection is
    closed; a later message is not looked at. *)
Definition demo_history : list recv_event :=
  map Message [opcode_msg 1 3; opcode_msg 2 4; opcode_msg 26 5; opcode_msg 36 6; opcode_msg 999 7]
  ++ [RecvFails (RE_ConnectionClosed 19); Message (opcode_msg 1 8)].
Example C34_session_example :
  let '(dispatched, r) := fuse_serve_local demo_history (repeat xff 100) in
  r = Finished tt /\
  match serve_all (unimplemented_server 36 (-38)) dispatched with
  | Ret calls => map (fun c => match c with
      | Call b => match on_wire b with Ret m => kernel_read m | _ => None end
      | _ => None end) calls
      = [Some (Reply 3 (-38) []); Some (Reply 5 (-38) []); Some (Reply 7 (-38) [])]
  | _ => False
  end.
Proof. vm_compute. repeat split. Qed.
Example C34_request_example :
  Request_new (opcode_msg 3 3) = Ret {| rq_mem := opcode_msg 3 3 |} /\ is_i32 (-38).
Proof. split; [reflexivity|]. unfold is_i32. lia. Qed.
Example C34_cuse_request_example :
  exists b, unimplemented_cuse_server 36 (-38) {| rq_mem := opcode_msg 3 3 |} = Ret [Call b] /\
  unimplemented_cuse_server 36 (-38) {| rq_mem := opcode_msg 36 3 |} = Ret [].
Proof. eexists. split; vm_compute; reflexivity. Qed.

(** A short message in the middle ends the loop. *)
Example C35_fuse_example :
  fuse_serve_local demo_history (repeat xff 100) =
    (map (fun m => {| rq_mem := m |})
       [opcode_msg 1 3; opcode_msg 2 4; opcode_msg 26 5; opcode_msg 36 6; opcode_msg 999 7], Finished tt) /\
  fuse_serve_local (map Message [opcode_msg 1 3; take 39 (opcode_msg 1 4); opcode_msg 1 5])
    (repeat xff 100) = ([{| rq_mem := opcode_msg 1 3 |}], Failed (SrvRequest EUnexpectedEof)) /\
  fuse_serve_local (map Message [opcode_msg 1 3; opcode_msg 1 0; opcode_msg 1 5])
    (repeat xff 100) = ([{| rq_mem := opcode_msg 1 3 |}], Failed (SrvRequest EInvalidRequestId)).
Proof. vm_compute. repeat split. Qed.
Example C35_cuse_example :
  cuse_serve_local [Message (opcode_msg 15 3); RecvFails (RE_ConnectionClosed 19)] (repeat xff 100) =
    ([{| rq_mem := opcode_msg 15 3 |}], Failed (SrvRecv (RE_ConnectionClosed 19))).
Proof. vm_compute. reflexivity. Qed.

Print Assumptions C29_fuse.
Print Assumptions C29_cuse.
Print Assumptions C30_fuse.
Print Assumptions C30_cuse.
Print Assumptions C30_cuse_name_too_big.
Print Assumptions C30_callback_once.
Print Assumptions C30_ids.
Print Assumptions C31_fuse_server.
Print Assumptions C31_bits.
Print Assumptions C31_cuse.
Print Assumptions C32_fuse.
Print Assumptions C32_cuse.
Print Assumptions C32_32bit_refuted.
Print Assumptions C33_fuse.
Print Assumptions C33_cuse.
Print Assumptions C34_request.
Print Assumptions C34_cuse_request.
Print Assumptions C34_session.
Print Assumptions C35_fuse.
Print Assumptions C35_cuse.
Print Assumptions C36_session.
Print Assumptions C36_fuse_layout.
Print Assumptions C36_cuse_layout.
Print Assumptions C36_old_client_refuted.
