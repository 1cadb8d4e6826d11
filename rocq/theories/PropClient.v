(** Theorems about sessions of this server with Linux: C63 (FUSE) and C64
    (CUSE) of properties.jsonl. *)

From Coq Require Import String.
From Verif Require Import Base Kernel CoreModel DecodeModel OpsModel WireSpec OpsRoundTrip DecodeProofs
  ReplyModel ReplySpec ReplyProofs PropDecode PropHeader PropReply PropValues ServerModel ServerSpec PropServer VfsSpec
  DeviceSpec PropDevice ClientSpec.
From Coq Require Import List NArith ZArith Bool Lia ZifyBool ZifyNat ZifyN.
Import ListNotations.
Open Scope list_scope.
Open Scope N_scope.

(** ** Specification *)

Section Spec.
Context {E : Endian}.

(** The client and the connection agree: on the version, on the layout of
    SETXATTR, and the connection's buffer is one the device accepts. *)
Definition agree (ls : linux_session) (c : FuseConnection) : Prop :=
  ls_minor ls = fl_version_minor (fc_layout c) /\
  N.testbit (ls_flags ls) 29 = have_setxattr_ext (fc_layout c) /\
  N.max 8192 (80 + ls_max_write ls) <= fc_recv_buf_len c.
Definition cuse_agree (ls : linux_cuse_session) (c : CuseConnection) : Prop :=
  lcs_minor ls = cl_version_minor (cc_layout c) /\
  N.max 8192 (80 + lcs_max_write ls) <= cc_recv_buf_len c.

(** A request Linux may send in a session, with a buffer of [n] bytes. *)
Definition may_send (ls : linux_session) (n : N) (r : req_header * client_op) : Prop :=
  let '(hd, op) := r in
  sendable false (session_config false ls) hd op /\
  within (ls_max_write ls) (ls_max_pages ls) n op /\
  (op_type op = RCreate -> 12 <= ls_minor ls).
Definition cuse_may_send (ls : linux_cuse_session) (n : N) (r : req_header * client_op) : Prop :=
  let '(hd, op) := r in
  sendable true (cuse_session_config false ls) hd op /\ within (lcs_max_write ls) 32 n op.

(** Whether a read returns the message of a request. *)
Definition gets (max_write n : N) (cf : config) (r : req_header * client_op) : bool :=
  match device_read max_write n (snd r) (linux_message cf (fst r) (snd r)) with
  | Gets _ => true | _ => false
  end.

(** What the server makes of a request: the header and the content are the
    client's (but for SYMLINK, see [taken_for]). *)
Definition understood (is_cuse : bool) (cf : config) (r : req_header * client_op) (rq : Request) : Prop :=
  let '(hd, op) := r in
  (exists len, header_says rq (rh_unique hd) len (op_code op) (nonzero (rh_nodeid hd))
     (rh_uid hd) (rh_gid hd) (nonzero (rh_pid hd))) /\
  decode_view is_cuse cf (op_type op) rq = taken_for is_cuse cf (rh_nodeid hd) op.
End Spec.

Section Client.
Context {E : Endian}.

(** ** The INIT reply *)

Lemma pad_lo w k p : k + N.of_nat w <= nlen p -> fld w k (p ++ repeat x00 64) = fld w k p.
Proof. apply fld_app_l. Qed.
Lemma zero_at w d : In (w, d) [(4%nat, 0); (4%nat, 8); (2%nat, 4)] -> fld w d (repeat x00 64) = 0.
Proof.
  generalize E. intros e H. cbn [In] in H.
  repeat destruct H as [[= <- <-]|H]; try easy; now destruct e.
Qed.

(** What Linux takes from an INIT reply made by setter calls. *)
Lemma init_session p ops :
  init_reads p ops ->
  let v := last_set (fun c => match c with SetVersion v => Some v | _ => None end) ops
             {| v_major := 0; v_minor := 0 |} in
  let flags := last_set (fun c => match c with SetFlags v => Some v | _ => None end) ops 0 in
  let or_default (n : N) := if (v_minor v <? 13) || (n =? 0) then None else Some n in
  v_major v = 7 ->
  exists ls, linux_init p = Some ls /\
  ls_minor ls = v_minor v /\
  (forall k, N.testbit (ls_flags ls) k =
     (6 <=? v_minor v) && N.testbit flags k &&
     ((k <? 32) || ((23 <=? v_minor v) && N.testbit flags 30))) /\
  ls_max_write ls = (if v_minor v <? 5 then 4096 else
    N.max 4096 (last_set (fun c => match c with SetMaxWrite v => Some v | _ => None end) ops 0)) /\
  ls_max_pages ls = (if (6 <=? v_minor v) && N.testbit flags 22 then 1 else 32) /\
  ls_max_readahead ls = (if v_minor v <? 6 then None else
    Some (last_set (fun c => match c with SetMaxReadahead v => Some v | _ => None end) ops 0)) /\
  ls_max_background ls =
    or_default (last_set (fun c => match c with SetMaxBackground v => Some v | _ => None end) ops 0) /\
  ls_congestion_threshold ls =
    or_default (last_set (fun c => match c with SetCongestionThreshold v => Some v | _ => None end) ops 0) /\
  ls_time_gran ls =
    let g := last_set (fun c => match c with SetTimeGranularity v => Some v | _ => None end) ops 0 in
    if (23 <=? v_minor v) && (0 <? g) && (g <=? 1000000000) then g else 1.
Proof.
  intros P v flags or_default Hv. unfold init_reads in P.
  fold v flags in P. rewrite Hv in P. clearbody v flags.
  repeat match type of P with context [last_set ?f ops 0] => generalize dependent (last_set f ops 0); intros end.
  destruct P as (PL & P0 & P4 & P5 & P23).
  unfold linux_init. set (q := p ++ repeat x00 64).
  assert (L8 : 8 <= nlen p) by (rewrite PL; destruct (v_minor v <? 5), (v_minor v <? 23); lia).
  assert (Q0 : u32_at 0 q = 7) by (unfold u32_at, q; rewrite pad_lo by lia; exact P0).
  assert (Q4 : u32_at 4 q = v_minor v) by (unfold u32_at, q; rewrite pad_lo by lia; exact P4).
  rewrite Q0, Q4. cbn [N.eqb Pos.eqb negb].
  eexists. split; [reflexivity|].
  cbn [ls_minor ls_flags ls_max_write ls_max_pages ls_max_readahead ls_max_background
       ls_congestion_threshold ls_time_gran].
  split; [reflexivity|].
  destruct (N.ltb_spec (v_minor v) 6) as [M6|M6].
  - (* nothing but the version and max_write counts *)
    replace (6 <=? v_minor v) with false by lia. replace (23 <=? v_minor v) with false by lia.
    unfold or_default. replace (v_minor v <? 13) with true by lia. cbn [andb orb].
    split; [intros; apply N.bits_0|].
    split; [|repeat split].
    destruct (N.ltb_spec (v_minor v) 5); [reflexivity|].
    destruct P5 as (_ & _ & _ & _ & P20); [lia|]. unfold u32_at, q.
    rewrite pad_lo by (rewrite PL; destruct (v_minor v <? 23); lia). now rewrite <- P20.
  - replace (6 <=? v_minor v) with true by lia. replace (v_minor v <? 5) with false in * by lia.
    cbn [andb orb].
    assert (L24 : 24 <= nlen p) by (rewrite PL; destruct (v_minor v <? 23); lia).
    destruct P5 as (P8 & P12 & P16 & P18 & P20); [lia|].
    assert (Q8 : u32_at 8 q = u32_at 8 p) by (unfold u32_at, q; now rewrite pad_lo by lia).
    assert (Q12 : u32_at 12 q = u32_at 12 p) by (unfold u32_at, q; now rewrite pad_lo by lia).
    assert (Q16 : u16_at 16 q = u16_at 16 p) by (unfold u16_at, q; now rewrite pad_lo by lia).
    assert (Q18 : u16_at 18 q = u16_at 18 p) by (unfold u16_at, q; now rewrite pad_lo by lia).
    assert (Q20 : u32_at 20 q = u32_at 20 p) by (unfold u32_at, q; now rewrite pad_lo by lia).
    assert (Q : if v_minor v <? 23 then u32_at 24 q = 0 /\ u16_at 28 q = 0 /\ u32_at 32 q = 0
      else u32_at 24 q = u32_at 24 p /\ u16_at 28 q = u16_at 28 p /\ u32_at 32 q = u32_at 32 p).
    { unfold u32_at, u16_at, q. destruct (v_minor v <? 23).
      - rewrite !fld_app by lia. rewrite PL. change (24 - 24) with 0. change (28 - 24) with 4.
        change (32 - 24) with 8. rewrite !zero_at by (cbn [In]; auto). auto.
      - rewrite !pad_lo by lia. auto. }
    rewrite Q8, Q12, Q16, Q18, Q20, P8, P12, P16, P18, P20. rewrite !testbit_low by lia.
    assert (M : flags mod 4294967296 < U32) by (unfold U32; apply N.mod_upper_bound; discriminate).
    assert (High : forall k, 32 <= k -> N.testbit (flags mod 4294967296) k = false)
      by (intros; change 4294967296 with (2 ^ 32); now apply N.mod_pow2_bits_high).
    destruct (N.ltb_spec (v_minor v) 23) as [M23|M23].
    + destruct Q as (-> & -> & ->). replace (23 <=? v_minor v) with false by lia.
      replace ((if N.testbit flags 30 then 4294967296 * 0 else 0)) with 0 by now destruct (N.testbit flags 30).
      rewrite N.add_0_r. rewrite !testbit_low by lia. cbn [andb orb].
      split.
      { intros k. rewrite orb_false_r. destruct (N.ltb_spec k 32).
        - now rewrite testbit_low, andb_true_r by lia.
        - now rewrite andb_false_r, High by lia. }
      split; [reflexivity|]. split; [now destruct (N.testbit flags 22)|]. repeat split.
    + destruct Q as (-> & -> & ->). destruct P23 as (-> & -> & -> & _ & _); [lia|].
      replace (23 <=? v_minor v) with true by lia. cbn [andb orb].
      assert (B : forall k, N.testbit (flags mod 4294967296 +
         (if N.testbit flags 30 then 4294967296 * (flags / 4294967296) else 0)) k =
         N.testbit flags k && ((k <? 32) || N.testbit flags 30)).
      { intros k. destruct (N.testbit flags 30).
        - rewrite orb_true_r, andb_true_r, testbit_words by auto.
          destruct (N.ltb_spec k 32); [now apply testbit_low|]. rewrite testbit_high. f_equal. lia.
        - rewrite orb_false_r, N.add_0_r. destruct (N.ltb_spec k 32).
          + now rewrite testbit_low, andb_true_r by lia.
          + now rewrite andb_false_r, High by lia. }
      split; [exact B|]. split; [reflexivity|]. split.
      { rewrite B. cbn [N.ltb N.compare Pos.compare Pos.compare_cont orb]. rewrite andb_true_r.
        now destruct (N.testbit flags 22). }
      split; [reflexivity|]. split; [reflexivity|]. split; [reflexivity|].
      cbv zeta. match goal with |- (if (?g =? 0) || _ then _ else _) = _ => generalize g end.
      intros g. destruct (N.eqb_spec g 0) as [->|]; [reflexivity|].
      replace (0 <? g) with true by lia. cbn [orb andb].
      destruct (N.ltb_spec 1000000000 g), (N.leb_spec g 1000000000); try lia; reflexivity.
Qed.

(** ** Requests *)

Lemma linux_message_sent cf hd op :
  linux_message cf hd op = PropDecode.sent cf hd op (wire (surplus (cf_minor cf) op)) [].
Proof.
  unfold linux_message, PropDecode.sent, encode_len. cbv zeta. rewrite app_nil_r. f_equal. symmetry.
  apply take_all. lia.
Qed.

Lemma nlen_linux_message cf hd op :
  nlen (linux_message cf hd op) = 40 + nlen (op_body cf op ++ wire (surplus (cf_minor cf) op)).
Proof. unfold linux_message. cbv zeta. rewrite nlen_app, nlen_wire. reflexivity. Qed.

Lemma nlen_items items : nlen (concat (map item_bytes items)) = 16 * nlen items.
Proof.
  induction items as [|i l IH]; [reflexivity|]. cbn [map concat]. rewrite nlen_app, IH, nlen_cons.
  unfold item_bytes. rewrite nlen_wire. change (fields_size _) with 16. lia.
Qed.

(** Which messages may be too long for a buffer the device accepts. *)
Definition may_be_long (op : client_op) : bool :=
  match op with OSetxattr _ _ _ _ _ | OIoctl _ _ _ _ _ _ => true | _ => false end.

Lemma message_fits max_write max_pages n cf hd op :
  within max_write max_pages n op -> max_pages <= 256 -> N.max 8192 (80 + max_write) <= n ->
  nlen (linux_message cf hd op) < U32 /\
  (may_be_long op = false -> nlen (linux_message cf hd op) <= n).
Proof.
  intros W P B. rewrite nlen_linux_message. unfold op_body. rewrite !nlen_app, !nlen_wire. unfold U32.
  destruct op; cbn [within] in W; unfold U32 in W; cbn [op_fields op_tail surplus may_be_long];
    unfold read_in, release_in, lk_in;
    rewrite ?nlen_app, ?nlen_items;
    repeat match goal with |- context [fields_size (if ?b then _ else _)] => destruct b end;
    cbn [fields_size u32 u64 u16 fst]; rewrite ?nlen_cons;
    repeat match goal with |- context [nlen (@nil ?A)] => change (nlen (@nil A)) with 0 end;
    try (split; intros; lia); try easy.
Qed.

(** A message that fits is received, and understood. *)
Lemma message_understood is_cuse cf hd op :
  sendable is_cuse cf hd op -> (op_type op = RCreate -> 12 <= cf_minor cf) ->
  nlen (linux_message cf hd op) < U32 ->
  acceptable (linux_message cf hd op) /\
  understood is_cuse cf (hd, op) {| rq_mem := linux_message cf hd op |}.
Proof.
  intros S C L. pose proof L as L'. rewrite nlen_linux_message in L'.
  destruct (deliver_all is_cuse cf hd op _ [] S C L') as (rq & N & V). rewrite <- linux_message_sent in N.
  destruct (acceptable_dec (linux_message cf hd op)) as [A|A];
    [|rewrite refused in N by auto; discriminate].
  assert (Q : rq = {| rq_mem := linux_message cf hd op |})
    by (rewrite not_refused in N by auto; now inversion N).
  subst rq. split; [exact A|]. split; [|exact V].
  destruct (C57_header hd (op_code op) (op_body cf op ++ wire (surplus (cf_minor cf) op)) [])
    as (rq & N' & H & _); [apply S|destruct op; try destruct wait; reflexivity|exact L'|].
  unfold raw_message in N'. rewrite app_nil_r in N'.
  assert (Q : rq = {| rq_mem := linux_message cf hd op |})
    by (unfold linux_message in N; cbv zeta in N; rewrite N' in N; now inversion N).
  subst rq. eexists. exact H.
Qed.

Lemma serve_messages tl r msgs : forall buf,
  (forall buf', fuse_serve_local tl buf' = ([], r)) ->
  Forall (fun m => nlen m <= nlen buf /\ acceptable m) msgs ->
  fuse_serve_local (map Message msgs ++ tl) buf = (map (fun m => {| rq_mem := m |}) msgs, r).
Proof.
  induction msgs as [|m msgs IH]; intros buf T F; cbn [map app]; [apply T|].
  inversion F as [|? ? [F1 F2] F3]; subst. cbn [fuse_serve_local].
  unfold recv_request. pose proof (received buf m) as Rv. destruct (recv_into buf m) as [buf' n].
  destruct Rv as [-> Lb]. rewrite take_all by lia. rewrite not_refused by auto.
  rewrite IH; auto. now rewrite Lb.
Qed.
Lemma cuse_serve_messages tl r msgs : forall buf,
  (forall buf', cuse_serve_local tl buf' = ([], r)) ->
  Forall (fun m => nlen m <= nlen buf /\ acceptable m) msgs ->
  cuse_serve_local (map Message msgs ++ tl) buf = (map (fun m => {| rq_mem := m |}) msgs, r).
Proof.
  induction msgs as [|m msgs IH]; intros buf T F; cbn [map app]; [apply T|].
  inversion F as [|? ? [F1 F2] F3]; subst. cbn [cuse_serve_local].
  unfold recv_request. pose proof (received buf m) as Rv. destruct (recv_into buf m) as [buf' n].
  destruct Rv as [-> Lb]. rewrite take_all by lia. rewrite not_refused by auto.
  rewrite IH; auto. now rewrite Lb.
Qed.

(** What is read from the device, and what becomes of the rest. *)
Lemma device_gives max_write n cf r :
  N.max 8192 (80 + max_write) <= n ->
  let m := linux_message cf (fst r) (snd r) in
  if gets max_write n cf r then nlen m <= n /\ device_read max_write n (snd r) m = Gets m
  else n < nlen m /\ device_read max_write n (snd r) m =
         OperationFails (match snd r with OSetxattr _ _ _ _ _ => 7 | _ => 5 end).
Proof.
  intros B m. unfold gets. fold m. unfold device_read.
  destruct (N.ltb_spec n (N.max 8192 (80 + max_write))); [lia|].
  destruct (N.ltb_spec n (nlen m)); auto.
Qed.

(** The requests of a session reach the handlers as they were sent, in order;
    those not delivered are SETXATTR or IOCTL requests longer than the buffer,
    and fail in the client. *)
Lemma session_requests ov ls c reqs buf :
  agree ls c -> ls_max_pages ls <= 256 -> nlen buf = fc_recv_buf_len c ->
  Forall (may_send ls (nlen buf)) reqs ->
  let cf := session_config ov ls in
  let got := filter (gets (ls_max_write ls) (nlen buf) cf) reqs in
  (forall r, In r reqs -> ~ In r got ->
     may_be_long (snd r) = true /\ nlen buf < nlen (linux_message cf (fst r) (snd r))) /\
  forall tl res, (forall buf', fuse_serve_local tl buf' = ([], res)) ->
  exists rqs,
    fuse_serve_local (map (fun r => Message (linux_message cf (fst r) (snd r))) got ++ tl) buf = (rqs, res) /\
    Forall2 (understood false (layout_config ov (fc_layout c))) got rqs.
Proof.
  intros (A1 & A2 & A3) P B F cf got.
  assert (Ecf : cf = layout_config ov (fc_layout c)) by (unfold cf, session_config, layout_config; now rewrite A1, A2).
  rewrite <- B in A3. rewrite Forall_forall in F.
  split.
  - intros [hd op] Hr Hg. cbn [fst snd]. destruct (F _ Hr) as (S & W & C).
    pose proof (device_gives (ls_max_write ls) (nlen buf) cf (hd, op) A3) as G. cbv zeta in G. cbn [fst snd] in G.
    destruct (gets _ _ cf (hd, op)) eqn:Eg.
    + destruct Hg. unfold got. rewrite filter_In. auto.
    + destruct G as [G _]. split; [|exact G].
      destruct (message_fits _ _ _ cf hd op W P A3) as [_ Fit].
      destruct (may_be_long op); auto. specialize (Fit eq_refl). lia.
  - intros tl res T.
    assert (X : Forall (fun m => nlen m <= nlen buf /\ acceptable m)
                  (map (fun r => linux_message cf (fst r) (snd r)) got) /\
      Forall2 (understood false (layout_config ov (fc_layout c))) got
        (map (fun m => {| rq_mem := m |}) (map (fun r => linux_message cf (fst r) (snd r)) got))).
    { assert (G : Forall (fun r => In r reqs /\ gets (ls_max_write ls) (nlen buf) cf r = true) got).
      { apply Forall_forall. intros r Hr. unfold got in Hr. now apply filter_In in Hr. }
      clear - F A3 P G Ecf. induction got as [|[hd op] l IH]; cbn [map]; [split; constructor|].
      inversion G as [|? ? [G1 G2] G3]; subst. specialize (IH G3).
      destruct (F _ G1) as (S & W & C). cbn [fst snd].
      pose proof (device_gives (ls_max_write ls) (nlen buf) cf (hd, op) A3) as D.
      cbv zeta in D. cbn [fst snd] in D. rewrite G2 in D. destruct D as [D _].
      destruct (message_fits _ _ _ cf hd op W P A3) as [L _].
      destruct (message_understood false cf hd op) as [M1 M2]; auto.
      split; constructor; try apply IH; auto. now rewrite <- Ecf. }
    destruct X as [X1 X2]. eexists. split; [|exact X2].
    rewrite <- map_map with (g := Message). now apply serve_messages.
Qed.

(** ** C63 *)

(** The device takes an INIT reply. *)
Lemma init_completed mn waiting m id p ma mi ra fl fl2 un :
  kernel_read m = Some (Reply id 0 p) -> N.odd id = false -> nlen p <= 64 ->
  waiting id = Some (OInit ma mi ra fl fl2 un) ->
  device_write mn waiting m = Completed id (inl p).
Proof.
  intros K O L W. rewrite (device_verdict mn waiting m id 0 p _ K O W). unfold verdict, told.
  cbn [op_room fits]. replace ((0 <=? nlen p) && (nlen p <=? 64)) with true by lia. reflexivity.
Qed.

Lemma init_len p ops : init_reads p ops -> nlen p <= 64.
Proof.
  unfold init_reads. intros (-> & _).
  repeat match goal with |- context [if ?b then _ else _] => destruct b end; lia.
Qed.

(** Whatever the init callback of a server sets, when a connection is made
    Linux takes the reply and starts a session, of the version of the connection
    and with a buffer it accepts; the layout of SETXATTR agrees from 7.6 on. *)
Theorem C63_session {S} usize_max (cb : S -> FuseInitRequest -> S * list init_op) s xs es c :
  (forall s i, Forall init_op_ok (snd (cb s i))) ->
  FuseConnection_connect usize_max (fuse_callback cb) s xs = (es, Finished c) ->
  exists pre i id p ls,
    seen es (pre ++ [Callback _ i; Sends _ id 0 p]) /\
    (forall mn waiting m ma mi ra fl fl2 un,
       kernel_read m = Some (Reply id 0 p) -> N.odd id = false ->
       waiting id = Some (OInit ma mi ra fl fl2 un) ->
       device_write mn waiting m = Completed id (inl p)) /\
    linux_init p = Some ls /\
    ls_minor ls <= v_minor (fi_version i) /\ ls_max_pages ls <= 32 /\
    (4096 + ls_max_write ls <= usize_max ->
     6 <= ls_minor ls \/ have_setxattr_ext (fc_layout c) = false -> agree ls c).
Proof.
  intros Hcb Hc. pose proof (C30_fuse usize_max cb s xs Hcb) as D. rewrite Hc in D.
  destruct D as (os & So & D).
  destruct (finished_dialogue _ _ _ _ _ _ _ _ _ _ _ _ D eq_refl)
    as (pre & i & id & p & ops & s0 & s' & Fp & -> & _ & P & Cn).
  pose proof (init_len _ _ P) as L.
  destruct (init_session _ _ P) as (ls & Ls & L1 & L2 & L3 & L4 & _); [now rewrite last_version|].
  exists pre, i, id, p, ls. split; [exact So|].
  split; [intros; eapply init_completed; eauto|].
  split; [exact Ls|].
  unfold fuse_connected in Cn. rewrite last_version in Cn, L1, L2, L3, L4.
  cbn [v_major v_minor] in Cn, L1, L2, L3, L4. destruct Cn as (C1 & C2 & C3).
  split; [lia|]. split; [rewrite L4; match goal with |- (if ?b then _ else _) <= _ => destruct b end; lia|].
  intros U M. unfold agree. rewrite C1, C2, C3. split; [exact L1|]. split.
  - rewrite L2. change (29 <? 32) with true. cbn [orb].
    rewrite andb_true_r, <- C2, <- L1. destruct M as [M|M].
    + replace (6 <=? ls_minor ls) with true by lia. reflexivity.
    + rewrite M. apply andb_false_r.
  - rewrite L3 in *. destruct (_ <? 5); lia.
Qed.

(** The server of this crate with any options: every setting Linux takes from
    its reply. *)
Theorem C63_server usize_max opts id minor ra flags flags2 xs :
  Forall server_opt_ok opts ->
  is_id id -> minor < U32 -> ra < U32 -> flags < U32 -> flags2 < U32 ->
  let x := {| x_recv := Message (init_message id 7 minor ra flags flags2); x_send := SendOk |} in
  let conf := configured_flags opts 0 in
  let granted k := (6 <=? minor) && N.testbit flags k && N.testbit conf k in
  let last pick := last_set pick opts 0 in
  let or_default (n : N) := if (minor <? 13) || (n =? 0) then None else Some n in
  exists es b m p c ls,
    FuseServer_connect usize_max (build_server opts) (x :: xs) = (es, Finished c) /\
    es = [InitCalled (init_seen 7 minor ra flags flags2); Sent b] /\
    on_wire b = Ret m /\ kernel_read m = Some (Reply id 0 p) /\
    linux_init p = Some ls /\
    ls_minor ls = N.min minor 36 /\
    (forall k, k < 32 -> N.testbit (ls_flags ls) k = granted k) /\
    (forall k, k < 32 -> N.testbit (ls_flags ls) (32 + k) =
       (36 <=? minor) && N.testbit flags2 k && N.testbit conf (32 + k) && granted 30) /\
    ls_max_write ls = (if minor <? 5 then 4096 else
      N.max 4096 (last (fun o => match o with OptMaxWrite n => Some n | _ => None end))) /\
    ls_max_pages ls = (if granted 22 then 1 else 32) /\
    ls_max_readahead ls = (if minor <? 6 then None else
      Some (last (fun o => match o with OptMaxReadahead n => Some n | _ => None end))) /\
    ls_max_background ls =
      or_default (last (fun o => match o with OptMaxBackground n => Some n | _ => None end)) /\
    ls_congestion_threshold ls =
      or_default (last (fun o => match o with OptCongestionThreshold n => Some n | _ => None end)) /\
    ls_time_gran ls =
      (let g := last (fun o => match o with OptTimeGranularity n => Some n | _ => None end) in
       if (23 <=? minor) && (0 <? g) && (g <=? 1000000000) then g else 1) /\
    nlen p <= 64 /\
    (4096 + ls_max_write ls <= usize_max -> agree ls c).
Proof.
  intros Ho Iid H2 H3 H4 H5 x conf granted last or_default.
  pose proof (C31_fuse_server usize_max opts (x :: xs) Ho) as D.
  destruct (FuseServer_connect _ _ _) as [es r]. destruct D as (os & So & D).
  destruct (init_message_reads id 7 minor ra flags flags2) as [Rd L]; auto; [reflexivity|].
  assert (T : take 8192 (init_message id 7 minor ra flags flags2) =
              init_message id 7 minor ra flags flags2) by (apply take_all; lia).
  inversion D; subst; cbn [x x_recv x_send] in *;
    try match goal with H : Message _ = Message _ |- _ => injection H as <- end;
    try discriminate;
    match goal with H : read_init (take 8192 _) = _ |- _ => rewrite T, Rd in H end;
    try discriminate;
    match goal with H : inr _ = inr _ |- _ => injection H as <- <- end;
    cbn [init_seen fi_version v_major v_minor] in *; [congruence|].
  match goal with H : (_, _) = (_, _) |- _ => injection H as <- <- end.
  match goal with H : _ /\ fuse_connected _ _ _ |- _ => destruct H as [P Cn] end.
  inversion So as [|? ? ? So2|]; subst. inversion So2 as [| |b m ? ? ? ? ? W _ K So3]; subst.
  inversion So3; subst.
  pose proof (init_len _ _ P) as Lp.
  destruct (init_session _ _ P) as (ls & Ls & L1 & L2 & L3 & L4 & L5 & L6 & L7 & L8); [now rewrite last_version|].
  exists [InitCalled (init_seen 7 minor ra flags flags2); Sent b], b, m, p, c, ls.
  split; [reflexivity|]. split; [reflexivity|]. split; [exact W|]. split; [exact K|].
  split; [exact Ls|].
  unfold fuse_connected in Cn. rewrite last_version in Cn, L1, L2, L3, L4, L5, L6, L7, L8.
  cbn [v_major v_minor] in Cn, L1, L2, L3, L4, L5, L6, L7, L8. destruct Cn as (C1 & C2 & C3).
  set (fl := last_set (fun o => match o with SetFlags f => Some f | _ => None end) _ 0) in *.
  assert (Fl : fl = N.land (fi_flags (init_seen 7 minor ra flags flags2)) conf) by reflexivity.
  clearbody fl.
  assert (Bits : forall k, N.testbit fl k =
    if k <? 32 then granted k
    else (36 <=? minor) && N.testbit flags2 (k - 32) && N.testbit conf k).
  { intros k. rewrite Fl, N.land_spec. unfold init_seen, granted. cbn [fi_flags].
    change (negb (7 =? 7)) with false. cbn [orb].
    destruct (N.ltb_spec minor 6); cbn [negb].
    { rewrite N.bits_0. destruct (N.leb_spec 6 minor); [lia|]. destruct (N.leb_spec 36 minor); [lia|].
      now destruct (k <? 32). }
    destruct (N.leb_spec 6 minor); [|lia].
    destruct (N.ltb_spec minor 36).
    - destruct (N.leb_spec 36 minor); [lia|]. destruct (N.ltb_spec k 32); [reflexivity|].
      rewrite <- (N.mod_small flags (2 ^ 32)) by exact H4.
      now rewrite N.mod_pow2_bits_high by auto.
    - destruct (N.leb_spec 36 minor); [|lia]. rewrite testbit_words by auto.
      destruct (N.ltb_spec k 32); reflexivity. }
  assert (G6 : forall k, (6 <=? N.min minor 36) && granted k = granted k).
  { intros k. unfold granted. destruct (N.leb_spec 6 minor), (N.leb_spec 6 (N.min minor 36)); try lia; reflexivity. }
  assert (M5 : (N.min minor 36 <? 5) = (minor <? 5)) by lia.
  assert (M6 : (N.min minor 36 <? 6) = (minor <? 6)) by lia.
  assert (M13 : (N.min minor 36 <? 13) = (minor <? 13)) by lia.
  assert (M23 : (23 <=? N.min minor 36) = (23 <=? minor)) by lia.
  rewrite M5 in L3. rewrite M6 in L5. rewrite M13 in L6, L7. rewrite M23 in L2, L8.
  split; [exact L1|].
  split. { intros k Hk. rewrite L2, Bits. destruct (N.ltb_spec k 32); [|lia]. now rewrite G6, andb_true_r. }
  split.
  { intros k Hk. rewrite L2, !Bits. destruct (N.ltb_spec (32 + k) 32); [lia|].
    replace (32 + k - 32) with k by lia. change (30 <? 32) with true. cbn [orb].
    destruct (N.leb_spec 36 minor); cbn [andb]; [|now rewrite andb_false_r].
    replace (6 <=? N.min minor 36) with true by lia. replace (23 <=? minor) with true by lia. reflexivity. }
  split; [exact L3|].
  split. { rewrite L4, Bits. change (22 <? 32) with true. cbv iota. now rewrite G6. }
  split; [exact L5|]. split; [exact L6|]. split; [exact L7|]. split; [exact L8|]. split; [exact Lp|].
  intros U. unfold agree. rewrite C1, C2, C3. split; [exact L1|]. split.
  - rewrite L2, !Bits. change (29 <? 32) with true. cbn [orb]. cbv iota. now rewrite G6, andb_true_r.
  - rewrite L3 in *. destruct (minor <? 5); lia.
Qed.

Lemma max_write_bound opts : Forall server_opt_ok opts ->
  last_set (fun o => match o with OptMaxWrite n => Some n | _ => None end) opts 0 < U32.
Proof.
  intros Ho. apply (last_set_bound _ server_opt_ok); auto; [|reflexivity].
  intros o n Hok. destruct o; try discriminate. now intros [= <-].
Qed.
Lemma cuse_max_write_bound opts : Forall cuse_opt_ok opts ->
  last_set (fun o => match o with COptMaxWrite n => Some n | _ => None end) opts 0 < U32.
Proof.
  intros Ho. apply (last_set_bound _ cuse_opt_ok); auto; [|reflexivity].
  intros o n Hok. destruct o; try discriminate. now intros [= <-].
Qed.

(** A whole session: the server's INIT reply is taken, and every request Linux
    then sends reaches the handlers with its content, in order, until the file
    system is unmounted and the server stops without an error.  The exceptions
    are SETXATTR and IOCTL requests that are longer than the buffer of the
    connection: they fail in the client, and are not cut short.  [usize_max] is
    [usize::MAX] of a 64-bit target. *)
Theorem C63_end_to_end ov usize_max opts id minor ra flags flags2 un mn waiting err :
  Forall server_opt_ok opts -> 4294967296 + 4096 <= usize_max ->
  is_id id -> N.odd id = false -> minor < U32 -> ra < U32 -> flags < U32 -> flags2 < U32 ->
  waiting id = Some (OInit 7 minor ra flags flags2 un) ->
  let x := {| x_recv := Message (init_message id 7 minor ra flags flags2); x_send := SendOk |} in
  exists es b m p c ls,
    FuseServer_connect usize_max (build_server opts) [x] = (es, Finished c) /\
    es = [InitCalled (init_seen 7 minor ra flags flags2); Sent b] /\ on_wire b = Ret m /\
    device_write mn waiting m = Completed id (inl p) /\ linux_init p = Some ls /\
    ls_minor ls = N.min minor 36 /\
    forall buf reqs,
    nlen buf = fc_recv_buf_len c -> Forall (may_send ls (nlen buf)) reqs ->
    let cf := session_config ov ls in
    let message r := linux_message cf (fst r) (snd r) in
    let got := filter (gets (ls_max_write ls) (nlen buf) cf) reqs in
    (forall r, In r reqs -> ~ In r got ->
       may_be_long (snd r) = true /\ nlen buf < nlen (message r) /\
       device_read (ls_max_write ls) (nlen buf) (snd r) (message r) =
         OperationFails (match snd r with OSetxattr _ _ _ _ _ => 7 | _ => 5 end)) /\
    exists rqs,
      fuse_serve_local (map (fun r => Message (message r)) got ++ [RecvFails (RE_ConnectionClosed err)]) buf =
        (rqs, Finished tt) /\
      Forall2 (understood false (layout_config ov (fc_layout c))) got rqs.
Proof.
  intros Ho Hu Iid Ev H2 H3 H4 H5 Wt x.
  destruct (C63_server usize_max opts id minor ra flags flags2 [] Ho Iid H2 H3 H4 H5)
    as (es & b & m & p & c & ls & Cn & Es & W & K & Ls & Mi & _ & _ & Mw & Mp & _ & _ & _ & _ & Lp & Ag).
  exists es, b, m, p, c, ls. split; [exact Cn|]. split; [exact Es|]. split; [exact W|].
  split; [eapply init_completed; eauto|]. split; [exact Ls|]. split; [exact Mi|].
  assert (B : ls_max_write ls < U32).
  { rewrite Mw. destruct (minor <? 5); [reflexivity|].
    assert (X : last_set (fun o => match o with OptMaxWrite n => Some n | _ => None end) opts 0 < U32);
      [now apply max_write_bound|unfold U32 in *; lia]. }
  unfold U32 in B. specialize (Ag ltac:(lia)).
  assert (P : ls_max_pages ls <= 256)
    by (rewrite Mp; match goal with |- (if ?b then _ else _) <= _ => destruct b end; lia).
  intros buf reqs Lb F cf message got.
  destruct (session_requests ov ls c reqs buf Ag P Lb F) as [S1 S2]. fold cf got in S1, S2. split.
  - intros r R1 R2. destruct (S1 r R1 R2) as [A1 A2]. split; [exact A1|]. split; [exact A2|].
    destruct Ag as (_ & _ & Ag). rewrite <- Lb in Ag.
    pose proof (device_gives (ls_max_write ls) (nlen buf) cf r Ag) as D. cbv zeta in D.
    destruct (gets _ _ cf r) eqn:G; [|apply D]. destruct R2. apply filter_In. auto.
  - now apply S2.
Qed.

(** ** C64 *)

Lemma parts_one s : ~ In x00 s -> parts x00 (s ++ [x00]) = [s; []].
Proof.
  induction s as [|b s IH]; intros H; [reflexivity|]. cbn [app parts].
  destruct (Byte.eqb b x00) eqn:Eb.
  { apply Byte.byte_dec_bl in Eb. subst. destruct H. now left. }
  rewrite IH; [reflexivity|]. intros I. apply H. now right.
Qed.

Definition stripped (name : bytes) : option bytes :=
  match strip name with [] => None | n => Some n end.

Lemma device_info_name name :
  ~ In x00 name ->
  device_info (map n2b [68; 69; 86; 78; 65; 77; 69; 61] ++ name ++ [x00]) = stripped name.
Proof.
  intros H. change (map n2b _) with (DEVNAME ++ [x3d]).
  rewrite app_assoc. unfold device_info. rewrite parts_one.
  - cbn [filter]. replace (nlen ((DEVNAME ++ [x3d]) ++ name) =? 0) with false
      by (rewrite !nlen_app; cbn; lia).
    cbn [negb filter nlen length N.of_nat N.eqb map].
    change (key_value ((DEVNAME ++ [x3d]) ++ name)) with (DEVNAME, name).
    change (strip DEVNAME) with DEVNAME. rewrite last_last.
    change (Byte.eqb x00 x00) with true. rewrite andb_false_r. cbn [existsb fst].
    change (nlen DEVNAME =? 0) with false. cbn [orb fold_left fst snd].
    destruct (list_eq_dec Byte.byte_eq_dec DEVNAME DEVNAME); [|contradiction].
    unfold stripped. now destruct (strip name).
  - intros I. apply in_app_or in I. destruct I as [I|I]; [|contradiction].
    cbn in I. repeat destruct I as [I|I]; try discriminate; contradiction.
Qed.

(** A CUSE server with any options: what Linux takes from its reply. *)
Theorem C64_server usize_max bs name dma dmi opts id minor flags xs :
  DeviceName_from_bytes bs = inl name -> nlen name <= 4087 ->
  Forall cuse_opt_ok opts -> dma < U32 -> dmi < U32 ->
  is_id id -> minor < U32 -> flags < U32 ->
  let x := {| x_recv := Message (cuse_init_message id 7 minor flags); x_send := SendOk |} in
  exists es b m p c,
    CuseServer_connect usize_max (build_cuse_server name dma dmi opts) (x :: xs) = (es, Finished c) /\
    es = [InitCalled {| ci_version := {| v_major := 7; v_minor := minor |}; ci_flags := flags |}; Sent b] /\
    on_wire b = Ret m /\ kernel_read m = Some (Reply id 0 p) /\
    (forall mn waiting ma mi un fl, N.odd id = false ->
       waiting id = Some (OCuseInit ma mi un fl) -> device_write mn waiting m = Completed id (inl p)) /\
    linux_cuse_init p =
      (if minor <? 11 then None else
       match strip bs with
       | [] => None
       | shown => Some {|
           lcs_minor := N.min minor 36;
           lcs_max_read :=
             N.max 4096 (last_set (fun o => match o with COptMaxRead n => Some n | _ => None end) opts 0);
           lcs_max_write :=
             N.max 4096 (last_set (fun o => match o with COptMaxWrite n => Some n | _ => None end) opts 0);
           lcs_unrestricted_ioctl := N.testbit flags 0 && N.testbit (cuse_configured_flags opts 0) 0;
           lcs_device := (dma, dmi);
           lcs_name := shown |}
       end) /\
    (forall ls, linux_cuse_init p = Some ls -> 4096 + lcs_max_write ls <= usize_max -> cuse_agree ls c).
Proof.
  intros Nm Hn Ho Hd1 Hd2 Iid H2 H3 x.
  destruct (proj1 (proj1 (C40_device_name bs))) as [_ N0].
  { destruct (C40_device_name bs) as (_ & Q & _). now rewrite <- (Q _ Nm) at 2. }
  destruct (C40_device_name bs) as (_ & Q & _). apply Q in Nm. subst name. clear Q.
  pose proof (cuse_build opts (CuseServer_new bs dma dmi) Ho eq_refl eq_refl eq_refl) as B.
  cbv zeta in B. fold (build_cuse_server bs dma dmi opts) in B.
  cbn [CuseServer_new cs_device_name cs_dev_major cs_dev_minor cs_flags cs_max_read cs_max_write] in B.
  generalize dependent (build_cuse_server bs dma dmi opts). intros sv B.
  destruct B as (B1 & B2 & B3 & B4 & B5 & B6 & B7 & B8 & B9).
  assert (Hcb : forall s i, Forall cuse_init_op_ok (snd (cuse_answer sv s i))).
  { intros s i. cbn. repeat constructor; cbn; auto.
    change U32 with (2 ^ 32). apply land_bound. exact B5. }
  pose proof (C30_cuse usize_max bs dma dmi (cuse_answer sv) tt (x :: xs) ltac:(lia) Hd1 Hd2 Hcb) as D'.
  rewrite CuseServer_connect_eq, B1, B2, B3. clear B1 B2 B3.
  destruct (CuseConnection_connect _ _ _ _ _ _ _) as [es r].
  destruct D' as (os & So & D').
  destruct (cuse_init_message_reads id 7 minor flags) as [Rd L]; auto; [reflexivity|].
  assert (T : take 8192 (cuse_init_message id 7 minor flags) =
              cuse_init_message id 7 minor flags) by (apply take_all; lia).
  inversion D'; subst; cbn [x x_recv x_send] in *;
    try match goal with H : Message _ = Message _ |- _ => injection H as <- end;
    try discriminate;
    match goal with H : read_cuse_init (take 8192 _) = _ |- _ => rewrite T, Rd in H end;
    try discriminate;
    match goal with H : inr _ = inr _ |- _ => injection H as <- <- end;
    cbn [ci_version v_major v_minor] in *; [congruence|].
  match goal with H : with_device _ _ _ _ _ = _ |- _ => cbn in H; injection H as <- <- end.
  match goal with H : _ /\ cuse_connected _ _ _ |- _ => destruct H as [P Cn] end.
  inversion So as [|? ? ? So2|]; subst. inversion So2 as [| |b m ? ? ? ? ? W _ K So3]; subst.
  inversion So3; subst.
  eexists _, b, m, p, c. split; [reflexivity|]. split; [reflexivity|].
  split; [exact W|]. split; [exact K|].
  unfold cuse_init_reads in P. cbn [last_set app ci_flags v_major v_minor] in P.
  unfold cuse_connected in Cn. cbn [last_set app ci_flags v_major v_minor] in Cn.
  destruct P as (P0 & P4 & P12 & P16 & P20 & P24 & P72 & Pn). destruct Cn as [C1 C2].
  injection P24 as P24 P28.
  assert (Lp : nlen p = 72 + (8 + (nlen bs + 1))).
  { apply (f_equal nlen) in Pn. rewrite nlen_drop, !nlen_app in Pn. cbn in Pn. lia. }
  split.
  { intros mn waiting ma mi un fl O Wt. rewrite (device_verdict mn waiting m id 0 p _ K O Wt).
    unfold verdict, told. cbn [op_room fits]. rewrite Lp.
    match goal with |- context [if ?b then _ else _] => replace b with false by lia end.
    match goal with |- context [if ?b then _ else _] => change b with true end. cbv iota.
    match goal with |- context [if ?b then _ else _] => replace b with true by lia end. reflexivity. }
  assert (LI : linux_cuse_init p =
      (if minor <? 11 then None else
       match strip bs with
       | [] => None
       | shown => Some {|
           lcs_minor := N.min minor 36;
           lcs_max_read :=
             N.max 4096 (last_set (fun o => match o with COptMaxRead n => Some n | _ => None end) opts 0);
           lcs_max_write :=
             N.max 4096 (last_set (fun o => match o with COptMaxWrite n => Some n | _ => None end) opts 0);
           lcs_unrestricted_ioctl := N.testbit flags 0 && N.testbit (cuse_configured_flags opts 0) 0;
           lcs_device := (dma, dmi);
           lcs_name := shown |}
       end)).
  { unfold linux_cuse_init. rewrite P0, P4, P12, P16, P20, P24, P28, Pn, device_info_name by auto.
    change (negb (7 =? 7)) with false. cbn [orb].
    replace (N.min minor 36 <? 11) with (minor <? 11) by lia. destruct (minor <? 11); [reflexivity|].
    unfold stripped. destruct (strip bs); [reflexivity|].
    now rewrite N.land_spec, B4, B6, B8. }
  split; [exact LI|].
  intros ls Hls Hu. rewrite LI in Hls. destruct (minor <? 11); [discriminate|].
  destruct (strip bs); [discriminate|]. injection Hls as <-.
  cbn [lcs_max_write] in *. unfold cuse_agree. cbn [lcs_minor lcs_max_write].
  rewrite C1, C2. split; [reflexivity|]. rewrite B8. lia.
Qed.

(** A whole CUSE session, as C63_end_to_end; it ends with the error of the
    socket that ended it. *)
Theorem C64_end_to_end ov usize_max bs name dma dmi opts id minor flags un mn waiting err :
  DeviceName_from_bytes bs = inl name -> nlen name <= 4087 -> strip bs <> [] ->
  Forall cuse_opt_ok opts -> dma < U32 -> dmi < U32 -> 4294967296 + 4096 <= usize_max ->
  is_id id -> N.odd id = false -> 11 <= minor < U32 -> flags < U32 ->
  waiting id = Some (OCuseInit 7 minor un flags) ->
  let x := {| x_recv := Message (cuse_init_message id 7 minor flags); x_send := SendOk |} in
  exists es b m p c ls,
    CuseServer_connect usize_max (build_cuse_server name dma dmi opts) [x] = (es, Finished c) /\
    (exists i, es = [InitCalled i; Sent b]) /\ on_wire b = Ret m /\
    device_write mn waiting m = Completed id (inl p) /\ linux_cuse_init p = Some ls /\
    lcs_minor ls = N.min minor 36 /\ lcs_name ls = strip bs /\ lcs_device ls = (dma, dmi) /\
    forall buf reqs,
    nlen buf = cc_recv_buf_len c -> Forall (cuse_may_send ls (nlen buf)) reqs ->
    let cf := cuse_session_config ov ls in
    let message r := linux_message cf (fst r) (snd r) in
    let got := filter (gets (lcs_max_write ls) (nlen buf) cf) reqs in
    (forall r, In r reqs -> ~ In r got ->
       may_be_long (snd r) = true /\ nlen buf < nlen (message r) /\
       exists e, device_read (lcs_max_write ls) (nlen buf) (snd r) (message r) = OperationFails e) /\
    exists rqs,
      cuse_serve_local (map (fun r => Message (message r)) got ++ [RecvFails err]) buf =
        (rqs, Failed (SrvRecv err)) /\
      Forall2 (understood true (cuse_layout_config ov (cc_layout c))) got rqs.
Proof.
  intros Nm Hn St Ho Hd1 Hd2 Hu Iid Ev [M11 H2] H3 Wt x.
  destruct (C64_server usize_max bs name dma dmi opts id minor flags [] Nm Hn Ho Hd1 Hd2 Iid H2 H3)
    as (es & b & m & p & c & Cn & Es & W & K & Dw & Ls & Ag).
  replace (minor <? 11) with false in Ls by lia. destruct (strip bs) as [|s0 sr] eqn:Es0; [contradiction|].
  exists es, b, m, p, c. eexists. split; [exact Cn|]. split; [eexists; exact Es|]. split; [exact W|].
  split; [eapply Dw; eauto|]. split; [exact Ls|].
  split; [reflexivity|]. split; [reflexivity|]. split; [reflexivity|].
  match type of Ls with _ = Some ?l => set (ls := l) in * end.
  assert (B : lcs_max_write ls < U32).
  { cbn [ls lcs_max_write].
    assert (X : last_set (fun o => match o with COptMaxWrite n => Some n | _ => None end) opts 0 < U32);
      [now apply cuse_max_write_bound|unfold U32 in *; lia]. }
  unfold U32 in B. destruct (Ag ls Ls ltac:(lia)) as [A1 A3]. clearbody ls.
  intros buf reqs Lb F cf message got. rewrite <- Lb in A3. rewrite Forall_forall in F.
  assert (Ecf : cf = cuse_layout_config ov (cc_layout c))
    by (unfold cf, cuse_session_config, cuse_layout_config; now rewrite A1).
  assert (NC : forall hd op, sendable true (cuse_session_config false ls) hd op ->
    op_type op = RCreate -> 12 <= cf_minor cf).
  { intros hd op (_ & _ & Av & _) Eo. rewrite Eo in Av. discriminate. }
  split.
  - intros [hd op] Hr Hg. cbn [fst snd]. destruct (F _ Hr) as (S & Wi).
    pose proof (device_gives (lcs_max_write ls) (nlen buf) cf (hd, op) A3) as G. cbv zeta in G. cbn [fst snd] in G.
    destruct (gets _ _ cf (hd, op)) eqn:Eg.
    + destruct Hg. unfold got. rewrite filter_In. auto.
    + destruct G as [G G2]. split; [|split; [exact G|eexists; exact G2]].
      destruct (message_fits _ _ _ cf hd op Wi ltac:(lia) A3) as [_ Fit].
      destruct (may_be_long op); auto. specialize (Fit eq_refl). lia.
  - assert (X : Forall (fun m => nlen m <= nlen buf /\ acceptable m) (map message got) /\
      Forall2 (understood true (cuse_layout_config ov (cc_layout c))) got
        (map (fun m => {| rq_mem := m |}) (map message got))).
    { assert (G : Forall (fun r => In r reqs /\ gets (lcs_max_write ls) (nlen buf) cf r = true) got).
      { apply Forall_forall. intros r Hr. unfold got in Hr. now apply filter_In in Hr. }
      clear - F A3 G Ecf NC. induction got as [|[hd op] l IH]; cbn [map]; [split; constructor|].
      inversion G as [|? ? [G1 G2] G3]; subst. specialize (IH G3).
      destruct (F _ G1) as (S & Wi). unfold message at 1 3. cbn [fst snd].
      pose proof (device_gives (lcs_max_write ls) (nlen buf) cf (hd, op) A3) as D.
      cbv zeta in D. cbn [fst snd] in D. rewrite G2 in D. destruct D as [D _].
      destruct (message_fits _ _ _ cf hd op Wi ltac:(lia) A3) as [L _].
      destruct (message_understood true cf hd op) as [M1 M2]; auto; [exact (NC _ _ S)|].
      split; constructor; try apply IH; auto. now rewrite <- Ecf. }
    destruct X as [X1 X2]. eexists. split; [|exact X2].
    rewrite <- map_map with (g := Message). now apply cuse_serve_messages.
Qed.
End Client.

(** ** Examples and refutations *)

Local Instance LE : Endian := false.

(** The payloads of the messages a [connect] sent. *)
Definition payloads {I} (es : list (effect I)) : list bytes :=
  flat_map (fun e => match e with
    | Sent b => match on_wire b with Ret m => [drop 16 m] | _ => [] end
    | InitCalled _ => []
    end) es.

(** 128 KiB writes, and the flags 5 (big writes), 29 (the larger SETXATTR), 30
    (flags beyond 32) and 33. *)
Definition demo_opts : list server_opt :=
  [OptMaxWrite 131072; OptMaxBackground 64; OptTimeGranularity 1000;
   OptUpdateFlags (fun f => if f <? U64 then N.lor f (2 ^ 29 + 2 ^ 30 + 2 ^ 33) else f)].
Lemma demo_opts_ok : Forall server_opt_ok demo_opts.
Proof.
  repeat (constructor; [try reflexivity|]); [|constructor]. cbn [server_opt_ok]. intros f Hf.
  destruct (f <? U64); [|exact Hf]. set (k := 2 ^ 29 + 2 ^ 30 + 2 ^ 33). change U64 with (2 ^ 64) in *.
  destruct (N.eq_dec (N.lor f k) 0) as [->|Ne]; [reflexivity|].
  apply N.log2_lt_pow2; [lia|]. rewrite N.log2_lor. change (N.log2 k) with 33.
  destruct (N.eq_dec f 0) as [->|]; [reflexivity|].
  apply N.log2_lt_pow2 in Hf; lia.
Qed.
Definition demo_session : linux_session :=
  {| ls_minor := 36; ls_flags := 2 ^ 5 + 2 ^ 29 + 2 ^ 30 + 2 ^ 33; ls_max_write := 131072;
     ls_max_pages := 32; ls_max_readahead := Some 0; ls_max_background := Some 64;
     ls_congestion_threshold := None; ls_time_gran := 1000 |}.

Example C63_server_example :
  Forall server_opt_ok demo_opts /\
  let '(es, r) := FuseServer_connect usize64 (build_server demo_opts)
    [ok_msg (init_message 2 7 38 131072 4294967295 4294967295)] in
  map linux_init (payloads es) = [Some demo_session] /\
  match r with
  | Finished c => agree demo_session c /\ fc_recv_buf_len c = 4096 + 131072
  | _ => False
  end.
Proof.
  split; [exact demo_opts_ok|]. vm_compute. repeat split. discriminate.
Qed.

(** A callback that grants everything, to a client of 7.8. *)
Example C63_session_example :
  let cb (s : unit) (i : FuseInitRequest) := (s, [SetFlags (fi_flags i); SetMaxWrite 65536]) in
  let '(es, r) := FuseConnection_connect usize64 (fuse_callback cb) tt
    [ok_msg (init_message 2 7 8 131072 536870912 0)] in
  match map linux_init (payloads es), r with
  | [Some ls], Finished c =>
    ls_minor ls = 8 /\ N.testbit (ls_flags ls) 29 = true /\ ls_max_write ls = 65536 /\ agree ls c
  | _, _ => False
  end.
Proof. vm_compute. repeat split. discriminate. Qed.

(** With the default options the buffer has 8192 bytes: a SETXATTR with a value
    of 9000 bytes fails with E2BIG, the other requests arrive. *)
Definition demo_header (id : N) : req_header :=
  {| rh_unique := id; rh_nodeid := 1; rh_uid := 1000; rh_gid := 100; rh_pid := 77; rh_padding := 0 |}.
Definition demo_requests : list (req_header * client_op) :=
  [(demo_header 4, OLookup [x61]);
   (demo_header 6, OSetxattr 0 0 0 [x62] (repeat x63 (N.to_nat 9000)));
   (demo_header 8, OWrite 5 0 0 0 0 0 (repeat x64 (N.to_nat 4096)));
   (demo_header 10, OSetxattr 0 0 0 [x62] (repeat x63 3))].
Example C63_end_to_end_example :
  let '(es, r) := FuseServer_connect usize64 (build_server [])
    [ok_msg (init_message 2 7 36 131072 4294967295 4294967295)] in
  match map linux_init (payloads es), r with
  | [Some ls], Finished c =>
    let cf := session_config true ls in
    let buf := repeat xff (N.to_nat (fc_recv_buf_len c)) in
    Forall (may_send ls (nlen buf)) demo_requests /\
    map (gets (ls_max_write ls) (nlen buf) cf) demo_requests = [true; false; true; true] /\
    device_read (ls_max_write ls) (nlen buf) (OSetxattr 0 0 0 [x62] (repeat x63 (N.to_nat 9000)))
      (linux_message cf (demo_header 6) (OSetxattr 0 0 0 [x62] (repeat x63 (N.to_nat 9000)))) = OperationFails 7 /\
    match fuse_serve_local (map (fun r => Message (linux_message cf (fst r) (snd r)))
        (filter (gets (ls_max_write ls) (nlen buf) cf) demo_requests) ++
        [RecvFails (RE_ConnectionClosed 19)]) buf with
    | ([r1; r2; r3], Finished tt) =>
      decode_view false (layout_config true (fc_layout c)) RLookup r1 = Ret (VLookup 1 [x61]) /\
      header_request_id r2 = Ret 8 /\
      decode_view false (layout_config true (fc_layout c)) RSetxattr r3 =
        Ret (expected false cf 1 (OSetxattr 0 0 0 [x62] (repeat x63 3)))
    | _ => False
    end
  | _, _ => False
  end.
Proof.
  assert (Hd : forall id, 0 < id < 100 -> good_header (demo_header id)).
  { intros id Hi. split; [|cbn; lia]. unfold header_fields, demo_header, in_range.
    cbn [rh_unique rh_nodeid rh_uid rh_gid rh_pid rh_padding].
    repeat (constructor; [cbn [snd fst u32 u64]; change (256 ^ N.of_nat 4) with 4294967296;
      change (256 ^ N.of_nat 8) with 18446744073709551616; lia|]). constructor. }
  match goal with |- let '(es, r) := ?e in _ =>
    let v := eval vm_compute in e in replace e with v by (vm_compute; reflexivity) end.
  match goal with |- match map linux_init ?e with _ => _ end =>
    let v := eval vm_compute in (map linux_init e) in change (map linux_init e) with v end.
  cbv beta iota zeta. split.
  - unfold demo_requests.
    repeat (apply Forall_cons; [|]); [..|apply Forall_nil].
    all: split; [split; [apply Hd; lia|split; [split|split; [reflexivity|]]]|split].
    all: try discriminate. all: try exact I. all: clear Hd.
    all: lazymatch goal with
      | |- Forall _ _ => vm_compute; repeat (apply Forall_cons; [reflexivity|]); apply Forall_nil
      | |- good_name _ => unfold good_name; cbn; intuition discriminate
      | |- good_cstr _ => unfold good_cstr; cbn; intuition discriminate
      | |- within _ _ _ _ => vm_compute; intuition discriminate
      | |- _ => split; [discriminate|apply Forall_nil]
      end.
  - split; [vm_compute; reflexivity|]. split; [vm_compute; reflexivity|].
    vm_compute. repeat split.
Qed.

(** ** Where the client and the server do not agree *)

(** A flag of the second word that was offered and configured is in the reply,
    but Linux does not look at that word unless bit 30 is granted too; the
    server does not set it by itself. *)
Theorem C63_high_flags_refuted :
  exists opts, Forall server_opt_ok opts /\
  let '(es, r) := FuseServer_connect usize64 (build_server opts)
    [ok_msg (init_message 2 7 36 131072 4294967295 4294967295)] in
  match payloads es with
  | [p] => N.testbit (u32_at 32 p) 1 = true /\
    option_map (fun ls => N.testbit (ls_flags ls) 33) (linux_init p) = Some false
  | _ => False
  end.
Proof.
  exists [OptUpdateFlags (fun _ => 2 ^ 33)]. split.
  - constructor; [|constructor]. intros x Hx. reflexivity.
  - vm_compute. split; reflexivity.
Qed.

(** A server that configures 128 KiB writes and lets the client have the flag
    MAX_PAGES (bit 22) gets requests of one page only: there is no way to set
    the number that goes with the flag. *)
Theorem C63_max_pages_refuted :
  exists opts, Forall server_opt_ok opts /\
  let '(es, r) := FuseServer_connect usize64 (build_server opts)
    [ok_msg (init_message 2 7 36 131072 4294967295 4294967295)] in
  match map linux_init (payloads es) with
  | [Some ls] => ls_max_write ls = 131072 /\ ls_max_pages ls = 1
  | _ => False
  end.
Proof.
  exists [OptUpdateFlags (fun _ => 2 ^ 22); OptMaxWrite 131072]. split.
  - constructor; [intros x Hx; reflexivity|]. constructor; [reflexivity|constructor].
  - vm_compute. split; reflexivity.
Qed.

(** A callback that grants bit 29 to a client of 7.4, which reads no flags:
    the client sends SETXATTR in the short form, and the server takes the name
    for flags. *)
Theorem C63_old_client_refuted :
  exists cb : unit -> FuseInitRequest -> unit * list init_op,
  (forall s i, Forall init_op_ok (snd (cb s i))) /\
  let op := OSetxattr 0 0 0 [x61; x62; x63; x64; x65; x66; x67; x68; x69] [x31; x32] in
  let '(es, r) := FuseConnection_connect usize64 (fuse_callback cb) tt
    [ok_msg (init_message 2 7 4 0 0 0)] in
  match map linux_init (payloads es), r with
  | [Some ls], Finished c =>
    let m := linux_message (session_config false ls) (demo_header 4) op in
    ~ agree ls c /\
    exists rq v, Request_new m = Ret rq /\
      decode_view false (layout_config false (fc_layout c)) RSetxattr rq = Ret v /\
      v <> expected false (session_config false ls) 1 op
  | _, _ => False
  end.
Proof.
  exists (fun _ _ => (tt, [SetFlags (2 ^ 29)])).
  split; [intros; repeat constructor|]. cbv zeta.
  match goal with |- let '(es, r) := ?e in _ =>
    let v := eval vm_compute in e in replace e with v by (vm_compute; reflexivity) end.
  match goal with |- match map linux_init ?e with _ => _ end =>
    let v := eval vm_compute in (map linux_init e) in change (map linux_init e) with v end.
  cbv beta iota zeta. split.
  - intros (_ & A & _). vm_compute in A. discriminate.
  - eexists. eexists. split; [vm_compute; reflexivity|]. split; [vm_compute; reflexivity|].
    vm_compute. discriminate.
Qed.

(** ** CUSE *)

Definition demo_name : bytes := [x20; x76; x69; x72; x74; x20].

(** The name " virt " is shown as "virt". *)
Example C64_server_example :
  DeviceName_from_bytes demo_name = inl demo_name /\
  let '(es, r) := CuseServer_connect usize64
      (build_cuse_server demo_name 10 200 [COptMaxWrite 65536; COptUnrestrictedIoctl])
    [ok_msg (cuse_init_message 2 7 37 1)] in
  map linux_cuse_init (payloads es) =
    [Some {| lcs_minor := 36; lcs_max_read := 4096; lcs_max_write := 65536;
             lcs_unrestricted_ioctl := true; lcs_device := (10, 200);
             lcs_name := [x76; x69; x72; x74] |}] /\
  match r with Finished c => cc_recv_buf_len c = 4096 + 65536 | _ => False end.
Proof. split; [reflexivity|]. vm_compute. split; reflexivity. Qed.

Example C64_end_to_end_example :
  let reqs := [(demo_header 4, OOpen 2 0); (demo_header 6, OWrite 5 0 0 0 2 0 [x61; x62]);
               (demo_header 8, OIoctl 5 0 1 0 0 (repeat x63 (N.to_nat 9000)));
               (demo_header 10, ORelease 5 2 0 0)] in
  let '(es, r) := CuseServer_connect usize64 (build_cuse_server demo_name 10 200 [])
    [ok_msg (cuse_init_message 2 7 37 1)] in
  match map linux_cuse_init (payloads es), r with
  | [Some ls], Finished c =>
    let cf := cuse_session_config true ls in
    let buf := repeat xff (N.to_nat (cc_recv_buf_len c)) in
    map (gets (lcs_max_write ls) (nlen buf) cf) reqs = [true; true; false; true] /\
    match cuse_serve_local (map (fun r => Message (linux_message cf (fst r) (snd r)))
        (filter (gets (lcs_max_write ls) (nlen buf) cf) reqs) ++
        [RecvFails (RE_ConnectionClosed 19)]) buf with
    | ([r1; r2; r3], Failed (SrvRecv (RE_ConnectionClosed 19))) =>
      header_request_id r1 = Ret 4 /\
      decode_view true (cuse_layout_config true (cc_layout c)) RWrite r2 =
        Ret (expected true cf 1 (OWrite 5 0 0 0 2 0 [x61; x62])) /\
      header_request_id r3 = Ret 10
    | _ => False
    end
  | _, _ => False
  end.
Proof. vm_compute. repeat split. Qed.

(** A name the crate accepts, but for which no device appears; and a name that
    is not the one that appears. *)
Theorem C64_name_refuted :
  exists blank name : bytes,
  DeviceName_from_bytes blank = inl blank /\ DeviceName_from_bytes name = inl name /\
  let started (n : bytes) :=
    let '(es, r) := CuseServer_connect usize64 (build_cuse_server n 10 200 [])
      [ok_msg (cuse_init_message 2 7 37 1)] in
    (map (fun p => option_map lcs_name (linux_cuse_init p)) (payloads es),
     match r with Finished _ => true | _ => false end) in
  started blank = ([None], true) /\
  exists shown, started name = ([Some shown], true) /\ shown <> name.
Proof.
  exists [x20], demo_name. split; [reflexivity|]. split; [reflexivity|]. cbv zeta.
  split; [vm_compute; reflexivity|]. eexists. split; [vm_compute; reflexivity|]. discriminate.
Qed.

(** A client of a version before 7.11: the server starts, Linux gives up. *)
Theorem C64_old_version_refuted :
  let '(es, r) := CuseServer_connect usize64 (build_cuse_server [x61] 10 200 [])
    [ok_msg (cuse_init_message 2 7 10 1)] in
  map linux_cuse_init (payloads es) = [None] /\
  match r with Finished _ => True | _ => False end.
Proof. vm_compute. split; [reflexivity|exact I]. Qed.

Print Assumptions C63_session.
Print Assumptions C63_server.
Print Assumptions C63_end_to_end.
Print Assumptions C63_high_flags_refuted.
Print Assumptions C63_max_pages_refuted.
Print Assumptions C63_old_client_refuted.
Print Assumptions C64_server.
Print Assumptions C64_end_to_end.
Print Assumptions C64_name_refuted.
Print Assumptions C64_old_version_refuted.
