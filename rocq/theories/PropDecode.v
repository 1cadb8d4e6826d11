(** Properties C01-C17: request admission and decoding.

    Each theorem is followed by an example: a concrete case that meets the
    hypotheses, with the outcome computed by the model. *)

From Verif Require Import Base Kernel CoreModel DecodeModel OpsModel DecodeSpec DecodeProofs
  OpsSafety OpsCut WireSpec OpsRoundTrip.
From Coq Require Import List NArith ZArith Bool Lia.
From Coq Require Import ZifyBool ZifyNat ZifyN.
Import ListNotations.
Open Scope N_scope.

(** An outcome in which the code neither panicked nor left the message. *)
Definition defined {A} (m : out A) : Prop :=
  match m with Ret _ | Fail _ => True | Panic | Ub => False end.

Lemma safe_defined {A} (m : out A) P : safe m P -> defined m.
Proof. now destruct m. Qed.

Section Props.
Context {E : Endian}.

(** ** C01 *)

(** When a buffer is accepted. *)
Definition admissible (buf : bytes) : Prop :=
  40 <= nlen buf /\ u64_at 8 buf <> 0 /\
  u32_at 0 buf <= nlen buf.

Theorem C01_admission buf :
  (Request_new buf = Ret {| rq_mem := buf |} <-> admissible buf) /\
  (nlen buf < 40 -> Request_new buf = Fail EUnexpectedEof) /\
  (40 <= nlen buf -> u64_at 8 buf = 0 -> Request_new buf = Fail EInvalidRequestId) /\
  (40 <= nlen buf -> u64_at 8 buf <> 0 -> nlen buf < u32_at 0 buf ->
   Request_new buf = Fail EUnexpectedEof).
Proof.
  pose proof (u32_bound 0 buf) as B. unfold U32 in B.
  rewrite Request_new_eq. unfold admissible, u32_max.
  destruct (N.ltb_spec (nlen buf) 40).
  { repeat split; try easy; lia. }
  destruct (N.eqb_spec (u64_at 8 buf) 0).
  { repeat split; try easy; lia. }
  destruct (N.ltb_spec (N.min (nlen buf) 4294967295) (u32_at 0 buf)).
  { repeat split; try easy; lia. }
  repeat split; try easy; lia.
Qed.

Theorem C01_accepted_only buf rq :
  Request_new buf = Ret rq -> rq = {| rq_mem := buf |} /\ admissible buf.
Proof.
  intros H. destruct (Request_new_accepted buf rq H) as [-> (A & B & C)].
  split; [reflexivity|]. repeat split; assumption.
Qed.

(** [body()] of an accepted request. *)
Theorem C01_body buf rq :
  Request_new buf = Ret rq ->
  body rq = if u32_at 0 buf <? 40 then Panic else Ret (slice 40 (u32_at 0 buf - 40) buf).
Proof.
  intros H. destruct (Request_new_accepted buf rq H) as [-> A].
  unfold body. rewrite as_bytes_slice by auto. cbn [bind rq_mem]. unfold IN_HEADER_SIZE.
  destruct A as (A1 & A2 & A3); cbn [rq_mem] in *.
  rewrite nlen_slice.
  destruct (N.ltb_spec (u32_at 0 buf) 40); destruct (N.ltb_spec (N.min (u32_at 0 buf) (nlen buf - 0)) 40);
    try reflexivity; try lia.
  f_equal. unfold slice. rewrite drop_0, drop_take. reflexivity.
Qed.

(** ** C02 *)

(** The message: the header and the rest of the announced length. *)
Definition message_bytes (buf : bytes) : bytes := take (N.max 40 (u32_at 0 buf)) buf.

Theorem C02_no_read_outside is_cuse cf t buf rq :
  Request_new buf = Ret rq -> t <> RForget ->
  defined (decode_view is_cuse cf t rq) /\
  defined (decode_view is_cuse cf t {| rq_mem := message_bytes buf |}).
Proof.
  intros H T. destruct (Request_new_accepted buf rq H) as [-> A]. split.
  - eapply safe_defined, decode_view_safe; auto.
  - change {| rq_mem := message_bytes buf |} with (cut_rq {| rq_mem := buf |}).
    eapply safe_defined, decode_view_safe; auto. now apply cut_rq_accepted.
Qed.

(** ** C03 *)
Theorem C03_forget_inside is_cuse cf buf rq :
  Request_new buf = Ret rq -> u32_at 40 buf < 268435456 ->
  defined (decode_view is_cuse cf RForget rq).
Proof.
  intros H T. destruct (Request_new_accepted buf rq H) as [-> A].
  eapply safe_defined, forget_view_safe; auto.
Qed.

(** ** C04 *)
Theorem C04_ignores_rest is_cuse cf t buf1 buf2 rq1 rq2 :
  Request_new buf1 = Ret rq1 -> Request_new buf2 = Ret rq2 ->
  message_bytes buf1 = message_bytes buf2 ->
  decode_view is_cuse cf t rq1 = decode_view is_cuse cf t rq2.
Proof.
  intros H1 H2 M.
  destruct (Request_new_accepted buf1 rq1 H1) as [-> A1].
  destruct (Request_new_accepted buf2 rq2 H2) as [-> A2].
  rewrite <- (decode_view_cut is_cuse cf t _ A1), <- (decode_view_cut is_cuse cf t _ A2).
  unfold cut_rq, msg_len; cbn [rq_mem]. unfold message_bytes in M. now rewrite M.
Qed.

(** ** C05 *)
Theorem C05_opcode is_cuse cf t buf rq :
  Request_new buf = Ret rq -> ~ In (u32_at 4 buf) (type_opcodes t) ->
  decode_view is_cuse cf t rq = Fail EOpcodeMismatch.
Proof.
  intros H T. destruct (Request_new_accepted buf rq H) as [-> A]. now apply decode_view_opcode.
Qed.

(** ** C06 *)
Theorem C06_names is_cuse cf t buf rq v :
  Request_new buf = Ret rq -> t <> RForget -> decode_view is_cuse cf t rq = Ret v ->
  Forall valid_name (view_names v) /\
  Forall (fun s => ~ In x00 s) (view_strings v) /\
  (view_strings v <> [] ->
   let off := strings_offset cf (u32_at 4 buf) v in
   let l := nul_terminated (view_strings v) in
   off + nlen l <= u32_at 0 buf /\ slice off (nlen l) buf = l).
Proof.
  intros H T D. destruct (Request_new_accepted buf rq H) as [-> A].
  pose proof (decode_view_safe is_cuse cf t _ A T) as S. rewrite D in S. cbn [safe] in S.
  destruct S as (S1 & S2 & S3 & S4). repeat split; auto; try (intros; apply S4);
    destruct (view_strings v) as [|s l]; try easy; unfold nul_terminated; cbn; now destruct s.
Qed.

(** ** Round trips *)

(** The general statement, for every operation. *)
Lemma roundtrip is_cuse cf hd op extra rest rq k :
  good_header hd -> good_op cf op -> available is_cuse (op_type op) = true ->
  ids_present is_cuse hd op -> plain_target op ->
  k = 40 + nlen (op_body cf op ++ extra) -> k < U32 ->
  Request_new (encode_len cf hd op extra k ++ rest) = Ret rq ->
  decode_view is_cuse cf (op_type op) rq = Ret (observed is_cuse cf (rh_nodeid hd) op).
Proof.
  intros G1 G2 A I P K K2 H.
  destruct (Request_new_accepted _ rq H) as [-> _].
  assert (M : message cf hd op extra k (encode_len cf hd op extra k ++ rest))
    by (apply encode_message; auto; lia).
  rewrite (decode_message is_cuse cf hd op extra k _ M G2 A I P).
  unfold result. rewrite nlen_app in K.
  destruct (N.ltb_spec k (40 + nlen (op_body cf op))); [lia|reflexivity].
Qed.

Lemma new_accepts cf hd op extra rest k :
  good_header hd -> 40 <= k -> k <= 40 + nlen (op_body cf op ++ extra) -> k < U32 ->
  Request_new (encode_len cf hd op extra k ++ rest) =
  Ret {| rq_mem := encode_len cf hd op extra k ++ rest |}.
Proof.
  intros G K1 K2 K3.
  pose proof (encode_message cf hd op extra rest k G K1 K3 K2) as M.
  destruct M as [(A1 & A2 & A3) _ _ _ _ _ _ _]. cbn [rq_mem] in *.
  rewrite Request_new_eq.
  destruct (N.ltb_spec (nlen (encode_len cf hd op extra k ++ rest)) 40); [lia|].
  destruct (N.eqb_spec (u64_at 8 (encode_len cf hd op extra k ++ rest)) 0); [easy|].
  pose proof (u32_bound 0 (encode_len cf hd op extra k ++ rest)) as B. unfold U32, u32_max in *.
  destruct (N.ltb_spec (N.min (nlen (encode_len cf hd op extra k ++ rest)) 4294967295)
              (u32_at 0 (encode_len cf hd op extra k ++ rest))); [lia|reflexivity].
Qed.

(** A message carrying [op] followed by [extra] bytes inside the message and
    [rest] outside of it. *)
Definition sent (cf : config) (hd : req_header) (op : client_op) (extra rest : bytes) : bytes :=
  encode_len cf hd op extra (40 + nlen (op_body cf op ++ extra)) ++ rest.

(** [sent] without extra bytes is the kernel's encoding. *)
Lemma sent_encode cf hd op rest : sent cf hd op [] rest = encode cf hd op ++ rest.
Proof.
  unfold sent, encode_len, encode. rewrite !app_nil_r. do 2 f_equal. apply take_all. lia.
Qed.

(** The server accepts the message and sees the operation. *)
Definition delivered (is_cuse : bool) (cf : config) (hd : req_header) (op : client_op) : Prop :=
  forall extra rest, 40 + nlen (op_body cf op ++ extra) < U32 ->
  exists rq, Request_new (sent cf hd op extra rest) = Ret rq /\
  decode_view is_cuse cf (op_type op) rq = Ret (expected is_cuse cf (rh_nodeid hd) op).

Definition sendable (is_cuse : bool) (cf : config) (hd : req_header) (op : client_op) : Prop :=
  good_header hd /\ good_op cf op /\ available is_cuse (op_type op) = true /\
  ids_present is_cuse hd op.

Lemma deliver is_cuse cf hd op :
  sendable is_cuse cf hd op -> (op_type op = RCreate -> 12 <= cf_minor cf) -> op_type op <> RSymlink ->
  delivered is_cuse cf hd op.
Proof.
  intros (G1 & G2 & A & I) V Y extra rest L.
  exists {| rq_mem := sent cf hd op extra rest |}.
  assert (N : Request_new (sent cf hd op extra rest) =
              Ret {| rq_mem := sent cf hd op extra rest |})
    by (unfold sent; apply new_accepts; auto; lia).
  split; [exact N|].
  assert (P : plain_target op) by (destruct op; try exact Logic.I; now destruct Y).
  rewrite (roundtrip is_cuse cf hd op extra rest _ _ G1 G2 A I P eq_refl L N).
  f_equal. destruct op; try reflexivity; [|now destruct Y]. unfold observed.
  destruct (N.ltb_spec (cf_minor cf) 12); [|reflexivity]. specialize (V eq_refl). lia.
Qed.

(** ** C07 *)

(** The requests with a fixed-size body. *)
Definition fixed_type (t : rtype) : bool :=
  match t with
  | RAccess | RBmap | RCopyFileRange | RFallocate | RFlush | RFsync | RFsyncdir | RGetattr
  | RInterrupt | RListxattr | RLseek | ROpen | ROpendir | RPoll | RRead | RReaddir
  | RReaddirplus | RReadlink | RRelease | RReleasedir | RStatfs => true
  | _ => false
  end.

Theorem C07_fixed is_cuse cf hd op :
  fixed_type (op_type op) = true -> sendable is_cuse cf hd op ->
  delivered is_cuse cf hd op.
Proof. intros F S. apply deliver; auto; now destruct op. Qed.

(** ** C08 *)
Definition named_type (t : rtype) : bool :=
  match t with
  | RLookup | RCreate | RLink | RMkdir | RMknod | RRename | RRmdir | RUnlink
  | RRemovexattr | RGetxattr => true
  | _ => false
  end.

Theorem C08_named is_cuse cf hd op :
  named_type (op_type op) = true -> sendable is_cuse cf hd op ->
  (op_type op = RCreate -> 12 <= cf_minor cf) ->
  delivered is_cuse cf hd op.
Proof. intros F S V. apply deliver; auto. now destruct op. Qed.

(** SYMLINK: the client sends the name of the new link, then its target.  The
    server sees the target as the name and the name as the target; if the target
    could not be a name, because there is a slash in it, the request is
    refused. *)
Definition has_slash (s : bytes) : bool := existsb (Byte.eqb x2f) s.
Lemma has_slash_spec s : has_slash s = true <-> In x2f s.
Proof.
  unfold has_slash. rewrite existsb_exists. split.
  - intros (b & I & Q). apply byte_eqb_eq in Q. now subst.
  - intros I. exists x2f. split; [exact I|reflexivity].
Qed.
Definition symlink_seen (nodeid : N) (name target : bytes) : out view :=
  if has_slash target then Fail (ENodeName NameContainsSlash) else Ret (VSymlink nodeid target name).

Theorem C08_symlink cf hd name target extra rest :
  let op := OSymlink name target in
  sendable false cf hd op -> 40 + nlen (op_body cf op ++ extra) < U32 ->
  exists rq, Request_new (sent cf hd op extra rest) = Ret rq /\
  decode_view false cf RSymlink rq = symlink_seen (rh_nodeid hd) name target.
Proof.
  intros op (G1 & G2 & A & I) L.
  exists {| rq_mem := sent cf hd op extra rest |}.
  assert (N : Request_new (sent cf hd op extra rest) =
              Ret {| rq_mem := sent cf hd op extra rest |})
    by (unfold sent; apply new_accepts; auto; lia).
  split; [exact N|]. unfold symlink_seen. destruct (has_slash target) eqn:Q.
  - apply has_slash_spec in Q.
    assert (M : message cf hd op extra (40 + nlen (op_body cf op ++ extra)) (sent cf hd op extra rest))
      by (apply encode_message; auto; lia).
    destruct (decode_slash cf hd name target extra _ _ M G2 Q) as (e & D & _ & Full).
    rewrite D. f_equal. apply Full. rewrite nlen_app. unfold op. lia.
  - assert (P : plain_target op) by (intros H; apply has_slash_spec in H; congruence).
    exact (roundtrip false cf hd op extra rest _ _ G1 G2 A I P eq_refl L N).
Qed.

(** What the server takes a request for: what the client means, but for SYMLINK. *)
Definition taken_for (is_cuse : bool) (cf : config) (nodeid : N) (op : client_op) : out view :=
  match op with
  | OSymlink name target => symlink_seen nodeid name target
  | _ => Ret (expected is_cuse cf nodeid op)
  end.
Lemma deliver_all is_cuse cf hd op extra rest :
  sendable is_cuse cf hd op -> (op_type op = RCreate -> 12 <= cf_minor cf) ->
  40 + nlen (op_body cf op ++ extra) < U32 ->
  exists rq, Request_new (sent cf hd op extra rest) = Ret rq /\
  decode_view is_cuse cf (op_type op) rq = taken_for is_cuse cf (rh_nodeid hd) op.
Proof.
  intros S C L. assert (D : op_type op = RSymlink \/ op_type op <> RSymlink)
    by (destruct op; auto; right; discriminate).
  destruct D as [D|D].
  - destruct op; try discriminate D. destruct is_cuse; [destruct S as (_ & _ & S & _); discriminate S|].
    exact (C08_symlink cf hd name target extra rest S L).
  - destruct (deliver is_cuse cf hd op S C D extra rest L) as (rq & N & V).
    exists rq. split; [exact N|]. rewrite V. destruct op; try reflexivity. now destruct D.
Qed.

(** Before 7.12 a CREATE request is delivered except for its mode. *)
Theorem C08_create_old is_cuse cf hd flags mode umask open_flags name extra rest :
  let op := OCreate flags mode umask open_flags name in
  cf_minor cf < 12 -> sendable is_cuse cf hd op ->
  40 + nlen (op_body cf op ++ extra) < U32 ->
  exists rq, Request_new (sent cf hd op extra rest) = Ret rq /\
  decode_view is_cuse cf RCreate rq = Ret (VCreate (rh_nodeid hd) name 0 flags 0 0).
Proof.
  intros op V (G1 & G2 & A & I) L.
  exists {| rq_mem := sent cf hd op extra rest |}.
  assert (N : Request_new (sent cf hd op extra rest) =
              Ret {| rq_mem := sent cf hd op extra rest |})
    by (unfold sent; apply new_accepts; auto; lia).
  split; [exact N|].
  pose proof (roundtrip is_cuse cf hd op extra rest _ _ G1 G2 A I Logic.I eq_refl L N) as R.
  etransitivity; [exact R|]. f_equal. unfold observed, op.
  destruct (N.ltb_spec (cf_minor cf) 12); [reflexivity|lia].
Qed.

(** ** C09 *)
Theorem C09_setxattr is_cuse cf hd flags setxattr_flags pad name value :
  sendable is_cuse cf hd (OSetxattr flags setxattr_flags pad name value) ->
  delivered is_cuse cf hd (OSetxattr flags setxattr_flags pad name value).
Proof. intros S. now apply deliver. Qed.

(** ** C10 *)
Theorem C10_write is_cuse cf hd fh offset write_flags lock_owner flags pad data :
  sendable is_cuse cf hd (OWrite fh offset write_flags lock_owner flags pad data) ->
  delivered is_cuse cf hd (OWrite fh offset write_flags lock_owner flags pad data).
Proof. intros S. now apply deliver. Qed.

(** ** C14, and the second half of C10 *)
Theorem C14_truncated is_cuse cf hd op k rest :
  sendable is_cuse cf hd op -> 40 <= k -> k < 40 + nlen (op_body cf op) -> k < U32 ->
  exists rq e, Request_new (encode_len cf hd op [] k ++ rest) = Ret rq /\
  decode_view is_cuse cf (op_type op) rq = Fail e /\
  match op with
  | OSymlink _ target =>
    e = EUnexpectedEof \/ has_slash target = true /\ e = ENodeName NameContainsSlash
  | _ => e = EUnexpectedEof
  end.
Proof.
  intros (G1 & G2 & A & I) K1 K2 K3.
  exists {| rq_mem := encode_len cf hd op [] k ++ rest |}.
  assert (M : message cf hd op [] k (encode_len cf hd op [] k ++ rest))
    by (apply encode_message; rewrite ?nlen_app, ?nlen_nil; auto; lia).
  assert (Pl : plain_target op ->
    decode_view is_cuse cf (op_type op) {| rq_mem := encode_len cf hd op [] k ++ rest |} =
    Fail EUnexpectedEof).
  { intros P. rewrite (decode_message is_cuse cf hd op [] k); auto.
    unfold result. destruct (N.ltb_spec k (40 + nlen (op_body cf op))); [reflexivity|lia]. }
  assert (Sl : plain_target op \/ exists name target, op = OSymlink name target /\ has_slash target = true).
  { destruct op; try (left; exact Logic.I). destruct (has_slash target) eqn:Q; [right; eauto|left].
    intros H. apply has_slash_spec in H. congruence. }
  destruct Sl as [P|(name & target & -> & Q)].
  - exists EUnexpectedEof.
    split; [apply new_accepts; rewrite ?nlen_app, ?nlen_nil; auto; lia|].
    split; [now apply Pl|]. destruct op; auto.
  - destruct is_cuse; [discriminate A|].
    destruct (decode_slash cf hd name target [] _ _ M G2 (proj1 (has_slash_spec _) Q)) as (e & D & O & _).
    exists e. split; [apply new_accepts; rewrite ?nlen_app, ?nlen_nil; auto; lia|].
    split; [exact D|]. destruct O as [->| ->]; auto.
Qed.

(** ** C11 *)

(** The attributes of a SETATTR: (flag bit, seconds or value, nanoseconds). *)
Definition overflows (valid atimensec mtimensec ctimensec : N) : Prop :=
  (N.testbit valid 4 = true /\ 999999999 < atimensec) \/
  (N.testbit valid 5 = true /\ 999999999 < mtimensec) \/
  (N.testbit valid 10 = true /\ 999999999 < ctimensec).

Theorem C11_setattr is_cuse cf hd valid pad fh size lock_owner atime mtime ctime
    atimensec mtimensec ctimensec mode unused4 uid gid unused5 extra rest :
  let op := OSetattr valid pad fh size lock_owner atime mtime ctime
              atimensec mtimensec ctimensec mode unused4 uid gid unused5 in
  good_header hd -> rh_nodeid hd <> 0 -> is_cuse = false ->
  Forall in_range (op_fields cf op) -> 40 + nlen (op_body cf op ++ extra) < U32 ->
  exists rq, Request_new (sent cf hd op extra rest) = Ret rq /\
  (overflows valid atimensec mtimensec ctimensec ->
   decode_view is_cuse cf RSetattr rq = Fail ETimestampOverflow) /\
  (~ overflows valid atimensec mtimensec ctimensec ->
   decode_view is_cuse cf RSetattr rq =
   let opt {A} k (x : A) := if N.testbit valid k then Some x else None in
   Ret (VSetattr (rh_nodeid hd) (opt 6 fh) (opt 3 size) (opt 9 lock_owner)
      (opt 4 {| ut_seconds := as_i64 atime; ut_nanos := atimensec |}) (N.testbit valid 7)
      (opt 5 {| ut_seconds := as_i64 mtime; ut_nanos := mtimensec |}) (N.testbit valid 8)
      (opt 10 {| ut_seconds := as_i64 ctime; ut_nanos := ctimensec |})
      (opt 0 mode) (opt 1 uid) (opt 2 gid))).
Proof.
  intros op G1 Hn -> R L.
  exists {| rq_mem := sent cf hd op extra rest |}.
  assert (N : Request_new (sent cf hd op extra rest) =
              Ret {| rq_mem := sent cf hd op extra rest |})
    by (unfold sent; apply new_accepts; auto; lia).
  split; [exact N|]. split.
  - intros O. eapply (decode_setattr_overflow false cf hd extra); eauto.
    + apply encode_message; auto; lia.
    + fold op. rewrite nlen_app. lia.
  - intros O.
    assert (G2 : good_op cf op).
    { split; [exact R|]. unfold overflows, ns_limit in *. cbn.
      repeat split; intros T; apply N.nlt_ge; intros Lt; apply O; auto. }
    assert (I : ids_present false hd op).
    { split; [auto|constructor]. }
    pose proof (roundtrip false cf hd op extra rest _ _ G1 G2 eq_refl I Logic.I eq_refl L N) as RT.
    etransitivity; [exact RT|]. reflexivity.
Qed.

(** ** C12 *)
Theorem C12_ioctl is_cuse cf hd fh flags cmd arg out_size input :
  sendable is_cuse cf hd (OIoctl fh flags cmd arg out_size input) ->
  delivered is_cuse cf hd (OIoctl fh flags cmd arg out_size input).
Proof. intros S. now apply deliver. Qed.

(** A sequence of reads of the given sizes. *)
Fixpoint read_all (rest : bytes) (sizes : list N) : list (bytes + unit) * bytes :=
  match sizes with
  | [] => ([], rest)
  | n :: sizes =>
    let '(r, rest) := ioctl_reader_read rest n in
    let '(rs, rest) := read_all rest sizes in (r :: rs, rest)
  end.

(** How much of an input of [lft] bytes those reads should consume: each
    read takes its size if that much is left and nothing otherwise. *)
Fixpoint consumed (lft : N) (sizes : list N) : N :=
  match sizes with
  | [] => 0
  | n :: sizes => if n <=? lft then n + consumed (lft - n) sizes else consumed lft sizes
  end.

Lemma read_one rest n :
  ioctl_reader_read rest n =
  if n <=? nlen rest then (inl (take n rest), drop n rest) else (inr tt, rest).
Proof.
  unfold ioctl_reader_read.
  destruct (N.eqb_spec n (nlen rest)) as [->|].
  - destruct (N.leb_spec (nlen rest) (nlen rest)); [|lia].
    rewrite take_all, drop_all by lia. reflexivity.
  - destruct (N.ltb_spec (nlen rest) n); destruct (N.leb_spec n (nlen rest)); try lia; reflexivity.
Qed.

Lemma consumed_le lft sizes : consumed lft sizes <= lft.
Proof.
  revert lft. induction sizes as [|n sizes IH]; intros lft; cbn [consumed]; [lia|].
  destruct (N.leb_spec n lft); [pose proof (IH (lft - n)); lia|apply IH].
Qed.

Theorem C12_reader input before n after :
  let '(results, lft) := read_all input (before ++ n :: after) in
  let pos := consumed (nlen input) before in
  nth_error results (length before) =
    Some (if n <=? nlen input - pos then inl (slice pos n input) else inr tt) /\
  lft = drop (consumed (nlen input) (before ++ n :: after)) input.
Proof.
  revert input. induction before as [|m before IH]; intros input; cbn [app read_all consumed length].
  - rewrite read_one, N.sub_0_r.
    assert (L : forall sizes rest, snd (read_all rest sizes) = drop (consumed (nlen rest) sizes) rest).
    { clear. induction sizes as [|n sizes IH]; intros rest; cbn [read_all consumed].
      - now rewrite drop_0.
      - rewrite read_one. destruct (n <=? nlen rest) eqn:En.
        + specialize (IH (drop n rest)). destruct (read_all (drop n rest) sizes); cbn [snd] in *.
          rewrite IH, nlen_drop, drop_drop. reflexivity.
        + specialize (IH rest). destruct (read_all rest sizes); cbn [snd] in *. exact IH. }
    destruct (n <=? nlen input) eqn:En.
    + specialize (L after (drop n input)). destruct (read_all (drop n input) after) as [rs r].
      cbn [snd nth_error] in *. split.
      * unfold slice. now rewrite drop_0.
      * rewrite L, nlen_drop, drop_drop. reflexivity.
    + specialize (L after input). destruct (read_all input after) as [rs r].
      cbn [snd nth_error] in *. split; [reflexivity|exact L].
  - rewrite read_one. destruct (m <=? nlen input) eqn:Em.
    + specialize (IH (drop m input)).
      destruct (read_all (drop m input) (before ++ n :: after)) as [rs r].
      cbn [nth_error]. rewrite nlen_drop in IH. destruct IH as [IH1 IH2]. split.
      * rewrite IH1. unfold slice. rewrite drop_drop.
        replace (nlen input - (m + consumed (nlen input - m) before))
          with (nlen input - m - consumed (nlen input - m) before) by lia.
        reflexivity.
      * rewrite IH2, drop_drop. reflexivity.
    + specialize (IH input). destruct (read_all input (before ++ n :: after)) as [rs r].
      cbn [nth_error]. exact IH.
Qed.

(** What is left of a reader after reads of the given sizes. *)
Definition after_reads (empty : N) (r : IoctlInputReader) (sizes : list N) : IoctlInputReader :=
  fold_left (fun r n => snd (reader_read empty r n)) sizes r.

Lemma after_reads_at empty sizes : forall r,
  let r' := after_reads empty r sizes in
  let pos := consumed (nlen (ir_bytes r)) sizes in
  ir_bytes r' = drop pos (ir_bytes r) /\
  (pos < nlen (ir_bytes r) -> ir_addr r' = ir_addr r + pos).
Proof.
  induction sizes as [|n sizes IH]; intros r; cbn [after_reads fold_left consumed].
  - rewrite drop_0. split; [reflexivity|lia].
  - change (fold_left _ sizes (snd (reader_read empty r n)))
      with (after_reads empty (snd (reader_read empty r n)) sizes).
    specialize (IH (snd (reader_read empty r n))). revert IH.
    unfold reader_read. rewrite read_one.
    destruct (n <=? nlen (ir_bytes r)) eqn:En; cbn [snd ir_bytes ir_addr]; intros [I1 I2].
    + rewrite nlen_drop in I1, I2. rewrite drop_drop in I1. split; [exact I1|].
      intros L. rewrite I2 by lia. destruct (N.eqb_spec n (nlen (ir_bytes r))); lia.
    + split; assumption.
Qed.

(** A typed read after any reads: it fails and takes nothing if too little is
    left; otherwise it returns the bytes at the cursor, and it is defined
    exactly if they are aligned for the type. *)
Theorem C12_transmute empty addr input before align size :
  0 < size ->
  let r := after_reads empty {| ir_addr := addr; ir_bytes := input |} before in
  let pos := consumed (nlen input) before in
  (nlen input - pos < size -> read_transmute empty align size r = Ret (inr tt, r)) /\
  (size <= nlen input - pos ->
   ((addr + pos) mod align = 0 ->
    exists r', read_transmute empty align size r = Ret (inl (slice pos size input), r') /\
               ir_bytes r' = drop (pos + size) input) /\
   ((addr + pos) mod align <> 0 -> read_transmute empty align size r = Ub)).
Proof.
  intros Hs r pos.
  destruct (after_reads_at empty before {| ir_addr := addr; ir_bytes := input |}) as [B A].
  cbn [ir_addr ir_bytes] in A, B. fold r in A, B. fold pos in A, B.
  assert (L : nlen (ir_bytes r) = nlen input - pos) by (rewrite B; apply nlen_drop).
  unfold read_transmute, reader_read. rewrite read_one, L. split; intros Hn.
  - destruct (N.leb_spec size (nlen input - pos)); [lia|]. reflexivity.
  - destruct (N.leb_spec size (nlen input - pos)); [|lia]. cbn [ir_addr ir_bytes].
    rewrite A by lia. split; intros M.
    + rewrite M. cbn [N.eqb]. eexists. split; [rewrite B; reflexivity|].
      cbn [ir_bytes]. now rewrite drop_drop.
    + destruct (N.eqb_spec ((addr + pos) mod align) 0); [contradiction|reflexivity].
Qed.

(** The input of an IOCTL request lies 72 bytes into the buffer.  In a buffer
    aligned to 8 bytes, typed reads after reads of multiples of their alignment
    are defined. *)
Lemma ioctl_input_at is_cuse buf rq req :
  Request_new buf = Ret rq -> IoctlRequest_try_from is_cuse rq = Ret req ->
  ioctl_input req = slice 72 (nlen (ioctl_input req)) buf.
Proof.
  intros H T. destruct (Request_new_accepted buf rq H) as [-> A].
  pose proof (accepted_fits _ A) as F. cbn [rq_mem] in F.
  assert (C0 : cursor (u32_at 0 buf) 40) by (unfold cursor; lia).
  revert T. unfold IoctlRequest_try_from. rewrite at_new by auto. cbn [bind rq_mem].
  destruct (expect_opcode _ _); cbn [bind]; [|discriminate..].
  destruct (d_header _); cbn [bind]; [|discriminate..].
  destruct (next_sized_cases 32 buf _ 40 F C0 eq_refl) as [->|(C1 & L1 & ->)]; cbn [bind];
    [discriminate|].
  destruct (if is_cuse then _ else _); cbn [bind]; [|discriminate..].
  destruct (rd32 24 _) as [n| | |]; cbn [bind]; [|discriminate..].
  destruct (next_bytes_cases n buf _ _ F C1) as [->|(C2 & L2 & ->)]; cbn [bind]; [discriminate|].
  intros [= <-]. cbn [ioctl_input]. change (40 + 32) with 72.
  unfold fits in F. rewrite nlen_slice, N.min_l by lia. reflexivity.
Qed.

Theorem C12_input_aligned is_cuse buf rq req empty addr before align size :
  Request_new buf = Ret rq -> IoctlRequest_try_from is_cuse rq = Ret req ->
  addr mod 8 = 0 -> In align [1; 2; 4; 8] -> 0 < size ->
  Forall (fun n => n mod align = 0) before ->
  ioctl_input req = slice 72 (nlen (ioctl_input req)) buf /\
  defined (read_transmute empty align size
    (after_reads empty {| ir_addr := addr + 72; ir_bytes := ioctl_input req |} before)).
Proof.
  intros H T A8 Al Hs B. split; [now apply (ioctl_input_at is_cuse buf rq)|].
  assert (Al0 : align <> 0) by (cbn in Al; lia).
  assert (M : forall l lft, Forall (fun n => n mod align = 0) l -> consumed lft l mod align = 0).
  { intros l. induction l as [|n l IH]; intros lft F; cbn [consumed]; [now apply N.mod_0_l|].
    inversion F; subst. destruct (n <=? lft); [|auto].
    rewrite N.add_mod, H2, IH by auto. now apply N.mod_0_l. }
  set (pos := consumed (nlen (ioctl_input req)) before).
  assert (P : (addr + 72 + pos) mod align = 0).
  { assert (Q : exists k, 8 = align * k)
      by (cbn in Al; destruct Al as [<-|[<-|[<-|[<-|[]]]]]; [exists 8|exists 4|exists 2|exists 1]; reflexivity).
    destruct Q as [k Q].
    assert (Q1 : exists j, addr + 72 = align * j).
    { exists (k * (addr / 8 + 9)). rewrite N.mul_assoc, <- Q. pose proof (N.div_mod addr 8). lia. }
    destruct Q1 as [j ->]. rewrite N.add_comm, N.mul_comm, N.mod_add by auto. now apply M. }
  destruct (C12_transmute empty (addr + 72) (ioctl_input req) before align size Hs) as [T1 T2].
  fold pos in T1, T2.
  destruct (N.lt_ge_cases (nlen (ioctl_input req) - pos) size) as [L|L].
  - rewrite (T1 L). split; discriminate.
  - destruct (T2 L) as [T3 _]. destruct (T3 P) as (r' & -> & _). split; discriminate.
Qed.

(** ** C13 *)
Theorem C13_forget is_cuse cf hd op :
  op_type op = RForget -> sendable is_cuse cf hd op -> delivered is_cuse cf hd op.
Proof. intros F S. apply deliver; auto; now rewrite F. Qed.

(** ** C15 *)
Theorem C15_missing cf hd op extra rest :
  good_header hd -> good_op cf op -> available false (op_type op) = true ->
  (about_node op = true /\ rh_nodeid hd = 0) \/ In 0 (body_node_ids op) ->
  40 + nlen (op_body cf op ++ extra) < U32 ->
  exists rq, Request_new (sent cf hd op extra rest) = Ret rq /\
  decode_view false cf (op_type op) rq =
  Fail match op with
       | OSymlink _ target =>
         if has_slash target then ENodeName NameContainsSlash else EMissingNodeId
       | _ => EMissingNodeId
       end.
Proof.
  intros G1 G2 A M L.
  exists {| rq_mem := sent cf hd op extra rest |}. split; [unfold sent; apply new_accepts; auto; lia|].
  assert (Ms : message cf hd op extra (40 + nlen (op_body cf op ++ extra)) (sent cf hd op extra rest))
    by (apply encode_message; auto; lia).
  assert (Le : 40 + nlen (op_body cf op) <= 40 + nlen (op_body cf op ++ extra)) by (rewrite nlen_app; lia).
  assert (Pl : plain_target op ->
    decode_view false cf (op_type op) {| rq_mem := sent cf hd op extra rest |} = Fail EMissingNodeId)
    by (intros P; eapply (decode_missing cf hd op extra); eauto).
  destruct op; try (apply Pl; exact I).
  destruct (has_slash target) eqn:Q.
  - apply has_slash_spec in Q.
    destruct (decode_slash cf hd name target extra _ _ Ms G2 Q) as (e & D & _ & Full).
    etransitivity; [exact D|]. f_equal. now apply Full.
  - apply Pl. intros H. apply has_slash_spec in H. congruence.
Qed.

Theorem C15_nonzero is_cuse cf t buf rq v :
  Request_new buf = Ret rq -> (t = RForget -> u32_at 40 buf < 268435456) ->
  decode_view is_cuse cf t rq = Ret v ->
  Forall (fun n => n <> 0) (view_node_ids v).
Proof.
  intros H T D. destruct (Request_new_accepted buf rq H) as [-> A].
  assert (Dec : t = RForget \/ t <> RForget) by (destruct t; auto; now right).
  destruct Dec as [->|Dec].
  - pose proof (forget_view_safe is_cuse cf _ A (T eq_refl)) as S. rewrite D in S. exact S.
  - pose proof (decode_view_safe is_cuse cf t _ A Dec) as S. rewrite D in S. apply S.
Qed.

(** CUSE: every request but POLL is delivered with any node id. *)
Theorem C15_cuse cf hd op :
  op_type op <> RPoll -> good_header hd -> good_op cf op ->
  available true (op_type op) = true -> delivered true cf hd op.
Proof.
  intros P G1 G2 A. apply deliver.
  - repeat split; auto; try apply G2; try apply G1.
    + intros _ [?|?]; [discriminate|contradiction].
    + destruct op; try discriminate A; constructor.
  - destruct op; discriminate.
  - destruct op; discriminate.
Qed.

(** ** C16 *)

(** The offsets locked by the kernel's [start, end_] (both included;
    [i64::MAX] or more means up to the end of the file). *)
Definition locked (start end_ o : N) : Prop :=
  start <= o /\ (o <= end_ \/ 9223372036854775807 <= end_).

Theorem C16_getlk cf hd fh owner start end_ type pid lk_flags pad extra rest :
  let op := OGetlk fh owner start end_ type pid lk_flags pad in
  good_header hd -> rh_nodeid hd <> 0 -> Forall in_range (op_fields cf op) ->
  40 + nlen (op_body cf op ++ extra) < U32 ->
  exists rq, Request_new (sent cf hd op extra rest) = Ret rq /\
  match decode_view false cf RGetlk rq with
  | Ret (VGetlk node h o ty range) =>
    node = rh_nodeid hd /\ h = fh /\ o = owner /\ ty = type /\
    forall x, covers range x <->
      if start <=? end_ then locked start end_ x else end_ < x < start
  | Fail e => start = end_ + 1 /\ e = ELock EmptyRange
  | _ => False
  end.
Proof.
  intros op G1 Hn R L.
  exists {| rq_mem := sent cf hd op extra rest |}. split.
  - unfold sent; apply new_accepts; auto; lia.
  - rewrite (decode_getlk_any cf hd extra (40 + nlen (op_body cf op ++ extra)) _ fh owner start end_
               type pid lk_flags pad); auto; try (fold op; rewrite nlen_app; lia).
    2: apply encode_message; auto; lia.
    assert (Hs : start < U64 /\ end_ < U64).
    { cbn [op_fields op] in R. unfold lk_in in R. do 2 apply Forall_inv_tail in R.
      split; [exact (Forall_inv R)|]. apply Forall_inv_tail in R. exact (Forall_inv R). }
    pose proof (LockRange_decode_any start end_ (proj1 Hs) (proj2 Hs)) as D.
    destruct (LockRange_decode start end_) as [r| | |]; cbn [bind]; auto.
Qed.

Theorem C16_setlk cf hd wait fh owner start end_ type pid lk_flags pad extra rest :
  let op := OSetlk wait fh owner start end_ type pid lk_flags pad in
  good_header hd -> rh_nodeid hd <> 0 -> Forall in_range (op_fields cf op) ->
  40 + nlen (op_body cf op ++ extra) < U32 ->
  exists rq, Request_new (sent cf hd op extra rest) = Ret rq /\
  match decode_view false cf RSetlk rq with
  | Ret (VSetlk node h may_block o lock fl) =>
    node = rh_nodeid hd /\ h = fh /\ may_block = wait /\ o = owner /\ fl = lk_flags /\
    lk_mode lock = type /\ lk_pid lock = (if pid =? 0 then None else Some pid) /\
    forall x, covers (lk_range lock) x <->
      if start <=? end_ then locked start end_ x else end_ < x < start
  | Fail e => start = end_ + 1 /\ e = ELock EmptyRange
  | _ => False
  end.
Proof.
  intros op G1 Hn R L.
  exists {| rq_mem := sent cf hd op extra rest |}. split.
  - unfold sent; apply new_accepts; auto; lia.
  - rewrite (decode_setlk_any cf hd extra (40 + nlen (op_body cf op ++ extra)) _ wait fh owner start end_
               type pid lk_flags pad); auto; try (fold op; rewrite nlen_app; lia).
    2: apply encode_message; auto; lia.
    assert (Hs : start < U64 /\ end_ < U64).
    { cbn [op_fields op] in R. unfold lk_in in R. do 2 apply Forall_inv_tail in R.
      split; [exact (Forall_inv R)|]. apply Forall_inv_tail in R. exact (Forall_inv R). }
    pose proof (LockRange_decode_any start end_ (proj1 Hs) (proj2 Hs)) as D.
    destruct (LockRange_decode start end_) as [r| | |]; cbn [bind]; [|exact D..].
    do 7 (split; [reflexivity|]). exact D.
Qed.

Lemma rd64_bound o b x : rd64 o b = Ret x -> x < U64.
Proof.
  unfold rd64, rd. destruct (_ <=? _); [|discriminate]. intros H. injection H as <-.
  exact (u64_bound o b).
Qed.

Ltac open_binds X :=
  repeat match type of X with
  | bind ?m _ = Ret _ => let x := fresh "x" in let Y := fresh "Y" in
      destruct m as [x| | |] eqn:Y; [|discriminate X..]; cbn [bind] in X
  | (let (_, _) := ?p in _) = Ret _ => destruct p
  end.
(** [LockRange::end]: the last offset of a bounded range. *)
Theorem C16_end is_cuse cf t buf rq v range :
  Request_new buf = Ret rq -> decode_view is_cuse cf t rq = Ret v ->
  (exists n h o m, v = VGetlk n h o m range) \/
  (exists n h b o l f, v = VSetlk n h b o l f /\ range = lk_range l) ->
  match LockRange_end range with
  | Some last => lr_length range <> None /\
      forall x, covers range x <-> lr_start range <= x <= last
  | None => lr_length range = None /\ forall x, covers range x <-> lr_start range <= x
  end.
Proof.
  intros _ V H.
  assert (D : exists start end_, start < U64 /\ end_ < U64 /\ LockRange_decode start end_ = Ret range).
  { destruct H as [(n & h & o & m & ->)|(n & h & b & o & l & f & -> & ->)];
      destruct t; cbn [decode_view] in V;
      open_binds V; try discriminate V.
    - injection V as <- <- <- <- <-. unfold GetlkRequest_try_from in Y. open_binds Y.
      injection Y as <-. cbn [getlk_lock_range].
      match goal with H : LockRange_decode ?s ?e = Ret ?r |- context [?r] => exists s, e end.
      eauto using rd64_bound.
    - injection V as <- <- <- <- <- <-. unfold SetlkRequest_try_from in Y. open_binds Y.
      injection Y as <-. cbn [setlk_lock].
      match goal with H : Lock_decode ?s ?e _ _ = Ret ?r |- context [?r] =>
        unfold Lock_decode in H; open_binds H; injection H as <-; exists s, e end.
      cbn [lk_range]. eauto using rd64_bound. }
  destruct D as (start & end_ & S1 & S2 & D). clear V H.
  unfold LockRange_decode, OFFSET_MAX, i64_max, sat_add64, u64_max, U64 in *.
  unfold LockRange_end, covers, sat_add64, u64_max.
  destruct (N.ltb_spec end_ start).
  - replace (N.min 18446744073709551615 (end_ + 1)) with (end_ + 1) in D by lia.
    destruct (N.eqb_spec (start - (end_ + 1)) 0); [discriminate D|]. injection D as <-.
    cbn [lr_start lr_length]. split; [discriminate|]. intros x. lia.
  - destruct (N.leb_spec 9223372036854775807 end_).
    + injection D as <-. cbn [lr_start lr_length]. split; [reflexivity|]. intros x. tauto.
    + replace (N.min 18446744073709551615 (end_ - start + 1)) with (end_ - start + 1) in D by lia.
      destruct (N.eqb_spec (end_ - start + 1) 0); [discriminate D|]. injection D as <-.
      cbn [lr_start lr_length]. split; [discriminate|]. intros x. lia.
Qed.

(** ** C17 *)
Theorem C17_init cf hd major minor max_readahead flags flags2 unused extra rest :
  let op := OInit major minor max_readahead flags flags2 unused in
  good_header hd -> good_op cf op -> 40 + nlen (op_body cf op ++ extra) < U32 ->
  exists rq v ra fl, Request_new (sent cf hd op extra rest) = Ret rq /\
  decode_view false cf RFuseInit rq = Ret (VFuseInit v ra fl) /\
  v = {| v_major := major; v_minor := minor |} /\
  ra = (if (major =? 7) && (6 <=? minor) then max_readahead else 0) /\
  (forall i, N.testbit fl i =
     if negb ((major =? 7) && (6 <=? minor)) then false
     else if i <? 32 then N.testbit flags i
     else if minor <? 36 then false else N.testbit flags2 (i - 32)).
Proof.
  intros op G1 G2 L.
  destruct (deliver false cf hd op) with (extra := extra) (rest := rest) as (rq & H1 & H2); auto.
  { repeat split; auto; try apply G1; try apply G2; [discriminate|constructor]. }
  { discriminate. }
  { discriminate. }
  assert (Fl : (major =? 7) && (6 <=? minor) = true -> flags < 2 ^ 32).
  { intros B. destruct G2 as [R _]. cbn [op_fields op] in R.
    replace (negb (major =? 7) || (minor <? 6)) with false in R by lia.
    destruct (minor <? 36); do 3 apply Forall_inv_tail in R; exact (Forall_inv R). }
  assert (High : (major =? 7) && (6 <=? minor) = true -> forall i, 32 <= i -> N.testbit flags i = false).
  { intros B i Hi. rewrite <- (N.mod_small flags (2 ^ 32)) by auto.
    now rewrite N.mod_pow2_bits_high. }
  cbn [op_type expected op] in H2.
  exists rq. do 3 eexists. split; [exact H1|]. split.
  - rewrite H2. f_equal.
    instantiate (1 := if negb (major =? 7) || (minor <? 6) then 0 else
                      if minor <? 36 then flags else flags + 4294967296 * flags2).
    instantiate (1 := if negb (major =? 7) || (minor <? 6) then 0 else max_readahead).
    instantiate (1 := {| v_major := major; v_minor := minor |}).
    destruct (negb (major =? 7) || (minor <? 6)); [reflexivity|].
    destruct (minor <? 36); reflexivity.
  - split; [reflexivity|]. split.
    + replace ((major =? 7) && (6 <=? minor)) with (negb (negb (major =? 7) || (minor <? 6))) by lia.
      now destruct (negb (major =? 7) || (minor <? 6)).
    + intros i.
      replace (negb (major =? 7) || (minor <? 6)) with (negb ((major =? 7) && (6 <=? minor))) by lia.
      destruct ((major =? 7) && (6 <=? minor)) eqn:B; cbn [negb]; [|apply N.bits_0].
      specialize (Fl eq_refl). specialize (High eq_refl).
      destruct (minor <? 36).
      * destruct (N.ltb_spec i 32); [reflexivity|now apply High].
      * change 4294967296 with (2 ^ 32) in *. rewrite N.mul_comm.
        destruct (N.ltb_spec i 32).
        -- rewrite <- (N.mod_pow2_bits_low _ 32) by auto.
           rewrite N.mod_add by discriminate. now rewrite N.mod_small.
        -- replace i with (i - 32 + 32) at 1 by lia.
           rewrite <- N.div_pow2_bits, N.div_add, N.div_small by (auto; discriminate).
           reflexivity.
Qed.

End Props.

(** * Examples and refutations (little-endian) *)


Local Instance LE : Endian := false.

Definition cf36 : config :=
  {| cf_minor := 36; cf_setxattr_ext := true; cf_overflow_checks := false |}.
Definition cf8 : config :=
  {| cf_minor := 8; cf_setxattr_ext := false; cf_overflow_checks := true |}.
Definition hd5 : req_header :=
  {| rh_unique := 7; rh_nodeid := 5; rh_uid := 1000; rh_gid := 1000; rh_pid := 77;
     rh_padding := 0 |}.
Definition hd0 : req_header :=
  {| rh_unique := 7; rh_nodeid := 0; rh_uid := 1000; rh_gid := 1000; rh_pid := 77;
     rh_padding := 0 |}.

Ltac ranges := repeat (apply Forall_cons; [vm_compute; reflexivity|]); apply Forall_nil.
Ltac names :=
  repeat split; try discriminate;
  try (let H := fresh in intros H; cbn in H;
       repeat (destruct H as [H|H]; [discriminate H|]); exact H).
Ltac sendable_tac :=
  split; [split; [ranges|discriminate]|];
  split; [split; [ranges|try exact I; names]|];
  split; [reflexivity|];
  split; [let H := fresh in
          intros _ H; first [vm_compute; discriminate|destruct H as [H|H]; discriminate H]
         |repeat constructor; discriminate].

(** "ab" and "cd" *)
Definition ab : bytes := [x61; x62].
Definition cd : bytes := [x63; x64].

(** C01: a 40-byte STATFS message, one byte less, a zero request id. *)
Example C01_admission_example :
  let m := encode cf36 hd5 OStatfs in
  Request_new m = Ret {| rq_mem := m |} /\
  Request_new (take 39 m) = Fail EUnexpectedEof /\
  Request_new (wire [u32 40; u32 17; u64 0; u64 5; u32 0; u32 0; u32 0; u32 0])
    = Fail EInvalidRequestId /\
  Request_new (wire [u32 41; u32 17; u64 1; u64 5; u32 0; u32 0; u32 0; u32 0])
    = Fail EUnexpectedEof.
Proof. vm_compute. auto. Qed.

Example C01_accepted_only_example :
  exists rq, Request_new (encode cf36 hd5 OStatfs ++ ab) = Ret rq.
Proof. eexists. vm_compute. reflexivity. Qed.

Example C01_body_example :
  exists rq, Request_new (encode cf36 hd5 (OLookup ab)) = Ret rq /\
  body rq = Ret [x61; x62; x00].
Proof. eexists. split; vm_compute; reflexivity. Qed.

(** An accepted request may announce fewer bytes than its header has; then
    [body()] panics, and for length 0 [request_len()] stores 0 in a
    [NonZeroUsize]. *)
Theorem C01_min_length_refuted :
  exists buf rq, Request_new buf = Ret rq /\ u32_at 0 buf < 40 /\ body rq = Panic.
Proof.
  exists (wire [u32 39; u32 17; u64 1; u64 5; u32 0; u32 0; u32 0; u32 0]). eexists.
  repeat split; vm_compute; reflexivity.
Qed.
Theorem C01_zero_length_refuted :
  exists buf rq, Request_new buf = Ret rq /\ header_request_len rq = Ub.
Proof.
  exists (wire [u32 0; u32 17; u64 1; u64 5; u32 0; u32 0; u32 0; u32 0]). eexists.
  repeat split; vm_compute; reflexivity.
Qed.

(** C02: a WRITE message whose size field (1000) points far outside, and a
    LOOKUP message without a terminating NUL, both followed by other bytes. *)
Definition bad_write : bytes :=
  wire [u32 80; u32 16; u64 7; u64 5; u32 0; u32 0; u32 0; u32 0;
        u64 1; u64 0; u32 1000; u32 0; u64 0; u32 0; u32 0] ++ repeat x00 64.
Definition bad_lookup : bytes :=
  wire [u32 42; u32 1; u64 7; u64 5; u32 0; u32 0; u32 0; u32 0] ++ ab ++ repeat x00 64.
Example C02_no_read_outside_example :
  exists rq1 rq2,
  Request_new bad_write = Ret rq1 /\ decode_view false cf36 RWrite rq1 = Fail EUnexpectedEof /\
  Request_new bad_lookup = Ret rq2 /\ decode_view false cf36 RLookup rq2 = Fail EUnexpectedEof.
Proof. do 2 eexists. repeat split; vm_compute; reflexivity. Qed.

(** C03: a batch of two items, the first without a node id; a count the
    message does not hold. *)
Example C03_forget_inside_example :
  exists rq1 rq2,
  Request_new (encode cf36 hd5 (OBatchForget 0 [(0, 3); (8, 2)])) = Ret rq1 /\
  decode_view false cf36 RForget rq1 = Ret (VForget [(8, 2)]) /\
  Request_new (wire [u32 48; u32 42; u64 7; u64 5; u32 0; u32 0; u32 0; u32 0;
                     u32 268435455; u32 0]) = Ret rq2 /\
  decode_view false cf36 RForget rq2 = Fail EUnexpectedEof.
Proof. do 2 eexists. repeat split; vm_compute; reflexivity. Qed.

(** With a count of 2^28 the product [count * 16] wraps to 0: the item slice
    covers 4 GiB that the message does not have (release build), or the
    conversion panics (debug build). *)
Definition batch_2_28 : bytes :=
  wire [u32 48; u32 42; u64 7; u64 5; u32 0; u32 0; u32 0; u32 0; u32 268435456; u32 0].
Theorem C03_batch_overflow_refuted :
  exists buf rq, Request_new buf = Ret rq /\
  (exists cf, decode_view false cf RForget rq = Ub) /\
  (exists cf, decode_view false cf RForget rq = Panic).
Proof.
  exists batch_2_28. eexists. split; [vm_compute; reflexivity|].
  split; [exists cf36|exists cf8]; vm_compute; reflexivity.
Qed.

(** C04: the same LOOKUP followed by different stale bytes. *)
Example C04_ignores_rest_example :
  exists rq1 rq2,
  Request_new (encode cf36 hd5 (OLookup ab) ++ cd) = Ret rq1 /\
  Request_new (encode cf36 hd5 (OLookup ab) ++ repeat x2f 99) = Ret rq2 /\
  message_bytes (rq_mem rq1) = message_bytes (rq_mem rq2) /\
  decode_view false cf36 RLookup rq1 = Ret (VLookup 5 ab).
Proof. do 2 eexists. repeat split; vm_compute; reflexivity. Qed.

(** C05: a LOOKUP message is not a MKDIR request. *)
Example C05_opcode_example :
  exists rq, Request_new (encode cf36 hd5 (OLookup ab)) = Ret rq /\
  ~ In (u32_at 4 (rq_mem rq)) (type_opcodes RMkdir) /\
  decode_view false cf36 RMkdir rq = Fail EOpcodeMismatch.
Proof.
  eexists. repeat split; try (vm_compute; reflexivity).
  vm_compute. intros [H|[]]. discriminate H.
Qed.

(** C06: RENAME2 carries two names, after 56 bytes. *)
Example C06_names_example :
  exists rq v, Request_new (encode cf36 hd5 (ORename2 6 1 0 ab cd)) = Ret rq /\
  decode_view false cf36 RRename rq = Ret v /\
  view_strings v = [ab; cd] /\ strings_offset cf36 (u32_at 4 (rq_mem rq)) v = 56.
Proof. do 2 eexists. repeat split; vm_compute; reflexivity. Qed.

(** C07: READ and RELEASE before and after the layout changes, FUSE and CUSE. *)
Example C07_fixed_example_read :
  sendable false cf36 hd5 (ORead 11 4096 512 2 99 32768 0) /\
  expected false cf36 5 (ORead 11 4096 512 2 99 32768 0) =
    VRead 5 512 4096 11 (Some 99) 32768 /\
  sendable false cf8 hd5 (ORead 11 4096 512 2 99 32768 0) /\
  expected false cf8 5 (ORead 11 4096 512 2 99 32768 0) = VRead 5 512 4096 11 None 0.
Proof. split; [sendable_tac|split; [reflexivity|split; [sendable_tac|reflexivity]]]. Qed.
Example C07_fixed_example_release :
  sendable true cf8 hd0 (ORelease 11 1 2 99) /\
  expected true cf8 0 (ORelease 11 1 2 99) = VRelease 1 11 (Some 99) 1.
Proof. split; [sendable_tac|reflexivity]. Qed.

(** C08: MKNOD of a character device, LINK. *)
Example C08_named_example :
  sendable false cf36 hd5 (OMknod 8630 259 18 0 ab) /\
  expected false cf36 5 (OMknod 8630 259 18 0 ab) = VMknod 5 ab 8630 18 (Some 259) /\
  sendable false cf36 hd5 (OLink 9 cd) /\
  expected false cf36 5 (OLink 9 cd) = VLink 9 5 cd.
Proof. split; [sendable_tac|split; [reflexivity|split; [sendable_tac|reflexivity]]]. Qed.

Example C08_create_old_example :
  sendable false cf8 hd5 (OCreate 2 420 0 0 ab).
Proof. sendable_tac. Qed.

(** Before 7.12 the mode of a CREATE request is not delivered. *)
Theorem C08_create_mode_refuted :
  exists cf hd op, sendable false cf hd op /\ op_type op = RCreate /\
  exists rq, Request_new (sent cf hd op [] []) = Ret rq /\
  exists v, decode_view false cf RCreate rq = Ret v /\
  v <> expected false cf (rh_nodeid hd) op.
Proof.
  exists cf8, hd5, (OCreate 2 420 0 0 ab). split; [sendable_tac|]. split; [reflexivity|].
  eexists. split; [vm_compute; reflexivity|].
  eexists. split; [vm_compute; reflexivity|]. vm_compute. discriminate.
Qed.

Example C08_symlink_example :
  sendable false cf36 hd5 (OSymlink ab cd) /\ symlink_seen 5 ab cd = Ret (VSymlink 5 cd ab) /\
  sendable false cf36 hd5 (OSymlink ab (x2f :: cd)) /\
  symlink_seen 5 ab (x2f :: cd) = Fail (ENodeName NameContainsSlash).
Proof. split; [sendable_tac|split; [reflexivity|split; [sendable_tac|reflexivity]]]. Qed.

(** A SYMLINK request is delivered with its name and target exchanged. *)
Theorem C08_symlink_refuted :
  exists cf hd name target rq v, sendable false cf hd (OSymlink name target) /\
  expected false cf (rh_nodeid hd) (OSymlink name target) = VSymlink (rh_nodeid hd) name target /\
  Request_new (sent cf hd (OSymlink name target) [] []) = Ret rq /\
  decode_view false cf RSymlink rq = Ret v /\ v = VSymlink (rh_nodeid hd) target name /\ name <> target.
Proof.
  exists cf36, hd5, ab, cd. do 2 eexists. split; [sendable_tac|]. split; [reflexivity|].
  split; [vm_compute; reflexivity|]. split; [vm_compute; reflexivity|]. split; [reflexivity|discriminate].
Qed.
(** A link to an absolute path, or to one in another directory, cannot be made. *)
Theorem C08_symlink_path_refuted :
  exists cf hd name target rq, sendable false cf hd (OSymlink name target) /\
  Request_new (sent cf hd (OSymlink name target) [] []) = Ret rq /\
  decode_view false cf RSymlink rq = Fail (ENodeName NameContainsSlash).
Proof.
  exists cf36, hd5, ab, (x2f :: cd). eexists. split; [sendable_tac|]. split; vm_compute; reflexivity.
Qed.

(** C09 *)
Example C09_setxattr_example :
  sendable false cf36 hd5 (OSetxattr 1 0 0 ab cd) /\
  expected false cf36 5 (OSetxattr 1 0 0 ab cd) = VSetxattr 5 ab 0 1 cd.
Proof. split; [sendable_tac|reflexivity]. Qed.

(** With an empty attribute name the value is shifted by one byte. *)
Theorem C09_empty_name_refuted :
  exists cf hd flags value rq,
  Request_new (sent cf hd (OSetxattr flags 0 0 [] value) [] []) = Ret rq /\
  exists name' sf fl value', decode_view false cf RSetxattr rq =
    Ret (VSetxattr (rh_nodeid hd) name' sf fl value') /\
  name' = [] /\ value' <> value /\ value' = x00 :: take 1 value.
Proof.
  exists cf36, hd5, 1, ab. eexists. split; [vm_compute; reflexivity|].
  do 4 eexists. split; [vm_compute; reflexivity|]. vm_compute. repeat split; discriminate.
Qed.

(** C10 *)
Example C10_write_example :
  sendable true cf8 hd0 (OWrite 3 100 0 0 0 0 (ab ++ cd)) /\
  expected true cf8 0 (OWrite 3 100 0 0 0 0 (ab ++ cd)) = VWrite 1 100 3 (ab ++ cd) 0 None 0 /\
  sendable false cf36 hd5 (OWrite 3 100 2 77 1 0 (ab ++ cd)) /\
  expected false cf36 5 (OWrite 3 100 2 77 1 0 (ab ++ cd)) =
    VWrite 5 100 3 (ab ++ cd) 2 (Some 77) 1.
Proof. split; [sendable_tac|split; [reflexivity|split; [sendable_tac|reflexivity]]]. Qed.

(** C14: the WRITE above announced one byte short. *)
Example C14_truncated_example :
  sendable false cf36 hd5 (OWrite 3 100 2 77 1 0 (ab ++ cd)) /\
  40 + nlen (op_body cf36 (OWrite 3 100 2 77 1 0 (ab ++ cd))) = 84 /\
  exists rq, Request_new (encode_len cf36 hd5 (OWrite 3 100 2 77 1 0 (ab ++ cd)) [] 83) = Ret rq /\
  decode_view false cf36 RWrite rq = Fail EUnexpectedEof.
Proof.
  split; [sendable_tac|]. split; [vm_compute; reflexivity|].
  eexists. split; vm_compute; reflexivity.
Qed.

(** C11: set size and access time; an access time with 10^9 nanoseconds; the
    same nanoseconds in the unflagged modification time. *)
Definition setattr valid atimensec mtimensec :=
  OSetattr valid 0 1 4096 2 100 200 300 atimensec mtimensec 0 420 0 1000 1001 0.
Example C11_setattr_example :
  exists rq1 rq2 rq3,
  Request_new (sent cf36 hd5 (setattr 24 5 0) [] []) = Ret rq1 /\
  decode_view false cf36 RSetattr rq1 =
    Ret (VSetattr 5 None (Some 4096) None
           (Some {| ut_seconds := 100; ut_nanos := 5 |}) false None false None None None None) /\
  Request_new (sent cf36 hd5 (setattr 24 1000000000 0) [] []) = Ret rq2 /\
  decode_view false cf36 RSetattr rq2 = Fail ETimestampOverflow /\
  Request_new (sent cf36 hd5 (setattr 24 5 1000000000) [] []) = Ret rq3 /\
  decode_view false cf36 RSetattr rq3 = decode_view false cf36 RSetattr rq1 /\
  overflows 24 1000000000 0 0 /\ ~ overflows 24 5 1000000000 0.
Proof.
  do 3 eexists. repeat (split; [vm_compute; reflexivity|]). split.
  - left. split; vm_compute; reflexivity.
  - unfold overflows. intros [[_ H]|[[H _]|[H _]]]; vm_compute in H; discriminate H.
Qed.

(** C12 *)
Example C12_ioctl_example :
  sendable true cf36 hd0 (OIoctl 3 0 21505 4096 8 (ab ++ cd)) /\
  expected true cf36 0 (OIoctl 3 0 21505 4096 8 (ab ++ cd)) =
    VIoctl 1 3 21505 4096 (ab ++ cd) 4 8 0.
Proof. split; [sendable_tac|reflexivity]. Qed.
Example C12_reader_example :
  read_all (ab ++ cd) [3; 2; 0; 1; 1] =
  ([inl [x61; x62; x63]; inr tt; inl []; inl [x64]; inr tt], []).
Proof. reflexivity. Qed.

(** A word after a word; a word after a byte is misaligned. *)
Example C12_transmute_example :
  let r := {| ir_addr := 1096; ir_bytes := ab ++ cd ++ ab ++ cd |} in
  (exists r', read_transmute 5 4 4 (after_reads 5 r [4]) = Ret (inl (ab ++ cd), r')) /\
  read_transmute 5 4 4 (after_reads 5 r [5]) = Ret (inr tt, after_reads 5 r [5]).
Proof. split; [eexists|]; reflexivity. Qed.
Example C12_input_aligned_example :
  exists rq req, Request_new (sent cf36 hd0 (OIoctl 3 0 21505 4096 8 (ab ++ cd)) [] []) = Ret rq /\
  IoctlRequest_try_from true rq = Ret req /\ ioctl_input req = ab ++ cd.
Proof. do 2 eexists. split; [vm_compute; reflexivity|]. split; vm_compute; reflexivity. Qed.
(** A word read after a single byte, from an IOCTL request in an aligned
    buffer. *)
Theorem C12_transmute_refuted :
  exists buf rq req addr, Request_new buf = Ret rq /\ IoctlRequest_try_from true rq = Ret req /\
  addr mod 8 = 0 /\
  read_transmute 0 4 4
    (after_reads 0 {| ir_addr := addr + 72; ir_bytes := ioctl_input req |} [1]) = Ub.
Proof.
  exists (sent cf36 hd0 (OIoctl 3 0 21505 4096 8 (ab ++ cd ++ ab)) [] []). do 2 eexists. exists 4096.
  split; [vm_compute; reflexivity|]. split; [vm_compute; reflexivity|]. split; vm_compute; reflexivity.
Qed.

(** C13 *)
Example C13_forget_example :
  sendable false cf36 hd5 (OForget 3) /\
  expected false cf36 5 (OForget 3) = VForget [(5, 3)] /\
  sendable false cf36 hd5 (OBatchForget 0 [(8, 1); (0, 4); (9, 2)]) /\
  expected false cf36 5 (OBatchForget 0 [(8, 1); (0, 4); (9, 2)]) = VForget [(8, 1); (9, 2)].
Proof.
  split; [sendable_tac|]. split; [reflexivity|]. split; [|reflexivity].
  split; [split; [ranges|discriminate]|].
  split; [split; [ranges|split; [vm_compute; reflexivity|]]|].
  - repeat (apply Forall_cons; [ranges|]). apply Forall_nil.
  - split; [reflexivity|]. split; [intros; discriminate|constructor].
Qed.

(** C15: a LOOKUP without a parent; a LINK whose old node id is missing; CUSE
    READ with and without a node id. *)
Example C15_missing_example :
  exists rq1 rq2,
  Request_new (sent cf36 hd0 (OLookup ab) [] []) = Ret rq1 /\
  decode_view false cf36 RLookup rq1 = Fail EMissingNodeId /\
  Request_new (sent cf36 hd5 (OLink 0 ab) [] []) = Ret rq2 /\
  decode_view false cf36 RLink rq2 = Fail EMissingNodeId /\
  good_op cf36 (OLookup ab) /\ good_op cf36 (OLink 0 ab).
Proof.
  do 2 eexists. repeat (split; [vm_compute; reflexivity|]).
  split; (split; [ranges|names]).
Qed.
Example C15_nonzero_example :
  exists rq v, Request_new (encode cf36 hd5 (OLink 9 ab)) = Ret rq /\
  decode_view false cf36 RLink rq = Ret v /\ view_node_ids v = [9; 5].
Proof. do 2 eexists. repeat split; vm_compute; reflexivity. Qed.
Example C15_cuse_example :
  good_header hd0 /\ good_op cf36 (ORead 11 4096 512 2 99 32768 0) /\
  expected true cf36 0 (ORead 11 4096 512 2 99 32768 0) = VRead 1 512 4096 11 (Some 99) 32768.
Proof. split; [split; [ranges|discriminate]|]. split; [split; [ranges|exact I]|reflexivity]. Qed.

(** A CUSE POLL request with node id 0 is rejected. *)
Theorem C15_cuse_poll_refuted :
  exists cf hd op rq, good_header hd /\ good_op cf op /\ op_type op = RPoll /\
  Request_new (sent cf hd op [] []) = Ret rq /\
  decode_view true cf RPoll rq = Fail EMissingNodeId.
Proof.
  exists cf36, hd0, (OPoll 1 2 0 4). eexists.
  split; [split; [ranges|discriminate]|]. split; [split; [ranges|exact I]|].
  repeat split; vm_compute; reflexivity.
Qed.

(** C16: bytes 10 to 19; a reversed range; up to the end of the file. *)
Definition setlk start end_ := OSetlk true 1 2 start end_ 1 33 0 0.
Example C16_setlk_example :
  exists rq1 rq2 rq3 rq4,
  Request_new (sent cf36 hd5 (setlk 10 19) [] []) = Ret rq1 /\
  decode_view false cf36 RSetlk rq1 = Ret (VSetlk 5 1 true 2
    {| lk_mode := 1; lk_range := {| lr_start := 10; lr_length := Some 10 |};
       lk_pid := Some 33 |} 0) /\
  Request_new (sent cf36 hd5 (setlk 10 5) [] []) = Ret rq2 /\
  decode_view false cf36 RSetlk rq2 = Ret (VSetlk 5 1 true 2
    {| lk_mode := 1; lk_range := {| lr_start := 6; lr_length := Some 4 |};
       lk_pid := Some 33 |} 0) /\
  Request_new (sent cf36 hd5 (setlk 10 9) [] []) = Ret rq3 /\
  decode_view false cf36 RSetlk rq3 = Fail (ELock EmptyRange) /\
  Request_new (sent cf36 hd5 (setlk 10 9223372036854775807) [] []) = Ret rq4 /\
  decode_view false cf36 RSetlk rq4 = Ret (VSetlk 5 1 true 2
    {| lk_mode := 1; lk_range := {| lr_start := 10; lr_length := None |};
       lk_pid := Some 33 |} 0).
Proof. do 4 eexists. repeat (split; [vm_compute; reflexivity|]). vm_compute; reflexivity. Qed.
Example C16_end_example :
  exists rq, Request_new (sent cf36 hd5 (OGetlk 1 2 10 19 1 33 0 0) [] []) = Ret rq /\
  exists range, decode_view false cf36 RGetlk rq = Ret (VGetlk 5 1 2 1 range) /\
  LockRange_end range = Some 19.
Proof. eexists. split; [reflexivity|]. eexists. split; vm_compute; reflexivity. Qed.
Example C16_getlk_example :
  exists rq, Request_new (sent cf36 hd5 (OGetlk 1 2 10 19 1 33 0 0) [] []) = Ret rq /\
  decode_view false cf36 RGetlk rq =
    Ret (VGetlk 5 1 2 1 {| lr_start := 10; lr_length := Some 10 |}).
Proof. eexists. split; vm_compute; reflexivity. Qed.

(** C17: 7.36 with high flags, 7.31, 7.5. *)
Definition init minor := OInit 7 minor 131072 3 5 (repeat x00 44).
Example C17_init_example :
  exists rq1 rq2 rq3,
  Request_new (sent cf36 hd5 (init 36) [] []) = Ret rq1 /\
  decode_view false cf36 RFuseInit rq1 =
    Ret (VFuseInit {| v_major := 7; v_minor := 36 |} 131072 (3 + 5 * 2 ^ 32)) /\
  Request_new (sent cf36 hd5 (init 31) [] []) = Ret rq2 /\
  decode_view false cf36 RFuseInit rq2 =
    Ret (VFuseInit {| v_major := 7; v_minor := 31 |} 131072 3) /\
  Request_new (sent cf36 hd5 (init 5) [] []) = Ret rq3 /\
  decode_view false cf36 RFuseInit rq3 = Ret (VFuseInit {| v_major := 7; v_minor := 5 |} 0 0) /\
  good_op cf36 (init 36).
Proof.
  do 3 eexists. repeat (split; [vm_compute; reflexivity|]). split; [ranges|reflexivity].
Qed.


Print Assumptions C01_admission.
Print Assumptions C01_accepted_only.
Print Assumptions C01_body.
Print Assumptions C02_no_read_outside.
Print Assumptions C03_forget_inside.
Print Assumptions C04_ignores_rest.
Print Assumptions C05_opcode.
Print Assumptions C06_names.
Print Assumptions C07_fixed.
Print Assumptions C08_named.
Print Assumptions C08_create_old.
Print Assumptions C09_setxattr.
Print Assumptions C10_write.
Print Assumptions C11_setattr.
Print Assumptions C12_ioctl.
Print Assumptions C12_reader.
Print Assumptions C12_transmute.
Print Assumptions C12_input_aligned.
Print Assumptions C12_transmute_refuted.
Print Assumptions C13_forget.
Print Assumptions C08_symlink.
Print Assumptions C08_symlink_refuted.
Print Assumptions C08_symlink_path_refuted.
Print Assumptions C14_truncated.
Print Assumptions C15_missing.
Print Assumptions C15_nonzero.
Print Assumptions C15_cuse.
Print Assumptions C16_getlk.
Print Assumptions C16_setlk.
Print Assumptions C16_end.
Print Assumptions C17_init.
Print Assumptions C01_min_length_refuted.
Print Assumptions C01_zero_length_refuted.
Print Assumptions C03_batch_overflow_refuted.
Print Assumptions C08_create_mode_refuted.
Print Assumptions C09_empty_name_refuted.
Print Assumptions C15_cuse_poll_refuted.
