(** Theorems about value types: C37-C40 and C52 of properties.jsonl. *)

From Verif Require Import Base Kernel CoreModel DecodeModel OpsModel ReplyModel ReplySpec ReplyProofs.
From Coq Require Import List NArith ZArith Bool Lia ZifyBool ZifyNat ZifyN.
Import ListNotations.
Open Scope N_scope.

(** ** C37: cache timeouts *)

(** What [cache_timeout] of an entry returns after any calls: the timeout set
    last, or the longest one the protocol can express. *)
Lemma new_capped d : duration_ok d -> new_duration (fst (capped d)) (snd (capped d)) = capped d.
Proof.
  unfold duration_ok, capped, new_duration, i64_max, MAX_NANOS, I64. intros [? ?].
  destruct (N.ltb_spec (fst d) 9223372036854775808); [|reflexivity].
  rewrite !N.min_l by lia. now destruct d.
Qed.

Lemma last_set_inv {O A} (pick : O -> option A) (P : A -> Prop) (ok : O -> Prop) :
  (forall o a, ok o -> pick o = Some a -> P a) ->
  forall ops d, Forall ok ops -> P d -> P (last_set pick ops d).
Proof.
  intros H ops. induction ops as [|o r IH]; intros d F Hd; cbn; auto.
  inversion F; subst. apply IH; auto. destruct (pick o) eqn:P'; eauto.
Qed.

Theorem C37_entry attr ops :
  Forall entry_op_ok ops ->
  let e := entry_calls ops (Entry_new attr) in
  let cache := last_set (fun c => match c with SetCacheTimeout d => Some d | _ => None end)
                        ops (0, 0) in
  let attrs := last_set (fun c => match c with SetAttrTimeout d => Some d | _ => None end)
                        ops (0, 0) in
  Entry_cache_timeout e = capped cache /\
  Entry_attribute_cache_timeout e = capped attrs /\
  (fst cache < 2 ^ 63 -> Entry_cache_timeout e = cache) /\
  (fst attrs < 2 ^ 63 -> Entry_attribute_cache_timeout e = attrs) /\
  (2 ^ 63 <= fst cache -> Entry_cache_timeout e = (2 ^ 63 - 1, 0)) /\
  (2 ^ 63 <= fst attrs -> Entry_attribute_cache_timeout e = (2 ^ 63 - 1, 0)) /\
  eo_entry_valid_nsec e < 1000000000 /\ eo_attr_valid_nsec e < 1000000000.
Proof.
  intros Hops e cache attrs.
  assert (Oc : duration_ok cache).
  { apply (last_set_inv _ _ entry_op_ok); auto; [|split; reflexivity].
    intros o a Ho Ha. destruct o; try discriminate. injection Ha as <-. exact Ho. }
  assert (Oa : duration_ok attrs).
  { apply (last_set_inv _ _ entry_op_ok); auto; [|split; reflexivity].
    intros o a Ho Ha. destruct o; try discriminate. injection Ha as <-. exact Ho. }
  assert (Ec : (eo_entry_valid e, eo_entry_valid_nsec e) = capped cache).
  { unfold e, cache. rewrite <- split_capped, <- last_set_map.
    apply (calls_field entry_call (fun e => (eo_entry_valid e, eo_entry_valid_nsec e))).
    destruct o; auto. cbn. now destruct (split_duration d). }
  assert (Ea : (eo_attr_valid e, eo_attr_valid_nsec e) = capped attrs).
  { unfold e, attrs. rewrite <- split_capped, <- last_set_map.
    apply (calls_field entry_call (fun e => (eo_attr_valid e, eo_attr_valid_nsec e))).
    destruct o; auto. cbn. now destruct (split_duration d). }
  assert (Rc : Entry_cache_timeout e = capped cache).
  { unfold Entry_cache_timeout. pose proof (new_capped cache Oc) as H. rewrite <- Ec in H at 1 2.
    exact H. }
  assert (Ra : Entry_attribute_cache_timeout e = capped attrs).
  { unfold Entry_attribute_cache_timeout. pose proof (new_capped attrs Oa) as H.
    rewrite <- Ea in H at 1 2. exact H. }
  assert (Nc : snd (capped cache) < 1000000000).
  { unfold capped. destruct (_ <? _); [apply Oc|reflexivity]. }
  assert (Na : snd (capped attrs) < 1000000000).
  { unfold capped. destruct (_ <? _); [apply Oa|reflexivity]. }
  rewrite <- Ec in Nc. rewrite <- Ea in Na.
  repeat match goal with |- _ /\ _ => split end; auto; rewrite ?Rc, ?Ra; unfold capped, I64;
    change (2 ^ 63) with 9223372036854775808;
    change (9223372036854775808 - 1) with 9223372036854775807;
    match goal with |- _ <= fst ?x -> _ => destruct (N.ltb_spec (fst x) 9223372036854775808)
    | |- fst ?x < _ -> _ => destruct (N.ltb_spec (fst x) 9223372036854775808) end;
    try reflexivity; intros; exfalso; lia.
Qed.

(** ** C38: timestamps *)

Section Times.
Context {E : Endian}.

(** Every way a program without [unsafe] can get hold of a [UnixTime]. *)
Inductive obtained : UnixTime -> Prop :=
| ob_epoch : obtained UnixTime_EPOCH
| ob_new s n t :
    (- 2 ^ 63 <= s < 2 ^ 63)%Z -> n < U32 -> UnixTime_new s n = Some t -> obtained t
| ob_seconds s : (- 2 ^ 63 <= s < 2 ^ 63)%Z -> obtained (UnixTime_from_seconds s)
| ob_request is_cuse cf rq n a b c at_ f mt g ct h i j t :
    decode_view is_cuse cf RSetattr rq = Ret (VSetattr n a b c at_ f mt g ct h i j) ->
    at_ = Some t \/ mt = Some t \/ ct = Some t -> obtained t
| ob_attr id ops a t :
    (forall t', In (SetAtime t') ops \/ In (SetMtime t') ops \/ In (SetCtime t') ops ->
                obtained t') ->
    a = attr_calls ops (NodeAttr_new id) ->
    t = NodeAttr_atime a \/ t = NodeAttr_mtime a \/ t = NodeAttr_ctime a -> obtained t.

(** The time, in nanoseconds since the epoch. *)
Definition instant (t : UnixTime) : Z := ut_seconds t * 1000000000 + Z.of_N (ut_nanos t).

Lemma bind_ret {A B} (m : out A) (k : A -> out B) x :
  bind m k = Ret x -> exists a, m = Ret a /\ k a = Ret x.
Proof. destruct m; cbn; try discriminate. eauto. Qed.

Lemma timestamp_ok r mask s o t :
  (valid <- rd32 0 (hb_body r) ;;
   if 0 <? N.land valid mask
   then ns <- rd32 o (hb_body r) ;; check_timespec_nanos ns else Ret tt) = Ret tt ->
  Setattr_get_timestamp r mask (rd64 s (hb_body r)) (rd32 o (hb_body r)) = Ret (Some t) ->
  time_ok t.
Proof.
  unfold Setattr_get_timestamp. intros C H.
  apply bind_ret in H as (valid & V & H). rewrite V in C. cbn [bind] in C.
  apply bind_ret in H as (sec & S & H). apply bind_ret in H as (ns & Ns & H).
  rewrite Ns in C. cbn [bind] in C.
  destruct (N.eqb_spec (N.land valid mask) 0) as [Z|Z]; [discriminate|].
  injection H as <-. destruct (N.ltb_spec 0 (N.land valid mask)); [|lia].
  unfold check_timespec_nanos, MAX_NANOS in C.
  destruct (N.ltb_spec 999999999 ns); [discriminate|].
  unfold time_ok, UnixTime_from_timespec. cbn [ut_seconds ut_nanos]. split; [|lia].
  unfold rd64, rd in S. destruct (_ <=? _); [|discriminate]. injection S as <-.
  pose proof (u64_bound s (hb_body r)) as B. unfold u64_at in B.
  set (v := fld 8 s (hb_body r)) in *. clearbody v.
  unfold as_i64, I64, U64 in *. destruct (N.ltb_spec v 9223372036854775808); lia.
Qed.

Lemma request_time is_cuse cf rq n a b c at_ f mt g ct h i j t :
  decode_view is_cuse cf RSetattr rq = Ret (VSetattr n a b c at_ f mt g ct h i j) ->
  at_ = Some t \/ mt = Some t \/ ct = Some t -> time_ok t.
Proof.
  intros H Ht. cbn [decode_view] in H.
  apply bind_ret in H as (r & D & H).
  assert (C : forall mask o, In (mask, o) [(FATTR_ATIME, 56); (FATTR_MTIME, 60); (FATTR_CTIME, 64)] ->
    (valid <- rd32 0 (hb_body r) ;;
     if 0 <? N.land valid mask
     then ns <- rd32 o (hb_body r) ;; check_timespec_nanos ns else Ret tt) = Ret tt).
  { unfold SetattrRequest_try_from in D.
    apply bind_ret in D as (dec & _ & D). apply bind_ret in D as (? & _ & D).
    apply bind_ret in D as (hd & _ & D). apply bind_ret in D as (? & _ & D).
    apply bind_ret in D as (? & _ & D). apply bind_ret in D as ([raw dec'] & _ & D).
    apply bind_ret in D as (valid & V & D).
    apply bind_ret in D as ([] & C1 & D). apply bind_ret in D as ([] & C2 & D).
    apply bind_ret in D as ([] & C3 & D). injection D as <-. cbn [hb_body].
    intros mask o [X|[X|[X|[]]]]; injection X as <- <-; rewrite V; assumption. }
  apply bind_ret in H as (? & _ & H). apply bind_ret in H as (? & _ & H).
  apply bind_ret in H as (? & _ & H). apply bind_ret in H as (? & _ & H).
  apply bind_ret in H as (e & Ha & H). apply bind_ret in H as (? & _ & H).
  apply bind_ret in H as (m & Hm & H). apply bind_ret in H as (? & _ & H).
  apply bind_ret in H as (k & Hc & H). apply bind_ret in H as (? & _ & H).
  apply bind_ret in H as (? & _ & H). apply bind_ret in H as (? & _ & H).
  injection H as _ _ _ _ -> _ -> _ -> _ _ _.
  destruct Ht as [->|[->| ->]].
  - exact (timestamp_ok r FATTR_ATIME 32 56 t (C _ _ (or_introl eq_refl)) Ha).
  - exact (timestamp_ok r FATTR_MTIME 40 60 t (C _ _ (or_intror (or_introl eq_refl))) Hm).
  - exact (timestamp_ok r FATTR_CTIME 48 64 t
             (C _ _ (or_intror (or_intror (or_introl eq_refl)))) Hc).
Qed.

(** Attribute timestamps after any setter calls. *)
Lemma attr_time (fs fn : fuse_attr -> N) (pick : attr_op -> option UnixTime) id ops :
  (forall o a, (fs (attr_call o a), fn (attr_call o a)) =
     match pick o with Some t => UnixTime_as_timespec t | None => (fs a, fn a) end) ->
  (forall o t, In o ops -> pick o = Some t -> time_ok t) ->
  (fs (NodeAttr_new id), fn (NodeAttr_new id)) = (0, 0) ->
  let a := attr_calls ops (NodeAttr_new id) in
  UnixTime_from_timespec (fs a) (fn a) = last_set pick ops epoch /\
  time_ok (last_set pick ops epoch).
Proof.
  intros Hstep Hok Hzero a.
  assert (G : forall r t, time_ok t -> (fs r, fn r) = UnixTime_as_timespec t ->
    (fs (attr_calls ops r), fn (attr_calls ops r)) = UnixTime_as_timespec (last_set pick ops t) /\
    time_ok (last_set pick ops t)).
  { clear - Hstep Hok. induction ops as [|o r IH]; intros x t Ht Hx; cbn; auto.
    apply IH; [intros; eapply Hok; eauto; now right| |].
    - destruct (pick o) eqn:P; auto. eapply Hok; eauto. now left.
    - rewrite Hstep. destruct (pick o); auto. }
  destruct (G (NodeAttr_new id) epoch) as [G1 G2]; [split; cbn; lia| |].
  { rewrite Hzero. reflexivity. }
  split; auto. unfold UnixTime_as_timespec in G1. fold a in G1. injection G1 as -> ->.
  unfold UnixTime_from_timespec. rewrite as_i64_of_i64 by apply G2.
  now destruct (last_set pick ops epoch).
Qed.

(** Nanoseconds are below 10^9 (and seconds are an i64) in every [UnixTime] a
    program can have. *)
Theorem C38_normalised t : obtained t -> (- 2 ^ 63 <= ut_seconds t < 2 ^ 63)%Z /\ ut_nanos t < 1000000000.
Proof.
  intros H. change (time_ok t).
  induction H as [ |s n t Hs Hn H|s Hs|is_cuse cf rq n a b c at_ f mt g ct h i j t H Ht
                  |id ops a t _ IH -> Ht].
  - split; cbn; lia.
  - unfold UnixTime_new, MAX_NANOS in H. destruct (N.ltb_spec 999999999 n); [discriminate|].
    injection H as <-. split; cbn; lia.
  - split; cbn; lia.
  - eapply request_time; eauto.
  - destruct Ht as [->|[->| ->]].
    + unfold NodeAttr_atime.
      edestruct (attr_time fa_atime fa_atimensec
        (fun c => match c with SetAtime t => Some t | _ => None end) id ops) as [-> G]; auto.
      * destruct o; intros; cbn; auto; now destruct (UnixTime_as_timespec t).
      * intros o t Ho Hp. destruct o; try discriminate. injection Hp as <-. apply IH; auto.
    + unfold NodeAttr_mtime.
      edestruct (attr_time fa_mtime fa_mtimensec
        (fun c => match c with SetMtime t => Some t | _ => None end) id ops) as [-> G]; auto.
      * destruct o; intros; cbn; auto; now destruct (UnixTime_as_timespec t).
      * intros o t Ho Hp. destruct o; try discriminate. injection Hp as <-. apply IH; auto.
    + unfold NodeAttr_ctime.
      edestruct (attr_time fa_ctime fa_ctimensec
        (fun c => match c with SetCtime t => Some t | _ => None end) id ops) as [-> G]; auto.
      * destruct o; intros; cbn; auto; now destruct (UnixTime_as_timespec t).
      * intros o t Ho Hp. destruct o; try discriminate. injection Hp as <-. apply IH; auto.
Qed.

Theorem C38_new s n :
  (UnixTime_new s n = None <-> 1000000000 <= n) /\
  (n < 1000000000 -> exists t, UnixTime_new s n = Some t /\ ut_seconds t = s /\ ut_nanos t = n) /\
  (ut_seconds (UnixTime_from_seconds s) = s /\ ut_nanos (UnixTime_from_seconds s) = 0).
Proof.
  unfold UnixTime_new, MAX_NANOS. split; [|split; [|split; reflexivity]].
  - destruct (N.ltb_spec 999999999 n); split; intros; try discriminate; try reflexivity; lia.
  - intros. destruct (N.ltb_spec 999999999 n); [lia|]. eexists. split; [reflexivity|]. now split.
Qed.

(** The derived order is the order of instants. *)
Theorem C38_order a b :
  ut_nanos a < 1000000000 -> ut_nanos b < 1000000000 ->
  UnixTime_cmp a b = (instant a ?= instant b)%Z.
Proof.
  intros Ha Hb. unfold UnixTime_cmp, instant.
  destruct (Z.compare_spec (ut_seconds a) (ut_seconds b)) as [H|H|H].
  - rewrite H. destruct (N.compare_spec (ut_nanos a) (ut_nanos b)) as [G|G|G].
    + rewrite G. symmetry. apply Z.compare_refl.
    + symmetry. apply Z.compare_lt_iff. lia.
    + symmetry. apply Z.compare_gt_iff. lia.
  - symmetry. apply Z.compare_lt_iff. lia.
  - symmetry. apply Z.compare_gt_iff. lia.
Qed.

(** [EPOCH] is the instant 0 and [from_seconds] counts from it. *)
Theorem C38_epoch :
  instant UnixTime_EPOCH = 0%Z /\
  (forall s, instant (UnixTime_from_seconds s) = s * 1000000000)%Z /\
  (forall t, obtained t -> UnixTime_cmp UnixTime_EPOCH t = (0 ?= instant t)%Z).
Proof.
  split; [reflexivity|]. split; [intros s; unfold instant, UnixTime_from_seconds; cbn; lia|].
  intros t H. apply (C38_order UnixTime_EPOCH t); [reflexivity|]. now apply C38_normalised.
Qed.

Theorem C38_attributes id ops :
  Forall attr_op_ok ops ->
  let a := attr_calls ops (NodeAttr_new id) in
  NodeAttr_atime a =
    last_set (fun c => match c with SetAtime t => Some t | _ => None end) ops epoch /\
  NodeAttr_mtime a =
    last_set (fun c => match c with SetMtime t => Some t | _ => None end) ops epoch /\
  NodeAttr_ctime a =
    last_set (fun c => match c with SetCtime t => Some t | _ => None end) ops epoch.
Proof.
  intros F a. rewrite Forall_forall in F.
  repeat match goal with |- _ /\ _ => split end.
  - apply (attr_time fa_atime fa_atimensec
      (fun c => match c with SetAtime t => Some t | _ => None end)); auto.
    + destruct o; intros; cbn; auto; now destruct (UnixTime_as_timespec t).
    + intros o t Ho Hp. specialize (F o Ho). destruct o; try discriminate. injection Hp as <-. exact F.
  - apply (attr_time fa_mtime fa_mtimensec
      (fun c => match c with SetMtime t => Some t | _ => None end)); auto.
    + destruct o; intros; cbn; auto; now destruct (UnixTime_as_timespec t).
    + intros o t Ho Hp. specialize (F o Ho). destruct o; try discriminate. injection Hp as <-. exact F.
  - apply (attr_time fa_ctime fa_ctimensec
      (fun c => match c with SetCtime t => Some t | _ => None end)); auto.
    + destruct o; intros; cbn; auto; now destruct (UnixTime_as_timespec t).
    + intros o t Ho Hp. specialize (F o Ho). destruct o; try discriminate. injection Hp as <-. exact F.
Qed.

End Times.

(** ** C52: attributes and entries read back as set *)

Lemma flags_back s d :
  flags_get (bflag s d) 1 = s /\ flags_get (bflag s d) 2 = d.
Proof. destruct s, d; split; reflexivity. Qed.

Theorem C52_attributes id ops :
  let a := attr_calls ops (NodeAttr_new id) in
  let last {A} (pick : attr_op -> option A) d := last_set pick ops d in
  (id <> 0 -> NodeAttr_node_id a = Ret id) /\
  NodeAttr_mode a = last (fun c => match c with SetMode v => Some v | _ => None end) 0 /\
  NodeAttr_size a = last (fun c => match c with SetSize v => Some v | _ => None end) 0 /\
  NodeAttr_link_count a = last (fun c => match c with SetLinkCount v => Some v | _ => None end) 0 /\
  NodeAttr_user_id a = last (fun c => match c with SetUserId v => Some v | _ => None end) 0 /\
  NodeAttr_group_id a = last (fun c => match c with SetGroupId v => Some v | _ => None end) 0 /\
  NodeAttr_device_number a =
    last (fun c => match c with SetDeviceNumber v => Some v | _ => None end) 0 /\
  NodeAttr_block_count a =
    last (fun c => match c with SetBlockCount v => Some v | _ => None end) 0 /\
  NodeAttr_block_size a =
    last (fun c => match c with SetBlockSize v => Some v | _ => None end) 0 /\
  NodeAttr_flag_submount a =
    last (fun c => match c with SetSubmount b => Some b | _ => None end) false /\
  NodeAttr_flag_dax a = last (fun c => match c with SetDax b => Some b | _ => None end) false.
Proof.
  intros a last. unfold last, a, NodeAttr_flag_submount, NodeAttr_flag_dax.
  rewrite (attr_calls_flags ops (NodeAttr_new id) false false eq_refl). destruct (flags_back
    (last_set (fun c => match c with SetSubmount b => Some b | _ => None end) ops false)
    (last_set (fun c => match c with SetDax b => Some b | _ => None end) ops false)) as [-> ->].
  repeat match goal with |- _ /\ _ => split end; try reflexivity;
    try (apply attr_calls_field; destruct o; reflexivity).
  intros Hid. unfold NodeAttr_node_id.
  rewrite (attr_calls_field fa_ino (fun _ => None)) by (destruct o; reflexivity).
  assert (K : forall d : N, last_set (fun _ : attr_op => None) ops d = d)
    by (clear; induction ops; auto).
  rewrite K. cbn [fa_ino NodeAttr_new].
  unfold NodeId_new_unchecked. destruct (N.eqb_spec id 0); [lia|reflexivity].
Qed.

(** ** C39: file modes *)

(** The S_IFMT values of POSIX systems, in octal 010000, 020000, 040000,
    060000, 0100000, 0120000, 0140000. *)
Definition posix_type (t : FileType) : N :=
  match t with
  | NamedPipe => 4096 | CharacterDevice => 8192 | Directory => 16384 | BlockDevice => 24576
  | Regular => 32768 | Symlink => 40960 | SocketFile => 49152
  end.

Definition type_part (mode : N) : N := mode / 4096 mod 16 * 4096.

Lemma land_mask m k a : N.land m (N.ones k * 2 ^ a) = m / 2 ^ a mod 2 ^ k * 2 ^ a.
Proof.
  rewrite <- N.land_ones, <- N.shiftr_div_pow2, <- !N.shiftl_mul_pow2.
  apply N.bits_inj. intros i. rewrite N.land_spec.
  destruct (N.ltb_spec i a).
  - rewrite !N.shiftl_spec_low by lia. now rewrite andb_false_r.
  - rewrite !N.shiftl_spec_high by lia. rewrite N.land_spec, N.shiftr_spec by lia.
    now replace (i - a + a) with i by lia.
Qed.

Lemma type_bits_part mode : FileMode_type_bits mode = type_part mode.
Proof. exact (land_mask mode 4 12). Qed.

Theorem C39_from_mode mode t :
  FileType_from_mode mode = Some t <-> type_part mode = posix_type t.
Proof.
  unfold FileType_from_mode. rewrite type_bits_part. unfold type_part.
  rewrite N.shiftr_div_pow2. change (2 ^ 12) with 4096. rewrite N.div_mul by lia.
  pose proof (N.mod_lt (mode / 4096) 16 ltac:(lia)) as B.
  set (x := mode / 4096 mod 16) in *. clearbody x.
  assert (x = 0 \/ x = 1 \/ x = 2 \/ x = 3 \/ x = 4 \/ x = 5 \/ x = 6 \/ x = 7 \/ x = 8 \/ x = 9 \/
          x = 10 \/ x = 11 \/ x = 12 \/ x = 13 \/ x = 14 \/ x = 15) as D by lia.
  repeat destruct D as [-> | D]; [.. | subst x]; destruct t; vm_compute; split; congruence.
Qed.

Theorem C39_as_mode t perm :
  perm < 4096 ->
  FileType_as_mode t = posix_type t /\
  FileType_from_mode (FileMode_bitor (FileType_as_mode t) perm) = Some t /\
  FileMode_bitor (FileType_as_mode t) perm = posix_type t + perm.
Proof.
  intros H.
  assert (A : FileType_as_mode t = posix_type t) by (destruct t; reflexivity).
  assert (B : FileMode_bitor (FileType_as_mode t) perm = posix_type t + perm).
  { unfold FileMode_bitor. rewrite A. symmetry. rewrite <- N.lxor_lor, N.add_nocarry_lxor; auto;
    replace (posix_type t) with (N.shiftl (posix_type t / 4096) 12) by (destruct t; reflexivity);
    apply N.bits_inj; intros i; rewrite N.land_spec, N.bits_0;
    (destruct (N.ltb_spec i 12);
     [now rewrite N.shiftl_spec_low by lia |
      destruct (N.eqb_spec perm 0) as [->|];
      [now rewrite N.bits_0, andb_false_r|
       rewrite (N.bits_above_log2 perm i), andb_false_r; auto;
       assert (N.log2 perm < 12) by (apply N.log2_lt_pow2; [lia|exact H]); lia]]). }
  split; [exact A|]. split; [|exact B].
  apply C39_from_mode. rewrite B. unfold type_part. destruct t; cbn [posix_type]; lia.
Qed.

Theorem C39_partition mode :
  mode mod 65536 =
    FileMode_type_bits mode + mode / 512 mod 8 * 512 + FileMode_permissions mode /\
  FileMode_permissions mode < 512 /\
  (FileType_from_mode mode = None <-> forall t, FileMode_type_bits mode <> posix_type t).
Proof.
  assert (P : FileMode_permissions mode = mode mod 512)
    by (exact (eq_trans (N.land_ones mode 9) eq_refl)).
  rewrite type_bits_part, P. split; [unfold type_part; lia|]. split; [lia|].
  split.
  - intros H t Ht. apply C39_from_mode in Ht. congruence.
  - intros H. destruct (FileType_from_mode mode) as [t|] eqn:D; auto.
    apply C39_from_mode in D. destruct (H t D).
Qed.

(** ** C40: names *)

Definition allowed (b : Byte.byte) : Prop := b <> Byte.x00 /\ b <> Byte.x2f.

Theorem C40_node_name bs :
  (NodeName_from_bytes bs = inl bs <-> bs <> [] /\ Forall allowed bs) /\
  (forall n, NodeName_from_bytes bs = inl n -> n = bs) /\
  (NodeName_from_bytes bs = inr NameEmpty <-> bs = []) /\
  (NodeName_from_bytes bs = inr NameContainsNul <->
   exists pre post, bs = pre ++ Byte.x00 :: post /\ Forall allowed pre) /\
  (NodeName_from_bytes bs = inr NameContainsSlash <->
   exists pre post, bs = pre ++ Byte.x2f :: post /\ Forall allowed pre).
Proof.
  assert (L : match name_loop bs with
    | None => Forall allowed bs
    | Some NameContainsNul => exists pre post, bs = pre ++ Byte.x00 :: post /\ Forall allowed pre
    | Some NameContainsSlash => exists pre post, bs = pre ++ Byte.x2f :: post /\ Forall allowed pre
    | Some NameEmpty => False end).
  { induction bs as [|b r IH]; cbn [name_loop]; auto.
    destruct (Byte.eqb b Byte.x00) eqn:B0.
    { apply byte_eqb_eq in B0 as ->. exists [], r. auto. }
    destruct (Byte.eqb b Byte.x2f) eqn:B1.
    { apply byte_eqb_eq in B1 as ->. exists [], r. auto. }
    apply byte_eqb_neq in B0, B1.
    destruct (name_loop r) as [[]|]; auto.
    - destruct IH as (pre & post & -> & F). exists (b :: pre), post. split; auto. constructor; auto. now split.
    - destruct IH as (pre & post & -> & F). exists (b :: pre), post. split; auto. constructor; auto. now split.
    - constructor; auto. now split. }
  assert (U1 : forall pre post, bs = pre ++ Byte.x00 :: post -> Forall allowed pre ->
               name_loop bs = Some NameContainsNul).
  { clear. intros pre post -> F. induction F as [|b r [B0 B1] F IH]; cbn [app name_loop]; auto.
    apply byte_eqb_neq in B0, B1. now rewrite B0, B1. }
  assert (U2 : forall pre post, bs = pre ++ Byte.x2f :: post -> Forall allowed pre ->
               name_loop bs = Some NameContainsSlash).
  { clear. intros pre post -> F. induction F as [|b r [B0 B1] F IH]; cbn [app name_loop]; auto.
    apply byte_eqb_neq in B0, B1. now rewrite B0, B1. }
  assert (U3 : Forall allowed bs -> name_loop bs = None).
  { clear. intros F. induction F as [|b r [B0 B1] F IH]; cbn [name_loop]; auto.
    apply byte_eqb_neq in B0, B1. now rewrite B0, B1. }
  assert (N0 : forall x pre post, ([] : bytes) <> pre ++ x :: post)
    by (intros x pre post H; now destruct pre).
  unfold NodeName_from_bytes. destruct bs as [|b r] eqn:Hbs.
  - repeat match goal with |- _ /\ _ => split end; try (split; try discriminate; try tauto).
    + discriminate.
    + intros (pre & post & H & _). now apply N0 in H.
    + intros (pre & post & H & _). now apply N0 in H.
  - rewrite <- Hbs in *.
    assert (NE : bs <> []) by (subst; discriminate).
    destruct (name_loop bs) as [[]|]; [tauto| | |];
      (repeat match goal with |- _ /\ _ => split end); try discriminate;
      try (split; [try discriminate | try tauto]); try (intros ? [= <-]; reflexivity);
      try tauto.
    all: try (intros [_ F]; apply U3 in F; discriminate).
    all: try (intros (pre & post & H & F); first [eapply U1 in F; [discriminate|exact H] |
              eapply U2 in F; [discriminate|exact H]]).
Qed.

Theorem C40_device_name bs :
  (DeviceName_from_bytes bs = inl bs <-> bs <> [] /\ ~ In Byte.x00 bs) /\
  (forall n, DeviceName_from_bytes bs = inl n -> n = bs) /\
  (DeviceName_from_bytes bs = inr DevEmpty <-> bs = []) /\
  (DeviceName_from_bytes bs = inr DevContainsNul <-> In Byte.x00 bs).
Proof.
  assert (X : existsb (Byte.eqb Byte.x00) bs = true <-> In Byte.x00 bs).
  { rewrite existsb_exists. split.
    - intros (x & H & G). apply byte_eqb_eq in G as <-. exact H.
    - intros H. exists Byte.x00. split; auto. }
  unfold DeviceName_from_bytes. destruct bs as [|b r] eqn:Hbs.
  - repeat match goal with |- _ /\ _ => split end; try (split; try discriminate; try tauto).
    + discriminate.
    + intros [].
  - rewrite <- Hbs in *. assert (NE : bs <> []) by (subst; discriminate).
    destruct (existsb _ bs).
    + assert (In Byte.x00 bs) by tauto.
      repeat match goal with |- _ /\ _ => split end; try (split; try discriminate; try tauto).
      discriminate.
    + assert (~ In Byte.x00 bs) by (rewrite <- X; discriminate).
      repeat match goal with |- _ /\ _ => split end; try (split; try discriminate; try tauto).
      intros n [= <-]. reflexivity.
Qed.

Theorem C40_node_id id :
  (NodeId_new id = Some id <-> id <> 0) /\ (NodeId_new id = None <-> id = 0) /\
  (forall n, NodeId_new id = Some n -> n = id) /\ (NodeId_is_root id = true <-> id = 1).
Proof.
  unfold NodeId_new, NodeId_is_root, FUSE_ROOT_ID.
  destruct (N.eqb_spec id 0); destruct (N.eqb_spec id 1); repeat split; intros; try discriminate;
    try lia; congruence.
Qed.

(** ** Examples *)

Local Instance LE : Endian := false.

(** Two timeouts: half a second, then longer than the protocol allows. *)
Example C37_entry_example :
  let ops := [SetCacheTimeout (3, 5); SetCacheTimeout (0, 500000000); SetGeneration 7;
              SetAttrTimeout (18446744073709551615, 999999999)] in
  let e := entry_calls ops (Entry_new (NodeAttr_new 9)) in
  Forall entry_op_ok ops /\
  Entry_cache_timeout e = (0, 500000000) /\
  Entry_attribute_cache_timeout e = (9223372036854775807, 0).
Proof. repeat constructor. Qed.

(** One nanosecond before the epoch, read back from an attribute. *)
Definition before_epoch : UnixTime := {| ut_seconds := -1; ut_nanos := 999999999 |}.

Example C38_normalised_example : obtained before_epoch.
Proof.
  apply (ob_attr 5 [SetMtime before_epoch] (attr_calls [SetMtime before_epoch] (NodeAttr_new 5))).
  - intros t' [H|[H|H]]; cbn in H; try (destruct H as [H|[]]; discriminate H).
    destruct H as [[= <-]|[]]. apply (ob_new (-1) 999999999); [lia|reflexivity|reflexivity].
  - reflexivity.
  - right. left. reflexivity.
Qed.

Example C38_new_example :
  UnixTime_new (-1) 1000000000 = None /\ UnixTime_new (-1) 999999999 = Some before_epoch.
Proof. split; reflexivity. Qed.

Example C38_epoch_example :
  instant (UnixTime_from_seconds (-1)) = (-1000000000)%Z /\
  UnixTime_cmp UnixTime_EPOCH before_epoch = Gt.
Proof. split; reflexivity. Qed.
Example C38_order_example :
  UnixTime_cmp before_epoch (UnixTime_from_seconds 0) = Lt /\
  UnixTime_cmp (UnixTime_from_seconds (-1)) before_epoch = Lt /\
  (instant (UnixTime_from_seconds (-1)) < instant before_epoch)%Z.
Proof. repeat split; reflexivity. Qed.

Example C38_attributes_example :
  let ops := [SetAtime (UnixTime_from_seconds 4); SetCtime before_epoch;
              SetAtime before_epoch; SetMode 420] in
  let a := attr_calls ops (NodeAttr_new 3) in
  Forall attr_op_ok ops /\ fa_atime a = 18446744073709551615 /\
  NodeAttr_atime a = before_epoch /\ NodeAttr_mtime a = epoch /\ NodeAttr_ctime a = before_epoch.
Proof.
  cbv zeta. split; [|now repeat split].
  repeat apply Forall_cons; try apply Forall_nil; cbn; unfold time_ok, U32; cbn; try lia.
Qed.

Example C52_attributes_example :
  let ops := [SetMode 33188; SetDax true; SetSubmount true; SetDax false; SetSize 10; SetSize 11] in
  let a := attr_calls ops (NodeAttr_new 3) in
  NodeAttr_node_id a = Ret 3 /\ NodeAttr_mode a = 33188 /\ NodeAttr_size a = 11 /\
  NodeAttr_flag_submount a = true /\ NodeAttr_flag_dax a = false.
Proof. now repeat split. Qed.

(** 0100644 is a regular file, 0170000 has no known type; bits above the low 16
    do not matter. *)
Example C39_from_mode_example :
  FileType_from_mode 33188 = Some Regular /\ type_part 33188 = posix_type Regular /\
  FileType_from_mode 61440 = None /\ FileType_from_mode (65536 + 16877) = Some Directory.
Proof. now repeat split. Qed.

Example C39_as_mode_example :
  FileMode_bitor (FileType_as_mode Symlink) 511 = 41471 /\ FileType_from_mode 41471 = Some Symlink.
Proof. now repeat split. Qed.

(** 04755 on a regular file. *)
Example C39_partition_example :
  let mode := 35309 in
  FileMode_permissions mode = 493 /\ mode / 512 mod 8 = 4 /\
  FileMode_type_bits mode = posix_type Regular.
Proof. now repeat split. Qed.

Example C40_node_name_example :
  NodeName_from_bytes [Byte.x61; Byte.x2e] = inl [Byte.x61; Byte.x2e] /\
  NodeName_from_bytes [Byte.x61; Byte.x2f; Byte.x00] = inr NameContainsSlash /\
  NodeName_from_bytes [Byte.x61; Byte.x00; Byte.x2f] = inr NameContainsNul.
Proof. now repeat split. Qed.

Example C40_device_name_example :
  DeviceName_from_bytes [Byte.x61; Byte.x2f] = inl [Byte.x61; Byte.x2f] /\
  DeviceName_from_bytes [Byte.x61; Byte.x00] = inr DevContainsNul.
Proof. now repeat split. Qed.

Example C40_node_id_example : NodeId_new 7 = Some 7 /\ NodeId_is_root 7 = false.
Proof. now repeat split. Qed.

Print Assumptions C37_entry.
Print Assumptions C38_normalised.
Print Assumptions C38_new.
Print Assumptions C38_order.
Print Assumptions C38_epoch.
Print Assumptions C38_attributes.
Print Assumptions C39_from_mode.
Print Assumptions C39_as_mode.
Print Assumptions C39_partition.
Print Assumptions C40_node_name.
Print Assumptions C40_device_name.
Print Assumptions C40_node_id.
Print Assumptions C52_attributes.
