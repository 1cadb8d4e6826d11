(** Decoding what the wire specification encodes. *)

From Verif Require Import Base Kernel CoreModel DecodeModel OpsModel DecodeSpec DecodeProofs
  OpsSafety WireSpec.
From Coq Require Import List NArith ZArith Bool Lia.
From Coq Require Import ZifyBool ZifyNat ZifyN.
Import ListNotations.
Open Scope N_scope.

Section RoundTrip.
Context {E : Endian}.

(** ** Reading back a structure *)
Lemma rd_wire l rest w off v :
  Forall in_range l -> field_at off l = Some (w, v) -> rd w off (wire l ++ rest) = Ret v.
Proof.
  intros Hl Hf.
  assert (Hv : v < 256 ^ N.of_nat w).
  { revert off Hf. induction Hl as [|[w' v'] l Hx Hl IH]; intros off; cbn [field_at]; [easy|].
    destruct (off =? 0); [intros [= -> ->]; exact Hx|].
    destruct (off <? N.of_nat w'); [easy|]. eauto. }
  assert (Ho : off + N.of_nat w <= fields_size l).
  { clear Hl Hv. revert off Hf. induction l as [|[w' v'] l IH]; intros off; cbn [field_at]; [easy|].
    cbn [fields_size].
    destruct (N.eqb_spec off 0); [intros [= -> ->]; lia|].
    destruct (N.ltb_spec off (N.of_nat w')); [easy|]. intros Hf%IH. lia. }
  rewrite rd_ok by (rewrite nlen_app, nlen_wire; lia).
  f_equal. now apply fld_wire.
Qed.

Lemma rd_wire0 l w off v :
  Forall in_range l -> field_at off l = Some (w, v) -> rd w off (wire l) = Ret v.
Proof. intros. rewrite <- (app_nil_r (wire l)). now apply rd_wire. Qed.

Lemma wire_app a b : wire (a ++ b) = wire a ++ wire b.
Proof.
  induction a as [|[w v] a IH]; [reflexivity|]. cbn [app wire]. now rewrite IH, app_assoc.
Qed.

(** ** Cursor steps over a known message *)
Lemma step_bytes n mem k c chunk post :
  fits mem k -> cursor k c -> ahead (at_ mem k c) (chunk ++ post) -> nlen chunk = n ->
  (k < c + n /\ next_bytes n (at_ mem k c) = Fail EUnexpectedEof) \/
  (c + n <= k /\ cursor k (c + n) /\ ahead (at_ mem k (c + n)) post /\
   slice c n mem = chunk /\
   next_bytes n (at_ mem k c) = Ret (chunk, at_ mem k (c + n))).
Proof.
  intros F C A L.
  destruct (next_bytes_ahead n (at_ mem k c) chunk post (at_wf _ _ _ F C) A L) as [H1 H2].
  cbn in H1, H2. destruct (N.ltb_spec k (c + n)); [left; auto|right].
  destruct (H2 H) as [W A']. repeat split; auto; try (unfold cursor in *; lia); try apply A'.
  subst n. now apply (ahead_slice (at_ mem k c) chunk post); [apply at_wf|..].
Qed.

Lemma step_sized n mem k c chunk post :
  fits mem k -> cursor k c -> c mod 8 = 0 -> ahead (at_ mem k c) (chunk ++ post) -> nlen chunk = n ->
  (k < c + n /\ next_sized n (at_ mem k c) = Fail EUnexpectedEof) \/
  (c + n <= k /\ cursor k (c + n) /\ ahead (at_ mem k (c + n)) post /\
   slice c n mem = chunk /\
   next_sized n (at_ mem k c) = Ret (chunk, at_ mem k (c + n))).
Proof.
  intros F C M A L.
  replace (next_sized n (at_ mem k c)) with (next_bytes n (at_ mem k c));
    [now apply step_bytes|].
  rewrite next_bytes_eq, next_sized_eq by (now apply at_wf || exact M). reflexivity.
Qed.

Lemma step_peek n mem k c chunk post :
  fits mem k -> cursor k c -> c mod 8 = 0 -> ahead (at_ mem k c) (chunk ++ post) -> nlen chunk = n ->
  (k < c + n /\ peek_sized n (at_ mem k c) = Fail EUnexpectedEof) \/
  (c + n <= k /\ peek_sized n (at_ mem k c) = Ret chunk).
Proof.
  intros F C M A L.
  pose proof (peek_sized_ahead n (at_ mem k c) chunk post (at_wf _ _ _ F C) M A L) as H1.
  cbn in H1. destruct (N.ltb_spec k (c + n)); [left; auto|right; auto].
Qed.

Lemma step_name mem k c name post :
  fits mem k -> cursor k c -> ahead (at_ mem k c) (name ++ x00 :: post) -> good_name name ->
  (k < c + (nlen name + 1) /\ next_node_name (at_ mem k c) = Fail EUnexpectedEof) \/
  (c + (nlen name + 1) <= k /\ cursor k (c + (nlen name + 1)) /\
   ahead (at_ mem k (c + (nlen name + 1))) post /\
   next_node_name (at_ mem k c) = Ret (name, at_ mem k (c + (nlen name + 1)))).
Proof.
  intros F C A G.
  assert (A' : ahead (at_ mem k c) ((name ++ [x00]) ++ post)) by (now rewrite <- app_assoc).
  destruct (next_node_name_ahead (at_ mem k c) name post (at_wf _ _ _ F C) A' G) as [H1 H2].
  cbn in H1, H2. destruct (N.ltb_spec k (c + (nlen name + 1))); [left; auto|right].
  destruct (H2 H) as [W A'']. repeat split; auto; try (unfold cursor in *; lia); apply A''.
Qed.

Lemma step_cstr mem k c name post :
  fits mem k -> cursor k c -> ahead (at_ mem k c) (name ++ x00 :: post) -> good_cstr name ->
  (k < c + (nlen name + 1) /\ next_cstr (at_ mem k c) = Fail EUnexpectedEof) \/
  (c + (nlen name + 1) <= k /\ cursor k (c + (nlen name + 1)) /\
   ahead (at_ mem k (c + (nlen name + 1))) post /\
   next_cstr (at_ mem k c) = Ret (name, at_ mem k (c + (nlen name + 1)))).
Proof.
  intros F C A (G1 & G2).
  assert (A' : ahead (at_ mem k c) ((name ++ [x00]) ++ post)) by (now rewrite <- app_assoc).
  destruct (next_cstr_ahead (at_ mem k c) name post (at_wf _ _ _ F C) A' G2 G1) as [H1 H2].
  cbn in H1, H2. destruct (N.ltb_spec k (c + (nlen name + 1))); [left; auto|right].
  destruct (H2 H) as [W A'']. repeat split; auto; try (unfold cursor in *; lia); apply A''.
Qed.

(** The last string of a message may be empty. *)
Lemma step_cstr_last mem k c name post :
  fits mem k -> cursor k c -> ahead (at_ mem k c) (name ++ x00 :: post) -> ~ In x00 name ->
  (k < c + (nlen name + 1) /\ next_cstr (at_ mem k c) = Fail EUnexpectedEof) \/
  (c + (nlen name + 1) <= k /\ exists d, next_cstr (at_ mem k c) = Ret (name, d)).
Proof.
  intros F C A G.
  assert (A' : ahead (at_ mem k c) ((name ++ [x00]) ++ post)) by (now rewrite <- app_assoc).
  pose proof (next_cstr_loop_eq (at_ mem k c) name post (at_wf _ _ _ F C) A' G) as H1.
  cbn in H1. destruct (N.ltb_spec k (c + (nlen name + 1))); [left; auto|right; eauto].
Qed.

(** ** The message *)

Lemma hdr_fields_range len opcode hd :
  len < U32 -> opcode < U32 -> good_header hd ->
  Forall in_range (header_fields len opcode hd).
Proof.
  intros H1 H2 [G _]. unfold header_fields in *.
  inversion G as [|? ? _ G1]. inversion G1 as [|? ? _ G2].
  constructor; [exact H1|]. constructor; [exact H2|]. exact G2.
Qed.

Lemma op_code_small op : op_code op < U32.
Proof. destruct op; try destruct wait; reflexivity. Qed.

(** Everything the proofs below need to know about an encoded message. *)
Record message (cf : config) (hd : req_header) (op : client_op) (extra : bytes)
    (k : N) (mem : bytes) : Prop := {
  m_acc : accepted {| rq_mem := mem |};
  m_dec : decoder_new {| rq_mem := mem |} = Ret (at_ mem k 40);
  m_bytes : as_bytes {| rq_mem := mem |} = Ret (slice 0 k mem);
  m_fits : fits mem k;
  m_k : 40 <= k;
  m_op : u32_at 4 mem = op_code op;
  m_node : u64_at 16 mem = rh_nodeid hd;
  m_ahead : ahead (at_ mem k 40) (op_body cf op ++ extra)
}.

Lemma encode_message cf hd op extra rest k :
  good_header hd -> 40 <= k -> k < U32 -> k <= 40 + nlen (op_body cf op ++ extra) ->
  message cf hd op extra k (encode_len cf hd op extra k ++ rest).
Proof.
  intros G K1 K2 K3. pose proof (hdr_fields_range k (op_code op) hd K2 (op_code_small op) G) as R.
  set (mem := encode_len cf hd op extra k ++ rest).
  assert (M : mem = wire (header_fields k (op_code op) hd) ++
                    (take (k - 40) (op_body cf op ++ extra) ++ rest))
    by (unfold mem, encode_len; now rewrite <- app_assoc).
  assert (NH : nlen (wire (header_fields k (op_code op) hd)) = 40) by apply nlen_wire.
  assert (NM : k <= nlen mem).
  { rewrite M, nlen_app, NH, nlen_app, nlen_take. lia. }
  assert (FL : forall off w v, field_at off (header_fields k (op_code op) hd) = Some (w, v) ->
                fld w off mem = v).
  { intros off w v Hf. rewrite M. apply fld_wire; auto.
    clear - R Hf. revert off Hf. induction R as [|[w' v'] l Hx Hl IH]; intros off; cbn [field_at]; [easy|].
    destruct (off =? 0); [intros [= -> ->]; exact Hx|].
    destruct (off <? N.of_nat w'); [easy|]. eauto. }
  assert (H0 : u32_at 0 mem = k) by (apply (FL 0); reflexivity).
  assert (H8 : u64_at 8 mem = rh_unique hd) by (apply (FL 8); reflexivity).
  assert (A : accepted {| rq_mem := mem |}).
  { unfold accepted; cbn [rq_mem]. rewrite H0, H8. destruct G. lia. }
  constructor; auto.
  - rewrite at_new by auto. cbn [rq_mem]. now rewrite H0.
  - rewrite as_bytes_slice by auto. cbn [rq_mem]. now rewrite H0.
  - unfold fits. lia.
  - apply (FL 4); reflexivity.
  - apply (FL 16); reflexivity.
  - unfold ahead. cbn [at_ d_mem d_header_len d_consumed]. split; [lia|].
    rewrite M, drop_app by (now rewrite NH).
    rewrite take_app_le by (rewrite nlen_take; lia).
    rewrite take_take. f_equal. lia.
Qed.

(** ** Evaluation of the conversions *)

Lemma land_bit v b k : b = 2 ^ k -> (N.land v b =? 0) = negb (N.testbit v k).
Proof. intros ->. apply testbit_land_pow2. Qed.
Lemma land_bit' v b k : b = 2 ^ k -> (0 <? N.land v b) = N.testbit v k.
Proof.
  intros ->. pose proof (testbit_land_pow2 v k).
  destruct (N.testbit v k); cbn [negb] in *; lia.
Qed.
Lemma if_guard {A} (v k : N) (x : A) :
  (if negb (N.testbit v k) then None else Some x) = guarded v k x.
Proof. unfold guarded. now destruct (N.testbit v k). Qed.
Lemma if_guard' {A} (v k : N) (x : A) :
  (if N.testbit v k then Some x else None) = guarded v k x.
Proof. reflexivity. Qed.

Lemma LockRange_decode_spec start end_ :
  start <= end_ -> end_ < U64 ->
  LockRange_decode start end_ = Ret (lock_range start end_).
Proof.
  intros H1 H2. unfold LockRange_decode, lock_range, OFFSET_MAX, i64_max.
  destruct (N.ltb_spec end_ start); [lia|].
  destruct (N.leb_spec 9223372036854775807 end_); [reflexivity|].
  unfold sat_add64, u64_max.
  replace (N.min 18446744073709551615 (end_ - start + 1)) with (end_ - start + 1) by lia.
  destruct (N.eqb_spec (end_ - start + 1) 0); [lia|reflexivity].
Qed.

Lemma is_device_spec mode :
  match FileType_from_mode mode with
  | Some CharacterDevice | Some BlockDevice => true
  | _ => false
  end = is_device mode.
Proof.
  unfold FileType_from_mode, FileMode_type_bits, is_device.
  assert (T : N.shiftr (N.land mode 61440) 12 = (mode / 4096) mod 16).
  { change 61440 with (N.shiftl (N.ones 4) 12). change 4096 with (2 ^ 12).
    rewrite <- N.shiftr_div_pow2. change 16 with (2 ^ 4). rewrite <- N.land_ones.
    rewrite N.shiftr_land. f_equal. }
  rewrite T. generalize ((mode / 4096) mod 16) as x. intros x.
  unfold FileType_from_bits.
  repeat match goal with |- context [?a =? ?b] => destruct (N.eqb_spec a b); subst; try reflexivity end;
    try lia.
Qed.

Lemma next_batch_item_spec (l : list forget_one) :
  match next_batch_item l with
  | (None, r) => filter (fun i : N * N => negb (fst i =? 0)) l = []
  | (Some x, r) => (length r < length l)%nat /\
      filter (fun i : N * N => negb (fst i =? 0)) l =
      x :: filter (fun i : N * N => negb (fst i =? 0)) r
  end.
Proof.
  induction l as [|[n c] l IH]; cbn [next_batch_item filter fst]; [reflexivity|].
  unfold NodeId_new. destruct (n =? 0) eqn:En; cbn [negb].
  - destruct (next_batch_item l) as [[x|] r]; cbn [length]; intuition lia.
  - cbn [length snd]. split; [lia|reflexivity].
Qed.

Lemma forget_collect_batch : forall fuel (l : list forget_one),
  (length l < fuel)%nat ->
  forget_collect fuel (IterBatch l) = filter (fun i => negb (fst i =? 0)) l.
Proof.
  induction fuel as [|f IH]; intros l H; [lia|].
  cbn [forget_collect forget_next].
  pose proof (next_batch_item_spec l) as Hn.
  destruct (next_batch_item l) as [[x|] r].
  - destruct Hn as [Hl ->]. f_equal. apply IH. lia.
  - now rewrite Hn.
Qed.

Lemma forget_slice_items items :
  Forall (fun i => Forall in_range [u64 (fst i); u64 (snd i)]) items ->
  forget_slice (length items) (concat (map item_bytes items)) = items.
Proof.
  induction 1 as [|[n c] l H Hl IH]; cbn [length forget_slice map concat]; auto.
  assert (Hn : n < 256 ^ 8) by (inversion H; auto).
  assert (Hc : c < 256 ^ 8) by (inversion H as [|? ? _ H2]; inversion H2; auto).
  assert (L : nlen (item_bytes (n, c)) = 16) by (unfold item_bytes; now rewrite nlen_wire).
  f_equal.
  - f_equal.
    + apply (fld_wire [u64 n; u64 c] _ 0 8); auto.
    + apply (fld_wire [u64 n; u64 c] _ 8 8); auto.
  - rewrite drop_app by (now rewrite L). exact IH.
Qed.

Lemma nlen_items (items : list (N * N)) :
  nlen (concat (map item_bytes items)) = nlen items * 16.
Proof.
  induction items as [|i l IH]; cbn [map concat]; [reflexivity|].
  rewrite nlen_app, nlen_cons, IH. unfold item_bytes at 1. rewrite nlen_wire.
  cbn [fields_size fst snd u64]. lia.
Qed.

Lemma leb_minor a b : (a <=? b) = negb (b <? a).
Proof. lia. Qed.
Lemma device_spec mode (v : N) :
  match FileType_from_mode mode with
  | Some BlockDevice | Some CharacterDevice => Ret (Some v)
  | _ => Ret None
  end = Ret (if is_device mode then Some v else None).
Proof.
  pose proof (is_device_spec mode) as H.
  destruct (FileType_from_mode mode) as [[]|]; now rewrite <- H.
Qed.

Lemma check_ns valid k ns :
  (N.testbit valid k = true -> ns <= ns_limit) ->
  (if N.testbit valid k
   then if MAX_NANOS <? ns then Fail ETimestampOverflow else Ret tt
   else Ret tt) = Ret tt.
Proof.
  unfold ns_limit, MAX_NANOS. destruct (N.testbit valid k); [|reflexivity].
  intros H. specialize (H eq_refl). destruct (N.ltb_spec 999999999 ns); [lia|reflexivity].
Qed.

Lemma rd_msg_hdr off mem h :
  fits mem h -> 40 <= h -> off + 8 <= 40 -> rd64 off (slice 0 h mem) = Ret (u64_at off mem).
Proof.
  intros F K H. unfold fits in F. rewrite rd64_ok by (rewrite nlen_slice; lia).
  f_equal. unfold u64_at. rewrite fld_slice by lia. reflexivity.
Qed.
Lemma rd_msg l w off v n mem h :
  fits mem h -> Forall in_range l -> 40 + n <= h -> slice 40 n mem = wire l ->
  field_at off l = Some (w, v) -> rd w (40 + off) (slice 0 h mem) = Ret v.
Proof.
  intros F R L S Hf. pose proof (rd_wire0 l w off v R Hf) as Hw. unfold fits in F.
  unfold rd in *. rewrite <- S in Hw. rewrite nlen_slice in *.
  destruct (off + N.of_nat w <=? N.min n (nlen mem - 40)) eqn:Hb; [|discriminate].
  destruct (N.leb_spec (40 + off + N.of_nat w) (N.min h (nlen mem - 0))); [|lia].
  rewrite <- Hw. f_equal. rewrite !fld_slice by lia. f_equal; lia.
Qed.
Lemma mem_read_msg off n (v : bytes) mem h :
  fits mem h -> off + n <= h -> slice off n mem = v ->
  mem_read (slice 0 h mem) off n = Ret v.
Proof.
  intros F L <-. unfold fits in F. rewrite mem_read_ok by (rewrite nlen_slice; lia).
  f_equal. rewrite slice_slice by lia. reflexivity.
Qed.

Ltac lits := solve [vm_compute; discriminate].
Ltac rdw l R :=
  match goal with
  | |- context [rd32 ?o (wire l)] =>
      rewrite (rd_wire0 l 4 o _ R eq_refl : rd32 o (wire l) = Ret _); cbn [bind]
  | |- context [rd64 ?o (wire l)] =>
      rewrite (rd_wire0 l 8 o _ R eq_refl : rd64 o (wire l) = Ret _); cbn [bind]
  end.

Ltac lenw :=
  first [ rewrite nlen_wire; reflexivity
        | reflexivity
        | assumption ].

Ltac eof Hlt :=
  match goal with |- Fail _ = ?R => symmetry; apply Hlt; lia end.

Ltac rt1 Hlt :=
  match goal with
  | |- bind (bind _ _) _ = _ => rewrite bind_assoc
  | |- bind (Ret _) _ = _ => cbn [bind]
  | F : fits ?m ?h, C : cursor ?h ?c |- context [expect_opcode (at_ ?m ?h ?c) ?o] =>
      rewrite (expect_at m h c o F C); cbn [bind]
  | F : fits ?m ?h, C : cursor ?h ?c |- context [d_header (at_ ?m ?h ?c)] =>
      rewrite (d_header_at m h c F C); cbn [bind]
  | F : fits ?m ?h |- context [rd32 ?o (slice 0 40 ?m)] =>
      rewrite (hdr32 o m h F) by lits; cbn [bind]
  | F : fits ?m ?h |- context [rd64 ?o (slice 0 40 ?m)] =>
      rewrite (hdr64 o m h F) by lits; cbn [bind]
  | H : u32_at 4 ?m = _ |- context [u32_at 4 ?m] => rewrite H; cbn [bind]
  | H : u64_at 16 ?m = _ |- context [u64_at 16 ?m] => rewrite H; cbn [bind]
  | |- context [decode_node_id ?n] => rewrite (decode_node_id_eq n); cbn [bind]
  | |- context [match NodeId_new ?n with Some x => x | None => FUSE_ROOT_ID end] =>
      rewrite (or_root_eq n); cbn [bind]
  | H : (?x =? 0) = false |- context [?x =? 0] => rewrite H; cbn [bind]
  | H : (?x =? 0) = true |- context [?x =? 0] => rewrite H; cbn [bind]
  | H : cf_setxattr_ext _ = _ |- _ => progress rewrite H; cbn [bind]
  | F : fits ?m ?h, C : cursor ?h ?c, A : ahead (at_ ?m ?h ?c) (?chunk ++ ?post)
    |- bind (next_sized ?n (at_ ?m ?h ?c)) _ = _ =>
      let Heq := fresh in
      destruct (step_sized n m h c chunk post F C eq_refl A) as [(? & Heq)|(? & ? & ? & ? & Heq)];
      [lenw | rewrite Heq; cbn [bind]; eof Hlt | rewrite Heq; cbn [bind]; clear Heq]
  | F : fits ?m ?h, C : cursor ?h ?c, A : ahead (at_ ?m ?h ?c) (?chunk ++ ?post)
    |- bind (next_bytes ?n (at_ ?m ?h ?c)) _ = _ =>
      let Heq := fresh in
      destruct (step_bytes n m h c chunk post F C A) as [(? & Heq)|(? & ? & ? & ? & Heq)];
      [lenw | rewrite Heq; cbn [bind]; eof Hlt | rewrite Heq; cbn [bind]; clear Heq]
  | F : fits ?m ?h, C : cursor ?h ?c, A : ahead (at_ ?m ?h ?c) (?chunk ++ x00 :: ?post)
    |- bind (next_node_name (at_ ?m ?h ?c)) _ = _ =>
      let Heq := fresh in
      destruct (step_name m h c chunk post F C A) as [(? & Heq)|(? & ? & ? & Heq)];
      [assumption | rewrite Heq; cbn [bind]; eof Hlt | rewrite Heq; cbn [bind]; clear Heq]
  | F : fits ?m ?h, C : cursor ?h ?c, A : ahead (at_ ?m ?h ?c) (?chunk ++ x00 :: ?post),
    G : good_cstr ?chunk
    |- bind (next_cstr (at_ ?m ?h ?c)) _ = _ =>
      let Heq := fresh in
      destruct (step_cstr m h c chunk post F C A G) as [(? & Heq)|(? & ? & ? & Heq)];
      [rewrite Heq; cbn [bind]; eof Hlt | rewrite Heq; cbn [bind]; clear Heq]
  | F : fits ?m ?h, C : cursor ?h ?c, A : ahead (at_ ?m ?h ?c) (?chunk ++ x00 :: ?post),
    G : ~ In x00 ?chunk
    |- bind (next_cstr (at_ ?m ?h ?c)) _ = _ =>
      let Heq := fresh in
      destruct (step_cstr_last m h c chunk post F C A G) as [(? & Heq)|(? & ? & Heq)];
      [rewrite Heq; cbn [bind]; eof Hlt | rewrite Heq; cbn [bind]; clear Heq]
  | R : Forall in_range ?l |- context [rd32 _ (wire ?l)] => rdw l R
  | R : Forall in_range ?l |- context [rd64 _ (wire ?l)] => rdw l R
  | |- context [if ?b then Ret ?x else Ret ?y] => rewrite (if_ret b x y); cbn [bind]
  | |- context [?v <=? cf_minor ?cf] => rewrite (leb_minor v (cf_minor cf))
  | H : (cf_minor ?cf <? ?v) = _ |- context [cf_minor ?cf <? ?v] => rewrite H; cbn [bind negb]
  | |- context [match FileType_from_mode ?m with _ => _ end] =>
      rewrite (device_spec m); cbn [bind]
  | H : LockRange_decode _ _ = _ |- context [LockRange_decode _ _] => rewrite H; cbn [bind]
  | |- context [N.land ?v ?b =? 0] =>
      let k := eval vm_compute in (N.log2 b) in
      rewrite (land_bit v b k eq_refl), if_guard; cbn [bind]
  | |- context [0 <? N.land ?v ?b] =>
      let k := eval vm_compute in (N.log2 b) in
      rewrite (land_bit' v b k eq_refl); cbn [bind]
  | H : N.testbit ?v ?k = true -> ?ns <= ns_limit
    |- context [if N.testbit ?v ?k then if MAX_NANOS <? ?ns then _ else _ else _] =>
      rewrite (check_ns v k ns H); cbn [bind]
  | |- context [33 <=? 33] => change (33 <=? 33) with true; cbn [bind]
  | |- context [33 <=? 1] => change (33 <=? 1) with false; cbn [bind]
  | H : as_bytes _ = _ |- context [as_bytes _] => rewrite H; cbn [bind]
  | F : fits ?m ?h, K : 40 <= ?h |- context [rd64 16 (slice 0 ?h ?m)] =>
      rewrite (rd_msg_hdr 16 m h F K) by lits; cbn [bind]
  | F : fits ?m ?h, R : Forall in_range ?l, L : 40 + ?n <= ?h, S : slice 40 ?n ?m = wire ?l
    |- context [rd32 (40 + ?o) (slice 0 ?h ?m)] =>
      rewrite (rd_msg l 4 o _ n m h F R L S eq_refl : rd32 (40 + o) (slice 0 h m) = Ret _);
      cbn [bind]
  | F : fits ?m ?h, R : Forall in_range ?l, L : 40 + ?n <= ?h, S : slice 40 ?n ?m = wire ?l
    |- context [rd64 (40 + ?o) (slice 0 ?h ?m)] =>
      rewrite (rd_msg l 8 o _ n m h F R L S eq_refl : rd64 (40 + o) (slice 0 h m) = Ret _);
      cbn [bind]
  | F : fits ?m ?h, L : ?o + ?n <= ?h, S : slice ?o ?n ?m = ?v
    |- context [mem_read (slice 0 ?h ?m) ?o ?n] =>
      rewrite (mem_read_msg o n v m h F L S); cbn [bind]
  end.

Ltac opcodes :=
  repeat match goal with
  | |- context [?a =? ?b] =>
    first [ let r := eval vm_compute in (N.eqb a b) in
            match r with
            | true => change (a =? b) with true
            | false => change (a =? b) with false
            end ]
  end; cbn [negb bind].

Ltac projs :=
  cbn [hb_header hb_body hv_header hv_body vs_minor vs_body access_node_id access_mask
       create_header create_body create_name ci_version ci_flags flush_node_id flush_handle
       flush_lock_owner fi_version fi_max_readahead fi_flags getlk_header getlk_body
       getlk_lock_range getxattr_header getxattr_body getxattr_name ioctl_header ioctl_body
       ioctl_input link_node_id link_new_parent_id link_new_name pn_parent_id pn_name
       lseek_raw lseek_node_id mkdir_parent_id mkdir_name mkdir_raw mknod_header mknod_body
       mknod_name removexattr_header removexattr_name rename_old_directory_id
       rename_old_name rename_new_directory_id rename_new_name rename_flags
       setlk_header setlk_body setlk_lock setxattr_header setxattr_body setxattr_name
       setxattr_value symlink_parent_id symlink_name symlink_content write_msg write_minor
       bind negb orb andb] in *.


Ltac versions cf :=
  repeat match goal with
  | |- context [?a <=? cf_minor cf] => rewrite (leb_minor a (cf_minor cf))
  end;
  repeat match goal with
  | |- context [cf_minor cf <? ?v] => destruct (cf_minor cf <? v) eqn:?
  end.

Ltac norm Ah Hlt Hge :=
  cbn [read_in release_in lk_in fields_size fst snd u32 u64 app wire] in Ah, Hlt, Hge |- *;
  unfold read_in, release_in, lk_in in *.

(** The result the specification asks for: the operation as seen by the
    server if the message is complete, [UnexpectedEof] otherwise.  It differs
    from the specification in two cases: the mode of an old CREATE, and SYMLINK,
    of which the code takes the name for the target and the target for the
    name. *)
Definition observed (is_cuse : bool) (cf : config) (nodeid : N) (op : client_op) : view :=
  match op with
  | OCreate flags mode umask open_flags name =>
    if cf_minor cf <? 12 then VCreate nodeid name 0 flags 0 0
    else expected is_cuse cf nodeid op
  | OSymlink name target => VSymlink nodeid target name
  | _ => expected is_cuse cf nodeid op
  end.

(** The target of a symbolic link could be the name of a node. *)
Definition plain_target (op : client_op) : Prop :=
  match op with OSymlink _ target => ~ In x2f target | _ => True end.

Definition result (is_cuse : bool) (cf : config) (hd : req_header) (op : client_op) (k : N) : out view :=
  if k <? 40 + nlen (op_body cf op) then Fail EUnexpectedEof
  else Ret (observed is_cuse cf (rh_nodeid hd) op).

(** The node ids an operation needs are present. *)
Definition ids_present (is_cuse : bool) (hd : req_header) (op : client_op) : Prop :=
  (about_node op = true ->
   is_cuse = false \/ op_type op = RPoll -> rh_nodeid hd <> 0) /\
  Forall (fun n => n <> 0) (body_node_ids op).

Lemma neq_eqb n : n <> 0 -> (n =? 0) = false.
Proof. lia. Qed.

Theorem decode_message is_cuse cf hd op extra k mem :
  message cf hd op extra k mem -> good_op cf op ->
  available is_cuse (op_type op) = true -> ids_present is_cuse hd op -> plain_target op ->
  decode_view is_cuse cf (op_type op) {| rq_mem := mem |} = result is_cuse cf hd op k.
Proof.
  intros [Acc Hdec Hbytes F K Hop Hnode Ah] [R G] Av [I1 I2] P.
  assert (C0 : cursor k 40) by (unfold cursor; lia).
  assert (Hlt : k < 40 + nlen (op_body cf op) -> result is_cuse cf hd op k = Fail EUnexpectedEof).
  { intros. unfold result. destruct (N.ltb_spec k (40 + nlen (op_body cf op))); [easy|lia]. }
  assert (Hge : 40 + nlen (op_body cf op) <= k ->
                result is_cuse cf hd op k = Ret (observed is_cuse cf (rh_nodeid hd) op)).
  { intros. unfold result. destruct (N.ltb_spec k (40 + nlen (op_body cf op))); [lia|easy]. }
  revert Hlt Hge. generalize (result is_cuse cf hd op k) as res. intros res Hlt Hge.
  unfold op_body in *. rewrite nlen_app, nlen_wire in Hlt, Hge. rewrite <- app_assoc in Ah.
  set (nodeid := rh_nodeid hd) in *. clearbody nodeid.
  assert (G' : match op with
               | OSymlink name target => good_cstr name /\ good_name target
               | _ => True
               end).
  { destruct op; try exact I. destruct G as [(A1 & A2 & A3) (B1 & B2)].
    repeat split; assumption. }
  clear P.
  destruct op; cbn [op_type decode_view op_code op_fields op_tail about_node body_node_ids
                    observed expected] in *.
  all: repeat autounfold with ops; rewrite Hdec; cbn [bind].
  all: destruct is_cuse; try discriminate Av; clear Av.
  all: match type of I1 with
       | _ -> (false = false \/ _) -> _ =>
         try (pose proof (neq_eqb _ (I1 eq_refl (or_introl eq_refl))) as Hn)
       | _ => try (pose proof (neq_eqb _ (I1 eq_refl (or_intror eq_refl))) as Hn)
       end; clear I1.
  all: try (pose proof (neq_eqb _ (Forall_inv I2)) as Hb); clear I2.
  all: unfold read_in, release_in, lk_in in *.
  all: versions cf.
  all: repeat match goal with H : (cf_minor ?c <? ?v) = _ |- _ => rewrite H in R, Ah, Hlt, Hge end.
  all: try destruct wait.
  all: try match type of R with context [if cf_setxattr_ext ?c then _ else _] =>
         destruct (cf_setxattr_ext c) end.
  all: rewrite ?nlen_app in Hlt, Hge; change (@nlen byte [x00]) with 1 in *;
    change (@nlen byte []) with 0 in *.
  all: rewrite <- ?app_assoc in Ah; cbn [app] in Ah.
  all: change (wire []) with (@nil byte) in Ah; cbn [app] in Ah.
  all: cbn [fields_size fst snd u32 u64] in Hlt, Hge.
  all: match type of G' with True => clear G' | _ => clear G; rename G' into G end.
  all: try match type of G with
       | _ /\ _ /\ _ => destruct G as (G1 & G2 & G3)
       | _ /\ _ => destruct G as [G1 G2]
       end.
  all: try match goal with
       | H : ?s <= ?e, R : Forall in_range (u64 _ :: _ :: u64 ?s :: u64 ?e :: _) |- _ =>
         assert (LockRange_decode s e = Ret (lock_range s e)) by
           (apply LockRange_decode_spec; [exact H|];
            do 3 apply Forall_inv_tail in R; exact (Forall_inv R))
       end.
  all: try match goal with H : ?u <> 0 |- _ => apply neq_eqb in H end.
  all: repeat (rt1 Hlt; opcodes; projs).
  all: try (match goal with |- Ret _ = _ => idtac end; rewrite Hge by lia; cbv zeta;
            unfold subject, or_root; rewrite ?Hn; reflexivity).
  - (* FORGET *)
    rewrite Hge by lia. unfold Forget_items; cbn. unfold NodeId_new.
    now destruct (nodeid =? 0).
  - (* BATCH_FORGET *)
    rewrite nlen_items in Hlt, Hge.
    unfold mul_u32. destruct (N.ltb_spec (nlen items * 16) U32) as [_|]; [|unfold U32 in *; lia].
    cbn [bind]. rewrite bind_assoc.
    match goal with A : ahead (at_ _ _ (40 + 8)) _, C : cursor _ (40 + 8) |- _ =>
      destruct (step_bytes (nlen items * 16) mem k (40 + 8) _ _ F C A)
        as [(? & Heq)|(? & ? & ? & Hs & Heq)]; [apply nlen_items|..];
      rewrite Heq; cbn [bind]; [eof Hlt|] end.
    unfold fits in F.
    rewrite d_cast_ok; [|now apply at_wf|reflexivity|cbn; lia]. cbn [at_ d_consumed d_mem bind].
    rewrite Hs. replace (N.to_nat (nlen items)) with (length items) by (unfold nlen; lia).
    rewrite forget_slice_items by auto.
    rewrite Hge by lia. do 2 f_equal. unfold Forget_items. cbn [fg_forget fg_batch_forgets].
    apply forget_collect_batch. lia.
  - (* INIT *)
    change FUSE_KERNEL_VERSION with 7.
    destruct (negb (major =? 7) || (minor <? 6)) eqn:B1.
    + assert (B2 : (minor <? 6) || negb (major =? 7) = true) by (rewrite orb_comm; exact B1).
      replace ((major =? 7) && (36 <=? minor)) with false in * by lia.
      change (@nlen byte []) with 0 in *. cbn [app fields_size fst snd u32] in *.
      destruct (step_peek 8 mem k 40 _ _ F C0 eq_refl Ah) as [(? & Heq)|(? & Heq)]; [lenw|..];
        rewrite Heq; cbn [bind]; [eof Hlt|].
      repeat (rt1 Hlt; projs). rewrite B2. cbn [bind]. now rewrite Hge by lia.
    + assert (B2 : (minor <? 6) || negb (major =? 7) = false) by (rewrite orb_comm; exact B1).
      destruct (minor <? 36) eqn:B3.
      * replace ((major =? 7) && (36 <=? minor)) with false in * by lia.
        change (@nlen byte []) with 0 in *. cbn [app fields_size fst snd u32] in *.
        assert (Ah' : ahead (at_ mem k 40)
                  (wire [u32 major; u32 minor] ++ wire [u32 max_readahead; u32 flags] ++ extra)).
        { rewrite app_assoc, <- wire_app. exact Ah. }
        destruct (step_peek 8 mem k 40 _ _ F C0 eq_refl Ah') as [(? & Heq)|(? & Heq)]; [lenw|..];
          rewrite Heq; cbn [bind]; [eof Hlt|].
        assert (R' : Forall in_range [u32 major; u32 minor])
          by (inversion R as [|? ? R1 R2]; inversion R2; auto).
        do 10 (try rdw [u32 major; u32 minor] R'). rewrite B2, B3.
        clear Ah'.
        repeat (rt1 Hlt; projs). now rewrite Hge by lia.
      * replace ((major =? 7) && (36 <=? minor)) with true in * by lia.
        cbn [app fields_size fst snd u32] in *.
        assert (Ah' : ahead (at_ mem k 40)
                  (wire [u32 major; u32 minor] ++
                   wire [u32 max_readahead; u32 flags; u32 flags2] ++ unused ++ extra)).
        { rewrite app_assoc, <- wire_app. exact Ah. }
        destruct (step_peek 8 mem k 40 _ _ F C0 eq_refl Ah') as [(? & Heq)|(? & Heq)]; [lenw|..];
          rewrite Heq; cbn [bind]; [eof Hlt|].
        assert (R' : Forall in_range [u32 major; u32 minor])
          by (inversion R as [|? ? R1 R2]; inversion R2; auto).
        do 10 (try rdw [u32 major; u32 minor] R'). rewrite B2, B3.
        rewrite app_assoc in Ah. rewrite bind_assoc.
        destruct (step_sized 64 mem k 40 _ _ F C0 eq_refl Ah) as [(? & Heq')|(? & ? & ? & ? & Heq')];
          [rewrite nlen_app, nlen_wire, G; reflexivity|..]; rewrite Heq'; cbn [bind]; [eof Hlt|].
        set (l := [u32 major; u32 minor; u32 max_readahead; u32 flags; u32 flags2]) in *.
        repeat match goal with
        | |- context [rd32 ?o (wire l ++ ?r)] =>
          rewrite (rd_wire l r 4 o _ R eq_refl : rd32 o (wire l ++ r) = Ret _); cbn [bind]
        end.
        projs. rewrite Hge by lia. do 2 f_equal.
        assert (Fl : flags < U32).
        { do 3 apply Forall_inv_tail in R. exact (Forall_inv R). }
        unfold U32 in Fl. rewrite N.shiftl_mul_pow2. change (2 ^ 32) with 4294967296.
        rewrite N.add_nocarry_lxor; [rewrite N.lxor_lor|]; rewrite ?(N.mul_comm 4294967296);
          auto; change 4294967296 with (2 ^ 32) in *; rewrite <- N.shiftl_mul_pow2;
          apply N.bits_inj_0; intros i; rewrite N.land_spec;
          destruct (N.lt_ge_cases i 32); [rewrite N.shiftl_spec_low by auto; apply andb_false_r| |
            rewrite N.shiftl_spec_low by auto; apply andb_false_r |];
          rewrite <- (N.mod_small flags (2 ^ 32)) by auto;
          rewrite N.mod_pow2_bits_high by auto; reflexivity.
Qed.

(** A complete message without a node id it needs. *)
Theorem decode_missing cf hd op extra k mem :
  message cf hd op extra k mem -> good_op cf op ->
  available false (op_type op) = true -> plain_target op -> 40 + nlen (op_body cf op) <= k ->
  (about_node op = true /\ rh_nodeid hd = 0) \/ In 0 (body_node_ids op) ->
  decode_view false cf (op_type op) {| rq_mem := mem |} = Fail EMissingNodeId.
Proof.
  intros [Acc Hdec Hbytes F K Hop Hnode Ah] [R G] Av P Hge Miss.
  assert (C0 : cursor k 40) by (unfold cursor; lia).
  assert (Hlt : k < 40 + nlen (op_body cf op) -> @Fail view EMissingNodeId = Fail EUnexpectedEof)
    by lia.
  assert (Hres : exists res, res = @Fail view EMissingNodeId) by eauto.
  destruct Hres as [res Hres]. rewrite <- Hres in *.
  unfold op_body in *. rewrite nlen_app, nlen_wire in Hlt, Hge. rewrite <- app_assoc in Ah.
  set (nodeid := rh_nodeid hd) in *. clearbody nodeid.
  assert (Hn : exists b, (nodeid =? 0) = b) by eauto. destruct Hn as [[] Hn].
  2: destruct Miss as [[_ M]|Miss]; [lia|].
  all: assert (G' : match op with
               | OSymlink name target => good_cstr name /\ good_name target
               | _ => True
               end) by (destruct op; try exact I; destruct G as [(A1 & A2 & A3) (B1 & B2)];
                        repeat split; assumption).
  all: clear P.
  all: destruct op; cbn [op_type decode_view op_code op_fields op_tail about_node body_node_ids
                    In] in *; try discriminate Av; clear Av.
  all: try match type of Miss with
       | (false = true /\ _) \/ False => exfalso; intuition discriminate
       | False => destruct Miss
       | _ = 0 \/ False => destruct Miss as [Hb|[]]; apply N.eqb_eq in Hb
       end.
  all: repeat autounfold with ops; rewrite Hdec; cbn [bind].
  all: try match type of Miss with
       | _ \/ ?b = 0 \/ False =>
         clear Miss; assert (Hb : exists c, (b =? 0) = c) by eauto; destruct Hb as [[] Hb]
       end.
  all: unfold read_in, release_in, lk_in in *.
  all: versions cf.
  all: repeat match goal with H : (cf_minor ?c <? ?v) = _ |- _ => rewrite H in R, Ah, Hlt, Hge end.
  all: try destruct wait.
  all: try match type of R with context [if cf_setxattr_ext ?c then _ else _] =>
         destruct (cf_setxattr_ext c) end.
  all: rewrite ?nlen_app in Hlt, Hge; change (@nlen byte [x00]) with 1 in *;
    change (@nlen byte []) with 0 in *.
  all: rewrite <- ?app_assoc in Ah; cbn [app] in Ah.
  all: change (wire []) with (@nil byte) in Ah; cbn [app] in Ah.
  all: cbn [fields_size fst snd u32 u64] in Hlt, Hge.
  all: match type of G' with True => clear G' | _ => clear G; rename G' into G end.
  all: try match type of G with
       | _ /\ _ /\ _ => destruct G as (G1 & G2 & G3)
       | _ /\ _ => destruct G as [G1 G2]
       end.
  all: try match goal with
       | H : ?s <= ?e, R : Forall in_range (u64 _ :: _ :: u64 ?s :: u64 ?e :: _) |- _ =>
         assert (LockRange_decode s e = Ret (lock_range s e)) by
           (apply LockRange_decode_spec; [exact H|];
            do 3 apply Forall_inv_tail in R; exact (Forall_inv R))
       end.
  all: repeat (rt1 Hlt; opcodes; projs).
  all: now rewrite Hres.
Qed.

(** A name is refused at its first slash. *)
Lemma node_name_loop_slash (todo : bytes) : forall done d post fuel,
  wf d -> ahead d (done ++ todo ++ x2f :: post) -> ~ In x00 todo -> ~ In x2f todo ->
  d_header_len d = d_consumed d + nlen done + N.of_nat fuel ->
  node_name_loop fuel d (d_consumed d + nlen done) =
    Fail (if d_header_len d <=? d_consumed d + nlen done + nlen todo then EUnexpectedEof
          else ENodeName NameContainsSlash).
Proof.
  induction todo as [|b r IH]; intros done d post fuel W A Hz Hs Hf.
  - rewrite nlen_nil, N.add_0_r. destruct fuel as [|f]; cbn [node_name_loop].
    + destruct (N.leb_spec (d_header_len d) (d_consumed d + nlen done)); [easy|lia].
    + rewrite (ahead_byte d done x2f post) by (auto; lia). cbn [bind hd].
      change (Byte.eqb x2f x2f) with true.
      destruct (N.leb_spec (d_header_len d) (d_consumed d + nlen done)); [lia|easy].
  - destruct fuel as [|f]; cbn [node_name_loop].
    + rewrite nlen_cons.
      destruct (N.leb_spec (d_header_len d) (d_consumed d + nlen done + (1 + nlen r))); [easy|lia].
    + cbn [app] in A. rewrite (ahead_byte d done b (r ++ x2f :: post)) by (auto; lia). cbn [bind hd].
      assert (Nb : b <> x00 /\ b <> x2f) by (cbn in *; split; intros ->; intuition).
      destruct Nb as [Nb1 Nb2].
      apply byte_eqb_neq in Nb1, Nb2. rewrite Nb1, Nb2. cbn [negb].
      specialize (IH (done ++ [b]) d post f W).
      rewrite <- !app_assoc in IH. cbn [app] in IH.
      rewrite nlen_app, nlen_cons, nlen_nil in IH.
      replace (d_consumed d + nlen done + 1) with (d_consumed d + (nlen done + (1 + 0))) by lia.
      rewrite IH; [|exact A|cbn in Hz; tauto|cbn in Hs; tauto|lia].
      rewrite nlen_cons. replace (d_consumed d + (nlen done + (1 + 0)) + nlen r)
        with (d_consumed d + nlen done + (1 + nlen r)) by lia. reflexivity.
Qed.
Lemma first_slash (s : bytes) : In x2f s -> exists a b, s = a ++ x2f :: b /\ ~ In x2f a.
Proof.
  induction s as [|c s IH]; intros H; [destruct H|].
  destruct (Byte.eqb c x2f) eqn:Q.
  - apply byte_eqb_eq in Q as ->. exists [], s. split; [reflexivity|easy].
  - apply byte_eqb_neq in Q. destruct H as [H|H]; [congruence|].
    destruct (IH H) as (a & b & -> & N). exists (c :: a), b. split; [reflexivity|].
    intros [K|K]; [congruence|now apply N].
Qed.
Theorem decode_slash cf hd name target extra k mem :
  let op := OSymlink name target in
  message cf hd op extra k mem -> good_op cf op -> In x2f target ->
  exists e, decode_view false cf RSymlink {| rq_mem := mem |} = Fail e /\
  (e = EUnexpectedEof \/ e = ENodeName NameContainsSlash) /\
  (40 + nlen (op_body cf op) <= k -> e = ENodeName NameContainsSlash).
Proof.
  intros op [Acc Hdec Hbytes F K Hop Hnode Ah] [R [(N1 & N2 & N3) (T1 & T2)]] Sl.
  assert (C0 : cursor k 40) by (unfold cursor; lia).
  destruct (first_slash _ Sl) as (a & b & -> & Na).
  exists (if k <=? 40 + (nlen name + 1) + nlen a then EUnexpectedEof else ENodeName NameContainsSlash).
  split; [|split; [destruct (_ <=? _); auto|]].
  2: { intros L. unfold op_body, op in L. rewrite nlen_app, nlen_wire in L. cbn [op_fields op_tail] in L.
       rewrite !nlen_app, nlen_cons in L. change (@nlen byte [x00]) with 1 in L.
       destruct (N.leb_spec k (40 + (nlen name + 1) + nlen a)); [lia|reflexivity]. }
  unfold op_body, op in *. cbn [op_fields op_tail op_code] in *.
  change (wire []) with (@nil byte) in Ah. cbn [app] in Ah.
  rewrite <- !app_assoc in Ah. cbn [app] in Ah.
  cbn [decode_view]. repeat autounfold with ops. rewrite Hdec. cbn [bind].
  repeat match goal with
  | |- bind (bind _ _) _ = _ => rewrite bind_assoc
  | |- context [expect_opcode (at_ ?m ?h ?c) ?o] => rewrite (expect_at m h c o F C0); cbn [bind]
  | H : u32_at 4 ?m = _ |- context [u32_at 4 ?m] => rewrite H; opcodes
  end.
  assert (Gn : good_cstr name) by (split; assumption).
  destruct (step_cstr mem k 40 name _ F C0 Ah Gn) as [(L & Heq)|(L & C1 & A1 & Heq)]; rewrite Heq; cbn [bind].
  { destruct (N.leb_spec k (40 + (nlen name + 1) + nlen a)); [reflexivity|lia]. }
  assert (S : next_node_name (at_ mem k (40 + (nlen name + 1))) =
    Fail (if k <=? 40 + (nlen name + 1) + nlen a then EUnexpectedEof else ENodeName NameContainsSlash)).
  { unfold next_node_name.
    pose proof (node_name_loop_slash a [] (at_ mem k (40 + (nlen name + 1))) (b ++ x00 :: extra)
      (N.to_nat (k - (40 + (nlen name + 1))))) as P.
    cbn [app at_ d_consumed d_header_len] in P |- *. rewrite nlen_nil, N.add_0_r in P.
    apply P; [now apply at_wf|exact A1|intros Z; apply T2, in_app_iff; now left|exact Na|lia]. }
  rewrite S. reflexivity.
Qed.

(** SETATTR with any nanosecond fields. *)
Theorem decode_setattr_overflow is_cuse cf hd extra k mem
    valid pad fh size lock_owner atime mtime ctime
    atimensec mtimensec ctimensec mode unused4 uid gid unused5 :
  let op := OSetattr valid pad fh size lock_owner atime mtime ctime
              atimensec mtimensec ctimensec mode unused4 uid gid unused5 in
  message cf hd op extra k mem -> Forall in_range (op_fields cf op) ->
  rh_nodeid hd <> 0 -> 40 + nlen (op_body cf op) <= k ->
  (N.testbit valid 4 = true /\ ns_limit < atimensec) \/
  (N.testbit valid 5 = true /\ ns_limit < mtimensec) \/
  (N.testbit valid 10 = true /\ ns_limit < ctimensec) ->
  decode_view is_cuse cf RSetattr {| rq_mem := mem |} = Fail ETimestampOverflow.
Proof.
  intros op [Acc Hdec Hbytes F K Hop Hnode Ah] R Hn Hge Bad.
  assert (C0 : cursor k 40) by (unfold cursor; lia).
  assert (Hlt : k < 40 + nlen (op_body cf op) -> @Fail view ETimestampOverflow = Fail EUnexpectedEof)
    by lia.
  apply neq_eqb in Hn. unfold op_body in *. rewrite <- app_assoc in Ah.
  rewrite nlen_app, nlen_wire in Hlt, Hge.
  subst op. cbn [decode_view op_fields op_tail op_code] in *.
  change (@nlen byte []) with 0 in *. cbn [fields_size fst snd u32 u64] in Hlt, Hge.
  set (nodeid := rh_nodeid hd) in *.
  repeat autounfold with ops; rewrite Hdec; cbn [bind].
  repeat (rt1 Hlt; opcodes; projs).
  unfold MAX_NANOS, ns_limit in *.
  destruct (N.testbit valid 4) eqn:?, (N.testbit valid 5) eqn:?, (N.testbit valid 10) eqn:?;
    try destruct (N.ltb_spec 999999999 atimensec);
    try destruct (N.ltb_spec 999999999 mtimensec);
    try destruct (N.ltb_spec 999999999 ctimensec); cbn [bind]; try reflexivity;
    exfalso; destruct Bad as [[? ?]|[[? ?]|[? ?]]]; first [discriminate | lia].
Qed.

(** GETLK and SETLK with any range. *)
Theorem decode_getlk_any cf hd extra k mem fh owner start end_ type pid lk_flags pad :
  let op := OGetlk fh owner start end_ type pid lk_flags pad in
  message cf hd op extra k mem -> Forall in_range (op_fields cf op) ->
  rh_nodeid hd <> 0 -> 40 + nlen (op_body cf op) <= k ->
  decode_view false cf RGetlk {| rq_mem := mem |} =
  (r <- LockRange_decode start end_ ;; Ret (VGetlk (rh_nodeid hd) fh owner type r)).
Proof.
  intros op [Acc Hdec Hbytes F K Hop Hnode Ah] R Hn Hge.
  assert (C0 : cursor k 40) by (unfold cursor; lia).
  match goal with |- _ = ?r =>
    assert (Hlt : k < 40 + nlen (op_body cf op) -> r = Fail EUnexpectedEof) by lia end.
  apply neq_eqb in Hn. unfold op_body in *. rewrite <- app_assoc in Ah.
  rewrite nlen_app, nlen_wire in Hlt, Hge.
  subst op. cbn [decode_view op_fields op_tail op_code] in *. unfold lk_in in *.
  change (@nlen byte []) with 0 in *. cbn [fields_size fst snd u32 u64] in Hlt, Hge.
  set (nodeid := rh_nodeid hd) in *.
  repeat autounfold with ops; rewrite Hdec; cbn [bind].
  repeat (rt1 Hlt; opcodes; projs). reflexivity.
Qed.

Theorem decode_setlk_any cf hd extra k mem wait fh owner start end_ type pid lk_flags pad :
  let op := OSetlk wait fh owner start end_ type pid lk_flags pad in
  message cf hd op extra k mem -> Forall in_range (op_fields cf op) ->
  rh_nodeid hd <> 0 -> 40 + nlen (op_body cf op) <= k ->
  decode_view false cf RSetlk {| rq_mem := mem |} =
  (r <- LockRange_decode start end_ ;;
   Ret (VSetlk (rh_nodeid hd) fh wait owner
          {| lk_mode := type; lk_range := r; lk_pid := nonzero pid |} lk_flags)).
Proof.
  intros op [Acc Hdec Hbytes F K Hop Hnode Ah] R Hn Hge.
  assert (C0 : cursor k 40) by (unfold cursor; lia).
  match goal with |- _ = ?r =>
    assert (Hlt : k < 40 + nlen (op_body cf op) -> r = Fail EUnexpectedEof) by lia end.
  apply neq_eqb in Hn. unfold op_body in *. rewrite <- app_assoc in Ah.
  rewrite nlen_app, nlen_wire in Hlt, Hge.
  subst op. cbn [decode_view op_fields op_tail op_code] in *. unfold lk_in in *.
  change (@nlen byte []) with 0 in *. cbn [fields_size fst snd u32 u64] in Hlt, Hge.
  set (nodeid := rh_nodeid hd) in *.
  destruct wait;
  repeat autounfold with ops; rewrite Hdec; cbn [bind];
  repeat (rt1 Hlt; opcodes; projs); reflexivity.
Qed.

(** Which offsets a decoded range covers. *)
Definition covers (r : LockRange) (o : N) : Prop :=
  lr_start r <= o /\ match lr_length r with None => True | Some l => o < lr_start r + l end.

Lemma LockRange_decode_any start end_ :
  start < U64 -> end_ < U64 ->
  match LockRange_decode start end_ with
  | Ret r => forall o,
      covers r o <->
      if start <=? end_ then start <= o /\ (o <= end_ \/ 9223372036854775807 <= end_)
      else end_ < o < start
  | Fail e => start = end_ + 1 /\ e = ELock EmptyRange
  | _ => False
  end.
Proof.
  intros H1 H2. unfold LockRange_decode, OFFSET_MAX, i64_max, sat_add64, u64_max, covers, U64 in *.
  destruct (N.ltb_spec end_ start).
  - destruct (N.leb_spec start end_); [lia|].
    replace (N.min 18446744073709551615 (end_ + 1)) with (end_ + 1) by lia.
    destruct (N.eqb_spec (start - (end_ + 1)) 0); [split; [lia|reflexivity]|].
    cbn. intros o. lia.
  - destruct (N.leb_spec start end_); [|lia].
    destruct (N.leb_spec 9223372036854775807 end_); cbn [lr_start lr_length].
    + intros o. lia.
    + replace (N.min 18446744073709551615 (end_ - start + 1)) with (end_ - start + 1) by lia.
      destruct (N.eqb_spec (end_ - start + 1) 0); [lia|].
      cbn [lr_start lr_length]. intros o. lia.
Qed.


(** The same starting from [Request::new]. *)
Lemma encode_nlen cf hd op extra k :
  40 <= k -> k <= 40 + nlen (op_body cf op ++ extra) ->
  nlen (encode_len cf hd op extra k) = k.
Proof.
  intros K1 K2. unfold encode_len. rewrite nlen_app, nlen_wire, nlen_take. cbn [fields_size header_fields fst snd u32 u64]. lia.
Qed.

End RoundTrip.
