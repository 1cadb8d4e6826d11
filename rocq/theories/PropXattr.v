(** Theorems about whole calls for extended attributes: C74 of
    properties.jsonl. *)

From Verif Require Import Base Kernel CoreModel DecodeModel OpsModel WireSpec OpsRoundTrip DecodeProofs
  ReplyModel ReplySpec ReplyProofs PropDecode PropHeader PropReply ListingModel PropListing
  ServerModel ServerSpec PropServer DeviceSpec PropDevice
  ClientSpec PropClient TakenSpec PropTaken FileSpec PropFile XattrSpec.
From Coq Require Import List NArith ZArith Bool Lia ZifyBool ZifyNat ZifyN Strings.Byte.
Import ListNotations.
Open Scope list_scope.
Open Scope N_scope.

(** ** A server *)

Section Spec.
Context {E : Endian}.

(** The names in a buffer as long as the client has room, if they fit. *)
Definition listing (size : N) (a : attributes) : answer :=
  match xattr_push_all (map fst a) (ListxattrNamesWriter_new (Some 65536) (repeat x00 (N.to_nat size))) with
  | Ret (oks, w) =>
    if forallb (fun b => b) oks then
      match ListxattrNamesWriter_into_names w with
      | Ret p => AOk (RListxattrNames p)
      | _ => AErr (-5)%Z
      end
    else AErr (-34)%Z
  | _ => AErr (-5)%Z
  end.

(** A server that keeps the attributes in a list. *)
Definition attribute_server : program attributes := fun a v =>
  match v with
  | VSetxattr _ name _ flags value =>
    match attr_get name a with
    | Some _ => if N.testbit flags 0 then (a, AErr (-17)%Z) else (attr_put name value a, AOkEmpty)
    | None => if N.testbit flags 1 then (a, AErr (-61)%Z) else (attr_put name value a, AOkEmpty)
    end
  | VGetxattr _ size name =>
    (a, match attr_get name a, size with
        | None, _ => AErr (-61)%Z
        | Some v, None => AOk (RGetxattrOut (nlen v))
        | Some v, Some n => if n <? nlen v then AErr (-34)%Z else AOkBuf v
        end)
  | VListxattr _ None => (a, AOk (RGetxattrOut (N.min (list_length a) 65536)))
  | VListxattr _ (Some n) => (a, listing n a)
  | VRemovexattr _ name =>
    match attr_get name a with
    | None => (a, AErr (-61)%Z)
    | Some _ => (attr_remove name a, AOkEmpty)
    end
  | _ => (a, AErr (-38)%Z)
  end.

(** Attributes a file on Linux can have. *)
Definition good_attribute (e : bytes * bytes) : Prop :=
  name_fits (fst e) = true /\ ~ In x00 (fst e) /\ nlen (snd e) <= 65536.
(** The calls programs can make: names are C strings. *)
Definition c_call (c : xattr_call) : Prop :=
  match c with
  | Setxattr name _ flags => ~ In x00 name
  | Getxattr name _ | Removexattr name => ~ In x00 name
  | Listxattr _ => True
  end.
(** What a SETXATTR request has room for: its header and the NUL of the name
    take 49 bytes, 57 with the fields added in protocol 7.33. *)
Definition room (x : xattr_session) : N :=
  xs_buf_len x - (if cf_setxattr_ext (xs_cf x) then 57 else 49).
End Spec.

(** ** Proofs *)

Local Ltac xattr_goals Err t :=
  try assumption; try reflexivity; try discriminate; try lia; try (apply Err; lia); try t.

Section Proofs.
Context {E : Endian}.

Lemma put_good name value a : Forall good_attribute a -> good_attribute (name, value) ->
  Forall good_attribute (attr_put name value a).
Proof.
  intros Ha Hn. induction Ha as [|[n v] a H Ha IH]; cbn [attr_put]; [now constructor|].
  destruct (list_eq_dec byte_eq_dec n name) as [->|]; constructor; auto.
Qed.
Lemma remove_good name a : Forall good_attribute a -> Forall good_attribute (attr_remove name a).
Proof.
  induction 1 as [|[n v] a H Ha IH]; cbn [attr_remove]; [constructor|].
  destruct (list_eq_dec byte_eq_dec n name); [assumption|now constructor].
Qed.
Lemma get_good name a v : Forall good_attribute a -> attr_get name a = Some v -> nlen v <= 65536.
Proof.
  induction 1 as [|[n w] a H Ha IH]; cbn [attr_get]; [discriminate|].
  destruct (list_eq_dec byte_eq_dec n name); [|assumption]. intros [= <-]. apply H.
Qed.

(** Everything fits exactly if the sum does. *)
Lemma all_accepted cap l : forall used, forallb (fun b => b) (accepted cap used l) = (used + sum l <=? cap) || (nlen l =? 0).
Proof.
  induction l as [|n l IH]; intros used; cbn [accepted].
  - cbn. now rewrite orb_true_r.
  - rewrite nlen_cons. replace (1 + nlen l =? 0) with false by lia. rewrite orb_false_r.
    cbn [sum fold_right]. fold (sum l). destruct (N.leb_spec (used + n) cap) as [L|L]; cbn [forallb andb].
    + rewrite IH. destruct l; [cbn; lia|]. rewrite nlen_cons. lia.
    + lia.
Qed.
Lemma kept_all {A} oks (l : list A) : forallb (fun b => b) oks = true -> length oks = length l -> kept oks l = l.
Proof.
  revert l. induction oks as [|o oks IH]; intros [|x l] H L; try discriminate; [reflexivity|].
  cbn [forallb] in H. apply andb_true_iff in H as [H1 H2]. rewrite H1. cbn [kept]. f_equal. apply IH; auto.
Qed.
Lemma accepted_length cap l : forall used, length (accepted cap used l) = length l.
Proof. induction l; intros; cbn [accepted]; [reflexivity|]. destruct (_ <=? _); cbn [length]; now rewrite IHl. Qed.
Lemma sum_names a : sum (map (fun n => nlen n + 1) (map fst a)) = list_length a.
Proof. induction a as [|e a IH]; [reflexivity|]. cbn [map sum fold_right list_length]. fold (sum (map (fun n => nlen n + 1) (map fst a))). rewrite IH. reflexivity. Qed.

Lemma listing_says minor id size a : is_id id -> Forall good_attribute a -> 0 < size <= 65536 ->
  if size <? list_length a then listing size a = AErr (-34)%Z
  else exists p, replies minor id (listing size a) 0 p /\ nlen p <= size /\ linux_listxattr p = inl (map fst a).
Proof.
  intros Hid Ha Hs. set (buf := repeat x00 (N.to_nat size)).
  assert (Lb : nlen buf = size) by (unfold buf; rewrite nlen_repeat; lia).
  assert (Hc : xattr_cap (Some 65536) buf = size) by (unfold xattr_cap; lia).
  assert (Hn : Forall cstr (map fst a)).
  { apply Forall_map. eapply Forall_impl; [|exact Ha]. intros e (_ & H & _). exact H. }
  destruct (C72_listxattr minor id (Some 65536) buf (map fst a) Hid Hn) as (w & p & H1 & H2 & H3 & H4 & _); [lia|].
  destruct (C25_names (Some 65536) buf (map fst a) Hn) as (w' & p' & H1' & H2' & _ & _ & _ & H6).
  rewrite H1 in H1'. injection H1' as <-. rewrite H2 in H2'. injection H2' as <-. rewrite Hc in *.
  unfold listing. fold buf. rewrite H1, H2.
  pose proof (all_accepted size (map (fun n => nlen n + 1) (map fst a)) 0) as X. rewrite sum_names in X.
  rewrite !nlen_map in X.
  set (oks := accepted _ _ _) in *.
  assert (Z : nlen a = 0 -> list_length a = 0) by (intros Z; apply nlen_0 in Z; now subst a).
  destruct (N.ltb_spec size (list_length a)) as [L|L].
  - replace (forallb (fun b => b) oks) with false by lia. reflexivity.
  - assert (Fo : forallb (fun b => b) oks = true) by lia. rewrite Fo.
    exists p. split; [exact H3|]. split; [exact H6|].
    rewrite kept_all in H4; [|exact Fo|unfold oks; now rewrite accepted_length, !map_length].
    apply H4. intros Hin. apply in_map_iff in Hin as (e & He & Hin).
    rewrite Forall_forall in Ha. destruct (Ha e Hin) as (F & _). rewrite He in F. discriminate.
Qed.

(** The answer to a size query. *)
Lemma size_reply minor id n : is_id id -> n < U32 ->
  exists p, replies minor id (AOk (RGetxattrOut n)) 0 p /\ nlen p = 8 /\ u32_at 0 p = n.
Proof.
  intros Hid Hn. destruct (C22_small_replies minor id Hid) as (_ & _ & R & _).
  destruct (R n Hn) as (p & Rp & P0 & _). exists p. split; [exact Rp|]. split; [|exact P0].
  assert (R8 : replies minor id (AOk (RGetxattrOut n)) 0 (payload minor (RGetxattrOut n))) by
    (apply ok_replies; [exact Hid|rewrite (nlen_payload _ (RGetxattrOut n) _ eq_refl); unfold u32_max; lia]).
  destruct R8 as (b & m & A & O & _ & K). destruct Rp as (b' & m' & A' & O' & _ & K').
  rewrite A in A'. injection A' as <-. rewrite O in O'. injection O' as <-. rewrite K in K'.
  assert (X : payload minor (RGetxattrOut n) = p) by congruence.
  rewrite <- X. apply (nlen_payload minor (RGetxattrOut n) _ eq_refl).
Qed.

(** One request of a good session. *)
Lemma xattr_exchange {St} x k (prog : program St) s op v s' a e p :
  good_session x -> good_op (xs_cf x) op -> available false (op_type op) = true -> op_type op <> RCreate ->
  body_node_ids op = [] ->
  nlen (linux_message (xs_cf x) (xs_hd x k) op) <= xs_buf_len x ->
  nlen (linux_message (xs_cf x) (xs_hd x k) op) < U32 ->
  taken_for false (xs_cf x) (xs_node x) op = Ret v ->
  prog s v = (s', a) -> replies (cf_minor (xs_cf x)) (rh_unique (xs_hd x k)) a e p -> (-512 < e <= 0)%Z ->
  (e <> 0%Z -> p = []) ->
  exchange false (xs_max_write x) (xs_buf_len x) (xs_cf x) prog s (xs_hd x k) op =
  Some (s', if (e =? 0)%Z then if fits (op_room (cf_minor (xs_cf x)) op) (nlen p) then inl p else inr (-5)%Z
            else inr e).
Proof.
  intros (B & Nn & Hh) Go Av Nc Bo L L' T P R He Hp. destruct (Hh k) as (Gh & Od & Nd).
  apply (exchange_ok false _ _ (xs_cf x) prog s (xs_hd x k) op v s' a e p); auto.
  - split; [exact Gh|]. split; [exact Go|]. split; [exact Av|].
    split; [|rewrite Bo; constructor]. intros _ _. now rewrite Nd.
  - intros C. contradiction.
  - now rewrite Nd.
Qed.

Lemma xattr_call_step x k a c :
  good_session x -> Forall good_attribute a -> c_call c ->
  exists k', linux_xattr x attribute_server k a c =
    Some (k', fst (xattr_step (room x) a c), snd (xattr_step (room x) a c)) /\
  Forall good_attribute (fst (xattr_step (room x) a c)).
Proof.
  intros G Ha Hc. pose proof G as (B & Nn & Hh). destruct (Hh k) as (Gh & Od & Nd).
  pose proof (header_id _ Gh) as Id.
  assert (Err : forall e, (-512 < e < 0)%Z ->
    replies (cf_minor (xs_cf x)) (rh_unique (xs_hd x k)) (AErr e) e [])
    by (intros e He; apply C20_error_reply; [exact Id|unfold is_i32; lia]).
  assert (Emp : replies (cf_minor (xs_cf x)) (rh_unique (xs_hd x k)) AOkEmpty 0 [])
    by apply (C18_payload (cf_minor (xs_cf x)) (rh_unique (xs_hd x k)) [] [] [] [] Id).
  destruct c as [name value flags|name size|size|name]; cbn [c_call linux_xattr xattr_step] in *.
  - (* setxattr *)
    destruct (N.ltb_spec 3 flags) as [Lf|Lf]; [exists k; split; [reflexivity|exact Ha]|].
    destruct (name_fits name) eqn:F; cbn [negb]; [|exists k; split; [reflexivity|exact Ha]].
    destruct (N.ltb_spec 65536 (nlen value)) as [Lv|Lv]; [exists k; split; [reflexivity|exact Ha]|].
    cbn [orb]. set (op := OSetxattr flags 0 0 name value). unfold name_fits in F.
    assert (Lm : nlen (linux_message (xs_cf x) (xs_hd x k) op) =
      (if cf_setxattr_ext (xs_cf x) then 57 else 49) + nlen name + nlen value).
    { rewrite nlen_linux_message. unfold op, op_body. cbn [op_fields op_tail surplus].
      rewrite !nlen_app, !nlen_wire. destruct (cf_setxattr_ext (xs_cf x)); cbn [fields_size u64 u32 fst];
        change (nlen [x00]) with 1; lia. }
    exists (S k). destruct (N.ltb_spec (room x) (nlen name + nlen value)) as [Lr|Lr].
    + split; [|exact Ha]. unfold exchange, device_read. rewrite Lm.
      replace (xs_buf_len x <? N.max 8192 (80 + xs_max_write x)) with false by lia.
      replace (xs_buf_len x <? _) with true
        by (unfold room in Lr; destruct (cf_setxattr_ext (xs_cf x)); lia).
      reflexivity.
    + assert (Lx : nlen (linux_message (xs_cf x) (xs_hd x k) op) <= xs_buf_len x)
        by (rewrite Lm; unfold room in Lr; destruct (cf_setxattr_ext (xs_cf x)); lia).
      assert (Ly : nlen (linux_message (xs_cf x) (xs_hd x k) op) < U32)
        by (rewrite Lm; unfold U32; destruct (cf_setxattr_ext (xs_cf x)); lia).
      assert (Go : good_op (xs_cf x) op).
      { unfold good_op, op. cbn [op_fields]. split.
        - unfold in_range, U32. destruct (cf_setxattr_ext (xs_cf x)); repeat constructor; cbn; lia.
        - split; [|exact Hc]. intros ->. discriminate F. }
      set (v := VSetxattr (xs_node x) name 0 flags value).
      assert (T : taken_for false (xs_cf x) (xs_node x) op = Ret v)
        by (unfold op, taken_for, v; cbn [expected]; now destruct (cf_setxattr_ext (xs_cf x))).
      assert (Gn : good_attribute (name, value)) by (split; [exact F|split; [exact Hc|exact Lv]]).
      destruct (attr_get name a) as [old|] eqn:A.
      * destruct (N.testbit flags 0) eqn:T0.
        -- rewrite (xattr_exchange x k attribute_server a op v a (AErr (-17)%Z) (-17)%Z [] G Go);
             xattr_goals Err ltac:(unfold v, attribute_server; now rewrite A, T0).
           split; [reflexivity|exact Ha].
        -- rewrite (xattr_exchange x k attribute_server a op v (attr_put name value a) AOkEmpty 0%Z [] G Go);
             xattr_goals Err ltac:(unfold v, attribute_server; now rewrite A, T0).
           split; [reflexivity|now apply put_good].
      * destruct (N.testbit flags 1) eqn:T1.
        -- rewrite (xattr_exchange x k attribute_server a op v a (AErr (-61)%Z) (-61)%Z [] G Go);
             xattr_goals Err ltac:(unfold v, attribute_server; now rewrite A, T1).
           split; [reflexivity|exact Ha].
        -- rewrite (xattr_exchange x k attribute_server a op v (attr_put name value a) AOkEmpty 0%Z [] G Go);
             xattr_goals Err ltac:(unfold v, attribute_server; now rewrite A, T1).
           split; [reflexivity|now apply put_good].
  - (* getxattr *)
    destruct (name_fits name) eqn:F; cbn [negb]; [|exists k; split; [reflexivity|exact Ha]].
    unfold name_fits in F. set (sz := N.min size 65536). set (op := OGetxattr sz 0 name).
    destruct (message_fits (xs_max_write x) 1 (xs_buf_len x) (xs_cf x) (xs_hd x k) op) as [Ly Lx];
      [unfold op; cbn [ClientSpec.within]; lia|lia|exact B|]. specialize (Lx eq_refl).
    assert (Go : good_op (xs_cf x) op).
    { unfold good_op, op. cbn [op_fields]. split; [|exact Hc].
      unfold in_range, U32. repeat constructor; cbn; lia. }
    set (v := VGetxattr (xs_node x) (nonzero sz) name).
    assert (T : taken_for false (xs_cf x) (xs_node x) op = Ret v) by reflexivity.
    exists (S k). destruct (attr_get name a) as [val|] eqn:A.
    + pose proof (get_good name a val Ha A) as Lv.
      destruct (N.eqb_spec size 0) as [Z|Z].
      * assert (Zs : sz = 0) by lia.
        destruct (size_reply (cf_minor (xs_cf x)) (rh_unique (xs_hd x k)) (nlen val) Id) as (p & Rp & Lp & P0);
          [unfold U32; lia|].
        rewrite (xattr_exchange x k attribute_server a op v a (AOk (RGetxattrOut (nlen val))) 0%Z p G Go);
          xattr_goals Err ltac:(unfold v, attribute_server; now rewrite A, Zs).
        unfold op. cbn [op_room Z.eqb]. rewrite Zs, Lp. change (0 =? 0) with true. cbv iota. change (fits (Exactly 8) 8) with true. cbv beta iota. rewrite P0.
        split; [|exact Ha]. cbn [fst snd]. do 3 f_equal. lia.
      * assert (Zs : sz =? 0 = false) by lia.
        assert (Nz : nonzero sz = Some sz) by (unfold nonzero; now rewrite Zs).
        destruct (N.ltb_spec size (nlen val)) as [Lz|Lz].
        -- assert (Lz' : sz <? nlen val = true) by lia.
           rewrite (xattr_exchange x k attribute_server a op v a (AErr (-34)%Z) (-34)%Z [] G Go);
             xattr_goals Err ltac:(unfold v, attribute_server; now rewrite A, Nz, Lz').
           split; [|exact Ha]. cbn [Z.eqb fst snd]. unfold as_program.
           replace (65536 <=? sz) with false by lia. reflexivity.
        -- assert (Lz' : sz <? nlen val = false) by lia.
           rewrite (xattr_exchange x k attribute_server a op v a (AOkBuf val) 0%Z val G Go);
             xattr_goals Err ltac:(unfold v, attribute_server; now rewrite A, Nz, Lz').
           ++ unfold op. cbn [op_room Z.eqb]. rewrite Zs. cbn [fits].
              replace (_ && _) with true by lia. split; [reflexivity|exact Ha].
           ++ destruct (C18_payload (cf_minor (xs_cf x)) (rh_unique (xs_hd x k)) val [] [] [] Id)
                as (_ & _ & _ & _ & R & _). apply R. unfold u32_max. lia.
    + rewrite (xattr_exchange x k attribute_server a op v a (AErr (-61)%Z) (-61)%Z [] G Go);
        xattr_goals Err ltac:(unfold v, attribute_server; now rewrite A).
      split; [reflexivity|exact Ha].
  - (* listxattr *)
    set (sz := N.min size 65536). set (op := OListxattr sz 0).
    destruct (message_fits (xs_max_write x) 1 (xs_buf_len x) (xs_cf x) (xs_hd x k) op) as [Ly Lx];
      [exact I|lia|exact B|]. specialize (Lx eq_refl).
    assert (Go : good_op (xs_cf x) op).
    { unfold good_op, op. cbn [op_fields]. split; [|exact I].
      unfold in_range, U32. repeat constructor; cbn; lia. }
    set (v := VListxattr (xs_node x) (nonzero sz)).
    assert (T : taken_for false (xs_cf x) (xs_node x) op = Ret v) by reflexivity.
    exists (S k). destruct (N.eqb_spec size 0) as [Z|Z].
    + assert (Zs : sz = 0) by lia.
      destruct (size_reply (cf_minor (xs_cf x)) (rh_unique (xs_hd x k)) (N.min (list_length a) 65536) Id)
        as (p & Rp & Lp & P0); [unfold U32; lia|].
      rewrite (xattr_exchange x k attribute_server a op v a (AOk (RGetxattrOut (N.min (list_length a) 65536))) 0%Z p G Go);
        xattr_goals Err ltac:(unfold v, attribute_server; now rewrite Zs).
      unfold op. cbn [op_room Z.eqb]. rewrite Zs, Lp. change (0 =? 0) with true. cbv iota. change (fits (Exactly 8) 8) with true. cbv beta iota. unfold linux_listxattr_size. rewrite P0.
      split; [|exact Ha]. cbn [fst snd]. do 3 f_equal. lia.
    + assert (Zs : sz =? 0 = false) by lia.
      assert (Nz : nonzero sz = Some sz) by (unfold nonzero; now rewrite Zs).
      pose proof (listing_says (cf_minor (xs_cf x)) (rh_unique (xs_hd x k)) sz a Id Ha ltac:(lia)) as Ls.
      destruct (sz <? list_length a) eqn:Lz.
      * rewrite (xattr_exchange x k attribute_server a op v a (AErr (-34)%Z) (-34)%Z [] G Go);
          xattr_goals Err ltac:(unfold v, attribute_server; now rewrite Nz, Ls).
        split; [|exact Ha]. cbn [Z.eqb fst snd]. unfold as_program. cbn [Z.eqb andb].
        replace (65536 <=? sz) with (65536 <=? size) by lia. now destruct (65536 <=? size).
      * destruct Ls as (p & Rp & Lp & Pn).
        rewrite (xattr_exchange x k attribute_server a op v a (listing sz a) 0%Z p G Go);
          xattr_goals Err ltac:(unfold v, attribute_server; now rewrite Nz).
        unfold op. cbn [op_room Z.eqb]. rewrite Zs. cbn [fits].
        replace (_ && _) with true by lia. rewrite Pn. split; [reflexivity|exact Ha].
  - (* removexattr *)
    destruct (name_fits name) eqn:F; cbn [negb]; [|exists k; split; [reflexivity|exact Ha]].
    unfold name_fits in F. set (op := ORemovexattr name).
    destruct (message_fits (xs_max_write x) 1 (xs_buf_len x) (xs_cf x) (xs_hd x k) op) as [Ly Lx];
      [unfold op; cbn [ClientSpec.within]; lia|lia|exact B|]. specialize (Lx eq_refl).
    assert (Go : good_op (xs_cf x) op) by (split; [constructor|exact Hc]).
    set (v := VRemovexattr (xs_node x) name).
    assert (T : taken_for false (xs_cf x) (xs_node x) op = Ret v) by reflexivity.
    exists (S k). destruct (attr_get name a) as [val|] eqn:A.
    + rewrite (xattr_exchange x k attribute_server a op v (attr_remove name a) AOkEmpty 0%Z [] G Go);
        xattr_goals Err ltac:(unfold v, attribute_server; now rewrite A).
      split; [reflexivity|now apply remove_good].
    + rewrite (xattr_exchange x k attribute_server a op v a (AErr (-61)%Z) (-61)%Z [] G Go);
        xattr_goals Err ltac:(unfold v, attribute_server; now rewrite A).
      split; [reflexivity|exact Ha].
Qed.

(** ** C74 *)

(** Programs that use the extended attributes of a file whose server keeps them
    in a list get what xattr(7) says. *)
Theorem C74_xattrs x a l : forall k,
  good_session x -> Forall good_attribute a -> Forall c_call l ->
  linux_xattrs x attribute_server k a l = Some (xattr_steps (room x) a l).
Proof.
  revert a. induction l as [|c l IH]; intros a k G Ha Hl; [reflexivity|].
  apply Forall_cons_iff in Hl as [Hc Hl]. cbn [linux_xattrs xattr_steps].
  destruct (xattr_call_step x k a c G Ha Hc) as (k' & -> & Ha').
  destruct (xattr_step (room x) a c) as [a' r]. cbn [fst snd] in *.
  rewrite (IH a' k' G Ha' Hl). now destruct (xattr_steps (room x) a' l).
Qed.
End Proofs.

(** ** Examples *)

Local Instance LE : Endian := false.

Definition demo_xattrs (ext : bool) (minor : N) : xattr_session := {|
  xs_max_write := 4096; xs_buf_len := 8192;
  xs_cf := {| cf_minor := minor; cf_setxattr_ext := ext; cf_overflow_checks := true |};
  xs_hd := fun k => demo_hd (2 * (N.of_nat k mod 1000) + 2) 7; xs_node := 7 |}.
Lemma demo_session_good ext minor : good_session (demo_xattrs ext minor).
Proof.
  split; [vm_compute; discriminate|]. split; [discriminate|]. intros k.
  destruct (demo_good false minor) as (_ & _ & _ & _ & _ & _ & _ & H). exact (H k).
Qed.

Definition user_a : bytes := [x75; x73; x65; x72; x2e; x61].
Definition user_b : bytes := [x75; x73; x65; x72; x2e; x62].
(** Asking for the size and then for the value; the flags; room for all but one
    byte; a value that does not fit a request of 8192 bytes: 8192 - 49 - 6 is
    8137. *)
Definition demo_xattr_calls : list xattr_call :=
  [Setxattr user_a [x01; x02; x03] 0; Getxattr user_a 0; Getxattr user_a 3; Getxattr user_a 2; Getxattr user_b 9;
   Setxattr user_a [] 1; Setxattr user_b [] 2; Setxattr user_b [x04] 1;
   Listxattr 0; Listxattr 14; Listxattr 13; Getxattr [] 4;
   Removexattr user_a; Removexattr user_a; Listxattr 100000;
   Setxattr user_b (repeat x05 (N.to_nat 8137)) 2; Getxattr user_b 0; Setxattr user_b (repeat x06 (N.to_nat 8138)) 2; Getxattr user_b 0;
   Setxattr user_b [] 4].
Example C74_xattrs_example :
  (forall ext minor, good_session (demo_xattrs ext minor)) /\
  Forall good_attribute [] /\ Forall c_call demo_xattr_calls /\
  option_map snd (linux_xattrs (demo_xattrs false 31) attribute_server 0 [] demo_xattr_calls) =
  Some [XDone; XSize 3; XValue [x01; x02; x03]; XError 34; XError 61;
        XError 17; XError 61; XDone;
        XSize 14; XNames [user_a; user_b]; XError 34; XError 34;
        XDone; XError 61; XNames [user_b];
        XDone; XSize 8137; XError 7; XSize 8137; XError 22].
Proof.
  split; [exact demo_session_good|]. split; [constructor|]. split.
  - unfold demo_xattr_calls, c_call, user_a, user_b. repeat constructor; cbn; intros H;
      repeat (destruct H as [H|H]; [discriminate|]); exact H.
  - vm_compute. reflexivity.
Qed.

Print Assumptions C74_xattrs.
