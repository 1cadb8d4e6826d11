(** Theorems about what Linux makes of the replies of a server: C72 of
    properties.jsonl. *)

From Verif Require Import Base Kernel CoreModel OpsModel ReplyModel ReplySpec ReplyProofs PropReply PropListing
  VfsModel ListingModel PropValues PropStatic TakenSpec.
From Coq Require Import List NArith ZArith Bool Lia ZifyBool ZifyNat ZifyN.
Import ListNotations.
Open Scope list_scope.
Open Scope N_scope.

(** ** Specification *)

(** What stat(2) should say of node [node] after the setter calls [ops] of the
    server: of every attribute the value given last.  [bs] is the block size of
    the mount. *)
Definition told (bs node : N) (ops : list attr_op) : stat :=
  let time pick := let t := last_set pick ops epoch in (ut_seconds t, ut_nanos t) in
  {| st_ino := node;
     st_mode := last_set (fun c => match c with SetMode v => Some v | _ => None end) ops 0;
     st_nlink := last_set (fun c => match c with SetLinkCount v => Some v | _ => None end) ops 0;
     st_uid := last_set (fun c => match c with SetUserId v => Some v | _ => None end) ops 0;
     st_gid := last_set (fun c => match c with SetGroupId v => Some v | _ => None end) ops 0;
     st_rdev := last_set (fun c => match c with SetDeviceNumber v => Some v | _ => None end) ops 0;
     st_size := last_set (fun c => match c with SetSize v => Some v | _ => None end) ops 0;
     st_blksize :=
       linux_blksize bs (last_set (fun c => match c with SetBlockSize v => Some v | _ => None end) ops 0);
     st_blocks := last_set (fun c => match c with SetBlockCount v => Some v | _ => None end) ops 0;
     st_atime := time (fun c => match c with SetAtime t => Some t | _ => None end);
     st_mtime := time (fun c => match c with SetMtime t => Some t | _ => None end);
     st_ctime := time (fun c => match c with SetCtime t => Some t | _ => None end) |}.

(** The node an entry describes: made from attributes with the calls [aops],
    then changed by [ops]. *)
Definition described (bs node : N) (aops : list attr_op) (ops : list entry_op) : TakenSpec.node :=
  {| n_id := node;
     n_generation := last_set (fun c => match c with SetGeneration v => Some v | _ => None end) ops 0;
     n_stat := told bs node (aops ++ entry_attr_ops ops);
     n_name_valid := capped (last_set (fun c => match c with SetCacheTimeout d => Some d | _ => None end) ops (0, 0));
     n_attr_valid := capped (last_set (fun c => match c with SetAttrTimeout d => Some d | _ => None end) ops (0, 0)) |}.

(** ** Entries and attributes *)

Section Entries.
Context {E : Endian}.

Lemma last_time_ok pick ops :
  (forall o t, pick o = Some t -> attr_op_ok o -> time_ok t) ->
  Forall attr_op_ok ops -> ut_nanos (last_set pick ops epoch) < 1000000000.
Proof.
  intros Hp H. assert (G : forall d, ut_nanos d < 1000000000 -> ut_nanos (last_set pick ops d) < 1000000000).
  { induction H as [|o r Ho Hr IH]; cbn [last_set]; intros d Hd; [exact Hd|].
    apply IH. destruct (pick o) as [t|] eqn:P; [|exact Hd]. exact (proj2 (Hp _ _ P Ho)). }
  apply G. reflexivity.
Qed.

Lemma last_duration_ok pick ops :
  (forall o t, pick o = Some t -> entry_op_ok o -> duration_ok t) ->
  Forall entry_op_ok ops -> snd (capped (last_set pick ops (0, 0))) < 1000000000.
Proof.
  intros Hp H. assert (G : forall d, snd d < 1000000000 -> snd (last_set pick ops d) < 1000000000).
  { induction H as [|o r Ho Hr IH]; cbn [last_set]; intros d Hd; [exact Hd|].
    apply IH. destruct (pick o) as [t|] eqn:P; [|exact Hd]. exact (proj2 (Hp _ _ P Ho)). }
  unfold capped. destruct (fst _ <? I64); [|reflexivity]. apply G. reflexivity.
Qed.

Lemma entry_attr_ok ops : Forall entry_op_ok ops -> Forall attr_op_ok (entry_attr_ops ops).
Proof.
  induction 1 as [|o r Ho Hr IH]; cbn; [constructor|]. apply Forall_app. split; [|exact IH].
  destruct o; constructor; auto.
Qed.

Lemma stat_told bs p o node ops :
  Forall attr_op_ok ops -> attr_reads p o node true ops -> linux_stat bs o p = told bs node ops.
Proof.
  intros Hops (H1 & H2 & H3 & H4 & H5 & H6 & H7 & H8 & H9 & H10 & H11 & H12).
  destruct (H12 eq_refl) as [H13 _]. cbv zeta in H4, H5, H6.
  assert (T : forall sec nsec pick,
    (forall o t, pick o = Some t -> attr_op_ok o -> time_ok t) ->
    {| ut_seconds := as_i64 (u64_at (o + sec) p); ut_nanos := u32_at (o + nsec) p |} = last_set pick ops epoch ->
    linux_time p (o + sec) (o + nsec) =
    (ut_seconds (last_set pick ops epoch), ut_nanos (last_set pick ops epoch))).
  { intros sec nsec pick Hp Ht. pose proof (last_time_ok pick ops Hp Hops) as L.
    rewrite <- Ht in *. cbn [ut_seconds ut_nanos] in *. unfold linux_time. f_equal. lia. }
  unfold linux_stat, told. f_equal.
  all: try assumption.
  - now rewrite H13.
  - apply T; [|exact H4]. intros [] tt0 Hx Ho; try discriminate Hx. injection Hx as <-. exact Ho.
  - apply T; [|exact H5]. intros [] tt0 Hx Ho; try discriminate Hx. injection Hx as <-. exact Ho.
  - apply T; [|exact H6]. intros [] tt0 Hx Ho; try discriminate Hx. injection Hx as <-. exact Ho.
Qed.

Lemma node_described bs p node aops ops :
  Forall attr_op_ok aops -> Forall entry_op_ok ops ->
  entry_reads p node true aops ops -> linux_node bs p = described bs node aops ops.
Proof.
  intros Ha Ho (H1 & H2 & H3 & H4 & H5).
  assert (D : forall (sec nsec : N) pick,
    (forall o t, pick o = Some t -> entry_op_ok o -> duration_ok t) ->
    (u64_at sec p, u32_at nsec p) = capped (last_set pick ops (0, 0)) ->
    (u64_at sec p, N.min (u32_at nsec p) 999999999) = capped (last_set pick ops (0, 0))).
  { intros sec nsec pick Hp Hd. pose proof (last_duration_ok pick ops Hp Ho) as L.
    rewrite <- Hd in *. cbn [snd] in L. f_equal. lia. }
  unfold linux_node, described. f_equal; try assumption.
  - apply stat_told; [|exact H5]. apply Forall_app. split; [exact Ha|]. now apply entry_attr_ok.
  - apply D; [|exact H3]. intros [] tt0 Hx Hk; try discriminate Hx. injection Hx as <-. exact Hk.
  - apply D; [|exact H4]. intros [] tt0 Hx Hk; try discriminate Hx. injection Hx as <-. exact Hk.
Qed.

(** LOOKUP: the program gets exactly the node described, unless the server gave
    it no valid file type, a size that is no [loff_t], or the id of the
    root. *)
Theorem C72_lookup minor id bs node aops ops :
  is_id id -> 9 <= minor -> 0 < node < U64 -> Forall attr_op_ok aops -> Forall entry_op_ok ops ->
  let e := entry_calls ops (Entry_new (attr_calls aops (NodeAttr_new node))) in
  let s := told bs node (aops ++ entry_attr_ops ops) in
  exists p, replies minor id (AOk (REntryOut e)) 0 p /\
    linux_lookup bs p =
      if existsb (N.eqb (file_type (st_mode s))) file_types && (st_size s <? 2 ^ 63) && negb (node =? 1)
      then Found (described bs node aops ops) else Broken 5.
Proof.
  intros Hid Hm Hn Ha Ho e s.
  destruct (C22_entry_reply minor id node aops ops Hid Hn Ha Ho) as (p & R & P). cbv zeta in R.
  exists p. split; [exact R|]. replace (9 <=? minor) with true in P by lia.
  unfold linux_lookup. rewrite (node_described bs p node aops ops Ha Ho P).
  cbn [described n_id n_stat]. fold s. unfold valid_attr.
  replace (node =? 0) with false by lia.
  destruct (existsb _ _ && _); cbn [negb andb]; [|reflexivity].
  change ROOT with 1. now destruct (node =? 1).
Qed.

(** MKNOD, MKDIR, SYMLINK and LINK: the same, and the type must be the one asked
    for. *)
Theorem C72_created minor id bs t node aops ops :
  is_id id -> 9 <= minor -> 0 < node < U64 -> Forall attr_op_ok aops -> Forall entry_op_ok ops ->
  In t [4096; 8192; 16384; 24576; 32768; 40960; 49152] ->
  let e := entry_calls ops (Entry_new (attr_calls aops (NodeAttr_new node))) in
  let s := told bs node (aops ++ entry_attr_ops ops) in
  exists p, replies minor id (AOk (REntryOut e)) 0 p /\
    linux_created bs t p =
      if (file_type (st_mode s) =? t) && (st_size s <? 2 ^ 63) && negb (node =? 1)
      then Found (described bs node aops ops) else Broken 5.
Proof.
  intros Hid Hm Hn Ha Ho Ht e s.
  destruct (C22_entry_reply minor id node aops ops Hid Hn Ha Ho) as (p & R & P). cbv zeta in R.
  exists p. split; [exact R|]. replace (9 <=? minor) with true in P by lia.
  unfold linux_created. rewrite (node_described bs p node aops ops Ha Ho P).
  cbn [described n_id n_stat]. fold s. unfold valid_attr.
  replace (node =? 0) with false by lia. change ROOT with 1. cbn [orb].
  destruct (N.eqb_spec node 1) as [->|N1].
  { cbn [negb]. now rewrite andb_false_r. }
  cbn [negb]. rewrite andb_true_r. destruct (N.eqb_spec (file_type (st_mode s)) t) as [->|Nt].
  - replace (existsb (N.eqb t) file_types) with true.
    2:{ symmetry. apply existsb_exists. exists t. split; [exact Ht|apply N.eqb_refl]. }
    cbn [andb negb]. now destruct (st_size s <? 2 ^ 63).
  - cbn [negb andb]. now destruct (negb _).
Qed.

(** CREATE: a regular file, opened with the handle and flags given. *)
Theorem C72_create minor id bs node aops ops fh flags :
  is_id id -> 9 <= minor -> 0 < node < U64 -> Forall attr_op_ok aops -> Forall entry_op_ok ops ->
  fh < U64 -> flags < U32 ->
  let e := entry_calls ops (Entry_new (attr_calls aops (NodeAttr_new node))) in
  let r := CreateResponse_set_flags flags (CreateResponse_set_handle fh (CreateResponse_new e)) in
  let s := told bs node (aops ++ entry_attr_ops ops) in
  exists p, replies minor id (AOk (RCreateResponse r)) 0 p /\
    linux_create bs p =
      (if (file_type (st_mode s) =? 32768) && (st_size s <? 2 ^ 63) && negb (node =? 1)
       then Found (described bs node aops ops) else Broken 5, (fh, flags)).
Proof.
  intros Hid Hm Hn Ha Ho Hfh Hfl e r s.
  destruct (C22_create_reply minor id node aops ops fh flags Hid Hn Ha Ho Hfh Hfl) as (p & R & P & F1 & F2 & L).
  cbv zeta in R. exists p. split; [exact R|]. replace (9 <=? minor) with true in P by lia.
  replace (minor <? 9) with false in * by lia.
  unfold linux_create. change (128 + 8) with 136 in F2. rewrite F1, F2. f_equal.
  assert (ND : linux_node bs p = described bs node aops ops).
  { rewrite <- (node_described bs _ node aops ops Ha Ho P).
    assert (U8 : forall o, o + 8 <= 128 -> u64_at o (take 128 p) = u64_at o p).
    { intros o Hoo. unfold u64_at. apply fld_take. change (N.of_nat 8) with 8. lia. }
    assert (U4 : forall o, o + 4 <= 128 -> u32_at o (take 128 p) = u32_at o p).
    { intros o Hoo. unfold u32_at. apply fld_take. change (N.of_nat 4) with 4. lia. }
    unfold linux_node, linux_stat, linux_time.
    now rewrite !U8, !U4 by lia. }
  unfold linux_created. rewrite ND.
  cbn [described n_id n_stat]. fold s. unfold valid_attr.
  replace (node =? 0) with false by lia. change ROOT with 1. cbn [orb].
  destruct (N.eqb_spec node 1) as [->|N1].
  { cbn [negb]. now rewrite andb_false_r. }
  cbn [negb]. rewrite andb_true_r. destruct (N.eqb_spec (file_type (st_mode s)) 32768) as [->|Nt].
  - cbn [existsb file_types N.eqb Pos.eqb andb orb negb]. now destruct (st_size s <? 2 ^ 63).
  - cbn [negb andb]. now destruct (negb _).
Qed.

(** GETATTR and SETATTR of a node of type [t]. *)
Theorem C72_getattr minor id bs t node ops valid nsec :
  is_id id -> 9 <= minor -> 0 < node < U64 -> Forall attr_op_ok ops -> valid < U64 -> nsec < 1000000000 ->
  In t [4096; 8192; 16384; 24576; 32768; 40960; 49152] ->
  let attr := attr_calls ops (NodeAttr_new node) in
  let s := told bs node ops in
  exists p,
    replies minor id
      (AOk (RAttrOut {| ao_attr_valid := valid; ao_attr_valid_nsec := nsec; ao_attr := attr |})) 0 p /\
    linux_getattr bs t p =
      if (file_type (st_mode s) =? t) && (st_size s <? 2 ^ 63) then inl (s, (valid, nsec)) else inr 5%Z.
Proof.
  intros Hid Hm Hn Ha Hv Hs Ht attr s.
  destruct (C22_attr_reply minor id node ops valid nsec Hid Hn Ha Hv ltac:(unfold U32; lia)) as (p & R & P1 & P2 & P3).
  cbv zeta in R. exists p. split; [exact R|]. replace (9 <=? minor) with true in P3 by lia.
  unfold linux_getattr. rewrite (stat_told bs p 16 node ops Ha P3), P1, P2. fold s. unfold valid_attr.
  replace (N.min nsec 999999999) with nsec by lia.
  destruct (N.eqb_spec (file_type (st_mode s)) t) as [->|Nt].
  - replace (existsb (N.eqb t) file_types) with true.
    2:{ symmetry. apply existsb_exists. exists t. split; [exact Ht|apply N.eqb_refl]. }
    cbn [andb negb]. now destruct (st_size s <? 2 ^ 63).
  - cbn [negb andb]. now destruct (negb _).
Qed.

End Entries.

(** ** Directories *)

(** A listing as the program should see it: the name, node, offset and type of
    every entry; the program reads one byte of the type. *)
Definition listed (s : seen) : dirent :=
  {| d_ino := s_ino s; d_off := s_off s; d_type := s_type s mod 256; d_name := s_name s |}.
(** The longest name Linux takes. *)
Definition short (name : bytes) : Prop := nlen name <= 1024.

Section Directories.
Context {E : Endian}.

(** Reading the entries one by one. *)
Fixpoint scan (room : nat) (l : list seen) {struct l} : list dirent * option Z :=
  match l with
  | [] => ([], None)
  | x :: l =>
    if (1024 <? nlen (s_name x)) || existsb slash (s_name x) then ([], Some 5%Z)
    else match room with
         | O => ([], None)
         | S room => let (r, e) := scan room l in (listed x :: r, e)
         end
  end.

Lemma parse_scan n p l :
  client_entries 24 (fun h name => {| s_ino := u64_at 0 h; s_off := u64_at 8 h;
                                      s_type := u32_at 20 h; s_name := name |}) n p = Some l ->
  forall fuel room, (length p < fuel)%nat -> parse_dirfile fuel room p = scan room l.
Proof.
  revert p l. induction n as [|n IH]; intros p l H fuel room Hf; [discriminate|].
  destruct fuel as [|fuel]; [lia|]. cbn [parse_dirfile]. cbn [client_entries] in H.
  destruct (N.eqb_spec (nlen p) 0) as [Hz|Hz].
  { injection H as <-. rewrite Hz. reflexivity. }
  destruct (N.ltb_spec (nlen p) 24) as [H24|H24]; [discriminate|].
  change (24 - 8) with 16 in H. set (k := u32_at 16 p) in *.
  destruct (N.eqb_spec k 0) as [Hk|Hk]; [discriminate|]. cbn [orb].
  change (up8 (24 + k)) with (padded (24 + k)) in H.
  destruct (N.ltb_spec (nlen p) (padded (24 + k))) as [Hr|Hr]; [discriminate|].
  destruct (client_entries _ _ n _) as [l'|] eqn:R; [|discriminate]. injection H as <-.
  cbn [scan s_name].
  assert (Lk : nlen (slice 24 k p) = k).
  { rewrite nlen_slice. unfold padded in Hr. lia. }
  rewrite Lk. change NAME_MAX with 1024.
  destruct (N.ltb_spec 1024 k); cbn [orb]; [reflexivity|].
  destruct (existsb slash (slice 24 k p)); [reflexivity|].
  destruct room as [|room]; [reflexivity|].
  rewrite (IH _ _ R fuel room).
  - destruct (scan room l') as [r e]. unfold listed. cbn [s_ino s_off s_type s_name].
    unfold u64_at, u32_at. now rewrite !fld_take by (cbn; lia).
  - pose proof (nlen_drop (padded (24 + k)) p) as Ld. unfold padded in *. unfold nlen in *. lia.
Qed.

Lemma scan_short room l :
  Forall (fun x => short (s_name x) /\ existsb slash (s_name x) = false) l ->
  scan room l = (map listed (firstn room l), None).
Proof.
  intros H. revert room. induction H as [|x l [Hs Hx] Hl IH]; intros room; cbn [scan].
  - now destruct room.
  - rewrite Hx. unfold short in Hs. replace (1024 <? nlen (s_name x)) with false by lia. cbn [orb].
    destruct room as [|room]; [reflexivity|]. rewrite IH. reflexivity.
Qed.
Lemma scan_long room a x b :
  Forall (fun x => short (s_name x) /\ existsb slash (s_name x) = false) a -> ~ short (s_name x) ->
  getdents (scan room (a ++ x :: b)) =
  match a with [] => inr 5%Z | _ => inl (map listed (firstn room a)) end.
Proof.
  intros Ha Hx.
  assert (G : forall a, Forall (fun x => short (s_name x) /\ existsb slash (s_name x) = false) a -> forall room,
    fst (scan room (a ++ x :: b)) = map listed (firstn room a) /\
    (a = [] -> snd (scan room (a ++ x :: b)) = Some 5%Z) /\
    (a <> [] -> room = O -> snd (scan room (a ++ x :: b)) = None)).
  { clear - Hx. intros a Ha. induction Ha as [|y a [Hy Hz] Ha IH]; intros room; cbn [app scan].
    - unfold short in Hx. replace (1024 <? nlen (s_name x)) with true by lia. cbn [orb fst snd].
      rewrite firstn_nil. repeat split. contradiction.
    - rewrite Hz. unfold short in Hy. replace (1024 <? nlen (s_name y)) with false by lia. cbn [orb].
      destruct room as [|room]; [repeat split; discriminate|].
      destruct (IH room) as (I1 & _ & _). destruct (scan room (a ++ x :: b)) as [r e]. cbn [fst snd] in *.
      rewrite I1. repeat split; discriminate. }
  destruct (G a Ha room) as (G1 & G2 & G3). destruct (scan room (a ++ x :: b)) as [r e]. cbn [fst snd] in *.
  subst r. destruct a as [|y a].
  - rewrite firstn_nil. rewrite (G2 eq_refl). reflexivity.
  - destruct room as [|room]; [|reflexivity]. rewrite G3; [reflexivity|discriminate|reflexivity].
Qed.

Lemma name_no_slash n : NodeName_from_bytes n = inl n -> existsb slash n = false.
Proof.
  intros H. apply (proj1 (C40_node_name n)) in H as [_ H].
  induction H as [|b r Hb Hr IH]; cbn [existsb]; [reflexivity|]. rewrite IH, orb_false_r.
  unfold slash. apply Bool.not_true_is_false. intros Eb. apply byte_dec_bl in Eb. subst b.
  unfold allowed in Hb. now destruct Hb.
Qed.

(** What a program sees of an item in a READDIR listing. *)
Definition item_listed (i : dir_item) : dirent :=
  {| d_ino := i_node i; d_off := i_off i; d_type := dt_code (i_type i); d_name := i_name i |}.
Lemma listed_item i : listed (seen_item i) = item_listed i.
Proof. unfold listed, seen_item, item_listed. cbn. f_equal. now destruct (i_type i) as [[]|]. Qed.

(** READDIR: a program whose buffer holds [room] entries gets the first [room]
    entries that were pushed, as they were made; but Linux takes no name of
    more than 1024 bytes, nor anything after it. *)
Theorem C72_readdir minor id addr buf items room :
  is_id id -> addr mod 8 = 0 -> Forall dir_item_ok items ->
  let oks := accepted (N.min (nlen buf) 65535) 0 (map (fun i => readdir_size (i_name i)) items) in
  exists w p,
    push_all Dirent_fuse_dirent (map make_entry items) (writer_new addr buf) = Ret (oks, w) /\
    into_entries w = Ret p /\
    replies minor id (AOk (RReaddirEntries p)) 0 p /\
    (Forall (fun i => short (i_name i)) (kept oks items) ->
     linux_readdir room p = inl (map item_listed (firstn room (kept oks items)))) /\
    (forall a x b, kept oks items = a ++ x :: b ->
     Forall (fun i => short (i_name i)) a -> ~ short (i_name x) ->
     linux_readdir room p =
     match a with [] => inr 5%Z | _ => inl (map item_listed (firstn room a)) end).
Proof.
  intros Hid Ha Hok oks.
  destruct (C23_readdir addr buf items Ha Hok) as (w & p & H1 & H2 & H3 & _ & _ & H6). fold oks in H1, H3.
  exists w, p. split; [exact H1|]. split; [exact H2|]. split.
  { apply (ok_replies minor id (RReaddirEntries p) Hid). cbn [payload]. unfold u32_max. lia. }
  pose proof (parse_scan _ _ _ H3 (S (length p)) room ltac:(lia)) as P.
  assert (K : Forall dir_item_ok (kept oks items)) by now apply kept_forall.
  assert (M : forall l, map listed (map seen_item l) = map item_listed l).
  { intros l. rewrite map_map. apply map_ext. apply listed_item. }
  assert (S : forall l, Forall dir_item_ok l -> Forall (fun i => short (i_name i)) l ->
    Forall (fun x => short (s_name x) /\ existsb slash (s_name x) = false) (map seen_item l)).
  { intros l Hl Hs. apply Forall_map. rewrite Forall_forall in *. intros i Hi. split; [now apply Hs|].
    apply name_no_slash. now apply Hl. }
  unfold linux_readdir. rewrite P. split.
  - intros Hs. rewrite scan_short by now apply S. rewrite firstn_map, M. cbn [getdents].
    now destruct (map item_listed _).
  - intros a x b Hl Hs Hx. rewrite Hl in *. apply Forall_app in K as [Ka Kx].
    rewrite map_app. cbn [map]. rewrite scan_long; [|now apply S|exact Hx].
    rewrite firstn_map, M. now destruct a.
Qed.

(** *** READDIRPLUS *)

Definition nothing : plus := {| pl_entries := []; pl_linked := []; pl_forgotten := [] |}.
Fixpoint scan_plus (bs : N) (room : nat) (l : list (bytes * seen)) {struct l} : plus * option Z :=
  match l with
  | [] => (nothing, None)
  | x :: l =>
    if (1024 <? nlen (s_name (snd x))) || existsb slash (s_name (snd x)) then (nothing, Some 5%Z)
    else
      let (r, e) := scan_plus bs (pred room) l in
      let n := linux_node bs (fst x) in
      let bad := (n_id n =? 1) || negb (valid_attr (n_stat n)) in
      let skip := (n_id n =? 0) || dots (s_name (snd x)) in
      ({| pl_entries := match room with O => [] | S _ => listed (snd x) :: pl_entries r end;
          pl_linked := if skip || bad then pl_linked r else (s_name (snd x), n) :: pl_linked r;
          pl_forgotten := if negb skip && bad then n_id n :: pl_forgotten r else pl_forgotten r |}, e)
  end.

Lemma node_take bs p : linux_node bs (take 128 (take 152 p)) = linux_node bs p.
Proof.
  assert (U8 : forall o, o + 8 <= 128 -> u64_at o (take 128 (take 152 p)) = u64_at o p).
  { intros o Ho. unfold u64_at. rewrite !fld_take; [reflexivity| |]; change (N.of_nat 8) with 8; lia. }
  assert (U4 : forall o, o + 4 <= 128 -> u32_at o (take 128 (take 152 p)) = u32_at o p).
  { intros o Ho. unfold u32_at. rewrite !fld_take; [reflexivity| |]; change (N.of_nat 4) with 4; lia. }
  unfold linux_node, linux_stat, linux_time. now rewrite !U8, !U4 by lia.
Qed.

Lemma parse_scan_plus bs n p l :
  client_entries 152
    (fun h name => (take 128 h, {| s_ino := u64_at 128 h; s_off := u64_at 136 h;
                                   s_type := u32_at 148 h; s_name := name |})) n p = Some l ->
  forall fuel room, (length p < fuel)%nat -> parse_dirplusfile bs fuel room p = scan_plus bs room l.
Proof.
  revert p l. induction n as [|n IH]; intros p l H fuel room Hf; [discriminate|].
  destruct fuel as [|fuel]; [lia|]. cbn [parse_dirplusfile]. cbn [client_entries] in H.
  destruct (N.eqb_spec (nlen p) 0) as [Hz|Hz].
  { injection H as <-. rewrite Hz. reflexivity. }
  destruct (N.ltb_spec (nlen p) 152) as [H24|H24]; [discriminate|].
  change (152 - 8) with 144 in H. set (k := u32_at 144 p) in *.
  destruct (N.eqb_spec k 0) as [Hk|Hk]; [discriminate|]. cbn [orb].
  change (up8 (152 + k)) with (padded (152 + k)) in H.
  destruct (N.ltb_spec (nlen p) (padded (152 + k))) as [Hr|Hr]; [discriminate|].
  destruct (client_entries _ _ n _) as [l'|] eqn:R; [|discriminate]. injection H as <-.
  cbn [scan_plus s_name fst snd].
  assert (Lk : nlen (slice 152 k p) = k).
  { rewrite nlen_slice. unfold padded in Hr. lia. }
  rewrite Lk. change NAME_MAX with 1024.
  destruct (N.ltb_spec 1024 k); cbn [orb]; [reflexivity|].
  destruct (existsb slash (slice 152 k p)); [reflexivity|].
  rewrite (IH _ _ R fuel (pred room)).
  - destruct (scan_plus bs (pred room) l') as [r e]. rewrite node_take. change ROOT with 1.
    destruct room as [|room]; [reflexivity|].
    unfold listed. cbn [s_ino s_off s_type s_name].
    unfold u64_at, u32_at. now rewrite !fld_take by (cbn; lia).
  - pose proof (nlen_drop (padded (152 + k)) p) as Ld. unfold padded in *. unfold nlen in *. lia.
Qed.

(** What a program sees of an item in a READDIRPLUS listing: its type is
    unknown (DT_UNKNOWN, 0) whatever its mode says, because the type in the
    listing is not a DT_* code (see [C24_type_refuted]) and one byte of it is
    left. *)
Definition plus_listed (i : plus_item) : dirent :=
  {| d_ino := p_node i; d_off := p_off i; d_type := 0; d_name := p_name i |}.
(** The node it describes, and whether Linux can use it. *)
Definition plus_node (bs : N) (i : plus_item) : TakenSpec.node :=
  described bs (p_node i) (p_attr i) (p_entry i).
Definition usable (bs : N) (i : plus_item) : bool :=
  negb (p_node i =? 1) &&
  existsb (N.eqb (file_type (st_mode (n_stat (plus_node bs i))))) file_types &&
  (st_size (n_stat (plus_node bs i)) <? 2 ^ 63).
Definition all_seen (bs : N) (room : nat) (l : list plus_item) : plus :=
  let named := filter (fun i => negb (dots (p_name i))) l in
  {| pl_entries := map plus_listed (firstn room l);
     pl_linked := map (fun i => (p_name i, plus_node bs i)) (filter (usable bs) named);
     pl_forgotten := map p_node (filter (fun i => negb (usable bs i)) named) |}.

Lemma plus_seen_node bs i v : plus_item_ok i -> plus_seen i v -> linux_node bs (fst v) = plus_node bs i.
Proof. intros (_ & _ & _ & Ha & He) [H _]. now apply node_described. Qed.

Lemma land_byte m : N.land m 61440 mod 256 = 0.
Proof. rewrite <- N.land_ones with (n := 8), <- N.land_assoc. apply N.land_0_r. Qed.

Lemma plus_seen_listed i v : plus_seen i v -> listed (snd v) = plus_listed i.
Proof.
  intros [_ H]. unfold listed, plus_listed. rewrite H. cbn [s_ino s_off s_type s_name].
  now rewrite land_byte.
Qed.

Lemma scan_plus_all bs a la : Forall2 plus_seen a la -> Forall plus_item_ok a ->
  Forall (fun i => short (p_name i)) a -> forall b lb, Forall2 plus_seen b lb ->
  match b with [] => True | x :: _ => ~ short (p_name x) end ->
  forall room, scan_plus bs room (la ++ lb) =
    (all_seen bs room a, match b with [] => None | _ => Some 5%Z end).
Proof.
  intros F. induction F as [|i v a la Hv F IH]; intros Hok Hs b lb Fb Hb room.
  - cbn [app]. destruct Fb as [|x y b lb Hy Fb].
    + cbn [scan_plus]. unfold all_seen. now rewrite firstn_nil.
    + cbn [scan_plus]. destruct Hy as [_ Hy]. rewrite Hy. cbn [s_name]. unfold short in Hb.
      replace (1024 <? nlen (p_name x)) with true by lia. cbn [orb]. unfold all_seen. now rewrite firstn_nil.
  - inversion Hok as [|? ? Hi Hok']; subst. inversion Hs as [|? ? Si Hs']; subst.
    cbn [app scan_plus]. rewrite (IH Hok' Hs' b lb Fb Hb (pred room)).
    rewrite (plus_seen_node bs i v Hi Hv), (plus_seen_listed i v Hv).
    assert (Nm : s_name (snd v) = p_name i) by (destruct Hv as [_ Hv]; now rewrite Hv).
    rewrite Nm. rewrite name_no_slash by apply Hi. unfold short in Si.
    replace (1024 <? nlen (p_name i)) with false by lia. cbn [orb].
    assert (Z0 : n_id (plus_node bs i) = p_node i) by reflexivity. rewrite Z0.
    replace (p_node i =? 0) with false by (destruct Hi; lia). cbn [orb].
    unfold all_seen. cbn [pl_entries pl_linked pl_forgotten filter]. f_equal.
    assert (U : usable bs i = negb ((p_node i =? 1) || negb (valid_attr (n_stat (plus_node bs i))))).
    { unfold usable, valid_attr. rewrite negb_orb, negb_involutive. now rewrite andb_assoc. }
    destruct (dots (p_name i)); cbn [negb orb andb filter map]; rewrite ?U;
      destruct ((p_node i =? 1) || negb (valid_attr (n_stat (plus_node bs i)))); cbn [negb map];
      destruct room as [|room]; reflexivity.
Qed.

(** READDIRPLUS: as for READDIR, and every entry but "." and ".." is looked up,
    whether or not the program has room for it; the lookup of a node that
    cannot be used is given back. *)
Theorem C72_readdirplus minor id addr buf items bs room :
  is_id id -> addr mod 8 = 0 -> Forall plus_item_ok items ->
  let oks := accepted (N.min (nlen buf) 65535) 0 (map (fun i => plus_size (p_name i)) items) in
  exists es w p,
    Forall2 (fun i e => ReaddirplusEntry_new (p_name i) (p_off i) (item_entry i) = Ret e) items es /\
    push_all Dirent_fuse_direntplus es (writer_new addr buf) = Ret (oks, w) /\
    into_entries w = Ret p /\
    replies minor id (AOk (RReaddirEntries p)) 0 p /\
    forall a b, kept oks items = a ++ b -> Forall (fun i => short (p_name i)) a ->
      match b with [] => True | x :: _ => ~ short (p_name x) end ->
      linux_readdirplus bs room p = (all_seen bs room a, match b with [] => None | _ => Some 5%Z end).
Proof.
  intros Hid Ha Hok oks.
  destruct (C24_readdirplus addr buf items Ha Hok) as (es & w & p & l & H0 & H1 & H2 & H3 & H4 & _ & _ & H6).
  fold oks in H1, H4. exists es, w, p. split; [exact H0|]. split; [exact H1|]. split; [exact H2|]. split.
  { apply (ok_replies minor id (RReaddirEntries p) Hid). cbn [payload]. unfold u32_max. lia. }
  intros a b Hl Hs Hb. unfold linux_readdirplus.
  rewrite (parse_scan_plus bs _ _ _ H3 (S (length p)) room) by lia.
  assert (K : Forall plus_item_ok (kept oks items)) by now apply kept_forall.
  rewrite Hl in K, H4. apply Forall_app in K as [Ka _].
  apply Forall2_app_inv_l in H4 as (la & lb & F1 & F2 & ->). now apply scan_plus_all.
Qed.

(** *** Whole directories *)

(** One getdents(2) call of a program whose buffer holds [room] entries, on a
    [StaticDirectory] of fuse-vfs, at offset [off]: Linux asks with READDIR or
    READDIRPLUS, as it likes.  The size asked for is enough for the next
    entry. *)
Inductive call (bs : N) (items : list static_item) (off : N) (room : nat) : list dirent + Z -> Prop :=
| call_readdir addr size p :
  addr mod 8 = 0 ->
  (forall i, nth_error items (N.to_nat off) = Some i -> readdir_size (si_name i) <= N.min size 65535) ->
  static_readdir addr (map static_entry items) (if off =? 0 then None else Some off) size = Ret p ->
  call bs items off room (linux_readdir room p)
| call_readdirplus addr size p :
  addr mod 8 = 0 ->
  (forall i, nth_error items (N.to_nat off) = Some i -> plus_size (si_name i) <= N.min size 65535) ->
  static_readdirplus addr (map static_entry items) (if off =? 0 then None else Some off) size = Ret p ->
  let r := linux_readdirplus bs room p in
  call bs items off room (getdents (pl_entries (fst r), snd r)).

(** A program that reads on until there is nothing left or an error. *)
Inductive reads (bs : N) (items : list static_item) : N -> list dirent -> option Z -> Prop :=
| reads_end off room : (0 < room)%nat -> call bs items off room (inl []) -> reads bs items off [] None
| reads_error off room e : (0 < room)%nat -> call bs items off room (inr e) -> reads bs items off [] (Some e)
| reads_more off room l x rest r :
  (0 < room)%nat -> call bs items off room (inl (l ++ [x])) -> reads bs items (d_off x) rest r ->
  reads bs items off (l ++ [x] ++ rest) r.

(** The item with number [off] as it should be seen; the type may be left
    unknown. *)
Definition shown (x : static_item * N) (d : dirent) : Prop :=
  d_ino d = si_node (fst x) /\ d_off d = snd x /\ d_name d = si_name (fst x) /\
  (d_type d = dt_of_mode (item_mode (fst x)) \/ d_type d = 0).

Lemma static_no_slash i : static_item_ok i -> existsb slash (si_name i) = false.
Proof. intros (_ & _ & H & _). now apply name_no_slash. Qed.

Lemma dt_byte m : dt_of_mode m mod 256 = dt_of_mode m.
Proof.
  unfold dt_of_mode. set (t := m / 4096 mod 16). destruct (existsb _ _); [|reflexivity].
  apply N.mod_small. assert (t < 16) by (apply N.mod_lt; discriminate). lia.
Qed.

(** The entries and the error of a listing of items, the first of which have
    short names. *)
Lemma getdents_split (l : list seen) :
  Forall (fun x => existsb slash (s_name x) = false) l ->
  exists a b, l = a ++ b /\ Forall (fun x => short (s_name x)) a /\
    match b with [] => True | x :: _ => ~ short (s_name x) end /\
    forall room, getdents (scan room l) =
      match a, b with [], _ :: _ => inr 5%Z | _, _ => inl (map listed (firstn room a)) end.
Proof.
  intros H.
  assert (G : exists a b, l = a ++ b /\ Forall (fun x => short (s_name x)) a /\
    match b with [] => True | x :: _ => ~ short (s_name x) end).
  { clear H. induction l as [|x l (a & b & -> & Ha & Hb)].
    - exists [], []. repeat split. constructor.
    - destruct (N.leb_spec (nlen (s_name x)) 1024) as [Hx|Hx].
      + exists (x :: a), b. split; [reflexivity|]. split; [constructor; assumption|assumption].
      + exists [], (x :: a ++ b). split; [reflexivity|]. split; [constructor|]. unfold short. lia. }
  destruct G as (a & b & -> & Ha & Hb). exists a, b. split; [reflexivity|]. split; [exact Ha|].
  split; [exact Hb|]. intros room. apply Forall_app in H as [Sa Sb].
  assert (F : Forall (fun x => short (s_name x) /\ existsb slash (s_name x) = false) a).
  { rewrite Forall_forall in *. intros x Hx. split; [now apply Ha|now apply Sa]. }
  destruct b as [|x b].
  - rewrite app_nil_r, scan_short by exact F. destruct a; [now rewrite firstn_nil|].
    cbn [getdents]. now destruct (map listed _).
  - rewrite scan_long by assumption. now destruct a.
Qed.

(** READDIRPLUS shows the same entries. *)
Lemma scan_plus_entries bs l : forall room, (0 < room)%nat ->
  let r := scan_plus bs room l in
  getdents (pl_entries (fst r), snd r) = getdents (scan room (map snd l)).
Proof.
  assert (G : forall l room, pl_entries (fst (scan_plus bs room l)) = fst (scan room (map snd l)) /\
    ((length l <= room)%nat -> snd (scan_plus bs room l) = snd (scan room (map snd l)))).
  { clear l. induction l as [|x l IH]; intros room; cbn [scan_plus map scan]; [now split|].
    destruct ((1024 <? _) || _); [now split|]. destruct (IH (pred room)) as [I1 I2].
    destruct (scan_plus bs (pred room) l) as [r e]. cbn [fst snd] in *.
    destruct room as [|room]; cbn [pred] in *.
    - split; [reflexivity|]. cbn [length]. lia.
    - destruct (scan room (map snd l)) as [r' e']. cbn [fst snd pl_entries length] in *.
      split; [now rewrite I1|]. intros. apply I2. lia. }
  intros room Hr r. subst r. destruct (G l room) as [G1 _]. rewrite G1.
  destruct l as [|x l]; [reflexivity|]. cbn [map scan scan_plus] in *.
  destruct ((1024 <? _) || _); [reflexivity|].
  destruct room as [|room]; [lia|]. destruct (scan room (map snd l)) as [r' e'].
  destruct (scan_plus bs (pred (S room)) l) as [r e]. reflexivity.
Qed.

(** What one call can return. *)
Lemma call_result bs items off room res :
  Forall static_item_ok items -> nlen items + 1 < U64 -> (0 < room)%nat -> call bs items off room res ->
  exists c d, drop off items = c ++ d /\ (drop off items <> [] -> c <> [] \/ exists x d', d = x :: d' /\ ~ short (si_name x)) /\
    Forall (fun i => short (si_name i)) c /\
    ((c <> [] \/ drop off items = []) -> exists ds, res = inl ds /\ Forall2 shown (firstn room (numbered (off + 1) c)) ds) /\
    (c = [] -> drop off items <> [] -> res = inr 5%Z).
Proof.
  intros Hok Hn Hr C.
  assert (G : exists c d l,
    drop off items = c ++ d /\ (drop off items <> [] -> c <> []) /\
    res = getdents (scan room l) /\
    Forall2 (fun x s => s_name s = si_name (fst x) /\ shown x (listed s)) (numbered (off + 1) c) l).
  { destruct C as [addr size p Ha Hf Hp|addr size p Ha Hf Hp].
    - destruct (C48_readdir_page addr items off size Ha Hok Hn) as (p' & P1 & P2 & _).
      rewrite Hp in P1. injection P1 as <-.
      destruct (fitting_prefix (fun x => readdir_size (si_name (fst x))) (drop off items) (N.min size 65535) (off + 1))
        as (c & d & D1 & D2 & D3).
      rewrite D2 in P2. exists c, d, (map static_seen (numbered (off + 1) c)).
      split; [exact D1|]. split.
      { intros Nn. destruct (drop off items) as [|x r] eqn:Dx; [contradiction|].
        apply (D3 x r eq_refl). cbn [fst]. apply Hf. now apply nth_drop with r. }
      split. { unfold linux_readdir. now rewrite (parse_scan _ _ _ P2 (S (length p)) room) by lia. }
      clear. generalize (numbered (off + 1) c). intros l.
      induction l as [|[i o] l IH]; cbn [map]; constructor; [|exact IH].
      split; [reflexivity|]. unfold shown, listed, static_seen.
      cbn [fst snd d_ino d_off d_type d_name s_ino s_off s_type s_name].
      rewrite dt_byte. repeat split. now left.
    - destruct (C48_readdirplus_page addr items off size Ha Hok Hn) as (p' & l & P1 & P2 & P3 & _).
      rewrite Hp in P1. injection P1 as <-.
      destruct (fitting_prefix (fun x => plus_size (si_name (fst x))) (drop off items) (N.min size 65535) (off + 1))
        as (c & d & D1 & D2 & D3).
      rewrite D2 in P3. exists c, d, (map snd l).
      split; [exact D1|]. split.
      { intros Nn. destruct (drop off items) as [|x r'] eqn:Dx; [contradiction|].
        apply (D3 x r' eq_refl). cbn [fst]. apply Hf. now apply nth_drop with r'. }
      split.
      { subst r. unfold linux_readdirplus. rewrite (parse_scan_plus bs _ _ _ P2 (S (length p)) room) by lia.
        now apply scan_plus_entries. }
      clear - P3. induction P3 as [|[i o] v l l' [_ Hv] F IH]; cbn [map]; constructor; [|exact IH].
      rewrite Hv. split; [reflexivity|]. unfold shown, listed.
      cbn [fst snd d_ino d_off d_type d_name s_ino s_off s_type s_name].
      repeat split. right. change 4096 with (16 * 256). now rewrite N.mul_assoc, N.mod_mul. }
  destruct G as (c & d & l & D1 & D2 & -> & F).
  assert (Hc : Forall static_item_ok c).
  { assert (Hd : Forall static_item_ok (drop off items)).
    { rewrite <- (take_drop off items) in Hok. now apply Forall_app in Hok as [_ Hok]. }
    rewrite D1 in Hd. now apply Forall_app in Hd as [Hd _]. }
  assert (Sl : Forall (fun x => existsb slash (s_name x) = false) l).
  { clear - F Hc. revert l F. generalize (off + 1) as n. induction Hc as [|i c Hi Hc IH]; intros n l F; inversion F; subst; constructor.
    - destruct H1 as [H1 _]. rewrite H1. cbn [fst]. now apply static_no_slash.
    - now apply (IH (n + 1)). }
  destruct (getdents_split l Sl) as (la & lb & -> & Ha & Hb & R).
  apply Forall2_app_inv_r in F as (na & nb & Fa & Fb & Eq).
  assert (Sp : exists c1 c2, c = c1 ++ c2 /\ na = numbered (off + 1) c1 /\ nb = numbered (off + 1 + nlen c1) c2).
  { clear - Eq. revert na nb Eq. generalize (off + 1) as n. induction c as [|x c IH]; intros n na nb Eq.
    - symmetry in Eq. apply app_eq_nil in Eq as [-> ->]. exists [], []. repeat split.
    - destruct na as [|y na]; cbn [app numbered] in Eq.
      + exists [], (x :: c). repeat split. cbn [numbered]. rewrite <- Eq. cbn. f_equal; [f_equal; change (nlen []) with 0; lia|f_equal; change (nlen []) with 0; lia].
      + injection Eq as <- Eq. destruct (IH _ _ _ Eq) as (c1 & c2 & -> & -> & ->).
        exists (x :: c1), c2. repeat split. f_equal. rewrite nlen_cons. lia. }
  destruct Sp as (c1 & c2 & -> & -> & ->).
  exists c1, (c2 ++ d). split; [now rewrite app_assoc|].
  assert (Hh : c1 = [] -> c2 <> [] -> exists x r, c2 = x :: r /\ ~ short (si_name x)).
  { intros -> N2. destruct c2 as [|x c2]; [contradiction|]. exists x, c2. split; [reflexivity|].
    cbn [numbered] in Fb. inversion Fb as [|? ? ? ? [Nx _] Fr]; subst. cbn [fst] in Nx. now rewrite <- Nx. }
  split.
  { intros Nn. specialize (D2 Nn). destruct c1 as [|y c1]; [|left; discriminate]. cbn [app] in *.
    destruct (Hh eq_refl D2) as (x & r & -> & Nx). right. exists x, (r ++ d). now split. }
  split.
  { clear - Fa Ha. revert la Fa Ha. generalize (off + 1) as n. induction c1 as [|x c1 IH]; intros n la Fa Ha; [constructor|].
    inversion Fa as [|? y ? la' [Nx _] Fr]; subst. inversion Ha; subst. cbn [fst] in Nx. constructor; [now rewrite <- Nx|].
    now apply (IH _ _ Fr). }
  assert (L : forall k, Forall2 shown (firstn k (numbered (off + 1) c1)) (map listed (firstn k la))).
  { clear - Fa. induction Fa as [|x y l l' [_ Hs] F IH]; intros k; [rewrite !firstn_nil; constructor|].
    destruct k; cbn [firstn map]; constructor; [exact Hs|apply IH]. }
  split.
  - intros Hc1. exists (map listed (firstn room la)). split; [|apply L]. rewrite R.
    destruct la as [|y la]; [|reflexivity].
    assert (c1 = []) by (destruct c1; [reflexivity|inversion Fa]). subst c1.
    destruct Hc1 as [Hc1|Hc1]; [contradiction|]. rewrite Hc1 in D1. cbn [app] in D1.
    symmetry in D1. apply app_eq_nil in D1 as [-> _]. inversion Fb. reflexivity.
  - intros -> Nn. rewrite R. inversion Fa. specialize (D2 Nn). cbn [app] in D2.
    destruct c2 as [|x c2]; [contradiction|]. inversion Fb. reflexivity.
Qed.

(** The whole listing: every item once and in order, whatever the sizes of
    pages and of the program's buffer; unless a name is too long for Linux,
    which hides it and all after it behind an error. *)
Theorem C72_listing bs items a rest l r :
  Forall static_item_ok items -> nlen items + 1 < U64 ->
  items = a ++ rest -> Forall (fun i => short (si_name i)) a ->
  match rest with [] => True | x :: _ => ~ short (si_name x) end ->
  reads bs items 0 l r ->
  Forall2 shown (numbered 1 a) l /\ r = match rest with [] => None | _ => Some 5%Z end.
Proof.
  intros Hok Hn Hi Ha Hrest H.
  enough (G : forall off, reads bs items off l r -> off <= nlen a ->
    Forall2 shown (numbered (off + 1) (drop off a)) l /\ r = match rest with [] => None | _ => Some 5%Z end).
  { specialize (G 0 H (N.le_0_l _)). now rewrite drop_0 in G. }
  clear H. intros off H. induction H as [off room Hr C|off room e Hr C|off room l x re r Hr C R IH]; intros Ho;
    (destruct (call_result bs items off room _ Hok Hn Hr C) as (c & d & D1 & D2 & D3 & D4 & D5));
    assert (Dd : drop off items = drop off a ++ rest) by (rewrite Hi; now apply drop_app_le).
  - assert (c = []).
    { destruct c as [|y c]; [reflexivity|]. destruct D4 as (ds & E1 & F); [left; discriminate|].
      injection E1 as <-. destruct room; [lia|]. cbn [numbered firstn] in F. inversion F. }
    subst c. destruct (drop off items) as [|y q] eqn:Dx.
    + symmetry in Dd. apply app_eq_nil in Dd as [-> ->]. split; [constructor|reflexivity].
    + discriminate D5; [reflexivity|discriminate].
  - assert (c = []).
    { destruct c as [|y c]; [reflexivity|]. destruct D4 as (ds & E1 & F); [left; discriminate|]. discriminate. }
    subst c. destruct (drop off items) as [|y q] eqn:Dx.
    + destruct D4 as (ds & E1 & F); [now right|]. discriminate.
    + assert (Ny : y :: q <> []) by discriminate. specialize (D5 eq_refl Ny). injection D5 as ->.
      destruct (D2 Ny) as [D2'|(z & d' & -> & Nz)]; [contradiction|]. cbn [app] in D1. injection D1 as -> ->.
      destruct (drop off a) as [|w q'] eqn:Da.
      * cbn [app] in Dd. destruct rest; [discriminate|]. split; [constructor|reflexivity].
      * cbn [app] in Dd. injection Dd as -> _. exfalso. apply Nz.
        rewrite Forall_forall in Ha. apply Ha. rewrite <- (take_drop off a), Da. apply in_or_app. right. now left.
  - assert (Hc : c <> []).
    { intros ->. destruct (drop off items) as [|y q] eqn:Dx.
      - destruct D4 as (ds & E1 & F); [now right|]. cbn [numbered] in F. rewrite firstn_nil in F. inversion F. subst ds.
        injection E1 as E1. now destruct l.
      - discriminate D5; [reflexivity|discriminate]. }
    destruct D4 as (ds & E1 & F); [now left|]. injection E1 as <-.
    (* the entries returned are the next ones of [a] *)
    assert (P : exists c1 c2, drop off a = c1 ++ c2 /\ firstn room (numbered (off + 1) c) = numbered (off + 1) c1).
    { rewrite D1 in Dd. clear - Dd D3 Hrest. 
      assert (Q : exists t, drop off a = c ++ t).
      { revert Dd D3. generalize (drop off a) as u. induction c as [|y c IH]; intros u Dd D3; [now exists u|].
        inversion D3; subst. destruct u as [|v u]; cbn [app] in Dd.
        - rewrite <- Dd in Hrest. contradiction.
        - injection Dd as <- Dd. destruct (IH u Dd) as [t ->]; [assumption|]. now exists t. }
      destruct Q as [t ->]. exists (firstn room c), (skipn room c ++ t).
      split; [now rewrite app_assoc, firstn_skipn|].
      clear. revert room. generalize (off + 1) as n. induction c as [|y c IH]; intros n [|room]; cbn [numbered firstn]; try reflexivity.
      now rewrite IH. }
    destruct P as (c1 & c2 & Dc & Fn). rewrite Fn in F.
    assert (Lo : d_off x = off + nlen c1 /\ 0 < nlen c1).
    { destruct (exists_last (l := c1)) as (c' & z & ->).
      { intros ->. inversion F. now destruct l. }
      rewrite numbered_last in F. apply Forall2_app_inv_l in F as (l1 & l2 & F1 & F2 & Eq).
      inversion F2 as [|? y ? ? Ry F3]; subst. inversion F3; subst.
      apply app_inj_tail in Eq as [_ ->]. destruct Ry as (_ & Ro & _). cbn [snd] in Ro.
      rewrite nlen_app. change (nlen [z]) with 1. lia. }
    destruct Lo as [Lo Lp]. rewrite Lo in IH.
    assert (La : nlen (drop off a) = nlen a - off) by apply nlen_drop.
    rewrite Dc, nlen_app in La.
    destruct IH as [IH1 IH2]; [lia|]. split; [|exact IH2].
    rewrite Dc, numbered_app, app_assoc. apply Forall2_app; [exact F|].
    replace (off + nlen c1 + 1) with (off + 1 + nlen c1) in IH1 by lia.
    replace (drop (off + nlen c1) a) with c2 in IH1; [exact IH1|].
    rewrite <- drop_drop, Dc. now rewrite drop_app.
Qed.

Lemma shown_last off c l x :
  Forall2 shown (numbered (off + 1) c) (l ++ [x]) -> d_off x = off + nlen c /\ 0 < nlen c.
Proof.
  intros F. destruct (exists_last (l := c)) as (c' & z & ->).
  { intros ->. inversion F. now destruct l. }
  rewrite numbered_last in F. apply Forall2_app_inv_l in F as (l1 & l2 & F1 & F2 & Eq).
  inversion F2 as [|? y ? ? Ry F3]; subst. inversion F3; subst.
  apply app_inj_tail in Eq as [_ ->]. destruct Ry as (_ & Ro & _). cbn [snd] in Ro.
  rewrite nlen_app. change (nlen [z]) with 1. lia.
Qed.
Lemma firstn_numbered {A} room (c : list A) : forall n, firstn room (numbered n c) = numbered n (firstn room c).
Proof.
  revert room. induction c as [|y c IH]; intros [|room] n; cbn [numbered firstn]; try reflexivity.
  now rewrite IH.
Qed.

(** Such a listing comes to an end, whatever room the program has for each
    call, if the names fit pages of 4096 bytes. *)
Theorem C72_listing_ends bs items (room : N -> nat) :
  Forall static_item_ok items -> nlen items + 1 < U64 ->
  Forall (fun i => nlen (si_name i) <= 4000) items -> (forall off, (0 < room off)%nat) ->
  exists l r, reads bs items 0 l r.
Proof.
  intros Hok Hn Hl Hroom.
  assert (C : forall off, exists res, call bs items off (room off) res).
  { intros off. destruct (C48_readdir_page 0 items off 4096 eq_refl Hok Hn) as (p & P1 & _ & _).
    eexists. eapply call_readdir with (addr := 0) (size := 4096); [reflexivity| |exact P1].
    intros i Hi. apply nth_error_In in Hi. rewrite Forall_forall in Hl. specialize (Hl i Hi).
    unfold readdir_size, up8. lia. }
  assert (G : forall m off, nlen (drop off items) < N.of_nat m -> exists l r, reads bs items off l r).
  { induction m as [|m IH]; intros off Hm; [lia|].
    destruct (C off) as [[ds|e] Co].
    2:{ exists [], (Some e). now apply reads_error with (room off). }
    destruct ds as [|d0 ds0]; [exists [], None; now apply reads_end with (room off)|].
    destruct (exists_last (l := d0 :: ds0)) as (ds & x & Ex); [discriminate|]. rewrite Ex in Co. clear d0 ds0 Ex.
    destruct (call_result bs items off (room off) _ Hok Hn (Hroom off) Co) as (c & d & D1 & D2 & D3 & D4 & D5).
    assert (Hc : c <> [] \/ drop off items = []).
    { destruct c; [|left; discriminate]. destruct (drop off items); [now right|].
      discriminate D5; [reflexivity|discriminate]. }
    destruct (D4 Hc) as (ds' & E1 & F). injection E1 as <-.
    rewrite firstn_numbered in F. apply shown_last in F as [Fo Fp].
    destruct (IH (d_off x)) as (l & r & R).
    { rewrite Fo. rewrite nlen_drop in *. apply (f_equal nlen) in D1. rewrite nlen_drop, nlen_app in D1.
      assert (nlen (firstn (room off) c) <= nlen c).
      { unfold nlen. rewrite firstn_length. lia. }
      lia. }
    exists (ds ++ [x] ++ l), r. now apply reads_more with (room off). }
  apply (G (S (length items))). rewrite nlen_drop. unfold nlen. lia.
Qed.

End Directories.

(** ** Extended attributes and files *)

Section Others.
Context {E : Endian}.

Lemma verify_client p : forall cur l, client_xattrs cur p = Some l ->
  verify_list cur p = if existsb (fun n => nlen n =? 0) l then None else Some l.
Proof.
  induction p as [|b p IH]; intros cur l H; cbn [client_xattrs verify_list] in *.
  - destruct cur; [|discriminate]. injection H as <-. reflexivity.
  - destruct (Byte.eqb b Byte.x00); [|now apply IH].
    destruct (client_xattrs [] p) as [l'|] eqn:C; [|discriminate]. injection H as <-.
    cbn [existsb]. destruct cur as [|c cur]; [reflexivity|].
    replace (nlen (rev (c :: cur)) =? 0) with false.
    2:{ symmetry. unfold nlen. rewrite rev_length. cbn [length]. lia. }
    cbn [orb]. rewrite (IH [] l' C). now destruct (existsb _ l').
Qed.

(** LISTXATTR: the program gets the names that were pushed, unless one of them
    is empty. *)
Theorem C72_listxattr minor id list_max buf names :
  is_id id -> Forall cstr names -> xattr_cap list_max buf <= 4294967279 ->
  let oks := accepted (xattr_cap list_max buf) 0 (map (fun n => nlen n + 1) names) in
  exists w p,
    xattr_push_all names (ListxattrNamesWriter_new list_max buf) = Ret (oks, w) /\
    ListxattrNamesWriter_into_names w = Ret p /\
    replies minor id (AOk (RListxattrNames p)) 0 p /\
    (~ In [] (kept oks names) -> linux_listxattr p = inl (kept oks names)) /\
    (In [] (kept oks names) -> linux_listxattr p = inr 5%Z).
Proof.
  intros Hid Hn Hc oks.
  destruct (C25_names list_max buf names Hn) as (w & p & H1 & H2 & H3 & _ & _ & H6). fold oks in H1, H3.
  exists w, p. split; [exact H1|]. split; [exact H2|]. split.
  { apply (ok_replies minor id (RListxattrNames p) Hid). cbn [payload]. unfold u32_max. lia. }
  unfold linux_listxattr. rewrite (verify_client _ _ _ H3).
  destruct (existsb (fun n => nlen n =? 0) (kept oks names)) eqn:X.
  - apply existsb_exists in X as (n & Hin & Z). apply N.eqb_eq, nlen_0 in Z. subst n.
    split; [contradiction|reflexivity].
  - split; [reflexivity|]. intros Hin. exfalso.
    assert (Y : existsb (fun n => nlen n =? 0) (kept oks names) = true).
    { apply existsb_exists. now exists []. }
    congruence.
Qed.

(** The size of the list, WRITE of [count] bytes, GETLK, LSEEK. *)
Theorem C72_files minor id :
  is_id id ->
  (forall n, n <= 65536 -> exists p,
     replies minor id (AOk (RGetxattrOut n)) 0 p /\ linux_listxattr_size p = n) /\
  (forall count n, n < U32 -> exists p,
     replies minor id (AOk (RWriteOut n)) 0 p /\
     linux_write count p = if n <=? count then inl n else inr 5%Z) /\
  (forall n, n < U64 -> exists p,
     replies minor id (AOk (RLseekOut n)) 0 p /\
     linux_lseek p = if n <? 2 ^ 63 then inl n else inr 22%Z) /\
  (forall s e pid, s < U64 -> e < U64 -> pid < U32 ->
     (exists p, replies minor id (AOk (RLkOut s e 2 pid)) 0 p /\ linux_getlk p = inl Unlocked) /\
     (forall t, t < 2 -> exists p, replies minor id (AOk (RLkOut s e t pid)) 0 p /\
        linux_getlk p = if (s <=? e) && (e <? 2 ^ 63) then inl (Locked (t =? 1) s e pid) else inr 5%Z) /\
     (forall t, 2 < t < U32 -> exists p, replies minor id (AOk (RLkOut s e t pid)) 0 p /\
        linux_getlk p = inr 5%Z)).
Proof.
  intros Hid. destruct (C22_small_replies minor id Hid) as (_ & W & X & _ & _ & L & K).
  split; [|split; [|split]].
  - intros n Hn. destruct (X n) as (p & R & P & _); [unfold U32; lia|]. exists p. split; [exact R|].
    unfold linux_listxattr_size. rewrite P. lia.
  - intros count n Hn. destruct (W n Hn) as (p & R & P & _). exists p. split; [exact R|].
    unfold linux_write. rewrite P. destruct (N.ltb_spec count n), (N.leb_spec n count); try lia; reflexivity.
  - intros n Hn. destruct (L n Hn) as (p & R & P). exists p. split; [exact R|].
    unfold linux_lseek. now rewrite P.
  - intros s e pid Hs He Hp. split; [|split].
    + destruct (K s e 2 pid Hs He ltac:(reflexivity) Hp) as (p & R & P1 & P2 & P3 & P4). exists p. split; [exact R|].
      unfold linux_getlk. now rewrite P3.
    + intros t Ht. destruct (K s e t pid Hs He ltac:(unfold U32; lia) Hp) as (p & R & P1 & P2 & P3 & P4).
      exists p. split; [exact R|]. unfold linux_getlk. rewrite P1, P2, P3, P4.
      replace (t =? 2) with false by lia. replace ((t =? 0) || (t =? 1)) with true by lia. cbn [negb].
      set (M := 2 ^ 63). destruct (N.leb_spec M s), (N.leb_spec M e), (N.ltb_spec e s), (N.leb_spec s e), (N.ltb_spec e M);
        cbn [orb andb]; try lia; reflexivity.
    + intros t Ht. destruct (K s e t pid Hs He ltac:(lia) Hp) as (p & R & P1 & P2 & P3 & P4).
      exists p. split; [exact R|]. unfold linux_getlk. rewrite P3.
      replace (t =? 2) with false by lia. replace ((t =? 0) || (t =? 1)) with false by lia. reflexivity.
Qed.

(** READLINK: the program gets the target up to its first NUL. *)
Theorem C72_readlink minor id target rest :
  is_id id -> 16 + nlen (target ++ rest) <= u32_max -> ~ In Byte.x00 target ->
  match rest with [] => True | b :: _ => b = Byte.x00 end ->
  replies minor id (AOkBuf (target ++ rest)) 0 (target ++ rest) /\
  linux_readlink (target ++ rest) = target.
Proof.
  intros Hid L Ht Hr. split.
  - destruct (C18_payload minor id (target ++ rest) [] [] [] Hid) as (_ & _ & _ & _ & R & _). now apply R.
  - induction target as [|b t IH]; cbn [app linux_readlink].
    + destruct rest as [|b r]; [reflexivity|]. subst b. reflexivity.
    + destruct (Byte.eqb b Byte.x00) eqn:B.
      * apply Byte.byte_dec_bl in B. subst b. exfalso. apply Ht. now left.
      * rewrite IH; [reflexivity| |].
        -- cbn [app] in L. rewrite nlen_cons in L. lia.
        -- intros Hin. apply Ht. now right.
Qed.

End Others.

(** ** Findings and examples *)
Local Instance LE : Endian := false.

(** The API takes any name that a [NodeName] can hold, and the listing says that
    it was added; but Linux refuses the whole listing if its name is longer
    than 1024 bytes. *)
Definition long_item : dir_item :=
  {| i_node := 7; i_name := repeat Byte.x61 1025; i_off := 1; i_type := Some Regular |}.
Definition other_item : dir_item :=
  {| i_node := 8; i_name := [Byte.x62]; i_off := 2; i_type := Some Directory |}.
Theorem C72_long_name_refuted :
  exists items w p, Forall dir_item_ok items /\
    push_all Dirent_fuse_dirent (map make_entry items) (writer_new 4096 (repeat Byte.x00 4096)) = Ret ([true; true], w) /\
    into_entries w = Ret p /\ linux_readdir 10 p = inr 5%Z.
Proof.
  exists [long_item; other_item]. do 2 eexists.
  split; [|split; [vm_compute; reflexivity|split; [vm_compute; reflexivity|vm_compute; reflexivity]]].
  repeat constructor.
Qed.

(** The same for an empty name of an extended attribute. *)
Theorem C72_empty_xattr_refuted :
  exists names w p, Forall cstr names /\
    xattr_push_all names (ListxattrNamesWriter_new (Some 65536) (repeat Byte.x00 64)) = Ret ([true; true], w) /\
    ListxattrNamesWriter_into_names w = Ret p /\ linux_listxattr p = inr 5%Z.
Proof.
  exists [[Byte.x61]; []]. do 2 eexists.
  split; [|split; [vm_compute; reflexivity|split; [vm_compute; reflexivity|vm_compute; reflexivity]]].
  repeat constructor; unfold cstr; cbn; intuition discriminate.
Qed.

(** A directory listed with READDIRPLUS: the program is not told that it is
    one. *)
Theorem C72_type_refuted :
  exists i e w p, plus_item_ok i /\
    last_set (fun c => match c with SetMode v => Some v | _ => None end) (p_attr i) 0 = 16877 /\
    ReaddirplusEntry_new (p_name i) (p_off i) (item_entry i) = Ret e /\
    push_all Dirent_fuse_direntplus [e] (writer_new 0 (repeat Byte.x00 200)) = Ret ([true], w) /\
    into_entries w = Ret p /\
    map d_type (pl_entries (fst (linux_readdirplus 4096 10 p))) = [0].
Proof.
  exists a_dir. do 3 eexists.
  split; [|split; [reflexivity|split; [vm_compute; reflexivity|split; [vm_compute; reflexivity|
    split; [vm_compute; reflexivity|vm_compute; reflexivity]]]]].
  repeat split; repeat constructor.
Qed.

Definition file_ops : list attr_op :=
  [SetMode 33188; SetSize 12; SetMtime {| ut_seconds := -5; ut_nanos := 7 |}; SetBlockSize 5000; SetSize 13;
   SetUserId 1000; SetGroupId 100; SetLinkCount 2; SetBlockCount 8].
Definition cache_ops : list entry_op := [SetGeneration 3; SetCacheTimeout (60, 5); SetAttr (SetGroupId 101)].
Definition file_stat : stat :=
  {| st_ino := 5; st_mode := 33188; st_nlink := 2; st_uid := 1000; st_gid := 101; st_rdev := 0; st_size := 13;
     st_blksize := 4096; st_blocks := 8; st_atime := (0%Z, 0); st_mtime := ((-5)%Z, 7); st_ctime := (0%Z, 0) |}.
Definition file_node : TakenSpec.node :=
  {| n_id := 5; n_generation := 3; n_stat := file_stat; n_name_valid := (60, 5); n_attr_valid := (0, 0) |}.
Example C72_lookup_example :
  is_id 9 /\ 9 <= 31 /\ 0 < 5 < U64 /\ Forall attr_op_ok file_ops /\ Forall entry_op_ok cache_ops /\
  described 4096 5 file_ops cache_ops = file_node /\
  exists p, replies 31 9 (AOk (REntryOut (entry_calls cache_ops (Entry_new (attr_calls file_ops (NodeAttr_new 5)))))) 0 p /\
    linux_lookup 4096 p = Found file_node.
Proof.
  assert (H1 : Forall attr_op_ok file_ops).
  { repeat (constructor; [first [exact I | reflexivity | (split; [split; [discriminate|reflexivity]|reflexivity])]|]). constructor. }
  assert (H2 : Forall entry_op_ok cache_ops) by (repeat constructor).
  split; [split; reflexivity|]. split; [discriminate|]. split; [split; reflexivity|].
  split; [exact H1|]. split; [exact H2|]. split; [vm_compute; reflexivity|].
  destruct (C72_lookup 31 9 4096 5 file_ops cache_ops (conj eq_refl eq_refl)) as (p & R & L);
    [discriminate|split; reflexivity|exact H1|exact H2|]. exists p. split; [exact R|]. rewrite L. vm_compute. reflexivity.
Qed.
(** An entry whose mode was never set. *)
Example C72_lookup_example_2 :
  exists p, replies 31 9 (AOk (REntryOut (Entry_new (NodeAttr_new 5)))) 0 p /\ linux_lookup 4096 p = Broken 5.
Proof.
  destruct (C72_lookup 31 9 4096 5 [] [] (conj eq_refl eq_refl)) as (p & R & L);
    [discriminate|split; reflexivity|constructor|constructor|]. exists p. split; [exact R|exact L].
Qed.
Example C72_created_example :
  In 32768 [4096; 8192; 16384; 24576; 32768; 40960; 49152] /\
  exists p, replies 31 9 (AOk (REntryOut (entry_calls cache_ops (Entry_new (attr_calls file_ops (NodeAttr_new 5)))))) 0 p /\
    linux_created 4096 32768 p = Found file_node /\ linux_created 4096 16384 p = Broken 5.
Proof.
  split; [cbn; tauto|]. destruct C72_lookup_example as (H0 & H1 & H2 & H3 & H4 & Hd & _).
  destruct (C22_entry_reply 31 9 5 file_ops cache_ops H0 H2 H3 H4) as (p & R & P). exists p. split; [exact R|].
  unfold linux_created. rewrite (node_described 4096 p 5 file_ops cache_ops H3 H4 P), Hd. now vm_compute.
Qed.
Example C72_create_example :
  exists p, replies 31 9 (AOk (RCreateResponse (CreateResponse_set_flags 2 (CreateResponse_set_handle 77
      (CreateResponse_new (entry_calls cache_ops (Entry_new (attr_calls file_ops (NodeAttr_new 5))))))))) 0 p /\
    linux_create 4096 p = (Found file_node, (77, 2)).
Proof.
  destruct C72_lookup_example as (H0 & H1 & H2 & H3 & H4 & Hd & _).
  destruct (C72_create 31 9 4096 5 file_ops cache_ops 77 2 H0 H1 H2 H3 H4 eq_refl eq_refl) as (p & R & P).
  exists p. split; [exact R|]. rewrite P, Hd. vm_compute. reflexivity.
Qed.
Example C72_getattr_example :
  exists p, replies 31 9 (AOk (RAttrOut {| ao_attr_valid := 1; ao_attr_valid_nsec := 2;
      ao_attr := attr_calls (file_ops ++ [SetGroupId 101]) (NodeAttr_new 5) |})) 0 p /\
    linux_getattr 4096 32768 p = inl (file_stat, (1, 2)).
Proof.
  destruct C72_lookup_example as (H0 & H1 & H2 & H3 & H4 & Hd & _).
  assert (H5 : Forall attr_op_ok (file_ops ++ [SetGroupId 101])).
  { apply Forall_app. split; [exact H3|]. repeat constructor. }
  destruct (C72_getattr 31 9 4096 32768 5 (file_ops ++ [SetGroupId 101]) 1 2 H0 H1 H2 H5 eq_refl eq_refl) as (p & R & P);
    [cbn; tauto|]. exists p. split; [exact R|]. rewrite P. vm_compute. reflexivity.
Qed.

(** Room for two of three entries; then a long name after a short one. *)
Example C72_readdir_example :
  4096 mod 8 = 0 /\ Forall dir_item_ok three /\ Forall (fun i => short (i_name i)) three /\
  exists w p, push_all Dirent_fuse_dirent (map make_entry three) (writer_new 4096 (repeat Byte.xff 200)) = Ret ([true; true; true], w) /\
    into_entries w = Ret p /\ linux_readdir 2 p = inl (map item_listed (firstn 2 three)) /\
  exists w2 p2, push_all Dirent_fuse_dirent (map make_entry [other_item; long_item]) (writer_new 4096 (repeat Byte.xff 2000)) = Ret ([true; true], w2) /\
    into_entries w2 = Ret p2 /\ linux_readdir 2 p2 = inl [item_listed other_item].
Proof.
  split; [reflexivity|]. split; [repeat constructor|]. split; [repeat constructor; vm_compute; discriminate|].
  do 2 eexists. split; [vm_compute; reflexivity|]. split; [vm_compute; reflexivity|]. split; [vm_compute; reflexivity|].
  do 2 eexists. split; [vm_compute; reflexivity|]. split; [vm_compute; reflexivity|vm_compute; reflexivity].
Qed.

(** Three nodes: the directory itself, a file that is shown and looked up, and
    one without a type, whose lookup is given back. *)
Definition plus_items : list plus_item :=
  [{| p_node := 2; p_attr := [SetMode 16877]; p_entry := []; p_name := [Byte.x2e]; p_off := 1 |};
   {| p_node := 5; p_attr := file_ops; p_entry := cache_ops; p_name := [Byte.x61]; p_off := 2 |};
   {| p_node := 6; p_attr := []; p_entry := []; p_name := [Byte.x62]; p_off := 3 |}].
Example C72_readdirplus_example :
  Forall plus_item_ok plus_items /\ Forall (fun i => short (p_name i)) plus_items /\
  exists es w p,
    Forall2 (fun i e => ReaddirplusEntry_new (p_name i) (p_off i) (item_entry i) = Ret e) plus_items es /\
    push_all Dirent_fuse_direntplus es (writer_new 4096 (repeat Byte.xff 500)) = Ret ([true; true; true], w) /\
    into_entries w = Ret p /\
    linux_readdirplus 4096 1 p =
      ({| pl_entries := [{| d_ino := 2; d_off := 1; d_type := 0; d_name := [Byte.x2e] |}];
          pl_linked := [([Byte.x61], file_node)]; pl_forgotten := [6] |}, None).
Proof.
  assert (H : Forall plus_item_ok plus_items).
  { destruct C72_lookup_example as (_ & _ & _ & H3 & H4 & _).
    repeat (apply Forall_cons); [..|apply Forall_nil];
      (split; [split; reflexivity|]; split; [split; reflexivity|]; split; [reflexivity|]; split;
       [first [exact H3|repeat constructor]|first [exact H4|repeat constructor]]). }
  assert (S : Forall (fun i => short (p_name i)) plus_items).
  { repeat (apply Forall_cons); [..|apply Forall_nil]; vm_compute; discriminate. }
  split; [exact H|]. split; [exact S|].
  destruct (C72_readdirplus 31 9 4096 (repeat Byte.xff 500) plus_items 4096 1 (conj eq_refl eq_refl) eq_refl H)
    as (es & w & p & P1 & P2 & P3 & _ & P4).
  exists es, w, p. split; [exact P1|]. split; [exact P2|]. split; [exact P3|].
  rewrite (P4 plus_items [] eq_refl S I). vm_compute. reflexivity.
Qed.

(** A directory of two files read with room for one entry per call: the first
    page by READDIR, the second by READDIRPLUS. *)
Definition two_files : list static_item :=
  [{| si_node := 5; si_attr := [SetMode 33188]; si_name := [Byte.x61]; si_generation := 0;
      si_entry_timeout := (1, 0); si_attr_timeout := (1, 0) |};
   {| si_node := 6; si_attr := [SetMode 16877]; si_name := [Byte.x62; Byte.x63]; si_generation := 0;
      si_entry_timeout := (1, 0); si_attr_timeout := (1, 0) |}].
Example C72_listing_example :
  Forall static_item_ok two_files /\ nlen two_files + 1 < U64 /\
  Forall (fun i => short (si_name i)) two_files /\
  reads 4096 two_files 0
    [{| d_ino := 5; d_off := 1; d_type := 8; d_name := [Byte.x61] |};
     {| d_ino := 6; d_off := 2; d_type := 0; d_name := [Byte.x62; Byte.x63] |}] None.
Proof.
  split; [repeat (apply Forall_cons); [..|apply Forall_nil]; repeat split; repeat constructor|].
  split; [reflexivity|].
  split; [repeat (apply Forall_cons); [..|apply Forall_nil]; vm_compute; discriminate|].
  apply (reads_more 4096 two_files 0 1 [] {| d_ino := 5; d_off := 1; d_type := 8; d_name := [Byte.x61] |}
    [{| d_ino := 6; d_off := 2; d_type := 0; d_name := [Byte.x62; Byte.x63] |}]).
  { auto. }
  { assert (P : exists p, static_readdir 0 (map static_entry two_files) None 4096 = Ret p /\
      linux_readdir 1 p = inl [{| d_ino := 5; d_off := 1; d_type := 8; d_name := [Byte.x61] |}]).
    { eexists. split; [vm_compute; reflexivity|vm_compute; reflexivity]. }
    destruct P as (p & P1 & P2). change ([] ++ [_]) with [{| d_ino := 5; d_off := 1; d_type := 8; d_name := [Byte.x61] |}].
    rewrite <- P2. apply (call_readdir 4096 two_files 0 1 0 4096); [reflexivity| |exact P1].
    intros i Hi. cbn in Hi. injection Hi as <-. vm_compute. discriminate. }
  cbn [d_off].
  apply (reads_more 4096 two_files 1 1 [] {| d_ino := 6; d_off := 2; d_type := 0; d_name := [Byte.x62; Byte.x63] |} []).
  { auto. }
  { assert (P : exists p, static_readdirplus 0 (map static_entry two_files) (Some 1) 4096 = Ret p /\
      (let r := linux_readdirplus 4096 1 p in
       getdents (pl_entries (fst r), snd r) = inl [{| d_ino := 6; d_off := 2; d_type := 0; d_name := [Byte.x62; Byte.x63] |}])).
    { eexists. split; [vm_compute; reflexivity|vm_compute; reflexivity]. }
    destruct P as (p & P1 & P2). change ([] ++ [_]) with [{| d_ino := 6; d_off := 2; d_type := 0; d_name := [Byte.x62; Byte.x63] |}].
    cbv zeta in P2. rewrite <- P2. apply (call_readdirplus 4096 two_files 1 1 0 4096); [reflexivity| |exact P1].
    intros i Hi. cbn in Hi. injection Hi as <-. vm_compute. discriminate. }
  cbn [d_off].
  assert (P : exists p, static_readdir 0 (map static_entry two_files) (Some 2) 4096 = Ret p /\ linux_readdir 1 p = inl []).
  { eexists. split; [vm_compute; reflexivity|vm_compute; reflexivity]. }
  destruct P as (p & P1 & P2). apply reads_end with 1%nat; [auto|]. rewrite <- P2.
  apply (call_readdir 4096 two_files 2 1 0 4096); [reflexivity| |exact P1].
  intros i Hi. cbn in Hi. discriminate.
Qed.
Example C72_listing_ends_example :
  Forall (fun i => nlen (si_name i) <= 4000) two_files /\ forall off : N, (0 < (fun _ => 1%nat) off)%nat.
Proof. split; [repeat (apply Forall_cons); [..|apply Forall_nil]; vm_compute; discriminate|auto]. Qed.

Example C72_listxattr_example :
  Forall cstr [[Byte.x61]; [Byte.x62; Byte.x63]] /\
  exists w p, xattr_push_all [[Byte.x61]; [Byte.x62; Byte.x63]] (ListxattrNamesWriter_new (Some 65536) (repeat Byte.x00 64)) = Ret ([true; true], w) /\
    ListxattrNamesWriter_into_names w = Ret p /\ linux_listxattr p = inl [[Byte.x61]; [Byte.x62; Byte.x63]].
Proof.
  split; [repeat constructor; unfold cstr; cbn; intuition discriminate|].
  do 2 eexists. split; [vm_compute; reflexivity|]. split; [vm_compute; reflexivity|vm_compute; reflexivity].
Qed.
(** A lock to the end of the file, as Linux writes it, and as a range ending at
    [u64::MAX], which Linux does not take. *)
Example C72_files_example :
  (exists p, replies 31 9 (AOk (RLkOut 10 9223372036854775807 1 77)) 0 p /\
    linux_getlk p = inl (Locked true 10 9223372036854775807 77)) /\
  (exists p, replies 31 9 (AOk (RLkOut 10 18446744073709551615 1 77)) 0 p /\ linux_getlk p = inr 5%Z) /\
  (exists p, replies 31 9 (AOk (RWriteOut 5)) 0 p /\ linux_write 4 p = inr 5%Z).
Proof.
  destruct (C72_files 31 9 (conj eq_refl eq_refl)) as (_ & W & _ & K).
  split; [|split].
  - destruct (K 10 9223372036854775807 77 eq_refl eq_refl eq_refl) as (_ & K2 & _). exact (K2 1 eq_refl).
  - destruct (K 10 18446744073709551615 77 eq_refl eq_refl eq_refl) as (_ & K2 & _). exact (K2 1 eq_refl).
  - exact (W 4 5 eq_refl).
Qed.
Example C72_readlink_example :
  ~ In Byte.x00 [Byte.x2f; Byte.x61] /\ linux_readlink [Byte.x2f; Byte.x61; Byte.x00; Byte.x62] = [Byte.x2f; Byte.x61].
Proof. split; [cbn; intuition discriminate|reflexivity]. Qed.

Print Assumptions C72_lookup.
Print Assumptions C72_created.
Print Assumptions C72_create.
Print Assumptions C72_getattr.
Print Assumptions C72_readdir.
Print Assumptions C72_readdirplus.
Print Assumptions C72_listing.
Print Assumptions C72_listing_ends.
Print Assumptions C72_listxattr.
Print Assumptions C72_files.
Print Assumptions C72_readlink.
Print Assumptions C72_long_name_refuted.
Print Assumptions C72_empty_xattr_refuted.
Print Assumptions C72_type_refuted.
