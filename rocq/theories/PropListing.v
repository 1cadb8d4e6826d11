(** Properties C23-C25: directory listings and extended attribute name
    lists. *)

From Verif Require Import Base Kernel CoreModel ReplyModel ListingModel ReplySpec ReplyProofs.
From Coq Require Import List NArith ZArith Bool Lia.
From Coq Require Import ZifyBool ZifyNat ZifyN.
Import ListNotations.
Open Scope N_scope.

(** ** Specification *)

(** [n] rounded up to a multiple of 8. *)
Definition up8 (n : N) : N := 8 * ((n + 7) / 8).

(** Which of a sequence of items of the given sizes fit into [cap] bytes when
    each one that fits is kept: the outcome of each push. *)
Fixpoint accepted (cap used : N) (sizes : list N) : list bool :=
  match sizes with
  | [] => []
  | n :: r => if used + n <=? cap then true :: accepted cap (used + n) r
              else false :: accepted cap used r
  end.

(** The items whose push succeeded. *)
Fixpoint kept {A} (oks : list bool) (l : list A) : list A :=
  match oks, l with
  | true :: oks, a :: l => a :: kept oks l
  | false :: oks, _ :: l => kept oks l
  | _, _ => []
  end.

Definition sum (l : list N) : N := fold_right N.add 0 l.

Section Client.
Context {E : Endian}.

(** A directory entry as the client sees it in a READDIR listing. *)
Record seen := { s_ino : N; s_off : N; s_type : N; s_name : bytes }.

(** How a client reads a listing of records with a fixed part of [hdr] bytes
    whose last 24 bytes are a [fuse_dirent] (fs/fuse/readdir.c): each record
    is padded to 8 bytes; an empty name or a record reaching beyond the
    listing is an error. *)
Fixpoint client_entries {A} (hdr : N) (item : bytes -> bytes -> A) (fuel : nat) (p : bytes)
  : option (list A) :=
  match fuel with
  | O => None
  | S fuel =>
    if nlen p =? 0 then Some []
    else if nlen p <? hdr then None
    else
      let namelen := u32_at (hdr - 8) p in
      let reclen := up8 (hdr + namelen) in
      if namelen =? 0 then None
      else if nlen p <? reclen then None
      else match client_entries hdr item fuel (drop reclen p) with
           | Some l => Some (item (take hdr p) (slice hdr namelen p) :: l)
           | None => None
           end
  end.

Definition client_readdir (p : bytes) : option (list seen) :=
  client_entries 24 (fun h name => {| s_ino := u64_at 0 h; s_off := u64_at 8 h;
                                      s_type := u32_at 20 h; s_name := name |})
    (S (length p)) p.

(** In a READDIRPLUS listing: the 128 bytes of the entry (read by
    [entry_reads]) and the directory entry. *)
Definition client_readdirplus (p : bytes) : option (list (bytes * seen)) :=
  client_entries 152
    (fun h name => (take 128 h, {| s_ino := u64_at 128 h; s_off := u64_at 136 h;
                                   s_type := u32_at 148 h; s_name := name |}))
    (S (length p)) p.

(** The names in a LISTXATTR reply: NUL-terminated strings. *)
Fixpoint client_xattrs (cur : bytes) (p : bytes) : option (list bytes) :=
  match p with
  | [] => match cur with [] => Some [] | _ => None end
  | b :: p => if Byte.eqb b x00
              then match client_xattrs [] p with Some l => Some (rev cur :: l) | None => None end
              else client_xattrs (b :: cur) p
  end.

(** ** The generic writer *)

Lemma mem_write_app pre d mid post :
  nlen mid = nlen d -> mem_write (nlen pre) d (pre ++ mid ++ post) = Ret (pre ++ d ++ post).
Proof.
  intros H. unfold mem_write. rewrite !nlen_app.
  destruct (N.leb_spec (nlen pre + nlen d) (nlen pre + (nlen mid + nlen post))); [|lia].
  rewrite take_app by auto. rewrite drop_app_ge by lia.
  replace (nlen pre + nlen d - nlen pre) with (nlen mid) by lia. now rewrite drop_app.
Qed.

Lemma split_len {A} (l : list A) n : n <= nlen l -> exists a b, l = a ++ b /\ nlen a = n.
Proof.
  intros. exists (take n l), (drop n l). split; [now rewrite take_drop|]. rewrite nlen_take. lia.
Qed.

Lemma kept_forall {A} (P : A -> Prop) oks l : Forall P l -> Forall P (kept oks l).
Proof.
  revert oks; induction l as [|a l IH]; intros [|[] oks] H; cbn; auto.
  - constructor; [now apply Forall_inv in H|]. apply IH. now apply Forall_inv_tail in H.
  - apply IH. now apply Forall_inv_tail in H.
Qed.

Lemma kept_map {A B} (f : A -> B) oks l : kept oks (map f l) = map f (kept oks l).
Proof.
  revert oks. induction l as [|a l IH]; intros [|[] oks]; cbn; auto. now rewrite IH.
Qed.

Section Generic.
Context {T : Type} (D : Dirent T) (ok : T -> Prop).
Hypothesis Dsize : dt_size D mod 8 = 0 /\ 24 <= dt_size D.
Hypothesis Dbytes : forall t, nlen (dt_bytes D t) = dt_size D.
Hypothesis Dread : forall t, ok t -> dt_read D (dt_bytes D t) = t.

Definition zeros (n : N) : bytes := repeat x00 (N.to_nat n).
Definition record (e : entry T) : bytes :=
  dt_bytes D (e_dirent e) ++ e_name e ++ zeros (padding_len (e_name e)).

Definition size (e : entry T) : N := up8 (dt_size D + nlen (e_name e)).

Lemma entry_size_eq e : entry_size D (e_name e) = size e.
Proof.
  unfold entry_size, size, up8, padding_len. destruct Dsize. lia.
Qed.

Lemma nlen_record e : nlen (record e) = size e.
Proof.
  rewrite <- entry_size_eq. unfold record, entry_size, zeros.
  rewrite !nlen_app, Dbytes, nlen_repeat. lia.
Qed.

Lemma write_record addr e dst :
  addr mod 8 = 0 -> nlen dst = size e ->
  write_unchecked D addr (e_dirent e) (e_name e) dst = Ret (record e).
Proof.
  intros Ha Hd. rewrite <- entry_size_eq in Hd. unfold entry_size in Hd. unfold write_unchecked.
  rewrite (proj2 (N.eqb_eq _ _) Ha). cbn [negb].
  destruct (split_len dst (dt_size D)) as (a & dst1 & -> & La); [lia|].
  rewrite nlen_app in Hd.
  destruct (split_len dst1 (nlen (e_name e))) as (b & c & -> & Lb); [lia|].
  rewrite nlen_app in Hd.
  pose proof (mem_write_app [] (dt_bytes D (e_dirent e)) a (b ++ c)) as W1.
  rewrite Dbytes in W1. specialize (W1 La). cbn [app] in W1. change (nlen []) with 0 in W1.
  rewrite W1. cbn [bind].
  rewrite <- (Dbytes (e_dirent e)) at 1.
  rewrite mem_write_app by auto. cbn [bind]. unfold record.
  destruct (N.ltb_spec 0 (padding_len (e_name e))).
  - rewrite app_assoc. rewrite <- (app_nil_r c).
    replace (dt_size D + nlen (e_name e)) with (nlen (dt_bytes D (e_dirent e) ++ e_name e))
      by (rewrite nlen_app, Dbytes; lia).
    rewrite mem_write_app by (rewrite nlen_repeat; lia). now rewrite app_nil_r, <- app_assoc.
  - replace (padding_len (e_name e)) with 0 by lia.
    assert (c = []) by (apply nlen_0; lia). subst c. reflexivity.
Qed.

Lemma try_push_eq e addr pre rest :
  addr mod 8 = 0 -> nlen pre mod 8 = 0 ->
  let w := {| w_addr := addr; w_buf := pre ++ rest; w_position := nlen pre |} in
  try_push D e w =
    if nlen pre + size e <=? nlen (pre ++ rest)
    then Ret (true, {| w_addr := addr; w_buf := (pre ++ record e) ++ drop (size e) rest;
                       w_position := nlen (pre ++ record e) |})
    else Ret (false, w).
Proof.
  intros Ha Hp w. unfold try_push, w. cbn [w_buf w_position w_addr]. rewrite nlen_app.
  destruct (N.ltb_spec (nlen pre + nlen rest) (nlen pre)); [lia|].
  rewrite entry_size_eq.
  destruct (N.leb_spec (nlen pre + size e) (nlen pre + nlen rest)) as [C|C].
  - destruct (N.ltb_spec (nlen pre + nlen rest - nlen pre) (size e)); [lia|].
    destruct (split_len rest (size e)) as (a & b & -> & La); [lia|].
    unfold mem_slice. rewrite !nlen_app. rewrite nlen_app in *.
    destruct (N.leb_spec (nlen pre + (nlen pre + size e - nlen pre)) (nlen pre + (nlen a + nlen b)));
      [|lia].
    cbn [bind]. replace (nlen pre + size e - nlen pre) with (size e) by lia.
    rewrite slice_app by lia. rewrite N.sub_diag, slice_0 by auto.
    rewrite write_record by (auto; lia). cbn [bind].
    rewrite mem_write_app by (now rewrite nlen_record). cbn [bind].
    rewrite drop_app by auto. rewrite nlen_record. now rewrite <- app_assoc.
  - destruct (N.ltb_spec (nlen pre + nlen rest - nlen pre) (size e)); [reflexivity|lia].
Qed.

Lemma size_mod e : size e mod 8 = 0.
Proof. unfold size, up8. lia. Qed.

Lemma push_all_eq es : forall addr pre rest,
  addr mod 8 = 0 -> nlen pre mod 8 = 0 ->
  let oks := accepted (nlen (pre ++ rest)) (nlen pre) (map size es) in
  let new := flat_map record (kept oks es) in
  push_all D es {| w_addr := addr; w_buf := pre ++ rest; w_position := nlen pre |} =
    Ret (oks, {| w_addr := addr; w_buf := (pre ++ new) ++ drop (nlen new) rest;
                 w_position := nlen (pre ++ new) |}) /\
  nlen (pre ++ new) <= nlen (pre ++ rest).
Proof.
  induction es as [|e es IH]; intros addr pre rest Ha Hp oks new.
  - cbn in oks. subst oks. cbn in new. subst new. cbn [push_all].
    rewrite app_nil_r. change (nlen []) with 0. rewrite drop_0. split; [reflexivity|].
    rewrite nlen_app. lia.
  - cbn [push_all]. rewrite try_push_eq by auto.
    cbn [map accepted] in oks. subst oks. subst new.
    destruct (N.leb_spec (nlen pre + size e) (nlen (pre ++ rest))) as [C|C]; cbn [bind].
    + specialize (IH addr (pre ++ record e) (drop (size e) rest) Ha).
      assert (LB : nlen ((pre ++ record e) ++ drop (size e) rest) = nlen (pre ++ rest)).
      { rewrite !nlen_app in *. rewrite nlen_record, nlen_drop. lia. }
      rewrite LB in IH. rewrite (nlen_app pre (record e)), nlen_record in IH.
      assert (M : (nlen pre + size e) mod 8 = 0) by (pose proof (size_mod e); lia).
      specialize (IH M). cbv zeta in IH. destruct IH as [IH1 IH2].
      rewrite (nlen_app pre (record e)), nlen_record. rewrite IH1. cbn [bind kept flat_map].
      set (X := flat_map record (kept (accepted _ _ (map size es)) es)) in *.
      rewrite (nlen_app (record e) X), nlen_record, <- drop_drop.
      rewrite !app_assoc in *. split; [reflexivity|exact IH2].
    + specialize (IH addr pre rest Ha Hp). cbv zeta in IH. destruct IH as [IH1 IH2].
      rewrite IH1. cbn [bind kept]. split; [reflexivity|exact IH2].
Qed.

Lemma listing addr buf es :
  addr mod 8 = 0 ->
  let oks := accepted (N.min (nlen buf) 65535) 0 (map size es) in
  let new := flat_map record (kept oks es) in
  exists w, push_all D es (writer_new addr buf) = Ret (oks, w) /\
    into_entries w = Ret new /\ nlen new <= N.min (nlen buf) 65535.
Proof.
  intros Ha oks new.
  set (b := if 65535 <? nlen buf then take 65535 buf else buf).
  assert (Lb : nlen b = N.min (nlen buf) 65535).
  { unfold b. destruct (N.ltb_spec 65535 (nlen buf)); [rewrite nlen_take|]; lia. }
  destruct (push_all_eq es addr [] b Ha eq_refl) as [P L]. cbn [app] in P, L.
  rewrite Lb in P, L. change (nlen []) with 0 in P, L. fold oks in P, L. fold new in P, L.
  eexists. split; [exact P|]. split; [|exact L].
  unfold into_entries, mem_slice. cbn [w_buf w_position]. rewrite nlen_app.
  destruct (N.leb_spec (0 + nlen new) (nlen new + nlen (drop (nlen new) b))); [|lia].
  now rewrite slice_0.
Qed.

(** The entries that can be in a listing. *)
Definition entry_ok (e : entry T) : Prop :=
  ok (e_dirent e) /\ e_name e <> [] /\ dt_namelen D (e_dirent e) = nlen (e_name e).

Lemma entries_loop_eq es : Forall entry_ok es ->
  forall fuel, (length (flat_map record es) < fuel)%nat ->
  entries_loop D fuel (flat_map record es) = Ret es.
Proof.
  induction es as [|e es IH]; intros Hok fuel Hf; (destruct fuel as [|fuel]; [cbn in Hf; lia|]).
  - reflexivity.
  - cbn [entries_loop flat_map]. pose proof (Forall_inv Hok) as (Ho & Hn & Hl).
    apply Forall_inv_tail in Hok.
    assert (N : entries_next D (record e ++ flat_map record es) =
      Ret (Some (e, flat_map record es))).
    { unfold entries_next.
      pose proof (nlen_record e) as Lr. rewrite <- entry_size_eq in Lr.
      destruct Dsize as [D8 D24].
      destruct (record e ++ flat_map record es) as [|x l] eqn:X.
      { apply (f_equal nlen) in X. rewrite nlen_app, Lr in X. cbn in X.
        unfold entry_size in X. lia. }
      rewrite <- X. clear X x l.
      unfold read_unchecked, mem_slice.
      destruct (N.leb_spec (0 + dt_size D) (nlen (record e ++ flat_map record es)));
        [|rewrite nlen_app, Lr in *; unfold entry_size in *; lia].
      cbn [bind].
      assert (R1 : slice 0 (dt_size D) (record e ++ flat_map record es) = dt_bytes D (e_dirent e)).
      { unfold record. rewrite <- app_assoc. apply slice_0. now rewrite Dbytes. }
      rewrite R1, Dread, Hl by auto.
      destruct (N.leb_spec (dt_size D + nlen (e_name e)) (nlen (record e ++ flat_map record es)));
        [|rewrite nlen_app, Lr in *; unfold entry_size in *; lia].
      cbn [bind].
      assert (R2 : slice (dt_size D) (nlen (e_name e)) (record e ++ flat_map record es) = e_name e).
      { unfold record. rewrite <- !app_assoc. rewrite slice_app by (rewrite Dbytes; lia).
        rewrite Dbytes, N.sub_diag. now apply slice_0. }
      rewrite R2. rewrite nlen_app, Lr.
      destruct (N.leb_spec (entry_size D (e_name e) +
        (entry_size D (e_name e) + nlen (flat_map record es) - entry_size D (e_name e)))
        (entry_size D (e_name e) + nlen (flat_map record es))); [|lia].
      cbn [bind]. rewrite slice_app by lia. rewrite Lr, N.sub_diag.
      unfold slice. rewrite drop_0, take_all by lia. now destruct e. }
    rewrite N. cbn [bind]. rewrite IH; auto.
    cbn [flat_map] in Hf. rewrite app_length in Hf.
    assert (0 < length (record e))%nat.
    { pose proof (nlen_record e) as Lr. rewrite <- entry_size_eq in Lr. unfold nlen, entry_size in Lr.
      destruct Dsize. lia. }
    lia.
Qed.

(** The client's view, for an [item] function that extracts [view] from the
    fixed part. *)
Lemma client_entries_eq {A} (item : bytes -> bytes -> A) (view : entry T -> A) es :
  (forall e, ok (e_dirent e) -> item (dt_bytes D (e_dirent e)) (e_name e) = view e) ->
  (forall e rest, ok (e_dirent e) ->
     u32_at (dt_size D - 8) (dt_bytes D (e_dirent e) ++ rest) = dt_namelen D (e_dirent e)) ->
  Forall entry_ok es ->
  forall fuel, (length (flat_map record es) < fuel)%nat ->
  client_entries (dt_size D) item fuel (flat_map record es) = Some (map view es).
Proof.
  intros Hitem Hnl. induction es as [|e es IH]; intros Hok fuel Hf;
    (destruct fuel as [|fuel]; [cbn in Hf; lia|]).
  - reflexivity.
  - cbn [client_entries flat_map map]. pose proof (Forall_inv Hok) as (Ho & Hn & Hl).
    apply Forall_inv_tail in Hok. destruct Dsize as [D8 D24].
    pose proof (nlen_record e) as Lr. pose proof (size_mod e) as M.
    assert (Sz : dt_size D + nlen (e_name e) <= size e) by (unfold size, up8; lia).
    assert (Nz : nlen (e_name e) <> 0) by (intros Hz; apply Hn; now apply nlen_0).
    set (m := record e ++ flat_map record es).
    assert (Lm : nlen m = size e + nlen (flat_map record es)) by (unfold m; rewrite nlen_app; lia).
    destruct (N.eqb_spec (nlen m) 0); [lia|].
    destruct (N.ltb_spec (nlen m) (dt_size D)); [lia|].
    assert (U : u32_at (dt_size D - 8) m = nlen (e_name e)).
    { unfold m, record. rewrite <- !app_assoc. now rewrite Hnl, Hl. }
    rewrite U. destruct (N.eqb_spec (nlen (e_name e)) 0); [lia|].
    fold (size e). destruct (N.ltb_spec (nlen m) (size e)); [lia|].
    assert (Dm : drop (size e) m = flat_map record es) by (unfold m; now rewrite drop_app).
    rewrite Dm, IH; auto.
    + do 2 f_equal.
      assert (T1 : take (dt_size D) m = dt_bytes D (e_dirent e)).
      { unfold m, record. rewrite <- !app_assoc. apply take_app. now rewrite Dbytes. }
      assert (T2 : slice (dt_size D) (nlen (e_name e)) m = e_name e).
      { unfold m, record. rewrite <- !app_assoc. rewrite slice_app by (rewrite Dbytes; lia).
        rewrite Dbytes, N.sub_diag. now apply slice_0. }
      rewrite T1, T2. now apply Hitem.
    + cbn [flat_map] in Hf. rewrite app_length in Hf. unfold nlen in Lr. lia.
Qed.

Lemma kept_sizes es : forall cap used,
  used <= cap -> Forall (fun e => used + size e <= cap) (kept (accepted cap used (map size es)) es).
Proof.
  clear Dsize Dbytes Dread.
  induction es as [|e es IH]; intros cap used H; cbn [map accepted kept]; [constructor|].
  destruct (N.leb_spec (used + size e) cap).
  - cbn [kept]. constructor; auto. eapply Forall_impl; [|apply IH; auto].
    cbn. intros. lia.
  - cbn [kept]. apply IH. auto.
Qed.

Lemma nlen_records es : nlen (flat_map record es) = sum (map size es).
Proof.
  induction es as [|e es IH]; [reflexivity|].
  cbn [flat_map map]. rewrite nlen_app, nlen_record, IH. reflexivity.
Qed.

(** The round trip for entries made by [mk] from items with names [nm]. *)
Lemma generic_listing {I A} (mk : I -> entry T) (nm : I -> bytes) (P : I -> Prop)
    (item : bytes -> bytes -> A) (view : entry T -> A) addr buf items :
  (forall i, e_name (mk i) = nm i) ->
  (forall i, P i -> nlen (nm i) < U32 -> entry_ok (mk i)) ->
  (forall e, ok (e_dirent e) -> item (dt_bytes D (e_dirent e)) (e_name e) = view e) ->
  (forall e rest, ok (e_dirent e) ->
     u32_at (dt_size D - 8) (dt_bytes D (e_dirent e) ++ rest) = dt_namelen D (e_dirent e)) ->
  addr mod 8 = 0 -> Forall P items ->
  let cap := N.min (nlen buf) 65535 in
  let rsize i := up8 (dt_size D + nlen (nm i)) in
  let oks := accepted cap 0 (map rsize items) in
  exists w p,
    push_all D (map mk items) (writer_new addr buf) = Ret (oks, w) /\
    into_entries w = Ret p /\
    client_entries (dt_size D) item (S (length p)) p =
      Some (map (fun i => view (mk i)) (kept oks items)) /\
    entries_list D p = Ret (map mk (kept oks items)) /\
    nlen p = sum (map rsize (kept oks items)) /\
    nlen p <= cap.
Proof.
  intros Hnm HP Hitem Hnl Ha Hok cap rsize oks.
  assert (Rs : forall i, size (mk i) = rsize i) by (intros i; unfold size, rsize; now rewrite Hnm).
  assert (Esz : map size (map mk items) = map rsize items)
    by (rewrite map_map; apply map_ext; exact Rs).
  destruct (listing addr buf (map mk items) Ha) as (w & P1 & P2 & L).
  rewrite Esz in P1, P2, L. fold cap in P1, P2, L. fold oks in P1, P2, L.
  rewrite kept_map in P2, L.
  assert (Kok : Forall P (kept oks items)) by (now apply kept_forall).
  assert (Eok : Forall entry_ok (map mk (kept oks items))).
  { pose proof (kept_sizes (map mk items) cap 0 (N.le_0_l _)) as K.
    rewrite Esz in K. fold oks in K. rewrite kept_map in K. rewrite Forall_map in K.
    rewrite Forall_map. rewrite Forall_forall in *. intros i Hi. apply HP; [auto|].
    specialize (K i Hi). rewrite Rs in K. unfold rsize, up8, cap in K. unfold U32. lia. }
  exists w, (flat_map record (map mk (kept oks items))).
  split; [exact P1|]. split; [exact P2|]. split; [|split; [|split]].
  - rewrite (client_entries_eq item view _ Hitem Hnl Eok) by lia. now rewrite map_map.
  - unfold entries_list. apply entries_loop_eq; auto.
  - rewrite nlen_records, map_map. f_equal. apply map_ext. exact Rs.
  - exact L.
Qed.

End Generic.

(** ** READDIR *)

(** An entry a server can make: [ReaddirEntry::new] with a nonzero id and
    offset and a valid name, possibly with a file type. *)
Record dir_item := { i_node : N; i_name : bytes; i_off : N; i_type : option FileType }.
Definition dir_item_ok (i : dir_item) : Prop :=
  0 < i_node i < U64 /\ 0 < i_off i < U64 /\ NodeName_from_bytes (i_name i) = inl (i_name i).
Definition make_entry (i : dir_item) : entry fuse_dirent :=
  let e := ReaddirEntry_new (i_node i) (i_name i) (i_off i) in
  match i_type i with Some t => ReaddirEntry_set_file_type t e | None => e end.

(** The DT_* code of a file type; 0 is DT_UNKNOWN. *)
Definition dt_code (t : option FileType) : N :=
  match t with
  | None => 0
  | Some NamedPipe => 1
  | Some CharacterDevice => 2
  | Some Directory => 4
  | Some BlockDevice => 6
  | Some Regular => 8
  | Some Symlink => 10
  | Some SocketFile => 12
  end.
Definition seen_item (i : dir_item) : seen :=
  {| s_ino := i_node i; s_off := i_off i; s_type := dt_code (i_type i); s_name := i_name i |}.

Definition dirent_ok (d : fuse_dirent) : Prop :=
  de_ino d < U64 /\ de_off d < U64 /\ de_namelen d < U32 /\ de_type d < U32.

Lemma readdir_D : dt_size Dirent_fuse_dirent mod 8 = 0 /\ 24 <= dt_size Dirent_fuse_dirent.
Proof. cbn. lia. Qed.
Lemma readdir_bytes t : nlen (dt_bytes Dirent_fuse_dirent t) = dt_size Dirent_fuse_dirent.
Proof. cbn [dt_bytes dt_size Dirent_fuse_dirent]. now rewrite nlen_wire. Qed.

Lemma read_dirent_fields d pre rest :
  dirent_ok d ->
  read_fuse_dirent (nlen pre) (pre ++ wire (fuse_dirent_fields d) ++ rest) = d.
Proof.
  intros (H1 & H2 & H3 & H4). unfold read_fuse_dirent, u64_at, u32_at.
  assert (R : forall w k v, field_at k (fuse_dirent_fields d) = Some (w, v) ->
    v < 256 ^ N.of_nat w ->
    fld w (nlen pre + k) (pre ++ wire (fuse_dirent_fields d) ++ rest) = v).
  { intros w k v Hf Hv. rewrite fld_app by lia.
    replace (nlen pre + k - nlen pre) with k by lia. now apply fld_wire. }
  replace (fld 8 (nlen pre) (pre ++ wire (fuse_dirent_fields d) ++ rest)) with (de_ino d).
  2:{ rewrite <- (R 8%nat 0 (de_ino d) eq_refl H1). f_equal. lia. }
  rewrite (R 8%nat 8 (de_off d) eq_refl H2), (R 4%nat 16 (de_namelen d) eq_refl H3),
    (R 4%nat 20 (de_type d) eq_refl H4). now destruct d.
Qed.

Lemma readdir_read t : dirent_ok t ->
  dt_read Dirent_fuse_dirent (dt_bytes Dirent_fuse_dirent t) = t.
Proof.
  intros H. cbn [dt_read dt_bytes Dirent_fuse_dirent].
  pose proof (read_dirent_fields t [] [] H) as R. cbn [app] in R. rewrite app_nil_r in R. exact R.
Qed.

Definition readdir_size (name : bytes) : N := up8 (24 + nlen name).

(** Whatever entries a server pushes, in whatever buffer (8-byte aligned): the
    pushes that succeed are exactly those that fit into the remaining
    space, and the listing is the list of those entries, for the client and
    for the crate's own iterator. *)
Theorem C23_readdir addr buf items :
  addr mod 8 = 0 -> Forall dir_item_ok items ->
  let cap := N.min (nlen buf) 65535 in
  let oks := accepted cap 0 (map (fun i => readdir_size (i_name i)) items) in
  exists w p,
    push_all Dirent_fuse_dirent (map make_entry items) (writer_new addr buf) = Ret (oks, w) /\
    into_entries w = Ret p /\
    client_readdir p = Some (map seen_item (kept oks items)) /\
    entries_list Dirent_fuse_dirent p = Ret (map make_entry (kept oks items)) /\
    nlen p = sum (map (fun i => readdir_size (i_name i)) (kept oks items)) /\
    nlen p <= cap.
Proof.
  intros Ha Hok.
  destruct (generic_listing Dirent_fuse_dirent dirent_ok readdir_D readdir_bytes readdir_read
    make_entry i_name dir_item_ok
    (fun h name => {| s_ino := u64_at 0 h; s_off := u64_at 8 h; s_type := u32_at 20 h; s_name := name |})
    (fun e => {| s_ino := de_ino (e_dirent e); s_off := de_off (e_dirent e);
                 s_type := de_type (e_dirent e); s_name := e_name e |})
    addr buf items) as (w & p & H1 & H2 & H3 & H4); auto.
  - intros i. unfold make_entry. now destruct (i_type i).
  - intros i ((? & ?) & (? & ?) & Hname) Ln.
    assert (W : wrap32 (nlen (i_name i)) = nlen (i_name i)) by (unfold wrap32; now apply N.mod_small).
    assert (Nn : i_name i <> []) by (intros Hz; rewrite Hz in Hname; discriminate).
    unfold entry_ok, make_entry, dirent_ok.
    destruct (i_type i) as [[]|]; cbn -[wrap32]; rewrite W; repeat split; auto.
  - intros e He. pose proof (readdir_read _ He) as R.
    cbn [dt_read dt_bytes Dirent_fuse_dirent] in *. rewrite <- R at 4 5 6. reflexivity.
  - intros e rest He. pose proof (read_dirent_fields (e_dirent e) [] rest He) as R.
    cbn [app] in R. cbn [dt_bytes Dirent_fuse_dirent dt_namelen dt_size].
    rewrite <- R at 2. reflexivity.
  - exists w, p. split; [exact H1|]. split; [exact H2|]. split; [|exact H4].
    unfold client_readdir. cbn [dt_size Dirent_fuse_dirent] in H3.
    etransitivity; [exact H3|]. f_equal. apply map_ext. intros i. unfold seen_item, make_entry.
    now destruct (i_type i) as [[]|].
Qed.

(** A push that fails leaves the listing as it was; this and what follows
    holds for both kinds of listing. *)
Theorem C23_failed_push {T} (D : Dirent T) e w w' :
  try_push D e w = Ret (false, w') -> w' = w.
Proof.
  unfold try_push. destruct (_ <? _); [discriminate|]. destruct (_ <? _); [congruence|].
  unfold bind. destruct (mem_slice _ _ _); try discriminate.
  destruct (write_unchecked _ _ _ _ _); try discriminate. destruct (mem_write _ _ _); discriminate.
Qed.

(** ** READDIRPLUS *)

(** An entry a server can make: attributes with any calls on them, an
    [Entry] with any calls on it, a name and an offset. *)
Record plus_item := {
  p_node : N; p_attr : list attr_op; p_entry : list entry_op; p_name : bytes; p_off : N }.
Definition plus_item_ok (i : plus_item) : Prop :=
  0 < p_node i < U64 /\ 0 < p_off i < U64 /\ NodeName_from_bytes (p_name i) = inl (p_name i) /\
  Forall attr_op_ok (p_attr i) /\ Forall entry_op_ok (p_entry i).
Definition item_entry (i : plus_item) : fuse_entry_out :=
  entry_calls (p_entry i) (Entry_new (attr_calls (p_attr i) (NodeAttr_new (p_node i)))).
Definition plus_size (name : bytes) : N := up8 (152 + nlen name).

(** What the client sees of an item: the entry as in a LOOKUP reply, and the
    directory entry.  Its type is the file type bits of the mode as they are
    (see [C24_type_refuted]). *)
Definition plus_seen (i : plus_item) (v : bytes * seen) : Prop :=
  entry_reads (fst v) (p_node i) true (p_attr i) (p_entry i) /\
  snd v = {| s_ino := p_node i; s_off := p_off i;
             s_type := N.land (u32_at 100 (fst v)) 61440; s_name := p_name i |}.

Definition direntplus_ok (d : fuse_direntplus) : Prop :=
  entry_fits (dp_entry_out d) /\ dirent_ok (dp_dirent d).

Lemma plus_D : dt_size Dirent_fuse_direntplus mod 8 = 0 /\ 24 <= dt_size Dirent_fuse_direntplus.
Proof. cbn. lia. Qed.
Lemma plus_bytes_split t :
  dt_bytes Dirent_fuse_direntplus t =
  fuse_entry_out_bytes (dp_entry_out t) ++ wire (fuse_dirent_fields (dp_dirent t)).
Proof. cbn [dt_bytes Dirent_fuse_direntplus]. apply wire_app. Qed.
Lemma nlen_entry_bytes e : nlen (fuse_entry_out_bytes e) = 128.
Proof. unfold fuse_entry_out_bytes. now rewrite nlen_wire. Qed.
Lemma plus_bytes t : nlen (dt_bytes Dirent_fuse_direntplus t) = dt_size Dirent_fuse_direntplus.
Proof. rewrite plus_bytes_split, nlen_app, nlen_entry_bytes, nlen_wire. reflexivity. Qed.

Lemma plus_read_dirent t rest : direntplus_ok t ->
  read_fuse_dirent 128 (dt_bytes Dirent_fuse_direntplus t ++ rest) = dp_dirent t.
Proof.
  intros [_ H]. rewrite plus_bytes_split, <- app_assoc, <- (nlen_entry_bytes (dp_entry_out t)).
  now apply read_dirent_fields.
Qed.

Lemma entry_read_back e rest : entry_fits e ->
  read_fuse_entry_out 0 (fuse_entry_out_bytes e ++ rest) = e.
Proof.
  intros Fe. unfold entry_fits, attr_fits in Fe.
  destruct Fe as (?&?&?&?&?&?&?&?&?&?&?&?&?&?&?&?&?&?&?&?&?&?).
  change U64 with (256 ^ N.of_nat 8) in *. change U32 with (256 ^ N.of_nat 4) in *.
  assert (R : forall w k v, field_at k (fuse_entry_out_fields e) = Some (w, v) ->
    v < 256 ^ N.of_nat w -> fld w k (fuse_entry_out_bytes e ++ rest) = v)
    by (intros; now apply fld_wire).
  assert (fa_flags (eo_attr e) < 256 ^ N.of_nat 4)
    by (apply N.lt_trans with 4; [assumption|reflexivity]).
  unfold read_fuse_entry_out, read_fuse_attr, u64_at, u32_at.
  repeat match goal with
  | |- context [fld ?w ?k (fuse_entry_out_bytes e ++ rest)] =>
    rewrite (R w k _ eq_refl) by (match goal with H : ?x < ?y |- ?x < ?y => exact H end)
  end.
  destruct e as [? ? ? ? ? ? []]. reflexivity.
Qed.

Lemma plus_read t : direntplus_ok t ->
  dt_read Dirent_fuse_direntplus (dt_bytes Dirent_fuse_direntplus t) = t.
Proof.
  intros H. pose proof (plus_read_dirent t [] H) as R. rewrite app_nil_r in R.
  cbn [dt_read Dirent_fuse_direntplus]. rewrite R. rewrite plus_bytes_split.
  rewrite entry_read_back by apply H. now destruct t.
Qed.

(** The entry [ReaddirplusEntry::new] makes. *)
Definition plus_made (i : plus_item) : entry fuse_direntplus :=
  {| e_dirent :=
       {| dp_entry_out := item_entry i;
          dp_dirent := {| de_ino := p_node i; de_off := p_off i;
                          de_namelen := wrap32 (nlen (p_name i));
                          de_type := FileMode_type_bits (fa_mode (eo_attr (item_entry i))) |} |};
     e_name := p_name i |}.

Lemma attr_calls_ino ops a : fa_ino (attr_calls ops a) = fa_ino a.
Proof.
  rewrite (attr_calls_field fa_ino (fun _ => None)); [|now destruct o].
  generalize (fa_ino a). induction ops; cbn; auto.
Qed.

Lemma plus_made_eq i : plus_item_ok i ->
  ReaddirplusEntry_new (p_name i) (p_off i) (item_entry i) = Ret (plus_made i).
Proof.
  intros (Hn & _). unfold ReaddirplusEntry_new, NodeAttr_node_id, NodeId_new_unchecked.
  unfold item_entry at 1 2. rewrite !entry_calls_attr. cbn [Entry_new eo_attr].
  rewrite !attr_calls_ino. cbn [NodeAttr_new fa_ino].
  destruct (N.eqb_spec (p_node i) 0); [lia|]. reflexivity.
Qed.

Lemma item_entry_fits i : plus_item_ok i -> entry_fits (item_entry i).
Proof.
  intros (Hn & _ & _ & Ha & He). unfold item_entry. apply entry_calls_fits; auto.
  assert (Fa : attr_fits (attr_calls (p_attr i) (NodeAttr_new (p_node i))))
    by (apply attr_calls_fits; auto; apply attr_new_fits; apply Hn).
  unfold entry_fits, Entry_new.
  cbn [eo_nodeid eo_generation eo_entry_valid eo_attr_valid eo_entry_valid_nsec
    eo_attr_valid_nsec eo_attr]. rewrite attr_calls_ino. cbn [NodeAttr_new fa_ino].
  split; [apply Hn|]. repeat (split; [reflexivity|]). exact Fa.
Qed.

Theorem C24_readdirplus addr buf items :
  addr mod 8 = 0 -> Forall plus_item_ok items ->
  let cap := N.min (nlen buf) 65535 in
  let oks := accepted cap 0 (map (fun i => plus_size (p_name i)) items) in
  exists es w p l,
    Forall2 (fun i e => ReaddirplusEntry_new (p_name i) (p_off i) (item_entry i) = Ret e) items es /\
    push_all Dirent_fuse_direntplus es (writer_new addr buf) = Ret (oks, w) /\
    into_entries w = Ret p /\
    client_readdirplus p = Some l /\ Forall2 plus_seen (kept oks items) l /\
    entries_list Dirent_fuse_direntplus p = Ret (kept oks es) /\
    nlen p = sum (map (fun i => plus_size (p_name i)) (kept oks items)) /\
    nlen p <= cap.
Proof.
  intros Ha Hok.
  destruct (generic_listing Dirent_fuse_direntplus direntplus_ok plus_D plus_bytes plus_read
    plus_made p_name plus_item_ok
    (fun h name => (take 128 h, {| s_ino := u64_at 128 h; s_off := u64_at 136 h;
                                   s_type := u32_at 148 h; s_name := name |}))
    (fun e => (fuse_entry_out_bytes (dp_entry_out (e_dirent e)),
       let d := dp_dirent (e_dirent e) in
       {| s_ino := de_ino d; s_off := de_off d; s_type := de_type d; s_name := e_name e |}))
    addr buf items) as (w & p & H1 & H2 & H3 & H4 & H5); auto.
  - intros i Hi Ln. pose proof (item_entry_fits i Hi) as Fe.
    destruct Hi as ((? & ?) & (? & ?) & Hname & _).
    assert (W : wrap32 (nlen (p_name i)) = nlen (p_name i)) by (unfold wrap32; now apply N.mod_small).
    assert (Nn : p_name i <> []) by (intros Hz; rewrite Hz in Hname; discriminate).
    assert (Tm : FileMode_type_bits (fa_mode (eo_attr (item_entry i))) < U32).
    { unfold FileMode_type_bits. apply N.le_lt_trans with 61440; [|reflexivity].
      apply N.ldiff_le. apply N.bits_inj. intros k.
      rewrite N.ldiff_spec, N.land_spec, N.bits_0.
      destruct (N.testbit _ k), (N.testbit 61440 k); reflexivity. }
    unfold entry_ok, plus_made, direntplus_ok, dirent_ok. cbn -[wrap32 item_entry FileMode_type_bits].
    rewrite W. split; [|split; auto]. split; [exact Fe|].
    repeat match goal with |- _ /\ _ => split end; assumption.
  - intros e He. pose proof (plus_read_dirent _ [] He) as R. rewrite app_nil_r in R.
    f_equal; [|rewrite <- R; reflexivity].
    rewrite plus_bytes_split. apply take_app. now rewrite nlen_entry_bytes.
  - intros e rest He. pose proof (plus_read_dirent _ rest He) as R.
    cbn [Dirent_fuse_direntplus dt_namelen dt_size]. rewrite <- R. reflexivity.
  - set (oks := accepted _ _ _) in *.
    exists (map plus_made items), w, p, (map (fun i =>
      (fuse_entry_out_bytes (item_entry i),
       {| s_ino := p_node i; s_off := p_off i;
          s_type := FileMode_type_bits (fa_mode (eo_attr (item_entry i))); s_name := p_name i |}))
      (kept oks items)).
    split.
    { clear -Hok. induction items; constructor.
      - apply plus_made_eq. now apply Forall_inv in Hok.
      - apply IHitems. now apply Forall_inv_tail in Hok. }
    split; [exact H1|]. split; [exact H2|]. split; [exact H3|].
    split; [|split; [rewrite kept_map; exact H4|exact H5]].
    assert (Kok : Forall plus_item_ok (kept oks items)) by (now apply kept_forall).
    revert Kok. change (kept (accepted _ _ _) items) with (kept oks items).
    generalize (kept oks items). clear. intros l Kok. induction l as [|i l IH]; constructor.
    + apply Forall_inv in Kok. pose proof (item_entry_fits i Kok) as Fe.
      destruct Kok as (Hn & _ & _ & Hat & Hen).
      split; cbn [fst snd].
      * rewrite <- (app_nil_r (fuse_entry_out_bytes _)). now apply entry_reads_gen.
      * f_equal. unfold FileMode_type_bits. f_equal. symmetry.
        unfold u32_at. rewrite <- (app_nil_r (fuse_entry_out_bytes _)).
        apply fld_wire; [reflexivity|].
        unfold entry_fits, attr_fits in Fe. change U32 with (256 ^ N.of_nat 4) in Fe.
        now destruct Fe as (_&_&_&_&_&_&_&_&_&_&_&_&_&_&_&Fe&_).
    + apply IH. now apply Forall_inv_tail in Kok.
Qed.

(** ** LISTXATTR *)

(** A [CStr]: no NUL inside. *)
Definition cstr (n : bytes) : Prop := ~ In x00 n.
Definition xattr_cap (list_max : option N) (buf : bytes) : N :=
  match list_max with Some m => N.min (nlen buf) m | None => nlen buf end.

Lemma xattr_push_eq names : forall pre rest,
  let oks := accepted (nlen (pre ++ rest)) (nlen pre) (map (fun n => nlen n + 1) names) in
  let new := flat_map (fun n => n ++ [x00]) (kept oks names) in
  xattr_push_all names {| w_addr := 0; w_buf := pre ++ rest; w_position := nlen pre |} =
    Ret (oks, {| w_addr := 0; w_buf := (pre ++ new) ++ drop (nlen new) rest;
                 w_position := nlen (pre ++ new) |}) /\
  nlen (pre ++ new) <= nlen (pre ++ rest).
Proof.
  induction names as [|n names IH]; intros pre rest oks new.
  - cbn in oks. subst oks. cbn in new. subst new. cbn [xattr_push_all].
    rewrite app_nil_r. change (nlen []) with 0. rewrite drop_0. split; [reflexivity|].
    rewrite nlen_app. lia.
  - cbn [xattr_push_all]. unfold ListxattrNamesWriter_try_push. cbn [w_buf w_position w_addr].
    cbn [map accepted] in oks. subst oks. subst new.
    set (r := n ++ [x00]). assert (Lr : nlen r = nlen n + 1) by (unfold r; now rewrite nlen_app).
    rewrite Lr. rewrite nlen_app.
    destruct (N.ltb_spec (nlen pre + nlen rest) (nlen pre)); [lia|].
    destruct (N.leb_spec (nlen pre + (nlen n + 1)) (nlen pre + nlen rest)) as [C|C];
      destruct (N.ltb_spec (nlen pre + nlen rest - nlen pre) (nlen n + 1)); try lia.
    + destruct (split_len rest (nlen r)) as (a & b & -> & La); [lia|].
      rewrite mem_write_app by lia. cbn [bind].
      specialize (IH (pre ++ r) b). cbv zeta in IH.
      replace (nlen ((pre ++ r) ++ b)) with (nlen pre + nlen (a ++ b)) in IH
        by (rewrite !nlen_app; lia).
      rewrite (nlen_app pre r), Lr in IH. destruct IH as [IH1 IH2].
      rewrite app_assoc, IH1. cbn [bind kept flat_map]. fold r.
      set (X := flat_map _ (kept _ names)) in *.
      rewrite (nlen_app r X), <- drop_drop, drop_app by lia.
      rewrite !app_assoc in *. split; [reflexivity|]. rewrite nlen_app in *. lia.
    + specialize (IH pre rest). cbv zeta in IH. rewrite nlen_app in IH. destruct IH as [IH1 IH2].
      cbn [bind]. rewrite IH1. cbn [bind kept]. split; [reflexivity|]. exact IH2.
Qed.

Lemma find_nul_app n rest i : cstr n -> find_nul i (n ++ x00 :: rest) = Some (i + nlen n).
Proof.
  revert i. induction n as [|b n IH]; intros i H; cbn [find_nul app].
  - change (Byte.eqb x00 x00) with true. cbv iota. now rewrite nlen_nil, N.add_0_r.
  - destruct (Byte.eqb b x00) eqn:Q.
    + exfalso. apply H. apply byte_eqb_eq in Q. subst. now left.
    + rewrite IH by (intros X; apply H; now right). rewrite nlen_cons. f_equal. lia.
Qed.

Lemma xattr_loop_eq names : Forall cstr names -> forall fuel,
  (length (flat_map (fun n => n ++ [x00]) names) < fuel)%nat ->
  xattr_names_loop fuel (flat_map (fun n => n ++ [x00]) names) = Ret names.
Proof.
  induction names as [|n names IH]; intros Hok fuel Hf; (destruct fuel; [cbn in Hf; lia|]).
  - reflexivity.
  - cbn [xattr_names_loop flat_map] in *. rewrite <- app_assoc in *. cbn [app] in *.
    set (X := flat_map _ names) in *.
    assert (N : XattrNamesIter_next (n ++ x00 :: X) = Ret (Some (n, X))).
    { unfold XattrNamesIter_next.
      destruct (n ++ x00 :: X) as [|y l] eqn:Q; [now destruct n|]. rewrite <- Q.
      rewrite find_nul_app by (now apply Forall_inv in Hok).
      rewrite N.add_0_l, take_app by auto.
      change (x00 :: X) with ([x00] ++ X). rewrite app_assoc.
      rewrite drop_app; [reflexivity|]. now rewrite nlen_app. }
    rewrite N. cbn [bind]. rewrite IH; [reflexivity|now apply Forall_inv_tail in Hok|].
    rewrite app_length in Hf. cbn in Hf. lia.
Qed.

Lemma client_xattrs_eq n rest cur :
  cstr n -> client_xattrs cur (n ++ x00 :: rest) =
    match client_xattrs [] rest with Some l => Some ((rev cur ++ n) :: l) | None => None end.
Proof.
  revert cur. induction n as [|b n IH]; intros cur H; cbn [app client_xattrs].
  - now rewrite app_nil_r.
  - destruct (Byte.eqb b x00) eqn:Q.
    + exfalso. apply H. apply byte_eqb_eq in Q. subst. now left.
    + rewrite IH by (intros X; apply H; now right). cbn [rev]. now rewrite <- app_assoc.
Qed.

Theorem C25_names list_max buf names :
  Forall cstr names ->
  let cap := xattr_cap list_max buf in
  let oks := accepted cap 0 (map (fun n => nlen n + 1) names) in
  exists w p,
    xattr_push_all names (ListxattrNamesWriter_new list_max buf) = Ret (oks, w) /\
    ListxattrNamesWriter_into_names w = Ret p /\
    client_xattrs [] p = Some (kept oks names) /\
    xattr_names_list p = Ret (kept oks names) /\
    nlen p = sum (map (fun n => nlen n + 1) (kept oks names)) /\
    nlen p <= cap.
Proof.
  intros Hok cap oks.
  set (b := match list_max with Some m => if m <? nlen buf then take m buf else buf | None => buf end).
  assert (Lb : nlen b = cap).
  { unfold b, cap, xattr_cap. destruct list_max as [m|]; auto.
    destruct (N.ltb_spec m (nlen buf)); [rewrite nlen_take|]; lia. }
  pose proof (xattr_push_eq names [] b) as P. cbv zeta in P. cbn [app] in P.
  rewrite Lb in P. change (nlen []) with 0 in P. fold oks in P.
  set (new := flat_map _ (kept oks names)) in P. destruct P as [P L].
  assert (Kok : Forall cstr (kept oks names)) by (now apply kept_forall).
  eexists. exists new. split; [exact P|]. split; [|split; [|split; [|split; [|exact L]]]].
  - unfold ListxattrNamesWriter_into_names, mem_slice. cbn [w_buf w_position]. rewrite nlen_app.
    destruct (N.leb_spec (0 + nlen new) (nlen new + nlen (drop (nlen new) b))); [|lia].
    now rewrite slice_0.
  - unfold new. clear -Kok. induction (kept oks names) as [|n l IH]; [reflexivity|].
    cbn [flat_map]. rewrite <- app_assoc. cbn [app].
    rewrite client_xattrs_eq by (now apply Forall_inv in Kok).
    rewrite IH by (now apply Forall_inv_tail in Kok). reflexivity.
  - apply xattr_loop_eq; auto.
  - unfold new. clear. induction (kept oks names) as [|n l IH]; [reflexivity|].
    cbn [flat_map map]. rewrite nlen_app, IH, nlen_app. reflexivity.
Qed.

Theorem C25_failed_push n w w' :
  ListxattrNamesWriter_try_push n w = Ret (false, w') -> w' = w.
Proof.
  unfold ListxattrNamesWriter_try_push. destruct (_ <? _); [discriminate|].
  destruct (_ <? _); [congruence|]. unfold bind. destruct (mem_write _ _ _); discriminate.
Qed.

End Client.

(** ** Findings and examples *)
Local Instance LE : Endian := false.

(** The safe API accepts a buffer of any alignment, but the records are
    written through a pointer that must be 8-byte aligned. *)
Theorem C23_unaligned_refuted :
  exists addr buf i, dir_item_ok i /\
    push_all Dirent_fuse_dirent [make_entry i] (writer_new addr buf) = Ub.
Proof.
  exists 4097, (repeat x00 64), {| i_node := 1; i_name := [x61]; i_off := 1; i_type := None |}.
  split; [|reflexivity]. repeat split.
Qed.

(** The type of an entry in a READDIRPLUS listing is not the DT_* code of
    its mode: for a directory the client gets 0x4000 instead of 4. *)
Definition a_dir : plus_item :=
  {| p_node := 2; p_attr := [SetMode 16877]; p_entry := []; p_name := [x61; x62]; p_off := 1 |}.
Theorem C24_type_refuted :
  exists i e w p b s, plus_item_ok i /\
    ReaddirplusEntry_new (p_name i) (p_off i) (item_entry i) = Ret e /\
    push_all Dirent_fuse_direntplus [e] (writer_new 0 (repeat x00 200)) = Ret ([true], w) /\
    into_entries w = Ret p /\
    client_readdirplus p = Some [(b, s)] /\
    N.shiftr (N.land (u32_at 100 b) 61440) 12 = dt_code (Some Directory) /\
    s_type s <> dt_code (Some Directory).
Proof.
  exists a_dir. do 5 eexists.
  split; [|split; [vm_compute; reflexivity|split; [vm_compute; reflexivity|
    split; [vm_compute; reflexivity|split; [vm_compute; reflexivity|split; [reflexivity|discriminate]]]]]].
  repeat split; repeat constructor.
Qed.

Definition three : list dir_item :=
  [{| i_node := 1; i_name := [x61]; i_off := 1; i_type := Some Directory |};
   {| i_node := 7; i_name := repeat x62 40; i_off := 2; i_type := Some Regular |};
   {| i_node := 9; i_name := [x63; x64]; i_off := 3; i_type := None |}].
(** The second entry does not fit, the third does. *)
Example C23_readdir_example :
  4096 mod 8 = 0 /\ Forall dir_item_ok three /\
  exists w p, push_all Dirent_fuse_dirent (map make_entry three) (writer_new 4096 (repeat xff 65))
      = Ret ([true; false; true], w) /\
    into_entries w = Ret p /\
    client_readdir p = Some
      [{| s_ino := 1; s_off := 1; s_type := 4; s_name := [x61] |};
       {| s_ino := 9; s_off := 3; s_type := 0; s_name := [x63; x64] |}].
Proof.
  split; [reflexivity|]. split; [repeat constructor|].
  do 2 eexists. split; [vm_compute; reflexivity|]. split; vm_compute; reflexivity.
Qed.

Example C23_failed_push_example :
  exists w, try_push Dirent_fuse_dirent (ReaddirEntry_new 1 (repeat x61 9) 1)
    (writer_new 0 (repeat x00 39)) = Ret (false, w) /\ w_position w = 0.
Proof. eexists. split; vm_compute; reflexivity. Qed.

Example C24_readdirplus_example :
  Forall plus_item_ok [a_dir; a_dir] /\
  accepted (N.min 200 65535) 0 (map (fun i => plus_size (p_name i)) [a_dir; a_dir]) = [true; false].
Proof. split; [repeat constructor|reflexivity]. Qed.

Example C25_names_example :
  Forall cstr [[x61; x62]; repeat x63 20; [x64]] /\
  exists w p, xattr_push_all [[x61; x62]; repeat x63 20; [x64]]
      (ListxattrNamesWriter_new (Some 6) (repeat xff 9)) = Ret ([true; false; true], w) /\
    ListxattrNamesWriter_into_names w = Ret p /\ p = [x61; x62; x00; x64; x00].
Proof.
  split.
  - repeat constructor; unfold cstr; cbn; intuition discriminate.
  - do 2 eexists. split; [vm_compute; reflexivity|]. split; vm_compute; reflexivity.
Qed.

Example C25_failed_push_example :
  exists w, ListxattrNamesWriter_try_push [x61; x62]
    (ListxattrNamesWriter_new None (repeat x00 2)) = Ret (false, w).
Proof. eexists. vm_compute. reflexivity. Qed.

Print Assumptions C23_readdir.
Print Assumptions C23_failed_push.
Print Assumptions C23_unaligned_refuted.
Print Assumptions C24_readdirplus.
Print Assumptions C24_type_refuted.
Print Assumptions C25_names.
Print Assumptions C25_failed_push.
