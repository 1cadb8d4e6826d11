(** Theorems about directories that programs list while others change them:
    C78 of properties.jsonl. *)

From Verif Require Import Base Kernel CoreModel DecodeModel OpsModel WireSpec OpsRoundTrip DecodeProofs
  ReplyModel ReplySpec ReplyProofs PropDecode PropHeader PropReply ListingModel PropListing
  DeviceSpec PropDevice ClientSpec PropClient TakenSpec PropTaken FileSpec PropFile CallSpec PropCalls.
From Coq Require Import List NArith ZArith Bool Lia ZifyBool ZifyNat ZifyN Strings.Byte Sorting.Sorted.
Import ListNotations.
Open Scope list_scope.
Open Scope N_scope.

(** ** Specification *)

(** An entry of a directory: the type shown by READDIR, and what READDIRPLUS
    says besides; [p_off] of [it] is its place in the directory. *)
Record item := { it : plus_item; it_type : option FileType }.
Definition it_off (i : item) : N := p_off (it i).
Definition plain (i : item) : dir_item :=
  {| i_node := p_node (it i); i_name := p_name (it i); i_off := p_off (it i); i_type := it_type i |}.
Definition item_ok (i : item) : Prop :=
  plus_item_ok (it i) /\ nlen (p_name (it i)) <= 1024 /\ p_off (it i) < 2 ^ 63.

(** A directory is kept in the order of the places of its entries. *)
Definition dir_ok (d : list item) : Prop := Forall item_ok d /\ StronglySorted N.lt (map it_off d).

(** The entries behind a place. *)
Definition behind (off : option N) (d : list item) : list item :=
  match off with None => d | Some o => filter (fun i => o <? it_off i) d end.

Section Run.
Context {E : Endian}.

(** A server for directories, written with the API: it pushes entries until one
    does not fit. *)
Fixpoint fill {T} (D : Dirent T) (es : list (entry T)) (w : writer) : out writer :=
  match es with
  | [] => Ret w
  | e :: es => '(ok, w) <- try_push D e w ;; if ok then fill D es w else Ret w
  end.
Fixpoint make_all (l : list plus_item) : out (list (entry fuse_direntplus)) :=
  match l with
  | [] => Ret []
  | i :: l => e <- ReaddirplusEntry_new (p_name i) (p_off i) (item_entry i) ;; es <- make_all l ;; Ret (e :: es)
  end.
Definition page (addr size : N) : writer := writer_new addr (repeat x00 (N.to_nat size)).
Definition lister (addr : N) : program (list item) := fun d v =>
  (d, match (match v with
             | VReaddir _ size off _ _ =>
               w <- fill Dirent_fuse_dirent (map make_entry (map plain (behind off d))) (page addr size) ;; into_entries w
             | VReaddirplus _ size off _ _ =>
               es <- make_all (map it (behind off d)) ;; w <- fill Dirent_fuse_direntplus es (page addr size) ;; into_entries w
             | _ => Panic
             end) with
      | Ret p => AOk (RReaddirEntries p)
      | _ => AErr (-38)
      end).

(** One call of getdents: the directory as it is by then, which request Linux
    chooses, its size, and for how many entries the program has room. *)
Record dir_call := { dc_dir : list item; dc_plus : bool; dc_size : N; dc_room : nat }.
Definition dir_call_ok (c : dir_call) : Prop :=
  dir_ok (dc_dir c) /\ 4096 <= dc_size c <= 1048576 /\ (0 < dc_room c)%nat.
(** The entries, and the nodes that were looked up on the way. *)
Definition get_call (m : mounted) (addr node fh flags : N) (k : nat) (pos : N) (c : dir_call)
    : option ((list dirent + Z) * list (bytes * TakenSpec.node)) :=
  let op := if dc_plus c then OReaddirplus fh pos (dc_size c) 0 0 flags 0 else OReaddir fh pos (dc_size c) 0 0 flags 0 in
  match exchange false (m_max_write m) (m_buf_len m) (m_cf m) (lister addr) (dc_dir c) (header m k node) op with
  | Some (_, inl p) =>
    if dc_plus c then let (r, e) := linux_readdirplus (m_bs m) (dc_room c) p in Some (getdents (pl_entries r, e), pl_linked r)
    else Some (linux_readdir (dc_room c) p, [])
  | Some (_, inr e) => Some (inr (- e)%Z, [])
  | None => None
  end.
(** Call after call: the next starts where the last entry says. *)
Fixpoint get_calls (m : mounted) (addr node fh flags : N) (k : nat) (pos : N) (l : list dir_call)
    : option (list ((list dirent + Z) * list (bytes * TakenSpec.node))) :=
  match l with
  | [] => Some []
  | c :: l =>
    match get_call m addr node fh flags k pos c with
    | None => None
    | Some r =>
      let pos' := match fst r with inl ds => last (map d_off ds) pos | inr _ => pos end in
      match get_calls m addr node fh flags (S k) pos' l with
      | Some rs => Some (r :: rs)
      | None => None
      end
    end
  end.

(** What a program sees of an entry; by READDIRPLUS the type is unknown (see
    [C24_type_refuted]). *)
Definition entry_seen (plus : bool) (i : item) : dirent :=
  if plus then plus_listed (it i) else item_listed (plain i).
Definition node_seen (bs : N) (i : item) : bytes * TakenSpec.node := (p_name (it i), plus_node bs (it i)).

(** ** Proofs *)

Lemma fill_prefix {T} (D : Dirent T) es : forall w oks w', push_all D es w = Ret (oks, w') ->
  exists a b w1 oks', es = a ++ b /\ oks = repeat true (length a) ++ oks' /\
    push_all D a w = Ret (repeat true (length a), w1) /\ fill D es w = Ret w1 /\
    (b <> [] -> exists o, oks' = false :: o).
Proof.
  induction es as [|e es IH]; intros w oks w' H; cbn [push_all] in H.
  - injection H as <- <-. exists [], [], w, []. repeat split; auto. now intros [].
  - destruct (try_push D e w) as [[ok w2]| | |] eqn:Te; cbn [bind] in H; try discriminate H.
    destruct (push_all D es w2) as [[oks2 w3]| | |] eqn:Pe; cbn [bind] in H; try discriminate H.
    injection H as <- <-. destruct ok.
    + destruct (IH w2 oks2 w3 Pe) as (a & b & w1 & oks' & -> & -> & Pa & F & B).
      exists (e :: a), b, w1, oks'. cbn [fill push_all length repeat app]. rewrite Te. cbn [bind]. rewrite Pa. cbn [bind].
      repeat split; auto.
    + pose proof (C23_failed_push D e w w2 Te) as ->.
      exists [], (e :: es), w, (false :: oks2). cbn [fill push_all length repeat app]. rewrite Te. cbn [bind].
      repeat split; auto. intros _. now exists oks2.
Qed.
Lemma kept_all {A} (l : list A) : kept (repeat true (length l)) l = l.
Proof. induction l; cbn; congruence. Qed.
Lemma make_all_eq l : Forall plus_item_ok l -> make_all l = Ret (map plus_made l).
Proof.
  intros H. induction H as [|i l Hi H IH]; [reflexivity|]. cbn [make_all map]. rewrite (plus_made_eq i Hi). cbn [bind].
  now rewrite IH.
Qed.
Lemma made_unique l es : Forall plus_item_ok l ->
  Forall2 (fun i e => ReaddirplusEntry_new (p_name i) (p_off i) (item_entry i) = Ret e) l es -> es = map plus_made l.
Proof.
  intros H F. induction F as [|i e l es He F IH]; [reflexivity|]. inversion H as [|? ? Hi H']; subst.
  rewrite (plus_made_eq i Hi) in He. injection He as <-. cbn [map]. now rewrite IH.
Qed.

Lemma head_fits cap n sizes o : n <= cap -> accepted cap 0 (n :: sizes) <> false :: o.
Proof. intros L. cbn [accepted]. replace (0 + n <=? cap) with true by lia. discriminate. Qed.
Lemma page_cap size : 4096 <= size <= 1048576 -> 4096 <= N.min (nlen (repeat x00 (N.to_nat size))) 65535.
Proof. intros. rewrite nlen_repeat. lia. Qed.

(** What the server writes for the entries [l]: as many as fit, at least one. *)
Lemma page_plain addr size l : addr mod 8 = 0 -> 4096 <= size <= 1048576 -> Forall item_ok l ->
  exists a b w p, l = a ++ b /\ (l <> [] -> a <> []) /\
    fill Dirent_fuse_dirent (map make_entry (map plain l)) (page addr size) = Ret w /\ into_entries w = Ret p /\
    nlen p <= size /\ forall room, linux_readdir room p = inl (map (entry_seen false) (firstn room a)).
Proof.
  intros Ha Hs Hl.
  assert (Hd : Forall dir_item_ok (map plain l)).
  { apply Forall_map. eapply Forall_impl; [|exact Hl]. intros i ((? & ? & ? & _) & _). repeat split; tauto. }
  destruct (C23_readdir addr (repeat x00 (N.to_nat size)) (map plain l) Ha Hd) as (w & p & P & _).
  destruct (fill_prefix _ _ _ _ _ P) as (a & b & w1 & oks' & Eab & Eo & Pa & F & B).
  destruct (map_eq_app _ _ _ _ Eab) as (a1 & b1 & Eq & <- & <-).
  destruct (map_eq_app _ _ _ _ Eq) as (a2 & b2 & -> & <- & <-).
  rewrite map_app in Hd. apply Forall_app in Hd as [Hda _].
  destruct (C72_readdir 12 2 addr (repeat x00 (N.to_nat size)) (map plain a2) 0 ltac:(unfold is_id, U64; cbn; lia) Ha Hda)
    as (w2 & p2 & P2 & I2 & _).
  destruct (C23_readdir addr (repeat x00 (N.to_nat size)) (map plain a2) Ha Hda) as (w3 & p3 & P3 & I3 & _ & _ & _ & L3).
  unfold page in *. rewrite Pa in P2, P3. injection P2 as Ok2 <-. injection P3 as _ <-. rewrite I2 in I3. injection I3 as <-.
  exists a2, b2, w1, p2. split; [reflexivity|]. split.
  { intros Ne ->. cbn [map length repeat app] in *. subst oks'.
    destruct b2 as [|i b2]; [now apply Ne|]. destruct B as [o Bo]; [discriminate|]. revert Bo. cbn [map app].
    apply head_fits. pose proof (page_cap size Hs). apply Forall_cons_iff in Hl as [(_ & Hi & _) _].
    unfold readdir_size, up8, plain. cbn [i_name]. lia. }
  split; [exact F|]. split; [exact I2|]. split; [rewrite nlen_repeat in L3; lia|]. intros room.
  destruct (C72_readdir 12 2 addr (repeat x00 (N.to_nat size)) (map plain a2) room ltac:(unfold is_id, U64; cbn; lia) Ha Hda)
    as (w4 & p4 & P4 & I4 & _ & R & _).
  rewrite Pa in P4. injection P4 as _ <-. rewrite I2 in I4. injection I4 as <-.
  rewrite <- Ok2 in R. rewrite !map_length in R. replace (length a2) with (length (map plain a2)) in R by apply map_length.
  rewrite kept_all in R. rewrite R.
  - rewrite firstn_map, map_map. reflexivity.
  - apply Forall_map. apply Forall_app in Hl as [Hl _]. eapply Forall_impl; [|exact Hl]. intros i (_ & ? & _). exact H.
Qed.

Lemma page_plus bs addr size l : addr mod 8 = 0 -> 4096 <= size <= 1048576 -> Forall item_ok l ->
  exists a b es w p, l = a ++ b /\ (l <> [] -> a <> []) /\
    make_all (map it l) = Ret es /\
    fill Dirent_fuse_direntplus es (page addr size) = Ret w /\ into_entries w = Ret p /\
    nlen p <= size /\ forall room, linux_readdirplus bs room p = (all_seen bs room (map it a), None).
Proof.
  intros Ha Hs Hl.
  assert (Hd : Forall plus_item_ok (map it l)).
  { apply Forall_map. eapply Forall_impl; [|exact Hl]. now intros i (? & _). }
  destruct (C24_readdirplus addr (repeat x00 (N.to_nat size)) (map it l) Ha Hd) as (es & w & p & l' & Fe & P & _).
  pose proof (made_unique _ _ Hd Fe) as ->. clear Fe l'.
  destruct (fill_prefix _ _ _ _ _ P) as (a & b & w1 & oks' & Eab & Eo & Pa & F & B).
  destruct (map_eq_app _ _ _ _ Eab) as (a1 & b1 & Eq & <- & <-).
  destruct (map_eq_app _ _ _ _ Eq) as (a2 & b2 & -> & <- & <-).
  pose proof Hd as Hd0. rewrite map_app in Hd. apply Forall_app in Hd as [Hda _].
  destruct (C24_readdirplus addr (repeat x00 (N.to_nat size)) (map it a2) Ha Hda) as (es3 & w3 & p3 & l3 & Fe3 & P3 & I3 & _ & _ & _ & _ & L3).
  pose proof (made_unique _ _ Hda Fe3) as ->. clear Fe3 l3.
  unfold page in *. rewrite Pa in P3. injection P3 as Ok3 <-.
  exists a2, b2. eexists. exists w1, p3. split; [reflexivity|]. split.
  { intros Ne ->. cbn [map length repeat app] in *. subst oks'.
    destruct b2 as [|i b2]; [now apply Ne|]. destruct B as [o Bo]; [discriminate|]. revert Bo. cbn [map app].
    apply head_fits. pose proof (page_cap size Hs). apply Forall_cons_iff in Hl as [(_ & Hi & _) _].
    unfold plus_size, up8. lia. }
  split; [exact (make_all_eq _ Hd0)|]. split; [exact F|]. split; [exact I3|].
  split; [rewrite nlen_repeat in L3; lia|]. intros room.
  destruct (C72_readdirplus 12 2 addr (repeat x00 (N.to_nat size)) (map it a2) bs room ltac:(unfold is_id, U64; cbn; lia) Ha Hda)
    as (es4 & w4 & p4 & Fe4 & P4 & I4 & _ & R).
  pose proof (made_unique _ _ Hda Fe4) as ->. clear Fe4.
  rewrite Pa in P4. injection P4 as _ <-. rewrite I3 in I4. injection I4 as <-.
  rewrite <- Ok3 in R. rewrite !map_length in R. replace (length a2) with (length (map it a2)) in R by apply map_length.
  rewrite kept_all in R. apply (R (map it a2) []); [now rewrite app_nil_r| |exact I].
  apply Forall_map. apply Forall_app in Hl as [Hl _]. eapply Forall_impl; [|exact Hl]. intros i (_ & ? & _). exact H.
Qed.

Lemma behind_ok off d : dir_ok d -> Forall item_ok (behind off d).
Proof.
  intros [H _]. destruct off as [o|]; [|exact H]. cbn [behind]. rewrite Forall_forall in *.
  intros i Hi. apply filter_In in Hi as [Hi _]. auto.
Qed.

Definition at_pos (pos : N) : option N := if pos =? 0 then None else Some pos.

(** One call: the entries behind the place, as many as there is room for. *)
Lemma get_one m addr node fh flags k pos c :
  good_mount m -> addr mod 8 = 0 -> id_ok node -> fh < U64 -> flags < U32 -> pos < U64 -> dir_call_ok c ->
  exists a b, behind (at_pos pos) (dc_dir c) = a ++ b /\
    (behind (at_pos pos) (dc_dir c) <> [] -> a <> []) /\
    get_call m addr node fh flags k pos c =
    Some (inl (map (entry_seen (dc_plus c)) (firstn (dc_room c) a)),
          if dc_plus c then pl_linked (all_seen (m_bs m) (dc_room c) (map it a)) else []).
Proof.
  intros G Al Hn Hf Hfl Hp (Hd & Hs & Hr).
  destruct (with_node_good m k node G Hn) as [Gh Od]. pose proof G as (B & Mi & _).
  pose proof (behind_ok (at_pos pos) (dc_dir c) Hd) as Hb.
  unfold get_call. set (hd := header m k node) in *.
  assert (Nd : rh_nodeid hd = node) by reflexivity.
  pose proof (header_id hd Gh) as Id.
  assert (Sd : forall op, (op = OReaddirplus fh pos (dc_size c) 0 0 flags 0 \/ op = OReaddir fh pos (dc_size c) 0 0 flags 0) ->
    nlen (linux_message (m_cf m) hd op) < U32 /\ nlen (linux_message (m_cf m) hd op) <= m_buf_len m /\
    sendable false (m_cf m) hd op).
  { intros op Hop.
    assert (W : ClientSpec.within (m_max_write m) 1 (m_buf_len m) op) by (destruct Hop as [->| ->]; exact I).
    destruct (message_fits _ _ _ (m_cf m) hd op W ltac:(lia) B) as [L L'].
    specialize (L' ltac:(destruct Hop as [->| ->]; reflexivity)). split; [exact L|]. split; [exact L'|].
    split; [exact Gh|]. unfold id_ok in Hn. destruct Hop as [->| ->].
    1,2: split; [split; [|exact I]|];
      [cbn [op_fields]; unfold read_in; replace (cf_minor (m_cf m) <? 9) with false by lia;
         unfold in_range, U64, U32 in *; repeat constructor; cbn; lia
      |split; [reflexivity|split; [intros _ _; rewrite Nd; lia|constructor]]]. }
  destruct (dc_plus c).
  - destruct (page_plus (m_bs m) addr (dc_size c) _ Al Hs Hb) as (a & b & es & w & p & Eab & Ne & Me & F & Ie & Lp & R).
    exists a, b. split; [exact Eab|]. split; [exact Ne|].
    destruct (Sd _ (or_introl eq_refl)) as (L & L' & S). set (op := OReaddirplus _ _ _ _ _ _ _) in *.
    rewrite (exchange_ok false _ _ (m_cf m) (lister addr) (dc_dir c) hd op
      (VReaddirplus node (dc_size c) (at_pos pos) fh flags) (dc_dir c) (AOk (RReaddirEntries p)) 0%Z p B S); try assumption; try easy.
    + cbn [Z.eqb]. unfold op at 1. cbn [op_room fits]. replace (_ && _) with true by lia. rewrite (R (dc_room c)).
      cbn [getdents pl_entries all_seen]. f_equal. f_equal.
      rewrite firstn_map, !map_map. now destruct (map _ (firstn (dc_room c) a)).
    + unfold taken_for, op. cbn [expected]. rewrite Nd. replace (cf_minor (m_cf m) <? 9) with false by lia. reflexivity.
    + unfold lister. rewrite Me. cbn [bind]. rewrite F. cbn [bind]. rewrite Ie. reflexivity.
    + apply (ok_replies _ _ (RReaddirEntries p) Id). cbn [payload]. unfold u32_max. lia.
  - destruct (page_plain addr (dc_size c) _ Al Hs Hb) as (a & b & w & p & Eab & Ne & F & Ie & Lp & R).
    exists a, b. split; [exact Eab|]. split; [exact Ne|].
    destruct (Sd _ (or_intror eq_refl)) as (L & L' & S). set (op := OReaddir _ _ _ _ _ _ _) in *.
    rewrite (exchange_ok false _ _ (m_cf m) (lister addr) (dc_dir c) hd op
      (VReaddir node (dc_size c) (at_pos pos) fh flags) (dc_dir c) (AOk (RReaddirEntries p)) 0%Z p B S); try assumption; try easy.
    + cbn [Z.eqb]. unfold op at 1. cbn [op_room fits]. replace (_ && _) with true by lia. now rewrite (R (dc_room c)).
    + unfold taken_for, op. cbn [expected]. rewrite Nd. replace (cf_minor (m_cf m) <? 9) with false by lia. reflexivity.
    + unfold lister. rewrite F. cbn [bind]. rewrite Ie. reflexivity.
    + apply (ok_replies _ _ (RReaddirEntries p) Id). cbn [payload]. unfold u32_max. lia.
Qed.

(** The same for a place of the directory in order. *)
Lemma behind_pos pos d : dir_ok d -> behind (at_pos pos) d = filter (fun i => pos <? it_off i) d.
Proof.
  intros [H _]. unfold at_pos. destruct (N.eqb_spec pos 0) as [->|]; [|reflexivity]. cbn [behind].
  induction H as [|i d ((_ & Ho & _) & _) H IH]; [reflexivity|]. cbn [filter]. unfold it_off at 1.
  replace (0 <? p_off (it i)) with true by lia. now rewrite <- IH.
Qed.
Lemma off_seen plus i : d_off (entry_seen plus i) = it_off i.
Proof. now destruct plus. Qed.

Lemma sorted_filter (f : item -> bool) d : StronglySorted N.lt (map it_off d) -> StronglySorted N.lt (map it_off (filter f d)).
Proof.
  induction d as [|i d IH]; intros H; [constructor|]. cbn [map] in H. apply StronglySorted_inv in H as [H1 H2].
  cbn [filter]. destruct (f i); [|auto]. cbn [map]. constructor; [auto|]. rewrite Forall_forall in *.
  intros x Hx. apply in_map_iff in Hx as (j & <- & Hj). apply filter_In in Hj as [Hj _]. apply H2. now apply in_map.
Qed.
Lemma sorted_app a b : StronglySorted N.lt (a ++ b) ->
  StronglySorted N.lt a /\ StronglySorted N.lt b /\ (forall x y, In x a -> In y b -> x < y).
Proof.
  induction a as [|x a IH]; cbn [app]; intros H; [repeat split; [constructor|exact H|intros ? ? []]|].
  apply StronglySorted_inv in H as [H1 H2]. destruct (IH H1) as (Ia & Ib & Ic). apply Forall_app in H2 as [H2 H3].
  split; [now constructor|]. split; [exact Ib|]. intros y z [->|Hy] Hz; [|auto]. rewrite Forall_forall in H3. auto.
Qed.
Lemma last_le pos l : StronglySorted N.lt l -> Forall (fun x => pos < x) l ->
  pos <= last l pos /\ Forall (fun x => x <= last l pos) l /\ (l <> [] -> In (last l pos) l).
Proof.
  intros S. induction S as [|x l S IH Hx]; intros F; [cbn; repeat split; [lia|constructor|now intros []]|].
  apply Forall_cons_iff in F as [F0 F]. destruct (IH F) as (A & B & C). destruct l as [|y l].
  - cbn. repeat split; [lia|repeat constructor; lia|auto].
  - change (last (x :: y :: l) pos) with (last (y :: l) pos). specialize (C ltac:(discriminate)).
    repeat split; [lia| |intros _; now right]. constructor; [|exact B]. rewrite Forall_forall in Hx. specialize (Hx _ C). lia.
Qed.

(** What one call leaves: the entries up to the new place were seen, those behind
    it come later. *)
Definition shown (c : dir_call) (l : list dirent) (pos pos' : N) : Prop :=
  pos <= pos' < 2 ^ 63 /\
  StronglySorted N.lt (map d_off l) /\ Forall (fun x => pos < d_off x <= pos') l /\
  (forall x, In x l -> exists i, In i (dc_dir c) /\ x = entry_seen (dc_plus c) i) /\
  (forall i, In i (dc_dir c) -> pos < it_off i <= pos' -> In (entry_seen (dc_plus c) i) l) /\
  (l = [] -> forall i, In i (dc_dir c) -> it_off i <= pos).
Lemma get_shown m addr node fh flags k pos c :
  good_mount m -> addr mod 8 = 0 -> id_ok node -> fh < U64 -> flags < U32 -> pos < 2 ^ 63 -> dir_call_ok c ->
  exists l ns, get_call m addr node fh flags k pos c = Some (inl l, ns) /\
    shown c l pos (last (map d_off l) pos) /\ incl ns (map (node_seen (m_bs m)) (dc_dir c)) /\
    (length l <= dc_room c)%nat.
Proof.
  intros G Al Hn Hf Hfl Hp Hc. pose proof Hc as (Hd & _ & Hr).
  destruct (get_one m addr node fh flags k pos c G Al Hn Hf Hfl ltac:(unfold U64; lia) Hc) as (a & b & Eab & Ne & ->).
  rewrite (behind_pos pos _ Hd) in Eab, Ne. set (f := firstn (dc_room c) a). exists (map (entry_seen (dc_plus c)) f).
  eexists. split; [reflexivity|].
  assert (Ef : exists g, filter (fun i => pos <? it_off i) (dc_dir c) = f ++ g).
  { exists (skipn (dc_room c) a ++ b). unfold f. rewrite app_assoc, firstn_skipn. exact Eab. }
  destruct Ef as [g Ef].
  assert (Mo : map d_off (map (entry_seen (dc_plus c)) f) = map it_off f)
    by (rewrite map_map; apply map_ext; intros; apply off_seen).
  pose proof (sorted_filter (fun i => pos <? it_off i) _ (proj2 Hd)) as Sf. rewrite Ef, map_app in Sf.
  destruct (sorted_app _ _ Sf) as (Sa & _ & Sc).
  assert (Inf : forall i, In i (f ++ g) <-> In i (dc_dir c) /\ pos < it_off i).
  { intros i. rewrite <- Ef, filter_In. split; intros [? ?]; split; auto; lia. }
  assert (Pf : Forall (fun x => pos < x) (map it_off f)).
  { rewrite Forall_forall. intros x Hx. apply in_map_iff in Hx as (i & <- & Hi). apply Inf, in_app_iff. now left. }
  destruct (last_le pos _ Sa Pf) as (L1 & L2 & L3). rewrite Mo.
  assert (Fn : f = [] -> f ++ g = []).
  { intros Fz. rewrite Ef in Ne. destruct (f ++ g) eqn:Q; [reflexivity|]. specialize (Ne ltac:(discriminate)).
    unfold f in Fz. destruct a; [now contradiction Ne|]. destruct (dc_room c); [lia|discriminate Fz]. }
  assert (Lm : last (map it_off f) pos < 2 ^ 63).
  { destruct f as [|i0 f0] eqn:Qf; [exact Hp|]. specialize (L3 ltac:(discriminate)).
    apply in_map_iff in L3 as (i & <- & Hi). destruct Hd as [Hd _]. rewrite Forall_forall in Hd. apply Hd.
    apply Inf, in_app_iff. now left. }
  split; [|split].
  - split; [lia|]. split; [rewrite Mo; exact Sa|]. split; [|split; [|split]].
    + rewrite Forall_forall in *. intros x Hx. apply in_map_iff in Hx as (i & <- & Hi). rewrite off_seen.
      assert (In (it_off i) (map it_off f)) by now apply in_map. auto.
    + intros x Hx. apply in_map_iff in Hx as (i & <- & Hi). exists i. split; [|reflexivity]. apply Inf, in_app_iff. now left.
    + intros i Hi Ho. apply in_map. assert (Hg : In i (f ++ g)) by (apply Inf; split; [exact Hi|lia]).
      apply in_app_iff in Hg as [Hg|Hg]; [exact Hg|]. exfalso.
      destruct f as [|i0 f0] eqn:Qf; [specialize (Fn eq_refl); cbn in Fn; now rewrite Fn in Hg|].
      specialize (Sc _ _ (L3 ltac:(discriminate)) (in_map it_off _ _ Hg)). lia.
    + intros Fz i Hi. apply map_eq_nil in Fz. specialize (Fn Fz). destruct (N.le_gt_cases (it_off i) pos); [assumption|].
      assert (Hg : In i (f ++ g)) by (apply Inf; split; [exact Hi|lia]). now rewrite Fn in Hg.
  - destruct (dc_plus c); [|intros ? []]. cbn [all_seen pl_linked]. intros x Hx.
    apply in_map_iff in Hx as (q & <- & Hq). apply filter_In in Hq as [Hq _]. apply filter_In in Hq as [Hq _].
    apply in_map_iff in Hq as (i & <- & Hi). apply (in_map (node_seen (m_bs m))).
    assert (Hx : In i (filter (fun i => pos <? it_off i) (dc_dir c))) by (rewrite Eab; apply in_app_iff; now left).
    now apply filter_In in Hx as [Hx _].
  - rewrite map_length. unfold f. rewrite firstn_length. lia.
Qed.

(** A directory that changes between the calls: no call fails, no place is seen
    twice, what is seen was there at the time, and at the end everything was seen
    that was there all the time. *)
Theorem C78_changing m addr node fh flags l :
  good_mount m -> addr mod 8 = 0 -> id_ok node -> fh < U64 -> flags < U32 -> Forall dir_call_ok l ->
  forall k, exists rs,
    get_calls m addr node fh flags k 0 l = Some (map (fun r => (inl (fst r), snd r)) rs) /\
    StronglySorted N.lt (map d_off (flat_map fst rs)) /\
    Forall2 (fun c r => (length (fst r) <= dc_room c)%nat /\
      (forall x, In x (fst r) -> exists i, In i (dc_dir c) /\ x = entry_seen (dc_plus c) i) /\
      incl (snd r) (map (node_seen (m_bs m)) (dc_dir c))) l rs /\
    (forall rs' ns, rs = rs' ++ [([], ns)] ->
     forall i, Forall (fun c => In i (dc_dir c)) l -> exists plus, In (entry_seen plus i) (flat_map fst rs)).
Proof.
  intros G Al Hn Hf Hfl Hl.
  enough (H : forall pos k, pos < 2 ^ 63 -> exists rs,
    get_calls m addr node fh flags k pos l = Some (map (fun r => (inl (fst r), snd r)) rs) /\
    StronglySorted N.lt (map d_off (flat_map fst rs)) /\ Forall (fun x => pos < d_off x) (flat_map fst rs) /\
    Forall2 (fun c r => (length (fst r) <= dc_room c)%nat /\
      (forall x, In x (fst r) -> exists i, In i (dc_dir c) /\ x = entry_seen (dc_plus c) i) /\
      incl (snd r) (map (node_seen (m_bs m)) (dc_dir c))) l rs /\
    (forall rs' ns, rs = rs' ++ [([], ns)] ->
     forall i, Forall (fun c => In i (dc_dir c)) l -> pos < it_off i -> exists plus, In (entry_seen plus i) (flat_map fst rs))).
  { intros k. destruct (H 0 k ltac:(lia)) as (rs & A & B & _ & C & D). exists rs. repeat split; auto.
    intros rs' ns Er i Hi. apply (D rs' ns Er i Hi). rewrite Er in C. apply Forall2_app_inv_r in C as (l1 & l2 & _ & C2 & ->).
    inversion C2 as [|c ? l2' ? _ _]; subst. apply Forall_app in Hl as [_ Hl]. apply Forall_app in Hi as [_ Hi].
    apply Forall_cons_iff in Hl as [((Hd & _) & _) _]. apply Forall_cons_iff in Hi as [Hi _].
    rewrite Forall_forall in Hd. destruct (Hd i Hi) as ((_ & Ho & _) & _). apply Ho. }
  induction Hl as [|c l Hc Hl IH]; intros pos k Hp.
  - exists []. repeat split; try constructor. intros rs' ns Er. now destruct rs'.
  - destruct (get_shown m addr node fh flags k pos c G Al Hn Hf Hfl Hp Hc) as (ds & ns & Q & Sh & In_ & Lr).
    destruct Sh as (P1 & S1 & S2 & S3 & S4 & S5). set (pos' := last (map d_off ds) pos) in *.
    destruct (IH pos' (S k) ltac:(lia)) as (rs & A & B & B' & C & D).
    exists ((ds, ns) :: rs). cbn [get_calls]. rewrite Q. cbn [fst]. fold pos'. rewrite A. split; [reflexivity|].
    cbn [flat_map fst]. split; [|split; [|split]].
    + rewrite map_app. clearbody pos'. clear - S1 S2 B B'. induction ds as [|x ds IHd]; [exact B|]. cbn [map app] in *.
      apply StronglySorted_inv in S1 as [S1 S1']. apply Forall_cons_iff in S2 as [S2 S2'].
      constructor; [auto|]. apply Forall_app. split; [exact S1'|]. apply Forall_map. eapply Forall_impl; [|exact B'].
      cbn beta. intros y Hy. lia.
    + apply Forall_app. split; [eapply Forall_impl; [|exact S2]; cbn beta; intros; lia|].
      eapply Forall_impl; [|exact B']. cbn beta. intros; lia.
    + constructor; [|exact C]. cbn [fst snd]. auto.
    + intros rs' ns' Er i Hi Ho. apply Forall_cons_iff in Hi as [Hi0 Hi].
      destruct (N.le_gt_cases (it_off i) pos') as [Le|Gt].
      * exists (dc_plus c). apply in_app_iff. left. apply S4; [exact Hi0|lia].
      * destruct rs' as [|r rs'].
        -- cbn [app] in Er. injection Er as Ed _ _. specialize (S5 Ed i Hi0). lia.
        -- cbn [app] in Er. injection Er as _ Er. destruct (D rs' ns' Er i Hi Gt) as [plus Hin].
           exists plus. apply in_app_iff. now right.
Qed.

(** A directory that stays as it is: all entries, in order, once enough calls
    were made. *)
Theorem C78_listing m addr node fh flags l d :
  good_mount m -> addr mod 8 = 0 -> id_ok node -> fh < U64 -> flags < U32 -> Forall dir_call_ok l ->
  Forall (fun c => dc_dir c = d) l -> (length d <= length l)%nat ->
  forall k, exists rs,
    get_calls m addr node fh flags k 0 l = Some (map (fun r => (inl (fst r), snd r)) rs) /\
    Forall2 (fun i x => exists plus, x = entry_seen plus i) d (flat_map fst rs).
Proof.
  intros G Al Hn Hf Hfl Hl Hd Ll k.
  assert (Hdo : l <> [] -> dir_ok d).
  { intros Ne. destruct l as [|c l]; [now contradiction Ne|]. apply Forall_cons_iff in Hl as [(Hl & _) _].
    apply Forall_cons_iff in Hd as [<- _]. exact Hl. }
  enough (H : forall pos rest k, pos < 2 ^ 63 -> (l <> [] -> filter (fun i => pos <? it_off i) d = rest) ->
    (length rest <= length l)%nat -> exists rs,
    get_calls m addr node fh flags k pos l = Some (map (fun r => (inl (fst r), snd r)) rs) /\
    Forall2 (fun i x => exists plus, x = entry_seen plus i) rest (flat_map fst rs)).
  { apply H; [lia| |exact Ll]. intros Ne. specialize (Hdo Ne). now rewrite <- (behind_pos 0 d Hdo). }
  clear k Ll. induction Hl as [|c l Hc Hl IH]; intros pos rest k Hp Er Lr.
  - exists []. split; [reflexivity|]. destruct rest; [constructor|cbn in Lr; lia].
  - apply Forall_cons_iff in Hd as [Ed Hd]. specialize (Er ltac:(discriminate)). specialize (Hdo ltac:(discriminate)).
    destruct (get_one m addr node fh flags k pos c G Al Hn Hf Hfl ltac:(unfold U64; lia) Hc) as (a & b & Eab & Ne & Q).
    rewrite Ed in Eab, Ne. rewrite (behind_pos pos d Hdo), Er in Eab, Ne. pose proof Hc as (_ & _ & Hr).
    set (f := firstn (dc_room c) a) in *. set (g := skipn (dc_room c) a ++ b).
    assert (Ef : rest = f ++ g) by (unfold f, g; rewrite app_assoc, firstn_skipn; exact Eab).
    assert (Mo : map d_off (map (entry_seen (dc_plus c)) f) = map it_off f)
      by (rewrite map_map; apply map_ext; intros; apply off_seen).
    pose proof (sorted_filter (fun i => pos <? it_off i) _ (proj2 Hdo)) as Sf. rewrite Er, Ef, map_app in Sf.
    destruct (sorted_app _ _ Sf) as (Sa & _ & Sc).
    assert (Inr_ : forall i, In i (f ++ g) -> In i d /\ pos < it_off i).
    { intros i. rewrite <- Ef, <- Er, filter_In. intros [? ?]. split; auto; lia. }
    assert (Pf : Forall (fun x => pos < x) (map it_off f)).
    { rewrite Forall_forall. intros x Hx. apply in_map_iff in Hx as (i & <- & Hi). apply Inr_, in_app_iff. now left. }
    destruct (last_le pos _ Sa Pf) as (L1 & L2 & L3). set (pos' := last (map it_off f) pos) in *.
    assert (Lm : pos' < 2 ^ 63).
    { destruct f as [|i0 f0] eqn:Qf; [exact Hp|]. specialize (L3 ltac:(discriminate)).
      apply in_map_iff in L3 as (i & <- & Hi). destruct Hdo as [Hdo _]. rewrite Forall_forall in Hdo. apply Hdo.
      apply Inr_, in_app_iff. now left. }
    assert (Fg : filter (fun i => pos' <? it_off i) d = g).
    { transitivity (filter (fun i => pos' <? it_off i) (filter (fun i => pos <? it_off i) d)).
      - clearbody pos'. clear - L1. induction d as [|i d IHd]; [reflexivity|]. cbn [filter].
        destruct (N.ltb_spec pos (it_off i)); cbn [filter]; [now rewrite IHd|].
        replace (pos' <? it_off i) with false by lia. exact IHd.
      - rewrite Er, Ef, filter_app.
        assert (F1 : filter (fun i => pos' <? it_off i) f = []).
        { revert L2. clearbody pos'. generalize f. clear. intros f L2. induction f as [|i f IHf]; [reflexivity|]. cbn [map] in L2. apply Forall_cons_iff in L2 as [L2 L2'].
          cbn [filter]. replace (pos' <? it_off i) with false by lia. auto. }
        rewrite F1. cbn [app]. assert (F2 : forall i, In i g -> pos' < it_off i).
        { intros i Hi. destruct f as [|i0 f0] eqn:Qf; [apply Inr_, in_app_iff; now right|].
          apply Sc; [apply L3; discriminate|now apply in_map]. }
        revert F2. clearbody pos'. generalize g. clear. intros g F2. induction g as [|i g IHg]; [reflexivity|]. cbn [filter].
        replace (pos' <? it_off i) with true by (specialize (F2 i (or_introl eq_refl)); lia).
        rewrite IHg; [reflexivity|]. intros j Hj. apply F2. now right. }
    assert (Lg : (length g <= length l)%nat).
    { rewrite Ef, app_length in Lr. cbn [length] in Lr. destruct rest as [|i0 rest].
      - symmetry in Ef. apply app_eq_nil in Ef as [_ ->]. cbn. lia.
      - specialize (Ne ltac:(discriminate)). assert (0 < length f)%nat; [|lia].
        unfold f. rewrite firstn_length. destruct a; [now contradiction Ne|]. cbn. lia. }
    destruct (IH Hd ltac:(auto) pos' g (S k) Lm (fun _ => Fg) Lg) as (rs & A & B).
    eexists ((_, _) :: rs). cbn [get_calls]. rewrite Q. cbn [fst]. rewrite Mo. fold pos'. rewrite A.
    split; [cbn [map fst snd]; reflexivity|]. cbn [flat_map fst]. rewrite Ef. apply Forall2_app; [|exact B].
    generalize f. clear. intros f. induction f as [|i f IHf]; cbn [map]; constructor; [|exact IHf]. now exists (dc_plus c).
Qed.
End Run.

(** ** Examples *)

Local Instance LE : Endian := false.
Definition demo_item (node off : N) (b : byte) : item :=
  {| it := {| p_node := node; p_attr := [SetMode 33188]; p_entry := []; p_name := [b]; p_off := off |};
     it_type := Some Regular |}.
Definition demo_dir : list item := [demo_item 2 1 x61; demo_item 3 5 x62; demo_item 4 6 x63; demo_item 5 4096 x64].
(** "a" and "c" go, "e" comes. *)
Definition demo_later : list item := [demo_item 3 5 x62; demo_item 6 7 x65; demo_item 5 4096 x64].
Definition demo_gets : list dir_call :=
  [{| dc_dir := demo_dir; dc_plus := false; dc_size := 4096; dc_room := 1 |};
   {| dc_dir := demo_dir; dc_plus := true; dc_size := 8192; dc_room := 1 |};
   {| dc_dir := demo_later; dc_plus := true; dc_size := 4096; dc_room := 10 |};
   {| dc_dir := demo_later; dc_plus := false; dc_size := 4096; dc_room := 10 |}].
Lemma demo_item_ok node off b : 0 < node < U64 -> 0 < off < 2 ^ 63 -> b <> x00 -> b <> x2f -> item_ok (demo_item node off b).
Proof.
  intros Hn Ho B0 B1. split; [|split; [cbn; lia|apply Ho]]. split; [exact Hn|]. split; [cbn; unfold U64; lia|].
  split; [destruct b; try congruence; reflexivity|]. split; [repeat constructor|constructor].
Qed.
Lemma demo_dir_ok : dir_ok demo_dir /\ dir_ok demo_later.
Proof.
  split; (split; [repeat constructor; apply demo_item_ok; (discriminate || (unfold U64; lia))|]).
  all: cbn; repeat constructor.
Qed.
Lemma demo_gets_ok : Forall dir_call_ok demo_gets.
Proof.
  pose proof demo_dir_ok as [A B]. unfold demo_gets.
  repeat apply Forall_cons; try apply Forall_nil; (split; [assumption|cbn; lia]).
Qed.
Definition brief_get (r : (list dirent + Z) * list (bytes * TakenSpec.node)) : (list (N * bytes * N) + Z) * list (bytes * N) :=
  (match fst r with inl l => inl (map (fun x => (d_off x, d_name x, d_type x)) l) | inr e => inr e end,
   map (fun x => (fst x, n_id (snd x))) (snd r)).
Example C78_changing_example :
  good_mount demo_mount /\ Forall dir_call_ok demo_gets /\
  option_map (map brief_get) (get_calls demo_mount 4096 1 7 0 0 0 demo_gets) =
  Some [(inl [(1, [x61], 8)], []);
        (inl [(5, [x62], 0)], [([x62], 3); ([x63], 4); ([x64], 5)]);
        (inl [(7, [x65], 0); (4096, [x64], 0)], [([x65], 6); ([x64], 5)]);
        (inl [], [])].
Proof.
  split; [exact demo_mount_good|]. split; [exact demo_gets_ok|]. vm_compute. reflexivity.
Qed.
Example C78_listing_example :
  let l := map (fun room => {| dc_dir := demo_dir; dc_plus := Nat.even room; dc_size := 4096; dc_room := room |}) [1; 2; 1; 3]%nat in
  Forall dir_call_ok l /\ Forall (fun c => dc_dir c = demo_dir) l /\ (length demo_dir <= length l)%nat /\
  option_map (map brief_get) (get_calls demo_mount 4096 1 7 0 0 0 l) =
  Some [(inl [(1, [x61], 8)], []);
        (inl [(5, [x62], 0); (6, [x63], 0)], [([x62], 3); ([x63], 4); ([x64], 5)]);
        (inl [(4096, [x64], 8)], []); (inl [], [])].
Proof.
  pose proof demo_dir_ok as [A _]. split; [|split; [repeat constructor|split; [cbn; lia|vm_compute; reflexivity]]].
  cbn [map]. repeat apply Forall_cons; try apply Forall_nil; (split; [assumption|cbn; lia]).
Qed.

Print Assumptions C78_changing.
Print Assumptions C78_listing.
