(** Theorems about [StaticDirectoryHandle] of fuse-vfs and about the timeouts
    fuse-vfs sends: C48 and the last part of C37 of properties.jsonl. *)

From Verif Require Import Base Kernel CoreModel DecodeModel OpsModel ReplyModel ReplySpec ReplyProofs
  ListingModel PropListing PropValues VfsModel.
From Coq Require Import List NArith ZArith Bool Lia ZifyBool ZifyNat ZifyN.
From Coq.Strings Require Import Byte.
Import ListNotations.
Open Scope N_scope.

(** ** Specification *)

(** An entry of a static directory: a node id, calls of setters on its
    attributes, a name, a generation and two timeouts. *)
Record static_item := {
  si_node : N; si_attr : list attr_op; si_name : bytes; si_generation : N;
  si_entry_timeout : N * N; si_attr_timeout : N * N }.
Definition static_item_ok (i : static_item) : Prop :=
  0 < si_node i < U64 /\ Forall attr_op_ok (si_attr i) /\
  NodeName_from_bytes (si_name i) = inl (si_name i) /\ si_generation i < U64 /\
  duration_ok (si_entry_timeout i) /\ duration_ok (si_attr_timeout i).
(** The [StaticDirectoryEntry] with these fields. *)
Definition static_entry (i : static_item) : StaticDirectoryEntry :=
  {| se_name := si_name i; se_node_attr := attr_calls (si_attr i) (NodeAttr_new (si_node i));
     se_generation := si_generation i; se_entry_cache_timeout := si_entry_timeout i;
     se_attr_cache_timeout := si_attr_timeout i |}.

(** Every item with its number, counted from [n]. *)
Fixpoint numbered {A} (n : N) (l : list A) : list (A * N) :=
  match l with [] => [] | a :: l => (a, n) :: numbered (n + 1) l end.

(** The longest prefix of a list whose items fit into [cap] bytes. *)
Fixpoint fitting {A} (size : A -> N) (cap : N) (l : list A) : list A :=
  match l with
  | [] => []
  | a :: l => if size a <=? cap then a :: fitting size (cap - size a) l else []
  end.

(** The mode of the item: the one set last. *)
Definition item_mode (i : static_item) : N :=
  last_set (fun c => match c with SetMode v => Some v | _ => None end) (si_attr i) 0.
(** The DT_* code for a mode: its file type bits if they are a known type. *)
Definition dt_of_mode (mode : N) : N :=
  let t := mode / 4096 mod 16 in
  if existsb (N.eqb t) [1; 2; 4; 6; 8; 10; 12] then t else 0.
(** What a client sees of the item with number [off] in READDIR *)
Definition static_seen (x : static_item * N) : seen :=
  let '(i, off) := x in
  {| s_ino := si_node i; s_off := off; s_type := dt_of_mode (item_mode i); s_name := si_name i |}.
(** and in READDIRPLUS, where the type is the type bits of the mode as they
    are (see [C24_type_refuted]). *)
Definition static_plus {E : Endian} (x : static_item * N) (v : bytes * seen) : Prop :=
  let '(i, off) := x in
  entry_reads (fst v) (si_node i) true (si_attr i)
    [SetGeneration (si_generation i); SetCacheTimeout (si_entry_timeout i);
     SetAttrTimeout (si_attr_timeout i)] /\
  snd v = {| s_ino := si_node i; s_off := off; s_type := item_mode i / 4096 mod 16 * 4096;
             s_name := si_name i |}.

(** A directory stream: [page off size] is the listing a server returns, and
    the client asks again from the offset of the last entry until a page is
    empty.  [pages] are the sizes asked for, [l] all entries received. *)
Inductive stream {A} (page : N -> N -> list A -> Prop) (offset : A -> N)
  : N -> list N -> list A -> Prop :=
| stream_end off size : page off size [] -> stream page offset off [size] []
| stream_more off size l x sizes rest :
  page off size (l ++ [x]) -> stream page offset (offset x) sizes rest ->
  stream page offset off (size :: sizes) (l ++ [x] ++ rest).

Section Proofs.
Context {E : Endian}.

Definition plus_of (x : static_item * N) : plus_item :=
  let '(i, off) := x in
  {| p_node := si_node i; p_attr := si_attr i;
     p_entry := [SetGeneration (si_generation i); SetCacheTimeout (si_entry_timeout i);
                 SetAttrTimeout (si_attr_timeout i)];
     p_name := si_name i; p_off := off |}.
Definition dir_of (x : static_item * N) : dir_item :=
  let '(i, off) := x in
  {| i_node := si_node i; i_name := si_name i; i_off := off;
     i_type := FileType_from_mode (item_mode i) |}.

Section Loop.
Context {T : Type} (D : Dirent T) (make : StaticDirectoryEntry -> N -> out (entry T))
        (mk : static_item * N -> entry T).
Hypothesis Dsize : dt_size D mod 8 = 0 /\ 24 <= dt_size D.
Hypothesis Dbytes : forall t, nlen (dt_bytes D t) = dt_size D.
Hypothesis Hmake : forall i o, static_item_ok i -> make (static_entry i) o = Ret (mk (i, o)).
Hypothesis Hname : forall x, e_name (mk x) = si_name (fst x).

Definition isize (x : static_item * N) : N := up8 (dt_size D + nlen (si_name (fst x))).

Lemma size_isize x : size D (mk x) = isize x.
Proof. unfold size, isize. now rewrite Hname. Qed.

Lemma static_loop_eq items : forall o addr pre rest,
  addr mod 8 = 0 -> nlen pre mod 8 = 0 -> Forall static_item_ok items -> o + nlen items < U64 ->
  let w := {| w_addr := addr; w_buf := pre ++ rest; w_position := nlen pre |} in
  let fit := fitting isize (nlen rest) (numbered o items) in
  exists w',
    static_loop D make (map static_entry items) o w = Ret w' /\
    push_all D (map mk fit) w = Ret (map (fun _ => true) fit, w').
Proof.
  induction items as [|i items IH]; intros o addr pre rest Ha Hp Hok Ho w fit.
  - exists w. split; reflexivity.
  - assert (Hi := Forall_inv Hok). apply Forall_inv_tail in Hok.
    cbn [map static_loop]. rewrite Hmake by auto. cbn [bind].
    unfold w. rewrite (try_push_eq D Dsize Dbytes) by auto. rewrite size_isize.
    subst fit. cbn [numbered fitting]. rewrite nlen_cons in Ho.
    rewrite nlen_app.
    destruct (N.leb_spec (isize (i, o)) (nlen rest)) as [C|C].
    + destruct (N.leb_spec (nlen pre + isize (i, o)) (nlen pre + nlen rest)); [|lia].
      cbn [bind].
      assert (Sa : sat_add64 o 1 = o + 1) by (unfold sat_add64, u64_max; unfold U64 in Ho; lia).
      rewrite Sa.
      destruct (IH (o + 1) addr (pre ++ record D (mk (i, o))) (drop (isize (i, o)) rest))
        as (w' & H1 & H2); auto; [|lia|].
      { rewrite nlen_app, (nlen_record D Dsize Dbytes). pose proof (size_mod D Dsize (mk (i, o))). lia. }
      exists w'. split; [exact H1|].
      cbn [map push_all]. rewrite (try_push_eq D Dsize Dbytes) by auto.
      rewrite size_isize, nlen_app.
      destruct (N.leb_spec (nlen pre + isize (i, o)) (nlen pre + nlen rest)); [|lia].
      cbn [bind]. rewrite nlen_drop in H2. rewrite H2. reflexivity.
    + destruct (N.leb_spec (nlen pre + isize (i, o)) (nlen pre + nlen rest)); [lia|].
      cbn [bind]. exists w. split; reflexivity.
Qed.

Lemma static_page_eq addr items off size :
  addr mod 8 = 0 -> Forall static_item_ok items -> nlen items + 1 < U64 ->
  let fit := fitting isize (N.min size 65535) (numbered (off + 1) (drop off items)) in
  exists w buf, nlen buf = N.min size 65535 /\
    push_all D (map mk fit) (writer_new addr buf) = Ret (map (fun _ => true) fit, w) /\
    (forall p, into_entries w = Ret p ->
     static_page D make addr (map static_entry items) (if off =? 0 then None else Some off) size = Ret p).
Proof.
  intros Ha Hok Hn fit.
  set (buf := repeat x00 (N.to_nat (N.min size 65535))).
  assert (Lb : nlen buf = N.min size 65535) by (unfold buf; rewrite nlen_repeat; lia).
  assert (Wn : writer_new addr buf = {| w_addr := addr; w_buf := buf; w_position := 0 |}).
  { unfold writer_new. destruct (N.ltb_spec 65535 (nlen buf)); [lia|reflexivity]. }
  unfold static_page. fold buf.
  assert (So : match (if off =? 0 then None else Some off) with Some o => o | None => 0 end = off)
    by (destruct (N.eqb_spec off 0); lia).
  rewrite So. rewrite nlen_map.
  destruct (N.leb_spec (nlen items) off) as [C|C].
  - assert (Dn : drop off items = []) by (apply nlen_0; rewrite nlen_drop; lia).
    subst fit. rewrite Dn. cbn [numbered fitting map push_all].
    exists (writer_new addr buf), buf. split; [exact Lb|]. split; [reflexivity|].
    intros p. rewrite Wn. unfold into_entries, mem_slice. cbn [w_position w_buf].
    destruct (N.leb_spec (0 + 0) (nlen buf)); [|lia]. intros [= <-]. reflexivity.
  - destruct (static_loop_eq (drop off items) (off + 1) addr [] buf) as (w & H1 & H2); auto.
    + apply Forall_forall. intros i Hi. rewrite Forall_forall in Hok. apply Hok.
      rewrite <- (take_drop off items). apply in_or_app. now right.
    + rewrite nlen_drop. lia.
    + cbn [app] in H1, H2. change (nlen []) with 0 in H1, H2. rewrite <- Wn in H1, H2.
      rewrite Lb in H2. fold fit in H2. exists w, buf. split; [exact Lb|]. split; [exact H2|].
      intros p Hp. 
      assert (Sa : sat_add64 1 off = off + 1).
      { unfold sat_add64, u64_max. unfold U64 in Hn. lia. }
      rewrite Sa. 
      replace (drop off (map static_entry items)) with (map static_entry (drop off items)).
      2:{ unfold drop. symmetry. apply skipn_map. }
      rewrite H1. cbn [bind]. f_equal.
      unfold into_entries, mem_slice in Hp.
      destruct (0 + w_position w <=? nlen (w_buf w)); [|discriminate]. injection Hp as <-.
      reflexivity.
Qed.
End Loop.

(** *** Streams *)

Lemma numbered_app {A} (a b : list A) : forall n,
  numbered n (a ++ b) = numbered n a ++ numbered (n + nlen a) b.
Proof.
  induction a as [|x a IH]; intros n; cbn [app numbered].
  - now rewrite N.add_0_r.
  - rewrite IH, nlen_cons. do 3 f_equal. lia.
Qed.

Lemma fitting_prefix {A} (sz : A * N -> N) (l : list A) : forall cap n,
  exists a b, l = a ++ b /\ fitting sz cap (numbered n l) = numbered n a /\
    (forall x r, l = x :: r -> sz (x, n) <= cap -> a <> []).
Proof.
  induction l as [|x l IH]; intros cap n; cbn [numbered fitting].
  - exists [], []. repeat split; auto. discriminate.
  - destruct (N.leb_spec (sz (x, n)) cap) as [C|C].
    + destruct (IH (cap - sz (x, n)) (n + 1)) as (a & b & -> & F & _).
      exists (x :: a), b. split; [reflexivity|]. split; [now rewrite F|]. intros. discriminate.
    + exists [], (x :: l). repeat split; auto. intros ? ? [= -> ->] ?. lia.
Qed.

Lemma numbered_last {A} (a : list A) z n :
  numbered n (a ++ [z]) = numbered n a ++ [(z, n + nlen a)].
Proof. now rewrite numbered_app. Qed.

Lemma drop_nil {A} (n : N) (l : list A) : nlen l <= n -> drop n l = [].
Proof. intros. apply nlen_0. rewrite nlen_drop. lia. Qed.

Lemma nth_drop {A} (l : list A) n x r : drop n l = x :: r -> nth_error l (N.to_nat n) = Some x.
Proof.
  unfold drop. generalize (N.to_nat n). clear n. intros n. revert l.
  induction n as [|n IH]; intros [|y l] H; cbn in *; try discriminate.
  - now injection H as -> _.
  - now apply IH.
Qed.

Section Stream.
Context {A : Type} (page : N -> N -> list A -> Prop) (offset : A -> N)
  (R : static_item * N -> A -> Prop) (sz : static_item * N -> N) (items : list static_item)
  (fits : N -> N -> Prop).
Hypothesis Roff : forall x a, R x a -> offset a = snd x.
Hypothesis page_fits : forall off size l, page off size l -> fits off size.
Hypothesis fits_size : forall off size i n,
  fits off size -> nth_error items (N.to_nat off) = Some i -> sz (i, n) <= N.min size 65535.
Hypothesis page_items : forall off size l, page off size l ->
  Forall2 R (fitting sz (N.min size 65535) (numbered (off + 1) (drop off items))) l.

Lemma one_page off size l : page off size l ->
  exists a b, drop off items = a ++ b /\ Forall2 R (numbered (off + 1) a) l /\
    (drop off items <> [] -> a <> []).
Proof.
  intros P. pose proof (page_items _ _ _ P) as F. pose proof (page_fits _ _ _ P) as Hf.
  destruct (fitting_prefix sz (drop off items) (N.min size 65535) (off + 1)) as (a & b & H1 & H2 & H3).
  rewrite H2 in F. exists a, b. split; [exact H1|]. split; [exact F|].
  intros Nn. destruct (drop off items) as [|x r] eqn:Dx; [contradiction|].
  apply (H3 x r eq_refl). apply fits_size with off; auto. now apply nth_drop with r.
Qed.

Lemma last_offset off a l x :
  Forall2 R (numbered (off + 1) a) (l ++ [x]) -> offset x = off + nlen a /\ 0 < nlen a.
Proof.
  intros F. destruct (exists_last (l := a)) as (a' & z & ->).
  { intros ->. inversion F. destruct l; discriminate. }
  rewrite numbered_last in F. apply Forall2_app_inv_l in F as (l1 & l2 & F1 & F2 & Eq).
  inversion F2 as [|? y ? ? Ry F3]; subst. inversion F3; subst.
  apply app_inj_tail in Eq as [_ ->]. apply Roff in Ry. cbn [snd] in Ry.
  rewrite nlen_app. change (nlen [z]) with 1. lia.
Qed.

Lemma stream_sound off sizes l :
  stream page offset off sizes l -> Forall2 R (numbered (off + 1) (drop off items)) l.
Proof.
  induction 1 as [off size P|off size l x sizes rest P S IH].
  - destruct (one_page _ _ _ P) as (a & b & H1 & H2 & H3).
    assert (a = []) by (destruct a; [reflexivity|inversion H2]). subst a.
    destruct (drop off items); [constructor|]. destruct H3; [discriminate|reflexivity].
  - destruct (one_page _ _ _ P) as (a & b & H1 & H2 & _).
    destruct (last_offset _ _ _ _ H2) as [O _]. rewrite O in IH.
    rewrite H1, numbered_app, app_assoc. apply Forall2_app; [exact H2|].
    replace (off + nlen a + 1) with (off + 1 + nlen a) in IH by lia.
    replace (drop (off + nlen a) items) with b in IH; [exact IH|].
    rewrite <- drop_drop. rewrite H1. now rewrite drop_app.
Qed.

Hypothesis page_exists : forall off size, fits off size -> exists l, page off size l.

Lemma stream_exists (f : nat -> N) :
  (forall off k, off < nlen items -> fits off (f k)) ->
  (forall off size, nlen items <= off -> fits off size) ->
  forall m off k, nlen (drop off items) <= N.of_nat m ->
  exists n l, stream page offset off (map f (seq k n)) l /\ (n <= m + 1)%nat.
Proof.
  intros Hf He. induction m as [|m IH]; intros off k Hm.
  - assert (drop off items = []) by (apply nlen_0; lia).
    assert (F : fits off (f k)).
    { destruct (N.lt_ge_cases off (nlen items)); [now apply Hf|now apply He]. }
    destruct (page_exists _ _ F) as [l P].
    destruct (one_page _ _ _ P) as (a & b & H1 & H2 & _). rewrite H in H1.
    destruct a; [|discriminate]. inversion H2; subst.
    exists 1%nat, []. split; [constructor; exact P|lia].
  - assert (F : fits off (f k)).
    { destruct (N.lt_ge_cases off (nlen items)); [now apply Hf|now apply He]. }
    destruct (page_exists _ _ F) as [l P].
    destruct (one_page _ _ _ P) as (a & b & H1 & H2 & H3).
    destruct l as [|y l0].
    + exists 1%nat, []. split; [constructor; exact P|lia].
    + destruct (exists_last (l := y :: l0)) as (l' & x & Eq); [discriminate|]. rewrite Eq in *.
      destruct (last_offset _ _ _ _ H2) as [O Pa].
      destruct (IH (offset x) (S k)) as (n & rest & St & B).
      { rewrite O, <- drop_drop, H1, drop_app by reflexivity.
        assert (nlen (drop off items) = nlen a + nlen b) by (rewrite H1; apply nlen_app). lia. }
      exists (S n), (l' ++ [x] ++ rest). split; [|lia]. cbn [seq map]. now constructor.
Qed.
End Stream.

(** *** One page *)

Lemma item_mode_eq i : fa_mode (se_node_attr (static_entry i)) = item_mode i.
Proof. cbn [static_entry se_node_attr]. apply (attr_calls_field fa_mode). now destruct o. Qed.

Lemma static_dirent_eq i o : static_item_ok i ->
  static_dirent (static_entry i) o = Ret (make_entry (dir_of (i, o))).
Proof.
  intros (Hn & _). unfold static_dirent, NodeAttr_node_id, NodeId_new_unchecked.
  cbn [static_entry se_node_attr se_name]. rewrite attr_calls_ino. cbn [NodeAttr_new fa_ino].
  destruct (N.eqb_spec (si_node i) 0); [lia|]. cbn [bind]. unfold NodeAttr_mode.
  pose proof (item_mode_eq i) as M. cbn [static_entry se_node_attr] in M. rewrite M. reflexivity.
Qed.

Lemma static_direntplus_eq i o : static_item_ok i ->
  static_direntplus (static_entry i) o = Ret (plus_made (plus_of (i, o))).
Proof.
  intros (Hn & Ha & Hm & Hg & Ht1 & Ht2). unfold static_direntplus.
  change (ReaddirplusEntry_new (p_name (plus_of (i, o))) (p_off (plus_of (i, o)))
    (item_entry (plus_of (i, o))) = Ret (plus_made (plus_of (i, o)))).
  unfold ReaddirplusEntry_new, NodeAttr_node_id, NodeId_new_unchecked.
  unfold item_entry at 1 2. rewrite !entry_calls_attr. cbn [Entry_new eo_attr].
  cbn [plus_of p_attr p_entry p_node].
  rewrite !attr_calls_ino. cbn [NodeAttr_new fa_ino].
  destruct (N.eqb_spec (si_node i) 0); [lia|]. reflexivity.
Qed.

Lemma dt_code_mode mode : dt_code (FileType_from_mode mode) = dt_of_mode mode.
Proof.
  unfold FileType_from_mode. rewrite type_bits_part. unfold type_part.
  rewrite N.shiftr_div_pow2. change (2 ^ 12) with 4096. rewrite N.div_mul by lia.
  unfold dt_of_mode.
  pose proof (N.mod_lt (mode / 4096) 16 ltac:(lia)) as B.
  set (x := mode / 4096 mod 16) in *. clearbody x.
  assert (x = 0 \/ x = 1 \/ x = 2 \/ x = 3 \/ x = 4 \/ x = 5 \/ x = 6 \/ x = 7 \/ x = 8 \/ x = 9 \/
          x = 10 \/ x = 11 \/ x = 12 \/ x = 13 \/ x = 14 \/ x = 15) as D by lia.
  repeat destruct D as [-> | D]; [.. | subst x]; reflexivity.
Qed.

Lemma kept_all {A B} (l : list A) (m : list B) :
  length l = length m -> kept (map (fun _ => true) m) l = l.
Proof. revert m. induction l; intros [|b m]; cbn; intros; try discriminate; f_equal; auto. Qed.

Lemma fitting_forall {A} (P : A * N -> Prop) sz (l : list A) cap n :
  (forall i k, In i l -> n <= k < n + nlen l -> P (i, k)) -> Forall P (fitting sz cap (numbered n l)).
Proof.
  revert cap n. induction l as [|x l IH]; intros cap n H; cbn [numbered fitting]; [constructor|].
  destruct (sz (x, n) <=? cap); constructor.
  - apply H; [now left|]. rewrite nlen_cons. lia.
  - apply IH. intros i k Hi Hk. apply H; [now right|]. rewrite nlen_cons. lia.
Qed.

Lemma in_drop {A} (i : A) n l : In i (drop n l) -> In i l.
Proof. intros H. rewrite <- (take_drop n l). apply in_or_app. now right. Qed.

(** Every page holds as many of the following entries as fit into it, each
    with the offset of the next one. *)
Theorem C48_readdir_page addr items off size :
  addr mod 8 = 0 -> Forall static_item_ok items -> nlen items + 1 < U64 ->
  exists p,
    static_readdir addr (map static_entry items) (if off =? 0 then None else Some off) size = Ret p /\
    client_readdir p = Some (map static_seen
      (fitting (fun x => readdir_size (si_name (fst x))) (N.min size 65535)
         (numbered (off + 1) (drop off items)))) /\
    nlen p <= N.min size 65535.
Proof.
  intros Ha Hok Hn.
  destruct (static_page_eq Dirent_fuse_dirent static_dirent (fun x => make_entry (dir_of x))
    readdir_D readdir_bytes static_dirent_eq) with (addr := addr) (items := items) (off := off)
    (size := size) as (w & buf & Lb & H2 & H3); auto.
  { intros [i o]. unfold make_entry, dir_of. cbn [fst i_type i_node i_name i_off].
    now destruct (FileType_from_mode (item_mode i)). }
  cbv zeta in H2. change (isize Dirent_fuse_dirent) with (fun x : static_item * N => readdir_size (si_name (fst x))) in H2.
  set (fit := fitting _ _ _) in *.
  destruct (C23_readdir addr buf (map dir_of fit)) as (w' & p & P1 & P2 & P3 & P4 & P5 & P6); auto.
  { apply Forall_map. apply fitting_forall. intros i k Hi Hk.
    apply in_drop in Hi. rewrite Forall_forall in Hok. specialize (Hok _ Hi).
    destruct Hok as (Hnode & _ & Hname & _).
    unfold dir_item_ok, dir_of. cbn [i_node i_off i_name].
    assert (k <= nlen items).
    { rewrite nlen_drop in Hk. lia. }
    split; [exact Hnode|]. split; [lia|exact Hname]. }
  rewrite map_map in P1. rewrite H2 in P1. injection P1 as Oks <-.
  exists p. split; [apply H3; exact P2|]. rewrite <- Oks in P3.
  rewrite kept_all in P3 by (now rewrite map_length). rewrite Lb in P6.
  split; [|lia]. rewrite P3. f_equal. rewrite map_map. apply map_ext. intros [i o].
  unfold seen_item, static_seen, dir_of. cbn [i_node i_off i_name i_type]. now rewrite dt_code_mode.
Qed.

Theorem C48_readdirplus_page addr items off size :
  addr mod 8 = 0 -> Forall static_item_ok items -> nlen items + 1 < U64 ->
  exists p l,
    static_readdirplus addr (map static_entry items) (if off =? 0 then None else Some off) size = Ret p /\
    client_readdirplus p = Some l /\
    Forall2 static_plus
      (fitting (fun x => plus_size (si_name (fst x))) (N.min size 65535)
         (numbered (off + 1) (drop off items))) l /\
    nlen p <= N.min size 65535.
Proof.
  intros Ha Hok Hn.
  destruct (static_page_eq Dirent_fuse_direntplus static_direntplus (fun x => plus_made (plus_of x))
    plus_D plus_bytes static_direntplus_eq) with (addr := addr) (items := items) (off := off)
    (size := size) as (w & buf & Lb & H2 & H3); auto.
  { now intros [i o]. }
  cbv zeta in H2. change (isize Dirent_fuse_direntplus) with (fun x : static_item * N => plus_size (si_name (fst x))) in H2.
  set (fit := fitting _ _ _) in *.
  assert (Hp : Forall plus_item_ok (map plus_of fit)).
  { apply Forall_map. apply fitting_forall. intros i k Hi Hk.
    apply in_drop in Hi. rewrite Forall_forall in Hok. specialize (Hok _ Hi).
    destruct Hok as (Hnode & Hat & Hname & Hg & Ht1 & Ht2).
    unfold plus_item_ok, plus_of. cbn [p_node p_off p_name p_attr p_entry].
    assert (k <= nlen items).
    { rewrite nlen_drop in Hk. lia. }
    split; [exact Hnode|]. split; [lia|]. split; [exact Hname|]. split; [exact Hat|].
    constructor; [exact Hg|]. constructor; [exact Ht1|]. constructor; [exact Ht2|constructor]. }
  destruct (C24_readdirplus addr buf (map plus_of fit)) as (es & w' & p & l & P0 & P1 & P2 & P3 & P4 & P5 & P6 & P7); auto.
  assert (Ees : es = map (fun x => plus_made (plus_of x)) fit).
  { clear -P0 Hp. revert Hp P0. generalize fit. clear. intros l. revert es.
    induction l as [|x l IH]; intros es Hp F; inversion F as [|? e ? es' Fx Fr]; subst; [reflexivity|].
    inversion Hp as [|? ? Px Pr]; subst. cbn [map]. rewrite plus_made_eq in Fx by exact Px.
    injection Fx as <-. f_equal. now apply IH. }
  subst es. rewrite H2 in P1. injection P1 as Oks <-.
  exists p, l. split; [apply H3; exact P2|]. split; [exact P3|]. rewrite Lb in P7.
  split; [|lia].
  rewrite <- Oks in P4. rewrite kept_all in P4 by (now rewrite map_length).
  clear -P4. generalize dependent fit. clear. intros fit P4.
  remember (map plus_of fit) as m eqn:M. revert fit M.
  induction P4 as [|x v m l S F IH]; intros [|[i o] fit] M; try discriminate; constructor.
  - injection M as -> _. destruct S as [S1 S2]. split; [exact S1|].
    rewrite S2. cbn [plus_of p_node p_off p_name]. f_equal.
    destruct S1 as (_ & _ & _ & _ & S). unfold attr_reads in S.
    destruct S as (_ & _ & _ & _ & _ & _ & Sm & _).
    change (40 + 60) with 100 in Sm. rewrite Sm.
    cbn [plus_of p_attr p_entry entry_attr_ops flat_map]. rewrite app_nil_r.
    change (FileMode_type_bits (item_mode i) = item_mode i / 4096 mod 16 * 4096).
    rewrite type_bits_part. reflexivity.
  - apply IH. now injection M.
Qed.

(** A page as the client gets it, if the page is large enough for the next
    entry; every page is written to some 8-byte aligned buffer. *)
Definition readdir_page (items : list static_item) (off size : N) (l : list seen) : Prop :=
  (forall i, nth_error items (N.to_nat off) = Some i ->
     readdir_size (si_name i) <= N.min size 65535) /\
  exists addr p, addr mod 8 = 0 /\
    static_readdir addr (map static_entry items) (if off =? 0 then None else Some off) size = Ret p /\
    client_readdir p = Some l.
Definition readdirplus_page (items : list static_item) (off size : N) (l : list (bytes * seen)) : Prop :=
  (forall i, nth_error items (N.to_nat off) = Some i ->
     plus_size (si_name i) <= N.min size 65535) /\
  exists addr p, addr mod 8 = 0 /\
    static_readdirplus addr (map static_entry items) (if off =? 0 then None else Some off) size = Ret p /\
    client_readdirplus p = Some l.

(** Reading the directory from the beginning to an empty page gives every
    entry once and in order, whatever the page sizes; and it ends, after at
    most one page per entry and one empty page. *)
Theorem C48_readdir items sizes l :
  Forall static_item_ok items -> nlen items + 1 < U64 ->
  stream (readdir_page items) s_off 0 sizes l -> l = map static_seen (numbered 1 items).
Proof.
  intros Hok Hn S.
  apply (stream_sound _ _ (fun x a => a = static_seen x) (fun x => readdir_size (si_name (fst x))) items
    (fun off size => forall i, nth_error items (N.to_nat off) = Some i ->
       readdir_size (si_name i) <= N.min size 65535)) in S.
  - change (0 + 1) with 1 in S. rewrite drop_0 in S. clear -S. induction S; cbn; congruence.
  - intros [i o] a ->. reflexivity.
  - intros off size l' [F _]. exact F.
  - intros off size i n F H. now apply F.
  - intros off size l' [_ (addr & p & Ha & H1 & H2)].
    destruct (C48_readdir_page addr items off size Ha Hok Hn) as (p' & P1 & P2 & _).
    assert (p' = p) by congruence. subst p'. rewrite P2 in H2. injection H2 as <-.
    generalize (fitting (fun x : static_item * N => readdir_size (si_name (fst x))) (N.min size 65535)
      (numbered (off + 1) (drop off items))). clear. induction l; constructor; auto.
Qed.

Theorem C48_readdirplus items sizes l :
  Forall static_item_ok items -> nlen items + 1 < U64 ->
  stream (readdirplus_page items) (fun v => s_off (snd v)) 0 sizes l ->
  Forall2 static_plus (numbered 1 items) l.
Proof.
  intros Hok Hn S.
  apply (stream_sound _ _ static_plus (fun x => plus_size (si_name (fst x))) items
    (fun off size => forall i, nth_error items (N.to_nat off) = Some i ->
       plus_size (si_name i) <= N.min size 65535)) in S.
  - change (0 + 1) with 1 in S. now rewrite drop_0 in S.
  - intros [i o] a [_ ->]. reflexivity.
  - intros off size l' [F _]. exact F.
  - intros off size i n F H. now apply F.
  - intros off size l' [_ (addr & p & Ha & H1 & H2)].
    destruct (C48_readdirplus_page addr items off size Ha Hok Hn) as (p' & l2 & P1 & P2 & P3 & _).
    assert (p' = p) by congruence. subst p'. rewrite P2 in H2. injection H2 as <-. exact P3.
Qed.

Theorem C48_readdir_ends items (f : nat -> N) :
  Forall static_item_ok items -> nlen items + 1 < U64 ->
  (forall i k, In i items -> readdir_size (si_name i) <= N.min (f k) 65535) ->
  exists n l, stream (readdir_page items) s_off 0 (map f (seq 0 n)) l /\ (n <= length items + 1)%nat.
Proof.
  intros Hok Hn Hf.
  apply (stream_exists _ _ (fun x a => a = static_seen x) (fun x => readdir_size (si_name (fst x))) items
    (fun off size => forall i, nth_error items (N.to_nat off) = Some i ->
       readdir_size (si_name i) <= N.min size 65535)).
  - intros [i o] a ->. reflexivity.
  - intros off size l' [F _]. exact F.
  - intros off size i n F H. now apply F.
  - intros off size l' [_ (addr & p & Ha & H1 & H2)].
    destruct (C48_readdir_page addr items off size Ha Hok Hn) as (p' & P1 & P2 & _).
    assert (p' = p) by congruence. subst p'. rewrite P2 in H2. injection H2 as <-.
    generalize (fitting (fun x : static_item * N => readdir_size (si_name (fst x))) (N.min size 65535)
      (numbered (off + 1) (drop off items))). clear. induction l; constructor; auto.
  - intros off size F.
    destruct (C48_readdir_page 0 items off size eq_refl Hok Hn) as (p' & P1 & P2 & _).
    eexists. split; [exact F|]. exists 0, p'. repeat split; eauto.
  - intros off k _ i Hi. apply Hf. now apply nth_error_In in Hi.
  - intros off size Ho i Hi. exfalso.
    assert (nth_error items (N.to_nat off) <> None) as Hs by congruence.
    apply nth_error_Some in Hs. unfold nlen in Ho. lia.
  - rewrite drop_0. unfold nlen. lia.
Qed.

Theorem C48_readdirplus_ends items (f : nat -> N) :
  Forall static_item_ok items -> nlen items + 1 < U64 ->
  (forall i k, In i items -> plus_size (si_name i) <= N.min (f k) 65535) ->
  exists n l, stream (readdirplus_page items) (fun v => s_off (snd v)) 0 (map f (seq 0 n)) l /\
    (n <= length items + 1)%nat.
Proof.
  intros Hok Hn Hf.
  apply (stream_exists _ _ static_plus (fun x => plus_size (si_name (fst x))) items
    (fun off size => forall i, nth_error items (N.to_nat off) = Some i ->
       plus_size (si_name i) <= N.min size 65535)).
  - intros [i o] a [_ ->]. reflexivity.
  - intros off size l' [F _]. exact F.
  - intros off size i n F H. now apply F.
  - intros off size l' [_ (addr & p & Ha & H1 & H2)].
    destruct (C48_readdirplus_page addr items off size Ha Hok Hn) as (p' & l2 & P1 & P2 & P3 & _).
    assert (p' = p) by congruence. subst p'. rewrite P2 in H2. injection H2 as <-. exact P3.
  - intros off size F.
    destruct (C48_readdirplus_page 0 items off size eq_refl Hok Hn) as (p' & l2 & P1 & P2 & _).
    exists l2. split; [exact F|]. exists 0, p'. repeat split; eauto.
  - intros off k _ i Hi. apply Hf. now apply nth_error_In in Hi.
  - intros off size Ho i Hi. exfalso.
    assert (nth_error items (N.to_nat off) <> None) as Hs by congruence.
    apply nth_error_Some in Hs. unfold nlen in Ho. lia.
  - rewrite drop_0. unfold nlen. lia.
Qed.

(** ** C37: the timeouts of fuse-vfs *)

(** The fields fuse-vfs fills in for a timeout: the duration if its seconds
    fit in an i64, otherwise the longest the protocol can express. *)
Theorem C37_vfs d :
  duration_ok d ->
  let '(sec, nsec) := vfs_split_duration d (0, 0) in
  new_duration sec nsec = (if fst d <? 2 ^ 63 then d else (2 ^ 63 - 1, 0)) /\
  (sec, nsec) = capped d /\ sec < 2 ^ 63 /\ nsec < 1000000000.
Proof.
  intros Hd. pose proof (new_capped d Hd) as Nc. destruct Hd as [H1 H2].
  assert (Eq : vfs_split_duration d (0, 0) = capped d).
  { destruct d as [s n]. cbn [fst snd] in *. unfold vfs_split_duration, capped. cbn [fst snd].
    unfold i64_max, I64. unfold U64 in H1.
    destruct (N.eqb_spec s 0), (N.eqb_spec n 0); cbn [andb]; subst; try reflexivity;
      destruct (N.leb_spec s 9223372036854775807), (N.ltb_spec s 9223372036854775808); try lia;
      reflexivity. }
  rewrite Eq. rewrite (surjective_pairing (capped d)). rewrite Nc, <- surjective_pairing.
  assert (P63 : 2 ^ 63 = 9223372036854775808) by reflexivity. rewrite P63.
  unfold capped, I64. destruct (N.ltb_spec (fst d) 9223372036854775808); cbn [fst snd].
  - split; [reflexivity|]. split; [reflexivity|]. split; assumption.
  - split; [reflexivity|]. split; [reflexivity|]. split; reflexivity.
Qed.

(** An entry as [StaticDirectoryEntry::new] makes it is listed with its node
    and name; generation, timeouts and attributes read zero. *)
Theorem C48_fresh addr name node size :
  addr mod 8 = 0 -> 0 < node < U64 -> NodeName_from_bytes name = inl name ->
  plus_size name <= N.min size 65535 ->
  exists p v,
    static_readdirplus addr [StaticDirectoryEntry_new name node] None size = Ret p /\
    client_readdirplus p = Some [v] /\ entry_reads (fst v) node true [] [] /\
    snd v = {| s_ino := node; s_off := 1; s_type := 0; s_name := name |}.
Proof.
  intros Ha Hn Hname Hs.
  set (i := {| si_node := node; si_attr := []; si_name := name; si_generation := 0;
               si_entry_timeout := (0, 0); si_attr_timeout := (0, 0) |}).
  assert (Hi : Forall static_item_ok [i]).
  { constructor; [|constructor]. unfold static_item_ok. cbn [i si_node si_attr si_name si_generation si_entry_timeout si_attr_timeout].
    split; [exact Hn|]. split; [constructor|]. split; [exact Hname|]. split; [reflexivity|].
    split; split; reflexivity. }
  destruct (C48_readdirplus_page addr [i] 0 size Ha Hi) as (p & l & P1 & P2 & P3 & _).
  { reflexivity. }
  exists p. change (drop 0 [i]) with [i] in P3.
  cbn [numbered fitting fst i si_name] in P3. replace (plus_size name <=? N.min size 65535) with true in P3 by lia.
  inversion P3 as [|? v ? l' R F]; subst. inversion F; subst. exists v.
  split; [exact P1|]. split; [exact P2|]. destruct R as [R1 R2]. split; [exact R1|exact R2].
Qed.
End Proofs.

(** ** Refuted: a page smaller than the next entry ends the stream *)

Local Instance LE : Endian := false.

Definition small_dir : list static_item :=
  [{| si_node := 2; si_attr := [SetMode 16877; SetSize 3; SetMode 33188]; si_name := [x61];
      si_generation := 7; si_entry_timeout := (1, 5); si_attr_timeout := (0, 0) |};
   {| si_node := 3; si_attr := [SetMode 16877]; si_name := repeat x62 12;
      si_generation := 0; si_entry_timeout := (0, 0); si_attr_timeout := (18446744073709551615, 9) |};
   {| si_node := 4; si_attr := []; si_name := [x63; x64];
      si_generation := 0; si_entry_timeout := (0, 0); si_attr_timeout := (0, 1) |}].

(** A client asking for a page that cannot hold the next entry gets an empty
    page, which is how the end of a directory looks. *)
Theorem C48_small_page_refuted :
  exists items off size p, Forall static_item_ok items /\ off < nlen items /\ 24 <= size /\
    static_readdir 0 (map static_entry items) (Some off) size = Ret p /\
    client_readdir p = Some [].
Proof.
  exists small_dir, 1, 39, []. split; [|now vm_compute].
  repeat constructor.
Qed.

(** The buffer is a [Vec<u8>], whose address need not be a multiple of 8;
    writing the first entry is then undefined behaviour. *)
Theorem C48_unaligned_refuted :
  exists items size addr, Forall static_item_ok items /\
    static_readdir addr (map static_entry items) None size = Ub.
Proof.
  exists small_dir, 4096, 4. split; [|now vm_compute].
  repeat constructor.
Qed.

(** ** Examples *)

Example C48_readdir_page_example :
  Forall static_item_ok small_dir /\
  exists p, static_readdir 16 (map static_entry small_dir) None 75 = Ret p /\
    client_readdir p = Some
      [{| s_ino := 2; s_off := 1; s_type := 8; s_name := [x61] |};
       {| s_ino := 3; s_off := 2; s_type := 4; s_name := repeat x62 12 |}].
Proof.
  split; [repeat constructor|]. eexists. split; vm_compute; reflexivity.
Qed.

Example C48_readdirplus_page_example :
  exists p l, static_readdirplus 16 (map static_entry small_dir) (Some 1) 400 = Ret p /\
    client_readdirplus p = Some l /\ map snd l =
      [{| s_ino := 3; s_off := 2; s_type := 16384; s_name := repeat x62 12 |};
       {| s_ino := 4; s_off := 3; s_type := 0; s_name := [x63; x64] |}].
Proof. do 2 eexists. split; [vm_compute; reflexivity|]. split; vm_compute; reflexivity. Qed.

Example C48_fresh_example :
  plus_size [x61] <= N.min 160 65535 /\
  exists p v, static_readdirplus 16 [StaticDirectoryEntry_new [x61] 9] None 160 = Ret p /\
    client_readdirplus p = Some [v] /\ snd v = {| s_ino := 9; s_off := 1; s_type := 0; s_name := [x61] |}.
Proof.
  split; [vm_compute; discriminate|]. do 2 eexists.
  split; [vm_compute; reflexivity|]. split; vm_compute; reflexivity.
Qed.

(** Three pages of sizes 75, 40 and 1000. *)
Example C48_readdir_example :
  stream (readdir_page small_dir) s_off 0 [75; 40; 1000] (map static_seen (numbered 1 small_dir)).
Proof.
  assert (P : forall off size l,
    match nth_error small_dir (N.to_nat off) with
    | Some i => readdir_size (si_name i) <=? N.min size 65535 | None => true end = true ->
    (exists p, static_readdir 0 (map static_entry small_dir) (if off =? 0 then None else Some off) size
       = Ret p /\ client_readdir p = Some l) -> readdir_page small_dir off size l).
  { intros off size l F (p & H1 & H2). split.
    - intros i Hi. rewrite Hi in F. lia.
    - exists 0, p. repeat split; auto. }
  change (map static_seen (numbered 1 small_dir)) with
    (([{| s_ino := 2; s_off := 1; s_type := 8; s_name := [x61] |}] ++
      [{| s_ino := 3; s_off := 2; s_type := 4; s_name := repeat x62 12 |}] ++
     ([] ++ [{| s_ino := 4; s_off := 3; s_type := 0; s_name := [x63; x64] |}] ++ []))).
  apply stream_more.
  { apply P; [reflexivity|]. eexists. split; vm_compute; reflexivity. }
  apply stream_more.
  { apply P; [reflexivity|]. eexists. split; vm_compute; reflexivity. }
  apply stream_end. apply P; [reflexivity|]. eexists. split; vm_compute; reflexivity.
Qed.

Example C48_readdirplus_example :
  exists l, stream (readdirplus_page small_dir) (fun v => s_off (snd v)) 0 [65536; 0] l /\ length l = 3%nat.
Proof.
  assert (P : forall off size l,
    match nth_error small_dir (N.to_nat off) with
    | Some i => plus_size (si_name i) <=? N.min size 65535 | None => true end = true ->
    (exists p, static_readdirplus 0 (map static_entry small_dir) (if off =? 0 then None else Some off) size
       = Ret p /\ client_readdirplus p = Some l) -> readdirplus_page small_dir off size l).
  { intros off size l F (p & H1 & H2). split.
    - intros i Hi. rewrite Hi in F. lia.
    - exists 0, p. repeat split; auto. }
  assert (exists a b c, readdirplus_page small_dir 0 65536 ([a; b] ++ [c]) /\ s_off (snd c) = 3)
    as (a & b & c & H & O).
  { do 3 eexists. split.
    - apply P; [reflexivity|]. eexists. split; vm_compute; reflexivity.
    - reflexivity. }
  exists ([a; b] ++ [c] ++ []). split; [|reflexivity].
  apply stream_more; [exact H|]. rewrite O. apply stream_end.
  apply P; [reflexivity|]. eexists. split; vm_compute; reflexivity.
Qed.

(** Page sizes that grow and suffice for every entry. *)
Example C48_readdir_ends_example :
  forall i k, In i small_dir -> readdir_size (si_name i) <= N.min (40 + N.of_nat k) 65535.
Proof.
  intros i k [<-|[<-|[<-|[]]]]; unfold readdir_size, up8; cbn [si_name];
    change (nlen _) with 1 || change (nlen _) with 12 || change (nlen _) with 2; lia.
Qed.
Example C48_readdirplus_ends_example :
  forall i k, In i small_dir -> plus_size (si_name i) <= N.min (168 + N.of_nat k) 65535.
Proof.
  intros i k [<-|[<-|[<-|[]]]]; unfold plus_size, up8; cbn [si_name];
    change (nlen _) with 1 || change (nlen _) with 12 || change (nlen _) with 2; lia.
Qed.

Example C37_vfs_example :
  duration_ok (18446744073709551615, 999999999) /\ duration_ok (0, 3) /\
  vfs_split_duration (18446744073709551615, 999999999) (0, 0) = (9223372036854775807, 0) /\
  vfs_split_duration (0, 3) (0, 0) = (0, 3).
Proof. repeat split; reflexivity. Qed.

Print Assumptions C48_readdir_page.
Print Assumptions C48_readdirplus_page.
Print Assumptions C48_fresh.
Print Assumptions C48_readdir.
Print Assumptions C48_readdirplus.
Print Assumptions C48_readdir_ends.
Print Assumptions C48_readdirplus_ends.
Print Assumptions C48_small_page_refuted.
Print Assumptions C48_unaligned_refuted.
Print Assumptions C37_vfs.
