(** C70: a client that walks a tree of directories, files and links served
    through fuse-vfs sees exactly this tree. *)

From Verif Require Import Base Kernel CoreModel DecodeModel OpsModel WireSpec DecodeProofs OpsSafety
  OpsRoundTrip PropDecode ReplyModel ReplySpec ReplyProofs PropReply PropServer ServerModel ListingModel
  PropListing VfsModel VfsSpec VfsRun VfsProofs PropTables PropStatic PropVfs PropAnswers PropFootprint
  PropHeld PropValues.
From Coq Require Import List NArith ZArith Bool Lia ZifyBool ZifyNat ZifyN.
From Coq.Strings Require Import Byte.
Import ListNotations.
Open Scope N_scope.

(** ** Specification *)

(** *** The tree *)

(** A file, directory or symbolic link with its node id and the setter calls
    that make its attributes. *)
Inductive tree :=
| TFile (node : N) (attrs : list attr_op) (content : bytes)
| TDir (node : N) (attrs : list attr_op) (entries : list (bytes * tree))
| TLink (node : N) (attrs : list attr_op) (target : bytes).

Definition t_node (t : tree) : N :=
  match t with TFile n _ _ | TDir n _ _ | TLink n _ _ => n end.
Definition t_attrs (t : tree) : list attr_op :=
  match t with TFile _ a _ | TDir _ a _ | TLink _ a _ => a end.
(** Its file type in a mode: S_IFREG, S_IFDIR, S_IFLNK (the bits from 12 on). *)
Definition t_kind (t : tree) : N :=
  match t with TFile _ _ _ => 8 | TDir _ _ _ => 4 | TLink _ _ _ => 10 end.
Definition kind_of (mode : N) : N := mode / 4096 mod 16.
Definition mode_set (attrs : list attr_op) : N :=
  last_set (fun c => match c with SetMode v => Some v | _ => None end) attrs 0.

(** [sub t root]: [t] is [root] or somewhere in it. *)
Inductive sub (t : tree) : tree -> Prop :=
| sub_here : sub t t
| sub_below name c n a es : In (name, c) es -> sub t c -> sub t (TDir n a es).

Definition t_ok (t : tree) : Prop :=
  0 < t_node t < U64 /\ Forall attr_op_ok (t_attrs t) /\ kind_of (mode_set (t_attrs t)) = t_kind t /\
  match t with
  | TFile _ _ content => nlen content < 2 ^ 63
  | TDir _ _ es =>
    NoDup (map fst es) /\ nlen es < 2 ^ 63 /\
    Forall (fun x => NodeName_from_bytes (fst x) = inl (fst x) /\ nlen (fst x) <= 1024) es
  | TLink _ _ target => nlen target < 2 ^ 31
  end.
(** Node ids: the root has 1, and only the same thing has the same id (it may
    have several names). *)
Definition tree_ok (root : tree) : Prop :=
  t_node root = 1 /\ (forall t, sub t root -> t_ok t) /\
  (forall t1 t2, sub t1 root -> sub t2 root -> t_node t1 = t_node t2 -> t1 = t2).

(** The entry called [name]. *)
Fixpoint entry_named (name : bytes) (es : list (bytes * tree)) : option tree :=
  match es with
  | [] => None
  | (n, c) :: es => if list_eq_dec byte_eq_dec n name then Some c else entry_named name es
  end.

(** The number of files, directories and links in it. *)
Fixpoint tree_size (t : tree) : N :=
  match t with
  | TDir _ _ es => 1 + fold_right (fun x n => tree_size (snd x) + n) 0 es
  | _ => 1
  end.

(** *** A program serving it *)

Section Serve.
Context {E : Endian} (cf : config) (addr : Request -> N) (eio : Z).

Definition t_attr (t : tree) : fuse_attr := attr_calls (t_attrs t) (NodeAttr_new (t_node t)).
Definition is_file (t : tree) : bool := match t with TFile _ _ _ => true | _ => false end.
Definition is_dir (t : tree) : bool := match t with TDir _ _ _ => true | _ => false end.
Definition is_link (t : tree) : bool := match t with TLink _ _ _ => true | _ => false end.
Definition item_of (x : bytes * tree) : static_item :=
  {| si_node := t_node (snd x); si_attr := t_attrs (snd x); si_name := fst x; si_generation := 0;
     si_entry_timeout := (0, 0); si_attr_timeout := (0, 0) |}.

(** The traits of fuse-vfs (fuse-vfs/fuse-vfs.rs:85-443) for such trees:
    directories are listed by a [StaticDirectoryHandle] over a buffer at
    [addr], names are found or not, files are read by offset and size;
    everything else is as provided. *)
Definition tree_lookup (t : tree) (rq : Request) : LookupResult tree + Z :=
  match t, decode_view false cf RLookup rq with
  | TDir _ _ es, Ret (VLookup _ name) =>
    match entry_named name es with
    | Some c =>
      (* a [NodeId] is not zero *)
      if (0 <? t_node c) && (t_node c <? U64) then inl (LookupResult_found c (t_attr c)) else inr eio
    | None => inl LookupResult_not_found
    end
  | _, _ => inr eio
  end.
Definition tree_read (t : tree) (rq : Request) : bytes + Z :=
  match t, decode_view false cf RRead rq with
  | TFile _ _ content, Ret (VRead _ size offset _ _ _) => inl (take size (drop offset content))
  | _, _ => inr eio
  end.
Definition tree_readdir (t : tree) (rq : Request) : bytes + Z :=
  match t, decode_view false cf RReaddir rq with
  | TDir _ _ es, Ret (VReaddir _ size offset _ _) =>
    match static_readdir (addr rq) (map static_entry (map item_of es)) offset size with
    | Ret p => inl p
    | _ => inr eio
    end
  | _, _ => inr eio
  end.
Definition tree_readdirplus (t : tree) (rq : Request) : bytes + Z :=
  match t, decode_view false cf RReaddirplus rq with
  | TDir _ _ es, Ret (VReaddirplus _ size offset _ _) =>
    match static_readdirplus (addr rq) (map static_entry (map item_of es)) offset size with
    | Ret p => inl p
    | _ => inr eio
    end
  | _, _ => inr eio
  end.
Definition tree_user (os : OsErrors) : user unit tree tree tree := {|
  u_as_directory t w := (w, is_dir t);
  u_as_file t w := (w, is_file t);
  u_as_symlink t w := (w, is_link t);
  u_getattr t rq w := (w, inl (GetattrResult_new (t_attr t)));
  u_getxattr t rq := default_getxattr os;
  u_listxattr t rq := default_listxattr;
  u_statfs t rq := default_statfs;
  u_lookup t rq w := (w, tree_lookup t rq);
  u_opendir t rq w := (w, inl (OpenedResult_new t));
  u_open t rq w := (w, inl (OpenedResult_new t));
  u_readlink t rq w := (w, match t with TLink _ _ target => inl target | _ => inr eio end);
  u_as_readdir_handle t w := (w, true);
  u_as_readdirplus_handle t w := (w, true);
  u_readdir t rq w := (w, tree_readdir t rq);
  u_readdirplus t rq w := (w, tree_readdirplus t rq);
  u_releasedir t rq := default_release;
  u_as_read_handle t w := (w, true);
  u_as_write_handle t := default_as;
  u_read t rq w := (w, tree_read t rq);
  u_write t rq w := (w, inr eio);
  u_release t rq := default_release |}.
End Serve.

(** *** A client looking at it *)

Section Client.
Context {E : Endian} (cf : config) (addr : Request -> N) (eio : Z) (os : OsErrors).
Notation U := (tree_user cf addr eio os).
Notation server := (server unit tree tree tree).
Notation label := (label tree tree tree).

(** What nobody may do meanwhile: give up one of the nodes [held], or release
    the handle [keep]. *)
Definition undisturbed (held : list N) (keep : option N) (tr : list label) : Prop :=
  forall j e, In (Did j e) tr ->
  match e with
  | EvNodeForget items => Forall (fun item => ~ In (fst item) held) items
  | EvReleaseFile h _ _ | EvReleaseDir h _ _ => keep <> Some h
  | _ => True
  end.

(** The client sends a message with the operation [op] for the node [n], gets
    the reply [error], [payload], and the handler returns; [tr] is what
    happened from [s] to [s'], other requests included. *)
Definition exchange (held : list N) (keep : option N) (n : N) (op : client_op)
    (s : server) (tr : list label) (s' : server) (error : Z) (payload : bytes) : Prop :=
  steps U os cf s tr s' /\ genuine tr /\ undisturbed held keep tr /\
  exists hd rq i b,
    sendable false cf hd op /\ rh_nodeid hd = n /\ 40 + nlen (op_body cf op) < U32 /\
    Request_new (encode cf hd op) = Ret rq /\
    In (Arrived i rq) tr /\ In (Did i (EvSend b SendOk)) tr /\ reads_as b (rh_unique hd) error payload /\
    finished s' i.

(** The answer to a request about a node which is [t] in the tree. *)
Definition answers (t : tree) (op : client_op) (error : Z) (p : bytes) : Prop :=
  match op, t with
  | OGetattr _ _ _, _ =>
    error = 0%Z /\ u64_at 0 p = 0 /\ u32_at 8 p = 0 /\
    attr_reads p 16 (t_node t) (9 <=? cf_minor cf) (t_attrs t)
  | OLookup name, TDir _ _ es =>
    error = 0%Z /\
    match entry_named name es with
    | Some c => entry_reads p (t_node c) (9 <=? cf_minor cf) (t_attrs c) []
    | None => u64_at 0 p = 0
    end
  | OLookup _, _ => error = NOT_DIRECTORY os /\ p = []
  | OReadlink, TLink _ _ target => error = 0%Z /\ p = target
  | OReadlink, _ => error = NOT_SUPPORTED os /\ p = []
  | OOpen _ _, TFile _ _ _ => error = 0%Z /\ u64_at 0 p <> 0
  | OOpen _ _, _ => error = NOT_SUPPORTED os /\ p = []
  | OOpendir _ _, TDir _ _ _ => error = 0%Z /\ u64_at 0 p <> 0
  | OOpendir _ _, _ => error = NOT_DIRECTORY os /\ p = []
  | OGetxattr _ _ _, _ => error = XATTR_NOT_FOUND os /\ p = []
  | OListxattr _ _, _ => error = 0%Z /\ p = []
  | _, _ => True
  end.
(** The answer to a request about a handle which was opened for [t]. *)
Definition answers_open (t : tree) (op : client_op) (error : Z) (p : bytes) : Prop :=
  match op, t with
  | ORead _ offset size _ _ _ _, TFile _ _ content =>
    error = 0%Z /\ p = take size (drop offset content)
  | OReaddir _ offset size _ _ _ _, TDir _ _ es =>
    error = 0%Z /\
    client_readdir p = Some (map static_seen
      (fitting (fun x => readdir_size (si_name (fst x))) (N.min size 65535)
         (numbered (offset + 1) (drop offset (map item_of es)))))
  | OReaddirplus _ offset size _ _ _ _, TDir _ _ es =>
    error = 0%Z /\
    exists l, client_readdirplus p = Some l /\
      Forall2 static_plus
        (fitting (fun x => plus_size (si_name (fst x))) (N.min size 65535)
           (numbered (offset + 1) (drop offset (map item_of es)))) l
  | OWrite _ _ _ _ _ _ _, TFile _ _ _ => error = NOT_SUPPORTED os /\ p = []
  | _, _ => True
  end.

(** Reading the open directory [h] to the end, with pages of at least 4096
    bytes. *)
Inductive lists (held : list N) (n h : N) : N -> server -> list label -> server -> list seen -> Prop :=
| lists_end off size rf lo fl pad s tr s' p :
  4096 <= size -> exchange held (Some h) n (OReaddir h off size rf lo fl pad) s tr s' 0 p ->
  client_readdir p = Some [] -> lists held n h off s tr s' []
| lists_more off size rf lo fl pad s tr1 s1 p l x tr2 s2 rest :
  4096 <= size -> exchange held (Some h) n (OReaddir h off size rf lo fl pad) s tr1 s1 0 p ->
  client_readdir p = Some (l ++ [x]) -> lists held n h (s_off x) s1 tr2 s2 rest ->
  lists held n h off s (tr1 ++ tr2) s2 (l ++ [x] ++ rest).

(** Reading the open file [h] to the end, any number of bytes at a time. *)
Inductive reads (held : list N) (n h : N) : N -> server -> list label -> server -> bytes -> Prop :=
| reads_end off size rf lo fl pad s tr s' :
  0 < size -> exchange held (Some h) n (ORead h off size rf lo fl pad) s tr s' 0 [] ->
  reads held n h off s tr s' []
| reads_more off size rf lo fl pad s tr1 s1 p tr2 s2 rest :
  0 < size -> exchange held (Some h) n (ORead h off size rf lo fl pad) s tr1 s1 0 p -> p <> [] ->
  reads held n h (off + nlen p) s1 tr2 s2 rest ->
  reads held n h off s (tr1 ++ tr2) s2 (p ++ rest).

(** What the client gets to know: the reply to GETATTR and the rest. *)
Inductive picture :=
| PFile (attr : bytes) (content : bytes)
| PDir (attr : bytes) (entries : list (bytes * picture))
| PLink (attr : bytes) (target : bytes).

(** The client looks at the node [n]: its attributes, and according to the
    type in them its content, its target, or its entries one by one. *)
Inductive sees : list N -> N -> server -> list label -> server -> picture -> Prop :=
| sees_file held n s tr1 s1 tr2 s2 tr3 s3 tr4 s4 f1 f2 f3 a f4 f5 o data f6 f7 f8 :
  exchange held None n (OGetattr f1 f2 f3) s tr1 s1 0 a -> kind_of (u32_at 76 a) = 8 ->
  exchange held (Some (u64_at 0 o)) n (OOpen f4 f5) s1 tr2 s2 0 o ->
  reads held n (u64_at 0 o) 0 s2 tr3 s3 data ->
  exchange held None n (ORelease (u64_at 0 o) f6 f7 f8) s3 tr4 s4 0 [] ->
  sees held n s (tr1 ++ tr2 ++ tr3 ++ tr4) s4 (PFile a data)
| sees_link held n s tr1 s1 tr2 s2 f1 f2 f3 a target :
  exchange held None n (OGetattr f1 f2 f3) s tr1 s1 0 a -> kind_of (u32_at 76 a) = 10 ->
  exchange held None n OReadlink s1 tr2 s2 0 target ->
  sees held n s (tr1 ++ tr2) s2 (PLink a target)
| sees_dir held n s tr1 s1 tr2 s2 tr3 s3 tr4 s4 tr5 s5 f1 f2 f3 a f4 f5 o l f6 f7 f8 es :
  exchange held None n (OGetattr f1 f2 f3) s tr1 s1 0 a -> kind_of (u32_at 76 a) = 4 ->
  exchange held (Some (u64_at 0 o)) n (OOpendir f4 f5) s1 tr2 s2 0 o ->
  lists held n (u64_at 0 o) 0 s2 tr3 s3 l ->
  exchange held None n (OReleasedir (u64_at 0 o) f6 f7 f8) s3 tr4 s4 0 [] ->
  sees_entries held n s4 tr5 s5 (map s_name l) es ->
  sees held n s (tr1 ++ tr2 ++ tr3 ++ tr4 ++ tr5) s5 (PDir a es)
with sees_entries : list N -> N -> server -> list label -> server -> list bytes ->
    list (bytes * picture) -> Prop :=
| entries_nil held n s : sees_entries held n s [] s [] []
| entries_cons held n s name names tr1 s1 e tr2 s2 pic tr3 s3 es :
  exchange (u64_at 0 e :: held) None n (OLookup name) s tr1 s1 0 e -> u64_at 0 e <> 0 ->
  sees (u64_at 0 e :: held) (u64_at 0 e) s1 tr2 s2 pic ->
  sees_entries held n s2 tr3 s3 names es ->
  sees_entries held n s (tr1 ++ tr2 ++ tr3) s3 (name :: names) ((name, pic) :: es).

(** The picture shows the tree: the same names in the same order, the same
    contents and targets, and the attributes of each node. *)
Inductive shows : picture -> tree -> Prop :=
| shows_file a node attrs content :
  attr_reads a 16 node (9 <=? cf_minor cf) attrs ->
  shows (PFile a content) (TFile node attrs content)
| shows_link a node attrs target :
  attr_reads a 16 node (9 <=? cf_minor cf) attrs ->
  shows (PLink a target) (TLink node attrs target)
| shows_dir a node attrs pics es :
  attr_reads a 16 node (9 <=? cf_minor cf) attrs ->
  Forall2 (fun x y => fst x = fst y /\ shows (snd x) (snd y)) pics es ->
  shows (PDir a pics) (TDir node attrs es).
End Client.

(** ** Proofs *)

Lemma along_all {E : Endian} {W Node FH DH} (P : event Node FH DH -> Prop)
    (Q : list (event Node FH DH) -> event Node FH DH -> Prop) (p : prog W Node FH DH) :
  (forall past e, P e -> Q past e) -> all_do P p -> forall past, along Q past p.
Proof.
  intros K.
  induction p as [r| | |? ? k IH|? k IH|? ? ? IH|? ? IH|? k IH|? k IH|? ? k IH|? ? k IH|? ? ? k IH|? ? ? k IH|? k IH];
    intros Hd past; cbn [all_do along] in *; try exact I.
  - intros w. apply IH. apply Hd.
  - intros o. destruct (Hd o). split; [now apply K|now apply IH].
  - destruct Hd. split; [now apply K|now apply IH].
  - destruct Hd. split; [now apply K|now apply IH].
  - intros o. destruct (Hd o). split; [now apply K|now apply IH].
  - intros o. destruct (Hd o). split; [now apply K|now apply IH].
  - intros o. destruct (Hd o). split; [now apply K|now apply IH].
  - intros o. destruct (Hd o). split; [now apply K|now apply IH].
  - intros o r. destruct (Hd o r). split; [now apply K|now apply IH].
  - intros o r. destruct (Hd o r). split; [now apply K|now apply IH].
  - intros o. destruct (Hd o). split; [now apply K|now apply IH].
Qed.

Lemma steps_split {E : Endian} {W Node FH DH} (U : user W Node FH DH) os cf s tr s' :
  steps U os cf s tr s' -> forall a l b, tr = a ++ l :: b ->
  exists s1 s2, steps U os cf s a s1 /\ step U os cf s1 l s2 /\ steps U os cf s2 b s'.
Proof.
  intros H. induction H as [s|s tr s1 l s2 H IH St]; intros a m b El.
  - destruct a; discriminate.
  - destruct b as [|y b _] using rev_ind.
    + apply app_inj_tail in El as [-> ->]. exists s1, s2. split; [exact H|]. split; [exact St|constructor].
    + rewrite app_comm_cons, app_assoc in El. apply app_inj_tail in El as [El ->].
      destruct (IH a m b El) as (u1 & u2 & A & B & C). exists u1, u2. split; [exact A|]. split; [exact B|].
      eapply steps_snoc; eauto.
Qed.
Lemma steps_app {E : Endian} {W Node FH DH} (U : user W Node FH DH) os cf s tr1 s1 tr2 s2 :
  steps U os cf s tr1 s1 -> steps U os cf s1 tr2 s2 -> steps U os cf s (tr1 ++ tr2) s2.
Proof.
  intros A B. revert A. induction B as [s1|s1 tr u1 l u2 B IH St]; intros A.
  - now rewrite app_nil_r.
  - rewrite app_assoc. eapply steps_snoc; eauto.
Qed.

Lemma sub_trans a b c : sub a b -> sub b c -> sub a c.
Proof. intros H1 H2. induction H2; [exact H1|]. eapply sub_below; eauto. Qed.

Lemma entry_named_in name es c : entry_named name es = Some c -> In (name, c) es.
Proof.
  induction es as [|[n d] es IH]; [discriminate|]. cbn [entry_named].
  destruct (list_eq_dec byte_eq_dec n name) as [->|]; [intros [= ->]; now left|right; auto].
Qed.
Lemma entry_named_is name es c : NoDup (map fst es) -> In (name, c) es -> entry_named name es = Some c.
Proof.
  induction es as [|[n d] es IH]; [contradiction|]. cbn [map fst entry_named]. intros Nd [X|X].
  - injection X as -> ->. destruct (list_eq_dec byte_eq_dec name name); congruence.
  - inversion Nd as [|? ? A B]; subst. destruct (list_eq_dec byte_eq_dec n name) as [->|]; [|auto].
    exfalso. apply A. apply in_map_iff. now exists (name, c).
Qed.

Section Proofs.
Context {E : Endian} (cf : config) (addr : Request -> N) (eio : Z) (os : OsErrors).
Context (Heio : is_i32 eio) (TE : typed_errors os) (Hx : is_i32 (XATTR_NOT_FOUND os)).
Context (Haddr : forall rq, addr rq mod 8 = 0).
Context (root : tree) (Hroot : tree_ok root).
Notation U := (tree_user cf addr eio os).
Notation server := (server unit tree tree tree).
Notation label := (label tree tree tree).
Notation event := (event tree tree tree).
Notation steps := (steps U os cf).
Notation step := (step U os cf).

Lemma attr_ino t : fa_ino (t_attr t) = t_node t.
Proof.
  unfold t_attr. unfold attr_calls. change (t_node t) with (fa_ino (NodeAttr_new (t_node t))) at 2.
  generalize (NodeAttr_new (t_node t)). induction (t_attrs t) as [|o ops IH]; intros a; [reflexivity|].
  cbn [fold_left]. rewrite IH. destruct o; reflexivity.
Qed.

Lemma tree_typed : typed_user U.
Proof.
  constructor; intros; cbn; try exact I; try assumption.
  - unfold tree_lookup. destruct n; try exact Heio.
    destruct (decode_view _ _ _ _) as [[]| | |]; try exact Heio.
    destruct (entry_named _ _) as [c|]; [|exact I].
    destruct (N.ltb_spec 0 (t_node c)), (N.ltb_spec (t_node c) U64); cbn [andb]; try exact Heio.
    cbn [LookupResult_found lr_node]. rewrite attr_ino. lia.
  - destruct n; cbn; auto.
  - unfold tree_readdir. destruct d; try exact Heio. destruct (decode_view _ _ _ _) as [[]| | |]; try exact Heio.
    destruct (static_readdir _ _ _ _); try exact Heio. exact I.
  - unfold tree_readdirplus. destruct d; try exact Heio. destruct (decode_view _ _ _ _) as [[]| | |]; try exact Heio.
    destruct (static_readdirplus _ _ _ _); try exact Heio. exact I.
  - unfold tree_read. destruct f; try exact Heio. destruct (decode_view _ _ _ _) as [[]| | |]; try exact Heio.
    exact I.
Qed.

(** [t] is what the tree has under the node id [n]. *)
Definition true_node (n : N) (t : tree) : Prop := sub t root /\ t_node t = n.

Lemma true_unique n t1 t2 : true_node n t1 -> true_node n t2 -> t1 = t2.
Proof. intros [A B] [C D]. apply Hroot; auto. congruence. Qed.
Lemma true_ok n t : true_node n t -> t_ok t.
Proof. intros [A _]. now apply Hroot. Qed.
Lemma true_child n m a es name c : true_node n (TDir m a es) -> In (name, c) es -> true_node (t_node c) c.
Proof.
  intros [A _] X. split; [|reflexivity]. eapply sub_trans; [|exact A].
  eapply sub_below; [exact X|constructor].
Qed.

(** *** What is registered is true *)

Definition adds (past : list event) (e : event) : Prop :=
  match e with
  | EvNodeAdd m t => (forall n o, In (EvNodeGet n (Some o)) past -> true_node n o) -> true_node m t
  | _ => True
  end.

Lemma lookup_adds rq id v : along adds [] (lookup_body U os cf rq id v).
Proof.
  destruct v; try exact I. unfold lookup_body, with_node, with_trait, call. cbn [along app].
  assert (R : forall past a, along adds past (reply (W := unit) cf id a)).
  { intros past a. apply (along_all (fun e => match e with EvNodeAdd _ _ => False | _ => True end)).
    - intros past' []; cbn; tauto.
    - apply all_do_reply. auto. }
  intros [n|]; (split; [exact I|]); [|apply R]. cbn [along app]. intros w.
  destruct (snd (u_as_directory U n w)); [|apply R]. cbn [along app]. intros w1.
  cbn [u_lookup tree_user snd]. unfold tree_lookup. destruct n as [|m a es|]; try apply R.
  destruct (decode_view false cf RLookup rq) as [[]| | |]; try apply R.
  destruct (entry_named _ es) as [c|] eqn:En; [|apply R].
  destruct (N.ltb_spec 0 (t_node c)) as [Z|], (N.ltb_spec (t_node c) U64); cbn [andb]; try apply R.
  unfold lookup_rest. cbn [LookupResult_found lr_node lr_generation lr_entry_cache_timeout lr_attr_cache_timeout].
  unfold NodeAttr_node_id. rewrite attr_ino. unfold NodeId_new_unchecked.
  destruct (N.eqb_spec (t_node c) 0); [lia|]. cbn [attempt].
  unfold reply_then. destruct (answer_call _ _ _); [exact I|]. cbn [along]. intros ev. split; [exact I|].
  destruct ev; [|exact I]. cbn [along]. split; [|exact I]. intros K.
  eapply true_child; [|eapply entry_named_in; exact En]. apply (K parent_id). cbn. auto.
Qed.

Lemma dispatch_adds buf rq p : Request_new buf = Ret rq -> dispatch U os cf rq = Some p -> along adds [] p.
Proof.
  intros B Dp. destruct (vfs_type (u32_at 4 buf)) as [t|] eqn:T.
  2: { pose proof (dispatch_eq U os cf buf rq B) as X. rewrite T in X. congruence. }
  assert (Nl : t = RLookup \/ t <> RLookup) by (destruct t; (now left) || (right; discriminate)).
  destruct Nl as [->|Nl].
  - destruct (dispatch_view U os cf buf rq RLookup B T ltac:(discriminate)) as (p' & Dp' & X).
    rewrite Dp in Dp'. injection Dp' as ->. destruct X as [(e & _ & ->)|(v & _ & ->)]; [exact I|].
    apply lookup_adds.
  - assert (K : (exists view, decode_view false cf t rq = Ret view) \/ along adds [] p).
    { assert (Nf : t = RForget \/ t <> RForget) by (destruct t; (now left) || (right; discriminate)).
      destruct Nf as [->|Nf].
      - pose proof (dispatch_eq U os cf buf rq B) as X. rewrite T in X. rewrite Dp in X. injection X as ->.
        unfold do_forget. unfold decode_view. destruct (ForgetRequest_try_from cf rq); cbn; eauto.
      - destruct (dispatch_view U os cf buf rq t B T Nf) as (p' & Dp' & [(er & De & ->)|(v & Dv & _)]); [|eauto].
        right. rewrite Dp in Dp'. injection Dp' as ->. exact I. }
    destruct K as [[view V]|K]; [|exact K].
    apply (along_all (may_do t view)); [|eapply dispatch_does; eauto].
    intros past e M. destruct e; try exact I. cbn in M. contradiction.
Qed.

Lemma forget_keeps items (m : N -> option (tree * N)) n t c :
  NodeMap_forget items m n = Some (t, c) -> exists c', m n = Some (t, c').
Proof.
  revert m. unfold NodeMap_forget. induction items as [|it items IH]; intros m; cbn [fold_left]; [eauto|].
  intros X. apply IH in X as [c' X]. unfold forget_item in X.
  destruct (m (fst it)) as [[o k]|] eqn:M; [|eauto].
  destruct (k - 1 =? 0); unfold upd in X; destruct (N.eqb_spec n (fst it)) as [->|]; try discriminate; eauto.
  injection X as -> _. eauto.
Qed.
Lemma forget_others items (m : N -> option (tree * N)) n :
  Forall (fun it => fst it <> n) items -> NodeMap_forget items m n = m n.
Proof.
  revert m. unfold NodeMap_forget. induction items as [|it items IH]; intros m F; cbn [fold_left]; [reflexivity|].
  inversion F as [|? ? A B]; subst. rewrite IH by exact B. unfold forget_item.
  destruct (m (fst it)) as [[o k]|]; [|reflexivity].
  destruct (k - 1 =? 0); unfold upd; destruct (N.eqb_spec n (fst it)); congruence.
Qed.

Definition true_table (v : vfs tree tree tree) : Prop :=
  forall n t c, v_nodes v n = Some (t, c) -> true_node n t.

Lemma registered tr s :
  steps (start root tt) tr s -> genuine tr ->
  true_table (sv_vfs s) /\
  forall i e, In (Did i e) tr ->
    match e with
    | EvNodeGet n (Some t) | EvNodeAdd n t => true_node n t
    | _ => True
    end.
Proof.
  intros H. remember (start root tt) as s0 eqn:S0. induction H as [s|s tr s1 l s2 H IH St]; intros G.
  - subst s. split; [|contradiction]. intros n t c. cbn. unfold upd. change FUSE_ROOT_ID with 1.
    destruct (N.eqb_spec n 1) as [->|]; [|discriminate]. intros [= <- _].
    split; [constructor|apply Hroot].
  - subst s. assert (G' : genuine tr) by (intros i rq X; apply (G i rq); apply in_or_app; now left).
    destruct (IH eq_refl G') as [Tb Ev]. pose proof (step_nodes U os cf s1 l s2 St) as X.
    destruct l as [i e|i rq|].
    2: { split; [intros n t c; rewrite X; apply Tb|].
         intros j e Y. apply in_app_iff in Y as [Y|[Y|[]]]; [exact (Ev j e Y)|discriminate]. }
    2: { split; [intros n t c; rewrite X; apply Tb|].
         intros j e Y. apply in_app_iff in Y as [Y|[Y|[]]]; [exact (Ev j e Y)|discriminate]. }
    destruct X as [X1 X2].
    assert (New : match e with EvNodeGet n (Some t) | EvNodeAdd n t => true_node n t | _ => True end).
    { destruct e; try exact I.
      - destruct found as [t|]; [|exact I]. specialize (X2 node_id (Some t) eq_refl). unfold NodeMap_get in X2.
        destruct (v_nodes (sv_vfs s1) node_id) as [[t' c]|] eqn:V; [|discriminate]. injection X2 as ->. eauto.
      - assert (Sj : steps (start root tt) (tr ++ [Did i (EvNodeAdd node_id node)]) s2)
          by (eapply steps_snoc; eauto).
        destruct (did_arrived U os cf root tt _ s2 Sj) as [_ A].
        destruct (A i _ ltac:(apply in_or_app; right; now left)) as [rq R].
        destruct (G i rq R) as [buf B]. destruct (threads_inv U os cf root tt _ s2 Sj) as [_ In'].
        destruct (In' i rq R) as (p0 & p & _ & Dp & P).
        pose proof (dispatch_adds buf rq p0 B Dp) as Q.
        destruct (along_path U cf adds _ _ _ (fun _ => I) (fun _ => I) Q P) as [F _].
        rewrite of_thread_app in F. cbn [of_thread flat_map] in F. rewrite Nat.eqb_refl in F. cbn [app] in F.
        specialize (F (of_thread i tr) _ [] eq_refl). apply F.
        intros n o Y. apply did_in in Y. exact (Ev i _ Y). }
    split.
    + intros n t c V. destruct e; cbn [nodes_after] in X1; try (injection X1 as X1; rewrite <- X1 in V; eauto).
      * unfold NodeMap_add in X1. destruct (v_nodes (sv_vfs s1) node_id) as [[o k]|] eqn:V1.
        -- destruct (incr64 _ _); [|discriminate]. injection X1 as X1. rewrite <- X1 in V. unfold upd in V.
           destruct (N.eqb_spec n node_id) as [->|]; [|eauto]. injection V as -> _. eauto.
        -- injection X1 as X1. rewrite <- X1 in V. unfold upd in V.
           destruct (N.eqb_spec n node_id) as [->|]; [|eauto]. injection V as -> _. exact New.
      * apply forget_keeps in V as [c' V]. eauto.
    + intros j e' Y. apply in_app_iff in Y as [Y|[Y|[]]]; [exact (Ev j e' Y)|]. injection Y as <- <-. exact New.
Qed.

(** *** What a held node stands for *)

Definition holds (s : server) (n : N) (t : tree) : Prop := exists c, v_nodes (sv_vfs s) n = Some (t, c).

Lemma undisturbed_app held keep tr1 tr2 :
  undisturbed held keep (tr1 ++ tr2) <-> undisturbed held keep tr1 /\ undisturbed held keep tr2.
Proof.
  unfold undisturbed. split.
  - intros H. split; intros j e X; apply (H j e), in_or_app; auto.
  - intros [A B] j e X. apply in_app_iff in X as [X|X]; [exact (A j e X)|exact (B j e X)].
Qed.
Lemma genuine_app (tr1 tr2 : list label) : genuine (tr1 ++ tr2) <-> genuine tr1 /\ genuine tr2.
Proof.
  unfold genuine. split.
  - intros H. split; intros i rq X; apply (H i rq), in_or_app; auto.
  - intros [A B] i rq X. apply in_app_iff in X as [X|X]; [exact (A i rq X)|exact (B i rq X)].
Qed.

Lemma keeps_node held keep n t s tr s' :
  steps s tr s' -> undisturbed held keep tr -> In n held -> holds s n t -> holds s' n t.
Proof.
  intros H. induction H as [s|s tr s1 l s2 H IH St]; intros Un Hn Hs; [exact Hs|].
  apply undisturbed_app in Un as [Un Ul]. destruct (IH Un Hn Hs) as [c V].
  pose proof (step_nodes U os cf s1 l s2 St) as X. unfold holds.
  destruct l as [i e|i rq|]; try (rewrite X; eauto). destruct X as [X _].
  destruct e; cbn [nodes_after] in X; try (injection X as <-; eauto).
  - unfold NodeMap_add in X. destruct (v_nodes (sv_vfs s1) node_id) as [[o k]|] eqn:V1.
    + destruct (incr64 _ _); [|discriminate]. injection X as <-. unfold upd.
      destruct (N.eqb_spec n node_id) as [->|]; [|eauto]. rewrite V in V1. injection V1 as -> ->. eauto.
    + injection X as <-. unfold upd. destruct (N.eqb_spec n node_id) as [->|]; [congruence|eauto].
  - rewrite forget_others; [eauto|]. specialize (Ul i (EvNodeForget items) ltac:(now left)). cbn in Ul.
    eapply Forall_impl; [|exact Ul]. cbn. intros a A <-. contradiction.
Qed.

Lemma keeps_dir held h d tr0 tr :
  undisturbed held (Some h) tr -> live_dir tr0 h d -> live_dir (tr0 ++ tr) h d.
Proof.
  intros Un (b & i & a & -> & N). exists b, i, (a ++ tr). split; [now rewrite <- app_assoc, <- app_comm_cons|].
  intros (j & g & X). apply in_app_iff in X as [X|X]; [apply N; eauto|].
  specialize (Un _ _ X). cbn in Un. congruence.
Qed.
Lemma keeps_file held h f tr0 tr :
  undisturbed held (Some h) tr -> live_file tr0 h f -> live_file (tr0 ++ tr) h f.
Proof.
  intros Un (b & i & a & -> & N). exists b, i, (a ++ tr). split; [now rewrite <- app_assoc, <- app_comm_cons|].
  intros (j & g & X). apply in_app_iff in X as [X|X]; [apply N; eauto|].
  specialize (Un _ _ X). cbn in Un. congruence.
Qed.

(** *** The handler of an exchange *)

Lemma steps_length s tr s' : steps s tr s' -> (length (sv_threads s) <= length (sv_threads s'))%nat.
Proof.
  intros H. induction H as [s|s tr s1 l s2 H IH St]; [apply le_n|].
  inversion St as [i p ev e p' v v' w0 w' ts Hn He Es El Es2|rq p v w0 ts Hd Es El Es2|v w0 w' ts Es El Es2];
    subst; cbn [sv_threads] in *.
  - rewrite length_set. exact IH.
  - rewrite app_length. cbn. lia.
  - exact IH.
Qed.

(** Event [e] of thread [i] happened in [tr]. *)
Definition happened (s : server) (tr : list label) (i : nat) (e : event) : Prop :=
  exists a b s1 s2, tr = a ++ Did i e :: b /\ steps s a s1 /\ step s1 (Did i e) s2.

Lemma in_happened s tr s' i e : steps s tr s' -> In (Did i e) tr -> happened s tr i e.
Proof.
  intros H X. apply in_split in X as (a & b & ->).
  destruct (steps_split U os cf s _ s' H a _ b eq_refl) as (s1 & s2 & A & B & _).
  exists a, b, s1, s2. auto.
Qed.

Lemma encode_unique hd op : good_header hd -> u64_at 8 (encode cf hd op) = rh_unique hd.
Proof.
  intros [G _]. unfold encode, u64_at. apply fld_wire; [reflexivity|].
  rewrite Forall_forall in G. apply (G (8%nat, rh_unique hd)). cbn. auto.
Qed.

Lemma encode_opcode hd op : u32_at 4 (encode cf hd op) = op_code op.
Proof. unfold encode, u32_at. apply fld_wire; [reflexivity|]. exact (op_code_small op). Qed.

Lemma exchange_runs tr0 held keep n op s tr s' error payload :
  steps (start root tt) tr0 s -> genuine tr0 ->
  exchange cf addr eio os held keep n op s tr s' error payload ->
  vfs_type (op_code op) = Some (op_type op) -> op_type op <> RForget -> op_type op <> RCreate ->
  exists buf rq i b,
    Request_new buf = Ret rq /\ u32_at 4 buf = op_code op /\
    decode_view false cf (op_type op) rq = Ret (expected false cf n op) /\
    In (Arrived i rq) tr /\ finished s' i /\
    In (Did i (EvSend b SendOk)) tr /\ reads_as b (u64_at 8 buf) error payload /\
    (forall e, ~ In (Did i e) tr0) /\
    forall P : list event -> event -> Prop,
      (forall l, P l EvUser) -> (forall l, P l EvPanic) ->
      along P [] (vfs_body U os cf rq (u64_at 8 buf) (op_type op) (expected false cf n op)) ->
      forall e, In (Did i e) tr ->
      exists past, P past e /\ Forall (happened s tr i) past.
Proof.
  intros St0 G0 (St & G & Un & hd & rq & i & b & Sd & Hn & L & Nw & A & D & R & F) T Nf Nc.
  exists (encode cf hd op), rq, i, b.
  assert (Ny : op_type op <> RSymlink) by (intros X; destruct op; try discriminate X; discriminate T).
  destruct (deliver false cf hd op Sd ltac:(intros X; contradiction) Ny [] [] ltac:(now rewrite app_nil_r))
    as (rq' & Nw' & Dv).
  rewrite sent_encode, app_nil_r in Nw'. rewrite Nw in Nw'. injection Nw' as <-.
  rewrite Hn in Dv.
  assert (H4 : u32_at 4 (encode cf hd op) = op_code op) by (apply encode_opcode).
  assert (H8 : u64_at 8 (encode cf hd op) = rh_unique hd).
  { destruct Sd as (G1 & _). exact (encode_unique hd op G1). }
  assert (St' : steps (start root tt) (tr0 ++ tr) s') by (eapply steps_app; eauto).
  destruct (threads_inv U os cf root tt _ s' St') as [_ Inv].
  destruct (Inv i rq ltac:(apply in_or_app; now right)) as (p0 & p & Np & Dp & P0).
  rewrite <- H8 in R.
  split; [exact Nw|]. split; [exact H4|]. split; [exact Dv|]. split; [exact A|]. split; [exact F|].
  split; [exact D|]. split; [exact R|].
  assert (New : forall e', ~ In (Did i e') tr0).
  { intros e' Y. destruct (threads_inv U os cf root tt _ s St0) as [Lt _]. specialize (Lt _ _ Y).
    apply in_split in A as (a1 & a2 & ->).
    destruct (steps_split U os cf s _ s' St a1 _ a2 eq_refl) as (s1 & s2 & A1 & A2 & _).
    apply steps_length in A1. inversion A2; subst. cbn [sv_threads] in *. lia. }
  split; [exact New|].
  intros P Pu Pp Al e He.
  rewrite <- H4 in T. destruct (dispatch_view U os cf _ rq _ Nw T Nf) as (p' & Dp' & X).
  rewrite Dp in Dp'. injection Dp' as <-.
  destruct X as [(er & X & _)|(v & X & ->)]; [congruence|]. rewrite Dv in X. injection X as <-.
  destruct (along_path U cf P _ _ _ Pu Pp Al P0) as [Fp _].
  assert (Hl : In e (of_thread i (tr0 ++ tr))).
  { unfold of_thread. apply in_flat_map. exists (Did i e). split; [apply in_or_app; now right|].
    rewrite Nat.eqb_refl. now left. }
  apply in_split in Hl as (l1 & l2 & El). exists l1. split; [eapply Fp; exact El|].
  apply Forall_forall. intros e' Y.
  assert (Z : In (Did i e') (tr0 ++ tr)).
  { apply did_in. rewrite El. apply in_or_app. now left. }
  apply in_app_iff in Z as [Z|Z]; [destruct (New _ Z)|]. eapply in_happened; eauto.
Qed.

(** *** What the replies say *)

Section Says.
Context (G : event -> Prop) (id : N) (Hid : is_id id).

(** Replies satisfy [Q] if what the handler saw before satisfies [G]. *)
Definition says (Q : list event -> Z -> bytes -> Prop) (past : list event) (e : event) : Prop :=
  match e with
  | EvSend b _ => Forall G past -> forall error p, reads_as b id error p -> Q past error p
  | _ => True
  end.

Lemma says_then (Q : list event -> Z -> bytes -> Prop) a past k :
  (Forall G past -> exists e pl, replies (cf_minor cf) id a e pl /\ Q past e pl) ->
  (forall l r, along (says Q) l (k r)) ->
  along (says Q) past (reply_then (W := unit) cf id a k).
Proof.
  intros H K. unfold reply_then. destruct (answer_call (cf_minor cf) id a) as [er|b] eqn:C; [apply K|].
  cbn [along]. intros ev. split; [|destruct ev; apply K]. intros F er p R'.
  destruct (H F) as (e & pl & (b' & m & C' & R) & HQ). rewrite C in C'. injection C' as <-.
  destruct (reads_as_fun b id er p id e pl R' (ex_intro _ m R)) as (_ & -> & ->). exact HQ.
Qed.
Lemma says_reply (Q : list event -> Z -> bytes -> Prop) a past :
  (Forall G past -> exists e pl, replies (cf_minor cf) id a e pl /\ Q past e pl) ->
  along (says Q) past (reply (W := unit) cf id a).
Proof. intros H. apply says_then; [exact H|]. intros l r. exact I. Qed.
Lemma says_err (Q : list event -> Z -> bytes -> Prop) e past :
  (Forall G past -> is_i32 e /\ Q past e []) -> along (says Q) past (reply (W := unit) cf id (AErr e)).
Proof. intros H. apply says_reply. intros F. destruct (H F). exists e, []. split; [now apply C20_error_reply|auto]. Qed.
Lemma says_buf (Q : list event -> Z -> bytes -> Prop) data past :
  (Forall G past -> Q past 0%Z data) -> along (says Q) past (reply (W := unit) cf id (AOkBuf data)).
Proof.
  intros H. destruct (N.le_gt_cases (16 + nlen data) u32_max) as [L|L].
  - apply says_reply. intros F. exists 0%Z, data. split; [|auto].
    destruct (C18_payload (cf_minor cf) id data [] [] [] Hid) as (_ & _ & _ & _ & P & _). now apply P.
  - unfold reply, reply_then. cbn [answer_call].
    destruct (C19_too_big id data [] [] []) as (X & _). unfold refused_iff_too_big, total in X. cbn in X.
    unfold u32_max in L. destruct (N.ltb_spec 4294967295 (16 + nlen data)); [|lia]. rewrite X. exact I.
Qed.
End Says.

(** What the handler sees of the tables when [n] stands for [t]. *)
Definition at_node (n : N) (t : tree) (e : event) : Prop :=
  match e with
  | EvNodeGet m o => m = n -> o = Some t
  | EvOpenFile _ h | EvOpenDir _ h => 0 < h < U64
  | _ => True
  end.
(** or the handle [h] for [t] *)
Definition at_file (h : N) (t : tree) (e : event) : Prop :=
  match e with EvGetFile m o => m = h -> o = Some t | _ => True end.
Definition at_dir (h : N) (t : tree) (e : event) : Prop :=
  match e with EvGetDir m o => m = h -> o = Some t | _ => True end.

(** The answer, and the handle it gives out. *)
Definition answered (t : tree) (op : client_op) (past : list event) (error : Z) (p : bytes) : Prop :=
  answers cf os t op error p /\
  match op, t with
  | OOpen _ _, TFile _ _ _ => In (EvOpenFile t (u64_at 0 p)) past
  | OOpendir _ _, TDir _ _ _ => In (EvOpenDir t (u64_at 0 p)) past
  | _, _ => True
  end.

Lemma open_replies id h fl : is_id id -> h < U64 ->
  exists p, replies (cf_minor cf) id (AOk (ROpenOut {| oo_fh := h; oo_open_flags := fl |})) 0%Z p /\ u64_at 0 p = h.
Proof.
  intros Hid L.
  pose proof (ok_replies (cf_minor cf) id (ROpenOut {| oo_fh := h; oo_open_flags := fl |}) Hid
    ltac:(erewrite nlen_payload by reflexivity; unfold u32_max; lia)) as R.
  eexists. split; [exact R|]. cbn [payload]. unfold u64_at. rewrite <- (app_nil_r (fuse_open_out_bytes _)).
  apply fld_wire; [reflexivity|exact L].
Qed.

Ltac seen F := rewrite Forall_forall in F.

Lemma node_answers n t op buf rq id :
  Request_new buf = Ret rq -> is_id id -> t_ok t ->
  (forall name c, match t with TDir _ _ es => In (name, c) es | _ => False end -> t_ok c) ->
  decode_view false cf (op_type op) rq = Ret (expected false cf n op) ->
  match op with
  | OGetattr _ _ _ | OLookup _ | OReadlink | OOpen _ _ | OOpendir _ _ | OGetxattr _ _ _
  | OListxattr _ _ => True
  | _ => False
  end ->
  along (says (at_node n t) id (answered t op)) []
    (vfs_body U os cf rq id (op_type op) (expected false cf n op)).
Proof.
  intros B Hid Ok Kids Dv K. unfold answered.
  assert (None_ : forall l, along (says (at_node n t) id (answered t op)) ([] ++ EvNodeGet n None :: l)
                    (reply (W := unit) cf id (AErr (INVALID_ARGUMENT os)))).
  { intros l. apply says_err; [exact Hid|]. intros F. seen F. specialize (F (EvNodeGet n None) ltac:(cbn; auto)).
    cbn in F. now specialize (F eq_refl). }
  destruct op; try contradiction;
    cbn [op_type expected vfs_body getattr_body lookup_body readlink_body open_body opendir_body getxattr_body
         listxattr_body subject] in *; clear K;
    unfold with_node, with_trait, call; cbn [along]; intros [t'|]; (split; [exact I|]);
    try (apply (None_ [])).
  all: assert (Same : forall l, Forall (at_node n t) ([] ++ EvNodeGet n (Some t') :: l) -> t' = t)
    by (intros l F; seen F; specialize (F (EvNodeGet n (Some t')) ltac:(cbn; auto)); cbn in F;
        specialize (F eq_refl); congruence).
  - (* GETATTR *)
    cbn [along]. intros w. cbn [u_getattr tree_user snd]. apply says_reply. intros F.
    rewrite <- app_assoc in F. apply Same in F as ->. cbn [gar_attr gar_cache_timeout GetattrResult_new].
    destruct Ok as (O1 & O2 & _).
    destruct (C22_attr_reply (cf_minor cf) id (t_node t) (t_attrs t) 0 0 Hid O1 O2 ltac:(reflexivity) ltac:(reflexivity))
      as (p & R & A & Bb & C).
    exists 0%Z, p. split; [exact R|]. split; [|exact I]. cbn [answers]. auto.
  - (* GETXATTR *)
    cbn [along]. intros w. cbn [u_getxattr tree_user snd default_getxattr]. apply says_err; [exact Hid|]. intros F.
    split; [exact Hx|]. split; [|exact I]. cbn. auto.
  - (* LISTXATTR *)
    cbn [along]. intros w. cbn [u_listxattr tree_user snd default_listxattr]. apply says_buf; [exact Hid|].
    intros F. split; [|exact I]. cbn. auto.
  - (* LOOKUP *)
    cbn [along]. intros w. cbn [u_as_directory tree_user snd]. destruct (is_dir t') eqn:D.
    2: { apply says_err; [exact Hid|]. intros F. rewrite <- app_assoc in F. apply Same in F as ->.
         split; [apply TE|]. split; [|exact I]. destruct t; try discriminate; cbn; auto. }
    cbn [along]. intros w1. cbn [u_lookup tree_user snd]. unfold tree_lookup.
    destruct t' as [|m a es|]; try discriminate. rewrite Dv.
    destruct (entry_named name es) as [c|] eqn:En.
    + assert (Okc : forall l, Forall (at_node n t) ([] ++ EvNodeGet n (Some (TDir m a es)) :: l) -> t_ok c).
      { intros l F. apply Same in F. apply (Kids name). rewrite <- F. now apply entry_named_in. }
      destruct (N.ltb_spec 0 (t_node c)) as [Z|], (N.ltb_spec (t_node c) U64); cbn [andb].
      2,3,4: (apply says_err; [exact Hid|]); intros F; rewrite <- !app_assoc in F; destruct (Okc _ F); lia.
      unfold lookup_rest. cbn [LookupResult_found lr_node lr_generation lr_entry_cache_timeout lr_attr_cache_timeout].
      unfold NodeAttr_node_id. rewrite attr_ino. unfold NodeId_new_unchecked.
      destruct (N.eqb_spec (t_node c) 0); [lia|]. cbn [attempt].
      apply says_then.
      * intros F. rewrite <- !app_assoc in F. destruct (Okc _ F) as (O1 & O2 & _). apply Same in F as <-.
        destruct (C22_entry_reply (cf_minor cf) id (t_node c) (t_attrs c) [] Hid O1 O2 ltac:(constructor))
          as (p & R & A).
        exists 0%Z, p. split.
        -- fold (t_attr c) in R. cbn [entry_calls fold_left] in R. unfold Entry_new in R.
           rewrite attr_ino in R. exact R.
        -- split; [|exact I]. cbn [answers]. rewrite En. auto.
      * intros l [r|r]; cbn [along]; auto. split; exact I.
    + unfold lookup_rest. cbn [LookupResult_not_found lr_node lr_entry_cache_timeout].
      apply says_reply. intros F. rewrite <- !app_assoc in F. apply Same in F as <-.
      eexists 0%Z, _. split.
      * apply ok_replies; [exact Hid|]. erewrite nlen_payload by reflexivity. unfold u32_max.
        destruct (cf_minor cf <? 9); lia.
      * split; [|exact I]. cbn [answers]. rewrite En. split; [reflexivity|]. cbn [payload].
        unfold u64_at, fuse_entry_out_bytes. rewrite fld_take by (destruct (cf_minor cf <? 9); cbn; lia).
        rewrite <- app_nil_r at 1. now apply fld_wire.
  - (* OPEN *)
    cbn [along]. intros w. cbn [u_as_file tree_user snd]. destruct (is_file t') eqn:D.
    2: { apply says_err; [exact Hid|]. intros F. rewrite <- app_assoc in F. apply Same in F as ->.
         split; [apply TE|]. split; [|destruct t; try discriminate; exact I]. destruct t; try discriminate; cbn; auto. }
    cbn [along]. intros w1. cbn [u_open tree_user snd along]. intros h. split; [exact I|].
    cbn [or_handle or_open_flags OpenedResult_new].
    apply says_reply. intros F.
    assert (Lh : 0 < h < U64).
    { seen F. apply (F (EvOpenFile t' h)). apply in_or_app. right. now left. }
    assert (Same' : t' = t) by (rewrite <- !app_assoc in F; exact (Same _ F)).
    destruct (open_replies id h 0 Hid ltac:(lia)) as (p & R & A).
    exists 0%Z, p. split; [exact R|]. subst t'. destruct t; try discriminate. unfold answers. rewrite A.
    split; [split; [reflexivity|lia]|]. apply in_or_app. right. now left.
  - (* OPENDIR *)
    cbn [along]. intros w. cbn [u_as_directory tree_user snd]. destruct (is_dir t') eqn:D.
    2: { apply says_err; [exact Hid|]. intros F. rewrite <- app_assoc in F. apply Same in F as ->.
         split; [apply TE|]. split; [|destruct t; try discriminate; exact I]. destruct t; try discriminate; cbn; auto. }
    cbn [along]. intros w1. cbn [u_opendir tree_user snd along]. intros h. split; [exact I|].
    cbn [or_handle or_open_flags OpenedResult_new].
    apply says_reply. intros F.
    assert (Lh : 0 < h < U64).
    { seen F. apply (F (EvOpenDir t' h)). apply in_or_app. right. now left. }
    assert (Same' : t' = t) by (rewrite <- !app_assoc in F; exact (Same _ F)).
    destruct (open_replies id h 0 Hid ltac:(lia)) as (p & R & A).
    exists 0%Z, p. split; [exact R|]. subst t'. destruct t; try discriminate. unfold answers. rewrite A.
    split; [split; [reflexivity|lia]|]. apply in_or_app. right. now left.
  - (* READLINK *)
    cbn [along]. intros w. cbn [u_as_symlink tree_user snd]. destruct (is_link t') eqn:D.
    2: { apply says_err; [exact Hid|]. intros F. rewrite <- app_assoc in F. apply Same in F as ->.
         split; [apply TE|]. split; [|exact I]. destruct t; try discriminate; cbn; auto. }
    cbn [along]. intros w1. cbn [u_readlink tree_user snd]. destruct t' as [| |m a target]; try discriminate.
    apply says_buf; [exact Hid|]. intros F. rewrite <- !app_assoc in F. apply Same in F as <-.
    split; [|exact I]. cbn. auto.
Qed.

Lemma items_ok n m a es :
  true_node n (TDir m a es) -> Forall static_item_ok (map item_of es) /\ nlen (map item_of es) + 1 < U64.
Proof.
  intros T. destruct (true_ok _ _ T) as (_ & _ & _ & _ & L & F). split.
  - apply Forall_forall. intros x X. apply in_map_iff in X as ((name, c) & <- & X).
    rewrite Forall_forall in F. destruct (F _ X) as [F1 F2]. cbn [fst] in *.
    destruct (true_ok _ _ (true_child _ _ _ _ _ _ T X)) as (O1 & O2 & _).
    unfold static_item_ok, item_of. cbn. repeat split; try apply O1; try assumption; try reflexivity; cbn; lia.
  - unfold nlen in *. rewrite map_length. unfold U64. change (2 ^ 63) with 9223372036854775808 in L. lia.
Qed.

Lemma nonzero_off off : nonzero off = (if off =? 0 then None else Some off).
Proof. reflexivity. Qed.

Definition at_handle (op : client_op) (h : N) (t : tree) (e : event) : Prop :=
  match op with
  | ORead _ _ _ _ _ _ _ | OWrite _ _ _ _ _ _ _ => at_file h t e
  | _ => at_dir h t e
  end.

Lemma handle_answers h n t op buf rq id :
  Request_new buf = Ret rq -> is_id id -> (exists n', true_node n' t) ->
  decode_view false cf (op_type op) rq = Ret (expected false cf n op) ->
  match op with
  | ORead h' _ _ _ _ _ _ | OWrite h' _ _ _ _ _ _ | OReaddir h' _ _ _ _ _ _ | OReaddirplus h' _ _ _ _ _ _ => h' = h
  | _ => False
  end ->
  along (says (at_handle op h t) id (fun _ => answers_open os t op)) []
    (vfs_body U os cf rq id (op_type op) (expected false cf n op)).
Proof.
  intros B Hid [n' T] Dv K.
  destruct op; try contradiction; subst h; rename fh into h;
    cbn [op_type expected vfs_body read_body write_body readdir_body readdirplus_body subject] in *;
    unfold with_file, with_dir, with_trait, call; cbn [along]; intros [t'|]; (split; [exact I|]).
  2,4,6,8: (apply says_err; [exact Hid|]); intros F; seen F;
    try (pose proof (F (EvGetFile h None) ltac:(cbn; auto)) as F1; now specialize (F1 eq_refl));
    pose proof (F (EvGetDir h None) ltac:(cbn; auto)) as F2; now specialize (F2 eq_refl).
  - (* READ *)
    assert (Same : forall l, Forall (at_file h t) ([] ++ EvGetFile h (Some t') :: l) -> t' = t)
      by (intros l F; seen F; pose proof (F (EvGetFile h (Some t')) ltac:(cbn; auto)) as F1; cbn in F1;
          specialize (F1 eq_refl); congruence).
    cbn [along]. intros w. cbn [u_as_read_handle tree_user snd along]. intros w1. cbn [u_read tree_user snd].
    unfold tree_read. destruct t' as [m a content| |].
    2,3: (apply says_err; [exact Hid|]); intros F; rewrite <- !app_assoc in F; apply Same in F as <-;
      (split; [exact Heio|exact I]).
    rewrite Dv. apply says_buf; [exact Hid|]. intros F. rewrite <- !app_assoc in F. apply Same in F as <-. cbn. auto.
  - (* READDIR *)
    assert (Same : forall l, Forall (at_dir h t) ([] ++ EvGetDir h (Some t') :: l) -> t' = t)
      by (intros l F; seen F; pose proof (F (EvGetDir h (Some t')) ltac:(cbn; auto)) as F1; cbn in F1;
          specialize (F1 eq_refl); congruence).
    cbn [along]. intros w. cbn [u_as_readdir_handle tree_user snd along]. intros w1. cbn [u_readdir tree_user snd].
    unfold tree_readdir. destruct t' as [|m a es|].
    1,3: (apply says_err; [exact Hid|]); intros F; rewrite <- !app_assoc in F; apply Same in F as <-;
      (split; [exact Heio|exact I]).
    rewrite Dv. rewrite nonzero_off.
    destruct (static_readdir (addr rq) (map static_entry (map item_of es)) (if offset =? 0 then None else Some offset) size)
      as [p| | |] eqn:Sr.
    2,3,4: (apply says_err; [exact Hid|]); intros F; rewrite <- !app_assoc in F; apply Same in F as <-;
      (split; [exact Heio|]); exfalso; destruct (items_ok _ _ _ _ T) as [I1 I2];
      destruct (C48_readdir_page (addr rq) _ offset size (Haddr rq) I1 I2) as (p & P1 & _); congruence.
    apply says_buf; [exact Hid|]. intros F. rewrite <- !app_assoc in F. apply Same in F as <-.
    destruct (items_ok _ _ _ _ T) as [I1 I2].
    destruct (C48_readdir_page (addr rq) _ offset size (Haddr rq) I1 I2) as (p' & P1 & P2 & _).
    rewrite Sr in P1. injection P1 as <-. cbn [answers_open]. auto.
  - (* READDIRPLUS *)
    assert (Same : forall l, Forall (at_dir h t) ([] ++ EvGetDir h (Some t') :: l) -> t' = t)
      by (intros l F; seen F; pose proof (F (EvGetDir h (Some t')) ltac:(cbn; auto)) as F1; cbn in F1;
          specialize (F1 eq_refl); congruence).
    cbn [along]. intros w. cbn [u_as_readdirplus_handle tree_user snd along]. intros w1. cbn [u_readdirplus tree_user snd].
    unfold tree_readdirplus. destruct t' as [|m a es|].
    1,3: (apply says_err; [exact Hid|]); intros F; rewrite <- !app_assoc in F; apply Same in F as <-;
      (split; [exact Heio|exact I]).
    rewrite Dv. rewrite nonzero_off.
    destruct (static_readdirplus (addr rq) (map static_entry (map item_of es)) (if offset =? 0 then None else Some offset) size)
      as [p| | |] eqn:Sr.
    2,3,4: (apply says_err; [exact Hid|]); intros F; rewrite <- !app_assoc in F; apply Same in F as <-;
      (split; [exact Heio|]); exfalso; destruct (items_ok _ _ _ _ T) as [I1 I2];
      destruct (C48_readdirplus_page (addr rq) _ offset size (Haddr rq) I1 I2) as (p & l & P1 & _); congruence.
    apply says_buf; [exact Hid|]. intros F. rewrite <- !app_assoc in F. apply Same in F as <-.
    destruct (items_ok _ _ _ _ T) as [I1 I2].
    destruct (C48_readdirplus_page (addr rq) _ offset size (Haddr rq) I1 I2) as (p' & l & P1 & P2 & P3 & _).
    rewrite Sr in P1. injection P1 as <-. cbn [answers_open]. eauto.
  - (* WRITE *)
    assert (Same : forall l, Forall (at_file h t) ([] ++ EvGetFile h (Some t') :: l) -> t' = t)
      by (intros l F; seen F; pose proof (F (EvGetFile h (Some t')) ltac:(cbn; auto)) as F1; cbn in F1;
          specialize (F1 eq_refl); congruence).
    cbn [along]. intros w. cbn [u_as_write_handle tree_user snd default_as]. apply says_err; [exact Hid|].
    intros F. rewrite <- !app_assoc in F. apply Same in F as <-. split; [apply TE|]. destruct t'; cbn; auto.
Qed.

(** *** One exchange *)

Section Exchange.
Context (tr0 : list label) (s : server) (St0 : steps (start root tt) tr0 s) (G0 : genuine tr0).

Lemma holds_resolvable n t :
  nlen tr0 < U64 -> resolvable n tr0 -> true_node n t -> holds s n t.
Proof.
  intros L R T. pose proof (nodes_inv U os cf root tt tr0 s n St0 ltac:(pose proof (lookups_le n tr0); lia)) as X.
  unfold table_inv in X. destruct (v_nodes (sv_vfs s) n) as [[t' c]|] eqn:V; [|contradiction].
  destruct (registered tr0 s St0 G0) as [Tb _]. specialize (Tb _ _ _ V).
  exists c. rewrite (true_unique _ _ _ T Tb). exact V.
Qed.

Context (tr : list label) (s' : server) (L : nlen (tr0 ++ tr) < U64).

Lemma nlen_prefix (a b : list label) : tr = a ++ b -> nlen (tr0 ++ a) < U64.
Proof. intros ->. rewrite app_assoc in L. rewrite nlen_app in L. lia. Qed.

Lemma at_node_happened held keep n t i e :
  undisturbed held keep tr -> In n held -> holds s n t -> happened s tr i e -> at_node n t e.
Proof.
  intros Un Hn Hs (a & b & s1 & s2 & Etr & A & B).
  assert (Hops : forall h, In h (handles (tr0 ++ a ++ [Did i e])) -> 0 < h < U64).
  { assert (St2 : steps (start root tt) (tr0 ++ a ++ [Did i e]) s2).
    { rewrite app_assoc. eapply steps_snoc; [|exact B]. eapply steps_app; eauto. }
    destruct (C46_unique U os cf root tt _ _ St2) as [_ F].
    { pose proof (handles_le (tr0 ++ a ++ [Did i e])) as X.
      pose proof (nlen_prefix (a ++ [Did i e]) b ltac:(now rewrite <- app_assoc)). lia. }
    now apply Forall_forall. }
  assert (Hh : forall h, handles [Did i e] = [h] -> 0 < h < U64).
  { intros h X. apply Hops. unfold handles in *. rewrite !flat_map_app, X. apply in_or_app. right.
    apply in_or_app. right. now left. }
  destruct e; cbn [at_node]; auto.
  intros ->. rewrite Etr in Un. apply undisturbed_app in Un as [Un _].
  destruct (keeps_node held keep n t s a s1 A Un Hn Hs) as [c V].
  apply step_nodes in B as [_ B]. rewrite (B _ _ eq_refl). unfold NodeMap_get. now rewrite V.
Qed.

Lemma at_file_happened held h f i e :
  undisturbed held (Some h) tr -> live_file tr0 h f -> happened s tr i e -> at_file h f e.
Proof.
  intros Un Lf (a & b & s1 & s2 & Etr & A & B). destruct e; cbn [at_file]; auto. intros ->.
  rewrite Etr in Un. apply undisturbed_app in Un as [Un _].
  pose proof (C46_live U os cf root tt (tr0 ++ a) s1 i s2 _ (steps_app _ _ _ _ _ _ _ _ St0 A)
    ltac:(pose proof (handles_le (tr0 ++ a)); pose proof (nlen_prefix a _ Etr); lia) B) as X.
  cbn in X. apply X. eapply keeps_file; eauto.
Qed.
Lemma at_dir_happened held h d i e :
  undisturbed held (Some h) tr -> live_dir tr0 h d -> happened s tr i e -> at_dir h d e.
Proof.
  intros Un Ld (a & b & s1 & s2 & Etr & A & B). destruct e; cbn [at_dir]; auto. intros ->.
  rewrite Etr in Un. apply undisturbed_app in Un as [Un _].
  pose proof (C46_live U os cf root tt (tr0 ++ a) s1 i s2 _ (steps_app _ _ _ _ _ _ _ _ St0 A)
    ltac:(pose proof (handles_le (tr0 ++ a)); pose proof (nlen_prefix a _ Etr); lia) B) as X.
  cbn in X. apply X. eapply keeps_dir; eauto.
Qed.
End Exchange.

Definition node_op (op : client_op) : Prop :=
  match op with
  | OGetattr _ _ _ | OLookup _ | OReadlink | OOpen _ _ | OOpendir _ _ | OGetxattr _ _ _
  | OListxattr _ _ => True
  | _ => False
  end.
Definition handle_op (op : client_op) (h : N) : Prop :=
  match op with
  | ORead h' _ _ _ _ _ _ | OWrite h' _ _ _ _ _ _ | OReaddir h' _ _ _ _ _ _ | OReaddirplus h' _ _ _ _ _ _ => h' = h
  | _ => False
  end.

Lemma added_holds tr0 s tr s' i m node held keep :
  steps (start root tt) tr0 s -> genuine tr0 -> steps s tr s' -> genuine tr -> undisturbed held keep tr ->
  In m held -> In (Did i (EvNodeAdd m node)) tr -> exists t, true_node m t /\ holds s' m t.
Proof.
  intros St0 G0 St G Un Hm X. apply in_split in X as (a & b & ->).
  destruct (steps_split U os cf s _ s' St a _ b eq_refl) as (s1 & s2 & A & B & C).
  assert (St2 : steps (start root tt) ((tr0 ++ a) ++ [Did i (EvNodeAdd m node)]) s2)
    by (eapply steps_snoc; [|exact B]; eapply steps_app; eauto).
  apply genuine_app in G as [Ga Gb].
  assert (G2 : genuine ((tr0 ++ a) ++ [Did i (EvNodeAdd m node)])).
  { apply genuine_app. split; [apply genuine_app; auto|]. intros j rq [Y|[]]. discriminate. }
  destruct (registered _ _ St2 G2) as [Tb _].
  apply step_nodes in B as [B _]. cbn [nodes_after] in B. unfold NodeMap_add in B.
  assert (V : exists t, holds s2 m t).
  { unfold holds. destruct (v_nodes (sv_vfs s1) m) as [[o k]|].
    - destruct (incr64 _ _); [|discriminate]. injection B as B. rewrite <- B. unfold upd. rewrite N.eqb_refl. eauto.
    - injection B as B. rewrite <- B. unfold upd. rewrite N.eqb_refl. eauto. }
  destruct V as [t [c V]]. exists t. split; [exact (Tb _ _ _ V)|].
  apply undisturbed_app in Un as [_ Un].
  change (Did i (EvNodeAdd m node) :: b) with ([Did i (EvNodeAdd m node)] ++ b) in Un.
  apply undisturbed_app in Un as [_ Un]. eapply keeps_node; eauto. now exists c.
Qed.

Lemma ask_node tr0 s tr s' held keep n t op error p :
  steps (start root tt) tr0 s -> genuine tr0 -> nlen (tr0 ++ tr) < U64 ->
  true_node n t -> holds s n t -> In n held ->
  exchange cf addr eio os held keep n op s tr s' error p -> node_op op ->
  answers cf os t op error p /\
  match op, t with
  | OOpen _ _, TFile _ _ _ => keep = Some (u64_at 0 p) -> live_file (tr0 ++ tr) (u64_at 0 p) t
  | OOpendir _ _, TDir _ _ _ => keep = Some (u64_at 0 p) -> live_dir (tr0 ++ tr) (u64_at 0 p) t
  | OLookup name, TDir _ _ es =>
    forall c, entry_named name es = Some c -> In (t_node c) held -> holds s' (t_node c) c
  | _, _ => True
  end.
Proof.
  intros St0 G0 L T Hs Hn Ex Op.
  assert (Ty : vfs_type (op_code op) = Some (op_type op) /\ op_type op <> RForget /\ op_type op <> RCreate)
    by (destruct op; try contradiction; (split; [reflexivity|split; discriminate])).
  destruct Ty as (Ty & Nf & Nc).
  destruct (exchange_runs tr0 held keep n op s tr s' error p St0 G0 Ex Ty Nf Nc)
    as (buf & rq & i & b & B & H4 & Dv & A & F & D & R & New & Run).
  destruct Ex as (St & G & Un & _).
  destruct (header_opcode_eq buf rq B) as (_ & _ & Hid).
  assert (Kids : forall name c, match t with TDir _ _ es => In (name, c) es | _ => False end -> t_ok c).
  { intros name c X. destruct t as [|m a es|]; try contradiction.
    exact (true_ok _ _ (true_child _ _ _ _ _ _ T X)). }
  destruct (Run _ (fun _ => I) (fun _ => I)
    (node_answers n t op buf rq _ B Hid (true_ok _ _ T) Kids Dv Op) _ D)
    as (past & Says & Hp).
  cbn [says] in Says.
  assert (Fp : Forall (at_node n t) past).
  { eapply Forall_impl; [|exact Hp]. intros e X. eapply (at_node_happened tr0 s St0 tr L); eauto. }
  destruct (Says Fp _ _ R) as [Ans Opn]. split; [exact Ans|].
  rewrite Forall_forall in Hp.
  destruct op; try exact I.
  - destruct t as [|m a es|]; try exact I. intros c En Hc. cbn [answers] in Ans. rewrite En in Ans.
    destruct Ans as [-> (An & _)].
    assert (St' : steps (start root tt) (tr0 ++ tr) s') by (eapply steps_app; eauto).
    pose proof (true_child _ _ _ _ _ _ T (entry_named_in _ _ _ En)) as Tc.
    destruct (true_ok _ _ Tc) as (O1 & _).
    assert (Add : In i (adders (t_node c) (tr0 ++ tr))).
    { eapply (told_adder U os cf tree_typed TE); [exact St'|lia| |exact F].
      exists buf, rq, b, p. split; [exact B|]. split; [exact H4|].
      split; [apply in_or_app; now right|]. split; [apply in_or_app; now right|]. split; [exact R|exact An]. }
    unfold adders in Add. apply in_flat_map in Add as (lb & Xl & Y).
    destruct lb as [j [| | | | | | | | | | |]| |]; try contradiction.
    destruct (N.eqb_spec node_id (t_node c)) as [->|]; [|contradiction]. destruct Y as [->|[]].
    apply in_app_iff in Xl as [Xl|Xl]; [destruct (New _ Xl)|].
    destruct (added_holds tr0 s tr s' i _ node held keep St0 G0 St G Un Hc Xl) as (t' & Tt & Ht).
    rewrite (true_unique _ _ _ Tc Tt). rewrite (proj2 Tt). exact Ht.
  - destruct t as [m a content| |]; try exact I. intros ->. destruct (Hp _ Opn) as (x & y & s1 & s2 & -> & _).
    exists (tr0 ++ x), i, y. split; [now rewrite <- app_assoc|]. intros (j & g & X).
    assert (Y : In (Did j (EvReleaseFile (u64_at 0 p) g Released)) (x ++ Did i (EvOpenFile (TFile m a content) (u64_at 0 p)) :: y))
      by (apply in_or_app; right; now right).
    specialize (Un _ _ Y). now cbn in Un.
  - destruct t as [|m a es|]; try exact I. intros ->. destruct (Hp _ Opn) as (x & y & s1 & s2 & -> & _).
    exists (tr0 ++ x), i, y. split; [now rewrite <- app_assoc|]. intros (j & g & X).
    assert (Y : In (Did j (EvReleaseDir (u64_at 0 p) g Released)) (x ++ Did i (EvOpenDir (TDir m a es) (u64_at 0 p)) :: y))
      by (apply in_or_app; right; now right).
    specialize (Un _ _ Y). now cbn in Un.
Qed.

Lemma ask_handle tr0 s tr s' held n h t op error p :
  steps (start root tt) tr0 s -> genuine tr0 -> nlen (tr0 ++ tr) < U64 ->
  (exists n', true_node n' t) ->
  match op with
  | ORead _ _ _ _ _ _ _ | OWrite _ _ _ _ _ _ _ => live_file tr0 h t
  | _ => live_dir tr0 h t
  end ->
  exchange cf addr eio os held (Some h) n op s tr s' error p -> handle_op op h ->
  answers_open os t op error p.
Proof.
  intros St0 G0 L T Lv Ex Op.
  assert (Ty : vfs_type (op_code op) = Some (op_type op) /\ op_type op <> RForget /\ op_type op <> RCreate)
    by (destruct op; try contradiction; (split; [reflexivity|split; discriminate])).
  destruct Ty as (Ty & Nf & Nc).
  destruct (exchange_runs tr0 held (Some h) n op s tr s' error p St0 G0 Ex Ty Nf Nc)
    as (buf & rq & i & b & B & H4 & Dv & A & F & D & R & New & Run).
  destruct Ex as (St & G & Un & _).
  destruct (header_opcode_eq buf rq B) as (_ & _ & Hid).
  destruct (Run _ (fun _ => I) (fun _ => I) (handle_answers h n t op buf rq _ B Hid T Dv Op) _ D)
    as (past & Says & Hp).
  cbn [says] in Says. apply Says; [|exact R].
  eapply Forall_impl; [|exact Hp]. intros e X. unfold at_handle.
  destruct op; try contradiction; solve [eapply (at_file_happened tr0 s St0 tr L); eauto
    | eapply (at_dir_happened tr0 s St0 tr L); eauto].
Qed.

(** *** The theorems *)

(** A request about a node the client has looked up (or about the root) is
    answered with what the tree has there, whatever else is going on. *)
Theorem C70_answers tr0 s tr s' held keep n t op error p :
  steps (start root tt) tr0 s -> genuine tr0 -> nlen (tr0 ++ tr) < U64 ->
  sub t root -> t_node t = n -> resolvable n tr0 -> In n held ->
  exchange cf addr eio os held keep n op s tr s' error p -> node_op op ->
  answers cf os t op error p.
Proof.
  intros St0 G0 L S T R Hn Ex Op.
  assert (L0 : nlen tr0 < U64) by (rewrite nlen_app in L; lia).
  apply (ask_node tr0 s tr s' held keep n t op error p); auto; [now split|].
  apply (holds_resolvable tr0 s St0 G0); auto. now split.
Qed.

(** A request about an open handle is answered from what it was opened for. *)
Theorem C70_answers_open tr0 s tr s' held n h t op error p :
  steps (start root tt) tr0 s -> genuine tr0 -> nlen (tr0 ++ tr) < U64 ->
  sub t root ->
  match op with
  | ORead _ _ _ _ _ _ _ | OWrite _ _ _ _ _ _ _ => live_file tr0 h t
  | _ => live_dir tr0 h t
  end ->
  exchange cf addr eio os held (Some h) n op s tr s' error p -> handle_op op h ->
  answers_open os t op error p.
Proof.
  intros St0 G0 L S Lv Ex Op.
  apply (ask_handle tr0 s tr s' held n h t op error p); auto. exists (t_node t). now split.
Qed.

Lemma undisturbed_none held keep (tr : list label) : undisturbed held keep tr -> undisturbed held None tr.
Proof. intros H j e X. specialize (H j e X). destruct e; auto; discriminate. Qed.
Lemma undisturbed_less c held keep (tr : list label) : undisturbed (c :: held) keep tr -> undisturbed held keep tr.
Proof.
  intros H j e X. specialize (H j e X). destruct e; auto. eapply Forall_impl; [|exact H].
  cbn. intros a A B. apply A. now right.
Qed.
Definition passes (held : list N) (keep : option N) (s : server) (tr : list label) (s' : server) : Prop :=
  steps s tr s' /\ genuine tr /\ undisturbed held keep tr.
Lemma passes_app held keep s tr1 s1 tr2 s2 :
  passes held keep s tr1 s1 -> passes held keep s1 tr2 s2 -> passes held keep s (tr1 ++ tr2) s2.
Proof.
  intros (A & B & C) (A' & B' & C'). split; [eapply steps_app; eauto|].
  split; [now apply genuine_app|now apply undisturbed_app].
Qed.
Lemma passes_none held keep s tr s' : passes held keep s tr s' -> passes held None s tr s'.
Proof. intros (A & B & C). split; [exact A|]. split; [exact B|]. eapply undisturbed_none; eauto. Qed.
Lemma passes_less c held keep s tr s' : passes (c :: held) keep s tr s' -> passes held keep s tr s'.
Proof. intros (A & B & C). split; [exact A|]. split; [exact B|]. eapply undisturbed_less; eauto. Qed.
Lemma exchange_passes held keep n op s tr s' e p :
  exchange cf addr eio os held keep n op s tr s' e p -> passes held keep s tr s'.
Proof. intros (A & B & C & _). split; auto. Qed.

Lemma lists_passes held n h off s tr s' l :
  lists cf addr eio os held n h off s tr s' l -> passes held (Some h) s tr s'.
Proof.
  intros H. induction H as [? ? ? ? ? ? ? ? ? ? ? Ex|? ? ? ? ? ? ? ? ? ? ? ? ? ? ? ? Ex ? H IH].
  - eapply exchange_passes; eauto.
  - eapply passes_app; [eapply exchange_passes; eauto|exact IH].
Qed.
Lemma reads_passes held n h off s tr s' l :
  reads cf addr eio os held n h off s tr s' l -> passes held (Some h) s tr s'.
Proof.
  intros H. induction H as [? ? ? ? ? ? ? ? ? ? Ex|? ? ? ? ? ? ? ? ? ? ? ? ? ? Ex ? H IH].
  - eapply exchange_passes; eauto.
  - eapply passes_app; [eapply exchange_passes; eauto|exact IH].
Qed.

(** One more part of the history *)
Definition after (tr0 : list label) (s : server) : Prop := steps (start root tt) tr0 s /\ genuine tr0.
Lemma after_app tr0 s held keep tr s' :
  after tr0 s -> passes held keep s tr s' -> after (tr0 ++ tr) s'.
Proof. intros [A B] (C & D & _). split; [eapply steps_app; eauto|now apply genuine_app]. Qed.

Lemma lists_stream held n h m a es :
  (exists n', true_node n' (TDir m a es)) ->
  forall off s tr s' l, lists cf addr eio os held n h off s tr s' l ->
  forall tr0, after tr0 s -> nlen (tr0 ++ tr) < U64 -> live_dir tr0 h (TDir m a es) ->
  exists sizes, stream (readdir_page (map item_of es)) s_off off sizes l.
Proof.
  intros Tt. assert (Tt' := Tt). destruct Tt' as [n' T]. destruct (items_ok _ _ _ _ T) as [I1 I2].
  assert (Page : forall off size p l, 4096 <= size ->
    answers_open os (TDir m a es) (OReaddir h off size 0 0 0 0) 0 p -> client_readdir p = Some l ->
    readdir_page (map item_of es) off size l).
  { intros off size p l Sz [_ A] C. split.
    - intros i X. apply nth_error_In in X. apply in_map_iff in X as ((name, c) & <- & X). cbn [item_of si_name fst].
      destruct (true_ok _ _ T) as (_ & _ & _ & _ & _ & F). rewrite Forall_forall in F.
      destruct (F _ X) as [_ Ln]. cbn [fst] in Ln. unfold readdir_size, up8.
      assert (nlen name <= 1024) by exact Ln.
      pose proof (N.mod_upper_bound (24 + nlen name + 7) 8 ltac:(lia)). lia.
    - destruct (C48_readdir_page 0 (map item_of es) off size eq_refl I1 I2) as (p' & P1 & P2 & _).
      exists 0, p'. split; [reflexivity|]. split; [exact P1|]. rewrite P2, <- C. symmetry. exact A. }
  intros off s tr s' l H. induction H as [off size rf lo fl pad s tr s' p Sz Ex C|
    off size rf lo fl pad s tr1 s1 p l x tr2 s2 rest Sz Ex C H IH]; intros tr0 [St0 G0] L Lv.
  - exists [size]. constructor. eapply Page; [exact Sz| |exact C].
    pose proof (ask_handle tr0 s tr s' held n h _ (OReaddir h off size rf lo fl pad) _ _ St0 G0 L Tt Lv Ex eq_refl) as X. exact X.
  - assert (L1 : nlen (tr0 ++ tr1) < U64) by (rewrite app_assoc, nlen_app in L; lia).
    pose proof (exchange_passes _ _ _ _ _ _ _ _ _ Ex) as Ps.
    destruct (IH (tr0 ++ tr1)) as [sizes S].
    + eapply after_app; [split; eauto|exact Ps].
    + now rewrite <- app_assoc.
    + eapply keeps_dir; [apply Ps|exact Lv].
    + exists (size :: sizes). constructor; [|exact S]. eapply Page; [exact Sz| |exact C].
      pose proof (ask_handle tr0 s tr1 s1 held n h _ (OReaddir h off size rf lo fl pad) _ _ St0 G0 L1 Tt Lv Ex eq_refl) as X. exact X.
Qed.

Lemma take_rest {A} k (l : list A) : take k l ++ drop (nlen (take k l)) l = l.
Proof.
  destruct (N.le_gt_cases k (nlen l)).
  - replace (nlen (take k l)) with k by (rewrite nlen_take; lia). apply take_drop.
  - rewrite take_all by lia. rewrite drop_all by lia. apply app_nil_r.
Qed.

Lemma reads_content held n h m a content :
  (exists n', true_node n' (TFile m a content)) ->
  forall off s tr s' data, reads cf addr eio os held n h off s tr s' data ->
  forall tr0, after tr0 s -> nlen (tr0 ++ tr) < U64 -> live_file tr0 h (TFile m a content) ->
  data = drop off content.
Proof.
  intros Tt off s tr s' data H. induction H as [off size rf lo fl pad s tr s' Sz Ex|
    off size rf lo fl pad s tr1 s1 p tr2 s2 rest Sz Ex C H IH]; intros tr0 [St0 G0] L Lv.
  - pose proof (ask_handle tr0 s tr s' held n h _ (ORead h off size rf lo fl pad) _ _ St0 G0 L Tt Lv Ex eq_refl) as [_ X].
    destruct (drop off content) as [|b l]; [reflexivity|].
    apply (f_equal nlen) in X. rewrite nlen_take in X. rewrite nlen_cons in X. cbn [nlen length] in X. 
    change (nlen (@nil byte)) with 0 in X. lia.
  - assert (L1 : nlen (tr0 ++ tr1) < U64) by (rewrite app_assoc, nlen_app in L; lia).
    pose proof (exchange_passes _ _ _ _ _ _ _ _ _ Ex) as Ps.
    rewrite (IH (tr0 ++ tr1)).
    + pose proof (ask_handle tr0 s tr1 s1 held n h _ (ORead h off size rf lo fl pad) _ _ St0 G0 L1 Tt Lv Ex eq_refl) as [_ ->].
      rewrite <- drop_drop. apply take_rest.
    + eapply after_app; [split; eauto|exact Ps].
    + now rewrite <- app_assoc.
    + eapply keeps_file; [apply Ps|exact Lv].
Qed.

Scheme sees_mut := Minimality for sees Sort Prop
  with entries_mut := Minimality for sees_entries Sort Prop.

Lemma walk_passes :
  (forall held n s tr s' pic, sees cf addr eio os held n s tr s' pic -> passes held None s tr s') /\
  (forall held n s tr s' names es, sees_entries cf addr eio os held n s tr s' names es -> passes held None s tr s').
Proof.
  assert (Ps := exchange_passes).
  assert (H : forall held n s tr s' pic, sees cf addr eio os held n s tr s' pic -> passes held None s tr s').
  { apply (sees_mut E cf addr eio os (fun held n s tr s' pic => passes held None s tr s')
             (fun held n s tr s' names es => passes held None s tr s')); intros.
    - repeat (eapply passes_app; [eapply passes_none; eauto using reads_passes|]). eapply passes_none; eauto.
    - eapply passes_app; eapply passes_none; eauto.
    - repeat (eapply passes_app; [eapply passes_none; eauto using lists_passes|]). assumption.
    - split; [constructor|]. split; intros ? ? [].
    - eapply passes_app; [eapply passes_less; eauto|]. eapply passes_app; [eapply passes_less; eauto|]. assumption. }
  split; [exact H|]. intros held n s tr s' names es S. induction S.
  - split; [constructor|]. split; intros ? ? [].
  - eapply passes_app; [eapply passes_less; eauto|]. eapply passes_app; [eapply passes_less; eauto|]. assumption.
Qed.

Definition walk_ok held n s tr pic : Prop :=
  forall tr0 t, after tr0 s -> nlen (tr0 ++ tr) < U64 -> true_node n t -> holds s n t -> In n held ->
  shows cf pic t.
Definition entries_ok held n s tr (names : list bytes) (pics : list (bytes * picture)) : Prop :=
  forall tr0 m a all, after tr0 s -> nlen (tr0 ++ tr) < U64 -> true_node n (TDir m a all) ->
  holds s n (TDir m a all) -> In n held ->
  forall es, incl es all -> names = map fst es ->
  Forall2 (fun x y => fst x = fst y /\ shows cf (snd x) (snd y)) pics es.

Lemma seen_kind t a tr0 s tr s' held n f1 f2 f3 :
  after tr0 s -> nlen (tr0 ++ tr) < U64 -> true_node n t -> holds s n t -> In n held ->
  exchange cf addr eio os held None n (OGetattr f1 f2 f3) s tr s' 0 a ->
  kind_of (u32_at 76 a) = t_kind t /\ attr_reads a 16 (t_node t) (9 <=? cf_minor cf) (t_attrs t).
Proof.
  intros [St0 G0] L T Hs Hn Ex.
  destruct (ask_node tr0 s tr s' held None n t _ _ _ St0 G0 L T Hs Hn Ex I) as [(_ & _ & _ & A) _].
  split; [|exact A]. destruct A as (_ & _ & _ & _ & _ & _ & A & _). change (16 + 60) with 76 in A. rewrite A.
  apply (true_ok _ _ T).
Qed.

Lemma names_listed (es : list (bytes * tree)) n : map s_name (map static_seen (numbered n (map item_of es))) = map fst es.
Proof. revert n. induction es as [|[x c] es IH]; intros n; cbn; [reflexivity|]. f_equal. apply IH. Qed.

Lemma walk :
  forall held n s tr s' pic, sees cf addr eio os held n s tr s' pic -> walk_ok held n s tr pic.
Proof.
  apply (sees_mut E cf addr eio os (fun held n s tr s' pic => walk_ok held n s tr pic)
           (fun held n s tr s' names es => entries_ok held n s tr names es)).
  - (* a file *)
    intros held n s tr1 s1 tr2 s2 tr3 s3 tr4 s4 f1 f2 f3 a f4 f5 o data f6 f7 f8 Ga K Op Rd Rl.
    intros tr0 t Af L T Hs Hn.
    assert (L1 : nlen (tr0 ++ tr1) < U64) by (rewrite !nlen_app in *; lia).
    assert (L2 : nlen ((tr0 ++ tr1) ++ tr2) < U64) by (rewrite !nlen_app in *; lia).
    assert (L3 : nlen (((tr0 ++ tr1) ++ tr2) ++ tr3) < U64) by (rewrite !nlen_app in *; lia).
    destruct (seen_kind t a tr0 s tr1 s1 held n f1 f2 f3 Af L1 T Hs Hn Ga) as [Kt At]. rewrite K in Kt.
    destruct t as [m at_ content| |]; try discriminate. cbn [t_node t_attrs] in At.
    pose proof (exchange_passes _ _ _ _ _ _ _ _ _ Ga) as P1.
    pose proof (after_app _ _ _ _ _ _ Af P1) as Af1.
    assert (Hs1 : holds s1 n (TFile m at_ content)) by (eapply keeps_node; [apply P1|apply P1|exact Hn|exact Hs]).
    destruct Af1 as [St1 G1].
    destruct (ask_node _ _ _ _ held _ n _ _ _ _ St1 G1 L2 T Hs1 Hn Op I) as [_ Lv].
    specialize (Lv eq_refl).
    pose proof (after_app _ _ _ _ _ _ (conj St1 G1) (exchange_passes _ _ _ _ _ _ _ _ _ Op)) as Af2.
    rewrite (reads_content held n _ m at_ content ltac:(eauto) _ _ _ _ _ Rd _ Af2 L3 Lv). rewrite drop_0.
    now constructor.
  - (* a link *)
    intros held n s tr1 s1 tr2 s2 f1 f2 f3 a target Ga K Rl.
    intros tr0 t Af L T Hs Hn.
    assert (L1 : nlen (tr0 ++ tr1) < U64) by (rewrite !nlen_app in *; lia).
    assert (L2 : nlen ((tr0 ++ tr1) ++ tr2) < U64) by (rewrite !nlen_app in *; lia).
    destruct (seen_kind t a tr0 s tr1 s1 held n f1 f2 f3 Af L1 T Hs Hn Ga) as [Kt At]. rewrite K in Kt.
    destruct t as [| |m at_ tg]; try discriminate. cbn [t_node t_attrs] in At.
    pose proof (exchange_passes _ _ _ _ _ _ _ _ _ Ga) as P1.
    pose proof (after_app _ _ _ _ _ _ Af P1) as [St1 G1].
    assert (Hs1 : holds s1 n (TLink m at_ tg)) by (eapply keeps_node; [apply P1|apply P1|exact Hn|exact Hs]).
    destruct (ask_node _ _ _ _ held _ n _ _ _ _ St1 G1 L2 T Hs1 Hn Rl I) as [[_ ->] _].
    now constructor.
  - (* a directory *)
    intros held n s tr1 s1 tr2 s2 tr3 s3 tr4 s4 tr5 s5 f1 f2 f3 a f4 f5 o l f6 f7 f8 pics Ga K Op Ls Rl En IH.
    intros tr0 t Af L T Hs Hn.
    assert (L1 : nlen (tr0 ++ tr1) < U64) by (rewrite !nlen_app in *; lia).
    assert (L2 : nlen ((tr0 ++ tr1) ++ tr2) < U64) by (rewrite !nlen_app in *; lia).
    assert (L3 : nlen (((tr0 ++ tr1) ++ tr2) ++ tr3) < U64) by (rewrite !nlen_app in *; lia).
    destruct (seen_kind t a tr0 s tr1 s1 held n f1 f2 f3 Af L1 T Hs Hn Ga) as [Kt At]. rewrite K in Kt.
    destruct t as [|m at_ es|]; try discriminate. cbn [t_node t_attrs] in At.
    pose proof (exchange_passes _ _ _ _ _ _ _ _ _ Ga) as P1.
    pose proof (exchange_passes _ _ _ _ _ _ _ _ _ Op) as P2.
    pose proof (lists_passes _ _ _ _ _ _ _ _ Ls) as P3.
    pose proof (exchange_passes _ _ _ _ _ _ _ _ _ Rl) as P4.
    pose proof (after_app _ _ _ _ _ _ Af P1) as Af1.
    assert (Hs1 : holds s1 n (TDir m at_ es)) by (eapply keeps_node; [apply P1|apply P1|exact Hn|exact Hs]).
    destruct Af1 as [St1 G1].
    destruct (ask_node _ _ _ _ held _ n _ _ _ _ St1 G1 L2 T Hs1 Hn Op I) as [_ Lv].
    specialize (Lv eq_refl).
    pose proof (after_app _ _ _ _ _ _ (conj St1 G1) P2) as Af2.
    destruct (lists_stream held n _ m at_ es ltac:(eauto) _ _ _ _ _ Ls _ Af2 L3 Lv) as [sizes Sm].
    destruct (items_ok _ _ _ _ T) as [I1 I2].
    apply (C48_readdir (map item_of es) sizes l I1 I2) in Sm. subst l.
    rewrite names_listed in En, IH.
    pose proof (after_app _ _ _ _ _ _ Af2 P3) as Af3.
    pose proof (after_app _ _ _ _ _ _ Af3 P4) as Af4.
    constructor; [exact At|].
    apply (IH _ m at_ es Af4); auto.
    + rewrite !nlen_app in *. lia.
    + assert (P : passes held None s1 (tr2 ++ tr3 ++ tr4) s4).
      { eapply passes_app; [eapply passes_none; eauto|]. eapply passes_app; eapply passes_none; eauto. }
      eapply keeps_node; [apply P|apply P|exact Hn|exact Hs1].
    + apply incl_refl.
  - (* no more entries *)
    intros held n s tr0 m a all Af L T Hs Hn es In_ Nm. destruct es; [constructor|discriminate].
  - (* an entry *)
    intros held n s name names tr1 s1 e tr2 s2 pic tr3 s3 pics Lk Nz Se IHs Sn IHe.
    intros tr0 m a all Af L T Hs Hn es In_ Nm.
    destruct es as [|[x c] es]; [discriminate|]. cbn [map fst] in Nm. injection Nm as -> ->.
    assert (L1 : nlen (tr0 ++ tr1) < U64) by (rewrite !nlen_app in *; lia).
    destruct (true_ok _ _ T) as (_ & _ & _ & Nd & _).
    assert (Ec : entry_named x all = Some c) by (apply entry_named_is; [exact Nd|apply In_; now left]).
    destruct Af as [St0 G0].
    destruct (ask_node _ _ _ _ (u64_at 0 e :: held) _ n _ _ _ _ St0 G0 L1 T Hs (or_intror Hn) Lk I) as [Ans Reg].
    specialize (Reg c Ec).
    destruct Ans as [_ Ans]. rewrite Ec in Ans. destruct Ans as (An & _).
    rewrite An in *. specialize (Reg (or_introl eq_refl)).
    pose proof (exchange_passes _ _ _ _ _ _ _ _ _ Lk) as P1.
    pose proof (proj1 walk_passes _ _ _ _ _ _ Se) as P2.
    pose proof (after_app _ _ _ _ _ _ (conj St0 G0) P1) as Af1.
    pose proof (after_app _ _ _ _ _ _ Af1 P2) as Af2.
    assert (Tc : true_node (t_node c) c) by (eapply true_child; [exact T|apply In_; now left]).
    constructor.
    + cbn [fst snd]. split; [reflexivity|].
      apply (IHs (tr0 ++ tr1) c Af1); auto; [|now left]. rewrite !nlen_app in *. lia.
    + apply (IHe _ m a all Af2); auto.
      * rewrite !nlen_app in *. lia.
      * eapply keeps_node; [apply P2|apply P2|right; exact Hn|].
        eapply keeps_node; [apply P1|apply P1|right; exact Hn|exact Hs].
      * intros y Y. apply In_. now right.
Qed.

(** The client starts at something in the tree that it holds, for example at
    the root while nobody has given it up, and walks from there while other
    clients' requests are handled: what it sees is that part of the tree. *)
Theorem C70_sees tr0 s tr s' held n t pic :
  steps (start root tt) tr0 s -> genuine tr0 -> nlen (tr0 ++ tr) < U64 ->
  sub t root -> t_node t = n -> resolvable n tr0 -> In n held ->
  sees cf addr eio os held n s tr s' pic -> shows cf pic t.
Proof.
  intros St0 G0 L Sb Tn Rs Hh S. assert (L0 : nlen tr0 < U64) by (rewrite nlen_app in L; lia).
  assert (T : true_node n t) by (split; auto).
  apply (walk _ _ _ _ _ _ S tr0 t); auto; [now split|].
  now apply (holds_resolvable tr0 s St0 G0).
Qed.

(** *** The walk can be completed *)

Lemma run_steps p v w ev l p2 v' w' :
  runs U cf p v w ev l p2 v' w' -> forall ts,
  steps {| sv_threads := ts ++ [p]; sv_vfs := v; sv_world := w |} (map (Did (length ts)) l)
        {| sv_threads := ts ++ [p2]; sv_vfs := v'; sv_world := w' |}.
Proof.
  intros H. induction H as [p v w ev X|p v w ev e p1 v1 w1 l p2 v2 w2 X R IH]; intros ts; [constructor|].
  cbn [map]. eapply steps_cons; [|apply IH].
  assert (Sl : set_thread (length ts) p1 (ts ++ [p]) = ts ++ [p1]).
  { clear. induction ts as [|q ts IH]; cbn; [reflexivity|]. now rewrite IH. }
  rewrite <- Sl. econstructor; [|exact X].
  rewrite nth_error_app2 by apply le_n. now rewrite Nat.sub_diag.
Qed.
Lemma runs_sends p v w ev l p2 v' w' :
  runs U cf p v w ev l p2 v' w' -> forall b e, In (EvSend b e) l -> e = ev.
Proof.
  intros H. induction H as [p v w ev X|p v w ev e p1 v1 w1 l p2 v2 w2 X R IH]; intros b e' Y; [destruct Y|].
  destruct Y as [->|Y]; [|eauto].
  destruct p; cbn [exec] in X; try discriminate.
  - destruct (f w). discriminate.
  - destruct (NodeMap_add _ _ _ _); discriminate.
  - destruct (HandlesMap_open_file _ _ _) as [[]|]; discriminate.
  - destruct (HandlesMap_open_dir _ _ _) as [[]|]; discriminate.
  - destruct (HandlesMap_get_file _ _ _); [|discriminate]. destruct (u_release _ _ _ _) as [? [|]]; discriminate.
  - destruct (HandlesMap_get_dir _ _ _); [|discriminate]. destruct (u_releasedir _ _ _ _) as [? [|]]; discriminate.
  - congruence.
Qed.
Lemma runs_do (P : event -> Prop) p v w ev l p2 v' w' :
  P EvUser -> P EvPanic -> runs U cf p v w ev l p2 v' w' -> all_do P p -> Forall P l.
Proof.
  intros Pu Pp H. induction H as [p v w ev X|p v w ev e p1 v1 w1 l p2 v2 w2 X R IH]; intros A; [constructor|].
  destruct (all_do_exec U cf P p v w ev e p1 v1 w1 Pu Pp A X). constructor; auto.
Qed.

Definition hd_for (n : N) : req_header :=
  {| rh_unique := 1; rh_nodeid := n; rh_uid := 0; rh_gid := 0; rh_pid := 0; rh_padding := 0 |}.

Lemma good_hd n : 0 < n < U64 -> good_header (hd_for n).
Proof.
  intros Hn. split; [|discriminate]. unfold header_fields.
  cbn [hd_for rh_unique rh_nodeid rh_uid rh_gid rh_pid rh_padding].
  repeat constructor; cbn; try reflexivity. apply Hn.
Qed.

Lemma served_exchange n op keep s (Q : Z -> bytes -> vfs tree tree tree -> Prop) :
  0 < n < U64 -> good_op cf op -> 40 + nlen (op_body cf op) < U32 ->
  vfs_type (op_code op) = Some (op_type op) -> op_type op <> RForget -> op_type op <> RCreate ->
  available false (op_type op) = true -> body_node_ids op = [] ->
  (forall e, may_do (Node := tree) (FH := tree) (DH := tree) (op_type op) (expected false cf n op) e ->
     match e with
     | EvNodeForget _ => False
     | EvReleaseFile h _ _ | EvReleaseDir h _ _ => keep <> Some h
     | _ => True
     end) ->
  (forall rq, Request_new (encode cf (hd_for n) op) = Ret rq ->
     is_request cf (encode cf (hd_for n) op) rq (op_type op) (expected false cf n op) ->
     exists error payload v',
       served U os cf rq (u64_at 8 (encode cf (hd_for n) op)) (sv_vfs s) tt SendOk error payload v' tt /\
       Q error payload v') ->
  exists error payload tr s', Q error payload (sv_vfs s') /\
    forall held, exchange cf addr eio os held keep n op s tr s' error payload.
Proof.
  intros Hn Go L Ty Nf Nc Av Bn May Sv.
  assert (Gh := good_hd n Hn).
  assert (Sd : sendable false cf (hd_for n) op).
  { split; [exact Gh|]. split; [exact Go|]. split; [exact Av|]. split.
    - intros _ _. cbn. lia.
    - rewrite Bn. constructor. }
  assert (Ny : op_type op <> RSymlink) by (intros X; destruct op; try discriminate X; discriminate Ty).
  destruct (deliver false cf (hd_for n) op Sd ltac:(intros X; contradiction) Ny [] [] ltac:(now rewrite app_nil_r))
    as (rq & Nw & Dv).
  rewrite sent_encode, app_nil_r in Nw. cbn [rh_nodeid hd_for] in Dv.
  assert (T4 : vfs_type (u32_at 4 (encode cf (hd_for n) op)) = Some (op_type op)) by (now rewrite encode_opcode).
  destruct (Sv rq Nw (conj T4 Dv)) as (error & payload & v' & (p & l & b & Dp & R & Sl & Rd) & HQ).
  exists error, payload.
  destruct s as [ts v w]. destruct w. cbn [sv_vfs] in *.
  exists (Arrived (length ts) rq :: map (Did (length ts)) l),
    {| sv_threads := ts ++ [PDone (outcome SendOk)]; sv_vfs := v'; sv_world := tt |}.
  split; [exact HQ|]. intros held.
  split; [|split; [|split]].
  - eapply steps_cons; [apply step_request; exact Dp|]. now apply run_steps with (ev := SendOk).
  - intros i q [X|X]; [injection X as _ ->; eauto|]. apply in_map_iff in X as (? & ? & _). discriminate.
  - intros j e [X|X]; [discriminate|]. apply in_map_iff in X as (e' & X & Y). injection X as _ ->.
    pose proof (dispatch_does U os cf _ rq _ _ p Nw T4 Dv Dp) as Dd.
    pose proof (runs_do _ _ _ _ _ _ _ _ _ (I : may_do _ _ EvUser) (I : may_do _ _ EvPanic) R Dd) as F. rewrite Forall_forall in F. specialize (F _ Y).
    specialize (May _ F). destruct e; auto. contradiction.
  - exists (hd_for n), rq, (length ts), b. split; [exact Sd|]. split; [reflexivity|]. split; [exact L|].
    split; [exact Nw|]. split; [now left|].
    assert (Xb : In b (sent l)) by (rewrite Sl; now left). unfold sent in Xb. apply in_flat_map in Xb as (e & Xe & Xb).
    destruct e; try contradiction. destruct Xb as [->|[]].
    split; [right; apply in_map_iff; eexists; split; [reflexivity|]|].
    + rewrite <- (runs_sends _ _ _ _ _ _ _ _ R b r Xe). exact Xe.
    + split; [now rewrite encode_unique in Rd by exact Gh|].
      exists (outcome SendOk). cbn [sv_threads]. rewrite nth_error_app2 by apply le_n. now rewrite Nat.sub_diag.
Qed.

Ltac ranges :=
  split; [cbn [op_fields]; unfold read_in, release_in; repeat (destruct (cf_minor cf <? _));
          repeat (apply Forall_cons; [first [reflexivity|unfold in_range, u32, u64, U64 in *; cbn [fst snd];
            change (256 ^ N.of_nat 8) with 18446744073709551616; lia]|]); apply Forall_nil|try exact I].
Ltac short :=
  unfold op_body; rewrite nlen_app, nlen_wire; cbn [op_fields op_tail];
  unfold read_in, release_in; repeat (destruct (cf_minor cf <? _));
  cbn; unfold U32 in *; try lia; try reflexivity.

Section Asking.
Context (n : N) (t : tree) (s : server) (Hn : true_node n t) (Hs : holds s n t).

Lemma node_range : 0 < n < U64.
Proof. destruct (true_ok _ _ Hn) as [A _]. destruct Hn as [_ <-]. exact A. Qed.

Lemma ask_getattr :
  exists p tr s', sv_vfs s' = sv_vfs s /\ kind_of (u32_at 76 p) = t_kind t /\
    attr_reads p 16 (t_node t) (9 <=? cf_minor cf) (t_attrs t) /\
    forall held, exchange cf addr eio os held None n (OGetattr 0 0 0) s tr s' 0 p.
Proof.
  destruct Hs as [c V]. destruct (true_ok _ _ Hn) as (R & F & K & _).
  destruct (served_exchange n (OGetattr 0 0 0) None s
    (fun e p v' => e = 0%Z /\ v' = sv_vfs s /\ kind_of (u32_at 76 p) = t_kind t /\
       attr_reads p 16 (t_node t) (9 <=? cf_minor cf) (t_attrs t))) as (e & p & tr & s' & (-> & Y & X) & Z);
    [exact node_range|ranges|short|reflexivity|discriminate|discriminate|reflexivity|reflexivity| | |].
  - intros []; cbn; auto; discriminate.
  - intros rq Nw Rq.
    destruct (C54_getattr U os cf _ rq Nw n _ (sv_vfs s) tt SendOk tt t c (t_node t) (t_attrs t) (0, 0) Rq V R F
      ltac:(split; reflexivity) eq_refl) as (p & Sv & _ & A).
    exists 0%Z, p, (sv_vfs s). split; [exact Sv|]. split; [reflexivity|]. split; [reflexivity|].
    split; [|exact A]. destruct A as (_ & _ & _ & _ & _ & _ & A & _). change (16 + 60) with 76 in A. now rewrite A.
  - exists p, tr, s'. destruct X. auto.
Qed.

Lemma ask_readlink m a target : t = TLink m a target ->
  exists tr s', sv_vfs s' = sv_vfs s /\
    forall held, exchange cf addr eio os held None n OReadlink s tr s' 0 target.
Proof.
  pose proof node_range as Nr. intros ->. destruct Hs as [c V]. destruct (true_ok _ _ Hn) as (R & F & K & L).
  destruct (served_exchange n OReadlink None s
    (fun e p v' => e = 0%Z /\ v' = sv_vfs s /\ p = target)) as (e & p & tr & s' & (-> & Y & ->) & Z);
    [exact Nr|ranges|short|reflexivity|discriminate|discriminate|reflexivity|reflexivity| | |].
  - intros []; cbn; auto; discriminate.
  - intros rq Nw Rq.
    exists 0%Z, target, (sv_vfs s). split; [|auto].
    destruct (C54_data U os cf _ rq Nw (sv_vfs s) tt SendOk tt tt target) as (_ & _ & D & _).
    { change (2 ^ 31) with 2147483648 in L. unfold u32_max. lia. }
    eapply D; [exact Rq|exact V|reflexivity|reflexivity].
  - exists tr, s'. auto.
Qed.

Lemma ask_open m a content : t = TFile m a content -> v_next_handle_id (sv_vfs s) + 1 < U64 ->
  exists p tr s', let h := v_next_handle_id (sv_vfs s) in
    u64_at 0 p = h /\ v_next_handle_id (sv_vfs s') = h + 1 /\ v_open_files (sv_vfs s') h = Some t /\
    v_nodes (sv_vfs s') = v_nodes (sv_vfs s) /\
    forall held, exchange cf addr eio os held (Some h) n (OOpen 0 0) s tr s' 0 p.
Proof.
  pose proof node_range as Nr. intros -> Rm. destruct Hs as [c V].
  destruct (served_exchange n (OOpen 0 0) (Some (v_next_handle_id (sv_vfs s))) s
    (fun e p v' => let h := v_next_handle_id (sv_vfs s) in
       e = 0%Z /\ u64_at 0 p = h /\ v_next_handle_id v' = h + 1 /\
       v_open_files v' h = Some (TFile m a content) /\ v_nodes v' = v_nodes (sv_vfs s)))
    as (e & p & tr & s' & (-> & Y) & Z);
    [exact Nr|ranges|short|reflexivity|discriminate|discriminate|reflexivity|reflexivity| | |].
  - intros []; cbn; auto; try discriminate; intros []; discriminate.
  - intros rq Nw Rq.
    destruct (C54_open U os cf _ rq Nw n _ _ (sv_vfs s) tt SendOk tt tt (TFile m a content) c
      (OpenedResult_new (TFile m a content)) Rq V eq_refl eq_refl eq_refl Rm)
      as (p & v' & Sv & _ & A & B & C & _ & _ & D).
    exists 0%Z, p, v'. split; [exact Sv|]. cbv zeta. rewrite A in *. auto 6.
  - exists p, tr, s'. destruct Y as (A & B & C & D). auto 6.
Qed.

Lemma ask_opendir m a es : t = TDir m a es -> v_next_handle_id (sv_vfs s) + 1 < U64 ->
  exists p tr s', let h := v_next_handle_id (sv_vfs s) in
    u64_at 0 p = h /\ v_next_handle_id (sv_vfs s') = h + 1 /\ v_open_dirs (sv_vfs s') h = Some t /\
    v_nodes (sv_vfs s') = v_nodes (sv_vfs s) /\
    forall held, exchange cf addr eio os held (Some h) n (OOpendir 0 0) s tr s' 0 p.
Proof.
  pose proof node_range as Nr. intros -> Rm. destruct Hs as [c V].
  destruct (served_exchange n (OOpendir 0 0) (Some (v_next_handle_id (sv_vfs s))) s
    (fun e p v' => let h := v_next_handle_id (sv_vfs s) in
       e = 0%Z /\ u64_at 0 p = h /\ v_next_handle_id v' = h + 1 /\
       v_open_dirs v' h = Some (TDir m a es) /\ v_nodes v' = v_nodes (sv_vfs s)))
    as (e & p & tr & s' & (-> & Y) & Z);
    [exact Nr|ranges|short|reflexivity|discriminate|discriminate|reflexivity|reflexivity| | |].
  - intros []; cbn; auto; try discriminate; intros []; discriminate.
  - intros rq Nw Rq.
    destruct (C54_opendir U os cf _ rq Nw n _ _ (sv_vfs s) tt SendOk tt tt (TDir m a es) c
      (OpenedResult_new (TDir m a es)) Rq V eq_refl eq_refl eq_refl Rm)
      as (p & v' & Sv & _ & A & B & C & _ & _ & D).
    exists 0%Z, p, v'. split; [exact Sv|]. cbv zeta. rewrite A in *. auto 6.
  - exists p, tr, s'. destruct Y as (A & B & C & D). auto 6.
Qed.

Lemma ask_lookup m a es name c : t = TDir m a es -> In (name, c) es ->
  (forall k u, v_nodes (sv_vfs s) (t_node c) = Some (u, k) -> k + 1 < U64) ->
  exists p tr s', u64_at 0 p = t_node c /\
    v_nodes (sv_vfs s') (t_node c) =
      Some (match v_nodes (sv_vfs s) (t_node c) with Some (u, k) => (u, k + 1) | None => (c, 1) end) /\
    (forall i, i <> t_node c -> v_nodes (sv_vfs s') i = v_nodes (sv_vfs s) i) /\
    v_next_handle_id (sv_vfs s') = v_next_handle_id (sv_vfs s) /\
    forall held, exchange cf addr eio os held None n (OLookup name) s tr s' 0 p.
Proof.
  pose proof node_range as Nr. intros -> Hc Rm. destruct Hs as [k V].
  destruct (true_ok _ _ Hn) as (_ & _ & _ & Nd & _ & Fn). rewrite Forall_forall in Fn.
  destruct (Fn _ Hc) as [Nm Ln]. cbn [fst] in Nm, Ln.
  pose proof (true_ok _ _ (true_child _ _ _ _ _ _ Hn Hc)) as (Rc & Fc & _).
  pose proof (proj1 (proj1 (C40_node_name name)) Nm) as [Nz Al].
  destruct (served_exchange n (OLookup name) None s
    (fun e p v' => e = 0%Z /\ u64_at 0 p = t_node c /\
       v_nodes v' (t_node c) =
         Some (match v_nodes (sv_vfs s) (t_node c) with Some (u, k) => (u, k + 1) | None => (c, 1) end) /\
       (forall i, i <> t_node c -> v_nodes v' i = v_nodes (sv_vfs s) i) /\
       v_next_handle_id v' = v_next_handle_id (sv_vfs s)))
    as (e & p & tr & s' & (-> & Y) & Z);
    [exact Nr| |short|reflexivity|discriminate|discriminate|reflexivity|reflexivity| | |].
  - ranges. rewrite Forall_forall in Al. split; [exact Nz|].
    split; intros X; destruct (Al _ X); congruence.
  - rewrite nlen_app. change (nlen [x00]) with 1. lia.
  - intros []; cbn; auto; try discriminate.
  - intros rq Nw Rq.
    assert (Rq' := Rq). destruct Rq' as [_ Dv]. cbn [op_type expected] in Dv.
    destruct (C54_lookup_found U os cf _ rq Nw n name (sv_vfs s) tt SendOk tt tt (TDir m a es) k c (t_node c)
      (t_attrs c) 0 (0, 0) (0, 0) Rq V Rc Fc eq_refl ltac:(split; reflexivity) ltac:(split; reflexivity) eq_refl)
      as (p & v' & Sv & A & B & C & D & _).
    + cbn [u_lookup tree_user]. unfold tree_lookup. rewrite Dv. rewrite (entry_named_is _ _ _ Nd Hc).
      replace ((0 <? t_node c) && (t_node c <? U64)) with true by lia. reflexivity.
    + intros u x X. eapply Rm; eauto.
    + exists 0%Z, p, v'. split; [exact Sv|]. split; [reflexivity|]. split; [apply A|]. auto.
  - exists p, tr, s'. destruct Y as (A & B & C & D). auto 6.
Qed.
End Asking.

Section AskingHandles.
Context (n h : N) (s : server) (Nr : 0 < n < U64) (Hr : h < U64).

Lemma ask_read m a content off :
  v_open_files (sv_vfs s) h = Some (TFile m a content) -> off < U64 ->
  exists tr s', sv_vfs s' = sv_vfs s /\
    forall held, exchange cf addr eio os held (Some h) n (ORead h off 4096 0 0 0 0) s tr s' 0
                   (take 4096 (drop off content)).
Proof.
  intros V Ho.
  destruct (served_exchange n (ORead h off 4096 0 0 0 0) (Some h) s
    (fun e p v' => e = 0%Z /\ v' = sv_vfs s /\ p = take 4096 (drop off content))) as (e & p & tr & s' & (-> & Y & ->) & Z);
    [exact Nr|ranges|short|reflexivity|discriminate|discriminate|reflexivity|reflexivity| | |].
  - intros []; cbn; auto; try discriminate; intros []; discriminate.
  - intros rq Nw Rq.
    exists 0%Z, (take 4096 (drop off content)), (sv_vfs s). split; [|auto].
    destruct (C54_data U os cf _ rq Nw (sv_vfs s) tt SendOk tt tt (take 4096 (drop off content)))
      as (_ & _ & _ & D & _).
    { rewrite nlen_take. unfold u32_max. lia. }
    assert (Rq' := Rq). destruct Rq' as [_ Dv]. cbn [op_type expected] in Dv.
    eapply D; [exact Rq|exact V|reflexivity|].
    cbn [u_read tree_user]. unfold tree_read. now rewrite Dv.
  - exists tr, s'. auto.
Qed.

Lemma ask_readdir m a es off :
  (exists n', true_node n' (TDir m a es)) ->
  v_open_dirs (sv_vfs s) h = Some (TDir m a es) -> off < U64 ->
  exists p tr s', sv_vfs s' = sv_vfs s /\
    client_readdir p = Some (map static_seen
      (fitting (fun x => readdir_size (si_name (fst x))) 4096
         (numbered (off + 1) (drop off (map item_of es))))) /\
    forall held, exchange cf addr eio os held (Some h) n (OReaddir h off 4096 0 0 0 0) s tr s' 0 p.
Proof.
  intros [n' T] V Ho. destruct (items_ok _ _ _ _ T) as [I1 I2].
  destruct (served_exchange n (OReaddir h off 4096 0 0 0 0) (Some h) s
    (fun e p v' => e = 0%Z /\ v' = sv_vfs s /\ client_readdir p = Some (map static_seen
      (fitting (fun x => readdir_size (si_name (fst x))) 4096
         (numbered (off + 1) (drop off (map item_of es))))))) as (e & p & tr & s' & (-> & Y & X) & Z);
    [exact Nr|ranges|short|reflexivity|discriminate|discriminate|reflexivity|reflexivity| | |].
  - intros []; cbn; auto; try discriminate; intros []; discriminate.
  - intros rq Nw Rq.
    destruct (C48_readdir_page (addr rq) (map item_of es) off 4096 (Haddr rq) I1 I2) as (p & P1 & P2 & P3).
    change (N.min 4096 65535) with 4096 in *.
    exists 0%Z, p, (sv_vfs s). split; [|auto].
    destruct (C54_data U os cf _ rq Nw (sv_vfs s) tt SendOk tt tt p) as (_ & _ & _ & _ & D & _).
    { unfold u32_max. lia. }
    assert (Rq' := Rq). destruct Rq' as [_ Dv]. cbn [op_type expected] in Dv.
    eapply D; [exact Rq|exact V|reflexivity|].
    cbn [u_readdir tree_user]. unfold tree_readdir. rewrite Dv, nonzero_off. now rewrite P1.
  - exists p, tr, s'. auto.
Qed.

Lemma ask_release t :
  v_open_files (sv_vfs s) h = Some t ->
  exists tr s', v_nodes (sv_vfs s') = v_nodes (sv_vfs s) /\
    v_next_handle_id (sv_vfs s') = v_next_handle_id (sv_vfs s) /\
    forall held, exchange cf addr eio os held None n (ORelease h 0 0 0) s tr s' 0 [].
Proof.
  intros V.
  destruct (served_exchange n (ORelease h 0 0 0) None s
    (fun e p v' => e = 0%Z /\ p = [] /\ v_nodes v' = v_nodes (sv_vfs s) /\
       v_next_handle_id v' = v_next_handle_id (sv_vfs s))) as (e & p & tr & s' & (-> & -> & X & Y) & Z);
    [exact Nr|ranges|short|reflexivity|discriminate|discriminate|reflexivity|reflexivity| | |].
  - intros []; cbn; auto; try discriminate; intros []; discriminate.
  - intros rq Nw Rq.
    destruct (C54_release U os cf _ rq Nw n h _ _ t (sv_vfs s) tt SendOk tt Rq V eq_refl)
      as (v' & Sv & _ & _ & _ & A & B).
    exists 0%Z, [], v'. auto.
  - exists tr, s'. auto.
Qed.
Lemma ask_releasedir t :
  v_open_dirs (sv_vfs s) h = Some t ->
  exists tr s', v_nodes (sv_vfs s') = v_nodes (sv_vfs s) /\
    v_next_handle_id (sv_vfs s') = v_next_handle_id (sv_vfs s) /\
    forall held, exchange cf addr eio os held None n (OReleasedir h 0 0 0) s tr s' 0 [].
Proof.
  intros V.
  destruct (served_exchange n (OReleasedir h 0 0 0) None s
    (fun e p v' => e = 0%Z /\ p = [] /\ v_nodes v' = v_nodes (sv_vfs s) /\
       v_next_handle_id v' = v_next_handle_id (sv_vfs s))) as (e & p & tr & s' & (-> & -> & X & Y) & Z);
    [exact Nr|ranges|short|reflexivity|discriminate|discriminate|reflexivity|reflexivity| | |].
  - intros []; cbn; auto; try discriminate; intros []; discriminate.
  - intros rq Nw Rq.
    destruct (C54_releasedir U os cf _ rq Nw n h _ _ t (sv_vfs s) tt SendOk tt Rq V eq_refl)
      as (v' & Sv & _ & _ & _ & A & B).
    exists 0%Z, [], v'. auto.
  - exists tr, s'. auto.
Qed.
End AskingHandles.

(** Reading to the end *)
Lemma read_all n h m a content :
  0 < n < U64 -> h < U64 -> nlen content < 2 ^ 63 -> forall k off s,
  v_open_files (sv_vfs s) h = Some (TFile m a content) -> off <= nlen content ->
  (N.to_nat (nlen content - off) <= k)%nat ->
  exists tr s', sv_vfs s' = sv_vfs s /\
    forall held, reads cf addr eio os held n h off s tr s' (drop off content).
Proof.
  intros Nr Hr Ln. change (2 ^ 63) with 9223372036854775808 in Ln.
  induction k as [|k IH]; intros off s V Ho Hk.
  all: destruct (ask_read n h s Nr Hr m a content off V ltac:(unfold U64; lia)) as (tr & s1 & E1 & Ex).
  all: destruct (N.eq_dec off (nlen content)) as [->|Ne].
  1, 3: exists tr, s1; split; [exact E1|]; intros held; specialize (Ex held);
    rewrite drop_all in Ex |- * by lia; eapply reads_end; [|exact Ex]; lia.
  - lia.
  - assert (Lp : nlen (take 4096 (drop off content)) = N.min 4096 (nlen content - off))
      by (rewrite nlen_take, nlen_drop; lia).
    destruct (IH (off + nlen (take 4096 (drop off content))) s1) as (tr2 & s2 & E2 & R).
    + now rewrite E1.
    + lia.
    + lia.
    + exists (tr ++ tr2), s2. split; [congruence|]. intros held.
      rewrite <- (take_rest 4096 (drop off content)), drop_drop.
      eapply reads_more; [|apply Ex| |apply R]; [lia|].
      intros X. rewrite X in Lp. change (nlen []) with 0 in Lp. lia.
Qed.

Lemma list_all n h m a es :
  0 < n < U64 -> h < U64 -> (exists n', true_node n' (TDir m a es)) ->
  forall off sizes l, stream (readdir_page (map item_of es)) s_off off sizes l ->
  Forall (eq 4096) sizes -> forall s,
  v_open_dirs (sv_vfs s) h = Some (TDir m a es) -> off < U64 ->
  exists tr s', sv_vfs s' = sv_vfs s /\ forall held, lists cf addr eio os held n h off s tr s' l.
Proof.
  intros Nr Hr Tt off sizes l H. assert (Tt' := Tt). destruct Tt' as [n' T]. destruct (items_ok _ _ _ _ T) as [I1 I2].
  assert (Page : forall off l, readdir_page (map item_of es) off 4096 l ->
    l = map static_seen
      (fitting (fun x => readdir_size (si_name (fst x))) 4096
         (numbered (off + 1) (drop off (map item_of es))))).
  { intros o l0 [_ (ad & p & Ha & P1 & P2)].
    destruct (C48_readdir_page ad (map item_of es) o 4096 Ha I1 I2) as (p' & Q1 & Q2 & _).
    change (N.min 4096 65535) with 4096 in Q2. congruence. }
  induction H as [off size Pg|off size l x sizes rest Pg St IH]; intros Fs s V Ho.
  all: apply Forall_cons_iff in Fs as [<- Fs].
  all: destruct (ask_readdir n h s Nr Hr m a es off Tt V Ho) as (p & tr & s1 & E1 & C & Ex).
  all: pose proof (Page _ _ Pg) as El; rewrite <- El in C.
  - exists tr, s1. split; [exact E1|]. intros held. eapply lists_end; [|apply Ex|exact C]. lia.
  - destruct (IH Fs s1) as (tr2 & s2 & E2 & R).
    + now rewrite E1.
    + assert (F : Forall (fun y => s_off y < U64) (l ++ [x])).
      { rewrite El. apply Forall_map. apply fitting_forall. intros i k X K. cbn [static_seen s_off].
        assert (K0 : drop off (map item_of es) <> []) by (intros Z; rewrite Z in X; destruct X).
        rewrite nlen_drop in K. lia. }
      apply Forall_app in F as [_ F]. now apply Forall_cons_iff in F as [F _].
    + exists (tr ++ tr2), s2. split; [congruence|]. intros held. eapply lists_more; [|apply Ex|exact C|apply R]. lia.
Qed.

(** *** The whole walk *)

Lemma tree_induction (P : tree -> Prop) :
  (forall n a c, P (TFile n a c)) ->
  (forall n a es, Forall (fun x => P (snd x)) es -> P (TDir n a es)) ->
  (forall n a g, P (TLink n a g)) -> forall t, P t.
Proof.
  intros Hf Hd Hl. fix IH 1. intros [n a c|n a es|n a g]; [apply Hf|apply Hd|apply Hl].
  induction es as [|x es IHes]; constructor; [apply IH|exact IHes].
Qed.

Definition entries_size (es : list (bytes * tree)) : N := fold_right (fun x k => tree_size (snd x) + k) 0 es.
Lemma tree_size_pos t : 1 <= tree_size t.
Proof. destruct t; cbn; lia. Qed.

(** Room for [a] more handles and [b] more lookups. *)
Definition room (a b : N) (v : vfs tree tree tree) : Prop :=
  true_table v /\ v_next_handle_id v + a < U64 /\ forall n t c, v_nodes v n = Some (t, c) -> c + b < U64.
Definition more (s s' : server) : Prop := forall n t, holds s n t -> holds s' n t.

Lemma room_same a b v v' : v_nodes v' = v_nodes v -> v_next_handle_id v' = v_next_handle_id v ->
  room a b v -> room a b v'.
Proof.
  intros A B (R1 & R2 & R3). split; [|split].
  - intros n t c. rewrite A. apply R1.
  - now rewrite B.
  - intros n t c. rewrite A. apply R3.
Qed.
Lemma room_opened a b v v' : v_nodes v' = v_nodes v -> v_next_handle_id v' = v_next_handle_id v + 1 ->
  room (1 + a) b v -> room a b v'.
Proof.
  intros A B (R1 & R2 & R3). split; [|split].
  - intros n t c. rewrite A. apply R1.
  - rewrite B. lia.
  - intros n t c. rewrite A. apply R3.
Qed.
Lemma more_same s s' : v_nodes (sv_vfs s') = v_nodes (sv_vfs s) -> more s s'.
Proof. intros A n t [c V]. exists c. now rewrite A. Qed.
Lemma more_trans s s1 s2 : more s s1 -> more s1 s2 -> more s s2.
Proof. intros A B n t X. auto. Qed.

Definition walkable (t : tree) : Prop :=
  forall n a b s, true_node n t -> holds s n t -> room (tree_size t + a) (tree_size t - 1 + b) (sv_vfs s) ->
  exists tr s' pic, room a b (sv_vfs s') /\ more s s' /\ shows cf pic t /\
    forall held, sees cf addr eio os held n s tr s' pic.

Lemma walk_entries n m at_ all : true_node n (TDir m at_ all) -> forall es, incl es all ->
  Forall (fun x => walkable (snd x)) es -> forall a b s,
  holds s n (TDir m at_ all) -> room (entries_size es + a) (entries_size es + b) (sv_vfs s) ->
  exists tr s' pics, room a b (sv_vfs s') /\ more s s' /\
    Forall2 (fun x y => fst x = fst y /\ shows cf (snd x) (snd y)) pics es /\
    forall held, sees_entries cf addr eio os held n s tr s' (map fst es) pics.
Proof.
  intros Hn es Ic F. induction F as [|[name c] es W F IH]; intros a b s Hs R.
  - exists [], s, []. split; [exact R|]. split; [intros ? ? X; exact X|]. split; [constructor|].
    intros held. constructor.
  - cbn [entries_size fold_right snd] in R. fold (entries_size es) in R. cbn [snd] in W.
    assert (Hc : In (name, c) all) by (apply Ic; now left).
    pose proof (true_child _ _ _ _ _ _ Hn Hc) as Tc. pose proof (tree_size_pos c) as Pc.
    destruct R as (R1 & R2 & R3).
    destruct (ask_lookup n _ s Hn Hs m at_ all name c eq_refl Hc) as (p & tr1 & s1 & P1 & P2 & P3 & P4 & Ex).
    { intros k u X. apply R3 in X. lia. }
    assert (N1 : exists k, v_nodes (sv_vfs s1) (t_node c) = Some (c, k) /\
      k + (tree_size c - 1 + (entries_size es + b)) < U64).
    { rewrite P2. destruct (v_nodes (sv_vfs s) (t_node c)) as [[u k]|] eqn:V.
      - exists (k + 1). rewrite (true_unique _ _ _ (R1 _ _ _ V) Tc). split; [reflexivity|]. apply R3 in V. lia.
      - exists 1. split; [reflexivity|]. destruct Hs as [k Vn]. apply R3 in Vn. lia. }
    assert (M1 : more s s1).
    { intros i u [k X]. destruct (N.eq_dec i (t_node c)) as [->|Ne].
      - destruct N1 as (k' & N1 & _). exists k'. rewrite N1. f_equal. f_equal.
        eapply true_unique; [exact Tc|]. eapply R1; eauto.
      - exists k. now rewrite P3. }
    assert (Rm1 : room (tree_size c + (entries_size es + a)) (tree_size c - 1 + (entries_size es + b)) (sv_vfs s1)).
    { destruct N1 as (k' & N1 & N2). split; [|split].
      - intros i u k X. destruct (N.eq_dec i (t_node c)) as [->|Ne].
        + rewrite N1 in X. injection X as <- _. exact Tc.
        + rewrite P3 in X by exact Ne. eapply R1; eauto.
      - rewrite P4. lia.
      - intros i u k X. destruct (N.eq_dec i (t_node c)) as [->|Ne].
        + rewrite N1 in X. injection X as <- <-. exact N2.
        + rewrite P3 in X by exact Ne. apply R3 in X. lia. }
    assert (H1 : holds s1 (t_node c) c) by (destruct N1 as (k & N1 & _); now exists k).
    destruct (W _ _ _ s1 Tc H1 Rm1) as (tr2 & s2 & pic & Rm2 & M2 & Sh & Se).
    destruct (IH ltac:(intros x X; apply Ic; now right) a b s2) as (tr3 & s3 & pics & Rm3 & M3 & Fp & Sen).
    { apply M2, M1, Hs. }
    { exact Rm2. }
    exists (tr1 ++ tr2 ++ tr3), s3, ((name, pic) :: pics). split; [exact Rm3|].
    split; [eapply more_trans; [exact M1|]; eapply more_trans; eauto|].
    split; [constructor; [split; [reflexivity|exact Sh]|exact Fp]|].
    intros held. cbn [map fst]. eapply entries_cons.
    + apply Ex.
    + rewrite P1. destruct (true_ok _ _ Tc) as [X _]. lia.
    + rewrite P1. apply Se.
    + apply Sen.
Qed.

Lemma walk_exists t : walkable t.
Proof.
  induction t as [m at_ content|m at_ es F|m at_ target] using tree_induction; intros n a b s Hn Hs R.
  all: assert (Nr : 0 < n < U64) by (eapply node_range; eauto); pose proof (true_ok _ _ Hn) as Ok.
  all: destruct (ask_getattr n _ s Hn Hs) as (p & tr1 & s1 & E1 & K & A & Ex1).
  all: assert (H1 : holds s1 n _) by (destruct Hs as [c V]; exists c; rewrite E1; exact V).
  all: assert (M1 : more s s1) by (apply more_same; now rewrite E1).
  all: cbn [tree_size] in R.
  - assert (R1 : room (1 + a) b (sv_vfs s1)) by (rewrite E1; exact R).
    assert (Hh : v_next_handle_id (sv_vfs s1) + 1 < U64) by (destruct R1 as (_ & X & _); lia).
    destruct (ask_open n _ s1 Hn H1 m at_ content eq_refl Hh) as (o & tr2 & s2 & O1 & O2 & O3 & O4 & Ex2).
    set (h := v_next_handle_id (sv_vfs s1)) in *.
    destruct Ok as (_ & _ & _ & Ln).
    destruct (read_all n h m at_ content Nr ltac:(lia) Ln (N.to_nat (nlen content - 0)) 0 s2 O3 ltac:(lia) ltac:(lia))
      as (tr3 & s3 & E3 & Rd).
    destruct (ask_release n h s3 Nr ltac:(lia) (TFile m at_ content) ltac:(rewrite E3; exact O3))
      as (tr4 & s4 & E4 & E5 & Ex4).
    exists (tr1 ++ tr2 ++ tr3 ++ tr4), s4, (PFile p content).
    split; [eapply room_same; [exact E4|exact E5|]; rewrite E3; eapply room_opened; eauto|].
    split; [eapply more_trans; [exact M1|]; apply more_same; now rewrite E4, E3, O4|].
    split; [constructor; exact A|]. intros held. subst h.
    eapply sees_file; [apply Ex1|exact K| | |]; rewrite ?O1; [apply Ex2|rewrite drop_0 in Rd; apply Rd|apply Ex4].
  - assert (R1 : room (1 + (entries_size es + a)) (entries_size es + b) (sv_vfs s1)).
    { rewrite E1. unfold entries_size in *. destruct R as (X & Y & Z). split; [exact X|]. split; [lia|].
      intros i u c V. apply Z in V. lia. }
    assert (Hh : v_next_handle_id (sv_vfs s1) + 1 < U64) by (destruct R1 as (_ & X & _); lia).
    destruct (ask_opendir n _ s1 Hn H1 m at_ es eq_refl Hh) as (o & tr2 & s2 & O1 & O2 & O3 & O4 & Ex2).
    set (h := v_next_handle_id (sv_vfs s1)) in *.
    destruct (items_ok _ _ _ _ Hn) as [I1 I2].
    destruct (C48_readdir_ends (map item_of es) (fun _ => 4096) I1 I2) as (k & l & St & _).
    { intros i _ X. apply in_map_iff in X as ((name, c) & <- & X). cbn [item_of si_name fst].
      destruct Ok as (_ & _ & _ & _ & _ & Fn). rewrite Forall_forall in Fn.
      destruct (Fn _ X) as [_ Ln]. cbn [fst] in Ln. unfold readdir_size, up8.
      pose proof (N.mod_upper_bound (24 + nlen name + 7) 8 ltac:(lia)). lia. }
    pose proof (C48_readdir _ _ _ I1 I2 St) as El.
    destruct (list_all n h m at_ es Nr ltac:(lia) (ex_intro _ n Hn) _ _ _ St) with (s := s2) as (tr3 & s3 & E3 & Ls).
    { apply Forall_forall. intros x X. apply in_map_iff in X as (? & <- & _). reflexivity. }
    { exact O3. }
    { reflexivity. }
    destruct (ask_releasedir n h s3 Nr ltac:(lia) (TDir m at_ es) ltac:(rewrite E3; exact O3))
      as (tr4 & s4 & E4 & E5 & Ex4).
    assert (M4 : more s s4) by (eapply more_trans; [exact M1|]; apply more_same; now rewrite E4, E3, O4).
    destruct (walk_entries n m at_ es Hn es (incl_refl _) F a b s4) as (tr5 & s5 & pics & R5 & M5 & Fp & Se).
    { apply M4, Hs. }
    { eapply room_same; [exact E4|exact E5|]; rewrite E3; eapply room_opened; eauto. }
    exists (tr1 ++ tr2 ++ tr3 ++ tr4 ++ tr5), s5, (PDir p pics).
    split; [exact R5|]. split; [eapply more_trans; eauto|].
    split; [constructor; [exact A|exact Fp]|]. intros held. subst h.
    eapply sees_dir; [apply Ex1|exact K| | | |]; rewrite ?O1; [apply Ex2|apply Ls|apply Ex4|].
    rewrite El, names_listed. apply Se.
  - assert (R1 : room a b (sv_vfs s1)).
    { rewrite E1. destruct R as (X & Y & Z). split; [exact X|]. split; [lia|]. exact Z. }
    destruct (ask_readlink n _ s1 Hn H1 m at_ target eq_refl) as (tr2 & s2 & E2 & Ex2).
    exists (tr1 ++ tr2), s2, (PLink p target). split; [now rewrite E2|].
    split; [eapply more_trans; [exact M1|]; apply more_same; now rewrite E2|].
    split; [constructor; exact A|]. intros held. eapply sees_link; [apply Ex1|exact K|apply Ex2].
Qed.

(** The walk can always be made, until the counters of the server run out. *)
Theorem C70_possible tr0 s n t :
  steps (start root tt) tr0 s -> genuine tr0 -> nlen tr0 + tree_size t + 1 < U64 ->
  sub t root -> t_node t = n -> resolvable n tr0 ->
  exists tr s' pic, shows cf pic t /\ forall held, sees cf addr eio os held n s tr s' pic.
Proof.
  intros St0 G0 L Sb Tn Rs. assert (T : true_node n t) by (split; auto).
  pose proof (tree_size_pos t) as Pt.
  assert (Hs : holds s n t) by (apply (holds_resolvable tr0 s St0 G0); auto; lia).
  pose proof (handles_le tr0) as Hl.
  destruct (handles_inv U os cf root tt tr0 s St0 ltac:(lia)) as (_ & Nh & _).
  destruct (walk_exists t n 0 1 s T Hs) as (tr & s' & pic & _ & _ & Sh & Se).
  - split; [now apply (registered tr0)|]. split.
    + rewrite Nh. replace (nlen (handles tr0) + 1 <? U64) with true by lia. lia.
    + intros m u c V. pose proof (lookups_le m tr0) as Ll.
      pose proof (nodes_inv U os cf root tt tr0 s m St0 ltac:(lia)) as X. unfold table_inv in X. rewrite V in X.
      destruct X as [-> _]. pose proof (net_le m tr0). lia.
  - exists tr, s', pic. auto.
Qed.
End Proofs.

(** ** Concrete cases *)

Local Instance LE : Endian := false.

(** A directory with a file "ab", a link "l" to it, and a directory "d" where
    the file is called "r". *)
Definition the_file : tree := TFile 5 [SetMode 33188; SetSize 2] [x68; x69].
Definition the_link : tree := TLink 6 [SetMode 41471] ab.
Definition the_dir : tree := TDir 7 [SetMode 16877] [(r_, the_file)].
Definition the_tree : tree := TDir 1 [SetMode 16877] [(ab, the_file); ([x6c], the_link); ([x64], the_dir)].

Fixpoint subs (t : tree) : list tree :=
  t :: match t with TDir _ _ es => flat_map (fun x => subs (snd x)) es | _ => [] end.
Lemma sub_subs t root : sub t root -> In t (subs root).
Proof.
  intros H. induction H as [|name c n a es I H IH]; [destruct t; now left|].
  cbn [subs]. right. apply in_flat_map. exists (name, c). auto.
Qed.
Lemma the_tree_ok : tree_ok the_tree.
Proof.
  split; [reflexivity|].
  assert (S : forall t, sub t the_tree -> In t [the_tree; the_file; the_link; the_dir; the_file])
    by (intros t H; exact (sub_subs _ _ H)).
  split.
  - intros t H. apply S in H. cbn [In] in H.
    destruct H as [<-|[<-|[<-|[<-|[<-|[]]]]]]; (split; [split; reflexivity|]);
      (split; [repeat constructor|]); (split; [reflexivity|]); try reflexivity.
    + split; [|split; [reflexivity|]].
      * cbn. repeat constructor; cbn; intuition discriminate.
      * repeat constructor; cbn; discriminate.
    + split; [|split; [reflexivity|]].
      * cbn. repeat constructor; cbn; intuition discriminate.
      * repeat constructor; cbn; discriminate.
  - intros t1 t2 H1 H2. apply S in H1. apply S in H2. cbn [In] in H1, H2.
    destruct H1 as [<-|[<-|[<-|[<-|[<-|[]]]]]]; destruct H2 as [<-|[<-|[<-|[<-|[<-|[]]]]]];
      try reflexivity; discriminate.
Qed.

Definition here (rq : Request) : N := 4096.
Notation T := (tree_user demo_cf here (-5)%Z linux_errors).
Notation tserver := (server unit tree tree tree).

Definition all_genuine (tr : list (label tree tree tree)) : bool :=
  forallb (fun l => match l with
                    | Arrived _ rq => match Request_new (rq_mem rq) with Ret _ => true | _ => false end
                    | _ => true end) tr.
Lemma genuine_all tr : all_genuine tr = true -> genuine tr.
Proof.
  unfold all_genuine. rewrite forallb_forall. intros H i rq X. specialize (H _ X). cbn in H.
  exists (rq_mem rq). destruct (Request_new (rq_mem rq)) as [r| | |] eqn:B; try discriminate.
  destruct (Request_new_accepted _ _ B) as [-> _]. now destruct rq.
Qed.
Definition all_undisturbed (held : list N) (keep : option N) (tr : list (label tree tree tree)) : bool :=
  forallb (fun l => match l with
    | Did _ (EvNodeForget items) => forallb (fun it => negb (existsb (N.eqb (fst it)) held)) items
    | Did _ (EvReleaseFile h _ _) | Did _ (EvReleaseDir h _ _) =>
      match keep with Some k => negb (k =? h) | None => true end
    | _ => true end) tr.
Lemma undisturbed_all held keep tr : all_undisturbed held keep tr = true -> undisturbed held keep tr.
Proof.
  unfold all_undisturbed. rewrite forallb_forall. intros H j e X. specialize (H _ X). cbn in H. destruct e; auto.
  - rewrite forallb_forall in H. apply Forall_forall. intros it Y Z. specialize (H it Y).
    apply Bool.negb_true_iff in H. assert (existsb (N.eqb (fst it)) held = true); [|congruence].
    apply existsb_exists. exists (fst it). split; [exact Z|apply N.eqb_refl].
  - destruct keep as [k|]; [|discriminate]. intros [= ->]. rewrite N.eqb_refl in H. discriminate.
  - destruct keep as [k|]; [|discriminate]. intros [= ->]. rewrite N.eqb_refl in H. discriminate.
Qed.

(** An exchange as a schedule: first [others], then the request and its
    handler to the end. *)
Fixpoint to_end (fuel i : nat) (s : tserver) : list choice :=
  match fuel with
  | O => []
  | S fuel =>
    match schedule1 T linux_errors demo_cf (Takes i SendOk) s with
    | Some (_, s') => Takes i SendOk :: to_end fuel i s'
    | None => []
    end
  end.
Definition tree_rq (n : N) (op : client_op) : Request := {| rq_mem := encode demo_cf (hd_for n) op |}.
Definition ran (cs : list choice) (s : tserver) : list (label tree tree tree) * tserver :=
  match schedule T linux_errors demo_cf cs s with Some x => x | None => ([], s) end.
Lemma ran_steps cs s : steps T linux_errors demo_cf s (fst (ran cs s)) (snd (ran cs s)).
Proof.
  unfold ran. destruct (schedule _ _ _ cs s) as [[tr s']|] eqn:X; [|constructor].
  now apply schedule_steps in X.
Qed.
Definition asks (others : list choice) (n : N) (op : client_op) (s : tserver) : list choice :=
  let s1 := snd (ran (others ++ [Arrives (tree_rq n op)]) s) in
  others ++ [Arrives (tree_rq n op)] ++ to_end 12 (length (sv_threads s1) - 1) s1.
Definition shown (others : list choice) (n : N) (op : client_op) (s : tserver) : list (label tree tree tree) :=
  fst (ran (asks others n op s) s).
Definition then_ (others : list choice) (n : N) (op : client_op) (s : tserver) : tserver :=
  snd (ran (asks others n op s) s).
Definition the_request (n : N) (op : client_op) (tr : list (label tree tree tree)) : list nat :=
  flat_map (fun l => match l with
    | Arrived i rq => if list_eq_dec byte_eq_dec (rq_mem rq) (rq_mem (tree_rq n op)) then [i] else []
    | _ => [] end) tr.
Definition the_replies (i : nat) (tr : list (label tree tree tree)) : list SendBuf :=
  flat_map (fun l => match l with
    | Did j (EvSend b SendOk) => if Nat.eqb j i then [b] else []
    | _ => [] end) tr.
Definition reply_read (tr : list (label tree tree tree)) (n : N) (op : client_op) (s' : tserver) : option (Z * bytes) :=
  match the_request n op tr with
  | [i] =>
    match the_replies i tr, nth i (returned s') false with
    | [b], true =>
      match on_wire b with
      | Ret m =>
        if SendBuf_len b =? nlen m then
          match kernel_read m with
          | Some (Reply id e p) => if id =? 1 then Some (e, p) else None
          | _ => None
          end
        else None
      | _ => None
      end
    | _, _ => None
    end
  | _ => None
  end.

Lemma exchanged others n op s held keep error p :
  0 < n < U64 -> good_op demo_cf op -> 40 + nlen (op_body demo_cf op) < U32 ->
  available false (op_type op) = true -> body_node_ids op = [] ->
  all_genuine (shown others n op s) = true -> all_undisturbed held keep (shown others n op s) = true ->
  reply_read (shown others n op s) n op (then_ others n op s) = Some (error, p) ->
  exchange demo_cf here (-5) linux_errors held keep n op s (shown others n op s) (then_ others n op s) error p.
Proof.
  intros Hn Go L Av Bn Ge Un Rr. split; [apply ran_steps|]. split; [now apply genuine_all|].
  split; [now apply undisturbed_all|].
  apply genuine_all in Ge. unfold reply_read in Rr. set (tr := shown others n op s) in *.
  destruct (the_request n op tr) as [|i [|]] eqn:A; try discriminate.
  destruct (the_replies i tr) as [|b [|]] eqn:B; try discriminate.
  destruct (nth i (returned (then_ others n op s)) false) eqn:F; try discriminate.
  destruct (on_wire b) as [m| | |] eqn:W; try discriminate.
  destruct (SendBuf_len b =? nlen m) eqn:Ln; try discriminate.
  destruct (kernel_read m) as [[id e q|]|] eqn:K; try discriminate.
  destruct (id =? 1) eqn:I1; try discriminate. injection Rr as <- <-.
  apply N.eqb_eq in Ln. apply N.eqb_eq in I1. subst id.
  assert (Ar : In (Arrived i (tree_rq n op)) tr).
  { assert (X : In i (the_request n op tr)) by (rewrite A; now left).
    unfold the_request in X. apply in_flat_map in X as (l & X & Y). destruct l as [|j rq|]; try contradiction.
    destruct (list_eq_dec _ _ _) as [Eq|]; [|contradiction]. destruct Y as [->|[]]. destruct rq as [mem].
    cbn [rq_mem tree_rq] in Eq. subst mem. exact X. }
  exists (hd_for n), (tree_rq n op), i, b. split.
  { split; [now apply good_hd|]. split; [exact Go|]. split; [exact Av|]. split.
    - intros _ _. cbn. lia.
    - rewrite Bn. constructor. }
  split; [reflexivity|]. split; [exact L|].
  split.
  { destruct (Ge _ _ Ar) as [buf X]. destruct (Request_new_accepted _ _ X) as [Y _].
    assert (Z : buf = encode demo_cf (hd_for n) op) by (unfold tree_rq in Y; congruence). now rewrite Z in X. }
  split; [exact Ar|]. split.
  { assert (X : In b (the_replies i tr)) by (rewrite B; now left). unfold the_replies in X.
    apply in_flat_map in X as (l & X & Y). destruct l as [j e0| |]; try contradiction.
    destruct e0; try contradiction. destruct r; try contradiction. destruct (Nat.eqb_spec j i) as [->|]; [|contradiction].
    destruct Y as [->|[]]. exact X. }
  split; [exists m; auto|].
  assert (Y : nth_error (returned (then_ others n op s)) i = Some true).
  { destruct (nth_error (returned (then_ others n op s)) i) as [x|] eqn:Z.
    - rewrite (nth_error_nth _ _ _ Z) in F. now rewrite F.
    - apply nth_error_None in Z. rewrite nth_overflow in F by exact Z. discriminate. }
  apply returned_nth in Y. eexists. exact Y.
Qed.

Ltac exchange_now :=
  apply exchanged; [split; reflexivity|split; [repeat constructor|try exact I]|reflexivity|reflexivity|reflexivity|
    vm_compute; reflexivity|vm_compute; reflexivity|vm_compute; reflexivity].

(** Before: "ab" and "d" are looked up, the file is opened twice, and the root
    directory once. *)
Definition before : list choice :=
  [Arrives (tree_rq 1 (OLookup ab))] ++ steps_of 0 5 ++ [Arrives (tree_rq 1 (OLookup [x64]))] ++ steps_of 1 5 ++
  [Arrives (tree_rq 5 (OOpen 0 0))] ++ steps_of 2 5 ++ [Arrives (tree_rq 5 (OOpen 0 0))] ++ steps_of 3 5 ++
  [Arrives (tree_rq 1 (OOpendir 0 0))] ++ steps_of 4 5.
Definition tr_before := fst (ran before (start the_tree tt)).
Definition s_before := snd (ran before (start the_tree tt)).
(** Meanwhile: "ab" is looked up again, the second handle is released, the node of "l",
    which nobody holds, is given up; none of them is finished. *)
Definition meanwhile : list choice :=
  [Arrives (tree_rq 1 (OLookup ab)); Arrives (tree_rq 5 (ORelease 2 0 0 0)); Arrives (tree_rq 6 (OForget 1))] ++
  [Takes 5 SendOk; Takes 6 SendOk; Takes 7 SendOk; Takes 5 SendOk].


Lemma before_ok :
  steps T linux_errors demo_cf (start the_tree tt) tr_before s_before /\ genuine tr_before /\ nlen tr_before = 30.
Proof. split; [apply ran_steps|]. split; [apply genuine_all|]; vm_compute; reflexivity. Qed.
Lemma the_subs : sub the_file the_tree /\ sub the_dir the_tree.
Proof.
  split; (eapply sub_below; [|constructor]); [now left|right; right; now left].
Qed.
Lemma resolvable_before n : net n tr_before = 1 -> resolvable n tr_before.
Proof. intros H. apply resolvable_net. right. now rewrite H. Qed.

Lemma live_files h f : v_open_files (sv_vfs s_before) h = Some f -> live_file tr_before h f.
Proof.
  destruct before_ok as (A & _ & L). pose proof (handles_le tr_before) as Hl. rewrite L in Hl.
  assert (Hl' : nlen (handles tr_before) < U64) by (apply N.le_lt_trans with 30; [exact Hl|reflexivity]).
  destruct (handles_inv T linux_errors demo_cf the_tree tt tr_before s_before A Hl') as (_ & _ & F & D).
  apply F.
Qed.
Lemma live_dirs h f : v_open_dirs (sv_vfs s_before) h = Some f -> live_dir tr_before h f.
Proof.
  destruct before_ok as (A & _ & L). pose proof (handles_le tr_before) as Hl. rewrite L in Hl.
  assert (Hl' : nlen (handles tr_before) < U64) by (apply N.le_lt_trans with 30; [exact Hl|reflexivity]).
  destruct (handles_inv T linux_errors demo_cf the_tree tt tr_before s_before A Hl') as (_ & _ & F & D).
  apply D.
Qed.

Example C70_answers_example :
  sub the_file the_tree /\ resolvable 5 tr_before /\ In 5 [1; 5] /\
  (exists p, exchange demo_cf here (-5) linux_errors [1; 5] None 5 (OGetattr 0 0 0) s_before
     (shown meanwhile 5 (OGetattr 0 0 0) s_before) (then_ meanwhile 5 (OGetattr 0 0 0) s_before) 0 p /\
     u64_at 24 p = 2) /\
  (exists p, exchange demo_cf here (-5) linux_errors [1; 5] None 1 (OLookup [x6c]) s_before
     (shown meanwhile 1 (OLookup [x6c]) s_before) (then_ meanwhile 1 (OLookup [x6c]) s_before) 0 p /\
     u64_at 0 p = 6) /\
  exchange demo_cf here (-5) linux_errors [1; 5] None 5 (OOpendir 0 0) s_before
     (shown meanwhile 5 (OOpendir 0 0) s_before) (then_ meanwhile 5 (OOpendir 0 0) s_before) (-20) [].
Proof.
  split; [apply the_subs|]. split; [apply resolvable_before; vm_compute; reflexivity|].
  split; [right; now left|].
  split; [eexists; split; [exchange_now|vm_compute; reflexivity]|].
  split; [eexists; split; [|]|].
  - apply exchanged; [split; reflexivity|split; [constructor|]|reflexivity|reflexivity|reflexivity|
      vm_compute; reflexivity|vm_compute; reflexivity|vm_compute; reflexivity].
    split; [discriminate|]. split; intros [X|[]]; discriminate.
  - vm_compute; reflexivity.
  - exchange_now.
Qed.

Example C70_answers_open_example :
  live_file tr_before 1 the_file /\ live_dir tr_before 3 the_tree /\
  exchange demo_cf here (-5) linux_errors [] (Some 1) 5 (ORead 1 1 10 0 0 0 0) s_before
     (shown meanwhile 5 (ORead 1 1 10 0 0 0 0) s_before) (then_ meanwhile 5 (ORead 1 1 10 0 0 0 0) s_before) 0 [x69] /\
  exists p, exchange demo_cf here (-5) linux_errors [] (Some 3) 1 (OReaddir 3 0 70 0 0 0 0) s_before
     (shown meanwhile 1 (OReaddir 3 0 70 0 0 0 0) s_before) (then_ meanwhile 1 (OReaddir 3 0 70 0 0 0 0) s_before) 0 p /\
     option_map (map s_name) (client_readdir p) = Some [ab; [x6c]].
Proof.
  split; [|split; [|split]].
  - apply live_files. vm_compute. reflexivity.
  - apply live_dirs. vm_compute. reflexivity.
  - exchange_now.
  - eexists. split; [exchange_now|vm_compute; reflexivity].
Qed.

(** A walk from "d", other requests in between. *)
Definition w1 := then_ [] 7 (OGetattr 0 0 0) s_before.
Definition w2 := then_ [] 7 (OOpendir 0 0) w1.
Definition w3 := then_ [] 7 (OReaddir 4 0 4096 0 0 0 0) w2.
Definition meanwhile2 : list choice :=
  [Arrives (tree_rq 5 (ORelease 2 0 0 0)); Arrives (tree_rq 6 (OForget 1)); Takes 8 SendOk; Takes 9 SendOk].
Definition w4 := then_ meanwhile2 7 (OReaddir 4 1 5000 0 0 0 0) w3.
Definition w5 := then_ [] 7 (OReleasedir 4 0 0 0) w4.
Definition w6 := then_ [] 7 (OLookup r_) w5.
Definition w7 := then_ [] 5 (OGetattr 0 0 0) w6.
Definition w8 := then_ [] 5 (OOpen 0 0) w7.
Definition w9 := then_ [] 5 (ORead 5 0 1 0 0 0 0) w8.
Definition w10 := then_ [] 5 (ORead 5 1 8 0 0 0 0) w9.
Definition w11 := then_ [] 5 (ORead 5 2 9 0 0 0 0) w10.
Definition w12 := then_ [] 5 (ORelease 5 0 0 0) w11.

Example C70_sees_example :
  sub the_dir the_tree /\ t_node the_dir = 7 /\ resolvable 7 tr_before /\ In 7 [7] /\
  exists tr a1 a2,
    sees demo_cf here (-5) linux_errors [7] 7 s_before tr w12 (PDir a1 [(r_, PFile a2 [x68; x69])]) /\
    nlen (tr_before ++ tr) < U64.
Proof.
  split; [apply the_subs|]. split; [reflexivity|].
  split; [apply resolvable_before; vm_compute; reflexivity|]. split; [now left|].
  eexists. eexists. eexists. split.
  - eapply sees_dir with (s1 := w1) (s2 := w2) (s3 := w4) (s4 := w5).
    + exchange_now.
    + vm_compute; reflexivity.
    + exchange_now.
    + eapply lists_more with (l := []) (s1 := w3) (size := 4096).
      * discriminate.
      * exchange_now.
      * vm_compute; reflexivity.
      * eapply lists_end with (size := 5000); [discriminate|exchange_now|vm_compute; reflexivity].
    + exchange_now.
    + eapply entries_cons with (s1 := w6) (s2 := w12); [| | |constructor].
      * apply exchanged; [split; reflexivity|split; [constructor|]|reflexivity|reflexivity|reflexivity|
          vm_compute; reflexivity|vm_compute; reflexivity|vm_compute; reflexivity].
        split; [discriminate|]. split; intros [X|[]]; discriminate.
      * vm_compute; discriminate.
      * eapply sees_file with (s1 := w7) (s2 := w8) (s3 := w11).
        -- exchange_now.
        -- vm_compute; reflexivity.
        -- exchange_now.
        -- eapply reads_more with (size := 1) (p := [x68]) (s1 := w9); [reflexivity|exchange_now|discriminate|].
           eapply reads_more with (size := 8) (p := [x69]) (s1 := w10); [reflexivity|exchange_now|discriminate|].
           eapply reads_end with (size := 9); [reflexivity|exchange_now].
        -- exchange_now.
  - vm_compute; reflexivity.
Qed.

Example C70_possible_example :
  nlen tr_before + tree_size the_tree + 1 < U64 /\ resolvable 1 tr_before /\
  exists tr s' pic, shows demo_cf pic the_tree /\
    forall held, sees demo_cf here (-5) linux_errors held 1 s_before tr s' pic.
Proof.
  destruct before_ok as (A & G & L).
  assert (B : nlen tr_before + tree_size the_tree + 1 < U64) by (rewrite L; reflexivity).
  assert (R : resolvable 1 tr_before) by (left; split; vm_compute; reflexivity).
  split; [exact B|]. split; [exact R|].
  eapply C70_possible with (root := the_tree); [reflexivity|exact the_tree_ok|exact A|exact G|exact B|constructor|reflexivity|exact R].
Qed.

Print Assumptions C70_answers.
Print Assumptions C70_answers_open.
Print Assumptions C70_sees.
Print Assumptions C70_possible.
