(** Theorems about programs that use names, nodes and the data of files together:
    C77 of properties.jsonl. *)

From Verif Require Import Base Kernel CoreModel DecodeModel OpsModel WireSpec OpsRoundTrip DecodeProofs
  ReplyModel ReplySpec ReplyProofs PropDecode PropHeader PropReply
  ServerModel ServerSpec PropServer DeviceSpec PropDevice
  ClientSpec PropClient TakenSpec PropTaken FileSpec PropFile CallSpec PropCalls.
From Coq Require Import List NArith ZArith Bool Lia ZifyBool ZifyNat ZifyN Strings.Byte.
Import ListNotations.
Open Scope list_scope.
Open Scope N_scope.

(** ** Specification *)

(** A file a program has open, with direct input and output; [fd_wcut] and
    [fd_rcut] as in [open_file]. *)
Record opened := { fd_node : N; fd_handle : N; fd_flags : N; fd_wcut : nat -> N; fd_rcut : nat -> N }.
Record limits := { max_pages : N; max_read : N }.
Definition file_of (m : mounted) (lim : limits) (o : opened) : open_file := {|
  of_cuse := false; of_max_write := m_max_write m; of_max_pages := max_pages lim; of_max_read := max_read lim;
  of_buf_len := m_buf_len m; of_cf := m_cf m; of_hd := fun k => header m k (fd_node o);
  of_wcut := fd_wcut o; of_rcut := fd_rcut o; of_node := fd_node o; of_fh := fd_handle o; of_flags := fd_flags o |}.
Definition good_opened (m : mounted) (lim : limits) (o : opened) : Prop :=
  id_ok (fd_node o) /\ fd_handle o < U64 /\ fd_flags o < U32 /\
  (forall k, 1 <= fd_wcut o k <= N.min (m_max_write m) (4096 * max_pages lim)) /\
  (forall k, 1 <= fd_rcut o k <= N.min (max_read lim) (4096 * max_pages lim)).

(** What programs do: system calls on nodes, and reading and writing. *)
Inductive step := Call (c : sys_call) | Io (o : opened) (c : file_call).
Inductive outcome := OfCall (r : sys_result) | OfIo (r : file_result).
Definition step_ok (m : mounted) (lim : limits) (x : step) : Prop :=
  match x with Call c => call_ok c | Io o c => good_opened m lim o /\ in_file c end.

Section Run.
Context {E : Endian} {St : Type}.

(** On a mounted file system: the number of requests, what the kernel knows of
    the server (see CallSpec.v), and its state. *)
Fixpoint run (m : mounted) (lim : limits) (prog : program St) (k : nat) (known : list N) (s : St) (l : list step)
    : option (St * list outcome) :=
  match l with
  | [] => Some (s, [])
  | x :: l =>
    match (match x with
           | Call c => match sys m prog k known s c with
                       | Some (known, s, r) => Some (S k, known, s, OfCall r) | None => None end
           | Io o (Pwrite off data) => match pwrite (file_of m lim o) prog k s off data with
                                       | Some (k, s, r) => Some (k, known, s, OfIo (Wrote r)) | None => None end
           | Io o (Pread off n) => match pread (file_of m lim o) prog k s off n with
                                   | Some (k, s, r) => Some (k, known, s, OfIo (Got r)) | None => None end
           end) with
    | None => None
    | Some (k, known, s, r) =>
      match run m lim prog k known s l with
      | Some (s, rs) => Some (s, r :: rs)
      | None => None
      end
    end
  end.

(** The handlers of reading and writing of C73 that a handler is; it answers
    with data and counts. *)
Definition rw_of (h : handler (St := St)) : handlers St := {|
  on_read := fun s v => let (s', a) := h s v in (s', match a with SaidText b => inl b | SaidError e => inr e | _ => inr (-5)%Z end);
  on_write := fun s v => let (s', a) := h s v in (s', match a with SaidCount n => inl n | SaidError e => inr e | _ => inr (-5)%Z end) |}.
Definition reads_and_writes (h : handler (St := St)) : Prop :=
  (forall s node size off fh lock flags,
     match snd (h s (VRead node size off fh lock flags)) with
     | SaidText b => size <= 1048576 -> nlen b <= 4294967000
     | SaidError e => (-512 < e < 0)%Z
     | _ => False end) /\
  (forall s node off fh data wflags lock flags,
     match snd (h s (VWrite node off fh data wflags lock flags)) with
     | SaidCount n => n < U32
     | SaidError e => (-512 < e < 0)%Z
     | _ => False end).

(** The same with the handlers called directly: no requests, no replies. *)
Definition directly (m : mounted) (lim : limits) (h : handler (St := St)) (k : nat) (known : list N) (s : St) (x : step)
    : option (nat * list N * St * outcome) :=
  match x with
  | Call c => let '(known, s, r) := handled_one (cf_minor (m_cf m)) (m_bs m) h known s c in Some (S k, known, s, OfCall r)
  | Io o (Pwrite off data) =>
    match meant_write (file_of m lim o) (rw_of h) (length data) k s off data 0 with
    | Some (k, s, r) => Some (k, known, s, OfIo (Wrote r)) | None => None end
  | Io o (Pread off n) =>
    match meant_read (file_of m lim o) (rw_of h) (N.to_nat n) k s off n [] with
    | Some (k, s, r) => Some (k, known, s, OfIo (Got r)) | None => None end
  end.
Fixpoint run_directly (m : mounted) (lim : limits) (h : handler (St := St)) (k : nat) (known : list N) (s : St)
    (l : list step) : option (St * list outcome) :=
  match l with
  | [] => Some (s, [])
  | x :: l =>
    match directly m lim h k known s x with
    | None => None
    | Some (k, known, s, r) =>
      match run_directly m lim h k known s l with
      | Some (s, rs) => Some (s, r :: rs)
      | None => None
      end
    end
  end.
End Run.

(** *** A file system in memory *)

(** The tree of PropCalls.v, where the bytes of a node are its data. *)
Definition node_at (t : tree) (id : N) : option (N * bytes) :=
  match find (fun x => fst x =? id) (t_nodes t) with Some x => Some (snd x) | None => None end.
Fixpoint set_data (id : N) (d : bytes) (l : list (N * (N * bytes))) : list (N * (N * bytes)) :=
  match l with
  | [] => []
  | (i, (mode, d0)) :: l => if i =? id then (i, (mode, d)) :: l else (i, (mode, d0)) :: set_data id d l
  end.
Definition with_data (t : tree) (id : N) (d : bytes) : tree :=
  {| t_next := t_next t; t_names := t_names t; t_nodes := set_data id d (t_nodes t) |}.
Definition attr_said (i : N * bytes) : list attr_op := [SetMode (fst i); SetSize (nlen (snd i))].
Definition resized (d : bytes) (n : N) : bytes := take n d ++ repeat x00 (N.to_nat (n - nlen d)).
Definition new_node (t : tree) (d : N) (n : bytes) (mode : N) : tree * said :=
  match find_name t d n with
  | Some _ => (t, SaidError (-17))
  | None =>
    if 2 ^ 63 <=? t_next t then (t, SaidError (-28))
    else ({| t_next := t_next t + 1; t_names := (d, n, t_next t) :: t_names t;
             t_nodes := (t_next t, (mode, [])) :: t_nodes t |},
          SaidEntry (t_next t) (attr_said (mode, [])) [])
  end.
Definition disk : handler (St := tree) := fun t v =>
  match v with
  | VLookup d n =>
    (t, match find_name t d n with
        | Some id => match node_at t id with Some i => SaidEntry id (attr_said i) [] | None => SaidError (-2) end
        | None => SaidError (-2)
        end)
  | VGetattr id _ => (t, match node_at t id with Some i => SaidAttr id (attr_said i) 1 0 | None => SaidError (-2) end)
  | VSetattr id _ size _ _ _ _ _ _ _ _ _ =>
    match node_at t id with
    | None => (t, SaidError (-2))
    | Some i =>
      match size with
      | None => (t, SaidAttr id (attr_said i) 1 0)
      | Some n =>
        if n <? 2 ^ 63 then (with_data t id (resized (snd i) n), SaidAttr id (attr_said (fst i, resized (snd i) n)) 1 0)
        else (t, SaidError (-27))
      end
    end
  | VMkdir d n mode _ => new_node t d n (16384 + mode mod 4096)
  | VMknod d n mode _ _ => new_node t d n mode
  | VUnlink d n | VRmdir d n =>
    match find_name t d n with
    | Some _ => ({| t_next := t_next t; t_names := without t d n; t_nodes := t_nodes t |}, SaidOk)
    | None => (t, SaidError (-2))
    end
  | VRename d n d' n' _ =>
    match find_name t d n with
    | Some id =>
      let t1 := {| t_next := t_next t; t_names := without t d n; t_nodes := t_nodes t |} in
      ({| t_next := t_next t; t_names := (d', n', id) :: without t1 d' n'; t_nodes := t_nodes t |}, SaidOk)
    | None => (t, SaidError (-2))
    end
  | VOpen id _ _ => (t, SaidOpen id 1)
  | VRead id size off _ _ _ =>
    (t, match node_at t id with Some (_, d) => SaidText (slice off size d) | None => SaidError (-2) end)
  | VWrite id off _ data _ _ _ =>
    match node_at t id with
    | Some (_, d) => (with_data t id (written d off data), if nlen data <? U32 then SaidCount (nlen data) else SaidError (-27))
    | None => (t, SaidError (-2))
    end
  | _ => (t, SaidError (-38))
  end.
Definition disk_ok (t : tree) : Prop :=
  2 <= t_next t /\ Forall (fun e => id_ok (snd e)) (t_names t) /\
  Forall (fun x => fst x < t_next t /\ fst (snd x) < U32 /\ nlen (snd (snd x)) < 2 ^ 63) (t_nodes t).

(** What programs should see of it: the calls of C75, and of each file what POSIX
    says ([file_step] of FileSpec.v). *)
Definition disk_step (minor bs : N) (known : list N) (t : tree) (x : step) : list N * tree * outcome :=
  match x with
  | Call c => let '(known', t', r) := handled_one minor bs disk known t c in (known', t', OfCall r)
  | Io o c =>
    match node_at t (fd_node o) with
    | Some (_, d) => let (d', r) := file_step d c in (known, with_data t (fd_node o) d', OfIo r)
    | None =>
      (known, t, OfIo (match c with
                       | Pwrite _ [] => Wrote (inl 0) | Pwrite _ _ => Wrote (inr 2%Z)
                       | Pread _ 0 => Got (inl []) | Pread _ _ => Got (inr 2%Z) end))
    end
  end.
Fixpoint disk_steps (minor bs : N) (known : list N) (t : tree) (l : list step) : list N * tree * list outcome :=
  match l with
  | [] => (known, t, [])
  | x :: l =>
    let '(known', t', r) := disk_step minor bs known t x in
    let '(known'', t'', rs) := disk_steps minor bs known' t' l in
    (known'', t'', r :: rs)
  end.

(** ** Proofs *)

Section Proofs.
Context {E : Endian} {St : Type}.

Lemma file_of_good m lim o : good_mount m -> max_pages lim <= 256 -> good_opened m lim o -> good_file (file_of m lim o).
Proof.
  intros G P (Hn & Hf & Hg & Hw & Hr). pose proof G as (B & _). unfold good_file, file_of.
  cbn [of_cuse of_max_write of_max_pages of_max_read of_buf_len of_cf of_hd of_wcut of_rcut of_node of_fh of_flags].
  split; [exact B|]. split; [exact P|]. split; [exact Hf|]. split; [exact Hg|]. split; [unfold id_ok in Hn; lia|].
  split; [exact Hw|]. split; [exact Hr|]. intros k. destruct (with_node_good m k (fd_node o) G Hn) as [Gh Od].
  split; [exact Gh|]. split; [exact Od|reflexivity].
Qed.

Lemma rw_can (h : handler (St := St)) : reads_and_writes h -> can (rw_of h).
Proof.
  intros [R W]. split.
  - intros s node size off fh lock flags L. specialize (R s node size off fh lock flags). cbn [on_read rw_of].
    destruct (h s _) as [s' a]. cbn [snd] in *. destruct a; try contradiction; [now apply R|exact R].
  - intros s node off fh data wflags lock flags L. specialize (W s node off fh data wflags lock flags). cbn [on_write rw_of].
    destruct (h s _) as [s' a]. cbn [snd] in *. destruct a; try contradiction; exact W.
Qed.

(** Of two programs, only what they do with requests of its type matters to an
    operation. *)
Lemma exchange_ext ic mw bl cf (p q : program St) s hd op (is : view -> Prop) :
  (forall rq v, decode_view ic cf (op_type op) rq = Ret v -> is v) -> (forall s v, is v -> p s v = q s v) ->
  exchange ic mw bl cf p s hd op = exchange ic mw bl cf q s hd op.
Proof.
  intros D Eq. unfold exchange. destruct (device_read _ _ _ _); try reflexivity. unfold serve.
  destruct (Request_new _) as [rq| | |]; try reflexivity. cbn [bind].
  destruct (header_request_id rq) as [id| | |]; try reflexivity. cbn [bind].
  destruct (decode_view ic cf (op_type op) rq) as [v| | |] eqn:Dv; try reflexivity. cbn [bind].
  now rewrite (Eq s v (D rq v Dv)).
Qed.
Definition is_write (v : view) : Prop := match v with VWrite _ _ _ _ _ _ _ => True | _ => False end.
Definition is_read (v : view) : Prop := match v with VRead _ _ _ _ _ _ => True | _ => False end.
Lemma decoded_write ic cf rq v : decode_view ic cf RWrite rq = Ret v -> is_write v.
Proof.
  cbn [decode_view]. intros D.
  repeat match type of D with bind ?m _ = Ret _ => destruct m; cbn [bind] in D; try discriminate D end.
  injection D as <-. exact I.
Qed.
Lemma decoded_read ic cf rq v : decode_view ic cf RRead rq = Ret v -> is_read v.
Proof.
  cbn [decode_view]. intros D.
  repeat match type of D with bind ?m _ = Ret _ => destruct m; cbn [bind] in D; try discriminate D end.
  injection D as <-. exact I.
Qed.
Lemma rw_program (h : handler (St := St)) s v : reads_and_writes h -> is_write v \/ is_read v ->
  program_with h s v = program_of (rw_of h) s v.
Proof.
  intros [R W] [I|I]; destruct v; try contradiction I; unfold program_with, program_of; cbn [on_read on_write rw_of].
  - match goal with |- context [h s (VWrite ?a ?b ?c ?d ?e ?f ?g)] => specialize (W s a b c d e f g) end. destruct (h s _) as [s' a]. cbn [snd] in W.
    destruct a; try contradiction; reflexivity.
  - match goal with |- context [h s (VRead ?a ?b ?c ?d ?e ?f)] => specialize (R s a b c d e f) end. destruct (h s _) as [s' a]. cbn [snd] in R.
    destruct a; try contradiction; reflexivity.
Qed.
Lemma pwrite_ext f (h : handler (St := St)) : reads_and_writes h -> forall fuel k s off data done,
  pwrite_loop f (program_with h) fuel k s off data done = pwrite_loop f (program_of (rw_of h)) fuel k s off data done.
Proof.
  intros H. induction fuel as [|fuel IH]; intros k s off data done; destruct data as [|x data]; try reflexivity.
  cbn [pwrite_loop].
  rewrite (exchange_ext _ _ _ _ (program_with h) (program_of (rw_of h)) s _ _ is_write);
    [|exact (decoded_write _ _)|intros; apply rw_program; auto].
  destruct (exchange _ _ _ _ _ _ _ _) as [[s' r]|]; [|reflexivity].
  destruct (match r with inl p => _ | inr e => _ end); [|reflexivity]. destruct (_ =? _); [apply IH|reflexivity].
Qed.
Lemma pread_ext f (h : handler (St := St)) : reads_and_writes h -> forall fuel k s off n got,
  pread_loop f (program_with h) fuel k s off n got = pread_loop f (program_of (rw_of h)) fuel k s off n got.
Proof.
  intros H. induction fuel as [|fuel IH]; intros k s off n got; destruct n as [|n]; try reflexivity.
  cbn [pread_loop].
  rewrite (exchange_ext _ _ _ _ (program_with h) (program_of (rw_of h)) s _ _ is_read);
    [|exact (decoded_read _ _)|intros; apply rw_program; auto].
  destruct (exchange _ _ _ _ _ _ _ _) as [[s' [p|e]]|]; [|reflexivity|reflexivity].
  destruct (_ =? _); [apply IH|reflexivity].
Qed.

(** Reading and writing through one handler for everything. *)
Lemma pwrite_with f (h : handler (St := St)) k s off data :
  good_file f -> reads_and_writes h -> off + nlen data <= U64 ->
  pwrite f (program_with h) k s off data = meant_write f (rw_of h) (length data) k s off data 0.
Proof.
  intros G H L. unfold pwrite. rewrite pwrite_ext by exact H. apply pwrite_meant; [exact G|now apply rw_can|exact L].
Qed.
Lemma pread_with f (h : handler (St := St)) k s off n :
  good_file f -> reads_and_writes h -> off + n <= U64 ->
  pread f (program_with h) k s off n = meant_read f (rw_of h) (N.to_nat n) k s off n [].
Proof.
  intros G H L. unfold pread. rewrite pread_ext by exact H. apply pread_meant; [exact G|now apply rw_can|exact L].
Qed.

Lemma meant_write_keeps f (h : handler (St := St)) (Inv : St -> Prop) : (forall s v, Inv s -> Inv (fst (h s v))) ->
  forall fuel k s off data done k' s' r, Inv s -> meant_write f (rw_of h) fuel k s off data done = Some (k', s', r) -> Inv s'.
Proof.
  intros K. induction fuel as [|fuel IH]; intros k s off data done k' s' r I; destruct data as [|x data]; cbn [meant_write];
    try (intros [= _ <- _]; exact I).
  cbn [rw_of on_write]. pose proof (K s (write_view f off (take (of_wcut f k) (x :: data))) I) as I'.
  destruct (h s _) as [s1 a]. cbn [fst] in I'.
  destruct (match a with SaidCount n => inl n | SaidError e => inr e | _ => inr (-5)%Z end);
    [|intros [= _ <- _]; exact I'].
  destruct (_ <? _); [intros [= _ <- _]; exact I'|]. destruct (_ =? _); [now apply IH|intros [= _ <- _]; exact I'].
Qed.
Lemma meant_read_keeps f (h : handler (St := St)) (Inv : St -> Prop) : (forall s v, Inv s -> Inv (fst (h s v))) ->
  forall fuel k s off n got k' s' r, Inv s -> meant_read f (rw_of h) fuel k s off n got = Some (k', s', r) -> Inv s'.
Proof.
  intros K. induction fuel as [|fuel IH]; intros k s off n got k' s' r I; destruct n as [|n]; cbn [meant_read];
    try (intros [= _ <- _]; exact I).
  cbn [rw_of on_read]. pose proof (K s (read_view f off (N.min (N.pos n) (of_rcut f k))) I) as I'.
  destruct (h s _) as [s1 a]. cbn [fst] in I'.
  destruct (match a with SaidText b => inl b | SaidError e => inr e | _ => inr (-5)%Z end);
    [|intros [= _ <- _]; exact I'].
  destruct (_ <? _); [intros [= _ <- _]; exact I'|]. destruct (_ =? _); [now apply IH|intros [= _ <- _]; exact I'].
Qed.
Lemma handled_state minor bs (h : handler (St := St)) known s c :
  let s' := snd (fst (handled_one minor bs h known s c)) in s' = s \/ s' = fst (h s (asked c)).
Proof.
  cbv zeta. unfold handled_one. destruct (too_old minor c); [now left|]. destruct (skipped known c); [now left|].
  right. destruct (h s (asked c)) as [s' a]. generalize (seen bs c). intros f.
  destruct a; try reflexivity. now destruct (after_error _ _ _).
Qed.

(** Any handlers: calls, reads and writes in any order run as if the program had
    called the handlers. *)
Theorem C77_steps m lim (h : handler (St := St)) (Inv : St -> Prop) :
  good_mount m -> max_pages lim <= 256 -> reads_and_writes h ->
  (forall s v, Inv s -> Inv (fst (h s v))) ->
  (forall s c, Inv s -> call_ok c -> answers c (snd (h s (asked c)))) ->
  forall l, Forall (step_ok m lim) l -> forall k known s, Inv s ->
  run m lim (program_with h) k known s l = run_directly m lim h k known s l.
Proof.
  intros G P RW K A l Sl. induction Sl as [|x l Sx Sl IH]; intros k known s I; [reflexivity|].
  cbn [run run_directly]. destruct x as [c|o [off data|off n]]; cbn [step_ok directly] in *.
  - rewrite (C75_call m h k known s c G Sx (A s c I Sx)).
    pose proof (handled_state (cf_minor (m_cf m)) (m_bs m) h known s c) as H.
    destruct (handled_one _ _ h known s c) as [[k1 s1] r1]. cbn [fst snd] in H. rewrite IH; [reflexivity|].
    destruct H as [->| ->]; auto.
  - destruct Sx as [So Sc]. cbn [in_file] in Sc.
    rewrite (pwrite_with _ h k s off data (file_of_good m lim o G P So) RW) by (unfold U64; lia).
    destruct (meant_write _ _ _ _ _ _ _ _) as [[[k1 s1] r]|] eqn:M; [|reflexivity].
    rewrite IH; [reflexivity|]. exact (meant_write_keeps _ h Inv K _ _ _ _ _ _ _ _ _ I M).
  - destruct Sx as [So Sc]. cbn [in_file] in Sc.
    rewrite (pread_with _ h k s off n (file_of_good m lim o G P So) RW) by (unfold U64; lia).
    destruct (meant_read _ _ _ _ _ _ _ _) as [[[k1 s1] r]|] eqn:M; [|reflexivity].
    rewrite IH; [reflexivity|]. exact (meant_read_keeps _ h Inv K _ _ _ _ _ _ _ _ _ I M).
Qed.
End Proofs.

(** ** The file system in memory *)

Lemma node_at_cons t n a l i : t_nodes t = (i, a) :: l ->
  node_at t n = if i =? n then Some a else node_at {| t_next := t_next t; t_names := t_names t; t_nodes := l |} n.
Proof. intros Q. unfold node_at. rewrite Q. cbn [find fst t_nodes]. now destruct (i =? n). Qed.

Lemma node_set l n d j : forall t, t_nodes t = l ->
  node_at (with_data t n d) j =
  if j =? n then match node_at t n with Some (mode, _) => Some (mode, d) | None => None end else node_at t j.
Proof.
  induction l as [|[i [mode d0]] l IH]; intros t Q.
  - unfold node_at, with_data. cbn [t_nodes]. rewrite Q. cbn. now destruct (j =? n).
  - rewrite !(node_at_cons t _ _ _ _ Q). specialize (IH {| t_next := t_next t; t_names := t_names t; t_nodes := l |} eq_refl).
    unfold with_data in *. cbn [t_next t_names t_nodes] in *. rewrite Q. cbn [set_data].
    destruct (N.eqb_spec i n) as [->|In].
    + unfold node_at at 1. cbn [t_nodes find fst]. destruct (N.eqb_spec j n) as [->|Jn].
      * now rewrite N.eqb_refl.
      * destruct (N.eqb_spec n j) as [F|_]; [now contradiction Jn|]. reflexivity.
    + unfold node_at at 1. cbn [t_nodes find fst snd]. destruct (N.eqb_spec i j) as [->|Ij].
      * destruct (N.eqb_spec j n); [contradiction|reflexivity].
      * unfold node_at in IH at 1. cbn [t_nodes] in IH. exact IH.
Qed.
Lemma node_with t n d j :
  node_at (with_data t n d) j =
  if j =? n then match node_at t n with Some (mode, _) => Some (mode, d) | None => None end else node_at t j.
Proof. now apply (node_set (t_nodes t)). Qed.
Lemma with_with t n d d' : with_data (with_data t n d) n d' = with_data t n d'.
Proof.
  unfold with_data. cbn [t_next t_names t_nodes]. f_equal.
  induction (t_nodes t) as [|[i [mode d0]] l IH]; [reflexivity|]. cbn [set_data].
  destruct (i =? n) eqn:Q; cbn [set_data]; rewrite Q; [reflexivity|now rewrite IH].
Qed.
Lemma with_same t n mode d : node_at t n = Some (mode, d) -> with_data t n d = t.
Proof.
  destruct t as [x y nodes]. unfold with_data, node_at. cbn [t_next t_names t_nodes]. intros H. f_equal.
  induction nodes as [|[i [mode0 d0]] l IH]; [reflexivity|]. cbn [find fst set_data] in *.
  destruct (i =? n); [cbn [snd] in H; congruence|]. now rewrite IH.
Qed.

Lemma disk_rw : reads_and_writes disk.
Proof.
  split; intros; cbn [disk].
  - cbn [snd]. destruct (node_at s node) as [[mode d]|]; [intros L; rewrite nlen_slice; lia|lia].
  - destruct (node_at s node) as [[mode d]|]; cbn [snd]; [|lia]. destruct (N.ltb_spec (nlen data) U32); [assumption|lia].
Qed.

Lemma disk_write f : of_cuse f = false -> good_file f ->
  forall fuel k t off data done mode d, node_at t (of_node f) = Some (mode, d) ->
  meant_write f (rw_of disk) fuel k t off data done =
  match meant_write f memory_file fuel k d off data done with
  | Some (k', d', r) => Some (k', with_data t (of_node f) d', r)
  | None => None
  end.
Proof.
  intros Cu (_ & Pg & _ & _ & _ & Wc & _).
  induction fuel as [|fuel IH]; intros k t off data done mode d H; (destruct data as [|x data]; [|]).
  1,3: cbn; now rewrite (with_same t _ mode d H). 1: reflexivity.
  cbn [meant_write]. set (dd := x :: data). set (chunk := take (of_wcut f k) dd).
  assert (Lc : nlen chunk < U32) by (unfold chunk; rewrite nlen_take; specialize (Wc k); unfold U32; lia).
  cbn [rw_of memory_file on_write]. unfold write_view, subject. rewrite Cu. cbn [disk]. rewrite H.
  replace (nlen chunk <? U32) with true by lia.
  rewrite N.ltb_irrefl, N.eqb_refl.
  rewrite (IH _ _ _ _ _ mode (written d off chunk)).
  - destruct (meant_write f memory_file _ _ _ _ _ _) as [[[? ?] ?]|]; [|reflexivity]. now rewrite with_with.
  - rewrite node_with, N.eqb_refl, H. reflexivity.
Qed.
Lemma disk_read f : of_cuse f = false ->
  forall fuel k t off n got mode d, node_at t (of_node f) = Some (mode, d) ->
  meant_read f (rw_of disk) fuel k t off n got =
  match meant_read f memory_file fuel k d off n got with
  | Some (k', d', r) => Some (k', t, r)
  | None => None
  end.
Proof.
  intros Cu. induction fuel as [|fuel IH]; intros k t off n got mode d H; destruct n as [|n]; try reflexivity.
  cbn [meant_read]. cbn [rw_of memory_file on_read]. unfold read_view, subject. rewrite Cu. cbn [disk]. rewrite H.
  destruct (_ <? _); [reflexivity|]. destruct (_ =? _); [|reflexivity]. apply (IH _ _ _ _ _ mode d H).
Qed.

Lemma disk_find_ok t d n id : disk_ok t -> find_name t d n = Some id -> id_ok id.
Proof.
  intros (_ & H & _). unfold find_name. destruct (find _ (t_names t)) as [x|] eqn:F; [|discriminate].
  apply find_some in F as [F _]. rewrite Forall_forall in H. intros [= <-]. exact (H x F).
Qed.
Lemma disk_node_ok t n i : disk_ok t -> node_at t n = Some i -> n < t_next t /\ fst i < U32 /\ nlen (snd i) < 2 ^ 63.
Proof.
  intros (_ & _ & H). unfold node_at. destruct (find _ (t_nodes t)) as [x|] eqn:F; [|discriminate].
  apply find_some in F as [F Fn]. rewrite Forall_forall in H. specialize (H x F). intros [= <-].
  apply N.eqb_eq in Fn. now subst n.
Qed.
Lemma disk_attr_ok t n i : disk_ok t -> node_at t n = Some i -> Forall attr_op_ok (attr_said i).
Proof.
  intros T H. destruct (disk_node_ok t n i T H) as (_ & H1 & H2). unfold attr_said.
  constructor; [exact H1|]. constructor; [|constructor]. cbn. unfold U64. lia.
Qed.
Lemma disk_without t d n : disk_ok t -> disk_ok {| t_next := t_next t; t_names := without t d n; t_nodes := t_nodes t |}.
Proof.
  intros (H1 & H2 & H3). split; [exact H1|]. split; [|exact H3]. cbn [t_names]. unfold without.
  rewrite Forall_forall in *. intros x Hx. apply filter_In in Hx as [Hx _]. auto.
Qed.
Lemma disk_with t n d : disk_ok t -> nlen d < 2 ^ 63 -> disk_ok (with_data t n d).
Proof.
  intros (H1 & H2 & H3) L. split; [exact H1|]. split; [exact H2|]. unfold with_data. cbn [t_nodes t_next].
  induction H3 as [|[i [mode d0]] l (Ha & Hb & Hc) H3 IH]; cbn [set_data]; [constructor|].
  destruct (i =? n); constructor; auto; repeat split; assumption.
Qed.
Lemma disk_new_ok t d n mode : disk_ok t -> mode < U32 ->
  disk_ok (fst (new_node t d n mode)) /\
  (forall c, (match c with Mkdir _ _ _ _ | Mknod _ _ _ _ _ => True | _ => False end) ->
     answers c (snd (new_node t d n mode))).
Proof.
  intros T Hm. unfold new_node. destruct (find_name t d n); [split; [exact T|intros; cbn; lia]|].
  destruct (N.leb_spec (2 ^ 63) (t_next t)) as [F|F]; [split; [exact T|intros; cbn; lia]|].
  destruct T as (T1 & T2 & T3).
  assert (I : id_ok (t_next t)) by (unfold id_ok, U64; lia).
  split.
  - split; [cbn; lia|]. split; cbn [fst t_names t_nodes t_next]; constructor; auto.
    + cbn [fst snd]. split; [lia|]. split; [exact Hm|]. cbn. lia.
    + eapply Forall_impl; [|exact T3]. cbn beta. intros x (? & ? & ?). repeat split; auto. lia.
  - intros c Hc. cbn [snd answers]. split; [|destruct c; auto]. split; [exact I|]. split; [|constructor].
    unfold attr_said. constructor; [exact Hm|]. constructor; [|constructor]. cbn. reflexivity.
Qed.

Lemma disk_server_ok t c : disk_ok t -> call_ok c ->
  disk_ok (fst (disk t (asked c))) /\ answers c (snd (disk t (asked c))).
Proof.
  intros T C.
  destruct c; cbn [call_ok] in C; try contradiction C; cbn [asked disk];
    try (split; [exact T|cbn [snd answers]; lia]).
  - (* Lookup *)
    split; [exact T|]. cbn [snd]. destruct (find_name t dir name) as [id|] eqn:F; [|cbn; lia].
    destruct (node_at t id) as [i|] eqn:Ni; [|cbn; lia]. cbn [answers]. split; [|exact I].
    split; [exact (disk_find_ok _ _ _ _ T F)|]. split; [exact (disk_attr_ok _ _ _ T Ni)|constructor].
  - (* Stat *)
    split; [exact T|]. cbn [snd]. destruct (node_at t node) as [i|] eqn:Ni; [|cbn; lia]. cbn [answers].
    split; [apply C|]. split; [exact (disk_attr_ok _ _ _ T Ni)|]. repeat split.
  - (* Setattr *)
    destruct (node_at t node) as [i|] eqn:Ni; [|split; [exact T|cbn; lia]].
    destruct size as [n|].
    + destruct (N.ltb_spec n (2 ^ 63)) as [L|L]; [|split; [exact T|cbn; lia]].
      assert (Lr : nlen (resized (snd i) n) = n)
        by (unfold resized; rewrite nlen_app, nlen_take, nlen_repeat; lia).
      split; [apply disk_with; [exact T|]; cbn [fst]; lia|]. cbn [snd answers].
      split; [apply C|]. split; [|repeat split]. unfold attr_said.
      constructor; [exact (proj1 (proj2 (disk_node_ok _ _ _ T Ni)))|]. constructor; [|constructor]. cbn [attr_op_ok snd].
      unfold U64. lia.
    + split; [exact T|]. cbn [snd answers]. split; [apply C|]. split; [exact (disk_attr_ok _ _ _ T Ni)|]. repeat split.
  - (* Mkdir *)
    destruct (disk_new_ok t dir name (16384 + mode mod 4096) T ltac:(unfold U32; lia)) as [K A].
    split; [exact K|]. apply A. exact I.
  - (* Mknod *)
    destruct (disk_new_ok t dir name mode T ltac:(apply C)) as [K A]. split; [exact K|]. apply A. exact I.
  - (* Unlink *)
    destruct (find_name t dir name); (split; [first [exact T|apply disk_without, T]|cbn; try exact I; try lia]).
  - (* Rmdir *)
    destruct (find_name t dir name); (split; [first [exact T|apply disk_without, T]|cbn; try exact I; try lia]).
  - (* Rename *)
    destruct (find_name t dir name) as [id|] eqn:F; (split; [|cbn; try exact I; try lia]); [|exact T].
    pose proof (disk_without t dir name T) as T1. pose proof (disk_without _ newdir newname T1) as (Ta & Tb & Tc).
    split; [exact Ta|]. split; [|exact Tc]. cbn [fst t_names]. constructor; [exact (disk_find_ok t dir name id T F)|exact Tb].
  - (* Open *)
    split; [exact T|]. cbn [snd answers]. split; [apply C|]. split; [reflexivity|exact I].
Qed.

Lemma disk_step_ok m lim known t x known' t' r : disk_ok t -> step_ok m lim x ->
  disk_step (cf_minor (m_cf m)) (m_bs m) known t x = (known', t', r) -> disk_ok t'.
Proof.
  intros T S. destruct x as [c|o c]; cbn [disk_step step_ok] in *.
  - destruct (disk_server_ok t c T S) as [A _]. pose proof (handled_state (cf_minor (m_cf m)) (m_bs m) disk known t c) as H.
    destruct (handled_one _ _ disk known t c) as [[k1 t1] r1]. cbn [fst snd] in H. intros [= _ <- _].
    destruct H as [->| ->]; assumption.
  - destruct (node_at t (fd_node o)) as [[mode d]|] eqn:Ni; [|intros [= _ <- _]; exact T].
    destruct (disk_node_ok _ _ _ T Ni) as (_ & _ & Ld). cbn [snd] in Ld. destruct S as [_ Sc].
    destruct c as [off data|off n]; cbn [file_step in_file] in *; intros [= _ <- _]; apply disk_with; auto.
    destruct data as [|b data]; [exact Ld|]. rewrite nlen_written by discriminate. lia.
Qed.

Section Disk.
Context {E : Endian}.

Lemma run_step m lim k known t x l : good_mount m -> max_pages lim <= 256 -> disk_ok t -> step_ok m lim x ->
  exists k', run m lim (program_with disk) k known t (x :: l) =
    let '(known', t', r) := disk_step (cf_minor (m_cf m)) (m_bs m) known t x in
    match run m lim (program_with disk) k' known' t' l with Some (s, rs) => Some (s, r :: rs) | None => None end.
Proof.
  intros G P T S. destruct x as [c|o c]; cbn [run disk_step step_ok] in *.
  - exists (Datatypes.S k). destruct (disk_server_ok t c T S) as [_ A].
    rewrite (C75_call m disk k known t c G S A). now destruct (handled_one _ _ disk known t c) as [[k1 t1] r1].
  - destruct S as [So Sc]. pose proof (file_of_good m lim o G P So) as Gf. set (f := file_of m lim o) in *.
    assert (Cu : of_cuse f = false) by reflexivity. assert (Nf : of_node f = fd_node o) by reflexivity.
    destruct c as [off data|off n]; cbn [in_file file_step] in *.
    + rewrite (pwrite_with f disk k t off data Gf disk_rw) by (unfold U64; lia).
      destruct (node_at t (fd_node o)) as [[mode d]|] eqn:Ni.
      * rewrite (disk_write f Cu Gf _ _ _ _ _ _ mode d) by (now rewrite Nf).
        destruct (memory_write f Gf (length data) k d off data 0 ltac:(lia)) as [k' ->]. exists k'. now rewrite Nf.
      * destruct data as [|b data]; [exists k; reflexivity|]. exists (Datatypes.S k).
        cbn [length meant_write rw_of on_write]. unfold write_view, subject. rewrite Cu, Nf. cbn [disk]. rewrite Ni. reflexivity.
    + rewrite (pread_with f disk k t off n Gf disk_rw) by (unfold U64; lia).
      destruct (node_at t (fd_node o)) as [[mode d]|] eqn:Ni.
      * rewrite (disk_read f Cu _ _ _ _ _ _ mode d) by (now rewrite Nf).
        destruct (memory_read f Gf (N.to_nat n) k d off n [] ltac:(lia)) as [k' ->]. exists k'.
        now rewrite (with_same t _ mode d Ni).
      * destruct n as [|n]; [exists k; reflexivity|]. exists (Datatypes.S k).
        destruct (N.to_nat (N.pos n)) as [|j] eqn:J; [lia|].
        cbn [meant_read rw_of on_read]. unfold read_view, subject. rewrite Cu, Nf. cbn [disk]. rewrite Ni. reflexivity.
Qed.

(** Any sequence of calls on names and nodes and of reading and writing. *)
Theorem C77_disk m lim l : good_mount m -> max_pages lim <= 256 -> Forall (step_ok m lim) l ->
  forall k known t, disk_ok t ->
  run m lim (program_with disk) k known t l =
  let '(_, t', rs) := disk_steps (cf_minor (m_cf m)) (m_bs m) known t l in Some (t', rs).
Proof.
  intros G P Sl. induction Sl as [|x l Sx Sl IH]; intros k known t T; [reflexivity|].
  destruct (run_step m lim k known t x l G P T Sx) as [k' ->]. cbn [disk_steps].
  destruct (disk_step _ _ known t x) as [[known' t'] r] eqn:Q. rewrite (IH k' known' t' (disk_step_ok m lim _ _ _ _ _ _ T Sx Q)).
  now destruct (disk_steps _ _ known' t' l) as [[? ?] ?].
Qed.

(** *** What is written is read *)

(** Steps that leave the data of a node alone: all but writing to it and
    changing its size. *)
Definition leaves (n : N) (x : step) : Prop :=
  match x with
  | Io o (Pwrite _ _) => fd_node o <> n
  | Call (Setattr node _ _ _ _ (Some _) _ _ _ _) => node <> n
  | _ => True
  end.
Lemma leaves_data m lim n known t x known' t' r mode d :
  disk_ok t -> step_ok m lim x -> leaves n x -> node_at t n = Some (mode, d) ->
  disk_step (cf_minor (m_cf m)) (m_bs m) known t x = (known', t', r) -> node_at t' n = Some (mode, d).
Proof.
  intros T S L H. destruct x as [c|o c]; cbn [disk_step step_ok] in *.
  - pose proof (handled_state (cf_minor (m_cf m)) (m_bs m) disk known t c) as Q.
    destruct (handled_one _ _ disk known t c) as [[k1 t1] r1]. cbn [fst snd] in Q. intros [= _ <- _].
    assert (A : node_at (fst (disk t (asked c))) n = Some (mode, d)).
    { assert (Nw : forall dir name mo, node_at (fst (new_node t dir name mo)) n = Some (mode, d)).
      { intros dir name mo. unfold new_node. destruct (find_name t dir name); [exact H|].
        destruct (2 ^ 63 <=? t_next t); [exact H|]. cbn [fst].
        rewrite (node_at_cons _ n (mo, []) (t_nodes t) (t_next t)) by reflexivity. cbn [t_next t_names].
        destruct (disk_node_ok t n _ T H) as [B _]. replace (t_next t =? n) with false by lia. exact H. }
      destruct c; cbn [asked disk]; try exact H; try apply Nw.
      - (* Setattr *) destruct (node_at t node) as [i|]; [|exact H]. destruct size as [k|]; [|exact H].
        destruct (k <? 2 ^ 63); [|exact H]. cbn [fst]. rewrite node_with. cbn [leaves] in L.
        replace (n =? node) with false by lia. exact H.
      - (* Unlink *) destruct (find_name t dir name); exact H.
      - (* Rmdir *) destruct (find_name t dir name); exact H.
      - (* Rename *) destruct (find_name t dir name); exact H. }
    destruct Q as [->| ->]; assumption.
  - destruct (node_at t (fd_node o)) as [[mode' d']|] eqn:Ni; [|intros [= _ <- _]; exact H].
    destruct c as [off data|off k]; cbn [file_step leaves] in *; intros [= _ <- _]; rewrite node_with.
    + replace (n =? fd_node o) with false by lia. exact H.
    + rewrite Ni. destruct (N.eqb_spec n (fd_node o)) as [->|]; [congruence|exact H].
Qed.

Lemma slice_written c off data : slice off (nlen data) (written c off data) = data.
Proof.
  destruct data as [|b data]; [reflexivity|]. unfold written. set (dd := b :: data).
  assert (L0 : nlen (take off c ++ repeat x00 (N.to_nat (off - nlen c))) = off)
    by (rewrite nlen_app, nlen_take, nlen_repeat; lia).
  rewrite app_assoc. unfold slice. set (pre := take off c ++ _) in *.
  rewrite drop_app by lia. now apply take_app.
Qed.

(** Of what was written to a file, every open file of the same node reads the
    same, whatever other calls are made in between. *)
Theorem C77_read_back m lim k known t o off data l o' :
  good_mount m -> max_pages lim <= 256 -> disk_ok t -> node_at t (fd_node o) <> None ->
  good_opened m lim o -> off + nlen data < 2 ^ 63 ->
  Forall (step_ok m lim) l -> Forall (leaves (fd_node o)) l ->
  good_opened m lim o' -> fd_node o' = fd_node o ->
  exists t' rs, length rs = length l /\
    run m lim (program_with disk) k known t (Io o (Pwrite off data) :: l ++ [Io o' (Pread off (nlen data))]) =
    Some (t', OfIo (Wrote (inl (nlen data))) :: rs ++ [OfIo (Got (inl data))]).
Proof.
  intros G P T Hn So Lo Sl Ll So' Sn.
  assert (Sw : step_ok m lim (Io o (Pwrite off data))) by (split; [exact So|exact Lo]).
  assert (Sr : step_ok m lim (Io o' (Pread off (nlen data)))) by (split; [exact So'|exact Lo]).
  rewrite C77_disk; [|exact G|exact P| |exact T].
  2: { constructor; [exact Sw|]. apply Forall_app. split; [exact Sl|]. constructor; [exact Sr|constructor]. }
  cbn [disk_steps]. destruct (disk_step _ _ known t _) as [[known1 t1] r1] eqn:Q1.
  pose proof (disk_step_ok m lim _ _ _ _ _ _ T Sw Q1) as T1. revert Q1. cbn [disk_step file_step].
  destruct (node_at t (fd_node o)) as [[mode d]|] eqn:Ni; [|now contradiction Hn]. intros [= <- <- <-].
  assert (H1 : node_at (with_data t (fd_node o) (written d off data)) (fd_node o) = Some (mode, written d off data))
    by (rewrite node_with, N.eqb_refl, Ni; reflexivity).
  revert H1 T1. generalize (with_data t (fd_node o) (written d off data)) as t1. generalize known as kn.
  clear Ni Hn T Sw. clear t known k.
  assert (X : forall kn t1, node_at t1 (fd_node o) = Some (mode, written d off data) -> disk_ok t1 ->
    exists kn' t' rs, length rs = length l /\
    disk_steps (cf_minor (m_cf m)) (m_bs m) kn t1 (l ++ [Io o' (Pread off (nlen data))]) = (kn', t', rs ++ [OfIo (Got (inl data))])).
  { induction Sl as [|x l Sx Sl IH]; intros kn t1 H1 T1; cbn [disk_steps app].
    - cbn [disk_step file_step]. rewrite Sn, H1, slice_written. do 2 eexists. exists []. split; reflexivity.
    - apply Forall_cons_iff in Ll as [Lx Ll].
      destruct (disk_step _ _ kn t1 x) as [[kn2 t2] r2] eqn:Q2.
      destruct (IH Ll kn2 t2 (leaves_data m lim _ _ _ _ _ _ _ _ _ T1 Sx Lx H1 Q2)
                  (disk_step_ok m lim _ _ _ _ _ _ T1 Sx Q2)) as (kn' & t' & rs & Lr & ->).
      exists kn', t', (r2 :: rs). split; [cbn; now rewrite Lr|reflexivity]. }
  intros kn t1 H1 T1. destruct (X kn t1 H1 T1) as (kn' & t' & rs & Lr & ->). now exists t', rs.
Qed.
End Disk.

(** ** Examples *)

Local Instance LE : Endian := false.
Definition demo_limits : limits := {| max_pages := 1; max_read := 4096 |}.
Definition demo_fd (node : N) : opened := {|
  fd_node := node; fd_handle := node; fd_flags := 2; fd_wcut := fun k => if Nat.even k then 3 else 4; fd_rcut := fun _ => 3 |}.
(** mknod a; mkdir d; write "hello" at 2; stat; rename a to d/b; read; truncate to
    4; read; unlink d/b; read; access; read of a node that is not there. *)
Definition demo_steps : list step :=
  [Call (Mknod 1 [x61] 33188 0 18); Call (Mkdir 1 [x64] 493 18); Call (Open 2 2);
   Io (demo_fd 2) (Pwrite 2 [x68; x65; x6c; x6c; x6f]); Call (Stat 2 32768);
   Call (Rename 1 [x61] 3 [x62] 0); Io (demo_fd 2) (Pread 0 100);
   Call (Setattr 2 32768 None None None (Some 4) None None None None); Io (demo_fd 2) (Pread 1 100);
   Call (Unlink 3 [x62]); Io (demo_fd 2) (Pread 3 1); Call (Access 2 4); Io (demo_fd 9) (Pread 0 5)].
Definition short (r : outcome) : (sys_result + N) + file_result :=
  match r with
  | OfCall (Node n) => inl (inr (n_id n)) | OfCall (Attributes s _) => inl (inr (st_size s))
  | OfCall r => inl (inl r) | OfIo r => inr r end.
Lemma demo_fd_good n : 0 < n < U64 -> good_opened demo_mount demo_limits (demo_fd n).
Proof.
  intros H. split; [exact H|]. split; [apply H|]. split; [reflexivity|]. split; intros k; cbn; [destruct (Nat.even k)|]; lia.
Qed.
Lemma demo_steps_ok : Forall (step_ok demo_mount demo_limits) demo_steps.
Proof.
  assert (G : forall b, b <> x00 -> b <> x2f -> call_name [b]).
  { intros b B0 B1. split; [|cbn; lia]. split; [discriminate|]. split; cbn; intuition congruence. }
  unfold demo_steps. repeat apply Forall_cons; try apply Forall_nil; cbn [step_ok].
  all: try (split; [apply demo_fd_good; unfold U64; lia|cbn; lia]).
  all: cbn [call_ok opt_below time_given]; unfold id_ok, U64, U32; repeat split;
    first [reflexivity|lia|cbn; tauto|apply G; discriminate|idtac].
  all: try (apply G; discriminate). all: cbn; intuition discriminate.
Qed.
Lemma empty_disk_ok : disk_ok empty_tree.
Proof. split; [cbn; lia|]. split; [constructor|]. constructor; [|constructor]. cbn. repeat split; lia. Qed.
Example C77_disk_example :
  good_mount demo_mount /\ max_pages demo_limits <= 256 /\ Forall (step_ok demo_mount demo_limits) demo_steps /\
  disk_ok empty_tree /\
  option_map (fun x => map short (snd x)) (run demo_mount demo_limits (program_with disk) 0 [] empty_tree demo_steps) =
  Some [inl (inr 2); inl (inr 3); inl (inl (Handle 2 1)); inr (Wrote (inl 5)); inl (inr 7); inl (inl Done);
        inr (Got (inl [x00; x00; x68; x65; x6c; x6c; x6f])); inl (inr 4); inr (Got (inl [x00; x68; x65]));
        inl (inl Done); inr (Got (inl [x65])); inl (inl Done); inr (Got (inr 2%Z))].
Proof.
  split; [exact demo_mount_good|]. split; [cbn; lia|]. split; [exact demo_steps_ok|]. split; [exact empty_disk_ok|].
  vm_compute. reflexivity.
Qed.
Example C77_read_back_example :
  let t := snd (fst (disk_steps 36 4096 [] empty_tree [Call (Mknod 1 [x61] 33188 0 18)])) in
  let l := [Call (Unlink 1 [x61]); Io (demo_fd 3) (Pwrite 0 [x61]); Io (demo_fd 2) (Pread 0 9)] in
  disk_ok t /\ node_at t 2 <> None /\ Forall (leaves 2) l /\
  option_map snd (run demo_mount demo_limits (program_with disk) 0 [] t
    (Io (demo_fd 2) (Pwrite 5 [x61; x62]) :: l ++ [Io (demo_fd 2) (Pread 5 2)])) =
  Some [OfIo (Wrote (inl 2)); OfCall Done; OfIo (Wrote (inr 2%Z)); OfIo (Got (inl [x00; x00; x00; x00; x00; x61; x62]));
        OfIo (Got (inl [x61; x62]))].
Proof.
  cbv zeta. match goal with |- disk_ok ?t /\ _ => let t' := eval vm_compute in t in change t with t' end.
  split; [|split; [discriminate|split; [repeat constructor; discriminate|vm_compute; reflexivity]]].
  split; [cbn; lia|]. split; repeat apply Forall_cons; try apply Forall_nil; cbn; unfold id_ok, U64, U32; try lia.
Qed.

(** Handlers that count what they are asked and write half of it. *)
Definition half : handler (St := N) := fun n v =>
  (n + 1, match v with
          | VRead _ size off _ _ _ => if size <=? 1048576 then SaidText (repeat x61 (N.to_nat (N.min size 2))) else SaidError (-22)
          | VWrite _ _ _ d _ _ _ => if nlen d <? U32 then SaidCount (nlen d / 2) else SaidError (-22)
          | VAccess _ _ => SaidOk
          | _ => SaidError (-1) end).
Example C77_steps_example :
  reads_and_writes half /\
  (forall s c, True -> call_ok c -> answers c (snd (half s (asked c)))) /\
  let l := [Io (demo_fd 2) (Pwrite 2 [x68; x65; x6c; x6c]); Call (Access 2 4); Io (demo_fd 2) (Pread 0 9); Call (Unlink 1 [x61])] in
  Forall (step_ok demo_mount demo_limits) l /\
  run demo_mount demo_limits (program_with half) 0 [] 0 l =
  Some (4, [OfIo (Wrote (inl 1)); OfCall Done; OfIo (Got (inl [x61; x61])); OfCall (Error 1)]).
Proof.
  split; [split|split].
  - intros. cbn [half snd]. destruct (N.leb_spec size 1048576); [|lia]. intros _. rewrite nlen_repeat. lia.
  - intros. cbn [half snd]. destruct (N.ltb_spec (nlen data) U32) as [L|L]; [|lia].
    assert (nlen data / 2 <= nlen data) by (apply N.div_le_upper_bound; lia). lia.
  - intros s c _ C. destruct c; cbn [call_ok] in C; try contradiction C; cbn [asked half snd answers]; try exact I; lia.
  - cbv zeta. split; [|vm_compute; reflexivity].
    repeat apply Forall_cons; try apply Forall_nil; cbn [step_ok].
    all: try (split; [apply demo_fd_good; unfold U64; lia|cbn; lia]).
    + cbn [call_ok]. unfold id_ok, U64, U32. repeat split; lia.
    + cbn [call_ok]. split; [unfold id_ok, U64; lia|]. split; [|cbn; lia].
      split; [discriminate|]. split; cbn; intuition discriminate.
Qed.

Print Assumptions C77_steps.
Print Assumptions C77_disk.
Print Assumptions C77_read_back.
