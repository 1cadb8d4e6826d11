(** Theorems about the builders of mount options: C60 of properties.jsonl. *)

From Coq Require Import String.
From Verif Require Import Base CoreModel ReplyModel ServerModel HostModel HostSpec OptionsModel PropHost.
From Coq Require Import List NArith Bool Lia.
Import ListNotations.
Open Scope string_scope.
Open Scope list_scope.
Open Scope N_scope.

(** ** Specification *)

(** [get] gives what the last call that is about its option asked for, and
    [default] if no call is.  [about] tells what a call asks for. *)
Definition last_wins {C A} (about : C -> option A) (default : A) (calls : list C) (x : A) : Prop :=
  (forall before c after a,
     calls = before ++ c :: after -> about c = Some a ->
     Forall (fun d => about d = None) after -> x = a) /\
  (Forall (fun d => about d = None) calls -> x = default).

Definition comma_free (s : bytes) : bool := negb (existsb (Byte.eqb x2c) s).

(** What each call asks for. *)
Definition about_allow_other (c : option_call) : option bool :=
  match c with SetAllowOther b => Some b | _ => None end.
Definition about_block_size (c : option_call) : option (option N) :=
  match c with SetBlockSize n => Some n | _ => None end.
Definition about_default_permissions (c : option_call) : option bool :=
  match c with SetDefaultPermissions b => Some b | _ => None end.
Definition about_fd (c : option_call) : option (option N) :=
  match c with SetFuseDeviceFd n => Some n | _ => None end.
Definition about_group_id (c : option_call) : option (option N) :=
  match c with SetGroupId n => Some n | _ => None end.
Definition about_max_read (c : option_call) : option (option N) :=
  match c with SetMaxRead n => Some n | _ => None end.
Definition about_source (c : option_call) : option bytes :=
  match c with SetMountSource (b :: s) => Some (b :: s) | _ => None end.
Definition about_type (c : option_call) : option bytes :=
  match c with SetMountType b => Some (txt (if b then "fuseblk" else "fuse")) | _ => None end.
Definition about_root_mode (c : option_call) : option (option N) :=
  match c with SetRootMode n => Some n | _ => None end.
(** An empty subtype or one with a comma counts as none. *)
Definition about_subtype (c : option_call) : option (option bytes) :=
  match c with
  | SetSubtype (Some (b :: s)) => Some (if comma_free (b :: s) then Some (b :: s) else None)
  | SetSubtype _ => Some None
  | _ => None
  end.
Definition about_user_id (c : option_call) : option (option N) :=
  match c with SetUserId n => Some n | _ => None end.

Definition about_dev_fuse (c : host_call) : option (option bytes) :=
  match c with SetDevFuse p => Some p | _ => None end.
Definition about_flags (c : host_call) : option N :=
  match c with SetFlags n => Some n | _ => None end.

Definition about_f_default_permissions (c : freebsd_option_call) : option bool :=
  match c with FSetDefaultPermissions b => Some b | _ => None end.
Definition about_f_subtype (c : freebsd_option_call) : option (option bytes) :=
  match c with
  | FSetSubtype (Some (b :: s)) => Some (Some (b :: s))
  | FSetSubtype _ => Some None
  | _ => None
  end.

(** Arguments as Rust types them: u32 numbers, C strings. *)
Definition typed (c : option_call) : Prop :=
  match c with
  | SetBlockSize n | SetFuseDeviceFd n | SetGroupId n | SetMaxRead n | SetRootMode n
  | SetUserId n => u32_option n
  | SetMountSource s => ~ In x00 s
  | SetSubtype (Some s) => ~ In x00 s
  | _ => True
  end.

(** What the options tell the kernel, by the accessors. *)
Inductive told (o : MountOptions) : string -> option value -> Prop :=
| told_fd n : MountOptions_fuse_device_fd o = Some n -> told o "fd" (Some (Decimal n))
| told_allow_other : MountOptions_allow_other o = true -> told o "allow_other" None
| told_block_size n : MountOptions_block_size o = Some n -> told o "blksize" (Some (Decimal n))
| told_default_permissions :
    MountOptions_default_permissions o = true -> told o "default_permissions" None
| told_group_id n : MountOptions_group_id o = Some n -> told o "group_id" (Some (Decimal n))
| told_max_read n : MountOptions_max_read o = Some n -> told o "max_read" (Some (Decimal n))
| told_root_mode n : MountOptions_root_mode o = Some n -> told o "rootmode" (Some (Octal n))
| told_subtype s : MountOptions_subtype o = Some s -> told o "subtype" (Some (Text s))
| told_user_id n : MountOptions_user_id o = Some n -> told o "user_id" (Some (Decimal n)).

(** ** Lemmas *)

Lemma last_wins_fold {C A S} (step : S -> C -> S) (get : S -> A) (about : C -> option A) s0 calls :
  (forall s c, get (step s c) = match about c with Some a => a | None => get s end) ->
  last_wins about (get s0) calls (get (fold_left step calls s0)).
Proof.
  intros H.
  assert (K : forall l s, Forall (fun d => about d = None) l -> get (fold_left step l s) = get s).
  { induction l as [|c l IH]; intros s F; [reflexivity|]. cbn [fold_left].
    inversion F as [|? ? F1 F2]; subst. rewrite IH by exact F2. now rewrite H, F1. }
  split.
  - intros before c after a -> Ha F. rewrite fold_left_app. cbn [fold_left].
    rewrite K by exact F. now rewrite H, Ha.
  - intros F. now apply K.
Qed.

Lemma MountSource_new_eq s : MountSource_new s = match s with [] => None | _ => Some s end.
Proof. reflexivity. Qed.
Lemma FuseSubtype_new_eq s :
  FuseSubtype_new s = match s with [] => None | _ => if comma_free s then Some s else None end.
Proof.
  destruct s as [|b s]; [reflexivity|]. unfold FuseSubtype_new, comma_free.
  change comma with x2c. now destruct (existsb _ _).
Qed.

Ltac by_calls get :=
  apply (last_wins_fold do_option_call get);
  let o := fresh "o" in let c := fresh "c" in
  intros o c; destruct c as [ | | | | | |s|b| |s| ]; cbn [do_option_call];
  first [ reflexivity
        | destruct b; reflexivity
        | rewrite MountSource_new_eq; destruct s; reflexivity
        | destruct s as [[|]|]; rewrite ?FuseSubtype_new_eq; reflexivity ].

(** ** Theorems *)

(** Whatever calls a program makes, every accessor returns what the last call
    that set its option asked for, and the documented default if there was
    none: the calls for the other options do not matter. *)
Theorem C60_accessors calls :
  let o := build_options calls in
  last_wins about_allow_other false calls (MountOptions_allow_other o) /\
  last_wins about_block_size None calls (MountOptions_block_size o) /\
  last_wins about_default_permissions false calls (MountOptions_default_permissions o) /\
  last_wins about_fd None calls (MountOptions_fuse_device_fd o) /\
  last_wins about_group_id None calls (MountOptions_group_id o) /\
  last_wins about_max_read None calls (MountOptions_max_read o) /\
  last_wins about_source (txt "fuse") calls (MountOptions_mount_source o) /\
  last_wins about_type (txt "fuse") calls (MountOptions_mount_type o) /\
  last_wins about_root_mode None calls (MountOptions_root_mode o) /\
  last_wins about_subtype None calls (MountOptions_subtype o) /\
  last_wins about_user_id None calls (MountOptions_user_id o).
Proof.
  cbv zeta. unfold build_options.
  split; [by_calls MountOptions_allow_other|]. split; [by_calls MountOptions_block_size|].
  split; [by_calls MountOptions_default_permissions|]. split; [by_calls MountOptions_fuse_device_fd|].
  split; [by_calls MountOptions_group_id|]. split; [by_calls MountOptions_max_read|].
  split; [by_calls MountOptions_mount_source|]. split; [by_calls MountOptions_mount_type|].
  split; [by_calls MountOptions_root_mode|]. split; [by_calls MountOptions_subtype|].
  by_calls MountOptions_user_id.
Qed.

Lemma build_typed calls : Forall typed calls -> options_ok (build_options calls).
Proof.
  intros F. unfold build_options.
  assert (G : forall l o, Forall typed l -> options_ok o -> options_ok (fold_left do_option_call l o)).
  { induction l as [|c l IH]; intros o Fl Ho; [exact Ho|]. cbn [fold_left].
    inversion Fl as [|? ? T Fr]; subst. apply IH; [exact Fr|].
    destruct Ho as (A & B & Cg & D & R & U & S).
    destruct c as [ | | | | | |s| | |s| ]; cbn [do_option_call typed] in *;
      try (unfold options_ok; cbn; now auto 10).
    - destruct s; cbn; unfold options_ok; cbn; auto 10.
    - unfold options_ok; cbn. repeat (split; [assumption|]).
      destruct s as [s|]; [|exact I]. destruct (FuseSubtype_new s) eqn:N; [|exact I].
      exists s. now split. }
  apply G; [exact F|]. repeat split.
Qed.

Lemma configured_told o name e : In (txt name, e) (configured o) <-> told o name e.
Proof.
  split.
  - unfold configured. cbv zeta. rewrite !in_app_iff.
    assert (J : forall a b : string, txt a = txt b -> a = b).
    { intros a b H. unfold txt in H.
      rewrite <- (string_of_list_byte_of_string a), <- (string_of_list_byte_of_string b). now rewrite H. }
    assert (K1 : forall A (k : string) (mk : A -> value) x,
      In (txt name, e) (match x with Some v => [(txt k, Some (mk v))] | None => [] end) ->
      name = k /\ exists v, x = Some v /\ e = Some (mk v)).
    { intros A k mk [v|] H; [|destruct H]. destruct H as [H|[]].
      assert (H1 := f_equal fst H). assert (H2 := f_equal snd H). cbn [fst snd] in H1, H2.
      split; [now apply J|]. eauto. }
    assert (K2 : forall (k : string) (b : bool),
      In (txt name, e) (if b then [(txt k, @None value)] else []) -> name = k /\ b = true /\ e = None).
    { intros k [] H; [|destruct H]. destruct H as [H|[]].
      assert (H1 := f_equal fst H). assert (H2 := f_equal snd H). cbn [fst snd] in H1, H2.
      split; [now apply J|]. auto. }
    intros H; repeat (destruct H as [H|H]).
    all: first [apply K1 in H as (-> & v & H & ->) | apply K2 in H as (-> & H & ->)]; now constructor.
  - unfold configured. cbv zeta. rewrite !in_app_iff.
    intros T; destruct T as [n H|H|n H|H|n H|n H|n H|n H|n H];
      [change (mo_fd o = Some n) in H|change (mo_allow_other o = true) in H
      |change (mo_block_size o = Some n) in H|change (mo_default_permissions o = true) in H
      |change (mo_group_id o = Some n) in H|change (mo_max_read o = Some n) in H
      |change (mo_root_mode o = Some n) in H|change (mo_subtype o = Some n) in H
      |change (mo_user_id o = Some n) in H]; rewrite H.
    + left; now left.
    + right; left; now left.
    + do 2 right; left; now left.
    + do 3 right; left; now left.
    + do 4 right; left; now left.
    + do 5 right; left; now left.
    + do 6 right; left; now left.
    + do 7 right; left; now left.
    + do 8 right; now left.
Qed.

Lemma configured_names o k e : In (k, e) (configured o) -> exists name, k = txt name.
Proof.
  unfold configured. cbv zeta. rewrite !in_app_iff.
  intros H; repeat (destruct H as [H|H]).
  all: match type of H with In _ (match ?x with _ => _ end) => destruct x; [|now destruct H] end.
  all: destruct H as [H|[]]; apply (f_equal fst) in H; cbn [fst] in H; subst k; eauto.
Qed.

(** The kernel, reading the mount data of a program's options, finds exactly
    what the accessors return: every option that is set, nothing else, each
    once. *)
Theorem C60_kernel calls storage data :
  Forall typed calls -> mount_data (build_options calls) storage = Ret (Some data) ->
  let o := build_options calls in
  (forall name e, told o name e ->
     exists v, In (txt name, v) (kernel_options data) /\ option_reads (txt name, e) (txt name, v)) /\
  (forall k v, In (k, v) (kernel_options data) ->
     exists name e, k = txt name /\ told o name e /\ option_reads (k, e) (k, v)) /\
  NoDup (map fst (kernel_options data)).
Proof.
  intros T M o. destruct (C41_kernel o storage data (build_typed calls T) M) as (F & ND & _).
  split; [|split; [|exact ND]].
  - intros name e H. apply configured_told in H. revert H.
    induction F as [|x [k v] l l' R F IH]; intros H; [destruct H|].
    destruct H as [->|H].
    + exists v. split; [|].
      * left. destruct R as [R _]. cbn [fst] in R. now rewrite <- R.
      * destruct R as [R1 R2]. split; [reflexivity|exact R2].
    + inversion ND as [|? ? _ ND']; subst. destruct (IH ND' H) as (w & I & O). exists w. split; [now right|exact O].
  - intros k v H.
    assert (X : exists e, In (k, e) (configured o) /\ option_reads (k, e) (k, v)).
    { revert H. clear ND. induction F as [|[k' e] [k2 v2] l l' R F IH]; intros H; [destruct H|].
      destruct H as [H|H].
      - injection H as -> ->. destruct R as [R1 R2]. cbn [fst snd] in R1, R2. subst k'.
        exists e. split; [now left|]. now split.
      - destruct (IH H) as (e' & I & O). exists e'. split; [now right|exact O]. }
    destruct X as (e & I & O). destruct (configured_names _ _ _ I) as [name ->].
    exists name, e. split; [reflexivity|]. split; [now apply configured_told|exact O].
Qed.

Lemma told_completed y mode fd o name e :
  (mo_root_mode o = Some mode \/ mo_root_mode o = None) ->
  told o name e -> name <> "fd" -> told (completed y mode fd o) name e.
Proof.
  intros R T NF. destruct T as [n H|H|n H|H|n H|n H|n H|n H|n H];
    unfold MountOptions_fuse_device_fd, MountOptions_allow_other, MountOptions_block_size,
      MountOptions_default_permissions, MountOptions_group_id, MountOptions_max_read,
      MountOptions_root_mode, MountOptions_subtype, MountOptions_user_id in H.
  - congruence.
  - apply told_allow_other. exact H.
  - apply told_block_size. exact H.
  - apply told_default_permissions. exact H.
  - apply told_group_id. unfold MountOptions_group_id, completed. cbn [mo_group_id]. now rewrite H.
  - apply told_max_read. exact H.
  - apply told_root_mode. unfold MountOptions_root_mode, completed. cbn [mo_root_mode].
    destruct R as [R|R]; congruence.
  - apply told_subtype. exact H.
  - apply told_user_id. unfold MountOptions_user_id, completed. cbn [mo_user_id]. now rewrite H.
Qed.

(** Mounting with options built by any program: the device opened, the source,
    type and flags of mount(2) are what the last calls asked for, or the
    documented defaults - flags 6 is nosuid and nodev - and the kernel reads
    every option the program set (the descriptor is the mount's own). *)
Theorem C60_mount is_libc y target calls host_calls trace r :
  system_ok y -> Forall typed calls ->
  mount is_libc y target (build_host (build_options calls) host_calls) = Ret (trace, r) ->
  (forall path fd, In (CallOpen path fd) trace ->
     exists p, last_wins about_dev_fuse None host_calls p /\
       path = match p with Some p => p | None => txt "/dev/fuse" end) /\
  (forall source target' type flags data, In (CallMount source target' type flags data) trace ->
     target' = target /\ last_wins about_source (txt "fuse") calls source /\
     last_wins about_type (txt "fuse") calls type /\ last_wins about_flags 6 host_calls flags /\
     flags = HostMountOptions_flags (build_host (build_options calls) host_calls) /\
     forall name e, told (build_options calls) name e -> name <> "fd" ->
       exists v, In (txt name, v) (kernel_options data) /\ option_reads (txt name, e) (txt name, v)).
Proof.
  intros Y T M.
  set (h := build_host (build_options calls) host_calls) in *.
  assert (O : hm_opts h = build_options calls).
  { unfold h, build_host.
    assert (G : forall l s, hm_opts (fold_left do_host_call l s) = hm_opts s).
    { induction l as [|c l IH]; intros s; [reflexivity|]. cbn [fold_left]. rewrite IH. now destruct c. }
    now rewrite G. }
  assert (LD : last_wins about_dev_fuse None host_calls (hm_dev_fuse h)).
  { apply (last_wins_fold do_host_call hm_dev_fuse). intros s c. now destruct c. }
  assert (LF : last_wins about_flags 6 host_calls (hm_flags h)).
  { apply (last_wins_fold do_host_call hm_flags). intros s c. now destruct c. }
  split.
  - intros path fd I. exists (hm_dev_fuse h). split; [exact LD|].
    rewrite C44_mount in M by exact Y. cbv zeta in M.
    destruct (match mo_root_mode (hm_opts h) with Some m => inl m | None => sys_statx y end);
      [destruct (opened is_libc y); [destruct (_ <=? 4096); [destruct (sys_mount y)|]|]|];
      injection M as <- <-; cbn [In] in I;
      repeat (destruct I as [I|I]; [first [discriminate I | now injection I as <- _]|]); destruct I.
  - intros source target' type flags data I.
    assert (OK : options_ok (hm_opts h)) by (rewrite O; now apply build_typed).
    destruct (C44_options is_libc y target h trace r source target' type flags data Y OK M I)
      as (-> & -> & -> & -> & fd & mode & path & _ & _ & RM & F & _).
    destruct (C60_accessors calls) as (_ & _ & _ & _ & _ & _ & LS & LT & _). cbv zeta in LS, LT.
    rewrite O in *. split; [reflexivity|]. split; [exact LS|]. split; [exact LT|]. split; [exact LF|]. split; [reflexivity|].
    intros name e Te NF. apply (told_completed y mode fd) in Te; [|tauto|exact NF].
    apply configured_told in Te. revert Te. cbv zeta in F.
    induction F as [|x [k v] l l' R F IH]; intros H; [destruct H|].
    destruct H as [->|H].
    + exists v. destruct R as [R1 R2]. cbn [fst] in R1. split; [left; now rewrite <- R1|now split].
    + destruct (IH H) as (w & J & Q). exists w. split; [now right|exact Q].
Qed.

(** The same for FreeBSD, whose default flags are 8, nosuid. *)
Theorem C60_freebsd calls flag_calls y target trace r :
  fd_ok (sys_open y) -> ~ In x00 target ->
  Forall (fun c => match c with FSetSubtype (Some s) => ~ In x00 s | _ => True end) calls ->
  let o := build_freebsd calls in
  let h := fold_left (fun h n => FreebsdHostOptions_set_flags n h) flag_calls (FreebsdHostOptions_from o) in
  last_wins about_f_default_permissions false calls (FreebsdOptions_default_permissions o) /\
  last_wins about_f_subtype None calls (FreebsdOptions_subtype o) /\
  FreebsdHostOptions_flags h = last flag_calls 8 /\
  (freebsd_mount y target (fh_opts h) (fh_flags h) = Ret (trace, r) ->
   forall iov flags, In (FNmount iov flags) trace ->
     flags = last flag_calls 8 /\
     exists l, pairs iov = Some l /\ In (txt "fspath", target) l /\
       (forall v, In (txt "default_permissions", v) l <->
                  v = [] /\ FreebsdOptions_default_permissions o = true) /\
       (forall v, In (txt "subtype=", v) l <-> FreebsdOptions_subtype o = Some v)).
Proof.
  intros Fd Tg T o h.
  assert (O : fh_opts h = o).
  { unfold h. assert (G : forall l s, fh_opts (fold_left (fun h n => FreebsdHostOptions_set_flags n h) l s) = fh_opts s).
    { induction l as [|c l IH]; intros s; [reflexivity|]. cbn [fold_left]. now rewrite IH. }
    now rewrite G. }
  assert (L : fh_flags h = last flag_calls 8).
  { unfold h.
    assert (G : forall l s, fh_flags (fold_left (fun h n => FreebsdHostOptions_set_flags n h) l s) = last l (fh_flags s)).
    { induction l as [|c l IH]; intros s; [reflexivity|]. cbn [fold_left]. rewrite IH.
      destruct l as [|d l]; [reflexivity|]. cbn [FreebsdHostOptions_set_flags fh_flags].
      change (last (c :: d :: l) (fh_flags s)) with (last (d :: l) (fh_flags s)).
      clear. revert d. induction l as [|e l IH]; intros d; [reflexivity|]. apply (IH e). }
    now rewrite G. }
  assert (S : match fo_subtype o with Some s => ~ In x00 s | None => True end).
  { unfold o, build_freebsd. revert T.
    assert (G : forall l s,
      match fo_subtype s with Some s => ~ In x00 s | None => True end ->
      Forall (fun c => match c with FSetSubtype (Some s) => ~ In x00 s | _ => True end) l ->
      match fo_subtype (fold_left do_freebsd_call l s) with Some s => ~ In x00 s | None => True end).
    { induction l as [|c l IH]; intros s Hs F; [exact Hs|]. cbn [fold_left].
      inversion F as [|? ? F1 F2]; subst. apply IH; [|exact F2].
      destruct c as [b|[[|c s']|]]; cbn; auto. }
    apply G. exact I. }
  split; [apply (last_wins_fold do_freebsd_call FreebsdOptions_default_permissions); intros s c; now destruct c|].
  split; [apply (last_wins_fold do_freebsd_call FreebsdOptions_subtype); intros s c;
          destruct c as [|[[|]|]]; reflexivity|].
  split; [exact L|].
  intros M iov flags I. rewrite O, L in M.
  destruct (C53_freebsd y target o (last flag_calls 8) Fd Tg S) as (trace' & r' & M' & Q).
  rewrite M in M'. injection M' as <- <-.
  destruct (sys_open y) as [fd|e]; [|destruct Q as [-> _]; destruct I as [I|[]]; discriminate I].
  destruct Q as (iov' & P & _ & Q).
  assert (X : flags = last flag_calls 8 /\ iov = iov').
  { destruct (sys_mount y); destruct Q as (-> & _); cbn [In] in I;
      repeat (destruct I as [I|I]; [first [discriminate I | injection I as <- <-; now split]|]); destruct I. }
  destruct X as [-> ->]. split; [reflexivity|].
  exists (freebsd_expected target fd o). split; [exact P|].
  unfold freebsd_expected, FreebsdOptions_default_permissions, FreebsdOptions_subtype.
  assert (NE : forall k (v : bytes) (w : bytes * bytes), txt k <> fst w -> In (txt k, v) [w] -> False).
  { intros k v w H [J|[]]. apply H. now rewrite J. }
  split; [|split].
  - rewrite in_app_iff. left. cbn [In]. auto.
  - intros v. rewrite !in_app_iff. split.
    + intros [H|[H|H]].
      * exfalso. cbn [In] in H. repeat (destruct H as [H|H]; [apply (f_equal fst) in H; vm_compute in H; discriminate H|]).
        exact H.
      * destruct (fo_default_permissions o); [|destruct H]. destruct H as [H|[]].
        apply (f_equal snd) in H. cbn [snd] in H. now subst.
      * exfalso. destruct (fo_subtype o); [|exact H]. revert H. apply NE. vm_compute. discriminate.
    + intros [-> H]. rewrite H. right; left; now left.
  - intros v. rewrite !in_app_iff. split.
    + intros [H|[H|H]].
      * exfalso. cbn [In] in H. repeat (destruct H as [H|H]; [apply (f_equal fst) in H; vm_compute in H; discriminate H|]).
        exact H.
      * exfalso. destruct (fo_default_permissions o); [|exact H]. revert H. apply NE. vm_compute. discriminate.
      * destruct (fo_subtype o) as [s|]; [|destruct H]. destruct H as [H|[]].
        apply (f_equal snd) in H. cbn [snd] in H. now subst.
    + intros H. rewrite H. right; right; now left.
Qed.

(** ** Examples *)

Definition demo_program : list option_call :=
  [SetMaxRead (Some 4096); SetSubtype (Some (txt "a,b")); SetAllowOther true; SetMountSource [];
   SetMountType true; SetSubtype (Some (txt "demo")); SetMaxRead (Some 65536); SetUserId (Some 1000);
   SetBlockSize (Some 512); SetMountSource (txt "/dev/sda1"); SetUserId None; SetRootMode (Some 16877)].

Example C60_accessors_example :
  let o := build_options demo_program in
  MountOptions_max_read o = Some 65536 /\ MountOptions_subtype o = Some (txt "demo") /\
  MountOptions_allow_other o = true /\ MountOptions_user_id o = None /\
  MountOptions_mount_source o = txt "/dev/sda1" /\ MountOptions_mount_type o = txt "fuseblk" /\
  MountOptions_group_id o = None.
Proof. vm_compute. repeat split. Qed.

Lemma demo_typed : Forall typed demo_program.
Proof.
  repeat constructor; cbn; try exact I; intros H; repeat (destruct H as [H|H]; [discriminate H|]); destruct H.
Qed.

Example C60_kernel_example :
  Forall typed demo_program /\
  match mount_data (build_options demo_program) (repeat x00 200) with
  | Ret (Some data) => kernel_options data
  | _ => []
  end =
  [(txt "allow_other", None); (txt "blksize", Some (txt "512")); (txt "max_read", Some (txt "65536"));
   (txt "rootmode", Some (txt "40755")); (txt "subtype", Some (txt "demo"))].
Proof. split; [exact demo_typed|vm_compute; reflexivity]. Qed.

Definition demo_system : system :=
  {| sys_statx := inl 16877; sys_uid := 5; sys_gid := 6; sys_open := inl 7; sys_openat := inr 2;
     sys_mount := None |}.

Example C60_mount_example :
  system_ok demo_system /\
  match mount false demo_system (txt "/mnt")
    (build_host (build_options demo_program) [SetDevFuse (Some (txt "/dev/other")); SetFlags 1; SetFlags 2]) with
  | Ret ([CallOpen p (Some fd); CallMount source target type flags data], inl _) =>
    p = txt "/dev/other" /\ fd = 7 /\ source = txt "/dev/sda1" /\ target = txt "/mnt" /\
    type = txt "fuseblk" /\ flags = 2 /\
    In (txt "max_read", Some (txt "65536")) (kernel_options data)
  | _ => False
  end.
Proof. split; [vm_compute; repeat split|]. vm_compute. repeat split. auto 10. Qed.

Example C60_freebsd_example :
  match freebsd_mount demo_system (txt "/mnt")
    (fh_opts (FreebsdHostOptions_from (build_freebsd
       [FSetSubtype (Some (txt "x")); FSetDefaultPermissions true; FSetSubtype (Some [])])))
    (fh_flags (FreebsdHostOptions_from FreebsdOptions_new)) with
  | Ret ([FOpen _ _; FNmount iov flags], _) =>
    flags = 8 /\ exists l, pairs iov = Some l /\ In (txt "default_permissions", []) l /\
    ~ In (txt "subtype=", txt "x") l
  | _ => False
  end.
Proof.
  split; [reflexivity|]. eexists. split; [vm_compute; reflexivity|]. split; [vm_compute; auto 10|].
  intros H. repeat (destruct H as [H|H]; [vm_compute in H; discriminate H|]). destruct H.
Qed.

Print Assumptions C60_accessors.
Print Assumptions C60_kernel.
Print Assumptions C60_mount.
Print Assumptions C60_freebsd.
