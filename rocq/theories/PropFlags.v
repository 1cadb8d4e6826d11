(** Theorems about flag sets: C59 of properties.jsonl. *)

From Coq Require Import String.
From Verif Require Import Base Kernel CoreModel FlagsModel.
From Coq Require Import List NArith Bool Lia Sorted ZifyBool ZifyNat ZifyN.
Import ListNotations.
Open Scope string_scope.
Open Scope list_scope.
Open Scope N_scope.

(** ** Specification *)

(** The bit numbers that linux/fuse.h (7.36) gives to the flags, by type and
    in the order of their names. *)
Definition bit_numbers (type : string) : list (string * N) :=
  let fopen := [("DIRECT_IO", 0); ("KEEP_CACHE", 1); ("NONSEEKABLE", 2); ("CACHE_DIR", 3);
                ("STREAM", 4); ("NOFLUSH", 5)] in
  if String.eqb type "AttributeFlags" then [("FUSE_ATTR_SUBMOUNT", 0); ("FUSE_ATTR_DAX", 1)]
  else if String.eqb type "CreateRequestFlags" then [("KILL_SUIDGID", 0)]
  else if String.eqb type "OpenRequestFlags" then [("KILL_SUIDGID", 0)]
  else if String.eqb type "OpendirRequestFlags" then [("KILL_SUIDGID", 0)]
  else if String.eqb type "CreateResponseFlags" then fopen
  else if String.eqb type "OpenResponseFlags" then fopen
  else if String.eqb type "OpendirResponseFlags" then fopen
  else if String.eqb type "CuseInitFlags" then [("UNRESTRICTED_IOCTL", 0)]
  else if String.eqb type "FsyncRequestFlags" then [("FDATASYNC", 0)]
  else if String.eqb type "FsyncdirRequestFlags" then [("FDATASYNC", 0)]
  else if String.eqb type "IoctlRequestFlags" then
    [("IOCTL_COMPAT", 0); ("IOCTL_UNRESTRICTED", 1); ("IOCTL_32BIT", 3); ("IOCTL_DIR", 4);
     ("IOCTL_COMPAT_X32", 5)]
  else if String.eqb type "PollRequestFlags" then [("SCHEDULE_NOTIFY", 0)]
  else if String.eqb type "SetlkRequestFlags" then [("LK_FLOCK", 0)]
  else if String.eqb type "SetxattrRequestFlags" then [("ACL_KILL_SGID", 0)]
  else if String.eqb type "WriteRequestFlags" then
    [("WRITE_CACHE", 0); ("WRITE_LOCKOWNER", 1); ("WRITE_KILL_SUIDGID", 2)]
  else if String.eqb type "FuseInitFlags" then
    [("ASYNC_READ", 0); ("POSIX_LOCKS", 1); ("FILE_OPS", 2); ("ATOMIC_O_TRUNC", 3);
     ("EXPORT_SUPPORT", 4); ("BIG_WRITES", 5); ("DONT_MASK", 6); ("SPLICE_WRITE", 7);
     ("SPLICE_MOVE", 8); ("SPLICE_READ", 9); ("FLOCK_LOCKS", 10); ("HAS_IOCTL_DIR", 11);
     ("AUTO_INVAL_DATA", 12); ("DO_READDIRPLUS", 13); ("READDIRPLUS_AUTO", 14);
     ("ASYNC_DIO", 15); ("WRITEBACK_CACHE", 16); ("NO_OPEN_SUPPORT", 17);
     ("PARALLEL_DIROPS", 18); ("HANDLE_KILLPRIV", 19); ("POSIX_ACL", 20);
     ("ABORT_ERROR", 21); ("MAX_PAGES", 22); ("CACHE_SYMLINKS", 23);
     ("NO_OPENDIR_SUPPORT", 24); ("EXPLICIT_INVAL_DATA", 25); ("MAP_ALIGNMENT", 26);
     ("SUBMOUNTS", 27); ("HANDLE_KILLPRIV_V2", 28); ("SETXATTR_EXT", 29); ("INIT_EXT", 30);
     ("INIT_RESERVED", 31); ("SECURITY_CTX", 32); ("HAS_INODE_DAX", 33)]
  else [].

(** The width of the field that holds the flags: the two INIT words together and
    COPY_FILE_RANGE have 64 bits. *)
Definition field_width (type : string) : nat :=
  if String.eqb type "FuseInitFlags" || String.eqb type "CopyFileRangeRequestFlags" then 64%nat else 32%nat.

(** A flag of a type: one bit of its width. *)
Definition is_flag (t : flags_type) (mask k : N) : Prop := mask = 2 ^ k /\ k < N.of_nat (ft_bits t).

(** The values the bits of a set of a type may have. *)
Definition is_set (t : flags_type) (bits : N) : Prop := bits < 2 ^ N.of_nat (ft_bits t).

(** ** Theorems *)

Lemma pow2_testbit k j : N.testbit (2 ^ k) j = (k =? j).
Proof. apply N.pow2_bits_eqb. Qed.

Lemma bit_small bits w k : bits < 2 ^ w -> w <= k -> N.testbit bits k = false.
Proof.
  intros H K. destruct (N.eq_dec bits 0) as [->|Z]; [apply N.bits_0|].
  apply N.bits_above_log2. apply N.log2_lt_pow2 in H; lia.
Qed.

Lemma small_bits bits w : (forall k, w <= k -> N.testbit bits k = false) -> bits < 2 ^ w.
Proof.
  intros H. destruct (N.eq_dec bits 0) as [->|Z].
  - assert (2 ^ w <> 0) by (apply N.pow_nonzero; lia). lia.
  - apply N.log2_lt_pow2; [lia|].
    destruct (N.lt_ge_cases (N.log2 bits) w) as [L|L]; [exact L|].
    specialize (H _ L). rewrite N.bit_log2 in H by exact Z. congruence.
Qed.

Lemma land_pow2 bits k : N.land bits (2 ^ k) = if N.testbit bits k then 2 ^ k else 0.
Proof.
  apply N.bits_inj. intros j. rewrite N.land_spec, pow2_testbit.
  destruct (N.eqb_spec k j) as [<-|Ne].
  - rewrite andb_true_r. destruct (N.testbit bits k); [now rewrite pow2_testbit, N.eqb_refl|now rewrite N.bits_0].
  - rewrite andb_false_r. destruct (N.testbit bits k); [rewrite pow2_testbit|now rewrite N.bits_0].
    symmetry. now apply N.eqb_neq.
Qed.

(** The named flags are the kernel's: single, different bits of the type. *)
Theorem C59_named t :
  In t all_flags_types ->
  ft_bits t = field_width (ft_name t) /\
  ft_flags t = map (fun f => (fst f, 2 ^ snd f)) (bit_numbers (ft_name t)) /\
  NoDup (map fst (ft_flags t)) /\ NoDup (map snd (ft_flags t)) /\
  (forall name mask, In (name, mask) (ft_flags t) ->
     (exists k, is_flag t mask k) /\ flag_name t mask = Some name).
Proof.
  intros H.
  assert (D : forall (l : list (string * N)),
    (fix nd (l : list string) := match l with [] => true
      | x :: r => negb (existsb (String.eqb x) r) && nd r end) (map fst l) = true -> NoDup (map fst l)).
  { intros l. induction (map fst l) as [|x r IH]; intros B; constructor.
    - apply andb_true_iff in B as [B _]. intros I. apply negb_true_iff in B.
      assert (existsb (String.eqb x) r = true) by (apply existsb_exists; exists x; split; [exact I|apply String.eqb_refl]).
      congruence.
    - apply IH. apply andb_true_iff in B. tauto. }
  assert (D' : forall (l : list (string * N)),
    (fix nd (l : list N) := match l with [] => true
      | x :: r => negb (existsb (N.eqb x) r) && nd r end) (map snd l) = true -> NoDup (map snd l)).
  { intros l. induction (map snd l) as [|x r IH]; intros B; constructor.
    - apply andb_true_iff in B as [B _]. intros I. apply negb_true_iff in B.
      assert (existsb (N.eqb x) r = true) by (apply existsb_exists; exists x; split; [exact I|apply N.eqb_refl]).
      congruence.
    - apply IH. apply andb_true_iff in B. tauto. }
  assert (F : forall name mask, In (name, mask) (ft_flags t) ->
     mask = 2 ^ N.log2 mask /\ N.log2 mask < N.of_nat (ft_bits t) /\ flag_name t mask = Some name).
  { intros name mask I.
    assert (G : forallb (fun f => (snd f =? 2 ^ N.log2 (snd f)) && (N.log2 (snd f) <? N.of_nat (ft_bits t)) &&
                 match flag_name t (snd f) with Some n => String.eqb n (fst f) | None => false end) (ft_flags t) = true).
    { unfold all_flags_types in H. cbn [In] in H.
      repeat (destruct H as [<-|H]; [vm_compute; reflexivity|]). contradiction. }
    rewrite forallb_forall in G. specialize (G _ I). cbn [fst snd] in G.
    rewrite !andb_true_iff in G. destruct G as ((A & B) & C).
    destruct (flag_name t mask) as [n|]; [|easy]. apply String.eqb_eq in C. subst n.
    split; [now apply N.eqb_eq|]. split; [now apply N.ltb_lt|reflexivity]. }
  split; [|split; [|split; [|split]]].
  - unfold all_flags_types in H. cbn [In] in H.
    repeat (destruct H as [<-|H]; [vm_compute; reflexivity|]). contradiction.
  - unfold all_flags_types in H. cbn [In] in H.
    repeat (destruct H as [<-|H]; [vm_compute; reflexivity|]). contradiction.
  - apply D. unfold all_flags_types in H. cbn [In] in H.
    repeat (destruct H as [<-|H]; [vm_compute; reflexivity|]). contradiction.
  - apply D'. unfold all_flags_types in H. cbn [In] in H.
    repeat (destruct H as [<-|H]; [vm_compute; reflexivity|]). contradiction.
  - intros name mask I. destruct (F _ _ I) as (A & B & C). split; [|exact C].
    exists (N.log2 mask). now split.
Qed.

(** [get] tells whether the bit is set, [new] has none, and a set equals a
    flag if it contains this flag and nothing else. *)
Theorem C59_get t bits mask k :
  is_flag t mask k ->
  flags_get bits mask = N.testbit bits k /\ flags_get flags_new mask = false /\
  (flags_eq_flag bits mask = true <-> forall j, N.testbit bits j = (j =? k)).
Proof.
  intros [-> K]. unfold flags_get, flags_new, flags_eq_flag. rewrite land_pow2.
  assert (P : 2 ^ k <> 0) by (apply N.pow_nonzero; lia).
  split; [|split].
  - destruct (N.testbit bits k); [apply N.eqb_refl|]. apply N.eqb_neq. lia.
  - rewrite N.land_0_l. apply N.eqb_neq. lia.
  - rewrite N.eqb_eq. split.
    + intros -> j. rewrite pow2_testbit. apply N.eqb_sym.
    + intros H. apply N.bits_inj. intros j. rewrite H, pow2_testbit. apply N.eqb_sym.
Qed.

(** Changing one flag changes that flag only; unions and intersections are
    those of the flags. *)
Theorem C59_change t bits mask k b :
  is_set t bits -> is_flag t mask k ->
  let ones := 2 ^ N.of_nat (ft_bits t) - 1 in
  let result := flags_set_to ones bits mask b in
  is_set t result /\ is_set t (flags_set bits mask) /\
  flags_set bits mask = flags_set_to ones bits mask true /\
  (forall mask' k', is_flag t mask' k' ->
     flags_get result mask' = if mask' =? mask then b else flags_get bits mask').
Proof.
  intros S F ones result.
  assert (K := F). destruct K as [-> K].
  assert (T : forall j, N.testbit result j = if j =? k then b else N.testbit bits j).
  { intros j. unfold result, flags_set_to. destruct b.
    - rewrite N.lor_spec, pow2_testbit. rewrite (N.eqb_sym k j). destruct (j =? k); [apply orb_true_r|apply orb_false_r].
    - rewrite N.land_spec, N.lxor_spec, pow2_testbit. unfold ones.
      replace (2 ^ N.of_nat (ft_bits t) - 1) with (N.ones (N.of_nat (ft_bits t)))
        by (rewrite N.ones_equiv; lia).
      rewrite (N.eqb_sym k j). destruct (N.lt_ge_cases j (N.of_nat (ft_bits t))) as [L|L].
      + rewrite N.ones_spec_low by exact L. destruct (j =? k); cbn; [apply andb_false_r|apply andb_true_r].
      + rewrite N.ones_spec_high by exact L. rewrite (bit_small _ _ _ S L).
        now destruct (j =? k). }
  split; [|split; [|split; [reflexivity|]]].
  - apply small_bits. intros j L. rewrite T, (bit_small _ _ _ S L).
    destruct (N.eqb_spec j k); [lia|reflexivity].
  - apply small_bits. intros j L. unfold flags_set.
    rewrite N.lor_spec, pow2_testbit, (bit_small _ _ _ S L).
    destruct (N.eqb_spec k j); [lia|reflexivity].
  - intros mask' k' F'. destruct (C59_get t result mask' k' F') as (G & _).
    destruct (C59_get t bits mask' k' F') as (G' & _). rewrite G, G', T.
    destruct F' as [-> K']. destruct (N.eqb_spec k' k) as [->|Ne]; [now rewrite N.eqb_refl|].
    destruct (N.eqb_spec (2 ^ k') (2 ^ k)) as [E|_]; [|reflexivity].
    exfalso. apply Ne. apply (N.pow_inj_r 2); [lia|exact E].
Qed.

Theorem C59_combine t a b :
  is_set t a -> is_set t b ->
  is_set t (flags_or a b) /\ is_set t (flags_and a b) /\
  (forall mask k, is_flag t mask k ->
     flags_get (flags_or a b) mask = flags_get a mask || flags_get b mask /\
     flags_get (flags_and a b) mask = flags_get a mask && flags_get b mask).
Proof.
  intros A B. split; [|split].
  - apply small_bits. intros j L. unfold flags_or.
    now rewrite N.lor_spec, (bit_small _ _ _ A L), (bit_small _ _ _ B L).
  - apply small_bits. intros j L. unfold flags_and.
    now rewrite N.land_spec, (bit_small _ _ _ A L).
  - intros mask k F.
    destruct (C59_get t (flags_or a b) mask k F) as (-> & _).
    destruct (C59_get t (flags_and a b) mask k F) as (-> & _).
    destruct (C59_get t a mask k F) as (-> & _). destruct (C59_get t b mask k F) as (-> & _).
    unfold flags_or, flags_and. now rewrite N.lor_spec, N.land_spec.
Qed.

Lemma sorted_filter {A} (R : A -> A -> Prop) f l :
  StronglySorted R l -> StronglySorted R (filter f l).
Proof.
  induction 1 as [|x l H IH Hx]; cbn [filter]; [constructor|].
  destruct (f x); [|exact IH]. constructor; [exact IH|].
  rewrite Forall_forall in *. intros y I. apply filter_In in I. now apply Hx.
Qed.

(** What a flag set lists when printed: each flag it contains once, lowest
    bit first, and nothing else. *)
Theorem C59_listed t bits :
  is_set t bits ->
  StronglySorted N.lt (flags_masks t bits) /\
  (forall mask, In mask (flags_masks t bits) <-> exists k, is_flag t mask k /\ N.testbit bits k = true) /\
  fold_right N.lor 0 (flags_masks t bits) = bits.
Proof.
  intros S.
  assert (M : forall mask, In mask (flags_masks t bits) <-> exists k, is_flag t mask k /\ N.testbit bits k = true).
  { intros mask. unfold flags_masks. rewrite filter_In, in_map_iff. split.
    - intros ((off & <- & I) & L). apply in_seq in I. rewrite N.shiftl_1_l in *.
      exists (N.of_nat off). split; [split; [reflexivity|lia]|].
      rewrite land_pow2 in L. destruct (N.testbit bits (N.of_nat off)); [reflexivity|].
      cbn in L. discriminate L.
    - intros (k & (-> & K) & T). split.
      + exists (N.to_nat k). rewrite N2Nat.id, N.shiftl_1_l. split; [reflexivity|].
        apply in_seq. lia.
      + rewrite land_pow2, T. apply negb_true_iff, N.eqb_neq.
        assert (2 ^ k <> 0) by (apply N.pow_nonzero; lia). lia. }
  split; [|split; [exact M|]].
  - unfold flags_masks. apply sorted_filter.
    assert (G : forall n s, StronglySorted N.lt (map (fun off => N.shiftl 1 (N.of_nat off)) (seq s n))).
    { induction n as [|n IH]; intros s; cbn [seq map]; constructor; [apply IH|].
      rewrite Forall_forall. intros x I. apply in_map_iff in I as (o & <- & I).
      apply in_seq in I. rewrite !N.shiftl_1_l. apply N.pow_lt_mono_r; lia. }
    apply G.
  - assert (G : forall l j, N.testbit (fold_right N.lor 0 l) j = existsb (fun m => N.testbit m j) l).
    { induction l as [|x l IH]; intros j; cbn [fold_right existsb]; [apply N.bits_0|].
      now rewrite N.lor_spec, IH. }
    apply N.bits_inj. intros j. rewrite G.
    destruct (existsb (fun m => N.testbit m j) (flags_masks t bits)) eqn:X.
    + apply existsb_exists in X as (m & I & T). apply M in I as (k & (-> & K) & B).
      rewrite pow2_testbit in T. apply N.eqb_eq in T. now subst.
    + destruct (N.testbit bits j) eqn:B; [|reflexivity].
      assert (Y : existsb (fun m => N.testbit m j) (flags_masks t bits) = true).
      { apply existsb_exists. exists (2 ^ j). rewrite pow2_testbit, N.eqb_refl. split; [|reflexivity].
        apply M. exists j. split; [|exact B]. split; [reflexivity|].
        destruct (N.lt_ge_cases j (N.of_nat (ft_bits t))) as [L|L]; [exact L|].
        rewrite (bit_small _ _ _ S L) in B. discriminate B. }
      congruence.
Qed.

(** * Examples *)

Example C59_named_example :
  In IoctlRequestFlags all_flags_types /\
  In ("IOCTL_DIR", 16) (ft_flags IoctlRequestFlags) /\ flag_name IoctlRequestFlags 4 = None.
Proof.
  split; [vm_compute; tauto|]. split; [vm_compute; tauto|]. reflexivity.
Qed.
Example C59_get_example :
  is_flag WriteRequestFlags 4 2 /\ flags_get 5 4 = true /\ flags_get 3 4 = false.
Proof. split; [split; reflexivity|]. now split. Qed.
Example C59_change_example :
  is_set WriteRequestFlags 4294967295 /\ is_flag WriteRequestFlags 4 2 /\
  flags_set_to (2 ^ 32 - 1) 4294967295 4 false = 4294967291.
Proof. split; [reflexivity|]. split; [split; reflexivity|]. reflexivity. Qed.
Example C59_combine_example :
  is_set WriteRequestFlags 5 /\ is_set WriteRequestFlags 6 /\
  flags_or 5 6 = 7 /\ flags_and 5 6 = 4.
Proof. now repeat split. Qed.
Example C59_listed_example :
  is_set WriteRequestFlags 2147483653 /\
  flags_masks WriteRequestFlags 2147483653 = [1; 4; 2147483648] /\
  map (flag_name WriteRequestFlags) [1; 4; 2147483648] =
    [Some "WRITE_CACHE"; Some "WRITE_KILL_SUIDGID"; None].
Proof. split; [reflexivity|]. split; vm_compute; reflexivity. Qed.

Print Assumptions C59_named.
Print Assumptions C59_get.
Print Assumptions C59_change.
Print Assumptions C59_combine.
Print Assumptions C59_listed.
