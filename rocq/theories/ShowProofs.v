(** Lemmas about the text of [Debug], continued: replies and the values in
    them can be read back from what is printed. *)

From Coq Require Import String.
From Verif Require Import Base Kernel CoreModel DecodeModel OpsModel.
From Verif Require Import FlagsModel HostModel DebugModel DebugProofs PropFlags DebugRead.
From Verif Require Import ReplyModel ListingModel OptionsModel ShowModel.
From Coq Require Import List NArith ZArith Bool Lia ZifyBool ZifyNat ZifyN.
Import ListNotations.
Open Scope string_scope.
Open Scope list_scope.
Open Scope N_scope.

Local Notation wf := DebugProofs.wf.

Section Show.
Context {Ch : Charset}.

(** As [faithful], but well-formed only where it is asked for. *)
Definition readable_on {A} (P : A -> Prop) (f : A -> dbg) : Prop :=
  (forall a, P a -> wf (f a)) /\
  (forall a b, P a -> P b -> flat (f a) = flat (f b) -> a = b).
Lemma faithful_on {A} (P : A -> Prop) f : faithful P f -> readable_on P f.
Proof. intros [W I]. split; auto. Qed.

(** ** Signed integers *)

Lemma sint_ok : faithful any debug_sint.
Proof.
  split.
  - intros z. unfold debug_sint. cbn [DebugProofs.wf]. destruct (z <? 0)%Z.
    + apply word_app; [now apply word_dec|]. apply digits_wordc, num_text_digits; lia.
    + apply num_word; lia.
  - intros a b _ _ H. apply atom_inj in H.
    assert (M : forall x y, txt "-" ++ x = [] ++ num_text 10 y -> False).
    { intros x y E. pose proof (num_text_digits 10 y ltac:(lia) ltac:(lia)) as D.
      cbn [app] in E. rewrite <- E in D. discriminate D. }
    destruct (Z.ltb_spec a 0), (Z.ltb_spec b 0).
    + apply app_inv_head, num_text_inj in H; lia.
    + exfalso. eapply M, H.
    + exfalso. symmetry in H. eapply M, H.
    + apply app_inv_head, num_text_inj in H; lia.
Qed.

(** ** Durations *)

Lemma tenth k : 10 ^ N.of_nat (S k) / 10 = 10 ^ N.of_nat k.
Proof. rewrite Nat2N.inj_succ, N.pow_succ_r', N.mul_comm, N.div_mul by lia. reflexivity. Qed.
Lemma fraction_digits_digits fuel k fraction :
  fraction < 10 ^ N.of_nat (S k) ->
  forallb digitc (fraction_digits fuel fraction (10 ^ N.of_nat k)) = true.
Proof.
  revert k fraction; induction fuel as [|f IH]; intros k x L; [reflexivity|].
  cbn [fraction_digits]. destruct (N.eqb_spec x 0); [reflexivity|]. cbn [forallb].
  assert (P : 10 ^ N.of_nat k <> 0) by (apply N.pow_nonzero; lia).
  rewrite Nat2N.inj_succ, N.pow_succ_r' in L.
  rewrite digit_byte_digitc by (pose proof (N.div_lt_upper_bound x _ 10 P ltac:(lia)); lia).
  pose proof (N.mod_lt x _ P) as M. destruct k as [|k].
  - change (10 ^ N.of_nat 0) with 1 in *. replace (x mod 1) with 0 by lia.
    destruct f; reflexivity.
  - rewrite tenth. apply IH. exact M.
Qed.

Fixpoint read_fraction (k : nat) (s : bytes) : N :=
  match s, k with
  | d :: s, S k => digit_value d * 10 ^ N.of_nat k + read_fraction k s
  | d :: s, O => digit_value d
  | [], _ => 0
  end.
Lemma read_fraction_digits fuel k fraction :
  (k < fuel)%nat -> fraction < 10 ^ N.of_nat (S k) ->
  read_fraction (S k) (fraction_digits fuel fraction (10 ^ N.of_nat k)) = fraction.
Proof.
  revert k fraction; induction fuel as [|f IH]; intros k x F L; [lia|].
  cbn [fraction_digits]. destruct (N.eqb_spec x 0); [now subst|]. cbn [read_fraction].
  assert (P : 10 ^ N.of_nat k <> 0) by (apply N.pow_nonzero; lia).
  rewrite Nat2N.inj_succ, N.pow_succ_r' in L.
  rewrite digit_value_byte by (pose proof (N.div_lt_upper_bound x _ 10 P ltac:(lia)); lia).
  pose proof (N.mod_lt x _ P) as M. pose proof (N.div_mod x _ P) as D.
  rewrite N.mul_comm in D. destruct k as [|k].
  - change (10 ^ N.of_nat 0) with 1 in *. replace (x mod 1) with 0 by lia.
    replace (fraction_digits f 0 (1 / 10)) with (@nil byte) by (destruct f; reflexivity).
    cbn [read_fraction]. lia.
  - rewrite D at 3. f_equal.
    rewrite tenth. apply IH; [lia|]. exact M.
Qed.

(** Split a text at the first character out of a class. *)
Lemma split_class (c : byte -> bool) s1 s2 a1 a2 r1 r2 :
  forallb c s1 = true -> forallb c s2 = true -> c a1 = false -> c a2 = false ->
  s1 ++ a1 :: r1 = s2 ++ a2 :: r2 -> s1 = s2 /\ a1 = a2 /\ r1 = r2.
Proof.
  intros D1 D2 C1 C2. revert s2 D2; induction s1 as [|b s1 IH]; intros [|b' s2] D2 H; cbn [app forallb] in *.
  - apply cons_inj in H. tauto.
  - apply cons_inj in H as [<- _]. rewrite C1 in D2. discriminate D2.
  - apply cons_inj in H as [-> _]. rewrite C2 in D1. discriminate D1.
  - apply cons_inj in H as [<- H]. apply andb_true_iff in D1, D2.
    destruct (IH (proj2 D1) s2 (proj2 D2) H) as [-> ?]. now split.
Qed.

Definition pointc (b : byte) : bool := digitc b || Byte.eqb b x2e.
Lemma digits_pointc s : forallb digitc s = true -> forallb pointc s = true.
Proof. rewrite !forallb_forall. intros H b I. unfold pointc. now rewrite H. Qed.

(** What is in front of the unit. *)
Definition mantissa (integer fraction divisor : N) : bytes :=
  num_text 10 integer ++
  match fraction_digits 9 fraction divisor with [] => [] | digits => txt "." ++ digits end.
Lemma decimal_mantissa i f d u : decimal_text i f d u = mantissa i f d ++ u.
Proof. unfold decimal_text, mantissa. now rewrite <- app_assoc. Qed.

Lemma mantissa_class i f k :
  f < 10 ^ N.of_nat (S k) -> forallb pointc (mantissa i f (10 ^ N.of_nat k)) = true.
Proof.
  intros L. unfold mantissa. rewrite forallb_app, digits_pointc by (apply num_text_digits; lia).
  pose proof (fraction_digits_digits 9 k f L) as D.
  destruct (fraction_digits 9 f (10 ^ N.of_nat k)); [reflexivity|].
  apply digits_pointc in D. cbn [txt app forallb] in *. exact D.
Qed.
Lemma mantissa_nonempty i f d : mantissa i f d <> [].
Proof.
  unfold mantissa. destruct (num_text 10 i) eqn:E; [now apply num_text_nonempty in E|discriminate].
Qed.
Lemma mantissa_inj i1 f1 i2 f2 k :
  (k < 9)%nat -> f1 < 10 ^ N.of_nat (S k) -> f2 < 10 ^ N.of_nat (S k) ->
  mantissa i1 f1 (10 ^ N.of_nat k) = mantissa i2 f2 (10 ^ N.of_nat k) -> i1 = i2 /\ f1 = f2.
Proof.
  intros K L1 L2 H. unfold mantissa in H.
  pose proof (read_fraction_digits 9 k f1 K L1) as R1.
  pose proof (read_fraction_digits 9 k f2 K L2) as R2.
  pose proof (num_text_digits 10 i1 ltac:(lia) ltac:(lia)) as N1.
  pose proof (num_text_digits 10 i2 ltac:(lia) ltac:(lia)) as N2.
  assert (F : forall s1 s2 r, forallb digitc s1 = true -> s1 = s2 ++ x2e :: r -> False).
  { intros s1 s2 r D ->. rewrite forallb_app in D. apply andb_true_iff in D as [_ D]. discriminate D. }
  destruct (fraction_digits 9 f1 _) as [|d1 l1], (fraction_digits 9 f2 _) as [|d2 l2].
  - rewrite !app_nil_r in H. apply num_text_inj in H; [|lia|lia]. split; congruence.
  - exfalso. rewrite app_nil_r in H. exact (F _ _ _ N1 H).
  - exfalso. rewrite app_nil_r in H. symmetry in H. exact (F _ _ _ N2 H).
  - apply (split_class digitc _ _ x2e x2e) in H as (H & _ & E); auto.
    apply num_text_inj in H; [|lia|lia]. split; congruence.
Qed.

Definition duration_range (d : N * N) : Prop := snd d < 1000000000.

(** Seconds, milliseconds, microseconds or nanoseconds. *)
Inductive scale := Sec | Milli | Micro | Nano.
Definition scale_of (d : N * N) : scale :=
  if 0 <? fst d then Sec else if 1000000 <=? snd d then Milli else if 1000 <=? snd d then Micro else Nano.
Definition unit_of (s : scale) : byte * bytes :=
  match s with
  | Sec => (x73, []) | Milli => (x6d, [x73]) | Micro => (xc2, [xb5; x73]) | Nano => (x6e, [x73])
  end.
Definition places (s : scale) : nat := match s with Sec => 8 | Milli => 5 | Micro => 2 | Nano => 0 end%nat.
Definition whole (s : scale) (d : N * N) : N :=
  match s with Sec => fst d | Milli => snd d / 1000000 | Micro => snd d / 1000 | Nano => snd d end.
Definition part (s : scale) (d : N * N) : N :=
  match s with Sec => snd d | Milli => snd d mod 1000000 | Micro => snd d mod 1000 | Nano => 0 end.

Lemma duration_text d :
  debug_duration d =
  DAtom (mantissa (whole (scale_of d) d) (part (scale_of d) d) (10 ^ N.of_nat (places (scale_of d))) ++
         fst (unit_of (scale_of d)) :: snd (unit_of (scale_of d))).
Proof.
  destruct d as [s n]. unfold debug_duration, scale_of. cbn [fst snd].
  destruct (0 <? s); [rewrite decimal_mantissa; reflexivity|].
  destruct (1000000 <=? n); [rewrite decimal_mantissa; reflexivity|].
  destruct (1000 <=? n); rewrite decimal_mantissa; reflexivity.
Qed.
Lemma part_range d : duration_range d ->
  part (scale_of d) d < 10 ^ N.of_nat (S (places (scale_of d))).
Proof.
  unfold duration_range. destruct d as [s n]. cbn [snd]. intros L.
  destruct (scale_of (s, n)); cbn [part places snd].
  - exact L.
  - apply N.mod_lt. discriminate.
  - apply N.mod_lt. discriminate.
  - reflexivity.
Qed.
Lemma pointc_wordc b : pointc b = true -> wordc b = true.
Proof.
  unfold pointc. intros H. apply orb_true_iff in H as [H|H]; [now apply digitc_wordc|].
  apply Byte.byte_dec_bl in H. now subst.
Qed.

(** The unit of microseconds is not ASCII. *)
Lemma duration_reads : wide = true -> readable_on duration_range debug_duration.
Proof.
  intros Wide. split.
  - intros d R. rewrite duration_text. cbn [DebugProofs.wf]. apply word_app.
    + split; [apply mantissa_nonempty|]. pose proof (mantissa_class (whole (scale_of d) d) _ _ (part_range d R)) as C.
      rewrite forallb_forall in *. intros b I. now apply pointc_wordc, C.
    + destruct (scale_of d); try reflexivity. cbn. unfold wordc. cbn. now rewrite Wide.
  - intros a b Ra Rb H. rewrite !duration_text in H. cbn [flat] in H. apply atom_inj in H.
    pose proof (part_range a Ra) as Pa. pose proof (part_range b Rb) as Pb.
    apply (split_class pointc) in H as (H & U & _);
      [| now apply mantissa_class | now apply mantissa_class
       | destruct (scale_of a); reflexivity | destruct (scale_of b); reflexivity].
    assert (S : scale_of a = scale_of b)
      by (destruct (scale_of a), (scale_of b); try reflexivity; discriminate U).
    rewrite <- S in *. apply mantissa_inj in H as [Hw Hp]; try assumption;
      [|destruct (scale_of a); cbn; lia].
    clear U Pa Pb. unfold duration_range in *. destruct a as [s1 n1], b as [s2 n2]. unfold scale_of in *. cbn [fst snd] in *.
    destruct (N.ltb_spec 0 s1), (N.ltb_spec 0 s2); cbn [whole part fst snd] in *;
      try (destruct (1000000 <=? n1), (1000 <=? n1); discriminate S);
      try (destruct (1000000 <=? n2), (1000 <=? n2); discriminate S).
    + congruence.
    + assert (s1 = s2) as -> by lia. f_equal.
      destruct (1000000 <=? n1); [|destruct (1000 <=? n1)]; cbn [whole part fst snd] in *.
      * rewrite (N.div_mod n1 1000000), (N.div_mod n2 1000000) by discriminate. congruence.
      * rewrite (N.div_mod n1 1000), (N.div_mod n2 1000) by discriminate. congruence.
      * exact Hw.
Qed.
Lemma new_duration_range s n : duration_range (new_duration s n).
Proof. unfold duration_range, new_duration, MAX_NANOS. cbn [snd]. lia. Qed.

(** ** Parts of replies *)

Lemma wf_inline d : wf d -> wf (DInline d).
Proof. exact (fun H => H). Qed.
Lemma flat_inline d : flat (DInline d) = flat d.
Proof. reflexivity. Qed.

Lemma file_type_ok : faithful any debug_file_type.
Proof.
  split; [intros []; now apply word_dec|].
  intros [] [] _ _ H; try reflexivity; discriminate H.
Qed.
Lemma device_number_wf a b : wf (debug_device_number a b).
Proof. apply wf_struct; [now apply word_dec|discriminate|]. fields; apply int_ok. Qed.
Lemma device_number_inj a b c d :
  flat (debug_device_number a b) = flat (debug_device_number c d) -> a = c /\ b = d.
Proof.
  intros H. apply struct_inj in H as [_ H]. cbn [map snd] in H.
  apply cons_inj in H as [H1 H]. apply cons_inj in H as [H2 _].
  apply int_ok in H1; try exact I. apply int_ok in H2; try exact I. now split.
Qed.
Lemma ioctl_slice_ok : faithful any debug_ioctl_slice.
Proof.
  split.
  - intros v. apply wf_struct; [now apply word_dec|discriminate|].
    fields; [apply hex_u64_ok|apply int_ok].
  - intros [a b] [c d] _ _ H. apply struct_inj in H as [_ H]. cbn [map snd is_base is_len] in H.
    apply cons_inj in H as [H1 H]. apply cons_inj in H as [H2 _].
    apply hex_u64_ok in H1; try exact I. apply int_ok in H2; try exact I. congruence.
Qed.
Lemma ioctl_retry_wf a b : wf (debug_ioctl_retry a b).
Proof.
  apply wf_struct; [now apply word_dec|discriminate|]. fields; apply (list_ok _ ioctl_slice_ok).
Qed.
Lemma ioctl_retry_inj a b c d :
  flat (debug_ioctl_retry a b) = flat (debug_ioctl_retry c d) -> a = c /\ b = d.
Proof.
  intros H. apply struct_inj in H as [_ H]. cbn [map snd] in H.
  apply cons_inj in H as [H1 H]. apply cons_inj in H as [H2 _].
  apply (list_ok _ ioctl_slice_ok) in H1; try exact I.
  apply (list_ok _ ioctl_slice_ok) in H2; try exact I. now split.
Qed.
Lemma notify_code_ok : faithful any debug_notify_code.
Proof.
  split.
  - intros n. unfold debug_notify_code.
    repeat match goal with |- context [if ?c then _ else _] => destruct c; [now apply word_dec|] end.
    apply wf_inline, wf_tuple1; [now apply word_dec|apply int_ok].
  - intros a b _ _ H. unfold debug_notify_code in H.
    repeat match type of H with
           | flat (if ?x =? ?k then _ else _) = _ => destruct (N.eqb_spec x k)
           end;
    repeat match type of H with
           | _ = flat (if ?x =? ?k then _ else _) => destruct (N.eqb_spec x k); [try discriminate H; congruence|]
           end; try discriminate H.
    rewrite !flat_inline in H. apply tuple1_inj in H. apply int_ok; try exact I. exact H.
Qed.

End Show.

(** One value of a printed struct is well-formed; two that print alike are equal. *)
Ltac show_wf :=
  lazymatch goal with
  | |- wf (debug_int _) => apply int_ok
  | |- wf (debug_sint _) => apply sint_ok
  | |- wf (hex_u32 _) => apply hex_u32_ok
  | |- wf (hex_u64 _) => apply hex_u64_ok
  | |- wf (debug_octal _) => apply octal_ok
  | |- wf (debug_bool _) => apply bool_ok
  | |- wf (debug_bytes _) => apply bytes_ok
  | |- wf (debug_version _) => apply version_ok
  | |- wf (debug_device_number _ _) => apply device_number_wf
  | |- wf (debug_ioctl_retry _ _) => apply ioctl_retry_wf
  | |- wf (DInline (debug_time _)) => apply wf_inline, time_ok
  | |- wf (debug_option debug_int _) => apply (option_any _ int_ok)
  | |- wf (debug_option debug_sint _) => apply (option_any _ sint_ok)
  | |- wf (debug_option debug_octal _) => apply (option_any _ octal_ok)
  | |- wf (debug_option debug_bytes _) => apply (option_any _ bytes_ok)
  | |- wf (debug_option debug_file_type _) => apply (option_any _ file_type_ok)
  | |- wf (debug_list (map debug_u8 _)) => apply (list_ok _ u8_ok)
  | |- wf (debug_flags ?t _) => apply (flags_ok t ltac:(flag_type))
  end.
Ltac show_inj H :=
  lazymatch type of H with
  | flat (debug_int _) = _ => apply (proj2 int_ok) in H; try exact I
  | flat (debug_sint _) = _ => apply (proj2 sint_ok) in H; try exact I
  | flat (hex_u32 _) = _ => apply (proj2 hex_u32_ok) in H; try exact I
  | flat (hex_u64 _) = _ => apply (proj2 hex_u64_ok) in H; try exact I
  | flat (debug_octal _) = _ => apply (proj2 octal_ok) in H; try exact I
  | flat (debug_bool _) = _ => apply (proj2 bool_ok) in H; try exact I
  | flat (debug_bytes _) = _ => apply (proj2 bytes_ok) in H; try exact I
  | flat (debug_version _) = _ => apply (proj2 version_ok) in H; try exact I
  | flat (debug_device_number _ _) = _ => apply device_number_inj in H
  | flat (debug_ioctl_retry _ _) = _ => apply ioctl_retry_inj in H
  | flat (DInline (debug_time _)) = _ =>
    rewrite !flat_inline in H; apply (proj2 time_ok) in H; try exact I
  | flat (debug_option debug_int _) = _ => apply (proj2 (option_any _ int_ok)) in H; try exact I
  | flat (debug_option debug_sint _) = _ => apply (proj2 (option_any _ sint_ok)) in H; try exact I
  | flat (debug_option debug_octal _) = _ => apply (proj2 (option_any _ octal_ok)) in H; try exact I
  | flat (debug_option debug_bytes _) = _ => apply (proj2 (option_any _ bytes_ok)) in H; try exact I
  | flat (debug_option debug_file_type _) = _ =>
    apply (proj2 (option_any _ file_type_ok)) in H; try exact I
  | flat (debug_list (map debug_u8 _)) = _ => apply (proj2 (list_ok _ u8_ok)) in H; try exact I
  | flat (debug_flags ?t _) = _ => flags_inj H t
  | _ => idtac
  end.
Ltac shows H :=
  repeat (let G := fresh "G" in apply cons_inj in H as [G H]; show_inj G); clear H.
Ltac struct_wf := apply wf_struct; [now apply word_dec|discriminate|]; fields; try show_wf.
Ltac struct_reads H := apply struct_inj in H as [_ H]; cbn [map snd] in H; shows H.

Section Replies.
Context {Ch : Charset}.

Lemma bind_ret {A B} (m : out A) (k : A -> out B) b : bind m k = Ret b -> exists a, m = Ret a /\ k a = Ret b.
Proof. destruct m; cbn [bind]; try discriminate. eauto. Qed.

Lemma ret_inj {A} (a b : A) : Ret a = Ret b -> a = b.
Proof. now intros [= ->]. Qed.

Lemma attr_wf r d : debug_node_attr r = Ret d -> wf d.
Proof.
  unfold debug_node_attr. intros H. apply bind_ret in H as (id & _ & H). apply ret_inj in H as <-. struct_wf.
Qed.
Definition attr_shown (r : fuse_attr) :=
  (NodeAttr_node_id r, NodeAttr_mode r, NodeAttr_size r,
   (NodeAttr_atime r, NodeAttr_mtime r, NodeAttr_ctime r),
   (NodeAttr_link_count r, NodeAttr_user_id r, NodeAttr_group_id r),
   (NodeAttr_device_number r, NodeAttr_block_count r, NodeAttr_block_size r, NodeAttr_flags r)).
Lemma attr_readback r1 r2 d1 d2 :
  debug_node_attr r1 = Ret d1 -> debug_node_attr r2 = Ret d2 ->
  NodeAttr_flags r1 < U32 -> NodeAttr_flags r2 < U32 -> flat d1 = flat d2 ->
  attr_shown r1 = attr_shown r2.
Proof.
  unfold debug_node_attr, attr_shown. intros H1 H2 F1 F2 H.
  apply bind_ret in H1 as (i1 & E1 & H1). apply ret_inj in H1 as <-.
  apply bind_ret in H2 as (i2 & E2 & H2). apply ret_inj in H2 as <-.
  struct_reads H. congruence.
Qed.

Lemma entry_wf r d : wide = true -> debug_entry r = Ret d -> wf d.
Proof.
  intros Wd. unfold debug_entry. intros H. apply bind_ret in H as (a & A & H). apply ret_inj in H as <-. struct_wf.
  - exact (attr_wf _ _ A).
  - apply (proj1 (duration_reads Wd)), new_duration_range.
  - apply (proj1 (duration_reads Wd)), new_duration_range.
Qed.
Definition entry_shown (r : fuse_entry_out) :=
  (Entry_generation r, attr_shown (Entry_attributes r), Entry_cache_timeout r, Entry_attribute_cache_timeout r).
Lemma entry_readback r1 r2 d1 d2 :
  wide = true ->
  debug_entry r1 = Ret d1 -> debug_entry r2 = Ret d2 ->
  NodeAttr_flags (Entry_attributes r1) < U32 -> NodeAttr_flags (Entry_attributes r2) < U32 ->
  flat d1 = flat d2 -> entry_shown r1 = entry_shown r2.
Proof.
  intros Wd. unfold debug_entry, entry_shown. intros H1 H2 F1 F2 H.
  apply bind_ret in H1 as (a1 & E1 & H1). apply ret_inj in H1 as <-.
  apply bind_ret in H2 as (a2 & E2 & H2). apply ret_inj in H2 as <-.
  struct_reads H. apply (attr_readback _ _ _ _ E1 E2 F1 F2) in G0.
  apply (proj2 (duration_reads Wd)) in G1; try apply new_duration_range.
  apply (proj2 (duration_reads Wd)) in G2; try apply new_duration_range. congruence.
Qed.

Lemma statfs_wf r : wf (debug_statfs r).
Proof. struct_wf. Qed.
Lemma statfs_inj r1 r2 : flat (debug_statfs r1) = flat (debug_statfs r2) -> r1 = r2.
Proof.
  destruct r1, r2. intros H. struct_reads H. cbn in *. congruence.
Qed.
Lemma fuse_init_wf r : wf (debug_fuse_init r).
Proof. struct_wf. Qed.
Lemma cuse_init_wf r : wf (debug_cuse_init r).
Proof.
  unfold debug_cuse_init. destruct (cir_device_name r); cbn [app]; struct_wf.
Qed.
Lemma cuse_init_inj r1 r2 :
  CuseInit_flags (cir_raw r1) < U32 -> CuseInit_flags (cir_raw r2) < U32 ->
  flat (debug_cuse_init r1) = flat (debug_cuse_init r2) -> r1 = r2.
Proof.
  destruct r1 as [[] o1], r2 as [[] o2]. intros F1 F2 H. unfold debug_cuse_init in H. cbn [cir_device_name cir_raw] in *.
  destruct o1, o2; cbn [app] in H.
  - struct_reads H. cbn in *. destruct G4. injection G0 as G0 G6. congruence.
  - exfalso. rewrite !flat_struct in H. apply node_inj in H as [_ H]. cbn [map fst snd] in H.
    apply cons_inj in H as [H _]. discriminate H.
  - exfalso. rewrite !flat_struct in H. apply node_inj in H as [_ H]. cbn [map fst snd] in H.
    apply cons_inj in H as [H _]. discriminate H.
  - struct_reads H. cbn in *. destruct G3. injection G as G G6. congruence.
Qed.
Lemma create_wf r d : wide = true -> debug_create r = Ret d -> wf d.
Proof.
  intros Wd. unfold debug_create. intros H. apply bind_ret in H as (a & A & H). apply ret_inj in H as <-. struct_wf.
  exact (entry_wf _ _ Wd A).
Qed.
Lemma ioctl_wf r : wf (debug_ioctl r).
Proof.
  unfold debug_ioctl. destruct (ires_output r); [|destruct (ires_set_result r)]; cbn [app]; struct_wf.
Qed.
Lemma header_wf h d : debug_response_header h = Ret d -> wf d.
Proof. unfold debug_response_header. intros H. apply bind_ret in H as (a & A & H). apply ret_inj in H as <-. struct_wf. Qed.
Lemma notification_wf n d : debug_notification n = Ret d -> wf d.
Proof.
  destruct n; cbn [debug_notification]; intros H;
    repeat (apply bind_ret in H as (? & _ & H)); apply ret_inj in H as <-; struct_wf.
Qed.
Lemma readdir_entry_wf e d : debug_readdir_entry e = Ret d -> wf d.
Proof.
  unfold debug_readdir_entry. intros H. repeat (apply bind_ret in H as (? & _ & H)).
  apply ret_inj in H as <-. struct_wf.
Qed.
Lemma readdirplus_entry_wf e d : wide = true -> debug_readdirplus_entry e = Ret d -> wf d.
Proof.
  intros Wd. unfold debug_readdirplus_entry. intros H. apply bind_ret in H as (? & _ & H).
  apply bind_ret in H as (? & A & H). apply ret_inj in H as <-. struct_wf. exact (entry_wf _ _ Wd A).
Qed.
Lemma mount_options_ok : faithful any debug_mount_options.
Proof.
  split; [intros; struct_wf|]. intros [] [] _ _ H. struct_reads H. cbn in *. congruence.
Qed.
Lemma freebsd_options_ok : faithful any debug_freebsd_options.
Proof.
  split; [intros; struct_wf|]. intros [] [] _ _ H. struct_reads H. cbn in *. congruence.
Qed.

End Replies.
