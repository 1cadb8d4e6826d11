(** Lemmas about the text of [Debug], continued: the values can be read back
    from what is printed of them. *)

From Coq Require Import String.
From Verif Require Import Base Kernel CoreModel DecodeModel DecodeProofs OpsModel OpsSafety.
From Verif Require Import FlagsModel HostModel DebugModel DebugProofs PropFlags.
From Coq Require Import List NArith ZArith Bool Lia ZifyBool ZifyNat ZifyN.
Import ListNotations.
Open Scope string_scope.
Open Scope list_scope.
Open Scope N_scope.

Local Notation wf := DebugProofs.wf.

(** ** Numbers *)

Definition digit_value (b : byte) : N :=
  let n := Byte.to_N b in if n <? 58 then n - 48 else n - 55.
Definition read_number (base : N) (acc : N) (s : bytes) : N :=
  fold_left (fun a b => a * base + digit_value b) s acc.

Definition digitc (b : byte) : bool :=
  let n := Byte.to_N b in ((48 <=? n) && (n <=? 57)) || ((65 <=? n) && (n <=? 70)).

Lemma digit_cases (P : N -> Prop) d :
  d < 16 -> P 0 -> P 1 -> P 2 -> P 3 -> P 4 -> P 5 -> P 6 -> P 7 -> P 8 -> P 9 -> P 10 -> P 11 ->
  P 12 -> P 13 -> P 14 -> P 15 -> P d.
Proof.
  intros L. intros.
  assert (C : d = 0 \/ d = 1 \/ d = 2 \/ d = 3 \/ d = 4 \/ d = 5 \/ d = 6 \/ d = 7 \/ d = 8 \/
              d = 9 \/ d = 10 \/ d = 11 \/ d = 12 \/ d = 13 \/ d = 14 \/ d = 15) by lia.
  repeat (destruct C as [->|C]; [assumption|]). now subst.
Qed.
Lemma digit_value_byte d : d < 16 -> digit_value (digit_byte d) = d.
Proof. intros. apply (digit_cases (fun d => digit_value (digit_byte d) = d)); auto; reflexivity. Qed.
Lemma digit_byte_digitc d : d < 16 -> digitc (digit_byte d) = true.
Proof. intros. apply (digit_cases (fun d => digitc (digit_byte d) = true)); auto; reflexivity. Qed.

Lemma size_nat_bound n : n < 2 ^ N.of_nat (N.size_nat n).
Proof.
  destruct n as [|p]; [reflexivity|]. cbn [N.size_nat].
  induction p as [p IH|p IH|]; cbn [Pos.size_nat]; rewrite ?Nat2N.inj_succ, ?N.pow_succ_r'; try lia.
Qed.

Lemma read_num_digits fuel base n acc :
  2 <= base -> base <= 16 -> n < 2 ^ N.of_nat fuel ->
  read_number base 0 (num_digits (S fuel) base n acc) = read_number base n acc.
Proof.
  intros B1 B2. revert n acc; induction fuel as [|f IH]; intros n acc L;
    remember (S _) as g eqn:Eg in |- *; cbn [num_digits]; rewrite Eg; cbn [num_digits].
  all: assert (M : n mod base < 16) by (pose proof (N.mod_lt n base); lia).
  all: pose proof (N.div_mod n base ltac:(lia)) as D.
  - change (2 ^ N.of_nat 0) with 1 in L. assert (n = 0) by lia. subst n.
    rewrite N.div_0_l, N.mod_0_l by lia. reflexivity.
  - destruct (N.eqb_spec (n / base) 0) as [Z|Z].
    + unfold read_number. cbn [fold_left]. rewrite digit_value_byte by exact M.
      rewrite Z in D. f_equal. lia.
    + fold num_digits.
      assert (X : read_number base 0 (num_digits (S f) base (n / base) (digit_byte (n mod base) :: acc))
                  = read_number base (n / base) (digit_byte (n mod base) :: acc)).
      { apply IH. apply N.div_lt_upper_bound; [lia|].
        rewrite Nat2N.inj_succ, N.pow_succ_r' in L. nia. }
      transitivity (read_number base (n / base) (digit_byte (n mod base) :: acc)); [exact X|].
      unfold read_number. cbn [fold_left]. rewrite digit_value_byte by exact M. f_equal. lia.
Qed.

Lemma read_num_text base n : 2 <= base -> base <= 16 -> read_number base 0 (num_text base n) = n.
Proof. intros. unfold num_text. rewrite read_num_digits; auto. apply size_nat_bound. Qed.

Lemma num_digits_digits fuel base n acc :
  2 <= base -> base <= 16 -> forallb digitc acc = true ->
  forallb digitc (num_digits fuel base n acc) = true.
Proof.
  intros B1 B2. revert n acc; induction fuel as [|f IH]; intros n acc H; cbn [num_digits]; [exact H|].
  assert (D : forallb digitc (digit_byte (n mod base) :: acc) = true).
  { cbn [forallb]. rewrite H, digit_byte_digitc; [reflexivity|].
    pose proof (N.mod_lt n base ltac:(lia)). lia. }
  destruct (n / base =? 0); [exact D|]. now apply IH.
Qed.
Lemma num_digits_nonempty fuel base n acc : acc <> [] -> num_digits fuel base n acc <> [].
Proof.
  revert n acc; induction fuel as [|f IH]; intros n acc H; cbn [num_digits]; [exact H|].
  destruct (n / base =? 0); [discriminate|]. apply IH. discriminate.
Qed.
Lemma num_text_digits base n : 2 <= base -> base <= 16 -> forallb digitc (num_text base n) = true.
Proof. intros. now apply num_digits_digits. Qed.
Lemma num_text_nonempty base n : num_text base n <> [].
Proof.
  unfold num_text. cbn [num_digits]. destruct (n / base =? 0); [discriminate|].
  apply num_digits_nonempty. discriminate.
Qed.

Section Values.
Context {Ch : Charset}.

Lemma digitc_wordc b : digitc b = true -> wordc b = true.
Proof. unfold digitc, wordc. destruct (N.leb_spec 128 (Byte.to_N b)); lia. Qed.
Lemma digits_word s : s <> [] -> forallb digitc s = true -> word s.
Proof.
  intros N H. split; [exact N|]. rewrite forallb_forall in *. intros b I. apply digitc_wordc. auto.
Qed.
Lemma num_word base n : 2 <= base -> base <= 16 -> word (num_text base n).
Proof. intros. apply digits_word; [apply num_text_nonempty|now apply num_text_digits]. Qed.

Lemma num_text_inj base a b :
  2 <= base -> base <= 16 -> num_text base a = num_text base b -> a = b.
Proof. intros B1 B2 H. rewrite <- (read_num_text base a), <- (read_num_text base b), H by assumption. reflexivity. Qed.

Lemma read_zeros base k s : read_number base 0 (repeat x30 k ++ s) = read_number base 0 s.
Proof.
  induction k as [|k IH]; [reflexivity|]. exact IH.
Qed.
Lemma padded_inj width base a b :
  2 <= base -> base <= 16 ->
  zero_pad width (num_text base a) = zero_pad width (num_text base b) -> a = b.
Proof.
  intros B1 B2 H. apply (f_equal (read_number base 0)) in H. unfold zero_pad in H.
  rewrite !read_zeros, !read_num_text in H by assumption. exact H.
Qed.
Lemma padded_digits width base n :
  2 <= base -> base <= 16 -> forallb digitc (zero_pad width (num_text base n)) = true.
Proof.
  intros. unfold zero_pad. rewrite forallb_app, num_text_digits by assumption.
  rewrite andb_true_r. apply forallb_forall. intros c I. apply repeat_spec in I. now subst.
Qed.

Lemma word_app s t : word s -> forallb wordc t = true -> word (s ++ t).
Proof. intros [N W] T. split; [destruct s; [congruence|discriminate]|]. now rewrite forallb_app, W, T. Qed.
Lemma digits_wordc s : forallb digitc s = true -> forallb wordc s = true.
Proof. rewrite !forallb_forall. intros H b I. apply digitc_wordc. auto. Qed.
Lemma word_dec s : match s with [] => false | _ => forallb wordc s end = true -> word s.
Proof. destruct s; [easy|]. intros H. split; [discriminate|exact H]. Qed.

(** ** Values *)

Definition faithful {A} (P : A -> Prop) (f : A -> dbg) : Prop :=
  (forall a, wf (f a)) /\
  (forall a b, P a -> P b -> flat (f a) = flat (f b) -> a = b).
Definition any {A} (_ : A) : Prop := True.

Lemma atom_inj s t : DAtom s = DAtom t -> s = t.
Proof. now intros [= ->]. Qed.

Lemma int_ok : faithful any debug_int.
Proof.
  split; [intros a; apply num_word; lia|].
  intros a b _ _ H. apply atom_inj in H. apply (num_text_inj 10) in H; lia.
Qed.
Lemma hex_u32_ok : faithful any hex_u32.
Proof.
  split.
  - intros a. apply word_app; [now apply word_dec|]. apply digits_wordc, padded_digits; lia.
  - intros a b _ _ H. apply atom_inj, app_inv_head, padded_inj in H; lia.
Qed.
Lemma hex_u64_ok : faithful any hex_u64.
Proof.
  split.
  - intros a. apply word_app; [now apply word_dec|]. apply digits_wordc, padded_digits; lia.
  - intros a b _ _ H. apply atom_inj, app_inv_head, padded_inj in H; lia.
Qed.
Lemma octal_ok : faithful any debug_octal.
Proof.
  split.
  - intros a. apply word_app; [now apply word_dec|]. apply digits_wordc, num_text_digits; lia.
  - intros a b _ _ H. apply atom_inj, app_inv_head, num_text_inj in H; lia.
Qed.
Lemma u8_ok : faithful any debug_u8.
Proof.
  split; [intros a; apply int_ok|]. intros a b _ _ H. apply int_ok in H; try exact I.
  apply (f_equal Byte.of_N) in H. rewrite !Byte.of_to_N in H. congruence.
Qed.
Lemma bool_ok : faithful any debug_bool.
Proof.
  split; [intros []; now apply word_dec|]. intros [] [] _ _ H; try reflexivity; discriminate H.
Qed.
Lemma bytes_ok : faithful any debug_bytes.
Proof. split; [intros; exact I|]. intros a b _ _ H. cbn in H. congruence. Qed.

Lemma cons_inj {A} (x y : A) l m : x :: l = y :: m -> x = y /\ l = m.
Proof. now intros [= -> ->]. Qed.
Lemma node_inj k n1 n2 c1 c2 : DNode k n1 c1 = DNode k n2 c2 -> n1 = n2 /\ c1 = c2.
Proof. now intros [= -> ->]. Qed.

Lemma flat_struct name fields :
  flat (debug_struct name fields) =
  DNode KStruct (txt name) (map (fun f => (txt (fst f), flat (snd f))) fields).
Proof. unfold debug_struct. cbn [flat]. rewrite map_map. reflexivity. Qed.
Lemma flat_tuple name items :
  flat (debug_tuple name items) = DNode KTuple (txt name) (map (fun d => ([], flat d)) items).
Proof. unfold debug_tuple. cbn [flat]. rewrite map_map. reflexivity. Qed.
Lemma flat_list items :
  flat (debug_list items) = DNode KList [] (map (fun d => ([], flat d)) items).
Proof. unfold debug_list. cbn [flat]. rewrite map_map. reflexivity. Qed.

Lemma values_inj (l m : list (string * dbg)) :
  map (fun f => (txt (fst f), flat (snd f))) l = map (fun f => (txt (fst f), flat (snd f))) m ->
  map (fun f => flat (snd f)) l = map (fun f => flat (snd f)) m.
Proof.
  intros H. apply (f_equal (map snd)) in H. rewrite !map_map in H. exact H.
Qed.
Lemma struct_inj n1 n2 f1 f2 :
  flat (debug_struct n1 f1) = flat (debug_struct n2 f2) ->
  txt n1 = txt n2 /\ map (fun f => flat (snd f)) f1 = map (fun f => flat (snd f)) f2.
Proof.
  rewrite !flat_struct. intros H. apply node_inj in H as [N H]. split; [exact N|].
  now apply values_inj.
Qed.

Lemma wf_struct name fields :
  word (txt name) -> fields <> [] -> Forall (fun f => word (txt (fst f)) /\ wf (snd f)) fields ->
  wf (debug_struct name fields).
Proof.
  intros N F H. apply wf_node. split; [exact N|]. split; [now destruct fields|].
  apply Forall_map. eapply Forall_impl; [|exact H]. intros f [A B]. split; [exact A|]. now split.
Qed.
Lemma wf_tuple1 name d : word (txt name) -> wf d -> wf (debug_tuple name [d]).
Proof.
  intros N H. apply wf_node. split; [exact N|]. split; [discriminate|].
  constructor; [|constructor]. split; [reflexivity|]. now split.
Qed.
Lemma wf_list items : Forall wf items -> wf (debug_list items).
Proof.
  intros H. apply wf_node. split; [reflexivity|]. split; [exact I|].
  apply Forall_map. eapply Forall_impl; [|exact H]. intros d W. split; [reflexivity|]. now split.
Qed.

Lemma option_ok {A} (P : A -> Prop) f :
  faithful P f -> faithful (fun o => match o with Some x => P x | None => True end) (debug_option f).
Proof.
  intros [W Inj]. split.
  - intros [a|]; [|now apply word_dec]. apply wf_tuple1; [now apply word_dec|apply W].
  - intros [a|] [b|] Pa Pb H; unfold debug_option in H; cbn [flat] in H.
    + change (flat (debug_tuple "Some" [f a]) = flat (debug_tuple "Some" [f b])) in H.
      rewrite !flat_tuple in H. apply node_inj in H as [_ H]. cbn [map] in H.
      apply cons_inj in H as [H _]. f_equal. apply Inj; auto. congruence.
    + discriminate H.
    + discriminate H.
    + reflexivity.
Qed.
Lemma option_any {A} (f : A -> dbg) : faithful any f -> faithful any (debug_option f).
Proof.
  intros F. destruct (option_ok any f F) as [W Inj]. split; [exact W|].
  intros a b _ _. apply Inj; [destruct a|destruct b]; exact I.
Qed.
Lemma list_ok {A} (f : A -> dbg) : faithful any f -> faithful any (fun l => debug_list (map f l)).
Proof.
  intros [W Inj]. split.
  - intros l. apply wf_list, Forall_map, Forall_forall. intros x _. apply W.
  - intros l1 l2 _ _ H. rewrite !flat_list, !map_map in H. apply node_inj in H as [_ H].
    revert l2 H; induction l1 as [|x l1 IH]; intros [|y l2] H; cbn [map] in H;
      try discriminate H; [reflexivity|].
    apply cons_inj in H as [H1 H2]. f_equal; [apply Inj; try exact I; congruence|]. now apply IH.
Qed.

(** Split a text at the first character that is not a digit. *)
Lemma split_digits s1 s2 c r1 r2 :
  forallb digitc s1 = true -> forallb digitc s2 = true -> digitc c = false ->
  s1 ++ c :: r1 = s2 ++ c :: r2 -> s1 = s2 /\ r1 = r2.
Proof.
  intros D1 D2 C. revert s2 D2; induction s1 as [|b s1 IH]; intros [|b' s2] D2 H; cbn [app forallb] in *.
  - split; congruence.
  - apply cons_inj in H as [<- _]. rewrite C in D2. discriminate D2.
  - apply cons_inj in H as [-> _]. rewrite C in D1. discriminate D1.
  - apply cons_inj in H as [<- H]. apply andb_true_iff in D1, D2.
    destruct (IH (proj2 D1) s2 (proj2 D2) H) as [-> ->]. now split.
Qed.

Lemma time_ok : faithful any debug_time.
Proof.
  split.
  - intros t. apply wf_tuple1; [now apply word_dec|].
    split.
    + destruct (ut_seconds t <? 0)%Z; [discriminate|]. cbn [app].
      destruct (num_text 10 (Z.abs_N (ut_seconds t))) eqn:E; [now apply num_text_nonempty in E|discriminate].
    + rewrite !forallb_app.
      rewrite (digits_wordc (num_text 10 _)) by (apply num_text_digits; lia).
      rewrite (digits_wordc (zero_pad _ _)) by (apply padded_digits; lia).
      destruct (ut_seconds t <? 0)%Z; reflexivity.
  - intros [s1 n1] [s2 n2] _ _ H. unfold debug_time in H. rewrite !flat_tuple in H.
    apply node_inj in H as [_ H]. cbn [map] in H. apply cons_inj in H as [H _].
    assert (K : forall x y : dbg, ([] : bytes, x) = ([], y) -> x = y) by (intros; congruence).
    apply K in H. cbn [flat] in H. apply atom_inj in H. cbn [ut_seconds ut_nanos] in H.
    assert (G : forall x y, num_text 10 x ++ txt "." ++ zero_pad 9 (num_text 10 n1) =
                            num_text 10 y ++ txt "." ++ zero_pad 9 (num_text 10 n2) -> x = y /\ n1 = n2).
    { intros x y E. apply (split_digits _ _ x2e) in E as [E1 E2];
        [|apply num_text_digits; lia|apply num_text_digits; lia|reflexivity].
      split; [apply (num_text_inj 10) in E1; lia|apply (padded_inj 9 10) in E2; lia]. }
    assert (M : forall x r, txt "-" ++ r = [] ++ num_text 10 x ++ txt "." ++ zero_pad 9 (num_text 10 n1) -> False).
    { intros x r E. pose proof (num_text_digits 10 x ltac:(lia) ltac:(lia)) as D.
      destruct (num_text 10 x) as [|b t] eqn:Et; [now apply num_text_nonempty in Et|].
      cbn [app] in E. apply cons_inj in E as [<- _]. discriminate D. }
    assert (M' : forall x r, txt "-" ++ r = [] ++ num_text 10 x ++ txt "." ++ zero_pad 9 (num_text 10 n2) -> False).
    { intros x r E. pose proof (num_text_digits 10 x ltac:(lia) ltac:(lia)) as D.
      destruct (num_text 10 x) as [|b t] eqn:Et; [now apply num_text_nonempty in Et|].
      cbn [app] in E. apply cons_inj in E as [<- _]. discriminate D. }
    destruct (Z.ltb_spec s1 0), (Z.ltb_spec s2 0).
    + apply app_inv_head, G in H as [H ->]. f_equal; try reflexivity. lia.
    + exfalso. eapply M'. exact H.
    + exfalso. eapply M. symmetry. exact H.
    + cbn [app] in H. apply G in H as [H ->]. f_equal. lia.
Qed.

End Values.

Ltac fields :=
  repeat (apply Forall_cons; [split; [now apply word_dec|cbn [snd]]|]); try apply Forall_nil.

Section Structs.
Context {Ch : Charset}.

Lemma version_ok : faithful any debug_version.
Proof.
  split.
  - intros v. apply wf_struct; [now apply word_dec|discriminate|].
    fields; apply int_ok.
  - intros [a b] [c d] _ _ H. apply struct_inj in H as [_ H]. cbn [map snd v_major v_minor] in H.
    apply cons_inj in H as [H1 H]. apply cons_inj in H as [H2 _].
    apply int_ok in H1; try exact I. apply int_ok in H2; try exact I. congruence.
Qed.

(** The targets of the library. *)
Definition lock_targets : list lock_modes := [linux_locks; alpha_locks; sparc_locks; freebsd_locks].

Lemma lock_mode_ok lm : In lm lock_targets -> faithful any (debug_lock_mode lm).
Proof.
  intros T.
  assert (D : F_RDLCK lm <> F_WRLCK lm /\ F_RDLCK lm <> F_UNLCK lm /\ F_WRLCK lm <> F_UNLCK lm).
  { cbn [lock_targets In] in T. repeat (destruct T as [<-|T]; [repeat split; discriminate|]). contradiction. }
  split.
  - intros a. unfold debug_lock_mode.
    destruct (a =? F_RDLCK lm); [now apply word_dec|]. destruct (a =? F_WRLCK lm); [now apply word_dec|].
    destruct (a =? F_UNLCK lm); [now apply word_dec|].
    cbn [DebugProofs.wf]. apply wf_tuple1; [now apply word_dec|apply int_ok].
  - intros a b _ _ H. unfold debug_lock_mode in H.
    destruct (N.eqb_spec a (F_RDLCK lm)); destruct (N.eqb_spec b (F_RDLCK lm)); [congruence| | |].
    all: destruct (N.eqb_spec a (F_WRLCK lm)); destruct (N.eqb_spec b (F_WRLCK lm)); try congruence.
    all: destruct (N.eqb_spec a (F_UNLCK lm)); destruct (N.eqb_spec b (F_UNLCK lm)); try congruence.
    all: try (cbn [flat] in H; apply atom_inj in H; discriminate H).
    all: try discriminate H.
    cbn [flat] in H. change (flat (debug_tuple "LockMode" [debug_int a]) =
                             flat (debug_tuple "LockMode" [debug_int b])) in H.
    rewrite !flat_tuple in H. apply node_inj in H as [_ H]. cbn [map] in H.
    apply cons_inj in H as [H _]. apply int_ok; try exact I. congruence.
Qed.

Lemma lock_range_ok : faithful any debug_lock_range.
Proof.
  pose proof int_ok as O. pose proof (option_any _ int_ok) as OO.
  split.
  - intros v. apply wf_struct; [now apply word_dec|discriminate|].
    fields; [apply O|apply OO].
  - intros [a b] [c d] _ _ H. apply struct_inj in H as [_ H]. cbn [map snd lr_start lr_length] in H.
    apply cons_inj in H as [H1 H]. apply cons_inj in H as [H2 _].
    apply O in H1; try exact I. apply OO in H2; try exact I. congruence.
Qed.
Lemma lock_ok lm : In lm lock_targets -> faithful any (debug_lock lm).
Proof.
  intros T. pose proof (lock_mode_ok lm T) as O. pose proof (option_any _ int_ok) as OO.
  pose proof lock_range_ok as OR.
  split.
  - intros v. apply wf_struct; [now apply word_dec|discriminate|].
    fields; [apply O|apply OR|apply OO].
  - intros [a b e] [c d f] _ _ H. apply struct_inj in H as [_ H]. cbn [map snd lk_mode lk_range lk_pid] in H.
    apply cons_inj in H as [H1 H]. apply cons_inj in H as [H2 H]. apply cons_inj in H as [H3 _].
    apply O in H1; try exact I. apply OR in H2; try exact I. apply OO in H3; try exact I. congruence.
Qed.
Lemma forget_item_ok : faithful any debug_forget_item.
Proof.
  pose proof int_ok as O.
  split.
  - intros v. apply wf_struct; [now apply word_dec|discriminate|].
    fields; apply O.
  - intros [a b] [c d] _ _ H. apply struct_inj in H as [_ H]. cbn [map fst snd] in H.
    apply cons_inj in H as [H1 H]. apply cons_inj in H as [H2 _].
    apply O in H1; try exact I. apply O in H2; try exact I. congruence.
Qed.

Lemma int_not_letter n b s : digitc b = false -> DAtom (b :: s) = debug_int n -> False.
Proof.
  intros D H. unfold debug_int in H. apply atom_inj in H.
  pose proof (num_text_digits 10 n ltac:(lia) ltac:(lia)) as F. rewrite <- H in F.
  cbn [forallb] in F. rewrite D in F. discriminate F.
Qed.
Lemma whence_ok : faithful any debug_whence.
Proof.
  split.
  - intros a. unfold debug_whence. destruct (a =? 3); [now apply word_dec|].
    destruct (a =? 4); [now apply word_dec|]. apply int_ok.
  - intros a b _ _ H. unfold debug_whence in H.
    destruct (N.eqb_spec a 3); destruct (N.eqb_spec b 3); [congruence| | |].
    all: destruct (N.eqb_spec a 4); destruct (N.eqb_spec b 4); try congruence.
    all: try discriminate H.
    all: try (exfalso; eapply (int_not_letter _ x53); [reflexivity|exact H]).
    all: try (exfalso; eapply (int_not_letter _ x53); [reflexivity|symmetry; exact H]).
    apply int_ok; try exact I. exact H.
Qed.

(** *** Flag sets *)

Lemma flag_name_in t mask name : flag_name t mask = Some name -> In (name, mask) (ft_flags t).
Proof.
  unfold flag_name. destruct (find _ _) as [[n m]|] eqn:F; [|easy].
  intros [= <-]. apply find_some in F as [I E]. cbn in E. apply N.eqb_eq in E. now subst.
Qed.

Lemma flag_names_ok t : In t all_flags_types ->
  word (txt (ft_name t)) /\
  forall name mask, In (name, mask) (ft_flags t) ->
    word (txt name) /\ firstn 2 (txt name) <> txt "0x".
Proof.
  intros H.
  assert (G : match txt (ft_name t) with [] => false | _ => forallb wordc (txt (ft_name t)) end &&
    forallb (fun f => match txt (fst f) with [] => false | _ => forallb wordc (txt (fst f)) end &&
      match txt (fst f) with b :: _ => negb (digitc b) || (65 <=? Byte.to_N b) | [] => false end) (ft_flags t) = true).
  { unfold all_flags_types in H. cbn [In] in H.
    repeat (destruct H as [<-|H]; [vm_compute; reflexivity|]). contradiction. }
  apply andb_true_iff in G as [G1 G2]. split; [now apply word_dec|].
  intros name mask I. rewrite forallb_forall in G2. specialize (G2 _ I). cbn [fst] in G2.
  apply andb_true_iff in G2 as [A B]. split; [now apply word_dec|].
  destruct (txt name) as [|b r]; [easy|]. intros E. cbn [firstn] in E.
  apply cons_inj in E as [-> _]. discriminate B.
Qed.

Lemma txt_inj a b : txt a = txt b -> a = b.
Proof.
  unfold txt. intros H. rewrite <- (string_of_list_byte_of_string a), <- (string_of_list_byte_of_string b).
  now rewrite H.
Qed.

Lemma flag_ok t : In t all_flags_types ->
  (forall m, wf (debug_flag t m) /\ is_atom (debug_flag t m)) /\
  (forall a b, flat (debug_flag t a) = flat (debug_flag t b) -> a = b).
Proof.
  intros T. destruct (flag_names_ok t T) as [_ W].
  destruct (C59_named t T) as (_ & _ & _ & _ & Nm).
  assert (Hx : forall m, exists s, (if Nat.eqb (ft_bits t) 32 then hex_u32 m else hex_u64 m) = DAtom (txt "0x" ++ s)).
  { intros m. destruct (Nat.eqb _ _); eexists; reflexivity. }
  split.
  - intros m. unfold debug_flag. destruct (flag_name t m) as [n|] eqn:F.
    + apply flag_name_in, W in F. split; [apply F|exact I].
    + destruct (Nat.eqb _ _); (split; [|exact I]); [apply hex_u32_ok|apply hex_u64_ok].
  - intros a b H. unfold debug_flag in H.
    destruct (flag_name t a) as [na|] eqn:Fa; destruct (flag_name t b) as [nb|] eqn:Fb.
    + cbn [flat] in H. apply atom_inj, txt_inj in H. subst nb.
      unfold flag_name in Fa, Fb.
      apply flag_name_in in Fa, Fb.
      destruct (C59_named t T) as (_ & _ & ND & _).
      clear -Fa Fb ND. induction (ft_flags t) as [|[n m] l IH]; [easy|].
      cbn [map fst] in ND. inversion ND as [|? ? N1 N2]; subst. destruct Fa as [Fa|Fa], Fb as [Fb|Fb].
      * congruence.
      * injection Fa as -> ->. exfalso. apply N1. apply (in_map fst) in Fb. exact Fb.
      * injection Fb as -> ->. exfalso. apply N1. apply (in_map fst) in Fa. exact Fa.
      * now apply IH.
    + exfalso. destruct (Hx b) as [s E]. rewrite E in H. cbn [flat] in H. apply atom_inj in H.
      apply flag_name_in, W in Fa as [_ Fa]. apply Fa. rewrite H. reflexivity.
    + exfalso. destruct (Hx a) as [s E]. rewrite E in H. cbn [flat] in H. apply atom_inj in H.
      apply flag_name_in, W in Fb as [_ Fb]. apply Fb. rewrite <- H. reflexivity.
    + destruct (Nat.eqb _ _); [apply hex_u32_ok|apply hex_u64_ok]; try exact I; exact H.
Qed.

Lemma flags_ok t : In t all_flags_types -> faithful (is_set t) (debug_flags t).
Proof.
  intros T. destruct (flag_ok t T) as [W Inj]. split.
  - intros a. apply wf_node. split; [apply (flag_names_ok t T)|]. split; [exact I|].
    apply Forall_map, Forall_forall. intros m _. destruct (W m) as [W1 W2].
    split; [reflexivity|]. now split.
  - intros a b Sa Sb H. unfold debug_flags in H. cbn [flat] in H. rewrite !map_map in H.
    apply node_inj in H as [_ H]. cbn [fst snd] in H.
    assert (E : flags_masks t a = flags_masks t b).
    { revert H. generalize (flags_masks t a) (flags_masks t b).
      induction l as [|x l IH]; intros [|y m] H; cbn [map] in H; try discriminate H; [reflexivity|].
      apply cons_inj in H as [H1 H2]. f_equal; [apply Inj; congruence|]. now apply IH. }
    destruct (C59_listed t a Sa) as (_ & _ & <-). destruct (C59_listed t b Sb) as (_ & _ & <-).
    now rewrite E.
Qed.

(** *** Opcodes *)
Lemma opcode_ok : faithful any debug_opcode.
Proof.
  assert (W : forall e, In e opcode_names -> word (txt (snd e))).
  { intros e I. apply word_dec.
    assert (G : forallb (fun e => match txt (snd e) with [] => false | _ => forallb wordc (txt (snd e)) end) opcode_names = true)
      by (vm_compute; reflexivity).
    rewrite forallb_forall in G. now apply G. }
  split.
  - intros a. unfold debug_opcode. destruct (find _ _) as [e|] eqn:F.
    + apply W. now apply find_some in F.
    + cbn [DebugProofs.wf]. apply wf_tuple1; [now apply word_dec|apply int_ok].
  - intros a b _ _ H. unfold debug_opcode in H.
    destruct (find _ opcode_names) as [e|] eqn:F1 in H;
      destruct (find (fun e => fst e =? b) opcode_names) as [e'|] eqn:F2 in H.
    + cbn [flat] in H. apply atom_inj, txt_inj in H.
      apply find_some in F1 as [I1 E1], F2 as [I2 E2]. apply N.eqb_eq in E1, E2. subst a b.
      assert (G : forallb (fun x => forallb (fun y => negb (String.eqb (snd x) (snd y)) || (fst x =? fst y)) opcode_names) opcode_names = true)
        by (vm_compute; reflexivity).
      rewrite forallb_forall in G. specialize (G _ I1). rewrite forallb_forall in G. specialize (G _ I2).
      rewrite H, String.eqb_refl in G. cbn in G. now apply N.eqb_eq.
    + discriminate H.
    + discriminate H.
    + cbn [flat] in H. change (flat (debug_tuple "fuse_opcode" [debug_int a]) =
                             flat (debug_tuple "fuse_opcode" [debug_int b])) in H.
      rewrite !flat_tuple in H. apply node_inj in H as [_ H]. cbn [map] in H.
      apply cons_inj in H as [H _]. apply int_ok; try exact I. congruence.
Qed.

(** ** Requests *)

Lemma ranged32 t f : ft_bits t = 32%nat -> f < U32 -> is_set t f.
Proof. intros B H. unfold is_set. rewrite B. exact H. Qed.
Lemma ranged64 t f : ft_bits t = 64%nat -> f < U64 -> is_set t f.
Proof. intros B H. unfold is_set. rewrite B. exact H. Qed.

End Structs.

Ltac flag_type := unfold all_flags_types; repeat (first [left; reflexivity | right]).

Section Views.
Context {Ch : Charset}.

Lemma view_wf lm v : In lm lock_targets -> wf (debug_view lm v).
Proof.
  intros T. pose proof (lock_mode_ok lm T) as OM. pose proof (lock_ok lm T) as OL.
  destruct v; cbn [debug_view]; apply wf_struct; try discriminate; try (now apply word_dec); fields.
  all: lazymatch goal with
  | |- wf (debug_int _) => apply int_ok
  | |- wf (hex_u32 _) => apply hex_u32_ok
  | |- wf (hex_u64 _) => apply hex_u64_ok
  | |- wf (debug_octal _) => apply octal_ok
  | |- wf (debug_bool _) => apply bool_ok
  | |- wf (debug_bytes _) => apply bytes_ok
  | |- wf (debug_version _) => apply version_ok
  | |- wf (debug_lock_mode _ _) => apply OM
  | |- wf (debug_lock _ _) => apply OL
  | |- wf (debug_lock_range _) => apply lock_range_ok
  | |- wf (debug_whence _) => apply whence_ok
  | |- wf (debug_option debug_int _) => apply (option_any _ int_ok)
  | |- wf (debug_option hex_u64 _) => apply (option_any _ hex_u64_ok)
  | |- wf (debug_option debug_octal _) => apply (option_any _ octal_ok)
  | |- wf (debug_option debug_time _) => apply (option_any _ time_ok)
  | |- wf (debug_list (map debug_u8 _)) => apply (list_ok _ u8_ok)
  | |- wf (debug_list _) => apply (list_ok _ forget_item_ok)
  | |- wf (debug_flags ?t _) => apply (flags_ok t ltac:(flag_type))
  end.
Qed.

Lemma tuple1_inj n1 n2 d1 d2 :
  flat (debug_tuple n1 [d1]) = flat (debug_tuple n2 [d2]) -> flat d1 = flat d2.
Proof.
  rewrite !flat_tuple. intros H. apply node_inj in H as [_ H]. cbn [map] in H.
  apply cons_inj in H as [H _]. congruence.
Qed.

End Views.

Ltac flags_inj H t :=
  apply (proj2 (flags_ok t ltac:(flag_type))) in H;
  [|first [apply ranged32; [reflexivity|tauto] | apply ranged64; [reflexivity|tauto]]
   |first [apply ranged32; [reflexivity|tauto] | apply ranged64; [reflexivity|tauto]]].
Ltac value_inj OM OL H :=
  lazymatch type of H with
  | flat (debug_int _) = _ => apply (proj2 int_ok) in H; try exact I
  | flat (hex_u32 _) = _ => apply (proj2 hex_u32_ok) in H; try exact I
  | flat (hex_u64 _) = _ => apply (proj2 hex_u64_ok) in H; try exact I
  | flat (debug_octal _) = _ => apply (proj2 octal_ok) in H; try exact I
  | flat (debug_bool _) = _ => apply (proj2 bool_ok) in H; try exact I
  | flat (debug_bytes _) = _ => apply (proj2 bytes_ok) in H; try exact I
  | flat (debug_version _) = _ => apply (proj2 version_ok) in H; try exact I
  | flat (debug_lock_mode _ _) = _ => apply (proj2 OM) in H; try exact I
  | flat (debug_lock _ _) = _ => apply (proj2 OL) in H; try exact I
  | flat (debug_lock_range _) = _ => apply (proj2 lock_range_ok) in H; try exact I
  | flat (debug_whence _) = _ => apply (proj2 whence_ok) in H; try exact I
  | flat (debug_option debug_int _) = _ => apply (proj2 (option_any _ int_ok)) in H; try exact I
  | flat (debug_option hex_u64 _) = _ => apply (proj2 (option_any _ hex_u64_ok)) in H; try exact I
  | flat (debug_option debug_octal _) = _ => apply (proj2 (option_any _ octal_ok)) in H; try exact I
  | flat (debug_option debug_time _) = _ => apply (proj2 (option_any _ time_ok)) in H; try exact I
  | flat (debug_list (map debug_forget_item _)) = _ => apply (proj2 (list_ok _ forget_item_ok)) in H; try exact I
  | flat (debug_list (map debug_u8 _)) = _ => apply (proj2 (list_ok _ u8_ok)) in H; try exact I
  | flat (debug_flags ?t _) = _ => flags_inj H t
  end.
Ltac values OM OL H :=
  repeat (let G := fresh in apply cons_inj in H as [G H]; value_inj OM OL G); clear H.

Section Requests.
Context {Ch : Charset}.

Definition view_number (v : view) : nat :=
  match v with
  | VAccess _ _ => 0%nat
  | VBmap _ _ _ => 1%nat
  | VCopyFileRange _ _ _ _ _ _ _ _ => 2%nat
  | VCreate _ _ _ _ _ _ => 3%nat
  | VCuseInit _ _ => 4%nat
  | VFallocate _ _ _ _ _ => 5%nat
  | VFlush _ _ _ => 6%nat
  | VForget _ => 7%nat
  | VFsync _ _ _ => 8%nat
  | VFsyncdir _ _ _ => 9%nat
  | VFuseInit _ _ _ => 10%nat
  | VGetattr _ _ => 11%nat
  | VGetlk _ _ _ _ _ => 12%nat
  | VGetxattr _ _ _ => 13%nat
  | VInterrupt _ => 14%nat
  | VIoctl _ _ _ _ _ _ _ _ => 15%nat
  | VLink _ _ _ => 16%nat
  | VListxattr _ _ => 17%nat
  | VLookup _ _ => 18%nat
  | VLseek _ _ _ _ => 19%nat
  | VMkdir _ _ _ _ => 20%nat
  | VMknod _ _ _ _ _ => 21%nat
  | VOpen _ _ _ => 22%nat
  | VOpendir _ _ _ => 23%nat
  | VPoll _ _ _ _ => 24%nat
  | VRead _ _ _ _ _ _ => 25%nat
  | VReaddir _ _ _ _ _ => 26%nat
  | VReaddirplus _ _ _ _ _ => 27%nat
  | VReadlink _ => 28%nat
  | VRelease _ _ _ _ => 29%nat
  | VReleasedir _ _ _ _ => 30%nat
  | VRemovexattr _ _ => 31%nat
  | VRename _ _ _ _ _ => 32%nat
  | VRmdir _ _ => 33%nat
  | VSetattr _ _ _ _ _ _ _ _ _ _ _ _ => 34%nat
  | VSetlk _ _ _ _ _ _ => 35%nat
  | VSetxattr _ _ _ _ _ => 36%nat
  | VStatfs _ => 37%nat
  | VSymlink _ _ _ => 38%nat
  | VUnlink _ _ => 39%nat
  | VWrite _ _ _ _ _ _ _ => 40%nat
  end.
Definition view_titles : list string :=
  ["AccessRequest"; "BmapRequest"; "CopyFileRangeRequest"; "CreateRequest"; "CuseInitRequest"; "FallocateRequest"; "FlushRequest"; "ForgetRequest"; "FsyncRequest"; "FsyncdirRequest"; "FuseInitRequest"; "GetattrRequest"; "GetlkRequest"; "GetxattrRequest"; "InterruptRequest"; "IoctlRequest"; "LinkRequest"; "ListxattrRequest"; "LookupRequest"; "LseekRequest"; "MkdirRequest"; "MknodRequest"; "OpenRequest"; "OpendirRequest"; "PollRequest"; "ReadRequest"; "ReaddirRequest"; "ReaddirplusRequest"; "ReadlinkRequest"; "ReleaseRequest"; "ReleasedirRequest"; "RemovexattrRequest"; "RenameRequest"; "RmdirRequest"; "SetattrRequest"; "SetlkRequest"; "SetxattrRequest"; "StatfsRequest"; "SymlinkRequest"; "UnlinkRequest"; "WriteRequest"].
Lemma view_title lm v : exists fields,
  flat (debug_view lm v) = DNode KStruct (txt (nth (view_number v) view_titles "")) fields.
Proof. destruct v; eexists; cbn [debug_view]; rewrite flat_struct; reflexivity. Qed.
Lemma titles_differ : forall i j,
  (i < 41)%nat -> (j < 41)%nat -> txt (nth i view_titles "") = txt (nth j view_titles "") -> i = j.
Proof.
  assert (ND : forallb (fun i => forallb (fun j =>
    negb (String.eqb (nth i view_titles "") (nth j view_titles "")) || Nat.eqb i j) (seq 0 41)) (seq 0 41) = true)
    by (vm_compute; reflexivity).
  intros i j Hi Hj H. apply txt_inj in H. rewrite forallb_forall in ND.
  specialize (ND i ltac:(apply in_seq; lia)). rewrite forallb_forall in ND.
  specialize (ND j ltac:(apply in_seq; lia)). rewrite H, String.eqb_refl in ND. cbn in ND.
  now apply Nat.eqb_eq.
Qed.
Lemma view_number_lt v : (view_number v < 41)%nat.
Proof. destruct v; cbn [view_number]; lia. Qed.
Lemma same_number lm v1 v2 :
  flat (debug_view lm v1) = flat (debug_view lm v2) -> view_number v1 = view_number v2.
Proof.
  intros H. destruct (view_title lm v1) as [f1 E1], (view_title lm v2) as [f2 E2].
  rewrite E1, E2 in H. apply node_inj in H as [H _].
  apply titles_differ in H; auto using view_number_lt.
Qed.

Lemma view_inj lm v1 v2 :
  In lm lock_targets -> view_ranged v1 -> view_ranged v2 ->
  flat (debug_view lm v1) = flat (debug_view lm v2) -> v1 = v2.
Proof.
  intros T R1 R2 H. pose proof (lock_mode_ok lm T) as OM. pose proof (lock_ok lm T) as OL.
  pose proof (same_number lm v1 v2 H) as S.
  destruct v1; destruct v2; cbn [view_number] in S; try discriminate S; clear S;
    cbn [debug_view] in H; apply struct_inj in H as [_ H]; cbn [map snd] in H;
    cbn [view_ranged] in R1, R2.
  all: values OM OL H.
  all: try (subst; reflexivity).
  destruct R1 as [_ R1], R2 as [_ R2]. subst. reflexivity.
Qed.

End Requests.
