(** Theorems about sockets and mounting: C41-C44 and C53 of
    properties.jsonl. *)

From Coq Require Import String.
From Verif Require Import Base CoreModel ReplyModel ServerModel HostModel HostSpec.
From Coq Require Import List NArith ZArith Bool Lia ZifyBool ZifyNat ZifyN.
Import ListNotations.
Open Scope N_scope.

(** ** C42: receiving *)

Lemma check_recv_transient s e :
  check_recv_err s e = None <-> transient (ReadErr e) = true.
Proof.
  unfold check_recv_err, ENOENT, EINTR, transient.
  destruct (N.eqb_spec e 2) as [->|]; [tauto|]. destruct (N.eqb_spec e 4) as [->|]; [tauto|].
  split.
  - destruct ((e =? ENODEV) && so_enodev_is_eof s); discriminate.
  - destruct e as [|p]; try discriminate. do 3 (try (destruct p as [p|p|]; try discriminate; try lia)).
Qed.

Lemma check_recv_final s e err :
  check_recv_err s e = Some err ->
  received_as (so_enodev_is_eof s) (ReadErr e) = RecvFails err.
Proof.
  unfold check_recv_err, ENOENT, EINTR, ENODEV, received_as.
  destruct (N.eqb_spec e 2); [discriminate|]. destruct (N.eqb_spec e 4); [discriminate|].
  destruct (N.eqb_spec e 19) as [->|]; cbn [andb].
  - now destruct (so_enodev_is_eof s); intros [= <-].
  - intros [= <-]. destruct e as [|p]; auto.
    do 5 (try (destruct p as [p|p|]); auto). all: try (exfalso; lia).
Qed.

Theorem C42_recv s rs :
  (forall ev rest,
     Socket_recv s rs = (Some ev, rest) <->
     exists pre r, rs = pre ++ r :: rest /\ forallb transient pre = true /\
                   transient r = false /\ ev = received_as (so_enodev_is_eof s) r) /\
  (fst (Socket_recv s rs) = None <-> forallb transient rs = true).
Proof.
  induction rs as [|r rs [IH1 IH2]].
  - split; [|cbn; tauto]. intros ev rest. split; [discriminate|].
    intros (pre & r & H & _). now destruct pre.
  - assert (K : transient r = true -> Socket_recv s (r :: rs) = Socket_recv s rs).
    { destruct r as [m|e]; [discriminate|]. intros H. cbn [Socket_recv].
      apply (check_recv_transient s) in H. now rewrite H. }
    assert (L : transient r = false ->
      Socket_recv s (r :: rs) = (Some (received_as (so_enodev_is_eof s) r), rs)).
    { destruct r as [m|e]; intros H; cbn [Socket_recv]; [reflexivity|].
      destruct (check_recv_err s e) as [err|] eqn:C.
      - now rewrite (check_recv_final s e err C).
      - apply check_recv_transient in C. congruence. }
    destruct (transient r) eqn:T.
    + rewrite K by reflexivity. split.
      * intros ev rest. rewrite IH1. split.
        -- intros (pre & x & -> & F & X & ->). exists (r :: pre), x. cbn [forallb]. now rewrite T.
        -- intros (pre & x & H & F & X & ->). destruct pre as [|y pre].
           ++ injection H as -> ->. congruence.
           ++ injection H as <- ->. cbn [forallb] in F. rewrite T in F. now exists pre, x.
      * cbn [forallb]. now rewrite T.
    + rewrite L by reflexivity. split.
      * intros ev rest. split.
        -- intros [= <- <-]. now exists [], r.
        -- intros (pre & x & H & F & X & ->). destruct pre as [|y pre].
           ++ now injection H as -> ->.
           ++ injection H as <- ->. cbn [forallb] in F. rewrite T in F. discriminate.
      * cbn [forallb fst]. rewrite T. split; discriminate.
Qed.

Lemma recv_next s rs :
  match filter (fun r => negb (transient r)) rs with
  | [] => fst (Socket_recv s rs) = None
  | r :: l => exists rest, Socket_recv s rs = (Some (received_as (so_enodev_is_eof s) r), rest) /\
                           filter (fun r => negb (transient r)) rest = l
  end.
Proof.
  induction rs as [|r rs IH]; [reflexivity|]. cbn [filter].
  destruct (transient r) eqn:T; cbn [negb].
  - assert (K : Socket_recv s (r :: rs) = Socket_recv s rs).
    { destruct r as [m|e]; [discriminate|]. cbn [Socket_recv].
      apply (check_recv_transient s) in T. now rewrite T. }
    rewrite K. exact IH.
  - exists rs. split; auto. apply (C42_recv s (r :: rs)). now exists [], r.
Qed.

(** Repeated calls return everything the kernel delivered, in order: nothing
    is dropped or duplicated. *)
Theorem C42_nothing_lost s n rs :
  fst (recv_many n s rs) =
  firstn n (map (received_as (so_enodev_is_eof s)) (filter (fun r => negb (transient r)) rs)).
Proof.
  revert rs. induction n as [|n IH]; intros rs; cbn [recv_many firstn]; auto.
  pose proof (recv_next s rs) as H.
  destruct (filter (fun r => negb (transient r)) rs) as [|r l]; cbn [map].
  - destruct (Socket_recv s rs) as [[ev|] rest]; [discriminate|reflexivity].
  - destruct H as (rest & -> & F). specialize (IH rest). rewrite F in IH.
    destruct (recv_many n s rest) as [evs rest']. cbn [fst] in *. now rewrite IH.
Qed.

(** The end of a FUSE connection is not an error; for CUSE it depends on how
    the socket was made, although for CUSE the device does not say ENODEV
    to mean that. *)
Theorem C42_shutdown fd pre rest :
  forallb transient pre = true ->
  Socket_recv (FuseServerSocket_open fd) (pre ++ ReadErr 19 :: rest) =
    (Some (RecvFails (RE_ConnectionClosed 19)), rest) /\
  Socket_recv (FuseServerSocket_from_raw_fd fd) (pre ++ ReadErr 19 :: rest) =
    (Some (RecvFails (RE_ConnectionClosed 19)), rest) /\
  Socket_recv (CuseServerSocket_open fd) (pre ++ ReadErr 19 :: rest) =
    (Some (RecvFails (RE_Other 19)), rest).
Proof.
  intros F. repeat split; apply C42_recv; exists pre, (ReadErr 19); now repeat split.
Qed.

Theorem C42_cuse_refuted :
  exists fd rs, fst (Socket_recv (CuseServerSocket_open fd) rs) <>
                fst (Socket_recv (CuseServerSocket_from_raw_fd fd) rs).
Proof. exists 3, [ReadErr 19]. discriminate. Qed.

(** ** C43: sending *)

(** What one result of writev(2) that is not an interruption means. *)
Definition sent_as (len : N) (r : write_result) : send_event :=
  match r with
  | WriteOk n => if n =? len then SendOk else SendFails (SE_Other 5)
  | WriteErr 2 => SendFails SE_NotFound
  | WriteErr e => SendFails (SE_Other e)
  end.
Definition interrupted (r : write_result) : bool :=
  match r with WriteErr 4 => true | _ => false end.
Definition possible (r : write_result) : Prop :=
  match r with WriteOk n => n < 2 ^ 63 | WriteErr _ => True end.

Lemma check_send_interrupted e : check_send_err e = None <-> interrupted (WriteErr e) = true.
Proof.
  unfold check_send_err, EINTR, interrupted.
  destruct (N.eqb_spec e 4) as [->|]; [tauto|]. split.
  - destruct (e =? ENOENT); discriminate.
  - destruct e as [|p]; try discriminate. do 3 (try (destruct p as [p|p|]; try discriminate; try lia)).
Qed.

Lemma check_send_final len e err : check_send_err e = Some err -> sent_as len (WriteErr e) = SendFails err.
Proof.
  unfold check_send_err, EINTR, ENOENT, sent_as. destruct (N.eqb_spec e 4); [discriminate|].
  destruct (N.eqb_spec e 2) as [->|]; [now intros [= <-]|]. intros [= <-].
  destruct e as [|p]; auto. do 2 (try (destruct p as [p|p|]); auto). all: exfalso; lia.
Qed.

Theorem C43_send len rs :
  len < 2 ^ 63 -> Forall possible rs ->
  (forall ev rest,
     Socket_send len rs = (Some ev, rest) <->
     exists pre r, rs = pre ++ r :: rest /\ forallb interrupted pre = true /\
                   interrupted r = false /\ ev = sent_as len r) /\
  (fst (Socket_send len rs) = None <-> forallb interrupted rs = true) /\
  (forall rest, Socket_send len rs = (Some SendOk, rest) <->
     exists pre, rs = pre ++ WriteOk len :: rest /\ forallb interrupted pre = true).
Proof.
  intros Hlen P.
  assert (G : (forall ev rest,
     Socket_send len rs = (Some ev, rest) <->
     exists pre r, rs = pre ++ r :: rest /\ forallb interrupted pre = true /\
                   interrupted r = false /\ ev = sent_as len r) /\
    (fst (Socket_send len rs) = None <-> forallb interrupted rs = true)).
  { induction rs as [|r rs IH].
    - split; [|cbn; tauto]. intros ev rest. split; [discriminate|].
      intros (pre & r & H & _). now destruct pre.
    - destruct (IH (Forall_inv_tail P)) as [IH1 IH2]. apply Forall_inv in P.
      assert (K : interrupted r = true -> Socket_send len (r :: rs) = Socket_send len rs).
      { destruct r as [m|e]; [discriminate|]. intros H. cbn [Socket_send].
        apply check_send_interrupted in H. now rewrite H. }
      assert (L : interrupted r = false -> Socket_send len (r :: rs) = (Some (sent_as len r), rs)).
      { destruct r as [m|e]; intros H; cbn [Socket_send].
        - cbn [sent_as possible] in *. unfold as_i64, I64, EIO. change (2 ^ 63) with 9223372036854775808 in *.
          destruct (N.ltb_spec len 9223372036854775808); [|lia].
          destruct (Z.eqb_spec (Z.of_N m) (Z.of_N len)); destruct (N.eqb_spec m len); auto; lia.
        - destruct (check_send_err e) as [err|] eqn:C.
          + now rewrite (check_send_final len e err C).
          + apply check_send_interrupted in C. congruence. }
      destruct (interrupted r) eqn:T.
      + rewrite K by reflexivity. split.
        * intros ev rest. rewrite IH1. split.
          -- intros (pre & x & -> & F & X & ->). exists (r :: pre), x. cbn [forallb]. now rewrite T.
          -- intros (pre & x & H & F & X & ->). destruct pre as [|y pre].
             ++ injection H as -> ->. congruence.
             ++ injection H as <- ->. cbn [forallb] in F. rewrite T in F. now exists pre, x.
        * cbn [forallb]. now rewrite T.
      + rewrite L by reflexivity. split.
        * intros ev rest. split.
          -- intros [= <- <-]. now exists [], r.
          -- intros (pre & x & H & F & X & ->). destruct pre as [|y pre].
             ++ now injection H as -> ->.
             ++ injection H as <- ->. cbn [forallb] in F. rewrite T in F. discriminate.
        * cbn [forallb fst]. rewrite T. split; discriminate. }
  destruct G as [G1 G2]. split; [exact G1|]. split; [exact G2|].
  intros rest. rewrite G1. split.
  - intros (pre & r & -> & F & X & Y). exists pre. split; auto. destruct r as [n|e]; cbn [sent_as] in Y.
    + destruct (N.eqb_spec n len); [now subst|discriminate].
    + exfalso. destruct e as [|p]; try discriminate. do 2 (try (destruct p as [p|p|]; try discriminate)).
  - intros (pre & -> & F). exists pre, (WriteOk len). repeat split; auto.
    cbn [sent_as]. now rewrite N.eqb_refl.
Qed.

(** ** C41: mount data *)

(** The writer holds [done] of [n] bytes of room. *)
Definition holds (w : BufWriter) (n : N) (done : bytes) : Prop :=
  nlen (bw_buf w) = n /\ bw_count w = nlen done /\ take (nlen done) (bw_buf w) = done.

Lemma holds_le w n done : holds w n done -> nlen done <= n.
Proof.
  intros (A & _ & C). apply (f_equal nlen) in C. rewrite nlen_take in C. lia.
Qed.

Lemma write_bytes_spec b w n done :
  holds w n done ->
  if nlen done + nlen b <=? n
  then exists w', write_bytes b w = Ret (Some w') /\ holds w' n (done ++ b)
  else write_bytes b w = Ret None.
Proof.
  intros H. pose proof (holds_le _ _ _ H) as L. destruct H as (A & B & C).
  unfold write_bytes. rewrite A, B, nlen_drop, A.
  destruct (N.ltb_spec n (nlen done)); [lia|].
  destruct (N.leb_spec (nlen done + nlen b) n); destruct (N.ltb_spec (n - nlen done) (nlen b)); try lia; auto.
  eexists. split; [reflexivity|]. rewrite C. unfold holds. cbn [bw_buf bw_count].
  rewrite !nlen_app, !nlen_drop, A. repeat split; try lia.
  rewrite app_assoc. rewrite take_app; auto. rewrite nlen_app. reflexivity.
Qed.

Lemma write_pieces_spec ps : forall w n done,
  holds w n done ->
  if nlen done + nlen (concat ps) <=? n
  then exists w', write_pieces ps w = Ret (Some w') /\ holds w' n (done ++ concat ps)
  else write_pieces ps w = Ret None.
Proof.
  induction ps as [|p ps IH]; intros w n done H; cbn [write_pieces concat].
  - pose proof (holds_le _ _ _ H). rewrite nlen_nil.
    destruct (N.leb_spec (nlen done + 0) n); [|lia]. exists w. now rewrite app_nil_r.
  - pose proof (write_bytes_spec p w n done H) as W. rewrite nlen_app.
    destruct (N.leb_spec (nlen done + nlen p) n).
    + destruct W as (w' & -> & H'). cbn [bind]. specialize (IH w' n _ H').
      rewrite nlen_app in IH. rewrite <- N.add_assoc in IH. rewrite <- app_assoc in IH. exact IH.
    + rewrite W. cbn [bind]. destruct (N.leb_spec (nlen done + (nlen p + nlen (concat ps))) n); [lia|reflexivity].
Qed.

(** The state of [write_mount_data] after some options. *)
Definition wrote (n : N) (l : list bytes) (st : option (BufWriter * bytes)) : Prop :=
  match st with
  | Some (w, sep) => holds w n (join l) /\ sep = (match l with [] => [] | _ => [comma] end)
  | None => n < nlen (join l)
  end.

Lemma join_snoc l x : join (l ++ [x]) = join l ++ (match l with [] => [] | _ => [comma] end) ++ x.
Proof.
  induction l as [|y l IH]; [reflexivity|]. cbn [app join].
  destruct l as [|z l].
  - reflexivity.
  - rewrite IH. rewrite <- !app_assoc. reflexivity.
Qed.

Lemma write_option_spec n l st pieces x :
  wrote n l st ->
  (forall sep, sep = (match l with [] => [] | _ => [comma] end) -> concat (pieces sep) = sep ++ x) ->
  exists st', write_option pieces st = Ret st' /\ wrote n (l ++ [x]) st'.
Proof.
  intros H Hp. unfold write_option. destruct st as [[w sep]|].
  - destruct H as [H S]. pose proof (write_pieces_spec (pieces sep) w n _ H) as W.
    rewrite (Hp sep S) in W.
    assert (J : join (l ++ [x]) = join l ++ sep ++ x) by (rewrite S; apply join_snoc).
    destruct (N.leb_spec (nlen (join l) + nlen (sep ++ x)) n).
    + destruct W as (w' & -> & H'). cbn [bind]. eexists. split; [reflexivity|].
      cbn [wrote]. rewrite J. split; [exact H'|]. now destruct l.
    + rewrite W. cbn [bind]. exists None. split; [reflexivity|]. cbn [wrote]. rewrite J, nlen_app. lia.
  - exists None. split; [reflexivity|]. cbn [wrote] in *. rewrite join_snoc, nlen_app. lia.
Qed.

Lemma when_spec {A} n l st (x : option A) (pieces : A -> bytes -> list bytes) key mk :
  wrote n l st ->
  (forall v sep, sep = (match l with [] => [] | _ => [comma] end) ->
     concat (pieces v sep) = sep ++ option_text (txt key, Some (mk v))) ->
  exists st', match x with Some v => write_option (pieces v) st | None => Ret st end = Ret st' /\
    wrote n (l ++ map option_text
      (match x with Some v => [(txt key, Some (mk v))] | None => [] end)) st'.
Proof.
  intros H Hp. destruct x as [v|].
  - apply write_option_spec; auto.
  - exists st. rewrite app_nil_r. auto.
Qed.

Lemma if_spec n l st (b : bool) (pieces : bytes -> list bytes) key :
  wrote n l st ->
  (forall sep, concat (pieces sep) = sep ++ txt key) ->
  exists st', (if b then write_option pieces st else Ret st) = Ret st' /\
    wrote n (l ++ map option_text (if b then [(txt key, None)] else [])) st'.
Proof.
  intros H Hp. destruct b.
  - apply write_option_spec; auto. intros sep _. rewrite Hp. unfold option_text. cbn [fst snd].
    now rewrite app_nil_r.
  - exists st. rewrite app_nil_r. auto.
Qed.

Theorem C41_fits o storage :
  mount_data o storage =
  Ret (if nlen (options_text o) + 1 <=? nlen storage
       then Some (options_text o ++ [Byte.x00]) else None).
Proof.
  unfold mount_data, write_mount_data, options_text, configured. cbv zeta.
  set (n := nlen storage).
  assert (H0 : wrote n [] (Some ({| bw_buf := storage; bw_count := 0 |}, []))).
  { split; [|reflexivity]. unfold holds. cbn [bw_buf bw_count join].
    split; [reflexivity|]. split; [reflexivity|]. apply take_0. }
  rewrite !map_app.
  assert (P3 : forall (k v sep : bytes), concat [sep; k ++ [Byte.x3d]; v] = sep ++ k ++ Byte.x3d :: v).
  { intros. cbn [concat]. rewrite app_nil_r. now rewrite <- app_assoc. }
  destruct (when_spec n [] _ (mo_fd o) (fun v _ => [txt "fd="; show 10 v]) "fd"%string Decimal H0)
    as (st1 & E1 & H1); [intros v sep ->; cbn [concat]; now rewrite app_nil_r|].
  rewrite E1. cbn [bind]. cbn [app] in H1.
  destruct (if_spec n _ _ (mo_allow_other o) (fun sep => [sep; txt "allow_other"]) "allow_other"%string H1)
    as (st2 & E2 & H2); [intros; cbn [concat]; now rewrite app_nil_r|].
  rewrite E2. cbn [bind].
  destruct (when_spec n _ _ (mo_block_size o) (fun v sep => [sep; txt "blksize="; show 10 v])
    "blksize"%string Decimal H2) as (st3 & E3 & H3); [intros; apply (P3 (txt "blksize"))|].
  rewrite E3. cbn [bind].
  destruct (if_spec n _ _ (mo_default_permissions o) (fun sep => [sep; txt "default_permissions"])
    "default_permissions"%string H3) as (st4 & E4 & H4); [intros; cbn [concat]; now rewrite app_nil_r|].
  rewrite E4. cbn [bind].
  destruct (when_spec n _ _ (mo_group_id o) (fun v sep => [sep; txt "group_id="; show 10 v])
    "group_id"%string Decimal H4) as (st5 & E5 & H5); [intros; apply (P3 (txt "group_id"))|].
  rewrite E5. cbn [bind].
  destruct (when_spec n _ _ (mo_max_read o) (fun v sep => [sep; txt "max_read="; show 10 v])
    "max_read"%string Decimal H5) as (st6 & E6 & H6); [intros; apply (P3 (txt "max_read"))|].
  rewrite E6. cbn [bind].
  destruct (when_spec n _ _ (mo_root_mode o) (fun v sep => [sep; txt "rootmode="; show 8 v])
    "rootmode"%string Octal H6) as (st7 & E7 & H7); [intros; apply (P3 (txt "rootmode"))|].
  rewrite E7. cbn [bind].
  destruct (when_spec n _ _ (mo_subtype o) (fun v sep => [sep; txt "subtype="; v])
    "subtype"%string Text H7) as (st8 & E8 & H8); [intros; apply (P3 (txt "subtype"))|].
  rewrite E8. cbn [bind].
  destruct (when_spec n _ _ (mo_user_id o) (fun v sep => [sep; txt "user_id="; show 10 v])
    "user_id"%string Decimal H8) as (st9 & E9 & H9); [intros; apply (P3 (txt "user_id"))|].
  rewrite E9. cbn [bind]. clear E1 E2 E3 E4 E5 E6 E7 E8 E9 H0 H1 H2 H3 H4 H5 H6 H7 H8.
  rewrite <- !app_assoc in H9. set (l := _ ++ _) in *. clearbody l.
  destruct st9 as [[w sep]|]; cbn [wrote] in H9.
  - destruct H9 as [H _]. pose proof (write_bytes_spec [Byte.x00] w n _ H) as W.
    change (nlen [Byte.x00]) with 1 in W.
    destruct (nlen (join l) + 1 <=? n).
    + destruct W as (w' & -> & H'). cbn [bind]. pose proof (holds_le _ _ _ H') as L.
      destruct H' as (A & B & C). rewrite A, B. destruct (N.ltb_spec n (nlen (join l ++ [Byte.x00]))); [lia|].
      now rewrite C.
    + rewrite W. reflexivity.
  - cbn [bind]. destruct (N.leb_spec (nlen (join l) + 1) n); [lia|reflexivity].
Qed.

(** Numbers in the text. *)
Definition plain (b : Byte.byte) : Prop := b <> Byte.x00 /\ b <> Byte.x2c.

Lemma digit_ok d : d < 10 -> digit_value (digit d) = Some d /\ plain (digit d).
Proof.
  intros H. assert (d = 0 \/ d = 1 \/ d = 2 \/ d = 3 \/ d = 4 \/ d = 5 \/ d = 6 \/ d = 7 \/ d = 8 \/ d = 9)
    as D by lia.
  repeat destruct D as [-> | D]; [.. | subst d]; repeat split; try reflexivity; discriminate.
Qed.

Lemma show_digits_spec base : 1 < base -> base <= 10 -> forall fuel n acc,
  n < base ^ N.of_nat fuel ->
  read_digits base (show_digits fuel base n acc) 0 = read_digits base acc n /\
  (Forall plain acc -> Forall plain (show_digits fuel base n acc)) /\
  (fuel <> O -> show_digits fuel base n acc <> []).
Proof.
  intros B1 B2. induction fuel as [|fuel IH]; intros n acc H.
  - cbn in *. assert (n = 0) as -> by lia. split; [reflexivity|]. split; [auto|congruence].
  - cbn [show_digits]. rewrite Nnat.Nat2N.inj_succ, N.pow_succ_r' in H.
    assert (M : n mod base < base) by (apply N.mod_lt; lia).
    destruct (digit_ok (n mod base)) as [V P]; [lia|].
    assert (R : forall a, read_digits base (digit (n mod base) :: acc) a =
                          read_digits base acc (a * base + n mod base)).
    { intros a. cbn [read_digits]. rewrite V. destruct (N.ltb_spec (n mod base) base); [reflexivity|lia]. }
    pose proof (N.div_mod n base ltac:(lia)) as DM.
    destruct (N.eqb_spec (n / base) 0) as [Z|Z].
    + rewrite R. rewrite Z in DM. rewrite N.mul_0_r in DM.
      split; [f_equal; lia|]. split; [intros; now constructor|discriminate].
    + destruct (IH (n / base) (digit (n mod base) :: acc)) as (I1 & I2 & I3).
      { apply N.div_lt_upper_bound; lia. }
      rewrite I1, R. split; [f_equal; lia|]. split; [intros; apply I2; now constructor|].
      intros _. destruct fuel; [|apply I3; discriminate]. cbn. discriminate.
Qed.

Theorem C41_numbers n :
  n < U32 ->
  read_number 10 (show 10 n) = Some n /\ read_number 8 (show 8 n) = Some n /\
  Forall plain (show 10 n) /\ Forall plain (show 8 n).
Proof.
  intros H. unfold U32 in H.
  destruct (show_digits_spec 10 ltac:(lia) ltac:(lia) 11 n []) as (A & B & C).
  { change (10 ^ N.of_nat 11) with 100000000000. lia. }
  destruct (show_digits_spec 8 ltac:(lia) ltac:(lia) 11 n []) as (A' & B' & C').
  { change (8 ^ N.of_nat 11) with 8589934592. lia. }
  fold (show 10 n) in *. fold (show 8 n) in *.
  specialize (C ltac:(discriminate)). specialize (C' ltac:(discriminate)).
  repeat match goal with |- _ /\ _ => split end; auto.
  - unfold read_number. destruct (show 10 n); [congruence|]. exact A.
  - unfold read_number. destruct (show 8 n); [congruence|]. exact A'.
Qed.

(** Splitting what was joined. *)
Lemma c_string_nul s : Forall plain s -> c_string (s ++ [Byte.x00]) = s.
Proof.
  induction 1 as [|b r [B _] F IH]; cbn [app c_string]; [reflexivity|].
  apply byte_eqb_neq in B. now rewrite B, IH.
Qed.

Definition no_comma (s : bytes) : Prop := Forall (fun b => b <> Byte.x2c) s.

Lemma split_no_comma s : no_comma s -> split_at Byte.x2c s = [s].
Proof.
  induction 1 as [|b r B F IH]; [reflexivity|]. cbn [split_at].
  apply byte_eqb_neq in B. now rewrite B, IH.
Qed.

Lemma split_app s rest : no_comma s ->
  split_at Byte.x2c (s ++ Byte.x2c :: rest) = s :: split_at Byte.x2c rest.
Proof.
  induction 1 as [|b r B F IH]; [reflexivity|]. cbn [app split_at].
  apply byte_eqb_neq in B. now rewrite B, IH.
Qed.

Lemma split_join l : l <> [] -> Forall no_comma l -> split_at Byte.x2c (join l) = l.
Proof.
  intros N F. induction F as [|x l X F IH]; [congruence|]. cbn [join]. destruct l as [|y l].
  - now apply split_no_comma.
  - rewrite split_app by auto. now rewrite IH by discriminate.
Qed.

Lemma key_value_text k v :
  ~ In Byte.x3d k -> key_value (option_text (k, v)) = (k, option_map value_text v).
Proof.
  unfold option_text. cbn [fst snd]. induction k as [|b k IH]; intros H; cbn [app key_value].
  - destruct v; reflexivity.
  - assert (B : b <> Byte.x3d) by (intros ->; apply H; now left).
    apply byte_eqb_neq in B. rewrite B, IH by (intros X; apply H; now right). reflexivity.
Qed.

(** Keys and values of [configured] contain nothing that could be read as a
    separator. *)
Definition key_ok (k : bytes) : Prop := k <> [] /\ Forall plain k /\ ~ In Byte.x3d k.
Definition entry_ok (x : bytes * option value) : Prop :=
  key_ok (fst x) /\
  match snd x with Some v => Forall plain (value_text v) /\ reads_as v (value_text v) | None => True end.

Lemma subtype_plain c s : ~ In Byte.x00 c -> FuseSubtype_new c = Some s -> Forall plain s.
Proof.
  unfold FuseSubtype_new. intros Z H. destruct c as [|b r] eqn:C; [discriminate|]. rewrite <- C in *.
  destruct (existsb (Byte.eqb comma) c) eqn:X; [discriminate|]. injection H as <-.
  apply Forall_forall. intros x Hx. split; [now intros ->|]. intros ->.
  assert (existsb (Byte.eqb comma) c = true); [|congruence].
  apply existsb_exists. exists Byte.x2c. split; auto.
Qed.

Lemma configured_ok o : options_ok o -> Forall entry_ok (configured o).
Proof.
  unfold options_ok, configured. intros (A & B & C & D & F & G & S). cbv zeta.
  assert (K : forall s : string, In s ["fd"; "allow_other"; "blksize"; "default_permissions"; "group_id";
    "max_read"; "rootmode"; "subtype"; "user_id"]%string -> key_ok (txt s)).
  { intros s Hs. repeat destruct Hs as [<- | Hs]; [..|destruct Hs].
    all: split; [discriminate|]; split; [cbn; repeat constructor; discriminate|].
    all: cbn; intros H; repeat destruct H as [H | H]; try discriminate; destruct H. }
  assert (ND : forall k x, key_ok k -> u32_option x ->
    Forall entry_ok (match x with Some v => [(k, Some (Decimal v))] | None => [] end)).
  { intros k [v|] Hk Hx; constructor; [|constructor]. split; [exact Hk|]. cbn.
    destruct (C41_numbers v Hx) as (N1 & N2 & N3 & N4). auto. }
  repeat (apply Forall_app; split); try (apply ND; auto; apply K; cbn; tauto).
  - destruct (mo_allow_other o); constructor; [|constructor]. split; [apply K; cbn; tauto|exact I].
  - destruct (mo_default_permissions o); constructor; [|constructor]. split; [apply K; cbn; tauto|exact I].
  - destruct (mo_root_mode o) as [v|]; constructor; [|constructor]. split; [apply K; cbn; tauto|]. cbn.
    destruct (C41_numbers v F) as (N1 & N2 & N3 & N4). auto.
  - destruct (mo_subtype o) as [s|]; constructor; [|constructor]. split; [apply K; cbn; tauto|]. cbn.
    destruct S as (c & Z & H). split; [|reflexivity]. eapply subtype_plain; eauto.
Qed.

Lemma plain_no_comma s : Forall plain s -> no_comma s.
Proof. apply Forall_impl. intros b [_ B]. exact B. Qed.

Lemma option_text_plain x : entry_ok x -> Forall plain (option_text x) /\ option_text x <> [].
Proof.
  destruct x as [k v]. unfold entry_ok, option_text. cbn [fst snd]. intros ((N & P & _) & V). split.
  - apply Forall_app. split; auto. destruct v as [v|]; constructor.
    + split; discriminate.
    + apply V.
  - destruct k; [congruence|discriminate].
Qed.

Lemma join_plain l : Forall (Forall plain) l -> Forall (fun b => b <> Byte.x00) (join l).
Proof.
  assert (W : forall s, Forall plain s -> Forall (fun b => b <> Byte.x00) s)
    by (intros s; apply Forall_impl; intros b [B _]; exact B).
  induction 1 as [|x l X F IH]; cbn [join]; [constructor|]. destruct l as [|y l]; auto.
  apply Forall_app. split; auto. constructor; [discriminate|exact IH].
Qed.

Lemma c_string_nul' s : Forall (fun b => b <> Byte.x00) s -> c_string (s ++ [Byte.x00]) = s.
Proof.
  induction 1 as [|b r B F IH]; cbn [app c_string]; [reflexivity|].
  apply byte_eqb_neq in B. now rewrite B, IH.
Qed.

(** No key occurs twice. *)
Fixpoint chosen (l : list (bytes * bool)) : list bytes :=
  match l with
  | [] => []
  | (k, b) :: r => (if b then [k] else []) ++ chosen r
  end.

Lemma chosen_nodup l : NoDup (map fst l) -> NoDup (chosen l).
Proof.
  assert (I : forall l x, In x (chosen l) -> In x (map fst l)).
  { clear. induction l as [|[k b] r IH]; cbn; auto. intros x H. apply in_app_or in H as [H|H]; auto.
    destruct b; [|destruct H]. destruct H as [H|[]]. now left. }
  induction l as [|[k b] r IH]; cbn; [constructor|]. intros H. inversion H; subst.
  destruct b; cbn [app]; auto. constructor; auto.
Qed.

Definition given {A} (x : option A) : bool := match x with Some _ => true | None => false end.

Lemma configured_keys o :
  map fst (configured o) =
  chosen [(txt "fd", given (mo_fd o)); (txt "allow_other", mo_allow_other o);
          (txt "blksize", given (mo_block_size o));
          (txt "default_permissions", mo_default_permissions o);
          (txt "group_id", given (mo_group_id o)); (txt "max_read", given (mo_max_read o));
          (txt "rootmode", given (mo_root_mode o)); (txt "subtype", given (mo_subtype o));
          (txt "user_id", given (mo_user_id o))].
Proof.
  assert (N : forall {A} k (mk : A -> value) (x : option A),
    map fst (match x with Some v => [(txt k, Some (mk v))] | None => [] end) =
    (if given x then [txt k] else [])) by (intros A k mk [v|]; reflexivity).
  assert (B : forall k (b : bool), map fst (if b then [(txt k, @None value)] else []) =
    (if b then [txt k] else [])) by (intros k []; reflexivity).
  unfold configured. cbv zeta. rewrite !map_app, !N, !B. cbn [chosen]. now rewrite app_nil_r.
Qed.

(** What the kernel reads are exactly the configured options, in order, each
    once and with its value: a subtype cannot add an option. *)
Theorem C41_kernel o storage data :
  options_ok o -> mount_data o storage = Ret (Some data) ->
  Forall2 option_reads (configured o) (kernel_options data) /\
  NoDup (map fst (kernel_options data)) /\
  (exists text, data = text ++ [Byte.x00] /\ ~ In Byte.x00 text).
Proof.
  intros Ho H. rewrite C41_fits in H. destruct (_ <=? _); [|discriminate]. injection H as <-.
  pose proof (configured_ok o Ho) as F.
  assert (FT : Forall (Forall plain) (map option_text (configured o))).
  { apply Forall_map. eapply Forall_impl; [|exact F]. intros x Hx. now apply option_text_plain. }
  assert (Z : Forall (fun b => b <> Byte.x00) (options_text o)) by (apply join_plain; exact FT).
  assert (KO : kernel_options (options_text o ++ [Byte.x00]) =
    map (fun x => (fst x, option_map value_text (snd x))) (configured o)).
  { unfold kernel_options. rewrite c_string_nul' by exact Z. unfold options_text.
    destruct (configured o) as [|x l] eqn:C; [reflexivity|]. rewrite <- C in *.
    rewrite split_join.
    - clear C Z FT. induction F as [|y r Y F IH]; [reflexivity|]. cbn [map filter].
      destruct (option_text_plain y Y) as [_ NE].
      assert (nlen (option_text y) =? 0 = false) as ->.
      { destruct (option_text y) as [|c t]; [congruence|]. rewrite nlen_cons. apply N.eqb_neq. lia. }
      cbn [negb map]. rewrite IH. f_equal. destruct y as [k v]. cbn [fst snd].
      apply key_value_text. apply Y.
    - rewrite C. discriminate.
    - eapply Forall_impl; [|exact FT]. apply plain_no_comma. }
  rewrite KO. split; [|split].
  - clear -F. induction F as [|x l X F IH]; cbn [map]; constructor; auto.
    split; [reflexivity|]. destruct x as [k [v|]]; cbn; [apply X|exact I].
  - rewrite map_map. cbn [fst]. change (fun x : bytes * option value => fst x) with (@fst bytes (option value)).
    rewrite configured_keys. apply chosen_nodup.
    vm_compute. repeat constructor; cbn [In]; intros H; repeat destruct H as [H | H];
      try discriminate; destruct H.
  - exists (options_text o). split; auto. intros H. rewrite Forall_forall in Z. now apply (Z _ H).
Qed.

(** Without any setter called no option is passed. *)
Theorem C41_default storage :
  mo_source MountOptions_new = txt "fuse" /\ mo_type MountOptions_new = txt "fuse" /\
  mount_data MountOptions_new storage = Ret (if nlen storage =? 0 then None else Some [Byte.x00]) /\
  kernel_options [Byte.x00] = [].
Proof.
  split; [reflexivity|]. split; [reflexivity|]. split; [|reflexivity].
  rewrite C41_fits. change (options_text MountOptions_new) with (@nil Byte.byte).
  change (nlen (@nil Byte.byte)) with 0.
  destruct (N.eqb_spec (nlen storage) 0) as [->|H]; [reflexivity|].
  now replace (0 + 1 <=? nlen storage) with true by lia.
Qed.

(** ** C44: mounting on Linux *)

(** The options as mounted: explicit values win over detected ones, the
    descriptor is that of the opened device. *)
Definition completed (y : system) (mode fd : N) (o : MountOptions) : MountOptions :=
  {| mo_source := mo_source o; mo_type := mo_type o; mo_allow_other := mo_allow_other o;
     mo_block_size := mo_block_size o; mo_default_permissions := mo_default_permissions o;
     mo_fd := Some fd; mo_subtype := mo_subtype o;
     mo_group_id := Some (match mo_group_id o with Some v => v | None => sys_gid y end);
     mo_max_read := mo_max_read o; mo_root_mode := Some mode;
     mo_user_id := Some (match mo_user_id o with Some v => v | None => sys_uid y end) |}.

(** Descriptors are nonnegative i32 values, ids and modes u32 values. *)
Definition fd_ok (x : N + N) : Prop := match x with inl fd => fd < 2 ^ 31 | inr _ => True end.
Definition system_ok (y : system) : Prop :=
  fd_ok (sys_open y) /\ fd_ok (sys_openat y) /\ sys_uid y < U32 /\ sys_gid y < U32 /\
  match sys_statx y with inl m => m < U16 | inr _ => True end.

(** The device as it is opened: fuse-linux falls back to the older call. *)
Definition opened (is_libc : bool) (y : system) : N + N :=
  match sys_open y, is_libc with
  | inr 38, false => sys_openat y
  | r, _ => r
  end.

Lemma open_device_opened is_libc y : open_device is_libc y = opened is_libc y.
Proof.
  unfold open_device, opened, ENOSYS. destruct is_libc.
  - destruct (sys_open y) as [fd|e]; auto. destruct e as [|p]; auto.
    do 6 (try (destruct p as [p|p|]); auto).
  - destruct (sys_open y) as [fd|e]; auto. destruct (N.eqb_spec e 38) as [->|N]; auto.
    destruct e as [|p]; auto. do 6 (try (destruct p as [p|p|]); auto). all: exfalso; lia.
Qed.

(** Everything [mount] does, by the outcomes of the system calls. *)
Theorem C44_mount is_libc y target h :
  system_ok y ->
  let root := match mo_root_mode (hm_opts h) with Some m => inl m | None => sys_statx y end in
  let path := match hm_dev_fuse h with Some p => p | None => txt "/dev/fuse" end in
  mount is_libc y target h = Ret
    match root with
    | inr e => ([], inr e)
    | inl mode =>
      match opened is_libc y with
      | inr e => ([CallOpen path None], inr e)
      | inl fd =>
        let o := completed y mode fd (hm_opts h) in
        if nlen (options_text o) + 1 <=? 4096 then
          let call := CallMount (mo_source o) target (mo_type o) (hm_flags h)
                        (options_text o ++ [Byte.x00]) in
          match sys_mount y with
          | None => ([CallOpen path (Some fd); call], inl (FuseServerSocket_open fd))
          | Some e => ([CallOpen path (Some fd); call; CallClose fd], inr e)
          end
        else ([CallOpen path (Some fd); CallClose fd], inr 22)
      end
    end.
Proof.
  intros (F1 & F2 & _) root path. unfold mount. fold root.
  destruct root as [mode|e]; [|reflexivity].
  rewrite open_device_opened. unfold HostMountOptions_dev_fuse. fold path.
  destruct (opened is_libc y) as [fd|e] eqn:O; [|reflexivity].
  assert (B : fd < 2 ^ 31).
  { unfold opened in O. destruct (sys_open y) as [x|x].
    - injection O as <-. exact F1.
    - destruct x as [|p]; [discriminate|].
      do 6 (try (destruct p as [p|p|]; try discriminate)).
      destruct is_libc; [discriminate|]. rewrite O in F2. exact F2. }
  cbv zeta. set (o1 := MountOptions_set_fd _ _).
  assert (E : o1 = completed y mode fd (hm_opts h)).
  { unfold o1, wrap32, completed. replace (fd mod U32) with fd
      by (symmetry; apply N.mod_small; unfold U32; change (2 ^ 31) with 2147483648 in B; lia).
    destruct (hm_opts h) as [src ty ao bs dp f st g mr rm u]; cbn. destruct u, g; reflexivity. }
  rewrite E, C41_fits. cbn [bind].
  replace (nlen (repeat Byte.x00 4096)) with 4096 by (vm_compute; reflexivity).
  destruct (_ <=? 4096); [|reflexivity]. now destruct (sys_mount y).
Qed.

(** On failure no descriptor stays open and none is closed twice; on success
    the returned socket owns the only one. *)
Theorem C44_descriptors is_libc y target h calls r :
  system_ok y -> mount is_libc y target h = Ret (calls, r) ->
  match r with
  | inl socket => still_open calls [] = [so_fd socket] /\ closes (so_fd socket) calls = O
  | inr _ =>
    still_open calls [] = [] /\
    forall path fd, In (CallOpen path (Some fd)) calls -> closes fd calls = 1%nat
  end.
Proof.
  intros Y. rewrite C44_mount by exact Y. cbv zeta.
  destruct (match mo_root_mode (hm_opts h) with Some m => inl m | None => sys_statx y end) as [mode|e].
  2: { intros [= <- <-]. split; [reflexivity|intros ? ? []]. }
  destruct (opened is_libc y) as [fd|e].
  2: { intros [= <- <-]. split; [reflexivity|]. intros ? ? [H|[]]. discriminate. }
  destruct (_ <=? 4096); [destruct (sys_mount y)|]; intros [= <- <-]; cbn; rewrite ?N.eqb_refl; cbn;
    split; auto; intros path fd' H;
    (destruct H as [H|H]; [injection H as _ <-; now rewrite N.eqb_refl|]);
    repeat (destruct H as [H|H]; [discriminate|]); destruct H.
Qed.

(** The kernel is told the opened descriptor, the root mode and the ids, and
    every other configured option. *)
Theorem C44_options is_libc y target h calls r source target' type flags data :
  system_ok y -> options_ok (hm_opts h) ->
  mount is_libc y target h = Ret (calls, r) ->
  In (CallMount source target' type flags data) calls ->
  source = mo_source (hm_opts h) /\ target' = target /\ type = mo_type (hm_opts h) /\
  flags = hm_flags h /\
  exists fd mode path,
    In (CallOpen path (Some fd)) calls /\ opened is_libc y = inl fd /\
    (mo_root_mode (hm_opts h) = Some mode \/
     mo_root_mode (hm_opts h) = None /\ sys_statx y = inl mode) /\
    let o := completed y mode fd (hm_opts h) in
    Forall2 option_reads (configured o) (kernel_options data) /\
    In (txt "fd", Some (Decimal fd)) (configured o) /\
    In (txt "rootmode", Some (Octal mode)) (configured o) /\
    (exists uid, In (txt "user_id", Some (Decimal uid)) (configured o) /\
       (mo_user_id (hm_opts h) = Some uid \/ mo_user_id (hm_opts h) = None /\ uid = sys_uid y)) /\
    (exists gid, In (txt "group_id", Some (Decimal gid)) (configured o) /\
       (mo_group_id (hm_opts h) = Some gid \/ mo_group_id (hm_opts h) = None /\ gid = sys_gid y)).
Proof.
  intros Y Ho M Hc. rewrite C44_mount in M by exact Y. cbv zeta in M.
  destruct (match mo_root_mode (hm_opts h) with Some m => inl m | None => sys_statx y end)
    as [mode|e] eqn:R.
  2: { injection M as <- <-. destruct Hc. }
  destruct (opened is_libc y) as [fd|e] eqn:O.
  2: { injection M as <- <-. destruct Hc as [Hc|[]]. discriminate. }
  set (o := completed y mode fd (hm_opts h)) in *.
  destruct (nlen (options_text o) + 1 <=? 4096) eqn:L.
  2: { injection M as <- <-. repeat (destruct Hc as [Hc|Hc]; [discriminate|]); destruct Hc. }
  set (call := CallMount (mo_source o) target (mo_type o) (hm_flags h) (options_text o ++ [Byte.x00])) in *.
  set (path := match hm_dev_fuse h with Some p => p | None => txt "/dev/fuse" end) in *.
  assert (C : CallMount source target' type flags data = call /\ In (CallOpen path (Some fd)) calls).
  { destruct (sys_mount y); injection M as <- <-; split; try (now left);
      (destruct Hc as [Hc|Hc]; [discriminate|]); (destruct Hc as [Hc|Hc]; [now rewrite <- Hc|]);
      repeat (destruct Hc as [Hc|Hc]; [discriminate|]); destruct Hc. }
  destruct C as [C HO]. injection C as -> -> -> -> ->.
  repeat match goal with |- _ /\ _ => split end; try reflexivity.
  exists fd, mode, path. split; [exact HO|]. split; [reflexivity|].
  assert (RM : mo_root_mode (hm_opts h) = Some mode \/
     mo_root_mode (hm_opts h) = None /\ sys_statx y = inl mode).
  { destruct (mo_root_mode (hm_opts h)); [left; congruence|right; now split]. }
  split; [exact RM|]. cbv zeta. fold o.
  assert (OK : options_ok o).
  { destruct Ho as (A & B & Cg & D & F & G & S). destruct Y as (Y1 & Y2 & Y3 & Y4 & Y5).
    unfold options_ok, o. cbn.
    assert (FD : fd < 2 ^ 31).
    { unfold opened in O. destruct (sys_open y) as [x|x].
      - injection O as <-. exact Y1.
      - destruct x as [|p]; [discriminate|].
        do 6 (try (destruct p as [p|p|]; try discriminate)).
        destruct is_libc; [discriminate|]. rewrite O in Y2. exact Y2. }
    change (2 ^ 31) with 2147483648 in FD. unfold U32, U16 in *.
    repeat match goal with |- _ /\ _ => split end; auto; try lia.
    - destruct (mo_group_id (hm_opts h)); auto.
    - destruct RM as [E|[_ E]]; [rewrite E in F; exact F|rewrite E in Y5; lia].
    - destruct (mo_user_id (hm_opts h)); auto. }
  split.
  { apply (C41_kernel o (repeat Byte.x00 4096)); auto. rewrite C41_fits.
    replace (nlen (repeat Byte.x00 4096)) with 4096 by (vm_compute; reflexivity).
    now rewrite L. }
  unfold configured, o, completed. cbv zeta. cbn [mo_fd mo_root_mode mo_user_id mo_group_id
    mo_allow_other mo_block_size mo_default_permissions mo_max_read mo_subtype].
  split; [now left|]. split; [|split].
  - do 6 (apply in_or_app; right). now left.
  - eexists. split; [do 8 (apply in_or_app; right); now left|].
    destruct (mo_user_id (hm_opts h)); auto.
  - eexists. split; [do 4 (apply in_or_app; right); now left|].
    destruct (mo_group_id (hm_opts h)); auto.
Qed.

(** ** C53: mounting on FreeBSD *)

(** nmount(2) takes name/value pairs. *)
Fixpoint pairs (l : list bytes) : option (list (bytes * bytes)) :=
  match l with
  | [] => Some []
  | [_] => None
  | a :: b :: r => option_map (cons (c_string a, c_string b)) (pairs r)
  end.
Definition terminated (bs : bytes) : Prop := In Byte.x00 bs.

Definition freebsd_expected (target : bytes) (fd : N) (o : FreebsdOptions) : list (bytes * bytes) :=
  [(txt "fstype", txt "fusefs"); (txt "from", txt "/dev/fuse"); (txt "fspath", target);
   (txt "fd", show 10 fd)] ++
  (if fo_default_permissions o then [(txt "default_permissions", [])] else []) ++
  (match fo_subtype o with Some s => [(txt "subtype=", s)] | None => [] end).

Lemma c_string_app s rest : ~ In Byte.x00 s -> c_string (s ++ Byte.x00 :: rest) = s.
Proof.
  induction s as [|b s IH]; intros H; cbn [app c_string]; [reflexivity|].
  assert (B : b <> Byte.x00) by (intros ->; apply H; now left).
  apply byte_eqb_neq in B. rewrite B, IH; auto. intros X. apply H. now right.
Qed.

Lemma show_length n : n < U32 -> nlen (show 10 n) <= 11.
Proof.
  intros _. unfold show.
  assert (G : forall fuel base n acc, nlen (show_digits fuel base n acc) <= N.of_nat fuel + nlen acc).
  { induction fuel as [|f IH]; intros; cbn [show_digits]; [lia|].
    destruct (n0 / base =? 0); [rewrite nlen_cons; lia|].
    etransitivity; [apply IH|]. rewrite nlen_cons. lia. }
  etransitivity; [apply G|]. rewrite nlen_nil. lia.
Qed.

Lemma fmt_raw_fd_spec fd : fd < U32 ->
  c_string (fmt_raw_fd fd) = show 10 fd /\ terminated (fmt_raw_fd fd) /\ nlen (fmt_raw_fd fd) = 32.
Proof.
  intros H. pose proof (show_length fd H) as L. unfold fmt_raw_fd.
  rewrite (take_all 31) by lia.
  assert (E : take 32 (show 10 fd ++ repeat Byte.x00 32) =
              show 10 fd ++ Byte.x00 :: repeat Byte.x00 (31 - length (show 10 fd))).
  { rewrite take_app_ge by lia. f_equal.
    assert (R : forall n m, take n (repeat Byte.x00 m) = repeat Byte.x00 (Nat.min (N.to_nat n) m)).
    { intros n m. unfold take. generalize (N.to_nat n) as k. induction m as [|m IH]; intros [|k];
        cbn [firstn repeat Nat.min]; auto. now rewrite IH. }
    rewrite R. replace (Nat.min (N.to_nat (32 - nlen (show 10 fd))) 32)
      with (S (31 - length (show 10 fd)))%nat by (unfold nlen in *; lia). reflexivity. }
  rewrite E. split; [|split].
  - apply c_string_app. intros X. destruct (C41_numbers fd H) as (_ & _ & P & _).
    rewrite Forall_forall in P. destruct (P _ X) as [Z _]. now apply Z.
  - apply in_or_app. right. now left.
  - unfold nlen in *. rewrite app_length. cbn [length]. rewrite repeat_length. lia.
Qed.

Theorem C53_freebsd y target o flags :
  fd_ok (sys_open y) -> ~ In Byte.x00 target ->
  match fo_subtype o with Some s => ~ In Byte.x00 s | None => True end ->
  exists calls r, freebsd_mount y target o flags = Ret (calls, r) /\
  match sys_open y with
  | inr e => calls = [FOpen (txt "/dev/fuse") None] /\ r = inr e
  | inl fd =>
    exists iov,
      pairs iov = Some (freebsd_expected target fd o) /\ Forall terminated iov /\
      match sys_mount y with
      | None => calls = [FOpen (txt "/dev/fuse") (Some fd); FNmount iov flags] /\
                r = inl (FuseServerSocket_open fd) /\ f_still_open calls [] = [fd]
      | Some e => calls = [FOpen (txt "/dev/fuse") (Some fd); FNmount iov flags; FClose fd] /\
                  r = inr e /\ f_still_open calls [] = []
      end
  end.
Proof.
  intros F T S. unfold freebsd_mount. destruct (sys_open y) as [fd|e].
  2: { do 2 eexists. split; [reflexivity|]. now split. }
  assert (W : wrap32 fd = fd).
  { unfold wrap32, U32. apply N.mod_small. cbn in F. change (2 ^ 31) with 2147483648 in F. lia. }
  rewrite W. destruct (fmt_raw_fd_spec fd) as (R1 & R2 & _).
  { unfold U32. cbn in F. change (2 ^ 31) with 2147483648 in F. lia. }
  set (raw := fmt_raw_fd fd) in *. clearbody raw.
  assert (TM : forall s, terminated (s ++ [Byte.x00])) by (intros; apply in_or_app; right; now left).
  set (nul := [Byte.x00]) in *.
  destruct (fo_default_permissions o) eqn:D; destruct (fo_subtype o) as [s|] eqn:U; cbn -[txt c_string app N.add];
    destruct (sys_mount y); do 2 eexists; (split; [reflexivity|]);
    (eexists; split; [|split; [|repeat split; cbn; rewrite ?N.eqb_refl; reflexivity]]).
  all: try change (N.to_nat (10 + 2)) with 12%nat; try change (N.to_nat (8 + 2)) with 10%nat;
    try change (N.to_nat 10) with 10%nat; try change (Pos.to_nat 8) with 8%nat; cbn [firstn].
  all: try (match goal with |- Forall _ _ => idtac end;
    repeat first [apply Forall_nil | apply Forall_cons; [first [apply TM | exact R2 | now left]|]]).
  all: unfold freebsd_expected; rewrite D, U; cbn [pairs option_map]; rewrite R1; unfold nul;
    rewrite ?(c_string_app target []), ?(c_string_app s []) by auto; reflexivity.
Qed.

(** The only subtype refused on FreeBSD is the empty one; any other is passed
    as it is. *)
Theorem C53_subtype s :
  (FreebsdSubtype_new s = None <-> s = []) /\
  forall target fd p flags,
    fd < 2 ^ 31 -> ~ In Byte.x00 target -> ~ In Byte.x00 s ->
    exists calls iov,
      freebsd_mount {| sys_statx := inr 1; sys_uid := 0; sys_gid := 0; sys_open := inl fd;
                       sys_openat := inr 1; sys_mount := None |} target
        {| fo_default_permissions := p; fo_subtype := FreebsdSubtype_new s |} flags =
        Ret (calls ++ [FNmount iov flags], inl (FuseServerSocket_open fd)) /\
      forall l, pairs iov = Some l -> forall v, In (txt "subtype=", v) l <-> v = s /\ s <> [].
Proof.
  assert (N : FreebsdSubtype_new s = None <-> s = []) by (destruct s; cbn; split; congruence).
  split; [exact N|]. intros target fd p flags Fd T S.
  set (y := {| sys_statx := _ |}). set (o := {| fo_default_permissions := p |}).
  destruct (C53_freebsd y target o flags) as (calls & r & M & R); auto.
  { cbn [o fo_subtype]. destruct s; cbn; auto. }
  cbn [y sys_open sys_mount] in R. destruct R as (iov & P & _ & -> & -> & _).
  exists [FOpen (txt "/dev/fuse") (Some fd)], iov. split; [exact M|].
  rewrite P. intros l [= <-] v. unfold freebsd_expected. cbn [o fo_default_permissions fo_subtype].
  rewrite !in_app_iff. destruct s as [|c s]; cbn [FreebsdSubtype_new].
  - destruct p; cbn; intuition congruence.
  - destruct p; cbn -[txt]; split.
    all: try (intros [-> _]; auto 10).
    all: intros H; repeat (destruct H as [H|H]; try (exfalso; exact H);
      try (exfalso; assert (Q := f_equal fst H); vm_compute in Q; discriminate Q)).
    all: injection H as <-; split; [reflexivity|discriminate].
Qed.

(** ** Concrete cases *)

Definition demo_options : MountOptions :=
  {| mo_source := txt "src"; mo_type := txt "fuse"; mo_allow_other := true;
     mo_block_size := Some 4096; mo_default_permissions := true; mo_fd := None;
     mo_subtype := FuseSubtype_new (txt "x=y"); mo_group_id := None; mo_max_read := Some 131072;
     mo_root_mode := None; mo_user_id := Some 1000 |}.
Definition demo_system : system :=
  {| sys_statx := inl 16877; sys_uid := 5; sys_gid := 6; sys_open := inr 38;
     sys_openat := inl 7; sys_mount := Some 1 |}.
Definition demo_host : HostMountOptions :=
  {| hm_opts := demo_options; hm_dev_fuse := None; hm_flags := 6 |}.

Lemma demo_ok : options_ok demo_options /\ system_ok demo_system.
Proof.
  split; [|now repeat split].
  unfold options_ok. repeat match goal with |- _ /\ _ => split end; try exact I; try reflexivity.
  exists (txt "x=y"). split; [|reflexivity]. cbn. intuition discriminate.
Qed.

Example C42_recv_example :
  Socket_recv (FuseServerSocket_open 3) [ReadErr 4; ReadErr 2; ReadOk [Byte.x01]; ReadErr 4] =
  (Some (Message [Byte.x01]), [ReadErr 4]).
Proof. reflexivity. Qed.

Example C42_nothing_lost_example :
  fst (recv_many 9 (FuseServerSocket_open 3)
         [ReadErr 4; ReadOk [Byte.x01]; ReadErr 2; ReadOk [Byte.x02]; ReadErr 5; ReadErr 19]) =
  [Message [Byte.x01]; Message [Byte.x02]; RecvFails (RE_Other 5); RecvFails (RE_ConnectionClosed 19)].
Proof. reflexivity. Qed.

Example C42_shutdown_example : forallb transient [ReadErr 2; ReadErr 4] = true.
Proof. reflexivity. Qed.

Example C43_send_example :
  Forall possible [WriteErr 4; WriteOk 15; WriteOk 16] /\
  Socket_send 16 [WriteErr 4; WriteOk 15; WriteOk 16] = (Some (SendFails (SE_Other 5)), [WriteOk 16]) /\
  Socket_send 16 [WriteErr 4; WriteOk 16] = (Some SendOk, []) /\
  Socket_send 16 [WriteErr 2] = (Some (SendFails SE_NotFound), []).
Proof. split; [|now repeat split]. now repeat constructor. Qed.

Definition demo_text : bytes :=
  txt "allow_other,blksize=4096,default_permissions,max_read=131072,subtype=x=y,user_id=1000".

Example C41_fits_example :
  nlen demo_text = 85 /\
  mount_data demo_options (repeat Byte.x00 86) = Ret (Some (demo_text ++ [Byte.x00])) /\
  mount_data demo_options (repeat Byte.x00 85) = Ret None.
Proof. repeat split; vm_compute; reflexivity. Qed.

Example C41_numbers_example : show 10 131072 = txt "131072" /\ show 8 16877 = txt "40755".
Proof. split; vm_compute; reflexivity. Qed.

Example C41_default_example :
  mount_data MountOptions_new [Byte.xff] = Ret (Some [Byte.x00]) /\ mount_data MountOptions_new [] = Ret None.
Proof. split; vm_compute; reflexivity. Qed.

Example C41_kernel_example :
  options_ok demo_options /\
  kernel_options (demo_text ++ [Byte.x00]) =
  [(txt "allow_other", None); (txt "blksize", Some (txt "4096"));
   (txt "default_permissions", None); (txt "max_read", Some (txt "131072"));
   (txt "subtype", Some (txt "x=y")); (txt "user_id", Some (txt "1000"))].
Proof. split; [apply demo_ok|vm_compute; reflexivity]. Qed.

(** A comma in a subtype would add an option; the constructor refuses it. *)
Example C41_kernel_comma_example : FuseSubtype_new (txt "x,allow_other") = None.
Proof. reflexivity. Qed.

Definition demo_call : syscall :=
  CallMount (txt "src") (txt "/mnt") (txt "fuse") 6
    (txt "fd=7,allow_other,blksize=4096,default_permissions,group_id=6,max_read=131072,rootmode=40755,subtype=x=y,user_id=1000"
     ++ [Byte.x00]).

Example C44_mount_example :
  system_ok demo_system /\
  mount false demo_system (txt "/mnt") demo_host =
  Ret ([CallOpen (txt "/dev/fuse") (Some 7); demo_call; CallClose 7], inr 1) /\
  mount true demo_system (txt "/mnt") demo_host =
  Ret ([CallOpen (txt "/dev/fuse") None], inr 38).
Proof. split; [apply demo_ok|]. split; vm_compute; reflexivity. Qed.

Example C44_descriptors_example :
  still_open [CallOpen (txt "/dev/fuse") (Some 7); demo_call; CallClose 7] [] = [] /\
  still_open [CallOpen (txt "/dev/fuse") (Some 7); demo_call] [] = [7].
Proof. split; reflexivity. Qed.

Example C44_options_example :
  options_ok (hm_opts demo_host) /\
  match demo_call with CallMount _ _ _ _ data => kernel_options data | _ => [] end =
  [(txt "fd", Some (txt "7")); (txt "allow_other", None); (txt "blksize", Some (txt "4096"));
   (txt "default_permissions", None); (txt "group_id", Some (txt "6"));
   (txt "max_read", Some (txt "131072")); (txt "rootmode", Some (txt "40755"));
   (txt "subtype", Some (txt "x=y")); (txt "user_id", Some (txt "1000"))].
Proof. split; [apply demo_ok|vm_compute; reflexivity]. Qed.

Example C53_freebsd_example :
  exists iov,
    freebsd_mount {| sys_statx := inr 1; sys_uid := 0; sys_gid := 0; sys_open := inl 2147483647;
                     sys_openat := inr 1; sys_mount := None |} (txt "/mnt")
      {| fo_default_permissions := true; fo_subtype := FreebsdSubtype_new (txt "demo") |} 0 =
    Ret ([FOpen (txt "/dev/fuse") (Some 2147483647); FNmount iov 0],
         inl (FuseServerSocket_open 2147483647)) /\
    pairs iov = Some
      [(txt "fstype", txt "fusefs"); (txt "from", txt "/dev/fuse"); (txt "fspath", txt "/mnt");
       (txt "fd", txt "2147483647"); (txt "default_permissions", []); (txt "subtype=", txt "demo")].
Proof. eexists. split; [vm_compute; reflexivity|vm_compute; reflexivity]. Qed.

Print Assumptions C41_fits.
Print Assumptions C41_numbers.
Print Assumptions C41_kernel.
Print Assumptions C41_default.
Print Assumptions C42_recv.
Print Assumptions C42_nothing_lost.
Print Assumptions C42_shutdown.
Print Assumptions C42_cuse_refuted.
Print Assumptions C43_send.
Print Assumptions C44_mount.
Print Assumptions C44_descriptors.
Print Assumptions C44_options.
Example C53_subtype_example : FreebsdSubtype_new (txt "a,b") = Some (txt "a,b").
Proof. reflexivity. Qed.

Print Assumptions C53_freebsd.
Print Assumptions C53_subtype.
