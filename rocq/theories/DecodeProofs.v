(** Lemmas about the request decoder: what each cursor operation returns. *)

From Verif Require Import Base Kernel CoreModel DecodeModel.
From Coq Require Import List NArith Bool Lia.
From Coq Require Import ZifyBool ZifyNat ZifyN.
Import ListNotations.
Open Scope N_scope.

Arguments N.add : simpl never.
Arguments N.sub : simpl never.
Arguments N.mul : simpl never.
Arguments N.leb : simpl never.
Arguments N.ltb : simpl never.
Arguments N.eqb : simpl never.

(** [safe m P]: running [m] neither panics nor is undefined, and a returned
    value satisfies [P]. *)
Definition safe {A} (m : out A) (P : A -> Prop) : Prop :=
  match m with Ret a => P a | Fail _ => True | Panic => False | Ub => False end.

Lemma safe_bind {A B} (m : out A) (k : A -> out B) P :
  safe m (fun a => safe (k a) P) -> safe (bind m k) P.
Proof. destruct m; cbn; auto. Qed.

Lemma safe_ret {A} (a : A) (P : A -> Prop) : P a -> safe (Ret a) P.
Proof. auto. Qed.

Lemma safe_fail {A} e (P : A -> Prop) : safe (Fail e) P.
Proof. exact I. Qed.

Lemma safe_mono {A} (m : out A) (P Q : A -> Prop) :
  safe m P -> (forall a, P a -> Q a) -> safe m Q.
Proof. destruct m; cbn; auto. Qed.

Lemma bind_assoc {A B C} (m : out A) (k : A -> out B) (h : B -> out C) :
  bind (bind m k) h = bind m (fun a => bind (k a) h).
Proof. destruct m; reflexivity. Qed.

Lemma bind_ext_safe {A B} (m : out A) (k1 k2 : A -> out B) (P : A -> Prop) :
  safe m P -> (forall a, P a -> k1 a = k2 a) -> bind m k1 = bind m k2.
Proof. destruct m; cbn; auto. Qed.

Section Proofs.
Context {E : Endian}.

(** ** Reads *)
Lemma rd_ok w off raw :
  off + N.of_nat w <= nlen raw -> rd w off raw = Ret (fld w off raw).
Proof. intros. unfold rd. destruct (N.leb_spec (off + N.of_nat w) (nlen raw)); [easy|lia]. Qed.

Lemma rd32_ok off raw : off + 4 <= nlen raw -> rd32 off raw = Ret (u32_at off raw).
Proof. apply (rd_ok 4). Qed.
Lemma rd64_ok off raw : off + 8 <= nlen raw -> rd64 off raw = Ret (u64_at off raw).
Proof. apply (rd_ok 8). Qed.

Lemma mem_read_ok mem off len :
  off + len <= nlen mem -> mem_read mem off len = Ret (slice off len mem).
Proof. intros. unfold mem_read. destruct (N.leb_spec (off + len) (nlen mem)); [easy|lia]. Qed.

(** ** Request admission *)

(** The facts [Request_new] establishes. *)
Definition accepted (rq : Request) : Prop :=
  40 <= nlen (rq_mem rq) /\
  u64_at 8 (rq_mem rq) <> 0 /\
  u32_at 0 (rq_mem rq) <= nlen (rq_mem rq).

Lemma hdr_rd w off (mem : bytes) :
  off + N.of_nat w <= 40 -> 40 <= nlen mem ->
  rd w off (slice 0 40 mem) = Ret (fld w off mem).
Proof.
  intros. rewrite rd_ok by (rewrite nlen_slice; lia). now rewrite fld_slice by lia.
Qed.

Lemma hdr_rd32 off mem :
  off + 4 <= 40 -> 40 <= nlen mem -> rd32 off (slice 0 40 mem) = Ret (u32_at off mem).
Proof. apply (hdr_rd 4). Qed.
Lemma hdr_rd64 off mem :
  off + 8 <= 40 -> 40 <= nlen mem -> rd64 off (slice 0 40 mem) = Ret (u64_at off mem).
Proof. apply (hdr_rd 8). Qed.

Lemma Request_new_eq buf :
  Request_new buf =
    if nlen buf <? 40 then Fail EUnexpectedEof
    else if u64_at 8 buf =? 0 then Fail EInvalidRequestId
    else if N.min (nlen buf) u32_max <? u32_at 0 buf then Fail EUnexpectedEof
    else Ret {| rq_mem := buf |}.
Proof.
  unfold Request_new, IN_HEADER_SIZE.
  destruct (N.ltb_spec (nlen buf) 40); [reflexivity|].
  rewrite mem_read_ok by lia. cbn [bind].
  unfold hdr_unique. rewrite hdr_rd64 by lia. cbn [bind].
  destruct (u64_at 8 buf =? 0); [reflexivity|].
  unfold hdr_len. rewrite hdr_rd32 by lia. cbn [bind].
  replace (if u32_max <? nlen buf then u32_max else nlen buf) with (N.min (nlen buf) u32_max)
    by (destruct (N.ltb_spec u32_max (nlen buf)); lia).
  reflexivity.
Qed.

Lemma Request_new_accepted buf rq :
  Request_new buf = Ret rq -> rq = {| rq_mem := buf |} /\ accepted rq.
Proof.
  rewrite Request_new_eq.
  destruct (N.ltb_spec (nlen buf) 40); [easy|].
  destruct (N.eqb_spec (u64_at 8 buf) 0); [easy|].
  destruct (N.ltb_spec (N.min (nlen buf) u32_max) (u32_at 0 buf)); [easy|].
  intros [= <-]. unfold accepted; cbn. repeat split; auto. lia.
Qed.

(** ** The decoder cursor *)

Definition wf (d : decoder) : Prop :=
  40 <= nlen (d_mem d) /\ d_header_len d <= nlen (d_mem d) /\ d_header_len d < U32 /\
  40 <= d_consumed d /\ d_consumed d <= N.max 40 (d_header_len d).

Lemma decoder_new_eq rq :
  accepted rq ->
  decoder_new rq = Ret {| d_mem := rq_mem rq; d_header_len := u32_at 0 (rq_mem rq);
                          d_consumed := 40 |}.
Proof.
  intros (H1 & H2 & H3). unfold decoder_new, as_bytes, raw_header, hdr_len, IN_HEADER_SIZE.
  rewrite mem_read_ok by lia. cbn [bind]. rewrite hdr_rd32 by lia. cbn [bind].
  now rewrite mem_read_ok by lia.
Qed.

Lemma as_bytes_eq rq :
  accepted rq -> as_bytes rq = Ret (take (u32_at 0 (rq_mem rq)) (rq_mem rq)).
Proof.
  intros (H1 & H2 & H3). unfold as_bytes, raw_header, hdr_len, IN_HEADER_SIZE.
  rewrite mem_read_ok by lia. cbn [bind]. rewrite hdr_rd32 by lia. cbn [bind].
  rewrite mem_read_ok by lia. unfold slice. now rewrite drop_0.
Qed.

Lemma decoder_new_wf rq :
  accepted rq ->
  wf {| d_mem := rq_mem rq; d_header_len := u32_at 0 (rq_mem rq); d_consumed := 40 |}.
Proof.
  intros (H1 & H2 & H3). unfold wf; cbn. pose proof (u32_bound 0 (rq_mem rq)). lia.
Qed.

Lemma d_header_eq d : wf d -> d_header d = Ret (slice 0 40 (d_mem d)).
Proof. intros (H & _). unfold d_header, IN_HEADER_SIZE. now rewrite mem_read_ok by lia. Qed.

Lemma expect_opcode_eq d op :
  wf d -> expect_opcode d op =
    if u32_at 4 (d_mem d) =? op then Ret tt else Fail EOpcodeMismatch.
Proof.
  intros W. unfold expect_opcode. rewrite d_header_eq by auto. cbn [bind].
  unfold hdr_opcode. destruct W as (H & _). rewrite hdr_rd32 by lia. cbn [bind].
  destruct (u32_at 4 (d_mem d) =? op); reflexivity.
Qed.

Lemma consume_eq d n :
  wf d -> consume d n =
    if d_header_len d <? d_consumed d + n then Fail EUnexpectedEof
    else Ret (d_consumed d + n).
Proof.
  intros W. unfold consume, wf in *.
  destruct (N.ltb_spec u64_max (d_consumed d + n)).
  - destruct (N.ltb_spec (d_header_len d) (d_consumed d + n)); [easy|].
    unfold u64_max, U32 in *. lia.
  - reflexivity.
Qed.

Lemma d_read_ok d off len :
  wf d -> off + len <= d_header_len d -> d_read d off len = Ret (slice off len (d_mem d)).
Proof.
  intros W H. unfold d_read. destruct (N.leb_spec (off + len) (d_header_len d)); [|lia].
  apply mem_read_ok. unfold wf in W. lia.
Qed.

Lemma d_cast_ok align d off len :
  wf d -> off mod align = 0 -> off + len <= d_header_len d ->
  d_cast align d off len = Ret (slice off len (d_mem d)).
Proof. intros W A H. unfold d_cast. rewrite A. now apply d_read_ok. Qed.

Lemma next_bytes_eq n d :
  wf d -> next_bytes n d =
    if d_header_len d <? d_consumed d + n then Fail EUnexpectedEof
    else Ret (slice (d_consumed d) n (d_mem d), with_consumed d (d_consumed d + n)).
Proof.
  intros W. unfold next_bytes. rewrite consume_eq by auto.
  destruct (N.ltb_spec (d_header_len d) (d_consumed d + n)); [easy|].
  cbn [bind]. now rewrite d_read_ok by (auto; lia).
Qed.

Lemma next_sized_eq n d :
  wf d -> d_consumed d mod 8 = 0 -> next_sized n d =
    if d_header_len d <? d_consumed d + n then Fail EUnexpectedEof
    else Ret (slice (d_consumed d) n (d_mem d), with_consumed d (d_consumed d + n)).
Proof.
  intros W A. unfold next_sized, next_typed. rewrite consume_eq by auto.
  destruct (N.ltb_spec (d_header_len d) (d_consumed d + n)); [easy|].
  cbn [bind]. now rewrite d_cast_ok by (auto; lia).
Qed.

Lemma peek_sized_eq n d :
  wf d -> d_consumed d mod 8 = 0 -> peek_sized n d =
    if d_header_len d <? d_consumed d + n then Fail EUnexpectedEof
    else Ret (slice (d_consumed d) n (d_mem d)).
Proof.
  intros W A. unfold peek_sized. rewrite consume_eq by auto.
  destruct (N.ltb_spec (d_header_len d) (d_consumed d + n)); [easy|].
  cbn [bind]. now rewrite d_cast_ok by (auto; lia).
Qed.

(** ** Names *)

(** A valid file name: what the API promises about every node name. *)
Definition name_ok (b : bytes) : Prop := b <> [] /\ ~ In x00 b /\ ~ In x2f b.

Lemma slice_1 off (mem : bytes) b r : drop off mem = b :: r -> slice off 1 mem = [b].
Proof. intros H. unfold slice. now rewrite H. Qed.

Lemma drop_S off (mem : bytes) b r : drop off mem = b :: r -> drop (off + 1) mem = r.
Proof. intros H. rewrite <- drop_drop, H. reflexivity. Qed.

Lemma slice_snoc (off len : N) (mem : bytes) b r :
  drop (off + len) mem = b :: r -> slice off (len + 1) mem = slice off len mem ++ [b].
Proof.
  intros H. unfold slice.
  rewrite <- (take_drop len (drop off mem)) at 1. rewrite drop_drop, H.
  assert (L : len <= nlen (drop off mem)).
  { destruct (N.le_gt_cases len (nlen (drop off mem))); auto.
    exfalso. rewrite drop_all in H by (rewrite nlen_drop in *; lia). discriminate. }
  rewrite take_app_ge by (rewrite nlen_take; lia).
  rewrite nlen_take. replace (len + 1 - N.min len (nlen (drop off mem))) with 1 by lia.
  reflexivity.
Qed.

Lemma drop_nonempty off (mem : bytes) :
  off < nlen mem -> exists b r, drop off mem = b :: r.
Proof.
  intros H. destruct (drop off mem) as [|b r] eqn:D; eauto.
  exfalso. assert (nlen (drop off mem) = 0) by (now rewrite D).
  rewrite nlen_drop in *. lia.
Qed.

(** What a terminated string found by the decoder satisfies: its bytes and a
    NUL lie in the message from the old cursor to the new one. *)
Definition terminated (d d' : decoder) (s : bytes) : Prop :=
  d' = with_consumed d (d_consumed d + nlen s + 1) /\
  d_consumed d + nlen s + 1 <= d_header_len d /\
  slice (d_consumed d) (nlen s + 1) (d_mem d) = s ++ [x00].

Lemma node_name_loop_safe fuel d off :
  wf d -> d_consumed d <= off -> off + N.of_nat fuel <= d_header_len d ->
  ~ In x00 (slice (d_consumed d) (off - d_consumed d) (d_mem d)) ->
  ~ In x2f (slice (d_consumed d) (off - d_consumed d) (d_mem d)) ->
  safe (node_name_loop fuel d off) (fun '(s, d') => name_ok s /\ terminated d d' s).
Proof.
  revert off; induction fuel as [|f IH]; intros off W H1 H2 Hz Hs; cbn [node_name_loop].
  - exact I.
  - assert (W' := W). destruct W' as (W1 & W2 & W3 & W4 & W5).
    destruct (drop_nonempty off (d_mem d)) as (b & r & D); [lia|].
    rewrite d_read_ok by (auto; lia). cbn [bind]. rewrite (slice_1 _ _ _ _ D). cbn [hd].
    destruct (Byte.eqb b x2f) eqn:Eb; [exact I|]. apply byte_eqb_neq in Eb.
    destruct (Byte.eqb b x00) eqn:Ez; cbn [negb].
    + apply byte_eqb_eq in Ez. subst b.
      destruct (N.eqb_spec (d_consumed d) off); [exact I|].
      rewrite d_read_ok by (auto; lia). cbn [bind safe].
      assert (L : nlen (slice (d_consumed d) (off - d_consumed d) (d_mem d)) = off - d_consumed d)
        by (rewrite nlen_slice; lia).
      split.
      * repeat split; auto. intros C. rewrite C in L. cbn in L. lia.
      * unfold terminated. rewrite L. repeat split.
        -- f_equal. lia.
        -- lia.
        -- apply (slice_snoc _ _ _ _ r). replace (_ + _) with off by lia. exact D.
    + apply byte_eqb_neq in Ez. apply IH; auto; try lia.
      * replace (off + 1 - d_consumed d) with (off - d_consumed d + 1) by lia.
        rewrite (slice_snoc _ _ _ b r) by (replace (_ + _) with off by lia; exact D).
        rewrite in_app_iff. cbn. intuition.
      * replace (off + 1 - d_consumed d) with (off - d_consumed d + 1) by lia.
        rewrite (slice_snoc _ _ _ b r) by (replace (_ + _) with off by lia; exact D).
        rewrite in_app_iff. cbn. intuition.
Qed.

Lemma slice_len0 {A} off (l : list A) : slice off 0 l = [].
Proof. reflexivity. Qed.

Lemma next_node_name_safe d :
  wf d -> safe (next_node_name d) (fun '(s, d') => name_ok s /\ terminated d d' s).
Proof.
  intros W. unfold next_node_name.
  destruct (N.le_gt_cases (d_header_len d) (d_consumed d)).
  - replace (d_header_len d - d_consumed d) with 0 by lia. exact I.
  - apply node_name_loop_safe; auto; try lia;
      rewrite N.sub_diag, slice_len0; intros [].
Qed.

Lemma cstr_loop_safe fuel d off :
  wf d -> d_consumed d <= off -> off + N.of_nat fuel <= d_header_len d ->
  ~ In x00 (slice (d_consumed d) (off - d_consumed d) (d_mem d)) ->
  safe (cstr_loop fuel d off) (fun '(s, d') =>
    ~ In x00 s /\
    (s <> [] /\ terminated d d' s \/
     s = [] /\ d' = d /\ d_consumed d < d_header_len d /\
     slice (d_consumed d) 1 (d_mem d) = [x00])).
Proof.
  revert off; induction fuel as [|f IH]; intros off W H1 H2 Hz; cbn [cstr_loop].
  - exact I.
  - assert (W' := W). destruct W' as (W1 & W2 & W3 & W4 & W5).
    destruct (drop_nonempty off (d_mem d)) as (b & r & D); [lia|].
    rewrite d_read_ok by (auto; lia). cbn [bind]. rewrite (slice_1 _ _ _ _ D). cbn [hd].
    destruct (Byte.eqb b x00) eqn:Ez; cbn [negb].
    + apply byte_eqb_eq in Ez. subst b.
      destruct (N.eqb_spec (d_consumed d) off) as [Eo|No].
      * cbn. split; auto. right. repeat split; auto; try lia. rewrite Eo. now apply slice_1 with r.
      * rewrite d_read_ok by (auto; lia). cbn [bind safe].
        assert (L : nlen (slice (d_consumed d) (off - d_consumed d) (d_mem d)) = off - d_consumed d)
          by (rewrite nlen_slice; lia).
        replace (off + 1 - d_consumed d) with (off - d_consumed d + 1) by lia.
        rewrite (slice_snoc _ _ _ x00 r) by (replace (_ + _) with off by lia; exact D).
        rewrite take_app by (rewrite nlen_app, L, nlen_cons, nlen_nil; lia).
        split; auto. left. split.
        -- intros C. rewrite C in L. cbn in L. lia.
        -- unfold terminated. rewrite L. repeat split.
           ++ f_equal. lia.
           ++ lia.
           ++ apply (slice_snoc _ _ _ _ r). replace (_ + _) with off by lia. exact D.
    + apply byte_eqb_neq in Ez. apply IH; auto; try lia.
      replace (off + 1 - d_consumed d) with (off - d_consumed d + 1) by lia.
      rewrite (slice_snoc _ _ _ b r) by (replace (_ + _) with off by lia; exact D).
      rewrite in_app_iff. cbn. intuition.
Qed.

Lemma next_cstr_safe d :
  wf d -> safe (next_cstr d) (fun '(s, d') =>
    ~ In x00 s /\
    (s <> [] /\ terminated d d' s \/
     s = [] /\ d' = d /\ d_consumed d < d_header_len d /\
     slice (d_consumed d) 1 (d_mem d) = [x00])).
Proof.
  intros W. unfold next_cstr.
  destruct (N.le_gt_cases (d_header_len d) (d_consumed d)).
  - replace (d_header_len d - d_consumed d) with 0 by lia. exact I.
  - apply cstr_loop_safe; auto; try lia; rewrite N.sub_diag, slice_len0; intros [].
Qed.

(** ** Errors

    Which error a scan for a string can report. *)
Lemma node_name_loop_err fuel d off e :
  node_name_loop fuel d off = Fail e ->
  e = EUnexpectedEof \/ e = ENodeName NameEmpty \/ e = ENodeName NameContainsSlash.
Proof.
  revert off; induction fuel as [|f IH]; intros off; cbn [node_name_loop].
  - intros [= <-]. auto.
  - unfold d_read, mem_read. repeat match goal with
    | |- context [if ?b then _ else _] => destruct b; cbn [bind]
    end; try congruence; try (intros [= <-]; auto); eauto.
Qed.

(** ** Running the decoder over a known message

    [ahead d l]: the bytes of the message in front of the cursor are the
    beginning of [l] (all of it if the message is long enough). *)
Definition ahead (d : decoder) (l : bytes) : Prop :=
  let n := d_header_len d - d_consumed d in
  n <= nlen l /\ take n (drop (d_consumed d) (d_mem d)) = take n l.

Lemma ahead_slice d chunk post :
  wf d -> ahead d (chunk ++ post) -> d_consumed d + nlen chunk <= d_header_len d ->
  slice (d_consumed d) (nlen chunk) (d_mem d) = chunk /\
  ahead (with_consumed d (d_consumed d + nlen chunk)) post.
Proof.
  intros (W1 & W2 & W3 & W4 & W5) (A1 & A2) H.
  set (n := d_header_len d - d_consumed d) in *.
  assert (T : take (nlen chunk) (take n (drop (d_consumed d) (d_mem d))) =
              take (nlen chunk) (take n (chunk ++ post))) by (now rewrite A2).
  rewrite !take_take in T. replace (N.min (nlen chunk) n) with (nlen chunk) in T by lia.
  rewrite take_app in T by reflexivity.
  split; [exact T|].
  unfold ahead; cbn. rewrite nlen_app in A1.
  replace (d_header_len d - (d_consumed d + nlen chunk)) with (n - nlen chunk) by lia.
  split; [lia|].
  assert (D : drop (nlen chunk) (take n (drop (d_consumed d) (d_mem d))) =
              drop (nlen chunk) (take n (chunk ++ post))) by (now rewrite A2).
  rewrite !drop_take, drop_drop, drop_app in D by reflexivity. exact D.
Qed.

Lemma next_bytes_ahead n d chunk post :
  wf d -> ahead d (chunk ++ post) -> nlen chunk = n ->
  next_bytes n d =
    (if d_header_len d <? d_consumed d + n then Fail EUnexpectedEof
     else Ret (chunk, with_consumed d (d_consumed d + n))) /\
  (d_consumed d + n <= d_header_len d ->
   wf (with_consumed d (d_consumed d + n)) /\
   ahead (with_consumed d (d_consumed d + n)) post).
Proof.
  intros W A <-. rewrite next_bytes_eq by auto.
  destruct (N.ltb_spec (d_header_len d) (d_consumed d + nlen chunk)).
  - split; auto. lia.
  - destruct (ahead_slice d chunk post) as [S A']; auto. rewrite S. repeat split; auto; cbn;
      unfold wf in W; try lia; apply A'.
Qed.

Lemma next_sized_ahead n d chunk post :
  wf d -> d_consumed d mod 8 = 0 -> ahead d (chunk ++ post) -> nlen chunk = n ->
  next_sized n d =
    (if d_header_len d <? d_consumed d + n then Fail EUnexpectedEof
     else Ret (chunk, with_consumed d (d_consumed d + n))) /\
  (d_consumed d + n <= d_header_len d ->
   wf (with_consumed d (d_consumed d + n)) /\
   ahead (with_consumed d (d_consumed d + n)) post).
Proof.
  intros W M A L. destruct (next_bytes_ahead n d chunk post W A L) as [H1 H2]. split; auto.
  rewrite <- H1, next_sized_eq by auto. symmetry. now apply next_bytes_eq.
Qed.

Lemma peek_sized_ahead n d chunk post :
  wf d -> d_consumed d mod 8 = 0 -> ahead d (chunk ++ post) -> nlen chunk = n ->
  peek_sized n d =
    (if d_header_len d <? d_consumed d + n then Fail EUnexpectedEof else Ret chunk).
Proof.
  intros W M A <-. rewrite peek_sized_eq by auto.
  destruct (N.ltb_spec (d_header_len d) (d_consumed d + nlen chunk)); auto.
  destruct (ahead_slice d chunk post) as [S A']; auto. now rewrite S.
Qed.

(** A byte of the message in front of the cursor. *)
Lemma ahead_byte d (pre : bytes) b post :
  wf d -> ahead d (pre ++ b :: post) -> d_consumed d + nlen pre + 1 <= d_header_len d ->
  d_read d (d_consumed d + nlen pre) 1 = Ret [b].
Proof.
  intros W A H. rewrite d_read_ok by (auto; lia). f_equal.
  assert (A2 : ahead d ((pre ++ [b]) ++ post)) by (rewrite <- app_assoc; exact A).
  destruct (ahead_slice d (pre ++ [b]) post) as [S _]; auto.
  - rewrite nlen_app, nlen_cons, nlen_nil. lia.
  - rewrite nlen_app, nlen_cons, nlen_nil in S. replace (nlen pre + (1 + 0)) with (nlen pre + 1) in S by lia.
    destruct (drop_nonempty (d_consumed d + nlen pre) (d_mem d)) as (x & r & D).
    { unfold wf in W. lia. }
    rewrite (slice_snoc _ _ _ x r D) in S. apply app_inj_tail in S as [_ <-].
    now apply slice_1 with r.
Qed.

Lemma node_name_loop_ahead (todo : bytes) : forall done d post fuel,
  wf d -> ahead d (done ++ todo ++ x00 :: post) ->
  ~ In x00 (done ++ todo) -> ~ In x2f (done ++ todo) -> done ++ todo <> [] ->
  d_header_len d = d_consumed d + nlen done + N.of_nat fuel ->
  node_name_loop fuel d (d_consumed d + nlen done) =
    (if d_header_len d <? d_consumed d + nlen (done ++ todo) + 1 then Fail EUnexpectedEof
     else Ret (done ++ todo, with_consumed d (d_consumed d + nlen (done ++ todo) + 1))).
Proof.
  induction todo as [|b r IH]; intros done d post fuel W A Hz Hs He Hf.
  - rewrite app_nil_r in *. cbn [app] in A.
    destruct fuel as [|f]; cbn [node_name_loop].
    + destruct (N.ltb_spec (d_header_len d) (d_consumed d + nlen done + 1)); [easy|lia].
    + rewrite (ahead_byte d done x00 post) by (auto; lia). cbn [bind hd].
      change (Byte.eqb x00 x2f) with false. change (Byte.eqb x00 x00) with true. cbn [negb].
      destruct (N.ltb_spec (d_header_len d) (d_consumed d + nlen done + 1)); [lia|].
      destruct (N.eqb_spec (d_consumed d) (d_consumed d + nlen done)).
      { exfalso. apply He. apply nlen_0. lia. }
      destruct (ahead_slice d done (x00 :: post)) as [S _]; auto; [lia|].
      rewrite d_read_ok by (auto; lia). cbn [bind].
      replace (d_consumed d + nlen done - d_consumed d) with (nlen done) by lia.
      now rewrite S.
  - destruct fuel as [|f]; cbn [node_name_loop].
    + rewrite nlen_app, nlen_cons.
      destruct (N.ltb_spec (d_header_len d) (d_consumed d + (nlen done + (1 + nlen r)) + 1)); [easy|lia].
    + cbn [app] in A. rewrite (ahead_byte d done b (r ++ x00 :: post)) by (auto; lia). cbn [bind hd].
      assert (Nb : b <> x00 /\ b <> x2f).
      { rewrite in_app_iff in *. cbn in *. split; intros ->; intuition. }
      destruct Nb as [Nb1 Nb2].
      apply byte_eqb_neq in Nb1, Nb2. rewrite Nb1, Nb2. cbn [negb].
      specialize (IH (done ++ [b]) d post f W).
      rewrite <- !app_assoc in IH. cbn [app] in IH.
      specialize (IH A Hz Hs He).
      rewrite <- IH; [f_equal|]; rewrite nlen_app, nlen_cons, nlen_nil; lia.
Qed.

Lemma next_node_name_ahead d name post :
  wf d -> ahead d ((name ++ [x00]) ++ post) -> name_ok name ->
  next_node_name d =
    (if d_header_len d <? d_consumed d + (nlen name + 1) then Fail EUnexpectedEof
     else Ret (name, with_consumed d (d_consumed d + (nlen name + 1)))) /\
  (d_consumed d + (nlen name + 1) <= d_header_len d ->
   wf (with_consumed d (d_consumed d + (nlen name + 1))) /\
   ahead (with_consumed d (d_consumed d + (nlen name + 1))) post).
Proof.
  intros W A (N1 & N2 & N3). split.
  - unfold next_node_name.
    destruct (N.le_gt_cases (d_header_len d) (d_consumed d)).
    + replace (d_header_len d - d_consumed d) with 0 by lia. cbn.
      destruct (N.ltb_spec (d_header_len d) (d_consumed d + (nlen name + 1))); [easy|lia].
    + rewrite <- app_assoc in A. cbn [app] in A.
      pose proof (node_name_loop_ahead name [] d post (N.to_nat (d_header_len d - d_consumed d)))
        as L. cbn [app] in L. rewrite nlen_nil, N.add_0_r in L.
      rewrite L by (auto; lia). now rewrite !N.add_assoc.
  - intros H. pose proof (ahead_slice d (name ++ [x00]) post W A) as S.
    rewrite nlen_app, nlen_cons, nlen_nil in S. change (1 + 0) with 1 in S.
    destruct (S H) as [_ A']. split; auto. unfold wf in *; cbn. lia.
Qed.

Lemma cstr_loop_ahead (todo : bytes) : forall done d post fuel,
  wf d -> ahead d (done ++ todo ++ x00 :: post) ->
  ~ In x00 (done ++ todo) ->
  d_header_len d = d_consumed d + nlen done + N.of_nat fuel ->
  cstr_loop fuel d (d_consumed d + nlen done) =
    (if d_header_len d <? d_consumed d + nlen (done ++ todo) + 1 then Fail EUnexpectedEof
     else Ret (done ++ todo,
               match done ++ todo with [] => d
               | _ => with_consumed d (d_consumed d + nlen (done ++ todo) + 1) end)).
Proof.
  induction todo as [|b r IH]; intros done d post fuel W A Hz Hf.
  - rewrite app_nil_r in *. cbn [app] in A.
    destruct fuel as [|f]; cbn [cstr_loop].
    + destruct (N.ltb_spec (d_header_len d) (d_consumed d + nlen done + 1)); [easy|lia].
    + rewrite (ahead_byte d done x00 post) by (auto; lia). cbn [bind hd].
      change (Byte.eqb x00 x00) with true. cbn [negb].
      destruct (N.ltb_spec (d_header_len d) (d_consumed d + nlen done + 1)); [lia|].
      destruct (N.eqb_spec (d_consumed d) (d_consumed d + nlen done)).
      { assert (done = []) by (apply nlen_0; lia). now subst. }
      assert (A2 : ahead d ((done ++ [x00]) ++ post)) by (rewrite <- app_assoc; exact A).
      destruct (ahead_slice d (done ++ [x00]) post) as [S _]; auto.
      { rewrite nlen_app, nlen_cons, nlen_nil. lia. }
      rewrite nlen_app, nlen_cons, nlen_nil in S.
      rewrite d_read_ok by (auto; lia). cbn [bind].
      replace (d_consumed d + nlen done + 1 - d_consumed d) with (nlen done + (1 + 0)) by lia.
      rewrite S. rewrite take_app by (rewrite nlen_app, nlen_cons, nlen_nil; lia).
      destruct done; [|reflexivity]. rewrite nlen_nil in *. lia.
  - destruct fuel as [|f]; cbn [cstr_loop].
    + rewrite nlen_app, nlen_cons.
      destruct (N.ltb_spec (d_header_len d) (d_consumed d + (nlen done + (1 + nlen r)) + 1)); [easy|lia].
    + cbn [app] in A. rewrite (ahead_byte d done b (r ++ x00 :: post)) by (auto; lia). cbn [bind hd].
      assert (Nb1 : b <> x00).
      { rewrite in_app_iff in *. cbn in *. intros ->; intuition. }
      apply byte_eqb_neq in Nb1. rewrite Nb1. cbn [negb].
      specialize (IH (done ++ [b]) d post f W).
      rewrite <- !app_assoc in IH. cbn [app] in IH.
      specialize (IH A Hz).
      rewrite <- IH; [f_equal|]; rewrite nlen_app, nlen_cons, nlen_nil; lia.
Qed.

Lemma next_cstr_loop_eq d s post :
  wf d -> ahead d ((s ++ [x00]) ++ post) -> ~ In x00 s ->
  next_cstr d =
    (if d_header_len d <? d_consumed d + (nlen s + 1) then Fail EUnexpectedEof
     else Ret (s, match s with [] => d
                  | _ => with_consumed d (d_consumed d + (nlen s + 1)) end)).
Proof.
  intros W A H0. unfold next_cstr.
  destruct (N.le_gt_cases (d_header_len d) (d_consumed d)).
  - replace (d_header_len d - d_consumed d) with 0 by lia. cbn.
    destruct (N.ltb_spec (d_header_len d) (d_consumed d + (nlen s + 1))); [easy|lia].
  - rewrite <- app_assoc in A. cbn [app] in A.
    pose proof (cstr_loop_ahead s [] d post (N.to_nat (d_header_len d - d_consumed d)))
      as L. cbn [app] in L. rewrite nlen_nil, N.add_0_r in L.
    rewrite L by (auto; lia). now rewrite !N.add_assoc.
Qed.

Lemma next_cstr_ahead d s post :
  wf d -> ahead d ((s ++ [x00]) ++ post) -> ~ In x00 s -> s <> [] ->
  next_cstr d =
    (if d_header_len d <? d_consumed d + (nlen s + 1) then Fail EUnexpectedEof
     else Ret (s, with_consumed d (d_consumed d + (nlen s + 1)))) /\
  (d_consumed d + (nlen s + 1) <= d_header_len d ->
   wf (with_consumed d (d_consumed d + (nlen s + 1))) /\
   ahead (with_consumed d (d_consumed d + (nlen s + 1))) post).
Proof.
  intros W A H0 Hne. split.
  - rewrite (next_cstr_loop_eq d s post) by auto. destruct s; [easy|reflexivity].
  - intros H. pose proof (ahead_slice d (s ++ [x00]) post W A) as S.
    rewrite nlen_app, nlen_cons, nlen_nil in S. change (1 + 0) with 1 in S.
    destruct (S H) as [_ A']. split; auto. unfold wf in *; cbn. lia.
Qed.

(** ** Independence from the bytes after the message *)

(** The same decoder over only the first [max 40 header_len] bytes. *)
Definition msg_len (len : N) : N := N.max 40 len.
Definition cut (d : decoder) : decoder :=
  {| d_mem := take (msg_len (d_header_len d)) (d_mem d);
     d_header_len := d_header_len d; d_consumed := d_consumed d |}.
Definition cut_rq (rq : Request) : Request :=
  {| rq_mem := take (msg_len (u32_at 0 (rq_mem rq))) (rq_mem rq) |}.

Lemma cut_wf d : wf d -> wf (cut d).
Proof. unfold wf, cut, msg_len; cbn. rewrite nlen_take. lia. Qed.

Lemma d_header_cut d : wf d -> d_header (cut d) = d_header d.
Proof.
  intros W. rewrite !d_header_eq by auto using cut_wf. f_equal. cbn [d_mem cut].
  apply slice_take. unfold msg_len. lia.
Qed.

Lemma d_read_cut d off len : wf d -> d_read (cut d) off len = d_read d off len.
Proof.
  intros W. unfold d_read, mem_read; cbn.
  destruct (N.leb_spec (off + len) (d_header_len d)); auto.
  unfold wf in W. rewrite nlen_take. unfold msg_len.
  rewrite slice_take by lia.
  destruct (N.leb_spec (off + len) (nlen (d_mem d)));
  destruct (N.leb_spec (off + len) (N.min (N.max 40 (d_header_len d)) (nlen (d_mem d)))); auto; lia.
Qed.
Lemma d_cast_cut align d off len : wf d -> d_cast align (cut d) off len = d_cast align d off len.
Proof. intros W. unfold d_cast. now rewrite d_read_cut by auto. Qed.

Lemma expect_opcode_cut d op : wf d -> expect_opcode (cut d) op = expect_opcode d op.
Proof. intros. unfold expect_opcode. now rewrite d_header_cut. Qed.

Lemma next_bytes_cut n d :
  wf d -> next_bytes n (cut d) = '(b, d') <- next_bytes n d ;; Ret (b, cut d').
Proof.
  intros. unfold next_bytes. change (consume (cut d) n) with (consume d n).
  destruct (consume d n); cbn [bind]; auto. rewrite d_read_cut by auto. cbn [d_consumed cut].
  destruct (d_read d (d_consumed d) n); reflexivity.
Qed.
Lemma next_sized_cut n d :
  wf d -> next_sized n (cut d) = '(b, d') <- next_sized n d ;; Ret (b, cut d').
Proof.
  intros. unfold next_sized, next_typed. change (consume (cut d) n) with (consume d n).
  destruct (consume d n); cbn [bind]; auto. rewrite d_cast_cut by auto. cbn [d_consumed cut].
  destruct (d_cast 8 d (d_consumed d) n); reflexivity.
Qed.
Lemma peek_sized_cut n d : wf d -> peek_sized n (cut d) = peek_sized n d.
Proof.
  intros. unfold peek_sized. change (consume (cut d) n) with (consume d n).
  destruct (consume d n); cbn [bind]; auto. now rewrite d_cast_cut by auto.
Qed.

Lemma node_name_loop_cut fuel d off :
  wf d -> node_name_loop fuel (cut d) off =
          '(b, d') <- node_name_loop fuel d off ;; Ret (b, cut d').
Proof.
  intros W. revert off; induction fuel as [|f IH]; intros; cbn [node_name_loop]; auto.
  rewrite d_read_cut by auto. destruct (d_read d off 1); cbn [bind]; auto.
  destruct (Byte.eqb (hd x00 a) x2f); auto.
  destruct (Byte.eqb (hd x00 a) x00); cbn [negb]; auto.
  cbn [d_consumed cut]. destruct (d_consumed d =? off); auto.
  rewrite d_read_cut by auto. destruct (d_read d (d_consumed d) (off - d_consumed d)); auto.
Qed.
Lemma next_node_name_cut d :
  wf d -> next_node_name (cut d) = '(b, d') <- next_node_name d ;; Ret (b, cut d').
Proof. intros. unfold next_node_name. now apply node_name_loop_cut. Qed.

Lemma cstr_loop_cut fuel d off :
  wf d -> cstr_loop fuel (cut d) off =
          '(b, d') <- cstr_loop fuel d off ;; Ret (b, cut d').
Proof.
  intros W. revert off; induction fuel as [|f IH]; intros; cbn [cstr_loop]; auto.
  rewrite d_read_cut by auto. destruct (d_read d off 1); cbn [bind]; auto.
  destruct (Byte.eqb (hd x00 a) x00); cbn [negb]; auto.
  cbn [d_consumed cut]. destruct (d_consumed d =? off); auto.
  rewrite d_read_cut by auto. destruct (d_read d (d_consumed d) (off + 1 - d_consumed d)); auto.
Qed.
Lemma next_cstr_cut d :
  wf d -> next_cstr (cut d) = '(b, d') <- next_cstr d ;; Ret (b, cut d').
Proof. intros. unfold next_cstr. now apply cstr_loop_cut. Qed.

Lemma u32_take_hdr off n mem : off + 4 <= 40 -> u32_at off (take (msg_len n) mem) = u32_at off mem.
Proof. intros. apply (fld_take 4). unfold msg_len. lia. Qed.
Lemma u64_take_hdr off n mem : off + 8 <= 40 -> u64_at off (take (msg_len n) mem) = u64_at off mem.
Proof. intros. apply (fld_take 8). unfold msg_len. lia. Qed.

Lemma cut_rq_accepted rq : accepted rq -> accepted (cut_rq rq).
Proof.
  intros (H1 & H2 & H3). unfold accepted, cut_rq; cbn.
  rewrite nlen_take, u32_take_hdr, u64_take_hdr by lia. unfold msg_len. lia.
Qed.

Lemma decoder_new_cut rq :
  accepted rq -> decoder_new (cut_rq rq) = d <- decoder_new rq ;; Ret (cut d).
Proof.
  intros A. rewrite !decoder_new_eq by auto using cut_rq_accepted. cbn [bind].
  f_equal. unfold cut, cut_rq; cbn. f_equal. apply u32_take_hdr. lia.
Qed.

Lemma as_bytes_cut rq : accepted rq -> as_bytes (cut_rq rq) = as_bytes rq.
Proof.
  intros A. rewrite !as_bytes_eq by auto using cut_rq_accepted. f_equal.
  unfold cut_rq; cbn. rewrite u32_take_hdr by lia. rewrite take_take. f_equal. unfold msg_len. lia.
Qed.

End Proofs.
