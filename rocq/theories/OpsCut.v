(** Decoding depends only on the message, not on the bytes after it. *)

From Verif Require Import Base Kernel CoreModel DecodeModel OpsModel DecodeSpec DecodeProofs
  OpsSafety.
From Coq Require Import List NArith Bool Lia.
From Coq Require Import ZifyBool ZifyNat ZifyN.
Import ListNotations.
Open Scope N_scope.

Section Cut.
Context {E : Endian}.

Lemma next_bytes_cases n mem h c :
  fits mem h -> cursor h c ->
  next_bytes n (at_ mem h c) = Fail EUnexpectedEof \/
  (cursor h (c + n) /\ c + n <= h /\
   next_bytes n (at_ mem h c) = Ret (slice c n mem, at_ mem h (c + n))).
Proof.
  intros F C. rewrite next_bytes_eq by (now apply at_wf). cbn.
  destruct (N.ltb_spec h (c + n)); auto. right. repeat split; auto; unfold cursor in *; lia.
Qed.

Lemma next_sized_cases n mem h c :
  fits mem h -> cursor h c -> c mod 8 = 0 ->
  next_sized n (at_ mem h c) = Fail EUnexpectedEof \/
  (cursor h (c + n) /\ c + n <= h /\
   next_sized n (at_ mem h c) = Ret (slice c n mem, at_ mem h (c + n))).
Proof.
  intros F C M. rewrite next_sized_eq by (now apply at_wf || exact M). cbn.
  destruct (N.ltb_spec h (c + n)); auto. right. repeat split; auto; unfold cursor in *; lia.
Qed.

Lemma name_cases mem h c :
  fits mem h -> cursor h c ->
  (exists e, next_node_name (at_ mem h c) = Fail e) \/
  (exists s c', cursor h c' /\ next_node_name (at_ mem h c) = Ret (s, at_ mem h c')).
Proof.
  intros F C. pose proof (next_node_name_safe (at_ mem h c) (at_wf _ _ _ F C)) as S.
  destruct (next_node_name (at_ mem h c)) as [[s d']|e| |]; cbn in S; try easy.
  - destruct S as (_ & -> & H & _). right. exists s. eexists. split; [|reflexivity].
    cbn in *. unfold cursor in *; lia.
  - left; eauto.
Qed.

Lemma cstr_cases mem h c :
  fits mem h -> cursor h c ->
  (exists e, next_cstr (at_ mem h c) = Fail e) \/
  (exists s c', cursor h c' /\ next_cstr (at_ mem h c) = Ret (s, at_ mem h c')).
Proof.
  intros F C. pose proof (next_cstr_safe (at_ mem h c) (at_wf _ _ _ F C)) as S.
  destruct (next_cstr (at_ mem h c)) as [[s d']|e| |]; cbn in S; try easy.
  - destruct S as (_ & [(_ & -> & H & _)|(-> & -> & H & _)]); right.
    + exists s. eexists. split; [|reflexivity]. cbn in *. unfold cursor in *; lia.
    + exists []. exists c. split; [|reflexivity]. auto.
  - left; eauto.
Qed.

Ltac wfs := apply at_wf; assumption.

Ltac cut1 :=
  match goal with
  | |- context [bind (bind _ _) _] => rewrite !bind_assoc
  | |- context [d_header (cut (at_ ?m ?h ?c))] => rewrite (d_header_cut (at_ m h c)) by wfs
  | |- context [expect_opcode (cut (at_ ?m ?h ?c)) ?o] =>
      rewrite (expect_opcode_cut (at_ m h c) o) by wfs
  | |- context [d_read (cut (at_ ?m ?h ?c)) ?o ?n] =>
      rewrite (d_read_cut (at_ m h c) o n) by wfs
  | |- context [d_cast ?a (cut (at_ ?m ?h ?c)) ?o ?n] =>
      rewrite (d_cast_cut a (at_ m h c) o n) by wfs
  | |- context [next_sized ?n (cut (at_ ?m ?h ?c))] =>
      rewrite (next_sized_cut n (at_ m h c)) by wfs
  | |- context [next_bytes ?n (cut (at_ ?m ?h ?c))] =>
      rewrite (next_bytes_cut n (at_ m h c)) by wfs
  | |- context [peek_sized ?n (cut (at_ ?m ?h ?c))] =>
      rewrite (peek_sized_cut n (at_ m h c)) by wfs
  | |- context [next_node_name (cut (at_ ?m ?h ?c))] =>
      rewrite (next_node_name_cut (at_ m h c)) by wfs
  | |- context [next_cstr (cut (at_ ?m ?h ?c))] =>
      rewrite (next_cstr_cut (at_ m h c)) by wfs
  | F : fits ?m ?h, C : cursor ?h ?c |- context [next_sized ?n (at_ ?m ?h ?c)] =>
      let Heq := fresh in
      destruct (next_sized_cases n m h c F C eq_refl) as [Heq|(? & ? & Heq)]; rewrite ?Heq;
      cbn [bind]; clear Heq
  | F : fits ?m ?h, C : cursor ?h ?c |- context [next_bytes ?n (at_ ?m ?h ?c)] =>
      let Heq := fresh in
      destruct (next_bytes_cases n m h c F C) as [Heq|(? & ? & Heq)]; rewrite ?Heq;
      cbn [bind]; clear Heq
  | F : fits ?m ?h, C : cursor ?h ?c |- context [next_node_name (at_ ?m ?h ?c)] =>
      let Heq := fresh in
      destruct (name_cases m h c F C) as [(? & Heq)|(? & ? & ? & Heq)]; rewrite ?Heq;
      cbn [bind]; clear Heq
  | F : fits ?m ?h, C : cursor ?h ?c |- context [next_cstr (at_ ?m ?h ?c)] =>
      let Heq := fresh in
      destruct (cstr_cases m h c F C) as [(? & Heq)|(? & ? & ? & Heq)]; rewrite ?Heq;
      cbn [bind]; clear Heq
  | |- ?x = ?x => reflexivity
  | |- context [d_header (at_ ?m ?h ?c)] => rewrite (d_header_at m h c) by assumption; cbn [bind]
  | |- context [expect_opcode (at_ ?m ?h ?c) ?o] =>
      rewrite (expect_at m h c o) by assumption; cbn [bind]
  | |- bind (if ?b then _ else _) _ = _ => destruct b; cbn [bind negb]
  | |- (if ?b then _ else _) = _ => destruct b; cbn [bind negb]
  | |- bind (match ?x with _ => _ end) _ = _ => destruct x; cbn [bind]
  | |- bind ?m _ = bind ?m _ => destruct m; cbn [bind]
  end.

(** Equal results up to [cut]. *)
Lemma decode_view_cut is_cuse cf t rq :
  accepted rq ->
  decode_view is_cuse cf t (cut_rq rq) = decode_view is_cuse cf t rq.
Proof.
  intros A. pose proof (accepted_fits rq A) as F.
  set (mem := rq_mem rq) in *. set (h := u32_at 0 mem) in *.
  assert (C0 : cursor h 40) by (unfold cursor; lia).
  assert (AC : decoder_new (cut_rq rq) = Ret (cut (at_ mem h 40)))
    by (rewrite decoder_new_cut by auto; now rewrite at_new by auto).
  destruct t; cbn [decode_view]; repeat autounfold with ops;
    rewrite ?(as_bytes_cut rq A), AC, at_new by auto; fold mem; fold h; cbn [bind].
  all: repeat cut1.
  reflexivity.
Qed.

End Cut.
