(** Lemmas about the text of [Debug]: how it is laid out, and that it can be
    read in one way only. *)

From Coq Require Import String.
From Verif Require Import Base Kernel CoreModel DecodeModel OpsModel FlagsModel HostModel DebugModel.
From Coq Require Import List NArith ZArith Bool Lia ZifyBool ZifyNat ZifyN.
Import ListNotations.
Open Scope string_scope.
Open Scope list_scope.
Open Scope N_scope.

(** ** Induction *)

Fixpoint dbg_ind' (P : dbg -> Prop) (Ha : forall s, P (DAtom s)) (Hs : forall s, P (DStr s))
    (Hn : forall k name cs, Forall (fun c => P (snd c)) cs -> P (DNode k name cs))
    (Hi : forall d, P d -> P (DInline d)) (d : dbg) : P d :=
  match d with
  | DAtom s => Ha s
  | DStr s => Hs s
  | DNode k name cs =>
    Hn k name cs
      ((fix all (l : list (bytes * dbg)) : Forall (fun c => P (snd c)) l :=
          match l with
          | [] => Forall_nil _
          | c :: r => Forall_cons c (dbg_ind' P Ha Hs Hn Hi (snd c)) (all r)
          end) cs)
  | DInline d => Hi d (dbg_ind' P Ha Hs Hn Hi d)
  end.

(** ** Trees whose text can be read back *)

(** With [wide], names and numbers may have characters that are not ASCII
    (the unit of microseconds does). *)
Class Charset := wide : bool.

Section Charset.
Context {C : Charset}.

(** The characters of names and numbers. *)
Definition wordc (b : byte) : bool :=
  let n := Byte.to_N b in
  if 128 <=? n then wide
  else ((48 <=? n) && (n <=? 57)) || ((65 <=? n) && (n <=? 90)) || ((97 <=? n) && (n <=? 122)) ||
       (n =? 95) || (n =? 46) || (n =? 45).
Definition word (s : bytes) : Prop := s <> [] /\ forallb wordc s = true.
Definition is_atom (d : dbg) : Prop := match d with DAtom _ => True | _ => False end.

Fixpoint wf (d : dbg) : Prop :=
  match d with
  | DAtom s => word s
  | DStr _ => True
  | DInline d => wf d
  | DNode k name cs =>
    match k with KList => name = [] | _ => word name end /\
    match k with KStruct | KTuple => cs <> [] | _ => True end /\
    (fix all (l : list (bytes * dbg)) : Prop :=
       match l with
       | [] => True
       | c :: r =>
         (match k with KStruct => word (fst c) | _ => fst c = [] end /\
          match k with KSet => is_atom (snd c) | _ => True end /\ wf (snd c)) /\ all r
       end) cs
  end.

Definition child_ok (k : node_kind) (c : bytes * dbg) : Prop :=
  match k with KStruct => word (fst c) | _ => fst c = [] end /\
  match k with KSet => is_atom (snd c) | _ => True end /\ wf (snd c).

Lemma wf_node k name cs :
  wf (DNode k name cs) <->
  (match k with KList => name = [] | _ => word name end /\
   match k with KStruct | KTuple => cs <> [] | _ => True end /\ Forall (child_ok k) cs).
Proof.
  cbn [wf].
  assert (G : (fix all (l : list (bytes * dbg)) : Prop :=
       match l with
       | [] => True
       | c :: r =>
         (match k with KStruct => word (fst c) | _ => fst c = [] end /\
          match k with KSet => is_atom (snd c) | _ => True end /\ wf (snd c)) /\ all r
       end) cs <-> Forall (child_ok k) cs).
  { induction cs as [|c r IH]; [split; constructor|].
    rewrite IH. split; [intros [H H']; constructor; assumption|intros H; inversion H; subst; now split]. }
  rewrite G. tauto.
Qed.

(** ** One layout for both forms: [None] on one line, [Some d] at depth [d] *)

Definition indent (d : nat) : bytes := repeat x20 (4 * d).
Definition deeper (m : option nat) : option nat := option_map S m.
Definition lead (m : option nat) (first : bool) : bytes :=
  match m with None => if first then [] else txt ", " | Some d => indent (S d) end.
Definition trail (m : option nat) : bytes :=
  match m with None => [] | Some _ => [x2c; x0a] end.
Definition after_open (k : node_kind) (m : option nat) : bytes :=
  match m with None => inner_space k | Some _ => [x0a] end.
Definition before_close (k : node_kind) (m : option nat) : bytes :=
  match m with None => inner_space k | Some d => indent d end.

Fixpoint layout (m : option nat) (d : dbg) : bytes :=
  match d with
  | DAtom s => s
  | DStr s => str_text s
  | DInline d => layout None d
  | DNode k name cs =>
    name ++
    match cs with
    | [] => empty_text k
    | _ =>
      opening k ++ after_open k m ++
      (fix items (first : bool) (l : list (bytes * dbg)) : bytes :=
         match l with
         | [] => []
         | c :: r =>
           lead m first ++ label_text k (fst c) ++ layout (deeper m) (snd c) ++ trail m ++ items false r
         end) true cs ++
      before_close k m ++ closing k
    end
  end.

Definition items (k : node_kind) (m : option nat) :=
  fix items (first : bool) (l : list (bytes * dbg)) : bytes :=
    match l with
    | [] => []
    | c :: r =>
      lead m first ++ label_text k (fst c) ++ layout (deeper m) (snd c) ++ trail m ++ items false r
    end.

Lemma layout_node k name m c r :
  layout m (DNode k name (c :: r)) =
  name ++ opening k ++ after_open k m ++ items k m true (c :: r) ++ before_close k m ++ closing k.
Proof. reflexivity. Qed.
Lemma items_cons k m first c r :
  items k m first (c :: r) =
  lead m first ++ label_text k (fst c) ++ layout (deeper m) (snd c) ++ trail m ++ items k m false r.
Proof. reflexivity. Qed.

Definition compact_more (k : node_kind) :=
  fix more (l : list (bytes * dbg)) : bytes :=
    match l with
    | [] => []
    | c :: rest => txt ", " ++ label_text k (fst c) ++ compact (snd c) ++ more rest
    end.
Lemma compact_node k name c r :
  compact (DNode k name (c :: r)) =
  name ++ opening k ++ inner_space k ++ label_text k (fst c) ++ compact (snd c) ++
  compact_more k r ++ inner_space k ++ closing k.
Proof. reflexivity. Qed.

Lemma compact_layout d : compact d = layout None d.
Proof.
  induction d as [s|s|k name cs IH|d IH] using dbg_ind'; try reflexivity.
  - destruct cs as [|c r]; [reflexivity|].
    rewrite layout_node, items_cons, compact_node.
    inversion IH as [|? ? Hc Hr]; subst.
    assert (M : compact_more k r = items k None false r).
    { clear Hc IH. induction Hr as [|c' r' Hc' Hr' IH']; [reflexivity|].
      rewrite items_cons. cbn [compact_more lead trail deeper option_map app].
      fold (compact_more k). rewrite Hc', IH'. reflexivity. }
    rewrite M, Hc. unfold after_open, before_close, lead, trail, deeper. cbn [option_map app].
    now rewrite <- !app_assoc.
  - exact IH.
Qed.

(** *** [PadAdapter] indents by one level *)

Definition ends_line (s : bytes) (dflt : bool) : bool :=
  match rev s with [] => dflt | b :: _ => Byte.to_N b =? 10 end.

Lemma ends_line_cons b s dflt : ends_line (b :: s) dflt = ends_line s (Byte.to_N b =? 10).
Proof. unfold ends_line. cbn [rev]. now destruct (rev s). Qed.
Lemma ends_line_app s t dflt : ends_line (s ++ t) dflt = ends_line t (ends_line s dflt).
Proof. unfold ends_line. rewrite rev_app_distr. now destruct (rev t). Qed.

Lemma pad_app b s t : pad b (s ++ t) = pad b s ++ pad (ends_line s b) t.
Proof.
  revert b; induction s as [|c s IH]; intros b; cbn [app pad]; [reflexivity|].
  rewrite IH, ends_line_cons. now rewrite <- !app_assoc.
Qed.

Definition no_newline (s : bytes) : Prop := Forall (fun b => Byte.to_N b <> 10) s.

Lemma pad_plain s : no_newline s -> pad false s = s /\ ends_line s false = false.
Proof.
  induction 1 as [|b s Hb Hs [IH1 IH2]]; [split; reflexivity|].
  rewrite ends_line_cons. cbn [pad app]. apply N.eqb_neq in Hb. rewrite Hb.
  split; [now rewrite IH1|exact IH2].
Qed.
Lemma pad_true s : s <> [] -> pad true s = txt "    " ++ pad false s.
Proof. destruct s; [congruence|]. reflexivity. Qed.

Lemma no_newline_app s t : no_newline s -> no_newline t -> no_newline (s ++ t).
Proof. intros; now apply Forall_app. Qed.
Lemma wordc_no_newline b : wordc b = true -> Byte.to_N b <> 10.
Proof. unfold wordc. intros H E. rewrite E in H. discriminate H. Qed.
Lemma word_no_newline s : word s -> no_newline s.
Proof.
  intros [_ H]. rewrite forallb_forall in H. apply Forall_forall. intros b I.
  apply wordc_no_newline. auto.
Qed.

Definition printable (b : byte) : Prop :=
  32 <= Byte.to_N b <= 126 \/ wide = true /\ 128 <= Byte.to_N b.
Lemma printable_no_newline s : Forall printable s -> no_newline s.
Proof. apply Forall_impl. unfold printable. lia. Qed.
Lemma wordc_printable b : wordc b = true -> printable b.
Proof. unfold wordc, printable. destruct (N.leb_spec 128 (Byte.to_N b)); [tauto|lia]. Qed.
Lemma word_printable s : word s -> Forall printable s.
Proof.
  intros [_ H]. rewrite forallb_forall in H. apply Forall_forall. intros b I.
  apply wordc_printable. auto.
Qed.
Definition printableb (b : byte) : bool := (32 <=? Byte.to_N b) && (Byte.to_N b <=? 126).
Lemma printableb_ok s : forallb printableb s = true -> Forall printable s.
Proof.
  intros H. rewrite forallb_forall in H. apply Forall_forall. intros b I. specialize (H b I).
  unfold printableb, printable in *. lia.
Qed.
Lemma escape_printable b : Forall printable (escape_byte b).
Proof. apply printableb_ok. destruct b; vm_compute; reflexivity. Qed.
Lemma str_printable s : Forall printable (str_text s).
Proof.
  unfold str_text. apply Forall_app. split; [now apply printableb_ok|].
  apply Forall_app. split; [|now apply printableb_ok].
  induction s as [|b s IH]; cbn [flat_map]; [constructor|].
  apply Forall_app. split; [apply escape_printable|exact IH].
Qed.
Lemma parts_printable k :
  Forall printable (opening k) /\ Forall printable (closing k) /\ Forall printable (inner_space k) /\
  Forall printable (empty_text k).
Proof. destruct k; repeat split; apply printableb_ok; reflexivity. Qed.

(** On one line everything is printable. *)
Lemma layout_printable d : wf d -> Forall printable (layout None d).
Proof.
  induction d as [s|s|k name cs IH|d IH] using dbg_ind'; intros W.
  - now apply word_printable.
  - apply str_printable.
  - apply wf_node in W as (W1 & W2 & W3).
    destruct (parts_printable k) as (P1 & P2 & P3 & P4).
    assert (Pn : Forall printable name).
    { destruct k; try (now apply word_printable). subst. constructor. }
    destruct cs as [|c r]; [cbn [layout]; apply Forall_app; now split|].
    rewrite layout_node. cbn [after_open before_close].
    assert (PI : forall first, Forall printable (items k None first (c :: r))).
    { revert IH W3. generalize (c :: r) as cs'. clear.
      induction cs' as [|c' r' IH']; intros IH W3 first; [constructor|].
      inversion IH as [|? ? Hc Hr]; subst. inversion W3 as [|? ? (Wl & Wa & Wc) Wr]; subst.
      rewrite items_cons, !Forall_app. split; [|split; [|split; [|split]]].
      - destruct first; [constructor|now apply printableb_ok].
      - destruct k; cbn [label_text]; try constructor.
        apply Forall_app. split; [now apply word_printable|now apply printableb_ok].
      - now apply Hc.
      - constructor.
      - now apply IH'. }
    rewrite !Forall_app. auto 10.
  - apply IH. exact W.
Qed.

Lemma indent_S d : indent (S d) = txt "    " ++ indent d.
Proof. unfold indent. replace (4 * S d)%nat with (4 + 4 * d)%nat by lia. reflexivity. Qed.
Lemma indent_plain d : no_newline (indent d).
Proof. unfold indent. apply Forall_forall. intros b I. apply repeat_spec in I. subst. cbn. lia. Qed.

(** On several lines there are line ends too. *)
Definition printed (b : byte) : Prop := printable b \/ b = x0a.
Lemma layout_lines d : wf d -> forall m, Forall printed (layout m d).
Proof.
  assert (P : forall s, Forall printable s -> Forall printed s)
    by (intros s; apply Forall_impl; intros b H; left; exact H).
  assert (Ind : forall n, Forall printed (indent n)).
  { intros n. apply Forall_forall. intros b I. apply repeat_spec in I. subst. left. left. split; vm_compute; discriminate. }
  induction d as [s|s|k name cs IH|d IH] using dbg_ind'; intros W m.
  - now apply P, word_printable.
  - apply P, str_printable.
  - apply wf_node in W as (W1 & W2 & W3).
    destruct (parts_printable k) as (P1 & P2 & P3 & P4).
    assert (Pn : Forall printable name).
    { destruct k; try (now apply word_printable). subst. constructor. }
    destruct cs as [|c r]; [cbn [layout]; rewrite Forall_app; split; now apply P|].
    rewrite layout_node.
    assert (PI : forall first, Forall printed (items k m first (c :: r))).
    { revert IH W3. generalize (c :: r) as cs'. clear -P Ind.
      induction cs' as [|c' r' IH']; intros IH W3 first; [constructor|].
      inversion IH as [|? ? Hc Hr]; subst. inversion W3 as [|? ? (Wl & Wa & Wc) Wr]; subst.
      rewrite items_cons, !Forall_app. split; [|split; [|split; [|split]]].
      - destruct m; cbn [lead]; [apply Ind|]. apply P. destruct first; [constructor|now apply printableb_ok].
      - apply P. destruct k; cbn [label_text]; try constructor.
        apply Forall_app. split; [now apply word_printable|now apply printableb_ok].
      - now apply Hc.
      - destruct m; cbn [trail]; [|constructor].
        constructor; [left; left; split; vm_compute; discriminate|]. constructor; [now right|constructor].
      - now apply IH'. }
    rewrite !Forall_app. repeat match goal with |- _ /\ _ => split end; auto.
    + destruct m; cbn [after_open]; [constructor; [now right|constructor]|now apply P].
    + destruct m; cbn [before_close]; [apply Ind|now apply P].
  - cbn [layout]. now apply IH.
Qed.

(** The text of a tree does not end a line, and padding it is laying it out
    one level deeper. *)
Lemma layout_pad d : wf d ->
  (forall n, pad false (layout (Some n) d) = layout (Some (S n)) d /\
             ends_line (layout (Some n) d) false = false) /\
  layout (Some 0%nat) d <> [].
Proof.
  induction d as [s|s|k name cs IH|d IH] using dbg_ind'; intros W.
  - split; [|apply W]. intros n. cbn [layout]. apply pad_plain. now apply word_no_newline.
  - split; [|discriminate]. intros n. cbn [layout]. apply pad_plain. apply printable_no_newline, str_printable.
  - apply wf_node in W as (W1 & W2 & W3).
    destruct (parts_printable k) as (P1 & P2 & P3 & P4).
    assert (Nn : no_newline name).
    { destruct k; try (now apply word_no_newline). subst. constructor. }
    assert (NE : layout (Some 0%nat) (DNode k name cs) <> []).
    { destruct k; cbn [layout]; try (destruct name; [destruct W1; congruence|discriminate]).
      subst name. destruct cs; discriminate. }
    split; [|exact NE]. intros n.
    destruct cs as [|c r].
    { cbn [layout]. apply pad_plain. apply no_newline_app; [exact Nn|now apply printable_no_newline]. }
    rewrite !layout_node. cbn [after_open before_close].
    assert (PI : forall cs', Forall (fun c => wf (snd c) -> (forall n, pad false (layout (Some n) (snd c)) = layout (Some (S n)) (snd c) /\
             ends_line (layout (Some n) (snd c)) false = false) /\ layout (Some 0%nat) (snd c) <> []) cs' ->
             Forall (child_ok k) cs' -> forall first,
             pad true (items k (Some n) first cs') = items k (Some (S n)) first cs' /\
             ends_line (items k (Some n) first cs') true = true).
    { clear. induction cs' as [|c' r' IH']; intros IH W3 first; [split; reflexivity|].
      inversion IH as [|? ? Hc Hr]; subst. inversion W3 as [|? ? (Wl & Wa & Wc) Wr]; subst.
      destruct (Hc Wc) as [Hc1 _]. destruct (Hc1 (S n)) as [Hp He].
      rewrite !items_cons. cbn [lead trail deeper option_map].
      destruct (pad_plain (indent (S n)) (indent_plain _)) as [I1 I2].
      assert (L : no_newline (label_text k (fst c'))).
      { destruct k; cbn [label_text]; try constructor.
        apply no_newline_app; [now apply word_no_newline|].
        apply printable_no_newline, printableb_ok. reflexivity. }
      destruct (pad_plain _ L) as [L1 L2].
      destruct (IH' Hr Wr false) as [R1 R2].
      rewrite pad_true by (rewrite indent_S; discriminate).
      rewrite !pad_app, !ends_line_app, I1, I2, L1, L2, Hp, He.
      change (ends_line [x2c; x0a] false) with true. change (pad false [x2c; x0a]) with [x2c; x0a].
      rewrite R1.
      split; [rewrite (indent_S (S n)), <- !app_assoc; reflexivity|].
      exact R2. }
    destruct (PI _ IH W3 true) as [R1 R2].
    destruct (pad_plain _ Nn) as [N1 N2].
    destruct (pad_plain _ (printable_no_newline _ P1)) as [O1 O2].
    destruct (pad_plain _ (printable_no_newline _ P2)) as [C1 C2].
    destruct (pad_plain _ (indent_plain n)) as [D1 D2].
    rewrite !pad_app, !ends_line_app, N1, N2, O1, O2.
    change (pad false [x0a]) with [x0a]. change (ends_line [x0a] false) with true.
    rewrite R1, R2.
    assert (CE : ends_line (closing k) (ends_line (indent n) true) = false) by (destruct k; reflexivity).
    split; [|exact CE].
    do 4 f_equal. rewrite <- pad_app.
    rewrite pad_true by (destruct k, n; discriminate).
    rewrite pad_app, D1, D2, C1, indent_S, <- app_assoc. reflexivity.
  - cbn [wf] in W. split.
    + intros n. cbn [layout]. apply pad_plain. apply printable_no_newline. now apply layout_printable.
    + cbn [layout]. destruct (IH W) as [_ NE].
      intros E. apply NE. clear - E. destruct d as [| |k name cs|]; cbn [layout] in *; try exact E.
      destruct cs; [exact E|]. apply app_eq_nil in E as [-> E].
      destruct k; cbn in E; discriminate E.
Qed.

Definition pretty_more (k : node_kind) :=
  fix more (l : list (bytes * dbg)) : bytes :=
    match l with
    | [] => []
    | c :: rest => pad true (label_text k (fst c) ++ pretty (snd c) ++ [x2c; x0a]) ++ more rest
    end.
Lemma pretty_node k name c r :
  pretty (DNode k name (c :: r)) =
  name ++ opening k ++ [x0a] ++ pretty_more k (c :: r) ++ closing k.
Proof. cbn [pretty pretty_more]. now rewrite <- !app_assoc. Qed.

Lemma pretty_layout d : wf d -> pretty d = layout (Some 0%nat) d.
Proof.
  induction d as [s|s|k name cs IH|d IH] using dbg_ind'; intros W; try reflexivity.
  - apply wf_node in W as (W1 & W2 & W3).
    destruct cs as [|c r]; [reflexivity|].
    rewrite layout_node, pretty_node. cbn [after_open before_close].
    change (indent 0) with (@nil byte). do 3 f_equal. cbn [app]. f_equal.
    revert IH W3. generalize true as first. generalize (c :: r) as cs'. clear.
    induction cs' as [|c' r' IH']; intros first IH W3; [reflexivity|].
    inversion IH as [|? ? Hc Hr]; subst. inversion W3 as [|? ? (Wl & Wa & Wc) Wr]; subst.
    destruct (layout_pad _ Wc) as [LP NE]. destruct (LP 0%nat) as [Hp He].
    rewrite items_cons. cbn [pretty_more lead trail deeper option_map].
    fold (pretty_more k). rewrite (Hc Wc), (IH' false Hr Wr).
    assert (L : no_newline (label_text k (fst c'))).
    { destruct k; cbn [label_text]; try constructor.
      apply no_newline_app; [now apply word_no_newline|].
      apply printable_no_newline, printableb_ok. reflexivity. }
    destruct (pad_plain _ L) as [L1 L2].
    rewrite pad_true.
    2: { intros E. apply app_eq_nil in E as [_ E]. apply app_eq_nil in E as [E _]. now apply NE. }
    rewrite !pad_app, L1, L2, Hp, He. change (pad false [x2c; x0a]) with [x2c; x0a].
    now rewrite <- !app_assoc.
  - cbn [pretty layout]. apply compact_layout.
Qed.

(** ** Reading the text back *)

(** Erase what is not visible on one line. *)
Fixpoint flat (d : dbg) : dbg :=
  match d with
  | DInline d => flat d
  | DNode k name cs => DNode k name (map (fun c => (fst c, flat (snd c))) cs)
  | d => d
  end.

(** *** String literals *)

Definition hex_value (b : byte) : option N :=
  let n := Byte.to_N b in
  if (48 <=? n) && (n <=? 57) then Some (n - 48)
  else if (97 <=? n) && (n <=? 102) then Some (n - 87)
  else None.

(** Read one character of a literal: the byte it stands for and the rest. *)
Definition read_char (s : bytes) : option (byte * bytes) :=
  match s with
  | [] => None
  | x22 :: _ => None
  | x5c :: x78 :: h :: l :: r =>
    match hex_value h, hex_value l with
    | Some h, Some l => match Byte.of_N (16 * h + l) with Some b => Some (b, r) | None => None end
    | _, _ => None
    end
  | x5c :: b :: r =>
    if Byte.to_N b =? 116 then Some (x09, r)
    else if Byte.to_N b =? 114 then Some (x0d, r)
    else if Byte.to_N b =? 110 then Some (x0a, r)
    else if (Byte.to_N b =? 39) || (Byte.to_N b =? 34) || (Byte.to_N b =? 92) then Some (b, r)
    else None
  | b :: r => if (32 <=? Byte.to_N b) && (Byte.to_N b <=? 126) then Some (b, r) else None
  end.

Lemma read_char_escape b r : read_char (escape_byte b ++ r) = Some (b, r).
Proof. destruct b; reflexivity. Qed.

(** Read the inside of a literal up to the quote that ends it. *)
Fixpoint read_literal (fuel : nat) (s : bytes) : option (bytes * bytes) :=
  match fuel with
  | O => None
  | S fuel =>
    match s with
    | x22 :: r => Some ([], r)
    | _ =>
      match read_char s with
      | Some (b, r) =>
        match read_literal fuel r with
        | Some (v, r) => Some (b :: v, r)
        | None => None
        end
      | None => None
      end
    end
  end.

Lemma read_literal_end f s r : (List.length s < f)%nat ->
  read_literal f (flat_map escape_byte s ++ x22 :: r) = Some (s, r).
Proof.
  revert f; induction s as [|b s IH]; intros f L; (destruct f as [|f]; [cbn in L; lia|]).
  - reflexivity.
  - cbn [flat_map]. rewrite <- app_assoc.
    assert (Q : forall t, read_literal (S f) (escape_byte b ++ t) =
      match read_char (escape_byte b ++ t) with
      | Some (b, r) => match read_literal f r with Some (v, r) => Some (b :: v, r) | None => None end
      | None => None
      end) by (intros t; destruct b; reflexivity).
    rewrite Q, read_char_escape, IH by (cbn in L; lia). reflexivity.
Qed.

Lemma str_text_inj s1 s2 r1 r2 : str_text s1 ++ r1 = str_text s2 ++ r2 -> s1 = s2 /\ r1 = r2.
Proof.
  unfold str_text. rewrite <- !app_assoc. cbn [app]. intros H. injection H as H.
  set (f := S (List.length s1 + List.length s2)).
  assert (A : read_literal f (flat_map escape_byte s1 ++ x22 :: r1) = Some (s1, r1))
    by (apply read_literal_end; unfold f; lia).
  assert (B : read_literal f (flat_map escape_byte s2 ++ x22 :: r2) = Some (s2, r2))
    by (apply read_literal_end; unfold f; lia).
  rewrite H in A. rewrite A in B. injection B as -> ->. now split.
Qed.

(** *** Words *)

Definition stops (r : bytes) : Prop := match r with [] => True | b :: _ => wordc b = false end.

Lemma munch w1 w2 r1 r2 :
  forallb wordc w1 = true -> forallb wordc w2 = true -> stops r1 -> stops r2 ->
  w1 ++ r1 = w2 ++ r2 -> w1 = w2 /\ r1 = r2.
Proof.
  revert w2; induction w1 as [|b w1 IH]; intros [|b' w2] W1 W2 S1 S2 H; cbn [app forallb] in *.
  - now split.
  - subst r1. cbn in S1. rewrite S1 in W2. discriminate W2.
  - subst r2. cbn in S2. rewrite S2 in W1. discriminate W1.
  - injection H as -> H. apply andb_true_iff in W1 as [_ W1]. apply andb_true_iff in W2 as [_ W2].
    destruct (IH w2 W1 W2 S1 S2 H) as [-> ->]. now split.
Qed.

(** What may come after a value. *)
Definition follows (r : bytes) : Prop :=
  match r with
  | [] => True
  | x2c :: _ | x29 :: _ | x5d :: _ | x7d :: _ => True
  | x20 :: x7d :: _ => True
  | _ => False
  end.

Lemma follows_stops r : follows r -> stops r.
Proof. destruct r as [|b r]; [easy|]. destruct b; cbn; try easy. Qed.

Definition not_space (r : bytes) : Prop :=
  match r with [] => False | b :: _ => b <> x20 end.
Lemma indent_inj a b x y :
  not_space x -> not_space y -> indent a ++ x = indent b ++ y -> a = b /\ x = y.
Proof.
  intros X Y. revert b; induction a as [|a IH]; intros [|b] H.
  - now split.
  - rewrite indent_S in H. cbn in H. subst x. cbn in X. congruence.
  - rewrite indent_S in H. cbn in H. subst y. cbn in Y. congruence.
  - rewrite !indent_S in H. cbn in H. injection H as H.
    destruct (IH b H) as [-> ->]. now split.
Qed.

(** How the text of a value begins. *)
Definition starts (s : bytes) : Prop :=
  match s with [] => False | b :: _ => wordc b = true \/ b = x22 \/ b = x5b end.
Lemma word_starts s r : word s -> starts (s ++ r).
Proof.
  intros [N W]. destruct s as [|b s]; [congruence|]. cbn in *.
  apply andb_true_iff in W. left. tauto.
Qed.
Lemma layout_starts m d r : wf d -> starts (layout m d ++ r).
Proof.
  revert m; induction d as [s|s|k name cs IH|d IH] using dbg_ind'; intros m W.
  - now apply word_starts.
  - cbn. tauto.
  - apply wf_node in W as (W1 & _). destruct k; cbn [layout]; rewrite <- app_assoc;
      try (now apply word_starts).
    subst name. destruct cs; cbn; tauto.
  - now apply IH.
Qed.
Lemma starts_not b s : starts (b :: s) -> b <> x20 /\ b <> x0a /\ b <> x7d /\ b <> x5d.
Proof. intros H. repeat split; intros ->; cbn in H; intuition discriminate. Qed.

Lemma not_closing k r : starts (closing k ++ r) -> False.
Proof. destruct k; cbn; intuition discriminate. Qed.

(** Values and modes without [DInline] at the top. *)
Lemma strip m d : wf d -> exists m' d',
  layout m d = layout m' d' /\ flat d = flat d' /\ wf d' /\
  match d' with DInline _ => False | _ => True end.
Proof.
  revert m; induction d as [s|s|k name cs IH|d IH] using dbg_ind'; intros m W;
    try (exists m; eexists; split; [reflexivity|]; split; [reflexivity|]; split; [exact W|exact I]).
  cbn [wf layout flat] in *. now apply IH.
Qed.

Definition readable (d1 : dbg) : Prop :=
  forall d2 m1 m2 r1 r2, wf d1 -> wf d2 -> follows r1 -> follows r2 ->
  layout m1 d1 ++ r1 = layout m2 d2 ++ r2 -> flat d1 = flat d2 /\ r1 = r2.

Lemma label_inj k c1 c2 x y :
  child_ok k c1 -> child_ok k c2 ->
  label_text k (fst c1) ++ x = label_text k (fst c2) ++ y -> fst c1 = fst c2 /\ x = y.
Proof.
  intros (L1 & _) (L2 & _) H. destruct k; cbn [label_text app] in H; [|split; congruence..].
  rewrite <- !app_assoc in H. destruct L1 as [_ L1], L2 as [_ L2].
  apply munch in H as [H1 H2]; [|assumption|assumption|reflexivity|reflexivity].
  split; [exact H1|]. now apply app_inv_head in H2.
Qed.

Lemma child_starts k m c r : child_ok k c -> starts (label_text k (fst c) ++ layout m (snd c) ++ r).
Proof.
  intros (L & _ & W). destruct k; cbn [label_text app]; try now apply layout_starts.
  rewrite <- app_assoc. now apply word_starts.
Qed.
Lemma starts_not_space s : starts s -> not_space s.
Proof. destruct s; [easy|]. intros H. now apply starts_not in H. Qed.

Lemma after_child k m r t : follows (trail m ++ items k m false r ++ before_close k m ++ closing k ++ t).
Proof.
  destruct m; [exact I|]. destruct r; [|exact I]. destruct k; exact I.
Qed.

Lemma items_inj k m first cs1 cs2 t1 t2 :
  (first = true -> cs1 <> [] /\ cs2 <> []) ->
  Forall (fun c => readable (snd c)) cs1 -> Forall (child_ok k) cs1 -> Forall (child_ok k) cs2 ->
  items k m first cs1 ++ before_close k m ++ closing k ++ t1 =
  items k m first cs2 ++ before_close k m ++ closing k ++ t2 ->
  map (fun c => (fst c, flat (snd c))) cs1 = map (fun c => (fst c, flat (snd c))) cs2 /\ t1 = t2.
Proof.
  revert first cs2; induction cs1 as [|c1 cs1 IH]; intros first [|c2 cs2] F R K1 K2 H.
  - cbn [items app] in H. now rewrite !app_inv_head_iff in H.
  - exfalso. destruct first; [destruct (F eq_refl); congruence|].
    inversion K2 as [|? ? C2 Kr2]; subst.
    rewrite items_cons in H. cbn [items app] in H. rewrite <- !app_assoc in H.
    destruct m as [d|]; cbn [lead before_close] in H; [|destruct k; discriminate H].
    pose proof (child_starts k (deeper (Some d)) c2
      (trail (Some d) ++ items k (Some d) false cs2 ++ indent d ++ closing k ++ t2) C2) as X.
    apply starts_not_space in X. apply indent_inj in H as [H _]; [lia| |exact X].
    destruct k; discriminate.
  - exfalso. destruct first; [destruct (F eq_refl); congruence|].
    inversion K1 as [|? ? C1 Kr1]; subst.
    rewrite items_cons in H. cbn [items app] in H. rewrite <- !app_assoc in H.
    destruct m as [d|]; cbn [lead before_close] in H; [|destruct k; discriminate H].
    pose proof (child_starts k (deeper (Some d)) c1
      (trail (Some d) ++ items k (Some d) false cs1 ++ indent d ++ closing k ++ t1) C1) as X.
    apply starts_not_space in X. apply indent_inj in H as [H _]; [lia|exact X|].
    destruct k; discriminate.
  - inversion K1 as [|? ? C1 Kr1]; subst. inversion K2 as [|? ? C2 Kr2]; subst.
    inversion R as [|? ? R1 Rr]; subst.
    rewrite !items_cons, <- !app_assoc in H. apply app_inv_head in H.
    apply label_inj in H as [L H]; [|assumption|assumption].
    apply R1 in H as [V H]; [|apply C1|apply C2|apply after_child|apply after_child].
    apply app_inv_head in H.
    destruct (IH false cs2 ltac:(discriminate) Rr Kr1 Kr2 H) as [M ->].
    split; [|reflexivity]. cbn [map]. now rewrite L, V, M.
Qed.

Lemma modes_inj k m1 m2 c1 cs1 c2 cs2 t1 t2 :
  child_ok k c1 -> child_ok k c2 ->
  after_open k m1 ++ items k m1 true (c1 :: cs1) ++ t1 =
  after_open k m2 ++ items k m2 true (c2 :: cs2) ++ t2 ->
  m1 = m2.
Proof.
  intros C1 C2 H. rewrite !items_cons in H.
  destruct m1 as [d1|], m2 as [d2|]; [| | |reflexivity].
  - cbn [after_open lead] in H. rewrite <- !app_assoc in H. apply app_inv_head in H.
    apply indent_inj in H as [H _].
    + congruence.
    + now apply starts_not_space, child_starts.
    + now apply starts_not_space, child_starts.
  - exfalso. cbn [after_open lead app] in H. rewrite <- !app_assoc in H.
    destruct k; [discriminate H|..]; cbn [inner_space app] in H;
    match type of H with _ = ?rhs => assert (S : starts rhs) by (apply (child_starts _ None); exact C2);
      rewrite <- H in S; now apply starts_not in S as (_ & S & _) end.
  - exfalso. cbn [after_open lead app] in H. rewrite <- !app_assoc in H.
    destruct k; [discriminate H|..]; cbn [inner_space app] in H;
    match type of H with ?lhs = _ => assert (S : starts lhs) by (apply (child_starts _ None); exact C1);
      rewrite H in S; now apply starts_not in S as (_ & S & _) end.
Qed.

Lemma node_rest_stops k m cs r :
  match k with KStruct | KTuple => cs <> [] | _ => True end ->
  stops (match cs with
         | [] => empty_text k
         | _ => opening k ++ after_open k m ++ items k m true cs ++ before_close k m ++ closing k
         end ++ r).
Proof. destruct k, cs; intros H; try congruence; reflexivity. Qed.

Lemma layout_node' k name m cs :
  layout m (DNode k name cs) =
  name ++ match cs with
          | [] => empty_text k
          | _ => opening k ++ after_open k m ++ items k m true cs ++ before_close k m ++ closing k
          end.
Proof. reflexivity. Qed.

Lemma atom_node s k m name cs r1 r2 :
  word s -> wf (DNode k name cs) -> follows r1 -> s ++ r1 = layout m (DNode k name cs) ++ r2 -> False.
Proof.
  intros Ws W F H. apply wf_node in W as (W1 & W2 & W3). rewrite layout_node', <- app_assoc in H.
  destruct k.
  4: { apply munch in H as [_ H]; [|apply Ws|apply W1|now apply follows_stops|now apply node_rest_stops].
       subst r1. destruct cs; cbn in F; exact F. }
  3: { subst name. cbn [app] in H. destruct Ws as [Ne Wc]. destruct s as [|b s]; [congruence|].
       destruct cs; cbn in H; injection H as -> H; discriminate Wc. }
  2: { apply munch in H as [_ H]; [|apply Ws|apply W1|now apply follows_stops|now apply node_rest_stops].
       subst r1. destruct cs; [congruence|]. cbn in F; exact F. }
  apply munch in H as [_ H]; [|apply Ws|apply W1|now apply follows_stops|now apply node_rest_stops].
  subst r1. destruct cs; [congruence|]. cbn in F; exact F.
Qed.

(** Two nodes with the same text after the name have the same kind. *)
Lemma kinds_inj k1 k2 m1 m2 cs1 cs2 r1 r2 name :
  wf (DNode k1 name cs1) -> wf (DNode k2 name cs2) ->
  match cs1 with
  | [] => empty_text k1
  | _ => opening k1 ++ after_open k1 m1 ++ items k1 m1 true cs1 ++ before_close k1 m1 ++ closing k1
  end ++ r1 =
  match cs2 with
  | [] => empty_text k2
  | _ => opening k2 ++ after_open k2 m2 ++ items k2 m2 true cs2 ++ before_close k2 m2 ++ closing k2
  end ++ r2 ->
  k1 = k2.
Proof.
  assert (G : forall m1 m2 c1 cs1 cs2 r1 r2,
    Forall (child_ok KStruct) (c1 :: cs1) -> Forall (child_ok KSet) cs2 ->
    (opening KStruct ++ after_open KStruct m1 ++ items KStruct m1 true (c1 :: cs1) ++
      before_close KStruct m1 ++ closing KStruct) ++ r1 =
    match cs2 with
    | [] => empty_text KSet
    | _ => opening KSet ++ after_open KSet m2 ++ items KSet m2 true cs2 ++ before_close KSet m2 ++ closing KSet
    end ++ r2 -> False).
  { clear. intros m1 m2 c1 cs1 cs2 r1 r2 K1 K2 H. inversion K1 as [|? ? C1 _]; subst.
    destruct cs2 as [|c2 cs2].
    { destruct m1; discriminate H. }
    inversion K2 as [|? ? C2 _]; subst. rewrite <- !app_assoc in H.
    change (opening KStruct) with (opening KSet) in H. apply app_inv_head in H.
    rewrite !items_cons, <- !app_assoc in H.
    destruct m1 as [d1|], m2 as [d2|].
    - cbn [after_open lead] in H. apply app_inv_head in H.
      apply indent_inj in H as [_ H].
      2: now apply starts_not_space, child_starts.
      2: now apply starts_not_space, child_starts.
      destruct C1 as ((_ & L1) & _), C2 as (_ & A2 & W2).
      destruct (snd c2) as [s| | |]; try contradiction. cbn [wf] in W2.
      cbn [label_text layout app] in H. rewrite <- app_assoc in H.
      apply munch in H as [_ H]; [|exact L1|apply W2|reflexivity|reflexivity]. discriminate H.
    - cbn [after_open lead inner_space app] in H.
      match type of H with _ = ?rhs => assert (S : starts rhs) by (apply (child_starts _ None); exact C2) end.
      rewrite <- H in S. now apply starts_not in S as (_ & S & _).
    - discriminate H.
    - cbn [after_open lead inner_space app] in H.
      match type of H with _ = ?rhs => assert (S : starts rhs) by (apply (child_starts _ None); exact C2) end.
      rewrite <- H in S. now apply starts_not in S as (S & _). }
  intros W1 W2 H. apply wf_node in W1 as (N1 & C1 & K1). apply wf_node in W2 as (N2 & C2 & K2).
  destruct k1, k2; try reflexivity; exfalso;
    try (subst name; destruct N1 as [N1 _]; congruence);
    try (subst name; destruct N2 as [N2 _]; congruence).
  - destruct cs1; [congruence|]. destruct cs2; [congruence|]. discriminate H.
  - destruct cs1; [congruence|]. eapply G; eassumption.
  - destruct cs1; [congruence|]. destruct cs2; [congruence|]. discriminate H.
  - destruct cs1; [congruence|]. destruct cs2; discriminate H.
  - destruct cs2 as [|c2 cs2]; [congruence|]. symmetry in H. eapply (G m2 m1 c2 cs2 cs1); eassumption.
  - destruct cs2; [congruence|]. destruct cs1; discriminate H.
Qed.

Lemma str_node s k m name cs r1 r2 :
  wf (DNode k name cs) -> str_text s ++ r1 = layout m (DNode k name cs) ++ r2 -> False.
Proof.
  intros W H. apply wf_node in W as (W1 & _). rewrite layout_node', <- app_assoc in H.
  destruct k.
  3: { subst name. destruct cs; discriminate H. }
  all: destruct W1 as [Ne W]; destruct name as [|b name]; [congruence|];
    cbn in H; injection H as <- _; discriminate W.
Qed.

(** The text of a value can be read in one way only. *)
Lemma readable_all d : readable d.
Proof.
  induction d as [s|s|k name cs IH|d IH] using dbg_ind'; intros d2 m1 m2 r1 r2 W1 W2 F1 F2 H.
  4: { cbn [flat]. apply (IH d2 None m2 r1 r2 W1 W2 F1 F2 H). }
  all: destruct (strip m2 d2 W2) as (m3 & d3 & L & -> & W3 & NI); rewrite L in H; clear L W2 d2 m2;
    destruct d3 as [s2|s2|k2 name2 cs2|]; [| | |contradiction].
  - cbn [layout wf] in *. apply munch in H as [-> ->];
      [|apply W1|apply W3|now apply follows_stops|now apply follows_stops]. now split.
  - exfalso. cbn [layout wf] in *. destruct W1 as [Ne W]. destruct s as [|b s]; [congruence|].
    cbn in H. injection H as -> _. discriminate W.
  - exfalso. eapply atom_node; [exact W1|exact W3|exact F1|exact H].
  - exfalso. cbn [layout wf] in *. destruct W3 as [Ne W]. destruct s2 as [|b s2]; [congruence|].
    cbn in H. injection H as <- _. discriminate W.
  - cbn [layout] in H. apply str_text_inj in H as [-> ->]. now split.
  - exfalso. eapply str_node; [exact W3|exact H].
  - exfalso. symmetry in H. eapply atom_node; [exact W3|exact W1|exact F2|exact H].
  - exfalso. symmetry in H. eapply str_node; [exact W1|exact H].
  - assert (NK : name = name2 /\ k = k2).
    { pose proof W1 as W1'. pose proof W3 as W3'.
      apply wf_node in W1 as (N1 & C1 & K1). apply wf_node in W3 as (N2 & C2 & K2).
      rewrite !layout_node', <- !app_assoc in H.
      assert (NN : name = name2).
      { destruct k, k2; try congruence;
        try (apply munch in H as [H _]; [exact H|apply N1|apply N2|now apply node_rest_stops|now apply node_rest_stops]).
        all: exfalso; try subst name; try subst name2.
        all: try (destruct N1 as [Ne W]; destruct name as [|b name]; [congruence|];
              destruct cs2; injection H as -> _; discriminate W).
        all: destruct N2 as [Ne W]; destruct name2 as [|b name2]; [congruence|];
              destruct cs; injection H as <- _; discriminate W. }
      split; [exact NN|]. subst name2. apply app_inv_head in H.
      eapply kinds_inj; [exact W1'|exact W3'|exact H]. }
    destruct NK as [<- <-].
    apply wf_node in W1 as (N1 & C1 & K1). apply wf_node in W3 as (N2 & C2 & K2).
    rewrite !layout_node', <- !app_assoc in H. apply app_inv_head in H.
    cbn [flat]. destruct cs as [|c1 cs], cs2 as [|c2 cs2].
    + apply app_inv_head in H. now split.
    + exfalso. inversion K2 as [|? ? B2 _]; subst.
      rewrite items_cons, <- !app_assoc in H.
      assert (EO : empty_text k = opening k ++ closing k) by (destruct k; congruence || reflexivity).
      rewrite EO, <- app_assoc in H. apply app_inv_head in H.
      destruct k; try congruence; (destruct m3; [discriminate H|]);
        cbn [after_open inner_space lead app] in H;
        match type of H with _ = ?rhs => assert (S : starts rhs) by (apply (child_starts _ None); exact B2) end;
        rewrite <- H in S; now apply not_closing in S.
    + exfalso. inversion K1 as [|? ? B1 _]; subst.
      rewrite items_cons, <- !app_assoc in H.
      assert (EO : empty_text k = opening k ++ closing k) by (destruct k; congruence || reflexivity).
      rewrite EO, <- app_assoc in H. apply app_inv_head in H.
      destruct k; try congruence; (destruct m1; [discriminate H|]);
        cbn [after_open inner_space lead app] in H;
        match type of H with ?lhs = _ => assert (S : starts lhs) by (apply (child_starts _ None); exact B1) end;
        rewrite H in S; now apply not_closing in S.
    + inversion K1 as [|? ? B1 _]; subst. inversion K2 as [|? ? B2 _]; subst.
      rewrite <- !app_assoc in H. apply app_inv_head in H.
      assert (M : m1 = m3) by (eapply modes_inj; [exact B1|exact B2|exact H]). subst m3.
      apply app_inv_head in H.
      apply items_inj in H as [M ->]; try assumption; [now rewrite M|].
      intros _. split; discriminate.
Qed.

(** On one line as well as on many. *)
Lemma compact_inj d1 d2 : wf d1 -> wf d2 -> compact d1 = compact d2 -> flat d1 = flat d2.
Proof.
  intros W1 W2 H. rewrite !compact_layout in H.
  apply (readable_all d1 d2 None None [] [] W1 W2 I I). now rewrite H.
Qed.
Lemma pretty_inj d1 d2 : wf d1 -> wf d2 -> pretty d1 = pretty d2 -> flat d1 = flat d2.
Proof.
  intros W1 W2 H. rewrite !pretty_layout in H by assumption.
  apply (readable_all d1 d2 (Some 0%nat) (Some 0%nat) [] [] W1 W2 I I). now rewrite H.
Qed.

End Charset.
