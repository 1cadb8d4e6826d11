(** Names as text: C67 of properties.jsonl. *)

From Verif Require Import Base CoreModel NamesModel PropValues.
From Coq Require Import List NArith Bool Lia ZifyBool ZifyNat ZifyN.
Import ListNotations.
Open Scope N_scope.

(** ** Specification *)

(** The code points that are characters: all but the surrogates. *)
Definition is_char (c : N) : Prop := c < 55296 \/ 57344 <= c < 1114112.
(** UTF-8 *)
Definition utf8 (c : N) : bytes :=
  if c <? 128 then [n2b c]
  else if c <? 2048 then [n2b (192 + c / 64); n2b (128 + c mod 64)]
  else if c <? 65536 then [n2b (224 + c / 4096); n2b (128 + c / 64 mod 64); n2b (128 + c mod 64)]
  else [n2b (240 + c / 262144); n2b (128 + c / 4096 mod 64); n2b (128 + c / 64 mod 64);
        n2b (128 + c mod 64)].
Definition text (cs : list N) : bytes := flat_map utf8 cs.
Definition is_text (bs : bytes) : Prop := exists cs, Forall is_char cs /\ bs = text cs.

(** Dictionary order *)
Fixpoint dictionary (a b : list N) : comparison :=
  match a, b with
  | [], [] => Eq
  | [], _ :: _ => Lt
  | _ :: _, [] => Gt
  | x :: a, y :: b => if x <? y then Lt else if y <? x then Gt else dictionary a b
  end.

(** ** Proofs *)

Lemma b2n_small n : n < 256 -> b2n (n2b n) = n.
Proof. intros H. rewrite b2n_n2b. now apply N.mod_small. Qed.
Lemma b2n_inj a b : b2n a = b2n b -> a = b.
Proof. intros H. now rewrite <- (n2b_b2n a), H, n2b_b2n. Qed.
Lemma n2b_is n b : n = b2n b -> n2b n = b.
Proof. intros ->. apply n2b_b2n. Qed.
Lemma byte_in_spec lo hi b : byte_in lo hi b = true <-> lo <= b2n b <= hi.
Proof. unfold byte_in. rewrite andb_true_iff, !N.leb_le. tauto. Qed.
Lemma byte_in_n lo hi n : n < 256 -> byte_in lo hi (n2b n) = (lo <=? n) && (n <=? hi).
Proof. intros H. unfold byte_in. now rewrite b2n_small. Qed.

Lemma width_utf8 c rest : is_char c -> utf8_width (utf8 c ++ rest) = Some (nlen (utf8 c)).
Proof.
  intros H. unfold is_char in H. unfold utf8.
  destruct (N.ltb_spec c 128); [|destruct (N.ltb_spec c 2048); [|destruct (N.ltb_spec c 65536)]];
    cbn [app utf8_width]; rewrite !byte_in_n, ?b2n_small by lia.
  - assert (X : (0 <=? c) && (c <=? 127) = true) by lia. now rewrite X.
  - assert (X : (0 <=? 192 + c / 64) && (192 + c / 64 <=? 127) = false) by lia. rewrite X.
    assert (Y : (194 <=? 192 + c / 64) && (192 + c / 64 <=? 223) = true) by lia. rewrite Y.
    assert (Z : (128 <=? 128 + c mod 64) && (128 + c mod 64 <=? 191) = true) by lia. now rewrite Z.
  - replace ((0 <=? 224 + c / 4096) && (224 + c / 4096 <=? 127)) with false by lia.
    replace ((194 <=? 224 + c / 4096) && (224 + c / 4096 <=? 223)) with false by lia.
    replace ((224 <=? 224 + c / 4096) && (224 + c / 4096 <=? 239)) with true by lia.
    replace ((128 <=? 128 + c mod 64) && (128 + c mod 64 <=? 191)) with true by lia.
    destruct (N.eqb_spec (224 + c / 4096) 224); [|destruct (N.eqb_spec (224 + c / 4096) 237)].
    + replace ((160 <=? 128 + c / 64 mod 64) && (128 + c / 64 mod 64 <=? 191)) with true by lia. reflexivity.
    + replace ((128 <=? 128 + c / 64 mod 64) && (128 + c / 64 mod 64 <=? 159)) with true by lia. reflexivity.
    + replace ((128 <=? 128 + c / 64 mod 64) && (128 + c / 64 mod 64 <=? 191)) with true by lia. reflexivity.
  - replace ((0 <=? 240 + c / 262144) && (240 + c / 262144 <=? 127)) with false by lia.
    replace ((194 <=? 240 + c / 262144) && (240 + c / 262144 <=? 223)) with false by lia.
    replace ((224 <=? 240 + c / 262144) && (240 + c / 262144 <=? 239)) with false by lia.
    replace ((240 <=? 240 + c / 262144) && (240 + c / 262144 <=? 244)) with true by lia.
    replace ((128 <=? 128 + c mod 64) && (128 + c mod 64 <=? 191)) with true by lia.
    replace ((128 <=? 128 + c / 64 mod 64) && (128 + c / 64 mod 64 <=? 191)) with true by lia.
    destruct (N.eqb_spec (240 + c / 262144) 240); [|destruct (N.eqb_spec (240 + c / 262144) 244)].
    + replace ((144 <=? 128 + c / 4096 mod 64) && (128 + c / 4096 mod 64 <=? 191)) with true by lia. reflexivity.
    + replace ((128 <=? 128 + c / 4096 mod 64) && (128 + c / 4096 mod 64 <=? 143)) with true by lia. reflexivity.
    + replace ((128 <=? 128 + c / 4096 mod 64) && (128 + c / 4096 mod 64 <=? 191)) with true by lia. reflexivity.
Qed.

Lemma width_inv bs w : utf8_width bs = Some w ->
  exists c, is_char c /\ w = nlen (utf8 c) /\ bs = utf8 c ++ drop w bs.
Proof.
  unfold utf8_width. destruct bs as [|a r]; [discriminate|].
  destruct (byte_in 0 127 a) eqn:A1.
  { apply byte_in_spec in A1. intros [= <-]. exists (b2n a). unfold is_char, utf8.
    destruct (N.ltb_spec (b2n a) 128); [|lia]. rewrite n2b_b2n. split; [lia|]. auto. }
  destruct (byte_in 194 223 a) eqn:A2.
  { destruct r as [|b r]; [discriminate|]. destruct (byte_in 128 191 b) eqn:B; [|discriminate].
    apply byte_in_spec in A2, B. intros [= <-]. set (c := (b2n a - 192) * 64 + (b2n b - 128)).
    assert (C : utf8 c = [a; b]).
    { unfold utf8. destruct (N.ltb_spec c 128); [lia|]. destruct (N.ltb_spec c 2048); [|lia].
      f_equal; [|f_equal]; apply n2b_is; lia. }
    exists c. rewrite C. unfold is_char. split; [lia|]. auto. }
  destruct (byte_in 224 239 a) eqn:A3.
  { destruct r as [|b [|d r]]; try discriminate.
    destruct (_ && _) eqn:B; [|discriminate]. apply andb_true_iff in B as [B D].
    assert (B' : 128 <= b2n b <= 191 /\ (b2n a = 224 -> 160 <= b2n b) /\ (b2n a = 237 -> b2n b <= 159)).
    { destruct (N.eqb_spec (b2n a) 224); [|destruct (N.eqb_spec (b2n a) 237)]; apply byte_in_spec in B; lia. }
    clear B. apply byte_in_spec in A3, D. intros [= <-].
    set (c := (b2n a - 224) * 4096 + (b2n b - 128) * 64 + (b2n d - 128)).
    assert (C : utf8 c = [a; b; d]).
    { unfold utf8. destruct (N.ltb_spec c 128); [lia|]. destruct (N.ltb_spec c 2048); [lia|].
      destruct (N.ltb_spec c 65536); [|lia].
      f_equal; [|f_equal; [|f_equal]]; apply n2b_is; lia. }
    exists c. rewrite C. unfold is_char. split; [lia|]. auto. }
  destruct (byte_in 240 244 a) eqn:A4; [|discriminate].
  destruct r as [|b [|d [|e r]]]; try discriminate.
  destruct (_ && _) eqn:B; [|discriminate]. apply andb_true_iff in B as [B F]. apply andb_true_iff in B as [B D].
  assert (B' : 128 <= b2n b <= 191 /\ (b2n a = 240 -> 144 <= b2n b) /\ (b2n a = 244 -> b2n b <= 143)).
  { destruct (N.eqb_spec (b2n a) 240); [|destruct (N.eqb_spec (b2n a) 244)]; apply byte_in_spec in B; lia. }
  clear B. apply byte_in_spec in A4, D, F. intros [= <-].
  set (c := (b2n a - 240) * 262144 + (b2n b - 128) * 4096 + (b2n d - 128) * 64 + (b2n e - 128)).
  assert (C : utf8 c = [a; b; d; e]).
  { unfold utf8. destruct (N.ltb_spec c 128); [lia|]. destruct (N.ltb_spec c 2048); [lia|].
    destruct (N.ltb_spec c 65536); [lia|].
    f_equal; [|f_equal; [|f_equal; [|f_equal]]]; apply n2b_is; lia. }
  exists c. rewrite C. unfold is_char. split; [lia|]. auto.
Qed.

Lemma nlen_utf8 c : 1 <= nlen (utf8 c) <= 4.
Proof.
  unfold utf8. destruct (c <? 128); [|destruct (c <? 2048); [|destruct (c <? 65536)]];
    rewrite !nlen_cons, nlen_nil; lia.
Qed.
Lemma text_app a b : text (a ++ b) = text a ++ text b.
Proof. apply flat_map_app. Qed.

Lemma valid_is_text fuel bs : is_text (take (valid_up_to fuel bs) bs) /\ valid_up_to fuel bs <= nlen bs.
Proof.
  revert bs. induction fuel as [|fuel IH]; intros bs; cbn [valid_up_to].
  { split; [|lia]. exists []. auto. }
  destruct (utf8_width bs) as [w|] eqn:W; [|split; [exists []; auto|lia]].
  destruct (width_inv bs w W) as (c & C & -> & B). destruct (IH (drop (nlen (utf8 c)) bs)) as [(cs & F & T) L].
  set (n := valid_up_to fuel (drop (nlen (utf8 c)) bs)) in *. clearbody n.
  assert (Nb : nlen bs = nlen (utf8 c) + nlen (drop (nlen (utf8 c)) bs)) by (rewrite B at 1; apply nlen_app).
  split; [|lia]. exists (c :: cs). split; [now constructor|]. cbn [text flat_map]. fold (text cs).
  rewrite <- T. rewrite B at 1. rewrite take_app_ge by lia.
  now replace (nlen (utf8 c) + n - nlen (utf8 c)) with n by lia.
Qed.

Lemma valid_max cs : forall fuel rest, Forall is_char cs -> (length (text cs ++ rest) <= fuel)%nat ->
  nlen (text cs) <= valid_up_to fuel (text cs ++ rest).
Proof.
  induction cs as [|c cs IH]; intros fuel rest F L; [cbn [text flat_map]; rewrite nlen_nil; lia|].
  inversion F as [|? ? C F']; subst. cbn [text flat_map] in *. fold (text cs) in *. rewrite <- app_assoc in *.
  pose proof (nlen_utf8 c) as U. unfold nlen in U. rewrite app_length in L.
  destruct fuel as [|fuel]; [lia|]. cbn [valid_up_to]. rewrite width_utf8 by exact C.
  rewrite drop_app by reflexivity. rewrite nlen_app. specialize (IH fuel rest F').
  apply N.add_le_mono_l. apply IH. lia.
Qed.

Lemma from_utf8_spec bs :
  (is_text bs -> from_utf8 bs = inl bs) /\
  (~ is_text bs -> exists n, from_utf8 bs = inr n /\ n < nlen bs /\ is_text (take n bs) /\
     forall m, m <= nlen bs -> is_text (take m bs) -> m <= n).
Proof.
  unfold from_utf8. destruct (valid_is_text (length bs) bs) as [T L].
  assert (M : forall m, m <= nlen bs -> is_text (take m bs) -> m <= valid_up_to (length bs) bs).
  { intros m Lm (cs & F & E). pose proof (valid_max cs (length bs) (drop m bs) F) as V.
    rewrite <- E, take_drop in V. rewrite nlen_take in V. specialize (V (le_n _)). lia. }
  set (n := valid_up_to (length bs) bs) in *. clearbody n. split.
  - intros H. specialize (M (nlen bs) (N.le_refl _)). rewrite take_all in M by lia. specialize (M H).
    now replace (n =? nlen bs) with true by lia.
  - intros H. destruct (N.eqb_spec n (nlen bs)) as [->|Ne].
    + rewrite take_all in T by lia. contradiction.
    + exists n. split; [reflexivity|]. split; [lia|]. auto.
Qed.

(** [as_str] succeeds exactly for text and then returns the name unchanged.
    Otherwise it tells where the text ends. *)
Theorem C67_as_str name :
  (is_text name <-> NodeName_as_str name = inl name) /\
  (forall s, NodeName_as_str name = inl s -> s = name) /\
  (forall n, NodeName_as_str name = inr n ->
     n < nlen name /\ is_text (take n name) /\ forall m, m <= nlen name -> is_text (take m name) -> m <= n) /\
  DeviceName_as_str name = NodeName_as_str name.
Proof.
  destruct (from_utf8_spec name) as [A B]. unfold NodeName_as_str, DeviceName_as_str.
  assert (D : from_utf8 name = inl name \/ exists n, from_utf8 name = inr n).
  { unfold from_utf8. destruct (_ =? _); eauto. }
  assert (C : from_utf8 name = inl name -> is_text name).
  { unfold from_utf8. destruct (N.eqb_spec (valid_up_to (length name) name) (nlen name)) as [e|]; [|discriminate].
    intros _. destruct (valid_is_text (length name) name) as [T _]. rewrite e, take_all in T by lia. exact T. }
  split; [split; auto|]. split; [|split; [|reflexivity]].
  - intros s H. destruct D as [D|[n D]]; congruence.
  - intros n H. assert (Nt : ~ is_text name) by (intros X; apply A in X; congruence).
    destruct (B Nt) as (n' & E & R). rewrite E in H. injection H as ->. exact R.
Qed.

Lemma utf8_ascii c : is_char c -> forall b, b2n b < 128 -> In b (utf8 c) <-> c = b2n b.
Proof.
  intros C b Hb. unfold is_char in C. unfold utf8.
  assert (S : forall n, 128 <= n < 256 -> n2b n <> b).
  { intros n Hn E. apply (f_equal b2n) in E. rewrite b2n_small in E by lia. lia. }
  destruct (N.ltb_spec c 128).
  - cbn [In]. split.
    + intros [<-|[]]. now rewrite b2n_small by lia.
    + intros ->. left. apply n2b_b2n.
  - split; [|lia]. intros I. exfalso.
    destruct (N.ltb_spec c 2048); [|destruct (N.ltb_spec c 65536)]; cbn [In] in I;
      repeat destruct I as [I|I]; try contradiction; revert I; apply S; lia.
Qed.
Lemma text_ascii cs : Forall is_char cs -> forall b, b2n b < 128 -> In b (text cs) <-> In (b2n b) cs.
Proof.
  intros F b Hb. unfold text. rewrite in_flat_map. rewrite Forall_forall in F. split.
  - intros (c & Ic & I). apply utf8_ascii in I; auto. now subst.
  - intros I. exists (b2n b). split; [exact I|]. apply utf8_ascii; auto.
Qed.
Lemma text_nil cs : text cs = [] <-> cs = [].
Proof.
  split; [|now intros ->]. destruct cs as [|c cs]; [reflexivity|]. cbn [text flat_map].
  pose proof (nlen_utf8 c) as U. destruct (utf8 c); [rewrite nlen_nil in U; lia|discriminate].
Qed.

Definition clean (cs : list N) : Prop := ~ In 0 cs /\ ~ In 47 cs.

Lemma clean_text cs : Forall is_char cs -> clean cs -> Forall allowed (text cs).
Proof.
  intros F [C0 C1]. apply Forall_forall. intros b I. split; intros ->.
  - apply C0. now apply (text_ascii cs F x00 eq_refl).
  - apply C1. now apply (text_ascii cs F x2f eq_refl).
Qed.
Lemma first_bad cs : clean cs \/ exists pre x post, cs = pre ++ x :: post /\ clean pre /\ (x = 0 \/ x = 47).
Proof.
  induction cs as [|c cs IH]; [left; split; auto|].
  destruct (N.eqb_spec c 0); [right; exists [], c, cs; repeat split; auto|].
  destruct (N.eqb_spec c 47); [right; exists [], c, cs; repeat split; auto|].
  destruct IH as [[A B]|(pre & x & post & -> & [A B] & X)].
  - left. split; intros [I|I]; auto.
  - right. exists (c :: pre), x, post. split; [reflexivity|]. split; [|exact X]. split; intros [I|I]; auto.
Qed.

(** A node name made from a string: the string is accepted unless it is empty
    or contains U+0000 or '/', and the error is about the first of these. *)
Theorem C67_new cs :
  Forall is_char cs ->
  (NodeName_new (text cs) = inl (text cs) <-> cs <> [] /\ ~ In 0 cs /\ ~ In 47 cs) /\
  (NodeName_new (text cs) = inr NameEmpty <-> cs = []) /\
  (NodeName_new (text cs) = inr NameContainsNul <->
     exists pre post, cs = pre ++ 0 :: post /\ ~ In 0 pre /\ ~ In 47 pre) /\
  (NodeName_new (text cs) = inr NameContainsSlash <->
     exists pre post, cs = pre ++ 47 :: post /\ ~ In 0 pre /\ ~ In 47 pre) /\
  (DeviceName_new (text cs) = inl (text cs) <-> cs <> [] /\ ~ In 0 cs) /\
  (DeviceName_new (text cs) = inr DevEmpty <-> cs = []) /\
  (DeviceName_new (text cs) = inr DevContainsNul <-> In 0 cs).
Proof.
  intros F. unfold NodeName_new, DeviceName_new.
  destruct (C40_node_name (text cs)) as (K1 & _ & K2 & K3 & K4).
  assert (P : forall pre x post, cs = pre ++ x :: post -> Forall is_char pre).
  { intros pre x post ->. apply Forall_app in F. apply F. }
  assert (U : forall pre x post pre' x' post', pre ++ x :: post = pre' ++ x' :: post' -> clean pre -> clean pre' ->
            (x = 0 \/ x = 47) -> (x' = 0 \/ x' = 47) -> pre = pre' /\ x = x').
  { clear. induction pre as [|p pre IH]; intros x post [|p' pre'] x' post' E [C0 C1] [C0' C1'] X X'; cbn [app] in E.
    - injection E as -> _. auto.
    - injection E as -> _. exfalso. destruct X as [->| ->]; [apply C0'|apply C1']; now left.
    - injection E as -> _. exfalso. destruct X' as [->| ->]; [apply C0|apply C1]; now left.
    - injection E as -> E. destruct (IH x post pre' x' post' E) as [-> ->]; auto;
        split; intros I; first [apply C0; now right|apply C1; now right|apply C0'; now right|apply C1'; now right]. }
  assert (N0 : forall pre (x : N) post, [] <> pre ++ x :: post) by (intros [|? ?] x post; discriminate).
  assert (N1 : forall pre x post, clean cs -> cs = pre ++ x :: post -> x = 0 \/ x = 47 -> False).
  { intros pre x post [C0 C1] E X. destruct X as [->| ->]; [apply C0|apply C1]; rewrite E; apply in_or_app; right; now left. }
  assert (D : existsb (Byte.eqb x00) (text cs) = true <-> In 0 cs).
  { rewrite existsb_exists. rewrite <- (text_ascii cs F x00 eq_refl). split.
    - intros (b & I & Eb). apply byte_dec_bl in Eb. now subst.
    - intros I. exists x00. split; [exact I|reflexivity]. }
  split; [|split; [|split; [|split]]].
  - rewrite K1. rewrite text_nil. split.
    + intros [Ne Fa]. split; [exact Ne|]. rewrite Forall_forall in Fa. split; intros I.
      * apply (text_ascii cs F x00 eq_refl) in I. now destruct (Fa _ I).
      * apply (text_ascii cs F x2f eq_refl) in I. now destruct (Fa _ I).
    + intros [Ne C]. split; [exact Ne|]. now apply clean_text.
  - rewrite K2. apply text_nil.
  - destruct (first_bad cs) as [C|(pre & x & post & E & C & X)].
    + split.
      * intros H. exfalso. apply K3 in H as (p & q & E & _).
        pose proof (proj1 (text_ascii cs F x00 eq_refl)) as I. rewrite E in I.
        apply (proj1 C). apply I. apply in_or_app. right. now left.
      * intros (p & q & E & Cp). exfalso. eapply N1; eauto.
    + assert (T : text cs = text pre ++ n2b x :: text post).
      { rewrite E, text_app. cbn [text flat_map]. fold (text post). destruct X as [->| ->]; reflexivity. }
      pose proof (clean_text pre (P _ _ _ E) C) as A. split.
      * intros H. destruct X as [->| ->]; [eauto|]. exfalso.
        assert (S : NodeName_from_bytes (text cs) = inr NameContainsSlash) by (apply K4; eauto). congruence.
      * intros (p & q & E' & Cp). destruct (U pre x post p 0 q) as [_ ->]; auto; [congruence|].
        apply K3. eauto.
  - destruct (first_bad cs) as [C|(pre & x & post & E & C & X)].
    + split.
      * intros H. exfalso. apply K4 in H as (p & q & E & _).
        pose proof (proj1 (text_ascii cs F x2f eq_refl)) as I. rewrite E in I.
        apply (proj2 C). apply I. apply in_or_app. right. now left.
      * intros (p & q & E & Cp). exfalso. eapply N1; eauto.
    + assert (T : text cs = text pre ++ n2b x :: text post).
      { rewrite E, text_app. cbn [text flat_map]. fold (text post). destruct X as [->| ->]; reflexivity. }
      pose proof (clean_text pre (P _ _ _ E) C) as A. split.
      * intros H. destruct X as [->| ->]; [|eauto]. exfalso.
        assert (S : NodeName_from_bytes (text cs) = inr NameContainsNul) by (apply K3; eauto). congruence.
      * intros (p & q & E' & Cp). destruct (U pre x post p 47 q) as [_ ->]; auto; [congruence|].
        apply K4. eauto.
  - unfold DeviceName_from_bytes. rewrite <- text_nil. destruct (text cs) as [|b r] eqn:T.
    + repeat split; try discriminate; try tauto.
      intros I. apply D in I. discriminate.
    + rewrite <- T in *. destruct (existsb (Byte.eqb x00) (text cs)) eqn:X.
      * assert (I : In 0 cs) by now apply D. repeat split; try discriminate; try tauto. rewrite T; discriminate.
      * assert (I : ~ In 0 cs) by (intros Y; apply D in Y; discriminate).
        repeat split; try discriminate; try tauto. all: try (rewrite T; discriminate).
Qed.

Lemma bytes_eq_spec a b : bytes_eq a b = true <-> a = b.
Proof.
  revert b. induction a as [|x a IH]; intros [|y b]; cbn [bytes_eq]; try easy.
  rewrite andb_true_iff, IH. split.
  - intros [H ->]. apply byte_dec_bl in H. now subst.
  - intros [= -> ->]. split; [apply byte_dec_lb|]; reflexivity.
Qed.

(** A name made from bytes: accepted unless the bytes are empty or contain a NUL
    or '/', whichever comes first is reported; the name reads back as the
    bytes, text or not. *)
Theorem C67_try_from bs :
  (NodeName_try_from bs = inl bs <-> bs <> [] /\ ~ In Byte.x00 bs /\ ~ In Byte.x2f bs) /\
  (forall name, NodeName_try_from bs = inl name -> NodeName_as_bytes name = bs) /\
  (NodeName_try_from bs = inr NameEmpty <-> bs = []) /\
  (NodeName_try_from bs = inr NameContainsNul <->
     exists pre post, bs = pre ++ Byte.x00 :: post /\ ~ In Byte.x00 pre /\ ~ In Byte.x2f pre) /\
  (NodeName_try_from bs = inr NameContainsSlash <->
     exists pre post, bs = pre ++ Byte.x2f :: post /\ ~ In Byte.x00 pre /\ ~ In Byte.x2f pre).
Proof.
  assert (A : forall l, Forall allowed l <-> ~ In Byte.x00 l /\ ~ In Byte.x2f l).
  { intros l. rewrite Forall_forall. unfold allowed. split.
    - intros F. split; intros I; now destruct (F _ I).
    - intros [F G] x I. split; intros ->; contradiction. }
  destruct (C40_node_name bs) as (K1 & K2 & K3 & K4 & K5). unfold NodeName_try_from, NodeName_as_bytes.
  rewrite K1, K3, K4, K5, A. split; [reflexivity|]. split; [exact K2|]. split; [reflexivity|].
  split; split; intros (pre & post & X & Y); exists pre, post; (split; [exact X|]); now apply A in Y || apply A.
Qed.


(** Comparing a name with a string or with bytes compares the bytes. *)
Theorem C67_equal name other :
  (NodeName_eq name other = true <-> name = other) /\ (eq_NodeName other name = true <-> name = other) /\
  (DeviceName_eq name other = true <-> name = other) /\ (eq_DeviceName other name = true <-> name = other).
Proof.
  unfold NodeName_eq, eq_NodeName, DeviceName_eq, eq_DeviceName, NodeName_as_bytes, DeviceName_as_bytes.
  rewrite !bytes_eq_spec. intuition congruence.
Qed.

Lemma cmp_prefix p a b : NodeName_cmp (p ++ a) (p ++ b) = NodeName_cmp a b.
Proof. induction p as [|x p IH]; [reflexivity|]. cbn [app NodeName_cmp]. now rewrite N.compare_refl. Qed.

(** The order of names is a total order that agrees with equality, in which a
    proper beginning of a name comes before it. *)
Theorem C67_order a b c :
  (NodeName_cmp a b = Eq <-> a = b) /\
  (NodeName_cmp b a = CompOpp (NodeName_cmp a b)) /\
  (NodeName_cmp a b = Lt -> NodeName_cmp b c = Lt -> NodeName_cmp a c = Lt) /\
  (c <> [] -> NodeName_cmp a (a ++ c) = Lt) /\
  DeviceName_cmp a b = NodeName_cmp a b.
Proof.
  split; [|split; [|split; [|split; [|reflexivity]]]].
  - revert b. induction a as [|x a IH]; intros [|y b]; cbn [NodeName_cmp]; try easy.
    destruct (N.compare_spec (b2n x) (b2n y)) as [H|H|H].
    + apply b2n_inj in H. subst y. rewrite IH. split; [now intros ->|now intros [= ->]].
    + split; [discriminate|]. intros [= -> ->]. lia.
    + split; [discriminate|]. intros [= -> ->]. lia.
  - revert b. induction a as [|x a IH]; intros [|y b]; cbn [NodeName_cmp]; try easy.
    rewrite (N.compare_antisym (b2n x) (b2n y)). destruct (b2n x ?= b2n y); cbn [CompOpp]; auto.
  - revert b c. induction a as [|x a IH]; intros [|y b] [|z c]; cbn [NodeName_cmp]; try easy.
    destruct (N.compare_spec (b2n x) (b2n y)) as [H|H|H]; destruct (N.compare_spec (b2n y) (b2n z)) as [G|G|G];
      try discriminate; intros P Q.
    + rewrite H, G, N.compare_refl. eauto.
    + now rewrite (proj2 (N.compare_lt_iff (b2n x) (b2n z)) ltac:(lia)).
    + now rewrite (proj2 (N.compare_lt_iff (b2n x) (b2n z)) ltac:(lia)).
    + now rewrite (proj2 (N.compare_lt_iff (b2n x) (b2n z)) ltac:(lia)).
  - intros H. rewrite <- (app_nil_r a) at 1. rewrite cmp_prefix. destruct c; [contradiction|reflexivity].
Qed.

Lemma cmp_lt x y a b : x < y < 256 -> NodeName_cmp (n2b x :: a) (n2b y :: b) = Lt.
Proof.
  intros H. cbn [NodeName_cmp]. rewrite !b2n_small by lia. now rewrite (proj2 (N.compare_lt_iff x y) ltac:(lia)).
Qed.
Lemma cmp_same x y a b : x = y -> NodeName_cmp (n2b x :: a) (n2b y :: b) = NodeName_cmp a b.
Proof. intros ->. cbn [NodeName_cmp]. now rewrite N.compare_refl. Qed.

Lemma cmp_utf8 c d r r' : is_char c -> is_char d -> c < d ->
  NodeName_cmp (utf8 c ++ r) (utf8 d ++ r') = Lt.
Proof.
  intros C D L. unfold is_char in C, D. unfold utf8.
  destruct (N.ltb_spec c 128); [|destruct (N.ltb_spec c 2048); [|destruct (N.ltb_spec c 65536)]];
  (destruct (N.ltb_spec d 128); [|destruct (N.ltb_spec d 2048); [|destruct (N.ltb_spec d 65536)]]);
  try lia; cbn [app]; try (apply cmp_lt; lia).
  - destruct (N.eq_dec (c / 64) (d / 64)); [|apply cmp_lt; lia].
    rewrite cmp_same by lia. apply cmp_lt. lia.
  - destruct (N.eq_dec (c / 4096) (d / 4096)); [|apply cmp_lt; lia]. rewrite cmp_same by lia.
    destruct (N.eq_dec (c / 64) (d / 64)); [|apply cmp_lt; lia]. rewrite cmp_same by lia. apply cmp_lt. lia.
  - destruct (N.eq_dec (c / 262144) (d / 262144)); [|apply cmp_lt; lia]. rewrite cmp_same by lia.
    destruct (N.eq_dec (c / 4096) (d / 4096)); [|apply cmp_lt; lia]. rewrite cmp_same by lia.
    destruct (N.eq_dec (c / 64) (d / 64)); [|apply cmp_lt; lia]. rewrite cmp_same by lia. apply cmp_lt. lia.
Qed.

(** Names that are text are ordered by their characters. *)
Theorem C67_text_order a b :
  Forall is_char a -> Forall is_char b -> NodeName_cmp (text a) (text b) = dictionary a b.
Proof.
  intros Fa. revert b. induction Fa as [|x a X Fa IH]; intros b Fb; destruct Fb as [|y b Y Fb].
  - reflexivity.
  - cbn [dictionary text flat_map]. fold (text b). pose proof (nlen_utf8 y) as U.
    destruct (utf8 y); [rewrite nlen_nil in U; lia|reflexivity].
  - cbn [dictionary text flat_map]. fold (text a). pose proof (nlen_utf8 x) as U.
    destruct (utf8 x); [rewrite nlen_nil in U; lia|reflexivity].
  - cbn [dictionary text flat_map]. fold (text a). fold (text b).
    destruct (N.ltb_spec x y); [now apply cmp_utf8|].
    destruct (N.ltb_spec y x).
    + destruct (C67_order (utf8 y ++ text b) (utf8 x ++ text a) []) as (_ & O & _). rewrite O.
      now rewrite cmp_utf8.
    + replace y with x by lia. rewrite cmp_prefix. now apply IH.
Qed.

(** ** Concrete cases *)

(** Four characters of two, two, three and four bytes; a name cut in the middle of a character. *)
Definition sample : list N := [233; 937; 28450; 128578].
Definition sample_bytes : bytes :=
  [xc3; xa9; xce; xa9; xe6; xbc; xa2; xf0; x9f; x99; x82].
Example C67_as_str_example :
  Forall is_char sample /\ text sample = sample_bytes /\
  NodeName_as_str sample_bytes = inl sample_bytes /\
  NodeName_as_str (take 10 sample_bytes) = inr 7 /\
  (* an encoded surrogate, a character encoded too long, one beyond U+10FFFF *)
  NodeName_as_str [x61; xed; xa0; x80] = inr 1 /\ NodeName_as_str [xc0; xaf] = inr 0 /\
  NodeName_as_str [x61; x62; xf4; x90; x80; x80] = inr 2.
Proof.
  split; [unfold sample, is_char; repeat constructor; lia|]. vm_compute. repeat split; reflexivity.
Qed.
Example C67_new_example :
  NodeName_new (text sample) = inl (text sample) /\
  NodeName_new (text (233 :: 47 :: sample ++ [0])) = inr NameContainsSlash /\
  NodeName_new (text (233 :: 0 :: sample ++ [47])) = inr NameContainsNul /\
  DeviceName_new (text (233 :: 47 :: sample)) = inl (text (233 :: 47 :: sample)).
Proof. vm_compute. repeat split; reflexivity. Qed.
Example C67_try_from_example :
  NodeName_try_from [Byte.xff; Byte.x2e] = inl [Byte.xff; Byte.x2e] /\
  NodeName_try_from [Byte.xff; Byte.x2f; Byte.x00] = inr NameContainsSlash.
Proof. split; reflexivity. Qed.
Example C67_equal_example :
  NodeName_eq (text sample) sample_bytes = true /\ NodeName_eq (text sample) (take 10 sample_bytes) = false.
Proof. vm_compute. split; reflexivity. Qed.
Example C67_order_example :
  NodeName_cmp [x61; x62] [x61; x62; x01] = Lt /\ NodeName_cmp [x61; x62; x01] [x61; x63] = Lt /\
  NodeName_cmp [x7f] [x80] = Lt.
Proof. vm_compute. repeat split; reflexivity. Qed.
(** U+FFFD comes before U+1F642 although UTF-16 would order them the other way
    round. *)
Example C67_text_order_example :
  Forall is_char [97; 65533] /\ Forall is_char [97; 128578] /\
  NodeName_cmp (text [97; 65533]) (text [97; 128578]) = Lt.
Proof. split; [|split]; [unfold is_char; repeat constructor; lia..|reflexivity]. Qed.

Print Assumptions C67_as_str.
Print Assumptions C67_new.
Print Assumptions C67_try_from.
Print Assumptions C67_equal.
Print Assumptions C67_order.
Print Assumptions C67_text_order.
