(** Bytes, machine integers and byte slices: the vocabulary shared by the
    model, the specifications and the proofs.  Nothing here models a
    particular function of the repository. *)

From Coq Require Import List NArith ZArith Lia Bool.
From Coq Require Export Strings.Byte.
From Coq Require Import ZifyBool ZifyNat ZifyN.
Import ListNotations.
Open Scope N_scope.

Ltac Zify.zify_post_hook ::= Z.div_mod_to_equations.

Notation bytes := (list byte).

(** Length of a byte string as an [N] (Rust [usize]; 64-bit targets). *)
Definition nlen {A} (l : list A) : N := N.of_nat (length l).

Definition b2n (b : byte) : N := Byte.to_N b.
Definition n2b (n : N) : byte :=
  match Byte.of_N (n mod 256) with Some b => b | None => x00 end.

Lemma b2n_bound b : b2n b < 256.
Proof. unfold b2n. pose proof (Byte.to_N_bounded b). lia. Qed.

Lemma n2b_b2n b : n2b (b2n b) = b.
Proof.
  unfold n2b, b2n. rewrite N.mod_small by (pose proof (Byte.to_N_bounded b); lia).
  now rewrite Byte.of_to_N.
Qed.

Lemma b2n_n2b n : b2n (n2b n) = n mod 256.
Proof.
  unfold n2b, b2n. destruct (Byte.of_N (n mod 256)) as [b|] eqn:E.
  - now apply Byte.to_of_N.
  - apply Byte.of_N_None_iff in E. lia.
Qed.

(** ** Fixed-width integers

    [Endian] is the byte order of the machine; client and server run on the
    same machine, so both sides use the same one. *)
Class Endian := big_endian : bool.

Fixpoint le_enc (w : nat) (n : N) : bytes :=
  match w with
  | O => []
  | S w' => n2b n :: le_enc w' (n / 256)
  end.

Fixpoint le_dec (bs : bytes) : N :=
  match bs with
  | [] => 0
  | b :: r => b2n b + 256 * le_dec r
  end.

Definition enc {E : Endian} (w : nat) (n : N) : bytes :=
  if big_endian then rev (le_enc w n) else le_enc w n.

Definition dec {E : Endian} (bs : bytes) : N :=
  if big_endian then le_dec (rev bs) else le_dec bs.

Lemma le_enc_length w n : length (le_enc w n) = w.
Proof. revert n; induction w; intros; cbn; auto. Qed.

Lemma enc_length {E : Endian} w n : length (enc w n) = w.
Proof. unfold enc. destruct big_endian; rewrite ?rev_length; apply le_enc_length. Qed.

Lemma le_dec_enc w n : n < 256 ^ N.of_nat w -> le_dec (le_enc w n) = n.
Proof.
  revert n; induction w as [|w IH]; intros n H.
  - cbn in *. lia.
  - cbn [le_enc le_dec]. rewrite b2n_n2b, IH.
    + pose proof (N.div_mod n 256). lia.
    + replace (N.of_nat (S w)) with (N.succ (N.of_nat w)) in H by lia.
      rewrite N.pow_succ_r' in H. apply N.div_lt_upper_bound; lia.
Qed.

Lemma dec_enc {E : Endian} w n : n < 256 ^ N.of_nat w -> dec (enc w n) = n.
Proof.
  intros. unfold dec, enc. destruct big_endian; rewrite ?rev_involutive; now apply le_dec_enc.
Qed.

Lemma le_dec_bound bs : le_dec bs < 256 ^ nlen bs.
Proof.
  unfold nlen. induction bs as [|b r IH]; cbn [le_dec length].
  - cbn. lia.
  - replace (N.of_nat (S (length r))) with (N.succ (N.of_nat (length r))) by lia.
    rewrite N.pow_succ_r'. pose proof (b2n_bound b). lia.
Qed.

Lemma dec_bound {E : Endian} bs : dec bs < 256 ^ nlen bs.
Proof.
  unfold dec. destruct big_endian; [|apply le_dec_bound].
  pose proof (le_dec_bound (rev bs)) as H. unfold nlen in *. now rewrite rev_length in H.
Qed.

Lemma le_enc_dec bs : le_enc (length bs) (le_dec bs) = bs.
Proof.
  induction bs as [|b r IH]; cbn [length le_enc le_dec]; auto.
  pose proof (b2n_bound b).
  replace ((b2n b + 256 * le_dec r) / 256) with (le_dec r) by lia.
  rewrite IH. f_equal.
  unfold n2b. replace ((b2n b + 256 * le_dec r) mod 256) with (b2n b) by lia.
  unfold b2n. now rewrite Byte.of_to_N.
Qed.

Lemma enc_dec {E : Endian} bs : enc (length bs) (dec bs) = bs.
Proof.
  unfold enc, dec. destruct big_endian; [|apply le_enc_dec].
  rewrite <- (rev_length bs), le_enc_dec. apply rev_involutive.
Qed.

Lemma enc_nil {E : Endian} n : enc 0 n = [].
Proof. unfold enc; destruct big_endian; reflexivity. Qed.

Lemma nlen_enc {E : Endian} w n : nlen (enc w n) = N.of_nat w.
Proof. unfold nlen. now rewrite enc_length. Qed.

(** ** Slices *)

Definition take {A} (n : N) (l : list A) : list A := firstn (N.to_nat n) l.
Definition drop {A} (n : N) (l : list A) : list A := skipn (N.to_nat n) l.
Definition slice {A} (off len : N) (l : list A) : list A := take len (drop off l).

Lemma nlen_app {A} (a b : list A) : nlen (a ++ b) = nlen a + nlen b.
Proof. unfold nlen. rewrite app_length. lia. Qed.
Lemma nlen_nil {A} : nlen (@nil A) = 0.
Proof. reflexivity. Qed.
Lemma nlen_cons {A} (a : A) l : nlen (a :: l) = 1 + nlen l.
Proof. unfold nlen. cbn [length]. lia. Qed.
Lemma nlen_0 {A} (l : list A) : nlen l = 0 -> l = [].
Proof. destruct l; auto. rewrite nlen_cons. lia. Qed.

Lemma nlen_take {A} n (l : list A) : nlen (take n l) = N.min n (nlen l).
Proof. unfold nlen, take. rewrite firstn_length. lia. Qed.
Lemma nlen_drop {A} n (l : list A) : nlen (drop n l) = nlen l - n.
Proof. unfold nlen, drop. rewrite skipn_length. lia. Qed.
Lemma nlen_slice {A} off len (l : list A) :
  nlen (slice off len l) = N.min len (nlen l - off).
Proof. unfold slice. now rewrite nlen_take, nlen_drop. Qed.
Lemma nlen_map {A B} (f : A -> B) l : nlen (map f l) = nlen l.
Proof. unfold nlen. now rewrite map_length. Qed.
Lemma nlen_rev {A} (l : list A) : nlen (rev l) = nlen l.
Proof. unfold nlen. now rewrite rev_length. Qed.
Lemma nlen_repeat {A} (a : A) n : nlen (repeat a n) = N.of_nat n.
Proof. unfold nlen. now rewrite repeat_length. Qed.

Lemma take_0 {A} (l : list A) : take 0 l = [].
Proof. reflexivity. Qed.
Lemma drop_0 {A} (l : list A) : drop 0 l = l.
Proof. reflexivity. Qed.
Lemma take_drop {A} n (l : list A) : take n l ++ drop n l = l.
Proof. apply firstn_skipn. Qed.
Lemma take_all {A} n (l : list A) : nlen l <= n -> take n l = l.
Proof. unfold nlen, take. intros. apply firstn_all2. lia. Qed.
Lemma drop_all {A} n (l : list A) : nlen l <= n -> drop n l = [].
Proof. unfold nlen, drop. intros. apply skipn_all2. lia. Qed.

Lemma take_app {A} (a b : list A) n : n = nlen a -> take n (a ++ b) = a.
Proof.
  intros ->. unfold take, nlen. rewrite Nat2N.id, firstn_app, firstn_all, Nat.sub_diag.
  cbn. apply app_nil_r.
Qed.
Lemma drop_app {A} (a b : list A) n : n = nlen a -> drop n (a ++ b) = b.
Proof.
  intros ->. unfold drop, nlen. rewrite Nat2N.id, skipn_app, skipn_all, Nat.sub_diag.
  reflexivity.
Qed.
Lemma take_app_le {A} (a b : list A) n : n <= nlen a -> take n (a ++ b) = take n a.
Proof.
  unfold take, nlen; intros. rewrite firstn_app.
  replace (N.to_nat n - length a)%nat with O by lia. cbn. apply app_nil_r.
Qed.
Lemma take_app_ge {A} (a b : list A) n :
  nlen a <= n -> take n (a ++ b) = a ++ take (n - nlen a) b.
Proof.
  unfold take, nlen; intros. rewrite firstn_app, firstn_all2 by lia. do 2 f_equal. lia.
Qed.
Lemma drop_app_ge {A} (a b : list A) n : nlen a <= n -> drop n (a ++ b) = drop (n - nlen a) b.
Proof.
  unfold drop, nlen; intros. rewrite skipn_app, skipn_all2 by lia. cbn. f_equal. lia.
Qed.
Lemma drop_app_le {A} (a b : list A) n : n <= nlen a -> drop n (a ++ b) = drop n a ++ b.
Proof.
  unfold drop, nlen; intros. rewrite skipn_app.
  replace (N.to_nat n - length a)%nat with O by lia. reflexivity.
Qed.
Lemma drop_drop {A} n m (l : list A) : drop n (drop m l) = drop (m + n) l.
Proof.
  unfold drop. rewrite N2Nat.inj_add. revert l.
  induction (N.to_nat m) as [|k IH]; intros; cbn; auto.
  destruct l; cbn; auto. now rewrite skipn_nil.
Qed.
Lemma take_take {A} n m (l : list A) : take n (take m l) = take (N.min n m) l.
Proof. unfold take. rewrite firstn_firstn. f_equal. lia. Qed.
Lemma drop_take {A} n m (l : list A) : drop n (take m l) = take (m - n) (drop n l).
Proof.
  unfold drop, take. rewrite firstn_skipn_comm.
  destruct (N.le_ge_cases n m).
  - do 2 f_equal. lia.
  - rewrite !skipn_all2; auto; rewrite firstn_length; lia.
Qed.

Lemma slice_take {A} off len n (l : list A) :
  off + len <= n -> slice off len (take n l) = slice off len l.
Proof.
  intros. unfold slice. rewrite drop_take, take_take. f_equal. lia.
Qed.
Lemma slice_app {A} off len (a b : list A) :
  nlen a <= off -> slice off len (a ++ b) = slice (off - nlen a) len b.
Proof. intros. unfold slice. now rewrite drop_app_ge. Qed.
Lemma slice_app_l {A} off len (a b : list A) :
  off + len <= nlen a -> slice off len (a ++ b) = slice off len a.
Proof.
  intros. unfold slice. rewrite drop_app_le by lia. apply take_app_le. rewrite nlen_drop. lia.
Qed.
Lemma slice_0 {A} (a b : list A) n : n = nlen a -> slice 0 n (a ++ b) = a.
Proof. intros. unfold slice. rewrite drop_0. now apply take_app. Qed.
Lemma slice_slice {A} o1 l1 o2 l2 (l : list A) :
  o2 + l2 <= l1 -> slice o2 l2 (slice o1 l1 l) = slice (o1 + o2) l2 l.
Proof.
  intros. unfold slice. rewrite drop_take, take_take, drop_drop. f_equal. lia.
Qed.
Lemma take_map {A B} (f : A -> B) n l : take n (map f l) = map f (take n l).
Proof. unfold take. apply firstn_map. Qed.

(** An integer field of width [w] at byte offset [off]. *)
Definition fld {E : Endian} (w : nat) (off : N) (bs : bytes) : N :=
  dec (slice off (N.of_nat w) bs).
Definition u16_at {E : Endian} := fld 2.
Definition u32_at {E : Endian} := fld 4.
Definition u64_at {E : Endian} := fld 8.

Definition U16 : N := 65536.
Definition U32 : N := 4294967296.
Definition U64 : N := 18446744073709551616.
Definition I64 : N := 9223372036854775808.

Lemma fld_bound {E : Endian} w off bs : fld w off bs < 256 ^ N.of_nat w.
Proof.
  unfold fld. eapply N.lt_le_trans; [apply dec_bound|].
  apply N.pow_le_mono_r; [lia|]. rewrite nlen_slice. lia.
Qed.
Lemma u32_bound {E : Endian} off bs : u32_at off bs < U32.
Proof. exact (fld_bound 4 off bs). Qed.
Lemma u64_bound {E : Endian} off bs : u64_at off bs < U64.
Proof. exact (fld_bound 8 off bs). Qed.
Lemma u16_bound {E : Endian} off bs : u16_at off bs < U16.
Proof. exact (fld_bound 2 off bs). Qed.

(** ** C structs as sequences of integer fields

    [wire l] is the byte image of a C struct without implicit padding whose
    fields, in order, have the given widths (in bytes) and values. *)
Definition field : Type := nat * N.
Definition u16 (v : N) : field := (2%nat, v).
Definition u32 (v : N) : field := (4%nat, v).
Definition u64 (v : N) : field := (8%nat, v).

Fixpoint wire {E : Endian} (l : list field) : bytes :=
  match l with
  | [] => []
  | (w, v) :: r => enc w v ++ wire r
  end.

Fixpoint fields_size (l : list field) : N :=
  match l with [] => 0 | (w, _) :: r => N.of_nat w + fields_size r end.

Fixpoint field_at (off : N) (l : list field) : option field :=
  match l with
  | [] => None
  | (w, v) :: r =>
    if off =? 0 then Some (w, v)
    else if off <? N.of_nat w then None
    else field_at (off - N.of_nat w) r
  end.

Lemma nlen_wire {E : Endian} l : nlen (wire l) = fields_size l.
Proof.
  induction l as [|[w v] r IH]; cbn [wire fields_size]; auto.
  now rewrite nlen_app, nlen_enc, IH.
Qed.

Lemma fld_wire {E : Endian} l rest off w v :
  field_at off l = Some (w, v) -> v < 256 ^ N.of_nat w ->
  fld w off (wire l ++ rest) = v.
Proof.
  revert off; induction l as [|[w' v'] r IH]; intros off H Hb; cbn [field_at] in H; [easy|].
  cbn [wire]. rewrite <- app_assoc.
  destruct (off =? 0) eqn:E0.
  - injection H as -> ->. assert (off = 0) by lia. subst.
    unfold fld. rewrite slice_0 by (now rewrite nlen_enc). now apply dec_enc.
  - destruct (off <? N.of_nat w') eqn:E1; [easy|].
    unfold fld in *. rewrite slice_app by (rewrite nlen_enc; lia).
    rewrite nlen_enc. now apply IH.
Qed.

Lemma fld_app {E : Endian} w off a b :
  nlen a <= off -> fld w off (a ++ b) = fld w (off - nlen a) b.
Proof. intros. unfold fld. now rewrite slice_app. Qed.
Lemma fld_app_l {E : Endian} w off a b :
  off + N.of_nat w <= nlen a -> fld w off (a ++ b) = fld w off a.
Proof. intros. unfold fld. now rewrite slice_app_l. Qed.
Lemma fld_take {E : Endian} w off n a :
  off + N.of_nat w <= n -> fld w off (take n a) = fld w off a.
Proof. intros. unfold fld. now rewrite slice_take. Qed.
Lemma fld_slice {E : Endian} w off o n a :
  off + N.of_nat w <= n -> fld w off (slice o n a) = fld w (o + off) a.
Proof. intros. unfold fld. now rewrite slice_slice. Qed.

(** ** Arithmetic helpers named after the Rust operations *)

Definition u32_max : N := 4294967295.
Definition u64_max : N := 18446744073709551615.
Definition i64_max : N := 9223372036854775807.

(** [a.saturating_add(b)] on [u64]/[usize]. *)
Definition sat_add64 (a b : N) : N := N.min u64_max (a + b).
(** [a.wrapping_mul(b)] on [u32]. *)
Definition wrap32 (a : N) : N := a mod U32.
(** [x as i64 as a mathematical integer], [x : u64]. *)
Definition as_i64 (x : N) : Z := if x <? I64 then Z.of_N x else (Z.of_N x - 2 ^ 64)%Z.
(** [x as u64], [x : i64]. *)
Definition i64_as_u64 (x : Z) : N := Z.to_N (x mod 2 ^ 64)%Z.
(** [x as u32] bit pattern of an [i32]. *)
Definition i32_as_u32 (x : Z) : N := Z.to_N (x mod 2 ^ 32)%Z.
Definition as_i32 (x : N) : Z :=
  if x <? 2147483648 then Z.of_N x else (Z.of_N x - 2 ^ 32)%Z.

Lemma as_i64_of_i64 x : (- 2 ^ 63 <= x < 2 ^ 63)%Z -> as_i64 (i64_as_u64 x) = x.
Proof.
  intros. unfold as_i64, i64_as_u64, I64.
  destruct (Z.to_N (x mod 2 ^ 64) <? 9223372036854775808) eqn:E.
  - destruct (Z.ltb_spec x 0); lia.
  - destruct (Z.ltb_spec x 0); lia.
Qed.
Lemma i64_as_u64_of x : x < U64 -> i64_as_u64 (as_i64 x) = x.
Proof.
  intros. unfold as_i64, i64_as_u64, I64, U64 in *.
  destruct (x <? 9223372036854775808) eqn:E; lia.
Qed.
Lemma i64_as_u64_bound x : i64_as_u64 x < U64.
Proof. unfold i64_as_u64, U64. lia. Qed.
Lemma i32_as_u32_bound x : i32_as_u32 x < U32.
Proof. unfold i32_as_u32, U32. lia. Qed.
Lemma as_i32_of_i32 x : (- 2 ^ 31 <= x < 2 ^ 31)%Z -> as_i32 (i32_as_u32 x) = x.
Proof.
  intros. unfold as_i32, i32_as_u32.
  destruct (Z.to_N (x mod 2 ^ 32) <? 2147483648) eqn:E; lia.
Qed.

(** ** Boolean reflection helpers *)
Lemma byte_eqb_eq (a b : byte) : Byte.eqb a b = true <-> a = b.
Proof. split; [apply Byte.byte_dec_bl | apply Byte.byte_dec_lb]. Qed.
Lemma byte_eqb_neq (a b : byte) : Byte.eqb a b = false <-> a <> b.
Proof.
  rewrite <- byte_eqb_eq. now destruct (Byte.eqb a b).
Qed.

Lemma testbit_land_pow2 v k : (N.land v (2 ^ k) =? 0) = negb (N.testbit v k).
Proof.
  destruct (N.testbit v k) eqn:E; cbn [negb].
  - apply N.eqb_neq. intros H.
    assert (N.testbit (N.land v (2 ^ k)) k = true)
      by (rewrite N.land_spec, E, N.pow2_bits_true; reflexivity).
    rewrite H, N.bits_0 in *. discriminate.
  - apply N.eqb_eq. apply N.bits_inj. intros i. rewrite N.land_spec, N.bits_0.
    destruct (N.eq_dec i k) as [->|Hn]; [now rewrite E|].
    rewrite N.pow2_bits_false by congruence. apply andb_false_r.
Qed.
