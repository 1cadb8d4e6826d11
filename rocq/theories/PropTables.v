(** Properties C45 and C46: the node and handle tables of a file system served
    by any number of threads. *)

From Verif Require Import Base Kernel CoreModel DecodeModel OpsModel ReplyModel ServerModel ReplySpec
  VfsModel VfsSpec WireSpec VfsRun.
From Coq Require Import List NArith ZArith Bool Lia FinFun.
From Coq Require Import ZifyBool ZifyNat ZifyN.
Import ListNotations.
Open Scope N_scope.

Section Tables.
Context {E : Endian} {W Node FH DH : Type} (U : user W Node FH DH) (os : OsErrors) (cf : config).
Notation label := (label Node FH DH).
Notation steps := (@steps E W Node FH DH U os cf).
Notation step := (@step E W Node FH DH U os cf).

Lemma count_app {A} (f : A -> N) a b : count f (a ++ b) = count f a + count f b.
Proof.
  unfold count. induction a as [|x a IH]; cbn [app fold_right]; lia.
Qed.

(** What an action did to the tables. *)
Definition nodes_after (e : event Node FH DH) (m : N -> option (Node * N)) :=
  match e with
  | EvNodeAdd i n => NodeMap_add (cf_overflow_checks cf) i n m
  | EvNodeForget items => Some (NodeMap_forget items m)
  | _ => Some m
  end.

Lemma step_nodes s l s' :
  step s l s' ->
  match l with
  | Did _ e => nodes_after e (v_nodes (sv_vfs s)) = Some (v_nodes (sv_vfs s')) /\
               (forall i o, e = EvNodeGet i o -> o = NodeMap_get i (v_nodes (sv_vfs s)))
  | _ => v_nodes (sv_vfs s') = v_nodes (sv_vfs s)
  end.
Proof.
  intros H. destruct H as [i p ev e p' v v' w w' ts _ X| |]; [|reflexivity|reflexivity].
  cbn [sv_vfs]. destruct p; cbn [exec] in X; try discriminate.
  - destruct (f w) as [w1 a]. injection X as <- <- <- <-. split; [reflexivity|discriminate].
  - injection X as <- <- <- <-. split; [reflexivity|]. intros ? ? H. now injection H as <- <-.
  - destruct (NodeMap_add _ _ _ _) eqn:A; injection X as <- <- <- <-; (split; [|discriminate]).
    + exact A.
    + reflexivity.
  - injection X as <- <- <- <-. split; [reflexivity|discriminate].
  - unfold HandlesMap_open_file in X. destruct (incr64 _ _); injection X as <- <- <- <-;
      (split; [reflexivity|discriminate]).
  - unfold HandlesMap_open_dir in X. destruct (incr64 _ _); injection X as <- <- <- <-;
      (split; [reflexivity|discriminate]).
  - injection X as <- <- <- <-. split; [reflexivity|discriminate].
  - injection X as <- <- <- <-. split; [reflexivity|discriminate].
  - destruct (HandlesMap_get_file _ _ _); [destruct (u_release _ _ _ _) as [w1 [z|]]|];
      injection X as <- <- <- <-; (split; [reflexivity|discriminate]).
  - destruct (HandlesMap_get_dir _ _ _); [destruct (u_releasedir _ _ _ _) as [w1 [z|]]|];
      injection X as <- <- <- <-; (split; [reflexivity|discriminate]).
  - injection X as <- <- <- <-. split; [reflexivity|discriminate].
Qed.

(** *** Counting *)

(** The lookup count of [id]: never below zero. *)
Definition net1 (id : N) (c : N) (l : label) : N :=
  match l with
  | Did _ (EvNodeAdd i _) => if i =? id then c + 1 else c
  | Did _ (EvNodeForget items) => c - named id items
  | _ => c
  end.
Definition net (id : N) (tr : list label) : N := fold_left (net1 id) tr 0.

Lemma net_snoc id tr l : net id (tr ++ [l]) = net1 id (net id tr) l.
Proof. unfold net. now rewrite fold_left_app. Qed.

Lemma one {A} (f : A -> N) a : count f [a] = f a.
Proof. cbn. lia. Qed.

Lemma snoc_split {A} (tr : list A) l before since :
  tr ++ [l] = before ++ since ->
  (since = [] /\ before = tr ++ [l]) \/ exists s, since = s ++ [l] /\ tr = before ++ s.
Proof.
  intros H. destruct since as [|x since] using rev_ind.
  - left. rewrite app_nil_r in H. auto.
  - right. rewrite app_assoc in H. apply app_inj_tail in H as [-> ->]. eauto.
Qed.

Lemma net_spec id tr :
  (forall before since, tr = before ++ since -> lookups id since <= forgets id since + net id tr) /\
  (exists before since, tr = before ++ since /\ lookups id since = forgets id since + net id tr).
Proof.
  induction tr as [|l tr [IH1 (b0 & s0 & -> & IH2)]] using rev_ind.
  - split.
    + intros b s H. symmetry in H. apply app_eq_nil in H as [-> ->]. cbn. lia.
    + exists [], []. split; [reflexivity|]. cbn. lia.
  - set (tr := b0 ++ s0) in *. rewrite net_snoc. set (c := net id tr) in *.
    assert (S1 : forall s, lookups id (s ++ [l]) = lookups id s + lookups id [l])
      by (intros; apply count_app).
    assert (S2 : forall s, forgets id (s ++ [l]) = forgets id s + forgets id [l])
      by (intros; apply count_app).
    unfold lookups in S1 at 3. unfold forgets in S2 at 3. rewrite !one in *.
    set (a := match l with Did _ (EvNodeAdd i _) => if i =? id then 1 else 0 | _ => 0 end) in *.
    set (f := match l with Did _ (EvNodeForget items) => named id items | _ => 0 end) in *.
    assert (C : net1 id c l = c + a - f /\ (a = 0 \/ f = 0)).
    { unfold net1, a, f. destruct l as [j []| |]; try (split; [lia|auto]).
      destruct (_ =? _); split; lia. }
    destruct C as [-> C]. split.
    + intros b s H. apply snoc_split in H as [[-> _]|(s' & -> & H)]; [cbn; lia|].
      rewrite S1, S2. specialize (IH1 b s' H). lia.
    + destruct (N.le_gt_cases f c).
      * exists b0, (s0 ++ [l]). split; [now rewrite app_assoc|]. rewrite S1, S2. lia.
      * exists (tr ++ [l]), []. split; [now rewrite app_nil_r|]. cbn. lia.
Qed.

Lemma net_pos id tr :
  0 < net id tr <-> exists before since, tr = before ++ since /\ forgets id since < lookups id since.
Proof.
  destruct (net_spec id tr) as [H1 (b & s & H2 & H3)]. split.
  - intros. exists b, s. split; auto. lia.
  - intros (b' & s' & H & L). specialize (H1 b' s' H). lia.
Qed.

Lemma net_le id tr : net id tr <= lookups id tr.
Proof.
  destruct (net_spec id tr) as [_ (b & s & -> & H)]. unfold lookups in *. rewrite count_app. lia.
Qed.

Lemma resolvable_net id tr : resolvable id tr <-> (id = 1 /\ forgets id tr = 0) \/ 0 < net id tr.
Proof. unfold resolvable. rewrite net_pos. reflexivity. Qed.

(** *** The node table *)

Lemma forget_this id items : forall m : N -> option (Node * N),
  NodeMap_forget items m id =
    match m id with
    | Some (n, c) => if named id items =? 0 then Some (n, c)
                     else if c <=? named id items then None else Some (n, c - named id items)
    | None => None
    end.
Proof.
  induction items as [|[i n] items IH]; intros m.
  - cbn. now destruct (m id) as [[n c]|].
  - cbn [NodeMap_forget fold_left]. unfold NodeMap_forget in IH. rewrite IH. clear IH.
    change (named id ((i, n) :: items)) with ((if i =? id then 1 else 0) + named id items).
    set (k := named id items).
    unfold forget_item. cbn [fst].
    destruct (N.eqb_spec i id) as [->|Ne].
    + destruct (m id) as [[n' c]|] eqn:M; [|now rewrite M].
      destruct (N.eqb_spec (c - 1) 0); unfold upd; rewrite N.eqb_refl.
      * replace (1 + k =? 0) with false by lia. replace (c <=? 1 + k) with true by lia. reflexivity.
      * replace (1 + k =? 0) with false by lia.
        destruct (N.eqb_spec k 0) as [->|].
        -- replace (c <=? 1 + 0) with false by lia. do 2 f_equal; lia.
        -- destruct (N.leb_spec (c - 1) k), (N.leb_spec c (1 + k)); try lia; auto; do 2 f_equal; lia.
    + assert (X : forall v, upd m i v id = m id)
        by (intros; unfold upd; destruct (N.eqb_spec id i); congruence).
      replace (0 + k) with k by lia.
      destruct (m i) as [[n' c]|]; [|reflexivity]. destruct (c - 1 =? 0); now rewrite X.
Qed.

Lemma forget_other id items (m : N -> option (Node * N)) :
  named id items = 0 -> NodeMap_forget items m id = m id.
Proof. intros H. rewrite forget_this, H. now destruct (m id) as [[n c]|]. Qed.

(** What the table says about [id] after a history. *)
Definition table_inv (root : Node) (id : N) (tr : list label) (m : N -> option (Node * N)) : Prop :=
  match m id with
  | Some (n, c) => c = net id tr /\ resolvable id tr /\ resolves_to root id tr n
  | None => ~ resolvable id tr
  end.

Lemma resolves_snoc (root : Node) id (tr : list label) l n :
  resolves_to root id tr n -> resolvable id (tr ++ [l]) -> resolves_to root id (tr ++ [l]) n.
Proof.
  intros (b & s & -> & H1 & H2) H3. exists b, (s ++ [l]). split; [now rewrite app_assoc|].
  split; [exact H1|]. intros s1 s2 H. apply snoc_split in H as [[-> ->]|(s3 & -> & ->)].
  - now rewrite app_assoc.
  - eapply H2; eauto.
Qed.

Lemma resolves_new (root : Node) id (tr : list label) i n :
  ~ resolvable id tr -> resolvable id (tr ++ [Did i (EvNodeAdd id n)]) ->
  resolves_to root id (tr ++ [Did i (EvNodeAdd id n)]) n.
Proof.
  intros H1 H2. exists (tr ++ [Did i (EvNodeAdd id n)]), []. split; [now rewrite app_nil_r|].
  split; [right; eauto|]. intros s1 s2 H. symmetry in H. apply app_eq_nil in H as [-> ->].
  now rewrite app_nil_r.
Qed.

Lemma lookups_snoc id (tr : list label) l : lookups id tr <= lookups id (tr ++ [l]).
Proof. unfold lookups. rewrite count_app. lia. Qed.

Lemma forgets_snoc id (tr : list label) l :
  forgets id (tr ++ [l]) = forgets id tr + match l with Did _ (EvNodeForget items) => named id items | _ => 0 end.
Proof. unfold forgets. now rewrite count_app, one. Qed.

(** A step that does not concern [id]. *)
Lemma inv_same (root : Node) id (tr : list label) l m m' :
  table_inv root id tr m -> m' id = m id ->
  net1 id (net id tr) l = net id tr ->
  match l with Did _ (EvNodeForget items) => named id items | _ => 0 end = 0 ->
  table_inv root id (tr ++ [l]) m'.
Proof.
  intros H M C F. unfold table_inv in *. rewrite M.
  assert (R : resolvable id (tr ++ [l]) <-> resolvable id tr).
  { rewrite !resolvable_net, net_snoc, C, forgets_snoc, F. now rewrite N.add_0_r. }
  destruct (m id) as [[n c]|].
  - destruct H as (-> & H1 & H2). rewrite net_snoc, C. split; [reflexivity|].
    split; [now apply R|]. apply resolves_snoc; [auto|now apply R].
  - now rewrite R.
Qed.

Lemma nodes_inv root w tr s id :
  steps (start root w) tr s -> lookups id tr < U64 ->
  table_inv root id tr (v_nodes (sv_vfs s)).
Proof.
  intros H. remember (start root w) as s0. induction H as [s|s tr s1 l s2 H IH St]; subst s.
  - intros _. cbn [start sv_vfs v_nodes Filesystem_new]. unfold table_inv, upd.
    change FUSE_ROOT_ID with 1. destruct (N.eqb_spec id 1) as [->|Ne].
    + split; [reflexivity|]. assert (R : resolvable 1 (@nil label)) by (left; auto). split; [exact R|].
      exists [], []. split; [reflexivity|]. split; [auto|].
      intros s1 s2 X. symmetry in X. apply app_eq_nil in X as [-> ->]. exact R.
    + rewrite resolvable_net. cbn. lia.
  - intros L. specialize (IH eq_refl). assert (L' := lookups_snoc id tr l).
    assert (I : table_inv root id tr (v_nodes (sv_vfs s1))) by (apply IH; lia). clear IH.
    apply step_nodes in St. destruct l as [i e|i rq|].
    2:{ rewrite St. now apply (inv_same root id tr _ _ _ I). }
    2:{ rewrite St. now apply (inv_same root id tr _ _ _ I). }
    destruct St as [St _]. set (m := v_nodes (sv_vfs s1)) in *. set (m' := v_nodes (sv_vfs s2)) in *.
    assert (D : (forall j n, e <> EvNodeAdd j n) -> (forall items, e <> EvNodeForget items) ->
                table_inv root id (tr ++ [Did i e]) m').
    { intros D1 D2. apply (inv_same root id tr _ m); auto.
      - destruct e; cbn [nodes_after] in St; try congruence;
          try (now exfalso; eapply D1); try (now exfalso; eapply D2).
      - destruct e; cbn [net1]; try reflexivity;
          try (now exfalso; eapply D1); try (now exfalso; eapply D2).
      - destruct e; try reflexivity. now exfalso; eapply D2. }
    destruct e; try (apply D; discriminate); clear D; cbn [nodes_after] in St.
    + (* add *)
      unfold NodeMap_add in St. destruct (N.eqb_spec node_id id) as [->|Ne].
      2:{ apply (inv_same root id tr _ m); auto.
          - destruct (m node_id) as [[n c]|]; [destruct (incr64 _ _); [|discriminate]|];
              injection St as <-; unfold upd; destruct (N.eqb_spec id node_id); congruence.
          - cbn [net1]. destruct (N.eqb_spec node_id id); [congruence|reflexivity]. }
      assert (N1 : net id (tr ++ [Did i (EvNodeAdd id node)]) = net id tr + 1).
      { rewrite net_snoc. cbn [net1]. now rewrite N.eqb_refl. }
      assert (R : resolvable id (tr ++ [Did i (EvNodeAdd id node)])).
      { apply resolvable_net. right. lia. }
      unfold table_inv in *. destruct (m id) as [[n c]|] eqn:M.
      * destruct I as (-> & I1 & I2). unfold incr64 in St.
        assert (net id (tr ++ [Did i (EvNodeAdd id node)]) < U64).
        { eapply N.le_lt_trans; [apply net_le|exact L]. }
        replace (net id tr + 1 <? U64) with true in St by lia.
        injection St as <-. unfold upd. rewrite N.eqb_refl. rewrite N1.
        split; [reflexivity|]. split; [exact R|]. now apply resolves_snoc.
      * injection St as <-. unfold upd. rewrite N.eqb_refl.
        split; [|split; [exact R|now apply resolves_new]].
        rewrite resolvable_net in I. lia.
    + (* forget *)
      injection St as <-. destruct (N.eqb_spec (named id items) 0) as [Z|NZ].
      { apply (inv_same root id tr _ m); auto.
        - now rewrite forget_other.
        - cbn [net1]. lia. }
      unfold table_inv in *. rewrite forget_this.
      replace (named id items =? 0) with false by lia.
      assert (N1 : net id (tr ++ [Did i (EvNodeForget items)]) = net id tr - named id items)
        by (now rewrite net_snoc).
      assert (NR : net id tr <= named id items -> ~ resolvable id (tr ++ [Did i (EvNodeForget items)])).
      { intros. rewrite resolvable_net, N1, forgets_snoc. lia. }
      destruct (m id) as [[n c]|] eqn:M.
      * destruct I as (-> & I1 & I2).
        destruct (N.leb_spec (net id tr) (named id items)); [auto|].
        assert (R : resolvable id (tr ++ [Did i (EvNodeForget items)])).
        { apply resolvable_net. right. lia. }
        rewrite N1. split; [reflexivity|]. split; [exact R|]. now apply resolves_snoc.
      * apply NR. rewrite resolvable_net in I. lia.
Qed.

(** In every history of any number of threads: a request about [id] finds a
    node exactly while there were more lookups than forget items since some
    moment (or it is the root, never named in a forget item), and it finds the
    node registered first since [id] became resolvable. *)
Theorem C45_resolves root w tr s i id found s' :
  steps (start root w) tr s -> lookups id tr < U64 ->
  step s (Did i (EvNodeGet id found)) s' ->
  match found with
  | Some node => resolvable id tr /\ resolves_to root id tr node
  | None => ~ resolvable id tr
  end.
Proof.
  intros H L St. pose proof (nodes_inv root w tr s id H L) as I.
  apply step_nodes in St. destruct St as [_ St]. rewrite (St id found eq_refl).
  unfold NodeMap_get, table_inv in *. destruct (v_nodes (sv_vfs s) id) as [[n c]|]; [|exact I].
  now destruct I.
Qed.

Lemma given_le (id : N) tr : Forall real_items tr -> forgets id tr <= @given_up Node FH DH id tr.
Proof.
  induction tr as [|l tr IH]; intros H; [cbn; lia|].
  pose proof (Forall_inv H) as H1. apply Forall_inv_tail in H.
  unfold forgets, given_up in *. cbn [count fold_right] in *.
  fold (count (fun l : label => match l with Did _ (EvNodeForget items) => named id items | _ => 0 end) tr).
  match goal with |- context [fold_right ?g 0 tr] => change (fold_right g 0 tr) with (@given_up Node FH DH id tr) end.
  specialize (IH H). 
  match type of IH with ?a <= ?b => change (a <= @given_up Node FH DH id tr) in IH end.
  apply N.add_le_mono; [|exact IH]. destruct l as [j []| |]; try lia. cbn [real_items] in H1.
  clear - H1. induction items as [|[a b] items IH]; [cbn; lia|].
  pose proof (Forall_inv H1) as H2. specialize (IH (Forall_inv_tail H1)). cbn [snd] in H2.
  unfold named in *. cbn [count fold_right fst snd] in *. unfold count in IH. destruct (a =? id); lia.
Qed.

(** What a client relies on: an id it holds more lookups of than it has given
    up can be used. *)
Theorem C45_held root w tr s i id found s' :
  steps (start root w) tr s -> lookups id tr < U64 -> Forall real_items tr ->
  given_up id tr < lookups id tr ->
  step s (Did i (EvNodeGet id found)) s' -> found <> None.
Proof.
  intros H L R G St ->. apply (C45_resolves root w tr s i id None s' H L St).
  right. exists [], tr. split; [reflexivity|]. pose proof (given_le id tr R). lia.
Qed.

(** The root can be used as long as the client does not forget it. *)
Theorem C45_root root w tr s i found s' :
  steps (start root w) tr s -> lookups 1 tr < U64 -> forgets 1 tr = 0 ->
  step s (Did i (EvNodeGet 1 found)) s' -> found = Some root.
Proof.
  intros H L F St. pose proof (C45_resolves root w tr s i 1 found s' H L St) as X.
  assert (P : forall a b, tr = a ++ b -> resolvable 1 a).
  { intros a b ->. left. split; auto. unfold forgets in *. rewrite count_app in F. lia. }
  destruct found as [n|].
  - destruct X as [_ (b & s0 & -> & [(-> & _ & ->)|(b' & j & -> & X)] & _)]; [reflexivity|].
    exfalso. apply X. eapply P. rewrite <- app_assoc. reflexivity.
  - exfalso. apply X. eapply P. symmetry. apply app_nil_r.
Qed.

(** *** Handles *)

Definition handles_after (e : event Node FH DH) (s s' : vfs Node FH DH) : Prop :=
  match e with
  | EvOpenFile f h => HandlesMap_open_file (cf_overflow_checks cf) f s = Some (h, s')
  | EvOpenDir d h => HandlesMap_open_dir (cf_overflow_checks cf) d s = Some (h, s')
  | EvReleaseFile h found r =>
    found = v_open_files s h /\ (found = None <-> r = NoHandle) /\
    v_next_handle_id s' = v_next_handle_id s /\ v_open_dirs s' = v_open_dirs s /\
    v_open_files s' = match r with Released => upd (v_open_files s) h None | _ => v_open_files s end
  | EvReleaseDir h found r =>
    found = v_open_dirs s h /\ (found = None <-> r = NoHandle) /\
    v_next_handle_id s' = v_next_handle_id s /\ v_open_files s' = v_open_files s /\
    v_open_dirs s' = match r with Released => upd (v_open_dirs s) h None | _ => v_open_dirs s end
  | EvGetFile h found => found = v_open_files s h /\ s' = s
  | EvGetDir h found => found = v_open_dirs s h /\ s' = s
  | _ => v_next_handle_id s' = v_next_handle_id s /\ v_open_files s' = v_open_files s /\
         v_open_dirs s' = v_open_dirs s
  end.

Lemma step_handles s l s' :
  step s l s' ->
  match l with
  | Did _ e => handles_after e (sv_vfs s) (sv_vfs s')
  | _ => sv_vfs s' = sv_vfs s
  end.
Proof.
  intros H. destruct H as [i p ev e p' v v' w w' ts _ X| |]; [|reflexivity|reflexivity].
  cbn [sv_vfs]. destruct p; cbn [exec] in X; try discriminate.
  - destruct (f w) as [w1 a]. injection X as <- <- <- <-. cbn. auto.
  - injection X as <- <- <- <-. cbn. auto.
  - destruct (NodeMap_add _ _ _ _) eqn:A; injection X as <- <- <- <-; cbn; auto.
  - injection X as <- <- <- <-. cbn. auto.
  - destruct (HandlesMap_open_file _ _ _) as [[j v1]|] eqn:O; injection X as <- <- <- <-; cbn; auto.
  - destruct (HandlesMap_open_dir _ _ _) as [[j v1]|] eqn:O; injection X as <- <- <- <-; cbn; auto.
  - injection X as <- <- <- <-. cbn. auto.
  - injection X as <- <- <- <-. cbn. auto.
  - destruct (HandlesMap_get_file _ _ _) eqn:G; [destruct (u_release _ _ _ _) as [w1 [z|]]|];
      injection X as <- <- <- <-; cbn; unfold HandlesMap_get_file in G; rewrite G;
      repeat split; try discriminate; auto.
  - destruct (HandlesMap_get_dir _ _ _) eqn:G; [destruct (u_releasedir _ _ _ _) as [w1 [z|]]|];
      injection X as <- <- <- <-; cbn; unfold HandlesMap_get_dir in G; rewrite G;
      repeat split; try discriminate; auto.
  - injection X as <- <- <- <-. cbn. auto.
Qed.

Lemma handles_snoc (tr : list label) l :
  handles (tr ++ [l]) = handles tr ++
    match l with Did _ (EvOpenFile _ h) => [h] | Did _ (EvOpenDir _ h) => [h] | _ => [] end.
Proof. unfold handles. rewrite flat_map_app. cbn [flat_map]. now rewrite app_nil_r. Qed.

Definition up_to (k : N) : list N := map (fun n => N.of_nat (S n)) (seq 0 (N.to_nat k)).

Lemma up_to_S k : up_to (k + 1) = up_to k ++ [k + 1].
Proof.
  unfold up_to. replace (N.to_nat (k + 1)) with (N.to_nat k + 1)%nat by lia.
  rewrite seq_app, map_app. cbn [seq map]. do 2 f_equal. lia.
Qed.
Lemma in_up_to k h : In h (up_to k) <-> 1 <= h <= k.
Proof.
  unfold up_to. rewrite in_map_iff. split.
  - intros (n & <- & H). apply in_seq in H. lia.
  - intros H. exists (N.to_nat (h - 1)). split; [lia|]. apply in_seq. lia.
Qed.
Lemma nodup_up_to k : NoDup (up_to k).
Proof.
  unfold up_to. apply FinFun.Injective_map_NoDup; [|apply seq_NoDup]. intros a b H. lia.
Qed.
Lemma nlen_up_to k : nlen (up_to k) = k.
Proof. unfold nlen, up_to. rewrite map_length, seq_length. lia. Qed.

Definition file_label (l : label) : option (N * option FH) :=
  match l with
  | Did _ (EvOpenFile f h) => Some (h, Some f)
  | Did _ (EvReleaseFile h _ Released) => Some (h, None)
  | _ => None
  end.
Definition dir_label (l : label) : option (N * option DH) :=
  match l with
  | Did _ (EvOpenDir f h) => Some (h, Some f)
  | Did _ (EvReleaseDir h _ Released) => Some (h, None)
  | _ => None
  end.

Lemma live_file_snoc (tr : list label) l h f :
  live_file (tr ++ [l]) h f <->
  (exists i, l = Did i (EvOpenFile f h)) \/
  (live_file tr h f /\ ~ exists j g, l = Did j (EvReleaseFile h g Released)).
Proof.
  split.
  - intros (b & i & s & H & N). destruct s as [|x s] using rev_ind.
    + apply app_inj_tail in H as [-> ->]. left. eauto.
    + clear IHs. right. change (b ++ Did i (EvOpenFile f h) :: s ++ [x])
        with (b ++ (Did i (EvOpenFile f h) :: s) ++ [x]) in H.
      rewrite app_assoc in H. apply app_inj_tail in H as [-> ->]. split.
      * exists b, i, s. split; auto. intros (j & g & X). apply N. exists j, g. apply in_or_app. auto.
      * intros (j & g & ->). apply N. exists j, g. apply in_or_app. right. now left.
  - intros [[i ->]|[(b & i & s & -> & N) N2]].
    + exists tr, i, []. split; auto. intros (j & g & []).
    + exists b, i, (s ++ [l]). split; [now rewrite <- app_assoc|].
      intros (j & g & X). apply in_app_or in X as [X|[X|[]]]; [apply N|apply N2]; eauto.
Qed.
Lemma live_dir_snoc (tr : list label) l h f :
  live_dir (tr ++ [l]) h f <->
  (exists i, l = Did i (EvOpenDir f h)) \/
  (live_dir tr h f /\ ~ exists j g, l = Did j (EvReleaseDir h g Released)).
Proof.
  split.
  - intros (b & i & s & H & N). destruct s as [|x s] using rev_ind.
    + apply app_inj_tail in H as [-> ->]. left. eauto.
    + clear IHs. right. change (b ++ Did i (EvOpenDir f h) :: s ++ [x])
        with (b ++ (Did i (EvOpenDir f h) :: s) ++ [x]) in H.
      rewrite app_assoc in H. apply app_inj_tail in H as [-> ->]. split.
      * exists b, i, s. split; auto. intros (j & g & X). apply N. exists j, g. apply in_or_app. auto.
      * intros (j & g & ->). apply N. exists j, g. apply in_or_app. right. now left.
  - intros [[i ->]|[(b & i & s & -> & N) N2]].
    + exists tr, i, []. split; auto. intros (j & g & []).
    + exists b, i, (s ++ [l]). split; [now rewrite <- app_assoc|].
      intros (j & g & X). apply in_app_or in X as [X|[X|[]]]; [apply N|apply N2]; eauto.
Qed.

Lemma live_file_given tr h f : live_file tr h f -> In h (@handles Node FH DH tr).
Proof.
  intros (b & i & s & -> & _). unfold handles. rewrite flat_map_app. apply in_or_app. right. now left.
Qed.
Lemma live_dir_given tr h f : live_dir tr h f -> In h (@handles Node FH DH tr).
Proof.
  intros (b & i & s & -> & _). unfold handles. rewrite flat_map_app. apply in_or_app. right. now left.
Qed.

Lemma handles_inv root w tr s :
  steps (start root w) tr s -> nlen (handles tr) < U64 ->
  let k := nlen (handles tr) in
  handles tr = up_to k /\
  v_next_handle_id (sv_vfs s) = (if k + 1 <? U64 then k + 1 else 0) /\
  (forall h f, v_open_files (sv_vfs s) h = Some f <-> live_file tr h f) /\
  (forall h d, v_open_dirs (sv_vfs s) h = Some d <-> live_dir tr h d).
Proof.
  intros H. remember (start root w) as s0. induction H as [s|s tr s1 l s2 H IH St]; subst s.
  - intros _. cbn. repeat split; try discriminate.
    + intros (b & i & s & X & _). destruct b; discriminate.
    + intros (b & i & s & X & _). destruct b; discriminate.
  - intros L. specialize (IH eq_refl). rewrite handles_snoc in L |- *.
    assert (L1 : nlen (handles tr) < U64) by (rewrite nlen_app in L; lia).
    destruct (IH L1) as (I1 & I2 & I3 & I4). clear IH. cbv zeta.
    apply step_handles in St.
    set (k := nlen (handles tr)) in *.
    assert (D : (match l with Did _ (EvOpenFile _ h) => [h] | Did _ (EvOpenDir _ h) => [h] | _ => [] end = []) ->
      v_next_handle_id (sv_vfs s2) = v_next_handle_id (sv_vfs s1) ->
      let new := match l with Did _ (EvOpenFile _ h) => [h] | Did _ (EvOpenDir _ h) => [h] | _ => [] end in
      handles tr ++ new = up_to (nlen (handles tr ++ new)) /\
      v_next_handle_id (sv_vfs s2) =
        (if nlen (handles tr ++ new) + 1 <? U64 then nlen (handles tr ++ new) + 1 else 0)).
    { intros -> ->. cbv zeta. rewrite app_nil_r. auto. }
    assert (KF : forall h f, (forall i g, l <> Did i (EvOpenFile f h) /\ l <> Did i (EvReleaseFile h g Released)) ->
       live_file (tr ++ [l]) h f <-> live_file tr h f).
    { intros h f X. rewrite live_file_snoc. split.
      - intros [[i Y]|[Y _]]; auto. exfalso. now apply (proj1 (X i None)).
      - intros Y. right. split; auto. intros (j & g & Z). now apply (proj2 (X j g)). }
    assert (KD : forall h f, (forall i g, l <> Did i (EvOpenDir f h) /\ l <> Did i (EvReleaseDir h g Released)) ->
       live_dir (tr ++ [l]) h f <-> live_dir tr h f).
    { intros h f X. rewrite live_dir_snoc. split.
      - intros [[i Y]|[Y _]]; auto. exfalso. now apply (proj1 (X i None)).
      - intros Y. right. split; auto. intros (j & g & Z). now apply (proj2 (X j g)). }
    destruct l as [i e|i rq|].
    2:{ rewrite St in *. destruct (D eq_refl eq_refl) as [D1 D2].
        split; [exact D1|]. split; [exact D2|]. split; intros.
        - rewrite KF by (split; discriminate). apply I3.
        - rewrite KD by (split; discriminate). apply I4. }
    2:{ rewrite St in *. destruct (D eq_refl eq_refl) as [D1 D2].
        split; [exact D1|]. split; [exact D2|]. split; intros.
        - rewrite KF by (split; discriminate). apply I3.
        - rewrite KD by (split; discriminate). apply I4. }
    destruct e; cbn [handles_after] in St;
    try (destruct St as (S1 & S2 & S3); destruct (D eq_refl S1) as [D1 D2];
         split; [exact D1|]; split; [exact D2|]; split; intros;
         [rewrite S2, KF by (split; discriminate); apply I3
         |rewrite S3, KD by (split; discriminate); apply I4]);
    try (destruct St as (S0 & S1); rewrite S1 in *; destruct (D eq_refl eq_refl) as [D1 D2];
         split; [exact D1|]; split; [exact D2|]; split; intros;
         [rewrite KF by (split; discriminate); apply I3
         |rewrite KD by (split; discriminate); apply I4]).
    + (* open file *)
      assert (Lk : k + 1 < U64) by (rewrite nlen_app in L; change (nlen [handle_id]) with 1 in L; exact L).
      unfold HandlesMap_open_file in St. rewrite I2 in St.
      replace (k + 1 <? U64) with true in * by lia.
      destruct (incr64 _ (k + 1)) as [nx|] eqn:Inc; [|discriminate].
      injection St as <- <-.
      assert (Fresh : ~ In (k + 1) (handles tr)) by (rewrite I1, in_up_to; lia).
      split; [|split; [|split]].
      * rewrite nlen_app. change (nlen [k + 1]) with 1. fold k. rewrite up_to_S, <- I1. reflexivity.
      * cbn [v_next_handle_id]. rewrite nlen_app. change (nlen [k + 1]) with 1.
        fold k. unfold incr64 in Inc. destruct (N.ltb_spec (k + 1 + 1) U64); [congruence|].
        destruct (cf_overflow_checks cf); congruence.
      * intros h' f. cbn [v_open_files]. unfold upd. rewrite live_file_snoc.
        destruct (N.eqb_spec h' (k + 1)) as [->|Ne].
        -- split.
           ++ intros X. injection X as ->. left. eauto.
           ++ intros [[j X]|[X _]]; [now injection X as -> ->|].
              exfalso. apply Fresh. eapply live_file_given; eauto.
        -- rewrite I3. split.
           ++ intros X. right. split; auto. intros (? & ? & ?); discriminate.
           ++ intros [[j X]|[X _]]; [|exact X]. injection X as _ _ ?. congruence.
      * intros h' d. cbn [v_open_dirs]. rewrite KD by (split; discriminate). apply I4.
    + (* open dir *)
      assert (Lk : k + 1 < U64) by (rewrite nlen_app in L; change (nlen [handle_id]) with 1 in L; exact L).
      unfold HandlesMap_open_dir in St. rewrite I2 in St.
      replace (k + 1 <? U64) with true in * by lia.
      destruct (incr64 _ (k + 1)) as [nx|] eqn:Inc; [|discriminate].
      injection St as <- <-.
      assert (Fresh : ~ In (k + 1) (handles tr)) by (rewrite I1, in_up_to; lia).
      split; [|split; [|split]].
      * rewrite nlen_app. change (nlen [k + 1]) with 1. fold k. rewrite up_to_S, <- I1. reflexivity.
      * cbn [v_next_handle_id]. rewrite nlen_app. change (nlen [k + 1]) with 1.
        fold k. unfold incr64 in Inc. destruct (N.ltb_spec (k + 1 + 1) U64); [congruence|].
        destruct (cf_overflow_checks cf); congruence.
      * intros h' d. cbn [v_open_files]. rewrite KF by (split; discriminate). apply I3.
      * intros h' f. cbn [v_open_dirs]. unfold upd. rewrite live_dir_snoc.
        destruct (N.eqb_spec h' (k + 1)) as [->|Ne].
        -- split.
           ++ intros X. injection X as ->. left. eauto.
           ++ intros [[j X]|[X _]]; [now injection X as -> ->|].
              exfalso. apply Fresh. eapply live_dir_given; eauto.
        -- rewrite I4. split.
           ++ intros X. right. split; auto. intros (? & ? & ?); discriminate.
           ++ intros [[j X]|[X _]]; [|exact X]. injection X as _ _ ?. congruence.
    + (* release file *)
      destruct St as (S0 & S1 & S2 & S3 & S4). destruct (D eq_refl S2) as [D1 D2].
      split; [exact D1|]. split; [exact D2|]. split; intros h' f.
      * rewrite S4. destruct r.
        -- rewrite KF by (split; discriminate). apply I3.
        -- rewrite KF by (split; discriminate). apply I3.
        -- unfold upd. rewrite live_file_snoc. destruct (N.eqb_spec h' h) as [->|Ne].
           ++ split; [discriminate|]. intros [[j X]|[_ X]]; [discriminate|]. exfalso. apply X. eauto.
           ++ rewrite I3. split.
              ** intros X. right. split; auto. intros (? & ? & Y). injection Y as _ ? _. congruence.
              ** intros [[j X]|[X _]]; [discriminate|exact X].
      * rewrite S3, KD by (split; discriminate). apply I4.
    + (* release dir *)
      destruct St as (S0 & S1 & S2 & S3 & S4). destruct (D eq_refl S2) as [D1 D2].
      split; [exact D1|]. split; [exact D2|]. split; intros h' f.
      * rewrite S3, KF by (split; discriminate). apply I3.
      * rewrite S4. destruct r.
        -- rewrite KD by (split; discriminate). apply I4.
        -- rewrite KD by (split; discriminate). apply I4.
        -- unfold upd. rewrite live_dir_snoc. destruct (N.eqb_spec h' h) as [->|Ne].
           ++ split; [discriminate|]. intros [[j X]|[_ X]]; [discriminate|]. exfalso. apply X. eauto.
           ++ rewrite I4. split.
              ** intros X. right. split; auto. intros (? & ? & Y). injection Y as _ ? _. congruence.
              ** intros [[j X]|[X _]]; [discriminate|exact X].
Qed.

(** Handles are never zero and never given out twice. *)
Theorem C46_unique root w tr s :
  steps (start root w) tr s -> nlen (handles tr) < U64 ->
  NoDup (handles tr) /\ Forall (fun h => 0 < h < U64) (handles tr).
Proof.
  intros H L. destruct (handles_inv root w tr s H L) as (I & _). rewrite I. split.
  - apply nodup_up_to.
  - apply Forall_forall. intros h X. apply in_up_to in X. lia.
Qed.

(** Whoever uses or releases a handle gets the object it was given out for,
    from the moment it is given out until it has been released. *)
Theorem C46_live root w tr s i s' e :
  steps (start root w) tr s -> nlen (handles tr) < U64 -> step s (Did i e) s' ->
  match e with
  | EvGetFile h found => forall f, found = Some f <-> live_file tr h f
  | EvGetDir h found => forall d, found = Some d <-> live_dir tr h d
  | EvReleaseFile h found r =>
    (forall f, found = Some f <-> live_file tr h f) /\ (found = None <-> r = NoHandle)
  | EvReleaseDir h found r =>
    (forall d, found = Some d <-> live_dir tr h d) /\ (found = None <-> r = NoHandle)
  | _ => True
  end.
Proof.
  intros H L St. destruct (handles_inv root w tr s H L) as (_ & _ & I3 & I4).
  apply step_handles in St. destruct e; cbn [handles_after] in St; auto.
  - destruct St as [-> _]. intros. apply I3.
  - destruct St as [-> _]. intros. apply I4.
  - destruct St as (-> & X & _). split; [intros; apply I3|exact X].
  - destruct St as (-> & X & _). split; [intros; apply I4|exact X].
Qed.

(** A handle of a file is never one of a directory. *)
Theorem C46_kinds root w tr s i j h f d :
  steps (start root w) tr s -> nlen (handles tr) < U64 ->
  In (Did i (EvOpenFile f h)) tr -> ~ In (Did j (EvOpenDir d h)) tr.
Proof.
  intros H L A B. destruct (C46_unique root w tr s H L) as [ND _]. clear H L.
  induction tr as [|l tr IH]; [contradiction|]. change (l :: tr) with ([l] ++ tr) in ND. unfold handles in ND. rewrite flat_map_app in ND. fold (handles [l]) (handles tr) in ND.
  assert (K : forall x, In x tr -> (exists i f, x = Did i (EvOpenFile f h)) \/
    (exists i f, x = Did i (EvOpenDir f h)) -> In h (handles tr)).
  { intros x X Y. unfold handles. apply in_flat_map. exists x. split; auto.
    destruct Y as [(? & ? & ->)|(? & ? & ->)]; now left. }
  destruct A as [->|A], B as [B|B].
  - discriminate.
  - cbn in ND. inversion ND. apply H1. eapply K; eauto.
  - subst l. cbn in ND. inversion ND. apply H1. eapply K; eauto.
  - apply IH; auto. destruct l as [? []| |]; cbn [handles flat_map app] in ND; auto; now inversion ND.
Qed.

End Tables.

(** * Examples and refutations (little-endian) *)

Local Instance LE : Endian := false.

Definition rq_lookup (name : bytes) : Request := demo_rq 3 1 (OLookup name).
Definition steps_of (i n : nat) : list choice := repeat (Takes i SendOk) n.
(** "ab" and "r" *)
Definition ab : bytes := [x61; x62].
Definition r_ : bytes := [x72].

(** The history without its last element, given by a schedule. *)
Definition all_but_last (cs : list choice) : list (label N N N) :=
  match schedule demo linux_errors demo_cf cs (start 1 0) with
  | Some (tr, _) => removelast tr
  | None => []
  end.
Ltac last_step cs :=
  apply (scheduled_last demo linux_errors demo_cf cs); vm_compute; reflexivity.

(** C45: file 5 is looked up twice and forgotten once; then a GETATTR of it. *)
Definition history1 : list choice :=
  [Arrives (rq_lookup ab)] ++ steps_of 0 5 ++ [Arrives (rq_lookup ab)] ++ steps_of 1 5 ++
  [Arrives (demo_rq 4 5 (OForget 1))] ++ steps_of 2 1 ++ [Arrives (demo_rq 5 5 (OGetattr 0 0 0))] ++
  steps_of 3 1.
Example C45_resolves_example :
  exists tr s s', steps demo linux_errors demo_cf (start 1 0) tr s /\
  step demo linux_errors demo_cf s (Did 3 (EvNodeGet 5 (Some 5))) s' /\
  lookups 5 tr = 2 /\ forgets 5 tr = 1.
Proof.
  exists (all_but_last history1).
  assert (H : exists s s', steps demo linux_errors demo_cf (start 1 0) (all_but_last history1) s /\
    step demo linux_errors demo_cf s (Did 3 (EvNodeGet 5 (Some 5))) s') by last_step history1.
  destruct H as (s & s' & H1 & H2). exists s, s'. repeat split; auto.
Qed.
Example C45_held_example :
  exists tr s s', steps demo linux_errors demo_cf (start 1 0) tr s /\
  step demo linux_errors demo_cf s (Did 3 (EvNodeGet 5 (Some 5))) s' /\
  given_up 5 tr < lookups 5 tr < U64 /\ Forall real_items tr.
Proof.
  exists (all_but_last history1).
  assert (H : exists s s', steps demo linux_errors demo_cf (start 1 0) (all_but_last history1) s /\
    step demo linux_errors demo_cf s (Did 3 (EvNodeGet 5 (Some 5))) s') by last_step history1.
  destruct H as (s & s' & H1 & H2). exists s, s'. split; [exact H1|]. split; [exact H2|].
  split; [vm_compute; auto|]. vm_compute. repeat constructor; discriminate.
Qed.
Definition history_root : list choice :=
  [Arrives (rq_lookup r_)] ++ steps_of 0 5 ++ [Arrives (demo_rq 5 1 (OGetattr 0 0 0))] ++ steps_of 1 1.
Example C45_root_example :
  exists tr s s', steps demo linux_errors demo_cf (start 1 0) tr s /\
  step demo linux_errors demo_cf s (Did 1 (EvNodeGet 1 (Some 1))) s' /\
  lookups 1 tr = 1 /\ forgets 1 tr = 0.
Proof.
  exists (all_but_last history_root).
  assert (H : exists s s', steps demo linux_errors demo_cf (start 1 0) (all_but_last history_root) s /\
    step demo linux_errors demo_cf s (Did 1 (EvNodeGet 1 (Some 1))) s') by last_step history_root.
  destruct H as (s & s' & H1 & H2). exists s, s'. repeat split; auto.
Qed.

(** A client that gave up all its lookups of a node with one FORGET: the node
    is still there, and the client has no lookups left it could forget. *)
Definition history_leak : list choice :=
  [Arrives (rq_lookup ab)] ++ steps_of 0 5 ++ [Arrives (rq_lookup ab)] ++ steps_of 1 5 ++
  [Arrives (demo_rq 4 5 (OForget 2))] ++ steps_of 2 1 ++
  [Arrives (demo_rq 5 5 (OGetattr 0 0 0))] ++ steps_of 3 1.
Theorem C45_leak_refuted :
  exists tr s s', steps demo linux_errors demo_cf (start 1 0) tr s /\
  step demo linux_errors demo_cf s (Did 3 (EvNodeGet 5 (Some 5))) s' /\
  lookups 5 tr = 2 /\ given_up 5 tr = 2.
Proof.
  exists (all_but_last history_leak).
  assert (H : exists s s', steps demo linux_errors demo_cf (start 1 0) (all_but_last history_leak) s /\
    step demo linux_errors demo_cf s (Did 3 (EvNodeGet 5 (Some 5))) s') by last_step history_leak.
  destruct H as (s & s' & H1 & H2). exists s, s'. repeat split; auto.
Qed.

(** The root is gone once a client has looked it up and forgotten it again. *)
Definition history_no_root : list choice :=
  [Arrives (rq_lookup r_)] ++ steps_of 0 5 ++ [Arrives (demo_rq 4 1 (OForget 1))] ++
  steps_of 1 1 ++ [Arrives (demo_rq 5 1 (OGetattr 0 0 0))] ++ steps_of 2 1.
Theorem C45_root_refuted :
  exists tr s s', steps demo linux_errors demo_cf (start 1 0) tr s /\
  step demo linux_errors demo_cf s (Did 2 (EvNodeGet 1 None)) s' /\
  lookups 1 tr = 1 /\ given_up 1 tr = 1.
Proof.
  exists (all_but_last history_no_root).
  assert (H : exists s s', steps demo linux_errors demo_cf (start 1 0) (all_but_last history_no_root) s /\
    step demo linux_errors demo_cf s (Did 2 (EvNodeGet 1 None)) s') by last_step history_no_root.
  destruct H as (s & s' & H1 & H2). exists s, s'. repeat split; auto.
Qed.

(** C46_unique, C46_live, C46_kinds: two files and a directory are opened by interleaved threads, the
    first file is released; then READ requests with the released handle,
    with the other file and with the directory. *)
Definition history2 : list choice :=
  [Arrives (rq_lookup ab)] ++ steps_of 0 5 ++
  [Arrives (demo_rq 4 5 (OOpen 0 0)); Arrives (demo_rq 5 1 (OOpendir 0 0));
   Arrives (demo_rq 6 5 (OOpen 0 0))] ++
  steps_of 1 3 ++ steps_of 2 4 ++ steps_of 3 5 ++ steps_of 1 2 ++ steps_of 2 1 ++
  [Arrives (demo_rq 7 5 (ORelease 3 0 0 0))] ++ steps_of 4 1 ++
  [Arrives (demo_rq 8 5 (ORead 3 0 10 0 0 0 0)); Arrives (demo_rq 9 5 (ORead 2 0 10 0 0 0 0));
   Arrives (demo_rq 9 5 (ORead 1 0 10 0 0 0 0))] ++ steps_of 5 1 ++ steps_of 6 1 ++ steps_of 7 1.
Example C46_live_example :
  exists tr s, steps demo linux_errors demo_cf (start 1 0)
    (tr ++ [Did 5 (EvGetFile 3 None); Did 6 (EvGetFile 2 (Some 102)); Did 7 (EvGetFile 1 None)]) s /\
  handles tr = [1; 2; 3] /\
  In (Did 2 (EvOpenDir 201 1)) tr /\ In (Did 3 (EvOpenFile 102 2)) tr /\
  In (Did 1 (EvOpenFile 100 3)) tr /\ In (Did 4 (EvReleaseFile 3 (Some 100) Released)) tr.
Proof.
  exists (removelast (removelast (all_but_last history2))).
  assert (H : exists s, steps demo linux_errors demo_cf (start 1 0)
    (removelast (removelast (all_but_last history2)) ++
     [Did 5 (EvGetFile 3 None); Did 6 (EvGetFile 2 (Some 102)); Did 7 (EvGetFile 1 None)]) s).
  { apply (scheduled demo linux_errors demo_cf history2). vm_compute. reflexivity. }
  destruct H as (s & H). exists s. split; [exact H|]. clear H. vm_compute. repeat split; tauto.
Qed.
Example C46_unique_example :
  exists tr s, steps demo linux_errors demo_cf (start 1 0) tr s /\ handles tr = [1; 2; 3].
Proof.
  destruct C46_live_example as (tr & s & H & Hh & _). do 2 eexists. split; [exact H|].
  unfold handles in *. rewrite flat_map_app, Hh. reflexivity.
Qed.
Example C46_kinds_example :
  exists tr s, steps demo linux_errors demo_cf (start 1 0) tr s /\ nlen (handles tr) < U64 /\
  In (Did 3 (EvOpenFile 102 2)) tr /\ In (Did 2 (EvOpenDir 201 1)) tr.
Proof.
  destruct C46_live_example as (tr & s & H & Hh & I1 & I2 & _). do 2 eexists. split; [exact H|].
  unfold handles in *. rewrite flat_map_app, Hh. split; [reflexivity|].
  split; apply in_or_app; left; assumption.
Qed.

Print Assumptions C45_resolves.
Print Assumptions C45_held.
Print Assumptions C45_root.
Print Assumptions C45_leak_refuted.
Print Assumptions C45_root_refuted.
Print Assumptions C46_unique.
Print Assumptions C46_live.
Print Assumptions C46_kinds.
