(** Theorems about whole ioctl calls, from the system call to its return: C71
    of properties.jsonl. *)

From Verif Require Import Base Kernel CoreModel DecodeModel OpsModel WireSpec OpsRoundTrip DecodeProofs
  ReplyModel ReplySpec ReplyProofs PropDecode PropHeader PropReply ServerModel ServerSpec PropServer VfsSpec DeviceSpec PropDevice
  ClientSpec PropClient IoctlSpec.
From Coq Require Import List NArith ZArith Bool Lia ZifyBool ZifyNat ZifyN.
Import ListNotations.
Open Scope list_scope.
Open Scope N_scope.

(** ** Specification *)

Section Spec.
Context {E : Endian}.

(** What a handler does with an IOCTL request: it may depend on the requests it
    got before. *)
Inductive ioctl_answer :=
| Retry (input output : list IoctlSlice)
| Done (result : Z) (output : bytes)
| Error (e : Z).
Definition handler := list view -> view -> ioctl_answer.

(** What it can do: a retry has at most 256 slices of 64-bit addresses and
    lengths, the output fits a message, errors are those of Linux. *)
Definition can_answer (a : ioctl_answer) : Prop :=
  match a with
  | Retry i o => nlen i + nlen o <= 256 /\ Forall slice_ok (i ++ o)
  | Done r b => is_i32 r /\ nlen b <= 4294967000
  | Error e => (-512 < e < 0)%Z
  end.

(** The calls it makes for that. *)
Definition ioctl_reply (a : ioctl_answer) : option answer :=
  match a with
  | Retry i o => option_map (fun r => AOk (RIoctl (IoctlResponse_new_retry r))) (IoctlRetry_new i o)
  | Done r b => Some (AOk (RIoctl (IoctlResponse_set_result r (IoctlResponse_new b))))
  | Error e => Some (AErr e)
  end.

(** The server: from the bytes of the request to what the handler was given and
    the bytes of the reply. *)
Definition serve_ioctl (is_cuse : bool) (cf : config) (h : handler) (before : list view) (msg : bytes)
  : option (view * bytes) :=
  match rq <- Request_new msg ;; id <- header_request_id rq ;;
        v <- decode_view is_cuse cf OpsModel.RIoctl rq ;; Ret (id, v) with
  | Ret (id, v) =>
    match option_map (answer_call (cf_minor cf) id) (ioctl_reply (h before v)) with
    | Some (Call b) => match on_wire b with Ret m => Some (v, m) | _ => None end
    | _ => None
    end
  | _ => None
  end.

(** A call and the session it is made in: [c_hd k] is the header of the [k]-th
    request. *)
Record call := {
  c_max_write : N; c_max_pages : N; c_buf_len : N;
  c_hd : nat -> req_header; c_node : N;
  c_fh : N; c_flags : N; c_cmd : N; c_arg : N; c_mem : memory }.

(** How far a call got in [n] rounds. *)
Inductive progress := Finished (r : returned) | Unfinished | Wrong.

(** The call as it goes through the device and the server. *)
Fixpoint goes (is_cuse : bool) (cf : config) (c : call) (h : handler) (n : nat) (before : list view)
    (vs : list iovec * list iovec) : progress :=
  match n with
  | O => Unfinished
  | S n =>
    match ioctl_request (c_max_pages c) (c_fh c) (c_flags c) (c_cmd c) (c_arg c) (c_mem c) vs with
    | inr r => Finished r
    | inl op =>
      let hd := c_hd c (length before) in
      match device_read (c_max_write c) (c_buf_len c) op (linux_message cf hd op) with
      | OperationFails e => Finished (Returns (- Z.of_N e) (c_mem c))
      | ReadEinval => Wrong
      | Gets msg =>
        match serve_ioctl is_cuse cf h before msg with
        | None => Wrong
        | Some (v, m) =>
          match device_write (cf_minor cf) (fun i => if i =? rh_unique hd then Some op else None) m with
          | Broken _ => Finished (Returns (-5) (c_mem c))
          | Completed i result =>
            match ioctl_result (c_max_pages c) (c_flags c) (c_mem c) vs result with
            | inl vs => goes is_cuse cf c h n (before ++ [v]) vs
            | inr r => Finished r
            end
          | _ => Wrong
          end
        end
      end
    end
  end.

(** The memory a slice stands for. *)
Definition covers (s : IoctlSlice) : iovec := (is_base s, is_len s).
(** How a server names memory of the caller: a range of bytes, or a pointer to a
    value of a type of [size] bytes; to be read ([true]) or written. *)
Inductive place := Range (base len : N) | Pointer (addr size : N).
Definition add_place (x : bool * place) : IoctlRetryBuf -> out (bool * IoctlRetryBuf) :=
  match x with
  | (true, Range base len) => IoctlRetryBuf_add_input {| is_base := base; is_len := len |}
  | (false, Range base len) => IoctlRetryBuf_add_output {| is_base := base; is_len := len |}
  | (true, Pointer addr size) => IoctlRetryBuf_add_input_ptr addr size
  | (false, Pointer addr size) => IoctlRetryBuf_add_output_ptr addr size
  end.
Fixpoint add_places (l : list (bool * place)) (b : IoctlRetryBuf) : out (list bool * IoctlRetryBuf) :=
  match l with
  | [] => Ret ([], b)
  | x :: l =>
    '(ok, b) <- add_place x b ;;
    '(oks, b) <- add_places l b ;;
    Ret (ok :: oks, b)
  end.
Definition first_byte (p : place) : N := match p with Range a _ | Pointer a _ => a end.
Definition bytes_at (p : place) : N := match p with Range _ n | Pointer _ n => n end.
Definition memory_of (wanted : bool) (l : list (bool * place)) : list iovec :=
  map (fun x => (first_byte (snd x), bytes_at (snd x))) (filter (fun x => Bool.eqb (fst x) wanted) l).

(** The call as it is meant: as if the server had the memory of the caller
    before it. *)
Fixpoint meant (is_cuse : bool) (c : call) (h : handler) (n : nat) (before : list view)
    (vin vout : list iovec) : progress :=
  match n with
  | O => Unfinished
  | S n =>
    match gather (c_mem c) vin with
    | None => Finished (Returns (- EFAULT) (c_mem c))
    | Some input =>
      if c_buf_len c <? 72 + nlen input then Finished (Returns (-5) (c_mem c))
      else
        let v := VIoctl (subject is_cuse (c_node c)) (c_fh c) (c_cmd c) (c_arg c) input (nlen input)
                   (iov_length vout) (c_flags c) in
        match h before v with
        | Error e => Finished (Returns (no_tty e) (c_mem c))
        | Done r output =>
          Finished
            (if iov_length vout <? nlen output then Returns (-5) (c_mem c)
             else match scatter (c_mem c) vout output with
                  | Some m => Returns (no_tty r) m
                  | None => Faults
                  end)
        | Retry i o =>
          if negb (unrestricted (c_flags c)) then Finished (Returns (-5) (c_mem c))
          else
            let vin := map covers i in
            let vout := map covers o in
            if too_long (c_max_pages c) vin || too_long (c_max_pages c) vout
            then Finished (Returns (- ENOMEM) (c_mem c))
            else meant is_cuse c h n (before ++ [v]) vin vout
        end
    end
  end.

Definition good_call (is_cuse : bool) (c : call) : Prop :=
  N.max 8192 (80 + c_max_write c) <= c_buf_len c /\
  4 <= c_max_pages c < 65536 /\
  c_fh c < U64 /\ c_flags c < U32 /\ c_cmd c < U32 /\ c_arg c < U64 /\
  (is_cuse = false -> c_node c <> 0) /\
  forall k, good_header (c_hd c k) /\ N.odd (rh_unique (c_hd c k)) = false /\ rh_nodeid (c_hd c k) = c_node c.
End Spec.

(** ** Proofs *)

Section Proofs.
Context {E : Endian}.

Lemma load_length m n : forall a b, load m a n = Some b -> nlen b = N.of_nat n.
Proof.
  induction n as [|n IH]; intros a b H; cbn [load] in H; [injection H as <-; reflexivity|].
  destruct (m a); [|discriminate]. destruct (load m (a + 1) n) eqn:L; [|discriminate].
  injection H as <-. rewrite nlen_cons, (IH _ _ L). lia.
Qed.
Lemma gather_length m iov : forall b, gather m iov = Some b -> nlen b = iov_length iov.
Proof.
  induction iov as [|[a n] iov IH]; intros b H; cbn [gather] in H; [injection H as <-; reflexivity|].
  destruct (load m a (N.to_nat n)) eqn:L; [|discriminate]. destruct (gather m iov) eqn:G; [|discriminate].
  injection H as <-. rewrite nlen_app, (load_length _ _ _ _ L), (IH _ eq_refl).
  unfold iov_length. cbn [fold_right snd]. lia.
Qed.

Lemma vectors_slices l : forall p,
  Forall slice_ok l -> vectors (length l) (ioctl_slices_bytes l ++ p) = map covers l.
Proof.
  induction l as [|s l IH]; intros p H; [reflexivity|].
  inversion H as [|? ? [Hb Hl] Hr]; subst. unfold ioctl_slices_bytes.
  cbn [flat_map length vectors map]. fold (ioctl_slices_bytes l).
  rewrite <- app_assoc.
  assert (L : nlen (IoctlSlice_bytes s) = 16) by (unfold IoctlSlice_bytes; now rewrite nlen_wire).
  assert (A : forall q, u64_at 0 (IoctlSlice_bytes s ++ q) = is_base s /\
                        u64_at 8 (IoctlSlice_bytes s ++ q) = is_len s).
  { intros q. unfold u64_at, IoctlSlice_bytes. split; apply fld_wire; [reflexivity|exact Hb|reflexivity|exact Hl]. }
  destruct (A (ioctl_slices_bytes l ++ p)) as [-> ->].
  rewrite (drop_app (IoctlSlice_bytes s)) by (now rewrite L). now rewrite IH.
Qed.

Lemma pages_small mx n : n <= 4096 * mx -> 1 <= mx -> (mx <? pages (N.max n 4096)) = false.
Proof.
  intros H1 H2. unfold pages. apply N.ltb_ge.
  assert ((N.max n 4096 + 4095) / 4096 < mx + 1); [|lia].
  apply N.div_lt_upper_bound; lia.
Qed.

(** The vectors of the first request are short. *)
Lemma first_short mx flags cmd arg : 4 <= mx ->
  let '(vin, vout) := first_vectors flags cmd arg in
  iov_length vin <= 4096 * mx /\ iov_length vout <= 4096 * mx.
Proof.
  intros H. unfold first_vectors.
  assert (B : (cmd / 65536) mod 16384 < 16384) by (apply N.mod_lt; lia).
  destruct (unrestricted flags); [cbn; lia|].
  destruct ((cmd =? FS_IOC_GETFLAGS) || (cmd =? FS_IOC_SETFLAGS));
    destruct (N.testbit cmd 30), (N.testbit cmd 31); unfold iov_length; cbn [fold_right snd]; lia.
Qed.

Lemma reply_written minor id a op waiting :
  is_id id -> N.odd id = false -> waiting id = Some op -> can_answer a ->
  exists r b m, ioctl_reply a = Some r /\ answer_call minor id r = Call b /\ on_wire b = Ret m /\
  match a with
  | Error e => device_write minor waiting m = Completed id (inr e)
  | Done r out =>
    exists p, as_i32 (u32_at 0 p) = r /\ u32_at 4 p = 0 /\ drop 16 p = out /\
    device_write minor waiting m =
      if fits (op_room minor op) (16 + nlen out) then Completed id (inl p) else Broken id
  | Retry i o =>
    exists p, u32_at 4 p = 4 /\ u32_at 8 p = nlen i /\ u32_at 12 p = nlen o /\
    drop 16 p = ioctl_slices_bytes (i ++ o) /\
    device_write minor waiting m =
      if fits (op_room minor op) (16 + 16 * (nlen i + nlen o)) then Completed id (inl p) else Broken id
  end.
Proof.
  intros Hid Od W C. destruct a as [i o|r out|e]; cbn [can_answer ioctl_reply] in *.
  - destruct C as [C1 C2].
    pose proof (proj1 (proj1 (C26_retry_limit i o)) C1) as Nw. rewrite Nw. cbn [option_map].
    destruct (C26_retry_reply minor id i o _ Hid Nw C2) as (p & (b & m & A & O & _ & K) & _ & P4 & P8 & P12 & Lp & Sl).
    do 3 eexists. split; [reflexivity|]. split; [exact A|]. split; [exact O|].
    exists p. split; [exact P4|]. split; [exact P8|]. split; [exact P12|]. split.
    + assert (X : p = fuse_ioctl_out_bytes (ires_raw (IoctlResponse_new_retry {| ir_input := i; ir_output := o |})) ++
        ioctl_slices_bytes (i ++ o)).
      { assert (R : replies minor id (AOk (RIoctl (IoctlResponse_new_retry {| ir_input := i; ir_output := o |}))) 0
          (payload minor (RIoctl (IoctlResponse_new_retry {| ir_input := i; ir_output := o |})))).
        { apply ok_replies; auto. cbn [payload IoctlResponse_new_retry ires_output ir_input ir_output].
          rewrite !nlen_app, !nlen_slices.
          unfold fuse_ioctl_out_bytes. rewrite nlen_wire. change (fields_size _) with 16.
          unfold u32_max. lia. }
        destruct R as (b' & m' & A' & O' & _ & K'). rewrite A in A'. injection A' as <-.
        rewrite O in O'. injection O' as <-. rewrite K in K'. injection K' as ->.
        cbn [payload IoctlResponse_new_retry ires_output ir_input ir_output].
        unfold ioctl_slices_bytes. now rewrite flat_map_app. }
      rewrite X. apply drop_app. unfold fuse_ioctl_out_bytes. now rewrite nlen_wire.
    + rewrite (device_verdict minor waiting m id 0 p op K Od W). unfold verdict. cbn [Z.leb Z.ltb Z.eqb orb].
      rewrite Lp. reflexivity.
  - destruct C as [C1 C2].
    destruct (C26_ioctl_reply minor id r out Hid C1 C2) as (p & (b & m & A & O & _ & K) & P0 & P4 & _ & _ & L16 & D).
    do 3 eexists. split; [reflexivity|]. split; [exact A|]. split; [exact O|].
    exists p. split; [exact P0|]. split; [exact P4|]. split; [exact D|].
    rewrite (device_verdict minor waiting m id 0 p op K Od W). unfold verdict. cbn [Z.leb Z.ltb Z.eqb orb].
    replace (nlen p) with (16 + nlen out) by (rewrite <- D, nlen_drop; lia). reflexivity.
  - destruct (C20_error_reply minor id e Hid) as [(b & m & A & O & _ & K) _]; [unfold is_i32; lia|].
    do 3 eexists. split; [reflexivity|]. split; [exact A|]. split; [exact O|].
    rewrite (device_verdict minor waiting m id e [] op K Od W). unfold verdict, told.
    replace ((e <=? -512) || (0 <? e))%Z with false by lia.
    replace (e =? 0)%Z with false by lia. reflexivity.
Qed.

(** ** C71 *)

Lemma goes_meant is_cuse cf c h :
  good_call is_cuse c -> (forall before v, can_answer (h before v)) ->
  forall n before vin vout,
  iov_length vin <= 4096 * c_max_pages c -> iov_length vout <= 4096 * c_max_pages c ->
  goes is_cuse cf c h n before (vin, vout) = meant is_cuse c h n before vin vout.
Proof.
  intros (B1 & B2 & Hf & Hg & Hc & Ha & Hn & Hh) Can.
  induction n as [|n IH]; intros before vin vout Li Lo; [reflexivity|].
  cbn [goes meant]. unfold ioctl_request.
  rewrite N.max_assoc, pages_small by lia.
  destruct (gather (c_mem c) vin) as [input|] eqn:G; [|reflexivity].
  apply gather_length in G.
  set (op := OIoctl (c_fh c) (c_flags c) (c_cmd c) (c_arg c) (iov_length vout) input).
  set (hd := c_hd c (length before)). destruct (Hh (length before)) as (Gh & Od & Nd). fold hd in Gh, Od, Nd.
  assert (Lm : nlen (linux_message cf hd op) = 72 + nlen input).
  { rewrite nlen_linux_message. unfold op, op_body. cbn [op_fields op_tail surplus].
    rewrite !nlen_app, !nlen_wire. cbn [fields_size u64 u32 fst]. lia. }
  unfold device_read. rewrite Lm.
  replace (c_buf_len c <? N.max 8192 (80 + c_max_write c)) with false by lia.
  destruct (c_buf_len c <? 72 + nlen input); [reflexivity|].
  assert (S : sendable is_cuse cf hd op).
  { split; [exact Gh|]. split; [split; [|exact I]|].
    - unfold op. cbn [op_fields]. unfold in_range, U64, U32 in *.
      repeat constructor; cbn [fst snd u64 u32 N.of_nat Pos.of_succ_nat]; cbn; try lia.
    - split; [now destruct is_cuse|]. split; [|constructor].
      intros _ [Cu|Cu]; [rewrite Nd; auto|discriminate Cu]. }
  assert (Id : is_id (rh_unique hd)).
  { destruct Gh as [Gh Gu]. unfold header_fields in Gh.
    apply Forall_cons_iff in Gh as [_ Gh]. apply Forall_cons_iff in Gh as [_ Gh].
    apply Forall_cons_iff in Gh as [Gh _]. unfold is_id. split; [lia|exact Gh]. }
  destruct (message_understood is_cuse cf hd op S) as (Acc & (len & Hs & _) & D);
    [discriminate|rewrite Lm; unfold U32; lia|].
  unfold serve_ioctl. rewrite not_refused by exact Acc. cbn [bind]. rewrite Hs. cbn [bind].
  change (op_type op) with OpsModel.RIoctl in D. rewrite D.
  unfold taken_for, op. cbn [expected bind]. rewrite Nd. fold op.
  set (v := VIoctl _ _ _ _ _ _ _ _). cbv zeta. fold v. set (vo := h before v).
  pose proof (Can before v) as Cv. fold vo in Cv.
  destruct (reply_written (cf_minor cf) (rh_unique hd) vo op
    (fun i => if i =? rh_unique hd then Some op else None) Id Od) as (r & b & m & R1 & R2 & R3 & R4);
    [now rewrite N.eqb_refl|exact Cv|].
  rewrite R1. cbn [option_map]. rewrite R2, R3.
  destruct vo as [i o|res out|e].
  - destruct R4 as (p & P4 & P8 & P12 & Dp & ->). destruct Cv as [Cl Co].
    replace (fits _ _) with true by (unfold op; cbn [op_room fits]; lia).
    unfold ioctl_result. rewrite P4, P8, P12, Dp, nlen_slices, nlen_app.
    change (N.testbit 4 2) with true. cbv beta iota.
    destruct (unrestricted (c_flags c)); cbn [negb]; [|reflexivity].
    replace (256 <? nlen i + nlen o) with false by lia. rewrite N.eqb_refl. cbn [negb].
    assert (Fi : Forall slice_ok i /\ Forall slice_ok o) by (now apply Forall_app in Co).
    assert (Sp : ioctl_slices_bytes (i ++ o) = ioctl_slices_bytes i ++ ioctl_slices_bytes o)
      by (unfold ioctl_slices_bytes; now rewrite flat_map_app).
    assert (V1 : vectors (N.to_nat (nlen i)) (ioctl_slices_bytes (i ++ o)) = map covers i).
    { rewrite Sp. unfold nlen. rewrite Nnat.Nat2N.id. apply vectors_slices, Fi. }
    assert (V2 : vectors (N.to_nat (nlen o)) (drop (16 * nlen i) (ioctl_slices_bytes (i ++ o))) = map covers o).
    { rewrite Sp, drop_app by (now rewrite nlen_slices). unfold nlen. rewrite Nnat.Nat2N.id.
      rewrite <- (app_nil_r (ioctl_slices_bytes o)). apply vectors_slices, Fi. }
    rewrite V1, V2. destruct (too_long _ (map covers i)) eqn:T1; [reflexivity|].
    destruct (too_long _ (map covers o)) eqn:T2; [reflexivity|]. cbn [orb].
    unfold too_long in T1, T2. apply IH; lia.
  - destruct R4 as (p & P0 & P4 & Dp & ->). cbn [can_answer] in Cv.
    destruct (fits _ _) eqn:Ft; unfold op in Ft; cbn [op_room fits] in Ft.
    + unfold ioctl_result. rewrite P4, P0, Dp. change (N.testbit 0 2) with false. cbv beta iota. cbn [snd].
      destruct (iov_length vout <? nlen out); [reflexivity|].
      now destruct (scatter (c_mem c) vout out).
    + replace (iov_length vout <? nlen out) with true by lia. reflexivity.
  - rewrite R4. reflexivity.
Qed.

(** A call takes the course it is meant to take, whatever the handler does: it
    sees exactly the memory its retries asked for, the result is stored where
    they said, and the call returns what the handler returned. *)
Theorem C71_ioctl is_cuse cf c h n :
  good_call is_cuse c -> (forall before v, can_answer (h before v)) ->
  let '(vin, vout) := first_vectors (c_flags c) (c_cmd c) (c_arg c) in
  goes is_cuse cf c h n [] (vin, vout) = meant is_cuse c h n [] vin vout.
Proof.
  intros G Can. pose proof G as (_ & [G2 _] & _).
  pose proof (first_short (c_max_pages c) (c_flags c) (c_cmd c) (c_arg c) G2) as F.
  destruct (first_vectors _ _ _) as [vin vout]. destruct F. now apply goes_meant.
Qed.

(** Whether a vector covers an address. *)
Definition within_vectors (iov : list iovec) (a : N) : Prop :=
  exists v, In v iov /\ fst v <= a < fst v + snd v.

Lemma store_elsewhere bs : forall m a m' x, store m a bs = Some m' ->
  ~ (a <= x < a + nlen bs) -> m' x = m x.
Proof.
  induction bs as [|b bs IH]; intros m a m' x H Hx; cbn [store] in H; [now injection H as <-|].
  destruct (m a); [|discriminate]. rewrite nlen_cons in Hx.
  rewrite (IH _ _ _ x H) by lia. destruct (N.eqb_spec x a); [lia|reflexivity].
Qed.
Lemma scatter_elsewhere iov : forall m bs m' x, scatter m iov bs = Some m' ->
  ~ within_vectors iov x -> m' x = m x.
Proof.
  induction iov as [|[a n] iov IH]; intros m bs m' x H Hx; cbn [scatter] in H; [now injection H as <-|].
  destruct (store m a (take n bs)) as [m1|] eqn:S; [|discriminate].
  rewrite (IH _ _ _ x H).
  - apply (store_elsewhere _ _ _ _ x S). intros R. apply Hx. exists (a, n).
    split; [now left|]. cbn [fst snd]. rewrite nlen_take in R. lia.
  - intros (v & Iv & Bv). apply Hx. exists v. split; [now right|exact Bv].
Qed.
Lemma within_dec iov x : within_vectors iov x \/ ~ within_vectors iov x.
Proof.
  unfold within_vectors. induction iov as [|[a k] l IH].
  - right. intros (v & [] & _).
  - destruct IH as [(v & I & B)|IH]; [left; exists v; split; [now right|exact B]|].
    destruct (N.le_gt_cases a x), (N.lt_ge_cases x (a + k));
      [left; exists (a, k); split; [now left|cbn; lia]|right..];
      (intros (v & [<-|I] & B); [cbn in B; lia|apply IH; eauto]).
Qed.

(** Only memory which the command names, or the handler asked for, changes. *)
Theorem C71_memory is_cuse cf c h n r m x :
  good_call is_cuse c -> (forall before v, can_answer (h before v)) ->
  goes is_cuse cf c h n [] (first_vectors (c_flags c) (c_cmd c) (c_arg c)) = Finished (Returns r m) ->
  m x <> c_mem c x ->
  within_vectors (snd (first_vectors (c_flags c) (c_cmd c) (c_arg c))) x \/
  exists before v i o, h before v = Retry i o /\ within_vectors (map covers o) x.
Proof.
  intros G Can H Hx. pose proof (C71_ioctl is_cuse cf c h n G Can) as M.
  destruct (first_vectors _ _ _) as [vin vout]. cbn [snd]. rewrite M in H.
  destruct (within_dec vout x) as [D|D]; [now left|right].
  clear M. revert H D. generalize (@nil view). revert vin vout.
  induction n as [|n IH]; intros vin vout before H D; cbn [meant] in H; [discriminate|].
  destruct (gather (c_mem c) vin); [|injection H as _ <-; now destruct Hx].
  destruct (_ <? _); [injection H as _ <-; now destruct Hx|].
  destruct (h before _) as [i o|res out|e] eqn:Eh; [| |injection H as _ <-; now destruct Hx].
  - destruct (negb _); [injection H as _ <-; now destruct Hx|].
    destruct (_ || _); [injection H as _ <-; now destruct Hx|].
    destruct (within_dec (map covers o) x) as [D'|D']; [do 4 eexists; split; [exact Eh|exact D']|].
    exact (IH _ _ _ H D').
  - destruct (_ <? _); [injection H as _ <-; now destruct Hx|].
    destruct (scatter (c_mem c) vout out) as [m'|] eqn:S; [|discriminate].
    injection H as _ <-. destruct Hx. now apply (scatter_elsewhere _ _ _ _ x S).
Qed.

(** A server that is not trusted with the memory of its clients gets a single
    request. *)
Theorem C71_restricted is_cuse cf c h n vs :
  good_call is_cuse c -> (forall before v, can_answer (h before v)) ->
  unrestricted (c_flags c) = false -> vs = first_vectors (c_flags c) (c_cmd c) (c_arg c) ->
  exists r, goes is_cuse cf c h (S n) [] vs = Finished r /\
  goes is_cuse cf c h 1 [] vs = Finished r.
Proof.
  intros G Can U ->.
  pose proof (C71_ioctl is_cuse cf c h 1 G Can) as M1.
  pose proof (C71_ioctl is_cuse cf c h (S n) G Can) as M2.
  destruct (first_vectors _ _ _) as [vin vout]. rewrite M1, M2. cbn [meant]. rewrite U.
  destruct (gather (c_mem c) vin); [|eauto].
  destruct (_ <? _); [eauto|]. destruct (h [] _); cbn [negb]; eauto.
Qed.

(** In the request after a retry the reader returns, for reads of the lengths of
    the slices, the memory of each of them. *)
Theorem C71_reader m slices input :
  gather m (map covers slices) = Some input ->
  exists contents, read_all input (map is_len slices) = (map inl contents, []) /\
  Forall2 (fun s b => load m (is_base s) (N.to_nat (is_len s)) = Some b) slices contents.
Proof.
  revert input. induction slices as [|s l IH]; intros input G.
  - injection G as <-. exists []. split; [reflexivity|constructor].
  - change (match load m (is_base s) (N.to_nat (is_len s)), gather m (map covers l) with
            | Some x, Some y => Some (x ++ y)
            | _, _ => None
            end = Some input) in G.
    destruct (load m (is_base s) (N.to_nat (is_len s))) as [x|] eqn:L; [|discriminate].
    destruct (gather m (map covers l)) as [y|]; [|discriminate]. injection G as <-.
    destruct (IH y eq_refl) as (bs & R & F). exists (x :: bs).
    pose proof (load_length _ _ _ _ L) as Lx. rewrite Nnat.N2Nat.id in Lx.
    split; [|now constructor]. cbn [map read_all]. rewrite read_one, nlen_app, Lx.
    replace (is_len s <=? is_len s + nlen y) with true by lia.
    rewrite take_app, drop_app by auto. now rewrite R.
Qed.

(** And an output made of one piece for every slice puts each piece at its
    slice, if the slices do not overlap. *)
Definition apart (s t : IoctlSlice) : Prop :=
  is_base s + is_len s <= is_base t \/ is_base t + is_len t <= is_base s.
Lemma load_store bs : forall m a m', store m a bs = Some m' -> load m' a (length bs) = Some bs.
Proof.
  induction bs as [|b bs IH]; intros m a m' H; cbn [store] in H; [reflexivity|].
  destruct (m a); [|discriminate]. cbn [length load].
  rewrite (IH _ _ _ H). rewrite (store_elsewhere _ _ _ _ a H) by lia. now rewrite N.eqb_refl.
Qed.
Lemma load_same m m' n : forall a, (forall x, a <= x < a + N.of_nat n -> m' x = m x) -> load m' a n = load m a n.
Proof.
  induction n as [|n IH]; intros a H; cbn [load]; [reflexivity|].
  rewrite (H a) by lia. rewrite IH; [reflexivity|]. intros x Hx. apply H. lia.
Qed.
Theorem C71_output m slices pieces m' :
  ForallOrdPairs apart slices -> Forall2 (fun s b => nlen b = is_len s) slices pieces ->
  scatter m (map covers slices) (concat pieces) = Some m' ->
  Forall2 (fun s b => load m' (is_base s) (N.to_nat (is_len s)) = Some b) slices pieces.
Proof.
  intros A F. revert m A. induction F as [|s b l bs Hb F IH]; intros m A H; [constructor|].
  change (match store m (is_base s) (take (is_len s) (b ++ concat bs)) with
          | Some m => scatter m (map covers l) (drop (is_len s) (b ++ concat bs))
          | None => None
          end = Some m') in H.
  rewrite take_app, drop_app in H by auto.
  destruct (store m (is_base s) b) as [m1|] eqn:S; [|discriminate].
  inversion A as [|? ? A1 A2]; subst. constructor; [|now apply (IH m1)].
  apply load_store in S. replace (N.to_nat (is_len s)) with (length b) by (rewrite <- Hb; unfold nlen; lia).
  rewrite <- S. apply load_same. intros x Hx. apply (scatter_elsewhere _ _ _ _ x H).
  intros (v & Iv & Bv). apply in_map_iff in Iv as (t & <- & It). rewrite Forall_forall in A1.
  destruct (A1 t It) as [Q|Q]; unfold nlen in Hb; cbn [covers fst snd] in Bv; lia.
Qed.

(** The first 256 ranges and pointers that a server adds to a retry are those the
    caller is asked for, in the order in which they were added; later ones are
    refused. *)
Theorem C71_places l :
  exists oks b i o,
    add_places l IoctlRetryBuf_new = Ret (oks, b) /\ length oks = length l /\
    (forall k, (k < length l)%nat -> nth_error oks k = Some (N.of_nat k <? 256)) /\
    IoctlRetryBuf_borrow b = Ret {| ir_input := i; ir_output := o |} /\
    map covers i = memory_of true (firstn 256 l) /\ map covers o = memory_of false (firstn 256 l).
Proof.
  set (f := fun x : bool * place => (fst x, {| is_base := first_byte (snd x); is_len := bytes_at (snd x) |})).
  assert (A : forall l b, add_places l b = retry_adds (map f l) b).
  { clear l. induction l as [|[w p] l IH]; intros b; [reflexivity|].
    cbn [add_places map retry_adds].
    replace (retry_add (f (w, p)) b) with (add_place (w, p) b) by (now destruct w, p).
    destruct (add_place (w, p) b) as [[ok b']|e| |]; try reflexivity. cbn [bind]. now rewrite IH. }
  destruct (C26_retry_buf (map f l)) as (oks & b & H1 & H2 & H3 & H4 & _).
  exists oks, b. eexists. eexists. rewrite A. split; [exact H1|]. rewrite map_length in H2, H3.
  split; [exact H3|]. split; [exact H2|]. split; [exact H4|].
  rewrite firstn_map. clear - f. subst f. generalize (firstn 256 l). clear l. intros l.
  split; (induction l as [|[[] p] l IH]; [reflexivity| |]); unfold inputs, outputs, memory_of in *; cbn;
    first [exact IH | f_equal; exact IH].
Qed.
End Proofs.

(** ** Examples *)

(** A driver with a command [0x1234], whose argument points at a structure: the
    address and the length (one byte each, for brevity) of a buffer, which it
    reverses.  It asks for the structure, then for the buffer. *)
Local Instance LE : Endian := false.
Definition demo_handler (before : list view) (v : view) : ioctl_answer :=
  match v with
  | VIoctl _ _ cmd arg input _ _ _ =>
    if negb (cmd =? 4660) then Error (-ENOSYS) else
    match before, input with
    | [], _ => Retry [{| is_base := arg mod U64; is_len := 2 |}] []
    | [_], [a; n] =>
      let s := {| is_base := b2n a; is_len := b2n n |} in
      Retry [{| is_base := arg mod U64; is_len := 2 |}; s] [s]
    | [_; _], _ :: _ :: bs => if nlen bs <=? 4294967000 then Done (Z.of_nat 7) (rev bs) else Error (-22)
    | _, _ => Error (-22)
    end
  | _ => Error (-ENOSYS)
  end.
Definition demo_memory (a : N) : option byte :=
  if a =? 100 then Some x10 else if a =? 101 then Some x03
  else if a =? 16 then Some x61 else if a =? 17 then Some x62 else if a =? 18 then Some x63
  else None.
Definition demo_call (cmd flags : N) : call :=
  {| c_max_write := 4096; c_max_pages := 32; c_buf_len := 8192;
     c_hd := fun k => {| rh_unique := 2 * (1 + N.of_nat k mod 1000); rh_nodeid := 0; rh_uid := 0; rh_gid := 0;
                         rh_pid := 1; rh_padding := 0 |};
     c_node := 0; c_fh := 3; c_flags := flags; c_cmd := cmd; c_arg := 100; c_mem := demo_memory |}.
Definition cf_demo : config := {| cf_minor := 36; cf_setxattr_ext := false; cf_overflow_checks := true |}.

Lemma demo_good cmd flags : cmd < U32 -> flags < U32 -> good_call true (demo_call cmd flags).
Proof.
  intros H1 H2. unfold good_call, demo_call, U64, U32 in *. cbn [c_max_write c_buf_len c_max_pages c_fh c_flags c_cmd c_arg c_node c_hd].
  split; [lia|]. split; [lia|]. repeat (split; [lia|]).
  intros k. assert (B : N.of_nat k mod 1000 < 1000) by (apply N.mod_lt; lia).
  split; [|split; [|reflexivity]].
  - split; [|cbn [rh_unique]; lia]. unfold header_fields, in_range.
    repeat constructor; cbn [fst snd u64 u32 rh_unique rh_nodeid rh_uid rh_gid rh_pid rh_padding];
      change (256 ^ N.of_nat 4) with 4294967296; change (256 ^ N.of_nat 8) with 18446744073709551616; lia.
  - cbn [rh_unique]. rewrite N.odd_mul. reflexivity.
Qed.
Lemma demo_can before v : can_answer (demo_handler before v).
Proof.
  assert (X : forall b : byte, b2n b < U64) by (intros b; pose proof (b2n_bound b); unfold U64; lia).
  assert (Er : forall e, (-512 < e < 0)%Z -> can_answer (Error e)) by (intros e H; exact H).
  assert (Md : forall a, a mod U64 < U64) by (intros a; apply N.mod_lt; discriminate).
  assert (T : 2 < U64) by reflexivity.
  unfold demo_handler. destruct v; try (apply Er; unfold ENOSYS; lia).
  destruct (negb (command =? 4660)); [apply Er; unfold ENOSYS; lia|].
  destruct before as [|v1 [|v2 [|v3 before]]]; [|destruct input as [|a [|n [|c input]]]..];
    try (apply Er; lia).
  - split; [cbn; lia|]. repeat constructor; cbn [is_base is_len]; auto.
  - split; [cbn; lia|]. repeat constructor; cbn [is_base is_len]; auto.
  - cbn [rev]. split; [unfold is_i32; lia|cbn; lia].
  - destruct (N.leb_spec (nlen (c :: input)) 4294967000); [|apply Er; lia].
    split; [unfold is_i32; lia|]. unfold nlen in *. now rewrite rev_length.
Qed.

(** The caller has the buffer reversed and the result 7. *)
Example C71_ioctl_example :
  good_call true (demo_call 4660 2) /\ (forall before v, can_answer (demo_handler before v)) /\
  first_vectors 2 4660 100 = ([], []) /\
  match goes true cf_demo (demo_call 4660 2) demo_handler 3 [] ([], []) with
  | Finished (Returns r m) => r = 7%Z /\ load m 16 3 = Some [x63; x62; x61] /\ m 100 = Some x10
  | _ => False
  end /\
  goes true cf_demo (demo_call 4660 2) demo_handler 2 [] ([], []) = Unfinished /\
  match goes true cf_demo (demo_call 4661 2) demo_handler 3 [] ([], []) with
  | Finished (Returns r _) => r = (-25)%Z
  | _ => False
  end.
Proof.
  split; [apply demo_good; reflexivity|]. split; [exact demo_can|]. split; [reflexivity|].
  split; [vm_compute; repeat split|]. split; vm_compute; reflexivity.
Qed.
Example C71_memory_example :
  exists m, goes true cf_demo (demo_call 4660 2) demo_handler 3 [] (first_vectors 2 4660 100) =
    Finished (Returns 7 m) /\ m 16 <> demo_memory 16.
Proof. eexists. split; [vm_compute; reflexivity|]. vm_compute. discriminate. Qed.
(** Without the permission for retries the call fails after the first request. *)
Example C71_restricted_example :
  unrestricted (c_flags (demo_call 4660 0)) = false /\
  match goes true cf_demo (demo_call 4660 0) demo_handler 1 [] (first_vectors 0 4660 100) with
  | Finished (Returns r _) => r = (-5)%Z
  | _ => False
  end.
Proof. split; vm_compute; reflexivity. Qed.
Example C71_reader_example :
  let slices := [{| is_base := 100; is_len := 2 |}; {| is_base := 16; is_len := 3 |}] in
  gather demo_memory (map covers slices) = Some [x10; x03; x61; x62; x63] /\
  read_all [x10; x03; x61; x62; x63] [2; 3] = ([inl [x10; x03]; inl [x61; x62; x63]], []).
Proof. split; vm_compute; reflexivity. Qed.
Example C71_output_example :
  let slices := [{| is_base := 100; is_len := 2 |}; {| is_base := 16; is_len := 3 |}] in
  ForallOrdPairs apart slices /\
  exists m', scatter demo_memory (map covers slices) (concat [[x01; x02]; [x03; x04; x05]]) = Some m'.
Proof.
  split; [|eexists; vm_compute; reflexivity].
  constructor; [constructor; [right; cbn; lia|constructor]|repeat constructor].
Qed.

Example C71_places_example :
  exists b, add_places [(true, Pointer 100 8); (false, Range 16 3); (true, Range 7 0)] IoctlRetryBuf_new =
      Ret ([true; true; true], b) /\
    IoctlRetryBuf_borrow b =
      Ret {| ir_input := [{| is_base := 100; is_len := 8 |}; {| is_base := 7; is_len := 0 |}];
             ir_output := [{| is_base := 16; is_len := 3 |}] |}.
Proof. eexists. split; reflexivity. Qed.

Print Assumptions C71_ioctl.
Print Assumptions C71_memory.
Print Assumptions C71_restricted.
Print Assumptions C71_reader.
Print Assumptions C71_output.
Print Assumptions C71_places.
