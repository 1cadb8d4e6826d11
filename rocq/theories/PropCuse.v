(** Theorems about programs that use a CUSE device: C79 of properties.jsonl. *)

From Verif Require Import Base Kernel CoreModel DecodeModel OpsModel WireSpec OpsRoundTrip DecodeProofs
  ReplyModel ReplySpec ReplyProofs PropDecode PropHeader PropReply
  ServerModel ServerSpec PropServer DeviceSpec PropDevice
  ClientSpec PropClient TakenSpec PropTaken FileSpec PropFile CallSpec PropCalls PropDisk IoctlSpec PropIoctl.
From Coq Require Import List NArith ZArith Bool Lia ZifyBool ZifyNat ZifyN Strings.Byte.
Import ListNotations.
Open Scope list_scope.
Open Scope N_scope.

(** ** Specification *)

(** A device: its session is set up like that of a file system; [d_unrestricted]
    says whether the server may ask for any memory of its clients
    (fs/fuse/cuse.c [cuse_process_init_reply]: CUSE_UNRESTRICTED_IOCTL). *)
Record device := { d_session : mounted; d_limits : limits; d_unrestricted : bool }.
Definition ioctl_flags (d : device) : N := if d_unrestricted d then 2 else 0.
Definition good_device (d : device) : Prop :=
  good_mount (d_session d) /\ 4 <= max_pages (d_limits d) <= 256.

(** The device opened by a program ([fd_node] is not used: there are no nodes). *)
Definition device_file (d : device) (o : opened) : open_file := {|
  of_cuse := true; of_max_write := m_max_write (d_session d); of_max_pages := max_pages (d_limits d);
  of_max_read := max_read (d_limits d); of_buf_len := m_buf_len (d_session d); of_cf := m_cf (d_session d);
  of_hd := fun k => header (d_session d) k 0; of_wcut := fd_wcut o; of_rcut := fd_rcut o;
  of_node := 0; of_fh := fd_handle o; of_flags := fd_flags o |}.
Definition good_handle (d : device) (o : opened) : Prop :=
  fd_handle o < U64 /\ fd_flags o < U32 /\
  (forall k, 1 <= fd_wcut o k <= N.min (m_max_write (d_session d)) (4096 * max_pages (d_limits d))) /\
  (forall k, 1 <= fd_rcut o k <= N.min (max_read (d_limits d)) (4096 * max_pages (d_limits d))).

(** What programs do with it (fs/fuse/cuse.c [cuse_frontend_fops], without poll):
    an ioctl with the memory of the program, for at most [rounds] requests. *)
Inductive device_call :=
| OpenIt (flags : N)
| CloseIt (fh flags : N)
| Transfer (o : opened) (c : file_call)
| Ioctl (fh cmd arg : N) (mem : memory) (rounds : nat).
Inductive device_result := OfOpen (r : sys_result) | OfTransfer (r : file_result) | OfIoctl (r : returned).
Definition device_call_ok (d : device) (c : device_call) : Prop :=
  match c with
  | OpenIt flags => flags < U32
  | CloseIt fh flags => fh < U64 /\ flags < U32
  | Transfer o c => good_handle d o /\ in_file c
  | Ioctl fh cmd arg _ _ => fh < U64 /\ cmd < U32 /\ arg < U64
  end.

(** [Endless]: an ioctl took more requests than allowed.  [Stuck]: the server or
    the kernel could not do its part. *)
Inductive went (A : Type) := Ended (a : A) | Endless | Stuck.
Arguments Ended {A}. Arguments Endless {A}. Arguments Stuck {A}.
Definition went_some {A B : Type} (o : option A) (f : A -> B) : went B :=
  match o with Some a => Ended (f a) | None => Stuck end.

Section Run.
Context {E : Endian} {St : Type}.

(** One ioctl. *)
Fixpoint sys_ioctl (d : device) (prog : program St) (fh cmd arg : N) (mem : memory) (n k : nat) (s : St)
    (vs : list iovec * list iovec) : went (nat * St * returned) :=
  match n with
  | O => Endless
  | S n =>
    match ioctl_request (max_pages (d_limits d)) fh (ioctl_flags d) cmd arg mem vs with
    | inr r => Ended (k, s, r)
    | inl op =>
      match exchange true (m_max_write (d_session d)) (m_buf_len (d_session d)) (m_cf (d_session d)) prog s
              (header (d_session d) k 0) op with
      | None => Stuck
      | Some (s', result) =>
        match ioctl_result (max_pages (d_limits d)) (ioctl_flags d) mem vs result with
        | inr r => Ended (S k, s', r)
        | inl vs => sys_ioctl d prog fh cmd arg mem n (S k) s' vs
        end
      end
    end
  end.

(** Opening and closing; [known] as in CallSpec.v. *)
Definition sys_open (d : device) (prog : program St) (k : nat) (known : list N) (s : St) (c : sys_call)
    : option (list N * St * sys_result) :=
  match skipped known c with
  | Some r => Some (known, s, r)
  | None =>
    match exchange true (m_max_write (d_session d)) (m_buf_len (d_session d)) (m_cf (d_session d)) prog s
            (header (d_session d) k 0) (snd (request_of c)) with
    | None => None
    | Some (s', inl p) => Some (known, s', result_of 0 c p)
    | Some (s', inr e) => let (known', r) := after_error known c (- e) in Some (known', s', r)
    end
  end.

Fixpoint use (d : device) (prog : program St) (k : nat) (known : list N) (s : St) (l : list device_call)
    : went (St * list device_result) :=
  match l with
  | [] => Ended (s, [])
  | c :: l =>
    match (match c with
           | OpenIt flags => went_some (sys_open d prog k known s (Open 0 flags))
               (fun x => let '(known, s, r) := x in (S k, known, s, OfOpen r))
           | CloseIt fh flags => went_some (sys_open d prog k known s (Release 0 fh flags None))
               (fun x => let '(known, s, r) := x in (S k, known, s, OfOpen r))
           | Transfer o (Pwrite off data) => went_some (pwrite (device_file d o) prog k s off data)
               (fun x => let '(k, s, r) := x in (k, known, s, OfTransfer (Wrote r)))
           | Transfer o (Pread off n) => went_some (pread (device_file d o) prog k s off n)
               (fun x => let '(k, s, r) := x in (k, known, s, OfTransfer (Got r)))
           | Ioctl fh cmd arg mem rounds =>
             match sys_ioctl d prog fh cmd arg mem rounds k s (first_vectors (ioctl_flags d) cmd arg) with
             | Ended (k, s, r) => Ended (k, known, s, OfIoctl r)
             | Endless => Endless
             | Stuck => Stuck
             end
           end) with
    | Endless => Endless
    | Stuck => Stuck
    | Ended (k, known, s, r) =>
      match use d prog k known s l with
      | Ended (s, rs) => Ended (s, r :: rs)
      | Endless => Endless
      | Stuck => Stuck
      end
    end
  end.

(** A driver: handlers for everything but IOCTL, and one for it.  They can answer
    what belongs to the request, within the limits of messages. *)
Record driver := { dr_calls : PropCalls.handler (St := St); dr_ioctl : St -> view -> St * ioctl_answer }.
Definition driver_program (h : driver) : program St := fun s v =>
  match v with
  | VIoctl _ _ _ _ _ _ _ _ =>
    let (s', a) := dr_ioctl h s v in
    (s', match ioctl_reply a with Some r => r | None => AErr (-22)%Z end)
  | _ => program_with (dr_calls h) s v
  end.
Definition driver_ok (h : driver) : Prop :=
  reads_and_writes (dr_calls h) /\
  (forall s v, can_answer (snd (dr_ioctl h s v))) /\
  (forall s flags, answers (Open 0 flags) (snd (dr_calls h s (VOpen 1 0 flags)))) /\
  (forall s fh flags, answers (Release 0 fh flags None) (snd (dr_calls h s (VRelease 1 fh None flags)))).

(** The same with the handlers called directly. *)
Definition open_directly (h : driver) (known : list N) (s : St) (c : sys_call) (v : view) : list N * St * sys_result :=
  match skipped known c with
  | Some r => (known, s, r)
  | None =>
    let (s', a) := dr_calls h s v in
    match a with
    | SaidOpen fh flags => (known, s', Handle fh flags)
    | SaidError e => let (known', r) := after_error known c (- e) in (known', s', r)
    | _ => (known, s', CallSpec.Done)
    end
  end.
Fixpoint ioctl_directly (d : device) (h : driver) (fh cmd arg : N) (mem : memory) (n k : nat) (s : St)
    (vin vout : list iovec) : went (nat * St * returned) :=
  match n with
  | O => Endless
  | S n =>
    match gather mem vin with
    | None => Ended (k, s, Returns (- EFAULT) mem)
    | Some input =>
      (* more than the buffer of the server can take *)
      if m_buf_len (d_session d) <? 72 + nlen input then Ended (S k, s, Returns (-5) mem)
      else
        let (s', a) := dr_ioctl h s (VIoctl 1 fh cmd arg input (nlen input) (iov_length vout) (ioctl_flags d)) in
        match a with
        | PropIoctl.Error e => Ended (S k, s', Returns (no_tty e) mem)
        | PropIoctl.Done r output =>
          Ended (S k, s',
            if iov_length vout <? nlen output then Returns (-5) mem
            else match scatter mem vout output with
                 | Some m => Returns (no_tty r) m
                 | None => Faults
                 end)
        | Retry i o =>
          if negb (d_unrestricted d) then Ended (S k, s', Returns (-5) mem)
          else if too_long (max_pages (d_limits d)) (map covers i) || too_long (max_pages (d_limits d)) (map covers o)
          then Ended (S k, s', Returns (- ENOMEM) mem)
          else ioctl_directly d h fh cmd arg mem n (S k) s' (map covers i) (map covers o)
        end
    end
  end.
Fixpoint use_directly (d : device) (h : driver) (k : nat) (known : list N) (s : St) (l : list device_call)
    : went (St * list device_result) :=
  match l with
  | [] => Ended (s, [])
  | c :: l =>
    match (match c with
           | OpenIt flags =>
             let '(known, s, r) := open_directly h known s (Open 0 flags) (VOpen 1 0 flags) in
             Ended (S k, known, s, OfOpen r)
           | CloseIt fh flags =>
             let '(known, s, r) := open_directly h known s (Release 0 fh flags None) (VRelease 1 fh None flags) in
             Ended (S k, known, s, OfOpen r)
           | Transfer o (Pwrite off data) =>
             went_some (meant_write (device_file d o) (rw_of (dr_calls h)) (length data) k s off data 0)
               (fun x => let '(k, s, r) := x in (k, known, s, OfTransfer (Wrote r)))
           | Transfer o (Pread off n) =>
             went_some (meant_read (device_file d o) (rw_of (dr_calls h)) (N.to_nat n) k s off n [])
               (fun x => let '(k, s, r) := x in (k, known, s, OfTransfer (Got r)))
           | Ioctl fh cmd arg mem rounds =>
             let '(vin, vout) := first_vectors (ioctl_flags d) cmd arg in
             match ioctl_directly d h fh cmd arg mem rounds k s vin vout with
             | Ended (k, s, r) => Ended (k, known, s, OfIoctl r)
             | Endless => Endless
             | Stuck => Stuck
             end
           end) with
    | Endless => Endless
    | Stuck => Stuck
    | Ended (k, known, s, r) =>
      match use_directly d h k known s l with
      | Ended (s, rs) => Ended (s, r :: rs)
      | Endless => Endless
      | Stuck => Stuck
      end
    end
  end.
End Run.
Arguments driver : clear implicits.

(** ** Proofs *)

Section Proofs.
Context {E : Endian} {St : Type}.

Lemma device_file_good d o : good_device d -> good_handle d o -> good_file (device_file d o).
Proof.
  intros [G [_ P]] (Hf & Hg & Hw & Hr). pose proof G as (B & _ & Hd). unfold good_file, device_file.
  cbn [of_cuse of_max_write of_max_pages of_max_read of_buf_len of_cf of_hd of_wcut of_rcut of_node of_fh of_flags].
  split; [exact B|]. split; [exact P|]. split; [exact Hf|]. split; [exact Hg|]. split; [discriminate|].
  split; [exact Hw|]. split; [exact Hr|]. intros k. destruct (Hd k) as [[Gh Gu] Od].
  split; [|split; [exact Od|reflexivity]]. split; [|exact Gu].
  unfold header_fields, header in *. cbn [rh_unique rh_nodeid rh_uid rh_gid rh_pid rh_padding] in *.
  repeat match goal with H : Forall _ (_ :: _) |- _ => apply Forall_cons_iff in H as [? H] end.
  repeat (apply Forall_cons; [assumption || (unfold in_range; cbn; lia)|]). apply Forall_nil.
Qed.
Lemma device_header d k : good_device d ->
  good_header (header (d_session d) k 0) /\ N.odd (rh_unique (header (d_session d) k 0)) = false.
Proof.
  intros G.
  destruct G as [(B & _ & Hd) _]. destruct (Hd k) as [[Gh Gu] Od]. split; [|exact Od]. split; [|exact Gu].
  unfold header_fields, header in *. cbn [rh_unique rh_nodeid rh_uid rh_gid rh_pid rh_padding] in *.
  repeat match goal with H : Forall _ (_ :: _) |- _ => apply Forall_cons_iff in H as [? H] end.
  repeat (apply Forall_cons; [assumption || (unfold in_range; cbn; lia)|]). apply Forall_nil.
Qed.

(** Reading and writing: the other handlers do not matter. *)
Lemma driver_rw (h : driver St) s v : reads_and_writes (dr_calls h) -> is_write v \/ is_read v ->
  driver_program h s v = program_of (rw_of (dr_calls h)) s v.
Proof.
  intros H I. rewrite <- (rw_program (dr_calls h) s v H I). destruct I as [I|I]; destruct v; try contradiction I; reflexivity.
Qed.
Lemma driver_pwrite f (h : driver St) : reads_and_writes (dr_calls h) -> forall fuel k s off data done,
  pwrite_loop f (driver_program h) fuel k s off data done = pwrite_loop f (program_of (rw_of (dr_calls h))) fuel k s off data done.
Proof.
  intros H. induction fuel as [|fuel IH]; intros k s off data done; destruct data as [|x data]; try reflexivity.
  cbn [pwrite_loop].
  rewrite (exchange_ext _ _ _ _ (driver_program h) (program_of (rw_of (dr_calls h))) s _ _ is_write);
    [|exact (decoded_write _ _)|intros; apply driver_rw; auto].
  destruct (exchange _ _ _ _ _ _ _ _) as [[s' r]|]; [|reflexivity].
  destruct (match r with inl p => _ | inr e => _ end); [|reflexivity]. destruct (_ =? _); [apply IH|reflexivity].
Qed.
Lemma driver_pread f (h : driver St) : reads_and_writes (dr_calls h) -> forall fuel k s off n got,
  pread_loop f (driver_program h) fuel k s off n got = pread_loop f (program_of (rw_of (dr_calls h))) fuel k s off n got.
Proof.
  intros H. induction fuel as [|fuel IH]; intros k s off n got; destruct n as [|n]; try reflexivity.
  cbn [pread_loop].
  rewrite (exchange_ext _ _ _ _ (driver_program h) (program_of (rw_of (dr_calls h))) s _ _ is_read);
    [|exact (decoded_read _ _)|intros; apply driver_rw; auto].
  destruct (exchange _ _ _ _ _ _ _ _) as [[s' [p|e]]|]; [|reflexivity|reflexivity].
  destruct (_ =? _); [apply IH|reflexivity].
Qed.

(** The reply to an ioctl. *)
Lemma ioctl_replies minor id a : is_id id -> can_answer a ->
  exists r e p, ioctl_reply a = Some r /\ replies minor id r e p /\ (-512 < e <= 0)%Z /\ (e <> 0%Z -> p = []) /\
  match a with
  | PropIoctl.Error x => e = x /\ (e < 0)%Z
  | PropIoctl.Done r out => e = 0%Z /\ as_i32 (u32_at 0 p) = r /\ u32_at 4 p = 0 /\ drop 16 p = out /\ nlen p = 16 + nlen out
  | Retry i o =>
    e = 0%Z /\ u32_at 4 p = 4 /\ u32_at 8 p = nlen i /\ u32_at 12 p = nlen o /\
    drop 16 p = ioctl_slices_bytes (i ++ o) /\ nlen p = 16 + 16 * (nlen i + nlen o)
  end.
Proof.
  intros Hid C. destruct a as [i o|r out|e]; cbn [can_answer ioctl_reply] in *.
  - destruct C as [C1 C2].
    pose proof (proj1 (proj1 (C26_retry_limit i o)) C1) as Nw. rewrite Nw. cbn [option_map].
    destruct (C26_retry_reply minor id i o _ Hid Nw C2) as (p & R0 & _ & P4 & P8 & P12 & Lp & Sl).
    do 2 eexists. exists p. split; [reflexivity|]. split; [exact R0|]. split; [lia|]. split; [easy|].
    split; [reflexivity|]. split; [exact P4|]. split; [exact P8|]. split; [exact P12|]. split; [|exact Lp].
    destruct R0 as (b & m & A & O & _ & K).
    assert (X : p = fuse_ioctl_out_bytes (ires_raw (IoctlResponse_new_retry {| ir_input := i; ir_output := o |})) ++
      ioctl_slices_bytes (i ++ o)).
    { assert (R : replies minor id (AOk (RIoctl (IoctlResponse_new_retry {| ir_input := i; ir_output := o |}))) 0
        (payload minor (RIoctl (IoctlResponse_new_retry {| ir_input := i; ir_output := o |})))).
      { apply ok_replies; auto. cbn [payload IoctlResponse_new_retry ires_output ir_input ir_output].
        rewrite !nlen_app, !nlen_slices.
        unfold fuse_ioctl_out_bytes. rewrite nlen_wire. change (fields_size _) with 16.
        unfold u32_max. lia. }
      destruct R as (b' & m' & A' & O' & _ & K'). rewrite A in A'. injection A' as <-.
      rewrite O in O'. injection O' as <-. rewrite K in K'. injection K' as ->.
      cbn [payload IoctlResponse_new_retry ires_output ir_input ir_output].
      unfold ioctl_slices_bytes. now rewrite flat_map_app. }
    rewrite X. apply drop_app. unfold fuse_ioctl_out_bytes. now rewrite nlen_wire.
  - destruct C as [C1 C2].
    destruct (C26_ioctl_reply minor id r out Hid C1 C2) as (p & R & P0 & P4 & _ & _ & L16 & D).
    do 2 eexists. exists p. split; [reflexivity|]. split; [exact R|]. split; [lia|]. split; [easy|].
    split; [reflexivity|]. split; [exact P0|]. split; [exact P4|]. split; [exact D|].
    rewrite <- D, nlen_drop. lia.
  - do 2 eexists. exists []. split; [reflexivity|].
    split; [apply C20_error_reply; [exact Hid|unfold is_i32; lia]|]. split; [lia|]. split; [easy|]. split; [reflexivity|lia].
Qed.

(** One ioctl runs as the handler says. *)
Lemma ioctl_meant d (h : driver St) fh cmd arg mem : good_device d -> driver_ok h ->
  fh < U64 -> cmd < U32 -> arg < U64 ->
  forall n k s vin vout,
  iov_length vin <= 4096 * max_pages (d_limits d) -> iov_length vout <= 4096 * max_pages (d_limits d) ->
  sys_ioctl d (driver_program h) fh cmd arg mem n k s (vin, vout) = ioctl_directly d h fh cmd arg mem n k s vin vout.
Proof.
  intros G (_ & Can & _) Hf Hc Ha. pose proof G as [(B & _ & _) [P4 P256]].
  induction n as [|n IH]; intros k s vin vout Li Lo; [reflexivity|].
  cbn [sys_ioctl ioctl_directly]. unfold ioctl_request.
  rewrite N.max_assoc, pages_small by lia.
  destruct (gather mem vin) as [input|] eqn:Gt; [|reflexivity].
  apply gather_length in Gt.
  set (op := OIoctl fh (ioctl_flags d) cmd arg (iov_length vout) input).
  set (hd := header (d_session d) k 0). destruct (device_header d k G) as (Gh & Od). fold hd in Gh, Od.
  set (cf := m_cf (d_session d)) in *.
  assert (Lm : nlen (linux_message cf hd op) = 72 + nlen input).
  { rewrite nlen_linux_message. unfold op, op_body. cbn [op_fields op_tail surplus].
    rewrite !nlen_app, !nlen_wire. cbn [fields_size u64 u32 fst]. lia. }
  destruct (N.ltb_spec (m_buf_len (d_session d)) (72 + nlen input)) as [Big|Small].
  { unfold exchange, device_read. rewrite Lm.
    replace (m_buf_len (d_session d) <? N.max 8192 (80 + m_max_write (d_session d))) with false by lia.
    replace (m_buf_len (d_session d) <? 72 + nlen input) with true by lia. reflexivity. }
  assert (Fl : ioctl_flags d < U32) by (unfold ioctl_flags; destruct (d_unrestricted d); unfold U32; lia).
  assert (Un : unrestricted (ioctl_flags d) = d_unrestricted d)
    by (unfold ioctl_flags, unrestricted; now destruct (d_unrestricted d)).
  assert (S : sendable true cf hd op).
  { split; [exact Gh|]. split; [split; [|exact I]|].
    - unfold op. cbn [op_fields]. unfold in_range, U64, U32 in *.
      repeat constructor; cbn [fst snd u64 u32 N.of_nat Pos.of_succ_nat]; cbn; try lia.
    - split; [reflexivity|]. split; [|constructor].
      intros _ [Cu|Cu]; discriminate Cu. }
  set (v := VIoctl 1 fh cmd arg input (nlen input) (iov_length vout) (ioctl_flags d)).
  assert (T : taken_for true cf (rh_nodeid hd) op = Ret v) by reflexivity.
  destruct (dr_ioctl h s v) as [s' a] eqn:Hv. pose proof (Can s v) as Cv. rewrite Hv in Cv. cbn [snd] in Cv.
  destruct (ioctl_replies (cf_minor cf) (rh_unique hd) a (header_id hd Gh) Cv) as (r & e & p & Rp & R & He & Hp & Q).
  rewrite (exchange_ok true _ _ cf (driver_program h) s hd op v s' r e p B S); try assumption; try discriminate.
  2: { rewrite Lm. unfold U32. lia. }
  2: { rewrite Lm. exact Small. }
  2: { unfold driver_program, v. fold v. rewrite Hv, Rp. reflexivity. }
  clear R Rp Hv T S.
  destruct a as [i o|res out|x].
  - destruct Q as (-> & Q4 & Q8 & Q12 & Dp & Lp). destruct Cv as [Cl Co]. change (0 =? 0)%Z with true. cbv iota.
    replace (fits _ _) with true by (rewrite Lp; unfold op; cbn [op_room fits]; lia).
    unfold ioctl_result. rewrite Q4, Q8, Q12, Dp, nlen_slices, nlen_app.
    change (N.testbit 4 2) with true. cbv beta iota. rewrite Un.
    destruct (d_unrestricted d); cbn [negb]; [|reflexivity].
    replace (256 <? nlen i + nlen o) with false by lia. rewrite N.eqb_refl. cbn [negb].
    assert (Fi : Forall slice_ok i /\ Forall slice_ok o) by (now apply Forall_app in Co).
    assert (Sp : ioctl_slices_bytes (i ++ o) = ioctl_slices_bytes i ++ ioctl_slices_bytes o)
      by (unfold ioctl_slices_bytes; now rewrite flat_map_app).
    assert (V1 : vectors (N.to_nat (nlen i)) (ioctl_slices_bytes (i ++ o)) = map covers i).
    { rewrite Sp. unfold nlen. rewrite Nnat.Nat2N.id. apply vectors_slices, Fi. }
    assert (V2 : vectors (N.to_nat (nlen o)) (drop (16 * nlen i) (ioctl_slices_bytes (i ++ o))) = map covers o).
    { rewrite Sp, drop_app by (now rewrite nlen_slices). unfold nlen. rewrite Nnat.Nat2N.id.
      rewrite <- (app_nil_r (ioctl_slices_bytes o)). apply vectors_slices, Fi. }
    rewrite V1, V2. destruct (too_long _ (map covers i)) eqn:T1; [reflexivity|].
    destruct (too_long _ (map covers o)) eqn:T2; [reflexivity|]. cbn [orb].
    unfold too_long in T1, T2. apply IH; lia.
  - destruct Q as (-> & Q0 & Q4 & Dp & Lp). change (0 =? 0)%Z with true. cbv iota. rewrite Lp.
    destruct (fits _ _) eqn:Ft; unfold op in Ft; cbn [op_room fits] in Ft.
    + unfold ioctl_result. rewrite Q4, Q0, Dp. change (N.testbit 0 2) with false. cbv beta iota. cbn [snd].
      destruct (iov_length vout <? nlen out); [reflexivity|].
      now destruct (scatter mem vout out).
    + replace (iov_length vout <? nlen out) with true by (clear - Ft; lia). reflexivity.
  - destruct Q as [-> Q]. replace (x =? 0)%Z with false by (clear - Q; lia). reflexivity.
Qed.

(** Opening and closing. *)
Lemma open_meant d (h : driver St) k known s c v : good_device d -> driver_ok h ->
  (exists flags, c = Open 0 flags /\ v = VOpen 1 0 flags /\ flags < U32) \/
  (exists fh flags, c = Release 0 fh flags None /\ v = VRelease 1 fh None flags /\ fh < U64 /\ flags < U32) ->
  sys_open d (driver_program h) k known s c = Some (open_directly h known s c v).
Proof.
  intros G (_ & _ & Ho & Hr) Cases. pose proof G as [(B & M & _) _].
  destruct (device_header d k G) as (Gh & Od).
  assert (A : answers c (snd (dr_calls h s v))) by (destruct Cases as [(fl & -> & -> & _)|(fh & fl & -> & -> & _)]; auto).
  unfold sys_open, open_directly. destruct (skipped known c); [reflexivity|].
  destruct (dr_calls h s v) as [s' a] eqn:H. cbn [snd] in A.
  set (hd := header (d_session d) k 0) in *. set (cf := m_cf (d_session d)) in *. set (op := snd (request_of c)).
  assert (S : sendable true cf hd op).
  { split; [exact Gh|]. unfold op. destruct Cases as [(fl & -> & -> & F)|(fh & fl & -> & -> & F1 & F)];
      cbn [request_of snd bit value].
    - split; [split; [|exact I]|].
      + cbn [op_fields]. unfold in_range, U64, U32 in *. repeat constructor; cbn; lia.
      + split; [reflexivity|]. split; [|constructor]. intros _ [Cu|Cu]; discriminate Cu.
    - split; [split; [|exact I]|].
      + cbn [op_fields]. unfold release_in, in_range, U64, U32 in *. repeat destruct (_ <? _); repeat constructor; cbn; lia.
      + split; [reflexivity|]. split; [|constructor]. intros _ [Cu|Cu]; discriminate Cu. }
  assert (W : ClientSpec.within (m_max_write (d_session d)) 256 (m_buf_len (d_session d)) op)
    by (unfold op; destruct Cases as [(fl & -> & _)|(fh & fl & -> & _)]; exact I).
  destruct (message_fits _ _ _ cf hd op W ltac:(lia) B) as [L L'].
  assert (L'' : nlen (linux_message cf hd op) <= m_buf_len (d_session d))
    by (apply L'; unfold op; destruct Cases as [(fl & -> & _)|(fh & fl & -> & _)]; reflexivity).
  assert (T : taken_for true cf (rh_nodeid hd) op = Ret v).
  { unfold taken_for, op, hd. destruct Cases as [(fl & -> & -> & F)|(fh & fl & -> & -> & F1 & F)]; [reflexivity|].
    cbn [request_of snd bit value expected]. now destruct (cf_minor cf <? 8). }
  assert (Pv : driver_program h s v = (s', answer_of a)).
  { assert (X : driver_program h s v = program_with (dr_calls h) s v)
      by (destruct Cases as [(fl & _ & -> & _)|(fh & fl & _ & -> & _)]; reflexivity).
    rewrite X. unfold program_with. now rewrite H. }
  assert (F5 : after_error known c 5 = (known, failure c 5)) by (unfold after_error; now destruct (without_it c)).
  assert (C : call_ok (match c with Open _ fl => Open 1 fl | Release _ fh fl o => Release 1 fh fl o | _ => c end)).
  { destruct Cases as [(fl & -> & -> & F)|(fh & fl & -> & -> & F1 & F)]; unfold call_ok, id_ok, U64, U32 in *; repeat split; lia. }
  assert (A' : answers (match c with Open _ fl => Open 1 fl | Release _ fh fl o => Release 1 fh fl o | _ => c end) a).
  { destruct Cases as [(fl & -> & -> & F)|(fh & fl & -> & -> & F1 & F)]; destruct a; exact A. }
  destruct (reply_ok (d_session d) (rh_unique hd) 0 _ a M (header_id hd Gh) C A') as (e & p & Rp & He & Hp & Qe & Q).
  rewrite (exchange_ok true _ _ cf (driver_program h) s hd op v s' (answer_of a) e p B S (fun _ => M) L L'' Od T Pv Rp He Hp).
  clear Rp Pv T S W L L' L'' H.
  assert (Q' : (e =? 0)%Z = true ->
    (if fits (op_room (cf_minor cf) op) (nlen p) then result_of 0 c p else failure c 5) =
    match a with SaidOpen fh flags => Handle fh flags | _ => CallSpec.Done end /\
    match a with SaidError _ => False | _ => True end).
  { intros E0. rewrite E0 in Q. unfold op.
    destruct Cases as [(fl & -> & _)|(fh & fl & -> & _)]; destruct a; try (exfalso; cbn [answers] in A; tauto).
    all: try (cbn [answers] in A; lia). all: split; [exact Q|exact I]. }
  destruct (Z.eqb_spec e 0) as [E0|E0].
  - destruct (Q' eq_refl) as [Q1 Q2].
    assert (X : match a with
                | SaidOpen fh flags => (known, s', Handle fh flags)
                | SaidError x => let (known', r) := after_error known c (- x) in (known', s', r)
                | _ => (known, s', CallSpec.Done) end =
                (known, s', match a with SaidOpen fh flags => Handle fh flags | _ => CallSpec.Done end))
      by (destruct a; [..|contradiction Q2]; reflexivity).
    rewrite X, <- Q1. clear - F5. generalize (fits (op_room (cf_minor cf) op) (nlen p)). intros [|]; [reflexivity|]. change (- -5)%Z with 5%Z. rewrite F5. reflexivity.
  - destruct a; try contradiction. subst e. clear. now destruct (after_error known c _).
Qed.

Lemma directly_moves d (h : driver St) fh cmd arg mem n : forall k s vin vout,
  ioctl_directly d h fh cmd arg mem n k s vin vout <> Stuck.
Proof.
  induction n as [|n IH]; intros k s vin vout; cbn [ioctl_directly]; [discriminate|].
  destruct (gather mem vin); [|discriminate]. destruct (_ <? _); [discriminate|].
  destruct (dr_ioctl h s _) as [s' [i o|r out|e]]; [|discriminate..].
  destruct (negb _); [discriminate|]. destruct (_ || _); [discriminate|apply IH].
Qed.

(** Any calls on a device, in any order, run as if the program had called the
    handlers of the driver; there is always an answer. *)
Theorem C79_device d (h : driver St) : good_device d -> driver_ok h ->
  forall l, Forall (device_call_ok d) l -> forall k known s,
  use d (driver_program h) k known s l = use_directly d h k known s l /\
  use d (driver_program h) k known s l <> Stuck.
Proof.
  intros G H l Sl. assert (X : forall k known s,
    use d (driver_program h) k known s l = use_directly d h k known s l /\ use_directly d h k known s l <> Stuck).
  2: { intros k known s. destruct (X k known s) as [-> Y]. now split. }
  pose proof H as (RW & _).
  induction Sl as [|c l Sc Sl IH]; intros k known s; [split; [reflexivity|discriminate]|].
  assert (Next : forall k known s r,
    match use d (driver_program h) k known s l with
    | Ended (s, rs) => Ended (s, r :: rs) | Endless => Endless | Stuck => Stuck end =
    match use_directly d h k known s l with
    | Ended (s, rs) => Ended (s, r :: rs) | Endless => Endless | Stuck => Stuck end /\
    match use_directly d h k known s l with
    | Ended (s, rs) => Ended (s, r :: rs) | Endless => Endless | Stuck => Stuck end <> (Stuck : went (St * list device_result))).
  { intros k' known' s' r. destruct (IH k' known' s') as [-> N0].
    destruct (use_directly d h k' known' s' l) as [[s2 rs]| |]; [split; [reflexivity|discriminate]..|now destruct N0]. }
  clear IH. cbn [use use_directly].
  destruct c as [fl|fh fl|o [off data|off n]|fh cmd arg mem n]; cbn [device_call_ok] in Sc.
  - rewrite (open_meant d h k known s (Open 0 fl) (VOpen 1 0 fl) G H) by (left; eauto). cbn [went_some].
    destruct (open_directly h known s (Open 0 fl) (VOpen 1 0 fl)) as [[known' s'] r]. apply Next.
  - rewrite (open_meant d h k known s (Release 0 fh fl None) (VRelease 1 fh None fl) G H)
      by (right; exists fh, fl; tauto). cbn [went_some].
    destruct (open_directly h known s (Release 0 fh fl None) (VRelease 1 fh None fl)) as [[known' s'] r]. apply Next.
  - destruct Sc as [Go Sc]. cbn [in_file] in Sc. pose proof (device_file_good d o G Go) as Gf.
    unfold pwrite. rewrite driver_pwrite by exact RW.
    rewrite pwrite_meant; [|exact Gf|now apply rw_can|unfold U64; lia].
    destruct (meant_write_ends (device_file d o) (rw_of (dr_calls h)) Gf (length data) k s off data 0) as [[[k1 s1] r] ->]; [lia|]. cbn [went_some]. apply Next.
  - destruct Sc as [Go Sc]. cbn [in_file] in Sc. pose proof (device_file_good d o G Go) as Gf.
    unfold pread. rewrite driver_pread by exact RW.
    rewrite pread_meant; [|exact Gf|now apply rw_can|unfold U64; lia].
    destruct (meant_read_ends (device_file d o) (rw_of (dr_calls h)) Gf (N.to_nat n) k s off n []) as [[[k1 s1] r] ->]; [lia|]. cbn [went_some]. apply Next.
  - destruct Sc as (Hf & Hc & Ha). pose proof G as [_ [P4 _]].
    pose proof (first_short (max_pages (d_limits d)) (ioctl_flags d) cmd arg P4) as F.
    destruct (first_vectors (ioctl_flags d) cmd arg) as [vin vout]. destruct F as [F1 F2].
    rewrite (ioctl_meant d h fh cmd arg mem G H Hf Hc Ha n k s vin vout F1 F2).
    pose proof (directly_moves d h fh cmd arg mem n k s vin vout) as Mv.
    destruct (ioctl_directly d h fh cmd arg mem n k s vin vout) as [[[k1 s1] r]| |];
      [apply Next|split; [reflexivity|discriminate]|now destruct Mv].
Qed.

(** If the server is not trusted with the memory of its clients, every ioctl is
    one request, and everything ends. *)
Theorem C79_ends d (h : driver St) : good_device d -> driver_ok h -> d_unrestricted d = false ->
  forall l, Forall (device_call_ok d) l ->
  Forall (fun c => match c with Ioctl _ _ _ _ rounds => (1 <= rounds)%nat | _ => True end) l ->
  forall k known s, exists s' rs, use d (driver_program h) k known s l = Ended (s', rs) /\ length rs = length l.
Proof.
  intros G H U l Sl Rl k known s. destruct (C79_device d h G H l Sl k known s) as [Eq Ns]. rewrite Eq in *. clear Eq.
  revert k known s Ns. induction Rl as [|c l Rc Rl IH]; intros k known s Ns; [now exists s, []|].
  inversion Sl as [|? ? Sc Sl']; subst. specialize (IH Sl'). clear Sl.
  assert (Next : forall k known s r,
    match use_directly d h k known s l with
    | Ended (s, rs) => Ended (s, r :: rs) | Endless => Endless | Stuck => Stuck end <> Stuck ->
    exists s' rs, match use_directly d h k known s l with
    | Ended (s, rs) => Ended (s, r :: rs) | Endless => Endless | Stuck => Stuck end = Ended (s', rs) /\ length rs = length (c :: l)).
  { intros k' known' s' r N0. destruct (IH k' known' s') as (s2 & rs & Q & L).
    - intros C. rewrite C in N0. now apply N0.
    - rewrite Q. exists s2, (r :: rs). split; [reflexivity|]. cbn [length]. now rewrite L. }
  clear IH. cbn [use_directly] in *.
  destruct c as [fl|fh fl|o [off data|off n]|fh cmd arg mem n].
  - destruct (open_directly h known s (Open 0 fl) (VOpen 1 0 fl)) as [[known' s'] r]. now apply Next.
  - destruct (open_directly h known s (Release 0 fh fl None) (VRelease 1 fh None fl)) as [[known' s'] r]. now apply Next.
  - destruct (meant_write _ _ _ _ _ _ _ _) as [[[k1 s1] r]|]; cbn [went_some] in *; [now apply Next|now destruct Ns].
  - destruct (meant_read _ _ _ _ _ _ _ _) as [[[k1 s1] r]|]; cbn [went_some] in *; [now apply Next|now destruct Ns].
  - destruct (first_vectors (ioctl_flags d) cmd arg) as [vin vout].
    destruct n as [|n]; [lia|]. assert (X : exists x, ioctl_directly d h fh cmd arg mem (S n) k s vin vout = Ended x).
    { cbn [ioctl_directly]. rewrite U. destruct (gather mem vin); [|eauto]. destruct (_ <? _); [eauto|].
      destruct (dr_ioctl h s _) as [s' [i o|r out|e]]; cbn [negb]; eauto. }
    destruct X as [[[k1 s1] r] X]. rewrite X in *. now apply Next.
Qed.
End Proofs.

(** ** Examples *)

Local Instance LE : Endian := false.

(** A device that keeps the last data written to it, and whether an ioctl is in
    progress.  The command 7 stores the number of bytes at the argument: the
    handler asks for that byte first. *)
Definition keeper : driver (bytes * bool) := {|
  dr_calls := fun s v =>
    match v with
    | VOpen _ _ flags => (s, if flags =? 0 then SaidError (-13)%Z else SaidOpen 9 1)
    | VRelease _ _ _ _ => (([], false), SaidOk)
    | VRead _ size off _ _ _ => (s, SaidText (slice off size (fst s)))
    | VWrite _ off _ data _ _ _ =>
      if nlen data <? 1048577 then ((written (fst s) off data, snd s), SaidCount (nlen data)) else (s, SaidError (-22)%Z)
    | _ => (s, SaidError (-38)%Z)
    end;
  dr_ioctl := fun s v =>
    match v with
    | VIoctl _ _ cmd arg _ _ _ _ =>
      if negb (cmd =? 7) then (s, PropIoctl.Error (-38)%Z)
      else if snd s then ((fst s, false), PropIoctl.Done 3 [n2b (nlen (fst s))])
      else ((fst s, true), Retry [] [{| is_base := arg mod U64; is_len := 1 |}])
    | _ => (s, PropIoctl.Error (-38)%Z)
    end |}.
Lemma keeper_ok : driver_ok keeper.
Proof.
  split; [split|split; [|split]].
  - intros s node size off fh lock flags. cbn [keeper dr_calls snd]. intros L. rewrite nlen_slice. lia.
  - intros s node off fh data wflags lock flags. cbn [keeper dr_calls].
    destruct (N.ltb_spec (nlen data) 1048577); cbn [snd]; [unfold U32; lia|lia].
  - intros s v. cbn [keeper dr_ioctl]. destruct v; try (cbn [snd can_answer]; lia).
    destruct (negb _); [cbn [snd can_answer]; lia|]. destruct (snd s); cbn [snd can_answer].
    + split; [unfold is_i32; lia|cbn; lia].
    + split; [cbn; lia|]. constructor; [|constructor]. split; cbn [is_base is_len]; [apply N.mod_lt; discriminate|reflexivity].
  - intros s flags. cbn [keeper dr_calls snd]. destruct (flags =? 0); cbn [answers]; [lia|unfold U64, U32; split; [lia|split; [lia|exact I]]].
  - intros s fh flags. exact I.
Qed.
Definition demo_device (unrestricted : bool) : device :=
  {| d_session := demo_mount; d_limits := {| max_pages := 4; max_read := 4096 |}; d_unrestricted := unrestricted |}.
Lemma demo_device_good u : good_device (demo_device u).
Proof. split; [exact demo_mount_good|cbn; lia]. Qed.
Definition demo_open_fd : opened := {|
  fd_node := 0; fd_handle := 9; fd_flags := 2; fd_wcut := fun _ => 2; fd_rcut := fun _ => 3 |}.
Definition one_byte (a : N) : option byte := if a =? 50 then Some x00 else None.
Definition demo_uses : list device_call :=
  [OpenIt 0; OpenIt 2; Transfer demo_open_fd (Pwrite 0 [x61; x62; x63; x64; x65]); Transfer demo_open_fd (Pread 1 9);
   Ioctl 9 7 50 one_byte 2; Ioctl 9 8 50 one_byte 2; CloseIt 9 2; Transfer demo_open_fd (Pread 0 4)].
Lemma demo_uses_ok u : Forall (device_call_ok (demo_device u)) demo_uses.
Proof.
  assert (Fd : good_handle (demo_device u) demo_open_fd)
    by (unfold good_handle, U64, U32; cbn; repeat split; lia).
  repeat constructor; cbn [device_call_ok in_file]; unfold U64, U32; try (exact Fd); try lia; cbn; lia.
Qed.

(** With a driver that may ask for memory, the byte is stored. *)
Example C79_device_example :
  good_device (demo_device true) /\ driver_ok keeper /\ Forall (device_call_ok (demo_device true)) demo_uses /\
  match use (demo_device true) (driver_program keeper) 0 [] ([], false) demo_uses with
  | Ended (s, [r1; r2; r3; r4; OfIoctl (Returns r m); OfIoctl (Returns r' m'); r5; r6]) =>
    s = ([], false) /\ r1 = OfOpen (CallSpec.Error 13) /\ r2 = OfOpen (Handle 9 1) /\
    r3 = OfTransfer (Wrote (inl 5)) /\ r4 = OfTransfer (Got (inl [x62; x63; x64; x65])) /\
    r = 3%Z /\ m 50 = Some x05 /\ r' = (-25)%Z /\ m' 50 = Some x00 /\
    r5 = OfOpen CallSpec.Done /\ r6 = OfTransfer (Got (inl []))
  | _ => False
  end.
Proof.
  split; [exact (demo_device_good true)|]. split; [exact keeper_ok|]. split; [exact (demo_uses_ok true)|].
  vm_compute. repeat split.
Qed.
(** With one that may not, the ioctl fails. *)
Example C79_ends_example :
  good_device (demo_device false) /\ driver_ok keeper /\ Forall (device_call_ok (demo_device false)) demo_uses /\
  match use (demo_device false) (driver_program keeper) 0 [] ([], false) demo_uses with
  | Ended (s, [_; _; _; _; OfIoctl (Returns r m); _; _; _]) => r = (-5)%Z /\ m 50 = Some x00
  | _ => False
  end.
Proof.
  split; [exact (demo_device_good false)|]. split; [exact keeper_ok|]. split; [exact (demo_uses_ok false)|].
  vm_compute. split; reflexivity.
Qed.
(** A driver without OPEN: files are open without it, and it is not told of their
    being closed. *)
Example C79_device_no_open_example :
  match use (demo_device true) (driver_program {| dr_calls := fun s v => (v :: s, SaidError (-38)%Z);
                                                   dr_ioctl := fun s v => (s, PropIoctl.Error (-38)%Z) |})
          0 [] [] [OpenIt 2; OpenIt 2; CloseIt 0 2] with
  | Ended (s, rs) => s = [VOpen 1 0 2] /\ rs = [OfOpen (Handle 0 2); OfOpen (Handle 0 2); OfOpen CallSpec.Done]
  | _ => False
  end.
Proof. vm_compute. split; reflexivity. Qed.

(** What the device cannot do: poll(2) has no answer, whatever the driver (see
    C15_cuse_poll_refuted). *)
Theorem C79_poll_refuted :
  exists d fh kh flags events, good_device d /\
  forall (St : Type) (prog : program St) s k,
  exchange true (m_max_write (d_session d)) (m_buf_len (d_session d)) (m_cf (d_session d)) prog s
    (header (d_session d) k 0) (OPoll fh kh flags events) = None.
Proof.
  exists (demo_device true), 9, 1, 1, 5. split; [exact (demo_device_good true)|]. intros St prog s k.
  assert (X : exists i, N.of_nat (Nat.min k 100) = i /\ i <= 100) by (eexists; split; [reflexivity|lia]).
  destruct X as (i & Hi & Li). unfold header, demo_device, d_session, demo_mount, m_hd.
  cbn [rh_unique rh_uid rh_gid rh_pid rh_padding]. rewrite Hi. clear Hi.
  assert (Y : forall n : nat, (n <= 100)%nat -> i = N.of_nat n -> exchange true 8112 8192
    {| cf_minor := 36; cf_setxattr_ext := false; cf_overflow_checks := true |} prog s
    {| rh_unique := 2 + 2 * i; rh_nodeid := 0; rh_uid := 1000; rh_gid := 100; rh_pid := 7; rh_padding := 0 |}
    (OPoll 9 1 1 5) = None).
  { intros n Ln ->. do 101 (destruct n as [|n]; [vm_compute; reflexivity|]). lia. }
  apply (Y (N.to_nat i)); lia.
Qed.

Print Assumptions C79_device.
Print Assumptions C79_ends.
Print Assumptions C79_poll_refuted.
