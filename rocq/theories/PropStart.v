(** Theorems about programs that use a file system or a device from the handshake
    on: C80 of properties.jsonl. *)

From Verif Require Import Base Kernel CoreModel DecodeModel OpsModel WireSpec OpsRoundTrip DecodeProofs
  ReplyModel ReplySpec ReplyProofs PropDecode PropHeader PropReply NamesModel
  ServerModel ServerSpec PropServer DeviceSpec PropDevice
  ClientSpec PropClient TakenSpec PropTaken FileSpec PropFile CallSpec PropCalls PropDisk IoctlSpec PropCuse.
From Coq Require Import List NArith ZArith Bool Lia ZifyBool ZifyNat ZifyN Strings.Byte.
Import ListNotations.
Open Scope list_scope.
Open Scope N_scope.

(** ** Specification *)

Section Spec.
Context {E : Endian}.

(** The session a handshake leads to, as the calls of programs need it: what
    Linux took from the INIT reply, and the buffer of the connection.  [hd] are
    the headers of the requests, [bs] the block size, [max_read] a limit of the
    client. *)
Definition mounted_as (ov : bool) (ls : linux_session) (c : FuseConnection) (bs : N) (hd : nat -> req_header) : mounted :=
  {| m_max_write := ls_max_write ls; m_buf_len := fc_recv_buf_len c; m_cf := session_config ov ls; m_bs := bs; m_hd := hd |}.
Definition limits_of (ls : linux_session) (max_read : N) : limits :=
  {| max_pages := ls_max_pages ls; max_read := max_read |}.
(** For a device, [max_read] is agreed on, and there are 32 pages. *)
Definition device_as (ov : bool) (ls : linux_cuse_session) (c : CuseConnection) (bs : N) (hd : nat -> req_header) : device :=
  {| d_session := {| m_max_write := lcs_max_write ls; m_buf_len := cc_recv_buf_len c; m_cf := cuse_session_config ov ls;
                     m_bs := bs; m_hd := hd |};
     d_limits := {| max_pages := 32; max_read := lcs_max_read ls |};
     d_unrestricted := lcs_unrestricted_ioctl ls |}.
Definition good_headers (hd : nat -> req_header) : Prop :=
  forall k, good_header (hd k) /\ N.odd (rh_unique (hd k)) = false.
End Spec.

(** ** Proofs *)

Section Proofs.
Context {E : Endian}.

(** The handshake of a server with any options and any Linux since 7.12: it leads
    to a session in which both sides use the same version and formats, with the
    sizes configured, and in which programs run as if they called the handlers.
    [usize_max] is that of a 64-bit machine: see [C63_server] for buffers that do
    not fit the address space. *)
Theorem C80_file_system ov usize_max opts id minor ra flags flags2 un mn waiting :
  Forall server_opt_ok opts -> 4294967296 + 4096 <= usize_max ->
  is_id id -> N.odd id = false -> 12 <= minor < U32 -> ra < U32 -> flags < U32 -> flags2 < U32 ->
  waiting id = Some (OInit 7 minor ra flags flags2 un) ->
  let x := {| x_recv := Message (init_message id 7 minor ra flags flags2); x_send := SendOk |} in
  exists es b m p c ls,
    FuseServer_connect usize_max (build_server opts) [x] = (es, Finished c) /\
    es = [InitCalled (init_seen 7 minor ra flags flags2); Sent b] /\ on_wire b = Ret m /\
    device_write mn waiting m = Completed id (inl p) /\ linux_init p = Some ls /\
    session_config ov ls = layout_config ov (fc_layout c) /\
    ls_max_write ls = N.max 4096 (last_set (fun o => match o with OptMaxWrite n => Some n | _ => None end) opts 0) /\
    forall bs hd max_read, good_headers hd ->
    let mnt := mounted_as ov ls c bs hd in
    let lim := limits_of ls max_read in
    (forall (St : Type) (h : PropCalls.handler (St := St)) (Inv : St -> Prop),
     reads_and_writes h -> (forall s v, Inv s -> Inv (fst (h s v))) ->
     (forall s c, Inv s -> call_ok c -> answers c (snd (h s (asked c)))) ->
     forall l, Forall (step_ok mnt lim) l -> forall k known s, Inv s ->
     run mnt lim (program_with h) k known s l = run_directly mnt lim h k known s l) /\
    (forall l, Forall (step_ok mnt lim) l -> forall k known t, disk_ok t ->
     run mnt lim (program_with disk) k known t l =
     let '(_, t', rs) := disk_steps (cf_minor (m_cf mnt)) bs known t l in Some (t', rs)).
Proof.
  intros Ho Hu Iid Ev [M12 H2] H3 H4 H5 Wt x.
  destruct (C63_server usize_max opts id minor ra flags flags2 [] Ho Iid H2 H3 H4 H5)
    as (es & b & m & p & c & ls & Cn & Es & W & K & Ls & Mi & _ & _ & Mw & Mp & _ & _ & _ & _ & Lp & Ag).
  exists es, b, m, p, c, ls. split; [exact Cn|]. split; [exact Es|]. split; [exact W|].
  split; [eapply init_completed; eauto|]. split; [exact Ls|].
  replace (minor <? 5) with false in Mw by lia.
  pose proof (max_write_bound opts Ho) as B. unfold U32 in B. destruct (Ag ltac:(lia)) as (A1 & A2 & A3).
  split; [unfold session_config, layout_config; now rewrite A1, A2|]. split; [exact Mw|].
  assert (P : ls_max_pages ls <= 256)
    by (rewrite Mp; match goal with |- (if ?b then _ else _) <= _ => destruct b end; lia).
  intros bs hd mr Gh mnt lim.
  assert (G : good_mount mnt).
  { split; [exact A3|]. split; [|exact Gh]. cbn [mnt mounted_as m_cf session_config cf_minor]. lia. }
  split.
  - intros St h Inv RW Keeps An l Sl k known s I. now apply (C77_steps mnt lim h Inv).
  - intros l Sl k known t T. now apply (C77_disk mnt lim l).
Qed.

(** The same of a CUSE driver, with any name that is not blank. *)
Theorem C80_device ov usize_max bs name dma dmi opts id minor flags un mn waiting :
  DeviceName_from_bytes bs = inl name -> nlen name <= 4087 -> strip bs <> [] ->
  Forall cuse_opt_ok opts -> dma < U32 -> dmi < U32 -> 4294967296 + 4096 <= usize_max ->
  is_id id -> N.odd id = false -> 12 <= minor < U32 -> flags < U32 ->
  waiting id = Some (OCuseInit 7 minor un flags) ->
  let x := {| x_recv := Message (cuse_init_message id 7 minor flags); x_send := SendOk |} in
  exists es b m p c ls,
    CuseServer_connect usize_max (build_cuse_server name dma dmi opts) [x] = (es, Finished c) /\
    (exists i, es = [InitCalled i; Sent b]) /\ on_wire b = Ret m /\
    device_write mn waiting m = Completed id (inl p) /\ linux_cuse_init p = Some ls /\
    cuse_session_config ov ls = cuse_layout_config ov (cc_layout c) /\
    lcs_max_read ls = N.max 4096 (last_set (fun o => match o with COptMaxRead n => Some n | _ => None end) opts 0) /\
    lcs_max_write ls = N.max 4096 (last_set (fun o => match o with COptMaxWrite n => Some n | _ => None end) opts 0) /\
    lcs_unrestricted_ioctl ls = N.testbit flags 0 && N.testbit (cuse_configured_flags opts 0) 0 /\
    forall bsize hd, good_headers hd ->
    let d := device_as ov ls c bsize hd in
    forall (St : Type) (h : driver St), driver_ok h ->
    forall l, Forall (device_call_ok d) l -> forall k known s,
    use d (driver_program h) k known s l = use_directly d h k known s l /\
    use d (driver_program h) k known s l <> Stuck.
Proof.
  intros Nm Hn St0 Ho Hd1 Hd2 Hu Iid Ev [M12 H2] H3 Wt x.
  destruct (C64_server usize_max bs name dma dmi opts id minor flags [] Nm Hn Ho Hd1 Hd2 Iid H2 H3)
    as (es & b & m & p & c & Cn & Es & W & K & Dw & Ls & Ag).
  replace (minor <? 11) with false in Ls by lia. destruct (strip bs) as [|s0 sr] eqn:Es0; [contradiction|].
  exists es, b, m, p, c. eexists. split; [exact Cn|]. split; [eexists; exact Es|]. split; [exact W|].
  split; [eapply Dw; eauto|]. split; [exact Ls|].
  match type of Ls with _ = Some ?l => set (ls := l) in * end.
  pose proof (cuse_max_write_bound opts Ho) as B. unfold U32 in B.
  destruct (Ag ls Ls) as [A1 A3]; [cbn [ls lcs_max_write]; lia|].
  split; [unfold cuse_session_config, cuse_layout_config; now rewrite A1|].
  split; [reflexivity|]. split; [reflexivity|]. split; [reflexivity|].
  intros bsize hd Gh d St h Hh l Sl k known s.
  apply (C79_device d h); [|exact Hh|exact Sl].
  split; [|cbn; lia]. split; [exact A3|]. split; [|exact Gh].
  cbn [d device_as d_session m_cf cuse_session_config cf_minor ls lcs_minor]. lia.
Qed.
End Proofs.

(** ** Examples *)

Local Instance LE : Endian := false.

(** A server that sets nothing but 64 KiB writes, and Linux 6.1 (7.37); a file is
    made, written and read back. *)
Definition start_headers (k : nat) : req_header := m_hd demo_mount k.
Lemma start_headers_good : good_headers start_headers.
Proof. exact (proj2 (proj2 demo_mount_good)). Qed.
Example C80_file_system_example :
  let opts := [OptMaxWrite 65536] in
  Forall server_opt_ok opts /\
  let '(es, r) := FuseServer_connect usize64 (build_server opts) [ok_msg (init_message 2 7 37 131072 4294967295 0)] in
  match map linux_init (payloads es), r with
  | [Some ls], Finished c =>
    let mnt := mounted_as true ls c 4096 start_headers in
    ls_max_write ls = 65536 /\ ls_max_pages ls = 32 /\ cf_minor (m_cf mnt) = 36 /\ m_buf_len mnt = 69632 /\
    option_map (fun x => map short (snd x))
      (run mnt (limits_of ls 4096) (program_with disk) 0 [] empty_tree
         [Call (Mknod 1 [x61] 33188 0 18); Io (demo_fd 2) (Pwrite 2 [x68; x69]); Io (demo_fd 2) (Pread 0 100)]) =
    Some [inl (inr 2); inr (Wrote (inl 2)); inr (Got (inl [x00; x00; x68; x69]))]
  | _, _ => False
  end.
Proof.
  cbv zeta. split; [constructor; [reflexivity|constructor]|]. vm_compute. repeat split.
Qed.
(** A driver that asks for unrestricted ioctls, and the calls of C79. *)
Example C80_device_example :
  let opts := [COptUpdateFlags (fun _ => 1)] in
  Forall cuse_opt_ok opts /\ DeviceName_from_bytes [x64] = inl [x64] /\ strip [x64] <> [] /\
  let '(es, r) := CuseServer_connect usize64 (build_cuse_server [x64] 10 200 opts) [ok_msg (cuse_init_message 2 7 37 1)] in
  match map linux_cuse_init (payloads es), r with
  | [Some ls], Finished c =>
    let d := device_as true ls c 4096 start_headers in
    d_unrestricted d = true /\
    match use d (driver_program keeper) 0 [] ([], false) demo_uses with
    | Ended (s, [_; _; _; r4; OfIoctl (Returns r m); _; _; _]) =>
      r4 = OfTransfer (Got (inl [x62; x63; x64; x65])) /\ r = 3%Z /\ m 50 = Some x05
    | _ => False
    end
  | _, _ => False
  end.
Proof.
  cbv zeta. split; [constructor; [intros f Hf; reflexivity|constructor]|]. split; [reflexivity|]. split; [discriminate|].
  vm_compute. repeat split.
Qed.

Print Assumptions C80_file_system.
Print Assumptions C80_device.
