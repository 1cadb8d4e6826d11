(** Theorems about the header of a request: C57 of properties.jsonl. *)

From Verif Require Import Base Kernel CoreModel DecodeModel OpsModel WireSpec DecodeSpec
  DecodeProofs OpsRoundTrip PropDecode.
From Coq Require Import List NArith ZArith Bool Lia ZifyBool ZifyNat ZifyN.
Import ListNotations.
Open Scope N_scope.

(** ** Specification *)

Section Spec.
Context {E : Endian}.

(** Any message a client may send, whatever its opcode and body, followed by
    [rest] in the receive buffer. *)
Definition raw_message (hd : req_header) (opcode : N) (content rest : bytes) : bytes :=
  wire (header_fields (40 + nlen content) opcode hd) ++ content ++ rest.

(** Zero is how the kernel says "none". *)
Definition nonzero (n : N) : option N := if n =? 0 then None else Some n.

(** What the accessors of [RequestHeader] say. *)
Definition header_says (rq : Request) (id len opcode : N) (node : option N) (uid gid : N)
    (pid : option N) : Prop :=
  header_request_id rq = Ret id /\ header_request_len rq = Ret len /\
  header_opcode rq = Ret opcode /\ header_node_id rq = Ret node /\
  header_user_id rq = Ret uid /\ header_group_id rq = Ret gid /\ header_process_id rq = Ret pid.
End Spec.

(** ** Theorems *)

Section Proofs.
Context {E : Endian}.

(** Every message of a client is accepted and its header reports what the
    client put there; the body is what follows the header. *)
Theorem C57_header hd opcode content rest :
  good_header hd -> opcode < U32 -> 40 + nlen content < U32 ->
  exists rq, Request_new (raw_message hd opcode content rest) = Ret rq /\
  header_says rq (rh_unique hd) (40 + nlen content) opcode (nonzero (rh_nodeid hd))
    (rh_uid hd) (rh_gid hd) (nonzero (rh_pid hd)) /\
  body rq = Ret content.
Proof.
  intros G O K. set (buf := raw_message hd opcode content rest).
  pose proof (hdr_fields_range _ opcode hd K O G) as R.
  assert (NH : nlen (wire (header_fields (40 + nlen content) opcode hd)) = 40) by apply nlen_wire.
  assert (NM : 40 + nlen content <= nlen buf).
  { unfold buf, raw_message. rewrite !nlen_app, NH. lia. }
  assert (FL : forall off w v, field_at off (header_fields (40 + nlen content) opcode hd) = Some (w, v) ->
                fld w off buf = v).
  { intros off w v Hf. apply fld_wire; auto.
    clear - R Hf. revert off Hf. induction R as [|[w' v'] l Hx Hl IH]; intros off; cbn [field_at]; [easy|].
    destruct (off =? 0); [intros [= -> ->]; exact Hx|].
    destruct (off <? N.of_nat w'); [easy|]. eauto. }
  assert (H0 : u32_at 0 buf = 40 + nlen content) by (apply (FL 0); reflexivity).
  assert (H4 : u32_at 4 buf = opcode) by (apply (FL 4); reflexivity).
  assert (H8 : u64_at 8 buf = rh_unique hd) by (apply (FL 8); reflexivity).
  assert (H16 : u64_at 16 buf = rh_nodeid hd) by (apply (FL 16); reflexivity).
  assert (H24 : u32_at 24 buf = rh_uid hd) by (apply (FL 24); reflexivity).
  assert (H28 : u32_at 28 buf = rh_gid hd) by (apply (FL 28); reflexivity).
  assert (H32 : u32_at 32 buf = rh_pid hd) by (apply (FL 32); reflexivity).
  destruct G as [_ U0].
  assert (A : Request_new buf = Ret {| rq_mem := buf |}).
  { rewrite Request_new_eq. rewrite H0, H8. unfold U32, u32_max in *.
    destruct (N.ltb_spec (nlen buf) 40); [lia|].
    destruct (N.eqb_spec (rh_unique hd) 0); [easy|].
    destruct (N.ltb_spec (N.min (nlen buf) 4294967295) (40 + nlen content)); [lia|reflexivity]. }
  eexists. split; [exact A|]. split.
  - unfold header_says, header_request_id, header_request_len, header_opcode, header_node_id,
      header_user_id, header_group_id, header_process_id, raw_header, IN_HEADER_SIZE,
      hdr_unique, hdr_len, hdr_opcode, hdr_nodeid, hdr_uid, hdr_gid, hdr_pid, nonzero_unchecked.
    cbn [rq_mem]. rewrite mem_read_ok by lia. cbn [bind].
    rewrite !hdr_rd32, !hdr_rd64 by lia. cbn [bind].
    rewrite H0, H4, H8, H16, H24, H28, H32. unfold NodeId_new, nonzero.
    destruct (N.eqb_spec (rh_unique hd) 0); [easy|].
    destruct (N.eqb_spec (40 + nlen content) 0); [lia|]. now repeat split.
  - rewrite (C01_body _ _ A), H0. destruct (N.ltb_spec (40 + nlen content) 40); [lia|].
    f_equal. unfold slice, buf, raw_message.
    rewrite drop_app by (now rewrite NH). rewrite take_app_le by lia. apply take_all. lia.
Qed.

(** Whatever the client sends, no accessor but [request_len] can go wrong. *)
Theorem C57_defined buf rq :
  Request_new buf = Ret rq ->
  (exists id, header_request_id rq = Ret id /\ 0 < id < U64) /\
  (exists opcode, header_opcode rq = Ret opcode /\ opcode < U32) /\
  (exists node, header_node_id rq = Ret node /\ node <> Some 0) /\
  (exists uid, header_user_id rq = Ret uid /\ uid < U32) /\
  (exists gid, header_group_id rq = Ret gid /\ gid < U32) /\
  (exists pid, header_process_id rq = Ret pid /\ pid <> Some 0) /\
  (u32_at 0 buf <> 0 -> exists len, header_request_len rq = Ret len /\ 0 < len < U32).
Proof.
  intros H. destruct (Request_new_accepted buf rq H) as [-> A].
  destruct A as (A1 & A2 & A3). cbn [rq_mem] in *.
  unfold header_request_id, header_request_len, header_opcode, header_node_id,
    header_user_id, header_group_id, header_process_id, raw_header, IN_HEADER_SIZE,
    hdr_unique, hdr_len, hdr_opcode, hdr_nodeid, hdr_uid, hdr_gid, hdr_pid, nonzero_unchecked.
  cbn [rq_mem]. rewrite mem_read_ok by lia. cbn [bind].
  rewrite !hdr_rd32, !hdr_rd64 by lia. cbn [bind]. unfold NodeId_new.
  pose proof (fld_bound 8 8 buf) as B. pose proof (fld_bound 4 4 buf). pose proof (fld_bound 4 24 buf).
  pose proof (fld_bound 4 28 buf). pose proof (fld_bound 4 0 buf).
  change (256 ^ N.of_nat 8) with U64 in *. change (256 ^ N.of_nat 4) with U32 in *.
  unfold u64_at, u32_at in *.
  destruct (N.eqb_spec (fld 8 8 buf) 0); [lia|].
  split; [eexists; split; [reflexivity|]; lia|].
  split; [eexists; split; [reflexivity|]; assumption|].
  split; [eexists; split; [reflexivity|]; destruct (N.eqb_spec (fld 8 16 buf) 0); congruence|].
  split; [eexists; split; [reflexivity|]; assumption|].
  split; [eexists; split; [reflexivity|]; assumption|].
  split; [eexists; split; [reflexivity|]; destruct (N.eqb_spec (fld 4 32 buf) 0); congruence|].
  intros L. destruct (N.eqb_spec (fld 4 0 buf) 0); [easy|].
  eexists; split; [reflexivity|]; lia.
Qed.
End Proofs.

(** * Examples (little-endian) *)

Local Instance LE : Endian := false.

(** An opcode nobody knows, from process 99 of user 1000, about no node. *)
Definition odd_header : req_header :=
  {| rh_unique := 7; rh_nodeid := 0; rh_uid := 1000; rh_gid := 100; rh_pid := 99; rh_padding := 5 |}.
Example C57_header_example :
  good_header odd_header /\
  exists rq, Request_new (raw_message odd_header 4711 ab [x01]) = Ret rq /\
  header_says rq 7 42 4711 None 1000 100 (Some 99) /\ body rq = Ret ab.
Proof.
  split; [split; [repeat constructor|discriminate]|].
  eexists. split; [vm_compute; reflexivity|]. split; [repeat split; vm_compute; reflexivity|].
  vm_compute. reflexivity.
Qed.
Example C57_defined_example :
  exists rq, Request_new (raw_message odd_header 4711 ab [x01]) = Ret rq.
Proof. eexists. vm_compute. reflexivity. Qed.

Print Assumptions C57_header.
Print Assumptions C57_defined.
