(** read(2) and write(2) on Linux: how the calls of a program become requests
    and what becomes of the replies.

    Written from the Linux sources (fs/fuse/file.c [fuse_direct_io],
    [fuse_send_read], [fuse_send_write]), not from /repo: files opened with
    FOPEN_DIRECT_IO, whose calls are not changed by the page cache. *)

From Verif Require Import Base CoreModel DecodeModel OpsModel WireSpec ReplyModel ReplySpec DeviceSpec ClientSpec TakenSpec.
From Coq Require Import List NArith ZArith Bool.
Import ListNotations.
Open Scope N_scope.

(** ** One request *)

(** A program that serves requests: a state, and from a state and a request to
    the next state and the answer. *)
Definition program (St : Type) := St -> view -> St * answer.

Section Exchange.
Context {E : Endian} {St : Type}.

(** From the bytes of a request to those of the reply. *)
Definition serve (is_cuse : bool) (cf : config) (prog : program St) (s : St) (t : rtype) (msg : bytes) : option (St * bytes) :=
  match rq <- Request_new msg ;; id <- header_request_id rq ;;
        v <- decode_view is_cuse cf t rq ;; Ret (id, v) with
  | Ret (id, v) =>
    let (s', a) := prog s v in
    match answer_call (cf_minor cf) id a with
    | Call b => match on_wire b with Ret m => Some (s', m) | _ => None end
    | _ => None
    end
  | _ => None
  end.

(** The operation [op] through the device, the server and back: the data of the
    reply or an error.  [None]: the server could not do its part. *)
Definition exchange (is_cuse : bool) (max_write buf_len : N) (cf : config) (prog : program St) (s : St)
    (hd : req_header) (op : client_op) : option (St * (bytes + Z)) :=
  match device_read max_write buf_len op (linux_message cf hd op) with
  | OperationFails e => Some (s, inr (- Z.of_N e)%Z)
  | ReadEinval => None
  | Gets msg =>
    match serve is_cuse cf prog s (op_type op) msg with
    | None => None
    | Some (s', m) =>
      match device_write (cf_minor cf) (fun i => if i =? rh_unique hd then Some op else None) m with
      | DeviceSpec.Broken _ => Some (s', inr (- 5)%Z)
      | Completed _ r => Some (s', r)
      | _ => None
      end
    end
  end.

(** ** An open file *)

(** The session it is used in, or the CUSE device; [of_hd k] is the header of the
    [k]-th request.  [of_wcut k] and [of_rcut k]: how much this request can
    transfer, which depends on how the memory of the program lies in pages. *)
Record open_file := {
  of_cuse : bool; of_max_write : N; of_max_pages : N; of_max_read : N; of_buf_len : N; of_cf : config;
  of_hd : nat -> req_header; of_wcut : nat -> N; of_rcut : nat -> N;
  of_node : N; of_fh : N; of_flags : N }.

(** What is so of open files in sessions as Linux sets them up: the device
    accepts the buffer; there are at most FUSE_MAX_MAX_PAGES pages; a request
    transfers something, and no more than what was agreed on; the ids of
    requests are even. *)
Definition good_file (f : open_file) : Prop :=
  N.max 8192 (80 + of_max_write f) <= of_buf_len f /\
  of_max_pages f <= 256 /\ of_fh f < U64 /\ of_flags f < U32 /\
  (of_cuse f = false -> of_node f <> 0) /\
  (forall k, 1 <= of_wcut f k <= N.min (of_max_write f) (4096 * of_max_pages f)) /\
  (forall k, 1 <= of_rcut f k <= N.min (of_max_read f) (4096 * of_max_pages f)) /\
  (forall k, good_header (of_hd f k) /\ N.odd (rh_unique (of_hd f k)) = false /\
             rh_nodeid (of_hd f k) = of_node f).

(** The number of requests so far, the state of the server, and the result: a
    count, or an error. *)
Definition result (A : Type) : Type := nat * St * (A + Z).

(** pwrite(2) of [data] at [off]: requests until everything is written, one of
    them wrote less than it should, or fails.  [fuel] bounds the number of
    requests. *)
Fixpoint pwrite_loop (f : open_file) (prog : program St) (fuel k : nat) (s : St) (off : N) (data : bytes)
    (done : N) : option (result N) :=
  match data, fuel with
  | [], _ => Some (k, s, inl done)
  | _, O => None
  | _, S fuel =>
    let chunk := take (of_wcut f k) data in
    match exchange (of_cuse f) (of_max_write f) (of_buf_len f) (of_cf f) prog s (of_hd f k)
            (OWrite (of_fh f) off 0 0 (of_flags f) 0 chunk) with
    | None => None
    | Some (s', r) =>
      match match r with inl p => linux_write (nlen chunk) p | inr e => inr (- e)%Z end with
      | inr e => Some (S k, s', if done =? 0 then inr e else inl done)
      | inl n =>
        if n =? nlen chunk then pwrite_loop f prog fuel (S k) s' (off + n) (drop n data) (done + n)
        else Some (S k, s', inl (done + n))
      end
    end
  end.
Definition pwrite (f : open_file) (prog : program St) (k : nat) (s : St) (off : N) (data : bytes) : option (result N) :=
  pwrite_loop f prog (length data) k s off data 0.

(** pread(2) of [n] bytes at [off]: until there are [n], or a reply was shorter
    than asked for. *)
Fixpoint pread_loop (f : open_file) (prog : program St) (fuel k : nat) (s : St) (off n : N) (got : bytes)
    : option (result bytes) :=
  match n, fuel with
  | 0, _ => Some (k, s, inl got)
  | _, O => None
  | _, S fuel =>
    let size := N.min n (of_rcut f k) in
    match exchange (of_cuse f) (of_max_write f) (of_buf_len f) (of_cf f) prog s (of_hd f k)
            (ORead (of_fh f) off size 0 0 (of_flags f) 0) with
    | None => None
    | Some (s', inr e) => Some (S k, s', match got with [] => inr (- e)%Z | _ => inl got end)
    | Some (s', inl p) =>
      if nlen p =? size then pread_loop f prog fuel (S k) s' (off + size) (n - size) (got ++ p)
      else Some (S k, s', inl (got ++ p))
    end
  end.
Definition pread (f : open_file) (prog : program St) (k : nat) (s : St) (off n : N) : option (result bytes) :=
  pread_loop f prog (N.to_nat n) k s off n [].

(** ** Programs that use the file *)

Inductive file_call := Pwrite (off : N) (data : bytes) | Pread (off n : N).
(** What a call returned; errors are positive. *)
Inductive file_result := Wrote (r : N + Z) | Got (r : bytes + Z).
Fixpoint calls (f : open_file) (prog : program St) (k : nat) (s : St) (l : list file_call)
    : option (St * list file_result) :=
  match l with
  | [] => Some (s, [])
  | c :: l =>
    match (match c with
           | Pwrite off data => match pwrite f prog k s off data with
                                | Some (k, s, r) => Some (k, s, Wrote r) | None => None end
           | Pread off n => match pread f prog k s off n with
                            | Some (k, s, r) => Some (k, s, Got r) | None => None end
           end) with
    | None => None
    | Some (k, s, r) =>
      match calls f prog k s l with
      | Some (s, rs) => Some (s, r :: rs)
      | None => None
      end
    end
  end.
End Exchange.

(** ** A file *)

(** POSIX: writing replaces the bytes at the offset and extends the file, with
    zeroes if the offset is beyond its end; writing nothing changes nothing. *)
Definition written (content : bytes) (off : N) (data : bytes) : bytes :=
  match data with
  | [] => content
  | _ => take off content ++ repeat Byte.x00 (N.to_nat (off - nlen content)) ++ data ++
         drop (off + nlen data) content
  end.
(** Reading gives what there is. *)
Definition file_step (content : bytes) (c : file_call) : bytes * file_result :=
  match c with
  | Pwrite off data => (written content off data, Wrote (inl (nlen data)))
  | Pread off n => (content, Got (inl (slice off n content)))
  end.
Fixpoint file_steps (content : bytes) (l : list file_call) : bytes * list file_result :=
  match l with
  | [] => (content, [])
  | c :: l =>
    let (content, r) := file_step content c in
    let (content, rs) := file_steps content l in
    (content, r :: rs)
  end.
