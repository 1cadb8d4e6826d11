(** What the host-side theorems talk about: how the kernel reads mount data,
    and what system calls mean. *)

From Coq Require Import String.
From Verif Require Import Base ReplyModel ServerModel HostModel.
From Coq Require Import List NArith Bool.
Import ListNotations.
Open Scope N_scope.

(** ** Mount data as the kernel reads it *)

(** The value of an option. *)
Inductive value := Decimal (n : N) | Octal (n : N) | Text (s : bytes).

(** The options of a mount, in the documented order: [fd] first, then by
    name. *)
Definition configured (o : MountOptions) : list (bytes * option value) :=
  let num {A} (k : string) (mk : A -> value) (x : option A) :=
    match x with Some v => [(txt k, Some (mk v))] | None => [] end in
  let flag (k : string) (b : bool) := if b then [(txt k, @None value)] else [] in
  num "fd"%string Decimal (mo_fd o) ++
  flag "allow_other"%string (mo_allow_other o) ++
  num "blksize"%string Decimal (mo_block_size o) ++
  flag "default_permissions"%string (mo_default_permissions o) ++
  num "group_id"%string Decimal (mo_group_id o) ++
  num "max_read"%string Decimal (mo_max_read o) ++
  num "rootmode"%string Octal (mo_root_mode o) ++
  num "subtype"%string Text (mo_subtype o) ++
  num "user_id"%string Decimal (mo_user_id o).

(** A C string ends at its first NUL. *)
Fixpoint c_string (bs : bytes) : bytes :=
  match bs with
  | [] => []
  | b :: r => if Byte.eqb b Byte.x00 then [] else b :: c_string r
  end.

(** The text cut at every [sep]. *)
Fixpoint split_at (sep : Byte.byte) (bs : bytes) : list bytes :=
  match bs with
  | [] => [[]]
  | b :: r =>
    if Byte.eqb b sep then [] :: split_at sep r
    else match split_at sep r with [] => [[b]] | p :: ps => (b :: p) :: ps end
  end.

(** Key and value around the first '='. *)
Fixpoint key_value (bs : bytes) : bytes * option bytes :=
  match bs with
  | [] => ([], None)
  | b :: r =>
    if Byte.eqb b Byte.x3d then ([], Some r)
    else let '(k, v) := key_value r in (b :: k, v)
  end.

(** generic_parse_monolithic of the kernel: comma separated, empty pieces
    skipped. *)
Definition kernel_options (data : bytes) : list (bytes * option bytes) :=
  map key_value (filter (fun p => negb (nlen p =? 0)) (split_at Byte.x2c (c_string data))).

(** Reading a number in a base up to ten. *)
Definition digit_value (b : Byte.byte) : option N :=
  let n := Byte.to_N b in if (48 <=? n) && (n <? 58) then Some (n - 48) else None.
Fixpoint read_digits (base : N) (bs : bytes) (acc : N) : option N :=
  match bs with
  | [] => Some acc
  | b :: r =>
    match digit_value b with
    | Some d => if d <? base then read_digits base r (acc * base + d) else None
    | None => None
    end
  end.
Definition read_number (base : N) (bs : bytes) : option N :=
  match bs with [] => None | _ => read_digits base bs 0 end.

(** The kernel's reading of a value agrees with the configured one. *)
Definition reads_as (v : value) (bs : bytes) : Prop :=
  match v with
  | Decimal n => read_number 10 bs = Some n
  | Octal n => read_number 8 bs = Some n
  | Text s => bs = s
  end.
Definition option_reads (expected : bytes * option value) (seen : bytes * option bytes) : Prop :=
  fst expected = fst seen /\
  match snd expected, snd seen with
  | None, None => True
  | Some v, Some bs => reads_as v bs
  | _, _ => False
  end.

(** How long an option is in the text. *)
Definition value_text (v : value) : bytes :=
  match v with Decimal n => show 10 n | Octal n => show 8 n | Text s => s end.
Definition option_text (x : bytes * option value) : bytes :=
  fst x ++ match snd x with Some v => Byte.x3d :: value_text v | None => [] end.
Fixpoint join (l : list bytes) : bytes :=
  match l with
  | [] => []
  | [x] => x
  | x :: r => x ++ Byte.x2c :: join r
  end.
Definition options_text (o : MountOptions) : bytes := join (map option_text (configured o)).

(** Values a [MountOptions] can hold: u32 numbers; a subtype is a C string
    accepted by [FuseSubtype::new]. *)
Definition u32_option (x : option N) : Prop := match x with Some n => n < U32 | None => True end.
Definition options_ok (o : MountOptions) : Prop :=
  u32_option (mo_fd o) /\ u32_option (mo_block_size o) /\ u32_option (mo_group_id o) /\
  u32_option (mo_max_read o) /\ u32_option (mo_root_mode o) /\ u32_option (mo_user_id o) /\
  match mo_subtype o with
  | Some s => exists c, ~ In Byte.x00 c /\ FuseSubtype_new c = Some s
  | None => True
  end.

(** ** Sockets *)

(** Results the receive loop retries: the call was interrupted by a signal
    (EINTR, 4), or the request by the client (ENOENT, 2). *)
Definition transient (r : read_result) : bool :=
  match r with ReadErr 4 | ReadErr 2 => true | _ => false end.
(** What [recv] makes of any other result; 19 is ENODEV. *)
Definition received_as (clean_shutdown : bool) (r : read_result) : recv_event :=
  match r with
  | ReadOk msg => Message msg
  | ReadErr 19 => RecvFails (if clean_shutdown then RE_ConnectionClosed 19 else RE_Other 19)
  | ReadErr e => RecvFails (RE_Other e)
  end.

(** [n] calls of [recv] one after the other. *)
Fixpoint recv_many (n : nat) (s : Socket) (rs : list read_result) :
    list recv_event * list read_result :=
  match n with
  | O => ([], rs)
  | S n =>
    match Socket_recv s rs with
    | (None, rest) => ([], rest)
    | (Some ev, rest) => let '(evs, rest) := recv_many n s rest in (ev :: evs, rest)
    end
  end.

(** ** Descriptors *)

(** The descriptors left open by a sequence of calls. *)
Fixpoint still_open (calls : list syscall) (fds : list N) : list N :=
  match calls with
  | [] => fds
  | CallOpen _ (Some fd) :: r => still_open r (fd :: fds)
  | CallClose fd :: r => still_open r (filter (fun x => negb (x =? fd)) fds)
  | _ :: r => still_open r fds
  end.
Definition closes (fd : N) (calls : list syscall) : nat :=
  List.length (filter (fun c => match c with CallClose x => x =? fd | _ => false end) calls).
Fixpoint f_still_open (calls : list freebsd_call) (fds : list N) : list N :=
  match calls with
  | [] => fds
  | FOpen _ (Some fd) :: r => f_still_open r (fd :: fds)
  | FClose fd :: r => f_still_open r (filter (fun x => negb (x =? fd)) fds)
  | _ :: r => f_still_open r fds
  end.
