(** Invalidating nodes, after any calls of the setters: C28 of properties.jsonl. *)

From Verif Require Import Base Kernel CoreModel ReplyModel ReplySpec ReplyProofs PropReply.
From Coq Require Import List NArith ZArith Bool Lia.
From Coq Require Import ZifyBool ZifyNat ZifyN.
Import ListNotations.
Open Scope N_scope.

(** What user code calls, and what was said last. *)
Inductive inode_call := SetsOffset (o : option N) | SetsSize (s : option N).
Definition does (n : FuseNotification) (c : inode_call) : FuseNotification :=
  match c with
  | SetsOffset o => InvalidateInode_set_offset o n
  | SetsSize s => InvalidateInode_set_size s n
  end.
Fixpoint last_offset (l : list inode_call) : option (option N) :=
  match l with
  | [] => None
  | c :: l => match last_offset l, c with Some o, _ => Some o | None, SetsOffset o => Some o | None, _ => None end
  end.
Fixpoint last_size (l : list inode_call) : option (option N) :=
  match l with
  | [] => None
  | c :: l => match last_size l, c with Some s, _ => Some s | None, SetsSize s => Some s | None, _ => None end
  end.

Section Props.
Context {E : Endian}.

Lemma does_all node l : forall o s,
  fold_left does l (InvalidateInode_set_size s (InvalidateInode_set_offset o (InvalidateInode_new node))) =
  InvalidateInode_set_size (match last_size l with Some s' => s' | None => s end)
    (InvalidateInode_set_offset (match last_offset l with Some o' => o' | None => o end) (InvalidateInode_new node)).
Proof.
  induction l as [|[o'|s'] l IH]; intros o s; [reflexivity| |]; cbn [fold_left does last_offset last_size].
  - change (InvalidateInode_set_offset o' _) with
      (InvalidateInode_set_size s (InvalidateInode_set_offset o' (InvalidateInode_new node))).
    rewrite IH. destruct (last_offset l), (last_size l); reflexivity.
  - change (InvalidateInode_set_size s' _) with
      (InvalidateInode_set_size s' (InvalidateInode_set_offset o (InvalidateInode_new node))).
    rewrite IH. destruct (last_offset l), (last_size l); reflexivity.
Qed.

(** The last offset and the last size count, whatever was called between or after;
    one that was never set is 0. *)
Theorem C28_inode_calls node l :
  node < U64 ->
  exists p,
    notifies (fold_left does l (InvalidateInode_new node)) 2 p /\ nlen p = 24 /\ u64_at 0 p = node /\
    as_i64 (u64_at 8 p) = match last_offset l with Some (Some o) => clamp_i64 o | Some None => (-1)%Z | None => 0%Z end /\
    as_i64 (u64_at 16 p) = match last_size l with Some (Some s) => clamp_i64 s | _ => 0%Z end.
Proof.
  intros Hn. pose proof (does_all node l (Some 0) (Some 0)) as D.
  change (InvalidateInode_set_size (Some 0) _) with (InvalidateInode_new node) in D at 1.
  destruct (C28_invalidate_inode node (match last_offset l with Some o' => o' | None => Some 0 end)
              (match last_size l with Some s' => s' | None => Some 0 end) Hn) as (p & N & A & B & C & L).
  exists p. rewrite D. split; [exact N|]. split; [exact L|]. split; [exact A|]. split.
  - rewrite B. destruct (last_offset l) as [[o|]|]; reflexivity.
  - rewrite C. destruct (last_size l) as [[s|]|]; reflexivity.
Qed.
End Props.

Local Instance LE : Endian := false.
Example C28_inode_calls_example :
  5 < U64 /\
  let l := [SetsSize (Some 7); SetsOffset None; SetsOffset (Some 4096)] in
  last_offset l = Some (Some 4096) /\ last_size l = Some (Some 7) /\
  notifies (fold_left does l (InvalidateInode_new 5)) 2
    [x05; x00; x00; x00; x00; x00; x00; x00; x00; x10; x00; x00; x00; x00; x00; x00;
     x07; x00; x00; x00; x00; x00; x00; x00].
Proof.
  split; [reflexivity|]. split; [reflexivity|]. split; [reflexivity|].
  unfold notifies. do 2 eexists. split; [vm_compute; reflexivity|]. repeat split; vm_compute; reflexivity.
Qed.

Print Assumptions C28_inode_calls.
