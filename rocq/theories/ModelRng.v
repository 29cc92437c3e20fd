(** Model of src/cpu/chip8/mod.rs:16-20 and 51-95: [BufferedRandomNumberGenerator], a
    producer thread that fills a bounded channel with the bytes of a wrapped
    generator, and the [random] method that takes them out.

    The two threads interleave at the granularity of the actions below; a
    schedule is a list of actions.  The channel is
    [std::sync::mpsc::sync_channel] as documented: a queue of at most [bound]
    messages whose [send] blocks when it is full and fails when the receiver
    is gone, whose [recv] blocks when it is empty and fails when it is empty
    and the sender is gone; with bound 0 each message is handed over directly
    to a waiting [recv]. *)
From Coq Require Import ZArith List Bool Arith.
From Verif Require Import Base.
Import ListNotations.

(** mod.rs:17-20, [GenerateRandom::random] of the wrapped generator: the
    result of its k-th call, a byte or a panic.  (Simplified: every call
    terminates.) *)
Definition generator := nat -> res Z.

(** mod.rs:78-82, the spawned thread, by what it does next. *)
Inductive producer : Type :=
| Calling   (** about to call [rng.random()] *)
| Sending (b : Z)   (** inside [tx.send(b)] *)
| Finished   (** [send] failed: the loop ended and [tx] was dropped *)
| Crashed.   (** [rng.random()] panicked: the thread died and [tx] was dropped *)

(** The thread that owns the [BufferedRandomNumberGenerator]. mod.rs:88-95. *)
Inductive consumer : Type :=
| Elsewhere   (** not inside [random] *)
| Receiving   (** inside [self.buffer.recv()], mod.rs:90-91 *)
| Failed   (** [recv] failed and [expect] panicked, mod.rs:93 *)
| Dropped.   (** the value was dropped, and [rx] with it *)

(** [calls]: completed calls of the wrapped generator; [queue]: the
    channel's buffer, oldest first; [returned]: the results of [random] so
    far. mod.rs:70-95. *)
Record state := mkState
  { calls : nat; thread : producer; queue : list Z; owner : consumer; returned : list Z }.

(** mod.rs:70-85, [with_capacity]: the thread is spawned, the buffer is
    empty. *)
Definition start : state := mkState 0 Calling [] Elsewhere [].

(** mod.rs:78-94, what the two threads may do. *)
Inductive action : Type :=
| Generate   (** the thread calls [rng.random()], mod.rs:81 *)
| Send   (** the thread's [tx.send] returns after queueing, mod.rs:81 *)
| SendFails   (** the thread's [tx.send] returns [Err] *)
| Handover   (** bound 0: a [send] and a [recv] meet *)
| Call   (** the owner calls [random], mod.rs:89 *)
| Receive   (** [recv] returns a queued byte and [random] returns it *)
| ReceiveFails   (** [recv] returns [Err] and [expect] panics, mod.rs:93 *)
| Drop.   (** the owner drops the generator *)

(** mod.rs:78-94: the effect of an action, [None] when it cannot happen now.
    A panicking owner unwinds and drops the receiver, so [Failed] counts as
    gone. *)
Definition act (g : generator) (bound : nat) (s : state) (a : action) : option state :=
  match s with
  | mkState n p q c r =>
      match a, p, c, q with
      | Generate, Calling, _, _ =>
          match g n with
          | Ok b => Some (mkState (S n) (Sending b) q c r)
          | Panic => Some (mkState (S n) Crashed q c r)
          end
      | Send, Sending b, (Elsewhere | Receiving), _ =>
          if (length q <? bound)%nat then Some (mkState n Calling (q ++ [b]) c r) else None
      | SendFails, Sending b, (Failed | Dropped), _ => Some (mkState n Finished q c r)
      | Handover, Sending b, Receiving, [] =>
          if (bound =? 0)%nat then Some (mkState n Calling [] Elsewhere (r ++ [b])) else None
      | Call, _, Elsewhere, _ => Some (mkState n p q Receiving r)
      | Receive, _, Receiving, b :: q' => Some (mkState n p q' Elsewhere (r ++ [b]))
      | ReceiveFails, (Finished | Crashed), Receiving, [] => Some (mkState n p [] Failed r)
      | Drop, _, Elsewhere, _ => Some (mkState n p [] Dropped r)
      | _, _, _, _ => None
      end
  end.

(** mod.rs:78-94, one action after another. *)
Fixpoint perform (g : generator) (bound : nat) (s : state) (sched : list action) : option state :=
  match sched with
  | [] => Some s
  | a :: sched => match act g bound s a with Some s' => perform g bound s' sched | None => None end
  end.

(** mod.rs:51-53 and 63-68, [new]. *)
Definition default_bound : nat := Z.to_nat 1024.
