(** Model of src/cpu/chip8/mod.rs:31-49: [UnixRandomNumberGenerator], which
    opens /dev/random anew for every byte, reads one byte and closes it.

    The operating system is a sequence of answers to the system calls, in the
    order they are made; each call is recorded. (Simplified: the repetition of an
    interrupted open(2) inside [File::open] counts as one call.) *)
From Verif Require Import Base.

(** The answers of open(2) and read(2) for a buffer of one byte.
    mod.rs:43-44. *)
Inductive answer : Type :=
| Opened | OpenFailed
| Got (b : Z)   (** one byte was stored in the buffer *)
| EndOfFile   (** [Ok(0)] *)
| Interrupted   (** [Err] of kind [Interrupted] *)
| ReadFailed.   (** any other [Err] *)

(** The system calls of mod.rs:43-44. *)
Inductive call : Type := Open | Read | Close.

(** What the generator does: the system calls made, the answers not used,
    and how it ended. mod.rs:45-47. *)
Inductive ending : Type :=
| Returns (b : Z)
| Panics   (** [expect] on an [Err], mod.rs:45 *)
| Waits.   (** inside a system call that has not answered *)
(** mod.rs:38-48. *)
Record outcome := mkOutcome { o_calls : list call; o_rest : list answer; o_end : ending }.

(** [Read::read_exact] of the standard library on the buffer [buf: [u8; 1]] of
    mod.rs:42, called in mod.rs:44: reads until the buffer is full, goes on after
    an interruption, and fails on end of file and on any other error. The file
    is dropped, and closed, when the closure of mod.rs:44 returns; then [expect]
    (mod.rs:45) panics or [buf[0]] is returned (mod.rs:47). An answer that does
    not belong to read(2) is no answer: the call waits. *)
Fixpoint read_exact (answers : list answer) : outcome :=
  match answers with
  | Got b :: l => mkOutcome [Read; Close] l (Returns b)
  | Interrupted :: l => let o := read_exact l in mkOutcome (Read :: o_calls o) (o_rest o) (o_end o)
  | EndOfFile :: l | ReadFailed :: l => mkOutcome [Read; Close] l Panics
  | _ => mkOutcome [Read] answers Waits
  end.

(** mod.rs:38-48, [UnixRandomNumberGenerator::random]. *)
Definition unix_random (answers : list answer) : outcome :=
  match answers with
  | Opened :: l => let o := read_exact l in mkOutcome (Open :: o_calls o) (o_rest o) (o_end o)
  | OpenFailed :: l => mkOutcome [Open] l Panics
  | _ => mkOutcome [Open] answers Waits
  end.

(** Any number of calls of [random] one after another, until one does not
    return: the system calls, the answers not used, the bytes returned, and
    how it ended if not all calls returned. mod.rs:38-48. *)
Fixpoint unix_randoms (n : nat) (answers : list answer) : list call * list answer * list Z * option ending :=
  match n with
  | O => ([], answers, [], None)
  | S n' =>
      let o := unix_random answers in
      match o_end o with
      | Returns b => let '(c, l, bs, e) := unix_randoms n' (o_rest o) in (o_calls o ++ c, l, b :: bs, e)
      | e => (o_calls o, o_rest o, [], Some e)
      end
  end.
