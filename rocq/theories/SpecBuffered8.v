(** A CHIP-8 machine and the thread that fills its buffered random number
    generator, side by side (C127).

    The machine holds a handle on the generator that its clones share: the
    buffered generator itself (src/cpu/chip8/mod.rs:16-95) cannot be cloned,
    and the machine requires a generator that can. The instructions are those of
    the iterator (src/cpu/chip8/mod.rs:332-365). *)
From Coq Require Import ZArith List Bool.
From Verif Require Import Base ModelMap ModelDisplay ModelChip8 ModelOpsChip8 ModelRunChip8 SpecChip8 SpecChip8Run.
From Verif Require Import ModelRng.
Import ListNotations.
Local Open Scope Z_scope.

(** The machine, how often it has asked the clock, and the generator with its
    thread and channel. *)
Record system := mkSystem { machine : chip8; asked : nat; rng : ModelRng.state }.

(** Who moves. *)
Inductive mover := Thread | Machine.

Section System.
Context (g : generator) (bound : nat) (time : nat -> Z) (p : profile).

(** One instruction that finds [b] if it asks for a random byte. *)
Definition instruction (b : Z) (c : chip8) (t : nat) (c' : chip8) (t' : nat) : Prop :=
  exists w, step (mkEnv time (fun _ => b)) p c (mkWorld t 0) = Ok (c', w) /\ w_time w = t'.

(** One move of the system, and the number of instructions it completes (0 or
    1). The thread calls the wrapped generator or its [send] returns; the
    machine, unless it is waiting for a byte, executes an instruction that needs
    none, or comes to Cxkk and calls [random]; when [random] returns a byte it
    executes that instruction with it. *)
Inductive moves : mover -> nat -> system -> system -> Prop :=
| thread_moves a c t s s' : a = Generate \/ a = Send \/ a = SendFails -> act g bound s a = Some s' ->
    moves Thread 0 (mkSystem c t s) (mkSystem c t s')
| machine_goes_on c t s word c' t' : owner s = Elsewhere -> fetches p c word -> draws word = false ->
    instruction 0 c t c' t' -> moves Machine 1 (mkSystem c t s) (mkSystem c' t' s)
| machine_asks c t s word s' : fetches p c word -> draws word = true -> act g bound s Call = Some s' ->
    moves Machine 0 (mkSystem c t s) (mkSystem c t s')
| machine_gets a b c t s s' c' t' : a = Receive \/ a = Handover -> act g bound s a = Some s' ->
    returned s' = returned s ++ [b] -> instruction b c t c' t' ->
    moves Machine 1 (mkSystem c t s) (mkSystem c' t' s').

(** [m] moves, in any order the two sides make them, in which [n] instructions
    are completed. *)
Inductive together : nat -> nat -> system -> system -> Prop :=
| together_none x : together 0 0 x x
| together_more m n who k x y z : together m n x y -> moves who k y z -> together (S m) (n + k) x z.
End System.

(** The machine alone, with the wrapped generator: its [k]-th random byte is that
    of the [k]-th call. *)
Definition alone (g : generator) (time : nat -> Z) : environment :=
  mkEnv time (fun k => match g k with Ok b => b | Panic => 0 end).

(** What the type of [random] says: a value it returns is a byte. *)
Definition bytes_only (g : generator) : Prop := forall k b, g k = Ok b -> u8 b.
