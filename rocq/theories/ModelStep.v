(** Model of src/cpu/mod.rs: [StepState] and the [Cpu::run] wrapper. *)
From Verif Require Import Base.

(** src/cpu/mod.rs:42-45, enum [StepState<T>]. Simplification: [usize]
    counters are [nat] (no 2^64 bound). *)
Inductive step_state (T : Type) :=
| NotReady (remaining : nat) (state : T)
| Ready (state : T).
Arguments NotReady {T}.
Arguments Ready {T}.

Section StepState.
Context {T : Type}.

(** src/cpu/mod.rs:48-53, [StepState::new]. *)
Definition ss_new (cycle : nat) (state : T) : step_state T :=
  match cycle with
  | 0%nat | 1%nat => Ready state
  | _ => NotReady (cycle - 1) state
  end.

(** src/cpu/mod.rs:56-63, [StepState::decrement]. *)
Definition ss_decrement (s : step_state T) : step_state T :=
  match s with
  | Ready _ => s
  | NotReady 1%nat state => Ready state
  | NotReady 0%nat state => Ready state
  | NotReady cycles state => NotReady (cycles - 1) state
  end.

(** src/cpu/mod.rs:65-70, [StepState::unwrap]. *)
Definition ss_unwrap (s : step_state T) : T :=
  match s with Ready state => state | NotReady _ state => state end.

(** src/cpu/mod.rs:73-86, [Cpu::run] for [StepState<T>]; [cpu_run] is the
    [Cpu<T>] implementation of [T]. *)
Definition ss_run (cpu_run : T -> nat -> res (step_state T)) (s : step_state T) (cycles : nat)
  : res (step_state T) :=
  match s with
  | Ready cpu => cpu_run cpu cycles
  | NotReady remaining cpu =>
      if Nat.ltb cycles remaining then Ok (NotReady 0 cpu)
      else cpu_run cpu (cycles - remaining)%nat
  end.

(** src/cpu/mod.rs:88-92, [From<T> for StepState<T>]. *)
Definition ss_from (src : T) : step_state T := ss_new 1 src.

(** src/cpu/mod.rs:94-101, [From<StepState<T>> for (usize, T)]. *)
Definition ss_into_pair (s : step_state T) : nat * T :=
  match s with Ready state => (0%nat, state) | NotReady cycles state => (cycles, state) end.
End StepState.
