(** Model of src/cpu/mod.rs with [usize] counters: the same functions as
    ModelStep.v, on 64-bit integers with the arithmetic of the build profile. *)
From Verif Require Import Base ModelStep ModelChip8.

(** src/cpu/mod.rs:42-45, enum [StepState<T>]. *)
Inductive step_state64 (T : Type) :=
| NotReady64 (remaining : Z) (state : T)
| Ready64 (state : T).
Arguments NotReady64 {T}.
Arguments Ready64 {T}.

Section StepState.
Context {T : Type} (p : profile).

(** src/cpu/mod.rs:48-53, [StepState::new]. *)
Definition ss64_new (cycle : Z) (state : T) : res (step_state64 T) :=
  if (cycle =? 0) || (cycle =? 1) then Ok (Ready64 state)
  else do! r <- sub_usize p cycle 1 ; Ok (NotReady64 r state).

(** src/cpu/mod.rs:56-63, [StepState::decrement]. *)
Definition ss64_decrement (s : step_state64 T) : res (step_state64 T) :=
  match s with
  | Ready64 _ => Ok s
  | NotReady64 cycles state =>
      if cycles =? 1 then Ok (Ready64 state)
      else if cycles =? 0 then Ok (Ready64 state)
      else do! r <- sub_usize p cycles 1 ; Ok (NotReady64 r state)
  end.

(** src/cpu/mod.rs:73-86, [Cpu::run] for [StepState<T>]. *)
Definition ss64_run (cpu_run : T -> Z -> res (step_state64 T)) (s : step_state64 T) (cycles : Z) : res (step_state64 T) :=
  match s with
  | Ready64 cpu => cpu_run cpu cycles
  | NotReady64 remaining cpu =>
      if cycles <? remaining then Ok (NotReady64 0 cpu)
      else do! n <- sub_usize p cycles remaining ; cpu_run cpu n
  end.

(** src/cpu/mod.rs:88-92, [From<T> for StepState<T>]. *)
Definition ss64_from (src : T) : res (step_state64 T) := ss64_new 1 src.

(** src/cpu/mod.rs:94-101, [From<StepState<T>> for (usize, T)]. *)
Definition ss64_into_pair (s : step_state64 T) : Z * T :=
  match s with Ready64 state => (0, state) | NotReady64 cycles state => (cycles, state) end.
End StepState.
