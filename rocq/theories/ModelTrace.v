(** Model of the lazy pipeline of [Cpu::run] for [Mos6502]
    (src/cpu/mos6502/mod.rs:217-228) with its two copies of the machine kept
    apart and the device writes it issues recorded. ModelRun6502.[run] is the
    same pipeline with generation and replay separated; PropertiesTrace.v
    proves that both give the same result. *)
From Verif Require Import Base ModelMap ModelRegs6502 ModelCpu6502 ModelOperand ModelRun6502.

Section Trace.
Context {D : Type} `{Device D}.

(** src/cpu/mos6502/mod.rs:327-331: only [WriteMemory] calls [write] on the
    address map, once. *)
Definition bus_writes (mc : microcode) : list (Z * Z) :=
  match mc with WriteMemory a v => [(a, v)] | _ => [] end.

(** [execute_mut] with the log of write calls (oldest first).
    src/cpu/mos6502/mod.rs:295-331. *)
Definition execute_logged (p : profile) (s : list (Z * Z) * mos6502 D) (mc : microcode)
  : res (list (Z * Z) * mos6502 D) :=
  let '(log, cpu) := s in
  do! cpu' <- execute_mut p cpu mc ;
  Ok (log ++ bus_writes mc, cpu').

(** src/cpu/mos6502/mod.rs:258-278, [next] with the log: the iterator
    executes every microcode of the instruction on its own machine. The
    microcode is split into cycles once more than in the code, which has no
    effect. *)
Definition next_logged (p : profile) (log : list (Z * Z)) (it : mos6502 D)
  : res (list (Z * Z) * list (list microcode) * mos6502 D) :=
  do! ' (mops, it') <- next p it ;
  do! cs <- operations_into_cycles mops ;
  Ok (log ++ flat_map bus_writes (concat cs), cs, it').

(** src/cpu/mos6502/mod.rs:219-225: [self.clone().into_iter()] is
    [pl_iter], the cycles of the current instruction that [flat_map] still
    holds are [pl_buffer], and [pl_state] is the accumulator of [fold], which
    started as [self]. Clones of a device write to the same outside world
    (a console, a shared cell), so there is one log for both. *)
Record pipeline := mkPipeline {
  pl_log : list (Z * Z);
  pl_buffer : list (list microcode);
  pl_iter : mos6502 D;
  pl_state : mos6502 D
}.

(** One cycle taken from the pipeline: refill the buffer if it is empty,
    then fold the microcode of the cycle. src/cpu/mos6502/mod.rs:219-225. *)
Definition pipeline_cycle (p : profile) (s : pipeline) : res pipeline :=
  do! ' (log, cs, it) <-
    match pl_buffer s with
    | [] => next_logged p (pl_log s) (pl_iter s)
    | _ => Ok (pl_log s, pl_buffer s, pl_iter s)
    end ;
  match cs with
  | [] => Panic
  | c :: buf =>
      do! ' (log', st) <- foldM (execute_logged p) c (log, pl_state s) ;
      Ok (mkPipeline log' buf it st)
  end.

(** [take(cycles)]. src/cpu/mos6502/mod.rs:223. *)
Fixpoint pipeline_run (p : profile) (cycles : nat) (s : pipeline) : res pipeline :=
  match cycles with
  | O => Ok s
  | S n => do! s' <- pipeline_cycle p s ; pipeline_run p n s'
  end.

(** src/cpu/mos6502/mod.rs:219-221. *)
Definition pipeline_start (cpu : mos6502 D) : pipeline := mkPipeline [] [] cpu cpu.
End Trace.
Arguments pipeline : clear implicits.
