(** Model of src/cpu/mos6502/mod.rs, [next] and [run], on a bus that may react
    to being read (SpecBus.v, [bus]).

    In the code the bus is the CPU's [address_map]; clones of the CPU clone the
    map, but a device may share its state with its clone (an [Rc], a console),
    which is the case modelled here: there is one bus state for every copy of
    the machine. The CPU value keeps the registers; its own map is empty and
    never used. *)
From Verif Require Import Base ModelMap ModelStep ModelRegs6502 ModelCpu6502 ModelOperand
  ModelIsa6502 ModelIo ModelOpsIo6502 SpecBus.

(** No device is registered in the CPU's own map. *)
Global Instance no_device : Device Empty_set := {
  dev_read := fun _ d => match d with end;
  dev_write := fun _ d => match d with end
}.

(** A CPU without a bus. src/cpu/mos6502/mod.rs:43-52 without [address_map]. *)
Definition core := mos6502 Empty_set.
(** The registers of a CPU. src/cpu/mos6502/mod.rs:45-51. *)
Definition core_of {D} (cpu : mos6502 D) : core :=
  mkMos6502 [] (reg_acc cpu) (reg_x cpu) (reg_y cpu) (reg_sp cpu) (reg_pc cpu) (reg_ps cpu).

Section Bus.
Context {S : Type} (b : bus S).

(** Put the requests of a computation to the bus, one after the other.
    [self.address_map.read], src/cpu/mos6502/mod.rs:258-270. *)
Fixpoint answer {A} (x : io A) (s : S) : res (A * S) :=
  match x with
  | Ret a => Ok (a, s)
  | Abort => Panic
  | Request addr k => do! ' (v, s') <- b_read b s addr ; answer (k v) s'
  end.

(** src/cpu/mos6502/mod.rs:258-270: the reads of [next] and the generated
    operations. *)
Definition generate_next (p : profile) (cpu : core) : io operations :=
  let pc := reg_pc cpu in
  io! b0 <- io_read pc ;
  io! pc1 <- io_lift (add_u16 p pc 1) ;
  io! b1 <- io_read pc1 ;
  io! pc2 <- io_lift (add_u16 p pc 2) ;
  io! b2 <- io_read pc2 ;
  match parse_instruction b0 b1 b2 with
  | None => Abort
  | Some oper => generate_io p oper cpu
  end.

(** src/cpu/mos6502/mod.rs:295-331, [execute_mut]: [WriteMemory] writes to the
    bus and unwraps, every other microcode works on registers. *)
Definition execute_bus (p : profile) (st : core * S) (mc : microcode) : res (core * S) :=
  let '(cpu, s) := st in
  match mc with
  | WriteMemory addr value => do! s' <- b_write b s addr value ; Ok (cpu, s')
  | _ => do! cpu' <- execute_mut p cpu mc ; Ok (cpu', s)
  end.

(** src/cpu/mos6502/mod.rs:258-278, [next]. *)
Definition next_bus (p : profile) (st : core * S) : res (operations * (core * S)) :=
  let '(cpu, s) := st in
  do! ' (mops, s1) <- answer (generate_next p cpu) s ;
  do! cs <- operations_into_cycles mops ;
  do! st' <- foldM (execute_bus p) (concat cs) (cpu, s1) ;
  Ok (mops, st').

(** src/cpu/mos6502/mod.rs:217-228: the pipeline of [run]; the iterator
    ([bp_iter], holding a clone) and the accumulator of [fold] ([bp_state])
    share the bus [bp_bus]; [bp_buffer] holds the cycles of the current
    instruction not yet taken. *)
Record bus_pipeline := mkBusPipeline {
  bp_bus : S;
  bp_buffer : list (list microcode);
  bp_iter : core;
  bp_state : core
}.

(** One cycle taken from the pipeline. src/cpu/mos6502/mod.rs:219-225. *)
Definition bus_pipeline_cycle (p : profile) (q : bus_pipeline) : res bus_pipeline :=
  do! ' (s, cs, it) <-
    match bp_buffer q with
    | [] =>
        do! ' (mops, (it, s)) <- next_bus p (bp_iter q, bp_bus q) ;
        do! cs <- operations_into_cycles mops ;
        Ok (s, cs, it)
    | _ => Ok (bp_bus q, bp_buffer q, bp_iter q)
    end ;
  match cs with
  | [] => Panic
  | c :: buf =>
      do! ' (st, s') <- foldM (execute_bus p) c (bp_state q, s) ;
      Ok (mkBusPipeline s' buf it st)
  end.

(** [take(cycles)]. src/cpu/mos6502/mod.rs:223. *)
Fixpoint bus_pipeline_run (p : profile) (cycles : nat) (q : bus_pipeline) : res bus_pipeline :=
  match cycles with
  | O => Ok q
  | Datatypes.S n => do! q' <- bus_pipeline_cycle p q ; bus_pipeline_run p n q'
  end.

(** src/cpu/mos6502/mod.rs:217-228, [run] on a shared bus: the returned CPU
    and the bus afterwards. *)
Definition run_bus (p : profile) (cpu : core) (s : S) (cycles : nat) : res (step_state core * S) :=
  do! q <- bus_pipeline_run p cycles (mkBusPipeline s [] cpu cpu) ;
  Ok (ss_from (bp_state q), bp_bus q).

(** [k] calls of [next] by hand. src/cpu/mos6502/mod.rs:258-278. *)
Fixpoint iterate_bus (p : profile) (k : nat) (st : core * S) : res (list operations * (core * S)) :=
  match k with
  | O => Ok ([], st)
  | Datatypes.S k' =>
      do! ' (m, st') <- next_bus p st ;
      do! ' (ms, st'') <- iterate_bus p k' st' ;
      Ok (m :: ms, st'')
  end.

(** src/cpu/mos6502/mod.rs:105-113, [reset]: two reads of the reset vector. *)
Definition reset_bus (p : profile) (s : S) : res (step_state core * S) :=
  do! ' (lsb, s) <- b_read b s RESET_VECTOR_LL ;
  do! ' (msb, s) <- b_read b s RESET_VECTOR_HH ;
  let cpu := set_pc (with_addressmap []) (u16_from_le_bytes lsb msb) in
  Ok (ss_new 6 (set_sp cpu stack_pointer_default), s).
End Bus.
Arguments bus_pipeline : clear implicits.

(** The address map of ModelMap.v as a bus: reads change nothing, a refused
    write panics (src/cpu/mos6502/mod.rs:329 unwraps). *)
Definition map_bus {D} `{Device D} (p : profile) : bus (address_map D) :=
  mkBus
    (fun m a => do! v <- am_read p m a ; Ok (v, m))
    (fun m a v => match am_write p m a v with
                  | Ok (m', WOk _) => Ok m' | Ok (_, WErr) => Panic | Panic => Panic end).
