(** Bus reads as requests to an outside world.

    [Addressable::read] (src/address_map/mod.rs:36) takes [&self], but a
    device may still change when it is read (a [Cell], a shared queue, a
    console). ModelMap.v ignores that. Here an instruction is a computation
    that asks for the byte at an address and goes on with whatever answer
    comes back, so that the number and order of its reads are visible and
    nothing is assumed about the answers. Used by ModelOpsIo6502.v. *)
From Verif Require Import Base ModelMap ModelRegs6502 ModelCpu6502 ModelOperand.

(** A computation that reads the bus: finished, panicked, or waiting for the
    byte at [addr]. Calls of [read], src/address_map/mod.rs:40, as data. *)
Inductive io (A : Type) : Type :=
| Ret (a : A)
| Abort
| Request (addr : Z) (k : Z -> io A).
Arguments Ret {A} a.
Arguments Abort {A}.
Arguments Request {A} addr k.

(** One computation after another; no counterpart in
    src/cpu/mos6502/operations/mod.rs but [;]. *)
Fixpoint io_bind {A B} (x : io A) (f : A -> io B) : io B :=
  match x with
  | Ret a => f a
  | Abort => Abort
  | Request addr k => Request addr (fun v => io_bind (k v) f)
  end.
Notation "'io!' x <- e1 ; e2" := (io_bind e1 (fun x => e2))
  (at level 200, x name, e1 at level 100, e2 at level 200, right associativity).

(** A computation without reads. As the arithmetic of
    src/cpu/mos6502/operations/mod.rs:256-280. *)
Definition io_lift {A} (r : res A) : io A :=
  match r with Ok a => Ret a | Panic => Abort end.

(** [cpu.address_map.read(addr)]. src/cpu/mos6502/operations/mod.rs:256-280. *)
Definition io_read (addr : Z) : io Z := Request addr (fun v => Ret v).

(** src/cpu/mos6502/operations/mod.rs:256-263. *)
Definition dereference_indexed_indirect_address_io {D} (p : profile) (cpu : mos6502 D)
  (base_addr index : Z) : io Z :=
  io! lo <- io_read (wrapping_add_u8 base_addr index) ;
  io! index1 <- io_lift (add_u8 p index 1) ;
  io! hi <- io_read (wrapping_add_u8 base_addr index1) ;
  Ret (u16_from_le_bytes lo hi).

(** src/cpu/mos6502/operations/mod.rs:268-273. *)
Definition dereference_indirect_indexed_address_io {D} (p : profile) (cpu : mos6502 D)
  (base_addr index : Z) : io Z :=
  io! lo <- io_read base_addr ;
  io! hi <- io_read (wrapping_add_u8 base_addr 1) ;
  io_lift (add_u16 p (u16_from_le_bytes lo hi) index).

(** src/cpu/mos6502/operations/mod.rs:278-280. *)
Definition dereference_address_to_operand_io {D} (p : profile) (cpu : mos6502 D)
  (addr index : Z) : io operand :=
  io! v <- io_read (add_index_to_address addr index) ;
  Ret (operand_new v).
