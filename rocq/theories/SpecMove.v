(** Vocabulary for code that is moved to another place in memory (C83). *)
From Verif Require Import Base ModelMap ModelRegs6502 ModelCpu6502 ModelOperand ModelIsa6502 ModelBus Link6502 Spec6502 SpecBus.

(** Opcodes that do not mention or store a place in the code: all but BRK, JSR,
    RTI, JMP, RTS and indirect JMP. *)
Definition movable (opcode : Z) : Prop := ~ In opcode [0x00; 0x20; 0x40; 0x4c; 0x60; 0x6c].

(** [k] movable instructions of [t] cycles, fetched from addresses in [code],
    whose other accesses are to addresses in [data]. *)
Inductive apart {D} `{Device D} (p : profile) (code data : Z -> Prop) : nat -> nat -> mos6502 D -> mos6502 D -> Prop :=
| apart_none cpu : apart p code data 0 0 cpu cpu
| apart_step k t cpu mops c m b0 b1 b2 rest cpu' :
    let pc := reg_pc cpu in
    code pc -> code (pc + 1) -> code (pc + 2) ->
    next_bus (watched (map_bus p)) p (core_of cpu, (amap cpu, [])) =
      Ok (mops, (c, (m, Rd pc b0 :: Rd (pc + 1) b1 :: Rd (pc + 2) b2 :: rest))) ->
    movable b0 -> Forall (fun x => data (address_of x)) rest ->
    apart p code data k t (cpu_with (regs_of c) m) cpu' ->
    apart p code data (S k) (ops_cycles mops + t) cpu cpu'.

(** The addresses of a block. *)
Definition block (start : Z) (size : nat) (a : Z) : Prop := start <= a < start + Z.of_nat size.

(** The same registers with the program counter moved by [d]. *)
Definition shift (d : Z) (r : registers) : registers := withPC r ((rPC r + d) mod 65536).
