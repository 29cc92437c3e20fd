(** A host that changes the machine between calls of [run] (C139). *)
From Verif Require Import Base ModelMap ModelRegs6502 ModelCpu6502 ModelStep ModelIsa6502 ModelRun6502 Link6502 ProofRun6502 Spec6502 SpecProgram SpecCheck.

(** Stack bytes in use: those pushed since the stack pointer was [base]. *)
Definition in_use (base : Z) (r : registers) (q : Z) : Prop := exists i, 0 <= i < (base - rS r) mod 256 /\ q = stack (base - i).

Section Host.
Context {D : Type} `{Device D}.
Variables (p : profile) (I : address_map D -> Prop) (f : Z -> Z) (l : listing) (base : Z).

(** The host may put any bytes anywhere in memory, and any values into A, X, Y
    and the flags.  It leaves the program counter, the stack pointer, the
    instructions and the stack bytes in use as they are. *)
Definition tampers (cpu cpu' : mos6502 D) : Prop :=
  I (amap cpu') /\ regs_ok (regs_of cpu') /\
  rPC (regs_of cpu') = rPC (regs_of cpu) /\ rS (regs_of cpu') = rS (regs_of cpu) /\
  forall q, u16 q -> code_byte f l q = true \/ in_use base (regs_of cpu) q -> peek p (amap cpu') q = peek p (amap cpu) q.

(** Calls of [run] with [ns] cycles; before each of them the host changes the
    machine. *)
Inductive session : mos6502 D -> list nat -> mos6502 D -> Prop :=
| session_end cpu : session cpu [] cpu
| session_slice cpu cpu1 cpu2 cpu3 n ns :
    tampers cpu cpu1 -> run p cpu1 n = Ok (Ready cpu2) -> session cpu2 ns cpu3 -> session cpu (n :: ns) cpu3.
End Host.
