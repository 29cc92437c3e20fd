(** A host that changes the machine between instructions of code that has to
    keep time (C141). *)
From Verif Require Import Base ModelMap ModelRegs6502 ModelCpu6502 ModelStep ModelIsa6502 ModelRun6502 Link6502 ProofRun6502 Spec6502 SpecProgram
  SpecCheck SpecTamper SpecBudget.

Section Host.
Context {D : Type} `{Device D}.
Variables (p : profile) (I : address_map D -> Prop) (f : Z -> Z) (l : listing) (base : Z) (B : budget).

(** A change as in C139 that also leaves X and the zero flag, which the bounds
    are stated in terms of, as they are. *)
Definition nudges (cpu cpu' : mos6502 D) : Prop :=
  tampers p I f l base cpu cpu' /\ rX (regs_of cpu') = rX (regs_of cpu) /\
  ps_zero (rP (regs_of cpu')) = ps_zero (rP (regs_of cpu)).

(** The host and the machine take turns, in any way. *)
Inductive turns : mos6502 D -> mos6502 D -> Prop :=
| turns_end cpu : turns cpu cpu
| turns_host cpu cpu1 cpu2 : nudges cpu cpu1 -> turns cpu1 cpu2 -> turns cpu cpu2
| turns_step cpu n cpu1 cpu2 : observed_step p cpu = Ok (n, cpu1) -> turns cpu1 cpu2 -> turns cpu cpu2.

(** As before, but no marked instruction is reached; the machine takes [t]
    cycles. *)
Inductive gap : mos6502 D -> nat -> mos6502 D -> Prop :=
| gap_end cpu : gap cpu 0 cpu
| gap_host cpu cpu1 t cpu2 : nudges cpu cpu1 -> gap cpu1 t cpu2 -> gap cpu t cpu2
| gap_step cpu n cpu1 t cpu2 : observed_step p cpu = Ok (n, cpu1) -> marked B (rPC (regs_of cpu1)) = false -> gap cpu1 t cpu2 -> gap cpu (n + t) cpu2.
End Host.
