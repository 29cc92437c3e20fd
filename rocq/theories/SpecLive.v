(** Vocabulary for registers and flags that do not matter (C86). *)
From Verif Require Import Base ModelMap ModelRegs6502 ModelCpu6502 ModelIsa6502 ModelRun6502 Link6502 SpecInstr Spec6502 SpecFrame.

(** A register other than PC, or a flag. *)
Inductive part := Reg (x : reg) | Flag (f : flag).
Definition same (r r2 : registers) (x : part) : Prop :=
  match x with Reg y => get r y = get r2 y | Flag f => flag_of r f = flag_of r2 f end.

(** The registers an instruction is documented to look at: through its
    addressing mode, and by itself. *)
Definition mode_looks_at (m : addressing_mode) : list reg :=
  match m with
  | AbsoluteIndexedWithX | ZeroPageIndexedWithX | XIndexedIndirect => [RX]
  | AbsoluteIndexedWithY | ZeroPageIndexedWithY | IndirectYIndexed => [RY]
  | Accumulator => [RA]
  | _ => []
  end.
Definition mnemonic_looks_at (mn : mnemonic) : list reg :=
  match mn with
  | Sta | Adc | Sbc | And | Ora | Eor | Bit | Cmp | Tax | Tay => [RA]
  | Stx | Cpx | Inx | Dex | Txa | Txs => [RX]
  | Sty | Cpy | Iny | Dey | Tya => [RY]
  | Pha => [RA; RS]
  | Tsx | Php | Pla | Plp | Jsr | Rts | Brk | Rti => [RS]
  | _ => []
  end.
Definition looks_at (mn : mnemonic) (m : addressing_mode) : list part :=
  map Reg (mode_looks_at m ++ mnemonic_looks_at mn) ++ map Flag (flags_used mn).

(** DEVIATION: DEY takes its N and Z flags from X - 1. *)
Definition emulator_looks_at (mn : mnemonic) (m : addressing_mode) : list part :=
  looks_at mn m ++ match mn with Dey => [Reg RX] | _ => [] end.

(** The parts an instruction gives a new value. *)
Definition sets (mn : mnemonic) (m : addressing_mode) : list part :=
  map Reg (may_change mn m) ++ map Flag (flags_changed mn).

(** What matters before a sequence of instructions if [wanted] is what matters
    after it: what an instruction looks at before any other has set it. *)
Fixpoint matters (l : list (mnemonic * addressing_mode)) (wanted : part -> Prop) : part -> Prop :=
  match l with
  | [] => wanted
  | (mn, m) :: l' => fun x => In x (emulator_looks_at mn m) \/ (matters l' wanted x /\ ~ In x (sets mn m))
  end.

(** The instructions [l], executed one after another in [t] cycles. *)
Inductive executes {D} `{Device D} (p : profile) : list (mnemonic * addressing_mode) -> nat -> mos6502 D -> mos6502 D -> Prop :=
| executes_none cpu : executes p [] 0 cpu cpu
| executes_step mn m l n t cpu rd c b1 b2 cpu1 cpu' :
    about_to p cpu rd mn m c b1 b2 -> observed_step p cpu = Ok (n, cpu1) ->
    executes p l t cpu1 cpu' -> executes p ((mn, m) :: l) (n + t) cpu cpu'.
