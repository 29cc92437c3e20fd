(** Everything a user can do to a 6502 through its API once its devices are
    registered: write to its address map, execute one microcode operation,
    run it for some cycles, reset it. *)
From Verif Require Import Base ModelMap ModelStep ModelRegs6502 ModelCpu6502 ModelOperand
  ModelIsa6502 ModelRun6502.

(** The status after a reset: every flag is clear but the unused bit. *)
Definition initial_status : processor_status :=
  {| ps_carry := false; ps_zero := false; ps_interrupt_disable := false; ps_decimal := false;
     ps_brk := false; ps_unused := true; ps_overflow := false; ps_negative := false |}.

Section SpecUse.
Context {D : Type} `{Device D}.

(** One use, returned normally, in one build profile. A write through the map
    says nothing about the registers, so that setting them is included. *)
Inductive used (p : profile) (cpu cpu' : mos6502 D) : Prop :=
| used_write (a v : Z) (r : wresult)
    (Hw : am_write p (amap cpu) a v = Ok (amap cpu', r))
| used_microcode (mc : microcode)
    (He : execute_mut p cpu mc = Ok cpu')
| used_run (n : nat)
    (Hr : run p cpu n = Ok (Ready cpu'))
| used_reset (n : nat)
    (Hr : reset p cpu = Ok (NotReady n cpu')).

(** A history: uses one after the other, each in a profile of its own. *)
Inductive history : mos6502 D -> mos6502 D -> Prop :=
| history_nil cpu : history cpu cpu
| history_cons p cpu cpu1 cpu2 : used p cpu cpu1 -> history cpu1 cpu2 -> history cpu cpu2.

(** The same with values of the types of the API: addresses and values written
    are [u16] and [u8], register contents too. *)
Definition typed_microcode (mc : microcode) : Prop :=
  match mc with
  | WriteMemory a v => u16 a /\ u8 v
  | SetProgramStatusFlagState _ _ => True
  | Write8bitRegister _ v | Inc8bitRegister _ v | Dec8bitRegister _ v => u8 v
  | Write16bitRegister _ v | Inc16bitRegister _ v | Dec16bitRegister _ v => u16 v
  end.
Definition typed_registers (cpu : mos6502 D) : Prop :=
  u8 (reg_acc cpu) /\ u8 (reg_x cpu) /\ u8 (reg_y cpu) /\ u8 (reg_sp cpu) /\ u16 (reg_pc cpu).
Inductive typed_use (p : profile) (cpu cpu' : mos6502 D) : Prop :=
| typed_write (a v : Z) (r : wresult)
    (Ha : u16 a) (Hv : u8 v) (Ht : typed_registers cpu')
    (Hw : am_write p (amap cpu) a v = Ok (amap cpu', r))
| typed_set (Hm : amap cpu' = amap cpu) (Ht : typed_registers cpu')
| typed_execute (mc : microcode) (Ht : typed_microcode mc)
    (He : execute_mut p cpu mc = Ok cpu')
| typed_run (n : nat)
    (Hr : run p cpu n = Ok (Ready cpu'))
| typed_reset (n : nat)
    (Hr : reset p cpu = Ok (NotReady n cpu')).
Inductive typed_history : mos6502 D -> mos6502 D -> Prop :=
| typed_nil cpu : typed_history cpu cpu
| typed_cons p cpu cpu1 cpu2 : typed_use p cpu cpu1 -> typed_history cpu1 cpu2 -> typed_history cpu cpu2.
End SpecUse.
