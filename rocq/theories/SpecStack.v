(** Vocabulary for the stack properties C22-C24. *)
From Verif Require Import Base ModelMap ModelRegs6502 ModelCpu6502 ModelIsa6502 ModelRun6502 Link6502 SpecInstr.

Section Stack.
Context {D : Type} `{Device D}.
Implicit Type cpu : mos6502 D.

(** The next instruction is [mn], and it takes [cpu] to [cpu']. *)
Definition executes p (mn : mnemonic) cpu cpu' : Prop :=
  exists rd m c b1 b2, about_to p cpu rd mn m c b1 b2 /\ becomes p cpu cpu'.

(** One step of any other kind: it leaves the stack pointer and page one alone. *)
Definition off_stack p cpu cpu' : Prop :=
  becomes p cpu cpu' /\ reg_sp cpu' = reg_sp cpu /\
  forall b, 0x0100 <= b <= 0x01ff -> peek p (amap cpu') b = peek p (amap cpu) b.

(** Executions that use the stack in a nested way: [balanced p d cpu cpu'] says
    that the code from [cpu] to [cpu'] is a sequence of instructions that leave
    the stack alone, of subroutine calls, of saved and restored registers and
    of interrupts, nested to any depth, and never has more than [d] bytes on the stack. *)
Inductive balanced (p : profile) : Z -> mos6502 D -> mos6502 D -> Prop :=
| bal_nil cpu : balanced p 0 cpu cpu
| bal_step d cpu cpu1 cpu2 : off_stack p cpu cpu1 -> balanced p d cpu1 cpu2 -> balanced p d cpu cpu2
| bal_call d e cpu cpu1 cpu2 cpu3 cpu4 :
    executes p Jsr cpu cpu1 -> balanced p d cpu1 cpu2 -> executes p Rts cpu2 cpu3 ->
    balanced p e cpu3 cpu4 -> balanced p (Z.max (d + 2) e) cpu cpu4
| bal_save push pull d e cpu cpu1 cpu2 cpu3 cpu4 :
    push = Pha \/ push = Php -> pull = Pla \/ pull = Plp ->
    executes p push cpu cpu1 -> balanced p d cpu1 cpu2 -> executes p pull cpu2 cpu3 ->
    balanced p e cpu3 cpu4 -> balanced p (Z.max (d + 1) e) cpu cpu4
| bal_break d e cpu cpu1 cpu2 cpu3 cpu4 :
    executes p Brk cpu cpu1 -> balanced p d cpu1 cpu2 -> executes p Rti cpu2 cpu3 ->
    balanced p e cpu3 cpu4 -> balanced p (Z.max (d + 3) e) cpu cpu4.

(** PHA pushes A, PHP the status byte; PLA pulls into A, PLP into the status. *)
Definition pushes_byte p cpu (v : Z) cpu' : Prop :=
  (executes p Pha cpu cpu' /\ v = reg_acc cpu) \/
  (executes p Php cpu cpu' /\ v = ps_read (reg_ps cpu)).
Definition pulls_byte p cpu (v : Z) cpu' : Prop :=
  (executes p Pla cpu cpu' /\ v = reg_acc cpu') \/
  (executes p Plp cpu cpu' /\ v = ps_read (reg_ps cpu')).

(** Sequences of pushes (pulls) of the given bytes, in order, with any
    instructions in between that leave the stack alone. *)
Inductive push_run (p : profile) : mos6502 D -> list Z -> mos6502 D -> Prop :=
| push_nil cpu : push_run p cpu [] cpu
| push_skip cpu l cpu1 cpu2 : off_stack p cpu cpu1 -> push_run p cpu1 l cpu2 -> push_run p cpu l cpu2
| push_cons cpu v l cpu1 cpu2 :
    pushes_byte p cpu v cpu1 -> push_run p cpu1 l cpu2 -> push_run p cpu (v :: l) cpu2.
Inductive pull_run (p : profile) : mos6502 D -> list Z -> mos6502 D -> Prop :=
| pull_nil cpu : pull_run p cpu [] cpu
| pull_skip cpu l cpu1 cpu2 : off_stack p cpu cpu1 -> pull_run p cpu1 l cpu2 -> pull_run p cpu l cpu2
| pull_cons cpu v l cpu1 cpu2 :
    pulls_byte p cpu v cpu1 -> pull_run p cpu1 l cpu2 -> pull_run p cpu (v :: l) cpu2.

(** A machine whose page one is RAM. *)
Definition has_stack p (I : address_map D -> Prop) cpu : Prop :=
  ram_bus p I (fun b => 0x0100 <= b <= 0x01ff) /\ I (amap cpu) /\ regs_ok (regs_of cpu).
End Stack.
