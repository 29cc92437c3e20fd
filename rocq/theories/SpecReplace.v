(** Vocabulary for replacing a piece of 6502 code by another (C107). *)
From Verif Require Import Base ModelMap ModelRegs6502 ModelCpu6502 ModelIsa6502 ModelRun6502 Link6502 SpecInstr.
From Verif Require Import Spec6502 SpecBus SpecProgram SpecMove SpecExchange.

(** Two machines that differ only in the code at [start]: the bytes [X] in the
    first, as many bytes [Y] in the second. *)
Definition differ_in_piece (p : profile) (start : Z) (X Y : list Z) (cpu cpu2 : mos6502 memory) : Prop :=
  plain_map (amap cpu) /\ plain_map (amap cpu2) /\ regs_ok (regs_of cpu) /\ regs_of cpu2 = regs_of cpu /\
  (forall a, ram_at (amap cpu2) a <-> ram_at (amap cpu) a) /\ length Y = length X /\
  bytes_from (peek p (amap cpu)) start X /\ bytes_from (peek p (amap cpu2)) start Y /\
  forall a, ~ block start (length X) a -> peek p (amap cpu2) a = peek p (amap cpu) a.

(** At [start], [X] and [Y] do the same whenever [when] holds: coming there, one
    machine executes [k] instructions in [t] cycles and the other [k2] in [t2],
    and then they again differ only in the piece. *)
Definition interchangeable (p : profile) (start : Z) (X Y : list Z) (when : mos6502 memory -> Prop) (k t k2 t2 : nat) : Prop :=
  forall cpu cpu2, differ_in_piece p start X Y cpu cpu2 -> reg_pc cpu = start -> when cpu ->
  exists cpu' cpu2', steps p k t cpu cpu' /\ steps p k2 t2 cpu2 cpu2' /\ differ_in_piece p start X Y cpu' cpu2'.

(** A run that comes [n] times to [start] when [when] holds, each time
    executing [kx] instructions in [tx] cycles from there. In between it executes
    [k] instructions in [t] cycles that stand outside the [size] bytes at [start]
    and neither read nor write them. *)
Inductive visits (p : profile) (start : Z) (size : nat) (when : mos6502 memory -> Prop) (kx tx : nat) :
  nat -> nat -> nat -> mos6502 memory -> mos6502 memory -> Prop :=
| visits_none cpu : visits p start size when kx tx 0 0 0 cpu cpu
| visits_piece n k t cpu cpu1 cpu' :
    reg_pc cpu = start -> when cpu -> steps p kx tx cpu cpu1 ->
    visits p start size when kx tx n k t cpu1 cpu' ->
    visits p start size when kx tx (S n) k t cpu cpu'
| visits_other mn m c b1 b2 d n k t cpu cpu1 cpu' :
    about_to p cpu (peek p (amap cpu)) mn m c b1 b2 ->
    (forall i, 0 <= i < length_of m -> ~ block start size ((reg_pc cpu + i) mod 65536)) ->
    (forall a, In a (reads_of mn m (regs_of cpu) (peek p (amap cpu)) b1 b2 ++
                     writes_of mn m (regs_of cpu) (peek p (amap cpu)) b1 b2) -> ~ block start size a) ->
    observed_step p cpu = Ok (d, cpu1) ->
    visits p start size when kx tx n k t cpu1 cpu' ->
    visits p start size when kx tx n (S k) (d + t) cpu cpu'.
