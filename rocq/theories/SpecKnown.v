(** Vocabulary for what a 6502 program depends on (C103) and for instructions
    whose results are not looked at (C104). *)
From Verif Require Import Base ModelMap ModelRegs6502 ModelCpu6502 ModelIsa6502 ModelRun6502 Link6502 SpecInstr.
From Verif Require Import Spec6502 SpecBus SpecFrame SpecLive SpecProgram SpecMove SpecExchange.

(** What two machines can have in common: a register other than PC, a flag, a
    byte of memory. *)
Inductive place := Part (x : part) | Byte (a : Z).
Definition agree (p : profile) (cpu cpu2 : mos6502 memory) (q : place) : Prop :=
  match q with
  | Part x => same (regs_of cpu) (regs_of cpu2) x
  | Byte a => peek p (amap cpu2) a = peek p (amap cpu) a
  end.

(** Two machines with RAM and ROM at the same addresses that are at the same
    place in the program. *)
Definition twins (cpu cpu2 : mos6502 memory) : Prop :=
  plain_map (amap cpu) /\ plain_map (amap cpu2) /\ regs_ok (regs_of cpu) /\ regs_ok (regs_of cpu2) /\
  reg_pc cpu2 = reg_pc cpu /\ forall a, ram_at (amap cpu2) a <-> ram_at (amap cpu) a.

(** What an instruction looks at: the registers and flags it is documented to
    look at (and X for DEY, see C86), its own bytes and the bytes it reads. *)
Definition own_byte (cpu : mos6502 memory) (m : addressing_mode) (a : Z) : Prop :=
  exists d, 0 <= d < length_of m /\ a = (reg_pc cpu + d) mod 65536.
Definition inspects (p : profile) (cpu : mos6502 memory) (mn : mnemonic) (m : addressing_mode) (b1 b2 : Z) (q : place) : Prop :=
  match q with
  | Part x => In x (emulator_looks_at mn m)
  | Byte a => own_byte cpu m a \/ In a (reads_of mn m (regs_of cpu) (peek p (amap cpu)) b1 b2)
  end.
(** What it gives a new value. *)
Definition gives (p : profile) (cpu : mos6502 memory) (mn : mnemonic) (m : addressing_mode) (b1 b2 : Z) (q : place) : Prop :=
  match q with
  | Part x => In x (sets mn m)
  | Byte a => In a (writes_of mn m (regs_of cpu) (peek p (amap cpu)) b1 b2)
  end.

(** A run of [k] instructions in [t] cycles that look only at what is known:
    known at the start, or given a value on the way. *)
Inductive known_run (p : profile) : (place -> Prop) -> nat -> nat -> mos6502 memory -> (place -> Prop) -> mos6502 memory -> Prop :=
| known_none (known : place -> Prop) cpu : known_run p known 0 0 cpu known cpu
| known_step (known known1 known' : place -> Prop) mn m c b1 b2 n k t cpu cpu1 cpu' :
    about_to p cpu (peek p (amap cpu)) mn m c b1 b2 -> observed_step p cpu = Ok (n, cpu1) ->
    (forall q, inspects p cpu mn m b1 b2 q -> known q) ->
    (forall q, known1 q -> known q \/ gives p cpu mn m b1 b2 q) ->
    known_run p known1 k t cpu1 known' cpu' ->
    known_run p known (S k) (n + t) cpu known' cpu'.

(** Two machines that agree on what is known and differ in that [i] stands at
    [start] in one and as many NOPs as [i] has bytes in the other. *)
Definition crossed_out (p : profile) (start : Z) (i : instruction) (known : place -> Prop) (cpu cpu2 : mos6502 memory) : Prop :=
  twins cpu cpu2 /\
  bytes_from (peek p (amap cpu)) start (code_of i) /\
  bytes_from (peek p (amap cpu2)) start (repeat 0xea (size i)) /\
  forall q, known q -> agree p cpu cpu2 q.

(** A run that comes [v] times to the instruction [i] at [start] and executes
    [k] other instructions in [t] cycles. No instruction writes to the bytes of
    [i]. The other instructions look only at what is known: known at the
    start or given a value by one of them, and not given a value by [i] since. *)
Inductive unused_run (p : profile) (start : Z) (i : instruction) :
  (place -> Prop) -> nat -> nat -> nat -> mos6502 memory -> (place -> Prop) -> mos6502 memory -> Prop :=
| unused_none (known : place -> Prop) cpu : unused_run p start i known 0 0 0 cpu known cpu
| unused_visit (known known1 known' : place -> Prop) n v k t cpu cpu1 cpu' :
    reg_pc cpu = start -> observed_step p cpu = Ok (n, cpu1) ->
    (forall a, In a (writes_at i (regs_of cpu) (peek p (amap cpu))) -> ~ block start (size i) a) ->
    (forall q, known1 q -> known q /\ ~ gives p cpu (i_mnemonic i) (i_mode i) (i_b1 i) (i_b2 i) q) ->
    unused_run p start i known1 v k t cpu1 known' cpu' ->
    unused_run p start i known (S v) k t cpu known' cpu'
| unused_other (known known1 known' : place -> Prop) mn m c b1 b2 n v k t cpu cpu1 cpu' :
    about_to p cpu (peek p (amap cpu)) mn m c b1 b2 -> observed_step p cpu = Ok (n, cpu1) ->
    (forall a, In a (writes_of mn m (regs_of cpu) (peek p (amap cpu)) b1 b2) -> ~ block start (size i) a) ->
    (forall q, inspects p cpu mn m b1 b2 q -> known q) ->
    (forall q, known1 q -> known q \/ gives p cpu mn m b1 b2 q) ->
    unused_run p start i known1 v k t cpu1 known' cpu' ->
    unused_run p start i known v (S k) (n + t) cpu known' cpu'.
