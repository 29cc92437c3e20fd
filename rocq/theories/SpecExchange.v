(** Vocabulary for exchanging 6502 instructions (C99). *)
From Verif Require Import Base ModelMap ModelRegs6502 ModelCpu6502 ModelIsa6502 ModelRun6502 Link6502 SpecInstr.
From Verif Require Import Spec6502 SpecBus SpecFrame SpecLive SpecProgram SpecMove.

(** The addresses an instruction reads (after its fetch) and writes with
    registers [r] and memory [f]. *)
Definition reads_of (mn : mnemonic) (m : addressing_mode) (r : registers) (f : Z -> Z) (b1 b2 : Z) : list Z :=
  reads_made mn m r b1 b2 (pointer_lo m r f b1) (pointer_hi m r f b1).
Definition writes_of (mn : mnemonic) (m : addressing_mode) (r : registers) (f : Z -> Z) (b1 b2 : Z) : list Z :=
  writes_made mn m r b1 b2 (pointer_lo m r f b1) (pointer_hi m r f b1).

(** An instruction as it stands in a program: opcode and operand bytes (those
    it does not have are ignored), with what the opcode means. *)
Record instruction := mkInstruction {
  i_opcode : Z; i_b1 : Z; i_b2 : Z;
  i_mnemonic : mnemonic; i_mode : addressing_mode; i_cycles : nat }.
Definition instruction_ok (i : instruction) : Prop :=
  decode (i_opcode i) = Some (i_mnemonic i, i_mode i, i_cycles i) /\ u8 (i_b1 i) /\ u8 (i_b2 i).
Definition size (i : instruction) : nat := Z.to_nat (length_of (i_mode i)).
Definition code_of (i : instruction) : list Z := firstn (size i) [i_opcode i; i_b1 i; i_b2 i].
Definition reads_at (i : instruction) (r : registers) (f : Z -> Z) : list Z :=
  reads_of (i_mnemonic i) (i_mode i) r f (i_b1 i) (i_b2 i).
Definition writes_at (i : instruction) (r : registers) (f : Z -> Z) : list Z :=
  writes_of (i_mnemonic i) (i_mode i) r f (i_b1 i) (i_b2 i).

(** Two instructions that have nothing to do with each other with registers
    [r] and memory [f]: neither sets a register or flag that the other looks at
    or sets, neither writes a byte that the other reads or writes, and neither
    reads or writes the bytes [code] of the two. *)
Definition unrelated (r : registers) (f : Z -> Z) (code : Z -> Prop) (i j : instruction) : Prop :=
  (forall x, In x (sets (i_mnemonic i) (i_mode i)) ->
     ~ In x (looks_at (i_mnemonic j) (i_mode j)) /\ ~ In x (sets (i_mnemonic j) (i_mode j))) /\
  (forall x, In x (sets (i_mnemonic j) (i_mode j)) -> ~ In x (looks_at (i_mnemonic i) (i_mode i))) /\
  (forall a, In a (writes_at i r f) -> ~ In a (reads_at j r f) /\ ~ In a (writes_at j r f)) /\
  (forall a, In a (writes_at j r f) -> ~ In a (reads_at i r f)) /\
  (forall a, In a (reads_at i r f ++ writes_at i r f ++ reads_at j r f ++ writes_at j r f) -> ~ code a).

(** The bytes of the two instructions, when they stand at [start]. *)
Definition pair_at (start : Z) (i j : instruction) : Z -> Prop := block start (size i + size j).

(** Two machines that differ only in the order in which [i] and [j] stand at
    [start]. *)
Definition differ_in_order (p : profile) (start : Z) (i j : instruction) (cpu cpu2 : mos6502 memory) : Prop :=
  plain_map (amap cpu) /\ plain_map (amap cpu2) /\ regs_ok (regs_of cpu) /\ regs_of cpu2 = regs_of cpu /\
  (forall a, ram_at (amap cpu2) a <-> ram_at (amap cpu) a) /\
  bytes_from (peek p (amap cpu)) start (code_of i ++ code_of j) /\
  bytes_from (peek p (amap cpu2)) start (code_of j ++ code_of i) /\
  forall a, ~ pair_at start i j a -> peek p (amap cpu2) a = peek p (amap cpu) a.

(** Two instructions after one another: their cycles and the machine after
    them. *)
Definition two_instructions {D} `{Device D} (p : profile) (cpu : mos6502 D) : res (nat * mos6502 D) :=
  match observed_step p cpu with
  | Ok (n, cpu1) => match observed_step p cpu1 with Ok (n2, cpu2) => Ok ((n + n2)%nat, cpu2) | Panic => Panic end
  | Panic => Panic
  end.

(** A run of [k] instructions in [t] cycles that comes any number of times to
    [start], each time with [i] and [j] unrelated; the other instructions stand
    elsewhere and neither read nor write the bytes of the two. *)
Inductive passes (p : profile) (start : Z) (i j : instruction) : nat -> nat -> mos6502 memory -> mos6502 memory -> Prop :=
| passes_none cpu : passes p start i j 0 0 cpu cpu
| passes_pair n k t cpu cpu1 cpu' :
    reg_pc cpu = start -> unrelated (regs_of cpu) (peek p (amap cpu)) (pair_at start i j) i j ->
    two_instructions p cpu = Ok (n, cpu1) ->
    passes p start i j k t cpu1 cpu' ->
    passes p start i j (S (S k)) (n + t) cpu cpu'
| passes_other mn m c b1 b2 n k t cpu cpu1 cpu' :
    about_to p cpu (peek p (amap cpu)) mn m c b1 b2 ->
    (forall d, 0 <= d < length_of m -> ~ pair_at start i j ((reg_pc cpu + d) mod 65536)) ->
    (forall a, In a (reads_of mn m (regs_of cpu) (peek p (amap cpu)) b1 b2 ++
                     writes_of mn m (regs_of cpu) (peek p (amap cpu)) b1 b2) -> ~ pair_at start i j a) ->
    observed_step p cpu = Ok (n, cpu1) ->
    passes p start i j k t cpu1 cpu' ->
    passes p start i j (S k) (n + t) cpu cpu'.
