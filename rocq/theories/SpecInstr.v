(** Vocabulary for the instruction-level properties C11-C36. *)
From Verif Require Import Base ModelMap ModelRegs6502 ModelCpu6502 ModelIsa6502 ModelRun6502 Link6502.
From Verif Require Import Spec6502.

Section Vocabulary.
Context {D : Type} `{Device D}.
Implicit Type cpu : mos6502 D.

(** [cpu] is about to execute the documented instruction [mn] in addressing
    mode [m] with base cycle count [c] and following bytes [b1], [b2]; its bus
    answers [rd]; registers and bytes have their width. In a debug build the
    three fetched addresses must not pass 0xffff (see C35). *)
Definition about_to p cpu (rd : Z -> Z) (mn : mnemonic) (m : addressing_mode) (c : nat)
  (b1 b2 : Z) : Prop :=
  regs_ok (regs_of cpu) /\ bus_reads p (amap cpu) rd /\ byte_valued rd /\
  (p = Release \/ reg_pc cpu <= 0xfffd) /\
  decode (rd (reg_pc cpu)) = Some (mn, m, c) /\
  b1 = rd ((reg_pc cpu + 1) mod 65536) /\ b2 = rd ((reg_pc cpu + 2) mod 65536).

(** One step succeeds, and takes [cpu] to [cpu']. *)
Definition becomes p cpu cpu' : Prop := exists c, observed_step p cpu = Ok (c, cpu').

(** The operand of the instruction is the byte [v] / lives at address [a]. *)
Definition operand_is p cpu rd m b1 b2 v : Prop :=
  operand_value p m (regs_of cpu) rd b1 b2 = Some v.
Definition operand_at p cpu rd m b1 b2 a : Prop :=
  operand_address p m (regs_of cpu) rd b1 b2 = Some a.

(** The address of the following instruction. *)
Definition following cpu m : Z := (reg_pc cpu + length_of m) mod 65536.
End Vocabulary.

(** Status updates. *)
Definition nz (s : processor_status) (v : Z) : processor_status :=
  mkPs (ps_carry s) (v =? 0) (ps_interrupt_disable s) (ps_decimal s) (ps_brk s) (ps_unused s)
    (ps_overflow s) (128 <=? v).
Definition carry_is (s : processor_status) (c : bool) : processor_status :=
  mkPs c (ps_zero s) (ps_interrupt_disable s) (ps_decimal s) (ps_brk s) (ps_unused s)
    (ps_overflow s) (ps_negative s).
Definition overflow_is (s : processor_status) (v : bool) : processor_status :=
  mkPs (ps_carry s) (ps_zero s) (ps_interrupt_disable s) (ps_decimal s) (ps_brk s) (ps_unused s)
    v (ps_negative s).

(** Instructions that transfer control. *)
Definition transfers_control (mn : mnemonic) : bool :=
  match mn with
  | Bcc | Bcs | Beq | Bmi | Bne | Bpl | Bvc | Bvs | Jmp | Jsr | Rts | Rti | Brk => true
  | _ => false
  end.

(** ** The documented arithmetic (MOS data sheet, binary mode) *)
Definition carry_in (s : processor_status) : Z := if ps_carry s then 1 else 0.

(** A + M + C: result, carry, signed overflow. *)
Definition doc_adc (a m c : Z) : Z * bool * bool :=
  let total := signed a + signed m + c in
  ((a + m + c) mod 256, 255 <? a + m + c, (total <? -128) || (127 <? total)).

(** A - M - (1 - C): result, carry (no borrow), signed overflow. *)
Definition doc_sbc (a m c : Z) : Z * bool * bool :=
  let total := signed a - signed m - (1 - c) in
  ((a - m - (1 - c)) mod 256, m + (1 - c) <=? a, (total <? -128) || (127 <? total)).

(** Documented conditional branch: which flag value takes it. *)
Definition branch_taken (mn : mnemonic) (s : processor_status) : option bool :=
  match mn with
  | Bcc => Some (negb (ps_carry s))
  | Bcs => Some (ps_carry s)
  | Bne => Some (negb (ps_zero s))
  | Beq => Some (ps_zero s)
  | Bpl => Some (negb (ps_negative s))
  | Bmi => Some (ps_negative s)
  | Bvc => Some (negb (ps_overflow s))
  | Bvs => Some (ps_overflow s)
  | _ => None
  end.

(** Documented classes of memory instructions. *)
Definition reads_operand (mn : mnemonic) : bool :=
  match mn with
  | Adc | And | Bit | Cmp | Cpx | Cpy | Eor | Lda | Ldx | Ldy | Ora | Sbc => true
  | _ => false
  end.
Definition stores_operand (mn : mnemonic) : bool :=
  match mn with Sta | Stx | Sty => true | _ => false end.
Definition modifies_operand (mn : mnemonic) : bool :=
  match mn with Asl | Dec | Inc | Lsr | Rol | Ror => true | _ => false end.

(** What the emulator's overflow flag is after adding the bytes [a] and [m]
    with incoming carry [c] (not the signed overflow). *)
Definition emulated_overflow (a m : Z) (c : bool) : bool :=
  if c then (a <? 128) && (m <? 128) else (128 <=? a) && (128 <=? m).

(** Page one byte [k] below the stack pointer [s]. *)
Definition stack_slot (s k : Z) : Z := 0x0100 + (s - k) mod 256.
