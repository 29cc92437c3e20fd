(** Specification of the 6502 instruction set, written as a data sheet would:
    an opcode table, addressing modes, and the meaning of each of the 56
    mnemonics.  It mentions no function of the model: only the names of
    mnemonics, addressing modes and status flags.

    The specification says what the emulator does.  Every place where that
    differs from a real (NMOS) 6502 is marked DEVIATION; the textbook meaning
    and the exact inputs on which the two differ are the subject of separate
    theorems. *)
From Verif Require Import Base ModelRegs6502 ModelIsa6502.

(** Programmer-visible registers. *)
Record registers := mkRegs {
  rA : Z; rX : Z; rY : Z; rS : Z; rPC : Z; rP : processor_status
}.

(** What one instruction does: new registers, the bytes stored (in order),
    and the number of cycles. *)
Record effect := mkEffect {
  e_regs : registers;
  e_stores : list (Z * Z);
  e_cycles : nat
}.

(** Two bytes as a little-endian word; its low and high byte. *)
Definition word (lo hi : Z) : Z := lo + 256 * hi.
Definition low (w : Z) : Z := w mod 256.
Definition high (w : Z) : Z := w / 256.

(** Byte [n] of page one, the hardware stack. *)
Definition stack (n : Z) : Z := 256 + n mod 256.

(** A byte read as a two's complement number. *)
Definition signed (b : Z) : Z := if b <? 128 then b else b - 256.

(** Status byte layout NV-BDIZC. *)
Definition bit (b : bool) (weight : Z) : Z := if b then weight else 0.
Definition status_byte (s : processor_status) : Z :=
  bit (ps_negative s) 128 + bit (ps_overflow s) 64 + bit (ps_unused s) 32 + bit (ps_brk s) 16
  + bit (ps_decimal s) 8 + bit (ps_interrupt_disable s) 4 + bit (ps_zero s) 2 + bit (ps_carry s) 1.
Definition status_of_byte (b : Z) : processor_status :=
  {| ps_negative := Z.testbit b 7; ps_overflow := Z.testbit b 6; ps_unused := Z.testbit b 5;
     ps_brk := Z.testbit b 4; ps_decimal := Z.testbit b 3; ps_interrupt_disable := Z.testbit b 2;
     ps_zero := Z.testbit b 1; ps_carry := Z.testbit b 0 |}.

(** Register and flag updates. *)
Definition withA r v := mkRegs v (rX r) (rY r) (rS r) (rPC r) (rP r).
Definition withX r v := mkRegs (rA r) v (rY r) (rS r) (rPC r) (rP r).
Definition withY r v := mkRegs (rA r) (rX r) v (rS r) (rPC r) (rP r).
Definition withS r v := mkRegs (rA r) (rX r) (rY r) v (rPC r) (rP r).
Definition withPC r v := mkRegs (rA r) (rX r) (rY r) (rS r) v (rP r).
Definition withP r v := mkRegs (rA r) (rX r) (rY r) (rS r) (rPC r) v.

Definition setN r v := let s := rP r in withP r (mkPs (ps_carry s) (ps_zero s)
  (ps_interrupt_disable s) (ps_decimal s) (ps_brk s) (ps_unused s) (ps_overflow s) v).
Definition setV r v := let s := rP r in withP r (mkPs (ps_carry s) (ps_zero s)
  (ps_interrupt_disable s) (ps_decimal s) (ps_brk s) (ps_unused s) v (ps_negative s)).
Definition setB r v := let s := rP r in withP r (mkPs (ps_carry s) (ps_zero s)
  (ps_interrupt_disable s) (ps_decimal s) v (ps_unused s) (ps_overflow s) (ps_negative s)).
Definition setD r v := let s := rP r in withP r (mkPs (ps_carry s) (ps_zero s)
  (ps_interrupt_disable s) v (ps_brk s) (ps_unused s) (ps_overflow s) (ps_negative s)).
Definition setI r v := let s := rP r in withP r (mkPs (ps_carry s) (ps_zero s)
  v (ps_decimal s) (ps_brk s) (ps_unused s) (ps_overflow s) (ps_negative s)).
Definition setZ r v := let s := rP r in withP r (mkPs (ps_carry s) v
  (ps_interrupt_disable s) (ps_decimal s) (ps_brk s) (ps_unused s) (ps_overflow s) (ps_negative s)).
Definition setC r v := let s := rP r in withP r (mkPs v (ps_zero s)
  (ps_interrupt_disable s) (ps_decimal s) (ps_brk s) (ps_unused s) (ps_overflow s) (ps_negative s)).

(** N and Z reflect a result byte. *)
Definition negative (v : Z) : bool := 128 <=? v.
Definition setNZ r v := setZ (setN r (negative v)) (v =? 0).

(** The opcode table: byte, mnemonic, addressing mode, base cycles. *)
Definition opcode_table : list (Z * (mnemonic * addressing_mode * nat)) :=
  [ (0x69, (Adc, Immediate, 2%nat)); (0x65, (Adc, ZeroPage, 3%nat)); (0x75, (Adc, ZeroPageIndexedWithX, 4%nat));
    (0x6d, (Adc, Absolute, 4%nat)); (0x7d, (Adc, AbsoluteIndexedWithX, 4%nat));
    (0x79, (Adc, AbsoluteIndexedWithY, 4%nat)); (0x61, (Adc, XIndexedIndirect, 6%nat));
    (0x71, (Adc, IndirectYIndexed, 5%nat));
    (0x29, (And, Immediate, 2%nat)); (0x25, (And, ZeroPage, 3%nat)); (0x35, (And, ZeroPageIndexedWithX, 4%nat));
    (0x2d, (And, Absolute, 4%nat)); (0x3d, (And, AbsoluteIndexedWithX, 4%nat));
    (0x39, (And, AbsoluteIndexedWithY, 4%nat)); (0x21, (And, XIndexedIndirect, 6%nat));
    (0x31, (And, IndirectYIndexed, 5%nat));
    (0x0a, (Asl, Accumulator, 2%nat)); (0x06, (Asl, ZeroPage, 5%nat)); (0x16, (Asl, ZeroPageIndexedWithX, 6%nat));
    (0x0e, (Asl, Absolute, 6%nat)); (0x1e, (Asl, AbsoluteIndexedWithX, 7%nat));
    (0x90, (Bcc, Relative, 2%nat)); (0xb0, (Bcs, Relative, 2%nat)); (0xf0, (Beq, Relative, 2%nat));
    (0x24, (Bit, ZeroPage, 3%nat)); (0x2c, (Bit, Absolute, 4%nat));
    (0x30, (Bmi, Relative, 2%nat)); (0xd0, (Bne, Relative, 2%nat)); (0x10, (Bpl, Relative, 2%nat));
    (0x00, (Brk, Implied, 7%nat)); (0x50, (Bvc, Relative, 2%nat)); (0x70, (Bvs, Relative, 2%nat));
    (0x18, (Clc, Implied, 2%nat)); (0xd8, (Cld, Implied, 2%nat)); (0x58, (Cli, Implied, 2%nat));
    (0xb8, (Clv, Implied, 2%nat));
    (0xc9, (Cmp, Immediate, 2%nat)); (0xc5, (Cmp, ZeroPage, 3%nat)); (0xd5, (Cmp, ZeroPageIndexedWithX, 4%nat));
    (0xcd, (Cmp, Absolute, 4%nat)); (0xdd, (Cmp, AbsoluteIndexedWithX, 4%nat));
    (0xd9, (Cmp, AbsoluteIndexedWithY, 4%nat)); (0xc1, (Cmp, XIndexedIndirect, 6%nat));
    (0xd1, (Cmp, IndirectYIndexed, 5%nat));
    (0xe0, (Cpx, Immediate, 2%nat)); (0xe4, (Cpx, ZeroPage, 3%nat)); (0xec, (Cpx, Absolute, 4%nat));
    (0xc0, (Cpy, Immediate, 2%nat)); (0xc4, (Cpy, ZeroPage, 3%nat)); (0xcc, (Cpy, Absolute, 4%nat));
    (0xc6, (Dec, ZeroPage, 5%nat)); (0xd6, (Dec, ZeroPageIndexedWithX, 6%nat)); (0xce, (Dec, Absolute, 6%nat));
    (0xde, (Dec, AbsoluteIndexedWithX, 7%nat)); (0xca, (Dex, Implied, 2%nat)); (0x88, (Dey, Implied, 2%nat));
    (0x49, (Eor, Immediate, 2%nat)); (0x45, (Eor, ZeroPage, 3%nat)); (0x55, (Eor, ZeroPageIndexedWithX, 4%nat));
    (0x4d, (Eor, Absolute, 4%nat)); (0x5d, (Eor, AbsoluteIndexedWithX, 4%nat));
    (0x59, (Eor, AbsoluteIndexedWithY, 4%nat)); (0x41, (Eor, XIndexedIndirect, 6%nat));
    (0x51, (Eor, IndirectYIndexed, 5%nat));
    (0xe6, (Inc, ZeroPage, 5%nat)); (0xf6, (Inc, ZeroPageIndexedWithX, 6%nat)); (0xee, (Inc, Absolute, 6%nat));
    (0xfe, (Inc, AbsoluteIndexedWithX, 7%nat)); (0xe8, (Inx, Implied, 2%nat)); (0xc8, (Iny, Implied, 2%nat));
    (0x4c, (Jmp, Absolute, 3%nat)); (0x6c, (Jmp, Indirect, 5%nat)); (0x20, (Jsr, Absolute, 6%nat));
    (0xa9, (Lda, Immediate, 2%nat)); (0xa5, (Lda, ZeroPage, 3%nat)); (0xb5, (Lda, ZeroPageIndexedWithX, 4%nat));
    (0xad, (Lda, Absolute, 4%nat)); (0xbd, (Lda, AbsoluteIndexedWithX, 4%nat));
    (0xb9, (Lda, AbsoluteIndexedWithY, 4%nat)); (0xa1, (Lda, XIndexedIndirect, 6%nat));
    (0xb1, (Lda, IndirectYIndexed, 5%nat));
    (0xa2, (Ldx, Immediate, 2%nat)); (0xa6, (Ldx, ZeroPage, 3%nat)); (0xb6, (Ldx, ZeroPageIndexedWithY, 4%nat));
    (0xae, (Ldx, Absolute, 4%nat)); (0xbe, (Ldx, AbsoluteIndexedWithY, 4%nat));
    (0xa0, (Ldy, Immediate, 2%nat)); (0xa4, (Ldy, ZeroPage, 3%nat)); (0xb4, (Ldy, ZeroPageIndexedWithX, 4%nat));
    (0xac, (Ldy, Absolute, 4%nat)); (0xbc, (Ldy, AbsoluteIndexedWithX, 4%nat));
    (0x4a, (Lsr, Accumulator, 2%nat)); (0x46, (Lsr, ZeroPage, 5%nat)); (0x56, (Lsr, ZeroPageIndexedWithX, 6%nat));
    (0x4e, (Lsr, Absolute, 6%nat)); (0x5e, (Lsr, AbsoluteIndexedWithX, 7%nat)); (0xea, (Nop, Implied, 2%nat));
    (0x09, (Ora, Immediate, 2%nat)); (0x05, (Ora, ZeroPage, 3%nat)); (0x15, (Ora, ZeroPageIndexedWithX, 4%nat));
    (0x0d, (Ora, Absolute, 4%nat)); (0x1d, (Ora, AbsoluteIndexedWithX, 4%nat));
    (0x19, (Ora, AbsoluteIndexedWithY, 4%nat)); (0x01, (Ora, XIndexedIndirect, 6%nat));
    (0x11, (Ora, IndirectYIndexed, 5%nat));
    (0x48, (Pha, Implied, 3%nat)); (0x08, (Php, Implied, 3%nat)); (0x68, (Pla, Implied, 4%nat));
    (0x28, (Plp, Implied, 4%nat));
    (0x2a, (Rol, Accumulator, 2%nat)); (0x26, (Rol, ZeroPage, 5%nat)); (0x36, (Rol, ZeroPageIndexedWithX, 6%nat));
    (0x2e, (Rol, Absolute, 6%nat)); (0x3e, (Rol, AbsoluteIndexedWithX, 7%nat));
    (0x6a, (Ror, Accumulator, 2%nat)); (0x66, (Ror, ZeroPage, 5%nat)); (0x76, (Ror, ZeroPageIndexedWithX, 6%nat));
    (0x6e, (Ror, Absolute, 6%nat)); (0x7e, (Ror, AbsoluteIndexedWithX, 7%nat));
    (0x40, (Rti, Implied, 6%nat)); (0x60, (Rts, Implied, 6%nat));
    (0xe9, (Sbc, Immediate, 2%nat)); (0xe5, (Sbc, ZeroPage, 3%nat)); (0xf5, (Sbc, ZeroPageIndexedWithX, 4%nat));
    (0xed, (Sbc, Absolute, 4%nat)); (0xfd, (Sbc, AbsoluteIndexedWithX, 4%nat));
    (0xf9, (Sbc, AbsoluteIndexedWithY, 4%nat)); (0xe1, (Sbc, XIndexedIndirect, 6%nat));
    (0xf1, (Sbc, IndirectYIndexed, 5%nat));
    (0x38, (Sec, Implied, 2%nat)); (0xf8, (Sed, Implied, 2%nat)); (0x78, (Sei, Implied, 2%nat));
    (0x85, (Sta, ZeroPage, 3%nat)); (0x95, (Sta, ZeroPageIndexedWithX, 4%nat)); (0x8d, (Sta, Absolute, 4%nat));
    (0x9d, (Sta, AbsoluteIndexedWithX, 5%nat)); (0x99, (Sta, AbsoluteIndexedWithY, 5%nat));
    (0x81, (Sta, XIndexedIndirect, 6%nat)); (0x91, (Sta, IndirectYIndexed, 6%nat));
    (0x86, (Stx, ZeroPage, 3%nat)); (0x96, (Stx, ZeroPageIndexedWithY, 4%nat)); (0x8e, (Stx, Absolute, 4%nat));
    (0x84, (Sty, ZeroPage, 3%nat)); (0x94, (Sty, ZeroPageIndexedWithX, 4%nat)); (0x8c, (Sty, Absolute, 4%nat));
    (0xaa, (Tax, Implied, 2%nat)); (0xa8, (Tay, Implied, 2%nat)); (0xba, (Tsx, Implied, 2%nat));
    (0x8a, (Txa, Implied, 2%nat)); (0x9a, (Txs, Implied, 2%nat)); (0x98, (Tya, Implied, 2%nat)) ].

Definition decode (opcode : Z) : option (mnemonic * addressing_mode * nat) :=
  match find (fun row => fst row =? opcode) opcode_table with
  | Some (_, d) => Some d
  | None => None
  end.

(** Instruction length in bytes. *)
Definition length_of (m : addressing_mode) : Z :=
  match m with
  | Implied | Accumulator => 1
  | Immediate | Relative | ZeroPage | ZeroPageIndexedWithX | ZeroPageIndexedWithY
  | XIndexedIndirect | IndirectYIndexed => 2
  | Absolute | AbsoluteIndexedWithX | AbsoluteIndexedWithY | Indirect => 3
  end.

(** Address arithmetic that the program does with unchecked operators: in a
    debug build an overflow is a panic ([None]); in a release build it wraps. *)
Definition unchecked (p : profile) (modulus v : Z) : option Z :=
  if v <? modulus then Some v
  else match p with Debug => None | Release => Some (v mod modulus) end.

(** The operand address of a memory addressing mode. [rd] is memory, [b1] and
    [b2] the bytes after the opcode.
    DEVIATION: in debug builds [(zp,X)] panics when X = 255 and [(zp),Y]
    panics when the sum exceeds 0xffff. *)
Definition operand_address (p : profile) (m : addressing_mode) (r : registers) (rd : Z -> Z)
  (b1 b2 : Z) : option Z :=
  match m with
  | Absolute => Some (word b1 b2)
  | AbsoluteIndexedWithX => Some ((word b1 b2 + rX r) mod 65536)
  | AbsoluteIndexedWithY => Some ((word b1 b2 + rY r) mod 65536)
  | ZeroPage => Some b1
  | ZeroPageIndexedWithX => Some ((b1 + rX r) mod 256)
  | ZeroPageIndexedWithY => Some ((b1 + rY r) mod 256)
  | XIndexedIndirect =>
      match unchecked p 256 (rX r + 1) with
      | None => None
      | Some _ => Some (word (rd ((b1 + rX r) mod 256)) (rd ((b1 + rX r + 1) mod 256)))
      end
  | IndirectYIndexed => unchecked p 65536 (word (rd b1) (rd ((b1 + 1) mod 256)) + rY r)
  | _ => None
  end.

(** The operand value. *)
Definition operand_value (p : profile) (m : addressing_mode) (r : registers) (rd : Z -> Z)
  (b1 b2 : Z) : option Z :=
  match m with
  | Immediate => Some b1
  | Accumulator => Some (rA r)
  | _ => match operand_address p m r rd b1 b2 with Some a => Some (rd a) | None => None end
  end.

(** Extra cycle of an indexed read.
    DEVIATION: for [(zp),Y] a real 6502 charges it when adding Y leaves the
    page of the pointer; the emulator charges it when the operand address is
    outside page zero. *)
Definition read_penalty (m : addressing_mode) (b1 b2 addr : Z) : nat :=
  match m with
  | AbsoluteIndexedWithX | AbsoluteIndexedWithY =>
      if addr / 256 =? word b1 b2 / 256 then 0%nat else 1%nat
  | IndirectYIndexed => if addr / 256 =? 0 then 0%nat else 1%nat
  | _ => 0%nat
  end.

(** ADC. DEVIATION: the incoming carry is not added and the overflow flag is
    not the signed overflow. *)
Definition spec_adc r m :=
  let s := rA r + m in
  let v := s mod 256 in
  let c := ps_carry (rP r) in
  let overflow := (negb (negative (rA r)) && negb (negative m) && c)
                  || (negative (rA r) && negative m && negb c) in
  withA (setNZ (setV (setC r (256 <=? s)) overflow) v) v.

(** SBC. The difference A - M - (1 - C) is right. DEVIATION: carry and overflow
    are those of the addition of the byte (255 - M + C) mod 256. *)
Definition spec_sbc r m :=
  let c := ps_carry (rP r) in
  let m' := (255 - m + (if c then 1 else 0)) mod 256 in
  let v := (rA r - m - (if c then 0 else 1)) mod 256 in
  let overflow := (negb (negative (rA r)) && negb (negative m') && c)
                  || (negative (rA r) && negative m' && negb c) in
  withA (setNZ (setV (setC r (256 <=? rA r + m')) overflow) v) v.

(** Compare [a] with [m]. DEVIATION: the carry is not [a >= m] but orders the
    bytes 1..127 < 0 < 128..255. *)
Definition compare_rank (v : Z) : Z := if v =? 0 then 128 else if v <? 128 then v else v + 1.
Definition spec_compare r a m :=
  setNZ (setC r (compare_rank m <=? compare_rank a)) ((a - m) mod 256).

(** Shifts and rotates of a byte: result and carry out. *)
Definition spec_asl (v : Z) : Z * bool := ((2 * v) mod 256, negative v).
Definition spec_lsr (v : Z) : Z * bool := (v / 2, v mod 2 =? 1).
Definition spec_rol (c : bool) (v : Z) : Z * bool := ((2 * v) mod 256 + bit c 1, negative v).
Definition spec_ror (c : bool) (v : Z) : Z * bool := (v / 2 + bit c 128, v mod 2 =? 1).

(** Continue at the next instruction. *)
Definition advance (m : addressing_mode) r := withPC r ((rPC r + length_of m) mod 65536).

(** Read-class instruction: the operand value goes through [f]. *)
Definition read_op p m r rd b1 b2 (cycles : nat) (f : registers -> Z -> registers) : option effect :=
  match operand_value p m r rd b1 b2 with
  | None => None
  | Some v =>
      let extra := match operand_address p m r rd b1 b2 with
                   | Some a => read_penalty m b1 b2 a
                   | None => 0%nat
                   end in
      Some (mkEffect (advance m (f r v)) [] (cycles + extra))
  end.

(** Store-class instruction. *)
Definition store_op p m r rd b1 b2 (cycles : nat) (v : Z) : option effect :=
  match operand_address p m r rd b1 b2 with
  | None => None
  | Some a => Some (mkEffect (advance m r) [(a, v)] cycles)
  end.

(** Read-modify-write instruction: [f] gives the new value and the changed
    registers (flags). *)
Definition modify_op p m r rd b1 b2 (cycles : nat) (f : registers -> Z -> Z * registers)
  : option effect :=
  match m with
  | Accumulator =>
      let '(v, r') := f r (rA r) in Some (mkEffect (advance m (withA r' v)) [] cycles)
  | _ =>
      match operand_address p m r rd b1 b2 with
      | None => None
      | Some a => let '(v, r') := f r (rd a) in Some (mkEffect (advance m r') [(a, v)] cycles)
      end
  end.

Definition shift_with (f : Z -> Z * bool) r v : Z * registers :=
  let '(v', c) := f v in (v', setNZ (setC r c) v').

Definition implied_op r (cycles : nat) : option effect :=
  Some (mkEffect (advance Implied r) [] cycles).

(** Conditional branch.
    DEVIATION: a real 6502 counts the displacement from the following
    instruction (PC + 2); the emulator counts from the branch itself. *)
Definition branch_op (cond : bool) r b1 (cycles : nat) : option effect :=
  if cond then
    let target := (rPC r + signed b1) mod 65536 in
    Some (mkEffect (withPC r target) []
            (cycles + (if target / 256 =? rPC r / 256 then 1%nat else 2%nat)))
  else Some (mkEffect (advance Relative r) [] cycles).

(** One instruction. [None]: the program panics (debug builds only). *)
Definition execute (p : profile) (mn : mnemonic) (m : addressing_mode) (cycles : nat)
  (r : registers) (rd : Z -> Z) (b1 b2 : Z) : option effect :=
  let read := read_op p m r rd b1 b2 cycles in
  let store := store_op p m r rd b1 b2 cycles in
  let modify := modify_op p m r rd b1 b2 cycles in
  let implied r' := implied_op r' cycles in
  let branch c := branch_op c r b1 cycles in
  match mn with
  | Lda => read (fun r v => withA (setNZ r v) v)
  | Ldx => read (fun r v => withX (setNZ r v) v)
  | Ldy => read (fun r v => withY (setNZ r v) v)
  | Sta => store (rA r)
  | Stx => store (rX r)
  | Sty => store (rY r)
  | Adc => read spec_adc
  | Sbc => read spec_sbc
  | And => read (fun r v => withA (setNZ r (Z.land (rA r) v)) (Z.land (rA r) v))
  | Ora => read (fun r v => withA (setNZ r (Z.lor (rA r) v)) (Z.lor (rA r) v))
  | Eor => read (fun r v => withA (setNZ r (Z.lxor (rA r) v)) (Z.lxor (rA r) v))
  | Bit => read (fun r v => setZ (setV (setN r (Z.testbit v 7)) (Z.testbit v 6)) (Z.land (rA r) v =? 0))
  | Cmp => read (fun r v => spec_compare r (rA r) v)
  | Cpx => read (fun r v => spec_compare r (rX r) v)
  | Cpy => read (fun r v => spec_compare r (rY r) v)
  | Asl => modify (shift_with spec_asl)
  | Lsr => modify (shift_with spec_lsr)
  | Rol => modify (fun r => shift_with (spec_rol (ps_carry (rP r))) r)
  | Ror => modify (fun r => shift_with (spec_ror (ps_carry (rP r))) r)
  | Inc => modify (fun r v => ((v + 1) mod 256, setNZ r ((v + 1) mod 256)))
  | Dec => modify (fun r v => ((v - 1) mod 256, setNZ r ((v - 1) mod 256)))
  | Inx => implied (withX (setNZ r ((rX r + 1) mod 256)) ((rX r + 1) mod 256))
  | Iny => implied (withY (setNZ r ((rY r + 1) mod 256)) ((rY r + 1) mod 256))
  | Dex => implied (withX (setNZ r ((rX r - 1) mod 256)) ((rX r - 1) mod 256))
  (* DEVIATION: the flags of DEY describe X - 1. *)
  | Dey => implied (withY (setNZ r ((rX r - 1) mod 256)) ((rY r - 1) mod 256))
  | Tax => implied (withX (setNZ r (rA r)) (rA r))
  | Tay => implied (withY (setNZ r (rA r)) (rA r))
  | Tsx => implied (withX (setNZ r (rS r)) (rS r))
  | Txa => implied (withA (setNZ r (rX r)) (rX r))
  | Txs => implied (withS r (rX r))
  | Tya => implied (withA (setNZ r (rY r)) (rY r))
  | Clc => implied (setC r false)
  | Cld => implied (setD r false)
  | Cli => implied (setI r false)
  | Clv => implied (setV r false)
  | Sec => implied (setC r true)
  | Sed => implied (setD r true)
  | Sei => implied (setI r true)
  | Nop => implied r
  | Bcc => branch (negb (ps_carry (rP r)))
  | Bcs => branch (ps_carry (rP r))
  | Bne => branch (negb (ps_zero (rP r)))
  | Beq => branch (ps_zero (rP r))
  | Bpl => branch (negb (ps_negative (rP r)))
  | Bmi => branch (ps_negative (rP r))
  | Bvc => branch (negb (ps_overflow (rP r)))
  | Bvs => branch (ps_overflow (rP r))
  | Jmp =>
      match m with
      | Indirect =>
          (* DEVIATION: no page-wrap bug; a pointer at 0xffff panics in debug. *)
          match unchecked p 65536 (word b1 b2 + 1) with
          | None => None
          | Some a => Some (mkEffect (withPC r (word (rd (word b1 b2)) (rd a))) [] cycles)
          end
      | _ => Some (mkEffect (withPC r (word b1 b2)) [] cycles)
      end
  | Jsr =>
      let ret := (rPC r + 2) mod 65536 in
      Some (mkEffect (withPC (withS r ((rS r - 2) mod 256)) (word b1 b2))
              [(stack (rS r), high ret); (stack (rS r - 1), low ret)] cycles)
  | Rts =>
      let ret := word (rd (stack (rS r + 1))) (rd (stack (rS r + 2))) in
      Some (mkEffect (withPC (withS r ((rS r + 2) mod 256)) ((ret + 1) mod 65536)) [] cycles)
  | Pha => Some (mkEffect (advance m (withS r ((rS r - 1) mod 256))) [(stack (rS r), rA r)] cycles)
  | Php => Some (mkEffect (advance m (withS r ((rS r - 1) mod 256)))
                   [(stack (rS r), status_byte (rP r))] cycles)
  | Pla => let v := rd (stack (rS r + 1)) in
           implied (withA (setNZ (withS r ((rS r + 1) mod 256)) v) v)
  | Plp => let v := rd (stack (rS r + 1)) in
           implied (withP (withS r ((rS r + 1) mod 256)) (status_of_byte v))
  | Brk =>
      (* DEVIATION: a real 6502 pushes PC + 2, high byte first, and the status
         byte with B set; the emulator pushes PC + 1, low byte first, and the
         status byte as it was. *)
      let ret := (rPC r + 1) mod 65536 in
      Some (mkEffect
              (withPC (withS (setI (setB r true) true) ((rS r - 3) mod 256))
                 (word (rd 0xfffe) (rd 0xffff)))
              [(stack (rS r), low ret); (stack (rS r - 1), high ret);
               (stack (rS r - 2), status_byte (rP r))] cycles)
  | Rti =>
      (* DEVIATION: a real 6502 continues at the pulled address; the emulator
         one byte after it. *)
      let ret := word (rd (stack (rS r + 2))) (rd (stack (rS r + 3))) in
      Some (mkEffect
              (withPC (withP (withS r ((rS r + 3) mod 256)) (status_of_byte (rd (stack (rS r + 1)))))
                 ((ret + 1) mod 65536)) [] cycles)
  end.

(** Fetch, decode, execute. [None]: panic. *)
Definition step (p : profile) (r : registers) (rd : Z -> Z) : option effect :=
  match unchecked p 65536 (rPC r + 1), unchecked p 65536 (rPC r + 2) with
  | Some a1, Some a2 =>
      match decode (rd (rPC r)) with
      | Some (mn, m, cycles) => execute p mn m cycles r rd (rd a1) (rd a2)
      | None => None
      end
  | _, _ => None
  end.
