(** Generated by tools/gen6502.py from /repo; reviewed by hand. 
    Model of the external crate isa-mos6502 v1.1.0 (Cargo.toml:8-12), whose
    source is not in /repo: mnemonics, addressing modes, the instruction
    variants named in src/cpu/mos6502/operations/mod.rs:337-840, opcode
    bytes, sizes and base cycle counts as exercised by
    src/cpu/mos6502/tests and src/cpu/mos6502/operations/tests. *)
From Verif Require Import Base.

(** [isa_mos6502::mnemonic]: the 56 mnemonics. Named in
    src/cpu/mos6502/operations/mod.rs:7, 337-840. *)
Inductive mnemonic :=
| Adc
| And
| Asl
| Bcc
| Bcs
| Beq
| Bit
| Bmi
| Bne
| Bpl
| Brk
| Bvc
| Bvs
| Clc
| Cld
| Cli
| Clv
| Cmp
| Cpx
| Cpy
| Dec
| Dex
| Dey
| Eor
| Inc
| Inx
| Iny
| Jmp
| Jsr
| Lda
| Ldx
| Ldy
| Lsr
| Nop
| Ora
| Pha
| Php
| Pla
| Plp
| Rol
| Ror
| Rti
| Rts
| Sbc
| Sec
| Sed
| Sei
| Sta
| Stx
| Sty
| Tax
| Tay
| Tsx
| Txa
| Txs
| Tya.

(** [isa_mos6502::addressing_mode]: the 13 addressing modes. Named in
    src/cpu/mos6502/operations/mod.rs:7, 337-840. *)
Inductive addressing_mode :=
| Absolute
| AbsoluteIndexedWithX
| AbsoluteIndexedWithY
| Accumulator
| Immediate
| Implied
| Indirect
| IndirectYIndexed
| Relative
| XIndexedIndirect
| ZeroPage
| ZeroPageIndexedWithX
| ZeroPageIndexedWithY.

(** Operand byte counts ([ByteSized::byte_size] of the mode; mnemonics count
    1), added up in operations/mod.rs:854-863. *)
Definition inst_offset (m : addressing_mode) : Z :=
  match m with
  | Absolute => 3
  | AbsoluteIndexedWithX => 3
  | AbsoluteIndexedWithY => 3
  | Accumulator => 1
  | Immediate => 2
  | Implied => 1
  | Indirect => 3
  | IndirectYIndexed => 2
  | Relative => 2
  | XIndexedIndirect => 2
  | ZeroPage => 2
  | ZeroPageIndexedWithX => 2
  | ZeroPageIndexedWithY => 2
  end.

(** [CycleCost::cycles] (operations/mod.rs:865-874). Pairs that are not
    instructions get 0; no generated body mentions them. *)
Definition inst_cycles (mn : mnemonic) (m : addressing_mode) : nat :=
  match mn, m with
  | Adc, Absolute => 4
  | Adc, AbsoluteIndexedWithX => 4
  | Adc, AbsoluteIndexedWithY => 4
  | Adc, Immediate => 2
  | Adc, IndirectYIndexed => 5
  | Adc, XIndexedIndirect => 6
  | Adc, ZeroPage => 3
  | Adc, ZeroPageIndexedWithX => 4
  | And, Absolute => 4
  | And, AbsoluteIndexedWithX => 4
  | And, AbsoluteIndexedWithY => 4
  | And, Immediate => 2
  | And, IndirectYIndexed => 5
  | And, XIndexedIndirect => 6
  | And, ZeroPage => 3
  | And, ZeroPageIndexedWithX => 4
  | Asl, Absolute => 6
  | Asl, AbsoluteIndexedWithX => 7
  | Asl, Accumulator => 2
  | Asl, ZeroPage => 5
  | Asl, ZeroPageIndexedWithX => 6
  | Bcc, Relative => 2
  | Bcs, Relative => 2
  | Beq, Relative => 2
  | Bit, Absolute => 4
  | Bit, ZeroPage => 3
  | Bmi, Relative => 2
  | Bne, Relative => 2
  | Bpl, Relative => 2
  | Brk, Implied => 7
  | Bvc, Relative => 2
  | Bvs, Relative => 2
  | Clc, Implied => 2
  | Cld, Implied => 2
  | Cli, Implied => 2
  | Clv, Implied => 2
  | Cmp, Absolute => 4
  | Cmp, AbsoluteIndexedWithX => 4
  | Cmp, AbsoluteIndexedWithY => 4
  | Cmp, Immediate => 2
  | Cmp, IndirectYIndexed => 5
  | Cmp, XIndexedIndirect => 6
  | Cmp, ZeroPage => 3
  | Cmp, ZeroPageIndexedWithX => 4
  | Cpx, Absolute => 4
  | Cpx, Immediate => 2
  | Cpx, ZeroPage => 3
  | Cpy, Absolute => 4
  | Cpy, Immediate => 2
  | Cpy, ZeroPage => 3
  | Dec, Absolute => 6
  | Dec, AbsoluteIndexedWithX => 7
  | Dec, ZeroPage => 5
  | Dec, ZeroPageIndexedWithX => 6
  | Dex, Implied => 2
  | Dey, Implied => 2
  | Eor, Absolute => 4
  | Eor, AbsoluteIndexedWithX => 4
  | Eor, AbsoluteIndexedWithY => 4
  | Eor, Immediate => 2
  | Eor, IndirectYIndexed => 5
  | Eor, XIndexedIndirect => 6
  | Eor, ZeroPage => 3
  | Eor, ZeroPageIndexedWithX => 4
  | Inc, Absolute => 6
  | Inc, AbsoluteIndexedWithX => 7
  | Inc, ZeroPage => 5
  | Inc, ZeroPageIndexedWithX => 6
  | Inx, Implied => 2
  | Iny, Implied => 2
  | Jmp, Absolute => 3
  | Jmp, Indirect => 5
  | Jsr, Absolute => 6
  | Lda, Absolute => 4
  | Lda, AbsoluteIndexedWithX => 4
  | Lda, AbsoluteIndexedWithY => 4
  | Lda, Immediate => 2
  | Lda, IndirectYIndexed => 5
  | Lda, XIndexedIndirect => 6
  | Lda, ZeroPage => 3
  | Lda, ZeroPageIndexedWithX => 4
  | Ldx, Absolute => 4
  | Ldx, AbsoluteIndexedWithY => 4
  | Ldx, Immediate => 2
  | Ldx, ZeroPage => 3
  | Ldx, ZeroPageIndexedWithY => 4
  | Ldy, Absolute => 4
  | Ldy, AbsoluteIndexedWithX => 4
  | Ldy, Immediate => 2
  | Ldy, ZeroPage => 3
  | Ldy, ZeroPageIndexedWithX => 4
  | Lsr, Absolute => 6
  | Lsr, AbsoluteIndexedWithX => 7
  | Lsr, Accumulator => 2
  | Lsr, ZeroPage => 5
  | Lsr, ZeroPageIndexedWithX => 6
  | Nop, Implied => 2
  | Ora, Absolute => 4
  | Ora, AbsoluteIndexedWithX => 4
  | Ora, AbsoluteIndexedWithY => 4
  | Ora, Immediate => 2
  | Ora, IndirectYIndexed => 5
  | Ora, XIndexedIndirect => 6
  | Ora, ZeroPage => 3
  | Ora, ZeroPageIndexedWithX => 4
  | Pha, Implied => 3
  | Php, Implied => 3
  | Pla, Implied => 4
  | Plp, Implied => 4
  | Rol, Absolute => 6
  | Rol, AbsoluteIndexedWithX => 7
  | Rol, Accumulator => 2
  | Rol, ZeroPage => 5
  | Rol, ZeroPageIndexedWithX => 6
  | Ror, Absolute => 6
  | Ror, AbsoluteIndexedWithX => 7
  | Ror, Accumulator => 2
  | Ror, ZeroPage => 5
  | Ror, ZeroPageIndexedWithX => 6
  | Rti, Implied => 6
  | Rts, Implied => 6
  | Sbc, Absolute => 4
  | Sbc, AbsoluteIndexedWithX => 4
  | Sbc, AbsoluteIndexedWithY => 4
  | Sbc, Immediate => 2
  | Sbc, IndirectYIndexed => 5
  | Sbc, XIndexedIndirect => 6
  | Sbc, ZeroPage => 3
  | Sbc, ZeroPageIndexedWithX => 4
  | Sec, Implied => 2
  | Sed, Implied => 2
  | Sei, Implied => 2
  | Sta, Absolute => 4
  | Sta, AbsoluteIndexedWithX => 5
  | Sta, AbsoluteIndexedWithY => 5
  | Sta, IndirectYIndexed => 6
  | Sta, XIndexedIndirect => 6
  | Sta, ZeroPage => 3
  | Sta, ZeroPageIndexedWithX => 4
  | Stx, Absolute => 4
  | Stx, ZeroPage => 3
  | Stx, ZeroPageIndexedWithY => 4
  | Sty, Absolute => 4
  | Sty, ZeroPage => 3
  | Sty, ZeroPageIndexedWithX => 4
  | Tax, Implied => 2
  | Tay, Implied => 2
  | Tsx, Implied => 2
  | Txa, Implied => 2
  | Txs, Implied => 2
  | Tya, Implied => 2
  | _, _ => 0
  end%nat.

(** [isa_mos6502::InstructionVariant]: the 151 variants of
    operations/mod.rs:337-840, with their operand where they have one. *)
Inductive instruction_variant :=
| AdcAbsolute (operand : Z)
| AdcAbsoluteIndexedWithX (operand : Z)
| AdcAbsoluteIndexedWithY (operand : Z)
| AdcImmediate (operand : Z)
| AdcIndirectYIndexed (operand : Z)
| AdcXIndexedIndirect (operand : Z)
| AdcZeroPage (operand : Z)
| AdcZeroPageIndexedWithX (operand : Z)
| AndAbsolute (operand : Z)
| AndAbsoluteIndexedWithX (operand : Z)
| AndAbsoluteIndexedWithY (operand : Z)
| AndImmediate (operand : Z)
| AndIndirectYIndexed (operand : Z)
| AndXIndexedIndirect (operand : Z)
| AndZeroPage (operand : Z)
| AndZeroPageIndexedWithX (operand : Z)
| AslAbsolute (operand : Z)
| AslAbsoluteIndexedWithX (operand : Z)
| AslAccumulator
| AslZeroPage (operand : Z)
| AslZeroPageIndexedWithX (operand : Z)
| BccRelative (operand : Z)
| BcsRelative (operand : Z)
| BeqRelative (operand : Z)
| BitAbsolute (operand : Z)
| BitZeroPage (operand : Z)
| BmiRelative (operand : Z)
| BneRelative (operand : Z)
| BplRelative (operand : Z)
| BrkImplied
| BvcRelative (operand : Z)
| BvsRelative (operand : Z)
| ClcImplied
| CldImplied
| CliImplied
| ClvImplied
| CmpAbsolute (operand : Z)
| CmpAbsoluteIndexedWithX (operand : Z)
| CmpAbsoluteIndexedWithY (operand : Z)
| CmpImmediate (operand : Z)
| CmpIndirectYIndexed (operand : Z)
| CmpXIndexedIndirect (operand : Z)
| CmpZeroPage (operand : Z)
| CmpZeroPageIndexedWithX (operand : Z)
| CpxAbsolute (operand : Z)
| CpxImmediate (operand : Z)
| CpxZeroPage (operand : Z)
| CpyAbsolute (operand : Z)
| CpyImmediate (operand : Z)
| CpyZeroPage (operand : Z)
| DecAbsolute (operand : Z)
| DecAbsoluteIndexedWithX (operand : Z)
| DecZeroPage (operand : Z)
| DecZeroPageIndexedWithX (operand : Z)
| DexImplied
| DeyImplied
| EorAbsolute (operand : Z)
| EorAbsoluteIndexedWithX (operand : Z)
| EorAbsoluteIndexedWithY (operand : Z)
| EorImmediate (operand : Z)
| EorIndirectYIndexed (operand : Z)
| EorXIndexedIndirect (operand : Z)
| EorZeroPage (operand : Z)
| EorZeroPageIndexedWithX (operand : Z)
| IncAbsolute (operand : Z)
| IncAbsoluteIndexedWithX (operand : Z)
| IncZeroPage (operand : Z)
| IncZeroPageIndexedWithX (operand : Z)
| InxImplied
| InyImplied
| JmpAbsolute (operand : Z)
| JmpIndirect (operand : Z)
| JsrAbsolute (operand : Z)
| LdaAbsolute (operand : Z)
| LdaAbsoluteIndexedWithX (operand : Z)
| LdaAbsoluteIndexedWithY (operand : Z)
| LdaImmediate (operand : Z)
| LdaIndirectYIndexed (operand : Z)
| LdaXIndexedIndirect (operand : Z)
| LdaZeroPage (operand : Z)
| LdaZeroPageIndexedWithX (operand : Z)
| LdxAbsolute (operand : Z)
| LdxAbsoluteIndexedWithY (operand : Z)
| LdxImmediate (operand : Z)
| LdxZeroPage (operand : Z)
| LdxZeroPageIndexedWithY (operand : Z)
| LdyAbsolute (operand : Z)
| LdyAbsoluteIndexedWithX (operand : Z)
| LdyImmediate (operand : Z)
| LdyZeroPage (operand : Z)
| LdyZeroPageIndexedWithX (operand : Z)
| LsrAbsolute (operand : Z)
| LsrAbsoluteIndexedWithX (operand : Z)
| LsrAccumulator
| LsrZeroPage (operand : Z)
| LsrZeroPageIndexedWithX (operand : Z)
| NopImplied
| OraAbsolute (operand : Z)
| OraAbsoluteIndexedWithX (operand : Z)
| OraAbsoluteIndexedWithY (operand : Z)
| OraImmediate (operand : Z)
| OraIndirectYIndexed (operand : Z)
| OraXIndexedIndirect (operand : Z)
| OraZeroPage (operand : Z)
| OraZeroPageIndexedWithX (operand : Z)
| PhaImplied
| PhpImplied
| PlaImplied
| PlpImplied
| RolAbsolute (operand : Z)
| RolAbsoluteIndexedWithX (operand : Z)
| RolAccumulator
| RolZeroPage (operand : Z)
| RolZeroPageIndexedWithX (operand : Z)
| RorAbsolute (operand : Z)
| RorAbsoluteIndexedWithX (operand : Z)
| RorAccumulator
| RorZeroPage (operand : Z)
| RorZeroPageIndexedWithX (operand : Z)
| RtiImplied
| RtsImplied
| SbcAbsolute (operand : Z)
| SbcAbsoluteIndexedWithX (operand : Z)
| SbcAbsoluteIndexedWithY (operand : Z)
| SbcImmediate (operand : Z)
| SbcIndirectYIndexed (operand : Z)
| SbcXIndexedIndirect (operand : Z)
| SbcZeroPage (operand : Z)
| SbcZeroPageIndexedWithX (operand : Z)
| SecImplied
| SedImplied
| SeiImplied
| StaAbsolute (operand : Z)
| StaAbsoluteIndexedWithX (operand : Z)
| StaAbsoluteIndexedWithY (operand : Z)
| StaIndirectYIndexed (operand : Z)
| StaXIndexedIndirect (operand : Z)
| StaZeroPage (operand : Z)
| StaZeroPageIndexedWithX (operand : Z)
| StxAbsolute (operand : Z)
| StxZeroPage (operand : Z)
| StxZeroPageIndexedWithY (operand : Z)
| StyAbsolute (operand : Z)
| StyZeroPage (operand : Z)
| StyZeroPageIndexedWithX (operand : Z)
| TaxImplied
| TayImplied
| TsxImplied
| TxaImplied
| TxsImplied
| TyaImplied.

(** [isa_mos6502::parse_instruction] on the three fetched bytes
    (src/cpu/mos6502/mod.rs:266-268). *)
Definition parse_instruction (b0 b1 b2 : Z) : option instruction_variant :=
  match b0 with
  | 0x00 => Some BrkImplied
  | 0x01 => Some (OraXIndexedIndirect b1)
  | 0x05 => Some (OraZeroPage b1)
  | 0x06 => Some (AslZeroPage b1)
  | 0x08 => Some PhpImplied
  | 0x09 => Some (OraImmediate b1)
  | 0x0a => Some AslAccumulator
  | 0x0d => Some (OraAbsolute (u16_from_le_bytes b1 b2))
  | 0x0e => Some (AslAbsolute (u16_from_le_bytes b1 b2))
  | 0x10 => Some (BplRelative (u8_as_i8 b1))
  | 0x11 => Some (OraIndirectYIndexed b1)
  | 0x15 => Some (OraZeroPageIndexedWithX b1)
  | 0x16 => Some (AslZeroPageIndexedWithX b1)
  | 0x18 => Some ClcImplied
  | 0x19 => Some (OraAbsoluteIndexedWithY (u16_from_le_bytes b1 b2))
  | 0x1d => Some (OraAbsoluteIndexedWithX (u16_from_le_bytes b1 b2))
  | 0x1e => Some (AslAbsoluteIndexedWithX (u16_from_le_bytes b1 b2))
  | 0x20 => Some (JsrAbsolute (u16_from_le_bytes b1 b2))
  | 0x21 => Some (AndXIndexedIndirect b1)
  | 0x24 => Some (BitZeroPage b1)
  | 0x25 => Some (AndZeroPage b1)
  | 0x26 => Some (RolZeroPage b1)
  | 0x28 => Some PlpImplied
  | 0x29 => Some (AndImmediate b1)
  | 0x2a => Some RolAccumulator
  | 0x2c => Some (BitAbsolute (u16_from_le_bytes b1 b2))
  | 0x2d => Some (AndAbsolute (u16_from_le_bytes b1 b2))
  | 0x2e => Some (RolAbsolute (u16_from_le_bytes b1 b2))
  | 0x30 => Some (BmiRelative (u8_as_i8 b1))
  | 0x31 => Some (AndIndirectYIndexed b1)
  | 0x35 => Some (AndZeroPageIndexedWithX b1)
  | 0x36 => Some (RolZeroPageIndexedWithX b1)
  | 0x38 => Some SecImplied
  | 0x39 => Some (AndAbsoluteIndexedWithY (u16_from_le_bytes b1 b2))
  | 0x3d => Some (AndAbsoluteIndexedWithX (u16_from_le_bytes b1 b2))
  | 0x3e => Some (RolAbsoluteIndexedWithX (u16_from_le_bytes b1 b2))
  | 0x40 => Some RtiImplied
  | 0x41 => Some (EorXIndexedIndirect b1)
  | 0x45 => Some (EorZeroPage b1)
  | 0x46 => Some (LsrZeroPage b1)
  | 0x48 => Some PhaImplied
  | 0x49 => Some (EorImmediate b1)
  | 0x4a => Some LsrAccumulator
  | 0x4c => Some (JmpAbsolute (u16_from_le_bytes b1 b2))
  | 0x4d => Some (EorAbsolute (u16_from_le_bytes b1 b2))
  | 0x4e => Some (LsrAbsolute (u16_from_le_bytes b1 b2))
  | 0x50 => Some (BvcRelative (u8_as_i8 b1))
  | 0x51 => Some (EorIndirectYIndexed b1)
  | 0x55 => Some (EorZeroPageIndexedWithX b1)
  | 0x56 => Some (LsrZeroPageIndexedWithX b1)
  | 0x58 => Some CliImplied
  | 0x59 => Some (EorAbsoluteIndexedWithY (u16_from_le_bytes b1 b2))
  | 0x5d => Some (EorAbsoluteIndexedWithX (u16_from_le_bytes b1 b2))
  | 0x5e => Some (LsrAbsoluteIndexedWithX (u16_from_le_bytes b1 b2))
  | 0x60 => Some RtsImplied
  | 0x61 => Some (AdcXIndexedIndirect b1)
  | 0x65 => Some (AdcZeroPage b1)
  | 0x66 => Some (RorZeroPage b1)
  | 0x68 => Some PlaImplied
  | 0x69 => Some (AdcImmediate b1)
  | 0x6a => Some RorAccumulator
  | 0x6c => Some (JmpIndirect (u16_from_le_bytes b1 b2))
  | 0x6d => Some (AdcAbsolute (u16_from_le_bytes b1 b2))
  | 0x6e => Some (RorAbsolute (u16_from_le_bytes b1 b2))
  | 0x70 => Some (BvsRelative (u8_as_i8 b1))
  | 0x71 => Some (AdcIndirectYIndexed b1)
  | 0x75 => Some (AdcZeroPageIndexedWithX b1)
  | 0x76 => Some (RorZeroPageIndexedWithX b1)
  | 0x78 => Some SeiImplied
  | 0x79 => Some (AdcAbsoluteIndexedWithY (u16_from_le_bytes b1 b2))
  | 0x7d => Some (AdcAbsoluteIndexedWithX (u16_from_le_bytes b1 b2))
  | 0x7e => Some (RorAbsoluteIndexedWithX (u16_from_le_bytes b1 b2))
  | 0x81 => Some (StaXIndexedIndirect b1)
  | 0x84 => Some (StyZeroPage b1)
  | 0x85 => Some (StaZeroPage b1)
  | 0x86 => Some (StxZeroPage b1)
  | 0x88 => Some DeyImplied
  | 0x8a => Some TxaImplied
  | 0x8c => Some (StyAbsolute (u16_from_le_bytes b1 b2))
  | 0x8d => Some (StaAbsolute (u16_from_le_bytes b1 b2))
  | 0x8e => Some (StxAbsolute (u16_from_le_bytes b1 b2))
  | 0x90 => Some (BccRelative (u8_as_i8 b1))
  | 0x91 => Some (StaIndirectYIndexed b1)
  | 0x94 => Some (StyZeroPageIndexedWithX b1)
  | 0x95 => Some (StaZeroPageIndexedWithX b1)
  | 0x96 => Some (StxZeroPageIndexedWithY b1)
  | 0x98 => Some TyaImplied
  | 0x99 => Some (StaAbsoluteIndexedWithY (u16_from_le_bytes b1 b2))
  | 0x9a => Some TxsImplied
  | 0x9d => Some (StaAbsoluteIndexedWithX (u16_from_le_bytes b1 b2))
  | 0xa0 => Some (LdyImmediate b1)
  | 0xa1 => Some (LdaXIndexedIndirect b1)
  | 0xa2 => Some (LdxImmediate b1)
  | 0xa4 => Some (LdyZeroPage b1)
  | 0xa5 => Some (LdaZeroPage b1)
  | 0xa6 => Some (LdxZeroPage b1)
  | 0xa8 => Some TayImplied
  | 0xa9 => Some (LdaImmediate b1)
  | 0xaa => Some TaxImplied
  | 0xac => Some (LdyAbsolute (u16_from_le_bytes b1 b2))
  | 0xad => Some (LdaAbsolute (u16_from_le_bytes b1 b2))
  | 0xae => Some (LdxAbsolute (u16_from_le_bytes b1 b2))
  | 0xb0 => Some (BcsRelative (u8_as_i8 b1))
  | 0xb1 => Some (LdaIndirectYIndexed b1)
  | 0xb4 => Some (LdyZeroPageIndexedWithX b1)
  | 0xb5 => Some (LdaZeroPageIndexedWithX b1)
  | 0xb6 => Some (LdxZeroPageIndexedWithY b1)
  | 0xb8 => Some ClvImplied
  | 0xb9 => Some (LdaAbsoluteIndexedWithY (u16_from_le_bytes b1 b2))
  | 0xba => Some TsxImplied
  | 0xbc => Some (LdyAbsoluteIndexedWithX (u16_from_le_bytes b1 b2))
  | 0xbd => Some (LdaAbsoluteIndexedWithX (u16_from_le_bytes b1 b2))
  | 0xbe => Some (LdxAbsoluteIndexedWithY (u16_from_le_bytes b1 b2))
  | 0xc0 => Some (CpyImmediate b1)
  | 0xc1 => Some (CmpXIndexedIndirect b1)
  | 0xc4 => Some (CpyZeroPage b1)
  | 0xc5 => Some (CmpZeroPage b1)
  | 0xc6 => Some (DecZeroPage b1)
  | 0xc8 => Some InyImplied
  | 0xc9 => Some (CmpImmediate b1)
  | 0xca => Some DexImplied
  | 0xcc => Some (CpyAbsolute (u16_from_le_bytes b1 b2))
  | 0xcd => Some (CmpAbsolute (u16_from_le_bytes b1 b2))
  | 0xce => Some (DecAbsolute (u16_from_le_bytes b1 b2))
  | 0xd0 => Some (BneRelative (u8_as_i8 b1))
  | 0xd1 => Some (CmpIndirectYIndexed b1)
  | 0xd5 => Some (CmpZeroPageIndexedWithX b1)
  | 0xd6 => Some (DecZeroPageIndexedWithX b1)
  | 0xd8 => Some CldImplied
  | 0xd9 => Some (CmpAbsoluteIndexedWithY (u16_from_le_bytes b1 b2))
  | 0xdd => Some (CmpAbsoluteIndexedWithX (u16_from_le_bytes b1 b2))
  | 0xde => Some (DecAbsoluteIndexedWithX (u16_from_le_bytes b1 b2))
  | 0xe0 => Some (CpxImmediate b1)
  | 0xe1 => Some (SbcXIndexedIndirect b1)
  | 0xe4 => Some (CpxZeroPage b1)
  | 0xe5 => Some (SbcZeroPage b1)
  | 0xe6 => Some (IncZeroPage b1)
  | 0xe8 => Some InxImplied
  | 0xe9 => Some (SbcImmediate b1)
  | 0xea => Some NopImplied
  | 0xec => Some (CpxAbsolute (u16_from_le_bytes b1 b2))
  | 0xed => Some (SbcAbsolute (u16_from_le_bytes b1 b2))
  | 0xee => Some (IncAbsolute (u16_from_le_bytes b1 b2))
  | 0xf0 => Some (BeqRelative (u8_as_i8 b1))
  | 0xf1 => Some (SbcIndirectYIndexed b1)
  | 0xf5 => Some (SbcZeroPageIndexedWithX b1)
  | 0xf6 => Some (IncZeroPageIndexedWithX b1)
  | 0xf8 => Some SedImplied
  | 0xf9 => Some (SbcAbsoluteIndexedWithY (u16_from_le_bytes b1 b2))
  | 0xfd => Some (SbcAbsoluteIndexedWithX (u16_from_le_bytes b1 b2))
  | 0xfe => Some (IncAbsoluteIndexedWithX (u16_from_le_bytes b1 b2))
  | _ => None
  end.
