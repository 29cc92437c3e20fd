(** Model of src/cpu/mos6502/register.rs and src/cpu/mos6502/microcode.rs. *)
From Verif Require Import Base.

(** src/cpu/mos6502/register.rs:16-18, enum [WordRegisters]. *)
Inductive word_registers := Pc.

(** src/cpu/mos6502/register.rs:22-28, enum [ByteRegisters]. *)
Inductive byte_registers := Acc | X | Y | Ps | Sp.

(** src/cpu/mos6502/register.rs:32-40, enum [ProgramStatusFlags]. *)
Inductive program_status_flags := Negative | Overflow | Break | Decimal | Interrupt | Zero | Carry.

(** src/cpu/mos6502/register.rs:44-48, enum [GpRegister]. *)
Inductive gp_register := GpAcc | GpX | GpY.

(** src/cpu/mos6502/register.rs:50-109, [GeneralPurpose], [ProgramCounter]
    and [StackPointer] are newtypes around [u8], [u16] and [u8]; their
    [read]/[write]/[with_value] are the identity on the inner value, so the
    model stores the value itself. *)
Definition general_purpose_default : Z := 0.
(** src/cpu/mos6502/register.rs:68-71, derived [Default]. *)
Definition program_counter_default : Z := 0.
(** src/cpu/mos6502/register.rs:105-109. *)
Definition stack_pointer_default : Z := 0xff.

(** src/cpu/mos6502/register.rs:113-119 (and the identical
    src/cpu/mos6502/operations/mod.rs:16-22), [bit_is_set]. *)
Definition bit_is_set (value place : Z) : bool :=
  if 7 <? place then false else Z.land (shr_u8 value place) 1 =? 1.

(** src/cpu/mos6502/register.rs:121-131, struct [ProcessorStatus]. *)
Record processor_status := mkPs {
  ps_carry : bool;
  ps_zero : bool;
  ps_interrupt_disable : bool;
  ps_decimal : bool;
  ps_brk : bool;
  ps_unused : bool;
  ps_overflow : bool;
  ps_negative : bool
}.

(** src/cpu/mos6502/register.rs:140-153, [ProcessorStatus::default] (also
    [ProcessorStatus::new], 135-137). *)
Definition ps_default : processor_status :=
  mkPs false false false false false true false false.

(** src/cpu/mos6502/register.rs:164-176, [ProcessorStatus::with_value] (also
    [write], 160-162). *)
Definition ps_with_value (value : Z) : processor_status :=
  {| ps_negative := bit_is_set value 7;
     ps_overflow := bit_is_set value 6;
     ps_unused := bit_is_set value 5;
     ps_brk := bit_is_set value 4;
     ps_decimal := bit_is_set value 3;
     ps_interrupt_disable := bit_is_set value 2;
     ps_zero := bit_is_set value 1;
     ps_carry := bit_is_set value 0 |}.

(** src/cpu/mos6502/register.rs:179-194, [From<ProcessorStatus> for u8]
    (also [read], 156-158). *)
Definition ps_read (src : processor_status) : Z :=
  let ps := 0 in
  let ps := Z.lor ps (shl_u8 (bool_as_u8 (ps_negative src)) 7) in
  let ps := Z.lor ps (shl_u8 (bool_as_u8 (ps_overflow src)) 6) in
  let ps := Z.lor ps (shl_u8 (bool_as_u8 (ps_unused src)) 5) in
  let ps := Z.lor ps (shl_u8 (bool_as_u8 (ps_brk src)) 4) in
  let ps := Z.lor ps (shl_u8 (bool_as_u8 (ps_decimal src)) 3) in
  let ps := Z.lor ps (shl_u8 (bool_as_u8 (ps_interrupt_disable src)) 2) in
  let ps := Z.lor ps (shl_u8 (bool_as_u8 (ps_zero src)) 1) in
  Z.lor ps (bool_as_u8 (ps_carry src)).

(** src/cpu/mos6502/microcode.rs:10-35, enum [Microcode]. The per-variant
    structs of microcode.rs:37-151 only repackage the same arguments. *)
Inductive microcode :=
| WriteMemory (addr value : Z)
| SetProgramStatusFlagState (flag : program_status_flags) (value : bool)
| Write8bitRegister (register : byte_registers) (value : Z)
| Inc8bitRegister (register : byte_registers) (value : Z)
| Dec8bitRegister (register : byte_registers) (value : Z)
| Write16bitRegister (register : word_registers) (value : Z)
| Inc16bitRegister (register : word_registers) (value : Z)
| Dec16bitRegister (register : word_registers) (value : Z).
