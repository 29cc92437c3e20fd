(** Generated by tools/gen6502.py from /repo; reviewed by hand. 
    Model of src/cpu/mos6502/operations/mod.rs:337-840 and 880-4113: the
    microcode generated by each of the 151 instruction variants. Each
    definition cites the impl it translates. *)
From Verif Require Import Base ModelMap ModelRegs6502 ModelCpu6502 ModelOperand ModelIsa6502.

Section Generate.
Context {D : Type} `{Device D}.

(** src/cpu/mos6502/operations/mod.rs:880-902 *)
Definition gen_AdcAbsolute (p : profile) (cpu : mos6502 D) (operand : Z) : res operations :=
  let lhs := (operand_new (reg_acc cpu)) in
  do! rhs <- dereference_address_to_operand p cpu operand 0 ;
  let '(value, overflow) := (twos_complement_add lhs rhs (ps_carry (reg_ps cpu))) in
  Ok (operations_new (inst_offset Absolute) (inst_cycles Adc Absolute)
    [ SetProgramStatusFlagState Carry (op_carry value);
      SetProgramStatusFlagState Negative (op_negative value);
      SetProgramStatusFlagState Overflow overflow;
      SetProgramStatusFlagState Zero (op_zero value);
      Write8bitRegister Acc (operand_unwrap value) ]).

(** src/cpu/mos6502/operations/mod.rs:904-932 *)
Definition gen_AdcAbsoluteIndexedWithX (p : profile) (cpu : mos6502 D) (operand : Z) : res operations :=
  let addr := operand in
  let indexed_addr := (add_index_to_address addr (reg_x cpu)) in
  let lhs := (operand_new (reg_acc cpu)) in
  do! rhs <- dereference_address_to_operand p cpu indexed_addr 0 ;
  let '(value, overflow) := (twos_complement_add lhs rhs (ps_carry (reg_ps cpu))) in
  do! t2 <- page_from_u16 p addr ;
  let addr_in_page := (page_contains t2 indexed_addr) in
  let branch_penalty := (if (negb addr_in_page) then 1 else 0)%nat in
  Ok (operations_new (inst_offset AbsoluteIndexedWithX) ((inst_cycles Adc AbsoluteIndexedWithX) + branch_penalty)%nat
    [ SetProgramStatusFlagState Carry (op_carry value);
      SetProgramStatusFlagState Negative (op_negative value);
      SetProgramStatusFlagState Overflow overflow;
      SetProgramStatusFlagState Zero (op_zero value);
      Write8bitRegister Acc (operand_unwrap value) ]).

(** src/cpu/mos6502/operations/mod.rs:934-962 *)
Definition gen_AdcAbsoluteIndexedWithY (p : profile) (cpu : mos6502 D) (operand : Z) : res operations :=
  let addr := operand in
  let indexed_addr := (add_index_to_address addr (reg_y cpu)) in
  let lhs := (operand_new (reg_acc cpu)) in
  do! rhs <- dereference_address_to_operand p cpu indexed_addr 0 ;
  let '(value, overflow) := (twos_complement_add lhs rhs (ps_carry (reg_ps cpu))) in
  do! t2 <- page_from_u16 p addr ;
  let addr_in_page := (page_contains t2 indexed_addr) in
  let branch_penalty := (if (negb addr_in_page) then 1 else 0)%nat in
  Ok (operations_new (inst_offset AbsoluteIndexedWithY) ((inst_cycles Adc AbsoluteIndexedWithY) + branch_penalty)%nat
    [ SetProgramStatusFlagState Carry (op_carry value);
      SetProgramStatusFlagState Negative (op_negative value);
      SetProgramStatusFlagState Overflow overflow;
      SetProgramStatusFlagState Zero (op_zero value);
      Write8bitRegister Acc (operand_unwrap value) ]).

(** src/cpu/mos6502/operations/mod.rs:964-993 *)
Definition gen_AdcIndirectYIndexed (p : profile) (cpu : mos6502 D) (operand : Z) : res operations :=
  let zpage_base_addr := operand in
  do! indirect_addr <- dereference_indirect_indexed_address p cpu zpage_base_addr (reg_y cpu) ;
  let lhs := (operand_new (reg_acc cpu)) in
  do! t2 <- am_read p (amap cpu) indirect_addr ;
  let rhs := (operand_new t2) in
  let '(value, overflow) := (twos_complement_add lhs rhs (ps_carry (reg_ps cpu))) in
  let addr_in_page := (page_contains (page_from_u8 zpage_base_addr) indirect_addr) in
  let branch_penalty := (if (negb addr_in_page) then 1 else 0)%nat in
  Ok (operations_new (inst_offset IndirectYIndexed) ((inst_cycles Adc IndirectYIndexed) + branch_penalty)%nat
    [ SetProgramStatusFlagState Carry (op_carry value);
      SetProgramStatusFlagState Negative (op_negative value);
      SetProgramStatusFlagState Overflow overflow;
      SetProgramStatusFlagState Zero (op_zero value);
      Write8bitRegister Acc (operand_unwrap value) ]).

(** src/cpu/mos6502/operations/mod.rs:995-1017 *)
Definition gen_AdcImmediate (p : profile) (cpu : mos6502 D) (operand : Z) : res operations :=
  let lhs := (operand_new (reg_acc cpu)) in
  let rhs := (operand_new operand) in
  let '(value, overflow) := (twos_complement_add lhs rhs (ps_carry (reg_ps cpu))) in
  Ok (operations_new (inst_offset Immediate) (inst_cycles Adc Immediate)
    [ SetProgramStatusFlagState Carry (op_carry value);
      SetProgramStatusFlagState Negative (op_negative value);
      SetProgramStatusFlagState Overflow overflow;
      SetProgramStatusFlagState Zero (op_zero value);
      Write8bitRegister Acc (operand_unwrap value) ]).

(** src/cpu/mos6502/operations/mod.rs:1019-1043 *)
Definition gen_AdcXIndexedIndirect (p : profile) (cpu : mos6502 D) (operand : Z) : res operations :=
  do! indirect_addr <- dereference_indexed_indirect_address p cpu operand (reg_x cpu) ;
  let lhs := (operand_new (reg_acc cpu)) in
  do! t2 <- am_read p (amap cpu) indirect_addr ;
  let rhs := (operand_new t2) in
  let '(value, overflow) := (twos_complement_add lhs rhs (ps_carry (reg_ps cpu))) in
  Ok (operations_new (inst_offset XIndexedIndirect) (inst_cycles Adc XIndexedIndirect)
    [ SetProgramStatusFlagState Carry (op_carry value);
      SetProgramStatusFlagState Negative (op_negative value);
      SetProgramStatusFlagState Overflow overflow;
      SetProgramStatusFlagState Zero (op_zero value);
      Write8bitRegister Acc (operand_unwrap value) ]).

(** src/cpu/mos6502/operations/mod.rs:1045-1068 *)
Definition gen_AdcZeroPage (p : profile) (cpu : mos6502 D) (operand : Z) : res operations :=
  let addr := (add_index_to_zeropage_address operand 0) in
  let lhs := (operand_new (reg_acc cpu)) in
  do! rhs <- dereference_address_to_operand p cpu addr 0 ;
  let '(value, overflow) := (twos_complement_add lhs rhs (ps_carry (reg_ps cpu))) in
  Ok (operations_new (inst_offset ZeroPage) (inst_cycles Adc ZeroPage)
    [ SetProgramStatusFlagState Carry (op_carry value);
      SetProgramStatusFlagState Negative (op_negative value);
      SetProgramStatusFlagState Overflow overflow;
      SetProgramStatusFlagState Zero (op_zero value);
      Write8bitRegister Acc (operand_unwrap value) ]).

(** src/cpu/mos6502/operations/mod.rs:1070-1094 *)
Definition gen_AdcZeroPageIndexedWithX (p : profile) (cpu : mos6502 D) (operand : Z) : res operations :=
  let addr := operand in
  let indexed_addr := (add_index_to_zeropage_address addr (reg_x cpu)) in
  let lhs := (operand_new (reg_acc cpu)) in
  do! rhs <- dereference_address_to_operand p cpu indexed_addr 0 ;
  let '(value, overflow) := (twos_complement_add lhs rhs (ps_carry (reg_ps cpu))) in
  Ok (operations_new (inst_offset ZeroPageIndexedWithX) (inst_cycles Adc ZeroPageIndexedWithX)
    [ SetProgramStatusFlagState Carry (op_carry value);
      SetProgramStatusFlagState Negative (op_negative value);
      SetProgramStatusFlagState Overflow overflow;
      SetProgramStatusFlagState Zero (op_zero value);
      Write8bitRegister Acc (operand_unwrap value) ]).

(** src/cpu/mos6502/operations/mod.rs:1098-1120 *)
Definition gen_SbcAbsolute (p : profile) (cpu : mos6502 D) (operand : Z) : res operations :=
  let lhs := (operand_new (reg_acc cpu)) in
  do! rhs <- dereference_address_to_operand p cpu operand 0 ;
  let '(value, overflow) := (twos_complement_sub lhs rhs (ps_carry (reg_ps cpu))) in
  Ok (operations_new (inst_offset Absolute) (inst_cycles Sbc Absolute)
    [ SetProgramStatusFlagState Carry (op_carry value);
      SetProgramStatusFlagState Negative (op_negative value);
      SetProgramStatusFlagState Overflow overflow;
      SetProgramStatusFlagState Zero (op_zero value);
      Write8bitRegister Acc (operand_unwrap value) ]).

(** src/cpu/mos6502/operations/mod.rs:1122-1150 *)
Definition gen_SbcAbsoluteIndexedWithX (p : profile) (cpu : mos6502 D) (operand : Z) : res operations :=
  let addr := operand in
  let indexed_addr := (add_index_to_address addr (reg_x cpu)) in
  let lhs := (operand_new (reg_acc cpu)) in
  do! rhs <- dereference_address_to_operand p cpu indexed_addr 0 ;
  let '(value, overflow) := (twos_complement_sub lhs rhs (ps_carry (reg_ps cpu))) in
  do! t2 <- page_from_u16 p addr ;
  let addr_in_page := (page_contains t2 indexed_addr) in
  let branch_penalty := (if (negb addr_in_page) then 1 else 0)%nat in
  Ok (operations_new (inst_offset AbsoluteIndexedWithX) ((inst_cycles Sbc AbsoluteIndexedWithX) + branch_penalty)%nat
    [ SetProgramStatusFlagState Carry (op_carry value);
      SetProgramStatusFlagState Negative (op_negative value);
      SetProgramStatusFlagState Overflow overflow;
      SetProgramStatusFlagState Zero (op_zero value);
      Write8bitRegister Acc (operand_unwrap value) ]).

(** src/cpu/mos6502/operations/mod.rs:1152-1180 *)
Definition gen_SbcAbsoluteIndexedWithY (p : profile) (cpu : mos6502 D) (operand : Z) : res operations :=
  let addr := operand in
  let indexed_addr := (add_index_to_address addr (reg_y cpu)) in
  let lhs := (operand_new (reg_acc cpu)) in
  do! rhs <- dereference_address_to_operand p cpu indexed_addr 0 ;
  let '(value, overflow) := (twos_complement_sub lhs rhs (ps_carry (reg_ps cpu))) in
  do! t2 <- page_from_u16 p addr ;
  let addr_in_page := (page_contains t2 indexed_addr) in
  let branch_penalty := (if (negb addr_in_page) then 1 else 0)%nat in
  Ok (operations_new (inst_offset AbsoluteIndexedWithY) ((inst_cycles Sbc AbsoluteIndexedWithY) + branch_penalty)%nat
    [ SetProgramStatusFlagState Carry (op_carry value);
      SetProgramStatusFlagState Negative (op_negative value);
      SetProgramStatusFlagState Overflow overflow;
      SetProgramStatusFlagState Zero (op_zero value);
      Write8bitRegister Acc (operand_unwrap value) ]).

(** src/cpu/mos6502/operations/mod.rs:1182-1211 *)
Definition gen_SbcIndirectYIndexed (p : profile) (cpu : mos6502 D) (operand : Z) : res operations :=
  let zpage_base_addr := operand in
  do! indirect_addr <- dereference_indirect_indexed_address p cpu zpage_base_addr (reg_y cpu) ;
  let lhs := (operand_new (reg_acc cpu)) in
  do! t2 <- am_read p (amap cpu) indirect_addr ;
  let rhs := (operand_new t2) in
  let '(value, overflow) := (twos_complement_sub lhs rhs (ps_carry (reg_ps cpu))) in
  let addr_in_page := (page_contains (page_from_u8 zpage_base_addr) indirect_addr) in
  let branch_penalty := (if (negb addr_in_page) then 1 else 0)%nat in
  Ok (operations_new (inst_offset IndirectYIndexed) ((inst_cycles Sbc IndirectYIndexed) + branch_penalty)%nat
    [ SetProgramStatusFlagState Carry (op_carry value);
      SetProgramStatusFlagState Negative (op_negative value);
      SetProgramStatusFlagState Overflow overflow;
      SetProgramStatusFlagState Zero (op_zero value);
      Write8bitRegister Acc (operand_unwrap value) ]).

(** src/cpu/mos6502/operations/mod.rs:1213-1235 *)
Definition gen_SbcImmediate (p : profile) (cpu : mos6502 D) (operand : Z) : res operations :=
  let lhs := (operand_new (reg_acc cpu)) in
  let rhs := (operand_new operand) in
  let '(value, overflow) := (twos_complement_sub lhs rhs (ps_carry (reg_ps cpu))) in
  Ok (operations_new (inst_offset Immediate) (inst_cycles Sbc Immediate)
    [ SetProgramStatusFlagState Carry (op_carry value);
      SetProgramStatusFlagState Negative (op_negative value);
      SetProgramStatusFlagState Overflow overflow;
      SetProgramStatusFlagState Zero (op_zero value);
      Write8bitRegister Acc (operand_unwrap value) ]).

(** src/cpu/mos6502/operations/mod.rs:1237-1261 *)
Definition gen_SbcXIndexedIndirect (p : profile) (cpu : mos6502 D) (operand : Z) : res operations :=
  do! indirect_addr <- dereference_indexed_indirect_address p cpu operand (reg_x cpu) ;
  let lhs := (operand_new (reg_acc cpu)) in
  do! t2 <- am_read p (amap cpu) indirect_addr ;
  let rhs := (operand_new t2) in
  let '(value, overflow) := (twos_complement_sub lhs rhs (ps_carry (reg_ps cpu))) in
  Ok (operations_new (inst_offset XIndexedIndirect) (inst_cycles Sbc XIndexedIndirect)
    [ SetProgramStatusFlagState Carry (op_carry value);
      SetProgramStatusFlagState Negative (op_negative value);
      SetProgramStatusFlagState Overflow overflow;
      SetProgramStatusFlagState Zero (op_zero value);
      Write8bitRegister Acc (operand_unwrap value) ]).

(** src/cpu/mos6502/operations/mod.rs:1263-1286 *)
Definition gen_SbcZeroPage (p : profile) (cpu : mos6502 D) (operand : Z) : res operations :=
  let addr := (add_index_to_zeropage_address operand 0) in
  let lhs := (operand_new (reg_acc cpu)) in
  do! rhs <- dereference_address_to_operand p cpu addr 0 ;
  let '(value, overflow) := (twos_complement_sub lhs rhs (ps_carry (reg_ps cpu))) in
  Ok (operations_new (inst_offset ZeroPage) (inst_cycles Sbc ZeroPage)
    [ SetProgramStatusFlagState Carry (op_carry value);
      SetProgramStatusFlagState Negative (op_negative value);
      SetProgramStatusFlagState Overflow overflow;
      SetProgramStatusFlagState Zero (op_zero value);
      Write8bitRegister Acc (operand_unwrap value) ]).

(** src/cpu/mos6502/operations/mod.rs:1288-1312 *)
Definition gen_SbcZeroPageIndexedWithX (p : profile) (cpu : mos6502 D) (operand : Z) : res operations :=
  let addr := operand in
  let indexed_addr := (add_index_to_zeropage_address addr (reg_x cpu)) in
  let lhs := (operand_new (reg_acc cpu)) in
  do! rhs <- dereference_address_to_operand p cpu indexed_addr 0 ;
  let '(value, overflow) := (twos_complement_sub lhs rhs (ps_carry (reg_ps cpu))) in
  Ok (operations_new (inst_offset ZeroPageIndexedWithX) (inst_cycles Sbc ZeroPageIndexedWithX)
    [ SetProgramStatusFlagState Carry (op_carry value);
      SetProgramStatusFlagState Negative (op_negative value);
      SetProgramStatusFlagState Overflow overflow;
      SetProgramStatusFlagState Zero (op_zero value);
      Write8bitRegister Acc (operand_unwrap value) ]).

(** src/cpu/mos6502/operations/mod.rs:1318-1336 *)
Definition gen_AndAbsolute (p : profile) (cpu : mos6502 D) (operand : Z) : res operations :=
  let lhs := (operand_new (reg_acc cpu)) in
  do! rhs <- dereference_address_to_operand p cpu operand 0 ;
  let value := (operand_and lhs rhs) in
  Ok (operations_new (inst_offset Absolute) (inst_cycles And Absolute)
    [ SetProgramStatusFlagState Negative (op_negative value);
      SetProgramStatusFlagState Zero (op_zero value);
      Write8bitRegister Acc (operand_unwrap value) ]).

(** src/cpu/mos6502/operations/mod.rs:1338-1363 *)
Definition gen_AndAbsoluteIndexedWithX (p : profile) (cpu : mos6502 D) (operand : Z) : res operations :=
  let index := (reg_x cpu) in
  let addr := operand in
  let indexed_addr := (add_index_to_address addr index) in
  let lhs := (operand_new (reg_acc cpu)) in
  do! rhs <- dereference_address_to_operand p cpu addr index ;
  let value := (operand_and lhs rhs) in
  do! t2 <- page_from_u16 p addr ;
  let addr_in_page := (page_contains t2 indexed_addr) in
  let branch_penalty := (if (negb addr_in_page) then 1 else 0)%nat in
  Ok (operations_new (inst_offset AbsoluteIndexedWithX) ((inst_cycles And AbsoluteIndexedWithX) + branch_penalty)%nat
    [ SetProgramStatusFlagState Negative (op_negative value);
      SetProgramStatusFlagState Zero (op_zero value);
      Write8bitRegister Acc (operand_unwrap value) ]).

(** src/cpu/mos6502/operations/mod.rs:1365-1390 *)
Definition gen_AndAbsoluteIndexedWithY (p : profile) (cpu : mos6502 D) (operand : Z) : res operations :=
  let index := (reg_y cpu) in
  let addr := operand in
  let indexed_addr := (add_index_to_address addr index) in
  let lhs := (operand_new (reg_acc cpu)) in
  do! rhs <- dereference_address_to_operand p cpu addr index ;
  let value := (operand_and lhs rhs) in
  do! t2 <- page_from_u16 p addr ;
  let addr_in_page := (page_contains t2 indexed_addr) in
  let branch_penalty := (if (negb addr_in_page) then 1 else 0)%nat in
  Ok (operations_new (inst_offset AbsoluteIndexedWithY) ((inst_cycles And AbsoluteIndexedWithY) + branch_penalty)%nat
    [ SetProgramStatusFlagState Negative (op_negative value);
      SetProgramStatusFlagState Zero (op_zero value);
      Write8bitRegister Acc (operand_unwrap value) ]).

(** src/cpu/mos6502/operations/mod.rs:1392-1417 *)
Definition gen_AndIndirectYIndexed (p : profile) (cpu : mos6502 D) (operand : Z) : res operations :=
  let zpage_base_addr := operand in
  do! indirect_addr <- dereference_indirect_indexed_address p cpu zpage_base_addr (reg_y cpu) ;
  let lhs := (operand_new (reg_acc cpu)) in
  do! t2 <- am_read p (amap cpu) indirect_addr ;
  let rhs := (operand_new t2) in
  let value := (operand_and lhs rhs) in
  let addr_in_page := (page_contains (page_from_u8 zpage_base_addr) indirect_addr) in
  let branch_penalty := (if (negb addr_in_page) then 1 else 0)%nat in
  Ok (operations_new (inst_offset IndirectYIndexed) ((inst_cycles And IndirectYIndexed) + branch_penalty)%nat
    [ SetProgramStatusFlagState Negative (op_negative value);
      SetProgramStatusFlagState Zero (op_zero value);
      Write8bitRegister Acc (operand_unwrap value) ]).

(** src/cpu/mos6502/operations/mod.rs:1419-1437 *)
Definition gen_AndImmediate (p : profile) (cpu : mos6502 D) (operand : Z) : res operations :=
  let lhs := (operand_new (reg_acc cpu)) in
  let rhs := (operand_new operand) in
  let value := (operand_and lhs rhs) in
  Ok (operations_new (inst_offset Immediate) (inst_cycles And Immediate)
    [ SetProgramStatusFlagState Negative (op_negative value);
      SetProgramStatusFlagState Zero (op_zero value);
      Write8bitRegister Acc (operand_unwrap value) ]).

(** src/cpu/mos6502/operations/mod.rs:1439-1459 *)
Definition gen_AndXIndexedIndirect (p : profile) (cpu : mos6502 D) (operand : Z) : res operations :=
  do! indirect_addr <- dereference_indexed_indirect_address p cpu operand (reg_x cpu) ;
  let lhs := (operand_new (reg_acc cpu)) in
  do! t2 <- am_read p (amap cpu) indirect_addr ;
  let rhs := (operand_new t2) in
  let value := (operand_and lhs rhs) in
  Ok (operations_new (inst_offset XIndexedIndirect) (inst_cycles And XIndexedIndirect)
    [ SetProgramStatusFlagState Negative (op_negative value);
      SetProgramStatusFlagState Zero (op_zero value);
      Write8bitRegister Acc (operand_unwrap value) ]).

(** src/cpu/mos6502/operations/mod.rs:1461-1479 *)
Definition gen_AndZeroPage (p : profile) (cpu : mos6502 D) (operand : Z) : res operations :=
  let lhs := (operand_new (reg_acc cpu)) in
  do! rhs <- dereference_address_to_operand p cpu operand 0 ;
  let value := (operand_and lhs rhs) in
  Ok (operations_new (inst_offset ZeroPage) (inst_cycles And ZeroPage)
    [ SetProgramStatusFlagState Negative (op_negative value);
      SetProgramStatusFlagState Zero (op_zero value);
      Write8bitRegister Acc (operand_unwrap value) ]).

(** src/cpu/mos6502/operations/mod.rs:1481-1501 *)
Definition gen_AndZeroPageIndexedWithX (p : profile) (cpu : mos6502 D) (operand : Z) : res operations :=
  let index := (reg_x cpu) in
  let indexed_addr := (add_index_to_zeropage_address operand index) in
  let lhs := (operand_new (reg_acc cpu)) in
  do! rhs <- dereference_address_to_operand p cpu indexed_addr 0 ;
  let value := (operand_and lhs rhs) in
  Ok (operations_new (inst_offset ZeroPageIndexedWithX) (inst_cycles And ZeroPageIndexedWithX)
    [ SetProgramStatusFlagState Negative (op_negative value);
      SetProgramStatusFlagState Zero (op_zero value);
      Write8bitRegister Acc (operand_unwrap value) ]).

(** src/cpu/mos6502/operations/mod.rs:1505-1523 *)
Definition gen_AslAbsolute (p : profile) (cpu : mos6502 D) (operand : Z) : res operations :=
  let addr := operand in
  do! t1 <- dereference_address_to_operand p cpu addr 0 ;
  let value := (operand_shl t1 (operand_new 1)) in
  Ok (operations_new (inst_offset Absolute) (inst_cycles Asl Absolute)
    [ SetProgramStatusFlagState Carry (op_carry value);
      SetProgramStatusFlagState Negative (op_negative value);
      SetProgramStatusFlagState Zero (op_zero value);
      WriteMemory addr (operand_unwrap value) ]).

(** src/cpu/mos6502/operations/mod.rs:1525-1545 *)
Definition gen_AslAbsoluteIndexedWithX (p : profile) (cpu : mos6502 D) (operand : Z) : res operations :=
  let index := (reg_x cpu) in
  let addr := operand in
  let indexed_addr := (add_index_to_address addr index) in
  do! t1 <- dereference_address_to_operand p cpu addr index ;
  let value := (operand_shl t1 (operand_new 1)) in
  Ok (operations_new (inst_offset AbsoluteIndexedWithX) (inst_cycles Asl AbsoluteIndexedWithX)
    [ SetProgramStatusFlagState Carry (op_carry value);
      SetProgramStatusFlagState Negative (op_negative value);
      SetProgramStatusFlagState Zero (op_zero value);
      WriteMemory indexed_addr (operand_unwrap value) ]).

(** src/cpu/mos6502/operations/mod.rs:1547-1564 *)
Definition gen_AslAccumulator (p : profile) (cpu : mos6502 D) : res operations :=
  let value := (operand_shl (operand_new (reg_acc cpu)) (operand_new 1)) in
  Ok (operations_new (inst_offset Accumulator) (inst_cycles Asl Accumulator)
    [ SetProgramStatusFlagState Carry (op_carry value);
      SetProgramStatusFlagState Negative (op_negative value);
      SetProgramStatusFlagState Zero (op_zero value);
      Write8bitRegister Acc (operand_unwrap value) ]).

(** src/cpu/mos6502/operations/mod.rs:1566-1584 *)
Definition gen_AslZeroPage (p : profile) (cpu : mos6502 D) (operand : Z) : res operations :=
  let addr := operand in
  do! t1 <- dereference_address_to_operand p cpu addr 0 ;
  let value := (operand_shl t1 (operand_new 1)) in
  Ok (operations_new (inst_offset ZeroPage) (inst_cycles Asl ZeroPage)
    [ SetProgramStatusFlagState Carry (op_carry value);
      SetProgramStatusFlagState Negative (op_negative value);
      SetProgramStatusFlagState Zero (op_zero value);
      WriteMemory addr (operand_unwrap value) ]).

(** src/cpu/mos6502/operations/mod.rs:1586-1605 *)
Definition gen_AslZeroPageIndexedWithX (p : profile) (cpu : mos6502 D) (operand : Z) : res operations :=
  let index := (reg_x cpu) in
  let indexed_addr := (add_index_to_zeropage_address operand index) in
  do! t1 <- dereference_address_to_operand p cpu indexed_addr 0 ;
  let value := (operand_shl t1 (operand_new 1)) in
  Ok (operations_new (inst_offset ZeroPageIndexedWithX) (inst_cycles Asl ZeroPageIndexedWithX)
    [ SetProgramStatusFlagState Carry (op_carry value);
      SetProgramStatusFlagState Negative (op_negative value);
      SetProgramStatusFlagState Zero (op_zero value);
      WriteMemory indexed_addr (operand_unwrap value) ]).

(** src/cpu/mos6502/operations/mod.rs:1609-1629 *)
Definition gen_BitAbsolute (p : profile) (cpu : mos6502 D) (operand : Z) : res operations :=
  let lhs := (operand_new (reg_acc cpu)) in
  do! rhs <- dereference_address_to_operand p cpu operand 0 ;
  let negative := (bit_is_set (operand_unwrap rhs) 7) in
  let overflow := (bit_is_set (operand_unwrap rhs) 6) in
  let value := (operand_and lhs rhs) in
  Ok (operations_new (inst_offset Absolute) (inst_cycles Bit Absolute)
    [ SetProgramStatusFlagState Negative negative;
      SetProgramStatusFlagState Overflow overflow;
      SetProgramStatusFlagState Zero (op_zero value) ]).

(** src/cpu/mos6502/operations/mod.rs:1631-1652 *)
Definition gen_BitZeroPage (p : profile) (cpu : mos6502 D) (operand : Z) : res operations :=
  let addr := (add_index_to_zeropage_address operand 0) in
  let lhs := (operand_new (reg_acc cpu)) in
  do! rhs <- dereference_address_to_operand p cpu addr 0 ;
  let negative := (bit_is_set (operand_unwrap rhs) 7) in
  let overflow := (bit_is_set (operand_unwrap rhs) 6) in
  let value := (operand_and lhs rhs) in
  Ok (operations_new (inst_offset ZeroPage) (inst_cycles Bit ZeroPage)
    [ SetProgramStatusFlagState Negative negative;
      SetProgramStatusFlagState Overflow overflow;
      SetProgramStatusFlagState Zero (op_zero value) ]).

(** src/cpu/mos6502/operations/mod.rs:1656-1674 *)
Definition gen_EorAbsolute (p : profile) (cpu : mos6502 D) (operand : Z) : res operations :=
  let lhs := (operand_new (reg_acc cpu)) in
  do! rhs <- dereference_address_to_operand p cpu operand 0 ;
  let value := (operand_xor lhs rhs) in
  Ok (operations_new (inst_offset Absolute) (inst_cycles Eor Absolute)
    [ SetProgramStatusFlagState Negative (op_negative value);
      SetProgramStatusFlagState Zero (op_zero value);
      Write8bitRegister Acc (operand_unwrap value) ]).

(** src/cpu/mos6502/operations/mod.rs:1676-1701 *)
Definition gen_EorAbsoluteIndexedWithX (p : profile) (cpu : mos6502 D) (operand : Z) : res operations :=
  let index := (reg_x cpu) in
  let addr := operand in
  let indexed_addr := (add_index_to_address addr index) in
  let lhs := (operand_new (reg_acc cpu)) in
  do! rhs <- dereference_address_to_operand p cpu addr index ;
  let value := (operand_xor lhs rhs) in
  do! t2 <- page_from_u16 p addr ;
  let addr_in_page := (page_contains t2 indexed_addr) in
  let branch_penalty := (if (negb addr_in_page) then 1 else 0)%nat in
  Ok (operations_new (inst_offset AbsoluteIndexedWithX) ((inst_cycles Eor AbsoluteIndexedWithX) + branch_penalty)%nat
    [ SetProgramStatusFlagState Negative (op_negative value);
      SetProgramStatusFlagState Zero (op_zero value);
      Write8bitRegister Acc (operand_unwrap value) ]).

(** src/cpu/mos6502/operations/mod.rs:1703-1728 *)
Definition gen_EorAbsoluteIndexedWithY (p : profile) (cpu : mos6502 D) (operand : Z) : res operations :=
  let index := (reg_y cpu) in
  let addr := operand in
  let indexed_addr := (add_index_to_address addr index) in
  let lhs := (operand_new (reg_acc cpu)) in
  do! rhs <- dereference_address_to_operand p cpu addr index ;
  let value := (operand_xor lhs rhs) in
  do! t2 <- page_from_u16 p addr ;
  let addr_in_page := (page_contains t2 indexed_addr) in
  let branch_penalty := (if (negb addr_in_page) then 1 else 0)%nat in
  Ok (operations_new (inst_offset AbsoluteIndexedWithY) ((inst_cycles Eor AbsoluteIndexedWithY) + branch_penalty)%nat
    [ SetProgramStatusFlagState Negative (op_negative value);
      SetProgramStatusFlagState Zero (op_zero value);
      Write8bitRegister Acc (operand_unwrap value) ]).

(** src/cpu/mos6502/operations/mod.rs:1730-1755 *)
Definition gen_EorIndirectYIndexed (p : profile) (cpu : mos6502 D) (operand : Z) : res operations :=
  let zpage_base_addr := operand in
  do! indirect_addr <- dereference_indirect_indexed_address p cpu zpage_base_addr (reg_y cpu) ;
  let lhs := (operand_new (reg_acc cpu)) in
  do! t2 <- am_read p (amap cpu) indirect_addr ;
  let rhs := (operand_new t2) in
  let value := (operand_xor lhs rhs) in
  let addr_in_page := (page_contains (page_from_u8 zpage_base_addr) indirect_addr) in
  let branch_penalty := (if (negb addr_in_page) then 1 else 0)%nat in
  Ok (operations_new (inst_offset IndirectYIndexed) ((inst_cycles Eor IndirectYIndexed) + branch_penalty)%nat
    [ SetProgramStatusFlagState Negative (op_negative value);
      SetProgramStatusFlagState Zero (op_zero value);
      Write8bitRegister Acc (operand_unwrap value) ]).

(** src/cpu/mos6502/operations/mod.rs:1757-1775 *)
Definition gen_EorImmediate (p : profile) (cpu : mos6502 D) (operand : Z) : res operations :=
  let lhs := (operand_new (reg_acc cpu)) in
  let rhs := (operand_new operand) in
  let value := (operand_xor lhs rhs) in
  Ok (operations_new (inst_offset Immediate) (inst_cycles Eor Immediate)
    [ SetProgramStatusFlagState Negative (op_negative value);
      SetProgramStatusFlagState Zero (op_zero value);
      Write8bitRegister Acc (operand_unwrap value) ]).

(** src/cpu/mos6502/operations/mod.rs:1777-1797 *)
Definition gen_EorXIndexedIndirect (p : profile) (cpu : mos6502 D) (operand : Z) : res operations :=
  do! indirect_addr <- dereference_indexed_indirect_address p cpu operand (reg_x cpu) ;
  let lhs := (operand_new (reg_acc cpu)) in
  do! t2 <- am_read p (amap cpu) indirect_addr ;
  let rhs := (operand_new t2) in
  let value := (operand_xor lhs rhs) in
  Ok (operations_new (inst_offset XIndexedIndirect) (inst_cycles Eor XIndexedIndirect)
    [ SetProgramStatusFlagState Negative (op_negative value);
      SetProgramStatusFlagState Zero (op_zero value);
      Write8bitRegister Acc (operand_unwrap value) ]).

(** src/cpu/mos6502/operations/mod.rs:1799-1817 *)
Definition gen_EorZeroPage (p : profile) (cpu : mos6502 D) (operand : Z) : res operations :=
  let lhs := (operand_new (reg_acc cpu)) in
  do! rhs <- dereference_address_to_operand p cpu operand 0 ;
  let value := (operand_xor lhs rhs) in
  Ok (operations_new (inst_offset ZeroPage) (inst_cycles Eor ZeroPage)
    [ SetProgramStatusFlagState Negative (op_negative value);
      SetProgramStatusFlagState Zero (op_zero value);
      Write8bitRegister Acc (operand_unwrap value) ]).

(** src/cpu/mos6502/operations/mod.rs:1819-1839 *)
Definition gen_EorZeroPageIndexedWithX (p : profile) (cpu : mos6502 D) (operand : Z) : res operations :=
  let index := (reg_x cpu) in
  let indexed_addr := (add_index_to_zeropage_address operand index) in
  let lhs := (operand_new (reg_acc cpu)) in
  do! rhs <- dereference_address_to_operand p cpu indexed_addr 0 ;
  let value := (operand_xor lhs rhs) in
  Ok (operations_new (inst_offset ZeroPageIndexedWithX) (inst_cycles Eor ZeroPageIndexedWithX)
    [ SetProgramStatusFlagState Negative (op_negative value);
      SetProgramStatusFlagState Zero (op_zero value);
      Write8bitRegister Acc (operand_unwrap value) ]).

(** src/cpu/mos6502/operations/mod.rs:1843-1861 *)
Definition gen_LsrAbsolute (p : profile) (cpu : mos6502 D) (operand : Z) : res operations :=
  let addr := operand in
  do! t1 <- dereference_address_to_operand p cpu addr 0 ;
  let value := (operand_shr t1 (operand_new 1)) in
  Ok (operations_new (inst_offset Absolute) (inst_cycles Lsr Absolute)
    [ SetProgramStatusFlagState Carry (op_carry value);
      SetProgramStatusFlagState Negative (op_negative value);
      SetProgramStatusFlagState Zero (op_zero value);
      WriteMemory addr (operand_unwrap value) ]).

(** src/cpu/mos6502/operations/mod.rs:1863-1883 *)
Definition gen_LsrAbsoluteIndexedWithX (p : profile) (cpu : mos6502 D) (operand : Z) : res operations :=
  let index := (reg_x cpu) in
  let addr := operand in
  let indexed_addr := (add_index_to_address addr index) in
  do! t1 <- dereference_address_to_operand p cpu addr index ;
  let value := (operand_shr t1 (operand_new 1)) in
  Ok (operations_new (inst_offset AbsoluteIndexedWithX) (inst_cycles Lsr AbsoluteIndexedWithX)
    [ SetProgramStatusFlagState Carry (op_carry value);
      SetProgramStatusFlagState Negative (op_negative value);
      SetProgramStatusFlagState Zero (op_zero value);
      WriteMemory indexed_addr (operand_unwrap value) ]).

(** src/cpu/mos6502/operations/mod.rs:1885-1902 *)
Definition gen_LsrAccumulator (p : profile) (cpu : mos6502 D) : res operations :=
  let value := (operand_shr (operand_new (reg_acc cpu)) (operand_new 1)) in
  Ok (operations_new (inst_offset Accumulator) (inst_cycles Lsr Accumulator)
    [ SetProgramStatusFlagState Carry (op_carry value);
      SetProgramStatusFlagState Negative (op_negative value);
      SetProgramStatusFlagState Zero (op_zero value);
      Write8bitRegister Acc (operand_unwrap value) ]).

(** src/cpu/mos6502/operations/mod.rs:1904-1922 *)
Definition gen_LsrZeroPage (p : profile) (cpu : mos6502 D) (operand : Z) : res operations :=
  let addr := operand in
  do! t1 <- dereference_address_to_operand p cpu addr 0 ;
  let value := (operand_shr t1 (operand_new 1)) in
  Ok (operations_new (inst_offset ZeroPage) (inst_cycles Lsr ZeroPage)
    [ SetProgramStatusFlagState Carry (op_carry value);
      SetProgramStatusFlagState Negative (op_negative value);
      SetProgramStatusFlagState Zero (op_zero value);
      WriteMemory addr (operand_unwrap value) ]).

(** src/cpu/mos6502/operations/mod.rs:1924-1943 *)
Definition gen_LsrZeroPageIndexedWithX (p : profile) (cpu : mos6502 D) (operand : Z) : res operations :=
  let index := (reg_x cpu) in
  let indexed_addr := (add_index_to_zeropage_address operand index) in
  do! t1 <- dereference_address_to_operand p cpu indexed_addr 0 ;
  let value := (operand_shr t1 (operand_new 1)) in
  Ok (operations_new (inst_offset ZeroPageIndexedWithX) (inst_cycles Lsr ZeroPageIndexedWithX)
    [ SetProgramStatusFlagState Carry (op_carry value);
      SetProgramStatusFlagState Negative (op_negative value);
      SetProgramStatusFlagState Zero (op_zero value);
      WriteMemory indexed_addr (operand_unwrap value) ]).

(** src/cpu/mos6502/operations/mod.rs:1947-1965 *)
Definition gen_OraAbsolute (p : profile) (cpu : mos6502 D) (operand : Z) : res operations :=
  let lhs := (operand_new (reg_acc cpu)) in
  do! rhs <- dereference_address_to_operand p cpu operand 0 ;
  let value := (operand_or lhs rhs) in
  Ok (operations_new (inst_offset Absolute) (inst_cycles Ora Absolute)
    [ SetProgramStatusFlagState Negative (op_negative value);
      SetProgramStatusFlagState Zero (op_zero value);
      Write8bitRegister Acc (operand_unwrap value) ]).

(** src/cpu/mos6502/operations/mod.rs:1967-1992 *)
Definition gen_OraAbsoluteIndexedWithX (p : profile) (cpu : mos6502 D) (operand : Z) : res operations :=
  let index := (reg_x cpu) in
  let addr := operand in
  let indexed_addr := (add_index_to_address addr index) in
  let lhs := (operand_new (reg_acc cpu)) in
  do! rhs <- dereference_address_to_operand p cpu addr index ;
  let value := (operand_or lhs rhs) in
  do! t2 <- page_from_u16 p addr ;
  let addr_in_page := (page_contains t2 indexed_addr) in
  let branch_penalty := (if (negb addr_in_page) then 1 else 0)%nat in
  Ok (operations_new (inst_offset AbsoluteIndexedWithX) ((inst_cycles Ora AbsoluteIndexedWithX) + branch_penalty)%nat
    [ SetProgramStatusFlagState Negative (op_negative value);
      SetProgramStatusFlagState Zero (op_zero value);
      Write8bitRegister Acc (operand_unwrap value) ]).

(** src/cpu/mos6502/operations/mod.rs:1994-2019 *)
Definition gen_OraAbsoluteIndexedWithY (p : profile) (cpu : mos6502 D) (operand : Z) : res operations :=
  let index := (reg_y cpu) in
  let addr := operand in
  let indexed_addr := (add_index_to_address addr index) in
  let lhs := (operand_new (reg_acc cpu)) in
  do! rhs <- dereference_address_to_operand p cpu addr index ;
  let value := (operand_or lhs rhs) in
  do! t2 <- page_from_u16 p addr ;
  let addr_in_page := (page_contains t2 indexed_addr) in
  let branch_penalty := (if (negb addr_in_page) then 1 else 0)%nat in
  Ok (operations_new (inst_offset AbsoluteIndexedWithY) ((inst_cycles Ora AbsoluteIndexedWithY) + branch_penalty)%nat
    [ SetProgramStatusFlagState Negative (op_negative value);
      SetProgramStatusFlagState Zero (op_zero value);
      Write8bitRegister Acc (operand_unwrap value) ]).

(** src/cpu/mos6502/operations/mod.rs:2021-2046 *)
Definition gen_OraIndirectYIndexed (p : profile) (cpu : mos6502 D) (operand : Z) : res operations :=
  let zpage_base_addr := operand in
  do! indirect_addr <- dereference_indirect_indexed_address p cpu zpage_base_addr (reg_y cpu) ;
  let lhs := (operand_new (reg_acc cpu)) in
  do! t2 <- am_read p (amap cpu) indirect_addr ;
  let rhs := (operand_new t2) in
  let value := (operand_or lhs rhs) in
  let addr_in_page := (page_contains (page_from_u8 zpage_base_addr) indirect_addr) in
  let branch_penalty := (if (negb addr_in_page) then 1 else 0)%nat in
  Ok (operations_new (inst_offset IndirectYIndexed) ((inst_cycles Ora IndirectYIndexed) + branch_penalty)%nat
    [ SetProgramStatusFlagState Negative (op_negative value);
      SetProgramStatusFlagState Zero (op_zero value);
      Write8bitRegister Acc (operand_unwrap value) ]).

(** src/cpu/mos6502/operations/mod.rs:2048-2066 *)
Definition gen_OraImmediate (p : profile) (cpu : mos6502 D) (operand : Z) : res operations :=
  let lhs := (operand_new (reg_acc cpu)) in
  let rhs := (operand_new operand) in
  let value := (operand_or lhs rhs) in
  Ok (operations_new (inst_offset Immediate) (inst_cycles Ora Immediate)
    [ SetProgramStatusFlagState Negative (op_negative value);
      SetProgramStatusFlagState Zero (op_zero value);
      Write8bitRegister Acc (operand_unwrap value) ]).

(** src/cpu/mos6502/operations/mod.rs:2068-2088 *)
Definition gen_OraXIndexedIndirect (p : profile) (cpu : mos6502 D) (operand : Z) : res operations :=
  do! indirect_addr <- dereference_indexed_indirect_address p cpu operand (reg_x cpu) ;
  let lhs := (operand_new (reg_acc cpu)) in
  do! t2 <- am_read p (amap cpu) indirect_addr ;
  let rhs := (operand_new t2) in
  let value := (operand_or lhs rhs) in
  Ok (operations_new (inst_offset XIndexedIndirect) (inst_cycles Ora XIndexedIndirect)
    [ SetProgramStatusFlagState Negative (op_negative value);
      SetProgramStatusFlagState Zero (op_zero value);
      Write8bitRegister Acc (operand_unwrap value) ]).

(** src/cpu/mos6502/operations/mod.rs:2090-2108 *)
Definition gen_OraZeroPage (p : profile) (cpu : mos6502 D) (operand : Z) : res operations :=
  let lhs := (operand_new (reg_acc cpu)) in
  do! rhs <- dereference_address_to_operand p cpu operand 0 ;
  let value := (operand_or lhs rhs) in
  Ok (operations_new (inst_offset ZeroPage) (inst_cycles Ora ZeroPage)
    [ SetProgramStatusFlagState Negative (op_negative value);
      SetProgramStatusFlagState Zero (op_zero value);
      Write8bitRegister Acc (operand_unwrap value) ]).

(** src/cpu/mos6502/operations/mod.rs:2110-2130 *)
Definition gen_OraZeroPageIndexedWithX (p : profile) (cpu : mos6502 D) (operand : Z) : res operations :=
  let index := (reg_x cpu) in
  let indexed_addr := (add_index_to_zeropage_address operand index) in
  let lhs := (operand_new (reg_acc cpu)) in
  do! rhs <- dereference_address_to_operand p cpu indexed_addr 0 ;
  let value := (operand_or lhs rhs) in
  Ok (operations_new (inst_offset ZeroPageIndexedWithX) (inst_cycles Ora ZeroPageIndexedWithX)
    [ SetProgramStatusFlagState Negative (op_negative value);
      SetProgramStatusFlagState Zero (op_zero value);
      Write8bitRegister Acc (operand_unwrap value) ]).

(** src/cpu/mos6502/operations/mod.rs:2134-2153 *)
Definition gen_RolAbsolute (p : profile) (cpu : mos6502 D) (operand : Z) : res operations :=
  let addr := operand in
  do! lhs <- dereference_address_to_operand p cpu addr 0 ;
  let value := (operand_rol lhs (operand_new 1) (ps_carry (reg_ps cpu))) in
  Ok (operations_new (inst_offset Absolute) (inst_cycles Rol Absolute)
    [ SetProgramStatusFlagState Carry (op_carry value);
      SetProgramStatusFlagState Negative (op_negative value);
      SetProgramStatusFlagState Zero (op_zero value);
      WriteMemory addr (operand_unwrap value) ]).

(** src/cpu/mos6502/operations/mod.rs:2155-2176 *)
Definition gen_RolAbsoluteIndexedWithX (p : profile) (cpu : mos6502 D) (operand : Z) : res operations :=
  let index := (reg_x cpu) in
  let addr := operand in
  let indexed_addr := (add_index_to_address addr index) in
  do! lhs <- dereference_address_to_operand p cpu addr index ;
  let value := (operand_rol lhs (operand_new 1) (ps_carry (reg_ps cpu))) in
  Ok (operations_new (inst_offset AbsoluteIndexedWithX) (inst_cycles Rol AbsoluteIndexedWithX)
    [ SetProgramStatusFlagState Carry (op_carry value);
      SetProgramStatusFlagState Negative (op_negative value);
      SetProgramStatusFlagState Zero (op_zero value);
      WriteMemory indexed_addr (operand_unwrap value) ]).

(** src/cpu/mos6502/operations/mod.rs:2178-2195 *)
Definition gen_RolAccumulator (p : profile) (cpu : mos6502 D) : res operations :=
  let value := (operand_rol (operand_new (reg_acc cpu)) (operand_new 1) (ps_carry (reg_ps cpu))) in
  Ok (operations_new (inst_offset Accumulator) (inst_cycles Rol Accumulator)
    [ SetProgramStatusFlagState Carry (op_carry value);
      SetProgramStatusFlagState Negative (op_negative value);
      SetProgramStatusFlagState Zero (op_zero value);
      Write8bitRegister Acc (operand_unwrap value) ]).

(** src/cpu/mos6502/operations/mod.rs:2197-2216 *)
Definition gen_RolZeroPage (p : profile) (cpu : mos6502 D) (operand : Z) : res operations :=
  let addr := operand in
  do! lhs <- dereference_address_to_operand p cpu addr 0 ;
  let value := (operand_rol lhs (operand_new 1) (ps_carry (reg_ps cpu))) in
  Ok (operations_new (inst_offset ZeroPage) (inst_cycles Rol ZeroPage)
    [ SetProgramStatusFlagState Carry (op_carry value);
      SetProgramStatusFlagState Negative (op_negative value);
      SetProgramStatusFlagState Zero (op_zero value);
      WriteMemory addr (operand_unwrap value) ]).

(** src/cpu/mos6502/operations/mod.rs:2218-2238 *)
Definition gen_RolZeroPageIndexedWithX (p : profile) (cpu : mos6502 D) (operand : Z) : res operations :=
  let index := (reg_x cpu) in
  let indexed_addr := (add_index_to_zeropage_address operand index) in
  do! lhs <- dereference_address_to_operand p cpu indexed_addr 0 ;
  let value := (operand_rol lhs (operand_new 1) (ps_carry (reg_ps cpu))) in
  Ok (operations_new (inst_offset ZeroPageIndexedWithX) (inst_cycles Rol ZeroPageIndexedWithX)
    [ SetProgramStatusFlagState Carry (op_carry value);
      SetProgramStatusFlagState Negative (op_negative value);
      SetProgramStatusFlagState Zero (op_zero value);
      WriteMemory indexed_addr (operand_unwrap value) ]).

(** src/cpu/mos6502/operations/mod.rs:2242-2261 *)
Definition gen_RorAbsolute (p : profile) (cpu : mos6502 D) (operand : Z) : res operations :=
  let addr := operand in
  do! t1 <- dereference_address_to_operand p cpu addr 0 ;
  let value := (operand_ror t1 (operand_new 1) (ps_carry (reg_ps cpu))) in
  Ok (operations_new (inst_offset Absolute) (inst_cycles Ror Absolute)
    [ SetProgramStatusFlagState Carry (op_carry value);
      SetProgramStatusFlagState Negative (op_negative value);
      SetProgramStatusFlagState Zero (op_zero value);
      WriteMemory addr (operand_unwrap value) ]).

(** src/cpu/mos6502/operations/mod.rs:2263-2284 *)
Definition gen_RorAbsoluteIndexedWithX (p : profile) (cpu : mos6502 D) (operand : Z) : res operations :=
  let index := (reg_x cpu) in
  let addr := operand in
  let indexed_addr := (add_index_to_address addr index) in
  do! t1 <- dereference_address_to_operand p cpu addr index ;
  let value := (operand_ror t1 (operand_new 1) (ps_carry (reg_ps cpu))) in
  Ok (operations_new (inst_offset AbsoluteIndexedWithX) (inst_cycles Ror AbsoluteIndexedWithX)
    [ SetProgramStatusFlagState Carry (op_carry value);
      SetProgramStatusFlagState Negative (op_negative value);
      SetProgramStatusFlagState Zero (op_zero value);
      WriteMemory indexed_addr (operand_unwrap value) ]).

(** src/cpu/mos6502/operations/mod.rs:2286-2303 *)
Definition gen_RorAccumulator (p : profile) (cpu : mos6502 D) : res operations :=
  let value := (operand_ror (operand_new (reg_acc cpu)) (operand_new 1) (ps_carry (reg_ps cpu))) in
  Ok (operations_new (inst_offset Accumulator) (inst_cycles Ror Accumulator)
    [ SetProgramStatusFlagState Carry (op_carry value);
      SetProgramStatusFlagState Negative (op_negative value);
      SetProgramStatusFlagState Zero (op_zero value);
      Write8bitRegister Acc (operand_unwrap value) ]).

(** src/cpu/mos6502/operations/mod.rs:2305-2324 *)
Definition gen_RorZeroPage (p : profile) (cpu : mos6502 D) (operand : Z) : res operations :=
  let addr := operand in
  do! t1 <- dereference_address_to_operand p cpu addr 0 ;
  let value := (operand_ror t1 (operand_new 1) (ps_carry (reg_ps cpu))) in
  Ok (operations_new (inst_offset ZeroPage) (inst_cycles Ror ZeroPage)
    [ SetProgramStatusFlagState Carry (op_carry value);
      SetProgramStatusFlagState Negative (op_negative value);
      SetProgramStatusFlagState Zero (op_zero value);
      WriteMemory addr (operand_unwrap value) ]).

(** src/cpu/mos6502/operations/mod.rs:2326-2346 *)
Definition gen_RorZeroPageIndexedWithX (p : profile) (cpu : mos6502 D) (operand : Z) : res operations :=
  let index := (reg_x cpu) in
  let indexed_addr := (add_index_to_zeropage_address operand index) in
  do! t1 <- dereference_address_to_operand p cpu indexed_addr 0 ;
  let value := (operand_ror t1 (operand_new 1) (ps_carry (reg_ps cpu))) in
  Ok (operations_new (inst_offset ZeroPageIndexedWithX) (inst_cycles Ror ZeroPageIndexedWithX)
    [ SetProgramStatusFlagState Carry (op_carry value);
      SetProgramStatusFlagState Negative (op_negative value);
      SetProgramStatusFlagState Zero (op_zero value);
      WriteMemory indexed_addr (operand_unwrap value) ]).

(** src/cpu/mos6502/operations/mod.rs:2384-2392 *)
Definition gen_BccRelative (p : profile) (cpu : mos6502 D) (operand : Z) : res operations :=
  let offset := operand in
  branch_on_case p (negb (ps_carry (reg_ps cpu))) offset (inst_offset Relative) (inst_cycles Bcc Relative) cpu.

(** src/cpu/mos6502/operations/mod.rs:2396-2404 *)
Definition gen_BcsRelative (p : profile) (cpu : mos6502 D) (operand : Z) : res operations :=
  let offset := operand in
  branch_on_case p (ps_carry (reg_ps cpu)) offset (inst_offset Relative) (inst_cycles Bcs Relative) cpu.

(** src/cpu/mos6502/operations/mod.rs:2408-2416 *)
Definition gen_BeqRelative (p : profile) (cpu : mos6502 D) (operand : Z) : res operations :=
  let offset := operand in
  branch_on_case p (ps_zero (reg_ps cpu)) offset (inst_offset Relative) (inst_cycles Beq Relative) cpu.

(** src/cpu/mos6502/operations/mod.rs:2420-2428 *)
Definition gen_BmiRelative (p : profile) (cpu : mos6502 D) (operand : Z) : res operations :=
  let offset := operand in
  branch_on_case p (ps_negative (reg_ps cpu)) offset (inst_offset Relative) (inst_cycles Bmi Relative) cpu.

(** src/cpu/mos6502/operations/mod.rs:2432-2440 *)
Definition gen_BneRelative (p : profile) (cpu : mos6502 D) (operand : Z) : res operations :=
  let offset := operand in
  branch_on_case p (negb (ps_zero (reg_ps cpu))) offset (inst_offset Relative) (inst_cycles Bne Relative) cpu.

(** src/cpu/mos6502/operations/mod.rs:2444-2452 *)
Definition gen_BplRelative (p : profile) (cpu : mos6502 D) (operand : Z) : res operations :=
  let offset := operand in
  branch_on_case p (negb (ps_negative (reg_ps cpu))) offset (inst_offset Relative) (inst_cycles Bpl Relative) cpu.

(** src/cpu/mos6502/operations/mod.rs:2456-2464 *)
Definition gen_BvcRelative (p : profile) (cpu : mos6502 D) (operand : Z) : res operations :=
  let offset := operand in
  branch_on_case p (negb (ps_overflow (reg_ps cpu))) offset (inst_offset Relative) (inst_cycles Bvc Relative) cpu.

(** src/cpu/mos6502/operations/mod.rs:2468-2476 *)
Definition gen_BvsRelative (p : profile) (cpu : mos6502 D) (operand : Z) : res operations :=
  let offset := operand in
  branch_on_case p (ps_overflow (reg_ps cpu)) offset (inst_offset Relative) (inst_cycles Bvs Relative) cpu.

(** src/cpu/mos6502/operations/mod.rs:2480-2493 *)
Definition gen_ClcImplied (p : profile) (cpu : mos6502 D) : res operations :=
  Ok (operations_new (inst_offset Implied) (inst_cycles Clc Implied)
    [ SetProgramStatusFlagState Carry false ]).

(** src/cpu/mos6502/operations/mod.rs:2497-2510 *)
Definition gen_CldImplied (p : profile) (cpu : mos6502 D) : res operations :=
  Ok (operations_new (inst_offset Implied) (inst_cycles Cld Implied)
    [ SetProgramStatusFlagState Decimal false ]).

(** src/cpu/mos6502/operations/mod.rs:2514-2527 *)
Definition gen_CliImplied (p : profile) (cpu : mos6502 D) : res operations :=
  Ok (operations_new (inst_offset Implied) (inst_cycles Cli Implied)
    [ SetProgramStatusFlagState Interrupt false ]).

(** src/cpu/mos6502/operations/mod.rs:2531-2544 *)
Definition gen_ClvImplied (p : profile) (cpu : mos6502 D) : res operations :=
  Ok (operations_new (inst_offset Implied) (inst_cycles Clv Implied)
    [ SetProgramStatusFlagState Overflow false ]).

(** src/cpu/mos6502/operations/mod.rs:2548-2567 *)
Definition gen_CmpAbsolute (p : profile) (cpu : mos6502 D) (operand : Z) : res operations :=
  do! rhs <- dereference_address_to_operand p cpu operand 0 ;
  let lhs := (operand_new (reg_acc cpu)) in
  let carry := (operand_ge lhs rhs) in
  let diff := (operand_sub lhs rhs) in
  Ok (operations_new (inst_offset Absolute) (inst_cycles Cmp Absolute)
    [ SetProgramStatusFlagState Carry carry;
      SetProgramStatusFlagState Negative (op_negative diff);
      SetProgramStatusFlagState Zero (op_zero diff) ]).

(** src/cpu/mos6502/operations/mod.rs:2569-2595 *)
Definition gen_CmpAbsoluteIndexedWithX (p : profile) (cpu : mos6502 D) (operand : Z) : res operations :=
  let index := (reg_x cpu) in
  let base_addr := operand in
  let indexed_addr := (add_index_to_address base_addr index) in
  do! rhs <- dereference_address_to_operand p cpu indexed_addr 0 ;
  let lhs := (operand_new (reg_acc cpu)) in
  let carry := (operand_ge lhs rhs) in
  let diff := (operand_sub lhs rhs) in
  do! t2 <- page_from_u16 p base_addr ;
  let addr_in_page := (page_contains t2 indexed_addr) in
  let branch_penalty := (if (negb addr_in_page) then 1 else 0)%nat in
  Ok (operations_new (inst_offset AbsoluteIndexedWithX) ((inst_cycles Cmp AbsoluteIndexedWithX) + branch_penalty)%nat
    [ SetProgramStatusFlagState Carry carry;
      SetProgramStatusFlagState Negative (op_negative diff);
      SetProgramStatusFlagState Zero (op_zero diff) ]).

(** src/cpu/mos6502/operations/mod.rs:2597-2623 *)
Definition gen_CmpAbsoluteIndexedWithY (p : profile) (cpu : mos6502 D) (operand : Z) : res operations :=
  let index := (reg_y cpu) in
  let base_addr := operand in
  let indexed_addr := (add_index_to_address base_addr index) in
  do! rhs <- dereference_address_to_operand p cpu indexed_addr 0 ;
  let lhs := (operand_new (reg_acc cpu)) in
  let carry := (operand_ge lhs rhs) in
  let diff := (operand_sub lhs rhs) in
  do! t2 <- page_from_u16 p base_addr ;
  let addr_in_page := (page_contains t2 indexed_addr) in
  let branch_penalty := (if (negb addr_in_page) then 1 else 0)%nat in
  Ok (operations_new (inst_offset AbsoluteIndexedWithY) ((inst_cycles Cmp AbsoluteIndexedWithY) + branch_penalty)%nat
    [ SetProgramStatusFlagState Carry carry;
      SetProgramStatusFlagState Negative (op_negative diff);
      SetProgramStatusFlagState Zero (op_zero diff) ]).

(** src/cpu/mos6502/operations/mod.rs:2625-2651 *)
Definition gen_CmpIndirectYIndexed (p : profile) (cpu : mos6502 D) (operand : Z) : res operations :=
  let index := (reg_y cpu) in
  let base_addr := operand in
  do! indirect_addr <- dereference_indirect_indexed_address p cpu base_addr index ;
  do! rhs <- dereference_address_to_operand p cpu indirect_addr 0 ;
  let lhs := (operand_new (reg_acc cpu)) in
  let carry := (operand_ge lhs rhs) in
  let diff := (operand_sub lhs rhs) in
  let addr_in_page := (page_contains (page_from_u8 base_addr) indirect_addr) in
  let branch_penalty := (if (negb addr_in_page) then 1 else 0)%nat in
  Ok (operations_new (inst_offset IndirectYIndexed) ((inst_cycles Cmp IndirectYIndexed) + branch_penalty)%nat
    [ SetProgramStatusFlagState Carry carry;
      SetProgramStatusFlagState Negative (op_negative diff);
      SetProgramStatusFlagState Zero (op_zero diff) ]).

(** src/cpu/mos6502/operations/mod.rs:2653-2673 *)
Definition gen_CmpImmediate (p : profile) (cpu : mos6502 D) (operand : Z) : res operations :=
  let am_value := operand in
  let rhs := (operand_new am_value) in
  let lhs := (operand_new (reg_acc cpu)) in
  let carry := (operand_ge lhs rhs) in
  let diff := (operand_sub lhs rhs) in
  Ok (operations_new (inst_offset Immediate) (inst_cycles Cmp Immediate)
    [ SetProgramStatusFlagState Carry carry;
      SetProgramStatusFlagState Negative (op_negative diff);
      SetProgramStatusFlagState Zero (op_zero diff) ]).

(** src/cpu/mos6502/operations/mod.rs:2675-2697 *)
Definition gen_CmpXIndexedIndirect (p : profile) (cpu : mos6502 D) (operand : Z) : res operations :=
  let index := (reg_x cpu) in
  do! indirect_addr <- dereference_indexed_indirect_address p cpu operand index ;
  do! rhs <- dereference_address_to_operand p cpu indirect_addr 0 ;
  let lhs := (operand_new (reg_acc cpu)) in
  let carry := (operand_ge lhs rhs) in
  let diff := (operand_sub lhs rhs) in
  Ok (operations_new (inst_offset XIndexedIndirect) (inst_cycles Cmp XIndexedIndirect)
    [ SetProgramStatusFlagState Carry carry;
      SetProgramStatusFlagState Negative (op_negative diff);
      SetProgramStatusFlagState Zero (op_zero diff) ]).

(** src/cpu/mos6502/operations/mod.rs:2699-2718 *)
Definition gen_CmpZeroPage (p : profile) (cpu : mos6502 D) (operand : Z) : res operations :=
  do! rhs <- dereference_address_to_operand p cpu operand 0 ;
  let lhs := (operand_new (reg_acc cpu)) in
  let carry := (operand_ge lhs rhs) in
  let diff := (operand_sub lhs rhs) in
  Ok (operations_new (inst_offset ZeroPage) (inst_cycles Cmp ZeroPage)
    [ SetProgramStatusFlagState Carry carry;
      SetProgramStatusFlagState Negative (op_negative diff);
      SetProgramStatusFlagState Zero (op_zero diff) ]).

(** src/cpu/mos6502/operations/mod.rs:2720-2741 *)
Definition gen_CmpZeroPageIndexedWithX (p : profile) (cpu : mos6502 D) (operand : Z) : res operations :=
  let index := (reg_x cpu) in
  let base_addr := (add_index_to_zeropage_address operand index) in
  do! rhs <- dereference_address_to_operand p cpu base_addr 0 ;
  let lhs := (operand_new (reg_acc cpu)) in
  let carry := (operand_ge lhs rhs) in
  let diff := (operand_sub lhs rhs) in
  Ok (operations_new (inst_offset ZeroPageIndexedWithX) (inst_cycles Cmp ZeroPageIndexedWithX)
    [ SetProgramStatusFlagState Carry carry;
      SetProgramStatusFlagState Negative (op_negative diff);
      SetProgramStatusFlagState Zero (op_zero diff) ]).

(** src/cpu/mos6502/operations/mod.rs:2745-2764 *)
Definition gen_CpxAbsolute (p : profile) (cpu : mos6502 D) (operand : Z) : res operations :=
  do! rhs <- dereference_address_to_operand p cpu operand 0 ;
  let lhs := (operand_new (reg_x cpu)) in
  let carry := (operand_ge lhs rhs) in
  let diff := (operand_sub lhs rhs) in
  Ok (operations_new (inst_offset Absolute) (inst_cycles Cpx Absolute)
    [ SetProgramStatusFlagState Carry carry;
      SetProgramStatusFlagState Negative (op_negative diff);
      SetProgramStatusFlagState Zero (op_zero diff) ]).

(** src/cpu/mos6502/operations/mod.rs:2766-2786 *)
Definition gen_CpxImmediate (p : profile) (cpu : mos6502 D) (operand : Z) : res operations :=
  let am_value := operand in
  let rhs := (operand_new am_value) in
  let lhs := (operand_new (reg_x cpu)) in
  let carry := (operand_ge lhs rhs) in
  let diff := (operand_sub lhs rhs) in
  Ok (operations_new (inst_offset Immediate) (inst_cycles Cpx Immediate)
    [ SetProgramStatusFlagState Carry carry;
      SetProgramStatusFlagState Negative (op_negative diff);
      SetProgramStatusFlagState Zero (op_zero diff) ]).

(** src/cpu/mos6502/operations/mod.rs:2788-2807 *)
Definition gen_CpxZeroPage (p : profile) (cpu : mos6502 D) (operand : Z) : res operations :=
  do! rhs <- dereference_address_to_operand p cpu operand 0 ;
  let lhs := (operand_new (reg_x cpu)) in
  let carry := (operand_ge lhs rhs) in
  let diff := (operand_sub lhs rhs) in
  Ok (operations_new (inst_offset ZeroPage) (inst_cycles Cpx ZeroPage)
    [ SetProgramStatusFlagState Carry carry;
      SetProgramStatusFlagState Negative (op_negative diff);
      SetProgramStatusFlagState Zero (op_zero diff) ]).

(** src/cpu/mos6502/operations/mod.rs:2811-2830 *)
Definition gen_CpyAbsolute (p : profile) (cpu : mos6502 D) (operand : Z) : res operations :=
  do! rhs <- dereference_address_to_operand p cpu operand 0 ;
  let lhs := (operand_new (reg_y cpu)) in
  let carry := (operand_ge lhs rhs) in
  let diff := (operand_sub lhs rhs) in
  Ok (operations_new (inst_offset Absolute) (inst_cycles Cpy Absolute)
    [ SetProgramStatusFlagState Carry carry;
      SetProgramStatusFlagState Negative (op_negative diff);
      SetProgramStatusFlagState Zero (op_zero diff) ]).

(** src/cpu/mos6502/operations/mod.rs:2832-2852 *)
Definition gen_CpyImmediate (p : profile) (cpu : mos6502 D) (operand : Z) : res operations :=
  let am_value := operand in
  let rhs := (operand_new am_value) in
  let lhs := (operand_new (reg_y cpu)) in
  let carry := (operand_ge lhs rhs) in
  let diff := (operand_sub lhs rhs) in
  Ok (operations_new (inst_offset Immediate) (inst_cycles Cpy Immediate)
    [ SetProgramStatusFlagState Carry carry;
      SetProgramStatusFlagState Negative (op_negative diff);
      SetProgramStatusFlagState Zero (op_zero diff) ]).

(** src/cpu/mos6502/operations/mod.rs:2854-2873 *)
Definition gen_CpyZeroPage (p : profile) (cpu : mos6502 D) (operand : Z) : res operations :=
  do! rhs <- dereference_address_to_operand p cpu operand 0 ;
  let lhs := (operand_new (reg_y cpu)) in
  let carry := (operand_ge lhs rhs) in
  let diff := (operand_sub lhs rhs) in
  Ok (operations_new (inst_offset ZeroPage) (inst_cycles Cpy ZeroPage)
    [ SetProgramStatusFlagState Carry carry;
      SetProgramStatusFlagState Negative (op_negative diff);
      SetProgramStatusFlagState Zero (op_zero diff) ]).

(** src/cpu/mos6502/operations/mod.rs:2877-2894 *)
Definition gen_DecAbsolute (p : profile) (cpu : mos6502 D) (operand : Z) : res operations :=
  let addr := operand in
  do! t1 <- dereference_address_to_operand p cpu addr 0 ;
  let value := (operand_sub t1 (operand_new 1)) in
  Ok (operations_new (inst_offset Absolute) (inst_cycles Dec Absolute)
    [ SetProgramStatusFlagState Negative (op_negative value);
      SetProgramStatusFlagState Zero (op_zero value);
      WriteMemory addr (operand_unwrap value) ]).

(** src/cpu/mos6502/operations/mod.rs:2896-2915 *)
Definition gen_DecAbsoluteIndexedWithX (p : profile) (cpu : mos6502 D) (operand : Z) : res operations :=
  let index := (reg_x cpu) in
  let addr := operand in
  let indexed_addr := (add_index_to_address addr index) in
  do! t1 <- dereference_address_to_operand p cpu indexed_addr 0 ;
  let value := (operand_sub t1 (operand_new 1)) in
  Ok (operations_new (inst_offset AbsoluteIndexedWithX) (inst_cycles Dec AbsoluteIndexedWithX)
    [ SetProgramStatusFlagState Negative (op_negative value);
      SetProgramStatusFlagState Zero (op_zero value);
      WriteMemory indexed_addr (operand_unwrap value) ]).

(** src/cpu/mos6502/operations/mod.rs:2917-2934 *)
Definition gen_DecZeroPage (p : profile) (cpu : mos6502 D) (operand : Z) : res operations :=
  let addr := operand in
  do! t1 <- dereference_address_to_operand p cpu addr 0 ;
  let value := (operand_sub t1 (operand_new 1)) in
  Ok (operations_new (inst_offset ZeroPage) (inst_cycles Dec ZeroPage)
    [ SetProgramStatusFlagState Negative (op_negative value);
      SetProgramStatusFlagState Zero (op_zero value);
      WriteMemory addr (operand_unwrap value) ]).

(** src/cpu/mos6502/operations/mod.rs:2936-2955 *)
Definition gen_DecZeroPageIndexedWithX (p : profile) (cpu : mos6502 D) (operand : Z) : res operations :=
  let index := (reg_x cpu) in
  let addr := operand in
  let indexed_addr := (add_index_to_zeropage_address addr index) in
  do! t1 <- dereference_address_to_operand p cpu indexed_addr 0 ;
  let value := (operand_sub t1 (operand_new 1)) in
  Ok (operations_new (inst_offset ZeroPageIndexedWithX) (inst_cycles Dec ZeroPageIndexedWithX)
    [ SetProgramStatusFlagState Negative (op_negative value);
      SetProgramStatusFlagState Zero (op_zero value);
      WriteMemory indexed_addr (operand_unwrap value) ]).

(** src/cpu/mos6502/operations/mod.rs:2959-2975 *)
Definition gen_DexImplied (p : profile) (cpu : mos6502 D) : res operations :=
  let value := (operand_sub (operand_new (reg_x cpu)) (operand_new 1)) in
  Ok (operations_new (inst_offset Implied) (inst_cycles Dex Implied)
    [ SetProgramStatusFlagState Negative (op_negative value);
      SetProgramStatusFlagState Zero (op_zero value);
      Dec8bitRegister X 1 ]).

(** src/cpu/mos6502/operations/mod.rs:2979-2995 *)
Definition gen_DeyImplied (p : profile) (cpu : mos6502 D) : res operations :=
  let value := (operand_sub (operand_new (reg_x cpu)) (operand_new 1)) in
  Ok (operations_new (inst_offset Implied) (inst_cycles Dey Implied)
    [ SetProgramStatusFlagState Negative (op_negative value);
      SetProgramStatusFlagState Zero (op_zero value);
      Dec8bitRegister Y 1 ]).

(** src/cpu/mos6502/operations/mod.rs:2999-3016 *)
Definition gen_IncAbsolute (p : profile) (cpu : mos6502 D) (operand : Z) : res operations :=
  let addr := operand in
  do! t1 <- dereference_address_to_operand p cpu addr 0 ;
  let value := (operand_add t1 (operand_new 1)) in
  Ok (operations_new (inst_offset Absolute) (inst_cycles Inc Absolute)
    [ SetProgramStatusFlagState Negative (op_negative value);
      SetProgramStatusFlagState Zero (op_zero value);
      WriteMemory addr (operand_unwrap value) ]).

(** src/cpu/mos6502/operations/mod.rs:3018-3037 *)
Definition gen_IncAbsoluteIndexedWithX (p : profile) (cpu : mos6502 D) (operand : Z) : res operations :=
  let index := (reg_x cpu) in
  let addr := operand in
  let indexed_addr := (add_index_to_address addr index) in
  do! t1 <- dereference_address_to_operand p cpu indexed_addr 0 ;
  let value := (operand_add t1 (operand_new 1)) in
  Ok (operations_new (inst_offset AbsoluteIndexedWithX) (inst_cycles Inc AbsoluteIndexedWithX)
    [ SetProgramStatusFlagState Negative (op_negative value);
      SetProgramStatusFlagState Zero (op_zero value);
      WriteMemory indexed_addr (operand_unwrap value) ]).

(** src/cpu/mos6502/operations/mod.rs:3039-3056 *)
Definition gen_IncZeroPage (p : profile) (cpu : mos6502 D) (operand : Z) : res operations :=
  let addr := operand in
  do! t1 <- dereference_address_to_operand p cpu addr 0 ;
  let value := (operand_add t1 (operand_new 1)) in
  Ok (operations_new (inst_offset ZeroPage) (inst_cycles Inc ZeroPage)
    [ SetProgramStatusFlagState Negative (op_negative value);
      SetProgramStatusFlagState Zero (op_zero value);
      WriteMemory addr (operand_unwrap value) ]).

(** src/cpu/mos6502/operations/mod.rs:3058-3077 *)
Definition gen_IncZeroPageIndexedWithX (p : profile) (cpu : mos6502 D) (operand : Z) : res operations :=
  let index := (reg_x cpu) in
  let addr := operand in
  let indexed_addr := (add_index_to_zeropage_address addr index) in
  do! t1 <- dereference_address_to_operand p cpu indexed_addr 0 ;
  let value := (operand_add t1 (operand_new 1)) in
  Ok (operations_new (inst_offset ZeroPageIndexedWithX) (inst_cycles Inc ZeroPageIndexedWithX)
    [ SetProgramStatusFlagState Negative (op_negative value);
      SetProgramStatusFlagState Zero (op_zero value);
      WriteMemory indexed_addr (operand_unwrap value) ]).

(** src/cpu/mos6502/operations/mod.rs:3081-3097 *)
Definition gen_InxImplied (p : profile) (cpu : mos6502 D) : res operations :=
  let value := (operand_add (operand_new (reg_x cpu)) (operand_new 1)) in
  Ok (operations_new (inst_offset Implied) (inst_cycles Inx Implied)
    [ SetProgramStatusFlagState Negative (op_negative value);
      SetProgramStatusFlagState Zero (op_zero value);
      Write8bitRegister X (operand_unwrap value) ]).

(** src/cpu/mos6502/operations/mod.rs:3101-3117 *)
Definition gen_InyImplied (p : profile) (cpu : mos6502 D) : res operations :=
  let value := (operand_add (operand_new (reg_y cpu)) (operand_new 1)) in
  Ok (operations_new (inst_offset Implied) (inst_cycles Iny Implied)
    [ SetProgramStatusFlagState Negative (op_negative value);
      SetProgramStatusFlagState Zero (op_zero value);
      Write8bitRegister Y (operand_unwrap value) ]).

(** src/cpu/mos6502/operations/mod.rs:3121-3133 *)
Definition gen_JmpAbsolute (p : profile) (cpu : mos6502 D) (operand : Z) : res operations :=
  let addr := operand in
  Ok (operations_new 0 (inst_cycles Jmp Absolute)
    [ Write16bitRegister Pc addr ]).

(** src/cpu/mos6502/operations/mod.rs:3135-3150 *)
Definition gen_JmpIndirect (p : profile) (cpu : mos6502 D) (operand : Z) : res operations :=
  let indirect_addr := operand in
  do! lsb <- am_read p (amap cpu) indirect_addr ;
  do! t2 <- add_u16 p indirect_addr 1 ;
  do! msb <- am_read p (amap cpu) t2 ;
  let addr := (u16_from_le_bytes lsb msb) in
  Ok (operations_new 0 (inst_cycles Jmp Indirect)
    [ Write16bitRegister Pc addr ]).

(** src/cpu/mos6502/operations/mod.rs:3154-3179 *)
Definition gen_JsrAbsolute (p : profile) (cpu : mos6502 D) (operand : Z) : res operations :=
  let addr := operand in
  let sph := (stack_pointer_from_byte_value (reg_sp cpu)) in
  let spl := (stack_pointer_from_byte_value (wrapping_sub_u8 (reg_sp cpu) 1)) in
  let '(pcl, pch) := (u16_to_le_bytes (wrapping_add_u16 (reg_pc cpu) 2)) in
  Ok (operations_new 0 (inst_cycles Jsr Absolute)
    [ WriteMemory sph pch;
      Dec8bitRegister Sp 1;
      WriteMemory spl pcl;
      Dec8bitRegister Sp 1;
      Write16bitRegister Pc addr ]).

(** src/cpu/mos6502/operations/mod.rs:3183-3199 *)
Definition gen_LdaImmediate (p : profile) (cpu : mos6502 D) (operand : Z) : res operations :=
  let value := (operand_new operand) in
  Ok (operations_new (inst_offset Immediate) (inst_cycles Lda Immediate)
    [ SetProgramStatusFlagState Negative (op_negative value);
      SetProgramStatusFlagState Zero (op_zero value);
      Write8bitRegister Acc (operand_unwrap value) ]).

(** src/cpu/mos6502/operations/mod.rs:3201-3217 *)
Definition gen_LdaZeroPage (p : profile) (cpu : mos6502 D) (operand : Z) : res operations :=
  do! value <- dereference_address_to_operand p cpu operand 0 ;
  Ok (operations_new (inst_offset ZeroPage) (inst_cycles Lda ZeroPage)
    [ SetProgramStatusFlagState Negative (op_negative value);
      SetProgramStatusFlagState Zero (op_zero value);
      Write8bitRegister Acc (operand_unwrap value) ]).

(** src/cpu/mos6502/operations/mod.rs:3219-3237 *)
Definition gen_LdaZeroPageIndexedWithX (p : profile) (cpu : mos6502 D) (operand : Z) : res operations :=
  let index := (reg_x cpu) in
  let addr := (add_index_to_zeropage_address operand index) in
  do! value <- dereference_address_to_operand p cpu addr 0 ;
  Ok (operations_new (inst_offset ZeroPageIndexedWithX) (inst_cycles Lda ZeroPageIndexedWithX)
    [ SetProgramStatusFlagState Negative (op_negative value);
      SetProgramStatusFlagState Zero (op_zero value);
      Write8bitRegister Acc (operand_unwrap value) ]).

(** src/cpu/mos6502/operations/mod.rs:3239-3255 *)
Definition gen_LdaAbsolute (p : profile) (cpu : mos6502 D) (operand : Z) : res operations :=
  let addr := operand in
  do! t1 <- am_read p (amap cpu) addr ;
  let value := (operand_new t1) in
  Ok (operations_new (inst_offset Absolute) (inst_cycles Lda Absolute)
    [ SetProgramStatusFlagState Negative (op_negative value);
      SetProgramStatusFlagState Zero (op_zero value);
      Write8bitRegister Acc (operand_unwrap value) ]).

(** src/cpu/mos6502/operations/mod.rs:3257-3280 *)
Definition gen_LdaAbsoluteIndexedWithX (p : profile) (cpu : mos6502 D) (operand : Z) : res operations :=
  let index := (reg_x cpu) in
  let addr := operand in
  let indexed_addr := (add_index_to_address addr index) in
  do! value <- dereference_address_to_operand p cpu addr index ;
  do! t2 <- page_from_u16 p addr ;
  let addr_in_page := (page_contains t2 indexed_addr) in
  let branch_penalty := (if (negb addr_in_page) then 1 else 0)%nat in
  Ok (operations_new (inst_offset AbsoluteIndexedWithX) ((inst_cycles Lda AbsoluteIndexedWithX) + branch_penalty)%nat
    [ SetProgramStatusFlagState Negative (op_negative value);
      SetProgramStatusFlagState Zero (op_zero value);
      Write8bitRegister Acc (operand_unwrap value) ]).

(** src/cpu/mos6502/operations/mod.rs:3282-3305 *)
Definition gen_LdaAbsoluteIndexedWithY (p : profile) (cpu : mos6502 D) (operand : Z) : res operations :=
  let index := (reg_y cpu) in
  let addr := operand in
  let indexed_addr := (add_index_to_address addr index) in
  do! value <- dereference_address_to_operand p cpu indexed_addr 0 ;
  do! t2 <- page_from_u16 p addr ;
  let addr_in_page := (page_contains t2 indexed_addr) in
  let branch_penalty := (if (negb addr_in_page) then 1 else 0)%nat in
  Ok (operations_new (inst_offset AbsoluteIndexedWithY) ((inst_cycles Lda AbsoluteIndexedWithY) + branch_penalty)%nat
    [ SetProgramStatusFlagState Negative (op_negative value);
      SetProgramStatusFlagState Zero (op_zero value);
      Write8bitRegister Acc (operand_unwrap value) ]).

(** src/cpu/mos6502/operations/mod.rs:3307-3330 *)
Definition gen_LdaIndirectYIndexed (p : profile) (cpu : mos6502 D) (operand : Z) : res operations :=
  let zpage_base_addr := operand in
  do! indirect_addr <- dereference_indirect_indexed_address p cpu zpage_base_addr (reg_y cpu) ;
  do! t2 <- am_read p (amap cpu) indirect_addr ;
  let value := (operand_new t2) in
  let addr_in_page := (page_contains (page_from_u8 zpage_base_addr) indirect_addr) in
  let branch_penalty := (if (negb addr_in_page) then 1 else 0)%nat in
  Ok (operations_new (inst_offset IndirectYIndexed) ((inst_cycles Lda IndirectYIndexed) + branch_penalty)%nat
    [ SetProgramStatusFlagState Negative (op_negative value);
      SetProgramStatusFlagState Zero (op_zero value);
      Write8bitRegister Acc (operand_unwrap value) ]).

(** src/cpu/mos6502/operations/mod.rs:3332-3350 *)
Definition gen_LdaXIndexedIndirect (p : profile) (cpu : mos6502 D) (operand : Z) : res operations :=
  do! indirect_addr <- dereference_indexed_indirect_address p cpu operand (reg_x cpu) ;
  do! t2 <- am_read p (amap cpu) indirect_addr ;
  let value := (operand_new t2) in
  Ok (operations_new (inst_offset XIndexedIndirect) (inst_cycles Lda XIndexedIndirect)
    [ SetProgramStatusFlagState Negative (op_negative value);
      SetProgramStatusFlagState Zero (op_zero value);
      Write8bitRegister Acc (operand_unwrap value) ]).

(** src/cpu/mos6502/operations/mod.rs:3354-3371 *)
Definition gen_LdxAbsolute (p : profile) (cpu : mos6502 D) (operand : Z) : res operations :=
  let addr := operand in
  do! value <- dereference_address_to_operand p cpu addr 0 ;
  Ok (operations_new (inst_offset Absolute) (inst_cycles Ldx Absolute)
    [ SetProgramStatusFlagState Negative (op_negative value);
      SetProgramStatusFlagState Zero (op_zero value);
      Write8bitRegister X (operand_unwrap value) ]).

(** src/cpu/mos6502/operations/mod.rs:3373-3396 *)
Definition gen_LdxAbsoluteIndexedWithY (p : profile) (cpu : mos6502 D) (operand : Z) : res operations :=
  let index := (reg_y cpu) in
  let addr := operand in
  let indexed_addr := (add_index_to_address addr index) in
  do! value <- dereference_address_to_operand p cpu indexed_addr 0 ;
  do! t2 <- page_from_u16 p addr ;
  let addr_in_page := (page_contains t2 indexed_addr) in
  let branch_penalty := (if (negb addr_in_page) then 1 else 0)%nat in
  Ok (operations_new (inst_offset AbsoluteIndexedWithY) ((inst_cycles Ldx AbsoluteIndexedWithY) + branch_penalty)%nat
    [ SetProgramStatusFlagState Negative (op_negative value);
      SetProgramStatusFlagState Zero (op_zero value);
      Write8bitRegister X (operand_unwrap value) ]).

(** src/cpu/mos6502/operations/mod.rs:3398-3414 *)
Definition gen_LdxImmediate (p : profile) (cpu : mos6502 D) (operand : Z) : res operations :=
  let value := (operand_new operand) in
  Ok (operations_new (inst_offset Immediate) (inst_cycles Ldx Immediate)
    [ SetProgramStatusFlagState Negative (op_negative value);
      SetProgramStatusFlagState Zero (op_zero value);
      Write8bitRegister X (operand_unwrap value) ]).

(** src/cpu/mos6502/operations/mod.rs:3416-3432 *)
Definition gen_LdxZeroPage (p : profile) (cpu : mos6502 D) (operand : Z) : res operations :=
  do! value <- dereference_address_to_operand p cpu operand 0 ;
  Ok (operations_new (inst_offset ZeroPage) (inst_cycles Ldx ZeroPage)
    [ SetProgramStatusFlagState Negative (op_negative value);
      SetProgramStatusFlagState Zero (op_zero value);
      Write8bitRegister X (operand_unwrap value) ]).

(** src/cpu/mos6502/operations/mod.rs:3434-3452 *)
Definition gen_LdxZeroPageIndexedWithY (p : profile) (cpu : mos6502 D) (operand : Z) : res operations :=
  let index := (reg_y cpu) in
  let addr := (add_index_to_zeropage_address operand index) in
  do! value <- dereference_address_to_operand p cpu addr 0 ;
  Ok (operations_new (inst_offset ZeroPageIndexedWithY) (inst_cycles Ldx ZeroPageIndexedWithY)
    [ SetProgramStatusFlagState Negative (op_negative value);
      SetProgramStatusFlagState Zero (op_zero value);
      Write8bitRegister X (operand_unwrap value) ]).

(** src/cpu/mos6502/operations/mod.rs:3456-3473 *)
Definition gen_LdyAbsolute (p : profile) (cpu : mos6502 D) (operand : Z) : res operations :=
  let addr := operand in
  do! value <- dereference_address_to_operand p cpu addr 0 ;
  Ok (operations_new (inst_offset Absolute) (inst_cycles Ldy Absolute)
    [ SetProgramStatusFlagState Negative (op_negative value);
      SetProgramStatusFlagState Zero (op_zero value);
      Write8bitRegister Y (operand_unwrap value) ]).

(** src/cpu/mos6502/operations/mod.rs:3475-3498 *)
Definition gen_LdyAbsoluteIndexedWithX (p : profile) (cpu : mos6502 D) (operand : Z) : res operations :=
  let index := (reg_x cpu) in
  let addr := operand in
  let indexed_addr := (add_index_to_address addr index) in
  do! value <- dereference_address_to_operand p cpu indexed_addr 0 ;
  do! t2 <- page_from_u16 p addr ;
  let addr_in_page := (page_contains t2 indexed_addr) in
  let branch_penalty := (if (negb addr_in_page) then 1 else 0)%nat in
  Ok (operations_new (inst_offset AbsoluteIndexedWithX) ((inst_cycles Ldy AbsoluteIndexedWithX) + branch_penalty)%nat
    [ SetProgramStatusFlagState Negative (op_negative value);
      SetProgramStatusFlagState Zero (op_zero value);
      Write8bitRegister Y (operand_unwrap value) ]).

(** src/cpu/mos6502/operations/mod.rs:3500-3516 *)
Definition gen_LdyImmediate (p : profile) (cpu : mos6502 D) (operand : Z) : res operations :=
  let value := (operand_new operand) in
  Ok (operations_new (inst_offset Immediate) (inst_cycles Ldy Immediate)
    [ SetProgramStatusFlagState Negative (op_negative value);
      SetProgramStatusFlagState Zero (op_zero value);
      Write8bitRegister Y (operand_unwrap value) ]).

(** src/cpu/mos6502/operations/mod.rs:3518-3534 *)
Definition gen_LdyZeroPage (p : profile) (cpu : mos6502 D) (operand : Z) : res operations :=
  do! value <- dereference_address_to_operand p cpu operand 0 ;
  Ok (operations_new (inst_offset ZeroPage) (inst_cycles Ldy ZeroPage)
    [ SetProgramStatusFlagState Negative (op_negative value);
      SetProgramStatusFlagState Zero (op_zero value);
      Write8bitRegister Y (operand_unwrap value) ]).

(** src/cpu/mos6502/operations/mod.rs:3536-3554 *)
Definition gen_LdyZeroPageIndexedWithX (p : profile) (cpu : mos6502 D) (operand : Z) : res operations :=
  let index := (reg_x cpu) in
  let addr := (add_index_to_zeropage_address operand index) in
  do! value <- dereference_address_to_operand p cpu addr 0 ;
  Ok (operations_new (inst_offset ZeroPageIndexedWithX) (inst_cycles Ldy ZeroPageIndexedWithX)
    [ SetProgramStatusFlagState Negative (op_negative value);
      SetProgramStatusFlagState Zero (op_zero value);
      Write8bitRegister Y (operand_unwrap value) ]).

(** src/cpu/mos6502/operations/mod.rs:3558-3574 *)
Definition gen_PhaImplied (p : profile) (cpu : mos6502 D) : res operations :=
  let value := (reg_acc cpu) in
  let sp := (reg_sp cpu) in
  Ok (operations_new (inst_offset Implied) (inst_cycles Pha Implied)
    [ WriteMemory (stack_pointer_from_byte_value sp) value;
      Dec8bitRegister Sp 1 ]).

(** src/cpu/mos6502/operations/mod.rs:3578-3594 *)
Definition gen_PhpImplied (p : profile) (cpu : mos6502 D) : res operations :=
  let value := (ps_read (reg_ps cpu)) in
  let sp := (reg_sp cpu) in
  Ok (operations_new (inst_offset Implied) (inst_cycles Php Implied)
    [ WriteMemory (stack_pointer_from_byte_value sp) value;
      Dec8bitRegister Sp 1 ]).

(** src/cpu/mos6502/operations/mod.rs:3598-3616 *)
Definition gen_PlaImplied (p : profile) (cpu : mos6502 D) : res operations :=
  let sp := (wrapping_add_u8 (reg_sp cpu) 1) in
  do! value <- dereference_address_to_operand p cpu (stack_pointer_from_byte_value sp) 0 ;
  Ok (operations_new (inst_offset Implied) (inst_cycles Pla Implied)
    [ Inc8bitRegister Sp 1;
      SetProgramStatusFlagState Negative (op_negative value);
      SetProgramStatusFlagState Zero (op_zero value);
      Write8bitRegister Acc (operand_unwrap value) ]).

(** src/cpu/mos6502/operations/mod.rs:3620-3636 *)
Definition gen_PlpImplied (p : profile) (cpu : mos6502 D) : res operations :=
  let sp := (wrapping_add_u8 (reg_sp cpu) 1) in
  do! value <- dereference_address_to_operand p cpu (stack_pointer_from_byte_value sp) 0 ;
  Ok (operations_new (inst_offset Implied) (inst_cycles Plp Implied)
    [ Inc8bitRegister Sp 1;
      Write8bitRegister Ps (operand_unwrap value) ]).

(** src/cpu/mos6502/operations/mod.rs:3640-3666 *)
Definition gen_RtiImplied (p : profile) (cpu : mos6502 D) : res operations :=
  let sp_psl := (stack_pointer_from_byte_value (wrapping_add_u8 (reg_sp cpu) 1)) in
  do! sp <- am_read p (amap cpu) sp_psl ;
  let sp_pcl := (stack_pointer_from_byte_value (wrapping_add_u8 (reg_sp cpu) 2)) in
  let sp_pch := (stack_pointer_from_byte_value (wrapping_add_u8 (reg_sp cpu) 3)) in
  do! t2 <- am_read p (amap cpu) sp_pcl ;
  do! t3 <- am_read p (amap cpu) sp_pch ;
  let lsb := t2 in
  let hsb := t3 in
  let ret_addr := (u16_from_le_bytes lsb hsb) in
  Ok (operations_new (inst_offset Implied) (inst_cycles Rti Implied)
    [ Inc8bitRegister Sp 1;
      Write8bitRegister Ps sp;
      Inc8bitRegister Sp 2;
      Write16bitRegister Pc ret_addr ]).

(** src/cpu/mos6502/operations/mod.rs:3670-3690 *)
Definition gen_RtsImplied (p : profile) (cpu : mos6502 D) : res operations :=
  let spl := (stack_pointer_from_byte_value (wrapping_add_u8 (reg_sp cpu) 1)) in
  let sph := (stack_pointer_from_byte_value (wrapping_add_u8 (reg_sp cpu) 2)) in
  do! t1 <- am_read p (amap cpu) spl ;
  do! t2 <- am_read p (amap cpu) sph ;
  let lsb := t1 in
  let hsb := t2 in
  let ret_addr := (u16_from_le_bytes lsb hsb) in
  Ok (operations_new (inst_offset Implied) (inst_cycles Rts Implied)
    [ Inc8bitRegister Sp 2;
      Write16bitRegister Pc ret_addr ]).

(** src/cpu/mos6502/operations/mod.rs:3694-3707 *)
Definition gen_SecImplied (p : profile) (cpu : mos6502 D) : res operations :=
  Ok (operations_new (inst_offset Implied) (inst_cycles Sec Implied)
    [ SetProgramStatusFlagState Carry true ]).

(** src/cpu/mos6502/operations/mod.rs:3711-3724 *)
Definition gen_SedImplied (p : profile) (cpu : mos6502 D) : res operations :=
  Ok (operations_new (inst_offset Implied) (inst_cycles Sed Implied)
    [ SetProgramStatusFlagState Decimal true ]).

(** src/cpu/mos6502/operations/mod.rs:3728-3741 *)
Definition gen_SeiImplied (p : profile) (cpu : mos6502 D) : res operations :=
  Ok (operations_new (inst_offset Implied) (inst_cycles Sei Implied)
    [ SetProgramStatusFlagState Interrupt true ]).

(** src/cpu/mos6502/operations/mod.rs:3745-3757 *)
Definition gen_StaAbsolute (p : profile) (cpu : mos6502 D) (operand : Z) : res operations :=
  let addr := operand in
  let acc_val := (reg_acc cpu) in
  Ok (operations_new (inst_offset Absolute) (inst_cycles Sta Absolute)
    [ WriteMemory addr acc_val ]).

(** src/cpu/mos6502/operations/mod.rs:3759-3772 *)
Definition gen_StaAbsoluteIndexedWithX (p : profile) (cpu : mos6502 D) (operand : Z) : res operations :=
  let index := (reg_x cpu) in
  let indexed_addr := (add_index_to_address operand index) in
  let acc_val := (reg_acc cpu) in
  Ok (operations_new (inst_offset AbsoluteIndexedWithX) (inst_cycles Sta AbsoluteIndexedWithX)
    [ WriteMemory indexed_addr acc_val ]).

(** src/cpu/mos6502/operations/mod.rs:3774-3788 *)
Definition gen_StaAbsoluteIndexedWithY (p : profile) (cpu : mos6502 D) (operand : Z) : res operations :=
  let index := (reg_y cpu) in
  let indexed_addr := (add_index_to_address operand index) in
  let acc_val := (reg_acc cpu) in
  Ok (operations_new (inst_offset AbsoluteIndexedWithY) (inst_cycles Sta AbsoluteIndexedWithY)
    [ WriteMemory indexed_addr acc_val ]).

(** src/cpu/mos6502/operations/mod.rs:3790-3803 *)
Definition gen_StaIndirectYIndexed (p : profile) (cpu : mos6502 D) (operand : Z) : res operations :=
  do! indirect_addr <- dereference_indirect_indexed_address p cpu operand (reg_y cpu) ;
  let acc_val := (reg_acc cpu) in
  Ok (operations_new (inst_offset IndirectYIndexed) (inst_cycles Sta IndirectYIndexed)
    [ WriteMemory indirect_addr acc_val ]).

(** src/cpu/mos6502/operations/mod.rs:3805-3818 *)
Definition gen_StaXIndexedIndirect (p : profile) (cpu : mos6502 D) (operand : Z) : res operations :=
  do! indirect_addr <- dereference_indexed_indirect_address p cpu operand (reg_x cpu) ;
  let acc_val := (reg_acc cpu) in
  Ok (operations_new (inst_offset XIndexedIndirect) (inst_cycles Sta XIndexedIndirect)
    [ WriteMemory indirect_addr acc_val ]).

(** src/cpu/mos6502/operations/mod.rs:3820-3833 *)
Definition gen_StaZeroPage (p : profile) (cpu : mos6502 D) (operand : Z) : res operations :=
  let addr := operand in
  let acc_val := (reg_acc cpu) in
  Ok (operations_new (inst_offset ZeroPage) (inst_cycles Sta ZeroPage)
    [ WriteMemory addr acc_val ]).

(** src/cpu/mos6502/operations/mod.rs:3835-3849 *)
Definition gen_StaZeroPageIndexedWithX (p : profile) (cpu : mos6502 D) (operand : Z) : res operations :=
  let index := (reg_x cpu) in
  let indexed_addr := (add_index_to_zeropage_address operand index) in
  let acc_val := (reg_acc cpu) in
  Ok (operations_new (inst_offset ZeroPageIndexedWithX) (inst_cycles Sta ZeroPageIndexedWithX)
    [ WriteMemory indexed_addr acc_val ]).

(** src/cpu/mos6502/operations/mod.rs:3853-3865 *)
Definition gen_StxAbsolute (p : profile) (cpu : mos6502 D) (operand : Z) : res operations :=
  let addr := operand in
  let value := (reg_x cpu) in
  Ok (operations_new (inst_offset Absolute) (inst_cycles Stx Absolute)
    [ WriteMemory addr value ]).

(** src/cpu/mos6502/operations/mod.rs:3867-3880 *)
Definition gen_StxZeroPage (p : profile) (cpu : mos6502 D) (operand : Z) : res operations :=
  let addr := operand in
  let value := (reg_x cpu) in
  Ok (operations_new (inst_offset ZeroPage) (inst_cycles Stx ZeroPage)
    [ WriteMemory addr value ]).

(** src/cpu/mos6502/operations/mod.rs:3882-3896 *)
Definition gen_StxZeroPageIndexedWithY (p : profile) (cpu : mos6502 D) (operand : Z) : res operations :=
  let index := (reg_y cpu) in
  let indexed_addr := (add_index_to_zeropage_address operand index) in
  let value := (reg_x cpu) in
  Ok (operations_new (inst_offset ZeroPageIndexedWithY) (inst_cycles Stx ZeroPageIndexedWithY)
    [ WriteMemory indexed_addr value ]).

(** src/cpu/mos6502/operations/mod.rs:3900-3912 *)
Definition gen_StyAbsolute (p : profile) (cpu : mos6502 D) (operand : Z) : res operations :=
  let addr := operand in
  let value := (reg_y cpu) in
  Ok (operations_new (inst_offset Absolute) (inst_cycles Sty Absolute)
    [ WriteMemory addr value ]).

(** src/cpu/mos6502/operations/mod.rs:3914-3927 *)
Definition gen_StyZeroPage (p : profile) (cpu : mos6502 D) (operand : Z) : res operations :=
  let addr := operand in
  let value := (reg_y cpu) in
  Ok (operations_new (inst_offset ZeroPage) (inst_cycles Sty ZeroPage)
    [ WriteMemory addr value ]).

(** src/cpu/mos6502/operations/mod.rs:3929-3943 *)
Definition gen_StyZeroPageIndexedWithX (p : profile) (cpu : mos6502 D) (operand : Z) : res operations :=
  let index := (reg_x cpu) in
  let indexed_addr := (add_index_to_zeropage_address operand index) in
  let value := (reg_y cpu) in
  Ok (operations_new (inst_offset ZeroPageIndexedWithX) (inst_cycles Sty ZeroPageIndexedWithX)
    [ WriteMemory indexed_addr value ]).

(** src/cpu/mos6502/operations/mod.rs:3947-3963 *)
Definition gen_TaxImplied (p : profile) (cpu : mos6502 D) : res operations :=
  let value := (operand_new (reg_acc cpu)) in
  Ok (operations_new (inst_offset Implied) (inst_cycles Tax Implied)
    [ SetProgramStatusFlagState Negative (op_negative value);
      SetProgramStatusFlagState Zero (op_zero value);
      Write8bitRegister X (operand_unwrap value) ]).

(** src/cpu/mos6502/operations/mod.rs:3967-3983 *)
Definition gen_TayImplied (p : profile) (cpu : mos6502 D) : res operations :=
  let value := (operand_new (reg_acc cpu)) in
  Ok (operations_new (inst_offset Implied) (inst_cycles Tay Implied)
    [ SetProgramStatusFlagState Negative (op_negative value);
      SetProgramStatusFlagState Zero (op_zero value);
      Write8bitRegister Y (operand_unwrap value) ]).

(** src/cpu/mos6502/operations/mod.rs:3987-4003 *)
Definition gen_TsxImplied (p : profile) (cpu : mos6502 D) : res operations :=
  let value := (operand_new (reg_sp cpu)) in
  Ok (operations_new (inst_offset Implied) (inst_cycles Tsx Implied)
    [ SetProgramStatusFlagState Negative (op_negative value);
      SetProgramStatusFlagState Zero (op_zero value);
      Write8bitRegister X (operand_unwrap value) ]).

(** src/cpu/mos6502/operations/mod.rs:4007-4023 *)
Definition gen_TxaImplied (p : profile) (cpu : mos6502 D) : res operations :=
  let value := (operand_new (reg_x cpu)) in
  Ok (operations_new (inst_offset Implied) (inst_cycles Txa Implied)
    [ SetProgramStatusFlagState Negative (op_negative value);
      SetProgramStatusFlagState Zero (op_zero value);
      Write8bitRegister Acc (operand_unwrap value) ]).

(** src/cpu/mos6502/operations/mod.rs:4027-4042 *)
Definition gen_TxsImplied (p : profile) (cpu : mos6502 D) : res operations :=
  let value := (operand_new (reg_x cpu)) in
  Ok (operations_new (inst_offset Implied) (inst_cycles Txs Implied)
    [ Write8bitRegister Sp (operand_unwrap value) ]).

(** src/cpu/mos6502/operations/mod.rs:4046-4062 *)
Definition gen_TyaImplied (p : profile) (cpu : mos6502 D) : res operations :=
  let value := (operand_new (reg_y cpu)) in
  Ok (operations_new (inst_offset Implied) (inst_cycles Tya Implied)
    [ SetProgramStatusFlagState Negative (op_negative value);
      SetProgramStatusFlagState Zero (op_zero value);
      Write8bitRegister Acc (operand_unwrap value) ]).

(** src/cpu/mos6502/operations/mod.rs:4068-4103 *)
Definition gen_BrkImplied (p : profile) (cpu : mos6502 D) : res operations :=
  let ps := (ps_read (reg_ps cpu)) in
  let sp_pcl := (stack_pointer_from_byte_value (reg_sp cpu)) in
  let sp_pch := (stack_pointer_from_byte_value (wrapping_sub_u8 (reg_sp cpu) 1)) in
  let sp_ps := (stack_pointer_from_byte_value (wrapping_sub_u8 (reg_sp cpu) 2)) in
  let '(pcl, pch) := (u16_to_le_bytes (wrapping_add_u16 (reg_pc cpu) 1)) in
  do! t1 <- am_read p (amap cpu) IRQ_VECTOR_LL ;
  do! t2 <- am_read p (amap cpu) IRQ_VECTOR_HH ;
  let irq_vector := (u16_from_le_bytes t1 t2) in
  Ok (operations_new 0 (inst_cycles Brk Implied)
    [ SetProgramStatusFlagState Break true;
      SetProgramStatusFlagState Interrupt true;
      WriteMemory sp_pcl pcl;
      Dec8bitRegister Sp 1;
      WriteMemory sp_pch pch;
      Dec8bitRegister Sp 1;
      WriteMemory sp_ps ps;
      Dec8bitRegister Sp 1;
      Write16bitRegister Pc irq_vector ]).

(** src/cpu/mos6502/operations/mod.rs:4107-4113 *)
Definition gen_NopImplied (p : profile) (cpu : mos6502 D) : res operations :=
  Ok (operations_new (inst_offset Implied) (inst_cycles Nop Implied) []).

(** src/cpu/mos6502/operations/mod.rs:337-840, dispatch. *)
Definition generate (p : profile) (v : instruction_variant) (cpu : mos6502 D) : res operations :=
  match v with
  | AdcAbsolute am => gen_AdcAbsolute p cpu am
  | AdcAbsoluteIndexedWithX am => gen_AdcAbsoluteIndexedWithX p cpu am
  | AdcAbsoluteIndexedWithY am => gen_AdcAbsoluteIndexedWithY p cpu am
  | AdcIndirectYIndexed am => gen_AdcIndirectYIndexed p cpu am
  | AdcImmediate am => gen_AdcImmediate p cpu am
  | AdcXIndexedIndirect am => gen_AdcXIndexedIndirect p cpu am
  | AdcZeroPage am => gen_AdcZeroPage p cpu am
  | AdcZeroPageIndexedWithX am => gen_AdcZeroPageIndexedWithX p cpu am
  | AndAbsolute am => gen_AndAbsolute p cpu am
  | AndAbsoluteIndexedWithX am => gen_AndAbsoluteIndexedWithX p cpu am
  | AndAbsoluteIndexedWithY am => gen_AndAbsoluteIndexedWithY p cpu am
  | AndIndirectYIndexed am => gen_AndIndirectYIndexed p cpu am
  | AndImmediate am => gen_AndImmediate p cpu am
  | AndXIndexedIndirect am => gen_AndXIndexedIndirect p cpu am
  | AndZeroPage am => gen_AndZeroPage p cpu am
  | AndZeroPageIndexedWithX am => gen_AndZeroPageIndexedWithX p cpu am
  | AslAbsolute am => gen_AslAbsolute p cpu am
  | AslAbsoluteIndexedWithX am => gen_AslAbsoluteIndexedWithX p cpu am
  | AslAccumulator => gen_AslAccumulator p cpu
  | AslZeroPage am => gen_AslZeroPage p cpu am
  | AslZeroPageIndexedWithX am => gen_AslZeroPageIndexedWithX p cpu am
  | BccRelative am => gen_BccRelative p cpu am
  | BcsRelative am => gen_BcsRelative p cpu am
  | BeqRelative am => gen_BeqRelative p cpu am
  | BmiRelative am => gen_BmiRelative p cpu am
  | BitAbsolute am => gen_BitAbsolute p cpu am
  | BitZeroPage am => gen_BitZeroPage p cpu am
  | BneRelative am => gen_BneRelative p cpu am
  | BplRelative am => gen_BplRelative p cpu am
  | BrkImplied => gen_BrkImplied p cpu
  | BvcRelative am => gen_BvcRelative p cpu am
  | BvsRelative am => gen_BvsRelative p cpu am
  | ClcImplied => gen_ClcImplied p cpu
  | CldImplied => gen_CldImplied p cpu
  | CliImplied => gen_CliImplied p cpu
  | ClvImplied => gen_ClvImplied p cpu
  | CmpAbsolute am => gen_CmpAbsolute p cpu am
  | CmpAbsoluteIndexedWithX am => gen_CmpAbsoluteIndexedWithX p cpu am
  | CmpAbsoluteIndexedWithY am => gen_CmpAbsoluteIndexedWithY p cpu am
  | CmpIndirectYIndexed am => gen_CmpIndirectYIndexed p cpu am
  | CmpImmediate am => gen_CmpImmediate p cpu am
  | CmpXIndexedIndirect am => gen_CmpXIndexedIndirect p cpu am
  | CmpZeroPage am => gen_CmpZeroPage p cpu am
  | CmpZeroPageIndexedWithX am => gen_CmpZeroPageIndexedWithX p cpu am
  | CpxAbsolute am => gen_CpxAbsolute p cpu am
  | CpxImmediate am => gen_CpxImmediate p cpu am
  | CpxZeroPage am => gen_CpxZeroPage p cpu am
  | CpyAbsolute am => gen_CpyAbsolute p cpu am
  | CpyImmediate am => gen_CpyImmediate p cpu am
  | CpyZeroPage am => gen_CpyZeroPage p cpu am
  | DecAbsolute am => gen_DecAbsolute p cpu am
  | DecAbsoluteIndexedWithX am => gen_DecAbsoluteIndexedWithX p cpu am
  | DecZeroPage am => gen_DecZeroPage p cpu am
  | DecZeroPageIndexedWithX am => gen_DecZeroPageIndexedWithX p cpu am
  | DexImplied => gen_DexImplied p cpu
  | DeyImplied => gen_DeyImplied p cpu
  | EorAbsolute am => gen_EorAbsolute p cpu am
  | EorAbsoluteIndexedWithX am => gen_EorAbsoluteIndexedWithX p cpu am
  | EorAbsoluteIndexedWithY am => gen_EorAbsoluteIndexedWithY p cpu am
  | EorIndirectYIndexed am => gen_EorIndirectYIndexed p cpu am
  | EorImmediate am => gen_EorImmediate p cpu am
  | EorXIndexedIndirect am => gen_EorXIndexedIndirect p cpu am
  | EorZeroPage am => gen_EorZeroPage p cpu am
  | EorZeroPageIndexedWithX am => gen_EorZeroPageIndexedWithX p cpu am
  | IncAbsolute am => gen_IncAbsolute p cpu am
  | IncAbsoluteIndexedWithX am => gen_IncAbsoluteIndexedWithX p cpu am
  | IncZeroPage am => gen_IncZeroPage p cpu am
  | IncZeroPageIndexedWithX am => gen_IncZeroPageIndexedWithX p cpu am
  | InxImplied => gen_InxImplied p cpu
  | InyImplied => gen_InyImplied p cpu
  | JmpAbsolute am => gen_JmpAbsolute p cpu am
  | JmpIndirect am => gen_JmpIndirect p cpu am
  | JsrAbsolute am => gen_JsrAbsolute p cpu am
  | LdaAbsolute am => gen_LdaAbsolute p cpu am
  | LdaAbsoluteIndexedWithX am => gen_LdaAbsoluteIndexedWithX p cpu am
  | LdaAbsoluteIndexedWithY am => gen_LdaAbsoluteIndexedWithY p cpu am
  | LdaIndirectYIndexed am => gen_LdaIndirectYIndexed p cpu am
  | LdaImmediate am => gen_LdaImmediate p cpu am
  | LdaXIndexedIndirect am => gen_LdaXIndexedIndirect p cpu am
  | LdaZeroPage am => gen_LdaZeroPage p cpu am
  | LdaZeroPageIndexedWithX am => gen_LdaZeroPageIndexedWithX p cpu am
  | LdxAbsolute am => gen_LdxAbsolute p cpu am
  | LdxAbsoluteIndexedWithY am => gen_LdxAbsoluteIndexedWithY p cpu am
  | LdxImmediate am => gen_LdxImmediate p cpu am
  | LdxZeroPage am => gen_LdxZeroPage p cpu am
  | LdxZeroPageIndexedWithY am => gen_LdxZeroPageIndexedWithY p cpu am
  | LdyAbsolute am => gen_LdyAbsolute p cpu am
  | LdyAbsoluteIndexedWithX am => gen_LdyAbsoluteIndexedWithX p cpu am
  | LdyImmediate am => gen_LdyImmediate p cpu am
  | LdyZeroPage am => gen_LdyZeroPage p cpu am
  | LdyZeroPageIndexedWithX am => gen_LdyZeroPageIndexedWithX p cpu am
  | LsrAbsolute am => gen_LsrAbsolute p cpu am
  | LsrAbsoluteIndexedWithX am => gen_LsrAbsoluteIndexedWithX p cpu am
  | LsrAccumulator => gen_LsrAccumulator p cpu
  | LsrZeroPage am => gen_LsrZeroPage p cpu am
  | LsrZeroPageIndexedWithX am => gen_LsrZeroPageIndexedWithX p cpu am
  | NopImplied => gen_NopImplied p cpu
  | OraAbsolute am => gen_OraAbsolute p cpu am
  | OraAbsoluteIndexedWithX am => gen_OraAbsoluteIndexedWithX p cpu am
  | OraAbsoluteIndexedWithY am => gen_OraAbsoluteIndexedWithY p cpu am
  | OraIndirectYIndexed am => gen_OraIndirectYIndexed p cpu am
  | OraImmediate am => gen_OraImmediate p cpu am
  | OraXIndexedIndirect am => gen_OraXIndexedIndirect p cpu am
  | OraZeroPage am => gen_OraZeroPage p cpu am
  | OraZeroPageIndexedWithX am => gen_OraZeroPageIndexedWithX p cpu am
  | PhaImplied => gen_PhaImplied p cpu
  | PhpImplied => gen_PhpImplied p cpu
  | PlaImplied => gen_PlaImplied p cpu
  | PlpImplied => gen_PlpImplied p cpu
  | RolAbsolute am => gen_RolAbsolute p cpu am
  | RolAbsoluteIndexedWithX am => gen_RolAbsoluteIndexedWithX p cpu am
  | RolAccumulator => gen_RolAccumulator p cpu
  | RolZeroPage am => gen_RolZeroPage p cpu am
  | RolZeroPageIndexedWithX am => gen_RolZeroPageIndexedWithX p cpu am
  | RorAbsolute am => gen_RorAbsolute p cpu am
  | RorAbsoluteIndexedWithX am => gen_RorAbsoluteIndexedWithX p cpu am
  | RorAccumulator => gen_RorAccumulator p cpu
  | RorZeroPage am => gen_RorZeroPage p cpu am
  | RorZeroPageIndexedWithX am => gen_RorZeroPageIndexedWithX p cpu am
  | RtiImplied => gen_RtiImplied p cpu
  | RtsImplied => gen_RtsImplied p cpu
  | SbcAbsolute am => gen_SbcAbsolute p cpu am
  | SbcAbsoluteIndexedWithX am => gen_SbcAbsoluteIndexedWithX p cpu am
  | SbcAbsoluteIndexedWithY am => gen_SbcAbsoluteIndexedWithY p cpu am
  | SbcIndirectYIndexed am => gen_SbcIndirectYIndexed p cpu am
  | SbcImmediate am => gen_SbcImmediate p cpu am
  | SbcXIndexedIndirect am => gen_SbcXIndexedIndirect p cpu am
  | SbcZeroPage am => gen_SbcZeroPage p cpu am
  | SbcZeroPageIndexedWithX am => gen_SbcZeroPageIndexedWithX p cpu am
  | StaAbsolute am => gen_StaAbsolute p cpu am
  | StaAbsoluteIndexedWithX am => gen_StaAbsoluteIndexedWithX p cpu am
  | StaAbsoluteIndexedWithY am => gen_StaAbsoluteIndexedWithY p cpu am
  | StaIndirectYIndexed am => gen_StaIndirectYIndexed p cpu am
  | StaXIndexedIndirect am => gen_StaXIndexedIndirect p cpu am
  | StaZeroPage am => gen_StaZeroPage p cpu am
  | StaZeroPageIndexedWithX am => gen_StaZeroPageIndexedWithX p cpu am
  | StxAbsolute am => gen_StxAbsolute p cpu am
  | StxZeroPage am => gen_StxZeroPage p cpu am
  | StxZeroPageIndexedWithY am => gen_StxZeroPageIndexedWithY p cpu am
  | StyAbsolute am => gen_StyAbsolute p cpu am
  | StyZeroPage am => gen_StyZeroPage p cpu am
  | StyZeroPageIndexedWithX am => gen_StyZeroPageIndexedWithX p cpu am
  | SecImplied => gen_SecImplied p cpu
  | SedImplied => gen_SedImplied p cpu
  | SeiImplied => gen_SeiImplied p cpu
  | TaxImplied => gen_TaxImplied p cpu
  | TayImplied => gen_TayImplied p cpu
  | TsxImplied => gen_TsxImplied p cpu
  | TxaImplied => gen_TxaImplied p cpu
  | TxsImplied => gen_TxsImplied p cpu
  | TyaImplied => gen_TyaImplied p cpu
  end.
End Generate.
