(** Generated by tools/genreads.py from ModelOps6502.v.
    Model of src/cpu/mos6502/operations/mod.rs:337-840 and 880-4113 with bus
    reads as requests (ModelIo.v): same bodies, same order. Each definition
    cites the impl it translates; ProofBusMap.v proves that answering the
    requests from an address map gives the functions of ModelOps6502.v. *)
From Verif Require Import Base ModelMap ModelRegs6502 ModelCpu6502 ModelOperand ModelIsa6502 ModelIo.

Section Generate.
Context {D : Type}.

(** src/cpu/mos6502/operations/mod.rs:880-902 *)
Definition ask_AdcAbsolute (p : profile) (cpu : mos6502 D) (operand : Z) : io operations :=
  let lhs := (operand_new (reg_acc cpu)) in
  io! rhs <- dereference_address_to_operand_io p cpu operand 0 ;
  let '(value, overflow) := (twos_complement_add lhs rhs (ps_carry (reg_ps cpu))) in
  Ret (operations_new (inst_offset Absolute) (inst_cycles Adc Absolute)
    [ SetProgramStatusFlagState Carry (op_carry value);
      SetProgramStatusFlagState Negative (op_negative value);
      SetProgramStatusFlagState Overflow overflow;
      SetProgramStatusFlagState Zero (op_zero value);
      Write8bitRegister Acc (operand_unwrap value) ]).

(** src/cpu/mos6502/operations/mod.rs:904-932 *)
Definition ask_AdcAbsoluteIndexedWithX (p : profile) (cpu : mos6502 D) (operand : Z) : io operations :=
  let addr := operand in
  let indexed_addr := (add_index_to_address addr (reg_x cpu)) in
  let lhs := (operand_new (reg_acc cpu)) in
  io! rhs <- dereference_address_to_operand_io p cpu indexed_addr 0 ;
  let '(value, overflow) := (twos_complement_add lhs rhs (ps_carry (reg_ps cpu))) in
  io! t2 <- io_lift (page_from_u16 p addr) ;
  let addr_in_page := (page_contains t2 indexed_addr) in
  let branch_penalty := (if (negb addr_in_page) then 1 else 0)%nat in
  Ret (operations_new (inst_offset AbsoluteIndexedWithX) ((inst_cycles Adc AbsoluteIndexedWithX) + branch_penalty)%nat
    [ SetProgramStatusFlagState Carry (op_carry value);
      SetProgramStatusFlagState Negative (op_negative value);
      SetProgramStatusFlagState Overflow overflow;
      SetProgramStatusFlagState Zero (op_zero value);
      Write8bitRegister Acc (operand_unwrap value) ]).

(** src/cpu/mos6502/operations/mod.rs:934-962 *)
Definition ask_AdcAbsoluteIndexedWithY (p : profile) (cpu : mos6502 D) (operand : Z) : io operations :=
  let addr := operand in
  let indexed_addr := (add_index_to_address addr (reg_y cpu)) in
  let lhs := (operand_new (reg_acc cpu)) in
  io! rhs <- dereference_address_to_operand_io p cpu indexed_addr 0 ;
  let '(value, overflow) := (twos_complement_add lhs rhs (ps_carry (reg_ps cpu))) in
  io! t2 <- io_lift (page_from_u16 p addr) ;
  let addr_in_page := (page_contains t2 indexed_addr) in
  let branch_penalty := (if (negb addr_in_page) then 1 else 0)%nat in
  Ret (operations_new (inst_offset AbsoluteIndexedWithY) ((inst_cycles Adc AbsoluteIndexedWithY) + branch_penalty)%nat
    [ SetProgramStatusFlagState Carry (op_carry value);
      SetProgramStatusFlagState Negative (op_negative value);
      SetProgramStatusFlagState Overflow overflow;
      SetProgramStatusFlagState Zero (op_zero value);
      Write8bitRegister Acc (operand_unwrap value) ]).

(** src/cpu/mos6502/operations/mod.rs:964-993 *)
Definition ask_AdcIndirectYIndexed (p : profile) (cpu : mos6502 D) (operand : Z) : io operations :=
  let zpage_base_addr := operand in
  io! indirect_addr <- dereference_indirect_indexed_address_io p cpu zpage_base_addr (reg_y cpu) ;
  let lhs := (operand_new (reg_acc cpu)) in
  io! t2 <- io_read indirect_addr ;
  let rhs := (operand_new t2) in
  let '(value, overflow) := (twos_complement_add lhs rhs (ps_carry (reg_ps cpu))) in
  let addr_in_page := (page_contains (page_from_u8 zpage_base_addr) indirect_addr) in
  let branch_penalty := (if (negb addr_in_page) then 1 else 0)%nat in
  Ret (operations_new (inst_offset IndirectYIndexed) ((inst_cycles Adc IndirectYIndexed) + branch_penalty)%nat
    [ SetProgramStatusFlagState Carry (op_carry value);
      SetProgramStatusFlagState Negative (op_negative value);
      SetProgramStatusFlagState Overflow overflow;
      SetProgramStatusFlagState Zero (op_zero value);
      Write8bitRegister Acc (operand_unwrap value) ]).

(** src/cpu/mos6502/operations/mod.rs:995-1017 *)
Definition ask_AdcImmediate (p : profile) (cpu : mos6502 D) (operand : Z) : io operations :=
  let lhs := (operand_new (reg_acc cpu)) in
  let rhs := (operand_new operand) in
  let '(value, overflow) := (twos_complement_add lhs rhs (ps_carry (reg_ps cpu))) in
  Ret (operations_new (inst_offset Immediate) (inst_cycles Adc Immediate)
    [ SetProgramStatusFlagState Carry (op_carry value);
      SetProgramStatusFlagState Negative (op_negative value);
      SetProgramStatusFlagState Overflow overflow;
      SetProgramStatusFlagState Zero (op_zero value);
      Write8bitRegister Acc (operand_unwrap value) ]).

(** src/cpu/mos6502/operations/mod.rs:1019-1043 *)
Definition ask_AdcXIndexedIndirect (p : profile) (cpu : mos6502 D) (operand : Z) : io operations :=
  io! indirect_addr <- dereference_indexed_indirect_address_io p cpu operand (reg_x cpu) ;
  let lhs := (operand_new (reg_acc cpu)) in
  io! t2 <- io_read indirect_addr ;
  let rhs := (operand_new t2) in
  let '(value, overflow) := (twos_complement_add lhs rhs (ps_carry (reg_ps cpu))) in
  Ret (operations_new (inst_offset XIndexedIndirect) (inst_cycles Adc XIndexedIndirect)
    [ SetProgramStatusFlagState Carry (op_carry value);
      SetProgramStatusFlagState Negative (op_negative value);
      SetProgramStatusFlagState Overflow overflow;
      SetProgramStatusFlagState Zero (op_zero value);
      Write8bitRegister Acc (operand_unwrap value) ]).

(** src/cpu/mos6502/operations/mod.rs:1045-1068 *)
Definition ask_AdcZeroPage (p : profile) (cpu : mos6502 D) (operand : Z) : io operations :=
  let addr := (add_index_to_zeropage_address operand 0) in
  let lhs := (operand_new (reg_acc cpu)) in
  io! rhs <- dereference_address_to_operand_io p cpu addr 0 ;
  let '(value, overflow) := (twos_complement_add lhs rhs (ps_carry (reg_ps cpu))) in
  Ret (operations_new (inst_offset ZeroPage) (inst_cycles Adc ZeroPage)
    [ SetProgramStatusFlagState Carry (op_carry value);
      SetProgramStatusFlagState Negative (op_negative value);
      SetProgramStatusFlagState Overflow overflow;
      SetProgramStatusFlagState Zero (op_zero value);
      Write8bitRegister Acc (operand_unwrap value) ]).

(** src/cpu/mos6502/operations/mod.rs:1070-1094 *)
Definition ask_AdcZeroPageIndexedWithX (p : profile) (cpu : mos6502 D) (operand : Z) : io operations :=
  let addr := operand in
  let indexed_addr := (add_index_to_zeropage_address addr (reg_x cpu)) in
  let lhs := (operand_new (reg_acc cpu)) in
  io! rhs <- dereference_address_to_operand_io p cpu indexed_addr 0 ;
  let '(value, overflow) := (twos_complement_add lhs rhs (ps_carry (reg_ps cpu))) in
  Ret (operations_new (inst_offset ZeroPageIndexedWithX) (inst_cycles Adc ZeroPageIndexedWithX)
    [ SetProgramStatusFlagState Carry (op_carry value);
      SetProgramStatusFlagState Negative (op_negative value);
      SetProgramStatusFlagState Overflow overflow;
      SetProgramStatusFlagState Zero (op_zero value);
      Write8bitRegister Acc (operand_unwrap value) ]).

(** src/cpu/mos6502/operations/mod.rs:1098-1120 *)
Definition ask_SbcAbsolute (p : profile) (cpu : mos6502 D) (operand : Z) : io operations :=
  let lhs := (operand_new (reg_acc cpu)) in
  io! rhs <- dereference_address_to_operand_io p cpu operand 0 ;
  let '(value, overflow) := (twos_complement_sub lhs rhs (ps_carry (reg_ps cpu))) in
  Ret (operations_new (inst_offset Absolute) (inst_cycles Sbc Absolute)
    [ SetProgramStatusFlagState Carry (op_carry value);
      SetProgramStatusFlagState Negative (op_negative value);
      SetProgramStatusFlagState Overflow overflow;
      SetProgramStatusFlagState Zero (op_zero value);
      Write8bitRegister Acc (operand_unwrap value) ]).

(** src/cpu/mos6502/operations/mod.rs:1122-1150 *)
Definition ask_SbcAbsoluteIndexedWithX (p : profile) (cpu : mos6502 D) (operand : Z) : io operations :=
  let addr := operand in
  let indexed_addr := (add_index_to_address addr (reg_x cpu)) in
  let lhs := (operand_new (reg_acc cpu)) in
  io! rhs <- dereference_address_to_operand_io p cpu indexed_addr 0 ;
  let '(value, overflow) := (twos_complement_sub lhs rhs (ps_carry (reg_ps cpu))) in
  io! t2 <- io_lift (page_from_u16 p addr) ;
  let addr_in_page := (page_contains t2 indexed_addr) in
  let branch_penalty := (if (negb addr_in_page) then 1 else 0)%nat in
  Ret (operations_new (inst_offset AbsoluteIndexedWithX) ((inst_cycles Sbc AbsoluteIndexedWithX) + branch_penalty)%nat
    [ SetProgramStatusFlagState Carry (op_carry value);
      SetProgramStatusFlagState Negative (op_negative value);
      SetProgramStatusFlagState Overflow overflow;
      SetProgramStatusFlagState Zero (op_zero value);
      Write8bitRegister Acc (operand_unwrap value) ]).

(** src/cpu/mos6502/operations/mod.rs:1152-1180 *)
Definition ask_SbcAbsoluteIndexedWithY (p : profile) (cpu : mos6502 D) (operand : Z) : io operations :=
  let addr := operand in
  let indexed_addr := (add_index_to_address addr (reg_y cpu)) in
  let lhs := (operand_new (reg_acc cpu)) in
  io! rhs <- dereference_address_to_operand_io p cpu indexed_addr 0 ;
  let '(value, overflow) := (twos_complement_sub lhs rhs (ps_carry (reg_ps cpu))) in
  io! t2 <- io_lift (page_from_u16 p addr) ;
  let addr_in_page := (page_contains t2 indexed_addr) in
  let branch_penalty := (if (negb addr_in_page) then 1 else 0)%nat in
  Ret (operations_new (inst_offset AbsoluteIndexedWithY) ((inst_cycles Sbc AbsoluteIndexedWithY) + branch_penalty)%nat
    [ SetProgramStatusFlagState Carry (op_carry value);
      SetProgramStatusFlagState Negative (op_negative value);
      SetProgramStatusFlagState Overflow overflow;
      SetProgramStatusFlagState Zero (op_zero value);
      Write8bitRegister Acc (operand_unwrap value) ]).

(** src/cpu/mos6502/operations/mod.rs:1182-1211 *)
Definition ask_SbcIndirectYIndexed (p : profile) (cpu : mos6502 D) (operand : Z) : io operations :=
  let zpage_base_addr := operand in
  io! indirect_addr <- dereference_indirect_indexed_address_io p cpu zpage_base_addr (reg_y cpu) ;
  let lhs := (operand_new (reg_acc cpu)) in
  io! t2 <- io_read indirect_addr ;
  let rhs := (operand_new t2) in
  let '(value, overflow) := (twos_complement_sub lhs rhs (ps_carry (reg_ps cpu))) in
  let addr_in_page := (page_contains (page_from_u8 zpage_base_addr) indirect_addr) in
  let branch_penalty := (if (negb addr_in_page) then 1 else 0)%nat in
  Ret (operations_new (inst_offset IndirectYIndexed) ((inst_cycles Sbc IndirectYIndexed) + branch_penalty)%nat
    [ SetProgramStatusFlagState Carry (op_carry value);
      SetProgramStatusFlagState Negative (op_negative value);
      SetProgramStatusFlagState Overflow overflow;
      SetProgramStatusFlagState Zero (op_zero value);
      Write8bitRegister Acc (operand_unwrap value) ]).

(** src/cpu/mos6502/operations/mod.rs:1213-1235 *)
Definition ask_SbcImmediate (p : profile) (cpu : mos6502 D) (operand : Z) : io operations :=
  let lhs := (operand_new (reg_acc cpu)) in
  let rhs := (operand_new operand) in
  let '(value, overflow) := (twos_complement_sub lhs rhs (ps_carry (reg_ps cpu))) in
  Ret (operations_new (inst_offset Immediate) (inst_cycles Sbc Immediate)
    [ SetProgramStatusFlagState Carry (op_carry value);
      SetProgramStatusFlagState Negative (op_negative value);
      SetProgramStatusFlagState Overflow overflow;
      SetProgramStatusFlagState Zero (op_zero value);
      Write8bitRegister Acc (operand_unwrap value) ]).

(** src/cpu/mos6502/operations/mod.rs:1237-1261 *)
Definition ask_SbcXIndexedIndirect (p : profile) (cpu : mos6502 D) (operand : Z) : io operations :=
  io! indirect_addr <- dereference_indexed_indirect_address_io p cpu operand (reg_x cpu) ;
  let lhs := (operand_new (reg_acc cpu)) in
  io! t2 <- io_read indirect_addr ;
  let rhs := (operand_new t2) in
  let '(value, overflow) := (twos_complement_sub lhs rhs (ps_carry (reg_ps cpu))) in
  Ret (operations_new (inst_offset XIndexedIndirect) (inst_cycles Sbc XIndexedIndirect)
    [ SetProgramStatusFlagState Carry (op_carry value);
      SetProgramStatusFlagState Negative (op_negative value);
      SetProgramStatusFlagState Overflow overflow;
      SetProgramStatusFlagState Zero (op_zero value);
      Write8bitRegister Acc (operand_unwrap value) ]).

(** src/cpu/mos6502/operations/mod.rs:1263-1286 *)
Definition ask_SbcZeroPage (p : profile) (cpu : mos6502 D) (operand : Z) : io operations :=
  let addr := (add_index_to_zeropage_address operand 0) in
  let lhs := (operand_new (reg_acc cpu)) in
  io! rhs <- dereference_address_to_operand_io p cpu addr 0 ;
  let '(value, overflow) := (twos_complement_sub lhs rhs (ps_carry (reg_ps cpu))) in
  Ret (operations_new (inst_offset ZeroPage) (inst_cycles Sbc ZeroPage)
    [ SetProgramStatusFlagState Carry (op_carry value);
      SetProgramStatusFlagState Negative (op_negative value);
      SetProgramStatusFlagState Overflow overflow;
      SetProgramStatusFlagState Zero (op_zero value);
      Write8bitRegister Acc (operand_unwrap value) ]).

(** src/cpu/mos6502/operations/mod.rs:1288-1312 *)
Definition ask_SbcZeroPageIndexedWithX (p : profile) (cpu : mos6502 D) (operand : Z) : io operations :=
  let addr := operand in
  let indexed_addr := (add_index_to_zeropage_address addr (reg_x cpu)) in
  let lhs := (operand_new (reg_acc cpu)) in
  io! rhs <- dereference_address_to_operand_io p cpu indexed_addr 0 ;
  let '(value, overflow) := (twos_complement_sub lhs rhs (ps_carry (reg_ps cpu))) in
  Ret (operations_new (inst_offset ZeroPageIndexedWithX) (inst_cycles Sbc ZeroPageIndexedWithX)
    [ SetProgramStatusFlagState Carry (op_carry value);
      SetProgramStatusFlagState Negative (op_negative value);
      SetProgramStatusFlagState Overflow overflow;
      SetProgramStatusFlagState Zero (op_zero value);
      Write8bitRegister Acc (operand_unwrap value) ]).

(** src/cpu/mos6502/operations/mod.rs:1318-1336 *)
Definition ask_AndAbsolute (p : profile) (cpu : mos6502 D) (operand : Z) : io operations :=
  let lhs := (operand_new (reg_acc cpu)) in
  io! rhs <- dereference_address_to_operand_io p cpu operand 0 ;
  let value := (operand_and lhs rhs) in
  Ret (operations_new (inst_offset Absolute) (inst_cycles And Absolute)
    [ SetProgramStatusFlagState Negative (op_negative value);
      SetProgramStatusFlagState Zero (op_zero value);
      Write8bitRegister Acc (operand_unwrap value) ]).

(** src/cpu/mos6502/operations/mod.rs:1338-1363 *)
Definition ask_AndAbsoluteIndexedWithX (p : profile) (cpu : mos6502 D) (operand : Z) : io operations :=
  let index := (reg_x cpu) in
  let addr := operand in
  let indexed_addr := (add_index_to_address addr index) in
  let lhs := (operand_new (reg_acc cpu)) in
  io! rhs <- dereference_address_to_operand_io p cpu addr index ;
  let value := (operand_and lhs rhs) in
  io! t2 <- io_lift (page_from_u16 p addr) ;
  let addr_in_page := (page_contains t2 indexed_addr) in
  let branch_penalty := (if (negb addr_in_page) then 1 else 0)%nat in
  Ret (operations_new (inst_offset AbsoluteIndexedWithX) ((inst_cycles And AbsoluteIndexedWithX) + branch_penalty)%nat
    [ SetProgramStatusFlagState Negative (op_negative value);
      SetProgramStatusFlagState Zero (op_zero value);
      Write8bitRegister Acc (operand_unwrap value) ]).

(** src/cpu/mos6502/operations/mod.rs:1365-1390 *)
Definition ask_AndAbsoluteIndexedWithY (p : profile) (cpu : mos6502 D) (operand : Z) : io operations :=
  let index := (reg_y cpu) in
  let addr := operand in
  let indexed_addr := (add_index_to_address addr index) in
  let lhs := (operand_new (reg_acc cpu)) in
  io! rhs <- dereference_address_to_operand_io p cpu addr index ;
  let value := (operand_and lhs rhs) in
  io! t2 <- io_lift (page_from_u16 p addr) ;
  let addr_in_page := (page_contains t2 indexed_addr) in
  let branch_penalty := (if (negb addr_in_page) then 1 else 0)%nat in
  Ret (operations_new (inst_offset AbsoluteIndexedWithY) ((inst_cycles And AbsoluteIndexedWithY) + branch_penalty)%nat
    [ SetProgramStatusFlagState Negative (op_negative value);
      SetProgramStatusFlagState Zero (op_zero value);
      Write8bitRegister Acc (operand_unwrap value) ]).

(** src/cpu/mos6502/operations/mod.rs:1392-1417 *)
Definition ask_AndIndirectYIndexed (p : profile) (cpu : mos6502 D) (operand : Z) : io operations :=
  let zpage_base_addr := operand in
  io! indirect_addr <- dereference_indirect_indexed_address_io p cpu zpage_base_addr (reg_y cpu) ;
  let lhs := (operand_new (reg_acc cpu)) in
  io! t2 <- io_read indirect_addr ;
  let rhs := (operand_new t2) in
  let value := (operand_and lhs rhs) in
  let addr_in_page := (page_contains (page_from_u8 zpage_base_addr) indirect_addr) in
  let branch_penalty := (if (negb addr_in_page) then 1 else 0)%nat in
  Ret (operations_new (inst_offset IndirectYIndexed) ((inst_cycles And IndirectYIndexed) + branch_penalty)%nat
    [ SetProgramStatusFlagState Negative (op_negative value);
      SetProgramStatusFlagState Zero (op_zero value);
      Write8bitRegister Acc (operand_unwrap value) ]).

(** src/cpu/mos6502/operations/mod.rs:1419-1437 *)
Definition ask_AndImmediate (p : profile) (cpu : mos6502 D) (operand : Z) : io operations :=
  let lhs := (operand_new (reg_acc cpu)) in
  let rhs := (operand_new operand) in
  let value := (operand_and lhs rhs) in
  Ret (operations_new (inst_offset Immediate) (inst_cycles And Immediate)
    [ SetProgramStatusFlagState Negative (op_negative value);
      SetProgramStatusFlagState Zero (op_zero value);
      Write8bitRegister Acc (operand_unwrap value) ]).

(** src/cpu/mos6502/operations/mod.rs:1439-1459 *)
Definition ask_AndXIndexedIndirect (p : profile) (cpu : mos6502 D) (operand : Z) : io operations :=
  io! indirect_addr <- dereference_indexed_indirect_address_io p cpu operand (reg_x cpu) ;
  let lhs := (operand_new (reg_acc cpu)) in
  io! t2 <- io_read indirect_addr ;
  let rhs := (operand_new t2) in
  let value := (operand_and lhs rhs) in
  Ret (operations_new (inst_offset XIndexedIndirect) (inst_cycles And XIndexedIndirect)
    [ SetProgramStatusFlagState Negative (op_negative value);
      SetProgramStatusFlagState Zero (op_zero value);
      Write8bitRegister Acc (operand_unwrap value) ]).

(** src/cpu/mos6502/operations/mod.rs:1461-1479 *)
Definition ask_AndZeroPage (p : profile) (cpu : mos6502 D) (operand : Z) : io operations :=
  let lhs := (operand_new (reg_acc cpu)) in
  io! rhs <- dereference_address_to_operand_io p cpu operand 0 ;
  let value := (operand_and lhs rhs) in
  Ret (operations_new (inst_offset ZeroPage) (inst_cycles And ZeroPage)
    [ SetProgramStatusFlagState Negative (op_negative value);
      SetProgramStatusFlagState Zero (op_zero value);
      Write8bitRegister Acc (operand_unwrap value) ]).

(** src/cpu/mos6502/operations/mod.rs:1481-1501 *)
Definition ask_AndZeroPageIndexedWithX (p : profile) (cpu : mos6502 D) (operand : Z) : io operations :=
  let index := (reg_x cpu) in
  let indexed_addr := (add_index_to_zeropage_address operand index) in
  let lhs := (operand_new (reg_acc cpu)) in
  io! rhs <- dereference_address_to_operand_io p cpu indexed_addr 0 ;
  let value := (operand_and lhs rhs) in
  Ret (operations_new (inst_offset ZeroPageIndexedWithX) (inst_cycles And ZeroPageIndexedWithX)
    [ SetProgramStatusFlagState Negative (op_negative value);
      SetProgramStatusFlagState Zero (op_zero value);
      Write8bitRegister Acc (operand_unwrap value) ]).

(** src/cpu/mos6502/operations/mod.rs:1505-1523 *)
Definition ask_AslAbsolute (p : profile) (cpu : mos6502 D) (operand : Z) : io operations :=
  let addr := operand in
  io! t1 <- dereference_address_to_operand_io p cpu addr 0 ;
  let value := (operand_shl t1 (operand_new 1)) in
  Ret (operations_new (inst_offset Absolute) (inst_cycles Asl Absolute)
    [ SetProgramStatusFlagState Carry (op_carry value);
      SetProgramStatusFlagState Negative (op_negative value);
      SetProgramStatusFlagState Zero (op_zero value);
      WriteMemory addr (operand_unwrap value) ]).

(** src/cpu/mos6502/operations/mod.rs:1525-1545 *)
Definition ask_AslAbsoluteIndexedWithX (p : profile) (cpu : mos6502 D) (operand : Z) : io operations :=
  let index := (reg_x cpu) in
  let addr := operand in
  let indexed_addr := (add_index_to_address addr index) in
  io! t1 <- dereference_address_to_operand_io p cpu addr index ;
  let value := (operand_shl t1 (operand_new 1)) in
  Ret (operations_new (inst_offset AbsoluteIndexedWithX) (inst_cycles Asl AbsoluteIndexedWithX)
    [ SetProgramStatusFlagState Carry (op_carry value);
      SetProgramStatusFlagState Negative (op_negative value);
      SetProgramStatusFlagState Zero (op_zero value);
      WriteMemory indexed_addr (operand_unwrap value) ]).

(** src/cpu/mos6502/operations/mod.rs:1547-1564 *)
Definition ask_AslAccumulator (p : profile) (cpu : mos6502 D) : io operations :=
  let value := (operand_shl (operand_new (reg_acc cpu)) (operand_new 1)) in
  Ret (operations_new (inst_offset Accumulator) (inst_cycles Asl Accumulator)
    [ SetProgramStatusFlagState Carry (op_carry value);
      SetProgramStatusFlagState Negative (op_negative value);
      SetProgramStatusFlagState Zero (op_zero value);
      Write8bitRegister Acc (operand_unwrap value) ]).

(** src/cpu/mos6502/operations/mod.rs:1566-1584 *)
Definition ask_AslZeroPage (p : profile) (cpu : mos6502 D) (operand : Z) : io operations :=
  let addr := operand in
  io! t1 <- dereference_address_to_operand_io p cpu addr 0 ;
  let value := (operand_shl t1 (operand_new 1)) in
  Ret (operations_new (inst_offset ZeroPage) (inst_cycles Asl ZeroPage)
    [ SetProgramStatusFlagState Carry (op_carry value);
      SetProgramStatusFlagState Negative (op_negative value);
      SetProgramStatusFlagState Zero (op_zero value);
      WriteMemory addr (operand_unwrap value) ]).

(** src/cpu/mos6502/operations/mod.rs:1586-1605 *)
Definition ask_AslZeroPageIndexedWithX (p : profile) (cpu : mos6502 D) (operand : Z) : io operations :=
  let index := (reg_x cpu) in
  let indexed_addr := (add_index_to_zeropage_address operand index) in
  io! t1 <- dereference_address_to_operand_io p cpu indexed_addr 0 ;
  let value := (operand_shl t1 (operand_new 1)) in
  Ret (operations_new (inst_offset ZeroPageIndexedWithX) (inst_cycles Asl ZeroPageIndexedWithX)
    [ SetProgramStatusFlagState Carry (op_carry value);
      SetProgramStatusFlagState Negative (op_negative value);
      SetProgramStatusFlagState Zero (op_zero value);
      WriteMemory indexed_addr (operand_unwrap value) ]).

(** src/cpu/mos6502/operations/mod.rs:1609-1629 *)
Definition ask_BitAbsolute (p : profile) (cpu : mos6502 D) (operand : Z) : io operations :=
  let lhs := (operand_new (reg_acc cpu)) in
  io! rhs <- dereference_address_to_operand_io p cpu operand 0 ;
  let negative := (bit_is_set (operand_unwrap rhs) 7) in
  let overflow := (bit_is_set (operand_unwrap rhs) 6) in
  let value := (operand_and lhs rhs) in
  Ret (operations_new (inst_offset Absolute) (inst_cycles Bit Absolute)
    [ SetProgramStatusFlagState Negative negative;
      SetProgramStatusFlagState Overflow overflow;
      SetProgramStatusFlagState Zero (op_zero value) ]).

(** src/cpu/mos6502/operations/mod.rs:1631-1652 *)
Definition ask_BitZeroPage (p : profile) (cpu : mos6502 D) (operand : Z) : io operations :=
  let addr := (add_index_to_zeropage_address operand 0) in
  let lhs := (operand_new (reg_acc cpu)) in
  io! rhs <- dereference_address_to_operand_io p cpu addr 0 ;
  let negative := (bit_is_set (operand_unwrap rhs) 7) in
  let overflow := (bit_is_set (operand_unwrap rhs) 6) in
  let value := (operand_and lhs rhs) in
  Ret (operations_new (inst_offset ZeroPage) (inst_cycles Bit ZeroPage)
    [ SetProgramStatusFlagState Negative negative;
      SetProgramStatusFlagState Overflow overflow;
      SetProgramStatusFlagState Zero (op_zero value) ]).

(** src/cpu/mos6502/operations/mod.rs:1656-1674 *)
Definition ask_EorAbsolute (p : profile) (cpu : mos6502 D) (operand : Z) : io operations :=
  let lhs := (operand_new (reg_acc cpu)) in
  io! rhs <- dereference_address_to_operand_io p cpu operand 0 ;
  let value := (operand_xor lhs rhs) in
  Ret (operations_new (inst_offset Absolute) (inst_cycles Eor Absolute)
    [ SetProgramStatusFlagState Negative (op_negative value);
      SetProgramStatusFlagState Zero (op_zero value);
      Write8bitRegister Acc (operand_unwrap value) ]).

(** src/cpu/mos6502/operations/mod.rs:1676-1701 *)
Definition ask_EorAbsoluteIndexedWithX (p : profile) (cpu : mos6502 D) (operand : Z) : io operations :=
  let index := (reg_x cpu) in
  let addr := operand in
  let indexed_addr := (add_index_to_address addr index) in
  let lhs := (operand_new (reg_acc cpu)) in
  io! rhs <- dereference_address_to_operand_io p cpu addr index ;
  let value := (operand_xor lhs rhs) in
  io! t2 <- io_lift (page_from_u16 p addr) ;
  let addr_in_page := (page_contains t2 indexed_addr) in
  let branch_penalty := (if (negb addr_in_page) then 1 else 0)%nat in
  Ret (operations_new (inst_offset AbsoluteIndexedWithX) ((inst_cycles Eor AbsoluteIndexedWithX) + branch_penalty)%nat
    [ SetProgramStatusFlagState Negative (op_negative value);
      SetProgramStatusFlagState Zero (op_zero value);
      Write8bitRegister Acc (operand_unwrap value) ]).

(** src/cpu/mos6502/operations/mod.rs:1703-1728 *)
Definition ask_EorAbsoluteIndexedWithY (p : profile) (cpu : mos6502 D) (operand : Z) : io operations :=
  let index := (reg_y cpu) in
  let addr := operand in
  let indexed_addr := (add_index_to_address addr index) in
  let lhs := (operand_new (reg_acc cpu)) in
  io! rhs <- dereference_address_to_operand_io p cpu addr index ;
  let value := (operand_xor lhs rhs) in
  io! t2 <- io_lift (page_from_u16 p addr) ;
  let addr_in_page := (page_contains t2 indexed_addr) in
  let branch_penalty := (if (negb addr_in_page) then 1 else 0)%nat in
  Ret (operations_new (inst_offset AbsoluteIndexedWithY) ((inst_cycles Eor AbsoluteIndexedWithY) + branch_penalty)%nat
    [ SetProgramStatusFlagState Negative (op_negative value);
      SetProgramStatusFlagState Zero (op_zero value);
      Write8bitRegister Acc (operand_unwrap value) ]).

(** src/cpu/mos6502/operations/mod.rs:1730-1755 *)
Definition ask_EorIndirectYIndexed (p : profile) (cpu : mos6502 D) (operand : Z) : io operations :=
  let zpage_base_addr := operand in
  io! indirect_addr <- dereference_indirect_indexed_address_io p cpu zpage_base_addr (reg_y cpu) ;
  let lhs := (operand_new (reg_acc cpu)) in
  io! t2 <- io_read indirect_addr ;
  let rhs := (operand_new t2) in
  let value := (operand_xor lhs rhs) in
  let addr_in_page := (page_contains (page_from_u8 zpage_base_addr) indirect_addr) in
  let branch_penalty := (if (negb addr_in_page) then 1 else 0)%nat in
  Ret (operations_new (inst_offset IndirectYIndexed) ((inst_cycles Eor IndirectYIndexed) + branch_penalty)%nat
    [ SetProgramStatusFlagState Negative (op_negative value);
      SetProgramStatusFlagState Zero (op_zero value);
      Write8bitRegister Acc (operand_unwrap value) ]).

(** src/cpu/mos6502/operations/mod.rs:1757-1775 *)
Definition ask_EorImmediate (p : profile) (cpu : mos6502 D) (operand : Z) : io operations :=
  let lhs := (operand_new (reg_acc cpu)) in
  let rhs := (operand_new operand) in
  let value := (operand_xor lhs rhs) in
  Ret (operations_new (inst_offset Immediate) (inst_cycles Eor Immediate)
    [ SetProgramStatusFlagState Negative (op_negative value);
      SetProgramStatusFlagState Zero (op_zero value);
      Write8bitRegister Acc (operand_unwrap value) ]).

(** src/cpu/mos6502/operations/mod.rs:1777-1797 *)
Definition ask_EorXIndexedIndirect (p : profile) (cpu : mos6502 D) (operand : Z) : io operations :=
  io! indirect_addr <- dereference_indexed_indirect_address_io p cpu operand (reg_x cpu) ;
  let lhs := (operand_new (reg_acc cpu)) in
  io! t2 <- io_read indirect_addr ;
  let rhs := (operand_new t2) in
  let value := (operand_xor lhs rhs) in
  Ret (operations_new (inst_offset XIndexedIndirect) (inst_cycles Eor XIndexedIndirect)
    [ SetProgramStatusFlagState Negative (op_negative value);
      SetProgramStatusFlagState Zero (op_zero value);
      Write8bitRegister Acc (operand_unwrap value) ]).

(** src/cpu/mos6502/operations/mod.rs:1799-1817 *)
Definition ask_EorZeroPage (p : profile) (cpu : mos6502 D) (operand : Z) : io operations :=
  let lhs := (operand_new (reg_acc cpu)) in
  io! rhs <- dereference_address_to_operand_io p cpu operand 0 ;
  let value := (operand_xor lhs rhs) in
  Ret (operations_new (inst_offset ZeroPage) (inst_cycles Eor ZeroPage)
    [ SetProgramStatusFlagState Negative (op_negative value);
      SetProgramStatusFlagState Zero (op_zero value);
      Write8bitRegister Acc (operand_unwrap value) ]).

(** src/cpu/mos6502/operations/mod.rs:1819-1839 *)
Definition ask_EorZeroPageIndexedWithX (p : profile) (cpu : mos6502 D) (operand : Z) : io operations :=
  let index := (reg_x cpu) in
  let indexed_addr := (add_index_to_zeropage_address operand index) in
  let lhs := (operand_new (reg_acc cpu)) in
  io! rhs <- dereference_address_to_operand_io p cpu indexed_addr 0 ;
  let value := (operand_xor lhs rhs) in
  Ret (operations_new (inst_offset ZeroPageIndexedWithX) (inst_cycles Eor ZeroPageIndexedWithX)
    [ SetProgramStatusFlagState Negative (op_negative value);
      SetProgramStatusFlagState Zero (op_zero value);
      Write8bitRegister Acc (operand_unwrap value) ]).

(** src/cpu/mos6502/operations/mod.rs:1843-1861 *)
Definition ask_LsrAbsolute (p : profile) (cpu : mos6502 D) (operand : Z) : io operations :=
  let addr := operand in
  io! t1 <- dereference_address_to_operand_io p cpu addr 0 ;
  let value := (operand_shr t1 (operand_new 1)) in
  Ret (operations_new (inst_offset Absolute) (inst_cycles Lsr Absolute)
    [ SetProgramStatusFlagState Carry (op_carry value);
      SetProgramStatusFlagState Negative (op_negative value);
      SetProgramStatusFlagState Zero (op_zero value);
      WriteMemory addr (operand_unwrap value) ]).

(** src/cpu/mos6502/operations/mod.rs:1863-1883 *)
Definition ask_LsrAbsoluteIndexedWithX (p : profile) (cpu : mos6502 D) (operand : Z) : io operations :=
  let index := (reg_x cpu) in
  let addr := operand in
  let indexed_addr := (add_index_to_address addr index) in
  io! t1 <- dereference_address_to_operand_io p cpu addr index ;
  let value := (operand_shr t1 (operand_new 1)) in
  Ret (operations_new (inst_offset AbsoluteIndexedWithX) (inst_cycles Lsr AbsoluteIndexedWithX)
    [ SetProgramStatusFlagState Carry (op_carry value);
      SetProgramStatusFlagState Negative (op_negative value);
      SetProgramStatusFlagState Zero (op_zero value);
      WriteMemory indexed_addr (operand_unwrap value) ]).

(** src/cpu/mos6502/operations/mod.rs:1885-1902 *)
Definition ask_LsrAccumulator (p : profile) (cpu : mos6502 D) : io operations :=
  let value := (operand_shr (operand_new (reg_acc cpu)) (operand_new 1)) in
  Ret (operations_new (inst_offset Accumulator) (inst_cycles Lsr Accumulator)
    [ SetProgramStatusFlagState Carry (op_carry value);
      SetProgramStatusFlagState Negative (op_negative value);
      SetProgramStatusFlagState Zero (op_zero value);
      Write8bitRegister Acc (operand_unwrap value) ]).

(** src/cpu/mos6502/operations/mod.rs:1904-1922 *)
Definition ask_LsrZeroPage (p : profile) (cpu : mos6502 D) (operand : Z) : io operations :=
  let addr := operand in
  io! t1 <- dereference_address_to_operand_io p cpu addr 0 ;
  let value := (operand_shr t1 (operand_new 1)) in
  Ret (operations_new (inst_offset ZeroPage) (inst_cycles Lsr ZeroPage)
    [ SetProgramStatusFlagState Carry (op_carry value);
      SetProgramStatusFlagState Negative (op_negative value);
      SetProgramStatusFlagState Zero (op_zero value);
      WriteMemory addr (operand_unwrap value) ]).

(** src/cpu/mos6502/operations/mod.rs:1924-1943 *)
Definition ask_LsrZeroPageIndexedWithX (p : profile) (cpu : mos6502 D) (operand : Z) : io operations :=
  let index := (reg_x cpu) in
  let indexed_addr := (add_index_to_zeropage_address operand index) in
  io! t1 <- dereference_address_to_operand_io p cpu indexed_addr 0 ;
  let value := (operand_shr t1 (operand_new 1)) in
  Ret (operations_new (inst_offset ZeroPageIndexedWithX) (inst_cycles Lsr ZeroPageIndexedWithX)
    [ SetProgramStatusFlagState Carry (op_carry value);
      SetProgramStatusFlagState Negative (op_negative value);
      SetProgramStatusFlagState Zero (op_zero value);
      WriteMemory indexed_addr (operand_unwrap value) ]).

(** src/cpu/mos6502/operations/mod.rs:1947-1965 *)
Definition ask_OraAbsolute (p : profile) (cpu : mos6502 D) (operand : Z) : io operations :=
  let lhs := (operand_new (reg_acc cpu)) in
  io! rhs <- dereference_address_to_operand_io p cpu operand 0 ;
  let value := (operand_or lhs rhs) in
  Ret (operations_new (inst_offset Absolute) (inst_cycles Ora Absolute)
    [ SetProgramStatusFlagState Negative (op_negative value);
      SetProgramStatusFlagState Zero (op_zero value);
      Write8bitRegister Acc (operand_unwrap value) ]).

(** src/cpu/mos6502/operations/mod.rs:1967-1992 *)
Definition ask_OraAbsoluteIndexedWithX (p : profile) (cpu : mos6502 D) (operand : Z) : io operations :=
  let index := (reg_x cpu) in
  let addr := operand in
  let indexed_addr := (add_index_to_address addr index) in
  let lhs := (operand_new (reg_acc cpu)) in
  io! rhs <- dereference_address_to_operand_io p cpu addr index ;
  let value := (operand_or lhs rhs) in
  io! t2 <- io_lift (page_from_u16 p addr) ;
  let addr_in_page := (page_contains t2 indexed_addr) in
  let branch_penalty := (if (negb addr_in_page) then 1 else 0)%nat in
  Ret (operations_new (inst_offset AbsoluteIndexedWithX) ((inst_cycles Ora AbsoluteIndexedWithX) + branch_penalty)%nat
    [ SetProgramStatusFlagState Negative (op_negative value);
      SetProgramStatusFlagState Zero (op_zero value);
      Write8bitRegister Acc (operand_unwrap value) ]).

(** src/cpu/mos6502/operations/mod.rs:1994-2019 *)
Definition ask_OraAbsoluteIndexedWithY (p : profile) (cpu : mos6502 D) (operand : Z) : io operations :=
  let index := (reg_y cpu) in
  let addr := operand in
  let indexed_addr := (add_index_to_address addr index) in
  let lhs := (operand_new (reg_acc cpu)) in
  io! rhs <- dereference_address_to_operand_io p cpu addr index ;
  let value := (operand_or lhs rhs) in
  io! t2 <- io_lift (page_from_u16 p addr) ;
  let addr_in_page := (page_contains t2 indexed_addr) in
  let branch_penalty := (if (negb addr_in_page) then 1 else 0)%nat in
  Ret (operations_new (inst_offset AbsoluteIndexedWithY) ((inst_cycles Ora AbsoluteIndexedWithY) + branch_penalty)%nat
    [ SetProgramStatusFlagState Negative (op_negative value);
      SetProgramStatusFlagState Zero (op_zero value);
      Write8bitRegister Acc (operand_unwrap value) ]).

(** src/cpu/mos6502/operations/mod.rs:2021-2046 *)
Definition ask_OraIndirectYIndexed (p : profile) (cpu : mos6502 D) (operand : Z) : io operations :=
  let zpage_base_addr := operand in
  io! indirect_addr <- dereference_indirect_indexed_address_io p cpu zpage_base_addr (reg_y cpu) ;
  let lhs := (operand_new (reg_acc cpu)) in
  io! t2 <- io_read indirect_addr ;
  let rhs := (operand_new t2) in
  let value := (operand_or lhs rhs) in
  let addr_in_page := (page_contains (page_from_u8 zpage_base_addr) indirect_addr) in
  let branch_penalty := (if (negb addr_in_page) then 1 else 0)%nat in
  Ret (operations_new (inst_offset IndirectYIndexed) ((inst_cycles Ora IndirectYIndexed) + branch_penalty)%nat
    [ SetProgramStatusFlagState Negative (op_negative value);
      SetProgramStatusFlagState Zero (op_zero value);
      Write8bitRegister Acc (operand_unwrap value) ]).

(** src/cpu/mos6502/operations/mod.rs:2048-2066 *)
Definition ask_OraImmediate (p : profile) (cpu : mos6502 D) (operand : Z) : io operations :=
  let lhs := (operand_new (reg_acc cpu)) in
  let rhs := (operand_new operand) in
  let value := (operand_or lhs rhs) in
  Ret (operations_new (inst_offset Immediate) (inst_cycles Ora Immediate)
    [ SetProgramStatusFlagState Negative (op_negative value);
      SetProgramStatusFlagState Zero (op_zero value);
      Write8bitRegister Acc (operand_unwrap value) ]).

(** src/cpu/mos6502/operations/mod.rs:2068-2088 *)
Definition ask_OraXIndexedIndirect (p : profile) (cpu : mos6502 D) (operand : Z) : io operations :=
  io! indirect_addr <- dereference_indexed_indirect_address_io p cpu operand (reg_x cpu) ;
  let lhs := (operand_new (reg_acc cpu)) in
  io! t2 <- io_read indirect_addr ;
  let rhs := (operand_new t2) in
  let value := (operand_or lhs rhs) in
  Ret (operations_new (inst_offset XIndexedIndirect) (inst_cycles Ora XIndexedIndirect)
    [ SetProgramStatusFlagState Negative (op_negative value);
      SetProgramStatusFlagState Zero (op_zero value);
      Write8bitRegister Acc (operand_unwrap value) ]).

(** src/cpu/mos6502/operations/mod.rs:2090-2108 *)
Definition ask_OraZeroPage (p : profile) (cpu : mos6502 D) (operand : Z) : io operations :=
  let lhs := (operand_new (reg_acc cpu)) in
  io! rhs <- dereference_address_to_operand_io p cpu operand 0 ;
  let value := (operand_or lhs rhs) in
  Ret (operations_new (inst_offset ZeroPage) (inst_cycles Ora ZeroPage)
    [ SetProgramStatusFlagState Negative (op_negative value);
      SetProgramStatusFlagState Zero (op_zero value);
      Write8bitRegister Acc (operand_unwrap value) ]).

(** src/cpu/mos6502/operations/mod.rs:2110-2130 *)
Definition ask_OraZeroPageIndexedWithX (p : profile) (cpu : mos6502 D) (operand : Z) : io operations :=
  let index := (reg_x cpu) in
  let indexed_addr := (add_index_to_zeropage_address operand index) in
  let lhs := (operand_new (reg_acc cpu)) in
  io! rhs <- dereference_address_to_operand_io p cpu indexed_addr 0 ;
  let value := (operand_or lhs rhs) in
  Ret (operations_new (inst_offset ZeroPageIndexedWithX) (inst_cycles Ora ZeroPageIndexedWithX)
    [ SetProgramStatusFlagState Negative (op_negative value);
      SetProgramStatusFlagState Zero (op_zero value);
      Write8bitRegister Acc (operand_unwrap value) ]).

(** src/cpu/mos6502/operations/mod.rs:2134-2153 *)
Definition ask_RolAbsolute (p : profile) (cpu : mos6502 D) (operand : Z) : io operations :=
  let addr := operand in
  io! lhs <- dereference_address_to_operand_io p cpu addr 0 ;
  let value := (operand_rol lhs (operand_new 1) (ps_carry (reg_ps cpu))) in
  Ret (operations_new (inst_offset Absolute) (inst_cycles Rol Absolute)
    [ SetProgramStatusFlagState Carry (op_carry value);
      SetProgramStatusFlagState Negative (op_negative value);
      SetProgramStatusFlagState Zero (op_zero value);
      WriteMemory addr (operand_unwrap value) ]).

(** src/cpu/mos6502/operations/mod.rs:2155-2176 *)
Definition ask_RolAbsoluteIndexedWithX (p : profile) (cpu : mos6502 D) (operand : Z) : io operations :=
  let index := (reg_x cpu) in
  let addr := operand in
  let indexed_addr := (add_index_to_address addr index) in
  io! lhs <- dereference_address_to_operand_io p cpu addr index ;
  let value := (operand_rol lhs (operand_new 1) (ps_carry (reg_ps cpu))) in
  Ret (operations_new (inst_offset AbsoluteIndexedWithX) (inst_cycles Rol AbsoluteIndexedWithX)
    [ SetProgramStatusFlagState Carry (op_carry value);
      SetProgramStatusFlagState Negative (op_negative value);
      SetProgramStatusFlagState Zero (op_zero value);
      WriteMemory indexed_addr (operand_unwrap value) ]).

(** src/cpu/mos6502/operations/mod.rs:2178-2195 *)
Definition ask_RolAccumulator (p : profile) (cpu : mos6502 D) : io operations :=
  let value := (operand_rol (operand_new (reg_acc cpu)) (operand_new 1) (ps_carry (reg_ps cpu))) in
  Ret (operations_new (inst_offset Accumulator) (inst_cycles Rol Accumulator)
    [ SetProgramStatusFlagState Carry (op_carry value);
      SetProgramStatusFlagState Negative (op_negative value);
      SetProgramStatusFlagState Zero (op_zero value);
      Write8bitRegister Acc (operand_unwrap value) ]).

(** src/cpu/mos6502/operations/mod.rs:2197-2216 *)
Definition ask_RolZeroPage (p : profile) (cpu : mos6502 D) (operand : Z) : io operations :=
  let addr := operand in
  io! lhs <- dereference_address_to_operand_io p cpu addr 0 ;
  let value := (operand_rol lhs (operand_new 1) (ps_carry (reg_ps cpu))) in
  Ret (operations_new (inst_offset ZeroPage) (inst_cycles Rol ZeroPage)
    [ SetProgramStatusFlagState Carry (op_carry value);
      SetProgramStatusFlagState Negative (op_negative value);
      SetProgramStatusFlagState Zero (op_zero value);
      WriteMemory addr (operand_unwrap value) ]).

(** src/cpu/mos6502/operations/mod.rs:2218-2238 *)
Definition ask_RolZeroPageIndexedWithX (p : profile) (cpu : mos6502 D) (operand : Z) : io operations :=
  let index := (reg_x cpu) in
  let indexed_addr := (add_index_to_zeropage_address operand index) in
  io! lhs <- dereference_address_to_operand_io p cpu indexed_addr 0 ;
  let value := (operand_rol lhs (operand_new 1) (ps_carry (reg_ps cpu))) in
  Ret (operations_new (inst_offset ZeroPageIndexedWithX) (inst_cycles Rol ZeroPageIndexedWithX)
    [ SetProgramStatusFlagState Carry (op_carry value);
      SetProgramStatusFlagState Negative (op_negative value);
      SetProgramStatusFlagState Zero (op_zero value);
      WriteMemory indexed_addr (operand_unwrap value) ]).

(** src/cpu/mos6502/operations/mod.rs:2242-2261 *)
Definition ask_RorAbsolute (p : profile) (cpu : mos6502 D) (operand : Z) : io operations :=
  let addr := operand in
  io! t1 <- dereference_address_to_operand_io p cpu addr 0 ;
  let value := (operand_ror t1 (operand_new 1) (ps_carry (reg_ps cpu))) in
  Ret (operations_new (inst_offset Absolute) (inst_cycles Ror Absolute)
    [ SetProgramStatusFlagState Carry (op_carry value);
      SetProgramStatusFlagState Negative (op_negative value);
      SetProgramStatusFlagState Zero (op_zero value);
      WriteMemory addr (operand_unwrap value) ]).

(** src/cpu/mos6502/operations/mod.rs:2263-2284 *)
Definition ask_RorAbsoluteIndexedWithX (p : profile) (cpu : mos6502 D) (operand : Z) : io operations :=
  let index := (reg_x cpu) in
  let addr := operand in
  let indexed_addr := (add_index_to_address addr index) in
  io! t1 <- dereference_address_to_operand_io p cpu addr index ;
  let value := (operand_ror t1 (operand_new 1) (ps_carry (reg_ps cpu))) in
  Ret (operations_new (inst_offset AbsoluteIndexedWithX) (inst_cycles Ror AbsoluteIndexedWithX)
    [ SetProgramStatusFlagState Carry (op_carry value);
      SetProgramStatusFlagState Negative (op_negative value);
      SetProgramStatusFlagState Zero (op_zero value);
      WriteMemory indexed_addr (operand_unwrap value) ]).

(** src/cpu/mos6502/operations/mod.rs:2286-2303 *)
Definition ask_RorAccumulator (p : profile) (cpu : mos6502 D) : io operations :=
  let value := (operand_ror (operand_new (reg_acc cpu)) (operand_new 1) (ps_carry (reg_ps cpu))) in
  Ret (operations_new (inst_offset Accumulator) (inst_cycles Ror Accumulator)
    [ SetProgramStatusFlagState Carry (op_carry value);
      SetProgramStatusFlagState Negative (op_negative value);
      SetProgramStatusFlagState Zero (op_zero value);
      Write8bitRegister Acc (operand_unwrap value) ]).

(** src/cpu/mos6502/operations/mod.rs:2305-2324 *)
Definition ask_RorZeroPage (p : profile) (cpu : mos6502 D) (operand : Z) : io operations :=
  let addr := operand in
  io! t1 <- dereference_address_to_operand_io p cpu addr 0 ;
  let value := (operand_ror t1 (operand_new 1) (ps_carry (reg_ps cpu))) in
  Ret (operations_new (inst_offset ZeroPage) (inst_cycles Ror ZeroPage)
    [ SetProgramStatusFlagState Carry (op_carry value);
      SetProgramStatusFlagState Negative (op_negative value);
      SetProgramStatusFlagState Zero (op_zero value);
      WriteMemory addr (operand_unwrap value) ]).

(** src/cpu/mos6502/operations/mod.rs:2326-2346 *)
Definition ask_RorZeroPageIndexedWithX (p : profile) (cpu : mos6502 D) (operand : Z) : io operations :=
  let index := (reg_x cpu) in
  let indexed_addr := (add_index_to_zeropage_address operand index) in
  io! t1 <- dereference_address_to_operand_io p cpu indexed_addr 0 ;
  let value := (operand_ror t1 (operand_new 1) (ps_carry (reg_ps cpu))) in
  Ret (operations_new (inst_offset ZeroPageIndexedWithX) (inst_cycles Ror ZeroPageIndexedWithX)
    [ SetProgramStatusFlagState Carry (op_carry value);
      SetProgramStatusFlagState Negative (op_negative value);
      SetProgramStatusFlagState Zero (op_zero value);
      WriteMemory indexed_addr (operand_unwrap value) ]).

(** src/cpu/mos6502/operations/mod.rs:2384-2392 *)
Definition ask_BccRelative (p : profile) (cpu : mos6502 D) (operand : Z) : io operations :=
  let offset := operand in
  io_lift (branch_on_case p (negb (ps_carry (reg_ps cpu))) offset (inst_offset Relative) (inst_cycles Bcc Relative) cpu).

(** src/cpu/mos6502/operations/mod.rs:2396-2404 *)
Definition ask_BcsRelative (p : profile) (cpu : mos6502 D) (operand : Z) : io operations :=
  let offset := operand in
  io_lift (branch_on_case p (ps_carry (reg_ps cpu)) offset (inst_offset Relative) (inst_cycles Bcs Relative) cpu).

(** src/cpu/mos6502/operations/mod.rs:2408-2416 *)
Definition ask_BeqRelative (p : profile) (cpu : mos6502 D) (operand : Z) : io operations :=
  let offset := operand in
  io_lift (branch_on_case p (ps_zero (reg_ps cpu)) offset (inst_offset Relative) (inst_cycles Beq Relative) cpu).

(** src/cpu/mos6502/operations/mod.rs:2420-2428 *)
Definition ask_BmiRelative (p : profile) (cpu : mos6502 D) (operand : Z) : io operations :=
  let offset := operand in
  io_lift (branch_on_case p (ps_negative (reg_ps cpu)) offset (inst_offset Relative) (inst_cycles Bmi Relative) cpu).

(** src/cpu/mos6502/operations/mod.rs:2432-2440 *)
Definition ask_BneRelative (p : profile) (cpu : mos6502 D) (operand : Z) : io operations :=
  let offset := operand in
  io_lift (branch_on_case p (negb (ps_zero (reg_ps cpu))) offset (inst_offset Relative) (inst_cycles Bne Relative) cpu).

(** src/cpu/mos6502/operations/mod.rs:2444-2452 *)
Definition ask_BplRelative (p : profile) (cpu : mos6502 D) (operand : Z) : io operations :=
  let offset := operand in
  io_lift (branch_on_case p (negb (ps_negative (reg_ps cpu))) offset (inst_offset Relative) (inst_cycles Bpl Relative) cpu).

(** src/cpu/mos6502/operations/mod.rs:2456-2464 *)
Definition ask_BvcRelative (p : profile) (cpu : mos6502 D) (operand : Z) : io operations :=
  let offset := operand in
  io_lift (branch_on_case p (negb (ps_overflow (reg_ps cpu))) offset (inst_offset Relative) (inst_cycles Bvc Relative) cpu).

(** src/cpu/mos6502/operations/mod.rs:2468-2476 *)
Definition ask_BvsRelative (p : profile) (cpu : mos6502 D) (operand : Z) : io operations :=
  let offset := operand in
  io_lift (branch_on_case p (ps_overflow (reg_ps cpu)) offset (inst_offset Relative) (inst_cycles Bvs Relative) cpu).

(** src/cpu/mos6502/operations/mod.rs:2480-2493 *)
Definition ask_ClcImplied (p : profile) (cpu : mos6502 D) : io operations :=
  Ret (operations_new (inst_offset Implied) (inst_cycles Clc Implied)
    [ SetProgramStatusFlagState Carry false ]).

(** src/cpu/mos6502/operations/mod.rs:2497-2510 *)
Definition ask_CldImplied (p : profile) (cpu : mos6502 D) : io operations :=
  Ret (operations_new (inst_offset Implied) (inst_cycles Cld Implied)
    [ SetProgramStatusFlagState Decimal false ]).

(** src/cpu/mos6502/operations/mod.rs:2514-2527 *)
Definition ask_CliImplied (p : profile) (cpu : mos6502 D) : io operations :=
  Ret (operations_new (inst_offset Implied) (inst_cycles Cli Implied)
    [ SetProgramStatusFlagState Interrupt false ]).

(** src/cpu/mos6502/operations/mod.rs:2531-2544 *)
Definition ask_ClvImplied (p : profile) (cpu : mos6502 D) : io operations :=
  Ret (operations_new (inst_offset Implied) (inst_cycles Clv Implied)
    [ SetProgramStatusFlagState Overflow false ]).

(** src/cpu/mos6502/operations/mod.rs:2548-2567 *)
Definition ask_CmpAbsolute (p : profile) (cpu : mos6502 D) (operand : Z) : io operations :=
  io! rhs <- dereference_address_to_operand_io p cpu operand 0 ;
  let lhs := (operand_new (reg_acc cpu)) in
  let carry := (operand_ge lhs rhs) in
  let diff := (operand_sub lhs rhs) in
  Ret (operations_new (inst_offset Absolute) (inst_cycles Cmp Absolute)
    [ SetProgramStatusFlagState Carry carry;
      SetProgramStatusFlagState Negative (op_negative diff);
      SetProgramStatusFlagState Zero (op_zero diff) ]).

(** src/cpu/mos6502/operations/mod.rs:2569-2595 *)
Definition ask_CmpAbsoluteIndexedWithX (p : profile) (cpu : mos6502 D) (operand : Z) : io operations :=
  let index := (reg_x cpu) in
  let base_addr := operand in
  let indexed_addr := (add_index_to_address base_addr index) in
  io! rhs <- dereference_address_to_operand_io p cpu indexed_addr 0 ;
  let lhs := (operand_new (reg_acc cpu)) in
  let carry := (operand_ge lhs rhs) in
  let diff := (operand_sub lhs rhs) in
  io! t2 <- io_lift (page_from_u16 p base_addr) ;
  let addr_in_page := (page_contains t2 indexed_addr) in
  let branch_penalty := (if (negb addr_in_page) then 1 else 0)%nat in
  Ret (operations_new (inst_offset AbsoluteIndexedWithX) ((inst_cycles Cmp AbsoluteIndexedWithX) + branch_penalty)%nat
    [ SetProgramStatusFlagState Carry carry;
      SetProgramStatusFlagState Negative (op_negative diff);
      SetProgramStatusFlagState Zero (op_zero diff) ]).

(** src/cpu/mos6502/operations/mod.rs:2597-2623 *)
Definition ask_CmpAbsoluteIndexedWithY (p : profile) (cpu : mos6502 D) (operand : Z) : io operations :=
  let index := (reg_y cpu) in
  let base_addr := operand in
  let indexed_addr := (add_index_to_address base_addr index) in
  io! rhs <- dereference_address_to_operand_io p cpu indexed_addr 0 ;
  let lhs := (operand_new (reg_acc cpu)) in
  let carry := (operand_ge lhs rhs) in
  let diff := (operand_sub lhs rhs) in
  io! t2 <- io_lift (page_from_u16 p base_addr) ;
  let addr_in_page := (page_contains t2 indexed_addr) in
  let branch_penalty := (if (negb addr_in_page) then 1 else 0)%nat in
  Ret (operations_new (inst_offset AbsoluteIndexedWithY) ((inst_cycles Cmp AbsoluteIndexedWithY) + branch_penalty)%nat
    [ SetProgramStatusFlagState Carry carry;
      SetProgramStatusFlagState Negative (op_negative diff);
      SetProgramStatusFlagState Zero (op_zero diff) ]).

(** src/cpu/mos6502/operations/mod.rs:2625-2651 *)
Definition ask_CmpIndirectYIndexed (p : profile) (cpu : mos6502 D) (operand : Z) : io operations :=
  let index := (reg_y cpu) in
  let base_addr := operand in
  io! indirect_addr <- dereference_indirect_indexed_address_io p cpu base_addr index ;
  io! rhs <- dereference_address_to_operand_io p cpu indirect_addr 0 ;
  let lhs := (operand_new (reg_acc cpu)) in
  let carry := (operand_ge lhs rhs) in
  let diff := (operand_sub lhs rhs) in
  let addr_in_page := (page_contains (page_from_u8 base_addr) indirect_addr) in
  let branch_penalty := (if (negb addr_in_page) then 1 else 0)%nat in
  Ret (operations_new (inst_offset IndirectYIndexed) ((inst_cycles Cmp IndirectYIndexed) + branch_penalty)%nat
    [ SetProgramStatusFlagState Carry carry;
      SetProgramStatusFlagState Negative (op_negative diff);
      SetProgramStatusFlagState Zero (op_zero diff) ]).

(** src/cpu/mos6502/operations/mod.rs:2653-2673 *)
Definition ask_CmpImmediate (p : profile) (cpu : mos6502 D) (operand : Z) : io operations :=
  let am_value := operand in
  let rhs := (operand_new am_value) in
  let lhs := (operand_new (reg_acc cpu)) in
  let carry := (operand_ge lhs rhs) in
  let diff := (operand_sub lhs rhs) in
  Ret (operations_new (inst_offset Immediate) (inst_cycles Cmp Immediate)
    [ SetProgramStatusFlagState Carry carry;
      SetProgramStatusFlagState Negative (op_negative diff);
      SetProgramStatusFlagState Zero (op_zero diff) ]).

(** src/cpu/mos6502/operations/mod.rs:2675-2697 *)
Definition ask_CmpXIndexedIndirect (p : profile) (cpu : mos6502 D) (operand : Z) : io operations :=
  let index := (reg_x cpu) in
  io! indirect_addr <- dereference_indexed_indirect_address_io p cpu operand index ;
  io! rhs <- dereference_address_to_operand_io p cpu indirect_addr 0 ;
  let lhs := (operand_new (reg_acc cpu)) in
  let carry := (operand_ge lhs rhs) in
  let diff := (operand_sub lhs rhs) in
  Ret (operations_new (inst_offset XIndexedIndirect) (inst_cycles Cmp XIndexedIndirect)
    [ SetProgramStatusFlagState Carry carry;
      SetProgramStatusFlagState Negative (op_negative diff);
      SetProgramStatusFlagState Zero (op_zero diff) ]).

(** src/cpu/mos6502/operations/mod.rs:2699-2718 *)
Definition ask_CmpZeroPage (p : profile) (cpu : mos6502 D) (operand : Z) : io operations :=
  io! rhs <- dereference_address_to_operand_io p cpu operand 0 ;
  let lhs := (operand_new (reg_acc cpu)) in
  let carry := (operand_ge lhs rhs) in
  let diff := (operand_sub lhs rhs) in
  Ret (operations_new (inst_offset ZeroPage) (inst_cycles Cmp ZeroPage)
    [ SetProgramStatusFlagState Carry carry;
      SetProgramStatusFlagState Negative (op_negative diff);
      SetProgramStatusFlagState Zero (op_zero diff) ]).

(** src/cpu/mos6502/operations/mod.rs:2720-2741 *)
Definition ask_CmpZeroPageIndexedWithX (p : profile) (cpu : mos6502 D) (operand : Z) : io operations :=
  let index := (reg_x cpu) in
  let base_addr := (add_index_to_zeropage_address operand index) in
  io! rhs <- dereference_address_to_operand_io p cpu base_addr 0 ;
  let lhs := (operand_new (reg_acc cpu)) in
  let carry := (operand_ge lhs rhs) in
  let diff := (operand_sub lhs rhs) in
  Ret (operations_new (inst_offset ZeroPageIndexedWithX) (inst_cycles Cmp ZeroPageIndexedWithX)
    [ SetProgramStatusFlagState Carry carry;
      SetProgramStatusFlagState Negative (op_negative diff);
      SetProgramStatusFlagState Zero (op_zero diff) ]).

(** src/cpu/mos6502/operations/mod.rs:2745-2764 *)
Definition ask_CpxAbsolute (p : profile) (cpu : mos6502 D) (operand : Z) : io operations :=
  io! rhs <- dereference_address_to_operand_io p cpu operand 0 ;
  let lhs := (operand_new (reg_x cpu)) in
  let carry := (operand_ge lhs rhs) in
  let diff := (operand_sub lhs rhs) in
  Ret (operations_new (inst_offset Absolute) (inst_cycles Cpx Absolute)
    [ SetProgramStatusFlagState Carry carry;
      SetProgramStatusFlagState Negative (op_negative diff);
      SetProgramStatusFlagState Zero (op_zero diff) ]).

(** src/cpu/mos6502/operations/mod.rs:2766-2786 *)
Definition ask_CpxImmediate (p : profile) (cpu : mos6502 D) (operand : Z) : io operations :=
  let am_value := operand in
  let rhs := (operand_new am_value) in
  let lhs := (operand_new (reg_x cpu)) in
  let carry := (operand_ge lhs rhs) in
  let diff := (operand_sub lhs rhs) in
  Ret (operations_new (inst_offset Immediate) (inst_cycles Cpx Immediate)
    [ SetProgramStatusFlagState Carry carry;
      SetProgramStatusFlagState Negative (op_negative diff);
      SetProgramStatusFlagState Zero (op_zero diff) ]).

(** src/cpu/mos6502/operations/mod.rs:2788-2807 *)
Definition ask_CpxZeroPage (p : profile) (cpu : mos6502 D) (operand : Z) : io operations :=
  io! rhs <- dereference_address_to_operand_io p cpu operand 0 ;
  let lhs := (operand_new (reg_x cpu)) in
  let carry := (operand_ge lhs rhs) in
  let diff := (operand_sub lhs rhs) in
  Ret (operations_new (inst_offset ZeroPage) (inst_cycles Cpx ZeroPage)
    [ SetProgramStatusFlagState Carry carry;
      SetProgramStatusFlagState Negative (op_negative diff);
      SetProgramStatusFlagState Zero (op_zero diff) ]).

(** src/cpu/mos6502/operations/mod.rs:2811-2830 *)
Definition ask_CpyAbsolute (p : profile) (cpu : mos6502 D) (operand : Z) : io operations :=
  io! rhs <- dereference_address_to_operand_io p cpu operand 0 ;
  let lhs := (operand_new (reg_y cpu)) in
  let carry := (operand_ge lhs rhs) in
  let diff := (operand_sub lhs rhs) in
  Ret (operations_new (inst_offset Absolute) (inst_cycles Cpy Absolute)
    [ SetProgramStatusFlagState Carry carry;
      SetProgramStatusFlagState Negative (op_negative diff);
      SetProgramStatusFlagState Zero (op_zero diff) ]).

(** src/cpu/mos6502/operations/mod.rs:2832-2852 *)
Definition ask_CpyImmediate (p : profile) (cpu : mos6502 D) (operand : Z) : io operations :=
  let am_value := operand in
  let rhs := (operand_new am_value) in
  let lhs := (operand_new (reg_y cpu)) in
  let carry := (operand_ge lhs rhs) in
  let diff := (operand_sub lhs rhs) in
  Ret (operations_new (inst_offset Immediate) (inst_cycles Cpy Immediate)
    [ SetProgramStatusFlagState Carry carry;
      SetProgramStatusFlagState Negative (op_negative diff);
      SetProgramStatusFlagState Zero (op_zero diff) ]).

(** src/cpu/mos6502/operations/mod.rs:2854-2873 *)
Definition ask_CpyZeroPage (p : profile) (cpu : mos6502 D) (operand : Z) : io operations :=
  io! rhs <- dereference_address_to_operand_io p cpu operand 0 ;
  let lhs := (operand_new (reg_y cpu)) in
  let carry := (operand_ge lhs rhs) in
  let diff := (operand_sub lhs rhs) in
  Ret (operations_new (inst_offset ZeroPage) (inst_cycles Cpy ZeroPage)
    [ SetProgramStatusFlagState Carry carry;
      SetProgramStatusFlagState Negative (op_negative diff);
      SetProgramStatusFlagState Zero (op_zero diff) ]).

(** src/cpu/mos6502/operations/mod.rs:2877-2894 *)
Definition ask_DecAbsolute (p : profile) (cpu : mos6502 D) (operand : Z) : io operations :=
  let addr := operand in
  io! t1 <- dereference_address_to_operand_io p cpu addr 0 ;
  let value := (operand_sub t1 (operand_new 1)) in
  Ret (operations_new (inst_offset Absolute) (inst_cycles Dec Absolute)
    [ SetProgramStatusFlagState Negative (op_negative value);
      SetProgramStatusFlagState Zero (op_zero value);
      WriteMemory addr (operand_unwrap value) ]).

(** src/cpu/mos6502/operations/mod.rs:2896-2915 *)
Definition ask_DecAbsoluteIndexedWithX (p : profile) (cpu : mos6502 D) (operand : Z) : io operations :=
  let index := (reg_x cpu) in
  let addr := operand in
  let indexed_addr := (add_index_to_address addr index) in
  io! t1 <- dereference_address_to_operand_io p cpu indexed_addr 0 ;
  let value := (operand_sub t1 (operand_new 1)) in
  Ret (operations_new (inst_offset AbsoluteIndexedWithX) (inst_cycles Dec AbsoluteIndexedWithX)
    [ SetProgramStatusFlagState Negative (op_negative value);
      SetProgramStatusFlagState Zero (op_zero value);
      WriteMemory indexed_addr (operand_unwrap value) ]).

(** src/cpu/mos6502/operations/mod.rs:2917-2934 *)
Definition ask_DecZeroPage (p : profile) (cpu : mos6502 D) (operand : Z) : io operations :=
  let addr := operand in
  io! t1 <- dereference_address_to_operand_io p cpu addr 0 ;
  let value := (operand_sub t1 (operand_new 1)) in
  Ret (operations_new (inst_offset ZeroPage) (inst_cycles Dec ZeroPage)
    [ SetProgramStatusFlagState Negative (op_negative value);
      SetProgramStatusFlagState Zero (op_zero value);
      WriteMemory addr (operand_unwrap value) ]).

(** src/cpu/mos6502/operations/mod.rs:2936-2955 *)
Definition ask_DecZeroPageIndexedWithX (p : profile) (cpu : mos6502 D) (operand : Z) : io operations :=
  let index := (reg_x cpu) in
  let addr := operand in
  let indexed_addr := (add_index_to_zeropage_address addr index) in
  io! t1 <- dereference_address_to_operand_io p cpu indexed_addr 0 ;
  let value := (operand_sub t1 (operand_new 1)) in
  Ret (operations_new (inst_offset ZeroPageIndexedWithX) (inst_cycles Dec ZeroPageIndexedWithX)
    [ SetProgramStatusFlagState Negative (op_negative value);
      SetProgramStatusFlagState Zero (op_zero value);
      WriteMemory indexed_addr (operand_unwrap value) ]).

(** src/cpu/mos6502/operations/mod.rs:2959-2975 *)
Definition ask_DexImplied (p : profile) (cpu : mos6502 D) : io operations :=
  let value := (operand_sub (operand_new (reg_x cpu)) (operand_new 1)) in
  Ret (operations_new (inst_offset Implied) (inst_cycles Dex Implied)
    [ SetProgramStatusFlagState Negative (op_negative value);
      SetProgramStatusFlagState Zero (op_zero value);
      Dec8bitRegister X 1 ]).

(** src/cpu/mos6502/operations/mod.rs:2979-2995 *)
Definition ask_DeyImplied (p : profile) (cpu : mos6502 D) : io operations :=
  let value := (operand_sub (operand_new (reg_x cpu)) (operand_new 1)) in
  Ret (operations_new (inst_offset Implied) (inst_cycles Dey Implied)
    [ SetProgramStatusFlagState Negative (op_negative value);
      SetProgramStatusFlagState Zero (op_zero value);
      Dec8bitRegister Y 1 ]).

(** src/cpu/mos6502/operations/mod.rs:2999-3016 *)
Definition ask_IncAbsolute (p : profile) (cpu : mos6502 D) (operand : Z) : io operations :=
  let addr := operand in
  io! t1 <- dereference_address_to_operand_io p cpu addr 0 ;
  let value := (operand_add t1 (operand_new 1)) in
  Ret (operations_new (inst_offset Absolute) (inst_cycles Inc Absolute)
    [ SetProgramStatusFlagState Negative (op_negative value);
      SetProgramStatusFlagState Zero (op_zero value);
      WriteMemory addr (operand_unwrap value) ]).

(** src/cpu/mos6502/operations/mod.rs:3018-3037 *)
Definition ask_IncAbsoluteIndexedWithX (p : profile) (cpu : mos6502 D) (operand : Z) : io operations :=
  let index := (reg_x cpu) in
  let addr := operand in
  let indexed_addr := (add_index_to_address addr index) in
  io! t1 <- dereference_address_to_operand_io p cpu indexed_addr 0 ;
  let value := (operand_add t1 (operand_new 1)) in
  Ret (operations_new (inst_offset AbsoluteIndexedWithX) (inst_cycles Inc AbsoluteIndexedWithX)
    [ SetProgramStatusFlagState Negative (op_negative value);
      SetProgramStatusFlagState Zero (op_zero value);
      WriteMemory indexed_addr (operand_unwrap value) ]).

(** src/cpu/mos6502/operations/mod.rs:3039-3056 *)
Definition ask_IncZeroPage (p : profile) (cpu : mos6502 D) (operand : Z) : io operations :=
  let addr := operand in
  io! t1 <- dereference_address_to_operand_io p cpu addr 0 ;
  let value := (operand_add t1 (operand_new 1)) in
  Ret (operations_new (inst_offset ZeroPage) (inst_cycles Inc ZeroPage)
    [ SetProgramStatusFlagState Negative (op_negative value);
      SetProgramStatusFlagState Zero (op_zero value);
      WriteMemory addr (operand_unwrap value) ]).

(** src/cpu/mos6502/operations/mod.rs:3058-3077 *)
Definition ask_IncZeroPageIndexedWithX (p : profile) (cpu : mos6502 D) (operand : Z) : io operations :=
  let index := (reg_x cpu) in
  let addr := operand in
  let indexed_addr := (add_index_to_zeropage_address addr index) in
  io! t1 <- dereference_address_to_operand_io p cpu indexed_addr 0 ;
  let value := (operand_add t1 (operand_new 1)) in
  Ret (operations_new (inst_offset ZeroPageIndexedWithX) (inst_cycles Inc ZeroPageIndexedWithX)
    [ SetProgramStatusFlagState Negative (op_negative value);
      SetProgramStatusFlagState Zero (op_zero value);
      WriteMemory indexed_addr (operand_unwrap value) ]).

(** src/cpu/mos6502/operations/mod.rs:3081-3097 *)
Definition ask_InxImplied (p : profile) (cpu : mos6502 D) : io operations :=
  let value := (operand_add (operand_new (reg_x cpu)) (operand_new 1)) in
  Ret (operations_new (inst_offset Implied) (inst_cycles Inx Implied)
    [ SetProgramStatusFlagState Negative (op_negative value);
      SetProgramStatusFlagState Zero (op_zero value);
      Write8bitRegister X (operand_unwrap value) ]).

(** src/cpu/mos6502/operations/mod.rs:3101-3117 *)
Definition ask_InyImplied (p : profile) (cpu : mos6502 D) : io operations :=
  let value := (operand_add (operand_new (reg_y cpu)) (operand_new 1)) in
  Ret (operations_new (inst_offset Implied) (inst_cycles Iny Implied)
    [ SetProgramStatusFlagState Negative (op_negative value);
      SetProgramStatusFlagState Zero (op_zero value);
      Write8bitRegister Y (operand_unwrap value) ]).

(** src/cpu/mos6502/operations/mod.rs:3121-3133 *)
Definition ask_JmpAbsolute (p : profile) (cpu : mos6502 D) (operand : Z) : io operations :=
  let addr := operand in
  Ret (operations_new 0 (inst_cycles Jmp Absolute)
    [ Write16bitRegister Pc addr ]).

(** src/cpu/mos6502/operations/mod.rs:3135-3150 *)
Definition ask_JmpIndirect (p : profile) (cpu : mos6502 D) (operand : Z) : io operations :=
  let indirect_addr := operand in
  io! lsb <- io_read indirect_addr ;
  io! t2 <- io_lift (add_u16 p indirect_addr 1) ;
  io! msb <- io_read t2 ;
  let addr := (u16_from_le_bytes lsb msb) in
  Ret (operations_new 0 (inst_cycles Jmp Indirect)
    [ Write16bitRegister Pc addr ]).

(** src/cpu/mos6502/operations/mod.rs:3154-3179 *)
Definition ask_JsrAbsolute (p : profile) (cpu : mos6502 D) (operand : Z) : io operations :=
  let addr := operand in
  let sph := (stack_pointer_from_byte_value (reg_sp cpu)) in
  let spl := (stack_pointer_from_byte_value (wrapping_sub_u8 (reg_sp cpu) 1)) in
  let '(pcl, pch) := (u16_to_le_bytes (wrapping_add_u16 (reg_pc cpu) 2)) in
  Ret (operations_new 0 (inst_cycles Jsr Absolute)
    [ WriteMemory sph pch;
      Dec8bitRegister Sp 1;
      WriteMemory spl pcl;
      Dec8bitRegister Sp 1;
      Write16bitRegister Pc addr ]).

(** src/cpu/mos6502/operations/mod.rs:3183-3199 *)
Definition ask_LdaImmediate (p : profile) (cpu : mos6502 D) (operand : Z) : io operations :=
  let value := (operand_new operand) in
  Ret (operations_new (inst_offset Immediate) (inst_cycles Lda Immediate)
    [ SetProgramStatusFlagState Negative (op_negative value);
      SetProgramStatusFlagState Zero (op_zero value);
      Write8bitRegister Acc (operand_unwrap value) ]).

(** src/cpu/mos6502/operations/mod.rs:3201-3217 *)
Definition ask_LdaZeroPage (p : profile) (cpu : mos6502 D) (operand : Z) : io operations :=
  io! value <- dereference_address_to_operand_io p cpu operand 0 ;
  Ret (operations_new (inst_offset ZeroPage) (inst_cycles Lda ZeroPage)
    [ SetProgramStatusFlagState Negative (op_negative value);
      SetProgramStatusFlagState Zero (op_zero value);
      Write8bitRegister Acc (operand_unwrap value) ]).

(** src/cpu/mos6502/operations/mod.rs:3219-3237 *)
Definition ask_LdaZeroPageIndexedWithX (p : profile) (cpu : mos6502 D) (operand : Z) : io operations :=
  let index := (reg_x cpu) in
  let addr := (add_index_to_zeropage_address operand index) in
  io! value <- dereference_address_to_operand_io p cpu addr 0 ;
  Ret (operations_new (inst_offset ZeroPageIndexedWithX) (inst_cycles Lda ZeroPageIndexedWithX)
    [ SetProgramStatusFlagState Negative (op_negative value);
      SetProgramStatusFlagState Zero (op_zero value);
      Write8bitRegister Acc (operand_unwrap value) ]).

(** src/cpu/mos6502/operations/mod.rs:3239-3255 *)
Definition ask_LdaAbsolute (p : profile) (cpu : mos6502 D) (operand : Z) : io operations :=
  let addr := operand in
  io! t1 <- io_read addr ;
  let value := (operand_new t1) in
  Ret (operations_new (inst_offset Absolute) (inst_cycles Lda Absolute)
    [ SetProgramStatusFlagState Negative (op_negative value);
      SetProgramStatusFlagState Zero (op_zero value);
      Write8bitRegister Acc (operand_unwrap value) ]).

(** src/cpu/mos6502/operations/mod.rs:3257-3280 *)
Definition ask_LdaAbsoluteIndexedWithX (p : profile) (cpu : mos6502 D) (operand : Z) : io operations :=
  let index := (reg_x cpu) in
  let addr := operand in
  let indexed_addr := (add_index_to_address addr index) in
  io! value <- dereference_address_to_operand_io p cpu addr index ;
  io! t2 <- io_lift (page_from_u16 p addr) ;
  let addr_in_page := (page_contains t2 indexed_addr) in
  let branch_penalty := (if (negb addr_in_page) then 1 else 0)%nat in
  Ret (operations_new (inst_offset AbsoluteIndexedWithX) ((inst_cycles Lda AbsoluteIndexedWithX) + branch_penalty)%nat
    [ SetProgramStatusFlagState Negative (op_negative value);
      SetProgramStatusFlagState Zero (op_zero value);
      Write8bitRegister Acc (operand_unwrap value) ]).

(** src/cpu/mos6502/operations/mod.rs:3282-3305 *)
Definition ask_LdaAbsoluteIndexedWithY (p : profile) (cpu : mos6502 D) (operand : Z) : io operations :=
  let index := (reg_y cpu) in
  let addr := operand in
  let indexed_addr := (add_index_to_address addr index) in
  io! value <- dereference_address_to_operand_io p cpu indexed_addr 0 ;
  io! t2 <- io_lift (page_from_u16 p addr) ;
  let addr_in_page := (page_contains t2 indexed_addr) in
  let branch_penalty := (if (negb addr_in_page) then 1 else 0)%nat in
  Ret (operations_new (inst_offset AbsoluteIndexedWithY) ((inst_cycles Lda AbsoluteIndexedWithY) + branch_penalty)%nat
    [ SetProgramStatusFlagState Negative (op_negative value);
      SetProgramStatusFlagState Zero (op_zero value);
      Write8bitRegister Acc (operand_unwrap value) ]).

(** src/cpu/mos6502/operations/mod.rs:3307-3330 *)
Definition ask_LdaIndirectYIndexed (p : profile) (cpu : mos6502 D) (operand : Z) : io operations :=
  let zpage_base_addr := operand in
  io! indirect_addr <- dereference_indirect_indexed_address_io p cpu zpage_base_addr (reg_y cpu) ;
  io! t2 <- io_read indirect_addr ;
  let value := (operand_new t2) in
  let addr_in_page := (page_contains (page_from_u8 zpage_base_addr) indirect_addr) in
  let branch_penalty := (if (negb addr_in_page) then 1 else 0)%nat in
  Ret (operations_new (inst_offset IndirectYIndexed) ((inst_cycles Lda IndirectYIndexed) + branch_penalty)%nat
    [ SetProgramStatusFlagState Negative (op_negative value);
      SetProgramStatusFlagState Zero (op_zero value);
      Write8bitRegister Acc (operand_unwrap value) ]).

(** src/cpu/mos6502/operations/mod.rs:3332-3350 *)
Definition ask_LdaXIndexedIndirect (p : profile) (cpu : mos6502 D) (operand : Z) : io operations :=
  io! indirect_addr <- dereference_indexed_indirect_address_io p cpu operand (reg_x cpu) ;
  io! t2 <- io_read indirect_addr ;
  let value := (operand_new t2) in
  Ret (operations_new (inst_offset XIndexedIndirect) (inst_cycles Lda XIndexedIndirect)
    [ SetProgramStatusFlagState Negative (op_negative value);
      SetProgramStatusFlagState Zero (op_zero value);
      Write8bitRegister Acc (operand_unwrap value) ]).

(** src/cpu/mos6502/operations/mod.rs:3354-3371 *)
Definition ask_LdxAbsolute (p : profile) (cpu : mos6502 D) (operand : Z) : io operations :=
  let addr := operand in
  io! value <- dereference_address_to_operand_io p cpu addr 0 ;
  Ret (operations_new (inst_offset Absolute) (inst_cycles Ldx Absolute)
    [ SetProgramStatusFlagState Negative (op_negative value);
      SetProgramStatusFlagState Zero (op_zero value);
      Write8bitRegister X (operand_unwrap value) ]).

(** src/cpu/mos6502/operations/mod.rs:3373-3396 *)
Definition ask_LdxAbsoluteIndexedWithY (p : profile) (cpu : mos6502 D) (operand : Z) : io operations :=
  let index := (reg_y cpu) in
  let addr := operand in
  let indexed_addr := (add_index_to_address addr index) in
  io! value <- dereference_address_to_operand_io p cpu indexed_addr 0 ;
  io! t2 <- io_lift (page_from_u16 p addr) ;
  let addr_in_page := (page_contains t2 indexed_addr) in
  let branch_penalty := (if (negb addr_in_page) then 1 else 0)%nat in
  Ret (operations_new (inst_offset AbsoluteIndexedWithY) ((inst_cycles Ldx AbsoluteIndexedWithY) + branch_penalty)%nat
    [ SetProgramStatusFlagState Negative (op_negative value);
      SetProgramStatusFlagState Zero (op_zero value);
      Write8bitRegister X (operand_unwrap value) ]).

(** src/cpu/mos6502/operations/mod.rs:3398-3414 *)
Definition ask_LdxImmediate (p : profile) (cpu : mos6502 D) (operand : Z) : io operations :=
  let value := (operand_new operand) in
  Ret (operations_new (inst_offset Immediate) (inst_cycles Ldx Immediate)
    [ SetProgramStatusFlagState Negative (op_negative value);
      SetProgramStatusFlagState Zero (op_zero value);
      Write8bitRegister X (operand_unwrap value) ]).

(** src/cpu/mos6502/operations/mod.rs:3416-3432 *)
Definition ask_LdxZeroPage (p : profile) (cpu : mos6502 D) (operand : Z) : io operations :=
  io! value <- dereference_address_to_operand_io p cpu operand 0 ;
  Ret (operations_new (inst_offset ZeroPage) (inst_cycles Ldx ZeroPage)
    [ SetProgramStatusFlagState Negative (op_negative value);
      SetProgramStatusFlagState Zero (op_zero value);
      Write8bitRegister X (operand_unwrap value) ]).

(** src/cpu/mos6502/operations/mod.rs:3434-3452 *)
Definition ask_LdxZeroPageIndexedWithY (p : profile) (cpu : mos6502 D) (operand : Z) : io operations :=
  let index := (reg_y cpu) in
  let addr := (add_index_to_zeropage_address operand index) in
  io! value <- dereference_address_to_operand_io p cpu addr 0 ;
  Ret (operations_new (inst_offset ZeroPageIndexedWithY) (inst_cycles Ldx ZeroPageIndexedWithY)
    [ SetProgramStatusFlagState Negative (op_negative value);
      SetProgramStatusFlagState Zero (op_zero value);
      Write8bitRegister X (operand_unwrap value) ]).

(** src/cpu/mos6502/operations/mod.rs:3456-3473 *)
Definition ask_LdyAbsolute (p : profile) (cpu : mos6502 D) (operand : Z) : io operations :=
  let addr := operand in
  io! value <- dereference_address_to_operand_io p cpu addr 0 ;
  Ret (operations_new (inst_offset Absolute) (inst_cycles Ldy Absolute)
    [ SetProgramStatusFlagState Negative (op_negative value);
      SetProgramStatusFlagState Zero (op_zero value);
      Write8bitRegister Y (operand_unwrap value) ]).

(** src/cpu/mos6502/operations/mod.rs:3475-3498 *)
Definition ask_LdyAbsoluteIndexedWithX (p : profile) (cpu : mos6502 D) (operand : Z) : io operations :=
  let index := (reg_x cpu) in
  let addr := operand in
  let indexed_addr := (add_index_to_address addr index) in
  io! value <- dereference_address_to_operand_io p cpu indexed_addr 0 ;
  io! t2 <- io_lift (page_from_u16 p addr) ;
  let addr_in_page := (page_contains t2 indexed_addr) in
  let branch_penalty := (if (negb addr_in_page) then 1 else 0)%nat in
  Ret (operations_new (inst_offset AbsoluteIndexedWithX) ((inst_cycles Ldy AbsoluteIndexedWithX) + branch_penalty)%nat
    [ SetProgramStatusFlagState Negative (op_negative value);
      SetProgramStatusFlagState Zero (op_zero value);
      Write8bitRegister Y (operand_unwrap value) ]).

(** src/cpu/mos6502/operations/mod.rs:3500-3516 *)
Definition ask_LdyImmediate (p : profile) (cpu : mos6502 D) (operand : Z) : io operations :=
  let value := (operand_new operand) in
  Ret (operations_new (inst_offset Immediate) (inst_cycles Ldy Immediate)
    [ SetProgramStatusFlagState Negative (op_negative value);
      SetProgramStatusFlagState Zero (op_zero value);
      Write8bitRegister Y (operand_unwrap value) ]).

(** src/cpu/mos6502/operations/mod.rs:3518-3534 *)
Definition ask_LdyZeroPage (p : profile) (cpu : mos6502 D) (operand : Z) : io operations :=
  io! value <- dereference_address_to_operand_io p cpu operand 0 ;
  Ret (operations_new (inst_offset ZeroPage) (inst_cycles Ldy ZeroPage)
    [ SetProgramStatusFlagState Negative (op_negative value);
      SetProgramStatusFlagState Zero (op_zero value);
      Write8bitRegister Y (operand_unwrap value) ]).

(** src/cpu/mos6502/operations/mod.rs:3536-3554 *)
Definition ask_LdyZeroPageIndexedWithX (p : profile) (cpu : mos6502 D) (operand : Z) : io operations :=
  let index := (reg_x cpu) in
  let addr := (add_index_to_zeropage_address operand index) in
  io! value <- dereference_address_to_operand_io p cpu addr 0 ;
  Ret (operations_new (inst_offset ZeroPageIndexedWithX) (inst_cycles Ldy ZeroPageIndexedWithX)
    [ SetProgramStatusFlagState Negative (op_negative value);
      SetProgramStatusFlagState Zero (op_zero value);
      Write8bitRegister Y (operand_unwrap value) ]).

(** src/cpu/mos6502/operations/mod.rs:3558-3574 *)
Definition ask_PhaImplied (p : profile) (cpu : mos6502 D) : io operations :=
  let value := (reg_acc cpu) in
  let sp := (reg_sp cpu) in
  Ret (operations_new (inst_offset Implied) (inst_cycles Pha Implied)
    [ WriteMemory (stack_pointer_from_byte_value sp) value;
      Dec8bitRegister Sp 1 ]).

(** src/cpu/mos6502/operations/mod.rs:3578-3594 *)
Definition ask_PhpImplied (p : profile) (cpu : mos6502 D) : io operations :=
  let value := (ps_read (reg_ps cpu)) in
  let sp := (reg_sp cpu) in
  Ret (operations_new (inst_offset Implied) (inst_cycles Php Implied)
    [ WriteMemory (stack_pointer_from_byte_value sp) value;
      Dec8bitRegister Sp 1 ]).

(** src/cpu/mos6502/operations/mod.rs:3598-3616 *)
Definition ask_PlaImplied (p : profile) (cpu : mos6502 D) : io operations :=
  let sp := (wrapping_add_u8 (reg_sp cpu) 1) in
  io! value <- dereference_address_to_operand_io p cpu (stack_pointer_from_byte_value sp) 0 ;
  Ret (operations_new (inst_offset Implied) (inst_cycles Pla Implied)
    [ Inc8bitRegister Sp 1;
      SetProgramStatusFlagState Negative (op_negative value);
      SetProgramStatusFlagState Zero (op_zero value);
      Write8bitRegister Acc (operand_unwrap value) ]).

(** src/cpu/mos6502/operations/mod.rs:3620-3636 *)
Definition ask_PlpImplied (p : profile) (cpu : mos6502 D) : io operations :=
  let sp := (wrapping_add_u8 (reg_sp cpu) 1) in
  io! value <- dereference_address_to_operand_io p cpu (stack_pointer_from_byte_value sp) 0 ;
  Ret (operations_new (inst_offset Implied) (inst_cycles Plp Implied)
    [ Inc8bitRegister Sp 1;
      Write8bitRegister Ps (operand_unwrap value) ]).

(** src/cpu/mos6502/operations/mod.rs:3640-3666 *)
Definition ask_RtiImplied (p : profile) (cpu : mos6502 D) : io operations :=
  let sp_psl := (stack_pointer_from_byte_value (wrapping_add_u8 (reg_sp cpu) 1)) in
  io! sp <- io_read sp_psl ;
  let sp_pcl := (stack_pointer_from_byte_value (wrapping_add_u8 (reg_sp cpu) 2)) in
  let sp_pch := (stack_pointer_from_byte_value (wrapping_add_u8 (reg_sp cpu) 3)) in
  io! t2 <- io_read sp_pcl ;
  io! t3 <- io_read sp_pch ;
  let lsb := t2 in
  let hsb := t3 in
  let ret_addr := (u16_from_le_bytes lsb hsb) in
  Ret (operations_new (inst_offset Implied) (inst_cycles Rti Implied)
    [ Inc8bitRegister Sp 1;
      Write8bitRegister Ps sp;
      Inc8bitRegister Sp 2;
      Write16bitRegister Pc ret_addr ]).

(** src/cpu/mos6502/operations/mod.rs:3670-3690 *)
Definition ask_RtsImplied (p : profile) (cpu : mos6502 D) : io operations :=
  let spl := (stack_pointer_from_byte_value (wrapping_add_u8 (reg_sp cpu) 1)) in
  let sph := (stack_pointer_from_byte_value (wrapping_add_u8 (reg_sp cpu) 2)) in
  io! t1 <- io_read spl ;
  io! t2 <- io_read sph ;
  let lsb := t1 in
  let hsb := t2 in
  let ret_addr := (u16_from_le_bytes lsb hsb) in
  Ret (operations_new (inst_offset Implied) (inst_cycles Rts Implied)
    [ Inc8bitRegister Sp 2;
      Write16bitRegister Pc ret_addr ]).

(** src/cpu/mos6502/operations/mod.rs:3694-3707 *)
Definition ask_SecImplied (p : profile) (cpu : mos6502 D) : io operations :=
  Ret (operations_new (inst_offset Implied) (inst_cycles Sec Implied)
    [ SetProgramStatusFlagState Carry true ]).

(** src/cpu/mos6502/operations/mod.rs:3711-3724 *)
Definition ask_SedImplied (p : profile) (cpu : mos6502 D) : io operations :=
  Ret (operations_new (inst_offset Implied) (inst_cycles Sed Implied)
    [ SetProgramStatusFlagState Decimal true ]).

(** src/cpu/mos6502/operations/mod.rs:3728-3741 *)
Definition ask_SeiImplied (p : profile) (cpu : mos6502 D) : io operations :=
  Ret (operations_new (inst_offset Implied) (inst_cycles Sei Implied)
    [ SetProgramStatusFlagState Interrupt true ]).

(** src/cpu/mos6502/operations/mod.rs:3745-3757 *)
Definition ask_StaAbsolute (p : profile) (cpu : mos6502 D) (operand : Z) : io operations :=
  let addr := operand in
  let acc_val := (reg_acc cpu) in
  Ret (operations_new (inst_offset Absolute) (inst_cycles Sta Absolute)
    [ WriteMemory addr acc_val ]).

(** src/cpu/mos6502/operations/mod.rs:3759-3772 *)
Definition ask_StaAbsoluteIndexedWithX (p : profile) (cpu : mos6502 D) (operand : Z) : io operations :=
  let index := (reg_x cpu) in
  let indexed_addr := (add_index_to_address operand index) in
  let acc_val := (reg_acc cpu) in
  Ret (operations_new (inst_offset AbsoluteIndexedWithX) (inst_cycles Sta AbsoluteIndexedWithX)
    [ WriteMemory indexed_addr acc_val ]).

(** src/cpu/mos6502/operations/mod.rs:3774-3788 *)
Definition ask_StaAbsoluteIndexedWithY (p : profile) (cpu : mos6502 D) (operand : Z) : io operations :=
  let index := (reg_y cpu) in
  let indexed_addr := (add_index_to_address operand index) in
  let acc_val := (reg_acc cpu) in
  Ret (operations_new (inst_offset AbsoluteIndexedWithY) (inst_cycles Sta AbsoluteIndexedWithY)
    [ WriteMemory indexed_addr acc_val ]).

(** src/cpu/mos6502/operations/mod.rs:3790-3803 *)
Definition ask_StaIndirectYIndexed (p : profile) (cpu : mos6502 D) (operand : Z) : io operations :=
  io! indirect_addr <- dereference_indirect_indexed_address_io p cpu operand (reg_y cpu) ;
  let acc_val := (reg_acc cpu) in
  Ret (operations_new (inst_offset IndirectYIndexed) (inst_cycles Sta IndirectYIndexed)
    [ WriteMemory indirect_addr acc_val ]).

(** src/cpu/mos6502/operations/mod.rs:3805-3818 *)
Definition ask_StaXIndexedIndirect (p : profile) (cpu : mos6502 D) (operand : Z) : io operations :=
  io! indirect_addr <- dereference_indexed_indirect_address_io p cpu operand (reg_x cpu) ;
  let acc_val := (reg_acc cpu) in
  Ret (operations_new (inst_offset XIndexedIndirect) (inst_cycles Sta XIndexedIndirect)
    [ WriteMemory indirect_addr acc_val ]).

(** src/cpu/mos6502/operations/mod.rs:3820-3833 *)
Definition ask_StaZeroPage (p : profile) (cpu : mos6502 D) (operand : Z) : io operations :=
  let addr := operand in
  let acc_val := (reg_acc cpu) in
  Ret (operations_new (inst_offset ZeroPage) (inst_cycles Sta ZeroPage)
    [ WriteMemory addr acc_val ]).

(** src/cpu/mos6502/operations/mod.rs:3835-3849 *)
Definition ask_StaZeroPageIndexedWithX (p : profile) (cpu : mos6502 D) (operand : Z) : io operations :=
  let index := (reg_x cpu) in
  let indexed_addr := (add_index_to_zeropage_address operand index) in
  let acc_val := (reg_acc cpu) in
  Ret (operations_new (inst_offset ZeroPageIndexedWithX) (inst_cycles Sta ZeroPageIndexedWithX)
    [ WriteMemory indexed_addr acc_val ]).

(** src/cpu/mos6502/operations/mod.rs:3853-3865 *)
Definition ask_StxAbsolute (p : profile) (cpu : mos6502 D) (operand : Z) : io operations :=
  let addr := operand in
  let value := (reg_x cpu) in
  Ret (operations_new (inst_offset Absolute) (inst_cycles Stx Absolute)
    [ WriteMemory addr value ]).

(** src/cpu/mos6502/operations/mod.rs:3867-3880 *)
Definition ask_StxZeroPage (p : profile) (cpu : mos6502 D) (operand : Z) : io operations :=
  let addr := operand in
  let value := (reg_x cpu) in
  Ret (operations_new (inst_offset ZeroPage) (inst_cycles Stx ZeroPage)
    [ WriteMemory addr value ]).

(** src/cpu/mos6502/operations/mod.rs:3882-3896 *)
Definition ask_StxZeroPageIndexedWithY (p : profile) (cpu : mos6502 D) (operand : Z) : io operations :=
  let index := (reg_y cpu) in
  let indexed_addr := (add_index_to_zeropage_address operand index) in
  let value := (reg_x cpu) in
  Ret (operations_new (inst_offset ZeroPageIndexedWithY) (inst_cycles Stx ZeroPageIndexedWithY)
    [ WriteMemory indexed_addr value ]).

(** src/cpu/mos6502/operations/mod.rs:3900-3912 *)
Definition ask_StyAbsolute (p : profile) (cpu : mos6502 D) (operand : Z) : io operations :=
  let addr := operand in
  let value := (reg_y cpu) in
  Ret (operations_new (inst_offset Absolute) (inst_cycles Sty Absolute)
    [ WriteMemory addr value ]).

(** src/cpu/mos6502/operations/mod.rs:3914-3927 *)
Definition ask_StyZeroPage (p : profile) (cpu : mos6502 D) (operand : Z) : io operations :=
  let addr := operand in
  let value := (reg_y cpu) in
  Ret (operations_new (inst_offset ZeroPage) (inst_cycles Sty ZeroPage)
    [ WriteMemory addr value ]).

(** src/cpu/mos6502/operations/mod.rs:3929-3943 *)
Definition ask_StyZeroPageIndexedWithX (p : profile) (cpu : mos6502 D) (operand : Z) : io operations :=
  let index := (reg_x cpu) in
  let indexed_addr := (add_index_to_zeropage_address operand index) in
  let value := (reg_y cpu) in
  Ret (operations_new (inst_offset ZeroPageIndexedWithX) (inst_cycles Sty ZeroPageIndexedWithX)
    [ WriteMemory indexed_addr value ]).

(** src/cpu/mos6502/operations/mod.rs:3947-3963 *)
Definition ask_TaxImplied (p : profile) (cpu : mos6502 D) : io operations :=
  let value := (operand_new (reg_acc cpu)) in
  Ret (operations_new (inst_offset Implied) (inst_cycles Tax Implied)
    [ SetProgramStatusFlagState Negative (op_negative value);
      SetProgramStatusFlagState Zero (op_zero value);
      Write8bitRegister X (operand_unwrap value) ]).

(** src/cpu/mos6502/operations/mod.rs:3967-3983 *)
Definition ask_TayImplied (p : profile) (cpu : mos6502 D) : io operations :=
  let value := (operand_new (reg_acc cpu)) in
  Ret (operations_new (inst_offset Implied) (inst_cycles Tay Implied)
    [ SetProgramStatusFlagState Negative (op_negative value);
      SetProgramStatusFlagState Zero (op_zero value);
      Write8bitRegister Y (operand_unwrap value) ]).

(** src/cpu/mos6502/operations/mod.rs:3987-4003 *)
Definition ask_TsxImplied (p : profile) (cpu : mos6502 D) : io operations :=
  let value := (operand_new (reg_sp cpu)) in
  Ret (operations_new (inst_offset Implied) (inst_cycles Tsx Implied)
    [ SetProgramStatusFlagState Negative (op_negative value);
      SetProgramStatusFlagState Zero (op_zero value);
      Write8bitRegister X (operand_unwrap value) ]).

(** src/cpu/mos6502/operations/mod.rs:4007-4023 *)
Definition ask_TxaImplied (p : profile) (cpu : mos6502 D) : io operations :=
  let value := (operand_new (reg_x cpu)) in
  Ret (operations_new (inst_offset Implied) (inst_cycles Txa Implied)
    [ SetProgramStatusFlagState Negative (op_negative value);
      SetProgramStatusFlagState Zero (op_zero value);
      Write8bitRegister Acc (operand_unwrap value) ]).

(** src/cpu/mos6502/operations/mod.rs:4027-4042 *)
Definition ask_TxsImplied (p : profile) (cpu : mos6502 D) : io operations :=
  let value := (operand_new (reg_x cpu)) in
  Ret (operations_new (inst_offset Implied) (inst_cycles Txs Implied)
    [ Write8bitRegister Sp (operand_unwrap value) ]).

(** src/cpu/mos6502/operations/mod.rs:4046-4062 *)
Definition ask_TyaImplied (p : profile) (cpu : mos6502 D) : io operations :=
  let value := (operand_new (reg_y cpu)) in
  Ret (operations_new (inst_offset Implied) (inst_cycles Tya Implied)
    [ SetProgramStatusFlagState Negative (op_negative value);
      SetProgramStatusFlagState Zero (op_zero value);
      Write8bitRegister Acc (operand_unwrap value) ]).

(** src/cpu/mos6502/operations/mod.rs:4068-4103 *)
Definition ask_BrkImplied (p : profile) (cpu : mos6502 D) : io operations :=
  let ps := (ps_read (reg_ps cpu)) in
  let sp_pcl := (stack_pointer_from_byte_value (reg_sp cpu)) in
  let sp_pch := (stack_pointer_from_byte_value (wrapping_sub_u8 (reg_sp cpu) 1)) in
  let sp_ps := (stack_pointer_from_byte_value (wrapping_sub_u8 (reg_sp cpu) 2)) in
  let '(pcl, pch) := (u16_to_le_bytes (wrapping_add_u16 (reg_pc cpu) 1)) in
  io! t1 <- io_read IRQ_VECTOR_LL ;
  io! t2 <- io_read IRQ_VECTOR_HH ;
  let irq_vector := (u16_from_le_bytes t1 t2) in
  Ret (operations_new 0 (inst_cycles Brk Implied)
    [ SetProgramStatusFlagState Break true;
      SetProgramStatusFlagState Interrupt true;
      WriteMemory sp_pcl pcl;
      Dec8bitRegister Sp 1;
      WriteMemory sp_pch pch;
      Dec8bitRegister Sp 1;
      WriteMemory sp_ps ps;
      Dec8bitRegister Sp 1;
      Write16bitRegister Pc irq_vector ]).

(** src/cpu/mos6502/operations/mod.rs:4107-4113 *)
Definition ask_NopImplied (p : profile) (cpu : mos6502 D) : io operations :=
  Ret (operations_new (inst_offset Implied) (inst_cycles Nop Implied) []).

(** src/cpu/mos6502/operations/mod.rs:337-840, dispatch. *)
Definition generate_io (p : profile) (v : instruction_variant) (cpu : mos6502 D) : io operations :=
  match v with
  | AdcAbsolute am => ask_AdcAbsolute p cpu am
  | AdcAbsoluteIndexedWithX am => ask_AdcAbsoluteIndexedWithX p cpu am
  | AdcAbsoluteIndexedWithY am => ask_AdcAbsoluteIndexedWithY p cpu am
  | AdcIndirectYIndexed am => ask_AdcIndirectYIndexed p cpu am
  | AdcImmediate am => ask_AdcImmediate p cpu am
  | AdcXIndexedIndirect am => ask_AdcXIndexedIndirect p cpu am
  | AdcZeroPage am => ask_AdcZeroPage p cpu am
  | AdcZeroPageIndexedWithX am => ask_AdcZeroPageIndexedWithX p cpu am
  | AndAbsolute am => ask_AndAbsolute p cpu am
  | AndAbsoluteIndexedWithX am => ask_AndAbsoluteIndexedWithX p cpu am
  | AndAbsoluteIndexedWithY am => ask_AndAbsoluteIndexedWithY p cpu am
  | AndIndirectYIndexed am => ask_AndIndirectYIndexed p cpu am
  | AndImmediate am => ask_AndImmediate p cpu am
  | AndXIndexedIndirect am => ask_AndXIndexedIndirect p cpu am
  | AndZeroPage am => ask_AndZeroPage p cpu am
  | AndZeroPageIndexedWithX am => ask_AndZeroPageIndexedWithX p cpu am
  | AslAbsolute am => ask_AslAbsolute p cpu am
  | AslAbsoluteIndexedWithX am => ask_AslAbsoluteIndexedWithX p cpu am
  | AslAccumulator => ask_AslAccumulator p cpu
  | AslZeroPage am => ask_AslZeroPage p cpu am
  | AslZeroPageIndexedWithX am => ask_AslZeroPageIndexedWithX p cpu am
  | BccRelative am => ask_BccRelative p cpu am
  | BcsRelative am => ask_BcsRelative p cpu am
  | BeqRelative am => ask_BeqRelative p cpu am
  | BmiRelative am => ask_BmiRelative p cpu am
  | BitAbsolute am => ask_BitAbsolute p cpu am
  | BitZeroPage am => ask_BitZeroPage p cpu am
  | BneRelative am => ask_BneRelative p cpu am
  | BplRelative am => ask_BplRelative p cpu am
  | BrkImplied => ask_BrkImplied p cpu
  | BvcRelative am => ask_BvcRelative p cpu am
  | BvsRelative am => ask_BvsRelative p cpu am
  | ClcImplied => ask_ClcImplied p cpu
  | CldImplied => ask_CldImplied p cpu
  | CliImplied => ask_CliImplied p cpu
  | ClvImplied => ask_ClvImplied p cpu
  | CmpAbsolute am => ask_CmpAbsolute p cpu am
  | CmpAbsoluteIndexedWithX am => ask_CmpAbsoluteIndexedWithX p cpu am
  | CmpAbsoluteIndexedWithY am => ask_CmpAbsoluteIndexedWithY p cpu am
  | CmpIndirectYIndexed am => ask_CmpIndirectYIndexed p cpu am
  | CmpImmediate am => ask_CmpImmediate p cpu am
  | CmpXIndexedIndirect am => ask_CmpXIndexedIndirect p cpu am
  | CmpZeroPage am => ask_CmpZeroPage p cpu am
  | CmpZeroPageIndexedWithX am => ask_CmpZeroPageIndexedWithX p cpu am
  | CpxAbsolute am => ask_CpxAbsolute p cpu am
  | CpxImmediate am => ask_CpxImmediate p cpu am
  | CpxZeroPage am => ask_CpxZeroPage p cpu am
  | CpyAbsolute am => ask_CpyAbsolute p cpu am
  | CpyImmediate am => ask_CpyImmediate p cpu am
  | CpyZeroPage am => ask_CpyZeroPage p cpu am
  | DecAbsolute am => ask_DecAbsolute p cpu am
  | DecAbsoluteIndexedWithX am => ask_DecAbsoluteIndexedWithX p cpu am
  | DecZeroPage am => ask_DecZeroPage p cpu am
  | DecZeroPageIndexedWithX am => ask_DecZeroPageIndexedWithX p cpu am
  | DexImplied => ask_DexImplied p cpu
  | DeyImplied => ask_DeyImplied p cpu
  | EorAbsolute am => ask_EorAbsolute p cpu am
  | EorAbsoluteIndexedWithX am => ask_EorAbsoluteIndexedWithX p cpu am
  | EorAbsoluteIndexedWithY am => ask_EorAbsoluteIndexedWithY p cpu am
  | EorIndirectYIndexed am => ask_EorIndirectYIndexed p cpu am
  | EorImmediate am => ask_EorImmediate p cpu am
  | EorXIndexedIndirect am => ask_EorXIndexedIndirect p cpu am
  | EorZeroPage am => ask_EorZeroPage p cpu am
  | EorZeroPageIndexedWithX am => ask_EorZeroPageIndexedWithX p cpu am
  | IncAbsolute am => ask_IncAbsolute p cpu am
  | IncAbsoluteIndexedWithX am => ask_IncAbsoluteIndexedWithX p cpu am
  | IncZeroPage am => ask_IncZeroPage p cpu am
  | IncZeroPageIndexedWithX am => ask_IncZeroPageIndexedWithX p cpu am
  | InxImplied => ask_InxImplied p cpu
  | InyImplied => ask_InyImplied p cpu
  | JmpAbsolute am => ask_JmpAbsolute p cpu am
  | JmpIndirect am => ask_JmpIndirect p cpu am
  | JsrAbsolute am => ask_JsrAbsolute p cpu am
  | LdaAbsolute am => ask_LdaAbsolute p cpu am
  | LdaAbsoluteIndexedWithX am => ask_LdaAbsoluteIndexedWithX p cpu am
  | LdaAbsoluteIndexedWithY am => ask_LdaAbsoluteIndexedWithY p cpu am
  | LdaIndirectYIndexed am => ask_LdaIndirectYIndexed p cpu am
  | LdaImmediate am => ask_LdaImmediate p cpu am
  | LdaXIndexedIndirect am => ask_LdaXIndexedIndirect p cpu am
  | LdaZeroPage am => ask_LdaZeroPage p cpu am
  | LdaZeroPageIndexedWithX am => ask_LdaZeroPageIndexedWithX p cpu am
  | LdxAbsolute am => ask_LdxAbsolute p cpu am
  | LdxAbsoluteIndexedWithY am => ask_LdxAbsoluteIndexedWithY p cpu am
  | LdxImmediate am => ask_LdxImmediate p cpu am
  | LdxZeroPage am => ask_LdxZeroPage p cpu am
  | LdxZeroPageIndexedWithY am => ask_LdxZeroPageIndexedWithY p cpu am
  | LdyAbsolute am => ask_LdyAbsolute p cpu am
  | LdyAbsoluteIndexedWithX am => ask_LdyAbsoluteIndexedWithX p cpu am
  | LdyImmediate am => ask_LdyImmediate p cpu am
  | LdyZeroPage am => ask_LdyZeroPage p cpu am
  | LdyZeroPageIndexedWithX am => ask_LdyZeroPageIndexedWithX p cpu am
  | LsrAbsolute am => ask_LsrAbsolute p cpu am
  | LsrAbsoluteIndexedWithX am => ask_LsrAbsoluteIndexedWithX p cpu am
  | LsrAccumulator => ask_LsrAccumulator p cpu
  | LsrZeroPage am => ask_LsrZeroPage p cpu am
  | LsrZeroPageIndexedWithX am => ask_LsrZeroPageIndexedWithX p cpu am
  | NopImplied => ask_NopImplied p cpu
  | OraAbsolute am => ask_OraAbsolute p cpu am
  | OraAbsoluteIndexedWithX am => ask_OraAbsoluteIndexedWithX p cpu am
  | OraAbsoluteIndexedWithY am => ask_OraAbsoluteIndexedWithY p cpu am
  | OraIndirectYIndexed am => ask_OraIndirectYIndexed p cpu am
  | OraImmediate am => ask_OraImmediate p cpu am
  | OraXIndexedIndirect am => ask_OraXIndexedIndirect p cpu am
  | OraZeroPage am => ask_OraZeroPage p cpu am
  | OraZeroPageIndexedWithX am => ask_OraZeroPageIndexedWithX p cpu am
  | PhaImplied => ask_PhaImplied p cpu
  | PhpImplied => ask_PhpImplied p cpu
  | PlaImplied => ask_PlaImplied p cpu
  | PlpImplied => ask_PlpImplied p cpu
  | RolAbsolute am => ask_RolAbsolute p cpu am
  | RolAbsoluteIndexedWithX am => ask_RolAbsoluteIndexedWithX p cpu am
  | RolAccumulator => ask_RolAccumulator p cpu
  | RolZeroPage am => ask_RolZeroPage p cpu am
  | RolZeroPageIndexedWithX am => ask_RolZeroPageIndexedWithX p cpu am
  | RorAbsolute am => ask_RorAbsolute p cpu am
  | RorAbsoluteIndexedWithX am => ask_RorAbsoluteIndexedWithX p cpu am
  | RorAccumulator => ask_RorAccumulator p cpu
  | RorZeroPage am => ask_RorZeroPage p cpu am
  | RorZeroPageIndexedWithX am => ask_RorZeroPageIndexedWithX p cpu am
  | RtiImplied => ask_RtiImplied p cpu
  | RtsImplied => ask_RtsImplied p cpu
  | SbcAbsolute am => ask_SbcAbsolute p cpu am
  | SbcAbsoluteIndexedWithX am => ask_SbcAbsoluteIndexedWithX p cpu am
  | SbcAbsoluteIndexedWithY am => ask_SbcAbsoluteIndexedWithY p cpu am
  | SbcIndirectYIndexed am => ask_SbcIndirectYIndexed p cpu am
  | SbcImmediate am => ask_SbcImmediate p cpu am
  | SbcXIndexedIndirect am => ask_SbcXIndexedIndirect p cpu am
  | SbcZeroPage am => ask_SbcZeroPage p cpu am
  | SbcZeroPageIndexedWithX am => ask_SbcZeroPageIndexedWithX p cpu am
  | StaAbsolute am => ask_StaAbsolute p cpu am
  | StaAbsoluteIndexedWithX am => ask_StaAbsoluteIndexedWithX p cpu am
  | StaAbsoluteIndexedWithY am => ask_StaAbsoluteIndexedWithY p cpu am
  | StaIndirectYIndexed am => ask_StaIndirectYIndexed p cpu am
  | StaXIndexedIndirect am => ask_StaXIndexedIndirect p cpu am
  | StaZeroPage am => ask_StaZeroPage p cpu am
  | StaZeroPageIndexedWithX am => ask_StaZeroPageIndexedWithX p cpu am
  | StxAbsolute am => ask_StxAbsolute p cpu am
  | StxZeroPage am => ask_StxZeroPage p cpu am
  | StxZeroPageIndexedWithY am => ask_StxZeroPageIndexedWithY p cpu am
  | StyAbsolute am => ask_StyAbsolute p cpu am
  | StyZeroPage am => ask_StyZeroPage p cpu am
  | StyZeroPageIndexedWithX am => ask_StyZeroPageIndexedWithX p cpu am
  | SecImplied => ask_SecImplied p cpu
  | SedImplied => ask_SedImplied p cpu
  | SeiImplied => ask_SeiImplied p cpu
  | TaxImplied => ask_TaxImplied p cpu
  | TayImplied => ask_TayImplied p cpu
  | TsxImplied => ask_TsxImplied p cpu
  | TxaImplied => ask_TxaImplied p cpu
  | TxsImplied => ask_TxsImplied p cpu
  | TyaImplied => ask_TyaImplied p cpu
  end.
End Generate.
