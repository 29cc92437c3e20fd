(** Model of src/cpu/mos6502/operations/mod.rs:1-335 and 842-874: flagged
    operands, address computation and the [Operations] value. *)
From Verif Require Import Base ModelMap ModelRegs6502 ModelCpu6502.

(** operations/mod.rs:65-70, struct [Operand<u8>]. *)
Record operand := mkOperand {
  op_carry : bool;
  op_negative : bool;
  op_zero : bool;
  op_inner : Z
}.

(** operations/mod.rs:73-80, [Operand::with_flags]. *)
Definition operand_with_flags (inner : Z) (carry negative zero : bool) : operand :=
  mkOperand carry negative zero inner.

(** operations/mod.rs:82-84, [Operand::unwrap]. *)
Definition operand_unwrap (o : operand) : Z := op_inner o.

(** operations/mod.rs:98-105, [Operand::new]. *)
Definition operand_new (inner : Z) : operand :=
  {| op_carry := false;
     op_negative := Z.land (shr_u8 inner 7) 1 =? 1;
     op_zero := inner =? 0;
     op_inner := inner |}.

(** operations/mod.rs:64, derived [PartialOrd]: lexicographic over the fields
    in declaration order (carry, negative, zero, inner), [false < true].
    [operand_ge] is the operator [>=]. *)
Definition bool_compare (a b : bool) : comparison :=
  match a, b with
  | false, true => Lt
  | true, false => Gt
  | _, _ => Eq
  end.
(** The derived [Ord] of src/cpu/mos6502/operations/mod.rs:64-70: field by
    field in this order. *)
Definition operand_compare (a b : operand) : comparison :=
  match bool_compare (op_carry a) (op_carry b) with
  | Eq => match bool_compare (op_negative a) (op_negative b) with
          | Eq => match bool_compare (op_zero a) (op_zero b) with
                  | Eq => Z.compare (op_inner a) (op_inner b)
                  | c => c
                  end
          | c => c
          end
  | c => c
  end.
(** [lhs >= rhs] by that order, src/cpu/mos6502/operations/mod.rs:2554 and
    the other comparisons. *)
Definition operand_ge (a b : operand) : bool :=
  match operand_compare a b with Lt => false | _ => true end.

(** operations/mod.rs:108-119, [Add for Operand<u8>]. *)
Definition operand_add (self other : operand) : operand :=
  let '(sum, carry) := overflowing_add_u8 (operand_unwrap self) (operand_unwrap other) in
  let negative := Z.land (shr_u8 sum 7) 1 =? 1 in
  let zero := sum =? 0 in
  operand_with_flags sum carry negative zero.

(** operations/mod.rs:121-132, [twos_complement_add]. *)
Definition twos_complement_add (self other : operand) (carry : bool) : operand * bool :=
  let sum := operand_add self other in
  let lhs := operand_unwrap self in
  let rhs := operand_unwrap other in
  let overflow :=
    (negb (bit_is_set lhs 7) && negb (bit_is_set rhs 7) && carry)
    || (bit_is_set lhs 7 && bit_is_set rhs 7 && negb carry) in
  (sum, overflow).

(** operations/mod.rs:134-145, [Sub for Operand<u8>]. *)
Definition operand_sub (self other : operand) : operand :=
  let '(difference, carry) := overflowing_sub_u8 (operand_unwrap self) (operand_unwrap other) in
  let negative := Z.land (shr_u8 difference 7) 1 =? 1 in
  let zero := difference =? 0 in
  operand_with_flags difference carry negative zero.

(** operations/mod.rs:147-155, [twos_complement_sub]. The unchecked
    [255 - other] cannot underflow on a [u8]. *)
Definition twos_complement_sub (self other : operand) (carry : bool) : operand * bool :=
  let carry_bit := bool_as_u8 carry in
  let rhs_ones_complement :=
    operand_add (operand_new (255 - operand_unwrap other)) (operand_new carry_bit) in
  twos_complement_add self rhs_ones_complement carry.

(** operations/mod.rs:157-165, 167-175, 177-185. *)
Definition operand_and (self other : operand) : operand :=
  operand_new (Z.land (operand_unwrap self) (operand_unwrap other)).
(** src/cpu/mos6502/operations/mod.rs:167-175, [BitOr]. *)
Definition operand_or (self other : operand) : operand :=
  operand_new (Z.lor (operand_unwrap self) (operand_unwrap other)).
(** src/cpu/mos6502/operations/mod.rs:177-185, [BitXor]. *)
Definition operand_xor (self other : operand) : operand :=
  operand_new (Z.lxor (operand_unwrap self) (operand_unwrap other)).

(** operations/mod.rs:187-198, [Rol]. *)
Definition operand_rol (self other : operand) (carry : bool) : operand :=
  let lhs := operand_unwrap self in
  let rhs := operand_unwrap other in
  let carry_in := bool_as_u8 carry in
  let carry_out := bit_is_set lhs 7 in
  let shifted := operand_new (Z.lor (shl_u8 lhs rhs) carry_in) in
  operand_with_flags (operand_unwrap shifted) carry_out (op_negative shifted) (op_zero shifted).

(** operations/mod.rs:200-211, [Ror]. *)
Definition operand_ror (self other : operand) (carry : bool) : operand :=
  let lhs := operand_unwrap self in
  let rhs := operand_unwrap other in
  let carry_in := shl_u8 (bool_as_u8 carry) 7 in
  let carry_out := bit_is_set lhs 0 in
  let shifted := operand_new (Z.lor (shr_u8 lhs rhs) carry_in) in
  operand_with_flags (operand_unwrap shifted) carry_out (op_negative shifted) (op_zero shifted).

(** operations/mod.rs:213-223, [Shl]. *)
Definition operand_shl (self other : operand) : operand :=
  let lhs := operand_unwrap self in
  let rhs := operand_unwrap other in
  let carry := bit_is_set lhs 7 in
  let value := operand_new (shl_u8 lhs rhs) in
  operand_with_flags (operand_unwrap value) carry (op_negative value) (op_zero value).

(** operations/mod.rs:225-235, [Shr]. *)
Definition operand_shr (self other : operand) : operand :=
  let lhs := operand_unwrap self in
  let rhs := operand_unwrap other in
  let carry := bit_is_set lhs 0 in
  let value := operand_new (shr_u8 lhs rhs) in
  operand_with_flags (operand_unwrap value) carry (op_negative value) (op_zero value).

(** operations/mod.rs:242-244, [add_index_to_address]. *)
Definition add_index_to_address (addr index : Z) : Z := wrapping_add_u16 addr index.

(** operations/mod.rs:249-251, [add_index_to_zeropage_address]. *)
Definition add_index_to_zeropage_address (zeropage_addr index : Z) : Z :=
  wrapping_add_u8 zeropage_addr index.

(** operations/mod.rs:285-287, [stack_pointer_from_byte_value]. *)
Definition stack_pointer_from_byte_value (value : Z) : Z := u16_from_le_bytes value 0x01.

Section Deref.
Context {D : Type} `{Device D}.
Implicit Type cpu : mos6502 D.

(** operations/mod.rs:256-263, [dereference_indexed_indirect_address];
    [index + 1] is unchecked [u8] arithmetic. *)
Definition dereference_indexed_indirect_address (p : profile) cpu (base_addr index : Z) : res Z :=
  do! lo <- am_read p (amap cpu) (wrapping_add_u8 base_addr index) ;
  do! index1 <- add_u8 p index 1 ;
  do! hi <- am_read p (amap cpu) (wrapping_add_u8 base_addr index1) ;
  Ok (u16_from_le_bytes lo hi).

(** operations/mod.rs:268-273, [dereference_indirect_indexed_address];
    [.. + index as u16] is unchecked [u16] arithmetic. *)
Definition dereference_indirect_indexed_address (p : profile) cpu (base_addr index : Z) : res Z :=
  do! lo <- am_read p (amap cpu) base_addr ;
  do! hi <- am_read p (amap cpu) (wrapping_add_u8 base_addr 1) ;
  add_u16 p (u16_from_le_bytes lo hi) index.

(** operations/mod.rs:278-280, [dereference_address_to_operand]. *)
Definition dereference_address_to_operand (p : profile) cpu (addr index : Z) : res operand :=
  do! v <- am_read p (amap cpu) (add_index_to_address addr index) ;
  Ok (operand_new v).
End Deref.

(** operations/mod.rs:293-307, struct [Operations] and [Operations::new]. *)
Record operations := mkOperations {
  ops_offset : Z;
  ops_cycles : nat;
  ops_microcode : list microcode
}.
(** src/cpu/mos6502/operations/mod.rs:300-306, [Operations::new]. *)
Definition operations_new (offset : Z) (cycles : nat) (mc : list microcode) : operations :=
  mkOperations offset cycles mc.

(** operations/mod.rs:321-335, [From<Operations> for Vec<Vec<Microcode>>]:
    [cycles - 1] empty cycles followed by one cycle holding all microcode and
    the program-counter increment. [cycles - 1] with [cycles = 0] panics in a
    debug build and requests an impossible allocation (also a panic) in a
    release build. *)
Definition operations_into_cycles (src : operations) : res (list (list microcode)) :=
  let offset := ops_offset src mod 65536 in
  match ops_cycles src with
  | O => Panic
  | S n => Ok (repeat [] n ++ [ops_microcode src ++ [Inc16bitRegister Pc offset]])
  end.

(** operations/mod.rs:2350-2380, [branch_on_case]. *)
Definition branch_on_case {D} (p : profile) (cond : bool) (branch_offset inst_offset : Z)
  (cycles : nat) (cpu : mos6502 D) : res operations :=
  let jmp_on_eq := wrapping_add_u16 (reg_pc cpu) (i8_as_u16 branch_offset) in
  let mc :=
    if cond then [Write16bitRegister Pc jmp_on_eq]
    else [Write16bitRegister Pc (wrapping_add_u16 (reg_pc cpu) (inst_offset mod 65536))] in
  do! pg <- page_from_u16 p (reg_pc cpu) ;
  let branch_penalty :=
    match cond, page_contains pg jmp_on_eq with
    | true, false => 2%nat
    | true, true => 1%nat
    | _, _ => 0%nat
    end in
  Ok (operations_new 0 (cycles + branch_penalty) mc).
