(** [next] on a bus that may react to reads agrees with SpecBus.v, for every
    opcode byte, every bus and every bus state. *)
From Verif Require Import Arith ModelMap ModelRegs6502 ModelCpu6502 ModelOperand ModelIsa6502
  ModelIo ModelOpsIo6502 ModelTrace ModelBus Link6502 ProofOperand ProofStep6502.
From Verif Require Import Spec6502 SpecBus.

(** Arithmetic facts without any hypothesis on the machine. *)
Section Facts.
Variable p : profile.

Lemma add_u16_unchecked a b : 0 <= a + b ->
  add_u16 p a b = match unchecked p 65536 (a + b) with Some v => Ok v | None => Panic end.
Proof.
  intros Hab. unfold add_u16, checked, unchecked.
  replace ((0 <=? a + b) && (a + b <? 65536)) with (a + b <? 65536) by lia.
  destruct (a + b <? 65536); [reflexivity|]. destruct p; reflexivity.
Qed.
Lemma unchecked_range m v a : 0 <= v -> 0 < m -> unchecked p m v = Some a -> 0 <= a < m.
Proof.
  unfold unchecked. intros Hv Hm. destruct (v <? m) eqn:E.
  - intros [= <-]. lia.
  - destruct p; [discriminate|]. intros [= <-]. apply Z.mod_pos_bound; lia.
Qed.
Lemma jmp_range a ea : 0 <= a -> unchecked p 65536 a = Some ea -> u16 ea.
Proof. intros Ha Hea. apply unchecked_range in Hea; unfold u16; lia. Qed.
Lemma zp0 b : u8 b -> wrapping_add_u8 b 0 = b.
Proof. unfold u8, wrapping_add_u8. lia. Qed.
Lemma page0_nf b a : u16 a -> page_contains (page_from_u8 b) a = (a / 256 =? 0).
Proof. exact (page0_contains_nf a). Qed.
Lemma stack_add s k : stack_pointer_from_byte_value (wrapping_add_u8 s k) = stack (s + k).
Proof. unfold stack_pointer_from_byte_value, wrapping_add_u8, u16_from_le_bytes, stack. lia. Qed.
Lemma stack_sub s k : stack_pointer_from_byte_value (wrapping_sub_u8 s k) = stack (s - k).
Proof. unfold stack_pointer_from_byte_value, wrapping_sub_u8, u16_from_le_bytes, stack. lia. Qed.
Lemma u16_stack' s : u16 (stack s).
Proof. unfold u16, stack. lia. Qed.
Lemma target_nf pc b : wrapping_add_u16 pc (i8_as_u16 (u8_as_i8 b)) = (pc + signed b) mod 65536.
Proof. unfold wrapping_add_u16, i8_as_u16, u8_as_i8, signed. destruct (b <? 128); lia. Qed.
Lemma op_add a b : u8 a -> u8 b -> operand_add (operand_new a) (operand_new b)
  = mkOperand (256 <=? a + b) (128 <=? (a + b) mod 256) ((a + b) mod 256 =? 0) ((a + b) mod 256).
Proof. intros Ha Hb. rewrite !operand_new_nf by assumption. apply operand_add_nf. Qed.
Lemma op_sub a b : u8 a -> u8 b -> operand_sub (operand_new a) (operand_new b)
  = mkOperand (a - b <? 0) (128 <=? (a - b) mod 256) ((a - b) mod 256 =? 0) ((a - b) mod 256).
Proof. intros Ha Hb. rewrite !operand_new_nf by assumption. apply operand_sub_nf. Qed.
Lemma op_ge a b : u8 a -> u8 b -> operand_ge (operand_new a) (operand_new b)
  = (compare_rank b <=? compare_rank a).
Proof. intros Ha Hb. rewrite !operand_new_nf by assumption. now apply operand_ge_nf. Qed.
Lemma op_and a b : operand_and (operand_new a) (operand_new b) = operand_new (Z.land a b).
Proof. reflexivity. Qed.
Lemma op_or a b : operand_or (operand_new a) (operand_new b) = operand_new (Z.lor a b).
Proof. reflexivity. Qed.
Lemma op_xor a b : operand_xor (operand_new a) (operand_new b) = operand_new (Z.lxor a b).
Proof. reflexivity. Qed.
End Facts.

Section Step.
Context {S : Type} (b : bus S).
Variable p : profile.
Variable cpu : core.
Hypothesis Hb : byte_bus b.
Hypothesis HA : u8 (reg_acc cpu).
Hypothesis HX : u8 (reg_x cpu).
Hypothesis HY : u8 (reg_y cpu).
Hypothesis HS : u8 (reg_sp cpu).
Hypothesis HPC : u16 (reg_pc cpu).

Lemma answer_bind {A B} (x : io A) (f : A -> io B) : forall s,
  answer b (io_bind x f) s = after (answer b x) (fun a => answer b (f a)) s.
Proof.
  induction x as [a| |addr k IH]; intros s; cbn [answer io_bind]; [reflexivity|reflexivity|].
  unfold after. cbn [answer]. destruct (b_read b s addr) as [[v s']|]; cbn [bind]; [|reflexivity].
  rewrite IH. reflexivity.
Qed.

(** Microcode on registers only. *)
Definition reg_exec (cpu : core) (mc : microcode) : res core :=
  match mc with WriteMemory _ _ => Ok cpu | _ => execute_mut p cpu mc end.

(** What the generated operations amount to. *)
Definition effect_of (r : res (operations * S)) : res (effect * S) :=
  match r with
  | Panic => Panic
  | Ok (mops, s) =>
      match operations_into_cycles mops with
      | Panic => Panic
      | Ok cs =>
          match foldM reg_exec (concat cs) cpu with
          | Panic => Panic
          | Ok cpu' =>
              Ok (mkEffect (regs_of cpu') (flat_map bus_writes (concat cs)) (ops_cycles mops), s)
          end
      end
  end.

Lemma effect_of_ok off n mc s :
  effect_of (Ok (operations_new off (Datatypes.S n) mc, s)) =
  match foldM reg_exec (mc ++ [Inc16bitRegister Pc (off mod 65536)]) cpu with
  | Panic => Panic
  | Ok cpu' =>
      Ok (mkEffect (regs_of cpu')
            (flat_map bus_writes (mc ++ [Inc16bitRegister Pc (off mod 65536)])) (Datatypes.S n), s)
  end.
Proof.
  unfold effect_of, operations_into_cycles, operations_new; cbn [ops_cycles ops_offset ops_microcode].
  now rewrite concat_repeat_nil.
Qed.

Lemma add_u8_lift x : u8 x ->
  io_lift (add_u8 p x 1) = match unchecked p 256 (x + 1) with Some v => Ret v | None => Abort end.
Proof.
  intros Hx. unfold add_u8, checked, unchecked.
  replace ((0 <=? x + 1) && (x + 1 <? 256)) with (x + 1 <? 256) by (unfold u8 in *; lia).
  destruct (x + 1 <? 256); [reflexivity|]. destruct p; reflexivity.
Qed.

Lemma wrap_unchecked x v b1 : unchecked p 256 (x + 1) = Some v ->
  wrapping_add_u8 b1 v = (b1 + x + 1) mod 256.
Proof.
  unfold unchecked, wrapping_add_u8. destruct (x + 1 <? 256); [intros [= <-]; f_equal; lia|].
  destruct p; [discriminate|]. intros [= <-]. lia.
Qed.

Lemma dxi_bus b1 b2 s :
  answer b (dereference_indexed_indirect_address_io p cpu b1 (reg_x cpu)) s
  = bus_address b p XIndexedIndirect (regs_of cpu) b1 b2 s.
Proof.
  unfold dereference_indexed_indirect_address_io, io_read. cbn [io_bind answer].
  unfold bus_address, after, ask, given, done, stop. cbn [regs_of rX].
  rewrite add_u8_lift by assumption. unfold wrapping_add_u8 at 1.
  destruct (b_read b s ((b1 + reg_x cpu) mod 256)) as [[lo s1]|]; cbn [bind]; [|reflexivity].
  destruct (unchecked p 256 (reg_x cpu + 1)) as [x1|] eqn:E; cbn [io_bind answer]; [|reflexivity].
  rewrite (wrap_unchecked _ _ b1 E).
  destruct (b_read b s1 ((b1 + reg_x cpu + 1) mod 256)) as [[hi s2]|]; cbn [bind]; reflexivity.
Qed.

Lemma diy_bus b1 b2 s :
  answer b (dereference_indirect_indexed_address_io p cpu b1 (reg_y cpu)) s
  = bus_address b p IndirectYIndexed (regs_of cpu) b1 b2 s.
Proof.
  unfold dereference_indirect_indexed_address_io, io_read. cbn [io_bind answer].
  unfold bus_address, after, ask, given, done, stop. cbn [regs_of rY].
  destruct (b_read b s b1) as [[lo s1]|] eqn:E1; cbn [bind]; [|reflexivity].
  unfold wrapping_add_u8 at 1.
  destruct (b_read b s1 ((b1 + 1) mod 256)) as [[hi s2]|] eqn:E2; cbn [bind]; [|reflexivity].
  apply Hb in E1, E2.
  rewrite add_u16_unchecked by (unfold u16_from_le_bytes, u8 in *; lia).
  unfold u16_from_le_bytes, word.
  destruct (unchecked p 65536 (lo + 256 * hi + reg_y cpu)); reflexivity.
Qed.

Lemma bus_address_range m r b1 b2 s a s' : u8 b1 -> u8 b2 -> u8 (rX r) -> u8 (rY r) ->
  bus_address b p m r b1 b2 s = Ok (a, s') -> u16 a.
Proof.
  intros H1 H2 H3 H4. destruct m; unfold bus_address, after, ask, given, done, stop; try discriminate;
    try (intros [= <- <-]; unfold word, u8, u16 in *; lia).
  - destruct (b_read b s b1) as [[lo s1]|] eqn:E1; [|discriminate].
    destruct (b_read b s1 ((b1 + 1) mod 256)) as [[hi s2]|] eqn:E2; [|discriminate].
    apply Hb in E1, E2.
    destruct (unchecked p 65536 (word lo hi + rY r)) as [v|] eqn:E; [|discriminate].
    intros [= <- <-]. eapply jmp_range; [|exact E]. unfold word, u8 in *; lia.
  - destruct (b_read b s _) as [[lo s1]|] eqn:E1; [|discriminate].
    destruct (unchecked p 256 _) as [v|]; [|discriminate].
    destruct (b_read b s1 _) as [[hi s2]|] eqn:E2; [|discriminate].
    apply Hb in E1, E2. intros [= <- <-]. unfold word, u8, u16 in *; lia.
Qed.

Lemma stack_id_bus : stack_pointer_from_byte_value (reg_sp cpu) = stack (reg_sp cpu).
Proof. unfold stack_pointer_from_byte_value, u16_from_le_bytes, stack. unfold u8 in HS. lia. Qed.

Lemma mod0 a : u16 a -> (a + 0) mod 65536 = a.
Proof. unfold u16. intros. lia. Qed.

Lemma add_u16_lift a c : 0 <= a + c ->
  io_lift (add_u16 p a c) = match unchecked p 65536 (a + c) with Some v => Ret v | None => Abort end.
Proof. intros H. rewrite add_u16_unchecked by exact H. destruct (unchecked p 65536 (a + c)); reflexivity. Qed.

Definition bus_agrees (b0 : Z) : Prop :=
  forall b1 b2 s, u8 b1 -> u8 b2 ->
  match parse_instruction b0 b1 b2 with
  | None => Panic
  | Some oper => effect_of (answer b (generate_io p oper cpu) s)
  end
  = match decode b0 with
    | Some (mn, m, cycles) => bus_execute b p mn m cycles (regs_of cpu) b1 b2 s
    | None => Panic
    end.

Ltac range :=
  first
    [ assumption
    | apply u8_mod | apply u16_mod | apply u16_stack'
    | apply u8_land; range | apply u8_lor; range | apply u8_lxor; range
    | apply u8_rol; range | apply u8_ror; range
    | apply u16_word; range
    | match goal with |- u16 ?v => apply u8_u16; range end
    | unfold u8, u16 in *; lia ].

Ltac open_ask :=
  match goal with
  | |- effect_of (answer b ?t _) = _ => let rec hd t := lazymatch t with ?f _ => hd f | _ => t end in
                        let h := hd t in unfold h
  end.

Ltac operands :=
  repeat first
    [ rewrite tca_nf by range
    | rewrite tcs_nf by range
    | rewrite op_and | rewrite op_or | rewrite op_xor
    | rewrite ps_with_value_byte by range
    | rewrite op_add by range | rewrite op_sub by range | rewrite op_ge by range
    | rewrite operand_shl_nf by range | rewrite operand_shr_nf by range
    | rewrite operand_rol_nf by range | rewrite operand_ror_nf by range
    | rewrite bit_is_set_testbit by (range || lia)
    | rewrite ps_read_byte
    | rewrite operand_new_nf by range ].

Ltac zero_mods :=
  change (0 mod 65536) with 0 in *; change (1 mod 65536) with 1 in *;
  change (2 mod 65536) with 2 in *; change (3 mod 65536) with 3 in *.

Ltac expand :=
  cbv -[Z.add Z.sub Z.mul Z.modulo Z.div Z.leb Z.ltb Z.eqb Z.land Z.lor Z.lxor Z.testbit b_write
        b_read unchecked stack page_contains compare_rank status_byte status_of_byte
        ps_with_value i8_as_u16 u8_as_i8].

(** One read on both sides. *)
Ltac read1 :=
  match goal with
  | |- context [b_read b ?s ?a] =>
      let E := fresh "E" in let v := fresh "v" in let s' := fresh "s" in
      destruct (b_read b s a) as [[v s']|] eqn:E; [apply Hb in E|cbn [bind]; reflexivity]
  | |- context [unchecked p ?m ?x] =>
      let E := fresh "E" in let v := fresh "a" in
      destruct (unchecked p m x) as [v|] eqn:E; [|cbn [bind answer io_bind]; reflexivity]
  end; cbn [bind answer io_bind io_lift].

Ltac reads :=
  repeat first
    [ rewrite stack_id_bus | rewrite stack_add | rewrite stack_sub
    | rewrite mod0 by range
    | rewrite page_from_u16_nf by range
    | rewrite page_contains_nf by range
    | rewrite page0_nf by range
    | read1
    | progress cbn [bind answer io_bind io_lift] ].

Ltac one :=
  intros b1 b2 s H1 H2; cbn [parse_instruction generate_io];
  match goal with |- _ = match decode ?b with _ => _ end =>
    let d := eval vm_compute in (decode b) in change (decode b) with d end;
  open_ask; cbv zeta;
  unfold u16_from_le_bytes, add_index_to_address, add_index_to_zeropage_address,
    IRQ_VECTOR_LL, IRQ_VECTOR_HH, u16_to_le_bytes; cbv iota beta;
  rewrite ?zp0 by range;
  rewrite ?add_u16_lift by (unfold u8, u16 in *; lia);
  cbv beta delta [bus_execute bus_read_op bus_store_op bus_modify_op]; cbv iota zeta beta;
  try match goal with
    | |- context [dereference_indexed_indirect_address_io] =>
        rewrite answer_bind; unfold after at 1; rewrite (dxi_bus b1 b2)
    | |- context [dereference_indirect_indexed_address_io] =>
        rewrite answer_bind; unfold after at 1; rewrite (diy_bus b1 b2)
    end;
  unfold after, ask, given, done, stop;
  try match goal with
    | |- context [bus_address b p ?m ?r b1 b2 s] =>
        let a := fresh "ea" in let s' := fresh "s" in let E := fresh "Ea" in
        match m with
        | XIndexedIndirect => idtac
        | IndirectYIndexed => idtac
        end;
        destruct (bus_address b p m r b1 b2 s) as [[a s']|] eqn:E;
        [apply bus_address_range in E; [|range|range|range|range]|reflexivity]
    end;
  unfold bus_address, done;
  rewrite ?stack_id_bus, ?stack_add, ?stack_sub;
  unfold dereference_address_to_operand_io, io_read, add_index_to_address, wrapping_add_u8,
    wrapping_add_u16, word;
  cbn [regs_of rX rY rA rP rS rPC bind answer io_bind io_lift];
  reads; operands;
  cbv beta iota zeta delta [inst_cycles Nat.add inst_offset]; cbn [answer]; try rewrite effect_of_ok;
  expand; zero_mods;
  try match goal with |- context [?a / 256 =? ?b] => destruct (a / 256 =? b) end;
  try reflexivity;
  rewrite ?ps_with_value_byte by range;
  unfold signed, u8, u16 in *;
  try (do 3 f_equal; f_equal; lia).

Lemma branch_bus cond b1 s : u8 b1 ->
  effect_of (answer b (io_lift (branch_on_case p cond (u8_as_i8 b1) 2 2 cpu)) s)
  = given (branch_op cond (regs_of cpu) b1 2) s.
Proof.
  intros H1. unfold branch_on_case, branch_op. rewrite target_nf.
  rewrite page_from_u16_nf by range. cbn [bind].
  rewrite page_contains_nf by range.
  destruct cond.
  - destruct ((reg_pc cpu + signed b1) mod 65536 / 256 =? reg_pc cpu / 256) eqn:E;
      cbn [Nat.add io_lift answer]; rewrite effect_of_ok; cbn [regs_of rPC]; rewrite E;
      expand; zero_mods; do 3 f_equal; f_equal; lia.
  - cbn [Nat.add io_lift answer]; rewrite effect_of_ok; expand; zero_mods; do 3 f_equal; f_equal; lia.
Qed.

Ltac branch :=
  intros b1 b2 s H1 H2; cbn [parse_instruction generate_io];
  match goal with |- _ = match decode ?b with _ => _ end =>
    let d := eval vm_compute in (decode b) in change (decode b) with d end;
  open_ask; cbv zeta; exact (branch_bus _ b1 s H1).

Lemma bus_op_69 : bus_agrees 0x69. (* Adc Immediate *)
Proof. one. Qed.
Lemma bus_op_65 : bus_agrees 0x65. (* Adc ZeroPage *)
Proof. one. Qed.
Lemma bus_op_75 : bus_agrees 0x75. (* Adc ZeroPageIndexedWithX *)
Proof. one. Qed.
Lemma bus_op_6d : bus_agrees 0x6d. (* Adc Absolute *)
Proof. one. Qed.
Lemma bus_op_7d : bus_agrees 0x7d. (* Adc AbsoluteIndexedWithX *)
Proof. one. Qed.
Lemma bus_op_79 : bus_agrees 0x79. (* Adc AbsoluteIndexedWithY *)
Proof. one. Qed.
Lemma bus_op_61 : bus_agrees 0x61. (* Adc XIndexedIndirect *)
Proof. one. Qed.
Lemma bus_op_71 : bus_agrees 0x71. (* Adc IndirectYIndexed *)
Proof. one. Qed.
Lemma bus_op_29 : bus_agrees 0x29. (* And Immediate *)
Proof. one. Qed.
Lemma bus_op_25 : bus_agrees 0x25. (* And ZeroPage *)
Proof. one. Qed.
Lemma bus_op_35 : bus_agrees 0x35. (* And ZeroPageIndexedWithX *)
Proof. one. Qed.
Lemma bus_op_2d : bus_agrees 0x2d. (* And Absolute *)
Proof. one. Qed.
Lemma bus_op_3d : bus_agrees 0x3d. (* And AbsoluteIndexedWithX *)
Proof. one. Qed.
Lemma bus_op_39 : bus_agrees 0x39. (* And AbsoluteIndexedWithY *)
Proof. one. Qed.
Lemma bus_op_21 : bus_agrees 0x21. (* And XIndexedIndirect *)
Proof. one. Qed.
Lemma bus_op_31 : bus_agrees 0x31. (* And IndirectYIndexed *)
Proof. one. Qed.
Lemma bus_op_0a : bus_agrees 0x0a. (* Asl Accumulator *)
Proof. one. Qed.
Lemma bus_op_06 : bus_agrees 0x06. (* Asl ZeroPage *)
Proof. one. Qed.
Lemma bus_op_16 : bus_agrees 0x16. (* Asl ZeroPageIndexedWithX *)
Proof. one. Qed.
Lemma bus_op_0e : bus_agrees 0x0e. (* Asl Absolute *)
Proof. one. Qed.
Lemma bus_op_1e : bus_agrees 0x1e. (* Asl AbsoluteIndexedWithX *)
Proof. one. Qed.
Lemma bus_op_90 : bus_agrees 0x90. (* Bcc Relative *)
Proof. branch. Qed.
Lemma bus_op_b0 : bus_agrees 0xb0. (* Bcs Relative *)
Proof. branch. Qed.
Lemma bus_op_f0 : bus_agrees 0xf0. (* Beq Relative *)
Proof. branch. Qed.
Lemma bus_op_24 : bus_agrees 0x24. (* Bit ZeroPage *)
Proof. one. Qed.
Lemma bus_op_2c : bus_agrees 0x2c. (* Bit Absolute *)
Proof. one. Qed.
Lemma bus_op_30 : bus_agrees 0x30. (* Bmi Relative *)
Proof. branch. Qed.
Lemma bus_op_d0 : bus_agrees 0xd0. (* Bne Relative *)
Proof. branch. Qed.
Lemma bus_op_10 : bus_agrees 0x10. (* Bpl Relative *)
Proof. branch. Qed.
Lemma bus_op_00 : bus_agrees 0x00. (* Brk Implied *)
Proof. one. Qed.
Lemma bus_op_50 : bus_agrees 0x50. (* Bvc Relative *)
Proof. branch. Qed.
Lemma bus_op_70 : bus_agrees 0x70. (* Bvs Relative *)
Proof. branch. Qed.
Lemma bus_op_18 : bus_agrees 0x18. (* Clc Implied *)
Proof. one. Qed.
Lemma bus_op_d8 : bus_agrees 0xd8. (* Cld Implied *)
Proof. one. Qed.
Lemma bus_op_58 : bus_agrees 0x58. (* Cli Implied *)
Proof. one. Qed.
Lemma bus_op_b8 : bus_agrees 0xb8. (* Clv Implied *)
Proof. one. Qed.
Lemma bus_op_c9 : bus_agrees 0xc9. (* Cmp Immediate *)
Proof. one. Qed.
Lemma bus_op_c5 : bus_agrees 0xc5. (* Cmp ZeroPage *)
Proof. one. Qed.
Lemma bus_op_d5 : bus_agrees 0xd5. (* Cmp ZeroPageIndexedWithX *)
Proof. one. Qed.
Lemma bus_op_cd : bus_agrees 0xcd. (* Cmp Absolute *)
Proof. one. Qed.
Lemma bus_op_dd : bus_agrees 0xdd. (* Cmp AbsoluteIndexedWithX *)
Proof. one. Qed.
Lemma bus_op_d9 : bus_agrees 0xd9. (* Cmp AbsoluteIndexedWithY *)
Proof. one. Qed.
Lemma bus_op_c1 : bus_agrees 0xc1. (* Cmp XIndexedIndirect *)
Proof. one. Qed.
Lemma bus_op_d1 : bus_agrees 0xd1. (* Cmp IndirectYIndexed *)
Proof. one. Qed.
Lemma bus_op_e0 : bus_agrees 0xe0. (* Cpx Immediate *)
Proof. one. Qed.
Lemma bus_op_e4 : bus_agrees 0xe4. (* Cpx ZeroPage *)
Proof. one. Qed.
Lemma bus_op_ec : bus_agrees 0xec. (* Cpx Absolute *)
Proof. one. Qed.
Lemma bus_op_c0 : bus_agrees 0xc0. (* Cpy Immediate *)
Proof. one. Qed.
Lemma bus_op_c4 : bus_agrees 0xc4. (* Cpy ZeroPage *)
Proof. one. Qed.
Lemma bus_op_cc : bus_agrees 0xcc. (* Cpy Absolute *)
Proof. one. Qed.
Lemma bus_op_c6 : bus_agrees 0xc6. (* Dec ZeroPage *)
Proof. one. Qed.
Lemma bus_op_d6 : bus_agrees 0xd6. (* Dec ZeroPageIndexedWithX *)
Proof. one. Qed.
Lemma bus_op_ce : bus_agrees 0xce. (* Dec Absolute *)
Proof. one. Qed.
Lemma bus_op_de : bus_agrees 0xde. (* Dec AbsoluteIndexedWithX *)
Proof. one. Qed.
Lemma bus_op_ca : bus_agrees 0xca. (* Dex Implied *)
Proof. one. Qed.
Lemma bus_op_88 : bus_agrees 0x88. (* Dey Implied *)
Proof. one. Qed.
Lemma bus_op_49 : bus_agrees 0x49. (* Eor Immediate *)
Proof. one. Qed.
Lemma bus_op_45 : bus_agrees 0x45. (* Eor ZeroPage *)
Proof. one. Qed.
Lemma bus_op_55 : bus_agrees 0x55. (* Eor ZeroPageIndexedWithX *)
Proof. one. Qed.
Lemma bus_op_4d : bus_agrees 0x4d. (* Eor Absolute *)
Proof. one. Qed.
Lemma bus_op_5d : bus_agrees 0x5d. (* Eor AbsoluteIndexedWithX *)
Proof. one. Qed.
Lemma bus_op_59 : bus_agrees 0x59. (* Eor AbsoluteIndexedWithY *)
Proof. one. Qed.
Lemma bus_op_41 : bus_agrees 0x41. (* Eor XIndexedIndirect *)
Proof. one. Qed.
Lemma bus_op_51 : bus_agrees 0x51. (* Eor IndirectYIndexed *)
Proof. one. Qed.
Lemma bus_op_e6 : bus_agrees 0xe6. (* Inc ZeroPage *)
Proof. one. Qed.
Lemma bus_op_f6 : bus_agrees 0xf6. (* Inc ZeroPageIndexedWithX *)
Proof. one. Qed.
Lemma bus_op_ee : bus_agrees 0xee. (* Inc Absolute *)
Proof. one. Qed.
Lemma bus_op_fe : bus_agrees 0xfe. (* Inc AbsoluteIndexedWithX *)
Proof. one. Qed.
Lemma bus_op_e8 : bus_agrees 0xe8. (* Inx Implied *)
Proof. one. Qed.
Lemma bus_op_c8 : bus_agrees 0xc8. (* Iny Implied *)
Proof. one. Qed.
Lemma bus_op_4c : bus_agrees 0x4c. (* Jmp Absolute *)
Proof. one. Qed.
Lemma bus_op_6c : bus_agrees 0x6c. (* Jmp Indirect *)
Proof. one. Qed.
Lemma bus_op_20 : bus_agrees 0x20. (* Jsr Absolute *)
Proof. one. Qed.
Lemma bus_op_a9 : bus_agrees 0xa9. (* Lda Immediate *)
Proof. one. Qed.
Lemma bus_op_a5 : bus_agrees 0xa5. (* Lda ZeroPage *)
Proof. one. Qed.
Lemma bus_op_b5 : bus_agrees 0xb5. (* Lda ZeroPageIndexedWithX *)
Proof. one. Qed.
Lemma bus_op_ad : bus_agrees 0xad. (* Lda Absolute *)
Proof. one. Qed.
Lemma bus_op_bd : bus_agrees 0xbd. (* Lda AbsoluteIndexedWithX *)
Proof. one. Qed.
Lemma bus_op_b9 : bus_agrees 0xb9. (* Lda AbsoluteIndexedWithY *)
Proof. one. Qed.
Lemma bus_op_a1 : bus_agrees 0xa1. (* Lda XIndexedIndirect *)
Proof. one. Qed.
Lemma bus_op_b1 : bus_agrees 0xb1. (* Lda IndirectYIndexed *)
Proof. one. Qed.
Lemma bus_op_a2 : bus_agrees 0xa2. (* Ldx Immediate *)
Proof. one. Qed.
Lemma bus_op_a6 : bus_agrees 0xa6. (* Ldx ZeroPage *)
Proof. one. Qed.
Lemma bus_op_b6 : bus_agrees 0xb6. (* Ldx ZeroPageIndexedWithY *)
Proof. one. Qed.
Lemma bus_op_ae : bus_agrees 0xae. (* Ldx Absolute *)
Proof. one. Qed.
Lemma bus_op_be : bus_agrees 0xbe. (* Ldx AbsoluteIndexedWithY *)
Proof. one. Qed.
Lemma bus_op_a0 : bus_agrees 0xa0. (* Ldy Immediate *)
Proof. one. Qed.
Lemma bus_op_a4 : bus_agrees 0xa4. (* Ldy ZeroPage *)
Proof. one. Qed.
Lemma bus_op_b4 : bus_agrees 0xb4. (* Ldy ZeroPageIndexedWithX *)
Proof. one. Qed.
Lemma bus_op_ac : bus_agrees 0xac. (* Ldy Absolute *)
Proof. one. Qed.
Lemma bus_op_bc : bus_agrees 0xbc. (* Ldy AbsoluteIndexedWithX *)
Proof. one. Qed.
Lemma bus_op_4a : bus_agrees 0x4a. (* Lsr Accumulator *)
Proof. one. Qed.
Lemma bus_op_46 : bus_agrees 0x46. (* Lsr ZeroPage *)
Proof. one. Qed.
Lemma bus_op_56 : bus_agrees 0x56. (* Lsr ZeroPageIndexedWithX *)
Proof. one. Qed.
Lemma bus_op_4e : bus_agrees 0x4e. (* Lsr Absolute *)
Proof. one. Qed.
Lemma bus_op_5e : bus_agrees 0x5e. (* Lsr AbsoluteIndexedWithX *)
Proof. one. Qed.
Lemma bus_op_ea : bus_agrees 0xea. (* Nop Implied *)
Proof. one. Qed.
Lemma bus_op_09 : bus_agrees 0x09. (* Ora Immediate *)
Proof. one. Qed.
Lemma bus_op_05 : bus_agrees 0x05. (* Ora ZeroPage *)
Proof. one. Qed.
Lemma bus_op_15 : bus_agrees 0x15. (* Ora ZeroPageIndexedWithX *)
Proof. one. Qed.
Lemma bus_op_0d : bus_agrees 0x0d. (* Ora Absolute *)
Proof. one. Qed.
Lemma bus_op_1d : bus_agrees 0x1d. (* Ora AbsoluteIndexedWithX *)
Proof. one. Qed.
Lemma bus_op_19 : bus_agrees 0x19. (* Ora AbsoluteIndexedWithY *)
Proof. one. Qed.
Lemma bus_op_01 : bus_agrees 0x01. (* Ora XIndexedIndirect *)
Proof. one. Qed.
Lemma bus_op_11 : bus_agrees 0x11. (* Ora IndirectYIndexed *)
Proof. one. Qed.
Lemma bus_op_48 : bus_agrees 0x48. (* Pha Implied *)
Proof. one. Qed.
Lemma bus_op_08 : bus_agrees 0x08. (* Php Implied *)
Proof. one. Qed.
Lemma bus_op_68 : bus_agrees 0x68. (* Pla Implied *)
Proof. one. Qed.
Lemma bus_op_28 : bus_agrees 0x28. (* Plp Implied *)
Proof. one. Qed.
Lemma bus_op_2a : bus_agrees 0x2a. (* Rol Accumulator *)
Proof. one. Qed.
Lemma bus_op_26 : bus_agrees 0x26. (* Rol ZeroPage *)
Proof. one. Qed.
Lemma bus_op_36 : bus_agrees 0x36. (* Rol ZeroPageIndexedWithX *)
Proof. one. Qed.
Lemma bus_op_2e : bus_agrees 0x2e. (* Rol Absolute *)
Proof. one. Qed.
Lemma bus_op_3e : bus_agrees 0x3e. (* Rol AbsoluteIndexedWithX *)
Proof. one. Qed.
Lemma bus_op_6a : bus_agrees 0x6a. (* Ror Accumulator *)
Proof. one. Qed.
Lemma bus_op_66 : bus_agrees 0x66. (* Ror ZeroPage *)
Proof. one. Qed.
Lemma bus_op_76 : bus_agrees 0x76. (* Ror ZeroPageIndexedWithX *)
Proof. one. Qed.
Lemma bus_op_6e : bus_agrees 0x6e. (* Ror Absolute *)
Proof. one. Qed.
Lemma bus_op_7e : bus_agrees 0x7e. (* Ror AbsoluteIndexedWithX *)
Proof. one. Qed.
Lemma bus_op_40 : bus_agrees 0x40. (* Rti Implied *)
Proof. one. Qed.
Lemma bus_op_60 : bus_agrees 0x60. (* Rts Implied *)
Proof. one. Qed.
Lemma bus_op_e9 : bus_agrees 0xe9. (* Sbc Immediate *)
Proof. one. Qed.
Lemma bus_op_e5 : bus_agrees 0xe5. (* Sbc ZeroPage *)
Proof. one. Qed.
Lemma bus_op_f5 : bus_agrees 0xf5. (* Sbc ZeroPageIndexedWithX *)
Proof. one. Qed.
Lemma bus_op_ed : bus_agrees 0xed. (* Sbc Absolute *)
Proof. one. Qed.
Lemma bus_op_fd : bus_agrees 0xfd. (* Sbc AbsoluteIndexedWithX *)
Proof. one. Qed.
Lemma bus_op_f9 : bus_agrees 0xf9. (* Sbc AbsoluteIndexedWithY *)
Proof. one. Qed.
Lemma bus_op_e1 : bus_agrees 0xe1. (* Sbc XIndexedIndirect *)
Proof. one. Qed.
Lemma bus_op_f1 : bus_agrees 0xf1. (* Sbc IndirectYIndexed *)
Proof. one. Qed.
Lemma bus_op_38 : bus_agrees 0x38. (* Sec Implied *)
Proof. one. Qed.
Lemma bus_op_f8 : bus_agrees 0xf8. (* Sed Implied *)
Proof. one. Qed.
Lemma bus_op_78 : bus_agrees 0x78. (* Sei Implied *)
Proof. one. Qed.
Lemma bus_op_85 : bus_agrees 0x85. (* Sta ZeroPage *)
Proof. one. Qed.
Lemma bus_op_95 : bus_agrees 0x95. (* Sta ZeroPageIndexedWithX *)
Proof. one. Qed.
Lemma bus_op_8d : bus_agrees 0x8d. (* Sta Absolute *)
Proof. one. Qed.
Lemma bus_op_9d : bus_agrees 0x9d. (* Sta AbsoluteIndexedWithX *)
Proof. one. Qed.
Lemma bus_op_99 : bus_agrees 0x99. (* Sta AbsoluteIndexedWithY *)
Proof. one. Qed.
Lemma bus_op_81 : bus_agrees 0x81. (* Sta XIndexedIndirect *)
Proof. one. Qed.
Lemma bus_op_91 : bus_agrees 0x91. (* Sta IndirectYIndexed *)
Proof. one. Qed.
Lemma bus_op_86 : bus_agrees 0x86. (* Stx ZeroPage *)
Proof. one. Qed.
Lemma bus_op_96 : bus_agrees 0x96. (* Stx ZeroPageIndexedWithY *)
Proof. one. Qed.
Lemma bus_op_8e : bus_agrees 0x8e. (* Stx Absolute *)
Proof. one. Qed.
Lemma bus_op_84 : bus_agrees 0x84. (* Sty ZeroPage *)
Proof. one. Qed.
Lemma bus_op_94 : bus_agrees 0x94. (* Sty ZeroPageIndexedWithX *)
Proof. one. Qed.
Lemma bus_op_8c : bus_agrees 0x8c. (* Sty Absolute *)
Proof. one. Qed.
Lemma bus_op_aa : bus_agrees 0xaa. (* Tax Implied *)
Proof. one. Qed.
Lemma bus_op_a8 : bus_agrees 0xa8. (* Tay Implied *)
Proof. one. Qed.
Lemma bus_op_ba : bus_agrees 0xba. (* Tsx Implied *)
Proof. one. Qed.
Lemma bus_op_8a : bus_agrees 0x8a. (* Txa Implied *)
Proof. one. Qed.
Lemma bus_op_9a : bus_agrees 0x9a. (* Txs Implied *)
Proof. one. Qed.
Lemma bus_op_98 : bus_agrees 0x98. (* Tya Implied *)
Proof. one. Qed.

Lemma bus_undocumented b0 : u8 b0 -> decode b0 = None -> bus_agrees b0.
Proof.
  intros H0 Hd b1 b2 s _ _. rewrite Hd.
  destruct (decode_parse b0 b1 b2 H0) as [(r & v & E & _)|[_ E]]; [congruence|].
  now rewrite E.
Qed.

Lemma bus_documented : Forall bus_agrees (map fst opcode_table).
Proof.
  unfold opcode_table; cbn [map fst].
  apply Forall_cons; [exact bus_op_69|].
  apply Forall_cons; [exact bus_op_65|].
  apply Forall_cons; [exact bus_op_75|].
  apply Forall_cons; [exact bus_op_6d|].
  apply Forall_cons; [exact bus_op_7d|].
  apply Forall_cons; [exact bus_op_79|].
  apply Forall_cons; [exact bus_op_61|].
  apply Forall_cons; [exact bus_op_71|].
  apply Forall_cons; [exact bus_op_29|].
  apply Forall_cons; [exact bus_op_25|].
  apply Forall_cons; [exact bus_op_35|].
  apply Forall_cons; [exact bus_op_2d|].
  apply Forall_cons; [exact bus_op_3d|].
  apply Forall_cons; [exact bus_op_39|].
  apply Forall_cons; [exact bus_op_21|].
  apply Forall_cons; [exact bus_op_31|].
  apply Forall_cons; [exact bus_op_0a|].
  apply Forall_cons; [exact bus_op_06|].
  apply Forall_cons; [exact bus_op_16|].
  apply Forall_cons; [exact bus_op_0e|].
  apply Forall_cons; [exact bus_op_1e|].
  apply Forall_cons; [exact bus_op_90|].
  apply Forall_cons; [exact bus_op_b0|].
  apply Forall_cons; [exact bus_op_f0|].
  apply Forall_cons; [exact bus_op_24|].
  apply Forall_cons; [exact bus_op_2c|].
  apply Forall_cons; [exact bus_op_30|].
  apply Forall_cons; [exact bus_op_d0|].
  apply Forall_cons; [exact bus_op_10|].
  apply Forall_cons; [exact bus_op_00|].
  apply Forall_cons; [exact bus_op_50|].
  apply Forall_cons; [exact bus_op_70|].
  apply Forall_cons; [exact bus_op_18|].
  apply Forall_cons; [exact bus_op_d8|].
  apply Forall_cons; [exact bus_op_58|].
  apply Forall_cons; [exact bus_op_b8|].
  apply Forall_cons; [exact bus_op_c9|].
  apply Forall_cons; [exact bus_op_c5|].
  apply Forall_cons; [exact bus_op_d5|].
  apply Forall_cons; [exact bus_op_cd|].
  apply Forall_cons; [exact bus_op_dd|].
  apply Forall_cons; [exact bus_op_d9|].
  apply Forall_cons; [exact bus_op_c1|].
  apply Forall_cons; [exact bus_op_d1|].
  apply Forall_cons; [exact bus_op_e0|].
  apply Forall_cons; [exact bus_op_e4|].
  apply Forall_cons; [exact bus_op_ec|].
  apply Forall_cons; [exact bus_op_c0|].
  apply Forall_cons; [exact bus_op_c4|].
  apply Forall_cons; [exact bus_op_cc|].
  apply Forall_cons; [exact bus_op_c6|].
  apply Forall_cons; [exact bus_op_d6|].
  apply Forall_cons; [exact bus_op_ce|].
  apply Forall_cons; [exact bus_op_de|].
  apply Forall_cons; [exact bus_op_ca|].
  apply Forall_cons; [exact bus_op_88|].
  apply Forall_cons; [exact bus_op_49|].
  apply Forall_cons; [exact bus_op_45|].
  apply Forall_cons; [exact bus_op_55|].
  apply Forall_cons; [exact bus_op_4d|].
  apply Forall_cons; [exact bus_op_5d|].
  apply Forall_cons; [exact bus_op_59|].
  apply Forall_cons; [exact bus_op_41|].
  apply Forall_cons; [exact bus_op_51|].
  apply Forall_cons; [exact bus_op_e6|].
  apply Forall_cons; [exact bus_op_f6|].
  apply Forall_cons; [exact bus_op_ee|].
  apply Forall_cons; [exact bus_op_fe|].
  apply Forall_cons; [exact bus_op_e8|].
  apply Forall_cons; [exact bus_op_c8|].
  apply Forall_cons; [exact bus_op_4c|].
  apply Forall_cons; [exact bus_op_6c|].
  apply Forall_cons; [exact bus_op_20|].
  apply Forall_cons; [exact bus_op_a9|].
  apply Forall_cons; [exact bus_op_a5|].
  apply Forall_cons; [exact bus_op_b5|].
  apply Forall_cons; [exact bus_op_ad|].
  apply Forall_cons; [exact bus_op_bd|].
  apply Forall_cons; [exact bus_op_b9|].
  apply Forall_cons; [exact bus_op_a1|].
  apply Forall_cons; [exact bus_op_b1|].
  apply Forall_cons; [exact bus_op_a2|].
  apply Forall_cons; [exact bus_op_a6|].
  apply Forall_cons; [exact bus_op_b6|].
  apply Forall_cons; [exact bus_op_ae|].
  apply Forall_cons; [exact bus_op_be|].
  apply Forall_cons; [exact bus_op_a0|].
  apply Forall_cons; [exact bus_op_a4|].
  apply Forall_cons; [exact bus_op_b4|].
  apply Forall_cons; [exact bus_op_ac|].
  apply Forall_cons; [exact bus_op_bc|].
  apply Forall_cons; [exact bus_op_4a|].
  apply Forall_cons; [exact bus_op_46|].
  apply Forall_cons; [exact bus_op_56|].
  apply Forall_cons; [exact bus_op_4e|].
  apply Forall_cons; [exact bus_op_5e|].
  apply Forall_cons; [exact bus_op_ea|].
  apply Forall_cons; [exact bus_op_09|].
  apply Forall_cons; [exact bus_op_05|].
  apply Forall_cons; [exact bus_op_15|].
  apply Forall_cons; [exact bus_op_0d|].
  apply Forall_cons; [exact bus_op_1d|].
  apply Forall_cons; [exact bus_op_19|].
  apply Forall_cons; [exact bus_op_01|].
  apply Forall_cons; [exact bus_op_11|].
  apply Forall_cons; [exact bus_op_48|].
  apply Forall_cons; [exact bus_op_08|].
  apply Forall_cons; [exact bus_op_68|].
  apply Forall_cons; [exact bus_op_28|].
  apply Forall_cons; [exact bus_op_2a|].
  apply Forall_cons; [exact bus_op_26|].
  apply Forall_cons; [exact bus_op_36|].
  apply Forall_cons; [exact bus_op_2e|].
  apply Forall_cons; [exact bus_op_3e|].
  apply Forall_cons; [exact bus_op_6a|].
  apply Forall_cons; [exact bus_op_66|].
  apply Forall_cons; [exact bus_op_76|].
  apply Forall_cons; [exact bus_op_6e|].
  apply Forall_cons; [exact bus_op_7e|].
  apply Forall_cons; [exact bus_op_40|].
  apply Forall_cons; [exact bus_op_60|].
  apply Forall_cons; [exact bus_op_e9|].
  apply Forall_cons; [exact bus_op_e5|].
  apply Forall_cons; [exact bus_op_f5|].
  apply Forall_cons; [exact bus_op_ed|].
  apply Forall_cons; [exact bus_op_fd|].
  apply Forall_cons; [exact bus_op_f9|].
  apply Forall_cons; [exact bus_op_e1|].
  apply Forall_cons; [exact bus_op_f1|].
  apply Forall_cons; [exact bus_op_38|].
  apply Forall_cons; [exact bus_op_f8|].
  apply Forall_cons; [exact bus_op_78|].
  apply Forall_cons; [exact bus_op_85|].
  apply Forall_cons; [exact bus_op_95|].
  apply Forall_cons; [exact bus_op_8d|].
  apply Forall_cons; [exact bus_op_9d|].
  apply Forall_cons; [exact bus_op_99|].
  apply Forall_cons; [exact bus_op_81|].
  apply Forall_cons; [exact bus_op_91|].
  apply Forall_cons; [exact bus_op_86|].
  apply Forall_cons; [exact bus_op_96|].
  apply Forall_cons; [exact bus_op_8e|].
  apply Forall_cons; [exact bus_op_84|].
  apply Forall_cons; [exact bus_op_94|].
  apply Forall_cons; [exact bus_op_8c|].
  apply Forall_cons; [exact bus_op_aa|].
  apply Forall_cons; [exact bus_op_a8|].
  apply Forall_cons; [exact bus_op_ba|].
  apply Forall_cons; [exact bus_op_8a|].
  apply Forall_cons; [exact bus_op_9a|].
  apply Forall_cons; [exact bus_op_98|].
  apply Forall_nil.
Qed.

Lemma bus_all_agree b0 : u8 b0 -> bus_agrees b0.
Proof.
  intros H0. destruct (decode b0) as [r|] eqn:E.
  - apply decode_in in E. exact (proj1 (Forall_forall _ _) bus_documented b0 E).
  - now apply bus_undocumented.
Qed.

Lemma effect_agrees s :
  effect_of (answer b (generate_next p cpu) s) = bus_effect b p (regs_of cpu) s.
Proof.
  unfold generate_next, bus_effect, bus_fetch.
  unfold after at 1 2 3 4 5 6. unfold ask, io_read. cbn [io_bind answer]. cbn [regs_of rPC].
  destruct (b_read b s (reg_pc cpu)) as [[b0 s0]|] eqn:E0; cbn [bind]; [|reflexivity].
  rewrite !add_u16_lift by (unfold u16 in *; lia).
  destruct (unchecked p 65536 (reg_pc cpu + 1)) as [a1|] eqn:E1; cbn [io_bind answer given done stop bind];
    [|reflexivity].
  destruct (b_read b s0 a1) as [[b1 s1]|] eqn:F1; cbn [bind]; [|reflexivity].
  destruct (unchecked p 65536 (reg_pc cpu + 2)) as [a2|] eqn:E2; cbn [io_bind answer given done stop bind];
    [|reflexivity].
  destruct (b_read b s1 a2) as [[b2 s2]|] eqn:F2; cbn [bind]; [|reflexivity].
  apply Hb in E0, F1, F2.
  unfold done at 1.
  pose proof (bus_all_agree b0 E0 b1 b2 s2 F1 F2) as Hag.
  destruct (parse_instruction b0 b1 b2) as [v|]; cbn [io_bind answer bind].
  - rewrite Hag. destruct (decode b0) as [[[mn m] c]|]; reflexivity.
  - cbn [effect_of]. rewrite Hag. destruct (decode b0) as [[[mn m] c]|]; reflexivity.
Qed.
End Step.

(** Microcode on a bus is microcode on registers and, apart from it, writes in
    order. *)
Lemma fold_bus {S} (b : bus S) p : forall l cpu s,
  foldM (execute_bus b p) l (cpu, s) =
  (do! c <- foldM (reg_exec p) l cpu ;
   do! ' (_, s') <- bus_store_all b (flat_map bus_writes l) s ;
   Ok (c, s')).
Proof.
  induction l as [|mc l IH]; intros cpu s; [reflexivity|].
  cbn [foldM flat_map].
  destruct mc; cbn [execute_bus reg_exec bus_writes app bus_store_all bind];
    try (match goal with |- context [execute_mut p cpu ?m] => destruct (execute_mut p cpu m) end;
         cbn [bind]; [apply IH|reflexivity]).
  unfold after, tell. match goal with |- context [b_write b s ?a ?v] => destruct (b_write b s a v) as [s'|] end; cbn [bind]; [apply IH|].
  destruct (foldM (reg_exec p) l cpu); reflexivity.
Qed.
