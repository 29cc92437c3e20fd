(** The model's [next] agrees with the specification for every opcode byte. *)
From Verif Require Import Arith ModelMap ModelRegs6502 ModelCpu6502 ModelOperand ModelIsa6502
  ModelOps6502 ModelRun6502 Link6502 ProofOperand.
From Verif Require Import Spec6502.

Lemma u16_word a b : u8 a -> u8 b -> u16 (a + 256 * b).
Proof. unfold u8, u16. lia. Qed.
Lemma u16_stack a : u8 a -> u16 (a + 256 * 1).
Proof. unfold u8, u16. lia. Qed.

Lemma concat_repeat_nil {A} n (l : list A) : concat (repeat [] n ++ [l]) = l.
Proof. induction n; cbn; [apply app_nil_r|assumption]. Qed.

Lemma decode_parse b0 b1 b2 : u8 b0 ->
  (exists r v, decode b0 = Some r /\ parse_instruction b0 b1 b2 = Some v)
  \/ (decode b0 = None /\ parse_instruction b0 b1 b2 = None).
Proof.
  intros Hb.
  assert (E : Bool.eqb (match decode b0 with Some _ => true | None => false end)
                (match parse_instruction b0 0 0 with Some _ => true | None => false end) = true).
  { apply (u8_sweep (fun b0 => Bool.eqb (match decode b0 with Some _ => true | None => false end)
                (match parse_instruction b0 0 0 with Some _ => true | None => false end)));
    [vm_compute; reflexivity|exact Hb]. }
  apply in_bytes in Hb.
  assert (E2 : forall b1 b2 b1' b2', parse_instruction b0 b1 b2 = None ->
     parse_instruction b0 b1' b2' = None).
  { clear E Hb. intros c1 c2 c1' c2'. unfold parse_instruction.
    repeat match goal with |- (match ?x with _ => _ end = _) -> _ => destruct x end;
    intros; try discriminate; reflexivity. }
  destruct (decode b0), (parse_instruction b0 b1 b2) eqn:P; auto.
  - left. eauto.
  - rewrite (E2 _ _ 0 0 P) in E. discriminate.
  - destruct (parse_instruction b0 0 0) eqn:P0; [discriminate|].
    rewrite (E2 _ _ b1 b2 P0) in P. discriminate.
Qed.

Section Step.
Context {D : Type} `{Device D}.
Variable p : profile.
Variable cpu : mos6502 D.
Variable rd : Z -> Z.
Hypothesis Hbus : bus_reads p (amap cpu) rd.
Hypothesis Hrd : byte_valued rd.
Hypothesis HA : u8 (reg_acc cpu).
Hypothesis HX : u8 (reg_x cpu).
Hypothesis HY : u8 (reg_y cpu).
Hypothesis HS : u8 (reg_sp cpu).
Hypothesis HPC : u16 (reg_pc cpu).

(** What [next] does after decoding. *)
Definition finish (r : res operations) : res (nat * mos6502 D) :=
  match r with
  | Panic => Panic
  | Ok mops =>
      match operations_into_cycles mops with
      | Panic => Panic
      | Ok cs =>
          match foldM (execute_mut p) (concat cs) cpu with
          | Panic => Panic
          | Ok cpu' => Ok (ops_cycles mops, cpu')
          end
      end
  end.

Lemma finish_ok off n mc :
  finish (Ok (operations_new off (S n) mc)) =
  match foldM (execute_mut p) (mc ++ [Inc16bitRegister Pc (off mod 65536)]) cpu with
  | Panic => Panic
  | Ok cpu' => Ok (S n, cpu')
  end.
Proof.
  unfold finish, operations_into_cycles, operations_new; cbn [ops_cycles ops_offset ops_microcode].
  now rewrite concat_repeat_nil.
Qed.

Lemma deref_nf a i : u16 ((a + i) mod 65536) ->
  dereference_address_to_operand p cpu a i = Ok (operand_new (rd ((a + i) mod 65536))).
Proof.
  intros Ha. unfold dereference_address_to_operand, add_index_to_address, wrapping_add_u16.
  rewrite Hbus by exact Ha. reflexivity.
Qed.

Lemma deref0_nf a : u16 a -> dereference_address_to_operand p cpu a 0 = Ok (operand_new (rd a)).
Proof.
  intros Ha. rewrite deref_nf by apply u16_mod.
  replace ((a + 0) mod 65536) with a; [reflexivity|]. unfold u16 in Ha. lia.
Qed.

Lemma dxi_nf b : u8 b ->
  dereference_indexed_indirect_address p cpu b (reg_x cpu)
  = match unchecked p 256 (reg_x cpu + 1) with
    | None => Panic
    | Some _ => Ok (word (rd ((b + reg_x cpu) mod 256)) (rd ((b + reg_x cpu + 1) mod 256)))
    end.
Proof.
  intros Hb. unfold dereference_indexed_indirect_address, wrapping_add_u8.
  rewrite Hbus by (apply u8_u16, u8_mod). cbn [bind].
  unfold add_u8, checked, unchecked.
  replace ((0 <=? reg_x cpu + 1) && (reg_x cpu + 1 <? 256)) with (reg_x cpu + 1 <? 256)
    by (unfold u8 in *; lia).
  destruct (reg_x cpu + 1 <? 256) eqn:E; [|destruct p; [reflexivity|]]; cbn [bind];
  rewrite Hbus by (apply u8_u16, u8_mod); cbn [bind];
  unfold u16_from_le_bytes, word; do 4 f_equal; unfold u8 in *; lia.
Qed.

Lemma diy_nf b : u8 b ->
  dereference_indirect_indexed_address p cpu b (reg_y cpu)
  = match unchecked p 65536 (word (rd b) (rd ((b + 1) mod 256)) + reg_y cpu) with
    | None => Panic
    | Some a => Ok a
    end.
Proof.
  intros Hb. unfold dereference_indirect_indexed_address, wrapping_add_u8.
  rewrite !Hbus by (apply u8_u16; (exact Hb || apply u8_mod)). cbn [bind].
  assert (H1 := Hrd _ (u8_u16 _ Hb)). assert (H2 := Hrd _ (u8_u16 _ (u8_mod (b + 1)))).
  unfold add_u16, checked, unchecked, u16_from_le_bytes, word.
  set (w := rd b + 256 * rd ((b + 1) mod 256)).
  assert (0 <= w) by (unfold w, u8 in *; lia).
  replace ((0 <=? w + reg_y cpu) && (w + reg_y cpu <? 65536)) with (w + reg_y cpu <? 65536)
    by (unfold u8 in *; lia).
  destruct (w + reg_y cpu <? 65536); [reflexivity|]. destruct p; reflexivity.
Qed.

Lemma stack_add s k : stack_pointer_from_byte_value (wrapping_add_u8 s k) = stack (s + k).
Proof. unfold stack_pointer_from_byte_value, wrapping_add_u8, u16_from_le_bytes, stack. lia. Qed.
Lemma stack_sub s k : stack_pointer_from_byte_value (wrapping_sub_u8 s k) = stack (s - k).
Proof. unfold stack_pointer_from_byte_value, wrapping_sub_u8, u16_from_le_bytes, stack. lia. Qed.
Lemma stack_id : stack_pointer_from_byte_value (reg_sp cpu) = stack (reg_sp cpu).
Proof. unfold stack_pointer_from_byte_value, u16_from_le_bytes, stack. unfold u8 in HS. lia. Qed.
Lemma u16_stack' s : u16 (stack s).
Proof. unfold u16, stack. lia. Qed.

Definition agrees (b0 : Z) : Prop :=
  forall b1 b2, u8 b1 -> u8 b2 ->
  match parse_instruction b0 b1 b2 with
  | None => Panic
  | Some oper => finish (generate p oper cpu)
  end
  = spec_outcome p cpu
      match decode b0 with
      | Some (mn, m, cycles) => execute p mn m cycles (regs_of cpu) rd b1 b2
      | None => None
      end.

Ltac range :=
  first
    [ assumption
    | apply u8_mod | apply u16_mod | apply u16_stack' 
    | apply u8_land; range | apply u8_lor; range | apply u8_lxor; range
    | apply u8_rol; range | apply u8_ror; range
    | apply Hrd; range
    | apply u16_word; range
    | match goal with |- u16 ?v => apply u8_u16; range end
    | unfold u8, u16 in *; lia ].

Ltac open_gen :=
  match goal with
  | |- finish ?t = _ => let rec hd t := lazymatch t with ?f _ => hd f | _ => t end in
                        let h := hd t in unfold h
  end.

Lemma zp0 b : u8 b -> wrapping_add_u8 b 0 = b.
Proof. unfold u8, wrapping_add_u8. lia. Qed.
Lemma unchecked_range q m v a : 0 <= v -> 0 < m -> unchecked q m v = Some a -> 0 <= a < m.
Proof.
  unfold unchecked. intros Hv Hm. destruct (v <? m) eqn:E.
  - intros [= <-]. lia.
  - destruct q; [discriminate|]. intros [= <-]. apply Z.mod_pos_bound; lia.
Qed.
Lemma diy_range b ea : u8 b ->
  unchecked p 65536 (word (rd b) (rd ((b + 1) mod 256)) + reg_y cpu) = Some ea -> u16 ea.
Proof.
  intros Hb Hea. assert (H1 := Hrd _ (u8_u16 _ Hb)).
  assert (H2 := Hrd _ (u8_u16 _ (u8_mod (b + 1)))).
  unfold word in Hea. apply unchecked_range in Hea; unfold u8, u16 in *; lia.
Qed.
Lemma page0_nf b a : u16 a -> page_contains (page_from_u8 b) a = (a / 256 =? 0).
Proof. exact (page0_contains_nf a). Qed.

Ltac reads :=
  repeat first
    [ progress cbn [bind]
    | rewrite deref0_nf by range
    | rewrite deref_nf by range
    | rewrite stack_id | rewrite stack_add | rewrite stack_sub
    | rewrite Hbus by range
    | rewrite page_from_u16_nf by range
    | rewrite page_contains_nf by range
    | rewrite page0_nf by range ].

Lemma op_add a b : u8 a -> u8 b -> operand_add (operand_new a) (operand_new b)
  = mkOperand (256 <=? a + b) (128 <=? (a + b) mod 256) ((a + b) mod 256 =? 0) ((a + b) mod 256).
Proof. intros Ha Hb. rewrite !operand_new_nf by assumption. apply operand_add_nf. Qed.
Lemma op_sub a b : u8 a -> u8 b -> operand_sub (operand_new a) (operand_new b)
  = mkOperand (a - b <? 0) (128 <=? (a - b) mod 256) ((a - b) mod 256 =? 0) ((a - b) mod 256).
Proof. intros Ha Hb. rewrite !operand_new_nf by assumption. apply operand_sub_nf. Qed.
Lemma op_ge a b : u8 a -> u8 b -> operand_ge (operand_new a) (operand_new b)
  = (compare_rank b <=? compare_rank a).
Proof. intros Ha Hb. rewrite !operand_new_nf by assumption. now apply operand_ge_nf. Qed.

Lemma op_and a b : operand_and (operand_new a) (operand_new b) = operand_new (Z.land a b).
Proof. reflexivity. Qed.
Lemma op_or a b : operand_or (operand_new a) (operand_new b) = operand_new (Z.lor a b).
Proof. reflexivity. Qed.
Lemma op_xor a b : operand_xor (operand_new a) (operand_new b) = operand_new (Z.lxor a b).
Proof. reflexivity. Qed.

Ltac operands :=
  repeat first
    [ rewrite tca_nf by range
    | rewrite tcs_nf by range
    | rewrite op_and | rewrite op_or | rewrite op_xor
    | rewrite ps_with_value_byte by range
    | rewrite op_add by range | rewrite op_sub by range | rewrite op_ge by range
    | rewrite operand_shl_nf by range | rewrite operand_shr_nf by range
    | rewrite operand_rol_nf by range | rewrite operand_ror_nf by range
    | rewrite bit_is_set_testbit by (range || lia)
    | rewrite ps_read_byte
    | rewrite operand_new_nf by range ].


Lemma add_u16_unchecked a b : 0 <= a + b ->
  add_u16 p a b = match unchecked p 65536 (a + b) with Some v => Ok v | None => Panic end.
Proof.
  intros Hab. unfold add_u16, checked, unchecked.
  replace ((0 <=? a + b) && (a + b <? 65536)) with (a + b <? 65536) by lia.
  destruct (a + b <? 65536); [reflexivity|]. destruct p; reflexivity.
Qed.
Lemma jmp_range a ea : 0 <= a -> unchecked p 65536 a = Some ea -> u16 ea.
Proof. intros Ha Hea. apply unchecked_range in Hea; unfold u16; lia. Qed.
Lemma target_nf b : wrapping_add_u16 (reg_pc cpu) (i8_as_u16 (u8_as_i8 b))
  = (reg_pc cpu + signed b) mod 65536.
Proof. unfold wrapping_add_u16, i8_as_u16, u8_as_i8, signed. destruct (b <? 128); lia. Qed.

Ltac zero_mods :=
  change (0 mod 65536) with 0 in *; change (1 mod 65536) with 1 in *;
  change (2 mod 65536) with 2 in *; change (3 mod 65536) with 3 in *.

Ltac expand :=
  cbv -[Z.add Z.sub Z.mul Z.modulo Z.div Z.leb Z.ltb Z.eqb Z.land Z.lor Z.lxor Z.testbit am_write
        am_read unchecked stack page_contains compare_rank status_byte status_of_byte 
        ps_with_value i8_as_u16 u8_as_i8].

Ltac one :=
  intros b1 b2 H1 H2; cbn [parse_instruction generate];
  match goal with |- _ = spec_outcome _ _ (match decode ?b with _ => _ end) =>
    let d := eval vm_compute in (decode b) in change (decode b) with d end;
  open_gen; cbv zeta;
  unfold u16_from_le_bytes, add_index_to_address, add_index_to_zeropage_address,
    IRQ_VECTOR_LL, IRQ_VECTOR_HH, u16_to_le_bytes; cbv iota beta;
  rewrite ?zp0 by range;
  rewrite ?dxi_nf, ?diy_nf by range;
  rewrite ?add_u16_unchecked  by (unfold u8, u16 in *; lia);
  unfold execute, read_op, store_op, modify_op, operand_value, operand_address, word in *;
  cbn [regs_of rX rY rA rP rS rPC];
  try match goal with |- context [match unchecked ?p ?m ?v with _ => _ end] =>
     destruct (unchecked p m v) as [ea|] eqn:Eea;
     [try assert (Hea := diy_range _ _ H1 Eea);
      try assert (Hea : u16 ea) by (eapply jmp_range; [|exact Eea]; unfold u8 in *; lia)|] end;
  reads; try reflexivity; operands;
  cbv beta iota zeta delta [inst_cycles Nat.add inst_offset]; try rewrite finish_ok;
  expand; zero_mods;
  try match goal with |- context [?a / 256 =? ?b] => destruct (a / 256 =? b) end;
  repeat match goal with |- context [am_write ?a ?b ?c ?d] =>
     destruct (am_write a b c d) as [[? [?|]]|] end;
  try reflexivity;
  rewrite ?ps_with_value_byte by range;
  unfold signed, u8, u16 in *;
  try (do 2 f_equal; f_equal; lia).

Lemma branch_nf cond b1 : u8 b1 ->
  finish (branch_on_case p cond (u8_as_i8 b1) 2 2 cpu)
  = spec_outcome p cpu (branch_op cond (regs_of cpu) b1 2).
Proof.
  intros H1. unfold branch_on_case, branch_op. rewrite target_nf.
  rewrite page_from_u16_nf by range. cbn [bind].
  rewrite page_contains_nf by range.
  destruct cond.
  - destruct ((reg_pc cpu + signed b1) mod 65536 / 256 =? reg_pc cpu / 256) eqn:E;
      cbn [Nat.add]; rewrite finish_ok; cbn [regs_of rPC]; rewrite E;
      expand; zero_mods; do 2 f_equal; f_equal; lia.
  - cbn [Nat.add]; rewrite finish_ok; expand; zero_mods; do 2 f_equal; f_equal; lia.
Qed.

Ltac branch :=
  intros b1 b2 H1 H2; cbn [parse_instruction generate];
  match goal with |- _ = spec_outcome _ _ (match decode ?b with _ => _ end) =>
    let d := eval vm_compute in (decode b) in change (decode b) with d end;
  open_gen; cbv zeta; exact (branch_nf _ b1 H1).

Lemma op_69 : agrees 0x69. (* Adc Immediate *)
Proof. one. Qed.
Lemma op_65 : agrees 0x65. (* Adc ZeroPage *)
Proof. one. Qed.
Lemma op_75 : agrees 0x75. (* Adc ZeroPageIndexedWithX *)
Proof. one. Qed.
Lemma op_6d : agrees 0x6d. (* Adc Absolute *)
Proof. one. Qed.
Lemma op_7d : agrees 0x7d. (* Adc AbsoluteIndexedWithX *)
Proof. one. Qed.
Lemma op_79 : agrees 0x79. (* Adc AbsoluteIndexedWithY *)
Proof. one. Qed.
Lemma op_61 : agrees 0x61. (* Adc XIndexedIndirect *)
Proof. one. Qed.
Lemma op_71 : agrees 0x71. (* Adc IndirectYIndexed *)
Proof. one. Qed.
Lemma op_29 : agrees 0x29. (* And Immediate *)
Proof. one. Qed.
Lemma op_25 : agrees 0x25. (* And ZeroPage *)
Proof. one. Qed.
Lemma op_35 : agrees 0x35. (* And ZeroPageIndexedWithX *)
Proof. one. Qed.
Lemma op_2d : agrees 0x2d. (* And Absolute *)
Proof. one. Qed.
Lemma op_3d : agrees 0x3d. (* And AbsoluteIndexedWithX *)
Proof. one. Qed.
Lemma op_39 : agrees 0x39. (* And AbsoluteIndexedWithY *)
Proof. one. Qed.
Lemma op_21 : agrees 0x21. (* And XIndexedIndirect *)
Proof. one. Qed.
Lemma op_31 : agrees 0x31. (* And IndirectYIndexed *)
Proof. one. Qed.
Lemma op_0a : agrees 0x0a. (* Asl Accumulator *)
Proof. one. Qed.
Lemma op_06 : agrees 0x06. (* Asl ZeroPage *)
Proof. one. Qed.
Lemma op_16 : agrees 0x16. (* Asl ZeroPageIndexedWithX *)
Proof. one. Qed.
Lemma op_0e : agrees 0x0e. (* Asl Absolute *)
Proof. one. Qed.
Lemma op_1e : agrees 0x1e. (* Asl AbsoluteIndexedWithX *)
Proof. one. Qed.
Lemma op_90 : agrees 0x90. (* Bcc Relative *)
Proof. branch. Qed.
Lemma op_b0 : agrees 0xb0. (* Bcs Relative *)
Proof. branch. Qed.
Lemma op_f0 : agrees 0xf0. (* Beq Relative *)
Proof. branch. Qed.
Lemma op_24 : agrees 0x24. (* Bit ZeroPage *)
Proof. one. Qed.
Lemma op_2c : agrees 0x2c. (* Bit Absolute *)
Proof. one. Qed.
Lemma op_30 : agrees 0x30. (* Bmi Relative *)
Proof. branch. Qed.
Lemma op_d0 : agrees 0xd0. (* Bne Relative *)
Proof. branch. Qed.
Lemma op_10 : agrees 0x10. (* Bpl Relative *)
Proof. branch. Qed.
Lemma op_00 : agrees 0x00. (* Brk Implied *)
Proof.
  assert (B1 : u8 (rd 65534)) by range. assert (B2 : u8 (rd 65535)) by range.
  one. Qed.
Lemma op_50 : agrees 0x50. (* Bvc Relative *)
Proof. branch. Qed.
Lemma op_70 : agrees 0x70. (* Bvs Relative *)
Proof. branch. Qed.
Lemma op_18 : agrees 0x18. (* Clc Implied *)
Proof. one. Qed.
Lemma op_d8 : agrees 0xd8. (* Cld Implied *)
Proof. one. Qed.
Lemma op_58 : agrees 0x58. (* Cli Implied *)
Proof. one. Qed.
Lemma op_b8 : agrees 0xb8. (* Clv Implied *)
Proof. one. Qed.
Lemma op_c9 : agrees 0xc9. (* Cmp Immediate *)
Proof. one. Qed.
Lemma op_c5 : agrees 0xc5. (* Cmp ZeroPage *)
Proof. one. Qed.
Lemma op_d5 : agrees 0xd5. (* Cmp ZeroPageIndexedWithX *)
Proof. one. Qed.
Lemma op_cd : agrees 0xcd. (* Cmp Absolute *)
Proof. one. Qed.
Lemma op_dd : agrees 0xdd. (* Cmp AbsoluteIndexedWithX *)
Proof. one. Qed.
Lemma op_d9 : agrees 0xd9. (* Cmp AbsoluteIndexedWithY *)
Proof. one. Qed.
Lemma op_c1 : agrees 0xc1. (* Cmp XIndexedIndirect *)
Proof. one. Qed.
Lemma op_d1 : agrees 0xd1. (* Cmp IndirectYIndexed *)
Proof. one. Qed.
Lemma op_e0 : agrees 0xe0. (* Cpx Immediate *)
Proof. one. Qed.
Lemma op_e4 : agrees 0xe4. (* Cpx ZeroPage *)
Proof. one. Qed.
Lemma op_ec : agrees 0xec. (* Cpx Absolute *)
Proof. one. Qed.
Lemma op_c0 : agrees 0xc0. (* Cpy Immediate *)
Proof. one. Qed.
Lemma op_c4 : agrees 0xc4. (* Cpy ZeroPage *)
Proof. one. Qed.
Lemma op_cc : agrees 0xcc. (* Cpy Absolute *)
Proof. one. Qed.
Lemma op_c6 : agrees 0xc6. (* Dec ZeroPage *)
Proof. one. Qed.
Lemma op_d6 : agrees 0xd6. (* Dec ZeroPageIndexedWithX *)
Proof. one. Qed.
Lemma op_ce : agrees 0xce. (* Dec Absolute *)
Proof. one. Qed.
Lemma op_de : agrees 0xde. (* Dec AbsoluteIndexedWithX *)
Proof. one. Qed.
Lemma op_ca : agrees 0xca. (* Dex Implied *)
Proof. one. Qed.
Lemma op_88 : agrees 0x88. (* Dey Implied *)
Proof. one. Qed.
Lemma op_49 : agrees 0x49. (* Eor Immediate *)
Proof. one. Qed.
Lemma op_45 : agrees 0x45. (* Eor ZeroPage *)
Proof. one. Qed.
Lemma op_55 : agrees 0x55. (* Eor ZeroPageIndexedWithX *)
Proof. one. Qed.
Lemma op_4d : agrees 0x4d. (* Eor Absolute *)
Proof. one. Qed.
Lemma op_5d : agrees 0x5d. (* Eor AbsoluteIndexedWithX *)
Proof. one. Qed.
Lemma op_59 : agrees 0x59. (* Eor AbsoluteIndexedWithY *)
Proof. one. Qed.
Lemma op_41 : agrees 0x41. (* Eor XIndexedIndirect *)
Proof. one. Qed.
Lemma op_51 : agrees 0x51. (* Eor IndirectYIndexed *)
Proof. one. Qed.
Lemma op_e6 : agrees 0xe6. (* Inc ZeroPage *)
Proof. one. Qed.
Lemma op_f6 : agrees 0xf6. (* Inc ZeroPageIndexedWithX *)
Proof. one. Qed.
Lemma op_ee : agrees 0xee. (* Inc Absolute *)
Proof. one. Qed.
Lemma op_fe : agrees 0xfe. (* Inc AbsoluteIndexedWithX *)
Proof. one. Qed.
Lemma op_e8 : agrees 0xe8. (* Inx Implied *)
Proof. one. Qed.
Lemma op_c8 : agrees 0xc8. (* Iny Implied *)
Proof. one. Qed.
Lemma op_4c : agrees 0x4c. (* Jmp Absolute *)
Proof. one. Qed.
Lemma op_6c : agrees 0x6c. (* Jmp Indirect *)
Proof.
  one.
  assert (B1 : u8 (rd (b1 + 256 * b2))) by (unfold u8 in *; range).
  assert (B2 : u8 (rd ea)) by (unfold u8 in *; range).
  unfold u8 in *; do 2 f_equal; f_equal; lia. Qed.
Lemma op_20 : agrees 0x20. (* Jsr Absolute *)
Proof. one. Qed.
Lemma op_a9 : agrees 0xa9. (* Lda Immediate *)
Proof. one. Qed.
Lemma op_a5 : agrees 0xa5. (* Lda ZeroPage *)
Proof. one. Qed.
Lemma op_b5 : agrees 0xb5. (* Lda ZeroPageIndexedWithX *)
Proof. one. Qed.
Lemma op_ad : agrees 0xad. (* Lda Absolute *)
Proof. one. Qed.
Lemma op_bd : agrees 0xbd. (* Lda AbsoluteIndexedWithX *)
Proof. one. Qed.
Lemma op_b9 : agrees 0xb9. (* Lda AbsoluteIndexedWithY *)
Proof. one. Qed.
Lemma op_a1 : agrees 0xa1. (* Lda XIndexedIndirect *)
Proof. one. Qed.
Lemma op_b1 : agrees 0xb1. (* Lda IndirectYIndexed *)
Proof. one. Qed.
Lemma op_a2 : agrees 0xa2. (* Ldx Immediate *)
Proof. one. Qed.
Lemma op_a6 : agrees 0xa6. (* Ldx ZeroPage *)
Proof. one. Qed.
Lemma op_b6 : agrees 0xb6. (* Ldx ZeroPageIndexedWithY *)
Proof. one. Qed.
Lemma op_ae : agrees 0xae. (* Ldx Absolute *)
Proof. one. Qed.
Lemma op_be : agrees 0xbe. (* Ldx AbsoluteIndexedWithY *)
Proof. one. Qed.
Lemma op_a0 : agrees 0xa0. (* Ldy Immediate *)
Proof. one. Qed.
Lemma op_a4 : agrees 0xa4. (* Ldy ZeroPage *)
Proof. one. Qed.
Lemma op_b4 : agrees 0xb4. (* Ldy ZeroPageIndexedWithX *)
Proof. one. Qed.
Lemma op_ac : agrees 0xac. (* Ldy Absolute *)
Proof. one. Qed.
Lemma op_bc : agrees 0xbc. (* Ldy AbsoluteIndexedWithX *)
Proof. one. Qed.
Lemma op_4a : agrees 0x4a. (* Lsr Accumulator *)
Proof. one. Qed.
Lemma op_46 : agrees 0x46. (* Lsr ZeroPage *)
Proof. one. Qed.
Lemma op_56 : agrees 0x56. (* Lsr ZeroPageIndexedWithX *)
Proof. one. Qed.
Lemma op_4e : agrees 0x4e. (* Lsr Absolute *)
Proof. one. Qed.
Lemma op_5e : agrees 0x5e. (* Lsr AbsoluteIndexedWithX *)
Proof. one. Qed.
Lemma op_ea : agrees 0xea. (* Nop Implied *)
Proof. one. Qed.
Lemma op_09 : agrees 0x09. (* Ora Immediate *)
Proof. one. Qed.
Lemma op_05 : agrees 0x05. (* Ora ZeroPage *)
Proof. one. Qed.
Lemma op_15 : agrees 0x15. (* Ora ZeroPageIndexedWithX *)
Proof. one. Qed.
Lemma op_0d : agrees 0x0d. (* Ora Absolute *)
Proof. one. Qed.
Lemma op_1d : agrees 0x1d. (* Ora AbsoluteIndexedWithX *)
Proof. one. Qed.
Lemma op_19 : agrees 0x19. (* Ora AbsoluteIndexedWithY *)
Proof. one. Qed.
Lemma op_01 : agrees 0x01. (* Ora XIndexedIndirect *)
Proof. one. Qed.
Lemma op_11 : agrees 0x11. (* Ora IndirectYIndexed *)
Proof. one. Qed.
Lemma op_48 : agrees 0x48. (* Pha Implied *)
Proof. one. Qed.
Lemma op_08 : agrees 0x08. (* Php Implied *)
Proof. one. Qed.
Lemma op_68 : agrees 0x68. (* Pla Implied *)
Proof. one. Qed.
Lemma op_28 : agrees 0x28. (* Plp Implied *)
Proof. one. Qed.
Lemma op_2a : agrees 0x2a. (* Rol Accumulator *)
Proof. one. Qed.
Lemma op_26 : agrees 0x26. (* Rol ZeroPage *)
Proof. one. Qed.
Lemma op_36 : agrees 0x36. (* Rol ZeroPageIndexedWithX *)
Proof. one. Qed.
Lemma op_2e : agrees 0x2e. (* Rol Absolute *)
Proof. one. Qed.
Lemma op_3e : agrees 0x3e. (* Rol AbsoluteIndexedWithX *)
Proof. one. Qed.
Lemma op_6a : agrees 0x6a. (* Ror Accumulator *)
Proof. one. Qed.
Lemma op_66 : agrees 0x66. (* Ror ZeroPage *)
Proof. one. Qed.
Lemma op_76 : agrees 0x76. (* Ror ZeroPageIndexedWithX *)
Proof. one. Qed.
Lemma op_6e : agrees 0x6e. (* Ror Absolute *)
Proof. one. Qed.
Lemma op_7e : agrees 0x7e. (* Ror AbsoluteIndexedWithX *)
Proof. one. Qed.
Lemma op_40 : agrees 0x40. (* Rti Implied *)
Proof. one. Qed.
Lemma op_60 : agrees 0x60. (* Rts Implied *)
Proof. one. Qed.
Lemma op_e9 : agrees 0xe9. (* Sbc Immediate *)
Proof. one. Qed.
Lemma op_e5 : agrees 0xe5. (* Sbc ZeroPage *)
Proof. one. Qed.
Lemma op_f5 : agrees 0xf5. (* Sbc ZeroPageIndexedWithX *)
Proof. one. Qed.
Lemma op_ed : agrees 0xed. (* Sbc Absolute *)
Proof. one. Qed.
Lemma op_fd : agrees 0xfd. (* Sbc AbsoluteIndexedWithX *)
Proof. one. Qed.
Lemma op_f9 : agrees 0xf9. (* Sbc AbsoluteIndexedWithY *)
Proof. one. Qed.
Lemma op_e1 : agrees 0xe1. (* Sbc XIndexedIndirect *)
Proof. one. Qed.
Lemma op_f1 : agrees 0xf1. (* Sbc IndirectYIndexed *)
Proof. one. Qed.
Lemma op_38 : agrees 0x38. (* Sec Implied *)
Proof. one. Qed.
Lemma op_f8 : agrees 0xf8. (* Sed Implied *)
Proof. one. Qed.
Lemma op_78 : agrees 0x78. (* Sei Implied *)
Proof. one. Qed.
Lemma op_85 : agrees 0x85. (* Sta ZeroPage *)
Proof. one. Qed.
Lemma op_95 : agrees 0x95. (* Sta ZeroPageIndexedWithX *)
Proof. one. Qed.
Lemma op_8d : agrees 0x8d. (* Sta Absolute *)
Proof. one. Qed.
Lemma op_9d : agrees 0x9d. (* Sta AbsoluteIndexedWithX *)
Proof. one. Qed.
Lemma op_99 : agrees 0x99. (* Sta AbsoluteIndexedWithY *)
Proof. one. Qed.
Lemma op_81 : agrees 0x81. (* Sta XIndexedIndirect *)
Proof. one. Qed.
Lemma op_91 : agrees 0x91. (* Sta IndirectYIndexed *)
Proof. one. Qed.
Lemma op_86 : agrees 0x86. (* Stx ZeroPage *)
Proof. one. Qed.
Lemma op_96 : agrees 0x96. (* Stx ZeroPageIndexedWithY *)
Proof. one. Qed.
Lemma op_8e : agrees 0x8e. (* Stx Absolute *)
Proof. one. Qed.
Lemma op_84 : agrees 0x84. (* Sty ZeroPage *)
Proof. one. Qed.
Lemma op_94 : agrees 0x94. (* Sty ZeroPageIndexedWithX *)
Proof. one. Qed.
Lemma op_8c : agrees 0x8c. (* Sty Absolute *)
Proof. one. Qed.
Lemma op_aa : agrees 0xaa. (* Tax Implied *)
Proof. one. Qed.
Lemma op_a8 : agrees 0xa8. (* Tay Implied *)
Proof. one. Qed.
Lemma op_ba : agrees 0xba. (* Tsx Implied *)
Proof. one. Qed.
Lemma op_8a : agrees 0x8a. (* Txa Implied *)
Proof. one. Qed.
Lemma op_9a : agrees 0x9a. (* Txs Implied *)
Proof. one. Qed.
Lemma op_98 : agrees 0x98. (* Tya Implied *)
Proof. one. Qed.

Lemma undocumented b0 : u8 b0 -> decode b0 = None -> agrees b0.
Proof.
  intros Hb Hd b1 b2 _ _. rewrite Hd.
  destruct (decode_parse b0 b1 b2 Hb) as [(r & v & E & _)|[_ E]]; [congruence|].
  now rewrite E.
Qed.

Lemma decode_in b0 r : decode b0 = Some r -> In b0 (map fst opcode_table).
Proof.
  unfold decode. intros Hd.
  destruct (find (fun row => fst row =? b0) opcode_table) as [[b r']|] eqn:E; [|discriminate].
  apply find_some in E. destruct E as [Hin Hb]. cbn in Hb.
  apply Z.eqb_eq in Hb. subst b. apply (in_map fst) in Hin. exact Hin.
Qed.

Lemma documented : Forall agrees (map fst opcode_table).
Proof.
  unfold opcode_table; cbn [map fst].
  apply Forall_cons; [exact op_69|].
  apply Forall_cons; [exact op_65|].
  apply Forall_cons; [exact op_75|].
  apply Forall_cons; [exact op_6d|].
  apply Forall_cons; [exact op_7d|].
  apply Forall_cons; [exact op_79|].
  apply Forall_cons; [exact op_61|].
  apply Forall_cons; [exact op_71|].
  apply Forall_cons; [exact op_29|].
  apply Forall_cons; [exact op_25|].
  apply Forall_cons; [exact op_35|].
  apply Forall_cons; [exact op_2d|].
  apply Forall_cons; [exact op_3d|].
  apply Forall_cons; [exact op_39|].
  apply Forall_cons; [exact op_21|].
  apply Forall_cons; [exact op_31|].
  apply Forall_cons; [exact op_0a|].
  apply Forall_cons; [exact op_06|].
  apply Forall_cons; [exact op_16|].
  apply Forall_cons; [exact op_0e|].
  apply Forall_cons; [exact op_1e|].
  apply Forall_cons; [exact op_90|].
  apply Forall_cons; [exact op_b0|].
  apply Forall_cons; [exact op_f0|].
  apply Forall_cons; [exact op_24|].
  apply Forall_cons; [exact op_2c|].
  apply Forall_cons; [exact op_30|].
  apply Forall_cons; [exact op_d0|].
  apply Forall_cons; [exact op_10|].
  apply Forall_cons; [exact op_00|].
  apply Forall_cons; [exact op_50|].
  apply Forall_cons; [exact op_70|].
  apply Forall_cons; [exact op_18|].
  apply Forall_cons; [exact op_d8|].
  apply Forall_cons; [exact op_58|].
  apply Forall_cons; [exact op_b8|].
  apply Forall_cons; [exact op_c9|].
  apply Forall_cons; [exact op_c5|].
  apply Forall_cons; [exact op_d5|].
  apply Forall_cons; [exact op_cd|].
  apply Forall_cons; [exact op_dd|].
  apply Forall_cons; [exact op_d9|].
  apply Forall_cons; [exact op_c1|].
  apply Forall_cons; [exact op_d1|].
  apply Forall_cons; [exact op_e0|].
  apply Forall_cons; [exact op_e4|].
  apply Forall_cons; [exact op_ec|].
  apply Forall_cons; [exact op_c0|].
  apply Forall_cons; [exact op_c4|].
  apply Forall_cons; [exact op_cc|].
  apply Forall_cons; [exact op_c6|].
  apply Forall_cons; [exact op_d6|].
  apply Forall_cons; [exact op_ce|].
  apply Forall_cons; [exact op_de|].
  apply Forall_cons; [exact op_ca|].
  apply Forall_cons; [exact op_88|].
  apply Forall_cons; [exact op_49|].
  apply Forall_cons; [exact op_45|].
  apply Forall_cons; [exact op_55|].
  apply Forall_cons; [exact op_4d|].
  apply Forall_cons; [exact op_5d|].
  apply Forall_cons; [exact op_59|].
  apply Forall_cons; [exact op_41|].
  apply Forall_cons; [exact op_51|].
  apply Forall_cons; [exact op_e6|].
  apply Forall_cons; [exact op_f6|].
  apply Forall_cons; [exact op_ee|].
  apply Forall_cons; [exact op_fe|].
  apply Forall_cons; [exact op_e8|].
  apply Forall_cons; [exact op_c8|].
  apply Forall_cons; [exact op_4c|].
  apply Forall_cons; [exact op_6c|].
  apply Forall_cons; [exact op_20|].
  apply Forall_cons; [exact op_a9|].
  apply Forall_cons; [exact op_a5|].
  apply Forall_cons; [exact op_b5|].
  apply Forall_cons; [exact op_ad|].
  apply Forall_cons; [exact op_bd|].
  apply Forall_cons; [exact op_b9|].
  apply Forall_cons; [exact op_a1|].
  apply Forall_cons; [exact op_b1|].
  apply Forall_cons; [exact op_a2|].
  apply Forall_cons; [exact op_a6|].
  apply Forall_cons; [exact op_b6|].
  apply Forall_cons; [exact op_ae|].
  apply Forall_cons; [exact op_be|].
  apply Forall_cons; [exact op_a0|].
  apply Forall_cons; [exact op_a4|].
  apply Forall_cons; [exact op_b4|].
  apply Forall_cons; [exact op_ac|].
  apply Forall_cons; [exact op_bc|].
  apply Forall_cons; [exact op_4a|].
  apply Forall_cons; [exact op_46|].
  apply Forall_cons; [exact op_56|].
  apply Forall_cons; [exact op_4e|].
  apply Forall_cons; [exact op_5e|].
  apply Forall_cons; [exact op_ea|].
  apply Forall_cons; [exact op_09|].
  apply Forall_cons; [exact op_05|].
  apply Forall_cons; [exact op_15|].
  apply Forall_cons; [exact op_0d|].
  apply Forall_cons; [exact op_1d|].
  apply Forall_cons; [exact op_19|].
  apply Forall_cons; [exact op_01|].
  apply Forall_cons; [exact op_11|].
  apply Forall_cons; [exact op_48|].
  apply Forall_cons; [exact op_08|].
  apply Forall_cons; [exact op_68|].
  apply Forall_cons; [exact op_28|].
  apply Forall_cons; [exact op_2a|].
  apply Forall_cons; [exact op_26|].
  apply Forall_cons; [exact op_36|].
  apply Forall_cons; [exact op_2e|].
  apply Forall_cons; [exact op_3e|].
  apply Forall_cons; [exact op_6a|].
  apply Forall_cons; [exact op_66|].
  apply Forall_cons; [exact op_76|].
  apply Forall_cons; [exact op_6e|].
  apply Forall_cons; [exact op_7e|].
  apply Forall_cons; [exact op_40|].
  apply Forall_cons; [exact op_60|].
  apply Forall_cons; [exact op_e9|].
  apply Forall_cons; [exact op_e5|].
  apply Forall_cons; [exact op_f5|].
  apply Forall_cons; [exact op_ed|].
  apply Forall_cons; [exact op_fd|].
  apply Forall_cons; [exact op_f9|].
  apply Forall_cons; [exact op_e1|].
  apply Forall_cons; [exact op_f1|].
  apply Forall_cons; [exact op_38|].
  apply Forall_cons; [exact op_f8|].
  apply Forall_cons; [exact op_78|].
  apply Forall_cons; [exact op_85|].
  apply Forall_cons; [exact op_95|].
  apply Forall_cons; [exact op_8d|].
  apply Forall_cons; [exact op_9d|].
  apply Forall_cons; [exact op_99|].
  apply Forall_cons; [exact op_81|].
  apply Forall_cons; [exact op_91|].
  apply Forall_cons; [exact op_86|].
  apply Forall_cons; [exact op_96|].
  apply Forall_cons; [exact op_8e|].
  apply Forall_cons; [exact op_84|].
  apply Forall_cons; [exact op_94|].
  apply Forall_cons; [exact op_8c|].
  apply Forall_cons; [exact op_aa|].
  apply Forall_cons; [exact op_a8|].
  apply Forall_cons; [exact op_ba|].
  apply Forall_cons; [exact op_8a|].
  apply Forall_cons; [exact op_9a|].
  apply Forall_cons; [exact op_98|].
  apply Forall_nil.
Qed.

Lemma all_agree b0 : u8 b0 -> agrees b0.
Proof.
  intros Hb. destruct (decode b0) as [r|] eqn:E.
  - apply decode_in in E. exact (proj1 (Forall_forall _ _) documented b0 E).
  - now apply undocumented.
Qed.

Lemma add_u16_spec a b : 0 <= a + b ->
  add_u16 p a b = match unchecked p 65536 (a + b) with Some v => Ok v | None => Panic end.
Proof. exact (add_u16_unchecked a b). Qed.

Lemma step_agrees :
  observed_step p cpu = spec_outcome p cpu (step p (regs_of cpu) rd).
Proof.
  unfold observed_step, next, step. cbn [regs_of rPC].
  rewrite Hbus by range. cbn [bind].
  rewrite add_u16_spec by (unfold u16 in *; lia).
  destruct (unchecked p 65536 (reg_pc cpu + 1)) as [a1|] eqn:E1; cbn [bind]; [|reflexivity].
  assert (Ha1 : u16 a1) by (eapply jmp_range; [|exact E1]; unfold u16 in *; lia).
  rewrite Hbus by exact Ha1. cbn [bind].
  rewrite add_u16_spec by (unfold u16 in *; lia).
  destruct (unchecked p 65536 (reg_pc cpu + 2)) as [a2|] eqn:E2; cbn [bind]; [|reflexivity].
  assert (Ha2 : u16 a2) by (eapply jmp_range; [|exact E2]; unfold u16 in *; lia).
  rewrite Hbus by exact Ha2. cbn [bind].
  pose proof (all_agree (rd (reg_pc cpu)) ltac:(range) (rd a1) (rd a2) ltac:(range) ltac:(range)) as Hag.
  rewrite <- Hag. clear Hag.
  destruct (parse_instruction (rd (reg_pc cpu)) (rd a1) (rd a2)) as [v|]; [|reflexivity].
  unfold finish. destruct (generate p v cpu) as [mops|]; [|reflexivity]. cbn [bind].
  destruct (operations_into_cycles mops) as [cs|]; [|reflexivity]. cbn [bind].
  destruct (foldM (execute_mut p) (concat cs) cpu); reflexivity.
Qed.
End Step.

(** The refinement theorem in closed form. *)
Lemma next_refines {D} `{Device D} (p : profile) (cpu : mos6502 D) (rd : Z -> Z) :
  regs_ok (regs_of cpu) -> bus_reads p (amap cpu) rd -> byte_valued rd ->
  observed_step p cpu = spec_outcome p cpu (step p (regs_of cpu) rd).
Proof.
  intros (HA & HX & HY & HS & HPC) Hbus Hrd. now apply step_agrees.
Qed.

