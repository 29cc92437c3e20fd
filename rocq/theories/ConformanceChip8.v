(** Generated by tools/gentests.py from /repo; do not edit.

    Conformance of the CHIP-8 model with the repository's own unit tests of
    src/cpu/chip8/operations/tests/mod.rs: every decoding test, and every
    microcode test except the three with loops, which are written by hand in
    ConformanceMisc.v. Checks of the model, not property proofs. *)
From Verif Require Import Base ModelMap ModelU12 ModelDisplay ModelChip8 ModelOpsChip8.
Local Open Scope Z_scope.
Import ListNotations.

(** [with_rng(|| 0u8)], and a clock that stands still during a test. *)
Definition env : environment := mkEnv (fun _ => 0) (fun _ => 0).
Definition w0 : world := mkWorld 0 0.

Definition passes {A} (r : res (A * A)) : Prop :=
  match r with Ok (expected, actual) => expected = actual | Panic => False end.

(** src/cpu/chip8/operations/tests/mod.rs:26-26 *)
Example decode_should_parse_cls_opcode : passes (
  do! got <- decode_bytes_to_opcode [0; 224] ;
  Ok ((Some Cls),
      (got))).
Proof. vm_compute. reflexivity. Qed.

(** src/cpu/chip8/operations/tests/mod.rs:27-27 *)
Example decode_should_parse_ret_opcode : passes (
  do! got <- decode_bytes_to_opcode [0; 238] ;
  Ok ((Some Ret),
      (got))).
Proof. vm_compute. reflexivity. Qed.

(** src/cpu/chip8/operations/tests/mod.rs:28-28 *)
Example decode_should_parse_drw_opcode : passes (
  do! got <- decode_bytes_to_opcode [208; 21] ;
  Ok ((Some (Drw V0 V1 5)),
      (got))).
Proof. vm_compute. reflexivity. Qed.

(** src/cpu/chip8/operations/tests/mod.rs:29-29 *)
Example decode_should_parse_jump_absolute_opcode : passes (
  do! a1 <- u12_new 4095 ;
  do! got <- decode_bytes_to_opcode [31; 255] ;
  Ok ((Some (JpNonV0Indexed a1)),
      (got))).
Proof. vm_compute. reflexivity. Qed.

(** src/cpu/chip8/operations/tests/mod.rs:30-30 *)
Example decode_should_parse_jump_absolute_indexed_by_v0_opcode : passes (
  do! a1 <- u12_new 4095 ;
  do! got <- decode_bytes_to_opcode [191; 255] ;
  Ok ((Some (JpV0Indexed a1)),
      (got))).
Proof. vm_compute. reflexivity. Qed.

(** src/cpu/chip8/operations/tests/mod.rs:31-31 *)
Example decode_should_parse_load_absolute_into_i_opcode : passes (
  do! a1 <- u12_new 4095 ;
  do! got <- decode_bytes_to_opcode [175; 255] ;
  Ok ((Some (LdAbsolute a1)),
      (got))).
Proof. vm_compute. reflexivity. Qed.

(** src/cpu/chip8/operations/tests/mod.rs:32-32 *)
Example decode_should_parse_load_immediate_into_i_opcode : passes (
  do! got <- decode_bytes_to_opcode [104; 255] ;
  Ok ((Some (LdImmediate V8 255)),
      (got))).
Proof. vm_compute. reflexivity. Qed.

(** src/cpu/chip8/operations/tests/mod.rs:33-33 *)
Example decode_should_parse_load_byte_register_operation_opcode : passes (
  do! got <- decode_bytes_to_opcode [128; 16] ;
  Ok ((Some (LdVxVy V0 V1)),
      (got))).
Proof. vm_compute. reflexivity. Qed.

(** src/cpu/chip8/operations/tests/mod.rs:34-34 *)
Example decode_should_parse_load_byte_into_sound_timer_opcode : passes (
  do! got <- decode_bytes_to_opcode [248; 24] ;
  Ok ((Some (LdSoundTimerDestTx V8)),
      (got))).
Proof. vm_compute. reflexivity. Qed.

(** src/cpu/chip8/operations/tests/mod.rs:35-35 *)
Example decode_should_parse_load_byte_into_delay_timer_opcode : passes (
  do! got <- decode_bytes_to_opcode [248; 21] ;
  Ok ((Some (LdDelayTimerDestTx V8)),
      (got))).
Proof. vm_compute. reflexivity. Qed.

(** src/cpu/chip8/operations/tests/mod.rs:36-36 *)
Example decode_should_parse_load_byte_into_register_from_delay_timer_opcode : passes (
  do! got <- decode_bytes_to_opcode [248; 7] ;
  Ok ((Some (LdDelayTimerSrcTx V8)),
      (got))).
Proof. vm_compute. reflexivity. Qed.

(** src/cpu/chip8/operations/tests/mod.rs:37-37 *)
Example decode_should_parse_sprite_location_from_vx_operation : passes (
  do! got <- decode_bytes_to_opcode [248; 41] ;
  Ok ((Some (LdSpriteLocation V8)),
      (got))).
Proof. vm_compute. reflexivity. Qed.

(** src/cpu/chip8/operations/tests/mod.rs:38-38 *)
Example decode_should_parse_load_bcd_from_vx_i_indirect_operation : passes (
  do! got <- decode_bytes_to_opcode [248; 51] ;
  Ok ((Some (LdBcd V8)),
      (got))).
Proof. vm_compute. reflexivity. Qed.

(** src/cpu/chip8/operations/tests/mod.rs:39-39 *)
Example decode_should_parse_load_keypress_into_register_operation : passes (
  do! got <- decode_bytes_to_opcode [248; 10] ;
  Ok ((Some (LdK V8)),
      (got))).
Proof. vm_compute. reflexivity. Qed.

(** src/cpu/chip8/operations/tests/mod.rs:40-40 *)
Example decode_should_parse_read_registers_from_memory_operation : passes (
  do! got <- decode_bytes_to_opcode [242; 101] ;
  Ok ((Some (ReadRegistersFromMemory V2)),
      (got))).
Proof. vm_compute. reflexivity. Qed.

(** src/cpu/chip8/operations/tests/mod.rs:41-41 *)
Example decode_should_parse_store_registers_to_memory_operation : passes (
  do! got <- decode_bytes_to_opcode [242; 85] ;
  Ok ((Some (StoreRegistersToMemory V2)),
      (got))).
Proof. vm_compute. reflexivity. Qed.

(** src/cpu/chip8/operations/tests/mod.rs:42-42 *)
Example decode_should_parse_sys_opcode : passes (
  do! a1 <- u12_new 4095 ;
  do! got <- decode_bytes_to_opcode [15; 255] ;
  Ok ((Some (Sys a1)),
      (got))).
Proof. vm_compute. reflexivity. Qed.

(** src/cpu/chip8/operations/tests/mod.rs:43-43 *)
Example decode_should_parse_call_opcode : passes (
  do! a1 <- u12_new 4095 ;
  do! got <- decode_bytes_to_opcode [47; 255] ;
  Ok ((Some (Call a1)),
      (got))).
Proof. vm_compute. reflexivity. Qed.

(** src/cpu/chip8/operations/tests/mod.rs:44-44 *)
Example decode_should_parse_add_immediate_opcode : passes (
  do! got <- decode_bytes_to_opcode [112; 255] ;
  Ok ((Some (AddImmediate V0 255)),
      (got))).
Proof. vm_compute. reflexivity. Qed.

(** src/cpu/chip8/operations/tests/mod.rs:45-45 *)
Example decode_should_parse_add_i_register_indexed_opcode : passes (
  do! got <- decode_bytes_to_opcode [240; 30] ;
  Ok ((Some (AddIRegisterIndexed V0)),
      (got))).
Proof. vm_compute. reflexivity. Qed.

(** src/cpu/chip8/operations/tests/mod.rs:46-46 *)
Example decode_should_parse_add_vxvy_with_carry_operation : passes (
  do! got <- decode_bytes_to_opcode [128; 20] ;
  Ok ((Some (AddVxVy V0 V1)),
      (got))).
Proof. vm_compute. reflexivity. Qed.

(** src/cpu/chip8/operations/tests/mod.rs:47-47 *)
Example decode_should_parse_sub_vxvy_without_borrow_operation : passes (
  do! got <- decode_bytes_to_opcode [128; 21] ;
  Ok ((Some (Sub V0 V1)),
      (got))).
Proof. vm_compute. reflexivity. Qed.

(** src/cpu/chip8/operations/tests/mod.rs:48-48 *)
Example decode_should_parse_subn_vxvy_without_borrow_operation : passes (
  do! got <- decode_bytes_to_opcode [128; 23] ;
  Ok ((Some (Subn V0 V1)),
      (got))).
Proof. vm_compute. reflexivity. Qed.

(** src/cpu/chip8/operations/tests/mod.rs:49-49 *)
Example decode_should_parse_and_byte_register_operation_opcode : passes (
  do! got <- decode_bytes_to_opcode [128; 18] ;
  Ok ((Some (And V0 V1)),
      (got))).
Proof. vm_compute. reflexivity. Qed.

(** src/cpu/chip8/operations/tests/mod.rs:50-50 *)
Example decode_should_parse_or_byte_register_operation_opcode : passes (
  do! got <- decode_bytes_to_opcode [128; 17] ;
  Ok ((Some (Or V0 V1)),
      (got))).
Proof. vm_compute. reflexivity. Qed.

(** src/cpu/chip8/operations/tests/mod.rs:51-51 *)
Example decode_should_parse_xor_byte_register_operation_opcode : passes (
  do! got <- decode_bytes_to_opcode [128; 19] ;
  Ok ((Some (Xor V0 V1)),
      (got))).
Proof. vm_compute. reflexivity. Qed.

(** src/cpu/chip8/operations/tests/mod.rs:52-52 *)
Example decode_should_parse_shl_vxvy_with_flag_operation : passes (
  do! got <- decode_bytes_to_opcode [128; 30] ;
  Ok ((Some (Shl V0 V1)),
      (got))).
Proof. vm_compute. reflexivity. Qed.

(** src/cpu/chip8/operations/tests/mod.rs:53-53 *)
Example decode_should_parse_shr_vxvy_with_flag_operation : passes (
  do! got <- decode_bytes_to_opcode [128; 22] ;
  Ok ((Some (Shr V0 V1)),
      (got))).
Proof. vm_compute. reflexivity. Qed.

(** src/cpu/chip8/operations/tests/mod.rs:54-54 *)
Example decode_should_parse_se_immediate_operation_opcode : passes (
  do! got <- decode_bytes_to_opcode [48; 255] ;
  Ok ((Some (SeImmediate V0 255)),
      (got))).
Proof. vm_compute. reflexivity. Qed.

(** src/cpu/chip8/operations/tests/mod.rs:55-55 *)
Example decode_should_parse_se_byte_register_operation_opcode : passes (
  do! got <- decode_bytes_to_opcode [80; 16] ;
  Ok ((Some (SeVxVy V0 V1)),
      (got))).
Proof. vm_compute. reflexivity. Qed.

(** src/cpu/chip8/operations/tests/mod.rs:56-56 *)
Example decode_should_parse_sne_immediate_operation_opcode : passes (
  do! got <- decode_bytes_to_opcode [64; 255] ;
  Ok ((Some (SneImmediate V0 255)),
      (got))).
Proof. vm_compute. reflexivity. Qed.

(** src/cpu/chip8/operations/tests/mod.rs:57-57 *)
Example decode_should_parse_sne_byte_register_operation_opcode : passes (
  do! got <- decode_bytes_to_opcode [144; 16] ;
  Ok ((Some (SneVxVy V0 V1)),
      (got))).
Proof. vm_compute. reflexivity. Qed.

(** src/cpu/chip8/operations/tests/mod.rs:58-58 *)
Example decode_should_parse_rnd_immediate_operation_opcode : passes (
  do! got <- decode_bytes_to_opcode [192; 255] ;
  Ok ((Some (Rnd V0 255)),
      (got))).
Proof. vm_compute. reflexivity. Qed.

(** src/cpu/chip8/operations/tests/mod.rs:59-59 *)
Example decode_should_parse_skp_opcode : passes (
  do! got <- decode_bytes_to_opcode [224; 158] ;
  Ok ((Some (Skp V0)),
      (got))).
Proof. vm_compute. reflexivity. Qed.

(** src/cpu/chip8/operations/tests/mod.rs:60-60 *)
Example decode_should_parse_sknp_opcode : passes (
  do! got <- decode_bytes_to_opcode [224; 161] ;
  Ok ((Some (Sknp V0)),
      (got))).
Proof. vm_compute. reflexivity. Qed.

(** src/cpu/chip8/operations/tests/mod.rs:63-71 *)
Example should_generate_cls_instruction : passes (
  let w := w0 in
  do! ' (c1, w) <- chip8_default env Debug w ;
  let cpu := c1 in
  do! ' (mc2, w) <- generate env Debug Cls cpu w ;
  Ok (([(SetDisplayRange (0, 0) (64, 32) false)]),
      (mc2))).
Proof. vm_compute. reflexivity. Qed.

(** src/cpu/chip8/operations/tests/mod.rs:73-90 *)
Example should_generate_ret_instruction : passes (
  let w := w0 in
  do! ' (c1, w) <- chip8_default env Debug w ;
  let cpu := (with_pc_register (with_rng c1) 512) in
  do! ' (stk, _) <- ring_write (c8_stack cpu) 0 512 ;
  let cpu := set_stack cpu stk in
  do! ' (mc2, w) <- generate env Debug Ret cpu w ;
  Ok (([(PopStack 512); (Write16bitRegister WordPc 510)]),
      (mc2))).
Proof. vm_compute. reflexivity. Qed.

(** src/cpu/chip8/operations/tests/mod.rs:130-140 *)
Example should_generate_jump_absolute_with_pc_incrementer : passes (
  let w := w0 in
  do! ' (c1, w) <- chip8_default env Debug w ;
  let cpu := (with_rng c1) in
  do! a2 <- u12_new 512 ;
  do! ' (mc3, w) <- generate env Debug (JpNonV0Indexed a2) cpu w ;
  Ok (([(Write16bitRegister WordPc 510)]),
      (mc3))).
Proof. vm_compute. reflexivity. Qed.

(** src/cpu/chip8/operations/tests/mod.rs:142-152 *)
Example should_generate_load_absolute_into_i_incrementer : passes (
  let w := w0 in
  do! ' (c1, w) <- chip8_default env Debug w ;
  let cpu := (with_rng c1) in
  do! a2 <- u12_new 4095 ;
  do! ' (mc3, w) <- generate env Debug (LdAbsolute a2) cpu w ;
  Ok (([(Write16bitRegister WordI 4095)]),
      (mc3))).
Proof. vm_compute. reflexivity. Qed.

(** src/cpu/chip8/operations/tests/mod.rs:154-168 *)
Example should_generate_load_immediate_into_i_incrementer : passes (
  let w := w0 in
  do! ' (c1, w) <- chip8_default env Debug w ;
  let cpu := (with_rng c1) in
  do! ' (mc2, w) <- generate env Debug (LdImmediate V8 255) cpu w ;
  Ok (([(Write8bitRegister (ByteGp V8) 255)]),
      (mc2))).
Proof. vm_compute. reflexivity. Qed.

(** src/cpu/chip8/operations/tests/mod.rs:170-193 *)
Example should_generate_load_byte_register_operation : passes (
  let w := w0 in
  do! ' (c1, w) <- chip8_default env Debug w ;
  do! c2 <- with_gp_register (with_rng c1) V0 255 ;
  do! c3 <- with_gp_register c2 V1 15 ;
  let cpu := c3 in
  do! ' (mc4, w) <- generate env Debug (LdVxVy V0 V1) cpu w ;
  Ok (([(Write8bitRegister (ByteGp V0) 15)]),
      (mc4))).
Proof. vm_compute. reflexivity. Qed.

(** src/cpu/chip8/operations/tests/mod.rs:195-211 *)
Example should_generate_load_byte_into_sound_timer_operation : passes (
  let w := w0 in
  do! ' (c1, w) <- chip8_default env Debug w ;
  do! c2 <- with_gp_register (with_rng c1) V0 255 ;
  let cpu := c2 in
  do! ' (mc3, w) <- generate env Debug (LdSoundTimerDestTx V0) cpu w ;
  Ok (([(Write8bitRegister (ByteTimer Sound) 255)]),
      (mc3))).
Proof. vm_compute. reflexivity. Qed.

(** src/cpu/chip8/operations/tests/mod.rs:213-229 *)
Example should_generate_load_byte_into_delay_timer_operation : passes (
  let w := w0 in
  do! ' (c1, w) <- chip8_default env Debug w ;
  do! c2 <- with_gp_register (with_rng c1) V0 255 ;
  let cpu := c2 in
  do! ' (mc3, w) <- generate env Debug (LdDelayTimerDestTx V0) cpu w ;
  Ok (([(Write8bitRegister (ByteTimer Delay) 255)]),
      (mc3))).
Proof. vm_compute. reflexivity. Qed.

(** src/cpu/chip8/operations/tests/mod.rs:231-247 *)
Example should_generate_load_byte_into_register_from_delay_timer_operation : passes (
  let w := w0 in
  do! ' (c1, w) <- chip8_default env Debug w ;
  let '(t2, w) := clock_with_value env 255 w in
  let cpu := (with_timer_register (with_rng c1) Delay t2) in
  do! ' (mc3, w) <- generate env Debug (LdDelayTimerSrcTx V0) cpu w ;
  Ok (([(Write8bitRegister (ByteGp V0) 255)]),
      (mc3))).
Proof. vm_compute. reflexivity. Qed.

(** src/cpu/chip8/operations/tests/mod.rs:249-267 *)
Example should_generate_load_bcd_from_vx_i_indirect_operation : passes (
  let w := w0 in
  do! ' (c1, w) <- chip8_default env Debug w ;
  do! c2 <- with_gp_register (with_rng c1) V0 254 ;
  let cpu := (with_i_register c2 256) in
  do! ' (mc3, w) <- generate env Debug (LdBcd V0) cpu w ;
  Ok (([(WriteMemory 256 2); (WriteMemory 257 5); (WriteMemory 258 4)]),
      (mc3))).
Proof. vm_compute. reflexivity. Qed.

(** src/cpu/chip8/operations/tests/mod.rs:269-288 *)
Example should_generate_load_sprite_location_into_i_from_vx_operation : passes (
  let w := w0 in
  do! ' (c1, w) <- chip8_default env Debug w ;
  do! c2 <- with_gp_register (with_rng c1) V8 10 ;
  let cpu := (with_i_register c2 256) in
  let expected_sprite_offset := (10 * 5) in
  do! ' (mc3, w) <- generate env Debug (LdSpriteLocation V8) cpu w ;
  Ok (([(Write16bitRegister WordI expected_sprite_offset)]),
      (mc3))).
Proof. vm_compute. reflexivity. Qed.

(** src/cpu/chip8/operations/tests/mod.rs:290-321 *)
Example should_generate_load_keypress_into_register_operation : passes (
  let w := w0 in
  do! ' (c1, w) <- chip8_default env Debug w ;
  do! c2 <- with_gp_register c1 V8 171 ;
  let cpu_with_input_interrupt := (with_interrupt c2 (Some (InterruptKeyPress Key4))) in
  do! ' (mc3, w) <- generate env Debug (LdK V8) cpu_with_input_interrupt w ;
  do! ' (c4, w) <- chip8_default env Debug w ;
  do! c5 <- with_gp_register c4 V8 171 ;
  let cpu_without_input_interrupt := (with_interrupt c5 None) in
  do! ' (mc6, w) <- generate env Debug (LdK V8) cpu_without_input_interrupt w ;
  Ok (([(Write8bitRegister (ByteGp V8) 4)], [(Dec16bitRegister WordPc 2)]),
      (mc3, mc6))).
Proof. vm_compute. reflexivity. Qed.

(** src/cpu/chip8/operations/tests/mod.rs:356-383 *)
Example should_generate_store_registers_to_memory_operation : passes (
  let w := w0 in
  do! ' (c1, w) <- chip8_default env Debug w ;
  do! c2 <- with_gp_register (with_rng c1) V0 1 ;
  do! c3 <- with_gp_register c2 V1 2 ;
  do! c4 <- with_gp_register c3 V2 3 ;
  let cpu := (with_i_register c4 256) in
  do! ' (mc5, w) <- generate env Debug (StoreRegistersToMemory V2) cpu w ;
  Ok (([(WriteMemory 256 1); (WriteMemory 257 2); (WriteMemory 258 3)]),
      (mc5))).
Proof. vm_compute. reflexivity. Qed.

(** src/cpu/chip8/operations/tests/mod.rs:385-398 *)
Example should_generate_jump_absolute_indexed_by_v0_with_pc_incrementer : passes (
  let w := w0 in
  do! ' (c1, w) <- chip8_default env Debug w ;
  do! c2 <- with_gp_register (with_rng c1) V0 5 ;
  let cpu := c2 in
  do! a3 <- u12_new 512 ;
  do! ' (mc4, w) <- generate env Debug (JpV0Indexed a3) cpu w ;
  Ok (([(Write16bitRegister WordPc 515)]),
      (mc4))).
Proof. vm_compute. reflexivity. Qed.

(** src/cpu/chip8/operations/tests/mod.rs:400-408 *)
Example should_generate_sys_absolute_instruction : passes (
  let w := w0 in
  do! ' (c1, w) <- chip8_default env Debug w ;
  let cpu := (with_rng c1) in
  do! a2 <- u12_new 512 ;
  do! ' (mc3, w) <- generate env Debug (Sys a2) cpu w ;
  Ok (([]),
      (mc3))).
Proof. vm_compute. reflexivity. Qed.

(** src/cpu/chip8/operations/tests/mod.rs:410-425 *)
Example should_generate_call_absolute_instruction : passes (
  let w := w0 in
  do! ' (c1, w) <- chip8_default env Debug w ;
  let cpu := (with_pc_register (with_rng c1) 512) in
  do! a2 <- u12_new 1024 ;
  do! ' (mc3, w) <- generate env Debug (Call a2) cpu w ;
  Ok (([(PushStack 512); (Write16bitRegister WordPc 1022)]),
      (mc3))).
Proof. vm_compute. reflexivity. Qed.

(** src/cpu/chip8/operations/tests/mod.rs:427-441 *)
Example should_generate_add_immediate : passes (
  let w := w0 in
  do! ' (c1, w) <- chip8_default env Debug w ;
  let cpu := (with_rng c1) in
  do! ' (mc2, w) <- generate env Debug (AddImmediate V5 255) cpu w ;
  Ok (([(Inc8bitRegister (ByteGp V5) 255)]),
      (mc2))).
Proof. vm_compute. reflexivity. Qed.

(** src/cpu/chip8/operations/tests/mod.rs:443-459 *)
Example should_generate_add_i_register_indexed : passes (
  let w := w0 in
  do! ' (c1, w) <- chip8_default env Debug w ;
  do! c2 <- with_gp_register (with_rng c1) V5 255 ;
  let cpu := c2 in
  do! ' (mc3, w) <- generate env Debug (AddIRegisterIndexed V5) cpu w ;
  Ok (([(Inc16bitRegister WordI 255)]),
      (mc3))).
Proof. vm_compute. reflexivity. Qed.

(** src/cpu/chip8/operations/tests/mod.rs:461-487 *)
Example should_generate_add_vxvy_with_carry_operation_that_overflows_when_sum_overflows_byte_capacity : passes (
  let w := w0 in
  do! ' (c1, w) <- chip8_default env Debug w ;
  do! c2 <- with_gp_register (with_rng c1) V0 254 ;
  do! c3 <- with_gp_register c2 V1 5 ;
  let cpu := c3 in
  do! ' (mc4, w) <- generate env Debug (AddVxVy V0 V1) cpu w ;
  Ok (([(Write8bitRegister (ByteGp V0) 3); (Write8bitRegister (ByteGp Vf) 1)]),
      (mc4))).
Proof. vm_compute. reflexivity. Qed.

(** src/cpu/chip8/operations/tests/mod.rs:489-515 *)
Example should_generate_add_vxvy_with_carry_operation_that_does_not_set_overflow_when_under_byte : passes (
  let w := w0 in
  do! ' (c1, w) <- chip8_default env Debug w ;
  do! c2 <- with_gp_register (with_rng c1) V0 254 ;
  do! c3 <- with_gp_register c2 V1 1 ;
  let cpu := c3 in
  do! ' (mc4, w) <- generate env Debug (AddVxVy V0 V1) cpu w ;
  Ok (([(Write8bitRegister (ByteGp V0) 255); (Write8bitRegister (ByteGp Vf) 0)]),
      (mc4))).
Proof. vm_compute. reflexivity. Qed.

(** src/cpu/chip8/operations/tests/mod.rs:517-543 *)
Example should_generate_set_borrow_for_sub_vxvy_if_vx_value_is_larger_than_vy_value : passes (
  let w := w0 in
  do! ' (c1, w) <- chip8_default env Debug w ;
  do! c2 <- with_gp_register (with_rng c1) V0 255 ;
  do! c3 <- with_gp_register c2 V1 5 ;
  let cpu := c3 in
  do! ' (mc4, w) <- generate env Debug (Sub V0 V1) cpu w ;
  Ok (([(Write8bitRegister (ByteGp V0) 250); (Write8bitRegister (ByteGp Vf) 1)]),
      (mc4))).
Proof. vm_compute. reflexivity. Qed.

(** src/cpu/chip8/operations/tests/mod.rs:545-571 *)
Example should_generate_not_set_borrow_for_sub_vxvy_if_vx_value_is_larger_than_vy_value : passes (
  let w := w0 in
  do! ' (c1, w) <- chip8_default env Debug w ;
  do! c2 <- with_gp_register (with_rng c1) V0 1 ;
  do! c3 <- with_gp_register c2 V1 255 ;
  let cpu := c3 in
  do! ' (mc4, w) <- generate env Debug (Sub V0 V1) cpu w ;
  Ok (([(Write8bitRegister (ByteGp V0) 2); (Write8bitRegister (ByteGp Vf) 0)]),
      (mc4))).
Proof. vm_compute. reflexivity. Qed.

(** src/cpu/chip8/operations/tests/mod.rs:573-600 *)
Example should_generate_subn_vxvy_without_borrow_operation_that_doesnt_set_underflow_when_difference_underflows_byte_capacity : passes (
  let w := w0 in
  do! ' (c1, w) <- chip8_default env Debug w ;
  do! c2 <- with_gp_register (with_rng c1) V0 255 ;
  do! c3 <- with_gp_register c2 V1 5 ;
  let cpu := c3 in
  do! ' (mc4, w) <- generate env Debug (Subn V0 V1) cpu w ;
  Ok (([(Write8bitRegister (ByteGp V0) 6); (Write8bitRegister (ByteGp Vf) 0)]),
      (mc4))).
Proof. vm_compute. reflexivity. Qed.

(** src/cpu/chip8/operations/tests/mod.rs:602-629 *)
Example should_generate_subn_vxvy_without_underflow_operation_that_does_set_underflow_when_difference_fits_within_byte : passes (
  let w := w0 in
  do! ' (c1, w) <- chip8_default env Debug w ;
  do! c2 <- with_gp_register (with_rng c1) V0 1 ;
  do! c3 <- with_gp_register c2 V1 255 ;
  let cpu := c3 in
  do! ' (mc4, w) <- generate env Debug (Subn V0 V1) cpu w ;
  Ok (([(Write8bitRegister (ByteGp V0) 254); (Write8bitRegister (ByteGp Vf) 1)]),
      (mc4))).
Proof. vm_compute. reflexivity. Qed.

(** src/cpu/chip8/operations/tests/mod.rs:631-654 *)
Example should_generate_and_byte_register_operation : passes (
  let w := w0 in
  do! ' (c1, w) <- chip8_default env Debug w ;
  do! c2 <- with_gp_register (with_rng c1) V0 255 ;
  do! c3 <- with_gp_register c2 V1 15 ;
  let cpu := c3 in
  do! ' (mc4, w) <- generate env Debug (And V0 V1) cpu w ;
  Ok (([(Write8bitRegister (ByteGp V0) 15)]),
      (mc4))).
Proof. vm_compute. reflexivity. Qed.

(** src/cpu/chip8/operations/tests/mod.rs:656-679 *)
Example should_generate_or_byte_register_operation : passes (
  let w := w0 in
  do! ' (c1, w) <- chip8_default env Debug w ;
  do! c2 <- with_gp_register (with_rng c1) V0 255 ;
  do! c3 <- with_gp_register c2 V1 15 ;
  let cpu := c3 in
  do! ' (mc4, w) <- generate env Debug (Or V0 V1) cpu w ;
  Ok (([(Write8bitRegister (ByteGp V0) 255)]),
      (mc4))).
Proof. vm_compute. reflexivity. Qed.

(** src/cpu/chip8/operations/tests/mod.rs:681-701 *)
Example should_generate_shl_vxvy_with_flag_operation_that_overflows_byte_capacity : passes (
  let w := w0 in
  do! ' (c1, w) <- chip8_default env Debug w ;
  do! c2 <- with_gp_register c1 V0 129 ;
  let cpu := c2 in
  do! ' (mc3, w) <- generate env Debug (Shl V0 V1) cpu w ;
  Ok (([(Write8bitRegister (ByteGp Vf) 1); (Write8bitRegister (ByteGp V0) 2)]),
      (mc3))).
Proof. vm_compute. reflexivity. Qed.

(** src/cpu/chip8/operations/tests/mod.rs:703-723 *)
Example should_generate_shl_vxvy_with_flag_operation_that_does_not_overflow_byte_capacity : passes (
  let w := w0 in
  do! ' (c1, w) <- chip8_default env Debug w ;
  do! c2 <- with_gp_register c1 V0 1 ;
  let cpu := c2 in
  do! ' (mc3, w) <- generate env Debug (Shl V0 V1) cpu w ;
  Ok (([(Write8bitRegister (ByteGp Vf) 0); (Write8bitRegister (ByteGp V0) 2)]),
      (mc3))).
Proof. vm_compute. reflexivity. Qed.

(** src/cpu/chip8/operations/tests/mod.rs:725-745 *)
Example should_generate_shr_vxvy_with_flag_operation_that_overflows_byte_capacity : passes (
  let w := w0 in
  do! ' (c1, w) <- chip8_default env Debug w ;
  do! c2 <- with_gp_register c1 V0 3 ;
  let cpu := c2 in
  do! ' (mc3, w) <- generate env Debug (Shr V0 V1) cpu w ;
  Ok (([(Write8bitRegister (ByteGp Vf) 1); (Write8bitRegister (ByteGp V0) 1)]),
      (mc3))).
Proof. vm_compute. reflexivity. Qed.

(** src/cpu/chip8/operations/tests/mod.rs:747-767 *)
Example should_generate_shr_vxvy_with_flag_operation_that_does_not_overflow_byte_capacity : passes (
  let w := w0 in
  do! ' (c1, w) <- chip8_default env Debug w ;
  do! c2 <- with_gp_register c1 V0 8 ;
  let cpu := c2 in
  do! ' (mc3, w) <- generate env Debug (Shr V0 V1) cpu w ;
  Ok (([(Write8bitRegister (ByteGp Vf) 0); (Write8bitRegister (ByteGp V0) 4)]),
      (mc3))).
Proof. vm_compute. reflexivity. Qed.

(** src/cpu/chip8/operations/tests/mod.rs:769-792 *)
Example should_generate_xor_byte_register_operation : passes (
  let w := w0 in
  do! ' (c1, w) <- chip8_default env Debug w ;
  do! c2 <- with_gp_register (with_rng c1) V0 255 ;
  do! c3 <- with_gp_register c2 V1 15 ;
  let cpu := c3 in
  do! ' (mc4, w) <- generate env Debug (Xor V0 V1) cpu w ;
  Ok (([(Write8bitRegister (ByteGp V0) 240)]),
      (mc4))).
Proof. vm_compute. reflexivity. Qed.

(** src/cpu/chip8/operations/tests/mod.rs:794-826 *)
Example should_generate_se_immediate_operation : passes (
  let w := w0 in
  do! ' (c1, w) <- chip8_default env Debug w ;
  do! c2 <- with_gp_register (with_rng c1) V0 255 ;
  let cpu_eq := c2 in
  do! ' (mc3, w) <- generate env Debug (SeImmediate V0 255) cpu_eq w ;
  do! ' (c4, w) <- chip8_default env Debug w ;
  do! c5 <- with_gp_register (with_rng c4) V0 255 ;
  let cpu_ne := c5 in
  do! ' (mc6, w) <- generate env Debug (SeImmediate V0 0) cpu_ne w ;
  Ok (([(Inc16bitRegister WordPc 2)], []),
      (mc3, mc6))).
Proof. vm_compute. reflexivity. Qed.

(** src/cpu/chip8/operations/tests/mod.rs:828-870 *)
Example should_generate_se_byte_register_operation : passes (
  let w := w0 in
  do! ' (c1, w) <- chip8_default env Debug w ;
  do! c2 <- with_gp_register (with_rng c1) V0 15 ;
  do! c3 <- with_gp_register c2 V1 15 ;
  let cpu_eq := c3 in
  do! ' (mc4, w) <- generate env Debug (SeVxVy V0 V1) cpu_eq w ;
  do! ' (c5, w) <- chip8_default env Debug w ;
  do! c6 <- with_gp_register (with_rng c5) V0 255 ;
  do! c7 <- with_gp_register c6 V1 15 ;
  let cpu_ne := c7 in
  do! ' (mc8, w) <- generate env Debug (SeVxVy V0 V1) cpu_ne w ;
  Ok (([(Inc16bitRegister WordPc 2)], []),
      (mc4, mc8))).
Proof. vm_compute. reflexivity. Qed.

(** src/cpu/chip8/operations/tests/mod.rs:872-904 *)
Example should_generate_sne_immediate_operation : passes (
  let w := w0 in
  do! ' (c1, w) <- chip8_default env Debug w ;
  do! c2 <- with_gp_register (with_rng c1) V0 255 ;
  let cpu_eq := c2 in
  do! ' (mc3, w) <- generate env Debug (SneImmediate V0 0) cpu_eq w ;
  do! ' (c4, w) <- chip8_default env Debug w ;
  do! c5 <- with_gp_register (with_rng c4) V0 255 ;
  let cpu_ne := c5 in
  do! ' (mc6, w) <- generate env Debug (SneImmediate V0 255) cpu_ne w ;
  Ok (([(Inc16bitRegister WordPc 2)], []),
      (mc3, mc6))).
Proof. vm_compute. reflexivity. Qed.

(** src/cpu/chip8/operations/tests/mod.rs:906-948 *)
Example should_generate_sne_byte_register_operation : passes (
  let w := w0 in
  do! ' (c1, w) <- chip8_default env Debug w ;
  do! c2 <- with_gp_register (with_rng c1) V0 255 ;
  do! c3 <- with_gp_register c2 V1 0 ;
  let cpu_eq := c3 in
  do! ' (mc4, w) <- generate env Debug (SneVxVy V0 V1) cpu_eq w ;
  do! ' (c5, w) <- chip8_default env Debug w ;
  do! c6 <- with_gp_register (with_rng c5) V0 255 ;
  do! c7 <- with_gp_register c6 V1 255 ;
  let cpu_ne := c7 in
  do! ' (mc8, w) <- generate env Debug (SneVxVy V0 V1) cpu_ne w ;
  Ok (([(Inc16bitRegister WordPc 2)], []),
      (mc4, mc8))).
Proof. vm_compute. reflexivity. Qed.

(** src/cpu/chip8/operations/tests/mod.rs:1002-1037 *)
Example should_generate_skp_operation : passes (
  let w := w0 in
  do! ' (c1, w) <- chip8_default env Debug w ;
  do! c2 <- with_gp_register c1 V0 15 ;
  let cpu_some_eq := (with_interrupt c2 (Some (InterruptKeyPress KeyF))) in
  do! ' (mc3, w) <- generate env Debug (Skp V0) cpu_some_eq w ;
  let cpu_some_ne := (with_interrupt cpu_some_eq (Some (InterruptKeyPress Key0))) in
  do! ' (mc4, w) <- generate env Debug (Skp V0) cpu_some_ne w ;
  let cpu_none := (with_interrupt cpu_some_eq None) in
  do! ' (mc5, w) <- generate env Debug (Skp V0) cpu_none w ;
  Ok (([(Inc16bitRegister WordPc 2)], [], []),
      (mc3, mc4, mc5))).
Proof. vm_compute. reflexivity. Qed.

(** src/cpu/chip8/operations/tests/mod.rs:1039-1077 *)
Example should_generate_sknp_operation : passes (
  let w := w0 in
  do! ' (c1, w) <- chip8_default env Debug w ;
  do! c2 <- with_gp_register c1 V0 15 ;
  let cpu_some_eq := (with_interrupt c2 (Some (InterruptKeyPress KeyF))) in
  do! ' (mc3, w) <- generate env Debug (Sknp V0) cpu_some_eq w ;
  let cpu_some_ne := (with_interrupt cpu_some_eq (Some (InterruptKeyPress Key0))) in
  do! ' (mc4, w) <- generate env Debug (Sknp V0) cpu_some_ne w ;
  let cpu_none := (with_interrupt cpu_some_eq None) in
  do! ' (mc5, w) <- generate env Debug (Sknp V0) cpu_none w ;
  Ok (([], [(Inc16bitRegister WordPc 2)], [(Inc16bitRegister WordPc 2)]),
      (mc3, mc4, mc5))).
Proof. vm_compute. reflexivity. Qed.
