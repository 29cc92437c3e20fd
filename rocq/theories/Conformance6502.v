(** Generated by tools/gentests.py from /repo; do not edit.

    Conformance of the 6502 model with the repository's own unit tests:
    every test function of src/cpu/mos6502/tests/mod.rs and
    src/cpu/mos6502/operations/tests/code_generation.rs, statement by
    statement, on the model. These are checks of the model (and of the
    instruction tables recovered for the external crate isa-mos6502), not
    property proofs. Plain arithmetic between literals in a test is written
    with unbounded integers. *)
From Verif Require Import Base ModelMap ModelStep ModelRegs6502 ModelIsa6502
  ModelOperand ModelCpu6502 ModelOps6502 ModelRun6502.
Local Open Scope Z_scope.
Import ListNotations.

(** [Result::unwrap] on a registration. *)
Definition or_panic {A} (o : option A) : res A :=
  match o with Some a => Ok a | None => Panic end.

(** [cpu.address_map.write(addr, value).unwrap()]. *)
Definition poke (cpu : mos6502 memory) (addr value : Z) : res (mos6502 memory) :=
  do! r <- am_write Debug (amap cpu) addr value ;
  match snd r with WOk _ => Ok (set_amap cpu (fst r)) | _ => Panic end.

(** src/cpu/mos6502/tests/mod.rs:13-29, [generate_test_cpu_with_instructions]:
    the nop sled starts with the given bytes. *)
Definition test_cpu (opcodes : list Z) : res (mos6502 memory) :=
  let sled := opcodes ++ repeat 0xea (0x1000 - length opcodes) in
  do! d <- mos6502_default Debug ;
  do! s <- reset Debug d ;
  do! rom <- memory_new Debug ReadOnly 0x6000 0x7000 ;
  or_panic (register_address_space (with_pc_register (ss_unwrap s) 0x6000)
              0x6000 0x7000 (memory_load rom sled)).

(** All assertions of a test hold: it does not panic and the expected values
    are the actual ones. *)
Definition passes {A} (r : res (A * A)) : Prop :=
  match r with Ok (expected, actual) => expected = actual | Panic => False end.

(** src/cpu/mos6502/tests/mod.rs:31-47 *)
Example run_should_access_address_map_through_wrapper_methods : passes (
  do! cpu1 <- test_cpu [] ;
  let cpu := cpu1 in
  do! cpu <- poke cpu 255 234 ;
  let am := cpu in
  do! r2 <- am_read Debug (amap am) 255 ;
  let am := cpu in
  do! am <- poke am 255 255 ;
  let cpu := am in
  let am := cpu in
  do! am <- poke am 255 234 ;
  let cpu := am in
  do! r3 <- am_read Debug (amap cpu) 255 ;
  Ok ((234, 255, 234),
      (r2, 255, r3))).
Proof. vm_compute. reflexivity. Qed.

(** src/cpu/mos6502/tests/mod.rs:49-67 *)
Example run_should_cycle_on_adc_absolute_operation_with_overflow : passes (
  do! cpu1 <- test_cpu [109; 255; 0] ;
  let cpu := (with_gp_register cpu1 GpAcc 128) in
  do! cpu <- poke cpu 255 255 ;
  do! s2 <- run Debug cpu 4%nat ;
  let state3 := ss_unwrap s2 in
  let state := state3 in
  Ok ((24579, 127, ((ps_carry (reg_ps state)), (ps_negative (reg_ps state)), (ps_overflow (reg_ps state)), (ps_zero (reg_ps state)))),
      ((reg_pc state), (reg_acc state), (true, false, true, false)))).
Proof. vm_compute. reflexivity. Qed.

(** src/cpu/mos6502/tests/mod.rs:69-87 *)
Example run_should_cycle_on_adc_absolute_operation_without_overflow : passes (
  do! cpu1 <- test_cpu [109; 255; 0] ;
  let cpu := (with_gp_register cpu1 GpAcc 16) in
  do! cpu <- poke cpu 255 80 ;
  do! s2 <- run Debug cpu 4%nat ;
  let state3 := ss_unwrap s2 in
  let state := state3 in
  Ok ((24579, 96, ((ps_carry (reg_ps state)), (ps_negative (reg_ps state)), (ps_overflow (reg_ps state)), (ps_zero (reg_ps state)))),
      ((reg_pc state), (reg_acc state), (false, false, false, false)))).
Proof. vm_compute. reflexivity. Qed.

(** src/cpu/mos6502/tests/mod.rs:89-108 *)
Example run_should_cycle_on_adc_absolute_indexed_with_x_operation_with_overflow : passes (
  do! cpu1 <- test_cpu [125; 250; 0] ;
  let cpu := (with_gp_register (with_gp_register cpu1 GpAcc 128) GpX 5) in
  do! cpu <- poke cpu 255 255 ;
  do! s2 <- run Debug cpu 4%nat ;
  let state3 := ss_unwrap s2 in
  let state := state3 in
  Ok ((24579, 127, ((ps_carry (reg_ps state)), (ps_negative (reg_ps state)), (ps_overflow (reg_ps state)), (ps_zero (reg_ps state)))),
      ((reg_pc state), (reg_acc state), (true, false, true, false)))).
Proof. vm_compute. reflexivity. Qed.

(** src/cpu/mos6502/tests/mod.rs:110-129 *)
Example run_should_cycle_on_adc_absolute_indexed_with_x_operation_without_overflow : passes (
  do! cpu1 <- test_cpu [125; 250; 0] ;
  let cpu := (with_gp_register (with_gp_register cpu1 GpAcc 16) GpX 5) in
  do! cpu <- poke cpu 255 80 ;
  do! s2 <- run Debug cpu 4%nat ;
  let state3 := ss_unwrap s2 in
  let state := state3 in
  Ok ((24579, 96, ((ps_carry (reg_ps state)), (ps_negative (reg_ps state)), (ps_overflow (reg_ps state)), (ps_zero (reg_ps state)))),
      ((reg_pc state), (reg_acc state), (false, false, false, false)))).
Proof. vm_compute. reflexivity. Qed.

(** src/cpu/mos6502/tests/mod.rs:131-150 *)
Example run_should_cycle_on_adc_absolute_indexed_with_y_operation_with_overflow : passes (
  do! cpu1 <- test_cpu [121; 250; 0] ;
  let cpu := (with_gp_register (with_gp_register cpu1 GpAcc 128) GpY 5) in
  do! cpu <- poke cpu 255 255 ;
  do! s2 <- run Debug cpu 4%nat ;
  let state3 := ss_unwrap s2 in
  let state := state3 in
  Ok ((24579, 127, ((ps_carry (reg_ps state)), (ps_negative (reg_ps state)), (ps_overflow (reg_ps state)), (ps_zero (reg_ps state)))),
      ((reg_pc state), (reg_acc state), (true, false, true, false)))).
Proof. vm_compute. reflexivity. Qed.

(** src/cpu/mos6502/tests/mod.rs:152-171 *)
Example run_should_cycle_on_adc_absolute_indexed_with_y_operation_without_overflow : passes (
  do! cpu1 <- test_cpu [121; 250; 0] ;
  let cpu := (with_gp_register (with_gp_register cpu1 GpAcc 16) GpY 5) in
  do! cpu <- poke cpu 255 80 ;
  do! s2 <- run Debug cpu 4%nat ;
  let state3 := ss_unwrap s2 in
  let state := state3 in
  Ok ((24579, 96, ((ps_carry (reg_ps state)), (ps_negative (reg_ps state)), (ps_overflow (reg_ps state)), (ps_zero (reg_ps state)))),
      ((reg_pc state), (reg_acc state), (false, false, false, false)))).
Proof. vm_compute. reflexivity. Qed.

(** src/cpu/mos6502/tests/mod.rs:173-194 *)
Example run_should_cycle_on_adc_indirect_y_indexed_operation_with_overflow : passes (
  do! cpu1 <- test_cpu [113; 0] ;
  let cpu := (with_gp_register (with_gp_register cpu1 GpAcc 128) GpY 5) in
  do! cpu <- poke cpu 0 250 ;
  do! cpu <- poke cpu 1 0 ;
  do! cpu <- poke cpu 255 255 ;
  do! s2 <- run Debug cpu 5%nat ;
  let state3 := ss_unwrap s2 in
  let state := state3 in
  Ok ((24578, 127, ((ps_carry (reg_ps state)), (ps_negative (reg_ps state)), (ps_overflow (reg_ps state)), (ps_zero (reg_ps state)))),
      ((reg_pc state), (reg_acc state), (true, false, true, false)))).
Proof. vm_compute. reflexivity. Qed.

(** src/cpu/mos6502/tests/mod.rs:196-217 *)
Example run_should_cycle_on_adc_indirect_y_indexed_operation_without_overflow : passes (
  do! cpu1 <- test_cpu [113; 0] ;
  let cpu := (with_gp_register (with_gp_register cpu1 GpAcc 16) GpY 5) in
  do! cpu <- poke cpu 0 250 ;
  do! cpu <- poke cpu 1 0 ;
  do! cpu <- poke cpu 255 80 ;
  do! s2 <- run Debug cpu 5%nat ;
  let state3 := ss_unwrap s2 in
  let state := state3 in
  Ok ((24578, 96, ((ps_carry (reg_ps state)), (ps_negative (reg_ps state)), (ps_overflow (reg_ps state)), (ps_zero (reg_ps state)))),
      ((reg_pc state), (reg_acc state), (false, false, false, false)))).
Proof. vm_compute. reflexivity. Qed.

(** src/cpu/mos6502/tests/mod.rs:219-236 *)
Example run_should_cycle_on_adc_immediate_operation_with_overflow : passes (
  do! cpu1 <- test_cpu [105; 255] ;
  let cpu := (with_gp_register cpu1 GpAcc 128) in
  do! s2 <- run Debug cpu 2%nat ;
  let state3 := ss_unwrap s2 in
  let state := state3 in
  Ok ((24578, 127, ((ps_carry (reg_ps state)), (ps_negative (reg_ps state)), (ps_overflow (reg_ps state)), (ps_zero (reg_ps state)))),
      ((reg_pc state), (reg_acc state), (true, false, true, false)))).
Proof. vm_compute. reflexivity. Qed.

(** src/cpu/mos6502/tests/mod.rs:238-259 *)
Example run_should_cycle_on_adc_x_indexed_indirect_operation_with_overflow : passes (
  do! cpu1 <- test_cpu [97; 0] ;
  let cpu := (with_gp_register (with_gp_register cpu1 GpAcc 128) GpX 5) in
  do! cpu <- poke cpu 5 255 ;
  do! cpu <- poke cpu 6 0 ;
  do! cpu <- poke cpu 255 255 ;
  do! s2 <- run Debug cpu 6%nat ;
  let state3 := ss_unwrap s2 in
  let state := state3 in
  Ok ((24578, 127, ((ps_carry (reg_ps state)), (ps_negative (reg_ps state)), (ps_overflow (reg_ps state)), (ps_zero (reg_ps state)))),
      ((reg_pc state), (reg_acc state), (true, false, true, false)))).
Proof. vm_compute. reflexivity. Qed.

(** src/cpu/mos6502/tests/mod.rs:261-282 *)
Example run_should_cycle_on_adc_x_indexed_indirect_operation_without_overflow : passes (
  do! cpu1 <- test_cpu [97; 0] ;
  let cpu := (with_gp_register (with_gp_register cpu1 GpAcc 16) GpX 5) in
  do! cpu <- poke cpu 5 255 ;
  do! cpu <- poke cpu 6 0 ;
  do! cpu <- poke cpu 255 80 ;
  do! s2 <- run Debug cpu 6%nat ;
  let state3 := ss_unwrap s2 in
  let state := state3 in
  Ok ((24578, 96, ((ps_carry (reg_ps state)), (ps_negative (reg_ps state)), (ps_overflow (reg_ps state)), (ps_zero (reg_ps state)))),
      ((reg_pc state), (reg_acc state), (false, false, false, false)))).
Proof. vm_compute. reflexivity. Qed.

(** src/cpu/mos6502/tests/mod.rs:284-301 *)
Example run_should_cycle_on_adc_immediate_operation_without_overflow : passes (
  do! cpu1 <- test_cpu [105; 80] ;
  let cpu := (with_gp_register cpu1 GpAcc 16) in
  do! s2 <- run Debug cpu 2%nat ;
  let state3 := ss_unwrap s2 in
  let state := state3 in
  Ok ((24578, 96, ((ps_carry (reg_ps state)), (ps_negative (reg_ps state)), (ps_overflow (reg_ps state)), (ps_zero (reg_ps state)))),
      ((reg_pc state), (reg_acc state), (false, false, false, false)))).
Proof. vm_compute. reflexivity. Qed.

(** src/cpu/mos6502/tests/mod.rs:303-321 *)
Example run_should_cycle_on_adc_zeropage_operation_with_overflow : passes (
  do! cpu1 <- test_cpu [101; 255] ;
  let cpu := (with_gp_register cpu1 GpAcc 128) in
  do! cpu <- poke cpu 255 255 ;
  do! s2 <- run Debug cpu 3%nat ;
  let state3 := ss_unwrap s2 in
  let state := state3 in
  Ok ((24578, 127, ((ps_carry (reg_ps state)), (ps_negative (reg_ps state)), (ps_overflow (reg_ps state)), (ps_zero (reg_ps state)))),
      ((reg_pc state), (reg_acc state), (true, false, true, false)))).
Proof. vm_compute. reflexivity. Qed.

(** src/cpu/mos6502/tests/mod.rs:323-341 *)
Example run_should_cycle_on_adc_zeropage_operation_without_overflow : passes (
  do! cpu1 <- test_cpu [101; 255] ;
  let cpu := (with_gp_register cpu1 GpAcc 16) in
  do! cpu <- poke cpu 255 80 ;
  do! s2 <- run Debug cpu 3%nat ;
  let state3 := ss_unwrap s2 in
  let state := state3 in
  Ok ((24578, 96, ((ps_carry (reg_ps state)), (ps_negative (reg_ps state)), (ps_overflow (reg_ps state)), (ps_zero (reg_ps state)))),
      ((reg_pc state), (reg_acc state), (false, false, false, false)))).
Proof. vm_compute. reflexivity. Qed.

(** src/cpu/mos6502/tests/mod.rs:343-362 *)
Example run_should_cycle_on_adc_zeropage_indexed_with_x_operation_with_overflow : passes (
  do! cpu1 <- test_cpu [117; 250] ;
  let cpu := (with_gp_register (with_gp_register cpu1 GpAcc 128) GpX 5) in
  do! cpu <- poke cpu 255 255 ;
  do! s2 <- run Debug cpu 4%nat ;
  let state3 := ss_unwrap s2 in
  let state := state3 in
  Ok ((24578, 127, ((ps_carry (reg_ps state)), (ps_negative (reg_ps state)), (ps_overflow (reg_ps state)), (ps_zero (reg_ps state)))),
      ((reg_pc state), (reg_acc state), (true, false, true, false)))).
Proof. vm_compute. reflexivity. Qed.

(** src/cpu/mos6502/tests/mod.rs:364-383 *)
Example run_should_cycle_on_adc_zeropage_indexed_with_x_operation_without_overflow : passes (
  do! cpu1 <- test_cpu [117; 250] ;
  let cpu := (with_gp_register (with_gp_register cpu1 GpAcc 16) GpX 5) in
  do! cpu <- poke cpu 255 80 ;
  do! s2 <- run Debug cpu 4%nat ;
  let state3 := ss_unwrap s2 in
  let state := state3 in
  Ok ((24578, 96, ((ps_carry (reg_ps state)), (ps_negative (reg_ps state)), (ps_overflow (reg_ps state)), (ps_zero (reg_ps state)))),
      ((reg_pc state), (reg_acc state), (false, false, false, false)))).
Proof. vm_compute. reflexivity. Qed.

(** src/cpu/mos6502/tests/mod.rs:385-395 *)
Example run_should_cycle_on_and_absolute_operation : passes (
  do! cpu1 <- test_cpu [45; 255; 0] ;
  let cpu := (with_gp_register cpu1 GpAcc 255) in
  do! cpu <- poke cpu 255 85 ;
  do! s2 <- run Debug cpu 4%nat ;
  let state3 := ss_unwrap s2 in
  let state := state3 in
  Ok ((24579, 85, ((ps_negative (reg_ps state)), (ps_zero (reg_ps state)))),
      ((reg_pc state), (reg_acc state), (false, false)))).
Proof. vm_compute. reflexivity. Qed.

(** src/cpu/mos6502/tests/mod.rs:397-408 *)
Example run_should_cycle_on_and_absolute_indexed_with_x_operation : passes (
  do! cpu1 <- test_cpu [61; 250; 0] ;
  let cpu := (with_gp_register (with_gp_register cpu1 GpX 5) GpAcc 255) in
  do! cpu <- poke cpu 255 85 ;
  do! s2 <- run Debug cpu 4%nat ;
  let state3 := ss_unwrap s2 in
  let state := state3 in
  Ok ((24579, 85, ((ps_negative (reg_ps state)), (ps_zero (reg_ps state)))),
      ((reg_pc state), (reg_acc state), (false, false)))).
Proof. vm_compute. reflexivity. Qed.

(** src/cpu/mos6502/tests/mod.rs:410-421 *)
Example run_should_cycle_on_and_absolute_indexed_with_y_operation : passes (
  do! cpu1 <- test_cpu [57; 250; 0] ;
  let cpu := (with_gp_register (with_gp_register cpu1 GpY 5) GpAcc 255) in
  do! cpu <- poke cpu 255 85 ;
  do! s2 <- run Debug cpu 4%nat ;
  let state3 := ss_unwrap s2 in
  let state := state3 in
  Ok ((24579, 85, ((ps_negative (reg_ps state)), (ps_zero (reg_ps state)))),
      ((reg_pc state), (reg_acc state), (false, false)))).
Proof. vm_compute. reflexivity. Qed.

(** src/cpu/mos6502/tests/mod.rs:423-436 *)
Example run_should_cycle_on_and_indirect_y_indexed_operation : passes (
  do! cpu1 <- test_cpu [49; 0] ;
  let cpu := (with_gp_register (with_gp_register cpu1 GpAcc 255) GpY 5) in
  do! cpu <- poke cpu 0 250 ;
  do! cpu <- poke cpu 1 0 ;
  do! cpu <- poke cpu 255 85 ;
  do! s2 <- run Debug cpu 5%nat ;
  let state3 := ss_unwrap s2 in
  let state := state3 in
  Ok ((24578, 85, ((ps_negative (reg_ps state)), (ps_zero (reg_ps state)))),
      ((reg_pc state), (reg_acc state), (false, false)))).
Proof. vm_compute. reflexivity. Qed.

(** src/cpu/mos6502/tests/mod.rs:438-447 *)
Example run_should_cycle_on_and_immediate_operation : passes (
  do! cpu1 <- test_cpu [41; 85] ;
  let cpu := (with_gp_register cpu1 GpAcc 255) in
  do! s2 <- run Debug cpu 2%nat ;
  let state3 := ss_unwrap s2 in
  let state := state3 in
  Ok ((24578, 85, ((ps_negative (reg_ps state)), (ps_zero (reg_ps state)))),
      ((reg_pc state), (reg_acc state), (false, false)))).
Proof. vm_compute. reflexivity. Qed.

(** src/cpu/mos6502/tests/mod.rs:449-462 *)
Example run_should_cycle_on_and_x_indexed_indirect_operation : passes (
  do! cpu1 <- test_cpu [33; 0] ;
  let cpu := (with_gp_register (with_gp_register cpu1 GpAcc 255) GpX 5) in
  do! cpu <- poke cpu 5 255 ;
  do! cpu <- poke cpu 6 0 ;
  do! cpu <- poke cpu 255 85 ;
  do! s2 <- run Debug cpu 6%nat ;
  let state3 := ss_unwrap s2 in
  let state := state3 in
  Ok ((24578, 85, ((ps_negative (reg_ps state)), (ps_zero (reg_ps state)))),
      ((reg_pc state), (reg_acc state), (false, false)))).
Proof. vm_compute. reflexivity. Qed.

(** src/cpu/mos6502/tests/mod.rs:464-474 *)
Example run_should_cycle_on_and_zeropage_operation : passes (
  do! cpu1 <- test_cpu [37; 255] ;
  let cpu := (with_gp_register cpu1 GpAcc 255) in
  do! cpu <- poke cpu 255 85 ;
  do! s2 <- run Debug cpu 3%nat ;
  let state3 := ss_unwrap s2 in
  let state := state3 in
  Ok ((24578, 85, ((ps_negative (reg_ps state)), (ps_zero (reg_ps state)))),
      ((reg_pc state), (reg_acc state), (false, false)))).
Proof. vm_compute. reflexivity. Qed.

(** src/cpu/mos6502/tests/mod.rs:476-487 *)
Example run_should_cycle_on_and_zeropage_indexed_with_x_operation : passes (
  do! cpu1 <- test_cpu [53; 250] ;
  let cpu := (with_gp_register (with_gp_register cpu1 GpAcc 255) GpX 5) in
  do! cpu <- poke cpu 255 85 ;
  do! s2 <- run Debug cpu 4%nat ;
  let state3 := ss_unwrap s2 in
  let state := state3 in
  Ok ((24578, 85, ((ps_negative (reg_ps state)), (ps_zero (reg_ps state)))),
      ((reg_pc state), (reg_acc state), (false, false)))).
Proof. vm_compute. reflexivity. Qed.

(** src/cpu/mos6502/tests/mod.rs:489-501 *)
Example run_should_cycle_on_asl_absolute_operation : passes (
  do! cpu1 <- test_cpu [14; 255; 0] ;
  let cpu := cpu1 in
  do! cpu <- poke cpu 255 170 ;
  do! s2 <- run Debug cpu 6%nat ;
  let state3 := ss_unwrap s2 in
  let state := state3 in
  do! r4 <- am_read Debug (amap state) 255 ;
  Ok ((24579, 84, ((ps_carry (reg_ps state)), (ps_negative (reg_ps state)), (ps_zero (reg_ps state)))),
      ((reg_pc state), r4, (true, false, false)))).
Proof. vm_compute. reflexivity. Qed.

(** src/cpu/mos6502/tests/mod.rs:503-516 *)
Example run_should_cycle_on_asl_absolute_indexed_with_x_operation : passes (
  do! cpu1 <- test_cpu [30; 250; 0] ;
  let cpu := (with_gp_register cpu1 GpX 5) in
  do! cpu <- poke cpu 255 170 ;
  do! s2 <- run Debug cpu 7%nat ;
  let state3 := ss_unwrap s2 in
  let state := state3 in
  do! r4 <- am_read Debug (amap state) 255 ;
  Ok ((24579, 84, ((ps_carry (reg_ps state)), (ps_negative (reg_ps state)), (ps_zero (reg_ps state)))),
      ((reg_pc state), r4, (true, false, false)))).
Proof. vm_compute. reflexivity. Qed.

(** src/cpu/mos6502/tests/mod.rs:518-530 *)
Example run_should_cycle_on_asl_accumulator_operation : passes (
  do! cpu1 <- test_cpu [10] ;
  let cpu := (with_gp_register cpu1 GpAcc 170) in
  do! s2 <- run Debug cpu 2%nat ;
  let state3 := ss_unwrap s2 in
  let state := state3 in
  Ok ((24577, 84, ((ps_carry (reg_ps state)), (ps_negative (reg_ps state)), (ps_zero (reg_ps state)))),
      ((reg_pc state), (reg_acc state), (true, false, false)))).
Proof. vm_compute. reflexivity. Qed.

(** src/cpu/mos6502/tests/mod.rs:532-544 *)
Example run_should_cycle_on_asl_zeropage_operation : passes (
  do! cpu1 <- test_cpu [6; 255] ;
  let cpu := cpu1 in
  do! cpu <- poke cpu 255 170 ;
  do! s2 <- run Debug cpu 5%nat ;
  let state3 := ss_unwrap s2 in
  let state := state3 in
  do! r4 <- am_read Debug (amap state) 255 ;
  Ok ((24578, 84, ((ps_carry (reg_ps state)), (ps_negative (reg_ps state)), (ps_zero (reg_ps state)))),
      ((reg_pc state), r4, (true, false, false)))).
Proof. vm_compute. reflexivity. Qed.

(** src/cpu/mos6502/tests/mod.rs:546-559 *)
Example run_should_cycle_on_asl_zeropage_indexed_with_x_operation : passes (
  do! cpu1 <- test_cpu [22; 250] ;
  let cpu := (with_gp_register cpu1 GpX 5) in
  do! cpu <- poke cpu 255 170 ;
  do! s2 <- run Debug cpu 6%nat ;
  let state3 := ss_unwrap s2 in
  let state := state3 in
  do! r4 <- am_read Debug (amap state) 255 ;
  Ok ((24578, 84, ((ps_carry (reg_ps state)), (ps_negative (reg_ps state)), (ps_zero (reg_ps state)))),
      ((reg_pc state), r4, (true, false, false)))).
Proof. vm_compute. reflexivity. Qed.

(** src/cpu/mos6502/tests/mod.rs:561-569 *)
Example run_bcc_relative_operation_should_jump_when_zero_set : passes (
  do! cpu1 <- test_cpu [144; 8] ;
  let cpu := cpu1 in
  let cpu := with_ps_register cpu (mkPs false (ps_zero (reg_ps cpu)) (ps_interrupt_disable (reg_ps cpu)) (ps_decimal (reg_ps cpu)) (ps_brk (reg_ps cpu)) (ps_unused (reg_ps cpu)) (ps_overflow (reg_ps cpu)) (ps_negative (reg_ps cpu))) in
  do! s2 <- run Debug cpu 3%nat ;
  let state3 := ss_unwrap s2 in
  let state := state3 in
  Ok ((24584),
      ((reg_pc state)))).
Proof. vm_compute. reflexivity. Qed.

(** src/cpu/mos6502/tests/mod.rs:571-579 *)
Example run_bcc_relative_operation_should_incur_penalty_at_page_boundary : passes (
  do! cpu1 <- test_cpu [144; 248] ;
  let cpu := cpu1 in
  let cpu := with_ps_register cpu (mkPs false (ps_zero (reg_ps cpu)) (ps_interrupt_disable (reg_ps cpu)) (ps_decimal (reg_ps cpu)) (ps_brk (reg_ps cpu)) (ps_unused (reg_ps cpu)) (ps_overflow (reg_ps cpu)) (ps_negative (reg_ps cpu))) in
  do! s2 <- run Debug cpu 4%nat ;
  let state3 := ss_unwrap s2 in
  let state := state3 in
  Ok ((24568),
      ((reg_pc state)))).
Proof. vm_compute. reflexivity. Qed.

(** src/cpu/mos6502/tests/mod.rs:581-588 *)
Example run_bcc_relative_operation_should_not_jump_when_zero_unset : passes (
  do! cpu1 <- test_cpu [144; 8] ;
  let cpu := cpu1 in
  let cpu := with_ps_register cpu (mkPs true (ps_zero (reg_ps cpu)) (ps_interrupt_disable (reg_ps cpu)) (ps_decimal (reg_ps cpu)) (ps_brk (reg_ps cpu)) (ps_unused (reg_ps cpu)) (ps_overflow (reg_ps cpu)) (ps_negative (reg_ps cpu))) in
  do! s2 <- run Debug cpu 2%nat ;
  let state3 := ss_unwrap s2 in
  let state := state3 in
  Ok ((24578),
      ((reg_pc state)))).
Proof. vm_compute. reflexivity. Qed.

(** src/cpu/mos6502/tests/mod.rs:590-598 *)
Example run_bcs_relative_operation_should_jump_when_zero_set : passes (
  do! cpu1 <- test_cpu [176; 8] ;
  let cpu := cpu1 in
  let cpu := with_ps_register cpu (mkPs true (ps_zero (reg_ps cpu)) (ps_interrupt_disable (reg_ps cpu)) (ps_decimal (reg_ps cpu)) (ps_brk (reg_ps cpu)) (ps_unused (reg_ps cpu)) (ps_overflow (reg_ps cpu)) (ps_negative (reg_ps cpu))) in
  do! s2 <- run Debug cpu 3%nat ;
  let state3 := ss_unwrap s2 in
  let state := state3 in
  Ok ((24584),
      ((reg_pc state)))).
Proof. vm_compute. reflexivity. Qed.

(** src/cpu/mos6502/tests/mod.rs:600-608 *)
Example run_bcs_relative_operation_should_incur_penalty_at_page_boundary : passes (
  do! cpu1 <- test_cpu [176; 248] ;
  let cpu := cpu1 in
  let cpu := with_ps_register cpu (mkPs true (ps_zero (reg_ps cpu)) (ps_interrupt_disable (reg_ps cpu)) (ps_decimal (reg_ps cpu)) (ps_brk (reg_ps cpu)) (ps_unused (reg_ps cpu)) (ps_overflow (reg_ps cpu)) (ps_negative (reg_ps cpu))) in
  do! s2 <- run Debug cpu 4%nat ;
  let state3 := ss_unwrap s2 in
  let state := state3 in
  Ok ((24568),
      ((reg_pc state)))).
Proof. vm_compute. reflexivity. Qed.

(** src/cpu/mos6502/tests/mod.rs:610-617 *)
Example run_bcs_relative_operation_should_not_jump_when_zero_unset : passes (
  do! cpu1 <- test_cpu [176; 8] ;
  let cpu := cpu1 in
  let cpu := with_ps_register cpu (mkPs false (ps_zero (reg_ps cpu)) (ps_interrupt_disable (reg_ps cpu)) (ps_decimal (reg_ps cpu)) (ps_brk (reg_ps cpu)) (ps_unused (reg_ps cpu)) (ps_overflow (reg_ps cpu)) (ps_negative (reg_ps cpu))) in
  do! s2 <- run Debug cpu 2%nat ;
  let state3 := ss_unwrap s2 in
  let state := state3 in
  Ok ((24578),
      ((reg_pc state)))).
Proof. vm_compute. reflexivity. Qed.

(** src/cpu/mos6502/tests/mod.rs:619-627 *)
Example run_beq_relative_operation_should_jump_when_zero_set : passes (
  do! cpu1 <- test_cpu [240; 8] ;
  let cpu := cpu1 in
  let cpu := with_ps_register cpu (mkPs (ps_carry (reg_ps cpu)) true (ps_interrupt_disable (reg_ps cpu)) (ps_decimal (reg_ps cpu)) (ps_brk (reg_ps cpu)) (ps_unused (reg_ps cpu)) (ps_overflow (reg_ps cpu)) (ps_negative (reg_ps cpu))) in
  do! s2 <- run Debug cpu 3%nat ;
  let state3 := ss_unwrap s2 in
  let state := state3 in
  Ok ((24584),
      ((reg_pc state)))).
Proof. vm_compute. reflexivity. Qed.

(** src/cpu/mos6502/tests/mod.rs:629-637 *)
Example run_beq_relative_operation_should_incur_penalty_at_page_boundary : passes (
  do! cpu1 <- test_cpu [240; 248] ;
  let cpu := cpu1 in
  let cpu := with_ps_register cpu (mkPs (ps_carry (reg_ps cpu)) true (ps_interrupt_disable (reg_ps cpu)) (ps_decimal (reg_ps cpu)) (ps_brk (reg_ps cpu)) (ps_unused (reg_ps cpu)) (ps_overflow (reg_ps cpu)) (ps_negative (reg_ps cpu))) in
  do! s2 <- run Debug cpu 4%nat ;
  let state3 := ss_unwrap s2 in
  let state := state3 in
  Ok ((24568),
      ((reg_pc state)))).
Proof. vm_compute. reflexivity. Qed.

(** src/cpu/mos6502/tests/mod.rs:639-646 *)
Example run_beq_relative_operation_should_not_jump_when_zero_unset : passes (
  do! cpu1 <- test_cpu [240; 8] ;
  let cpu := cpu1 in
  let cpu := with_ps_register cpu (mkPs (ps_carry (reg_ps cpu)) false (ps_interrupt_disable (reg_ps cpu)) (ps_decimal (reg_ps cpu)) (ps_brk (reg_ps cpu)) (ps_unused (reg_ps cpu)) (ps_overflow (reg_ps cpu)) (ps_negative (reg_ps cpu))) in
  do! s2 <- run Debug cpu 2%nat ;
  let state3 := ss_unwrap s2 in
  let state := state3 in
  Ok ((24578),
      ((reg_pc state)))).
Proof. vm_compute. reflexivity. Qed.

(** src/cpu/mos6502/tests/mod.rs:648-656 *)
Example run_bmi_relative_operation_should_jump_when_zero_set : passes (
  do! cpu1 <- test_cpu [48; 8] ;
  let cpu := cpu1 in
  let cpu := with_ps_register cpu (mkPs (ps_carry (reg_ps cpu)) (ps_zero (reg_ps cpu)) (ps_interrupt_disable (reg_ps cpu)) (ps_decimal (reg_ps cpu)) (ps_brk (reg_ps cpu)) (ps_unused (reg_ps cpu)) (ps_overflow (reg_ps cpu)) true) in
  do! s2 <- run Debug cpu 3%nat ;
  let state3 := ss_unwrap s2 in
  let state := state3 in
  Ok ((24584),
      ((reg_pc state)))).
Proof. vm_compute. reflexivity. Qed.

(** src/cpu/mos6502/tests/mod.rs:658-666 *)
Example run_bmi_relative_operation_should_incur_penalty_at_page_boundary : passes (
  do! cpu1 <- test_cpu [48; 248] ;
  let cpu := cpu1 in
  let cpu := with_ps_register cpu (mkPs (ps_carry (reg_ps cpu)) (ps_zero (reg_ps cpu)) (ps_interrupt_disable (reg_ps cpu)) (ps_decimal (reg_ps cpu)) (ps_brk (reg_ps cpu)) (ps_unused (reg_ps cpu)) (ps_overflow (reg_ps cpu)) true) in
  do! s2 <- run Debug cpu 4%nat ;
  let state3 := ss_unwrap s2 in
  let state := state3 in
  Ok ((24568),
      ((reg_pc state)))).
Proof. vm_compute. reflexivity. Qed.

(** src/cpu/mos6502/tests/mod.rs:668-675 *)
Example run_bmi_relative_operation_should_not_jump_when_zero_unset : passes (
  do! cpu1 <- test_cpu [48; 8] ;
  let cpu := cpu1 in
  let cpu := with_ps_register cpu (mkPs (ps_carry (reg_ps cpu)) (ps_zero (reg_ps cpu)) (ps_interrupt_disable (reg_ps cpu)) (ps_decimal (reg_ps cpu)) (ps_brk (reg_ps cpu)) (ps_unused (reg_ps cpu)) (ps_overflow (reg_ps cpu)) false) in
  do! s2 <- run Debug cpu 2%nat ;
  let state3 := ss_unwrap s2 in
  let state := state3 in
  Ok ((24578),
      ((reg_pc state)))).
Proof. vm_compute. reflexivity. Qed.

(** src/cpu/mos6502/tests/mod.rs:677-690 *)
Example run_should_cycle_on_bit_absolute_operation : passes (
  do! cpu1 <- test_cpu [44; 255; 0] ;
  let cpu := (with_gp_register cpu1 GpAcc 255) in
  do! cpu <- poke cpu 255 85 ;
  do! s2 <- run Debug cpu 4%nat ;
  let state3 := ss_unwrap s2 in
  let state := state3 in
  Ok ((24579, 255, (false, true, false)),
      ((reg_pc state), (reg_acc state), ((ps_negative (reg_ps state)), (ps_overflow (reg_ps state)), (ps_zero (reg_ps state)))))).
Proof. vm_compute. reflexivity. Qed.

(** src/cpu/mos6502/tests/mod.rs:692-705 *)
Example run_should_cycle_on_bit_zeropage_operation : passes (
  do! cpu1 <- test_cpu [36; 255] ;
  let cpu := (with_gp_register cpu1 GpAcc 255) in
  do! cpu <- poke cpu 255 85 ;
  do! s2 <- run Debug cpu 3%nat ;
  let state3 := ss_unwrap s2 in
  let state := state3 in
  Ok ((24578, 255, (false, true, false)),
      ((reg_pc state), (reg_acc state), ((ps_negative (reg_ps state)), (ps_overflow (reg_ps state)), (ps_zero (reg_ps state)))))).
Proof. vm_compute. reflexivity. Qed.

(** src/cpu/mos6502/tests/mod.rs:707-715 *)
Example run_bne_relative_operation_should_jump_when_zero_set : passes (
  do! cpu1 <- test_cpu [208; 8] ;
  let cpu := cpu1 in
  let cpu := with_ps_register cpu (mkPs (ps_carry (reg_ps cpu)) false (ps_interrupt_disable (reg_ps cpu)) (ps_decimal (reg_ps cpu)) (ps_brk (reg_ps cpu)) (ps_unused (reg_ps cpu)) (ps_overflow (reg_ps cpu)) (ps_negative (reg_ps cpu))) in
  do! s2 <- run Debug cpu 3%nat ;
  let state3 := ss_unwrap s2 in
  let state := state3 in
  Ok ((24584),
      ((reg_pc state)))).
Proof. vm_compute. reflexivity. Qed.

(** src/cpu/mos6502/tests/mod.rs:717-725 *)
Example run_bne_relative_operation_should_incur_penalty_at_page_boundary : passes (
  do! cpu1 <- test_cpu [208; 248] ;
  let cpu := cpu1 in
  let cpu := with_ps_register cpu (mkPs (ps_carry (reg_ps cpu)) false (ps_interrupt_disable (reg_ps cpu)) (ps_decimal (reg_ps cpu)) (ps_brk (reg_ps cpu)) (ps_unused (reg_ps cpu)) (ps_overflow (reg_ps cpu)) (ps_negative (reg_ps cpu))) in
  do! s2 <- run Debug cpu 4%nat ;
  let state3 := ss_unwrap s2 in
  let state := state3 in
  Ok ((24568),
      ((reg_pc state)))).
Proof. vm_compute. reflexivity. Qed.

(** src/cpu/mos6502/tests/mod.rs:727-734 *)
Example run_bne_relative_operation_should_not_jump_when_zero_unset : passes (
  do! cpu1 <- test_cpu [208; 8] ;
  let cpu := cpu1 in
  let cpu := with_ps_register cpu (mkPs (ps_carry (reg_ps cpu)) true (ps_interrupt_disable (reg_ps cpu)) (ps_decimal (reg_ps cpu)) (ps_brk (reg_ps cpu)) (ps_unused (reg_ps cpu)) (ps_overflow (reg_ps cpu)) (ps_negative (reg_ps cpu))) in
  do! s2 <- run Debug cpu 2%nat ;
  let state3 := ss_unwrap s2 in
  let state := state3 in
  Ok ((24578),
      ((reg_pc state)))).
Proof. vm_compute. reflexivity. Qed.

(** src/cpu/mos6502/tests/mod.rs:736-744 *)
Example run_bpl_relative_operation_should_jump_when_zero_set : passes (
  do! cpu1 <- test_cpu [16; 8] ;
  let cpu := cpu1 in
  let cpu := with_ps_register cpu (mkPs (ps_carry (reg_ps cpu)) (ps_zero (reg_ps cpu)) (ps_interrupt_disable (reg_ps cpu)) (ps_decimal (reg_ps cpu)) (ps_brk (reg_ps cpu)) (ps_unused (reg_ps cpu)) (ps_overflow (reg_ps cpu)) false) in
  do! s2 <- run Debug cpu 3%nat ;
  let state3 := ss_unwrap s2 in
  let state := state3 in
  Ok ((24584),
      ((reg_pc state)))).
Proof. vm_compute. reflexivity. Qed.

(** src/cpu/mos6502/tests/mod.rs:746-754 *)
Example run_bpl_relative_operation_should_incur_penalty_at_page_boundary : passes (
  do! cpu1 <- test_cpu [16; 248] ;
  let cpu := cpu1 in
  let cpu := with_ps_register cpu (mkPs (ps_carry (reg_ps cpu)) (ps_zero (reg_ps cpu)) (ps_interrupt_disable (reg_ps cpu)) (ps_decimal (reg_ps cpu)) (ps_brk (reg_ps cpu)) (ps_unused (reg_ps cpu)) (ps_overflow (reg_ps cpu)) false) in
  do! s2 <- run Debug cpu 4%nat ;
  let state3 := ss_unwrap s2 in
  let state := state3 in
  Ok ((24568),
      ((reg_pc state)))).
Proof. vm_compute. reflexivity. Qed.

(** src/cpu/mos6502/tests/mod.rs:756-763 *)
Example run_bpl_relative_operation_should_not_jump_when_zero_unset : passes (
  do! cpu1 <- test_cpu [16; 8] ;
  let cpu := cpu1 in
  let cpu := with_ps_register cpu (mkPs (ps_carry (reg_ps cpu)) (ps_zero (reg_ps cpu)) (ps_interrupt_disable (reg_ps cpu)) (ps_decimal (reg_ps cpu)) (ps_brk (reg_ps cpu)) (ps_unused (reg_ps cpu)) (ps_overflow (reg_ps cpu)) true) in
  do! s2 <- run Debug cpu 2%nat ;
  let state3 := ss_unwrap s2 in
  let state := state3 in
  Ok ((24578),
      ((reg_pc state)))).
Proof. vm_compute. reflexivity. Qed.

(** src/cpu/mos6502/tests/mod.rs:765-781 *)
Example run_should_cycle_on_brk_implied_operation : passes (
  do! cpu1 <- test_cpu [0; 18] ;
  let ps := ps_default in
  let ps := mkPs (ps_carry ps) (ps_zero ps) (ps_interrupt_disable ps) (ps_decimal ps) false (ps_unused ps) (ps_overflow ps) (ps_negative ps) in
  do! m2 <- memory_new Debug ReadOnly 65534 65535 ;
  do! cpu3 <- or_panic (register_address_space (with_ps_register cpu1 ps) 65534 65535 (memory_load m2 [120; 86])) ;
  let cpu := cpu3 in
  do! s4 <- run Debug cpu 7%nat ;
  let state5 := ss_unwrap s4 in
  let state := state5 in
  Ok ((22136, (true, true)),
      ((reg_pc state), ((ps_brk (reg_ps state)), (ps_interrupt_disable (reg_ps state)))))).
Proof. vm_compute. reflexivity. Qed.

(** src/cpu/mos6502/tests/mod.rs:783-791 *)
Example run_bvc_relative_operation_should_jump_when_overflow_set : passes (
  do! cpu1 <- test_cpu [80; 8] ;
  let cpu := cpu1 in
  let cpu := with_ps_register cpu (mkPs (ps_carry (reg_ps cpu)) (ps_zero (reg_ps cpu)) (ps_interrupt_disable (reg_ps cpu)) (ps_decimal (reg_ps cpu)) (ps_brk (reg_ps cpu)) (ps_unused (reg_ps cpu)) false (ps_negative (reg_ps cpu))) in
  do! s2 <- run Debug cpu 3%nat ;
  let state3 := ss_unwrap s2 in
  let state := state3 in
  Ok ((24584),
      ((reg_pc state)))).
Proof. vm_compute. reflexivity. Qed.

(** src/cpu/mos6502/tests/mod.rs:793-801 *)
Example run_bvc_relative_operation_should_incur_penalty_at_page_boundary : passes (
  do! cpu1 <- test_cpu [80; 248] ;
  let cpu := cpu1 in
  let cpu := with_ps_register cpu (mkPs (ps_carry (reg_ps cpu)) (ps_zero (reg_ps cpu)) (ps_interrupt_disable (reg_ps cpu)) (ps_decimal (reg_ps cpu)) (ps_brk (reg_ps cpu)) (ps_unused (reg_ps cpu)) false (ps_negative (reg_ps cpu))) in
  do! s2 <- run Debug cpu 4%nat ;
  let state3 := ss_unwrap s2 in
  let state := state3 in
  Ok ((24568),
      ((reg_pc state)))).
Proof. vm_compute. reflexivity. Qed.

(** src/cpu/mos6502/tests/mod.rs:803-810 *)
Example run_bvc_relative_operation_should_not_jump_when_overflow_unset : passes (
  do! cpu1 <- test_cpu [80; 8] ;
  let cpu := cpu1 in
  let cpu := with_ps_register cpu (mkPs (ps_carry (reg_ps cpu)) (ps_zero (reg_ps cpu)) (ps_interrupt_disable (reg_ps cpu)) (ps_decimal (reg_ps cpu)) (ps_brk (reg_ps cpu)) (ps_unused (reg_ps cpu)) true (ps_negative (reg_ps cpu))) in
  do! s2 <- run Debug cpu 2%nat ;
  let state3 := ss_unwrap s2 in
  let state := state3 in
  Ok ((24578),
      ((reg_pc state)))).
Proof. vm_compute. reflexivity. Qed.

(** src/cpu/mos6502/tests/mod.rs:812-820 *)
Example run_bvs_relative_operation_should_jump_when_overflow_set : passes (
  do! cpu1 <- test_cpu [112; 8] ;
  let cpu := cpu1 in
  let cpu := with_ps_register cpu (mkPs (ps_carry (reg_ps cpu)) (ps_zero (reg_ps cpu)) (ps_interrupt_disable (reg_ps cpu)) (ps_decimal (reg_ps cpu)) (ps_brk (reg_ps cpu)) (ps_unused (reg_ps cpu)) true (ps_negative (reg_ps cpu))) in
  do! s2 <- run Debug cpu 3%nat ;
  let state3 := ss_unwrap s2 in
  let state := state3 in
  Ok ((24584),
      ((reg_pc state)))).
Proof. vm_compute. reflexivity. Qed.

(** src/cpu/mos6502/tests/mod.rs:822-830 *)
Example run_bvs_relative_operation_should_incur_penalty_at_page_boundary : passes (
  do! cpu1 <- test_cpu [112; 248] ;
  let cpu := cpu1 in
  let cpu := with_ps_register cpu (mkPs (ps_carry (reg_ps cpu)) (ps_zero (reg_ps cpu)) (ps_interrupt_disable (reg_ps cpu)) (ps_decimal (reg_ps cpu)) (ps_brk (reg_ps cpu)) (ps_unused (reg_ps cpu)) true (ps_negative (reg_ps cpu))) in
  do! s2 <- run Debug cpu 4%nat ;
  let state3 := ss_unwrap s2 in
  let state := state3 in
  Ok ((24568),
      ((reg_pc state)))).
Proof. vm_compute. reflexivity. Qed.

(** src/cpu/mos6502/tests/mod.rs:832-839 *)
Example run_bvs_relative_operation_should_not_jump_when_overflow_unset : passes (
  do! cpu1 <- test_cpu [112; 8] ;
  let cpu := cpu1 in
  let cpu := with_ps_register cpu (mkPs (ps_carry (reg_ps cpu)) (ps_zero (reg_ps cpu)) (ps_interrupt_disable (reg_ps cpu)) (ps_decimal (reg_ps cpu)) (ps_brk (reg_ps cpu)) (ps_unused (reg_ps cpu)) false (ps_negative (reg_ps cpu))) in
  do! s2 <- run Debug cpu 2%nat ;
  let state3 := ss_unwrap s2 in
  let state := state3 in
  Ok ((24578),
      ((reg_pc state)))).
Proof. vm_compute. reflexivity. Qed.

(** src/cpu/mos6502/tests/mod.rs:841-848 *)
Example run_should_cycle_on_clc_implied_operation : passes (
  do! cpu1 <- test_cpu [24] ;
  let cpu := cpu1 in
  do! s2 <- run Debug cpu 2%nat ;
  let state3 := ss_unwrap s2 in
  let state := state3 in
  Ok ((24577, true),
      ((reg_pc state), (negb (ps_carry (reg_ps state)))))).
Proof. vm_compute. reflexivity. Qed.

(** src/cpu/mos6502/tests/mod.rs:850-857 *)
Example run_should_cycle_on_cld_implied_operation : passes (
  do! cpu1 <- test_cpu [216] ;
  let cpu := cpu1 in
  do! s2 <- run Debug cpu 2%nat ;
  let state3 := ss_unwrap s2 in
  let state := state3 in
  Ok ((24577, true),
      ((reg_pc state), (negb (ps_decimal (reg_ps state)))))).
Proof. vm_compute. reflexivity. Qed.

(** src/cpu/mos6502/tests/mod.rs:859-867 *)
Example run_should_cycle_on_cli_implied_operation : passes (
  do! cpu1 <- test_cpu [88] ;
  let cpu := cpu1 in
  let cpu := with_ps_register cpu (mkPs (ps_carry (reg_ps cpu)) (ps_zero (reg_ps cpu)) true (ps_decimal (reg_ps cpu)) (ps_brk (reg_ps cpu)) (ps_unused (reg_ps cpu)) (ps_overflow (reg_ps cpu)) (ps_negative (reg_ps cpu))) in
  do! s2 <- run Debug cpu 2%nat ;
  let state3 := ss_unwrap s2 in
  let state := state3 in
  Ok ((24577, true),
      ((reg_pc state), (negb (ps_interrupt_disable (reg_ps state)))))).
Proof. vm_compute. reflexivity. Qed.

(** src/cpu/mos6502/tests/mod.rs:869-877 *)
Example run_should_cycle_on_clv_implied_operation : passes (
  do! cpu1 <- test_cpu [184] ;
  let cpu := cpu1 in
  let cpu := with_ps_register cpu (mkPs (ps_carry (reg_ps cpu)) (ps_zero (reg_ps cpu)) (ps_interrupt_disable (reg_ps cpu)) (ps_decimal (reg_ps cpu)) (ps_brk (reg_ps cpu)) (ps_unused (reg_ps cpu)) true (ps_negative (reg_ps cpu))) in
  do! s2 <- run Debug cpu 2%nat ;
  let state3 := ss_unwrap s2 in
  let state := state3 in
  Ok ((24577, true),
      ((reg_pc state), (negb (ps_overflow (reg_ps state)))))).
Proof. vm_compute. reflexivity. Qed.

(** src/cpu/mos6502/tests/mod.rs:879-893 *)
Example run_should_cycle_on_cmp_absolute_operation_with_equal_operands : passes (
  do! cpu1 <- test_cpu [205; 255; 0] ;
  let cpu := (with_gp_register cpu1 GpAcc 255) in
  do! cpu <- poke cpu 255 255 ;
  do! s2 <- run Debug cpu 4%nat ;
  let state3 := ss_unwrap s2 in
  let state := state3 in
  Ok ((24579, ((ps_carry (reg_ps state)), (ps_negative (reg_ps state)), (ps_zero (reg_ps state)))),
      ((reg_pc state), (true, false, true)))).
Proof. vm_compute. reflexivity. Qed.

(** src/cpu/mos6502/tests/mod.rs:895-909 *)
Example run_should_cycle_on_cmp_absolute_operation_with_inequal_operands : passes (
  do! cpu1 <- test_cpu [205; 255; 0] ;
  let cpu := (with_gp_register cpu1 GpAcc 0) in
  do! cpu <- poke cpu 255 255 ;
  do! s2 <- run Debug cpu 4%nat ;
  let state3 := ss_unwrap s2 in
  let state := state3 in
  Ok ((24579, ((ps_carry (reg_ps state)), (ps_negative (reg_ps state)), (ps_zero (reg_ps state)))),
      ((reg_pc state), (false, false, false)))).
Proof. vm_compute. reflexivity. Qed.

(** src/cpu/mos6502/tests/mod.rs:911-930 *)
Example run_should_cycle_on_cmp_absolute_indexed_with_x_operation_with_inequal_operands : passes (
  do! cpu1 <- test_cpu [221; 250; 0] ;
  let cpu := (with_gp_register (with_gp_register cpu1 GpAcc 0) GpX 5) in
  do! cpu <- poke cpu 255 255 ;
  do! s2 <- run Debug cpu 4%nat ;
  let state3 := ss_unwrap s2 in
  let state := state3 in
  Ok ((24579, ((ps_carry (reg_ps state)), (ps_negative (reg_ps state)), (ps_zero (reg_ps state)))),
      ((reg_pc state), (false, false, false)))).
Proof. vm_compute. reflexivity. Qed.

(** src/cpu/mos6502/tests/mod.rs:932-951 *)
Example run_should_cycle_on_cmp_absolute_indexed_with_x_operation_with_equal_operands : passes (
  do! cpu1 <- test_cpu [221; 250; 0] ;
  let cpu := (with_gp_register (with_gp_register cpu1 GpAcc 255) GpX 5) in
  do! cpu <- poke cpu 255 255 ;
  do! s2 <- run Debug cpu 4%nat ;
  let state3 := ss_unwrap s2 in
  let state := state3 in
  Ok ((24579, ((ps_carry (reg_ps state)), (ps_negative (reg_ps state)), (ps_zero (reg_ps state)))),
      ((reg_pc state), (true, false, true)))).
Proof. vm_compute. reflexivity. Qed.

(** src/cpu/mos6502/tests/mod.rs:953-972 *)
Example run_should_cycle_on_cmp_absolute_indexed_with_y_operation_with_inequal_operands : passes (
  do! cpu1 <- test_cpu [217; 250; 0] ;
  let cpu := (with_gp_register (with_gp_register cpu1 GpAcc 0) GpY 5) in
  do! cpu <- poke cpu 255 255 ;
  do! s2 <- run Debug cpu 4%nat ;
  let state3 := ss_unwrap s2 in
  let state := state3 in
  Ok ((24579, ((ps_carry (reg_ps state)), (ps_negative (reg_ps state)), (ps_zero (reg_ps state)))),
      ((reg_pc state), (false, false, false)))).
Proof. vm_compute. reflexivity. Qed.

(** src/cpu/mos6502/tests/mod.rs:974-993 *)
Example run_should_cycle_on_cmp_absolute_indexed_with_y_operation_with_equal_operands : passes (
  do! cpu1 <- test_cpu [217; 250; 0] ;
  let cpu := (with_gp_register (with_gp_register cpu1 GpAcc 255) GpY 5) in
  do! cpu <- poke cpu 255 255 ;
  do! s2 <- run Debug cpu 4%nat ;
  let state3 := ss_unwrap s2 in
  let state := state3 in
  Ok ((24579, ((ps_carry (reg_ps state)), (ps_negative (reg_ps state)), (ps_zero (reg_ps state)))),
      ((reg_pc state), (true, false, true)))).
Proof. vm_compute. reflexivity. Qed.

(** src/cpu/mos6502/tests/mod.rs:995-1016 *)
Example run_should_cycle_on_cmp_indirect_y_indexed_operation_with_equal_operands : passes (
  do! cpu1 <- test_cpu [209; 1; 0] ;
  let cpu := (with_gp_register (with_gp_register cpu1 GpAcc 234) GpY 5) in
  do! cpu <- poke cpu 1 250 ;
  do! cpu <- poke cpu 2 0 ;
  do! cpu <- poke cpu 255 234 ;
  do! s2 <- run Debug cpu 5%nat ;
  let state3 := ss_unwrap s2 in
  let state := state3 in
  Ok ((24578, ((ps_carry (reg_ps state)), (ps_negative (reg_ps state)), (ps_zero (reg_ps state)))),
      ((reg_pc state), (true, false, true)))).
Proof. vm_compute. reflexivity. Qed.

(** src/cpu/mos6502/tests/mod.rs:1018-1039 *)
Example run_should_cycle_on_cmp_indirect_y_indexed_operation_with_inequal_operands : passes (
  do! cpu1 <- test_cpu [209; 1; 0] ;
  let cpu := (with_gp_register (with_gp_register cpu1 GpAcc 255) GpY 5) in
  do! cpu <- poke cpu 1 250 ;
  do! cpu <- poke cpu 2 0 ;
  do! cpu <- poke cpu 255 234 ;
  do! s2 <- run Debug cpu 5%nat ;
  let state3 := ss_unwrap s2 in
  let state := state3 in
  Ok ((24578, ((ps_carry (reg_ps state)), (ps_negative (reg_ps state)), (ps_zero (reg_ps state)))),
      ((reg_pc state), (true, false, false)))).
Proof. vm_compute. reflexivity. Qed.

(** src/cpu/mos6502/tests/mod.rs:1041-1054 *)
Example run_should_cycle_on_cmp_immediate_operation_with_inequal_operands : passes (
  do! cpu1 <- test_cpu [201; 255] ;
  let cpu := (with_gp_register cpu1 GpAcc 0) in
  do! s2 <- run Debug cpu 2%nat ;
  let state3 := ss_unwrap s2 in
  let state := state3 in
  Ok ((24578, ((ps_carry (reg_ps state)), (ps_negative (reg_ps state)), (ps_zero (reg_ps state)))),
      ((reg_pc state), (false, false, false)))).
Proof. vm_compute. reflexivity. Qed.

(** src/cpu/mos6502/tests/mod.rs:1056-1069 *)
Example run_should_cycle_on_cmp_immediate_operation_with_equal_operands : passes (
  do! cpu1 <- test_cpu [201; 255] ;
  let cpu := (with_gp_register cpu1 GpAcc 255) in
  do! s2 <- run Debug cpu 2%nat ;
  let state3 := ss_unwrap s2 in
  let state := state3 in
  Ok ((24578, ((ps_carry (reg_ps state)), (ps_negative (reg_ps state)), (ps_zero (reg_ps state)))),
      ((reg_pc state), (true, false, true)))).
Proof. vm_compute. reflexivity. Qed.

(** src/cpu/mos6502/tests/mod.rs:1071-1092 *)
Example run_should_cycle_on_cmp_x_indexed_indirect_operation_with_equal_operands : passes (
  do! cpu1 <- test_cpu [193; 1; 0] ;
  let cpu := (with_gp_register (with_gp_register cpu1 GpAcc 234) GpX 5) in
  do! cpu <- poke cpu 6 255 ;
  do! cpu <- poke cpu 7 0 ;
  do! cpu <- poke cpu 255 234 ;
  do! s2 <- run Debug cpu 6%nat ;
  let state3 := ss_unwrap s2 in
  let state := state3 in
  Ok ((24578, ((ps_carry (reg_ps state)), (ps_negative (reg_ps state)), (ps_zero (reg_ps state)))),
      ((reg_pc state), (true, false, true)))).
Proof. vm_compute. reflexivity. Qed.

(** src/cpu/mos6502/tests/mod.rs:1094-1115 *)
Example run_should_cycle_on_cmp_x_indexed_indirect_operation_with_inequal_operands : passes (
  do! cpu1 <- test_cpu [193; 1; 0] ;
  let cpu := (with_gp_register (with_gp_register cpu1 GpAcc 255) GpX 5) in
  do! cpu <- poke cpu 6 255 ;
  do! cpu <- poke cpu 7 0 ;
  do! cpu <- poke cpu 255 234 ;
  do! s2 <- run Debug cpu 6%nat ;
  let state3 := ss_unwrap s2 in
  let state := state3 in
  Ok ((24578, ((ps_carry (reg_ps state)), (ps_negative (reg_ps state)), (ps_zero (reg_ps state)))),
      ((reg_pc state), (true, false, false)))).
Proof. vm_compute. reflexivity. Qed.

(** src/cpu/mos6502/tests/mod.rs:1117-1131 *)
Example run_should_cycle_on_cmp_zeropage_operation_with_inequal_operands : passes (
  do! cpu1 <- test_cpu [197; 255] ;
  let cpu := (with_gp_register cpu1 GpAcc 0) in
  do! cpu <- poke cpu 255 255 ;
  do! s2 <- run Debug cpu 3%nat ;
  let state3 := ss_unwrap s2 in
  let state := state3 in
  Ok ((24578, ((ps_carry (reg_ps state)), (ps_negative (reg_ps state)), (ps_zero (reg_ps state)))),
      ((reg_pc state), (false, false, false)))).
Proof. vm_compute. reflexivity. Qed.

(** src/cpu/mos6502/tests/mod.rs:1133-1147 *)
Example run_should_cycle_on_cmp_zeropage_operation_with_equal_operands : passes (
  do! cpu1 <- test_cpu [197; 255] ;
  let cpu := (with_gp_register cpu1 GpAcc 255) in
  do! cpu <- poke cpu 255 255 ;
  do! s2 <- run Debug cpu 3%nat ;
  let state3 := ss_unwrap s2 in
  let state := state3 in
  Ok ((24578, ((ps_carry (reg_ps state)), (ps_negative (reg_ps state)), (ps_zero (reg_ps state)))),
      ((reg_pc state), (true, false, true)))).
Proof. vm_compute. reflexivity. Qed.

(** src/cpu/mos6502/tests/mod.rs:1149-1168 *)
Example run_should_cycle_on_cmp_zeropage_indexed_with_x_operation_with_inequal_operands : passes (
  do! cpu1 <- test_cpu [213; 250] ;
  let cpu := (with_gp_register (with_gp_register cpu1 GpAcc 0) GpX 5) in
  do! cpu <- poke cpu 255 255 ;
  do! s2 <- run Debug cpu 4%nat ;
  let state3 := ss_unwrap s2 in
  let state := state3 in
  Ok ((24578, ((ps_carry (reg_ps state)), (ps_negative (reg_ps state)), (ps_zero (reg_ps state)))),
      ((reg_pc state), (false, false, false)))).
Proof. vm_compute. reflexivity. Qed.

(** src/cpu/mos6502/tests/mod.rs:1170-1189 *)
Example run_should_cycle_on_cmp_zeropage_indexed_with_x_operation_with_equal_operands : passes (
  do! cpu1 <- test_cpu [213; 250] ;
  let cpu := (with_gp_register (with_gp_register cpu1 GpAcc 255) GpX 5) in
  do! cpu <- poke cpu 255 255 ;
  do! s2 <- run Debug cpu 4%nat ;
  let state3 := ss_unwrap s2 in
  let state := state3 in
  Ok ((24578, ((ps_carry (reg_ps state)), (ps_negative (reg_ps state)), (ps_zero (reg_ps state)))),
      ((reg_pc state), (true, false, true)))).
Proof. vm_compute. reflexivity. Qed.

(** src/cpu/mos6502/tests/mod.rs:1191-1205 *)
Example run_should_cycle_on_cpx_absolute_operation_with_equal_operands : passes (
  do! cpu1 <- test_cpu [236; 255; 0] ;
  let cpu := (with_gp_register cpu1 GpX 255) in
  do! cpu <- poke cpu 255 255 ;
  do! s2 <- run Debug cpu 4%nat ;
  let state3 := ss_unwrap s2 in
  let state := state3 in
  Ok ((24579, ((ps_carry (reg_ps state)), (ps_negative (reg_ps state)), (ps_zero (reg_ps state)))),
      ((reg_pc state), (true, false, true)))).
Proof. vm_compute. reflexivity. Qed.

(** src/cpu/mos6502/tests/mod.rs:1207-1221 *)
Example run_should_cycle_on_cpx_absolute_operation_with_inequal_operands : passes (
  do! cpu1 <- test_cpu [236; 255; 0] ;
  let cpu := (with_gp_register cpu1 GpX 0) in
  do! cpu <- poke cpu 255 255 ;
  do! s2 <- run Debug cpu 4%nat ;
  let state3 := ss_unwrap s2 in
  let state := state3 in
  Ok ((24579, ((ps_carry (reg_ps state)), (ps_negative (reg_ps state)), (ps_zero (reg_ps state)))),
      ((reg_pc state), (false, false, false)))).
Proof. vm_compute. reflexivity. Qed.

(** src/cpu/mos6502/tests/mod.rs:1223-1236 *)
Example run_should_cycle_on_cpx_immediate_operation_with_inequal_operands : passes (
  do! cpu1 <- test_cpu [224; 255] ;
  let cpu := (with_gp_register cpu1 GpX 0) in
  do! s2 <- run Debug cpu 2%nat ;
  let state3 := ss_unwrap s2 in
  let state := state3 in
  Ok ((24578, ((ps_carry (reg_ps state)), (ps_negative (reg_ps state)), (ps_zero (reg_ps state)))),
      ((reg_pc state), (false, false, false)))).
Proof. vm_compute. reflexivity. Qed.

(** src/cpu/mos6502/tests/mod.rs:1238-1251 *)
Example run_should_cycle_on_cpx_immediate_operation_with_equal_operands : passes (
  do! cpu1 <- test_cpu [224; 255] ;
  let cpu := (with_gp_register cpu1 GpX 255) in
  do! s2 <- run Debug cpu 2%nat ;
  let state3 := ss_unwrap s2 in
  let state := state3 in
  Ok ((24578, ((ps_carry (reg_ps state)), (ps_negative (reg_ps state)), (ps_zero (reg_ps state)))),
      ((reg_pc state), (true, false, true)))).
Proof. vm_compute. reflexivity. Qed.

(** src/cpu/mos6502/tests/mod.rs:1253-1267 *)
Example run_should_cycle_on_cpx_zeropage_operation_with_inequal_operands : passes (
  do! cpu1 <- test_cpu [228; 255] ;
  let cpu := (with_gp_register cpu1 GpX 0) in
  do! cpu <- poke cpu 255 255 ;
  do! s2 <- run Debug cpu 3%nat ;
  let state3 := ss_unwrap s2 in
  let state := state3 in
  Ok ((24578, ((ps_carry (reg_ps state)), (ps_negative (reg_ps state)), (ps_zero (reg_ps state)))),
      ((reg_pc state), (false, false, false)))).
Proof. vm_compute. reflexivity. Qed.

(** src/cpu/mos6502/tests/mod.rs:1269-1283 *)
Example run_should_cycle_on_cpx_zeropage_operation_with_equal_operands : passes (
  do! cpu1 <- test_cpu [228; 255] ;
  let cpu := (with_gp_register cpu1 GpX 255) in
  do! cpu <- poke cpu 255 255 ;
  do! s2 <- run Debug cpu 3%nat ;
  let state3 := ss_unwrap s2 in
  let state := state3 in
  Ok ((24578, ((ps_carry (reg_ps state)), (ps_negative (reg_ps state)), (ps_zero (reg_ps state)))),
      ((reg_pc state), (true, false, true)))).
Proof. vm_compute. reflexivity. Qed.

(** src/cpu/mos6502/tests/mod.rs:1285-1299 *)
Example run_should_cycle_on_cpy_absolute_operation_with_equal_operands : passes (
  do! cpu1 <- test_cpu [204; 255; 0] ;
  let cpu := (with_gp_register cpu1 GpY 255) in
  do! cpu <- poke cpu 255 255 ;
  do! s2 <- run Debug cpu 4%nat ;
  let state3 := ss_unwrap s2 in
  let state := state3 in
  Ok ((24579, ((ps_carry (reg_ps state)), (ps_negative (reg_ps state)), (ps_zero (reg_ps state)))),
      ((reg_pc state), (true, false, true)))).
Proof. vm_compute. reflexivity. Qed.

(** src/cpu/mos6502/tests/mod.rs:1301-1315 *)
Example run_should_cycle_on_cpy_absolute_operation_with_inequal_operands : passes (
  do! cpu1 <- test_cpu [204; 255; 0] ;
  let cpu := (with_gp_register cpu1 GpY 0) in
  do! cpu <- poke cpu 255 255 ;
  do! s2 <- run Debug cpu 4%nat ;
  let state3 := ss_unwrap s2 in
  let state := state3 in
  Ok ((24579, ((ps_carry (reg_ps state)), (ps_negative (reg_ps state)), (ps_zero (reg_ps state)))),
      ((reg_pc state), (false, false, false)))).
Proof. vm_compute. reflexivity. Qed.

(** src/cpu/mos6502/tests/mod.rs:1317-1330 *)
Example run_should_cycle_on_cpy_immediate_operation_with_inequal_operands : passes (
  do! cpu1 <- test_cpu [192; 255] ;
  let cpu := (with_gp_register cpu1 GpY 0) in
  do! s2 <- run Debug cpu 2%nat ;
  let state3 := ss_unwrap s2 in
  let state := state3 in
  Ok ((24578, ((ps_carry (reg_ps state)), (ps_negative (reg_ps state)), (ps_zero (reg_ps state)))),
      ((reg_pc state), (false, false, false)))).
Proof. vm_compute. reflexivity. Qed.

(** src/cpu/mos6502/tests/mod.rs:1332-1345 *)
Example run_should_cycle_on_cpy_immediate_operation_with_equal_operands : passes (
  do! cpu1 <- test_cpu [192; 255] ;
  let cpu := (with_gp_register cpu1 GpY 255) in
  do! s2 <- run Debug cpu 2%nat ;
  let state3 := ss_unwrap s2 in
  let state := state3 in
  Ok ((24578, ((ps_carry (reg_ps state)), (ps_negative (reg_ps state)), (ps_zero (reg_ps state)))),
      ((reg_pc state), (true, false, true)))).
Proof. vm_compute. reflexivity. Qed.

(** src/cpu/mos6502/tests/mod.rs:1347-1361 *)
Example run_should_cycle_on_cpy_zeropage_operation_with_inequal_operands : passes (
  do! cpu1 <- test_cpu [196; 255] ;
  let cpu := (with_gp_register cpu1 GpY 0) in
  do! cpu <- poke cpu 255 255 ;
  do! s2 <- run Debug cpu 3%nat ;
  let state3 := ss_unwrap s2 in
  let state := state3 in
  Ok ((24578, ((ps_carry (reg_ps state)), (ps_negative (reg_ps state)), (ps_zero (reg_ps state)))),
      ((reg_pc state), (false, false, false)))).
Proof. vm_compute. reflexivity. Qed.

(** src/cpu/mos6502/tests/mod.rs:1363-1377 *)
Example run_should_cycle_on_cpy_zeropage_operation_with_equal_operands : passes (
  do! cpu1 <- test_cpu [196; 255] ;
  let cpu := (with_gp_register cpu1 GpY 255) in
  do! cpu <- poke cpu 255 255 ;
  do! s2 <- run Debug cpu 3%nat ;
  let state3 := ss_unwrap s2 in
  let state := state3 in
  Ok ((24578, ((ps_carry (reg_ps state)), (ps_negative (reg_ps state)), (ps_zero (reg_ps state)))),
      ((reg_pc state), (true, false, true)))).
Proof. vm_compute. reflexivity. Qed.

(** src/cpu/mos6502/tests/mod.rs:1379-1387 *)
Example run_should_cycle_on_dec_absolute_operation : passes (
  do! cpu1 <- test_cpu [206; 255; 1] ;
  let cpu := cpu1 in
  do! s2 <- run Debug cpu 6%nat ;
  let state3 := ss_unwrap s2 in
  let state := state3 in
  do! r4 <- am_read Debug (amap state) 511 ;
  Ok ((24579, 255, (true, false)),
      ((reg_pc state), r4, ((ps_negative (reg_ps state)), (ps_zero (reg_ps state)))))).
Proof. vm_compute. reflexivity. Qed.

(** src/cpu/mos6502/tests/mod.rs:1389-1398 *)
Example run_should_cycle_on_dec_absolute_indexed_with_x_operation : passes (
  do! cpu1 <- test_cpu [222; 250; 1] ;
  let cpu := (with_gp_register cpu1 GpX 5) in
  do! s2 <- run Debug cpu 7%nat ;
  let state3 := ss_unwrap s2 in
  let state := state3 in
  do! r4 <- am_read Debug (amap state) 511 ;
  Ok ((24579, 255, (true, false)),
      ((reg_pc state), r4, ((ps_negative (reg_ps state)), (ps_zero (reg_ps state)))))).
Proof. vm_compute. reflexivity. Qed.

(** src/cpu/mos6502/tests/mod.rs:1400-1408 *)
Example run_should_cycle_on_dec_zeropage_operation : passes (
  do! cpu1 <- test_cpu [198; 255] ;
  let cpu := cpu1 in
  do! s2 <- run Debug cpu 5%nat ;
  let state3 := ss_unwrap s2 in
  let state := state3 in
  do! r4 <- am_read Debug (amap state) 255 ;
  Ok ((24578, 255, (true, false)),
      ((reg_pc state), r4, ((ps_negative (reg_ps state)), (ps_zero (reg_ps state)))))).
Proof. vm_compute. reflexivity. Qed.

(** src/cpu/mos6502/tests/mod.rs:1410-1419 *)
Example run_should_cycle_on_dec_zeropage_indexed_with_x_operation : passes (
  do! cpu1 <- test_cpu [214; 250] ;
  let cpu := (with_gp_register cpu1 GpX 5) in
  do! s2 <- run Debug cpu 6%nat ;
  let state3 := ss_unwrap s2 in
  let state := state3 in
  do! r4 <- am_read Debug (amap state) 255 ;
  Ok ((24578, 255, (true, false)),
      ((reg_pc state), r4, ((ps_negative (reg_ps state)), (ps_zero (reg_ps state)))))).
Proof. vm_compute. reflexivity. Qed.

(** src/cpu/mos6502/tests/mod.rs:1421-1430 *)
Example run_should_cycle_on_dex_implied_operation : passes (
  do! cpu1 <- test_cpu [202] ;
  let cpu := (with_gp_register cpu1 GpX 81) in
  do! s2 <- run Debug cpu 2%nat ;
  let state3 := ss_unwrap s2 in
  let state := state3 in
  Ok ((24577, 80, (false, false)),
      ((reg_pc state), (reg_x state), ((ps_negative (reg_ps state)), (ps_zero (reg_ps state)))))).
Proof. vm_compute. reflexivity. Qed.

(** src/cpu/mos6502/tests/mod.rs:1432-1441 *)
Example run_should_cycle_on_dey_implied_operation : passes (
  do! cpu1 <- test_cpu [136] ;
  let cpu := (with_gp_register cpu1 GpY 255) in
  do! s2 <- run Debug cpu 2%nat ;
  let state3 := ss_unwrap s2 in
  let state := state3 in
  Ok ((24577, 254, (true, false)),
      ((reg_pc state), (reg_y state), ((ps_negative (reg_ps state)), (ps_zero (reg_ps state)))))).
Proof. vm_compute. reflexivity. Qed.

(** src/cpu/mos6502/tests/mod.rs:1443-1453 *)
Example run_should_cycle_on_eor_absolute_operation : passes (
  do! cpu1 <- test_cpu [77; 255; 0] ;
  let cpu := (with_gp_register cpu1 GpAcc 255) in
  do! cpu <- poke cpu 255 85 ;
  do! s2 <- run Debug cpu 4%nat ;
  let state3 := ss_unwrap s2 in
  let state := state3 in
  Ok ((24579, 170, ((ps_negative (reg_ps state)), (ps_zero (reg_ps state)))),
      ((reg_pc state), (reg_acc state), (true, false)))).
Proof. vm_compute. reflexivity. Qed.

(** src/cpu/mos6502/tests/mod.rs:1455-1466 *)
Example run_should_cycle_on_eor_absolute_indexed_with_x_operation : passes (
  do! cpu1 <- test_cpu [93; 250; 0] ;
  let cpu := (with_gp_register (with_gp_register cpu1 GpX 5) GpAcc 255) in
  do! cpu <- poke cpu 255 85 ;
  do! s2 <- run Debug cpu 4%nat ;
  let state3 := ss_unwrap s2 in
  let state := state3 in
  Ok ((24579, 170, ((ps_negative (reg_ps state)), (ps_zero (reg_ps state)))),
      ((reg_pc state), (reg_acc state), (true, false)))).
Proof. vm_compute. reflexivity. Qed.

(** src/cpu/mos6502/tests/mod.rs:1468-1479 *)
Example run_should_cycle_on_eor_absolute_indexed_with_y_operation : passes (
  do! cpu1 <- test_cpu [89; 250; 0] ;
  let cpu := (with_gp_register (with_gp_register cpu1 GpY 5) GpAcc 255) in
  do! cpu <- poke cpu 255 85 ;
  do! s2 <- run Debug cpu 4%nat ;
  let state3 := ss_unwrap s2 in
  let state := state3 in
  Ok ((24579, 170, ((ps_negative (reg_ps state)), (ps_zero (reg_ps state)))),
      ((reg_pc state), (reg_acc state), (true, false)))).
Proof. vm_compute. reflexivity. Qed.

(** src/cpu/mos6502/tests/mod.rs:1481-1494 *)
Example run_should_cycle_on_eor_indirect_y_indexed_operation : passes (
  do! cpu1 <- test_cpu [81; 0] ;
  let cpu := (with_gp_register (with_gp_register cpu1 GpAcc 255) GpY 5) in
  do! cpu <- poke cpu 0 250 ;
  do! cpu <- poke cpu 1 0 ;
  do! cpu <- poke cpu 255 85 ;
  do! s2 <- run Debug cpu 5%nat ;
  let state3 := ss_unwrap s2 in
  let state := state3 in
  Ok ((24578, 170, ((ps_negative (reg_ps state)), (ps_zero (reg_ps state)))),
      ((reg_pc state), (reg_acc state), (true, false)))).
Proof. vm_compute. reflexivity. Qed.

(** src/cpu/mos6502/tests/mod.rs:1496-1505 *)
Example run_should_cycle_on_eor_immediate_operation : passes (
  do! cpu1 <- test_cpu [73; 85] ;
  let cpu := (with_gp_register cpu1 GpAcc 255) in
  do! s2 <- run Debug cpu 2%nat ;
  let state3 := ss_unwrap s2 in
  let state := state3 in
  Ok ((24578, 170, ((ps_negative (reg_ps state)), (ps_zero (reg_ps state)))),
      ((reg_pc state), (reg_acc state), (true, false)))).
Proof. vm_compute. reflexivity. Qed.

(** src/cpu/mos6502/tests/mod.rs:1507-1520 *)
Example run_should_cycle_on_eor_x_indexed_indirect_operation : passes (
  do! cpu1 <- test_cpu [65; 0] ;
  let cpu := (with_gp_register (with_gp_register cpu1 GpAcc 255) GpX 5) in
  do! cpu <- poke cpu 5 255 ;
  do! cpu <- poke cpu 6 0 ;
  do! cpu <- poke cpu 255 85 ;
  do! s2 <- run Debug cpu 6%nat ;
  let state3 := ss_unwrap s2 in
  let state := state3 in
  Ok ((24578, 170, ((ps_negative (reg_ps state)), (ps_zero (reg_ps state)))),
      ((reg_pc state), (reg_acc state), (true, false)))).
Proof. vm_compute. reflexivity. Qed.

(** src/cpu/mos6502/tests/mod.rs:1522-1532 *)
Example run_should_cycle_on_eor_zeropage_operation : passes (
  do! cpu1 <- test_cpu [69; 255] ;
  let cpu := (with_gp_register cpu1 GpAcc 255) in
  do! cpu <- poke cpu 255 85 ;
  do! s2 <- run Debug cpu 3%nat ;
  let state3 := ss_unwrap s2 in
  let state := state3 in
  Ok ((24578, 170, ((ps_negative (reg_ps state)), (ps_zero (reg_ps state)))),
      ((reg_pc state), (reg_acc state), (true, false)))).
Proof. vm_compute. reflexivity. Qed.

(** src/cpu/mos6502/tests/mod.rs:1534-1545 *)
Example run_should_cycle_on_eor_zeropage_indexed_with_x_operation : passes (
  do! cpu1 <- test_cpu [85; 250] ;
  let cpu := (with_gp_register (with_gp_register cpu1 GpAcc 255) GpX 5) in
  do! cpu <- poke cpu 255 85 ;
  do! s2 <- run Debug cpu 4%nat ;
  let state3 := ss_unwrap s2 in
  let state := state3 in
  Ok ((24578, 170, ((ps_negative (reg_ps state)), (ps_zero (reg_ps state)))),
      ((reg_pc state), (reg_acc state), (true, false)))).
Proof. vm_compute. reflexivity. Qed.

(** src/cpu/mos6502/tests/mod.rs:1547-1555 *)
Example run_should_cycle_on_inc_absolute_operation : passes (
  do! cpu1 <- test_cpu [238; 255; 1] ;
  let cpu := cpu1 in
  do! s2 <- run Debug cpu 6%nat ;
  let state3 := ss_unwrap s2 in
  let state := state3 in
  do! r4 <- am_read Debug (amap state) 511 ;
  Ok ((24579, 1, (false, false)),
      ((reg_pc state), r4, ((ps_negative (reg_ps state)), (ps_zero (reg_ps state)))))).
Proof. vm_compute. reflexivity. Qed.

(** src/cpu/mos6502/tests/mod.rs:1557-1566 *)
Example run_should_cycle_on_inc_absolute_indexed_with_x_operation : passes (
  do! cpu1 <- test_cpu [254; 250; 1] ;
  let cpu := (with_gp_register cpu1 GpX 5) in
  do! s2 <- run Debug cpu 7%nat ;
  let state3 := ss_unwrap s2 in
  let state := state3 in
  do! r4 <- am_read Debug (amap state) 511 ;
  Ok ((24579, 1, (false, false)),
      ((reg_pc state), r4, ((ps_negative (reg_ps state)), (ps_zero (reg_ps state)))))).
Proof. vm_compute. reflexivity. Qed.

(** src/cpu/mos6502/tests/mod.rs:1568-1576 *)
Example run_should_cycle_on_inc_zeropage_operation : passes (
  do! cpu1 <- test_cpu [230; 255] ;
  let cpu := cpu1 in
  do! s2 <- run Debug cpu 5%nat ;
  let state3 := ss_unwrap s2 in
  let state := state3 in
  do! r4 <- am_read Debug (amap state) 255 ;
  Ok ((24578, 1, (false, false)),
      ((reg_pc state), r4, ((ps_negative (reg_ps state)), (ps_zero (reg_ps state)))))).
Proof. vm_compute. reflexivity. Qed.

(** src/cpu/mos6502/tests/mod.rs:1578-1587 *)
Example run_should_cycle_on_inc_zeropage_indexed_with_x_operation : passes (
  do! cpu1 <- test_cpu [246; 250] ;
  let cpu := (with_gp_register cpu1 GpX 5) in
  do! s2 <- run Debug cpu 6%nat ;
  let state3 := ss_unwrap s2 in
  let state := state3 in
  do! r4 <- am_read Debug (amap state) 255 ;
  Ok ((24578, 1, (false, false)),
      ((reg_pc state), r4, ((ps_negative (reg_ps state)), (ps_zero (reg_ps state)))))).
Proof. vm_compute. reflexivity. Qed.

(** src/cpu/mos6502/tests/mod.rs:1589-1599 *)
Example run_should_cycle_on_inx_implied_operation : passes (
  do! cpu1 <- test_cpu [232] ;
  let cpu := (with_gp_register cpu1 GpX 127) in
  do! s2 <- run Debug cpu 2%nat ;
  let state3 := ss_unwrap s2 in
  let state := state3 in
  Ok ((true, 24577, 128, (true, false)),
      ((negb (ps_negative (reg_ps cpu))), (reg_pc state), (reg_x state), ((ps_negative (reg_ps state)), (ps_zero (reg_ps state)))))).
Proof. vm_compute. reflexivity. Qed.

(** src/cpu/mos6502/tests/mod.rs:1601-1611 *)
Example run_should_cycle_on_iny_implied_operation : passes (
  do! cpu1 <- test_cpu [200] ;
  let cpu := (with_gp_register cpu1 GpY 127) in
  do! s2 <- run Debug cpu 2%nat ;
  let state3 := ss_unwrap s2 in
  let state := state3 in
  Ok ((true, 24577, 128, (true, false)),
      ((negb (ps_negative (reg_ps cpu))), (reg_pc state), (reg_y state), ((ps_negative (reg_ps state)), (ps_zero (reg_ps state)))))).
Proof. vm_compute. reflexivity. Qed.

(** src/cpu/mos6502/tests/mod.rs:1613-1619 *)
Example run_should_cycle_on_jmp_absolute_operation : passes (
  do! cpu1 <- test_cpu [76; 80; 96] ;
  let cpu := cpu1 in
  do! s2 <- run Debug cpu 3%nat ;
  let state3 := ss_unwrap s2 in
  let state := state3 in
  Ok ((24656),
      ((reg_pc state)))).
Proof. vm_compute. reflexivity. Qed.

(** src/cpu/mos6502/tests/mod.rs:1621-1627 *)
Example run_should_cycle_on_jmp_indirect_operation : passes (
  do! cpu1 <- test_cpu [108; 80; 96] ;
  let cpu := cpu1 in
  do! s2 <- run Debug cpu 5%nat ;
  let state3 := ss_unwrap s2 in
  let state := state3 in
  Ok ((60138),
      ((reg_pc state)))).
Proof. vm_compute. reflexivity. Qed.

(** src/cpu/mos6502/tests/mod.rs:1629-1644 *)
Example run_should_cycle_on_jsr_absolute_operation : passes (
  do! cpu1 <- test_cpu [32; 80; 96] ;
  let cpu := cpu1 in
  let sph := 511 in
  let spl := 510 in
  let stack_base := 256 in
  do! s2 <- run Debug cpu 6%nat ;
  let state3 := ss_unwrap s2 in
  let state := state3 in
  do! r4 <- am_read Debug (amap state) spl ;
  do! r5 <- am_read Debug (amap state) sph ;
  Ok ((24656, 509, (2, 96)),
      ((reg_pc state), ((stack_base + (reg_sp state)) mod 65536), (r4, r5)))).
Proof. vm_compute. reflexivity. Qed.

(** src/cpu/mos6502/tests/mod.rs:1646-1654 *)
Example run_should_cycle_on_lda_immediate_operation : passes (
  do! cpu1 <- test_cpu [169; 255; 169; 15] ;
  let cpu := cpu1 in
  do! s2 <- run Debug cpu 4%nat ;
  let state3 := ss_unwrap s2 in
  let state := state3 in
  Ok ((24580, 15, ((ps_negative (reg_ps state)), (ps_zero (reg_ps state)))),
      ((reg_pc state), (reg_acc state), (false, false)))).
Proof. vm_compute. reflexivity. Qed.

(** src/cpu/mos6502/tests/mod.rs:1656-1664 *)
Example run_should_cycle_on_lda_zeropage_operation : passes (
  do! cpu1 <- test_cpu [165; 255] ;
  let cpu := cpu1 in
  do! s2 <- run Debug cpu 3%nat ;
  let state3 := ss_unwrap s2 in
  let state := state3 in
  Ok ((24578, 0, ((ps_negative (reg_ps state)), (ps_zero (reg_ps state)))),
      ((reg_pc state), (reg_acc state), (false, true)))).
Proof. vm_compute. reflexivity. Qed.

(** src/cpu/mos6502/tests/mod.rs:1666-1676 *)
Example run_should_cycle_on_lda_zeropage_indexed_with_x_operation : passes (
  do! cpu1 <- test_cpu [181; 0] ;
  let cpu := (with_gp_register cpu1 GpX 5) in
  do! cpu <- poke cpu 5 255 ;
  do! s2 <- run Debug cpu 4%nat ;
  let state3 := ss_unwrap s2 in
  let state := state3 in
  Ok ((24578, 255, ((ps_negative (reg_ps state)), (ps_zero (reg_ps state)))),
      ((reg_pc state), (reg_acc state), (true, false)))).
Proof. vm_compute. reflexivity. Qed.

(** src/cpu/mos6502/tests/mod.rs:1678-1692 *)
Example run_should_cycle_on_lda_absolute_operation : passes (
  let ram_start := 512 in
  let ram_end := 24575 in
  do! cpu1 <- test_cpu [173; 0; 2] ;
  do! m2 <- memory_new Debug ReadWrite ram_start ram_end ;
  do! cpu3 <- or_panic (register_address_space (with_gp_register cpu1 GpAcc 255) ram_start ram_end m2) ;
  let cpu := cpu3 in
  do! s4 <- run Debug cpu 4%nat ;
  let state5 := ss_unwrap s4 in
  let state := state5 in
  do! r6 <- am_read Debug (amap state) 512 ;
  Ok ((0, 0, ((ps_negative (reg_ps state)), (ps_zero (reg_ps state)))),
      ((reg_acc state), r6, (false, true)))).
Proof. vm_compute. reflexivity. Qed.

(** src/cpu/mos6502/tests/mod.rs:1694-1704 *)
Example run_should_cycle_on_lda_absolute_indexed_with_x_operation : passes (
  do! cpu1 <- test_cpu [189; 0; 0] ;
  let cpu := (with_gp_register cpu1 GpX 5) in
  do! cpu <- poke cpu 5 255 ;
  do! s2 <- run Debug cpu 4%nat ;
  let state3 := ss_unwrap s2 in
  let state := state3 in
  Ok ((24579, 255, ((ps_negative (reg_ps state)), (ps_zero (reg_ps state)))),
      ((reg_pc state), (reg_acc state), (true, false)))).
Proof. vm_compute. reflexivity. Qed.

(** src/cpu/mos6502/tests/mod.rs:1706-1716 *)
Example run_should_cycle_on_lda_absolute_indexed_with_y_operation : passes (
  do! cpu1 <- test_cpu [185; 0; 0] ;
  let cpu := (with_gp_register cpu1 GpY 5) in
  do! cpu <- poke cpu 5 255 ;
  do! s2 <- run Debug cpu 4%nat ;
  let state3 := ss_unwrap s2 in
  let state := state3 in
  Ok ((24579, 255, ((ps_negative (reg_ps state)), (ps_zero (reg_ps state)))),
      ((reg_pc state), (reg_acc state), (true, false)))).
Proof. vm_compute. reflexivity. Qed.

(** src/cpu/mos6502/tests/mod.rs:1718-1730 *)
Example run_should_cycle_on_lda_indirect_y_indexed_operation : passes (
  do! cpu1 <- test_cpu [177; 0] ;
  let cpu := (with_gp_register cpu1 GpY 5) in
  do! cpu <- poke cpu 0 250 ;
  do! cpu <- poke cpu 1 0 ;
  do! cpu <- poke cpu 255 234 ;
  do! s2 <- run Debug cpu 6%nat ;
  let state3 := ss_unwrap s2 in
  let state := state3 in
  Ok ((24578, 234, ((ps_negative (reg_ps state)), (ps_zero (reg_ps state)))),
      ((reg_pc state), (reg_acc state), (true, false)))).
Proof. vm_compute. reflexivity. Qed.

(** src/cpu/mos6502/tests/mod.rs:1732-1744 *)
Example run_should_cycle_on_lda_x_indexed_indirect_operation : passes (
  do! cpu1 <- test_cpu [161; 5] ;
  let cpu := (with_gp_register cpu1 GpX 0) in
  do! cpu <- poke cpu 5 255 ;
  do! cpu <- poke cpu 6 0 ;
  do! cpu <- poke cpu 255 234 ;
  do! s2 <- run Debug cpu 6%nat ;
  let state3 := ss_unwrap s2 in
  let state := state3 in
  Ok ((24578, 234, ((ps_negative (reg_ps state)), (ps_zero (reg_ps state)))),
      ((reg_pc state), (reg_acc state), (true, false)))).
Proof. vm_compute. reflexivity. Qed.

(** src/cpu/mos6502/tests/mod.rs:1746-1760 *)
Example run_should_cycle_on_ldx_absolute_operation : passes (
  let ram_start := 512 in
  let ram_end := 24575 in
  do! cpu1 <- test_cpu [174; 0; 2] ;
  do! m2 <- memory_new Debug ReadWrite ram_start ram_end ;
  do! cpu3 <- or_panic (register_address_space (with_gp_register cpu1 GpX 255) ram_start ram_end m2) ;
  let cpu := cpu3 in
  do! s4 <- run Debug cpu 4%nat ;
  let state5 := ss_unwrap s4 in
  let state := state5 in
  do! r6 <- am_read Debug (amap state) 512 ;
  Ok ((0, 0, ((ps_negative (reg_ps state)), (ps_zero (reg_ps state)))),
      ((reg_x state), r6, (false, true)))).
Proof. vm_compute. reflexivity. Qed.

(** src/cpu/mos6502/tests/mod.rs:1762-1772 *)
Example run_should_cycle_on_ldx_absolute_indexed_with_y_operation : passes (
  do! cpu1 <- test_cpu [190; 0; 0] ;
  let cpu := (with_gp_register cpu1 GpY 5) in
  do! cpu <- poke cpu 5 255 ;
  do! s2 <- run Debug cpu 4%nat ;
  let state3 := ss_unwrap s2 in
  let state := state3 in
  Ok ((24579, 255, ((ps_negative (reg_ps state)), (ps_zero (reg_ps state)))),
      ((reg_pc state), (reg_x state), (true, false)))).
Proof. vm_compute. reflexivity. Qed.

(** src/cpu/mos6502/tests/mod.rs:1774-1782 *)
Example run_should_cycle_on_ldx_immediate_operation : passes (
  do! cpu1 <- test_cpu [162; 255] ;
  let cpu := cpu1 in
  do! s2 <- run Debug cpu 2%nat ;
  let state3 := ss_unwrap s2 in
  let state := state3 in
  Ok ((24578, 255, ((ps_negative (reg_ps state)), (ps_zero (reg_ps state)))),
      ((reg_pc state), (reg_x state), (true, false)))).
Proof. vm_compute. reflexivity. Qed.

(** src/cpu/mos6502/tests/mod.rs:1784-1792 *)
Example run_should_cycle_on_ldx_zeropage_operation : passes (
  do! cpu1 <- test_cpu [166; 255] ;
  let cpu := cpu1 in
  do! s2 <- run Debug cpu 3%nat ;
  let state3 := ss_unwrap s2 in
  let state := state3 in
  Ok ((24578, 0, ((ps_negative (reg_ps state)), (ps_zero (reg_ps state)))),
      ((reg_pc state), (reg_x state), (false, true)))).
Proof. vm_compute. reflexivity. Qed.

(** src/cpu/mos6502/tests/mod.rs:1794-1804 *)
Example run_should_cycle_on_ldx_zeropage_indexed_with_y_operation : passes (
  do! cpu1 <- test_cpu [182; 0] ;
  let cpu := (with_gp_register cpu1 GpY 5) in
  do! cpu <- poke cpu 5 255 ;
  do! s2 <- run Debug cpu 4%nat ;
  let state3 := ss_unwrap s2 in
  let state := state3 in
  Ok ((24578, 255, ((ps_negative (reg_ps state)), (ps_zero (reg_ps state)))),
      ((reg_pc state), (reg_x state), (true, false)))).
Proof. vm_compute. reflexivity. Qed.

(** src/cpu/mos6502/tests/mod.rs:1806-1820 *)
Example run_should_cycle_on_ldy_absolute_operation : passes (
  let ram_start := 512 in
  let ram_end := 24575 in
  do! cpu1 <- test_cpu [172; 0; 2] ;
  do! m2 <- memory_new Debug ReadWrite ram_start ram_end ;
  do! cpu3 <- or_panic (register_address_space (with_gp_register cpu1 GpY 255) ram_start ram_end m2) ;
  let cpu := cpu3 in
  do! s4 <- run Debug cpu 4%nat ;
  let state5 := ss_unwrap s4 in
  let state := state5 in
  do! r6 <- am_read Debug (amap state) 512 ;
  Ok ((0, 0, ((ps_negative (reg_ps state)), (ps_zero (reg_ps state)))),
      ((reg_x state), r6, (false, true)))).
Proof. vm_compute. reflexivity. Qed.

(** src/cpu/mos6502/tests/mod.rs:1822-1832 *)
Example run_should_cycle_on_ldy_absolute_indexed_with_x_operation : passes (
  do! cpu1 <- test_cpu [188; 0; 0] ;
  let cpu := (with_gp_register cpu1 GpX 5) in
  do! cpu <- poke cpu 5 255 ;
  do! s2 <- run Debug cpu 4%nat ;
  let state3 := ss_unwrap s2 in
  let state := state3 in
  Ok ((24579, 255, ((ps_negative (reg_ps state)), (ps_zero (reg_ps state)))),
      ((reg_pc state), (reg_y state), (true, false)))).
Proof. vm_compute. reflexivity. Qed.

(** src/cpu/mos6502/tests/mod.rs:1834-1842 *)
Example run_should_cycle_on_ldy_immediate_operation : passes (
  do! cpu1 <- test_cpu [160; 255] ;
  let cpu := cpu1 in
  do! s2 <- run Debug cpu 2%nat ;
  let state3 := ss_unwrap s2 in
  let state := state3 in
  Ok ((24578, 255, ((ps_negative (reg_ps state)), (ps_zero (reg_ps state)))),
      ((reg_pc state), (reg_y state), (true, false)))).
Proof. vm_compute. reflexivity. Qed.

(** src/cpu/mos6502/tests/mod.rs:1844-1852 *)
Example run_should_cycle_on_ldy_zeropage_operation : passes (
  do! cpu1 <- test_cpu [164; 255] ;
  let cpu := cpu1 in
  do! s2 <- run Debug cpu 3%nat ;
  let state3 := ss_unwrap s2 in
  let state := state3 in
  Ok ((24578, 0, ((ps_negative (reg_ps state)), (ps_zero (reg_ps state)))),
      ((reg_pc state), (reg_y state), (false, true)))).
Proof. vm_compute. reflexivity. Qed.

(** src/cpu/mos6502/tests/mod.rs:1854-1864 *)
Example run_should_cycle_on_ldy_zeropage_indexed_with_x_operation : passes (
  do! cpu1 <- test_cpu [180; 0] ;
  let cpu := (with_gp_register cpu1 GpX 5) in
  do! cpu <- poke cpu 5 255 ;
  do! s2 <- run Debug cpu 4%nat ;
  let state3 := ss_unwrap s2 in
  let state := state3 in
  Ok ((24578, 255, ((ps_negative (reg_ps state)), (ps_zero (reg_ps state)))),
      ((reg_pc state), (reg_y state), (true, false)))).
Proof. vm_compute. reflexivity. Qed.

(** src/cpu/mos6502/tests/mod.rs:1866-1878 *)
Example run_should_cycle_on_lsr_absolute_operation : passes (
  do! cpu1 <- test_cpu [78; 255; 0] ;
  let cpu := cpu1 in
  do! cpu <- poke cpu 255 85 ;
  do! s2 <- run Debug cpu 6%nat ;
  let state3 := ss_unwrap s2 in
  let state := state3 in
  do! r4 <- am_read Debug (amap state) 255 ;
  Ok ((24579, 42, ((ps_carry (reg_ps state)), (ps_negative (reg_ps state)), (ps_zero (reg_ps state)))),
      ((reg_pc state), r4, (true, false, false)))).
Proof. vm_compute. reflexivity. Qed.

(** src/cpu/mos6502/tests/mod.rs:1880-1893 *)
Example run_should_cycle_on_lsr_absolute_indexed_with_x_operation : passes (
  do! cpu1 <- test_cpu [94; 250; 0] ;
  let cpu := (with_gp_register cpu1 GpX 5) in
  do! cpu <- poke cpu 255 85 ;
  do! s2 <- run Debug cpu 7%nat ;
  let state3 := ss_unwrap s2 in
  let state := state3 in
  do! r4 <- am_read Debug (amap state) 255 ;
  Ok ((24579, 42, ((ps_carry (reg_ps state)), (ps_negative (reg_ps state)), (ps_zero (reg_ps state)))),
      ((reg_pc state), r4, (true, false, false)))).
Proof. vm_compute. reflexivity. Qed.

(** src/cpu/mos6502/tests/mod.rs:1895-1907 *)
Example run_should_cycle_on_lsr_accumulator_operation : passes (
  do! cpu1 <- test_cpu [74] ;
  let cpu := (with_gp_register cpu1 GpAcc 85) in
  do! s2 <- run Debug cpu 2%nat ;
  let state3 := ss_unwrap s2 in
  let state := state3 in
  Ok ((24577, 42, ((ps_carry (reg_ps state)), (ps_negative (reg_ps state)), (ps_zero (reg_ps state)))),
      ((reg_pc state), (reg_acc state), (true, false, false)))).
Proof. vm_compute. reflexivity. Qed.

(** src/cpu/mos6502/tests/mod.rs:1909-1921 *)
Example run_should_cycle_on_lsr_zeropage_operation : passes (
  do! cpu1 <- test_cpu [70; 255] ;
  let cpu := cpu1 in
  do! cpu <- poke cpu 255 85 ;
  do! s2 <- run Debug cpu 5%nat ;
  let state3 := ss_unwrap s2 in
  let state := state3 in
  do! r4 <- am_read Debug (amap state) 255 ;
  Ok ((24578, 42, ((ps_carry (reg_ps state)), (ps_negative (reg_ps state)), (ps_zero (reg_ps state)))),
      ((reg_pc state), r4, (true, false, false)))).
Proof. vm_compute. reflexivity. Qed.

(** src/cpu/mos6502/tests/mod.rs:1923-1936 *)
Example run_should_cycle_on_lsr_zeropage_indexed_with_x_operation : passes (
  do! cpu1 <- test_cpu [86; 250] ;
  let cpu := (with_gp_register cpu1 GpX 5) in
  do! cpu <- poke cpu 255 85 ;
  do! s2 <- run Debug cpu 6%nat ;
  let state3 := ss_unwrap s2 in
  let state := state3 in
  do! r4 <- am_read Debug (amap state) 255 ;
  Ok ((24578, 42, ((ps_carry (reg_ps state)), (ps_negative (reg_ps state)), (ps_zero (reg_ps state)))),
      ((reg_pc state), r4, (true, false, false)))).
Proof. vm_compute. reflexivity. Qed.

(** src/cpu/mos6502/tests/mod.rs:1938-1947 *)
Example run_should_cycle_on_nop_implied_operation : passes (
  do! cpu1 <- test_cpu [] ;
  let cpu := cpu1 in
  do! s2 <- run Debug cpu 3%nat ;
  let state3 := ss_unwrap s2 in
  let state := state3 in
  do! s4 <- run Debug state 2%nat ;
  let state5 := ss_unwrap s4 in
  let next_state := state5 in
  Ok ((24577, 24578),
      ((reg_pc state), (reg_pc next_state)))).
Proof. vm_compute. reflexivity. Qed.

(** src/cpu/mos6502/tests/mod.rs:1949-1959 *)
Example run_should_cycle_on_ora_absolute_operation : passes (
  do! cpu1 <- test_cpu [13; 255; 0] ;
  let cpu := (with_gp_register cpu1 GpAcc 255) in
  do! cpu <- poke cpu 255 85 ;
  do! s2 <- run Debug cpu 4%nat ;
  let state3 := ss_unwrap s2 in
  let state := state3 in
  Ok ((24579, 255, ((ps_negative (reg_ps state)), (ps_zero (reg_ps state)))),
      ((reg_pc state), (reg_acc state), (true, false)))).
Proof. vm_compute. reflexivity. Qed.

(** src/cpu/mos6502/tests/mod.rs:1961-1972 *)
Example run_should_cycle_on_ora_absolute_indexed_with_x_operation : passes (
  do! cpu1 <- test_cpu [29; 250; 0] ;
  let cpu := (with_gp_register (with_gp_register cpu1 GpX 5) GpAcc 255) in
  do! cpu <- poke cpu 255 85 ;
  do! s2 <- run Debug cpu 4%nat ;
  let state3 := ss_unwrap s2 in
  let state := state3 in
  Ok ((24579, 255, ((ps_negative (reg_ps state)), (ps_zero (reg_ps state)))),
      ((reg_pc state), (reg_acc state), (true, false)))).
Proof. vm_compute. reflexivity. Qed.

(** src/cpu/mos6502/tests/mod.rs:1974-1985 *)
Example run_should_cycle_on_ora_absolute_indexed_with_y_operation : passes (
  do! cpu1 <- test_cpu [25; 250; 0] ;
  let cpu := (with_gp_register (with_gp_register cpu1 GpY 5) GpAcc 255) in
  do! cpu <- poke cpu 255 85 ;
  do! s2 <- run Debug cpu 4%nat ;
  let state3 := ss_unwrap s2 in
  let state := state3 in
  Ok ((24579, 255, ((ps_negative (reg_ps state)), (ps_zero (reg_ps state)))),
      ((reg_pc state), (reg_acc state), (true, false)))).
Proof. vm_compute. reflexivity. Qed.

(** src/cpu/mos6502/tests/mod.rs:1987-2000 *)
Example run_should_cycle_on_ora_indirect_y_indexed_operation : passes (
  do! cpu1 <- test_cpu [17; 0] ;
  let cpu := (with_gp_register (with_gp_register cpu1 GpAcc 255) GpY 5) in
  do! cpu <- poke cpu 0 250 ;
  do! cpu <- poke cpu 1 0 ;
  do! cpu <- poke cpu 255 85 ;
  do! s2 <- run Debug cpu 5%nat ;
  let state3 := ss_unwrap s2 in
  let state := state3 in
  Ok ((24578, 255, ((ps_negative (reg_ps state)), (ps_zero (reg_ps state)))),
      ((reg_pc state), (reg_acc state), (true, false)))).
Proof. vm_compute. reflexivity. Qed.

(** src/cpu/mos6502/tests/mod.rs:2002-2011 *)
Example run_should_cycle_on_ora_immediate_operation : passes (
  do! cpu1 <- test_cpu [9; 85] ;
  let cpu := (with_gp_register cpu1 GpAcc 255) in
  do! s2 <- run Debug cpu 2%nat ;
  let state3 := ss_unwrap s2 in
  let state := state3 in
  Ok ((24578, 255, ((ps_negative (reg_ps state)), (ps_zero (reg_ps state)))),
      ((reg_pc state), (reg_acc state), (true, false)))).
Proof. vm_compute. reflexivity. Qed.

(** src/cpu/mos6502/tests/mod.rs:2013-2026 *)
Example run_should_cycle_on_ora_x_indexed_indirect_operation : passes (
  do! cpu1 <- test_cpu [1; 0] ;
  let cpu := (with_gp_register (with_gp_register cpu1 GpAcc 255) GpX 5) in
  do! cpu <- poke cpu 5 255 ;
  do! cpu <- poke cpu 6 0 ;
  do! cpu <- poke cpu 255 85 ;
  do! s2 <- run Debug cpu 6%nat ;
  let state3 := ss_unwrap s2 in
  let state := state3 in
  Ok ((24578, 255, ((ps_negative (reg_ps state)), (ps_zero (reg_ps state)))),
      ((reg_pc state), (reg_acc state), (true, false)))).
Proof. vm_compute. reflexivity. Qed.

(** src/cpu/mos6502/tests/mod.rs:2028-2038 *)
Example run_should_cycle_on_ora_zeropage_operation : passes (
  do! cpu1 <- test_cpu [5; 255] ;
  let cpu := (with_gp_register cpu1 GpAcc 255) in
  do! cpu <- poke cpu 255 85 ;
  do! s2 <- run Debug cpu 3%nat ;
  let state3 := ss_unwrap s2 in
  let state := state3 in
  Ok ((24578, 255, ((ps_negative (reg_ps state)), (ps_zero (reg_ps state)))),
      ((reg_pc state), (reg_acc state), (true, false)))).
Proof. vm_compute. reflexivity. Qed.

(** src/cpu/mos6502/tests/mod.rs:2040-2051 *)
Example run_should_cycle_on_ora_zeropage_indexed_with_x_operation : passes (
  do! cpu1 <- test_cpu [21; 250] ;
  let cpu := (with_gp_register (with_gp_register cpu1 GpAcc 255) GpX 5) in
  do! cpu <- poke cpu 255 85 ;
  do! s2 <- run Debug cpu 4%nat ;
  let state3 := ss_unwrap s2 in
  let state := state3 in
  Ok ((24578, 255, ((ps_negative (reg_ps state)), (ps_zero (reg_ps state)))),
      ((reg_pc state), (reg_acc state), (true, false)))).
Proof. vm_compute. reflexivity. Qed.

(** src/cpu/mos6502/tests/mod.rs:2053-2061 *)
Example run_should_cycle_on_pha_implied_operation : passes (
  do! cpu1 <- test_cpu [72] ;
  let cpu := (with_gp_register cpu1 GpAcc 255) in
  do! s2 <- run Debug cpu 3%nat ;
  let state3 := ss_unwrap s2 in
  let state := state3 in
  do! r4 <- am_read Debug (amap state) 511 ;
  Ok ((24577, 255),
      ((reg_pc state), r4))).
Proof. vm_compute. reflexivity. Qed.

(** src/cpu/mos6502/tests/mod.rs:2063-2071 *)
Example run_should_cycle_on_php_implied_operation : passes (
  do! cpu1 <- test_cpu [8] ;
  let cpu := (with_ps_register cpu1 (ps_with_value 85)) in
  do! s2 <- run Debug cpu 3%nat ;
  let state3 := ss_unwrap s2 in
  let state := state3 in
  do! r4 <- am_read Debug (amap state) 511 ;
  Ok ((24577, 85),
      ((reg_pc state), r4))).
Proof. vm_compute. reflexivity. Qed.

(** src/cpu/mos6502/tests/mod.rs:2073-2084 *)
Example run_should_cycle_on_pla_implied_operation : passes (
  do! cpu1 <- test_cpu [104] ;
  let cpu := (with_sp_register cpu1 254) in
  do! cpu <- poke cpu 511 255 ;
  do! s2 <- run Debug cpu 4%nat ;
  let state3 := ss_unwrap s2 in
  let state := state3 in
  Ok ((24577, 255, (true, false)),
      ((reg_pc state), (reg_acc state), ((ps_negative (reg_ps state)), (ps_zero (reg_ps state)))))).
Proof. vm_compute. reflexivity. Qed.

(** src/cpu/mos6502/tests/mod.rs:2086-2096 *)
Example run_should_cycle_on_plp_implied_operation : passes (
  do! cpu1 <- test_cpu [40] ;
  let cpu := (with_sp_register cpu1 254) in
  do! cpu <- poke cpu 511 85 ;
  do! s2 <- run Debug cpu 4%nat ;
  let state3 := ss_unwrap s2 in
  let state := state3 in
  Ok ((24577, 85),
      ((reg_pc state), (ps_read (reg_ps state))))).
Proof. vm_compute. reflexivity. Qed.

(** src/cpu/mos6502/tests/mod.rs:2098-2114 *)
Example run_should_cycle_on_rol_absolute_operation : passes (
  do! cpu1 <- test_cpu [46; 255; 0] ;
  let ps := ps_default in
  let ps := mkPs true (ps_zero ps) (ps_interrupt_disable ps) (ps_decimal ps) (ps_brk ps) (ps_unused ps) (ps_overflow ps) (ps_negative ps) in
  let cpu := (with_ps_register cpu1 ps) in
  do! cpu <- poke cpu 255 170 ;
  do! s2 <- run Debug cpu 6%nat ;
  let state3 := ss_unwrap s2 in
  let state := state3 in
  do! r4 <- am_read Debug (amap state) 255 ;
  Ok ((24579, 85, ((ps_carry (reg_ps state)), (ps_negative (reg_ps state)), (ps_zero (reg_ps state)))),
      ((reg_pc state), r4, (true, false, false)))).
Proof. vm_compute. reflexivity. Qed.

(** src/cpu/mos6502/tests/mod.rs:2116-2134 *)
Example run_should_cycle_on_rol_absolute_indexed_with_x_operation : passes (
  do! cpu1 <- test_cpu [62; 250; 0] ;
  let ps := ps_default in
  let ps := mkPs true (ps_zero ps) (ps_interrupt_disable ps) (ps_decimal ps) (ps_brk ps) (ps_unused ps) (ps_overflow ps) (ps_negative ps) in
  let cpu := (with_ps_register (with_gp_register cpu1 GpX 5) ps) in
  do! cpu <- poke cpu 255 170 ;
  do! s2 <- run Debug cpu 7%nat ;
  let state3 := ss_unwrap s2 in
  let state := state3 in
  do! r4 <- am_read Debug (amap state) 255 ;
  Ok ((24579, 85, ((ps_carry (reg_ps state)), (ps_negative (reg_ps state)), (ps_zero (reg_ps state)))),
      ((reg_pc state), r4, (true, false, false)))).
Proof. vm_compute. reflexivity. Qed.

(** src/cpu/mos6502/tests/mod.rs:2136-2153 *)
Example run_should_cycle_on_rol_accumulator_operation : passes (
  do! cpu1 <- test_cpu [42] ;
  let ps := ps_default in
  let ps := mkPs true (ps_zero ps) (ps_interrupt_disable ps) (ps_decimal ps) (ps_brk ps) (ps_unused ps) (ps_overflow ps) (ps_negative ps) in
  let cpu := (with_ps_register (with_gp_register cpu1 GpAcc 170) ps) in
  do! s2 <- run Debug cpu 2%nat ;
  let state3 := ss_unwrap s2 in
  let state := state3 in
  Ok ((24577, 85, ((ps_carry (reg_ps state)), (ps_negative (reg_ps state)), (ps_zero (reg_ps state)))),
      ((reg_pc state), (reg_acc state), (true, false, false)))).
Proof. vm_compute. reflexivity. Qed.

(** src/cpu/mos6502/tests/mod.rs:2155-2171 *)
Example run_should_cycle_on_rol_zeropage_operation : passes (
  do! cpu1 <- test_cpu [38; 255] ;
  let ps := ps_default in
  let ps := mkPs true (ps_zero ps) (ps_interrupt_disable ps) (ps_decimal ps) (ps_brk ps) (ps_unused ps) (ps_overflow ps) (ps_negative ps) in
  let cpu := (with_ps_register cpu1 ps) in
  do! cpu <- poke cpu 255 170 ;
  do! s2 <- run Debug cpu 5%nat ;
  let state3 := ss_unwrap s2 in
  let state := state3 in
  do! r4 <- am_read Debug (amap state) 255 ;
  Ok ((24578, 85, ((ps_carry (reg_ps state)), (ps_negative (reg_ps state)), (ps_zero (reg_ps state)))),
      ((reg_pc state), r4, (true, false, false)))).
Proof. vm_compute. reflexivity. Qed.

(** src/cpu/mos6502/tests/mod.rs:2173-2191 *)
Example run_should_cycle_on_rol_zeropage_indexed_with_x_operation : passes (
  do! cpu1 <- test_cpu [54; 250] ;
  let ps := ps_default in
  let ps := mkPs true (ps_zero ps) (ps_interrupt_disable ps) (ps_decimal ps) (ps_brk ps) (ps_unused ps) (ps_overflow ps) (ps_negative ps) in
  let cpu := (with_ps_register (with_gp_register cpu1 GpX 5) ps) in
  do! cpu <- poke cpu 255 170 ;
  do! s2 <- run Debug cpu 6%nat ;
  let state3 := ss_unwrap s2 in
  let state := state3 in
  do! r4 <- am_read Debug (amap state) 255 ;
  Ok ((24578, 85, ((ps_carry (reg_ps state)), (ps_negative (reg_ps state)), (ps_zero (reg_ps state)))),
      ((reg_pc state), r4, (true, false, false)))).
Proof. vm_compute. reflexivity. Qed.

(** src/cpu/mos6502/tests/mod.rs:2193-2209 *)
Example run_should_cycle_on_ror_absolute_operation : passes (
  do! cpu1 <- test_cpu [110; 255; 0] ;
  let ps := ps_default in
  let ps := mkPs true (ps_zero ps) (ps_interrupt_disable ps) (ps_decimal ps) (ps_brk ps) (ps_unused ps) (ps_overflow ps) (ps_negative ps) in
  let cpu := (with_ps_register cpu1 ps) in
  do! cpu <- poke cpu 255 170 ;
  do! s2 <- run Debug cpu 6%nat ;
  let state3 := ss_unwrap s2 in
  let state := state3 in
  do! r4 <- am_read Debug (amap state) 255 ;
  Ok ((24579, 213, ((ps_carry (reg_ps state)), (ps_negative (reg_ps state)), (ps_zero (reg_ps state)))),
      ((reg_pc state), r4, (false, true, false)))).
Proof. vm_compute. reflexivity. Qed.

(** src/cpu/mos6502/tests/mod.rs:2211-2229 *)
Example run_should_cycle_on_ror_absolute_indexed_with_x_operation : passes (
  do! cpu1 <- test_cpu [126; 250; 0] ;
  let ps := ps_default in
  let ps := mkPs true (ps_zero ps) (ps_interrupt_disable ps) (ps_decimal ps) (ps_brk ps) (ps_unused ps) (ps_overflow ps) (ps_negative ps) in
  let cpu := (with_ps_register (with_gp_register cpu1 GpX 5) ps) in
  do! cpu <- poke cpu 255 170 ;
  do! s2 <- run Debug cpu 7%nat ;
  let state3 := ss_unwrap s2 in
  let state := state3 in
  do! r4 <- am_read Debug (amap state) 255 ;
  Ok ((24579, 213, ((ps_carry (reg_ps state)), (ps_negative (reg_ps state)), (ps_zero (reg_ps state)))),
      ((reg_pc state), r4, (false, true, false)))).
Proof. vm_compute. reflexivity. Qed.

(** src/cpu/mos6502/tests/mod.rs:2231-2248 *)
Example run_should_cycle_on_ror_accumulator_operation : passes (
  do! cpu1 <- test_cpu [106] ;
  let ps := ps_default in
  let ps := mkPs true (ps_zero ps) (ps_interrupt_disable ps) (ps_decimal ps) (ps_brk ps) (ps_unused ps) (ps_overflow ps) (ps_negative ps) in
  let cpu := (with_ps_register (with_gp_register cpu1 GpAcc 170) ps) in
  do! s2 <- run Debug cpu 2%nat ;
  let state3 := ss_unwrap s2 in
  let state := state3 in
  Ok ((24577, 213, ((ps_carry (reg_ps state)), (ps_negative (reg_ps state)), (ps_zero (reg_ps state)))),
      ((reg_pc state), (reg_acc state), (false, true, false)))).
Proof. vm_compute. reflexivity. Qed.

(** src/cpu/mos6502/tests/mod.rs:2250-2266 *)
Example run_should_cycle_on_ror_zeropage_operation : passes (
  do! cpu1 <- test_cpu [102; 255] ;
  let ps := ps_default in
  let ps := mkPs true (ps_zero ps) (ps_interrupt_disable ps) (ps_decimal ps) (ps_brk ps) (ps_unused ps) (ps_overflow ps) (ps_negative ps) in
  let cpu := (with_ps_register cpu1 ps) in
  do! cpu <- poke cpu 255 170 ;
  do! s2 <- run Debug cpu 5%nat ;
  let state3 := ss_unwrap s2 in
  let state := state3 in
  do! r4 <- am_read Debug (amap state) 255 ;
  Ok ((24578, 213, ((ps_carry (reg_ps state)), (ps_negative (reg_ps state)), (ps_zero (reg_ps state)))),
      ((reg_pc state), r4, (false, true, false)))).
Proof. vm_compute. reflexivity. Qed.

(** src/cpu/mos6502/tests/mod.rs:2268-2286 *)
Example run_should_cycle_on_ror_zeropage_indexed_with_x_operation : passes (
  do! cpu1 <- test_cpu [118; 250] ;
  let ps := ps_default in
  let ps := mkPs true (ps_zero ps) (ps_interrupt_disable ps) (ps_decimal ps) (ps_brk ps) (ps_unused ps) (ps_overflow ps) (ps_negative ps) in
  let cpu := (with_ps_register (with_gp_register cpu1 GpX 5) ps) in
  do! cpu <- poke cpu 255 170 ;
  do! s2 <- run Debug cpu 6%nat ;
  let state3 := ss_unwrap s2 in
  let state := state3 in
  do! r4 <- am_read Debug (amap state) 255 ;
  Ok ((24578, 213, ((ps_carry (reg_ps state)), (ps_negative (reg_ps state)), (ps_zero (reg_ps state)))),
      ((reg_pc state), r4, (false, true, false)))).
Proof. vm_compute. reflexivity. Qed.

(** src/cpu/mos6502/tests/mod.rs:2288-2314 *)
Example run_should_cycle_on_rti_implied_operation : passes (
  do! cpu1 <- test_cpu [64] ;
  let ps := ps_default in
  let ps := mkPs (ps_carry ps) (ps_zero ps) (ps_interrupt_disable ps) (ps_decimal ps) true (ps_unused ps) (ps_overflow ps) (ps_negative ps) in
  let ps := mkPs (ps_carry ps) (ps_zero ps) true (ps_decimal ps) (ps_brk ps) (ps_unused ps) (ps_overflow ps) (ps_negative ps) in
  let cpu := (with_ps_register (with_sp_register cpu1 252) ps) in
  do! cpu <- poke cpu 511 18 ;
  do! cpu <- poke cpu 510 52 ;
  let ps := ps_default in
  let ps := mkPs (ps_carry ps) (ps_zero ps) (ps_interrupt_disable ps) (ps_decimal ps) false (ps_unused ps) (ps_overflow ps) (ps_negative ps) in
  let ps := mkPs (ps_carry ps) (ps_zero ps) false (ps_decimal ps) (ps_brk ps) (ps_unused ps) (ps_overflow ps) (ps_negative ps) in
  do! cpu <- poke cpu 509 (ps_read ps) ;
  do! s2 <- run Debug cpu 6%nat ;
  let state3 := ss_unwrap s2 in
  let state := state3 in
  Ok ((255, 4661, (false, false)),
      ((reg_sp state), (reg_pc state), ((ps_brk (reg_ps state)), (ps_interrupt_disable (reg_ps state)))))).
Proof. vm_compute. reflexivity. Qed.

(** src/cpu/mos6502/tests/mod.rs:2316-2326 *)
Example run_should_cycle_on_rts_implied_operation : passes (
  do! cpu1 <- test_cpu [96] ;
  let cpu := (with_sp_register cpu1 253) in
  do! cpu <- poke cpu 511 96 ;
  do! cpu <- poke cpu 510 2 ;
  do! s2 <- run Debug cpu 6%nat ;
  let state3 := ss_unwrap s2 in
  let state := state3 in
  Ok ((255, 24579),
      ((reg_sp state), (reg_pc state)))).
Proof. vm_compute. reflexivity. Qed.

(** src/cpu/mos6502/tests/mod.rs:2328-2351 *)
Example run_should_cycle_on_sbc_absolute_operation_with_overflow : passes (
  do! cpu1 <- test_cpu [237; 255; 0] ;
  do! cpu2 <- mos6502_default Debug ;
  let ps := (reg_ps cpu2) in
  let ps := mkPs true (ps_zero ps) (ps_interrupt_disable ps) (ps_decimal ps) (ps_brk ps) (ps_unused ps) (ps_overflow ps) (ps_negative ps) in
  let cpu := (with_ps_register (with_gp_register cpu1 GpAcc 80) ps) in
  do! cpu <- poke cpu 255 176 ;
  do! s3 <- run Debug cpu 4%nat ;
  let state4 := ss_unwrap s3 in
  let state := state4 in
  Ok ((24579, 160, ((ps_carry (reg_ps state)), (ps_negative (reg_ps state)), (ps_overflow (reg_ps state)), (ps_zero (reg_ps state)))),
      ((reg_pc state), (reg_acc state), (false, true, true, false)))).
Proof. vm_compute. reflexivity. Qed.

(** src/cpu/mos6502/tests/mod.rs:2353-2371 *)
Example run_should_cycle_on_sbc_absolute_operation_without_overflow : passes (
  do! cpu1 <- test_cpu [237; 255; 0] ;
  let cpu := (with_gp_register cpu1 GpAcc 255) in
  do! cpu <- poke cpu 255 128 ;
  do! s2 <- run Debug cpu 4%nat ;
  let state3 := ss_unwrap s2 in
  let state := state3 in
  Ok ((24579, 126, ((ps_carry (reg_ps state)), (ps_negative (reg_ps state)), (ps_overflow (reg_ps state)), (ps_zero (reg_ps state)))),
      ((reg_pc state), (reg_acc state), (true, false, false, false)))).
Proof. vm_compute. reflexivity. Qed.

(** src/cpu/mos6502/tests/mod.rs:2373-2397 *)
Example run_should_cycle_on_sbc_absolute_indexed_with_x_operation_with_overflow : passes (
  do! cpu1 <- test_cpu [253; 250; 0] ;
  do! cpu2 <- mos6502_default Debug ;
  let ps := (reg_ps cpu2) in
  let ps := mkPs true (ps_zero ps) (ps_interrupt_disable ps) (ps_decimal ps) (ps_brk ps) (ps_unused ps) (ps_overflow ps) (ps_negative ps) in
  let cpu := (with_ps_register (with_gp_register (with_gp_register cpu1 GpAcc 80) GpX 5) ps) in
  do! cpu <- poke cpu 255 176 ;
  do! s3 <- run Debug cpu 4%nat ;
  let state4 := ss_unwrap s3 in
  let state := state4 in
  Ok ((24579, 160, ((ps_carry (reg_ps state)), (ps_negative (reg_ps state)), (ps_overflow (reg_ps state)), (ps_zero (reg_ps state)))),
      ((reg_pc state), (reg_acc state), (false, true, true, false)))).
Proof. vm_compute. reflexivity. Qed.

(** src/cpu/mos6502/tests/mod.rs:2399-2418 *)
Example run_should_cycle_on_sbc_absolute_indexed_with_x_operation_without_overflow : passes (
  do! cpu1 <- test_cpu [253; 250; 0] ;
  let cpu := (with_gp_register (with_gp_register cpu1 GpAcc 255) GpX 5) in
  do! cpu <- poke cpu 255 128 ;
  do! s2 <- run Debug cpu 4%nat ;
  let state3 := ss_unwrap s2 in
  let state := state3 in
  Ok ((24579, 126, ((ps_carry (reg_ps state)), (ps_negative (reg_ps state)), (ps_overflow (reg_ps state)), (ps_zero (reg_ps state)))),
      ((reg_pc state), (reg_acc state), (true, false, false, false)))).
Proof. vm_compute. reflexivity. Qed.

(** src/cpu/mos6502/tests/mod.rs:2420-2444 *)
Example run_should_cycle_on_sbc_absolute_indexed_with_y_operation_with_overflow : passes (
  do! cpu1 <- test_cpu [249; 250; 0] ;
  do! cpu2 <- mos6502_default Debug ;
  let ps := (reg_ps cpu2) in
  let ps := mkPs true (ps_zero ps) (ps_interrupt_disable ps) (ps_decimal ps) (ps_brk ps) (ps_unused ps) (ps_overflow ps) (ps_negative ps) in
  let cpu := (with_ps_register (with_gp_register (with_gp_register cpu1 GpAcc 80) GpY 5) ps) in
  do! cpu <- poke cpu 255 176 ;
  do! s3 <- run Debug cpu 4%nat ;
  let state4 := ss_unwrap s3 in
  let state := state4 in
  Ok ((24579, 160, ((ps_carry (reg_ps state)), (ps_negative (reg_ps state)), (ps_overflow (reg_ps state)), (ps_zero (reg_ps state)))),
      ((reg_pc state), (reg_acc state), (false, true, true, false)))).
Proof. vm_compute. reflexivity. Qed.

(** src/cpu/mos6502/tests/mod.rs:2446-2465 *)
Example run_should_cycle_on_sbc_absolute_indexed_with_y_operation_without_overflow : passes (
  do! cpu1 <- test_cpu [249; 250; 0] ;
  let cpu := (with_gp_register (with_gp_register cpu1 GpAcc 255) GpY 5) in
  do! cpu <- poke cpu 255 128 ;
  do! s2 <- run Debug cpu 4%nat ;
  let state3 := ss_unwrap s2 in
  let state := state3 in
  Ok ((24579, 126, ((ps_carry (reg_ps state)), (ps_negative (reg_ps state)), (ps_overflow (reg_ps state)), (ps_zero (reg_ps state)))),
      ((reg_pc state), (reg_acc state), (true, false, false, false)))).
Proof. vm_compute. reflexivity. Qed.

(** src/cpu/mos6502/tests/mod.rs:2467-2493 *)
Example run_should_cycle_on_sbc_indirect_y_indexed_operation_with_overflow : passes (
  do! cpu1 <- test_cpu [241; 0] ;
  do! cpu2 <- mos6502_default Debug ;
  let ps := (reg_ps cpu2) in
  let ps := mkPs true (ps_zero ps) (ps_interrupt_disable ps) (ps_decimal ps) (ps_brk ps) (ps_unused ps) (ps_overflow ps) (ps_negative ps) in
  let cpu := (with_ps_register (with_gp_register (with_gp_register cpu1 GpAcc 80) GpY 5) ps) in
  do! cpu <- poke cpu 0 250 ;
  do! cpu <- poke cpu 1 0 ;
  do! cpu <- poke cpu 255 176 ;
  do! s3 <- run Debug cpu 5%nat ;
  let state4 := ss_unwrap s3 in
  let state := state4 in
  Ok ((24578, 160, ((ps_carry (reg_ps state)), (ps_negative (reg_ps state)), (ps_overflow (reg_ps state)), (ps_zero (reg_ps state)))),
      ((reg_pc state), (reg_acc state), (false, true, true, false)))).
Proof. vm_compute. reflexivity. Qed.

(** src/cpu/mos6502/tests/mod.rs:2495-2516 *)
Example run_should_cycle_on_sbc_indirect_y_indexed_operation_without_overflow : passes (
  do! cpu1 <- test_cpu [241; 0] ;
  let cpu := (with_gp_register (with_gp_register cpu1 GpAcc 255) GpY 5) in
  do! cpu <- poke cpu 0 250 ;
  do! cpu <- poke cpu 1 0 ;
  do! cpu <- poke cpu 255 128 ;
  do! s2 <- run Debug cpu 5%nat ;
  let state3 := ss_unwrap s2 in
  let state := state3 in
  Ok ((24578, 126, ((ps_carry (reg_ps state)), (ps_negative (reg_ps state)), (ps_overflow (reg_ps state)), (ps_zero (reg_ps state)))),
      ((reg_pc state), (reg_acc state), (true, false, false, false)))).
Proof. vm_compute. reflexivity. Qed.

(** src/cpu/mos6502/tests/mod.rs:2518-2545 *)
Example run_should_cycle_on_sbc_immediate_operation_with_overflow : passes (
  do! cpu1 <- test_cpu [233; 176] ;
  do! cpu2 <- mos6502_default Debug ;
  let ps := (reg_ps cpu2) in
  let ps := mkPs true (ps_zero ps) (ps_interrupt_disable ps) (ps_decimal ps) (ps_brk ps) (ps_unused ps) (ps_overflow ps) (ps_negative ps) in
  let cpu := (with_ps_register (with_gp_register cpu1 GpAcc 80) ps) in
  let ps := (reg_ps cpu) in
  let ps := mkPs true (ps_zero ps) (ps_interrupt_disable ps) (ps_decimal ps) (ps_brk ps) (ps_unused ps) (ps_overflow ps) (ps_negative ps) in
  let cpu := with_ps_register cpu ps in
  do! s3 <- run Debug cpu 2%nat ;
  let state4 := ss_unwrap s3 in
  let state := state4 in
  Ok ((24578, 160, ((ps_carry (reg_ps state)), (ps_negative (reg_ps state)), (ps_overflow (reg_ps state)), (ps_zero (reg_ps state)))),
      ((reg_pc state), (reg_acc state), (false, true, true, false)))).
Proof. vm_compute. reflexivity. Qed.

(** src/cpu/mos6502/tests/mod.rs:2547-2564 *)
Example run_should_cycle_on_sbc_immediate_operation_without_overflow : passes (
  do! cpu1 <- test_cpu [233; 128] ;
  let cpu := (with_gp_register cpu1 GpAcc 255) in
  do! s2 <- run Debug cpu 2%nat ;
  let state3 := ss_unwrap s2 in
  let state := state3 in
  Ok ((24578, 126, ((ps_carry (reg_ps state)), (ps_negative (reg_ps state)), (ps_overflow (reg_ps state)), (ps_zero (reg_ps state)))),
      ((reg_pc state), (reg_acc state), (true, false, false, false)))).
Proof. vm_compute. reflexivity. Qed.

(** src/cpu/mos6502/tests/mod.rs:2566-2592 *)
Example run_should_cycle_on_sbc_x_indexed_indirect_operation_with_overflow : passes (
  do! cpu1 <- test_cpu [225; 0] ;
  do! cpu2 <- mos6502_default Debug ;
  let ps := (reg_ps cpu2) in
  let ps := mkPs true (ps_zero ps) (ps_interrupt_disable ps) (ps_decimal ps) (ps_brk ps) (ps_unused ps) (ps_overflow ps) (ps_negative ps) in
  let cpu := (with_ps_register (with_gp_register (with_gp_register cpu1 GpAcc 80) GpX 5) ps) in
  do! cpu <- poke cpu 5 255 ;
  do! cpu <- poke cpu 6 0 ;
  do! cpu <- poke cpu 255 176 ;
  do! s3 <- run Debug cpu 6%nat ;
  let state4 := ss_unwrap s3 in
  let state := state4 in
  Ok ((24578, 160, ((ps_carry (reg_ps state)), (ps_negative (reg_ps state)), (ps_overflow (reg_ps state)), (ps_zero (reg_ps state)))),
      ((reg_pc state), (reg_acc state), (false, true, true, false)))).
Proof. vm_compute. reflexivity. Qed.

(** src/cpu/mos6502/tests/mod.rs:2594-2615 *)
Example run_should_cycle_on_sbc_x_indexed_indirect_operation_without_overflow : passes (
  do! cpu1 <- test_cpu [225; 0] ;
  let cpu := (with_gp_register (with_gp_register cpu1 GpAcc 255) GpX 5) in
  do! cpu <- poke cpu 5 255 ;
  do! cpu <- poke cpu 6 0 ;
  do! cpu <- poke cpu 255 128 ;
  do! s2 <- run Debug cpu 6%nat ;
  let state3 := ss_unwrap s2 in
  let state := state3 in
  Ok ((24578, 126, ((ps_carry (reg_ps state)), (ps_negative (reg_ps state)), (ps_overflow (reg_ps state)), (ps_zero (reg_ps state)))),
      ((reg_pc state), (reg_acc state), (true, false, false, false)))).
Proof. vm_compute. reflexivity. Qed.

(** src/cpu/mos6502/tests/mod.rs:2617-2640 *)
Example run_should_cycle_on_sbc_zeropage_operation_with_overflow : passes (
  do! cpu1 <- test_cpu [229; 255] ;
  do! cpu2 <- mos6502_default Debug ;
  let ps := (reg_ps cpu2) in
  let ps := mkPs true (ps_zero ps) (ps_interrupt_disable ps) (ps_decimal ps) (ps_brk ps) (ps_unused ps) (ps_overflow ps) (ps_negative ps) in
  let cpu := (with_ps_register (with_gp_register cpu1 GpAcc 80) ps) in
  do! cpu <- poke cpu 255 176 ;
  do! s3 <- run Debug cpu 3%nat ;
  let state4 := ss_unwrap s3 in
  let state := state4 in
  Ok ((24578, 160, ((ps_carry (reg_ps state)), (ps_negative (reg_ps state)), (ps_overflow (reg_ps state)), (ps_zero (reg_ps state)))),
      ((reg_pc state), (reg_acc state), (false, true, true, false)))).
Proof. vm_compute. reflexivity. Qed.

(** src/cpu/mos6502/tests/mod.rs:2642-2660 *)
Example run_should_cycle_on_sbc_zeropage_operation_without_overflow : passes (
  do! cpu1 <- test_cpu [229; 255] ;
  let cpu := (with_gp_register cpu1 GpAcc 255) in
  do! cpu <- poke cpu 255 128 ;
  do! s2 <- run Debug cpu 3%nat ;
  let state3 := ss_unwrap s2 in
  let state := state3 in
  Ok ((24578, 126, ((ps_carry (reg_ps state)), (ps_negative (reg_ps state)), (ps_overflow (reg_ps state)), (ps_zero (reg_ps state)))),
      ((reg_pc state), (reg_acc state), (true, false, false, false)))).
Proof. vm_compute. reflexivity. Qed.

(** src/cpu/mos6502/tests/mod.rs:2662-2686 *)
Example run_should_cycle_on_sbc_zeropage_indexed_with_x_operation_with_overflow : passes (
  do! cpu1 <- test_cpu [245; 250] ;
  do! cpu2 <- mos6502_default Debug ;
  let ps := (reg_ps cpu2) in
  let ps := mkPs true (ps_zero ps) (ps_interrupt_disable ps) (ps_decimal ps) (ps_brk ps) (ps_unused ps) (ps_overflow ps) (ps_negative ps) in
  let cpu := (with_ps_register (with_gp_register (with_gp_register cpu1 GpAcc 80) GpX 5) ps) in
  do! cpu <- poke cpu 255 176 ;
  do! s3 <- run Debug cpu 4%nat ;
  let state4 := ss_unwrap s3 in
  let state := state4 in
  Ok ((24578, 160, ((ps_carry (reg_ps state)), (ps_negative (reg_ps state)), (ps_overflow (reg_ps state)), (ps_zero (reg_ps state)))),
      ((reg_pc state), (reg_acc state), (false, true, true, false)))).
Proof. vm_compute. reflexivity. Qed.

(** src/cpu/mos6502/tests/mod.rs:2688-2707 *)
Example run_should_cycle_on_sbc_zeropage_indexed_with_x_operation_without_overflow : passes (
  do! cpu1 <- test_cpu [245; 250] ;
  let cpu := (with_gp_register (with_gp_register cpu1 GpAcc 255) GpX 5) in
  do! cpu <- poke cpu 255 128 ;
  do! s2 <- run Debug cpu 4%nat ;
  let state3 := ss_unwrap s2 in
  let state := state3 in
  Ok ((24578, 126, ((ps_carry (reg_ps state)), (ps_negative (reg_ps state)), (ps_overflow (reg_ps state)), (ps_zero (reg_ps state)))),
      ((reg_pc state), (reg_acc state), (true, false, false, false)))).
Proof. vm_compute. reflexivity. Qed.

(** src/cpu/mos6502/tests/mod.rs:2709-2717 *)
Example run_should_cycle_on_sec_implied_operation : passes (
  do! cpu1 <- test_cpu [56] ;
  let cpu := cpu1 in
  let cpu := with_ps_register cpu (mkPs false (ps_zero (reg_ps cpu)) (ps_interrupt_disable (reg_ps cpu)) (ps_decimal (reg_ps cpu)) (ps_brk (reg_ps cpu)) (ps_unused (reg_ps cpu)) (ps_overflow (reg_ps cpu)) (ps_negative (reg_ps cpu))) in
  do! s2 <- run Debug cpu 2%nat ;
  let state3 := ss_unwrap s2 in
  let state := state3 in
  Ok ((24577, true),
      ((reg_pc state), (ps_carry (reg_ps state))))).
Proof. vm_compute. reflexivity. Qed.

(** src/cpu/mos6502/tests/mod.rs:2719-2726 *)
Example run_should_cycle_on_sed_implied_operation : passes (
  do! cpu1 <- test_cpu [248] ;
  let cpu := cpu1 in
  do! s2 <- run Debug cpu 2%nat ;
  let state3 := ss_unwrap s2 in
  let state := state3 in
  Ok ((24577, true),
      ((reg_pc state), (ps_decimal (reg_ps state))))).
Proof. vm_compute. reflexivity. Qed.

(** src/cpu/mos6502/tests/mod.rs:2728-2735 *)
Example run_should_cycle_on_sei_implied_operation : passes (
  do! cpu1 <- test_cpu [120] ;
  let cpu := cpu1 in
  do! s2 <- run Debug cpu 2%nat ;
  let state3 := ss_unwrap s2 in
  let state := state3 in
  Ok ((24577, true),
      ((reg_pc state), (ps_interrupt_disable (reg_ps state))))).
Proof. vm_compute. reflexivity. Qed.

(** src/cpu/mos6502/tests/mod.rs:2737-2749 *)
Example run_should_cycle_on_sta_absolute_operation : passes (
  let ram_start := 512 in
  let ram_end := 24575 in
  do! cpu1 <- test_cpu [141; 0; 2] ;
  do! m2 <- memory_new Debug ReadWrite ram_start ram_end ;
  do! cpu3 <- or_panic (register_address_space (with_gp_register cpu1 GpAcc 255) ram_start ram_end m2) ;
  let cpu := cpu3 in
  do! s4 <- run Debug cpu 4%nat ;
  let state5 := ss_unwrap s4 in
  let state := state5 in
  do! r6 <- am_read Debug (amap state) 512 ;
  Ok ((24579, 255, 255),
      ((reg_pc state), (reg_acc state), r6))).
Proof. vm_compute. reflexivity. Qed.

(** src/cpu/mos6502/tests/mod.rs:2751-2764 *)
Example run_should_cycle_on_sta_absolute_indexed_with_x_operation : passes (
  let ram_start := 512 in
  let ram_end := 24575 in
  do! cpu1 <- test_cpu [157; 0; 2] ;
  do! m2 <- memory_new Debug ReadWrite ram_start ram_end ;
  do! cpu3 <- or_panic (register_address_space (with_gp_register (with_gp_register cpu1 GpX 5) GpAcc 255) ram_start ram_end m2) ;
  let cpu := cpu3 in
  do! s4 <- run Debug cpu 5%nat ;
  let state5 := ss_unwrap s4 in
  let state := state5 in
  do! r6 <- am_read Debug (amap state) 517 ;
  Ok ((24579, 255, 255),
      ((reg_pc state), (reg_acc state), r6))).
Proof. vm_compute. reflexivity. Qed.

(** src/cpu/mos6502/tests/mod.rs:2766-2779 *)
Example run_should_cycle_on_sta_absolute_indexed_with_y_operation : passes (
  let ram_start := 512 in
  let ram_end := 24575 in
  do! cpu1 <- test_cpu [153; 0; 2] ;
  do! m2 <- memory_new Debug ReadWrite ram_start ram_end ;
  do! cpu3 <- or_panic (register_address_space (with_gp_register (with_gp_register cpu1 GpY 5) GpAcc 255) ram_start ram_end m2) ;
  let cpu := cpu3 in
  do! s4 <- run Debug cpu 5%nat ;
  let state5 := ss_unwrap s4 in
  let state := state5 in
  do! r6 <- am_read Debug (amap state) 517 ;
  Ok ((24579, 255, 255),
      ((reg_pc state), (reg_acc state), r6))).
Proof. vm_compute. reflexivity. Qed.

(** src/cpu/mos6502/tests/mod.rs:2781-2793 *)
Example run_should_cycle_on_sta_y_indexed_indirect_operation : passes (
  do! cpu1 <- test_cpu [145; 0] ;
  let cpu := (with_gp_register (with_gp_register cpu1 GpY 5) GpAcc 255) in
  do! cpu <- poke cpu 0 250 ;
  do! cpu <- poke cpu 1 0 ;
  do! s2 <- run Debug cpu 6%nat ;
  let state3 := ss_unwrap s2 in
  let state := state3 in
  do! r4 <- am_read Debug (amap state) 255 ;
  Ok ((24578, 255, 255),
      ((reg_pc state), (reg_acc state), r4))).
Proof. vm_compute. reflexivity. Qed.

(** src/cpu/mos6502/tests/mod.rs:2795-2807 *)
Example run_should_cycle_on_sta_x_indexed_indirect_operation : passes (
  do! cpu1 <- test_cpu [129; 0] ;
  let cpu := (with_gp_register (with_gp_register cpu1 GpX 5) GpAcc 255) in
  do! cpu <- poke cpu 5 255 ;
  do! cpu <- poke cpu 6 0 ;
  do! s2 <- run Debug cpu 6%nat ;
  let state3 := ss_unwrap s2 in
  let state := state3 in
  do! r4 <- am_read Debug (amap state) 255 ;
  Ok ((24578, 255, 255),
      ((reg_pc state), (reg_acc state), r4))).
Proof. vm_compute. reflexivity. Qed.

(** src/cpu/mos6502/tests/mod.rs:2809-2818 *)
Example run_should_cycle_on_sta_zeropage_operation : passes (
  do! cpu1 <- test_cpu [133; 2] ;
  let cpu := (with_gp_register cpu1 GpAcc 255) in
  do! s2 <- run Debug cpu 3%nat ;
  let state3 := ss_unwrap s2 in
  let state := state3 in
  do! r4 <- am_read Debug (amap state) 2 ;
  Ok ((24578, 255, 255),
      ((reg_pc state), (reg_acc state), r4))).
Proof. vm_compute. reflexivity. Qed.

(** src/cpu/mos6502/tests/mod.rs:2820-2830 *)
Example run_should_cycle_on_sta_zeropage_with_x_index_operation : passes (
  do! cpu1 <- test_cpu [149; 0] ;
  let cpu := (with_gp_register (with_gp_register cpu1 GpAcc 255) GpX 5) in
  do! s2 <- run Debug cpu 4%nat ;
  let state3 := ss_unwrap s2 in
  let state := state3 in
  do! r4 <- am_read Debug (amap state) 5 ;
  Ok ((24578, 255, 255),
      ((reg_pc state), (reg_acc state), r4))).
Proof. vm_compute. reflexivity. Qed.

(** src/cpu/mos6502/tests/mod.rs:2832-2844 *)
Example run_should_cycle_on_stx_absolute_operation : passes (
  let ram_start := 512 in
  let ram_end := 24575 in
  do! cpu1 <- test_cpu [142; 0; 2] ;
  do! m2 <- memory_new Debug ReadWrite ram_start ram_end ;
  do! cpu3 <- or_panic (register_address_space (with_gp_register cpu1 GpX 255) ram_start ram_end m2) ;
  let cpu := cpu3 in
  do! s4 <- run Debug cpu 4%nat ;
  let state5 := ss_unwrap s4 in
  let state := state5 in
  do! r6 <- am_read Debug (amap state) 512 ;
  Ok ((24579, 255, 255),
      ((reg_pc state), (reg_x state), r6))).
Proof. vm_compute. reflexivity. Qed.

(** src/cpu/mos6502/tests/mod.rs:2846-2855 *)
Example run_should_cycle_on_stx_zeropage_operation : passes (
  do! cpu1 <- test_cpu [134; 2] ;
  let cpu := (with_gp_register cpu1 GpX 255) in
  do! s2 <- run Debug cpu 3%nat ;
  let state3 := ss_unwrap s2 in
  let state := state3 in
  do! r4 <- am_read Debug (amap state) 2 ;
  Ok ((24578, 255, 255),
      ((reg_pc state), (reg_x state), r4))).
Proof. vm_compute. reflexivity. Qed.

(** src/cpu/mos6502/tests/mod.rs:2857-2867 *)
Example run_should_cycle_on_stx_zeropage_with_y_index_operation : passes (
  do! cpu1 <- test_cpu [150; 0] ;
  let cpu := (with_gp_register (with_gp_register cpu1 GpX 255) GpY 5) in
  do! s2 <- run Debug cpu 4%nat ;
  let state3 := ss_unwrap s2 in
  let state := state3 in
  do! r4 <- am_read Debug (amap state) 5 ;
  Ok ((24578, 255, 255),
      ((reg_pc state), (reg_x state), r4))).
Proof. vm_compute. reflexivity. Qed.

(** src/cpu/mos6502/tests/mod.rs:2869-2881 *)
Example run_should_cycle_on_sty_absolute_operation : passes (
  let ram_start := 512 in
  let ram_end := 24575 in
  do! cpu1 <- test_cpu [140; 0; 2] ;
  do! m2 <- memory_new Debug ReadWrite ram_start ram_end ;
  do! cpu3 <- or_panic (register_address_space (with_gp_register cpu1 GpY 255) ram_start ram_end m2) ;
  let cpu := cpu3 in
  do! s4 <- run Debug cpu 4%nat ;
  let state5 := ss_unwrap s4 in
  let state := state5 in
  do! r6 <- am_read Debug (amap state) 512 ;
  Ok ((24579, 255, 255),
      ((reg_pc state), (reg_y state), r6))).
Proof. vm_compute. reflexivity. Qed.

(** src/cpu/mos6502/tests/mod.rs:2883-2892 *)
Example run_should_cycle_on_sty_zeropage_operation : passes (
  do! cpu1 <- test_cpu [132; 2] ;
  let cpu := (with_gp_register cpu1 GpY 255) in
  do! s2 <- run Debug cpu 3%nat ;
  let state3 := ss_unwrap s2 in
  let state := state3 in
  do! r4 <- am_read Debug (amap state) 2 ;
  Ok ((24578, 255, 255),
      ((reg_pc state), (reg_y state), r4))).
Proof. vm_compute. reflexivity. Qed.

(** src/cpu/mos6502/tests/mod.rs:2894-2904 *)
Example run_should_cycle_on_sty_zeropage_with_x_index_operation : passes (
  do! cpu1 <- test_cpu [148; 0] ;
  let cpu := (with_gp_register (with_gp_register cpu1 GpX 5) GpY 255) in
  do! s2 <- run Debug cpu 4%nat ;
  let state3 := ss_unwrap s2 in
  let state := state3 in
  do! r4 <- am_read Debug (amap state) 5 ;
  Ok ((24578, 255, 255),
      ((reg_pc state), (reg_y state), r4))).
Proof. vm_compute. reflexivity. Qed.

(** src/cpu/mos6502/tests/mod.rs:2906-2917 *)
Example run_should_cycle_on_tax_implied_operation : passes (
  do! cpu1 <- test_cpu [170] ;
  let cpu := (with_gp_register (with_gp_register cpu1 GpAcc 255) GpX 0) in
  do! s2 <- run Debug cpu 2%nat ;
  let state3 := ss_unwrap s2 in
  let state := state3 in
  Ok ((24577, 255, 255, ((ps_negative (reg_ps state)), (ps_zero (reg_ps state)))),
      ((reg_pc state), (reg_acc state), (reg_x state), (true, false)))).
Proof. vm_compute. reflexivity. Qed.

(** src/cpu/mos6502/tests/mod.rs:2919-2930 *)
Example run_should_cycle_on_tay_implied_operation : passes (
  do! cpu1 <- test_cpu [168] ;
  let cpu := (with_gp_register (with_gp_register cpu1 GpAcc 255) GpY 0) in
  do! s2 <- run Debug cpu 2%nat ;
  let state3 := ss_unwrap s2 in
  let state := state3 in
  Ok ((24577, 255, 255, ((ps_negative (reg_ps state)), (ps_zero (reg_ps state)))),
      ((reg_pc state), (reg_acc state), (reg_y state), (true, false)))).
Proof. vm_compute. reflexivity. Qed.

(** src/cpu/mos6502/tests/mod.rs:2932-2943 *)
Example run_should_cycle_on_tsx_implied_operation : passes (
  do! cpu1 <- test_cpu [186] ;
  let cpu := (with_sp_register (with_gp_register cpu1 GpX 0) 255) in
  do! s2 <- run Debug cpu 2%nat ;
  let state3 := ss_unwrap s2 in
  let state := state3 in
  Ok ((24577, 255, 255, ((ps_negative (reg_ps state)), (ps_zero (reg_ps state)))),
      ((reg_pc state), (reg_sp state), (reg_x state), (true, false)))).
Proof. vm_compute. reflexivity. Qed.

(** src/cpu/mos6502/tests/mod.rs:2945-2956 *)
Example run_should_cycle_on_txa_implied_operation : passes (
  do! cpu1 <- test_cpu [138] ;
  let cpu := (with_gp_register (with_gp_register cpu1 GpAcc 0) GpX 255) in
  do! s2 <- run Debug cpu 2%nat ;
  let state3 := ss_unwrap s2 in
  let state := state3 in
  Ok ((24577, 255, 255, ((ps_negative (reg_ps state)), (ps_zero (reg_ps state)))),
      ((reg_pc state), (reg_acc state), (reg_x state), (true, false)))).
Proof. vm_compute. reflexivity. Qed.

(** src/cpu/mos6502/tests/mod.rs:2958-2968 *)
Example run_should_cycle_on_txs_implied_operation : passes (
  do! cpu1 <- test_cpu [154] ;
  let cpu := (with_sp_register (with_gp_register cpu1 GpX 0) 255) in
  do! s2 <- run Debug cpu 2%nat ;
  let state3 := ss_unwrap s2 in
  let state := state3 in
  Ok ((24577, 0, 0),
      ((reg_pc state), (reg_sp state), (reg_x state)))).
Proof. vm_compute. reflexivity. Qed.

(** src/cpu/mos6502/tests/mod.rs:2970-2981 *)
Example run_should_cycle_on_tya_implied_operation : passes (
  do! cpu1 <- test_cpu [152] ;
  let cpu := (with_gp_register (with_gp_register cpu1 GpAcc 0) GpY 255) in
  do! s2 <- run Debug cpu 2%nat ;
  let state3 := ss_unwrap s2 in
  let state := state3 in
  Ok ((24577, 255, 255, ((ps_negative (reg_ps state)), (ps_zero (reg_ps state)))),
      ((reg_pc state), (reg_acc state), (reg_y state), (true, false)))).
Proof. vm_compute. reflexivity. Qed.

(** src/cpu/mos6502/operations/tests/code_generation.rs:21-45 *)
Example gen_should_generate_absolute_addressing_mode_adc_machine_code : passes (
  do! cpu1 <- mos6502_default Debug ;
  let cpu := (with_gp_register cpu1 GpAcc 128) in
  do! cpu <- poke cpu 255 255 ;
  let op := (AdcAbsolute 255) in
  do! mc2 <- generate Debug op cpu ;
  let mc := mc2 in
  Ok (((operations_new 3 4%nat [(SetProgramStatusFlagState Carry true); (SetProgramStatusFlagState Negative false); (SetProgramStatusFlagState Overflow true); (SetProgramStatusFlagState Zero false); (Write8bitRegister Acc 127)])),
      (mc))).
Proof. vm_compute. reflexivity. Qed.

(** src/cpu/mos6502/operations/tests/code_generation.rs:47-72 *)
Example gen_should_generate_absolute_indexed_with_x_addressing_mode_adc_machine_code : passes (
  do! cpu1 <- mos6502_default Debug ;
  let cpu := (with_gp_register (with_gp_register cpu1 GpAcc 128) GpX 5) in
  do! cpu <- poke cpu 255 255 ;
  let op := (AdcAbsoluteIndexedWithX 250) in
  do! mc2 <- generate Debug op cpu ;
  let mc := mc2 in
  Ok (((operations_new 3 4%nat [(SetProgramStatusFlagState Carry true); (SetProgramStatusFlagState Negative false); (SetProgramStatusFlagState Overflow true); (SetProgramStatusFlagState Zero false); (Write8bitRegister Acc 127)])),
      (mc))).
Proof. vm_compute. reflexivity. Qed.

(** src/cpu/mos6502/operations/tests/code_generation.rs:74-99 *)
Example gen_should_generate_absolute_indexed_with_y_addressing_mode_adc_machine_code : passes (
  do! cpu1 <- mos6502_default Debug ;
  let cpu := (with_gp_register (with_gp_register cpu1 GpAcc 128) GpY 5) in
  do! cpu <- poke cpu 255 255 ;
  let op := (AdcAbsoluteIndexedWithY 250) in
  do! mc2 <- generate Debug op cpu ;
  let mc := mc2 in
  Ok (((operations_new 3 4%nat [(SetProgramStatusFlagState Carry true); (SetProgramStatusFlagState Negative false); (SetProgramStatusFlagState Overflow true); (SetProgramStatusFlagState Zero false); (Write8bitRegister Acc 127)])),
      (mc))).
Proof. vm_compute. reflexivity. Qed.

(** src/cpu/mos6502/operations/tests/code_generation.rs:101-128 *)
Example gen_should_generate_indirect_y_indexed_addressing_mode_adc_machine_code : passes (
  do! cpu1 <- mos6502_default Debug ;
  let cpu := (with_gp_register (with_gp_register cpu1 GpAcc 128) GpY 5) in
  do! cpu <- poke cpu 0 250 ;
  do! cpu <- poke cpu 1 0 ;
  do! cpu <- poke cpu 255 255 ;
  let op := (AdcIndirectYIndexed 0) in
  do! mc2 <- generate Debug op cpu ;
  let mc := mc2 in
  Ok (((operations_new 2 5%nat [(SetProgramStatusFlagState Carry true); (SetProgramStatusFlagState Negative false); (SetProgramStatusFlagState Overflow true); (SetProgramStatusFlagState Zero false); (Write8bitRegister Acc 127)])),
      (mc))).
Proof. vm_compute. reflexivity. Qed.

(** src/cpu/mos6502/operations/tests/code_generation.rs:130-152 *)
Example gen_should_generate_immediate_addressing_mode_adc_machine_code : passes (
  do! cpu1 <- mos6502_default Debug ;
  let cpu := (with_gp_register cpu1 GpAcc 128) in
  let op := (AdcImmediate 255) in
  do! mc2 <- generate Debug op cpu ;
  let mc := mc2 in
  Ok (((operations_new 2 2%nat [(SetProgramStatusFlagState Carry true); (SetProgramStatusFlagState Negative false); (SetProgramStatusFlagState Overflow true); (SetProgramStatusFlagState Zero false); (Write8bitRegister Acc 127)])),
      (mc))).
Proof. vm_compute. reflexivity. Qed.

(** src/cpu/mos6502/operations/tests/code_generation.rs:154-181 *)
Example gen_should_generate_x_indexed_indirect_addressing_mode_adc_machine_code : passes (
  do! cpu1 <- mos6502_default Debug ;
  let cpu := (with_gp_register (with_gp_register cpu1 GpAcc 128) GpX 5) in
  do! cpu <- poke cpu 5 255 ;
  do! cpu <- poke cpu 6 0 ;
  do! cpu <- poke cpu 255 255 ;
  let op := (AdcXIndexedIndirect 0) in
  do! mc2 <- generate Debug op cpu ;
  let mc := mc2 in
  Ok (((operations_new 2 6%nat [(SetProgramStatusFlagState Carry true); (SetProgramStatusFlagState Negative false); (SetProgramStatusFlagState Overflow true); (SetProgramStatusFlagState Zero false); (Write8bitRegister Acc 127)])),
      (mc))).
Proof. vm_compute. reflexivity. Qed.

(** src/cpu/mos6502/operations/tests/code_generation.rs:183-207 *)
Example gen_should_generate_zeropage_addressing_mode_adc_machine_code : passes (
  do! cpu1 <- mos6502_default Debug ;
  let cpu := (with_gp_register cpu1 GpAcc 128) in
  do! cpu <- poke cpu 255 255 ;
  let op := (AdcZeroPage 255) in
  do! mc2 <- generate Debug op cpu ;
  let mc := mc2 in
  Ok (((operations_new 2 3%nat [(SetProgramStatusFlagState Carry true); (SetProgramStatusFlagState Negative false); (SetProgramStatusFlagState Overflow true); (SetProgramStatusFlagState Zero false); (Write8bitRegister Acc 127)])),
      (mc))).
Proof. vm_compute. reflexivity. Qed.

(** src/cpu/mos6502/operations/tests/code_generation.rs:209-234 *)
Example gen_should_generate_zeropage_indexed_with_x_addressing_mode_adc_machine_code : passes (
  do! cpu1 <- mos6502_default Debug ;
  let cpu := (with_gp_register (with_gp_register cpu1 GpAcc 128) GpX 5) in
  do! cpu <- poke cpu 255 255 ;
  let op := (AdcZeroPageIndexedWithX 250) in
  do! mc2 <- generate Debug op cpu ;
  let mc := mc2 in
  Ok (((operations_new 2 4%nat [(SetProgramStatusFlagState Carry true); (SetProgramStatusFlagState Negative false); (SetProgramStatusFlagState Overflow true); (SetProgramStatusFlagState Zero false); (Write8bitRegister Acc 127)])),
      (mc))).
Proof. vm_compute. reflexivity. Qed.

(** src/cpu/mos6502/operations/tests/code_generation.rs:238-259 *)
Example gen_should_generate_absolute_addressing_mode_and_machine_code : passes (
  do! cpu1 <- mos6502_default Debug ;
  let cpu := (with_gp_register cpu1 GpAcc 255) in
  do! cpu <- poke cpu 255 85 ;
  let op := (AndAbsolute 255) in
  do! mc2 <- generate Debug op cpu ;
  let mc := mc2 in
  Ok (((operations_new 3 4%nat [(SetProgramStatusFlagState Negative false); (SetProgramStatusFlagState Zero false); (Write8bitRegister Acc 85)])),
      (mc))).
Proof. vm_compute. reflexivity. Qed.

(** src/cpu/mos6502/operations/tests/code_generation.rs:261-283 *)
Example gen_should_generate_absolute_indexed_with_x_addressing_mode_and_machine_code : passes (
  do! cpu1 <- mos6502_default Debug ;
  let cpu := (with_gp_register (with_gp_register cpu1 GpAcc 85) GpX 5) in
  do! cpu <- poke cpu 255 85 ;
  let op := (AndAbsoluteIndexedWithX 250) in
  do! mc2 <- generate Debug op cpu ;
  let mc := mc2 in
  Ok (((operations_new 3 4%nat [(SetProgramStatusFlagState Negative false); (SetProgramStatusFlagState Zero false); (Write8bitRegister Acc 85)])),
      (mc))).
Proof. vm_compute. reflexivity. Qed.

(** src/cpu/mos6502/operations/tests/code_generation.rs:285-307 *)
Example gen_should_generate_absolute_indexed_with_y_addressing_mode_and_machine_code : passes (
  do! cpu1 <- mos6502_default Debug ;
  let cpu := (with_gp_register (with_gp_register cpu1 GpAcc 85) GpY 5) in
  do! cpu <- poke cpu 255 85 ;
  let op := (AndAbsoluteIndexedWithY 250) in
  do! mc2 <- generate Debug op cpu ;
  let mc := mc2 in
  Ok (((operations_new 3 4%nat [(SetProgramStatusFlagState Negative false); (SetProgramStatusFlagState Zero false); (Write8bitRegister Acc 85)])),
      (mc))).
Proof. vm_compute. reflexivity. Qed.

(** src/cpu/mos6502/operations/tests/code_generation.rs:309-334 *)
Example gen_should_generate_indirect_y_indexed_addressing_mode_and_machine_code : passes (
  do! cpu1 <- mos6502_default Debug ;
  let cpu := (with_gp_register (with_gp_register cpu1 GpAcc 255) GpY 5) in
  do! cpu <- poke cpu 0 250 ;
  do! cpu <- poke cpu 1 0 ;
  do! cpu <- poke cpu 255 85 ;
  let op := (AndIndirectYIndexed 0) in
  do! mc2 <- generate Debug op cpu ;
  let mc := mc2 in
  Ok (((operations_new 2 5%nat [(SetProgramStatusFlagState Negative false); (SetProgramStatusFlagState Zero false); (Write8bitRegister Acc 85)])),
      (mc))).
Proof. vm_compute. reflexivity. Qed.

(** src/cpu/mos6502/operations/tests/code_generation.rs:336-356 *)
Example gen_should_generate_immediate_addressing_mode_and_machine_code : passes (
  do! cpu1 <- mos6502_default Debug ;
  let cpu := (with_gp_register cpu1 GpAcc 255) in
  let op := (AndImmediate 85) in
  do! mc2 <- generate Debug op cpu ;
  let mc := mc2 in
  Ok (((operations_new 2 2%nat [(SetProgramStatusFlagState Negative false); (SetProgramStatusFlagState Zero false); (Write8bitRegister Acc 85)])),
      (mc))).
Proof. vm_compute. reflexivity. Qed.

(** src/cpu/mos6502/operations/tests/code_generation.rs:358-383 *)
Example gen_should_generate_x_indexed_indirect_addressing_mode_and_machine_code : passes (
  do! cpu1 <- mos6502_default Debug ;
  let cpu := (with_gp_register (with_gp_register cpu1 GpAcc 255) GpX 5) in
  do! cpu <- poke cpu 5 255 ;
  do! cpu <- poke cpu 6 0 ;
  do! cpu <- poke cpu 255 85 ;
  let op := (AndXIndexedIndirect 0) in
  do! mc2 <- generate Debug op cpu ;
  let mc := mc2 in
  Ok (((operations_new 2 6%nat [(SetProgramStatusFlagState Negative false); (SetProgramStatusFlagState Zero false); (Write8bitRegister Acc 85)])),
      (mc))).
Proof. vm_compute. reflexivity. Qed.

(** src/cpu/mos6502/operations/tests/code_generation.rs:385-406 *)
Example gen_should_generate_zeropage_addressing_mode_and_machine_code : passes (
  do! cpu1 <- mos6502_default Debug ;
  let cpu := (with_gp_register cpu1 GpAcc 255) in
  do! cpu <- poke cpu 255 85 ;
  let op := (AndZeroPage 255) in
  do! mc2 <- generate Debug op cpu ;
  let mc := mc2 in
  Ok (((operations_new 2 3%nat [(SetProgramStatusFlagState Negative false); (SetProgramStatusFlagState Zero false); (Write8bitRegister Acc 85)])),
      (mc))).
Proof. vm_compute. reflexivity. Qed.

(** src/cpu/mos6502/operations/tests/code_generation.rs:408-430 *)
Example gen_should_generate_zeropage_indexed_with_x_addressing_mode_and_machine_code : passes (
  do! cpu1 <- mos6502_default Debug ;
  let cpu := (with_gp_register (with_gp_register cpu1 GpAcc 255) GpX 5) in
  do! cpu <- poke cpu 255 85 ;
  let op := (AndZeroPageIndexedWithX 250) in
  do! mc2 <- generate Debug op cpu ;
  let mc := mc2 in
  Ok (((operations_new 2 4%nat [(SetProgramStatusFlagState Negative false); (SetProgramStatusFlagState Zero false); (Write8bitRegister Acc 85)])),
      (mc))).
Proof. vm_compute. reflexivity. Qed.

(** src/cpu/mos6502/operations/tests/code_generation.rs:434-455 *)
Example gen_should_generate_absolute_addressing_mode_asl_machine_code : passes (
  do! cpu1 <- mos6502_default Debug ;
  let cpu := cpu1 in
  do! cpu <- poke cpu 255 170 ;
  let op := (AslAbsolute 255) in
  do! mc2 <- generate Debug op cpu ;
  let mc := mc2 in
  Ok (((operations_new 3 6%nat [(SetProgramStatusFlagState Carry true); (SetProgramStatusFlagState Negative false); (SetProgramStatusFlagState Zero false); (WriteMemory 255 84)])),
      (mc))).
Proof. vm_compute. reflexivity. Qed.

(** src/cpu/mos6502/operations/tests/code_generation.rs:457-479 *)
Example gen_should_generate_absolute_indexed_with_x_addressing_mode_asl_machine_code : passes (
  do! cpu1 <- mos6502_default Debug ;
  let cpu := (with_gp_register cpu1 GpX 5) in
  do! cpu <- poke cpu 255 170 ;
  let op := (AslAbsoluteIndexedWithX 250) in
  do! mc2 <- generate Debug op cpu ;
  let mc := mc2 in
  Ok (((operations_new 3 7%nat [(SetProgramStatusFlagState Carry true); (SetProgramStatusFlagState Negative false); (SetProgramStatusFlagState Zero false); (WriteMemory 255 84)])),
      (mc))).
Proof. vm_compute. reflexivity. Qed.

(** src/cpu/mos6502/operations/tests/code_generation.rs:481-502 *)
Example gen_should_generate_accumulator_addressing_mode_asl_machine_code : passes (
  do! cpu1 <- mos6502_default Debug ;
  let cpu := (with_gp_register cpu1 GpAcc 170) in
  let op := AslAccumulator in
  do! mc2 <- generate Debug op cpu ;
  let mc := mc2 in
  Ok (((operations_new 1 2%nat [(SetProgramStatusFlagState Carry true); (SetProgramStatusFlagState Negative false); (SetProgramStatusFlagState Zero false); (Write8bitRegister Acc 84)])),
      (mc))).
Proof. vm_compute. reflexivity. Qed.

(** src/cpu/mos6502/operations/tests/code_generation.rs:504-525 *)
Example gen_should_generate_zeropage_addressing_mode_asl_machine_code : passes (
  do! cpu1 <- mos6502_default Debug ;
  let cpu := cpu1 in
  do! cpu <- poke cpu 255 170 ;
  let op := (AslZeroPage 255) in
  do! mc2 <- generate Debug op cpu ;
  let mc := mc2 in
  Ok (((operations_new 2 5%nat [(SetProgramStatusFlagState Carry true); (SetProgramStatusFlagState Negative false); (SetProgramStatusFlagState Zero false); (WriteMemory 255 84)])),
      (mc))).
Proof. vm_compute. reflexivity. Qed.

(** src/cpu/mos6502/operations/tests/code_generation.rs:527-549 *)
Example gen_should_generate_zeropage_indexed_with_x_addressing_mode_asl_machine_code : passes (
  do! cpu1 <- mos6502_default Debug ;
  let cpu := (with_gp_register cpu1 GpX 5) in
  do! cpu <- poke cpu 255 170 ;
  let op := (AslZeroPageIndexedWithX 250) in
  do! mc2 <- generate Debug op cpu ;
  let mc := mc2 in
  Ok (((operations_new 2 6%nat [(SetProgramStatusFlagState Carry true); (SetProgramStatusFlagState Negative false); (SetProgramStatusFlagState Zero false); (WriteMemory 255 84)])),
      (mc))).
Proof. vm_compute. reflexivity. Qed.

(** src/cpu/mos6502/operations/tests/code_generation.rs:553-573 *)
Example gen_should_generate_bcc_machine_code_with_branch_penalty : passes (
  do! cpu1 <- mos6502_default Debug ;
  let cpu := (with_pc_register cpu1 24576) in
  let cpu := with_ps_register cpu (mkPs false (ps_zero (reg_ps cpu)) (ps_interrupt_disable (reg_ps cpu)) (ps_decimal (reg_ps cpu)) (ps_brk (reg_ps cpu)) (ps_unused (reg_ps cpu)) (ps_overflow (reg_ps cpu)) (ps_negative (reg_ps cpu))) in
  let op := (BccRelative 8) in
  do! mc2 <- generate Debug op cpu ;
  let mc := mc2 in
  let pc := ((reg_pc cpu) + 8) in
  Ok (((operations_new 0 3%nat [(Write16bitRegister Pc pc)])),
      (mc))).
Proof. vm_compute. reflexivity. Qed.

(** src/cpu/mos6502/operations/tests/code_generation.rs:575-595 *)
Example gen_should_generate_bcc_machine_code_with_branch_and_page_penalty : passes (
  do! cpu1 <- mos6502_default Debug ;
  let cpu := (with_pc_register cpu1 24576) in
  let cpu := with_ps_register cpu (mkPs false (ps_zero (reg_ps cpu)) (ps_interrupt_disable (reg_ps cpu)) (ps_decimal (reg_ps cpu)) (ps_brk (reg_ps cpu)) (ps_unused (reg_ps cpu)) (ps_overflow (reg_ps cpu)) (ps_negative (reg_ps cpu))) in
  let op := (BccRelative (- 8)) in
  do! mc2 <- generate Debug op cpu ;
  let mc := mc2 in
  let pc := ((reg_pc cpu) - 8) in
  Ok (((operations_new 0 4%nat [(Write16bitRegister Pc pc)])),
      (mc))).
Proof. vm_compute. reflexivity. Qed.

(** src/cpu/mos6502/operations/tests/code_generation.rs:597-616 *)
Example gen_should_generate_bcc_machine_code_with_no_jump : passes (
  do! cpu1 <- mos6502_default Debug ;
  let cpu := (with_pc_register cpu1 24576) in
  let cpu := with_ps_register cpu (mkPs true (ps_zero (reg_ps cpu)) (ps_interrupt_disable (reg_ps cpu)) (ps_decimal (reg_ps cpu)) (ps_brk (reg_ps cpu)) (ps_unused (reg_ps cpu)) (ps_overflow (reg_ps cpu)) (ps_negative (reg_ps cpu))) in
  let op := (BccRelative (- 8)) in
  do! mc2 <- generate Debug op cpu ;
  let mc := mc2 in
  let pc := ((reg_pc cpu) + 2) in
  Ok (((operations_new 0 2%nat [(Write16bitRegister Pc pc)])),
      (mc))).
Proof. vm_compute. reflexivity. Qed.

(** src/cpu/mos6502/operations/tests/code_generation.rs:620-640 *)
Example gen_should_generate_bcs_machine_code_with_branch_penalty : passes (
  do! cpu1 <- mos6502_default Debug ;
  let cpu := (with_pc_register cpu1 24576) in
  let cpu := with_ps_register cpu (mkPs true (ps_zero (reg_ps cpu)) (ps_interrupt_disable (reg_ps cpu)) (ps_decimal (reg_ps cpu)) (ps_brk (reg_ps cpu)) (ps_unused (reg_ps cpu)) (ps_overflow (reg_ps cpu)) (ps_negative (reg_ps cpu))) in
  let op := (BcsRelative 8) in
  do! mc2 <- generate Debug op cpu ;
  let mc := mc2 in
  let pc := ((reg_pc cpu) + 8) in
  Ok (((operations_new 0 3%nat [(Write16bitRegister Pc pc)])),
      (mc))).
Proof. vm_compute. reflexivity. Qed.

(** src/cpu/mos6502/operations/tests/code_generation.rs:642-662 *)
Example gen_should_generate_bcs_machine_code_with_branch_and_page_penalty : passes (
  do! cpu1 <- mos6502_default Debug ;
  let cpu := (with_pc_register cpu1 24576) in
  let cpu := with_ps_register cpu (mkPs true (ps_zero (reg_ps cpu)) (ps_interrupt_disable (reg_ps cpu)) (ps_decimal (reg_ps cpu)) (ps_brk (reg_ps cpu)) (ps_unused (reg_ps cpu)) (ps_overflow (reg_ps cpu)) (ps_negative (reg_ps cpu))) in
  let op := (BcsRelative (- 8)) in
  do! mc2 <- generate Debug op cpu ;
  let mc := mc2 in
  let pc := ((reg_pc cpu) - 8) in
  Ok (((operations_new 0 4%nat [(Write16bitRegister Pc pc)])),
      (mc))).
Proof. vm_compute. reflexivity. Qed.

(** src/cpu/mos6502/operations/tests/code_generation.rs:664-683 *)
Example gen_should_generate_bcs_machine_code_with_no_jump : passes (
  do! cpu1 <- mos6502_default Debug ;
  let cpu := (with_pc_register cpu1 24576) in
  let cpu := with_ps_register cpu (mkPs false (ps_zero (reg_ps cpu)) (ps_interrupt_disable (reg_ps cpu)) (ps_decimal (reg_ps cpu)) (ps_brk (reg_ps cpu)) (ps_unused (reg_ps cpu)) (ps_overflow (reg_ps cpu)) (ps_negative (reg_ps cpu))) in
  let op := (BcsRelative (- 8)) in
  do! mc2 <- generate Debug op cpu ;
  let mc := mc2 in
  let pc := ((reg_pc cpu) + 2) in
  Ok (((operations_new 0 2%nat [(Write16bitRegister Pc pc)])),
      (mc))).
Proof. vm_compute. reflexivity. Qed.

(** src/cpu/mos6502/operations/tests/code_generation.rs:687-707 *)
Example gen_should_generate_beq_machine_code_with_branch_penalty : passes (
  do! cpu1 <- mos6502_default Debug ;
  let cpu := (with_pc_register cpu1 24576) in
  let cpu := with_ps_register cpu (mkPs (ps_carry (reg_ps cpu)) true (ps_interrupt_disable (reg_ps cpu)) (ps_decimal (reg_ps cpu)) (ps_brk (reg_ps cpu)) (ps_unused (reg_ps cpu)) (ps_overflow (reg_ps cpu)) (ps_negative (reg_ps cpu))) in
  let op := (BeqRelative 8) in
  do! mc2 <- generate Debug op cpu ;
  let mc := mc2 in
  let pc := ((reg_pc cpu) + 8) in
  Ok (((operations_new 0 3%nat [(Write16bitRegister Pc pc)])),
      (mc))).
Proof. vm_compute. reflexivity. Qed.

(** src/cpu/mos6502/operations/tests/code_generation.rs:709-729 *)
Example gen_should_generate_beq_machine_code_with_branch_and_page_penalty : passes (
  do! cpu1 <- mos6502_default Debug ;
  let cpu := (with_pc_register cpu1 24576) in
  let cpu := with_ps_register cpu (mkPs (ps_carry (reg_ps cpu)) true (ps_interrupt_disable (reg_ps cpu)) (ps_decimal (reg_ps cpu)) (ps_brk (reg_ps cpu)) (ps_unused (reg_ps cpu)) (ps_overflow (reg_ps cpu)) (ps_negative (reg_ps cpu))) in
  let op := (BeqRelative (- 8)) in
  do! mc2 <- generate Debug op cpu ;
  let mc := mc2 in
  let pc := ((reg_pc cpu) - 8) in
  Ok (((operations_new 0 4%nat [(Write16bitRegister Pc pc)])),
      (mc))).
Proof. vm_compute. reflexivity. Qed.

(** src/cpu/mos6502/operations/tests/code_generation.rs:731-750 *)
Example gen_should_generate_beq_machine_code_with_no_jump : passes (
  do! cpu1 <- mos6502_default Debug ;
  let cpu := (with_pc_register cpu1 24576) in
  let cpu := with_ps_register cpu (mkPs (ps_carry (reg_ps cpu)) false (ps_interrupt_disable (reg_ps cpu)) (ps_decimal (reg_ps cpu)) (ps_brk (reg_ps cpu)) (ps_unused (reg_ps cpu)) (ps_overflow (reg_ps cpu)) (ps_negative (reg_ps cpu))) in
  let op := (BeqRelative (- 8)) in
  do! mc2 <- generate Debug op cpu ;
  let mc := mc2 in
  let pc := ((reg_pc cpu) + 2) in
  Ok (((operations_new 0 2%nat [(Write16bitRegister Pc pc)])),
      (mc))).
Proof. vm_compute. reflexivity. Qed.

(** src/cpu/mos6502/operations/tests/code_generation.rs:754-774 *)
Example gen_should_generate_bmi_machine_code_with_branch_penalty : passes (
  do! cpu1 <- mos6502_default Debug ;
  let cpu := (with_pc_register cpu1 24576) in
  let cpu := with_ps_register cpu (mkPs (ps_carry (reg_ps cpu)) (ps_zero (reg_ps cpu)) (ps_interrupt_disable (reg_ps cpu)) (ps_decimal (reg_ps cpu)) (ps_brk (reg_ps cpu)) (ps_unused (reg_ps cpu)) (ps_overflow (reg_ps cpu)) true) in
  let op := (BmiRelative 8) in
  do! mc2 <- generate Debug op cpu ;
  let mc := mc2 in
  let pc := ((reg_pc cpu) + 8) in
  Ok (((operations_new 0 3%nat [(Write16bitRegister Pc pc)])),
      (mc))).
Proof. vm_compute. reflexivity. Qed.

(** src/cpu/mos6502/operations/tests/code_generation.rs:776-796 *)
Example gen_should_generate_bmi_machine_code_with_branch_and_page_penalty : passes (
  do! cpu1 <- mos6502_default Debug ;
  let cpu := (with_pc_register cpu1 24576) in
  let cpu := with_ps_register cpu (mkPs (ps_carry (reg_ps cpu)) (ps_zero (reg_ps cpu)) (ps_interrupt_disable (reg_ps cpu)) (ps_decimal (reg_ps cpu)) (ps_brk (reg_ps cpu)) (ps_unused (reg_ps cpu)) (ps_overflow (reg_ps cpu)) true) in
  let op := (BmiRelative (- 8)) in
  do! mc2 <- generate Debug op cpu ;
  let mc := mc2 in
  let pc := ((reg_pc cpu) - 8) in
  Ok (((operations_new 0 4%nat [(Write16bitRegister Pc pc)])),
      (mc))).
Proof. vm_compute. reflexivity. Qed.

(** src/cpu/mos6502/operations/tests/code_generation.rs:798-817 *)
Example gen_should_generate_bmi_machine_code_with_no_jump : passes (
  do! cpu1 <- mos6502_default Debug ;
  let cpu := (with_pc_register cpu1 24576) in
  let cpu := with_ps_register cpu (mkPs (ps_carry (reg_ps cpu)) (ps_zero (reg_ps cpu)) (ps_interrupt_disable (reg_ps cpu)) (ps_decimal (reg_ps cpu)) (ps_brk (reg_ps cpu)) (ps_unused (reg_ps cpu)) (ps_overflow (reg_ps cpu)) false) in
  let op := (BmiRelative (- 8)) in
  do! mc2 <- generate Debug op cpu ;
  let mc := mc2 in
  let pc := ((reg_pc cpu) + 2) in
  Ok (((operations_new 0 2%nat [(Write16bitRegister Pc pc)])),
      (mc))).
Proof. vm_compute. reflexivity. Qed.

(** src/cpu/mos6502/operations/tests/code_generation.rs:821-842 *)
Example gen_should_generate_absolute_addressing_mode_bit_machine_code : passes (
  do! cpu1 <- mos6502_default Debug ;
  let cpu := (with_gp_register cpu1 GpAcc 255) in
  do! cpu <- poke cpu 255 85 ;
  let op := (BitAbsolute 255) in
  do! mc2 <- generate Debug op cpu ;
  let mc := mc2 in
  Ok (((operations_new 3 4%nat [(SetProgramStatusFlagState Negative false); (SetProgramStatusFlagState Overflow true); (SetProgramStatusFlagState Zero false)])),
      (mc))).
Proof. vm_compute. reflexivity. Qed.

(** src/cpu/mos6502/operations/tests/code_generation.rs:844-865 *)
Example gen_should_generate_zeropage_addressing_mode_bit_machine_code : passes (
  do! cpu1 <- mos6502_default Debug ;
  let cpu := (with_gp_register cpu1 GpAcc 255) in
  do! cpu <- poke cpu 255 85 ;
  let op := (BitZeroPage 255) in
  do! mc2 <- generate Debug op cpu ;
  let mc := mc2 in
  Ok (((operations_new 2 3%nat [(SetProgramStatusFlagState Negative false); (SetProgramStatusFlagState Overflow true); (SetProgramStatusFlagState Zero false)])),
      (mc))).
Proof. vm_compute. reflexivity. Qed.

(** src/cpu/mos6502/operations/tests/code_generation.rs:869-889 *)
Example gen_should_generate_bne_machine_code_with_branch_penalty : passes (
  do! cpu1 <- mos6502_default Debug ;
  let cpu := (with_pc_register cpu1 24576) in
  let cpu := with_ps_register cpu (mkPs (ps_carry (reg_ps cpu)) false (ps_interrupt_disable (reg_ps cpu)) (ps_decimal (reg_ps cpu)) (ps_brk (reg_ps cpu)) (ps_unused (reg_ps cpu)) (ps_overflow (reg_ps cpu)) (ps_negative (reg_ps cpu))) in
  let op := (BneRelative 8) in
  do! mc2 <- generate Debug op cpu ;
  let mc := mc2 in
  let pc := ((reg_pc cpu) + 8) in
  Ok (((operations_new 0 3%nat [(Write16bitRegister Pc pc)])),
      (mc))).
Proof. vm_compute. reflexivity. Qed.

(** src/cpu/mos6502/operations/tests/code_generation.rs:891-911 *)
Example gen_should_generate_bne_machine_code_with_branch_and_page_penalty : passes (
  do! cpu1 <- mos6502_default Debug ;
  let cpu := (with_pc_register cpu1 24576) in
  let cpu := with_ps_register cpu (mkPs (ps_carry (reg_ps cpu)) false (ps_interrupt_disable (reg_ps cpu)) (ps_decimal (reg_ps cpu)) (ps_brk (reg_ps cpu)) (ps_unused (reg_ps cpu)) (ps_overflow (reg_ps cpu)) (ps_negative (reg_ps cpu))) in
  let op := (BneRelative (- 8)) in
  do! mc2 <- generate Debug op cpu ;
  let mc := mc2 in
  let pc := ((reg_pc cpu) - 8) in
  Ok (((operations_new 0 4%nat [(Write16bitRegister Pc pc)])),
      (mc))).
Proof. vm_compute. reflexivity. Qed.

(** src/cpu/mos6502/operations/tests/code_generation.rs:913-932 *)
Example gen_should_generate_bne_machine_code_with_no_jump : passes (
  do! cpu1 <- mos6502_default Debug ;
  let cpu := (with_pc_register cpu1 24576) in
  let cpu := with_ps_register cpu (mkPs (ps_carry (reg_ps cpu)) true (ps_interrupt_disable (reg_ps cpu)) (ps_decimal (reg_ps cpu)) (ps_brk (reg_ps cpu)) (ps_unused (reg_ps cpu)) (ps_overflow (reg_ps cpu)) (ps_negative (reg_ps cpu))) in
  let op := (BneRelative (- 8)) in
  do! mc2 <- generate Debug op cpu ;
  let mc := mc2 in
  let pc := ((reg_pc cpu) + 2) in
  Ok (((operations_new 0 2%nat [(Write16bitRegister Pc pc)])),
      (mc))).
Proof. vm_compute. reflexivity. Qed.

(** src/cpu/mos6502/operations/tests/code_generation.rs:936-956 *)
Example gen_should_generate_bpl_machine_code_with_branch_penalty : passes (
  do! cpu1 <- mos6502_default Debug ;
  let cpu := (with_pc_register cpu1 24576) in
  let cpu := with_ps_register cpu (mkPs (ps_carry (reg_ps cpu)) (ps_zero (reg_ps cpu)) (ps_interrupt_disable (reg_ps cpu)) (ps_decimal (reg_ps cpu)) (ps_brk (reg_ps cpu)) (ps_unused (reg_ps cpu)) (ps_overflow (reg_ps cpu)) false) in
  let op := (BplRelative 8) in
  do! mc2 <- generate Debug op cpu ;
  let mc := mc2 in
  let pc := ((reg_pc cpu) + 8) in
  Ok (((operations_new 0 3%nat [(Write16bitRegister Pc pc)])),
      (mc))).
Proof. vm_compute. reflexivity. Qed.

(** src/cpu/mos6502/operations/tests/code_generation.rs:958-978 *)
Example gen_should_generate_bpl_machine_code_with_branch_and_page_penalty : passes (
  do! cpu1 <- mos6502_default Debug ;
  let cpu := (with_pc_register cpu1 24576) in
  let cpu := with_ps_register cpu (mkPs (ps_carry (reg_ps cpu)) (ps_zero (reg_ps cpu)) (ps_interrupt_disable (reg_ps cpu)) (ps_decimal (reg_ps cpu)) (ps_brk (reg_ps cpu)) (ps_unused (reg_ps cpu)) (ps_overflow (reg_ps cpu)) false) in
  let op := (BplRelative (- 8)) in
  do! mc2 <- generate Debug op cpu ;
  let mc := mc2 in
  let pc := ((reg_pc cpu) - 8) in
  Ok (((operations_new 0 4%nat [(Write16bitRegister Pc pc)])),
      (mc))).
Proof. vm_compute. reflexivity. Qed.

(** src/cpu/mos6502/operations/tests/code_generation.rs:980-999 *)
Example gen_should_generate_bpl_machine_code_with_no_jump : passes (
  do! cpu1 <- mos6502_default Debug ;
  let cpu := (with_pc_register cpu1 24576) in
  let cpu := with_ps_register cpu (mkPs (ps_carry (reg_ps cpu)) (ps_zero (reg_ps cpu)) (ps_interrupt_disable (reg_ps cpu)) (ps_decimal (reg_ps cpu)) (ps_brk (reg_ps cpu)) (ps_unused (reg_ps cpu)) (ps_overflow (reg_ps cpu)) true) in
  let op := (BplRelative (- 8)) in
  do! mc2 <- generate Debug op cpu ;
  let mc := mc2 in
  let pc := ((reg_pc cpu) + 2) in
  Ok (((operations_new 0 2%nat [(Write16bitRegister Pc pc)])),
      (mc))).
Proof. vm_compute. reflexivity. Qed.

(** src/cpu/mos6502/operations/tests/code_generation.rs:1003-1044 *)
Example gen_should_generate_implied_addressing_mode_brk_machine_code : passes (
  do! cpu1 <- mos6502_default Debug ;
  do! s2 <- reset Debug cpu1 ;
  let state3 := ss_unwrap s2 in
  let ps := ps_default in
  let ps := mkPs (ps_carry ps) (ps_zero ps) (ps_interrupt_disable ps) (ps_decimal ps) false (ps_unused ps) (ps_overflow ps) (ps_negative ps) in
  do! m4 <- memory_new Debug ReadOnly 65534 65535 ;
  do! cpu5 <- or_panic (register_address_space (with_pc_register (with_ps_register state3 ps) 4660) 65534 65535 (memory_load m4 [120; 86])) ;
  let cpu := cpu5 in
  let op := BrkImplied in
  do! mc6 <- generate Debug op cpu ;
  let mc := mc6 in
  let expected_ps_on_stack := (ps_with_value 32) in
  Ok (((operations_new 0 7%nat [(SetProgramStatusFlagState Break true); (SetProgramStatusFlagState Interrupt true); (WriteMemory 511 53); (Dec8bitRegister Sp 1); (WriteMemory 510 18); (Dec8bitRegister Sp 1); (WriteMemory 509 (ps_read expected_ps_on_stack)); (Dec8bitRegister Sp 1); (Write16bitRegister Pc 22136)])),
      (mc))).
Proof. vm_compute. reflexivity. Qed.

(** src/cpu/mos6502/operations/tests/code_generation.rs:1048-1068 *)
Example gen_should_generate_bvc_machine_code_with_branch_penalty : passes (
  do! cpu1 <- mos6502_default Debug ;
  let cpu := (with_pc_register cpu1 24576) in
  let cpu := with_ps_register cpu (mkPs (ps_carry (reg_ps cpu)) (ps_zero (reg_ps cpu)) (ps_interrupt_disable (reg_ps cpu)) (ps_decimal (reg_ps cpu)) (ps_brk (reg_ps cpu)) (ps_unused (reg_ps cpu)) false (ps_negative (reg_ps cpu))) in
  let op := (BvcRelative 8) in
  do! mc2 <- generate Debug op cpu ;
  let mc := mc2 in
  let pc := ((reg_pc cpu) + 8) in
  Ok (((operations_new 0 3%nat [(Write16bitRegister Pc pc)])),
      (mc))).
Proof. vm_compute. reflexivity. Qed.

(** src/cpu/mos6502/operations/tests/code_generation.rs:1070-1090 *)
Example gen_should_generate_bvc_machine_code_with_branch_and_page_penalty : passes (
  do! cpu1 <- mos6502_default Debug ;
  let cpu := (with_pc_register cpu1 24576) in
  let cpu := with_ps_register cpu (mkPs (ps_carry (reg_ps cpu)) (ps_zero (reg_ps cpu)) (ps_interrupt_disable (reg_ps cpu)) (ps_decimal (reg_ps cpu)) (ps_brk (reg_ps cpu)) (ps_unused (reg_ps cpu)) false (ps_negative (reg_ps cpu))) in
  let op := (BvcRelative (- 8)) in
  do! mc2 <- generate Debug op cpu ;
  let mc := mc2 in
  let pc := ((reg_pc cpu) - 8) in
  Ok (((operations_new 0 4%nat [(Write16bitRegister Pc pc)])),
      (mc))).
Proof. vm_compute. reflexivity. Qed.

(** src/cpu/mos6502/operations/tests/code_generation.rs:1092-1111 *)
Example gen_should_generate_bvc_machine_code_with_no_jump : passes (
  do! cpu1 <- mos6502_default Debug ;
  let cpu := (with_pc_register cpu1 24576) in
  let cpu := with_ps_register cpu (mkPs (ps_carry (reg_ps cpu)) (ps_zero (reg_ps cpu)) (ps_interrupt_disable (reg_ps cpu)) (ps_decimal (reg_ps cpu)) (ps_brk (reg_ps cpu)) (ps_unused (reg_ps cpu)) true (ps_negative (reg_ps cpu))) in
  let op := (BvcRelative (- 8)) in
  do! mc2 <- generate Debug op cpu ;
  let mc := mc2 in
  let pc := ((reg_pc cpu) + 2) in
  Ok (((operations_new 0 2%nat [(Write16bitRegister Pc pc)])),
      (mc))).
Proof. vm_compute. reflexivity. Qed.

(** src/cpu/mos6502/operations/tests/code_generation.rs:1115-1135 *)
Example gen_should_generate_bvs_machine_code_with_branch_penalty : passes (
  do! cpu1 <- mos6502_default Debug ;
  let cpu := (with_pc_register cpu1 24576) in
  let cpu := with_ps_register cpu (mkPs (ps_carry (reg_ps cpu)) (ps_zero (reg_ps cpu)) (ps_interrupt_disable (reg_ps cpu)) (ps_decimal (reg_ps cpu)) (ps_brk (reg_ps cpu)) (ps_unused (reg_ps cpu)) true (ps_negative (reg_ps cpu))) in
  let op := (BvsRelative 8) in
  do! mc2 <- generate Debug op cpu ;
  let mc := mc2 in
  let pc := ((reg_pc cpu) + 8) in
  Ok (((operations_new 0 3%nat [(Write16bitRegister Pc pc)])),
      (mc))).
Proof. vm_compute. reflexivity. Qed.

(** src/cpu/mos6502/operations/tests/code_generation.rs:1137-1157 *)
Example gen_should_generate_bvs_machine_code_with_branch_and_page_penalty : passes (
  do! cpu1 <- mos6502_default Debug ;
  let cpu := (with_pc_register cpu1 24576) in
  let cpu := with_ps_register cpu (mkPs (ps_carry (reg_ps cpu)) (ps_zero (reg_ps cpu)) (ps_interrupt_disable (reg_ps cpu)) (ps_decimal (reg_ps cpu)) (ps_brk (reg_ps cpu)) (ps_unused (reg_ps cpu)) true (ps_negative (reg_ps cpu))) in
  let op := (BvsRelative (- 8)) in
  do! mc2 <- generate Debug op cpu ;
  let mc := mc2 in
  let pc := ((reg_pc cpu) - 8) in
  Ok (((operations_new 0 4%nat [(Write16bitRegister Pc pc)])),
      (mc))).
Proof. vm_compute. reflexivity. Qed.

(** src/cpu/mos6502/operations/tests/code_generation.rs:1159-1178 *)
Example gen_should_generate_bvs_machine_code_with_no_jump : passes (
  do! cpu1 <- mos6502_default Debug ;
  let cpu := (with_pc_register cpu1 24576) in
  let cpu := with_ps_register cpu (mkPs (ps_carry (reg_ps cpu)) (ps_zero (reg_ps cpu)) (ps_interrupt_disable (reg_ps cpu)) (ps_decimal (reg_ps cpu)) (ps_brk (reg_ps cpu)) (ps_unused (reg_ps cpu)) false (ps_negative (reg_ps cpu))) in
  let op := (BvsRelative (- 8)) in
  do! mc2 <- generate Debug op cpu ;
  let mc := mc2 in
  let pc := ((reg_pc cpu) + 2) in
  Ok (((operations_new 0 2%nat [(Write16bitRegister Pc pc)])),
      (mc))).
Proof. vm_compute. reflexivity. Qed.

(** src/cpu/mos6502/operations/tests/code_generation.rs:1182-1201 *)
Example gen_should_generate_implied_addressing_mode_clc_machine_code : passes (
  let ps := ps_default in
  let ps := mkPs true (ps_zero ps) (ps_interrupt_disable ps) (ps_decimal ps) (ps_brk ps) (ps_unused ps) (ps_overflow ps) (ps_negative ps) in
  do! cpu1 <- mos6502_default Debug ;
  let cpu := (with_ps_register cpu1 ps) in
  let op := ClcImplied in
  do! mc2 <- generate Debug op cpu ;
  let mc := mc2 in
  Ok (((operations_new 1 2%nat [(SetProgramStatusFlagState Carry false)])),
      (mc))).
Proof. vm_compute. reflexivity. Qed.

(** src/cpu/mos6502/operations/tests/code_generation.rs:1205-1224 *)
Example gen_should_generate_implied_addressing_mode_cld_machine_code : passes (
  let ps := ps_default in
  let ps := mkPs true (ps_zero ps) (ps_interrupt_disable ps) (ps_decimal ps) (ps_brk ps) (ps_unused ps) (ps_overflow ps) (ps_negative ps) in
  do! cpu1 <- mos6502_default Debug ;
  let cpu := (with_ps_register cpu1 ps) in
  let op := CldImplied in
  do! mc2 <- generate Debug op cpu ;
  let mc := mc2 in
  Ok (((operations_new 1 2%nat [(SetProgramStatusFlagState Decimal false)])),
      (mc))).
Proof. vm_compute. reflexivity. Qed.

(** src/cpu/mos6502/operations/tests/code_generation.rs:1228-1247 *)
Example gen_should_generate_implied_addressing_mode_cli_machine_code : passes (
  let ps := ps_default in
  let ps := mkPs (ps_carry ps) (ps_zero ps) true (ps_decimal ps) (ps_brk ps) (ps_unused ps) (ps_overflow ps) (ps_negative ps) in
  do! cpu1 <- mos6502_default Debug ;
  let cpu := (with_ps_register cpu1 ps) in
  let op := CliImplied in
  do! mc2 <- generate Debug op cpu ;
  let mc := mc2 in
  Ok (((operations_new 1 2%nat [(SetProgramStatusFlagState Interrupt false)])),
      (mc))).
Proof. vm_compute. reflexivity. Qed.

(** src/cpu/mos6502/operations/tests/code_generation.rs:1251-1270 *)
Example gen_should_generate_implied_addressing_mode_clv_machine_code : passes (
  let ps := ps_default in
  let ps := mkPs (ps_carry ps) (ps_zero ps) (ps_interrupt_disable ps) (ps_decimal ps) (ps_brk ps) (ps_unused ps) true (ps_negative ps) in
  do! cpu1 <- mos6502_default Debug ;
  let cpu := (with_ps_register cpu1 ps) in
  let op := ClvImplied in
  do! mc2 <- generate Debug op cpu ;
  let mc := mc2 in
  Ok (((operations_new 1 2%nat [(SetProgramStatusFlagState Overflow false)])),
      (mc))).
Proof. vm_compute. reflexivity. Qed.

(** src/cpu/mos6502/operations/tests/code_generation.rs:1274-1288 *)
Example gen_should_generate_absolute_addressing_mode_cmp_machine_code : passes (
  do! cpu1 <- mos6502_default Debug ;
  let cpu := (with_gp_register cpu1 GpAcc 0) in
  let op := (CmpAbsolute 0) in
  do! mc2 <- generate Debug op cpu ;
  let mc := mc2 in
  let expected_mops := [(SetProgramStatusFlagState Carry true); (SetProgramStatusFlagState Negative false); (SetProgramStatusFlagState Zero true)] in
  Ok (((operations_new 3 4%nat expected_mops)),
      (mc))).
Proof. vm_compute. reflexivity. Qed.

(** src/cpu/mos6502/operations/tests/code_generation.rs:1290-1308 *)
Example gen_should_generate_absolute_indexed_with_x_addressing_mode_cmp_machine_code : passes (
  do! cpu1 <- mos6502_default Debug ;
  let cpu := (with_gp_register (with_gp_register cpu1 GpAcc 0) GpX 0) in
  let op := (CmpAbsoluteIndexedWithX 0) in
  do! mc2 <- generate Debug op cpu ;
  let mc := mc2 in
  let expected_mops := [(SetProgramStatusFlagState Carry true); (SetProgramStatusFlagState Negative false); (SetProgramStatusFlagState Zero true)] in
  Ok (((operations_new 3 4%nat expected_mops)),
      (mc))).
Proof. vm_compute. reflexivity. Qed.

(** src/cpu/mos6502/operations/tests/code_generation.rs:1310-1328 *)
Example gen_should_generate_absolute_indexed_with_y_addressing_mode_cmp_machine_code : passes (
  do! cpu1 <- mos6502_default Debug ;
  let cpu := (with_gp_register (with_gp_register cpu1 GpAcc 0) GpX 0) in
  let op := (CmpAbsoluteIndexedWithY 0) in
  do! mc2 <- generate Debug op cpu ;
  let mc := mc2 in
  let expected_mops := [(SetProgramStatusFlagState Carry true); (SetProgramStatusFlagState Negative false); (SetProgramStatusFlagState Zero true)] in
  Ok (((operations_new 3 4%nat expected_mops)),
      (mc))).
Proof. vm_compute. reflexivity. Qed.

(** src/cpu/mos6502/operations/tests/code_generation.rs:1330-1355 *)
Example gen_should_generate_indirect_y_indexed_addressing_mode_cmp_machine_code : passes (
  do! cpu1 <- mos6502_default Debug ;
  let cpu := (with_gp_register (with_gp_register cpu1 GpY 5) GpAcc 234) in
  do! cpu <- poke cpu 0 250 ;
  do! cpu <- poke cpu 1 0 ;
  do! cpu <- poke cpu 255 234 ;
  let op := (CmpIndirectYIndexed 0) in
  do! mc2 <- generate Debug op cpu ;
  let mc := mc2 in
  Ok (((operations_new 2 5%nat [(SetProgramStatusFlagState Carry true); (SetProgramStatusFlagState Negative false); (SetProgramStatusFlagState Zero true)])),
      (mc))).
Proof. vm_compute. reflexivity. Qed.

(** src/cpu/mos6502/operations/tests/code_generation.rs:1357-1371 *)
Example gen_should_generate_immediate_addressing_mode_cmp_machine_code : passes (
  do! cpu1 <- mos6502_default Debug ;
  let cpu := (with_gp_register cpu1 GpAcc 0) in
  let op := (CmpImmediate 0) in
  do! mc2 <- generate Debug op cpu ;
  let mc := mc2 in
  let expected_mops := [(SetProgramStatusFlagState Carry true); (SetProgramStatusFlagState Negative false); (SetProgramStatusFlagState Zero true)] in
  Ok (((operations_new 2 2%nat expected_mops)),
      (mc))).
Proof. vm_compute. reflexivity. Qed.

(** src/cpu/mos6502/operations/tests/code_generation.rs:1373-1398 *)
Example gen_should_generate_x_indexed_indirect_addressing_mode_cmp_machine_code : passes (
  do! cpu1 <- mos6502_default Debug ;
  let cpu := (with_gp_register (with_gp_register cpu1 GpX 5) GpAcc 234) in
  do! cpu <- poke cpu 5 255 ;
  do! cpu <- poke cpu 6 0 ;
  do! cpu <- poke cpu 255 234 ;
  let op := (CmpXIndexedIndirect 0) in
  do! mc2 <- generate Debug op cpu ;
  let mc := mc2 in
  Ok (((operations_new 2 6%nat [(SetProgramStatusFlagState Carry true); (SetProgramStatusFlagState Negative false); (SetProgramStatusFlagState Zero true)])),
      (mc))).
Proof. vm_compute. reflexivity. Qed.

(** src/cpu/mos6502/operations/tests/code_generation.rs:1400-1414 *)
Example gen_should_generate_zeropage_addressing_mode_cmp_machine_code : passes (
  do! cpu1 <- mos6502_default Debug ;
  let cpu := (with_gp_register cpu1 GpAcc 0) in
  let op := (CmpZeroPage 0) in
  do! mc2 <- generate Debug op cpu ;
  let mc := mc2 in
  let expected_mops := [(SetProgramStatusFlagState Carry true); (SetProgramStatusFlagState Negative false); (SetProgramStatusFlagState Zero true)] in
  Ok (((operations_new 2 3%nat expected_mops)),
      (mc))).
Proof. vm_compute. reflexivity. Qed.

(** src/cpu/mos6502/operations/tests/code_generation.rs:1416-1434 *)
Example gen_should_generate_zeropage_indexed_with_x_addressing_mode_cmp_machine_code : passes (
  do! cpu1 <- mos6502_default Debug ;
  let cpu := (with_gp_register (with_gp_register cpu1 GpAcc 0) GpX 5) in
  let op := (CmpZeroPageIndexedWithX 0) in
  do! mc2 <- generate Debug op cpu ;
  let mc := mc2 in
  let expected_mops := [(SetProgramStatusFlagState Carry true); (SetProgramStatusFlagState Negative false); (SetProgramStatusFlagState Zero true)] in
  Ok (((operations_new 2 4%nat expected_mops)),
      (mc))).
Proof. vm_compute. reflexivity. Qed.

(** src/cpu/mos6502/operations/tests/code_generation.rs:1438-1457 *)
Example gen_should_generate_absolute_addressing_mode_cpx_machine_code : passes (
  do! cpu1 <- mos6502_default Debug ;
  let cpu := (with_gp_register cpu1 GpX 0) in
  let op := (CpxAbsolute 0) in
  do! mc2 <- generate Debug op cpu ;
  let mc := mc2 in
  Ok (((operations_new 3 4%nat [(SetProgramStatusFlagState Carry true); (SetProgramStatusFlagState Negative false); (SetProgramStatusFlagState Zero true)])),
      (mc))).
Proof. vm_compute. reflexivity. Qed.

(** src/cpu/mos6502/operations/tests/code_generation.rs:1459-1479 *)
Example gen_should_generate_immediate_addressing_mode_cpx_machine_code : passes (
  do! cpu1 <- mos6502_default Debug ;
  let cpu := (with_gp_register cpu1 GpAcc 0) in
  let op := (CpxImmediate 0) in
  do! mc2 <- generate Debug op cpu ;
  let mc := mc2 in
  Ok (((operations_new 2 2%nat [(SetProgramStatusFlagState Carry true); (SetProgramStatusFlagState Negative false); (SetProgramStatusFlagState Zero true)])),
      (mc))).
Proof. vm_compute. reflexivity. Qed.

(** src/cpu/mos6502/operations/tests/code_generation.rs:1481-1501 *)
Example gen_should_generate_zeropage_addressing_mode_cpx_machine_code : passes (
  do! cpu1 <- mos6502_default Debug ;
  let cpu := (with_gp_register cpu1 GpAcc 0) in
  let op := (CpxZeroPage 0) in
  do! mc2 <- generate Debug op cpu ;
  let mc := mc2 in
  Ok (((operations_new 2 3%nat [(SetProgramStatusFlagState Carry true); (SetProgramStatusFlagState Negative false); (SetProgramStatusFlagState Zero true)])),
      (mc))).
Proof. vm_compute. reflexivity. Qed.

(** src/cpu/mos6502/operations/tests/code_generation.rs:1505-1524 *)
Example gen_should_generate_absolute_addressing_mode_cpy_machine_code : passes (
  do! cpu1 <- mos6502_default Debug ;
  let cpu := (with_gp_register cpu1 GpX 0) in
  let op := (CpyAbsolute 0) in
  do! mc2 <- generate Debug op cpu ;
  let mc := mc2 in
  Ok (((operations_new 3 4%nat [(SetProgramStatusFlagState Carry true); (SetProgramStatusFlagState Negative false); (SetProgramStatusFlagState Zero true)])),
      (mc))).
Proof. vm_compute. reflexivity. Qed.

(** src/cpu/mos6502/operations/tests/code_generation.rs:1526-1546 *)
Example gen_should_generate_immediate_addressing_mode_cpy_machine_code : passes (
  do! cpu1 <- mos6502_default Debug ;
  let cpu := (with_gp_register cpu1 GpAcc 0) in
  let op := (CpyImmediate 0) in
  do! mc2 <- generate Debug op cpu ;
  let mc := mc2 in
  Ok (((operations_new 2 2%nat [(SetProgramStatusFlagState Carry true); (SetProgramStatusFlagState Negative false); (SetProgramStatusFlagState Zero true)])),
      (mc))).
Proof. vm_compute. reflexivity. Qed.

(** src/cpu/mos6502/operations/tests/code_generation.rs:1548-1568 *)
Example gen_should_generate_zeropage_addressing_mode_cpy_machine_code : passes (
  do! cpu1 <- mos6502_default Debug ;
  let cpu := (with_gp_register cpu1 GpAcc 0) in
  let op := (CpyZeroPage 0) in
  do! mc2 <- generate Debug op cpu ;
  let mc := mc2 in
  Ok (((operations_new 2 3%nat [(SetProgramStatusFlagState Carry true); (SetProgramStatusFlagState Negative false); (SetProgramStatusFlagState Zero true)])),
      (mc))).
Proof. vm_compute. reflexivity. Qed.

(** src/cpu/mos6502/operations/tests/code_generation.rs:1572-1592 *)
Example gen_should_generate_absolute_addressing_mode_dec_machine_code : passes (
  do! cpu1 <- mos6502_default Debug ;
  let cpu := cpu1 in
  do! cpu <- poke cpu 511 5 ;
  let op := (DecAbsolute 511) in
  do! mc2 <- generate Debug op cpu ;
  let mc := mc2 in
  Ok (((operations_new 3 6%nat [(SetProgramStatusFlagState Negative false); (SetProgramStatusFlagState Zero false); (WriteMemory 511 4)])),
      (mc))).
Proof. vm_compute. reflexivity. Qed.

(** src/cpu/mos6502/operations/tests/code_generation.rs:1594-1615 *)
Example gen_should_generate_absolute_indexed_by_x_addressing_mode_dec_machine_code : passes (
  do! cpu1 <- mos6502_default Debug ;
  let cpu := (with_gp_register cpu1 GpX 5) in
  do! cpu <- poke cpu 511 5 ;
  let op := (DecAbsoluteIndexedWithX 506) in
  do! mc2 <- generate Debug op cpu ;
  let mc := mc2 in
  Ok (((operations_new 3 7%nat [(SetProgramStatusFlagState Negative false); (SetProgramStatusFlagState Zero false); (WriteMemory 511 4)])),
      (mc))).
Proof. vm_compute. reflexivity. Qed.

(** src/cpu/mos6502/operations/tests/code_generation.rs:1617-1637 *)
Example gen_should_generate_zeropage_addressing_mode_dec_machine_code : passes (
  do! cpu1 <- mos6502_default Debug ;
  let cpu := cpu1 in
  do! cpu <- poke cpu 255 5 ;
  let op := (DecZeroPage 255) in
  do! mc2 <- generate Debug op cpu ;
  let mc := mc2 in
  Ok (((operations_new 2 5%nat [(SetProgramStatusFlagState Negative false); (SetProgramStatusFlagState Zero false); (WriteMemory 255 4)])),
      (mc))).
Proof. vm_compute. reflexivity. Qed.

(** src/cpu/mos6502/operations/tests/code_generation.rs:1639-1660 *)
Example gen_should_generate_zeropage_indexed_by_x_addressing_mode_dec_machine_code : passes (
  do! cpu1 <- mos6502_default Debug ;
  let cpu := (with_gp_register cpu1 GpX 5) in
  do! cpu <- poke cpu 255 5 ;
  let op := (DecZeroPageIndexedWithX 250) in
  do! mc2 <- generate Debug op cpu ;
  let mc := mc2 in
  Ok (((operations_new 2 6%nat [(SetProgramStatusFlagState Negative false); (SetProgramStatusFlagState Zero false); (WriteMemory 255 4)])),
      (mc))).
Proof. vm_compute. reflexivity. Qed.

(** src/cpu/mos6502/operations/tests/code_generation.rs:1664-1682 *)
Example gen_should_generate_implied_addressing_mode_dex_machine_code : passes (
  do! cpu1 <- mos6502_default Debug ;
  let cpu := cpu1 in
  let op := DexImplied in
  do! mc2 <- generate Debug op cpu ;
  let mc := mc2 in
  Ok (((operations_new 1 2%nat [(SetProgramStatusFlagState Negative true); (SetProgramStatusFlagState Zero false); (Dec8bitRegister X 1)])),
      (mc))).
Proof. vm_compute. reflexivity. Qed.

(** src/cpu/mos6502/operations/tests/code_generation.rs:1686-1704 *)
Example gen_should_generate_implied_addressing_mode_dey_machine_code : passes (
  do! cpu1 <- mos6502_default Debug ;
  let cpu := cpu1 in
  let op := DeyImplied in
  do! mc2 <- generate Debug op cpu ;
  let mc := mc2 in
  Ok (((operations_new 1 2%nat [(SetProgramStatusFlagState Negative true); (SetProgramStatusFlagState Zero false); (Dec8bitRegister Y 1)])),
      (mc))).
Proof. vm_compute. reflexivity. Qed.

(** src/cpu/mos6502/operations/tests/code_generation.rs:1708-1729 *)
Example gen_should_generate_absolute_addressing_mode_eor_machine_code : passes (
  do! cpu1 <- mos6502_default Debug ;
  let cpu := (with_gp_register cpu1 GpAcc 255) in
  do! cpu <- poke cpu 255 85 ;
  let op := (EorAbsolute 255) in
  do! mc2 <- generate Debug op cpu ;
  let mc := mc2 in
  Ok (((operations_new 3 4%nat [(SetProgramStatusFlagState Negative true); (SetProgramStatusFlagState Zero false); (Write8bitRegister Acc 170)])),
      (mc))).
Proof. vm_compute. reflexivity. Qed.

(** src/cpu/mos6502/operations/tests/code_generation.rs:1731-1753 *)
Example gen_should_generate_absolute_indexed_with_x_addressing_mode_eor_machine_code : passes (
  do! cpu1 <- mos6502_default Debug ;
  let cpu := (with_gp_register (with_gp_register cpu1 GpAcc 85) GpX 5) in
  do! cpu <- poke cpu 255 255 ;
  let op := (EorAbsoluteIndexedWithX 250) in
  do! mc2 <- generate Debug op cpu ;
  let mc := mc2 in
  Ok (((operations_new 3 4%nat [(SetProgramStatusFlagState Negative true); (SetProgramStatusFlagState Zero false); (Write8bitRegister Acc 170)])),
      (mc))).
Proof. vm_compute. reflexivity. Qed.

(** src/cpu/mos6502/operations/tests/code_generation.rs:1755-1777 *)
Example gen_should_generate_absolute_indexed_with_y_addressing_mode_eor_machine_code : passes (
  do! cpu1 <- mos6502_default Debug ;
  let cpu := (with_gp_register (with_gp_register cpu1 GpAcc 85) GpY 5) in
  do! cpu <- poke cpu 255 255 ;
  let op := (EorAbsoluteIndexedWithY 250) in
  do! mc2 <- generate Debug op cpu ;
  let mc := mc2 in
  Ok (((operations_new 3 4%nat [(SetProgramStatusFlagState Negative true); (SetProgramStatusFlagState Zero false); (Write8bitRegister Acc 170)])),
      (mc))).
Proof. vm_compute. reflexivity. Qed.

(** src/cpu/mos6502/operations/tests/code_generation.rs:1779-1804 *)
Example gen_should_generate_indirect_y_indexed_addressing_mode_eor_machine_code : passes (
  do! cpu1 <- mos6502_default Debug ;
  let cpu := (with_gp_register (with_gp_register cpu1 GpAcc 255) GpY 5) in
  do! cpu <- poke cpu 0 250 ;
  do! cpu <- poke cpu 1 0 ;
  do! cpu <- poke cpu 255 85 ;
  let op := (EorIndirectYIndexed 0) in
  do! mc2 <- generate Debug op cpu ;
  let mc := mc2 in
  Ok (((operations_new 2 5%nat [(SetProgramStatusFlagState Negative true); (SetProgramStatusFlagState Zero false); (Write8bitRegister Acc 170)])),
      (mc))).
Proof. vm_compute. reflexivity. Qed.

(** src/cpu/mos6502/operations/tests/code_generation.rs:1806-1826 *)
Example gen_should_generate_immediate_addressing_mode_eor_machine_code : passes (
  do! cpu1 <- mos6502_default Debug ;
  let cpu := (with_gp_register cpu1 GpAcc 255) in
  let op := (EorImmediate 85) in
  do! mc2 <- generate Debug op cpu ;
  let mc := mc2 in
  Ok (((operations_new 2 2%nat [(SetProgramStatusFlagState Negative true); (SetProgramStatusFlagState Zero false); (Write8bitRegister Acc 170)])),
      (mc))).
Proof. vm_compute. reflexivity. Qed.

(** src/cpu/mos6502/operations/tests/code_generation.rs:1828-1853 *)
Example gen_should_generate_x_indexed_indirect_addressing_mode_eor_machine_code : passes (
  do! cpu1 <- mos6502_default Debug ;
  let cpu := (with_gp_register (with_gp_register cpu1 GpAcc 255) GpX 5) in
  do! cpu <- poke cpu 5 255 ;
  do! cpu <- poke cpu 6 0 ;
  do! cpu <- poke cpu 255 85 ;
  let op := (EorXIndexedIndirect 0) in
  do! mc2 <- generate Debug op cpu ;
  let mc := mc2 in
  Ok (((operations_new 2 6%nat [(SetProgramStatusFlagState Negative true); (SetProgramStatusFlagState Zero false); (Write8bitRegister Acc 170)])),
      (mc))).
Proof. vm_compute. reflexivity. Qed.

(** src/cpu/mos6502/operations/tests/code_generation.rs:1855-1876 *)
Example gen_should_generate_zeropage_addressing_mode_eor_machine_code : passes (
  do! cpu1 <- mos6502_default Debug ;
  let cpu := (with_gp_register cpu1 GpAcc 255) in
  do! cpu <- poke cpu 255 85 ;
  let op := (EorZeroPage 255) in
  do! mc2 <- generate Debug op cpu ;
  let mc := mc2 in
  Ok (((operations_new 2 3%nat [(SetProgramStatusFlagState Negative true); (SetProgramStatusFlagState Zero false); (Write8bitRegister Acc 170)])),
      (mc))).
Proof. vm_compute. reflexivity. Qed.

(** src/cpu/mos6502/operations/tests/code_generation.rs:1878-1900 *)
Example gen_should_generate_zeropage_indexed_with_x_addressing_mode_eor_machine_code : passes (
  do! cpu1 <- mos6502_default Debug ;
  let cpu := (with_gp_register (with_gp_register cpu1 GpAcc 255) GpX 5) in
  do! cpu <- poke cpu 255 85 ;
  let op := (EorZeroPageIndexedWithX 250) in
  do! mc2 <- generate Debug op cpu ;
  let mc := mc2 in
  Ok (((operations_new 2 4%nat [(SetProgramStatusFlagState Negative true); (SetProgramStatusFlagState Zero false); (Write8bitRegister Acc 170)])),
      (mc))).
Proof. vm_compute. reflexivity. Qed.

(** src/cpu/mos6502/operations/tests/code_generation.rs:1904-1924 *)
Example gen_should_generate_absolute_addressing_mode_inc_machine_code : passes (
  do! cpu1 <- mos6502_default Debug ;
  let cpu := cpu1 in
  do! cpu <- poke cpu 511 5 ;
  let op := (IncAbsolute 511) in
  do! mc2 <- generate Debug op cpu ;
  let mc := mc2 in
  Ok (((operations_new 3 6%nat [(SetProgramStatusFlagState Negative false); (SetProgramStatusFlagState Zero false); (WriteMemory 511 6)])),
      (mc))).
Proof. vm_compute. reflexivity. Qed.

(** src/cpu/mos6502/operations/tests/code_generation.rs:1926-1947 *)
Example gen_should_generate_absolute_indexed_by_x_addressing_mode_inc_machine_code : passes (
  do! cpu1 <- mos6502_default Debug ;
  let cpu := (with_gp_register cpu1 GpX 5) in
  do! cpu <- poke cpu 511 5 ;
  let op := (IncAbsoluteIndexedWithX 506) in
  do! mc2 <- generate Debug op cpu ;
  let mc := mc2 in
  Ok (((operations_new 3 7%nat [(SetProgramStatusFlagState Negative false); (SetProgramStatusFlagState Zero false); (WriteMemory 511 6)])),
      (mc))).
Proof. vm_compute. reflexivity. Qed.

(** src/cpu/mos6502/operations/tests/code_generation.rs:1949-1969 *)
Example gen_should_generate_zeropage_addressing_mode_inc_machine_code : passes (
  do! cpu1 <- mos6502_default Debug ;
  let cpu := cpu1 in
  do! cpu <- poke cpu 255 5 ;
  let op := (IncZeroPage 255) in
  do! mc2 <- generate Debug op cpu ;
  let mc := mc2 in
  Ok (((operations_new 2 5%nat [(SetProgramStatusFlagState Negative false); (SetProgramStatusFlagState Zero false); (WriteMemory 255 6)])),
      (mc))).
Proof. vm_compute. reflexivity. Qed.

(** src/cpu/mos6502/operations/tests/code_generation.rs:1971-1992 *)
Example gen_should_generate_zeropage_indexed_by_x_addressing_mode_inc_machine_code : passes (
  do! cpu1 <- mos6502_default Debug ;
  let cpu := (with_gp_register cpu1 GpX 5) in
  do! cpu <- poke cpu 255 5 ;
  let op := (IncZeroPageIndexedWithX 250) in
  do! mc2 <- generate Debug op cpu ;
  let mc := mc2 in
  Ok (((operations_new 2 6%nat [(SetProgramStatusFlagState Negative false); (SetProgramStatusFlagState Zero false); (WriteMemory 255 6)])),
      (mc))).
Proof. vm_compute. reflexivity. Qed.

(** src/cpu/mos6502/operations/tests/code_generation.rs:1996-2014 *)
Example gen_should_generate_implied_addressing_mode_inx_machine_code : passes (
  do! cpu1 <- mos6502_default Debug ;
  let cpu := (with_gp_register cpu1 GpX 18) in
  let op := InxImplied in
  do! mc2 <- generate Debug op cpu ;
  let mc := mc2 in
  Ok (((operations_new 1 2%nat [(SetProgramStatusFlagState Negative false); (SetProgramStatusFlagState Zero false); (Write8bitRegister X 19)])),
      (mc))).
Proof. vm_compute. reflexivity. Qed.

(** src/cpu/mos6502/operations/tests/code_generation.rs:2018-2036 *)
Example gen_should_generate_implied_addressing_mode_iny_machine_code : passes (
  do! cpu1 <- mos6502_default Debug ;
  let cpu := (with_gp_register cpu1 GpY 18) in
  let op := InyImplied in
  do! mc2 <- generate Debug op cpu ;
  let mc := mc2 in
  Ok (((operations_new 1 2%nat [(SetProgramStatusFlagState Negative false); (SetProgramStatusFlagState Zero false); (Write8bitRegister Y 19)])),
      (mc))).
Proof. vm_compute. reflexivity. Qed.

(** src/cpu/mos6502/operations/tests/code_generation.rs:2040-2056 *)
Example gen_should_generate_absolute_addressing_mode_jmp_machine_code : passes (
  do! cpu1 <- mos6502_default Debug ;
  let cpu := cpu1 in
  let addr := 256 in
  let op := (JmpAbsolute addr) in
  do! mc2 <- generate Debug op cpu ;
  let mc := mc2 in
  Ok (((operations_new 0 3%nat [(Write16bitRegister Pc addr)])),
      (mc))).
Proof. vm_compute. reflexivity. Qed.

(** src/cpu/mos6502/operations/tests/code_generation.rs:2058-2080 *)
Example gen_should_generate_indirect_addressing_mode_jmp_machine_code : passes (
  do! cpu1 <- mos6502_default Debug ;
  let cpu := cpu1 in
  let base_addr := 256 in
  let indirect_addr := 336 in
  do! cpu <- poke cpu base_addr 80 ;
  do! cpu <- poke cpu (base_addr + 1) 1 ;
  let op := (JmpIndirect base_addr) in
  do! mc2 <- generate Debug op cpu ;
  let mc := mc2 in
  Ok (((operations_new 0 5%nat [(Write16bitRegister Pc indirect_addr)])),
      (mc))).
Proof. vm_compute. reflexivity. Qed.

(** src/cpu/mos6502/operations/tests/code_generation.rs:2084-2110 *)
Example gen_should_generate_absolute_addressing_mode_jsr_machine_code : passes (
  do! cpu1 <- mos6502_default Debug ;
  let cpu := cpu1 in
  let addr := 256 in
  let op := (JsrAbsolute addr) in
  do! mc2 <- generate Debug op cpu ;
  let mc := mc2 in
  let sph := (256 + (reg_sp cpu)) in
  let spl := (256 + ((reg_sp cpu) - 1)) in
  let '(pcl, pch) := (u16_to_le_bytes (((reg_pc cpu) + 2) mod 65536)) in
  Ok (((operations_new 0 6%nat [(WriteMemory sph pch); (Dec8bitRegister Sp 1); (WriteMemory spl pcl); (Dec8bitRegister Sp 1); (Write16bitRegister Pc addr)])),
      (mc))).
Proof. vm_compute. reflexivity. Qed.

(** src/cpu/mos6502/operations/tests/code_generation.rs:2114-2133 *)
Example gen_should_generate_immediate_addressing_mode_lda_machine_code : passes (
  do! cpu1 <- mos6502_default Debug ;
  let cpu := cpu1 in
  let op := (LdaImmediate 255) in
  do! mc2 <- generate Debug op cpu ;
  let mc := mc2 in
  Ok (((operations_new 2 2%nat [(SetProgramStatusFlagState Negative true); (SetProgramStatusFlagState Zero false); (Write8bitRegister Acc 255)])),
      (mc))).
Proof. vm_compute. reflexivity. Qed.

(** src/cpu/mos6502/operations/tests/code_generation.rs:2135-2172 *)
Example gen_should_generate_zeropage_addressing_mode_lda_machine_code : passes (
  do! cpu1 <- mos6502_default Debug ;
  let cpu := cpu1 in
  let op := (LdaZeroPage 255) in
  do! mc2 <- generate Debug op cpu ;
  let mc := mc2 in
  do! t3 <- operations_into_cycles mc ;
  Ok (((operations_new 2 3%nat [(SetProgramStatusFlagState Negative false); (SetProgramStatusFlagState Zero true); (Write8bitRegister Acc 0)]), [[]; []; [(SetProgramStatusFlagState Negative false); (SetProgramStatusFlagState Zero true); (Write8bitRegister Acc 0); (Inc16bitRegister Pc 2)]]),
      (mc, t3))).
Proof. vm_compute. reflexivity. Qed.

(** src/cpu/mos6502/operations/tests/code_generation.rs:2174-2214 *)
Example gen_should_generate_zeropage_indexed_with_x_addressing_mode_lda_machine_code : passes (
  do! cpu1 <- mos6502_default Debug ;
  let cpu := (with_gp_register cpu1 GpX 5) in
  do! cpu <- poke cpu 5 255 ;
  let op := (LdaZeroPageIndexedWithX 0) in
  do! mc2 <- generate Debug op cpu ;
  let mc := mc2 in
  do! t3 <- operations_into_cycles mc ;
  Ok (((operations_new 2 4%nat [(SetProgramStatusFlagState Negative true); (SetProgramStatusFlagState Zero false); (Write8bitRegister Acc 255)]), [[]; []; []; [(SetProgramStatusFlagState Negative true); (SetProgramStatusFlagState Zero false); (Write8bitRegister Acc 255); (Inc16bitRegister Pc 2)]]),
      (mc, t3))).
Proof. vm_compute. reflexivity. Qed.

(** src/cpu/mos6502/operations/tests/code_generation.rs:2216-2250 *)
Example gen_should_generate_absolute_addressing_mode_lda_machine_code : passes (
  do! cpu1 <- mos6502_default Debug ;
  let cpu := cpu1 in
  let op := (LdaAbsolute 256) in
  do! mc2 <- generate Debug op cpu ;
  let mc := mc2 in
  do! t3 <- operations_into_cycles mc ;
  Ok (((operations_new 3 4%nat [(SetProgramStatusFlagState Negative false); (SetProgramStatusFlagState Zero true); (Write8bitRegister Acc 0)]), [[]; []; []; [(SetProgramStatusFlagState Negative false); (SetProgramStatusFlagState Zero true); (Write8bitRegister Acc 0); (Inc16bitRegister Pc 3)]]),
      (mc, t3))).
Proof. vm_compute. reflexivity. Qed.

(** src/cpu/mos6502/operations/tests/code_generation.rs:2252-2286 *)
Example gen_should_generate_absolute_indexed_with_x_addressing_mode_lda_machine_code : passes (
  do! cpu1 <- mos6502_default Debug ;
  let cpu := (with_gp_register cpu1 GpX 5) in
  let op := (LdaAbsoluteIndexedWithX 256) in
  do! mc2 <- generate Debug op cpu ;
  let mc := mc2 in
  do! t3 <- operations_into_cycles mc ;
  Ok (((operations_new 3 4%nat [(SetProgramStatusFlagState Negative false); (SetProgramStatusFlagState Zero true); (Write8bitRegister Acc 0)]), [[]; []; []; [(SetProgramStatusFlagState Negative false); (SetProgramStatusFlagState Zero true); (Write8bitRegister Acc 0); (Inc16bitRegister Pc 3)]]),
      (mc, t3))).
Proof. vm_compute. reflexivity. Qed.

(** src/cpu/mos6502/operations/tests/code_generation.rs:2288-2322 *)
Example gen_should_generate_absolute_indexed_with_y_addressing_mode_lda_machine_code : passes (
  do! cpu1 <- mos6502_default Debug ;
  let cpu := (with_gp_register cpu1 GpY 5) in
  let op := (LdaAbsoluteIndexedWithY 256) in
  do! mc2 <- generate Debug op cpu ;
  let mc := mc2 in
  do! t3 <- operations_into_cycles mc ;
  Ok (((operations_new 3 4%nat [(SetProgramStatusFlagState Negative false); (SetProgramStatusFlagState Zero true); (Write8bitRegister Acc 0)]), [[]; []; []; [(SetProgramStatusFlagState Negative false); (SetProgramStatusFlagState Zero true); (Write8bitRegister Acc 0); (Inc16bitRegister Pc 3)]]),
      (mc, t3))).
Proof. vm_compute. reflexivity. Qed.

(** src/cpu/mos6502/operations/tests/code_generation.rs:2324-2348 *)
Example gen_should_generate_indirect_y_indexed_addressing_mode_lda_machine_code : passes (
  do! cpu1 <- mos6502_default Debug ;
  let cpu := (with_gp_register cpu1 GpY 5) in
  do! cpu <- poke cpu 0 250 ;
  do! cpu <- poke cpu 1 0 ;
  do! cpu <- poke cpu 255 234 ;
  let op := (LdaIndirectYIndexed 0) in
  do! mc2 <- generate Debug op cpu ;
  let mc := mc2 in
  Ok (((operations_new 2 5%nat [(SetProgramStatusFlagState Negative true); (SetProgramStatusFlagState Zero false); (Write8bitRegister Acc 234)])),
      (mc))).
Proof. vm_compute. reflexivity. Qed.

(** src/cpu/mos6502/operations/tests/code_generation.rs:2350-2374 *)
Example gen_should_generate_x_indexed_indirect_addressing_mode_lda_machine_code : passes (
  do! cpu1 <- mos6502_default Debug ;
  let cpu := (with_gp_register cpu1 GpX 5) in
  do! cpu <- poke cpu 5 255 ;
  do! cpu <- poke cpu 6 0 ;
  do! cpu <- poke cpu 255 234 ;
  let op := (LdaXIndexedIndirect 0) in
  do! mc2 <- generate Debug op cpu ;
  let mc := mc2 in
  Ok (((operations_new 2 6%nat [(SetProgramStatusFlagState Negative true); (SetProgramStatusFlagState Zero false); (Write8bitRegister Acc 234)])),
      (mc))).
Proof. vm_compute. reflexivity. Qed.

(** src/cpu/mos6502/operations/tests/code_generation.rs:2378-2397 *)
Example gen_should_generate_absolute_addressing_mode_ldx_machine_code : passes (
  do! cpu1 <- mos6502_default Debug ;
  let cpu := cpu1 in
  let op := (LdxAbsolute 256) in
  do! mc2 <- generate Debug op cpu ;
  let mc := mc2 in
  Ok (((operations_new 3 4%nat [(SetProgramStatusFlagState Negative false); (SetProgramStatusFlagState Zero true); (Write8bitRegister X 0)])),
      (mc))).
Proof. vm_compute. reflexivity. Qed.

(** src/cpu/mos6502/operations/tests/code_generation.rs:2399-2418 *)
Example gen_should_generate_absolute_indexed_with_y_addressing_mode_ldx_machine_code : passes (
  do! cpu1 <- mos6502_default Debug ;
  let cpu := (with_gp_register cpu1 GpY 5) in
  let op := (LdxAbsoluteIndexedWithY 256) in
  do! mc2 <- generate Debug op cpu ;
  let mc := mc2 in
  Ok (((operations_new 3 4%nat [(SetProgramStatusFlagState Negative false); (SetProgramStatusFlagState Zero true); (Write8bitRegister X 0)])),
      (mc))).
Proof. vm_compute. reflexivity. Qed.

(** src/cpu/mos6502/operations/tests/code_generation.rs:2420-2439 *)
Example gen_should_generate_immediate_addressing_mode_ldx_machine_code : passes (
  do! cpu1 <- mos6502_default Debug ;
  let cpu := cpu1 in
  let op := (LdxImmediate 255) in
  do! mc2 <- generate Debug op cpu ;
  let mc := mc2 in
  Ok (((operations_new 2 2%nat [(SetProgramStatusFlagState Negative true); (SetProgramStatusFlagState Zero false); (Write8bitRegister X 255)])),
      (mc))).
Proof. vm_compute. reflexivity. Qed.

(** src/cpu/mos6502/operations/tests/code_generation.rs:2441-2463 *)
Example gen_should_generate_zeropage_addressing_mode_ldx_machine_code : passes (
  do! cpu1 <- mos6502_default Debug ;
  let cpu := cpu1 in
  let op := (LdxZeroPage 255) in
  do! mc2 <- generate Debug op cpu ;
  let mc := mc2 in
  Ok (((operations_new 2 3%nat [(SetProgramStatusFlagState Negative false); (SetProgramStatusFlagState Zero true); (Write8bitRegister X 0)])),
      (mc))).
Proof. vm_compute. reflexivity. Qed.

(** src/cpu/mos6502/operations/tests/code_generation.rs:2465-2489 *)
Example gen_should_generate_zeropage_indexed_with_y_addressing_mode_ldx_machine_code : passes (
  do! cpu1 <- mos6502_default Debug ;
  let cpu := (with_gp_register cpu1 GpY 5) in
  do! cpu <- poke cpu 5 255 ;
  let op := (LdxZeroPageIndexedWithY 0) in
  do! mc2 <- generate Debug op cpu ;
  let mc := mc2 in
  Ok (((operations_new 2 4%nat [(SetProgramStatusFlagState Negative true); (SetProgramStatusFlagState Zero false); (Write8bitRegister X 255)])),
      (mc))).
Proof. vm_compute. reflexivity. Qed.

(** src/cpu/mos6502/operations/tests/code_generation.rs:2493-2512 *)
Example gen_should_generate_absolute_addressing_mode_ldy_machine_code : passes (
  do! cpu1 <- mos6502_default Debug ;
  let cpu := cpu1 in
  let op := (LdyAbsolute 256) in
  do! mc2 <- generate Debug op cpu ;
  let mc := mc2 in
  Ok (((operations_new 3 4%nat [(SetProgramStatusFlagState Negative false); (SetProgramStatusFlagState Zero true); (Write8bitRegister Y 0)])),
      (mc))).
Proof. vm_compute. reflexivity. Qed.

(** src/cpu/mos6502/operations/tests/code_generation.rs:2514-2533 *)
Example gen_should_generate_absolute_indexed_with_x_addressing_mode_ldy_machine_code : passes (
  do! cpu1 <- mos6502_default Debug ;
  let cpu := (with_gp_register cpu1 GpX 5) in
  let op := (LdyAbsoluteIndexedWithX 256) in
  do! mc2 <- generate Debug op cpu ;
  let mc := mc2 in
  Ok (((operations_new 3 4%nat [(SetProgramStatusFlagState Negative false); (SetProgramStatusFlagState Zero true); (Write8bitRegister Y 0)])),
      (mc))).
Proof. vm_compute. reflexivity. Qed.

(** src/cpu/mos6502/operations/tests/code_generation.rs:2535-2554 *)
Example gen_should_generate_immediate_addressing_mode_ldy_machine_code : passes (
  do! cpu1 <- mos6502_default Debug ;
  let cpu := cpu1 in
  let op := (LdyImmediate 255) in
  do! mc2 <- generate Debug op cpu ;
  let mc := mc2 in
  Ok (((operations_new 2 2%nat [(SetProgramStatusFlagState Negative true); (SetProgramStatusFlagState Zero false); (Write8bitRegister Y 255)])),
      (mc))).
Proof. vm_compute. reflexivity. Qed.

(** src/cpu/mos6502/operations/tests/code_generation.rs:2556-2578 *)
Example gen_should_generate_zeropage_addressing_mode_ldy_machine_code : passes (
  do! cpu1 <- mos6502_default Debug ;
  let cpu := cpu1 in
  let op := (LdyZeroPage 255) in
  do! mc2 <- generate Debug op cpu ;
  let mc := mc2 in
  Ok (((operations_new 2 3%nat [(SetProgramStatusFlagState Negative false); (SetProgramStatusFlagState Zero true); (Write8bitRegister Y 0)])),
      (mc))).
Proof. vm_compute. reflexivity. Qed.

(** src/cpu/mos6502/operations/tests/code_generation.rs:2580-2604 *)
Example gen_should_generate_zeropage_indexed_with_x_addressing_mode_ldy_machine_code : passes (
  do! cpu1 <- mos6502_default Debug ;
  let cpu := (with_gp_register cpu1 GpX 5) in
  do! cpu <- poke cpu 5 255 ;
  let op := (LdyZeroPageIndexedWithX 0) in
  do! mc2 <- generate Debug op cpu ;
  let mc := mc2 in
  Ok (((operations_new 2 4%nat [(SetProgramStatusFlagState Negative true); (SetProgramStatusFlagState Zero false); (Write8bitRegister Y 255)])),
      (mc))).
Proof. vm_compute. reflexivity. Qed.

(** src/cpu/mos6502/operations/tests/code_generation.rs:2608-2629 *)
Example gen_should_generate_absolute_addressing_mode_lsr_machine_code : passes (
  do! cpu1 <- mos6502_default Debug ;
  let cpu := cpu1 in
  do! cpu <- poke cpu 255 85 ;
  let op := (LsrAbsolute 255) in
  do! mc2 <- generate Debug op cpu ;
  let mc := mc2 in
  Ok (((operations_new 3 6%nat [(SetProgramStatusFlagState Carry true); (SetProgramStatusFlagState Negative false); (SetProgramStatusFlagState Zero false); (WriteMemory 255 42)])),
      (mc))).
Proof. vm_compute. reflexivity. Qed.

(** src/cpu/mos6502/operations/tests/code_generation.rs:2631-2653 *)
Example gen_should_generate_absolute_indexed_with_x_addressing_mode_lsr_machine_code : passes (
  do! cpu1 <- mos6502_default Debug ;
  let cpu := (with_gp_register cpu1 GpX 5) in
  do! cpu <- poke cpu 255 85 ;
  let op := (LsrAbsoluteIndexedWithX 250) in
  do! mc2 <- generate Debug op cpu ;
  let mc := mc2 in
  Ok (((operations_new 3 7%nat [(SetProgramStatusFlagState Carry true); (SetProgramStatusFlagState Negative false); (SetProgramStatusFlagState Zero false); (WriteMemory 255 42)])),
      (mc))).
Proof. vm_compute. reflexivity. Qed.

(** src/cpu/mos6502/operations/tests/code_generation.rs:2655-2676 *)
Example gen_should_generate_accumulator_addressing_mode_lsr_machine_code : passes (
  do! cpu1 <- mos6502_default Debug ;
  let cpu := (with_gp_register cpu1 GpAcc 85) in
  let op := LsrAccumulator in
  do! mc2 <- generate Debug op cpu ;
  let mc := mc2 in
  Ok (((operations_new 1 2%nat [(SetProgramStatusFlagState Carry true); (SetProgramStatusFlagState Negative false); (SetProgramStatusFlagState Zero false); (Write8bitRegister Acc 42)])),
      (mc))).
Proof. vm_compute. reflexivity. Qed.

(** src/cpu/mos6502/operations/tests/code_generation.rs:2678-2699 *)
Example gen_should_generate_zeropage_addressing_mode_lsr_machine_code : passes (
  do! cpu1 <- mos6502_default Debug ;
  let cpu := cpu1 in
  do! cpu <- poke cpu 255 85 ;
  let op := (LsrZeroPage 255) in
  do! mc2 <- generate Debug op cpu ;
  let mc := mc2 in
  Ok (((operations_new 2 5%nat [(SetProgramStatusFlagState Carry true); (SetProgramStatusFlagState Negative false); (SetProgramStatusFlagState Zero false); (WriteMemory 255 42)])),
      (mc))).
Proof. vm_compute. reflexivity. Qed.

(** src/cpu/mos6502/operations/tests/code_generation.rs:2701-2723 *)
Example gen_should_generate_zeropage_indexed_with_x_addressing_mode_lsr_machine_code : passes (
  do! cpu1 <- mos6502_default Debug ;
  let cpu := (with_gp_register cpu1 GpX 5) in
  do! cpu <- poke cpu 255 85 ;
  let op := (LsrZeroPageIndexedWithX 250) in
  do! mc2 <- generate Debug op cpu ;
  let mc := mc2 in
  Ok (((operations_new 2 6%nat [(SetProgramStatusFlagState Carry true); (SetProgramStatusFlagState Negative false); (SetProgramStatusFlagState Zero false); (WriteMemory 255 42)])),
      (mc))).
Proof. vm_compute. reflexivity. Qed.

(** src/cpu/mos6502/operations/tests/code_generation.rs:2727-2734 *)
Example gen_should_generate_implied_addressing_mode_nop_machine_code : passes (
  do! cpu1 <- mos6502_default Debug ;
  let cpu := cpu1 in
  let op := NopImplied in
  do! mc2 <- generate Debug op cpu ;
  let mc := mc2 in
  Ok (((operations_new 1 2%nat [])),
      (mc))).
Proof. vm_compute. reflexivity. Qed.

(** src/cpu/mos6502/operations/tests/code_generation.rs:2738-2759 *)
Example gen_should_generate_absolute_addressing_mode_ora_machine_code : passes (
  do! cpu1 <- mos6502_default Debug ;
  let cpu := (with_gp_register cpu1 GpAcc 255) in
  do! cpu <- poke cpu 255 85 ;
  let op := (OraAbsolute 255) in
  do! mc2 <- generate Debug op cpu ;
  let mc := mc2 in
  Ok (((operations_new 3 4%nat [(SetProgramStatusFlagState Negative true); (SetProgramStatusFlagState Zero false); (Write8bitRegister Acc 255)])),
      (mc))).
Proof. vm_compute. reflexivity. Qed.

(** src/cpu/mos6502/operations/tests/code_generation.rs:2761-2783 *)
Example gen_should_generate_absolute_indexed_with_x_addressing_mode_ora_machine_code : passes (
  do! cpu1 <- mos6502_default Debug ;
  let cpu := (with_gp_register (with_gp_register cpu1 GpAcc 85) GpX 5) in
  do! cpu <- poke cpu 255 255 ;
  let op := (OraAbsoluteIndexedWithX 250) in
  do! mc2 <- generate Debug op cpu ;
  let mc := mc2 in
  Ok (((operations_new 3 4%nat [(SetProgramStatusFlagState Negative true); (SetProgramStatusFlagState Zero false); (Write8bitRegister Acc 255)])),
      (mc))).
Proof. vm_compute. reflexivity. Qed.

(** src/cpu/mos6502/operations/tests/code_generation.rs:2785-2807 *)
Example gen_should_generate_absolute_indexed_with_y_addressing_mode_ora_machine_code : passes (
  do! cpu1 <- mos6502_default Debug ;
  let cpu := (with_gp_register (with_gp_register cpu1 GpAcc 85) GpY 5) in
  do! cpu <- poke cpu 255 255 ;
  let op := (OraAbsoluteIndexedWithY 250) in
  do! mc2 <- generate Debug op cpu ;
  let mc := mc2 in
  Ok (((operations_new 3 4%nat [(SetProgramStatusFlagState Negative true); (SetProgramStatusFlagState Zero false); (Write8bitRegister Acc 255)])),
      (mc))).
Proof. vm_compute. reflexivity. Qed.

(** src/cpu/mos6502/operations/tests/code_generation.rs:2809-2834 *)
Example gen_should_generate_indirect_y_indexed_addressing_mode_ora_machine_code : passes (
  do! cpu1 <- mos6502_default Debug ;
  let cpu := (with_gp_register (with_gp_register cpu1 GpAcc 255) GpY 5) in
  do! cpu <- poke cpu 0 250 ;
  do! cpu <- poke cpu 1 0 ;
  do! cpu <- poke cpu 255 85 ;
  let op := (OraIndirectYIndexed 0) in
  do! mc2 <- generate Debug op cpu ;
  let mc := mc2 in
  Ok (((operations_new 2 5%nat [(SetProgramStatusFlagState Negative true); (SetProgramStatusFlagState Zero false); (Write8bitRegister Acc 255)])),
      (mc))).
Proof. vm_compute. reflexivity. Qed.

(** src/cpu/mos6502/operations/tests/code_generation.rs:2836-2856 *)
Example gen_should_generate_immediate_addressing_mode_ora_machine_code : passes (
  do! cpu1 <- mos6502_default Debug ;
  let cpu := (with_gp_register cpu1 GpAcc 255) in
  let op := (OraImmediate 85) in
  do! mc2 <- generate Debug op cpu ;
  let mc := mc2 in
  Ok (((operations_new 2 2%nat [(SetProgramStatusFlagState Negative true); (SetProgramStatusFlagState Zero false); (Write8bitRegister Acc 255)])),
      (mc))).
Proof. vm_compute. reflexivity. Qed.

(** src/cpu/mos6502/operations/tests/code_generation.rs:2858-2883 *)
Example gen_should_generate_x_indexed_indirect_addressing_mode_ora_machine_code : passes (
  do! cpu1 <- mos6502_default Debug ;
  let cpu := (with_gp_register (with_gp_register cpu1 GpAcc 255) GpX 5) in
  do! cpu <- poke cpu 5 255 ;
  do! cpu <- poke cpu 6 0 ;
  do! cpu <- poke cpu 255 85 ;
  let op := (OraXIndexedIndirect 0) in
  do! mc2 <- generate Debug op cpu ;
  let mc := mc2 in
  Ok (((operations_new 2 6%nat [(SetProgramStatusFlagState Negative true); (SetProgramStatusFlagState Zero false); (Write8bitRegister Acc 255)])),
      (mc))).
Proof. vm_compute. reflexivity. Qed.

(** src/cpu/mos6502/operations/tests/code_generation.rs:2885-2906 *)
Example gen_should_generate_zeropage_addressing_mode_ora_machine_code : passes (
  do! cpu1 <- mos6502_default Debug ;
  let cpu := (with_gp_register cpu1 GpAcc 255) in
  do! cpu <- poke cpu 255 85 ;
  let op := (OraZeroPage 255) in
  do! mc2 <- generate Debug op cpu ;
  let mc := mc2 in
  Ok (((operations_new 2 3%nat [(SetProgramStatusFlagState Negative true); (SetProgramStatusFlagState Zero false); (Write8bitRegister Acc 255)])),
      (mc))).
Proof. vm_compute. reflexivity. Qed.

(** src/cpu/mos6502/operations/tests/code_generation.rs:2908-2930 *)
Example gen_should_generate_zeropage_indexed_with_x_addressing_mode_ora_machine_code : passes (
  do! cpu1 <- mos6502_default Debug ;
  let cpu := (with_gp_register (with_gp_register cpu1 GpAcc 255) GpX 5) in
  do! cpu <- poke cpu 255 85 ;
  let op := (OraZeroPageIndexedWithX 250) in
  do! mc2 <- generate Debug op cpu ;
  let mc := mc2 in
  Ok (((operations_new 2 4%nat [(SetProgramStatusFlagState Negative true); (SetProgramStatusFlagState Zero false); (Write8bitRegister Acc 255)])),
      (mc))).
Proof. vm_compute. reflexivity. Qed.

(** src/cpu/mos6502/operations/tests/code_generation.rs:2934-2955 *)
Example gen_should_generate_implied_addressing_mode_pha_machine_code : passes (
  do! cpu1 <- mos6502_default Debug ;
  do! s2 <- reset Debug cpu1 ;
  let state3 := ss_unwrap s2 in
  let cpu := (with_gp_register state3 GpAcc 255) in
  let op := PhaImplied in
  do! mc4 <- generate Debug op cpu ;
  let mc := mc4 in
  Ok (((operations_new 1 3%nat [(WriteMemory 511 255); (Dec8bitRegister Sp 1)])),
      (mc))).
Proof. vm_compute. reflexivity. Qed.

(** src/cpu/mos6502/operations/tests/code_generation.rs:2959-2980 *)
Example gen_should_generate_implied_addressing_mode_php_machine_code : passes (
  do! cpu1 <- mos6502_default Debug ;
  do! s2 <- reset Debug cpu1 ;
  let state3 := ss_unwrap s2 in
  let cpu := (with_ps_register state3 (ps_with_value 85)) in
  let op := PhpImplied in
  do! mc4 <- generate Debug op cpu ;
  let mc := mc4 in
  Ok (((operations_new 1 3%nat [(WriteMemory 511 85); (Dec8bitRegister Sp 1)])),
      (mc))).
Proof. vm_compute. reflexivity. Qed.

(** src/cpu/mos6502/operations/tests/code_generation.rs:2984-3011 *)
Example gen_should_generate_implied_addressing_mode_pla_machine_code : passes (
  do! cpu1 <- mos6502_default Debug ;
  do! s2 <- reset Debug cpu1 ;
  let state3 := ss_unwrap s2 in
  let cpu := (with_sp_register state3 254) in
  do! cpu <- poke cpu 511 255 ;
  let op := PlaImplied in
  do! mc4 <- generate Debug op cpu ;
  let mc := mc4 in
  do! t5 <- operations_into_cycles mc ;
  Ok (([[]; []; []; [(Inc8bitRegister Sp 1); (SetProgramStatusFlagState Negative true); (SetProgramStatusFlagState Zero false); (Write8bitRegister Acc 255); (Inc16bitRegister Pc 1)]]),
      (t5))).
Proof. vm_compute. reflexivity. Qed.

(** src/cpu/mos6502/operations/tests/code_generation.rs:3015-3040 *)
Example gen_should_generate_implied_addressing_mode_plp_machine_code : passes (
  do! cpu1 <- mos6502_default Debug ;
  do! s2 <- reset Debug cpu1 ;
  let state3 := ss_unwrap s2 in
  let cpu := (with_sp_register state3 254) in
  do! cpu <- poke cpu 511 85 ;
  let op := PlpImplied in
  do! mc4 <- generate Debug op cpu ;
  let mc := mc4 in
  do! t5 <- operations_into_cycles mc ;
  Ok (([[]; []; []; [(Inc8bitRegister Sp 1); (Write8bitRegister Ps 85); (Inc16bitRegister Pc 1)]]),
      (t5))).
Proof. vm_compute. reflexivity. Qed.

(** src/cpu/mos6502/operations/tests/code_generation.rs:3044-3069 *)
Example gen_should_generate_absolute_addressing_mode_rol_machine_code : passes (
  do! cpu1 <- mos6502_default Debug ;
  let ps := ps_default in
  let ps := mkPs true (ps_zero ps) (ps_interrupt_disable ps) (ps_decimal ps) (ps_brk ps) (ps_unused ps) (ps_overflow ps) (ps_negative ps) in
  let cpu := (with_ps_register cpu1 ps) in
  do! cpu <- poke cpu 255 170 ;
  let op := (RolAbsolute 255) in
  do! mc2 <- generate Debug op cpu ;
  let mc := mc2 in
  Ok (((operations_new 3 6%nat [(SetProgramStatusFlagState Carry true); (SetProgramStatusFlagState Negative false); (SetProgramStatusFlagState Zero false); (WriteMemory 255 85)])),
      (mc))).
Proof. vm_compute. reflexivity. Qed.

(** src/cpu/mos6502/operations/tests/code_generation.rs:3071-3098 *)
Example gen_should_generate_absolute_indexed_with_x_addressing_mode_rol_machine_code : passes (
  do! cpu1 <- mos6502_default Debug ;
  let ps := ps_default in
  let ps := mkPs true (ps_zero ps) (ps_interrupt_disable ps) (ps_decimal ps) (ps_brk ps) (ps_unused ps) (ps_overflow ps) (ps_negative ps) in
  let cpu := (with_ps_register (with_gp_register cpu1 GpX 5) ps) in
  do! cpu <- poke cpu 255 170 ;
  let op := (RolAbsoluteIndexedWithX 250) in
  do! mc2 <- generate Debug op cpu ;
  let mc := mc2 in
  Ok (((operations_new 3 7%nat [(SetProgramStatusFlagState Carry true); (SetProgramStatusFlagState Negative false); (SetProgramStatusFlagState Zero false); (WriteMemory 255 85)])),
      (mc))).
Proof. vm_compute. reflexivity. Qed.

(** src/cpu/mos6502/operations/tests/code_generation.rs:3100-3126 *)
Example gen_should_generate_accumulator_addressing_mode_rol_machine_code : passes (
  do! cpu1 <- mos6502_default Debug ;
  let ps := ps_default in
  let ps := mkPs true (ps_zero ps) (ps_interrupt_disable ps) (ps_decimal ps) (ps_brk ps) (ps_unused ps) (ps_overflow ps) (ps_negative ps) in
  let cpu := (with_ps_register (with_gp_register cpu1 GpAcc 170) ps) in
  let op := RolAccumulator in
  do! mc2 <- generate Debug op cpu ;
  let mc := mc2 in
  Ok (((operations_new 1 2%nat [(SetProgramStatusFlagState Carry true); (SetProgramStatusFlagState Negative false); (SetProgramStatusFlagState Zero false); (Write8bitRegister Acc 85)])),
      (mc))).
Proof. vm_compute. reflexivity. Qed.

(** src/cpu/mos6502/operations/tests/code_generation.rs:3128-3153 *)
Example gen_should_generate_zeropage_addressing_mode_rol_machine_code : passes (
  do! cpu1 <- mos6502_default Debug ;
  let ps := ps_default in
  let ps := mkPs true (ps_zero ps) (ps_interrupt_disable ps) (ps_decimal ps) (ps_brk ps) (ps_unused ps) (ps_overflow ps) (ps_negative ps) in
  let cpu := (with_ps_register cpu1 ps) in
  do! cpu <- poke cpu 255 170 ;
  let op := (RolZeroPage 255) in
  do! mc2 <- generate Debug op cpu ;
  let mc := mc2 in
  Ok (((operations_new 2 5%nat [(SetProgramStatusFlagState Carry true); (SetProgramStatusFlagState Negative false); (SetProgramStatusFlagState Zero false); (WriteMemory 255 85)])),
      (mc))).
Proof. vm_compute. reflexivity. Qed.

(** src/cpu/mos6502/operations/tests/code_generation.rs:3155-3182 *)
Example gen_should_generate_zeropage_indexed_with_x_addressing_mode_rol_machine_code : passes (
  do! cpu1 <- mos6502_default Debug ;
  let ps := ps_default in
  let ps := mkPs true (ps_zero ps) (ps_interrupt_disable ps) (ps_decimal ps) (ps_brk ps) (ps_unused ps) (ps_overflow ps) (ps_negative ps) in
  let cpu := (with_ps_register (with_gp_register cpu1 GpX 5) ps) in
  do! cpu <- poke cpu 255 170 ;
  let op := (RolZeroPageIndexedWithX 250) in
  do! mc2 <- generate Debug op cpu ;
  let mc := mc2 in
  Ok (((operations_new 2 6%nat [(SetProgramStatusFlagState Carry true); (SetProgramStatusFlagState Negative false); (SetProgramStatusFlagState Zero false); (WriteMemory 255 85)])),
      (mc))).
Proof. vm_compute. reflexivity. Qed.

(** src/cpu/mos6502/operations/tests/code_generation.rs:3186-3211 *)
Example gen_should_generate_absolute_addressing_mode_ror_machine_code : passes (
  do! cpu1 <- mos6502_default Debug ;
  let ps := ps_default in
  let ps := mkPs true (ps_zero ps) (ps_interrupt_disable ps) (ps_decimal ps) (ps_brk ps) (ps_unused ps) (ps_overflow ps) (ps_negative ps) in
  let cpu := (with_ps_register cpu1 ps) in
  do! cpu <- poke cpu 255 170 ;
  let op := (RorAbsolute 255) in
  do! mc2 <- generate Debug op cpu ;
  let mc := mc2 in
  Ok (((operations_new 3 6%nat [(SetProgramStatusFlagState Carry false); (SetProgramStatusFlagState Negative true); (SetProgramStatusFlagState Zero false); (WriteMemory 255 213)])),
      (mc))).
Proof. vm_compute. reflexivity. Qed.

(** src/cpu/mos6502/operations/tests/code_generation.rs:3213-3240 *)
Example gen_should_generate_absolute_indexed_with_x_addressing_mode_ror_machine_code : passes (
  do! cpu1 <- mos6502_default Debug ;
  let ps := ps_default in
  let ps := mkPs true (ps_zero ps) (ps_interrupt_disable ps) (ps_decimal ps) (ps_brk ps) (ps_unused ps) (ps_overflow ps) (ps_negative ps) in
  let cpu := (with_ps_register (with_gp_register cpu1 GpX 5) ps) in
  do! cpu <- poke cpu 255 170 ;
  let op := (RorAbsoluteIndexedWithX 250) in
  do! mc2 <- generate Debug op cpu ;
  let mc := mc2 in
  Ok (((operations_new 3 7%nat [(SetProgramStatusFlagState Carry false); (SetProgramStatusFlagState Negative true); (SetProgramStatusFlagState Zero false); (WriteMemory 255 213)])),
      (mc))).
Proof. vm_compute. reflexivity. Qed.

(** src/cpu/mos6502/operations/tests/code_generation.rs:3242-3268 *)
Example gen_should_generate_accumulator_addressing_mode_ror_machine_code : passes (
  do! cpu1 <- mos6502_default Debug ;
  let ps := ps_default in
  let ps := mkPs true (ps_zero ps) (ps_interrupt_disable ps) (ps_decimal ps) (ps_brk ps) (ps_unused ps) (ps_overflow ps) (ps_negative ps) in
  let cpu := (with_ps_register (with_gp_register cpu1 GpAcc 170) ps) in
  let op := RorAccumulator in
  do! mc2 <- generate Debug op cpu ;
  let mc := mc2 in
  Ok (((operations_new 1 2%nat [(SetProgramStatusFlagState Carry false); (SetProgramStatusFlagState Negative true); (SetProgramStatusFlagState Zero false); (Write8bitRegister Acc 213)])),
      (mc))).
Proof. vm_compute. reflexivity. Qed.

(** src/cpu/mos6502/operations/tests/code_generation.rs:3270-3295 *)
Example gen_should_generate_zeropage_addressing_mode_ror_machine_code : passes (
  do! cpu1 <- mos6502_default Debug ;
  let ps := ps_default in
  let ps := mkPs true (ps_zero ps) (ps_interrupt_disable ps) (ps_decimal ps) (ps_brk ps) (ps_unused ps) (ps_overflow ps) (ps_negative ps) in
  let cpu := (with_ps_register cpu1 ps) in
  do! cpu <- poke cpu 255 170 ;
  let op := (RorZeroPage 255) in
  do! mc2 <- generate Debug op cpu ;
  let mc := mc2 in
  Ok (((operations_new 2 5%nat [(SetProgramStatusFlagState Carry false); (SetProgramStatusFlagState Negative true); (SetProgramStatusFlagState Zero false); (WriteMemory 255 213)])),
      (mc))).
Proof. vm_compute. reflexivity. Qed.

(** src/cpu/mos6502/operations/tests/code_generation.rs:3297-3324 *)
Example gen_should_generate_zeropage_indexed_with_x_addressing_mode_ror_machine_code : passes (
  do! cpu1 <- mos6502_default Debug ;
  let ps := ps_default in
  let ps := mkPs true (ps_zero ps) (ps_interrupt_disable ps) (ps_decimal ps) (ps_brk ps) (ps_unused ps) (ps_overflow ps) (ps_negative ps) in
  let cpu := (with_ps_register (with_gp_register cpu1 GpX 5) ps) in
  do! cpu <- poke cpu 255 170 ;
  let op := (RorZeroPageIndexedWithX 250) in
  do! mc2 <- generate Debug op cpu ;
  let mc := mc2 in
  Ok (((operations_new 2 6%nat [(SetProgramStatusFlagState Carry false); (SetProgramStatusFlagState Negative true); (SetProgramStatusFlagState Zero false); (WriteMemory 255 213)])),
      (mc))).
Proof. vm_compute. reflexivity. Qed.

(** src/cpu/mos6502/operations/tests/code_generation.rs:3328-3358 *)
Example gen_should_generate_implied_addressing_mode_rti_machine_code : passes (
  do! cpu1 <- mos6502_default Debug ;
  let cpu := (with_sp_register cpu1 252) in
  do! cpu <- poke cpu 511 18 ;
  do! cpu <- poke cpu 510 52 ;
  let ps := ps_default in
  let ps := mkPs (ps_carry ps) (ps_zero ps) false (ps_decimal ps) (ps_brk ps) (ps_unused ps) (ps_overflow ps) (ps_negative ps) in
  let ps := mkPs (ps_carry ps) (ps_zero ps) (ps_interrupt_disable ps) (ps_decimal ps) false (ps_unused ps) (ps_overflow ps) (ps_negative ps) in
  do! cpu <- poke cpu 509 (ps_read ps) ;
  let op := RtiImplied in
  do! mc2 <- generate Debug op cpu ;
  let mc := mc2 in
  Ok (((operations_new 1 6%nat [(Inc8bitRegister Sp 1); (Write8bitRegister Ps 32); (Inc8bitRegister Sp 2); (Write16bitRegister Pc 4660)])),
      (mc))).
Proof. vm_compute. reflexivity. Qed.

(** src/cpu/mos6502/operations/tests/code_generation.rs:3362-3382 *)
Example gen_should_generate_implied_addressing_mode_rts_machine_code : passes (
  do! cpu1 <- mos6502_default Debug ;
  let cpu := (with_sp_register cpu1 253) in
  do! cpu <- poke cpu 510 2 ;
  do! cpu <- poke cpu 511 96 ;
  let op := RtsImplied in
  do! mc2 <- generate Debug op cpu ;
  let mc := mc2 in
  Ok (((operations_new 1 6%nat [(Inc8bitRegister Sp 2); (Write16bitRegister Pc 24578)])),
      (mc))).
Proof. vm_compute. reflexivity. Qed.

(** src/cpu/mos6502/operations/tests/code_generation.rs:3386-3415 *)
Example gen_should_generate_absolute_addressing_mode_sbc_machine_code : passes (
  do! cpu1 <- mos6502_default Debug ;
  let ps := ps_default in
  let ps := mkPs true (ps_zero ps) (ps_interrupt_disable ps) (ps_decimal ps) (ps_brk ps) (ps_unused ps) (ps_overflow ps) (ps_negative ps) in
  let cpu := (with_ps_register (with_gp_register cpu1 GpAcc 80) ps) in
  do! cpu <- poke cpu 255 176 ;
  let op := (SbcAbsolute 255) in
  do! mc2 <- generate Debug op cpu ;
  let mc := mc2 in
  Ok (((operations_new 3 4%nat [(SetProgramStatusFlagState Carry false); (SetProgramStatusFlagState Negative true); (SetProgramStatusFlagState Overflow true); (SetProgramStatusFlagState Zero false); (Write8bitRegister Acc 160)])),
      (mc))).
Proof. vm_compute. reflexivity. Qed.

(** src/cpu/mos6502/operations/tests/code_generation.rs:3417-3447 *)
Example gen_should_generate_absolute_indexed_with_x_addressing_mode_sbc_machine_code : passes (
  do! cpu1 <- mos6502_default Debug ;
  let ps := ps_default in
  let ps := mkPs true (ps_zero ps) (ps_interrupt_disable ps) (ps_decimal ps) (ps_brk ps) (ps_unused ps) (ps_overflow ps) (ps_negative ps) in
  let cpu := (with_ps_register (with_gp_register (with_gp_register cpu1 GpAcc 80) GpX 5) ps) in
  do! cpu <- poke cpu 255 176 ;
  let op := (SbcAbsoluteIndexedWithX 250) in
  do! mc2 <- generate Debug op cpu ;
  let mc := mc2 in
  Ok (((operations_new 3 4%nat [(SetProgramStatusFlagState Carry false); (SetProgramStatusFlagState Negative true); (SetProgramStatusFlagState Overflow true); (SetProgramStatusFlagState Zero false); (Write8bitRegister Acc 160)])),
      (mc))).
Proof. vm_compute. reflexivity. Qed.

(** src/cpu/mos6502/operations/tests/code_generation.rs:3449-3479 *)
Example gen_should_generate_absolute_indexed_with_y_addressing_mode_sbc_machine_code : passes (
  do! cpu1 <- mos6502_default Debug ;
  let ps := ps_default in
  let ps := mkPs true (ps_zero ps) (ps_interrupt_disable ps) (ps_decimal ps) (ps_brk ps) (ps_unused ps) (ps_overflow ps) (ps_negative ps) in
  let cpu := (with_ps_register (with_gp_register (with_gp_register cpu1 GpAcc 80) GpY 5) ps) in
  do! cpu <- poke cpu 255 176 ;
  let op := (SbcAbsoluteIndexedWithY 250) in
  do! mc2 <- generate Debug op cpu ;
  let mc := mc2 in
  Ok (((operations_new 3 4%nat [(SetProgramStatusFlagState Carry false); (SetProgramStatusFlagState Negative true); (SetProgramStatusFlagState Overflow true); (SetProgramStatusFlagState Zero false); (Write8bitRegister Acc 160)])),
      (mc))).
Proof. vm_compute. reflexivity. Qed.

(** src/cpu/mos6502/operations/tests/code_generation.rs:3481-3513 *)
Example gen_should_generate_indirect_y_indexed_addressing_mode_sbc_machine_code : passes (
  do! cpu1 <- mos6502_default Debug ;
  let ps := ps_default in
  let ps := mkPs true (ps_zero ps) (ps_interrupt_disable ps) (ps_decimal ps) (ps_brk ps) (ps_unused ps) (ps_overflow ps) (ps_negative ps) in
  let cpu := (with_ps_register (with_gp_register (with_gp_register cpu1 GpAcc 80) GpY 5) ps) in
  do! cpu <- poke cpu 0 250 ;
  do! cpu <- poke cpu 1 0 ;
  do! cpu <- poke cpu 255 176 ;
  let op := (SbcIndirectYIndexed 0) in
  do! mc2 <- generate Debug op cpu ;
  let mc := mc2 in
  Ok (((operations_new 2 5%nat [(SetProgramStatusFlagState Carry false); (SetProgramStatusFlagState Negative true); (SetProgramStatusFlagState Overflow true); (SetProgramStatusFlagState Zero false); (Write8bitRegister Acc 160)])),
      (mc))).
Proof. vm_compute. reflexivity. Qed.

(** src/cpu/mos6502/operations/tests/code_generation.rs:3515-3543 *)
Example gen_should_generate_immediate_addressing_mode_sbc_machine_code : passes (
  do! cpu1 <- mos6502_default Debug ;
  let ps := ps_default in
  let ps := mkPs true (ps_zero ps) (ps_interrupt_disable ps) (ps_decimal ps) (ps_brk ps) (ps_unused ps) (ps_overflow ps) (ps_negative ps) in
  let cpu := (with_ps_register (with_gp_register cpu1 GpAcc 80) ps) in
  let op := (SbcImmediate 176) in
  do! mc2 <- generate Debug op cpu ;
  let mc := mc2 in
  Ok (((operations_new 2 2%nat [(SetProgramStatusFlagState Carry false); (SetProgramStatusFlagState Negative true); (SetProgramStatusFlagState Overflow true); (SetProgramStatusFlagState Zero false); (Write8bitRegister Acc 160)])),
      (mc))).
Proof. vm_compute. reflexivity. Qed.

(** src/cpu/mos6502/operations/tests/code_generation.rs:3545-3577 *)
Example gen_should_generate_x_indexed_indirect_addressing_mode_sbc_machine_code : passes (
  do! cpu1 <- mos6502_default Debug ;
  let ps := ps_default in
  let ps := mkPs true (ps_zero ps) (ps_interrupt_disable ps) (ps_decimal ps) (ps_brk ps) (ps_unused ps) (ps_overflow ps) (ps_negative ps) in
  let cpu := (with_ps_register (with_gp_register (with_gp_register cpu1 GpAcc 80) GpX 5) ps) in
  do! cpu <- poke cpu 5 255 ;
  do! cpu <- poke cpu 6 0 ;
  do! cpu <- poke cpu 255 176 ;
  let op := (SbcXIndexedIndirect 0) in
  do! mc2 <- generate Debug op cpu ;
  let mc := mc2 in
  Ok (((operations_new 2 6%nat [(SetProgramStatusFlagState Carry false); (SetProgramStatusFlagState Negative true); (SetProgramStatusFlagState Overflow true); (SetProgramStatusFlagState Zero false); (Write8bitRegister Acc 160)])),
      (mc))).
Proof. vm_compute. reflexivity. Qed.

(** src/cpu/mos6502/operations/tests/code_generation.rs:3579-3608 *)
Example gen_should_generate_zeropage_addressing_mode_sbc_machine_code : passes (
  do! cpu1 <- mos6502_default Debug ;
  let ps := ps_default in
  let ps := mkPs true (ps_zero ps) (ps_interrupt_disable ps) (ps_decimal ps) (ps_brk ps) (ps_unused ps) (ps_overflow ps) (ps_negative ps) in
  let cpu := (with_ps_register (with_gp_register cpu1 GpAcc 80) ps) in
  do! cpu <- poke cpu 255 176 ;
  let op := (SbcZeroPage 255) in
  do! mc2 <- generate Debug op cpu ;
  let mc := mc2 in
  Ok (((operations_new 2 3%nat [(SetProgramStatusFlagState Carry false); (SetProgramStatusFlagState Negative true); (SetProgramStatusFlagState Overflow true); (SetProgramStatusFlagState Zero false); (Write8bitRegister Acc 160)])),
      (mc))).
Proof. vm_compute. reflexivity. Qed.

(** src/cpu/mos6502/operations/tests/code_generation.rs:3610-3640 *)
Example gen_should_generate_zeropage_indexed_with_x_addressing_mode_sbc_machine_code : passes (
  do! cpu1 <- mos6502_default Debug ;
  let ps := ps_default in
  let ps := mkPs true (ps_zero ps) (ps_interrupt_disable ps) (ps_decimal ps) (ps_brk ps) (ps_unused ps) (ps_overflow ps) (ps_negative ps) in
  let cpu := (with_ps_register (with_gp_register (with_gp_register cpu1 GpAcc 80) GpX 5) ps) in
  do! cpu <- poke cpu 255 176 ;
  let op := (SbcZeroPageIndexedWithX 250) in
  do! mc2 <- generate Debug op cpu ;
  let mc := mc2 in
  Ok (((operations_new 2 4%nat [(SetProgramStatusFlagState Carry false); (SetProgramStatusFlagState Negative true); (SetProgramStatusFlagState Overflow true); (SetProgramStatusFlagState Zero false); (Write8bitRegister Acc 160)])),
      (mc))).
Proof. vm_compute. reflexivity. Qed.

(** src/cpu/mos6502/operations/tests/code_generation.rs:3644-3663 *)
Example gen_should_generate_implied_addressing_mode_sec_machine_code : passes (
  let ps := ps_default in
  let ps := mkPs false (ps_zero ps) (ps_interrupt_disable ps) (ps_decimal ps) (ps_brk ps) (ps_unused ps) (ps_overflow ps) (ps_negative ps) in
  do! cpu1 <- mos6502_default Debug ;
  let cpu := (with_ps_register cpu1 ps) in
  let op := SecImplied in
  do! mc2 <- generate Debug op cpu ;
  let mc := mc2 in
  Ok (((operations_new 1 2%nat [(SetProgramStatusFlagState Carry true)])),
      (mc))).
Proof. vm_compute. reflexivity. Qed.

(** src/cpu/mos6502/operations/tests/code_generation.rs:3667-3686 *)
Example gen_should_generate_implied_addressing_mode_sed_machine_code : passes (
  let ps := ps_default in
  let ps := mkPs (ps_carry ps) (ps_zero ps) (ps_interrupt_disable ps) false (ps_brk ps) (ps_unused ps) (ps_overflow ps) (ps_negative ps) in
  do! cpu1 <- mos6502_default Debug ;
  let cpu := (with_ps_register cpu1 ps) in
  let op := SedImplied in
  do! mc2 <- generate Debug op cpu ;
  let mc := mc2 in
  Ok (((operations_new 1 2%nat [(SetProgramStatusFlagState Decimal true)])),
      (mc))).
Proof. vm_compute. reflexivity. Qed.

(** src/cpu/mos6502/operations/tests/code_generation.rs:3690-3709 *)
Example gen_should_generate_implied_addressing_mode_sei_machine_code : passes (
  let ps := ps_default in
  let ps := mkPs (ps_carry ps) (ps_zero ps) false (ps_decimal ps) (ps_brk ps) (ps_unused ps) (ps_overflow ps) (ps_negative ps) in
  do! cpu1 <- mos6502_default Debug ;
  let cpu := (with_ps_register cpu1 ps) in
  let op := SeiImplied in
  do! mc2 <- generate Debug op cpu ;
  let mc := mc2 in
  Ok (((operations_new 1 2%nat [(SetProgramStatusFlagState Interrupt true)])),
      (mc))).
Proof. vm_compute. reflexivity. Qed.

(** src/cpu/mos6502/operations/tests/code_generation.rs:3713-3724 *)
Example gen_should_generate_absolute_addressing_mode_sta_machine_code : passes (
  do! cpu1 <- mos6502_default Debug ;
  let cpu := cpu1 in
  let op := (StaAbsolute 256) in
  do! mc2 <- generate Debug op cpu ;
  let mc := mc2 in
  Ok (((operations_new 3 4%nat [(WriteMemory 256 0)])),
      (mc))).
Proof. vm_compute. reflexivity. Qed.

(** src/cpu/mos6502/operations/tests/code_generation.rs:3726-3753 *)
Example gen_should_generate_absolute_with_x_index_addressing_mode_sta_machine_code : passes (
  do! cpu1 <- mos6502_default Debug ;
  let cpu := (with_gp_register (with_gp_register cpu1 GpAcc 255) GpX 5) in
  let op := (StaAbsoluteIndexedWithX 0) in
  do! mc2 <- generate Debug op cpu ;
  let mc := mc2 in
  do! t3 <- operations_into_cycles mc ;
  Ok (((operations_new 3 5%nat [(WriteMemory 5 255)]), [[]; []; []; []; [(WriteMemory 5 255); (Inc16bitRegister Pc 3)]]),
      (mc, t3))).
Proof. vm_compute. reflexivity. Qed.

(** src/cpu/mos6502/operations/tests/code_generation.rs:3755-3782 *)
Example gen_should_generate_absolute_with_y_index_addressing_mode_sta_machine_code : passes (
  do! cpu1 <- mos6502_default Debug ;
  let cpu := (with_gp_register (with_gp_register cpu1 GpAcc 255) GpY 5) in
  let op := (StaAbsoluteIndexedWithY 0) in
  do! mc2 <- generate Debug op cpu ;
  let mc := mc2 in
  do! t3 <- operations_into_cycles mc ;
  Ok (((operations_new 3 5%nat [(WriteMemory 5 255)]), [[]; []; []; []; [(WriteMemory 5 255); (Inc16bitRegister Pc 3)]]),
      (mc, t3))).
Proof. vm_compute. reflexivity. Qed.

(** src/cpu/mos6502/operations/tests/code_generation.rs:3784-3800 *)
Example gen_should_generate_indirect_y_indexed_addressing_mode_sta_machine_code : passes (
  do! cpu1 <- mos6502_default Debug ;
  let cpu := (with_gp_register (with_gp_register cpu1 GpY 5) GpAcc 255) in
  do! cpu <- poke cpu 0 250 ;
  do! cpu <- poke cpu 1 0 ;
  let op := (StaIndirectYIndexed 0) in
  do! mc2 <- generate Debug op cpu ;
  let mc := mc2 in
  Ok (((operations_new 2 6%nat [(WriteMemory 255 255)])),
      (mc))).
Proof. vm_compute. reflexivity. Qed.

(** src/cpu/mos6502/operations/tests/code_generation.rs:3802-3818 *)
Example gen_should_generate_x_indexed_indirect_addressing_mode_sta_machine_code : passes (
  do! cpu1 <- mos6502_default Debug ;
  let cpu := (with_gp_register (with_gp_register cpu1 GpX 5) GpAcc 255) in
  do! cpu <- poke cpu 5 255 ;
  do! cpu <- poke cpu 6 0 ;
  let op := (StaXIndexedIndirect 0) in
  do! mc2 <- generate Debug op cpu ;
  let mc := mc2 in
  Ok (((operations_new 2 6%nat [(WriteMemory 255 255)])),
      (mc))).
Proof. vm_compute. reflexivity. Qed.

(** src/cpu/mos6502/operations/tests/code_generation.rs:3820-3831 *)
Example gen_should_generate_zeropage_addressing_mode_sta_machine_code : passes (
  do! cpu1 <- mos6502_default Debug ;
  let cpu := cpu1 in
  let op := (StaZeroPage 1) in
  do! mc2 <- generate Debug op cpu ;
  let mc := mc2 in
  Ok (((operations_new 2 3%nat [(WriteMemory 1 0)])),
      (mc))).
Proof. vm_compute. reflexivity. Qed.

(** src/cpu/mos6502/operations/tests/code_generation.rs:3833-3846 *)
Example gen_should_generate_zeropage_with_x_index_addressing_mode_sta_machine_code : passes (
  do! cpu1 <- mos6502_default Debug ;
  let cpu := (with_gp_register (with_gp_register cpu1 GpAcc 255) GpX 5) in
  let op := (StaZeroPageIndexedWithX 0) in
  do! mc2 <- generate Debug op cpu ;
  let mc := mc2 in
  Ok (((operations_new 2 4%nat [(WriteMemory 5 255)])),
      (mc))).
Proof. vm_compute. reflexivity. Qed.

(** src/cpu/mos6502/operations/tests/code_generation.rs:3848-3859 *)
Example gen_should_generate_absolute_addressing_mode_stx_machine_code : passes (
  do! cpu1 <- mos6502_default Debug ;
  let cpu := (with_gp_register cpu1 GpX 85) in
  let op := (StxAbsolute 256) in
  do! mc2 <- generate Debug op cpu ;
  let mc := mc2 in
  Ok (((operations_new 3 4%nat [(WriteMemory 256 85)])),
      (mc))).
Proof. vm_compute. reflexivity. Qed.

(** src/cpu/mos6502/operations/tests/code_generation.rs:3861-3872 *)
Example gen_should_generate_zeropage_addressing_mode_stx_machine_code : passes (
  do! cpu1 <- mos6502_default Debug ;
  let cpu := (with_gp_register cpu1 GpX 85) in
  let op := (StxZeroPage 1) in
  do! mc2 <- generate Debug op cpu ;
  let mc := mc2 in
  Ok (((operations_new 2 3%nat [(WriteMemory 1 85)])),
      (mc))).
Proof. vm_compute. reflexivity. Qed.

(** src/cpu/mos6502/operations/tests/code_generation.rs:3874-3887 *)
Example gen_should_generate_zeropage_with_y_index_addressing_mode_stx_machine_code : passes (
  do! cpu1 <- mos6502_default Debug ;
  let cpu := (with_gp_register (with_gp_register cpu1 GpX 85) GpY 5) in
  let op := (StxZeroPageIndexedWithY 0) in
  do! mc2 <- generate Debug op cpu ;
  let mc := mc2 in
  Ok (((operations_new 2 4%nat [(WriteMemory 5 85)])),
      (mc))).
Proof. vm_compute. reflexivity. Qed.

(** src/cpu/mos6502/operations/tests/code_generation.rs:3889-3900 *)
Example gen_should_generate_absolute_addressing_mode_sty_machine_code : passes (
  do! cpu1 <- mos6502_default Debug ;
  let cpu := (with_gp_register cpu1 GpY 85) in
  let op := (StyAbsolute 256) in
  do! mc2 <- generate Debug op cpu ;
  let mc := mc2 in
  Ok (((operations_new 3 4%nat [(WriteMemory 256 85)])),
      (mc))).
Proof. vm_compute. reflexivity. Qed.

(** src/cpu/mos6502/operations/tests/code_generation.rs:3902-3913 *)
Example gen_should_generate_zeropage_addressing_mode_sty_machine_code : passes (
  do! cpu1 <- mos6502_default Debug ;
  let cpu := (with_gp_register cpu1 GpY 85) in
  let op := (StyZeroPage 1) in
  do! mc2 <- generate Debug op cpu ;
  let mc := mc2 in
  Ok (((operations_new 2 3%nat [(WriteMemory 1 85)])),
      (mc))).
Proof. vm_compute. reflexivity. Qed.

(** src/cpu/mos6502/operations/tests/code_generation.rs:3915-3928 *)
Example gen_should_generate_zeropage_with_x_index_addressing_mode_sty_machine_code : passes (
  do! cpu1 <- mos6502_default Debug ;
  let cpu := (with_gp_register (with_gp_register cpu1 GpX 5) GpY 85) in
  let op := (StyZeroPageIndexedWithX 0) in
  do! mc2 <- generate Debug op cpu ;
  let mc := mc2 in
  Ok (((operations_new 2 4%nat [(WriteMemory 5 85)])),
      (mc))).
Proof. vm_compute. reflexivity. Qed.

(** src/cpu/mos6502/operations/tests/code_generation.rs:3930-3949 *)
Example gen_should_generate_implied_addressing_mode_tax_machine_code : passes (
  do! cpu1 <- mos6502_default Debug ;
  let cpu := (with_gp_register cpu1 GpAcc 255) in
  let op := TaxImplied in
  do! mc2 <- generate Debug op cpu ;
  let mc := mc2 in
  Ok (((operations_new 1 2%nat [(SetProgramStatusFlagState Negative true); (SetProgramStatusFlagState Zero false); (Write8bitRegister X 255)])),
      (mc))).
Proof. vm_compute. reflexivity. Qed.

(** src/cpu/mos6502/operations/tests/code_generation.rs:3951-3970 *)
Example gen_should_generate_implied_addressing_mode_tay_machine_code : passes (
  do! cpu1 <- mos6502_default Debug ;
  let cpu := (with_gp_register cpu1 GpAcc 255) in
  let op := TayImplied in
  do! mc2 <- generate Debug op cpu ;
  let mc := mc2 in
  Ok (((operations_new 1 2%nat [(SetProgramStatusFlagState Negative true); (SetProgramStatusFlagState Zero false); (Write8bitRegister Y 255)])),
      (mc))).
Proof. vm_compute. reflexivity. Qed.

(** src/cpu/mos6502/operations/tests/code_generation.rs:3972-3990 *)
Example gen_should_generate_implied_addressing_mode_tsx_machine_code : passes (
  do! cpu1 <- mos6502_default Debug ;
  let cpu := (with_sp_register cpu1 stack_pointer_default) in
  let op := TsxImplied in
  do! mc2 <- generate Debug op cpu ;
  let mc := mc2 in
  Ok (((operations_new 1 2%nat [(SetProgramStatusFlagState Negative true); (SetProgramStatusFlagState Zero false); (Write8bitRegister X 255)])),
      (mc))).
Proof. vm_compute. reflexivity. Qed.

(** src/cpu/mos6502/operations/tests/code_generation.rs:3992-4010 *)
Example gen_should_generate_implied_addressing_mode_txa_machine_code : passes (
  do! cpu1 <- mos6502_default Debug ;
  let cpu := (with_gp_register cpu1 GpX 255) in
  let op := TxaImplied in
  do! mc2 <- generate Debug op cpu ;
  let mc := mc2 in
  Ok (((operations_new 1 2%nat [(SetProgramStatusFlagState Negative true); (SetProgramStatusFlagState Zero false); (Write8bitRegister Acc 255)])),
      (mc))).
Proof. vm_compute. reflexivity. Qed.

(** src/cpu/mos6502/operations/tests/code_generation.rs:4012-4026 *)
Example gen_should_generate_implied_addressing_mode_txs_machine_code : passes (
  do! cpu1 <- mos6502_default Debug ;
  let cpu := (with_gp_register cpu1 GpX 0) in
  let op := TxsImplied in
  do! mc2 <- generate Debug op cpu ;
  let mc := mc2 in
  Ok (((operations_new 1 2%nat [(Write8bitRegister Sp 0)])),
      (mc))).
Proof. vm_compute. reflexivity. Qed.

(** src/cpu/mos6502/operations/tests/code_generation.rs:4028-4046 *)
Example gen_should_generate_implied_addressing_mode_tya_machine_code : passes (
  do! cpu1 <- mos6502_default Debug ;
  let cpu := (with_gp_register cpu1 GpY 255) in
  let op := TyaImplied in
  do! mc2 <- generate Debug op cpu ;
  let mc := mc2 in
  Ok (((operations_new 1 2%nat [(SetProgramStatusFlagState Negative true); (SetProgramStatusFlagState Zero false); (Write8bitRegister Acc 255)])),
      (mc))).
Proof. vm_compute. reflexivity. Qed.
