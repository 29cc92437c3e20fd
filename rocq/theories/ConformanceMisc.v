(** Conformance of the model with the repository's remaining unit tests,
    transcribed by hand: src/address_map/tests/{mod,memory}.rs,
    src/cpu/chip8/{mod,memory,register,u12}.rs and the three looping tests of
    src/cpu/chip8/operations/tests/mod.rs. Checks of the model, not property
    proofs. The other tests are in Conformance6502.v and ConformanceChip8.v. *)
From Verif Require Import Base ModelMap ModelStep ModelU12 ModelDisplay ModelChip8
  ModelOpsChip8 ModelRunChip8.
Local Open Scope Z_scope.
Import ListNotations.

Definition env : environment := mkEnv (fun _ => 0) (fun _ => 0).
Definition w0 : world := mkWorld 0 0.

(** A test passes if it does not panic and all its assertions are true. *)
Definition passes (r : res (list bool)) : Prop :=
  match r with Ok l => forallb (fun b => b) l = true | Panic => False end.
Definition panics {A} (r : res A) : Prop :=
  match r with Ok _ => False | Panic => True end.

Fixpoint eqlist {A} (eqb : A -> A -> bool) (l1 l2 : list A) : bool :=
  match l1, l2 with
  | [], [] => true
  | a :: l1', b :: l2' => eqb a b && eqlist eqb l1' l2'
  | _, _ => false
  end.

Definition is_ok (r : wresult) : bool := match r with WOk _ => true | WErr => false end.
Definition is_some {A} (o : option A) : bool := match o with Some _ => true | None => false end.
Definition is_pixel (b : bool) (o : option bool) : bool :=
  match o with Some b' => Bool.eqb b b' | None => false end.

(** *** src/address_map/tests/mod.rs *)

(** 8-25, the [u16_address_map] macro. *)
Definition full_map (k : mem_type) : res (option (address_map memory)) :=
  do! m <- memory_new Debug k 0 0xffff ; Ok (am_register am_new 0 0xffff m).

(** 27-34 *)
Example should_register_valid_memory : passes (
  do! am <- full_map ReadOnly ; Ok [is_some am]).
Proof. vm_compute. reflexivity. Qed.

(** 36-45 *)
Example should_fail_when_registering_overlapping_address_space : passes (
  do! m <- memory_new Debug ReadOnly 0 0x7fff ;
  do! am <- unwrap (am_register am_new 0 0x7fff m) ;
  do! m2 <- memory_new Debug ReadOnly 0 0x7fff ;
  Ok [negb (is_some (am_register am 0 0x7fff m2))]).
Proof. vm_compute. reflexivity. Qed.

(** 47-51 *)
Example should_read_valid_memory : passes (
  do! o <- full_map ReadWrite ; do! am <- unwrap o ;
  do! v <- am_read Debug am 0xffff ; Ok [0x00 =? v]).
Proof. vm_compute. reflexivity. Qed.

(** 53-58 *)
Example should_write_valid_memory : passes (
  do! o <- full_map ReadWrite ; do! am <- unwrap o ;
  do! ' (am, r) <- am_write Debug am 0xaaaa 0xff ;
  do! v <- am_read Debug am 0xaaaa ; Ok [is_ok r; 0xff =? v]).
Proof. vm_compute. reflexivity. Qed.

(** *** src/address_map/tests/memory.rs *)

(** 6-11 *)
Example should_initialize_memory_to_zeroes : passes (
  do! m <- memory_new Debug ReadOnly 0 0xffff ;
  do! v <- memory_read Debug m 65534 ; Ok [0x00 =? v]).
Proof. vm_compute. reflexivity. Qed.

(** 13-19 *)
Example should_persist_values_in_memory_when_written : passes (
  do! m <- memory_new Debug ReadWrite 0 0xffff ;
  do! ' (m, r) <- memory_write Debug m 0x8000 0xff ;
  do! v <- memory_read Debug m 0x8000 ; Ok [is_ok r; 0xff =? v]).
Proof. vm_compute. reflexivity. Qed.

(** 21-28 *)
Example should_throw_error_when_write_is_attempted_on_readonly_memory : passes (
  do! m <- memory_new Debug ReadOnly 0 0xffff ;
  do! ' (m, r) <- memory_write Debug m 0x8000 0xff ; Ok [negb (is_ok r)]).
Proof. vm_compute. reflexivity. Qed.

Definition one_byte_image : list Z :=
  repeat 0 (Z.to_nat 0x8000) ++ [0xff] ++ repeat 0 (Z.to_nat 0x7fff).

(** 30-44 *)
Example should_dump_entire_state_of_memory : passes (
  do! m <- memory_new Debug ReadWrite 0 0xffff ;
  do! ' (m, r) <- memory_write Debug m 0x8000 0xff ;
  Ok [is_ok r; eqlist Z.eqb one_byte_image (memory_dump m)]).
Proof. vm_compute. reflexivity. Qed.

(** 46-60 *)
Example should_load_memory_of_correct_size : passes (
  do! m <- memory_new Debug ReadWrite 0 0xffff ;
  let m := memory_load m one_byte_image in
  Ok [eqlist Z.eqb one_byte_image (memory_dump m)]).
Proof. vm_compute. reflexivity. Qed.

(** 62-72 *)
Example should_correctly_calculate_offsets : passes (
  do! m <- memory_new Debug ReadWrite 0x8000 0xffff ;
  do! ' (m, r) <- memory_write Debug m 0x8000 0xff ;
  do! v <- vec_get (memory_dump m) 0 ;
  Ok [is_ok r; 0xff =? v; 0x8000 =? Z.of_nat (length (memory_dump m))]).
Proof. vm_compute. reflexivity. Qed.

(** *** src/cpu/chip8/mod.rs *)

(** [cpu.address_space.write(a, v).unwrap()]. *)
Definition poke (c : chip8) (a v : Z) : res chip8 := exec_write_memory Debug c a v.

(** 573-582 *)
Example should_execute_infinitely_on_jump_to_reset_vector : passes (
  do! ' (c, w) <- chip8_default env Debug w0 ;
  do! c <- poke (with_rng c) 0x200 0x12 ;
  do! c <- poke c 0x201 0x00 ;
  do! ' (s, w) <- run env Debug c 5 w ;
  Ok [0x200 =? c8_pc c; 0x200 =? c8_pc (ss_unwrap s)]).
Proof. vm_compute. reflexivity. Qed.

(** 584-595 *)
Example should_execute_add_immediate : passes (
  do! ' (c, w) <- chip8_default env Debug w0 ;
  do! c <- with_gp_register (with_rng c) V0 0x05 ;
  do! c <- poke c 0x200 0x70 ;
  do! c <- poke c 0x201 0xfa ;
  do! ' (s, w) <- run env Debug c 1 w ;
  do! v <- read_gp_register (ss_unwrap s) V0 ;
  Ok [0xff =? v]).
Proof. vm_compute. reflexivity. Qed.

(** 597-613 *)
Example should_clear_input_idempotently : passes (
  do! ' (c, w) <- chip8_default env Debug w0 ;
  let c := with_interrupt c (Some (InterruptKeyPress Key0)) in
  Ok [match c8_interrupt c with Some (InterruptKeyPress Key0) => true | _ => false end;
      negb (is_some (c8_interrupt (with_interrupt (with_interrupt c None) None)))]).
Proof. vm_compute. reflexivity. Qed.

(** 615-622 *)
Example should_set_a_given_pixel_to_a_given_value : passes (
  do! ' (c, w) <- chip8_default env Debug w0 ;
  do! ' (d, _) <- write_pixel (c8_display c) 1 1 true ;
  let c := with_display c (fun _ => d) in
  do! p21 <- display_pixel (c8_display c) 2 1 ;
  do! p11 <- display_pixel (c8_display c) 1 1 ;
  do! p12 <- display_pixel (c8_display c) 1 2 ;
  Ok [is_pixel false p21; is_pixel true p11; is_pixel false p12]).
Proof. vm_compute. reflexivity. Qed.

(** 624-636 *)
Example should_set_a_given_pixel_range_to_a_given_value : passes (
  do! cw <- chip8_default env Debug w0 ;
  do! ' (c, w) <- execute_mut env Debug cw (SetDisplayRange (0, 0) (63, 31) true) ;
  Ok (concat (display_unwrap (c8_display c)))).
Proof. vm_compute. reflexivity. Qed.

(** *** src/cpu/chip8/memory.rs:56-65 *)
Example should_wrap_on_overflow : passes (
  let r := ring_new 4 in
  do! a <- ring_read r 0 ;
  do! ' (r, _) <- ring_write r 0 0xff ;
  do! b <- ring_read r 4 ;
  do! c <- ring_read r 16 ;
  do! d <- ring_read r 17 ;
  Ok [0x00 =? a; 0xff =? b; 0xff =? c; 0x00 =? d]).
Proof. vm_compute. reflexivity. Qed.

(** *** src/cpu/chip8/register.rs:191-200 *)
Example should_generate_valid_ranged_value_for_stackpointer : passes (
  Ok (map (fun v => v =? sp_read (sp_with_value v)) [0;1;2;3;4;5;6;7;8;9;10;11;12;13;14;15]
      ++ [0 =? sp_read (sp_with_value 16); 1 =? sp_read (sp_with_value 17)])).
Proof. vm_compute. reflexivity. Qed.

(** 202-209: the second clock reading is two seconds after the first. *)
Example should_decrement_clocked_register_at_a_set_pulse : passes (
  let slept := mkEnv (fun n => if Nat.eqb n 0 then 0 else 2000000000) (fun _ => 0) in
  let '(cdr, w) := clock_with_value slept 0xff w0 in
  do! ' (v, w) <- clock_read slept Debug cdr w ;
  Ok [v <? 0xff]).
Proof. vm_compute. reflexivity. Qed.

(** *** src/cpu/chip8/u12.rs:208-242 *)
Example should_add_as_expected : passes (
  do! a <- u12_new 5 ; do! b <- u12_new 7 ; do! c <- u12_new 12 ;
  do! s <- u12_add Debug a b ; Ok [u12_eq c s]).
Proof. vm_compute. reflexivity. Qed.

Example should_panic_on_overflowing_add : panics (
  do! a <- u12_new 0xFFFF ; do! b <- u12_new 1 ; u12_add Debug a b).
Proof. vm_compute. exact I. Qed.

Example should_wrap_correctly_with_overflowing_wrapping_add : passes (
  do! a <- u12_new 5 ; do! b <- u12_new 7 ; do! c <- u12_new 12 ;
  do! s <- u12_wrapping_add a b ;
  do! a' <- u12_new 0xFFF ; do! b' <- u12_new 2 ; do! c' <- u12_new 1 ;
  do! s' <- u12_wrapping_add a' b' ;
  Ok [u12_eq c s; u12_eq c' s']).
Proof. vm_compute. reflexivity. Qed.

Example should_wrap_correctly_with_overflowing_wrapping_sub : passes (
  do! a <- u12_new 7 ; do! b <- u12_new 5 ; do! c <- u12_new 2 ;
  do! s <- u12_wrapping_sub a b ;
  do! a' <- u12_new 0 ; do! b' <- u12_new 1 ; do! c' <- u12_new 0xFFF ;
  do! s' <- u12_wrapping_sub a' b' ;
  Ok [u12_eq c s; u12_eq c' s']).
Proof. vm_compute. reflexivity. Qed.

Example should_subtract_as_expected : passes (
  do! a <- u12_new 7 ; do! b <- u12_new 5 ; do! c <- u12_new 2 ;
  do! s <- u12_sub Debug a b ; Ok [u12_eq c s]).
Proof. vm_compute. reflexivity. Qed.

(** *** src/cpu/chip8/operations/tests/mod.rs, the tests with loops *)

(** 92-128 *)
Example should_generate_drw_instruction :
  match (do! ' (c, w) <- chip8_default env Debug w0 ;
         do! c <- with_gp_register c V0 0 ;
         do! c <- with_gp_register c V1 0 ;
         let c := with_i_register c 0 in
         do! c <- poke c 0x00 0xf0 ;
         generate env Debug (Drw V0 V1 1) c w) with
  | Ok (got, _) =>
      got = map (fun x => SetDisplayPixel (x, 0) (negb (Z.land (Z.shiftr 0xf0 (7 - x)) 1 =? 0)))
              [0; 1; 2; 3; 4; 5; 6; 7]
            ++ [Write8bitRegister (ByteGp Vf) 0]
  | Panic => False
  end.
Proof. vm_compute. reflexivity. Qed.

(** 323-354 *)
Example should_generate_read_registers_from_memory_operation :
  match (do! ' (c, w) <- chip8_default env Debug w0 ;
         let c := with_i_register c 0x200 in
         do! c <- poke c 0x200 1 ;
         do! c <- poke c 0x201 2 ;
         do! c <- poke c 0x202 3 ;
         generate env Debug (ReadRegistersFromMemory V2) c w) with
  | Ok (got, _) =>
      got = [Write8bitRegister (ByteGp V0) 1; Write8bitRegister (ByteGp V1) 2;
             Write8bitRegister (ByteGp V2) 3]
  | Panic => False
  end.
Proof. vm_compute. reflexivity. Qed.

(** 950-1000; the generator is the constant closure, so one round of the loop
    stands for all. *)
Example should_generate_rnd_immediate_operation :
  match (do! ' (c, w) <- chip8_default env Debug w0 ;
         do! c <- with_gp_register (with_rng c) V0 0 ;
         do! ' (l1, w) <- generate env Debug (Rnd V0 0x00) c w ;
         do! ' (l2, w) <- generate env Debug (Rnd V0 0xf0) c w ;
         Ok (l1, l2)) with
  | Ok (l1, l2) => l1 = [Write8bitRegister (ByteGp V0) 0] /\
      match l2 with Write8bitRegister _ v :: _ => v <= 0xf0 | _ => False end
  | Panic => False
  end.
Proof. vm_compute. split; [reflexivity | discriminate]. Qed.
