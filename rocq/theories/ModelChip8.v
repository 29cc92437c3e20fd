(** Model of src/cpu/chip8/{register,memory,microcode,mod}.rs, part 1:
    registers, the stack memory, the machine state and microcode execution. *)
From Verif Require Import Base ModelMap ModelU12 ModelDisplay.

(** *** Outside world

    The code asks the operating system for the time ([Instant::now],
    [Instant::elapsed]: register.rs:110, 123, 130, 139) and a generator for
    random bytes ([GenerateRandom::random]: mod.rs:17-20). Both are modelled
    as arbitrary sequences of answers; [world] counts how many answers were
    consumed. Times are nanoseconds on the monotonic clock. Because a
    generator may hide shared state behind [&self], answers are drawn from
    one sequence per machine, shared by its clones. *)
Record environment := mkEnv { env_time : nat -> Z; env_random : nat -> Z }.
(** How many readings of the clock (src/cpu/chip8/register.rs:110, 123, 130,
    139) and random bytes (src/cpu/chip8/mod.rs:17-20) were taken so far. *)
Record world := mkWorld { w_time : nat; w_random : nat }.

(** [Instant::now()]. src/cpu/chip8/register.rs:123, 130, 139. *)
Definition now (e : environment) (w : world) : Z * world :=
  (env_time e (w_time w), mkWorld (S (w_time w)) (w_random w)).

(** [written_at.elapsed().as_secs()]: whole seconds since [written_at], zero
    if the clock reading is earlier (std saturates).
    src/cpu/chip8/register.rs:110. *)
Definition elapsed_secs (e : environment) (written_at : Z) (w : world) : Z * world :=
  let '(t, w') := now e w in (Z.max 0 (t - written_at) / 1000000000, w').

(** [rng.random()]. src/cpu/chip8/mod.rs:17-20, called in
    src/cpu/chip8/operations/mod.rs:1174-1189. *)
Definition random (e : environment) (w : world) : Z * world :=
  (env_random e (w_random w), mkWorld (w_time w) (S (w_random w))).

(** *** Keys *)

(** src/cpu/chip8/mod.rs:106-123, enum [KeyInputValue]. *)
Inductive key_input_value :=
| Key0 | Key1 | Key2 | Key3 | Key4 | Key5 | Key6 | Key7
| Key8 | Key9 | KeyA | KeyB | KeyC | KeyD | KeyE | KeyF.

(** [key as u8]: the discriminant. src/cpu/chip8/mod.rs:106-123, used in
    src/cpu/chip8/operations/mod.rs:602, 916, 954. *)
Definition key_as_u8 (k : key_input_value) : Z :=
  match k with
  | Key0 => 0x0 | Key1 => 0x1 | Key2 => 0x2 | Key3 => 0x3
  | Key4 => 0x4 | Key5 => 0x5 | Key6 => 0x6 | Key7 => 0x7
  | Key8 => 0x8 | Key9 => 0x9 | KeyA => 0xa | KeyB => 0xb
  | KeyC => 0xc | KeyD => 0xd | KeyE => 0xe | KeyF => 0xf
  end.

(** src/cpu/chip8/mod.rs:99-101, enum [Interrupt]. *)
Inductive interrupt := InterruptKeyPress (k : key_input_value).

(** *** Registers *)

(** src/cpu/chip8/register.rs:18-35, enum [GpRegisters]. *)
Inductive gp_register :=
| V0 | V1 | V2 | V3 | V4 | V5 | V6 | V7 | V8 | V9 | Va | Vb | Vc | Vd | Ve | Vf.

(** [reg as usize] / [reg as u16]: the discriminant; also
    src/cpu/chip8/register.rs:37-42, [From<GpRegisters> for u8]. *)
Definition gp_index (r : gp_register) : Z :=
  match r with
  | V0 => 0x0 | V1 => 0x1 | V2 => 0x2 | V3 => 0x3
  | V4 => 0x4 | V5 => 0x5 | V6 => 0x6 | V7 => 0x7
  | V8 => 0x8 | V9 => 0x9 | Va => 0xa | Vb => 0xb
  | Vc => 0xc | Vd => 0xd | Ve => 0xe | Vf => 0xf
  end.

(** src/cpu/chip8/register.rs:44-68, [TryFrom<u8> for GpRegisters]; [None]
    is [Err(..)]. *)
Definition gp_try_from (src : Z) : option gp_register :=
  match src with
  | 0x0 => Some V0 | 0x1 => Some V1 | 0x2 => Some V2 | 0x3 => Some V3
  | 0x4 => Some V4 | 0x5 => Some V5 | 0x6 => Some V6 | 0x7 => Some V7
  | 0x8 => Some V8 | 0x9 => Some V9 | 0xa => Some Va | 0xb => Some Vb
  | 0xc => Some Vc | 0xd => Some Vd | 0xe => Some Ve | 0xf => Some Vf
  | _ => None
  end.

(** [.unwrap()] / [.expect(..)] of an [Option] or [Result].
    src/cpu/chip8/mod.rs:188, 273, 275, 347, 423, 515. *)
Definition unwrap {A} (o : option A) : res A :=
  match o with Some a => Ok a | None => Panic end.

(** src/cpu/chip8/register.rs:73-76, enum [TimerRegisters]. *)
Inductive timer_register := Sound | Delay.

(** src/cpu/chip8/register.rs:4-7, enum [ByteRegisters]. *)
Inductive byte_register := ByteGp (r : gp_register) | ByteTimer (t : timer_register).

(** src/cpu/chip8/register.rs:10-13, enum [WordRegisters]. *)
Inductive word_register := WordI | WordPc.

(** src/cpu/chip8/register.rs:78-97, [GeneralPurpose], and 145-161,
    [ProgramCounter]: plain cells, modelled by their contents. *)

(** src/cpu/chip8/register.rs:101-105, struct [ClockDecrementing]. *)
Record clock_decrementing := mkClock { written_at : Z; clock_inner : Z }.

(** src/cpu/chip8/register.rs:128-133 (and 121-126, 136-143), [with_value]. *)
Definition clock_with_value (e : environment) (value : Z) (w : world)
  : clock_decrementing * world :=
  let '(t, w') := now e w in (mkClock t value, w').

(** src/cpu/chip8/register.rs:108-119, [ClockDecrementing::read]. The
    conversion of the seconds to [u8] is unwrapped and [v - ssw] is
    unchecked; both are modelled as they stand. *)
Definition clock_read (e : environment) (p : profile) (c : clock_decrementing) (w : world)
  : res (Z * world) :=
  let v := clock_inner c in
  let '(seconds_since_write, w') := elapsed_secs e (written_at c) w in
  if seconds_since_write <? v then
    if seconds_since_write <=? 0xff then
      do! r <- sub_u8 p v seconds_since_write ; Ok (r, w')
    else Panic
  else Ok (0, w').

(** src/cpu/chip8/register.rs:183-185, [value_to_sp]. *)
Definition value_to_sp (value : Z) : Z := value mod 16.

(** src/cpu/chip8/register.rs:176-180 (and 172-174), [StackPointer::with_value]
    and [write]; the result is the inner value. *)
Definition sp_with_value (value : Z) : Z := value_to_sp value.

(** src/cpu/chip8/register.rs:169-171, [StackPointer::read]. *)
Definition sp_read (inner : Z) : Z := value_to_sp inner.

(** *** Stack memory *)

(** src/cpu/chip8/memory.rs:4-7, struct [Ring<u16>]. *)
Record ring := mkRing { ring_capacity : Z; ring_inner : list Z }.

(** src/cpu/chip8/memory.rs:13-16, [Ring::new]. *)
Definition ring_new (capacity : nat) : ring := mkRing (Z.of_nat capacity) (repeat 0 capacity).

(** [offset % self.capacity]: division by zero panics in every profile.
    src/cpu/chip8/memory.rs:24, 32. *)
Definition ring_offset (r : ring) (offset : Z) : res Z :=
  if ring_capacity r =? 0 then Panic else Ok (offset mod ring_capacity r).

(** src/cpu/chip8/memory.rs:23-29, [read]. *)
Definition ring_read (r : ring) (offset : Z) : res Z :=
  do! wrapped_offset <- ring_offset r offset ;
  Ok (match nth_error (ring_inner r) (Z.to_nat wrapped_offset) with Some v => v | None => 0 end).

(** src/cpu/chip8/memory.rs:31-41, [write]. *)
Definition ring_write (r : ring) (offset data : Z) : res (ring * wresult) :=
  do! wrapped_offset <- ring_offset r offset ;
  if wrapped_offset <? Z.of_nat (length (ring_inner r)) then
    Ok (mkRing (ring_capacity r) (list_upd (ring_inner r) (Z.to_nat wrapped_offset) data), WOk data)
  else Ok (r, WErr).

(** src/cpu/chip8/memory.rs:19-51: [Ring] is [Addressable], and
    [SafeAddressable] with the default methods ([safe_write] of ModelMap.v).
    Offsets are [usize] here. *)
#[export] Instance ring_device : Device ring := {
  dev_read _ := ring_read;
  dev_write _ := ring_write
}.

(** *** Machine *)

(** src/cpu/chip8/mod.rs:130-142, struct [Chip8<R>]. Simplification: the
    generator [rng] is part of the [environment]. The address space is only
    ever built from [Memory] devices (mod.rs:271-275; no method replaces it),
    so devices are [memory]. *)
Record chip8 := mkChip8 {
  c8_stack : ring;
  c8_space : address_map memory;
  c8_dt : clock_decrementing;
  c8_st : clock_decrementing;
  c8_pc : Z;
  c8_sp : Z;
  c8_i : Z;
  c8_gp : list Z;
  c8_display : display;
  c8_interrupt : option interrupt
}.

(** Assignment of one field ([self.f = v], src/cpu/chip8/mod.rs:130-142). *)
Definition set_stack c v := mkChip8 v (c8_space c) (c8_dt c) (c8_st c) (c8_pc c) (c8_sp c) (c8_i c) (c8_gp c) (c8_display c) (c8_interrupt c).
(** src/cpu/chip8/mod.rs:132. *)
Definition set_space c v := mkChip8 (c8_stack c) v (c8_dt c) (c8_st c) (c8_pc c) (c8_sp c) (c8_i c) (c8_gp c) (c8_display c) (c8_interrupt c).
(** src/cpu/chip8/mod.rs:133. *)
Definition set_dt c v := mkChip8 (c8_stack c) (c8_space c) v (c8_st c) (c8_pc c) (c8_sp c) (c8_i c) (c8_gp c) (c8_display c) (c8_interrupt c).
(** src/cpu/chip8/mod.rs:134. *)
Definition set_st c v := mkChip8 (c8_stack c) (c8_space c) (c8_dt c) v (c8_pc c) (c8_sp c) (c8_i c) (c8_gp c) (c8_display c) (c8_interrupt c).
(** src/cpu/chip8/mod.rs:135. *)
Definition set_pc c v := mkChip8 (c8_stack c) (c8_space c) (c8_dt c) (c8_st c) v (c8_sp c) (c8_i c) (c8_gp c) (c8_display c) (c8_interrupt c).
(** src/cpu/chip8/mod.rs:136. *)
Definition set_sp c v := mkChip8 (c8_stack c) (c8_space c) (c8_dt c) (c8_st c) (c8_pc c) v (c8_i c) (c8_gp c) (c8_display c) (c8_interrupt c).
(** src/cpu/chip8/mod.rs:137. *)
Definition set_i c v := mkChip8 (c8_stack c) (c8_space c) (c8_dt c) (c8_st c) (c8_pc c) (c8_sp c) v (c8_gp c) (c8_display c) (c8_interrupt c).
(** src/cpu/chip8/mod.rs:138. *)
Definition set_gp c v := mkChip8 (c8_stack c) (c8_space c) (c8_dt c) (c8_st c) (c8_pc c) (c8_sp c) (c8_i c) v (c8_display c) (c8_interrupt c).
(** src/cpu/chip8/mod.rs:139. *)
Definition set_display c v := mkChip8 (c8_stack c) (c8_space c) (c8_dt c) (c8_st c) (c8_pc c) (c8_sp c) (c8_i c) (c8_gp c) v (c8_interrupt c).
(** src/cpu/chip8/mod.rs:140. *)
Definition set_interrupt c v := mkChip8 (c8_stack c) (c8_space c) (c8_dt c) (c8_st c) (c8_pc c) (c8_sp c) (c8_i c) (c8_gp c) (c8_display c) v.

(** src/cpu/chip8/mod.rs:145-148, [with_pc_register]. *)
Definition with_pc_register (c : chip8) (reg : Z) : chip8 := set_pc c reg.

(** src/cpu/chip8/mod.rs:150-153, [with_sp_register]. *)
Definition with_sp_register (c : chip8) (reg : Z) : chip8 := set_sp c reg.

(** src/cpu/chip8/mod.rs:155-165, [with_timer_register]. *)
Definition with_timer_register (c : chip8) (t : timer_register) (reg : clock_decrementing) : chip8 :=
  match t with Sound => set_st c reg | Delay => set_dt c reg end.

(** src/cpu/chip8/mod.rs:167-170, [with_i_register]. *)
Definition with_i_register (c : chip8) (reg : Z) : chip8 := set_i c reg.

(** src/cpu/chip8/mod.rs:172-179, [with_gp_register]: indexing panics
    outside the array. *)
Definition with_gp_register (c : chip8) (r : gp_register) (reg : Z) : res chip8 :=
  do! gp <- vec_set (c8_gp c) (gp_index r) reg ; Ok (set_gp c gp).

(** src/cpu/chip8/mod.rs:183-189, [read_gp_register]. *)
Definition read_gp_register (c : chip8) (r : gp_register) : res Z :=
  unwrap (nth_error (c8_gp c) (Z.to_nat (gp_index r))).

(** src/cpu/chip8/mod.rs:192-206, [with_rng]: keeps every modelled field. *)
Definition with_rng (c : chip8) : chip8 :=
  mkChip8 (c8_stack c) (c8_space c) (c8_dt c) (c8_st c) (c8_pc c) (c8_sp c) (c8_i c) (c8_gp c) (c8_display c) (c8_interrupt c).

(** src/cpu/chip8/mod.rs:210-227, [with_interrupt]; [f] is the value
    returned by the function argument. *)
Definition with_interrupt (c : chip8) (f : option interrupt) : chip8 := set_interrupt c f.

(** src/cpu/chip8/mod.rs:231-248, [with_display]: also clears the
    interrupt (line 245). *)
Definition with_display (c : chip8) (f : display -> display) : chip8 :=
  mkChip8 (c8_stack c) (c8_space c) (c8_dt c) (c8_st c) (c8_pc c) (c8_sp c) (c8_i c) (c8_gp c)
    (f (c8_display c)) None.

(** src/cpu/chip8/mod.rs:126. *)
Definition RESET_PC_VECTOR : Z := 0x200.

(** src/cpu/chip8/mod.rs:261-287, [Default::default] (and 256-258, [reset]).
    The two timers read the clock when they are built. *)
Definition chip8_default (e : environment) (p : profile) (w : world) : res (chip8 * world) :=
  do! low <- memory_new p ReadWrite 0 0x1ff ;
  do! space <- unwrap (am_register am_new 0 0x1ff low) ;
  do! high <- memory_new p ReadWrite 0x200 0xfff ;
  do! space <- unwrap (am_register space 0x200 0xfff high) ;
  let '(dt, w) := clock_with_value e 0 w in
  let '(st, w) := clock_with_value e 0 w in
  Ok (mkChip8 (ring_new 16) space dt st RESET_PC_VECTOR 0 0 (repeat 0 15) display_default None, w).

(** src/cpu/chip8/mod.rs:256-258, [Chip8::reset]. *)
Definition chip8_reset := chip8_default.

(** *** Microcode *)

(** src/cpu/chip8/microcode.rs:9-47, enum [Microcode]. The argument structs
    (50-220) only carry these fields. *)
Inductive microcode :=
| WriteMemory (address value : Z)
| Write8bitRegister (r : byte_register) (value : Z)
| Inc8bitRegister (r : byte_register) (value : Z)
| Dec8bitRegister (r : byte_register) (value : Z)
| Write16bitRegister (r : word_register) (value : Z)
| Inc16bitRegister (r : word_register) (value : Z)
| Dec16bitRegister (r : word_register) (value : Z)
| PushStack (value : Z)
| PopStack (value : Z)
| KeyPress (k : key_input_value)
| KeyRelease
| SetDisplayPixel (coord : Z * Z) (value : bool)
| SetDisplayRange (start stop : Z * Z) (value : bool).

(** src/cpu/chip8/mod.rs:421-425. *)
Definition exec_write_memory (p : profile) (c : chip8) (address value : Z) : res chip8 :=
  do! ' (m, r) <- am_write p (c8_space c) address value ;
  match r with WOk _ => Ok (set_space c m) | WErr => Panic end.

(** src/cpu/chip8/mod.rs:427-443. *)
Definition exec_write8 (e : environment) (c : chip8) (r : byte_register) (value : Z) (w : world)
  : res (chip8 * world) :=
  match r with
  | ByteGp gpr => do! gp <- vec_set (c8_gp c) (gp_index gpr) value ; Ok (set_gp c gp, w)
  | ByteTimer Delay => let '(t, w') := clock_with_value e value w in Ok (set_dt c t, w')
  | ByteTimer Sound => let '(t, w') := clock_with_value e value w in Ok (set_st c t, w')
  end.

(** src/cpu/chip8/mod.rs:445-467. *)
Definition exec_inc8 (e : environment) (p : profile) (c : chip8) (r : byte_register) (value : Z)
  (w : world) : res (chip8 * world) :=
  match r with
  | ByteGp gpr =>
      do! cpu_reg_value <- read_gp_register c gpr ;
      do! gp <- vec_set (c8_gp c) (gp_index gpr) (wrapping_add_u8 cpu_reg_value value) ;
      Ok (set_gp c gp, w)
  | ByteTimer Delay =>
      do! ' (cpu_reg_value, w) <- clock_read e p (c8_dt c) w ;
      let '(t, w) := clock_with_value e (wrapping_add_u8 cpu_reg_value value) w in
      Ok (set_dt c t, w)
  | ByteTimer Sound =>
      do! ' (cpu_reg_value, w) <- clock_read e p (c8_st c) w ;
      let '(t, w) := clock_with_value e (wrapping_add_u8 cpu_reg_value value) w in
      Ok (set_st c t, w)
  end.

(** src/cpu/chip8/mod.rs:473-484. *)
Definition exec_write16 (c : chip8) (r : word_register) (value : Z) : chip8 :=
  match r with WordI => set_i c value | WordPc => set_pc c value end.

(** src/cpu/chip8/mod.rs:486-499. *)
Definition exec_inc16 (c : chip8) (r : word_register) (value : Z) : chip8 :=
  match r with
  | WordI => set_i c (wrapping_add_u16 (c8_i c) value)
  | WordPc => set_pc c (wrapping_add_u16 (c8_pc c) value)
  end.

(** src/cpu/chip8/mod.rs:505-517. [self.sp.write(sp)] returns the changed
    register by value (register.rs:172) and the result is dropped, so the
    stack pointer keeps its value. *)
Definition exec_push (c : chip8) (value : Z) : res chip8 :=
  do! ' (s, r) <- ring_write (c8_stack c) (sp_read (c8_sp c)) value ;
  match r with WOk _ => Ok (set_stack c s) | WErr => Panic end.

(** src/cpu/chip8/mod.rs:519-525: the changed register is dropped as well. *)
Definition exec_pop (c : chip8) : chip8 := c.

(** [usize] arithmetic on a 64-bit target. For src/cpu/chip8/mod.rs:554-556. *)
Definition usize_modulus : Z := 18446744073709551616.
(** [+], src/cpu/chip8/mod.rs:554-556. *)
Definition add_usize (p : profile) a b := checked p usize_modulus (a + b).
(** [-], src/cpu/chip8/mod.rs:556. *)
Definition sub_usize (p : profile) a b := checked p usize_modulus (a - b).
(** [*], src/cpu/chip8/mod.rs:554, 556. *)
Definition mul_usize (p : profile) a b := checked p usize_modulus (a * b).

(** [row.iter_mut().skip(skip).take(take).for_each(|p| *p = v)] on one row,
    returning what is left to skip and to take in the following rows.
    src/cpu/chip8/mod.rs:558-563. *)
Fixpoint fill_row (skip take : Z) (v : bool) (row : list bool) : list bool * (Z * Z) :=
  match row with
  | [] => ([], (skip, take))
  | b :: row' =>
      if 0 <? skip then
        let '(r, k) := fill_row (skip - 1) take v row' in (b :: r, k)
      else if 0 <? take then
        let '(r, k) := fill_row skip (take - 1) v row' in (v :: r, k)
      else (row, (skip, take))
  end.

(** src/cpu/chip8/mod.rs:557-564, the [flatten().skip().take()] pipeline. *)
Fixpoint fill_rows (skip take : Z) (v : bool) (d : display) : display :=
  match d with
  | [] => []
  | row :: d' =>
      let '(r, (skip', take')) := fill_row skip take v row in
      r :: fill_rows skip' take' v d'
  end.

(** src/cpu/chip8/mod.rs:546-566. *)
Definition exec_set_range (p : profile) (c : chip8) (start stop : Z * Z) (v : bool) : res chip8 :=
  let '(start_x, start_y) := start in
  let '(end_x, end_y) := stop in
  do! s1 <- mul_usize p start_y X_MAX ;
  do! start_offset <- add_usize p s1 start_x ;
  do! h <- sub_usize p end_y start_y ;
  do! m1 <- mul_usize p h X_MAX ;
  do! wd <- sub_usize p end_x start_x ;
  do! m2 <- add_usize p m1 wd ;
  do! modified <- add_usize p m2 1 ;
  Ok (set_display c (fill_rows start_offset modified v (c8_display c))).

(** src/cpu/chip8/mod.rs:380-419, the dispatch over [Microcode], with
    469-471 ([Dec8bitRegister]: no effect), 501-503 ([Dec16bitRegister]: no
    effect), 527-537 (keys) and 539-544 ([SetDisplayPixel]) inlined. *)
Definition execute_mut (e : environment) (p : profile) (cw : chip8 * world) (mc : microcode)
  : res (chip8 * world) :=
  let '(c, w) := cw in
  match mc with
  | WriteMemory addr value => do! c' <- exec_write_memory p c addr value ; Ok (c', w)
  | Write8bitRegister r value => exec_write8 e c r value w
  | Inc8bitRegister r value => exec_inc8 e p c r value w
  | Dec8bitRegister _ _ => Ok (c, w)
  | Write16bitRegister r value => Ok (exec_write16 c r value, w)
  | Inc16bitRegister r value => Ok (exec_inc16 c r value, w)
  | Dec16bitRegister _ _ => Ok (c, w)
  | PushStack value => do! c' <- exec_push c value ; Ok (c', w)
  | PopStack _ => Ok (exec_pop c, w)
  | KeyPress k => Ok (set_interrupt c (Some (InterruptKeyPress k)), w)
  | KeyRelease => Ok (set_interrupt c None, w)
  | SetDisplayPixel (x, y) value =>
      do! ' (d, _) <- write_pixel_mut (c8_display c) x y value ;
      Ok (set_display c d, w)
  | SetDisplayRange start stop value =>
      do! c' <- exec_set_range p c start stop value ; Ok (c', w)
  end.
