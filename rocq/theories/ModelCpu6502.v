(** Model of src/cpu/mos6502/mod.rs, part 1: the CPU value, its builder
    methods and the execution of microcode. *)
From Verif Require Import Base ModelMap ModelStep ModelRegs6502.

(** src/cpu/mos6502/mod.rs:18-23. *)
Definition NMI_VECTOR_LL : Z := 0xfffa.
(** src/cpu/mos6502/mod.rs:19. *)
Definition NMI_VECTOR_HH : Z := 0xfffb.
(** src/cpu/mos6502/mod.rs:20. *)
Definition RESET_VECTOR_LL : Z := 0xfffc.
(** src/cpu/mos6502/mod.rs:21. *)
Definition RESET_VECTOR_HH : Z := 0xfffd.
(** src/cpu/mos6502/mod.rs:22. *)
Definition IRQ_VECTOR_LL : Z := 0xfffe.
(** src/cpu/mos6502/mod.rs:23. *)
Definition IRQ_VECTOR_HH : Z := 0xffff.

(** src/cpu/mos6502/mod.rs:44-52, struct [Mos6502]. [D] is the type of the
    boxed devices ([Box<dyn Addressable<u16, u8>>]). *)
Record mos6502 (D : Type) := mkMos6502 {
  amap : address_map D;
  reg_acc : Z;
  reg_x : Z;
  reg_y : Z;
  reg_sp : Z;
  reg_pc : Z;
  reg_ps : processor_status
}.
Arguments mkMos6502 {D}.
Arguments amap {D}.
Arguments reg_acc {D}.
Arguments reg_x {D}.
Arguments reg_y {D}.
Arguments reg_sp {D}.
Arguments reg_pc {D}.
Arguments reg_ps {D}.

Section Fields.
Context {D : Type}.
Implicit Type cpu : mos6502 D.
(** Field assignments [self.field = v]. src/cpu/mos6502/mod.rs:45. *)
Definition set_amap cpu v : mos6502 D := mkMos6502 v (reg_acc cpu) (reg_x cpu) (reg_y cpu) (reg_sp cpu) (reg_pc cpu) (reg_ps cpu).
(** src/cpu/mos6502/mod.rs:46. *)
Definition set_acc cpu v : mos6502 D := mkMos6502 (amap cpu) v (reg_x cpu) (reg_y cpu) (reg_sp cpu) (reg_pc cpu) (reg_ps cpu).
(** src/cpu/mos6502/mod.rs:47. *)
Definition set_x cpu v : mos6502 D := mkMos6502 (amap cpu) (reg_acc cpu) v (reg_y cpu) (reg_sp cpu) (reg_pc cpu) (reg_ps cpu).
(** src/cpu/mos6502/mod.rs:48. *)
Definition set_y cpu v : mos6502 D := mkMos6502 (amap cpu) (reg_acc cpu) (reg_x cpu) v (reg_sp cpu) (reg_pc cpu) (reg_ps cpu).
(** src/cpu/mos6502/mod.rs:49. *)
Definition set_sp cpu v : mos6502 D := mkMos6502 (amap cpu) (reg_acc cpu) (reg_x cpu) (reg_y cpu) v (reg_pc cpu) (reg_ps cpu).
(** src/cpu/mos6502/mod.rs:50. *)
Definition set_pc cpu v : mos6502 D := mkMos6502 (amap cpu) (reg_acc cpu) (reg_x cpu) (reg_y cpu) (reg_sp cpu) v (reg_ps cpu).
(** src/cpu/mos6502/mod.rs:51. *)
Definition set_ps cpu v : mos6502 D := mkMos6502 (amap cpu) (reg_acc cpu) (reg_x cpu) (reg_y cpu) (reg_sp cpu) (reg_pc cpu) v.

(** src/cpu/mos6502/mod.rs:60-65, [with_addressmap]: the given map, all other
    fields as in [Default] (mod.rs:199-215). *)
Definition with_addressmap (am : address_map D) : mos6502 D :=
  mkMos6502 am general_purpose_default general_purpose_default general_purpose_default
    stack_pointer_default program_counter_default ps_default.

(** src/cpu/mos6502/mod.rs:93-102, [register_address_space]; [None] is
    [Err(..)]. *)
Definition register_address_space cpu (lo hi : Z) (d : D) : option (mos6502 D) :=
  match am_register (amap cpu) lo hi d with
  | Some am => Some (set_amap cpu am)
  | None => None
  end.

(** src/cpu/mos6502/mod.rs:136-147, [with_owned_address_map]. *)
Definition with_owned_address_map cpu (f : address_map D -> address_map D) : mos6502 D :=
  set_amap cpu (f (amap cpu)).

(** src/cpu/mos6502/mod.rs:150-155, [with_address_map]. *)
Definition with_address_map {B} cpu (f : address_map D -> B) : B := f (amap cpu).

(** src/cpu/mos6502/mod.rs:159-164, [with_address_map_mut]: the callback
    changes the map in place and returns a value. *)
Definition with_address_map_mut {B} cpu (f : address_map D -> address_map D * B)
  : mos6502 D * B :=
  let '(am, b) := f (amap cpu) in (set_amap cpu am, b).

(** src/cpu/mos6502/mod.rs:168-175, [with_gp_register]. *)
Definition with_gp_register cpu (reg_type : gp_register) (reg : Z) : mos6502 D :=
  match reg_type with
  | GpAcc => set_acc cpu reg
  | GpX => set_x cpu reg
  | GpY => set_y cpu reg
  end.

(** src/cpu/mos6502/mod.rs:179-196. *)
Definition with_sp_register cpu (reg : Z) : mos6502 D := set_sp cpu reg.
(** src/cpu/mos6502/mod.rs:186-189, [with_pc_register]. *)
Definition with_pc_register cpu (reg : Z) : mos6502 D := set_pc cpu reg.
(** src/cpu/mos6502/mod.rs:193-196, [with_ps_register]. *)
Definition with_ps_register cpu (reg : processor_status) : mos6502 D := set_ps cpu reg.
End Fields.

(** src/cpu/mos6502/mod.rs:199-215, [Mos6502::default]: zero page and stack
    page as RAM, reset registers. The two [unwrap]s are modelled. [box] stands
    for [Box::new], which turns a memory into the device type of the map. *)
Definition mos6502_default_boxed {D} (box : memory -> D) (p : profile) : res (mos6502 D) :=
  do! m0 <- memory_new p ReadWrite 0x00 0xff ;
  match am_register am_new 0x0000 0x00ff (box m0) with
  | None => Panic
  | Some am0 =>
      do! m1 <- memory_new p ReadWrite 0x0100 0x01ff ;
      match am_register am0 0x0100 0x01ff (box m1) with
      | None => Panic
      | Some am1 => Ok (with_addressmap am1)
      end
  end.

(** The same where all devices are memories. src/cpu/mos6502/mod.rs:199-216. *)
Definition mos6502_default (p : profile) : res (mos6502 memory) :=
  mos6502_default_boxed (fun m => m) p.

Section Execute.
Context {D : Type} `{Device D}.
Implicit Type cpu : mos6502 D.

(** src/cpu/mos6502/mod.rs:327-331: the [Result] of the bus write is
    unwrapped, so [Err] panics. *)
Definition exec_write_memory (p : profile) cpu (address value : Z) : res (mos6502 D) :=
  do! ' (am, r) <- am_write p (amap cpu) address value ;
  match r with
  | WOk _ => Ok (set_amap cpu am)
  | WErr => Panic
  end.

(** src/cpu/mos6502/mod.rs:333-349. *)
Definition exec_set_flag cpu (flag : program_status_flags) (value : bool) : mos6502 D :=
  let s := reg_ps cpu in
  let status :=
    match flag with
    | Negative => mkPs (ps_carry s) (ps_zero s) (ps_interrupt_disable s) (ps_decimal s)
                       (ps_brk s) (ps_unused s) (ps_overflow s) value
    | Overflow => mkPs (ps_carry s) (ps_zero s) (ps_interrupt_disable s) (ps_decimal s)
                       (ps_brk s) (ps_unused s) value (ps_negative s)
    | Break => mkPs (ps_carry s) (ps_zero s) (ps_interrupt_disable s) (ps_decimal s)
                    value (ps_unused s) (ps_overflow s) (ps_negative s)
    | Decimal => mkPs (ps_carry s) (ps_zero s) (ps_interrupt_disable s) value
                      (ps_brk s) (ps_unused s) (ps_overflow s) (ps_negative s)
    | Interrupt => mkPs (ps_carry s) (ps_zero s) value (ps_decimal s)
                        (ps_brk s) (ps_unused s) (ps_overflow s) (ps_negative s)
    | Zero => mkPs (ps_carry s) value (ps_interrupt_disable s) (ps_decimal s)
                   (ps_brk s) (ps_unused s) (ps_overflow s) (ps_negative s)
    | Carry => mkPs value (ps_zero s) (ps_interrupt_disable s) (ps_decimal s)
                    (ps_brk s) (ps_unused s) (ps_overflow s) (ps_negative s)
    end in
  set_ps cpu status.

(** src/cpu/mos6502/mod.rs:351-370. *)
Definition exec_write8 cpu (register : byte_registers) (value : Z) : mos6502 D :=
  match register with
  | Acc => set_acc cpu value
  | X => set_x cpu value
  | Y => set_y cpu value
  | Sp => set_sp cpu value
  | Ps => set_ps cpu (ps_with_value value)
  end.

(** src/cpu/mos6502/mod.rs:372-400. *)
Definition exec_inc8 cpu (register : byte_registers) (value : Z) : mos6502 D :=
  match register with
  | Acc => set_acc cpu (wrapping_add_u8 (reg_acc cpu) value)
  | X => set_x cpu (wrapping_add_u8 (reg_x cpu) value)
  | Y => set_y cpu (wrapping_add_u8 (reg_y cpu) value)
  | Sp => set_sp cpu (wrapping_add_u8 (reg_sp cpu) value)
  | Ps => set_ps cpu (ps_with_value (wrapping_add_u8 (ps_read (reg_ps cpu)) value))
  end.

(** src/cpu/mos6502/mod.rs:402-430. *)
Definition exec_dec8 cpu (register : byte_registers) (value : Z) : mos6502 D :=
  match register with
  | Acc => set_acc cpu (wrapping_sub_u8 (reg_acc cpu) value)
  | X => set_x cpu (wrapping_sub_u8 (reg_x cpu) value)
  | Y => set_y cpu (wrapping_sub_u8 (reg_y cpu) value)
  | Sp => set_sp cpu (wrapping_sub_u8 (reg_sp cpu) value)
  | Ps => set_ps cpu (ps_with_value (wrapping_sub_u8 (ps_read (reg_ps cpu)) value))
  end.

(** src/cpu/mos6502/mod.rs:294-325 (dispatch) with 432-450 (16-bit register
    microcode); also [Execute::execute], 284-292, which is the same function
    on an owned CPU. *)
Definition execute_mut (p : profile) cpu (mc : microcode) : res (mos6502 D) :=
  match mc with
  | WriteMemory addr value => exec_write_memory p cpu addr value
  | SetProgramStatusFlagState flag value => Ok (exec_set_flag cpu flag value)
  | Write8bitRegister register value => Ok (exec_write8 cpu register value)
  | Inc8bitRegister register value => Ok (exec_inc8 cpu register value)
  | Dec8bitRegister register value => Ok (exec_dec8 cpu register value)
  | Write16bitRegister Pc value => Ok (set_pc cpu value)
  | Inc16bitRegister Pc value => Ok (set_pc cpu (wrapping_add_u16 (reg_pc cpu) value))
  | Dec16bitRegister Pc value => Ok (set_pc cpu (wrapping_sub_u16 (reg_pc cpu) value))
  end.
End Execute.
