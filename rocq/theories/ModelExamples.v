(** Model of examples/custom_peripheral_addr_space.rs and
    examples/custom_peripheral_microcode_hook.rs: a device written by a user
    of the library, on the bus or behind a microcode filter. *)
From Verif Require Import Base ModelMap ModelStep ModelRegs6502 ModelCpu6502 ModelOperand ModelRun6502.

(** custom_peripheral_addr_space.rs:15-23, struct [VIA]. [printed] is not a
    field of the code: it stands for standard output, the bytes printed so
    far, oldest first. *)
Record via := mkVia {
  port_a_addr : Z;
  port_b_addr : Z;
  port_a_mask : Z;
  port_b_mask : Z;
  port_a : Z;
  port_b : Z;
  printed : list Z
}.

(** custom_peripheral_addr_space.rs:26-35, [VIA::new]; the additions are
    unchecked. *)
Definition via_new (p : profile) (base_addr : Z) : res via :=
  do! b <- add_u16 p base_addr 1 ;
  do! am <- add_u16 p base_addr 2 ;
  do! bm <- add_u16 p base_addr 3 ;
  Ok (mkVia base_addr b am bm 0 0 []).

(** custom_peripheral_addr_space.rs:41-43. *)
Definition via_read (p : profile) (d : via) (addr : Z) : res Z := Ok 0.

(** custom_peripheral_addr_space.rs:47-60. *)
Definition via_write (p : profile) (d : via) (addr value : Z) : res (via * wresult) :=
  if addr =? port_a_addr d then
    Ok (mkVia (port_a_addr d) (port_b_addr d) (port_a_mask d) (port_b_mask d)
          value (port_b d) (printed d ++ [value]), WOk value)
  else if addr =? port_b_addr d then
    Ok (mkVia (port_a_addr d) (port_b_addr d) (port_a_mask d) (port_b_mask d)
          (port_a d) value (printed d), WOk value)
  else if (port_a_mask d <=? addr) && (addr <=? port_b_mask d) then Ok (d, WOk value)
  else Ok (d, WErr).

(** custom_peripheral_addr_space.rs:38-61. *)
#[export] Instance via_device : Device via := {
  dev_read := via_read;
  dev_write := via_write
}.

(** The boxed devices of the example's address map: memories and the VIA.
    custom_peripheral_addr_space.rs:75-80. *)
Inductive any_device := BoxMemory (m : memory) | BoxVia (v : via).

(** Dynamic dispatch on [Box<dyn Addressable<u16, u8>>].
    src/address_map/mod.rs:34-42, 139, 154. *)
#[export] Instance any_device_device : Device any_device := {
  dev_read p d a :=
    match d with BoxMemory m => memory_read p m a | BoxVia v => via_read p v a end;
  dev_write p d a x :=
    match d with
    | BoxMemory m => do! ' (m', r) <- memory_write p m a x ; Ok (BoxMemory m', r)
    | BoxVia v => do! ' (v', r) <- via_write p v a x ; Ok (BoxVia v', r)
    end
}.

(** custom_peripheral_addr_space.rs:66-69 and
    custom_peripheral_microcode_hook.rs:38-41. *)
Definition blink_rom : list Z :=
  [0xa9; 0xff; 0x8d; 0x02; 0x80; 0xa9; 0x55; 0x8d; 0x00; 0x80; 0xa9; 0xaa; 0x8d; 0x00; 0x80;
   0x4c; 0xef; 0xff; 0xea; 0xff; 0x00; 0x00].

(** custom_peripheral_addr_space.rs:66-84: the machine after reset. *)
Definition via_machine (p : profile) : res (mos6502 any_device) :=
  do! rom <- memory_new p ReadOnly 0xffea 0xffff ;
  do! v <- via_new p 0x8000 ;
  do! cpu0 <- mos6502_default_boxed BoxMemory p ;
  match register_address_space cpu0 0xffea 0xffff (BoxMemory (memory_load rom blink_rom)) with
  | None => Panic
  | Some cpu1 =>
      match register_address_space cpu1 0x8000 0x8003 (BoxVia v) with
      | None => Panic
      | Some cpu2 => do! s <- reset p cpu2 ; Ok (ss_unwrap s)
      end
  end.

Section Drain.
Context {D : Type} `{Device D}.

(** custom_peripheral_addr_space.rs:87-91: pull [n] cycles from the iterator
    and drop the microcode. The result is the machine inside the iterator at
    the end, whose devices hold what the program did to them. *)
Fixpoint drain (p : profile) (n : nat) (buf : list (list microcode)) (it : mos6502 D)
  : res (mos6502 D) :=
  match n with
  | O => Ok it
  | S n' =>
      match buf with
      | _ :: buf' => drain p n' buf' it
      | [] =>
          do! ' (mops, it') <- next p it ;
          do! cs <- operations_into_cycles mops ;
          match cs with
          | _ :: buf' => drain p n' buf' it'
          | [] => Panic
          end
      end
  end.
End Drain.

(** custom_peripheral_addr_space.rs:63-92, [main] with [n] in place of 80. *)
Definition via_main (p : profile) (n : nat) : res (mos6502 any_device) :=
  do! cpu <- via_machine p ; drain p n [] cpu.

(** custom_peripheral_microcode_hook.rs:16-22, struct [Via]; [hook_printed] is
    standard output. *)
Record hook_via := mkHookVia {
  hook_a_addr : Z;
  hook_b_addr : Z;
  hook_a : Z;
  hook_b : Z;
  hook_printed : list Z
}.

(** custom_peripheral_microcode_hook.rs:25-32, [Via::new]. *)
Definition hook_via_new (p : profile) (base_addr : Z) : res hook_via :=
  do! b <- add_u16 p base_addr 1 ;
  Ok (mkHookVia base_addr b 0 0 []).

Section Hook.
Context {D : Type} `{Device D}.

(** custom_peripheral_microcode_hook.rs:71-82, the closure of [filter]: the
    new [via] and whether the microcode is kept. [lo..=hi] is 0x8000..=0x8003
    in the example. *)
Definition hook_filter (lo hi : Z) (via : hook_via) (mc : microcode) : hook_via * bool :=
  match mc with
  | WriteMemory address value =>
      if (lo <=? address) && (address <=? hi) then
        (if address =? hook_a_addr via then
           mkHookVia (hook_a_addr via) (hook_b_addr via) value (hook_b via)
             (hook_printed via ++ [value])
         else if address =? hook_b_addr via then
           mkHookVia (hook_a_addr via) (hook_b_addr via) (hook_a via) value (hook_printed via)
         else via, false)
      else (via, true)
  | _ => (via, true)
  end.

(** custom_peripheral_microcode_hook.rs:69-83: filter one microcode and fold
    it if it is kept. *)
Definition hook_step (lo hi : Z) (p : profile) (s : hook_via * mos6502 D) (mc : microcode)
  : res (hook_via * mos6502 D) :=
  let '(via, keep) := hook_filter lo hi (fst s) mc in
  if keep then do! cpu <- execute_mut p (snd s) mc ; Ok (via, cpu)
  else Ok (via, snd s).

(** custom_peripheral_microcode_hook.rs:59-83, for any machine. *)
Definition hook_replay (lo hi : Z) (p : profile) (n : nat) (via : hook_via) (cpu : mos6502 D)
  : res (hook_via * mos6502 D) :=
  do! cs <- take_cycles p n [] cpu ;
  foldM (hook_step lo hi p) (concat cs) (via, cpu).
End Hook.

(** custom_peripheral_microcode_hook.rs:38-57. *)
Definition hook_machine (p : profile) : res (mos6502 memory) :=
  do! rom <- memory_new p ReadOnly 0xffea 0xffff ;
  do! cpu0 <- mos6502_default p ;
  match register_address_space cpu0 0xffea 0xffff (memory_load rom blink_rom) with
  | None => Panic
  | Some cpu1 =>
      do! ram <- memory_new p ReadWrite 0x8000 0x8003 ;
      match register_address_space cpu1 0x8000 0x8003 ram with
      | None => Panic
      | Some cpu2 => do! s <- reset p cpu2 ; Ok (ss_unwrap s)
      end
  end.

(** custom_peripheral_microcode_hook.rs:35-84, [main] with [n] in place of 80. *)
Definition hook_main (p : profile) (n : nat) : res (hook_via * mos6502 memory) :=
  do! via <- hook_via_new p 0x8000 ;
  do! cpu <- hook_machine p ;
  hook_replay 0x8000 0x8003 p n via cpu.
