(** What each 6502 microcode operation is documented to do
    (src/cpu/mos6502/microcode.rs:7-35) to the register values. *)
From Verif Require Import Base ModelRegs6502 ModelCpu6502.

Inductive reg6 := RA | RX | RY | RS | RP | RPC.
Definition reg6_eqb (a b : reg6) : bool :=
  match a, b with RA, RA | RX, RX | RY, RY | RS, RS | RP, RP | RPC, RPC => true | _, _ => false end.

(** The value of a register; the status register as its byte. *)
Definition reg6_value {D} (cpu : mos6502 D) (r : reg6) : Z :=
  match r with
  | RA => reg_acc cpu | RX => reg_x cpu | RY => reg_y cpu | RS => reg_sp cpu
  | RP => ps_read (reg_ps cpu) | RPC => reg_pc cpu
  end.

Definition byte_name (r : byte_registers) : reg6 :=
  match r with Acc => RA | X => RX | Y => RY | Ps => RP | Sp => RS end.

(** The bit of a flag: NV-BDIZC. *)
Definition flag_place (fl : program_status_flags) : Z :=
  match fl with Negative => 7 | Overflow => 6 | Break => 4 | Decimal => 3 | Interrupt => 2 | Zero => 1 | Carry => 0 end.

Definition put (f : reg6 -> Z) (r : reg6) (v : Z) (q : reg6) : Z := if reg6_eqb r q then v else f q.

Definition told (f : reg6 -> Z) (mc : microcode) : reg6 -> Z :=
  match mc with
  | WriteMemory _ _ => f
  | SetProgramStatusFlagState fl b => put f RP ((if b then Z.setbit else Z.clearbit) (f RP) (flag_place fl))
  | Write8bitRegister r v => put f (byte_name r) v
  | Inc8bitRegister r v => put f (byte_name r) ((f (byte_name r) + v) mod 256)
  | Dec8bitRegister r v => put f (byte_name r) ((f (byte_name r) - v) mod 256)
  | Write16bitRegister Pc v => put f RPC v
  | Inc16bitRegister Pc v => put f RPC ((f RPC + v) mod 65536)
  | Dec16bitRegister Pc v => put f RPC ((f RPC - v) mod 65536)
  end.

(** Operands as the Rust types have them. *)
Definition operands6 (mc : microcode) : Prop :=
  match mc with
  | WriteMemory a v => u16 a /\ u8 v
  | SetProgramStatusFlagState _ _ => True
  | Write8bitRegister _ v | Inc8bitRegister _ v | Dec8bitRegister _ v => u8 v
  | Write16bitRegister _ v | Inc16bitRegister _ v | Dec16bitRegister _ v => u16 v
  end.

(** Is it a write to memory? *)
Definition stores (mc : microcode) : bool := match mc with WriteMemory _ _ => true | _ => false end.
