(** What each instruction may change, and when it cannot be executed. *)
From Verif Require Import Base ModelRegs6502 ModelIsa6502 Spec6502 SpecBus.

(** The addresses written by an instruction, in order; [lo] and [hi] are the
    bytes of its pointer, if it has one. *)
Definition writes_made (mn : mnemonic) (m : addressing_mode) (r : registers) (b1 b2 lo hi : Z) : list Z :=
  match mn with
  | Sta | Stx | Sty => [effective m r b1 b2 lo hi]
  | Asl | Lsr | Rol | Ror | Inc | Dec => if in_memory m then [effective m r b1 b2 lo hi] else []
  | Pha | Php => [stack (rS r)]
  | Jsr => [stack (rS r); stack (rS r - 1)]
  | Brk => [stack (rS r); stack (rS r - 1); stack (rS r - 2)]
  | _ => []
  end.

(** The pointer bytes in a memory [rd]. *)
Definition pointer_lo (m : addressing_mode) (r : registers) (rd : Z -> Z) (b1 : Z) : Z :=
  rd (nth 0 (pointer_reads m r b1) 0).
Definition pointer_hi (m : addressing_mode) (r : registers) (rd : Z -> Z) (b1 : Z) : Z :=
  rd (nth 1 (pointer_reads m r b1) 0).

(** Address arithmetic that leaves its width. *)
Definition address_overflow (mn : mnemonic) (m : addressing_mode) (r : registers) (rd : Z -> Z) (b1 b2 : Z) : Prop :=
  (m = XIndexedIndirect /\ rX r = 255) \/
  (m = IndirectYIndexed /\ 65535 < word (pointer_lo m r rd b1) (pointer_hi m r rd b1) + rY r) \/
  (mn = Jmp /\ m = Indirect /\ word b1 b2 = 65535).

(** The registers other than PC that an instruction may change. *)
Inductive reg := RA | RX | RY | RS.
Definition get (r : registers) (x : reg) : Z :=
  match x with RA => rA r | RX => rX r | RY => rY r | RS => rS r end.
Definition may_change (mn : mnemonic) (m : addressing_mode) : list reg :=
  match mn with
  | Lda | Adc | Sbc | And | Ora | Eor | Txa | Tya => [RA]
  | Asl | Lsr | Rol | Ror => match m with Accumulator => [RA] | _ => [] end
  | Ldx | Tax | Tsx | Inx | Dex => [RX]
  | Ldy | Tay | Iny | Dey => [RY]
  | Pla => [RA; RS]
  | Txs | Pha | Php | Plp | Jsr | Rts | Brk | Rti => [RS]
  | _ => []
  end.

(** The flags. *)
Inductive flag := FC | FZ | FI | FD | FB | FU | FV | FN.
Definition flag_of (r : registers) (f : flag) : bool :=
  match f with
  | FC => ps_carry (rP r) | FZ => ps_zero (rP r) | FI => ps_interrupt_disable (rP r)
  | FD => ps_decimal (rP r) | FB => ps_brk (rP r) | FU => ps_unused (rP r)
  | FV => ps_overflow (rP r) | FN => ps_negative (rP r)
  end.
Definition flags_changed (mn : mnemonic) : list flag :=
  match mn with
  | Adc | Sbc => [FC; FZ; FV; FN]
  | Cmp | Cpx | Cpy | Asl | Lsr | Rol | Ror => [FC; FZ; FN]
  | Lda | Ldx | Ldy | And | Ora | Eor | Inc | Dec | Inx | Iny | Dex | Dey
  | Tax | Tay | Tsx | Txa | Tya | Pla => [FZ; FN]
  | Bit => [FZ; FV; FN]
  | Clc | Sec => [FC]
  | Cli | Sei => [FI]
  | Cld | Sed => [FD]
  | Clv => [FV]
  | Brk => [FI; FB]
  | Plp | Rti => [FC; FZ; FI; FD; FB; FU; FV; FN]
  | _ => []
  end.

(** The flags an instruction looks at. *)
Definition flags_used (mn : mnemonic) : list flag :=
  match mn with
  | Adc | Sbc | Rol | Ror | Bcc | Bcs => [FC]
  | Bne | Beq => [FZ]
  | Bpl | Bmi => [FN]
  | Bvc | Bvs => [FV]
  | Php | Brk => [FC; FZ; FI; FD; FB; FU; FV; FN]
  | _ => []
  end.
Definition set_flag (f : flag) (v : bool) (r : registers) : registers :=
  let s := rP r in
  withP r
    (match f with
     | FC => mkPs v (ps_zero s) (ps_interrupt_disable s) (ps_decimal s) (ps_brk s) (ps_unused s) (ps_overflow s) (ps_negative s)
     | FZ => mkPs (ps_carry s) v (ps_interrupt_disable s) (ps_decimal s) (ps_brk s) (ps_unused s) (ps_overflow s) (ps_negative s)
     | FI => mkPs (ps_carry s) (ps_zero s) v (ps_decimal s) (ps_brk s) (ps_unused s) (ps_overflow s) (ps_negative s)
     | FD => mkPs (ps_carry s) (ps_zero s) (ps_interrupt_disable s) v (ps_brk s) (ps_unused s) (ps_overflow s) (ps_negative s)
     | FB => mkPs (ps_carry s) (ps_zero s) (ps_interrupt_disable s) (ps_decimal s) v (ps_unused s) (ps_overflow s) (ps_negative s)
     | FU => mkPs (ps_carry s) (ps_zero s) (ps_interrupt_disable s) (ps_decimal s) (ps_brk s) v (ps_overflow s) (ps_negative s)
     | FV => mkPs (ps_carry s) (ps_zero s) (ps_interrupt_disable s) (ps_decimal s) (ps_brk s) (ps_unused s) v (ps_negative s)
     | FN => mkPs (ps_carry s) (ps_zero s) (ps_interrupt_disable s) (ps_decimal s) (ps_brk s) (ps_unused s) (ps_overflow s) v
     end).
