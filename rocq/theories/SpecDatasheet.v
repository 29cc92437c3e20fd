(** The documented NMOS 6502 as a machine of its own: registers, 64 KiB of
    memory, and for each of the 56 mnemonics what the MOS programming manual
    prescribes.  Unlike Spec6502.v, which describes the emulator, nothing here
    follows the code; the two share the opcode table and the vocabulary for
    registers and flags.

    Scope: binary arithmetic (ADC and SBC are described for a clear decimal
    flag only), documented opcodes, no interrupts.  JMP through a pointer is
    as in the manual: its high byte comes from the next address. *)
From Verif Require Import Base ModelMap ModelRegs6502 ModelCpu6502 ModelIsa6502 Link6502 Spec6502 SpecInstr.

(** ** Addressing *)
Definition ds_address (m : addressing_mode) (r : registers) (rd : Z -> Z) (b1 b2 : Z) : Z :=
  match m with
  | ZeroPage => b1
  | ZeroPageIndexedWithX => (b1 + rX r) mod 256
  | ZeroPageIndexedWithY => (b1 + rY r) mod 256
  | Absolute => b1 + 256 * b2
  | AbsoluteIndexedWithX => (b1 + 256 * b2 + rX r) mod 65536
  | AbsoluteIndexedWithY => (b1 + 256 * b2 + rY r) mod 65536
  | XIndexedIndirect => rd ((b1 + rX r) mod 256) + 256 * rd ((b1 + rX r + 1) mod 256)
  | IndirectYIndexed => (rd b1 + 256 * rd ((b1 + 1) mod 256) + rY r) mod 65536
  | _ => 0
  end.

Definition ds_value (m : addressing_mode) (r : registers) (rd : Z -> Z) (b1 b2 : Z) : Z :=
  match m with
  | Immediate => b1
  | Accumulator => rA r
  | _ => rd (ds_address m r rd b1 b2)
  end.

(** Adding the index carries into the high byte of the address. *)
Definition ds_crosses (m : addressing_mode) (r : registers) (rd : Z -> Z) (b1 : Z) : bool :=
  match m with
  | AbsoluteIndexedWithX => 256 <=? b1 + rX r
  | AbsoluteIndexedWithY => 256 <=? b1 + rY r
  | IndirectYIndexed => 256 <=? rd b1 + rY r
  | _ => false
  end.

(** ** Arithmetic *)
Definition ds_adc (r : registers) (v : Z) : registers :=
  let '(s, c, o) := doc_adc (rA r) v (carry_in (rP r)) in withA (setNZ (setV (setC r c) o) s) s.
Definition ds_sbc (r : registers) (v : Z) : registers :=
  let '(s, c, o) := doc_sbc (rA r) v (carry_in (rP r)) in withA (setNZ (setV (setC r c) o) s) s.
Definition ds_compare (r : registers) (a v : Z) : registers := setNZ (setC r (v <=? a)) ((a - v) mod 256).

(** ** One instruction *)
(** Where a taken branch goes: counted from the following instruction. *)
Definition ds_target (r : registers) (b1 : Z) : Z := (rPC r + 2 + signed b1) mod 65536.

Definition ds_execute (mn : mnemonic) (m : addressing_mode) (cycles : nat)
  (r : registers) (rd : Z -> Z) (b1 b2 : Z) : effect :=
  let next r' := withPC r' ((rPC r + length_of m) mod 65536) in
  let v := ds_value m r rd b1 b2 in
  let read r' := mkEffect (next r') [] (cycles + (if ds_crosses m r rd b1 then 1 else 0)) in
  let store x := mkEffect (next r) [(ds_address m r rd b1 b2, x)] cycles in
  let modify x c :=
    let r' := setNZ (setC r c) x in
    match m with
    | Accumulator => mkEffect (next (withA r' x)) [] cycles
    | _ => mkEffect (next r') [(ds_address m r rd b1 b2, x)] cycles
    end in
  let simple r' := mkEffect (next r') [] cycles in
  match mn with
  (* loads and stores *)
  | Lda => read (withA (setNZ r v) v)
  | Ldx => read (withX (setNZ r v) v)
  | Ldy => read (withY (setNZ r v) v)
  | Sta => store (rA r)
  | Stx => store (rX r)
  | Sty => store (rY r)
  (* arithmetic and logic *)
  | Adc => read (ds_adc r v)
  | Sbc => read (ds_sbc r v)
  | Cmp => read (ds_compare r (rA r) v)
  | Cpx => read (ds_compare r (rX r) v)
  | Cpy => read (ds_compare r (rY r) v)
  | And => let x := Z.land (rA r) v in read (withA (setNZ r x) x)
  | Ora => let x := Z.lor (rA r) v in read (withA (setNZ r x) x)
  | Eor => let x := Z.lxor (rA r) v in read (withA (setNZ r x) x)
  | Bit => read (setZ (setV (setN r (Z.testbit v 7)) (Z.testbit v 6)) (Z.land (rA r) v =? 0))
  (* shifts, increments *)
  | Asl => modify ((2 * v) mod 256) (128 <=? v)
  | Lsr => modify (v / 2) (Z.odd v)
  | Rol => modify ((2 * v) mod 256 + carry_in (rP r)) (128 <=? v)
  | Ror => modify (v / 2 + 128 * carry_in (rP r)) (Z.odd v)
  | Inc => modify ((v + 1) mod 256) (ps_carry (rP r))
  | Dec => modify ((v - 1) mod 256) (ps_carry (rP r))
  | Inx => let x := (rX r + 1) mod 256 in simple (withX (setNZ r x) x)
  | Iny => let x := (rY r + 1) mod 256 in simple (withY (setNZ r x) x)
  | Dex => let x := (rX r - 1) mod 256 in simple (withX (setNZ r x) x)
  | Dey => let x := (rY r - 1) mod 256 in simple (withY (setNZ r x) x)
  (* transfers and flags *)
  | Tax => simple (withX (setNZ r (rA r)) (rA r))
  | Tay => simple (withY (setNZ r (rA r)) (rA r))
  | Tsx => simple (withX (setNZ r (rS r)) (rS r))
  | Txa => simple (withA (setNZ r (rX r)) (rX r))
  | Tya => simple (withA (setNZ r (rY r)) (rY r))
  | Txs => simple (withS r (rX r))
  | Clc => simple (setC r false)
  | Sec => simple (setC r true)
  | Cli => simple (setI r false)
  | Sei => simple (setI r true)
  | Cld => simple (setD r false)
  | Sed => simple (setD r true)
  | Clv => simple (setV r false)
  | Nop => simple r
  (* branches *)
  | Bcc | Bcs | Bne | Beq | Bpl | Bmi | Bvc | Bvs =>
      match branch_taken mn (rP r) with
      | Some true =>
          mkEffect (withPC r (ds_target r b1)) []
            (cycles + (if ds_target r b1 / 256 =? (rPC r + 2) mod 65536 / 256 then 1 else 2))
      | _ => simple r
      end
  (* jumps, subroutines, stack, interrupts *)
  | Jmp =>
      let a := b1 + 256 * b2 in
      mkEffect (withPC r match m with
                         | Indirect => rd a + 256 * rd ((a + 1) mod 65536)
                         | _ => a
                         end) [] cycles
  | Jsr =>
      let last := (rPC r + 2) mod 65536 in
      mkEffect (withPC (withS r ((rS r - 2) mod 256)) (b1 + 256 * b2))
        [(stack_slot (rS r) 0, last / 256); (stack_slot (rS r) 1, last mod 256)] cycles
  | Rts =>
      mkEffect (withPC (withS r ((rS r + 2) mod 256))
        ((rd (stack_slot (rS r) (-1)) + 256 * rd (stack_slot (rS r) (-2)) + 1) mod 65536)) [] cycles
  | Pha => mkEffect (next (withS r ((rS r - 1) mod 256))) [(stack_slot (rS r) 0, rA r)] cycles
  | Php => mkEffect (next (withS r ((rS r - 1) mod 256))) [(stack_slot (rS r) 0, status_byte (rP r))] cycles
  | Pla =>
      let x := rd (stack_slot (rS r) (-1)) in
      simple (withA (setNZ (withS r ((rS r + 1) mod 256)) x) x)
  | Plp => simple (withP (withS r ((rS r + 1) mod 256)) (status_of_byte (rd (stack_slot (rS r) (-1)))))
  | Brk =>
      let ret := (rPC r + 2) mod 65536 in
      let r' := setB r true in
      mkEffect (withPC (withS (setI r' true) ((rS r - 3) mod 256)) (rd 0xfffe + 256 * rd 0xffff))
        [(stack_slot (rS r) 0, ret / 256); (stack_slot (rS r) 1, ret mod 256);
         (stack_slot (rS r) 2, status_byte (rP r'))] cycles
  | Rti =>
      mkEffect (withPC (withP (withS r ((rS r + 3) mod 256)) (status_of_byte (rd (stack_slot (rS r) (-1)))))
        (rd (stack_slot (rS r) (-2)) + 256 * rd (stack_slot (rS r) (-3)))) [] cycles
  end.

(** ** The machine *)
Definition ds_state : Type := registers * (Z -> Z).

(** The instruction at the program counter: mnemonic, mode, base cycles and
    the two bytes that follow the opcode. *)
Definition ds_fetch (st : ds_state) : option (mnemonic * addressing_mode * nat * Z * Z) :=
  let '(r, mem) := st in
  match decode (mem (rPC r)) with
  | Some (mn, m, c) => Some (mn, m, c, mem ((rPC r + 1) mod 65536), mem ((rPC r + 2) mod 65536))
  | None => None
  end.

(** The bytes stored by the next instruction, in order. *)
Definition ds_effect (st : ds_state) : option effect :=
  match ds_fetch st with
  | Some (mn, m, c, b1, b2) => Some (ds_execute mn m c (fst st) (snd st) b1 b2)
  | None => None
  end.

Definition put (mem : Z -> Z) (av : Z * Z) : Z -> Z := fun x => if x =? fst av then snd av else mem x.

(** One instruction takes [t] cycles and leads to [st']. *)
Definition ds_step (st : ds_state) (t : nat) (st' : ds_state) : Prop :=
  exists e, ds_effect st = Some e /\ t = e_cycles e /\
    st' = (e_regs e, fold_left put (e_stores e) (snd st)).

(** ** Where the emulator departs from it *)
(** The instruction [mn] in mode [m] with operand bytes [b1] [b2]. *)
Definition departs (p : profile) (mn : mnemonic) (m : addressing_mode) (r : registers) (rd : Z -> Z)
  (b1 b2 : Z) : Prop :=
  let v := ds_value m r rd b1 b2 in
  let c := ps_carry (rP r) in
  (* a debug build panics when address arithmetic overflows *)
  (p = Debug /\ m = XIndexedIndirect /\ rX r = 255) \/
  (p = Debug /\ m = IndirectYIndexed /\ 65536 <= rd b1 + 256 * rd ((b1 + 1) mod 256) + rY r) \/
  (p = Debug /\ m = Indirect /\ b1 = 255 /\ b2 = 255) \/
  (* a read through (zp),Y is charged the extra cycle when the operand is
     outside page zero, not when adding Y carries *)
  (m = IndirectYIndexed /\ reads_operand mn = true /\
   ds_crosses m r rd b1 <> (256 <=? ds_address m r rd b1 b2)) \/
  match mn with
  (* taken branches go two bytes too low *)
  | Bcc | Bcs | Bne | Beq | Bpl | Bmi | Bvc | Bvs => branch_taken mn (rP r) = Some true
  (* wrong return address and wrong order; return one byte too far *)
  | Brk | Rti => True
  (* the incoming carry is dropped; V is set when both operands are negative *)
  | Adc => c = true \/ (128 <=? rA r) && (128 <=? v) <> snd (doc_adc (rA r) v 0)
  (* C is lost for a zero operand; V is that of an addition *)
  | Sbc => (c = true /\ v = 0) \/
      emulated_overflow (rA r) ((255 - v + carry_in (rP r)) mod 256) c <> snd (doc_sbc (rA r) v (carry_in (rP r)))
  (* 0 counts as larger than 1..127 *)
  | Cmp => (rA r = 0 /\ 1 <= v <= 127) \/ (v = 0 /\ 1 <= rA r <= 127)
  | Cpx => (rX r = 0 /\ 1 <= v <= 127) \/ (v = 0 /\ 1 <= rX r <= 127)
  | Cpy => (rY r = 0 /\ 1 <= v <= 127) \/ (v = 0 /\ 1 <= rY r <= 127)
  (* the flags of DEY describe X - 1 *)
  | Dey => ~ ((rX r = 1 <-> rY r = 1) /\ (128 <= (rX r - 1) mod 256 <-> 128 <= (rY r - 1) mod 256))
  | _ => False
  end.

(** The machine is at an instruction on which the emulator departs. *)
Definition ds_departs (p : profile) (st : ds_state) : Prop :=
  (p = Debug /\ 0xfffd < rPC (fst st)) \/
  exists mn m c b1 b2, ds_fetch st = Some (mn, m, c, b1, b2) /\ departs p mn m (fst st) (snd st) b1 b2.

(** Decimal arithmetic, which is out of scope. *)
Definition ds_decimal (st : ds_state) : Prop :=
  ps_decimal (rP (fst st)) = true /\
  exists mn m c b1 b2, ds_fetch st = Some (mn, m, c, b1, b2) /\ (mn = Adc \/ mn = Sbc).

(** The next instruction stores into [ram] only. *)
Definition ds_stores_in (ram : Z -> Prop) (st : ds_state) : Prop :=
  forall e, ds_effect st = Some e -> Forall (fun av => ram (fst av)) (e_stores e).

(** [k] instructions, [t] cycles in total, none of them a departure, decimal
    or storing outside [ram]. *)
Inductive ds_run (p : profile) (ram : Z -> Prop) : nat -> nat -> ds_state -> ds_state -> Prop :=
| ds_here st : ds_run p ram 0 0 st st
| ds_next k t c st st1 st2 :
    ds_step st c st1 -> ~ ds_departs p st -> ~ ds_decimal st -> ds_stores_in ram st ->
    ds_run p ram k t st1 st2 -> ds_run p ram (S k) (c + t) st st2.

(** ** The emulator in the state of the machine *)
(** The registers agree, and so does every byte of the 64 KiB. *)
Definition shows {D} `{Device D} (p : profile) (cpu : mos6502 D) (st : ds_state) : Prop :=
  regs_of cpu = fst st /\ forall a, u16 a -> am_read p (amap cpu) a = Ok (snd st a).
