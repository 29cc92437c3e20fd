(** A static check that 6502 code keeps secrets (C133), on top of that of C131. *)
From Verif Require Import Base ModelMap ModelRegs6502 ModelCpu6502 ModelIsa6502 Link6502 Spec6502 SpecInstr SpecFrame SpecLive SpecCheck.

(** ** Annotations *)
(** Which memory is secret; which registers and flags are public when the
    instruction at a place is reached (S always is); and which are public when
    a routine returns. *)
Record policy := mkPolicy { secret : Z -> bool; public : Z -> list part; on_return : list part }.
Definition public_at (P : policy) (a : Z) : list part := Reg RS :: public P a.
Definition public_back (P : policy) : list part := Reg RS :: on_return P.

Definition part_dec (x y : part) : {x = y} + {x <> y}.
Proof. decide equality; decide equality. Defined.
Definition among (x : part) (l : list part) : bool := if in_dec part_dec x l then true else false.
Definition all_among (l l' : list part) : bool := forallb (fun x => among x l') l.

(** ** The check *)
(** The register that helps find the operand. *)
Definition index_of (m : addressing_mode) : list part :=
  match m with
  | AbsoluteIndexedWithX | ZeroPageIndexedWithX => [Reg RX]
  | AbsoluteIndexedWithY | ZeroPageIndexedWithY => [Reg RY]
  | _ => []
  end.
Definition through_pointer (m : addressing_mode) : bool :=
  match m with Indirect | XIndexedIndirect | IndirectYIndexed => true | _ => false end.
(** Where an instruction may read its operand, whatever the index registers hold. *)
Definition may_read (mn : mnemonic) (m : addressing_mode) (b1 b2 : Z) : list Z :=
  match mn with
  | Lda | Ldx | Ldy | Adc | Sbc | And | Ora | Eor | Bit | Cmp | Cpx | Cpy | Asl | Lsr | Rol | Ror | Inc | Dec =>
      match m with
      | Absolute => [word b1 b2]
      | AbsoluteIndexedWithX | AbsoluteIndexedWithY => map (fun i => (word b1 b2 + i) mod 65536) bytes256
      | ZeroPage => [b1]
      | ZeroPageIndexedWithX | ZeroPageIndexedWithY => bytes256
      | _ => []
      end
  | _ => []
  end.
(** Instructions that may only work on public values: they decide where the
    program goes on, or they put something on the stack, which is public. *)
Definition public_only (mn : mnemonic) : bool :=
  transfers_control mn || match mn with Pha | Php => true | _ => false end.

Section Check.
Variables (P : policy) (f : Z -> Z).

(** Everything the instruction works on is public. *)
Definition inputs_public (mn : mnemonic) (m : addressing_mode) (a b1 b2 : Z) : bool :=
  all_among (emulator_looks_at mn m) (public_at P a) && negb (existsb (secret P) (may_read mn m b1 b2)).
(** What is needed where the program goes on: for each such place the parts
    that are public there. *)
Definition needed_next (mn : mnemonic) (m : addressing_mode) (a b1 b2 : Z) : list (list part) :=
  match mn with
  | Jmp | Jsr => [public_at P (word b1 b2)]
  | Rts => [public_back P]
  | Bcc | Bcs | Bne | Beq | Bpl | Bmi | Bvc | Bvs => [public_at P (a + 2); public_at P ((a + signed b1) mod 65536)]
  | _ => [public_at P (a + length_of m)]
  end.
Definition keeps_ok (n : note) : bool :=
  let a := n_at n in
  match decode (f a) with
  | None => false
  | Some (mn, m, _) =>
      let b1 := f (a + 1) in let b2 := f (a + 2) in
      let clean := inputs_public mn m a b1 b2 in
      forallb (fun j => negb (secret P (a + Z.of_nat j))) (seq 0 (Z.to_nat (length_of m))) &&
      negb (through_pointer m) && all_among (index_of m) (public_at P a) &&
      (clean || (negb (public_only mn) && forallb (secret P) (places mn m b1 b2))) &&
      forallb (forallb (fun x => if among x (sets mn m) then clean else among x (public_at P a))) (needed_next mn m a b1 b2) &&
      match mn with Jsr => all_among (public_at P (a + 3)) (public_back P) | _ => true end
  end.
(** The code [l] describes, as it lies in memory [f], passes the check. *)
Definition keeps_secrets (l : listing) : bool :=
  forallb (fun i => negb (secret P (256 + i))) bytes256 && forallb keeps_ok l.
End Check.

(** Two machines that an observer who sees no secrets cannot tell apart. *)
Definition look_alike {D} `{Device D} (p : profile) (P : policy) (cpu1 cpu2 : mos6502 D) : Prop :=
  rPC (regs_of cpu1) = rPC (regs_of cpu2) /\ rS (regs_of cpu1) = rS (regs_of cpu2) /\
  Forall (same (regs_of cpu1) (regs_of cpu2)) (public P (rPC (regs_of cpu1))) /\
  forall q, u16 q -> secret P q = false -> peek p (amap cpu1) q = peek p (amap cpu2) q.
