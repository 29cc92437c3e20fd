(** A static check that 6502 code does on the documented 6502 what it does on
    the emulator (C135), on top of that of C131. *)
From Verif Require Import Base ModelMap ModelRegs6502 ModelCpu6502 ModelIsa6502 Link6502 Spec6502 SpecInstr SpecFrame SpecLive SpecCheck SpecSecret SpecDatasheet.

(** ** The code on the two machines *)
(** On the emulator a branch is counted from the branch itself, on the chip from
    the following instruction (C20), so the displacements must differ by two.
    Here are the bytes that hold them. *)
Definition is_branch (mn : mnemonic) : bool :=
  match mn with Bcc | Bcs | Bne | Beq | Bpl | Bmi | Bvc | Bvs => true | _ => false end.
Definition displacement (f : Z -> Z) (l : listing) (q : Z) : bool :=
  existsb (fun n => (q =? n_at n + 1) && match decode (f (n_at n)) with Some (mn, _, _) => is_branch mn | None => false end) l.
(** The chip's memory [g] when the emulator's is [f]: [code] is the memory the
    listing was checked in. *)
Definition chip_memory (code : Z -> Z) (l : listing) (f g : Z -> Z) : Prop :=
  forall q, u16 q -> g q = if displacement code l q then (f q - 2) mod 256 else f q.

(** ** Annotations *)
(** At each instruction: the flags that are the same on both machines (the other
    registers always are), and whether the carry is known to be clear; and the
    same for returns. *)
Record port := mkPort { agreed : Z -> list flag; clear_at : Z -> bool; agreed_back : list flag; clear_back : bool }.
Definition has (x : flag) (l : list flag) : bool := among (Flag x) (map Flag l).

(** ** The check *)
(** Flags the emulator may get wrong (C14 to C16 and C19). *)
Definition lost (mn : mnemonic) (m : addressing_mode) (b1 : Z) : list flag :=
  match mn, m with
  | Adc, _ => [FV]
  | Sbc, Immediate => if b1 =? 0 then [FC; FV] else [FV]
  | Sbc, _ => [FC; FV]
  | (Cmp | Cpx | Cpy), Immediate => if 128 <=? b1 then [] else [FC]
  | (Cmp | Cpx | Cpy), _ => [FC]
  | Dey, _ => [FZ; FN]
  | _, _ => []
  end.

Section Check.
Variables (P : port) (f : Z -> Z) (l : listing).

(** What is needed where the program goes on. *)
Definition onward_flags (mn : mnemonic) (m : addressing_mode) (a b1 b2 : Z) : list (list flag * bool) :=
  let at_ b := (agreed P b, clear_at P b) in
  match mn with
  | Jmp | Jsr => [at_ (word b1 b2)]
  | Rts => [(agreed_back P, clear_back P)]
  | Bcc | Bcs | Bne | Beq | Bpl | Bmi | Bvc | Bvs => [at_ (a + 2); at_ ((a + signed b1) mod 65536)]
  | _ => [at_ (a + length_of m)]
  end.
Definition port_ok (n : note) : bool :=
  let a := n_at n in
  match decode (f a) with
  | None => false
  | Some (mn, m, _) =>
      let b1 := f (a + 1) in let b2 := f (a + 2) in
      (* no pointers (C33), no decimal mode (C73) *)
      negb (through_pointer m) && match mn with Sed | Plp => false | _ => true end &&
      (* what it depends on is the same; ADC is right if the carry is clear *)
      forallb (fun x => has x (agreed P a)) (flags_used mn) && match mn with Adc => clear_at P a | _ => true end &&
      (* it neither reads nor is a displacement, except its own *)
      negb (existsb (displacement f l) (may_read mn m b1 b2)) &&
      forallb (fun j => (is_branch mn && (j =? 1)) || negb (displacement f l (a + j))) (firstn (Z.to_nat (length_of m)) [0; 1; 2]) &&
      (* a branch can be adapted and takes as long *)
      implb (is_branch mn) ((-126 <=? signed b1) && (a / 256 =? (a + 2) / 256)) &&
      forallb (fun g => forallb (fun x => if has x (flags_changed mn) then negb (has x (lost mn m b1)) else has x (agreed P a)) (fst g) &&
                        implb (snd g) (match mn with Clc => true | _ => clear_at P a && negb (has FC (flags_changed mn)) end))
        (onward_flags mn m a b1 b2) &&
      match mn with
      | Jsr => forallb (fun x => has x (agreed_back P)) (agreed P (a + 3)) && implb (clear_at P (a + 3)) (clear_back P)
      | _ => true
      end
  end.
(** The code [l] describes, as it lies in memory [f], passes the check. *)
Definition portable : bool := forallb port_ok l.
End Check.

(** The registers of the two machines, as far as they are the same. *)
Definition tally (P : port) (r r' : registers) : Prop :=
  rA r = rA r' /\ rX r = rX r' /\ rY r = rY r' /\ rS r = rS r' /\ rPC r = rPC r' /\
  forall x, In x (agreed P (rPC r)) -> flag_of r x = flag_of r' x.
