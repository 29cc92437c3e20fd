(** A static check of how long 6502 code takes (C134), on top of that of C131. *)
From Verif Require Import Base ModelMap ModelRegs6502 ModelCpu6502 ModelIsa6502 Link6502 Spec6502 SpecInstr SpecFrame SpecCheck.

(** ** Annotations *)
(** [bound a x z]: with [x] in X and [z] as the zero flag at instruction [a], at
    most so many cycles pass before the routine [a] is in returns, and in the
    main program before a marked instruction is reached; [None] says that this
    does not occur.  [marked]: the marked instructions.  [leaves_x]: the
    instruction is part of a routine that does not change X. *)
Record budget := mkBudget { bound : Z -> Z -> bool -> option Z; marked : Z -> bool; leaves_x : Z -> bool }.

(** ** What an instruction does to X and the zero flag, and how long it takes *)
Definition both : list bool := [true; false].
Definition next_x (mn : mnemonic) (m : addressing_mode) (b1 x : Z) : list Z :=
  match mn, m with
  | Dex, _ => [(x - 1) mod 256]
  | Inx, _ => [(x + 1) mod 256]
  | Ldx, Immediate => [b1]
  | (Ldx | Tax | Tsx), _ => bytes256
  | _, _ => [x]
  end.
Definition next_z (mn : mnemonic) (m : addressing_mode) (b1 x : Z) (z : bool) : list bool :=
  match mn, m with
  (* DEVIATION: the flags of DEY describe X - 1. *)
  | (Dex | Dey), _ => [(x - 1) mod 256 =? 0]
  | Inx, _ => [(x + 1) mod 256 =? 0]
  | Txa, _ => [x =? 0]
  | (Lda | Ldx | Ldy), Immediate => [b1 =? 0]
  | Cpx, Immediate => [(x - b1) mod 256 =? 0]
  | (Lda | Ldx | Ldy | Adc | Sbc | And | Ora | Eor | Bit | Cmp | Cpx | Cpy | Asl | Lsr | Rol | Ror | Inc | Dec
     | Iny | Tax | Tay | Tsx | Tya | Pla | Plp), _ => both
  | _, _ => [z]
  end.
(** The extra cycle of an indexed read is always counted. *)
Definition longest (mn : mnemonic) (m : addressing_mode) (c : nat) : Z :=
  Z.of_nat c +
  match mn, m with
  | (Lda | Ldx | Ldy | Adc | Sbc | And | Ora | Eor | Bit | Cmp | Cpx | Cpy), (AbsoluteIndexedWithX | AbsoluteIndexedWithY | IndirectYIndexed) => 1
  | _, _ => 0
  end.
(** Where the program goes on, and after how many cycles (JSR and RTS apart). *)
Definition next_at (mn : mnemonic) (m : addressing_mode) (c : nat) (a b1 b2 : Z) (z : bool) : list (Z * Z) :=
  let target := (a + signed b1) mod 65536 in
  let taken := (target, Z.of_nat c + if target / 256 =? a / 256 then 1 else 2) in
  let not_taken := (a + 2, Z.of_nat c) in
  match mn with
  | Jmp => [(word b1 b2, Z.of_nat c)]
  | Bne => if z then [not_taken] else [taken]
  | Beq => if z then [taken] else [not_taken]
  | Bcc | Bcs | Bpl | Bmi | Bvc | Bvs => [taken; not_taken]
  | _ => [(a + length_of m, longest mn m c)]
  end.

(** ** The check *)
Section Check.
Variables (B : budget) (W : Z) (f : Z -> Z).

(** The cycles the annotations allow from a place on: none if it is marked. *)
Definition due (a x : Z) (z : bool) : option Z :=
  match bound B a x z with
  | Some w => if marked B a then (if w <=? W then Some 0 else None) else Some w
  | None => None
  end.
(** The budget [w] is enough for [cost] cycles and what follows. *)
Definition enough (w cost a x : Z) (z : bool) : bool :=
  match due a x z with Some w' => cost + w' <=? w | None => false end.
Definition time_ok (n : note) : bool :=
  let a := n_at n in
  match decode (f a) with
  | None => false
  | Some (mn, m, c) =>
      let b1 := f (a + 1) in let b2 := f (a + 2) in
      (* marks in the main program only; routines that leave X alone *)
      implb (marked B a) (n_main n) && implb (leaves_x B a) (negb (n_main n)) &&
      implb (leaves_x B a) (match mn with Dex | Inx | Ldx | Tax | Tsx => false | _ => true end) &&
      (match mn with
       | Jsr => implb (leaves_x B a) (leaves_x B (word b1 b2)) && Bool.eqb (leaves_x B (a + 3)) (leaves_x B a)
       | Rts => true
       | _ => forallb (fun z => forallb (fun g => Bool.eqb (leaves_x B (fst g)) (leaves_x B a)) (next_at mn m c a b1 b2 z)) both
       end) &&
      (* time *)
      forallb (fun x => forallb (fun z =>
        match bound B a x z with
        | None => true
        | Some w =>
            (0 <=? w) &&
            match mn with
            | Rts => Z.of_nat c <=? w
            | Jsr =>
                match due (word b1 b2) x z with
                | None => false
                | Some w' =>
                    forallb (fun x' => forallb (fun z' => enough w (Z.of_nat c + w') (a + 3) x' z') both) (if leaves_x B (word b1 b2) then [x] else bytes256)
                end
            | _ =>
                forallb (fun g => forallb (fun x' => forallb (fun z' => enough w (snd g) (fst g) x' z') (next_z mn m b1 x z)) (next_x mn m b1 x)) (next_at mn m c a b1 b2 z)
            end
        end) both) bytes256
  end.
(** The code [l] describes, as it lies in memory [f], passes the check, and
    [W] is at least the bound noted at any mark. *)
Definition in_time (l : listing) : bool := forallb time_ok l.
End Check.
