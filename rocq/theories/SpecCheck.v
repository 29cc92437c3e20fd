(** A static check of 6502 code with subroutines and a stack (C131). *)
From Verif Require Import Base ModelMap ModelRegs6502 ModelCpu6502 ModelIsa6502 Link6502 Spec6502 SpecProgram.

(** ** Annotations *)
(** An instruction at [n_at]; the routine it belongs to has pushed [n_depth]
    bytes and not yet pulled them; at most [n_height] bytes of the stack are in
    use, those of the callers included; [n_main] says whether it is part of the
    main program (which has no caller). *)
Record note := mkNote { n_at : Z; n_depth : Z; n_height : Z; n_main : bool }.
Definition listing := list note.
Definition noted (l : listing) (a : Z) : option note := find (fun n => n_at n =? a) l.

(** ** The check *)
(** Instructions that are not allowed: BRK and RTI, TXS, jumps through memory,
    and operands behind a pointer where they are stored to (the check could not
    tell where) or may panic (debug builds, C15). *)
Definition stores (mn : mnemonic) (m : addressing_mode) : bool :=
  match mn, m with
  | (Asl | Lsr | Rol | Ror | Inc | Dec), Accumulator => false
  | (Sta | Stx | Sty | Asl | Lsr | Rol | Ror | Inc | Dec), _ => true
  | _, _ => false
  end.
Definition refused (p : profile) (mn : mnemonic) (m : addressing_mode) : bool :=
  match mn with
  | Brk | Rti | Txs => true
  | _ =>
      match m with
      | Indirect => true
      | XIndexedIndirect | IndirectYIndexed => match p with Debug => true | Release => stores mn m end
      | _ => false
      end
  end.
(** Where an instruction may store, whatever the index registers hold. *)
Definition bytes256 : list Z := map Z.of_nat (seq 0 256).
Definition places (mn : mnemonic) (m : addressing_mode) (b1 b2 : Z) : list Z :=
  if stores mn m then
    match m with
    | Absolute => [word b1 b2]
    | AbsoluteIndexedWithX | AbsoluteIndexedWithY => map (fun i => (word b1 b2 + i) mod 65536) bytes256
    | ZeroPage => [b1]
    | _ => bytes256
    end
  else [].

Section Check.
Variables (p : profile) (f : Z -> Z) (ram : Z -> bool) (l : listing).

(** [q] holds part of an instruction. *)
Definition covers (n : note) (q : Z) : bool :=
  match decode (f (n_at n)) with
  | Some (_, m, _) => (n_at n <=? q) && (q <? n_at n + length_of m)
  | None => q =? n_at n
  end.
Definition code_byte (q : Z) : bool := existsb (fun n => covers n q) l.
Definition page1 (q : Z) : bool := (0x100 <=? q) && (q <=? 0x1ff).

(** Control may pass to [a] with [d] bytes pushed and up to [h] in use. *)
Definition goes_to (main : bool) (a d h : Z) : bool :=
  match noted l a with
  | Some n => (n_depth n =? d) && (h <=? n_height n) && Bool.eqb (n_main n) main
  | None => false
  end.
Definition successors_ok (mn : mnemonic) (m : addressing_mode) (b1 b2 : Z) (n : note) : bool :=
  let a := n_at n in let d := n_depth n in let h := n_height n in
  let here := goes_to (n_main n) in
  match mn with
  | Jmp => here (word b1 b2) d h
  | Jsr => goes_to false (word b1 b2) 0 (h + 2) && here (a + 3) d h
  | Rts => negb (n_main n) && (d =? 0)
  | Pha | Php => here (a + 1) (d + 1) (h + 1)
  | Pla | Plp => (1 <=? d) && here (a + 1) (d - 1) (h - 1)
  | Bcc | Bcs | Bne | Beq | Bpl | Bmi | Bvc | Bvs => here (a + 2) d h && here ((a + signed b1) mod 65536) d h
  | _ => here (a + length_of m) d h
  end.
Definition instruction_ok (n : note) : bool :=
  let a := n_at n in
  (0 <=? a) && (a <=? 0xfffd) && (0 <=? n_depth n) && (n_height n <=? 255) &&
  match decode (f a) with
  | None => false
  | Some (mn, m, _) =>
      let b1 := f (a + 1) in let b2 := f (a + 2) in
      negb (refused p mn m) &&
      forallb (fun q => ram q && negb (page1 q) && negb (code_byte q)) (places mn m b1 b2) &&
      successors_ok mn m b1 b2 n
  end.
(** The code [l] describes, as it lies in memory [f], passes the check. *)
Definition passes : bool :=
  forallb (fun i => ram (256 + i) && negb (code_byte (256 + i))) bytes256 && forallb instruction_ok l.

(** Some instruction of the listing names [q] as a place to store to. *)
Definition stored_to (q : Z) : Prop :=
  exists n mn m c, In n l /\ decode (f (n_at n)) = Some (mn, m, c) /\ In q (places mn m (f (n_at n + 1)) (f (n_at n + 2))).
End Check.

(** The lowest the stack gets: how many bytes of it are in use at most. *)
Definition deepest (l : listing) : Z := fold_right (fun n h => Z.max (n_height n) h) 0 l.

(** A machine about to run checked code, at the beginning of its main program. *)
Definition checked {D} `{Device D} (p : profile) (I : address_map D -> Prop) (ram : Z -> Prop) (cpu : mos6502 D) (r : registers) (f : Z -> Z)
  (ramb : Z -> bool) (l : listing) : Prop :=
  ram_bus p I ram /\ machine_with p I cpu r f /\ (forall q, ramb q = true -> ram q) /\ passes p f ramb l = true /\
  exists n, noted l (rPC r) = Some n /\ n_main n = true /\ n_depth n = 0 /\ 0 <= n_height n.
