(** Programs of C88-C90. Branch displacements are counted from the branch
    itself, as this emulator does (C20). *)
From Verif Require Import Base ModelMap ModelRegs6502 ModelCpu6502 Link6502 Spec6502 SpecProgram.

(** The same instruction on [n] bytes upwards from [a], and downwards to [a]. *)
Fixpoint upwards (op a : Z) (n : nat) : list Z :=
  match n with O => [] | S n' => [op; low a; high a] ++ upwards op (a + 1) n' end.
Fixpoint downwards (op a : Z) (n : nat) : list Z :=
  match n with O => [] | S n' => [op; low (a + Z.of_nat n'); high (a + Z.of_nat n')] ++ downwards op a n' end.

(** Double the number in the [n + 1] bytes from [a]: ASL a / ROL a+1 / ... *)
Definition double_program (a : Z) (n : nat) : list Z := [0x0e; low a; high a] ++ upwards 0x2e (a + 1) n.
(** Halve it: LSR a+n / ROR a+n-1 / ... / ROR a. *)
Definition halve_program (a : Z) (n : nat) : list Z := [0x4e; low (a + Z.of_nat n); high (a + Z.of_nat n)] ++ downwards 0x6e a n.

(** Add one to it: INC a, then for each further byte BNE past its INC. *)
Fixpoint carry_on (a : Z) (n : nat) : list Z :=
  match n with O => [] | S n' => [0xd0; 0x05; 0xee; low a; high a] ++ carry_on (a + 1) n' end.
Definition count_program (a : Z) (n : nat) : list Z := [0xee; low a; high a] ++ carry_on (a + 1) n.

(** Multiply the bytes at [m] and [n] into A by shifting and adding:
    LDA #0 / LDX #8 / LSR m / BCC over / CLC / ADC n / over: ASL n / DEX / BNE to the LSR. *)
Definition times_program (m n : Z) : list Z :=
  [0xa9; 0x00; 0xa2; 0x08; 0x4e; low m; high m; 0x90; 0x06; 0x18; 0x6d; low n; high n; 0x0e; low n; high n; 0xca; 0xd0; 0xf3].

(** A machine about to execute [prog], which lies at [L] and does not reach
    the last address. *)
Definition about_to_run {D} `{Device D} (p : profile) (I : address_map D -> Prop) (ram : Z -> Prop) (cpu : mos6502 D)
  (A X Y S L : Z) (P : processor_status) (f : Z -> Z) (prog : list Z) : Prop :=
  ram_bus p I ram /\ machine_with p I cpu (mkRegs A X Y S L P) f /\
  0 <= L /\ L + Z.of_nat (length prog) <= 0xffff /\ bytes_from f L prog.
(** The byte at [q] can be written and is not part of [prog]. *)
Definition variable (ram : Z -> Prop) (L : Z) (prog : list Z) (q : Z) : Prop :=
  u16 q /\ ram q /\ ~ (L <= q < L + Z.of_nat (length prog)).
