(** Vocabulary for whole programs on the 6502 (C78-C80). *)
From Verif Require Import Base ModelMap ModelRegs6502 ModelCpu6502 ModelStep ModelRun6502 Link6502 Spec6502.

(** The bytes [l] lie in memory [f] from address [a] on. *)
Fixpoint bytes_from (f : Z -> Z) (a : Z) (l : list Z) : Prop :=
  match l with [] => True | b :: l' => f a = b /\ bytes_from f (a + 1) l' end.

(** The little-endian number in the [n] bytes from [a] on. *)
Fixpoint number (f : Z -> Z) (a : Z) (n : nat) : Z :=
  match n with O => 0 | S n' => f a + 256 * number f (a + 1) n' end.

(** A machine on a bus family [I] (see [ram_bus]) with registers [r] and
    memory contents [f]. *)
Definition machine_with {D} `{Device D} (p : profile) (I : address_map D -> Prop) (cpu : mos6502 D)
  (r : registers) (f : Z -> Z) : Prop :=
  I (amap cpu) /\ regs_ok r /\ regs_of cpu = r /\ forall a, u16 a -> peek p (amap cpu) a = f a.

(** [k] instructions taking [t] cycles, which is what a call of [run] with
    [t] cycles carries out. *)
Definition runs {D} `{Device D} (p : profile) (k t : nat) (cpu cpu' : mos6502 D) : Prop :=
  steps p k t cpu cpu' /\ run p cpu t = Ok (Ready cpu').

(** The flags after a value [v] was loaded or counted: Z and N follow [v],
    the others stay. *)
Definition nzf (P : processor_status) (v : Z) : processor_status :=
  mkPs (ps_carry P) (v =? 0) (ps_interrupt_disable P) (ps_decimal P) (ps_brk P) (ps_unused P) (ps_overflow P) (128 <=? v).

(** ** Programs *)
(** LDA a / ADC b / STA d for each of [n] bytes. *)
Fixpoint each_byte (op a b d : Z) (n : nat) : list Z :=
  match n with
  | O => []
  | S n' => [0xad; low a; high a; op; low b; high b; 0x8d; low d; high d] ++ each_byte op (a + 1) (b + 1) (d + 1) n'
  end.
(** CLC, then add the [n]-byte numbers at [a] and [b] into [d]. *)
Definition add_program (a b d : Z) (n : nat) : list Z := 0x18 :: each_byte 0x6d a b d n.
(** SEC, then subtract. *)
Definition sub_program (a b d : Z) (n : nat) : list Z := 0x38 :: each_byte 0xed a b d n.
(** LDA s,X / STA d,X / DEX / BNE back to the LDA (the displacement is
    counted from the BNE itself, C20). *)
Definition copy_program (s d : Z) : list Z :=
  [0xbd; low s; high s; 0x9d; low d; high d; 0xca; 0xd0; 0xf9].
(** DEX / BNE and DEY / BNE. *)
Definition dex_program : list Z := [0xca; 0xd0; 0xff].
Definition dey_program : list Z := [0x88; 0xd0; 0xff].

(** How often a loop that ends at 0 goes round from [x]. *)
Definition rounds (x : Z) : nat := if x =? 0 then 256%nat else Z.to_nat x.
