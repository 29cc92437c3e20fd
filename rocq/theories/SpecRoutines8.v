(** CHIP-8 programs (C93-C95). *)
From Verif Require Import Base ModelDisplay ModelChip8 ModelOpsChip8 ModelRunChip8 SpecChip8.

(** The program [ops] lies in memory from address [a] on, within the 4096
    bytes of a CHIP-8. *)
Definition loaded (c : chip8) (a : Z) (ops : list opcode) : Prop :=
  0 <= a /\ a + 2 * Z.of_nat (length ops) <= 4096 /\
  forall k op, nth_error ops k = Some op ->
    256 * observe c (PMem (a + 2 * Z.of_nat k)) + observe c (PMem (a + 2 * Z.of_nat k + 1)) = encode op.

(** Register [r] of the machine. *)
Definition reg (c : chip8) (r : gp_register) : Z := observe c (PV (gp_index r)).

(** 7xkk / 7y01 / 5yz0 / 1aaa: add kk to Vx and count Vy up, until Vy is Vz. *)
Definition add_loop (x y z : gp_register) (kk a : Z) : list opcode :=
  [AddImmediate x kk; AddImmediate y 1; SeVxVy y z; JpNonV0Indexed a].

(** How many times a byte must be counted up from [from] to get to [to], at
    least once. *)
Definition times (from to : Z) : Z := if from <? to then to - from else 256 + to - from.

(** F055 / Fy1E / 7zFF / 3z00 / 1aaa: store V0 at I, add Vy to I and count Vz
    down, until Vz is 0. *)
Definition fill_loop (y z : gp_register) (a : Z) : list opcode :=
  [StoreRegistersToMemory V0; AddIRegisterIndexed y; AddImmediate z 0xff; SeImmediate z 0; JpNonV0Indexed a].

(** Fx33 / F265: the decimal digits of Vx to memory, and from there to V0, V1
    and V2. *)
Definition digits_program (x : gp_register) : list opcode := [LdBcd x; ReadRegistersFromMemory V2].

(** Annn / Fx65 / Ammm / Fx55: copy x + 1 bytes from nnn to mmm. *)
Definition copy_program (x : gp_register) (from to : Z) : list opcode :=
  [LdAbsolute from; ReadRegistersFromMemory x; LdAbsolute to; StoreRegistersToMemory x].

(** Fx07 / 3x00 / 1aaa: wait for the delay timer. *)
Definition wait_loop (x : gp_register) (a : Z) : list opcode :=
  [LdDelayTimerSrcTx x; SeImmediate x 0; JpNonV0Indexed a].

(** A timer set to [n] has run down when the clock (in nanoseconds) is [n]
    seconds past the time it was set at. *)
Definition run_down (n set_at t : Z) : Prop := n = 0 \/ set_at + n * 1000000000 <= t.
