(** Vocabulary for replacing a piece of CHIP-8 code by another (C109). *)
From Verif Require Import Base ModelDisplay ModelChip8 ModelOpsChip8 ModelRunChip8 SpecChip8 SpecChip8Parts SpecLive8 SpecMove8 SpecRoutines8.

(** [n] instructions lead from one machine to the other. *)
Definition instructions (e : environment) (p : profile) (n : nat) (c : chip8) (w : world) (c' : chip8) (w' : world) : Prop :=
  exists h, length h = n /\ executes e p c w h c' w'.

(** The memory of [n] instructions from [start] on. *)
Definition in_piece (start : Z) (n : nat) (q : part) : Prop :=
  match q with PMem a => start <= a < start + 2 * Z.of_nat n | _ => False end.

(** Two machines that differ only in the code at [start]: the instructions [X]
    in the first, as many instructions [Y] in the second. *)
Definition differ_in_piece8 (start : Z) (X Y : list opcode) (c c2 : chip8) : Prop :=
  well_formed c /\ well_formed c2 /\ length Y = length X /\ loaded c start X /\ loaded c2 start Y /\
  forall q, ~ in_piece start (length X) q -> observe c2 q = observe c q.

(** At [start], [X] and [Y] do the same whenever [when] holds: coming there, one
    machine executes [k] instructions and the other [k2]; then they again differ
    only in the piece and have asked the clock and the random number generator
    equally often. *)
Definition interchangeable8 (e : environment) (p : profile) (start : Z) (X Y : list opcode) (when : chip8 -> Prop) (k k2 : nat) : Prop :=
  forall c c2 w, differ_in_piece8 start X Y c c2 -> observe c PPC = start -> when c ->
  exists c' c2' w', instructions e p k c w c' w' /\ instructions e p k2 c2 w c2' w' /\ differ_in_piece8 start X Y c' c2'.

(** A run that comes [n] times to [start] when [when] holds, each time executing
    [kx] instructions from there. In between it executes [k] instructions that
    stand outside the [size] instructions at [start] and neither look at nor set
    their memory. *)
Inductive visits8 (e : environment) (p : profile) (start : Z) (size : nat) (when : chip8 -> Prop) (kx : nat) :
  nat -> nat -> chip8 -> world -> chip8 -> world -> Prop :=
| visits8_none c w : visits8 e p start size when kx 0 0 c w c w
| visits8_piece n k c w c1 w1 c' w' :
    observe c PPC = start -> when c -> instructions e p kx c w c1 w1 ->
    visits8 e p start size when kx n k c1 w1 c' w' ->
    visits8 e p start size when kx (S n) k c w c' w'
| visits8_outside n k op c w c1 w1 c' w' :
    operands_ok op -> fetches p c (encode op) -> step e p c w = Ok (c1, w1) ->
    (forall q, in_piece start size q -> looks_at8 (observe c) op q = false /\ sets8 (observe c) op q = false) ->
    visits8 e p start size when kx n k c1 w1 c' w' ->
    visits8 e p start size when kx n (S k) c w c' w'.
