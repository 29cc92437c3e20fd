(** Vocabulary for C102: CHIP-8 machines that are left to themselves. *)
From Verif Require Import Base ModelChip8 ModelRunChip8 SpecChip8.

(** [n] instructions, none of which asks the clock or the random number
    generator. *)
Inductive unasked (e : environment) (p : profile) (w : world) : nat -> chip8 -> chip8 -> Prop :=
| unasked_none c : unasked e p w 0 c c
| unasked_step n c c1 c2 : step e p c w = Ok (c1, w) -> unasked e p w n c1 c2 -> unasked e p w (S n) c c2.

(** The next instruction asks one of them. *)
Definition asks (e : environment) (p : profile) (w : world) (c : chip8) : Prop :=
  exists c' w', step e p c w = Ok (c', w') /\ w' <> w.

(** Every part of the two machines is the same. *)
Definition same_machine (c c2 : chip8) : Prop := forall q, observe c2 q = observe c q.

(** In how many states a machine can be while it asks nothing: 16 bits each of
    PC and I, 4 of the stack pointer, 15 registers of 8, 16 stack entries of 16,
    4096 bytes of 8 and 64 times 32 pixels. *)
Definition states8 : Z := 2 ^ (16 + 16 + 4 + 15 * 8 + 16 * 16 + 4096 * 8 + 64 * 32).
