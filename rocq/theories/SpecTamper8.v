(** A host that changes a CHIP-8 machine between calls of [run] (C140). *)
From Verif Require Import Base ModelDisplay ModelChip8 ModelOpsChip8 ModelStep ModelRunChip8 SpecChip8 SpecChip8Parts SpecCheck8.

(** The host may change the key, the display, the timers and any memory but
    the code, and I, the registers and the stack as long as they are within
    what is noted for the instruction the machine is at. *)
Definition tampers8 (l : listing8) (c c' : chip8) : Prop :=
  well_formed c' /\ observe c' PPC = observe c PPC /\
  (forall n, In n l -> observe c' (PMem (at8 n)) = observe c (PMem (at8 n)) /\ observe c' (PMem (at8 n + 1)) = observe c (PMem (at8 n + 1))) /\
  forall n, noted8 l (observe c PPC) = Some n -> within (observe c') (known n).

(** Calls of [run] with [ns] cycles, at any times and with any random numbers;
    before each of them the host changes the machine. *)
Inductive session8 (e : environment) (p : profile) (l : listing8) : chip8 -> list nat -> chip8 -> Prop :=
| session8_end c : session8 e p l c [] c
| session8_slice c c1 c2 c3 n ns w w' :
    tampers8 l c c1 -> run e p c1 n w = Ok (Ready c2, w') -> session8 e p l c2 ns c3 -> session8 e p l c (n :: ns) c3.
