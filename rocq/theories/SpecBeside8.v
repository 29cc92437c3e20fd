(** A host at work between the instructions of CHIP-8 code (C147). *)
From Verif Require Import Base ModelDisplay ModelChip8 ModelOpsChip8 ModelRunChip8 SpecChip8 SpecChip8Parts SpecCheck8 SpecTamper8 SpecBudget8.

(** The host may change what [tampers8] allows, as long as the change does not
    put off the next mark: the bound for it does not grow. *)
Definition pushes_on (B : budget8) (l : listing8) (c c' : chip8) : Prop :=
  tampers8 l c c' /\ remaining B (observe c') <= remaining B (observe c).
(** An endless execution: before each instruction the host changes the machine,
    at any time and with any random numbers to come. *)
Definition beside (e : environment) (p : profile) (B : budget8) (l : listing8) (c : chip8) (tr : nat -> chip8) : Prop :=
  tr 0%nat = c /\ forall i, exists c1 w w', pushes_on B l (tr i) c1 /\ step e p c1 w = Ok (tr (S i), w').
