(** Two hosts that differ only in the secrets they hand to their machines
    (C142). *)
From Verif Require Import Base ModelMap ModelRegs6502 ModelCpu6502 ModelStep ModelIsa6502 ModelRun6502 Link6502 ProofRun6502.
From Verif Require Import Spec6502 SpecProgram SpecCheck SpecTamper SpecSecret.

(** Two machines side by side; before each call of [run] each host changes its
    machine as in C139, in ways that differ only in secrets. *)
Inductive side_by_side {D} `{Device D} (p : profile) (I : address_map D -> Prop) (f1 f2 : Z -> Z) (l : listing) (base : Z) (P : policy) :
  mos6502 D -> mos6502 D -> list nat -> mos6502 D -> mos6502 D -> Prop :=
| sides_end a b : side_by_side p I f1 f2 l base P a b [] a b
| sides_slice a b a1 b1 a2 b2 a3 b3 n ns :
    tampers p I f1 l base a a1 -> tampers p I f2 l base b b1 -> look_alike p P a1 b1 ->
    run p a1 n = Ok (Ready a2) -> run p b1 n = Ok (Ready b2) ->
    side_by_side p I f1 f2 l base P a2 b2 ns a3 b3 -> side_by_side p I f1 f2 l base P a b (n :: ns) a3 b3.
