(** The states of a CHIP-8 machine (C123). *)
From Verif Require Import Base ModelDisplay ModelChip8 ModelOpsChip8 SpecChip8 SpecChip8Parts.

(** The parts a machine has: fifteen registers, sixteen stack entries, 4096
    bytes and 64 by 32 pixels. *)
Definition part_of_machine (q : part) : Prop :=
  match q with
  | PV x => 0 <= x < 15
  | PStack k => 0 <= k < 16
  | PMem a => 0 <= a < 4096
  | PPixel x y => 0 <= x < 64 /\ 0 <= y < 32
  | _ => True
  end.
(** What each part can hold. *)
Definition can_hold (q : part) (v : Z) : Prop :=
  match q with
  | PPC | PI | PStack _ => 0 <= v < 65536
  | PSP => 0 <= v < 16
  | PV _ | PMem _ | PDelay | PSound => 0 <= v < 256
  | PPixel _ _ => v = 0 \/ v = 1
  | PKey => -1 <= v < 16
  | PDelayAt | PSoundAt => True
  end.
(** A state: a value for every part. *)
Definition machine_state (f : part -> Z) : Prop := forall q, part_of_machine q -> can_hold q (f q).
