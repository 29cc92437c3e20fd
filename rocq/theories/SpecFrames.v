(** Vocabulary for a host that runs the machine in portions (C125). *)
From Verif Require Import Base ModelMap ModelRegs6502 ModelCpu6502 ModelStep ModelOperand ModelIsa6502 ModelRun6502.

(** Driver: [for n in ns { cpu = cpu.run(n).unwrap() }]. *)
Fixpoint frames {D} `{Device D} (p : profile) (cpu : mos6502 D) (ns : list nat) : res (mos6502 D) :=
  match ns with
  | [] => Ok cpu
  | n :: ns' => do! s <- run p cpu n ; frames p (ss_unwrap s) ns'
  end.

(** Driver: the same, with the host changing the machine after each portion. *)
Fixpoint frames_with {D} `{Device D} (p : profile) (cpu : mos6502 D) (l : list (nat * (mos6502 D -> mos6502 D)))
  : res (mos6502 D) :=
  match l with
  | [] => Ok cpu
  | (n, change) :: l' => do! s <- run p cpu n ; frames_with p (change (ss_unwrap s)) l'
  end.

(** Driver: a host that takes [k] instructions from the iterator before each
    change. *)
Fixpoint instructions_with {D} `{Device D} (p : profile) (cpu : mos6502 D) (l : list (nat * (mos6502 D -> mos6502 D)))
  : res (mos6502 D) :=
  match l with
  | [] => Ok cpu
  | (k, change) :: l' => do! ' (_, cpu1) <- iterate p k cpu ; instructions_with p (change cpu1) l'
  end.

Definition total (ns : list nat) : nat := list_sum ns.
