(** The bus accesses of a run of the 6502 (C81). *)
From Verif Require Import Base ModelMap ModelRegs6502 ModelCpu6502 ModelOperand ModelBus Link6502 Spec6502 SpecBus.

(** [k] instructions of [t] cycles from [cpu], with the bus accesses [acc] they
    make, in order. *)
Inductive traced {D} `{Device D} (p : profile) : nat -> nat -> mos6502 D -> list access -> mos6502 D -> Prop :=
| traced_none cpu : traced p 0 0 cpu [] cpu
| traced_step k t cpu mops c m acc acc' cpu' :
    next_bus (watched (map_bus p)) p (core_of cpu, (amap cpu, [])) = Ok (mops, (c, (m, acc))) ->
    traced p k t (cpu_with (regs_of c) m) acc' cpu' ->
    traced p (S k) (ops_cycles mops + t) cpu (acc ++ acc') cpu'.

(** The addresses written. *)
Definition written (acc : list access) (a : Z) : Prop := exists v, In (Wr a v) acc.

(** The addresses a run depends on: those it reads before it writes them. *)
Fixpoint needs (acc : list access) (a : Z) : Prop :=
  match acc with
  | [] => False
  | Rd b _ :: l => a = b \/ needs l a
  | Wr b _ :: l => a <> b /\ needs l a
  end.

(** The byte at [a] after the accesses, [v] being the byte there before. *)
Fixpoint finally (acc : list access) (a v : Z) : Z :=
  match acc with
  | [] => v
  | Rd _ _ :: l => finally l a v
  | Wr b w :: l => finally l a (if a =? b then w else v)
  end.
