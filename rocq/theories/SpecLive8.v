(** Vocabulary for the parts of a CHIP-8 machine that do not matter (C87). *)
From Verif Require Import Base ModelDisplay ModelChip8 ModelOpsChip8 ModelRunChip8 SpecChip8.

(** What an instruction looks at, by the CHIP-8 reference: its own two bytes
    and their address, the registers it names, and what those point to. [f] is
    the machine before it. *)
Definition own_bytes (f : part -> Z) (q : part) : bool :=
  match q with PPC => true | PMem a => (a =? f PPC) || (a =? (f PPC + 1) mod 65536) | _ => false end.
Definition is_reg (r : gp_register) (q : part) : bool := part_eqb q (PV (gp_index r)).
(** What it looks at besides itself. *)
Definition beyond (f : part -> Z) (op : opcode) (q : part) : bool :=
  match op with
  | Cls | Sys _ | JpNonV0Indexed _ | LdAbsolute _ | LdImmediate _ _ | Rnd _ _ => false
  | Ret => part_eqb q PSP || part_eqb q (PStack (f PSP))
  | Call _ => part_eqb q PSP
  | SeImmediate x _ | SneImmediate x _ | AddImmediate x _ | LdDelayTimerDestTx x | LdSoundTimerDestTx x
  | LdSpriteLocation x | Shr x _ | Shl x _ => is_reg x q
  | LdVxVy _ y => is_reg y q
  | SeVxVy x y | SneVxVy x y | Or x y | And x y | Xor x y | AddVxVy x y | Sub x y | Subn x y => is_reg x q || is_reg y q
  | JpV0Indexed _ => is_reg V0 q
  | Skp x | Sknp x => is_reg x q || part_eqb q PKey
  | LdK _ => part_eqb q PKey
  | LdDelayTimerSrcTx _ => part_eqb q PDelay || part_eqb q PDelayAt
  | AddIRegisterIndexed x | LdBcd x => is_reg x q || part_eqb q PI
  | StoreRegistersToMemory x => part_eqb q PI || match q with PV k => (0 <=? k) && (k <=? gp_index x) | _ => false end
  | ReadRegistersFromMemory x =>
      part_eqb q PI || match q with PMem a => (a - f PI) mod 65536 <=? gp_index x | _ => false end
  | Drw x y n =>
      is_reg x q || is_reg y q || part_eqb q PI ||
      match q with PMem a => (a - f PI) mod 65536 <? n | PPixel _ _ => true | _ => false end
  end.
Definition looks_at8 (f : part -> Z) (op : opcode) (q : part) : bool := own_bytes f q || beyond f op q.

(** What it gives a new value. DEVIATION: CALL saves at the stack pointer and
    neither CALL nor RET moves it (C41); VF is never set (C42); without a key
    Fx0A sets nothing (C50). *)
Definition sets8 (f : part -> Z) (op : opcode) (q : part) : bool :=
  part_eqb q PPC ||
  match op with
  | Cls => match q with PPixel _ _ => true | _ => false end
  | Call _ => part_eqb q (PStack (f PSP))
  | LdImmediate x _ | AddImmediate x _ | LdVxVy x _ | Or x _ | And x _ | Xor x _ | Rnd x _ | LdDelayTimerSrcTx x => is_reg x q
  | LdK x => is_reg x q && negb (f PKey =? -1)
  | LdAbsolute _ | AddIRegisterIndexed _ | LdSpriteLocation _ => part_eqb q PI
  | LdDelayTimerDestTx _ => part_eqb q PDelay || part_eqb q PDelayAt
  | LdSoundTimerDestTx _ => part_eqb q PSound || part_eqb q PSoundAt
  | LdBcd _ => match q with PMem a => (f PI <=? a) && (a <=? f PI + 2) | _ => false end
  | StoreRegistersToMemory x => match q with PMem a => (f PI <=? a) && (a <=? f PI + gp_index x) | _ => false end
  | ReadRegistersFromMemory x => match q with PV k => (0 <=? k) && (k <=? gp_index x) | _ => false end
  | _ => false
  end.

(** A run of instructions that look only at parts that are known: those known
    at the start, and those set on the way. *)
Inductive known_run (e : environment) (p : profile) :
  (part -> Prop) -> chip8 -> world -> list opcode -> (part -> Prop) -> chip8 -> world -> Prop :=
| known_none (known : part -> Prop) c w : known_run e p known c w [] known c w
| known_step (known known1 : part -> Prop) c w op ops c1 w1 known' c' w' :
    operands_ok op -> fetches p c (encode op) -> step e p c w = Ok (c1, w1) ->
    (forall q, looks_at8 (observe c) op q = true -> known q) ->
    (forall q, known1 q -> known q \/ sets8 (observe c) op q = true) ->
    known_run e p known1 c1 w1 ops known' c' w' ->
    known_run e p known c w (op :: ops) known' c' w'.
