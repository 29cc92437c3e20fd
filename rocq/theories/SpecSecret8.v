(** A static check that CHIP-8 code, on top of what SpecCheck8.v asks of it,
    tells nothing about secrets in memory and registers (C143). *)
From Verif Require Import Base ModelDisplay ModelChip8 ModelOpsChip8 ModelRunChip8 SpecChip8 SpecChip8Parts SpecCheck8.

(** ** Policies *)
(** Which bytes of memory are secret, and which of the registers V0-VE are
    public when the program is at an address.  All else is public: the program
    counter, I, the stack, the screen, the key, the timers. *)
Record policy8 := mkPolicy8 { hidden : Z -> bool; open_at : Z -> Z -> bool }.
Definition shown (P : policy8) (a : Z) (q : part) : bool :=
  match q with
  | PMem b => negb (hidden P b)
  | PV k => (0 <=? k) && (k <? 15) && open_at P a k
  | _ => true
  end.
(** Two machines that an observer who sees no secrets cannot tell apart. *)
Definition look_alike8 (P : policy8) (c1 c2 : chip8) : Prop :=
  forall q, shown P (observe c1 PPC) q = true -> observe c1 q = observe c2 q.

(** ** The check *)
Fixpoint upward (lo : Z) (n : nat) : list Z := match n with O => [] | S n' => lo :: upward (lo + 1) n' end.
Definition span (lo hi : Z) : list Z := upward lo (Z.to_nat (hi - lo + 1)).

Section Check.
Variable P : policy8.
Definition opens (a : Z) (x : gp_register) : bool := open_at P a (gp_index x).

(** Registers that have to be public: they decide where the program goes on,
    or end up in I, in a timer or in what is read of the keyboard. *)
Definition decides (op : opcode) : list gp_register :=
  match op with
  | SeImmediate x _ | SneImmediate x _ | Skp x | Sknp x | LdDelayTimerDestTx x | LdSoundTimerDestTx x
  | AddIRegisterIndexed x | LdSpriteLocation x => [x]
  | SeVxVy x y | SneVxVy x y => [x; y]
  | JpV0Indexed _ => [V0]
  | _ => []
  end.
(** The values [op] puts into registers and memory come from public things. *)
Definition clean8 (a : Z) (op : opcode) (g : ranges) : bool :=
  match op with
  | AddImmediate x _ | LdK x | LdBcd x => opens a x
  | LdVxVy _ y => opens a y
  | Or x y | And x y | Xor x y => opens a x && opens a y
  | StoreRegistersToMemory x => forallb (open_at P a) (span 0 (gp_index x))
  | ReadRegistersFromMemory x =>
      (snd (g_i g) + gp_index x <=? 0xffff) && forallb (fun b => negb (hidden P b)) (span (fst (g_i g)) (snd (g_i g) + gp_index x))
  | _ => true
  end.
(** [op] gives Vk a new value. *)
Definition assigned (op : opcode) (k : Z) : bool :=
  match op with
  | LdImmediate x _ | AddImmediate x _ | LdVxVy x _ | Or x _ | And x _ | Xor x _ | Rnd x _ | LdDelayTimerSrcTx x | LdK x => k =? gp_index x
  | ReadRegistersFromMemory x => k <=? gp_index x
  | _ => false
  end.
Definition keeps_ok8 (n : note8) : bool :=
  let a := at8 n in let op := op8 n in let g := known n in
  let clean := clean8 a op g in
  forallb (opens a) (decides op) &&
  (clean || match written op g with Some (lo, hi) => forallb (hidden P) (span lo hi) | None => true end) &&
  forallb (fun o => forallb (fun k => negb (open_at P (fst o) k) || (if assigned op k then clean else open_at P a k)) registers15) (outcomes a op g).
(** The code [l] describes passes the check. *)
Definition keeps_secrets8 (l : listing8) : bool := forallb keeps_ok8 l.
End Check.
