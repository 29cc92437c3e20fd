(** Structured programs and their translation to CHIP-8 code (C112, C113). *)
From Verif Require Import Base ModelDisplay ModelChip8 ModelOpsChip8 ModelRunChip8 SpecChip8 SpecChip8Parts SpecRoutines8 SpecReplace8.

(** ** The language *)
(** Conditions a skip instruction tests. *)
Inductive condition :=
| IsByte (x : gp_register) (k : Z) | NotByte (x : gp_register) (k : Z)
| Same (x y : gp_register) | Different (x y : gp_register)
| Pressed (x : gp_register) | Released (x : gp_register).
(** Instructions of the CHIP-8 that do not jump, put together. *)
Inductive structured :=
| Nothing
| Do (op : opcode)
| Then (c1 c2 : structured)
| Choose (b : condition) (c1 c2 : structured)
| Loop (b : condition) (c : structured).     (* as long as b holds *)

Definition jumps_not (op : opcode) : Prop :=
  match op with
  | Ret | JpNonV0Indexed _ | JpV0Indexed _ | Call _ | SeImmediate _ _ | SneImmediate _ _ | SeVxVy _ _ | SneVxVy _ _ | Skp _ | Sknp _ => False
  | _ => True
  end.
Definition good_condition (b : condition) : Prop :=
  match b with
  | IsByte x k | NotByte x k => x <> Vf /\ u8 k
  | Same x y | Different x y => x <> Vf /\ y <> Vf
  | Pressed x | Released x => x <> Vf
  end.
Fixpoint good8 (c : structured) : Prop :=
  match c with
  | Nothing => True
  | Do op => operands_ok op /\ jumps_not op
  | Then c1 c2 => good8 c1 /\ good8 c2
  | Choose b c1 c2 => good_condition b /\ good8 c1 /\ good8 c2
  | Loop b c => good_condition b /\ good8 c
  end.

(** ** What programs mean *)
(** Of a state (everything a user can observe) the program counter plays no
    role here. *)
Definition holds (b : condition) (s : part -> Z) : bool :=
  match b with
  | IsByte x k => s (PV (gp_index x)) =? k
  | NotByte x k => negb (s (PV (gp_index x)) =? k)
  | Same x y => s (PV (gp_index x)) =? s (PV (gp_index y))
  | Different x y => negb (s (PV (gp_index x)) =? s (PV (gp_index y)))
  | Pressed x => s PKey =? s (PV (gp_index x))
  | Released x => negb (s PKey =? s (PV (gp_index x)))
  end.
(** The memory from [lo] to [hi] stays as it is: the program lies there. *)
Definition spares (lo hi : Z) (s s' : part -> Z) : Prop := forall a, lo <= a < hi -> s' (PMem a) = s (PMem a).

Section Meaning.
Context (e : environment) (p : profile) (lo hi : Z).
Inductive ends8 : structured -> (part -> Z) -> world -> (part -> Z) -> world -> Prop :=
| ends8_nothing s w : ends8 Nothing s w s w
| ends8_do op s w s' w' : effect e p s w op = Some (s', w') -> spares lo hi s s' -> ends8 (Do op) s w s' w'
| ends8_then c1 c2 s w s1 w1 s2 w2 : ends8 c1 s w s1 w1 -> ends8 c2 s1 w1 s2 w2 -> ends8 (Then c1 c2) s w s2 w2
| ends8_choose b c1 c2 s w s' w' : ends8 (if holds b s then c1 else c2) s w s' w' -> ends8 (Choose b c1 c2) s w s' w'
| ends8_stop b c s w : holds b s = false -> ends8 (Loop b c) s w s w
| ends8_again b c s w s1 w1 s2 w2 : holds b s = true -> ends8 c s w s1 w1 -> ends8 (Loop b c) s1 w1 s2 w2 -> ends8 (Loop b c) s w s2 w2.
(** Instruction [op] panics in this state, or overwrites the program. *)
Definition wrong (op : opcode) (s : part -> Z) (w : world) : Prop :=
  effect e p s w op = None \/ exists s' w', effect e p s w op = Some (s', w') /\ ~ spares lo hi s s'.
(** The program comes to such an instruction: [op], in state [s'] and [w']. *)
Inductive breaks8 : structured -> (part -> Z) -> world -> opcode -> (part -> Z) -> world -> Prop :=
| breaks8_do op s w : wrong op s w -> breaks8 (Do op) s w op s w
| breaks8_then1 c1 c2 s w op s1 w1 : breaks8 c1 s w op s1 w1 -> breaks8 (Then c1 c2) s w op s1 w1
| breaks8_then2 c1 c2 s w s1 w1 op s2 w2 : ends8 c1 s w s1 w1 -> breaks8 c2 s1 w1 op s2 w2 -> breaks8 (Then c1 c2) s w op s2 w2
| breaks8_choose b c1 c2 s w op s' w' : breaks8 (if holds b s then c1 else c2) s w op s' w' -> breaks8 (Choose b c1 c2) s w op s' w'
| breaks8_now b c s w op s1 w1 : holds b s = true -> breaks8 c s w op s1 w1 -> breaks8 (Loop b c) s w op s1 w1
| breaks8_later b c s w s1 w1 op s2 w2 : holds b s = true -> ends8 c s w s1 w1 -> breaks8 (Loop b c) s1 w1 op s2 w2 -> breaks8 (Loop b c) s w op s2 w2.
End Meaning.

(** ** The translation *)
Definition skip_if (b : condition) : opcode :=
  match b with
  | IsByte x k => SeImmediate x k
  | NotByte x k => SneImmediate x k
  | Same x y => SeVxVy x y
  | Different x y => SneVxVy x y
  | Pressed x => Skp x
  | Released x => Sknp x
  end.
Definition bytes (l : list opcode) : Z := 2 * Z.of_nat (length l).
Fixpoint translate (L : Z) (c : structured) : list opcode :=
  match c with
  | Nothing => []
  | Do op => [op]
  | Then c1 c2 => let l1 := translate L c1 in l1 ++ translate (L + bytes l1) c2
  | Choose b c1 c2 =>
      let l1 := translate (L + 4) c1 in
      let otherwise := L + 4 + bytes l1 + 2 in
      let l2 := translate otherwise c2 in
      [skip_if b; JpNonV0Indexed otherwise] ++ l1 ++ [JpNonV0Indexed (otherwise + bytes l2)] ++ l2
  | Loop b c =>
      let body := translate (L + 4) c in
      [skip_if b; JpNonV0Indexed (L + 4 + bytes body + 2)] ++ body ++ [JpNonV0Indexed L]
  end.

(** A machine about to execute the translated program, which lies at [L] and
    ends before the last address. *)
Definition about_to_run8 (c : chip8) (L : Z) (prog : structured) : Prop :=
  well_formed c /\ observe c PPC = L /\ loaded c L (translate L prog) /\ L + bytes (translate L prog) < 4096 /\ good8 prog.
(** A machine that looks like [s] except for its program counter. *)
Definition looks_like (c : chip8) (s : part -> Z) : Prop := forall q, q <> PPC -> observe c q = s q.
