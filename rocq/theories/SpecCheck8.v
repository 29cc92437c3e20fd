(** A static check of CHIP-8 code by ranges of values (C132). *)
From Verif Require Import Base ModelDisplay ModelChip8 ModelOpsChip8 ModelRunChip8 SpecChip8 SpecChip8Parts.

(** ** Annotations *)
(** What is known before an instruction: a range for I, one for each of the
    registers V0-VE, and, if known, the address on top of the stack. *)
Record ranges := mkRanges { g_i : Z * Z; g_v : Z -> Z * Z; g_back : option Z }.
Record note8 := mkNote8 { at8 : Z; op8 : opcode; known : ranges }.
Definition listing8 := list note8.
Definition noted8 (l : listing8) (a : Z) : option note8 := find (fun n => at8 n =? a) l.

Definition inside (x : Z) (r : Z * Z) : Prop := fst r <= x <= snd r.
(** State [s] is within the ranges [g]. *)
Definition within (s : part -> Z) (g : ranges) : Prop :=
  inside (s PI) (g_i g) /\ (forall k, 0 <= k < 15 -> inside (s (PV k)) (g_v g k)) /\
  match g_back g with Some b => s (PStack (s PSP)) = b | None => True end.

(** [g] says at least as much as [g']. *)
Definition narrower (r r' : Z * Z) : bool := (fst r' <=? fst r) && (snd r <=? snd r').
Definition registers15 : list Z := map Z.of_nat (seq 0 15).
Definition implies (g g' : ranges) : bool :=
  narrower (g_i g) (g_i g') && forallb (fun k => narrower (g_v g k) (g_v g' k)) registers15 &&
  match g_back g', g_back g with None, _ => true | Some b, Some c => b =? c | Some _, None => false end.

(** ** What an instruction does to the ranges *)
Definition rng (g : ranges) (x : gp_register) : Z * Z := g_v g (gp_index x).
Definition set_v (g : ranges) (x : gp_register) (r : Z * Z) : ranges :=
  mkRanges (g_i g) (fun k => if k =? gp_index x then r else g_v g k) (g_back g).
Definition set_i (g : ranges) (r : Z * Z) : ranges := mkRanges r (g_v g) (g_back g).
Definition set_back (g : ranges) (a : Z) : ranges := mkRanges (g_i g) (g_v g) (Some a).
Definition any_byte : Z * Z := (0, 255).

(** Vx is [k], Vx is not [k], Vx and Vy are the same: nothing if impossible. *)
Definition is_byte (g : ranges) (x : gp_register) (k : Z) : list ranges :=
  if (fst (rng g x) <=? k) && (k <=? snd (rng g x)) then [set_v g x (k, k)] else [].
Definition not_byte (g : ranges) (x : gp_register) (k : Z) : list ranges :=
  let '(lo, hi) := rng g x in
  if (lo =? k) && (hi =? k) then []
  else if lo =? k then [set_v g x (k + 1, hi)]
  else if hi =? k then [set_v g x (lo, k - 1)]
  else [g].
Definition are_same (g : ranges) (x y : gp_register) : list ranges :=
  let r := (Z.max (fst (rng g x)) (fst (rng g y)), Z.min (snd (rng g x)) (snd (rng g y))) in
  if fst r <=? snd r then [set_v (set_v g x r) y r] else [].
Definition sum_byte (r : Z * Z) (k : Z) : Z * Z :=
  if snd r + k <=? 255 then (fst r + k, snd r + k)
  else if 256 <=? fst r + k then (fst r + k - 256, snd r + k - 256)
  else any_byte.

(** Where control may pass from [op] at [a], and what is known there. *)
Definition outcomes (a : Z) (op : opcode) (g : ranges) : list (Z * ranges) :=
  let to k (l : list ranges) := map (fun g' => (a + k, g')) l in
  match op with
  | Cls | Sys _ | LdDelayTimerDestTx _ | LdSoundTimerDestTx _ | LdBcd _ | StoreRegistersToMemory _ => [(a + 2, g)]
  | Ret => match g_back g with Some b => [(b, g)] | None => [] end
  | JpNonV0Indexed nnn => [(nnn, g)]
  | Call nnn => [(nnn, set_back g a)]
  | SeImmediate x kk => to 4 (is_byte g x kk) ++ to 2 (not_byte g x kk)
  | SneImmediate x kk => to 2 (is_byte g x kk) ++ to 4 (not_byte g x kk)
  | SeVxVy x y => to 4 (are_same g x y) ++ [(a + 2, g)]
  | SneVxVy x y => to 2 (are_same g x y) ++ [(a + 4, g)]
  | Skp _ | Sknp _ => [(a + 4, g); (a + 2, g)]
  | LdImmediate x kk => [(a + 2, set_v g x (kk, kk))]
  | AddImmediate x kk => [(a + 2, set_v g x (sum_byte (rng g x) kk))]
  | LdVxVy x y => [(a + 2, set_v g x (rng g y))]
  | Or x _ | Xor x _ | LdDelayTimerSrcTx x | LdK x => [(a + 2, set_v g x any_byte)]
  | And x y => [(a + 2, set_v g x (0, Z.min (snd (rng g x)) (snd (rng g y))))]
  | Rnd x kk => [(a + 2, set_v g x (0, kk))]
  | LdAbsolute nnn => [(a + 2, set_i g (nnn, nnn))]
  | JpV0Indexed nnn =>
      map (fun j => let k := fst (rng g V0) + Z.of_nat j in ((nnn + k) mod 4096, set_v g V0 (k, k)))
        (seq 0 (Z.to_nat (snd (rng g V0) - fst (rng g V0) + 1)))
  | AddIRegisterIndexed x =>
      [(a + 2, set_i g (if snd (g_i g) + snd (rng g x) <=? 65535
                        then (fst (g_i g) + fst (rng g x), snd (g_i g) + snd (rng g x)) else (0, 65535)))]
  | LdSpriteLocation x =>
      [(a + 2, set_i g (if 5 * snd (rng g x) <? 256 then (5 * fst (rng g x), 5 * snd (rng g x)) else (0, 255)))]
  | ReadRegistersFromMemory x =>
      [(a + 2, mkRanges (g_i g) (fun k => if k <=? gp_index x then any_byte else g_v g k) (g_back g))]
  | AddVxVy _ _ | Sub _ _ | Subn _ _ | Shl _ _ | Shr _ _ | Drw _ _ _ => []
  end.

(** Within these ranges [op] cannot panic. *)
Definition safe (p : profile) (op : opcode) (g : ranges) : bool :=
  negb (involves_vf op) &&
  match op with
  | Ret => match g_back g with Some _ => true | None => false end
  | LdBcd _ => snd (g_i g) + 2 <=? 0xfff
  | StoreRegistersToMemory x => snd (g_i g) + gp_index x <=? 0xfff
  | ReadRegistersFromMemory x => match p with Debug => snd (g_i g) + gp_index x <=? 0xffff | Release => true end
  | LdSpriteLocation x => match p with Debug => 5 * snd (rng g x) <=? 255 | Release => true end
  | _ => true
  end.
(** The memory [op] may write to. *)
Definition written (op : opcode) (g : ranges) : option (Z * Z) :=
  match op with
  | LdBcd _ => Some (fst (g_i g), snd (g_i g) + 2)
  | StoreRegistersToMemory x => Some (fst (g_i g), snd (g_i g) + gp_index x)
  | _ => None
  end.

(** ** The check *)
Definition operands_okb (op : opcode) : bool :=
  match op with
  | Sys nnn => (0 <=? nnn) && (nnn <? 4096) && negb (nnn =? 0x0E0) && negb (nnn =? 0x0EE)
  | JpNonV0Indexed nnn | Call nnn | LdAbsolute nnn | JpV0Indexed nnn => (0 <=? nnn) && (nnn <? 4096)
  | SeImmediate _ kk | SneImmediate _ kk | LdImmediate _ kk | AddImmediate _ kk | Rnd _ kk => (0 <=? kk) && (kk <? 256)
  | Drw _ _ n => (0 <=? n) && (n <? 16)
  | _ => true
  end.
Section Check8.
Variables (p : profile) (text : Z -> Z) (l : listing8).
Definition goes8 (o : Z * ranges) : bool :=
  match noted8 l (fst o) with Some n => implies (snd o) (known n) | None => false end.
Definition instruction_ok8 (n : note8) : bool :=
  (0 <=? at8 n) && (at8 n + 1 <=? 0xfff) && operands_okb (op8 n) &&
  (encode (op8 n) =? 256 * text (at8 n) + text (at8 n + 1)) && safe p (op8 n) (known n) &&
  match written (op8 n) (known n) with
  | Some (lo, hi) => forallb (fun n' => (at8 n' + 1 <? lo) || (hi <? at8 n')) l
  | None => true
  end && forallb goes8 (outcomes (at8 n) (op8 n) (known n)).
(** The code [l] describes, as it lies in memory [text], passes the check. *)
Definition passes8 : bool := forallb instruction_ok8 l.
End Check8.

(** Some instruction of the listing may write to address [a]. *)
Definition may_write (l : listing8) (a : Z) : Prop :=
  exists n r, In n l /\ written (op8 n) (known n) = Some r /\ inside a r.

(** A machine about to run checked code. *)
Definition checked8 (p : profile) (c : chip8) (l : listing8) : Prop :=
  well_formed c /\ passes8 p (fun a => observe c (PMem a)) l = true /\
  exists n, noted8 l (observe c PPC) = Some n /\ within (observe c) (known n).
(** What can be said of it at any later time. *)
Definition on_track (l : listing8) (c c' : chip8) : Prop :=
  (exists n, noted8 l (observe c' PPC) = Some n /\ within (observe c') (known n)) /\
  forall a, observe c' (PMem a) <> observe c (PMem a) -> may_write l a.
