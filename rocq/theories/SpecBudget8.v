(** A static check that CHIP-8 code, on top of what SpecCheck8.v asks of it,
    reaches marked instructions again and again in time (C145). *)
From Verif Require Import Base ModelDisplay ModelChip8 ModelOpsChip8 ModelRunChip8 SpecChip8 SpecChip8Parts SpecCheck8 SpecSecret8.

(** Marked addresses, and for each address [a] a bound on the number of
    instructions until the next mark: [base8 a] plus [coef8 a k] times Vk for
    each of V0-VE. *)
Record budget8 := mkBudget8 { marked8 : Z -> bool; base8 : Z -> Z; coef8 : Z -> Z -> Z }.
Definition total (f : Z -> Z) : Z := fold_right Z.add 0 (map f registers15).
Definition remaining (B : budget8) (s : part -> Z) : Z := base8 B (s PPC) + total (fun k => coef8 B (s PPC) k * s (PV k)).

(** The least and the greatest that [c] times a value in [r] can be. *)
Definition least (c : Z) (r : Z * Z) : Z := Z.min (c * fst r) (c * snd r).
Definition greatest (c : Z) (r : Z * Z) : Z := Z.max (c * fst r) (c * snd r).

(** How much [op] adds to Vk, if that is known. *)
Definition moved (op : opcode) (g : ranges) (k : Z) : option Z :=
  match op with
  | AddImmediate x kk => if k =? gp_index x then if snd (rng g x) + kk <=? 255 then Some kk else None else Some 0
  | _ => if assigned op k then None else Some 0
  end.

Section Check.
Variables (B : budget8) (W : Z).
(** The least by which the bound's part for Vk can go down from [a] to [t]. *)
Definition saved (a t : Z) (op : opcode) (g g' : ranges) (k : Z) : Z :=
  match moved op g k with
  | Some d => least (coef8 B a k - coef8 B t k) (g_v g' k) - coef8 B a k * d
  | None => least (coef8 B a k) (g_v g k) - greatest (coef8 B t k) (g_v g' k)
  end.
Definition timely8 (n : note8) : bool :=
  let a := at8 n in
  (1 <=? base8 B a + total (fun k => least (coef8 B a k) (g_v (known n) k))) &&
  (base8 B a + total (fun k => greatest (coef8 B a k) (g_v (known n) k)) <=? W) &&
  forallb (fun o => marked8 B (fst o) || (1 + base8 B (fst o) <=? base8 B a + total (saved a (fst o) (op8 n) (known n) (snd o))))
    (outcomes a (op8 n) (known n)).
(** The code [l] describes keeps within [W] instructions between marks. *)
Definition in_time8 (l : listing8) : bool := forallb timely8 l.
End Check.
