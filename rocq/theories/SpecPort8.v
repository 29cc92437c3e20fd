(** A static check that CHIP-8 code, on top of what SpecCheck8.v asks of it,
    relies on nothing in which the emulator departs from the technical
    reference (C137).  The reference machine is that of SpecReference8.v. *)
From Verif Require Import Base ModelMap ModelDisplay ModelChip8 ModelOpsChip8 ModelRunChip8 SpecChip8 SpecChip8Parts SpecReference8 SpecRoutines8 SpecReplace8 SpecLanguage8 SpecHost8 SpecCheck8.

(** ** The check *)
(** Within the ranges [g], [op] means the same on both machines. [held] says
    whether the host promises that a key is always pressed. *)
Definition common (held : bool) (op : opcode) (g : ranges) : bool :=
  match op with
  (* no use of the stack, of VF, of the screen but to clear it, of the delay
     timer's value *)
  | Call _ | Ret | AddVxVy _ _ | Sub _ _ | Subn _ _ | Shr _ _ | Shl _ _ | Drw _ _ _ | LdDelayTimerSrcTx _ => false
  (* the target is within the memory *)
  | JpV0Indexed nnn => nnn + snd (rng g V0) <? 4096
  (* no waiting *)
  | LdK _ => held
  (* a digit *)
  | LdSpriteLocation x => snd (rng g x) <? 16
  (* read from within the memory *)
  | ReadRegistersFromMemory x => snd (g_i g) + gp_index x <=? 0xfff
  | _ => true
  end.
Definition portable_code (held : bool) (l : listing8) : bool := forallb (fun n => common held (op8 n) (known n)) l.

(** The schedule keeps the promise. *)
Definition keeps_held (held : bool) (K : schedule) : Prop := held = true -> forall n, K n <> None.

(** ** The reference machine with a keyboard *)
(** [m] instructions from instruction [n] on; before each the key that is
    pressed becomes [K n]. *)
Inductive ref_plays (e : environment) (K : schedule) : nat -> nat -> ref_state -> ref_state -> Prop :=
| ref_plays_here n st : ref_plays e K n 0 st st
| ref_plays_next n m f w op f1 w1 st :
    ref_fetches (seen f (K n)) op -> reference e (seen f (K n)) w op = Some (f1, w1) ->
    ref_plays e K (S n) m (f1, w1) st -> ref_plays e K n (S m) (f, w) st.

(** ** Both machines *)
(** The emulator is about to run code that passes both checks, and the
    reference machine is in the same state. *)
Definition ported8 (p : profile) (held : bool) (c : chip8) (l : listing8) (f : part -> Z) : Prop :=
  checked8 p c l /\ portable_code held l = true /\ looks c f.
