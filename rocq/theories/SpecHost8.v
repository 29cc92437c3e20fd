(** Structured CHIP-8 programs (SpecLanguage8.v) on a machine whose host changes
    the pressed key at any moment (C122). *)
From Verif Require Import Base ModelMap ModelDisplay ModelChip8 ModelOpsChip8 ModelRunChip8 SpecChip8 SpecChip8Parts SpecRoutines8 SpecReplace8 SpecLanguage8.

(** What the host does: before instruction [n] it sets the pressed key, or that
    none is pressed, to [K n]. *)
Definition schedule := nat -> option interrupt.

(** ** What the host does with the machine *)
(** [m] instructions from instruction [n] on: before each the host calls
    [with_interrupt], then takes one instruction from the iterator. *)
Fixpoint play (e : environment) (p : profile) (K : schedule) (n m : nat) (c : chip8) (w : world) : res (chip8 * world) :=
  match m with
  | O => Ok (c, w)
  | S m' => do! ' (c1, w1) <- step e p (with_interrupt c (K n)) w ; play e p K (S n) m' c1 w1
  end.

(** ** What programs mean *)
Definition seen (s : part -> Z) (k : option interrupt) : part -> Z := upd s PKey (key_number k).

Section Meaning.
Context (e : environment) (p : profile) (lo hi : Z) (K : schedule).
(** The program, started at instruction [n], ends before instruction [n']. Every
    test and every instruction sees the key that is pressed at its moment. A test
    takes one instruction when the condition holds and two when not; the end of
    a chosen part and of a loop's body takes one. *)
Inductive hosted8 : structured -> (part -> Z) -> world -> nat -> (part -> Z) -> world -> nat -> Prop :=
| hosted8_nothing s w n : hosted8 Nothing s w n s w n
| hosted8_do op s w n s' w' : effect e p (seen s (K n)) w op = Some (s', w') -> spares lo hi s s' -> hosted8 (Do op) s w n s' w' (S n)
| hosted8_then c1 c2 s w n s1 w1 n1 s2 w2 n2 : hosted8 c1 s w n s1 w1 n1 -> hosted8 c2 s1 w1 n1 s2 w2 n2 -> hosted8 (Then c1 c2) s w n s2 w2 n2
| hosted8_yes b c1 c2 s w n s' w' n' : holds b (seen s (K n)) = true -> hosted8 c1 (seen s (K n)) w (S n) s' w' n' ->
    hosted8 (Choose b c1 c2) s w n (seen s' (K n')) w' (S n')
| hosted8_no b c1 c2 s w n s' w' n' : holds b (seen s (K n)) = false -> hosted8 c2 (seen s (K (S n))) w (S (S n)) s' w' n' ->
    hosted8 (Choose b c1 c2) s w n s' w' n'
| hosted8_stop b c s w n : holds b (seen s (K n)) = false -> hosted8 (Loop b c) s w n (seen s (K (S n))) w (S (S n))
| hosted8_again b c s w n s1 w1 n1 s2 w2 n2 : holds b (seen s (K n)) = true -> hosted8 c (seen s (K n)) w (S n) s1 w1 n1 ->
    hosted8 (Loop b c) (seen s1 (K n1)) w1 (S n1) s2 w2 n2 -> hosted8 (Loop b c) s w n s2 w2 n2.
(** The program comes at instruction [n'] to [op], which panics there or
    overwrites the program. *)
Inductive broken8 : structured -> (part -> Z) -> world -> nat -> opcode -> (part -> Z) -> world -> nat -> Prop :=
| broken8_do op s w n : wrong e p lo hi op (seen s (K n)) w -> broken8 (Do op) s w n op s w n
| broken8_then1 c1 c2 s w n op s1 w1 n1 : broken8 c1 s w n op s1 w1 n1 -> broken8 (Then c1 c2) s w n op s1 w1 n1
| broken8_then2 c1 c2 s w n s1 w1 n1 op s2 w2 n2 : hosted8 c1 s w n s1 w1 n1 -> broken8 c2 s1 w1 n1 op s2 w2 n2 -> broken8 (Then c1 c2) s w n op s2 w2 n2
| broken8_yes b c1 c2 s w n op s' w' n' : holds b (seen s (K n)) = true -> broken8 c1 (seen s (K n)) w (S n) op s' w' n' -> broken8 (Choose b c1 c2) s w n op s' w' n'
| broken8_no b c1 c2 s w n op s' w' n' : holds b (seen s (K n)) = false -> broken8 c2 (seen s (K (S n))) w (S (S n)) op s' w' n' -> broken8 (Choose b c1 c2) s w n op s' w' n'
| broken8_now b c s w n op s1 w1 n1 : holds b (seen s (K n)) = true -> broken8 c (seen s (K n)) w (S n) op s1 w1 n1 -> broken8 (Loop b c) s w n op s1 w1 n1
| broken8_later b c s w n s1 w1 n1 op s2 w2 n2 : holds b (seen s (K n)) = true -> hosted8 c (seen s (K n)) w (S n) s1 w1 n1 ->
    broken8 (Loop b c) (seen s1 (K n1)) w1 (S n1) op s2 w2 n2 -> broken8 (Loop b c) s w n op s2 w2 n2.
End Meaning.
