(** Vocabulary for a host that runs the CHIP-8 in portions and sets the pressed
    key before each of them (C126). *)
From Verif Require Import Base ModelMap ModelStep ModelDisplay ModelChip8 ModelOpsChip8 ModelRunChip8 SpecChip8 SpecChip8Parts SpecChip8Run
  SpecRoutines8 SpecReplace8 SpecLanguage8 SpecHost8.

(** Driver: [for (key, n) in l { cpu = cpu.with_interrupt(key).run(n).unwrap() }]. *)
Fixpoint frames8 (e : environment) (p : profile) (c : chip8) (w : world) (l : list (option interrupt * nat)) : res (chip8 * world) :=
  match l with
  | [] => Ok (c, w)
  | (k, n) :: l' => do! ' (s, w1) <- run e p (with_interrupt c k) n w ; frames8 e p (ss_unwrap s) w1 l'
  end.
Definition instructions_of (l : list (option interrupt * nat)) : nat := list_sum (map snd l).
(** The key that is pressed at instruction [n]. *)
Fixpoint keys_of (l : list (option interrupt * nat)) : schedule := fun n =>
  match l with
  | [] => None
  | (k, m) :: l' => if (n <? m)%nat then k else keys_of l' (n - m)%nat
  end.
(** No portion is empty. *)
Definition none_empty (l : list (option interrupt * nat)) : Prop := Forall (fun f => (0 < snd f)%nat) l.

(** None of the first [N] instructions sets a timer. *)
Definition sets_no_timer (e : environment) (p : profile) (K : schedule) (c : chip8) (w : world) (N : nat) : Prop :=
  forall i c' w' word, (i < N)%nat -> play e p K 0 i c w = Ok (c', w') -> fetches p c' word -> sets_timer word = false.
(** Programs without Fx15 and Fx18. *)
Fixpoint timeless (prog : structured) : Prop :=
  match prog with
  | Nothing => True
  | Do (LdDelayTimerDestTx _) | Do (LdSoundTimerDestTx _) => False
  | Do _ => True
  | Then c1 c2 | Choose _ c1 c2 => timeless c1 /\ timeless c2
  | Loop _ c => timeless c
  end.

(** A machine about to execute the translated program, after which lies a jump to
    itself. *)
Definition about_to_rest8 (c : chip8) (L : Z) (prog : structured) : Prop :=
  let hi := L + bytes (translate L prog) in
  well_formed c /\ observe c PPC = L /\ loaded c L (translate L prog ++ [JpNonV0Indexed hi]) /\ hi + 2 < 4096 /\ good8 prog.
