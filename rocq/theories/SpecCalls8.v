(** Vocabulary for a CHIP-8 program that calls a routine (C128). *)
From Verif Require Import Base ModelDisplay ModelChip8 ModelOpsChip8 ModelRunChip8 SpecChip8 SpecChip8Parts SpecRoutines8 SpecReplace8 SpecLanguage8.

(** Where the RET of the routine lies whose code begins at [S]. *)
Definition ret_at (S : Z) (routine : structured) : Z := S + bytes (translate S routine).

(** A machine about to execute the CALL at [L] of a routine at [S]: the code of a
    structured program, followed by RET. *)
Definition about_to_call8 (c : chip8) (L S : Z) (routine : structured) : Prop :=
  well_formed c /\ observe c PPC = L /\ loaded c L [Call S] /\ loaded c S (translate S routine ++ [Ret]) /\
  ret_at S routine + 2 < 4096 /\ good8 routine.

(** The state with the return address on the stack: what CALL leaves. *)
Definition called (L : Z) (s : part -> Z) : part -> Z := upd s (PStack (s PSP)) L.

(** The routine [k] times in a row, each time from the state in which it ended
    before, overwriting neither itself nor its RET nor the CALL. *)
Section Rounds.
Context (e : environment) (p : profile) (L S : Z) (routine : structured).
Definition round (s : part -> Z) (w : world) (s' : part -> Z) (w' : world) : Prop :=
  ends8 e p S (ret_at S routine) routine s w s' w'.
Definition keeps_calling (s s' : part -> Z) : Prop :=
  spares L (L + 2) s s' /\ spares (ret_at S routine) (ret_at S routine + 2) s s'.
Inductive rounds : nat -> (part -> Z) -> world -> (part -> Z) -> world -> Prop :=
| rounds_0 s w : rounds 0 s w s w
| rounds_more k s w s1 w1 s2 w2 : rounds k s w s1 w1 -> round s1 w1 s2 w2 -> keeps_calling s1 s2 -> rounds (1 + k) s w s2 w2.
(** No round goes wrong: none comes to an instruction that cannot be executed,
    none overwrites the program. *)
Definition all_well (s : part -> Z) (w : world) : Prop :=
  forall k s1 w1, rounds k s w s1 w1 ->
    (forall op s2 w2, ~ breaks8 e p S (ret_at S routine) routine s1 w1 op s2 w2) /\
    (forall s2 w2, round s1 w1 s2 w2 -> keeps_calling s1 s2).
End Rounds.
