(** Vocabulary for CHIP-8 instructions whose results are not looked at (C104). *)
From Verif Require Import Base ModelDisplay ModelChip8 ModelOpsChip8 ModelRunChip8 SpecChip8 SpecLive8 SpecMove8.

(** The two bytes at [a]. *)
Definition two_bytes (a : Z) (q : part) : Prop := q = PMem a \/ q = PMem (a + 1).

(** Two machines that agree on what is known and differ in that [op0] stands at
    [start] in one and [op2] in the other. *)
Definition replaced (start : Z) (op0 op2 : opcode) (known : part -> Prop) (c c2 : chip8) : Prop :=
  well_formed c /\ well_formed c2 /\ word_at c start = encode op0 /\ word_at c2 start = encode op2 /\
  forall q, known q -> observe c2 q = observe c q.

(** A run of [n] instructions, any number of them the instruction [op0] at
    [start]. No instruction sets the two bytes at [start]. The other ones look
    only at what is known: known at the start or set by one of them, and not
    set by [op0] since (but [op0] leaves it known where the program is). *)
Inductive unused_run (e : environment) (p : profile) (start : Z) (op0 : opcode) :
  (part -> Prop) -> chip8 -> world -> nat -> (part -> Prop) -> chip8 -> world -> Prop :=
| unused_none (known : part -> Prop) c w : unused_run e p start op0 known c w 0 known c w
| unused_visit (known known1 known' : part -> Prop) n c w c1 w1 c' w' :
    observe c PPC = start -> known PPC -> step e p c w = Ok (c1, w1) ->
    (forall q, two_bytes start q -> sets8 (observe c) op0 q = false) ->
    (forall q, known1 q -> known q /\ (q = PPC \/ sets8 (observe c) op0 q = false)) ->
    unused_run e p start op0 known1 c1 w1 n known' c' w' ->
    unused_run e p start op0 known c w (S n) known' c' w'
| unused_other (known known1 known' : part -> Prop) op n c w c1 w1 c' w' :
    operands_ok op -> fetches p c (encode op) -> step e p c w = Ok (c1, w1) ->
    (forall q, two_bytes start q -> sets8 (observe c) op q = false) ->
    (forall q, looks_at8 (observe c) op q = true -> known q) ->
    (forall q, known1 q -> known q \/ sets8 (observe c) op q = true) ->
    unused_run e p start op0 known1 c1 w1 n known' c' w' ->
    unused_run e p start op0 known c w (S n) known' c' w'.
