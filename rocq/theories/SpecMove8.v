(** Vocabulary for moving CHIP-8 code and for exchanging instructions (C96, C97). *)
From Verif Require Import Base ModelDisplay ModelChip8 ModelOpsChip8 ModelRunChip8 SpecChip8 SpecLive8.

(** Instructions that name no place in the program: all but jumps, calls and
    returns. *)
Definition names_no_place (op : opcode) : bool :=
  match op with JpNonV0Indexed _ | JpV0Indexed _ | Call _ | Ret => false | _ => true end.

(** Instructions that may skip the next one. *)
Definition may_skip (op : opcode) : bool :=
  match op with
  | SeImmediate _ _ | SneImmediate _ _ | SeVxVy _ _ | SneVxVy _ _ | Skp _ | Sknp _ => true
  | _ => false
  end.

(** Memory in one of two ranges of [len] bytes. *)
Definition in_code (a b len : Z) (q : part) : bool :=
  match q with PMem x => (a <=? x) && (x <? a + len) || (b <=? x) && (x <? b + len) | _ => false end.

(** A run of [n] instructions, all of them within the [len] bytes at [a], that
    name no place and neither look at nor set anything within those bytes nor
    within the [len] bytes at [b]. *)
Inductive runs_within (e : environment) (p : profile) (a b len : Z) :
  chip8 -> world -> nat -> chip8 -> world -> Prop :=
| within_none c w : runs_within e p a b len c w 0 c w
| within_step c w op c1 w1 n c' w' :
    a <= observe c PPC -> observe c PPC + 2 <= a + len ->
    operands_ok op -> names_no_place op = true -> fetches p c (encode op) -> step e p c w = Ok (c1, w1) ->
    (forall q, in_code a b len q = true -> beyond (observe c) op q = false /\ sets8 (observe c) op q = false) ->
    runs_within e p a b len c1 w1 n c' w' ->
    runs_within e p a b len c w (S n) c' w'.

(** Whether an instruction asks the clock or the random number generator. *)
Definition asks_clock (op : opcode) : bool :=
  match op with LdDelayTimerSrcTx _ | LdDelayTimerDestTx _ | LdSoundTimerDestTx _ => true | _ => false end.
Definition asks_random (op : opcode) : bool := match op with Rnd _ _ => true | _ => false end.

(** Two instructions that have nothing to do with each other, nor with the
    four bytes at [a]: neither looks at what the other sets, they set different
    things and do not ask the same source. *)
Definition independent (f : part -> Z) (op1 op2 : opcode) (a : Z) : Prop :=
  (forall q, q <> PPC -> sets8 f op1 q = true -> beyond f op2 q = false /\ sets8 f op2 q = false) /\
  (forall q, q <> PPC -> sets8 f op2 q = true -> beyond f op1 q = false) /\
  asks_clock op1 && asks_clock op2 = false /\ asks_random op1 && asks_random op2 = false /\
  (forall q, in_code a a 4 q = true ->
    beyond f op1 q = false /\ sets8 f op1 q = false /\ beyond f op2 q = false /\ sets8 f op2 q = false).

(** Two instructions, as the iterator executes them. *)
Definition two_steps (e : environment) (p : profile) (c : chip8) (w : world) : res (chip8 * world) :=
  match step e p c w with Ok (c1, w1) => step e p c1 w1 | Panic => Panic end.

(** The word at an address; two machines that differ only in the order of the
    two instructions at the program counter. *)
Definition word_at (c : chip8) (a : Z) : Z := 256 * observe c (PMem a) + observe c (PMem (a + 1)).
Definition exchanged (op1 op2 : opcode) (c c2 : chip8) : Prop :=
  let a := observe c PPC in
  word_at c a = encode op1 /\ word_at c (a + 2) = encode op2 /\
  word_at c2 a = encode op2 /\ word_at c2 (a + 2) = encode op1 /\
  forall q, in_code a a 4 q = false -> observe c2 q = observe c q.
