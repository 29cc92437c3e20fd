(** Specification vocabulary for running CHIP-8 programs. *)
From Verif Require Import Base ModelMap ModelDisplay ModelChip8 ModelOpsChip8 ModelRunChip8 SpecMap Link6502 SpecChip8.

(** [n] instructions are executed one after the other. Between two of them
    (and after the last) the clock may be read by somebody else. *)
Inductive instructions (e : environment) (p : profile) : nat -> chip8 -> world -> chip8 -> world -> Prop :=
| instructions_0 c w t : (w_time w <= t)%nat -> instructions e p 0 c w c (mkWorld t (w_random w))
| instructions_S n c w c1 w1 t c2 w2 :
    step e p c w = Ok (c1, w1) -> (w_time w1 <= t)%nat ->
    instructions e p n c1 (mkWorld t (w_random w1)) c2 w2 ->
    instructions e p (S n) c w c2 w2.

(** Equal but for the times at which the timers were written. *)
Definition same_but_times (c c' : chip8) : Prop :=
  forall q, q <> PDelayAt -> q <> PSoundAt -> observe c q = observe c' q.

(** A clock that stands still. *)
Definition frozen (e : environment) : Prop := forall i j, env_time e i = env_time e j.

(** The words that set a timer: Fx15 and Fx18. *)
Definition sets_timer (word : Z) : bool :=
  (word / 0x1000 =? 0xF) && ((word mod 256 =? 0x15) || (word mod 256 =? 0x18)).
(** The words that draw a random byte: Cxkk. *)
Definition draws (word : Z) : bool := word / 0x1000 =? 0xC.

(** [run] of a machine whose generator keeps its own state (cloned with it)
    instead of sharing a source of randomness: [run] draws from the clone
    inside the iterator (src/cpu/chip8/mod.rs:294-295), and the machine it
    returns still has the generator it started with. Here [w_random] is the
    state of that generator. *)
Definition run_own_generator (e : environment) (p : profile) (c : chip8) (n : nat) (w : world) :=
  do! ' (s, w') <- run e p c n w ; Ok (s, mkWorld (w_time w') (w_random w)).

(** Results that differ in the number of clock readings only. *)
Definition alike {A} (r1 r2 : res (A * world)) : Prop :=
  match r1, r2 with
  | Ok (a, w1), Ok (b, w2) => a = b /\ w_random w1 = w_random w2
  | Panic, Panic => True
  | _, _ => False
  end.

(** Functions on the display: Rust's type fixes its size. *)
Definition keeps_size (f : display -> display) : Prop := forall d, display_ok d -> display_ok (f d).

(** Machines a user of the library can make: a new machine, the public
    builder methods, and anything [run] or the iterator returns. *)
Inductive public (e : environment) (p : profile) : chip8 -> Prop :=
| public_default w c w' : chip8_default e p w = Ok (c, w') -> public e p c
| public_rng c : public e p c -> public e p (with_rng c)
| public_interrupt c k : public e p c -> public e p (with_interrupt c k)
| public_display c f : public e p c -> keeps_size f -> public e p (with_display c f)
| public_run c n w c' w' : public e p c -> run e p c n w = Ok (ModelStep.ss_from c', w') -> public e p c'
| public_iterate c n w mcs c' w' : public e p c -> iterate e p n c w = Ok (mcs, c', w') -> public e p c'.

(** In-width arguments of microcode, as every value of the Rust types has. *)
Definition in_width (mc : microcode) : Prop :=
  match mc with
  | WriteMemory a v => u16 a /\ u8 v
  | Write8bitRegister _ v | Inc8bitRegister _ v | Dec8bitRegister _ v => u8 v
  | Write16bitRegister _ v | Inc16bitRegister _ v | Dec16bitRegister _ v => u16 v
  | PushStack v | PopStack v => u16 v
  | KeyPress _ | KeyRelease => True
  | SetDisplayPixel (x, y) _ => 0 <= x /\ 0 <= y
  | SetDisplayRange _ _ _ => True
  end.

(** Machines the crate itself can make: also the crate-private builders and
    any microcode. *)
Inductive reachable (e : environment) (p : profile) : chip8 -> Prop :=
| reachable_default w c w' : chip8_default e p w = Ok (c, w') -> reachable e p c
| reachable_rng c : reachable e p c -> reachable e p (with_rng c)
| reachable_interrupt c k : reachable e p c -> reachable e p (with_interrupt c k)
| reachable_display c f : reachable e p c -> keeps_size f -> reachable e p (with_display c f)
| reachable_pc c v : reachable e p c -> u16 v -> reachable e p (with_pc_register c v)
| reachable_i c v : reachable e p c -> u16 v -> reachable e p (with_i_register c v)
| reachable_sp c v : reachable e p c -> u8 v -> reachable e p (with_sp_register c (sp_with_value v))
| reachable_timer c t at_time v : reachable e p c -> u8 v -> reachable e p (with_timer_register c t (mkClock at_time v))
| reachable_gp c r v c' : reachable e p c -> u8 v -> with_gp_register c r v = Ok c' -> reachable e p c'
| reachable_microcode c w mc c' w' : reachable e p c -> in_width mc -> execute_mut e p (c, w) mc = Ok (c', w') -> reachable e p c'
| reachable_step c w c' w' : reachable e p c -> step e p c w = Ok (c', w') -> reachable e p c'
| reachable_run c n w c' w' : reachable e p c -> run e p c n w = Ok (ModelStep.ss_from c', w') -> reachable e p c'.
