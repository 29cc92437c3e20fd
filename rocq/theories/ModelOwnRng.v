(** Model of a CHIP-8 machine whose generator keeps its state in itself (for
    example in a [Cell]), so that a clone of the machine has a generator of
    its own. ModelChip8.v models the other case, a generator whose clones
    share one source of random bytes.

    Here the generator is a field of the machine (src/cpu/chip8/mod.rs:141)
    and is cloned with it. *)
From Verif Require Import Base ModelMap ModelStep ModelChip8 ModelOpsChip8 ModelRunChip8.

Section Own.
(** src/cpu/chip8/mod.rs:17-20, [GenerateRandom::random(&self)]: the byte and
    the state in which the call leaves the generator. *)
Context {G : Type} (draw : G -> Z * G).

(** src/cpu/chip8/mod.rs:130-142, [Chip8<R>]: the fields of ModelChip8.v, and
    [rng]. *)
Definition machine : Type := chip8 * G.

(** The clock answers as in ModelChip8.v; [t] counts the readings. No random
    byte is taken from this environment. src/cpu/chip8/register.rs:110, 123,
    130, 139. *)
Definition clock (time : nat -> Z) : environment := mkEnv time (fun _ => 0).

(** src/cpu/chip8/operations/mod.rs:116-175: [Rnd] (1174-1189) calls the
    generator of the machine it is given, the other instructions do not. *)
Definition generate_own (time : nat -> Z) (p : profile) (op : opcode) (m : machine) (t : nat)
  : res (list microcode * machine * nat) :=
  let '(c, g) := m in
  match op with
  | Rnd r value =>
      let '(rand, g') := draw g in Ok ([write_gp r (Z.land rand value)], (c, g'), t)
  | _ =>
      do! ' (l, w) <- generate (clock time) p op c (mkWorld t 0) ; Ok (l, (c, g), w_time w)
  end.

(** src/cpu/chip8/mod.rs:359-361 and 299: no microcode (380-566) touches the
    generator. *)
Definition execute_own (time : nat -> Z) (p : profile) (mcs : list microcode) (m : machine) (t : nat)
  : res (machine * nat) :=
  let '(c, g) := m in
  do! ' (c', w) <- execute_all (clock time) p mcs (c, mkWorld t 0) ; Ok ((c', g), w_time w).

(** src/cpu/chip8/mod.rs:338-364, [next]. The microcode is executed on a clone
    of the state (361), which then replaces it; the random byte has been drawn
    before, so the clone's generator has moved on. *)
Definition next_own (time : nat -> Z) (p : profile) (m : machine) (t : nat)
  : res (list microcode * machine * nat) :=
  let pc := c8_pc (fst m) in
  do! b0 <- am_read p (c8_space (fst m)) pc ;
  do! pc1 <- add_u16 p pc 1 ;
  do! b1 <- am_read p (c8_space (fst m)) pc1 ;
  do! decoded <- decode_bytes_to_opcode [b0; b1] ;
  do! ops <- unwrap decoded ;
  do! ' (generated, m', t) <- generate_own time p ops m t ;
  let microcode_steps := generated ++ [Inc16bitRegister WordPc 2] in
  do! ' (m', t) <- execute_own time p microcode_steps m' t ;
  Ok (microcode_steps, m', t).

(** src/cpu/chip8/mod.rs:293-301, the body of [run]: [it] is the clone inside
    the iterator and [m] the original that is folded over. *)
Fixpoint run_loop_own (time : nat -> Z) (p : profile) (cycles : nat) (it m : machine) (t : nat)
  : res (machine * nat) :=
  match cycles with
  | O => Ok (m, t)
  | S n =>
      do! ' (mcs, it', t) <- next_own time p it t ;
      do! ' (m', t) <- execute_own time p mcs m t ;
      run_loop_own time p n it' m' t
  end.

(** src/cpu/chip8/mod.rs:289-302, [Cpu::run]. *)
Definition run_own (time : nat -> Z) (p : profile) (m : machine) (cycles : nat) (t : nat)
  : res (step_state machine * nat) :=
  do! ' (m', t) <- run_loop_own time p cycles m m t ; Ok (ss_from m', t).

(** The iterator driven by hand, as [iterate] in ModelRunChip8.v.
    src/cpu/chip8/mod.rs:338-364. *)
Fixpoint iterate_own (time : nat -> Z) (p : profile) (n : nat) (m : machine) (t : nat)
  : res (list (list microcode) * machine * nat) :=
  match n with
  | O => Ok ([], m, t)
  | S n' =>
      do! ' (mcs, m', t) <- next_own time p m t ;
      do! ' (rest, m'', t) <- iterate_own time p n' m' t ;
      Ok (mcs :: rest, m'', t)
  end.
End Own.
