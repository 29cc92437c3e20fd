(** Model of src/cpu/chip8/mod.rs, part 2: the instruction iterator and [run]. *)
From Verif Require Import Base ModelMap ModelStep ModelChip8 ModelOpsChip8.

(** src/cpu/chip8/mod.rs:359-361 (and 299): a [fold] of [mc.execute(cpu)]
    (370-378, [execute] is [execute_mut] on the owned value). *)
Definition execute_all (e : environment) (p : profile) (mcs : list microcode) (cw : chip8 * world)
  : res (chip8 * world) := foldM (execute_mut e p) mcs cw.

(** src/cpu/chip8/mod.rs:338-364, [Chip8IntoIterator::next]: always
    [Some(..)] or a panic. The result is the yielded microcode and the new
    iterator state. [pc + 1] is unchecked. *)
Definition next (e : environment) (p : profile) (c : chip8) (w : world)
  : res (list microcode * chip8 * world) :=
  let pc := c8_pc c in
  do! b0 <- am_read p (c8_space c) pc ;
  do! pc1 <- add_u16 p pc 1 ;
  do! b1 <- am_read p (c8_space c) pc1 ;
  do! decoded <- decode_bytes_to_opcode [b0; b1] ;
  do! ops <- unwrap decoded ;
  do! ' (generated, w) <- generate e p ops c w ;
  let microcode_steps := generated ++ [Inc16bitRegister WordPc 2] in
  do! ' (c', w) <- execute_all e p microcode_steps (c, w) ;
  Ok (microcode_steps, c', w).

(** src/cpu/chip8/mod.rs:293-301, the body of [run]: [it] is the cloned
    machine inside the iterator and [c] the original being folded over. Each
    round pulls one instruction from the iterator (which executes it on [it])
    and replays its microcode on [c] before the next one is pulled, so clock
    answers are consumed in that order. *)
Fixpoint run_loop (e : environment) (p : profile) (cycles : nat) (it c : chip8) (w : world)
  : res (chip8 * world) :=
  match cycles with
  | O => Ok (c, w)
  | S n =>
      do! ' (mcs, it', w) <- next e p it w ;
      do! ' (c', w) <- execute_all e p mcs (c, w) ;
      run_loop e p n it' c' w
  end.

(** src/cpu/chip8/mod.rs:289-302, [Cpu::run]. *)
Definition run (e : environment) (p : profile) (c : chip8) (cycles : nat) (w : world)
  : res (step_state chip8 * world) :=
  do! ' (state, w) <- run_loop e p cycles c c w ;
  Ok (ss_from state, w).

(** The iterator driven by hand ([into_iter()], mod.rs:304-330): the yielded
    microcode and the iterator state after [n] calls of [next]; [into()]
    (320-324) returns that state. *)
Fixpoint iterate (e : environment) (p : profile) (n : nat) (c : chip8) (w : world)
  : res (list (list microcode) * chip8 * world) :=
  match n with
  | O => Ok ([], c, w)
  | S n' =>
      do! ' (mcs, c', w) <- next e p c w ;
      do! ' (rest, c'', w) <- iterate e p n' c' w ;
      Ok (mcs :: rest, c'', w)
  end.
