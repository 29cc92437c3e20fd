(** Model of src/cpu/mos6502/mod.rs, part 2: reset, instruction fetch,
    the instruction iterator and [run]. *)
From Verif Require Import Base ModelMap ModelStep ModelRegs6502 ModelCpu6502 ModelOperand
  ModelIsa6502 ModelOps6502.

Section Run.
Context {D : Type} `{Device D}.
Implicit Type cpu : mos6502 D.

(** src/cpu/mos6502/mod.rs:105-113, [reset]. *)
Definition reset (p : profile) cpu : res (step_state (mos6502 D)) :=
  let cpu := with_addressmap (amap cpu) in
  do! lsb <- am_read p (amap cpu) RESET_VECTOR_LL ;
  do! msb <- am_read p (amap cpu) RESET_VECTOR_HH ;
  let cpu := set_pc cpu (u16_from_le_bytes lsb msb) in
  let cpu := set_sp cpu stack_pointer_default in
  Ok (ss_new 6 cpu).

(** src/cpu/mos6502/mod.rs:116-132, [reset_as_mops]. *)
Definition reset_as_mops (p : profile) cpu : res operations :=
  do! lsb <- am_read p (amap cpu) RESET_VECTOR_LL ;
  do! msb <- am_read p (amap cpu) RESET_VECTOR_HH ;
  let pc := u16_from_le_bytes lsb msb in
  Ok (operations_new 0 6
        [ Write8bitRegister Ps (ps_read ps_default);
          Write8bitRegister Sp stack_pointer_default;
          Write16bitRegister Pc pc ]).

(** src/cpu/mos6502/mod.rs:258-278, [Mos6502IntoIterator::next]: fetch three
    bytes, decode, generate, execute everything on the iterator's own state.
    Always [Some(..)] or a panic. The result is the yielded [Operations] and
    the new iterator state. [pc + 1], [pc + 2] are unchecked. *)
Definition next (p : profile) cpu : res (operations * mos6502 D) :=
  let pc := reg_pc cpu in
  do! b0 <- am_read p (amap cpu) pc ;
  do! pc1 <- add_u16 p pc 1 ;
  do! b1 <- am_read p (amap cpu) pc1 ;
  do! pc2 <- add_u16 p pc 2 ;
  do! b2 <- am_read p (amap cpu) pc2 ;
  match parse_instruction b0 b1 b2 with
  | None => Panic
  | Some oper =>
      do! mops <- generate p oper cpu ;
      do! microcode_steps <- operations_into_cycles mops ;
      do! cpu' <- foldM (execute_mut p) (concat microcode_steps) cpu ;
      Ok (mops, cpu')
  end.

(** src/cpu/mos6502/mod.rs:220-223:
    [self.clone().into_iter().flat_map(Into::into).take(cycles)].
    [buf] holds the cycles of the current instruction that were not yet
    consumed and [it] is the iterator's state. [flat_map] pulls the next
    instruction only when the buffer is empty and another cycle is asked for;
    [take(0)] pulls nothing. *)
Fixpoint take_cycles (p : profile) (n : nat) (buf : list (list microcode)) (it : mos6502 D)
  : res (list (list microcode)) :=
  match n with
  | O => Ok []
  | S n' =>
      match buf with
      | c :: buf' =>
          do! rest <- take_cycles p n' buf' it ;
          Ok (c :: rest)
      | [] =>
          do! ' (mops, it') <- next p it ;
          do! cs <- operations_into_cycles mops ;
          match cs with
          | c :: buf' =>
              do! rest <- take_cycles p n' buf' it' ;
              Ok (c :: rest)
          | [] => Panic
          end
      end
  end.

(** src/cpu/mos6502/mod.rs:217-228, [Cpu::run] for [Mos6502]: the microcode
    of the first [cycles] cycles, replayed on the original CPU. The Rust
    pipeline interleaves generation and replay; both are deterministic and
    work on separate copies, so generating first gives the same value (and
    panics iff the interleaving panics). *)
Definition run (p : profile) cpu (cycles : nat) : res (step_state (mos6502 D)) :=
  do! cs <- take_cycles p cycles [] cpu ;
  do! state <- foldM (execute_mut p) (concat cs) cpu ;
  Ok (ss_from state).

(** The iterator state after [k] calls of [next] (src/cpu/mos6502/mod.rs:
    239-279): what a caller that drives [into_iter()] by hand observes. *)
Fixpoint iterate (p : profile) (k : nat) cpu : res (list operations * mos6502 D) :=
  match k with
  | O => Ok ([], cpu)
  | S k' =>
      do! ' (m, cpu') <- next p cpu ;
      do! ' (ms, cpu'') <- iterate p k' cpu' ;
      Ok (m :: ms, cpu'')
  end.
End Run.
