(** Specification of one 6502 instruction on a bus that may answer anything.

    Spec6502.v takes memory as a function, so it cannot say which addresses an
    instruction reads, how often and in which order: that does not matter for
    memory, but it does for a peripheral that reacts to being read (a keyboard
    latch, a FIFO).  Here the bus is a machine of its own with a state, a read
    and a write, each of which may change the state or stop the program.  The
    meaning of an instruction on registers and values is that of Spec6502.v. *)
From Verif Require Import Base ModelRegs6502 ModelIsa6502 Spec6502.

(** A bus with internal state [S]. *)
Record bus (S : Type) := mkBus {
  b_read : S -> Z -> res (Z * S);
  b_write : S -> Z -> Z -> res S
}.
Arguments mkBus {S} _ _.
Arguments b_read {S} _ _ _.
Arguments b_write {S} _ _ _ _.

(** Reads yield bytes. *)
Definition byte_bus {S} (b : bus S) : Prop :=
  forall s a v s', b_read b s a = Ok (v, s') -> u8 v.

Section Bus.
Context {S : Type} (b : bus S).

(** Something done on the bus: from a bus state to a result and the next bus
    state, or a panic. *)
Definition act (A : Type) : Type := S -> res (A * S).
Definition done {A} (a : A) : act A := fun s => Ok (a, s).
Definition stop {A} : act A := fun _ => Panic.
Definition after {A B} (x : act A) (f : A -> act B) : act B :=
  fun s => match x s with Ok (a, s') => f a s' | Panic => Panic end.
Definition ask (a : Z) : act Z := fun s => b_read b s a.
Definition tell (a v : Z) : act unit :=
  fun s => match b_write b s a v with Ok s' => Ok (tt, s') | Panic => Panic end.
(** A value that may be missing because the program panics. *)
Definition given {A} (o : option A) : act A := match o with Some a => done a | None => stop end.
Notation "x <-- e1 ;; e2" := (after e1 (fun x => e2)) (at level 100, e1 at next level, right associativity).

(** The operand address: the two indirect modes read a pointer, low byte
    first, from page zero; the other modes read nothing. *)
Definition bus_address (p : profile) (m : addressing_mode) (r : registers) (b1 b2 : Z) : act Z :=
  match m with
  | Absolute => done (word b1 b2)
  | AbsoluteIndexedWithX => done ((word b1 b2 + rX r) mod 65536)
  | AbsoluteIndexedWithY => done ((word b1 b2 + rY r) mod 65536)
  | ZeroPage => done b1
  | ZeroPageIndexedWithX => done ((b1 + rX r) mod 256)
  | ZeroPageIndexedWithY => done ((b1 + rY r) mod 256)
  | XIndexedIndirect =>
      lo <-- ask ((b1 + rX r) mod 256) ;;
      _ok <-- given (unchecked p 256 (rX r + 1)) ;;
      hi <-- ask ((b1 + rX r + 1) mod 256) ;;
      done (word lo hi)
  | IndirectYIndexed =>
      lo <-- ask b1 ;;
      hi <-- ask ((b1 + 1) mod 256) ;;
      given (unchecked p 65536 (word lo hi + rY r))
  | _ => stop
  end.

(** Read-class: the operand is read once; an immediate operand is already
    there. *)
Definition bus_read_op p m r b1 b2 (cycles : nat) (f : registers -> Z -> registers) : act effect :=
  match m with
  | Immediate => done (mkEffect (advance m (f r b1)) [] cycles)
  | _ =>
      a <-- bus_address p m r b1 b2 ;;
      v <-- ask a ;;
      done (mkEffect (advance m (f r v)) [] (cycles + read_penalty m b1 b2 a))
  end.

(** Store-class: the operand is not read. *)
Definition bus_store_op p m r b1 b2 (cycles : nat) (v : Z) : act effect :=
  a <-- bus_address p m r b1 b2 ;;
  done (mkEffect (advance m r) [(a, v)] cycles).

(** Read-modify-write: the operand is read once and stored once. *)
Definition bus_modify_op p m r b1 b2 (cycles : nat) (f : registers -> Z -> Z * registers)
  : act effect :=
  match m with
  | Accumulator =>
      let '(v, r') := f r (rA r) in done (mkEffect (advance m (withA r' v)) [] cycles)
  | _ =>
      a <-- bus_address p m r b1 b2 ;;
      old <-- ask a ;;
      let '(v, r') := f r old in done (mkEffect (advance m r') [(a, v)] cycles)
  end.

(** One decoded instruction: its reads, and then what it will do. The
    instructions of the last case read nothing, so their meaning is taken from
    Spec6502.v with a memory that does not matter. *)
Definition bus_execute (p : profile) (mn : mnemonic) (m : addressing_mode) (cycles : nat)
  (r : registers) (b1 b2 : Z) : act effect :=
  let read := bus_read_op p m r b1 b2 cycles in
  let store := bus_store_op p m r b1 b2 cycles in
  let modify := bus_modify_op p m r b1 b2 cycles in
  match mn with
  | Lda => read (fun r v => withA (setNZ r v) v)
  | Ldx => read (fun r v => withX (setNZ r v) v)
  | Ldy => read (fun r v => withY (setNZ r v) v)
  | Sta => store (rA r)
  | Stx => store (rX r)
  | Sty => store (rY r)
  | Adc => read spec_adc
  | Sbc => read spec_sbc
  | And => read (fun r v => withA (setNZ r (Z.land (rA r) v)) (Z.land (rA r) v))
  | Ora => read (fun r v => withA (setNZ r (Z.lor (rA r) v)) (Z.lor (rA r) v))
  | Eor => read (fun r v => withA (setNZ r (Z.lxor (rA r) v)) (Z.lxor (rA r) v))
  | Bit => read (fun r v => setZ (setV (setN r (Z.testbit v 7)) (Z.testbit v 6)) (Z.land (rA r) v =? 0))
  | Cmp => read (fun r v => spec_compare r (rA r) v)
  | Cpx => read (fun r v => spec_compare r (rX r) v)
  | Cpy => read (fun r v => spec_compare r (rY r) v)
  | Asl => modify (shift_with spec_asl)
  | Lsr => modify (shift_with spec_lsr)
  | Rol => modify (fun r => shift_with (spec_rol (ps_carry (rP r))) r)
  | Ror => modify (fun r => shift_with (spec_ror (ps_carry (rP r))) r)
  | Inc => modify (fun r v => ((v + 1) mod 256, setNZ r ((v + 1) mod 256)))
  | Dec => modify (fun r v => ((v - 1) mod 256, setNZ r ((v - 1) mod 256)))
  | Jmp =>
      match m with
      | Indirect =>
          lo <-- ask (word b1 b2) ;;
          a <-- given (unchecked p 65536 (word b1 b2 + 1)) ;;
          hi <-- ask a ;;
          done (mkEffect (withPC r (word lo hi)) [] cycles)
      | _ => done (mkEffect (withPC r (word b1 b2)) [] cycles)
      end
  | Rts =>
      lo <-- ask (stack (rS r + 1)) ;;
      hi <-- ask (stack (rS r + 2)) ;;
      done (mkEffect (withPC (withS r ((rS r + 2) mod 256)) ((word lo hi + 1) mod 65536)) [] cycles)
  | Pla =>
      v <-- ask (stack (rS r + 1)) ;;
      done (mkEffect (advance Implied (withA (setNZ (withS r ((rS r + 1) mod 256)) v) v)) [] cycles)
  | Plp =>
      v <-- ask (stack (rS r + 1)) ;;
      done (mkEffect (advance Implied (withP (withS r ((rS r + 1) mod 256)) (status_of_byte v))) [] cycles)
  | Brk =>
      let ret := (rPC r + 1) mod 65536 in
      lo <-- ask 0xfffe ;;
      hi <-- ask 0xffff ;;
      done (mkEffect
              (withPC (withS (setI (setB r true) true) ((rS r - 3) mod 256)) (word lo hi))
              [(stack (rS r), low ret); (stack (rS r - 1), high ret);
               (stack (rS r - 2), status_byte (rP r))] cycles)
  | Rti =>
      s <-- ask (stack (rS r + 1)) ;;
      lo <-- ask (stack (rS r + 2)) ;;
      hi <-- ask (stack (rS r + 3)) ;;
      done (mkEffect
              (withPC (withP (withS r ((rS r + 3) mod 256)) (status_of_byte s))
                 ((word lo hi + 1) mod 65536)) [] cycles)
  | _ => given (execute p mn m cycles r (fun _ => 0) b1 b2)
  end.

(** Stores in order. *)
Fixpoint bus_store_all (l : list (Z * Z)) : act unit :=
  match l with
  | [] => done tt
  | (a, v) :: l' => _u <-- tell a v ;; bus_store_all l'
  end.

(** Fetch. DEVIATION: a 6502 reads as many bytes as the instruction has; the
    emulator always reads three, before it decodes. *)
Definition bus_fetch (p : profile) (r : registers) : act (Z * Z * Z) :=
  b0 <-- ask (rPC r) ;;
  a1 <-- given (unchecked p 65536 (rPC r + 1)) ;;
  b1 <-- ask a1 ;;
  a2 <-- given (unchecked p 65536 (rPC r + 2)) ;;
  b2 <-- ask a2 ;;
  done (b0, b1, b2).

(** Fetch and read: what the instruction at PC will do. *)
Definition bus_effect (p : profile) (r : registers) : act effect :=
  bs <-- bus_fetch p r ;;
  let '(b0, b1, b2) := bs in
  match decode b0 with
  | Some (mn, m, cycles) => bus_execute p mn m cycles r b1 b2
  | None => stop
  end.

(** One instruction: all its reads, then all its stores. *)
Definition bus_step (p : profile) (r : registers) : act (nat * registers) :=
  e <-- bus_effect p r ;;
  _u <-- bus_store_all (e_stores e) ;;
  done (e_cycles e, e_regs e).

(** A run of [n] cycles as the emulator performs it: an instruction is looked
    up, and all its reads and stores happen, as soon as one cycle of it is
    needed; the registers change only when its last cycle is spent.
    DEVIATION: the stores happen a second time at that moment. [fuel] bounds
    the number of instructions; every instruction takes a cycle, so [n] is
    enough. *)
Fixpoint bus_run (p : profile) (fuel n : nat) (r : registers) : act registers :=
  match n, fuel with
  | O, _ => done r
  | _, O => stop
  | _, Datatypes.S fuel' =>
      e <-- bus_effect p r ;;
      _u <-- bus_store_all (e_stores e) ;;
      if Nat.ltb n (e_cycles e) then done r
      else _v <-- bus_store_all (e_stores e) ;; bus_run p fuel' (n - e_cycles e) (e_regs e)
  end.
End Bus.

(** What a bus saw: reads with their answers and writes, oldest first. *)
Inductive access := Rd (addr value : Z) | Wr (addr value : Z).

(** The bus [b] with a record of its accesses. *)
Definition watched {S} (b : bus S) : bus (S * list access) :=
  mkBus
    (fun '(s, l) a => match b_read b s a with Ok (v, s') => Ok (v, (s', l ++ [Rd a v])) | Panic => Panic end)
    (fun '(s, l) a v => match b_write b s a v with Ok s' => Ok (s', l ++ [Wr a v]) | Panic => Panic end).

(** The reads of an instruction after its fetch, as a list of addresses. *)
(** A pointer in page zero, low byte first. *)
Definition pointer_reads (m : addressing_mode) (r : registers) (b1 : Z) : list Z :=
  match m with
  | XIndexedIndirect => [(b1 + rX r) mod 256; (b1 + rX r + 1) mod 256]
  | IndirectYIndexed => [b1; (b1 + 1) mod 256]
  | _ => []
  end.
(** The operand address, where [lo] and [hi] are the pointer bytes. *)
Definition effective (m : addressing_mode) (r : registers) (b1 b2 lo hi : Z) : Z :=
  match m with
  | Absolute => word b1 b2
  | AbsoluteIndexedWithX => (word b1 b2 + rX r) mod 65536
  | AbsoluteIndexedWithY => (word b1 b2 + rY r) mod 65536
  | ZeroPage => b1
  | ZeroPageIndexedWithX => (b1 + rX r) mod 256
  | ZeroPageIndexedWithY => (b1 + rY r) mod 256
  | XIndexedIndirect => word lo hi
  | IndirectYIndexed => (word lo hi + rY r) mod 65536
  | _ => 0
  end.
Definition in_memory (m : addressing_mode) : bool :=
  match m with Immediate | Accumulator => false | _ => true end.

Definition reads_made (mn : mnemonic) (m : addressing_mode) (r : registers) (b1 b2 lo hi : Z) : list Z :=
  match mn with
  | Lda | Ldx | Ldy | Adc | Sbc | And | Ora | Eor | Bit | Cmp | Cpx | Cpy
  | Asl | Lsr | Rol | Ror | Inc | Dec =>
      if in_memory m then pointer_reads m r b1 ++ [effective m r b1 b2 lo hi] else []
  | Sta | Stx | Sty => pointer_reads m r b1
  | Jmp => match m with Indirect => [word b1 b2; (word b1 b2 + 1) mod 65536] | _ => [] end
  | Rts => [stack (rS r + 1); stack (rS r + 2)]
  | Rti => [stack (rS r + 1); stack (rS r + 2); stack (rS r + 3)]
  | Pla | Plp => [stack (rS r + 1)]
  | Brk => [0xfffe; 0xffff]
  | _ => []
  end.

(** Everything an instruction does on the bus, given its three fetched bytes
    and the answers [q] to its further reads. *)
Definition accesses (r : registers) (b0 b1 b2 : Z) (q : list (Z * Z)) (stores : list (Z * Z))
  : list access :=
  [Rd (rPC r) b0; Rd ((rPC r + 1) mod 65536) b1; Rd ((rPC r + 2) mod 65536) b2]
  ++ map (fun av => Rd (fst av) (snd av)) q
  ++ map (fun av => Wr (fst av) (snd av)) stores.

(** [b] takes part in a sequence of accesses, giving exactly these answers, and
    goes from one state to another. *)
Inductive follows {S} (b : bus S) : S -> list access -> S -> Prop :=
| follows_nil s : follows b s [] s
| follows_read s a v s1 l s2 :
    b_read b s a = Ok (v, s1) -> follows b s1 l s2 -> follows b s (Rd a v :: l) s2
| follows_write s a v s1 l s2 :
    b_write b s a v = Ok s1 -> follows b s1 l s2 -> follows b s (Wr a v :: l) s2.

Definition address_of (x : access) : Z := match x with Rd a _ => a | Wr a _ => a end.

(** A bus on which storing the same bytes a second time changes nothing (RAM,
    latches; not a console or a queue). *)
Definition settled {S} (b : bus S) : Prop :=
  forall l s u s', bus_store_all b l s = Ok (u, s') -> bus_store_all b l s' = Ok (tt, s').

(** Two outcomes agree: both panic, or both succeed with related values. *)
Inductive agree {A B} (R : A -> B -> Prop) : res A -> res B -> Prop :=
| agree_ok a b : R a b -> agree R (Ok a) (Ok b)
| agree_panic : agree R Panic Panic.

(** Two buses that no sequence of reads and writes can tell apart, as long as
    their states are related by [R]: every read gives the same byte on both,
    every write succeeds on both or panics on both, and [R] is kept. *)
Definition alike {S1 S2} (R : S1 -> S2 -> Prop) (b1 : bus S1) (b2 : bus S2) : Prop :=
  (forall s1 s2 a, R s1 s2 ->
     agree (fun x y => fst x = fst y /\ R (snd x) (snd y)) (b_read b1 s1 a) (b_read b2 s2 a)) /\
  (forall s1 s2 a v, R s1 s2 -> agree R (b_write b1 s1 a v) (b_write b2 s2 a v)).
