(** Vocabulary for C101: machines that stop and machines that repeat
    themselves. *)
From Verif Require Import Base ModelMap ModelRegs6502 ModelCpu6502 Link6502.

Section Repeat.
Context {D : Type} `{Device D}.
Implicit Type cpu : mos6502 D.

(** [cpu'] is the machine after [k] instructions. *)
Definition after p (k : nat) cpu cpu' : Prop := exists t, steps p k t cpu cpu'.

(** The machine panics while executing its [k + 1]st instruction. *)
Definition stops p (k : nat) cpu : Prop := exists cpu', after p k cpu cpu' /\ observed_step p cpu' = Panic.
End Repeat.

(** The number of bytes of a machine that can be written. *)
Fixpoint writable_bytes (m : address_map memory) : nat :=
  match m with
  | [] => 0
  | e :: m' => (match mem_kind (device e) with ReadWrite => length (mem_inner (device e)) | ReadOnly => 0 end) + writable_bytes m'
  end.

(** In how many states such a machine can be: A, X, Y, S, the status byte, the
    16 bits of PC, and the writable bytes. *)
Definition states (m : address_map memory) : Z := 2 ^ 56 * 256 ^ Z.of_nat (writable_bytes m).
