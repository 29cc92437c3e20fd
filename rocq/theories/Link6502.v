(** How the specification machine of Spec6502.v and the model of the code are
    compared: registers are read off the public fields of the CPU value, and
    memory is whatever the CPU's address map answers. *)
From Verif Require Import Base ModelMap ModelRegs6502 ModelCpu6502 ModelOperand ModelIsa6502
  ModelRun6502 SpecMap.
From Verif Require Spec6502.

Section Link.
Context {D : Type} `{Device D}.

Definition regs_of (cpu : mos6502 D) : Spec6502.registers :=
  Spec6502.mkRegs (reg_acc cpu) (reg_x cpu) (reg_y cpu) (reg_sp cpu) (reg_pc cpu) (reg_ps cpu).

(** [rd] is what the bus answers: every address of the 64 KiB space can be
    read without a panic and yields [rd]. *)
Definition bus_reads (p : profile) (m : address_map D) (rd : Z -> Z) : Prop :=
  forall a, u16 a -> am_read p m a = Ok (rd a).

(** Memory contents are bytes. *)
Definition byte_valued (rd : Z -> Z) : Prop := forall a, u16 a -> u8 (rd a).

(** Registers hold values of their width. *)
Definition regs_ok (r : Spec6502.registers) : Prop :=
  u8 (Spec6502.rA r) /\ u8 (Spec6502.rX r) /\ u8 (Spec6502.rY r) /\ u8 (Spec6502.rS r)
  /\ u16 (Spec6502.rPC r).

(** Perform stores in order; a store the bus refuses is a panic. *)
Fixpoint store_all (p : profile) (m : address_map D) (l : list (Z * Z)) : res (address_map D) :=
  match l with
  | [] => Ok m
  | (a, v) :: l' =>
      match am_write p m a v with
      | Ok (m', WOk _) => store_all p m' l'
      | Ok (_, WErr) => Panic
      | Panic => Panic
      end
  end.

(** The CPU with new registers and a new bus. *)
Definition cpu_with (r : Spec6502.registers) (m : address_map D) : mos6502 D :=
  mkMos6502 m (Spec6502.rA r) (Spec6502.rX r) (Spec6502.rY r) (Spec6502.rS r)
    (Spec6502.rPC r) (Spec6502.rP r).

(** The outcome the specification prescribes: cycles and resulting CPU. *)
Definition spec_outcome (p : profile) (cpu : mos6502 D) (o : option Spec6502.effect)
  : res (nat * mos6502 D) :=
  match o with
  | None => Panic
  | Some e =>
      match store_all p (amap cpu) (Spec6502.e_stores e) with
      | Ok m => Ok (Spec6502.e_cycles e, cpu_with (Spec6502.e_regs e) m)
      | Panic => Panic
      end
  end.

(** What one call of [next] shows a user: the cycle count of the yielded
    operations and the CPU after it. *)
Definition observed_step (p : profile) (cpu : mos6502 D) : res (nat * mos6502 D) :=
  match next p cpu with
  | Ok (mops, cpu') => Ok (ops_cycles mops, cpu')
  | Panic => Panic
  end.
End Link.

(** Executions: [steps p k t cpu cpu'] holds when [k] successive instructions
    lead from [cpu] to [cpu'] and take [t] cycles in total. *)
Inductive steps {D} `{Device D} (p : profile) : nat -> nat -> mos6502 D -> mos6502 D -> Prop :=
| steps_refl cpu : steps p 0 0 cpu cpu
| steps_cons k t c cpu cpu1 cpu2 :
    observed_step p cpu = Ok (c, cpu1) -> steps p k t cpu1 cpu2 ->
    steps p (S k) (c + t) cpu cpu2.

(** The byte a user sees at an address (0 stands for a panicking read). *)
Definition peek {D} `{Device D} (p : profile) (m : address_map D) (a : Z) : Z :=
  match am_read p m a with Ok v => v | Panic => 0 end.

(** A bus on which programs can run: [I] is a family of maps closed under the
    writes the CPU performs, every address can be read and yields a byte, and
    the addresses [ram] behave as RAM whatever else is mapped: writing one
    succeeds and changes that byte only, and no other write disturbs them.
    Addresses outside [ram] may be ROM, unmapped or peripherals. *)
Definition ram_bus {D} `{Device D} (p : profile) (I : address_map D -> Prop) (ram : Z -> Prop) : Prop :=
  (forall m a, I m -> u16 a -> exists v, am_read p m a = Ok v /\ u8 v) /\
  (forall m a v, I m -> u16 a -> ram a -> u8 v ->
     exists m', am_write p m a v = Ok (m', WOk v) /\ I m' /\
       forall b, u16 b -> peek p m' b = if b =? a then v else peek p m b) /\
  (forall m a v m' w, I m -> u16 a -> u8 v -> am_write p m a v = Ok (m', WOk w) ->
     I m' /\ forall b, u16 b -> ram b -> b <> a -> peek p m' b = peek p m b).

(** Maps of RAM and ROM regions in which every region holds bytes for its
    whole registered range and no two ranges overlap. *)
Definition region_ok (e : entry memory) : Prop :=
  0 <= start_address (device e) <= range_lo e /\ range_hi e <= 65535 /\
  (range_hi e - start_address (device e) < Z.of_nat (length (mem_inner (device e)))) /\
  Forall u8 (mem_inner (device e)).
Definition plain_map (m : address_map memory) : Prop :=
  SpecMap.disjoint m /\ Forall region_ok m.
(** [a] lies in a read-write region. *)
Definition ram_at (m : address_map memory) (a : Z) : Prop :=
  exists e, In e m /\ range_lo e <= a <= range_hi e /\ mem_kind (device e) = ReadWrite.
(** Plain maps with a fixed set of RAM addresses. *)
Definition plain_with (ram : Z -> Prop) (m : address_map memory) : Prop :=
  plain_map m /\ forall a, ram a -> ram_at m a.

(** The microcode of a list of yielded operations, one list per cycle: what
    [into_iter().flat_map(Into::into)] yields. *)
Fixpoint expand (ms : list operations) : res (list (list microcode)) :=
  match ms with
  | [] => Ok []
  | m :: ms' => do! a <- operations_into_cycles m ; do! b <- expand ms' ; Ok (a ++ b)
  end.

