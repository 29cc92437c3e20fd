(** Programs of SpecProcedures.v that talk to a device: what they mean when
    some addresses are ports of a device that reacts to being read and written
    (C120, C121). The programs, and their translation, are those of
    SpecProcedures.v: a program reads a port by naming its address, and writes
    it by assigning to it. *)
From Verif Require Import Base ModelRegs6502 Link6502 Spec6502 SpecProgram SpecRoutines SpecLanguage SpecProcedures SpecBus.

(** ** Devices *)
(** A device with internal state [T]: a read yields a byte and may change the
    state, a write may change the state. *)
Record device (T : Type) := mkDevice {
  d_get : T -> Z -> Z * T;
  d_put : T -> Z -> Z -> T
}.
Arguments mkDevice {T} _ _.
Arguments d_get {T} _ _ _.
Arguments d_put {T} _ _ _ _.

(** The bus [b] consists of memory and of the device [dev] at the addresses
    [port]. [view s f u]: with [b] in state [s] the memory holds the bytes [f]
    and the device is in state [u]. *)
Record talking {S T} (b : bus S) (dev : device T) (port : Z -> bool) (ram : Z -> Prop) (view : S -> (Z -> Z) -> T -> Prop) : Prop := mkTalking {
  t_bytes : forall u a, 0 <= fst (d_get dev u a) < 256;
  t_same : forall s f f' u, view s f u -> (forall a, u16 a -> port a = false -> f' a = f a) -> view s f' u;
  t_read : forall s f u a, view s f u -> u16 a -> port a = false -> exists s', b_read b s a = Ok (f a, s') /\ view s' f u;
  t_get : forall s f u a, view s f u -> u16 a -> port a = true ->
    exists s', b_read b s a = Ok (fst (d_get dev u a), s') /\ view s' f (snd (d_get dev u a));
  t_write : forall s f u a v, view s f u -> u16 a -> port a = false -> ram a -> 0 <= v < 256 ->
    exists s', b_write b s a v = Ok s' /\ view s' (set f a v) u;
  t_put : forall s f u a v, view s f u -> u16 a -> port a = true -> 0 <= v < 256 ->
    exists s', b_write b s a v = Ok s' /\ view s' f (d_put dev u a v)
}.

(** ** What programs mean *)
Section Meaning.
Context {T : Type} (dev : device T) (port : Z -> bool).
(** The byte at an address, and the device afterwards. *)
Definition look (s : Z -> Z) (u : T) (a : Z) : Z * T := if port a then d_get dev u a else (s a, u).
(** The value of an expression, and the device afterwards: operands are
    evaluated from left to right. *)
Fixpoint asks (s : Z -> Z) (u : T) (e : expr) : Z * T :=
  match e with
  | Const k => (k, u)
  | Var v => look s u v
  | Item a i => let '(x, u1) := asks s u i in look s u1 (a + x)
  | Double e => let '(x, u1) := asks s u e in ((2 * x) mod 256, u1)
  | Half e => let '(x, u1) := asks s u e in (x / 2, u1)
  | Op o e1 e2 => let '(x, u1) := asks s u e1 in let '(y, u2) := asks s u1 e2 in (apply o x y, u2)
  end.
(** Its cycles. *)
Fixpoint spends (s : Z -> Z) (u : T) (e : expr) : nat :=
  match e with
  | Const _ => 2
  | Var _ => 4
  | Item a i => spends s u i + 2 + (if (a + fst (asks s u i)) / 256 =? a / 256 then 4 else 5)
  | Double e | Half e => spends s u e + 2
  | Op o e1 e2 => spends s u e1 + 3 + spends s (snd (asks s u e1)) e2 + 4 + 4 + op_time o
  end.
(** The states of the device while the expression is evaluated. *)
Fixpoint meets (s : Z -> Z) (u : T) (e : expr) (u1 : T) : Prop :=
  match e with
  | Const _ => u1 = u
  | Var v => u1 = u \/ u1 = snd (look s u v)
  | Item a i => meets s u i u1 \/ u1 = snd (asks s u (Item a i))
  | Double e | Half e => meets s u e u1
  | Op _ e1 e2 => meets s u e1 u1 \/ meets s (snd (asks s u e1)) e2 u1
  end.

(** The device gets every write [again] times. *)
Context (again : nat).
Definition mem_after (s : Z -> Z) (a v : Z) : Z -> Z := if port a then s else set s a v.
Definition dev_after (u : T) (a v : Z) : T := if port a then Nat.iter again (fun u => d_put dev u a v) u else u.

Context (procs : list stmt).
(** With room for [d] bytes on the stack, the statement ends, leaving the
    memory and the device as given. *)
Inductive acts : Z -> stmt -> (Z -> Z) -> T -> (Z -> Z) -> T -> Prop :=
| acts_pass d s u : acts d Pass s u s u
| acts_put d v e s u x u1 : depth e <= d -> asks s u e = (x, u1) -> acts d (Put v e) s u (mem_after s v x) (dev_after u1 v x)
| acts_item d a i e s u x u1 y u2 : depth e <= d -> 1 + depth i <= d -> asks s u e = (x, u1) -> asks s u1 i = (y, u2) ->
    acts d (PutItem a i e) s u (mem_after s (a + y) x) (dev_after u2 (a + y) x)
| acts_next d c1 c2 s u s1 u1 s2 u2 : acts d c1 s u s1 u1 -> acts d c2 s1 u1 s2 u2 -> acts d (Next c1 c2) s u s2 u2
| acts_cond d e c1 c2 s u x u1 s' u' : depth e <= d -> asks s u e = (x, u1) -> acts d (if x =? 0 then c2 else c1) s u1 s' u' -> acts d (Cond e c1 c2) s u s' u'
| acts_stop d e c s u u1 : depth e <= d -> asks s u e = (0, u1) -> acts d (Again e c) s u s u1
| acts_again d e c s u x u1 s2 u2 s3 u3 : depth e <= d -> asks s u e = (x, u1) -> x <> 0 -> acts d c s u1 s2 u2 -> acts d (Again e c) s2 u2 s3 u3 ->
    acts d (Again e c) s u s3 u3
| acts_perform d k body s u s' u' : nth_error procs k = Some body -> 2 <= d -> acts (d - 2) body s u s' u' -> acts d (Perform k) s u s' u'.
(** The statement comes to an expression or a call for which there is no room. *)
Inductive bursts : Z -> stmt -> (Z -> Z) -> T -> Prop :=
| bursts_put d v e s u : d < depth e -> bursts d (Put v e) s u
| bursts_item d a i e s u : d < depth e \/ d < 1 + depth i -> bursts d (PutItem a i e) s u
| bursts_next1 d c1 c2 s u : bursts d c1 s u -> bursts d (Next c1 c2) s u
| bursts_next2 d c1 c2 s u s1 u1 : acts d c1 s u s1 u1 -> bursts d c2 s1 u1 -> bursts d (Next c1 c2) s u
| bursts_test d e c1 c2 s u : d < depth e -> bursts d (Cond e c1 c2) s u
| bursts_cond d e c1 c2 s u x u1 : depth e <= d -> asks s u e = (x, u1) -> bursts d (if x =? 0 then c2 else c1) s u1 -> bursts d (Cond e c1 c2) s u
| bursts_loop d e c s u : d < depth e -> bursts d (Again e c) s u
| bursts_now d e c s u x u1 : depth e <= d -> asks s u e = (x, u1) -> x <> 0 -> bursts d c s u1 -> bursts d (Again e c) s u
| bursts_later d e c s u x u1 s2 u2 : depth e <= d -> asks s u e = (x, u1) -> x <> 0 -> acts d c s u1 s2 u2 -> bursts d (Again e c) s2 u2 -> bursts d (Again e c) s u
| bursts_call d k s u : d < 2 -> bursts d (Perform k) s u
| bursts_body d k body s u : nth_error procs k = Some body -> 2 <= d -> bursts (d - 2) body s u -> bursts d (Perform k) s u.
(** The states of the device while the statement is executed, whether it ends
    or not. *)
Inductive during : Z -> stmt -> (Z -> Z) -> T -> T -> Prop :=
| during_start d c s u : during d c s u u
| during_end d c s u s' u' : acts d c s u s' u' -> during d c s u u'
| during_put d v e s u u' : depth e <= d -> meets s u e u' -> during d (Put v e) s u u'
| during_item1 d a i e s u u' : depth e <= d -> 1 + depth i <= d -> meets s u e u' -> during d (PutItem a i e) s u u'
| during_item2 d a i e s u u' : depth e <= d -> 1 + depth i <= d -> meets s (snd (asks s u e)) i u' -> during d (PutItem a i e) s u u'
| during_next1 d c1 c2 s u u' : during d c1 s u u' -> during d (Next c1 c2) s u u'
| during_next2 d c1 c2 s u s1 u1 u' : acts d c1 s u s1 u1 -> during d c2 s1 u1 u' -> during d (Next c1 c2) s u u'
| during_test d e c1 c2 s u u' : depth e <= d -> meets s u e u' -> during d (Cond e c1 c2) s u u'
| during_cond d e c1 c2 s u x u1 u' : depth e <= d -> asks s u e = (x, u1) -> during d (if x =? 0 then c2 else c1) s u1 u' -> during d (Cond e c1 c2) s u u'
| during_loop d e c s u u' : depth e <= d -> meets s u e u' -> during d (Again e c) s u u'
| during_now d e c s u x u1 u' : depth e <= d -> asks s u e = (x, u1) -> x <> 0 -> during d c s u1 u' -> during d (Again e c) s u u'
| during_later d e c s u x u1 s2 u2 u' : depth e <= d -> asks s u e = (x, u1) -> x <> 0 -> acts d c s u1 s2 u2 -> during d (Again e c) s2 u2 u' -> during d (Again e c) s u u'
| during_body d k body s u u' : nth_error procs k = Some body -> 2 <= d -> during (d - 2) body s u u' -> during d (Perform k) s u u'.

(** As [acts], for code lying at [L], procedure [k] at [at_ k]; the last
    argument counts the cycles. *)
Context (at_ : nat -> Z).
Inductive acts_in : Z -> Z -> stmt -> (Z -> Z) -> T -> (Z -> Z) -> T -> nat -> Prop :=
| in_pass d L s u : acts_in d L Pass s u s u 0
| in_put d L v e s u x u1 : depth e <= d -> asks s u e = (x, u1) -> acts_in d L (Put v e) s u (mem_after s v x) (dev_after u1 v x) (spends s u e + 4)
| in_item d L a i e s u x u1 y u2 : depth e <= d -> 1 + depth i <= d -> asks s u e = (x, u1) -> asks s u1 i = (y, u2) ->
    acts_in d L (PutItem a i e) s u (mem_after s (a + y) x) (dev_after u2 (a + y) x) (spends s u e + 3 + spends s u1 i + 2 + 4 + 5)
| in_next d L c1 c2 s u s1 u1 s2 u2 n1 n2 : acts_in d L c1 s u s1 u1 n1 -> acts_in d (L + size c1) c2 s1 u1 s2 u2 n2 -> acts_in d L (Next c1 c2) s u s2 u2 (n1 + n2)
| in_then d L e c1 c2 s u x u1 s' u' n : depth e <= d -> asks s u e = (x, u1) -> x <> 0 -> acts_in d (L + width e + 7) c1 s u1 s' u' n ->
    acts_in d L (Cond e c1 c2) s u s' u' (spends s u e + onward (L + width e) + n + 3)
| in_else d L e c1 c2 s u u1 s' u' n : depth e <= d -> asks s u e = (0, u1) -> acts_in d (L + width e + 7 + size c1 + 3) c2 s u1 s' u' n ->
    acts_in d L (Cond e c1 c2) s u s' u' (spends s u e + 5 + n)
| in_stop d L e c s u u1 : depth e <= d -> asks s u e = (0, u1) -> acts_in d L (Again e c) s u s u1 (spends s u e + 5)
| in_again d L e c s u x u1 s2 u2 s3 u3 n1 n2 : depth e <= d -> asks s u e = (x, u1) -> x <> 0 -> acts_in d (L + width e + 7) c s u1 s2 u2 n1 ->
    acts_in d L (Again e c) s2 u2 s3 u3 n2 -> acts_in d L (Again e c) s u s3 u3 (spends s u e + onward (L + width e) + n1 + 3 + n2)
| in_perform d L k body s u s' u' n : nth_error procs k = Some body -> 2 <= d -> acts_in (d - 2) (at_ k) body s u s' u' n ->
    acts_in d L (Perform k) s u s' u' (6 + n + 6).
End Meaning.
(** The image's way from its first instruction: a JMP, then the program. *)
Definition image_acts_in {T} (dev : device T) port again procs (d L : Z) (main : stmt) s u s' u' (n : nat) : Prop :=
  exists m, n = (3 + m)%nat /\ acts_in dev port again procs (place (L + 3) procs) d (entry L procs) main s u s' u' m.

(** A device that gets every write twice, while the states [D] are those in
    which it has got none or both of the two: it may also have got the first only. *)
Definition halfway {T} (dev : device T) (port : Z -> bool) (D : T -> Prop) (u : T) : Prop :=
  D u \/ exists a v u0, port a = true /\ D u0 /\ u = d_put dev u0 a v /\ D (d_put dev u a v).

(** ** When a program can be translated *)
(** The registers and the memory of a machine about to execute [main] with the
    procedures [procs], the whole image lying at [L]. No port lies in the
    program, in the two bytes behind it, which are fetched with its last
    instruction (C69), in the stack or at the scratch byte. The program writes
    to memory that can be written and to ports. *)
Definition about_to_talk (port : Z -> bool) (ram : Z -> Prop) (r : registers) (f : Z -> Z) (t L : Z) (procs : list stmt) (main : stmt) : Prop :=
  let prog := image t L procs main in
  regs_ok r /\ rPC r = L /\ (forall a, u16 a -> 0 <= f a < 256) /\ bytes_from f L prog /\ 0 <= L /\ L + len prog <= 0xfffe /\
  (forall q, L <= q < L + len prog + 2 -> port q = false) /\ (forall q, scratch t q -> port q = false) /\
  workspace ram t L prog /\
  Forall (good_stmt (fun q => ram q \/ port q = true) t L prog (length procs)) (main :: procs).
