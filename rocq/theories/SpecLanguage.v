(** A small programming language and its translation to 6502 code (C110, C111). *)
From Verif Require Import Base ModelMap ModelRegs6502 ModelCpu6502 Link6502 Spec6502 SpecProgram SpecRoutines.

(** ** The language: byte variables, tables of 256 bytes, loops *)
Inductive operator := Plus | Minus | Conj | Disj | Exclusive.
Inductive expr :=
| Const (k : Z)
| Var (v : Z)                        (* the byte at address v *)
| Item (a : Z) (i : expr)            (* the byte at address a + i *)
| Double (e : expr)
| Half (e : expr)
| Op (o : operator) (e1 e2 : expr).
Inductive cmd :=
| Skip
| Assign (v : Z) (e : expr)
| SetItem (a : Z) (i e : expr)       (* the byte at address a + i becomes e *)
| Seq (c1 c2 : cmd)
| If (e : expr) (c1 c2 : cmd)        (* c1 if e is not zero *)
| While (e : expr) (c : cmd).        (* as long as e is not zero *)

(** What they mean. A state gives every address a byte. *)
Definition apply (o : operator) (a b : Z) : Z :=
  match o with
  | Plus => (a + b) mod 256
  | Minus => (a - b) mod 256
  | Conj => Z.land a b
  | Disj => Z.lor a b
  | Exclusive => Z.lxor a b
  end.
Fixpoint value (s : Z -> Z) (e : expr) : Z :=
  match e with
  | Const k => k
  | Var v => s v
  | Item a i => s (a + value s i)
  | Double e => (2 * value s e) mod 256
  | Half e => value s e / 2
  | Op o e1 e2 => apply o (value s e1) (value s e2)
  end.
Definition set (s : Z -> Z) (a v : Z) : Z -> Z := fun q => if q =? a then v else s q.
Inductive ends : cmd -> (Z -> Z) -> (Z -> Z) -> Prop :=
| ends_skip s : ends Skip s s
| ends_assign v e s : ends (Assign v e) s (set s v (value s e))
| ends_item a i e s : ends (SetItem a i e) s (set s (a + value s i) (value s e))
| ends_seq c1 c2 s s1 s2 : ends c1 s s1 -> ends c2 s1 s2 -> ends (Seq c1 c2) s s2
| ends_if e c1 c2 s s' : ends (if value s e =? 0 then c2 else c1) s s' -> ends (If e c1 c2) s s'
| ends_stop e c s : value s e = 0 -> ends (While e c) s s
| ends_again e c s s1 s2 : value s e <> 0 -> ends c s s1 -> ends (While e c) s1 s2 -> ends (While e c) s s2.

(** ** The translation. Operands wait on the stack; [t] is a scratch byte. *)
Definition op_code (o : operator) (t : Z) : list Z :=
  match o with
  | Plus => [0x18; 0x6d; low t; high t]          (* CLC / ADC t *)
  | Minus => [0x38; 0xed; low t; high t]         (* SEC / SBC t *)
  | Conj => [0x2d; low t; high t]
  | Disj => [0x0d; low t; high t]
  | Exclusive => [0x4d; low t; high t]
  end.
Fixpoint code (t : Z) (e : expr) : list Z :=
  match e with
  | Const k => [0xa9; k]
  | Var v => [0xad; low v; high v]
  | Item a i => code t i ++ [0xaa; 0xbd; low a; high a]                 (* TAX / LDA a,X *)
  | Double e => code t e ++ [0x0a]
  | Half e => code t e ++ [0x4a]
  | Op o e1 e2 => code t e1 ++ [0x48] ++ code t e2 ++ [0x8d; low t; high t; 0x68] ++ op_code o t  (* PHA .. STA t / PLA *)
  end.
Definition len (l : list Z) : Z := Z.of_nat (length l).
(** BNE over the JMP. The two NOPs make the displacement right whether it is
    counted from the branch, as this emulator does (C20), or from the
    instruction after it. *)
Definition unless_zero (target : Z) : list Z := [0xd0; 0x05; 0x4c; low target; high target; 0xea; 0xea].
Fixpoint compile (t L : Z) (c : cmd) : list Z :=
  match c with
  | Skip => []
  | Assign v e => code t e ++ [0x8d; low v; high v]
  | SetItem a i e => code t e ++ [0x48] ++ code t i ++ [0xaa; 0x68; 0x9d; low a; high a]  (* PHA .. TAX / PLA / STA a,X *)
  | Seq c1 c2 => let l1 := compile t L c1 in l1 ++ compile t (L + len l1) c2
  | If e c1 c2 =>
      let test := code t e in
      let l1 := compile t (L + len test + 7) c1 in
      let otherwise := L + len test + 7 + len l1 + 3 in
      let l2 := compile t otherwise c2 in
      let stop := otherwise + len l2 in
      test ++ unless_zero otherwise ++ l1 ++ [0x4c; low stop; high stop] ++ l2
  | While e c =>
      let test := code t e in
      let body := compile t (L + len test + 7) c in
      let stop := L + len test + 7 + len body + 3 in
      test ++ unless_zero stop ++ body ++ [0x4c; low L; high L]
  end.

(** ** When a program can be translated *)
(** How many bytes of the stack an expression takes. *)
Fixpoint depth (e : expr) : Z :=
  match e with
  | Const _ | Var _ => 0
  | Item _ e | Double e | Half e => depth e
  | Op _ e1 e2 => Z.max (depth e1) (1 + depth e2)
  end.
Definition page_one (q : Z) : Prop := 0x100 <= q <= 0x1ff.
Definition scratch (t q : Z) : Prop := q = t \/ page_one q.
(** Every address an expression reads satisfies [Q], constants are bytes. *)
Fixpoint reads (Q : Z -> Prop) (e : expr) : Prop :=
  match e with
  | Const k => 0 <= k < 256
  | Var v => Q v
  | Item a i => (forall k, 0 <= k < 256 -> Q (a + k)) /\ reads Q i
  | Double e | Half e => reads Q e
  | Op _ e1 e2 => reads Q e1 /\ reads Q e2
  end.
(** The expressions of a command satisfy [E], the addresses it writes [W]. *)
Fixpoint within (E : expr -> Prop) (W : Z -> Prop) (c : cmd) : Prop :=
  match c with
  | Skip => True
  | Assign v e => W v /\ E e
  | SetItem a i e => (forall k, 0 <= k < 256 -> W (a + k)) /\ E i /\ depth i <= 255 /\ E e
  | Seq c1 c2 => within E W c1 /\ within E W c2
  | If e c1 c2 => E e /\ within E W c1 /\ within E W c2
  | While e c => E e /\ within E W c
  end.
(** An expression whose operands fit on the stack and that reads neither the
    scratch byte nor the stack. *)
Definition good_expr (t : Z) (e : expr) : Prop :=
  reads (fun q => u16 q /\ ~ scratch t q) e /\ depth e <= 256.
(** The scratch byte and the stack can be written, overlap neither each other
    nor the program. *)
Definition workspace (ram : Z -> Prop) (t L : Z) (prog : list Z) : Prop :=
  ~ page_one t /\ forall q, scratch t q -> variable ram L prog q.
(** A command whose expressions are good and that writes to variables only,
    none of them the scratch byte or in the stack. *)
Definition good_cmd (ram : Z -> Prop) (t L : Z) (prog : list Z) (c : cmd) : Prop :=
  within (good_expr t) (fun q => variable ram L prog q /\ ~ scratch t q) c.

(** ** How many cycles the code of an expression takes *)
Definition op_time (o : operator) : nat := match o with Plus | Minus => 2 + 4 | _ => 4 end.
(** One more when the item is not on the page the table begins on. *)
Fixpoint time (s : Z -> Z) (e : expr) : nat :=
  match e with
  | Const _ => 2
  | Var _ => 4
  | Item a i => time s i + 2 + (if (a + value s i) / 256 =? a / 256 then 4 else 5)
  | Double e | Half e => time s e + 2
  | Op o e1 e2 => time s e1 + 3 + time s e2 + 4 + 4 + op_time o
  end.
