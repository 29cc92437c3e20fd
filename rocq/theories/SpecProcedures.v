(** The language of SpecLanguage.v with procedures, which may call each other
    and themselves (C114, C115). *)
From Verif Require Import Base ModelMap ModelRegs6502 ModelCpu6502 ModelStep Link6502 Spec6502 SpecProgram SpecRoutines SpecLanguage.

Inductive stmt :=
| Pass
| Put (v : Z) (e : expr)             (* the byte at address v becomes e *)
| PutItem (a : Z) (i e : expr)       (* the byte at address a + i becomes e *)
| Next (c1 c2 : stmt)
| Cond (e : expr) (c1 c2 : stmt)     (* c1 if e is not zero *)
| Again (e : expr) (c : stmt)        (* as long as e is not zero *)
| Perform (k : nat).                 (* procedure number k *)

(** ** What statements mean *)
(** [d] is the number of bytes there is room for on the stack. Operands of
    expressions take [depth] bytes while they wait, a call takes two. *)
Section Meaning.
Context (procs : list stmt).
Inductive does : Z -> stmt -> (Z -> Z) -> (Z -> Z) -> Prop :=
| does_pass d s : does d Pass s s
| does_put d v e s : depth e <= d -> does d (Put v e) s (set s v (value s e))
| does_item d a i e s : depth e <= d -> 1 + depth i <= d -> does d (PutItem a i e) s (set s (a + value s i) (value s e))
| does_next d c1 c2 s s1 s2 : does d c1 s s1 -> does d c2 s1 s2 -> does d (Next c1 c2) s s2
| does_cond d e c1 c2 s s' : depth e <= d -> does d (if value s e =? 0 then c2 else c1) s s' -> does d (Cond e c1 c2) s s'
| does_stop d e c s : depth e <= d -> value s e = 0 -> does d (Again e c) s s
| does_again d e c s s1 s2 : depth e <= d -> value s e <> 0 -> does d c s s1 -> does d (Again e c) s1 s2 -> does d (Again e c) s s2
| does_perform d k body s s' : nth_error procs k = Some body -> 2 <= d -> does (d - 2) body s s' -> does d (Perform k) s s'.
(** The statement comes to an expression or a call for which there is no room. *)
Inductive overflows : Z -> stmt -> (Z -> Z) -> Prop :=
| overflows_put d v e s : d < depth e -> overflows d (Put v e) s
| overflows_item d a i e s : d < depth e \/ d < 1 + depth i -> overflows d (PutItem a i e) s
| overflows_next1 d c1 c2 s : overflows d c1 s -> overflows d (Next c1 c2) s
| overflows_next2 d c1 c2 s s1 : does d c1 s s1 -> overflows d c2 s1 -> overflows d (Next c1 c2) s
| overflows_test d e c1 c2 s : d < depth e -> overflows d (Cond e c1 c2) s
| overflows_cond d e c1 c2 s : depth e <= d -> overflows d (if value s e =? 0 then c2 else c1) s -> overflows d (Cond e c1 c2) s
| overflows_loop d e c s : d < depth e -> overflows d (Again e c) s
| overflows_now d e c s : depth e <= d -> value s e <> 0 -> overflows d c s -> overflows d (Again e c) s
| overflows_later d e c s s1 : depth e <= d -> value s e <> 0 -> does d c s s1 -> overflows d (Again e c) s1 -> overflows d (Again e c) s
| overflows_call d k s : d < 2 -> overflows d (Perform k) s
| overflows_body d k body s : nth_error procs k = Some body -> 2 <= d -> overflows (d - 2) body s -> overflows d (Perform k) s.
End Meaning.

(** ** The translation *)
(** Procedure [k] lies at address [at_ k]; [t] is a scratch byte. *)
Fixpoint emit (at_ : nat -> Z) (t L : Z) (c : stmt) : list Z :=
  match c with
  | Pass => []
  | Put v e => code t e ++ [0x8d; low v; high v]
  | PutItem a i e => code t e ++ [0x48] ++ code t i ++ [0xaa; 0x68; 0x9d; low a; high a]  (* PHA .. TAX / PLA / STA a,X *)
  | Next c1 c2 => let l1 := emit at_ t L c1 in l1 ++ emit at_ t (L + len l1) c2
  | Cond e c1 c2 =>
      let test := code t e in
      let l1 := emit at_ t (L + len test + 7) c1 in
      let otherwise := L + len test + 7 + len l1 + 3 in
      let l2 := emit at_ t otherwise c2 in
      let stop := otherwise + len l2 in
      test ++ unless_zero otherwise ++ l1 ++ [0x4c; low stop; high stop] ++ l2
  | Again e c =>
      let test := code t e in
      let body := emit at_ t (L + len test + 7) c in
      let stop := L + len test + 7 + len body + 3 in
      test ++ unless_zero stop ++ body ++ [0x4c; low L; high L]
  | Perform k => [0x20; low (at_ k); high (at_ k)]              (* JSR *)
  end.
(** How long the code is: where it lies makes no difference. *)
Definition size (c : stmt) : Z := len (emit (fun _ => 0) 0 0 c).
(** The procedures lie one behind the other, each with an RTS at its end. *)
Fixpoint place (L : Z) (procs : list stmt) (k : nat) : Z :=
  match procs, k with
  | b :: r, S k' => place (L + size b + 1) r k'
  | _, _ => L
  end.
Fixpoint emit_all (at_ : nat -> Z) (t L : Z) (procs : list stmt) : list Z :=
  match procs with
  | [] => []
  | b :: r => emit at_ t L b ++ [0x60] ++ emit_all at_ t (L + size b + 1) r
  end.
(** A JMP to the program, the procedures, the program. *)
Definition entry (L : Z) (procs : list stmt) : Z := place (L + 3) procs (length procs).
Definition image (t L : Z) (procs : list stmt) (main : stmt) : list Z :=
  let at_ := place (L + 3) procs in
  [0x4c; low (entry L procs); high (entry L procs)] ++ emit_all at_ t (L + 3) procs ++ emit at_ t (entry L procs) main.

(** ** How many cycles it takes *)
(** A BNE at [B] that branches and the two NOPs: one more if it branches to
    another page. *)
Definition onward (B : Z) : nat := (if (B + 5) / 256 =? B / 256 then 3 else 4) + 2 + 2.
Definition width (e : expr) : Z := len (code 0 e).
(** As [does], for code lying at [L]; the last argument counts the cycles. *)
Inductive takes (procs : list stmt) (at_ : nat -> Z) : Z -> Z -> stmt -> (Z -> Z) -> (Z -> Z) -> nat -> Prop :=
| takes_pass d L s : takes procs at_ d L Pass s s 0
| takes_put d L v e s : depth e <= d -> takes procs at_ d L (Put v e) s (set s v (value s e)) (time s e + 4)
| takes_item d L a i e s : depth e <= d -> 1 + depth i <= d ->
    takes procs at_ d L (PutItem a i e) s (set s (a + value s i) (value s e)) (time s e + 3 + time s i + 2 + 4 + 5)
| takes_next d L c1 c2 s s1 s2 n1 n2 : takes procs at_ d L c1 s s1 n1 -> takes procs at_ d (L + size c1) c2 s1 s2 n2 -> takes procs at_ d L (Next c1 c2) s s2 (n1 + n2)
| takes_then d L e c1 c2 s s' n : depth e <= d -> value s e <> 0 -> takes procs at_ d (L + width e + 7) c1 s s' n ->
    takes procs at_ d L (Cond e c1 c2) s s' (time s e + onward (L + width e) + n + 3)
| takes_else d L e c1 c2 s s' n : depth e <= d -> value s e = 0 -> takes procs at_ d (L + width e + 7 + size c1 + 3) c2 s s' n ->
    takes procs at_ d L (Cond e c1 c2) s s' (time s e + 5 + n)
| takes_stop d L e c s : depth e <= d -> value s e = 0 -> takes procs at_ d L (Again e c) s s (time s e + 5)
| takes_again d L e c s s1 s2 n1 n2 : depth e <= d -> value s e <> 0 -> takes procs at_ d (L + width e + 7) c s s1 n1 -> takes procs at_ d L (Again e c) s1 s2 n2 ->
    takes procs at_ d L (Again e c) s s2 (time s e + onward (L + width e) + n1 + 3 + n2)
| takes_perform d L k body s s' n : nth_error procs k = Some body -> 2 <= d -> takes procs at_ (d - 2) (at_ k) body s s' n ->
    takes procs at_ d L (Perform k) s s' (6 + n + 6).
(** The image's way from its first instruction: a JMP, then the program. *)
Definition image_takes (procs : list stmt) (d L : Z) (main : stmt) (s s' : Z -> Z) (n : nat) : Prop :=
  exists m, n = (3 + m)%nat /\ takes procs (place (L + 3) procs) d (entry L procs) main s s' m.

(** ** Programs that always take the same time *)
(** Tables begin pages. *)
Fixpoint steady_expr (e : expr) : Prop :=
  match e with
  | Const _ | Var _ => True
  | Item a i => a mod 256 = 0 /\ steady_expr i
  | Double e | Half e => steady_expr e
  | Op _ e1 e2 => steady_expr e1 /\ steady_expr e2
  end.
(** No conditionals and no loops. *)
Fixpoint steady (c : stmt) : Prop :=
  match c with
  | Pass | Perform _ => True
  | Put _ e => steady_expr e
  | PutItem _ i e => steady_expr i /\ steady_expr e
  | Next c1 c2 => steady c1 /\ steady c2
  | Cond _ _ _ | Again _ _ => False
  end.

(** ** When a program can be translated *)
(** The expressions satisfy [E], the addresses written [W], and there are
    [n] procedures. *)
Fixpoint proper (E : expr -> Prop) (W : Z -> Prop) (n : nat) (c : stmt) : Prop :=
  match c with
  | Pass => True
  | Put v e => W v /\ E e
  | PutItem a i e => (forall k, 0 <= k < 256 -> W (a + k)) /\ E i /\ E e
  | Next c1 c2 => proper E W n c1 /\ proper E W n c2
  | Cond e c1 c2 => E e /\ proper E W n c1 /\ proper E W n c2
  | Again e c => E e /\ proper E W n c
  | Perform k => (k < n)%nat
  end.
(** A statement that reads neither the scratch byte nor the stack, writes to
    variables only, none of them the scratch byte or in the stack, and calls
    procedures there are. *)
Definition good_stmt (ram : Z -> Prop) (t L : Z) (prog : list Z) (n : nat) (c : stmt) : Prop :=
  proper (reads (fun q => u16 q /\ ~ scratch t q)) (fun q => variable ram L prog q /\ ~ scratch t q) n c.
(** A machine about to execute [main] with the procedures [procs], the whole
    image lying at [L]. *)
Definition about_to_perform {D} `{Device D} (p : profile) (I : address_map D -> Prop) (ram : Z -> Prop) (cpu : mos6502 D)
  (A X Y S L : Z) (P : processor_status) (f : Z -> Z) (t : Z) (procs : list stmt) (main : stmt) : Prop :=
  let prog := image t L procs main in
  about_to_run p I ram cpu A X Y S L P f prog /\ L + len prog <= 0xfffe /\ workspace ram t L prog /\
  Forall (good_stmt ram t L prog (length procs)) (main :: procs).
