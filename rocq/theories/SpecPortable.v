(** Translated programs on the documented 6502 (C129). *)
From Verif Require Import Base ModelMap ModelRegs6502 Link6502 Spec6502 SpecInstr SpecDatasheet SpecProgram SpecRoutines SpecLanguage SpecProcedures.

(** [k] instructions of the documented machine (SpecDatasheet.v), [t] cycles
    in total, none of them decimal arithmetic or storing outside [ram].
    Unlike [ds_run] this asks nothing about the emulator. *)
Inductive chip (ram : Z -> Prop) : nat -> nat -> ds_state -> ds_state -> Prop :=
| chip_here st : chip ram 0 0 st st
| chip_next k t c st st1 st2 : ds_step st c st1 -> ~ ds_decimal st -> ds_stores_in ram st ->
    chip ram k t st1 st2 -> chip ram (S k) (c + t) st st2.

(** The cycles of passing a test at [B] on the documented machine: the branch
    goes to the instruction behind the two NOPs, and takes one cycle more if
    that lies on another page than the instruction behind the branch. *)
Definition chip_onward (B : Z) : nat := if (B + 7) / 256 =? (B + 2) / 256 then 3 else 4.

(** As [takes], where passing a test at [B] costs [on B]. *)
Inductive lasts (on : Z -> nat) (procs : list stmt) (at_ : nat -> Z) : Z -> Z -> stmt -> (Z -> Z) -> (Z -> Z) -> nat -> Prop :=
| lasts_pass d L s : lasts on procs at_ d L Pass s s 0
| lasts_put d L v e s : depth e <= d -> lasts on procs at_ d L (Put v e) s (set s v (value s e)) (time s e + 4)
| lasts_item d L a i e s : depth e <= d -> 1 + depth i <= d ->
    lasts on procs at_ d L (PutItem a i e) s (set s (a + value s i) (value s e)) (time s e + 3 + time s i + 2 + 4 + 5)
| lasts_next d L c1 c2 s s1 s2 n1 n2 : lasts on procs at_ d L c1 s s1 n1 -> lasts on procs at_ d (L + size c1) c2 s1 s2 n2 -> lasts on procs at_ d L (Next c1 c2) s s2 (n1 + n2)
| lasts_then d L e c1 c2 s s' n : depth e <= d -> value s e <> 0 -> lasts on procs at_ d (L + width e + 7) c1 s s' n ->
    lasts on procs at_ d L (Cond e c1 c2) s s' (time s e + on (L + width e) + n + 3)
| lasts_else d L e c1 c2 s s' n : depth e <= d -> value s e = 0 -> lasts on procs at_ d (L + width e + 7 + size c1 + 3) c2 s s' n ->
    lasts on procs at_ d L (Cond e c1 c2) s s' (time s e + 5 + n)
| lasts_stop d L e c s : depth e <= d -> value s e = 0 -> lasts on procs at_ d L (Again e c) s s (time s e + 5)
| lasts_again d L e c s s1 s2 n1 n2 : depth e <= d -> value s e <> 0 -> lasts on procs at_ d (L + width e + 7) c s s1 n1 -> lasts on procs at_ d L (Again e c) s1 s2 n2 ->
    lasts on procs at_ d L (Again e c) s s2 (time s e + on (L + width e) + n1 + 3 + n2)
| lasts_perform d L k body s s' n : nth_error procs k = Some body -> 2 <= d -> lasts on procs at_ (d - 2) (at_ k) body s s' n ->
    lasts on procs at_ d L (Perform k) s s' (6 + n + 6).
Definition image_lasts (on : Z -> nat) (procs : list stmt) (d L : Z) (main : stmt) (s s' : Z -> Z) (n : nat) : Prop :=
  exists m, n = (3 + m)%nat /\ lasts on procs (place (L + 3) procs) d (entry L procs) main s s' m.

(** The documented machine is about to execute the translation of [main]
    with the procedures [procs] lying at [L], in binary mode. *)
Definition chip_about_to_perform (ram : Z -> Prop) (A X Y S L : Z) (P : processor_status) (f : Z -> Z) (t : Z) (procs : list stmt) (main : stmt) : Prop :=
  let prog := image t L procs main in
  0 <= L /\ L + len prog <= 0xfffe /\ 0 <= S < 256 /\ (forall q, u16 q -> 0 <= f q < 256) /\ ps_decimal P = false /\
  bytes_from f L prog /\ workspace ram t L prog /\ Forall (good_stmt ram t L prog (length procs)) (main :: procs).
