(** What a program of SpecProcedures.v writes, and in which order (C118, C119). *)
From Verif Require Import Base SpecLanguage SpecProcedures.

(** ** The assignments of a statement, first to last *)
Inductive tells (procs : list stmt) : Z -> stmt -> (Z -> Z) -> (Z -> Z) -> list (Z * Z) -> Prop :=
| tells_pass d s : tells procs d Pass s s []
| tells_put d v e s : depth e <= d -> tells procs d (Put v e) s (set s v (value s e)) [(v, value s e)]
| tells_item d a i e s : depth e <= d -> 1 + depth i <= d ->
    tells procs d (PutItem a i e) s (set s (a + value s i) (value s e)) [(a + value s i, value s e)]
| tells_next d c1 c2 s s1 s2 l1 l2 : tells procs d c1 s s1 l1 -> tells procs d c2 s1 s2 l2 -> tells procs d (Next c1 c2) s s2 (l1 ++ l2)
| tells_cond d e c1 c2 s s' l : depth e <= d -> tells procs d (if value s e =? 0 then c2 else c1) s s' l -> tells procs d (Cond e c1 c2) s s' l
| tells_stop d e c s : depth e <= d -> value s e = 0 -> tells procs d (Again e c) s s []
| tells_again d e c s s1 s2 l1 l2 : depth e <= d -> value s e <> 0 -> tells procs d c s s1 l1 -> tells procs d (Again e c) s1 s2 l2 ->
    tells procs d (Again e c) s s2 (l1 ++ l2)
| tells_perform d k body s s' l : nth_error procs k = Some body -> 2 <= d -> tells procs (d - 2) body s s' l -> tells procs d (Perform k) s s' l.

(** ** The assignments of a statement until some moment, whether it ends or not *)
Inductive so_far (procs : list stmt) : Z -> stmt -> (Z -> Z) -> list (Z * Z) -> Prop :=
| so_far_nothing d c s : so_far procs d c s []
| so_far_all d c s s' l : tells procs d c s s' l -> so_far procs d c s l
| so_far_first d c1 c2 s l : so_far procs d c1 s l -> so_far procs d (Next c1 c2) s l
| so_far_second d c1 c2 s s1 l1 l2 : tells procs d c1 s s1 l1 -> so_far procs d c2 s1 l2 -> so_far procs d (Next c1 c2) s (l1 ++ l2)
| so_far_cond d e c1 c2 s l : depth e <= d -> so_far procs d (if value s e =? 0 then c2 else c1) s l -> so_far procs d (Cond e c1 c2) s l
| so_far_now d e c s l : depth e <= d -> value s e <> 0 -> so_far procs d c s l -> so_far procs d (Again e c) s l
| so_far_later d e c s s1 l1 l2 : depth e <= d -> value s e <> 0 -> tells procs d c s s1 l1 -> so_far procs d (Again e c) s1 l2 ->
    so_far procs d (Again e c) s (l1 ++ l2)
| so_far_body d k body s l : nth_error procs k = Some body -> 2 <= d -> so_far procs (d - 2) body s l -> so_far procs d (Perform k) s l.

(** ** What is seen of it *)
(** Not a write to the scratch byte [t] or to the stack. *)
Definition visible (t : Z) (w : Z * Z) : bool := negb ((fst w =? t) || ((0x100 <=? fst w) && (fst w <? 0x200))).
(** Every write twice: [run] sends each to the device two times (C65). *)
Definition twice {A} (l : list A) : list A := flat_map (fun x => [x; x]) l.
(** [l] is the beginning of [l']. *)
Definition begins {A} (l l' : list A) : Prop := exists rest, l' = l ++ rest.
(** The memory after the writes [l]. *)
Definition written (s : Z -> Z) (l : list (Z * Z)) : Z -> Z := fold_left (fun g w => set g (fst w) (snd w)) l s.
