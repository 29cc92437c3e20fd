(** Debug and release builds: the CHIP-8 machine. *)
From Verif Require Import ProofProfile.
From Verif Require Import Base ModelMap ModelU12 ModelDisplay ModelChip8 ModelOpsChip8 ModelRunChip8 SpecProfile.

Lemma al_mapM {A B} (f g : A -> res B) :
  (forall a, at_least (f a) (g a)) -> forall l, at_least (mapM f l) (mapM g l).
Proof.
  intros H l. induction l as [|a l IH]; cbn [mapM]; [apply al_refl|].
  apply al_bind; [apply H|]. intros b. apply al_bind; [exact IH|]. intros ?. apply al_refl.
Qed.

Lemma al_space m a : at_least (@am_read memory _ Debug m a) (am_read Release m a).
Proof. apply al_am_read, memory_independent. Qed.
Lemma al_space_write m a v : at_least (@am_write memory _ Debug m a v) (am_write Release m a v).
Proof. apply al_am_write, memory_independent. Qed.
#[export] Hint Resolve al_space al_space_write : builds.

Lemma al_clock_read e c w : at_least (clock_read e Debug c w) (clock_read e Release c w).
Proof. unfold clock_read. builds. Qed.
#[export] Hint Resolve al_clock_read : builds.

Lemma al_usize_add a b : at_least (add_usize Debug a b) (add_usize Release a b).
Proof. apply al_checked. Qed.
Lemma al_usize_sub a b : at_least (sub_usize Debug a b) (sub_usize Release a b).
Proof. apply al_checked. Qed.
Lemma al_usize_mul a b : at_least (mul_usize Debug a b) (mul_usize Release a b).
Proof. apply al_checked. Qed.
#[export] Hint Resolve al_usize_add al_usize_sub al_usize_mul : builds.

Lemma al_execute e cw mc : at_least (execute_mut e Debug cw mc) (execute_mut e Release cw mc).
Proof.
  destruct cw as [c w].
  destruct mc as [a v|r v|r v|r v|r v|r v|r v|v|v|k| |[x y] v|start stop v]; cbn [execute_mut];
    try apply al_refl; unfold exec_write_memory, exec_inc8, exec_set_range; builds.
Qed.

Lemma al_generate e op c w : at_least (generate e Debug op c w) (generate e Release op c w).
Proof.
  destruct op; cbn [generate]; cbv zeta; try apply al_refl;
    unfold gen_drw, gen_ld_bcd, gen_ld_sprite, gen_ld_from_delay, gen_read_registers, gen_store_registers;
    builds; try (apply al_mapM; intros ?; builds).
Qed.

Lemma al_next e c w : at_least (next e Debug c w) (next e Release c w).
Proof.
  unfold next, execute_all. cbv zeta.
  repeat first
    [ apply al_refl | apply al_space | apply al_add_u16 | apply al_generate | apply al_foldM, al_execute
    | match goal with
      | |- at_least (bind _ _) (bind _ _) => apply al_bind; [|intros ?; cbv zeta]
      | |- at_least (match ?x with _ => _ end) (match ?x with _ => _ end) => destruct x
      end ].
Qed.

Lemma al_run_loop e : forall n it c w, at_least (run_loop e Debug n it c w) (run_loop e Release n it c w).
Proof.
  induction n as [|n IH]; intros it c w; cbn [run_loop]; [apply al_refl|].
  apply al_bind; [apply al_next|]. intros [[mcs it'] w'].
  apply al_bind; [apply al_foldM, al_execute|]. intros [c' w'']. apply IH.
Qed.

Lemma al_run e c n w : at_least (run e Debug c n w) (run e Release c n w).
Proof. unfold run. apply al_bind; [apply al_run_loop|]. intros [st w']. apply al_refl. Qed.

Lemma al_iterate e : forall n c w, at_least (iterate e Debug n c w) (iterate e Release n c w).
Proof.
  induction n as [|n IH]; intros c w; cbn [iterate]; [apply al_refl|].
  apply al_bind; [apply al_next|]. intros [[mcs c'] w'].
  apply al_bind; [apply IH|]. intros [[rest c''] w'']. apply al_refl.
Qed.

Lemma al_default e w : at_least (chip8_default e Debug w) (chip8_default e Release w).
Proof. unfold chip8_default. builds. Qed.
