(** Properties C52, C56, C57 (CHIP-8 part) and C60: running CHIP-8 programs. *)
From Verif Require Import Base Arith ModelMap ModelU12 ModelDisplay ModelStep ModelChip8 ModelOpsChip8 ModelRunChip8.
From Verif Require Import SpecMap Link6502 SpecChip8 SpecChip8Parts SpecChip8Run ProofDecode8 ProofChip8 ProofChip8Step
  ProofChip8Parts ProofChip8Reach ProofChip8Run.

(** ** C52 *)
(** [run n] executes exactly [n] instructions. The machine it returns agrees
    with the one that executed them in everything but the times at which the
    timers were set (microcode is executed twice, at different times). *)
Theorem C52_run_executes : forall e p c n w s w', run e p c n w = Ok (s, w') ->
  exists c' it, s = Ready c' /\ instructions e p n c w it w' /\ same_but_times c' it.
Proof.
  intros e p c n w s w' E. unfold run in E. pose proof (run_loop_cases e p n c (written_at (c8_dt c)) (written_at (c8_st c)) w) as K.
  rewrite retimed_self in K. destruct (run_loop e p n c c w) as [[c' w1]|]; cbn [bind] in E; [|discriminate].
  destruct K as (it & a1 & a2 & H1 & ->). exists (retimed it a1 a2), it.
  assert (w1 = w') by congruence. subst. split; [unfold ss_from, ss_new in E; congruence|]. split; [exact H1|].
  intros q Q1 Q2. apply retimed_observe; assumption.
Qed.

(** If it panics, one of these instructions panics. *)
Theorem C52_run_panics : forall e p c n w, run e p c n w = Panic ->
  exists k it w', (k < n)%nat /\ instructions e p k c w it w' /\ step e p it w' = Panic.
Proof.
  intros e p c n w E. unfold run in E. pose proof (run_loop_cases e p n c (written_at (c8_dt c)) (written_at (c8_st c)) w) as K.
  rewrite retimed_self in K. destruct (run_loop e p n c c w) as [[c' w1]|]; cbn [bind] in E; [discriminate|exact K].
Qed.

(** Replaying the microcode the iterator emitted for [n] instructions, at any
    time, on the machine they started from, leads to the same machine (but
    for the times at which timers were set). *)
Theorem C52_replay : forall e p n c w mcs c' w' wb, iterate e p n c w = Ok (mcs, c', w') ->
  length mcs = n /\
  exists c'' wb', execute_all e p (concat mcs) (c, wb) = Ok (c'', wb') /\ same_but_times c'' c'.
Proof.
  intros e p n c w mcs c' w' wb E. split.
  - revert c w mcs c' w' E. induction n as [|n IH]; intros c w mcs c' w' E; cbn [iterate] in E.
    + assert (mcs = []) as -> by congruence. reflexivity.
    + destruct (next e p c w) as [[[m c1] w1]|]; cbn [bind] in E; [|discriminate].
      destruct (iterate e p n c1 w1) as [[[rest c2] w2]|] eqn:E2; cbn [bind] in E; [|discriminate].
      assert (mcs = m :: rest) as -> by congruence. cbn [length]. f_equal. exact (IH c1 w1 rest c2 w2 E2).
  - cut (forall t1 t2, exists a1 a2 wb', execute_all e p (concat mcs) (retimed c t1 t2, wb) = Ok (retimed c' a1 a2, wb')).
    { intros K. destruct (K (written_at (c8_dt c)) (written_at (c8_st c))) as (a1 & a2 & wb' & X). rewrite retimed_self in X.
      exists (retimed c' a1 a2), wb'. split; [exact X|]. intros q Q1 Q2. apply retimed_observe; assumption. }
    revert c w mcs c' w' wb E. induction n as [|n IH]; intros c w mcs c' w' wb E t1 t2; cbn [iterate] in E.
    + assert (mcs = []) as -> by congruence. assert (c' = c) as -> by congruence. exists t1, t2, wb. reflexivity.
    + destruct (next e p c w) as [[[m c1] w1]|] eqn:N; cbn [bind] in E; [|discriminate].
      destruct (iterate e p n c1 w1) as [[[rest c2] w2]|] eqn:E2; cbn [bind] in E; [|discriminate].
      assert (mcs = m :: rest) as -> by congruence. assert (c2 = c') as -> by congruence. cbn [concat].
      destruct (next_inv _ _ _ _ _ _ _ N) as (op & g & w3 & _ & _ & X).
      destruct (replay_all e p m (next_replayable _ _ _ _ _ _ _ N) c w3 c1 w1 X t1 t2 wb) as (a1 & a2 & t & _ & X2).
      destruct (IH c1 w1 rest c' w2 (mkWorld t (w_random wb)) E2 a1 a2) as (b1 & b2 & wb' & X3).
      exists b1, b2, wb'. unfold execute_all in *. rewrite foldM_app, X2. cbn [bind]. exact X3.
Qed.

(** Budgets compose when no timer is set in the first part... *)
Theorem C52_compose_partial : forall e p c w h c1 w1 m, well_formed c -> env_ok e ->
  executes e p c w h c1 w1 -> Forall (fun aw => sets_timer (snd aw) = false) h ->
  run e p c (length h) w = Ok (Ready c1, w1) /\
  run e p c (length h + m) w = run e p c1 m w1.
Proof.
  intros e p c w h c1 w1 m W He X F. unfold run. split.
  - pose proof (run_loop_untimed e p c w h c1 w1 He W X F 0) as K. rewrite Nat.add_0_r in K. rewrite K. reflexivity.
  - rewrite (run_loop_untimed e p c w h c1 w1 He W X F m). reflexivity.
Qed.

(** ... or when the clock stands still. *)
Theorem C52_compose_frozen_partial : forall e p c w n m, frozen e ->
  alike (run e p c (n + m) w)
        (do! ' (s, w1) <- run e p c n w ; run e p (ss_unwrap s) m w1).
Proof.
  intros e p c w n m Hz. unfold run.
  pose proof (run_loop_frozen e p Hz (n + m) c w w eq_refl) as A. rewrite iterate_app in A.
  pose proof (run_loop_frozen e p Hz n c w w eq_refl) as B.
  destruct (iterate e p n c w) as [[[ms c1] w1]|]; cbn [bind] in *.
  - unfold alike in B. destruct (run_loop e p n c c w) as [[c1' w1']|]; [|contradiction]. destruct B as [-> B]. cbn [bind].
    unfold ss_from, ss_new, ss_unwrap.
    pose proof (run_loop_frozen e p Hz m c1 w1' w1 B) as D.
    destruct (iterate e p m c1 w1) as [[[ms2 c2] w2]|]; cbn [bind] in *.
    + unfold alike in A, D. destruct (run_loop e p (n + m) c c w) as [[a ?]|]; [|contradiction].
      destruct (run_loop e p m c1 c1 w1') as [[b ?]|]; [|contradiction]. destruct A as [-> A], D as [-> D]. split; [reflexivity|congruence].
    + unfold alike in A, D. destruct (run_loop e p (n + m) c c w) as [[a ?]|]; [contradiction|].
      destruct (run_loop e p m c1 c1 w1') as [[b ?]|]; [contradiction|]. exact I.
  - unfold alike in A, B. destruct (run_loop e p (n + m) c c w) as [[a ?]|]; [contradiction|].
    destruct (run_loop e p n c c w) as [[b ?]|]; [contradiction|]. exact I.
Qed.

(** With a moving clock they do not: V0 = 10; Fx15 sets the delay timer and
    Fx07 reads it, one second passing at every look at the clock. *)
Definition ticking : environment := mkEnv (fun k => 1000000000 * Z.of_nat k) (fun _ => 0).
Definition timer_demo : chip8 := demo [0xF0; 0x15; 0xF1; 0x07] [(V0, 10)] 0 None.
Definition register_after (r : res (step_state chip8 * world)) (x : Z) : Z :=
  match r with Ok (s, _) => observe (ss_unwrap s) (PV x) | Panic => -1 end.

Lemma alike_register a b x : alike a b -> register_after a x = register_after b x.
Proof. unfold alike, register_after. destruct a as [[s1 u1]|], b as [[s2 u2]|]; [intros [-> _]; reflexivity|contradiction|contradiction|reflexivity]. Qed.

Theorem C52_compose_refuted :
  ~ (forall e p c w n m, well_formed c -> env_ok e -> (forall i, env_time e i <= env_time e (S i)) ->
     run e p c (n + m) w = (do! ' (s, w1) <- run e p c n w ; run e p (ss_unwrap s) m w1)).
Proof.
  intros T. specialize (T ticking Debug timer_demo (mkWorld 2 0) 1%nat 1%nat).
  assert (W : well_formed timer_demo) by (apply demo_wf; vm_compute; reflexivity).
  specialize (T W ltac:(intros k; cbn; unfold u8; lia) ltac:(intros i; unfold ticking; cbn [env_time]; lia)).
  apply (f_equal (fun r => register_after r 1)) in T. vm_compute in T. discriminate.
Qed.

(** A generator that keeps its state inside the machine starts over at every
    [run], so budgets do not compose for programs drawing random numbers,
    even with a frozen clock. *)
Definition counting : environment := mkEnv (fun _ => 0) (fun k => Z.of_nat k mod 256).
Theorem C52_own_generator_refuted :
  ~ (forall e p c w n m, well_formed c -> env_ok e -> frozen e ->
     alike (run_own_generator e p c (n + m) w)
           (do! ' (s, w1) <- run_own_generator e p c n w ; run_own_generator e p (ss_unwrap s) m w1)).
Proof.
  intros T. specialize (T counting Debug (demo [0xC0; 0xFF; 0xC1; 0xFF] [] 0 None) w0 1%nat 1%nat).
  specialize (T ltac:(apply demo_wf; vm_compute; reflexivity) ltac:(intros k; apply u8_mod) ltac:(intros i j; reflexivity)).
  apply (alike_register _ _ 1) in T. vm_compute in T. discriminate.
Qed.

Lemma executes_draws e p c w h c' w' : env_ok e -> well_formed c -> executes e p c w h c' w' ->
  Forall (fun aw => draws (snd aw) = false) h -> w_random w' = w_random w.
Proof.
  intros He W X. revert W. induction X as [c w|c w word c1 w1 h c2 w2 [_ Hf] E X IH]; intros W F; [reflexivity|].
  apply Forall_cons_iff in F as [F1 F2]. cbn [snd] in F1. rewrite (IH (step_wf e p c w c1 w1 W He E) F2).
  destruct (step_ok_inv e p c w c1 w1 W He E) as (op & f & Hop & [_ Hf'] & Ee & _).
  assert (word = encode op) as -> by congruence. rewrite (draw_word op Hop) in F1.
  destruct op; try discriminate F1; cbn [effect] in Ee; unfold needs, done, tick in Ee;
    repeat match type of Ee with (if ?b then _ else _) = _ => destruct b; try discriminate end; try discriminate;
    match type of Ee with Some (_, ?a) = Some (_, ?b) => assert (b = a) as -> by congruence; reflexivity end.
Qed.
Theorem C52_own_generator_partial : forall e p c w h c1 w1 m, well_formed c -> env_ok e ->
  executes e p c w h c1 w1 -> Forall (fun aw => sets_timer (snd aw) = false /\ draws (snd aw) = false) h ->
  run_own_generator e p c (length h + m) w = run_own_generator e p c1 m w1.
Proof.
  intros e p c w h c1 w1 m W He X F. unfold run_own_generator.
  assert (F1 : Forall (fun aw => sets_timer (snd aw) = false) h) by (eapply Forall_impl; [|exact F]; intros ? H; apply H).
  assert (F2 : Forall (fun aw => draws (snd aw) = false) h) by (eapply Forall_impl; [|exact F]; intros ? H; apply H).
  rewrite (proj2 (C52_compose_partial e p c w h c1 w1 m W He X F1)), (executes_draws e p c w h c1 w1 He W X F2). reflexivity.
Qed.

(** ** C56 *)
(** A successful step executes an instruction of the table and changes only
    what that instruction may change. *)
Theorem C56_confined : forall e p c w c' w', well_formed c -> env_ok e -> step e p c w = Ok (c', w') ->
  exists op, operands_ok op /\ fetches p c (encode op) /\
    forall q, may_change (observe c) op q = false -> observe c' q = observe c q.
Proof.
  intros e p c w c' w' W He E. destruct (step_ok_inv e p c w c' w' W He E) as (op & f & Hop & Hf & Ee & _ & L).
  exists op. split; [exact Hop|]. split; [exact Hf|]. intros q Hq. rewrite L. clear L E Hf.
  assert (B : forall r, 0 <= gp_index r < 16) by (intros []; cbn; lia).
  destruct op; cbn [effect] in Ee; unfold needs, done in Ee;
    repeat match type of Ee with (if ?b then _ else _) = _ => destruct b eqn:?; try discriminate end; try discriminate;
    match type of Ee with Some (?g, ?a) = Some (_, ?b) => assert (f = g) as -> by congruence end;
    destruct q; cbn [may_change] in Hq; try discriminate Hq; unfold advance, upd; cbn [part_eqb];
    rewrite ?(Z.eqb_sym (gp_index _)), ?Hq; try reflexivity.
  all: repeat match goal with |- context [?a =? ?b] => destruct (Z.eqb_spec a b) end; try reflexivity; lia.
Qed.

(** Registers keep their width and the memory layout never changes. *)
Theorem C56_widths : forall e p c w c' w', well_formed c -> env_ok e -> step e p c w = Ok (c', w') ->
  0 <= observe c' PSP < 16 /\ u16 (observe c' PPC) /\ u16 (observe c' PI) /\
  (forall x, 0 <= x < 15 -> u8 (observe c' (PV x))) /\ (forall k, 0 <= k < 16 -> u16 (observe c' (PStack k))) /\
  (forall a, u8 (observe c' (PMem a))) /\ layout (c8_space c') = layout (c8_space c).
Proof.
  intros e p c w c' w' W He E. pose proof (step_wf e p c w c' w' W He E) as W'.
  split; [exact (wf_sp c' W')|]. split; [exact (wf_pc c' W')|]. split; [exact (wf_i c' W')|].
  split; [intros x; apply observe_v_u8, W'|]. split; [intros k; apply observe_stack_u16, W'|].
  split; [intros a; apply observe_mem_u8, W'|exact (step_layout e p c w c' w' E)].
Qed.

Lemma wf_retimed c t1 t2 : well_formed c -> well_formed (retimed c t1 t2).
Proof. intros W. destruct W; constructor; cbn; assumption. Qed.
Lemma instructions_wf e p n c w c' w' : env_ok e -> instructions e p n c w c' w' -> well_formed c -> well_formed c'.
Proof. intros He X. induction X as [|n c w c1 w1 t c2 w2 E Ht X IH]; intros W; [exact W|]. exact (IH (step_wf e p c w c1 w1 W He E)). Qed.
Lemma run_wf e p c n w c' w' : env_ok e -> well_formed c -> run e p c n w = Ok (ss_from c', w') -> well_formed c'.
Proof.
  intros He W E. unfold run in E. pose proof (run_loop_cases e p n c (written_at (c8_dt c)) (written_at (c8_st c)) w) as K.
  rewrite retimed_self in K. destruct (run_loop e p n c c w) as [[c1 w1]|]; cbn [bind] in E; [|discriminate].
  destruct K as (it & a1 & a2 & H1 & ->). unfold ss_from, ss_new in E.
  assert (c' = retimed it a1 a2) as -> by congruence. apply wf_retimed. exact (instructions_wf e p n c w it w1 He H1 W).
Qed.

(** All this holds of every machine the crate can build. *)
Theorem C56_reachable : forall e p c, env_ok e -> reachable e p c -> well_formed c.
Proof.
  intros e p c He R.
  induction R as [w c w' E|c R IH|c k R IH|c f R IH Hf|c v R IH Hv|c v R IH Hv|c v R IH Hv|c t a v R IH Hv|c r v c' R IH Hv E
                 |c w mc c' w' R IH Hm E|c w c' w' R IH E|c n w c' w' R IH E].
  - exact (default_wf e p w c w' E).
  - destruct IH; constructor; assumption.
  - destruct IH; constructor; assumption.
  - destruct IH; constructor; cbn; try assumption. apply Hf. assumption.
  - destruct IH; constructor; cbn; assumption.
  - destruct IH; constructor; cbn; assumption.
  - destruct IH; constructor; cbn; try assumption. unfold sp_with_value, value_to_sp. lia.
  - destruct t; destruct IH; constructor; cbn; assumption.
  - assert (F : Forall (fun rb => u8 (snd rb)) [(r, v)]) by (constructor; [exact Hv|constructor]).
    apply (regs_wf [(r, v)] F c c' IH). cbn [foldM]. rewrite E. reflexivity.
  - exact (proj1 (execute_wf e p c w mc c' w' IH Hm E)).
  - exact (step_wf e p c w c' w' IH He E).
  - exact (run_wf e p c n w c' w' He IH E).
Qed.

(** ** C57 (CHIP-8 part) *)
Theorem C57_chip8_builders : forall c v k t b,
  looks (with_pc_register c v) (upd (observe c) PPC v) /\
  looks (with_i_register c v) (upd (observe c) PI v) /\
  looks (with_sp_register c v) (upd (observe c) PSP v) /\
  looks (with_interrupt c k) (upd (observe c) PKey (key_number k)) /\
  looks (with_timer_register c Delay (mkClock t b)) (upd (upd (observe c) PDelay b) PDelayAt t) /\
  looks (with_timer_register c Sound (mkClock t b)) (upd (upd (observe c) PSound b) PSoundAt t) /\
  looks (with_rng c) (observe c).
Proof. intros c v k t b. repeat split; intros []; reflexivity. Qed.

(** [with_display] also forgets the pressed key. *)
Theorem C57_with_display_exact : forall c f,
  looks (with_display c f)
    (fun q => match q with PPixel x y => if lit (f (c8_display c)) x y then 1 else 0 | PKey => -1 | _ => observe c q end).
Proof. intros c f []; reflexivity. Qed.
Theorem C57_with_display_partial : forall c f, observe c PKey = -1 ->
  looks (with_display c f)
    (fun q => match q with PPixel x y => if lit (f (c8_display c)) x y then 1 else 0 | _ => observe c q end).
Proof. intros c f H q. destruct q; try reflexivity. rewrite H. reflexivity. Qed.
Theorem C57_with_display_refuted : exists c f, well_formed c /\ keeps_size f /\
  observe (with_display c f) PKey <> observe c PKey.
Proof.
  exists (demo [] [] 0 (Some (InterruptKeyPress Key7))), (fun d => d).
  split; [apply demo_wf; vm_compute; reflexivity|]. split; [intros d H; exact H|]. vm_compute. discriminate.
Qed.

(** ** C60 *)
Definition idle (c : chip8) : Prop :=
  well_formed c /\ (forall a, observe c (PMem a) = 0) /\ observe c PPC mod 2 = 0.

Lemma idle_step e p c w : env_ok e -> idle c ->
  exists c', step e p c w = Ok (c', w) /\ fetches p c 0 /\ idle c' /\ looks c' (advance (observe c) 2).
Proof.
  intros He (W & M & P). pose proof (wf_pc c W) as Hp. unfold u16 in Hp. change (c8_pc c) with (observe c PPC) in Hp.
  assert (Hf : fetches p c (encode (Sys 0))).
  { split; [right; lia|]. rewrite !M. reflexivity. }
  destruct (step_effect e p c w W He (Sys 0) ltac:(cbn; lia) Hf) as (c' & E & W' & L).
  exists c'. split; [exact E|]. split; [exact Hf|]. split; [|exact L]. split; [exact W'|]. split.
  - intros a. rewrite L. unfold advance, upd. cbn [part_eqb]. apply M.
  - rewrite L. unfold advance, upd. cbn [part_eqb]. lia.
Qed.
Lemma idle_run e p : env_ok e -> forall n c w, idle c ->
  exists h c', length h = n /\ executes e p c w h c' w /\ Forall (fun aw => sets_timer (snd aw) = false) h /\ idle c' /\
    looks c' (upd (observe c) PPC ((observe c PPC + 2 * Z.of_nat n) mod 65536)).
Proof.
  intros He. induction n as [|n IH]; intros c w I.
  - exists [], c. split; [reflexivity|]. split; [constructor|]. split; [constructor|]. split; [exact I|].
    intros q. destruct I as (W & _ & _). pose proof (wf_pc c W) as Hp. unfold u16 in Hp. change (c8_pc c) with (observe c PPC) in Hp.
    unfold upd. destruct (part_eqb PPC q) eqn:Eq; [|reflexivity]. apply part_eqb_eq in Eq as <-. lia.
  - destruct (idle_step e p c w He I) as (c1 & E & Hf & I1 & L1). destruct (IH c1 w I1) as (h & c' & Hh & X & F & I' & L').
    exists ((observe c PPC, 0) :: h), c'. split; [cbn [length]; lia|]. split; [exact (executes_cons e p c w 0 c1 w h c' w Hf E X)|].
    split; [constructor; [reflexivity|exact F]|]. split; [exact I'|]. intros q. rewrite L'. unfold upd.
    destruct (part_eqb PPC q) eqn:Eq.
    + rewrite L1. unfold advance, upd. cbn [part_eqb]. lia.
    + rewrite L1. unfold advance, upd. rewrite Eq. reflexivity.
Qed.
Lemma executes_det e p c w h c1 w1 : executes e p c w h c1 w1 -> forall mcs c2 w2,
  iterate e p (length h) c w = Ok (mcs, c2, w2) -> c2 = c1.
Proof.
  induction 1 as [c w|c w word c1 w1 h c' w' Hf E X IH]; intros mcs c2 w2 Ei; cbn [length iterate] in Ei.
  - congruence.
  - destruct (next_step e p c w c1 w1 E) as (m & N). rewrite N in Ei. cbn [bind] in Ei.
    destruct (iterate e p (length h) c1 w1) as [[[rest c3] w3]|] eqn:E2; cbn [bind] in Ei; [|discriminate].
    rewrite <- (IH rest c3 w3 eq_refl). congruence.
Qed.
Lemma public_idle e p c : env_ok e -> public e p c -> idle c.
Proof.
  intros He R. induction R as [w c w' E|c R IH|c k R IH|c f R IH Hf|c n w c' w' R IH E|c n w mcs c' w' R IH E].
  - split; [exact (default_wf e p w c w' E)|]. split; intros; rewrite (default_looks e p w c w' E); reflexivity.
  - destruct IH as (W & M & P). split; [destruct W; constructor; assumption|]. split; [exact M|exact P].
  - destruct IH as (W & M & P). split; [destruct W; constructor; assumption|]. split; [exact M|exact P].
  - destruct IH as (W & M & P). split; [destruct W; constructor; cbn; try assumption; apply Hf; assumption|]. split; [exact M|exact P].
  - destruct (idle_run e p He n c w IH) as (h & c1 & Hh & X & F & I1 & L1). destruct IH as (W & _).
    pose proof (run_loop_untimed e p c w h c1 w He W X F 0) as K. rewrite Nat.add_0_r, Hh in K.
    unfold run in E. rewrite K in E. cbn [run_loop bind] in E. unfold ss_from, ss_new in E.
    assert (c' = c1) as -> by congruence. exact I1.
  - destruct (idle_run e p He n c w IH) as (h & c1 & Hh & X & F & I1 & L1). rewrite <- Hh in E.
    rewrite (executes_det e p c w h c1 w X mcs c' w' E). exact I1.
Qed.

(** A machine made with the public interface never panics; [run n] moves its
    program counter by [2 n] and changes nothing else: there is no way to
    load a program. *)
Theorem C60_public_machines_idle : forall e p c n w, env_ok e -> public e p c ->
  exists c', run e p c n w = Ok (Ready c', w) /\
    looks c' (upd (observe c) PPC ((observe c PPC + 2 * Z.of_nat n) mod 65536)).
Proof.
  intros e p c n w He R. pose proof (public_idle e p c He R) as I.
  destruct (idle_run e p He n c w I) as (h & c1 & Hh & X & F & I1 & L1). destruct I as (W & _).
  exists c1. split; [|exact L1]. rewrite <- Hh. exact (proj1 (C52_compose_partial e p c w h c1 w 0 W He X F)).
Qed.
(** A machine from [reset] or [default]: everything is zero but the program
    counter, no key is pressed, and the timers were set just now. *)
Theorem C60_new_machine : forall e p w make, make = chip8_reset \/ make = chip8_default ->
  exists c, make e p w = Ok (c, mkWorld (2 + w_time w) (w_random w)) /\ public e p c /\
    looks c (fun q => match q with
      | PPC => 0x200 | PKey => -1 | PDelayAt => env_time e (w_time w) | PSoundAt => env_time e (S (w_time w))
      | _ => 0 end).
Proof.
  intros e p w make H. assert (E : make = chip8_default) by (destruct H; assumption). subst make.
  eexists. split; [apply default_eq|]. split.
  - eapply public_default. apply default_eq.
  - exact (default_looks e p w _ _ (default_eq e p w)).
Qed.
Theorem C60_memory_stays_zero : forall e p c a, env_ok e -> public e p c -> observe c (PMem a) = 0.
Proof. intros e p c a He R. destruct (public_idle e p c He R) as (_ & M & _). apply M. Qed.

(** ** Concrete cases *)
Example C60_case : exists c w', chip8_default env0 Debug w0 = Ok (c, w') /\
  public env0 Debug (with_interrupt c (Some (InterruptKeyPress KeyA))).
Proof. eexists. eexists. split; [rewrite default_eq; reflexivity|]. apply public_interrupt. eapply public_default. apply default_eq. Qed.

(** A program with arithmetic, a store and a jump, without timers. *)
Definition run_demo8 : chip8 := demo [0x60; 0x05; 0x70; 0x07; 0xF0; 0x55; 0x12; 0x00] [] 0x300 None.
Definition still (r : res (chip8 * world)) : bool :=
  match r with Ok (_, w') => (w_time w' =? 0)%nat && (w_random w' =? 0)%nat | Panic => false end.
Definition go (c : chip8) : chip8 := match step env0 Debug c w0 with Ok (c', _) => c' | Panic => c end.
Fixpoint after_n (n : nat) (c : chip8) : chip8 := match n with O => c | S n => after_n n (go c) end.
Fixpoint history_check (h : list (Z * Z)) (c : chip8) : bool :=
  match h with
  | [] => true
  | (a, word) :: h =>
      (observe c PPC =? a) && (a <? 65535) && (256 * observe c (PMem a) + observe c (PMem ((a + 1) mod 65536)) =? word) &&
      still (step env0 Debug c w0) && history_check h (go c)
  end.
Lemma still_step c : still (step env0 Debug c w0) = true -> step env0 Debug c w0 = Ok (go c, w0).
Proof.
  unfold go, still. destruct (step env0 Debug c w0) as [[c' [t r]]|]; [|discriminate]. cbn [w_time w_random].
  intros H. apply andb_prop in H as [H1 H2]. apply Nat.eqb_eq in H1 as ->. apply Nat.eqb_eq in H2 as ->. reflexivity.
Qed.
Lemma executes_after h : forall c, history_check h c = true -> executes env0 Debug c w0 h (after_n (length h) c) w0.
Proof.
  induction h as [|[a word] h IH]; intros c H; cbn [length after_n]; [constructor|].
  cbn [history_check] in H. apply andb_prop in H as [H H5]. apply andb_prop in H as [H H4]. apply andb_prop in H as [H H3].
  apply andb_prop in H as [H1 H2]. apply Z.eqb_eq in H1, H3. apply Z.ltb_lt in H2. subst a.
  apply (executes_cons env0 Debug c w0 word (go c) w0 h); [|exact (still_step c H4)|exact (IH (go c) H5)].
  split; [right; exact H2|symmetry; exact H3].
Qed.
Lemma res_ok {A} (r : res A) : match r with Ok _ => true | Panic => false end = true -> exists a, r = Ok a.
Proof. destruct r as [a|]; [exists a; reflexivity|discriminate]. Qed.
Lemma res_panic {A} (r : res A) : match r with Ok _ => true | Panic => false end = false -> r = Panic.
Proof. destruct r; [discriminate|reflexivity]. Qed.
Example C52_case : well_formed run_demo8 /\
  exists h c1 w1, length h = 6%nat /\ executes env0 Debug run_demo8 w0 h c1 w1 /\
    Forall (fun aw => sets_timer (snd aw) = false /\ draws (snd aw) = false) h.
Proof.
  split; [apply demo_wf; vm_compute; reflexivity|].
  exists [(0x200, 0x6005); (0x202, 0x7007); (0x204, 0xF055); (0x206, 0x1200); (0x200, 0x6005); (0x202, 0x7007)].
  exists (after_n 6 run_demo8), w0. split; [reflexivity|]. split; [|repeat constructor].
  apply executes_after. vm_compute. reflexivity.
Qed.

Example C52_run_case : exists r, run ticking Debug timer_demo 2 w0 = Ok r.
Proof. apply res_ok. vm_compute. reflexivity. Qed.
(** The instruction word 0xFFFF at 0x204 makes [run 3] panic. *)
Example C52_panic_case : run env0 Debug (demo [0x60; 0x05; 0x70; 0x07; 0xFF; 0xFF] [] 0 None) 3 w0 = Panic.
Proof. apply res_panic. vm_compute. reflexivity. Qed.
Example C56_case : exists c', step env0 Debug run_demo8 w0 = Ok (c', w0).
Proof. exists (go run_demo8). apply still_step. vm_compute. reflexivity. Qed.

Print Assumptions C52_run_executes.
Print Assumptions C52_run_panics.
Print Assumptions C52_replay.
Print Assumptions C52_compose_partial.
Print Assumptions C52_compose_frozen_partial.
Print Assumptions C52_compose_refuted.
Print Assumptions C52_own_generator_refuted.
Print Assumptions C52_own_generator_partial.
Print Assumptions C56_confined.
Print Assumptions C56_widths.
Print Assumptions C56_reachable.
Print Assumptions C57_chip8_builders.
Print Assumptions C57_with_display_exact.
Print Assumptions C57_with_display_partial.
Print Assumptions C57_with_display_refuted.
Print Assumptions C60_public_machines_idle.
Print Assumptions C60_new_machine.
Print Assumptions C60_memory_stays_zero.
