(** C82: a CHIP-8 run is determined by the machine and by the answers of the
    clock and of the random number generator that it received. *)
From Coq Require Import Lia.
From Verif Require Import Base Arith ModelMap ModelStep ModelDisplay ModelChip8 ModelOpsChip8 ModelRunChip8
  SpecMap SpecChip8 SpecChip8Parts SpecChip8Run ProofChip8Reach ProofChip8Run.
From Verif Require ModelRng PropertiesRng.

(** ** Specification *)
(** The two environments give the same answers to the questions asked between
    [w] and [w']; they may differ in all others. *)
Definition same_answers (e1 e2 : environment) (w w' : world) : Prop :=
  (forall k, (w_time w <= k < w_time w')%nat -> env_time e2 k = env_time e1 k) /\
  (forall k, (w_random w <= k < w_random w')%nat -> env_random e2 k = env_random e1 k).

(** The words that read the clock: Fx07 (to see how much of the delay is left),
    Fx15 and Fx18 (to note when the timer was set). *)
Definition reads_clock (word : Z) : bool :=
  (word / 0x1000 =? 0xF) && ((word mod 256 =? 0x07) || (word mod 256 =? 0x15) || (word mod 256 =? 0x18)).
Definition count (f : Z -> bool) (h : list (Z * Z)) : nat := length (filter (fun aw => f (snd aw)) h).

(** ** Proof *)
Definition later (w w' : world) : Prop := (w_time w <= w_time w' /\ w_random w <= w_random w')%nat.

Definition local {A} (f : environment -> world -> res (A * world)) : Prop :=
  forall e1 w a w', f e1 w = Ok (a, w') ->
    later w w' /\ forall e2, same_answers e1 e2 w w' -> f e2 w = Ok (a, w').

Lemma local_ret {A} (r : res A) : local (fun _ w => do! a <- r ; Ok (a, w)).
Proof.
  intros e1 w a w' E. destruct r as [x|]; cbn [bind] in *; [|discriminate].
  injection E as <- <-. split; [split; lia|]. reflexivity.
Qed.

Lemma local_ok {A} (a : A) : local (fun _ w => Ok (a, w)).
Proof. exact (local_ret (Ok a)). Qed.

Lemma local_bind {A B} (f : environment -> world -> res (A * world)) (g : A -> environment -> world -> res (B * world)) :
  local f -> (forall a, local (g a)) -> local (fun e w => do! ' (a, w') <- f e w ; g a e w').
Proof.
  intros Hf Hg e1 w b w' E. destruct (f e1 w) as [[a w1]|] eqn:Ef; cbn [bind] in E; [|discriminate].
  destruct (Hf _ _ _ _ Ef) as (L1 & F). destruct (Hg a _ _ _ _ E) as (L2 & G).
  unfold later in *. split; [lia|]. intros e2 (St & Sr).
  rewrite (F e2) by (split; intros k K; [apply St|apply Sr]; lia). cbn [bind].
  apply G. split; intros k K; [apply St|apply Sr]; lia.
Qed.

Lemma local_lift {A B} (r : res A) (g : A -> environment -> world -> res (B * world)) :
  (forall a, local (g a)) -> local (fun e w => do! a <- r ; g a e w).
Proof. intros Hg. destruct r as [a|]; [exact (Hg a)|]. intros e1 w b w' E. discriminate. Qed.

Lemma local_random {A} (f : Z -> A) : local (fun e w => Ok (f (env_random e (w_random w)), mkWorld (w_time w) (S (w_random w)))).
Proof.
  intros e1 w a w' E. injection E as <- <-. split; [split; cbn [w_time w_random]; lia|].
  intros e2 (_ & Sr). rewrite Sr by (cbn [w_random]; lia). reflexivity.
Qed.

Lemma local_time {A} (f : Z -> res A) : local (fun e w => do! a <- f (env_time e (w_time w)) ; Ok (a, mkWorld (S (w_time w)) (w_random w))).
Proof.
  intros e1 w a w' E. destruct (f (env_time e1 (w_time w))) as [x|] eqn:Ef; cbn [bind] in E; [|discriminate].
  injection E as <- <-. split; [split; cbn [w_time w_random]; lia|].
  intros e2 (St & _). rewrite St by (cbn [w_time]; lia). rewrite Ef. reflexivity.
Qed.

Lemma local_eq {A} (f g : environment -> world -> res (A * world)) : (forall e w, f e w = g e w) -> local g -> local f.
Proof.
  intros H L e1 w a w' E. rewrite H in E. destruct (L _ _ _ _ E) as (T & G).
  split; [exact T|]. intros e2 S2. rewrite H. apply G, S2.
Qed.

Lemma local_clock_read p c : local (fun e w => clock_read e p c w).
Proof.
  eapply local_eq; [|apply (local_time (fun t =>
    let s := Z.max 0 (t - written_at c) / 1000000000 in
    if s <? clock_inner c then if s <=? 0xff then sub_u8 p (clock_inner c) s else Panic else Ok 0))].
  intros e w. unfold clock_read, elapsed_secs, now. cbv zeta.
  destruct (_ <? _); [destruct (_ <=? _); reflexivity|reflexivity].
Qed.

Lemma local_written v {A} (f : clock_decrementing -> A) :
  local (fun e w => let '(t, w') := clock_with_value e v w in Ok (f t, w')).
Proof. exact (local_time (fun t => Ok (f (mkClock t v)))). Qed.

Lemma local_exec p mc c : local (fun e w => execute_mut e p (c, w) mc).
Proof.
  destruct mc; cbn [execute_mut]; try apply local_ok; try apply local_ret.
  - unfold exec_write8. destruct r as [g|[]]; [|apply local_written..].
    apply local_lift; intros gp. apply local_ok.
  - unfold exec_inc8. destruct r as [g|[]].
    + apply local_lift; intros x. apply local_lift; intros y. apply local_ok.
    + apply local_bind; [apply local_clock_read|]. intros x. apply local_written.
    + apply local_bind; [apply local_clock_read|]. intros x. apply local_written.
  - destruct coord as [x y]. apply local_lift. intros [d o]. apply local_ok.
Qed.

Lemma local_exec_all p mcs : forall c, local (fun e w => execute_all e p mcs (c, w)).
Proof.
  induction mcs as [|mc mcs IH]; intros c; [apply local_ok|].
  eapply local_eq; [|apply (local_bind _ _ (local_exec p mc c) IH)].
  intros e w. unfold execute_all. cbn [foldM].
  destruct (execute_mut e p (c, w) mc) as [[c' w']|]; reflexivity.
Qed.

Lemma local_generate p op c : local (fun e w => generate e p op c w).
Proof.
  destruct op; cbn [generate]; try apply local_ok; try apply local_ret.
  - unfold gen_ld_from_delay. apply local_bind; [apply local_clock_read|]. intros a. apply local_ok.
  - unfold gen_rnd, random. exact (local_random (fun rand => [write_gp r (Z.land rand value)])).
Qed.

Lemma local_next p c : local (fun e w => next e p c w).
Proof.
  unfold next. repeat (apply local_lift; intros ?).
  apply local_bind; [apply local_generate|]. intros mcs.
  apply local_bind; [apply local_exec_all|]. intros c'. apply local_ok.
Qed.

Lemma local_run_loop p n : forall it c, local (fun e w => run_loop e p n it c w).
Proof.
  induction n as [|n IH]; intros it c; [apply local_ok|]. cbn [run_loop].
  eapply local_eq; [|apply (local_bind _ (fun '(mcs, it') e w => do! ' (c', w) <- execute_all e p mcs (c, w) ;
    run_loop e p n it' c' w) (local_next p it))].
  - intros e w. cbv beta. destruct (next e p it w) as [[[mcs it'] w']|]; reflexivity.
  - intros [mcs it']. apply local_bind; [apply local_exec_all|]. intros c'. apply IH.
Qed.

Lemma local_run p c n : local (fun e w => run e p c n w).
Proof. unfold run. apply local_bind; [apply local_run_loop|]. intros s. apply local_ok. Qed.

Lemma local_iterate p n : forall c, local (fun e w => iterate e p n c w).
Proof.
  induction n as [|n IH]; intros c; [apply local_ok|]. cbn [iterate].
  eapply local_eq; [|apply (local_bind _ (fun '(mcs, c') e w => do! ' (rest, c'', w) <- iterate e p n c' w ;
    Ok (mcs :: rest, c'', w)) (local_next p c))].
  - intros e w. cbv beta. destruct (next e p c w) as [[[mcs c'] w']|]; reflexivity.
  - intros [mcs c']. eapply local_eq; [|apply (local_bind _ (fun '(rest, c'') e w => Ok (mcs :: rest, c'', w)) (IH c'))].
    + intros e w. cbv beta. destruct (iterate e p n c' w) as [[[rest c''] w']|]; reflexivity.
    + intros [rest c'']. apply local_ok.
Qed.

(** ** C82 *)
(** A run can be replayed from a recording of the clock readings and random
    bytes it received. Nothing else of the outside world has any influence. *)
Theorem C82_run_replay : forall e1 e2 p c n w r w',
  run e1 p c n w = Ok (r, w') -> same_answers e1 e2 w w' -> run e2 p c n w = Ok (r, w').
Proof. intros e1 e2 p c n w r w' E S2. exact (proj2 (local_run p c n e1 w r w' E) e2 S2). Qed.

Theorem C82_iterate_replay : forall e1 e2 p c n w r w',
  iterate e1 p n c w = Ok (r, w') -> same_answers e1 e2 w w' -> iterate e2 p n c w = Ok (r, w').
Proof. intros e1 e2 p c n w r w' E S2. exact (proj2 (local_iterate p n c e1 w r w' E) e2 S2). Qed.

(** The same for panics: with the same answers from [w] on, the outcomes are
    the same, panic or not. *)
Theorem C82_run_determined : forall e1 e2 p c n w,
  (forall k, (w_time w <= k)%nat -> env_time e2 k = env_time e1 k) ->
  (forall k, (w_random w <= k)%nat -> env_random e2 k = env_random e1 k) ->
  run e2 p c n w = run e1 p c n w.
Proof.
  intros e1 e2 p c n w Ht Hr. destruct (run e1 p c n w) as [[r w']|] eqn:E1.
  - apply (C82_run_replay e1 e2 _ _ _ _ _ _ E1). split; intros k K; [apply Ht|apply Hr]; lia.
  - destruct (run e2 p c n w) as [[r w']|] eqn:E2; [|reflexivity].
    assert (S2 : same_answers e2 e1 w w') by (split; intros k K; symmetry; [apply Ht|apply Hr]; lia).
    rewrite (C82_run_replay e2 e1 _ _ _ _ _ _ E2 S2) in E1. discriminate.
Qed.

(** Buffering the random number generator changes nothing: a run that got its
    random bytes through the buffered generator, under any interleaving of its
    thread and for any buffer size, is the run with the wrapped generator. *)
Theorem C82_buffering_invisible : forall g bound sched s time t0 p c n r t' k',
  PropertiesRng.interleaving g bound sched s -> (k' <= length (ModelRng.returned s))%nat ->
  run (mkEnv time (fun k => nth k (ModelRng.returned s) 0)) p c n (mkWorld t0 0) = Ok (r, mkWorld t' k') ->
  run (mkEnv time (fun k => match g k with Ok b => b | Panic => 0 end)) p c n (mkWorld t0 0)
  = Ok (r, mkWorld t' k').
Proof.
  intros g bound sched s time t0 p c n r t' k' I L E.
  apply (C82_run_replay _ _ _ _ _ _ _ _ E). split; intros k K; cbn [env_time env_random w_random] in *; [reflexivity|].
  rewrite (PropertiesRng.C55_in_order g bound sched s I k) by lia. reflexivity.
Qed.

(** The other direction, and with it independence of the schedule: what a run
    does with the wrapped generator it does with the buffered one. *)
Theorem C82_buffered_run : forall g bound sched s time t0 p c n r t' k',
  PropertiesRng.interleaving g bound sched s -> (k' <= length (ModelRng.returned s))%nat ->
  run (mkEnv time (fun k => match g k with Ok b => b | Panic => 0 end)) p c n (mkWorld t0 0)
    = Ok (r, mkWorld t' k') ->
  run (mkEnv time (fun k => nth k (ModelRng.returned s) 0)) p c n (mkWorld t0 0) = Ok (r, mkWorld t' k').
Proof.
  intros g bound sched s time t0 p c n r t' k' I L E.
  apply (C82_run_replay _ _ _ _ _ _ _ _ E). split; intros k K; cbn [env_time env_random w_random] in *; [reflexivity|].
  rewrite (PropertiesRng.C55_in_order g bound sched s I k) by lia. reflexivity.
Qed.

Lemma clock_word op : operands_ok op -> reads_clock (encode op) = match op with
  | LdSoundTimerDestTx _ | LdDelayTimerDestTx _ | LdDelayTimerSrcTx _ => true | _ => false end.
Proof.
  intros H. unfold reads_clock. assert (R : forall r, 0 <= gp_index r < 16) by (intros []; cbn; lia).
  destruct op; cbn [encode operands_ok] in *; unfold u8 in *;
    repeat match goal with r : gp_register |- _ => pose proof (R r); generalize dependent (gp_index r); clear r; intros end;
    rewrite ?Bool.andb_true_iff, ?Bool.andb_false_iff, ?Bool.orb_true_iff, ?Bool.orb_false_iff, ?Z.eqb_eq, ?Z.eqb_neq; lia.
Qed.

(** How many questions a program asks: one random byte for each Cxkk, one
    clock reading for each Fx07, Fx15 and Fx18, and none for anything else. *)
Theorem C82_questions : forall e p c w h c' w', env_ok e -> well_formed c -> executes e p c w h c' w' ->
  w_random w' = (w_random w + count draws h)%nat /\ w_time w' = (w_time w + count reads_clock h)%nat.
Proof.
  intros e p c w h c' w' He W X. revert W.
  induction X as [c w|c w word c1 w1 h c2 w2 [_ Hf] E X IH]; intros W; [unfold count; cbn; lia|].
  destruct (IH (step_wf e p c w c1 w1 W He E)) as (-> & ->). clear IH X.
  destruct (step_ok_inv e p c w c1 w1 W He E) as (op & f & Hop & [_ Hf'] & Ee & _).
  assert (word = encode op) as -> by congruence.
  unfold count. cbn [filter snd]. rewrite (draw_word op Hop), (clock_word op Hop).
  destruct op; cbn [effect] in Ee; unfold needs, done, tick in Ee;
    repeat match type of Ee with (if ?b then _ else _) = _ => destruct b; try discriminate end; try discriminate;
    match type of Ee with Some (_, ?a) = Some (_, ?b) => assert (b = a) as -> by congruence end;
    cbn [w_time w_random length]; lia.
Qed.

(** ** Cases *)
(** V0 and V1 get random bytes, V2 the delay timer. *)
Definition answers_demo : chip8 := demo [0xC0; 0xFF; 0xC1; 0x0F; 0xF2; 0x07] [] 0 None.
Definition recorded : environment :=
  mkEnv (fun k => match k with O => env_time env0 0 | _ => -5 end)
        (fun k => match k with O => env_random env0 0 | 1%nat => env_random env0 1 | _ => 7 end).

Example C82_replay_case : exists r w', run env0 Debug answers_demo 3 w0 = Ok (r, w') /\
  w' = mkWorld 1 2 /\ same_answers env0 recorded w0 w' /\
  observe (ss_unwrap r) (PV 0) = 37 /\ observe (ss_unwrap r) (PV 1) = 10.
Proof.
  destruct (run env0 Debug answers_demo 3 w0) as [[r w']|] eqn:E; [|vm_compute in E; discriminate].
  exists r, w'. split; [reflexivity|].
  assert (H : match run env0 Debug answers_demo 3 w0 with
    | Ok (r, w') => (w', observe (ss_unwrap r) (PV 0), observe (ss_unwrap r) (PV 1)) | Panic => (w0, 0, 0) end
    = (mkWorld 1 2, 37, 10)) by (vm_compute; reflexivity).
  rewrite E in H. assert (Hw : w' = mkWorld 1 2) by congruence. split; [exact Hw|]. subst w'.
  split; [|split; congruence].
  split; intros k K; cbn [w_time w_random w0] in K.
  - destruct k; [reflexivity|lia].
  - destruct k as [|[|k]]; [reflexivity|reflexivity|lia].
Qed.

Example C82_buffered_case : exists s r, PropertiesRng.interleaving PropertiesRng.count_up 2
    [ModelRng.Generate; ModelRng.Send; ModelRng.Call; ModelRng.Generate; ModelRng.Send; ModelRng.Receive;
     ModelRng.Call; ModelRng.Receive] s /\
  length (ModelRng.returned s) = 2%nat /\
  run (mkEnv (fun _ => 0) (fun k => nth k (ModelRng.returned s) 0)) Debug answers_demo 3 w0 = Ok (r, mkWorld 1 2).
Proof.
  exists (ModelRng.mkState 2 ModelRng.Calling [] ModelRng.Elsewhere [0; 1]).
  destruct (run (mkEnv (fun _ => 0) (fun k => nth k [0; 1] 0)) Debug answers_demo 3 w0) as [[r w']|] eqn:E;
    [|vm_compute in E; discriminate].
  exists r. split; [reflexivity|]. split; [reflexivity|]. cbn [ModelRng.returned].
  assert (H : match run (mkEnv (fun _ => 0) (fun k => nth k [0; 1] 0)) Debug answers_demo 3 w0 with
    | Ok (_, w') => w' | Panic => w0 end = mkWorld 1 2) by (vm_compute; reflexivity).
  rewrite E in H. rewrite E, H. reflexivity.
Qed.

Lemma executes_at e p c w a word c1 w1 h c2 w2 : observe c PPC = a -> fetches p c word ->
  step e p c w = Ok (c1, w1) -> executes e p c1 w1 h c2 w2 -> executes e p c w ((a, word) :: h) c2 w2.
Proof. intros <-. apply executes_cons. Qed.

Example C82_questions_case : exists c' w', executes env0 Debug answers_demo w0
    [(0x200, 0xC0FF); (0x202, 0xC10F); (0x204, 0xF207)] c' w' /\ well_formed answers_demo /\ w' = mkWorld 1 2.
Proof.
  destruct (step env0 Debug answers_demo w0) as [[c1 w1]|] eqn:E1; [|vm_compute in E1; discriminate].
  pose proof E1 as F1. vm_compute in F1.
  destruct (step env0 Debug c1 w1) as [[c2 w2]|] eqn:E2; [|injection F1 as <- <-; vm_compute in E2; discriminate].
  assert (F2 := E2). injection F1 as H1 H2. rewrite <- H1, <- H2 in F2. vm_compute in F2.
  destruct (step env0 Debug c2 w2) as [[c3 w3]|] eqn:E3; [|injection F2 as <- <-; vm_compute in E3; discriminate].
  assert (F3 := E3). injection F2 as H3 H4. rewrite <- H3, <- H4 in F3. vm_compute in F3. injection F3 as _ H5.
  exists c3, w3. split; [|split; [apply demo_wf; vm_compute; reflexivity|symmetry; exact H5]].
  apply (executes_at _ _ _ _ _ _ c1 w1); [vm_compute; reflexivity|(split; [right|]; vm_compute; reflexivity)|exact E1|].
  apply (executes_at _ _ _ _ _ _ c2 w2); [rewrite <- H1; vm_compute; reflexivity|rewrite <- H1; (split; [right|]; vm_compute; reflexivity)|exact E2|].
  apply (executes_at _ _ _ _ _ _ c3 w3); [rewrite <- H3; vm_compute; reflexivity|rewrite <- H3; (split; [right|]; vm_compute; reflexivity)|exact E3|].
  constructor.
Qed.

Print Assumptions C82_run_replay.
Print Assumptions C82_iterate_replay.
Print Assumptions C82_run_determined.
Print Assumptions C82_buffering_invisible.
Print Assumptions C82_buffered_run.
Print Assumptions C82_questions.
