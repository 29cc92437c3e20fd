(** C91: a generator that keeps its state in itself delivers its sequence in
    order from instruction to instruction, and starts again with each [run]. *)
From Coq Require Import Lia.
From Verif Require Import Base Arith ModelMap ModelStep ModelDisplay ModelChip8 ModelOpsChip8 ModelRunChip8
  ModelOwnRng SpecMap SpecChip8 SpecChip8Parts SpecChip8Run ProofChip8Step ProofChip8Reach ProofChip8Run
  PropertiesAnswers8 ProofReference8.
From Verif Require PropertiesChip8Run.

(** ** Specification *)
Section Stream.
Context {G : Type} (draw : G -> Z * G).
(** The generator after [k] calls, and the byte that the next call returns. *)
Fixpoint after (k : nat) (g : G) : G := match k with O => g | S n => snd (draw (after n g)) end.
Definition byte_at (g : G) (k : nat) : Z := fst (draw (after k g)).
(** The outside world of a machine that takes its random bytes, one by one,
    from a generator which started as [g]. *)
Definition answering (time : nat -> Z) (g : G) : environment := mkEnv time (byte_at g).
End Stream.

(** ** Proof *)
(** Parts of the machine that take no random bytes. *)
Definition quiet {A} (f : environment -> world -> res (A * world)) : Prop :=
  forall time r r' t k k', f (mkEnv time r') (mkWorld t k') =
    do! ' (a, w) <- f (mkEnv time r) (mkWorld t k) ; Ok (a, mkWorld (w_time w) k').

Lemma quiet_ret {A} (r : res A) : quiet (fun _ w => do! a <- r ; Ok (a, w)).
Proof. intros time rr r' t k k'. destruct r; reflexivity. Qed.
Lemma quiet_ok {A} (a : A) : quiet (fun _ w => Ok (a, w)).
Proof. exact (quiet_ret (Ok a)). Qed.

Lemma quiet_keeps {A} (f : environment -> world -> res (A * world)) time r t k a w :
  quiet f -> f (mkEnv time r) (mkWorld t k) = Ok (a, w) -> w = mkWorld (w_time w) k.
Proof.
  intros Q E. pose proof (Q time r r t k k) as H. rewrite E in H. cbn [bind] in H. injection H as H. exact H.
Qed.

Lemma quiet_bind {A B} (f : environment -> world -> res (A * world)) (g : A -> environment -> world -> res (B * world)) :
  quiet f -> (forall a, quiet (g a)) -> quiet (fun e w => do! ' (a, w') <- f e w ; g a e w').
Proof.
  intros Hf Hg time r r' t k k'. cbv beta. rewrite (Hf time r r' t k k').
  destruct (f (mkEnv time r) (mkWorld t k)) as [[a w]|] eqn:E; cbn [bind]; [|reflexivity].
  rewrite (quiet_keeps f time r t k a w Hf E). apply (Hg a).
Qed.

Lemma quiet_lift {A B} (r : res A) (g : A -> environment -> world -> res (B * world)) :
  (forall a, quiet (g a)) -> quiet (fun e w => do! a <- r ; g a e w).
Proof. intros Hg. destruct r as [a|]; [exact (Hg a)|]. intros time r r' t k k'. reflexivity. Qed.

Lemma quiet_time {A} (f : Z -> res A) :
  quiet (fun e w => do! a <- f (env_time e (w_time w)) ; Ok (a, mkWorld (S (w_time w)) (w_random w))).
Proof.
  intros time r r' t k k'. cbn [env_time w_time w_random]. destruct (f (time t)); reflexivity.
Qed.

Lemma quiet_eq {A} (f g : environment -> world -> res (A * world)) : (forall e w, f e w = g e w) -> quiet g -> quiet f.
Proof. intros H Q time r r' t k k'. rewrite !H. apply Q. Qed.

Lemma quiet_clock_read p c : quiet (fun e w => clock_read e p c w).
Proof.
  eapply quiet_eq; [|apply (quiet_time (fun t =>
    let s := Z.max 0 (t - written_at c) / 1000000000 in
    if s <? clock_inner c then if s <=? 0xff then sub_u8 p (clock_inner c) s else Panic else Ok 0))].
  intros e w. unfold clock_read, elapsed_secs, now. cbv zeta.
  destruct (_ <? _); [destruct (_ <=? _); reflexivity|reflexivity].
Qed.

Lemma quiet_written v {A} (f : clock_decrementing -> A) :
  quiet (fun e w => let '(t, w') := clock_with_value e v w in Ok (f t, w')).
Proof. exact (quiet_time (fun t => Ok (f (mkClock t v)))). Qed.

Lemma quiet_exec p mc c : quiet (fun e w => execute_mut e p (c, w) mc).
Proof.
  destruct mc; cbn [execute_mut]; try apply quiet_ok; try apply quiet_ret.
  - unfold exec_write8. destruct r as [g|[]]; [|apply quiet_written..].
    apply quiet_lift; intros gp. apply quiet_ok.
  - unfold exec_inc8. destruct r as [g|[]].
    + apply quiet_lift; intros x. apply quiet_lift; intros y. apply quiet_ok.
    + apply quiet_bind; [apply quiet_clock_read|]. intros x. apply quiet_written.
    + apply quiet_bind; [apply quiet_clock_read|]. intros x. apply quiet_written.
  - destruct coord as [x y]. apply quiet_lift. intros [d o]. apply quiet_ok.
Qed.

Lemma quiet_exec_all p mcs : forall c, quiet (fun e w => execute_all e p mcs (c, w)).
Proof.
  induction mcs as [|mc mcs IH]; intros c; [apply quiet_ok|].
  eapply quiet_eq; [|apply (quiet_bind _ _ (quiet_exec p mc c) IH)].
  intros e w. unfold execute_all. cbn [foldM].
  destruct (execute_mut e p (c, w) mc) as [[c' w']|]; reflexivity.
Qed.

Lemma quiet_generate p op c : match op with Rnd _ _ => False | _ => True end -> quiet (fun e w => generate e p op c w).
Proof.
  destruct op; intros N; cbn [generate]; try apply quiet_ok; try apply quiet_ret; [|destruct N].
  unfold gen_ld_from_delay. apply quiet_bind; [apply quiet_clock_read|]. intros a. apply quiet_ok.
Qed.

Section Link.
Context {G : Type} (draw : G -> Z * G) (time : nat -> Z) (p : profile) (g : G).
Let e := answering draw time g.

Lemma generate_link op c k t : generate_own draw time p op (c, after draw k g) t =
  do! ' (l, w) <- generate e p op c (mkWorld t k) ; Ok (l, (c, after draw (w_random w) g), w_time w).
Proof.
  assert (D : (exists r v, op = Rnd r v) \/ match op with Rnd _ _ => False | _ => True end)
    by (destruct op; try (right; exact I); left; eexists; eexists; reflexivity).
  destruct D as [(r & v & ->)|N].
  - cbn [generate_own generate]. unfold gen_rnd, random, e, answering, byte_at.
    cbn [env_random w_random w_time bind after]. destruct (draw (after draw k g)); reflexivity.
  - pose proof (quiet_generate p op c N) as Q.
    transitivity (do! ' (l, w) <- generate (clock time) p op c (mkWorld t 0) ; Ok (l, (c, after draw k g), w_time w));
      [destruct op; try reflexivity; destruct N|].
    unfold clock. rewrite (Q time (byte_at draw g) (fun _ => 0) t k 0%nat). fold (answering draw time g). fold e.
    destruct (generate e p op c (mkWorld t k)) as [[l w]|] eqn:E; cbn [bind]; [|reflexivity].
    rewrite (quiet_keeps _ time (byte_at draw g) t k l w Q E). reflexivity.
Qed.

Lemma execute_link mcs c (g' : G) t k : execute_own time p mcs (c, g') t =
  do! ' (c', w) <- execute_all e p mcs (c, mkWorld t k) ; Ok ((c', g'), w_time w).
Proof.
  unfold execute_own, clock. rewrite (quiet_exec_all p mcs c time (byte_at draw g) (fun _ => 0) t k 0%nat).
  fold (answering draw time g). fold e. destruct (execute_all e p mcs (c, mkWorld t k)) as [[c' w]|]; reflexivity.
Qed.

Lemma executed_random mcs c t k c' w : execute_all e p mcs (c, mkWorld t k) = Ok (c', w) -> w = mkWorld (w_time w) k.
Proof. exact (quiet_keeps _ time (byte_at draw g) t k c' w (quiet_exec_all p mcs c)). Qed.

Lemma next_link c k t : next_own draw time p (c, after draw k g) t =
  do! ' (mcs, c', w) <- next e p c (mkWorld t k) ; Ok (mcs, (c', after draw (w_random w) g), w_time w).
Proof.
  unfold next_own, next. cbn [fst]. cbv zeta.
  destruct (am_read p (c8_space c) (c8_pc c)) as [b0|]; cbn [bind]; [|reflexivity].
  destruct (add_u16 p (c8_pc c) 1) as [pc1|]; cbn [bind]; [|reflexivity].
  destruct (am_read p (c8_space c) pc1) as [b1|]; cbn [bind]; [|reflexivity].
  destruct (decode_bytes_to_opcode [b0; b1]) as [d|]; cbn [bind]; [|reflexivity].
  destruct (unwrap d) as [op|]; cbn [bind]; [|reflexivity].
  rewrite generate_link. destruct (generate e p op c (mkWorld t k)) as [[l w]|]; cbn [bind]; [|reflexivity].
  rewrite (execute_link _ c _ (w_time w) (w_random w)). destruct w as [wt wr]. cbn [w_time w_random].
  destruct (execute_all e p (l ++ [Inc16bitRegister WordPc 2]) (c, mkWorld wt wr)) as [[c' w']|] eqn:E; cbn [bind]; [|reflexivity].
  rewrite (executed_random _ _ _ _ _ _ E). reflexivity.
Qed.

Lemma iterate_link n : forall c k t, iterate_own draw time p n (c, after draw k g) t =
  do! ' (mcs, c', w) <- iterate e p n c (mkWorld t k) ; Ok (mcs, (c', after draw (w_random w) g), w_time w).
Proof.
  induction n as [|n IH]; intros c k t; [reflexivity|]. cbn [iterate_own iterate].
  rewrite next_link. destruct (next e p c (mkWorld t k)) as [[[mcs c'] [wt wr]]|]; cbn [bind w_time w_random]; [|reflexivity].
  rewrite IH. destruct (iterate e p n c' (mkWorld wt wr)) as [[[rest c''] w]|]; reflexivity.
Qed.

Lemma run_loop_link n : forall it c (g' : G) k t, run_loop_own draw time p n (it, after draw k g) (c, g') t =
  do! ' (c', w) <- run_loop e p n it c (mkWorld t k) ; Ok ((c', g'), w_time w).
Proof.
  induction n as [|n IH]; intros it c g' k t; [reflexivity|]. cbn [run_loop_own run_loop].
  rewrite next_link. destruct (next e p it (mkWorld t k)) as [[[mcs it'] [wt wr]]|]; cbn [bind w_time w_random]; [|reflexivity].
  rewrite (execute_link _ c _ wt wr).
  destruct (execute_all e p mcs (c, mkWorld wt wr)) as [[c' w]|] eqn:E; cbn [bind]; [|reflexivity].
  rewrite (executed_random _ _ _ _ _ _ E). cbn [w_time]. apply IH.
Qed.
End Link.

(** ** C91 *)
(** Instruction by instruction, the machine takes the bytes of its generator
    in order, none twice and none skipped, and the generator it is left with
    is the one after the bytes taken so far. A panic is the same panic. *)
Theorem C91_iterator_in_order : forall G (draw : G -> Z * G) time p n c g t,
  iterate_own draw time p n (c, g) t =
  match iterate (answering draw time g) p n c (mkWorld t 0) with
  | Ok (mcs, c', w) => Ok (mcs, (c', after draw (w_random w) g), w_time w)
  | Panic => Panic
  end.
Proof.
  intros G draw time p n c g t. rewrite (iterate_link draw time p g n c 0 t : iterate_own draw time p n (c, g) t = _).
  destruct (iterate _ p n c (mkWorld t 0)) as [[[mcs c'] w]|]; reflexivity.
Qed.

(** [run] does the same to the rest of the machine, but hands back the
    generator as it was before. *)
Theorem C91_run : forall G (draw : G -> Z * G) time p n c g t,
  run_own draw time p (c, g) n t =
  match run (answering draw time g) p c n (mkWorld t 0) with
  | Ok (s, w) => Ok (ss_from (ss_unwrap s, g), w_time w)
  | Panic => Panic
  end.
Proof.
  intros G draw time p n c g t. unfold run_own, run.
  rewrite (run_loop_link draw time p g n c c g 0 t : run_loop_own draw time p n (c, g) (c, g) t = _).
  destruct (run_loop _ p n c c (mkWorld t 0)) as [[c' w]|]; reflexivity.
Qed.

(** So a second [run] is given the same bytes as the first, from the first
    byte on. *)
Theorem C91_run_again : forall G (draw : G -> Z * G) time p n m c g t s t',
  run_own draw time p (c, g) n t = Ok (s, t') ->
  exists c', ss_unwrap s = (c', g) /\
  run_own draw time p (ss_unwrap s) m t' =
  match run (answering draw time g) p c' m (mkWorld t' 0) with
  | Ok (s, w) => Ok (ss_from (ss_unwrap s, g), w_time w)
  | Panic => Panic
  end.
Proof.
  intros G draw time p n m c g t s t' E. rewrite C91_run in E.
  destruct (run _ p c n (mkWorld t 0)) as [[s0 w]|]; [|discriminate]. injection E as <- <-.
  exists (ss_unwrap s0). split; [reflexivity|]. apply C91_run.
Qed.

Lemma answering_ok {G} (draw : G -> Z * G) time g : (forall x, u8 (fst (draw x))) -> env_ok (answering draw time g).
Proof. intros H k. apply H. Qed.

(** Exactly the Cxkk instructions take a byte, one each. *)
Theorem C91_one_byte_each : forall G (draw : G -> Z * G) time p c g t h c' w,
  (forall x, u8 (fst (draw x))) -> well_formed c ->
  executes (answering draw time g) p c (mkWorld t 0) h c' w ->
  exists mcs, iterate_own draw time p (length h) (c, g) t = Ok (mcs, (c', after draw (count draws h) g), w_time w).
Proof.
  intros G draw time p c g t h c' w Hd W X. pose proof (answering_ok draw time g Hd) as He.
  destruct (C82_questions _ p c _ h c' w He W X) as (R & _). cbn [w_random Nat.add] in R.
  destruct (executes_iterate _ p c _ h c' w X) as (mcs & E). exists mcs.
  rewrite C91_iterator_in_order, E, R. reflexivity.
Qed.

Lemma same_register {G} (a b : res (step_state (machine (G := G)) * nat)) :
  match a, b with
  | Ok (s, _), Ok (s', _) => ss_unwrap s = ss_unwrap s'
  | Panic, Panic => True
  | _, _ => False
  end ->
  match a with Ok (s, _) => observe (fst (ss_unwrap s)) (PV 1) | Panic => 0 end =
  match b with Ok (s, _) => observe (fst (ss_unwrap s)) (PV 1) | Panic => 0 end.
Proof. destruct a as [[s ?]|], b as [[s' ?]|]; intros H; try contradiction; [rewrite H; reflexivity|reflexivity]. Qed.

(** What a run of length n + m does, two runs of lengths n and m should do. It
    fails for every program that draws on both sides of the break, unless the
    generator repeats itself. *)
Theorem C91_run_composes_refuted :
  ~ (forall G (draw : G -> Z * G) time p c g n m t, well_formed c -> (forall x, u8 (fst (draw x))) ->
     (forall i j, time i = time j) ->
     match run_own draw time p (c, g) (n + m) t,
           (do! ' (s, t1) <- run_own draw time p (c, g) n t ; run_own draw time p (ss_unwrap s) m t1) with
     | Ok (s, _), Ok (s', _) => ss_unwrap s = ss_unwrap s'
     | Panic, Panic => True
     | _, _ => False
     end).
Proof.
  intros T.
  specialize (T Z (fun x => (x mod 256, x + 1)) (fun _ => 0) Debug
    (demo [0xC0; 0xFF; 0xC1; 0xFF] [] 0 None) 5 1%nat 1%nat 0%nat).
  specialize (T ltac:(apply demo_wf; vm_compute; reflexivity)).
  assert (H1 : forall x, u8 (fst ((fun x => (x mod 256, x + 1)) x))) by (intros x; apply u8_mod).
  specialize (T H1 (fun i j => eq_refl)).
  apply same_register in T. vm_compute in T. discriminate.
Qed.

(** It holds for programs that draw nothing, and set no timer, before the
    break. *)
Theorem C91_run_composes_partial : forall G (draw : G -> Z * G) time p c g t h c1 w1 m,
  (forall x, u8 (fst (draw x))) -> well_formed c ->
  executes (answering draw time g) p c (mkWorld t 0) h c1 w1 ->
  Forall (fun aw => sets_timer (snd aw) = false /\ draws (snd aw) = false) h ->
  run_own draw time p (c, g) (length h + m) t = run_own draw time p (c1, g) m (w_time w1).
Proof.
  intros G draw time p c g t h c1 w1 m Hd W X F. pose proof (answering_ok draw time g Hd) as He.
  assert (F1 : Forall (fun aw => sets_timer (snd aw) = false) h) by (eapply Forall_impl; [|exact F]; intros ? H; apply H).
  assert (F2 : Forall (fun aw => draws (snd aw) = false) h) by (eapply Forall_impl; [|exact F]; intros ? H; apply H).
  rewrite !C91_run, (proj2 (PropertiesChip8Run.C52_compose_partial _ p c _ h c1 w1 m W He X F1)).
  pose proof (PropertiesChip8Run.executes_draws _ p c _ h c1 w1 He W X F2) as R. cbn [w_random] in R.
  destruct w1 as [wt wr]. cbn [w_random w_time] in *. subst wr. reflexivity.
Qed.

(** ** Cases *)
Definition counter (x : Z) : Z * Z := (x mod 256, x + 1).
Definition two_draws : chip8 := demo [0xC0; 0xFF; 0x63; 0x07; 0xC1; 0xFF] [] 0 None.

Example C91_draw_width : forall x, u8 (fst (counter x)).
Proof. intros x. apply u8_mod. Qed.

Example C91_iterator_case : exists mcs c', iterate_own counter (fun _ => 0) Debug 3 (two_draws, 254) 0 = Ok (mcs, (c', 256), 0%nat)
  /\ observe c' (PV 0) = 254 /\ observe c' (PV 1) = 255 /\ observe c' (PV 3) = 7.
Proof.
  assert (H : match iterate_own counter (fun _ => 0) Debug 3 (two_draws, 254) 0 with
    | Ok (_, (c', g), t) => (g, t, observe c' (PV 0), observe c' (PV 1), observe c' (PV 3)) | Panic => (0, 9%nat, 0, 0, 0) end
    = (256, 0%nat, 254, 255, 7)) by (vm_compute; reflexivity).
  destruct (iterate_own counter (fun _ => 0) Debug 3 (two_draws, 254) 0) as [[[mcs [c' g]] t]|]; [|discriminate].
  injection H as -> -> H1 H2 H3. exists mcs, c'. split; [reflexivity|]. split; [exact H1|]. split; [exact H2|exact H3].
Qed.

Example C91_run_case : exists c', run_own counter (fun _ => 0) Debug (two_draws, 254) 3 0 = Ok (ss_from (c', 254), 0%nat)
  /\ observe c' (PV 0) = 254 /\ observe c' (PV 1) = 255.
Proof.
  assert (H : match run_own counter (fun _ => 0) Debug (two_draws, 254) 3 0 with
    | Ok (s, t) => (snd (ss_unwrap s), t, observe (fst (ss_unwrap s)) (PV 0), observe (fst (ss_unwrap s)) (PV 1)) | Panic => (0, 9%nat, 0, 0) end
    = (254, 0%nat, 254, 255)) by (vm_compute; reflexivity).
  rewrite C91_run in *. destruct (run _ Debug two_draws 3 (mkWorld 0 0)) as [[s w]|]; [|discriminate].
  exists (ss_unwrap s). cbn [ss_unwrap ss_from snd fst] in H. injection H as Ht H1 H2. rewrite Ht.
  split; [reflexivity|]. split; [exact H1|exact H2].
Qed.

Definition own_world : environment := answering counter (fun _ => 0) 254.

Example C91_one_byte_each_case : exists c' w', executes own_world Debug two_draws (mkWorld 0 0)
    [(0x200, 0xC0FF); (0x202, 0x6307); (0x204, 0xC1FF)] c' w' /\ well_formed two_draws /\
    count draws [(0x200, 0xC0FF); (0x202, 0x6307); (0x204, 0xC1FF)] = 2%nat.
Proof.
  destruct (step own_world Debug two_draws (mkWorld 0 0)) as [[c1 w1]|] eqn:E1; [|vm_compute in E1; discriminate].
  pose proof E1 as F1. vm_compute in F1.
  destruct (step own_world Debug c1 w1) as [[c2 w2]|] eqn:E2; [|injection F1 as <- <-; vm_compute in E2; discriminate].
  assert (F2 := E2). injection F1 as H1 H2. rewrite <- H1, <- H2 in F2. vm_compute in F2.
  destruct (step own_world Debug c2 w2) as [[c3 w3]|] eqn:E3; [|injection F2 as <- <-; vm_compute in E3; discriminate].
  injection F2 as H3 H4.
  exists c3, w3. split; [|split; [apply demo_wf; vm_compute; reflexivity|reflexivity]].
  apply (executes_at _ _ _ _ _ _ c1 w1); [vm_compute; reflexivity|(split; [right|]; vm_compute; reflexivity)|exact E1|].
  apply (executes_at _ _ _ _ _ _ c2 w2); [rewrite <- H1; vm_compute; reflexivity|rewrite <- H1; (split; [right|]; vm_compute; reflexivity)|exact E2|].
  apply (executes_at _ _ _ _ _ _ c3 w3); [rewrite <- H3; vm_compute; reflexivity|rewrite <- H3; (split; [right|]; vm_compute; reflexivity)|exact E3|].
  constructor.
Qed.

(** One instruction (6307) before the break, then a draw. *)
Example C91_composes_case : exists c' w', executes own_world Debug (demo [0x63; 0x07; 0xC1; 0xFF] [] 0 None) (mkWorld 0 0)
    [(0x200, 0x6307)] c' w' /\ Forall (fun aw => sets_timer (snd aw) = false /\ draws (snd aw) = false) [(0x200, 0x6307)].
Proof.
  destruct (step own_world Debug (demo [0x63; 0x07; 0xC1; 0xFF] [] 0 None) (mkWorld 0 0)) as [[c1 w1]|] eqn:E1;
    [|vm_compute in E1; discriminate].
  exists c1, w1. split; [|constructor; [split; reflexivity|constructor]].
  apply (executes_at _ _ _ _ _ _ c1 w1); [vm_compute; reflexivity|(split; [right|]; vm_compute; reflexivity)|exact E1|].
  constructor.
Qed.

Print Assumptions C91_iterator_in_order.
Print Assumptions C91_run.
Print Assumptions C91_run_again.
Print Assumptions C91_one_byte_each.
Print Assumptions C91_run_composes_refuted.
Print Assumptions C91_run_composes_partial.
