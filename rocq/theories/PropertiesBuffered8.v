(** C127: a CHIP-8 machine that takes its random bytes from a buffered
    generator, running side by side with the thread that fills the buffer. *)
From Coq Require Import Lia.
From Verif Require Import Base Arith ModelMap ModelStep ModelDisplay ModelChip8 ModelOpsChip8 ModelRunChip8
  SpecMap SpecChip8 SpecChip8Parts SpecChip8Run ProofChip8 ProofChip8Step ProofChip8Reach ProofChip8Run
  PropertiesAnswers8 PropertiesOwnRng.
From Verif Require Import ModelRng SpecBuffered8.
From Verif Require PropertiesRng.

(** ** Proof *)
Section Buffered.
Context (g : generator) (bound : nat) (time : nat -> Z) (p : profile).
Context (Hg : bytes_only g).
Let e := alone g time.
Let at_ (k : nat) : Z := env_random e k.

Lemma alone_ok : env_ok e.
Proof.
  intros k. unfold e, alone. cbn [env_random]. destruct (g k) as [b|] eqn:E; [exact (Hg k b E)|unfold u8; lia].
Qed.
Lemma const_ok b : u8 b -> env_ok (mkEnv time (fun _ => b)).
Proof. intros H k. exact H. Qed.

Lemma next_byte c t k : next e p c (mkWorld t k) =
  do! ' (mcs, c', w) <- next (mkEnv time (fun _ => at_ k)) p c (mkWorld t 0) ; Ok (mcs, c', mkWorld (w_time w) (k + w_random w)).
Proof.
  unfold next. cbv zeta.
  destruct (am_read p (c8_space c) (c8_pc c)) as [b0|]; cbn [bind]; [|reflexivity].
  destruct (add_u16 p (c8_pc c) 1) as [pc1|]; cbn [bind]; [|reflexivity].
  destruct (am_read p (c8_space c) pc1) as [b1|]; cbn [bind]; [|reflexivity].
  destruct (decode_bytes_to_opcode [b0; b1]) as [d|]; cbn [bind]; [|reflexivity].
  destruct (unwrap d) as [op|]; cbn [bind]; [|reflexivity].
  assert (G : generate e p op c (mkWorld t k) = do! ' (l, w) <- generate (mkEnv time (fun _ => at_ k)) p op c (mkWorld t 0) ;
    Ok (l, mkWorld (w_time w) (k + w_random w))).
  { assert (D : (exists r v, op = Rnd r v) \/ match op with Rnd _ _ => False | _ => True end)
      by (destruct op; try (right; exact I); left; eexists; eexists; reflexivity).
    destruct D as [(r & v & ->)|N].
    - cbn [generate]. unfold gen_rnd, random. cbn [env_random w_random w_time bind].
      replace (k + 1)%nat with (S k) by lia. reflexivity.
    - pose proof (quiet_generate p op c N) as Q. unfold e, alone.
      rewrite (Q time (fun _ => at_ k) _ t 0%nat k).
      destruct (generate (mkEnv time (fun _ => at_ k)) p op c (mkWorld t 0)) as [[l w]|] eqn:E; cbn [bind]; [|reflexivity].
      rewrite (quiet_keeps _ time _ t 0%nat l w Q E). cbn [w_random w_time]. rewrite Nat.add_0_r. reflexivity. }
  rewrite G. destruct (generate (mkEnv time (fun _ => at_ k)) p op c (mkWorld t 0)) as [[l [wt wr]]|]; cbn [bind w_time w_random]; [|reflexivity].
  pose proof (quiet_exec_all p (l ++ [Inc16bitRegister WordPc 2]) c) as Q. unfold e, alone.
  rewrite (Q time (fun _ => at_ k) _ wt wr (k + wr)%nat).
  destruct (execute_all (mkEnv time (fun _ => at_ k)) p (l ++ [Inc16bitRegister WordPc 2]) (c, mkWorld wt wr)) as [[c' w']|] eqn:E; cbn [bind]; [|reflexivity].
  rewrite (quiet_keeps _ time _ wt wr c' w' Q E). reflexivity.
Qed.

Lemma step_byte c t k : step e p c (mkWorld t k) =
  do! ' (c', w) <- step (mkEnv time (fun _ => at_ k)) p c (mkWorld t 0) ; Ok (c', mkWorld (w_time w) (k + w_random w)).
Proof.
  unfold step. rewrite next_byte.
  destruct (next (mkEnv time (fun _ => at_ k)) p c (mkWorld t 0)) as [[[mcs c'] w]|]; reflexivity.
Qed.

(** Whether the word draws decides whether the instruction asks. *)
Lemma step_draws e0 c w c' w' : env_ok e0 -> well_formed c -> step e0 p c w = Ok (c', w') ->
  exists word, fetches p c word /\ w_random w' = (w_random w + if draws word then 1 else 0)%nat.
Proof.
  intros He W E. destruct (step_ok_inv e0 p c w c' w' W He E) as (op & f & _ & Hf & _).
  exists (encode op). split; [exact Hf|].
  destruct (C82_questions e0 p c w [(observe c PPC, encode op)] c' w' He W
    (executes_cons e0 p c w _ c' w' [] c' w' Hf E (executes_nil e0 p c' w'))) as (-> & _).
  unfold count. cbn [filter snd]. destruct (draws (encode op)); reflexivity.
Qed.
Lemma fetches_same c w1 w2 : fetches p c w1 -> fetches p c w2 -> w1 = w2.
Proof. intros [_ ->] [_ ->]. reflexivity. Qed.

(** An instruction that asks for nothing does the same with every generator. *)
Lemma step_silent b b' c t word : u8 b -> well_formed c -> fetches p c word -> draws word = false ->
  forall c' w, step (mkEnv time (fun _ => b)) p c (mkWorld t 0) = Ok (c', w) ->
  step (mkEnv time (fun _ => b')) p c (mkWorld t 0) = Ok (c', w) /\ w_random w = 0%nat.
Proof.
  intros Hb W Hf Hd c' w E. destruct (step_draws _ _ _ _ _ (const_ok b Hb) W E) as (word' & Hf' & R).
  rewrite <- (fetches_same _ _ _ Hf Hf'), Hd in R. cbn [w_random] in R.
  split; [|exact R]. destruct (next_step _ _ _ _ _ _ E) as (mcs & N).
  assert (I1 : iterate (mkEnv time (fun _ => b)) p 1 c (mkWorld t 0) = Ok ([mcs], c', w)) by (cbn [iterate]; rewrite N; reflexivity).
  pose proof (C82_iterate_replay _ (mkEnv time (fun _ => b')) p c 1 _ _ _ I1) as I2.
  assert (S2 : same_answers (mkEnv time (fun _ => b)) (mkEnv time (fun _ => b')) (mkWorld t 0) w)
    by (split; intros k K; [reflexivity|cbn [w_random] in K; lia]).
  specialize (I2 S2). cbn [iterate] in I2. unfold step.
  destruct (next (mkEnv time (fun _ => b')) p c (mkWorld t 0)) as [[[m c1] w1]|]; cbn [bind] in I2; [|discriminate].
  congruence.
Qed.

(** What holds after [m] moves that completed [n] instructions. *)
Record running (c0 : chip8) (t0 m n : nat) (x : system) : Prop :=
  { run_inv : PropertiesRng.inv g bound (rng x);
    run_wf : well_formed (machine x);
    run_owner : owner (rng x) = Elsewhere \/
      (owner (rng x) = Receiving /\ exists word, fetches p (machine x) word /\ draws word = true);
    run_same : exists mcs, iterate e p n c0 (mkWorld t0 0) = Ok (mcs, machine x, mkWorld (asked x) (length (returned (rng x))));
    run_few : (length (returned (rng x)) <= n)%nat;
    run_moves : (m + length (PropertiesRng.held (thread (rng x))) <=
      2 * calls (rng x) + n + length (returned (rng x)) + match owner (rng x) with Receiving => 1 | _ => 0 end)%nat }.

Lemma iterate_snoc c0 w0 n mcs c w c' w' : iterate e p n c0 w0 = Ok (mcs, c, w) -> step e p c w = Ok (c', w') ->
  exists mcs', iterate e p (n + 1) c0 w0 = Ok (mcs', c', w').
Proof.
  intros I E. destruct (next_step _ _ _ _ _ _ E) as (m & N). rewrite iterate_app, I. cbn [bind iterate]. rewrite N. cbn [bind].
  eexists. reflexivity.
Qed.

Lemma last_returned s s' b : PropertiesRng.inv g bound s' -> returned s' = returned s ++ [b] -> g (length (returned s)) = Ok b.
Proof.
  intros J R. destruct (PropertiesRng.inv_bytes g bound s' J) as (l & P & _ & (rest & L) & _).
  rewrite R in L. subst l. specialize (P (length (returned s))). rewrite P.
  - rewrite <- app_assoc, app_nth2, Nat.sub_diag by lia. reflexivity.
  - rewrite !app_length. cbn [length]. lia.
Qed.

Lemma start_running c t : well_formed c -> running c t 0 0 (mkSystem c t start).
Proof.
  intros W. constructor; cbn [rng machine asked]; try exact W; try (cbn; lia).
  - apply PropertiesRng.inv_start.
  - left. reflexivity.
  - exists []. reflexivity.
Qed.

Lemma moves_running c0 t0 m n who k x y : running c0 t0 m n x -> moves g bound time p who k x y -> running c0 t0 (S m) (n + k) y.
Proof.
  intros [J W O (mcs & I) F M] Mv.
  destruct Mv as [a c t s s' A E|c t s word c' t' Ow Hf Hd (w & E & T)|c t s word s' Hf Hd E|a b c t s s' c' t' A E R (w & X & T)];
    cbn [rng machine asked] in *.
  - pose proof (PropertiesRng.inv_act g bound s a s' J E) as J'.
    destruct s as [n0 th q o r]. cbn [owner returned calls thread] in *.
    assert (K : owner s' = o /\ returned s' = r /\
      (length (PropertiesRng.held (thread s')) + 1 + 2 * n0 <= 2 * calls s' + length (PropertiesRng.held th))%nat).
    { unfold act in E. destruct O as [-> | (-> & _)]; destruct A as [-> | [-> | ->]]; destruct th as [|b| |]; try discriminate E.
      all: try (destruct (g n0); injection E as <-; cbn; repeat split; lia).
      all: destruct (length q <? bound)%nat; [|discriminate E]; injection E as <-; cbn; repeat split; lia. }
    destruct K as (Ko & Kr & Kh). rewrite Nat.add_0_r.
    constructor; cbn [rng machine asked]; rewrite ?Ko, ?Kr; try assumption; [exists mcs; exact I|lia].
  - destruct (step_silent 0 (at_ (length (returned s))) c t word ltac:(unfold u8; lia) W Hf Hd c' w E) as (E' & R0).
    assert (St : step e p c (mkWorld t (length (returned s))) = Ok (c', mkWorld t' (length (returned s))))
      by (rewrite step_byte, E'; cbn [bind]; rewrite R0, T, Nat.add_0_r; reflexivity).
    constructor; cbn [rng machine asked]; try assumption.
    + exact (step_wf _ _ _ _ _ _ W alone_ok St).
    + left. exact Ow.
    + exact (iterate_snoc _ _ _ _ _ _ _ _ I St).
    + lia.
    + lia.
  - pose proof (PropertiesRng.inv_act g bound s Call s' J E) as J'.
    destruct s as [n0 th q o r]. unfold act in E. destruct o; try (destruct th; discriminate E).
    assert (s' = mkState n0 th q Receiving r) as -> by (destruct th; congruence).
    cbn [owner returned calls thread] in *. rewrite Nat.add_0_r.
    constructor; cbn [rng machine asked owner returned calls thread]; try assumption; try lia.
    + right. split; [reflexivity|]. exists word. split; assumption.
    + exists mcs. exact I.
  - pose proof (PropertiesRng.inv_act g bound s a s' J E) as J'. pose proof (last_returned s s' b J' R) as B.
    assert (Ab : at_ (length (returned s)) = b) by (unfold at_, e, alone; cbn [env_random]; rewrite B; reflexivity).
    destruct s as [n0 th q o r].
    assert (K : o = Receiving /\ owner s' = Elsewhere /\ calls s' = n0 /\
      (length (PropertiesRng.held (thread s')) <= length (PropertiesRng.held th))%nat).
    { unfold act in E. destruct A as [-> | ->].
      - destruct o, q; try (destruct th; discriminate E). assert (s' = mkState n0 th q Elsewhere (r ++ [z])) as -> by (destruct th; congruence).
        repeat split. cbn [thread]. lia.
      - destruct th, o, q; try discriminate E. destruct (bound =? 0)%nat; [|discriminate E]. injection E as <-. repeat split. cbn. lia. }
    cbn [owner returned calls thread] in *. destruct K as (-> & Ko & Kc & Kh).
    destruct O as [O|(_ & word & Hf & Hd)]; [discriminate O|].
    assert (Ub : u8 b) by exact (Hg _ _ B).
    destruct (step_draws _ _ _ _ _ (const_ok b Ub) W X) as (word' & Hf' & R1).
    rewrite <- (fetches_same _ _ _ Hf Hf'), Hd in R1. cbn [w_random] in R1.
    assert (St : step e p c (mkWorld t (length r)) = Ok (c', mkWorld t' (length (returned s'))))
      by (rewrite step_byte, Ab, X; cbn [bind]; rewrite R1, T, R, app_length; reflexivity).
    constructor; cbn [rng machine asked]; try assumption.
    + exact (step_wf _ _ _ _ _ _ W alone_ok St).
    + left. exact Ko.
    + exact (iterate_snoc _ _ _ _ _ _ _ _ I St).
    + rewrite R, app_length. cbn [length]. lia.
    + rewrite R, app_length, Ko, Kc. cbn [length]. lia.
Qed.

Lemma together_running c t m n x y : together g bound time p m n x y -> x = mkSystem c t start -> well_formed c -> running c t m n y.
Proof.
  intros H E W. induction H as [x|m n who k x y z H IH Mv]; subst x; [exact (start_running c t W)|].
  exact (moves_running _ _ _ _ _ _ _ _ (IH eq_refl) Mv).
Qed.

Lemma running_bound c t m n x : running c t m n x -> (m <= 4 * n + 2 * bound + 3)%nat.
Proof.
  intros [J _ _ _ F M]. pose proof (PropertiesRng.inv_calls g bound _ J) as C. pose proof (PropertiesRng.inv_finished g bound _ J) as Fi.
  destruct (owner (rng x)) eqn:Eo, (thread (rng x)) eqn:Et; cbn [PropertiesRng.held PropertiesRng.busy length] in *; lia.
Qed.

Lemma perform_snoc a : forall sched s s1 s2, perform g bound s sched = Some s1 -> act g bound s1 a = Some s2 ->
  perform g bound s (sched ++ [a]) = Some s2.
Proof.
  induction sched as [|x sched IH]; intros s s1 s2 E1 E2; cbn [perform app] in *; [injection E1 as ->; rewrite E2; reflexivity|].
  destruct (act g bound s x) as [s3|]; [|discriminate]. exact (IH s3 s1 s2 E1 E2).
Qed.
Lemma together_interleaving m n x y : together g bound time p m n x y -> rng x = start ->
  exists sched, PropertiesRng.interleaving g bound sched (rng y).
Proof.
  intros H E. induction H as [x|m n who k x y z H IH Mv]; [exists []; rewrite E; reflexivity|].
  destruct (IH E) as (sched & I). unfold PropertiesRng.interleaving in *.
  destruct Mv as [a c t s s' A X|c t s word c' t' Ow Hf Hd _|c t s word s' Hf Hd X|a b c t s s' c' t' A X R _]; cbn [rng] in *.
  - exists (sched ++ [a]). exact (perform_snoc a sched _ _ _ I X).
  - exists sched. exact I.
  - exists (sched ++ [Call]). exact (perform_snoc Call sched _ _ _ I X).
  - exists (sched ++ [a]). exact (perform_snoc a sched _ _ _ I X).
Qed.
Lemma together_trans m n x y : together g bound time p m n x y -> forall m' n' z, together g bound time p m' n' y z ->
  together g bound time p (m + m') (n + n') x z.
Proof.
  intros H m' n' z H'. revert m n x H. induction H' as [y|m' n' who k y z v H' IH Mv]; intros m n x H.
  - rewrite !Nat.add_0_r. exact H.
  - rewrite Nat.add_succ_r, Nat.add_assoc. exact (together_more g bound time p _ _ who k _ _ _ (IH m n x H) Mv).
Qed.

Lemma can_move c t m n x : well_formed c -> together g bound time p m n (mkSystem c t start) x ->
  forall c' w', step e p (machine x) (mkWorld (asked x) (length (returned (rng x)))) = Ok (c', w') ->
  (exists who k y, moves g bound time p who k x y /\ (owner (rng x) = Elsewhere -> who = Machine)) \/
  (owner (rng x) = Receiving /\ g (length (returned (rng x))) = Panic).
Proof.
  intros W H c' w' E. destruct (together_interleaving _ _ _ _ H eq_refl) as (sched & I).
  destruct (together_running _ _ _ _ _ _ H eq_refl W) as [J W' O _ _ _].
  destruct x as [cx tx s]. cbn [machine asked rng] in *.
  rewrite step_byte in E. destruct (step (mkEnv time (fun _ => at_ (length (returned s)))) p cx (mkWorld tx 0)) as [[c1 w1]|] eqn:X; cbn [bind] in E; [|discriminate].
  assert (c1 = c') by congruence. subst c1. clear E.
  destruct O as [O|(O & word & Hf & Hd)].
  - left. exists Machine. destruct (step_draws _ _ _ _ _ (const_ok _ (alone_ok (length (returned s)))) W' X) as (word & Hf & _).
    destruct (draws word) eqn:Hd.
    + destruct s as [n0 th q o r]. cbn [owner] in O. subst o. eexists. eexists. split; [|reflexivity].
      refine (machine_asks g bound time p cx tx _ word (mkState n0 th q Receiving r) Hf Hd _). destruct th; reflexivity.
    + destruct (step_silent _ 0 cx tx word (alone_ok (length (returned s))) W' Hf Hd c' w1 X) as (X0 & _).
      exists 1%nat, (mkSystem c' (w_time w1) s). split; [|reflexivity].
      refine (machine_goes_on g bound time p cx tx s word c' (w_time w1) O Hf Hd _). exists w1. split; [exact X0|reflexivity].
  - destruct (PropertiesRng.C55_no_deadlock g bound sched s I O) as (a & s' & (A1 & A2) & Ac).
    assert (T : a = Generate \/ a = Send \/ a = SendFails -> exists who k y, moves g bound time p who k (mkSystem cx tx s) y /\ (owner s = Elsewhere -> who = Machine)).
    { intros T. exists Thread, 0%nat, (mkSystem cx tx s'). split; [exact (thread_moves g bound time p a cx tx s s' T Ac)|]. rewrite O. discriminate. }
    assert (R : a = Receive \/ a = Handover -> exists who k y, moves g bound time p who k (mkSystem cx tx s) y /\ (owner s = Elsewhere -> who = Machine)).
    { intros R. assert (exists b, returned s' = returned s ++ [b]) as (b & Rb).
      { destruct s as [n0 th q o r]. unfold act in Ac. destruct R as [-> | ->], th, o, q; try discriminate Ac; try (injection Ac as <-; eexists; reflexivity).
        destruct (bound =? 0)%nat; [|discriminate Ac]. injection Ac as <-. eexists. reflexivity. }
      pose proof (last_returned s s' b (PropertiesRng.inv_act g bound s a s' J Ac) Rb) as B.
      assert (Ab : at_ (length (returned s)) = b) by (unfold at_, e, alone; cbn [env_random]; rewrite B; reflexivity).
      rewrite Ab in X. exists Machine, 1%nat, (mkSystem c' (w_time w1) s'). split; [|reflexivity].
      refine (machine_gets g bound time p a b cx tx s s' c' (w_time w1) R Ac Rb _). exists w1. split; [exact X|reflexivity]. }
    destruct a; try contradiction; try (left; apply T; tauto); try (left; apply R; tauto).
    right. split; [exact O|].
    assert (F : owner s' = Failed /\ returned s' = returned s).
    { destruct s as [n0 th q o r]. unfold act in Ac. destruct th, o, q; try discriminate Ac; injection Ac as <-; split; reflexivity. }
    destruct F as (F1 & F2). rewrite <- F2. exact (PropertiesRng.C55_panics_only_if g bound (sched ++ [ReceiveFails]) s' (perform_snoc _ _ _ _ _ I Ac) F1).
Qed.

Lemma can_finish c t N mcs c1 w1 : well_formed c -> PropertiesRng.never_panics g -> iterate e p N c (mkWorld t 0) = Ok (mcs, c1, w1) ->
  forall j m n x, together g bound time p m n (mkSystem c t start) x -> (n <= N)%nat -> (4 * N + 2 * bound + 3 <= m + j)%nat ->
  exists m' y, together g bound time p m' (N - n) x y.
Proof.
  intros W Hn I j. induction j as [j IH] using lt_wf_ind. intros m n x H Hle Hj.
  destruct (Nat.eq_dec n N) as [->|Ne]; [exists 0%nat, x; rewrite Nat.sub_diag; constructor|].
  pose proof (together_running _ _ _ _ _ _ H eq_refl W) as Rn. pose proof (running_bound _ _ _ _ _ Rn) as B.
  destruct (run_same _ _ _ _ _ Rn) as (ms & Ix). replace N with (n + S (N - n - 1))%nat in I by lia.
  rewrite iterate_app, Ix in I. cbn [bind iterate] in I.
  destruct (next e p (machine x) (mkWorld (asked x) (length (returned (rng x))))) as [[[m1 c'] w']|] eqn:En; cbn [bind] in I; [|discriminate].
  destruct (can_move c t m n x W H c' w' (step_next _ _ _ _ _ _ _ En)) as [(who & k & y & Mv & _)|(_ & Pn)].
  2:{ destruct (Hn (length (returned (rng x)))) as (b & Hb). congruence. }
  assert (K : (k <= 1)%nat) by (destruct Mv; lia).
  destruct (IH (j - 1)%nat ltac:(lia) (S m) (n + k)%nat y (together_more _ _ _ _ _ _ _ _ _ _ _ H Mv) ltac:(lia) ltac:(lia)) as (m' & z & Hz).
  exists (1 + m')%nat, z. replace (N - n)%nat with ((0 + k) + (N - (n + k)))%nat by lia.
  refine (together_trans 1 (0 + k) x y _ _ _ z Hz). exact (together_more _ _ _ _ 0 0 who k x x y (together_none _ _ _ _ x) Mv).
Qed.
End Buffered.

(** ** C127 *)
(** Whatever the buffer size and in whatever order thread and machine move, the
    machine is at every moment the one it would be alone with the wrapped
    generator after as many instructions, and has taken the bytes of that
    generator, in order. *)
Theorem C127_same_as_alone : forall g bound time p c t m n x,
  bytes_only g -> well_formed c -> together g bound time p m n (mkSystem c t start) x ->
  (exists mcs, iterate (alone g time) p n c (mkWorld t 0) =
    Ok (mcs, machine x, mkWorld (asked x) (length (returned (rng x))))) /\
  PropertiesRng.produces g (returned (rng x)).
Proof.
  intros g bound time p c t m n x Hg W H. split; [exact (run_same _ _ _ _ _ _ _ _ _ (together_running g bound time p Hg _ _ _ _ _ _ H eq_refl W))|].
  destruct (together_interleaving _ _ _ _ _ _ _ _ H eq_refl) as (sched & I). exact (PropertiesRng.C55_in_order g bound sched _ I).
Qed.

(** Hence two runs agree as soon as they have completed the same number of
    instructions, with different buffer sizes and schedules. *)
Theorem C127_schedule_irrelevant : forall g bound1 bound2 time p c t m1 m2 n x1 x2,
  bytes_only g -> well_formed c ->
  together g bound1 time p m1 n (mkSystem c t start) x1 -> together g bound2 time p m2 n (mkSystem c t start) x2 ->
  machine x1 = machine x2 /\ asked x1 = asked x2 /\ returned (rng x1) = returned (rng x2).
Proof.
  intros g b1 b2 time p c t m1 m2 n x1 x2 Hg W H1 H2.
  destruct (C127_same_as_alone _ _ _ _ _ _ _ _ _ Hg W H1) as ((l1 & E1) & P1).
  destruct (C127_same_as_alone _ _ _ _ _ _ _ _ _ Hg W H2) as ((l2 & E2) & P2).
  rewrite E1 in E2. assert (L : length (returned (rng x1)) = length (returned (rng x2))) by congruence.
  split; [congruence|]. split; [congruence|]. apply (nth_ext _ _ 0 0 L). intros k K.
  specialize (P1 k K). rewrite L in K. specialize (P2 k K). congruence.
Qed.

(** The two never block each other: as long as the machine alone could execute
    its next instruction, one of them can move, and the machine itself if it is
    not inside [random]. The exception is a wrapped generator that panics instead
    of giving the byte waited for. *)
Theorem C127_no_deadlock : forall g bound time p c t m n x c' w',
  bytes_only g -> well_formed c -> together g bound time p m n (mkSystem c t start) x ->
  step (alone g time) p (machine x) (mkWorld (asked x) (length (returned (rng x)))) = Ok (c', w') ->
  (exists who k y, moves g bound time p who k x y /\ (owner (rng x) = Elsewhere -> who = Machine)) \/
  (owner (rng x) = Receiving /\ g (length (returned (rng x))) = Panic).
Proof. intros g bound time p c t m n x c' w' Hg W H. exact (can_move g bound time p Hg c t m n x W H c' w'). Qed.

(** And the thread cannot keep the machine from going on, even if the scheduler
    prefers it: among any [4 * n + 2 * bound + 4] moves more than [n] complete an
    instruction. *)
Theorem C127_no_starvation : forall g bound time p c t m n x,
  bytes_only g -> well_formed c -> together g bound time p m n (mkSystem c t start) x ->
  (m <= 4 * n + 2 * bound + 3)%nat.
Proof.
  intros g bound time p c t m n x Hg W H.
  exact (running_bound g bound time p _ _ _ _ _ (together_running g bound time p Hg _ _ _ _ _ _ H eq_refl W)).
Qed.

(** So whatever the machine alone does in [N] instructions, a machine with a
    buffered generator does too, however the moves so far were scheduled. *)
Theorem C127_finishes : forall g bound time p c t N mcs c1 w1 m n x,
  bytes_only g -> PropertiesRng.never_panics g -> well_formed c ->
  iterate (alone g time) p N c (mkWorld t 0) = Ok (mcs, c1, w1) ->
  together g bound time p m n (mkSystem c t start) x -> (n <= N)%nat ->
  exists m' y, together g bound time p m' (N - n) x y /\ machine y = c1 /\ (m + m' <= 4 * N + 2 * bound + 3)%nat.
Proof.
  intros g bound time p c t N mcs c1 w1 m n x Hg Hn W I H L.
  destruct (can_finish g bound time p Hg c t N mcs c1 w1 W Hn I (4 * N + 2 * bound + 3) m n x H L ltac:(lia)) as (m' & y & Hy).
  pose proof (together_trans g bound time p _ _ _ _ H _ _ _ Hy) as Hz. replace (n + (N - n))%nat with N in Hz by lia.
  exists m', y. split; [exact Hy|].
  destruct (C127_same_as_alone _ _ _ _ _ _ _ _ _ Hg W Hz) as ((l & E) & _). rewrite I in E.
  split; [congruence|]. exact (C127_no_starvation _ _ _ _ _ _ _ _ _ Hg W Hz).
Qed.

(** [random] panics in the machine only at an instruction that draws, after the
    wrapped generator panicked, and not before all bytes it gave were used. *)
Theorem C127_panics_only_if : forall g bound time p c t m n x s',
  bytes_only g -> well_formed c -> together g bound time p m n (mkSystem c t start) x ->
  act g bound (rng x) ReceiveFails = Some s' ->
  g (length (returned (rng x))) = Panic /\ exists word, fetches p (machine x) word /\ draws word = true.
Proof.
  intros g bound time p c t m n x s' Hg W H A.
  destruct (together_interleaving _ _ _ _ _ _ _ _ H eq_refl) as (sched & I).
  destruct (run_owner _ _ _ _ _ _ _ _ _ (together_running g bound time p Hg _ _ _ _ _ _ H eq_refl W)) as [O|(O & D)].
  - destruct (rng x) as [n0 th q o r]. cbn [owner] in O. subst o. destruct th; discriminate A.
  - split; [|exact D].
    assert (F : owner s' = Failed /\ returned s' = returned (rng x)).
    { clear I D H. destruct (rng x) as [n0 th q o r]. unfold act in A. destruct th, o, q; try discriminate A; injection A as <-; split; reflexivity. }
    destruct F as (F1 & F2). rewrite <- F2.
    exact (PropertiesRng.C55_panics_only_if g bound (sched ++ [ReceiveFails]) s' (perform_snoc g bound _ _ _ _ _ I A) F1).
Qed.

(** ** Cases *)
Definition counting : generator := fun k => Ok (Z.of_nat k mod 256).
Lemma counting_bytes : bytes_only counting.
Proof. intros k b H. unfold counting in H. assert (b = Z.of_nat k mod 256) by congruence. unfold u8. lia. Qed.
Lemma counting_never : PropertiesRng.never_panics counting.
Proof. intros k. eexists. reflexivity. Qed.

(** Two random bytes and the delay timer, through a rendezvous channel and
    through a buffer of 1024 bytes. *)
Example C127_case : forall bound, exists m x, together counting bound (fun _ => 0) Debug m 3 (mkSystem answers_demo 0 start) x /\
  observe (machine x) (PV 0) = 0 /\ observe (machine x) (PV 1) = 1 /\ returned (rng x) = [0; 1] /\ (m <= 2 * bound + 15)%nat.
Proof.
  intros bound. assert (W : well_formed answers_demo) by (apply demo_wf; vm_compute; reflexivity).
  destruct (iterate (alone counting (fun _ => 0)) Debug 3 answers_demo (mkWorld 0 0)) as [[[mcs c1] w1]|] eqn:I; [|vm_compute in I; discriminate].
  destruct (C127_finishes counting bound (fun _ => 0) Debug answers_demo 0 3 mcs c1 w1 0 0 _ counting_bytes counting_never W I
    (together_none _ _ _ _ _) ltac:(lia)) as (m & y & H & E & B).
  exists m, y. split; [exact H|]. rewrite E.
  destruct (C127_same_as_alone _ _ _ _ _ _ _ _ _ counting_bytes W H) as ((l & E2) & P). cbn [Nat.sub] in E2. rewrite I in E2.
  assert (K : match iterate (alone counting (fun _ => 0)) Debug 3 answers_demo (mkWorld 0 0) with
    | Ok (_, c, w) => (observe c (PV 0), observe c (PV 1), w_random w) | Panic => (0, 0, 0%nat) end = (0, 1, 2%nat)) by (vm_compute; reflexivity).
  rewrite I in K. split; [congruence|]. split; [congruence|]. split; [|lia].
  assert (L : length (returned (rng y)) = 2%nat) by (assert (w1 = mkWorld (asked y) (length (returned (rng y)))) by congruence; subst w1; cbn [w_random] in K; congruence).
  apply (nth_ext _ [0; 1] 0 0 L). intros k Hk. specialize (P k Hk). rewrite L in Hk.
  destruct k as [|[|k]]; [unfold counting in P; cbn in P; cbn; congruence..|lia].
Qed.

Print Assumptions C127_same_as_alone.
Print Assumptions C127_schedule_irrelevant.
Print Assumptions C127_no_deadlock.
Print Assumptions C127_no_starvation.
Print Assumptions C127_finishes.
Print Assumptions C127_panics_only_if.
