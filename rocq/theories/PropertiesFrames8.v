(** C126: a host that runs the CHIP-8 in portions and sets the key before each. *)
From Verif Require Import Base Arith ModelMap ModelStep ModelDisplay ModelChip8 ModelOpsChip8 ModelRunChip8 SpecMap Link6502
  SpecChip8 SpecChip8Parts SpecChip8Run ProofChip8 ProofChip8Step ProofChip8Reach ProofChip8Run PropertiesChip8Run
  SpecRoutines8 ProofRoutines8 PropertiesRoutines8 SpecReplace8 PropertiesReplace8 SpecLanguage8 ProofLanguage8 PropertiesLanguage8 SpecHost8 ProofHost8 PropertiesHost8 SpecFrames8.

(** ** Portions and single instructions *)
Lemma same_key c k : c8_interrupt c = k -> with_interrupt c k = c.
Proof. intros <-. destruct c. reflexivity. Qed.
Lemma key_number_inj k k' : key_number k = key_number k' -> k = k'.
Proof. destruct k as [[[]]|], k' as [[[]]|]; cbn; intros H; first [reflexivity|discriminate H]. Qed.
Lemma step_key e p c w c' w' : well_formed c -> env_ok e -> step e p c w = Ok (c', w') -> c8_interrupt c' = c8_interrupt c.
Proof.
  intros W He E. destruct (step_ok_inv e p c w c' w' W He E) as (op & f & _ & _ & Ef & _ & Lk).
  apply key_number_inj. pose proof (effect_key e p _ _ _ _ _ Ef) as H. rewrite <- (Lk PKey) in H. exact H.
Qed.
Lemma play_ext e p K K' m : forall n n' c w, (forall i, (i < m)%nat -> K (n + i)%nat = K' (n' + i)%nat) -> play e p K n m c w = play e p K' n' m c w.
Proof.
  induction m as [|m IH]; intros n n' c w H; [reflexivity|]. cbn [play]. pose proof (H 0%nat ltac:(lia)) as H0. rewrite !Nat.add_0_r in H0. rewrite H0.
  destruct (step e p (with_interrupt c (K' n')) w) as [[c1 w1]|]; [|reflexivity]. cbn [bind]. apply IH.
  intros i Hi. replace (S n + i)%nat with (n + S i)%nat by lia. replace (S n' + i)%nat with (n' + S i)%nat by lia. apply H. lia.
Qed.
Lemma play_app e p K m1 m2 : forall n c w, play e p K n (m1 + m2) c w = do! ' (c1, w1) <- play e p K n m1 c w ; play e p K (n + m1) m2 c1 w1.
Proof.
  induction m1 as [|m1 IH]; intros n c w; cbn [Nat.add play bind]; [rewrite Nat.add_0_r; reflexivity|].
  destruct (step e p (with_interrupt c (K n)) w) as [[c1 w1]|]; [|reflexivity]. cbn [bind]. rewrite IH. replace (S n + m1)%nat with (n + S m1)%nat by lia. reflexivity.
Qed.
Lemma play_wf e p K m : env_ok e -> forall n c w c' w', well_formed c -> play e p K n m c w = Ok (c', w') -> well_formed c'.
Proof.
  intros He. induction m as [|m IH]; intros n c w c' w' W E; cbn [play] in E; [injection E as <- <-; exact W|].
  destruct (step e p (with_interrupt c (K n)) w) as [[c1 w1]|] eqn:S1; [|discriminate]. cbn [bind] in E.
  exact (IH _ _ _ _ _ (step_wf e p _ w c1 w1 (key_wf c (K n) W) He S1) E).
Qed.

(** One portion with one key. *)
Lemma portion_play e p K k m : env_ok e -> forall n c w, well_formed c -> (forall i, (i < m)%nat -> K (n + i)%nat = k) ->
  (forall i c' w' word, (i < m)%nat -> play e p K n i c w = Ok (c', w') -> fetches p c' word -> sets_timer word = false) ->
  run_loop e p m (with_interrupt c k) (with_interrupt c k) w = do! ' (c', w') <- play e p K n m c w ; Ok (with_interrupt c' k, w').
Proof.
  intros He. induction m as [|m IH]; intros n c w W Hk Q; [reflexivity|]. cbn [run_loop play].
  pose proof (Hk 0%nat ltac:(lia)) as K0. rewrite Nat.add_0_r in K0. rewrite K0.
  destruct (step e p (with_interrupt c k) w) as [[c1 w1]|] eqn:S1; cbn [bind]; [|rewrite (next_panic _ _ _ _ S1); reflexivity].
  destruct (next_step _ _ _ _ _ _ S1) as (mcs & N). rewrite N. cbn [bind].
  pose proof (key_wf c k W) as Wk. destruct (step_ok_inv e p _ w c1 w1 Wk He S1) as (op & f & Hop & F & _ & W1 & _).
  rewrite (untimed_next e p _ w (encode op) mcs c1 w1 Wk He F (Q 0%nat c w (encode op) ltac:(lia) eq_refl F) N w1). cbn [bind].
  pose proof (IH (S n) c1 w1 W1) as J. rewrite (same_key c1 k) in J by exact (step_key e p _ w c1 w1 Wk He S1). apply J.
  - intros i Hi. replace (S n + i)%nat with (n + S i)%nat by lia. apply Hk. lia.
  - intros i c' w' word Hi Hpl. apply (Q (S i) c' w' word ltac:(lia)). cbn [play]. rewrite K0, S1. exact Hpl.
Qed.
Lemma play_key e p K m : env_ok e -> forall n c w c' w', well_formed c -> play e p K n (S m) c w = Ok (c', w') -> c8_interrupt c' = K (n + m)%nat.
Proof.
  intros He. induction m as [|m IH]; intros n c w c' w' W E.
  - cbn [play] in E. destruct (step e p (with_interrupt c (K n)) w) as [[c1 w1]|] eqn:S1; [|discriminate]. cbn [bind] in E.
    injection E as <- <-. rewrite (step_key e p _ w c1 w1 (key_wf c (K n) W) He S1). rewrite Nat.add_0_r. reflexivity.
  - change (play e p K n (S (S m)) c w) with (do! ' (c1, w1) <- step e p (with_interrupt c (K n)) w ; play e p K (S n) (S m) c1 w1) in E.
    destruct (step e p (with_interrupt c (K n)) w) as [[c1 w1]|] eqn:S1; [|discriminate]. cbn [bind] in E.
    rewrite (IH _ _ _ _ _ (step_wf e p _ w c1 w1 (key_wf c (K n) W) He S1) E). f_equal. lia.
Qed.

(** ** C126 *)
(** As long as no instruction sets a timer, a host that runs the machine in
    portions and sets the key before each has the machine, the readings of the
    clock and the random numbers, or the panic, of one that takes the
    instructions one by one and sets the same key before each of them. *)
Theorem C126_frames : forall e p l c w, env_ok e -> well_formed c -> none_empty l -> sets_no_timer e p (keys_of l) c w (instructions_of l) ->
  frames8 e p c w l = play e p (keys_of l) 0 (instructions_of l) c w.
Proof.
  intros e p l c w He. revert c w. induction l as [|[k m] l IH]; intros c w W Pos Q; [reflexivity|].
  inversion Pos as [|? ? Hm Pl]; subst. cbn [snd] in Hm. unfold instructions_of in Q |- *. cbn [map snd list_sum fold_right] in Q |- *. fold (list_sum (map snd l)) in Q |- *.
  set (K := keys_of ((k, m) :: l)) in *.
  assert (Kk : forall i, (i < m)%nat -> K (0 + i)%nat = k) by (intros i Hi; unfold K; cbn [keys_of]; replace (0 + i)%nat with i by lia; destruct (Nat.ltb_spec i m); [reflexivity|lia]).
  assert (Kl : forall i, K (m + i)%nat = keys_of l (0 + i)%nat) by (intros i; unfold K; cbn [keys_of]; destruct (Nat.ltb_spec (m + i) m); [lia|]; f_equal; lia).
  cbn [frames8]. unfold run. rewrite (portion_play e p K k m He 0 c w W Kk) by (intros i c' w' word Hi; apply Q; lia).
  rewrite play_app. destruct (play e p K 0 m c w) as [[c1 w1]|] eqn:E; [|reflexivity]. cbn [bind].
  destruct m as [|m]; [lia|]. rewrite (same_key c1 k) by (rewrite (play_key e p K m He 0 c w c1 w1 W E); apply Kk; lia).
  cbn [ss_unwrap ss_from ss_new Nat.add]. rewrite (play_ext e p K (keys_of l) _ (S m) 0 c1 w1 (fun i _ => Kl i)). apply IH; [exact (play_wf e p K _ He _ _ _ _ _ W E)|exact Pl|].
  intros i c' w' word Hi Hp. apply (Q (S m + i)%nat c' w' word); [unfold instructions_of in Hi; lia|]. rewrite play_app, E. cbn [bind Nat.add].
  rewrite (play_ext e p K (keys_of l) i (S m) 0 c1 w1 (fun j _ => Kl j)). exact Hp.
Qed.

(** ** Programs *)
Lemma timeless_does prog : timeless prog -> does no_timer prog.
Proof. induction prog as [|op| | |]; cbn [timeless does]; intros H; try (exact I); try (destruct H; split; auto); auto. Qed.
Lemma skip_no_timer b : no_timer (skip_if b).
Proof. destruct b; exact I. Qed.
Lemma plays_quiet e p K lo hi N c w : forall n n' c1 w1, plays8 e p K lo hi no_timer n n' c w c1 w1 -> (N <= n' - n)%nat ->
  forall i c' w' word, (i < N)%nat -> play e p K n i c w = Ok (c', w') -> fetches p c' word -> sets_timer word = false.
Proof.
  intros n n' c1 w1 X. revert N. induction X as [n c w|n n' c w c1 w1 c2 w2 Hp (op & Ho & No & F) E X IH]; intros N HN i c' w' word Hi Hpl Hf; [lia|].
  destruct i as [|i].
  - injection Hpl as <- <-. replace word with (encode op) by (destruct F as [_ ->], Hf as [_ ->]; reflexivity). exact (no_timer_word op Ho No).
  - cbn [play] in Hpl. rewrite E in Hpl. cbn [bind] in Hpl. exact (IH (n' - S n)%nat ltac:(lia) i c' w' word ltac:(lia) Hpl Hf).
Qed.
Lemma frames_plays e p l lo hi c w c1 w1 : env_ok e -> well_formed c -> none_empty l -> plays8 e p (keys_of l) lo hi no_timer 0 (instructions_of l) c w c1 w1 ->
  frames8 e p c w l = Ok (c1, w1).
Proof.
  intros He W Pos X. rewrite (C126_frames e p l c w He W Pos); [exact (plays_all _ _ _ _ _ _ _ _ _ _ _ X)|].
  exact (plays_quiet e p _ lo hi (instructions_of l) c w 0%nat (instructions_of l) c1 w1 X ltac:(lia)).
Qed.

(** A program that has not ended when the portions are used up: the machine is
    inside the code. *)
Theorem C126_on_the_way : forall e p l c w L prog s' w' n', env_ok e -> about_to_run8 c L prog -> none_empty l -> timeless prog ->
  let hi := L + bytes (translate L prog) in
  hosted8 e p L hi (keys_of l) prog (observe c) w 0 s' w' n' -> (instructions_of l < n')%nat ->
  exists c1 w1, frames8 e p c w l = Ok (c1, w1) /\ L <= observe c1 PPC < hi.
Proof.
  intros e p l c w L prog s' w' n' He Ha Pos T hi E Hn. destruct (setting8 c L prog Ha) as (H0 & H1 & Pl & St & Hp).
  destruct (cmd_plays8 e p He _ _ _ no_timer (fun _ => I) skip_no_timer _ H0 H1 _ _ _ _ _ _ _ E L Pl (timeless_does _ T) c St Hp) as (c' & X & _ & _).
  destruct (plays8_take _ _ _ _ _ _ _ _ _ _ _ _ X (instructions_of l) ltac:(lia)) as (c1 & w1 & X1 & R). exists c1, w1.
  split; [exact (frames_plays e p l _ _ c w c1 w1 He (proj1 Ha) Pos X1)|exact (R Hn)].
Qed.

Lemma rest_plays e p K lo hi text c w : env_ok e -> 0 <= lo -> hi < 4096 -> forall m n s, state8 lo hi text s c -> coded text (observe c PPC) [JpNonV0Indexed (observe c PPC)] ->
  lo <= observe c PPC -> observe c PPC + 2 <= hi -> exists c' s', plays8 e p K lo hi no_timer n (n + m) c w c' w /\ state8 lo hi text s' c' /\ observe c' PPC = observe c PPC /\
    forall q, q <> PKey -> s' q = s q.
Proof.
  intros He H0 H1 m. revert c. induction m as [|m IH]; intros c n s St C Hl Hh.
  - exists c, s. rewrite Nat.add_0_r. split; [constructor|]. split; [exact St|]. split; reflexivity.
  - destruct (jump_plays8 e p He K lo hi no_timer (fun _ => I) text H0 H1 n s c w (observe c PPC) [] (observe c PPC) St C Hl Hh eq_refl ltac:(lia)) as (c1 & X & St1 & Hp1).
    rewrite <- Hp1 in C, Hl, Hh. destruct (IH c1 (S n) _ St1 C Hl Hh) as (c2 & s2 & X2 & St2 & Hp2 & O).
    exists c2, s2. replace (n + S m)%nat with (S n + m)%nat by lia. split; [exact (plays8_app _ _ _ _ _ _ _ _ _ _ _ _ X _ _ _ X2)|]. split; [exact St2|].
    split; [congruence|]. intros q Hq. rewrite (O q Hq). apply seen_other. exact Hq.
Qed.

(** A program that ends within the portions: the machine rests at its end, and
    everything but the key is as the language says. *)
Theorem C126_ends : forall e p l c w L prog s' w' n', env_ok e -> about_to_rest8 c L prog -> none_empty l -> timeless prog ->
  let hi := L + bytes (translate L prog) in
  hosted8 e p L (hi + 2) (keys_of l) prog (observe c) w 0 s' w' n' -> (n' <= instructions_of l)%nat ->
  exists c', frames8 e p c w l = Ok (c', w') /\ observe c' PPC = hi /\ forall q, q <> PPC -> q <> PKey -> observe c' q = s' q.
Proof.
  intros e p l c w L prog s' w' n' He (W & Hp & (La & _ & Ld) & Hh & G) Pos T hi E Hn. fold hi in Ld, Hh.
  set (text := fun a => observe c (PMem a)). assert (C : coded text L (translate L prog ++ [JpNonV0Indexed hi])) by exact Ld. apply coded_app in C. destruct C as [C Cj]. fold hi in Cj.
  pose proof (bytes_nonneg (translate L prog)).
  assert (Pl : placed8 L (hi + 2) text L prog) by (split; [exact C|split; [lia|split; [unfold hi; lia|exact G]]]).
  assert (St : state8 L (hi + 2) text (observe c) c) by (split; [exact W|split; [intros q _; reflexivity|intros a _; reflexivity]]).
  destruct (cmd_plays8 e p He _ _ _ no_timer (fun _ => I) skip_no_timer _ La Hh _ _ _ _ _ _ _ E L Pl (timeless_does _ T) c St Hp) as (c1 & X & St1 & Hp1). fold hi in Hp1.
  rewrite <- Hp1 in Cj. destruct (rest_plays e p (keys_of l) L (hi + 2) text c1 w' He La Hh (instructions_of l - n') n' s' St1) as (c2 & s2 & X2 & (_ & A2 & _) & Hp2 & O).
  { exact Cj. } { rewrite Hp1. unfold hi. lia. } { rewrite Hp1. lia. }
  exists c2. replace (n' + (instructions_of l - n'))%nat with (instructions_of l) in X2 by lia.
  split; [exact (frames_plays e p l _ _ c w c2 w' He W Pos (plays8_app _ _ _ _ _ _ _ _ _ _ _ _ X _ _ _ X2))|]. split; [congruence|].
  intros q Q1 Q2. rewrite (A2 q Q1). apply O. exact Q2.
Qed.

Lemma broken_does P e p lo hi K prog s w n op s' w' n' : broken8 e p lo hi K prog s w n op s' w' n' -> does P prog -> P op.
Proof. induction 1; cbn [does]; intros D; auto; destruct D; auto. Qed.

(** A program that comes to an instruction that cannot be executed: the host
    panics if the portions go that far. *)
Theorem C126_breaks : forall e p l c w L prog op s' w' n', env_ok e -> about_to_run8 c L prog -> none_empty l -> timeless prog ->
  let hi := L + bytes (translate L prog) in
  broken8 e p L hi (keys_of l) prog (observe c) w 0 op s' w' n' -> effect e p (seen s' (keys_of l n')) w' op = None -> (n' < instructions_of l)%nat ->
  frames8 e p c w l = Panic.
Proof.
  intros e p l c w L prog op s' w' n' He Ha Pos T hi B En Hn. destruct (setting8 c L prog Ha) as (H0 & H1 & Pl & St & Hp).
  destruct (cmd_broken8 e p He _ _ _ no_timer (fun _ => I) skip_no_timer _ H0 H1 _ _ _ _ _ _ _ _ B L Pl (timeless_does _ T) c St Hp) as (m & X & _ & _ & F & Ho & _).
  destruct (C122_breaks e p (keys_of l) c w L prog op s' w' n' He Ha B) as (m' & Y & _ & _ & _ & Pn). destruct (Pn En) as [_ Pn'].
  assert (m = m') as <- by (pose proof (plays_all _ _ _ _ _ _ _ _ _ _ _ X); congruence).
  rewrite (C126_frames e p l c w He (proj1 Ha) Pos); [exact (Pn' _ Hn)|].
  intros i c1 w1 word Hi Hpl Hf. destruct (Nat.lt_trichotomy i n') as [Hlt|[->|Hgt]].
  - exact (plays_quiet e p _ _ _ n' c w 0 n' m w' X ltac:(lia) i c1 w1 word Hlt Hpl Hf).
  - rewrite Y in Hpl. injection Hpl as <- <-. replace word with (encode op) by (destruct F as [_ ->], Hf as [_ ->]; reflexivity). apply no_timer_word; [exact Ho|].
    exact (broken_does _ _ _ _ _ _ _ _ _ _ _ _ _ _ B (timeless_does _ T)).
  - rewrite (Pn' i Hgt) in Hpl. discriminate Hpl.
Qed.

(** A program that neither ends nor goes wrong: the host never panics, and after
    each portion the machine is inside the code. *)
Theorem C126_forever : forall e p l c w L prog, env_ok e -> about_to_run8 c L prog -> none_empty l -> timeless prog ->
  let hi := L + bytes (translate L prog) in
  (forall s' w' n', ~ hosted8 e p L hi (keys_of l) prog (observe c) w 0 s' w' n') -> (forall op s' w' n', ~ broken8 e p L hi (keys_of l) prog (observe c) w 0 op s' w' n') ->
  exists c' w', frames8 e p c w l = Ok (c', w') /\ L <= observe c' PPC < hi.
Proof.
  intros e p l c w L prog He Ha Pos T hi Ne Nb. destruct (setting8 c L prog Ha) as (H0 & H1 & Pl & St & Hp).
  destruct (lasts_or_ends8 e p He (keys_of l) _ _ no_timer (fun _ => I) skip_no_timer _ H0 H1 (S (instructions_of l)) prog L (observe c) w 0 Pl (timeless_does _ T))
    as [(s' & w' & n' & E)|[(op & s1 & w1 & n1 & B)|N]]; [destruct (Ne _ _ _ E)|destruct (Nb _ _ _ _ B)|].
  destruct (N c St Hp) as (c2 & w2 & X2). destruct (plays8_take _ _ _ _ _ _ _ _ _ _ _ _ X2 (instructions_of l) ltac:(lia)) as (c1 & w1 & X1 & R). exists c1, w1.
  split; [exact (frames_plays e p l _ _ c w c1 w1 He (proj1 Ha) Pos X1)|exact (R ltac:(lia))].
Qed.

(** With timers it can be different: the host that runs one portion of two
    instructions finds another number in V1 than the one that takes the
    instructions from the iterator. *)
Theorem C126_timers_needed : exists e c w l, env_ok e /\ well_formed c /\ none_empty l /\
  ~ SpecChip8Run.alike (frames8 e Debug c w l) (play e Debug (keys_of l) 0 (instructions_of l) c w).
Proof.
  exists ticking, timer_demo, (mkWorld 2 0), [(None, 2%nat)].
  split; [intros k; cbn; unfold u8; lia|]. split; [apply demo_wf; vm_compute; reflexivity|]. split; [repeat constructor|].
  intros A. assert (R : match frames8 ticking Debug timer_demo (mkWorld 2 0) [(None, 2%nat)] with Ok (c, _) => observe c (PV 1) | Panic => -1 end =
    match play ticking Debug (keys_of [(None, 2%nat)]) 0 (instructions_of [(None, 2%nat)]) timer_demo (mkWorld 2 0) with Ok (c, _) => observe c (PV 1) | Panic => -1 end).
  { revert A. generalize (frames8 ticking Debug timer_demo (mkWorld 2 0) [(None, 2%nat)]).
    generalize (play ticking Debug (keys_of [(None, 2%nat)]) 0 (instructions_of [(None, 2%nat)]) timer_demo (mkWorld 2 0)).
    intros [[a u]|] [[b v]|]; cbn [SpecChip8Run.alike]; try contradiction; [intros [-> _]; reflexivity|reflexivity]. }
  vm_compute in R. discriminate R.
Qed.

(** ** Waiting for a key *)
Lemma keys_in l : forall n, (n < instructions_of l)%nat -> exists f, In f l /\ keys_of l n = fst f.
Proof.
  induction l as [|[k m] l IH]; intros n Hn; [inversion Hn|]. change (instructions_of ((k, m) :: l)) with (m + instructions_of l)%nat in Hn. cbn [keys_of].
  destruct (Nat.ltb_spec n m) as [H|H]; [exists (k, m); split; [left; reflexivity|reflexivity]|].
  destruct (IH (n - m)%nat ltac:(lia)) as (f & Hf & E). exists f. split; [right; exact Hf|exact E].
Qed.
Lemma keys_after l : forall n, (instructions_of l <= n)%nat -> keys_of l n = None.
Proof.
  induction l as [|[k m] l IH]; intros n Hn; [reflexivity|]. change (instructions_of ((k, m) :: l)) with (m + instructions_of l)%nat in Hn. cbn [keys_of].
  destruct (Nat.ltb_spec n m) as [H|H]; [lia|]. apply IH. lia.
Qed.
Lemma keys_held l k m : In (k, m) l -> exists t, (t + m <= instructions_of l)%nat /\ forall i, (i < m)%nat -> keys_of l (t + i)%nat = k.
Proof.
  induction l as [|[k1 m1] l IH]; intros H; [destruct H|]. change (instructions_of ((k1, m1) :: l)) with (m1 + instructions_of l)%nat. destruct H as [H|H].
  - injection H as -> ->. exists 0%nat. split; [lia|]. intros i Hi. cbn [keys_of]. destruct (Nat.ltb_spec (0 + i) m); [reflexivity|lia].
  - destruct (IH H) as (t & Ht & E). exists (m1 + t)%nat. split; [lia|]. intros i Hi. cbn [keys_of]. destruct (Nat.ltb_spec (m1 + t + i) m1); [lia|].
    replace (m1 + t + i - m1)%nat with (t + i)%nat by lia. exact (E i Hi).
Qed.
Lemma rest_run c L prog : about_to_rest8 c L prog -> about_to_run8 c L prog.
Proof.
  intros (W & Hp & (La & Lb & Ld) & Hh & G). pose proof (bytes_app (translate L prog) [JpNonV0Indexed (L + bytes (translate L prog))]) as Eb. unfold bytes in Eb, Hh.
  split; [exact W|]. split; [exact Hp|]. split; [|split; [unfold bytes; lia|exact G]].
  split; [exact La|]. split; [rewrite app_length in Lb; cbn [length] in Lb; lia|].
  intros k op Hk. apply Ld. rewrite nth_error_app1; [exact Hk|]. apply nth_error_Some. congruence.
Qed.

(** A loop that waits for the key of register x: if that key is held for a
    portion of three instructions or more the host finds the machine past the
    loop, and nothing but the key changed. If the host never presses it, the
    machine stays in the loop. *)
Theorem C126_wait : forall e p l c w L x, env_ok e -> about_to_rest8 c L (await x) -> none_empty l ->
  (forall k n, In (k, n) l -> (3 <= n)%nat -> key_number k = reg c x ->
     exists c', frames8 e p c w l = Ok (c', w) /\ observe c' PPC = L + 6 /\ forall q, q <> PPC -> q <> PKey -> observe c' q = observe c q) /\
  ((forall k n, In (k, n) l -> key_number k <> reg c x) -> exists c' w', frames8 e p c w l = Ok (c', w') /\ L <= observe c' PPC < L + 6).
Proof.
  intros e p l c w L x He Ha Pos. split.
  - intros k n Hin Hn Hk. destruct (keys_held l k n Hin) as (t & Ht & Kt).
    assert (N : exists i, (2 * i <= S t)%nat /\ notices (keys_of l) (reg c x) i).
    { unfold notices. destruct (Nat.Even_or_Odd t) as [[i Hi]|[i Hi]].
      - exists i. split; [lia|]. replace (2 * i)%nat with (t + 0)%nat by lia. rewrite Kt by lia. exact Hk.
      - exists (S i). split; [lia|]. replace (2 * S i)%nat with (t + 1)%nat by lia. rewrite Kt by lia. exact Hk. }
    destruct N as (i & Hi & N). destruct (first_notice _ _ _ N) as (j & Hj & Nj & Fj).
    destruct (await_ends e p L (L + bytes (translate L (await x)) + 2) (keys_of l) x w j 0 (observe c) Nj Fj) as (s' & X & O).
    destruct (C126_ends e p l c w L (await x) s' w _ He Ha Pos I X ltac:(lia)) as (c' & Y & Hp & A).
    exists c'. split; [exact Y|]. split; [exact Hp|]. intros q Q1 Q2. rewrite (A q Q1 Q2). exact (O q Q2).
  - intros N. apply (C126_forever e p l c w L (await x) He (rest_run _ _ _ Ha) Pos I).
    + intros s' w' n' E. destruct (await_hosted _ _ _ _ _ x _ _ _ _ _ _ _ E eq_refl) as (i & Hi). fold (reg c x) in Hi.
      destruct (Nat.lt_ge_cases (0 + 2 * i) (instructions_of l)) as [Hlt|Hge].
      * destruct (keys_in l _ Hlt) as ([k n] & Hin & Ek). rewrite Ek in Hi. exact (N k n Hin Hi).
      * rewrite (keys_after l _ Hge) in Hi. cbn [key_number] in Hi. destruct Ha as (W & _ & _ & _ & (Hx & _)).
        pose proof (observe_v_u8 c (gp_index x) W ltac:(cbn in Hx; destruct x; cbn; try lia; contradiction)) as U. unfold u8 in U. unfold reg in *. lia.
    + intros op s' w' n' B. exact (await_unbroken _ _ _ _ _ x _ _ _ _ _ _ _ _ B eq_refl).
Qed.

(** ** Concrete cases *)
Lemma demo_resting prog : good8 prog -> Forall operands_ok (translate 0x200 prog) -> 0x200 + bytes (translate 0x200 prog) + 2 < 4096 ->
  exists c, about_to_rest8 c 0x200 prog /\ observe c (PV 1) = 0 /\ observe c PKey = -1.
Proof.
  intros G F H. assert (K : observe looping_demo PKey = -1) by (vm_compute; reflexivity). pose proof (bytes_nonneg (translate 0x200 prog)).
  pose proof looping_loaded as X. revert X K. generalize looping_demo. intros c (W & _ & Hp & V1_0) K.
  destruct (put_instructions (translate 0x200 prog ++ [JpNonV0Indexed (0x200 + bytes (translate 0x200 prog))]) c 0x200 W ltac:(lia)) as (c2 & W2 & L2 & Ag).
  { rewrite app_length. cbn [length]. unfold bytes in H. lia. }
  { apply Forall_app. split; [exact F|]. constructor; [cbn [operands_ok]; lia|constructor]. }
  exists c2. split; [|split; (rewrite Ag; [assumption|intros []])]. split; [exact W2|]. split; [rewrite Ag; [exact Hp|intros []]|]. split; [exact L2|]. split; [exact H|exact G].
Qed.
(** Key 0 (V1 is 0) is pressed for the second of three portions, or never. *)
Definition tap : list (option interrupt * nat) := [(None, 5%nat); (Some (InterruptKeyPress Key0), 3%nat); (None, 4%nat)].
Definition wrong_key : list (option interrupt * nat) := [(None, 5%nat); (Some (InterruptKeyPress Key1), 3%nat); (None, 4%nat)].
Example C126_wait_case : exists c c' c2 w2, about_to_rest8 c 0x200 (await V1) /\ none_empty tap /\ none_empty wrong_key /\
  frames8 env0 Debug c w0 tap = Ok (c', w0) /\ observe c' PPC = 0x206 /\ frames8 env0 Debug c w0 wrong_key = Ok (c2, w2) /\ observe c2 PPC < 0x206.
Proof.
  destruct (demo_resting (await V1)) as (c & Ha & V1_0 & _).
  { repeat split; discriminate. }
  { repeat constructor; cbn; lia. }
  { reflexivity. }
  assert (P1 : none_empty tap) by (repeat constructor). assert (P2 : none_empty wrong_key) by (repeat constructor).
  destruct (proj1 (C126_wait env0 Debug tap c w0 0x200 V1 env0_ok Ha P1) (Some (InterruptKeyPress Key0)) 3%nat) as (c' & E & Hp & _);
    [right; left; reflexivity|lia|unfold reg; cbn [gp_index]; rewrite V1_0; reflexivity|].
  destruct (proj2 (C126_wait env0 Debug wrong_key c w0 0x200 V1 env0_ok Ha P2)) as (c2 & w2 & E2 & Hp2).
  { intros k n Hin. unfold reg. cbn [gp_index]. rewrite V1_0. destruct Hin as [H|[H|[H|[]]]]; injection H as <- <-; discriminate. }
  exists c, c', c2, w2. split; [exact Ha|]. split; [exact P1|]. split; [exact P2|]. split; [exact E|]. split; [exact Hp|]. split; [exact E2|]. apply Hp2.
Qed.
(** V0 := 7, then FF0A: it panics if a key is pressed in the second portion. *)
Definition press_late : list (option interrupt * nat) := [(None, 1%nat); (Some (InterruptKeyPress KeyA), 2%nat)].
Example C126_breaks_case : exists c, about_to_run8 c 0x200 ask /\ none_empty press_late /\ timeless ask /\ frames8 env0 Debug c w0 press_late = Panic.
Proof.
  destruct (demo_with ask) as (c & Ha & _).
  { repeat split; cbn; unfold u8; lia. }
  { repeat constructor; cbn; unfold u8; lia. }
  { reflexivity. }
  assert (P1 : none_empty press_late) by (repeat constructor).
  exists c. split; [exact Ha|]. split; [exact P1|]. split; [repeat split|].
  apply (C126_breaks env0 Debug press_late c w0 0x200 ask (LdK Vf) (upd (advance (seen (observe c) None) 2) (PV 0) 7) w0 1 env0_ok Ha P1 ltac:(repeat split)); [|reflexivity|cbn; lia].
  eapply broken8_then2; [|apply broken8_do; left; reflexivity]. apply hosted8_do; [reflexivity|intros a _; reflexivity].
Qed.

Print Assumptions C126_frames.
Print Assumptions C126_on_the_way.
Print Assumptions C126_ends.
Print Assumptions C126_breaks.
Print Assumptions C126_forever.
Print Assumptions C126_timers_needed.
Print Assumptions C126_wait.
