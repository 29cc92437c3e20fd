(** Proofs about replaying CHIP-8 microcode. *)
From Verif Require Import Base Arith ModelMap ModelU12 ModelDisplay ModelStep ModelChip8 ModelOpsChip8 ModelRunChip8.
From Verif Require Import SpecMap ProofMap Link6502 SpecChip8 SpecChip8Parts SpecChip8Run ProofDecode8 ProofChip8 ProofChip8Step
  ProofChip8Parts ProofChip8Reach.

(** ** Kinds of microcode *)
Definition replayable (mc : microcode) : Prop :=
  match mc with Inc8bitRegister (ByteTimer _) _ => False | _ => True end.
Definition untimed (mc : microcode) : Prop :=
  match mc with Inc8bitRegister (ByteTimer _) _ | Write8bitRegister (ByteTimer _) _ => False | _ => True end.

Lemma mapM_Forall {A B} (f : A -> res B) (P : B -> Prop) l : (forall a b, f a = Ok b -> P b) ->
  forall bs, mapM f l = Ok bs -> Forall P bs.
Proof.
  intros H. induction l as [|a l IH]; intros bs E; cbn [mapM] in E.
  - assert (bs = []) by congruence. subst. constructor.
  - destruct (f a) as [b|] eqn:Ea; [|discriminate]. cbn [bind] in E.
    destruct (mapM f l) as [bs'|] eqn:Em; [|discriminate]. cbn [bind] in E.
    assert (bs = b :: bs') by congruence. subst. constructor; [exact (H a b Ea)|exact (IH bs' eq_refl)].
Qed.
Lemma drw_fold_untimed c sprite x y l : forall acc acc',
  Forall untimed (snd acc) -> foldM (drw_pixel c sprite x y) l acc = Ok acc' -> Forall untimed (snd acc').
Proof.
  induction l as [|[a b] l IH]; intros [col px] acc' F E; cbn [foldM] in E.
  - assert (acc' = (col, px)) by congruence. subst. exact F.
  - unfold drw_pixel in E at 1. destruct (vec_get sprite b); [|discriminate]. cbn [bind] in E.
    destruct (display_pixel _ _ _); [|discriminate]. cbn [bind] in E.
    refine (IH _ acc' _ E). cbn [snd] in *. apply Forall_app. split; [exact F|]. repeat constructor.
Qed.

Local Ltac binds E :=
  repeat match type of E with
  | bind ?x _ = _ => let z := fresh in destruct x as [z|]; [|discriminate]; cbn [bind] in E
  end.

Local Ltac untime E :=
  repeat match goal with
  | |- context [if ?b then _ else _] => destruct b
  | |- context [match ?x with Some _ => _ | None => _ end] => destruct x as [[]|]
  end; repeat constructor.

Lemma generate_kinds e p op c w mcs w' : generate e p op c w = Ok (mcs, w') ->
  Forall replayable mcs /\
  (match op with LdSoundTimerDestTx _ | LdDelayTimerDestTx _ => True | _ => Forall untimed mcs end).
Proof.
  intros E.
  assert (R : Forall untimed mcs -> Forall replayable mcs).
  { apply Forall_impl. intros mc. destruct mc as [| [] | [] | | | | | | | | | |]; cbn; tauto. }
  assert (K : forall A B (a a' : A) (b b' : B), Ok (a, b) = Ok (a', b') -> a' = a) by (intros; congruence).
  assert (K1 : forall A (a a' : A), Ok a = Ok a' -> a' = a) by (intros; congruence).
  assert (U : match op with LdSoundTimerDestTx _ | LdDelayTimerDestTx _ => Forall replayable mcs | _ => Forall untimed mcs end).
  2:{ destruct op; split; auto. }
  destruct op; cbn [generate] in E; try (apply K in E as ->; repeat constructor; fail);
    try (match type of E with bind ?g _ = _ => destruct g as [l|] eqn:G; [|discriminate]; cbn [bind] in E end;
         apply K in E; subst mcs).
  all: try (unfold gen_ret, gen_jp_v0, gen_ld_vxvy, gen_ld_sprite, gen_ld_bcd, gen_add_i, gen_add_vxvy, gen_sub, gen_subn,
      gen_logic, gen_skp, gen_sknp, gen_shl, gen_shr, gen_se_immediate, gen_se_vxvy, gen_sne_immediate, gen_sne_vxvy,
      gen_ld_sound, gen_ld_delay in G;
      binds G;
      try (match type of G with context [let '(_, _) := ?x in _] => destruct x end);
      apply K1 in G; rewrite G; clear G; untime E; fail).
  all: match goal with
    | G : gen_drw _ _ _ _ _ = Ok _ |- _ =>
        unfold gen_drw in G; do 4 (match type of G with bind ?g _ = _ => destruct g; [|discriminate]; cbn [bind] in G end);
        destruct (foldM _ _ _) as [[col px]|] eqn:F; [|discriminate]; cbn [bind] in G;
        apply K1 in G; rewrite G; apply Forall_app; (split; [|repeat constructor]);
        exact (drw_fold_untimed _ _ _ _ _ (false, []) (col, px) (Forall_nil _) F)
    | _ => idtac
    end.
  all: try (refine (mapM_Forall _ _ _ _ _ G); intros a b H; binds H; apply K1 in H; rewrite H; exact I).
  - unfold gen_ld_from_delay in E. destruct (clock_read e p (c8_dt c) w) as [[z w1]|]; [|discriminate]. cbn [bind] in E.
    apply K in E as ->. repeat constructor.
  - apply K in E as ->. unfold gen_ld_k. untime E.
Qed.

(** ** Replay on a machine that differs in the timer times *)
Definition retimed (c : chip8) (t1 t2 : Z) : chip8 :=
  set_st (set_dt c (mkClock t1 (clock_inner (c8_dt c)))) (mkClock t2 (clock_inner (c8_st c))).
Lemma retimed_self c : retimed c (written_at (c8_dt c)) (written_at (c8_st c)) = c.
Proof. destruct c as [? ? [? ?] [? ?] ? ? ? ? ? ?]. reflexivity. Qed.
Lemma retimed_observe c t1 t2 q : q <> PDelayAt -> q <> PSoundAt -> observe (retimed c t1 t2) q = observe c q.
Proof. intros H1 H2. destruct q; try reflexivity; congruence. Qed.

Lemma replay_one e p mc c w c' w' : replayable mc -> execute_mut e p (c, w) mc = Ok (c', w') ->
  forall t1 t2 wb, exists t1' t2' t, (w_time wb <= t)%nat /\
    execute_mut e p (retimed c t1 t2, wb) mc = Ok (retimed c' t1' t2', mkWorld t (w_random wb)).
Proof.
  intros Hr E t1 t2 [tb rb].
  assert (K : forall A B (a a' : A) (b b' : B), Ok (a, b) = Ok (a', b') -> a' = a) by (intros; congruence).
  destruct mc as [a v|[r|[|]] v|[r|[|]] v|r v|[|] v|[|] v|r v|v|v|k| |[x y] v|s t v]; cbn [replayable] in Hr; try contradiction;
    cbn [execute_mut exec_write8 exec_inc8 exec_write16 exec_inc16 clock_with_value now w_time w_random] in *.
  - unfold exec_write_memory in *. change (c8_space (retimed c t1 t2)) with (c8_space c).
    destruct (am_write p (c8_space c) a v) as [[m [b|]]|]; cbn [bind] in *; try discriminate. apply K in E as ->.
    exists t1, t2, tb. split; [lia|reflexivity].
  - change (c8_gp (retimed c t1 t2)) with (c8_gp c).
    destruct (vec_set (c8_gp c) (gp_index r) v) as [gp|]; cbn [bind] in *; [|discriminate]. apply K in E as ->.
    exists t1, t2, tb. split; [lia|reflexivity].
  - apply K in E as ->. exists t1, (env_time e tb), (S tb). split; [cbn; lia|]. reflexivity.
  - apply K in E as ->. exists (env_time e tb), t2, (S tb). split; [cbn; lia|]. reflexivity.
  - change (c8_gp (retimed c t1 t2)) with (c8_gp c). change (read_gp_register (retimed c t1 t2) r) with (read_gp_register c r).
    destruct (read_gp_register c r) as [b|]; cbn [bind] in *; [|discriminate].
    destruct (vec_set (c8_gp c) (gp_index r) _) as [gp|]; cbn [bind] in *; [|discriminate]. apply K in E as ->.
    exists t1, t2, tb. split; [lia|reflexivity].
  - apply K in E as ->. exists t1, t2, tb. split; [lia|reflexivity].
  - apply K in E as ->. exists t1, t2, tb. split; [lia|reflexivity].
  - apply K in E as ->. exists t1, t2, tb. split; [lia|reflexivity].
  - apply K in E as ->. exists t1, t2, tb. split; [lia|reflexivity].
  - apply K in E as ->. exists t1, t2, tb. split; [lia|reflexivity].
  - apply K in E as ->. exists t1, t2, tb. split; [lia|reflexivity].
  - unfold exec_push in *. change (c8_stack (retimed c t1 t2)) with (c8_stack c). change (c8_sp (retimed c t1 t2)) with (c8_sp c).
    destruct (ring_write _ _ _) as [[m [b|]]|]; cbn [bind] in *; try discriminate. apply K in E as ->.
    exists t1, t2, tb. split; [lia|reflexivity].
  - apply K in E as ->. exists t1, t2, tb. split; [lia|reflexivity].
  - apply K in E as ->. exists t1, t2, tb. split; [lia|reflexivity].
  - apply K in E as ->. exists t1, t2, tb. split; [lia|reflexivity].
  - change (c8_display (retimed c t1 t2)) with (c8_display c).
    destruct (write_pixel_mut _ _ _ _) as [[d o]|]; cbn [bind] in *; [|discriminate]. apply K in E as ->.
    exists t1, t2, tb. split; [lia|reflexivity].
  - unfold exec_set_range in *. destruct s as [sx sy], t as [tx ty].
    change (c8_display (retimed c t1 t2)) with (c8_display c).
    repeat match type of E with
    | bind ?g _ = _ => match g with bind ?x _ => let z := fresh in destruct x as [z|]; cbn [bind] in *; [|discriminate] end
    end. apply K in E as ->. exists t1, t2, tb. split; [lia|reflexivity].
Qed.

Lemma replay_all e p mcs : Forall replayable mcs -> forall c w c' w', execute_all e p mcs (c, w) = Ok (c', w') ->
  forall t1 t2 wb, exists t1' t2' t, (w_time wb <= t)%nat /\
    execute_all e p mcs (retimed c t1 t2, wb) = Ok (retimed c' t1' t2', mkWorld t (w_random wb)).
Proof.
  unfold execute_all. induction 1 as [|mc mcs Hm F IH]; intros c w c' w' E t1 t2 wb; cbn [foldM] in *.
  - assert (c' = c) as -> by congruence. exists t1, t2, (w_time wb). split; [lia|]. destruct wb. reflexivity.
  - destruct (execute_mut e p (c, w) mc) as [[c1 w1]|] eqn:E1; [|discriminate]. cbn [bind] in E.
    destruct (replay_one e p mc c w c1 w1 Hm E1 t1 t2 wb) as (a1 & a2 & t & Ht & E2). rewrite E2. cbn [bind].
    destruct (IH c1 w1 c' w' E a1 a2 (mkWorld t (w_random wb))) as (b1 & b2 & t' & Ht' & E3).
    exists b1, b2, t'. split; [cbn [w_time] in Ht'; lia|exact E3].
Qed.

Lemma untimed_world e p mcs : Forall untimed mcs -> forall c w c' w', execute_all e p mcs (c, w) = Ok (c', w') ->
  w' = w /\ forall wb, execute_all e p mcs (c, wb) = Ok (c', wb).
Proof.
  unfold execute_all. induction 1 as [|mc mcs Hm F IH]; intros c w c' w' E; cbn [foldM] in *.
  - assert (c' = c) as -> by congruence. split; [congruence|reflexivity].
  - destruct (execute_mut e p (c, w) mc) as [[c1 w1]|] eqn:E1; [|discriminate]. cbn [bind] in E.
    assert (K : forall A B (a a' : A) (b b' : B), Ok (a, b) = Ok (a', b') -> a' = a /\ b' = b) by (intros; split; congruence).
    assert (X : w1 = w /\ forall wb, execute_mut e p (c, wb) mc = Ok (c1, wb)).
    { clear IH E.
      destruct mc as [a v|[r|[|]] v|[r|[|]] v|r v|[|] v|[|] v|r v|v|v|k| |[x y] v|s t v]; cbn [untimed] in Hm; try contradiction;
        cbn [execute_mut exec_write8 exec_inc8 exec_write16 exec_inc16] in *;
        repeat match goal with
        | E : bind ?x _ = _ |- _ =>
            match type of x with
            | res (_ * _) => destruct x as [[? ?]|]
            | _ => destruct x
            end; cbn [bind] in *; [|discriminate]
        end; apply K in E1 as [-> ->]; split; reflexivity. }
    destruct X as [-> X]. destruct (IH c1 w c' w' E) as [-> IH']. split; [reflexivity|].
    intros wb. rewrite X. cbn [bind]. apply IH'.
Qed.

(** ** The iterator *)
Lemma next_inv e p c w mcs c' w' : next e p c w = Ok (mcs, c', w') ->
  exists op g w1, generate e p op c w = Ok (g, w1) /\ mcs = g ++ [Inc16bitRegister WordPc 2] /\
    execute_all e p mcs (c, w1) = Ok (c', w').
Proof.
  unfold next. destruct (am_read _ _ _) as [b0|]; cbn [bind]; [|discriminate].
  destruct (add_u16 _ _ _) as [pc1|]; cbn [bind]; [|discriminate].
  destruct (am_read _ _ pc1) as [b1|]; cbn [bind]; [|discriminate].
  destruct (decode_bytes_to_opcode _) as [[op|]|]; cbn [bind unwrap]; try discriminate.
  destruct (generate e p op c w) as [[g w1]|] eqn:G; cbn [bind]; [|discriminate].
  destruct (execute_all e p (g ++ [Inc16bitRegister WordPc 2]) (c, w1)) as [[c1 w2]|] eqn:X; cbn [bind]; [|discriminate].
  intros E. exists op, g, w1. split; [exact G|].
  assert (mcs = g ++ [Inc16bitRegister WordPc 2]) by congruence. split; [assumption|]. subst. rewrite X. congruence.
Qed.
Lemma next_replayable e p c w mcs c' w' : next e p c w = Ok (mcs, c', w') -> Forall replayable mcs.
Proof.
  intros E. destruct (next_inv _ _ _ _ _ _ _ E) as (op & g & w1 & G & -> & _).
  apply Forall_app. split; [exact (proj1 (generate_kinds _ _ _ _ _ _ _ G))|repeat constructor].
Qed.
Lemma step_next e p c w mcs c' w' : next e p c w = Ok (mcs, c', w') -> step e p c w = Ok (c', w').
Proof. intros E. unfold step. rewrite E. reflexivity. Qed.
Lemma next_step e p c w c' w' : step e p c w = Ok (c', w') -> exists mcs, next e p c w = Ok (mcs, c', w').
Proof. unfold step. destruct (next e p c w) as [[[mcs c1] w1]|]; [|discriminate]. intros E. exists mcs. congruence. Qed.
Lemma next_panic e p c w : step e p c w = Panic -> next e p c w = Panic.
Proof. unfold step. destruct (next e p c w) as [[[? ?] ?]|]; [discriminate|reflexivity]. Qed.

(** Whatever [run] replays, the two machines agree but for the timer times. *)
Lemma run_loop_cases e p : forall n it t1 t2 w,
  match run_loop e p n it (retimed it t1 t2) w with
  | Ok (c', w') => exists it' a1 a2, instructions e p n it w it' w' /\ c' = retimed it' a1 a2
  | Panic => exists k it' w', (k < n)%nat /\ instructions e p k it w it' w' /\ step e p it' w' = Panic
  end.
Proof.
  induction n as [|n IH]; intros it t1 t2 w; cbn [run_loop].
  - exists it, t1, t2. split; [|reflexivity]. pose proof (instructions_0 e p it w (w_time w) ltac:(lia)) as K. destruct w. exact K.
  - destruct (next e p it w) as [[[mcs it1] w1]|] eqn:E; cbn [bind].
    2:{ exists 0%nat, it, w. split; [lia|]. split.
        - pose proof (instructions_0 e p it w (w_time w) ltac:(lia)) as K. destruct w. exact K.
        - unfold step. rewrite E. reflexivity. }
    destruct (next_inv _ _ _ _ _ _ _ E) as (op & g & w2 & _ & _ & X).
    destruct (replay_all e p mcs (next_replayable _ _ _ _ _ _ _ E) it w2 it1 w1 X t1 t2 w1) as (a1 & a2 & t & Ht & X2).
    rewrite X2. cbn [bind]. specialize (IH it1 a1 a2 (mkWorld t (w_random w1))).
    destruct (run_loop e p n it1 (retimed it1 a1 a2) (mkWorld t (w_random w1))) as [[c' w']|].
    + destruct IH as (it' & b1 & b2 & H1 & H2). exists it', b1, b2. split; [|exact H2].
      exact (instructions_S e p n it w it1 w1 t it' w' (step_next _ _ _ _ _ _ _ E) Ht H1).
    + destruct IH as (k & it' & w' & Hk & H1 & H2). exists (S k), it', w'. split; [lia|]. split; [|exact H2].
      exact (instructions_S e p k it w it1 w1 t it' w' (step_next _ _ _ _ _ _ _ E) Ht H1).
Qed.

(** ** Programs that do not set timers *)
Lemma timer_word op : operands_ok op -> sets_timer (encode op) = match op with
  | LdSoundTimerDestTx _ | LdDelayTimerDestTx _ => true | _ => false end.
Proof.
  intros H. unfold sets_timer. assert (R : forall r, 0 <= gp_index r < 16) by (intros []; cbn; lia).
  destruct op; cbn [encode operands_ok] in *; unfold u8 in *;
    repeat match goal with r : gp_register |- _ => pose proof (R r); generalize dependent (gp_index r); clear r; intros end;
    rewrite ?Bool.andb_true_iff, ?Bool.andb_false_iff, ?Bool.orb_true_iff, ?Bool.orb_false_iff, ?Z.eqb_eq, ?Z.eqb_neq; lia.
Qed.
Lemma draw_word op : operands_ok op -> draws (encode op) = match op with Rnd _ _ => true | _ => false end.
Proof.
  intros H. unfold draws. assert (R : forall r, 0 <= gp_index r < 16) by (intros []; cbn; lia).
  destruct op; cbn [encode operands_ok] in *; unfold u8 in *;
    repeat match goal with r : gp_register |- _ => pose proof (R r); generalize dependent (gp_index r); clear r; intros end; lia.
Qed.

Lemma untimed_next e p c w word mcs c' w' : well_formed c -> env_ok e -> fetches p c word -> sets_timer word = false ->
  next e p c w = Ok (mcs, c', w') -> forall wb, execute_all e p mcs (c, wb) = Ok (c', wb).
Proof.
  intros W He Hf Hs E.
  destruct (step_ok_inv e p c w c' w' W He (step_next _ _ _ _ _ _ _ E)) as (op & f & Hop & Hf' & _).
  assert (word = encode op) as -> by (destruct Hf as [_ ->], Hf' as [_ ->]; reflexivity).
  rewrite (timer_word op Hop) in Hs. rewrite (next_unfold e p c w op W Hop Hf') in E.
  destruct (generate e p op c w) as [[g w1]|] eqn:G; cbn [bind] in E; [|discriminate].
  destruct (execute_all e p (g ++ [Inc16bitRegister WordPc 2]) (c, w1)) as [[c1 w2]|] eqn:X; cbn [bind] in E; [|discriminate].
  assert (mcs = g ++ [Inc16bitRegister WordPc 2]) by congruence. assert (c1 = c') by congruence. subst.
  assert (U : Forall untimed (g ++ [Inc16bitRegister WordPc 2])).
  { apply Forall_app. split; [|repeat constructor]. pose proof (proj2 (generate_kinds _ _ _ _ _ _ _ G)) as U.
    destruct op; try exact U; discriminate. }
  exact (proj2 (untimed_world e p _ U c w1 c' w2 X)).
Qed.

Lemma run_loop_untimed e p c w h c' w' : env_ok e -> well_formed c -> executes e p c w h c' w' ->
  Forall (fun aw => sets_timer (snd aw) = false) h ->
  forall m, run_loop e p (length h + m) c c w = run_loop e p m c' c' w'.
Proof.
  intros He W X. revert W. induction X as [c w|c w word c1 w1 h c2 w2 Hf E X IH]; intros W F m; [reflexivity|].
  apply Forall_cons_iff in F as [F1 F2]. cbn [snd] in F1.
  destruct (next_step e p c w c1 w1 E) as (mcs & N). cbn [length Nat.add run_loop]. rewrite N. cbn [bind].
  rewrite (untimed_next e p c w word mcs c1 w1 W He Hf F1 N w1). cbn [bind].
  exact (IH (step_wf e p c w c1 w1 W He E) F2 m).
Qed.

(** ** Frozen clock *)
Lemma alike_bind {A B} (r1 r2 : res (A * world)) (k : A * world -> res (B * world)) :
  alike r1 r2 -> (forall a w1 w2, w_random w1 = w_random w2 -> alike (k (a, w1)) (k (a, w2))) ->
  alike (bind r1 k) (bind r2 k).
Proof.
  unfold alike at 1. destruct r1 as [[a w1]|], r2 as [[b w2]|]; try contradiction; cbn [bind]; [|intros; exact I].
  intros [-> H] K. apply K, H.
Qed.
Lemma alike_ok {A} (a : A) w1 w2 : w_random w1 = w_random w2 -> alike (Ok (a, w1)) (Ok (a, w2)).
Proof. intros H. split; [reflexivity|exact H]. Qed.
Lemma alike_lift {A} (r : res A) w1 w2 : w_random w1 = w_random w2 ->
  alike (do! l <- r ; Ok (l, w1)) (do! l <- r ; Ok (l, w2)).
Proof. intros H. destruct r; cbn [bind]; [apply alike_ok, H|exact I]. Qed.

Section Frozen.
Variables (e : environment) (p : profile).
Hypothesis Hz : frozen e.

Lemma clock_read_alike t w1 w2 : w_random w1 = w_random w2 -> alike (clock_read e p t w1) (clock_read e p t w2).
Proof.
  intros H. unfold clock_read, elapsed_secs, now. rewrite (Hz (w_time w1) (w_time w2)).
  set (s := Z.max 0 _ / _). cbv beta iota zeta.
  repeat match goal with
  | |- alike (Ok _) (Ok _) => apply alike_ok; exact H
  | |- alike Panic Panic => exact I
  | |- alike (if ?b then _ else _) _ => destruct b
  | |- alike (bind ?x _) _ => destruct x; cbn [bind]
  end.
Qed.
Lemma generate_alike op c w1 w2 : w_random w1 = w_random w2 -> alike (generate e p op c w1) (generate e p op c w2).
Proof.
  intros H. destruct op; cbn [generate]; try (apply alike_lift; exact H); try (apply alike_ok; exact H).
  - unfold gen_ld_from_delay. apply alike_bind; [apply clock_read_alike, H|]. intros; apply alike_ok; assumption.
  - unfold gen_rnd, random. rewrite H. split; [reflexivity|]. cbn [w_random]. lia.
Qed.
Lemma execute_alike mc c w1 w2 : w_random w1 = w_random w2 -> alike (execute_mut e p (c, w1) mc) (execute_mut e p (c, w2) mc).
Proof.
  intros H.
  destruct mc as [a v|[r|[|]] v|[r|[|]] v|r v|[|] v|[|] v|r v|v|v|k| |[x y] v|s t v];
    cbn [execute_mut exec_write8 exec_inc8 exec_write16 exec_inc16]; try (apply alike_ok; exact H); try (apply alike_lift; exact H).
  all: unfold clock_with_value, now.
  all: try (rewrite (Hz (w_time w1) (w_time w2)); apply alike_ok; exact H).
  - destruct (vec_set _ _ _); cbn [bind]; [apply alike_ok, H|exact I].
  - destruct (read_gp_register _ _); cbn [bind]; [|exact I]. destruct (vec_set _ _ _); cbn [bind]; [apply alike_ok, H|exact I].
  - apply alike_bind; [apply clock_read_alike, H|]. intros b u1 u2 Hu. cbv beta iota.
    rewrite (Hz (w_time u1) (w_time u2)). apply alike_ok; exact Hu.
  - apply alike_bind; [apply clock_read_alike, H|]. intros b u1 u2 Hu. cbv beta iota.
    rewrite (Hz (w_time u1) (w_time u2)). apply alike_ok; exact Hu.
  - destruct (write_pixel_mut _ _ _ _) as [[d o]|]; cbn [bind]; [apply alike_ok, H|exact I].
Qed.
Lemma execute_all_alike mcs : forall c w1 w2, w_random w1 = w_random w2 ->
  alike (execute_all e p mcs (c, w1)) (execute_all e p mcs (c, w2)).
Proof.
  unfold execute_all. induction mcs as [|mc mcs IH]; intros c w1 w2 H; cbn [foldM]; [apply alike_ok, H|].
  apply alike_bind; [apply execute_alike, H|]. intros a u1 u2 Hu. apply IH, Hu.
Qed.
Lemma next_alike c w1 w2 : w_random w1 = w_random w2 -> alike (next e p c w1) (next e p c w2).
Proof.
  intros H. unfold next.
  destruct (am_read _ _ _); cbn [bind]; [|exact I]. destruct (add_u16 _ _ _); cbn [bind]; [|exact I].
  destruct (am_read _ _ _); cbn [bind]; [|exact I]. destruct (decode_bytes_to_opcode _); cbn [bind]; [|exact I].
  destruct (unwrap _) as [op|]; cbn [bind]; [|exact I].
  apply alike_bind; [apply generate_alike, H|]. intros g u1 u2 Hu. cbv beta iota zeta.
  apply alike_bind; [apply execute_all_alike, Hu|]. intros c' v1 v2 Hv. apply alike_ok, Hv.
Qed.

Lemma execute_random mcs : forall c w c' w', execute_all e p mcs (c, w) = Ok (c', w') -> w_random w' = w_random w.
Proof.
  unfold execute_all. induction mcs as [|mc mcs IH]; intros c w c' w' E; cbn [foldM] in E.
  - congruence.
  - destruct (execute_mut e p (c, w) mc) as [[c1 w1]|] eqn:E1; [|discriminate]. cbn [bind] in E.
    rewrite (IH c1 w1 c' w' E). clear IH E.
    destruct mc as [a v|[r|[|]] v|[r|[|]] v|r v|[|] v|[|] v|r v|v|v|k| |[x y] v|s t v];
      cbn [execute_mut exec_write8 exec_inc8 exec_write16 exec_inc16] in E1; unfold clock_with_value, clock_read, elapsed_secs, now in E1;
      repeat match type of E1 with
      | bind (if ?b then _ else _) _ = _ => destruct b
      | bind (bind ?x _) _ = _ => destruct x; cbn [bind] in E1
      | bind ?x _ = _ => match type of x with
                         | res (_ * _) => destruct x as [[? ?]|] eqn:?
                         | _ => destruct x
                         end; cbn [bind] in E1
      end; try discriminate.
    all: try (match type of E1 with Ok (_, ?a) = Ok (_, ?b) => assert (b = a) as -> by congruence; reflexivity end).
    all: match type of E1 with Ok (_, mkWorld _ (w_random ?u)) = Ok (_, ?b) =>
           assert (w_random b = w_random u) as -> by (replace b with (mkWorld (S (w_time u)) (w_random u)) by congruence; reflexivity);
           match goal with H : Ok (_, mkWorld _ (w_random ?v)) = Ok (_, u) |- _ =>
             replace u with (mkWorld (S (w_time v)) (w_random v)) by congruence; reflexivity end
         end.
Qed.
End Frozen.

(** With a frozen clock [run] and the iterator agree exactly. *)
Lemma run_loop_frozen e p : frozen e -> forall n c w1 w2, w_random w1 = w_random w2 ->
  alike (run_loop e p n c c w1) (do! ' (_, c', w') <- iterate e p n c w2 ; Ok (c', w')).
Proof.
  intros Hz. induction n as [|n IH]; intros c w1 w2 H; cbn [run_loop iterate bind]; [apply alike_ok, H|].
  pose proof (next_alike e p Hz c w1 w2 H) as A. unfold alike in A at 1.
  destruct (next e p c w1) as [[[mcs c1] u1]|] eqn:E1, (next e p c w2) as [[[mcs2 c2] u2]|] eqn:E2; try contradiction; cbn [bind]; [|exact I].
  destruct A as [A Hu]. assert (mcs2 = mcs) by congruence. assert (c2 = c1) by congruence. subst mcs2 c2. clear A.
  destruct (next_inv _ _ _ _ _ _ _ E1) as (op & g & w3 & _ & _ & X).
  pose proof (execute_random e p mcs c w3 c1 u1 X) as Hr.
  pose proof (execute_all_alike e p Hz mcs c w3 u1 ltac:(symmetry; exact Hr)) as B. rewrite X in B. unfold alike in B at 1.
  destruct (execute_all e p mcs (c, u1)) as [[c3 w4]|]; [|contradiction]. destruct B as [<- B]. cbn [bind].
  specialize (IH c1 w4 u2 ltac:(congruence)).
  destruct (iterate e p n c1 u2) as [[[rest c4] w5]|]; cbn [bind] in *; exact IH.
Qed.

Lemma iterate_app e p : forall n m c w, iterate e p (n + m) c w =
  (do! ' (a, c1, w1) <- iterate e p n c w ; do! ' (b, c2, w2) <- iterate e p m c1 w1 ; Ok (a ++ b, c2, w2)).
Proof.
  induction n as [|n IH]; intros m c w; cbn [iterate Nat.add bind].
  - destruct (iterate e p m c w) as [[[b c2] w2]|]; reflexivity.
  - destruct (next e p c w) as [[[mcs c1] w1]|]; cbn [bind]; [|reflexivity]. rewrite IH.
    destruct (iterate e p n c1 w1) as [[[a c2] w2]|]; cbn [bind]; [|reflexivity].
    destruct (iterate e p m c2 w2) as [[[b c3] w3]|]; reflexivity.
Qed.

(** ** Layout *)
Lemma execute_layout e p mcs : forall c w c' w', execute_all e p mcs (c, w) = Ok (c', w') ->
  layout (c8_space c') = layout (c8_space c).
Proof.
  unfold execute_all. induction mcs as [|mc mcs IH]; intros c w c' w' E; cbn [foldM] in E.
  - assert (c' = c) as -> by congruence. reflexivity.
  - destruct (execute_mut e p (c, w) mc) as [[c1 w1]|] eqn:E1; [|discriminate]. cbn [bind] in E.
    rewrite (IH c1 w1 c' w' E). clear IH E.
    assert (K : forall (a b : chip8) (u v : world), Ok (a, u) = Ok (b, v) -> b = a) by (intros; congruence).
    destruct mc as [a v|[r|[|]] v|[r|[|]] v|r v|[|] v|[|] v|r v|v|v|k| |[x y] v|s t v];
      cbn [execute_mut exec_write8 exec_inc8 exec_write16 exec_inc16] in E1; unfold clock_with_value, now in E1;
      try (apply K in E1 as ->; reflexivity).
    + unfold exec_write_memory in E1. destruct (am_write p (c8_space c) a v) as [[m [b|]]|] eqn:Ew; cbn [bind] in E1; try discriminate.
      apply K in E1 as ->. exact (write_layout p _ _ _ _ _ Ew).
    + destruct (vec_set _ _ _); [|discriminate]. apply K in E1 as ->. reflexivity.
    + destruct (read_gp_register _ _); [|discriminate]. cbn [bind] in E1. destruct (vec_set _ _ _); [|discriminate].
      apply K in E1 as ->. reflexivity.
    + destruct (clock_read _ _ _ _) as [[? ?]|]; [|discriminate]. apply K in E1 as ->. reflexivity.
    + destruct (clock_read _ _ _ _) as [[? ?]|]; [|discriminate]. apply K in E1 as ->. reflexivity.
    + unfold exec_push in E1. destruct (ring_write _ _ _) as [[m [b|]]|]; cbn [bind] in E1; try discriminate.
      apply K in E1 as ->. reflexivity.
    + destruct (write_pixel_mut _ _ _ _) as [[d o]|]; [|discriminate]. apply K in E1 as ->. reflexivity.
    + unfold exec_set_range in E1. destruct s as [sx sy], t as [tx ty].
      repeat match type of E1 with
      | bind ?g _ = _ => match g with bind ?x _ => let z := fresh in destruct x as [z|]; cbn [bind] in *; [|discriminate] end
      end. apply K in E1 as ->. reflexivity.
Qed.
Lemma step_layout e p c w c' w' : step e p c w = Ok (c', w') -> layout (c8_space c') = layout (c8_space c).
Proof.
  intros E. destruct (next_step _ _ _ _ _ _ E) as (mcs & N). destruct (next_inv _ _ _ _ _ _ _ N) as (op & g & w1 & _ & _ & X).
  exact (execute_layout e p mcs c w1 c' w' X).
Qed.
