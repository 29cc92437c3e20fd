(** [run], the instruction iterator and their invariants. *)
From Verif Require Import Base Arith ModelMap ModelStep ModelRegs6502 ModelCpu6502 ModelOperand
  ModelIsa6502 ModelOps6502 ModelRun6502 SpecMap ProofMap Link6502.

Ltac head_of t := lazymatch t with ?f _ => head_of f | _ => t end.

Section Run.
Context {D : Type} `{Device D}.
Implicit Type cpu : mos6502 D.

Lemma foldM_app {A B} (f : A -> B -> res A) l1 l2 a :
  foldM f (l1 ++ l2) a = (do! a' <- foldM f l1 a ; foldM f l2 a').
Proof.
  revert a. induction l1 as [|b l1 IH]; intros a; cbn; [reflexivity|].
  destruct (f a b) as [a'|]; cbn; [apply IH|reflexivity].
Qed.

Lemma concat_repeat_nil {A} n : concat (repeat (@nil A) n) = [].
Proof. induction n; cbn; auto. Qed.

(** What [next] guarantees about the operations it yields. *)
Lemma next_inv p cpu mops cpu' : next p cpu = Ok (mops, cpu') ->
  exists n, ops_cycles mops = S n /\
    operations_into_cycles mops =
      Ok (repeat [] n ++ [ops_microcode mops ++ [Inc16bitRegister Pc (ops_offset mops mod 65536)]]) /\
    foldM (execute_mut p) (ops_microcode mops ++ [Inc16bitRegister Pc (ops_offset mops mod 65536)]) cpu
      = Ok cpu'.
Proof.
  unfold next. intros Hn.
  destruct (am_read p (amap cpu) (reg_pc cpu)) as [b0|]; cbn [bind] in Hn; [|discriminate].
  destruct (add_u16 p (reg_pc cpu) 1) as [pc1|]; cbn [bind] in Hn; [|discriminate].
  destruct (am_read p (amap cpu) pc1) as [b1|]; cbn [bind] in Hn; [|discriminate].
  destruct (add_u16 p (reg_pc cpu) 2) as [pc2|]; cbn [bind] in Hn; [|discriminate].
  destruct (am_read p (amap cpu) pc2) as [b2|]; cbn [bind] in Hn; [|discriminate].
  destruct (parse_instruction b0 b1 b2) as [v|]; [|discriminate].
  destruct (generate p v cpu) as [m|]; cbn [bind] in Hn; [|discriminate].
  unfold operations_into_cycles in Hn |- *.
  destruct (ops_cycles m) as [|n] eqn:Ec; cbn [bind] in Hn; [discriminate|].
  rewrite concat_app, concat_repeat_nil in Hn. cbn [concat app] in Hn.
  rewrite app_nil_r in Hn.
  destruct (foldM _ _ cpu) as [c|] eqn:Ef; cbn [bind] in Hn; [|discriminate].
  injection Hn as <- <-. exists n. rewrite Ec. auto.
Qed.

Lemma take_buffer p mc it : forall j n,
  take_cycles p n (repeat [] j ++ [mc]) it =
  if Nat.leb n j then Ok (repeat [] n)
  else (do! rest <- take_cycles p (n - j - 1) [] it ; Ok (repeat [] j ++ mc :: rest)).
Proof.
  induction j as [|j IH]; intros n.
  - destruct n as [|n]; cbn; [reflexivity|]. rewrite Nat.sub_0_r. reflexivity.
  - destruct n as [|n]; [reflexivity|].
    cbn [repeat app take_cycles Nat.leb]. rewrite IH.
    destruct (Nat.leb n j) eqn:E; cbn [bind]; [reflexivity|].
    cbn [Nat.sub]. destruct (take_cycles p (n - j - 1) [] it); reflexivity.
Qed.

(** Generating [n] cycles from [cpu] and replaying them on [cpu]. *)
Definition go p n cpu : res (mos6502 D) :=
  do! cs <- take_cycles p n [] cpu ; foldM (execute_mut p) (concat cs) cpu.

Lemma go_zero p cpu : go p 0 cpu = Ok cpu.
Proof. reflexivity. Qed.

Lemma go_succ p n cpu : go p (S n) cpu =
  match observed_step p cpu with
  | Panic => Panic
  | Ok (c, cpu') => if Nat.ltb (S n) c then Ok cpu else go p (S n - c) cpu'
  end.
Proof.
  unfold go, observed_step. cbn [take_cycles].
  destruct (next p cpu) as [[mops it']|] eqn:En; cbn [bind]; [|reflexivity].
  destruct (next_inv _ _ _ _ En) as (k & Ek & Ec & Ef). rewrite Ec, Ek. cbn [bind].
  set (mc := ops_microcode mops ++ _) in *.
  assert (G : forall buf, buf = repeat [] k ++ [mc] ->
    (do! cs <- match buf with
               | [] => Panic
               | c :: buf' => do! rest <- take_cycles p n buf' it' ; Ok (c :: rest)
               end ; foldM (execute_mut p) (concat cs) cpu)
    = if Nat.ltb (S n) (S k) then Ok cpu
      else (do! cs <- take_cycles p (S n - S k) [] it' ; foldM (execute_mut p) (concat cs) it')).
  { intros buf ->. destruct k as [|k].
    - cbn [repeat app]. change (Nat.ltb (S n) 1) with false. cbn iota.
      rewrite Nat.sub_succ, Nat.sub_0_r.
      destruct (take_cycles p n [] it') as [cs|]; cbn [bind]; [|reflexivity].
      cbn [concat]. rewrite foldM_app, Ef. reflexivity.
    - cbn [repeat app]. rewrite take_buffer.
      change (Nat.ltb (S n) (S (S k))) with (Nat.leb n k).
      destruct (Nat.leb n k); cbn [bind].
      + cbn [concat app]. rewrite concat_repeat_nil. reflexivity.
      + replace (S n - S (S k))%nat with (n - k - 1)%nat by lia.
        destruct (take_cycles p (n - k - 1) [] it') as [cs|]; cbn [bind]; [|reflexivity].
        cbn [concat app]. rewrite concat_app, concat_repeat_nil. cbn [concat app].
        rewrite foldM_app, Ef. reflexivity. }
  exact (G _ eq_refl).
Qed.

Lemma run_go p cpu n : run p cpu n = (do! s <- go p n cpu ; Ok (Ready s)).
Proof.
  unfold run, go, ss_from, ss_new.
  destruct (take_cycles p n [] cpu); cbn [bind]; reflexivity.
Qed.

Lemma step_cycles_pos p cpu c cpu' : observed_step p cpu = Ok (c, cpu') -> (1 <= c)%nat.
Proof.
  unfold observed_step. destruct (next p cpu) as [[mops it']|] eqn:En; [|discriminate].
  destruct (next_inv _ _ _ _ En) as (k & Ek & _). intros E. injection E as <- _. lia.
Qed.

(** Largest prefix of instructions that fits in the budget. *)
Definition stops_at p n t cpu' : Prop :=
  t = n \/ exists c cpu'', observed_step p cpu' = Ok (c, cpu'') /\ (n < t + c)%nat.

Lemma go_ok p : forall n cpu s, go p n cpu = Ok s ->
  exists k t, steps p k t cpu s /\ (t <= n)%nat /\ stops_at p n t s.
Proof.
  induction n as [n IH] using lt_wf_ind. intros cpu s Hg.
  destruct n as [|n].
  - rewrite go_zero in Hg. injection Hg as <-. exists 0%nat, 0%nat.
    split; [constructor|]. split; [lia|left; reflexivity].
  - rewrite go_succ in Hg. destruct (observed_step p cpu) as [[c cpu1]|] eqn:Es; [|discriminate].
    assert (Hc := step_cycles_pos _ _ _ _ Es).
    destruct (Nat.ltb (S n) c) eqn:E.
    + injection Hg as <-. exists 0%nat, 0%nat. split; [constructor|]. split; [lia|].
      right. exists c, cpu1. split; [exact Es|lia].
    + destruct (IH (S n - c)%nat ltac:(lia) cpu1 s Hg) as (k & t & Hst & Ht & Hs).
      exists (S k), (c + t)%nat. split; [econstructor; eauto|]. split; [lia|].
      destruct Hs as [Hs|(c' & cpu'' & Hs & Hlt)]; [left; lia|right].
      exists c', cpu''. split; [exact Hs|lia].
Qed.

Lemma go_panic p : forall n cpu, go p n cpu = Panic ->
  exists k t cpu', steps p k t cpu cpu' /\ (t < n)%nat /\ observed_step p cpu' = Panic.
Proof.
  induction n as [n IH] using lt_wf_ind. intros cpu Hg.
  destruct n as [|n]; [rewrite go_zero in Hg; discriminate|].
  rewrite go_succ in Hg. destruct (observed_step p cpu) as [[c cpu1]|] eqn:Es.
  - assert (Hc := step_cycles_pos _ _ _ _ Es).
    destruct (Nat.ltb (S n) c) eqn:E; [discriminate|].
    destruct (IH (S n - c)%nat ltac:(lia) cpu1 Hg) as (k & t & s & Hst & Ht & Hs).
    exists (S k), (c + t)%nat, s. split; [econstructor; eauto|]. split; [lia|exact Hs].
  - exists 0%nat, 0%nat, cpu. split; [constructor|]. split; [lia|exact Es].
Qed.

(** Executing along [steps] consumes exactly their cycles. *)
Lemma go_steps p k t cpu cpu' : steps p k t cpu cpu' -> forall n, (t <= n)%nat ->
  go p n cpu = go p (n - t) cpu'.
Proof.
  induction 1 as [cpu|k t c cpu cpu1 cpu2 Es Hst IH]; intros n Hn.
  - rewrite Nat.sub_0_r. reflexivity.
  - assert (Hc := step_cycles_pos _ _ _ _ Es).
    destruct n as [|n]; [lia|]. rewrite go_succ, Es.
    replace (Nat.ltb (S n) c) with false by lia.
    rewrite IH by lia. f_equal. lia.
Qed.

Lemma go_stop p n t k cpu cpu' : steps p k t cpu cpu' -> (t <= n)%nat -> stops_at p n t cpu' ->
  go p n cpu = Ok cpu'.
Proof.
  intros Hst Ht Hs. rewrite (go_steps _ _ _ _ _ Hst n Ht).
  destruct Hs as [->|(c & cpu'' & Es & Hlt)].
  - rewrite Nat.sub_diag. reflexivity.
  - destruct (n - t)%nat as [|r] eqn:Er; [reflexivity|].
    rewrite go_succ, Es. replace (Nat.ltb (S r) c) with true by lia. reflexivity.
Qed.

Lemma run_ready_iff p cpu n cpu' :
  run p cpu n = Ok (Ready cpu') <->
  exists k t, steps p k t cpu cpu' /\ (t <= n)%nat /\ stops_at p n t cpu'.
Proof.
  rewrite run_go. split.
  - destruct (go p n cpu) as [s|] eqn:E; cbn [bind]; [|discriminate].
    intros E'. injection E' as <-. exact (go_ok p n cpu s E).
  - intros (k & t & Hst & Ht & Hs). rewrite (go_stop p n t k cpu cpu' Hst Ht Hs). reflexivity.
Qed.

Lemma run_panic_iff p cpu n :
  run p cpu n = Panic <->
  exists k t cpu', steps p k t cpu cpu' /\ (t < n)%nat /\ observed_step p cpu' = Panic.
Proof.
  rewrite run_go. split.
  - destruct (go p n cpu) as [s|] eqn:E; cbn [bind]; [discriminate|]. intros _.
    exact (go_panic p n cpu E).
  - intros (k & t & cpu' & Hst & Ht & Hs).
    rewrite (go_steps _ _ _ _ _ Hst n ltac:(lia)).
    destruct (n - t)%nat as [|r] eqn:Er; [lia|]. rewrite go_succ, Hs. reflexivity.
Qed.

Lemma run_never_notready p cpu n r s : run p cpu n <> Ok (NotReady r s).
Proof. rewrite run_go. destruct (go p n cpu); discriminate. Qed.

Lemma run_split p cpu n cpu1 : run p cpu n = Ok (Ready cpu1) ->
  exists k t, steps p k t cpu cpu1 /\ (t <= n)%nat /\
    forall m, run p cpu (n + m) = run p cpu1 ((n - t) + m).
Proof.
  intros Hr. apply run_ready_iff in Hr as (k & t & Hst & Ht & Hs).
  exists k, t. split; [exact Hst|]. split; [exact Ht|]. intros m.
  rewrite !run_go, (go_steps _ _ _ _ _ Hst (n + m)%nat) by lia.
  replace (n + m - t)%nat with (n - t + m)%nat by lia. reflexivity.
Qed.

(** ** Replay *)
Lemma iterate_steps p : forall k cpu ms cpu', iterate p k cpu = Ok (ms, cpu') ->
  steps p k (list_sum (map ops_cycles ms)) cpu cpu' /\ length ms = k.
Proof.
  induction k as [|k IH]; intros cpu ms cpu' Hi; cbn in Hi.
  - injection Hi as <- <-. split; [constructor|reflexivity].
  - destruct (next p cpu) as [[m cpu1]|] eqn:En; cbn [bind] in Hi; [|discriminate].
    destruct (iterate p k cpu1) as [[ms' cpu2]|] eqn:Ei; cbn [bind] in Hi; [|discriminate].
    injection Hi as <- <-. destruct (IH cpu1 ms' cpu2 Ei) as [Hs Hl].
    split; [|cbn; lia]. cbn. econstructor; [|exact Hs].
    unfold observed_step. rewrite En. reflexivity.
Qed.

Lemma iterate_replay p : forall k cpu ms cpu', iterate p k cpu = Ok (ms, cpu') ->
  exists cs, expand ms = Ok cs /\ length cs = list_sum (map ops_cycles ms) /\
    foldM (execute_mut p) (concat cs) cpu = Ok cpu'.
Proof.
  induction k as [|k IH]; intros cpu ms cpu' Hi; cbn in Hi.
  - injection Hi as <- <-. exists []. auto.
  - destruct (next p cpu) as [[m cpu1]|] eqn:En; cbn [bind] in Hi; [|discriminate].
    destruct (iterate p k cpu1) as [[ms' cpu2]|] eqn:Ei; cbn [bind] in Hi; [|discriminate].
    injection Hi as <- <-.
    destruct (IH cpu1 ms' cpu2 Ei) as (cs & Ec & El & Ef).
    destruct (next_inv _ _ _ _ En) as (n & Ek & Em & Emc).
    cbn [expand]. rewrite Em, Ec. cbn [bind]. eexists. split; [reflexivity|]. split.
    + rewrite !app_length, repeat_length. cbn [length map]. rewrite El.
      change (list_sum (ops_cycles m :: map ops_cycles ms'))
        with (ops_cycles m + list_sum (map ops_cycles ms'))%nat. lia.
    + rewrite !concat_app, concat_repeat_nil. cbn [concat app]. rewrite app_nil_r.
      rewrite foldM_app, Emc. exact Ef.
Qed.

(** ** Invariants of microcode execution *)
Lemma execute_mut_inv p cpu mc cpu' (I : address_map D -> Prop) :
  (forall m a v m' r, I m -> am_write p m a v = Ok (m', r) -> I m') ->
  I (amap cpu) -> execute_mut p cpu mc = Ok cpu' -> I (amap cpu').
Proof.
  intros Hw Hi He.
  destruct mc as [a v|f v|r v|r v|r v|[] v|[] v|[] v]; cbn in He.
  - unfold exec_write_memory in He.
    destruct (am_write p (amap cpu) a v) as [[m' [w|]]|] eqn:Ew; cbn in He; try discriminate.
    injection He as <-. cbn. exact (Hw _ _ _ _ _ Hi Ew).
  - injection He as <-. exact Hi.
  - injection He as <-. destruct r; exact Hi.
  - injection He as <-. destruct r; exact Hi.
  - injection He as <-. destruct r; exact Hi.
  - injection He as <-. exact Hi.
  - injection He as <-. exact Hi.
  - injection He as <-. exact Hi.
Qed.

Lemma foldM_inv p (I : address_map D -> Prop) l : 
  (forall m a v m' r, I m -> am_write p m a v = Ok (m', r) -> I m') ->
  forall cpu cpu', I (amap cpu) -> foldM (execute_mut p) l cpu = Ok cpu' -> I (amap cpu').
Proof.
  intros Hw. induction l as [|mc l IH]; intros cpu cpu' Hi Hf; cbn in Hf.
  - injection Hf as <-. exact Hi.
  - destruct (execute_mut p cpu mc) as [c1|] eqn:E; cbn in Hf; [|discriminate].
    apply (IH c1); [|exact Hf]. exact (execute_mut_inv p cpu mc c1 I Hw Hi E).
Qed.

Lemma observed_inv p (I : address_map D -> Prop) :
  (forall m a v m' r, I m -> am_write p m a v = Ok (m', r) -> I m') ->
  forall cpu c cpu', I (amap cpu) -> observed_step p cpu = Ok (c, cpu') -> I (amap cpu').
Proof.
  intros Hw cpu c cpu' Hi Hs. unfold observed_step in Hs.
  destruct (next p cpu) as [[mops it']|] eqn:En; [|discriminate]. injection Hs as _ <-.
  destruct (next_inv _ _ _ _ En) as (n & _ & _ & Ef). exact (foldM_inv p I _ Hw cpu it' Hi Ef).
Qed.

Lemma steps_inv p (I : address_map D -> Prop) :
  (forall m a v m' r, I m -> am_write p m a v = Ok (m', r) -> I m') ->
  forall k t cpu cpu', steps p k t cpu cpu' -> I (amap cpu) -> I (amap cpu').
Proof.
  intros Hw k t cpu cpu' Hst. induction Hst as [cpu|k t c cpu cpu1 cpu2 Es Hst IH]; intros Hi; auto.
  apply IH. exact (observed_inv p I Hw cpu c cpu1 Hi Es).
Qed.

Lemma run_inv p (I : address_map D -> Prop) :
  (forall m a v m' r, I m -> am_write p m a v = Ok (m', r) -> I m') ->
  forall cpu n cpu', I (amap cpu) -> run p cpu n = Ok (Ready cpu') -> I (amap cpu').
Proof.
  intros Hw cpu n cpu' Hi Hr. apply run_ready_iff in Hr as (k & t & Hst & _).
  exact (steps_inv p I Hw k t cpu cpu' Hst Hi).
Qed.

(** ** Cycle bounds *)
Lemma generate_cycles p v cpu mops : generate p v cpu = Ok mops ->
  (2 <= ops_cycles mops <= 7)%nat.
Proof.
  assert (Br : forall cond off io mops', branch_on_case p cond off io 2 cpu = Ok mops' ->
               (2 <= ops_cycles mops' <= 7)%nat).
  { intros cond off io mops' Hb. unfold branch_on_case in Hb.
    destruct (page_from_u16 p (reg_pc cpu)) as [pg|]; cbn [bind] in Hb; [|discriminate].
    injection Hb as <-. cbn [ops_cycles operations_new].
    destruct cond; [match goal with |- context [page_contains ?a ?b] => destruct (page_contains a b) end|]; lia. }
  intros Hg. destruct v; cbn [generate] in Hg;
    match type of Hg with ?g = _ => let h := head_of g in unfold h in Hg end;
    cbv zeta in Hg;
    lazymatch type of Hg with
    | branch_on_case _ _ _ _ _ _ = _ => exact (Br _ _ _ _ Hg)
    | _ =>
        repeat (match type of Hg with
                | bind ?r _ = _ => destruct r; cbn [bind] in Hg; [|discriminate Hg]
                | (let (_, _) := ?e in _) = _ => destruct e
                end; cbv zeta in Hg);
        injection Hg as <-; cbn [ops_cycles operations_new inst_cycles];
        repeat match goal with |- context [if ?b then _ else _] => destruct b end; lia
    end.
Qed.

Lemma step_cycles p cpu c cpu' : observed_step p cpu = Ok (c, cpu') -> (2 <= c <= 7)%nat.
Proof.
  unfold observed_step, next. intros Hn.
  destruct (am_read p (amap cpu) (reg_pc cpu)) as [b0|]; cbn [bind] in Hn; [|discriminate].
  destruct (add_u16 p (reg_pc cpu) 1) as [pc1|]; cbn [bind] in Hn; [|discriminate].
  destruct (am_read p (amap cpu) pc1) as [b1|]; cbn [bind] in Hn; [|discriminate].
  destruct (add_u16 p (reg_pc cpu) 2) as [pc2|]; cbn [bind] in Hn; [|discriminate].
  destruct (am_read p (amap cpu) pc2) as [b2|]; cbn [bind] in Hn; [|discriminate].
  destruct (parse_instruction b0 b1 b2) as [v|]; [|discriminate].
  destruct (generate p v cpu) as [m|] eqn:Eg; cbn [bind] in Hn; [|discriminate].
  destruct (operations_into_cycles m) as [cs|]; cbn [bind] in Hn; [|discriminate].
  destruct (foldM _ _ cpu) as [c1|]; cbn [bind] in Hn; [|discriminate].
  injection Hn as <- <-. exact (generate_cycles p v cpu m Eg).
Qed.

Lemma steps_cycles p k t cpu cpu' : steps p k t cpu cpu' -> (2 * k <= t <= 7 * k)%nat.
Proof.
  induction 1 as [cpu|k t c cpu cpu1 cpu2 Es Hst IH]; [lia|].
  assert (Hc := step_cycles _ _ _ _ Es). lia.
Qed.

Lemma steps_app p k t cpu cpu1 : steps p k t cpu cpu1 -> forall k' t' cpu2,
  steps p k' t' cpu1 cpu2 -> steps p (k + k') (t + t') cpu cpu2.
Proof.
  induction 1 as [cpu|k t c cpu cpu1 cpu' Es Hst IH]; intros k' t' cpu2 H2; [exact H2|].
  rewrite <- Nat.add_assoc. cbn [Nat.add]. econstructor; [exact Es|]. apply IH. exact H2.
Qed.

Lemma steps_det p k t cpu cpu1 : steps p k t cpu cpu1 -> forall t' cpu2,
  steps p k t' cpu cpu2 -> t = t' /\ cpu1 = cpu2.
Proof.
  induction 1 as [cpu|k t c cpu cpu1 cpu' Es Hst IH]; intros t' cpu2 H2; inversion H2; subst.
  - auto.
  - rewrite Es in H1. injection H1 as <- <-. destruct (IH _ _ H3) as [-> ->]. auto.
Qed.
End Run.
