(** The check looks at the bytes of the code only. *)
From Verif Require Import Base Arith ModelMap ModelRegs6502 ModelCpu6502 ModelStep ModelIsa6502 ModelRun6502 SpecMap Link6502 ProofRun6502 ProofBus
  Spec6502 SpecProgram ProofProgram SpecCheck ProofCheck SpecTamper.

Definition operands_suffice (row : Z * (mnemonic * addressing_mode * nat)) : Prop :=
  let '(_, (mn, m, _)) := row in
  m <> Indirect -> forall l n b1 b2 x1 x2, (2 <= length_of m -> x1 = b1) -> (3 <= length_of m -> x2 = b2) ->
  places mn m x1 x2 = places mn m b1 b2 /\ successors_ok l mn m x1 x2 n = successors_ok l mn m b1 b2 n.
Lemma all_operands_suffice : Forall operands_suffice opcode_table.
Proof.
  unfold opcode_table, operands_suffice.
  repeat (apply Forall_cons; [|]); try apply Forall_nil.
  all: intros NI l n b1 b2 x1 x2 E1 E2;
    try (specialize (E1 ltac:(cbn [length_of]; lia)); subst x1);
    try (specialize (E2 ltac:(cbn [length_of]; lia)); subst x2);
    first [split; reflexivity | exfalso; apply NI; reflexivity].
Qed.

Section Same.
Variables (p : profile) (f g : Z -> Z) (ramb : Z -> bool) (l : listing).
Hypothesis Hg : forall q, code_byte f l q = true -> g q = f q.

Lemma own_covered n mn m c j : In n l -> decode (f (n_at n)) = Some (mn, m, c) -> 0 <= j < length_of m -> g (n_at n + j) = f (n_at n + j).
Proof.
  intros Hin Ed Hj. apply Hg. unfold code_byte. apply existsb_exists. exists n. split; [exact Hin|]. unfold covers. rewrite Ed. lia.
Qed.
Lemma first_same n : In n l -> g (n_at n) = f (n_at n).
Proof.
  intros Hin. apply Hg. unfold code_byte. apply existsb_exists. exists n. split; [exact Hin|]. unfold covers.
  destruct (decode (f (n_at n))) as [[[mn m] c]|]; [pose proof (length_range m)|]; lia.
Qed.
Lemma code_same q : code_byte g l q = code_byte f l q.
Proof.
  unfold code_byte. assert (G : forall l', incl l' l -> existsb (fun n => covers g n q) l' = existsb (fun n => covers f n q) l').
  { induction l' as [|n l' IH]; intros Hi; [reflexivity|]. cbn [existsb]. rewrite IH by (intros x Hx; apply Hi; right; exact Hx).
    f_equal. unfold covers. rewrite first_same by (apply Hi; left; reflexivity). reflexivity. }
  apply G. intros x Hx. exact Hx.
Qed.
Lemma operands_same n mn m c : In n l -> decode (f (n_at n)) = Some (mn, m, c) -> refused p mn m = false ->
  places mn m (g (n_at n + 1)) (g (n_at n + 2)) = places mn m (f (n_at n + 1)) (f (n_at n + 2)) /\
  successors_ok l mn m (g (n_at n + 1)) (g (n_at n + 2)) n = successors_ok l mn m (f (n_at n + 1)) (f (n_at n + 2)) n.
Proof.
  intros Hin Ed R. pose proof (proj1 (Forall_forall _ _) all_operands_suffice _ (decode_row _ _ Ed)) as K. cbn in K. apply K.
  - intros ->. destruct mn, p; discriminate R.
  - intros H2. eapply own_covered; eauto. lia.
  - intros H3. eapply own_covered; eauto. lia.
Qed.

Lemma passes_same : passes p f ramb l = true -> passes p g ramb l = true.
Proof.
  unfold passes. intros H. apply andb_prop in H as [H1 H2]. apply andb_true_intro. split.
  - rewrite forallb_forall in *. intros i Hi. rewrite code_same. exact (H1 i Hi).
  - rewrite forallb_forall in *. intros n Hin. specialize (H2 n Hin). unfold instruction_ok in *. rewrite first_same by exact Hin.
    apply andb_prop in H2 as [HA HB]. apply andb_true_intro. split; [exact HA|].
    destruct (decode (f (n_at n))) as [[[mn m] c]|] eqn:Ed; [|discriminate].
    apply andb_prop in HB as [HB HS]. apply andb_prop in HB as [HR HP].
    destruct (operands_same n mn m c Hin Ed ltac:(apply Bool.negb_true_iff; exact HR)) as [EP ES]. rewrite EP, ES, HR, HS, Bool.andb_true_r. cbn [andb].
    rewrite forallb_forall in *. intros q Hq. rewrite code_same. exact (HP q Hq).
Qed.
Lemma stored_to_same q : passes p f ramb l = true -> stored_to g l q -> stored_to f l q.
Proof.
  intros Hp (n & mn & m & c & Hin & Ed & Hq). rewrite first_same in Ed by exact Hin. exists n, mn, m, c. split; [exact Hin|]. split; [exact Ed|].
  unfold passes in Hp. apply andb_prop in Hp as [_ Hp]. rewrite forallb_forall in Hp. specialize (Hp n Hin). unfold instruction_ok in Hp. rewrite Ed in Hp.
  apply andb_prop in Hp as [_ HB]. apply andb_prop in HB as [HB HS]. apply andb_prop in HB as [HR HP].
  rewrite <- (proj1 (operands_same n mn m c Hin Ed ltac:(apply Bool.negb_true_iff; exact HR))). exact Hq.
Qed.
Lemma tower_same S0 h b0 m0 u main : tower f l S0 h b0 m0 u main -> tower g l S0 h b0 m0 u main.
Proof.
  induction 1 as [|v n E (n1 & m1 & c1 & Hin & Ed & Ea) Hv Ht IH]; [constructor|]. constructor 2 with n; [exact E| |exact Hv|exact IH].
  exists n1, m1, c1. split; [exact Hin|]. rewrite first_same by exact Hin. auto.
Qed.
Lemma code_u16 q : passes p f ramb l = true -> code_byte f l q = true -> u16 q.
Proof.
  intros Hp Hq. unfold code_byte in Hq. apply existsb_exists in Hq as (n & Hin & Hq). unfold passes in Hp. apply andb_prop in Hp as [_ Hp].
  rewrite forallb_forall in Hp. specialize (Hp n Hin). unfold instruction_ok in Hp. unfold covers in Hq. unfold u16.
  destruct (decode (f (n_at n))) as [[[mn m] c]|]; [pose proof (length_range m)|]; lia.
Qed.
End Same.

(** ** The invariant of a session *)
Section Session.
Context {D : Type} `{Device D}.
Variables (p : profile) (I : address_map D -> Prop) (ram : Z -> Prop) (f : Z -> Z) (ramb : Z -> bool) (l : listing) (S0 : Z).
Hypothesis Hb : ram_bus p I ram.
Hypothesis Hr : forall q, ramb q = true -> ram q.
Hypothesis Hp : passes p f ramb l = true.

(** The memory [h] the machine had when it was last left alone agrees with the
    checked one on the code. *)
Definition good (h : Z -> Z) (cpu : mos6502 D) : Prop :=
  (forall q, code_byte f l q = true -> h q = f q) /\ passes p h ramb l = true /\
  exists r' f' n u, machine_with p I cpu r' f' /\ core h l S0 r' f' n u /\ tower h l S0 f' 0 true (u - n_depth n) (n_main n).

Lemma good_next h cpu : good h cpu -> forall k, exists t cpu', runs p k t cpu cpu' /\ good h cpu'.
Proof.
  intros (Hh & Ph & r' & f' & n & u & M & C & T) k.
  destruct (run_checked p h ramb ram l S0 Hr Ph k r' f' n u C T) as (t & r2 & f2 & n2 & u2 & X & C2 & T2).
  destruct (exec_runs p I ram k t r' f' r2 f2 cpu Hb X M) as (cpu' & R & M'). exists t, cpu'. split; [exact R|].
  split; [exact Hh|]. split; [exact Ph|]. exists r2, f2, n2, u2. auto.
Qed.

Lemma good_run h cpu n cpu' : good h cpu -> run p cpu n = Ok (Ready cpu') -> good h cpu'.
Proof.
  intros G E. apply run_ready_iff in E as (k & t & S & _). destruct (good_next h cpu G k) as (t' & c2 & [S2 _] & G2).
  destruct (steps_det p _ _ _ _ S _ _ S2) as [_ <-]. exact G2.
Qed.

Lemma good_returns h cpu n : good h cpu -> exists cpu', run p cpu n = Ok (Ready cpu').
Proof.
  intros G. destruct (run p cpu n) as [[rm s|s]|] eqn:E.
  - exfalso. exact (run_never_notready p cpu n rm s E).
  - exists s. reflexivity.
  - exfalso. apply run_panic_iff in E as (k & t & cpu1 & S1 & _ & P).
    destruct (good_next h cpu G (Datatypes.S k)) as (t' & cpu' & [S2 _] & _).
    assert (X : forall k t (c c1 : mos6502 D), steps p k t c c1 -> observed_step p c1 = Panic -> forall t2 c2, ~ steps p (Datatypes.S k) t2 c c2).
    { clear. induction 1 as [c|k t n c c1 c2 Es Hst IH]; intros P t3 c3 K; inversion K; subst.
      - congruence.
      - match goal with A : observed_step p c = Ok (_, ?c4), B : steps p (Datatypes.S k) _ ?c4 _ |- _ => rewrite Es in A; injection A as <- <-; exact (IH P _ _ B) end. }
    exact (X _ _ _ _ S1 P _ _ S2).
Qed.

Lemma tower_code f' f1 u main h : (forall i, 0 <= i < u -> f1 (stack (S0 - i)) = f' (stack (S0 - i))) -> passes p h ramb l = true ->
  tower h l S0 f' 0 true u main -> tower h l S0 f1 0 true u main.
Proof. intros K Ph T. eapply (tower_keeps p h ramb ram l S0 Hr Ph); [exact T|exact K|lia]. Qed.

(** After the host has changed the machine, its memory is the new base. *)
Lemma good_tampered h cpu cpu1 : good h cpu -> tampers p I f l S0 cpu cpu1 -> good (peek p (amap cpu1)) cpu1.
Proof.
  intros (Hh & Ph & r' & f' & n & u & M & C & T) (Hi & Ho & EPC & ES & K).
  pose proof C as (_ & _ & En & Es & Hu & Hc). pose proof (note_bounds p h ramb ram l S0 Hr Ph _ _ En) as B.
  pose proof M as (_ & _ & Er & Hf'). rewrite Er in *.
  assert (A : forall q, code_byte f l q = true -> peek p (amap cpu1) q = f q).
  { intros q Hq. pose proof (code_u16 p f f ramb l (fun _ _ => eq_refl) q Hp Hq) as Hu16. rewrite K by auto. rewrite Hf' by exact Hu16.
    rewrite <- Hh by exact Hq. apply (code_kept p h ramb ram l S0 Hr Ph f' q Hc). rewrite (code_same f h l Hh). exact Hq. }
  assert (A' : forall q, code_byte h l q = true -> peek p (amap cpu1) q = h q).
  { intros q Hq. rewrite (code_same f h l Hh) in Hq. rewrite A, Hh by exact Hq. reflexivity. }
  pose proof (passes_same p f (peek p (amap cpu1)) ramb l A Hp) as Pg.
  split; [exact A|]. split; [exact Pg|].
  assert (M1 : machine_with p I cpu1 (regs_of cpu1) (peek p (amap cpu1))) by (split; [exact Hi|]; split; [exact Ho|]; split; reflexivity).
  exists (regs_of cpu1), (peek p (amap cpu1)), n, u. split; [exact M1|]. split.
  - split; [exact Ho|]. split; [exact (machine_bytes p I ram cpu1 _ _ Hb M1)|]. rewrite EPC, ES. split; [exact En|]. split; [exact Es|]. split; [exact Hu|].
    intros q Hq. congruence.
  - apply tower_code with f'; [|exact Pg|].
    + intros i Hi'. pose proof (stack_range (S0 - i)) as Hq. rewrite <- Hf' by (unfold u16; lia). apply K; [unfold u16; lia|]. right. exists i. split; [|reflexivity].
      rewrite Es. replace ((S0 - (S0 - u) mod 256) mod 256) with u by lia. lia.
    + exact (tower_same h (peek p (amap cpu1)) l A' S0 f' 0 true _ _ T).
Qed.

Lemma good_session cpu ns cpu' : session p I f l S0 cpu ns cpu' -> forall h, good h cpu -> exists h', good h' cpu'.
Proof.
  induction 1 as [cpu|cpu cpu1 cpu2 cpu3 n ns Ht Er Hs IH]; intros h G; [exists h; exact G|].
  eapply IH. eapply good_run; [|exact Er]. eapply good_tampered; eassumption.
Qed.
End Session.
