(** The check of C134 looks at the bytes of the code only, and what is owed is
    not changed by the host. *)
From Verif Require Import Base Arith ModelMap ModelRegs6502 ModelCpu6502 ModelStep ModelIsa6502 ModelRun6502 SpecMap Link6502 ProofRun6502 ProofBus
  Spec6502 SpecInstr SpecProgram ProofProgram SpecCheck ProofCheck SpecTamper ProofTamper SpecBudget ProofBudget PropertiesBudget SpecPace.

(** [time_ok] as a function of the operands. *)
Definition time_body (B : budget) (W : Z) (n : note) (mn : mnemonic) (m : addressing_mode) (c : nat) (b1 b2 : Z) : bool :=
  let a := n_at n in
  implb (marked B a) (n_main n) && implb (leaves_x B a) (negb (n_main n)) &&
  implb (leaves_x B a) (match mn with Dex | Inx | Ldx | Tax | Tsx => false | _ => true end) &&
  (match mn with
   | Jsr => implb (leaves_x B a) (leaves_x B (word b1 b2)) && Bool.eqb (leaves_x B (a + 3)) (leaves_x B a)
   | Rts => true
   | _ => forallb (fun z => forallb (fun g => Bool.eqb (leaves_x B (fst g)) (leaves_x B a)) (next_at mn m c a b1 b2 z)) both
   end) &&
  forallb (fun x => forallb (fun z =>
    match bound B a x z with
    | None => true
    | Some w =>
        (0 <=? w) &&
        match mn with
        | Rts => Z.of_nat c <=? w
        | Jsr =>
            match due B W (word b1 b2) x z with
            | None => false
            | Some w' =>
                forallb (fun x' => forallb (fun z' => enough B W w (Z.of_nat c + w') (a + 3) x' z') both) (if leaves_x B (word b1 b2) then [x] else bytes256)
            end
        | _ =>
            forallb (fun g => forallb (fun x' => forallb (fun z' => enough B W w (snd g) (fst g) x' z') (next_z mn m b1 x z)) (next_x mn m b1 x)) (next_at mn m c a b1 b2 z)
        end
    end) both) bytes256.
Lemma time_ok_body B W f n mn m c : decode (f (n_at n)) = Some (mn, m, c) ->
  time_ok B W f n = time_body B W n mn m c (f (n_at n + 1)) (f (n_at n + 2)).
Proof. intros E. unfold time_ok. rewrite E. reflexivity. Qed.

Definition time_suffices (row : Z * (mnemonic * addressing_mode * nat)) : Prop :=
  let '(_, (mn, m, c)) := row in
  forall B W n b1 b2 x1 x2, (2 <= length_of m -> x1 = b1) -> (3 <= length_of m -> x2 = b2) ->
  time_body B W n mn m c x1 x2 = time_body B W n mn m c b1 b2.
Lemma all_time_suffices : Forall time_suffices opcode_table.
Proof.
  unfold opcode_table, time_suffices.
  repeat (apply Forall_cons; [|]); try apply Forall_nil.
  all: intros B W n b1 b2 x1 x2 E1 E2;
    try (specialize (E1 ltac:(cbn [length_of]; lia)); subst x1);
    try (specialize (E2 ltac:(cbn [length_of]; lia)); subst x2);
    reflexivity.
Qed.

Lemma in_time_same B W f g l : (forall q, code_byte f l q = true -> g q = f q) -> in_time B W f l = true -> in_time B W g l = true.
Proof.
  intros Hg H. unfold in_time in *. rewrite forallb_forall in *. intros n Hin. specialize (H n Hin).
  pose proof (first_same f g l Hg n Hin) as E0. destruct (decode (f (n_at n))) as [[[mn m] c]|] eqn:Ed; [|unfold time_ok in H; rewrite Ed in H; discriminate H].
  rewrite (time_ok_body B W f n mn m c Ed) in H. rewrite (time_ok_body B W g n mn m c) by (rewrite E0; exact Ed). rewrite <- H.
  apply (proj1 (Forall_forall _ _) all_time_suffices _ (decode_row _ _ Ed)).
  - intros H2. apply (own_covered f g (fun _ => true) l Hg n mn m c 1 Hin Ed). lia.
  - intros H3. apply (own_covered f g (fun _ => true) l Hg n mn m c 2 Hin Ed). lia.
Qed.

Section Pace.
Context {D : Type} `{Device D}.
Variables (p : profile) (I : address_map D -> Prop) (ram : Z -> Prop) (f : Z -> Z) (ramb : Z -> bool) (l : listing) (B : budget) (W S0 : Z).
Hypothesis Hb : ram_bus p I ram.
Hypothesis Hr : forall q, ramb q = true -> ram q.
Hypothesis Hp : passes p f ramb l = true.
Hypothesis Hti : in_time B W f l = true.

(** [w + T] cycles are left. *)
Definition going (h : Z -> Z) (c : mos6502 D) (left : Z) : Prop :=
  (forall q, code_byte f l q = true -> h q = f q) /\ byte_valued h /\
  exists r' f' n u w T, machine_with p I c r' f' /\ state B W h l S0 0 true false 0 0 r' f' n u T /\
    bound B (rPC r') (rX r') (ps_zero (rP r')) = Some w /\ w + T <= W /\ left = w + T.

Lemma mark_main_of h a n : in_time B W h l = true -> noted l a = Some n -> (marked B a = true -> n_main n = true) /\ (n_main n = true -> leaves_x B a = false).
Proof.
  intros Ht E. unfold noted in E. apply find_some in E as [Hin Ha]. apply Z.eqb_eq in Ha.
  unfold in_time in Ht. rewrite forallb_forall in Ht. specialize (Ht n Hin). unfold time_ok in Ht. rewrite Ha in Ht. destruct (decode (h a)) as [[[mn m] c]|]; [|discriminate].
  apply andb_prop in Ht as [Ht _]. apply andb_prop in Ht as [Ht _]. apply andb_prop in Ht as [Ht _]. apply andb_prop in Ht as [H1 H2].
  split; intros K; rewrite K in *; [exact H1|]. destruct (leaves_x B a); [discriminate H2|reflexivity].
Qed.

Lemma going_step h c left : going h c left -> exists t c' left', observed_step p c = Ok (t, c') /\ (0 < t)%nat /\ going h c' left' /\ 0 <= left' <= W /\
  Z.of_nat t <= left /\ (marked B (rPC (regs_of c')) = false -> Z.of_nat t + left' <= left).
Proof.
  intros (Ha & Hv & r' & f' & n & u & w & T & M & St & Eb & Hw & ->).
  pose proof (passes_same p f h ramb l Ha Hp) as Hq. pose proof (in_time_same B W f h l Ha Hti) as Ht.
  destruct (state_step p B W h ramb ram l S0 0 true false 0 0 Hr Hq Ht Hv main_base r' f' n u T w St Eb)
    as (e & Es & Hst & _ & [(n1 & u1 & T1 & w1 & St1 & Ed & Hle)|(K & _)]); [|discriminate K].
  destruct (exec_sound p I ram Hb 1 (e_cycles e + 0) r' f' (e_regs e) (stored f' (e_stores e)) (exec_step p ram 0 0 r' f' e _ _ Es Hst (exec_done _ _ _ _)) c M) as (c' & S & M').
  inversion S as [|k t0 ce x c1 y Eo S1 Ek Et]; subst. inversion S1; subst. assert (ce = e_cycles e) by lia. subst ce.
  pose proof St1 as (C1 & _ & O1). pose proof C1 as (Ho1 & _ & En1 & _). assert (HX : u8 (rX (e_regs e))) by apply Ho1.
  pose proof (owes_low p B W h ramb ram l S0 0 true false 0 0 Hr Hq main_base _ _ _ _ _ _ O1) as (_ & OT & _ & OM & _).
  pose proof (due_range p B W h ramb ram l true Hr Ht _ _ _ _ _ En1 HX Ed) as Hd.
  pose proof (step_cycles_pos _ _ _ _ Eo) as Hpos.
  pose proof Ed as Ed'. unfold due in Ed'. destruct (bound B (rPC (e_regs e)) (rX (e_regs e)) (ps_zero (rP (e_regs e)))) as [wb|] eqn:Eb1; [|discriminate].
  pose proof (time_range p B W h ramb ram l true Hr Ht _ _ _ _ _ En1 HX Eb1) as Hwb.
  exists (e_cycles e), c', (wb + T1). split; [exact Eo|]. split; [exact Hpos|].
  assert (Epc : regs_of c' = e_regs e) by apply M'. rewrite Epc.
  assert (G : wb + T1 <= W -> going h c' (wb + T1)).
  { intros K. split; [exact Ha|]. split; [exact Hv|]. exists (e_regs e), (stored f' (e_stores e)), n1, u1, wb, T1. auto. }
  destruct (marked B (rPC (e_regs e))) eqn:Em.
  - destruct (wb <=? W) eqn:Ew; [|discriminate]. injection Ed' as <-.
    destruct (OM (proj1 (mark_main_of h _ _ Ht En1) Em)) as [_ ->].
    split; [apply G; lia|]. split; [lia|]. split; [lia|discriminate].
  - injection Ed' as <-. split; [apply G; lia|]. split; [lia|]. split; [lia|intros _; lia].
Qed.

Lemma owes_same h g x u main k T : (forall i, 0 <= i < u -> g (stack (S0 - i)) = h (stack (S0 - i))) -> passes p f ramb l = true ->
  owes B W l S0 0 true false 0 0 h x u main k T -> owes B W l S0 0 true false 0 0 g x u main k T.
Proof. intros K _ O. exact (owes_keeps p B W f ramb ram l S0 0 true false 0 0 Hr Hp main_base h g x u main k T O K). Qed.

Lemma going_nudged h c c1 left : going h c left -> nudges p I f l S0 c c1 -> exists h', going h' c1 left.
Proof.
  intros (Ha & Hv & r' & f' & n & u & w & T & M & (C & Tw & O) & Eb & Hw & El) (Ht & EX & EZ).
  pose proof (passes_same p f h ramb l Ha Hp) as Hq.
  assert (G : good p I f ramb l S0 h c) by (split; [exact Ha|]; split; [exact Hq|]; exists r', f', n, u; auto).
  destruct (good_tampered p I ram f ramb l S0 Hb Hr Hp h c c1 G Ht) as (Ha1 & Hq1 & r1 & f1 & n1 & u1 & M1 & C1 & T1).
  pose proof M as (_ & _ & Er & Hf'). pose proof M1 as (_ & _ & Er1 & Hf1). destruct Ht as (Hi & Ho & EPC & ES & K). rewrite Er in *. rewrite Er1 in *.
  pose proof C as (_ & _ & En & Es & Hu & _). pose proof C1 as (_ & _ & En1 & Es1 & Hu1 & _).
  pose proof (note_bounds p h ramb ram l S0 Hr Hq _ _ En) as Bn.
  assert (n1 = n) by congruence. subst n1. assert (u1 = u) by (rewrite ES, Es in Es1; lia). subst u1.
  exists (peek p (amap c1)). split; [exact Ha1|]. split.
  { assert (M2 : machine_with p I c1 (regs_of c1) (peek p (amap c1))) by (split; [exact Hi|]; split; [rewrite Er1; exact Ho|]; split; reflexivity).
    exact (machine_bytes p I ram c1 _ _ Hb M2). }
  exists r1, f1, n, u, w, T. split; [exact M1|]. split; [|rewrite EPC, EX, EZ; auto].
  split; [exact C1|]. split; [exact T1|]. rewrite EX, EPC. apply owes_same with f'; [|exact Hp|exact O].
  intros i Hi'. pose proof (stack_range (S0 - i)) as Hq'. rewrite <- Hf', <- Hf1 by (unfold u16; lia). apply K; [unfold u16; lia|]. right. exists i. split; [|reflexivity].
  rewrite Es. replace ((S0 - (S0 - u) mod 256) mod 256) with u by lia. lia.
Qed.

Lemma going_turns c c1 : turns p I f l S0 c c1 -> forall h left, going h c left -> exists h1 left1, going h1 c1 left1.
Proof.
  induction 1 as [c|c c1 c2 Hn Hs IH|c n c1 c2 Eo Hs IH]; intros h left G; [eauto|..].
  - destruct (going_nudged h c c1 left G Hn) as (h' & G'). eauto.
  - destruct (going_step h c left G) as (t & c' & left' & Eo' & _ & G' & _). rewrite Eo in Eo'. injection Eo' as <- <-. eauto.
Qed.
Lemma going_gap c t c1 : gap p I f l S0 B c t c1 -> forall h left, going h c left -> exists h1 left1, going h1 c1 left1 /\ Z.of_nat t + left1 <= left.
Proof.
  induction 1 as [c|c c1 t c2 Hn Hs IH|c n c1 t c2 Eo Em Hs IH]; intros h left G; [exists h, left; split; [exact G|lia]|..].
  - destruct (going_nudged h c c1 left G Hn) as (h' & G'). eauto.
  - destruct (going_step h c left G) as (t' & c' & left' & Eo' & _ & G' & _ & _ & Hle). rewrite Eo in Eo'. injection Eo' as <- <-. specialize (Hle Em).
    destruct (IH h left' G') as (h1 & left1 & G1 & L1). exists h1, left1. split; [exact G1|lia].
Qed.
Lemma going_mark b : forall h c left, going h c left -> left <= Z.of_nat b ->
  exists j t c', (0 < j)%nat /\ steps p j t c c' /\ Z.of_nat t <= left /\ marked B (rPC (regs_of c')) = true.
Proof.
  induction b as [|b IH]; intros h c left G Hb'; destruct (going_step h c left G) as (t & c' & left' & Eo & Hpos & G' & Hnn & Hle & Hun).
  - lia.
  - destruct (marked B (rPC (regs_of c'))) eqn:Em.
    + exists 1%nat, (t + 0)%nat, c'. split; [lia|]. split; [econstructor; [exact Eo|constructor]|]. split; [lia|exact Em].
    + specialize (Hun eq_refl). destruct (IH h c' left' G' ltac:(lia)) as (j & t2 & c2 & Hj & S2 & Ht & Hm).
      exists (S j), (t + t2)%nat, c2. split; [lia|]. split; [econstructor; eassumption|]. split; [lia|exact Hm].
Qed.
End Pace.
