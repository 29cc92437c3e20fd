(** C114-C117: programs with procedures that call each other and themselves,
    translated to 6502 code, do what the language says, in the time it says. *)
From Verif Require Import Base Arith ModelMap ModelRegs6502 ModelCpu6502 ModelStep ModelRun6502 SpecMap Link6502 ProofRun6502 ProofBus
  SpecInstr ProofInstr Demo6502 Properties6502Mem Spec6502 SpecProgram ProofProgram PropertiesProgram SpecRoutines ProofRoutines PropertiesRoutines
  SpecLanguage ProofLanguage SpecProcedures ProofProcedures.

(** The language gives a program one meaning, whatever the room. *)
Theorem C114_one_meaning : forall procs d c s s1, does procs d c s s1 -> forall d' s2, does procs d' c s s2 -> s1 = s2.
Proof.
  induction 1 as [d s|d v e s De|d a i e s De Di|d c1 c2 s s1 s2 E1 IH1 E2 IH2|d e c1 c2 s s' De E IH|d e c s De Ez|d e c s s1 s2 De En E1 IH1 E2 IH2|d k body s s' Ek Hd E IH];
    intros d' s0 K; inversion K; subst; try reflexivity; try contradiction.
  - match goal with A : does procs d' c1 s _, B : does procs d' c2 _ s0 |- _ => rewrite <- (IH1 _ _ A) in B; exact (IH2 _ _ B) end.
  - eapply IH. eassumption.
  - match goal with A : does procs d' c s _, B : does procs d' (Again e c) _ s0 |- _ => rewrite <- (IH1 _ _ A) in B; exact (IH2 _ _ B) end.
  - match goal with A : nth_error procs k = Some ?b |- _ => rewrite Ek in A; injection A as <- end. eapply IH. eassumption.
Qed.
(** What a program does with little room it does with more. *)
Theorem C114_more_room : forall procs d c s s', does procs d c s s' -> forall d', d <= d' -> does procs d' c s s'.
Proof.
  induction 1 as [d s|d v e s De|d a i e s De Di|d c1 c2 s s1 s2 E1 IH1 E2 IH2|d e c1 c2 s s' De E IH|d e c s De Ez|d e c s s1 s2 De En E1 IH1 E2 IH2|d k body s s' Ek Hd E IH];
    intros d' Hd'.
  - constructor.
  - constructor; lia.
  - constructor; lia.
  - econstructor; [apply IH1|apply IH2]; lia.
  - constructor; [lia|]. apply IH. lia.
  - apply does_stop; [lia|exact Ez].
  - eapply does_again; [lia|exact En|apply IH1; lia|apply IH2; lia].
  - eapply does_perform; [exact Ek|lia|apply IH; lia].
Qed.
(** A program that ends does not overflow. *)
Theorem C114_not_both : forall procs d c s s', does procs d c s s' -> ~ overflows procs d c s.
Proof.
  induction 1 as [d s|d v e s De|d a i e s De Di|d c1 c2 s s1 s2 E1 IH1 E2 IH2|d e c1 c2 s s' De E IH|d e c s De Ez|d e c s s1 s2 De En E1 IH1 E2 IH2|d k body s s' Ek Hd E IH];
    intros O; inversion O; subst; try lia; try contradiction; try (now auto).
  - match goal with A : does procs d c1 s _, B : overflows procs d c2 _ |- _ => rewrite <- (C114_one_meaning _ _ _ _ _ E1 _ _ A) in B; exact (IH2 B) end.
  - match goal with A : does procs d c s _, B : overflows procs d (Again e c) _ |- _ => rewrite <- (C114_one_meaning _ _ _ _ _ E1 _ _ A) in B; exact (IH2 B) end.
  - match goal with A : nth_error procs k = Some ?b |- _ => rewrite Ek in A; injection A as <- end. auto.
Qed.

Lemma image_len L t procs main : L + len (image t L procs main) = entry L procs + size main.
Proof.
  unfold image. cbv zeta. rewrite !len_app, emit_size. change (len [_; _; _]) with 3.
  pose proof (emit_all_entry (place (L + 3) procs) t procs (L + 3)). unfold entry. lia.
Qed.
Section Programs.
Context {D : Type} {dev : Device D} (p : profile) (I : address_map D -> Prop) (ram : Z -> Prop) (cpu : mos6502 D)
  (A X Y S L : Z) (P : processor_status) (f : Z -> Z) (t : Z) (procs : list stmt) (main : stmt).
Notation at_ := (place (L + 3) procs).
Lemma performing : about_to_perform p I ram cpu A X Y S L P f t procs main ->
  let hi := L + len (image t L procs main) in
  ram_bus p I ram /\ machine_with p I cpu (mkRegs A X Y S L P) f /\ 0 <= L /\ hi <= 0xfffe /\ ~ page_one t /\
  (forall q, scratch t q -> u16 q /\ ram q /\ ~ (L <= q < hi)) /\ state_ok t L hi f f f /\ 0 <= S < 256 /\
  settled ram t L hi f procs at_ (entry L procs) main /\
  (forall k body, nth_error procs k = Some body ->
    settled ram t L hi f procs at_ (at_ k) body /\ f (at_ k + size body) = 0x60 /\ at_ k + size body + 1 <= hi) /\
  stays p ram L hi 1 3 (mkRegs A X Y S L P) f (mkRegs A X Y S (entry L procs) P) f.
Proof.
  intros ((Hb & M & H0 & _ & B) & HL & (Ht & Hv) & G) hi. pose proof (machine_bytes p I ram cpu _ f Hb M) as By. inversion G as [|? ? Gm Gp]; subst.
  pose proof (image_len L t procs main) as El. fold hi in El. pose proof (size_nonneg main) as Sm.
  unfold image in B. cbv zeta in B. apply bytes_from_app in B. destruct B as [Bj B]. cbn [length] in B. replace (L + Z.of_nat 3) with (L + 3) in B by lia.
  apply bytes_from_app in B. destruct B as [Bp Bm]. fold (len (emit_all at_ t (L + 3) procs)) in Bm.
  pose proof (emit_all_entry at_ t procs (L + 3)) as Ee. fold (entry L procs) in Ee. rewrite Ee in Bm.
  pose proof (len_nonneg (emit_all at_ t (L + 3) procs)) as Hn.
  split; [exact Hb|]. split; [exact M|]. split; [exact H0|]. split; [exact HL|]. split; [exact Ht|]. split; [exact Hv|].
  split; [split; [intros q _; reflexivity|]; split; [intros q _; reflexivity|exact By]|].
  split; [destruct M as (_ & (_ & _ & _ & K & _) & _); exact K|].
  split; [|split].
  - split; [exact Bm|]. split; [lia|]. split; [lia|exact Gm].
  - intros k body Ek. destruct (procs_placed at_ t f procs (L + 3) Bp k body Ek) as (K1 & K2 & K3 & K4).
    split; [|split; [exact K2|lia]]. split; [exact K1|]. split; [lia|]. split; [lia|].
    rewrite Forall_forall in Gp. exact (Gp body (nth_error_In _ _ Ek)).
  - apply (jump_within p ram t L hi f H0 HL Hv (entry L procs) L f); [intros q _; reflexivity|exact Bj|lia|lia].
Qed.
End Programs.

(** ** C116: how long a program takes *)
(** A program that ends in [n] cycles: a call of [run] with [n] cycles brings
    the processor to the end of the program with the final values in memory. *)
Theorem C116_time : forall D (dev : Device D) p I ram (cpu : mos6502 D) A X Y S L P f t procs main d s' n,
  about_to_perform p I ram cpu A X Y S L P f t procs main -> d <= 256 -> image_takes procs d L main f s' n ->
  exists k cpu' A' X' P' f', runs p k n cpu cpu' /\
    machine_with p I cpu' (mkRegs A' X' Y S (L + len (image t L procs main)) P') f' /\
    (forall q, ~ scratch t q -> f' q = s' q) /\
    (forall q, page_one q -> (forall j, 0 <= j < d -> q <> stack (S - j)) -> f' q = f q).
Proof.
  intros D dev p I ram cpu A X Y S L P f t procs main d s' n Ha Hd (m & En & E).
  destruct (performing p I ram cpu A X Y S L P f t procs main Ha) as (Hb & M & H0 & H1 & Ht & Hv & St & HS & Pl & Hp & J).
  destruct (stmt_takes p ram t L _ f procs _ H0 H1 Hv Ht Hp d _ main f s' m E Hd Pl f A X Y S P St HS) as (k & A' & X' & P' & f' & G & (Ca & _) & K).
  rewrite <- (image_len L t procs main) in G.
  destruct (exec_runs p I ram _ _ _ _ _ _ cpu Hb (stays_exec _ _ _ _ _ _ _ _ _ _ (stays_app _ _ _ _ _ _ _ _ _ _ J _ _ _ _ G)) M) as (cpu' & Rn & M').
  rewrite <- En in Rn.
  eexists _, cpu', A', X', P', f'. split; [exact Rn|]. split; [exact M'|]. split; [intros q Hq; apply Ca; exact Hq|].
  intros q Hq Hj. apply K; [exact Hq|]. intros (j & Hj1 & E'). exact (Hj j Hj1 E').
Qed.
(** Every program that ends takes some time, always the same from the same
    state, whatever the room. *)
Theorem C116_some_time : forall procs d L main s s', does procs d main s s' <-> exists n, image_takes procs d L main s s' n.
Proof.
  intros procs d L main s s'. split.
  - intros E. destruct (does_takes procs (place (L + 3) procs) d main s s' E (entry L procs)) as (m & T). exists (3 + m)%nat, m. split; [reflexivity|exact T].
  - intros (n & m & _ & T). exact (takes_does _ _ _ _ _ _ _ _ T).
Qed.
Lemma takes_one_time procs at_ d L c s s1 n1 : takes procs at_ d L c s s1 n1 -> forall d' s2 n2, takes procs at_ d' L c s s2 n2 -> n1 = n2.
Proof.
  induction 1 as [d L s|d L v e s De|d L a i e s De Di|d L c1 c2 s s1 s2 m1 m2 E1 IH1 E2 IH2|d L e c1 c2 s s' m De En E IH|d L e c1 c2 s s' m De Ez E IH|d L e c s De Ez|d L e c s s1 s2 m1 m2 De En E1 IH1 E2 IH2|d L k body s s' m Ek Hd E IH];
    intros d' s0 n0 K; inversion K; subst; try reflexivity; try contradiction.
  - match goal with A : takes procs at_ d' L c1 s ?s3 _ |- _ =>
      pose proof (C114_one_meaning _ _ _ _ _ (takes_does _ _ _ _ _ _ _ _ E1) _ _ (takes_does _ _ _ _ _ _ _ _ A)); subst s3 end.
    f_equal; [eapply IH1|eapply IH2]; eassumption.
  - do 2 f_equal. eapply IH. eassumption.
  - f_equal. eapply IH. eassumption.
  - match goal with A : takes procs at_ d' _ c s ?s3 _ |- _ =>
      pose proof (C114_one_meaning _ _ _ _ _ (takes_does _ _ _ _ _ _ _ _ E1) _ _ (takes_does _ _ _ _ _ _ _ _ A)); subst s3 end.
    f_equal; [do 2 f_equal; eapply IH1|eapply IH2]; eassumption.
  - match goal with A : nth_error procs k = Some ?b |- _ => rewrite Ek in A; injection A as <- end. f_equal. f_equal. eapply IH. eassumption.
Qed.
Theorem C116_one_time : forall procs d L main s s1 n1 d' s2 n2,
  image_takes procs d L main s s1 n1 -> image_takes procs d' L main s s2 n2 -> n1 = n2.
Proof.
  intros procs d L main s s1 n1 d' s2 n2 (m1 & -> & T1) (m2 & -> & T2). f_equal. exact (takes_one_time _ _ _ _ _ _ _ _ T1 _ _ _ T2).
Qed.

(** ** C114: programs that end *)
(** The processor comes to the end of the program with the final values in
    memory. S and Y are as before, and of the stack at most the [d] bytes from
    S downwards have changed. Room for 256 bytes is all there is. *)
Theorem C114_ends : forall D (dev : Device D) p I ram (cpu : mos6502 D) A X Y S L P f t procs main d s',
  about_to_perform p I ram cpu A X Y S L P f t procs main -> d <= 256 -> does procs d main f s' ->
  exists k n cpu' A' X' P' f', runs p k n cpu cpu' /\
    machine_with p I cpu' (mkRegs A' X' Y S (L + len (image t L procs main)) P') f' /\
    (forall q, ~ scratch t q -> f' q = s' q) /\
    (forall q, page_one q -> (forall j, 0 <= j < d -> q <> stack (S - j)) -> f' q = f q).
Proof.
  intros D dev p I ram cpu A X Y S L P f t procs main d s' Ha Hd E. destruct (proj1 (C116_some_time procs d L main f s') E) as (n & T).
  destruct (C116_time D dev p I ram cpu A X Y S L P f t procs main d s' n Ha Hd T) as (k & cpu' & A' & X' & P' & f' & K).
  exists k, n, cpu', A', X', P', f'. exact K.
Qed.

(** ** C117: programs that always take the same time *)
Definition bytes (s : Z -> Z) : Prop := forall q, u16 q -> 0 <= s q < 256.
Lemma steady_time s1 s2 e : steady_expr e -> reads u16 e -> bytes s1 -> bytes s2 -> time s1 e = time s2 e.
Proof.
  intros St R B1 B2. induction e as [k|v|a i IH|e IH|e IH|o e1 IH1 e2 IH2]; cbn [steady_expr reads time] in *; try reflexivity.
  - destruct St as [Ha Si], R as [Ra Ri]. rewrite (IH Si Ri).
    destruct (value_ext u16 s1 s1 i (fun q _ => eq_refl) Ri B1) as [_ V1]. destruct (value_ext u16 s2 s2 i (fun q _ => eq_refl) Ri B2) as [_ V2].
    replace ((a + value s1 i) / 256 =? a / 256) with true by lia. replace ((a + value s2 i) / 256 =? a / 256) with true by lia. reflexivity.
  - rewrite (IH St R). reflexivity.
  - rewrite (IH St R). reflexivity.
  - rewrite (IH1 (proj1 St) (proj1 R)), (IH2 (proj2 St) (proj2 R)). reflexivity.
Qed.
Lemma bytes_set s v e : bytes s -> reads u16 e -> bytes (set s v (value s e)).
Proof.
  intros B R q Hq. unfold set. destruct (q =? v); [|exact (B q Hq)]. apply (value_ext u16 s s e (fun q _ => eq_refl) R B).
Qed.
Lemma bytes_put s v e e' : bytes s -> reads u16 e -> bytes (set s (v + value s e') (value s e)).
Proof. apply bytes_set. Qed.
Section Steady.
Context (procs : list stmt) (N : nat) (Hsteady : Forall steady procs) (Hproper : Forall (proper (reads u16) (fun _ => True) N) procs).
Lemma does_bytes d c s s' : does procs d c s s' -> proper (reads u16) (fun _ => True) N c -> bytes s -> bytes s'.
Proof.
  induction 1 as [d s|d v e s De|d a i e s De Di|d c1 c2 s s1 s2 E1 IH1 E2 IH2|d e c1 c2 s s' De E IH|d e c s De Ez|d e c s s1 s2 De En E1 IH1 E2 IH2|d k body s s' Ek Hd E IH];
    cbn [proper]; intros R B.
  - exact B.
  - apply bytes_set; [exact B|apply R].
  - apply bytes_put; [exact B|apply R].
  - apply IH2; [apply R|]. apply IH1; [apply R|exact B].
  - apply IH; [destruct (value s e =? 0); apply R|exact B].
  - exact B.
  - apply IH2; [exact R|]. apply IH1; [apply R|exact B].
  - apply IH; [|exact B]. rewrite Forall_forall in Hproper. exact (Hproper body (nth_error_In _ _ Ek)).
Qed.
Lemma steady_takes at1 d1 L1 c s1 s1' n1 : takes procs at1 d1 L1 c s1 s1' n1 -> steady c -> proper (reads u16) (fun _ => True) N c -> bytes s1 ->
  forall at2 d2 L2 s2 s2' n2, takes procs at2 d2 L2 c s2 s2' n2 -> bytes s2 -> n1 = n2.
Proof.
  induction 1 as [d L s|d L v e s De|d L a i e s De Di|d L c1 c2 s s1 s2 m1 m2 E1 IH1 E2 IH2|d L e c1 c2 s s' m De En E IH|d L e c1 c2 s s' m De Ez E IH|d L e c s De Ez|d L e c s s1 s2 m1 m2 De En E1 IH1 E2 IH2|d L k body s s' m Ek Hd E IH];
    cbn [steady proper]; intros St R B at2 d2 L2 z z' n2 K Bz; try contradiction; inversion K; subst.
  - reflexivity.
  - f_equal. apply steady_time; [exact St|apply R|exact B|exact Bz].
  - rewrite (steady_time s z e), (steady_time s z i); try apply St; try apply R; try assumption. reflexivity.
  - pose proof (takes_does _ _ _ _ _ _ _ _ E1) as D1.
    match goal with T : takes procs at2 d2 L2 c1 z ?z1 _ |- _ => pose proof (takes_does _ _ _ _ _ _ _ _ T) as D2 end.
    f_equal; [eapply IH1; try eassumption; [apply St|apply R]|].
    eapply IH2; try eassumption; [apply St|apply R|exact (does_bytes _ _ _ _ D1 (proj1 R) B)|exact (does_bytes _ _ _ _ D2 (proj1 R) Bz)].
  - match goal with T : nth_error procs k = Some ?b |- _ => rewrite Ek in T; injection T as <- end.
    f_equal. f_equal. rewrite Forall_forall in Hsteady, Hproper. pose proof (nth_error_In _ _ Ek) as Hin.
    eapply IH; try eassumption; [exact (Hsteady _ Hin)|exact (Hproper _ Hin)].
Qed.
End Steady.
Lemma proper_ext (E E' : expr -> Prop) (W W' : Z -> Prop) n c : (forall e, E e -> E' e) -> (forall q, W q -> W' q) -> proper E W n c -> proper E' W' n c.
Proof.
  intros HE HW. induction c as [|v e|a i e|c1 IH1 c2 IH2|e c1 IH1 c2 IH2|e c IH|k]; cbn [proper]; intros H; auto.
  - split; [apply HW|apply HE]; apply H.
  - destruct H as (H1 & H2 & H3). split; [intros k Hk; apply HW; apply H1; exact Hk|]. split; apply HE; assumption.
  - split; [apply IH1|apply IH2]; apply H.
  - split; [apply HE; apply H|]. split; [apply IH1|apply IH2]; apply H.
  - split; [apply HE|apply IH]; apply H.
Qed.
Lemma reads_ext (Q Q' : Z -> Prop) e : (forall q, Q q -> Q' q) -> reads Q e -> reads Q' e.
Proof.
  intros H. induction e as [k|v|a i IH|e IH|e IH|o e1 IH1 e2 IH2]; cbn [reads]; intros R; auto.
  - destruct R as [R1 R2]. split; [intros k Hk; apply H; apply R1; exact Hk|apply IH; exact R2].
  - split; [apply IH1|apply IH2]; apply R.
Qed.
(** A program without conditionals and loops whose tables begin pages takes
    the same number of cycles whatever is in memory, wherever it lies and on
    whichever bus. *)
Theorem C117_same_time : forall procs main,
  steady main -> Forall steady procs ->
  forall D1 (dev1 : Device D1) p1 I1 ram1 (cpu1 : mos6502 D1) A1 X1 Y1 S1 L1 P1 f1 t1 d1 s1
         D2 (dev2 : Device D2) p2 I2 ram2 (cpu2 : mos6502 D2) A2 X2 Y2 S2 L2 P2 f2 t2 d2 s2,
  about_to_perform p1 I1 ram1 cpu1 A1 X1 Y1 S1 L1 P1 f1 t1 procs main -> d1 <= 256 -> does procs d1 main f1 s1 ->
  about_to_perform p2 I2 ram2 cpu2 A2 X2 Y2 S2 L2 P2 f2 t2 procs main -> d2 <= 256 -> does procs d2 main f2 s2 ->
  exists n k1 cpu1' k2 cpu2',
    runs p1 k1 n cpu1 cpu1' /\ rPC (regs_of cpu1') = L1 + len (image t1 L1 procs main) /\
    runs p2 k2 n cpu2 cpu2' /\ rPC (regs_of cpu2') = L2 + len (image t2 L2 procs main).
Proof.
  intros procs main Sm Sp D1 dev1 p1 I1 ram1 cpu1 A1 X1 Y1 S1 L1 P1 f1 t1 d1 s1 D2 dev2 p2 I2 ram2 cpu2 A2 X2 Y2 S2 L2 P2 f2 t2 d2 s2 Ha1 Hd1 E1 Ha2 Hd2 E2.
  destruct (proj1 (C116_some_time procs d1 L1 main f1 s1) E1) as (n1 & T1). destruct (proj1 (C116_some_time procs d2 L2 main f2 s2) E2) as (n2 & T2).
  assert (En : n1 = n2).
  { destruct T1 as (m1 & -> & T1), T2 as (m2 & -> & T2). f_equal. pose proof Ha1 as ((Hb1 & M1 & _) & _ & _ & G). pose proof Ha2 as ((Hb2 & M2 & _) & _).
    pose proof (machine_bytes p1 I1 ram1 cpu1 _ f1 Hb1 M1) as B1. pose proof (machine_bytes p2 I2 ram2 cpu2 _ f2 Hb2 M2) as B2.
    assert (Pr : Forall (proper (reads u16) (fun _ => True) (length procs)) (main :: procs)).
    { eapply Forall_impl; [|exact G]. intros c Gc. eapply proper_ext; [| |exact Gc]; [|intros; exact Logic.I]. intros e Re. eapply reads_ext; [|exact Re]. intros q Hq. apply Hq. }
    inversion Pr as [|? ? Pm Pp]; subst.
    exact (steady_takes procs (length procs) Sp Pp _ _ _ _ _ _ _ T1 Sm Pm B1 _ _ _ _ _ _ T2 B2). }
  subst n2.
  destruct (C116_time _ dev1 _ _ _ _ _ _ _ _ _ _ _ _ _ _ _ _ _ Ha1 Hd1 T1) as (k1 & cpu1' & a1 & x1 & q1 & g1 & R1 & (_ & _ & Q1 & _) & _).
  destruct (C116_time _ dev2 _ _ _ _ _ _ _ _ _ _ _ _ _ _ _ _ _ Ha2 Hd2 T2) as (k2 & cpu2' & a2 & x2 & q2 & g2 & R2 & (_ & _ & Q2 & _) & _).
  exists n1, k1, cpu1', k2, cpu2'. split; [exact R1|]. split; [rewrite Q1; reflexivity|]. split; [exact R2|rewrite Q2; reflexivity].
Qed.

(** ** C115: programs that do not end *)
(** A program that neither ends nor overflows: the processor never leaves the
    code. *)
Theorem C115_forever : forall D (dev : Device D) p I ram (cpu : mos6502 D) A X Y S L P f t procs main d,
  about_to_perform p I ram cpu A X Y S L P f t procs main -> d <= 256 -> (forall s', ~ does procs d main f s') -> ~ overflows procs d main f ->
  forall k, exists n cpu', steps p k n cpu cpu' /\ L <= rPC (regs_of cpu') < L + len (image t L procs main).
Proof.
  intros D dev p I ram cpu A X Y S L P f t procs main d Ha Hd Ne No k.
  destruct (performing p I ram cpu A X Y S L P f t procs main Ha) as (Hb & M & H0 & H1 & Ht & Hv & St & HS & Pl & Hp & J).
  destruct (still_or_does p ram t L _ f procs _ H0 H1 Hv Ht Hp k main d _ f Hd Pl) as [[s' E]|[O|N]]; [destruct (Ne s' E)|contradiction|].
  destruct (N f A X Y S P St HS) as (n & r' & f' & G). pose proof (stays_app _ _ _ _ _ _ _ _ _ _ J _ _ _ _ G) as G0.
  destruct (stays_last _ _ _ _ _ _ _ _ _ _ G0) as (n1 & r1 & f1 & G1 & Hpc).
  destruct (exec_sound p I ram Hb _ _ _ _ _ _ (stays_exec _ _ _ _ _ _ _ _ _ _ G1) cpu M) as (cpu' & S' & (_ & _ & Er & _)).
  exists n1, cpu'. split; [exact S'|]. rewrite Er. exact Hpc.
Qed.

(** The processor comes to the end of the code only if the program ends or
    overflows. *)
Theorem C115_only_then : forall D (dev : Device D) p I ram (cpu : mos6502 D) A X Y S L P f t procs main d k n cpu',
  about_to_perform p I ram cpu A X Y S L P f t procs main -> d <= 256 ->
  steps p k n cpu cpu' -> rPC (regs_of cpu') = L + len (image t L procs main) ->
  (exists s', does procs d main f s') \/ overflows procs d main f.
Proof.
  intros D dev p I ram cpu A X Y S L P f t procs main d k n cpu' Ha Hd Hs Hpc.
  destruct (performing p I ram cpu A X Y S L P f t procs main Ha) as (Hb & M & H0 & H1 & Ht & Hv & St & HS & Pl & Hp & J).
  destruct (still_or_does p ram t L _ f procs _ H0 H1 Hv Ht Hp k main d _ f Hd Pl) as [E|[O|N]]; [left; exact E|right; exact O|exfalso].
  destruct (N f A X Y S P St HS) as (n0 & r' & f' & G). pose proof (stays_app _ _ _ _ _ _ _ _ _ _ J _ _ _ _ G) as G0.
  destruct (stays_last _ _ _ _ _ _ _ _ _ _ G0) as (n1 & r1 & f1 & G1 & Hq).
  destruct (exec_sound p I ram Hb _ _ _ _ _ _ (stays_exec _ _ _ _ _ _ _ _ _ _ G1) cpu M) as (cpu2 & S2 & (_ & _ & Er & _)).
  destruct (steps_det p _ _ _ _ S2 _ _ Hs) as [_ E]. subst cpu'. rewrite Er in Hpc. lia.
Qed.

(** ** A program: the moves of the towers of Hanoi *)
(** hanoi: if n { n := n - 1; hanoi; moves := moves + 1; hanoi; n := n + 1 }
    with n at 0x10 and moves at 0x11. *)
Definition hanoi : stmt :=
  Cond (Var 0x10)
    (Next (Put 0x10 (Op Minus (Var 0x10) (Const 1))) (Next (Perform 0)
      (Next (Put 0x11 (Op Plus (Var 0x11) (Const 1))) (Next (Perform 0) (Put 0x10 (Op Plus (Var 0x10) (Const 1)))))))
    Pass.
Section Hanoi.
Context (at_ : nat -> Z).
Notation cost := (112 + Z.of_nat (onward (at_ 0%nat + 3))).
Lemma hanoi_takes n : forall s d, (n < 256)%nat -> 2 * Z.of_nat n <= d -> s 0x10 = Z.of_nat n -> 0 <= s 0x11 < 256 ->
  exists s' m, takes [hanoi] at_ d (at_ 0%nat) hanoi s s' m /\ Z.of_nat m = (9 + cost) * 2 ^ Z.of_nat n - cost /\
    s' 0x10 = Z.of_nat n /\ s' 0x11 = (s 0x11 + 2 ^ Z.of_nat n - 1) mod 256 /\
    (forall q, q <> 0x10 -> q <> 0x11 -> s' q = s q).
Proof.
  induction n as [|n IH]; intros s d Hn Hd E H1.
  - exists s, 9%nat. split; [|split; [change (2 ^ Z.of_nat 0) with 1; lia|split; [exact E|split; [cbn [Z.of_nat]; rewrite Z.pow_0_r; lia|reflexivity]]]].
    apply (takes_else [hanoi] at_ d (at_ 0%nat) (Var 0x10) _ Pass s s 0); [cbn [depth]; lia|exact E|constructor].
  - set (s1 := set s 0x10 (Z.of_nat n)).
    destruct (IH s1 (d - 2) ltac:(lia) ltac:(lia) eq_refl H1) as (s2 & m2 & D2 & C2 & N2 & M2 & F2).
    change (s1 0x11) with (s 0x11) in M2.
    set (s3 := set s2 0x11 ((s2 0x11 + 1) mod 256)).
    destruct (IH s3 (d - 2) ltac:(lia) ltac:(lia) N2 ltac:(unfold s3, set; cbn [Z.eqb Pos.eqb]; lia)) as (s4 & m4 & D4 & C4 & N4 & M4 & F4).
    change (s3 0x11) with ((s2 0x11 + 1) mod 256) in M4.
    assert (Ep : 2 ^ Z.of_nat (S n) = 2 ^ Z.of_nat n + 2 ^ Z.of_nat n) by (rewrite Nat2Z.inj_succ, Z.pow_succ_r; lia).
    exists (set s4 0x10 (Z.of_nat (S n))). eexists. split; [|split; [|split; [reflexivity|split]]].
    + unfold hanoi at 2. eapply takes_then; [cbn [depth]; lia|cbn [value]; rewrite E; lia|].
      eapply takes_next with (s1 := s1).
      { replace s1 with (set s 0x10 (value s (Op Minus (Var 0x10) (Const 1)))); [constructor; cbn [depth]; lia|]. unfold s1. f_equal. cbn [value apply]. rewrite E. lia. }
      eapply takes_next with (s1 := s2).
      { eapply takes_perform; [reflexivity|lia|exact D2]. }
      eapply takes_next with (s1 := s3).
      { unfold s3. apply (takes_put _ _ d _ 0x11 (Op Plus (Var 0x11) (Const 1)) s2). cbn [depth]. lia. }
      eapply takes_next with (s1 := s4).
      { eapply takes_perform; [reflexivity|lia|exact D4]. }
      replace (set s4 0x10 (Z.of_nat (S n))) with (set s4 0x10 (value s4 (Op Plus (Var 0x10) (Const 1)))); [constructor; cbn [depth]; lia|].
      f_equal. cbn [value apply]. rewrite N4. lia.
    + cbn [time op_time]. change (width (Var 0x10)) with 3. rewrite Ep. rewrite !Nat2Z.inj_add, C2, C4.
      generalize (Z.of_nat (onward (at_ 0%nat + 3))). generalize (2 ^ Z.of_nat n). intros x y. nia.
    + change (set s4 0x10 (Z.of_nat (S n)) 0x11) with (s4 0x11). rewrite M4, M2, Ep.
      generalize (2 ^ Z.of_nat n). intros x. lia.
    + intros q N0 N1. unfold set at 1. replace (q =? 0x10) with false by lia. rewrite F4 by assumption.
      unfold s3, set at 1. replace (q =? 0x11) with false by lia. rewrite F2 by assumption. unfold s1, set. replace (q =? 0x10) with false by lia. reflexivity.
Qed.
End Hanoi.
Lemma hanoi_overflows n : forall s d, (n < 256)%nat -> d < 2 * Z.of_nat n -> s 0x10 = Z.of_nat n -> overflows [hanoi] d hanoi s.
Proof.
  induction n as [|n IH]; intros s d Hn Hd E.
  - apply overflows_test. cbn [depth]. lia.
  - destruct (Z_lt_dec d 0); [apply overflows_test; cbn [depth]; lia|].
    unfold hanoi at 2. apply overflows_cond; [cbn [depth]; lia|]. cbn [value]. rewrite E. replace (Z.of_nat (S n) =? 0) with false by lia.
    destruct (Z_lt_dec d 1); [apply overflows_next1; apply overflows_put; cbn [depth]; lia|].
    eapply overflows_next2; [apply does_put; cbn [depth]; lia|]. apply overflows_next1.
    destruct (Z_lt_dec d 2); [apply overflows_call; lia|].
    eapply overflows_body; [reflexivity|lia|]. apply IH; [lia|lia|]. unfold set. cbn [Z.eqb Pos.eqb value apply]. rewrite E. lia.
Qed.

(** For up to 127 discs the emulator counts the moves and gives n back. It
    takes 128 * 2^n - 104 cycles, or 129 * 2^n - 105 if the BNE at L + 6
    branches to another page. *)
Theorem C114_hanoi : forall D (dev : Device D) p I ram (cpu : mos6502 D) A X Y S L P f,
  let prog := image 0x12 L [hanoi] (Perform 0) in
  about_to_run p I ram cpu A X Y S L P f prog -> L + len prog <= 0xfffe -> (forall q, 0 <= q < 0x200 -> variable ram L prog q) ->
  f 0x10 <= 127 ->
  exists k n cpu', runs p k n cpu cpu' /\ rPC (regs_of cpu') = L + len prog /\ rS (regs_of cpu') = S /\
    peek p (amap cpu') 0x11 = (f 0x11 + 2 ^ f 0x10 - 1) mod 256 /\ peek p (amap cpu') 0x10 = f 0x10 /\
    Z.of_nat n = if (L + 11) / 256 =? (L + 6) / 256 then 128 * 2 ^ f 0x10 - 104 else 129 * 2 ^ f 0x10 - 105.
Proof.
  intros D dev p I ram cpu A X Y S L P f prog Ha HL Hv Hf. pose proof Ha as (Hb & M & _). pose proof (machine_bytes p I ram cpu _ f Hb M) as By.
  pose proof (By 0x10 ltac:(unfold u16; lia)) as B0. pose proof (By 0x11 ltac:(unfold u16; lia)) as B1. unfold u8 in B0, B1.
  assert (Hp : about_to_perform p I ram cpu A X Y S L P f 0x12 [hanoi] (Perform 0)).
  { split; [exact Ha|]. split; [exact HL|]. split; [split; [unfold page_one; lia|intros q [->|Hq]; apply Hv; unfold page_one in *; lia]|].
    assert (R : forall q, 0 <= q < 0x200 -> q <> 0x12 -> ~ (0x100 <= q <= 0x1ff) -> u16 q /\ ~ scratch 0x12 q).
    { intros q H1 H2 H3. split; [unfold u16; lia|]. intros [->|K]; [lia|exact (H3 K)]. }
    constructor; [unfold good_stmt; cbn [proper length]; lia|]. constructor; [|constructor].
    unfold good_stmt, hanoi. cbn [proper reads length]. fold prog.
    repeat match goal with |- _ /\ _ => split | |- forall k, _ -> _ => intros end; try (apply R; lia); try (apply Hv; lia); try exact Logic.I; lia. }
  destruct (hanoi_takes (place (L + 3) [hanoi]) (Z.to_nat (f 0x10)) f 254 ltac:(lia) ltac:(lia) ltac:(lia) ltac:(lia)) as (s' & m & E & Em & E0 & E1 & _).
  assert (E2 : image_takes [hanoi] 256 L (Perform 0) f s' (3 + (6 + m + 6))).
  { eexists. split; [reflexivity|]. eapply takes_perform; [reflexivity|lia|exact E]. }
  destruct (C116_time D dev p I ram cpu A X Y S L P f 0x12 [hanoi] (Perform 0) 256 s' _ Hp ltac:(lia) E2) as (k & cpu' & A' & X' & P' & f' & Rn & (_ & _ & Er & Ef) & Fr & _).
  exists k, (3 + (6 + m + 6))%nat, cpu'. split; [exact Rn|]. rewrite Er. split; [reflexivity|]. split; [reflexivity|].
  assert (Ns : forall q, q <> 0x12 -> ~ (0x100 <= q <= 0x1ff) -> ~ scratch 0x12 q) by (intros q H1 H2 [K|K]; [lia|exact (H2 K)]).
  rewrite !Ef by (unfold u16; lia). rewrite !Fr by (apply Ns; lia). rewrite Z2Nat.id in * by lia. rewrite E0, E1. split; [reflexivity|]. split; [reflexivity|].
  rewrite !Nat2Z.inj_add, Em. change (place (L + 3) [hanoi] 0%nat) with (L + 3). replace (L + 3 + 3) with (L + 6) by lia.
  unfold onward. replace (L + 6 + 5) with (L + 11) by lia. destruct (_ =? _); lia.
Qed.
(** With more discs there is no room, not even with the whole stack free. *)
Theorem C114_hanoi_overflows : forall s, 128 <= s 0x10 < 256 -> overflows [hanoi] 256 (Perform 0) s.
Proof.
  intros s Hs. eapply overflows_body; [reflexivity|lia|]. apply (hanoi_overflows (Z.to_nat (s 0x10))); lia.
Qed.

(** ** Concrete cases *)
(** Ten discs: 1023 moves, 255 modulo 256, in 130968 cycles. *)
Example C114_case : exists k n cpu', runs Debug k n (machine (repeat 0 0x10 ++ [10; 0]) (image 0x12 0x8000 [hanoi] (Perform 0)) 1 2 3 0xff ps0) cpu' /\
  reg_pc cpu' = 0x8000 + len (image 0x12 0x8000 [hanoi] (Perform 0)) /\ peek Debug (amap cpu') 0x11 = 255 /\ Z.of_nat n = 130968.
Proof.
  destruct (C114_hanoi memory _ Debug _ _ _ _ _ _ _ _ _ _ (demo_about_to_run (repeat 0 0x10 ++ [10; 0]) (image 0x12 0x8000 [hanoi] (Perform 0)) 1 2 3 eq_refl
    ltac:(repeat split; vm_compute; reflexivity))) as (k & n & cpu' & Rn & E1 & _ & E2 & _ & E3).
  - vm_compute. discriminate.
  - intros q Hq. apply demo_variable; lia.
  - vm_compute. discriminate.
  - exists k, n, cpu'. split; [exact Rn|]. split; [exact E1|]. rewrite E2, E3. split; vm_compute; reflexivity.
Qed.
(** A table lookup in a procedure: the same time on any two memories. *)
Definition look_up : list stmt := [Put 0x11 (Op Exclusive (Item 0x200 (Var 0x10)) (Var 0x11))].
Definition look_up_twice : stmt := Next (Perform 0) (Next (Put 0x10 (Var 0x11)) (Perform 0)).
Lemma look_up_ready zp : machine_fits zp (image 0x12 0x8000 look_up look_up_twice) 1 2 3 0xff = true ->
  bytes_from (bytes_at Debug zp (image 0x12 0x8000 look_up look_up_twice) 1 2 3 0xff ps0) 0x8000 (image 0x12 0x8000 look_up look_up_twice) ->
  about_to_perform Debug (plain_with (fun b => 0 <= b <= 0x3ff)) (fun b => 0 <= b <= 0x3ff) (machine zp (image 0x12 0x8000 look_up look_up_twice) 1 2 3 0xff ps0)
    1 2 3 0xff 0x8000 ps0 (bytes_at Debug zp (image 0x12 0x8000 look_up look_up_twice) 1 2 3 0xff ps0) 0x12 look_up look_up_twice.
Proof.
  intros Hf B. split; [apply demo_about_to_run; assumption|]. split; [vm_compute; discriminate|].
  split; [split; [unfold page_one; lia|intros q [->|Hq]; apply demo_variable; unfold page_one in *; lia]|].
  assert (R : forall q, 0 <= q < 0x300 -> q <> 0x12 -> ~ (0x100 <= q <= 0x1ff) -> u16 q /\ ~ scratch 0x12 q).
  { intros q H1 H2 H3. split; [unfold u16; lia|]. intros [->|K]; [lia|exact (H3 K)]. }
  constructor; [|constructor; [|constructor]]; unfold good_stmt, look_up_twice, look_up; cbn [proper reads length];
    repeat match goal with |- _ /\ _ => split | |- forall k, _ -> _ => intros end; try (apply R; lia); try (apply demo_variable; lia); lia.
Qed.
Lemma look_up_does s : exists s', does look_up 3 look_up_twice s s'.
Proof.
  eexists. eapply does_next; [eapply does_perform; [reflexivity|lia|apply does_put; cbn [depth]; lia]|].
  eapply does_next; [apply does_put; cbn [depth]; lia|eapply does_perform; [reflexivity|lia|apply does_put; cbn [depth]; lia]].
Qed.
Example C117_case : exists n k1 cpu1' k2 cpu2',
  runs Debug k1 n (machine [] (image 0x12 0x8000 look_up look_up_twice) 1 2 3 0xff ps0) cpu1' /\ reg_pc cpu1' = 0x8000 + len (image 0x12 0x8000 look_up look_up_twice) /\
  runs Debug k2 n (machine (repeat 255 0x300) (image 0x12 0x8000 look_up look_up_twice) 1 2 3 0xff ps0) cpu2' /\ reg_pc cpu2' = 0x8000 + len (image 0x12 0x8000 look_up look_up_twice).
Proof.
  destruct (look_up_does (bytes_at Debug [] (image 0x12 0x8000 look_up look_up_twice) 1 2 3 0xff ps0)) as (s1 & E1).
  destruct (look_up_does (bytes_at Debug (repeat 255 0x300) (image 0x12 0x8000 look_up look_up_twice) 1 2 3 0xff ps0)) as (s2 & E2).
  refine (C117_same_time look_up look_up_twice _ _ memory _ Debug _ _ _ 1 2 3 0xff 0x8000 ps0 _ 0x12 3 s1 memory _ Debug _ _ _ 1 2 3 0xff 0x8000 ps0 _ 0x12 3 s2
    (look_up_ready [] _ _) _ E1 (look_up_ready (repeat 255 0x300) _ _) _ E2).
  - cbn. tauto.
  - constructor; [cbn; lia|constructor].
  - reflexivity.
  - repeat split; vm_compute; reflexivity.
  - lia.
  - reflexivity.
  - repeat split; vm_compute; reflexivity.
  - lia.
Qed.
(** A procedure that calls one that does nothing, for ever. *)
Definition ticking : list stmt := [Pass; Again (Const 1) (Perform 0)].
Lemma ticking_never d c s s' : does ticking d c s s' -> c <> Perform 1 /\ c <> Again (Const 1) (Perform 0).
Proof.
  induction 1 as [d s|d v e s De|d a i e s De Di|d c1 c2 s s1 s2 E1 IH1 E2 IH2|d e c1 c2 s s' De E IH|d e c s De Ez|d e c s s1 s2 De En E1 IH1 E2 IH2|d k body s s' Ek Hd E IH];
    try (split; discriminate).
  - split; [discriminate|]. intros K. injection K as -> ->. discriminate.
  - split; [discriminate|]. intros K. apply (proj2 IH2). exact K.
  - split; [|discriminate]. intros K. injection K as ->. cbn [ticking nth_error] in Ek. injection Ek as <-. apply (proj2 IH). reflexivity.
Qed.
Lemma ticking_fits d c s : overflows ticking d c s -> 4 <= d -> c <> Perform 1 /\ (c <> Again (Const 1) (Perform 0)) /\ c <> Pass.
Proof.
  assert (G : forall d c s, overflows ticking d c s -> (c = Perform 1 -> d < 4) /\ (c = Again (Const 1) (Perform 0) -> d < 2) /\ (c = Perform 0 -> d < 2) /\ c <> Pass).
  { clear d c s. induction 1 as [d v e s De|d a i e s De|d c1 c2 s O IH|d c1 c2 s s1 E O IH|d e c1 c2 s De|d e c1 c2 s De O IH|d e c s De|d e c s De En O IH|d e c s s1 De En E O IH|d k s Hd|d k body s Ek Hd O IH];
      (split; [intros K|split; [intros K|split; [intros K|intros K]]]); try discriminate K; try injection K as -> ->; try injection K as ->; cbn [depth] in *; try lia.
    - apply (proj1 (proj2 (proj2 IH))). reflexivity.
    - apply (proj1 (proj2 IH)). reflexivity.
    - cbn [ticking nth_error] in Ek. injection Ek as <-. pose proof (proj1 (proj2 IH) eq_refl). lia.
    - cbn [ticking nth_error] in Ek. injection Ek as <-. destruct (proj2 (proj2 (proj2 IH)) eq_refl). }
  intros O Hd. destruct (G d c s O) as (G1 & G2 & G3 & G4). split; [intros E; specialize (G1 E); lia|]. split; [intros E; specialize (G2 E); lia|exact G4].
Qed.
Example C115_case : forall k, exists n cpu', steps Debug k n (machine [] (image 0x12 0x8000 ticking (Perform 1)) 1 2 3 0xff ps0) cpu' /\
  0x8000 <= reg_pc cpu' < 0x8000 + len (image 0x12 0x8000 ticking (Perform 1)).
Proof.
  apply (C115_forever memory _ Debug (plain_with (fun b => 0 <= b <= 0x3ff)) (fun b => 0 <= b <= 0x3ff) _ 1 2 3 0xff 0x8000 ps0
    (bytes_at Debug [] (image 0x12 0x8000 ticking (Perform 1)) 1 2 3 0xff ps0) 0x12 ticking (Perform 1) 4).
  - split; [apply demo_about_to_run; [reflexivity|repeat split; vm_compute; reflexivity]|]. split; [vm_compute; discriminate|].
    split; [split; [unfold page_one; lia|intros q [->|Hq]; apply demo_variable; unfold page_one in *; lia]|].
    repeat constructor; unfold ticking; cbn [length]; lia.
  - lia.
  - intros s' E. exact (proj1 (ticking_never _ _ _ _ E) eq_refl).
  - intros O. exact (proj1 (ticking_fits _ _ _ O ltac:(lia)) eq_refl).
Qed.

Print Assumptions C114_one_meaning.
Print Assumptions C114_more_room.
Print Assumptions C114_not_both.
Print Assumptions C114_ends.
Print Assumptions C114_hanoi.
Print Assumptions C114_hanoi_overflows.
Print Assumptions C116_time.
Print Assumptions C116_some_time.
Print Assumptions C116_one_time.
Print Assumptions C117_same_time.
Print Assumptions C115_forever.
Print Assumptions C115_only_then.
