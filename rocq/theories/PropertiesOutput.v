(** C118, C119: the writes of translated programs reach the devices as the
    language says, in its order: those of programs that end and of programs that
    never do. *)
From Verif Require Import Base Arith ModelMap ModelRegs6502 ModelCpu6502 ModelStep ModelOperand ModelRun6502 ModelTrace SpecMap Link6502 ProofRun6502 ProofBus
  SpecInstr ProofInstr Demo6502 Properties6502Mem Spec6502 SpecProgram ProofProgram PropertiesProgram SpecRoutines ProofRoutines PropertiesRoutines PropertiesTrace
  SpecLanguage ProofLanguage SpecProcedures ProofProcedures PropertiesProcedures SpecOutput ProofWrites ProofOutput.

(** ** The language alone *)
Lemma tells_does procs d c s s' l : tells procs d c s s' l -> does procs d c s s'.
Proof. induction 1; try (econstructor; eassumption). Qed.
(** The assignments belong to the meaning of C114: a program that ends has a
    list of them, one only, and the final values are what they leave. *)
Theorem C118_some_assignments : forall procs d c s s', does procs d c s s' <-> exists l, tells procs d c s s' l.
Proof.
  intros procs d c s s'. split; [|intros (l & E); exact (tells_does _ _ _ _ _ _ E)].
  induction 1 as [d s|d v e s De|d a i e s De Di|d c1 c2 s s1 s2 E1 [l1 IH1] E2 [l2 IH2]|d e c1 c2 s s' De E [l IH]|d e c s De Ez|d e c s s1 s2 De En E1 [l1 IH1] E2 [l2 IH2]|d k body s s' Ek Hd E [l IH]];
    try (eexists; econstructor; eassumption).
Qed.
Ltac same_state := match goal with
  | A : tells ?q ?d ?c ?s ?s1 _, B : tells ?q ?d' ?c ?s ?s2 _ |- _ =>
      assert_fails (constr_eq s1 s2); pose proof (C114_one_meaning _ _ _ _ _ (tells_does _ _ _ _ _ _ A) _ _ (tells_does _ _ _ _ _ _ B)); subst end.
Theorem C118_one_list : forall procs d c s s1 l1, tells procs d c s s1 l1 -> forall d' s2 l2, tells procs d' c s s2 l2 -> l1 = l2.
Proof.
  induction 1 as [d s|d v e s De|d a i e s De Di|d c1 c2 s s1 s2 l1 l2 E1 IH1 E2 IH2|d e c1 c2 s s' l De E IH|d e c s De Ez|d e c s s1 s2 l1 l2 De En E1 IH1 E2 IH2|d k body s s' l Ek Hd E IH];
    intros d' s0 l0 K; inversion K; subst; try reflexivity; try contradiction.
  - repeat same_state. f_equal; [eapply IH1|eapply IH2]; eassumption.
  - eapply IH. eassumption.
  - repeat same_state. f_equal; [eapply IH1|eapply IH2]; eassumption.
  - match goal with A : nth_error procs k = Some ?b |- _ => rewrite Ek in A; injection A as <- end. eapply IH. eassumption.
Qed.
Lemma written_app s l l' : written s (l ++ l') = written (written s l) l'.
Proof. apply fold_left_app. Qed.
Theorem C118_final_values : forall procs d c s s' l, tells procs d c s s' l -> s' = written s l.
Proof.
  induction 1 as [d s|d v e s De|d a i e s De Di|d c1 c2 s s1 s2 l1 l2 E1 IH1 E2 IH2|d e c1 c2 s s' l De E IH|d e c s De Ez|d e c s s1 s2 l1 l2 De En E1 IH1 E2 IH2|d k body s s' l Ek Hd E IH];
    try reflexivity; try assumption; rewrite written_app, <- IH1; exact IH2.
Qed.

Lemma begins_refl {A} (l : list A) : begins l l.
Proof. exists []. symmetry. apply app_nil_r. Qed.
Lemma begins_nil {A} (l : list A) : begins [] l.
Proof. exists l. reflexivity. Qed.
Lemma begins_trans {A} (l1 l2 l3 : list A) : begins l1 l2 -> begins l2 l3 -> begins l1 l3.
Proof. intros (a & ->) (b & ->). exists (a ++ b). symmetry. apply app_assoc. Qed.
Lemma begins_app {A} (l l' : list A) : begins l (l ++ l').
Proof. exists l'. reflexivity. Qed.
Lemma begins_after {A} (l l1 l2 : list A) : begins l1 l2 -> begins (l ++ l1) (l ++ l2).
Proof. intros (a & ->). exists a. apply app_assoc. Qed.
Lemma begins_filter {A} (g : A -> bool) (l l' : list A) : begins l l' -> begins (filter g l) (filter g l').
Proof. intros (a & ->). exists (filter g a). apply filter_app. Qed.
(** What a program that ends has written at any moment is a beginning of what
    it writes. *)
Theorem C119_so_far_of_all : forall procs d c s l, so_far procs d c s l -> forall d' s' l', tells procs d' c s s' l' -> begins l l'.
Proof.
  induction 1 as [d c s|d c s s1 l E|d c1 c2 s l E IH|d c1 c2 s s1 l1 l2 E1 E2 IH|d e c1 c2 s l De E IH|d e c s l De En E IH|d e c s s1 l1 l2 De En E1 E2 IH|d k body s l Ek Hd E IH];
    intros d' s0 l0 K; [apply begins_nil|rewrite (C118_one_list _ _ _ _ _ _ E _ _ _ K); apply begins_refl| | | | | |];
    inversion K; subst; try contradiction.
  - eapply begins_trans; [eapply IH; eassumption|apply begins_app].
  - repeat same_state. match goal with A : tells _ d c1 s _ ?x, B : tells _ d' c1 s _ ?y |- _ => rewrite (C118_one_list _ _ _ _ _ _ A _ _ _ B) end.
    apply begins_after. eapply IH. eassumption.
  - eapply IH. eassumption.
  - eapply begins_trans; [eapply IH; eassumption|apply begins_app].
  - repeat same_state. match goal with A : tells _ d c s _ ?x, B : tells _ d' c s _ ?y |- _ => rewrite (C118_one_list _ _ _ _ _ _ A _ _ _ B) end.
    apply begins_after. eapply IH. eassumption.
  - match goal with A : nth_error procs k = Some ?b |- _ => rewrite Ek in A; injection A as <- end. eapply IH. eassumption.
Qed.
(** Of two moments one is the earlier. *)
Theorem C119_one_sequence : forall procs d c s l, so_far procs d c s l -> forall d' l', so_far procs d' c s l' -> begins l l' \/ begins l' l.
Proof.
  induction 1 as [d c s|d c s s1 l E|d c1 c2 s l E IH|d c1 c2 s s1 l1 l2 E1 E2 IH|d e c1 c2 s l De E IH|d e c s l De En E IH|d e c s s1 l1 l2 De En E1 E2 IH|d k body s l Ek Hd E IH];
    intros d' l0 K; [left; apply begins_nil|right; exact (C119_so_far_of_all _ _ _ _ _ K _ _ _ E)| | | | | |];
    inversion K as [| ? ? ? s2 ? T| | | | | |]; subst; try (right; apply begins_nil); try contradiction.
  - left. eapply C119_so_far_of_all; [apply so_far_first; exact E|exact T].
  - eapply IH. eassumption.
  - left. eapply begins_trans; [eapply C119_so_far_of_all; eassumption|apply begins_app].
  - left. eapply C119_so_far_of_all; [eapply so_far_second; eassumption|exact T].
  - right. eapply begins_trans; [eapply C119_so_far_of_all; eassumption|apply begins_app].
  - repeat same_state. match goal with A : tells _ d c1 s _ ?x, B : tells _ d' c1 s _ ?y |- _ => rewrite (C118_one_list _ _ _ _ _ _ A _ _ _ B) end.
    match goal with B : so_far _ d' c2 _ _ |- _ => destruct (IH _ _ B) end; [left|right]; apply begins_after; assumption.
  - left. eapply C119_so_far_of_all; [apply so_far_cond; eassumption|exact T].
  - eapply IH. eassumption.
  - left. eapply C119_so_far_of_all; [apply so_far_now; eassumption|exact T].
  - eapply IH. eassumption.
  - left. eapply begins_trans; [eapply C119_so_far_of_all; eassumption|apply begins_app].
  - left. eapply C119_so_far_of_all; [eapply so_far_later; eassumption|exact T].
  - right. eapply begins_trans; [eapply C119_so_far_of_all; eassumption|apply begins_app].
  - repeat same_state. match goal with A : tells _ d c s _ ?x, B : tells _ d' c s _ ?y |- _ => rewrite (C118_one_list _ _ _ _ _ _ A _ _ _ B) end.
    match goal with B : so_far _ d' (Again e c) _ _ |- _ => destruct (IH _ _ B) end; [left|right]; apply begins_after; assumption.
  - left. eapply C119_so_far_of_all; [eapply so_far_body; eassumption|exact T].
  - match goal with A : nth_error procs k = Some ?b |- _ => rewrite Ek in A; injection A as <- end. eapply IH. eassumption.
Qed.

(** ** From the specification machine to the emulator *)
Section Emulator.
Context {D : Type} {dev : Device D}.
Implicit Type cpu : mos6502 D.

Lemma logs_sound p I ram t lo hi k n r f r' f' l : ram_bus p I ram -> logs p ram t lo hi k n r f r' f' l -> forall cpu, machine_with p I cpu r f ->
  exists ms cpu', iterate p k cpu = Ok (ms, cpu') /\ list_sum (map ops_cycles ms) = n /\ length ms = k /\ machine_with p I cpu' r' f' /\
    filter (visible t) (flat_map stores_of ms) = l /\
    filter (visible t) (flat_map (fun m => stores_of m ++ stores_of m) ms) = twice l.
Proof.
  intros Hb. induction 1 as [r f|k n r f e r' f' l Hp E F Le X IH]; intros cpu M.
  - exists [], cpu. repeat (split; [reflexivity || exact M|]). reflexivity.
  - assert (X1 : exec p ram 1 (e_cycles e + 0) r f (e_regs e) (stored f (e_stores e))) by (eapply exec_step; [exact E|exact F|constructor]).
    destruct (exec_sound p I ram Hb _ _ _ _ _ _ X1 cpu M) as (cpu1 & S1 & M1).
    assert (Q : exists m, next p cpu = Ok (m, cpu1) /\ ops_cycles m = e_cycles e).
    { inversion S1; subst. match goal with K : steps p 0 _ _ _ |- _ => inversion K; subst end. match goal with K : observed_step p cpu = _ |- _ => unfold observed_step in K; destruct (next p cpu) as [[m c1]|]; cbn [bind] in K; [|discriminate K];
        injection K as <- <- end. exists m. split; [reflexivity|lia]. }
    destruct Q as (m & En & Ecy).
    pose proof (next_stores p I ram cpu cpu1 r f e m Hb M E En) as Es.
    destruct (IH cpu1 M1) as (ms & cpu' & Ei & Ec & Ek & M' & E1 & E2).
    exists (m :: ms), cpu'. split; [cbn [iterate]; rewrite En; cbn [bind]; rewrite Ei; reflexivity|].
    split; [cbn [map list_sum fold_right]; change (fold_right Nat.add 0%nat (map ops_cycles ms)) with (list_sum (map ops_cycles ms)); lia|].
    split; [cbn [length]; lia|]. split; [exact M'|]. cbn [flat_map]. rewrite !filter_app, Es, E1, E2. split; [reflexivity|].
    unfold twice at 2. rewrite flat_map_app. fold (twice l). f_equal.
    destruct (filter (visible t) (e_stores e)) as [|w [|w' rest]]; [reflexivity|reflexivity|cbn [length] in Le; lia].
Qed.

Lemma log_grows1 p (s s' : pipeline D) : pipeline_cycle p s = Ok s' -> begins (pl_log s) (pl_log s').
Proof.
  unfold pipeline_cycle. intros E.
  assert (G : forall log cs it, begins (pl_log s) log -> match cs with [] => Panic | c :: buf =>
      do! ' (log', st) <- foldM (execute_logged p) c (log, pl_state s) ; Ok (mkPipeline log' buf it st) end = Ok s' -> begins (pl_log s) (pl_log s')).
  { intros log [|c buf] it B K; [discriminate|]. rewrite fold_logged in K. destruct (foldM (execute_mut p) c (pl_state s)) as [st|]; cbn [bind] in K; [|discriminate].
    injection K as <-. cbn [pl_log]. eapply begins_trans; [exact B|apply begins_app]. }
  destruct (pl_buffer s) as [|c0 buf0].
  - unfold next_logged in E. destruct (next p (pl_iter s)) as [[m it]|]; cbn [bind] in E; [|discriminate].
    destruct (operations_into_cycles m) as [cs|]; cbn [bind] in E; [|discriminate]. eapply G; [|exact E]. apply begins_app.
  - cbn [bind] in E. eapply (G _ (c0 :: buf0)); [|exact E]. apply begins_refl.
Qed.
Lemma log_grows p n : forall s s' : pipeline D, pipeline_run p n s = Ok s' -> begins (pl_log s) (pl_log s').
Proof.
  induction n as [|n IH]; intros s s' E; cbn [pipeline_run] in E; [injection E as <-; apply begins_refl|].
  destruct (pipeline_cycle p s) as [s1|] eqn:E1; cbn [bind] in E; [|discriminate].
  eapply begins_trans; [exact (log_grows1 p s s1 E1)|exact (IH s1 s' E)].
Qed.
Lemma logs_run p I ram t lo hi k n r f r' f' l cpu : ram_bus p I ram -> logs p ram t lo hi k n r f r' f' l -> machine_with p I cpu r f ->
  (k <= n)%nat /\ exists s, pipeline_run p n (pipeline_start cpu) = Ok s /\ machine_with p I (pl_state s) r' f' /\ filter (visible t) (pl_log s) = twice l.
Proof.
  intros Hb G M. destruct (logs_sound p I ram t lo hi k n r f r' f' l Hb G cpu M) as (ms & cpu' & Ei & Ec & Ek & M' & E1 & E2).
  split.
  - assert (Q : forall k c ms c', iterate p k c = Ok (ms, c') -> (length ms <= list_sum (map ops_cycles ms))%nat).
    { clear. induction k as [|k IH]; intros c ms c' E; cbn [iterate] in E; [injection E as <- <-; cbn; lia|].
      destruct (next p c) as [[m c1]|] eqn:En; cbn [bind] in E; [|discriminate]. destruct (iterate p k c1) as [[ms' c2]|] eqn:Ei; cbn [bind] in E; [|discriminate].
      injection E as <- <-. destruct (next_inv _ _ _ _ En) as (j & Ej & _). specialize (IH _ _ _ Ei). cbn [length map list_sum fold_right].
      change (fold_right Nat.add 0%nat (map ops_cycles ms')) with (list_sum (map ops_cycles ms')). lia. }
    rewrite <- Ek, <- Ec. exact (Q _ _ _ _ Ei).
  - destruct (C65_writes_issued_twice p k cpu ms cpu' Ei) as (s & R & Es & El). rewrite Ec in R. exists s. split; [exact R|]. rewrite Es, El. split; assumption.
Qed.
Lemma run_before p n m (s s' : pipeline D) : (n <= m)%nat -> pipeline_run p m s = Ok s' -> exists s1, pipeline_run p n s = Ok s1 /\ begins (pl_log s1) (pl_log s').
Proof.
  intros Hn E. replace m with (n + (m - n))%nat in E by lia. rewrite pipeline_split in E. destruct (pipeline_run p n s) as [s1|]; cbn [bind] in E; [|discriminate].
  exists s1. split; [reflexivity|]. exact (log_grows p _ _ _ E).
Qed.
End Emulator.

(** The initial jump writes nothing. *)
Lemma jump_logs D (dev : Device D) p I ram (cpu : mos6502 D) A X Y S L P f t procs main : about_to_perform p I ram cpu A X Y S L P f t procs main ->
  logs p ram t L (L + len (image t L procs main)) 1 3 (mkRegs A X Y S L P) f (mkRegs A X Y S (entry L procs) P) f [].
Proof.
  intros Ha. destruct (performing p I ram cpu A X Y S L P f t procs main Ha) as (Hb & M & H0 & H1 & Ht & Hv & St & HS & Pl & Hp & _).
  destruct Ha as ((_ & _ & _ & _ & B) & HL & _). pose proof (image_len L t procs main) as El.
  unfold image in B. cbv zeta in B. apply bytes_from_app in B. destruct B as [Bj _].
  pose proof (size_nonneg main). pose proof (emit_all_entry (place (L + 3) procs) t procs (L + 3)) as Ee. pose proof (len_nonneg (emit_all (place (L + 3) procs) t (L + 3) procs)).
  fold (entry L procs) in Ee.
  apply stays_logs; [intros q Hq; apply (Hv q Hq)|].
  apply (jump_within p (scratch t) t L _ f H0 H1 (Hs' ram t L _ Hv) (entry L procs) L f); [intros q _; reflexivity|exact Bj|lia|lia].
Qed.

(** ** C118: the writes of a program that ends *)
(** A call of [run] with the cycles of the program (C116) sends to the devices
    the assignments of the program in its order, each twice (C65), and besides them
    only writes to the scratch byte and to the stack. *)
Theorem C118_run_writes : forall D (dev : Device D) p I ram (cpu : mos6502 D) A X Y S L P f t procs main d s' l n,
  about_to_perform p I ram cpu A X Y S L P f t procs main -> d <= 256 -> tells procs d main f s' l -> image_takes procs d L main f s' n ->
  exists s, pipeline_run p n (pipeline_start cpu) = Ok s /\ run p cpu n = Ok (Ready (pl_state s)) /\
    reg_pc (pl_state s) = L + len (image t L procs main) /\ filter (visible t) (pl_log s) = twice l.
Proof.
  intros D dev p I ram cpu A X Y S L P f t procs main d s' l n Ha Hd E T. pose proof (jump_logs _ _ _ _ _ _ _ _ _ _ _ _ _ _ _ _ Ha) as J.
  destruct (performing p I ram cpu A X Y S L P f t procs main Ha) as (Hb & M & H0 & H1 & Ht & Hv & St & HS & Pl & Hp & _).
  destruct (stmt_writes p ram t L _ f procs _ H0 H1 Hv Ht Hp d main f s' l E Hd _ Pl) as (m & Tm & W).
  assert (En : n = (3 + m)%nat). { eapply C116_one_time; [exact T|]. exists m. split; [reflexivity|exact Tm]. }
  destruct (W f A X Y S P St HS) as (k & A' & X' & P' & f' & G & _). pose proof (logs_app _ _ _ _ _ _ _ _ _ _ _ _ J _ _ _ _ _ G) as G0.
  destruct (logs_run p I ram t _ _ _ _ _ _ _ _ _ cpu Hb G0 M) as (_ & s & R & (_ & _ & Er & _) & El). rewrite <- En in R.
  exists s. split; [exact R|]. split; [rewrite C26_pipeline, R; reflexivity|]. split; [|exact El].
  change (reg_pc (pl_state s)) with (rPC (regs_of (pl_state s))). rewrite Er. cbn [rPC]. rewrite image_len. reflexivity.
Qed.
(** Whoever takes the instructions of the program one by one instead (the
    iterator) sees every assignment once. *)
Theorem C118_iterator_writes : forall D (dev : Device D) p I ram (cpu : mos6502 D) A X Y S L P f t procs main d s' l,
  about_to_perform p I ram cpu A X Y S L P f t procs main -> d <= 256 -> tells procs d main f s' l ->
  exists k ms cpu', iterate p k cpu = Ok (ms, cpu') /\ reg_pc cpu' = L + len (image t L procs main) /\ filter (visible t) (flat_map stores_of ms) = l.
Proof.
  intros D dev p I ram cpu A X Y S L P f t procs main d s' l Ha Hd E. pose proof (jump_logs _ _ _ _ _ _ _ _ _ _ _ _ _ _ _ _ Ha) as J.
  destruct (performing p I ram cpu A X Y S L P f t procs main Ha) as (Hb & M & H0 & H1 & Ht & Hv & St & HS & Pl & Hp & _).
  destruct (stmt_writes p ram t L _ f procs _ H0 H1 Hv Ht Hp d main f s' l E Hd _ Pl) as (m & Tm & W).
  destruct (W f A X Y S P St HS) as (k & A' & X' & P' & f' & G & _). pose proof (logs_app _ _ _ _ _ _ _ _ _ _ _ _ J _ _ _ _ _ G) as G0.
  destruct (logs_sound p I ram t _ _ _ _ _ _ _ _ _ Hb G0 cpu M) as (ms & cpu' & Ei & _ & _ & (_ & _ & Er & _) & El & _).
  exists (1 + k)%nat, ms, cpu'. split; [exact Ei|]. split; [|exact El].
  change (reg_pc cpu') with (rPC (regs_of cpu')). rewrite Er. cbn [rPC]. rewrite image_len. reflexivity.
Qed.

(** ** C119: the writes of any program, up to any moment *)
(** Whatever the program has assigned at some moment, a run long enough has
    sent to the devices, whether the program ends or not. *)
Theorem C119_written_at_last : forall D (dev : Device D) p I ram (cpu : mos6502 D) A X Y S L P f t procs main d l,
  about_to_perform p I ram cpu A X Y S L P f t procs main -> d <= 256 -> so_far procs d main f l ->
  exists n s, pipeline_run p n (pipeline_start cpu) = Ok s /\ run p cpu n = Ok (Ready (pl_state s)) /\ filter (visible t) (pl_log s) = twice l.
Proof.
  intros D dev p I ram cpu A X Y S L P f t procs main d l Ha Hd E. pose proof (jump_logs _ _ _ _ _ _ _ _ _ _ _ _ _ _ _ _ Ha) as J.
  destruct (performing p I ram cpu A X Y S L P f t procs main Ha) as (Hb & M & H0 & H1 & Ht & Hv & St & HS & Pl & Hp & _).
  destruct (stmt_so_far p ram t L _ f procs _ H0 H1 Hv Ht Hp d main f l E Hd _ Pl f A X Y S P St HS) as (k & n & r' & f' & _ & G).
  pose proof (logs_app _ _ _ _ _ _ _ _ _ _ _ _ J _ _ _ _ _ G) as G0.
  destruct (logs_run p I ram t _ _ _ _ _ _ _ _ _ cpu Hb G0 M) as (_ & s & R & _ & El).
  exists (3 + n)%nat, s. split; [exact R|]. split; [rewrite C26_pipeline, R; reflexivity|exact El].
Qed.
(** And a run of any length that does not go past the end of the program
    completes and has sent nothing else: what it has sent is the beginning of what
    the program assigns. *)
Theorem C119_nothing_else : forall D (dev : Device D) p I ram (cpu : mos6502 D) A X Y S L P f t procs main d n,
  about_to_perform p I ram cpu A X Y S L P f t procs main -> d <= 256 -> ~ overflows procs d main f ->
  (forall s' m, image_takes procs d L main f s' m -> (n <= m)%nat) ->
  exists s l, pipeline_run p n (pipeline_start cpu) = Ok s /\ run p cpu n = Ok (Ready (pl_state s)) /\
    so_far procs d main f l /\ begins (filter (visible t) (pl_log s)) (twice l).
Proof.
  intros D dev p I ram cpu A X Y S L P f t procs main d n Ha Hd No Hn. pose proof (jump_logs _ _ _ _ _ _ _ _ _ _ _ _ _ _ _ _ Ha) as J.
  destruct (performing p I ram cpu A X Y S L P f t procs main Ha) as (Hb & M & H0 & H1 & Ht & Hv & St & HS & Pl & Hp & _).
  assert (K : exists l k m r' f', so_far procs d main f l /\ logs p ram t L (L + len (image t L procs main)) k m (mkRegs A X Y S L P) f r' f' l /\ ((n <= m)%nat \/ (n <= k)%nat)).
  { destruct (still_or_tells p ram t L _ f procs _ H0 H1 Hv Ht Hp n main d _ f Hd Pl) as [(s' & l & E)|[O|(l & E & N)]]; [|contradiction|].
    - destruct (stmt_writes p ram t L _ f procs _ H0 H1 Hv Ht Hp d main f s' l E Hd _ Pl) as (m & Tm & W).
      destruct (W f A X Y S P St HS) as (k & A' & X' & P' & f' & G & _). exists l. eexists _, _, _, _. split; [eapply so_far_all; exact E|].
      split; [exact (logs_app _ _ _ _ _ _ _ _ _ _ _ _ J _ _ _ _ _ G)|]. left. apply (Hn s'). exists m. split; [reflexivity|exact Tm].
    - destruct (N f A X Y S P St HS) as (k & m & r' & f' & Hk & G). exists l. eexists _, _, _, _. split; [exact E|].
      split; [exact (logs_app _ _ _ _ _ _ _ _ _ _ _ _ J _ _ _ _ _ G)|]. right. lia. }
  destruct K as (l & k & m & r' & f' & E & G & Hc). destruct (logs_run p I ram t _ _ _ _ _ _ _ _ _ cpu Hb G M) as (Hk & s & R & _ & El).
  destruct (run_before p n m _ _ ltac:(lia) R) as (s1 & R1 & B). exists s1, l. split; [exact R1|]. split; [rewrite C26_pipeline, R1; reflexivity|].
  split; [exact E|]. rewrite <- El. apply begins_filter. exact B.
Qed.

(** ** Concrete cases *)
(** A program that counts for ever on an output byte at 0x200: the device sees
    0, 1, 2, ... in this order, as far as one cares to wait. *)
Definition show : list stmt := [Next (Put 0x200 (Var 0x10)) (Put 0x10 (Op Plus (Var 0x10) (Const 1)))].
Definition count_for_ever : stmt := Again (Const 1) (Perform 0).
Fixpoint counts (k : nat) (v : Z) : list (Z * Z) :=
  match k with O => [] | S k' => (0x200, v) :: (0x10, (v + 1) mod 256) :: counts k' ((v + 1) mod 256) end.
Lemma shows s : tells show 4 (Perform 0) s (set (set s 0x200 (s 0x10)) 0x10 ((s 0x10 + 1) mod 256)) [(0x200, s 0x10); (0x10, (s 0x10 + 1) mod 256)].
Proof.
  eapply tells_perform; [reflexivity|lia|]. change [(0x200, s 0x10); (0x10, (s 0x10 + 1) mod 256)] with ([(0x200, s 0x10)] ++ [(0x10, (s 0x10 + 1) mod 256)]).
  eapply tells_next; [apply (tells_put show _ 0x200 (Var 0x10)); cbn [depth]; lia|].
  apply (tells_put show _ 0x10 (Op Plus (Var 0x10) (Const 1)) (set s 0x200 (s 0x10))). cbn [depth]. lia.
Qed.
Lemma counting k : forall s, so_far show 4 count_for_ever s (counts k (s 0x10)).
Proof.
  induction k as [|k IH]; intros s; [constructor|]. cbn [counts].
  pose proof (shows s) as E.
  change ((0x200, s 0x10) :: (0x10, (s 0x10 + 1) mod 256) :: counts k ((s 0x10 + 1) mod 256))
    with ([(0x200, s 0x10); (0x10, (s 0x10 + 1) mod 256)] ++ counts k ((s 0x10 + 1) mod 256)).
  eapply so_far_later; [cbn [depth]; lia|cbn; lia|exact E|]. exact (IH (set (set s 0x200 (s 0x10)) 0x10 ((s 0x10 + 1) mod 256))).
Qed.
Lemma show_ready main : main = count_for_ever \/ main = Next (Perform 0) (Perform 0) -> about_to_perform Debug (plain_with (fun b => 0 <= b <= 0x3ff)) (fun b => 0 <= b <= 0x3ff)
  (machine [] (image 0x12 0x8000 show main) 1 2 3 0xff ps0) 1 2 3 0xff 0x8000 ps0
  (bytes_at Debug [] (image 0x12 0x8000 show main) 1 2 3 0xff ps0) 0x12 show main.
Proof.
  intros [-> | ->];
  (split; [apply demo_about_to_run; [reflexivity|repeat split; vm_compute; reflexivity]|]; split; [vm_compute; discriminate|];
  split; [split; [unfold page_one; lia|intros q [->|Hq]; apply demo_variable; unfold page_one in *; lia]|]);
  assert (R : forall q, 0 <= q < 0x300 -> q <> 0x12 -> ~ (0x100 <= q <= 0x1ff) -> u16 q /\ ~ scratch 0x12 q)
    by (intros q H1 H2 H3; split; [unfold u16; lia|]; intros [->|K]; [lia|exact (H3 K)]);
  (constructor; [|constructor; [|constructor]]; unfold good_stmt, count_for_ever, show; cbn [proper reads length];
    repeat match goal with |- _ /\ _ => split | |- forall k, _ -> _ => intros end; try (apply R; lia); try (apply demo_variable; lia); lia).
Qed.
Example C119_case : forall k, exists n s,
  pipeline_run Debug n (pipeline_start (machine [] (image 0x12 0x8000 show count_for_ever) 1 2 3 0xff ps0)) = Ok s /\
  run Debug (machine [] (image 0x12 0x8000 show count_for_ever) 1 2 3 0xff ps0) n = Ok (Ready (pl_state s)) /\
  filter (visible 0x12) (pl_log s) = twice (counts k 0).
Proof. intros k. exact (C119_written_at_last _ _ _ _ _ _ _ _ _ _ _ _ _ _ _ _ 4 _ (show_ready _ (or_introl eq_refl)) ltac:(lia) (counting k _)). Qed.
(** Two steps of it: four writes, each sent twice. *)
Example C118_case : exists n s, pipeline_run Debug n (pipeline_start (machine [] (image 0x12 0x8000 show (Next (Perform 0) (Perform 0))) 1 2 3 0xff ps0)) = Ok s /\
  filter (visible 0x12) (pl_log s) = [(0x200, 0); (0x200, 0); (0x10, 1); (0x10, 1); (0x200, 1); (0x200, 1); (0x10, 2); (0x10, 2)].
Proof.
  pose proof (show_ready _ (or_intror eq_refl)) as Ha. set (f := bytes_at _ _ _ _ _ _ _ _) in Ha.
  pose proof (tells_next _ _ _ _ _ _ _ _ _ (shows f) (shows _)) as E.
  destruct (proj1 (C116_some_time show 4 0x8000 _ _ _) (tells_does _ _ _ _ _ _ E)) as (n & T).
  destruct (C118_run_writes _ _ _ _ _ _ _ _ _ _ _ _ _ _ _ _ 4 _ _ n Ha ltac:(lia) E T) as (s & R & _ & _ & El).
  exists n, s. split; [exact R|]. rewrite El. replace (f 0x10) with 0 by (vm_compute; reflexivity). reflexivity.
Qed.
(** Neither ends nor overflows: a run of any length completes. *)
Lemma count_never d c s s' : does show d c s s' -> c <> count_for_ever.
Proof.
  induction 1 as [d s|d v e s De|d a i e s De Di|d c1 c2 s s1 s2 E1 IH1 E2 IH2|d e c1 c2 s s' De E IH|d e c s De Ez|d e c s s1 s2 De En E1 IH1 E2 IH2|d k body s s' Ek Hd E IH]; try discriminate.
  - intros K. injection K as -> ->. discriminate.
  - exact IH2.
Qed.
Lemma count_fits d c s : overflows show d c s -> c = count_for_ever -> d < 4.
Proof.
  induction 1 as [d v e s De|d a i e s De|d c1 c2 s O IH|d c1 c2 s s1 E O IH|d e c1 c2 s De|d e c1 c2 s De O IH|d e c s De|d e c s De En O IH|d e c s s1 De En E O IH|d k s Hd|d k body s Ek Hd O IH];
    intros K; try discriminate K; injection K as -> ->; cbn [depth] in *; try lia.
  - inversion O; subst; [lia|]. match goal with A : nth_error show 0 = Some _ |- _ => injection A as <- end.
    match goal with A : overflows _ _ (Next _ _) _ |- _ => inversion A; subst end;
      match goal with A : overflows _ _ (Put _ _) _ |- _ => inversion A; subst end; cbn [depth] in *; lia.
  - apply IH. reflexivity.
Qed.
Example C119_always : forall n, exists s l, pipeline_run Debug n (pipeline_start (machine [] (image 0x12 0x8000 show count_for_ever) 1 2 3 0xff ps0)) = Ok s /\
  run Debug (machine [] (image 0x12 0x8000 show count_for_ever) 1 2 3 0xff ps0) n = Ok (Ready (pl_state s)) /\
  so_far show 4 count_for_ever (bytes_at Debug [] (image 0x12 0x8000 show count_for_ever) 1 2 3 0xff ps0) l /\ begins (filter (visible 0x12) (pl_log s)) (twice l).
Proof.
  intros n. refine (C119_nothing_else _ _ _ _ _ _ _ _ _ _ _ _ _ _ _ _ 4 n (show_ready _ (or_introl eq_refl)) _ _ _).
  - lia.
  - intros O. pose proof (count_fits _ _ _ O eq_refl). lia.
  - intros s' m (m' & _ & T). destruct (count_never _ _ _ _ (takes_does _ _ _ _ _ _ _ _ T) eq_refl).
Qed.

Print Assumptions C118_some_assignments.
Print Assumptions C118_one_list.
Print Assumptions C118_final_values.
Print Assumptions C118_run_writes.
Print Assumptions C118_iterator_writes.
Print Assumptions C119_so_far_of_all.
Print Assumptions C119_one_sequence.
Print Assumptions C119_written_at_last.
Print Assumptions C119_nothing_else.
