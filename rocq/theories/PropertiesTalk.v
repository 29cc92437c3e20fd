(** C120, C121: translated programs on a bus with a device that reacts to being
    read and written: the program and the device carry on the conversation that
    the language prescribes. *)
From Verif Require Import Base Arith ModelMap ModelRegs6502 ModelIsa6502 ModelStep ModelCpu6502 ModelOperand ModelBus Link6502 Spec6502 SpecProgram ProofProgram SpecRoutines ProofRoutines
  SpecBus ProofBus ProofBusStep ProofBusRun ProofReplay PropertiesBus SpecLanguage ProofLanguage SpecProcedures ProofProcedures PropertiesProcedures SpecTalk ProofTalk ProofTalkCode ProofTalkRun.

(** ** The language alone *)
(** One outcome, whatever the room. *)
Theorem C120_one_outcome : forall T (dev : device T) port again procs d c s u s1 u1, acts dev port again procs d c s u s1 u1 ->
  forall d' s2 u2, acts dev port again procs d' c s u s2 u2 -> s1 = s2 /\ u1 = u2.
Proof.
  intros T dev port again procs.
  induction 1 as [d s u|d v e s u x u1 De Ex|d a i e s u x u1 y u2 De Di Ex Ey|d c1 c2 s u s1 u1 s2 u2 E1 IH1 E2 IH2|d e c1 c2 s u x u1 s' u' De Ex E IH|d e c s u u1 De Ex
    |d e c s u x u1 s2 u2 s3 u3 De Ex Nx E1 IH1 E2 IH2|d k body s u s' u' Ek Hd E IH]; intros d' s0 u0 K; inversion K; subst;
    repeat match goal with A : asks _ _ _ _ ?e = (?x, ?y), B : asks _ _ _ _ ?e = (?x', ?y') |- _ =>
      assert_fails (constr_eq x x'; constr_eq y y'); rewrite A in B; injection B as ?; subst end; try contradiction; try (split; reflexivity).
  - match goal with A : acts _ _ _ _ _ c1 s u ?s3 ?u3 |- _ => destruct (IH1 _ _ _ A); subst end. eapply IH2. eassumption.
  - eapply IH. eassumption.
  - match goal with A : acts _ _ _ _ _ c s _ ?s4 ?u4, B : acts _ _ _ _ _ (Again e c) ?s4 ?u4 _ _ |- _ => destruct (IH1 _ _ _ A); subst; exact (IH2 _ _ _ B) end.
  - match goal with A : nth_error procs k = Some ?b |- _ => rewrite Ek in A; injection A as <- end. eapply IH. eassumption.
Qed.
(** A program that ends does not overflow. *)
Theorem C120_not_both : forall T (dev : device T) port again procs d c s u s1 u1, acts dev port again procs d c s u s1 u1 -> ~ bursts dev port again procs d c s u.
Proof.
  intros T dev port again procs.
  induction 1 as [d s u|d v e s u x u1 De Ex|d a i e s u x u1 y u2 De Di Ex Ey|d c1 c2 s u s1 u1 s2 u2 E1 IH1 E2 IH2|d e c1 c2 s u x u1 s' u' De Ex E IH|d e c s u u1 De Ex
    |d e c s u x u1 s2 u2 s3 u3 De Ex Nx E1 IH1 E2 IH2|d k body s u s' u' Ek Hd E IH]; intros O; inversion O; subst;
    repeat match goal with A : asks _ _ _ _ ?e = (?x, ?y), B : asks _ _ _ _ ?e = (?x', ?y') |- _ =>
      assert_fails (constr_eq x x'; constr_eq y y'); rewrite A in B; injection B as ?; subst end; try contradiction; try lia; try (now auto).
  - match goal with A : acts _ _ _ _ _ c1 s u ?s3 ?u3 |- _ => destruct (C120_one_outcome _ _ _ _ _ _ _ _ _ _ _ E1 _ _ _ A); subst end. auto.
  - match goal with A : acts _ _ _ _ _ c s _ ?s4 ?u4 |- _ => destruct (C120_one_outcome _ _ _ _ _ _ _ _ _ _ _ E1 _ _ _ A); subst end. auto.
  - match goal with A : nth_error procs k = Some ?b |- _ => rewrite Ek in A; injection A as <- end. auto.
Qed.
(** Every program that ends takes some time, always the same. *)
Theorem C120_some_time : forall T (dev : device T) port again procs d L main s u s' u',
  acts dev port again procs d main s u s' u' <-> exists n, image_acts_in dev port again procs d L main s u s' u' n.
Proof.
  intros T dev port again procs d L main s u s' u'. split.
  - intros E. destruct (acts_acts_in dev port again procs (place (L + 3) procs) d main s u s' u' E (entry L procs)) as (m & E'). exists (3 + m)%nat, m. split; [reflexivity|exact E'].
  - intros (n & m & _ & E). exact (acts_in_acts _ _ _ _ _ _ _ _ _ _ _ _ _ E).
Qed.
Lemma in_one_time T (dev : device T) port again procs at_ d L c s u s1 u1 n1 : acts_in dev port again procs at_ d L c s u s1 u1 n1 ->
  forall d' s2 u2 n2, acts_in dev port again procs at_ d' L c s u s2 u2 n2 -> n1 = n2.
Proof.
  induction 1 as [d L s u|d L v e s u x u1 De Ex|d L a i e s u x u1 y u2 De Di Ex Ey|d L c1 c2 s u s1 u1 s2 u2 m1 m2 E1 IH1 E2 IH2|d L e c1 c2 s u x u1 s' u' m De Ex En E IH
    |d L e c1 c2 s u u1 s' u' m De Ex E IH|d L e c s u u1 De Ex|d L e c s u x u1 s2 u2 s3 u3 m1 m2 De Ex En E1 IH1 E2 IH2|d L k body s u s' u' m Ek Hd E IH];
    intros d' s0 u0 n0 K; inversion K; subst;
    repeat match goal with A : asks _ _ _ _ ?e = (?x, ?y), B : asks _ _ _ _ ?e = (?x', ?y') |- _ =>
      assert_fails (constr_eq x x'; constr_eq y y'); rewrite A in B; injection B as ?; subst end; try contradiction; try reflexivity.
  - match goal with A : acts_in _ _ _ _ _ _ _ c1 s u ?s3 ?u3 _ |- _ =>
      destruct (C120_one_outcome _ _ _ _ _ _ _ _ _ _ _ (acts_in_acts _ _ _ _ _ _ _ _ _ _ _ _ _ E1) _ _ _ (acts_in_acts _ _ _ _ _ _ _ _ _ _ _ _ _ A)); subst end.
    f_equal; [eapply IH1|eapply IH2]; eassumption.
  - do 2 f_equal. eapply IH. eassumption.
  - f_equal. eapply IH. eassumption.
  - match goal with A : acts_in _ _ _ _ _ _ _ c s _ ?s4 ?u4 _, B : acts_in _ _ _ _ _ _ _ (Again e c) ?s4 ?u4 _ _ _ |- _ =>
      destruct (C120_one_outcome _ _ _ _ _ _ _ _ _ _ _ (acts_in_acts _ _ _ _ _ _ _ _ _ _ _ _ _ E1) _ _ _ (acts_in_acts _ _ _ _ _ _ _ _ _ _ _ _ _ A)); subst end.
    f_equal; [do 2 f_equal; eapply IH1|eapply IH2]; eassumption.
  - match goal with A : nth_error procs k = Some ?b |- _ => rewrite Ek in A; injection A as <- end. do 2 f_equal. eapply IH. eassumption.
Qed.
Theorem C120_one_time : forall T (dev : device T) port again procs d L main s u s1 u1 n1 d' s2 u2 n2,
  image_acts_in dev port again procs d L main s u s1 u1 n1 -> image_acts_in dev port again procs d' L main s u s2 u2 n2 -> n1 = n2.
Proof. intros T dev port again procs d L main s u s1 u1 n1 d' s2 u2 n2 (m1 & -> & E1) (m2 & -> & E2). f_equal. eapply in_one_time; eassumption. Qed.

(** A device that a repeated write does not disturb: it makes no difference
    whether every write arrives once or twice. *)
Lemma after_same T (dev : device T) port u a v : (forall u a v, d_put dev (d_put dev u a v) a v = d_put dev u a v) -> dev_after dev port 2 u a v = dev_after dev port 1 u a v.
Proof. intros H. unfold dev_after. destruct (port a); [apply H|reflexivity]. Qed.
Theorem C121_patient_device : forall T (dev : device T) port procs d c s u s' u', (forall u a v, d_put dev (d_put dev u a v) a v = d_put dev u a v) ->
  (acts dev port 2 procs d c s u s' u' <-> acts dev port 1 procs d c s u s' u').
Proof.
  intros T dev port procs d c s u s' u' H. split; induction 1; try (econstructor; eassumption).
  - rewrite (after_same _ _ _ _ _ _ H). econstructor; eassumption.
  - rewrite (after_same _ _ _ _ _ _ H). econstructor; eassumption.
  - rewrite <- (after_same _ _ _ _ _ _ H). econstructor; eassumption.
  - rewrite <- (after_same _ _ _ _ _ _ H). econstructor; eassumption.
Qed.

(** ** On the emulator *)
Section Programs.
Context {BS T : Type} (b : bus BS) (dev : device T) (port : Z -> bool) (ram : Z -> Prop) (view : BS -> (Z -> Z) -> T -> Prop).
Context (Hb : talking b dev port ram view) (p : profile) (cpu : core) (t L : Z) (f : Z -> Z) (procs : list stmt) (main : stmt).
Context (Ha : about_to_talk port ram (regs_of cpu) f t L procs main).
Notation hi := (L + len (image t L procs main)).
Notation go rep := (walks b dev port ram view p rep L hi).
Lemma program_ends rep d u s' u' n : d <= 256 -> image_acts_in dev port rep procs d L main f u s' u' n ->
  exists k r' f' l, go rep k n (regs_of cpu) f u r' f' u' l /\ rPC r' = hi /\ rS r' = rS (regs_of cpu) /\ rY r' = rY (regs_of cpu) /\ (forall q, ~ scratch t q -> f' q = s' q) /\
    Forall (during dev port rep procs d main f u) (l ++ [u']).
Proof.
  intros Hd (m & -> & E). pose proof Ha as Ha'. assert (Epc : rPC (regs_of cpu) = L) by apply Ha'. destruct (regs_of cpu) as [A X Y S PC P]. cbn [rPC rS rY] in *. subst PC.
  destruct (talks port ram A X Y S L P f t procs main Ha') as (H0 & H1 & Ht & Hp & Hs & St & HS & Pl & Hprocs & Bj & H3).
  pose proof (jump_in b dev port ram view Hb p rep t L _ f procs _ H0 H1 Hp Hs Hprocs (entry L procs) L f u ltac:(apply St) Bj ltac:(lia) ltac:(lia) A X Y S P) as J.
  destruct (stmt_walks b dev port ram view Hb p rep t L _ f procs _ H0 H1 Hp Hs Ht Hprocs d _ main f u s' u' m E Hd Pl f A X Y S P St HS) as (k & A' & X' & P' & f' & l & G & (Ca & _) & _ & D).
  rewrite <- (image_len L t procs main) in G.
  eexists _, _, f', _. split; [exact (walks_app _ _ _ _ _ _ _ _ _ _ _ _ _ _ _ _ _ _ J _ _ _ _ _ _ G)|]. cbn [rPC rS rY]. repeat (split; [reflexivity|]). split; [intros q Hq; apply Ca; exact Hq|].
  cbn [app]. constructor; [apply during_start|exact D].
Qed.
Lemma program_meets rep d u x : d <= 256 -> during dev port rep procs d main f u x -> exists k n r' f' l, go rep k n (regs_of cpu) f u r' f' x l.
Proof.
  intros Hd E. pose proof Ha as Ha'. assert (Epc : rPC (regs_of cpu) = L) by apply Ha'. destruct (regs_of cpu) as [A X Y S PC P]. cbn [rPC] in *. subst PC.
  destruct (talks port ram A X Y S L P f t procs main Ha') as (H0 & H1 & Ht & Hp & Hs & St & HS & Pl & Hprocs & Bj & H3).
  pose proof (jump_in b dev port ram view Hb p rep t L _ f procs _ H0 H1 Hp Hs Hprocs (entry L procs) L f u ltac:(apply St) Bj ltac:(lia) ltac:(lia) A X Y S P) as J.
  destruct (stmt_meets b dev port ram view Hb p rep t L _ f procs _ H0 H1 Hp Hs Ht Hprocs d main f u x E Hd _ Pl f A X Y S P St HS) as (k & n & r' & f' & l & G).
  do 5 eexists. exact (walks_app _ _ _ _ _ _ _ _ _ _ _ _ _ _ _ _ _ _ J _ _ _ _ _ _ G).
Qed.
Lemma program_continues rep k d u : d <= 256 -> ~ bursts dev port rep procs d main f u ->
  (exists s' u', acts dev port rep procs d main f u s' u') \/
  exists n r' f' u' l, go rep k n (regs_of cpu) f u r' f' u' l /\ Forall (during dev port rep procs d main f u) (l ++ [u']).
Proof.
  intros Hd No. pose proof Ha as Ha'. assert (Epc : rPC (regs_of cpu) = L) by apply Ha'. destruct (regs_of cpu) as [A X Y S PC P]. cbn [rPC] in *. subst PC.
  destruct (talks port ram A X Y S L P f t procs main Ha') as (H0 & H1 & Ht & Hp & Hs & St & HS & Pl & Hprocs & Bj & H3).
  pose proof (jump_in b dev port ram view Hb p rep t L _ f procs _ H0 H1 Hp Hs Hprocs (entry L procs) L f u ltac:(apply St) Bj ltac:(lia) ltac:(lia) A X Y S P) as J.
  destruct (still_or_acts b dev port ram view Hb p rep t L _ f procs _ H0 H1 Hp Hs Ht Hprocs k main d _ f u Hd Pl) as [E|[O|N]]; [left; exact E|contradiction|right].
  destruct (N f A X Y S P St HS) as (n & r' & f' & u' & l & G & D).
  refine (first_ones b dev port ram view p rep L _ Hp _ k _ _ _ _ _ _ _ _ _ (walks_app _ _ _ _ _ _ _ _ _ _ _ _ _ _ _ _ _ _ J _ _ _ _ _ _ G) _ ltac:(lia)).
  cbn [app]. constructor; [apply during_start|exact D].
Qed.
End Programs.

(** ** C120: instruction by instruction *)
(** A program that ends: the instructions bring the processor to its end in
    the time the language says; the memory holds its final values and the device
    is in its final state, having answered and been sent what the program says in
    its order, every write once. *)
Theorem C120_ends : forall BS T (b : bus BS) (dev : device T) port ram view p (cpu : core) bs f u t L procs main d s' u' n,
  talking b dev port ram view -> byte_bus b -> view bs f u -> about_to_talk port ram (regs_of cpu) f t L procs main -> d <= 256 ->
  image_acts_in dev port 1 procs d L main f u s' u' n ->
  exists k ms cpu' bs' f', iterate_bus b p k (cpu, bs) = Ok (ms, (cpu', bs')) /\ list_sum (map ops_cycles ms) = n /\
    reg_pc cpu' = L + len (image t L procs main) /\ reg_sp cpu' = reg_sp cpu /\
    view bs' f' u' /\ (forall q, ~ scratch t q -> f' q = s' q).
Proof.
  intros BS T b dev port ram view p cpu bs f u t L procs main d s' u' n Hb Hby V Ha Hd E.
  destruct (program_ends b dev port ram view Hb p cpu t L f procs main Ha 1 d u s' u' n Hd E) as (k & r' & f' & l & G & Epc & Esp & _ & Ef & _).
  destruct (walks_iterate b dev port ram view Hb Hby p L _ _ _ _ _ _ _ _ _ _ G cpu bs eq_refl ltac:(apply Ha) V) as (ms & cpu' & bs' & Ei & El & Er & V').
  exists k, ms, cpu', bs', f'. split; [exact Ei|]. split; [exact El|]. rewrite <- Er in Epc, Esp. split; [exact Epc|]. split; [exact Esp|]. split; [exact V'|exact Ef].
Qed.
(** Every state of the device that the language names, whether the program
    ends or not, is reached. *)
Theorem C120_midway : forall BS T (b : bus BS) (dev : device T) port ram view p (cpu : core) bs f u t L procs main d x,
  talking b dev port ram view -> byte_bus b -> view bs f u -> about_to_talk port ram (regs_of cpu) f t L procs main -> d <= 256 ->
  during dev port 1 procs d main f u x ->
  exists k ms cpu' bs' f', iterate_bus b p k (cpu, bs) = Ok (ms, (cpu', bs')) /\ view bs' f' x.
Proof.
  intros BS T b dev port ram view p cpu bs f u t L procs main d x Hb Hby V Ha Hd E.
  destruct (program_meets b dev port ram view Hb p cpu t L f procs main Ha 1 d u x Hd E) as (k & n & r' & f' & l & G).
  destruct (walks_iterate b dev port ram view Hb Hby p L _ _ _ _ _ _ _ _ _ _ G cpu bs eq_refl ltac:(apply Ha) V) as (ms & cpu' & bs' & Ei & El & Er & V').
  exists k, ms, cpu', bs', f'. split; [exact Ei|exact V'].
Qed.
(** And no other: a program that does not overflow has ended within [k]
    instructions, or after [k] instructions the device is in a state that the
    language names. *)
Theorem C120_nothing_else : forall BS T (b : bus BS) (dev : device T) port ram view p (cpu : core) bs f u t L procs main d k,
  talking b dev port ram view -> byte_bus b -> view bs f u -> about_to_talk port ram (regs_of cpu) f t L procs main -> d <= 256 ->
  ~ bursts dev port 1 procs d main f u ->
  (exists j ms cpu' bs' f' s' u', (j <= k)%nat /\ iterate_bus b p j (cpu, bs) = Ok (ms, (cpu', bs')) /\
    reg_pc cpu' = L + len (image t L procs main) /\ acts dev port 1 procs d main f u s' u' /\ view bs' f' u') \/
  (exists ms cpu' bs' f' x, iterate_bus b p k (cpu, bs) = Ok (ms, (cpu', bs')) /\ during dev port 1 procs d main f u x /\ view bs' f' x).
Proof.
  intros BS T b dev port ram view p cpu bs f u t L procs main d k Hb Hby V Ha Hd No.
  destruct (program_continues b dev port ram view Hb p cpu t L f procs main Ha 1 k d u Hd No) as [(s' & u' & E)|(n & r' & f' & u' & l & G & D)].
  - destruct (proj1 (C120_some_time _ dev port 1 procs d L main f u s' u') E) as (n & En).
    destruct (program_ends b dev port ram view Hb p cpu t L f procs main Ha 1 d u s' u' n Hd En) as (j & r' & f' & l & G & Epc & _ & _ & _ & D).
    destruct (le_lt_dec j k) as [Hj|Hj].
    + left. destruct (walks_iterate b dev port ram view Hb Hby p L _ _ _ _ _ _ _ _ _ _ G cpu bs eq_refl ltac:(apply Ha) V) as (ms & cpu' & bs' & Ei & El & Er & V').
      exists j, ms, cpu', bs', f', s', u'. split; [exact Hj|]. split; [exact Ei|]. rewrite <- Er in Epc. split; [exact Epc|]. split; [exact E|exact V'].
    + right. destruct (first_ones b dev port ram view p 1 L _ ltac:(apply Ha) _ k _ _ _ _ _ _ _ _ _ G D ltac:(lia)) as (n1 & r1 & f1 & u1 & l1 & G1 & D1).
      destruct (walks_iterate b dev port ram view Hb Hby p L _ _ _ _ _ _ _ _ _ _ G1 cpu bs eq_refl ltac:(apply Ha) V) as (ms & cpu' & bs' & Ei & El & Er & V').
      exists ms, cpu', bs', f1, u1. split; [exact Ei|]. split; [exact (Forall_last _ _ _ D1)|exact V'].
  - right. destruct (walks_iterate b dev port ram view Hb Hby p L _ _ _ _ _ _ _ _ _ _ G cpu bs eq_refl ltac:(apply Ha) V) as (ms & cpu' & bs' & Ei & El & Er & V').
    exists ms, cpu', bs', f', u'. split; [exact Ei|]. split; [exact (Forall_last _ _ _ D)|exact V'].
Qed.

(** ** C121: by a call of [run] *)
(** The same program by [run]: every write reaches the device twice (C68), the
    reads once; the conversation is that of the language with every write made
    twice. *)
Theorem C121_ends : forall BS T (b : bus BS) (dev : device T) port ram view p (cpu : core) bs f u t L procs main d s' u' n,
  talking b dev port ram view -> byte_bus b -> view bs f u -> about_to_talk port ram (regs_of cpu) f t L procs main -> d <= 256 ->
  image_acts_in dev port 2 procs d L main f u s' u' n ->
  exists cpu' bs' f', run_bus b p cpu bs n = Ok (Ready cpu', bs') /\ reg_pc cpu' = L + len (image t L procs main) /\ reg_sp cpu' = reg_sp cpu /\
    view bs' f' u' /\ (forall q, ~ scratch t q -> f' q = s' q).
Proof.
  intros BS T b dev port ram view p cpu bs f u t L procs main d s' u' n Hb Hby V Ha Hd E.
  destruct (program_ends b dev port ram view Hb p cpu t L f procs main Ha 2 d u s' u' n Hd E) as (k & r' & f' & l & G & Epc & Esp & _ & Ef & _).
  destruct (walks_run b dev port ram view Hb Hby p L _ _ _ _ _ _ _ _ _ _ G bs ltac:(apply Ha) V) as (_ & R). destruct (R n ltac:(lia)) as (bs' & Er & V').
  exists (cpu_with r' []), bs', f'. rewrite C68_run_exact by (exact Hby || apply Ha). rewrite Er. split; [reflexivity|].
  split; [destruct r'; exact Epc|]. split; [destruct r'; exact Esp|]. split; [exact V'|exact Ef].
Qed.
Theorem C121_midway : forall BS T (b : bus BS) (dev : device T) port ram view p (cpu : core) bs f u t L procs main d x,
  talking b dev port ram view -> byte_bus b -> view bs f u -> about_to_talk port ram (regs_of cpu) f t L procs main -> d <= 256 ->
  during dev port 2 procs d main f u x ->
  exists n cpu' bs' f', run_bus b p cpu bs n = Ok (Ready cpu', bs') /\ view bs' f' x.
Proof.
  intros BS T b dev port ram view p cpu bs f u t L procs main d x Hb Hby V Ha Hd E.
  destruct (program_meets b dev port ram view Hb p cpu t L f procs main Ha 2 d u x Hd E) as (k & n & r' & f' & l & G).
  destruct (walks_run b dev port ram view Hb Hby p L _ _ _ _ _ _ _ _ _ _ G bs ltac:(apply Ha) V) as (_ & R). destruct (R n ltac:(lia)) as (bs' & Er & V').
  exists n, (cpu_with r' []), bs', f'. rewrite C68_run_exact by (exact Hby || apply Ha). rewrite Er. split; [reflexivity|exact V'].
Qed.
(** A run of any number of cycles that does not go past the end of the program
    completes, and leaves the device in a state that the language names, or with
    the first of the two copies of a write. *)
Theorem C121_nothing_else : forall BS T (b : bus BS) (dev : device T) port ram view p (cpu : core) bs f u t L procs main d n,
  talking b dev port ram view -> byte_bus b -> view bs f u -> about_to_talk port ram (regs_of cpu) f t L procs main -> d <= 256 ->
  ~ bursts dev port 2 procs d main f u -> (forall s' u' m, image_acts_in dev port 2 procs d L main f u s' u' m -> (n <= m)%nat) ->
  exists cpu' bs' f' x, run_bus b p cpu bs n = Ok (Ready cpu', bs') /\ halfway dev port (during dev port 2 procs d main f u) x /\ view bs' f' x.
Proof.
  intros BS T b dev port ram view p cpu bs f u t L procs main d n Hb Hby V Ha Hd No Hn.
  assert (K : exists k m r' f' u' l, walks b dev port ram view p 2 L (L + len (image t L procs main)) k m (regs_of cpu) f u r' f' u' l /\
    Forall (during dev port 2 procs d main f u) (l ++ [u']) /\ (n <= m)%nat).
  { destruct (program_continues b dev port ram view Hb p cpu t L f procs main Ha 2 n d u Hd No) as [(s' & u' & E)|(m & r' & f' & u' & l & G & D)].
    - destruct (proj1 (C120_some_time _ dev port 2 procs d L main f u s' u') E) as (m & En).
      destruct (program_ends b dev port ram view Hb p cpu t L f procs main Ha 2 d u s' u' m Hd En) as (j & r' & f' & l & G & _ & _ & _ & _ & D).
      exists j, m, r', f', u', l. split; [exact G|]. split; [exact D|]. exact (Hn _ _ _ En).
    - exists n, m, r', f', u', l. split; [exact G|]. split; [exact D|]. apply (walks_run b dev port ram view Hb Hby p L _ _ _ _ _ _ _ _ _ _ G bs ltac:(apply Ha) V). }
  destruct K as (k & m & r' & f' & u' & l & G & D & Hm).
  destruct (walks_partway b dev port ram view Hb Hby p L _ _ k m _ _ _ _ _ _ _ G D bs n n ltac:(apply Ha) V Hm ltac:(lia)) as (r1 & bs1 & f1 & x & Er & V1 & Hx).
  exists (cpu_with r1 []), bs1, f1, x. rewrite C68_run_exact by (exact Hby || apply Ha). rewrite Er. split; [reflexivity|]. split; [exact Hx|exact V1].
Qed.

(** ** Concrete cases *)
(** Any device beside a memory is such a bus. *)
Definition attach {T} (dev : device T) (port : Z -> bool) : bus (T * (Z -> Z)) :=
  mkBus (fun '(u, m) a => if port a then let '(v, u') := d_get dev u a in Ok (v, (u', m)) else Ok (m a mod 256, (u, m)))
        (fun '(u, m) a v => if port a then Ok (d_put dev u a v, m) else Ok (u, set m a v)).
Definition attached {T} (port : Z -> bool) (s : T * (Z -> Z)) (f : Z -> Z) (u : T) : Prop := fst s = u /\ forall a, u16 a -> port a = false -> f a = snd s a mod 256.
Lemma attach_talking T (dev : device T) port : (forall u a, 0 <= fst (d_get dev u a) < 256) -> talking (attach dev port) dev port (fun _ => True) (attached port).
Proof.
  intros H. split.
  - exact H.
  - intros s f f' u [E V] Hf. split; [exact E|]. intros a Ua Pa. rewrite (Hf a Ua Pa). apply V; assumption.
  - intros [u0 m] f u a [E V] Ua Pa. cbn [fst snd] in *. subst u0. exists (u, m). cbn [attach b_read]. rewrite Pa. rewrite (V a Ua Pa). split; [reflexivity|split; [reflexivity|exact V]].
  - intros [u0 m] f u a [E V] Ua Pa. cbn [fst snd] in *. subst u0. exists (snd (d_get dev u a), m). cbn [attach b_read]. rewrite Pa. destruct (d_get dev u a). split; [reflexivity|split; [reflexivity|exact V]].
  - intros [u0 m] f u a v [E V] Ua Pa _ Hv. cbn [fst snd] in *. subst u0. exists (u, set m a v). cbn [attach b_write]. rewrite Pa. split; [reflexivity|]. split; [reflexivity|].
    intros q Uq Pq. cbn [snd]. unfold set. destruct (q =? a); [lia|apply V; assumption].
  - intros [u0 m] f u a v [E V] Ua Pa Hv. cbn [fst snd] in *. subst u0. exists (d_put dev u a v, m). cbn [attach b_write]. rewrite Pa. split; [reflexivity|split; [reflexivity|exact V]].
Qed.
Lemma attach_bytes T (dev : device T) port : (forall u a, 0 <= fst (d_get dev u a) < 256) -> byte_bus (attach dev port).
Proof.
  intros H [u m] a v s'. cbn [attach b_read]. destruct (port a).
  - specialize (H u a). destruct (d_get dev u a) as [x u']. cbn [fst] in H. intros [= <- _]. exact H.
  - intros [= <- _]. apply u8_mod.
Qed.

(** A keyboard at 0xd010, of which every read takes the next key (0 when there
    is none), and a printer at 0xd012. *)
Definition teletype : device (list Z * list Z) :=
  mkDevice (fun '(keys, paper) a => if a =? 0xd010 then match keys with [] => (0, (keys, paper)) | k :: keys' => (k mod 256, (keys', paper)) end else (0, (keys, paper)))
           (fun '(keys, paper) a v => if a =? 0xd012 then (keys, paper ++ [v]) else (keys, paper)).
Definition teleport (a : Z) : bool := (a =? 0xd010) || (a =? 0xd012).
Lemma teletype_bytes u a : 0 <= fst (d_get teletype u a) < 256.
Proof. destruct u as [keys paper]. cbn. destruct (a =? 53264); [|cbn; lia]. destruct keys as [|k keys]; cbn [fst]; [lia|]. apply Z.mod_pos_bound. lia. Qed.
(** Print what is typed, until nothing is. *)
Definition typist : list stmt := [Put 0x10 (Var 0xd010)].
Definition type_all : stmt := Next (Perform 0) (Again (Var 0x10) (Next (Put 0xd012 (Var 0x10)) (Perform 0))).
Definition loaded (L : Z) (l : list Z) (q : Z) : Z := if (L <=? q) && (q <? L + len l) then nth (Z.to_nat (q - L)) l 0 else 0.
Definition typing (main : stmt) : Z -> Z := loaded 0x8000 (image 0x12 0x8000 typist main).
(** For ever. *)
Definition type_for_ever : stmt := Again (Const 1) (Put 0xd012 (Var 0xd010)).

Lemma printed again : forall v keys paper, dev_after teletype teleport again (keys, paper) 0xd012 v = (keys, paper ++ repeat v again).
Proof.
  intros v keys paper. change (Nat.iter again (fun u => d_put teletype u 0xd012 v) (keys, paper) = (keys, paper ++ repeat v again)).
  induction again as [|n IH]; [cbn; rewrite app_nil_r; reflexivity|]. cbn [Nat.iter nat_rect] in *. unfold Nat.iter in IH. rewrite IH. cbn [d_put teletype]. change (53266 =? 53266) with true. cbn iota.
  f_equal. rewrite <- app_assoc. f_equal. clear IH. induction n as [|n IH]; [reflexivity|]. cbn [repeat app]. f_equal. exact IH.
Qed.
Notation echoed again keys := (flat_map (fun k => repeat k again) keys).
Lemma key_typed again s keys paper : acts teletype teleport again typist 4 (Perform 0) s (keys, paper)
  (set s 0x10 (match keys with [] => 0 | k :: _ => k mod 256 end)) (tl keys, paper).
Proof.
  eapply acts_perform; [reflexivity|lia|]. destruct keys as [|k keys];
    [apply (acts_put teletype teleport again typist _ 0x10 (Var 0xd010) s ([], paper) 0 ([], paper)); [cbn; lia|reflexivity]
    |apply (acts_put teletype teleport again typist _ 0x10 (Var 0xd010) s (k :: keys, paper) (k mod 256) (keys, paper)); [cbn; lia|reflexivity]].
Qed.
Lemma key_printed again s x keys paper : s 0x10 = x -> acts teletype teleport again typist 4 (Put 0xd012 (Var 0x10)) s (keys, paper) s (keys, paper ++ repeat x again).
Proof.
  intros Ex. pose proof (acts_put teletype teleport again typist 4 0xd012 (Var 0x10) s (keys, paper) x (keys, paper) ltac:(cbn; lia)) as E. rewrite printed in E. apply E.
  unfold asks, look. change (teleport 0x10) with false. cbn iota. rewrite Ex. reflexivity.
Qed.
Lemma rest_typed again keys : forall s x paper, s 0x10 = x -> 0 < x < 256 -> Forall (fun k => 0 < k < 256) keys -> exists s',
  acts teletype teleport again typist 4 (Again (Var 0x10) (Next (Put 0xd012 (Var 0x10)) (Perform 0))) s (keys, paper) s' ([], paper ++ echoed again (x :: keys)).
Proof.
  induction keys as [|k keys IH]; intros s x paper Ex Hx Hk; cbn [flat_map]; rewrite ?app_nil_r; rewrite ?app_assoc.
  - eexists. eapply acts_again; [cbn; lia|unfold asks, look; change (teleport 0x10) with false; cbn iota; rewrite Ex; reflexivity|lia| |].
    + eapply acts_next; [apply key_printed; exact Ex|apply key_typed].
    + eapply acts_stop; [cbn; lia|]. reflexivity.
  - inversion Hk as [|? ? H0 H1]; subst. destruct (IH (set s 0x10 k) k (paper ++ repeat (s 16) again) eq_refl H0 H1) as (s' & E). cbn [flat_map] in E. rewrite ?app_assoc in *.
    exists s'. eapply acts_again; [cbn; lia|reflexivity|lia| |exact E].
    eapply acts_next; [apply key_printed; reflexivity|]. pose proof (key_typed again s (k :: keys) (paper ++ repeat (s 16) again)) as K. cbn [tl] in K. rewrite (Z.mod_small k 256) in K by lia. exact K.
Qed.
Lemma all_typed again keys s paper : Forall (fun k => 0 < k < 256) keys -> exists s', acts teletype teleport again typist 4 type_all s (keys, paper) s' ([], paper ++ echoed again keys).
Proof.
  intros Hk. destruct keys as [|k keys].
  - eexists. eapply acts_next; [apply key_typed|]. cbn [tl flat_map]. rewrite app_nil_r. eapply acts_stop; [cbn; lia|reflexivity].
  - inversion Hk as [|? ? H0 H1]; subst. destruct (rest_typed again keys (set s 0x10 k) k paper eq_refl H0 H1) as (s' & E). exists s'. eapply acts_next; [|exact E].
    pose proof (key_typed again s (k :: keys) paper) as K. cbn [tl] in K. rewrite (Z.mod_small k 256) in K by lia. exact K.
Qed.
Lemma typing_for_ever again keys : forall s more paper, Forall (fun k => 0 < k < 256) keys ->
  during teletype teleport again typist 4 type_for_ever s (keys ++ more, paper) (more, paper ++ echoed again keys).
Proof.
  induction keys as [|k keys IH]; intros s more paper Hk; cbn [flat_map app]; [rewrite app_nil_r; constructor|]. inversion Hk as [|? ? H0 H1]; subst.
  rewrite app_assoc. eapply during_later; [cbn; lia|reflexivity|lia| |apply (IH s more (paper ++ repeat k again) H1)].
  pose proof (acts_put teletype teleport again typist 4 0xd012 (Var 0xd010) s (k :: keys ++ more, paper) k (keys ++ more, paper) ltac:(cbn; lia)) as E. rewrite printed in E. apply E.
  cbn. rewrite Z.mod_small by lia. reflexivity.
Qed.
Lemma loaded_byte L l : Forall (fun v => 0 <= v < 256) l -> forall q, 0 <= loaded L l q < 256.
Proof.
  intros Hl q. unfold loaded. destruct ((L <=? q) && (q <? L + len l)) eqn:E; [|lia]. rewrite Forall_forall in Hl. apply Hl. apply nth_In. unfold len in E. lia.
Qed.
Lemma typing_ready main : main = type_all \/ main = type_for_ever -> about_to_talk teleport (fun _ => True) (regs_of (core_at 0x8000)) (typing main) 0x12 0x8000 typist main.
Proof.
  assert (R : forall q, 0x200 <= q <= 0xffff \/ q = 0x10 -> u16 q /\ ~ scratch 0x12 q)
    by (intros q Hq; split; [unfold u16; lia|]; intros [->|K]; [lia|unfold page_one in K; lia]).
  intros Hm. assert (N : 0 <= len (image 0x12 0x8000 typist main) <= 0x100) by (destruct Hm as [-> | ->]; vm_compute; split; discriminate).
  assert (V : forall q, 0 <= q < 0x8000 \/ 0xd000 <= q < 0xe000 -> forall r : Z -> Prop, r q -> variable r 0x8000 (image 0x12 0x8000 typist main) q)
    by (intros q Hq r Hr; unfold variable, u16; unfold len in N; repeat split; try lia; exact Hr).
  unfold about_to_talk; cbv zeta.
  split; [apply regs_okb_ok; vm_compute; reflexivity|]. split; [reflexivity|].
  split; [intros a _; apply loaded_byte; apply Forall_forall; destruct Hm as [-> | ->]; intros v Hv; vm_compute in Hv; repeat destruct Hv as [<-|Hv]; try lia; destruct Hv|].
  split; [destruct Hm as [-> | ->]; vm_compute; repeat split|]. split; [lia|]. split; [lia|].
  split; [intros q; unfold teleport; lia|].
  split; [intros q [->|Hq]; unfold page_one, teleport in *; lia|].
  split; [split; [unfold page_one; lia|intros q [->|Hq]; apply V; try exact I; unfold page_one in *; lia]|].
  assert (G : forall q, q = 0x10 \/ q = 0xd010 \/ q = 0xd012 -> (u16 q /\ ~ scratch 0x12 q) /\
    variable (fun q => True \/ teleport q = true) 0x8000 (image 0x12 0x8000 typist main) q /\ ~ scratch 0x12 q)
    by (intros q Hq; split; [apply R; lia|]; split; [apply V; [lia|left; exact I]|apply R; lia]).
  set (prog := image 0x12 0x8000 typist main) in *. clearbody prog.
  constructor; [destruct Hm as [-> | ->]|constructor; [|constructor]]; unfold good_stmt, type_all, type_for_ever, typist; cbn [proper reads length];
    repeat match goal with |- _ /\ _ => split end; try (apply G; tauto); try lia.
Qed.
Lemma typing_view main (u : list Z * list Z) : main = type_all \/ main = type_for_ever -> attached teleport (u, typing main) (typing main) u.
Proof. intros Hm. split; [reflexivity|]. intros a Ua _. symmetry. apply Z.mod_small. apply (typing_ready main Hm). exact Ua. Qed.
(** Every text typed is printed, in its order, and nothing else. *)
Example C120_case : forall p keys paper, Forall (fun k => 0 < k < 256) keys ->
  exists k ms cpu' bs', iterate_bus (attach teletype teleport) p k (core_at 0x8000, ((keys, paper), typing type_all)) = Ok (ms, (cpu', bs')) /\ fst bs' = ([], paper ++ keys).
Proof.
  intros p keys paper Hk. destruct (all_typed 1 keys (typing type_all) paper Hk) as (s' & E). destruct (proj1 (C120_some_time _ _ _ _ _ _ 0x8000 _ _ _ _ _) E) as (n & En).
  destruct (C120_ends _ _ _ _ _ _ _ p (core_at 0x8000) ((keys, paper), typing type_all) _ _ _ _ _ _ 4 _ _ n (attach_talking _ teletype teleport teletype_bytes)
    (attach_bytes _ teletype teleport teletype_bytes) (typing_view type_all _ (or_introl eq_refl)) (typing_ready type_all (or_introl eq_refl)) ltac:(lia) En)
    as (k & ms & cpu' & bs' & f' & Ei & _ & _ & _ & (V & _) & _).
  exists k, ms, cpu', bs'. split; [exact Ei|]. rewrite V. do 2 f_equal. clear. induction keys as [|k keys IH]; [reflexivity|cbn; f_equal; exact IH].
Qed.
(** By a call of [run], every character twice. *)
Example C121_case : forall p keys paper, Forall (fun k => 0 < k < 256) keys ->
  exists n cpu' bs', run_bus (attach teletype teleport) p (core_at 0x8000) ((keys, paper), typing type_all) n = Ok (Ready cpu', bs') /\ fst bs' = ([], paper ++ flat_map (fun k => [k; k]) keys).
Proof.
  intros p keys paper Hk. destruct (all_typed 2 keys (typing type_all) paper Hk) as (s' & E). destruct (proj1 (C120_some_time _ _ _ _ _ _ 0x8000 _ _ _ _ _) E) as (n & En).
  destruct (C121_ends _ _ _ _ _ _ _ p (core_at 0x8000) ((keys, paper), typing type_all) _ _ _ _ _ _ 4 _ _ n (attach_talking _ teletype teleport teletype_bytes)
    (attach_bytes _ teletype teleport teletype_bytes) (typing_view type_all _ (or_introl eq_refl)) (typing_ready type_all (or_introl eq_refl)) ltac:(lia) En)
    as (cpu' & bs' & f' & Ei & _ & _ & (V & _) & _).
  exists n, cpu', bs'. split; [exact Ei|exact V].
Qed.
(** The program that never ends gets to every prefix of what is typed. *)
Example C120_for_ever : forall p keys more paper, Forall (fun k => 0 < k < 256) keys ->
  exists k ms cpu' bs', iterate_bus (attach teletype teleport) p k (core_at 0x8000, ((keys ++ more, paper), typing type_for_ever)) = Ok (ms, (cpu', bs')) /\ fst bs' = (more, paper ++ keys).
Proof.
  intros p keys more paper Hk. pose proof (typing_for_ever 1 keys (typing type_for_ever) more paper Hk) as E.
  destruct (C120_midway _ _ _ _ _ _ _ p (core_at 0x8000) ((keys ++ more, paper), typing type_for_ever) _ _ _ _ _ _ 4 _ (attach_talking _ teletype teleport teletype_bytes)
    (attach_bytes _ teletype teleport teletype_bytes) (typing_view type_for_ever _ (or_intror eq_refl)) (typing_ready type_for_ever (or_intror eq_refl)) ltac:(lia) E)
    as (k & ms & cpu' & bs' & f' & Ei & (V & _)).
  exists k, ms, cpu', bs'. split; [exact Ei|]. rewrite V. do 2 f_equal. clear. induction keys as [|k keys IH]; [reflexivity|cbn; f_equal; exact IH].
Qed.
(** It neither ends nor overflows: the hypotheses of the last theorems hold. *)
Lemma never_typed again d c s u s' u' : acts teletype teleport again typist d c s u s' u' -> c <> type_for_ever.
Proof.
  induction 1 as [d s u|d v e s u x u1 De Ex|d a i e s u x u1 y u2 De Di Ex Ey|d c1 c2 s u s1 u1 s2 u2 E1 IH1 E2 IH2|d e c1 c2 s u x u1 s' u' De Ex E IH|d e c s u u1 De Ex
    |d e c s u x u1 s2 u2 s3 u3 De Ex Nx E1 IH1 E2 IH2|d k body s u s' u' Ek Hd E IH]; try discriminate.
  - intros K. injection K as -> ->. discriminate.
  - exact IH2.
Qed.
Lemma never_bursts again d c s u : bursts teletype teleport again typist d c s u -> c = type_for_ever -> d < 4.
Proof.
  induction 1; intros K; try discriminate K; injection K as -> ->; cbn [depth] in *; try lia.
  - match goal with A : bursts _ _ _ _ _ (Put _ _) _ _ |- _ => inversion A; subst end. cbn [depth] in *. lia.
  - apply IHbursts. reflexivity.
Qed.
Example C121_for_ever : forall p n keys, exists cpu' bs' f' x,
  run_bus (attach teletype teleport) p (core_at 0x8000) ((keys, []), typing type_for_ever) n = Ok (Ready cpu', bs') /\
  halfway teletype teleport (during teletype teleport 2 typist 4 type_for_ever (typing type_for_ever) (keys, [])) x /\ attached teleport bs' f' x.
Proof.
  intros p n keys. refine (C121_nothing_else _ _ _ _ _ _ _ p (core_at 0x8000) ((keys, []), typing type_for_ever) _ _ _ _ _ _ 4 n (attach_talking _ teletype teleport teletype_bytes)
    (attach_bytes _ teletype teleport teletype_bytes) (typing_view type_for_ever _ (or_intror eq_refl)) (typing_ready type_for_ever (or_intror eq_refl)) ltac:(lia) _ _).
  - intros O. pose proof (never_bursts _ _ _ _ _ O eq_refl). lia.
  - intros s' u' m (m' & _ & E). destruct (never_typed _ _ _ _ _ _ _ (acts_in_acts _ _ _ _ _ _ _ _ _ _ _ _ _ E) eq_refl).
Qed.

Print Assumptions C120_one_outcome.
Print Assumptions C120_not_both.
Print Assumptions C120_some_time.
Print Assumptions C120_one_time.
Print Assumptions C120_ends.
Print Assumptions C120_midway.
Print Assumptions C120_nothing_else.
Print Assumptions C121_patient_device.
Print Assumptions C121_ends.
Print Assumptions C121_midway.
Print Assumptions C121_nothing_else.
