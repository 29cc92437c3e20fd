(** C122: structured CHIP-8 programs while the host presses and releases keys. *)
From Verif Require Import Base Arith ModelMap ModelStep ModelDisplay ModelChip8 ModelOpsChip8 ModelRunChip8 SpecMap Link6502
  SpecChip8 SpecChip8Parts SpecChip8Run ProofChip8 ProofChip8Step ProofChip8Reach ProofChip8Run
  SpecRoutines8 ProofRoutines8 PropertiesRoutines8 SpecReplace8 PropertiesReplace8 SpecLanguage8 ProofLanguage8 PropertiesLanguage8 SpecHost8 ProofHost8.

Definition any_op (op : opcode) : Prop := True.
Lemma does_any c : does any_op c.
Proof. induction c; cbn [does]; try split; try assumption; exact I. Qed.

(** Before the end the machine is inside the code. *)
Lemma plays_inside e p K lo hi P n n' c w c1 w1 : plays8 e p K lo hi P n n' c w c1 w1 -> forall m, (n + m < n')%nat ->
  exists c2 w2, play e p K n m c w = Ok (c2, w2) /\ lo <= observe c2 PPC < hi.
Proof.
  intros X m Hm. destruct (plays8_take e p K lo hi P _ _ _ _ _ _ X (n + m) ltac:(lia)) as (c2 & w2 & X2 & R2).
  exists c2, w2. split; [|apply R2; lia]. pose proof (proj2 (plays8_play e p K lo hi P _ _ _ _ _ _ X2)) as E. replace (n + m - n)%nat with m in E by lia. exact E.
Qed.
Lemma plays_all e p K lo hi P n c w c1 w1 : plays8 e p K lo hi P 0 n c w c1 w1 -> play e p K 0 n c w = Ok (c1, w1).
Proof. intros X. pose proof (proj2 (plays8_play e p K lo hi P _ _ _ _ _ _ X)) as E. rewrite Nat.sub_0_r in E. exact E. Qed.
Lemma play_next e p K m : forall n c w c1 w1, play e p K n m c w = Ok (c1, w1) -> play e p K n (S m) c w = step e p (with_interrupt c1 (K (n + m)%nat)) w1.
Proof.
  induction m as [|m IH]; intros n c w c1 w1 E.
  - injection E as <- <-. cbn [play]. rewrite Nat.add_0_r. destruct (step e p (with_interrupt c (K n)) w) as [[c1 w1]|]; reflexivity.
  - remember (S m) as m' eqn:Em. cbn [play]. rewrite Em in E. cbn [play] in E. destruct (step e p (with_interrupt c (K n)) w) as [[c2 w2]|]; [|discriminate E].
    cbn [bind] in *. subst m'. rewrite (IH _ _ _ _ _ E). replace (S n + m)%nat with (n + S m)%nat by lia. reflexivity.
Qed.
Lemma play_panic_on e p K m : forall n c w, play e p K n m c w = Panic -> forall k, play e p K n (m + k) c w = Panic.
Proof.
  induction m as [|m IH]; intros n c w E k; [discriminate E|]. cbn [Nat.add play] in *. destruct (step e p (with_interrupt c (K n)) w) as [[c2 w2]|]; [|reflexivity].
  cbn [bind] in *. apply IH. exact E.
Qed.

(** ** C122 *)
(** Whatever the host presses and releases and when: a program that ends has
    the machine come to the end of its code, after exactly the instructions the
    language says, and there the machine looks like the final state. *)
Theorem C122_ends : forall e p K c w L prog s' w' n', env_ok e -> about_to_run8 c L prog -> let hi := L + bytes (translate L prog) in
  hosted8 e p L hi K prog (observe c) w 0 s' w' n' ->
  (exists c', play e p K 0 n' c w = Ok (c', w') /\ observe c' PPC = hi /\ looks_like c' s') /\
  forall m, (m < n')%nat -> exists c1 w1, play e p K 0 m c w = Ok (c1, w1) /\ L <= observe c1 PPC < hi.
Proof.
  intros e p K c w L prog s' w' n' He Ha hi E. destruct (setting8 c L prog Ha) as (H0 & H1 & Pl & St & Hp).
  destruct (cmd_plays8 e p He K _ _ any_op (fun _ => I) (fun _ => I) _ H0 H1 _ _ _ _ _ _ _ E L Pl (does_any prog) c St Hp) as (c' & X & (_ & A & _) & Hp').
  split; [exists c'; split; [exact (plays_all _ _ _ _ _ _ _ _ _ _ _ X)|split; [exact Hp'|exact A]]|].
  intros m Hm. exact (plays_inside _ _ _ _ _ _ _ _ _ _ _ _ X m Hm).
Qed.

(** With one schedule of keys a program has one meaning. *)
Theorem C122_one_meaning : forall e p lo hi K prog s w n s1 w1 n1, hosted8 e p lo hi K prog s w n s1 w1 n1 ->
  forall s2 w2 n2, hosted8 e p lo hi K prog s w n s2 w2 n2 -> s1 = s2 /\ w1 = w2 /\ n1 = n2.
Proof.
  intros e p lo hi K.
  induction 1 as [s w n|op s w n s' w' E Sp|c1 c2 s w n s1 w1 n1 s2 w2 n2 E1 IH1 E2 IH2|b c1 c2 s w n s' w' n' Hb E IH|b c1 c2 s w n s' w' n' Hb E IH|b c s w n Hb
    |b c s w n s1 w1 n1 s2 w2 n2 Hb E1 IH1 E2 IH2]; intros s0 w0 n0 J; inversion J; subst; try congruence; try (repeat split; congruence).
  - match goal with A : hosted8 _ _ _ _ _ c1 s w n _ _ _ |- _ => destruct (IH1 _ _ _ A) as (? & ? & ?); subst end. apply IH2. assumption.
  - match goal with A : hosted8 _ _ _ _ _ c1 _ w _ _ _ _ |- _ => destruct (IH _ _ _ A) as (? & ? & ?); subst end. repeat split; reflexivity.
  - apply IH. assumption.
  - match goal with A : hosted8 _ _ _ _ _ c _ w _ _ _ _ |- _ => destruct (IH1 _ _ _ A) as (? & ? & ?); subst end. apply IH2. assumption.
Qed.

(** A program that goes wrong: the machine comes to the instruction at which it
    does, and panics there if the language says that it cannot be executed with
    the key then pressed. *)
Theorem C122_breaks : forall e p K c w L prog op s' w' n', env_ok e -> about_to_run8 c L prog -> let hi := L + bytes (translate L prog) in
  broken8 e p L hi K prog (observe c) w 0 op s' w' n' ->
  exists c', play e p K 0 n' c w = Ok (c', w') /\ L <= observe c' PPC < hi /\ fetches p c' (encode op) /\ looks_like c' s' /\
    (effect e p (seen s' (K n')) w' op = None -> step e p (with_interrupt c' (K n')) w' = Panic /\ forall m, (n' < m)%nat -> play e p K 0 m c w = Panic).
Proof.
  intros e p K c w L prog op s' w' n' He Ha hi B. destruct (setting8 c L prog Ha) as (H0 & H1 & Pl & St & Hp).
  destruct (cmd_broken8 e p He K _ _ any_op (fun _ => I) (fun _ => I) _ H0 H1 _ _ _ _ _ _ _ _ B L Pl (does_any prog) c St Hp) as (m & X & St' & Hr & F & Ho & J).
  pose proof (plays_all _ _ _ _ _ _ _ _ _ _ _ X) as Y.
  exists m. split; [exact Y|]. split; [exact Hr|]. split; [exact F|]. split; [exact (proj1 (proj2 St'))|].
  intros En. destruct (state8_key _ _ _ s' m (K n') St') as (W & A & _). pose proof (effect_alike e p _ _ w' op A J) as Q. rewrite En in Q.
  pose proof (step_effect e p (with_interrupt m (K n')) w' W He op Ho F) as S1. rewrite Q in S1. split; [exact S1|].
  intros k Hk. replace k with (S n' + (k - S n'))%nat by lia. apply play_panic_on. rewrite (play_next _ _ _ _ _ _ _ _ _ Y). exact S1.
Qed.

(** A program that neither ends nor goes wrong: the machine never panics and
    never leaves the code. *)
Theorem C122_forever : forall e p K c w L prog, env_ok e -> about_to_run8 c L prog -> let hi := L + bytes (translate L prog) in
  (forall s' w' n', ~ hosted8 e p L hi K prog (observe c) w 0 s' w' n') -> (forall op s' w' n', ~ broken8 e p L hi K prog (observe c) w 0 op s' w' n') ->
  forall m, exists c' w', play e p K 0 m c w = Ok (c', w') /\ L <= observe c' PPC < hi.
Proof.
  intros e p K c w L prog He Ha hi Ne Nb m. destruct (setting8 c L prog Ha) as (H0 & H1 & Pl & St & Hp).
  destruct (lasts_or_ends8 e p He K _ _ any_op (fun _ => I) (fun _ => I) _ H0 H1 (S m) prog L (observe c) w 0 Pl (does_any prog)) as [(s' & w' & n' & E)|[(op & s1 & w1 & n1 & B)|N]];
    [destruct (Ne _ _ _ E)|destruct (Nb _ _ _ _ B)|].
  destruct (N c St Hp) as (c2 & w2 & X2). exact (plays_inside _ _ _ _ _ _ _ _ _ _ _ _ X2 m ltac:(lia)).
Qed.

(** The machine comes to the end of the code only if the program ends by then,
    or overwrites itself before. *)
Theorem C122_only_then : forall e p K c w L prog m c' w', env_ok e -> about_to_run8 c L prog -> let hi := L + bytes (translate L prog) in
  play e p K 0 m c w = Ok (c', w') -> observe c' PPC = hi ->
  (exists s1 w1 n1, hosted8 e p L hi K prog (observe c) w 0 s1 w1 n1 /\ (n1 <= m)%nat) \/
  (exists op s1 w1 n1, broken8 e p L hi K prog (observe c) w 0 op s1 w1 n1 /\ (n1 < m)%nat /\ effect e p (seen s1 (K n1)) w1 op <> None).
Proof.
  intros e p K c w L prog m c' w' He Ha hi Hi Hpc. destruct (setting8 c L prog Ha) as (H0 & H1 & Pl & St & Hp).
  destruct (lasts_or_ends8 e p He K _ _ any_op (fun _ => I) (fun _ => I) _ H0 H1 (S m) prog L (observe c) w 0 Pl (does_any prog)) as [(s' & w1 & n' & E)|[(op & s1 & w1 & n1 & B)|N]].
  - left. exists s', w1, n'. split; [exact E|]. destruct (Nat.le_gt_cases n' m) as [|Hm]; [assumption|exfalso].
    destruct (proj2 (C122_ends e p K c w L prog s' w1 n' He Ha E) m Hm) as (c2 & w2 & E2 & P2). rewrite Hi in E2. injection E2 as <- <-. fold hi in P2. lia.
  - right. exists op, s1, w1, n1. split; [exact B|].
    assert (Hn : (n1 < m)%nat).
    { destruct (cmd_broken8 e p He K _ _ any_op (fun _ => I) (fun _ => I) _ H0 H1 _ _ _ _ _ _ _ _ B L Pl (does_any prog) c St Hp) as (m1 & X & _ & Hr & _). fold hi in Hr.
      destruct (Nat.lt_trichotomy n1 m) as [|[<-|Hm]]; [assumption|exfalso|exfalso].
      - rewrite (plays_all _ _ _ _ _ _ _ _ _ _ _ X) in Hi. injection Hi as <- <-. lia.
      - destruct (plays_inside _ _ _ _ _ _ _ _ _ _ _ _ X m ltac:(lia)) as (c2 & w2 & E2 & P2). rewrite Hi in E2. injection E2 as <- <-. fold hi in P2. lia. }
    split; [exact Hn|]. intros En. destruct (C122_breaks e p K c w L prog op s1 w1 n1 He Ha B) as (m1 & _ & _ & _ & _ & Z0). destruct (Z0 En) as [_ Pn]. rewrite (Pn m Hn) in Hi. discriminate Hi.
  - exfalso. destruct (N c St Hp) as (c2 & w2 & X2). destruct (plays_inside _ _ _ _ _ _ _ _ _ _ _ _ X2 m ltac:(lia)) as (c3 & w3 & E3 & P3).
    rewrite Hi in E3. injection E3 as <- <-. fold hi in P3. lia.
Qed.

(** ** A host that holds the key *)
Lemma effect_key e p s w op s' w' : effect e p s w op = Some (s', w') -> s' PKey = s PKey.
Proof.
  intros Ee. destruct op; cbn [effect] in Ee; unfold needs, done in Ee;
    repeat match type of Ee with (if ?b then _ else _) = _ => destruct b eqn:?; try discriminate end; try discriminate;
    match type of Ee with Some (?g, ?a) = Some (_, ?b) => assert (s' = g) as -> by congruence end; reflexivity.
Qed.
Lemma seen_alike s o k : s PKey = key_number k -> alike s o -> alike s (seen o k).
Proof. intros Hk A q Hq. unfold seen, upd. destruct q; cbn [part_eqb]; try (exact (A _ Hq)). symmetry. exact Hk. Qed.
Lemma effect_alike_key e p s o w op s' w' k : s PKey = key_number k -> alike s o -> jumps_not op -> effect e p s w op = Some (s', w') ->
  exists o', effect e p (seen o k) w op = Some (o', w') /\ alike s' o' /\ s' PKey = key_number k.
Proof.
  intros Hk A J E. pose proof (effect_alike e p _ _ w op (seen_alike s o k Hk A) J) as Q. rewrite E in Q. destruct Q as (o' & E' & A' & _).
  exists o'. split; [exact E'|]. split; [exact A'|]. rewrite (effect_key _ _ _ _ _ _ _ E). exact Hk.
Qed.
Lemma ends_held e p lo hi k prog s w s' w' : ends8 e p lo hi prog s w s' w' -> good8 prog -> s PKey = key_number k -> forall o n, alike s o ->
  exists o' n', hosted8 e p lo hi (fun _ => k) prog o w n o' w' n' /\ alike s' o' /\ s' PKey = key_number k.
Proof.
  induction 1 as [s w|op s w s' w' E Sp|c1 c2 s w s1 w1 s2 w2 E1 IH1 E2 IH2|b c1 c2 s w s' w' E IH|b c s w Hb|b c s w s1 w1 s2 w2 Hb E1 IH1 E2 IH2];
    intros G Hk o n A; cbn [good8] in G.
  - exists o, n. split; [constructor|split; assumption].
  - destruct (effect_alike_key e p s o w op s' w' k Hk A (proj2 G) E) as (o' & E' & A' & Hk'). exists o', (S n).
    split; [constructor; [exact E'|]|split; assumption]. intros a Ha. rewrite (A' (PMem a)), (A (PMem a)) by discriminate. exact (Sp a Ha).
  - destruct G as [G1 G2]. destruct (IH1 G1 Hk o n A) as (o1 & n1 & X1 & A1 & Hk1). destruct (IH2 G2 Hk1 o1 n1 A1) as (o2 & n2 & X2 & A2 & Hk2).
    exists o2, n2. split; [econstructor; eassumption|split; assumption].
  - destruct G as (Gb & G1 & G2). pose proof (seen_alike s o k Hk A) as A1. pose proof (holds_alike _ _ b A1) as Hh. destruct (holds b s).
    + destruct (IH G1 Hk _ (S n) A1) as (o1 & n1 & X1 & A2 & Hk1). exists (seen o1 k), (S n1).
      split; [exact (hosted8_yes e p lo hi (fun _ => k) b c1 c2 o w n o1 _ n1 Hh X1)|]. split; [exact (seen_alike _ _ _ Hk1 A2)|exact Hk1].
    + destruct (IH G2 Hk _ (S (S n)) A1) as (o1 & n1 & X1 & A2 & Hk1). exists o1, n1. split; [exact (hosted8_no e p lo hi (fun _ => k) b c1 c2 o w n o1 _ n1 Hh X1)|split; assumption].
  - pose proof (seen_alike s o k Hk A) as A1. exists (seen o k), (S (S n)). split; [|split; assumption].
    apply (hosted8_stop e p lo hi (fun _ => k)). rewrite (holds_alike _ _ b A1). exact Hb.
  - pose proof (seen_alike s o k Hk A) as A1. destruct G as [Gb G].
    destruct (IH1 G Hk _ (S n) A1) as (o1 & n1 & X1 & A2 & Hk1). pose proof (seen_alike _ _ _ Hk1 A2) as A3.
    destruct (IH2 (conj Gb G) Hk1 _ (S n1) A3) as (o2 & n2 & X2 & A4 & Hk2). exists o2, n2. split; [|split; assumption].
    refine (hosted8_again e p lo hi (fun _ => k) b c o w n o1 _ n1 o2 _ n2 _ X1 X2). rewrite (holds_alike _ _ b A1). exact Hb.
Qed.
Lemma held_ends e p lo hi k prog o w n o' w' n' : hosted8 e p lo hi (fun _ => k) prog o w n o' w' n' -> good8 prog -> forall s, s PKey = key_number k -> alike s o ->
  exists s', ends8 e p lo hi prog s w s' w' /\ alike s' o' /\ s' PKey = key_number k.
Proof.
  assert (Sy : forall s o, alike s o -> alike o s) by (intros s0 o0 A q Hq; symmetry; exact (A q Hq)).
  induction 1 as [o w n|op o w n o' w' E Sp|c1 c2 o w n o1 w1 n1 o2 w2 n2 E1 IH1 E2 IH2|b c1 c2 o w n o' w' n' Hb E IH|b c1 c2 o w n o' w' n' Hb E IH|b c o w n Hb
    |b c o w n o1 w1 n1 o2 w2 n2 Hb E1 IH1 E2 IH2]; intros G s Hk A; cbn [good8] in G; try pose proof (seen_alike s o k Hk A) as A1.
  - exists s. split; [constructor|split; assumption].
  - pose proof (effect_alike e p _ _ w op (Sy _ _ A1) (proj2 G)) as Q. rewrite E in Q. destruct Q as (s' & E' & A' & _). exists s'.
    split; [constructor; [exact E'|]|split; [exact (Sy _ _ A')|rewrite (effect_key _ _ _ _ _ _ _ E'); exact Hk]].
    intros a Ha. rewrite (A' (PMem a)), <- (A (PMem a)) by discriminate. exact (Sp a Ha).
  - destruct G as [G1 G2]. destruct (IH1 G1 s Hk A) as (s1 & X1 & B1 & Hk1). destruct (IH2 G2 s1 Hk1 B1) as (s2 & X2 & B2 & Hk2).
    exists s2. split; [econstructor; eassumption|split; assumption].
  - destruct G as (Gb & G1 & G2). rewrite (holds_alike _ _ b A1) in Hb. destruct (IH G1 s Hk A1) as (s1 & X1 & B1 & Hk1). exists s1.
    split; [apply ends8_choose; rewrite Hb; exact X1|]. split; [exact (seen_alike _ _ _ Hk1 B1)|exact Hk1].
  - destruct G as (Gb & G1 & G2). rewrite (holds_alike _ _ b A1) in Hb. destruct (IH G2 s Hk A1) as (s1 & X1 & B1 & Hk1). exists s1.
    split; [apply ends8_choose; rewrite Hb; exact X1|]. split; assumption.
  - rewrite (holds_alike _ _ b A1) in Hb. exists s. split; [constructor; exact Hb|split; assumption].
  - destruct G as (Gb & G). rewrite (holds_alike _ _ b A1) in Hb. destruct (IH1 G s Hk A1) as (s1 & X1 & B1 & Hk1).
    destruct (IH2 (conj Gb G) s1 Hk1 (seen_alike _ _ _ Hk1 B1)) as (s2 & X2 & B2 & Hk2). exists s2. split; [eapply ends8_again; eassumption|split; assumption].
Qed.
(** No instruction changes the pressed key: if the host leaves the key as it is,
    a program means what it means without a host (C112). *)
Theorem C122_held : forall e p lo hi k prog s w, good8 prog -> s PKey = key_number k ->
  (forall s' w', ends8 e p lo hi prog s w s' w' -> exists s'' n', hosted8 e p lo hi (fun _ => k) prog s w 0 s'' w' n' /\ forall q, q <> PPC -> s'' q = s' q) /\
  (forall s'' w' n', hosted8 e p lo hi (fun _ => k) prog s w 0 s'' w' n' -> exists s', ends8 e p lo hi prog s w s' w' /\ forall q, q <> PPC -> s'' q = s' q).
Proof.
  intros e p lo hi k prog s w G Hk. split.
  - intros s' w' E. destruct (ends_held e p lo hi k prog s w s' w' E G Hk s 0 (fun q _ => eq_refl)) as (o & n & X & A & _). exists o, n. split; assumption.
  - intros o w' n' E. destruct (held_ends e p lo hi k prog s w 0 o w' n' E G s Hk (fun q _ => eq_refl)) as (s' & X & A & _). exists s'. split; assumption.
Qed.

(** ** Waiting for a key *)
(** while the key of x is not pressed { } *)
Definition await (x : gp_register) : structured := Loop (Released x) Nothing.
Definition notices (K : schedule) (v : Z) (i : nat) : Prop := key_number (K (2 * i)%nat) = v.

Lemma await_ends e p lo hi K x w i : forall n s, key_number (K (n + 2 * i)%nat) = s (PV (gp_index x)) -> (forall j, (j < i)%nat -> key_number (K (n + 2 * j)%nat) <> s (PV (gp_index x))) ->
  exists s', hosted8 e p lo hi K (await x) s w n s' w (n + 2 * i + 2) /\ forall q, q <> PKey -> s' q = s q.
Proof.
  assert (So : forall s k q, q <> PKey -> seen s k q = s q) by (intros s k q Hq; unfold seen, upd; destruct q; try reflexivity; contradiction).
  induction i as [|i IH]; intros n s Hi Hj.
  - exists (seen s (K (S n))). replace (n + 2 * 0 + 2)%nat with (S (S n)) by lia. replace (n + 2 * 0)%nat with n in Hi by lia. split; [|intros q Hq; exact (So s _ q Hq)].
    apply hosted8_stop. cbn [holds]. change (seen s (K n) PKey) with (key_number (K n)). rewrite (So s (K n) (PV (gp_index x))) by discriminate. rewrite Hi, Z.eqb_refl. reflexivity.
  - pose proof (Hj 0%nat ltac:(lia)) as H0. replace (n + 2 * 0)%nat with n in H0 by lia.
    destruct (IH (S (S n)) (seen (seen s (K n)) (K (S n)))) as (s' & X & O).
    + rewrite !So by discriminate. replace (S (S n) + 2 * i)%nat with (n + 2 * S i)%nat by lia. exact Hi.
    + intros j Hlt. rewrite !So by discriminate. replace (S (S n) + 2 * j)%nat with (n + 2 * S j)%nat by lia. apply Hj. lia.
    + exists s'. replace (n + 2 * S i + 2)%nat with (S (S n) + 2 * i + 2)%nat by lia. split; [|intros q Hq; rewrite O by exact Hq; rewrite !So by exact Hq; reflexivity].
      eapply hosted8_again; [|apply hosted8_nothing|exact X]. cbn [holds]. change (seen s (K n) PKey) with (key_number (K n)). rewrite (So s (K n) (PV (gp_index x))) by discriminate.
      destruct (Z.eqb_spec (key_number (K n)) (s (PV (gp_index x)))); [contradiction|reflexivity].
Qed.
Lemma await_hosted e p lo hi K x c s w n s' w' n' : hosted8 e p lo hi K c s w n s' w' n' -> c = await x -> exists i, key_number (K (n + 2 * i)%nat) = s (PV (gp_index x)).
Proof.
  induction 1 as [| | | | |b c s w n Hb|b c s w n s1 w1 n1 s2 w2 n2 Hb E1 IH1 E2 IH2]; intros Ec; try discriminate Ec; injection Ec as -> ->.
  - exists 0%nat. replace (n + 2 * 0)%nat with n by lia. cbn [holds] in Hb. change (seen s (K n) PKey) with (key_number (K n)) in Hb. change (seen s (K n) (PV (gp_index x))) with (s (PV (gp_index x))) in Hb.
    destruct (Z.eqb_spec (key_number (K n)) (s (PV (gp_index x)))); [assumption|discriminate Hb].
  - inversion E1; subst. destruct (IH2 eq_refl) as (i & Hi). exists (S i). replace (n + 2 * S i)%nat with (S (S n) + 2 * i)%nat by lia. exact Hi.
Qed.
Lemma await_unbroken e p lo hi K x c s w n op s' w' n' : broken8 e p lo hi K c s w n op s' w' n' -> c <> await x.
Proof. induction 1 as [| | | | |b c s w n op s1 w1 n1 Hb B IH|b c s w n s1 w1 n1 op s2 w2 n2 Hb E1 B IH]; intros Ec; try discriminate Ec; [injection Ec as -> ->; inversion B|exact (IH Ec)]. Qed.

(** The loop looks at the keys at every second instruction only. It ends, two
    instructions later, when it first finds the key of register x pressed. *)
Theorem C122_wait : forall e p K c w L x, env_ok e -> about_to_run8 c L (await x) ->
  (forall i, notices K (reg c x) i -> (forall j, (j < i)%nat -> ~ notices K (reg c x) j) ->
     exists c', play e p K 0 (2 * i + 2) c w = Ok (c', w) /\ observe c' PPC = L + 6 /\ forall q, q <> PPC -> q <> PKey -> observe c' q = observe c q) /\
  ((forall i, ~ notices K (reg c x) i) -> forall m, exists c' w', play e p K 0 m c w = Ok (c', w') /\ L <= observe c' PPC < L + 6).
Proof.
  intros e p K c w L x He Ha. split.
  - intros i Hi Hj. destruct (await_ends e p L (L + bytes (translate L (await x))) K x w i 0 (observe c) Hi Hj) as (s' & X & O).
    destruct (C122_ends e p K c w L _ s' w _ He Ha X) as [(c' & Y & Hp & A) _].
    exists c'. split; [exact Y|]. split; [exact Hp|]. intros q Q1 Q2. rewrite (A q Q1). exact (O q Q2).
  - intros N m. apply (C122_forever e p K c w L (await x) He Ha).
    + intros s' w' n' E. destruct (await_hosted _ _ _ _ _ x _ _ _ _ _ _ _ E eq_refl) as (i & Hi). exact (N i Hi).
    + intros op s' w' n' B. exact (await_unbroken _ _ _ _ _ x _ _ _ _ _ _ _ _ B eq_refl).
Qed.
Lemma first_notice K v i : notices K v i -> exists j, (j <= i)%nat /\ notices K v j /\ forall l, (l < j)%nat -> ~ notices K v l.
Proof.
  unfold notices. induction i as [i IH] using lt_wf_ind. intros Hi.
  assert (D : (exists j, (j < i)%nat /\ key_number (K (2 * j)%nat) = v) \/ forall j, (j < i)%nat -> key_number (K (2 * j)%nat) <> v).
  { clear IH Hi. induction i as [|i [(j & H1 & H2)|N]]; [right; intros; lia|left; exists j; split; [lia|exact H2]|].
    destruct (Z.eq_dec (key_number (K (2 * i)%nat)) v) as [E|E]; [left; exists i; split; [lia|exact E]|right]. intros j Hj. destruct (Nat.eq_dec j i) as [->|]; [exact E|apply N; lia]. }
  destruct D as [(j & H1 & H2)|N]; [|exists i; split; [lia|split; assumption]]. destruct (IH j H1 H2) as (l & L1 & L2 & L3). exists l. split; [lia|split; assumption].
Qed.
(** So a key held for two instructions in a row is noticed, whenever it is pressed. *)
Theorem C122_two_suffice : forall e p K c w L x t, env_ok e -> about_to_run8 c L (await x) ->
  key_number (K t) = reg c x -> key_number (K (S t)) = reg c x ->
  exists n c', (n <= t + 3)%nat /\ play e p K 0 n c w = Ok (c', w) /\ observe c' PPC = L + 6.
Proof.
  intros e p K c w L x t He Ha H1 H2.
  assert (N : exists i, (2 * i <= S t)%nat /\ notices K (reg c x) i).
  { destruct (Nat.Even_or_Odd t) as [[i Hi]|[i Hi]].
    - exists i. split; [lia|]. unfold notices. rewrite <- Hi. exact H1.
    - exists (S i). split; [lia|]. unfold notices. replace (2 * S i)%nat with (S t) by lia. exact H2. }
  destruct N as (i & Hi & N). destruct (first_notice _ _ _ N) as (j & Hj & Nj & Fj).
  destruct (proj1 (C122_wait e p K c w L x He Ha) j Nj Fj) as (c' & Y & Hp & _). exists (2 * j + 2)%nat, c'. split; [lia|]. split; assumption.
Qed.
(** And one instruction can be too short. *)
Theorem C122_one_may_not : forall e p K c w L x, env_ok e -> about_to_run8 c L (await x) ->
  (forall t, key_number (K t) = reg c x -> Nat.Odd t) ->
  forall m, exists c' w', play e p K 0 m c w = Ok (c', w') /\ L <= observe c' PPC < L + 6.
Proof.
  intros e p K c w L x He Ha Ho. apply (proj2 (C122_wait e p K c w L x He Ha)). intros i N. destruct (Ho _ N) as [j Hj]. lia.
Qed.

(** ** Reading a key *)
(** Fx0A does not wait (C50). A program that waits for a key and keeps its number:
    x := 16; while x = 16 { x := key, if one is pressed } *)
Definition read_loop (x : gp_register) : structured := Loop (IsByte x 16) (Do (LdK x)).
Definition read_key (x : gp_register) : structured := Then (Do (LdImmediate x 16)) (read_loop x).
Lemma key_byte k : 0 <= key_number (Some k) < 16.
Proof. destruct k as [[]]; cbn; lia. Qed.
Lemma seen_other s k q : q <> PKey -> seen s k q = s q.
Proof. intros Hq. unfold seen, upd. destruct q; try reflexivity. contradiction. Qed.

Section Read.
Context (e : environment) (p : profile) (lo hi : Z) (K : schedule) (w : world) (x : gp_register).
(** One instruction Fx0A. *)
Lemma do_ldk n s : x <> Vf -> exists s', hosted8 e p lo hi K (Do (LdK x)) s w n s' w (S n) /\ (forall q, q <> PPC -> q <> PKey -> q <> PV (gp_index x) -> s' q = s q) /\
  s' (PV (gp_index x)) = match K n with None => s (PV (gp_index x)) | Some k => key_number (Some k) end.
Proof.
  intros Hx. destruct (K n) as [k|] eqn:Ek.
  - exists (upd (advance (seen s (K n)) 2) (PV (gp_index x)) (key_number (Some k))). split; [|split].
    + apply hosted8_do; [|intros a _; reflexivity]. cbn [effect]. change (seen s (K n) PKey) with (key_number (K n)). rewrite Ek.
      pose proof (key_byte k). replace (key_number (Some k) =? -1) with false by lia. rewrite (has_of x Hx). reflexivity.
    + intros q Q1 Q2 Q3. rewrite upd_v_other, advance_other, seen_other by assumption. reflexivity.
    + apply upd_v_same.
  - exists (advance (seen s (K n)) 2). split; [|split].
    + apply hosted8_do; [|intros a _; reflexivity]. cbn [effect]. change (seen s (K n) PKey) with (key_number (K n)). rewrite Ek. reflexivity.
    + intros q Q1 Q2 Q3. rewrite advance_other, seen_other by assumption. reflexivity.
    + rewrite advance_other, seen_other by discriminate. reflexivity.
Qed.
Lemma read_loop_ends k i : x <> Vf -> forall n s, s (PV (gp_index x)) = 16 -> K (n + 3 * i + 1)%nat = Some k -> (forall j, (j < i)%nat -> K (n + 3 * j + 1)%nat = None) ->
  exists s', hosted8 e p lo hi K (read_loop x) s w n s' w (n + 3 * i + 5) /\ s' (PV (gp_index x)) = key_number (Some k) /\
    forall q, q <> PPC -> q <> PKey -> q <> PV (gp_index x) -> s' q = s q.
Proof.
  intros Hx. induction i as [|i IH]; intros n s H16 Hi Hj.
  - replace (n + 3 * 0 + 1)%nat with (S n) in Hi by lia. destruct (do_ldk (S n) (seen s (K n)) Hx) as (s1 & X1 & O1 & V1). rewrite Hi in V1.
    exists (seen (seen s1 (K (S (S n)))) (K (S (S (S (S n)))))). replace (n + 3 * 0 + 5)%nat with (S (S (S (S (S n))))) by lia. split; [|split].
    + eapply hosted8_again; [cbn [holds]; rewrite seen_other by discriminate; rewrite H16; reflexivity|exact X1|].
      apply hosted8_stop. cbn [holds]. rewrite !seen_other by discriminate. rewrite V1. pose proof (key_byte k). lia.
    + rewrite !seen_other by discriminate. exact V1.
    + intros q Q1 Q2 Q3. rewrite !seen_other by assumption. rewrite O1, seen_other by assumption. reflexivity.
  - destruct (do_ldk (S n) (seen s (K n)) Hx) as (s1 & X1 & O1 & V1). pose proof (Hj 0%nat ltac:(lia)) as H0. replace (n + 3 * 0 + 1)%nat with (S n) in H0 by lia.
    rewrite H0, seen_other, H16 in V1 by discriminate.
    destruct (IH (S (S (S n))) (seen s1 (K (S (S n))))) as (s' & X & Vx & O).
    + rewrite seen_other by discriminate. exact V1.
    + replace (S (S (S n)) + 3 * i + 1)%nat with (n + 3 * S i + 1)%nat by lia. exact Hi.
    + intros j Hlt. replace (S (S (S n)) + 3 * j + 1)%nat with (n + 3 * S j + 1)%nat by lia. apply Hj. lia.
    + exists s'. replace (n + 3 * S i + 5)%nat with (S (S (S n)) + 3 * i + 5)%nat by lia. split; [|split; [exact Vx|]].
      * eapply hosted8_again; [cbn [holds]; rewrite seen_other by discriminate; rewrite H16; reflexivity|exact X1|exact X].
      * intros q Q1 Q2 Q3. rewrite O by assumption. rewrite seen_other by assumption. rewrite O1, seen_other by assumption. reflexivity.
Qed.
Lemma do_ldk_is n s s' w' n' : x <> Vf -> hosted8 e p lo hi K (Do (LdK x)) s w n s' w' n' -> K n = None -> w' = w /\ n' = S n /\ s' (PV (gp_index x)) = s (PV (gp_index x)).
Proof.
  intros Hx X E. destruct (do_ldk n s Hx) as (s1 & X1 & _ & V1). rewrite E in V1. destruct (C122_one_meaning _ _ _ _ _ _ _ _ _ _ _ _ X _ _ _ X1) as (-> & -> & ->). split; [reflexivity|split; [reflexivity|exact V1]].
Qed.
End Read.
Lemma read_loop_hosted e p lo hi K x c s w n s' w' n' : x <> Vf -> hosted8 e p lo hi K c s w n s' w' n' -> c = read_loop x -> s (PV (gp_index x)) = 16 ->
  exists i, K (n + 3 * i + 1)%nat <> None.
Proof.
  intros Hx. induction 1 as [| | | | |b c s w n Hb|b c s w n s1 w1 n1 s2 w2 n2 Hb E1 IH1 E2 IH2]; intros Ec H16; try discriminate Ec; injection Ec as -> ->.
  - cbn [holds] in Hb. rewrite seen_other, H16 in Hb by discriminate. discriminate Hb.
  - destruct (K (S n)) as [k|] eqn:Ek; [exists 0%nat; replace (n + 3 * 0 + 1)%nat with (S n) by lia; congruence|].
    destruct (do_ldk_is e p lo hi K w x _ _ _ _ _ Hx E1 Ek) as (-> & -> & V). rewrite seen_other, H16 in V by discriminate.
    destruct (IH2 eq_refl) as (i & Hi); [rewrite seen_other by discriminate; exact V|]. exists (S i). replace (n + 3 * S i + 1)%nat with (S (S (S n)) + 3 * i + 1)%nat by lia. exact Hi.
Qed.
Lemma read_loop_unbroken e p lo hi K x c s w n op s' w' n' : x <> Vf -> broken8 e p lo hi K c s w n op s' w' n' -> c <> read_loop x.
Proof.
  intros Hx. induction 1 as [| | | | |b c s w n op s1 w1 n1 Hb B IH|b c s w n s1 w1 n1 op s2 w2 n2 Hb E1 B IH]; intros Ec; try discriminate Ec; [|exact (IH Ec)].
  injection Ec as -> ->. assert (Wr : wrong e p lo hi (LdK x) (seen (seen s (K n)) (K (S n))) w) by (inversion B; subst; assumption).
  destruct (do_ldk e p lo hi K w x (S n) (seen s (K n)) Hx) as (s' & X & _).
  assert (E : effect e p (seen (seen s (K n)) (K (S n))) w (LdK x) = Some (s', w) /\ spares lo hi (seen s (K n)) s') by (inversion X; subst; split; assumption).
  destruct E as [E Sp]. destruct Wr as [Wr|(s3 & w3 & Wr & N)]; [congruence|]. apply N. intros a Ha. replace s3 with s' by congruence. exact (Sp a Ha).
Qed.

(** It looks at the keys at every third instruction, and ends when it first
    finds one pressed there: register x is then the number of that key. *)
Theorem C122_read_key : forall e p K c w L x, env_ok e -> about_to_run8 c L (read_key x) -> x <> Vf ->
  (forall i k, K (3 * i + 2)%nat = Some k -> (forall j, (j < i)%nat -> K (3 * j + 2)%nat = None) ->
     exists c', play e p K 0 (3 * i + 6) c w = Ok (c', w) /\ observe c' PPC = L + 10 /\ reg c' x = key_number (Some k) /\
       forall q, q <> PPC -> q <> PKey -> q <> PV (gp_index x) -> observe c' q = observe c q) /\
  ((forall i, K (3 * i + 2)%nat = None) -> forall m, exists c' w', play e p K 0 m c w = Ok (c', w') /\ L <= observe c' PPC < L + 10).
Proof.
  intros e p K c w L x He Ha Hx.
  set (s1 := upd (advance (seen (observe c) (K 0%nat)) 2) (PV (gp_index x)) 16). set (hi := L + bytes (translate L (read_key x))).
  assert (X1 : hosted8 e p L hi K (Do (LdImmediate x 16)) (observe c) w 0 s1 w 1).
  { apply hosted8_do; [cbn [effect]; rewrite (has_of x Hx); reflexivity|intros a _; reflexivity]. }
  assert (V1 : s1 (PV (gp_index x)) = 16) by apply upd_v_same.
  assert (O1 : forall q, q <> PPC -> q <> PKey -> q <> PV (gp_index x) -> s1 q = observe c q) by (intros q Q1 Q2 Q3; unfold s1; rewrite upd_v_other, advance_other, seen_other by assumption; reflexivity).
  split.
  - intros i k Hi Hj. destruct (read_loop_ends e p L hi K w x k i Hx 1 s1 V1) as (s' & X & Vx & O).
    { replace (1 + 3 * i + 1)%nat with (3 * i + 2)%nat by lia. exact Hi. }
    { intros j Hlt. replace (1 + 3 * j + 1)%nat with (3 * j + 2)%nat by lia. exact (Hj j Hlt). }
    replace (1 + 3 * i + 5)%nat with (3 * i + 6)%nat in X by lia.
    destruct (C122_ends e p K c w L _ s' w _ He Ha (hosted8_then _ _ _ _ _ _ _ _ _ _ _ _ _ _ _ _ X1 X)) as [(c' & Y & Hp & A) _].
    exists c'. split; [exact Y|]. split; [exact Hp|]. split; [unfold reg; rewrite (A (PV (gp_index x))) by discriminate; exact Vx|].
    intros q Q1 Q2 Q3. rewrite (A q Q1), (O q Q1 Q2 Q3). exact (O1 q Q1 Q2 Q3).
  - intros N m. apply (C122_forever e p K c w L (read_key x) He Ha).
    + intros s' w' n' E. inversion E as [| |? ? ? ? ? s2 w2 n2 ? ? ? E1 E2| | | |]; subst. destruct (C122_one_meaning _ _ _ _ _ _ _ _ _ _ _ _ X1 _ _ _ E1) as (<- & <- & <-).
      destruct (read_loop_hosted _ _ _ _ _ x _ _ _ _ _ _ _ Hx E2 eq_refl V1) as (i & Hi). apply Hi. replace (1 + 3 * i + 1)%nat with (3 * i + 2)%nat by lia. apply N.
    + intros op s' w' n' B. inversion B as [|? ? ? ? ? ? ? ? ? B1|? ? ? ? ? s2 w2 n2 ? ? ? ? E1 B2| | | |]; subst.
      * inversion B1 as [op' s0 w0 n0 Wr| | | | | |]; subst. inversion X1 as [|op' s0 w0 n0 s2 w2 E Sp| | | | |]; subst.
        destruct Wr as [Wr|(s3 & w3 & Wr & Nn)]; [congruence|]. apply Nn. intros a Ha'. replace s3 with s1 by congruence. exact (Sp a Ha').
      * exact (read_loop_unbroken _ _ _ _ _ x _ _ _ _ _ _ _ _ Hx B2 eq_refl).
Qed.

(** ** Concrete cases *)
(** V1 is 0 and key 0 goes down before instruction 5 and up before instruction 7. *)
Definition press5 : schedule := fun n => if (5 <=? n)%nat && (n <? 7)%nat then Some (InterruptKeyPress Key0) else None.
Definition press5_only : schedule := fun n => if (n =? 5)%nat then Some (InterruptKeyPress Key0) else None.
Example C122_case : exists c c', about_to_run8 c 0x200 (await V1) /\ play env0 Debug press5 0 8 c w0 = Ok (c', w0) /\ observe c' PPC = 0x206 /\
  forall m, exists c' w', play env0 Debug press5_only 0 m c w0 = Ok (c', w') /\ 0x200 <= observe c' PPC < 0x206.
Proof.
  destruct (demo_with (await V1)) as (c & Ha & V1_0 & _).
  { repeat split; discriminate. }
  { repeat constructor; cbn; lia. }
  { reflexivity. }
  destruct (proj1 (C122_wait env0 Debug press5 c w0 0x200 V1 env0_ok Ha) 3%nat) as (c' & Y & Hp & _).
  { unfold notices, reg. cbn [gp_index]. rewrite V1_0. reflexivity. }
  { intros j Hj. unfold notices, reg. cbn [gp_index]. rewrite V1_0. destruct j as [|[|[|j]]]; [discriminate|discriminate|discriminate|lia]. }
  exists c, c'. split; [exact Ha|]. split; [exact Y|]. split; [exact Hp|].
  apply (C122_one_may_not env0 Debug press5_only c w0 0x200 V1 env0_ok Ha). intros t. unfold reg. cbn [gp_index]. rewrite V1_0. unfold press5_only.
  destruct (Nat.eqb_spec t 5) as [->|]; [intros _; exists 2%nat; reflexivity|discriminate].
Qed.
(** Key A goes down before instruction 4, key 3 before instruction 9: the second is read. *)
Definition two_keys : schedule := fun n => if (n =? 4)%nat then Some (InterruptKeyPress KeyA) else if (8 <? n)%nat then Some (InterruptKeyPress Key3) else None.
Example C122_read_case : exists c c', about_to_run8 c 0x200 (read_key V1) /\ play env0 Debug two_keys 0 15 c w0 = Ok (c', w0) /\ observe c' PPC = 0x20a /\ reg c' V1 = 3.
Proof.
  destruct (demo_with (read_key V1)) as (c & Ha & _).
  { repeat split; try discriminate; cbn; unfold u8; lia. }
  { repeat constructor; cbn; unfold u8; lia. }
  { reflexivity. }
  destruct (proj1 (C122_read_key env0 Debug two_keys c w0 0x200 V1 env0_ok Ha ltac:(discriminate)) 3%nat (InterruptKeyPress Key3) eq_refl) as (c' & Y & Hp & Vx & _).
  { intros [|[|[|j]]] Hj; [reflexivity|reflexivity|reflexivity|lia]. }
  exists c, c'. split; [exact Ha|]. split; [exact Y|]. split; [exact Hp|exact Vx].
Qed.
(** FF0A panics if a key is pressed when it is executed, and only then. *)
Definition ask : structured := Then (Do (LdImmediate V0 7)) (Do (LdK Vf)).
Definition hold_a (t : nat) : schedule := fun n => if (n =? t)%nat then Some (InterruptKeyPress KeyA) else None.
Example C122_breaks_case : exists c c' c1, about_to_run8 c 0x200 ask /\
  play env0 Debug (hold_a 1) 0 1 c w0 = Ok (c', w0) /\ observe c' (PV 0) = 7 /\ play env0 Debug (hold_a 1) 0 2 c w0 = Panic /\
  play env0 Debug (hold_a 0) 0 2 c w0 = Ok (c1, w0) /\ observe c1 PPC = 0x204.
Proof.
  destruct (demo_with ask) as (c & Ha & _).
  { repeat split; cbn; unfold u8; lia. }
  { repeat constructor; cbn; unfold u8; lia. }
  { reflexivity. }
  assert (X : forall K, hosted8 env0 Debug 0x200 0x204 K (Do (LdImmediate V0 7)) (observe c) w0 0 (upd (advance (seen (observe c) (K 0%nat)) 2) (PV 0) 7) w0 1).
  { intros K. apply hosted8_do; [reflexivity|intros a _; reflexivity]. }
  destruct (C122_breaks env0 Debug (hold_a 1) c w0 0x200 ask (LdK Vf) (upd (advance (seen (observe c) (hold_a 1 0%nat)) 2) (PV 0) 7) w0 1 env0_ok Ha) as (c' & Y & _ & _ & A & Pn).
  { eapply broken8_then2; [exact (X (hold_a 1))|]. apply broken8_do. left. reflexivity. }
  destruct (C122_ends env0 Debug (hold_a 0) c w0 0x200 ask (advance (seen (upd (advance (seen (observe c) (hold_a 0 0%nat)) 2) (PV 0) 7) (hold_a 0 1%nat)) 2) w0 2 env0_ok Ha) as [(c1 & Y1 & Hp1 & _) _].
  { eapply hosted8_then; [exact (X (hold_a 0))|]. apply hosted8_do; [reflexivity|intros a _; reflexivity]. }
  exists c, c', c1. split; [exact Ha|]. split; [exact Y|]. split; [rewrite A by discriminate; reflexivity|].
  split; [exact (proj2 (Pn eq_refl) 2%nat ltac:(lia))|]. split; [exact Y1|exact Hp1].
Qed.

Print Assumptions C122_ends.
Print Assumptions C122_one_meaning.
Print Assumptions C122_breaks.
Print Assumptions C122_forever.
Print Assumptions C122_only_then.
Print Assumptions C122_held.
Print Assumptions C122_wait.
Print Assumptions C122_two_suffice.
Print Assumptions C122_one_may_not.
Print Assumptions C122_read_key.
