(** C96 and C97: CHIP-8 code can be moved and independent instructions can be exchanged. *)
From Verif Require Import Base Arith ModelMap ModelStep ModelDisplay ModelChip8 ModelOpsChip8 ModelRunChip8 SpecMap Link6502
  SpecChip8 SpecChip8Parts ProofChip8 ProofChip8Step ProofChip8Reach SpecReference8 ProofReference8 SpecLive8 PropertiesLive8 SpecMove8.

(** ** The effect of an instruction that names no place, at two places *)
Section Effect.
Variables (e : environment) (p : profile) (w w2 : world).

Definition alike_at (op : opcode) (f g f' g' : part -> Z) : Prop :=
  (exists k, f' PPC = (f PPC + k) mod 65536 /\ g' PPC = (g PPC + k) mod 65536 /\ 2 <= k <= 4 /\ (may_skip op = false -> k = 2)) /\
  forall q, q <> PPC -> (sets8 f op q = true -> f' q = g' q) /\ (sets8 f op q = false -> f' q = f q /\ g' q = g q).

(** The worlds may differ where the instruction does not ask. *)
Definition same_answers (op : opcode) : Prop :=
  (asks_clock op = true -> w_time w2 = w_time w) /\ (asks_random op = true -> w_random w2 = w_random w).
Definition world_after (op : opcode) (w : world) : world :=
  mkWorld (if asks_clock op then S (w_time w) else w_time w) (if asks_random op then S (w_random w) else w_random w).

Lemma world_eta (x : world) : mkWorld (w_time x) (w_random x) = x.
Proof. destruct x. reflexivity. Qed.

Lemma effect_moved f g op : names_no_place op = true -> same_answers op ->
  (forall q, beyond f op q = true -> g q = f q) ->
  match effect e p f w op, effect e p g w2 op with
  | Some (f', w'), Some (g', w2') => w' = world_after op w /\ w2' = world_after op w2 /\ alike_at op f g f' g'
  | None, None => True
  | _, _ => False
  end.
Proof.
  intros Hn [Ht Hr] H.
  assert (R : forall r, beyond f op (PV (gp_index r)) = true -> v g r = v f r) by (intros r Hr'; apply H, Hr').
  Local Ltac look8 := unfold beyond, is_reg; cbn [part_eqb]; rewrite ?Z.eqb_refl, ?Bool.orb_true_r; reflexivity.
  Local Ltac cond8 := repeat match goal with |- context [needs ?b _] => destruct b; cbn [needs] end.
  Local Ltac place k := exists k; split; [reflexivity|]; split; [reflexivity|]; split; [lia|try discriminate; reflexivity].
  Local Ltac fin8 := unfold world_after, tick; cbn [asks_clock asks_random]; rewrite ?world_eta;
    split; [reflexivity|]; split; [reflexivity|]; split;
    [ unfold advance, upd; cbn [part_eqb];
      try match goal with |- context [if ?b then _ else _] => destruct b end; first [place 2|place 4]
    | let q := fresh "q" in let N := fresh "N" in intros q N; unfold sets8, is_reg, advance, upd; destruct q;
      cbn [part_eqb orb andb negb]; try congruence;
      repeat match goal with |- context [if ?b then _ else _] => let E := fresh in destruct b eqn:E end;
      (split; intros; try (split; reflexivity); try reflexivity; try discriminate; try lia) ].
  destruct op; cbn [effect names_no_place] in *; try exact I; try discriminate;
    try (rewrite !R by look8); try (rewrite (H PI) by look8); try (rewrite (H PKey) by look8);
    try (rewrite (H PDelay) by look8); try (rewrite (H PDelayAt) by look8);
    try (rewrite (Ht eq_refl)); try (replace (env_random e (w_random w2)) with (env_random e (w_random w)) by (rewrite (Hr eq_refl); reflexivity));
    unfold done; cond8; try exact I; try solve [fin8].
  - destruct (f PKey =? -1) eqn:Ek; [|fin8]. unfold world_after. cbn [asks_clock asks_random]. rewrite !world_eta.
    split; [reflexivity|]. split; [reflexivity|]. split; [place 2|]. intros q N. unfold sets8, advance, upd. rewrite Ek, Bool.andb_false_r.
    destruct q; cbn [part_eqb orb]; try congruence; (split; intros; try (split; reflexivity); discriminate).
  - destruct (f PKey =? -1) eqn:Ek; [|exact I]. unfold world_after. cbn [asks_clock asks_random]. rewrite !world_eta.
    split; [reflexivity|]. split; [reflexivity|]. split; [place 2|]. intros q N. unfold sets8, advance, upd. rewrite Ek, Bool.andb_false_r.
    destruct q; cbn [part_eqb orb]; try congruence; (split; intros; try (split; reflexivity); discriminate).
  - unfold world_after. cbn [asks_clock asks_random]. rewrite !world_eta.
    split; [reflexivity|]. split; [reflexivity|]. split; [place 2|]. intros q N. unfold sets8, advance, upd.
    destruct q as [ | | |k| | | | | | | |]; cbn [part_eqb orb];
      try (split; intros; try (split; reflexivity); try reflexivity; try congruence; discriminate).
    destruct ((0 <=? k) && (k <=? gp_index r)) eqn:Ek; [|split; intros; try (split; reflexivity); discriminate].
    split; [|discriminate]. intros _. symmetry. apply H. unfold beyond. cbn [part_eqb orb].
    pose proof (gp_index_range r). rewrite Zminus_mod_idemp_l.
    replace (f PI + k - f PI) with k by lia. rewrite Z.mod_small by lia. lia.
  - unfold world_after. cbn [asks_clock asks_random]. rewrite !world_eta.
    split; [reflexivity|]. split; [reflexivity|]. split; [place 2|]. intros q N. unfold sets8, advance, upd.
    destruct q as [ | | | | |a| | | | | |]; cbn [part_eqb orb];
      try (split; intros; try (split; reflexivity); try reflexivity; try congruence; discriminate).
    destruct ((f PI <=? a) && (a <=? f PI + gp_index r)) eqn:Ek; [|split; intros; try (split; reflexivity); discriminate].
    split; [|discriminate]. intros _. symmetry. apply H. unfold beyond. cbn [part_eqb orb]. lia.
Qed.

(** What an instruction looks at and sets is a matter of what it looks at. *)
Lemma beyond_same f g op : (forall q, beyond f op q = true -> g q = f q) ->
  forall q, beyond g op q = beyond f op q.
Proof.
  intros H q. destruct op; try reflexivity; cbn [beyond].
  - rewrite (H PSP) by reflexivity. reflexivity.
  - rewrite (H PI) by look8. reflexivity.
  - rewrite (H PI) by look8. reflexivity.
Qed.
Lemma sets_same f g op : (forall q, beyond f op q = true -> g q = f q) ->
  forall q, sets8 g op q = sets8 f op q.
Proof.
  intros H q. destruct op; try reflexivity; unfold sets8;
    try (rewrite (H PI) by look8); try (rewrite (H PSP) by look8); try (rewrite (H PKey) by look8); reflexivity.
Qed.
End Effect.

Lemma beyond_no_pc f op : beyond f op PPC = false.
Proof. destruct op; reflexivity. Qed.

(** ** C96 *)
(** The same instruction at two places, on machines that agree on what it looks
    at besides itself: it moves the program counter as far, does the same to
    whatever else it sets, leaves the rest alone and asks as often; or it
    panics at both. *)
Theorem C96_one_instruction : forall e p c c2 w op, env_ok e -> well_formed c -> well_formed c2 ->
  operands_ok op -> names_no_place op = true -> fetches p c (encode op) -> fetches p c2 (encode op) ->
  (forall q, beyond (observe c) op q = true -> observe c2 q = observe c q) ->
  match step e p c w, step e p c2 w with
  | Ok (c', w'), Ok (c2', w2') => w2' = w' /\
      (observe c2' PPC - observe c2 PPC) mod 65536 = (observe c' PPC - observe c PPC) mod 65536 /\
      (forall q, q <> PPC -> sets8 (observe c) op q = true -> observe c2' q = observe c' q) /\
      (forall q, sets8 (observe c) op q = false -> observe c' q = observe c q /\ observe c2' q = observe c2 q)
  | Panic, Panic => True
  | _, _ => False
  end.
Proof.
  intros e p c c2 w op He W W2 Hop Hn Hf Hf2 H.
  pose proof (step_effect e p c w W He op Hop Hf) as K. pose proof (step_effect e p c2 w W2 He op Hop Hf2) as K2.
  pose proof (effect_moved e p w w (observe c) (observe c2) op Hn (conj (fun _ => eq_refl) (fun _ => eq_refl)) H) as X.
  unfold delivers in K, K2.
  destruct (effect e p (observe c) w op) as [[f' w1]|], (effect e p (observe c2) w op) as [[g' w2]|]; try contradiction.
  - destruct K as (c' & E & _ & L), K2 as (c2' & E2 & _ & L2). rewrite E, E2. destruct X as (-> & -> & (k & P1 & P2 & _) & X).
    split; [reflexivity|]. split; [|split].
    + rewrite (L PPC), (L2 PPC), P1, P2. rewrite !Zminus_mod_idemp_l. f_equal. lia.
    + intros q N Hq. rewrite (L q), (L2 q). symmetry. apply X; assumption.
    + intros q Hq. rewrite (L q), (L2 q). apply X; [|exact Hq]. intros ->. discriminate.
  - rewrite K, K2. exact I.
Qed.

Lemma step_well_formed e p c w op c1 w1 : env_ok e -> well_formed c -> operands_ok op -> fetches p c (encode op) ->
  step e p c w = Ok (c1, w1) -> well_formed c1.
Proof.
  intros He W Hop Hf Es. pose proof (step_effect e p c w W He op Hop Hf) as K. unfold delivers in K.
  destruct (effect e p (observe c) w op) as [[f' w']|]; [|congruence]. destruct K as (c' & E & W' & _). congruence.
Qed.

Lemma within_executes e p a b len c w n c' w' : runs_within e p a b len c w n c' w' ->
  exists h, length h = n /\ executes e p c w h c' w'.
Proof.
  induction 1 as [c w|c w op c1 w1 n c' w' H1 H2 Hop Hn Hf Es H X (h & Hl & Y)].
  - exists []. split; [reflexivity|constructor].
  - exists ((observe c PPC, encode op) :: h). split; [cbn [length]; congruence|]. econstructor; eassumption.
Qed.

(** Code at [a] and a copy of it at [b], on machines that are the same
    otherwise: the copy runs as long, asks as often, and the machines are the
    same afterwards but for the place of the program counter; the code itself
    is unchanged at both places. *)
Theorem C96_run : forall e p a b len c w n c' w' c2, env_ok e -> well_formed c -> well_formed c2 ->
  0 <= a -> a + len <= 4096 -> 0 <= b -> b + len <= 4096 ->
  runs_within e p a b len c w n c' w' ->
  observe c2 PPC - b = observe c PPC - a ->
  (forall k, 0 <= k < len -> observe c2 (PMem (b + k)) = observe c (PMem (a + k))) ->
  (forall q, q <> PPC -> in_code a b len q = false -> observe c2 q = observe c q) ->
  exists mcs mcs2 c2', iterate e p n c w = Ok (mcs, c', w') /\ iterate e p n c2 w = Ok (mcs2, c2', w') /\
    observe c2' PPC - b = observe c' PPC - a /\
    (forall q, in_code a b len q = true -> observe c' q = observe c q /\ observe c2' q = observe c2 q) /\
    (forall q, q <> PPC -> in_code a b len q = false -> observe c2' q = observe c' q).
Proof.
  intros e p a b len c w n c' w' c2 He W W2 Ha Hal Hb Hbl X Hpc Hcode Hout.
  assert (K : exists c2', runs_within e p b a len c2 w n c2' w' /\ observe c2' PPC - b = observe c' PPC - a /\
    (forall q, in_code a b len q = true -> observe c' q = observe c q /\ observe c2' q = observe c2 q) /\
    (forall q, q <> PPC -> in_code a b len q = false -> observe c2' q = observe c' q)).
  { revert c2 W2 Hpc Hcode Hout.
    induction X as [c w|c w op c1 w1 n c' w' H1 H2 Hop Hn Hf Es Hx X IH]; intros c2 W2 Hpc Hcode Hout.
    - exists c2. split; [constructor|]. split; [exact Hpc|]. split; [intros; split; reflexivity|exact Hout].
    - assert (Hf2 : fetches p c2 (encode op)).
      { destruct Hf as [_ Ew]. split; [right; lia|]. rewrite Ew. rewrite !(Z.mod_small (_ + 1)) by lia.
        replace (observe c2 PPC + 1) with (b + (observe c PPC + 1 - a)) by lia.
        replace (PMem (observe c2 PPC)) with (PMem (b + (observe c PPC - a))) by (f_equal; lia).
        rewrite !Hcode by lia. f_equal; [f_equal|]; do 2 f_equal; lia. }
      assert (Hl : forall q, beyond (observe c) op q = true -> observe c2 q = observe c q).
      { intros q Hq. apply Hout; [intros ->; rewrite beyond_no_pc in Hq; discriminate|].
        destruct (in_code a b len q) eqn:Ei; [|reflexivity]. destruct (Hx q Ei). congruence. }
      pose proof (C96_one_instruction e p c c2 w op He W W2 Hop Hn Hf Hf2 Hl) as Y. rewrite Es in Y.
      destruct (step e p c2 w) as [[c21 w21]|] eqn:Es2; [|contradiction]. destruct Y as (-> & Y0 & Y1 & Y2).
      assert (W1 := step_well_formed _ _ _ _ _ _ _ He W Hop Hf Es). assert (W21 := step_well_formed _ _ _ _ _ _ _ He W2 Hop Hf2 Es2).
      assert (Epc : observe c21 PPC - b = observe c1 PPC - a).
      { pose proof (step_effect e p c w W He op Hop Hf) as K. pose proof (step_effect e p c2 w W2 He op Hop Hf2) as K2. unfold delivers in K, K2.
        pose proof (effect_moved e p w w (observe c) (observe c2) op Hn (conj (fun _ => eq_refl) (fun _ => eq_refl)) Hl) as Z.
        destruct (effect e p (observe c) w op) as [[f' wa]|], (effect e p (observe c2) w op) as [[g' wb]|]; try congruence; try contradiction.
        destruct K as (x & Ex & _ & L), K2 as (y & Ey & _ & L2). destruct Z as (_ & _ & (k & P1 & P2 & Pk & _) & _).
        replace c1 with x by congruence. replace c21 with y by congruence. rewrite (L PPC), (L2 PPC), P1, P2.
        rewrite !Z.mod_small by lia. lia. }
      assert (Sin : forall q, in_code a b len q = true -> observe c1 q = observe c q /\ observe c21 q = observe c2 q).
      { intros q Hq. apply Y2, (Hx q Hq). }
      destruct (IH W1 c21 W21 Epc) as (c2' & R & Q1 & Q2 & Q3).
      + intros k Hk. rewrite (proj2 (Sin (PMem (b + k)) ltac:(cbn [in_code]; lia))), (proj1 (Sin (PMem (a + k)) ltac:(cbn [in_code]; lia))).
        apply Hcode, Hk.
      + intros q N Hq. destruct (sets8 (observe c) op q) eqn:Eq; [apply Y1; assumption|].
        destruct (Y2 q Eq) as [-> ->]. apply Hout; assumption.
      + exists c2'. split; [|split; [exact Q1|split; [|exact Q3]]].
        * eapply within_step with (op := op); try eassumption; try lia.
          intros q Hq. assert (Hq' : in_code a b len q = true) by (destruct q; cbn [in_code] in *; lia).
          rewrite (beyond_same _ _ _ Hl), (sets_same _ _ _ Hl). apply Hx, Hq'.
        * intros q Hq. destruct (Q2 q Hq) as [-> ->]. apply Sin, Hq. }
  destruct K as (c2' & R & Q1 & Q2 & Q3).
  destruct (within_executes _ _ _ _ _ _ _ _ _ _ X) as (h & <- & Y). destruct (executes_iterate _ _ _ _ _ _ _ Y) as [mcs I1].
  destruct (within_executes _ _ _ _ _ _ _ _ _ _ R) as (h2 & Hl & Y2). destruct (executes_iterate _ _ _ _ _ _ _ Y2) as [mcs2 I2].
  rewrite Hl in I2. exists mcs, mcs2, c2'. split; [exact I1|]. split; [exact I2|]. split; [exact Q1|]. split; [exact Q2|exact Q3].
Qed.

(** ** C97 *)
Lemma executes_app2 e p c w h c1 w1 : executes e p c w h c1 w1 -> forall h2 c2 w2, executes e p c1 w1 h2 c2 w2 ->
  executes e p c w (h ++ h2) c2 w2.
Proof.
  induction 1 as [c w|c w word c1 w1 h c2 w2 F E X IH]; intros h2 c3 w3 Y; [exact Y|].
  cbn [app]. eapply executes_cons; [exact F|exact E|]. apply IH, Y.
Qed.

Section Exchange.
Context (e : environment) (p : profile) (He : env_ok e) (c c2 : chip8) (w : world) (op1 op2 : opcode) (a : Z).
Context (W : well_formed c) (W2 : well_formed c2) (Ha : 0 <= a) (Ha4 : a + 4 < 65536)
  (O1 : operands_ok op1) (O2 : operands_ok op2)
  (N1 : names_no_place op1 = true) (N2 : names_no_place op2 = true) (S1 : may_skip op1 = false) (S2 : may_skip op2 = false)
  (Pc : observe c PPC = a) (Wc1 : word_at c a = encode op1) (Wc2 : word_at c (a + 2) = encode op2)
  (Wd1 : word_at c2 a = encode op2) (Wd2 : word_at c2 (a + 2) = encode op1)
  (Hout : forall q, in_code a a 4 q = false -> observe c2 q = observe c q)
  (Hi : independent (observe c) op1 op2 a).

Lemma fetches_word d op : observe d PPC + 1 < 65536 -> 0 <= observe d PPC -> word_at d (observe d PPC) = encode op -> fetches p d (encode op).
Proof using. clear. intros H1 H2 E. split; [right; lia|]. rewrite (Z.mod_small (_ + 1)) by lia. symmetry. exact E. Qed.

Lemma exchange :
  match two_steps e p c w, two_steps e p c2 w with
  | Ok (c', w'), Ok (c2', w2') => w2' = w' /\ observe c' PPC = a + 4 /\ well_formed c' /\ well_formed c2' /\
      executes e p c2 w [(a, encode op2); (a + 2, encode op1)] c2' w2' /\
      (forall q, in_code a a 4 q = false -> observe c2' q = observe c' q) /\
      (forall q, in_code a a 4 q = true -> observe c' q = observe c q /\ observe c2' q = observe c2 q)
  | Panic, Panic => True
  | _, _ => False
  end.
Proof.
  destruct Hi as (I1 & I2 & I3 & I4 & I5).
  assert (Pc2 : observe c2 PPC = a) by (rewrite Hout by reflexivity; exact Pc).
  assert (F1 : fetches p c (encode op1)) by (apply fetches_word; [lia|lia|rewrite Pc; exact Wc1]).
  assert (F2 : fetches p c2 (encode op2)) by (apply fetches_word; [lia|lia|rewrite Pc2; exact Wd1]).
  pose proof (step_effect e p c w W He op1 O1 F1) as K1. pose proof (step_effect e p c2 w W2 He op2 O2 F2) as K2. unfold delivers in K1, K2.
  (* what each instruction looks at is the same in both orders *)
  assert (B2 : forall q, beyond (observe c) op2 q = true -> observe c2 q = observe c q).
  { intros q Hq. apply Hout. destruct (in_code a a 4 q) eqn:E; [|reflexivity]. destruct (I5 q E) as (_ & _ & ? & _). congruence. }
  assert (B1 : forall q, beyond (observe c) op1 q = true -> observe c2 q = observe c q).
  { intros q Hq. apply Hout. destruct (in_code a a 4 q) eqn:E; [|reflexivity]. destruct (I5 q E) as (? & _). congruence. }
  assert (V2 := sets_same _ _ _ B2). assert (L2 := beyond_same _ _ _ B2).
  (* the worlds each of them asks *)
  assert (A1 : same_answers w (world_after op2 w) op1).
  { split; intros Hq; unfold world_after; cbn [w_time w_random]; [destruct (asks_clock op2)|destruct (asks_random op2)]; try reflexivity;
      rewrite Hq in *; discriminate. }
  assert (A2 : same_answers w (world_after op1 w) op2).
  { split; intros Hq; unfold world_after; cbn [w_time w_random]; [destruct (asks_clock op1)|destruct (asks_random op1)]; try reflexivity;
      rewrite Hq in *; discriminate. }
  unfold two_steps.
  (* the first instruction of each order, and where it leaves the machine *)
  assert (T1 := effect_moved e p w w (observe c) (observe c) op1 N1 (conj (fun _ => eq_refl) (fun _ => eq_refl)) (fun q _ => eq_refl)).
  assert (T2 := effect_moved e p w w (observe c2) (observe c2) op2 N2 (conj (fun _ => eq_refl) (fun _ => eq_refl)) (fun q _ => eq_refl)).
  assert (X1 : forall c1 w1, step e p c w = Ok (c1, w1) -> w1 = world_after op1 w /\ well_formed c1 /\ observe c1 PPC = a + 2 /\
    (forall q, q <> PPC -> sets8 (observe c) op1 q = false -> observe c1 q = observe c q)).
  { intros c1 w1 E. destruct (effect e p (observe c) w op1) as [[f' w']|]; [|congruence]. destruct K1 as (c1' & E1 & W1 & L1).
    destruct T1 as (Ew & _ & (k & P1 & _ & _ & Pk) & T). rewrite (Pk S1) in P1.
    replace c1 with c1' by congruence. split; [congruence|]. split; [exact W1|].
    split; [rewrite (L1 PPC), P1, Pc; apply Z.mod_small; lia|].
    intros q N Hq. rewrite (L1 q). apply (T q N), Hq. }
  assert (X2 : forall c1 w1, step e p c2 w = Ok (c1, w1) -> w1 = world_after op2 w /\ well_formed c1 /\ observe c1 PPC = a + 2 /\
    (forall q, q <> PPC -> sets8 (observe c) op2 q = false -> observe c1 q = observe c2 q)).
  { intros c1 w1 E. destruct (effect e p (observe c2) w op2) as [[f' w']|]; [|congruence]. destruct K2 as (c1' & E1 & W1 & L1).
    destruct T2 as (Ew & _ & (k & P1 & _ & _ & Pk) & T). rewrite (Pk S2) in P1.
    replace c1 with c1' by congruence. split; [congruence|]. split; [exact W1|].
    split; [rewrite (L1 PPC), P1, Pc2; apply Z.mod_small; lia|].
    intros q N Hq. rewrite (L1 q). apply (T q N). rewrite V2. exact Hq. }
  destruct (step e p c w) as [[c1 w1]|] eqn:E1; [destruct (X1 _ _ eq_refl) as (-> & W1 & Pc1 & U1); clear X1|];
  (destruct (step e p c2 w) as [[c3 w3]|] eqn:E2; [destruct (X2 _ _ eq_refl) as (-> & W3 & Pc3 & U2); clear X2|]); try exact I.
  - (* both first instructions succeed *)
    assert (Hcode1 : forall q, in_code a a 4 q = true -> observe c1 q = observe c q).
    { intros q Hq. apply U1; [intros ->; discriminate|apply (I5 q Hq)]. }
    assert (Hcode3 : forall q, in_code a a 4 q = true -> observe c3 q = observe c2 q).
    { intros q Hq. apply U2; [intros ->; discriminate|apply (I5 q Hq)]. }
    assert (F3 : fetches p c1 (encode op2)).
    { apply fetches_word; [lia|lia|]. rewrite Pc1. unfold word_at. rewrite !Hcode1 by (cbn [in_code]; lia). exact Wc2. }
    assert (F4 : fetches p c3 (encode op1)).
    { apply fetches_word; [lia|lia|]. rewrite Pc3. unfold word_at. rewrite !Hcode3 by (cbn [in_code]; lia). exact Wd2. }
    assert (B3 : forall q, beyond (observe c2) op2 q = true -> observe c1 q = observe c2 q).
    { intros q Hq. rewrite L2 in Hq. rewrite (B2 q Hq). assert (N : q <> PPC) by (intros ->; rewrite beyond_no_pc in Hq; discriminate).
      apply U1; [exact N|]. destruct (sets8 (observe c) op1 q) eqn:E; [|reflexivity]. destruct (I1 q N E). congruence. }
    assert (B4 : forall q, beyond (observe c) op1 q = true -> observe c3 q = observe c q).
    { intros q Hq. rewrite <- (B1 q Hq). assert (N : q <> PPC) by (intros ->; rewrite beyond_no_pc in Hq; discriminate).
      apply U2; [exact N|]. destruct (sets8 (observe c) op2 q) eqn:E; [|reflexivity]. rewrite (I2 q N E) in Hq. discriminate. }
    assert (M2 := effect_moved e p w (world_after op1 w) (observe c2) (observe c1) op2 N2 A2 B3).
    assert (M1 := effect_moved e p w (world_after op2 w) (observe c) (observe c3) op1 N1 A1 B4).
    pose proof (step_effect e p c1 (world_after op1 w) W1 He op2 O2 F3) as K3. pose proof (step_effect e p c3 (world_after op2 w) W3 He op1 O1 F4) as K4.
    unfold delivers in K3, K4.
    destruct (effect e p (observe c) w op1) as [[f1 u1]|]; [|congruence]. destruct (effect e p (observe c2) w op2) as [[g1 u2]|]; [|congruence].
    destruct (effect e p (observe c1) (world_after op1 w) op2) as [[f2 u3]|]; [|contradiction].
    destruct (effect e p (observe c3) (world_after op2 w) op1) as [[g2 u4]|]; [|contradiction].
    destruct K1 as (d1 & Ed1 & _ & D1), K2 as (d3 & Ed3 & _ & D3). replace d1 with c1 in * by congruence. replace d3 with c3 in * by congruence.
    destruct K3 as (c' & E3 & W' & D'), K4 as (c2' & E4 & W2' & D2'). rewrite E3, E4.
    destruct M1 as (_ & Ew1 & (k1 & _ & Q1 & _ & Qk1) & M1), M2 as (_ & Ew2 & (k2 & _ & Q2 & _ & Qk2) & M2).
    rewrite (Qk1 S1) in Q1. rewrite (Qk2 S2) in Q2.
    assert (P' : observe c' PPC = a + 4) by (rewrite (D' PPC), Q2, Pc1, Z.mod_small; lia).
    assert (P2' : observe c2' PPC = a + 4) by (rewrite (D2' PPC), Q1, Pc3, Z.mod_small; lia).
    split; [rewrite Ew1, Ew2; unfold world_after; cbn [w_time w_random]; destruct (asks_clock op1), (asks_clock op2), (asks_random op1), (asks_random op2); reflexivity|].
    split; [exact P'|]. split; [exact W'|]. split; [exact W2'|]. split; [|split].
    + replace [(a, encode op2); (a + 2, encode op1)] with [(observe c2 PPC, encode op2); (observe c3 PPC, encode op1)]
        by (rewrite Pc2, Pc3; reflexivity).
      eapply executes_cons; [exact F2|exact E2|]. eapply executes_cons; [exact F4|exact E4|]. constructor.
    + intros q Hq. destruct (part_eqb q PPC) eqn:Eq; [apply part_eqb_true in Eq; subst q; congruence|].
      assert (N : q <> PPC) by (intros ->; discriminate). rewrite (D' q), (D2' q).
      destruct (M1 q N) as [M1a M1b], (M2 q N) as [M2a M2b]. rewrite (V2 q) in *.
      destruct (sets8 (observe c) op2 q) eqn:G2.
      * rewrite <- (M2a eq_refl). destruct (sets8 (observe c) op1 q) eqn:G1; [destruct (I1 q N G1); congruence|].
        rewrite (proj2 (M1b eq_refl)). apply D3.
      * rewrite (proj2 (M2b eq_refl)). destruct (sets8 (observe c) op1 q) eqn:G1.
        -- rewrite <- (M1a eq_refl). symmetry. apply D1.
        -- rewrite (proj2 (M1b eq_refl)), (U1 q N G1), (U2 q N G2). apply Hout, Hq.
    + intros q Hq. assert (N : q <> PPC) by (intros ->; discriminate). destruct (I5 q Hq) as (_ & G1 & _ & G2).
      rewrite (D' q), (D2' q), <- (Hcode1 q Hq), <- (Hcode3 q Hq). split.
      * apply (M2 q N). rewrite V2. exact G2.
      * apply (M1 q N). exact G1.
  - (* the second instruction panics when it comes first *)
    assert (Hcode1 : forall q, in_code a a 4 q = true -> observe c1 q = observe c q).
    { intros q Hq. apply U1; [intros ->; discriminate|apply (I5 q Hq)]. }
    assert (F3 : fetches p c1 (encode op2)).
    { apply fetches_word; [lia|lia|]. rewrite Pc1. unfold word_at. rewrite !Hcode1 by (cbn [in_code]; lia). exact Wc2. }
    assert (B3 : forall q, beyond (observe c2) op2 q = true -> observe c1 q = observe c2 q).
    { intros q Hq. rewrite L2 in Hq. rewrite (B2 q Hq). assert (N : q <> PPC) by (intros ->; rewrite beyond_no_pc in Hq; discriminate).
      apply U1; [exact N|]. destruct (sets8 (observe c) op1 q) eqn:E; [|reflexivity]. destruct (I1 q N E). congruence. }
    assert (M2 := effect_moved e p w (world_after op1 w) (observe c2) (observe c1) op2 N2 A2 B3).
    pose proof (step_effect e p c1 (world_after op1 w) W1 He op2 O2 F3) as K3. unfold delivers in K3.
    destruct (effect e p (observe c2) w op2) as [[g1 u2]|]; [destruct K2 as (? & ? & _); congruence|].
    destruct (effect e p (observe c1) (world_after op1 w) op2) as [[f2 u3]|]; [contradiction|]. rewrite K3. exact I.
  - (* the first panics when it comes second *)
    assert (Hcode3 : forall q, in_code a a 4 q = true -> observe c3 q = observe c2 q).
    { intros q Hq. apply U2; [intros ->; discriminate|apply (I5 q Hq)]. }
    assert (F4 : fetches p c3 (encode op1)).
    { apply fetches_word; [lia|lia|]. rewrite Pc3. unfold word_at. rewrite !Hcode3 by (cbn [in_code]; lia). exact Wd2. }
    assert (B4 : forall q, beyond (observe c) op1 q = true -> observe c3 q = observe c q).
    { intros q Hq. rewrite <- (B1 q Hq). assert (N : q <> PPC) by (intros ->; rewrite beyond_no_pc in Hq; discriminate).
      apply U2; [exact N|]. destruct (sets8 (observe c) op2 q) eqn:E; [|reflexivity]. rewrite (I2 q N E) in Hq. discriminate. }
    assert (M1 := effect_moved e p w (world_after op2 w) (observe c) (observe c3) op1 N1 A1 B4).
    pose proof (step_effect e p c3 (world_after op2 w) W3 He op1 O1 F4) as K4. unfold delivers in K4.
    destruct (effect e p (observe c) w op1) as [[f1 u1]|]; [destruct K1 as (? & ? & _); congruence|].
    destruct (effect e p (observe c3) (world_after op2 w) op1) as [[g2 u4]|]; [contradiction|]. rewrite K4. exact I.
Qed.
End Exchange.

(** Two independent instructions, in one order on [c] and in the other on
    [c2]: the machines are the same afterwards but for those two words, having
    asked for the same answers; or both panic. *)
Theorem C97_exchange : forall e p c c2 w op1 op2, env_ok e -> well_formed c -> well_formed c2 ->
  observe c PPC + 4 < 65536 -> operands_ok op1 -> operands_ok op2 ->
  names_no_place op1 = true -> names_no_place op2 = true -> may_skip op1 = false -> may_skip op2 = false ->
  exchanged op1 op2 c c2 -> independent (observe c) op1 op2 (observe c PPC) ->
  match two_steps e p c w, two_steps e p c2 w with
  | Ok (c', w'), Ok (c2', w2') => w2' = w' /\ observe c' PPC = observe c PPC + 4 /\
      (forall q, in_code (observe c PPC) (observe c PPC) 4 q = false -> observe c2' q = observe c' q) /\
      (forall q, in_code (observe c PPC) (observe c PPC) 4 q = true -> observe c' q = observe c q /\ observe c2' q = observe c2 q)
  | Panic, Panic => True
  | _, _ => False
  end.
Proof.
  intros e p c c2 w op1 op2 He W W2 Ha O1 O2 N1 N2 S1 S2 (X1 & X2 & X3 & X4 & X5) I.
  pose proof (exchange e p He c c2 w op1 op2 (observe c PPC) W W2 (proj1 (wf_pc c W)) Ha O1 O2 N1 N2 S1 S2 eq_refl X1 X2 X3 X4 X5 I) as Y.
  destruct (two_steps e p c w) as [[c' w']|], (two_steps e p c2 w) as [[c2' w2']|]; try exact Y.
  destruct Y as (Y1 & Y2 & _ & _ & _ & Y3 & Y4). split; [exact Y1|]. split; [exact Y2|]. split; [exact Y3|exact Y4].
Qed.

(** And whatever the program does then, as long as it does not look at those
    two words again, it does on both, with the same outcome. *)
Theorem C97_exchange_in_program : forall e p c c2 w op1 op2 c' w' ops known' c3 w3, env_ok e -> well_formed c -> well_formed c2 ->
  observe c PPC + 4 < 65536 -> operands_ok op1 -> operands_ok op2 ->
  names_no_place op1 = true -> names_no_place op2 = true -> may_skip op1 = false -> may_skip op2 = false ->
  exchanged op1 op2 c c2 -> independent (observe c) op1 op2 (observe c PPC) ->
  two_steps e p c w = Ok (c', w') ->
  known_run e p (fun q => in_code (observe c PPC) (observe c PPC) 4 q = false) c' w' ops known' c3 w3 ->
  exists mcs c4, iterate e p (2 + length ops) c2 w = Ok (mcs, c4, w3) /\ forall q, known' q -> observe c4 q = observe c3 q.
Proof.
  intros e p c c2 w op1 op2 c' w' ops known' c3 w3 He W W2 Ha O1 O2 N1 N2 S1 S2 (X1 & X2 & X3 & X4 & X5) I E R.
  pose proof (exchange e p He c c2 w op1 op2 (observe c PPC) W W2 (proj1 (wf_pc c W)) Ha O1 O2 N1 N2 S1 S2 eq_refl X1 X2 X3 X4 X5 I) as Y.
  rewrite E in Y. destruct (two_steps e p c2 w) as [[c2' w2']|]; [|contradiction].
  destruct Y as (-> & _ & W' & W2' & Ex & Y3 & _).
  destruct (C87_run e p _ c' w' ops known' c3 w3 c2' He W' W2' R Y3) as (h & c4 & Hm & _ & Ex2 & _ & K).
  destruct (executes_iterate _ _ _ _ _ _ _ (executes_app2 _ _ _ _ _ _ _ Ex _ _ _ Ex2)) as [mcs It].
  exists mcs, c4. split; [|exact K]. rewrite <- It. f_equal. rewrite app_length. cbn [length]. f_equal. f_equal.
  rewrite <- (map_length snd h), Hm, map_length. reflexivity.
Qed.

Print Assumptions C96_one_instruction.
Print Assumptions C96_run.
Print Assumptions C97_exchange.
Print Assumptions C97_exchange_in_program.

(** ** Cases *)
(** For C96: LD V1, 7 / SE V1, 7 / LD V2, 99 / ADD I, V1 / LD [I], V1 at 0x200
    and at 0x20A; four of the five are executed and store at 0x407. *)
Definition moving : list Z := [0x61; 0x07; 0x31; 0x07; 0x62; 0x63; 0xF1; 0x1E; 0xF1; 0x55].
Definition moving_at (n : nat) : chip8 * world :=
  match iterate env0 Debug n (demo (moving ++ moving) [(V0, 5)] 0x400 None) w0 with Ok (_, c, w) => (c, w) | Panic => (demo [] [] 0 None, w0) end.

Lemma moving_step n op : operands_ok op -> names_no_place op = true -> fetches Debug (fst (moving_at n)) (encode op) ->
  step env0 Debug (fst (moving_at n)) (snd (moving_at n)) = Ok (moving_at (Datatypes.S n)) ->
  0x200 <= observe (fst (moving_at n)) PPC -> observe (fst (moving_at n)) PPC + 2 <= 0x200 + 10 ->
  (forall q, in_code 0x200 0x20A 10 q = true ->
    beyond (observe (fst (moving_at n))) op q = false /\ sets8 (observe (fst (moving_at n))) op q = false) ->
  forall k c' w', runs_within env0 Debug 0x200 0x20A 10 (fst (moving_at (Datatypes.S n))) (snd (moving_at (Datatypes.S n))) k c' w' ->
  runs_within env0 Debug 0x200 0x20A 10 (fst (moving_at n)) (snd (moving_at n)) (Datatypes.S k) c' w'.
Proof. intros H1 H2 H3 H4. intros. eapply within_step; try eassumption. rewrite H4. destruct (moving_at (Datatypes.S n)). reflexivity. Qed.

Lemma moving_i3 : observe (fst (moving_at 3)) PI = 0x407. Proof. vm_compute. reflexivity. Qed.
Lemma moving_0 : moving_at 0 = (demo (moving ++ moving) [(V0, 5)] 0x400 None, w0).
Proof. vm_compute. reflexivity. Qed.
Lemma moving_4 : observe (fst (moving_at 4)) PPC = 0x20A /\ observe (fst (moving_at 4)) (PMem 0x407) = 5 /\ observe (fst (moving_at 4)) (PMem 0x408) = 7.
Proof. split; [|split]; vm_compute; reflexivity. Qed.

Lemma moving_runs : runs_within env0 Debug 0x200 0x20A 10 (fst (moving_at 0)) (snd (moving_at 0)) 4 (fst (moving_at 4)) (snd (moving_at 4)).
Proof.
  apply moving_step with (op := LdImmediate V1 7).
  1: (cbn; unfold u8; lia). 1: reflexivity. 1: (split; [right; vm_compute; reflexivity|vm_compute; reflexivity]).
  1: (vm_compute; reflexivity). 1: (vm_compute; discriminate). 1: (vm_compute; discriminate). 1: (intros []; cbn; try discriminate; split; reflexivity).
  apply moving_step with (op := SeImmediate V1 7).
  1: (cbn; unfold u8; lia). 1: reflexivity. 1: (split; [right; vm_compute; reflexivity|vm_compute; reflexivity]).
  1: (vm_compute; reflexivity). 1: (vm_compute; discriminate). 1: (vm_compute; discriminate). 1: (intros []; cbn; try discriminate; split; reflexivity).
  apply moving_step with (op := AddIRegisterIndexed V1).
  1: exact I. 1: reflexivity. 1: (split; [right; vm_compute; reflexivity|vm_compute; reflexivity]).
  1: (vm_compute; reflexivity). 1: (vm_compute; discriminate). 1: (vm_compute; discriminate). 1: (intros []; cbn; try discriminate; split; reflexivity).
  apply moving_step with (op := StoreRegistersToMemory V1).
  1: exact I. 1: reflexivity. 1: (split; [right; vm_compute; reflexivity|vm_compute; reflexivity]).
  1: (vm_compute; reflexivity). 1: (vm_compute; discriminate). 1: (vm_compute; discriminate).
  1: (intros q; unfold beyond, sets8; rewrite moving_i3; destruct q; cbn [in_code part_eqb gp_index orb]; try discriminate; intros H; lia).
  apply within_none.
Qed.

Lemma set_pc_wf c v : well_formed c -> u16 v -> well_formed (set_pc c v).
Proof. intros [] H. constructor; assumption. Qed.

Example C96_case : let c := demo (moving ++ moving) [(V0, 5)] 0x400 None in
  exists mcs c2' w', iterate env0 Debug 4 (set_pc c 0x20A) w0 = Ok (mcs, c2', w') /\
    observe c2' PPC = 0x214 /\ observe c2' (PMem 0x407) = 5 /\ observe c2' (PMem 0x408) = 7.
Proof.
  intros c. pose proof moving_runs as X. pose proof moving_4 as V.
  assert (W : well_formed (fst (moving_at 0))) by (rewrite moving_0; apply demo_wf; vm_compute; reflexivity).
  assert (P : observe (fst (moving_at 0)) PPC = 0x200) by (vm_compute; reflexivity).
  assert (K : map (fun k => observe (fst (moving_at 0)) (PMem (0x20A + Z.of_nat k))) (seq 0 10) =
              map (fun k => observe (fst (moving_at 0)) (PMem (0x200 + Z.of_nat k))) (seq 0 10)) by (vm_compute; reflexivity).
  replace c with (fst (moving_at 0)) by (rewrite moving_0; exact (eq_refl c)). replace w0 with (snd (moving_at 0)) by (rewrite moving_0; reflexivity).
  clear c. revert X V W P K. generalize (moving_at 0) (moving_at 4). intros [c w] [c4 w4] X (V0 & V1 & V2) W P K. cbn [fst snd] in *.
  destruct (C96_run env0 Debug 0x200 0x20A 10 c w 4 c4 w4 (set_pc c 0x20A) env0_ok W) as (mcs & mcs2 & c2' & _ & E & Q1 & _ & Q3);
    try lia; try exact X.
  - apply set_pc_wf; [exact W|unfold u16; lia].
  - cbn [observe set_pc c8_pc] in *. lia.
  - intros k Hk. apply (f_equal (fun l => nth (Z.to_nat k) l 0)) in K.
    rewrite (nth_indep _ 0 (observe c (PMem (0x20A + Z.of_nat 0)))) in K by (rewrite map_length, seq_length; lia).
    rewrite (map_nth (fun k => observe c (PMem (0x20A + Z.of_nat k)))) in K.
    rewrite (nth_indep _ 0 (observe c (PMem (0x200 + Z.of_nat 0)))) in K by (rewrite map_length, seq_length; lia).
    rewrite (map_nth (fun k => observe c (PMem (0x200 + Z.of_nat k)))) in K.
    rewrite seq_nth in K by lia. cbn [Nat.add] in K. rewrite Z2Nat.id in K by lia. exact K.
  - intros q N _. destruct q; try reflexivity. congruence.
  - exists mcs2, c2', w4. split; [exact E|]. rewrite (Q3 (PMem 0x407)), (Q3 (PMem 0x408)) by (discriminate || reflexivity). split; [lia|]. split; [exact V1|exact V2].
Qed.

(** For C97: any machine with two instructions at the program counter has a
    counterpart with the two exchanged. *)
Lemma counterpart c op1 op2 : well_formed c -> observe c PPC <= 0xffc ->
  word_at c (observe c PPC) = encode op1 -> word_at c (observe c PPC + 2) = encode op2 ->
  exists c2, well_formed c2 /\ exchanged op1 op2 c c2.
Proof.
  intros W Ha H1 H2. assert (Hpc := wf_pc c W : u16 (observe c PPC)). set (a := observe c PPC) in *. unfold u16 in Hpc.
  assert (U := observe_mem_u8 c).
  destruct (ex_mem Debug c a (observe c (PMem (a + 2))) W ltac:(lia) (U _ W)) as (c1 & _ & (W1 & L1) & _).
  destruct (ex_mem Debug c1 (a + 1) (observe c (PMem (a + 3))) W1 ltac:(lia) (U _ W)) as (c2 & _ & (W2 & L2) & _).
  destruct (ex_mem Debug c2 (a + 2) (observe c (PMem a)) W2 ltac:(lia) (U _ W)) as (c3 & _ & (W3 & L3) & _).
  destruct (ex_mem Debug c3 (a + 3) (observe c (PMem (a + 1))) W3 ltac:(lia) (U _ W)) as (c4 & _ & (W4 & L4) & _).
  assert (L : forall b, observe c4 (PMem b) = if a + 3 =? b then observe c (PMem (a + 1)) else if a + 2 =? b then observe c (PMem a)
    else if a + 1 =? b then observe c (PMem (a + 3)) else if a =? b then observe c (PMem (a + 2)) else observe c (PMem b)).
  { intros b. rewrite (L4 (PMem b)). unfold upd. cbn [part_eqb]. destruct (a + 3 =? b); [reflexivity|].
    rewrite (L3 (PMem b)). unfold upd. cbn [part_eqb]. destruct (a + 2 =? b); [reflexivity|].
    rewrite (L2 (PMem b)). unfold upd. cbn [part_eqb]. destruct (a + 1 =? b); [reflexivity|].
    rewrite (L1 (PMem b)). unfold upd. cbn [part_eqb]. destruct (a =? b); reflexivity. }
  exists c4. split; [exact W4|]. unfold exchanged, word_at in *. fold a. replace (a + 2 + 1) with (a + 3) in * by lia.
  split; [exact H1|]. split; [exact H2|]. split; [|split].
  - rewrite !L. replace (a + 3 =? a) with false by lia. replace (a + 2 =? a) with false by lia. replace (a + 1 =? a) with false by lia.
    replace (a + 3 =? a + 1) with false by lia. replace (a + 2 =? a + 1) with false by lia. rewrite !Z.eqb_refl. exact H2.
  - rewrite !L. replace (a + 3 =? a + 2) with false by lia. rewrite !Z.eqb_refl. exact H1.
  - intros q Hq. destruct q; try (rewrite L4; unfold upd; cbn [part_eqb]; rewrite L3; unfold upd; cbn [part_eqb];
      rewrite L2; unfold upd; cbn [part_eqb]; rewrite L1; reflexivity).
    rewrite L. cbn [in_code] in Hq. replace (a + 3 =? a0) with false by lia. replace (a + 2 =? a0) with false by lia.
    replace (a + 1 =? a0) with false by lia. replace (a =? a0) with false by lia. reflexivity.
Qed.

(** LD V1, DT / RND V2, 255 and then ADD I, V1. *)
Definition asking : chip8 := demo [0xF1; 0x07; 0xC2; 0xFF; 0xF1; 0x1E] [(V1, 9)] 0x400 None.
Lemma asking_pc : observe asking PPC = 0x200. Proof. vm_compute. reflexivity. Qed.
Lemma asking_independent f a : independent f (LdDelayTimerSrcTx V1) (Rnd V2 255) a.
Proof.
  unfold independent, beyond, sets8, is_reg.
  split; [intros []; cbn [part_eqb orb gp_index]; try discriminate; try congruence; intros; split; lia|].
  split; [intros []; cbn [part_eqb orb gp_index]; try discriminate; try congruence; intros; lia|].
  split; [reflexivity|]. split; [reflexivity|]. intros []; cbn [part_eqb orb in_code]; try discriminate; repeat split; reflexivity.
Qed.
Example C97_case : exists c2, well_formed asking /\ well_formed c2 /\
  exchanged (LdDelayTimerSrcTx V1) (Rnd V2 255) asking c2 /\
  independent (observe asking) (LdDelayTimerSrcTx V1) (Rnd V2 255) (observe asking PPC) /\
  exists c' w', two_steps env0 Debug asking w0 = Ok (c', w') /\ exists c'' w'',
  known_run env0 Debug (fun q => in_code (observe asking PPC) (observe asking PPC) 4 q = false) c' w' [AddIRegisterIndexed V1]
    (fun q => in_code (observe asking PPC) (observe asking PPC) 4 q = false) c'' w''.
Proof.
  assert (W : well_formed asking) by (apply demo_wf; vm_compute; reflexivity).
  assert (T : match two_steps env0 Debug asking w0 with
    | Ok (c', w') => observe c' PPC = 0x204 /\ fetches Debug c' (encode (AddIRegisterIndexed V1)) /\
        match step env0 Debug c' w' with Ok _ => True | Panic => False end
    | Panic => False end) by (vm_compute; split; [reflexivity|split; [split; [right; reflexivity|reflexivity]|exact I]]).
  destruct (counterpart asking (LdDelayTimerSrcTx V1) (Rnd V2 255) W) as (c2 & W2 & X);
    [rewrite asking_pc; lia|rewrite asking_pc; vm_compute; reflexivity|rewrite asking_pc; vm_compute; reflexivity|].
  exists c2. split; [exact W|]. split; [exact W2|]. split; [exact X|]. split.
  { apply asking_independent. }
  destruct (two_steps env0 Debug asking w0) as [[c' w']|]; [|contradiction]. exists c', w'. split; [reflexivity|].
  destruct T as (P & F & S). destruct (step env0 Debug c' w') as [[c'' w'']|] eqn:E; [|contradiction]. exists c'', w''.
  eapply known_step with (op := AddIRegisterIndexed V1) (known1 := fun q => in_code (observe asking PPC) (observe asking PPC) 4 q = false);
    [exact I|exact F|exact E| |intros q Hq; left; exact Hq|apply known_none].
  rewrite asking_pc. intros q. unfold looks_at8, own_bytes. rewrite P. change ((0x204 + 1) mod 65536) with 0x205.
  destruct q; cbn [in_code beyond part_eqb is_reg orb]; try reflexivity. lia.
Qed.
