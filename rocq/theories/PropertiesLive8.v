(** C87: parts of a CHIP-8 machine that are set before they are looked at do not matter. *)
From Verif Require Import Base Arith ModelMap ModelStep ModelDisplay ModelChip8 ModelOpsChip8 ModelRunChip8 SpecMap Link6502
  SpecChip8 SpecChip8Parts ProofChip8 ProofChip8Step ProofChip8Reach SpecReference8 ProofReference8 SpecLive8.

Lemma part_eqb_refl q : part_eqb q q = true.
Proof. destruct q; cbn [part_eqb]; rewrite ?Z.eqb_refl; reflexivity. Qed.
Lemma part_eqb_true q q' : part_eqb q q' = true -> q = q'.
Proof.
  destruct q, q'; cbn [part_eqb]; try discriminate; try reflexivity; intros H.
  all: try (apply Z.eqb_eq in H; subst; reflexivity).
  apply andb_true_iff in H. destruct H as [H1 H2]. apply Z.eqb_eq in H1, H2. subst. reflexivity.
Qed.

(** ** The effect of an instruction depends on what it looks at *)
Section Effect.
Variables (e : environment) (p : profile) (w : world).

Definition follows_known (f g : part -> Z) (op : opcode) : Prop :=
  match effect e p f w op, effect e p g w op with
  | Some (f', w1), Some (g', w2) => w1 = w2 /\ forall q, (sets8 f op q = true -> f' q = g' q) /\
      (sets8 f op q = false -> f' q = f q /\ g' q = g q)
  | None, None => True
  | _, _ => False
  end.

Lemma effect_known f g op : (forall q, looks_at8 f op q = true -> g q = f q) -> follows_known f g op.
Proof.
  intros H. unfold follows_known.
  assert (Hpc : g PPC = f PPC) by (apply H; reflexivity).
  assert (R : forall r, looks_at8 f op (PV (gp_index r)) = true -> v g r = v f r) by (intros r Hr; apply H, Hr).
  assert (Rr : forall r, is_reg r (PV (gp_index r)) = true) by (intros r; apply part_eqb_refl).
  assert (Dv : forall r, f (PV (gp_index r)) = v f r) by reflexivity.
  Local Ltac look := unfold looks_at8, beyond, own_bytes, is_reg; cbn [part_eqb]; rewrite ?Z.eqb_refl, ?Bool.orb_true_r; reflexivity.
  Local Ltac cond := repeat match goal with |- context [needs ?b _] => destruct b; cbn [needs] end.
  Local Ltac fin Hpc := split; [congruence|]; let q := fresh in intros q; unfold sets8, is_reg, advance, upd; destruct q;
    cbn [part_eqb orb andb negb]; rewrite ?Hpc;
    repeat match goal with |- context [if ?b then _ else _] => let E := fresh in destruct b eqn:E end;
    (split; intros; try (split; reflexivity); try reflexivity; try discriminate; try lia).
  destruct op; cbn [effect]; try exact I;
    try (rewrite !R by look); try (rewrite (H PI) by look); try (rewrite (H PKey) by look);
    try (rewrite (H PSP) by look); try (rewrite (H PDelay) by look); try (rewrite (H PDelayAt) by look);
    unfold done; cond; try exact I; try solve [fin Hpc].
  - rewrite (H (PStack (f PSP))) by look. fin Hpc.
  - destruct (f PKey =? -1) eqn:Ek; [|fin Hpc].
    split; [reflexivity|]. intros q. unfold sets8, advance, upd. rewrite Ek, Bool.andb_false_r, Hpc.
    destruct q; cbn [part_eqb orb]; (split; intros; try (split; reflexivity); try reflexivity; discriminate).
  - destruct (f PKey =? -1) eqn:Ek; [|exact I].
    split; [reflexivity|]. intros q. unfold sets8, advance, upd. rewrite Ek, Bool.andb_false_r, Hpc.
    destruct q; cbn [part_eqb orb]; (split; intros; try (split; reflexivity); try reflexivity; discriminate).
  - split; [reflexivity|]. intros q. unfold sets8, advance, upd.
    destruct q as [ | | |k| | | | | | | |]; cbn [part_eqb orb]; rewrite ?Hpc;
      try (split; intros; try (split; reflexivity); try reflexivity; discriminate).
    destruct ((0 <=? k) && (k <=? gp_index r)) eqn:Ek; [|split; intros; try (split; reflexivity); discriminate].
    split; [|discriminate]. intros _. symmetry. apply H. unfold looks_at8, beyond. apply Bool.orb_true_iff. right. cbn [part_eqb orb].
    pose proof (gp_index_range r). rewrite Zminus_mod_idemp_l.
    replace (f PI + k - f PI) with k by lia. rewrite Z.mod_small by lia. lia.
  - split; [reflexivity|]. intros q. unfold sets8, advance, upd.
    destruct q as [ | | | | |a| | | | | |]; cbn [part_eqb orb]; rewrite ?Hpc;
      try (split; intros; try (split; reflexivity); try reflexivity; discriminate).
    destruct ((f PI <=? a) && (a <=? f PI + gp_index r)) eqn:Ek; [|split; intros; try (split; reflexivity); discriminate].
    split; [|discriminate]. intros _. symmetry. apply H. unfold looks_at8, beyond. apply Bool.orb_true_iff. right. cbn [part_eqb orb]. lia.
Qed.
End Effect.

(** ** C87 *)
Lemma fetches_known p c c2 op word : well_formed c -> fetches p c word ->
  (forall q, looks_at8 (observe c) op q = true -> observe c2 q = observe c q) -> fetches p c2 word.
Proof.
  intros W [H1 H2] H. unfold fetches. rewrite (H PPC) by reflexivity.
  rewrite (H (PMem (observe c PPC))), (H (PMem ((observe c PPC + 1) mod 65536))); [split; assumption| |];
    unfold looks_at8, beyond, own_bytes; rewrite Z.eqb_refl, ?Bool.orb_true_r; reflexivity.
Qed.

(** Two machines that agree on what the next instruction looks at: it does the
    same to whatever it sets and leaves the rest alone, at the same time, on
    both; or it panics on both. *)
Theorem C87_one_instruction : forall e p c c2 w op, env_ok e -> well_formed c -> well_formed c2 ->
  operands_ok op -> fetches p c (encode op) ->
  (forall q, looks_at8 (observe c) op q = true -> observe c2 q = observe c q) ->
  match step e p c w, step e p c2 w with
  | Ok (c', w'), Ok (c2', w2') => w2' = w' /\
      (forall q, sets8 (observe c) op q = true -> observe c2' q = observe c' q) /\
      (forall q, sets8 (observe c) op q = false -> observe c' q = observe c q /\ observe c2' q = observe c2 q)
  | Panic, Panic => True
  | _, _ => False
  end.
Proof.
  intros e p c c2 w op He W W2 Hop Hf H.
  pose proof (step_effect e p c w W He op Hop Hf) as K. pose proof (step_effect e p c2 w W2 He op Hop (fetches_known _ _ _ _ _ W Hf H)) as K2.
  pose proof (effect_known e p w (observe c) (observe c2) op H) as X. unfold follows_known in X. unfold delivers in K, K2.
  destruct (effect e p (observe c) w op) as [[f' w1]|], (effect e p (observe c2) w op) as [[g' w2]|]; try contradiction.
  - destruct K as (c' & E & _ & L), K2 as (c2' & E2 & _ & L2). rewrite E, E2. destruct X as [<- X]. split; [reflexivity|].
    split; intros q Hq; rewrite (L q), (L2 q); [symmetry|]; apply X, Hq.
  - rewrite K, K2. exact I.
Qed.

(** Any number of instructions: if they look only at what is known, a machine
    that agrees on what is known executes the same instructions, asks the
    clock and the random number generator as often, and agrees in the end on
    everything that was known or set. *)
Theorem C87_run : forall e p known c w ops known' c' w' c2, env_ok e -> well_formed c -> well_formed c2 ->
  known_run e p known c w ops known' c' w' ->
  (forall q, known q -> observe c2 q = observe c q) ->
  exists h c2', map snd h = map encode ops /\ executes e p c w h c' w' /\ executes e p c2 w h c2' w' /\
    (exists mcs, iterate e p (length ops) c2 w = Ok (mcs, c2', w')) /\
    forall q, known' q -> observe c2' q = observe c' q.
Proof.
  intros e p known c w ops known' c' w' c2 He W W2 X H.
  assert (K : exists h c2', map snd h = map encode ops /\ executes e p c w h c' w' /\ executes e p c2 w h c2' w' /\
    forall q, known' q -> observe c2' q = observe c' q).
  { revert c2 W2 H. induction X as [known c w|known known1 c w op ops c1 w1 known' c' w' Hop Hf Es Hk Hk1 X IH]; intros c2 W2 H.
    - exists [], c2. split; [reflexivity|]. split; [constructor|]. split; [constructor|exact H].
    - assert (H1 : forall q, looks_at8 (observe c) op q = true -> observe c2 q = observe c q) by (intros q Hq; apply H, Hk, Hq).
      pose proof (C87_one_instruction e p c c2 w op He W W2 Hop Hf H1) as Y. rewrite Es in Y.
      destruct (step e p c2 w) as [[c21 w21]|] eqn:Es2; [|contradiction]. destruct Y as (-> & Y1 & Y2).
      assert (Hf2 := fetches_known _ _ _ _ _ W Hf H1).
      assert (G : forall c w c1 w1, well_formed c -> fetches p c (encode op) -> step e p c w = Ok (c1, w1) -> well_formed c1).
      { clear - He Hop. intros c w c1 w1 W Hf Es. pose proof (step_effect e p c w W He op Hop Hf) as K. unfold delivers in K.
        destruct (effect e p (observe c) w op) as [[f' w']|]; [|congruence]. destruct K as (c' & E & W' & _). congruence. }
      destruct (IH (G _ _ _ _ W Hf Es) c21 (G _ _ _ _ W2 Hf2 Es2)) as (h & c2' & Hm & X1 & X2 & Y).
      + intros q Hq. destruct (sets8 (observe c) op q) eqn:Eq; [apply Y1, Eq|].
        destruct (Y2 q Eq) as [A B]. rewrite A, B. apply H. destruct (Hk1 q Hq) as [K|K]; [exact K|congruence].
      + exists ((observe c PPC, encode op) :: h), c2'. split; [cbn [map snd]; rewrite Hm; reflexivity|].
        split; [econstructor; eassumption|]. split; [|exact Y].
        assert (Epc : observe c2 PPC = observe c PPC) by (apply H1; reflexivity). rewrite <- Epc. econstructor; eassumption. }
  destruct K as (h & c2' & Hm & X1 & X2 & Y). exists h, c2'. split; [exact Hm|]. split; [exact X1|]. split; [exact X2|].
  split; [|exact Y]. destruct (executes_iterate _ _ _ _ _ _ _ X2) as [mcs E]. exists mcs.
  rewrite <- E. f_equal. rewrite <- (map_length snd h), Hm, map_length. reflexivity.
Qed.

(** ** A case
    LD V1, 7 / LD I, 0x300 / LD [I], V1: V0 is looked at before it is set, V1
    and I are not; nor is anything in memory but the code. *)
Definition storing : list Z := [0x61; 0x07; 0xA3; 0x00; 0xF1; 0x55].
Definition storing_ops : list opcode := [LdImmediate V1 7; LdAbsolute 0x300; StoreRegistersToMemory V1].
(** Known: the code, the program counter, V0 up to [v - 1], I if [i], and the
    [m] bytes from 0x300. *)
Definition storing_known (v : Z) (i : bool) (m : Z) (q : part) : Prop :=
  match q with
  | PPC => true
  | PV x => (0 <=? x) && (x <? v)
  | PI => i
  | PMem a => (0x200 <=? a) && (a <? 0x206) || (0x300 <=? a) && (a <? 0x300 + m)
  | _ => false
  end = true.

Definition after (n : nat) : chip8 * world :=
  match iterate env0 Debug n (demo storing [(V0, 5)] 0x123 None) w0 with Ok (_, c, w) => (c, w) | Panic => (demo [] [] 0 None, w0) end.

Lemma storing_step n op : operands_ok op -> fetches Debug (fst (after n)) (encode op) ->
  step env0 Debug (fst (after n)) (snd (after n)) = Ok (after (Datatypes.S n)) ->
  forall (known known1 : part -> Prop) ops known' c' w',
  (forall q, looks_at8 (observe (fst (after n))) op q = true -> known q) ->
  (forall q, known1 q -> known q \/ sets8 (observe (fst (after n))) op q = true) ->
  known_run env0 Debug known1 (fst (after (Datatypes.S n))) (snd (after (Datatypes.S n))) ops known' c' w' ->
  known_run env0 Debug known (fst (after n)) (snd (after n)) (op :: ops) known' c' w'.
Proof. intros H1 H2 H3. intros. eapply known_step; try eassumption. rewrite H3. destruct (after (Datatypes.S n)). reflexivity. Qed.

Lemma after_pc0 : observe (fst (after 0)) PPC = 0x200. Proof. vm_compute. reflexivity. Qed.
Lemma after_pc1 : observe (fst (after 1)) PPC = 0x202. Proof. vm_compute. reflexivity. Qed.
Lemma after_pc2 : observe (fst (after 2)) PPC = 0x204. Proof. vm_compute. reflexivity. Qed.
Lemma after_i2 : observe (fst (after 2)) PI = 0x300. Proof. vm_compute. reflexivity. Qed.

Local Ltac known_part :=
  intros q; unfold looks_at8, beyond, sets8, own_bytes, is_reg; rewrite ?after_pc0, ?after_pc1, ?after_pc2, ?after_i2;
  unfold storing_known; destruct q; cbn [part_eqb gp_index orb andb]; lia.

Lemma storing_run : known_run env0 Debug (storing_known 1 false 0) (fst (after 0)) (snd (after 0)) storing_ops
  (storing_known 2 true 2) (fst (after 3)) (snd (after 3)).
Proof.
  unfold storing_ops.
  apply storing_step with (known1 := storing_known 2 false 0).
  1: cbn; unfold u8; lia. 1: (split; [right; vm_compute; reflexivity|vm_compute; reflexivity]). 1: (vm_compute; reflexivity).
  1: known_part. 1: known_part.
  apply storing_step with (known1 := storing_known 2 true 0).
  1: cbn; unfold u8; lia. 1: (split; [right; vm_compute; reflexivity|vm_compute; reflexivity]). 1: (vm_compute; reflexivity).
  1: known_part. 1: known_part.
  apply storing_step with (known1 := storing_known 2 true 2).
  1: cbn; unfold u8; lia. 1: (split; [right; vm_compute; reflexivity|vm_compute; reflexivity]). 1: (vm_compute; reflexivity).
  1: known_part. 1: known_part.
  apply known_none.
Qed.
Lemma after_0 : after 0 = (demo storing [(V0, 5)] 0x123 None, w0).
Proof. vm_compute. reflexivity. Qed.
Lemma after_3 : observe (fst (after 3)) (PV 1) = 7 /\ observe (fst (after 3)) (PMem 0x300) = 5 /\ observe (fst (after 3)) (PMem 0x301) = 7.
Proof. split; [|split]; vm_compute; reflexivity. Qed.

Example C87_storing : forall c2, well_formed c2 ->
  (forall q, storing_known 1 false 0 q -> observe c2 q = observe (demo storing [(V0, 5)] 0x123 None) q) ->
  exists mcs c2' w', iterate env0 Debug 3 c2 w0 = Ok (mcs, c2', w') /\
    observe c2' (PV 1) = 7 /\ observe c2' (PMem 0x300) = 5 /\ observe c2' (PMem 0x301) = 7.
Proof.
  intros c2 W2 H. pose proof storing_run as X. pose proof after_3 as V.
  assert (W : well_formed (fst (after 0))) by (rewrite after_0; apply demo_wf; vm_compute; reflexivity).
  replace (demo storing [(V0, 5)] 0x123 None) with (fst (after 0)) in H by (rewrite after_0; reflexivity).
  replace w0 with (snd (after 0)) by (rewrite after_0; reflexivity).
  revert X V W H. generalize (after 0) (after 3). intros [c w] [c3 w3] X (V1 & V2 & V3) W H.
  destruct (C87_run _ _ _ _ _ _ _ _ _ c2 env0_ok W W2 X H) as (h & c2' & _ & _ & _ & (mcs & E) & K).
  exists mcs, c2', w3. split; [exact E|].
  rewrite (K (PV 1) eq_refl), (K (PMem 0x300) eq_refl), (K (PMem 0x301) eq_refl). split; [exact V1|]. split; [exact V2|exact V3].
Qed.

Print Assumptions C87_one_instruction.
Print Assumptions C87_run.
