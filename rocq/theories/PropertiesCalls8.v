(** C128: a CHIP-8 routine that is called is executed again and again, and the
    instruction behind the call never. *)
From Verif Require Import Base Arith ModelMap ModelStep ModelDisplay ModelChip8 ModelOpsChip8 ModelRunChip8 SpecMap Link6502
  SpecChip8 SpecChip8Parts SpecChip8Run ProofChip8 ProofChip8Step ProofChip8Reach ProofChip8Run
  SpecRoutines8 ProofRoutines8 PropertiesRoutines8 SpecReplace8 PropertiesReplace8 SpecLanguage8 ProofLanguage8 PropertiesLanguage8 SpecCalls8.

(** ** Proof *)
(** Instructions that do not jump leave the stack alone. *)
Lemma effect_stack e p s w op s' w' : jumps_not op -> effect e p s w op = Some (s', w') ->
  s' PSP = s PSP /\ forall i, s' (PStack i) = s (PStack i).
Proof.
  intros J E. destruct op; cbn [jumps_not] in J; try contradiction; cbn [effect] in E; unfold needs, done, tick in E;
    repeat match type of E with (if ?b then _ else _) = _ => destruct b end; try discriminate E;
    inversion E; subst; split; intros; reflexivity.
Qed.
Lemma ends8_stack e p lo hi c s w s' w' : ends8 e p lo hi c s w s' w' -> good8 c -> s' PSP = s PSP /\ forall i, s' (PStack i) = s (PStack i).
Proof.
  induction 1 as [s w|op s w s' w' E Sp|c1 c2 s w s1 w1 s2 w2 E1 IH1 E2 IH2|b c1 c2 s w s' w' E IH|b c s w Hb|b c s w s1 w1 s2 w2 Hb E1 IH1 E2 IH2];
    cbn [good8]; intros G.
  - split; intros; reflexivity.
  - exact (effect_stack _ _ _ _ _ _ _ (proj2 G) E).
  - destruct (IH1 (proj1 G)) as [A1 B1], (IH2 (proj2 G)) as [A2 B2]. split; [congruence|intros; rewrite B2; apply B1].
  - apply IH. destruct (holds b s); apply G.
  - split; intros; reflexivity.
  - destruct (IH1 (proj2 G)) as [A1 B1], (IH2 G) as [A2 B2]. split; [congruence|intros; rewrite B2; apply B1].
Qed.
Lemma ends8_spares e p lo hi c s w s' w' : ends8 e p lo hi c s w s' w' -> spares lo hi s s'.
Proof.
  induction 1 as [s w|op s w s' w' E Sp|c1 c2 s w s1 w1 s2 w2 E1 IH1 E2 IH2|b c1 c2 s w s' w' E IH|b c s w Hb|b c s w s1 w1 s2 w2 Hb E1 IH1 E2 IH2];
    intros a Ha; try reflexivity; try (exact (Sp a Ha)); try (exact (IH a Ha)); rewrite (IH2 a Ha); exact (IH1 a Ha).
Qed.

Section Calls.
Context (e : environment) (p : profile) (He : env_ok e) (L S : Z) (routine : structured) (c0 : chip8).
Context (H0 : about_to_call8 c0 L S routine).
Let hi := ret_at S routine.
Let text := fun a => observe c0 (PMem a).

(** The machine is at the beginning of the routine, looks like [s] and will
    return to the CALL. *)
Definition entered (s : part -> Z) (m : chip8) : Prop :=
  well_formed m /\ observe m PPC = S /\ alike s (observe m) /\ s (PStack (s PSP)) = L /\
  (forall a, L <= a < L + 2 \/ S <= a < hi + 2 -> s (PMem a) = text a).

Lemma placed : 0 <= S /\ hi < 4096 /\ placed8 S hi text S routine.
Proof.
  destruct H0 as (_ & _ & _ & (La & _ & Ld) & Hh & G). fold hi in Hh. split; [exact La|]. split; [lia|].
  split; [|split; [lia|split; [unfold hi, ret_at; lia|exact G]]]. exact (proj1 (coded_app text S _ _ Ld)).
Qed.
Lemma entered_state s m : entered s m -> state8 S hi text s m /\ observe m PPC = S.
Proof.
  intros (W & Hp & A & _ & T). split; [|exact Hp]. split; [exact W|]. split; [exact A|].
  intros a Ha. rewrite (A (PMem a)) by discriminate. apply T. lia.
Qed.

Lemma one_step m w op f w' : well_formed m -> operands_ok op -> fetches p m (encode op) -> effect e p (observe m) w op = Some (f, w') ->
  exists m', instructions e p 1 m w m' w' /\ well_formed m' /\ looks m' f.
Proof.
  intros W Ho F E. pose proof (step_effect e p m w W He op Ho F) as X. rewrite E in X. destruct X as (m' & Es & W' & Lk).
  exists m'. split; [exact (instructions_one _ _ _ _ _ _ _ F Es)|]. split; assumption.
Qed.

(** CALL. *)
Lemma call_enters s m w : well_formed m -> observe m PPC = L -> alike s (observe m) ->
  (forall a, L <= a < L + 2 \/ S <= a < hi + 2 -> s (PMem a) = text a) ->
  exists m', instructions e p 1 m w m' w /\ entered (called L s) m'.
Proof.
  intros W Hp A T. destruct H0 as (_ & _ & (La & Lb & Ld) & (Sa & _ & _) & Hh & _). cbn [length] in Lb.
  pose proof (bytes_nonneg (translate S routine)). unfold ret_at in Hh.
  assert (F : fetches p m (encode (Call S))).
  { split; [right; lia|]. rewrite Hp, (Z.mod_small (L + 1)) by lia. rewrite !(A (PMem _)) by discriminate. rewrite !T by lia.
    pose proof (Ld 0%nat (Call S) eq_refl) as K. replace (L + 2 * Z.of_nat 0) with L in K by lia. symmetry. exact K. }
  destruct (one_step m w (Call S) _ w W ltac:(cbn [operands_ok]; lia) F eq_refl) as (m' & X & W' & Lk).
  exists m'. split; [exact X|]. split; [exact W'|]. split; [rewrite Lk; reflexivity|].
  assert (Es : s PSP = observe m PSP) by (symmetry; apply A; discriminate).
  split; [|split].
  - intros q Hq. rewrite Lk. unfold called. rewrite Es, <- Hp. unfold upd at 1. destruct (part_eqb PPC q) eqn:Eq.
    { exfalso. apply Hq. destruct q; try discriminate Eq. reflexivity. }
    unfold upd. destruct (part_eqb (PStack (observe m PSP)) q); [reflexivity|]. apply A. exact Hq.
  - unfold called, upd. cbn [part_eqb]. rewrite Z.eqb_refl. reflexivity.
  - intros a Ha. unfold called, upd. cbn [part_eqb]. exact (T a Ha).
Qed.

(** RET. *)
Lemma ret_returns s m w : well_formed m -> observe m PPC = hi -> alike s (observe m) -> s (PStack (s PSP)) = L ->
  (forall a, S <= a < hi + 2 -> s (PMem a) = text a) ->
  exists m', instructions e p 1 m w m' w /\ well_formed m' /\ observe m' PPC = L /\ alike s (observe m').
Proof.
  intros W Hp A St T. destruct placed as (Sa & Hh & _). destruct H0 as (_ & _ & _ & (_ & _ & Ld) & Hh2 & _).
  pose proof (bytes_nonneg (translate S routine)).
  assert (F : fetches p m (encode Ret)).
  { split; [right; lia|]. fold hi in Hh2. rewrite Hp, (Z.mod_small (hi + 1)) by (unfold hi, ret_at in *; lia).
    rewrite !(A (PMem _)) by discriminate. rewrite !T by (unfold hi, ret_at in *; lia).
    pose proof (proj2 (coded_app text S _ _ Ld) 0%nat Ret eq_refl) as K. fold (ret_at S routine) in K. fold hi in K.
    replace (hi + 2 * Z.of_nat 0) with hi in K by lia. symmetry. exact K. }
  destruct (one_step m w Ret _ w W I F eq_refl) as (m' & X & W' & Lk).
  exists m'. split; [exact X|]. split; [exact W'|]. split.
  - rewrite Lk. unfold upd. cbn [part_eqb]. rewrite (A PSP), (A (PStack _)) by discriminate. exact St.
  - intros q Hq. rewrite Lk. unfold upd. destruct (part_eqb PPC q) eqn:Eq.
    { exfalso. apply Hq. destruct q; try discriminate Eq. reflexivity. }
    apply A. exact Hq.
Qed.

Lemma part_eqb_true a b : part_eqb a b = true -> a = b.
Proof. destruct a, b; cbn [part_eqb]; intros H; try discriminate H; try reflexivity; f_equal; lia. Qed.

(** Around once: through the routine to its RET, to the CALL, and in again. *)
Lemma around s m w s' w' : entered s m -> round e p S routine s w s' w' -> keeps_calling L S routine s s' ->
  exists k m1 m2 m3, stays8 e p S hi k m w m1 w' /\ observe m1 PPC = hi /\
    instructions e p 1 m1 w' m2 w' /\ observe m2 PPC = L /\ instructions e p 1 m2 w' m3 w' /\ entered s' m3.
Proof.
  intros En E (K1 & K2). destruct placed as (Sa & Hh & Pl). destruct (entered_state s m En) as (St & Hp).
  unfold round in E. fold hi in E, K2.
  destruct (cmd_executes8 e p He S hi text Sa Hh _ _ _ _ _ E S Pl m St Hp) as (k & m1 & X & (W1 & A1 & _) & P1).
  destruct En as (_ & _ & _ & Sk & T). destruct (ends8_stack _ _ _ _ _ _ _ _ _ E ltac:(apply H0)) as (Q1 & Q2).
  pose proof (ends8_spares _ _ _ _ _ _ _ _ _ E) as Sp.
  assert (T' : forall a, L <= a < L + 2 \/ S <= a < hi + 2 -> s' (PMem a) = text a).
  { intros a Ha. rewrite <- (T a Ha). destruct Ha as [Ha|Ha]; [exact (K1 a Ha)|].
    destruct (Z_lt_ge_dec a hi); [apply Sp; lia|apply K2; lia]. }
  assert (Sk' : s' (PStack (s' PSP)) = L) by (rewrite Q1, Q2; exact Sk).
  destruct (ret_returns s' m1 w' W1 P1 A1 Sk' ltac:(intros a Ha; apply T'; right; exact Ha)) as (m2 & X2 & W2 & P2 & A2).
  destruct (call_enters s' m2 w' W2 P2 A2 T') as (m3 & X3 & W3 & P3 & A3 & Sk3 & T3).
  exists k, m1, m2, m3. split; [exact X|]. split; [exact P1|]. split; [exact X2|]. split; [exact P2|]. split; [exact X3|].
  split; [exact W3|]. split; [exact P3|]. split; [|split; assumption].
  intros q Hq. rewrite (A3 q Hq). unfold called, upd. destruct (part_eqb (PStack (s' PSP)) q) eqn:Eq; [|reflexivity].
  apply part_eqb_true in Eq. subst q. symmetry. exact Sk'.
Qed.

Lemma rounds_reach w : forall k s s' w', rounds e p L S routine k s w s' w' -> forall m, entered s m ->
  exists n m', (2 * k <= n)%nat /\ instructions e p n m w m' w' /\ entered s' m'.
Proof.
  intros k s s' w' R. induction R as [s w|k s w s1 w1 s2 w2 R IH E K]; intros m En.
  - exists 0%nat, m. split; [lia|]. split; [apply instructions_0|exact En].
  - destruct (IH m En) as (n & m1 & Hn & X & En1).
    destruct (around s1 m1 w1 s2 w2 En1 E K) as (j & a & b & c & Y & _ & Y1 & _ & Y2 & En2).
    exists (n + (j + (1 + 1)))%nat, c. split; [lia|]. split; [|exact En2].
    refine (instructions_app _ _ _ _ _ _ _ _ _ _ X _). refine (instructions_app _ _ _ _ _ _ _ _ _ _ (stays8_instructions Y) _).
    exact (instructions_app _ _ _ _ _ _ _ _ _ _ Y1 Y2).
Qed.

Lemma stays8_within k m w m1 w1 : stays8 e p S hi k m w m1 w1 -> observe m1 PPC = hi -> observe m PPC = S -> forall n, (n <= k)%nat ->
  exists m2 w2, instructions e p n m w m2 w2 /\ S <= observe m2 PPC <= hi.
Proof.
  intros X P1 Pm n Hn. destruct (Nat.eq_dec n k) as [->|Ne].
  - exists m1, w1. split; [exact (stays8_instructions X)|]. unfold hi, ret_at in *. pose proof (bytes_nonneg (translate S routine)). lia.
  - destruct (stays8_take (1 + n) X ltac:(lia)) as (m2 & w2 & X2). destruct (stays8_last X2) as (m3 & w3 & X3 & Hr).
    exists m3, w3. split; [exact (stays8_instructions X3)|lia].
Qed.

Lemma goes_round n : forall s w m, all_well e p L S routine s w -> entered s m ->
  exists m' w', instructions e p n m w m' w' /\ (observe m' PPC = L \/ S <= observe m' PPC <= hi).
Proof.
  induction n as [n IH] using lt_wf_ind. intros s w m Al En.
  destruct placed as (Sa & Hh & Pl). destruct (entered_state s m En) as (St & Hp).
  destruct (still_or_ends8 e p He S hi text Sa Hh (1 + n) routine S s w Pl) as [(s' & w' & E)|[(op & s1 & w1 & B)|N]].
  - destruct (Al 0%nat s w (rounds_0 _ _ _ _ _ _ _)) as (_ & Kc). specialize (Kc s' w' E).
    destruct (around s m w s' w' En E Kc) as (k & m1 & m2 & m3 & X & P1 & X1 & P2 & X2 & En3).
    destruct (Nat.le_gt_cases n k) as [Hle|Hgt].
    + destruct (stays8_within k m w m1 w' X P1 Hp n Hle) as (m4 & w4 & X4 & Hr). exists m4, w4. split; [exact X4|right; exact Hr].
    + pose proof (instructions_app _ _ _ _ _ _ _ _ _ _ (stays8_instructions X) X1) as Y1.
      destruct (Nat.eq_dec n (k + 1)) as [->|Ne]; [exists m2, w'; split; [exact Y1|left; exact P2]|].
      pose proof (instructions_app _ _ _ _ _ _ _ _ _ _ Y1 X2) as Y2.
      assert (Al' : all_well e p L S routine s' w').
      { intros j s1 w1 R. apply (Al (1 + j)%nat).
        clear - R E Kc. induction R as [s0 w0|j s0 w0 s1 w1 s2 w2 R IH E2 K2].
        - refine (rounds_more _ _ _ _ _ 0 _ _ _ _ _ _ (rounds_0 _ _ _ _ _ _ _) E Kc).
        - exact (rounds_more _ _ _ _ _ _ _ _ _ _ _ _ (IH E Kc) E2 K2). }
      destruct (IH (n - (k + 1 + 1))%nat ltac:(lia) s' w' m3 Al' En3) as (m4 & w4 & X4 & Hr).
      exists m4, w4. split; [|exact Hr]. pose proof (instructions_app _ _ _ _ _ _ _ _ _ _ Y2 X4) as Y4.
      replace (k + 1 + 1 + (n - (k + 1 + 1)))%nat with n in Y4 by lia. exact Y4.
  - destruct (Al 0%nat s w (rounds_0 _ _ _ _ _ _ _)) as (Nb & _). destruct (Nb _ _ _ B).
  - destruct (N m St Hp) as (m2 & w2 & X2). destruct (stays8_last X2) as (m3 & w3 & X3 & Hr).
    exists m3, w3. split; [exact (stays8_instructions X3)|right; lia].
Qed.

Lemma first_call w : exists m, instructions e p 1 c0 w m w /\ entered (called L (observe c0)) m.
Proof.
  destruct H0 as (W & Hp & _). apply call_enters; try assumption; [intros q _; reflexivity|intros a _; reflexivity].
Qed.
End Calls.

(** ** C128 *)
(** A routine that ends [k] times in a row, each time starting from where it
    ended, is executed [k] times: its RET goes back to the CALL, which calls it
    again. *)
Theorem C128_again_and_again : forall e p c w L S routine k s' w', env_ok e -> about_to_call8 c L S routine ->
  rounds e p L S routine k (called L (observe c)) w s' w' ->
  exists n c', (2 * k + 1 <= n)%nat /\ instructions e p n c w c' w' /\ observe c' PPC = S /\ looks_like c' s'.
Proof.
  intros e p c w L S routine k s' w' He Ha R. destruct (first_call e p He L S routine c Ha w) as (m & X & En).
  destruct (rounds_reach e p He L S routine c Ha w k _ _ _ R m En) as (n & m' & Hn & Y & (_ & P & A & _)).
  exists (1 + n)%nat, m'. split; [lia|]. split; [exact (instructions_app _ _ _ _ _ _ _ _ _ _ X Y)|]. split; [exact P|].
  intros q Hq. apply A. exact Hq.
Qed.

(** As long as no round goes wrong the machine goes on for ever, and is always
    at the CALL or in the routine. *)
Theorem C128_for_ever : forall e p c w L S routine, env_ok e -> about_to_call8 c L S routine ->
  all_well e p L S routine (called L (observe c)) w ->
  forall n, exists c' w', instructions e p n c w c' w' /\ (observe c' PPC = L \/ S <= observe c' PPC <= ret_at S routine).
Proof.
  intros e p c w L S routine He Ha Al n. destruct n as [|n]; [exists c, w; split; [apply instructions_0|left; apply Ha]|].
  destruct (first_call e p He L S routine c Ha w) as (m & X & En).
  destruct (goes_round e p He L S routine c Ha n _ w m Al En) as (m' & w' & Y & Hr).
  exists m', w'. split; [exact (instructions_app _ _ 1%nat _ _ _ _ _ _ _ X Y)|exact Hr].
Qed.

(** So the instruction behind the CALL is never executed. *)
Theorem C128_never_returns : forall e p c w L S routine n c' w', env_ok e -> about_to_call8 c L S routine ->
  all_well e p L S routine (called L (observe c)) w -> ~ S <= L + 2 <= ret_at S routine ->
  instructions e p n c w c' w' -> observe c' PPC <> L + 2.
Proof.
  intros e p c w L S routine n c' w' He Ha Al Hn X. destruct (C128_for_ever e p c w L S routine He Ha Al n) as (c2 & w2 & Y & Hr).
  destruct (instructions_fun _ _ _ _ _ _ _ _ _ X Y) as [-> _]. lia.
Qed.

(** A round that comes to an instruction which cannot be executed ends in a panic
    there. *)
Theorem C128_breaks : forall e p c w L S routine k s1 w1 op s2 w2, env_ok e -> about_to_call8 c L S routine ->
  rounds e p L S routine k (called L (observe c)) w s1 w1 -> breaks8 e p S (ret_at S routine) routine s1 w1 op s2 w2 ->
  exists n c', instructions e p n c w c' w2 /\ S <= observe c' PPC < ret_at S routine /\ fetches p c' (encode op) /\ looks_like c' s2 /\
    (effect e p s2 w2 op = None -> step e p c' w2 = Panic).
Proof.
  intros e p c w L S routine k s1 w1 op s2 w2 He Ha R B. destruct (first_call e p He L S routine c Ha w) as (m & X & En).
  destruct (rounds_reach e p He L S routine c Ha w k _ _ _ R m En) as (n & m' & _ & Y & En').
  destruct (placed L S routine c Ha) as (Sa & Hh & Pl). destruct (entered_state L S routine c s1 m' En') as (St & Hp).
  destruct (cmd_breaks8 e p He _ _ _ Sa Hh _ _ _ _ _ _ B S Pl m' St Hp) as (j & m2 & Z0 & (W & A & _) & Hr & F & Ho & J).
  exists (1 + (n + j))%nat, m2. split; [|split; [exact Hr|split; [exact F|split; [exact A|]]]].
  - exact (instructions_app _ _ _ _ _ _ _ _ _ _ X (instructions_app _ _ _ _ _ _ _ _ _ _ Y (stays8_instructions Z0))).
  - intros Ef. pose proof (effect_alike e p s2 (observe m2) w2 op A J) as K. rewrite Ef in K.
    pose proof (step_effect e p m2 w2 W He op Ho F) as S1. rewrite K in S1. exact S1.
Qed.

(** ** Cases *)
(** At 0x200 CALL 0x300, there ADD V0,1 RET. The routine counts its calls in V0,
    and what follows the CALL at 0x202 is never reached. *)
Definition count_calls : structured := Do (AddImmediate V0 1).
Lemma counting_effect e p lo hi s w s' w' : ends8 e p lo hi count_calls s w s' w' ->
  w' = w /\ s' = upd (advance s 2) (PV 0) ((s (PV 0) + 1) mod 256).
Proof. intros E. inversion E as [|? ? ? ? ? X| | | |]; subst. cbn in X. inversion X. split; reflexivity. Qed.
Lemma counting_rounds e p w : forall k s, u8 (s (PV 0)) -> exists s', rounds e p 0x200 0x300 count_calls k s w s' w /\ s' (PV 0) = (s (PV 0) + Z.of_nat k) mod 256.
Proof.
  induction k as [|k IH]; intros s Hs; [exists s; split; [constructor|unfold u8 in Hs; lia]|].
  destruct (IH s Hs) as (s1 & R & E). exists (upd (advance s1 2) (PV 0) ((s1 (PV 0) + 1) mod 256)). split.
  - refine (rounds_more _ _ _ _ _ k _ _ _ _ _ _ R _ _).
    + exact (do_add e p _ _ w V0 1 s1 ltac:(discriminate)).
    + split; intros a _; reflexivity.
  - unfold upd. cbn [part_eqb]. rewrite Z.eqb_refl, E. lia.
Qed.
Lemma counting_well e p s w : all_well e p 0x200 0x300 count_calls s w.
Proof.
  intros k s1 w1 _. split.
  - intros op s2 w2 B. inversion B as [? ? ? Wr| | | | |]; subst. destruct Wr as [Wr|(s' & w' & E & Ns)]; [cbn in Wr; discriminate|].
    apply Ns. cbn in E. inversion E. intros a _. reflexivity.
  - intros s2 w2 E. destruct (counting_effect _ _ _ _ _ _ _ _ E) as (_ & ->). split; intros a _; reflexivity.
Qed.
Lemma calling_demo body : operands_ok body -> jumps_not body -> exists c, about_to_call8 c 0x200 0x300 (Do body) /\ u8 (observe c (PV 0)).
Proof.
  intros Ho Hj.
  pose proof looping_loaded as X. revert X. generalize looping_demo. intros c (W & _ & Hp & _).
  destruct (put_instructions [Call 0x300] c 0x200 W ltac:(lia) ltac:(cbn; lia)) as (c1 & W1 & L1 & A1); [constructor; [cbn [operands_ok]; lia|constructor]|].
  destruct (put_instructions [body; Ret] c1 0x300 W1 ltac:(lia) ltac:(cbn; lia)) as (c2 & W2 & L2 & A2);
    [constructor; [exact Ho|constructor; [exact I|constructor]]|].
  assert (V : u8 (observe c2 (PV 0))) by (exact (observe_v_u8 c2 0 W2 ltac:(lia))).
  exists c2. split; [|exact V]. split; [exact W2|]. split; [rewrite A2, A1 by (intros []); exact Hp|].
  split; [|split; [exact L2|split; [reflexivity|split; assumption]]].
  destruct L1 as (Z1 & Z2 & L1). split; [exact Z1|]. split; [exact Z2|]. intros [|[|k]] op Hk; try discriminate Hk.
  rewrite !A2 by (cbn [in_piece length]; lia). exact (L1 0%nat op Hk).
Qed.
Example C128_case : exists c, about_to_call8 c 0x200 0x300 count_calls /\
  (forall k, exists n c', (k <= n)%nat /\ instructions env0 Debug n c w0 c' w0 /\ observe c' (PV 0) = (observe c (PV 0) + Z.of_nat k) mod 256) /\
  (forall n c' w', instructions env0 Debug n c w0 c' w' -> observe c' PPC <> 0x202).
Proof.
  destruct (calling_demo (AddImmediate V0 1) ltac:(cbn [operands_ok]; unfold u8; lia) I) as (c & Ha & V). exists c. split; [exact Ha|]. split.
  - intros k. destruct (counting_rounds env0 Debug w0 k (called 0x200 (observe c)) V) as (s' & R & E).
    destruct (C128_again_and_again env0 Debug c w0 0x200 0x300 count_calls k s' w0 env0_ok Ha R) as (n & c' & Hn & X & _ & A).
    exists n, c'. split; [lia|]. split; [exact X|]. rewrite (A (PV 0)) by discriminate. exact E.
  - intros n c' w' X. apply (C128_never_returns env0 Debug c w0 0x200 0x300 count_calls n c' w' env0_ok Ha (counting_well _ _ _ _)); [|exact X].
    unfold ret_at. cbn. lia.
Qed.
(** ADD V0,V1 cannot be executed: there is no VF. *)
Example C128_breaks_case : exists c n c', about_to_call8 c 0x200 0x300 (Do (AddVxVy V0 V1)) /\
  instructions env0 Debug n c w0 c' w0 /\ step env0 Debug c' w0 = Panic.
Proof.
  destruct (calling_demo (AddVxVy V0 V1) I I) as (c & Ha & _).
  set (s := called 0x200 (observe c)).
  assert (B : breaks8 env0 Debug 0x300 (ret_at 0x300 (Do (AddVxVy V0 V1))) (Do (AddVxVy V0 V1)) s w0 (AddVxVy V0 V1) s w0) by (apply breaks8_do; left; reflexivity).
  destruct (C128_breaks env0 Debug c w0 0x200 0x300 _ 0 s w0 (AddVxVy V0 V1) s w0 env0_ok Ha (rounds_0 _ _ _ _ _ _ _) B)
    as (n & c' & X & _ & _ & _ & Pn).
  exists c, n, c'. split; [exact Ha|]. split; [exact X|exact (Pn eq_refl)].
Qed.

Print Assumptions C128_again_and_again.
Print Assumptions C128_for_ever.
Print Assumptions C128_never_returns.
Print Assumptions C128_breaks.
