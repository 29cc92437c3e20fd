(** C145: CHIP-8 code that passes the checks of C132 and SpecBudget8.v reaches
    its marked instructions again and again in time. *)
From Verif Require Import Base Arith ModelMap ModelStep ModelDisplay ModelChip8 ModelOpsChip8 ModelRunChip8 SpecMap Link6502
  SpecChip8 SpecChip8Parts SpecChip8Run ProofChip8 ProofChip8Step ProofChip8Reach ProofChip8Run PropertiesChip8Run
  SpecRoutines8 ProofRoutines8 PropertiesRoutines8 SpecHost8 ProofHost8 SpecCheck8 ProofCheck8 PropertiesCheck8 SpecSecret8 ProofSecret8 PropertiesSecret8 SpecBudget8.

Lemma least_le c r x : inside x r -> least c r <= c * x.
Proof. unfold inside, least. intros H. destruct (Z_le_gt_dec 0 c); [pose proof (Z.mul_le_mono_nonneg_l (fst r) x c)|pose proof (Z.mul_le_mono_nonpos_l x (snd r) c)]; lia. Qed.
Lemma greatest_ge c r x : inside x r -> c * x <= greatest c r.
Proof. unfold inside, greatest. intros H. destruct (Z_le_gt_dec 0 c); [pose proof (Z.mul_le_mono_nonneg_l x (snd r) c)|pose proof (Z.mul_le_mono_nonpos_l (fst r) x c)]; lia. Qed.
Lemma total_le f g : (forall k, 0 <= k < 15 -> f k <= g k) -> total f <= total g.
Proof.
  intros H. unfold total. assert (K : forall k, In k registers15 -> f k <= g k) by (intros k Hk; apply H, in_registers15, Hk).
  revert K. generalize registers15. induction l as [|k l IH]; intros K; cbn [map fold_right]; [lia|].
  pose proof (K k (or_introl eq_refl)). pose proof (IH (fun j Hj => K j (or_intror Hj))). lia.
Qed.
Lemma total_minus f g : total (fun k => f k - g k) = total f - total g.
Proof. unfold total. generalize registers15. induction l as [|k l IH]; cbn [map fold_right]; lia. Qed.

Section Run.
Variables (e : environment) (p : profile) (l : listing8) (text : Z -> Z) (B : budget8) (W : Z).
Hypothesis He : env_ok e.
Hypothesis Hp : passes8 p text l = true.
Hypothesis Ht : in_time8 B W l = true.

Lemma timely_at c : sane l text c -> exists n, noted8 l (observe c PPC) = Some n /\ at8 n = observe c PPC /\ within (observe c) (known n) /\ timely8 B W n = true.
Proof.
  intros (_ & (n & En & Wn) & _). destruct (noted8_ok p l text Hp _ _ En) as (Ha & Hin & _). exists n. split; [exact En|]. split; [exact Ha|]. split; [exact Wn|].
  unfold in_time8 in Ht. rewrite forallb_forall in Ht. exact (Ht n Hin).
Qed.

Lemma remaining_range c : sane l text c -> 1 <= remaining B (observe c) <= W.
Proof.
  intros S. destruct (timely_at c S) as (n & _ & Ha & Wn & T). unfold timely8 in T. rewrite !andb_true_iff in T. destruct T as ((T1 & T2) & _). rewrite Ha in T1, T2.
  destruct Wn as (_ & V & _). unfold remaining.
  pose proof (total_le (fun k => least (coef8 B (observe c PPC) k) (g_v (known n) k)) (fun k => coef8 B (observe c PPC) k * observe c (PV k)) (fun k Hk => least_le _ _ _ (V k Hk))).
  pose proof (total_le (fun k => coef8 B (observe c PPC) k * observe c (PV k)) (fun k => greatest (coef8 B (observe c PPC) k) (g_v (known n) k)) (fun k Hk => greatest_ge _ _ _ (V k Hk))).
  lia.
Qed.

Lemma moved_by s s' w w' op g k d : 0 <= k < 15 -> inside (s (PV k)) (g_v g k) -> u8 (s (PV k)) -> operands_ok op ->
  effect e p s w op = Some (s', w') -> moved op g k = Some d -> s' (PV k) = s (PV k) + d.
Proof.
  intros Hk Hi Hu Ho E M.
  assert (Other : assigned op k = false -> d = 0 -> s' (PV k) = s (PV k) + d).
  { intros Ha ->. rewrite (not_assigned e p w s op s' w' k Hk E Ha). lia. }
  destruct op; unfold moved in M; try (match type of M with (if ?b then _ else _) = _ => destruct b eqn:Eb end; [try discriminate M|]);
    try (apply Other; [first [exact Eb|reflexivity]|congruence]).
  all: try (destruct (assigned _ k) eqn:Ea; [discriminate M|apply Other; [first [exact Ea|reflexivity]|congruence]]).
  destruct (snd (rng g dest) + value <=? 255) eqn:Ew; [|discriminate M]. apply Z.eqb_eq in Eb. cbn [operands_ok] in Ho.
  cbn [effect] in E. apply needs_some in E as [_ E]. unfold done in E. apply some_pair in E as [<- _]. unfold upd at 1. cbn [part_eqb].
  subst k. rewrite Z.eqb_refl. unfold v, rng, inside, u8 in *. rewrite Z.mod_small by lia. assert (d = value) by congruence. lia.
Qed.

(** One instruction comes to a mark or lowers the bound. *)
Lemma one_less c w : sane l text c -> exists c' w', step e p c w = Ok (c', w') /\ sane l text c' /\
  (marked8 B (observe c' PPC) = true \/ remaining B (observe c') + 1 <= remaining B (observe c)).
Proof.
  intros S. destruct (timely_at c S) as (n & En & Ha & Wn & T). pose proof S as (Wf & _).
  destruct (sane_effect e p l text text (mkPolicy8 (fun _ => false) (fun _ _ => false)) He text Hp c w n S En) as (c' & s' & w' & E & Es & Lk & S' & _ & Hin & _ & ((g' & Hg & Wg) & _)).
  exists c', w'. split; [exact Es|]. split; [exact S'|]. unfold timely8 in T. rewrite !andb_true_iff in T. destruct T as (_ & T). rewrite Ha in T.
  rewrite forallb_forall in T. specialize (T _ Hg). cbn [fst snd] in T. apply Bool.orb_true_iff in T as [T|T]; [left; rewrite (Lk PPC); exact T|right].
  assert (Ho : operands_ok (op8 n)).
  { destruct (noted8_ok p l text Hp _ _ En) as (_ & _ & Hok). unfold instruction_ok8 in Hok. rewrite !andb_true_iff in Hok. apply operands_okb_ok. tauto. }
  assert (R' : remaining B (observe c') = base8 B (s' PPC) + total (fun k => coef8 B (s' PPC) k * s' (PV k))).
  { unfold remaining. rewrite (Lk PPC). f_equal. unfold total. f_equal. apply map_ext. intros k. rewrite (Lk (PV k)). reflexivity. }
  rewrite R'. unfold remaining.
  pose proof (total_le (saved B (observe c PPC) (s' PPC) (op8 n) (known n) g')
    (fun k => coef8 B (observe c PPC) k * observe c (PV k) - coef8 B (s' PPC) k * s' (PV k))) as L.
  rewrite total_minus in L. enough (forall k, 0 <= k < 15 -> saved B (observe c PPC) (s' PPC) (op8 n) (known n) g' k <= coef8 B (observe c PPC) k * observe c (PV k) - coef8 B (s' PPC) k * s' (PV k)) by lia.
  clear L. intros k Hk. destruct Wn as (_ & V & _). destruct Wg as (_ & V' & _). unfold saved. destruct (moved (op8 n) (known n) k) as [d|] eqn:M.
  - rewrite (moved_by (observe c) s' w w' (op8 n) (known n) k d Hk (V k Hk) (observe_v_u8 c k Wf Hk) Ho E M) in *.
    pose proof (least_le (coef8 B (observe c PPC) k - coef8 B (s' PPC) k) (g_v g' k) (observe c (PV k) + d)) as L.
    rewrite <- (moved_by (observe c) s' w w' (op8 n) (known n) k d Hk (V k Hk) (observe_v_u8 c k Wf Hk) Ho E M) in L at 1. specialize (L (V' k Hk)). lia.
  - pose proof (least_le (coef8 B (observe c PPC) k) _ _ (V k Hk)). pose proof (greatest_ge (coef8 B (s' PPC) k) _ _ (V' k Hk)). lia.
Qed.

Lemma key_remaining c k : remaining B (observe (with_interrupt c k)) = remaining B (observe c).
Proof. reflexivity. Qed.

Lemma mark_comes K : forall b n c w, sane l text c -> remaining B (observe c) <= Z.of_nat b ->
  exists j c' w', (1 <= j)%nat /\ Z.of_nat j <= remaining B (observe c) /\ play e p K n j c w = Ok (c', w') /\ sane l text c' /\ marked8 B (observe c' PPC) = true.
Proof.
  induction b as [|b IH]; intros n c w Sa Hb; pose proof (remaining_range c Sa) as R; [lia|].
  destruct (one_less (with_interrupt c (K n)) w (sane_key l text c (K n) Sa)) as (c1 & w1 & Es & S1 & [M|M]); try rewrite key_remaining in M.
  - exists 1%nat, c1, w1. split; [lia|]. split; [lia|]. cbn [play]. rewrite Es. cbn [bind]. auto.
  - destruct (IH (S n) c1 w1 S1 ltac:(lia)) as (j & c' & w' & J1 & J2 & Ep & S' & Mk). exists (S j), c', w'.
    split; [lia|]. split; [lia|]. cbn [play]. rewrite Es. cbn [bind]. auto.
Qed.
End Run.

Lemma play_app e p K : forall m j n c w, play e p K n (m + j) c w = bind (play e p K n m c w) (fun '(c1, w1) => play e p K (n + m) j c1 w1).
Proof.
  induction m as [|m IH]; intros j n c w; cbn [play Nat.add]; [cbn [bind]; rewrite Nat.add_0_r; reflexivity|].
  destruct (step e p (with_interrupt c (K n)) w) as [[c1 w1]|]; cbn [bind]; [|reflexivity]. rewrite IH. replace (S n + m)%nat with (n + S m)%nat by lia. reflexivity.
Qed.

(** From any time on, whatever keys are pressed, a marked instruction is reached
    after one to [W] more instructions. *)
Theorem C145_marks_in_time : forall e p c l B W, env_ok e -> checked8 p c l -> in_time8 B W l = true ->
  forall K w m, exists j c' w', 1 <= Z.of_nat j <= W /\ play e p K 0 (m + j) c w = Ok (c', w') /\ marked8 B (observe c' PPC) = true.
Proof.
  intros e p c l B W He Hc Ht K w m. pose proof (checked_sane p c l Hc) as S. destruct Hc as (_ & Hp & _).
  destruct (sane_plays e p l _ He Hp K m 0 c w S) as (c1 & w1 & E1 & S1). pose proof (remaining_range p l _ B W Hp Ht c1 S1) as R.
  destruct (mark_comes e p l _ B W He Hp Ht K (Z.to_nat W) (0 + m) c1 w1 S1 ltac:(lia)) as (j & c' & w' & J1 & J2 & Ep & _ & Mk).
  exists j, c', w'. split; [lia|]. rewrite play_app, E1. cbn [bind]. auto.
Qed.

(** From the start, within as many instructions as the bound says of the state
    the machine is in. *)
Theorem C145_first_mark : forall e p c l B W, env_ok e -> checked8 p c l -> in_time8 B W l = true ->
  forall K w, exists j c' w', 1 <= Z.of_nat j <= remaining B (observe c) /\ play e p K 0 j c w = Ok (c', w') /\ marked8 B (observe c' PPC) = true.
Proof.
  intros e p c l B W He Hc Ht K w. pose proof (checked_sane p c l Hc) as S. destruct Hc as (_ & Hp & _). pose proof (remaining_range p l _ B W Hp Ht c S) as R.
  destruct (mark_comes e p l _ B W He Hp Ht K (Z.to_nat W) 0 c w S ltac:(lia)) as (j & c' & w' & J1 & J2 & Ep & _ & Mk). exists j, c', w'. split; [lia|]. auto.
Qed.

(** ** Concrete cases *)
(** The program of C143 sets its delay timer, at 21a, every 98 instructions at
    most: 12 instructions for each byte that is left, and a few more. *)
Definition encode_budget : budget8 :=
  mkBudget8 (fun a => a =? 0x21a)
    (fun a => if a =? 0x200 then 96 else if a <=? 0x214 then 95 - (a - 0x202) / 2 else if a =? 0x216 then 97 else if a =? 0x218 then 96 else if a =? 0x21a then 98 else 97)
    (fun a k => if (k =? 1) && (0x202 <=? a) && (a <=? 0x218) then -12 else 0).
Lemma encode_in_time : in_time8 encode_budget 98 encode_notes = true.
Proof. vm_compute. reflexivity. Qed.
Example C145_case : exists c, checked8 Debug c encode_notes /\ forall K m, exists j c' w', 1 <= Z.of_nat j <= 98 /\
  play env0 Debug K 0 (m + j) c w0 = Ok (c', w') /\ observe c' PPC = 0x21a.
Proof.
  destruct (demo_checked Debug (LdImmediate V1 0) (tl encode_code) anything (tl encode_known)) as (c & Hc & Hpc).
  - repeat constructor; cbn; unfold u8; lia.
  - cbn. lia.
  - vm_compute. reflexivity.
  - reflexivity.
  - intros k. unfold anything, ranged. cbn [g_v]. destruct (k =? 0), (k =? 1); reflexivity.
  - reflexivity.
  - exists c. split; [exact Hc|]. intros K m. destruct (C145_marks_in_time env0 Debug c encode_notes encode_budget 98 env0_ok Hc encode_in_time K w0 m) as (j & c' & w' & J & E & M).
    exists j, c', w'. split; [exact J|]. split; [exact E|]. apply Z.eqb_eq. exact M.
Qed.
(** Refused: 97 instructions are not enough, nor are 11 for each byte; a program
    that waits for a key has no constant bound. *)
Definition slow8 (ops : list opcode) (b : Z -> Z) : bool :=
  negb (in_time8 (mkBudget8 (fun a => a =? 0x204) b (fun _ _ => 0)) 1000 (nothing_known ops)).
Example C145_refused :
  in_time8 encode_budget 97 encode_notes = false /\
  in_time8 (mkBudget8 (marked8 encode_budget) (base8 encode_budget) (fun a k => if coef8 encode_budget a k =? 0 then 0 else -11)) 98 encode_notes = false /\
  (forall b, slow8 [Skp V0; JpNonV0Indexed 0x200; JpNonV0Indexed 0x200] b = true).
Proof.
  split; [vm_compute; reflexivity|]. split; [vm_compute; reflexivity|]. intros b. unfold slow8. apply Bool.negb_true_iff, Bool.not_true_iff_false. intros H.
  unfold in_time8 in H. rewrite forallb_forall in H.
  pose proof (H (mkNote8 0x200 (Skp V0) anything) (or_introl eq_refl)) as H0. pose proof (H (mkNote8 0x202 (JpNonV0Indexed 0x200) anything) (or_intror (or_introl eq_refl))) as H1.
  unfold timely8 in H0, H1. rewrite !andb_true_iff in H0, H1. destruct H0 as (_ & H0), H1 as (_ & H1).
  change ((1 + b 514 <=? b 512 + 0) && true = true) in H0. change ((1 + b 512 <=? b 514 + 0) && true = true) in H1. lia.
Qed.

Print Assumptions C145_marks_in_time.
Print Assumptions C145_first_mark.
