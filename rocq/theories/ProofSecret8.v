(** Soundness of the secrecy check for CHIP-8 code. *)
From Verif Require Import Base Arith ModelMap ModelDisplay ModelChip8 ModelOpsChip8 ModelRunChip8 SpecChip8 SpecChip8Parts ProofChip8 ProofChip8Step SpecHost8 ProofHost8
  SpecCheck8 ProofCheck8 SpecSecret8.

Lemma in_upward n : forall lo z, In z (upward lo n) <-> lo <= z < lo + Z.of_nat n.
Proof.
  induction n as [|n IH]; intros lo z; cbn [upward In]; [lia|]. rewrite IH. lia.
Qed.
Lemma in_span lo hi z : In z (span lo hi) <-> lo <= z <= hi.
Proof. unfold span. rewrite in_upward. lia. Qed.

Definition value_part (q : part) : bool := match q with PV _ | PMem _ => true | _ => false end.

Section Effects.
Variables (e : environment) (p : profile) (w : world).

(** Everything but registers and memory stays the same on both sides. *)
Lemma pair_control s1 s2 op s1' s2' w1 w2 :
  (forall q, value_part q = false -> s1 q = s2 q) -> (forall x, has x = true -> In x (decides op) -> s1 (PV (gp_index x)) = s2 (PV (gp_index x))) ->
  effect e p s1 w op = Some (s1', w1) -> effect e p s2 w op = Some (s2', w2) ->
  w1 = w2 /\ forall q, value_part q = false -> s1' q = s2' q.
Proof.
  intros A D E1 E2.
  assert (Epc : s1 PPC = s2 PPC) by (apply A; reflexivity). assert (Ei : s1 PI = s2 PI) by (apply A; reflexivity).
  assert (Es : s1 PSP = s2 PSP) by (apply A; reflexivity). assert (Ek : s1 PKey = s2 PKey) by (apply A; reflexivity).
  assert (Ed : s1 PDelay = s2 PDelay) by (apply A; reflexivity). assert (Et : s1 PDelayAt = s2 PDelayAt) by (apply A; reflexivity).
  assert (Est : s1 (PStack (s1 PSP)) = s2 (PStack (s2 PSP))) by (rewrite Es; apply A; reflexivity).
  assert (Dv : forall x, has x = true -> In x (decides op) -> v s1 x = v s2 x) by (intros x Hx Hin; exact (D x Hx Hin)). clear D.
  assert (Ha : forall k q, value_part q = false -> advance s1 k q = advance s2 k q).
  { intros k q Hq. unfold advance, upd. rewrite Epc. destruct (part_eqb PPC q); [reflexivity|apply A; exact Hq]. }
  destruct op; cbn [effect] in E1, E2; try discriminate E1;
    try (apply needs_some in E1 as [N1 E1]; apply needs_some in E2 as [N2 E2]);
    try (rewrite Ek in E1; destruct (s2 PKey =? -1); [|apply needs_some in E1 as [N1 E1]; apply needs_some in E2 as [N2 E2]]);
    unfold done in E1, E2; apply some_pair in E1 as [<- <-]; apply some_pair in E2 as [<- <-];
    (split; [reflexivity|]); intros q Hq;
    try (apply andb_prop in N1 as [N1 N1']); cbn [decides In] in Dv;
    try (rewrite !Dv by (assumption || reflexivity || tauto));
    rewrite ?Est, ?Ei, ?Es, ?Ek, ?Epc;
    first [ apply Ha; exact Hq
          | destruct q; try discriminate Hq; unfold upd; cbn [part_eqb]; first [reflexivity|apply Ha; reflexivity|apply A; reflexivity|idtac] ].
  all: try (match goal with |- (if ?b then _ else _) = _ => destruct b end; first [reflexivity|apply A; reflexivity|apply Ha; reflexivity]).
Qed.

(** Registers that are not assigned to stay as they are. *)
Lemma not_assigned s op s' w' k : 0 <= k < 15 -> effect e p s w op = Some (s', w') -> assigned op k = false -> s' (PV k) = s (PV k).
Proof.
  intros Hk E Hn. destruct op; cbn [effect] in E; try discriminate E;
    try (apply needs_some in E as [N E]); try (destruct (s PKey =? -1); [|apply needs_some in E as [N E]]);
    unfold done in E; apply some_pair in E as [<- _]; cbn [assigned] in Hn; try reflexivity;
    try (unfold upd at 1; cbn [part_eqb]; rewrite Z.eqb_sym, Hn; reflexivity).
  cbn beta iota. rewrite Hn, Bool.andb_false_r. reflexivity.
Qed.

Variables (P : policy8) (a : Z) (g : ranges).
(** Values that come from public things. *)
Lemma clean_values s1 s2 op s1' s2' w1 w2 :
  (forall q, shown P a q = true -> s1 q = s2 q) -> inside (s1 PI) (g_i g) -> 0 <= s1 PI -> clean8 P a op g = true ->
  effect e p s1 w op = Some (s1', w1) -> effect e p s2 w op = Some (s2', w2) ->
  (forall k, 0 <= k < 15 -> assigned op k = true -> s1' (PV k) = s2' (PV k)) /\
  (forall b, s1 (PMem b) = s2 (PMem b) -> s1' (PMem b) = s2' (PMem b)).
Proof.
  intros A Wi Wi0 Hc E1 E2. unfold inside in Wi.
  assert (Ei : s1 PI = s2 PI) by (apply A; reflexivity). assert (Ek : s1 PKey = s2 PKey) by (apply A; reflexivity).
  assert (Ed : s1 PDelay = s2 PDelay) by (apply A; reflexivity). assert (Et : s1 PDelayAt = s2 PDelayAt) by (apply A; reflexivity).
  assert (V : forall x, has x = true -> opens P a x = true -> v s1 x = v s2 x).
  { intros x Hx Ho. apply A. cbn [shown]. pose proof (has_range x Hx). unfold opens in Ho. rewrite Ho. lia. }
  destruct op; cbn [effect] in E1, E2; try discriminate E1;
    try (apply needs_some in E1 as [N1 E1]; apply needs_some in E2 as [N2 E2]);
    try (rewrite Ek in E1; destruct (s2 PKey =? -1); [|apply needs_some in E1 as [N1 E1]; apply needs_some in E2 as [N2 E2]]);
    unfold done in E1, E2; apply some_pair in E1 as [<- <-]; apply some_pair in E2 as [<- <-];
    try (apply andb_prop in N1 as [N1 N1']); cbn [assigned clean8] in *; try (apply andb_prop in Hc as [Hc Hc']);
    try (rewrite !V by assumption);
    (split; [intros k Hk Hn; try discriminate Hn|intros b Hb; try exact Hb]); rewrite ?Ei, ?Ek, ?Ed, ?Et.
  all: try (apply Z.eqb_eq in Hn; subst k; unfold upd; cbn [part_eqb]; rewrite Z.eqb_refl; reflexivity).
  - destruct (part_eqb (PMem b) (PMem (s2 PI))); [reflexivity|]. destruct (part_eqb (PMem b) (PMem (s2 PI + 1))); [reflexivity|].
    destruct (part_eqb (PMem b) (PMem (s2 PI + 2))); [reflexivity|exact Hb].
  - apply Z.eqb_eq in Hn. change (s1 (PV k) = s2 (PV k)). apply A. cbn [shown]. unfold opens in Hc. rewrite Hn, Hc. lia.
  - replace ((0 <=? k) && (k <=? gp_index r)) with true by lia. rewrite Ei in *. rewrite Z.mod_small by lia. apply A. cbn [shown].
    rewrite forallb_forall in Hc'. apply Hc', in_span. lia.
  - destruct ((s2 PI <=? b) && (b <=? s2 PI + gp_index r)) eqn:Eb; [|exact Hb]. apply A. cbn [shown]. rewrite forallb_forall in Hc.
    pose proof (has_range r N1). rewrite Hc by (apply in_span; lia). lia.
Qed.
End Effects.

(** ** Two machines *)
Section Pair.
Variables (e : environment) (p : profile) (l : listing8) (t1 t2 : Z -> Z) (P : policy8).
Hypothesis He : env_ok e.
Hypothesis Hp1 : passes8 p t1 l = true.
Hypothesis Hp2 : passes8 p t2 l = true.
Hypothesis Hk : keeps_secrets8 P l = true.

(** One instruction, as its effect. *)
Lemma sane_effect text (Hp : passes8 p text l = true) c w n : sane l text c -> noted8 l (observe c PPC) = Some n ->
  exists c' s' w', effect e p (observe c) w (op8 n) = Some (s', w') /\ step e p c w = Ok (c', w') /\ looks c' s' /\ sane l text c' /\
    at8 n = observe c PPC /\ In n l /\ within (observe c) (known n) /\ comes_out (observe c) (known n) (op8 n) s'.
Proof.
  intros S En. destruct (sane_step e p l text He Hp c w S) as (c' & w' & Es & S'). destruct S as (Wf & (n' & En' & Wn) & Hm).
  assert (n' = n) by congruence. subst n'. destruct (noted8_ok p l text Hp _ _ En) as (Ha & Hin & Hok). unfold instruction_ok8 in Hok.
  rewrite !andb_true_iff in Hok. destruct Hok as ((((((B1 & B2) & B3) & B4) & B5) & B6) & B7). apply operands_okb_ok in B3.
  destruct (safe_effect e p (observe c) w (known n) Wn (op8 n) B5) as (s' & w'' & E).
  assert (F : fetches p c (encode (op8 n))).
  { split; [right; lia|]. rewrite <- Ha. rewrite (Z.mod_small (at8 n + 1)) by lia. rewrite !(code_kept8 p l text Hp c n _ Hm Hin) by (assumption || lia). lia. }
  pose proof (step_effect e p c w Wf He (op8 n) B3 F) as X. rewrite E in X. destruct X as (c'' & Es' & W' & Lk).
  assert (c'' = c') by congruence. assert (w'' = w') by congruence. subst c'' w''.
  exists c', s', w'. split; [exact E|]. split; [exact Es|]. split; [exact Lk|]. split; [exact S'|]. split; [exact Ha|]. split; [exact Hin|]. split; [exact Wn|].
  apply (effect_outcome e p (observe c) w (known n) Wn ltac:(lia) (fun k Hk0 => observe_v_u8 c k Wf Hk0) (wf_i c Wf) (op8 n) s' w' B3 B5 E).
  intros k Hk0. rewrite <- (Lk (PV k)). apply observe_v_u8; assumption.
Qed.

Lemma alike_step c1 c2 w : sane l t1 c1 -> sane l t2 c2 -> look_alike8 P c1 c2 ->
  exists c1' c2' w', step e p c1 w = Ok (c1', w') /\ step e p c2 w = Ok (c2', w') /\ sane l t1 c1' /\ sane l t2 c2' /\ look_alike8 P c1' c2'.
Proof.
  intros S1 S2 A. pose proof S1 as (Wf1 & (n & En & _) & _).
  assert (Epc : observe c1 PPC = observe c2 PPC) by (apply A; reflexivity).
  destruct (sane_effect t1 Hp1 c1 w n S1 En) as (c1' & s1' & w1 & E1 & Es1 & L1 & S1' & Ha & Hin & Wn & ((g' & Hg & _) & Hm1)).
  rewrite Epc in En. destruct (sane_effect t2 Hp2 c2 w n S2 En) as (c2' & s2' & w2 & E2 & Es2 & L2 & S2' & _ & _ & Wn2 & (_ & Hm2)).
  unfold keeps_secrets8 in Hk. rewrite forallb_forall in Hk. pose proof (Hk n Hin) as K. unfold keeps_ok8 in K.
  rewrite !andb_true_iff in K. destruct K as ((K1 & K2) & K3). rewrite forallb_forall in K1, K3. rewrite Ha in *.
  destruct (pair_control e p w (observe c1) (observe c2) (op8 n) s1' s2' w1 w2) as (<- & C); [| |exact E1|exact E2|].
  { intros q Hq. apply A. destruct q; try reflexivity; discriminate Hq. }
  { intros x Hx Hd. apply A. cbn [shown]. pose proof (has_range x Hx). pose proof (K1 x Hd) as Ho. unfold opens in Ho. rewrite Ho. lia. }
  exists c1', c2', w1. split; [exact Es1|]. split; [exact Es2|]. split; [exact S1'|]. split; [exact S2'|].
  specialize (K3 _ Hg). cbn [fst] in K3. rewrite forallb_forall in K3. rewrite <- (L1 PPC) in K3.
  assert (Cv : clean8 P (observe c1 PPC) (op8 n) (known n) = true -> 
    (forall k, 0 <= k < 15 -> assigned (op8 n) k = true -> s1' (PV k) = s2' (PV k)) /\
    (forall b, observe c1 (PMem b) = observe c2 (PMem b) -> s1' (PMem b) = s2' (PMem b))).
  { intros Hc. refine (clean_values e p w P (observe c1 PPC) (known n) (observe c1) (observe c2) (op8 n) s1' s2' w1 w1 A _ _ Hc E1 E2); [apply Wn|].
    pose proof (wf_i c1 Wf1) as Hi. unfold u16 in Hi. cbn [observe]. lia. }
  intros q Hq. rewrite (L1 q), (L2 q). destruct (value_part q) eqn:Ev; [|apply C; exact Ev].
  destruct q as [ | | |k| |b| | | | | | ]; try discriminate Ev; cbn [shown] in Hq.
  - assert (Hr : 0 <= k < 15) by lia. specialize (K3 k (proj2 (in_registers15 k) Hr)).
    assert (Ho : open_at P (observe c1' PPC) k = true) by (destruct (open_at P (observe c1' PPC) k); [reflexivity|lia]).
    rewrite Ho in K3. cbn [negb orb] in K3. destruct (assigned (op8 n) k) eqn:Eas; [exact (proj1 (Cv K3) k Hr Eas)|].
    rewrite (not_assigned e p w _ _ _ _ k Hr E1 Eas), (not_assigned e p w _ _ _ _ k Hr E2 Eas). apply A. cbn [shown]. rewrite K3. lia.
  - assert (Eb : observe c1 (PMem b) = observe c2 (PMem b)) by (apply A; exact Hq).
    destruct (clean8 P (observe c1 PPC) (op8 n) (known n)) eqn:Ec; [exact (proj2 (Cv eq_refl) b Eb)|]. cbn [orb] in K2.
    assert (N : forall r, written (op8 n) (known n) = Some r -> ~ inside b r).
    { intros [lo hi] Er Hi. rewrite Er in K2. rewrite forallb_forall in K2. unfold inside in Hi. cbn [fst snd] in Hi.
      rewrite (K2 b (proj2 (in_span lo hi b) Hi)) in Hq. discriminate Hq. }
    destruct (Z.eq_dec (s1' (PMem b)) (observe c1 (PMem b))) as [F1|F1]; [|exfalso; destruct (Hm1 b F1) as (r & Er & Hi); exact (N r Er Hi)].
    destruct (Z.eq_dec (s2' (PMem b)) (observe c2 (PMem b))) as [F2|F2]; [|exfalso; destruct (Hm2 b F2) as (r & Er & Hi); exact (N r Er Hi)].
    congruence.
Qed.

Lemma alike_key c1 c2 k : look_alike8 P c1 c2 -> look_alike8 P (with_interrupt c1 k) (with_interrupt c2 k).
Proof.
  intros A q Hq. rewrite (observe_key c1 k), (observe_key c2 k). rewrite (observe_key c1 k) in Hq. unfold seen, upd in *. cbn [part_eqb] in Hq.
  destruct (part_eqb PKey q); [reflexivity|apply A; exact Hq].
Qed.

Lemma alike_plays K m : forall n c1 c2 w, sane l t1 c1 -> sane l t2 c2 -> look_alike8 P c1 c2 ->
  exists c1' c2' w', play e p K n m c1 w = Ok (c1', w') /\ play e p K n m c2 w = Ok (c2', w') /\ look_alike8 P c1' c2'.
Proof.
  induction m as [|m IH]; intros n c1 c2 w S1 S2 A; [exists c1, c2, w; auto|].
  destruct (alike_step (with_interrupt c1 (K n)) (with_interrupt c2 (K n)) w (sane_key l t1 c1 (K n) S1) (sane_key l t2 c2 (K n) S2) (alike_key c1 c2 (K n) A))
    as (d1 & d2 & w' & E1 & E2 & S1' & S2' & A').
  cbn [play]. rewrite E1, E2. cbn [bind]. apply IH; assumption.
Qed.
End Pair.
