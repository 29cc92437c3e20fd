(** C130: structured programs on the CHIP-8 of the technical reference and on
    the emulator. *)
From Verif Require Import Base Arith ModelMap ModelStep ModelDisplay ModelChip8 ModelOpsChip8 ModelRunChip8 SpecMap Link6502
  SpecChip8 SpecChip8Parts SpecChip8Run ProofChip8 ProofChip8Step ProofChip8Reach ProofChip8Run
  SpecRoutines8 ProofRoutines8 PropertiesRoutines8 SpecReplace8 PropertiesReplace8 SpecReference8 ProofReference8
  SpecLanguage8 ProofLanguage8 PropertiesLanguage8 SpecPortable8 ProofPortable8.

Lemma ref_setting f L prog : ref_about_to_run f L prog -> let hi := L + bytes (translate L prog) in let text := fun a => f (PMem a) in
  0 <= L /\ hi < 4096 /\ leads L hi text [prog] L /\ stands L hi text f f /\ f PPC = L.
Proof.
  intros (Hp & H0 & H1 & Pr & C) hi text. split; [exact H0|]. split; [exact H1|]. split; [|split; [|exact Hp]].
  - apply leads_code; [|apply leads_end]. split; [exact C|]. split; [lia|]. split; [unfold hi; lia|exact Pr].
  - split; [intros q _; reflexivity|intros a _; reflexivity].
Qed.
Lemma nondeparting_alike e op s f w : jumps_not op \/ (exists b, op = skip_if b) -> but_for_pc s f -> ~ departs8 e s w op -> ~ departs8 e f w op.
Proof. intros J A H K. apply H. apply (departs_alike e s f A w op); [tauto|exact K]. Qed.
Lemma jump_departs_not e a f w : ~ departs8 e f w (JpNonV0Indexed a).
Proof. intros [[]|[]]. Qed.

(** The general form: [Q] holds of all instructions executed. *)
Lemma reaches e (Q : opcode -> (part -> Z) -> world -> Prop) f w L prog l t' :
  (forall a f w, Q (JpNonV0Indexed a) f w) -> (forall op s f w, jumps_not op \/ (exists b, op = skip_if b) -> but_for_pc s f -> Q op s w -> Q op f w) ->
  ref_about_to_run f L prog -> let hi := L + bytes (translate L prog) in
  follows e L hi (mkTask [prog] f w) l t' -> Forall (fun v => Q (performed v) (before v) (when v)) l ->
  exists ops f', via e L hi Q ops (f, w) (f', around t') /\ without_jumps ops = map performed l /\ stands L hi (fun a => f (PMem a)) (parts t') f' /\
    match todo t' with
    | [] => f' PPC = hi
    | c :: k => sits L hi (fun a => f (PMem a)) (f' PPC) c
    end.
Proof.
  intros Qj Qa Ha hi X HQ. destruct (ref_setting f L prog Ha) as (H0 & H1 & Le & St & Hp).
  destruct (follows_goes e L hi Q _ H0 H1 Qj Qa _ _ _ X HQ f L Le St Hp) as (ops1 & f1 & a1 & X1 & N1 & Le1 & St1 & Hp1).
  destruct (settle e L hi Q _ H0 H1 Qj Qa (parts t') (around t') _ _ Le1 f1 St1 Hp1) as (ops2 & f2 & X2 & St2 & N2 & R).
  exists (ops1 ++ ops2), f2. split; [exact (via_app _ _ _ _ _ _ _ X1 _ _ X2)|]. split.
  - unfold without_jumps in *. rewrite filter_app, N1, N2, app_nil_r. reflexivity.
  - split; [exact St2|]. destruct (todo t'); [exact R|apply R].
Qed.

(** ** C130 *)
(** The reference machine executes the translated program as the program's
    meaning says, whatever its instructions: the instructions executed are the
    meaning's and jumps, and the states are the meaning's. *)
Theorem C130_reference : forall e f w L prog l t', ref_about_to_run f L prog -> let hi := L + bytes (translate L prog) in
  follows e L hi (mkTask [prog] f w) l t' ->
  exists ops f', ref_goes e L hi ops (f, w) (f', around t') /\ without_jumps ops = map performed l /\ but_for_pc (parts t') f' /\
    (todo t' = [] -> f' PPC = hi).
Proof.
  intros e f w L prog l t' Ha hi X.
  destruct (reaches e (fun _ _ _ => True) f w L prog l t') as (ops & f' & Y & N & (A & _) & R); try assumption; try (intros; exact I).
  - apply Forall_forall. intros; exact I.
  - exists ops, f'. split; [exact (via_goes _ _ _ _ _ _ _ Y)|]. split; [exact N|]. split; [exact A|]. intros K. rewrite K in R. exact R.
Qed.

(** As long as no instruction it performs departs from the reference, the
    emulator executes the same instructions with the same results. *)
Theorem C130_emulator : forall e p c w L prog l t', env_ok e -> well_formed c -> ref_about_to_run (observe c) L prog ->
  let hi := L + bytes (translate L prog) in
  follows e L hi (mkTask [prog] (observe c) w) l t' -> Forall (fun v => ~ departs8 e (before v) (when v) (performed v)) l ->
  exists ops f' c', ref_goes e L hi ops (observe c, w) (f', around t') /\ instructions e p (length ops) c w c' (around t') /\
    looks c' f' /\ looks_like c' (parts t') /\ without_jumps ops = map performed l /\ (todo t' = [] -> observe c' PPC = hi).
Proof.
  intros e p c w L prog l t' He W Ha hi X D.
  destruct (reaches e (fun op f w => ~ departs8 e f w op) (observe c) w L prog l t' (jump_departs_not e) (nondeparting_alike e) Ha X D)
    as (ops & f' & Y & N & (A & _) & R).
  destruct (ref_run_executes e p ops _ _ He (via_run _ _ _ _ _ _ Y) c W (fun q => eq_refl)) as (c' & h & Hx & L' & _ & Hm). cbn [fst snd] in *.
  exists ops, f', c'. split; [exact (via_goes _ _ _ _ _ _ _ Y)|]. split.
  - exists h. split; [|exact Hx]. rewrite <- (map_length snd h), Hm, map_length. reflexivity.
  - split; [exact L'|]. split; [intros q Hq; rewrite L'; exact (A q Hq)|]. split; [exact N|]. intros K. rewrite K in R. rewrite L'. exact R.
Qed.

(** The first instruction that departs is reached by both, and there they
    part. *)
Theorem C130_first_departure : forall e p c w L prog l t1 v t2, env_ok e -> well_formed c -> ref_about_to_run (observe c) L prog ->
  let hi := L + bytes (translate L prog) in
  follows e L hi (mkTask [prog] (observe c) w) l t1 -> Forall (fun v => ~ departs8 e (before v) (when v) (performed v)) l ->
  proceeds e L hi t1 [v] t2 -> departs8 e (before v) (when v) (performed v) ->
  exists ops f1 c1 g, ref_goes e L hi ops (observe c, w) (f1, around t1) /\ instructions e p (length ops) c w c1 (around t1) /\
    looks c1 f1 /\ looks_like c1 (parts t1) /\ ref_fetches f1 (performed v) /\ reference e f1 (around t1) (performed v) = Some (g, around t2) /\
    forall c2, step e p c1 (around t1) = Ok (c2, around t2) -> ~ looks c2 g.
Proof.
  intros e p c w L prog l t1 v t2 He W Ha hi X D Y Dv.
  destruct (reaches e (fun op f w => ~ departs8 e f w op) (observe c) w L prog l t1 (jump_departs_not e) (nondeparting_alike e) Ha X D)
    as (ops & f1 & V & N & St & R). pose proof St as (A & T).
  destruct (ref_run_executes e p ops _ _ He (via_run _ _ _ _ _ _ V) c W (fun q => eq_refl)) as (c1 & h & Hx & L1 & W1 & Hm). cbn [fst snd] in *.
  pose proof Ha as (_ & H0 & H1 & _). fold hi in H1.
  assert (K : exists g, ref_fetches f1 (performed v) /\ reference e f1 (around t1) (performed v) = Some (g, around t2) /\ departs8 e f1 (around t1) (performed v)).
  { remember [v] as l1 eqn:El. destruct Y as [k s w1|a1 a2 k s w1|op k s w1 s' w' Nw E Sp|op k s w1 Wt|b a1 a2 k s w1|b a k s w1]; try discriminate El;
      assert (Ev := f_equal (fun l => hd v l) El); cbn [hd] in Ev; subst v; cbn [performed before when todo parts around] in *;
      destruct R as (C & Hl & Hh & Pr).
    - destruct Pr as [Ho J]. destruct (reference_alike e s f1 A w1 op s' w' J Nw E) as (o' & E' & _).
      exists o'. split; [exact (fetch_lies L hi (fun _ _ _ => True) _ H1 s f1 (f1 PPC) op [] St C Hl Hh eq_refl Ho)|]. split; [exact E'|].
      apply (departs_alike e s f1 A); [tauto|exact Dv].
    - destruct Pr as [Ho J]. exists f1. split; [exact (fetch_lies L hi (fun _ _ _ => True) _ H1 s f1 (f1 PPC) op [] St C Hl Hh eq_refl Ho)|].
      split; [exact (waiting_alike e s f1 A w1 op Wt)|]. apply (departs_alike e s f1 A); [tauto|exact Dv].
    - cbn [translate] in C, Hh. cbv zeta in C, Hh. rewrite !bytes_app in Hh. change (bytes [_; _]) with 4 in Hh.
      match type of Hh with context [bytes ?l1 + (bytes ?l2 + bytes ?l3)] => pose proof (bytes_nonneg l1); pose proof (bytes_nonneg l2); pose proof (bytes_nonneg l3) end.
      eexists. split; [eapply (fetch_lies L hi (fun _ _ _ => True) _ H1 s f1 (f1 PPC) (skip_if b) _ St C Hl ltac:(lia) eq_refl (proj1 Pr))|].
      split; [exact (test_reference e s f1 A w1 b)|]. apply (departs_alike e s f1 A); [right; right; exists b; reflexivity|exact Dv].
    - cbn [translate] in C, Hh. cbv zeta in C, Hh. rewrite !bytes_app in Hh. change (bytes [_; _]) with 4 in Hh.
      match type of Hh with context [bytes ?l1 + bytes ?l2] => pose proof (bytes_nonneg l1); pose proof (bytes_nonneg l2) end.
      eexists. split; [eapply (fetch_lies L hi (fun _ _ _ => True) _ H1 s f1 (f1 PPC) (skip_if b) _ St C Hl ltac:(lia) eq_refl (proj1 Pr))|].
      split; [exact (test_reference e s f1 A w1 b)|]. apply (departs_alike e s f1 A); [right; right; exists b; reflexivity|exact Dv]. }
  destruct K as (g & Hf & E & Df). exists ops, f1, c1, g.
  split; [exact (via_goes _ _ _ _ _ _ _ V)|]. split.
  { exists h. split; [|exact Hx]. rewrite <- (map_length snd h), Hm, map_length. reflexivity. }
  split; [exact L1|]. split; [intros q Hq; rewrite L1; exact (A q Hq)|]. split; [exact Hf|]. split; [exact E|].
  intros c2 Es L2. apply (step_iff8 e p c1 (around t1) f1 W1 He L1 (performed v) g (around t2) Hf E); [|exact Df]. exists c2. auto.
Qed.

(** The meaning is one, and goes on unless everything is done or an
    instruction reaches outside the memory or overwrites the program. *)
Theorem C130_one_meaning : forall e lo hi t, (forall l1 t1 l2 t2, proceeds e lo hi t l1 t1 -> proceeds e lo hi t l2 t2 -> l1 = l2 /\ t1 = t2) /\
  (todo t = [] \/ stuck e lo hi t \/ exists l t', proceeds e lo hi t l t') /\
  (todo t = [] \/ stuck e lo hi t -> forall l t', ~ proceeds e lo hi t l t').
Proof.
  intros e lo hi t. split; [intros l1 t1 l2 t2; apply proceeds_one|]. split; [apply proceeds_or|].
  intros [K|(op & k & K & Nw & R)] l t' X; destruct X; cbn [todo parts around] in *; try discriminate K;
    assert (Eo := f_equal (fun l => match l with Do o :: _ => o | _ => op end) K); cbn in Eo; subst op; [|contradiction].
  match goal with E : reference _ _ _ _ = Some _ |- _ => exact (R _ _ E ltac:(assumption)) end.
Qed.

(** Programs of portable instructions perform no departing one. *)
Theorem C130_portable : forall e lo hi prog s w l t', portable8 prog -> follows e lo hi (mkTask [prog] s w) l t' ->
  Forall (fun v => ~ departs8 e (before v) (when v) (performed v)) l.
Proof. intros e lo hi prog s w l t' P X. apply (portable_follows _ _ _ _ _ _ X). constructor; [exact P|constructor]. Qed.

(** Such a program that neither ends nor gets stuck keeps both machines busy
    for ever, in the same state after every number of instructions. *)
Theorem C130_forever : forall e p c w L prog, env_ok e -> well_formed c -> ref_about_to_run (observe c) L prog -> portable8 prog ->
  let hi := L + bytes (translate L prog) in
  (forall l t', follows e L hi (mkTask [prog] (observe c) w) l t' -> todo t' <> [] /\ ~ stuck e L hi t') ->
  forall n, exists ops f' c' w', length ops = n /\ ref_goes e L hi ops (observe c, w) (f', w') /\ instructions e p n c w c' w' /\ looks c' f' /\
    L <= observe c' PPC < hi.
Proof.
  intros e p c w L prog He W Ha P hi Nv n.
  destruct (many_instructions e L hi (mkTask [prog] (observe c) w) (S n)) as (l & t' & X & [K|[K|K]]); [destruct (Nv l t' X); contradiction..|].
  destruct (reaches e (fun op f w => ~ departs8 e f w op) (observe c) w L prog l t' (jump_departs_not e) (nondeparting_alike e) Ha X (C130_portable _ _ _ _ _ _ _ _ P X))
    as (ops & f' & Y & N & _).
  assert (Hn : (n < length ops)%nat).
  { apply Nat.lt_le_trans with (m := length l); [lia|]. rewrite <- (map_length performed l), <- N. unfold without_jumps.
    clear. induction ops as [|op ops IH]; [reflexivity|]. cbn [filter]. destruct (negb (is_jump op)); cbn [length]; lia. }
  destruct (via_prefix _ _ _ _ _ _ _ Y n Hn) as ([f1 w1] & Y1 & Hr). cbn [fst] in Hr.
  destruct (ref_run_executes e p _ _ _ He (via_run _ _ _ _ _ _ Y1) c W (fun q => eq_refl)) as (c1 & h & Hx & L1 & _ & Hm). cbn [fst snd] in *.
  exists (firstn n ops), f1, c1, w1. assert (El : length (firstn n ops) = n) by (rewrite firstn_length; lia).
  split; [exact El|]. split; [exact (via_goes _ _ _ _ _ _ _ Y1)|]. split.
  - exists h. split; [|exact Hx]. rewrite <- (map_length snd h), Hm, map_length. exact El.
  - split; [exact L1|]. rewrite L1. exact Hr.
Qed.

(** The emulator comes to the end of such a program only if it ends on the
    reference, or gets stuck there. *)
Theorem C130_only_then : forall e p c w L prog n c' w', env_ok e -> well_formed c -> ref_about_to_run (observe c) L prog -> portable8 prog ->
  let hi := L + bytes (translate L prog) in
  instructions e p n c w c' w' -> observe c' PPC = hi ->
  exists l t', follows e L hi (mkTask [prog] (observe c) w) l t' /\ (todo t' = [] \/ stuck e L hi t').
Proof.
  intros e p c w L prog n c' w' He W Ha P hi Hi Hpc.
  destruct (many_instructions e L hi (mkTask [prog] (observe c) w) (S n)) as (l & t' & X & [K|[K|K]]); [exists l, t'; tauto..|exfalso].
  destruct (reaches e (fun op f w => ~ departs8 e f w op) (observe c) w L prog l t' (jump_departs_not e) (nondeparting_alike e) Ha X (C130_portable _ _ _ _ _ _ _ _ P X))
    as (ops & f' & Y & N & _).
  assert (Hn : (n < length ops)%nat).
  { apply Nat.lt_le_trans with (m := length l); [lia|]. rewrite <- (map_length performed l), <- N. unfold without_jumps.
    clear. induction ops as [|op ops IH]; [reflexivity|]. cbn [filter]. destruct (negb (is_jump op)); cbn [length]; lia. }
  destruct (via_prefix _ _ _ _ _ _ _ Y n Hn) as ([f1 w1] & Y1 & Hr). cbn [fst] in Hr.
  destruct (ref_run_executes e p _ _ _ He (via_run _ _ _ _ _ _ Y1) c W (fun q => eq_refl)) as (c1 & h & Hx & L1 & _ & Hm). cbn [fst snd] in *.
  assert (Hi1 : instructions e p n c w c1 w1).
  { exists h. split; [|exact Hx]. rewrite <- (map_length snd h), Hm, map_length, firstn_length. lia. }
  destruct (instructions_fun _ _ _ _ _ _ _ _ _ Hi Hi1) as [E _]. subst c1. rewrite L1 in Hpc. lia.
Qed.

(** A portable program that reads no registers from memory and ends by its
    meaning for the emulator (C112) ends by its meaning for the reference. *)
Theorem C130_same_meaning : forall e p lo hi prog s w s' w', proper prog -> portable8 prog -> loads_not prog ->
  ends8 e p lo hi prog s w s' w' -> exists l s'', follows e lo hi (mkTask [prog] s w) l (mkTask [] s'' w') /\ but_for_pc s' s''.
Proof. intros e p lo hi prog s w s' w' Pr P N X. exact (ends_follows e p lo hi prog s w s' w' X Pr P N s [] (fun q _ => eq_refl)). Qed.

(** For example the multiplication of C112 multiplies on the reference. *)
Theorem C130_multiply : forall e f w L x y z t, NoDup [x; y; z; t; Vf] -> ref_about_to_run f L (multiply x y z t) ->
  u8 (f (PV (gp_index y))) -> u8 (f (PV (gp_index z))) ->
  exists ops f', ref_goes e L (L + 22) ops (f, w) (f', w) /\ f' PPC = L + 22 /\
    f' (PV (gp_index x)) = (f (PV (gp_index y)) * f (PV (gp_index z))) mod 256 /\ f' (PV (gp_index y)) = 0 /\
    forall q, q <> PPC -> q <> PV (gp_index x) -> q <> PV (gp_index y) -> q <> PV (gp_index t) -> f' q = f q.
Proof.
  intros e f w L x y z t Nd Ha By Bz.
  assert (Ds : x <> y /\ x <> z /\ x <> t /\ x <> Vf /\ y <> Vf /\ z <> Vf /\ t <> Vf).
  { repeat match goal with H : NoDup (_ :: _) |- _ => inversion_clear H end. cbn [In] in *. intuition congruence. }
  destruct Ds as (D1 & D2 & D3 & D7 & D8 & D9 & D10).
  pose proof (pv_differ _ _ D1) as Q1. pose proof (pv_differ _ _ D2) as Q2. pose proof (pv_differ _ _ D3) as Q3. unfold u8 in By, Bz.
  set (lo := L). set (hi := L + bytes (translate L (multiply x y z t))).
  pose proof (do_set e Release lo hi w x 0 f D7) as E1. remember (upd (advance f 2) (PV (gp_index x)) 0) as s1 eqn:S1.
  assert (O1 : forall q, q <> PPC -> q <> PV (gp_index x) -> s1 q = f q) by (intros q K0 K1; rewrite S1, upd_v_other, advance_other by assumption; reflexivity).
  assert (X1 : s1 (PV (gp_index x)) = 0) by (rewrite S1; apply upd_v_same).
  assert (Y1 : s1 (PV (gp_index y)) = f (PV (gp_index y))) by (apply O1; congruence).
  assert (Z1 : s1 (PV (gp_index z)) = f (PV (gp_index z))) by (apply O1; congruence).
  destruct (multiply_loop_ends e Release lo hi w x y z t (Z.to_nat (f (PV (gp_index y)))) Nd s1 ltac:(rewrite Y1; lia) ltac:(lia) ltac:(unfold u8; lia) ltac:(unfold u8; lia))
    as (s' & E2 & Xs & Ys & Os).
  pose proof Ha as (_ & _ & _ & Pr & _).
  assert (P : portable8 (multiply x y z t) /\ loads_not (multiply x y z t)).
  { unfold multiply, multiply_loop, count_over, portable_op. cbn [portable8 loads_not portable_op registers_named skip_if In].
    unfold portable_op. cbn [registers_named In]. intuition congruence. }
  destruct (C130_same_meaning e Release lo hi _ f w s' w Pr (proj1 P) (proj2 P) (ends8_then _ _ _ _ _ _ _ _ _ _ _ _ E1 E2)) as (l & s'' & X & A).
  destruct (C130_reference e f w L _ l _ Ha X) as (ops & f' & G & _ & A' & Hp). cbn [parts around todo] in *.
  exists ops, f'. change (L + 22) with hi. split; [exact G|]. split; [exact (Hp eq_refl)|]. split; [|split].
  - rewrite A', A by discriminate. rewrite Xs, X1, Z1, Z2Nat.id by lia. f_equal.
  - rewrite A', A by discriminate. exact Ys.
  - intros q K0 K1 K2 K3. rewrite A', A, Os, O1 by assumption. reflexivity.
Qed.

(** ** Concrete cases *)
Lemma good_proper prog : good8 prog -> proper prog.
Proof.
  induction prog as [|op|c1 IH1 c2 IH2|b c1 IH1 c2 IH2|b c IH]; cbn [good8 proper]; try tauto.
  - intros (Gb & G1 & G2). split; [|tauto]. destruct b; cbn [good_condition skip_if operands_ok] in *; tauto.
  - intros (Gb & G). split; [|tauto]. destruct b; cbn [good_condition skip_if operands_ok] in *; tauto.
Qed.
Lemma about_ref c L prog : about_to_run8 c L prog -> well_formed c /\ ref_about_to_run (observe c) L prog.
Proof.
  intros (W & Hp & (H0 & _ & C) & H1 & G). split; [exact W|]. split; [exact Hp|]. split; [exact H0|]. split; [exact H1|].
  split; [exact (good_proper prog G)|exact C].
Qed.
(** 6 times 7 on both machines, after the same number of instructions. *)
Example C130_case : exists c ops f' c', ref_about_to_run (observe c) 0x200 forty_two /\ portable8 forty_two /\
  ref_goes env0 0x200 0x21a ops (observe c, w0) (f', w0) /\ instructions env0 Debug (length ops) c w0 c' w0 /\
  looks c' f' /\ f' PPC = 0x21a /\ f' (PV 0) = 42.
Proof.
  destruct C112_case as (c & n & c1 & s' & Ha & E & X & Hp & V).
  destruct (about_ref c _ _ Ha) as [W R].
  assert (P : portable8 forty_two /\ loads_not forty_two).
  { unfold forty_two, multiply, multiply_loop, count_over. cbn [portable8 loads_not skip_if registers_named In].
    unfold portable_op. cbn [registers_named In]. intuition discriminate. }
  destruct (C130_same_meaning env0 Debug 0x200 0x21a _ _ _ _ _ (proj1 (proj2 (proj2 (proj2 R)))) (proj1 P) (proj2 P) E) as (l & s'' & Y & A).
  destruct (C130_emulator env0 Debug c w0 0x200 forty_two l _ env0_ok W R Y (C130_portable _ _ _ _ _ _ _ _ (proj1 P) Y))
    as (ops & f' & c' & G & X' & L' & A' & _ & Hp').
  cbn [around parts todo] in *. exists c, ops, f', c'. split; [exact R|]. split; [apply P|]. split; [exact G|]. split; [exact X'|]. split; [exact L'|].
  split; [rewrite <- L'; exact (Hp' eq_refl)|].
  rewrite <- L', A', A by discriminate.
  clear - E. set (hi := 0x21a) in *. inversion E as [| |? ? ? ? s2 w2 ? ? Ea Eb| | |]; subst. inversion Ea as [| |? ? ? ? s1 w1 ? ? E1 E2| | |]; subst.
  inversion E1 as [|? ? ? ? ? F1 _| | | |]; subst. inversion E2 as [|? ? ? ? ? F2 _| | | |]; subst.
  assert (w1 = w0 /\ s1 = upd (advance (observe c) 2) (PV (gp_index V1)) 6) as [-> ->] by (cbn [effect] in F1; unfold needs, done in F1; change (has V1) with true in F1; cbv iota in F1; split; congruence).
  assert (w2 = w0 /\ s2 = upd (advance (upd (advance (observe c) 2) (PV (gp_index V1)) 6) 2) (PV (gp_index V2)) 7) as [-> ->]
    by (cbn [effect] in F2; unfold needs, done in F2; change (has V2) with true in F2; cbv iota in F2; split; congruence).
  assert (D : NoDup [V0; V1; V2; V3; Vf]) by (repeat constructor; cbn [In]; intuition discriminate).
  pose proof (do_set env0 Debug 0x200 hi w0 V0 0 (upd (advance (upd (advance (observe c) 2) (PV (gp_index V1)) 6) 2) (PV (gp_index V2)) 7) ltac:(discriminate)) as E3.
  remember (upd (advance (upd (advance (observe c) 2) (PV (gp_index V1)) 6) 2) (PV (gp_index V2)) 7) as s2 eqn:S2.
  remember (upd (advance s2 2) (PV (gp_index V0)) 0) as s3 eqn:S3.
  destruct (multiply_loop_ends env0 Debug 0x200 hi w0 V0 V1 V2 V3 6 D s3 ltac:(subst; reflexivity) ltac:(lia) ltac:(subst; cbn; unfold u8; lia) ltac:(subst; cbn; unfold u8; lia))
    as (s4 & E4 & Xs & _).
  destruct (C112_one_meaning _ _ _ _ _ _ _ _ _ Eb _ _ (ends8_then _ _ _ _ _ _ _ _ _ _ _ _ E3 E4)) as [-> _].
  change (PV 0) with (PV (gp_index V0)). rewrite Xs. subst. reflexivity.
Qed.

(** Waiting for a key: the reference waits as long as no key is pressed, here
    for ever; the emulator goes on (C50). *)
Lemma waits_for_ever e lo hi x s w : s PKey = -1 -> forall n,
  follows e lo hi (mkTask [Do (LdK x)] s w) (repeat (mkEvent (LdK x) s w) n) (mkTask [Do (LdK x)] s w).
Proof.
  intros K. induction n as [|n IH]; [constructor|]. cbn [repeat]. change (?a :: ?l) with ([a] ++ l). econstructor; [|exact IH]. apply proceeds_wait. exact K.
Qed.
Example C130_departure_case : exists c, ref_about_to_run (observe c) 0x200 (Do (LdK V1)) /\
  (forall n, exists ops f', length ops = n /\ ref_goes env0 0x200 0x202 ops (observe c, w0) (f', w0) /\ f' PPC = 0x200) /\
  exists c1 g, looks c1 (observe c) /\ reference env0 (observe c) w0 (LdK V1) = Some (g, w0) /\
    forall c2, step env0 Debug c1 w0 = Ok (c2, w0) -> ~ looks c2 g.
Proof.
  destruct (demo_with (Do (LdK V1))) as (c & Ha & _ & K).
  { repeat split. }
  { repeat constructor. }
  { reflexivity. }
  destruct (about_ref c _ _ Ha) as [W R]. exists c. split; [exact R|].
  assert (F : ref_fetches (observe c) (LdK V1)).
  { destruct R as (Hp & _ & _ & _ & C). split; [exact I|]. rewrite Hp. split; [lia|]. symmetry. exact (C 0%nat _ eq_refl). }
  assert (E : reference env0 (observe c) w0 (LdK V1) = Some (observe c, w0)) by (unfold reference, same_world; rewrite K; reflexivity).
  split.
  - induction n as [|n (ops & f' & El & G & Hp)].
    + exists [], (observe c). split; [reflexivity|]. split; [constructor|apply R].
    + exists (LdK V1 :: ops), f'. split; [cbn [length]; congruence|]. split; [|exact Hp]. econstructor; [|exact F|exact E|exact G].
      destruct R as (Hp0 & _). lia.
  - exists c, (observe c). split; [intros q; reflexivity|]. split; [exact E|]. intros c2 Es L2.
    apply (step_iff8 env0 Debug c w0 (observe c) W env0_ok (fun q => eq_refl) (LdK V1) (observe c) w0 F E); [exists c2; auto|right; exact K].
Qed.
(** Hypotheses of C130_first_departure: a program whose third instruction
    looks at VF. *)
Example C130_first_departure_case : exists c l t1 v t2, let prog := Then (Do (LdImmediate V0 7)) (Choose (IsByte Vf 0) (Do Cls) Nothing) in
  well_formed c /\ ref_about_to_run (observe c) 0x200 prog /\ follows env0 0x200 0x20a (mkTask [prog] (observe c) w0) l t1 /\ l <> [] /\
  Forall (fun v => ~ departs8 env0 (before v) (when v) (performed v)) l /\ proceeds env0 0x200 0x20a t1 [v] t2 /\
  departs8 env0 (before v) (when v) (performed v) /\ 0x200 + bytes (translate 0x200 prog) = 0x20a.
Proof.
  set (prog := Then (Do (LdImmediate V0 7)) (Choose (IsByte Vf 0) (Do Cls) Nothing)).
  destruct (demo_with (Then (Do (LdImmediate V0 7)) (Then (Do Cls) (Then (Do Cls) (Then (Do Cls) (Do Cls)))))) as (c0 & Ha0 & _).
  { repeat split; cbn; unfold u8; lia. }
  { repeat constructor; cbn; unfold u8; lia. }
  { reflexivity. }
  destruct Ha0 as (W0 & Hp0 & _).
  destruct (put_instructions (translate 0x200 prog) c0 0x200 W0 ltac:(lia) ltac:(cbn; lia)) as (c & W & Ld & Ag).
  { repeat constructor; cbn; unfold u8; lia. }
  exists c. do 4 eexists. cbv zeta. split; [exact W|]. split; [|split; [|split; [|split; [|split; [|split]]]]].
  - split; [rewrite Ag; [exact Hp0|intros []]|]. split; [lia|]. split; [reflexivity|]. split; [repeat split; cbn; unfold u8; lia|apply Ld].
  - unfold prog. eapply follows_on; [apply proceeds_then|]. eapply follows_on; [|apply follows_here].
    apply proceeds_do; [exact (fun K => K)|reflexivity|]. intros a Ha. reflexivity.
  - discriminate.
  - constructor; [|constructor]. apply portable_never. split; [|exact I]. intros [K|[]]; discriminate K.
  - apply proceeds_choose.
  - left. left. reflexivity.
  - reflexivity.
Qed.

(** Waiting in a loop for a key nobody presses: neither machine ends. *)
Example C130_forever_case : exists c, ref_about_to_run (observe c) 0x200 wait_key /\ portable8 wait_key /\
  forall n, exists ops f' c' w', length ops = n /\ ref_goes env0 0x200 0x206 ops (observe c, w0) (f', w') /\ instructions env0 Debug n c w0 c' w' /\
    looks c' f' /\ 0x200 <= observe c' PPC < 0x206.
Proof.
  destruct (demo_with wait_key) as (c & Ha & V1_0 & K).
  { repeat split; discriminate. }
  { repeat constructor; cbn; lia. }
  { reflexivity. }
  destruct (about_ref c _ _ Ha) as [W R]. exists c. split; [exact R|].
  assert (P : portable8 wait_key) by (split; [intros [Kv|[]]; discriminate Kv|exact I]). split; [exact P|].
  apply (C130_forever env0 Debug c w0 0x200 wait_key env0_ok W R P).
  assert (Inv : forall t l t', follows env0 0x200 0x206 t l t' -> holds (Released V1) (parts t) = true ->
    todo t = [wait_key] \/ todo t = [Nothing; wait_key] -> todo t' = [wait_key] \/ todo t' = [Nothing; wait_key]).
  { induction 1 as [t|t l1 t1 l2 t2 X Y IH]; intros Hh Ht; [exact Ht|]. unfold wait_key in *.
    destruct X; cbn [todo parts] in *; destruct Ht as [Ht|Ht]; try discriminate Ht; injection Ht as; subst; apply IH; try exact Hh; rewrite ?Hh; tauto. }
  intros l t' X. destruct (Inv _ _ _ X) as [E|E].
  - cbn [parts holds]. rewrite K. change (PV (gp_index V1)) with (PV 1). rewrite V1_0. reflexivity.
  - left. reflexivity.
  - rewrite E. split; [discriminate|]. intros (op & k & Eo & _). rewrite E in Eo. discriminate Eo.
  - rewrite E. split; [discriminate|]. intros (op & k & Eo & _). rewrite E in Eo. discriminate Eo.
Qed.

Print Assumptions C130_reference.
Print Assumptions C130_emulator.
Print Assumptions C130_first_departure.
Print Assumptions C130_one_meaning.
Print Assumptions C130_portable.
Print Assumptions C130_forever.
Print Assumptions C130_only_then.
Print Assumptions C130_same_meaning.
Print Assumptions C130_multiply.
