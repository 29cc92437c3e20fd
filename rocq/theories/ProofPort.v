(** Checked 6502 code does on the documented 6502 what it does on the emulator. *)
From Verif Require Import Base Arith ModelMap ModelRegs6502 ModelCpu6502 ModelIsa6502 ModelRun6502 SpecMap Link6502 ProofRun6502 ProofBus
  SpecInstr ProofInstr ProofFrame PropertiesFrame ProofProgram PropertiesLive ProofExchange ProofDatasheet.
From Verif Require Import Spec6502 SpecBus SpecFrame SpecLive SpecProgram SpecMove SpecExchange SpecCheck ProofCheck SpecSecret ProofSecret SpecDatasheet SpecPortable SpecPort.

Lemma has_in x l : has x l = true <-> In x l.
Proof.
  unfold has. rewrite among_in. rewrite in_map_iff. split; [intros (y & E & Hy); congruence|intros H; exists x; auto].
Qed.

(** ** One instruction on both machines, from the same state *)
Lemma ds_bytes mn m c r f b1 b2 d1 d2 : legal mn m = true -> same_bytes m b1 b2 d1 d2 -> ds_execute mn m c r f b1 b2 = ds_execute mn m c r f d1 d2.
Proof.
  intros Hl [H2 H3]. destruct mn, m; try discriminate Hl; cbn [length_of] in H2, H3;
    try specialize (H2 ltac:(lia)); try specialize (H3 ltac:(lia)); try subst d1; try subst d2; reflexivity.
Qed.

Definition close (mn : mnemonic) (m : addressing_mode) (b1 : Z) (e d : effect) : Prop :=
  e_stores e = e_stores d /\ e_cycles e = e_cycles d /\ rPC (e_regs e) = rPC (e_regs d) /\
  forall x, (forall y, x = Flag y -> ~ In y (lost mn m b1)) -> same (e_regs e) (e_regs d) x.

Lemma close_same mn m b1 e : close mn m b1 e e.
Proof. split; [reflexivity|]. split; [reflexivity|]. split; [reflexivity|]. intros [x|x] _; reflexivity. Qed.

Lemma adc_close r v : ps_carry (rP r) = false -> u8 v -> u8 (rA r) ->
  rPC (spec_adc r v) = rPC (ds_adc r v) /\ forall x, (forall y, x = Flag y -> y <> FV) -> same (spec_adc r v) (ds_adc r v) x.
Proof.
  intros Hc Hv Ha. unfold spec_adc, ds_adc, doc_adc, carry_in. rewrite Hc. cbv zeta. rewrite Z.add_0_r.
  replace (255 <? rA r + v) with (256 <=? rA r + v) by (clear; lia).
  split; [reflexivity|]. intros [[]|[]] Hx; try reflexivity. exfalso. exact (Hx FV eq_refl eq_refl).
Qed.
Lemma sbc_close r v : u8 v -> u8 (rA r) ->
  rPC (spec_sbc r v) = rPC (ds_sbc r v) /\
  forall x, (forall y, x = Flag y -> y <> FV /\ (v = 0 -> y <> FC)) -> same (spec_sbc r v) (ds_sbc r v) x.
Proof.
  intros Hv Ha. unfold spec_sbc, ds_sbc, doc_sbc, carry_in, u8 in *. cbv zeta.
  assert (E : (rA r - v - (1 - (if ps_carry (rP r) then 1 else 0))) = rA r - v - (if ps_carry (rP r) then 0 else 1)) by (destruct (ps_carry (rP r)); lia).
  rewrite E. split; [reflexivity|]. intros [[]|[]] Hx; try reflexivity.
  - (* C *) cbn [same flag_of withA withP setZ setN setNZ setV setC rP ps_carry]. destruct (Hx FC eq_refl) as [_ Hz]. destruct (Z.eq_dec v 0) as [K|K]; [exfalso; exact (Hz K eq_refl)|].
    clear E Hx Hz. destruct (ps_carry (rP r)); rewrite Z.mod_small by lia; apply Bool.eq_true_iff_eq; rewrite !Z.leb_le; lia.
  - exfalso. exact (proj1 (Hx FV eq_refl) eq_refl).
Qed.
Lemma compare_close r a v : u8 v -> u8 a ->
  rPC (spec_compare r a v) = rPC (ds_compare r a v) /\
  forall x, (forall y, x = Flag y -> v < 128 -> y <> FC) -> same (spec_compare r a v) (ds_compare r a v) x.
Proof.
  intros Hv Ha. unfold spec_compare, ds_compare, u8 in *. split; [reflexivity|]. intros [[]|[]] Hx; try reflexivity.
  cbn [same flag_of withP setZ setN setNZ setC rP ps_carry]. destruct (Z_lt_le_dec v 128) as [K|K]; [exfalso; exact (Hx FC eq_refl K eq_refl)|]. clear Hx. unfold compare_rank. 
  destruct (v =? 0) eqn:?, (v <? 128) eqn:?, (a =? 0) eqn:?, (a <? 128) eqn:?; lia.
Qed.

Lemma chip_close p mn m c r f b1 b2 : regs_ok r -> byte_valued f -> u8 b1 -> u8 b2 -> legal mn m = true ->
  through_pointer m = false -> refused p mn m = false -> is_branch mn = false -> (mn = Adc -> ps_carry (rP r) = false) ->
  exists e, execute p mn m c r f b1 b2 = Some e /\ close mn m b1 e (ds_execute mn m c r f b1 b2).
Proof.
  intros Hr Hv H1 H2 Hl Ht Hrf Hb Hadc.
  assert (Ex : ~ departs p mn m r f b1 b2 -> exists e, execute p mn m c r f b1 b2 = Some e /\ close mn m b1 e (ds_execute mn m c r f b1 b2)).
  { intros Hd. exists (ds_execute mn m c r f b1 b2). split; [apply execute_iff; assumption|apply close_same]. }
  assert (Nd : (match mn with Adc | Sbc | Cmp | Cpx | Cpy | Dey => False | _ => True end) -> ~ departs p mn m r f b1 b2).
  { intros Hm [(_ & -> & _)|[(_ & -> & _)|[(_ & -> & _)|[(-> & _)|K]]]]; try discriminate Ht. destruct mn; try discriminate Hb; try discriminate Hrf; try contradiction Hm; contradiction K. }
  assert (Rd : forall F G, match m with Immediate => true | _ => in_mem m end = true ->
    execute p mn m c r f b1 b2 = read_op p m r f b1 b2 c F ->
    ds_execute mn m c r f b1 b2 = mkEffect (withPC G ((rPC r + length_of m) mod 65536)) [] (c + (if ds_crosses m r f b1 then 1 else 0)) ->
    (forall w, u8 w -> rPC (F r w) = rPC r) ->
    (forall x, (forall y, x = Flag y -> ~ In y (lost mn m b1)) -> same (F r (ds_value m r f b1 b2)) G x) ->
    exists e, execute p mn m c r f b1 b2 = Some e /\ close mn m b1 e (ds_execute mn m c r f b1 b2)).
  { intros F G Hm E1 E2 Hpc Hs. rewrite E1, E2. rewrite (read_eq p m r f b1 b2 c Hr Hv H1 H2 F Hm).
    assert (Hw : debug p && wraps m r f b1 = false) by (destruct m; try discriminate Ht; cbn [wraps]; apply Bool.andb_false_r). rewrite Hw.
    eexists. split; [reflexivity|].
    assert (Hc : charged m r f b1 b2 = ds_crosses m r f b1) by (destruct m; try discriminate Ht; reflexivity). rewrite Hc.
    split; [reflexivity|]. split; [reflexivity|]. cbn [e_regs]. split.
    - unfold advance. cbn [withPC rPC]. rewrite Hpc; [reflexivity|]. apply value_u8; try assumption. destruct m; try discriminate Hm; reflexivity.
    - intros x Hx. specialize (Hs x Hx). destruct x as [[]|[]]; exact Hs. }
  assert (V : match m with Immediate => true | _ => in_mem m end = true -> u8 (ds_value m r f b1 b2)).
  { intros Hm. apply value_u8; try assumption. destruct m; try discriminate Hm; reflexivity. }
  assert (Im : m = Immediate -> ds_value m r f b1 b2 = b1) by (intros ->; reflexivity).
  pose proof Hr as (HA & HX & HY & _).
  destruct mn; try (apply Ex, Nd; exact Logic.I); cbn [legal] in Hl.
  - (* ADC *) destruct (adc_close r (ds_value m r f b1 b2) (Hadc eq_refl) (V Hl) HA) as [K1 K2].
    apply (Rd spec_adc (ds_adc r (ds_value m r f b1 b2)) Hl eq_refl eq_refl); [intros w _; reflexivity|].
    intros x Hx. apply K2. intros y -> ->. apply (Hx FV eq_refl). destruct m; left; reflexivity.
  - (* CMP *) destruct (compare_close r (rA r) (ds_value m r f b1 b2) (V Hl) HA) as [K1 K2].
    apply (Rd (fun r v => spec_compare r (rA r) v) (ds_compare r (rA r) (ds_value m r f b1 b2)) Hl eq_refl eq_refl); [intros w _; reflexivity|].
    intros x Hx. apply K2. intros y -> Hlt ->. apply (Hx FC eq_refl). destruct m; try (left; reflexivity). rewrite (Im eq_refl) in Hlt.
    cbn [lost]. replace (128 <=? b1) with false by lia. left; reflexivity.
  - (* CPX *) destruct (compare_close r (rX r) (ds_value m r f b1 b2) (V Hl) HX) as [K1 K2].
    apply (Rd (fun r v => spec_compare r (rX r) v) (ds_compare r (rX r) (ds_value m r f b1 b2)) Hl eq_refl eq_refl); [intros w _; reflexivity|].
    intros x Hx. apply K2. intros y -> Hlt ->. apply (Hx FC eq_refl). destruct m; try (left; reflexivity). rewrite (Im eq_refl) in Hlt.
    cbn [lost]. replace (128 <=? b1) with false by lia. left; reflexivity.
  - (* CPY *) destruct (compare_close r (rY r) (ds_value m r f b1 b2) (V Hl) HY) as [K1 K2].
    apply (Rd (fun r v => spec_compare r (rY r) v) (ds_compare r (rY r) (ds_value m r f b1 b2)) Hl eq_refl eq_refl); [intros w _; reflexivity|].
    intros x Hx. apply K2. intros y -> Hlt ->. apply (Hx FC eq_refl). destruct m; try (left; reflexivity). rewrite (Im eq_refl) in Hlt.
    cbn [lost]. replace (128 <=? b1) with false by lia. left; reflexivity.
  - (* DEY *) destruct m; try discriminate Hl. eexists. split; [reflexivity|]. split; [reflexivity|]. split; [reflexivity|]. split; [reflexivity|].
    intros [[]|[]] Hx; try reflexivity; exfalso; [apply (Hx FZ eq_refl)|apply (Hx FN eq_refl)]; cbn; auto.
  - (* SBC *) destruct (sbc_close r (ds_value m r f b1 b2) (V Hl) HA) as [K1 K2].
    apply (Rd spec_sbc (ds_sbc r (ds_value m r f b1 b2)) Hl eq_refl eq_refl); [intros w _; reflexivity|].
    intros x Hx. apply K2. intros y ->. specialize (Hx y eq_refl). split.
    + intros ->. apply Hx. destruct m; cbn [lost]; try (destruct (b1 =? 0)); cbn; auto.
    + intros K ->. apply Hx. destruct m; cbn [lost]; try (cbn; auto; fail). rewrite (Im eq_refl) in K. subst b1. cbn. auto.
Qed.

(** Branches, with the displacement adapted. *)
Lemma branch_close p mn m c r f b1 b2 d2 : regs_ok r -> u8 b1 -> legal mn m = true -> is_branch mn = true -> 0 <= rPC r <= 0xfffd ->
  -126 <= signed b1 -> rPC r / 256 = (rPC r + 2) / 256 ->
  exists e, execute p mn m c r f b1 b2 = Some e /\ close mn m b1 e (ds_execute mn m c r f ((b1 - 2) mod 256) d2).
Proof.
  intros Hr H1 Hl Hb Hpc Hs Hpg.
  assert (Tg : ds_target r ((b1 - 2) mod 256) = (rPC r + signed b1) mod 65536).
  { unfold ds_target. f_equal. unfold signed, u8 in *. destruct (b1 <? 128) eqn:E1, ((b1 - 2) mod 256 <? 128) eqn:E2; lia. }
  assert (Pg : (rPC r + 2) mod 65536 / 256 = rPC r / 256) by (rewrite Z.mod_small by lia; symmetry; exact Hpg).
  assert (G : forall bb, exists e, branch_op bb r b1 c = Some e /\
    close mn m b1 e (if bb then mkEffect (withPC r (ds_target r ((b1 - 2) mod 256))) [] (c + (if ds_target r ((b1 - 2) mod 256) / 256 =? (rPC r + 2) mod 65536 / 256 then 1 else 2))
                     else mkEffect (withPC r ((rPC r + 2) mod 65536)) [] c)).
  { intros bb. unfold branch_op. destruct bb; eexists; (split; [reflexivity|]); [rewrite Tg, Pg|]; apply close_same. }
  destruct mn; try discriminate Hb; destruct m; try discriminate Hl; unfold execute, ds_execute; cbn [branch_taken length_of]; cbv zeta.
  all: match goal with |- exists e, branch_op ?bb _ _ _ = _ /\ _ => destruct (G bb) as (e & E1 & E2); exists e; split; [exact E1|]; revert E2; destruct bb; exact (fun x => x) end.
Qed.

(** ** Code on both machines *)
Lemma lost_changed mn m b1 x : In x (lost mn m b1) -> In x (flags_changed mn).
Proof.
  destruct mn; cbn [lost flags_changed]; try (intros []; fail); destruct m; try (destruct (b1 =? 0)); try (destruct (128 <=? b1)); cbn; tauto.
Qed.
Lemma sets_flag mn m x : In (Flag x) (sets mn m) <-> In x (flags_changed mn).
Proof.
  unfold sets. rewrite in_app_iff, !in_map_iff. split.
  - intros [(y & E & _)|(y & E & H)]; [discriminate|]. injection E as ->. exact H.
  - intros H. right. exists x. auto.
Qed.

Section Port.
Variables (p : profile) (P : port) (f0 : Z -> Z) (ramb : Z -> bool) (ram : Z -> Prop) (l : listing) (S0 : Z).
Hypothesis Hram : forall q, ramb q = true -> ram q.
Hypothesis Hpass : passes p f0 ramb l = true.
Hypothesis Hport : portable P f0 l = true.
Hypothesis Hv0 : byte_valued f0.

(** The chip's state goes with the emulator's. *)
Definition goes_with (r1 : registers) (f1 : Z -> Z) (r2 : registers) (f2 : Z -> Z) : Prop :=
  (forall y, get r1 y = get r2 y) /\ rPC r1 = rPC r2 /\ (forall x, In x (agreed P (rPC r1)) -> flag_of r1 x = flag_of r2 x) /\
  ps_decimal (rP r2) = false /\ (clear_at P (rPC r1) = true -> ps_carry (rP r2) = false) /\ chip_memory f0 l f1 f2.

Lemma displacement_code q : displacement f0 l q = true -> code_byte f0 l q = true.
Proof.
  intros H. unfold displacement in H. apply existsb_exists in H as (n & Hn & H). apply andb_prop in H as [E H].
  destruct (decode (f0 (n_at n))) as [[[mn m] c]|] eqn:Ed; [|discriminate]. unfold code_byte. apply existsb_exists. exists n. split; [exact Hn|].
  unfold covers. rewrite Ed. pose proof (decode_fits _ _ _ _ Ed) as Hf. assert (length_of m = 2) by (destruct mn; try discriminate H; destruct m; try discriminate Hf; reflexivity).
  lia.
Qed.

Definition port_at (n : note) mn m c (b1 b2 : Z) : Prop :=
  decode (f0 (n_at n)) = Some (mn, m, c) /\ b1 = f0 (n_at n + 1) /\ b2 = f0 (n_at n + 2) /\ u8 b1 /\ u8 b2 /\
  refused p mn m = false /\ through_pointer m = false /\ mn <> Sed /\ mn <> Plp /\
  (forall x, In x (flags_used mn) -> In x (agreed P (n_at n))) /\ (mn = Adc -> clear_at P (n_at n) = true) /\
  (forall q, In q (may_read mn m b1 b2) -> displacement f0 l q = false) /\
  (forall j, 0 <= j < length_of m -> (is_branch mn = true /\ j = 1) \/ displacement f0 l (n_at n + j) = false) /\
  (is_branch mn = true -> -126 <= signed b1 /\ n_at n / 256 = (n_at n + 2) / 256) /\
  (forall g x, In g (onward_flags P mn m (n_at n) b1 b2) -> In x (fst g) -> (In x (flags_changed mn) /\ ~ In x (lost mn m b1)) \/ (~ In x (flags_changed mn) /\ In x (agreed P (n_at n)))) /\
  (forall g, In g (onward_flags P mn m (n_at n) b1 b2) -> snd g = true -> mn = Clc \/ (clear_at P (n_at n) = true /\ ~ In FC (flags_changed mn))) /\
  (mn = Jsr -> (forall x, In x (agreed P (n_at n + 3)) -> In x (agreed_back P)) /\ (clear_at P (n_at n + 3) = true -> clear_back P = true)).

Lemma noted_port n : In n l -> exists mn m c b1 b2, port_at n mn m c b1 b2.
Proof.
  intros Hin. assert (Hok : instruction_ok p f0 ramb l n = true).
  { unfold passes in Hpass. apply andb_prop in Hpass as [_ Hl]. rewrite forallb_forall in Hl. exact (Hl n Hin). }
  assert (Hk : port_ok P f0 l n = true).
  { unfold portable in Hport. rewrite forallb_forall in Hport. exact (Hport n Hin). }
  unfold instruction_ok in Hok. unfold port_ok in Hk. destruct (decode (f0 (n_at n))) as [[[mn m] c]|] eqn:Ed; [|discriminate].
  apply andb_prop in Hok as [Hb Hok]. apply andb_prop in Hok as [Hok _]. apply andb_prop in Hok as [Hrf _]. apply Bool.negb_true_iff in Hrf.
  apply andb_prop in Hk as [Hk K9]. apply andb_prop in Hk as [Hk K8]. apply andb_prop in Hk as [Hk K7]. apply andb_prop in Hk as [Hk K6].
  apply andb_prop in Hk as [Hk K5]. apply andb_prop in Hk as [Hk K4]. apply andb_prop in Hk as [Hk K3]. apply andb_prop in Hk as [K1 K2].
  apply Bool.negb_true_iff in K1, K5. rewrite forallb_forall in K3, K6, K8. pose proof (length_range m) as Hlen.
  exists mn, m, c, (f0 (n_at n + 1)), (f0 (n_at n + 2)).
  split; [exact Ed|]. split; [reflexivity|]. split; [reflexivity|]. split; [apply Hv0; unfold u16; lia|]. split; [apply Hv0; unfold u16; lia|].
  split; [exact Hrf|]. split; [exact K1|]. split; [intros ->; discriminate K2|]. split; [intros ->; discriminate K2|].
  split; [intros x Hx; apply has_in; exact (K3 x Hx)|]. split; [intros ->; exact K4|].
  split. { intros q Hq. destruct (displacement f0 l q) eqn:E; [|reflexivity]. rewrite <- K5. symmetry. apply existsb_exists. exists q. auto. }
  split. { intros j Hj. assert (Hi : In j (firstn (Z.to_nat (length_of m)) [0; 1; 2])).
    { assert (length_of m = 1 \/ length_of m = 2 \/ length_of m = 3) as [E | [E | E]] by lia; rewrite E in Hj |- *; clear - Hj; [assert (j = 0) by lia|assert (j = 0 \/ j = 1) by lia|assert (j = 0 \/ j = 1 \/ j = 2) by lia];
        [change (In j [0])|change (In j [0; 1])|change (In j [0; 1; 2])]; cbn [In]; intuition. }
    specialize (K6 j Hi). apply Bool.orb_prop in K6 as [K6|K6]; [left|right; apply Bool.negb_true_iff; exact K6].
    apply andb_prop in K6 as [B E]. split; [exact B|lia]. }
  split. { intros B. rewrite B in K7. cbn [implb] in K7. apply andb_prop in K7 as [A B']. split; lia. }
  split. { intros g x Hg Hx. specialize (K8 g Hg). apply andb_prop in K8 as [K8 _]. rewrite forallb_forall in K8. specialize (K8 x Hx).
    destruct (has x (flags_changed mn)) eqn:E.
    - left. split; [apply has_in; exact E|]. intros K. apply has_in in K. rewrite K in K8. discriminate.
    - right. split; [intros K; apply has_in in K; congruence|apply has_in; exact K8]. }
  split. { intros g Hg Hs. specialize (K8 g Hg). apply andb_prop in K8 as [_ K8]. rewrite Hs in K8. cbn [implb] in K8.
    assert (mn = Clc \/ mn <> Clc) as [->|Hne] by (destruct mn; (left; reflexivity) || (right; discriminate)); [left; reflexivity|right].
    assert (K : clear_at P (n_at n) && negb (has FC (flags_changed mn)) = true) by (destruct mn; try exact K8; contradiction Hne; reflexivity).
    apply andb_prop in K as [Q1 Q2]. split; [exact Q1|]. intros K. apply has_in in K. rewrite K in Q2. discriminate. }
  intros ->. apply andb_prop in K9 as [Q1 Q2]. rewrite forallb_forall in Q1. split; [intros x Hx; apply has_in; exact (Q1 x Hx)|].
  intros E. rewrite E in Q2. exact Q2.
Qed.

(** Where the program goes on, and what is needed there. *)
Lemma next_flags r1 f1 n u1 mn m c b1 b2 e1 : core f0 l S0 r1 f1 n u1 -> tower f0 l S0 f1 0 true (u1 - n_depth n) (n_main n) ->
  port_at n mn m c b1 b2 -> step p r1 f1 = Some e1 ->
  exists g, In g (onward_flags P mn m (n_at n) b1 b2) /\ (forall x, In x (agreed P (rPC (e_regs e1))) -> In x (fst g)) /\
    (clear_at P (rPC (e_regs e1)) = true -> snd g = true).
Proof.
  intros C1 T1 I Es.
  destruct (core_step p f0 ramb ram l S0 Hram Hpass r1 f1 n u1 C1) as (mn' & m' & c' & e1' & Ed & Es1 & Sh & Hs & Ha & Hin & _).
  rewrite Es in Es1. injection Es1 as <-. destruct I as (I1 & -> & -> & U1 & U2 & Hrf & _). rewrite I1 in Ed. injection Ed as <- <- <-.
  pose proof (decode_fits _ _ _ _ I1) as Hfit. pose proof (length_range m) as Hlen.
  assert (Next : forall k, rPC (e_regs e1) = (rPC r1 + k) mod 65536 -> 1 <= k <= 3 -> (exists d h, goes_to l (n_main n) (n_at n + k) d h = true) -> rPC (e_regs e1) = n_at n + k).
  { intros k E Hk (d & h & G). destruct (goes_note p f0 ramb ram l Hram _ _ _ _ G) as (nn & En & _).
    rewrite E, <- Ha. exact (mod_pc p f0 ramb ram l S0 Hram Hpass _ _ _ En). }
  destruct mn; try discriminate Hrf; cbn [onward_flags shape successors_ok] in *; destruct Sh as (Q1 & Q2 & Q3);
  try (eexists; split; [left; reflexivity|]; rewrite (Next (length_of m) Q3 ltac:(lia) ltac:(eexists; eexists; exact Hs)); cbn [fst snd]; tauto);
  try (apply andb_prop in Hs as [G1 G2]; destruct Q3 as [Q3|Q3];
       [ eexists; split; [left; reflexivity|]; rewrite (Next 2 Q3 ltac:(lia) ltac:(eexists; eexists; exact G1)); cbn [fst snd]; tauto
       | eexists; split; [right; left; reflexivity|]; rewrite Q3, Ha; cbn [fst snd]; tauto ]).
  (* JMP, JSR *)
  1,2: eexists; split; [left; reflexivity|]; rewrite Q3; cbn [fst snd]; tauto.
  (* PHA, PHP, PLA, PLP *)
  1,2: eexists; (split; [left; reflexivity|]); destruct m; try discriminate Hfit; cbn [length_of];
    rewrite (Next 1 Q3 ltac:(lia) ltac:(eexists; eexists; exact Hs)); cbn [fst snd]; tauto.
  1,2: apply andb_prop in Hs as [_ Hs]; eexists; (split; [left; reflexivity|]); destruct m; try discriminate Hfit; cbn [length_of];
    rewrite (Next 1 Q3 ltac:(lia) ltac:(eexists; eexists; exact Hs)); cbn [fst snd]; tauto.
  (* RTS *)
  eexists. split; [left; reflexivity|]. cbn [fst snd].
  destruct (return_target p f0 ramb ram l S0 Hram Hpass r1 f1 n u1 _ _ e1 C1 T1 I1 Es) as (nc & mc & cc & Hic & Edc & Epc').
  destruct (noted_port nc Hic) as (mn3 & m3 & c3 & b13 & b23 & J1 & J).
  rewrite J1 in Edc. injection Edc as -> -> ->. rewrite Epc'. apply J. reflexivity.
Qed.

Lemma port_step r1 f1 r2 f2 n u1 : core f0 l S0 r1 f1 n u1 -> tower f0 l S0 f1 0 true (u1 - n_depth n) (n_main n) -> goes_with r1 f1 r2 f2 ->
  exists e1 d, step p r1 f1 = Some e1 /\ ds_effect (r2, f2) = Some d /\ e_cycles e1 = e_cycles d /\ e_stores e1 = e_stores d /\
    goes_with (e_regs e1) (stored f1 (e_stores e1)) (e_regs d) (stored f2 (e_stores d)).
Proof.
  intros C1 T1 (Hreg & Epc & Hag & Hdec & Hclr & Hmem).
  destruct (core_step p f0 ramb ram l S0 Hram Hpass r1 f1 n u1 C1) as (mn & m & c & e1 & Ed1 & Es1 & Sh1 & Hs1 & Ha1 & Hin & Hr1 & Hv1' & E01).
  destruct (noted_port n Hin) as (mn0 & m0 & c0 & b1 & b2 & I).
  destruct (next_flags r1 f1 n u1 mn0 m0 c0 b1 b2 e1 C1 T1 I Es1) as (g & Hg & Hga & Hgc).
  destruct I as (I1 & Eb1 & Eb2 & U1 & U2 & Hrf & Htp & Hsed & Hplp & Hused & Hadc & Hmr & Hown & Hbr & Hfl & Hcl & _).
  rewrite I1 in Ed1. injection Ed1 as <- <- <-. rewrite <- Eb1, <- Eb2 in Sh1.
  pose proof (decode_fits _ _ _ _ I1) as Hfit. pose proof (decode_possible _ _ _ _ I1) as Hpos. pose proof (decode_legal _ _ _ _ I1) as Hleg.
  pose proof C1 as (Ho1 & Hv1 & En1 & ES1 & Hu1 & Hc1).
  pose proof (note_bounds p f0 ramb ram l S0 Hram Hpass _ _ En1) as Bn. pose proof (length_range m0) as Hlen.
  pose proof (own_bytes p f0 ramb ram l S0 Hram Hpass f1 n mn0 m0 c0) as Own.
  pose proof Es1 as X1. rewrite (step_at p r1 f1 (f0 (n_at n)) mn0 m0 c0) in X1; [|lia|rewrite E01, Ha1; reflexivity|exact I1].
  assert (SB : same_bytes m0 (f1 (rPC r1 + 1)) (f1 (rPC r1 + 2)) b1 b2).
  { rewrite <- Ha1, Eb1, Eb2. split; intros H; apply Own; auto; lia. }
  assert (V1 : u8 (f1 (rPC r1 + 1))) by (apply Hv1; unfold u16; lia). assert (V2 : u8 (f1 (rPC r1 + 2))) by (apply Hv1; unfold u16; lia).
  assert (Ho2 : regs_ok r2).
  { pose proof (Hreg RA) as G1. pose proof (Hreg RX) as G2. pose proof (Hreg RY) as G3. pose proof (Hreg RS) as G4. cbn [get] in G1, G2, G3, G4.
    unfold regs_ok in *. rewrite <- G1, <- G2, <- G3, <- G4, <- Epc. exact Ho1. }
  assert (Hv2 : byte_valued f2).
  { intros q Hq. rewrite (Hmem q Hq). destruct (displacement f0 l q); [unfold u8; lia|apply Hv1; exact Hq]. }
  assert (Same : forall x, In x (emulator_looks_at mn0 m0) -> same r1 r2 x).
  { intros [y|y] Hx; [apply Hreg|]. apply Hag. rewrite <- Ha1. apply Hused. unfold emulator_looks_at, looks_at in Hx.
    rewrite !in_app_iff, !in_map_iff in Hx. destruct Hx as [[(z & E & _)|(z & E & K)]|K]; [discriminate E|injection E as ->; exact K|].
    exfalso. destruct mn0; try contradiction K. destruct K as [K|[]]; discriminate K. }
  (* the emulator's instruction on the chip's state *)
  assert (Mid : exists e', execute p mn0 m0 c0 r2 f2 b1 b2 = Some e' /\ close mn0 m0 b1 e' (ds_execute mn0 m0 c0 r2 f2 (f2 (rPC r2 + 1)) (f2 (rPC r2 + 2)))).
  { assert (By : forall j, 0 <= j < length_of m0 -> f2 (rPC r2 + j) = if displacement f0 l (n_at n + j) then (f0 (n_at n + j) - 2) mod 256 else f0 (n_at n + j)).
    { intros j Hj. rewrite <- Epc, <- Ha1, Hmem by (unfold u16; lia). rewrite (Own j Hc1 Hin I1 Hj). reflexivity. }
    destruct (is_branch mn0) eqn:Eb.
    - destruct (Hbr eq_refl) as [B1 B2].
      assert (L2 : length_of m0 = 2) by (destruct mn0; try discriminate Eb; destruct m0; try discriminate Hfit; reflexivity).
      rewrite (By 1 ltac:(lia)). assert (Dp : displacement f0 l (n_at n + 1) = true).
      { unfold displacement. apply existsb_exists. exists n. split; [exact Hin|]. rewrite I1, Eb, Z.eqb_refl. reflexivity. }
      rewrite Dp, <- Eb1. apply branch_close; try assumption; rewrite <- Epc, <- Ha1; lia.
    - rewrite <- (ds_bytes mn0 m0 c0 r2 f2 b1 b2 _ _ Hleg).
      + apply chip_close; try assumption. intros E. apply Hclr. rewrite <- Ha1. exact (Hadc E).
      + split; intros H; rewrite By by lia; destruct (Hown 1 ltac:(lia)) as [[K _]|K]; try discriminate K; try (rewrite K; exact Eb1).
        destruct (Hown 2 ltac:(lia)) as [[K' _]|K']; try discriminate K'. rewrite K'. exact Eb2. }
  destruct Mid as (e' & X' & K1 & K2 & K3 & K4).
  set (d := ds_execute mn0 m0 c0 r2 f2 (f2 (rPC r2 + 1)) (f2 (rPC r2 + 2))) in *.
  assert (Rd : forall a, In a (reads_of mn0 m0 r1 f1 (f1 (rPC r1 + 1)) (f1 (rPC r1 + 2))) -> f2 a = f1 a).
  { intros a Ha. destruct (same_places mn0 m0 r1 r1 f1 f1 _ _ b1 b2 Hfit Htp eq_refl SB ltac:(apply Forall_forall; intros [|] _; reflexivity)) as [Er _].
    rewrite Er in Ha. destruct (reads_foreseen p mn0 m0 r1 f1 b1 b2 a Hfit Hrf Htp Ho1 U1 U2 Ha) as [Hq [Hm|(i & ->)]]; rewrite (Hmem _ Hq).
    - rewrite (Hmr a Hm). reflexivity.
    - destruct (displacement f0 l (stack i)) eqn:E; [|reflexivity]. apply displacement_code in E.
      rewrite (proj2 (page_one_ok p f0 ramb ram l Hram Hpass i)) in E. discriminate E. }
  pose proof (execute_depends p mn0 m0 c0 r1 r2 f1 f2 _ _ _ _ Hfit Ho1 Hv1 V1 V2 (or_introl Epc) SB (proj2 (Forall_forall _ _) Same) Rd) as Dep.
  rewrite X1, X' in Dep. destruct Dep as (D1 & D2 & D3 & _ & D5). rewrite Forall_forall in D5.
  assert (Keep : forall x, ~ In x (sets mn0 m0) -> same r1 r2 x -> same (e_regs e1) (e_regs e') x).
  { intros x Hx Hs. pose proof (unset_same _ _ _ _ _ _ _ _ _ Hpos X1 x Hx) as A1. pose proof (unset_same _ _ _ _ _ _ _ _ _ Hpos X' x Hx) as A2.
    destruct x; cbn [same] in *; congruence. }
  assert (Still : forall x, ~ In x (flags_changed mn0) -> flag_of (e_regs d) x = flag_of r2 x).
  { intros x Hx. assert (Hx' : ~ In (Flag x) (sets mn0 m0)) by (rewrite sets_flag; exact Hx).
    pose proof (unset_same _ _ _ _ _ _ _ _ _ Hpos X' (Flag x) Hx') as A2.
    specialize (K4 (Flag x)). cbn [same] in *. rewrite <- A2. symmetry. apply K4. intros y E Hy. injection E as <-. exact (Hx (lost_changed _ _ _ _ Hy)). }
  exists e1, d. split; [exact Es1|]. split.
  { unfold ds_effect, ds_fetch. cbn [fst snd]. assert (E0 : f2 (rPC r2) = f0 (n_at n)).
    { rewrite <- Epc, Hmem by (unfold u16; lia). rewrite <- Ha1. destruct (Hown 0 ltac:(lia)) as [[_ K]|K]; [lia|]. rewrite Z.add_0_r in K. rewrite K, Ha1. rewrite E01. reflexivity. }
    rewrite E0, I1. rewrite !Z.mod_small by (rewrite <- Epc; lia). reflexivity. }
  split; [congruence|]. split; [congruence|].
  split.
  { intros y. assert (A1 : same (e_regs e1) (e_regs e') (Reg y)).
    { destruct (in_dec part_dec (Reg y) (sets mn0 m0)) as [Y|N]; [exact (D5 _ Y)|exact (Keep _ N (Hreg y))]. }
    specialize (K4 (Reg y) ltac:(discriminate)). cbn [same] in *. congruence. }
  split; [rewrite (D3 Epc); exact K3|]. split.
  { intros x Hx. destruct (Hfl g x Hg (Hga x Hx)) as [[Q1 Q2]|[Q1 Q2]].
    - pose proof (D5 (Flag x) ltac:(apply sets_flag; exact Q1)) as A1. specialize (K4 (Flag x)). cbn [same] in *. rewrite A1. apply K4.
      intros y E. injection E as <-. exact Q2.
    - rewrite (Still x Q1). pose proof (unset_same _ _ _ _ _ _ _ _ _ Hpos X1 (Flag x) ltac:(rewrite sets_flag; exact Q1)) as A1. cbn [same] in A1. rewrite A1.
      apply Hag. rewrite <- Ha1. exact Q2. }
  split.
  { destruct (in_dec (fun x y : flag => ltac:(decide equality)) FD (flags_changed mn0)) as [Y|N]; [|exact (eq_trans (Still FD N) Hdec)].
    destruct mn0; try discriminate Hrf; try (contradiction (Hsed eq_refl)); try (contradiction (Hplp eq_refl)); try reflexivity; cbn in Y;
      repeat match type of Y with _ \/ _ => destruct Y as [Y|Y]; [discriminate Y|] end; contradiction Y. }
  split.
  { intros Hc. destruct (Hcl g Hg (Hgc Hc)) as [->|[Q1 Q2]]; [reflexivity|]. rewrite <- Ha1 in Hclr. exact (eq_trans (Still FC Q2) (Hclr Q1)). }
  (* memory *)
  assert (Off : forall q, In q (map fst (e_stores e1)) -> displacement f0 l q = false).
  { intros q Hq. destruct (displacement f0 l q) eqn:E; [|reflexivity]. exfalso. apply displacement_code in E.
    assert (St : forall i, q <> stack i) by (intros i ->; rewrite (proj2 (page_one_ok p f0 ramb ram l Hram Hpass i)) in E; discriminate E).
    assert (Pl : ~ In q (places mn0 m0 b1 b2)).
    { rewrite Eb1, Eb2. intros K. destruct (place_ok p f0 ramb l Hpass n mn0 m0 c0 q Hin I1 K) as (_ & _ & K'). congruence. }
    assert (Fp : Forall (fun w => In (fst w) (places mn0 m0 b1 b2)) (e_stores e1) -> False).
    { intros F. apply in_map_iff in Hq as (w & <- & Hw). exact (Pl (proj1 (Forall_forall _ _) F w Hw)). }
    destruct mn0; try discriminate Hrf; cbn [shape] in Sh1; destruct Sh1 as (Q1 & _); try exact (Fp Q1);
      try (rewrite Q1 in Hq; contradiction Hq); try (destruct Q1 as (v & Q1)); rewrite Q1 in Hq; cbn [map fst In] in Hq;
      repeat match type of Hq with _ \/ _ => destruct Hq as [Hq|Hq]; [exact (St _ (eq_sym Hq))|] end; contradiction Hq. }
  intros q Hq. assert (Es : e_stores d = e_stores e1) by congruence. rewrite Es.
  destruct (in_dec Z.eq_dec q (map fst (e_stores e1))) as [Y|N].
  - rewrite (Off q Y). revert Y. generalize (e_stores e1). clear. intros w. revert f1 f2.
    induction w as [|[a v] w IH]; intros f1 f2; cbn [map In fst]; [intros []|]. intros Y.
    change (stored (store1 f2 (a, v)) w q = stored (store1 f1 (a, v)) w q).
    destruct (in_dec Z.eq_dec q (map fst w)) as [Y'|N']; [exact (IH _ _ Y')|].
    rewrite !stored_other by exact N'. destruct Y as [->|Y]; [|contradiction (N' Y)]. unfold store1. cbn [fst snd]. rewrite Z.eqb_refl. reflexivity.
  - rewrite !stored_other by exact N. apply Hmem. exact Hq.
Qed.

Lemma port_run k : forall r1 f1 r2 f2 n u1, core f0 l S0 r1 f1 n u1 -> tower f0 l S0 f1 0 true (u1 - n_depth n) (n_main n) -> goes_with r1 f1 r2 f2 ->
  exists t r1' f1' r2' f2', exec p ram k t r1 f1 r1' f1' /\ chip ram k t (r2, f2) (r2', f2') /\ goes_with r1' f1' r2' f2'.
Proof.
  induction k as [|k IH]; intros r1 f1 r2 f2 n u1 C1 T1 A.
  - exists 0%nat, r1, f1, r2, f2. split; [constructor|]. split; [constructor|]. exact A.
  - destruct (port_step r1 f1 r2 f2 n u1 C1 T1 A) as (e1 & d & E1 & E2 & Ec & Es & A').
    destruct (step_onward p f0 ramb ram l S0 Hram Hpass r1 f1 n u1 0 true C1 T1 ltac:(lia) ltac:(discriminate)) as (e1' & E1' & W1 & _ & [(n1 & v1 & D1 & Q1)|(K & _)]); [|discriminate K].
    rewrite E1 in E1'. injection E1' as <-.
    destruct (IH _ _ _ _ _ _ D1 Q1 A') as (t & r1' & f1' & r2' & f2' & X1 & X2 & Rest).
    exists (e_cycles e1 + t)%nat, r1', f1', r2', f2'. split; [econstructor; eassumption|]. split; [|exact Rest].
    econstructor; [|intros (K & _); destruct A as (_ & _ & _ & K' & _); cbn [fst] in K; congruence| |exact X2].
    + exists d. split; [exact E2|]. split; [exact Ec|]. reflexivity.
    + intros d' Hd'. rewrite E2 in Hd'. injection Hd' as <-. rewrite <- Es. exact W1.
Qed.
End Port.
