(** Two machines that look alike go on looking alike. *)
From Verif Require Import Base Arith ModelMap ModelRegs6502 ModelCpu6502 ModelIsa6502 ModelRun6502 SpecMap Link6502 ProofRun6502 ProofBus
  SpecInstr ProofInstr ProofFrame PropertiesFrame ProofProgram PropertiesLive ProofExchange.
From Verif Require Import Spec6502 SpecBus SpecFrame SpecLive SpecProgram SpecMove SpecExchange SpecCheck ProofCheck SpecSecret.

Lemma among_in x l : among x l = true <-> In x l.
Proof. unfold among. destruct (in_dec part_dec x l) as [Y|N]; split; intros K; first [exact Y | reflexivity | discriminate K | contradiction (N K)]. Qed.
Lemma all_among_in l l' : all_among l l' = true <-> forall x, In x l -> In x l'.
Proof. unfold all_among. rewrite forallb_forall. split; intros H x Hx; apply among_in; apply H; exact Hx. Qed.

Lemma stored_agree w : forall f g q, f q = g q -> stored f w q = stored g w q.
Proof.
  induction w as [|[a v] w IH]; intros f g q E; [exact E|]. cbn [stored fold_left].
  change (stored (store1 f (a, v)) w q = stored (store1 g (a, v)) w q). apply IH. unfold store1. cbn [fst snd]. destruct (q =? a); [reflexivity|exact E].
Qed.

(** ** How long an instruction takes, and where it reads *)
Lemma same_cycles p mn m c r r2 f f2 b1 b2 d1 d2 e e2 : fits mn m = true -> through_pointer m = false -> public_only mn = false ->
  same_bytes m b1 b2 d1 d2 -> Forall (same r r2) (index_of m) ->
  execute p mn m c r f b1 b2 = Some e -> execute p mn m c r2 f2 d1 d2 = Some e2 -> e_cycles e = e_cycles e2.
Proof.
  intros Hp Ht Hn [H2 H3] Hi.
  destruct r as [A X Y S PC F]. destruct r2 as [A2 X2 Y2 S2 PC2 F2].
  destruct mn; try discriminate Hn; destruct m; try discriminate Hp; try discriminate Ht; cbn [length_of] in H2, H3;
    try specialize (H2 ltac:(lia)); try specialize (H3 ltac:(lia)); try subst d1; try subst d2;
    cbn [index_of] in Hi;
    try (apply Forall_cons_iff in Hi; destruct Hi as [Hi _]; cbn [same get rX rY] in Hi; subst);
    cbn [execute]; unfold read_op, store_op, modify_op, implied_op, operand_value, operand_address;
    cbn [rX rY]; intros E1 E2; injection E1 as <-; injection E2 as <-; reflexivity.
Qed.

Lemma same_places mn m r r2 f f2 b1 b2 d1 d2 : fits mn m = true -> through_pointer m = false -> rS r = rS r2 ->
  same_bytes m b1 b2 d1 d2 -> Forall (same r r2) (index_of m) ->
  reads_of mn m r f b1 b2 = reads_of mn m r2 f2 d1 d2 /\ writes_of mn m r f b1 b2 = writes_of mn m r2 f2 d1 d2.
Proof.
  intros Hp Ht HS [H2 H3] Hi.
  destruct r as [A X Y S PC F]. destruct r2 as [A2 X2 Y2 S2 PC2 F2]. cbn [rS] in HS. subst S2.
  destruct mn, m; try discriminate Hp; try discriminate Ht; cbn [length_of] in H2, H3;
    try specialize (H2 ltac:(lia)); try specialize (H3 ltac:(lia)); try subst d1; try subst d2;
    cbn [index_of] in Hi;
    try (apply Forall_cons_iff in Hi; destruct Hi as [Hi _]; cbn [same get rX rY] in Hi; subst);
    split; reflexivity.
Qed.

(** Reads are where the check expects them, or on the stack. *)
Lemma reads_foreseen p mn m r f b1 b2 a : fits mn m = true -> refused p mn m = false -> through_pointer m = false -> regs_ok r -> u8 b1 -> u8 b2 ->
  In a (reads_of mn m r f b1 b2) -> u16 a /\ (In a (may_read mn m b1 b2) \/ exists i, a = stack i).
Proof.
  intros Hp Hrf Ht (_ & HX & HY & _) H1 H2 Ha.
  assert (St : forall i, u16 (stack i) /\ (In (stack i) (may_read mn m b1 b2) \/ exists j, stack i = stack j)).
  { intros i. pose proof (stack_range i). split; [unfold u16; lia|]. right. exists i. reflexivity. }
  destruct mn, m; try discriminate Hp; try discriminate Hrf; try discriminate Ht; try contradiction Ha;
    unfold reads_of in Ha; cbn [reads_made in_memory pointer_reads effective app In] in Ha;
    repeat match type of Ha with _ \/ _ => destruct Ha as [Ha|Ha] end; try contradiction Ha; subst a; try apply St;
    cbn [may_read]; (split; [unfold u8, u16, word in *; lia|]); left;
    first [left; reflexivity | apply in_abs; assumption | apply in_zp].
Qed.

Section Pair.
Variables (p : profile) (P : policy) (f01 f02 : Z -> Z) (ramb : Z -> bool) (ram : Z -> Prop) (l : listing) (S0 : Z).
Hypothesis Hram : forall q, ramb q = true -> ram q.
Hypothesis Hpass1 : passes p f01 ramb l = true.
Hypothesis Hpass2 : passes p f02 ramb l = true.
Hypothesis Hkeep : keeps_secrets P f01 l = true.
Hypothesis Hopen : forall q, u16 q -> secret P q = false -> f01 q = f02 q.

Definition agree (r1 : registers) (f1 : Z -> Z) (r2 : registers) (f2 : Z -> Z) : Prop :=
  rPC r1 = rPC r2 /\ Forall (same r1 r2) (public_at P (rPC r1)) /\ forall q, u16 q -> secret P q = false -> f1 q = f2 q.

Lemma page_one_open i : secret P (stack i) = false.
Proof.
  unfold keeps_secrets in Hkeep. apply andb_prop in Hkeep as [Hp _]. rewrite forallb_forall in Hp.
  specialize (Hp (i mod 256) (proj2 (in_bytes256 (i mod 256)) ltac:(lia))). apply Bool.negb_true_iff in Hp. exact Hp.
Qed.

(** The instruction both machines are about to execute. *)
Definition instr_at (n : note) mn m c (b1 b2 : Z) (clean : bool) : Prop :=
  decode (f01 (n_at n)) = Some (mn, m, c) /\ decode (f02 (n_at n)) = Some (mn, m, c) /\ b1 = f01 (n_at n + 1) /\ b2 = f01 (n_at n + 2) /\
  same_bytes m b1 b2 (f02 (n_at n + 1)) (f02 (n_at n + 2)) /\ u8 b1 /\ u8 b2 /\
  refused p mn m = false /\ through_pointer m = false /\ (forall x, In x (index_of m) -> In x (public_at P (n_at n))) /\
  clean = inputs_public P mn m (n_at n) b1 b2 /\ (clean = false -> public_only mn = false /\ forall q, In q (places mn m b1 b2) -> secret P q = true) /\
  (forall L x, In L (needed_next P mn m (n_at n) b1 b2) -> In x L -> if among x (sets mn m) then clean = true else In x (public_at P (n_at n))) /\
  (mn = Jsr -> forall x, In x (public_at P (n_at n + 3)) -> In x (public_back P)).

Lemma noted_instr n : byte_valued f01 -> In n l -> exists mn m c b1 b2 clean, instr_at n mn m c b1 b2 clean.
Proof.
  intros Hv Hin. assert (Hok : instruction_ok p f01 ramb l n = true).
  { unfold passes in Hpass1. apply andb_prop in Hpass1 as [_ Hl]. rewrite forallb_forall in Hl. exact (Hl n Hin). }
  assert (Hk : keeps_ok P f01 n = true).
  { unfold keeps_secrets in Hkeep. apply andb_prop in Hkeep as [_ Hl]. rewrite forallb_forall in Hl. exact (Hl n Hin). }
  unfold instruction_ok in Hok. unfold keeps_ok in Hk. destruct (decode (f01 (n_at n))) as [[[mn m] c]|] eqn:Ed; [|discriminate].
  apply andb_prop in Hok as [Hb Hok]. apply andb_prop in Hok as [Hok _]. apply andb_prop in Hok as [Hrf _]. apply Bool.negb_true_iff in Hrf.
  apply andb_prop in Hk as [Hk K6]. apply andb_prop in Hk as [Hk K5]. apply andb_prop in Hk as [Hk K4]. apply andb_prop in Hk as [Hk K3]. apply andb_prop in Hk as [K1 K2].
  apply Bool.negb_true_iff in K2. pose proof (length_range m) as Hlen. rewrite forallb_forall in K1.
  assert (Op : forall j, 0 <= j < length_of m -> f01 (n_at n + j) = f02 (n_at n + j)).
  { intros j Hj. apply Hopen; [unfold u16; lia|]. specialize (K1 (Z.to_nat j) ltac:(apply in_seq; lia)). rewrite Z2Nat.id in K1 by lia.
    apply Bool.negb_true_iff in K1. exact K1. }
  exists mn, m, c, (f01 (n_at n + 1)), (f01 (n_at n + 2)), (inputs_public P mn m (n_at n) (f01 (n_at n + 1)) (f01 (n_at n + 2))).
  split; [exact Ed|]. split. { specialize (Op 0 ltac:(lia)). rewrite Z.add_0_r in Op. rewrite <- Op. exact Ed. }
  split; [reflexivity|]. split; [reflexivity|]. split. { split; intros H; apply Op; lia. }
  split; [apply Hv; unfold u16; lia|]. split; [apply Hv; unfold u16; lia|]. split; [exact Hrf|]. split; [exact K2|].
  split; [exact (proj1 (all_among_in _ _) K3)|]. split; [reflexivity|]. split.
  { intros C. rewrite C in K4. cbn [orb] in K4. apply andb_prop in K4 as [N F]. apply Bool.negb_true_iff in N. split; [exact N|]. exact (proj1 (forallb_forall _ _) F). }
  split.
  { intros L x HL Hx. rewrite forallb_forall in K5. specialize (K5 L HL). rewrite forallb_forall in K5. specialize (K5 x Hx).
    destruct (among x (sets mn m)); [exact K5|]. apply among_in. exact K5. }
  intros ->. exact (proj1 (all_among_in _ _) K6).
Qed.

Lemma pair_step r1 f1 r2 f2 n u1 u2 :
  byte_valued f01 -> core f01 l S0 r1 f1 n u1 -> core f02 l S0 r2 f2 n u2 ->
  tower f01 l S0 f1 0 true (u1 - n_depth n) (n_main n) -> agree r1 f1 r2 f2 ->
  exists e1 e2, step p r1 f1 = Some e1 /\ step p r2 f2 = Some e2 /\ e_cycles e1 = e_cycles e2 /\
    agree (e_regs e1) (stored f1 (e_stores e1)) (e_regs e2) (stored f2 (e_stores e2)).
Proof.
  intros Hv0 C1 C2 T1 (Epc & Hpub & Hmem).
  destruct (core_step p f01 ramb ram l S0 Hram Hpass1 r1 f1 n u1 C1) as (mn & m & c & e1 & Ed1 & Es1 & Sh1 & Hs1 & Ha1 & Hin & Hr1 & _ & E01).
  destruct (core_step p f02 ramb ram l S0 Hram Hpass2 r2 f2 n u2 C2) as (mn' & m' & c' & e2 & Ed2 & Es2 & Sh2 & _ & Ha2 & _ & Hr2 & _ & E02).
  destruct (noted_instr n Hv0 Hin) as (mn0 & m0 & c0 & b1 & b2 & clean & I1 & I2 & Eb1 & Eb2 & Sb & U1 & U2 & Hrf & Htp & Hidx & Ecl & Hdirty & Hneed & Hjsr).
  rewrite I1 in Ed1. injection Ed1 as <- <- <-. rewrite I2 in Ed2. injection Ed2 as <- <- <-.
  rewrite <- Eb1, <- Eb2 in Sh1, Hs1.
  exists e1, e2. split; [exact Es1|]. split; [exact Es2|].
  pose proof (decode_fits _ _ _ _ I1) as Hfit. pose proof (decode_possible _ _ _ _ I1) as Hpos.
  pose proof C1 as (Ho1 & Hv1 & En1 & ES1 & Hu1 & Hc1). pose proof C2 as (Ho2 & Hv2 & En2 & ES2 & Hu2 & Hc2).
  pose proof (note_bounds p f01 ramb ram l S0 Hram Hpass1 _ _ En1) as Bn. pose proof (length_range m0) as Hlen.
  (* the executed instructions *)
  pose proof Es1 as X1. rewrite (step_at p r1 f1 (f01 (n_at n)) mn0 m0 c0) in X1; [|lia|rewrite E01, Ha1; reflexivity|exact I1].
  pose proof Es2 as X2. rewrite (step_at p r2 f2 (f02 (n_at n)) mn0 m0 c0) in X2; [|lia|rewrite E02, Ha2; reflexivity|exact I2].
  assert (SB : same_bytes m0 (f1 (rPC r1 + 1)) (f1 (rPC r1 + 2)) (f2 (rPC r2 + 1)) (f2 (rPC r2 + 2))).
  { pose proof (own_bytes p f01 ramb ram l S0 Hram Hpass1 f1 n mn0 m0 c0) as O1. pose proof (own_bytes p f02 ramb ram l S0 Hram Hpass2 f2 n mn0 m0 c0) as O2.
    rewrite <- Ha1, <- Ha2. destruct Sb as [S1 S2]. split; intros H.
    - rewrite (O1 1 Hc1 Hin I1 ltac:(lia)), (O2 1 Hc2 Hin I2 ltac:(lia)), <- Eb1. exact (S1 H).
    - rewrite (O1 2 Hc1 Hin I1 ltac:(lia)), (O2 2 Hc2 Hin I2 ltac:(lia)), <- Eb2. exact (S2 H). }
  assert (SB1 : same_bytes m0 (f1 (rPC r1 + 1)) (f1 (rPC r1 + 2)) b1 b2).
  { pose proof (own_bytes p f01 ramb ram l S0 Hram Hpass1 f1 n mn0 m0 c0) as O1. rewrite <- Ha1, Eb1, Eb2. split; intros H; apply O1; auto; lia. }
  assert (V1 : u8 (f1 (rPC r1 + 1))) by (apply Hv1; unfold u16; lia). assert (V2 : u8 (f1 (rPC r1 + 2))) by (apply Hv1; unfold u16; lia).
  assert (Pub : forall x, In x (public_at P (n_at n)) -> same r1 r2 x).
  { intros x Hx. rewrite Ha1 in Hx. exact (proj1 (Forall_forall _ _) Hpub x Hx). }
  assert (ES : rS r1 = rS r2) by (apply (Pub (Reg RS)); left; reflexivity).
  (* where the program goes on *)
  assert (Nx : forall x, In x (public_at P (rPC (e_regs e1))) ->
    if among x (sets mn0 m0) then clean = true else In x (public_at P (n_at n))).
  { assert (G : exists L, In L (needed_next P mn0 m0 (n_at n) b1 b2) /\ forall x, In x (public_at P (rPC (e_regs e1))) -> In x L).
    { assert (Next : forall k, rPC (e_regs e1) = (rPC r1 + k) mod 65536 -> 1 <= k <= 3 -> goes_to l (n_main n) (n_at n + k) (n_depth n) (n_height n) = true \/
        (exists d h, goes_to l (n_main n) (n_at n + k) d h = true) -> rPC (e_regs e1) = n_at n + k).
      { intros k E Hk G. assert (exists nn, noted l (n_at n + k) = Some nn) as (nn & En).
        { destruct G as [G|(d & h & G)]; destruct (goes_note p f01 ramb ram l Hram _ _ _ _ G) as (nn & En & _); eauto. }
        rewrite E, <- Ha1. exact (mod_pc p f01 ramb ram l S0 Hram Hpass1 _ _ _ En). }
      destruct mn0; try discriminate Hrf; cbn [needed_next shape successors_ok] in *; destruct Sh1 as (Q1 & Q2 & Q3);
      try (eexists; split; [left; reflexivity|]; rewrite (Next (length_of m0) Q3 ltac:(lia) ltac:(left; exact Hs1)); tauto);
      try (apply andb_prop in Hs1 as [G1 G2]; destruct Q3 as [Q3|Q3];
           [ eexists; split; [left; reflexivity|]; rewrite (Next 2 Q3 ltac:(lia) ltac:(left; exact G1)); tauto
           | eexists; split; [right; left; reflexivity|]; rewrite Q3, Ha1; tauto ]).
      (* JMP, JSR *)
      1,2: eexists; split; [left; reflexivity|]; rewrite Q3; tauto.
      (* PHA, PHP, PLA, PLP *)
      1,2: eexists; (split; [left; reflexivity|]); destruct m0; try discriminate Hfit; cbn [length_of];
        rewrite (Next 1 Q3 ltac:(lia) ltac:(right; eexists; eexists; exact Hs1)); tauto.
      1,2: apply andb_prop in Hs1 as [_ Hs1]; eexists; (split; [left; reflexivity|]); destruct m0; try discriminate Hfit; cbn [length_of];
        rewrite (Next 1 Q3 ltac:(lia) ltac:(right; eexists; eexists; exact Hs1)); tauto.
      (* RTS *)
      eexists. split; [left; reflexivity|]. intros x Hx.
      destruct (return_target p f01 ramb ram l S0 Hram Hpass1 r1 f1 n u1 _ _ e1 C1 T1 I1 Es1) as (nc & mc & cc & Hic & Edc & Epc').
      destruct (noted_instr nc Hv0 Hic) as (mn3 & m3 & c3 & b13 & b23 & cl3 & J1 & J2 & _ & _ & _ & _ & _ & _ & _ & _ & _ & _ & _ & Jj).
      rewrite J1 in Edc. injection Edc as -> -> ->. rewrite Epc' in Hx. exact (Jj eq_refl x Hx). }
    destruct G as (L & HL & G). intros x Hx. exact (Hneed L x HL (G x Hx)). }
  (* parts that are not set *)
  assert (Keep : forall x, ~ In x (sets mn0 m0) -> same r1 r2 x -> same (e_regs e1) (e_regs e2) x).
  { intros x Hx Hs. pose proof (unset_same _ _ _ _ _ _ _ _ _ Hpos X1 x Hx) as A1. pose proof (unset_same _ _ _ _ _ _ _ _ _ Hpos X2 x Hx) as A2.
    destruct x; cbn [same] in *; congruence. }
  destruct clean.
  - (* all that the instruction works on is the same *)
    symmetry in Ecl. unfold inputs_public in Ecl. apply andb_prop in Ecl as [L1 L2]. apply Bool.negb_true_iff in L2.
    assert (Lk : Forall (same r1 r2) (emulator_looks_at mn0 m0)).
    { apply Forall_forall. intros x Hx. apply Pub. exact (proj1 (all_among_in _ _) L1 x Hx). }
    assert (Rd : forall a, In a (reads_of mn0 m0 r1 f1 (f1 (rPC r1 + 1)) (f1 (rPC r1 + 2))) -> f2 a = f1 a).
    { intros a Ha. symmetry. destruct (same_places mn0 m0 r1 r1 f1 f1 _ _ b1 b2 Hfit Htp eq_refl SB1 ltac:(apply Forall_forall; intros [|] _; reflexivity)) as [Er _].
      rewrite Er in Ha. destruct (reads_foreseen p mn0 m0 r1 f1 b1 b2 a Hfit Hrf Htp Ho1 U1 U2 Ha) as [Hq [Hm|(i & ->)]].
      - apply Hmem; [exact Hq|]. destruct (secret P a) eqn:Es; [|reflexivity]. exfalso.
        assert (existsb (secret P) (may_read mn0 m0 b1 b2) = true) by (apply existsb_exists; exists a; auto). congruence.
      - apply Hmem; [exact Hq|]. apply page_one_open. }
    pose proof (execute_depends p mn0 m0 c0 r1 r2 f1 f2 _ _ _ _ Hfit Ho1 Hv1 V1 V2 (or_introl Epc) SB Lk Rd) as Dep.
    rewrite X1, X2 in Dep. destruct Dep as (D1 & D2 & D3 & _ & D5).
    split; [exact D2|]. split; [exact (D3 Epc)|]. split.
    + apply Forall_forall. intros x Hx. specialize (Nx x Hx). destruct (among x (sets mn0 m0)) eqn:Am.
      * apply among_in in Am. exact (proj1 (Forall_forall _ _) D5 x Am).
      * apply Keep; [intros K; apply among_in in K; congruence|]. apply Pub. exact Nx.
    + intros q Hq Hs. rewrite <- D1. apply stored_agree. apply Hmem; assumption.
  - (* secrets are involved *)
    destruct (Hdirty eq_refl) as [Hpo Hpl].
    assert (Sh2' : shape mn0 m0 r2 f2 (f02 (n_at n + 1)) (f02 (n_at n + 2)) e2) by exact Sh2.
    split. { apply (same_cycles p mn0 m0 c0 r1 r2 f1 f2 _ _ _ _ e1 e2 Hfit Htp Hpo SB); [|exact X1|exact X2].
      apply Forall_forall. intros x Hx. apply Pub. exact (Hidx x Hx). }
    assert (Quiet : (forall q, u16 q -> secret P q = false -> stored f1 (e_stores e1) q = f1 q /\ stored f2 (e_stores e2) q = f2 q) /\ rPC (e_regs e1) = rPC (e_regs e2)).
    { assert (Pl2 : forall q, In q (places mn0 m0 (f02 (n_at n + 1)) (f02 (n_at n + 2))) -> secret P q = true).
      { intros q Hq. apply Hpl. destruct Sb as [S1 S2]. unfold places in *. destruct (stores mn0 m0) eqn:Est; [|contradiction Hq].
        destruct m0; try discriminate Htp; cbn [length_of] in S1, S2; try specialize (S1 ltac:(lia)); try specialize (S2 ltac:(lia)); try rewrite S1; try rewrite S2; exact Hq. }
      assert (Qt : forall mm : mnemonic, Forall (fun w => In (fst w) (places mn0 m0 b1 b2)) (e_stores e1) -> Forall (fun w => In (fst w) (places mn0 m0 (f02 (n_at n + 1)) (f02 (n_at n + 2)))) (e_stores e2) ->
        forall q, u16 q -> secret P q = false -> stored f1 (e_stores e1) q = f1 q /\ stored f2 (e_stores e2) q = f2 q).
      { intros _ F1 F2 q Hq Hs. split; apply stored_other; intros K; apply in_map_iff in K as (w & <- & Hw).
        - pose proof (Hpl _ (proj1 (Forall_forall _ _) F1 w Hw)). congruence.
        - pose proof (Pl2 _ (proj1 (Forall_forall _ _) F2 w Hw)). congruence. }
      destruct mn0; try discriminate Hpo; try discriminate Hrf; cbn [shape] in Sh1, Sh2'; destruct Sh1 as (Q1 & Q2 & Q3); destruct Sh2' as (R1 & R2 & R3);
        (split; [|rewrite Q3, R3, Epc; reflexivity]); try exact (Qt Lda Q1 R1).
      all: rewrite Q1, R1; intros q _ _; split; reflexivity. }
    destruct Quiet as [Qm Qp]. split; [exact Qp|]. split.
    + apply Forall_forall. intros x Hx. specialize (Nx x Hx). destruct (among x (sets mn0 m0)) eqn:Am; [discriminate Nx|].
      apply Keep; [intros K; apply among_in in K; congruence|]. apply Pub. exact Nx.
    + intros q Hq Hs. destruct (Qm q Hq Hs) as [-> ->]. apply Hmem; assumption.
Qed.

(** ** Many instructions *)
Lemma pair_run k : byte_valued f01 -> forall r1 f1 r2 f2 n u1 u2,
  core f01 l S0 r1 f1 n u1 -> core f02 l S0 r2 f2 n u2 ->
  tower f01 l S0 f1 0 true (u1 - n_depth n) (n_main n) -> tower f02 l S0 f2 0 true (u2 - n_depth n) (n_main n) -> agree r1 f1 r2 f2 ->
  exists t r1' f1' r2' f2' n' u1' u2', exec p ram k t r1 f1 r1' f1' /\ exec p ram k t r2 f2 r2' f2' /\
    core f01 l S0 r1' f1' n' u1' /\ core f02 l S0 r2' f2' n' u2' /\
    tower f01 l S0 f1' 0 true (u1' - n_depth n') (n_main n') /\ tower f02 l S0 f2' 0 true (u2' - n_depth n') (n_main n') /\ agree r1' f1' r2' f2'.
Proof.
  intros Hv. induction k as [|k IH]; intros r1 f1 r2 f2 n u1 u2 C1 C2 T1 T2 A.
  - exists 0%nat, r1, f1, r2, f2, n, u1, u2. split; [constructor|]. split; [constructor|]. auto.
  - destruct (pair_step r1 f1 r2 f2 n u1 u2 Hv C1 C2 T1 A) as (e1 & e2 & E1 & E2 & Ec & A').
    destruct (step_onward p f01 ramb ram l S0 Hram Hpass1 r1 f1 n u1 0 true C1 T1 ltac:(lia) ltac:(discriminate)) as (e1' & E1' & W1 & _ & [(n1 & v1 & D1 & Q1)|(K & _)]); [|discriminate K].
    destruct (step_onward p f02 ramb ram l S0 Hram Hpass2 r2 f2 n u2 0 true C2 T2 ltac:(lia) ltac:(discriminate)) as (e2' & E2' & W2 & _ & [(n2 & v2 & D2 & Q2)|(K & _)]); [|discriminate K].
    rewrite E1 in E1'. injection E1' as <-. rewrite E2 in E2'. injection E2' as <-.
    assert (n2 = n1). { destruct D1 as (_ & _ & N1 & _). destruct D2 as (_ & _ & N2 & _). destruct A' as (Ep & _). rewrite Ep in N1. congruence. }
    subst n2. destruct (IH _ _ _ _ _ _ _ D1 D2 Q1 Q2 A') as (t & r1' & f1' & r2' & f2' & n' & u1' & u2' & X1 & X2 & Rest).
    exists (e_cycles e1 + t)%nat, r1', f1', r2', f2', n', u1', u2'. split; [econstructor; eassumption|]. split; [|exact Rest].
    rewrite Ec. econstructor; eassumption.
Qed.
End Pair.
