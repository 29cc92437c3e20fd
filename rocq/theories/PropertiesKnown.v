(** C103: a 6502 program depends only on what it looks at before setting it.
    C104 (6502): an instruction whose results are not looked at can be replaced
    by NOPs. *)
From Verif Require Import Base Arith ModelMap ModelStep ModelRegs6502 ModelCpu6502 ModelOperand ModelIsa6502
  ModelRun6502 SpecMap Link6502 ProofStep6502 ProofRun6502 ProofBus SpecInstr ProofInstr ProofFrame PropertiesFrame ProofProgram PropertiesLive ProofExchange Demo6502 PropertiesExchange.
From Verif Require Import Spec6502 SpecBus SpecFrame SpecLive SpecProgram SpecMove SpecExchange SpecKnown.

(** One instruction. *)
Theorem C103_one_instruction : forall p (cpu cpu2 : mos6502 memory) mn m c b1 b2,
  about_to p cpu (peek p (amap cpu)) mn m c b1 b2 -> twins cpu cpu2 ->
  (forall q, inspects p cpu mn m b1 b2 q -> agree p cpu cpu2 q) ->
  match observed_step p cpu, observed_step p cpu2 with
  | Ok (n, cpu'), Ok (n2, cpu2') => n2 = n /\ twins cpu' cpu2' /\
      (forall q, gives p cpu mn m b1 b2 q -> agree p cpu' cpu2' q) /\
      (forall q, ~ gives p cpu mn m b1 b2 q -> agree p cpu cpu' q /\ agree p cpu2 cpu2' q)
  | Panic, Panic => True
  | _, _ => False
  end.
Proof.
  intros p A B mn m c b1 b2 Ab (PA & PB & Ok & OkB & PcB & Rm) Ha.
  assert (Ab0 := Ab). destruct Ab as (_ & _ & Hv & Hp & De & E1 & E2). destruct (about_bytes _ _ _ _ _ _ _ _ Ab0) as [U1 U2].
  destruct (machine_bytes p B PB) as [RB VB].
  assert (Upc : u16 (reg_pc A)) by (destruct Ok as (_ & _ & _ & _ & K); exact K).
  assert (Lm : 1 <= length_of m) by (destruct m; cbn; lia).
  assert (Own : forall d, 0 <= d < length_of m -> peek p (amap B) ((reg_pc A + d) mod 65536) = peek p (amap A) ((reg_pc A + d) mod 65536)).
  { intros d Hd. apply (Ha (Byte _)). left. exists d. split; [exact Hd|reflexivity]. }
  set (d1 := peek p (amap B) ((reg_pc A + 1) mod 65536)). set (d2 := peek p (amap B) ((reg_pc A + 2) mod 65536)).
  assert (AbB : about_to p B (peek p (amap B)) mn m c d1 d2).
  { unfold about_to. rewrite PcB. split; [exact OkB|]. split; [exact RB|]. split; [exact VB|]. split; [exact Hp|].
    split; [|split; reflexivity]. specialize (Own 0 ltac:(lia)). rewrite Z.add_0_r in Own.
    unfold u16 in Upc. rewrite Z.mod_small in Own by lia. rewrite Own. exact De. }
  assert (Sb : same_bytes m b1 b2 d1 d2).
  { split; intros L; unfold d1, d2; rewrite ?E1, ?E2; symmetry; apply Own; lia. }
  assert (K := execute_depends p mn m c (regs_of A) (regs_of B) (peek p (amap A)) (peek p (amap B)) b1 b2 d1 d2
    (decode_fits _ _ _ _ De) Ok Hv U1 U2 (or_introl (eq_sym PcB)) Sb).
  specialize (K ltac:(apply Forall_forall; intros x Hx; exact (Ha (Part x) Hx))).
  specialize (K ltac:(intros a H; apply (Ha (Byte a)); right; exact H)).
  assert (Po := decode_possible _ _ _ _ De).
  assert (Ec := execute_cases p mn m c (regs_of A) (peek p (amap A)) b1 b2 Ok Hv U1 U2 Po).
  rewrite (about_step _ _ _ _ _ _ _ _ Ab0), (about_step _ _ _ _ _ _ _ _ AbB). unfold spec_outcome.
  destruct (execute p mn m c (regs_of A) (peek p (amap A)) b1 b2) as [e|] eqn:Ea,
    (execute p mn m c (regs_of B) (peek p (amap B)) d1 d2) as [e2|] eqn:Eb; try contradiction; [|exact I].
  destruct (_ && _); [discriminate|]. destruct Ec as (e' & Ee & Wr). injection Ee as <-.
  destruct K as (K1 & K2 & K3 & _ & K5).
  destruct (execute_ok _ _ _ _ _ _ _ _ _ Hv Ok U1 U2 Ea) as [OkE St].
  destruct (about_bytes _ _ _ _ _ _ _ _ AbB) as [V1 V2].
  destruct (execute_ok _ _ _ _ _ _ _ _ _ VB OkB V1 V2 Eb) as [OkE2 St2].
  rewrite <- K1, <- K2. rewrite <- K1 in St2.
  destruct (store_all p (amap A) (e_stores e)) as [mA|] eqn:SA, (store_all p (amap B) (e_stores e)) as [mB|] eqn:SB.
  - destruct (stores_plain p _ _ _ PA St SA) as (PA' & RA' & FA'). destruct (stores_plain p _ _ _ PB St SB) as (PB' & RB' & FB').
    change (mkMos6502 mA _ _ _ _ _ _) with (cpu_with (e_regs e) mA). change (mkMos6502 mB _ _ _ _ _ _) with (cpu_with (e_regs e2) mB).
    split; [reflexivity|]. split; [|split].
    + unfold twins. rewrite !regs_of_cpu_with. cbn [amap cpu_with reg_pc].
      split; [exact PA'|]. split; [exact PB'|]. split; [exact OkE|]. split; [exact OkE2|].
      split; [symmetry; apply K3; symmetry; exact PcB|]. intros a. rewrite RA', RB'. apply Rm.
    + intros [x|a] Hg; cbn [gives agree] in *.
      * rewrite !regs_of_cpu_with. rewrite Forall_forall in K5. exact (K5 x Hg).
      * cbn [amap cpu_with]. rewrite FA', FB'. apply stored_in. rewrite Wr. exact Hg.
    + intros [x|a] Hg; cbn [gives agree] in *.
      * rewrite !regs_of_cpu_with. split; apply same_sym.
        -- exact (unset_same _ _ _ _ _ _ _ _ _ Po Ea x Hg).
        -- exact (unset_same _ _ _ _ _ _ _ _ _ Po Eb x Hg).
      * cbn [amap cpu_with]. rewrite FA', FB'. assert (Hg' : ~ In a (map fst (e_stores e))) by (rewrite Wr; exact Hg). rewrite !stored_other by exact Hg'. split; reflexivity.
  - exfalso. apply (stores_panic_iff p _ _ PB St) in SB. destruct SB as (a & H1 & H2).
    assert (store_all p (amap A) (e_stores e) = Panic) by (apply (stores_panic_iff p _ _ PA St); exists a; split; [exact H1|]; rewrite <- Rm; exact H2).
    congruence.
  - exfalso. apply (stores_panic_iff p _ _ PA St) in SA. destruct SA as (a & H1 & H2).
    assert (store_all p (amap B) (e_stores e) = Panic) by (apply (stores_panic_iff p _ _ PB St); exists a; split; [exact H1|]; rewrite Rm; exact H2).
    congruence.
  - exact I.
Qed.

(** A run. *)
Theorem C103_run : forall p known k t (cpu cpu2 : mos6502 memory) known' cpu',
  known_run p known k t cpu known' cpu' -> twins cpu cpu2 ->
  (forall q, known q -> agree p cpu cpu2 q) ->
  exists cpu2', runs p k t cpu2 cpu2' /\ twins cpu' cpu2' /\ forall q, known' q -> agree p cpu' cpu2' q.
Proof.
  intros p known k t cpu cpu2 known' cpu' X T H.
  assert (K : exists cpu2', steps p k t cpu2 cpu2' /\ twins cpu' cpu2' /\ forall q, known' q -> agree p cpu' cpu2' q).
  { revert cpu2 T H. induction X as [known cpu|known known1 known' mn m c b1 b2 n k t cpu cpu1 cpu' Ab Es Hk Hk1 X IH]; intros cpu2 T H.
    - exists cpu2. split; [constructor|]. split; [exact T|exact H].
    - assert (Y := C103_one_instruction p cpu cpu2 mn m c b1 b2 Ab T (fun q Hq => H q (Hk q Hq))). rewrite Es in Y.
      destruct (observed_step p cpu2) as [[n2 cpu21]|] eqn:Es2; [|contradiction]. destruct Y as (-> & T1 & Y1 & Y2).
      destruct (IH cpu21 T1) as (cpu2' & S' & T' & K').
      + intros q Hq. assert (D : gives p cpu mn m b1 b2 q \/ ~ gives p cpu mn m b1 b2 q).
        { destruct q as [x|a]; cbn [gives]; [destruct (part_dec x (sets mn m)); auto|]. destruct (in_dec Z.eq_dec a (writes_of mn m (regs_of cpu) (peek p (amap cpu)) b1 b2)); auto. }
        destruct D as [D|D]; [exact (Y1 q D)|]. destruct (Hk1 q Hq) as [Hq'|Hq']; [|contradiction].
        destruct (Y2 q D) as [Z1 Z2]. specialize (H q Hq'). destruct q as [x|a]; cbn [agree] in *.
        * exact (same_trans _ _ _ _ (same_trans _ _ _ _ (same_sym _ _ _ Z1) H) Z2).
        * congruence.
      + exists cpu2'. split; [eapply steps_cons; eassumption|]. split; [exact T'|exact K']. }
  destruct K as (cpu2' & S' & T' & K'). exists cpu2'. split; [|split; assumption]. split; [exact S'|].
  apply run_ready_iff. exists k, t. split; [exact S'|]. split; [lia|left; reflexivity].
Qed.

(** ** NOPs *)
Lemma same_refl r x : same r r x.
Proof. destruct x as [[]|[]]; reflexivity. Qed.
Definition nop : instruction := mkInstruction 0xea 0 0 Nop Implied 2.
Lemma nop_ok : instruction_ok nop.
Proof. split; [vm_compute; reflexivity|]. unfold u8. cbn. lia. Qed.

Lemma one_nop p (cpu : mos6502 memory) : plain_map (amap cpu) -> regs_ok (regs_of cpu) -> reg_pc cpu <= 0xfffd ->
  peek p (amap cpu) (reg_pc cpu) = 0xea ->
  exists cpu', observed_step p cpu = Ok (2%nat, cpu') /\ reg_pc cpu' = reg_pc cpu + 1 /\ (forall x, same (regs_of cpu) (regs_of cpu') x) /\
    plain_map (amap cpu') /\ regs_ok (regs_of cpu') /\ (forall a, ram_at (amap cpu') a <-> ram_at (amap cpu) a) /\
    forall a, peek p (amap cpu') a = peek p (amap cpu) a.
Proof.
  intros Hp Hr Hpc Hb. destruct (machine_bytes p cpu Hp) as [Rb Vb].
  assert (Upc : 0 <= rPC (regs_of cpu) <= 0xfffd) by (destruct Hr as (_ & _ & _ & _ & K); unfold u16 in K; cbn [regs_of rPC] in *; lia).
  assert (K := alone_step p nop (regs_of cpu) (peek p (amap cpu)) nop_ok eq_refl Hr Vb (regs_of cpu) (peek p (amap cpu)) [] Hr Upc).
  specialize (K (conj Hb I) (fun x _ => same_refl _ x) (fun a _ => eq_refl)).
  destruct (alone p nop (regs_of cpu) (peek p (amap cpu))) as [e|] eqn:Ea; [|unfold alone, nop in Ea; cbn in Ea; discriminate Ea].
  destruct (step p (regs_of cpu) (peek p (amap cpu))) as [e2|] eqn:Es; [|contradiction]. destruct K as (K1 & K2 & K3 & K4).
  assert (S0 : e_stores e = [] /\ e_cycles e = 2%nat).
  { unfold alone, nop in Ea. cbn in Ea. injection Ea as <-. split; reflexivity. }
  destruct S0 as [S0 C0]. rewrite S0 in K1. rewrite C0 in K2.
  destruct (machine_step p cpu e2 Hp Hr Es) as (cpu' & E' & R' & P' & Ok' & Ram' & F').
  { rewrite K1. intros a []. }
  rewrite K1 in F'. rewrite K2 in E'. exists cpu'. split; [exact E'|]. split; [|split; [|split; [exact P'|split; [exact Ok'|split; [exact Ram'|exact F']]]]].
  - change (reg_pc cpu') with (rPC (regs_of cpu')). rewrite R', K3. cbn [nop i_mode length_of regs_of rPC] in *. apply Z.mod_small. lia.
  - intros x. rewrite R'. apply K4. intros [].
Qed.

Lemma some_nops p k : forall (cpu : mos6502 memory), plain_map (amap cpu) -> regs_ok (regs_of cpu) -> reg_pc cpu + Z.of_nat k <= 0xfffe ->
  bytes_from (peek p (amap cpu)) (reg_pc cpu) (repeat 0xea k) ->
  exists cpu', steps p k (2 * k) cpu cpu' /\ reg_pc cpu' = reg_pc cpu + Z.of_nat k /\ (forall x, same (regs_of cpu) (regs_of cpu') x) /\
    plain_map (amap cpu') /\ regs_ok (regs_of cpu') /\ (forall a, ram_at (amap cpu') a <-> ram_at (amap cpu) a) /\
    forall a, peek p (amap cpu') a = peek p (amap cpu) a.
Proof.
  induction k as [|k IH]; intros cpu Hp Hr Hpc Hb.
  - exists cpu. split; [constructor|]. split; [lia|]. split; [intros x; apply same_refl|]. split; [exact Hp|]. split; [exact Hr|]. split; [reflexivity|reflexivity].
  - cbn [repeat bytes_from] in Hb. destruct Hb as [Hb Hb'].
    destruct (one_nop p cpu Hp Hr ltac:(lia) Hb) as (cpu1 & E1 & Pc1 & R1 & P1 & Ok1 & Ram1 & F1).
    destruct (IH cpu1 P1 Ok1 ltac:(lia)) as (cpu' & E' & Pc' & R' & P' & Ok' & Ram' & F').
    { rewrite Pc1. revert Hb'. apply bytes_from_congr. intros j _. apply F1. }
    exists cpu'. split; [|split; [lia|split; [|split; [exact P'|split; [exact Ok'|split]]]]].
    + replace (2 * S k)%nat with (2 + 2 * k)%nat by lia. eapply steps_cons; eassumption.
    + intros x. exact (same_trans _ _ _ _ (R1 x) (R' x)).
    + intros a. rewrite Ram', Ram1. reflexivity.
    + intros a. rewrite F', F1. reflexivity.
Qed.

Lemma steps_join p : forall k t k2 t2 (cpu cpu1 cpu2 : mos6502 memory), steps p k t cpu cpu1 -> steps p k2 t2 cpu1 cpu2 -> steps p (k + k2) (t + t2) cpu cpu2.
Proof.
  intros k t k2 t2 cpu cpu1 cpu2 X Y. induction X as [|k t n cpu cpux cpu1 E X IH]; [exact Y|].
  replace (n + t + t2)%nat with (n + (t + t2))%nat by lia. cbn [plus]. eapply steps_cons; [exact E|]. apply IH, Y.
Qed.

(** The instruction itself, on the machine that has it. *)
Lemma unused_step p start i (cpu : mos6502 memory) n cpu1 : instruction_ok i -> transfers_control (i_mnemonic i) = false ->
  plain_map (amap cpu) -> regs_ok (regs_of cpu) -> reg_pc cpu = start -> start <= 0xfffd ->
  bytes_from (peek p (amap cpu)) start (code_of i) -> observed_step p cpu = Ok (n, cpu1) ->
  plain_map (amap cpu1) /\ regs_ok (regs_of cpu1) /\ reg_pc cpu1 = (start + Z.of_nat (size i)) mod 65536 /\
  (forall a, ram_at (amap cpu1) a <-> ram_at (amap cpu) a) /\
  forall q, ~ gives p cpu (i_mnemonic i) (i_mode i) (i_b1 i) (i_b2 i) q -> agree p cpu cpu1 q.
Proof.
  intros Hi Hc Hp Hr Hs Hpc Hb E. destruct (machine_bytes p cpu Hp) as [Rb Vb].
  assert (Upc : 0 <= rPC (regs_of cpu) <= 0xfffd) by (destruct Hr as (_ & _ & _ & _ & K); unfold u16 in K; cbn [regs_of rPC] in *; lia).
  assert (K := alone_step p i (regs_of cpu) (peek p (amap cpu)) Hi Hc Hr Vb (regs_of cpu) (peek p (amap cpu)) [] Hr Upc).
  rewrite app_nil_r in K. change (rPC (regs_of cpu)) with (reg_pc cpu) in K. rewrite Hs in K.
  specialize (K Hb (fun x _ => same_refl _ x) (fun a _ => eq_refl)).
  destruct (machine_step_inv p cpu n cpu1 Hp Hr E) as (e2 & Es & Ra). rewrite Es in K.
  destruct (alone p i (regs_of cpu) (peek p (amap cpu))) as [e|] eqn:Ea; [|contradiction]. destruct K as (K1 & K2 & K3 & K4).
  destruct (machine_step p cpu e2 Hp Hr Es Ra) as (cpu' & E' & R' & P' & Ok' & Ram' & F'). rewrite E in E'. injection E' as _ <-.
  split; [exact P'|]. split; [exact Ok'|]. split; [|split; [exact Ram'|]].
  - change (reg_pc cpu1) with (rPC (regs_of cpu1)). rewrite R', K3. rewrite (proj2 (size_pos i)). change (rPC (regs_of cpu)) with (reg_pc cpu). rewrite Hs. reflexivity.
  - intros [x|a] Hg; cbn [gives agree] in *.
    + rewrite R'. apply K4, Hg.
    + rewrite F', K1. apply stored_other. rewrite (alone_writes p i _ _ Hi Hr Vb e Ea). exact Hg.
Qed.

Lemma unwritten_code p start (l : list Z) (cpu cpu1 : mos6502 memory) :
  (forall a, block start (length l) a -> peek p (amap cpu1) a = peek p (amap cpu) a) ->
  bytes_from (peek p (amap cpu)) start l -> bytes_from (peek p (amap cpu1)) start l.
Proof. intros H. apply bytes_from_congr. intros k Hk. apply H. unfold block. lia. Qed.

Theorem C104_nops_instead : forall p start i known v k t (cpu cpu2 : mos6502 memory) known' cpu',
  instruction_ok i -> transfers_control (i_mnemonic i) = false -> start + Z.of_nat (size i) <= 0xfffe ->
  crossed_out p start i known cpu cpu2 -> (forall a, known (Byte a) -> ~ block start (size i) a) ->
  unused_run p start i known v k t cpu known' cpu' ->
  exists cpu2', runs p (v * size i + k) (2 * v * size i + t) cpu2 cpu2' /\ crossed_out p start i known' cpu' cpu2'.
Proof.
  intros p start i known v k t cpu cpu2 known' cpu' Hi Hc Hl X Hk U.
  assert (G : exists cpu2', steps p (v * size i + k) (2 * v * size i + t) cpu2 cpu2' /\ crossed_out p start i known' cpu' cpu2').
  { revert cpu2 X Hk. induction U as [known cpu|known known1 known' n v k t cpu cpu1 cpu' Hs E Hw H1 U IH|known known1 known' mn m c b1 b2 n v k t cpu cpu1 cpu' Ab E Hw Hq H1 U IH]; intros cpu2 X Hk.
    - exists cpu2. split; [constructor|exact X].
    - destruct X as ((PA & PB & OA & OB & Pc & Rm) & CA & CB & Ag).
      destruct (unused_step p start i cpu n cpu1 Hi Hc PA OA Hs ltac:(destruct (size_pos i); lia) CA E) as (PA1 & OA1 & Pc1 & Rm1 & Ag1).
      destruct (some_nops p (size i) cpu2 PB OB) as (cpu2a & E2 & Pc2 & R2 & PB1 & OB1 & Rm2 & F2).
      { lia. } { rewrite Pc, Hs. exact CB. }
      assert (U0 : 0 <= start) by (destruct OA as (_ & _ & _ & _ & K); unfold u16 in K; cbn [regs_of rPC] in K; lia).
      destruct (IH cpu2a) as (cpu2' & E' & X').
      + split; [|split; [|split]].
        * split; [exact PA1|]. split; [exact PB1|]. split; [exact OA1|]. split; [exact OB1|]. split.
          -- rewrite Pc2, Pc, Pc1, Hs. symmetry. apply Z.mod_small. destruct (size_pos i). lia.
          -- intros a. rewrite Rm2, Rm1. apply Rm.
        * revert CA. apply unwritten_code. rewrite code_length. intros a Ha. apply (Ag1 (Byte a)). cbn [gives]. intros H. exact (Hw a H Ha).
        * revert CB. apply unwritten_code. intros a _. apply F2.
        * intros q Hq. destruct (H1 q Hq) as [Hq1 Hq2]. specialize (Ag q Hq1). specialize (Ag1 q Hq2). destruct q as [x|a]; cbn [agree] in *.
          -- exact (same_trans _ _ _ _ (same_trans _ _ _ _ (same_sym _ _ _ Ag1) Ag) (R2 x)).
          -- rewrite F2. congruence.
      + intros a Ha. apply Hk. apply (H1 _ Ha).
      + exists cpu2'. split; [|exact X'].
        replace (S v * size i + k)%nat with (size i + (v * size i + k))%nat by lia.
        replace (2 * S v * size i + t)%nat with (2 * size i + (2 * v * size i + t))%nat by lia.
        eapply steps_join; eassumption.
    - destruct X as (T & CA & CB & Ag).
      assert (Y := C103_one_instruction p cpu cpu2 mn m c b1 b2 Ab T (fun q H => Ag q (Hq q H))). rewrite E in Y.
      destruct (observed_step p cpu2) as [[n2 cpu21]|] eqn:E2; [|contradiction]. destruct Y as (-> & T1 & Y1 & Y2).
      destruct (IH cpu21) as (cpu2' & E' & X').
      + split; [exact T1|]. split; [|split].
        * revert CA. apply unwritten_code. rewrite code_length. intros a Ha. apply (Y2 (Byte a)). cbn [gives]. intros H. exact (Hw a H Ha).
        * revert CB. apply unwritten_code. rewrite repeat_length. intros a Ha. apply (Y2 (Byte a)). cbn [gives]. intros H. exact (Hw a H Ha).
        * intros q H. assert (D : gives p cpu mn m b1 b2 q \/ ~ gives p cpu mn m b1 b2 q).
          { destruct q as [x|a]; cbn [gives]; [destruct (part_dec x (sets mn m)); auto|]. destruct (in_dec Z.eq_dec a (writes_of mn m (regs_of cpu) (peek p (amap cpu)) b1 b2)); auto. }
          destruct D as [D|D]; [exact (Y1 q D)|]. destruct (H1 q H) as [H2|H2]; [|contradiction].
          destruct (Y2 q D) as [Z1 Z2]. specialize (Ag q H2). destruct q as [x|a]; cbn [agree] in *.
          -- exact (same_trans _ _ _ _ (same_trans _ _ _ _ (same_sym _ _ _ Z1) Ag) Z2).
          -- congruence.
      + intros a Ha. destruct (H1 _ Ha) as [H|H]; [exact (Hk a H)|exact (Hw a H)].
      + exists cpu2'. split; [|exact X'].
        replace (v * size i + S k)%nat with (S (v * size i + k)) by lia.
        replace (2 * v * size i + (n + t))%nat with (n + (2 * v * size i + t))%nat by lia.
        eapply steps_cons; eassumption. }
  destruct G as (cpu2' & S' & X'). exists cpu2'. split; [|exact X']. split; [exact S'|].
  apply run_ready_iff. exists (v * size i + k)%nat, (2 * v * size i + t)%nat. split; [exact S'|]. split; [lia|left; reflexivity].
Qed.

(** ** Concrete cases *)
Lemma place_dec (a b : place) : {a = b} + {a <> b}.
Proof. decide equality; [|apply Z.eq_dec]. decide equality; decide equality. Defined.
Definition have (l : list place) (q : place) : bool := if in_dec place_dec q l then true else false.
Lemma have_yes l q : have l q = true -> In q l.
Proof. unfold have. destruct (in_dec _ _ _); [auto|discriminate]. Qed.
Definition inspected (p : profile) (cpu : mos6502 memory) mn m b1 b2 : list place :=
  map Part (emulator_looks_at mn m) ++ map (fun d => Byte ((reg_pc cpu + Z.of_nat d) mod 65536)) (seq 0 (Z.to_nat (length_of m))) ++
  map Byte (reads_of mn m (regs_of cpu) (peek p (amap cpu)) b1 b2).
Definition given (p : profile) (cpu : mos6502 memory) mn m b1 b2 : list place :=
  map Part (sets mn m) ++ map Byte (writes_of mn m (regs_of cpu) (peek p (amap cpu)) b1 b2).
Lemma inspected_all p cpu mn m b1 b2 q : inspects p cpu mn m b1 b2 q -> In q (inspected p cpu mn m b1 b2).
Proof.
  unfold inspected. rewrite !in_app_iff. destruct q as [x|a]; cbn [inspects]; [intros H; left; apply in_map, H|].
  intros [(d & Hd & ->)|H]; right; [left|right; apply in_map, H].
  apply in_map_iff. exists (Z.to_nat d). split; [rewrite Z2Nat.id by lia; reflexivity|]. apply in_seq. lia.
Qed.
Lemma given_iff p cpu mn m b1 b2 q : In q (given p cpu mn m b1 b2) <-> gives p cpu mn m b1 b2 q.
Proof.
  unfold given. rewrite in_app_iff. destruct q as [x|a]; cbn [gives]; split.
  - intros [H|H]; apply in_map_iff in H; destruct H as (y & H & H2); [injection H as <-; exact H2|discriminate].
  - intros H. left. apply in_map, H.
  - intros [H|H]; apply in_map_iff in H; destruct H as (y & H & H2); [discriminate|injection H as <-; exact H2].
  - intros H. right. apply in_map, H.
Qed.

(** Runs, checked by computation: [true] stands for a visit. *)
Definition outside (start : Z) (i : instruction) (l : list Z) : bool :=
  forallb (fun a => negb ((start <=? a) && (a <? start + Z.of_nat (size i)))) l.
Fixpoint unused_of (p : profile) (start : Z) (i : instruction) (known : list place) (visits : list bool) (cpu : mos6502 memory) : option (nat * list place * mos6502 memory) :=
  match visits with
  | [] => Some (0%nat, known, cpu)
  | true :: l =>
      if (reg_pc cpu =? start) && outside start i (writes_at i (regs_of cpu) (peek p (amap cpu))) then
        match observed_step p cpu with
        | Ok (n, cpu1) => unused_of p start i (filter (fun q => negb (have (given p cpu (i_mnemonic i) (i_mode i) (i_b1 i) (i_b2 i)) q)) known) l cpu1
        | Panic => None
        end
      else None
  | false :: l =>
      let f := peek p (amap cpu) in let pc := reg_pc cpu in
      let b1 := f ((pc + 1) mod 65536) in let b2 := f ((pc + 2) mod 65536) in
      match decode (f pc) with
      | Some (mn, m, c) =>
          if (pc <=? 0xfffd) && outside start i (writes_of mn m (regs_of cpu) f b1 b2) && forallb (have known) (inspected p cpu mn m b1 b2) then
            match observed_step p cpu with
            | Ok (n, cpu1) => match unused_of p start i (given p cpu mn m b1 b2 ++ known) l cpu1 with Some (t, known', cpu') => Some ((n + t)%nat, known', cpu') | None => None end
            | Panic => None
            end
          else None
      | None => None
      end
  end.
Fixpoint count (b : bool) (l : list bool) : nat := match l with [] => O | c :: l' => if Bool.eqb b c then S (count b l') else count b l' end.

Lemma outside_no start i l a : outside start i l = true -> In a l -> ~ block start (size i) a.
Proof. unfold outside. rewrite forallb_forall. intros H Ha. specialize (H a Ha). unfold block. lia. Qed.
Lemma next_plain p (cpu : mos6502 memory) n cpu1 : plain_map (amap cpu) -> regs_ok (regs_of cpu) -> observed_step p cpu = Ok (n, cpu1) ->
  plain_map (amap cpu1) /\ regs_ok (regs_of cpu1).
Proof.
  intros H1 H2 E. destruct (machine_step_inv p cpu n cpu1 H1 H2 E) as (e & Ee & Ra).
  destruct (machine_step p cpu e H1 H2 Ee Ra) as (c' & E' & _ & P' & R' & _). rewrite E in E'. injection E' as _ <-. auto.
Qed.
Lemma unused_of_sound p start i visits : forall known cpu t known' cpu', plain_map (amap cpu) -> regs_ok (regs_of cpu) ->
  unused_of p start i known visits cpu = Some (t, known', cpu') ->
  unused_run p start i (fun q => In q known) (count true visits) (count false visits) t cpu (fun q => In q known') cpu'.
Proof.
  induction visits as [|[|] l IH]; intros known cpu t known' cpu' Hp Hr E; cbn [unused_of count Bool.eqb] in *.
  - injection E as <- <- <-. constructor.
  - destruct ((reg_pc cpu =? start) && _) eqn:B in E; [|discriminate]. apply andb_true_iff in B. destruct B as [B1 B2].
    destruct (observed_step p cpu) as [[n cpu1]|] eqn:E1; [|discriminate]. destruct (next_plain _ _ _ _ Hp Hr E1) as [P1 R1].
    eapply unused_visit; [lia|exact E1|intros a Ha; exact (outside_no _ _ _ _ B2 Ha)| |exact (IH _ _ _ _ _ P1 R1 E)].
    intros q Hq. apply filter_In in Hq. destruct Hq as [H1 H2]. split; [exact H1|]. rewrite <- given_iff. intros H3.
    unfold have in H2. destruct (in_dec _ _ _); [discriminate|contradiction].
  - cbv zeta in E. destruct (decode (peek p (amap cpu) (reg_pc cpu))) as [[[mn m] c]|] eqn:Ed; [|discriminate].
    destruct ((reg_pc cpu <=? 0xfffd) && _ && _) eqn:B in E; [|discriminate]. rewrite !andb_true_iff in B. destruct B as [[B1 B2] B3].
    destruct (observed_step p cpu) as [[n cpu1]|] eqn:E1; [|discriminate]. destruct (next_plain _ _ _ _ Hp Hr E1) as [P1 R1].
    destruct (unused_of p start i _ l cpu1) as [[[t1 k1] c1]|] eqn:Er in E; [|discriminate]. injection E as <- <- <-.
    destruct (machine_bytes p cpu Hp) as [Rb Vb].
    eapply unused_other; [|exact E1|intros a Ha; exact (outside_no _ _ _ _ B2 Ha)| | |exact (IH _ _ _ _ _ P1 R1 Er)].
    + split; [exact Hr|]. split; [exact Rb|]. split; [exact Vb|]. split; [right; lia|]. split; [exact Ed|]. split; reflexivity.
    + intros q Hq. rewrite forallb_forall in B3. apply have_yes, B3, inspected_all, Hq.
    + intros q Hq. apply in_app_iff in Hq. rewrite given_iff in Hq. tauto.
Qed.
(** A run without visits is a run that looks only at what is known. *)
Lemma unused_known p start i known v k t cpu known' cpu' : unused_run p start i known v k t cpu known' cpu' -> v = 0%nat ->
  known_run p known k t cpu known' cpu'.
Proof.
  induction 1 as [|known known1 known' n v k t cpu cpu1 cpu' Hs E Hw H1 U IH|known known1 known' mn m c b1 b2 n v k t cpu cpu1 cpu' Ab E Hw Hq H1 U IH]; intros Hv.
  - constructor.
  - discriminate.
  - eapply known_step; [exact Ab|exact E|exact Hq|exact H1|exact (IH Hv)].
Qed.

(** LDA #5, STA $10, INC $10, LDX $10 on machines with different registers,
    flags and memory; only the program is known. *)
Definition known_code : list Z := [0xa9; 5; 0x85; 0x10; 0xe6; 0x10; 0xa6; 0x10; 0xea; 0xea; 0xea].
Definition first_machine : mos6502 memory := machine [] known_code 77 1 2 0xff ps0.
Definition second_machine : mos6502 memory := machine [1; 2; 3] known_code 0 200 17 0x80 (mkPs true true true true true true true true).
Definition the_code (start : Z) (n : nat) : list place := map (fun d => Byte (start + Z.of_nat d)) (seq 0 n).

Definition unused_lda : instruction := mkInstruction 0xa9 9 0 Lda Immediate 2.
(** LDX #2, then twice LDA #9 (or two NOPs) and DEX, then LDA #1. *)
Definition unused_machine (nops : bool) : mos6502 memory :=
  machine [] ([0xa2; 2] ++ (if nops then [0xea; 0xea] else [0xa9; 9]) ++ [0xca; 0xd0; 0xfd; 0xa9; 1; 0xea; 0xea; 0xea]) 77 0 0 0xff ps0.

Lemma machines_twins zp prog a x y sp ps zp2 prog2 a2 x2 y2 sp2 ps2 :
  machine_fits zp prog a x y sp = true -> machine_fits zp2 prog2 a2 x2 y2 sp2 = true -> length prog2 = length prog ->
  twins (machine zp prog a x y sp ps) (machine zp2 prog2 a2 x2 y2 sp2 ps2).
Proof.
  intros F1 F2 L. destruct (machine_plain zp prog a x y sp ps F1) as [P1 R1], (machine_plain zp2 prog2 a2 x2 y2 sp2 ps2 F2) as [P2 R2].
  split; [exact P1|]. split; [exact P2|]. split; [exact R1|]. split; [exact R2|]. split; [reflexivity|].
  intros b. unfold ram_at, machine. cbn [amap]. rewrite L.
  split; intros (e & [<-|[<-|[]]] & H2 & H3); try discriminate H3; (eexists; split; [left; reflexivity|]; split; [exact H2|exact H3]).
Qed.

Example C103_case : forall p, exists t known' cpu' cpu2',
  known_run p (fun q => In q (the_code 0x8000 8)) 4 t first_machine known' cpu' /\
  runs p 4 t second_machine cpu2' /\ known' (Part (Reg RX)) /\ known' (Byte 0x10) /\
  reg_x cpu2' = 6 /\ peek p (amap cpu2') 0x10 = 6.
Proof.
  intros p. destruct (machine_plain [] known_code 77 1 2 0xff ps0 ltac:(vm_compute; reflexivity)) as [P1 R1].
  assert (E : match unused_of p 0 nop (the_code 0x8000 8) [false; false; false; false] first_machine with
    | Some (t, known', c) => have known' (Part (Reg RX)) && have known' (Byte 0x10) && (reg_x c =? 6) && (peek p (amap c) 0x10 =? 6) | None => false end = true)
    by (destruct p; vm_compute; reflexivity).
  destruct (unused_of _ _ _ _ _ _) as [[[t known'] c]|] eqn:Ek in E; [|discriminate].
  apply (unused_of_sound _ _ _ _ _ _ _ _ _ P1 R1) in Ek. apply unused_known in Ek; [|reflexivity]. cbn [count Bool.eqb] in Ek.
  rewrite !andb_true_iff in E. destruct E as [[[E1 E2] E3] E4]. apply have_yes in E1, E2.
  assert (T : twins first_machine second_machine) by (apply machines_twins; vm_compute; reflexivity).
  destruct (C103_run p _ 4 t first_machine second_machine _ c Ek T) as (c2 & S2 & _ & Ag).
  { intros q Hq. unfold the_code in Hq. cbn in Hq.
    repeat (destruct Hq as [<-|Hq]; [destruct p; vm_compute; reflexivity|]). destruct Hq. }
  exists t, (fun q => In q known'), c, c2. split; [exact Ek|]. split; [exact S2|]. split; [exact E1|]. split; [exact E2|].
  split; [|rewrite (Ag _ E2); lia]. assert (K := Ag _ E1). cbn [agree same get regs_of rX] in K. lia.
Qed.

Example C104_loop_case : forall p, exists t known' cpu' cpu2',
  unused_run p 0x8002 unused_lda (fun q => In q (the_code 0x8000 2 ++ the_code 0x8004 5)) 2 6 t (unused_machine false) known' cpu' /\
  runs p 10 (8 + t) (unused_machine true) cpu2' /\ known' (Part (Reg RA)) /\
  reg_pc cpu2' = 0x8009 /\ reg_acc cpu2' = 1 /\ reg_x cpu2' = 0.
Proof.
  intros p. destruct (machine_plain [] ([0xa2; 2] ++ [0xa9; 9] ++ [0xca; 0xd0; 0xfd; 0xa9; 1; 0xea; 0xea; 0xea]) 77 0 0 0xff ps0 ltac:(vm_compute; reflexivity)) as [P1 R1].
  assert (E : match unused_of p 0x8002 unused_lda (the_code 0x8000 2 ++ the_code 0x8004 5) [false; true; false; false; true; false; false; false] (unused_machine false) with
    | Some (t, known', c) => have known' (Part (Reg RA)) && have known' (Part (Reg RX)) && (reg_pc c =? 0x8009) && (reg_acc c =? 1) && (reg_x c =? 0) | None => false end = true)
    by (destruct p; vm_compute; reflexivity).
  destruct (unused_of _ _ _ _ _ _) as [[[t known'] c]|] eqn:Ek in E; [|discriminate].
  apply (unused_of_sound _ _ _ _ _ _ _ _ _ P1 R1) in Ek. cbn [count Bool.eqb] in Ek.
  rewrite !andb_true_iff in E. destruct E as [[[[E1 E0] E2] E3] E4]. apply have_yes in E1, E0.
  assert (T : twins (unused_machine false) (unused_machine true)) by (apply machines_twins; vm_compute; reflexivity).
  assert (Hi : instruction_ok unused_lda) by (split; [vm_compute; reflexivity|]; unfold u8; cbn; lia).
  assert (X : crossed_out p 0x8002 unused_lda (fun q => In q (the_code 0x8000 2 ++ the_code 0x8004 5)) (unused_machine false) (unused_machine true)).
  { split; [exact T|]. split; [destruct p; vm_compute; auto|]. split; [destruct p; vm_compute; auto|].
    intros q Hq. unfold the_code in Hq. cbn in Hq.
    repeat (destruct Hq as [<-|Hq]; [destruct p; vm_compute; reflexivity|]). destruct Hq. }
  destruct (C104_nops_instead p 0x8002 unused_lda _ 2 6 t (unused_machine false) (unused_machine true) (fun q => In q known') c Hi eq_refl ltac:(vm_compute; discriminate) X) as (c2 & S2 & (T2 & _ & _ & Ag)).
  { intros a Ha. unfold the_code in Ha. cbn in Ha. unfold block. change (Z.of_nat (size unused_lda)) with 2.
    repeat (destruct Ha as [Ha|Ha]; [injection Ha as <-; lia|]). destruct Ha. }
  { exact Ek. }
  exists t, (fun q => In q known'), c, c2. split; [exact Ek|]. split; [exact S2|]. split; [exact E1|].
  destruct T2 as (_ & _ & _ & _ & Pc & _). split; [lia|].
  assert (K := Ag _ E1). assert (K0 := Ag _ E0). cbn [agree same get regs_of rX rA] in K, K0. lia.
Qed.

Print Assumptions C103_one_instruction.
Print Assumptions C103_run.
Print Assumptions C104_nops_instead.
