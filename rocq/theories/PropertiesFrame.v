(** Properties C71 (exactly when a step or a run panics), C72 (what an
    instruction leaves alone) and C73 (decimal mode). *)
From Verif Require Import Base Arith ModelMap ModelStep ModelRegs6502 ModelCpu6502 ModelOperand
  ModelIsa6502 ModelRun6502 SpecMap ProofMap Link6502 ProofStep6502 ProofRun6502 ProofBus SpecInstr ProofInstr
  ProofReplay ProofFrame Demo6502.
From Verif Require Import Spec6502 SpecBus SpecFrame.

(** ** C71 *)

(** The instruction at PC cannot be executed: its opcode is not documented,
    its address arithmetic overflows in a debug build, or it stores to an
    address that is not RAM. *)
Definition cannot_execute (p : profile) (cpu : mos6502 memory) : Prop :=
  let rd := peek p (amap cpu) in
  let pc := reg_pc cpu in
  let b1 := rd ((pc + 1) mod 65536) in
  let b2 := rd ((pc + 2) mod 65536) in
  let r := regs_of cpu in
  decode (rd pc) = None \/
  (p = Debug /\ 0xfffe <= pc) \/
  exists mn m c, decode (rd pc) = Some (mn, m, c) /\
    ((p = Debug /\ address_overflow mn m r rd b1 b2) \/
     exists a, In a (writes_made mn m r b1 b2 (pointer_lo m r rd b1) (pointer_hi m r rd b1)) /\
       ~ ram_at (amap cpu) a).

Lemma plain_in m : plain_map m -> plain_with (fun _ => False) m.
Proof. intros H. split; [exact H|]. intros a []. Qed.

Theorem C71_step_panics_iff : forall p (cpu : mos6502 memory),
  plain_map (amap cpu) -> regs_ok (regs_of cpu) ->
  (next p cpu = Panic <-> cannot_execute p cpu).
Proof.
  intros p cpu Hp Hr.
  assert (B := plain_ram_bus p (fun _ => False)).
  destruct (bus_peek p _ _ B (amap cpu) (plain_in _ Hp)) as [Hb Hv].
  assert (E : next p cpu = Panic <-> observed_step p cpu = Panic).
  { unfold observed_step. destruct (next p cpu) as [[mops c]|]; split; intros H; try discriminate; reflexivity. }
  rewrite E, (step_spec p _ _ B cpu (plain_in _ Hp) Hr). clear E. unfold cannot_execute. cbv zeta.
  set (rd := peek p (amap cpu)) in *. assert (Hr' := Hr). destruct Hr' as (_ & _ & _ & _ & Hpc).
  change (rPC (regs_of cpu)) with (reg_pc cpu) in Hpc. unfold u16 in Hpc.
  assert (K : p = Debug /\ 0xfffe <= reg_pc cpu \/
              forall k, 0 <= k <= 2 -> unchecked p 65536 (reg_pc cpu + k) = Some ((reg_pc cpu + k) mod 65536)).
  { destruct (reg_pc cpu <? 0xfffe) eqn:E.
    - right. intros k Hk. unfold unchecked. replace (reg_pc cpu + k <? 65536) with true by lia.
      rewrite Z.mod_small by lia. reflexivity.
    - destruct p; [left; split; [reflexivity|lia]|]. right. intros k Hk. unfold unchecked.
      destruct (reg_pc cpu + k <? 65536) eqn:E2; [rewrite Z.mod_small by lia|]; reflexivity. }
  unfold step. change (rPC (regs_of cpu)) with (reg_pc cpu).
  destruct K as [[-> K]|K].
  { split; [intros _; right; left; split; [reflexivity|exact K]|]. intros _.
    assert (U : unchecked Debug 65536 (reg_pc cpu + 2) = None)
      by (unfold unchecked; replace (reg_pc cpu + 2 <? 65536) with false by lia; reflexivity).
    rewrite U. destruct (unchecked Debug 65536 (reg_pc cpu + 1)); reflexivity. }
  rewrite (K 1), (K 2) by lia.
  set (b1 := rd ((reg_pc cpu + 1) mod 65536)). set (b2 := rd ((reg_pc cpu + 2) mod 65536)).
  assert (H1 : u8 b1) by apply Hv, u16_mod. assert (H2 : u8 b2) by apply Hv, u16_mod.
  assert (Npc : ~ (p = Debug /\ 0xfffe <= reg_pc cpu)).
  { intros [-> H]. specialize (K 2 ltac:(lia)). unfold unchecked in K.
    replace (reg_pc cpu + 2 <? 65536) with false in K by lia. discriminate. }
  destruct (decode (rd (reg_pc cpu))) as [[[mn m] c]|] eqn:Ed; [|split; [intros _; left; reflexivity|reflexivity]].
  assert (X := execute_cases p mn m c (regs_of cpu) rd b1 b2 Hr Hv H1 H2 (decode_possible _ _ _ _ Ed)).
  destruct (_ && overflows mn m (regs_of cpu) rd b1 b2) eqn:Eo.
  - rewrite X. split; [|reflexivity]. intros _. right. right. exists mn, m, c. split; [reflexivity|]. left.
    apply andb_true_iff in Eo as [E1 E2]. destruct p; [|discriminate]. split; [reflexivity|].
    apply overflows_iff. exact E2.
  - destruct X as (e & Ee & Ew). rewrite Ee. unfold spec_outcome.
    assert (Hok : stores_ok (e_stores e)) by (apply (execute_ok p mn m c _ _ _ _ e Hv Hr H1 H2 Ee)).
    assert (S := stores_panic_iff p (e_stores e) (amap cpu) Hp Hok).
    destruct (store_all p (amap cpu) (e_stores e)) as [m'|].
    + split; [discriminate|]. intros [|[|(mn' & m'' & c' & Em & [[-> Ho]|Ho])]]; [discriminate|contradiction| |].
      * injection Em as <- <- <-. apply overflows_iff in Ho. rewrite Ho in Eo. discriminate.
      * injection Em as <- <- <-. rewrite <- Ew in Ho. apply S in Ho. discriminate.
    + split; [|reflexivity]. intros _. right. right. exists mn, m, c. split; [reflexivity|]. right.
      rewrite <- Ew. apply S. reflexivity.
Qed.

(** A run panics exactly when it comes to an instruction that cannot be
    executed before its cycles are used up. *)
Theorem C71_run_panics_iff : forall p (cpu : mos6502 memory) n,
  plain_map (amap cpu) -> regs_ok (regs_of cpu) ->
  (run p cpu n = Panic <->
   exists k t cpu', steps p k t cpu cpu' /\ (t < n)%nat /\ cannot_execute p cpu').
Proof.
  intros p cpu n Hp Hr. rewrite run_panic_iff.
  assert (B := plain_ram_bus p (fun _ => False)).
  assert (G : forall k t cpu', steps p k t cpu cpu' -> (observed_step p cpu' = Panic <-> cannot_execute p cpu')).
  { intros k t cpu' Hs.
    destruct (steps_bus_inv p _ _ B k t cpu cpu' Hs (plain_in _ Hp) Hr) as [[Hp' _] Hr'].
    rewrite <- (C71_step_panics_iff p cpu' Hp' Hr'). unfold observed_step.
    destruct (next p cpu') as [[mops c]|]; split; intros H; try discriminate; reflexivity. }
  split; intros (k & t & cpu' & Hs & Ht & Hc); exists k, t, cpu'; (split; [exact Hs|]); (split; [exact Ht|]);
    apply (G k t cpu' Hs); exact Hc.
Qed.

(** A release build on RAM only stops at undocumented opcodes. *)
Theorem C71_all_ram_release : forall (cpu : mos6502 memory),
  plain_map (amap cpu) -> regs_ok (regs_of cpu) ->
  (forall a, u16 a -> ram_at (amap cpu) a) ->
  (next Release cpu = Panic <-> decode (peek Release (amap cpu) (reg_pc cpu)) = None).
Proof.
  intros cpu Hp Hr Hram. rewrite (C71_step_panics_iff _ cpu Hp Hr). unfold cannot_execute. cbv zeta. split.
  - intros [H|[[H _]|(mn & m & c & Ed & [[H _]|(a & Ha & Hn)])]]; [exact H|discriminate|discriminate|].
    exfalso. apply Hn, Hram. assert (B := plain_ram_bus Release (fun _ => False)).
    destruct (bus_peek Release _ _ B (amap cpu) (plain_in _ Hp)) as [Hb Hv].
    set (rd := peek Release (amap cpu)) in *.
    assert (H1 : u8 (rd ((reg_pc cpu + 1) mod 65536))) by apply Hv, u16_mod.
    assert (H2 : u8 (rd ((reg_pc cpu + 2) mod 65536))) by apply Hv, u16_mod.
    assert (X := execute_cases Release mn m c (regs_of cpu) rd _ _ Hr Hv H1 H2 (decode_possible _ _ _ _ Ed)).
    cbn [andb] in X. destruct X as (e & Ee & Ew). rewrite <- Ew in Ha.
    destruct (execute_ok _ _ _ _ _ _ _ _ _ Hv Hr H1 H2 Ee) as [_ Hs].
    unfold stores_ok in Hs. rewrite Forall_forall in Hs. apply in_map_iff in Ha as (s & <- & Hin). apply Hs, Hin.
  - intros H. left. exact H.
Qed.

(** ** C72 *)

(** Memory: only the cells an instruction is documented to write can change. *)
Theorem C72_memory_frame : forall p (cpu : mos6502 memory) cpu',
  plain_map (amap cpu) -> regs_ok (regs_of cpu) -> becomes p cpu cpu' ->
  exists mn m c, let rd := peek p (amap cpu) in
    let b1 := rd ((reg_pc cpu + 1) mod 65536) in let b2 := rd ((reg_pc cpu + 2) mod 65536) in
    decode (rd (reg_pc cpu)) = Some (mn, m, c) /\
    forall a, ~ In a (writes_made mn m (regs_of cpu) b1 b2 (pointer_lo m (regs_of cpu) rd b1)
                        (pointer_hi m (regs_of cpu) rd b1)) ->
      peek p (amap cpu') a = rd a.
Proof.
  intros p cpu cpu' Hp Hr (c0 & Es). assert (B := plain_ram_bus p (fun _ => False)).
  destruct (bus_peek p _ _ B (amap cpu) (plain_in _ Hp)) as [Hb Hv].
  destruct (step_inv p _ _ B cpu c0 cpu' (plain_in _ Hp) Hr Es) as (_ & _ & e & Est & _ & _ & Hok & Hst).
  destruct (step_about p cpu _ c0 cpu' Hr Hb Hv Es) as (mn & m & c & b1 & b2 & Ha).
  assert (Ee := about_step _ _ _ _ _ _ _ _ Ha). destruct (about_bytes _ _ _ _ _ _ _ _ Ha) as [H1 H2].
  destruct Ha as (_ & _ & _ & Hpc & Ed & -> & ->).
  exists mn, m, c. cbv zeta. split; [exact Ed|]. intros a Hn.
  set (rd := peek p (amap cpu)) in *.
  set (b1 := rd ((reg_pc cpu + 1) mod 65536)) in *. set (b2 := rd ((reg_pc cpu + 2) mod 65536)) in *.
  assert (X := execute_cases p mn m c (regs_of cpu) rd b1 b2 Hr Hv H1 H2 (decode_possible _ _ _ _ Ed)).
  destruct (_ && overflows mn m (regs_of cpu) rd b1 b2) eqn:Eo.
  - rewrite X in Ee. rewrite Es in Ee. discriminate.
  - destruct X as (e' & Ee' & Ew). rewrite Ee', Es in Ee. unfold spec_outcome in Ee.
    destruct (store_all p (amap cpu) (e_stores e')) as [m'|] eqn:Em; [|discriminate].
    injection Ee as _ ->. cbn [amap cpu_with]. rewrite <- Ew in Hn.
    apply (stores_frame p (e_stores e') (amap cpu) m' Hp); [|exact Em|exact Hn].
    apply (execute_ok p mn m c _ _ _ _ e' Hv Hr H1 H2 Ee').
Qed.

(** Registers and flags, on any readable bus. *)
Theorem C72_register_frame : forall D (dev : Device D) p (cpu : mos6502 D) rd mn m c b1 b2 cpu',
  about_to p cpu rd mn m c b1 b2 -> becomes p cpu cpu' ->
  (forall x, ~ In x (may_change mn m) -> get (regs_of cpu') x = get (regs_of cpu) x) /\
  (forall f, ~ In f (flags_changed mn) -> flag_of (regs_of cpu') f = flag_of (regs_of cpu) f).
Proof.
  intros D dev p cpu rd mn m c b1 b2 cpu' Ha (c0 & Es). assert (Ee := about_step _ _ _ _ _ _ _ _ Ha).
  rewrite Es in Ee. destruct (execute p mn m c (regs_of cpu) rd b1 b2) as [e|] eqn:Ex; [|discriminate].
  unfold spec_outcome in Ee. destruct (store_all p (amap cpu) (e_stores e)) as [m'|]; [|discriminate].
  injection Ee as _ ->. change (mkMos6502 m' _ _ _ _ _ _) with (cpu_with (e_regs e) m'). rewrite regs_of_cpu_with.
  destruct Ha as (_ & _ & _ & _ & Ed & _). exact (execute_registers _ _ _ _ _ _ _ _ _ (decode_possible _ _ _ _ Ed) Ex).
Qed.

(** ** C73 *)

(** The machine with one flag set by hand. *)
Definition with_flag {D} (f : flag) (v : bool) (cpu : mos6502 D) : mos6502 D :=
  cpu_with (set_flag f v (regs_of cpu)) (amap cpu).

(** A flag an instruction does not use has no influence on it: the step from
    the machine with the flag changed is the step from the machine, with the
    flag changed afterwards (unless the instruction sets it). *)
Theorem C73_unused_flag : forall D (dev : Device D) p (cpu : mos6502 D) rd mn m c b1 b2 f v,
  about_to p cpu rd mn m c b1 b2 -> ~ In f (flags_used mn) ->
  observed_step p (with_flag f v cpu) =
  match observed_step p cpu with
  | Ok (n, cpu') => Ok (n, if flag_in f (flags_changed mn) then cpu' else with_flag f v cpu')
  | Panic => Panic
  end.
Proof.
  intros D dev p cpu rd mn m c b1 b2 f v Ha Hn.
  assert (Hu : flag_in f (flags_used mn) = false).
  { destruct (flag_in f (flags_used mn)) eqn:E; [|reflexivity]. apply flag_in_iff in E. contradiction. }
  assert (Ha' : about_to p (with_flag f v cpu) rd mn m c b1 b2).
  { destruct Ha as (H1 & H2 & H3 & H4 & H5 & H6 & H7).
    split; [unfold with_flag; rewrite regs_of_cpu_with; exact H1|]. repeat (split; [assumption|]). assumption. }
  rewrite (about_step _ _ _ _ _ _ _ _ Ha), (about_step _ _ _ _ _ _ _ _ Ha').
  replace (regs_of (with_flag f v cpu)) with (set_flag f v (regs_of cpu))
    by (symmetry; apply regs_of_cpu_with).
  rewrite (execute_flag p mn m c _ rd b1 b2 f v Hu).
  destruct (execute p mn m c (regs_of cpu) rd b1 b2) as [e|]; cbn [option_map spec_outcome]; [|reflexivity].
  change (amap (with_flag f v cpu)) with (amap cpu). unfold carry_flag.
  destruct (flag_in f (flags_changed mn)); cbn [e_stores e_regs e_cycles];
    destruct (store_all p (amap cpu) (e_stores e)) as [m'|]; reflexivity.
Qed.

(** Decimal mode. Two binary-coded decimal digits. *)
Definition bcd (v : Z) : Z := 10 * (v / 16) + v mod 16.
Definition is_bcd (v : Z) : Prop := u8 v /\ v / 16 <= 9 /\ v mod 16 <= 9.

(** The documented claim: with D set, ADC adds decimal numbers. *)
Theorem C73_decimal_adc_refuted :
  ~ (forall p (cpu : mos6502 memory) rd m c b1 b2 v cpu',
      about_to p cpu rd Adc m c b1 b2 -> operand_is p cpu rd m b1 b2 v ->
      ps_decimal (reg_ps cpu) = true -> ps_carry (reg_ps cpu) = false ->
      is_bcd (reg_acc cpu) -> is_bcd v -> becomes p cpu cpu' ->
      is_bcd (reg_acc cpu') /\ bcd (reg_acc cpu') = (bcd (reg_acc cpu) + bcd v) mod 100).
Proof.
  intros T. set (ps := mkPs false false false true false true false false).
  assert (A : about_to Debug (machine [] [0x69; 0x27] 0x15 0 0 0xff ps)
    (bytes_at Debug [] [0x69; 0x27] 0x15 0 0 0xff ps) Adc Immediate 2 0x27 0) by (apply machine_about; vm_compute; reflexivity).
  assert (Bc : exists cpu', becomes Debug (machine [] [0x69; 0x27] 0x15 0 0 0xff ps) cpu' /\ reg_acc cpu' = 0x3c).
  { eexists. split; [eexists; vm_compute; reflexivity|reflexivity]. }
  destruct Bc as (cpu' & Bc & Ea).
  assert (I : forall v, (0 <=? v) && (v <? 256) && (v / 16 <=? 9) && (v mod 16 <=? 9) = true -> is_bcd v).
  { intros v E. unfold is_bcd, u8. lia. }
  destruct (T Debug _ _ Immediate 2%nat 0x27 0 0x27 cpu' A eq_refl eq_refl eq_refl (I 0x15 eq_refl) (I 0x27 eq_refl) Bc)
    as [(_ & _ & H) _].
  rewrite Ea in H. apply H. reflexivity.
Qed.

(** What does hold: the flag is ignored by ADC, SBC and everything else but
    PHP and BRK, which push it; so the decimal sum is right exactly when no
    digit overflows. *)
Theorem C73_decimal_ignored_partial : forall D (dev : Device D) p (cpu : mos6502 D) rd mn m c b1 b2 v,
  about_to p cpu rd mn m c b1 b2 -> mn <> Php -> mn <> Brk ->
  observed_step p (with_flag FD v cpu) =
  match observed_step p cpu with
  | Ok (n, cpu') =>
      Ok (n, match mn with Cld | Sed | Plp | Rti => cpu' | _ => with_flag FD v cpu' end)
  | Panic => Panic
  end.
Proof.
  intros D dev p cpu rd mn m c b1 b2 v Ha H1 H2.
  rewrite (C73_unused_flag D dev p cpu rd mn m c b1 b2 FD v Ha).
  - destruct mn; reflexivity.
  - destruct mn; cbn; intros H; try contradiction; repeat (destruct H as [H|H]; try discriminate); contradiction.
Qed.

Lemma digits_add a v : is_bcd a -> is_bcd v ->
  (is_bcd ((a + v) mod 256) /\ bcd ((a + v) mod 256) = (bcd a + bcd v) mod 100 <->
   a mod 16 + v mod 16 <= 9 /\ a / 16 + v / 16 <= 9).
Proof.
  unfold is_bcd, u8, bcd. intros (H1 & H2 & H3) (H4 & H5 & H6).
  assert (X : exists h l h' l', a = 16 * h + l /\ v = 16 * h' + l' /\ 0 <= h <= 9 /\ 0 <= l <= 9 /\
             0 <= h' <= 9 /\ 0 <= l' <= 9).
  { exists (a / 16), (a mod 16), (v / 16), (v mod 16). lia. }
  destruct X as (h & l & h' & l' & -> & -> & Hh & Hl & Hh' & Hl').
  clear H1 H2 H3 H4 H5 H6.
  replace ((16 * h + l) / 16) with h by lia. replace ((16 * h + l) mod 16) with l by lia.
  replace ((16 * h' + l') / 16) with h' by lia. replace ((16 * h' + l') mod 16) with l' by lia.
  split; lia.
Qed.

Theorem C73_decimal_adc_partial : forall D (dev : Device D) p (cpu : mos6502 D) rd m c b1 b2 v cpu',
  about_to p cpu rd Adc m c b1 b2 -> operand_is p cpu rd m b1 b2 v -> becomes p cpu cpu' ->
  is_bcd (reg_acc cpu) -> is_bcd v ->
  (is_bcd (reg_acc cpu') /\ bcd (reg_acc cpu') = (bcd (reg_acc cpu) + bcd v) mod 100 <->
   reg_acc cpu mod 16 + v mod 16 <= 9 /\ reg_acc cpu / 16 + v / 16 <= 9).
Proof.
  intros D dev p cpu rd m c b1 b2 v cpu' Ha Ho Hb HA Hv.
  assert (K := becomes_read p cpu rd _ m c b1 b2 v _ Ha eq_refl Ho).
  destruct Hb as (n & Hb). destruct K as (n' & K). rewrite K in Hb. injection Hb as _ <-.
  exact (digits_add (reg_acc cpu) v HA Hv).
Qed.

Print Assumptions C71_step_panics_iff.
Print Assumptions C71_run_panics_iff.
Print Assumptions C71_all_ram_release.
Print Assumptions C72_memory_frame.
Print Assumptions C72_register_frame.
Print Assumptions C73_unused_flag.
Print Assumptions C73_decimal_adc_refuted.
Print Assumptions C73_decimal_ignored_partial.
Print Assumptions C73_decimal_adc_partial.

(** ** Concrete cases *)

(** The three causes of a panic, and a program without any. *)
Definition cannot (p : profile) (prog : list Z) (x : Z) : bool :=
  match next p (machine [] prog 1 x 0 0xff ps0) with Panic => true | Ok _ => false end.
Example C71_cases :
  (* undocumented opcode *) cannot Debug [0x02] 0 = true /\
  (* store to ROM *) cannot Release [0x8d; 0x00; 0x80] 0 = true /\
  (* store to nothing *) cannot Release [0x8d; 0x00; 0x50] 0 = true /\
  (* LDA (0xff,X) with X = 255 *) cannot Debug [0xa1; 0xff; 0] 255 = true /\
  cannot Release [0xa1; 0xff; 0] 255 = false /\
  (* JMP (0xffff) *) cannot Debug [0x6c; 0xff; 0xff] 0 = true /\
  cannot Release [0x6c; 0xff; 0xff] 0 = false /\
  (* store to RAM *) cannot Debug [0x8d; 0x00; 0x02] 0 = false.
Proof. repeat split; vm_compute; reflexivity. Qed.

Example C71_hypotheses :
  plain_map (amap (machine [] [0x8d; 0x00; 0x80] 1 0 0 0xff ps0)) /\
  regs_ok (regs_of (machine [] [0x8d; 0x00; 0x80] 1 0 0 0xff ps0)) /\
  cannot_execute Release (machine [] [0x8d; 0x00; 0x80] 1 0 0 0xff ps0).
Proof.
  destruct (machine_plain [] [0x8d; 0x00; 0x80] 1 0 0 0xff ps0 eq_refl) as [Hp Hr].
  split; [exact Hp|]. split; [exact Hr|]. apply (C71_step_panics_iff _ _ Hp Hr).
  vm_compute. reflexivity.
Qed.

(** STA writes one cell and no register; SED then ADC gives the binary sum. *)
Example C72_case : exists cpu',
  becomes Debug (machine [7; 8] [0x85; 0x01] 5 6 9 0xfe ps0) cpu' /\
  map (peek Debug (amap cpu')) [0; 1; 2] = [7; 5; 0] /\
  map (get (regs_of cpu')) [RA; RX; RY; RS] = [5; 6; 9; 0xfe].
Proof. eexists. split; [eexists; vm_compute; reflexivity|]. split; vm_compute; reflexivity. Qed.

Example C73_case : exists cpu',
  becomes Debug (machine [] [0x69; 0x34] 0x12 0 0 0xff (mkPs false false false true false true false false)) cpu' /\
  reg_acc cpu' = 0x46 /\ bcd (reg_acc cpu') = 46.
Proof. eexists. split; [eexists; vm_compute; reflexivity|]. split; vm_compute; reflexivity. Qed.
