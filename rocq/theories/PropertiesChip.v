(** C138: what the static checks of C133 and C134 promise of the emulator holds
    on the documented 6502, for code that also passes the check of C135. *)
From Verif Require Import Base Arith ModelMap ModelRegs6502 ModelCpu6502 ModelStep ModelIsa6502 ModelRun6502 SpecMap Link6502 ProofRun6502 ProofBus
  SpecInstr ProofInstr ProofFrame Demo6502 Properties6502Mem ProofProgram PropertiesProgram.
From Verif Require Import Spec6502 SpecFrame SpecLive SpecProgram SpecCheck ProofCheck PropertiesCheck SpecDatasheet SpecPortable PropertiesPortable
  SpecSecret ProofSecret PropertiesSecret SpecBudget ProofBudget PropertiesBudget SpecPort ProofPort PropertiesPort.

(** Two states of the chip that an observer who sees no secrets cannot tell
    apart: [P] says what is secret and what is public, [Q] which flags the code
    relies on. *)
Definition chips_alike (P : policy) (Q : port) (st1 st2 : ds_state) : Prop :=
  rPC (fst st1) = rPC (fst st2) /\ rS (fst st1) = rS (fst st2) /\
  (forall x, In (Reg x) (public P (rPC (fst st1))) -> get (fst st1) x = get (fst st2) x) /\
  (forall x, In (Flag x) (public P (rPC (fst st1))) -> In x (agreed Q (rPC (fst st1))) -> flag_of (fst st1) x = flag_of (fst st2) x) /\
  forall q, u16 q -> secret P q = false -> snd st1 q = snd st2 q.

(** The code is not secret, so both memories have the same displacements. *)
Lemma displacements_alike p P f1 f2 ramb l : passes p f1 ramb l = true -> keeps_secrets P f1 l = true ->
  (forall q, u16 q -> secret P q = false -> f1 q = f2 q) -> forall q, displacement f1 l q = displacement f2 l q.
Proof.
  intros Hp Hk E q. unfold displacement. unfold passes in Hp. apply andb_prop in Hp as [_ Hp]. unfold keeps_secrets in Hk. apply andb_prop in Hk as [_ Hk].
  rewrite forallb_forall in Hp, Hk.
  assert (G : forall n, In n l -> f1 (n_at n) = f2 (n_at n)).
  { intros n Hin. specialize (Hp n Hin). specialize (Hk n Hin). unfold instruction_ok in Hp. apply andb_prop in Hp as [Hp _]. apply andb_prop in Hp as [Hp _]. apply andb_prop in Hp as [Hp _].
    unfold keeps_ok in Hk. destruct (decode (f1 (n_at n))) as [[[mn m] c]|]; [|discriminate].
    do 5 apply andb_prop in Hk as [Hk _]. apply E; [unfold u16; lia|]. rewrite forallb_forall in Hk. specialize (Hk 0%nat). rewrite Z.add_0_r in Hk.
    destruct (secret P (n_at n)); [|reflexivity]. discriminate Hk. apply in_seq. destruct m; cbn; lia. }
  clear - G. induction l as [|n l IH]; [reflexivity|]. cbn [existsb]. rewrite (G n (or_introl eq_refl)), IH; [reflexivity|]. intros n' H. apply G. right. exact H.
Qed.

Lemma tally_get P r r' x : tally P r r' -> get r x = get r' x.
Proof. intros (A & B & C & D & _). destruct x; assumption. Qed.

Lemma chips_from_machines D (HD : Device D) p P Q f1 f2 l (cpu1 cpu2 : mos6502 D) ra rb ga gb :
  (forall q, displacement f1 l q = displacement f2 l q) -> look_alike p P cpu1 cpu2 ->
  tally Q (regs_of cpu1) ra -> tally Q (regs_of cpu2) rb -> chip_memory f1 l (peek p (amap cpu1)) ga -> chip_memory f2 l (peek p (amap cpu2)) gb ->
  chips_alike P Q (ra, ga) (rb, gb).
Proof.
  intros Ed (L1 & L2 & L3 & L4) T1 T2 M1 M2. unfold chips_alike. cbn [fst snd].
  pose proof T1 as (_ & _ & _ & S1 & P1 & F1). pose proof T2 as (_ & _ & _ & S2 & P2 & F2). rewrite <- P1, <- P2. rewrite Forall_forall in L3.
  split; [congruence|]. split; [congruence|]. split; [|split].
  - intros x Hx. rewrite <- (tally_get _ _ _ x T1), <- (tally_get _ _ _ x T2). exact (L3 _ Hx).
  - intros x Hx Hq. rewrite <- (F1 x Hq), <- (F2 x) by (rewrite <- L1; exact Hq). exact (L3 _ Hx).
  - intros q Hq Hs. rewrite (M1 q Hq), (M2 q Hq), <- Ed, (L4 q Hq Hs). reflexivity.
Qed.

(** Two chips that run code that passes C131, C133 and C135, and differ only in
    secrets: whatever the first has done after a number of instructions, the
    second has done the same number in the same number of cycles, is at the same
    instruction, and still differs only in secrets. *)
Theorem C138_secrets_never_show_on_the_chip : forall D (HD : Device D) p I ram (cpu1 cpu2 : mos6502 D) r1 r2 f1 f2 ramb l P Q ra ga rb gb,
  ported p I ram cpu1 r1 f1 ramb l Q ra ga -> ported p I ram cpu2 r2 f2 ramb l Q rb gb ->
  keeps_secrets P f1 l = true -> look_alike p P cpu1 cpu2 ->
  chips_alike P Q (ra, ga) (rb, gb) /\
  forall k t st1, chip ram k t (ra, ga) st1 -> exists st2, chip ram k t (rb, gb) st2 /\ chips_alike P Q st1 st2.
Proof.
  intros D HD p I ram cpu1 cpu2 r1 r2 f1 f2 ramb l P Q ra ga rb gb H1 H2 Hk Hl.
  pose proof (proj1 H1) as C1. pose proof (proj1 H2) as C2.
  assert (Ed : forall q, displacement f1 l q = displacement f2 l q).
  { destruct C1 as (_ & (_ & _ & _ & G1) & _ & Hp & _). destruct C2 as (_ & (_ & _ & _ & G2) & _). apply (displacements_alike p P f1 f2 ramb l Hp Hk).
    intros q Hq Hs. rewrite <- G1, <- G2 by exact Hq. apply Hl; assumption. }
  split.
  - destruct (C135_same_on_the_chip D HD p I ram cpu1 r1 f1 ramb l Q ra ga H1 0) as (t1 & c1 & ra' & ga' & [R1 _] & X1 & T1 & M1).
    destruct (C135_same_on_the_chip D HD p I ram cpu2 r2 f2 ramb l Q rb gb H2 0) as (t2 & c2 & rb' & gb' & [R2 _] & X2 & T2 & M2).
    inversion R1; subst. inversion R2; subst. inversion X1; subst. inversion X2; subst. exact (chips_from_machines D HD p P Q f1 f2 l _ _ _ _ _ _ Ed Hl T1 T2 M1 M2).
  - intros k t [ra' ga'] X1.
    destruct (C135_as_on_the_chip D HD p I ram cpu1 r1 f1 ramb l Q ra ga H1 k t ra' ga' X1) as (c1 & [R1 _] & T1 & M1).
    destruct (C133_secrets_never_show D HD p I ram cpu1 cpu2 r1 r2 f1 f2 ramb l P C1 C2 Hk Hl k) as (t' & d1 & d2 & [S1 _] & [S2 _] & A).
    destruct (steps_det p _ _ _ _ R1 _ _ S1) as [<- <-].
    destruct (C135_same_on_the_chip D HD p I ram cpu2 r2 f2 ramb l Q rb gb H2 k) as (t2 & c2 & rb' & gb' & [R2 _] & X2 & T2 & M2).
    destruct (steps_det p _ _ _ _ S2 _ _ R2) as [<- <-].
    exists (rb', gb'). split; [exact X2|]. exact (chips_from_machines D HD p P Q f1 f2 l _ _ _ _ _ _ Ed A T1 T2 M1 M2).
Qed.

Lemma chip_split ram i j : forall t st st', chip ram (i + j) t st st' -> exists ti tj s, t = (ti + tj)%nat /\ chip ram i ti st s /\ chip ram j tj s st'.
Proof.
  induction i as [|i IH]; cbn [Nat.add]; intros t st st' R.
  - exists 0%nat, t, st. split; [reflexivity|]. split; [constructor|exact R].
  - inversion R as [|k t' c st0 st1 st2 Es N1 N2 R']; subst. destruct (IH _ _ _ R') as (ti & tj & s & -> & A & B).
    exists (c + ti)%nat, tj, s. split; [lia|]. split; [econstructor; eassumption|exact B].
Qed.

(** A chip that runs code that passes C131, C134 and C135 comes, from wherever
    it is, to a marked instruction within the budget [W]. *)
Theorem C138_marks_keep_coming_on_the_chip : forall D (HD : Device D) p I ram (cpu : mos6502 D) r f ramb l Q r2 g B W,
  ported p I ram cpu r f ramb l Q r2 g -> in_time B W f l = true ->
  (exists w, bound B (rPC r) (rX r) (ps_zero (rP r)) = Some w /\ w <= W) ->
  forall k t st, chip ram k t (r2, g) st ->
  exists j t2 st2, (0 < j)%nat /\ chip ram j t2 st st2 /\ Z.of_nat t2 <= W /\ marked B (rPC (fst st2)) = true.
Proof.
  intros D HD p I ram cpu r f ramb l Q r2 g B W H Ht Hw k t [ra ga] X.
  assert (Hp : paced p I ram cpu r f ramb l B W) by (split; [exact (proj1 H)|split; assumption]).
  destruct (C135_as_on_the_chip D HD p I ram cpu r f ramb l Q r2 g H k t ra ga X) as (c1 & [R1 _] & _ & _).
  destruct (C134_marks_keep_coming D HD p I ram cpu r f ramb l B W Hp k t c1 R1) as (j & t2 & c2 & Hj & R2 & Hle & Hm).
  destruct (C135_same_on_the_chip D HD p I ram cpu r f ramb l Q r2 g H (k + j)) as (t' & c' & rb & gb & [R' _] & X' & T & _).
  destruct (steps_det p _ _ _ _ R' _ _ (steps_app p k t cpu c1 R1 j t2 c2 R2)) as [-> ->].
  destruct (chip_split ram k j _ _ _ X') as (ti & tj & s & Et & Xi & Xj). destruct (chip_det _ _ _ _ _ X _ _ _ Xi) as [<- <-].
  assert (tj = t2) as -> by lia. exists j, t2, (rb, gb). split; [exact Hj|]. split; [exact Xj|]. split; [exact Hle|].
  destruct T as (_ & _ & _ & _ & Epc & _). cbn [fst]. rewrite <- Epc. exact Hm.
Qed.

(** ** Concrete cases *)
(** The two machines of C133 with different keys, on the chip. *)
Definition cipher_port : port := mkPort (fun a => if a =? 0x8006 then [FZ] else []) (fun _ => false) [] false.
Lemma cipher1_ported : ported Debug (plain_with (fun b => 0 <= b <= 0x3ff)) (fun b => 0 <= b <= 0x3ff) cipher1
  (mkRegs 1 2 3 0xff 0x8000 ps0) (bytes_at Debug key1 cipher_code 1 2 3 0xff ps0) low_kilobyte cipher_notes cipher_port
  (mkRegs 1 2 3 0xff 0x8000 ps0) (adapted (bytes_at Debug key1 cipher_code 1 2 3 0xff ps0) cipher_notes).
Proof.
  split; [exact cipher1_checked|]. split; [vm_compute; reflexivity|]. split; [repeat split|]. split; [reflexivity|]. split; [discriminate|]. intros q _. reflexivity.
Qed.
Lemma cipher2_ported : ported Debug (plain_with (fun b => 0 <= b <= 0x3ff)) (fun b => 0 <= b <= 0x3ff) cipher2
  (mkRegs 200 7 9 0xff 0x8000 ps0) (bytes_at Debug key2 cipher_code 200 7 9 0xff ps0) low_kilobyte cipher_notes cipher_port
  (mkRegs 200 7 9 0xff 0x8000 ps0) (adapted (bytes_at Debug key2 cipher_code 200 7 9 0xff ps0) cipher_notes).
Proof.
  split; [exact cipher2_checked|]. split; [vm_compute; reflexivity|]. split; [repeat split|]. split; [reflexivity|]. split; [discriminate|]. intros q _. reflexivity.
Qed.
Example C138_secret_case : forall k t st1, chip (fun b => 0 <= b <= 0x3ff) k t (mkRegs 1 2 3 0xff 0x8000 ps0, adapted (bytes_at Debug key1 cipher_code 1 2 3 0xff ps0) cipher_notes) st1 ->
  exists st2, chip (fun b => 0 <= b <= 0x3ff) k t (mkRegs 200 7 9 0xff 0x8000 ps0, adapted (bytes_at Debug key2 cipher_code 200 7 9 0xff ps0) cipher_notes) st2 /\
    rPC (fst st1) = rPC (fst st2) /\ snd st1 0x200 = snd st2 0x200.
Proof.
  intros k t st1 X.
  destruct (proj2 (C138_secrets_never_show_on_the_chip _ _ _ _ _ _ _ _ _ _ _ _ _ _ _ _ _ _ _ cipher1_ported cipher2_ported cipher_keeps ciphers_alike) k t st1 X)
    as (st2 & X2 & E & _ & _ & _ & M).
  exists st2. split; [exact X2|]. split; [exact E|]. apply M; [unfold u16; lia|reflexivity].
Qed.
(** The beat of C134, on the chip. *)
Definition beat_port : port := mkPort (fun a => if (a =? 0x8006) || (a =? 0x8011) then [FZ] else []) (fun _ => false) [] false.
Lemma beat_ported : ported Debug (plain_with (fun b => 0 <= b <= 0x3ff)) (fun b => 0 <= b <= 0x3ff) beat
  (mkRegs 1 2 3 0xff 0x8000 ps0) (bytes_at Debug [] beat_code 1 2 3 0xff ps0) low_kilobyte beat_notes beat_port
  (mkRegs 1 2 3 0xff 0x8000 ps0) (adapted (bytes_at Debug [] beat_code 1 2 3 0xff ps0) beat_notes).
Proof.
  split; [exact (proj1 beat_paced)|]. split; [vm_compute; reflexivity|]. split; [repeat split|]. split; [reflexivity|]. split; [discriminate|]. intros q _. reflexivity.
Qed.
Example C138_beat_case : forall k t st, chip (fun b => 0 <= b <= 0x3ff) k t (mkRegs 1 2 3 0xff 0x8000 ps0, adapted (bytes_at Debug [] beat_code 1 2 3 0xff ps0) beat_notes) st ->
  exists j t2 st2, (0 < j)%nat /\ chip (fun b => 0 <= b <= 0x3ff) j t2 st st2 /\ (t2 <= 180)%nat /\ rPC (fst st2) = 0x8008.
Proof.
  intros k t st X. pose proof beat_paced as (_ & Ht & Hw).
  destruct (C138_marks_keep_coming_on_the_chip _ _ _ _ _ _ _ _ _ _ _ _ _ beat_budget 180 beat_ported Ht Hw k t st X) as (j & t2 & st2 & Hj & X2 & Hle & Hm).
  exists j, t2, st2. split; [exact Hj|]. split; [exact X2|]. split; [lia|]. apply Z.eqb_eq in Hm. exact Hm.
Qed.

Print Assumptions C138_secrets_never_show_on_the_chip.
Print Assumptions C138_marks_keep_coming_on_the_chip.
