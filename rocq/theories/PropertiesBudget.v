(** C134: 6502 code that passes a static check of how long it takes reaches its
    marked instructions again and again in time. *)
From Verif Require Import Base Arith ModelMap ModelRegs6502 ModelCpu6502 ModelStep ModelIsa6502 ModelRun6502 SpecMap Link6502 ProofRun6502 ProofBus
  SpecInstr ProofInstr Demo6502 Properties6502Mem Spec6502 SpecProgram ProofProgram PropertiesProgram SpecCheck ProofCheck PropertiesCheck SpecBudget ProofBudget.

(** A machine about to run code that has passed both checks. *)
Definition paced {D} `{Device D} (p : profile) (I : address_map D -> Prop) (ram : Z -> Prop) (cpu : mos6502 D) (r : registers) (f : Z -> Z)
  (ramb : Z -> bool) (l : listing) (B : budget) (W : Z) : Prop :=
  checked p I ram cpu r f ramb l /\ in_time B W f l = true /\ exists w, bound B (rPC r) (rX r) (ps_zero (rP r)) = Some w /\ w <= W.

Lemma main_base : 0 <= 0 /\ 0 <= 0 /\ (true = false -> 2 <= 0) /\ (true = true -> 0 = 0 /\ 0 = 0).
Proof. repeat split; lia || discriminate. Qed.

Section Paced.
Context {D : Type} `{Device D}.
Variables (p : profile) (I : address_map D -> Prop) (ram : Z -> Prop) (cpu : mos6502 D) (r : registers) (f : Z -> Z) (ramb : Z -> bool) (l : listing) (B : budget) (W : Z).
Hypothesis Hp : paced p I ram cpu r f ramb l B W.

Definition on_pace (c : mos6502 D) (w T : Z) : Prop :=
  exists r' f' n u, machine_with p I c r' f' /\ state B W f l (rS r) 0 true false 0 0 r' f' n u T /\ bound B (rPC r') (rX r') (ps_zero (rP r')) = Some w /\ w + T <= W.

Lemma facts : ram_bus p I ram /\ (forall q, ramb q = true -> ram q) /\ passes p f ramb l = true /\ in_time B W f l = true /\ byte_valued f.
Proof.
  destruct Hp as ((Hb & M & Hr & Hq & _) & Ht & _). split; [exact Hb|]. split; [exact Hr|]. split; [exact Hq|]. split; [exact Ht|].
  exact (machine_bytes p I ram cpu r f Hb M).
Qed.

Lemma mark_main a n : noted l a = Some n -> (marked B a = true -> n_main n = true) /\ (n_main n = true -> leaves_x B a = false).
Proof.
  intros E. destruct facts as (_ & _ & _ & Ht & _). unfold noted in E. apply find_some in E as [Hin Ha]. apply Z.eqb_eq in Ha.
  unfold in_time in Ht. rewrite forallb_forall in Ht. specialize (Ht n Hin). unfold time_ok in Ht. rewrite Ha in Ht. destruct (decode (f a)) as [[[mn m] c]|]; [|discriminate].
  apply andb_prop in Ht as [Ht _]. apply andb_prop in Ht as [Ht _]. apply andb_prop in Ht as [Ht _]. apply andb_prop in Ht as [H1 H2].
  split; intros K; rewrite K in *; [exact H1|]. destruct (leaves_x B a); [discriminate H2|reflexivity].
Qed.

Lemma pace_start : exists w, on_pace cpu w 0.
Proof.
  destruct Hp as (Hc & _ & w & Eb & Hw). destruct (checked_start p I ram cpu r f ramb l Hc) as (n & C & T).
  destruct Hc as (_ & M & _ & _ & n2 & En & Em & Ed & _). assert (n2 = n) by (destruct C as (_ & _ & K & _); congruence). subst n2.
  exists w, r, f, n, 0. split; [exact M|]. split; [|split; [exact Eb|lia]]. split; [exact C|]. split; [exact T|].
  rewrite Ed, Em, (proj2 (mark_main _ _ En) Em). constructor. discriminate.
Qed.

Lemma pace_step c w T : on_pace c w T -> exists t c' w' T', observed_step p c = Ok (t, c') /\ (0 < t)%nat /\ on_pace c' w' T' /\ 0 <= w' + T' /\
  Z.of_nat t <= w + T /\ (marked B (rPC (regs_of c')) = false -> Z.of_nat t + w' + T' <= w + T).
Proof.
  intros (r' & f' & n & u & M & St & Eb & Hw). destruct facts as (Hb & Hr & Hq & Ht & Hv).
  destruct (state_step p B W f ramb ram l (rS r) 0 true false 0 0 Hr Hq Ht Hv main_base r' f' n u T w St Eb)
    as (e & Es & Hst & _ & [(n1 & u1 & T1 & w1 & St1 & Ed & Hle)|(K & _)]); [|discriminate K].
  destruct (exec_sound p I ram Hb 1 (e_cycles e + 0) r' f' (e_regs e) (stored f' (e_stores e)) (exec_step p ram 0 0 r' f' e _ _ Es Hst (exec_done _ _ _ _)) c M) as (c' & S & M').
  inversion S as [|k t0 ce x c1 y Eo S0 Ek Et]; subst. inversion S0; subst. assert (ce = e_cycles e) by lia. subst ce.
  pose proof St1 as (C1 & _ & O1). pose proof C1 as (Ho1 & _ & En1 & _). assert (HX : u8 (rX (e_regs e))) by apply Ho1.
  pose proof (owes_low p B W f ramb ram l (rS r) 0 true false 0 0 Hr Hq main_base _ _ _ _ _ _ O1) as (_ & OT & _ & OM & _).
  pose proof (due_range p B W f ramb ram l true Hr Ht _ _ _ _ _ En1 HX Ed) as Hd.
  pose proof (step_cycles_pos _ _ _ _ Eo) as Hpos.
  pose proof Ed as Ed'. unfold due in Ed'. destruct (bound B (rPC (e_regs e)) (rX (e_regs e)) (ps_zero (rP (e_regs e)))) as [wb|] eqn:Eb1; [|discriminate].
  pose proof (time_range p B W f ramb ram l true Hr Ht _ _ _ _ _ En1 HX Eb1) as Hwb.
  exists (e_cycles e), c', wb, T1. split; [exact Eo|]. split; [exact Hpos|].
  assert (Epc : regs_of c' = e_regs e) by apply M'. rewrite Epc.
  destruct (marked B (rPC (e_regs e))) eqn:Em.
  - destruct (wb <=? W) eqn:Ew; [|discriminate]. injection Ed' as <-.
    destruct (OM (proj1 (mark_main _ _ En1) Em)) as [_ ->].
    split; [|split; [lia|split; [lia|discriminate]]]. exists (e_regs e), (stored f' (e_stores e)), n1, u1. split; [exact M'|]. split; [exact St1|]. split; [exact Eb1|lia].
  - injection Ed' as <-. split; [|split; [lia|split; [lia|lia]]]. exists (e_regs e), (stored f' (e_stores e)), n1, u1. split; [exact M'|]. split; [exact St1|]. split; [exact Eb1|lia].
Qed.

Lemma pace_reached k : forall t c w T c1, on_pace c w T -> steps p k t c c1 -> exists w1 T1, on_pace c1 w1 T1.
Proof.
  induction k as [|k IH]; intros t c w T c1 P S; inversion S; subst; [eauto|].
  destruct (pace_step c w T P) as (t' & c' & w' & T' & Eo & _ & P' & _). 
  match goal with A : observed_step p c = Ok (_, ?y), B : steps p k _ ?y _ |- _ => rewrite Eo in A; injection A as <- <-; exact (IH _ _ _ _ _ P' B) end.
Qed.

Lemma pace_mark b : forall c w T, on_pace c w T -> w + T <= Z.of_nat b -> exists j t c', (0 < j)%nat /\ steps p j t c c' /\ Z.of_nat t <= w + T /\ marked B (rPC (regs_of c')) = true.
Proof.
  induction b as [|b IH]; intros c w T P Hb; destruct (pace_step c w T P) as (t & c' & w' & T' & Eo & Hpos & P' & Hnn & Hle & Hun).
  - lia.
  - destruct (marked B (rPC (regs_of c'))) eqn:Em.
    + exists 1%nat, (t + 0)%nat, c'. split; [lia|]. split; [econstructor; [exact Eo|constructor]|]. split; [lia|exact Em].
    + specialize (Hun eq_refl). destruct (IH c' w' T' P' ltac:(lia)) as (j & t2 & c2 & Hj & S2 & Ht & Hm).
      exists (S j), (t + t2)%nat, c2. split; [lia|]. split; [econstructor; eassumption|]. split; [lia|exact Hm].
Qed.

(** Inside a routine called with [v] bytes on the stack. *)
Lemma pace_return (v : Z) (kb : bool) (X0 : Z) (Hv0 : 0 <= v) N : forall c r1 f1 n u T w,
  machine_with p I c r1 f1 -> state B W f l (rS r) (v + 2) false kb 0 X0 r1 f1 n u T ->
  bound B (rPC r1) (rX r1) (ps_zero (rP r1)) = Some w -> w + T <= Z.of_nat N ->
  exists j t c', steps p j t c c' /\ Z.of_nat t <= w + T /\ rS (regs_of c') = (rS r - v) mod 256 /\ rPC (regs_of c') = back_to (rS r) f1 v /\
    (kb = true -> rX (regs_of c') = X0).
Proof.
  destruct facts as (Hb & Hr & Hq & Ht & Hv).
  assert (Base : 0 <= v + 2 /\ 0 <= 0 /\ (false = false -> 2 <= v + 2) /\ (false = true -> v + 2 = 0 /\ 0 = 0)) by (repeat split; lia || discriminate).
  induction N as [|N IH]; intros c r1 f1 n u T w M St Eb HN;
  destruct (state_step p B W f ramb ram l (rS r) (v + 2) false kb 0 X0 Hr Hq Ht Hv Base r1 f1 n u T w St Eb) as (e & Es & Hst & Keep & Next);
  destruct (exec_sound p I ram Hb 1 (e_cycles e + 0) r1 f1 (e_regs e) (stored f1 (e_stores e)) (exec_step p ram 0 0 r1 f1 e _ _ Es Hst (exec_done _ _ _ _)) c M) as (c' & S & M');
  pose proof M' as (_ & _ & Er' & _);
  (inversion S as [|k t0 ce x c1 y Eo S0 Ek Et]; subst; inversion S0; subst; assert (ce = e_cycles e) by lia; subst ce; pose proof (step_cycles_pos _ _ _ _ Eo) as Hpos);
  pose proof St as (_ & _ & O); pose proof (owes_low p B W f ramb ram l (rS r) (v + 2) false kb 0 X0 Hr Hq Base _ _ _ _ _ _ O) as (_ & OT & _);
  (destruct Next as [(n1 & u1 & T1 & w1 & St1 & Ed & Hle)|(_ & ET & Hle & Ef & ES & Ep & Ex)];
   [|exists 1%nat, (e_cycles e + 0)%nat, c'; rewrite Er'; replace (v + 2 - 2) with v in ES, Ep by lia; split; [exact S|]; split; [lia|]; split; [exact ES|]; split; [exact Ep|exact Ex]]).
  all: pose proof St1 as (C1 & _ & O1); pose proof C1 as (Ho1 & _ & En1 & _); assert (HX : u8 (rX (e_regs e))) by apply Ho1.
  all: pose proof (owes_low p B W f ramb ram l (rS r) (v + 2) false kb 0 X0 Hr Hq Base _ _ _ _ _ _ O1) as (_ & OT1 & _ & _ & _ & OM).
  all: pose proof (due_range p B W f ramb ram l true Hr Ht _ _ _ _ _ En1 HX Ed) as Hd.
  - exfalso. lia.
  - specialize (OM eq_refl). assert (Eb1 : bound B (rPC (e_regs e)) (rX (e_regs e)) (ps_zero (rP (e_regs e))) = Some w1).
    { destruct (marked B (rPC (e_regs e))) eqn:Em; [rewrite (proj1 (mark_main _ _ En1) Em) in OM; discriminate OM|].
      unfold due in Ed. rewrite Em in Ed. destruct (bound B (rPC (e_regs e)) (rX (e_regs e)) (ps_zero (rP (e_regs e)))); [exact Ed|discriminate]. }
    destruct (IH c' (e_regs e) (stored f1 (e_stores e)) n1 u1 T1 w1 M' St1 Eb1 ltac:(lia)) as (j & t & c2 & S2 & Ht2 & R1 & R2 & R3).
    exists (Datatypes.S j), (e_cycles e + t)%nat, c2. split; [econstructor; eassumption|]. split; [lia|]. split; [exact R1|]. split; [|exact R3].
    rewrite R2. unfold back_to. pose proof (Keep v ltac:(lia)) as K1. pose proof (Keep (v + 1) ltac:(lia)) as K2. replace (rS r - (v + 1)) with (rS r - v - 1) in K2 by lia.
    rewrite K1, K2. reflexivity.
Qed.
End Paced.

(** However many instructions have been executed: a marked instruction is
    reached within the next [W] cycles. *)
Theorem C134_marks_keep_coming : forall D (HD : Device D) p I ram (cpu : mos6502 D) r f ramb l B W,
  paced p I ram cpu r f ramb l B W ->
  forall k t cpu1, steps p k t cpu cpu1 ->
  exists j t2 cpu2, (0 < j)%nat /\ steps p j t2 cpu1 cpu2 /\ Z.of_nat t2 <= W /\ marked B (rPC (regs_of cpu2)) = true.
Proof.
  intros D HD p I ram cpu r f ramb l B W Hp k t cpu1 S. destruct (pace_start p I ram cpu r f ramb l B W Hp) as (w & P).
  destruct (pace_reached p I ram cpu r f ramb l B W Hp k t cpu w 0 cpu1 P S) as (w1 & T1 & P1).
  destruct (pace_mark p I ram cpu r f ramb l B W Hp (Z.to_nat (w1 + T1)) cpu1 w1 T1 P1 ltac:(lia)) as (j & t2 & cpu2 & Hj & S2 & Ht & Hm).
  exists j, t2, cpu2. split; [exact Hj|]. split; [exact S2|]. split; [|exact Hm]. destruct P1 as (_ & _ & _ & _ & _ & _ & _ & K). lia.
Qed.

(** At an instruction of the main program the bound noted for the X and the
    zero flag it is reached with exists and is kept. *)
Theorem C134_bounds_are_kept : forall D (HD : Device D) p I ram (cpu : mos6502 D) r f ramb l B W,
  paced p I ram cpu r f ramb l B W ->
  forall k t cpu1 n, steps p k t cpu cpu1 -> noted l (rPC (regs_of cpu1)) = Some n -> n_main n = true ->
  exists w j t2 cpu2, bound B (rPC (regs_of cpu1)) (rX (regs_of cpu1)) (ps_zero (rP (regs_of cpu1))) = Some w /\
    (0 < j)%nat /\ steps p j t2 cpu1 cpu2 /\ Z.of_nat t2 <= w /\ marked B (rPC (regs_of cpu2)) = true.
Proof.
  intros D HD p I ram cpu r f ramb l B W Hp k t cpu1 n S En Em. destruct (pace_start p I ram cpu r f ramb l B W Hp) as (w & P).
  destruct (pace_reached p I ram cpu r f ramb l B W Hp k t cpu w 0 cpu1 P S) as (w1 & T1 & P1).
  destruct (pace_mark p I ram cpu r f ramb l B W Hp (Z.to_nat (w1 + T1)) cpu1 w1 T1 P1 ltac:(lia)) as (j & t2 & cpu2 & Hj & S2 & Ht & Hm).
  destruct P1 as (r1 & f1 & n1 & u1 & (_ & _ & Er & _) & (C1 & _ & O1) & Eb & _). rewrite Er in *.
  assert (n1 = n) by (destruct C1 as (_ & _ & K & _); congruence). subst n1.
  destruct (facts p I ram cpu r f ramb l B W Hp) as (_ & Hr & Hq & _). 
  pose proof (owes_low p B W f ramb ram l (rS r) 0 true false 0 0 Hr Hq main_base _ _ _ _ _ _ O1) as (_ & _ & _ & OM & _). destruct (OM Em) as [_ ->].
  exists w1, j, t2, cpu2. split; [exact Eb|]. split; [exact Hj|]. split; [exact S2|]. split; [lia|exact Hm].
Qed.

(** Every call returns within the cycles of JSR and the bound noted for the
    routine, with X unchanged if the routine is noted to leave it alone. *)
Theorem C134_calls_return_in_time : forall D (HD : Device D) p I ram (cpu : mos6502 D) r f ramb l B W,
  paced p I ram cpu r f ramb l B W ->
  forall k t cpu1, steps p k t cpu cpu1 -> let a := rPC (regs_of cpu1) in
  peek p (amap cpu1) a = 0x20 ->
  let routine := word (peek p (amap cpu1) (a + 1)) (peek p (amap cpu1) (a + 2)) in
  exists w j t2 cpu2, bound B routine (rX (regs_of cpu1)) (ps_zero (rP (regs_of cpu1))) = Some w /\
    steps p j t2 cpu1 cpu2 /\ Z.of_nat t2 <= 6 + w /\ rPC (regs_of cpu2) = a + 3 /\ rS (regs_of cpu2) = rS (regs_of cpu1) /\
    (leaves_x B routine = true -> rX (regs_of cpu2) = rX (regs_of cpu1)).
Proof.
  intros D HD p I ram cpu r f ramb l B W Hp k t cpu1 S. destruct (pace_start p I ram cpu r f ramb l B W Hp) as (w & P).
  destruct (pace_reached p I ram cpu r f ramb l B W Hp k t cpu w 0 cpu1 P S) as (w1 & T1 & (r1 & f1 & n1 & u1 & M1 & St1 & Eb & Hw)).
  pose proof M1 as (_ & _ & Er & Ef). rewrite Er. intros a.
  destruct (facts p I ram cpu r f ramb l B W Hp) as (Hb & Hr & Hq & Ht & Hv).
  pose proof St1 as (C1 & _). pose proof C1 as (_ & _ & En1 & _ & _ & Hc1). pose proof (note_bounds p f ramb ram l (rS r) Hr Hq _ _ En1) as Bn.
  destruct (core_step p f ramb ram l (rS r) Hr Hq r1 f1 n1 u1 C1) as (mn & m & c & e0 & Ed & _ & _ & _ & Ha & Hin & _ & _ & E0). fold a in Bn, E0, Ha.
  rewrite !Ef by (unfold u16; lia). intros E20. assert (E20' : f a = 0x20) by congruence.
  pose proof Ed as Ed0. rewrite Ha, E20' in Ed0. vm_compute in Ed0. injection Ed0 as <- <- <-.
  pose proof (own_bytes p f ramb ram l (rS r) Hr Hq f1 n1 Jsr Absolute 6 1 Hc1 Hin Ed ltac:(cbn; lia)) as O1.
  pose proof (own_bytes p f ramb ram l (rS r) Hr Hq f1 n1 Jsr Absolute 6 2 Hc1 Hin Ed ltac:(cbn; lia)) as O2. rewrite Ha in O1, O2. rewrite O1, O2.
  destruct (call_facts p B W f ramb ram l (rS r) 0 true false 0 0 Hr Hq Ht Hv r1 f1 n1 u1 T1 w1 St1 Eb E20')
    as (e & n' & w' & Es & Hst & Ec & Epc & EX & EZ & ES & Hu & C' & Tw & D0 & M0 & Bk & Edue). fold a in Epc, Edue, Bk. intros routine. fold routine in Epc, Edue.
  assert (Eb' : bound B routine (rX r1) (ps_zero (rP r1)) = Some w').
  { destruct (marked B routine) eqn:Em.
    - exfalso. pose proof C' as (_ & _ & En' & _). rewrite Epc in En'. pose proof (proj1 (mark_main p I ram cpu r f ramb l B W Hp _ _ En') Em). congruence.
    - unfold due in Edue. rewrite Em in Edue. destruct (bound B routine (rX r1) (ps_zero (rP r1))); [exact Edue|discriminate]. }
  destruct (exec_sound p I ram Hb 1 (e_cycles e + 0) r1 f1 (e_regs e) (stored f1 (e_stores e)) (exec_step p ram 0 0 r1 f1 e _ _ Es Hst (exec_done _ _ _ _)) cpu1 M1) as (c' & S1 & M').
  assert (St' : state B W f l (rS r) (u1 + 2) false (leaves_x B routine) 0 (rX r1) (e_regs e) (stored f1 (e_stores e)) n' (u1 + 2) 0).
  { split; [exact C'|]. rewrite D0, M0, Z.sub_0_r. split; [exact Tw|]. rewrite EX, Epc. constructor. reflexivity. }
  destruct (pace_return p I ram cpu r f ramb l B W Hp u1 (leaves_x B routine) (rX r1) Hu (Z.to_nat (w' + 0)) c' (e_regs e) (stored f1 (e_stores e)) n' (u1 + 2) 0 w' M' St'
    ltac:(rewrite Epc, EX, EZ; exact Eb') ltac:(lia)) as (j & t2 & c2 & S2 & Ht2 & R1 & R2 & R3).
  exists w', (1 + j)%nat, (e_cycles e + 0 + t2)%nat, c2. split; [exact Eb'|]. split; [exact (steps_app p _ _ _ _ S1 _ _ _ S2)|]. split; [lia|].
  split; [rewrite R2; exact Bk|]. split; [rewrite R1; symmetry; exact ES|exact R3].
Qed.

(** In terms of [run]: after any number of cycles there is one of the next [W]
    with which [run] stops at a marked instruction. *)
Theorem C134_run_stops_at_marks : forall D (HD : Device D) p I ram (cpu : mos6502 D) r f ramb l B W,
  paced p I ram cpu r f ramb l B W ->
  forall n, exists n' cpu', (n < n')%nat /\ Z.of_nat n' <= Z.of_nat n + W /\ run p cpu n' = Ok (Ready cpu') /\ marked B (rPC (regs_of cpu')) = true.
Proof.
  intros D HD p I ram cpu r f ramb l B W Hp n. pose proof Hp as (Hc & _).
  destruct (C131_checked_code_never_panics D HD p I ram cpu r f ramb l Hc n) as (cpu1 & E). apply run_ready_iff in E as (k & t & S & Ht & Hs).
  destruct (C134_marks_keep_coming D HD p I ram cpu r f ramb l B W Hp k t cpu1 S) as (j & t2 & cpu2 & Hj & S2 & Hle & Hm).
  exists (t + t2)%nat, cpu2.
  assert (Hn : (n < t + t2)%nat).
  { destruct j as [|j]; [lia|]. inversion S2 as [|k0 t0 c x c1 y Eo S3 Ek Et]; subst. pose proof (step_cycles_pos _ _ _ _ Eo) as Hpos.
    destruct Hs as [->|(c2 & cpu'' & Es & Hlt)]; [lia|]. rewrite Eo in Es. injection Es as -> _. lia. }
  split; [exact Hn|]. split; [lia|]. split; [|exact Hm]. apply run_ready_iff. exists (k + j)%nat, (t + t2)%nat.
  split; [exact (steps_app p _ _ _ _ S _ _ _ S2)|]. split; [lia|left; reflexivity].
Qed.

(** ** A concrete case *)
(** A main program that calls a routine five times in a loop that counts X, then
    increments a byte at a marked instruction, and starts again. *)
Definition beat_code : list Z :=
  [ 0xa2; 0x05;            (* 8000  LDX #5 *)
    0x20; 0x0e; 0x80;      (* 8002  JSR 800e *)
    0xca;                  (* 8005  DEX *)
    0xd0; 0xfc;            (* 8006  BNE 8002 *)
    0xee; 0x00; 0x02;      (* 8008  INC 0200, marked *)
    0x4c; 0x00; 0x80;      (* 800b  JMP 8000 *)
    0x48;                  (* 800e  PHA *)
    0xa5; 0x10;            (* 800f  LDA 10 *)
    0xd0; 0x04;            (* 8011  BNE 8015 *)
    0xe6; 0x11;            (* 8013  INC 11 *)
    0x68;                  (* 8015  PLA *)
    0x60 ].                (* 8016  RTS *)
Definition beat_notes : listing :=
  [ mkNote 0x8000 0 0 true; mkNote 0x8002 0 0 true; mkNote 0x8005 0 0 true; mkNote 0x8006 0 0 true; mkNote 0x8008 0 0 true; mkNote 0x800b 0 0 true;
    mkNote 0x800e 0 2 false; mkNote 0x800f 1 3 false; mkNote 0x8011 1 3 false; mkNote 0x8013 1 3 false; mkNote 0x8015 1 3 false; mkNote 0x8016 0 2 false ].
Definition beat_bound (a x : Z) (z : bool) : option Z :=
  if a =? 0x8000 then Some 171
  else if a =? 0x8002 then (if 1 <=? x then Some (34 * x - 1) else None)
  else if a =? 0x8005 then (if 1 <=? x then Some (34 * x - 30) else None)
  else if a =? 0x8006 then (if Bool.eqb z (x =? 0) then Some (34 * x + 2) else None)
  else if a =? 0x8008 then Some 180
  else if a =? 0x800b then Some 174
  else if a =? 0x800e then Some 23
  else if a =? 0x800f then Some 20
  else if a =? 0x8011 then Some 17
  else if a =? 0x8013 then Some 15
  else if a =? 0x8015 then Some 10
  else if a =? 0x8016 then Some 6
  else None.
Definition beat_budget : budget := mkBudget beat_bound (fun a => a =? 0x8008) (fun a => 0x800e <=? a).

Definition beat : mos6502 memory := machine [] beat_code 1 2 3 0xff ps0.

Lemma beat_paced : paced Debug (plain_with (fun b => 0 <= b <= 0x3ff)) (fun b => 0 <= b <= 0x3ff) beat
  (mkRegs 1 2 3 0xff 0x8000 ps0) (bytes_at Debug [] beat_code 1 2 3 0xff ps0) low_kilobyte beat_notes beat_budget 180.
Proof.
  split; [|split; [vm_compute; reflexivity|exists 171; split; [reflexivity|lia]]].
  split; [apply plain_ram_bus|]. split; [apply demo_with; reflexivity|]. split; [unfold low_kilobyte; lia|]. split; [vm_compute; reflexivity|].
  exists (mkNote 0x8000 0 0 true). split; [reflexivity|]. cbn. lia.
Qed.

(** The byte is incremented at least every 180 cycles, for ever.  The bound at
    the start is exact: the mark is reached after 171 cycles, and not before.
    So is that of the routine: called after 2 cycles, it has returned 6 + 23
    cycles later. *)
Example C134_case :
  (forall n, exists n' cpu', (n < n')%nat /\ (n' <= n + 180)%nat /\ run Debug beat n' = Ok (Ready cpu') /\ reg_pc cpu' = 0x8008) /\
  (match run Debug beat 171 with Ok (Ready c) => reg_pc c = 0x8008 | _ => False end) /\
  (match run Debug beat 170 with Ok (Ready c) => reg_pc c = 0x8006 | _ => False end) /\
  (match run Debug beat 2 with Ok (Ready c) => reg_pc c = 0x8002 | _ => False end) /\
  (match run Debug beat (2 + 29) with Ok (Ready c) => reg_pc c = 0x8005 /\ reg_x c = 5 | _ => False end).
Proof.
  split; [|split; [vm_compute; reflexivity|split; [vm_compute; reflexivity|split; [vm_compute; reflexivity|vm_compute; split; reflexivity]]]].
  intros n. destruct (C134_run_stops_at_marks _ _ _ _ _ _ _ _ _ _ _ _ beat_paced n) as (n' & cpu' & Hn & Hle & E & Hm).
  exists n', cpu'. split; [exact Hn|]. split; [lia|]. split; [exact E|]. apply Z.eqb_eq in Hm. exact Hm.
Qed.

(** Annotations that do not pass: a bound one cycle too small at the loop's
    branch, a routine whose bound is one cycle too small, a loop without a mark,
    a mark whose bound exceeds the budget, a mark in a routine, and a routine
    said to leave X alone that does not. *)
Definition late (prog : list Z) (l : listing) (B : budget) (W : Z) : bool := negb (in_time B W (bytes_at Debug [] prog 1 2 3 0xff ps0) l).
Definition with_bound (a d : Z) : budget :=
  mkBudget (fun b x z => match beat_bound b x z with Some w => Some (if b =? a then w - d else w) | None => None end) (marked beat_budget) (leaves_x beat_budget).
Example C134_refused :
  late beat_code beat_notes (with_bound 0x8006 1) 180 = true /\
  late beat_code beat_notes (with_bound 0x8013 1) 180 = true /\
  late beat_code beat_notes (mkBudget beat_bound (fun _ => false) (leaves_x beat_budget)) 180 = true /\
  late beat_code beat_notes beat_budget 179 = true /\
  late beat_code beat_notes (mkBudget beat_bound (fun a => (a =? 0x8008) || (a =? 0x8015)) (leaves_x beat_budget)) 180 = true /\
  late [0x20; 0x06; 0x80; 0x4c; 0x00; 0x80; 0xca; 0x60] [mkNote 0x8000 0 0 true; mkNote 0x8003 0 0 true; mkNote 0x8006 0 2 false; mkNote 0x8007 0 2 false]
    (mkBudget (fun a _ _ => Some (if a =? 0x8000 then 17 else if a =? 0x8003 then 3 else if a =? 0x8006 then 8 else 6)) (fun a => a =? 0x8000) (fun a => 0x8006 <=? a)) 17 = true.
Proof. repeat split; vm_compute; reflexivity. Qed.
(** The last of them passes once the routine does not claim to leave X alone. *)
Example C134_not_refused :
  late [0x20; 0x06; 0x80; 0x4c; 0x00; 0x80; 0xca; 0x60] [mkNote 0x8000 0 0 true; mkNote 0x8003 0 0 true; mkNote 0x8006 0 2 false; mkNote 0x8007 0 2 false]
    (mkBudget (fun a x _ => Some (if a =? 0x8000 then 17 else if a =? 0x8003 then 3 else if a =? 0x8006 then 8 else 6)) (fun a => a =? 0x8000) (fun a => false)) 17 = false.
Proof. vm_compute. reflexivity. Qed.

Print Assumptions C134_marks_keep_coming.
Print Assumptions C134_bounds_are_kept.
Print Assumptions C134_calls_return_in_time.
Print Assumptions C134_run_stops_at_marks.
