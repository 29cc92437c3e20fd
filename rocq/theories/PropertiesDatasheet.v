(** C75: the complete list of instructions on which the emulator departs from
    the documented 6502 (SpecDatasheet.v). *)
From Verif Require Import Base Arith ModelMap ModelStep ModelRegs6502 ModelCpu6502 ModelIsa6502
  ModelRun6502 Link6502 ProofRun6502 ProofBus SpecInstr ProofInstr Demo6502.
From Verif Require Import Spec6502 SpecDatasheet ProofDatasheet.

Section Datasheet.
Context {D : Type} `{Device D}.
Implicit Type cpu : mos6502 D.

(** One instruction, of any kind, on any bus whose written addresses are RAM:
    the emulator does exactly what the data sheet says (same cycles, same
    registers, same 64 KiB) if and only if the instruction is not in the list
    [departs]. *)
Theorem C75_step_iff : forall p I ram cpu st t st',
  ram_bus p I ram -> I (amap cpu) -> regs_ok (regs_of cpu) -> shows p cpu st ->
  ds_step st t st' -> ds_stores_in ram st ->
  ((exists cpu', observed_step p cpu = Ok (t, cpu') /\ shows p cpu' st') <-> ~ ds_departs p st).
Proof. intros p I ram cpu st t st' Hb. exact (step_iff p I ram Hb cpu st t st'). Qed.

(** Programs: any number of instructions none of which departs. *)
Theorem C75_run : forall p I ram cpu st k t st',
  ram_bus p I ram -> I (amap cpu) -> regs_ok (regs_of cpu) -> shows p cpu st ->
  ds_run p ram k t st st' ->
  exists cpu', run p cpu t = Ok (Ready cpu') /\ steps p k t cpu cpu' /\ shows p cpu' st'.
Proof.
  intros p I ram cpu st k t st' Hb Hi Hr Hs Hrun.
  destruct (run_shows p I ram Hb k t st st' Hrun cpu Hi Hr Hs) as (cpu' & Hk & Hs' & _).
  exists cpu'. split; [|auto]. apply run_ready_iff. exists k, t. split; [exact Hk|]. split; [lia|]. left. reflexivity.
Qed.

(** ... and the first one that does is the first one to be seen. *)
Theorem C75_first_departure : forall p I ram cpu st k t st1 c st2,
  ram_bus p I ram -> I (amap cpu) -> regs_ok (regs_of cpu) -> shows p cpu st ->
  ds_run p ram k t st st1 -> ds_step st1 c st2 -> ds_stores_in ram st1 -> ds_departs p st1 ->
  exists cpu1, steps p k t cpu cpu1 /\ shows p cpu1 st1 /\
    forall cpu2, observed_step p cpu1 = Ok (c, cpu2) -> ~ shows p cpu2 st2.
Proof.
  intros p I ram cpu st k t st1 c st2 Hb Hi Hr Hs Hrun Hst Hin Hd.
  destruct (run_shows p I ram Hb k t st st1 Hrun cpu Hi Hr Hs) as (cpu1 & Hk & Hs1 & Hi1 & Hr1).
  exists cpu1. split; [exact Hk|]. split; [exact Hs1|]. intros cpu2 E Hs2.
  apply (step_iff p I ram Hb cpu1 st1 c st2 Hi1 Hr1 Hs1 Hst Hin); [|exact Hd]. exists cpu2. auto.
Qed.
End Datasheet.

(** ** Reading the list *)
(** These never depart in a release build, whatever the operands. *)
Theorem C75_never : forall mn m r rd b1 b2,
  In mn [Lda; Ldx; Ldy; And; Ora; Eor; Bit; Sta; Stx; Sty; Asl; Lsr; Rol; Ror; Inc; Dec; Inx; Iny; Dex;
         Tax; Tay; Tsx; Txa; Tya; Txs; Clc; Sec; Cli; Sei; Cld; Sed; Clv; Nop; Jmp; Jsr; Rts; Pha; Php; Pla; Plp] ->
  ~ (m = IndirectYIndexed /\ reads_operand mn = true) ->
  ~ departs Release mn m r rd b1 b2.
Proof.
  intros mn m r rd b1 b2 Hin Hm Hd. unfold departs in Hd. cbv zeta in Hd.
  repeat (destruct Hin as [<-|Hin]); try contradiction; intuition discriminate.
Qed.

(** These always do. *)
Theorem C75_always : forall p mn m r rd b1 b2,
  mn = Brk \/ mn = Rti \/ branch_taken mn (rP r) = Some true -> departs p mn m r rd b1 b2.
Proof.
  intros p mn m r rd b1 b2 H. unfold departs. cbv zeta. do 4 right.
  destruct H as [->|[->|H]]; [exact I|exact I|]. destruct mn; try discriminate; exact H.
Qed.

(** ADC: with the carry set; or with the carry clear, when two positive
    numbers overflow or two negative ones do not. *)
Theorem C75_adc : forall p m r rd b1 b2, u8 (rA r) -> u8 (ds_value m r rd b1 b2) ->
  m <> XIndexedIndirect -> m <> IndirectYIndexed -> m <> Indirect ->
  (departs p Adc m r rd b1 b2 <->
   let a := rA r in let v := ds_value m r rd b1 b2 in
   ps_carry (rP r) = true \/ (a < 128 /\ v < 128 /\ 128 <= a + v) \/ (128 <= a /\ 128 <= v /\ 384 <= a + v)).
Proof.
  intros p m r rd b1 b2 Ha Hv M1 M2 M3. unfold departs, doc_adc, signed, u8 in *. cbv zeta. cbn [snd].
  set (v := ds_value m r rd b1 b2) in *. clearbody v.
  assert (K : forall A B C E F : Prop, ~ A -> ~ B -> ~ C -> ~ E -> (A \/ B \/ C \/ E \/ F <-> F)) by tauto.
  rewrite K by tauto. clear K.
  assert (K : forall b b' : bool, b <> b' <-> b = negb b') by (intros [] []; cbn; intuition congruence).
  rewrite K. destruct (ps_carry (rP r)); [intuition|].
  destruct (rA r <? 128) eqn:?, (v <? 128) eqn:?; lia.
Qed.

(** SBC, likewise spelled out. *)
Theorem C75_sbc : forall p m r rd b1 b2, u8 (rA r) -> u8 (ds_value m r rd b1 b2) ->
  m <> XIndexedIndirect -> m <> IndirectYIndexed -> m <> Indirect ->
  (departs p Sbc m r rd b1 b2 <->
   let a := rA r in let v := ds_value m r rd b1 b2 in
   if ps_carry (rP r)
   then v = 0 \/ (a < 128 /\ v = 128) \/ (a < 128 /\ 128 < v - a) \/ (128 <= a /\ v < 128 /\ a - v < 128)
   else (128 <= a /\ v < 128 /\ 128 < a - v) \/ (a < 128 /\ 128 <= v /\ v - a < 128)).
Proof.
  intros p m r rd b1 b2 Ha Hv M1 M2 M3. unfold departs, doc_sbc, signed, emulated_overflow, carry_in, u8 in *.
  cbv zeta. cbn [snd]. set (v := ds_value m r rd b1 b2) in *. clearbody v.
  assert (K : forall A B C E F : Prop, ~ A -> ~ B -> ~ C -> ~ E -> (A \/ B \/ C \/ E \/ F <-> F)) by tauto.
  rewrite K by tauto. clear K.
  assert (K : forall b b' : bool, b <> b' <-> b = negb b') by (intros [] []; cbn; intuition congruence).
  rewrite K. destruct (ps_carry (rP r)); destruct (rA r <? 128) eqn:?, (v <? 128) eqn:?; try lia.
Qed.

(** ** A program that never departs *)
(** [again: INC $10; JMP again], in ROM at 0x8000. *)
Definition loop : list Z := [0xe6; 0x10; 0x4c; 0x00; 0x80].
Definition loop_regs (ps : processor_status) : registers := mkRegs 0 0 0 0xff 0x8000 ps.
Definition loops (mem : Z -> Z) : Prop :=
  mem 0x8000 = 0xe6 /\ mem 0x8001 = 0x10 /\ mem 0x8002 = 0x4c /\ mem 0x8003 = 0 /\ mem 0x8004 = 0x80.

Lemma loop_runs p : forall n ps mem, loops mem -> u8 (mem 0x10) -> exists ps' mem',
  ds_run p (fun a => 0 <= a < 1024) (2 * n) (8 * n) (loop_regs ps, mem) (loop_regs ps', mem') /\
  loops mem' /\ mem' 0x10 = (mem 0x10 + Z.of_nat n) mod 256.
Proof.
  induction n as [|n IH]; intros ps mem Hl H10.
  - exists ps, mem. split; [constructor|]. split; [exact Hl|]. unfold u8 in H10. rewrite Z.mod_small; lia.
  - set (v := (mem 0x10 + 1) mod 256).
    assert (F1 : ds_fetch (loop_regs ps, mem) = Some (Inc, ZeroPage, 5%nat, 0x10, 0x4c)).
    { destruct Hl as (L0 & L1 & L2 & _). cbn [ds_fetch loop_regs rPC].
      change ((0x8000 + 1) mod 65536) with 0x8001. change ((0x8000 + 2) mod 65536) with 0x8002.
      rewrite L0, L1, L2. reflexivity. }
    set (r1 := withPC (setNZ (setC (loop_regs ps) (ps_carry ps)) v) 0x8002).
    set (mem1 := put mem (0x10, v)).
    assert (L' : loops mem1) by exact Hl.
    assert (F2 : ds_fetch (r1, mem1) = Some (Jmp, Absolute, 3%nat, 0, 0x80)).
    { destruct L' as (_ & _ & L2 & L3 & L4). cbn [ds_fetch]. change (rPC r1) with 0x8002.
      change ((0x8002 + 1) mod 65536) with 0x8003. change ((0x8002 + 2) mod 65536) with 0x8004.
      rewrite L2, L3, L4. reflexivity. }
    destruct (IH (rP r1) mem1) as (ps' & mem' & Hrun & Hl' & Hc'); [exact L'|unfold mem1, put, v, u8; cbn [fst snd Z.eqb Pos.eqb]; lia|].
    exists ps', mem'. split; [|split; [exact Hl'|]].
    + replace (2 * S n)%nat with (S (S (2 * n))) by lia. replace (8 * S n)%nat with (5 + (3 + 8 * n))%nat by lia.
      apply (ds_next _ _ _ _ _ _ (r1, mem1)).
      * exists (ds_execute Inc ZeroPage 5 (loop_regs ps) mem 0x10 0x4c). unfold ds_effect. rewrite F1.
        split; [reflexivity|]. split; reflexivity.
      * intros [[_ K]|(mn & m & c & b1 & b2 & E & K)]; [cbn in K; lia|]. rewrite F1 in E. injection E as <- <- <- <- <-.
        unfold departs in K. cbv zeta in K. intuition discriminate.
      * intros (_ & mn & m & c & b1 & b2 & E & K). rewrite F1 in E. injection E as <- <- <- <- <-. intuition discriminate.
      * intros e E. unfold ds_effect in E. rewrite F1 in E. injection E as <-. repeat constructor; cbn; lia.
      * apply (ds_next _ _ _ _ _ _ (loop_regs (rP r1), mem1)); [..|exact Hrun].
        -- exists (ds_execute Jmp Absolute 3 r1 mem1 0 0x80). unfold ds_effect. rewrite F2.
           split; [reflexivity|]. split; reflexivity.
        -- intros [[_ K]|(mn & m & c & b1 & b2 & E & K)]; [cbn in K; lia|]. rewrite F2 in E. injection E as <- <- <- <- <-.
           unfold departs in K. cbv zeta in K. intuition discriminate.
        -- intros (_ & mn & m & c & b1 & b2 & E & K). rewrite F2 in E. injection E as <- <- <- <- <-. intuition discriminate.
        -- intros e E. unfold ds_effect in E. rewrite F2 in E. injection E as <-. repeat constructor.
    + rewrite Hc'. replace (mem1 0x10) with v by reflexivity. unfold v. lia.
Qed.

(** The emulator counts with it for ever: after [8 n] cycles the cell holds
    [n mod 256], in both builds. *)
Example C75_case : forall p n, exists cpu',
  run p (machine [] loop 0 0 0 0xff ps0) (8 * n) = Ok (Ready cpu') /\
  am_read p (amap cpu') 0x10 = Ok (Z.of_nat n mod 256).
Proof.
  intros p n. set (cpu := machine [] loop 0 0 0 0xff ps0).
  destruct (machine_plain [] loop 0 0 0 0xff ps0 eq_refl) as [Hp Hr].
  assert (Hw : plain_with (fun a => 0 <= a < 1024) (amap cpu)).
  { split; [exact Hp|]. intros a Ha. eexists. split; [left; reflexivity|]. split; [cbn; lia|reflexivity]. }
  assert (Hb := plain_ram_bus p (fun a => 0 <= a < 1024)).
  destruct (bus_peek p _ _ Hb _ Hw) as [Hb1 Hv].
  destruct (loop_runs p n ps0 (peek p (amap cpu))) as (ps' & mem' & Hrun & _ & Hc).
  { repeat split; destruct p; reflexivity. }
  { apply Hv. unfold u16; lia. }
  assert (Hs : shows p cpu (loop_regs ps0, peek p (amap cpu))) by (split; [reflexivity|exact Hb1]).
  destruct (C75_run p _ _ cpu _ _ _ _ Hb Hw Hr Hs Hrun) as (cpu' & E & _ & _ & Hm).
  exists cpu'. split; [exact E|]. rewrite Hm by (unfold u16; lia). cbn [snd]. rewrite Hc.
  replace (peek p (amap cpu) 0x10) with 0 by (destruct p; reflexivity). reflexivity.
Qed.

(** And one that departs at once: a taken branch. *)
Example C75_departure : forall p, exists cpu st c st',
  plain_with (fun a => 0 <= a < 1024) (amap cpu) /\ regs_ok (regs_of cpu) /\ shows p cpu st /\
  ds_step st c st' /\ ds_stores_in (fun a => 0 <= a < 1024) st /\ ds_departs p st.
Proof.
  intros p. set (prog := [0x90; 0x02; 0xea; 0xea; 0xea]). set (cpu := machine [] prog 0 0 0 0xff ps0).
  destruct (machine_plain [] prog 0 0 0 0xff ps0 eq_refl) as [Hp Hr].
  assert (Hw : plain_with (fun a => 0 <= a < 1024) (amap cpu)).
  { split; [exact Hp|]. intros a Ha. eexists. split; [left; reflexivity|]. split; [cbn; lia|reflexivity]. }
  destruct (bus_peek p _ _ (plain_ram_bus p (fun a => 0 <= a < 1024)) _ Hw) as [Hb1 Hv].
  assert (F : ds_fetch (loop_regs ps0, peek p (amap cpu)) = Some (Bcc, Relative, 2%nat, 2, 0xea))
    by (destruct p; reflexivity).
  exists cpu, (loop_regs ps0, peek p (amap cpu)). do 2 eexists.
  split; [exact Hw|]. split; [exact Hr|]. split; [split; [reflexivity|exact Hb1]|].
  split; [|split].
  - eexists. unfold ds_effect. rewrite F. split; [reflexivity|]. split; reflexivity.
  - intros e E. unfold ds_effect in E. rewrite F in E. injection E as <-. constructor.
  - right. do 5 eexists. split; [exact F|]. apply C75_always. right. right. reflexivity.
Qed.

Print Assumptions C75_step_iff.
Print Assumptions C75_run.
Print Assumptions C75_first_departure.
Print Assumptions C75_never.
Print Assumptions C75_always.
Print Assumptions C75_adc.
Print Assumptions C75_sbc.
Print Assumptions C75_case.
Print Assumptions C75_departure.
