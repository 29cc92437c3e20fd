(** Properties C22-C24: subroutines, interrupts, pushes and pulls. *)
From Verif Require Import Base Arith ModelMap ModelStep ModelRegs6502 ModelCpu6502 ModelOperand
  ModelIsa6502 ModelRun6502 SpecMap ProofMap Link6502 ProofOperand ProofRun6502 ProofBus ProofReplay
  SpecInstr ProofInstr SpecStack ProofStack Demo6502.
From Verif Require Spec6502.

Section Stack.
Context {D : Type} `{Device D}.
Implicit Type cpu : mos6502 D.

(** ** C22 *)
(** Any routine body that gives the stack pointer back and leaves the two
    pushed bytes alone returns behind the call. *)
Theorem C22_jsr_rts : forall p I cpu cpu1 cpu2 cpu3,
  has_stack p I cpu ->
  executes p Jsr cpu cpu1 ->
  has_stack p I cpu2 -> reg_sp cpu2 = reg_sp cpu1 ->
  (forall k, 0 <= k < 2 -> peek p (amap cpu2) (stack_slot (reg_sp cpu) k)
                         = peek p (amap cpu1) (stack_slot (reg_sp cpu) k)) ->
  executes p Rts cpu2 cpu3 ->
  reg_pc cpu3 = (reg_pc cpu + 3) mod 65536 /\ reg_sp cpu3 = reg_sp cpu.
Proof.
  intros p I cpu cpu1 cpu2 cpu3 (Hbus & Hi) Hj (_ & Hi2) Es Ek Hr.
  destruct (jsr_effect p I Hbus _ _ Hi Hj) as [S1 P1].
  destruct (rts_effect p I _ _ Hi2 Hr) as (_ & S3 & PC).
  destruct Hi as (_ & _ & _ & _ & Hsp & Hpc). unfold u8, u16 in *. cbn [regs_of Spec6502.rS Spec6502.rPC] in *.
  rewrite Es, S1 in PC, S3.
  replace ((reg_sp cpu - 2) mod 256) with ((reg_sp cpu + -2) mod 256) in PC by (f_equal; lia).
  rewrite !slot_shift in PC. change (-1 - -2) with 1 in PC. change (-2 - -2) with 0 in PC.
  rewrite (Ek 1), (Ek 0), !P1 in PC by first [lia|apply slot_u16].
  rewrite !slot_eq, !Z.eqb_refl in PC by lia. change (0 =? 1) with false in PC. cbv iota in PC.
  split; [rewrite PC; lia|rewrite S3; lia].
Qed.

(** Balanced code gives the stack pointer back and leaves every stack byte
    outside its depth alone. *)
Theorem C22_balanced_code : forall p I d cpu cpu',
  has_stack p I cpu -> balanced p d cpu cpu' -> d <= 256 ->
  reg_sp cpu' = reg_sp cpu /\
  forall k, d <= k < 256 ->
    peek p (amap cpu') (stack_slot (reg_sp cpu) k) = peek p (amap cpu) (stack_slot (reg_sp cpu) k).
Proof. intros p I d cpu cpu' (Hbus & Hi) Hb Hd. exact (balanced_keeps p I Hbus d cpu cpu' Hb Hi Hd). Qed.

(** So calls nested to any depth that fits page one return behind the call. *)
Theorem C22_nested_calls : forall p I d cpu cpu1 cpu2 cpu3,
  has_stack p I cpu ->
  executes p Jsr cpu cpu1 -> balanced p d cpu1 cpu2 -> executes p Rts cpu2 cpu3 -> d + 2 <= 256 ->
  reg_pc cpu3 = (reg_pc cpu + 3) mod 65536 /\ reg_sp cpu3 = reg_sp cpu /\
  forall k, d + 2 <= k < 256 ->
    peek p (amap cpu3) (stack_slot (reg_sp cpu) k) = peek p (amap cpu) (stack_slot (reg_sp cpu) k).
Proof.
  intros p I d cpu cpu1 cpu2 cpu3 HS Hj Hb Hr Hd.
  assert (HS' := HS). destruct HS' as (Hbus & Hi).
  assert (Hi1 := executes_inv p I Hbus _ _ _ Hi Hj).
  assert (Hi2 := balanced_inv p I Hbus _ _ _ Hb Hi1).
  destruct (balanced_keeps p I Hbus d cpu1 cpu2 Hb Hi1 ltac:(lia)) as [E1 E2].
  destruct (jsr_effect p I Hbus _ _ Hi Hj) as [S1 _].
  assert (K : forall k, 0 <= k < 2 -> peek p (amap cpu2) (stack_slot (reg_sp cpu) k)
                         = peek p (amap cpu1) (stack_slot (reg_sp cpu) k)).
  { intros k Hk. specialize (E2 (k + 254) ltac:(lia)). rewrite S1 in E2.
    replace (stack_slot ((reg_sp cpu - 2) mod 256) (k + 254)) with (stack_slot (reg_sp cpu) k) in E2
      by (unfold stack_slot; f_equal; lia). exact E2. }
  destruct (C22_jsr_rts p I cpu cpu1 cpu2 cpu3 HS Hj (conj Hbus Hi2) E1 K Hr) as [A B].
  split; [exact A|]. split; [exact B|].
  destruct (C22_balanced_code p I (Z.max (d + 2) 0) cpu cpu3 HS
              (bal_call p d 0 _ _ _ _ _ Hj Hb Hr (bal_nil p cpu3)) ltac:(lia)) as [_ C].
  intros k Hk. assert (N := balanced_nonneg p _ _ _ Hb). apply C. lia.
Qed.

(** ** C23 *)
(** What BRK and RTI do, with balanced code in the handler: flags, A, X, Y and
    SP come back as far as the handler kept them, but execution resumes one byte
    after the byte-swapped address pc + 1. *)
Theorem C23_brk : forall p I cpu cpu', has_stack p I cpu -> executes p Brk cpu cpu' ->
  reg_pc cpu' = peek p (amap cpu) 0xfffe + 256 * peek p (amap cpu) 0xffff /\
  reg_sp cpu' = (reg_sp cpu - 3) mod 256 /\
  reg_ps cpu' = mkPs (ps_carry (reg_ps cpu)) (ps_zero (reg_ps cpu)) true (ps_decimal (reg_ps cpu)) true
    (ps_unused (reg_ps cpu)) (ps_overflow (reg_ps cpu)) (ps_negative (reg_ps cpu)) /\
  reg_acc cpu' = reg_acc cpu /\ reg_x cpu' = reg_x cpu /\ reg_y cpu' = reg_y cpu /\
  peek p (amap cpu') (stack_slot (reg_sp cpu) 0) = (reg_pc cpu + 1) mod 65536 mod 256 /\
  peek p (amap cpu') (stack_slot (reg_sp cpu) 1) = (reg_pc cpu + 1) mod 65536 / 256 /\
  peek p (amap cpu') (stack_slot (reg_sp cpu) 2) = ps_read (reg_ps cpu).
Proof.
  intros p I cpu cpu' (Hbus & Hi) He.
  destruct (brk_effect p I Hbus _ _ Hi He) as (S & PC & A & X & Y & P & M).
  repeat (split; [assumption|]). rewrite !M by apply slot_u16. rewrite !slot_eq by lia.
  repeat split; reflexivity.
Qed.

(** The byte-swapped form of an address. *)
Definition swapped (a : Z) : Z := a mod 256 * 256 + a / 256.

Theorem C23_brk_rti_exact : forall p I d cpu cpu1 cpu2 cpu3,
  has_stack p I cpu ->
  executes p Brk cpu cpu1 -> balanced p d cpu1 cpu2 -> executes p Rti cpu2 cpu3 -> d + 3 <= 256 ->
  reg_ps cpu3 = reg_ps cpu /\ reg_sp cpu3 = reg_sp cpu /\
  reg_pc cpu3 = (swapped ((reg_pc cpu + 1) mod 65536) + 1) mod 65536.
Proof.
  intros p I d cpu cpu1 cpu2 cpu3 HS Hj Hb Hr Hd. destruct HS as (Hbus & Hi).
  assert (Hi1 := executes_inv p I Hbus _ _ _ Hi Hj).
  assert (Hi2 := balanced_inv p I Hbus _ _ _ Hb Hi1).
  destruct (balanced_keeps p I Hbus d cpu1 cpu2 Hb Hi1 ltac:(lia)) as [E1 E2].
  destruct (brk_effect p I Hbus _ _ Hi Hj) as (S1 & _ & _ & _ & _ & _ & M1).
  destruct (rti_effect p I _ _ Hi2 Hr) as (_ & S3 & _ & _ & _ & P3 & PC3).
  assert (K : forall k, 0 <= k < 3 -> peek p (amap cpu2) (stack_slot (reg_sp cpu) k)
                         = peek p (amap cpu1) (stack_slot (reg_sp cpu) k)).
  { intros k Hk. specialize (E2 (k + 253) ltac:(lia)). rewrite S1 in E2.
    replace (stack_slot ((reg_sp cpu - 3) mod 256) (k + 253)) with (stack_slot (reg_sp cpu) k) in E2
      by (unfold stack_slot; f_equal; lia). exact E2. }
  destruct Hi as (_ & _ & _ & _ & Hsp & Hpc). unfold u8, u16 in *. cbn [regs_of Spec6502.rS Spec6502.rPC] in *.
  rewrite E1, S1 in S3, P3, PC3.
  replace ((reg_sp cpu - 3) mod 256) with ((reg_sp cpu + -3) mod 256) in P3, PC3 by (f_equal; lia).
  rewrite slot_shift in P3. rewrite !slot_shift in PC3.
  change (-1 - -3) with 2 in P3. change (-2 - -3) with 1 in PC3. change (-3 - -3) with 0 in PC3.
  rewrite (K 2), M1 in P3 by first [lia|apply slot_u16].
  rewrite (K 1), (K 0), !M1 in PC3 by first [lia|apply slot_u16].
  rewrite !slot_eq, ?Z.eqb_refl in P3 by lia. rewrite !slot_eq, ?Z.eqb_refl in PC3 by lia.
  change (1 =? 2) with false in PC3. change (0 =? 2) with false in PC3. change (0 =? 1) with false in PC3.
  cbv iota in P3, PC3.
  split; [rewrite P3, ps_read_byte; apply status_round|]. split; [rewrite S3; lia|].
  rewrite PC3. unfold swapped. f_equal. lia.
Qed.

(** The documented resumption at pc + 2 happens exactly when the two bytes of
    pc + 1 are equal. *)
Theorem C23_resume_documented_iff : forall p I d cpu cpu1 cpu2 cpu3,
  has_stack p I cpu ->
  executes p Brk cpu cpu1 -> balanced p d cpu1 cpu2 -> executes p Rti cpu2 cpu3 -> d + 3 <= 256 ->
  (reg_pc cpu3 = (reg_pc cpu + 2) mod 65536 <->
   (reg_pc cpu + 1) mod 65536 mod 256 = (reg_pc cpu + 1) mod 65536 / 256).
Proof.
  intros p I d cpu cpu1 cpu2 cpu3 HS Hj Hb Hr Hd.
  destruct (C23_brk_rti_exact p I d _ _ _ _ HS Hj Hb Hr Hd) as (_ & _ & ->).
  destruct HS as (_ & _ & _ & _ & _ & _ & Hpc). unfold u16 in Hpc. cbn [regs_of Spec6502.rPC] in Hpc.
  unfold swapped. set (r := (reg_pc cpu + 1) mod 65536).
  assert (Hr' : 0 <= r < 65536) by (subst r; lia).
  replace ((reg_pc cpu + 2) mod 65536) with ((r + 1) mod 65536) by (subst r; lia).
  clearbody r. lia.
Qed.

(** The part of C23 that holds: status and stack pointer are restored, and the
    break goes through the vector. Missing: the resumption address (see
    C23_resume_documented_iff). *)
Theorem C23_brk_rti_partial : forall p I d cpu cpu1 cpu2 cpu3,
  has_stack p I cpu ->
  executes p Brk cpu cpu1 -> balanced p d cpu1 cpu2 -> executes p Rti cpu2 cpu3 -> d + 3 <= 256 ->
  reg_pc cpu1 = peek p (amap cpu) 0xfffe + 256 * peek p (amap cpu) 0xffff /\
  reg_ps cpu3 = reg_ps cpu /\ reg_sp cpu3 = reg_sp cpu /\
  ((reg_pc cpu + 1) mod 65536 mod 256 = (reg_pc cpu + 1) mod 65536 / 256 ->
   reg_pc cpu3 = (reg_pc cpu + 2) mod 65536).
Proof.
  intros p I d cpu cpu1 cpu2 cpu3 HS Hj Hb Hr Hd.
  destruct (C23_brk p I cpu cpu1 HS Hj) as (A & _).
  destruct (C23_brk_rti_exact p I d _ _ _ _ HS Hj Hb Hr Hd) as (B & C & _).
  split; [exact A|]. split; [exact B|]. split; [exact C|].
  exact (proj2 (C23_resume_documented_iff p I d _ _ _ _ HS Hj Hb Hr Hd)).
Qed.

(** ** C24 *)
(** At most 256 pushes, then as many pulls, in any mix of A and status and with
    any code in between that leaves the stack alone. *)
Theorem C24_lifo : forall p I cpu pushed cpu1 pulled cpu2,
  has_stack p I cpu -> Z.of_nat (length pushed) <= 256 ->
  push_run p cpu pushed cpu1 -> pull_run p cpu1 pulled cpu2 -> length pulled = length pushed ->
  pulled = rev pushed /\ reg_sp cpu2 = reg_sp cpu.
Proof.
  intros p I cpu l cpu1 l' cpu2 (Hbus & Hi) Hl Hpush Hpull Elen.
  destruct (push_run_effect p I Hbus _ _ _ Hpush Hi Hl) as (S1 & P1 & _).
  assert (Hi1 := push_run_inv p I Hbus _ _ _ Hpush Hi).
  destruct (pull_run_effect p I Hbus _ _ _ Hpull Hi1) as (S2 & P2 & _).
  destruct Hi as (_ & _ & _ & _ & Hsp & _). unfold u8 in Hsp. cbn [regs_of Spec6502.rS] in Hsp.
  split; [|rewrite S2, S1, Elen; lia].
  apply (nth_ext _ _ 0 0); [rewrite rev_length; exact Elen|].
  intros n Hn. rewrite Elen in Hn. rewrite rev_nth by exact Hn.
  assert (E1 := P2 n (nth n l' 0) (nth_error_nth' l' 0 (eq_ind_r (fun k => (n < k)%nat) Hn Elen))).
  assert (Hk : (length l - S n < length l)%nat) by lia.
  assert (E2 := P1 (length l - S n)%nat (nth (length l - S n) l 0) (nth_error_nth' l 0 Hk)).
  rewrite S1 in E1.
  replace (stack_slot ((reg_sp cpu - Z.of_nat (length l)) mod 256) (- (Z.of_nat n + 1)))
    with (stack_slot (reg_sp cpu) (Z.of_nat (length l - S n))) in E1
    by (unfold stack_slot; f_equal; lia).
  congruence.
Qed.

Theorem C24_pha_pla : forall p I cpu cpu1 cpu2, has_stack p I cpu ->
  executes p Pha cpu cpu1 -> executes p Pla cpu1 cpu2 ->
  reg_acc cpu2 = reg_acc cpu /\ reg_sp cpu2 = reg_sp cpu.
Proof.
  intros p I cpu cpu1 cpu2 HS H1 H2.
  destruct (C24_lifo p I cpu [reg_acc cpu] cpu1 [reg_acc cpu2] cpu2 HS ltac:(cbn; lia)) as [A B].
  - eapply push_cons; [left; split; [exact H1|reflexivity]|constructor].
  - eapply pull_cons; [left; split; [exact H2|reflexivity]|constructor].
  - reflexivity.
  - cbn in A. split; [congruence|exact B].
Qed.

Theorem C24_php_plp : forall p I cpu cpu1 cpu2, has_stack p I cpu ->
  executes p Php cpu cpu1 -> executes p Plp cpu1 cpu2 ->
  reg_ps cpu2 = reg_ps cpu /\ reg_sp cpu2 = reg_sp cpu.
Proof.
  intros p I cpu cpu1 cpu2 HS H1 H2.
  destruct (C24_lifo p I cpu [ps_read (reg_ps cpu)] cpu1 [ps_read (reg_ps cpu2)] cpu2 HS ltac:(cbn; lia)) as [A B].
  - eapply push_cons; [right; split; [exact H1|reflexivity]|constructor].
  - eapply pull_cons; [right; split; [exact H2|reflexivity]|constructor].
  - reflexivity.
  - cbn in A. split; [|exact B].
    assert (E : ps_read (reg_ps cpu2) = ps_read (reg_ps cpu)) by congruence.
    rewrite !ps_read_byte in E. rewrite <- (status_round (reg_ps cpu2)), E. apply status_round.
Qed.
End Stack.

(** ** Concrete executions *)
Definition succ_state (p : profile) (cpu : mos6502 memory) : mos6502 memory :=
  match observed_step p cpu with Ok (_, c) => c | Panic => cpu end.
Definition after p cpu k := Nat.iter k (succ_state p) cpu.

Definition executes_check (p : profile) (mn : mnemonic) (cpu : mos6502 memory) : Prop :=
  plain_mapb (amap cpu) && regs_okb (regs_of cpu) && (reg_pc cpu <=? 0xfffd) = true /\
  match Spec6502.decode (peek p (amap cpu) (reg_pc cpu)) with
  | Some (mn', _, _) => mn' = mn | None => False end /\
  match observed_step p cpu with Ok _ => True | Panic => False end.

Lemma executes_ok p mn cpu : executes_check p mn cpu -> executes p mn cpu (succ_state p cpu).
Proof.
  intros (E & Hd & Hs). rewrite !andb_true_iff in E. destruct E as [[E1 E2] E3].
  destruct (bus_peek p (plain_with (fun _ => False)) _ (plain_ram_bus p _) (amap cpu)
    (conj (plain_mapb_ok _ E1) (fun a (F : False) => match F with end))) as [B1 B2].
  destruct (Spec6502.decode (peek p (amap cpu) (reg_pc cpu))) as [[[mn' m] c]|] eqn:Ed; [|contradiction].
  subst mn'. exists (peek p (amap cpu)), m, c. do 2 eexists. split.
  - refine (conj (regs_okb_ok _ E2) (conj B1 (conj B2 (conj (or_intror _) (conj Ed (conj eq_refl eq_refl)))))).
    lia.
  - unfold becomes, succ_state. destruct (observed_step p cpu) as [[k c']|]; [eauto|contradiction].
Qed.

Lemma off_stack_ok p cpu : match observed_step p cpu with Ok _ => True | Panic => False end ->
  map_eqb (amap (succ_state p cpu)) (amap cpu) && (reg_sp (succ_state p cpu) =? reg_sp cpu) = true ->
  off_stack p cpu (succ_state p cpu).
Proof.
  intros Hs E. rewrite andb_true_iff in E. destruct E as [E1 E2].
  split; [unfold becomes, succ_state; destruct (observed_step p cpu) as [[k c']|]; [eauto|contradiction]|].
  split; [lia|]. apply map_eqb_ok in E1. rewrite E1. reflexivity.
Qed.

Lemma executes_after p mn cpu k : executes_check p mn (after p cpu k) ->
  executes p mn (after p cpu k) (after p cpu (S k)).
Proof. exact (executes_ok p mn (after p cpu k)). Qed.
Lemma off_stack_after p cpu k :
  match observed_step p (after p cpu k) with Ok _ => True | Panic => False end ->
  map_eqb (amap (after p cpu (S k))) (amap (after p cpu k))
    && (reg_sp (after p cpu (S k)) =? reg_sp (after p cpu k)) = true ->
  off_stack p (after p cpu k) (after p cpu (S k)).
Proof. exact (off_stack_ok p (after p cpu k)). Qed.
#[local] Opaque after.

Ltac exec := apply executes_after; split; [vm_compute; reflexivity|split; [vm_compute; reflexivity|vm_compute; exact I]].

(** Every stack pointer gives a machine with a stack. *)
Lemma demo_stack p zp prog a x y sp ps :
  machine_fits zp prog a x y sp = true ->
  has_stack p (plain_with (fun b => 0x0100 <= b <= 0x01ff)) (machine zp prog a x y sp ps).
Proof.
  intros Hf. destruct (machine_plain zp prog a x y sp ps Hf) as [H1 H2].
  split; [apply plain_ram_bus|]. split; [|exact H2]. split; [exact H1|].
  intros b Hb. eexists. split; [left; reflexivity|]. cbn. split; [lia|reflexivity].
Qed.

(** JSR 8006 / at 8006: PHA; JSR 800c; PLA; RTS / at 800c: NOP; RTS, with the
    stack pointer at 0 so that every return address wraps around page one. *)
Definition call_prog : list Z :=
  [0x20; 0x06; 0x80; 0xea; 0xea; 0xea; 0x48; 0x20; 0x0c; 0x80; 0x68; 0x60; 0xea; 0x60; 0xea; 0xea].
Definition call_demo : mos6502 memory := machine [] call_prog 7 0 0 0x00 ps0.

Example C22_nonvacuous :
  let at_ := after Debug call_demo in
  has_stack Debug (plain_with (fun b => 0x0100 <= b <= 0x01ff)) (at_ 0%nat) /\
  executes Debug Jsr (at_ 0%nat) (at_ 1%nat) /\
  balanced Debug 3 (at_ 1%nat) (at_ 6%nat) /\
  executes Debug Rts (at_ 6%nat) (at_ 7%nat) /\
  reg_pc (at_ 7%nat) = 0x8003 /\ reg_pc (at_ 4%nat) = 0x800d.
Proof.
  cbv zeta. split; [exact (demo_stack Debug [] call_prog 7 0 0 0 ps0 eq_refl)|]. split; [exec|]. split.
  - assert (B1 : balanced Debug 0 (after Debug call_demo 3) (after Debug call_demo 4)).
    { apply (bal_step Debug 0 _ (after Debug call_demo 4)); [|apply bal_nil].
      apply off_stack_after; [vm_compute; exact I|vm_compute; reflexivity]. }
    assert (B2 : balanced Debug (Z.max (0 + 2) 0) (after Debug call_demo 2) (after Debug call_demo 5)).
    { apply (bal_call Debug 0 0 _ (after Debug call_demo 3) (after Debug call_demo 4) (after Debug call_demo 5));
        [exec|exact B1|exec|apply bal_nil]. }
    change (Z.max (0 + 2) 0) with 2 in B2. change 3 with (Z.max (2 + 1) 0).
    apply (bal_save Debug Pha Pla 2 0 _ (after Debug call_demo 2) (after Debug call_demo 5)
             (after Debug call_demo 6)); [left; reflexivity|left; reflexivity|exec|exact B2|exec|apply bal_nil].
  - split; [exec|]. split; vm_compute; reflexivity.
Qed.

(** BRK with the vector pointing to an RTI; the interrupted program resumes at
    the wrong address. *)
Definition brk_demo : mos6502 memory :=
  mkMos6502
    [ mkEntry 0 0x3ff (mkMemory ReadWrite 0 0x3ff (repeat 0 (Z.to_nat 1024)));
      mkEntry 0x8000 0x8003 (mkMemory ReadOnly 0x8000 0x8003 [0x00; 0xea; 0x40; 0xea]);
      mkEntry 0xfffe 0xffff (mkMemory ReadOnly 0xfffe 0xffff [0x02; 0x80]) ]
    1 2 3 0x01 0x8000 ps0.

Lemma brk_demo_stack p : has_stack p (plain_with (fun b => 0x0100 <= b <= 0x01ff)) (after p brk_demo 0).
Proof.
  change (after p brk_demo 0) with brk_demo.
  split; [apply plain_ram_bus|]. split; [|apply regs_okb_ok; vm_compute; reflexivity].
  split; [apply plain_mapb_ok; vm_compute; reflexivity|].
  intros b Hb. eexists. split; [left; reflexivity|]. cbn. split; [lia|reflexivity].
Qed.

Example C23_nonvacuous : forall p,
  executes p Brk (after p brk_demo 0) (after p brk_demo 1) /\
  balanced p 0 (after p brk_demo 1) (after p brk_demo 1) /\
  executes p Rti (after p brk_demo 1) (after p brk_demo 2) /\
  reg_pc (after p brk_demo 1) = 0x8002.
Proof.
  intros []; (split; [exec|]); (split; [apply bal_nil|]); (split; [exec|]); vm_compute; reflexivity.
Qed.

(** Full statement of C23 on all machines made of memories. *)
Theorem C23_resume_refuted : forall p,
  ~ (forall I d (cpu cpu1 cpu2 cpu3 : mos6502 memory),
      has_stack p I cpu ->
      executes p Brk cpu cpu1 -> balanced p d cpu1 cpu2 -> executes p Rti cpu2 cpu3 -> d + 3 <= 256 ->
      reg_pc cpu3 = (reg_pc cpu + 2) mod 65536).
Proof.
  intros p T. destruct (C23_nonvacuous p) as (A & B & C & _).
  specialize (T _ 0 _ _ _ _ (brk_demo_stack p) A B C ltac:(lia)).
  destruct p; vm_compute in T; discriminate.
Qed.

(** PHA; PHP; PLA; PLP: two pushes, two pulls, wrapping. *)
Definition push_prog : list Z := [0x48; 0x08; 0xea; 0x68; 0x28; 0xea; 0xea; 0xea].
Definition push_demo : mos6502 memory := machine [] push_prog 0x81 0 0 0x00 ps0.

Example C24_nonvacuous :
  has_stack Debug (plain_with (fun b => 0x0100 <= b <= 0x01ff)) (after Debug push_demo 0) /\
  (exists v w, v <> w /\
  push_run Debug (after Debug push_demo 0) [v; w] (after Debug push_demo 3) /\
  pull_run Debug (after Debug push_demo 3) [w; v] (after Debug push_demo 5)).
Proof.
  split; [exact (demo_stack Debug [] push_prog 0x81 0 0 0 ps0 eq_refl)|].
  exists 0x81, (ps_read ps0). split; [vm_compute; discriminate|]. split.
  - apply (push_cons Debug _ _ _ (after Debug push_demo 1)); [left; split; [exec|reflexivity]|].
    apply (push_cons Debug _ _ _ (after Debug push_demo 2)); [right; split; [exec|vm_compute; reflexivity]|].
    apply (push_skip Debug _ _ (after Debug push_demo 3)); [|apply push_nil].
    apply off_stack_after; [vm_compute; exact I|vm_compute; reflexivity].
  - apply (pull_cons Debug _ _ _ (after Debug push_demo 4)); [left; split; [exec|vm_compute; reflexivity]|].
    apply (pull_cons Debug _ _ _ (after Debug push_demo 5)); [right; split; [exec|vm_compute; reflexivity]|].
    apply pull_nil.
Qed.

Print Assumptions C22_jsr_rts.
Print Assumptions C22_balanced_code.
Print Assumptions C22_nested_calls.
Print Assumptions C23_brk.
Print Assumptions C23_brk_rti_exact.
Print Assumptions C23_resume_documented_iff.
Print Assumptions C23_brk_rti_partial.
Print Assumptions C23_resume_refuted.
Print Assumptions C24_lifo.
Print Assumptions C24_pha_pla.
Print Assumptions C24_php_plp.
