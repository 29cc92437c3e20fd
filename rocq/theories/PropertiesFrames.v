(** Property C125: running the 6502 in portions. *)
From Verif Require Import Base Arith ModelMap ModelRegs6502 ModelCpu6502 ModelStep ModelOperand ModelIsa6502 ModelRun6502
  Spec6502 Link6502 SpecProgram SpecLanguage SpecProcedures ProofRun6502 ProofBus ProofReplay PropertiesRun6502
  Properties6502Mem SpecRoutines ProofRoutines PropertiesRoutines ProofLanguage PropertiesLanguage PropertiesProcedures Demo6502 SpecFrames.
Open Scope nat_scope.

Section Frames.
Context {D : Type} `{Device D}.
Implicit Type cpu : mos6502 D.

(** What one portion does. *)
Lemma one_frame p cpu n s : run p cpu n = Ok s -> exists cpu1 k t, s = Ready cpu1 /\ steps p k t cpu cpu1 /\ t <= n /\ n <= t + 6 /\ (7 <= n -> 1 <= k).
Proof.
  intros E. destruct (C26_run_returns_ready p cpu n s E) as (cpu1 & ->). apply C26_run_ready in E as (k & t & Hst & Ht & Hstop).
  exists cpu1, k, t. split; [reflexivity|]. split; [exact Hst|]. split; [exact Ht|].
  assert (B : n <= t + 6).
  { destruct Hstop as [->|(c & cpu2 & Ec & Hc)]; [lia|]. destruct (C36_step_cycles D _ p cpu1 c cpu2 Ec). lia. }
  split; [exact B|]. intros Hn. destruct k; [|lia]. inversion Hst; subst. lia.
Qed.

(** ** C125 *)
(** Whatever the portions, the machine is always at an instruction of the one
    uninterrupted execution: nothing is skipped and nothing done twice. Of
    every portion at most 6 cycles are lost, and a portion of 7 or more
    executes at least one instruction. *)
Theorem C125_on_the_way : forall p cpu ns cpu', frames p cpu ns = Ok cpu' ->
  exists k t, steps p k t cpu cpu' /\ t <= total ns /\ total ns <= t + 6 * length ns /\
    (Forall (fun n => 7 <= n) ns -> length ns <= k).
Proof.
  intros p cpu ns. revert cpu. induction ns as [|n ns IH]; intros cpu cpu' E; cbn [frames] in E.
  - injection E as <-. exists 0, 0. split; [constructor|]. cbn. auto.
  - destruct (run p cpu n) as [s|] eqn:Er; [|discriminate]. cbn [bind] in E.
    destruct (one_frame p cpu n s Er) as (cpu1 & k1 & t1 & -> & S1 & A1 & B1 & C1). cbn [ss_unwrap] in E.
    destruct (IH cpu1 cpu' E) as (k2 & t2 & S2 & A2 & B2 & C2). exists (k1 + k2), (t1 + t2).
    split; [exact (steps_app p k1 t1 cpu cpu1 S1 k2 t2 cpu' S2)|]. unfold total in *. cbn [list_sum fold_right length]. fold (list_sum ns).
    split; [lia|]. split; [lia|]. intros F. apply Forall_cons_iff in F as [F1 F2]. specialize (C1 F1). specialize (C2 F2). lia.
Qed.

(** It panics only where the uninterrupted execution does. *)
Theorem C125_panics : forall p cpu ns, frames p cpu ns = Panic ->
  exists k t cpu', steps p k t cpu cpu' /\ t < total ns /\ observed_step p cpu' = Panic.
Proof.
  intros p cpu ns. revert cpu. induction ns as [|n ns IH]; intros cpu E; cbn [frames] in E; [discriminate|]. unfold total in *. cbn [list_sum fold_right]. fold (list_sum ns).
  destruct (run p cpu n) as [s|] eqn:Er.
  - cbn [bind] in E. destruct (one_frame p cpu n s Er) as (cpu1 & k1 & t1 & -> & S1 & A1 & _). cbn [ss_unwrap] in E.
    destruct (IH cpu1 E) as (k2 & t2 & cpu' & S2 & A2 & P2). exists (k1 + k2), (t1 + t2), cpu'.
    split; [exact (steps_app p k1 t1 cpu cpu1 S1 k2 t2 cpu' S2)|]. split; [lia|exact P2].
  - apply C26_run_panics in Er as (k & t & cpu' & S1 & A1 & P1). exists k, t, cpu'. split; [exact S1|]. split; [lia|exact P1].
Qed.

Lemma steps_compare p k1 t1 cpu c1 k2 t2 c2 : steps p k1 t1 cpu c1 -> steps p k2 t2 cpu c2 -> t1 <= t2 ->
  exists k3 t3, steps p k3 t3 c1 c2.
Proof.
  intros S1. revert k2 t2 c2. induction S1 as [cpu|k t c cpu cpu1 cpu2 Es S1 IH]; intros k2 t2 c2 S2 L; [exists k2, t2; exact S2|].
  inversion S2 as [|k' t' c' x y z Es' S2']; subst.
  - destruct (C36_step_cycles D _ p c2 c cpu1 Es). lia.
  - rewrite Es in Es'. injection Es' as <- <-. apply (IH _ _ _ S2'). lia.
Qed.

(** A state that the uninterrupted execution comes to after [t] cycles has been
    passed when the portions, each less 6 cycles, add up to [t]. *)
Theorem C125_passes : forall p cpu k t cpu1 ns cpu2, steps p k t cpu cpu1 ->
  t + 6 * length ns <= total ns -> frames p cpu ns = Ok cpu2 -> exists k2 t2, steps p k2 t2 cpu1 cpu2.
Proof.
  intros p cpu k t cpu1 ns cpu2 S1 L E. destruct (C125_on_the_way p cpu ns cpu2 E) as (k2 & t2 & S2 & _ & B & _).
  apply (steps_compare p k t cpu cpu1 k2 t2 cpu2 S1 S2). lia.
Qed.

Lemma rests p cpu c : observed_step p cpu = Ok (c, cpu) -> forall k t cpu', steps p k t cpu cpu' -> cpu' = cpu.
Proof.
  intros E k. induction k as [|k IH]; intros t cpu' S1; inversion S1; subst; [reflexivity|].
  match goal with X : observed_step p cpu = Ok _ |- _ => rewrite E in X; injection X as <- <- end. eapply IH. eassumption.
Qed.

(** If that state is one the machine rests in, as at a jump to itself, then any
    such portions end in it. So the result of a program does not depend on the
    portions it is run in. *)
Theorem C125_rests : forall p cpu k t cpu1 c ns, steps p k t cpu cpu1 -> observed_step p cpu1 = Ok (c, cpu1) ->
  t + 6 * length ns <= total ns -> frames p cpu ns = Ok cpu1.
Proof.
  intros p cpu k t cpu1 c ns S1 R L. destruct (frames p cpu ns) as [cpu2|] eqn:E.
  - destruct (C125_passes p cpu k t cpu1 ns cpu2 S1 L E) as (k2 & t2 & S2). f_equal. exact (rests p cpu1 c R k2 t2 cpu2 S2).
  - exfalso. destruct (C125_panics p cpu ns E) as (k2 & t2 & cpu2 & S2 & _ & P).
    destruct (Nat.le_ge_cases t t2) as [K|K].
    + destruct (steps_compare p k t cpu cpu1 k2 t2 cpu2 S1 S2 K) as (k3 & t3 & S3). rewrite (rests p cpu1 c R k3 t3 cpu2 S3) in P. congruence.
    + destruct (steps_compare p k2 t2 cpu cpu2 k t cpu1 S2 S1 K) as (k3 & t3 & S3). inversion S3; subst; congruence.
Qed.

(** Portions smaller than the instruction the machine is at: it stays there for ever. *)
Theorem C125_stuck : forall p cpu c cpu' ns, observed_step p cpu = Ok (c, cpu') -> Forall (fun n => n < c) ns -> frames p cpu ns = Ok cpu.
Proof.
  intros p cpu c cpu' ns E F. induction F as [|n ns Hn F IH]; [reflexivity|]. cbn [frames].
  rewrite (C27_small_budget_stalls p cpu n c cpu' E Hn). exact IH.
Qed.

(** A host that changes the machine between portions does what a host does
    that takes some number of instructions from the iterator before each of
    these changes; at least one if the portion is 7 cycles or more. *)
Theorem C125_host : forall p l cpu cpu', frames_with p cpu l = Ok cpu' ->
  exists ks, length ks = length l /\ instructions_with p cpu (combine ks (map snd l)) = Ok cpu' /\
    Forall2 (fun k x => 2 * k <= fst x /\ fst x <= 7 * k + 6) ks l.
Proof.
  intros p l. induction l as [|[n change] l IH]; intros cpu cpu' E; cbn [frames_with] in E.
  - exists []. split; [reflexivity|]. split; [exact E|constructor].
  - destruct (run p cpu n) as [s|] eqn:Er; [|discriminate]. cbn [bind] in E. destruct (C26_run_returns_ready p cpu n s Er) as (cpu1 & ->). cbn [ss_unwrap] in E.
    destruct (C36_run_bounds D _ p cpu cpu1 n Er) as (k & t & S1 & B1 & B2).
    destruct (IH _ _ E) as (ks & L & E2 & F). exists (k :: ks). split; [cbn [length]; lia|]. split; [|constructor; [cbn [fst]; lia|exact F]].
    cbn [map snd combine instructions_with].
    assert (It : exists ms, iterate p k cpu = Ok (ms, cpu1)).
    { clear - S1. induction S1 as [cpu|k t c cpu cpu1 cpu2 Es S1 IH]; [exists []; reflexivity|]. destruct IH as (ms & It). cbn [iterate].
      unfold observed_step in Es. destruct (next p cpu) as [[m x]|]; [|discriminate]. injection Es as _ ->. cbn [bind]. rewrite It. eexists; reflexivity. }
    destruct It as (ms & ->). cbn [bind]. exact E2.
Qed.
End Frames.

(** A jump to itself is a state to rest in. *)
Theorem C125_jump_rests : forall D (dev : Device D) p I ram (cpu : mos6502 D) r f,
  ram_bus p I ram -> machine_with p I cpu r f -> (rPC r <= 0xfffd)%Z -> bytes_from f (rPC r) [0x4c; low (rPC r); high (rPC r)]%Z ->
  observed_step p cpu = Ok (3, cpu).
Proof.
  intros D dev p I ram cpu r f Hb (Hi & Hr & <- & Hf) Hpc (B0 & B1 & B2 & _). rewrite (step_spec p I ram Hb cpu Hi Hr).
  assert (U : u16 (rPC (regs_of cpu))) by (destruct Hr as (_ & _ & _ & _ & U); exact U). unfold u16 in U.
  replace (rPC (regs_of cpu) + 1 + 1)%Z with (rPC (regs_of cpu) + 2)%Z in B2 by lia. rewrite <- Hf in B0, B1, B2 by (unfold u16; lia).
  assert (E : step p (regs_of cpu) (peek p (amap cpu)) = Some (mkEffect (regs_of cpu) [] 3)).
  { unfold step, unchecked. replace (rPC (regs_of cpu) + 1 <? 65536)%Z with true by lia. replace (rPC (regs_of cpu) + 2 <? 65536)%Z with true by lia.
    rewrite B0, B1, B2. change (decode 0x4c) with (Some (Jmp, Absolute, 3)). cbv iota beta. unfold execute. rewrite word_halves. destruct (regs_of cpu); reflexivity. }
  rewrite E. cbn [spec_outcome e_stores store_all e_cycles e_regs]. destruct cpu; reflexivity.
Qed.

(** A program of the language of C114 with a jump to itself behind it, which
    it does not overwrite: run in any portions that, each less 6 cycles, add
    up to the cycles of its meaning, the machine stands at that jump with the
    final values in memory; the cycles and the final machine do not depend on
    the portions. *)
Theorem C125_program : forall D (dev : Device D) p I ram (cpu : mos6502 D) A X Y S L P f t procs main d s' n,
  let stop := (L + len (image t L procs main))%Z in
  about_to_perform p I ram cpu A X Y S L P f t procs main -> (d <= 256)%Z -> image_takes procs d L main f s' n ->
  (stop <= 0xfffd)%Z -> bytes_from s' stop [0x4c; low stop; high stop]%Z -> (forall q, (stop <= q <= stop + 2)%Z -> ~ scratch t q) ->
  exists cpu', rPC (regs_of cpu') = stop /\ rS (regs_of cpu') = S /\ (forall q, u16 q -> ~ scratch t q -> peek p (amap cpu') q = s' q) /\
    forall ns, n + 6 * length ns <= total ns -> frames p cpu ns = Ok cpu'.
Proof.
  intros D dev p I ram cpu A X Y S L P f t procs main d s' n stop Ha Hd Ht Hs Hj Hn. assert (Hb : ram_bus p I ram) by exact (proj1 (proj1 Ha)).
  destruct (C116_time D dev p I ram cpu A X Y S L P f t procs main d s' n Ha Hd Ht) as (k & cpu' & A' & X' & P' & f' & [St _] & M & V & _).
  fold stop in M. exists cpu'. assert (M0 := M). destruct M as (_ & Hr & R & Pk). rewrite R. cbn [rPC rS]. split; [reflexivity|]. split; [reflexivity|].
  split; [intros q U N; rewrite Pk by exact U; apply V; exact N|].
  intros ns Hns. eapply C125_rests; [exact St| |exact Hns].
  apply (C125_jump_rests D dev p I ram cpu' _ f' Hb M0); cbn [rPC]; [exact Hs|].
  destruct Hj as (J0 & J1 & J2 & _). cbn [bytes_from]. rewrite !V by (apply Hn; lia). auto.
Qed.

(** Seven cycles are needed: with any smaller portion there is a machine that
    could go on but never does. *)
Theorem C125_seven_needed : forall n, n < 7 -> exists (cpu cpu' : mos6502 memory), observed_step Debug cpu = Ok (7, cpu') /\
  forall m, frames Debug cpu (repeat n m) = Ok cpu.
Proof.
  intros n Hn. set (cpu := machine [] [0xfe; 0x00; 0x02; 0xea; 0xea]%Z 1 2 3 0xff ps0).
  assert (E : exists cpu', observed_step Debug cpu = Ok (7, cpu')) by (eexists; vm_compute; reflexivity). destruct E as (cpu' & E).
  exists cpu, cpu'. split; [exact E|]. intros m. apply (C125_stuck Debug cpu 7 cpu' _ E). apply Forall_forall. intros x Hx. apply repeat_spec in Hx. lia.
Qed.

Print Assumptions C125_on_the_way.
Print Assumptions C125_panics.
Print Assumptions C125_passes.
Print Assumptions C125_rests.
Print Assumptions C125_stuck.
Print Assumptions C125_host.
Print Assumptions C125_jump_rests.
Print Assumptions C125_program.
Print Assumptions C125_seven_needed.

(** Doubling a byte, then a jump to itself, in portions of 7, 9, 20 and 8 cycles. *)
Open Scope Z_scope.
Definition doubling : stmt := Put 0x11 (Double (Var 0x10)).
Definition doubling_image : list Z := image 0x12 0x8000 [] doubling.
Definition doubling_end : Z := 0x8000 + len doubling_image.
Definition doubling_code : list Z := doubling_image ++ [0x4c; low doubling_end; high doubling_end].
Definition doubling_machine : mos6502 memory := machine (repeat 0 0x10 ++ [21]) doubling_code 1 2 3 0xff ps0.
Definition doubling_bytes : Z -> Z := bytes_at Debug (repeat 0 0x10 ++ [21]) doubling_code 1 2 3 0xff ps0.
Lemma doubling_ready : about_to_perform Debug (plain_with (fun b => 0 <= b <= 0x3ff)) (fun b => 0 <= b <= 0x3ff) doubling_machine
  1 2 3 0xff 0x8000 ps0 doubling_bytes 0x12 [] doubling.
Proof.
  assert (B : about_to_run Debug (plain_with (fun b => 0 <= b <= 0x3ff)) (fun b => 0 <= b <= 0x3ff) doubling_machine 1 2 3 0xff 0x8000 ps0 doubling_bytes doubling_code).
  { apply demo_about_to_run; [vm_compute; reflexivity|repeat split; vm_compute; reflexivity]. }
  destruct B as (B1 & B2 & B3 & B4 & B5). split.
  - split; [exact B1|]. split; [exact B2|]. split; [lia|]. split; [vm_compute; discriminate|repeat split; vm_compute; reflexivity].
  - split; [vm_compute; discriminate|].
    split; [split; [unfold page_one; lia|intros q [->|Hq]; apply demo_variable; unfold page_one in *; lia]|].
    constructor; [|constructor]. unfold good_stmt, doubling. cbn [proper reads].
    assert (N : forall q, q <> 0x12 -> ~ (0x100 <= q <= 0x1ff) -> ~ scratch 0x12 q) by (intros q H1 H2 [K|K]; [lia|exact (H2 K)]).
    repeat match goal with |- _ /\ _ => split end; try (apply demo_variable; lia); try (apply N; lia); unfold u16; lia.
Qed.
Example C125_case : exists cpu', reg_pc cpu' = doubling_end /\ peek Debug (amap cpu') 0x11 = 42 /\
  frames Debug doubling_machine [7; 9; 20; 8; 10]%nat = Ok cpu' /\ frames Debug doubling_machine (repeat 9 20)%nat = Ok cpu'.
Proof.
  set (s' := set doubling_bytes 0x11 (value doubling_bytes (Double (Var 0x10)))).
  assert (T : image_takes [] 0 0x8000 doubling doubling_bytes s' (3 + (time doubling_bytes (Double (Var 0x10)) + 4))).
  { eexists. split; [reflexivity|]. apply takes_put. cbn [depth]. lia. }
  destruct (C125_program memory _ Debug _ _ doubling_machine 1 2 3 0xff 0x8000 ps0 doubling_bytes 0x12 [] doubling 0 s' _ doubling_ready ltac:(lia) T)
    as (cpu' & E1 & _ & V & F).
  - vm_compute. discriminate.
  - repeat split; vm_compute; reflexivity.
  - intros q Hq [K|K]; [subst q; destruct Hq as [Hq _]; vm_compute in Hq; apply Hq; reflexivity|].
    destruct Hq as [Hq _]. assert (0x8000 <= q) by (eapply Z.le_trans; [|exact Hq]; vm_compute; discriminate). unfold page_one in K. lia.
  - exists cpu'. split; [exact E1|]. split; [|split].
    + rewrite V; [vm_compute; reflexivity|unfold u16; lia|]. intros [K|K]; [lia|unfold page_one in K; lia].
    + apply F. vm_compute. lia.
    + apply F. vm_compute. lia.
Qed.
