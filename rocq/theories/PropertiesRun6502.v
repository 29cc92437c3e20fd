(** Properties C06 (whole machine), C09, C26-C31, C37 and the 6502 part of C57:
    running programs. *)
From Verif Require Import Base Arith ModelMap ModelStep ModelRegs6502 ModelCpu6502 ModelOperand
  ModelIsa6502 ModelRun6502 SpecMap ProofMap Link6502 ProofRun6502 ProofBus ProofReplay
  SpecInstr ProofInstr Demo6502 SpecUse.

(** ** C09 StepState *)
Theorem C09_countdown : forall (T : Type) (c k : nat) (s : T),
  Nat.iter k ss_decrement (ss_new c s) =
  if Nat.leb (Nat.max c 1 - 1) k then Ready s else NotReady (Nat.max c 1 - 1 - k) s.
Proof.
  intros T c k s.
  assert (R : forall j, Nat.iter j ss_decrement (Ready s) = Ready s)
    by (induction j as [|j IH]; cbn [Nat.iter nat_rect]; [reflexivity|change (nat_rect _ _ _ j) with (Nat.iter j ss_decrement (Ready s)); rewrite IH; reflexivity]).
  destruct c as [|[|c]]; [exact (R k)|exact (R k)|].
  replace (Nat.max (S (S c)) 1 - 1)%nat with (S c) by lia. cbn [ss_new].
  replace (S (S c) - 1)%nat with (S c) by lia.
  revert c. induction k as [|k IH]; intros c; [reflexivity|].
  change (Nat.iter (S k) ss_decrement (NotReady (S c) s))
    with (ss_decrement (Nat.iter k ss_decrement (NotReady (S c) s))).
  rewrite IH. destruct (Nat.leb (S c) k) eqn:E1.
  - replace (Nat.leb (S c) (S k)) with true by lia. reflexivity.
  - destruct (Nat.leb (S c) (S k)) eqn:E2.
    + replace (S c - k)%nat with 1%nat by lia. reflexivity.
    + destruct (S c - k)%nat as [|[|r]] eqn:Er; try lia. cbn [ss_decrement]. f_equal. lia.
Qed.

(** The state inside never changes, and conversion to a pair reports the wait. *)
Theorem C09_state_unchanged : forall (T : Type) (c k : nat) (s : T),
  ss_unwrap (Nat.iter k ss_decrement (ss_new c s)) = s /\
  ss_into_pair (Nat.iter k ss_decrement (ss_new c s)) = ((c - 1 - k)%nat, s).
Proof.
  intros T c k s. rewrite C09_countdown. destruct (Nat.leb _ k) eqn:E; cbn [ss_unwrap ss_into_pair].
  - split; [reflexivity|]. f_equal. lia.
  - split; [reflexivity|]. f_equal. lia.
Qed.

Theorem C09_wait : forall (T : Type) (cpu_run : T -> nat -> res (step_state T)) (s : T) r n,
  (r <= n)%nat -> ss_run cpu_run (NotReady r s) n = cpu_run s (n - r)%nat.
Proof.
  intros T cpu_run s r n Hn. cbn [ss_run]. replace (Nat.ltb n r) with false by lia. reflexivity.
Qed.

Theorem C09_ready : forall (T : Type) (cpu_run : T -> nat -> res (step_state T)) (s : T) n,
  ss_run cpu_run (Ready s) n = cpu_run s n.
Proof. reflexivity. Qed.

(** A wait that is interrupted is lost: whatever [n < r], running [n] and then
    [m] cycles runs the CPU for all of the [m] cycles. *)
Theorem C09_short_run_loses_wait : forall (T : Type) (cpu_run : T -> nat -> res (step_state T)) (s : T) r n m,
  (n < r)%nat ->
  (do! s' <- ss_run cpu_run (NotReady r s) n ; ss_run cpu_run s' m) = cpu_run s m.
Proof.
  intros T cpu_run s r n m Hn. cbn [ss_run]. replace (Nat.ltb n r) with true by lia.
  cbn [bind ss_run Nat.ltb Nat.leb]. rewrite Nat.sub_0_r. destruct m; reflexivity.
Qed.

(** So splitting a wait is wrong, even for a CPU whose own runs compose. *)
Theorem C09_split_refuted :
  ~ (forall (T : Type) (cpu_run : T -> nat -> res (step_state T)) (s : T) r n m,
      (forall t a b, (do! t' <- cpu_run t a ; ss_run cpu_run t' b) = cpu_run t (a + b)%nat) ->
      (do! s' <- ss_run cpu_run (NotReady r s) n ; ss_run cpu_run s' m)
      = ss_run cpu_run (NotReady r s) (n + m)).
Proof.
  intros T. specialize (T nat (fun s n => Ok (Ready (s + n)%nat)) 0%nat 5%nat 4%nat 4%nat).
  discriminate T. intros t a b. cbn [bind ss_run]. rewrite Nat.add_assoc. reflexivity.
Qed.

Theorem C09_split_partial : forall (T : Type) (cpu_run : T -> nat -> res (step_state T)) (s : T) r n m,
  (forall t a b, (do! t' <- cpu_run t a ; ss_run cpu_run t' b) = cpu_run t (a + b)%nat) ->
  (r <= n)%nat ->
  (do! s' <- ss_run cpu_run (NotReady r s) n ; ss_run cpu_run s' m)
  = ss_run cpu_run (NotReady r s) (n + m).
Proof.
  intros T cpu_run s r n m Hc Hn. rewrite !C09_wait by lia. rewrite Hc. f_equal. lia.
Qed.

Example C09_nonvacuous : (forall t a b : nat,
   (do! t' <- Ok (Ready (t + a)%nat) ; ss_run (fun s n => Ok (Ready (s + n)%nat)) t' b) = Ok (Ready (t + (a + b))%nat))
  /\ Nat.iter 4 ss_decrement (ss_new 6 7) = NotReady 1 7 /\ Nat.iter 5 ss_decrement (ss_new 6 7) = Ready 7.
Proof. split; [|split; reflexivity]. intros t a b. cbn [bind ss_run]. rewrite Nat.add_assoc. reflexivity. Qed.

Print Assumptions C09_countdown.
Print Assumptions C09_state_unchanged.
Print Assumptions C09_wait.
Print Assumptions C09_ready.
Print Assumptions C09_short_run_loses_wait.
Print Assumptions C09_split_refuted.
Print Assumptions C09_split_partial.

Section Run.
Context {D : Type} `{Device D}.
Implicit Type cpu : mos6502 D.

(** ** C26 *)
Theorem C26_run_ready : forall p cpu n cpu',
  run p cpu n = Ok (Ready cpu') <->
  exists k t, steps p k t cpu cpu' /\ (t <= n)%nat /\
    (t = n \/ exists c cpu'', observed_step p cpu' = Ok (c, cpu'') /\ (n < t + c)%nat).
Proof. exact run_ready_iff. Qed.

Theorem C26_run_panics : forall p cpu n,
  run p cpu n = Panic <->
  exists k t cpu', steps p k t cpu cpu' /\ (t < n)%nat /\ observed_step p cpu' = Panic.
Proof. exact run_panic_iff. Qed.

Theorem C26_run_returns_ready : forall p cpu n s, run p cpu n = Ok s -> exists cpu', s = Ready cpu'.
Proof.
  intros p cpu n [r s|s] Hr; [|eauto]. exfalso. exact (run_never_notready p cpu n r s Hr).
Qed.

(** The number of instructions and the state are unique. *)
Theorem C26_run_unique : forall p cpu n k1 t1 c1 k2 t2 c2,
  steps p k1 t1 cpu c1 -> (t1 <= n)%nat ->
  (t1 = n \/ exists c c', observed_step p c1 = Ok (c, c') /\ (n < t1 + c)%nat) ->
  steps p k2 t2 cpu c2 -> (t2 <= n)%nat ->
  (t2 = n \/ exists c c', observed_step p c2 = Ok (c, c') /\ (n < t2 + c)%nat) ->
  k1 = k2 /\ t1 = t2 /\ c1 = c2.
Proof.
  intros p cpu n k1 t1 c1 k2 t2 c2 S1 L1 E1 S2 L2 E2.
  assert (K : forall k1 t1 c1 k2 t2 c2, steps p k1 t1 cpu c1 ->
    (t1 = n \/ exists c c', observed_step p c1 = Ok (c, c') /\ (n < t1 + c)%nat) ->
    steps p k2 t2 cpu c2 -> (t2 <= n)%nat -> (k2 <= k1)%nat).
  { clear. intros k1 t1 c1 k2 t2 c2 S1 E1 S2 L2.
    destruct (le_lt_dec k2 k1) as [|Hlt]; [assumption|exfalso].
    assert (Hsp : forall k a t (x y : mos6502 D), steps p (k + a) t x y ->
              exists t1 t2 z, t = (t1 + t2)%nat /\ steps p k t1 x z /\ steps p a t2 z y).
    { clear. induction k as [|k IH]; intros a t x y Hs.
      - exists 0%nat, t, x. split; [reflexivity|]. split; [constructor|exact Hs].
      - cbn [Nat.add] in Hs. inversion Hs; subst.
        destruct (IH _ _ _ _ H2) as (t1 & t2 & z & -> & A & B).
        exists (c + t1)%nat, t2, z. split; [lia|]. split; [econstructor; eauto|exact B]. }
    destruct (Hsp k1 (k2 - k1)%nat t2 cpu c2) as (a & b & z & -> & A & B).
    { replace (k1 + (k2 - k1))%nat with k2 by lia. exact S2. }
    destruct (steps_det _ _ _ _ _ S1 _ _ A) as [<- <-].
    destruct (k2 - k1)%nat as [|j] eqn:Ej; [lia|]. inversion B; subst.
    assert (Hc := step_cycles _ _ _ _ H1).
    destruct E1 as [->|(c' & c'' & Es & Hl)]; [lia|].
    rewrite Es in H1. injection H1 as -> _. lia. }
  assert (k1 = k2).
  { apply Nat.le_antisymm; [exact (K _ _ _ _ _ _ S2 E2 S1 L1)|exact (K _ _ _ _ _ _ S1 E1 S2 L2)]. }
  subst k2. destruct (steps_det _ _ _ _ _ S1 _ _ S2) as [-> ->]. auto.
Qed.

(** ** C27 *)
(** The exact law: the cycles left over by the first run are lost. *)
Theorem C27_budget_law : forall p cpu n cpu1, run p cpu n = Ok (Ready cpu1) ->
  exists k t, steps p k t cpu cpu1 /\ (t <= n)%nat /\
    forall m, run p cpu (n + m) = run p cpu1 ((n - t) + m).
Proof. intros p cpu n cpu1. exact (run_split p cpu n cpu1). Qed.

(** At an instruction boundary budgets may be split. *)
Theorem C27_split_partial : forall p cpu k n cpu1 m, steps p k n cpu cpu1 ->
  run p cpu n = Ok (Ready cpu1) /\ run p cpu (n + m) = run p cpu1 m.
Proof.
  intros p cpu k n cpu1 m Hs.
  assert (R : run p cpu n = Ok (Ready cpu1)) by (apply run_ready_iff; exists k, n; split; [exact Hs|]; split; [lia|left; reflexivity]).
  split; [exact R|]. rewrite !run_go. rewrite (go_steps _ _ _ _ _ Hs) by lia.
  replace (n + m - n)%nat with m by lia. reflexivity.
Qed.

(** A budget smaller than the first instruction makes no progress, however
    often it is repeated. *)
Theorem C27_small_budget_stalls : forall p cpu n c cpu', observed_step p cpu = Ok (c, cpu') ->
  (n < c)%nat -> run p cpu n = Ok (Ready cpu).
Proof.
  intros p cpu n c cpu' Hs Hn. apply run_ready_iff. exists 0%nat, 0%nat.
  split; [constructor|]. split; [lia|]. right. eauto.
Qed.

(** ** C28 *)
Theorem C28_replay : forall p k cpu ms cpu', iterate p k cpu = Ok (ms, cpu') ->
  exists cs, expand ms = Ok cs /\
    foldM (execute_mut p) (concat cs) cpu = Ok cpu' /\
    run p cpu (length cs) = Ok (Ready cpu') /\
    forall n, (n <= length cs)%nat ->
      run p cpu n = (do! s <- foldM (execute_mut p) (concat (firstn n cs)) cpu ; Ok (Ready s)).
Proof.
  intros p k cpu ms cpu' Hi. destruct (iterate_replay p k cpu ms cpu' Hi) as (cs & Ec & El & Ef).
  assert (P : forall n, (n <= length cs)%nat ->
      run p cpu n = (do! s <- foldM (execute_mut p) (concat (firstn n cs)) cpu ; Ok (Ready s))).
  { intros n Hn. unfold run. rewrite (take_iterate p k cpu ms cpu' cs Hi Ec n Hn). reflexivity. }
  exists cs. split; [exact Ec|]. split; [exact Ef|]. split; [|exact P].
  rewrite (P _ (le_n _)), firstn_all, Ef. reflexivity.
Qed.

(** ** C29 *)
Theorem C29_registers_keep_width : forall p (I : address_map D -> Prop) cpu n cpu',
  ram_bus p I (fun _ => False) -> I (amap cpu) -> regs_ok (regs_of cpu) ->
  run p cpu n = Ok (Ready cpu') -> I (amap cpu') /\ regs_ok (regs_of cpu').
Proof. intros p I cpu n cpu' Hbus. exact (run_bus_inv p I _ Hbus cpu n cpu'). Qed.

(** ** C30 *)
Theorem C30_layout : forall p cpu n cpu', run p cpu n = Ok (Ready cpu') ->
  layout (amap cpu') = layout (amap cpu).
Proof.
  intros p cpu n cpu' Hr.
  refine (run_inv p (fun m => layout m = layout (amap cpu)) _ cpu n cpu' eq_refl Hr).
  intros m a v m' r <- Hw. exact (write_layout _ _ _ _ _ _ Hw).
Qed.

(** ** C06, whole machine: a device that refuses writes is never changed. *)
Theorem C06_run_keeps_rom : forall p cpu n cpu' e, run p cpu n = Ok (Ready cpu') ->
  In e (amap cpu) -> refuses_writes (device e) -> In e (amap cpu').
Proof.
  intros p cpu n cpu' e Hr Hin Hd.
  refine (run_inv p (fun m => In e m) _ cpu n cpu' Hin Hr).
  intros m a v m' r Hi Hw. exact (write_keeps_rom _ _ _ _ _ _ _ Hw Hi Hd).
Qed.

(** No history of address-map writes, microcode operations, runs and resets
    changes a byte of a device that refuses writes. *)
Theorem C06_history_keeps_rom : forall (cpu cpu' : mos6502 D) e a p,
  history cpu cpu' -> disjoint (amap cpu) ->
  In e (amap cpu) -> refuses_writes (device e) -> covers e a ->
  am_read p (amap cpu') a = dev_read p (device e) a /\
  am_read p (amap cpu') a = am_read p (amap cpu) a.
Proof.
  intros cpu cpu' e a p Hh Hd Hin Href Hc.
  assert (K : In e (amap cpu') /\ layout (amap cpu') = layout (amap cpu)).
  { clear Hc a p Hd. induction Hh as [cpu|p cpu cpu1 cpu2 Hu Hh IH]; [split; [exact Hin|reflexivity]|].
    assert (J : In e (amap cpu1) /\ layout (amap cpu1) = layout (amap cpu)).
    { set (I := fun m : address_map D => In e m /\ layout m = layout (amap cpu)).
      assert (Hw : forall m b v m' r, I m -> am_write p m b v = Ok (m', r) -> I m').
      { intros m b v m' r [Hi Hl] Hw. split; [exact (write_keeps_rom _ _ _ _ _ _ _ Hw Hi Href)|].
        rewrite (write_layout _ _ _ _ _ _ Hw). exact Hl. }
      assert (Hi : I (amap cpu)) by (split; [exact Hin|reflexivity]).
      destruct Hu as [b v r E|mc E|n E|n E].
      - exact (Hw _ _ _ _ _ Hi E).
      - exact (execute_mut_inv p cpu mc cpu1 I Hw Hi E).
      - exact (run_inv p I Hw cpu n cpu1 Hi E).
      - replace (amap cpu1) with (amap cpu); [exact Hi|].
        unfold reset in E. cbn [amap with_addressmap] in E.
        repeat match type of E with
        | bind ?x _ = _ => destruct x; [cbn [bind] in E|discriminate]
        end. cbn [ss_new] in E. injection E as _ <-. reflexivity. }
    destruct J as [J1 J2]. destruct (IH J1) as [K1 K2]. split; [exact K1|congruence]. }
  destruct K as [K1 K2]. assert (Hd' := disjoint_layout _ _ K2 Hd).
  rewrite (read_mapped p _ a e Hd' K1 Hc), (read_mapped p _ a e Hd Hin Hc). split; reflexivity.
Qed.

(** ** C31 *)
Theorem C31_reset : forall p cpu rd, bus_reads p (amap cpu) rd ->
  reset p cpu = Ok (NotReady 5
    (mkMos6502 (amap cpu) 0 0 0 0xff (rd 0xfffc + 256 * rd 0xfffd) initial_status)).
Proof.
  intros p cpu rd Hb. unfold reset, with_addressmap. cbn [amap].
  unfold RESET_VECTOR_LL, RESET_VECTOR_HH.
  rewrite !Hb by (unfold u16; lia). cbn [bind ss_new Nat.sub]. reflexivity.
Qed.

(** Executing the reset microcode: same PC, SP and status; A, X and Y are left
    as they were. *)
Theorem C31_reset_as_mops : forall p cpu rd, bus_reads p (amap cpu) rd ->
  exists mops, reset_as_mops p cpu = Ok mops /\
    foldM (execute_mut p) (ops_microcode mops) cpu =
    Ok (mkMos6502 (amap cpu) (reg_acc cpu) (reg_x cpu) (reg_y cpu) 0xff
          (rd 0xfffc + 256 * rd 0xfffd) initial_status) /\
    ops_cycles mops = 6%nat /\ ops_offset mops = 0.
Proof.
  intros p cpu rd Hb. unfold reset_as_mops, RESET_VECTOR_LL, RESET_VECTOR_HH.
  rewrite !Hb by (unfold u16; lia). cbn [bind]. eexists. split; [reflexivity|].
  split; [|split; reflexivity]. reflexivity.
Qed.

(** After reset, the first run: the wait of 5 cycles is spent first. *)
Theorem C31_run_after_reset : forall p cpu rd n, bus_reads p (amap cpu) rd -> (5 <= n)%nat ->
  (do! s <- reset p cpu ; ss_run (run p) s n) =
  run p (mkMos6502 (amap cpu) 0 0 0 0xff (rd 0xfffc + 256 * rd 0xfffd) initial_status) (n - 5).
Proof.
  intros p cpu rd n Hb Hn. rewrite (C31_reset p cpu rd Hb). cbn [bind]. apply C09_wait. exact Hn.
Qed.
End Run.

(** Regions of RAM and ROM keep their range, kind, bounds and size. *)
Theorem C30_regions : forall p (cpu : mos6502 memory) n cpu', run p cpu n = Ok (Ready cpu') ->
  regions (amap cpu') = regions (amap cpu).
Proof.
  intros p cpu n cpu' Hr.
  refine (run_inv p (fun m => regions m = regions (amap cpu)) _ cpu n cpu' eq_refl Hr).
  intros m a v m' r <- Hw. exact (write_regions _ _ _ _ _ _ Hw).
Qed.

(** Nothing a user does after registration changes the layout either. *)
Theorem C30_history : forall (cpu cpu' : mos6502 memory), history cpu cpu' ->
  regions (amap cpu') = regions (amap cpu).
Proof.
  intros cpu cpu' Hh. induction Hh as [cpu|p cpu cpu1 cpu2 Hu Hh IH]; [reflexivity|]. rewrite IH.
  set (I := fun m => regions m = regions (amap cpu)).
  assert (Hw : forall m b v m' r, I m -> am_write p m b v = Ok (m', r) -> I m').
  { intros m b v m' r Hm Hw. unfold I in *. rewrite <- Hm. exact (write_regions _ _ _ _ _ _ Hw). }
  destruct Hu as [b v r E|mc E|n E|n E].
  - exact (Hw _ _ _ _ _ eq_refl E).
  - exact (execute_mut_inv p cpu mc cpu1 I Hw eq_refl E).
  - exact (run_inv p I Hw cpu n cpu1 eq_refl E).
  - unfold reset in E. cbn [amap with_addressmap] in E.
    repeat match type of E with
    | bind ?x _ = _ => destruct x; [cbn [bind] in E|discriminate]
    end. cbn [ss_new] in E. injection E as _ <-. reflexivity.
Qed.

(** On a machine made of RAM and ROM all bytes and registers keep their width. *)
Theorem C29_widths : forall p (cpu : mos6502 memory) n cpu',
  plain_map (amap cpu) -> regs_ok (regs_of cpu) -> run p cpu n = Ok (Ready cpu') ->
  plain_map (amap cpu') /\ regs_ok (regs_of cpu') /\
  Forall (fun e => Forall u8 (mem_inner (device e))) (amap cpu').
Proof.
  intros p cpu n cpu' Hp Hr Hrun.
  destruct (C29_registers_keep_width p (plain_with (fun _ => False)) cpu n cpu'
              (plain_ram_bus p _) (conj Hp (fun a (F : False) => match F with end)) Hr Hrun) as [[Hp' _] Hr'].
  split; [exact Hp'|]. split; [exact Hr'|].
  destruct Hp' as [_ Hf]. apply Forall_forall. intros e Hin. rewrite Forall_forall in Hf.
  destruct (Hf e Hin) as (_ & _ & _ & K). exact K.
Qed.

(** ROM contents survive every run of a machine made of memories. *)
(** Whatever a user does through the API with values of its types, in any
    order, registers and bytes keep their width. *)
Lemma refused_write p (m : address_map memory) a v m' : am_write p m a v = Ok (m', WErr) -> m' = m.
Proof.
  intros Hw. destruct (write_shape _ _ _ _ _ _ Hw) as [(E & _)|(l1 & e & l2 & d' & -> & Hu & Hc & Hdw & ->)]; [exact E|].
  cbn in Hdw. unfold memory_write in Hdw. destruct (mem_kind (device e)).
  - destruct (sub_u16 _ _ _); [|discriminate]. cbn [bind] in Hdw. destruct (vec_set _ _ _); discriminate.
  - injection Hdw as <-. destruct e; reflexivity.
Qed.
Theorem C29_history : forall (cpu cpu' : mos6502 memory), typed_history cpu cpu' ->
  plain_map (amap cpu) -> typed_registers cpu ->
  plain_map (amap cpu') /\ typed_registers cpu' /\
  Forall (fun e => Forall u8 (mem_inner (device e))) (amap cpu').
Proof.
  assert (W : forall p (m : address_map memory) a v m' r, plain_map m -> u8 v -> am_write p m a v = Ok (m', r) -> plain_map m').
  { intros p m a v m' [w|] Hp Hv Hw; [exact (proj1 (plain_write _ _ _ _ _ _ Hp Hv Hw))|].
    rewrite (refused_write _ _ _ _ _ Hw). exact Hp. }
  assert (K : forall (cpu cpu' : mos6502 memory), typed_history cpu cpu' ->
    plain_map (amap cpu) -> typed_registers cpu -> plain_map (amap cpu') /\ typed_registers cpu').
  { intros cpu cpu' Hh. induction Hh as [cpu|p cpu cpu1 cpu2 Hu Hh IH]; intros Hp Ht; [split; assumption|].
    assert (J : plain_map (amap cpu1) /\ typed_registers cpu1); [|exact (IH (proj1 J) (proj2 J))].
    clear IH Hh. destruct Hu as [a v r Ha Hv Ht1 E|Hm Ht1|mc Hmc E|n E|n E].
    - split; [exact (W _ _ _ _ _ _ Hp Hv E)|exact Ht1].
    - rewrite Hm. split; assumption.
    - destruct Ht as (T1 & T2 & T3 & T4 & T5).
      destruct mc as [a v|f v|r v|r v|r v|[] v|[] v|[] v]; cbn [typed_microcode execute_mut] in Hmc, E.
      + unfold exec_write_memory in E. destruct (am_write p (amap cpu) a v) as [[m' [w|]]|] eqn:Ew; try discriminate.
        cbn [bind] in E. injection E as <-. split; [exact (W _ _ _ _ _ _ Hp (proj2 Hmc) Ew)|].
        repeat split; assumption || apply T1 || apply T2 || apply T3 || apply T4 || apply T5.
      + injection E as <-. split; [exact Hp|]. exact (conj T1 (conj T2 (conj T3 (conj T4 T5)))).
      + injection E as <-. split; [destruct r; exact Hp|].
        destruct r; unfold typed_registers; cbn [exec_write8 set_acc set_x set_y set_sp set_ps reg_acc reg_x reg_y reg_sp reg_pc];
          refine (conj _ (conj _ (conj _ (conj _ T5)))); assumption.
      + injection E as <-. split; [destruct r; exact Hp|].
        destruct r; unfold typed_registers; cbn [exec_inc8 set_acc set_x set_y set_sp set_ps reg_acc reg_x reg_y reg_sp reg_pc];
          unfold wrapping_add_u8, u8 in *; refine (conj _ (conj _ (conj _ (conj _ T5)))); lia.
      + injection E as <-. split; [destruct r; exact Hp|].
        destruct r; unfold typed_registers; cbn [exec_dec8 set_acc set_x set_y set_sp set_ps reg_acc reg_x reg_y reg_sp reg_pc];
          unfold wrapping_sub_u8, u8 in *; refine (conj _ (conj _ (conj _ (conj _ T5)))); lia.
      + injection E as <-. split; [exact Hp|]. exact (conj T1 (conj T2 (conj T3 (conj T4 Hmc)))).
      + injection E as <-. split; [exact Hp|]. refine (conj T1 (conj T2 (conj T3 (conj T4 _)))).
        cbn [set_pc reg_pc]. unfold wrapping_add_u16, u16. lia.
      + injection E as <-. split; [exact Hp|]. refine (conj T1 (conj T2 (conj T3 (conj T4 _)))).
        cbn [set_pc reg_pc]. unfold wrapping_sub_u16, u16. lia.
    - destruct (C29_widths p cpu n cpu1 Hp Ht E) as (A & B & _). split; assumption.
    - destruct (bus_peek p _ _ (plain_ram_bus p (fun _ => False)) _ (conj Hp (fun a (F : False) => match F with end))) as [Hb Hv].
      rewrite (C31_reset p cpu _ Hb) in E.
      assert (E' : cpu1 = mkMos6502 (amap cpu) 0 0 0 0xff (peek p (amap cpu) 0xfffc + 256 * peek p (amap cpu) 0xfffd) initial_status)
        by congruence. clear E. subst cpu1. split; [exact Hp|].
      assert (V1 := Hv 0xfffc ltac:(unfold u16; lia)). assert (V2 := Hv 0xfffd ltac:(unfold u16; lia)).
      unfold typed_registers. cbn [reg_acc reg_x reg_y reg_sp reg_pc].
      generalize dependent (peek p (amap cpu) 0xfffc). generalize dependent (peek p (amap cpu) 0xfffd).
      intros h Hh l Hl. unfold u8, u16 in *. lia. }
  intros cpu cpu' Hh Hp Ht. destruct (K _ _ Hh Hp Ht) as [Hp' Ht']. split; [exact Hp'|]. split; [exact Ht'|].
  destruct Hp' as [_ Hf]. apply Forall_forall. intros e Hin. rewrite Forall_forall in Hf.
  destruct (Hf e Hin) as (_ & _ & _ & L). exact L.
Qed.

Theorem C06_run_keeps_rom_bytes : forall p (cpu : mos6502 memory) n cpu' e,
  run p cpu n = Ok (Ready cpu') -> In e (amap cpu) -> mem_kind (device e) = ReadOnly -> In e (amap cpu').
Proof.
  intros p cpu n cpu' e Hr Hin Hk. exact (C06_run_keeps_rom p cpu n cpu' e Hr Hin (rom_refuses _ Hk)).
Qed.

(** Two NOPs: run(1) twice executes nothing, run(2) executes one. *)
Theorem C27_split_refuted :
  ~ (forall p (cpu : mos6502 memory) n m cpu1, run p cpu n = Ok (Ready cpu1) ->
      run p cpu1 m = run p cpu (n + m)).
Proof.
  intros T. specialize (T Debug (machine [] [0xea; 0xea; 0xea; 0xea] 0 0 0 0xff ps0) 1%nat 1%nat _ eq_refl).
  apply (f_equal (fun r => match r with Ok (Ready c) => reg_pc c | _ => 0 end)) in T.
  vm_compute in T. discriminate.
Qed.

(** ** C37 The example program *)
(** examples/basic.rs:14-17 (and microcode_step_capture.rs:15-18): the ROM. *)
Definition example_rom : list Z :=
  [0xa9; 0x01; 0x8d; 0x00; 0x02; 0xa9; 0x02; 0x8d; 0x01; 0x02; 0xa9; 0x03; 0x8d; 0x02; 0x02;
   0x4c; 0xea; 0xff; 0xea; 0xff; 0x00; 0x00].

(** examples/basic.rs:10-34: default CPU, ROM at 0xffea..=0xffff, RAM at
    0x0200..=0x7fff, reset, unwrap. *)
Definition example_machine (p : profile) : res (mos6502 memory) :=
  do! cpu0 <- mos6502_default p ;
  do! rom <- memory_new p ReadOnly 0xffea 0xffff ;
  match register_address_space cpu0 0xffea 0xffff (memory_load rom example_rom) with
  | None => Panic
  | Some cpu1 =>
      do! ram <- memory_new p ReadWrite 0x0200 0x7fff ;
      match register_address_space cpu1 0x0200 0x7fff ram with
      | None => Panic
      | Some cpu2 => do! s <- reset p cpu2 ; Ok (ss_unwrap s)
      end
  end.

Definition from_ok {A} (d : A) (r : res A) : A := match r with Ok a => a | Panic => d end.
Definition empty_cpu : mos6502 memory := with_addressmap [].
Definition example_state (p : profile) : mos6502 memory := from_ok empty_cpu (example_machine p).
Definition advance_one (p : profile) (cpu : mos6502 memory) : mos6502 memory :=
  from_ok empty_cpu (do! ' (_, c) <- observed_step p cpu ; Ok c).
Definition orbit (p : profile) (i : nat) : mos6502 memory := Nat.iter i (advance_one p) (example_state p).

(** What is claimed of every reachable state. *)
Definition example_inv (p : profile) (cpu : mos6502 memory) : Prop :=
  0xffea <= reg_pc cpu <= 0xfff9 /\
  let b := map (peek p (amap cpu)) [0x0200; 0x0201; 0x0202] in
  b = [0; 0; 0] \/ b = [1; 0; 0] \/ b = [1; 2; 0] \/ b = [1; 2; 3].

Definition example_invb (p : profile) (cpu : mos6502 memory) : bool :=
  (0xffea <=? reg_pc cpu) && (reg_pc cpu <=? 0xfff9) &&
  existsb (zlist_eqb (map (peek p (amap cpu)) [0x0200; 0x0201; 0x0202]))
    [[0; 0; 0]; [1; 0; 0]; [1; 2; 0]; [1; 2; 3]].
Definition steps_on (p : profile) (cpu : mos6502 memory) : bool :=
  match observed_step p cpu with Ok _ => true | Panic => false end.

Lemma example_check_starts : forall p,
  (match example_machine p with Ok _ => true | Panic => false end) = true.
Proof. intros []; vm_compute; reflexivity. Qed.
Lemma example_check_orbit : forall p,
  forallb (fun i => example_invb p (orbit p i) && steps_on p (orbit p i)) (seq 0 14) = true.
Proof. intros []; vm_compute; reflexivity. Qed.
Lemma example_check_cycle : forall p, cpu_eqb (orbit p 14) (orbit p 7) = true.
Proof. intros []; vm_compute; reflexivity. Qed.

Theorem C37_example_starts : forall p, example_machine p = Ok (example_state p).
Proof.
  intros p. assert (K := example_check_starts p).
  unfold example_state. destruct (example_machine p); [reflexivity|discriminate].
Qed.

Lemma orbit_step p i : (i < 14)%nat ->
  example_inv p (orbit p i) /\ exists c, observed_step p (orbit p i) = Ok (c, orbit p (S i)).
Proof.
  intros Hi. assert (K := example_check_orbit p).
  assert (K0 := proj1 (forallb_forall _ _) K i ltac:(apply in_seq; lia)). clear K. cbv beta in K0.
  destruct (andb_prop _ _ K0) as [K1 K2]. clear K0. split.
  - clear K2. generalize dependent (orbit p i). intros cpu K1.
    unfold example_invb in K1. rewrite !andb_true_iff in K1. destruct K1 as [[K1 K3] K4].
    split; [lia|]. cbv zeta. cbn [existsb] in K4. rewrite !orb_true_iff in K4.
    destruct K4 as [K4|[K4|[K4|[K4|K4]]]]; try discriminate; apply zlist_eqb_ok in K4; auto.
  - unfold steps_on in K2. destruct (observed_step p (orbit p i)) as [[c cpu]|] eqn:E; [|discriminate].
    exists c. f_equal. f_equal.
    change (orbit p (S i)) with (advance_one p (orbit p i)). unfold advance_one. rewrite E. reflexivity.
Qed.

Lemma orbit_cycle p : orbit p 14 = orbit p 7.
Proof. exact (cpu_eqb_ok _ _ (example_check_cycle p)). Qed.

Lemma orbit_closed p k t cpu : steps p k t (example_state p) cpu -> exists i, (i < 14)%nat /\ cpu = orbit p i.
Proof.
  assert (G : forall k t a cpu, steps p k t a cpu -> (exists i, (i < 14)%nat /\ a = orbit p i) ->
              exists i, (i < 14)%nat /\ cpu = orbit p i).
  { clear. induction 1 as [cpu|k t c cpu cpu1 cpu2 Es Hst IH]; intros Hi; [exact Hi|].
    apply IH. destruct Hi as (i & Hi & ->). destruct (orbit_step p i Hi) as [_ [c' Ec]].
    assert (E1 : cpu1 = orbit p (S i)) by congruence.
    destruct (Nat.eq_dec i 13) as [Hn|Hn].
    - exists 7%nat. split; [lia|]. rewrite E1, Hn. exact (orbit_cycle p).
    - exists (S i). split; [lia|exact E1]. }
  intros Hs. apply (G _ _ _ _ Hs). exists 0%nat. split; [lia|reflexivity].
Qed.

Theorem C37_example_runs_forever : forall p n, exists cpu,
  run p (example_state p) n = Ok (Ready cpu) /\ example_inv p cpu.
Proof.
  intros p n. destruct (run p (example_state p) n) as [s|] eqn:Er.
  - destruct (C26_run_returns_ready _ _ _ _ Er) as [cpu ->]. exists cpu. split; [reflexivity|].
    apply run_ready_iff in Er as (k & t & Hs & _). destruct (orbit_closed _ _ _ _ Hs) as (i & Hi & ->).
    exact (proj1 (orbit_step p i Hi)).
  - exfalso. apply run_panic_iff in Er as (k & t & cpu & Hs & _ & Hp).
    destruct (orbit_closed _ _ _ _ Hs) as (i & Hi & ->).
    destruct (proj2 (orbit_step p i Hi)) as [c Ec]. congruence.
Qed.

(** Every byte outside 0x0200..=0x0202 reads as after reset, for ever. *)
Definition poke (p : profile) (a v : Z) (m : address_map memory) : address_map memory :=
  match am_write p m a v with Ok (m', _) => m' | Panic => [] end.
Definition cleared (p : profile) (m : address_map memory) : address_map memory :=
  poke p 0x0202 0 (poke p 0x0201 0 (poke p 0x0200 0 m)).
Definition example_ram (a : Z) : Prop := 0x0200 <= a <= 0x0202.

Lemma example_check_cleared : forall p,
  forallb (fun i => map_eqb (cleared p (amap (orbit p i))) (amap (example_state p))) (seq 0 14) = true.
Proof. intros []; vm_compute; reflexivity. Qed.
Lemma example_check_plain : forall p,
  plain_mapb (amap (example_state p)) &&
  forallb (ram_atb (amap (example_state p))) [0x0200; 0x0201; 0x0202] = true.
Proof. intros []; vm_compute; reflexivity. Qed.
Lemma example_check_regs : forall p, regs_okb (regs_of (example_state p)) = true.
Proof. intros []; vm_compute; reflexivity. Qed.

Lemma poke_elsewhere p a v m : example_ram a -> u8 v -> plain_with example_ram m ->
  plain_with example_ram (poke p a v m) /\
  forall b, u16 b -> ~ example_ram b -> peek p (poke p a v m) b = peek p m b.
Proof.
  intros Ha Hv Hm. destruct (plain_ram_bus p example_ram) as (_ & Hw & _).
  destruct (Hw m a v Hm) as (m' & Ew & Hi & Hp); [unfold example_ram in Ha; unfold u16; lia|exact Ha|exact Hv|].
  unfold poke. rewrite Ew. split; [exact Hi|]. intros b Hb Hnb. rewrite (Hp b Hb).
  destruct (b =? a) eqn:E; [|reflexivity]. apply Z.eqb_eq in E. subst b. contradiction.
Qed.

Lemma cleared_elsewhere p m : plain_with example_ram m ->
  forall b, u16 b -> ~ example_ram b -> peek p (cleared p m) b = peek p m b.
Proof.
  intros Hm b Hb Hnb. unfold cleared.
  assert (K : forall a, 0x0200 <= a <= 0x0202 -> example_ram a) by (intros a Ha; exact Ha).
  assert (U : u8 0) by (unfold u8; lia).
  destruct (poke_elsewhere p 0x0200 0 m (K 0x0200 ltac:(lia)) U Hm) as [H1 E1].
  destruct (poke_elsewhere p 0x0201 0 _ (K 0x0201 ltac:(lia)) U H1) as [H2 E2].
  destruct (poke_elsewhere p 0x0202 0 _ (K 0x0202 ltac:(lia)) U H2) as [_ E3].
  rewrite (E3 b Hb Hnb), (E2 b Hb Hnb). exact (E1 b Hb Hnb).
Qed.

Theorem C37_example_writes_nothing_else : forall p n cpu a,
  run p (example_state p) n = Ok (Ready cpu) -> u16 a -> ~ (0x0200 <= a <= 0x0202) ->
  peek p (amap cpu) a = peek p (amap (example_state p)) a.
Proof.
  intros p n cpu a Hr Ha Hna.
  assert (W : plain_with example_ram (amap cpu)).
  { destruct (andb_prop _ _ (example_check_plain p)) as [P1 P2].
    refine (proj1 (run_bus_inv p (plain_with example_ram) example_ram (plain_ram_bus p _)
              (example_state p) n cpu _ (regs_okb_ok _ (example_check_regs p)) Hr)).
    split; [exact (plain_mapb_ok _ P1)|]. intros b Hb.
    refine (ram_atb_ok _ _ (proj1 (forallb_forall _ _) P2 b _)).
    unfold example_ram in Hb. cbn [In]. lia. }
  rewrite <- (cleared_elsewhere p (amap cpu) W a Ha Hna). f_equal.
  apply run_ready_iff in Hr as (k & t & Hs & _). destruct (orbit_closed _ _ _ _ Hs) as (i & Hi & ->).
  exact (map_eqb_ok _ _ (proj1 (forallb_forall _ _) (example_check_cleared p) i ltac:(apply in_seq; lia))).
Qed.

(** The intermediate images are reached. *)
Theorem C37_example_reaches_all : forall p,
  map (fun n => match run p (example_state p) n with
                | Ok (Ready c) => map (peek p (amap c)) [0x0200; 0x0201; 0x0202] | _ => [] end)
    [5; 6; 11; 12; 17; 18]%nat = [[0; 0; 0]; [1; 0; 0]; [1; 0; 0]; [1; 2; 0]; [1; 2; 0]; [1; 2; 3]].
Proof. intros []; vm_compute; reflexivity. Qed.

(** ** C57 (6502 part) *)
Theorem C57_builders : forall (D : Type) (cpu : mos6502 D) v s f,
  with_gp_register cpu GpAcc v
    = mkMos6502 (amap cpu) v (reg_x cpu) (reg_y cpu) (reg_sp cpu) (reg_pc cpu) (reg_ps cpu) /\
  with_gp_register cpu GpX v
    = mkMos6502 (amap cpu) (reg_acc cpu) v (reg_y cpu) (reg_sp cpu) (reg_pc cpu) (reg_ps cpu) /\
  with_gp_register cpu GpY v
    = mkMos6502 (amap cpu) (reg_acc cpu) (reg_x cpu) v (reg_sp cpu) (reg_pc cpu) (reg_ps cpu) /\
  with_sp_register cpu v
    = mkMos6502 (amap cpu) (reg_acc cpu) (reg_x cpu) (reg_y cpu) v (reg_pc cpu) (reg_ps cpu) /\
  with_pc_register cpu v
    = mkMos6502 (amap cpu) (reg_acc cpu) (reg_x cpu) (reg_y cpu) (reg_sp cpu) v (reg_ps cpu) /\
  with_ps_register cpu s
    = mkMos6502 (amap cpu) (reg_acc cpu) (reg_x cpu) (reg_y cpu) (reg_sp cpu) (reg_pc cpu) s /\
  with_owned_address_map cpu f
    = mkMos6502 (f (amap cpu)) (reg_acc cpu) (reg_x cpu) (reg_y cpu) (reg_sp cpu) (reg_pc cpu) (reg_ps cpu).
Proof. intros. repeat split. Qed.

(** Looking at the map or changing it in place: the callback sees the map that
    is registered, its answer is handed back, and the registers stay. *)
Theorem C57_map_access : forall (D B : Type) (cpu : mos6502 D) (f : address_map D -> B) (g : address_map D -> address_map D * B),
  with_address_map cpu f = f (amap cpu) /\
  with_address_map_mut cpu g =
    (mkMos6502 (fst (g (amap cpu))) (reg_acc cpu) (reg_x cpu) (reg_y cpu) (reg_sp cpu) (reg_pc cpu) (reg_ps cpu), snd (g (amap cpu))).
Proof.
  intros D B cpu f g. split; [reflexivity|]. unfold with_address_map_mut. destruct (g (amap cpu)) as [am b]. reflexivity.
Qed.

(** Registering a region changes the map only, and only as C04 says. *)
Theorem C57_register : forall (D : Type) (cpu cpu' : mos6502 D) lo hi d,
  register_address_space cpu lo hi d = Some cpu' ->
  exists am, am_register (amap cpu) lo hi d = Some am /\
    cpu' = mkMos6502 am (reg_acc cpu) (reg_x cpu) (reg_y cpu) (reg_sp cpu) (reg_pc cpu) (reg_ps cpu).
Proof.
  intros D cpu cpu' lo hi d Hr. unfold register_address_space in Hr.
  destruct (am_register (amap cpu) lo hi d) as [am|]; [|discriminate]. injection Hr as <-.
  exists am. split; reflexivity.
Qed.

Print Assumptions C26_run_ready.
Print Assumptions C26_run_panics.
Print Assumptions C26_run_returns_ready.
Print Assumptions C26_run_unique.
Print Assumptions C27_budget_law.
Print Assumptions C27_split_partial.
Print Assumptions C27_small_budget_stalls.
Print Assumptions C27_split_refuted.
Print Assumptions C28_replay.
Print Assumptions C29_registers_keep_width.
Print Assumptions C29_widths.
Print Assumptions C29_history.
Print Assumptions C30_history.
Print Assumptions C30_layout.
Print Assumptions C30_regions.
Print Assumptions C06_run_keeps_rom.
Print Assumptions C06_run_keeps_rom_bytes.
Print Assumptions C06_history_keeps_rom.
Print Assumptions C31_reset.
Print Assumptions C31_reset_as_mops.
Print Assumptions C31_run_after_reset.
Print Assumptions C37_example_starts.
Print Assumptions C37_example_runs_forever.
Print Assumptions C37_example_writes_nothing_else.
Print Assumptions C37_example_reaches_all.
Print Assumptions C57_builders.
Print Assumptions C57_map_access.
Print Assumptions C57_register.

(** ** The hypotheses are met *)
(** LDA #5; STA 0x10; INX; NOP. *)
Definition run_demo : mos6502 memory :=
  machine [] [0xa9; 0x05; 0x85; 0x10; 0xe8; 0xea; 0xea; 0xea] 0 0 0 0xff ps0.

Example C26_C31_nonvacuous :
  plain_map (amap run_demo) /\ regs_ok (regs_of run_demo) /\
  bus_reads Debug (amap run_demo) (peek Debug (amap run_demo)) /\
  exists cpu', run Debug run_demo 6 = Ok (Ready cpu') /\
    steps Debug 2 5 run_demo cpu' /\ peek Debug (amap cpu') 0x10 = 5 /\ reg_pc cpu' = 0x8004 /\
    (exists e, In e (amap run_demo) /\ mem_kind (device e) = ReadOnly) /\
    exists ms, iterate Debug 2 run_demo = Ok (ms, cpu') /\ length ms = 2%nat.
Proof.
  assert (P : plain_map (amap run_demo) /\ regs_ok (regs_of run_demo))
    by (apply machine_plain; reflexivity).
  split; [exact (proj1 P)|]. split; [exact (proj2 P)|]. split.
  { exact (proj1 (bus_peek Debug (plain_with (fun _ => False)) _ (plain_ram_bus Debug _) _
             (conj (proj1 P) (fun a (F : False) => match F with end)))). }
  eexists. split; [vm_compute; reflexivity|]. split.
  { eapply (steps_cons Debug 1 3 2); [vm_compute; reflexivity|].
    eapply (steps_cons Debug 0 0 3); [vm_compute; reflexivity|]. constructor. }
  split; [reflexivity|]. split; [reflexivity|]. split.
  { eexists. split; [right; left; reflexivity|reflexivity]. }
  eexists. split; [vm_compute; reflexivity|reflexivity].
Qed.

(** The same machine: a budget split at an instruction boundary and not (C27),
    a reset (C31), the layout (C30). *)
Example C27_case : exists cpu1 cpu2,
  run Debug run_demo 5 = Ok (Ready cpu1) /\ run Debug run_demo 9 = Ok (Ready cpu2) /\
  run Debug cpu1 4 = Ok (Ready cpu2) /\ run Debug run_demo 1 = Ok (Ready run_demo).
Proof.
  exists (cpu_with (Spec6502.mkRegs 5 0 0 0xff 0x8004 ps0) (amap (machine (repeat 0 16 ++ [5]) [0xa9; 0x05; 0x85; 0x10; 0xe8; 0xea; 0xea; 0xea] 0 0 0 0xff ps0))).
  exists (cpu_with (Spec6502.mkRegs 5 1 0 0xff 0x8006 ps0) (amap (machine (repeat 0 16 ++ [5]) [0xa9; 0x05; 0x85; 0x10; 0xe8; 0xea; 0xea; 0xea] 0 0 0 0xff ps0))).
  repeat split; vm_compute; reflexivity.
Qed.
Example C28_case : exists ms cpu' cs, iterate Debug 3 run_demo = Ok (ms, cpu') /\ expand ms = Ok cs /\ length cs = 7%nat /\
  foldM (execute_mut Debug) (concat cs) run_demo = Ok cpu' /\ reg_x cpu' = 1.
Proof.
  destruct (iterate Debug 3 run_demo) as [[ms cpu']|] eqn:E; [|vm_compute in E; discriminate].
  destruct (C28_replay Debug 3 run_demo ms cpu' E) as (cs & Ec & Ef & _).
  exists ms, cpu', cs. split; [reflexivity|]. split; [exact Ec|].
  assert (X : match iterate Debug 3 run_demo with Ok (ms, c) =>
     match expand ms with Ok cs => length cs = 7%nat /\ reg_x c = 1 | Panic => False end | Panic => False end)
    by (vm_compute; split; reflexivity).
  rewrite E, Ec in X. split; [apply X|]. split; [exact Ef|apply X].
Qed.
Example C29_history_case : exists cpu', typed_history run_demo cpu' /\ typed_registers run_demo /\
  plain_map (amap run_demo) /\ reg_x cpu' = 0xff /\ reg_pc cpu' = 0x8004.
Proof.
  exists (set_x (cpu_with (Spec6502.mkRegs 5 0 0 0xff 0x8004 ps0) (amap (machine (repeat 0 16 ++ [5; 9]) [0xa9; 0x05; 0x85; 0x10; 0xe8; 0xea; 0xea; 0xea] 0 0 0 0xff ps0))) 0xff).
  split.
  { eapply (typed_cons Debug); [eapply (typed_write Debug _ run_demo 0x8001 7); vm_compute; repeat split; congruence|].
    eapply (typed_cons Release);
      [eapply (typed_execute Release _ _ (WriteMemory 0x11 9)); [vm_compute; repeat split; congruence|vm_compute; reflexivity]|].
    eapply (typed_cons Debug); [eapply (typed_run Debug _ _ 6); vm_compute; reflexivity|].
    eapply (typed_cons Debug); [eapply (typed_execute Debug _ _ (Dec8bitRegister X 1)); [vm_compute; repeat split; congruence|vm_compute; reflexivity]|].
    apply typed_nil. }
  destruct (machine_plain [] [0xa9; 0x05; 0x85; 0x10; 0xe8; 0xea; 0xea; 0xea] 0 0 0 0xff ps0 eq_refl) as [P R].
  split; [exact R|]. split; [exact P|]. split; reflexivity.
Qed.
Example C30_case : exists cpu', history run_demo cpu' /\ cpu' <> run_demo /\
  regions (amap run_demo) = [(0, 0x3ff, ReadWrite, 0, 0x3ff, 1024%nat); (0x8000, 0x8007, ReadOnly, 0x8000, 0x8007, 8%nat)].
Proof.
  exists (set_x run_demo 7). split.
  { eapply (history_cons Debug); [|apply history_nil]. apply (used_microcode Debug _ _ (Write8bitRegister X 7)). reflexivity. }
  split; [intros E; apply (f_equal reg_x) in E; discriminate|reflexivity].
Qed.
(** A machine with a reset vector, 0x8000. *)
Definition reset_demo : mos6502 memory :=
  mkMos6502 [mkEntry 0xfff0 0xffff (mkMemory ReadOnly 0xfff0 0xffff (repeat 0xea 12 ++ [0xf2; 0xff; 0; 0]))]
    1 2 3 4 5 (ps_with_value 0xff).
Example C31_case : bus_reads Release (amap reset_demo) (peek Release (amap reset_demo)) /\
  reset Release reset_demo = Ok (NotReady 5 (cpu_with (Spec6502.mkRegs 0 0 0 0xff 0xfff2 initial_status) (amap reset_demo))).
Proof.
  split; [|vm_compute; reflexivity].
  assert (P : plain_map (amap reset_demo)).
  { split.
    - apply disjoint_cons_rev; [apply disjoint_nil|]. intros b _ e [].
    - repeat constructor; vm_compute; congruence. }
  exact (proj1 (bus_peek Release (plain_with (fun _ => False)) _ (plain_ram_bus Release _) _
             (conj P (fun a (F : False) => match F with end)))).
Qed.
Example C57_case : exists cpu,
  register_address_space run_demo 0x4000 0x4001 (mkMemory ReadWrite 0x4000 0x4001 [1; 2]) = Some cpu /\
  register_address_space run_demo 0x0300 0x4001 (mkMemory ReadWrite 0x0300 0x4001 []) = None /\
  peek Debug (amap cpu) 0x4001 = 2 /\ reg_pc (with_pc_register cpu 0x4000) = 0x4000.
Proof. eexists. split; [reflexivity|]. vm_compute. repeat split. Qed.

(** A write to the ROM, a microcode operation that writes to RAM, then a run. *)
Example C06_history_nonvacuous : exists cpu',
  history run_demo cpu' /\ disjoint (amap run_demo) /\ reg_pc cpu' = 0x8004 /\
  (exists e, In e (amap run_demo) /\ mem_kind (device e) = ReadOnly /\ covers e 0x8001) /\
  am_read Debug (amap cpu') 0x8001 = Ok 5 /\ am_read Debug (amap cpu') 0x11 = Ok 9.
Proof.
  eexists. split.
  { eapply (history_cons Debug); [eapply (used_write Debug _ run_demo 0x8001 7); vm_compute; reflexivity|].
    eapply (history_cons Release);
      [eapply (used_microcode Release _ _ (WriteMemory 0x11 9)); vm_compute; reflexivity|].
    eapply (history_cons Debug); [eapply (used_run Debug _ _ 6); vm_compute; reflexivity|].
    apply history_nil. }
  split; [exact (proj1 (proj1 (machine_plain [] [0xa9; 0x05; 0x85; 0x10; 0xe8; 0xea; 0xea; 0xea] 0 0 0 0xff ps0 eq_refl)))|].
  split; [reflexivity|]. split; [|split; reflexivity].
  eexists. split; [right; left; reflexivity|]. split; [reflexivity|unfold covers; cbn; lia].
Qed.
