(** C136: what the examples compute, for every number of cycles. *)
From Verif Require Import Base Arith ModelMap ModelStep ModelRegs6502 ModelCpu6502 ModelOperand
  ModelIsa6502 ModelRun6502 SpecMap ProofMap Link6502 ProofRun6502 ProofBus ProofReplay
  SpecInstr ProofInstr Demo6502 SpecUse PropertiesRun6502.

(** ** The examples *)
(** examples/basic.rs:10-41, [main], with [n] for its 1,000,000 cycles: the
    machine that is printed. *)
Definition basic_example (p : profile) (n : nat) : res (mos6502 memory) :=
  do! cpu <- example_machine p ; do! s <- run p cpu n ; Ok (ss_unwrap s).
(** examples/microcode_step_capture.rs:11-55, [main], with [n] for its
    1,000,000 cycles: the microcode of [n] cycles of a clone is collected first
    ([flat_map(..).take(n).flatten().collect()]) and then folded over the
    original.  The machine is built by the same code as in basic.rs. *)
Definition capture_example (p : profile) (n : nat) : res (mos6502 memory) :=
  do! cpu <- example_machine p ;
  do! states <- take_cycles p n [] cpu ;
  foldM (execute_mut p) (concat states) cpu.

(** ** What they compute *)
(** The loop is LDA #1; STA 0200; LDA #2; STA 0201; LDA #3; STA 0202; JMP, of 2,
    4, 2, 4, 2, 4 and 3 cycles: 21 in all.  An instruction has its effect in
    its last cycle. *)
Definition pc_at (n : nat) : Z :=
  let k := (n mod 21)%nat in
  if (k <? 2)%nat then 0xffea else if (k <? 6)%nat then 0xffec else if (k <? 8)%nat then 0xffef else if (k <? 12)%nat then 0xfff1
  else if (k <? 14)%nat then 0xfff4 else if (k <? 18)%nat then 0xfff6 else 0xfff9.
Definition acc_at (n : nat) : Z :=
  if (n <? 2)%nat then 0 else
  let k := (n mod 21)%nat in
  if (k <? 2)%nat then 3 else if (k <? 8)%nat then 1 else if (k <? 14)%nat then 2 else 3.
Definition bytes_at_cycle (n : nat) : list Z :=
  [if (n <? 6)%nat then 0 else 1; if (n <? 12)%nat then 0 else 2; if (n <? 18)%nat then 0 else 3].
(** The machine after [n] cycles. *)
Definition as_foretold (p : profile) (n : nat) (cpu : mos6502 memory) : Prop :=
  reg_pc cpu = pc_at n /\ reg_acc cpu = acc_at n /\ reg_x cpu = 0 /\ reg_y cpu = 0 /\ reg_sp cpu = 255 /\ ps_read (reg_ps cpu) = 32 /\
  map (peek p (amap cpu)) [0x0200; 0x0201; 0x0202] = bytes_at_cycle n /\
  forall a, u16 a -> ~ (0x0200 <= a <= 0x0202) -> peek p (amap cpu) a = peek p (amap (example_state p)) a.

(** ** Proof *)
Definition cycles_of (i : nat) : nat := nth (i mod 7) [2; 4; 2; 4; 2; 4; 3]%nat 0%nat.
Definition prefix (m : nat) : nat := nth m [0; 2; 6; 8; 12; 14; 18; 21]%nat 0%nat.
Lemma orbit_check : forall p, forallb (fun i => match observed_step p (orbit p i) with Ok (c, _) => (c =? cycles_of i)%nat | Panic => false end) (seq 0 14) = true.
Proof. intros []; vm_compute; reflexivity. Qed.
Lemma orbit_cycles p i : (i < 14)%nat -> observed_step p (orbit p i) = Ok (cycles_of i, orbit p (S i)).
Proof.
  intros Hi. destruct (orbit_step p i Hi) as [_ [c Ec]]. rewrite Ec. f_equal. f_equal.
  pose proof (proj1 (forallb_forall _ _) (orbit_check p) i ltac:(apply in_seq; lia)) as K. cbv beta in K. rewrite Ec in K. apply Nat.eqb_eq. exact K.
Qed.
Lemma lap p b m : b = 0%nat \/ b = 7%nat -> (m <= 7)%nat -> steps p m (prefix m) (orbit p b) (orbit p (b + m)).
Proof.
  intros Hb. induction m as [|m IH]; intros Hm; [rewrite Nat.add_0_r; constructor|]. specialize (IH ltac:(lia)).
  assert (One : steps p 1 (cycles_of (b + m) + 0) (orbit p (b + m)) (orbit p (S (b + m)))) by (econstructor; [apply orbit_cycles; lia|constructor]).
  pose proof (steps_app p _ _ _ _ IH _ _ _ One) as K. rewrite Nat.add_1_r in K. rewrite Nat.add_succ_r.
  replace (prefix (S m)) with (prefix m + (cycles_of (b + m) + 0))%nat; [exact K|]. clear - Hb Hm.
  destruct Hb as [-> | ->]; do 7 (destruct m as [|m]; [reflexivity|]); lia.
Qed.
Definition base (j : nat) : nat := match j with O => 0%nat | S _ => 7%nat end.
Lemma laps p j : steps p (j * 7) (j * 21) (example_state p) (orbit p (base j)).
Proof.
  induction j as [|j IH]; [constructor|].
  assert (Hb : base j = 0%nat \/ base j = 7%nat) by (destruct j; auto).
  pose proof (lap p (base j) 7 Hb (le_n _)) as L. pose proof (steps_app p _ _ _ _ IH _ _ _ L) as K.
  replace (S j * 7)%nat with (j * 7 + 7)%nat by lia. replace (S j * 21)%nat with (j * 21 + prefix 7)%nat by (cbn [prefix nth]; lia).
  cbn [base]. destruct j as [|j]; [exact K|]. cbn [base] in K. change (7 + 7)%nat with 14%nat in K. rewrite orbit_cycle in K. exact K.
Qed.

Definition seen (p : profile) (cpu : mos6502 memory) : list Z :=
  [reg_pc cpu; reg_acc cpu; reg_x cpu; reg_y cpu; reg_sp cpu; ps_read (reg_ps cpu)] ++ map (peek p (amap cpu)) [0x0200; 0x0201; 0x0202].
Definition foretold (n : nat) : list Z := [pc_at n; acc_at n; 0; 0; 255; 32] ++ bytes_at_cycle n.
Lemma seen_check : forall p, forallb (fun i => zlist_eqb (seen p (orbit p i)) (foretold (if (i <? 7)%nat then prefix i else 21 + prefix (i - 7)))) (seq 0 14) = true.
Proof. intros []; vm_compute; reflexivity. Qed.
Lemma orbit_seen p j m : (m < 7)%nat -> seen p (orbit p (base j + m)) = foretold (match j with O => 0 | S _ => 21 end + prefix m).
Proof.
  intros Hm. assert (Hi : (base j + m < 14)%nat) by (destruct j; cbn [base]; lia).
  pose proof (proj1 (forallb_forall _ _) (seen_check p) (base j + m)%nat ltac:(apply in_seq; lia)) as K. cbv beta in K. apply zlist_eqb_ok in K. rewrite K.
  f_equal. destruct j; cbn [base].
  - replace (0 + m <? 7)%nat with true by lia. reflexivity.
  - replace (7 + m <? 7)%nat with false by lia. f_equal. f_equal. lia.
Qed.
(** Nothing changes between the ends of instructions, or from lap to lap. *)
Lemma foretold_same j i m : (m < 7)%nat -> (prefix m <= i < prefix (S m))%nat -> foretold (j * 21 + i) = foretold (match j with O => 0 | S _ => 21 end + prefix m).
Proof.
  intros Hm Hi. assert (Hlt : (i < 21)%nat) by (do 7 (destruct m as [|m]; [cbn in Hi; lia|]); lia).
  assert (M1 : ((j * 21 + i) mod 21 = i)%nat) by (rewrite Nat.add_comm, Nat.mod_add by lia; apply Nat.mod_small; exact Hlt).
  assert (M2 : ((match j with O => 0 | S _ => 21 end + prefix m) mod 21 = prefix m)%nat).
  { assert (prefix m < 21)%nat by lia. destruct j; [apply Nat.mod_small; assumption|]. rewrite Nat.add_comm, <- (Nat.mul_1_l 21) at 1. rewrite Nat.mod_add by lia. apply Nat.mod_small. assumption. }
  unfold foretold, pc_at, acc_at, bytes_at_cycle. rewrite M1, M2.
  assert (J : j = 0%nat \/ (1 <= j)%nat) by lia.
  destruct m as [|[|[|[|[|[|[|m]]]]]]]; [..|lia]; cbn [prefix nth] in *;
    (destruct j as [|j];
     repeat match goal with |- context[(?x <? ?y)%nat] => first [replace (x <? y)%nat with true by lia | replace (x <? y)%nat with false by lia] end; reflexivity).
Qed.

(** The exact state after any number of cycles. *)
Theorem C136_at_every_cycle : forall p n, exists cpu, run p (example_state p) n = Ok (Ready cpu) /\ as_foretold p n cpu.
Proof.
  intros p n. pose proof (Nat.div_mod n 21 ltac:(lia)) as En. pose proof (Nat.mod_upper_bound n 21 ltac:(lia)) as Hi.
  set (j := (n / 21)%nat) in *. set (i := (n mod 21)%nat) in *. clearbody i j.
  assert (exists m, (m < 7)%nat /\ (prefix m <= i < prefix (S m))%nat) as (m & Hm & Hr).
  { assert (i < 2 \/ 2 <= i < 6 \/ 6 <= i < 8 \/ 8 <= i < 12 \/ 12 <= i < 14 \/ 14 <= i < 18 \/ 18 <= i < 21)%nat as [K|[K|[K|[K|[K|[K|K]]]]]] by lia;
      [exists 0%nat|exists 1%nat|exists 2%nat|exists 3%nat|exists 4%nat|exists 5%nat|exists 6%nat]; cbn [prefix nth]; lia. }
  assert (Hb : base j = 0%nat \/ base j = 7%nat) by (destruct j; auto).
  exists (orbit p (base j + m)). split; [|].
  - apply run_ready_iff. exists (j * 7 + m)%nat, (j * 21 + prefix m)%nat. split; [exact (steps_app p _ _ _ _ (laps p j) _ _ _ (lap p (base j) m Hb ltac:(lia)))|].
    split; [lia|]. right. exists (cycles_of (base j + m)), (orbit p (S (base j + m))). split; [apply orbit_cycles; lia|].
    assert (E : prefix (S m) = (prefix m + cycles_of (base j + m))%nat).
    { clear - Hb Hm. destruct Hb as [-> | ->]; do 7 (destruct m as [|m]; [reflexivity|]); lia. }
    lia.
  - assert (S : seen p (orbit p (base j + m)) = foretold n).
    { rewrite orbit_seen by exact Hm. rewrite <- (foretold_same j i m Hm Hr). f_equal. lia. }
    unfold seen, foretold in S. cbn [app map] in S. injection S as S1 S2 S3 S4 S5 S6 S7 S8 S9.
    split; [exact S1|]. split; [exact S2|]. split; [exact S3|]. split; [exact S4|]. split; [exact S5|]. split; [exact S6|].
    split; [cbn [map]; rewrite S7, S8, S9; reflexivity|]. intros a Ha Hna.
    apply (C37_example_writes_nothing_else p (j * 21 + prefix m) (orbit p (base j + m)) a); [|exact Ha|exact Hna].
    apply run_ready_iff. exists (j * 7 + m)%nat, (j * 21 + prefix m)%nat. split; [exact (steps_app p _ _ _ _ (laps p j) _ _ _ (lap p (base j) m Hb ltac:(lia)))|].
    split; [lia|]. left. reflexivity.
Qed.

Lemma orbit_same p : orbit p 13 = orbit p 6.
Proof. apply cpu_eqb_ok. destruct p; vm_compute; reflexivity. Qed.

(** From the 18th cycle on the machine comes back to the same state every 21 cycles. *)
Theorem C136_period : forall p n, (18 <= n)%nat -> run p (example_state p) (n + 21) = run p (example_state p) n.
Proof.
  intros p n Hn. pose proof (lap p 7 7 (or_intror eq_refl) (le_n _)) as L. cbn [prefix nth] in L. change (7 + 7)%nat with 14%nat in L. rewrite orbit_cycle in L.
  destruct (le_lt_dec 21 n) as [Hge|Hlt].
  - destruct (C27_split_partial p (example_state p) _ _ _ (n - 21 + 21) (laps p 1)) as [_ E1]. destruct (C27_split_partial p (example_state p) _ _ _ (n - 21) (laps p 1)) as [_ E2].
    change (1 * 21)%nat with 21%nat in E1, E2. cbn [base] in E1, E2. replace (21 + (n - 21 + 21))%nat with (n + 21)%nat in E1 by lia. replace (21 + (n - 21))%nat with n in E2 by lia.
    rewrite E1, E2. destruct (C27_split_partial p (orbit p 7) _ _ _ (n - 21) L) as [_ E3]. rewrite (Nat.add_comm (n - 21) 21). exact E3.
  - (* in the last instruction of the first lap *)
    assert (G : forall j, run p (example_state p) (j * 21 + n) = Ok (Ready (orbit p (base j + 6)))).
    { intros j. assert (Hb : base j = 0%nat \/ base j = 7%nat) by (destruct j; auto).
      apply run_ready_iff. exists (j * 7 + 6)%nat, (j * 21 + prefix 6)%nat. split; [exact (steps_app p _ _ _ _ (laps p j) _ _ _ (lap p (base j) 6 Hb ltac:(lia)))|].
      cbn [prefix nth]. split; [lia|]. right. exists (cycles_of (base j + 6)), (orbit p (S (base j + 6))). split; [apply orbit_cycles; lia|].
      assert (cycles_of (base j + 6) = 3%nat) by (destruct Hb as [-> | ->]; reflexivity). lia. }
    pose proof (G 0%nat) as G0. pose proof (G 1%nat) as G1. change (0 * 21 + n)%nat with n in G0. change (1 * 21 + n)%nat with (21 + n)%nat in G1. change (base 0 + 6)%nat with 6%nat in G0. change (base 1 + 6)%nat with 13%nat in G1. rewrite (Nat.add_comm n 21). rewrite G1, G0, orbit_same.
    reflexivity.
Qed.

(** Both examples print the machine foretold for their number of cycles. *)
Theorem C136_examples_print : forall p n, exists cpu, basic_example p n = Ok cpu /\ capture_example p n = Ok cpu /\ as_foretold p n cpu.
Proof.
  intros p n. destruct (C136_at_every_cycle p n) as (cpu & E & F). exists cpu. unfold basic_example, capture_example. rewrite C37_example_starts. cbn [bind].
  rewrite E. cbn [bind ss_unwrap]. split; [reflexivity|]. split; [|exact F]. unfold run in E. destruct (take_cycles p n [] (example_state p)) as [cs|]; [|discriminate E].
  cbn [bind] in *. destruct (foldM (execute_mut p) (concat cs) (example_state p)) as [c|]; [|discriminate E]. cbn [bind] in E. injection E as ->. reflexivity.
Qed.

(** With the 1,000,000 cycles of the sources: one cycle into the first
    instruction, with A = 3 and 1, 2, 3 in memory. *)
Example C136_case : forall p, exists cpu, basic_example p (Z.to_nat 1000000) = Ok cpu /\ capture_example p (Z.to_nat 1000000) = Ok cpu /\
  reg_pc cpu = 0xffea /\ reg_acc cpu = 3 /\ map (peek p (amap cpu)) [0x0200; 0x0201; 0x0202] = [1; 2; 3].
Proof.
  intros p. destruct (C136_examples_print p (Z.to_nat 1000000)) as (cpu & E1 & E2 & (F1 & F2 & _ & _ & _ & _ & F3 & _)). exists cpu.
  split; [exact E1|]. split; [exact E2|]. rewrite F1, F2, F3. clear.
  assert (M : (Z.to_nat 1000000 mod 21 = 1)%nat).
  { replace (Z.to_nat 1000000) with (1 + Z.to_nat 47619 * 21)%nat by lia. rewrite Nat.mod_add by lia. reflexivity. }
  unfold pc_at, acc_at, bytes_at_cycle. rewrite M.
  replace (Z.to_nat 1000000 <? 2)%nat with false by lia. replace (Z.to_nat 1000000 <? 6)%nat with false by lia.
  replace (Z.to_nat 1000000 <? 12)%nat with false by lia. replace (Z.to_nat 1000000 <? 18)%nat with false by lia. repeat split.
Qed.

Print Assumptions C136_at_every_cycle.
Print Assumptions C136_period.
Print Assumptions C136_examples_print.
