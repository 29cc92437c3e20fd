(** C86: a register or flag that is set before it is looked at does not matter. *)
From Verif Require Import Base Arith ModelMap ModelStep ModelRegs6502 ModelCpu6502 ModelOperand ModelIsa6502
  ModelRun6502 SpecMap Link6502 ProofStep6502 ProofRun6502 ProofBus SpecInstr ProofInstr ProofFrame PropertiesFrame Demo6502.
From Verif Require Import Spec6502 SpecFrame SpecLive.

(** ** One instruction on registers *)
Lemma execute_used p mn m c r r2 rd b1 b2 : possible mn m = true -> rPC r = rPC r2 ->
  Forall (same r r2) (emulator_looks_at mn m) ->
  match execute p mn m c r rd b1 b2, execute p mn m c r2 rd b1 b2 with
  | Some e, Some e2 => e_stores e = e_stores e2 /\ e_cycles e = e_cycles e2 /\ rPC (e_regs e) = rPC (e_regs e2) /\
      Forall (same (e_regs e) (e_regs e2)) (sets mn m)
  | None, None => True
  | _, _ => False
  end.
Proof.
  intros Hp Hpc H. destruct r as [A X Y S PC [fc fz fi fd fb fu fv fn]].
  destruct r2 as [A2 X2 Y2 S2 PC2 [gc gz gi gd gb gu gv gn]].
  cbn [rPC] in Hpc. subst PC2.
  destruct mn, m; try discriminate Hp;
    cbn [emulator_looks_at looks_at mode_looks_at mnemonic_looks_at flags_used map app] in H;
    repeat match type of H with
    | Forall _ (_ :: _) => let H1 := fresh in apply Forall_cons_iff in H; destruct H as [H1 H];
        cbn [same get flag_of rA rX rY rS rP ps_carry ps_zero ps_interrupt_disable ps_decimal ps_brk ps_unused ps_overflow ps_negative] in H1;
        try subst
    end; clear H;
    unfold execute, read_op, store_op, modify_op, implied_op, branch_op, operand_value, operand_address;
    cbn [rA rX rY rS rP rPC ps_carry ps_zero ps_interrupt_disable ps_decimal ps_brk ps_unused ps_overflow ps_negative];
    try match goal with |- context [if ?b then _ else _] => match type of b with bool => destruct b end end;
    try match goal with |- context [unchecked ?q ?b ?v] => destruct (unchecked q b v) end.
  all: try exact I; repeat split; repeat constructor.
Qed.

Lemma same_dec mn m (x : part) : {In x (sets mn m)} + {~ In x (sets mn m)}.
Proof. apply in_dec. intros a b. decide equality; decide equality. Qed.

Lemma unset_same p mn m c r rd b1 b2 e : possible mn m = true -> execute p mn m c r rd b1 b2 = Some e ->
  forall x, ~ In x (sets mn m) -> same (e_regs e) r x.
Proof.
  intros Hp He x Hx. destruct (execute_registers _ _ _ _ _ _ _ _ _ Hp He) as [R F].
  unfold sets in Hx. rewrite in_app_iff in Hx. destruct x as [y|f]; cbn [same].
  - apply R. intros H. apply Hx. left. apply in_map, H.
  - apply F. intros H. apply Hx. right. apply in_map, H.
Qed.

Lemma same_trans r1 r2 r3 x : same r1 r2 x -> same r2 r3 x -> same r1 r3 x.
Proof. destruct x; cbn [same]; congruence. Qed.
Lemma same_sym r1 r2 x : same r1 r2 x -> same r2 r1 x.
Proof. destruct x; cbn [same]; congruence. Qed.

(** ** C86 *)
Section Live.
Context {D : Type} {dev : Device D}.

(** The same instruction on another machine. *)
Lemma about_other p (cpu cpu2 : mos6502 D) rd mn m c b1 b2 : about_to p cpu rd mn m c b1 b2 ->
  regs_ok (regs_of cpu2) -> amap cpu2 = amap cpu -> reg_pc cpu2 = reg_pc cpu -> about_to p cpu2 rd mn m c b1 b2.
Proof.
  intros (H1 & H2 & H3 & H4 & H5 & H6 & H7) Hr Ha Hpc. unfold about_to. rewrite Ha, Hpc.
  repeat (split; [assumption|]). assumption.
Qed.

(** Two machines with the same memory and PC that agree on what the next
    instruction looks at (and, for DEY, on X): it takes the same time, does the
    same to memory, goes on at the same place and leaves the same in whatever
    it sets; what it does not set is as it was. Or it panics on both. *)
Theorem C86_one_instruction_exact : forall p (cpu cpu2 : mos6502 D) rd mn m c b1 b2,
  about_to p cpu rd mn m c b1 b2 ->
  regs_ok (regs_of cpu2) -> amap cpu2 = amap cpu -> reg_pc cpu2 = reg_pc cpu ->
  (forall x, In x (emulator_looks_at mn m) -> same (regs_of cpu) (regs_of cpu2) x) ->
  match observed_step p cpu, observed_step p cpu2 with
  | Ok (n, cpu'), Ok (n2, cpu2') =>
      n2 = n /\ amap cpu2' = amap cpu' /\ reg_pc cpu2' = reg_pc cpu' /\
      forall x, In x (sets mn m) \/ same (regs_of cpu) (regs_of cpu2) x -> same (regs_of cpu') (regs_of cpu2') x
  | Panic, Panic => True
  | _, _ => False
  end.
Proof.
  intros p cpu cpu2 rd mn m c b1 b2 Ha Hr2 Hm Hpc Hs.
  assert (Ha2 := about_other _ _ _ _ _ _ _ _ _ Ha Hr2 Hm Hpc).
  rewrite (about_step _ _ _ _ _ _ _ _ Ha), (about_step _ _ _ _ _ _ _ _ Ha2).
  assert (Hp : possible mn m = true) by (destruct Ha as (_ & _ & _ & _ & Hd & _); exact (decode_possible _ _ _ _ Hd)).
  assert (U := execute_used p mn m c (regs_of cpu) (regs_of cpu2) rd b1 b2 Hp (eq_sym Hpc) (proj2 (Forall_forall _ _) Hs)).
  destruct (execute p mn m c (regs_of cpu) rd b1 b2) as [e|] eqn:E1,
    (execute p mn m c (regs_of cpu2) rd b1 b2) as [e2|] eqn:E2; try contradiction; [|exact I].
  destruct U as (Es & Ec & Ep & Ef). unfold spec_outcome. rewrite Hm, <- Es.
  destruct (store_all p (amap cpu) (e_stores e)) as [m'|]; [|exact I].
  split; [congruence|]. split; [reflexivity|]. split; [symmetry; exact Ep|].
  rewrite !regs_of_cpu_with. intros x Hx. rewrite Forall_forall in Ef.
  destruct (same_dec mn m x) as [H|H]; [exact (Ef x H)|]. destruct Hx as [Hx|Hx]; [contradiction|].
  refine (same_trans _ _ _ _ (unset_same _ _ _ _ _ _ _ _ _ Hp E1 x H) (same_trans _ _ _ _ Hx _)).
  apply same_sym. exact (unset_same _ _ _ _ _ _ _ _ _ Hp E2 x H).
Qed.

(** With the documented table, for every instruction but DEY. *)
Theorem C86_one_instruction_partial : forall p (cpu cpu2 : mos6502 D) rd mn m c b1 b2,
  about_to p cpu rd mn m c b1 b2 -> mn <> Dey ->
  regs_ok (regs_of cpu2) -> amap cpu2 = amap cpu -> reg_pc cpu2 = reg_pc cpu ->
  (forall x, In x (looks_at mn m) -> same (regs_of cpu) (regs_of cpu2) x) ->
  match observed_step p cpu, observed_step p cpu2 with
  | Ok (n, cpu'), Ok (n2, cpu2') =>
      n2 = n /\ amap cpu2' = amap cpu' /\ reg_pc cpu2' = reg_pc cpu' /\
      forall x, In x (sets mn m) \/ same (regs_of cpu) (regs_of cpu2) x -> same (regs_of cpu') (regs_of cpu2') x
  | Panic, Panic => True
  | _, _ => False
  end.
Proof.
  intros p cpu cpu2 rd mn m c b1 b2 Ha Hd Hr2 Hm Hpc Hs.
  apply (C86_one_instruction_exact p cpu cpu2 rd mn m c b1 b2 Ha Hr2 Hm Hpc).
  intros x Hx. apply Hs. unfold emulator_looks_at in Hx. apply in_app_iff in Hx. destruct Hx as [Hx|Hx]; [exact Hx|].
  destruct mn; try contradiction Hx. contradiction Hd. reflexivity.
Qed.

Lemma step_regs_ok p (cpu : mos6502 D) rd mn m c b1 b2 n cpu' : about_to p cpu rd mn m c b1 b2 ->
  observed_step p cpu = Ok (n, cpu') -> regs_ok (regs_of cpu').
Proof.
  intros Ha Es. assert (Ee := about_step _ _ _ _ _ _ _ _ Ha). destruct (about_bytes _ _ _ _ _ _ _ _ Ha) as [H1 H2].
  destruct Ha as (Hr & _ & Hv & _). rewrite Es in Ee. unfold spec_outcome in Ee.
  destruct (execute p mn m c (regs_of cpu) rd b1 b2) as [e|] eqn:E1; [|discriminate].
  destruct (store_all p (amap cpu) (e_stores e)) as [m'|]; [|discriminate].
  injection Ee as _ ->. change (mkMos6502 m' _ _ _ _ _ _) with (cpu_with (e_regs e) m'). rewrite regs_of_cpu_with.
  exact (proj1 (execute_ok _ _ _ _ _ _ _ _ _ Hv Hr H1 H2 E1)).
Qed.

(** A sequence of instructions: two machines with the same memory and PC that
    agree on what is looked at before it is set, and on what is wanted and
    never set, execute the same instructions in the same time, and agree in
    the end on memory, PC and what is wanted. *)
Theorem C86_sequence : forall p l wanted t (cpu cpu' cpu2 : mos6502 D),
  executes p l t cpu cpu' ->
  regs_ok (regs_of cpu2) -> amap cpu2 = amap cpu -> reg_pc cpu2 = reg_pc cpu ->
  (forall x, matters l wanted x -> same (regs_of cpu) (regs_of cpu2) x) ->
  exists cpu2', executes p l t cpu2 cpu2' /\ run p cpu2 t = Ok (Ready cpu2') /\
    amap cpu2' = amap cpu' /\ reg_pc cpu2' = reg_pc cpu' /\
    forall x, wanted x -> same (regs_of cpu') (regs_of cpu2') x.
Proof.
  assert (St : forall p l t (cpu cpu' : mos6502 D), executes p l t cpu cpu' -> steps p (length l) t cpu cpu').
  { intros p l t cpu cpu' H. induction H; cbn [length]; econstructor; eassumption. }
  assert (K : forall p l wanted t (cpu cpu' cpu2 : mos6502 D), executes p l t cpu cpu' ->
    regs_ok (regs_of cpu2) -> amap cpu2 = amap cpu -> reg_pc cpu2 = reg_pc cpu ->
    (forall x, matters l wanted x -> same (regs_of cpu) (regs_of cpu2) x) ->
    exists cpu2', executes p l t cpu2 cpu2' /\ amap cpu2' = amap cpu' /\ reg_pc cpu2' = reg_pc cpu' /\
      forall x, wanted x -> same (regs_of cpu') (regs_of cpu2') x).
  { intros p l wanted t cpu cpu' cpu2 He. revert cpu2.
    induction He as [cpu|mn m l n t cpu rd c b1 b2 cpu1 cpu' Ha Es He IH]; intros cpu2 Hr2 Hm Hpc Hs.
    - exists cpu2. split; [constructor|]. auto.
    - cbn [matters] in Hs.
      assert (X := C86_one_instruction_exact p cpu cpu2 rd mn m c b1 b2 Ha Hr2 Hm Hpc (fun x H => Hs x (or_introl H))).
      assert (Ha2 := about_other _ _ _ _ _ _ _ _ _ Ha Hr2 Hm Hpc).
      rewrite Es in X. destruct (observed_step p cpu2) as [[n2 cpu21]|] eqn:Es2; [|contradiction].
      destruct X as (-> & Hm1 & Hpc1 & Hs1).
      destruct (IH cpu21 (step_regs_ok _ _ _ _ _ _ _ _ _ _ Ha2 Es2) Hm1 Hpc1) as (cpu2' & E & R).
      + intros x Hx. apply Hs1. destruct (same_dec mn m x) as [H|H]; [left; exact H|right].
        apply Hs. right. split; assumption.
      + exists cpu2'. split; [|exact R]. econstructor; eassumption. }
  intros p l wanted t cpu cpu' cpu2 He Hr2 Hm Hpc Hs.
  destruct (K _ _ _ _ _ _ _ He Hr2 Hm Hpc Hs) as (cpu2' & E & R). exists cpu2'. split; [exact E|]. split; [|exact R].
  apply run_ready_iff. exists (length l), t. split; [exact (St _ _ _ _ _ E)|]. split; [lia|left; reflexivity].
Qed.

(** If nothing at all matters, the machines end up the same. *)
Corollary C86_same_end : forall p l t (cpu cpu' cpu2 : mos6502 D),
  executes p l t cpu cpu' ->
  regs_ok (regs_of cpu2) -> amap cpu2 = amap cpu -> reg_pc cpu2 = reg_pc cpu ->
  (forall x, matters l (fun _ => True) x -> same (regs_of cpu) (regs_of cpu2) x) ->
  run p cpu2 t = Ok (Ready cpu').
Proof.
  intros p l t cpu cpu' cpu2 He Hr2 Hm Hpc Hs.
  destruct (C86_sequence p l (fun _ => True) t cpu cpu' cpu2 He Hr2 Hm Hpc Hs) as (cpu2' & _ & R & Em & Ep & Es).
  rewrite R. f_equal. f_equal.
  assert (A := Es (Reg RA) I). assert (X := Es (Reg RX) I). assert (Y := Es (Reg RY) I). assert (S := Es (Reg RS) I).
  assert (F1 := Es (Flag FC) I). assert (F2 := Es (Flag FZ) I). assert (F3 := Es (Flag FI) I). assert (F4 := Es (Flag FD) I).
  assert (F5 := Es (Flag FB) I). assert (F6 := Es (Flag FU) I). assert (F7 := Es (Flag FV) I). assert (F8 := Es (Flag FN) I).
  destruct cpu' as [m' a x y s pc [ ]], cpu2' as [m2 a2 x2 y2 s2 pc2 [ ]].
  cbn in *. congruence.
Qed.
End Live.

(** C73 over any number of instructions: a flag that none of them looks at has
    no influence, whether or not one of them sets it. *)
Theorem C73_unused_flag_run : forall D (dev : Device D) p l t (cpu cpu' : mos6502 D) f v,
  executes p l t cpu cpu' -> Forall (fun i => ~ In f (flags_used (fst i))) l ->
  run p (with_flag f v cpu) t =
    Ok (Ready (if existsb (fun i => flag_in f (flags_changed (fst i))) l then cpu' else with_flag f v cpu')).
Proof.
  intros D dev p l t cpu cpu' f v He Hl.
  assert (K : steps p (length l) t (with_flag f v cpu)
    (if existsb (fun i => flag_in f (flags_changed (fst i))) l then cpu' else with_flag f v cpu')).
  { induction He as [cpu|mn m l n t cpu rd c b1 b2 cpu1 cpu' Ha Es He IH]; cbn [existsb length fst].
    - constructor.
    - apply Forall_cons_iff in Hl. destruct Hl as [H1 Hl]. cbn [fst] in H1.
      assert (X := C73_unused_flag D dev p cpu rd mn m c b1 b2 f v Ha H1). rewrite Es in X.
      destruct (flag_in f (flags_changed mn)); cbn [orb].
      + econstructor; [exact X|]. clear -He. induction He; cbn [length]; econstructor; eassumption.
      + econstructor; [exact X|]. exact (IH Hl). }
  apply run_ready_iff. exists (length l), t. split; [exact K|]. split; [lia|left; reflexivity].
Qed.

(** DEY and X: the documented table does not list X. *)
Theorem C86_dey_refuted :
  ~ (forall p (cpu cpu2 : mos6502 memory) rd mn m c b1 b2,
      about_to p cpu rd mn m c b1 b2 ->
      regs_ok (regs_of cpu2) -> amap cpu2 = amap cpu -> reg_pc cpu2 = reg_pc cpu ->
      (forall x, In x (looks_at mn m) -> same (regs_of cpu) (regs_of cpu2) x) ->
      forall n cpu' n2 cpu2', observed_step p cpu = Ok (n, cpu') -> observed_step p cpu2 = Ok (n2, cpu2') ->
      forall x, In x (sets mn m) -> same (regs_of cpu') (regs_of cpu2') x).
Proof.
  intros T.
  assert (A : about_to Debug (machine [] [0x88] 0 1 5 0xff ps0) (bytes_at Debug [] [0x88] 0 1 5 0xff ps0) Dey Implied 2 0 0)
    by (apply machine_about; vm_compute; reflexivity).
  destruct (machine_plain [] [0x88] 0 7 5 0xff ps0 eq_refl) as [_ B].
  assert (L : forall x, In x (looks_at Dey Implied) ->
    same (regs_of (machine [] [0x88] 0 1 5 0xff ps0)) (regs_of (machine [] [0x88] 0 7 5 0xff ps0)) x).
  { intros x [<-|[]]. reflexivity. }
  specialize (T Debug _ (machine [] [0x88] 0 7 5 0xff ps0) _ _ _ _ _ _ A B eq_refl eq_refl L).
  destruct (observed_step Debug (machine [] [0x88] 0 1 5 0xff ps0)) as [[n cpu']|] eqn:E1; [|vm_compute in E1; discriminate].
  destruct (observed_step Debug (machine [] [0x88] 0 7 5 0xff ps0)) as [[n2 cpu2']|] eqn:E2; [|vm_compute in E2; discriminate].
  specialize (T _ _ _ _ eq_refl eq_refl (Flag FZ) (or_intror (or_introl eq_refl))). cbn [same flag_of regs_of rP] in T.
  assert (F1 : ps_zero (reg_ps cpu') = true).
  { change cpu' with (snd (n, cpu')). assert (X : match observed_step Debug (machine [] [0x88] 0 1 5 0xff ps0) with
      Ok (_, c) => ps_zero (reg_ps c) | Panic => false end = true) by (vm_compute; reflexivity). rewrite E1 in X. exact X. }
  assert (F2 : ps_zero (reg_ps cpu2') = false).
  { assert (X : match observed_step Debug (machine [] [0x88] 0 7 5 0xff ps0) with
      Ok (_, c) => ps_zero (reg_ps c) | Panic => true end = false) by (vm_compute; reflexivity). rewrite E2 in X. exact X. }
  congruence.
Qed.

(** ** A case: code that puts every register in order
      LDX #$FF / TXS / LDX #3 / LDY #2 / LDA #1 / CLC / CLI / CLD / CLV *)
Definition tidy : list Z := [0xa2; 0xff; 0x9a; 0xa2; 3; 0xa0; 2; 0xa9; 1; 0x18; 0x58; 0xd8; 0xb8].
Definition tidy_path : list (mnemonic * addressing_mode) :=
  [(Ldx, Immediate); (Txs, Implied); (Ldx, Immediate); (Ldy, Immediate); (Lda, Immediate);
   (Clc, Implied); (Cli, Implied); (Cld, Implied); (Clv, Implied)].
Definition tidy_map : address_map memory := amap (machine [] tidy 0 0 0 0 ps0).

Lemma executes_plain p (cpu cpu1 cpu' : mos6502 memory) mn m c l n t :
  plain_map (amap cpu) -> regs_ok (regs_of cpu) -> reg_pc cpu <= 0xfffd ->
  decode (peek p (amap cpu) (reg_pc cpu)) = Some (mn, m, c) -> observed_step p cpu = Ok (n, cpu1) ->
  executes p l t cpu1 cpu' -> executes p ((mn, m) :: l) (n + t) cpu cpu'.
Proof.
  intros Hp Hr Hpc Hd Es He.
  assert (Hw : plain_with (fun _ => False) (amap cpu)) by (split; [exact Hp|intros b []]).
  destruct (bus_peek p _ _ (plain_ram_bus p (fun _ => False)) _ Hw) as [Hb Hv].
  refine (executes_step _ _ _ _ _ _ _ _ _ _ _ _ _ _ Es He).
  exact (conj Hr (conj Hb (conj Hv (conj (or_intror Hpc) (conj Hd (conj eq_refl eq_refl)))))).
Qed.

Definition part_eq (x y : part) : {x = y} + {x <> y}.
Proof. decide equality; decide equality. Defined.
Definition has (x : part) (l : list part) : bool := if in_dec part_eq x l then true else false.
Fixpoint checked (l : list (mnemonic * addressing_mode)) (x : part) : bool :=
  match l with
  | [] => true
  | (mn, m) :: l' => has x (emulator_looks_at mn m) || (checked l' x && negb (has x (sets mn m)))
  end.
Lemma matters_checked l w x : matters l w x -> checked l x = true.
Proof.
  revert x. induction l as [|[mn m] l IH]; intros x H; cbn [matters checked] in *; [reflexivity|].
  unfold has. destruct H as [H|[H1 H2]].
  - destruct (in_dec part_eq x (emulator_looks_at mn m)); [reflexivity|contradiction].
  - apply IH in H1. rewrite H1. destruct (in_dec part_eq x (sets mn m)); [contradiction|]. apply Bool.orb_true_r.
Qed.

(** Whatever is in the registers, after these 18 cycles they hold 1, 3, 2 and
    $FF, with the flags clear but for B and the unused one, which are as they
    were. *)
Example C86_tidy : forall p a x y s ps, u8 a -> u8 x -> u8 y -> u8 s ->
  run p (machine [] tidy a x y s ps) 18 =
    Ok (Ready (cpu_with (mkRegs 1 3 2 0xff 0x800d (mkPs false false false false (ps_brk ps) (ps_unused ps) false false))
      (amap (machine [] tidy a x y s ps)))).
Proof.
  intros p a x y s [fc fz fi fd fb fu fv fn] Ha Hx Hy Hs. cbn [ps_brk ps_unused].
  destruct (machine_plain [] tidy 0 0 0 0 (mkPs false false false false fb fu false false) eq_refl) as [Hp Hr].
  assert (M : amap (machine [] tidy a x y s (mkPs fc fz fi fd fb fu fv fn))
    = amap (machine [] tidy 0 0 0 0 (mkPs false false false false fb fu false false))) by reflexivity.
  apply (C86_same_end p tidy_path 18 (machine [] tidy 0 0 0 0 (mkPs false false false false fb fu false false))).
  - assert (G : forall r, regs_ok r -> regs_ok (regs_of (cpu_with r tidy_map))) by (intros r H; rewrite regs_of_cpu_with; exact H).
    refine (executes_plain p _ (cpu_with (mkRegs 0 255 0 0 0x8002 (mkPs false false false false fb fu false true)) tidy_map) _ _ _ 2 _ 2 16 _ _ _ _ _ _);
      [exact Hp|exact Hr|vm_compute; discriminate|vm_compute; reflexivity|destruct p; vm_compute; reflexivity|].
    refine (executes_plain p _ (cpu_with (mkRegs 0 255 0 255 0x8003 (mkPs false false false false fb fu false true)) tidy_map) _ _ _ 2 _ 2 14 _ _ _ _ _ _);
      [exact Hp|apply G; repeat split; vm_compute; congruence|vm_compute; discriminate|vm_compute; reflexivity|destruct p; vm_compute; reflexivity|].
    refine (executes_plain p _ (cpu_with (mkRegs 0 3 0 255 0x8005 (mkPs false false false false fb fu false false)) tidy_map) _ _ _ 2 _ 2 12 _ _ _ _ _ _);
      [exact Hp|apply G; repeat split; vm_compute; congruence|vm_compute; discriminate|vm_compute; reflexivity|destruct p; vm_compute; reflexivity|].
    refine (executes_plain p _ (cpu_with (mkRegs 0 3 2 255 0x8007 (mkPs false false false false fb fu false false)) tidy_map) _ _ _ 2 _ 2 10 _ _ _ _ _ _);
      [exact Hp|apply G; repeat split; vm_compute; congruence|vm_compute; discriminate|vm_compute; reflexivity|destruct p; vm_compute; reflexivity|].
    refine (executes_plain p _ (cpu_with (mkRegs 1 3 2 255 0x8009 (mkPs false false false false fb fu false false)) tidy_map) _ _ _ 2 _ 2 8 _ _ _ _ _ _);
      [exact Hp|apply G; repeat split; vm_compute; congruence|vm_compute; discriminate|vm_compute; reflexivity|destruct p; vm_compute; reflexivity|].
    refine (executes_plain p _ (cpu_with (mkRegs 1 3 2 255 0x800a (mkPs false false false false fb fu false false)) tidy_map) _ _ _ 2 _ 2 6 _ _ _ _ _ _);
      [exact Hp|apply G; repeat split; vm_compute; congruence|vm_compute; discriminate|vm_compute; reflexivity|destruct p; vm_compute; reflexivity|].
    refine (executes_plain p _ (cpu_with (mkRegs 1 3 2 255 0x800b (mkPs false false false false fb fu false false)) tidy_map) _ _ _ 2 _ 2 4 _ _ _ _ _ _);
      [exact Hp|apply G; repeat split; vm_compute; congruence|vm_compute; discriminate|vm_compute; reflexivity|destruct p; vm_compute; reflexivity|].
    refine (executes_plain p _ (cpu_with (mkRegs 1 3 2 255 0x800c (mkPs false false false false fb fu false false)) tidy_map) _ _ _ 2 _ 2 2 _ _ _ _ _ _);
      [exact Hp|apply G; repeat split; vm_compute; congruence|vm_compute; discriminate|vm_compute; reflexivity|destruct p; vm_compute; reflexivity|].
    refine (executes_plain p _ (cpu_with (mkRegs 1 3 2 255 0x800d (mkPs false false false false fb fu false false)) tidy_map) _ _ _ 2 _ 2 0 _ _ _ _ _ _);
      [exact Hp|apply G; repeat split; vm_compute; congruence|vm_compute; discriminate|vm_compute; reflexivity|destruct p; vm_compute; reflexivity|].
    constructor.
  - refine (conj Ha (conj Hx (conj Hy (conj Hs _)))). cbn. unfold u16. lia.
  - exact M.
  - reflexivity.
  - intros x0 Hm. apply matters_checked in Hm. destruct x0 as [[]|[]]; try reflexivity; vm_compute in Hm; discriminate.
Qed.

Print Assumptions C73_unused_flag_run.
Print Assumptions C86_one_instruction_exact.
Print Assumptions C86_one_instruction_partial.
Print Assumptions C86_sequence.
Print Assumptions C86_same_end.
Print Assumptions C86_dey_refuted.
