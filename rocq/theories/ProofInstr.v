(** Consequences of the step refinement for single instructions. *)
From Verif Require Import Base Arith ModelMap ModelRegs6502 ModelCpu6502 ModelOperand
  ModelIsa6502 ModelRun6502 SpecMap ProofMap Link6502 ProofOperand ProofStep6502 ProofRun6502 ProofBus
  SpecInstr.
From Verif Require Import Spec6502.

Lemma unchecked_mod p v a : 0 <= v -> unchecked p 65536 v = Some a -> a = v mod 65536.
Proof.
  unfold unchecked. intros H0. destruct (v <? 65536) eqn:E.
  - intros E'. injection E' as <-. lia.
  - destruct p; [discriminate|]. intros E'. injection E' as <-. reflexivity.
Qed.

Lemma stack_small s : u8 s -> stack s = 256 + s.
Proof. unfold u8, stack. lia. Qed.

Section Instr.
Context {D : Type} `{Device D}.
Implicit Type cpu : mos6502 D.

Lemma about_step p cpu rd mn m c b1 b2 : about_to p cpu rd mn m c b1 b2 ->
  observed_step p cpu = spec_outcome p cpu (execute p mn m c (regs_of cpu) rd b1 b2).
Proof.
  intros (Hr & Hb & Hv & Hp & Hd & -> & ->).
  rewrite (next_refines p cpu rd Hr Hb Hv). f_equal. unfold step.
  destruct Hr as (_ & _ & _ & _ & Hpc). cbn [regs_of rPC] in *. unfold u16 in Hpc.
  assert (E : forall k, 0 <= k <= 2 ->
            unchecked p 65536 (reg_pc cpu + k) = Some ((reg_pc cpu + k) mod 65536)).
  { intros k Hk. unfold unchecked. destruct (reg_pc cpu + k <? 65536) eqn:E.
    - f_equal. lia.
    - destruct Hp as [->|Hp]; [reflexivity|]. lia. }
  rewrite (E 1), (E 2), Hd by lia. reflexivity.
Qed.

(** Conversely, a step that succeeds on a readable bus was about to execute a
    documented instruction. *)
Lemma step_about p cpu rd c cpu' : regs_ok (regs_of cpu) -> bus_reads p (amap cpu) rd ->
  byte_valued rd -> observed_step p cpu = Ok (c, cpu') ->
  exists mn m c0 b1 b2, about_to p cpu rd mn m c0 b1 b2.
Proof.
  intros Hr Hb Hv Hs. assert (Hs' := Hs). rewrite (next_refines p cpu rd Hr Hb Hv) in Hs'.
  unfold step in Hs'. assert (Hr' := Hr). destruct Hr as (_ & _ & _ & _ & Hpc).
  cbn [regs_of rPC] in *. unfold u16 in Hpc.
  destruct (unchecked p 65536 (reg_pc cpu + 1)) as [a1|] eqn:E1; [|discriminate].
  destruct (unchecked p 65536 (reg_pc cpu + 2)) as [a2|] eqn:E2; [|discriminate].
  destruct (decode (rd (reg_pc cpu))) as [[[mn m] c0]|] eqn:Ed; [|discriminate].
  exists mn, m, c0. do 2 eexists. split; [exact Hr'|]. split; [exact Hb|]. split; [exact Hv|].
  split; [|split; [exact Ed|split; reflexivity]].
  destruct p; [right|left; reflexivity].
  unfold unchecked in E2. destruct (reg_pc cpu + 2 <? 65536) eqn:E; [lia|discriminate].
Qed.

Lemma about_mode p cpu rd mn m c b1 b2 : about_to p cpu rd mn m c b1 b2 ->
  In (rd (reg_pc cpu), (mn, m, c)) opcode_table.
Proof.
  intros (_ & _ & _ & _ & Hd & _). unfold decode in Hd.
  destruct (find _ opcode_table) as [[k d]|] eqn:E; [|discriminate]. injection Hd as ->.
  apply find_some in E as [Hin E]. cbn in E. apply Z.eqb_eq in E. subst k. exact Hin.
Qed.

Lemma about_bytes p cpu rd mn m c b1 b2 : about_to p cpu rd mn m c b1 b2 -> u8 b1 /\ u8 b2.
Proof. intros (_ & _ & Hv & _ & _ & -> & ->). split; apply Hv, u16_mod. Qed.

Lemma about_regs p cpu rd mn m c b1 b2 : about_to p cpu rd mn m c b1 b2 ->
  u8 (reg_acc cpu) /\ u8 (reg_x cpu) /\ u8 (reg_y cpu) /\ u8 (reg_sp cpu) /\ u16 (reg_pc cpu).
Proof. intros (Hr & _). exact Hr. Qed.

Lemma operand_is_u8 p cpu rd mn m c b1 b2 v : about_to p cpu rd mn m c b1 b2 ->
  operand_is p cpu rd m b1 b2 v -> u8 v.
Proof.
  intros Ha Ho. destruct (about_bytes _ _ _ _ _ _ _ _ Ha) as [H1 H2].
  destruct Ha as (Hr & _ & Hv & _). exact (operand_value_u8 _ _ _ _ _ _ _ Hv Hr H1 H2 Ho).
Qed.

Lemma operand_at_u16 p cpu rd mn m c b1 b2 a : about_to p cpu rd mn m c b1 b2 ->
  operand_at p cpu rd m b1 b2 a -> u16 a.
Proof.
  intros Ha Ho. destruct (about_bytes _ _ _ _ _ _ _ _ Ha) as [H1 H2].
  destruct Ha as (Hr & _ & Hv & _). exact (operand_address_u16 _ _ _ _ _ _ _ Hv Hr H1 H2 Ho).
Qed.

(** Shapes of [execute] for the instruction classes. *)
Lemma becomes_read p cpu rd mn m c b1 b2 v f : about_to p cpu rd mn m c b1 b2 ->
  execute p mn m c (regs_of cpu) rd b1 b2 = read_op p m (regs_of cpu) rd b1 b2 c f ->
  operand_is p cpu rd m b1 b2 v ->
  becomes p cpu (cpu_with (advance m (f (regs_of cpu) v)) (amap cpu)).
Proof.
  intros Ha He Ho. unfold becomes. rewrite (about_step _ _ _ _ _ _ _ _ Ha), He.
  unfold read_op. unfold operand_is in Ho. rewrite Ho. cbn. eexists. reflexivity.
Qed.

Lemma becomes_implied p cpu rd mn m c b1 b2 r : about_to p cpu rd mn m c b1 b2 ->
  execute p mn m c (regs_of cpu) rd b1 b2 = implied_op r c ->
  becomes p cpu (cpu_with (advance Implied r) (amap cpu)).
Proof.
  intros Ha He. unfold becomes. rewrite (about_step _ _ _ _ _ _ _ _ Ha), He. cbn.
  eexists. reflexivity.
Qed.

Lemma becomes_store p cpu rd mn m c b1 b2 a v : about_to p cpu rd mn m c b1 b2 ->
  execute p mn m c (regs_of cpu) rd b1 b2 = store_op p m (regs_of cpu) rd b1 b2 c v ->
  operand_at p cpu rd m b1 b2 a ->
  match am_write p (amap cpu) a v with
  | Ok (am, WOk _) => becomes p cpu (cpu_with (advance m (regs_of cpu)) am)
  | _ => observed_step p cpu = Panic
  end.
Proof.
  intros Ha He Ho. unfold becomes. rewrite (about_step _ _ _ _ _ _ _ _ Ha), He.
  unfold store_op. unfold operand_at in Ho. rewrite Ho. cbn.
  destruct (am_write p (amap cpu) a v) as [[am [w|]]|]; eauto.
Qed.

Lemma becomes_modify p cpu rd mn m c b1 b2 a f : about_to p cpu rd mn m c b1 b2 ->
  execute p mn m c (regs_of cpu) rd b1 b2 = modify_op p m (regs_of cpu) rd b1 b2 c f ->
  operand_at p cpu rd m b1 b2 a ->
  match am_write p (amap cpu) a (fst (f (regs_of cpu) (rd a))) with
  | Ok (am, WOk _) => becomes p cpu (cpu_with (advance m (snd (f (regs_of cpu) (rd a)))) am)
  | _ => observed_step p cpu = Panic
  end.
Proof.
  intros Ha He Ho. unfold becomes. rewrite (about_step _ _ _ _ _ _ _ _ Ha), He.
  assert (E : modify_op p m (regs_of cpu) rd b1 b2 c f =
              let '(v, r') := f (regs_of cpu) (rd a) in Some (mkEffect (advance m r') [(a, v)] c)).
  { unfold operand_at in Ho. destruct m; cbn [modify_op]; try (rewrite Ho; reflexivity); discriminate. }
  rewrite E. destruct (f (regs_of cpu) (rd a)) as [v r']. cbn.
  destruct (am_write p (amap cpu) a v) as [[am [w|]]|]; eauto.
Qed.

Lemma becomes_modify_acc p cpu rd mn c b1 b2 f : about_to p cpu rd mn Accumulator c b1 b2 ->
  execute p mn Accumulator c (regs_of cpu) rd b1 b2
    = modify_op p Accumulator (regs_of cpu) rd b1 b2 c f ->
  becomes p cpu (cpu_with (advance Accumulator
    (withA (snd (f (regs_of cpu) (reg_acc cpu))) (fst (f (regs_of cpu) (reg_acc cpu))))) (amap cpu)).
Proof.
  intros Ha He. unfold becomes. rewrite (about_step _ _ _ _ _ _ _ _ Ha), He. cbn [modify_op].
  change (rA (regs_of cpu)) with (reg_acc cpu).
  destruct (f (regs_of cpu) (reg_acc cpu)) as [v r']. cbn. eexists. reflexivity.
Qed.
End Instr.

Lemma becomes_det {D} `{Device D} p (cpu c1 c2 : mos6502 D) :
  becomes p cpu c1 -> becomes p cpu c2 -> c1 = c2.
Proof. intros [k1 H1] [k2 H2]. congruence. Qed.

(** [becomes] is decided by any known successor. *)
Lemma becomes_iff {D} `{Device D} p (cpu c1 c2 : mos6502 D) :
  becomes p cpu c1 -> (becomes p cpu c2 <-> c1 = c2).
Proof.
  intros H1. split; [intros H2; exact (becomes_det _ _ _ _ H1 H2)|intros <-; exact H1].
Qed.
