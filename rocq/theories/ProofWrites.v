(** The device writes of the emulator's instructions are the stores of the
    specification machine. *)
From Verif Require Import Base Arith ModelMap ModelStep ModelRegs6502 ModelCpu6502 ModelOperand ModelIsa6502 ModelOps6502 ModelRun6502
  ModelIo ModelOpsIo6502 ModelTrace ModelBus SpecMap Link6502 Spec6502 SpecBus SpecProgram ProofStep6502 ProofRun6502 ProofBus ProofBusStep ProofBusMap
  ProofProgram PropertiesTrace.

(** Only shifts work on the accumulator. *)
Definition shifts (mn : mnemonic) : bool := match mn with Asl | Lsr | Rol | Ror => true | _ => false end.
Lemma accumulator_shifts op mn c : decode op = Some (mn, Accumulator, c) -> shifts mn = true.
Proof.
  intros H. assert (Hin : In (op, (mn, Accumulator, c)) opcode_table).
  { unfold decode in H. destruct (find (fun row => fst row =? op) opcode_table) as [[b r']|] eqn:E; [|discriminate].
    apply find_some in E. destruct E as [Hin Hb]. cbn [fst] in Hb. apply Z.eqb_eq in Hb. subst b. injection H as ->. exact Hin. }
  assert (T : forallb (fun x => match x with (_, (mn, Accumulator, _)) => shifts mn | _ => true end) opcode_table = true) by reflexivity.
  rewrite forallb_forall in T. exact (T _ Hin).
Qed.

Section Quiet.
Context {S : Type} (b : bus S) (s : S) (f : Z -> Z) (p : profile).
Context (Hread : forall a, u16 a -> b_read b s a = Ok (f a, s)) (Hf : byte_valued f).

Lemma quiet_ask a : u16 a -> ask b a s = Ok (f a, s).
Proof. apply Hread. Qed.
Lemma quiet_address m r b1 b2 a : regs_ok r -> u8 b1 -> u8 b2 -> operand_address p m r f b1 b2 = Some a ->
  bus_address b p m r b1 b2 s = Ok (a, s) /\ u16 a.
Proof.
  intros (_ & HX & HY & _) H1 H2 E. unfold u8 in *.
  destruct m; cbn [operand_address bus_address] in *; try discriminate; try (injection E as <-; split; [reflexivity|unfold word, u16; lia]).
  - unfold after. rewrite (quiet_ask b1) by (unfold u16; lia). rewrite (quiet_ask ((b1 + 1) mod 256)) by (unfold u16; lia). rewrite E.
    split; [reflexivity|]. pose proof (Hf b1 ltac:(unfold u16; lia)) as F1. pose proof (Hf ((b1 + 1) mod 256) ltac:(unfold u16; lia)) as F2. unfold u8 in *.
    apply (unchecked_range p) in E; unfold word, u16 in *; lia.
  - unfold after. rewrite quiet_ask by (unfold u16; lia). destruct (unchecked p 256 (rX r + 1)); [|discriminate]. injection E as <-. cbn [given done].
    rewrite quiet_ask by (unfold u16; lia). split; [reflexivity|].
    pose proof (Hf ((b1 + rX r) mod 256) ltac:(unfold u16; lia)) as F1. pose proof (Hf ((b1 + rX r + 1) mod 256) ltac:(unfold u16; lia)) as F2.
    unfold u8, word, u16 in *. lia.
Qed.
Lemma quiet_read m r b1 b2 c g e : regs_ok r -> u8 b1 -> u8 b2 -> m <> Accumulator -> read_op p m r f b1 b2 c g = Some e ->
  bus_read_op b p m r b1 b2 c g s = Ok (e, s).
Proof.
  intros Hr H1 H2 Hm E. unfold read_op in E.
  assert (G : forall a, operand_address p m r f b1 b2 = Some a -> e = mkEffect (advance m (g r (f a))) [] (c + read_penalty m b1 b2 a) ->
    after (bus_address b p m r b1 b2) (fun a => after (ask b a) (fun v => done (mkEffect (advance m (g r v)) [] (c + read_penalty m b1 b2 a)))) s = Ok (e, s)).
  { intros a Ea ->. destruct (quiet_address m r b1 b2 a Hr H1 H2 Ea) as [E1 U]. unfold after. rewrite E1, (quiet_ask a U). reflexivity. }
  destruct m; try contradiction; cbn [operand_value] in E; unfold bus_read_op;
    try (match type of E with context [operand_address ?q ?m' r f b1 b2] =>
           destruct (operand_address q m' r f b1 b2) as [a|] eqn:Ea; [|discriminate]; injection E as <-; exact (G a eq_refl eq_refl) end).
  injection E as <-. cbn [operand_address]. rewrite Nat.add_0_r. reflexivity.
Qed.
Lemma quiet_store m r b1 b2 c v e : regs_ok r -> u8 b1 -> u8 b2 -> store_op p m r f b1 b2 c v = Some e -> bus_store_op b p m r b1 b2 c v s = Ok (e, s).
Proof.
  intros Hr H1 H2 E. unfold store_op in E. destruct (operand_address p m r f b1 b2) as [a|] eqn:Ea; [|discriminate]. injection E as <-.
  destruct (quiet_address m r b1 b2 a Hr H1 H2 Ea) as [E1 U]. unfold bus_store_op, after. rewrite E1. reflexivity.
Qed.
Lemma quiet_modify m r b1 b2 c g e : regs_ok r -> u8 b1 -> u8 b2 -> modify_op p m r f b1 b2 c g = Some e -> bus_modify_op b p m r b1 b2 c g s = Ok (e, s).
Proof.
  intros Hr H1 H2 E.
  assert (G : match operand_address p m r f b1 b2 with
      | None => None
      | Some a => let '(v, r') := g r (f a) in Some (mkEffect (advance m r') [(a, v)] c) end = Some e ->
    after (bus_address b p m r b1 b2) (fun a => after (ask b a) (fun old => let '(v, r') := g r old in done (mkEffect (advance m r') [(a, v)] c))) s = Ok (e, s)).
  { intros E'. destruct (operand_address p m r f b1 b2) as [a|] eqn:Ea; [|discriminate].
    destruct (quiet_address m r b1 b2 a Hr H1 H2 Ea) as [E1 U]. unfold after. rewrite E1, (quiet_ask a U). destruct (g r (f a)) as [v r']. injection E' as <-. reflexivity. }
  unfold modify_op in E. unfold bus_modify_op. destruct m; try exact (G E). destruct (g r (rA r)) as [v r']. injection E as <-. reflexivity.
Qed.
Lemma quiet_execute op mn m c r b1 b2 e : regs_ok r -> u8 b1 -> u8 b2 -> decode op = Some (mn, m, c) ->
  execute p mn m c r f b1 b2 = Some e -> bus_execute b p mn m c r b1 b2 s = Ok (e, s).
Proof.
  intros Hr H1 H2 Hd E.
  assert (Hm : shifts mn = false -> m <> Accumulator). { intros K ->. rewrite (accumulator_shifts _ _ _ Hd) in K. discriminate. }
  destruct mn; unfold execute in E; unfold bus_execute;
    try (exact (quiet_read _ _ _ _ _ _ _ Hr H1 H2 (Hm eq_refl) E)); try (exact (quiet_store _ _ _ _ _ _ _ Hr H1 H2 E));
    try (exact (quiet_modify _ _ _ _ _ _ _ Hr H1 H2 E)); try (unfold given; unfold execute; rewrite E; reflexivity).
  all: unfold after; rewrite ?(quiet_ask (stack _)) by (unfold stack, u16; lia).
  all: try (rewrite !(quiet_ask 0xfffe), !(quiet_ask 0xffff) by (unfold u16; lia)).
  all: try (injection E as <-; reflexivity).
  (* JMP *)
  destruct m; try (injection E as <-; reflexivity).
  rewrite (quiet_ask (word b1 b2)) by (unfold word, u8, u16 in *; lia).
  destruct (unchecked p 65536 (word b1 b2 + 1)) as [a|] eqn:Eu; [|discriminate]. cbn [given done]. apply (unchecked_range p) in Eu; [|unfold word, u8 in *; lia|lia].
  rewrite quiet_ask by (unfold u16; lia). injection E as <-. reflexivity.
Qed.
Lemma quiet_effect r e : regs_ok r -> step p r f = Some e -> bus_effect b p r s = Ok (e, s).
Proof.
  intros Hr E. unfold step in E. unfold bus_effect, bus_fetch, after.
  assert (Hpc : u16 (rPC r)) by apply Hr. rewrite (quiet_ask _ Hpc). unfold u16 in Hpc.
  destruct (unchecked p 65536 (rPC r + 1)) as [a1|] eqn:E1; [|discriminate]. apply (unchecked_range p) in E1; [|lia|lia]. cbn [given done]. rewrite (quiet_ask a1) by (unfold u16; lia).
  destruct (unchecked p 65536 (rPC r + 2)) as [a2|] eqn:E2; [|discriminate]. apply (unchecked_range p) in E2; [|lia|lia]. cbn [given done]. rewrite (quiet_ask a2) by (unfold u16; lia).
  unfold done. destruct (decode (f (rPC r))) as [[[mn m] c]|] eqn:Hd; [|discriminate].
  eapply quiet_execute; [exact Hr| | |exact Hd|exact E]; apply Hf; unfold u16; lia.
Qed.
End Quiet.

(** ** The address map as a bus of bytes *)
Section Map.
Context {D : Type} `{Device D}.
Definition byte_map (p : profile) : bus (address_map D) :=
  mkBus (fun m a => do! v <- am_read p m a ; if (0 <=? v) && (v <? 256) then Ok (v, m) else Panic) (b_write (map_bus p)).
Lemma byte_map_bytes p : byte_bus (byte_map p).
Proof.
  intros m a v m' E. cbn [byte_map b_read] in E. destruct (am_read p m a) as [x|]; cbn [bind] in E; [|discriminate].
  destruct ((0 <=? x) && (x <? 256)) eqn:K; [|discriminate]. unfold u8. assert (x = v) by congruence. lia.
Qed.
Lemma answer_more p {A} (x : io A) : forall m a, answer (byte_map p) x m = Ok (a, m) -> answer (map_bus p) x m = Ok (a, m).
Proof.
  induction x as [a0| |addr k IH]; intros m a E; cbn [answer] in *; try exact E.
  cbn [byte_map map_bus b_read] in *. destruct (am_read p m addr) as [v|]; cbn [bind] in *; [|discriminate].
  destruct ((0 <=? v) && (v <? 256)); [|discriminate]. cbn [bind] in *. apply IH. exact E.
Qed.
Lemma next_stores p I ram (cpu cpu' : mos6502 D) r f e m : ram_bus p I ram -> machine_with p I cpu r f -> step p r f = Some e ->
  next p cpu = Ok (m, cpu') -> stores_of m = e_stores e.
Proof.
  intros Hb M E En. pose proof (machine_bytes p I ram cpu r f Hb M) as Hf. destruct M as (Hi & Hr & Er & Hp).
  assert (Rd : forall a, u16 a -> b_read (byte_map p) (amap cpu) a = Ok (f a, amap cpu)).
  { intros a Ha. destruct Hb as (R & _). destruct (R _ a Hi Ha) as (v & Ev & Hv). cbn [byte_map b_read]. rewrite Ev. cbn [bind].
    rewrite <- (Hp a Ha). unfold peek. rewrite Ev. unfold u8 in Hv. replace ((0 <=? v) && (v <? 256)) with true by lia. reflexivity. }
  pose proof (quiet_effect (byte_map p) (amap cpu) f p Rd Hf r e Hr E) as Q.
  assert (Er' : regs_of (core_of cpu) = r) by (rewrite <- Er; reflexivity).
  pose proof Hr as (HA & HX & HY & HS & HPC). rewrite <- Er' in HA, HX, HY, HS, HPC.
  pose proof (effect_agrees (byte_map p) p (core_of cpu) (byte_map_bytes p) HA HX HY HS HPC (amap cpu)) as G. rewrite Er', Q in G.
  destruct (answer (byte_map p) (generate_next p (core_of cpu)) (amap cpu)) as [[mops m1]|] eqn:Ea; cbn [effect_of] in G; [|discriminate].
  destruct (operations_into_cycles mops) as [cs|] eqn:Ec; [|discriminate]. destruct (foldM (reg_exec p) (concat cs) (core_of cpu)) as [c1|]; [|discriminate].
  assert (m1 = amap cpu) by congruence. subst m1. apply answer_more in Ea.
  rewrite next_map in En. unfold next_bus in En. rewrite Ea in En. cbn [bind] in En. rewrite Ec in En. cbn [bind] in En.
  destruct (foldM (execute_bus (map_bus p) p) (concat cs) (core_of cpu, amap cpu)) as [st|] eqn:Ef; cbn [bind] in En; [|discriminate].
  assert (mops = m) by congruence. subst mops.
  assert (En' : next p cpu = Ok (m, cpu')).
  { rewrite next_map. unfold next_bus. rewrite Ea. cbn [bind]. rewrite Ec. cbn [bind]. rewrite Ef. exact En. }
  destruct (next_inv _ _ _ _ En') as (j & _ & Ec' & _). rewrite Ec in Ec'. injection Ec' as ->.
  assert (K : flat_map bus_writes (concat (repeat [] j ++ [ops_microcode m ++ [Inc16bitRegister Pc (ops_offset m mod 65536)]])) = e_stores e) by (injection G as <-; reflexivity).
  rewrite flat_writes_nil, flat_map_app in K. cbn [flat_map bus_writes app] in K. rewrite app_nil_r in K. exact K.
Qed.
End Map.
