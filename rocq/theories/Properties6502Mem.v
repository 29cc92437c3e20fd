(** Properties C25 and C32-C36: stack page, refused stores, cycle penalties,
    address wrap-around, every program counter, cycle bounds. *)
From Verif Require Import Base Arith ModelMap ModelStep ModelRegs6502 ModelCpu6502 ModelOperand
  ModelIsa6502 ModelRun6502 SpecMap ProofMap Link6502 ProofOperand ProofStep6502 ProofRun6502 ProofBus
  SpecInstr ProofInstr Demo6502.
From Verif Require Import Spec6502.

Ltac demo := apply machine_about; [reflexivity|vm_compute; reflexivity|reflexivity|reflexivity].

(** Documented number of bytes an instruction pushes and pulls. *)
Definition pushes (mn : mnemonic) : Z :=
  match mn with Pha | Php => 1 | Jsr => 2 | Brk => 3 | _ => 0 end.
Definition pulls (mn : mnemonic) : Z :=
  match mn with Pla | Plp => 1 | Rts => 2 | Rti => 3 | _ => 0 end.

(** Every instruction whose operand is a memory byte it writes. *)
Definition writes_operand (mn : mnemonic) (m : addressing_mode) : bool :=
  stores_operand mn || (modifies_operand mn && match m with Accumulator => false | _ => true end).

Section Mem.
Context {D : Type} `{Device D}.
Implicit Types (cpu : mos6502 D) (m : addressing_mode) (c : nat).

(** ** C25 *)
(** The stores of an instruction that pushes are exactly the next stack slots. *)
Lemma push_stores p cpu rd mn m c b1 b2 e : about_to p cpu rd mn m c b1 b2 -> 0 < pushes mn ->
  execute p mn m c (regs_of cpu) rd b1 b2 = Some e ->
  map fst (e_stores e) = map (stack_slot (reg_sp cpu)) (map Z.of_nat (seq 0 (Z.to_nat (pushes mn)))).
Proof.
  intros Ha Hp He. destruct mn; cbn [pushes] in Hp; try lia;
    cbn [execute] in He; injection He as <-;
    cbn [e_stores map fst pushes regs_of rS];
    try change (Z.to_nat 1) with 1%nat; try change (Z.to_nat 2) with 2%nat;
    try change (Z.to_nat 3) with 3%nat;
    cbn [seq map Z.of_nat Pos.of_succ_nat Pos.succ]; unfold stack_slot, stack;
    rewrite ?Z.sub_0_r; reflexivity.
Qed.

(** Pushes write page one only, at SP, SP-1, ... (mod 256); every other byte of
    the 64 KiB is as before. *)
Theorem C25_pushes_stay_in_page_one : forall p (I : address_map D -> Prop) ram cpu rd mn m c b1 b2 cpu',
  ram_bus p I ram -> (forall k, ram (stack_slot (reg_sp cpu) k)) -> I (amap cpu) ->
  about_to p cpu rd mn m c b1 b2 -> 0 < pushes mn -> becomes p cpu cpu' ->
  forall b, u16 b -> (forall k, 0 <= k < pushes mn -> b <> stack_slot (reg_sp cpu) k) ->
  peek p (amap cpu') b = peek p (amap cpu) b.
Proof.
  intros p I ram cpu rd mn m c b1 b2 cpu' Hbus Hram Hi Ha Hp [t Hs] b Hb Hn.
  rewrite (about_step _ _ _ _ _ _ _ _ Ha) in Hs. unfold spec_outcome in Hs.
  destruct (execute p mn m c (regs_of cpu) rd b1 b2) as [e|] eqn:He; [|discriminate].
  assert (Hst := push_stores _ _ _ _ _ _ _ _ _ Ha Hp He).
  assert (Hok : stores_ok (e_stores e)).
  { destruct (about_bytes _ _ _ _ _ _ _ _ Ha) as [H1 H2]. destruct Ha as (Hr & _ & Hv & _).
    destruct (execute_ok p mn m c (regs_of cpu) rd b1 b2 e Hv Hr H1 H2 He) as [_ K]. exact K. }
  assert (Hin : Forall (fun a => ram a /\ b <> a) (map fst (e_stores e))).
  { rewrite Hst. apply Forall_forall. intros a Hin. apply in_map_iff in Hin as (k & <- & Hk).
    apply in_map_iff in Hk as (j & <- & Hj). apply in_seq in Hj. split; [apply Hram|].
    apply Hn. lia. }
  destruct (store_all p (amap cpu) (e_stores e)) as [am|] eqn:Es; [|discriminate].
  injection Hs as _ <-. cbn [amap cpu_with]. clear Ha He Hst Hram.
  revert am Es Hi. generalize (amap cpu). clear cpu Hn. induction (e_stores e) as [|[a v] l IH];
    intros m0 am Es Hi; cbn [store_all] in Es.
  - injection Es as <-. reflexivity.
  - cbn [map fst] in Hin. apply Forall_cons_iff in Hin as [[Hra Hna] Hin].
    apply Forall_cons_iff in Hok as [[Hua Huv] Hok]. cbn [fst snd] in Hua, Huv.
    destruct Hbus as (_ & Hw & _). destruct (Hw m0 a v Hi Hua Hra Huv) as (m1 & E1 & Hi1 & Hf).
    rewrite E1 in Es. rewrite (IH Hok Hin m1 am Es Hi1), Hf by exact Hb.
    replace (b =? a) with false by lia. reflexivity.
Qed.

(** Pulls write nothing. *)
Theorem C25_pulls_write_nothing : forall p cpu rd mn m c b1 b2 cpu',
  about_to p cpu rd mn m c b1 b2 -> 0 < pulls mn -> becomes p cpu cpu' -> amap cpu' = amap cpu.
Proof.
  intros p cpu rd mn m c b1 b2 cpu' Ha Hp [t Hs].
  rewrite (about_step _ _ _ _ _ _ _ _ Ha) in Hs.
  destruct mn; cbn [pulls] in Hp; try lia;
    cbn [execute implied_op spec_outcome store_all e_stores] in Hs; injection Hs as _ <-; reflexivity.
Qed.

(** The stack pointer moves by the documented number of bytes. TXS is the only
    instruction that sets it otherwise (C13_txs). *)
Theorem C25_stack_pointer : forall p cpu rd mn m c b1 b2 cpu',
  about_to p cpu rd mn m c b1 b2 -> mn <> Txs -> becomes p cpu cpu' ->
  reg_sp cpu' = (reg_sp cpu - pushes mn + pulls mn) mod 256.
Proof.
  intros p cpu rd mn m c b1 b2 cpu' Ha Hn [t Hs].
  destruct (about_regs _ _ _ _ _ _ _ _ Ha) as (_ & _ & _ & Hsp & _).
  rewrite (about_step _ _ _ _ _ _ _ _ Ha) in Hs. unfold spec_outcome in Hs.
  destruct (execute p mn m c (regs_of cpu) rd b1 b2) as [e|] eqn:He; [|discriminate].
  destruct (store_all p (amap cpu) (e_stores e)) as [am|]; [|discriminate].
  injection Hs as _ <-. cbn [reg_sp cpu_with].
  assert (Z0 : reg_sp cpu = (reg_sp cpu - 0 + 0) mod 256) by (unfold u8 in Hsp; lia).
  assert (R : forall f, (forall v, rS (f (regs_of cpu) v) = reg_sp cpu) ->
            read_op p m (regs_of cpu) rd b1 b2 c f = Some e -> rS (e_regs e) = reg_sp cpu).
  { intros f Hf E. unfold read_op in E. destruct (operand_value _ _ _ _ _ _) as [v|]; [|discriminate].
    injection E as <-. cbn [e_regs advance withPC rS]. apply Hf. }
  assert (S : forall v, store_op p m (regs_of cpu) rd b1 b2 c v = Some e -> rS (e_regs e) = reg_sp cpu).
  { intros v E. unfold store_op in E. destruct (operand_address _ _ _ _ _ _); [|discriminate].
    injection E as <-. reflexivity. }
  assert (M : forall f, (forall v, rS (snd (f (regs_of cpu) v)) = reg_sp cpu) ->
            modify_op p m (regs_of cpu) rd b1 b2 c f = Some e -> rS (e_regs e) = reg_sp cpu).
  { intros f Hf E. unfold modify_op in E.
    assert (F : forall v, (let '(v', r') := f (regs_of cpu) v in rS r') = reg_sp cpu).
    { intros v. specialize (Hf v). destruct (f (regs_of cpu) v). exact Hf. }
    destruct m;
      try (destruct (operand_address _ _ _ _ _ _) as [a|]; [|discriminate];
           specialize (F (rd a)); destruct (f (regs_of cpu) (rd a)) as [v r']; injection E as <-;
           cbn [e_regs advance withPC rS]; exact F).
    specialize (F (rA (regs_of cpu))); destruct (f (regs_of cpu) (rA (regs_of cpu))) as [v r'].
    injection E as <-. exact F. }
  assert (B : forall k, branch_op k (regs_of cpu) b1 c = Some e -> rS (e_regs e) = reg_sp cpu).
  { intros k E. unfold branch_op in E. destruct k; injection E as <-; reflexivity. }
  destruct mn; cbn [pushes pulls]; cbn [execute] in He; try congruence;
    first [ rewrite <- Z0; first [ refine (R _ _ He); intros v; reflexivity | exact (S _ He)
            | refine (M _ _ He); intros v; unfold shift_with, spec_asl, spec_lsr, spec_rol, spec_ror; reflexivity
            | exact (B _ He)
            | injection He as <-; reflexivity
            | idtac ]
          | idtac ];
    try (injection He as <-; cbn [e_regs withPC withS withP withA setNZ setZ setN rS advance implied_op regs_of setB setI];
         f_equal; lia).
  destruct m; try (injection He as <-; reflexivity).
  destruct (unchecked _ _ _) in He; [|discriminate]. injection He as <-. reflexivity.
Qed.

(** ** C32 *)
(** A store that the bus refuses stops the CPU. *)
Theorem C32_refused_store_panics : forall p cpu rd mn m c b1 b2 a,
  about_to p cpu rd mn m c b1 b2 -> operand_at p cpu rd m b1 b2 a -> writes_operand mn m = true ->
  (forall v am w, am_write p (amap cpu) a v <> Ok (am, WOk w)) ->
  next p cpu = Panic.
Proof.
  intros p cpu rd mn m c b1 b2 a Ha Ho Hw Hr.
  assert (K : observed_step p cpu = Panic).
  { assert (S : forall v, execute p mn m c (regs_of cpu) rd b1 b2
              = store_op p m (regs_of cpu) rd b1 b2 c v -> observed_step p cpu = Panic).
    { intros v He. assert (K := becomes_store _ _ _ _ _ _ _ _ _ _ Ha He Ho).
      destruct (am_write p (amap cpu) a v) as [[am [w|]]|] eqn:E; [|exact K|exact K].
      exfalso. exact (Hr _ _ _ E). }
    assert (M : forall f, execute p mn m c (regs_of cpu) rd b1 b2
              = modify_op p m (regs_of cpu) rd b1 b2 c f -> observed_step p cpu = Panic).
    { intros f He. assert (K := becomes_modify _ _ _ _ _ _ _ _ _ _ Ha He Ho).
      destruct (am_write p (amap cpu) a (fst (f (regs_of cpu) (rd a)))) as [[am [w|]]|] eqn:E; [|exact K|exact K].
      exfalso. exact (Hr _ _ _ E). }
    destruct mn; unfold writes_operand in Hw; cbn [stores_operand modifies_operand orb andb] in Hw;
      try discriminate; first [exact (S _ eq_refl)|exact (M _ eq_refl)]. }
  unfold observed_step in K. destruct (next p cpu) as [[mops cpu']|]; [discriminate|reflexivity].
Qed.

Theorem C32_unmapped_store_panics : forall p cpu rd mn m c b1 b2 a,
  about_to p cpu rd mn m c b1 b2 -> operand_at p cpu rd m b1 b2 a -> writes_operand mn m = true ->
  unmapped (amap cpu) a -> next p cpu = Panic.
Proof.
  intros p cpu rd mn m c b1 b2 a Ha Ho Hw Hu.
  apply (C32_refused_store_panics p cpu rd mn m c b1 b2 a Ha Ho Hw).
  intros v am w. rewrite (write_unmapped p _ a v Hu). discriminate.
Qed.

(** ROM, or any device that refuses writes. *)
Theorem C32_rom_store_panics : forall p cpu rd mn m c b1 b2 a e,
  about_to p cpu rd mn m c b1 b2 -> operand_at p cpu rd m b1 b2 a -> writes_operand mn m = true ->
  disjoint (amap cpu) -> In e (amap cpu) -> covers e a -> refuses_writes (device e) ->
  next p cpu = Panic.
Proof.
  intros p cpu rd mn m c b1 b2 a e Ha Ho Hw Hd Hin Hc Hrw.
  apply (C32_refused_store_panics p cpu rd mn m c b1 b2 a Ha Ho Hw).
  intros v am w Hwr. apply in_split in Hin as (l1 & l2 & El). rewrite El in *.
  rewrite (write_mapped p l1 e l2 a v Hd Hc), Hrw in Hwr. discriminate.
Qed.

(** Pushing onto an unmapped stack byte, or one of ROM, stops the CPU. *)
Theorem C32_rom_push_panics : forall p cpu rd mn m c b1 b2 k e,
  about_to p cpu rd mn m c b1 b2 -> 0 <= k < pushes mn ->
  disjoint (amap cpu) -> In e (amap cpu) -> covers e (stack_slot (reg_sp cpu) k) ->
  refuses_writes (device e) -> next p cpu = Panic.
Proof.
  intros p cpu rd mn m c b1 b2 k e Ha Hk Hd Hin0 Hc Hrw.
  assert (K : observed_step p cpu = Panic).
  { rewrite (about_step _ _ _ _ _ _ _ _ Ha). unfold spec_outcome.
    destruct (execute p mn m c (regs_of cpu) rd b1 b2) as [ef|] eqn:He; [|reflexivity].
    assert (Hst := push_stores _ _ _ _ _ _ _ _ _ Ha ltac:(lia) He).
    assert (Hin : In (stack_slot (reg_sp cpu) k) (map fst (e_stores ef))).
    { rewrite Hst. apply in_map. apply in_map_iff. exists (Z.to_nat k). split; [lia|].
      apply in_seq. lia. }
    enough (store_all p (amap cpu) (e_stores ef) = Panic) as -> by reflexivity.
    clear Ha He Hst. revert Hd Hin0. generalize (amap cpu).
    induction (e_stores ef) as [|[a v] l IH]; intros m0 Hd Hin0; [destruct Hin|].
    cbn [store_all]. destruct Hin as [E|Hin].
    - cbn [fst] in E. subst a. apply in_split in Hin0 as (l1 & l2 & ->).
      rewrite (write_mapped p l1 e l2 _ v Hd Hc), Hrw. reflexivity.
    - destruct (am_write p m0 a v) as [[m1 [w|]]|] eqn:E; try reflexivity.
      apply (IH Hin).
      + exact (disjoint_layout _ _ (write_layout _ _ _ _ _ _ E) Hd).
      + exact (write_keeps_rom _ _ _ _ _ _ _ E Hin0 Hrw). }
  unfold observed_step in K. destruct (next p cpu) as [[mops cpu']|]; [discriminate|reflexivity].
Qed.

Theorem C32_unmapped_push_panics : forall p cpu rd mn m c b1 b2 k,
  about_to p cpu rd mn m c b1 b2 -> 0 <= k < pushes mn ->
  unmapped (amap cpu) (stack_slot (reg_sp cpu) k) -> next p cpu = Panic.
Proof.
  intros p cpu rd mn m c b1 b2 k Ha Hk Hu.
  assert (K : observed_step p cpu = Panic).
  { rewrite (about_step _ _ _ _ _ _ _ _ Ha). unfold spec_outcome.
    destruct (execute p mn m c (regs_of cpu) rd b1 b2) as [e|] eqn:He; [|reflexivity].
    assert (Hst := push_stores _ _ _ _ _ _ _ _ _ Ha ltac:(lia) He).
    assert (Hin : In (stack_slot (reg_sp cpu) k) (map fst (e_stores e))).
    { rewrite Hst. apply in_map. apply in_map_iff. exists (Z.to_nat k). split; [lia|].
      apply in_seq. lia. }
    enough (store_all p (amap cpu) (e_stores e) = Panic) as -> by reflexivity.
    clear Ha He Hst. revert Hu. generalize (amap cpu). induction (e_stores e) as [|[a v] l IH]; intros m0 Hu; [destruct Hin|].
    cbn [store_all]. destruct Hin as [E|Hin].
    - cbn [fst] in E. subst a. rewrite (write_unmapped p _ _ v Hu). reflexivity.
    - destruct (am_write p m0 a v) as [[m1 [w|]]|] eqn:E; try reflexivity.
      apply (IH Hin). exact (covers_layout _ _ _ (write_layout _ _ _ _ _ _ E) Hu). }
  unfold observed_step in K. destruct (next p cpu) as [[mops cpu']|]; [discriminate|reflexivity].
Qed.

(** Reads from unmapped space give 0: a load there succeeds and leaves 0. *)
Theorem C32_unmapped_load_is_zero : forall p cpu rd m c b1 b2 a,
  about_to p cpu rd Lda m c b1 b2 -> operand_at p cpu rd m b1 b2 a -> unmapped (amap cpu) a ->
  becomes p cpu (mkMos6502 (amap cpu) 0 (reg_x cpu) (reg_y cpu) (reg_sp cpu) (following cpu m)
                   (nz (reg_ps cpu) 0)).
Proof.
  intros p cpu rd m c b1 b2 a Ha Ho Hu.
  assert (E : rd a = 0).
  { assert (Ua := operand_at_u16 _ _ _ _ _ _ _ _ _ Ha Ho). destruct Ha as (_ & Hb & _).
    specialize (Hb a Ua). rewrite (read_unmapped p _ a Hu) in Hb. congruence. }
  apply (becomes_read p cpu rd Lda m c b1 b2 0 _ Ha eq_refl).
  unfold operand_at, operand_is, operand_value in *.
  destruct m; rewrite ?Ho, ?E; try reflexivity; discriminate.
Qed.

(** ** C33 *)
Definition takes p cpu (k : nat) : Prop := exists cpu', observed_step p cpu = Ok (k, cpu').

Lemma read_takes p cpu rd mn m c b1 b2 v a : about_to p cpu rd mn m c b1 b2 ->
  reads_operand mn = true -> operand_is p cpu rd m b1 b2 v -> operand_at p cpu rd m b1 b2 a ->
  takes p cpu (c + read_penalty m b1 b2 a).
Proof.
  intros Ha Hr Ho Hat. unfold takes. rewrite (about_step _ _ _ _ _ _ _ _ Ha).
  assert (K : exists f, execute p mn m c (regs_of cpu) rd b1 b2 = read_op p m (regs_of cpu) rd b1 b2 c f).
  { destruct mn; cbn [reads_operand] in Hr; try discriminate; eexists; reflexivity. }
  destruct K as [f ->]. unfold read_op. unfold operand_is in Ho. unfold operand_at in Hat.
  rewrite Ho, Hat. cbn [spec_outcome store_all e_stores e_cycles]. eexists. reflexivity.
Qed.

(** Absolute indexed reads: 4 cycles, 5 when the index carries into the high
    byte of the address. *)
Theorem C33_absolute_indexed_read : forall p cpu rd mn m c b1 b2 index,
  about_to p cpu rd mn m c b1 b2 -> reads_operand mn = true ->
  (m = AbsoluteIndexedWithX /\ index = reg_x cpu \/ m = AbsoluteIndexedWithY /\ index = reg_y cpu) ->
  let base := b1 + 256 * b2 in
  takes p cpu (if ((base + index) mod 65536) / 256 =? base / 256 then 4 else 5).
Proof.
  intros p cpu rd mn m c b1 b2 index Ha Hr Hm base.
  assert (Hc : c = 4%nat).
  { assert (Hin := about_mode _ _ _ _ _ _ _ _ Ha).
    assert (F : forallb (fun row => match row with (_, (mn, m, c)) =>
      if reads_operand mn && match m with AbsoluteIndexedWithX | AbsoluteIndexedWithY => true | _ => false end
      then Nat.eqb c 4 else true end) opcode_table = true) by (vm_compute; reflexivity).
    rewrite forallb_forall in F. specialize (F _ Hin). cbn beta iota in F. rewrite Hr in F.
    apply Nat.eqb_eq. destruct Hm as [[-> _]|[-> _]]; exact F. }
  subst c. destruct Hm as [[-> ->]|[-> ->]].
  - assert (K := read_takes p cpu rd mn _ 4 b1 b2 _ _ Ha Hr eq_refl eq_refl).
    cbn [read_penalty] in K. unfold word in K. cbn [regs_of rX] in K. fold base in K.
    destruct (_ =? _); exact K.
  - assert (K := read_takes p cpu rd mn _ 4 b1 b2 _ _ Ha Hr eq_refl eq_refl).
    cbn [read_penalty] in K. unfold word in K. cbn [regs_of rY] in K. fold base in K.
    destruct (_ =? _); exact K.
Qed.

(** (zp),Y reads: 5 cycles, 6 when the effective address is outside page zero. *)
Theorem C33_indirect_indexed_read_exact : forall p cpu rd mn c b1 b2,
  about_to p cpu rd mn IndirectYIndexed c b1 b2 -> reads_operand mn = true ->
  let base := rd b1 + 256 * rd ((b1 + 1) mod 256) in
  (p = Release \/ base + reg_y cpu <= 65535) ->
  takes p cpu (if (base + reg_y cpu) mod 65536 / 256 =? 0 then 5 else 6).
Proof.
  intros p cpu rd mn c b1 b2 Ha Hr base Hov.
  assert (Hc : c = 5%nat).
  { assert (Hin := about_mode _ _ _ _ _ _ _ _ Ha).
    assert (F : forallb (fun row => match row with (_, (mn, m, c)) =>
      if reads_operand mn && match m with IndirectYIndexed => true | _ => false end
      then Nat.eqb c 5 else true end) opcode_table = true) by (vm_compute; reflexivity).
    rewrite forallb_forall in F. specialize (F _ Hin). cbn beta iota in F. rewrite Hr in F.
    apply Nat.eqb_eq. exact F. }
  subst c.
  assert (Ho : operand_at p cpu rd IndirectYIndexed b1 b2 ((base + reg_y cpu) mod 65536)).
  { unfold operand_at. cbn [operand_address]. unfold word. cbn [regs_of rY]. fold base.
    destruct (about_bytes _ _ _ _ _ _ _ _ Ha) as [H1 _].
    destruct (about_regs _ _ _ _ _ _ _ _ Ha) as (_ & _ & HY & _).
    destruct Ha as (_ & _ & Hv & _).
    assert (V1 := Hv b1 (u8_u16 _ H1)). assert (V2 := Hv ((b1 + 1) mod 256) (u8_u16 _ (u8_mod _))).
    unfold unchecked, u8 in *. destruct (base + reg_y cpu <? 65536) eqn:E.
    - f_equal. subst base. lia.
    - destruct Hov as [->|Hov]; [reflexivity|lia]. }
  assert (Hi : operand_is p cpu rd IndirectYIndexed b1 b2 (rd ((base + reg_y cpu) mod 65536))).
  { unfold operand_is, operand_value. unfold operand_at in Ho. rewrite Ho. reflexivity. }
  assert (K := read_takes p cpu rd mn _ 5 b1 b2 _ _ Ha Hr Hi Ho). cbn [read_penalty] in K.
  destruct (_ =? _); exact K.
Qed.

Lemma takes_det p cpu k1 k2 : takes p cpu k1 -> takes p cpu k2 -> k1 = k2.
Proof. intros [c1 H1] [c2 H2]. congruence. Qed.

(** So the documented rule (base page left) is met exactly when leaving the
    base page and leaving page zero coincide. *)
Theorem C33_indirect_indexed_documented_iff : forall p cpu rd mn c b1 b2,
  about_to p cpu rd mn IndirectYIndexed c b1 b2 -> reads_operand mn = true ->
  let base := rd b1 + 256 * rd ((b1 + 1) mod 256) in
  let ea := (base + reg_y cpu) mod 65536 in
  (p = Release \/ base + reg_y cpu <= 65535) ->
  (takes p cpu (if ea / 256 =? base / 256 then 5 else 6) <->
   (ea / 256 = base / 256 <-> ea / 256 = 0)).
Proof.
  intros p cpu rd mn c b1 b2 Ha Hr base ea Hov.
  assert (K := C33_indirect_indexed_read_exact p cpu rd mn c b1 b2 Ha Hr Hov).
  fold base in K. cbv zeta in K. fold ea in K. split.
  - intros K'. assert (E := takes_det _ _ _ _ K K').
    destruct (ea / 256 =? 0) eqn:E1, (ea / 256 =? base / 256) eqn:E2; lia.
  - intros E. replace (ea / 256 =? base / 256) with (ea / 256 =? 0) by lia. exact K.
Qed.

(** Stores and read-modify-write instructions cost what the table says,
    whatever the operands. *)
Theorem C33_writes_fixed : forall p cpu rd mn m c b1 b2 k,
  about_to p cpu rd mn m c b1 b2 -> stores_operand mn || modifies_operand mn = true ->
  takes p cpu k -> k = c.
Proof.
  intros p cpu rd mn m c b1 b2 k Ha Hw [cpu' Hs].
  rewrite (about_step _ _ _ _ _ _ _ _ Ha) in Hs. unfold spec_outcome in Hs.
  destruct (execute p mn m c (regs_of cpu) rd b1 b2) as [e|] eqn:He; [|discriminate].
  destruct (store_all p (amap cpu) (e_stores e)) as [am|]; [|discriminate].
  injection Hs as <- _.
  assert (S : forall v, store_op p m (regs_of cpu) rd b1 b2 c v = Some e -> e_cycles e = c).
  { intros v E. unfold store_op in E. destruct (operand_address _ _ _ _ _ _); [|discriminate].
    injection E as <-. reflexivity. }
  assert (M : forall f, modify_op p m (regs_of cpu) rd b1 b2 c f = Some e -> e_cycles e = c).
  { intros f E. unfold modify_op in E.
    destruct m; try (destruct (operand_address _ _ _ _ _ _) as [a|]; [|discriminate]);
      match type of E with (let '(_, _) := ?x in _) = _ => destruct x end; injection E as <-; reflexivity. }
  destruct mn; cbn [stores_operand modifies_operand orb] in Hw; try discriminate; cbn [execute] in He;
    first [exact (S _ He)|exact (M _ He)].
Qed.

(** Branches: 2 cycles untaken; taken, 3 when the emulated target is in the
    page of the branch and 4 otherwise. *)
Theorem C33_branch : forall p cpu rd mn m c b1 b2 taken,
  about_to p cpu rd mn m c b1 b2 -> branch_taken mn (reg_ps cpu) = Some taken ->
  takes p cpu (if taken then
                 if (reg_pc cpu + signed b1) mod 65536 / 256 =? reg_pc cpu / 256 then 3 else 4
               else 2).
Proof.
  intros p cpu rd mn m c b1 b2 taken Ha Ht.
  assert (Hc : c = 2%nat).
  { assert (Hin := about_mode _ _ _ _ _ _ _ _ Ha).
    assert (F : forallb (fun row => match row with (_, (mn, m, c)) =>
      match branch_taken mn ps0 with Some _ => Nat.eqb c 2 | None => true end end) opcode_table = true)
      by (vm_compute; reflexivity).
    rewrite forallb_forall in F. specialize (F _ Hin). cbn beta iota in F.
    apply Nat.eqb_eq. destruct mn; try discriminate; exact F. }
  subst c. unfold takes. rewrite (about_step _ _ _ _ _ _ _ _ Ha).
  assert (B : execute p mn m 2 (regs_of cpu) rd b1 b2 = branch_op taken (regs_of cpu) b1 2).
  { destruct mn; cbn [branch_taken] in Ht; try discriminate; injection Ht as <-; reflexivity. }
  rewrite B. unfold branch_op. destruct taken; cbn [spec_outcome store_all e_stores e_cycles regs_of rPC].
  - destruct (_ =? _); eexists; reflexivity.
  - eexists. reflexivity.
Qed.

(** Every other instruction costs its table entry. *)
Theorem C33_others_fixed : forall p cpu rd mn m c b1 b2 k,
  about_to p cpu rd mn m c b1 b2 -> branch_taken mn (reg_ps cpu) = None ->
  (reads_operand mn = true -> m <> AbsoluteIndexedWithX /\ m <> AbsoluteIndexedWithY /\ m <> IndirectYIndexed) ->
  takes p cpu k -> k = c.
Proof.
  intros p cpu rd mn m c b1 b2 k Ha Hb Hr Ht.
  destruct (stores_operand mn || modifies_operand mn) eqn:Hw.
  { exact (C33_writes_fixed p cpu rd mn m c b1 b2 k Ha Hw Ht). }
  destruct Ht as [cpu' Hs].
  rewrite (about_step _ _ _ _ _ _ _ _ Ha) in Hs. unfold spec_outcome in Hs.
  destruct (execute p mn m c (regs_of cpu) rd b1 b2) as [e|] eqn:He; [|discriminate].
  destruct (store_all p (amap cpu) (e_stores e)) as [am|]; [|discriminate].
  injection Hs as <- _.
  assert (R : reads_operand mn = true -> forall f, read_op p m (regs_of cpu) rd b1 b2 c f = Some e -> e_cycles e = c).
  { intros Hrd f E. destruct (Hr Hrd) as (N1 & N2 & N3). unfold read_op in E.
    destruct (operand_value _ _ _ _ _ _); [|discriminate]. injection E as <-. cbn [e_cycles].
    destruct (operand_address _ _ _ _ _ _); [|lia].
    destruct m; cbn [read_penalty]; try lia; congruence. }
  destruct mn; cbn [stores_operand modifies_operand orb branch_taken] in Hw, Hb; try discriminate;
    cbn [execute] in He;
    first [exact (R eq_refl _ He) | injection He as <-; reflexivity | idtac].
  destruct m; try (injection He as <-; reflexivity).
  destruct (unchecked _ _ _) in He; [|discriminate]. injection He as <-. reflexivity.
Qed.

(** ** C34 *)
(** Documented effective address of the indexed modes. *)
Definition documented_address (m : addressing_mode) (x y : Z) (rd : Z -> Z) (b1 b2 : Z) : option Z :=
  match m with
  | ZeroPageIndexedWithX => Some ((b1 + x) mod 256)
  | ZeroPageIndexedWithY => Some ((b1 + y) mod 256)
  | AbsoluteIndexedWithX => Some ((b1 + 256 * b2 + x) mod 65536)
  | AbsoluteIndexedWithY => Some ((b1 + 256 * b2 + y) mod 65536)
  | XIndexedIndirect => Some (rd ((b1 + x) mod 256) + 256 * rd ((b1 + x + 1) mod 256))
  | IndirectYIndexed => Some ((rd b1 + 256 * rd ((b1 + 1) mod 256) + y) mod 65536)
  | _ => None
  end.

(** The two cases in which a debug build overflows. *)
Definition index_overflows (m : addressing_mode) (x y : Z) (rd : Z -> Z) (b1 : Z) : Prop :=
  (m = XIndexedIndirect /\ x = 255) \/
  (m = IndirectYIndexed /\ 65535 < rd b1 + 256 * rd ((b1 + 1) mod 256) + y).

Lemma indexed_operand p cpu rd mn m c b1 b2 a : about_to p cpu rd mn m c b1 b2 ->
  documented_address m (reg_x cpu) (reg_y cpu) rd b1 b2 = Some a ->
  (p = Release \/ ~ index_overflows m (reg_x cpu) (reg_y cpu) rd b1) ->
  operand_at p cpu rd m b1 b2 a /\ operand_is p cpu rd m b1 b2 (rd a).
Proof.
  intros Ha Hd Hov.
  assert (K : operand_at p cpu rd m b1 b2 a).
  { destruct (about_bytes _ _ _ _ _ _ _ _ Ha) as [H1 H2].
    destruct (about_regs _ _ _ _ _ _ _ _ Ha) as (_ & HX & HY & _).
    destruct Ha as (_ & _ & Hv & _).
    unfold operand_at. unfold index_overflows in Hov. unfold u8 in *.
    destruct m; cbn [documented_address] in Hd; try discriminate;
      match type of Hd with Some ?x = Some _ => assert (Ea : a = x) by congruence; clear Hd; subst a end;
      cbn [operand_address regs_of rX rY]; unfold word, unchecked; try reflexivity.
    - set (base := rd b1 + 256 * rd ((b1 + 1) mod 256)) in *.
      assert (V1 := Hv b1 ltac:(unfold u16; lia)). assert (V2 := Hv ((b1 + 1) mod 256) ltac:(unfold u16; lia)).
      destruct (base + reg_y cpu <? 65536) eqn:E.
      + clear Hov. assert (0 <= base) by (subst base; unfold u8 in V1, V2; lia).
        clearbody base. rewrite (Z.mod_small (base + reg_y cpu)) by lia. reflexivity.
      + destruct Hov as [->|Hov]; [reflexivity|].
        exfalso. apply Hov. right. split; [reflexivity|]. fold base. lia.
    - destruct (reg_x cpu + 1 <? 256) eqn:E; [reflexivity|].
      destruct Hov as [->|Hov]; [reflexivity|].
      exfalso. apply Hov. left. split; [reflexivity|lia]. }
  split; [exact K|]. unfold operand_is, operand_value. unfold operand_at in K.
  destruct m; try discriminate; rewrite K; reflexivity.
Qed.

(** LDA/STA (and by C13-C19 every other instruction, whose operand is the byte
    at the same address) use the documented address. *)
Theorem C34_load : forall p cpu rd m c b1 b2 a,
  about_to p cpu rd Lda m c b1 b2 ->
  documented_address m (reg_x cpu) (reg_y cpu) rd b1 b2 = Some a ->
  (p = Release \/ ~ index_overflows m (reg_x cpu) (reg_y cpu) rd b1) ->
  exists cpu', becomes p cpu cpu' /\ reg_acc cpu' = rd a.
Proof.
  intros p cpu rd m c b1 b2 a Ha Hd Hov.
  destruct (indexed_operand _ _ _ _ _ _ _ _ _ Ha Hd Hov) as [_ Ho].
  eexists. split; [exact (becomes_read p cpu rd _ m c b1 b2 _ _ Ha eq_refl Ho)|reflexivity].
Qed.

Theorem C34_store : forall p cpu rd m c b1 b2 a am w,
  about_to p cpu rd Sta m c b1 b2 ->
  documented_address m (reg_x cpu) (reg_y cpu) rd b1 b2 = Some a ->
  (p = Release \/ ~ index_overflows m (reg_x cpu) (reg_y cpu) rd b1) ->
  am_write p (amap cpu) a (reg_acc cpu) = Ok (am, WOk w) ->
  exists cpu', becomes p cpu cpu' /\ amap cpu' = am.
Proof.
  intros p cpu rd m c b1 b2 a am w Ha Hd Hov Hw.
  destruct (indexed_operand _ _ _ _ _ _ _ _ _ Ha Hd Hov) as [Ho _].
  assert (K := becomes_store p cpu rd _ m c b1 b2 a _ Ha eq_refl Ho). cbn [regs_of rA] in K.
  rewrite Hw in K. eexists. split; [exact K|reflexivity].
Qed.

(** The operand used by every memory instruction is the one at that address. *)
Theorem C34_operand : forall p cpu rd mn m c b1 b2 a,
  about_to p cpu rd mn m c b1 b2 ->
  documented_address m (reg_x cpu) (reg_y cpu) rd b1 b2 = Some a ->
  (p = Release \/ ~ index_overflows m (reg_x cpu) (reg_y cpu) rd b1) ->
  operand_at p cpu rd m b1 b2 a /\ operand_is p cpu rd m b1 b2 (rd a).
Proof. intros p cpu rd mn m c b1 b2 a. exact (indexed_operand p cpu rd mn m c b1 b2 a). Qed.

(** In a debug build the two overflow cases panic, for every instruction using
    the mode. *)
Theorem C34_debug_overflow_panics : forall cpu rd mn m c b1 b2,
  about_to Debug cpu rd mn m c b1 b2 ->
  index_overflows m (reg_x cpu) (reg_y cpu) rd b1 -> next Debug cpu = Panic.
Proof.
  intros cpu rd mn m c b1 b2 Ha Hov.
  assert (Hn : operand_address Debug m (regs_of cpu) rd b1 b2 = None).
  { destruct Hov as [[-> E]|[-> E]]; cbn [operand_address regs_of rX rY]; unfold unchecked.
    - replace (reg_x cpu + 1 <? 256) with false by lia. reflexivity.
    - unfold word. match goal with |- (if ?b then _ else _) = _ => replace b with false by lia end.
      reflexivity. }
  assert (Hm : m = XIndexedIndirect \/ m = IndirectYIndexed) by (destruct Hov as [[-> _]|[-> _]]; auto).
  assert (Hn' : operand_value Debug m (regs_of cpu) rd b1 b2 = None).
  { unfold operand_value. destruct Hm as [-> | ->]; rewrite Hn; reflexivity. }
  assert (K : observed_step Debug cpu = Panic).
  { rewrite (about_step _ _ _ _ _ _ _ _ Ha).
    assert (Hin := about_mode _ _ _ _ _ _ _ _ Ha).
    assert (F : forallb (fun row => match row with (_, (mn, m, c)) =>
      match m with XIndexedIndirect | IndirectYIndexed => reads_operand mn || stores_operand mn
                 | _ => true end end) opcode_table = true) by (vm_compute; reflexivity).
    rewrite forallb_forall in F. specialize (F _ Hin). cbn beta iota in F.
    assert (F' : reads_operand mn || stores_operand mn = true) by (destruct Hm as [-> | ->]; exact F).
    destruct mn; cbn [reads_operand stores_operand orb] in F'; try discriminate;
      cbn [execute]; unfold read_op, store_op; rewrite ?Hn', ?Hn; reflexivity. }
  unfold observed_step in K. destruct (next Debug cpu) as [[mops cpu']|]; [discriminate|reflexivity].
Qed.

(** ** C35 *)
(** One-byte instructions that stay inside the CPU. *)
Definition internal (mn : mnemonic) : bool :=
  negb (transfers_control mn) && (pushes mn =? 0).

(** In a release build at every program counter, in a debug build ([about_to])
    up to 0xfffd. *)
Theorem C35_every_pc_partial : forall p cpu rd mn m c b1 b2,
  about_to p cpu rd mn m c b1 b2 -> length_of m = 1 -> internal mn = true ->
  exists cpu', becomes p cpu cpu' /\ reg_pc cpu' = (reg_pc cpu + 1) mod 65536.
Proof.
  intros p cpu rd mn m c b1 b2 Ha Hl Hi.
  assert (Hin := about_mode _ _ _ _ _ _ _ _ Ha).
  unfold becomes. rewrite (about_step _ _ _ _ _ _ _ _ Ha).
  destruct m; cbn [length_of] in Hl; try discriminate.
  - destruct mn; try (exfalso; revert Hin; generalize (rd (reg_pc cpu)); intros k Hin;
      assert (F : forallb (fun row => match row with (_, (mn, m, c)) =>
        match m with
        | Accumulator => match mn with Asl | Lsr | Rol | Ror => true | _ => false end | _ => true end end) opcode_table = true)
        by (vm_compute; reflexivity);
      rewrite forallb_forall in F; specialize (F _ Hin); discriminate);
    cbn [execute modify_op]; unfold shift_with, spec_asl, spec_lsr, spec_rol, spec_ror;
    cbn [spec_outcome store_all e_stores e_cycles e_regs];
    eexists; (split; [eexists; reflexivity|reflexivity]).
  - destruct mn; unfold internal in Hi; cbn [transfers_control pushes negb andb Z.eqb] in Hi; try discriminate;
    try (exfalso; revert Hin; generalize (rd (reg_pc cpu)); intros k Hin;
      assert (F : forallb (fun row => match row with (_, (mn, m, c)) =>
        match m with Implied => negb (reads_operand mn || stores_operand mn || modifies_operand mn)
                   | _ => true end end) opcode_table = true)
        by (vm_compute; reflexivity);
      rewrite forallb_forall in F; specialize (F _ Hin); discriminate);
    cbn [execute implied_op spec_outcome store_all e_stores e_cycles e_regs];
    eexists; (split; [eexists; reflexivity|reflexivity]).
Qed.

(** The full property in a release build. *)
Theorem C35_release : forall cpu rd mn m c,
  regs_ok (regs_of cpu) -> bus_reads Release (amap cpu) rd -> byte_valued rd ->
  decode (rd (reg_pc cpu)) = Some (mn, m, c) -> length_of m = 1 -> internal mn = true ->
  exists cpu', becomes Release cpu cpu' /\ reg_pc cpu' = (reg_pc cpu + 1) mod 65536.
Proof.
  intros cpu rd mn m c Hr Hb Hv Hd Hl Hi.
  refine (C35_every_pc_partial Release cpu rd mn m c _ _ _ Hl Hi).
  exact (conj Hr (conj Hb (conj Hv (conj (or_introl eq_refl) (conj Hd (conj eq_refl eq_refl)))))).
Qed.

(** A debug build cannot execute anything at 0xfffe and 0xffff. *)
Theorem C35_debug_panics : forall cpu rd,
  regs_ok (regs_of cpu) -> bus_reads Debug (amap cpu) rd -> byte_valued rd ->
  0xfffe <= reg_pc cpu -> next Debug cpu = Panic.
Proof.
  intros cpu rd Hr Hb Hv Hpc.
  assert (K := next_refines Debug cpu rd Hr Hb Hv). unfold step in K. cbn [regs_of rPC] in K.
  assert (E : unchecked Debug 65536 (reg_pc cpu + 2) = None).
  { unfold unchecked. replace (reg_pc cpu + 2 <? 65536) with false by lia. reflexivity. }
  rewrite E in K. unfold observed_step in K.
  destruct (next Debug cpu) as [[mops cpu']|]; [|reflexivity].
  destruct (unchecked Debug 65536 (reg_pc cpu + 1)); discriminate.
Qed.
End Mem.


(** ** C36 *)
Theorem C36_step_cycles : forall (D : Type) (dev : Device D) p (cpu : mos6502 D) c cpu',
  observed_step p cpu = Ok (c, cpu') -> (2 <= c <= 7)%nat.
Proof. intros D dev p cpu c cpu'. exact (step_cycles p cpu c cpu'). Qed.

(** [run n] executes at most n/2 instructions. *)
Theorem C36_run_instructions : forall (D : Type) (dev : Device D) p (cpu cpu' : mos6502 D) n k t,
  steps p k t cpu cpu' -> (t <= n)%nat -> (2 * k <= n)%nat.
Proof. intros D dev p cpu cpu' n k t Hs Ht. assert (K := steps_cycles _ _ _ _ _ Hs). lia. Qed.

(** [run n], when it does not panic, executes between (n - 6)/7 and n/2
    instructions. *)
Theorem C36_run_bounds : forall (D : Type) (dev : Device D) p (cpu cpu' : mos6502 D) n,
  run p cpu n = Ok (Ready cpu') ->
  exists k t, steps p k t cpu cpu' /\ (2 * k <= n)%nat /\ (n <= 7 * k + 6)%nat.
Proof.
  intros D dev p cpu cpu' n Hr. apply run_ready_iff in Hr as (k & t & Hs & Ht & Hn). exists k, t. split; [exact Hs|].
  assert (K := steps_cycles _ _ _ _ _ Hs). split; [lia|].
  destruct Hn as [<-|(c & cpu'' & Es & Hc)]; [lia|]. assert (C := step_cycles _ _ _ _ Es). lia.
Qed.

(** ** Refutations *)
(** LDA ($10),Y with pointer 0x0300 and Y = 0 is charged 6 cycles. *)
Definition c33_ram : list Z := repeat 0 16 ++ [0x00; 0x03].
Theorem C33_indirect_indexed_refuted :
  ~ (forall p (cpu : mos6502 memory) rd mn c b1 b2,
      about_to p cpu rd mn IndirectYIndexed c b1 b2 -> reads_operand mn = true ->
      let base := rd b1 + 256 * rd ((b1 + 1) mod 256) in
      let ea := (base + reg_y cpu) mod 65536 in
      (p = Release \/ base + reg_y cpu <= 65535) ->
      takes p cpu (if ea / 256 =? base / 256 then 5 else 6)).
Proof.
  intros T.
  assert (A : about_to Debug (machine c33_ram [0xb1; 0x10] 0 0 0 0xff ps0)
    (bytes_at Debug c33_ram [0xb1; 0x10] 0 0 0 0xff ps0) Lda IndirectYIndexed 5 0x10 0) by demo.
  assert (L : Debug = Release \/ bytes_at Debug c33_ram [0xb1; 0x10] 0 0 0 0xff ps0 0x10
     + 256 * bytes_at Debug c33_ram [0xb1; 0x10] 0 0 0 0xff ps0 ((0x10 + 1) mod 256)
     + reg_y (machine c33_ram [0xb1; 0x10] 0 0 0 0xff ps0) <= 65535)
    by (right; vm_compute; discriminate).
  assert (T1 := T Debug _ _ Lda 5%nat 0x10 0 A eq_refl L).
  assert (K := C33_indirect_indexed_read_exact Debug _ _ Lda 5%nat 0x10 0 A eq_refl L).
  assert (E := takes_det _ _ _ _ T1 K). vm_compute in E. discriminate.
Qed.

(** LDA ($10,X) with X = 255 panics in a debug build. *)
Theorem C34_debug_refuted :
  ~ (forall p (cpu : mos6502 memory) rd m c b1 b2 a,
      about_to p cpu rd Lda m c b1 b2 ->
      documented_address m (reg_x cpu) (reg_y cpu) rd b1 b2 = Some a ->
      exists cpu', becomes p cpu cpu' /\ reg_acc cpu' = rd a).
Proof.
  intros T.
  assert (A : about_to Debug (machine c33_ram [0xa1; 0x10] 0 255 0 0xff ps0)
    (bytes_at Debug c33_ram [0xa1; 0x10] 0 255 0 0xff ps0) Lda XIndexedIndirect 6 0x10 0) by demo.
  destruct (T _ _ _ _ _ _ _ _ A eq_refl) as (cpu' & [k B] & _).
  assert (K := C34_debug_overflow_panics _ _ _ _ _ _ _ A (or_introl (conj eq_refl eq_refl))).
  unfold observed_step in B. rewrite K in B. discriminate.
Qed.

(** NOP at 0xffff: a machine whose ROM is the last page. *)
Definition c35_machine : mos6502 memory :=
  mkMos6502 [mkEntry 0xfff0 0xffff (mkMemory ReadOnly 0xfff0 0xffff (repeat 0xea 16))] 0 0 0 0xff 0xffff ps0.

Lemma c35_ok p : regs_ok (regs_of c35_machine) /\ bus_reads p (amap c35_machine) (peek p (amap c35_machine))
  /\ byte_valued (peek p (amap c35_machine)).
Proof.
  split; [repeat split; vm_compute; discriminate|].
  apply (bus_peek p _ _ (plain_ram_bus p (fun _ => False))). split; [split|intros b []].
  - apply disjoint_cons_rev; [apply disjoint_nil|]. intros b _ e [].
  - repeat constructor; cbn; unfold u8; lia.
Qed.

Theorem C35_debug_refuted :
  ~ (forall p (cpu : mos6502 memory) rd mn m c,
      regs_ok (regs_of cpu) -> bus_reads p (amap cpu) rd -> byte_valued rd ->
      decode (rd (reg_pc cpu)) = Some (mn, m, c) -> length_of m = 1 -> internal mn = true ->
      exists cpu', becomes p cpu cpu' /\ reg_pc cpu' = (reg_pc cpu + 1) mod 65536).
Proof.
  intros T. destruct (c35_ok Debug) as (Hr & Hb & Hv).
  destruct (T Debug c35_machine _ Nop Implied 2%nat Hr Hb Hv eq_refl eq_refl eq_refl) as (cpu' & [k B] & _).
  assert (K := C35_debug_panics c35_machine _ Hr Hb Hv ltac:(cbn; lia)).
  unfold observed_step in B. rewrite K in B. discriminate.
Qed.

(** ** Concrete states meeting the hypotheses *)
(** PHA with SP = 0, JSR with SP = 0 (the second byte wraps to 0x01ff). *)
Lemma demo_bus zp prog a x y sp ps : machine_fits zp prog a x y sp = true ->
  plain_with (fun b => 0 <= b <= 0x3ff) (amap (machine zp prog a x y sp ps)).
Proof.
  intros Hf. destruct (machine_plain zp prog a x y sp ps Hf) as [Hp _]. split; [exact Hp|].
  intros b Hb. eexists. split; [left; reflexivity|]. split; [exact Hb|reflexivity].
Qed.

Example C25_nonvacuous :
  let cpu := machine [] [0x20; 0x34; 0x12] 0 0 0 0x00 ps0 in
  plain_with (fun b => 0 <= b <= 0x3ff) (amap cpu) /\
  ram_bus Debug (plain_with (fun b => 0 <= b <= 0x3ff)) (fun b => 0 <= b <= 0x3ff) /\
  (forall k, 0 <= stack_slot (reg_sp cpu) k <= 0x3ff) /\
  about_to Debug cpu (bytes_at Debug [] [0x20; 0x34; 0x12] 0 0 0 0x00 ps0) Jsr Absolute 6 0x34 0x12 /\
  exists cpu', becomes Debug cpu cpu' /\ reg_sp cpu' = 0xfe /\ reg_pc cpu' = 0x1234 /\
    map (peek Debug (amap cpu')) [0x100; 0x1ff; 0x1fe] = [0x80; 0x02; 0].
Proof.
  intros cpu. split; [apply demo_bus; reflexivity|].
  split; [apply plain_ram_bus|]. split; [intros k; unfold stack_slot; lia|]. split; [demo|].
  destruct (observed_step Debug cpu) as [[k cpu']|] eqn:E; [|vm_compute in E; discriminate].
  exists cpu'. split; [exists k; exact E|]. vm_compute in E. injection E as _ <-.
  vm_compute. repeat split; reflexivity.
Qed.

(** STA into the program ROM and into unmapped space. *)
(** LDA 0x9000 with nothing mapped there. *)
Example C32_nonvacuous_load :
  let cpu := machine [] [0xad; 0x00; 0x90] 1 0 0 0xff ps0 in
  let rd := bytes_at Debug [] [0xad; 0x00; 0x90] 1 0 0 0xff ps0 in
  about_to Debug cpu rd Lda Absolute 4 0x00 0x90 /\ operand_at Debug cpu rd Absolute 0x00 0x90 0x9000 /\
  unmapped (amap cpu) 0x9000.
Proof.
  intros cpu rd. split; [subst cpu rd; demo|]. split; [reflexivity|].
  intros e [<-|[<-|[]]]; unfold covers; cbn; lia.
Qed.

Example C32_nonvacuous :
  demo_step Release [] [0x8d; 0x00; 0x80] 1 0 0 0xff ps0 = None /\
  about_to Release (machine [] [0x8d; 0x00; 0x80] 1 0 0 0xff ps0)
    (bytes_at Release [] [0x8d; 0x00; 0x80] 1 0 0 0xff ps0) Sta Absolute 4 0x00 0x80 /\
  operand_at Release (machine [] [0x8d; 0x00; 0x80] 1 0 0 0xff ps0)
    (bytes_at Release [] [0x8d; 0x00; 0x80] 1 0 0 0xff ps0) Absolute 0x00 0x80 0x8000 /\
  writes_operand Sta Absolute = true /\
  unmapped (amap (machine [] [0xee; 0x00; 0x90] 1 0 0 0xff ps0)) 0x9000 /\
  demo_step Release [] [0xee; 0x00; 0x90] 1 0 0 0xff ps0 = None.
Proof.
  split; [vm_compute; reflexivity|]. split; [demo|]. split; [reflexivity|]. split; [reflexivity|].
  split; [|vm_compute; reflexivity].
  intros e [<-|[<-|[]]] Hc; unfold covers in Hc; cbn in Hc; lia.
Qed.

(** LDA $02f0,X with X = 0x20 crosses a page: 5 cycles. *)
Example C33_nonvacuous :
  about_to Debug (machine [] [0xbd; 0xf0; 0x02] 0 0x20 0 0xff ps0)
    (bytes_at Debug [] [0xbd; 0xf0; 0x02] 0 0x20 0 0xff ps0) Lda AbsoluteIndexedWithX 4 0xf0 0x02 /\
  takes Debug (machine [] [0xbd; 0xf0; 0x02] 0 0x20 0 0xff ps0) 5.
Proof.
  assert (A : about_to Debug (machine [] [0xbd; 0xf0; 0x02] 0 0x20 0 0xff ps0)
    (bytes_at Debug [] [0xbd; 0xf0; 0x02] 0 0x20 0 0xff ps0) Lda AbsoluteIndexedWithX 4 0xf0 0x02) by demo.
  split; [exact A|].
  exact (C33_absolute_indexed_read _ _ _ _ _ _ _ _ _ A eq_refl (or_introl (conj eq_refl eq_refl))).
Qed.

(** (zp),Y whose pointer straddles the end of page zero. *)
Definition c34_ram : list Z := [0x03] ++ repeat 0 254 ++ [0x10].
Example C34_nonvacuous :
  about_to Debug (machine c34_ram [0xb1; 0xff] 0 0 1 0xff ps0)
    (bytes_at Debug c34_ram [0xb1; 0xff] 0 0 1 0xff ps0) Lda IndirectYIndexed 5 0xff 0 /\
  documented_address IndirectYIndexed 0 1 (bytes_at Debug c34_ram [0xb1; 0xff] 0 0 1 0xff ps0) 0xff 0
    = Some 0x311 /\
  ~ index_overflows IndirectYIndexed 0 1 (bytes_at Debug c34_ram [0xb1; 0xff] 0 0 1 0xff ps0) 0xff.
Proof.
  split; [demo|]. split; [vm_compute; reflexivity|].
  intros [[E _]|[_ E]]; [discriminate|]. vm_compute in E. discriminate.
Qed.

Example C35_nonvacuous : decode (peek Release (amap c35_machine) (reg_pc c35_machine)) = Some (Nop, Implied, 2%nat)
  /\ internal Nop = true /\ match observed_step Release c35_machine with Ok (_, c) => reg_pc c = 0 | Panic => False end.
Proof. split; [reflexivity|]. split; vm_compute; reflexivity. Qed.

Example C36_nonvacuous : exists cpu', steps Debug 2 5 (machine [] [0xea; 0x4c; 0x00; 0x90] 0 0 0 0xff ps0) cpu'.
Proof.
  eexists. change 5%nat with (2 + (3 + 0))%nat.
  eapply steps_cons; [vm_compute; reflexivity|].
  eapply steps_cons; [vm_compute; reflexivity|apply steps_refl].
Qed.

Print Assumptions C25_pushes_stay_in_page_one.
Print Assumptions C25_pulls_write_nothing.
Print Assumptions C25_stack_pointer.
Print Assumptions C32_refused_store_panics.
Print Assumptions C32_unmapped_store_panics.
Print Assumptions C32_rom_store_panics.
Print Assumptions C32_rom_push_panics.
Print Assumptions C32_unmapped_push_panics.
Print Assumptions C32_unmapped_load_is_zero.
Print Assumptions C33_absolute_indexed_read.
Print Assumptions C33_indirect_indexed_read_exact.
Print Assumptions C33_indirect_indexed_documented_iff.
Print Assumptions C33_indirect_indexed_refuted.
Print Assumptions C33_writes_fixed.
Print Assumptions C33_branch.
Print Assumptions C33_others_fixed.
Print Assumptions C34_load.
Print Assumptions C34_store.
Print Assumptions C34_operand.
Print Assumptions C34_debug_overflow_panics.
Print Assumptions C34_debug_refuted.
Print Assumptions C35_every_pc_partial.
Print Assumptions C35_release.
Print Assumptions C35_debug_panics.
Print Assumptions C35_debug_refuted.
Print Assumptions C36_step_cycles.
Print Assumptions C36_run_instructions.
Print Assumptions C36_run_bounds.
