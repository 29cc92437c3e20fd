(** Properties C10-C21, C25, C32-C36 of single 6502 instructions. The
    vocabulary is in SpecInstr.v and Spec6502.v. *)
From Verif Require Import Base Arith ModelMap ModelRegs6502 ModelCpu6502 ModelOperand
  ModelIsa6502 ModelRun6502 SpecMap ProofMap Link6502 ProofOperand ProofStep6502 ProofRun6502 ProofBus
  SpecInstr ProofInstr Demo6502.
From Verif Require Import Spec6502.

(** A demo machine meets [about_to] (used by the examples below). *)
Ltac demo := apply machine_about; [reflexivity|vm_compute; reflexivity|reflexivity|reflexivity].

(** ** C10 status byte *)
Theorem C10_write_read : forall b, u8 b -> ps_read (ps_with_value b) = b.
Proof. intros b Hb. rewrite ps_read_byte, ps_with_value_byte by exact Hb. exact (status_round_byte b Hb). Qed.

Theorem C10_read_write : forall s, ps_with_value (ps_read s) = s.
Proof. intros [[] [] [] [] [] [] [] []]; reflexivity. Qed.

(** Bits 7..0 are N V - B D I Z C. *)
Theorem C10_layout : forall s,
  0 <= ps_read s < 256 /\
  Z.testbit (ps_read s) 7 = ps_negative s /\ Z.testbit (ps_read s) 6 = ps_overflow s /\
  Z.testbit (ps_read s) 5 = ps_unused s /\ Z.testbit (ps_read s) 4 = ps_brk s /\
  Z.testbit (ps_read s) 3 = ps_decimal s /\ Z.testbit (ps_read s) 2 = ps_interrupt_disable s /\
  Z.testbit (ps_read s) 1 = ps_zero s /\ Z.testbit (ps_read s) 0 = ps_carry s.
Proof. intros [[] [] [] [] [] [] [] []]; vm_compute; intuition discriminate. Qed.

Print Assumptions C10_write_read.
Print Assumptions C10_read_write.
Print Assumptions C10_layout.

Example C10_nonvacuous : u8 0xa5 /\ ps_with_value 0xa5 = mkPs true false true false false true false true.
Proof. split; [unfold u8; lia|reflexivity]. Qed.

(** ** C11 every documented opcode *)
Theorem C11_step_is_datasheet : forall (D : Type) (dev : Device D) p (cpu : mos6502 D) rd,
  regs_ok (regs_of cpu) -> bus_reads p (amap cpu) rd -> byte_valued rd ->
  observed_step p cpu = spec_outcome p cpu (step p (regs_of cpu) rd).
Proof. intros D dev p cpu rd. exact (next_refines p cpu rd). Qed.

(** The opcode table has 151 rows with pairwise different bytes. *)
Theorem C11_table : length opcode_table = 151%nat /\ NoDup (map fst opcode_table) /\
  Forall (fun row => u8 (fst row)) opcode_table.
Proof.
  split; [reflexivity|]. split.
  - apply (NoDup_count_occ Z.eq_dec). intros b.
    destruct (in_dec Z.eq_dec b (map fst opcode_table)) as [Hin|Hn].
    + assert (F : forallb (fun b => Nat.leb (count_occ Z.eq_dec (map fst opcode_table) b) 1)
                    (map fst opcode_table) = true) by (vm_compute; reflexivity).
      rewrite forallb_forall in F. specialize (F b Hin). apply Nat.leb_le in F. exact F.
    + rewrite (proj1 (count_occ_not_In Z.eq_dec _ _) Hn). lia.
  - apply Forall_forall. intros row Hin.
    assert (F : forallb (fun row => (0 <=? fst row) && (fst row <? 256)) opcode_table = true)
      by (vm_compute; reflexivity).
    rewrite forallb_forall in F. specialize (F row Hin). unfold u8. lia.
Qed.

Print Assumptions C11_step_is_datasheet.
Print Assumptions C11_table.

Example C11_nonvacuous :
  exists rd, regs_ok (regs_of (machine [7; 9] [0x75; 0x01] 5 0 0 0xff ps0)) /\
    bus_reads Debug (amap (machine [7; 9] [0x75; 0x01] 5 0 0 0xff ps0)) rd /\ byte_valued rd /\
    demo_step Debug [7; 9] [0x75; 0x01] 5 0 0 0xff ps0 = Some (4%nat, [14; 0; 0; 0xff; 0x8002], ps0).
Proof.
  assert (A : about_to Debug (machine [7; 9] [0x75; 0x01] 5 0 0 0xff ps0)
    (bytes_at Debug [7; 9] [0x75; 0x01] 5 0 0 0xff ps0) Adc ZeroPageIndexedWithX 4 1 0) by demo.
  destruct A as (A1 & A2 & A3 & _). eexists. split; [exact A1|]. split; [exact A2|].
  split; [exact A3|]. vm_compute. reflexivity.
Qed.

(** ** C12 undocumented opcodes *)
Theorem C12_undocumented_panics : forall (D : Type) (dev : Device D) p (cpu : mos6502 D) rd,
  regs_ok (regs_of cpu) -> bus_reads p (amap cpu) rd -> byte_valued rd ->
  ~ In (rd (reg_pc cpu)) (map fst opcode_table) ->
  next p cpu = Panic.
Proof.
  intros D dev p cpu rd Hr Hb Hv Hn.
  assert (E := next_refines p cpu rd Hr Hb Hv). unfold observed_step in E.
  assert (Hd : decode (rd (reg_pc cpu)) = None).
  { destruct (decode (rd (reg_pc cpu))) eqn:Ed; [|reflexivity]. exfalso. apply Hn.
    exact (decode_in _ _ Ed). }
  unfold step in E. cbn [regs_of rPC] in E. rewrite Hd in E.
  destruct (next p cpu) as [[mops c]|]; [|reflexivity]. exfalso.
  destruct (unchecked p 65536 (reg_pc cpu + 1)), (unchecked p 65536 (reg_pc cpu + 2)); discriminate.
Qed.

Theorem C12_undocumented_count :
  length (filter (fun b => negb (existsb (Z.eqb b) (map fst opcode_table))) bytes) = 105%nat.
Proof. vm_compute. reflexivity. Qed.

(** Unmapped program memory reads as 0, which is BRK. *)
Theorem C12_unmapped_is_brk : forall (D : Type) (dev : Device D) p (cpu : mos6502 D) rd,
  bus_reads p (amap cpu) rd -> u16 (reg_pc cpu) -> unmapped (amap cpu) (reg_pc cpu) ->
  decode (rd (reg_pc cpu)) = Some (Brk, Implied, 7%nat).
Proof.
  intros D dev p cpu rd Hb Hpc Hu. specialize (Hb _ Hpc).
  rewrite (read_unmapped p _ _ Hu) in Hb. injection Hb as <-. reflexivity.
Qed.

Print Assumptions C12_undocumented_panics.
Print Assumptions C12_undocumented_count.
Print Assumptions C12_unmapped_is_brk.

Example C12_nonvacuous : ~ In 0x02 (map fst opcode_table) /\
  demo_step Debug [] [0x02] 1 2 3 4 ps0 = None /\
  demo_step Debug [] [0x4c; 0x00; 0x90] 1 2 3 4 ps0 = Some (3%nat, [1; 2; 3; 4; 0x9000], ps0).
Proof.
  split; [|split; vm_compute; reflexivity].
  cbn. intuition discriminate.
Qed.

(** ** C13 loads, stores, transfers *)
Section C13.
Context {D : Type} `{Device D}.
Variables (p : profile) (cpu : mos6502 D) (rd : Z -> Z) (m : addressing_mode) (c : nat) (b1 b2 v a : Z).

Ltac by_read := intros Ha Ho; exact (becomes_read p cpu rd _ m c b1 b2 v _ Ha eq_refl Ho).
Ltac by_implied Ha := exact (becomes_implied p cpu rd _ _ c b1 b2 _ Ha eq_refl).
Ltac by_store w := intros Ha Ho Hw;
  assert (K := becomes_store p cpu rd _ m c b1 b2 a w Ha eq_refl Ho); rewrite Hw in K; exact K.

Theorem C13_lda : about_to p cpu rd Lda m c b1 b2 -> operand_is p cpu rd m b1 b2 v ->
  becomes p cpu (mkMos6502 (amap cpu) v (reg_x cpu) (reg_y cpu) (reg_sp cpu) (following cpu m)
                   (nz (reg_ps cpu) v)).
Proof. by_read. Qed.

Theorem C13_ldx : about_to p cpu rd Ldx m c b1 b2 -> operand_is p cpu rd m b1 b2 v ->
  becomes p cpu (mkMos6502 (amap cpu) (reg_acc cpu) v (reg_y cpu) (reg_sp cpu) (following cpu m)
                   (nz (reg_ps cpu) v)).
Proof. by_read. Qed.

Theorem C13_ldy : about_to p cpu rd Ldy m c b1 b2 -> operand_is p cpu rd m b1 b2 v ->
  becomes p cpu (mkMos6502 (amap cpu) (reg_acc cpu) (reg_x cpu) v (reg_sp cpu) (following cpu m)
                   (nz (reg_ps cpu) v)).
Proof. by_read. Qed.

Theorem C13_tax : about_to p cpu rd Tax m c b1 b2 ->
  becomes p cpu (mkMos6502 (amap cpu) (reg_acc cpu) (reg_acc cpu) (reg_y cpu) (reg_sp cpu)
                   (following cpu Implied) (nz (reg_ps cpu) (reg_acc cpu))).
Proof. intros Ha. by_implied Ha. Qed.

Theorem C13_tay : about_to p cpu rd Tay m c b1 b2 ->
  becomes p cpu (mkMos6502 (amap cpu) (reg_acc cpu) (reg_x cpu) (reg_acc cpu) (reg_sp cpu)
                   (following cpu Implied) (nz (reg_ps cpu) (reg_acc cpu))).
Proof. intros Ha. by_implied Ha. Qed.

Theorem C13_txa : about_to p cpu rd Txa m c b1 b2 ->
  becomes p cpu (mkMos6502 (amap cpu) (reg_x cpu) (reg_x cpu) (reg_y cpu) (reg_sp cpu)
                   (following cpu Implied) (nz (reg_ps cpu) (reg_x cpu))).
Proof. intros Ha. by_implied Ha. Qed.

Theorem C13_tya : about_to p cpu rd Tya m c b1 b2 ->
  becomes p cpu (mkMos6502 (amap cpu) (reg_y cpu) (reg_x cpu) (reg_y cpu) (reg_sp cpu)
                   (following cpu Implied) (nz (reg_ps cpu) (reg_y cpu))).
Proof. intros Ha. by_implied Ha. Qed.

Theorem C13_tsx : about_to p cpu rd Tsx m c b1 b2 ->
  becomes p cpu (mkMos6502 (amap cpu) (reg_acc cpu) (reg_sp cpu) (reg_y cpu) (reg_sp cpu)
                   (following cpu Implied) (nz (reg_ps cpu) (reg_sp cpu))).
Proof. intros Ha. by_implied Ha. Qed.

Theorem C13_txs : about_to p cpu rd Txs m c b1 b2 ->
  becomes p cpu (mkMos6502 (amap cpu) (reg_acc cpu) (reg_x cpu) (reg_y cpu) (reg_x cpu)
                   (following cpu Implied) (reg_ps cpu)).
Proof. intros Ha. by_implied Ha. Qed.

Theorem C13_pla : about_to p cpu rd Pla m c b1 b2 -> v = rd (256 + (reg_sp cpu + 1) mod 256) ->
  becomes p cpu (mkMos6502 (amap cpu) v (reg_x cpu) (reg_y cpu) ((reg_sp cpu + 1) mod 256)
                   (following cpu Implied) (nz (reg_ps cpu) v)).
Proof. intros Ha ->. by_implied Ha. Qed.

Theorem C13_sta : about_to p cpu rd Sta m c b1 b2 -> operand_at p cpu rd m b1 b2 a ->
  forall am w, am_write p (amap cpu) a (reg_acc cpu) = Ok (am, WOk w) ->
  becomes p cpu (mkMos6502 am (reg_acc cpu) (reg_x cpu) (reg_y cpu) (reg_sp cpu) (following cpu m)
                   (reg_ps cpu)).
Proof. intros Ha Ho am w Hw. revert Ha Ho Hw. by_store (reg_acc cpu). Qed.

Theorem C13_stx : about_to p cpu rd Stx m c b1 b2 -> operand_at p cpu rd m b1 b2 a ->
  forall am w, am_write p (amap cpu) a (reg_x cpu) = Ok (am, WOk w) ->
  becomes p cpu (mkMos6502 am (reg_acc cpu) (reg_x cpu) (reg_y cpu) (reg_sp cpu) (following cpu m)
                   (reg_ps cpu)).
Proof. intros Ha Ho am w Hw. revert Ha Ho Hw. by_store (reg_x cpu). Qed.

Theorem C13_sty : about_to p cpu rd Sty m c b1 b2 -> operand_at p cpu rd m b1 b2 a ->
  forall am w, am_write p (amap cpu) a (reg_y cpu) = Ok (am, WOk w) ->
  becomes p cpu (mkMos6502 am (reg_acc cpu) (reg_x cpu) (reg_y cpu) (reg_sp cpu) (following cpu m)
                   (reg_ps cpu)).
Proof. intros Ha Ho am w Hw. revert Ha Ho Hw. by_store (reg_y cpu). Qed.

Theorem C13_pha : about_to p cpu rd Pha m c b1 b2 ->
  forall am w, am_write p (amap cpu) (256 + reg_sp cpu) (reg_acc cpu) = Ok (am, WOk w) ->
  becomes p cpu (mkMos6502 am (reg_acc cpu) (reg_x cpu) (reg_y cpu) ((reg_sp cpu - 1) mod 256)
                   (following cpu m) (reg_ps cpu)).
Proof.
  intros Ha am w Hw. unfold becomes. rewrite (about_step _ _ _ _ _ _ _ _ Ha).
  destruct (about_regs _ _ _ _ _ _ _ _ Ha) as (_ & _ & _ & Hs & _).
  cbn [execute spec_outcome store_all e_stores e_regs e_cycles regs_of rS rA rP].
  rewrite (stack_small _ Hs), Hw. eexists. reflexivity.
Qed.

Theorem C13_php : about_to p cpu rd Php m c b1 b2 ->
  forall am w, am_write p (amap cpu) (256 + reg_sp cpu) (status_byte (reg_ps cpu)) = Ok (am, WOk w) ->
  becomes p cpu (mkMos6502 am (reg_acc cpu) (reg_x cpu) (reg_y cpu) ((reg_sp cpu - 1) mod 256)
                   (following cpu m) (reg_ps cpu)).
Proof.
  intros Ha am w Hw. unfold becomes. rewrite (about_step _ _ _ _ _ _ _ _ Ha).
  destruct (about_regs _ _ _ _ _ _ _ _ Ha) as (_ & _ & _ & Hs & _).
  cbn [execute spec_outcome store_all e_stores e_regs e_cycles regs_of rS rA rP].
  rewrite (stack_small _ Hs), Hw. eexists. reflexivity.
Qed.
End C13.

Print Assumptions C13_lda.
Print Assumptions C13_ldx.
Print Assumptions C13_ldy.
Print Assumptions C13_tax.
Print Assumptions C13_tay.
Print Assumptions C13_txa.
Print Assumptions C13_tya.
Print Assumptions C13_tsx.
Print Assumptions C13_txs.
Print Assumptions C13_pla.
Print Assumptions C13_sta.
Print Assumptions C13_stx.
Print Assumptions C13_sty.
Print Assumptions C13_pha.
Print Assumptions C13_php.

(** LDA (zp),Y with pointer 0x0011 and Y = 1 loads the byte 0x80 at 0x0012. *)
Definition c13_ram : list Z := repeat 0 16 ++ [0x11; 0x00; 0x80].
Example C13_nonvacuous_lda :
  about_to Debug (machine c13_ram [0xb1; 0x10] 0 0 1 0xff ps0)
    (bytes_at Debug c13_ram [0xb1; 0x10] 0 0 1 0xff ps0) Lda IndirectYIndexed 5 0x10 0 /\
  operand_is Debug (machine c13_ram [0xb1; 0x10] 0 0 1 0xff ps0)
    (bytes_at Debug c13_ram [0xb1; 0x10] 0 0 1 0xff ps0) IndirectYIndexed 0x10 0 0x80.
Proof. split; [demo|vm_compute; reflexivity]. Qed.
Example C13_nonvacuous_sta :
  about_to Debug (machine [] [0x9d; 0xf0; 0x02] 0x55 0x20 0 0xff ps0)
    (bytes_at Debug [] [0x9d; 0xf0; 0x02] 0x55 0x20 0 0xff ps0) Sta AbsoluteIndexedWithX 5 0xf0 0x02 /\
  operand_at Debug (machine [] [0x9d; 0xf0; 0x02] 0x55 0x20 0 0xff ps0)
    (bytes_at Debug [] [0x9d; 0xf0; 0x02] 0x55 0x20 0 0xff ps0) AbsoluteIndexedWithX 0xf0 0x02 0x310 /\
  exists am w, am_write Debug (amap (machine [] [0x9d; 0xf0; 0x02] 0x55 0x20 0 0xff ps0)) 0x310 0x55
               = Ok (am, WOk w).
Proof. split; [demo|]. split; [vm_compute; reflexivity|]. do 2 eexists. vm_compute. reflexivity. Qed.
Example C13_nonvacuous_pha :
  about_to Debug (machine [] [0x48] 0x55 0 0 0x00 ps0)
    (bytes_at Debug [] [0x48] 0x55 0 0 0x00 ps0) Pha Implied 3 0 0 /\
  exists am w, am_write Debug (amap (machine [] [0x48] 0x55 0 0 0x00 ps0)) (256 + 0x00) 0x55 = Ok (am, WOk w).
Proof. split; [demo|]. do 2 eexists. vm_compute. reflexivity. Qed.
Example C13_nonvacuous_pla :
  about_to Debug (machine [] [0x68] 0x55 0 0 0xff ps0)
    (bytes_at Debug [] [0x68] 0x55 0 0 0xff ps0) Pla Implied 4 0 0.
Proof. demo. Qed.
Example C13_nonvacuous_tsx :
  about_to Debug (machine [] [0xba] 0x55 0 0 0xf0 ps0)
    (bytes_at Debug [] [0xba] 0x55 0 0 0xf0 ps0) Tsx Implied 2 0 0.
Proof. demo. Qed.
