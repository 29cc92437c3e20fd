(** Properties C58 and C59: flag instructions and jumps. *)
From Verif Require Import Base Arith ModelMap ModelRegs6502 ModelCpu6502 ModelOperand
  ModelIsa6502 ModelRun6502 SpecMap ProofMap Link6502 ProofOperand ProofStep6502 ProofRun6502 ProofBus
  SpecInstr ProofInstr Demo6502.
From Verif Require Import Spec6502.

Ltac demo := apply machine_about; [reflexivity|vm_compute; reflexivity|reflexivity|reflexivity].

(** The status after a flag instruction, by the data sheet. *)
Definition flag_effect (mn : mnemonic) (s : processor_status) : option processor_status :=
  match s with
  | {| ps_carry := c; ps_zero := z; ps_interrupt_disable := i; ps_decimal := d; ps_brk := b;
       ps_unused := u; ps_overflow := v; ps_negative := n |} =>
    match mn with
    | Clc => Some (mkPs false z i d b u v n)
    | Sec => Some (mkPs true z i d b u v n)
    | Cli => Some (mkPs c z false d b u v n)
    | Sei => Some (mkPs c z true d b u v n)
    | Cld => Some (mkPs c z i false b u v n)
    | Sed => Some (mkPs c z i true b u v n)
    | Clv => Some (mkPs c z i d b u false n)
    | Nop => Some (mkPs c z i d b u v n)
    | _ => None
    end
  end.

Section Ctl.
Context {D : Type} `{Device D}.
Implicit Types (cpu : mos6502 D) (m : addressing_mode) (c : nat).

Theorem C58_flags : forall p cpu rd mn m c b1 b2 s,
  about_to p cpu rd mn m c b1 b2 -> flag_effect mn (reg_ps cpu) = Some s ->
  becomes p cpu (mkMos6502 (amap cpu) (reg_acc cpu) (reg_x cpu) (reg_y cpu) (reg_sp cpu)
                   ((reg_pc cpu + 1) mod 65536) s).
Proof.
  intros p cpu rd mn m c b1 b2 s Ha Hf.
  unfold becomes. rewrite (about_step _ _ _ _ _ _ _ _ Ha).
  destruct (reg_ps cpu) as [f0 f1 f2 f3 f4 f5 f6 f7] eqn:Es.
  destruct mn; cbn [flag_effect] in Hf; try discriminate; injection Hf as <-;
    cbn [execute implied_op spec_outcome e_stores e_regs e_cycles store_all]; eexists;
    unfold cpu_with, advance, setC, setD, setI, setV, withP, withPC, regs_of;
    cbn [rA rX rY rS rPC rP length_of]; rewrite ?Es; reflexivity.
Qed.

Theorem C59_jmp_absolute : forall p cpu rd c b1 b2, about_to p cpu rd Jmp Absolute c b1 b2 ->
  becomes p cpu (mkMos6502 (amap cpu) (reg_acc cpu) (reg_x cpu) (reg_y cpu) (reg_sp cpu)
                   (b1 + 256 * b2) (reg_ps cpu)).
Proof.
  intros p cpu rd c b1 b2 Ha. unfold becomes. rewrite (about_step _ _ _ _ _ _ _ _ Ha).
  eexists. reflexivity.
Qed.

Theorem C59_jmp_indirect : forall p cpu rd c b1 b2, about_to p cpu rd Jmp Indirect c b1 b2 ->
  p = Release \/ b1 + 256 * b2 <> 0xffff ->
  becomes p cpu (mkMos6502 (amap cpu) (reg_acc cpu) (reg_x cpu) (reg_y cpu) (reg_sp cpu)
                   (rd (b1 + 256 * b2) + 256 * rd ((b1 + 256 * b2 + 1) mod 65536)) (reg_ps cpu)).
Proof.
  intros p cpu rd c b1 b2 Ha Hp. destruct (about_bytes _ _ _ _ _ _ _ _ Ha) as [H1 H2].
  unfold becomes. rewrite (about_step _ _ _ _ _ _ _ _ Ha). cbn [execute].
  assert (E : unchecked p 65536 (word b1 b2 + 1) = Some ((b1 + 256 * b2 + 1) mod 65536)).
  { unfold unchecked, word. unfold u8 in *. destruct (b1 + 256 * b2 + 1 <? 65536) eqn:E.
    - f_equal. lia.
    - destruct Hp as [->|Hp]; [reflexivity|lia]. }
  rewrite E. eexists. reflexivity.
Qed.

Theorem C59_jmp_indirect_debug_panics : forall cpu rd c b1 b2,
  about_to Debug cpu rd Jmp Indirect c b1 b2 -> b1 + 256 * b2 = 0xffff ->
  observed_step Debug cpu = Panic.
Proof.
  intros cpu rd c b1 b2 Ha Hp. rewrite (about_step _ _ _ _ _ _ _ _ Ha). cbn [execute].
  unfold unchecked, word. rewrite Hp. reflexivity.
Qed.
End Ctl.

Example C58_nonvacuous :
  about_to Debug (machine [] [0x38; 0xea; 0xea] 0 0 0 0xff ps0)
    (bytes_at Debug [] [0x38; 0xea; 0xea] 0 0 0 0xff ps0) Sec Implied 2 0xea 0xea /\
  exists s, flag_effect Sec ps0 = Some s.
Proof. split; [demo|]. eexists. reflexivity. Qed.

Example C59_nonvacuous :
  about_to Debug (machine [] [0x6c; 0xff; 0x02] 0 0 0 0xff ps0)
    (bytes_at Debug [] [0x6c; 0xff; 0x02] 0 0 0 0xff ps0) Jmp Indirect 5 0xff 0x02 /\
  about_to Debug (machine [] [0x6c; 0xff; 0xff] 0 0 0 0xff ps0)
    (bytes_at Debug [] [0x6c; 0xff; 0xff] 0 0 0 0xff ps0) Jmp Indirect 5 0xff 0xff /\
  about_to Release (machine [] [0x4c; 0x34; 0x12] 0 0 0 0xff ps0)
    (bytes_at Release [] [0x4c; 0x34; 0x12] 0 0 0 0xff ps0) Jmp Absolute 3 0x34 0x12.
Proof. split; [demo|]. split; demo. Qed.

Print Assumptions C58_flags.
Print Assumptions C59_jmp_absolute.
Print Assumptions C59_jmp_indirect.
Print Assumptions C59_jmp_indirect_debug_panics.
