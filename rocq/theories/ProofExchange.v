(** Lemmas for PropertiesExchange.v. *)
From Verif Require Import Base Arith ModelMap ModelStep ModelRegs6502 ModelCpu6502 ModelOperand ModelIsa6502
  ModelRun6502 SpecMap Link6502 ProofStep6502 ProofRun6502 ProofBus SpecInstr ProofInstr ProofFrame PropertiesFrame ProofProgram PropertiesLive.
From Verif Require Import Spec6502 SpecBus SpecFrame SpecLive SpecProgram SpecMove SpecExchange.

(** ** What an instruction depends on *)
Definition same_bytes (m : addressing_mode) (b1 b2 d1 d2 : Z) : Prop :=
  (2 <= length_of m -> b1 = d1) /\ (3 <= length_of m -> b2 = d2).

Definition fits (mn : mnemonic) (m : addressing_mode) : bool :=
  possible mn m &&
  match mn with
  | Bcc | Bcs | Beq | Bmi | Bne | Bpl | Bvc | Bvs => match m with Relative => true | _ => false end
  | Jsr => match m with Absolute => true | _ => false end
  | Lda | Ldx | Ldy | Adc | Sbc | And | Ora | Eor | Bit | Cmp | Cpx | Cpy | Sta | Stx | Sty
  | Asl | Lsr | Rol | Ror | Inc | Dec | Jmp => true
  | _ => match m with Implied => true | _ => false end
  end.
Lemma decode_fits b mn m c : decode b = Some (mn, m, c) -> fits mn m = true.
Proof.
  unfold decode. intros Hd. destruct (find _ opcode_table) as [[k d]|] eqn:E; [|discriminate].
  injection Hd as ->. apply find_some in E as [Hin _].
  assert (F : forallb (fun row => match snd row with (mn, m, _) => fits mn m end) opcode_table = true)
    by (vm_compute; reflexivity).
  rewrite forallb_forall in F. exact (F _ Hin).
Qed.

Lemma cons_reads {f f2 : Z -> Z} {x l} : (forall a, In a (x :: l) -> f2 a = f a) -> forall a, In a l -> f2 a = f a.
Proof. intros H a Ha. apply H. right. exact Ha. Qed.

Lemma execute_depends p mn m c r r2 f f2 b1 b2 d1 d2 : fits mn m = true -> regs_ok r -> byte_valued f -> u8 b1 -> u8 b2 ->
  rPC r = rPC r2 \/ transfers_control mn = false ->
  same_bytes m b1 b2 d1 d2 ->
  Forall (same r r2) (emulator_looks_at mn m) ->
  (forall a, In a (reads_of mn m r f b1 b2) -> f2 a = f a) ->
  match execute p mn m c r f b1 b2, execute p mn m c r2 f2 d1 d2 with
  | Some e, Some e2 => e_stores e = e_stores e2 /\ e_cycles e = e_cycles e2 /\
      (rPC r = rPC r2 -> rPC (e_regs e) = rPC (e_regs e2)) /\
      (transfers_control mn = false -> rPC (e_regs e) = (rPC r + length_of m) mod 65536 /\ rPC (e_regs e2) = (rPC r2 + length_of m) mod 65536) /\
      Forall (same (e_regs e) (e_regs e2)) (sets mn m)
  | None, None => True
  | _, _ => False
  end.
Proof.
  intros Hp Hr Hv Hb Hb2 Hpc [H2 H3] H R.
  destruct r as [A X Y S PC [fc fz fi fd fb fu fv fn]].
  destruct r2 as [A2 X2 Y2 S2 PC2 [gc gz gi gd gb gu gv gn]].
  cbn [rPC] in Hpc.
  assert (W : m = IndirectYIndexed -> 0 <= word (f b1) (f ((b1 + 1) mod 256)) + Y).
  { intros _. destruct Hr as (_ & _ & K & _). cbn [rY] in K. assert (u8 (f b1)) by (apply Hv; unfold u8, u16 in *; lia).
    assert (u8 (f ((b1 + 1) mod 256))) by (apply Hv; unfold u8, u16 in *; lia). unfold word, u8 in *. lia. }
  assert (W2 : 0 <= word b1 b2 + 1) by (unfold word, u8 in *; lia).
  clear Hr Hv Hb Hb2.
  destruct mn, m; try discriminate Hp; cbn [length_of] in H2, H3;
    try specialize (H2 ltac:(lia)); try specialize (H3 ltac:(lia)); try subst d1; try subst d2;
    cbn [emulator_looks_at looks_at mode_looks_at mnemonic_looks_at flags_used map app] in H;
    repeat match type of H with
    | Forall _ (_ :: _) => let H1 := fresh in apply Forall_cons_iff in H; destruct H as [H1 H];
        cbn [same get flag_of rA rX rY rS rP ps_carry ps_zero ps_interrupt_disable ps_decimal ps_brk ps_unused ps_overflow ps_negative] in H1;
        try subst
    end; clear H;
    unfold reads_of, reads_made, pointer_lo, pointer_hi, pointer_reads, effective, in_memory in R;
    cbn [app nth rA rX rY rS rP rPC] in R;
    repeat match type of R with
    | forall a, In a (?x :: _) -> _ => let R1 := fresh "R" in assert (R1 := R x (or_introl eq_refl)); assert (R' := cons_reads R); clear R; rename R' into R
    end; clear R;
    cbn [transfers_control] in *;
    try (destruct Hpc as [Hpc|Hpc]; [|discriminate Hpc]; subst PC2);
    unfold execute, read_op, store_op, modify_op, implied_op, branch_op, operand_value, operand_address;
    cbn [rA rX rY rS rP rPC ps_carry ps_zero ps_interrupt_disable ps_decimal ps_brk ps_unused ps_overflow ps_negative].
  all: repeat match goal with E : ?g ?x = ?h ?x |- context [?g ?x] => rewrite E end.
  all: try match goal with |- context [if ?b then _ else _] => match type of b with bool => destruct b end end;
    try match goal with |- context [unchecked ?q ?b ?v] => destruct (unchecked q b v) eqn:U end.
  all: try (apply unchecked_mod in U; [|first [exact (W eq_refl)|exact W2]]; subst).
  all: repeat match goal with E : ?g ?x = ?h ?x |- context [?g ?x] => rewrite E end.
  all: try exact I; try (split; [|split; [|split; [|split]]]); try reflexivity; try (intros _; split; reflexivity);
    try (intros K; cbn [rPC] in K; subst; reflexivity); try (intros K; discriminate K); repeat (apply Forall_cons || apply Forall_nil); try reflexivity.
Qed.
