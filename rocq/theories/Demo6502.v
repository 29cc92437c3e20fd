(** Concrete machines used to show that the hypotheses of the theorems are
    met by non-trivial states. *)
From Verif Require Import Base Arith ModelMap ModelRegs6502 ModelCpu6502 ModelOperand
  ModelIsa6502 ModelRun6502 SpecMap ProofMap Link6502 ProofRun6502 ProofBus SpecInstr ProofInstr.
From Verif Require Import Spec6502.

(** 1 KiB of RAM at 0 (zero page, stack and two more pages) with given first
    bytes, a ROM holding [prog] at 0x8000, nothing elsewhere. *)
Definition machine (zp prog : list Z) (a x y sp : Z) (ps : processor_status) : mos6502 memory :=
  mkMos6502
    [ mkEntry 0 0x3ff (mkMemory ReadWrite 0 0x3ff (zp ++ repeat 0 (Z.to_nat (1024 - Z.of_nat (length zp)))));
      mkEntry 0x8000 (0x8000 + Z.of_nat (length prog) - 1)
        (mkMemory ReadOnly 0x8000 (0x8000 + Z.of_nat (length prog) - 1) prog) ]
    a x y sp 0x8000 ps.

Definition bytesb (l : list Z) : bool := forallb (fun v => (0 <=? v) && (v <? 256)) l.

Lemma bytesb_ok l : bytesb l = true -> Forall u8 l.
Proof.
  intros E. apply Forall_forall. intros v Hin. unfold bytesb in E.
  rewrite forallb_forall in E. specialize (E v Hin). unfold u8. lia.
Qed.

Definition machine_fits (zp prog : list Z) (a x y sp : Z) : bool :=
  bytesb zp && bytesb prog && bytesb [a; x; y; sp] &&
  (Z.of_nat (length zp) <=? 1024) && (1 <=? Z.of_nat (length prog)) && (Z.of_nat (length prog) <=? 0x4000).

Lemma machine_plain zp prog a x y sp ps : machine_fits zp prog a x y sp = true ->
  plain_map (amap (machine zp prog a x y sp ps)) /\ regs_ok (regs_of (machine zp prog a x y sp ps)).
Proof.
  unfold machine_fits. rewrite !andb_true_iff. intros [[[[[Hz Hp] Hr] L1] L2] L3].
  apply bytesb_ok in Hz, Hp, Hr.
  assert (L1' : Z.of_nat (length zp) <= 1024) by lia.
  split; [split|].
  - apply disjoint_cons_rev; [apply disjoint_cons_rev; [apply disjoint_nil|]|].
    + intros b _ e [].
    + intros b Hb e [<-|[]]. unfold covers in *. cbn in *. lia.
  - repeat constructor; cbn [device start_address range_lo range_hi mem_inner]; try lia.
    + rewrite app_length, repeat_length. lia.
    + apply Forall_app. split; [exact Hz|]. apply Forall_forall. intros v Hv.
      apply repeat_spec in Hv. subst v. unfold u8; lia.
    + exact Hp.
  - apply Forall_cons_iff in Hr as [Ra Hr]. apply Forall_cons_iff in Hr as [Rx Hr].
    apply Forall_cons_iff in Hr as [Ry Hr]. apply Forall_cons_iff in Hr as [Rs _].
    refine (conj Ra (conj Rx (conj Ry (conj Rs _)))). cbn. unfold u16; lia.
Qed.

Definition bytes_at p zp prog a x y sp ps := peek p (amap (machine zp prog a x y sp ps)).

Lemma machine_about p zp prog a x y sp ps mn m c b1 b2 :
  machine_fits zp prog a x y sp = true ->
  decode (bytes_at p zp prog a x y sp ps 0x8000) = Some (mn, m, c) ->
  b1 = bytes_at p zp prog a x y sp ps 0x8001 ->
  b2 = bytes_at p zp prog a x y sp ps 0x8002 ->
  about_to p (machine zp prog a x y sp ps) (bytes_at p zp prog a x y sp ps) mn m c b1 b2.
Proof.
  intros Hf Hd H1 H2. destruct (machine_plain zp prog a x y sp ps Hf) as [Hp Hr].
  assert (Hw : plain_with (fun _ => False) (amap (machine zp prog a x y sp ps)))
    by (split; [exact Hp|intros b []]).
  destruct (bus_peek p _ _ (plain_ram_bus p (fun _ => False)) _ Hw) as [Hb Hv].
  refine (conj Hr (conj Hb (conj Hv (conj _ (conj Hd (conj H1 H2)))))). right. cbn. lia.
Qed.

(** A step of the demo machine, by computation. *)
Definition demo_step p zp prog a x y sp ps : option (nat * list Z * processor_status) :=
  match observed_step p (machine zp prog a x y sp ps) with
  | Ok (c, cpu) => Some (c, [reg_acc cpu; reg_x cpu; reg_y cpu; reg_sp cpu; reg_pc cpu], reg_ps cpu)
  | Panic => None
  end.

Definition ps0 : processor_status := ps_default.
