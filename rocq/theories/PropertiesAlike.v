(** Property C70: how memory is put together does not matter. *)
From Verif Require Import Base Arith ModelMap ModelStep ModelRegs6502 ModelCpu6502 ModelOperand ModelIsa6502
  ModelRun6502 ModelIo ModelBus ProofBusMap ProofAlike ProofMap SpecBus SpecMap.
From Coq Require Import Permutation.

(** Two machines with the same registers on buses that no access can tell
    apart: every instruction, every hand-driven sequence and every run gives
    the same registers, microcode and cycle counts, and panics on both or on
    neither. *)
Theorem C70_next_alike : forall S1 S2 (R : S1 -> S2 -> Prop) b1 b2, alike R b1 b2 ->
  forall p (cpu : core) s1 s2, R s1 s2 ->
  agree (fun x y => fst x = fst y /\ fst (snd x) = fst (snd y) /\ R (snd (snd x)) (snd (snd y)))
    (next_bus b1 p (cpu, s1)) (next_bus b2 p (cpu, s2)).
Proof. intros S1 S2 R b1 b2 Hal p cpu s1 s2 Hs. exact (next_alike R b1 b2 Hal p cpu s1 s2 Hs). Qed.

Theorem C70_run_alike : forall S1 S2 (R : S1 -> S2 -> Prop) b1 b2, alike R b1 b2 ->
  forall p (cpu : core) s1 s2 n, R s1 s2 ->
  agree (fun x y => fst x = fst y /\ R (snd x) (snd y)) (run_bus b1 p cpu s1 n) (run_bus b2 p cpu s2 n).
Proof. intros S1 S2 R b1 b2 Hal p cpu s1 s2 n Hs. exact (run_bus_alike R b1 b2 Hal p cpu s1 s2 n Hs). Qed.

(** The same for machines with address maps of any device types. *)
Definition same_registers {D1 D2} (c1 : mos6502 D1) (c2 : mos6502 D2) : Prop :=
  reg_acc c1 = reg_acc c2 /\ reg_x c1 = reg_x c2 /\ reg_y c1 = reg_y c2 /\
  reg_sp c1 = reg_sp c2 /\ reg_pc c1 = reg_pc c2 /\ reg_ps c1 = reg_ps c2.

Lemma twins_iff {D1 D2} (R : address_map D1 -> address_map D2 -> Prop) c1 c2 :
  twins R c1 c2 <-> same_registers c1 c2 /\ R (amap c1) (amap c2).
Proof.
  unfold twins, same_registers, core_of. split.
  - intros [E Hm]. split; [|exact Hm]. injection E as -> -> -> -> -> ->. repeat split.
  - intros [(-> & -> & -> & -> & -> & ->) Hm]. split; [reflexivity|exact Hm].
Qed.

Theorem C70_map_run : forall D1 D2 (dev1 : Device D1) (dev2 : Device D2) p
    (R : address_map D1 -> address_map D2 -> Prop),
  alike R (map_bus p) (map_bus p) ->
  forall c1 c2 n, same_registers c1 c2 -> R (amap c1) (amap c2) ->
  agree (fun x y => exists d1 d2, x = Ready d1 /\ y = Ready d2 /\ same_registers d1 d2 /\ R (amap d1) (amap d2))
    (run p c1 n) (run p c2 n).
Proof.
  intros D1 D2 dev1 dev2 p R Hal c1 c2 n Hr Hm.
  eapply agree_weaken; [apply (map_run_alike p R Hal n c1 c2), twins_iff; auto|].
  cbn beta. intros x y (d1 & d2 & -> & -> & T). apply twins_iff in T. destruct T as [T1 T2].
  exists d1, d2. auto.
Qed.

Theorem C70_map_reset : forall D1 D2 (dev1 : Device D1) (dev2 : Device D2) p
    (R : address_map D1 -> address_map D2 -> Prop),
  alike R (map_bus p) (map_bus p) ->
  forall c1 c2, R (amap c1) (amap c2) ->
  agree (fun x y => exists d1 d2, x = NotReady 5 d1 /\ y = NotReady 5 d2 /\ same_registers d1 d2 /\ R (amap d1) (amap d2))
    (reset p c1) (reset p c2).
Proof.
  intros D1 D2 dev1 dev2 p R Hal c1 c2 Hm.
  assert (E1 : reset p c1 = reset p (assemble (core_of (assemble (with_addressmap [] : core, amap c1)), amap c1)))
    by reflexivity.
  assert (E2 : reset p c2 = reset p (assemble (core_of (assemble (with_addressmap [] : core, amap c2)), amap c2)))
    by reflexivity.
  rewrite E1, E2.
  eapply agree_weaken; [apply (map_reset_alike p R Hal)|].
  - split; [reflexivity|exact Hm].
  - cbn beta. intros x y (d1 & d2 & -> & -> & T). apply twins_iff in T. destruct T as [T1 T2].
    exists d1, d2. auto.
Qed.

(** The iteration order of the hash map, over whole runs. *)
Theorem C70_registration_order : forall D (dev : Device D) p (c1 c2 : mos6502 D) n,
  disjoint (amap c1) -> Permutation (amap c1) (amap c2) -> same_registers c1 c2 ->
  agree (fun x y => exists d1 d2, x = Ready d1 /\ y = Ready d2 /\ same_registers d1 d2 /\
           Permutation (amap d1) (amap d2))
    (run p c1 n) (run p c2 n).
Proof.
  intros D dev p c1 c2 n Hd Hp Hr.
  eapply agree_weaken;
    [apply (C70_map_run _ _ _ _ p reordered (reordered_alike D dev p) c1 c2 n Hr); split; assumption|].
  cbn beta. intros x y (d1 & d2 & -> & -> & T1 & [_ T2]). exists d1, d2. auto.
Qed.

(** One block of RAM or ROM, or two blocks that meet at any address. *)
Theorem C70_split_memory : forall p k lo mid hi data1 data2 others (c1 c2 : mos6502 memory) n,
  u16 lo -> u16 hi -> lo <= mid < hi ->
  Z.of_nat (length data1) = mid - lo + 1 -> Z.of_nat (length data2) = hi - mid ->
  amap c1 = mkEntry lo hi (mkMemory k lo hi (data1 ++ data2)) :: others ->
  amap c2 = mkEntry lo mid (mkMemory k lo mid data1) ::
            mkEntry (mid + 1) hi (mkMemory k (mid + 1) hi data2) :: others ->
  same_registers c1 c2 ->
  agree (fun x y => exists d1 d2 new1 new2 others',
           x = Ready d1 /\ y = Ready d2 /\ same_registers d1 d2 /\
           amap d1 = mkEntry lo hi (mkMemory k lo hi (new1 ++ new2)) :: others' /\
           amap d2 = mkEntry lo mid (mkMemory k lo mid new1) ::
                     mkEntry (mid + 1) hi (mkMemory k (mid + 1) hi new2) :: others')
    (run p c1 n) (run p c2 n).
Proof.
  intros p k lo mid hi data1 data2 others c1 c2 n Hlo Hhi Hmid L1 L2 E1 E2 Hr.
  eapply agree_weaken;
    [apply (C70_map_run _ _ _ _ p (halves k lo mid hi) (halves_alike p k lo mid hi Hlo Hhi Hmid) c1 c2 n Hr)|].
  - exists data1, data2, others. auto.
  - cbn beta. intros x y (d1 & d2 & -> & -> & T1 & (n1 & n2 & o & _ & _ & H1 & H2)).
    exists d1, d2, n1, n2, o. auto 10.
Qed.

(** Address maps used as devices of an address map: the same as registering
    everything in one map. *)
Theorem C70_nested_maps : forall D (dev : Device D) p (c1 : mos6502 (address_map D)) (c2 : mos6502 D) n,
  disjoint (amap c1) ->
  (forall e x, In e (amap c1) -> In x (device e) -> range_lo e <= range_lo x /\ range_hi x <= range_hi e) ->
  amap c2 = concat (map device (amap c1)) -> same_registers c1 c2 ->
  agree (fun x y => exists d1 d2, x = Ready d1 /\ y = Ready d2 /\ same_registers d1 d2 /\
           amap d2 = concat (map device (amap d1)))
    (@run _ am_device p c1 n) (run p c2 n).
Proof.
  intros D dev p c1 c2 n Hd Hw E Hr.
  eapply agree_weaken;
    [apply (C70_map_run _ _ am_device dev p nested (nested_alike D dev p) c1 c2 n Hr)|].
  - split; [exact Hd|]. split; [|exact E]. apply Forall_forall. intros e He x Hx. exact (Hw e x He Hx).
  - cbn beta. intros x y (d1 & d2 & -> & -> & T1 & (_ & _ & T2)). exists d1, d2. auto.
Qed.

Print Assumptions C70_next_alike.
Print Assumptions C70_run_alike.
Print Assumptions C70_map_run.
Print Assumptions C70_map_reset.
Print Assumptions C70_registration_order.
Print Assumptions C70_split_memory.
Print Assumptions C70_nested_maps.

(** ** Concrete cases: INC 0x11; JMP 0x20 with the counter in a split RAM and
    the program in a ROM, run for 40 cycles. *)
Definition prog : memory := mkMemory ReadOnly 0x20 0x26 [0xe6; 0x11; 0x4c; 0x20; 0x00; 0; 0].
Definition code : entry memory := mkEntry 0x20 0x26 prog.
Definition one_block : mos6502 memory :=
  mkMos6502 [mkEntry 0x10 0x13 (mkMemory ReadWrite 0x10 0x13 [1; 2; 3; 4]); code] 0 0 0 0xff 0x20 ps_default.
Definition two_blocks : mos6502 memory :=
  mkMos6502 [mkEntry 0x10 0x11 (mkMemory ReadWrite 0x10 0x11 [1; 2]);
             mkEntry 0x12 0x13 (mkMemory ReadWrite 0x12 0x13 [3; 4]); code] 0 0 0 0xff 0x20 ps_default.
Definition swapped : mos6502 memory :=
  mkMos6502 [code; mkEntry 0x10 0x13 (mkMemory ReadWrite 0x10 0x13 [1; 2; 3; 4])] 0 0 0 0xff 0x20 ps_default.
Definition as_devices : mos6502 (address_map memory) :=
  mkMos6502 [mkEntry 0x10 0x1f [mkEntry 0x10 0x13 (mkMemory ReadWrite 0x10 0x13 [1; 2; 3; 4])];
             mkEntry 0x20 0x2f [code]] 0 0 0 0xff 0x20 ps_default.

Example C70_case :
  run Debug one_block 40 = Ok (Ready (mkMos6502
     [mkEntry 0x10 0x13 (mkMemory ReadWrite 0x10 0x13 [1; 7; 3; 4]); code] 0 0 0 0xff 0x20 (reg_ps one_block))) /\
  run Debug two_blocks 40 = Ok (Ready (mkMos6502
     [mkEntry 0x10 0x11 (mkMemory ReadWrite 0x10 0x11 [1; 7]);
      mkEntry 0x12 0x13 (mkMemory ReadWrite 0x12 0x13 [3; 4]); code] 0 0 0 0xff 0x20 (reg_ps one_block))) /\
  @run _ am_device Debug as_devices 40 = Ok (Ready (mkMos6502
     [mkEntry 0x10 0x1f [mkEntry 0x10 0x13 (mkMemory ReadWrite 0x10 0x13 [1; 7; 3; 4])];
      mkEntry 0x20 0x2f [code]] 0 0 0 0xff 0x20 (reg_ps one_block))).
Proof. repeat split; vm_compute; reflexivity. Qed.

Example C70_case_hypotheses :
  disjoint (amap one_block) /\ Permutation (amap one_block) (amap swapped) /\ same_registers one_block swapped /\
  disjoint (amap as_devices) /\ amap one_block = concat (map device (amap as_devices)) /\
  halves ReadWrite 0x10 0x11 0x13 (amap one_block) (amap two_blocks).
Proof.
  assert (Dj : forall D (x y : entry D) , range_hi x < range_lo y -> disjoint [x; y]).
  { intros D x y H. apply disjoint_cons_rev.
    - apply disjoint_cons_rev; [apply disjoint_nil|]. intros a _ e [].
    - intros a Ha e [<-|[]] He. unfold covers in *. lia. }
  split; [apply Dj; cbn; lia|]. split; [apply perm_swap|]. split; [repeat split|].
  split; [apply Dj; cbn; lia|]. split; [reflexivity|].
  exists [1; 2], [3; 4], [code]. repeat split.
Qed.
