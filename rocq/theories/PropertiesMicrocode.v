(** C77 (6502): each microcode operation does to the registers and to memory
    exactly what it is documented to do. *)
From Verif Require Import Base Arith ModelMap ModelRegs6502 ModelCpu6502 SpecMap Link6502 ProofBus ProofFrame Properties6502 SpecMicrocode.

(** Registers: the named register gets the documented value and the others
    keep theirs; for every operation, machine, device type and build, unless
    the operation panics. *)
Theorem C77_registers : forall (D : Type) (dev : Device D) p (cpu cpu' : mos6502 D) mc, operands6 mc ->
  execute_mut p cpu mc = Ok cpu' -> forall r, reg6_value cpu' r = told (reg6_value cpu) mc r.
Proof.
  intros D dev p cpu cpu' mc Hm E r.
  assert (Hu8 : forall v, u8 (v mod 256)) by (intros; unfold u8; lia).
  assert (inj : forall a b : mos6502 D, Ok a = Ok b -> b = a) by congruence.
  destruct mc as [a v|fl v|q v|q v|q v|[] v|[] v|[] v]; cbn [execute_mut operands6] in *.
  - unfold exec_write_memory in E. destruct (am_write p (amap cpu) a v) as [[am [x|]]|]; cbn [bind] in E; try discriminate.
    apply inj in E as ->. destruct r; reflexivity.
  - apply inj in E as ->. unfold exec_set_flag, told.
    destruct r; try reflexivity. cbn [reg6_value put reg6_eqb]. unfold set_ps. cbn [reg_ps].
    destruct (reg_ps cpu) as [[] [] [] [] [] [] [] []]; destruct fl, v; reflexivity.
  - apply inj in E as ->. destruct q, r; try reflexivity. exact (C10_write_read v Hm).
  - apply inj in E as ->. destruct q, r; try reflexivity. exact (C10_write_read _ (Hu8 _)).
  - apply inj in E as ->. destruct q, r; try reflexivity. exact (C10_write_read _ (Hu8 _)).
  - apply inj in E as ->. destruct r; reflexivity.
  - apply inj in E as ->. destruct r; reflexivity.
  - apply inj in E as ->. destruct r; reflexivity.
Qed.

(** An operation that is not a memory write cannot panic and leaves the whole
    address map (every device with its contents) as it was. *)
Theorem C77_no_bus : forall (D : Type) (dev : Device D) p (cpu : mos6502 D) mc, stores mc = false ->
  exists cpu', execute_mut p cpu mc = Ok cpu' /\ amap cpu' = amap cpu.
Proof.
  intros D dev p cpu mc Hm. destruct mc as [a v|fl v|q v|q v|q v|[] v|[] v|[] v]; [discriminate|..]; cbn [execute_mut]; eexists; (split; [reflexivity|]);
    try destruct q; reflexivity.
Qed.

(** A memory write is one write on the bus. *)
Theorem C77_one_bus_write : forall (D : Type) (dev : Device D) p (cpu cpu' : mos6502 D) a v,
  execute_mut p cpu (WriteMemory a v) = Ok cpu' <->
  exists w, am_write p (amap cpu) a v = Ok (amap cpu', WOk w) /\ cpu' = set_amap cpu (amap cpu').
Proof.
  intros D dev p cpu cpu' a v. cbn [execute_mut]. unfold exec_write_memory.
  destruct (am_write p (amap cpu) a v) as [[am [x|]]|]; cbn [bind]; split; try discriminate.
  - intros E. assert (cpu' = set_amap cpu am) as -> by congruence. exists x. split; reflexivity.
  - intros (w & E & ->). f_equal. f_equal. congruence.
  - intros (w & E & _). discriminate.
  - intros (w & E & _). discriminate.
Qed.

(** On memory: the cell written holds the value, every other cell of the
    address space keeps its own, and it panics exactly outside RAM. *)
Theorem C77_memory : forall p (cpu : mos6502 memory) a v, plain_map (amap cpu) -> u16 a -> u8 v -> ram_at (amap cpu) a ->
  exists cpu', execute_mut p cpu (WriteMemory a v) = Ok cpu' /\ plain_map (amap cpu') /\
    (forall r, reg6_value cpu' r = reg6_value cpu r) /\
    (forall b, ram_at (amap cpu') b <-> ram_at (amap cpu) b) /\
    forall b, am_read p (amap cpu') b = if b =? a then Ok v else am_read p (amap cpu) b.
Proof.
  intros p cpu a v Hp Ha Hv R. destruct (plain_write_ok p (amap cpu) a v Hp Hv R) as (m' & E).
  destruct (plain_write p (amap cpu) a v m' v Hp Hv E) as (Hp' & Hr & Hb).
  exists (set_amap cpu m'). cbn [execute_mut]. unfold exec_write_memory. rewrite E. cbn [bind].
  split; [reflexivity|]. split; [exact Hp'|]. split; [intros []; reflexivity|]. split; [exact Hr|].
  intros b. specialize (Hb b). change (amap (set_amap cpu m')) with m'. unfold peek in Hb.
  destruct (plain_read p m' b Hp') as (x & X & _). destruct (plain_read p (amap cpu) b Hp) as (y & Y & _).
  rewrite X, Y in *. destruct (b =? a); congruence.
Qed.

Theorem C77_memory_panics_iff : forall p (cpu : mos6502 memory) a v, plain_map (amap cpu) -> u8 v ->
  (execute_mut p cpu (WriteMemory a v) = Panic <-> ~ ram_at (amap cpu) a).
Proof.
  intros p cpu a v Hp Hv. cbn [execute_mut]. unfold exec_write_memory.
  pose proof (write_ok_iff p (amap cpu) a v Hp Hv) as X.
  destruct (am_write p (amap cpu) a v) as [[am [x|]]|]; cbn [bind].
  - split; [discriminate|]. intros H. exfalso. apply H, X. eauto.
  - split; [|reflexivity]. intros _ R. apply X in R as (m & w & R). discriminate.
  - split; [|reflexivity]. intros _ R. apply X in R as (m & w & R). discriminate.
Qed.

(** A list of operations, as the iterator executes the operations of one
    instruction: the effects compose in order. *)
Fixpoint told_all (f : reg6 -> Z) (mcs : list microcode) : reg6 -> Z :=
  match mcs with [] => f | mc :: mcs' => told_all (told f mc) mcs' end.
Lemma told_ext mc : forall f g, (forall r, f r = g r) -> forall r, told f mc r = told g mc r.
Proof.
  intros f g E r. destruct mc as [a v|fl v|q v|q v|q v|[] v|[] v|[] v]; cbn [told]; unfold put; rewrite ?E; try reflexivity;
    destruct (reg6_eqb _ r); rewrite ?E; reflexivity.
Qed.
Lemma told_all_ext mcs : forall f g, (forall r, f r = g r) -> forall r, told_all f mcs r = told_all g mcs r.
Proof.
  induction mcs as [|mc mcs IH]; intros f g E r; [apply E|]. cbn [told_all]. apply IH. apply told_ext, E.
Qed.
Theorem C77_sequence : forall (D : Type) (dev : Device D) p mcs (cpu cpu' : mos6502 D), Forall operands6 mcs ->
  foldM (execute_mut p) mcs cpu = Ok cpu' -> forall r, reg6_value cpu' r = told_all (reg6_value cpu) mcs r.
Proof.
  intros D dev p. induction mcs as [|mc mcs IH]; intros cpu cpu' F E r; cbn [foldM told_all] in *.
  - congruence.
  - inversion_clear F as [|? ? Hm F']. destruct (execute_mut p cpu mc) as [c|] eqn:E1; cbn [bind] in E; [|discriminate].
    rewrite (IH c cpu' F' E). apply told_all_ext. intros q. exact (C77_registers D dev p cpu c mc Hm E1 q).
Qed.

(** ** Concrete cases *)
Definition small : mos6502 memory :=
  with_addressmap [mkEntry 0x10 0x11 (mkMemory ReadWrite 0x10 0x11 [1; 2]); mkEntry 0x20 0x20 (mkMemory ReadOnly 0x20 0x20 [3])].
Example C77_case : plain_map (amap small) /\ ram_at (amap small) 0x11 /\ ~ ram_at (amap small) 0x20 /\ ~ ram_at (amap small) 0x12.
Proof.
  assert (Hn : forall a, ram_at (amap small) a -> 0x10 <= a <= 0x11).
  { intros a (e & [<-|[<-|[]]] & H & K); cbn in *; [exact H|discriminate]. }
  split; [split|split; [|split]].
  - intros i j e f a Hi Hj Ci Cj. unfold covers in *.
    destruct i as [|[|i]], j as [|[|j]]; cbn in Hi, Hj; try reflexivity;
      try (destruct i; discriminate); try (destruct j; discriminate);
      injection Hi as <-; injection Hj as <-; cbn [range_lo range_hi] in *; lia.
  - apply Forall_cons; [|apply Forall_cons; [|apply Forall_nil]]; unfold region_ok; cbn; repeat split; try lia;
      repeat apply Forall_cons; try apply Forall_nil; unfold u8; lia.
  - eexists. split; [left; reflexivity|]. cbn. split; [lia|reflexivity].
  - intros H. apply Hn in H. lia.
  - intros H. apply Hn in H. lia.
Qed.
Example C77_flags : forall p,
  exists cpu', foldM (execute_mut p) [SetProgramStatusFlagState Negative true; Dec8bitRegister Y 1; Inc8bitRegister Ps 1; WriteMemory 0x11 9] small = Ok cpu' /\
    map (reg6_value cpu') [RA; RX; RY; RS; RP; RPC] = [0; 0; 255; 255; 0xa1; 0].
Proof. intros []; eexists; (split; [vm_compute; reflexivity|vm_compute; reflexivity]). Qed.

Print Assumptions C77_registers.
Print Assumptions C77_no_bus.
Print Assumptions C77_one_bus_write.
Print Assumptions C77_memory.
Print Assumptions C77_memory_panics_iff.
Print Assumptions C77_sequence.
