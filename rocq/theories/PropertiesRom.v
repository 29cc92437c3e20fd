(** C92: a program does in ROM what it does in RAM, up to the first time it
    writes there. *)
From Verif Require Import Base Arith ModelMap ModelStep ModelRegs6502 ModelCpu6502 ModelOperand ModelIsa6502
  ModelRun6502 ModelIo ModelBus SpecMap Link6502 ProofRun6502 ProofBus ProofBusStep ProofBusRun ProofBusMap ProofBusLog
  PropertiesBus Demo6502.
From Verif Require Import Spec6502 SpecBus SpecProgram SpecTouch PropertiesTouch.

(** ** Specification *)
(** The machine with RAM of the same contents in place of the ROM in the
    ranges chosen by [which]. *)
Definition as_ram_entry (which : Z -> Z -> bool) (e : entry memory) : entry memory :=
  if which (range_lo e) (range_hi e)
  then mkEntry (range_lo e) (range_hi e)
         (mkMemory ReadWrite (start_address (device e)) (stop_address (device e)) (mem_inner (device e)))
  else e.
Definition as_ram (which : Z -> Z -> bool) (cpu : mos6502 memory) : mos6502 memory :=
  set_amap cpu (map (as_ram_entry which) (amap cpu)).

(** ** Proof *)
Section Unlock.
Variable which : Z -> Z -> bool.
Let unlock (m : address_map memory) : address_map memory := map (as_ram_entry which) m.

Lemma unlock_contains e a : key_contains (as_ram_entry which e) a = key_contains e a.
Proof. unfold as_ram_entry. destruct (which _ _); reflexivity. Qed.

Lemma unlock_read p m a : am_read p (unlock m) a = am_read p m a.
Proof.
  induction m as [|e m IH]; [reflexivity|]. unfold unlock in *. cbn [map am_read]. rewrite unlock_contains, IH.
  destruct (key_contains e a); [|reflexivity]. unfold as_ram_entry. destruct (which _ _); reflexivity.
Qed.

Lemma unlock_write p m a v : forall m' w, am_write p m a v = Ok (m', WOk w) -> am_write p (unlock m) a v = Ok (unlock m', WOk w).
Proof.
  induction m as [|e m IH]; intros m' w E; cbn [am_write] in E; [discriminate|].
  unfold unlock in *. cbn [map am_write]. rewrite unlock_contains. destruct (key_contains e a).
  - cbn [dev_write memory_device] in *. unfold as_ram_entry. unfold memory_write in *.
    destruct (mem_kind (device e)) eqn:K; [|discriminate].
    destruct (which (range_lo e) (range_hi e)) eqn:W; cbn [device mem_kind start_address stop_address mem_inner range_lo range_hi];
      rewrite ?K; destruct (sub_u16 p a (start_address (device e))) as [o|]; cbn [bind] in *; try discriminate;
      destruct (vec_set (mem_inner (device e)) o v) as [i|]; cbn [bind] in *; try discriminate;
      injection E as <- <-; cbn [map]; unfold as_ram_entry; cbn [range_lo range_hi device]; rewrite W; reflexivity.
  - destruct (am_write p m a v) as [[m1 r]|]; cbn [bind] in E; [|discriminate]. injection E as <- ->.
    rewrite (IH m1 w eq_refl). reflexivity.
Qed.

Lemma unlock_answer p {A} (x : io A) m : forall l r m' l', answer (watched (map_bus p)) x (m, l) = Ok (r, (m', l')) ->
  answer (watched (map_bus p)) x (unlock m, l) = Ok (r, (unlock m', l')).
Proof.
  induction x as [a| |addr k IH]; intros l r m' l' E; cbn [answer] in *.
  - injection E as <- <- <-. reflexivity.
  - discriminate.
  - cbn [watched b_read map_bus] in *. rewrite unlock_read. destruct (am_read p m addr) as [v|]; cbn [bind] in *; [|discriminate].
    apply IH, E.
Qed.

Lemma unlock_fold p ml : forall (cpu : core) m l c m' l',
  foldM (execute_bus (watched (map_bus p)) p) ml (cpu, (m, l)) = Ok (c, (m', l')) ->
  foldM (execute_bus (watched (map_bus p)) p) ml (cpu, (unlock m, l)) = Ok (c, (unlock m', l')).
Proof.
  induction ml as [|mc ml IH]; intros cpu m l c m' l' E; cbn [foldM] in *.
  - injection E as <- <- <-. reflexivity.
  - assert (G : forall r, (do! st <- (do! cpu' <- r ; Ok (cpu', (m, l))) ; foldM (execute_bus (watched (map_bus p)) p) ml st) = Ok (c, (m', l')) ->
      (do! st <- (do! cpu' <- r ; Ok (cpu', (unlock m, l))) ; foldM (execute_bus (watched (map_bus p)) p) ml st) = Ok (c, (unlock m', l'))).
    { intros [c1|] E1; cbn [bind] in *; [|discriminate]. apply IH, E1. }
    destruct mc; cbn [execute_bus] in *; try exact (G _ E).
    cbn [watched b_write map_bus] in *.
    destruct (am_write p m addr value) as [[m1 [w|]]|] eqn:W; cbn [bind] in *; try discriminate.
    rewrite (unlock_write _ _ _ _ _ _ W). cbn [bind]. apply IH, E.
Qed.

Lemma unlock_next p cpu m l mops c m' l' : next_bus (watched (map_bus p)) p (cpu, (m, l)) = Ok (mops, (c, (m', l'))) ->
  next_bus (watched (map_bus p)) p (cpu, (unlock m, l)) = Ok (mops, (c, (unlock m', l'))).
Proof.
  unfold next_bus. destruct (answer (watched (map_bus p)) (generate_next p cpu) (m, l)) as [[o [m1 l1]]|] eqn:E; cbn [bind]; [|discriminate].
  rewrite (unlock_answer _ _ _ _ _ _ _ E). cbn [bind].
  destruct (operations_into_cycles o) as [cs|]; cbn [bind]; [|discriminate].
  match goal with |- context [foldM ?f ?x (cpu, (m1, l1))] =>
    destruct (foldM f x (cpu, (m1, l1))) as [[c2 [m2 l2]]|] eqn:F; cbn [bind]; [|discriminate] end.
  intros [= <- <- <- <-]. rewrite (unlock_fold _ _ _ _ _ _ _ _ F). reflexivity.
Qed.

Lemma unlock_traced p k t cpu acc cpu' : traced p k t cpu acc cpu' -> traced p k t (as_ram which cpu) acc (as_ram which cpu').
Proof.
  induction 1 as [cpu|k t cpu mops c m acc acc' cpu' E T IH]; [constructor|].
  apply unlock_next in E. econstructor; [exact E|exact IH].
Qed.

Lemma unlock_disjoint m : SpecMap.disjoint m -> SpecMap.disjoint (unlock m).
Proof.
  intros D i j e f a Hi Hj Ce Cf. unfold unlock in *. rewrite nth_error_map in Hi, Hj.
  destruct (nth_error m i) as [e0|] eqn:Ei; [|discriminate]. destruct (nth_error m j) as [f0|] eqn:Ej; [|discriminate].
  cbn in Hi, Hj. injection Hi as <-. injection Hj as <-. apply (D i j e0 f0 a Ei Ej).
  - unfold covers, as_ram_entry in *. destruct (which _ _); exact Ce.
  - unfold covers, as_ram_entry in *. destruct (which (range_lo f0) _); exact Cf.
Qed.

Lemma unlock_plain m : plain_map m -> plain_map (unlock m).
Proof.
  intros [D R]. split; [apply unlock_disjoint, D|]. unfold unlock. apply Forall_forall. intros e He.
  apply in_map_iff in He. destruct He as (e0 & <- & H0). rewrite Forall_forall in R. specialize (R e0 H0).
  unfold as_ram_entry, region_ok in *. destruct (which _ _); exact R.
Qed.
End Unlock.

Lemma as_ram_peek which p cpu a : peek p (amap (as_ram which cpu)) a = peek p (amap cpu) a.
Proof. unfold peek, as_ram. cbn [amap set_amap]. rewrite unlock_read. reflexivity. Qed.

Lemma traced_steps {D} `{Device D} p k t (cpu : mos6502 D) acc cpu' : traced p k t cpu acc cpu' -> steps p k t cpu cpu'.
Proof. intros T. apply C81_every_run_has_a_trace. exists acc. exact T. Qed.

Lemma traced_det {D} `{Device D} p k t (cpu : mos6502 D) acc cpu' : traced p k t cpu acc cpu' -> forall t2 acc2 cpu2,
  traced p k t2 cpu acc2 cpu2 -> t2 = t /\ acc2 = acc /\ cpu2 = cpu'.
Proof.
  induction 1 as [cpu|k t cpu mops c m acc acc' cpu' E T IH]; intros t2 acc2 cpu2 T2; inversion T2; subst; [auto|].
  match goal with X : next_bus _ _ _ = Ok _ |- _ => rewrite E in X; injection X as <- <- <- <- end.
  match goal with X : traced p k _ _ _ _ |- _ => destruct (IH _ _ _ X) as (-> & -> & ->) end. auto.
Qed.

(** ** C92 *)
(** What runs with ROM runs with RAM instead, access for access, and ends with
    the same registers and memory contents. *)
Theorem C92_ram_for_rom_run : forall which p cpu n cpu',
  run p cpu n = Ok (Ready cpu') -> run p (as_ram which cpu) n = Ok (Ready (as_ram which cpu')).
Proof.
  intros which p cpu n cpu' E. apply run_ready_iff in E as (k & t & St & L & Stop). apply run_ready_iff.
  assert (G : forall k t c c', steps p k t c c' -> steps p k t (as_ram which c) (as_ram which c')).
  { intros k0 t0 c c' S0. apply C81_every_run_has_a_trace in S0. destruct S0 as (acc & T).
    exact (traced_steps _ _ _ _ _ _ (unlock_traced which _ _ _ _ _ _ T)). }
  exists k, t. split; [apply G, St|]. split; [exact L|]. destruct Stop as [->|(c & cpu2 & E & L2)]; [left; reflexivity|right].
  exists c, (as_ram which cpu2). split; [|exact L2].
  assert (S1 : steps p 1 (c + 0) cpu' cpu2) by (econstructor; [exact E|constructor]).
  apply G in S1. inversion S1 as [|k1 t1 c1 a b d E1 S2 e1 e2]; subst. inversion S2; subst. rewrite E1. f_equal. f_equal. lia.
Qed.

Theorem C92_ram_for_rom_trace : forall which p k t cpu acc cpu',
  traced p k t cpu acc cpu' -> traced p k t (as_ram which cpu) acc (as_ram which cpu').
Proof. intros which p k t cpu acc cpu'. apply unlock_traced. Qed.

(** And the other way round, exactly as long as nothing is written to the ROM. *)
Theorem C92_rom_for_ram : forall which p k t cpu acc u, plain_map (amap cpu) -> regs_ok (regs_of cpu) ->
  traced p k t (as_ram which cpu) acc u -> (forall a, written acc a -> ram_at (amap cpu) a) ->
  exists cpu', u = as_ram which cpu' /\ traced p k t cpu acc cpu' /\ runs p k t cpu cpu' /\
    forall a, peek p (amap cpu') a = peek p (amap u) a.
Proof.
  intros which p k t cpu acc u Hp Hr T W.
  assert (Hr2 : regs_ok (regs_of (as_ram which cpu))) by exact Hr.
  destruct (C81_only_needed_bytes_matter p k t (as_ram which cpu) cpu acc u (unlock_plain which _ Hp) Hp Hr2 eq_refl T)
    as (cpu' & T2 & _ & R & _); [intros a _; symmetry; apply as_ram_peek|exact W|].
  exists cpu'. pose proof (unlock_traced which _ _ _ _ _ _ T2) as T3.
  destruct (traced_det _ _ _ _ _ _ T _ _ _ T3) as (_ & _ & <-).
  split; [reflexivity|]. split; [exact T2|]. split; [exact R|]. intros a. symmetry. apply as_ram_peek.
Qed.

Theorem C92_exactly_until_a_write : forall which p k t cpu acc u, plain_map (amap cpu) -> regs_ok (regs_of cpu) ->
  traced p k t (as_ram which cpu) acc u ->
  ((exists t' cpu', steps p k t' cpu cpu') <-> forall a, written acc a -> ram_at (amap cpu) a).
Proof.
  intros which p k t cpu acc u Hp Hr T. split.
  - intros (t' & cpu' & S0). apply C81_every_run_has_a_trace in S0. destruct S0 as (acc2 & T2).
    destruct (traced_det _ _ _ _ _ _ T _ _ _ (unlock_traced which _ _ _ _ _ _ T2)) as (_ & -> & _).
    exact (proj2 (C81_memory_after_a_run _ _ _ _ _ _ Hp Hr T2)).
  - intros W. destruct (C92_rom_for_ram which p k t cpu acc u Hp Hr T W) as (cpu' & _ & T2 & _).
    exists t, cpu'. exact (traced_steps _ _ _ _ _ _ T2).
Qed.

Print Assumptions C92_ram_for_rom_run.
Print Assumptions C92_ram_for_rom_trace.
Print Assumptions C92_rom_for_ram.
Print Assumptions C92_exactly_until_a_write.

(** ** Concrete cases *)
(** INC 0x10 / INC 0x8004 / NOP with the program in ROM at 0x8000: two
    instructions run in RAM, only the first in ROM. *)
Definition self_changing : list Z := [0xe6; 0x10; 0xee; 0x04; 0x80; 0xea; 0xea; 0xea].
Definition burnt : mos6502 memory := machine [] self_changing 0 0 0 0xff ps0.
Definition everywhere (lo hi : Z) : bool := true.

Example C92_case_plain : plain_map (amap burnt) /\ regs_ok (regs_of burnt).
Proof. exact (machine_plain [] self_changing 0 0 0 0xff ps0 eq_refl). Qed.
Example C92_case_rom : match run Debug burnt 5 with Ok s => peek Debug (amap (ss_unwrap s)) 0x10 | Panic => -1 end = 1.
Proof. vm_compute. reflexivity. Qed.
Example C92_case_ram : match trace_of Debug 2 (as_ram everywhere burnt) with
  | Ok (acc, u) => (acc, peek Debug (amap u) 0x8004) | Panic => ([], -1) end =
  ([Rd 0x8000 0xe6; Rd 0x8001 0x10; Rd 0x8002 0xee; Rd 0x10 0; Wr 0x10 1;
    Rd 0x8002 0xee; Rd 0x8003 0x04; Rd 0x8004 0x80; Rd 0x8004 0x80; Wr 0x8004 0x81], 0x81).
Proof. vm_compute. reflexivity. Qed.
Example C92_case_refused : run Debug burnt 11 = Panic.
Proof. vm_compute. reflexivity. Qed.
Example C92_case_first : exists t u, traced Debug 1 t (as_ram everywhere burnt)
    [Rd 0x8000 0xe6; Rd 0x8001 0x10; Rd 0x8002 0xee; Rd 0x10 0; Wr 0x10 1] u /\
  forall a, written [Rd 0x8000 0xe6; Rd 0x8001 0x10; Rd 0x8002 0xee; Rd 0x10 0; Wr 0x10 1] a -> ram_at (amap burnt) a.
Proof.
  assert (E : match trace_of Debug 1 (as_ram everywhere burnt) with Ok (acc, _) => acc | Panic => [] end =
    [Rd 0x8000 0xe6; Rd 0x8001 0x10; Rd 0x8002 0xee; Rd 0x10 0; Wr 0x10 1]) by (vm_compute; reflexivity).
  destruct (trace_of Debug 1 (as_ram everywhere burnt)) as [[acc u]|] eqn:Et; [|discriminate]. subst acc.
  destruct (trace_of_traced _ _ _ _ _ Et) as (t & T). exists t, u. split; [exact T|].
  intros a (v & Q). cbn [In] in Q. repeat (destruct Q as [Q|Q]; [try discriminate Q|]); [|contradiction].
  assert (a = 0x10) by congruence. subst a. eexists. split; [left; reflexivity|]. cbn. split; [lia|reflexivity].
Qed.
