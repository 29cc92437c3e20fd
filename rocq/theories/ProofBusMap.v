(** The bus model of ModelBus.v against ModelRun6502.v: with an address map as
    the bus, [next] is the same function. *)
From Verif Require Import Arith ModelMap ModelStep ModelRegs6502 ModelCpu6502 ModelOperand ModelIsa6502
  ModelOps6502 ModelRun6502 ModelIo ModelOpsIo6502 ModelBus Link6502 SpecBus.

Section Map.
Context {D : Type} `{Device D}.
Variable p : profile.

(** Requests answered from a map. *)
Fixpoint via {A} (m : address_map D) (x : io A) : res A :=
  match x with
  | Ret a => Ok a
  | Abort => Panic
  | Request a k => do! v <- am_read p m a ; via m (k v)
  end.

Lemma via_answer {A} m (x : io A) : answer (map_bus p) x m = (do! a <- via m x ; Ok (a, m)).
Proof.
  induction x as [a| |addr k IH]; cbn [answer via bind]; [reflexivity|reflexivity|].
  cbn [map_bus b_read]. destruct (am_read p m addr) as [v|]; cbn [bind]; [apply IH|reflexivity].
Qed.

Lemma via_bind {A B} m (x : io A) (f : A -> io B) :
  via m (io_bind x f) = (do! a <- via m x ; via m (f a)).
Proof.
  induction x as [a| |addr k IH]; cbn [io_bind via bind]; [reflexivity|reflexivity|].
  destruct (am_read p m addr) as [v|]; cbn [bind]; [apply IH|reflexivity].
Qed.

Lemma via_lift {A} m (r : res A) : via m (io_lift r) = r.
Proof. destruct r; reflexivity. Qed.

Lemma via_dxi (cpu : mos6502 D) a i :
  via (amap cpu) (dereference_indexed_indirect_address_io p (core_of cpu) a i)
  = dereference_indexed_indirect_address p cpu a i.
Proof.
  unfold dereference_indexed_indirect_address_io, dereference_indexed_indirect_address, io_read.
  cbn [via io_bind]. destruct (am_read p (amap cpu) (wrapping_add_u8 a i)); cbn [bind]; [|reflexivity].
  destruct (add_u8 p i 1); cbn [via io_bind io_lift bind]; [|reflexivity].
  reflexivity.
Qed.

Lemma via_diy (cpu : mos6502 D) a i :
  via (amap cpu) (dereference_indirect_indexed_address_io p (core_of cpu) a i)
  = dereference_indirect_indexed_address p cpu a i.
Proof.
  unfold dereference_indirect_indexed_address_io, dereference_indirect_indexed_address, io_read.
  cbn [via io_bind]. destruct (am_read p (amap cpu) a); cbn [bind]; [|reflexivity].
  destruct (am_read p (amap cpu) (wrapping_add_u8 a 1)); cbn [bind]; [|reflexivity].
  apply via_lift.
Qed.

Lemma via_deref (cpu : mos6502 D) a i :
  via (amap cpu) (dereference_address_to_operand_io p (core_of cpu) a i)
  = dereference_address_to_operand p cpu a i.
Proof. reflexivity. Qed.

Lemma via_read m a : via m (io_read a) = am_read p m a.
Proof. unfold io_read. cbn [via]. destruct (am_read p m a); reflexivity. Qed.

Ltac open_both :=
  match goal with
  | |- via _ ?t = ?u =>
      let rec hd t := lazymatch t with ?f _ => hd f | _ => t end in
      let h := hd t in let k := hd u in unfold h, k
  end.

Lemma via_generate v (cpu : mos6502 D) : via (amap cpu) (generate_io p v (core_of cpu)) = generate p v cpu.
Proof.
  destruct v; cbn [generate_io generate]; open_both; cbv zeta;
    unfold core_of; cbn [reg_acc reg_x reg_y reg_sp reg_pc reg_ps]; fold (core_of cpu);
    repeat first
      [ reflexivity
      | apply via_lift
      | rewrite via_bind
      | rewrite via_dxi | rewrite via_diy | rewrite via_deref | rewrite via_read | rewrite via_lift
      | match goal with
        | |- bind ?x _ = bind ?x _ => destruct x; cbn [bind]; [|reflexivity]
        | |- via _ (let '(_, _) := ?x in _) = _ => destruct x
        end ].
Qed.

(** The machine made of registers and a map. *)
Definition assemble (st : core * address_map D) : mos6502 D :=
  mkMos6502 (snd st) (reg_acc (fst st)) (reg_x (fst st)) (reg_y (fst st)) (reg_sp (fst st))
    (reg_pc (fst st)) (reg_ps (fst st)).

Lemma assemble_id (cpu : mos6502 D) : assemble (core_of cpu, amap cpu) = cpu.
Proof. destruct cpu; reflexivity. Qed.

Lemma execute_map st mc :
  execute_mut p (assemble st) mc = (do! st' <- execute_bus (map_bus p) p st mc ; Ok (assemble st')).
Proof.
  destruct st as [c m].
  destruct mc as [a v|f v|r v|r v|r v|r v|r v|r v]; cbn [execute_bus];
    [|destruct f; reflexivity|destruct r; reflexivity|destruct r; reflexivity|destruct r; reflexivity
     |destruct r; reflexivity|destruct r; reflexivity|destruct r; reflexivity].
  cbn [map_bus b_write execute_mut]. unfold exec_write_memory. cbn [assemble fst snd amap].
  destruct (am_write p m a v) as [[m' [w|]]|]; reflexivity.
Qed.

Lemma fold_map : forall l st,
  foldM (execute_mut p) l (assemble st) = (do! st' <- foldM (execute_bus (map_bus p) p) l st ; Ok (assemble st')).
Proof.
  induction l as [|mc l IH]; intros st; [reflexivity|]. cbn [foldM]. rewrite execute_map.
  destruct (execute_bus (map_bus p) p st mc) as [st'|]; cbn [bind]; [apply IH|reflexivity].
Qed.

Lemma next_map (cpu : mos6502 D) :
  next p cpu = (do! ' (mops, st) <- next_bus (map_bus p) p (core_of cpu, amap cpu) ; Ok (mops, assemble st)).
Proof.
  unfold next, next_bus. rewrite via_answer. unfold generate_next. cbv zeta.
  change (reg_pc (core_of cpu)) with (reg_pc cpu).
  rewrite via_bind, via_read.
  destruct (am_read p (amap cpu) (reg_pc cpu)) as [b0|]; cbn [bind]; [|reflexivity].
  rewrite via_bind, via_lift. destruct (add_u16 p (reg_pc cpu) 1) as [a1|]; cbn [bind]; [|reflexivity].
  rewrite via_bind, via_read.
  destruct (am_read p (amap cpu) a1) as [b1|]; cbn [bind]; [|reflexivity].
  rewrite via_bind, via_lift. destruct (add_u16 p (reg_pc cpu) 2) as [a2|]; cbn [bind]; [|reflexivity].
  rewrite via_bind, via_read.
  destruct (am_read p (amap cpu) a2) as [b2|]; cbn [bind]; [|reflexivity].
  destruct (parse_instruction b0 b1 b2) as [v|]; [|reflexivity].
  rewrite via_generate. destruct (generate p v cpu) as [mops|]; cbn [bind]; [|reflexivity].
  destruct (operations_into_cycles mops) as [cs|]; cbn [bind]; [|reflexivity].
  rewrite <- (assemble_id cpu) at 1. rewrite fold_map.
  destruct (foldM (execute_bus (map_bus p) p) (concat cs) (core_of cpu, amap cpu)); reflexivity.
Qed.
End Map.
