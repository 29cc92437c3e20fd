(** [run] as a prefix of the microcode stream; memory shape; decidable state
    equality for the example program. *)
From Verif Require Spec6502.
From Verif Require Import Base Arith ModelMap ModelStep ModelRegs6502 ModelCpu6502 ModelOperand
  ModelIsa6502 ModelRun6502 SpecMap ProofMap Link6502 ProofRun6502.

Section Replay.
Context {D : Type} `{Device D}.
Implicit Type cpu : mos6502 D.

Lemma take_app p : forall (c1 : list (list microcode)) n buf it,
  (n <= length c1)%nat -> take_cycles p n (c1 ++ buf) it = Ok (firstn n c1).
Proof.
  induction c1 as [|c c1 IH]; intros n buf it Hn.
  - destruct n; [reflexivity|cbn in Hn; lia].
  - destruct n as [|n]; [reflexivity|]. cbn [app take_cycles firstn length] in *.
    rewrite IH by lia. reflexivity.
Qed.

Lemma take_skip p : forall (c1 : list (list microcode)) n it,
  (length c1 <= n)%nat ->
  take_cycles p n c1 it = (do! rest <- take_cycles p (n - length c1) [] it ; Ok (c1 ++ rest)).
Proof.
  induction c1 as [|c c1 IH]; intros n it Hn.
  - rewrite Nat.sub_0_r. destruct (take_cycles p n [] it); reflexivity.
  - cbn [length] in *. destruct n as [|n]; [lia|]. cbn [take_cycles Nat.sub].
    rewrite IH by lia. destruct (take_cycles p (n - length c1) [] it); reflexivity.
Qed.

Lemma into_cycles_nonempty p cpu mops cpu' cs : next p cpu = Ok (mops, cpu') ->
  operations_into_cycles mops = Ok cs -> exists c l, cs = c :: l.
Proof.
  intros Hn Hc. destruct (next_inv _ _ _ _ Hn) as (n & _ & Ec & _). rewrite Ec in Hc.
  injection Hc as <-. destruct n; cbn; eauto.
Qed.

(** The first [n] cycles of the stream, whatever the number of instructions
    collected. *)
Lemma take_iterate p : forall k cpu ms cpu' cs, iterate p k cpu = Ok (ms, cpu') ->
  expand ms = Ok cs -> forall n, (n <= length cs)%nat -> take_cycles p n [] cpu = Ok (firstn n cs).
Proof.
  induction k as [|k IH]; intros cpu ms cpu' cs Hi He n Hn; cbn [iterate] in Hi.
  - injection Hi as <- <-. cbn in He. injection He as <-. destruct n; [reflexivity|cbn in Hn; lia].
  - destruct (next p cpu) as [[m cpu1]|] eqn:En; cbn [bind] in Hi; [|discriminate].
    destruct (iterate p k cpu1) as [[ms' cpu2]|] eqn:Ei; cbn [bind] in Hi; [|discriminate].
    injection Hi as <- <-. cbn [expand] in He.
    destruct (operations_into_cycles m) as [c1|] eqn:Ec; cbn [bind] in He; [|discriminate].
    destruct (expand ms') as [c2|] eqn:E2; cbn [bind] in He; [|discriminate].
    injection He as <-. rewrite app_length in Hn.
    destruct n as [|n]; [reflexivity|].
    assert (Es : take_cycles p (S n) [] cpu = take_cycles p (S n) c1 cpu1).
    { cbn [take_cycles]. rewrite En. cbn [bind]. rewrite Ec. cbn [bind].
      destruct (into_cycles_nonempty _ _ _ _ _ En Ec) as (c & l & ->). reflexivity. }
    rewrite Es. destruct (Nat.leb (length c1) (S n)) eqn:El.
    + rewrite take_skip by lia. rewrite (IH cpu1 ms' cpu2 c2 Ei E2) by lia. cbn [bind].
      rewrite firstn_app. rewrite (firstn_all2 c1) by lia. reflexivity.
    + rewrite <- (app_nil_r c1) at 1. rewrite take_app by lia.
      rewrite firstn_app. replace (S n - length c1)%nat with 0%nat by lia.
      cbn [firstn]. rewrite app_nil_r. reflexivity.
Qed.
End Replay.

(** ** Shape of memory maps *)
Lemma write_regions p (m : address_map memory) a v m' r :
  am_write p m a v = Ok (m', r) -> regions m' = regions m.
Proof.
  intros Hw. destruct (write_shape _ _ _ _ _ _ Hw)
    as [(-> & _ & _)|(l1 & e & l2 & d' & -> & _ & _ & Hd & ->)]; [reflexivity|].
  unfold regions. rewrite !map_app. cbn [map]. f_equal. f_equal.
  cbn [range_lo range_hi device dev_write memory_device] in *. unfold memory_write in Hd.
  destruct (mem_kind (device e)) eqn:Ek.
  - destruct (sub_u16 p a (start_address (device e))) as [o|]; cbn [bind] in Hd; [|discriminate].
    unfold vec_set in Hd. destruct (_ && _) in Hd; cbn [bind] in Hd; [|discriminate].
    injection Hd as <- _. cbn [mem_kind start_address stop_address mem_inner].
    rewrite list_upd_length. reflexivity.
  - injection Hd as <- _. rewrite Ek. reflexivity.
Qed.

(** ** Decidable equality of machines with memories *)
Fixpoint zlist_eqb (l1 l2 : list Z) : bool :=
  match l1, l2 with
  | [], [] => true
  | a :: l1', b :: l2' => (a =? b) && zlist_eqb l1' l2'
  | _, _ => false
  end.
Lemma zlist_eqb_ok l1 : forall l2, zlist_eqb l1 l2 = true -> l1 = l2.
Proof.
  induction l1 as [|a l1 IH]; intros [|b l2] E; cbn in E; try discriminate; [reflexivity|].
  apply andb_true_iff in E as [E1 E2]. apply Z.eqb_eq in E1. rewrite (IH l2 E2), E1. reflexivity.
Qed.
Definition kind_eqb (a b : mem_type) : bool :=
  match a, b with ReadWrite, ReadWrite | ReadOnly, ReadOnly => true | _, _ => false end.
Definition entry_eqb (e f : entry memory) : bool :=
  (range_lo e =? range_lo f) && (range_hi e =? range_hi f) &&
  kind_eqb (mem_kind (device e)) (mem_kind (device f)) &&
  (start_address (device e) =? start_address (device f)) &&
  (stop_address (device e) =? stop_address (device f)) &&
  zlist_eqb (mem_inner (device e)) (mem_inner (device f)).
Lemma entry_eqb_ok e f : entry_eqb e f = true -> e = f.
Proof.
  unfold entry_eqb. rewrite !andb_true_iff. intros [[[[[E1 E2] E3] E4] E5] E6].
  apply Z.eqb_eq in E1, E2, E4, E5. apply zlist_eqb_ok in E6.
  destruct e as [l1 h1 [k1 s1 t1 i1]], f as [l2 h2 [k2 s2 t2 i2]]; cbn in *. subst.
  destruct k1, k2; try discriminate; reflexivity.
Qed.
Fixpoint map_eqb (m1 m2 : address_map memory) : bool :=
  match m1, m2 with
  | [], [] => true
  | e :: m1', f :: m2' => entry_eqb e f && map_eqb m1' m2'
  | _, _ => false
  end.
Lemma map_eqb_ok m1 : forall m2, map_eqb m1 m2 = true -> m1 = m2.
Proof.
  induction m1 as [|a l1 IH]; intros [|b l2] E; cbn in E; try discriminate; [reflexivity|].
  apply andb_true_iff in E as [E1 E2]. apply entry_eqb_ok in E1. rewrite (IH l2 E2), E1. reflexivity.
Qed.
Definition ps_eqb (a b : processor_status) : bool :=
  Bool.eqb (ps_carry a) (ps_carry b) && Bool.eqb (ps_zero a) (ps_zero b) &&
  Bool.eqb (ps_interrupt_disable a) (ps_interrupt_disable b) && Bool.eqb (ps_decimal a) (ps_decimal b) &&
  Bool.eqb (ps_brk a) (ps_brk b) && Bool.eqb (ps_unused a) (ps_unused b) &&
  Bool.eqb (ps_overflow a) (ps_overflow b) && Bool.eqb (ps_negative a) (ps_negative b).
Lemma ps_eqb_ok a b : ps_eqb a b = true -> a = b.
Proof.
  unfold ps_eqb. rewrite !andb_true_iff. intros [[[[[[[E1 E2] E3] E4] E5] E6] E7] E8].
  apply Bool.eqb_prop in E1, E2, E3, E4, E5, E6, E7, E8.
  destruct a, b; cbn in *; congruence.
Qed.
Definition cpu_eqb (a b : mos6502 memory) : bool :=
  map_eqb (amap a) (amap b) && zlist_eqb [reg_acc a; reg_x a; reg_y a; reg_sp a; reg_pc a]
    [reg_acc b; reg_x b; reg_y b; reg_sp b; reg_pc b] && ps_eqb (reg_ps a) (reg_ps b).
Lemma cpu_eqb_ok a b : cpu_eqb a b = true -> a = b.
Proof.
  unfold cpu_eqb. rewrite !andb_true_iff. intros [[E1 E2] E3].
  apply map_eqb_ok in E1. apply zlist_eqb_ok in E2. apply ps_eqb_ok in E3.
  destruct a, b; cbn in *. congruence.
Qed.

(** ** Boolean forms of the machine conditions *)
Definition region_okb (e : entry memory) : bool :=
  (0 <=? start_address (device e)) && (start_address (device e) <=? range_lo e) &&
  (range_hi e <=? 65535) &&
  (range_hi e - start_address (device e) <? Z.of_nat (length (mem_inner (device e)))) &&
  forallb (fun v => (0 <=? v) && (v <? 256)) (mem_inner (device e)).
Fixpoint plain_mapb (m : address_map memory) : bool :=
  match m with
  | [] => true
  | e :: m' =>
      region_okb e &&
      forallb (fun f => (range_hi e <? range_lo f) || (range_hi f <? range_lo e)) m' && plain_mapb m'
  end.
Lemma region_okb_ok e : region_okb e = true -> region_ok e.
Proof.
  unfold region_okb, region_ok. rewrite !andb_true_iff. intros [[[[E1 E2] E3] E4] E5].
  split; [lia|]. split; [lia|]. split; [lia|]. apply Forall_forall. intros v Hin.
  rewrite forallb_forall in E5. specialize (E5 v Hin). unfold u8. lia.
Qed.
Lemma plain_mapb_ok m : plain_mapb m = true -> plain_map m.
Proof.
  induction m as [|e m IH]; intros E.
  - split; [apply disjoint_nil|constructor].
  - cbn [plain_mapb] in E. rewrite !andb_true_iff in E. destruct E as [[E1 E2] E3].
    destruct (IH E3) as [Hd Hf]. split.
    + apply disjoint_cons_rev; [exact Hd|]. intros b Hb f Hf' Hc.
      rewrite forallb_forall in E2. specialize (E2 f Hf'). unfold covers in *. lia.
    + constructor; [exact (region_okb_ok e E1)|exact Hf].
Qed.
Definition ram_atb (m : address_map memory) (a : Z) : bool :=
  existsb (fun e => (range_lo e <=? a) && (a <=? range_hi e) && kind_eqb (mem_kind (device e)) ReadWrite) m.
Lemma ram_atb_ok m a : ram_atb m a = true -> ram_at m a.
Proof.
  unfold ram_atb, ram_at. rewrite existsb_exists. intros (e & Hin & E). exists e.
  rewrite !andb_true_iff in E. destruct E as [[E1 E2] E3]. split; [exact Hin|]. split; [lia|].
  destruct (mem_kind (device e)); try discriminate E3; reflexivity.
Qed.
Definition regs_okb r : bool :=
  forallb (fun v => (0 <=? v) && (v <? 256)) [Spec6502.rA r; Spec6502.rX r; Spec6502.rY r; Spec6502.rS r] &&
  (0 <=? Spec6502.rPC r) && (Spec6502.rPC r <? 65536).
Lemma regs_okb_ok r : regs_okb r = true -> regs_ok r.
Proof. unfold regs_okb, regs_ok, u8, u16. cbn [forallb]. lia. Qed.
