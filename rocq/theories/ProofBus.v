(** RAM/ROM maps are buses in the sense of Link6502.v, and the CPU preserves
    the invariants of its bus and the widths of its registers. *)
From Verif Require Import Base Arith ModelMap ModelStep ModelRegs6502 ModelCpu6502 ModelOperand
  ModelIsa6502 ModelOps6502 ModelRun6502 SpecMap ProofMap Link6502 ProofOperand ProofStep6502 ProofRun6502.
From Verif Require Spec6502.

(** ** Plain maps *)
Lemma vec_get_ok {A} (l : list A) i : 0 <= i < Z.of_nat (length l) ->
  exists v, vec_get l i = Ok v /\ In v l.
Proof.
  intros Hi. unfold vec_get. replace (i <? 0) with false by lia.
  destruct (nth_error l (Z.to_nat i)) as [v|] eqn:E.
  - exists v. split; [reflexivity|]. exact (nth_error_In _ _ E).
  - apply nth_error_None in E. lia.
Qed.

Lemma list_upd_Forall {A} (P : A -> Prop) l n v : P v -> Forall P l -> Forall P (list_upd l n v).
Proof.
  intros Hv. revert n. induction l as [|x l IH]; intros [|n] Hl; cbn; auto;
    apply Forall_cons_iff in Hl as [Hx Hl]; constructor; auto.
Qed.

Lemma region_read p e a : region_ok e -> covers e a ->
  exists v, memory_read p (device e) a = Ok v /\ u8 v.
Proof.
  intros (H1 & H2 & H3 & H4) Hc. unfold covers in Hc. unfold memory_read.
  rewrite sub_u16_ok; [|unfold u16; lia|unfold u16; lia|lia]. cbn [bind].
  destruct (vec_get_ok (mem_inner (device e)) (a - start_address (device e))) as (v & Ev & Hin); [lia|].
  exists v. split; [exact Ev|]. rewrite Forall_forall in H4. exact (H4 v Hin).
Qed.

Lemma plain_read p m a : plain_map m -> exists v, am_read p m a = Ok v /\ u8 v.
Proof.
  intros [Hd Hr]. destruct (mapped_dec m a) as [Hu|(e & Hin & Hc)].
  - exists 0. rewrite (read_unmapped p m a Hu). split; [reflexivity|unfold u8; lia].
  - rewrite (read_mapped p m a e Hd Hin Hc). rewrite Forall_forall in Hr.
    exact (region_read p e a (Hr e Hin) Hc).
Qed.

Lemma region_write p e a v : region_ok e -> covers e a -> u8 v ->
  mem_kind (device e) = ReadWrite ->
  exists d', memory_write p (device e) a v = Ok (d', WOk v) /\
    mem_kind d' = ReadWrite /\ start_address d' = start_address (device e) /\
    stop_address d' = stop_address (device e) /\
    length (mem_inner d') = length (mem_inner (device e)) /\
    region_ok (mkEntry (range_lo e) (range_hi e) d') /\
    forall b, covers e b -> memory_read p d' b = if b =? a then Ok v else memory_read p (device e) b.
Proof.
  intros (H1 & H2 & H3 & H4) Hc Hv Hk. unfold covers in Hc. unfold memory_write. rewrite Hk.
  rewrite sub_u16_ok; [|unfold u16; lia|unfold u16; lia|lia]. cbn [bind].
  rewrite vec_set_ok by lia. cbn [bind]. eexists. split; [reflexivity|].
  cbn [mem_kind start_address stop_address mem_inner].
  split; [reflexivity|]. split; [reflexivity|]. split; [reflexivity|].
  split; [apply list_upd_length|]. split.
  - unfold region_ok. cbn. rewrite list_upd_length. repeat split; try lia.
    apply list_upd_Forall; [exact Hv|exact H4].
  - intros b Hb. unfold covers in Hb. unfold memory_read.
    cbn [start_address mem_inner].
    rewrite sub_u16_ok; [|unfold u16; lia|unfold u16; lia|lia]. cbn [bind].
    rewrite vec_get_set by lia.
    replace (b - start_address (device e) =? a - start_address (device e)) with (b =? a) by lia.
    destruct (b =? a); reflexivity.
Qed.

Lemma plain_write_shape p m a v m' w : plain_map m -> u8 v ->
  am_write p m a v = Ok (m', WOk w) ->
  exists l1 e l2 d', m = l1 ++ e :: l2 /\ covers e a /\ mem_kind (device e) = ReadWrite /\
    m' = l1 ++ mkEntry (range_lo e) (range_hi e) d' :: l2 /\
    memory_write p (device e) a v = Ok (d', WOk v) /\ w = v /\ region_ok e.
Proof.
  intros [Hd Hr] Hv Hw. destruct (write_shape _ _ _ _ _ _ Hw)
    as [(_ & E & _)|(l1 & e & l2 & d' & -> & Hu & Hc & Hdw & ->)]; [discriminate|].
  rewrite Forall_forall in Hr. assert (He := Hr e (in_elt e l1 l2)).
  cbn in Hdw. destruct (mem_kind (device e)) eqn:Ek.
  - destruct (region_write p e a v He Hc Hv Ek) as (d & Ed & _).
    exists l1, e, l2, d'. assert (E := Hdw). rewrite Ed in E. injection E as E1 E2. subst.
    repeat split; auto; try apply Hc; try apply He.
  - unfold memory_write in Hdw. rewrite Ek in Hdw. discriminate.
Qed.

Lemma plain_write p m a v m' w : plain_map m -> u8 v ->
  am_write p m a v = Ok (m', WOk w) ->
  plain_map m' /\ (forall b, ram_at m' b <-> ram_at m b) /\
  forall b, peek p m' b = if b =? a then v else peek p m b.
Proof.
  intros Hp Hv Hw. destruct (plain_write_shape p m a v m' w Hp Hv Hw)
    as (l1 & e & l2 & d' & -> & Hc & Hk & -> & Hdw & -> & He).
  destruct Hp as [Hd Hr].
  destruct (region_write p e a v He Hc Hv Hk) as (d & Ed & K1 & K2 & K3 & K4 & K5 & K6).
  rewrite Hdw in Ed. injection Ed as <-.
  assert (Hd' : disjoint (l1 ++ mkEntry (range_lo e) (range_hi e) d' :: l2)).
  { apply (disjoint_layout (l1 ++ e :: l2)); [rewrite !layout_app; reflexivity|exact Hd]. }
  split; [split; [exact Hd'|]|split].
  - apply Forall_app in Hr as [R1 R2]. apply Forall_cons_iff in R2 as [_ R2].
    apply Forall_app. split; [exact R1|]. constructor; [exact K5|exact R2].
  - intros b. unfold ram_at. split.
    + intros (f & Hin & Hb & Hf). apply in_app_or in Hin as [Hin|[<-|Hin]].
      * exists f. split; [apply in_or_app; auto|auto].
      * exists e. split; [apply in_elt|]. cbn in Hb. auto.
      * exists f. split; [apply in_or_app; right; right; exact Hin|auto].
    + intros (f & Hin & Hb & Hf). apply in_app_or in Hin as [Hin|[<-|Hin]].
      * exists f. split; [apply in_or_app; auto|auto].
      * exists (mkEntry (range_lo e) (range_hi e) d'). split; [apply in_elt|]. cbn. auto.
      * exists f. split; [apply in_or_app; right; right; exact Hin|auto].
  - intros b. unfold peek.
    destruct (key_contains e b) eqn:Eb.
    + apply key_contains_iff in Eb.
      rewrite (read_mapped p _ b (mkEntry (range_lo e) (range_hi e) d') Hd' (in_elt _ _ _) Eb).
      rewrite (read_mapped p _ b e Hd (in_elt _ _ _) Eb).
      cbn [device]. change (dev_read p d' b) with (memory_read p d' b).
      change (dev_read p (device e) b) with (memory_read p (device e) b).
      rewrite (K6 b Eb). destruct (b =? a); reflexivity.
    + apply key_contains_niff in Eb.
      assert (E : b =? a = false).
      { destruct (b =? a) eqn:E; [|reflexivity]. exfalso. apply Eb.
        apply Z.eqb_eq in E. subst b. exact Hc. }
      rewrite E. rewrite (write_frame p _ a v _ _ Hw p b); [reflexivity|].
      intros f Hin Hfa Hfb. apply Eb.
      assert (f = e); [|subst f; exact Hfb].
      apply in_split in Hin as (k1 & k2 & E').
      assert (He1 : nth_error (l1 ++ e :: l2) (length l1) = Some e)
        by (rewrite nth_error_app2, Nat.sub_diag by lia; reflexivity).
      assert (Hf1 : nth_error (l1 ++ e :: l2) (length k1) = Some f)
        by (rewrite E', nth_error_app2, Nat.sub_diag by lia; reflexivity).
      assert (L := Hd _ _ _ _ a He1 Hf1 Hc Hfa). rewrite L in He1. congruence.
Qed.

Lemma plain_write_ok p m a v : plain_map m -> u8 v -> ram_at m a ->
  exists m', am_write p m a v = Ok (m', WOk v).
Proof.
  intros [Hd Hr] Hv (e & Hin & Hc & Hk). apply in_split in Hin as (l1 & l2 & ->).
  rewrite (write_mapped p l1 e l2 a v Hd Hc).
  rewrite Forall_forall in Hr.
  destruct (region_write p e a v (Hr e (in_elt _ _ _)) Hc Hv Hk) as (d & Ed & _).
  change (dev_write p (device e) a v) with (memory_write p (device e) a v).
  rewrite Ed. cbn [bind]. eexists; reflexivity.
Qed.

Lemma plain_ram_bus p ram : ram_bus p (plain_with ram) ram.
Proof.
  split; [|split].
  - intros m a [Hp _] _. exact (plain_read p m a Hp).
  - intros m a v [Hp Hram] _ Ha Hv.
    destruct (plain_write_ok p m a v Hp Hv (Hram a Ha)) as (m' & Hw).
    destruct (plain_write p m a v m' v Hp Hv Hw) as (Hp' & Hram' & Hpk).
    exists m'. split; [exact Hw|]. split; [|intros b _; apply Hpk].
    split; [exact Hp'|]. intros b Hb. apply Hram', Hram. exact Hb.
  - intros m a v m' w [Hp Hram] _ Hv Hw.
    destruct (plain_write p m a v m' w Hp Hv Hw) as (Hp' & Hram' & Hpk).
    split; [split; [exact Hp'|intros b Hb; apply Hram', Hram; exact Hb]|].
    intros b _ _ Hb. rewrite Hpk. replace (b =? a) with false by lia. reflexivity.
Qed.

(** ** The specification keeps registers and stores in range *)
Section SpecInv.
Import Spec6502.

Definition stores_ok (l : list (Z * Z)) : Prop := Forall (fun s => u16 (fst s) /\ u8 (snd s)) l.

Lemma unchecked_u16 p v a : 0 <= v -> unchecked p 65536 v = Some a -> u16 a.
Proof.
  unfold unchecked, u16. intros H0. destruct (v <? 65536) eqn:E.
  - intros E'. injection E' as <-. lia.
  - destruct p; [discriminate|]. intros E'. injection E' as <-. lia.
Qed.

Lemma word_u16 lo hi : u8 lo -> u8 hi -> u16 (word lo hi).
Proof. unfold u8, u16, word. lia. Qed.

Lemma stack_u16 n : u16 (stack n).
Proof. unfold u16, stack. lia. Qed.

Lemma operand_address_u16 p m r rd b1 b2 a : byte_valued rd -> regs_ok r -> u8 b1 -> u8 b2 ->
  operand_address p m r rd b1 b2 = Some a -> u16 a.
Proof.
  intros Hrd (HA & HX & HY & HS & HPC) H1 H2 E.
  destruct m; cbn in E; try discriminate.
  - injection E as <-. apply word_u16; assumption.
  - injection E as <-. apply u16_mod.
  - injection E as <-. apply u16_mod.
  - assert (U1 := Hrd b1 (u8_u16 _ H1)).
    assert (U2 := Hrd ((b1 + 1) mod 256) (u8_u16 _ (u8_mod _))).
    refine (unchecked_u16 p _ a _ E). unfold word, u8 in *. lia.
  - destruct (unchecked p 256 (rX r + 1)); [|discriminate]. injection E as <-.
    apply word_u16; apply Hrd, u8_u16, u8_mod.
  - injection E as <-. apply u8_u16. exact H1.
  - injection E as <-. apply u8_u16, u8_mod.
  - injection E as <-. apply u8_u16, u8_mod.
Qed.

Lemma operand_value_u8 p m r rd b1 b2 v : byte_valued rd -> regs_ok r -> u8 b1 -> u8 b2 ->
  operand_value p m r rd b1 b2 = Some v -> u8 v.
Proof.
  intros Hrd Hr H1 H2 E.
  assert (G : match operand_address p m r rd b1 b2 with Some a => Some (rd a) | None => None end = Some v -> u8 v).
  { destruct (operand_address p m r rd b1 b2) as [a|] eqn:Ea; [|discriminate].
    intros E'. injection E' as <-. apply Hrd. exact (operand_address_u16 _ _ _ _ _ _ _ Hrd Hr H1 H2 Ea). }
  destruct m; cbn in E; try (exact (G E)).
  - injection E as <-. apply Hr.
  - injection E as <-. exact H1.
Qed.

Definition effect_ok (e : effect) : Prop := regs_ok (e_regs e) /\ stores_ok (e_stores e).

Lemma regs_ok_advance m r : regs_ok r -> regs_ok (advance m r).
Proof.
  intros (HA & HX & HY & HS & HPC). unfold advance, regs_ok. cbn [withPC rA rX rY rS rPC].
  repeat split; try apply HA; try apply HX; try apply HY; try apply HS; apply u16_mod.
Qed.

Lemma read_op_ok p m r rd b1 b2 c f e : byte_valued rd -> regs_ok r -> u8 b1 -> u8 b2 ->
  (forall v, u8 v -> regs_ok (f r v)) ->
  read_op p m r rd b1 b2 c f = Some e -> effect_ok e.
Proof.
  intros Hrd Hr H1 H2 Hf E. unfold read_op in E.
  destruct (operand_value p m r rd b1 b2) as [v|] eqn:Ev; [|discriminate].
  injection E as <-. split; [|constructor]. apply regs_ok_advance, Hf.
  exact (operand_value_u8 _ _ _ _ _ _ _ Hrd Hr H1 H2 Ev).
Qed.

Lemma store_op_ok p m r rd b1 b2 c v e : byte_valued rd -> regs_ok r -> u8 b1 -> u8 b2 -> u8 v ->
  store_op p m r rd b1 b2 c v = Some e -> effect_ok e.
Proof.
  intros Hrd Hr H1 H2 Hv E. unfold store_op in E.
  destruct (operand_address p m r rd b1 b2) as [a|] eqn:Ea; [|discriminate].
  injection E as <-. split; [apply regs_ok_advance; exact Hr|].
  constructor; [|constructor]. split; [|exact Hv].
  exact (operand_address_u16 _ _ _ _ _ _ _ Hrd Hr H1 H2 Ea).
Qed.

Lemma modify_op_ok p m r rd b1 b2 c f e : byte_valued rd -> regs_ok r -> u8 b1 -> u8 b2 ->
  (forall v, u8 v -> u8 (fst (f r v)) /\ regs_ok (snd (f r v))) ->
  modify_op p m r rd b1 b2 c f = Some e -> effect_ok e.
Proof.
  intros Hrd Hr H1 H2 Hf E.
  assert (G : match operand_address p m r rd b1 b2 with
      | None => None
      | Some a => let '(v, r') := f r (rd a) in Some (mkEffect (advance m r') [(a, v)] c)
      end = Some e -> effect_ok e).
  { destruct (operand_address p m r rd b1 b2) as [a|] eqn:Ea; [|discriminate].
    assert (Ua := operand_address_u16 _ _ _ _ _ _ _ Hrd Hr H1 H2 Ea).
    destruct (Hf (rd a) (Hrd a Ua)) as [F1 F2].
    destruct (f r (rd a)) as [v r']. intros E'. injection E' as <-.
    split; [apply regs_ok_advance; exact F2|]. constructor; [|constructor]. split; assumption. }
  destruct m; cbn [modify_op] in E; try (exact (G E)).
  destruct (Hf (rA r) (proj1 Hr)) as [F1 F2]. destruct (f r (rA r)) as [v r'].
  injection E as <-. split; [|constructor]. apply regs_ok_advance.
  destruct F2 as (K1 & K2 & K3 & K4 & K5). unfold regs_ok. cbn. auto.
Qed.

Lemma execute_ok p mn m c r rd b1 b2 e : byte_valued rd -> regs_ok r -> u8 b1 -> u8 b2 ->
  execute p mn m c r rd b1 b2 = Some e -> effect_ok e.
Proof.
  intros Hrd Hr H1 H2.
  assert (Hr' := Hr). destruct Hr' as (HA & HX & HY & HS & HPC).
  assert (P : forall r', regs_ok r' -> implied_op r' c = Some e -> effect_ok e).
  { intros r' K E. injection E as <-. split; [apply regs_ok_advance; exact K|constructor]. }
  assert (B : forall cond, branch_op cond r b1 c = Some e -> effect_ok e).
  { intros cond E. unfold branch_op in E. destruct cond; injection E as <-.
    - split; [|constructor]. repeat split; cbn; try apply HA; try apply HX; try apply HY; try apply HS; apply u16_mod.
    - split; [apply regs_ok_advance; exact Hr|constructor]. }
  assert (Hbit : forall cb, 0 <= bit cb 1 <= 1 /\ 0 <= bit cb 128 <= 128) by (intros []; cbn; lia).
  assert (SM : forall f v, u8 v -> u8 (fst (f v)) ->
            u8 (fst (shift_with f r v)) /\ regs_ok (snd (shift_with f r v))).
  { intros f v Hv Hf. unfold shift_with. destruct (f v) as [v' cb]. cbn in Hf |- *.
    split; [exact Hf|exact Hr]. }
  assert (ST : u8 (status_byte (rP r))) by apply status_byte_u8.
  assert (L : forall w, u16 w -> u8 (low w) /\ u8 (high w))
    by (intros w; unfold u16, u8, low, high; lia).
  destruct mn; cbn [execute];
    try (apply B);
    try (apply store_op_ok; assumption);
    try (apply read_op_ok; try assumption; intros v Hv);
    try (apply modify_op_ok; try assumption; intros v Hv);
    try (apply P);
    try (apply SM; [exact Hv|]);
    try (intros E; injection E as <-);
    try (refine (conj _ (conj _ (conj _ (conj _ _))));
         first [exact HA|exact HX|exact HY|exact HS|exact HPC|exact Hv|apply u8_mod
               |apply u8_land; assumption|apply u8_lor; assumption|apply u8_lxor; assumption
               |apply Hrd, stack_u16]; fail).
  - (* asl *) apply u8_mod.
  - (* brk *) split; cbn [e_regs e_stores].
    + refine (conj HA (conj HX (conj HY (conj (u8_mod _) _)))).
      apply word_u16; apply Hrd; unfold u16; lia.
    + repeat apply Forall_cons; try apply Forall_nil; cbn [fst snd];
        (split; [apply stack_u16|first [exact ST|apply L, u16_mod]]).
  - split; [apply u8_mod|exact Hr].
  - split; [apply u8_mod|exact Hr].
  - (* jmp *)
    assert (J : forall pc', u16 pc' -> effect_ok (mkEffect (withPC r pc') [] c)).
    { intros pc' K. split; [|constructor]. exact (conj HA (conj HX (conj HY (conj HS K)))). }
    assert (W := word_u16 b1 b2 H1 H2).
    destruct m; try (intros E; injection E as <-; apply J; exact W).
    destruct (unchecked p 65536 (word b1 b2 + 1)) as [a|] eqn:Eu; [|discriminate].
    intros E; injection E as <-. apply J, word_u16; apply Hrd; [exact W|].
    refine (unchecked_u16 p _ a _ Eu). unfold u16 in W. lia.
  - (* jsr *) split; cbn [e_regs e_stores].
    + refine (conj HA (conj HX (conj HY (conj (u8_mod _) _)))). apply word_u16; assumption.
    + repeat apply Forall_cons; try apply Forall_nil; cbn [fst snd];
        (split; [apply stack_u16|apply L, u16_mod]).
  - (* lsr *) unfold u8 in *. cbn [spec_lsr fst]. lia.
  - (* pha *) split; cbn [e_regs e_stores].
    + apply regs_ok_advance. exact (conj HA (conj HX (conj HY (conj (u8_mod _) HPC)))).
    + constructor; [|constructor]. split; [apply stack_u16|exact HA].
  - (* php *) split; cbn [e_regs e_stores].
    + apply regs_ok_advance. exact (conj HA (conj HX (conj HY (conj (u8_mod _) HPC)))).
    + constructor; [|constructor]. split; [apply stack_u16|exact ST].
  - (* rol *) specialize (Hbit (ps_carry (rP r))). cbn [spec_rol fst]. unfold u8 in *. lia.
  - (* ror *) specialize (Hbit (ps_carry (rP r))). cbn [spec_ror fst]. unfold u8 in *. lia.
  - (* rti *) split; [|constructor].
    exact (conj HA (conj HX (conj HY (conj (u8_mod _) (u16_mod _))))).
  - (* rts *) split; [|constructor].
    exact (conj HA (conj HX (conj HY (conj (u8_mod _) (u16_mod _))))).
Qed.

Lemma step_ok p r rd e : byte_valued rd -> regs_ok r -> step p r rd = Some e -> effect_ok e.
Proof.
  intros Hrd Hr. unfold step.
  assert (H0 : 0 <= rPC r) by (destruct Hr as (_ & _ & _ & _ & K); unfold u16 in K; lia).
  destruct (unchecked p 65536 (rPC r + 1)) as [a1|] eqn:E1; [|discriminate].
  destruct (unchecked p 65536 (rPC r + 2)) as [a2|] eqn:E2; [|discriminate].
  destruct (decode (rd (rPC r))) as [[[mn m] c]|]; [|discriminate].
  apply execute_ok; try assumption.
  - apply Hrd. refine (unchecked_u16 p _ a1 _ E1). lia.
  - apply Hrd. refine (unchecked_u16 p _ a2 _ E2). lia.
Qed.
End SpecInv.

(** ** The CPU on a bus *)
Section CpuBus.
Context {D : Type} `{Device D}.
Implicit Type cpu : mos6502 D.
Variables (p : profile) (I : address_map D -> Prop) (ram : Z -> Prop).
Hypothesis Hbus : ram_bus p I ram.

Lemma bus_peek m : I m -> bus_reads p m (peek p m) /\ byte_valued (peek p m).
Proof.
  intros Hi. destruct Hbus as (Hr & _ & _). split; intros a Ha; unfold peek;
    destruct (Hr m a Hi Ha) as (v & E & Hv); rewrite E; [reflexivity|exact Hv].
Qed.

(** One step, in terms of the specification and the bytes on the bus. *)
Lemma step_spec cpu : I (amap cpu) -> regs_ok (regs_of cpu) ->
  observed_step p cpu = spec_outcome p cpu (Spec6502.step p (regs_of cpu) (peek p (amap cpu))).
Proof.
  intros Hi Hr. destruct (bus_peek _ Hi) as [Hb Hv]. exact (next_refines p cpu _ Hr Hb Hv).
Qed.

Lemma store_all_inv l : forall m m', I m -> stores_ok l -> store_all p m l = Ok m' ->
  I m' /\ forall b, u16 b -> ram b -> ~ In b (map fst l) -> peek p m' b = peek p m b.
Proof.
  induction l as [|[a v] l IH]; intros m m' Hi Hl Hs; cbn in Hs.
  - injection Hs as <-. split; [exact Hi|]. reflexivity.
  - apply Forall_cons_iff in Hl as [[Ha Hv] Hl]. cbn in Ha, Hv.
    destruct (am_write p m a v) as [[m1 [w|]]|] eqn:Ew; try discriminate.
    destruct Hbus as (_ & _ & Hw). destruct (Hw m a v m1 w Hi Ha Hv Ew) as [Hi1 Hf].
    destruct (IH m1 m' Hi1 Hl Hs) as [Hi' Hf']. split; [exact Hi'|].
    intros b Hb Hrb Hn. cbn in Hn. rewrite Hf' by tauto. apply Hf; [exact Hb|exact Hrb|].
    intros ->. tauto.
Qed.

Lemma regs_of_cpu_with r (m : address_map D) : regs_of (cpu_with r m) = r.
Proof. destruct r; reflexivity. Qed.

(** Everything one step guarantees on a bus. *)
Lemma step_inv cpu c cpu' : I (amap cpu) -> regs_ok (regs_of cpu) ->
  observed_step p cpu = Ok (c, cpu') ->
  I (amap cpu') /\ regs_ok (regs_of cpu') /\
  exists e, Spec6502.step p (regs_of cpu) (peek p (amap cpu)) = Some e /\
    regs_of cpu' = Spec6502.e_regs e /\ c = Spec6502.e_cycles e /\
    stores_ok (Spec6502.e_stores e) /\
    store_all p (amap cpu) (Spec6502.e_stores e) = Ok (amap cpu').
Proof.
  intros Hi Hr Hs. rewrite (step_spec cpu Hi Hr) in Hs. unfold spec_outcome in Hs.
  destruct (bus_peek _ Hi) as [Hb Hv].
  destruct (Spec6502.step p (regs_of cpu) (peek p (amap cpu))) as [e|] eqn:Ee; [|discriminate].
  destruct (store_all p (amap cpu) (Spec6502.e_stores e)) as [m'|] eqn:Es; [|discriminate].
  injection Hs as <- <-. destruct (step_ok _ _ _ _ Hv Hr Ee) as [K1 K2].
  destruct (store_all_inv _ _ _ Hi K2 Es) as [Hi' _].
  cbn [amap cpu_with]. split; [exact Hi'|].
  change (mkMos6502 m' _ _ _ _ _ _) with (cpu_with (Spec6502.e_regs e) m').
  rewrite regs_of_cpu_with. split; [exact K1|].
  exists e. auto.
Qed.

Lemma steps_bus_inv k t cpu cpu' : steps p k t cpu cpu' -> I (amap cpu) -> regs_ok (regs_of cpu) ->
  I (amap cpu') /\ regs_ok (regs_of cpu').
Proof.
  induction 1 as [cpu|k t c cpu cpu1 cpu2 Es Hst IH]; intros Hi Hr; [auto|].
  destruct (step_inv cpu c cpu1 Hi Hr Es) as (Hi1 & Hr1 & _). auto.
Qed.

Lemma run_bus_inv cpu n cpu' : I (amap cpu) -> regs_ok (regs_of cpu) ->
  run p cpu n = Ok (Ready cpu') -> I (amap cpu') /\ regs_ok (regs_of cpu').
Proof.
  intros Hi Hr Hrun. apply run_ready_iff in Hrun as (k & t & Hst & _).
  exact (steps_bus_inv k t cpu cpu' Hst Hi Hr).
Qed.
End CpuBus.
