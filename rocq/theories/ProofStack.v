(** Stack discipline of the 6502. *)
From Verif Require Import Base Arith ModelMap ModelRegs6502 ModelCpu6502 ModelOperand
  ModelIsa6502 ModelRun6502 SpecMap ProofMap Link6502 ProofOperand ProofStep6502 ProofRun6502 ProofBus
  SpecInstr ProofInstr SpecStack.
From Verif Require Import Spec6502.

Section Stack.
Context {D : Type} `{Device D}.
Implicit Type cpu : mos6502 D.
Variables (p : profile) (I : address_map D -> Prop).
Notation page_one := (fun b : Z => 0x0100 <= b <= 0x01ff).
Hypothesis Hbus : ram_bus p I page_one.

Definition inv cpu : Prop := I (amap cpu) /\ regs_ok (regs_of cpu).

Lemma becomes_inv cpu cpu' : inv cpu -> becomes p cpu cpu' -> inv cpu'.
Proof.
  intros [Hi Hr] [c Hs]. destruct (step_inv p I _ Hbus cpu c cpu' Hi Hr Hs) as (A & B & _).
  split; assumption.
Qed.

Lemma executes_inv mn cpu cpu' : inv cpu -> executes p mn cpu cpu' -> inv cpu'.
Proof. intros Hi (rd & m & c & b1 & b2 & _ & Hb). exact (becomes_inv _ _ Hi Hb). Qed.

Lemma slot_page s k : 0x0100 <= stack_slot s k <= 0x01ff.
Proof. unfold stack_slot. lia. Qed.

Lemma slot_u16 s k : u16 (stack_slot s k).
Proof. unfold stack_slot, u16. lia. Qed.

Lemma stack_is_slot s k : stack (s - k) = stack_slot s k.
Proof. reflexivity. Qed.

(** Stores into page one. *)
Lemma store_page_one l : forall m, I m -> Forall (fun s => 0x0100 <= fst s <= 0x01ff /\ u8 (snd s)) l ->
  exists m', store_all p m l = Ok m' /\ I m' /\
    forall b, u16 b -> peek p m' b =
      fold_left (fun f s b => if b =? fst s then snd s else f b) l (peek p m) b.
Proof.
  induction l as [|[a v] l IH]; intros m Hi Hl.
  - exists m. split; [reflexivity|]. split; [exact Hi|]. reflexivity.
  - apply Forall_cons_iff in Hl as [[Ha Hv] Hl]. cbn [fst snd] in Ha, Hv.
    destruct Hbus as (_ & Hw & _). destruct (Hw m a v Hi) as (m1 & Ew & Hi1 & Hp1);
      [unfold u16; lia|exact Ha|exact Hv|].
    destruct (IH m1 Hi1 Hl) as (m' & Es & Hi' & Hp'). exists m'. cbn. rewrite Ew.
    split; [exact Es|]. split; [exact Hi'|]. intros b Hb. rewrite (Hp' b Hb).
    clear - Hp1 Hb. revert Hp1. generalize (peek p m1) as f. generalize (peek p m) as g.
    intros g f Hf.
    assert (K : forall l (f g : Z -> Z), f b = g b ->
       fold_left (fun f s b => if b =? fst s then snd s else f b) l f b =
       fold_left (fun f s b => if b =? fst s then snd s else f b) l g b).
    { clear. induction l as [|s l IH]; intros f g E; cbn [fold_left]; [exact E|].
      apply IH. rewrite E. reflexivity. }
    apply K. exact (Hf b Hb).
Qed.

(** What the CPU reads is what is in memory. *)
Lemma about_peek cpu rd mn m c b1 b2 : about_to p cpu rd mn m c b1 b2 ->
  forall b, u16 b -> rd b = peek p (amap cpu) b.
Proof.
  intros (_ & Hb & _) b Hu. unfold peek. rewrite (Hb b Hu). reflexivity.
Qed.

(** Exact effect of the instructions that use the stack. *)
Lemma stack_effect cpu rd mn m c b1 b2 cpu' e : inv cpu -> about_to p cpu rd mn m c b1 b2 ->
  becomes p cpu cpu' -> execute p mn m c (regs_of cpu) rd b1 b2 = Some e ->
  Forall (fun s => 0x0100 <= fst s <= 0x01ff /\ u8 (snd s)) (e_stores e) ->
  regs_of cpu' = e_regs e /\
  forall b, u16 b -> peek p (amap cpu') b =
    fold_left (fun f s b => if b =? fst s then snd s else f b) (e_stores e) (peek p (amap cpu)) b.
Proof.
  intros [Hi Hr] Ha [t Hs] He Hl. rewrite (about_step _ _ _ _ _ _ _ _ Ha), He in Hs.
  unfold spec_outcome in Hs. destruct (store_page_one _ _ Hi Hl) as (m' & Es & _ & Hp).
  rewrite Es in Hs. assert (E : cpu' = cpu_with (e_regs e) m') by congruence. subst cpu'.
  split; [apply regs_of_cpu_with|]. cbn [cpu_with amap]. exact Hp.
Qed.

Lemma high_u8 v : u16 v -> u8 (high v).
Proof. unfold u16, u8, high. lia. Qed.
Lemma low_u8 v : u8 (low v).
Proof. unfold u8, low. lia. Qed.

Lemma jsr_effect cpu cpu' : inv cpu -> executes p Jsr cpu cpu' ->
  reg_sp cpu' = (reg_sp cpu - 2) mod 256 /\
  forall b, u16 b -> peek p (amap cpu') b =
    if b =? stack_slot (reg_sp cpu) 1 then (reg_pc cpu + 2) mod 65536 mod 256
    else if b =? stack_slot (reg_sp cpu) 0 then (reg_pc cpu + 2) mod 65536 / 256
    else peek p (amap cpu) b.
Proof.
  intros Hi (rd & m & c & b1 & b2 & Ha & Hb).
  destruct (stack_effect cpu rd Jsr m c b1 b2 cpu' _ Hi Ha Hb eq_refl) as [Er Ep].
  - cbn [e_stores]. repeat apply Forall_cons; try apply Forall_nil; cbn [fst snd].
    + replace (rS (regs_of cpu)) with (rS (regs_of cpu) - 0) by lia. rewrite stack_is_slot.
      split; [apply slot_page|apply high_u8, u16_mod].
    + rewrite stack_is_slot. split; [apply slot_page|apply low_u8].
  - split.
    + exact (f_equal rS Er).
    + intros b Hu. rewrite (Ep b Hu). cbn [e_stores fold_left fst snd].
      rewrite <- (stack_is_slot (reg_sp cpu) 0). replace (reg_sp cpu - 0) with (reg_sp cpu) by lia.
      reflexivity.
Qed.

Lemma rts_effect cpu cpu' : inv cpu -> executes p Rts cpu cpu' ->
  amap cpu' = amap cpu /\ reg_sp cpu' = (reg_sp cpu + 2) mod 256 /\
  reg_pc cpu' = (peek p (amap cpu) (stack_slot (reg_sp cpu) (-1))
                 + 256 * peek p (amap cpu) (stack_slot (reg_sp cpu) (-2)) + 1) mod 65536.
Proof.
  intros Hi (rd & m & c & b1 & b2 & Ha & [t Hb]).
  rewrite (about_step _ _ _ _ _ _ _ _ Ha) in Hb. cbn in Hb.
  assert (K := about_peek _ _ _ _ _ _ _ Ha).
  change (stack (reg_sp cpu + 1)) with (stack_slot (reg_sp cpu) (-1)) in Hb.
  change (stack (reg_sp cpu + 2)) with (stack_slot (reg_sp cpu) (-2)) in Hb.
  assert (Hb' := f_equal (fun r => match r with Ok (_, s) => s | Panic => cpu end) Hb).
  cbn beta iota in Hb'. subst cpu'. cbn [amap reg_sp reg_pc].
  split; [reflexivity|]. split; [reflexivity|].
  rewrite <- !K by apply slot_u16. reflexivity.
Qed.

Lemma push_effect cpu v cpu' : inv cpu -> pushes_byte p cpu v cpu' ->
  u8 v /\ reg_sp cpu' = (reg_sp cpu - 1) mod 256 /\
  forall b, u16 b -> peek p (amap cpu') b =
    if b =? stack_slot (reg_sp cpu) 0 then v else peek p (amap cpu) b.
Proof.
  assert (Z0 : stack (reg_sp cpu) = stack_slot (reg_sp cpu) 0)
    by (rewrite <- stack_is_slot; f_equal; lia).
  assert (R : ps_read (reg_ps cpu) = status_byte (reg_ps cpu)) by apply ps_read_byte.
  intros Hi [[(rd & m & c & b1 & b2 & Ha & Hb) ->]|[(rd & m & c & b1 & b2 & Ha & Hb) ->]].
  - assert (Hv : u8 (reg_acc cpu)) by (destruct Hi as [_ Hr]; exact (proj1 Hr)).
    destruct (stack_effect cpu rd Pha m c b1 b2 cpu' _ Hi Ha Hb eq_refl) as [Er Ep].
    + cbn [e_stores]. constructor; [|constructor]. cbn [fst snd regs_of rS rA]. rewrite Z0.
      split; [apply slot_page|exact Hv].
    + split; [exact Hv|]. split; [exact (f_equal rS Er)|].
      intros b Hu. rewrite (Ep b Hu). cbn [e_stores fold_left fst snd regs_of rS rA]. rewrite Z0. reflexivity.
  - assert (Hv : u8 (status_byte (reg_ps cpu))) by apply status_byte_u8. rewrite R.
    destruct (stack_effect cpu rd Php m c b1 b2 cpu' _ Hi Ha Hb eq_refl) as [Er Ep].
    + cbn [e_stores]. constructor; [|constructor]. cbn [fst snd regs_of rS rP]. rewrite Z0.
      split; [apply slot_page|exact Hv].
    + split; [exact Hv|]. split; [exact (f_equal rS Er)|].
      intros b Hu. rewrite (Ep b Hu). cbn [e_stores fold_left fst snd regs_of rS rP]. rewrite Z0. reflexivity.
Qed.

Lemma pull_effect cpu v cpu' : inv cpu -> pulls_byte p cpu v cpu' ->
  amap cpu' = amap cpu /\ reg_sp cpu' = (reg_sp cpu + 1) mod 256 /\
  v = peek p (amap cpu) (stack_slot (reg_sp cpu) (-1)).
Proof.
  intros Hi [[(rd & m & c & b1 & b2 & Ha & [t Hb]) Hv]|[(rd & m & c & b1 & b2 & Ha & [t Hb]) Hv]];
    rewrite (about_step _ _ _ _ _ _ _ _ Ha) in Hb; cbn in Hb;
    assert (K := about_peek _ _ _ _ _ _ _ Ha);
    change (stack (reg_sp cpu + 1)) with (stack_slot (reg_sp cpu) (-1)) in Hb;
    assert (Hb' := f_equal (fun r => match r with Ok (_, s) => s | Panic => cpu end) Hb);
    cbn beta iota in Hb'; subst cpu'; cbn [amap reg_sp reg_acc reg_ps] in *;
    (split; [reflexivity|]); (split; [reflexivity|]); rewrite Hv, <- K by apply slot_u16.
  - reflexivity.
  - rewrite ps_read_byte. apply status_round_byte.
    destruct Ha as (_ & _ & Hbv & _). apply Hbv, slot_u16.
Qed.

(** PLP restores all eight status bits; PLA the accumulator. *)
Lemma plp_effect cpu cpu' : executes p Plp cpu cpu' ->
  reg_ps cpu' = status_of_byte (peek p (amap cpu) (stack_slot (reg_sp cpu) (-1))).
Proof.
  intros (rd & m & c & b1 & b2 & Ha & [t Hb]).
  rewrite (about_step _ _ _ _ _ _ _ _ Ha) in Hb. cbn [execute implied_op spec_outcome e_stores store_all] in Hb.
  assert (Hb' := f_equal (fun r => match r with Ok (_, s) => reg_ps s | Panic => reg_ps cpu' end) Hb).
  cbn beta iota in Hb'. rewrite <- Hb'.
  rewrite <- (about_peek _ _ _ _ _ _ _ Ha) by apply slot_u16. reflexivity.
Qed.

Lemma brk_effect cpu cpu' : inv cpu -> executes p Brk cpu cpu' ->
  reg_sp cpu' = (reg_sp cpu - 3) mod 256 /\
  reg_pc cpu' = peek p (amap cpu) 0xfffe + 256 * peek p (amap cpu) 0xffff /\
  reg_acc cpu' = reg_acc cpu /\ reg_x cpu' = reg_x cpu /\ reg_y cpu' = reg_y cpu /\
  reg_ps cpu' = mkPs (ps_carry (reg_ps cpu)) (ps_zero (reg_ps cpu)) true (ps_decimal (reg_ps cpu)) true
    (ps_unused (reg_ps cpu)) (ps_overflow (reg_ps cpu)) (ps_negative (reg_ps cpu)) /\
  forall b, u16 b -> peek p (amap cpu') b =
    if b =? stack_slot (reg_sp cpu) 2 then ps_read (reg_ps cpu)
    else if b =? stack_slot (reg_sp cpu) 1 then (reg_pc cpu + 1) mod 65536 / 256
    else if b =? stack_slot (reg_sp cpu) 0 then (reg_pc cpu + 1) mod 65536 mod 256
    else peek p (amap cpu) b.
Proof.
  intros Hi (rd & m & c & b1 & b2 & Ha & Hb).
  assert (Z0 : stack (reg_sp cpu) = stack_slot (reg_sp cpu) 0)
    by (rewrite <- stack_is_slot; f_equal; lia).
  destruct (stack_effect cpu rd Brk m c b1 b2 cpu' _ Hi Ha Hb eq_refl) as [Er Ep].
  - cbn [e_stores regs_of rS]. rewrite Z0, !stack_is_slot.
    repeat apply Forall_cons; try apply Forall_nil; cbn [fst snd]; (split; [apply slot_page|]).
    + apply low_u8.
    + apply high_u8, u16_mod.
    + apply status_byte_u8.
  - assert (K := about_peek _ _ _ _ _ _ _ Ha).
    split; [exact (f_equal rS Er)|]. split.
    { rewrite <- !K by (unfold u16; lia). exact (f_equal rPC Er). }
    split; [exact (f_equal rA Er)|]. split; [exact (f_equal rX Er)|].
    split; [exact (f_equal rY Er)|]. split; [exact (f_equal rP Er)|].
    intros b Hu. rewrite (Ep b Hu), ps_read_byte. cbn [e_stores fold_left fst snd regs_of rS].
    rewrite Z0, !stack_is_slot. reflexivity.
Qed.

Lemma rti_effect cpu cpu' : inv cpu -> executes p Rti cpu cpu' ->
  amap cpu' = amap cpu /\ reg_sp cpu' = (reg_sp cpu + 3) mod 256 /\
  reg_acc cpu' = reg_acc cpu /\ reg_x cpu' = reg_x cpu /\ reg_y cpu' = reg_y cpu /\
  reg_ps cpu' = status_of_byte (peek p (amap cpu) (stack_slot (reg_sp cpu) (-1))) /\
  reg_pc cpu' = (peek p (amap cpu) (stack_slot (reg_sp cpu) (-2))
                 + 256 * peek p (amap cpu) (stack_slot (reg_sp cpu) (-3)) + 1) mod 65536.
Proof.
  intros Hi (rd & m & c & b1 & b2 & Ha & [t Hb]).
  rewrite (about_step _ _ _ _ _ _ _ _ Ha) in Hb. cbn [execute spec_outcome e_stores store_all] in Hb.
  assert (K := about_peek _ _ _ _ _ _ _ Ha).
  assert (Hb' := f_equal (fun r => match r with Ok (_, s) => s | Panic => cpu end) Hb).
  cbn beta iota in Hb'. subst cpu'. cbn [cpu_with e_regs amap reg_sp reg_pc reg_acc reg_x reg_y reg_ps].
  rewrite <- !K by apply slot_u16. repeat split; reflexivity.
Qed.

(** ** Balanced code *)
Lemma slot_eq s k j : 0 <= k < 256 -> 0 <= j < 256 -> (stack_slot s k =? stack_slot s j) = (k =? j).
Proof. unfold stack_slot. intros. destruct (k =? j) eqn:E; lia. Qed.

(** A slot seen from a moved stack pointer. *)
Lemma slot_shift s d k : stack_slot ((s + d) mod 256) k = stack_slot s (k - d).
Proof. unfold stack_slot. f_equal. lia. Qed.

Lemma balanced_inv d cpu cpu' : balanced p d cpu cpu' -> inv cpu -> inv cpu'.
Proof.
  induction 1; intros Hi; eauto using executes_inv.
  apply IHbalanced. destruct H0 as [Hb _]. exact (becomes_inv _ _ Hi Hb).
Qed.

Lemma balanced_nonneg d cpu cpu' : balanced p d cpu cpu' -> 0 <= d.
Proof. induction 1; lia. Qed.

Lemma balanced_keeps d cpu cpu' : balanced p d cpu cpu' -> inv cpu -> d <= 256 ->
  reg_sp cpu' = reg_sp cpu /\
  forall k, d <= k < 256 ->
    peek p (amap cpu') (stack_slot (reg_sp cpu) k) = peek p (amap cpu) (stack_slot (reg_sp cpu) k).
Proof.
  assert (SP : forall cpu, inv cpu -> 0 <= reg_sp cpu < 256).
  { intros c [_ (_ & _ & _ & Hs & _)]. exact Hs. }
  induction 1 as [cpu|d cpu cpu1 cpu2 Ho Hb IH
    |d e cpu cpu1 cpu2 cpu3 cpu4 Hj Hb1 IH1 Hr Hb2 IH2
    |push pull d e cpu cpu1 cpu2 cpu3 cpu4 Hpush Hpull Hj Hb1 IH1 Hr Hb2 IH2
    |d e cpu cpu1 cpu2 cpu3 cpu4 Hj Hb1 IH1 Hr Hb2 IH2]; intros Hi Hd.
  - auto.
  - destruct Ho as (Hs & Esp & Ep). assert (Hi1 := becomes_inv _ _ Hi Hs).
    destruct (IH Hi1 Hd) as [E1 E2]. split; [congruence|]. intros k Hk.
    rewrite Esp in E2. rewrite (E2 k Hk). apply Ep, slot_page.
  - assert (Hi1 := executes_inv _ _ _ Hi Hj). assert (Hi2 := balanced_inv _ _ _ Hb1 Hi1).
    assert (Hi3 := executes_inv _ _ _ Hi2 Hr). assert (N1 := balanced_nonneg _ _ _ Hb1).
    destruct (jsr_effect _ _ Hi Hj) as [S1 P1]. destruct (IH1 Hi1 ltac:(lia)) as [S2 P2].
    destruct (rts_effect _ _ Hi2 Hr) as (M3 & S3 & _). destruct (IH2 Hi3 ltac:(lia)) as [S4 P4].
    assert (E3 : reg_sp cpu3 = reg_sp cpu) by (rewrite S3, S2, S1; specialize (SP _ Hi); lia).
    split; [congruence|]. intros k Hk. rewrite E3 in P4. rewrite (P4 k) by lia. rewrite M3.
    rewrite S1 in P2. specialize (P2 (k - 2) ltac:(lia)).
    replace ((reg_sp cpu - 2) mod 256) with ((reg_sp cpu + -2) mod 256) in P2 by (f_equal; lia).
    rewrite slot_shift in P2. replace (k - 2 - -2) with k in P2 by lia.
    rewrite P2, P1 by apply slot_u16. rewrite !slot_eq by lia.
    replace (k =? 1) with false by lia. replace (k =? 0) with false by lia. reflexivity.
  - assert (Hi1 := executes_inv _ _ _ Hi Hj). assert (Hi2 := balanced_inv _ _ _ Hb1 Hi1).
    assert (Hi3 := executes_inv _ _ _ Hi2 Hr). assert (N1 := balanced_nonneg _ _ _ Hb1).
    assert (Pb : exists v, pushes_byte p cpu v cpu1)
      by (destruct Hpush as [->| ->]; eexists; [left|right]; eauto).
    assert (Qb : exists v, pulls_byte p cpu2 v cpu3)
      by (destruct Hpull as [->| ->]; eexists; [left|right]; eauto).
    destruct Pb as [v Pb], Qb as [w Qb].
    destruct (push_effect _ _ _ Hi Pb) as (_ & S1 & P1). destruct (IH1 Hi1 ltac:(lia)) as [S2 P2].
    destruct (pull_effect _ _ _ Hi2 Qb) as (M3 & S3 & _). destruct (IH2 Hi3 ltac:(lia)) as [S4 P4].
    assert (E3 : reg_sp cpu3 = reg_sp cpu) by (rewrite S3, S2, S1; specialize (SP _ Hi); lia).
    split; [congruence|]. intros k Hk. rewrite E3 in P4. rewrite (P4 k) by lia. rewrite M3.
    rewrite S1 in P2. specialize (P2 (k - 1) ltac:(lia)).
    replace ((reg_sp cpu - 1) mod 256) with ((reg_sp cpu + -1) mod 256) in P2 by (f_equal; lia).
    rewrite slot_shift in P2. replace (k - 1 - -1) with k in P2 by lia.
    rewrite P2, P1 by apply slot_u16. rewrite !slot_eq by lia.
    replace (k =? 0) with false by lia. reflexivity.
  - assert (Hi1 := executes_inv _ _ _ Hi Hj). assert (Hi2 := balanced_inv _ _ _ Hb1 Hi1).
    assert (Hi3 := executes_inv _ _ _ Hi2 Hr). assert (N1 := balanced_nonneg _ _ _ Hb1).
    destruct (brk_effect _ _ Hi Hj) as (S1 & _ & _ & _ & _ & _ & P1).
    destruct (IH1 Hi1 ltac:(lia)) as [S2 P2].
    destruct (rti_effect _ _ Hi2 Hr) as (M3 & S3 & _). destruct (IH2 Hi3 ltac:(lia)) as [S4 P4].
    assert (E3 : reg_sp cpu3 = reg_sp cpu) by (rewrite S3, S2, S1; specialize (SP _ Hi); lia).
    split; [congruence|]. intros k Hk. rewrite E3 in P4. rewrite (P4 k) by lia. rewrite M3.
    rewrite S1 in P2. specialize (P2 (k - 3) ltac:(lia)).
    replace ((reg_sp cpu - 3) mod 256) with ((reg_sp cpu + -3) mod 256) in P2 by (f_equal; lia).
    rewrite slot_shift in P2. replace (k - 3 - -3) with k in P2 by lia.
    rewrite P2, P1 by apply slot_u16. rewrite !slot_eq by lia.
    replace (k =? 2) with false by lia. replace (k =? 1) with false by lia.
    replace (k =? 0) with false by lia. reflexivity.
Qed.

(** ** Pushes and pulls *)
Lemma off_stack_inv cpu cpu' : inv cpu -> off_stack p cpu cpu' -> inv cpu'.
Proof. intros Hi [Hb _]. exact (becomes_inv _ _ Hi Hb). Qed.
Lemma pushes_inv cpu v cpu' : inv cpu -> pushes_byte p cpu v cpu' -> inv cpu'.
Proof. intros Hi [[He _]|[He _]]; exact (executes_inv _ _ _ Hi He). Qed.
Lemma pulls_inv cpu v cpu' : inv cpu -> pulls_byte p cpu v cpu' -> inv cpu'.
Proof. intros Hi [[He _]|[He _]]; exact (executes_inv _ _ _ Hi He). Qed.
Lemma push_run_inv cpu l cpu' : push_run p cpu l cpu' -> inv cpu -> inv cpu'.
Proof. induction 1; eauto using off_stack_inv, pushes_inv. Qed.

Lemma push_run_effect cpu l cpu' : push_run p cpu l cpu' -> inv cpu ->
  Z.of_nat (length l) <= 256 ->
  reg_sp cpu' = (reg_sp cpu - Z.of_nat (length l)) mod 256 /\
  (forall i v, nth_error l i = Some v ->
     peek p (amap cpu') (stack_slot (reg_sp cpu) (Z.of_nat i)) = v) /\
  (forall k, Z.of_nat (length l) <= k < 256 ->
     peek p (amap cpu') (stack_slot (reg_sp cpu) k) = peek p (amap cpu) (stack_slot (reg_sp cpu) k)).
Proof.
  assert (SP : forall cpu, inv cpu -> 0 <= reg_sp cpu < 256).
  { intros c [_ (_ & _ & _ & Hs & _)]. exact Hs. }
  induction 1 as [cpu|cpu l cpu1 cpu2 Ho Hr IH|cpu v l cpu1 cpu2 Hp Hr IH]; intros Hi Hl.
  - specialize (SP _ Hi). split; [cbn; lia|]. split; [|reflexivity].
    intros [|i] v E; discriminate.
  - assert (Hi1 := off_stack_inv _ _ Hi Ho). destruct Ho as (_ & Es & Ep).
    destruct (IH Hi1 Hl) as (A & B & C). rewrite Es in A, B, C.
    split; [exact A|]. split; [exact B|]. intros k Hk. rewrite (C k Hk). apply Ep, slot_page.
  - assert (Hi1 := pushes_inv _ _ _ Hi Hp). destruct (push_effect _ _ _ Hi Hp) as (_ & S1 & P1).
    cbn [length] in Hl. destruct (IH Hi1 ltac:(lia)) as (A & B & C).
    assert (Sh : forall k, stack_slot (reg_sp cpu1) k = stack_slot (reg_sp cpu) (k + 1)).
    { intros k. rewrite S1. unfold stack_slot. f_equal. lia. }
    split; [cbn [length]; rewrite A, S1; lia|]. split.
    + intros [|i] w E; cbn [nth_error] in E.
      * assert (v = w) by congruence. subst w. destruct (Nat.eq_dec (length l) 256) as [E256|N]; [lia|].
        specialize (C 255 ltac:(lia)). rewrite Sh in C.
        replace (stack_slot (reg_sp cpu) (255 + 1)) with (stack_slot (reg_sp cpu) 0) in C
          by (unfold stack_slot; f_equal; lia).
        change (Z.of_nat 0) with 0. rewrite C, P1 by apply slot_u16. rewrite Z.eqb_refl. reflexivity.
      * specialize (B i w E). rewrite Sh in B.
        replace (Z.of_nat (S i)) with (Z.of_nat i + 1) by lia. exact B.
    + intros k Hk. cbn [length] in Hk. specialize (C (k - 1) ltac:(lia)). rewrite Sh in C.
      replace (k - 1 + 1) with k in C by lia. rewrite C, P1 by apply slot_u16.
      rewrite slot_eq by lia. replace (k =? 0) with false by lia. reflexivity.
Qed.

Lemma pull_run_effect cpu l cpu' : pull_run p cpu l cpu' -> inv cpu ->
  reg_sp cpu' = (reg_sp cpu + Z.of_nat (length l)) mod 256 /\
  (forall i v, nth_error l i = Some v ->
     peek p (amap cpu) (stack_slot (reg_sp cpu) (- (Z.of_nat i + 1))) = v) /\
  forall b, 0x0100 <= b <= 0x01ff -> peek p (amap cpu') b = peek p (amap cpu) b.
Proof.
  assert (SP : forall cpu, inv cpu -> 0 <= reg_sp cpu < 256).
  { intros c [_ (_ & _ & _ & Hs & _)]. exact Hs. }
  induction 1 as [cpu|cpu l cpu1 cpu2 Ho Hr IH|cpu v l cpu1 cpu2 Hp Hr IH]; intros Hi.
  - specialize (SP _ Hi). split; [cbn; lia|]. split; [|reflexivity].
    intros [|i] v E; discriminate.
  - assert (Hi1 := off_stack_inv _ _ Hi Ho). destruct Ho as (_ & Es & Ep).
    destruct (IH Hi1) as (A & B & C). rewrite Es in A, B.
    split; [exact A|]. split.
    + intros i v E. rewrite <- Ep by apply slot_page. exact (B i v E).
    + intros b Hb. rewrite (C b Hb). exact (Ep b Hb).
  - assert (Hi1 := pulls_inv _ _ _ Hi Hp). destruct (pull_effect _ _ _ Hi Hp) as (M1 & S1 & V1).
    destruct (IH Hi1) as (A & B & C).
    assert (Sh : forall k, stack_slot (reg_sp cpu1) k = stack_slot (reg_sp cpu) (k - 1)).
    { intros k. rewrite S1. apply slot_shift. }
    split; [cbn [length]; rewrite A, S1; lia|]. rewrite M1 in B, C. split; [|exact C].
    intros [|i] w E; cbn [nth_error] in E.
    + assert (v = w) by congruence. subst w. symmetry. exact V1.
    + specialize (B i w E). rewrite Sh in B.
      replace (- (Z.of_nat (S i) + 1)) with (- (Z.of_nat i + 1) - 1) by lia. exact B.
Qed.
End Stack.
