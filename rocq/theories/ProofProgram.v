(** Executing programs on the specification machine, and on the emulator. *)
From Verif Require Import Base Arith ModelMap ModelRegs6502 ModelCpu6502 ModelIsa6502 ModelRun6502 SpecMap Link6502 ProofRun6502 ProofBus Spec6502 SpecProgram.

Definition store1 (f : Z -> Z) (w : Z * Z) : Z -> Z := fun b => if b =? fst w then snd w else f b.
Definition stored (f : Z -> Z) (l : list (Z * Z)) : Z -> Z := fold_left store1 l f.

(** [k] instructions of [t] cycles that store only to [ram]. *)
Inductive exec (p : profile) (ram : Z -> Prop) : nat -> nat -> registers -> (Z -> Z) -> registers -> (Z -> Z) -> Prop :=
| exec_done r f : exec p ram 0 0 r f r f
| exec_step k t r f e r' f' : step p r f = Some e -> Forall (fun w => ram (fst w)) (e_stores e) ->
    exec p ram k t (e_regs e) (stored f (e_stores e)) r' f' -> exec p ram (S k) (e_cycles e + t) r f r' f'.

Lemma exec_app p ram k t r f r1 f1 : exec p ram k t r f r1 f1 -> forall k' t' r2 f2,
  exec p ram k' t' r1 f1 r2 f2 -> exec p ram (k + k') (t + t') r f r2 f2.
Proof.
  induction 1 as [r f|k t r f e r1 f1 E F X IH]; intros k' t' r2 f2 Y; [exact Y|].
  rewrite <- Nat.add_assoc. eapply exec_step; eauto.
Qed.

Section Sound.
Context {D : Type} `{Device D}.
Variables (p : profile) (I : address_map D -> Prop) (ram : Z -> Prop).
Hypothesis Hbus : ram_bus p I ram.

Lemma stores_sound l : forall m f, I m -> (forall a, u16 a -> peek p m a = f a) -> stores_ok l ->
  Forall (fun w => ram (fst w)) l ->
  exists m', store_all p m l = Ok m' /\ I m' /\ forall a, u16 a -> peek p m' a = stored f l a.
Proof.
  induction l as [|[a v] l IH]; intros m f Hi Hf Ho Hr.
  - exists m. auto.
  - apply Forall_cons_iff in Ho as [[Ha Hv] Ho]. apply Forall_cons_iff in Hr as [Hra Hr]. cbn [fst snd] in *.
    destruct Hbus as (_ & W & _). destruct (W m a v Hi Ha Hra Hv) as (m1 & E & Hi1 & Hp). cbn [store_all]. rewrite E.
    apply (IH m1 (store1 f (a, v)) Hi1); try assumption. intros b Hb. unfold store1. cbn [fst snd].
    rewrite (Hp b Hb), (Hf b Hb). reflexivity.
Qed.

Lemma exec_sound k t r f r' f' : exec p ram k t r f r' f' -> forall cpu, machine_with p I cpu r f ->
  exists cpu', steps p k t cpu cpu' /\ machine_with p I cpu' r' f'.
Proof.
  induction 1 as [r f|k t r f e r1 f1 E F X IH]; intros cpu (Hi & Ho & Er & Hf).
  - exists cpu. split; [constructor|]. repeat split; assumption || apply Ho.
  - assert (Hb : bus_reads p (amap cpu) f).
    { intros a Ha. destruct Hbus as (R & _). destruct (R (amap cpu) a Hi Ha) as (v & Ev & _).
      rewrite Ev, <- (Hf a Ha). unfold peek. rewrite Ev. reflexivity. }
    assert (Hv : byte_valued f).
    { intros a Ha. destruct Hbus as (R & _). destruct (R (amap cpu) a Hi Ha) as (v & Ev & Hv).
      rewrite <- (Hf a Ha). unfold peek. rewrite Ev. exact Hv. }
    destruct (step_ok p r f e Hv Ho E) as [K1 K2].
    destruct (stores_sound (e_stores e) (amap cpu) f Hi Hf K2 F) as (m' & Es & Hi' & Hf').
    destruct (IH (cpu_with (e_regs e) m')) as (cpu' & S' & M').
    { split; [exact Hi'|]. split; [exact K1|]. split; [apply regs_of_cpu_with|exact Hf']. }
    exists cpu'. split; [|exact M']. eapply steps_cons; [|exact S'].
    rewrite (ProofStep6502.next_refines p cpu f); [|rewrite Er; exact Ho|exact Hb|exact Hv]. rewrite Er. unfold spec_outcome. rewrite E, Es. reflexivity.
Qed.
End Sound.

(** One instruction whose bytes do not pass 0xffff. *)
Lemma step_at p r f op mn m c : 0 <= rPC r <= 0xfffd -> f (rPC r) = op -> decode op = Some (mn, m, c) ->
  step p r f = execute p mn m c r f (f (rPC r + 1)) (f (rPC r + 2)).
Proof.
  intros Hp <- Hd. unfold step, unchecked. replace (rPC r + 1 <? 65536) with true by lia.
  replace (rPC r + 2 <? 65536) with true by lia. rewrite Hd. reflexivity.
Qed.

Lemma exec_one p ram r f op mn m c e : 0 <= rPC r <= 0xfffd -> f (rPC r) = op -> decode op = Some (mn, m, c) ->
  execute p mn m c r f (f (rPC r + 1)) (f (rPC r + 2)) = Some e -> Forall (fun w => ram (fst w)) (e_stores e) ->
  exec p ram 1 (e_cycles e) r f (e_regs e) (stored f (e_stores e)).
Proof.
  intros Hp Hf Hd He Hs. rewrite <- (Nat.add_0_r (e_cycles e)). eapply exec_step; [|exact Hs|constructor].
  rewrite (step_at p r f op mn m c Hp Hf Hd). exact He.
Qed.

(** ** Single instructions *)
Section Instructions.
Variables (p : profile) (ram : Z -> Prop) (A X Y S PC : Z) (P : processor_status) (f : Z -> Z).
Notation R := (mkRegs A X Y S PC P).

Definition with_c (P : processor_status) (c : bool) : processor_status :=
  mkPs c (ps_zero P) (ps_interrupt_disable P) (ps_decimal P) (ps_brk P) (ps_unused P) (ps_overflow P) (ps_negative P).

Lemma word_low_high a : word (low a) (high a) = a.
Proof. unfold word, low, high. lia. Qed.

Lemma one_quiet op mn m c t r' : 0 <= PC <= 0xfffd -> f PC = op -> decode op = Some (mn, m, c) ->
  execute p mn m c R f (f (PC + 1)) (f (PC + 2)) = Some (mkEffect r' [] t) -> exec p ram 1 t R f r' f.
Proof. intros H1 H2 H3 H4. exact (exec_one p ram R f op mn m c _ H1 H2 H3 H4 (Forall_nil _)). Qed.

Lemma pc_small k : 0 <= PC -> 0 <= k -> PC + k <= 0xffff -> (PC + k) mod 65536 = PC + k.
Proof. intros. apply Z.mod_small. lia. Qed.

Lemma i_dex : 0 <= PC <= 0xfffd -> f PC = 0xca ->
  exec p ram 1 2 R f (mkRegs A ((X - 1) mod 256) Y S (PC + 1) (nzf P ((X - 1) mod 256))) f.
Proof.
  intros H1 H2. eapply one_quiet; [exact H1|exact H2|reflexivity|]. rewrite <- (pc_small 1) by lia. reflexivity.
Qed.
Lemma i_dey : 0 <= PC <= 0xfffd -> f PC = 0x88 ->
  exec p ram 1 2 R f (mkRegs A X ((Y - 1) mod 256) S (PC + 1) (nzf P ((X - 1) mod 256))) f.
Proof.
  intros H1 H2. eapply one_quiet; [exact H1|exact H2|reflexivity|]. rewrite <- (pc_small 1) by lia. reflexivity.
Qed.
Lemma i_clc : 0 <= PC <= 0xfffd -> f PC = 0x18 -> exec p ram 1 2 R f (mkRegs A X Y S (PC + 1) (with_c P false)) f.
Proof.
  intros H1 H2. eapply one_quiet; [exact H1|exact H2|reflexivity|]. rewrite <- (pc_small 1) by lia. reflexivity.
Qed.
Lemma i_sec : 0 <= PC <= 0xfffd -> f PC = 0x38 -> exec p ram 1 2 R f (mkRegs A X Y S (PC + 1) (with_c P true)) f.
Proof.
  intros H1 H2. eapply one_quiet; [exact H1|exact H2|reflexivity|]. rewrite <- (pc_small 1) by lia. reflexivity.
Qed.
Lemma i_bne_through : 0 <= PC <= 0xfffd -> f PC = 0xd0 -> ps_zero P = true ->
  exec p ram 1 2 R f (mkRegs A X Y S (PC + 2) P) f.
Proof.
  intros H1 H2 H3. eapply one_quiet; [exact H1|exact H2|reflexivity|]. cbn [execute rP]. rewrite H3. cbn [negb branch_op].
  rewrite <- (pc_small 2) by lia. reflexivity.
Qed.
Lemma i_bne_back k : 0 <= PC <= 0xfffd -> f PC = 0xd0 -> ps_zero P = false -> f (PC + 1) = 256 - k -> 0 < k <= 128 -> k <= PC ->
  exec p ram 1 (if (PC - k) / 256 =? PC / 256 then 3 else 4) R f (mkRegs A X Y S (PC - k) P) f.
Proof.
  intros H1 H2 H3 H4 Hk Hp. eapply one_quiet; [exact H1|exact H2|reflexivity|]. cbn [execute rP]. rewrite H3. cbn [negb branch_op rPC].
  rewrite H4. unfold signed. replace (256 - k <? 128) with false by lia.
  replace ((PC + (256 - k - 256)) mod 65536) with (PC - k) by lia.
  destruct (_ =? _); reflexivity.
Qed.
Lemma i_lda a : 0 <= PC <= 0xfffc -> f PC = 0xad -> f (PC + 1) = low a -> f (PC + 2) = high a ->
  exec p ram 1 4 R f (mkRegs (f a) X Y S (PC + 3) (nzf P (f a))) f.
Proof.
  intros H1 H2 H3 H4. eapply one_quiet; [lia|exact H2|reflexivity|]. rewrite H3, H4.
  unfold execute, read_op, operand_value, operand_address. rewrite word_low_high. rewrite <- (pc_small 3) by lia. reflexivity.
Qed.
Lemma i_lda_x a : 0 <= PC <= 0xfffc -> f PC = 0xbd -> f (PC + 1) = low a -> f (PC + 2) = high a -> 0 <= a + X <= 0xffff ->
  exec p ram 1 (if (a + X) / 256 =? a / 256 then 4 else 5) R f (mkRegs (f (a + X)) X Y S (PC + 3) (nzf P (f (a + X)))) f.
Proof.
  intros H1 H2 H3 H4 H5. eapply one_quiet; [lia|exact H2|reflexivity|]. rewrite H3, H4.
  unfold execute, read_op, operand_value, operand_address. rewrite word_low_high. cbn [rX]. rewrite (Z.mod_small (a + X)) by lia.
  rewrite <- (pc_small 3) by lia. unfold read_penalty. rewrite word_low_high. destruct (_ =? _); reflexivity.
Qed.
Lemma i_adc a : 0 <= PC <= 0xfffc -> f PC = 0x6d -> f (PC + 1) = low a -> f (PC + 2) = high a ->
  exists P', exec p ram 1 4 R f (mkRegs ((A + f a) mod 256) X Y S (PC + 3) P') f.
Proof.
  intros H1 H2 H3 H4. eexists. eapply one_quiet; [lia|exact H2|reflexivity|]. rewrite H3, H4.
  unfold execute, read_op, operand_value, operand_address. rewrite word_low_high. rewrite <- (pc_small 3) by lia. reflexivity.
Qed.
Lemma i_sbc a : 0 <= PC <= 0xfffc -> f PC = 0xed -> f (PC + 1) = low a -> f (PC + 2) = high a ->
  exists P', ps_carry P' = (256 <=? A + (255 - f a + (if ps_carry P then 1 else 0)) mod 256) /\
    exec p ram 1 4 R f (mkRegs ((A - f a - (if ps_carry P then 0 else 1)) mod 256) X Y S (PC + 3) P') f.
Proof.
  intros H1 H2 H3 H4. eexists. split; [|eapply one_quiet; [lia|exact H2|reflexivity|]; rewrite H3, H4;
  unfold execute, read_op, operand_value, operand_address; rewrite word_low_high; rewrite <- (pc_small 3) by lia; reflexivity].
  reflexivity.
Qed.
Lemma i_sta a : 0 <= PC <= 0xfffc -> f PC = 0x8d -> f (PC + 1) = low a -> f (PC + 2) = high a -> ram a ->
  exec p ram 1 4 R f (mkRegs A X Y S (PC + 3) P) (store1 f (a, A)).
Proof.
  intros H1 H2 H3 H4 Hr. eapply (exec_one p ram R f 0x8d Sta Absolute 4 (mkEffect (mkRegs A X Y S (PC + 3) P) [(a, A)] 4)); try reflexivity.
  - cbn [rPC]. lia.
  - exact H2.
  - cbn [rPC]. rewrite H3, H4. unfold execute, store_op, operand_address. rewrite word_low_high. rewrite <- (pc_small 3) by lia. reflexivity.
  - constructor; [exact Hr|constructor].
Qed.
Lemma i_sta_x a : 0 <= PC <= 0xfffc -> f PC = 0x9d -> f (PC + 1) = low a -> f (PC + 2) = high a -> 0 <= a + X <= 0xffff -> ram (a + X) ->
  exec p ram 1 5 R f (mkRegs A X Y S (PC + 3) P) (store1 f (a + X, A)).
Proof.
  intros H1 H2 H3 H4 H5 Hr. eapply (exec_one p ram R f 0x9d Sta AbsoluteIndexedWithX 5 (mkEffect (mkRegs A X Y S (PC + 3) P) [(a + X, A)] 5)); try reflexivity.
  - cbn [rPC]. lia.
  - exact H2.
  - cbn [rPC]. rewrite H3, H4. unfold execute, store_op, operand_address. rewrite word_low_high. cbn [rX rA]. rewrite (Z.mod_small (a + X)) by lia.
    rewrite <- (pc_small 3) by lia. reflexivity.
  - constructor; [exact Hr|constructor].
Qed.
End Instructions.

(** ** Loops *)
Definition cross (b a : Z) : nat := if a / 256 =? b / 256 then 0%nat else 1%nat.

Lemma dex_loop p (ram : Z -> Prop) A Y S L f : 0 <= L <= 0xfffc -> bytes_from f L dex_program ->
  forall n, (1 <= n <= 256)%nat -> forall P, exec p ram (2 * n) (5 * n - 1 + (n - 1) * cross (L + 1) L)
    (mkRegs A (Z.of_nat n mod 256) Y S L P) f (mkRegs A 0 Y S (L + 3) (nzf P 0)) f.
Proof.
  intros HL (B0 & B1 & B2 & _). induction n as [|n IH]; intros Hn P; [lia|].
  assert (E : (Z.of_nat (Datatypes.S n) mod 256 - 1) mod 256 = Z.of_nat n) by lia.
  pose proof (i_dex p ram A (Z.of_nat (Datatypes.S n) mod 256) Y S L P f ltac:(lia) B0) as X1. rewrite E in X1.
  destruct n as [|n].
  - pose proof (i_bne_through p ram A (Z.of_nat 0) Y S (L + 1) (nzf P (Z.of_nat 0)) f ltac:(lia) B1 eq_refl) as X2.
    replace (L + 1 + 2) with (L + 3) in X2 by lia. exact (exec_app _ _ _ _ _ _ _ _ X1 _ _ _ _ X2).
  - pose proof (i_bne_back p ram A (Z.of_nat (Datatypes.S n)) Y S (L + 1) (nzf P (Z.of_nat (Datatypes.S n))) f 1
      ltac:(lia) B1 ltac:(cbn [ps_zero nzf]; lia) ltac:(rewrite B2; reflexivity) ltac:(lia) ltac:(lia)) as X2.
    replace (L + 1 - 1) with L in X2 by lia.
    specialize (IH ltac:(lia) (nzf P (Z.of_nat (Datatypes.S n)))).
    rewrite (Z.mod_small (Z.of_nat (Datatypes.S n)) 256) in IH by lia.
    change (nzf (nzf P (Z.of_nat (Datatypes.S n))) 0) with (nzf P 0) in IH.
    pose proof (exec_app _ _ _ _ _ _ _ _ X1 _ _ _ _ (exec_app _ _ _ _ _ _ _ _ X2 _ _ _ _ IH)) as X.
    replace (2 * Datatypes.S (Datatypes.S n))%nat with (1 + (1 + 2 * Datatypes.S n))%nat by lia.
    match type of X with exec _ _ _ ?t _ _ _ _ => match goal with |- exec _ _ _ ?u _ _ _ _ => replace u with t; [exact X|] end end.
    unfold cross. destruct (L / 256 =? (L + 1) / 256); lia.
Qed.

Lemma bytes_from_ext f g l : forall a, (forall q, a <= q < a + Z.of_nat (length l) -> g q = f q) -> bytes_from f a l -> bytes_from g a l.
Proof.
  induction l as [|b l IH]; intros a E H; [exact I|]. cbn [length] in E. destruct H as [H1 H2]. split.
  - rewrite E by lia. exact H1.
  - apply IH; [|exact H2]. intros q Hq. apply E. lia.
Qed.
Lemma bytes_from_app f l l' : forall a, bytes_from f a (l ++ l') <-> bytes_from f a l /\ bytes_from f (a + Z.of_nat (length l)) l'.
Proof.
  induction l as [|b l IH]; intros a; cbn [app bytes_from length].
  - replace (a + Z.of_nat 0) with a by lia. tauto.
  - rewrite IH. replace (a + 1 + Z.of_nat (length l)) with (a + Z.of_nat (Datatypes.S (length l))) by lia. tauto.
Qed.
Lemma store1_other f a v q : q <> a -> store1 f (a, v) q = f q.
Proof. intros H. unfold store1. cbn [fst snd]. replace (q =? a) with false by lia. reflexivity. Qed.
Lemma store1_same f a v : store1 f (a, v) a = v.
Proof. unfold store1. cbn [fst snd]. rewrite Z.eqb_refl. reflexivity. Qed.

(** One round of the copying loop, up to the branch. *)
Lemma copy_round p (ram : Z -> Prop) s d A X Y S L P f : 0 <= L <= 0xfff6 -> bytes_from f L (copy_program s d) ->
  0 <= s + X <= 0xffff -> 0 <= d + X <= 0xffff -> ram (d + X) ->
  ~ (L <= d + X < L + 9) ->
  exists t, (11 <= t <= 12)%nat /\ exec p ram 3 t (mkRegs A X Y S L P) f
    (mkRegs (f (s + X)) ((X - 1) mod 256) Y S (L + 7) (nzf P ((X - 1) mod 256))) (store1 f (d + X, f (s + X))) /\
  bytes_from (store1 f (d + X, f (s + X))) L (copy_program s d).
Proof.
  intros HL B Hs Hd Hr Hc. pose proof B as (B0 & B1 & B2 & B3 & B4 & B5 & B6 & _).
  assert (B' : bytes_from (store1 f (d + X, f (s + X))) L (copy_program s d)).
  { eapply bytes_from_ext; [|exact B]. intros q Hq. cbn [length copy_program] in Hq. apply store1_other. lia. }
  pose proof (i_lda_x p ram A X Y S L P f s ltac:(lia) B0 B1 ltac:(rewrite <- B2; f_equal; lia) Hs) as X1.
  pose proof (i_sta_x p ram (f (s + X)) X Y S (L + 3) (nzf P (f (s + X))) f d ltac:(lia)
    ltac:(rewrite <- B3; f_equal; lia) ltac:(rewrite <- B4; f_equal; lia) ltac:(rewrite <- B5; f_equal; lia) Hd Hr) as X2.
  assert (B6' : store1 f (d + X, f (s + X)) (L + 3 + 3) = 0xca) by (rewrite store1_other by lia; rewrite <- B6; f_equal; lia).
  pose proof (i_dex p ram (f (s + X)) X Y S (L + 3 + 3) (nzf P (f (s + X))) (store1 f (d + X, f (s + X))) ltac:(lia) B6') as X3.
  pose proof (exec_app _ _ _ _ _ _ _ _ X1 _ _ _ _ (exec_app _ _ _ _ _ _ _ _ X2 _ _ _ _ X3)) as X0.
  replace (L + 3 + 3 + 1) with (L + 7) in X0 by lia.
  eexists. split; [|split; [exact X0|exact B']]. destruct (_ =? _); lia.
Qed.

Lemma copy_loop p (ram : Z -> Prop) s d Y S L : 0 <= L <= 0xfff6 -> forall n, (1 <= n <= 255)%nat ->
  0 <= s -> 0 <= d -> s + Z.of_nat n <= 0xffff -> d + Z.of_nat n <= 0xffff ->
  s <= d \/ d + Z.of_nat n <= s -> (forall q, d + 1 <= q <= d + Z.of_nat n -> ram q /\ ~ (L <= q < L + 9)) ->
  forall f A P, bytes_from f L (copy_program s d) ->
  exists t f', (14 * n - 1 <= t <= 16 * n)%nat /\
    exec p ram (4 * n) t (mkRegs A (Z.of_nat n) Y S L P) f (mkRegs (f (s + 1)) 0 Y S (L + 9) (nzf P 0)) f' /\
    forall q, f' q = if (d + 1 <=? q) && (q <=? d + Z.of_nat n) then f (s + (q - d)) else f q.
Proof.
  intros HL. induction n as [|n IH]; intros Hn Hs0 Hd0 Hs Hd Ho Hr f A P B; [lia|].
  destruct (copy_round p ram s d A (Z.of_nat (Datatypes.S n)) Y S L P f HL B ltac:(lia) ltac:(lia)
    ltac:(apply Hr; lia) ltac:(apply Hr; lia)) as (t1 & T1 & X1 & B').
  set (f1 := store1 f (d + Z.of_nat (Datatypes.S n), f (s + Z.of_nat (Datatypes.S n)))) in *.
  replace ((Z.of_nat (Datatypes.S n) - 1) mod 256) with (Z.of_nat n) in X1 by lia.
  pose proof B' as (_ & _ & _ & _ & _ & _ & _ & B7 & B8 & _).
  destruct n as [|n].
  - pose proof (i_bne_through p ram (f (s + Z.of_nat 1)) (Z.of_nat 0) Y S (L + 7) (nzf P (Z.of_nat 0)) f1 ltac:(lia)
      ltac:(rewrite <- B7; f_equal; lia) eq_refl) as X2.
    replace (L + 7 + 2) with (L + 9) in X2 by lia.
    exists (t1 + 2)%nat, f1. split; [lia|]. split; [exact (exec_app _ _ _ _ _ _ _ _ X1 _ _ _ _ X2)|].
    intros q. unfold f1, store1. cbn [fst snd]. destruct (q =? d + Z.of_nat 1) eqn:E.
    + replace ((d + 1 <=? q) && (q <=? d + Z.of_nat 1)) with true by lia. f_equal. lia.
    + replace ((d + 1 <=? q) && (q <=? d + Z.of_nat 1)) with false by lia. reflexivity.
  - pose proof (i_bne_back p ram (f (s + Z.of_nat (Datatypes.S (Datatypes.S n)))) (Z.of_nat (Datatypes.S n)) Y S (L + 7)
      (nzf P (Z.of_nat (Datatypes.S n))) f1 7 ltac:(lia) ltac:(rewrite <- B7; f_equal; lia) ltac:(cbn [ps_zero nzf]; lia)
      ltac:(replace (256 - 7) with 0xf9 by reflexivity; rewrite <- B8; f_equal; lia) ltac:(lia) ltac:(lia)) as X2.
    replace (L + 7 - 7) with L in X2 by lia.
    destruct (IH ltac:(lia) Hs0 Hd0 ltac:(lia) ltac:(lia) ltac:(lia) ltac:(intros; apply Hr; lia) f1
      (f (s + Z.of_nat (Datatypes.S (Datatypes.S n)))) (nzf P (Z.of_nat (Datatypes.S n))) B') as (t2 & f' & T2 & X3 & F).
    change (nzf (nzf P (Z.of_nat (Datatypes.S n))) 0) with (nzf P 0) in X3.
    assert (E1 : f1 (s + 1) = f (s + 1)) by (apply store1_other; lia). rewrite E1 in X3.
    pose proof (exec_app _ _ _ _ _ _ _ _ X1 _ _ _ _ (exec_app _ _ _ _ _ _ _ _ X2 _ _ _ _ X3)) as X0.
    replace (4 * Datatypes.S (Datatypes.S n))%nat with (3 + (1 + 4 * Datatypes.S n))%nat by lia.
    eexists. exists f'. split; [|split; [exact X0|]].
    + destruct (_ =? _); lia.
    + intros q. rewrite F. destruct ((d + 1 <=? q) && (q <=? d + Z.of_nat (Datatypes.S n))) eqn:E.
      * replace ((d + 1 <=? q) && (q <=? d + Z.of_nat (Datatypes.S (Datatypes.S n)))) with true by lia.
        unfold f1. apply store1_other. lia.
      * unfold f1, store1. cbn [fst snd]. destruct (q =? d + Z.of_nat (Datatypes.S (Datatypes.S n))) eqn:E2.
        -- replace ((d + 1 <=? q) && (q <=? d + Z.of_nat (Datatypes.S (Datatypes.S n)))) with true by lia. f_equal. lia.
        -- replace ((d + 1 <=? q) && (q <=? d + Z.of_nat (Datatypes.S (Datatypes.S n)))) with false by lia. reflexivity.
Qed.

(** ** Multi-byte arithmetic *)
(** The bytes the emulated addition and subtraction leave behind. *)
Fixpoint emu_add (f : Z -> Z) (a b : Z) (n : nat) : Z :=
  match n with O => 0 | Datatypes.S n' => (f a + f b) mod 256 + 256 * emu_add f (a + 1) (b + 1) n' end.
Definition next_carry (x y : Z) (c : bool) : bool := 256 <=? x + (255 - y + (if c then 1 else 0)) mod 256.
Fixpoint emu_sub (f : Z -> Z) (a b : Z) (c : bool) (n : nat) : Z :=
  match n with
  | O => 0
  | Datatypes.S n' => (f a - f b - (if c then 0 else 1)) mod 256 + 256 * emu_sub f (a + 1) (b + 1) (next_carry (f a) (f b) c) n'
  end.

Lemma emu_add_ext f g n : forall a b, (forall q, a <= q < a + Z.of_nat n -> g q = f q) ->
  (forall q, b <= q < b + Z.of_nat n -> g q = f q) -> emu_add g a b n = emu_add f a b n.
Proof.
  induction n as [|n IH]; intros a b Ha Hb; [reflexivity|]. cbn [emu_add]. rewrite (Ha a), (Hb b) by lia.
  f_equal. f_equal. apply IH; intros q Hq; [apply Ha|apply Hb]; lia.
Qed.
Lemma emu_sub_ext f g n : forall a b c, (forall q, a <= q < a + Z.of_nat n -> g q = f q) ->
  (forall q, b <= q < b + Z.of_nat n -> g q = f q) -> emu_sub g a b c n = emu_sub f a b c n.
Proof.
  induction n as [|n IH]; intros a b c Ha Hb; [reflexivity|]. cbn [emu_sub]. rewrite (Ha a), (Hb b) by lia.
  f_equal. f_equal. apply IH; intros q Hq; [apply Ha|apply Hb]; lia.
Qed.

Lemma length_each_byte op n : forall a b d, length (each_byte op a b d n) = (9 * n)%nat.
Proof. induction n as [|n IH]; intros a b d; [reflexivity|]. cbn [each_byte]. rewrite app_length, IH. cbn [length]. lia. Qed.

Lemma add_bytes p (ram : Z -> Prop) X Y S : forall n a b d L A P f,
  0 <= L -> L + 9 * Z.of_nat n <= 0xffff ->
  bytes_from f L (each_byte 0x6d a b d n) ->
  (forall q, d <= q < d + Z.of_nat n -> ram q /\ ~ (L <= q < L + 9 * Z.of_nat n)) ->
  ~ (a < d < a + Z.of_nat n) -> ~ (b < d < b + Z.of_nat n) ->
  exists A' P' f', exec p ram (3 * n) (12 * n) (mkRegs A X Y S L P) f (mkRegs A' X Y S (L + 9 * Z.of_nat n) P') f' /\
    number f' d n = emu_add f a b n /\ (forall q, ~ (d <= q < d + Z.of_nat n) -> f' q = f q) /\
    (forall i, 0 <= i < Z.of_nat n -> f' (d + i) = (f (a + i) + f (b + i)) mod 256).
Proof.
  induction n as [|n IH]; intros a b d L A P f HL HM B Hd Ha Hb.
  - exists A, P, f. replace (L + 9 * Z.of_nat 0) with L by lia. split; [constructor|]. split; [reflexivity|].
    split; [reflexivity|intros; lia].
  - cbn [each_byte] in B. apply bytes_from_app in B. destruct B as [B Br].
    destruct B as (B0 & B1 & B2 & B3 & B4 & B5 & B6 & B7 & B8 & _). cbn [length] in Br.
    replace (L + Z.of_nat 9) with (L + 9) in Br by lia.
    destruct (Hd d ltac:(lia)) as [Hr0 Hc0].
    pose proof (i_lda p ram A X Y S L P f a ltac:(lia) B0 B1 ltac:(rewrite <- B2; f_equal; lia)) as X1.
    destruct (i_adc p ram (f a) X Y S (L + 3) (nzf P (f a)) f b ltac:(lia) ltac:(rewrite <- B3; f_equal; lia)
      ltac:(rewrite <- B4; f_equal; lia) ltac:(rewrite <- B5; f_equal; lia)) as (P1 & X2).
    pose proof (i_sta p ram ((f a + f b) mod 256) X Y S (L + 3 + 3) P1 f d ltac:(lia) ltac:(rewrite <- B6; f_equal; lia)
      ltac:(rewrite <- B7; f_equal; lia) ltac:(rewrite <- B8; f_equal; lia) Hr0) as X3.
    replace (L + 3 + 3 + 3) with (L + 9) in X3 by lia.
    set (f1 := store1 f (d, (f a + f b) mod 256)) in *.
    assert (F1 : forall q, q <> d -> f1 q = f q) by (intros q Hq; apply store1_other; exact Hq).
    assert (Br' : bytes_from f1 (L + 9) (each_byte 0x6d (a + 1) (b + 1) (d + 1) n)).
    { eapply bytes_from_ext; [|exact Br]. intros q Hq. rewrite length_each_byte in Hq. apply F1. lia. }
    destruct (IH (a + 1) (b + 1) (d + 1) (L + 9) ((f a + f b) mod 256) P1 f1 ltac:(lia) ltac:(lia) Br') as (A' & P' & f' & X4 & N & Fr & Pw);
      [intros q Hq; destruct (Hd q ltac:(lia)); (split; [assumption|lia])|lia|lia|].
    exists A', P', f'. split; [|split; [|split]].
    + pose proof (exec_app _ _ _ _ _ _ _ _ X1 _ _ _ _ (exec_app _ _ _ _ _ _ _ _ X2 _ _ _ _ (exec_app _ _ _ _ _ _ _ _ X3 _ _ _ _ X4))) as X0.
      replace (L + 9 * Z.of_nat (Datatypes.S n)) with (L + 9 + 9 * Z.of_nat n) by lia.
      replace (3 * Datatypes.S n)%nat with (1 + (1 + (1 + 3 * n)))%nat by lia.
      replace (12 * Datatypes.S n)%nat with (4 + (4 + (4 + 12 * n)))%nat by lia. exact X0.
    + cbn [number emu_add]. rewrite N. rewrite (Fr d) by lia. unfold f1 at 1. rewrite store1_same. f_equal. f_equal.
      apply emu_add_ext; intros q Hq; apply F1; lia.
    + intros q Hq. rewrite Fr by lia. apply F1. lia.
    + intros i Hi. destruct (Z.eq_dec i 0) as [->|Hi0].
      * rewrite !Z.add_0_r. rewrite Fr by lia. apply store1_same.
      * pose proof (Pw (i - 1) ltac:(lia)) as Q. replace (d + 1 + (i - 1)) with (d + i) in Q by lia.
        replace (a + 1 + (i - 1)) with (a + i) in Q by lia. replace (b + 1 + (i - 1)) with (b + i) in Q by lia.
        rewrite Q, !F1 by lia. reflexivity.
Qed.

Lemma sub_bytes p (ram : Z -> Prop) X Y S : forall n a b d L A P f,
  0 <= L -> L + 9 * Z.of_nat n <= 0xffff ->
  bytes_from f L (each_byte 0xed a b d n) ->
  (forall q, d <= q < d + Z.of_nat n -> ram q /\ ~ (L <= q < L + 9 * Z.of_nat n)) ->
  ~ (a < d < a + Z.of_nat n) -> ~ (b < d < b + Z.of_nat n) ->
  exists A' P' f', exec p ram (3 * n) (12 * n) (mkRegs A X Y S L P) f (mkRegs A' X Y S (L + 9 * Z.of_nat n) P') f' /\
    number f' d n = emu_sub f a b (ps_carry P) n /\ (forall q, ~ (d <= q < d + Z.of_nat n) -> f' q = f q).
Proof.
  induction n as [|n IH]; intros a b d L A P f HL HM B Hd Ha Hb.
  - exists A, P, f. replace (L + 9 * Z.of_nat 0) with L by lia. split; [constructor|]. split; reflexivity.
  - cbn [each_byte] in B. apply bytes_from_app in B. destruct B as [B Br].
    destruct B as (B0 & B1 & B2 & B3 & B4 & B5 & B6 & B7 & B8 & _). cbn [length] in Br.
    replace (L + Z.of_nat 9) with (L + 9) in Br by lia.
    destruct (Hd d ltac:(lia)) as [Hr0 Hc0].
    pose proof (i_lda p ram A X Y S L P f a ltac:(lia) B0 B1 ltac:(rewrite <- B2; f_equal; lia)) as X1.
    destruct (i_sbc p ram (f a) X Y S (L + 3) (nzf P (f a)) f b ltac:(lia) ltac:(rewrite <- B3; f_equal; lia)
      ltac:(rewrite <- B4; f_equal; lia) ltac:(rewrite <- B5; f_equal; lia)) as (P1 & C1 & X2).
    cbn [ps_carry nzf] in C1, X2.
    set (v := (f a - f b - (if ps_carry P then 0 else 1)) mod 256) in *.
    pose proof (i_sta p ram v X Y S (L + 3 + 3) P1 f d ltac:(lia) ltac:(rewrite <- B6; f_equal; lia)
      ltac:(rewrite <- B7; f_equal; lia) ltac:(rewrite <- B8; f_equal; lia) Hr0) as X3.
    replace (L + 3 + 3 + 3) with (L + 9) in X3 by lia.
    set (f1 := store1 f (d, v)) in *.
    assert (F1 : forall q, q <> d -> f1 q = f q) by (intros q Hq; apply store1_other; exact Hq).
    assert (Br' : bytes_from f1 (L + 9) (each_byte 0xed (a + 1) (b + 1) (d + 1) n)).
    { eapply bytes_from_ext; [|exact Br]. intros q Hq. rewrite length_each_byte in Hq. apply F1. lia. }
    destruct (IH (a + 1) (b + 1) (d + 1) (L + 9) v P1 f1 ltac:(lia) ltac:(lia) Br') as (A' & P' & f' & X4 & N & Fr);
      [intros q Hq; destruct (Hd q ltac:(lia)); (split; [assumption|lia])|lia|lia|].
    exists A', P', f'. split; [|split].
    + pose proof (exec_app _ _ _ _ _ _ _ _ X1 _ _ _ _ (exec_app _ _ _ _ _ _ _ _ X2 _ _ _ _ (exec_app _ _ _ _ _ _ _ _ X3 _ _ _ _ X4))) as X0.
      replace (L + 9 * Z.of_nat (Datatypes.S n)) with (L + 9 + 9 * Z.of_nat n) by lia.
      replace (3 * Datatypes.S n)%nat with (1 + (1 + (1 + 3 * n)))%nat by lia.
      replace (12 * Datatypes.S n)%nat with (4 + (4 + (4 + 12 * n)))%nat by lia. exact X0.
    + cbn [number emu_sub]. rewrite N. rewrite (Fr d) by lia. unfold f1 at 1. rewrite store1_same. f_equal. f_equal.
      rewrite C1. apply emu_sub_ext; intros q Hq; apply F1; lia.
    + intros q Hq. rewrite Fr by lia. apply F1. lia.
Qed.

(** ** What these bytes amount to *)
Lemma pow256_S n : 256 ^ Z.of_nat (Datatypes.S n) = 256 * 256 ^ Z.of_nat n.
Proof. rewrite Nat2Z.inj_succ, Z.pow_succ_r by lia. reflexivity. Qed.
Lemma pow256_pos n : 0 < 256 ^ Z.of_nat n.
Proof. apply Z.pow_pos_nonneg; lia. Qed.

(** Splitting off the lowest byte. *)
Lemma mod_split x h n : 0 <= n -> (x + 256 * h) mod (256 * 256 ^ n) = x mod 256 + 256 * ((h + x / 256) mod 256 ^ n).
Proof.
  intros Hn. assert (0 < 256 ^ n) by (apply Z.pow_pos_nonneg; lia).
  rewrite Z.rem_mul_r by lia. replace (x + 256 * h) with (x + h * 256) by lia.
  rewrite Z.mod_add, Z.div_add by lia. rewrite (Z.add_comm h). reflexivity.
Qed.
Lemma low_byte x n : 0 <= n -> (x mod 256 ^ (n + 1)) mod 256 = x mod 256.
Proof.
  intros Hn. replace (n + 1) with (Z.succ n) by lia. rewrite Z.pow_succ_r by lia.
  pose proof (mod_split x 0 n Hn) as E. rewrite Z.mul_0_r, Z.add_0_r in E. rewrite E.
  match goal with |- (?u + 256 * ?v) mod 256 = _ => replace (u + 256 * v) with (u + v * 256) by lia end.
  rewrite Z.mod_add, Z.mod_mod by lia. reflexivity.
Qed.

Section Numbers.
Variable f : Z -> Z.
Hypothesis bytes : forall q, 0 <= f q < 256.

Lemma number_low a n : (0 < n)%nat -> number f a n mod 256 = f a.
Proof.
  intros Hn. destruct n as [|n]; [lia|]. cbn [number].
  match goal with |- (?u + 256 * ?v) mod 256 = _ => replace (u + 256 * v) with (u + v * 256) by lia end. rewrite Z.mod_add by lia.
  apply Z.mod_small, bytes.
Qed.
Lemma emu_add_low a b n : (0 < n)%nat -> emu_add f a b n mod 256 = (f a + f b) mod 256.
Proof.
  intros Hn. destruct n as [|n]; [lia|]. cbn [emu_add].
  replace ((f a + f b) mod 256 + 256 * emu_add f (a + 1) (b + 1) n) with ((f a + f b) mod 256 + emu_add f (a + 1) (b + 1) n * 256) by lia.
  rewrite Z.mod_add, Z.mod_mod by lia. reflexivity.
Qed.
Lemma emu_sub_low a b c n : (0 < n)%nat -> emu_sub f a b c n mod 256 = (f a - f b - (if c then 0 else 1)) mod 256.
Proof.
  intros Hn. destruct n as [|n]; [lia|]. cbn [emu_sub].
  match goal with |- (?x + 256 * ?y) mod 256 = _ => replace (x + 256 * y) with (x + y * 256) by lia end.
  rewrite Z.mod_add, Z.mod_mod by lia. reflexivity.
Qed.

Lemma emu_add_iff : forall n a b,
  emu_add f a b n = (number f a n + number f b n) mod 256 ^ Z.of_nat n <->
  (forall i, 0 <= i -> i + 1 < Z.of_nat n -> f (a + i) + f (b + i) < 256).
Proof.
  induction n as [|n IH]; intros a b.
  - split; [intros _ i H1 H2; lia|reflexivity].
  - rewrite pow256_S. cbn [emu_add number].
    replace (f a + 256 * number f (a + 1) n + (f b + 256 * number f (b + 1) n))
      with (f a + f b + 256 * (number f (a + 1) n + number f (b + 1) n)) by lia.
    rewrite mod_split by lia. pose proof (bytes a) as Ba. pose proof (bytes b) as Bb.
    set (E := emu_add f (a + 1) (b + 1) n) in *. set (N := number f (a + 1) n + number f (b + 1) n) in *.
    assert (K : (f a + f b) mod 256 + 256 * E = (f a + f b) mod 256 + 256 * ((N + (f a + f b) / 256) mod 256 ^ Z.of_nat n) <->
      E = (N + (f a + f b) / 256) mod 256 ^ Z.of_nat n) by (clear; lia).
    rewrite K. clear K. destruct n as [|n].
    { split; [intros _ i H1 H2; lia|]. intros _. subst E. cbn [emu_add]. change (Z.of_nat 0) with 0. rewrite Z.pow_0_r, Z.mod_1_r. reflexivity. }
    destruct (Z.ltb_spec (f a + f b) 256) as [Hlt|Hge].
    + rewrite (Z.div_small (f a + f b)) by lia. rewrite Z.add_0_r. subst E N. rewrite IH. split; intros H i H1 H2.
      * destruct (Z.eq_dec i 0) as [->|Hi]; [rewrite !Z.add_0_r; exact Hlt|].
        specialize (H (i - 1) ltac:(lia) ltac:(lia)). replace (a + 1 + (i - 1)) with (a + i) in H by lia.
        replace (b + 1 + (i - 1)) with (b + i) in H by lia. exact H.
      * specialize (H (i + 1) ltac:(lia) ltac:(lia)). replace (a + (i + 1)) with (a + 1 + i) in H by lia.
        replace (b + (i + 1)) with (b + 1 + i) in H by lia. exact H.
    + replace ((f a + f b) / 256) with 1 by lia. split; intros H; exfalso.
      * assert (L1 : E mod 256 = (f (a + 1) + f (b + 1)) mod 256) by (apply emu_add_low; lia).
        assert (L2 : ((N + 1) mod 256 ^ Z.of_nat (Datatypes.S n)) mod 256 = (N + 1) mod 256).
        { rewrite Nat2Z.inj_succ. apply (low_byte (N + 1) (Z.of_nat n)). lia. }
        assert (L3 : (N + 1) mod 256 = (f (a + 1) + f (b + 1) + 1) mod 256).
        { subst N. rewrite (Zplus_mod _ 1), (Zplus_mod (number f (a + 1) (Datatypes.S n))), !number_low by lia.
          rewrite <- Zplus_mod. reflexivity. }
        rewrite <- H, L3, L1 in L2. clear -L2. lia.
      * specialize (H 0 ltac:(lia) ltac:(lia)). rewrite !Z.add_0_r in H. lia.
Qed.

(** [number f a k] for [k] given as an integer. *)
Lemma emu_sub_iff : forall n a b c,
  emu_sub f a b c n = (number f a n - number f b n - (if c then 0 else 1)) mod 256 ^ Z.of_nat n <->
  (forall i, (i + 1 < n)%nat -> f (b + Z.of_nat i) = 0 -> number f a i - number f b i - (if c then 0 else 1) < 0).
Proof.
  induction n as [|n IH]; intros a b c.
  - split; [intros _ i H; lia|]. intros _. change (Z.of_nat 0) with 0. rewrite Z.pow_0_r, Z.mod_1_r. reflexivity.
  - rewrite pow256_S. cbn [emu_sub number]. set (k := if c then 0 else 1) in *.
    replace (f a + 256 * number f (a + 1) n - (f b + 256 * number f (b + 1) n) - k)
      with (f a - f b - k + 256 * (number f (a + 1) n - number f (b + 1) n)) by lia.
    rewrite mod_split by lia. pose proof (bytes a) as Ba. pose proof (bytes b) as Bb.
    assert (Hk : 0 <= k <= 1) by (subst k; destruct c; lia).
    set (c1 := next_carry (f a) (f b) c) in *.
    match goal with |- ?x + 256 * ?E = ?x + 256 * ?M <-> _ => assert (K : x + 256 * E = x + 256 * M <-> E = M) by (clear; lia); rewrite K; clear K end.
    destruct n as [|n].
    { split; [intros _ i H; lia|]. intros _. cbn [emu_sub]. change (Z.of_nat 0) with 0. rewrite Z.pow_0_r, Z.mod_1_r. reflexivity. }
    destruct (Bool.bool_dec c1 (0 <=? f a - f b - k)) as [Hc|Hc].
    + replace (number f (a + 1) (Datatypes.S n) - number f (b + 1) (Datatypes.S n) + (f a - f b - k) / 256)
        with (number f (a + 1) (Datatypes.S n) - number f (b + 1) (Datatypes.S n) - (if c1 then 0 else 1))
        by (rewrite Hc; destruct (0 <=? f a - f b - k) eqn:Q; lia).
      rewrite IH. clear IH. split; intros H i Hi Hb.
      * destruct i as [|i].
        -- cbn [number]. replace (b + Z.of_nat 0) with b in Hb by lia. subst c1 k. unfold next_carry in Hc. rewrite Hb in Hc.
           destruct c; [exfalso|lia]. replace ((255 - 0 + 1) mod 256) with 0 in Hc by reflexivity. clear H. lia.
        -- specialize (H i ltac:(lia)). replace (b + 1 + Z.of_nat i) with (b + Z.of_nat (Datatypes.S i)) in H by lia. specialize (H Hb).
           cbn [number]. rewrite Hc in H. destruct (0 <=? f a - f b - k) eqn:Q; lia.
      * specialize (H (Datatypes.S i) ltac:(lia)). replace (b + Z.of_nat (Datatypes.S i)) with (b + 1 + Z.of_nat i) in H by lia. specialize (H Hb).
        cbn [number] in H. rewrite Hc. destruct (0 <=? f a - f b - k) eqn:Q; lia.
    + assert (Hz : c = true /\ f b = 0 /\ c1 = false /\ 0 <= f a - f b - k).
      { clear IH. subst c1 k. unfold next_carry in *. destruct c; [|lia]. destruct (Z.eq_dec (f b) 0) as [Q|Q]; [|lia].
        rewrite Q in *. replace ((255 - 0 + 1) mod 256) with 0 in * by reflexivity. lia. }
      destruct Hz as (-> & Hb0 & Hc1 & Hge). replace ((f a - f b - k) / 256) with 0 by lia.
      split; intros H; exfalso.
      * rewrite Hc1 in H.
        assert (L1 := emu_sub_low (a + 1) (b + 1) false (Datatypes.S n) ltac:(lia)).
        set (N := number f (a + 1) (Datatypes.S n) - number f (b + 1) (Datatypes.S n) + 0) in *.
        assert (L2 : (N mod 256 ^ Z.of_nat (Datatypes.S n)) mod 256 = N mod 256).
        { rewrite Nat2Z.inj_succ. apply (low_byte N (Z.of_nat n)). lia. }
        assert (L3 : N mod 256 = (f (a + 1) - f (b + 1)) mod 256).
        { subst N. rewrite Z.add_0_r, Zminus_mod, !number_low by lia. reflexivity. }
        rewrite <- H, L1, L3 in L2. clear -L2. lia.
      * specialize (H 0%nat ltac:(lia)). replace (b + Z.of_nat 0) with b in H by lia. specialize (H Hb0). cbn [number] in H. subst k. cbn iota in H. lia.
Qed.
End Numbers.

(** ** The loop on Y *)
Lemma dey_round p (ram : Z -> Prop) A X Y S L P f : 0 <= L <= 0xfffc -> bytes_from f L dey_program -> 0 <= X < 256 -> X <> 1 ->
  exists t, (5 <= t <= 6)%nat /\
    exec p ram 2 t (mkRegs A X Y S L P) f (mkRegs A X ((Y - 1) mod 256) S L (nzf P ((X - 1) mod 256))) f.
Proof.
  intros HL (B0 & B1 & B2 & _) HX HX1.
  pose proof (i_dey p ram A X Y S L P f ltac:(lia) B0) as X1.
  pose proof (i_bne_back p ram A X ((Y - 1) mod 256) S (L + 1) (nzf P ((X - 1) mod 256)) f 1
      ltac:(lia) B1 ltac:(cbn [ps_zero nzf]; lia) ltac:(rewrite B2; reflexivity) ltac:(lia) ltac:(lia)) as X2.
  replace (L + 1 - 1) with L in X2 by lia.
  eexists. split; [|exact (exec_app _ _ _ _ _ _ _ _ X1 _ _ _ _ X2)]. destruct (_ =? _); lia.
Qed.
Lemma dey_rounds p (ram : Z -> Prop) A X S L f : 0 <= L <= 0xfffc -> bytes_from f L dey_program -> 0 <= X < 256 -> X <> 1 ->
  forall n Y P, 0 <= Y < 256 -> exists t P', (5 * n <= t <= 6 * n)%nat /\
    exec p ram (2 * n) t (mkRegs A X Y S L P) f (mkRegs A X ((Y - Z.of_nat n) mod 256) S L P') f.
Proof.
  intros HL B HX HX1. induction n as [|n IH]; intros Y P HY.
  - exists 0%nat, P. split; [lia|]. replace ((Y - Z.of_nat 0) mod 256) with Y by lia. constructor.
  - destruct (dey_round p ram A X Y S L P f HL B HX HX1) as (t1 & T1 & X1).
    destruct (IH ((Y - 1) mod 256) (nzf P ((X - 1) mod 256)) ltac:(lia)) as (t2 & P' & T2 & X2).
    exists (t1 + t2)%nat, P'. split; [lia|]. replace (2 * Datatypes.S n)%nat with (2 + 2 * n)%nat by lia.
    replace ((Y - Z.of_nat (Datatypes.S n)) mod 256) with (((Y - 1) mod 256 - Z.of_nat n) mod 256) by lia.
    exact (exec_app _ _ _ _ _ _ _ _ X1 _ _ _ _ X2).
Qed.

Lemma copy_page p (ram : Z -> Prop) s d Y S L f A P : 0 <= L <= 0xfff6 ->
  0 <= s -> 0 <= d -> s + 255 <= 0xffff -> d + 255 <= 0xffff ->
  s + 255 < d \/ d + 255 < s -> (forall q, d <= q <= d + 255 -> ram q /\ ~ (L <= q < L + 9)) ->
  bytes_from f L (copy_program s d) ->
  exists t f', (14 * 256 - 1 <= t <= 16 * 256)%nat /\
    exec p ram (4 * 256) t (mkRegs A 0 Y S L P) f (mkRegs (f (s + 1)) 0 Y S (L + 9) (nzf P 0)) f' /\
    forall q, f' q = if (d <=? q) && (q <=? d + 255) then f (s + (q - d)) else f q.
Proof.
  intros HL Hs0 Hd0 Hs Hd Ho Hr B.
  destruct (copy_round p ram s d A 0 Y S L P f HL B ltac:(lia) ltac:(lia) ltac:(apply Hr; lia) ltac:(apply Hr; lia)) as (t1 & T1 & X1 & B').
  set (f1 := store1 f (d + 0, f (s + 0))) in *. change ((0 - 1) mod 256) with 255 in X1.
  pose proof B' as (_ & _ & _ & _ & _ & _ & _ & B7 & B8 & _).
  pose proof (i_bne_back p ram (f (s + 0)) 255 Y S (L + 7) (nzf P 255) f1 7 ltac:(lia) ltac:(rewrite <- B7; f_equal; lia) eq_refl
      ltac:(replace (256 - 7) with 0xf9 by reflexivity; rewrite <- B8; f_equal; lia) ltac:(lia) ltac:(lia)) as X2.
  replace (L + 7 - 7) with L in X2 by lia.
  destruct (copy_loop p ram s d Y S L HL 255 ltac:(lia) Hs0 Hd0 ltac:(lia) ltac:(lia) ltac:(lia) ltac:(intros; apply Hr; lia) f1
      (f (s + 0)) (nzf P 255) B') as (t2 & f' & T2 & X3 & F).
  change (nzf (nzf P 255) 0) with (nzf P 0) in X3. change (Z.of_nat 255) with 255 in *.
  assert (E1 : f1 (s + 1) = f (s + 1)) by (apply store1_other; lia). rewrite E1 in X3.
  pose proof (exec_app _ _ _ _ _ _ _ _ X1 _ _ _ _ (exec_app _ _ _ _ _ _ _ _ X2 _ _ _ _ X3)) as X0.
  change (4 * 256)%nat with (3 + (1 + 4 * 255))%nat.
  eexists. exists f'. split; [|split; [exact X0|]].
  - destruct (_ =? _); lia.
  - intros q. rewrite F. destruct ((d + 1 <=? q) && (q <=? d + 255)) eqn:E.
    + replace ((d <=? q) && (q <=? d + 255)) with true by lia. unfold f1. apply store1_other. lia.
    + unfold f1, store1. cbn [fst snd]. destruct (q =? d + 0) eqn:E2.
      * replace ((d <=? q) && (q <=? d + 255)) with true by lia. f_equal. lia.
      * replace ((d <=? q) && (q <=? d + 255)) with false by lia. reflexivity.
Qed.

Lemma dey_leaves p (ram : Z -> Prop) A Y S L P f : 0 <= L <= 0xfffc -> bytes_from f L dey_program ->
  exec p ram 2 4 (mkRegs A 1 Y S L P) f (mkRegs A 1 ((Y - 1) mod 256) S (L + 3) (nzf P 0)) f.
Proof.
  intros HL (B0 & B1 & B2 & _).
  pose proof (i_dey p ram A 1 Y S L P f ltac:(lia) B0) as X1. change ((1 - 1) mod 256) with 0 in X1.
  pose proof (i_bne_through p ram A 1 ((Y - 1) mod 256) S (L + 1) (nzf P 0) f ltac:(lia) B1 eq_refl) as X2.
  replace (L + 1 + 2) with (L + 3) in X2 by lia. exact (exec_app _ _ _ _ _ _ _ _ X1 _ _ _ _ X2).
Qed.

(** For every number of instructions the loop on Y is still in the loop. *)
Lemma dey_stays p (ram : Z -> Prop) A X Y S L P f : 0 <= L <= 0xfffc -> bytes_from f L dey_program -> 0 <= X < 256 -> X <> 1 ->
  0 <= Y < 256 -> forall k, exists t Y' PC' P', (PC' = L \/ PC' = L + 1) /\ exec p ram k t (mkRegs A X Y S L P) f (mkRegs A X Y' S PC' P') f.
Proof.
  intros HL B HX HX1 HY k. destruct (dey_rounds p ram A X S L f HL B HX HX1 (k / 2) Y P HY) as (t & P' & _ & X0).
  pose proof (Nat.div_mod_eq k 2) as E. destruct (k mod 2)%nat as [|[|?]] eqn:Em; [| |pose proof (Nat.mod_upper_bound k 2); lia].
  - rewrite Nat.add_0_r in E. clear Em. generalize dependent (k / 2)%nat. intros m X0 E. rewrite E. eexists t, _, L, P'. split; [left; reflexivity|exact X0].
  - clear Em. generalize dependent (k / 2)%nat. intros m X0 E. rewrite E. pose proof (i_dey p ram A X ((Y - Z.of_nat m) mod 256) S L P' f ltac:(lia) (proj1 B)) as X1.
    eexists (t + 2)%nat, _, (L + 1), _. split; [right; reflexivity|]. exact (exec_app _ _ _ _ _ _ _ _ X0 _ _ _ _ X1).
Qed.

(** ** From memory contents that agree on 0..0xffff *)
Lemma number_ext f g n : forall a, (forall q, a <= q < a + Z.of_nat n -> g q = f q) -> number g a n = number f a n.
Proof.
  induction n as [|n IH]; intros a E; [reflexivity|]. cbn [number]. rewrite (E a) by lia. f_equal. f_equal.
  apply IH. intros q Hq. apply E. lia.
Qed.
Lemma emu_add_exact f n a b : byte_valued f -> 0 <= a -> 0 <= b -> a + Z.of_nat n <= 65536 -> b + Z.of_nat n <= 65536 ->
  (emu_add f a b n = (number f a n + number f b n) mod 256 ^ Z.of_nat n <->
  (forall i, 0 <= i -> i + 1 < Z.of_nat n -> f (a + i) + f (b + i) < 256)).
Proof.
  intros Hv Ha Hb Ma Mb. set (g := fun q => f q mod 256).
  assert (G : forall q, u16 q -> g q = f q) by (intros q Hq; apply Z.mod_small; apply Hv; exact Hq).
  pose proof (emu_add_iff g ltac:(intros q; subst g; cbn beta; lia) n a b) as K.
  rewrite (emu_add_ext f g), (number_ext f g n a), (number_ext f g n b) in K by (intros q Hq; apply G; unfold u16; lia).
  rewrite K. split; intros Q i H1 H2; specialize (Q i H1 H2); rewrite !G in * by (unfold u16; lia); exact Q.
Qed.
Lemma emu_sub_exact f n a b : byte_valued f -> 0 <= a -> 0 <= b -> a + Z.of_nat n <= 65536 -> b + Z.of_nat n <= 65536 ->
  (emu_sub f a b true n = (number f a n - number f b n) mod 256 ^ Z.of_nat n <->
  (forall i, (i + 1 < n)%nat -> f (b + Z.of_nat i) = 0 -> number f a i < number f b i)).
Proof.
  intros Hv Ha Hb Ma Mb. set (g := fun q => f q mod 256).
  assert (G : forall q, u16 q -> g q = f q) by (intros q Hq; apply Z.mod_small; apply Hv; exact Hq).
  pose proof (emu_sub_iff g ltac:(intros q; subst g; cbn beta; lia) n a b true) as K. cbn iota in K. rewrite Z.sub_0_r in K.
  rewrite (emu_sub_ext f g), (number_ext f g n a), (number_ext f g n b) in K by (intros q Hq; apply G; unfold u16; lia).
  rewrite K. split; intros Q i H1 H2; specialize (Q i H1);
    rewrite (number_ext f g i a), (number_ext f g i b), G in * by ((intros q Hq; apply G; unfold u16; lia) || (unfold u16; lia));
    specialize (Q H2); lia.
Qed.
Lemma machine_bytes {D} `{Device D} p I ram (cpu : mos6502 D) r f : ram_bus p I ram -> machine_with p I cpu r f -> byte_valued f.
Proof.
  intros (R & _) (Hi & _ & _ & Hf) a Ha. destruct (R (amap cpu) a Hi Ha) as (v & Ev & Hv).
  rewrite <- (Hf a Ha). unfold peek. rewrite Ev. exact Hv.
Qed.
Lemma exec_runs {D} `{Device D} p I ram k t r f r' f' (cpu : mos6502 D) : ram_bus p I ram -> exec p ram k t r f r' f' ->
  machine_with p I cpu r f -> exists cpu', runs p k t cpu cpu' /\ machine_with p I cpu' r' f'.
Proof.
  intros Hb X M. destruct (exec_sound p I ram Hb _ _ _ _ _ _ X cpu M) as (cpu' & S & M').
  exists cpu'. split; [|exact M']. split; [exact S|]. apply run_ready_iff. exists k, t. split; [exact S|]. split; [lia|left; reflexivity].
Qed.
