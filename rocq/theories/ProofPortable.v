(** Executing translated programs on the documented 6502 (SpecDatasheet.v).
    The course of the proofs is that of ProofLanguage.v and ProofProcedures.v. *)
From Verif Require Import Base Arith ModelMap ModelRegs6502 ModelIsa6502 Link6502 Spec6502 SpecInstr SpecDatasheet SpecProgram ProofProgram SpecRoutines ProofRoutines
  SpecLanguage ProofLanguage SpecProcedures ProofProcedures SpecPortable.

(** One instruction; the decimal flag stays. *)
Definition dexec (ram : Z -> Prop) (t : nat) (r : registers) (f : Z -> Z) (r' : registers) (f' : Z -> Z) : Prop :=
  exists e, ds_effect (r, f) = Some e /\ Forall (fun w => ram (fst w)) (e_stores e) /\ ps_decimal (rP (e_regs e)) = ps_decimal (rP r) /\
    e_cycles e = t /\ e_regs e = r' /\ stored f (e_stores e) = f'.
(** [k] instructions, each of which lies at an address from [lo] up to [hi]. *)
Inductive dstays (ram : Z -> Prop) (lo hi : Z) : nat -> nat -> registers -> (Z -> Z) -> registers -> (Z -> Z) -> Prop :=
| dstays_done r f : dstays ram lo hi 0 0 r f r f
| dstays_step k c t r f r1 f1 r' f' : lo <= rPC r < hi -> dexec ram c r f r1 f1 -> dstays ram lo hi k t r1 f1 r' f' ->
    dstays ram lo hi (S k) (c + t) r f r' f'.
Section Stays.
Context (ram : Z -> Prop) (lo hi : Z).
Lemma dstays_app k t r f r1 f1 : dstays ram lo hi k t r f r1 f1 -> forall k' t' r2 f2,
  dstays ram lo hi k' t' r1 f1 r2 f2 -> dstays ram lo hi (k + k') (t + t') r f r2 f2.
Proof.
  induction 1 as [r f|k c t r f r1 f1 r' f' Hp E X IH]; intros k' t' r2 f2 Y; [exact Y|].
  rewrite <- Nat.add_assoc. eapply dstays_step; eauto.
Qed.
Lemma dstays_one t r f r' f' : dexec ram t r f r' f' -> lo <= rPC r < hi -> dstays ram lo hi 1 t r f r' f'.
Proof. intros X Hp. rewrite <- (Nat.add_0_r t). eapply dstays_step; eauto. constructor. Qed.
Lemma dstays_take n : forall k t r f r' f', dstays ram lo hi k t r f r' f' -> (n <= k)%nat ->
  exists t1 r1 f1, dstays ram lo hi n t1 r f r1 f1.
Proof.
  induction n as [|n IH]; intros k t r f r' f' X Hn; [exists 0%nat, r, f; constructor|].
  inversion X as [|k0 c t0 r0 f0 r1 f1 r2 f2 Hp E Y]; subst; [lia|].
  destruct (IH _ _ _ _ _ _ Y ltac:(lia)) as (t1 & r3 & f3 & Z). exists (c + t1)%nat, r3, f3. econstructor; eauto.
Qed.
Lemma dstays_last k : forall t r f r' f', dstays ram lo hi (S k) t r f r' f' ->
  exists t1 r1 f1, dstays ram lo hi k t1 r f r1 f1 /\ lo <= rPC r1 < hi.
Proof.
  induction k as [|k IH]; intros t r f r' f' X; inversion X as [|k0 c t0 r0 f0 r1 f1 r2 f2 Hp E Y]; subst.
  - exists 0%nat, r, f. split; [constructor|exact Hp].
  - destruct (IH _ _ _ _ _ Y) as (t1 & r3 & f3 & Z & Hq). exists (c + t1)%nat, r3, f3. split; [econstructor; eauto|exact Hq].
Qed.
End Stays.

Lemma halves a : low a + 256 * high a = a.
Proof. unfold low, high. lia. Qed.
Lemma slot_stack s k : stack_slot s k = stack (s - k).
Proof. reflexivity. Qed.

Section Instructions.
Context (ram : Z -> Prop) (A X Y S PC : Z) (P : processor_status) (f : Z -> Z).
Notation R := (mkRegs A X Y S PC P).

Lemma d_one op mn m c e : 0 <= PC <= 0xfffd -> f PC = op -> decode op = Some (mn, m, c) ->
  ds_execute mn m c R f (f (PC + 1)) (f (PC + 2)) = e -> Forall (fun w => ram (fst w)) (e_stores e) ->
  ps_decimal (rP (e_regs e)) = ps_decimal P ->
  dexec ram (e_cycles e) R f (e_regs e) (stored f (e_stores e)).
Proof.
  intros Hp Hf Hd He Hs HD. exists e. split; [|repeat split; assumption]. unfold ds_effect, ds_fetch. cbn [rPC]. rewrite Hf, Hd. cbn [fst snd].
  rewrite (Z.mod_small (PC + 1)), (Z.mod_small (PC + 2)) by lia. f_equal. exact He.
Qed.
Lemma d_quiet op mn m c t r' : 0 <= PC <= 0xfffd -> f PC = op -> decode op = Some (mn, m, c) ->
  ds_execute mn m c R f (f (PC + 1)) (f (PC + 2)) = mkEffect r' [] t -> ps_decimal (rP r') = ps_decimal P -> dexec ram t R f r' f.
Proof. intros H1 H2 H3 H4 H5. exact (d_one op mn m c _ H1 H2 H3 H4 (Forall_nil _) H5). Qed.

Lemma d_tax : 0 <= PC <= 0xfffd -> f PC = 0xaa -> dexec ram 2 R f (mkRegs A A Y S (PC + 1) (nzf P A)) f.
Proof. intros H1 H2. eapply d_quiet; [exact H1|exact H2|reflexivity| |]; rewrite <- (pc_plus PC 1) by lia; reflexivity. Qed.
Lemma d_clc : 0 <= PC <= 0xfffd -> f PC = 0x18 -> dexec ram 2 R f (mkRegs A X Y S (PC + 1) (with_c P false)) f.
Proof. intros H1 H2. eapply d_quiet; [exact H1|exact H2|reflexivity| |]; rewrite <- (pc_plus PC 1) by lia; reflexivity. Qed.
Lemma d_sec : 0 <= PC <= 0xfffd -> f PC = 0x38 -> dexec ram 2 R f (mkRegs A X Y S (PC + 1) (with_c P true)) f.
Proof. intros H1 H2. eapply d_quiet; [exact H1|exact H2|reflexivity| |]; rewrite <- (pc_plus PC 1) by lia; reflexivity. Qed.
Lemma d_asl_a : 0 <= PC <= 0xfffd -> f PC = 0x0a ->
  exists P', ps_zero P' = ((2 * A) mod 256 =? 0) /\ dexec ram 2 R f (mkRegs ((2 * A) mod 256) X Y S (PC + 1) P') f.
Proof. intros H1 H2. eexists. split; [|eapply d_quiet; [exact H1|exact H2|reflexivity| |]; rewrite <- (pc_plus PC 1) by lia; reflexivity]. reflexivity. Qed.
Lemma d_lsr_a : 0 <= PC <= 0xfffd -> f PC = 0x4a ->
  exists P', ps_zero P' = (A / 2 =? 0) /\ dexec ram 2 R f (mkRegs (A / 2) X Y S (PC + 1) P') f.
Proof. intros H1 H2. eexists. split; [|eapply d_quiet; [exact H1|exact H2|reflexivity| |]; rewrite <- (pc_plus PC 1) by lia; reflexivity]. reflexivity. Qed.
Lemma d_jmp a : 0 <= PC <= 0xfffd -> f PC = 0x4c -> f (PC + 1) = low a -> f (PC + 2) = high a ->
  dexec ram 3 R f (mkRegs A X Y S a P) f.
Proof.
  intros H1 H2 H3 H4. eapply d_quiet; [exact H1|exact H2|reflexivity| |reflexivity]. rewrite H3, H4. unfold ds_execute. rewrite halves. reflexivity.
Qed.
Lemma d_pla : 0 <= PC <= 0xfffd -> f PC = 0x68 -> let v := f (stack (S + 1)) in
  dexec ram 4 R f (mkRegs v X Y ((S + 1) mod 256) (PC + 1) (nzf P v)) f.
Proof.
  intros H1 H2 v. eapply d_quiet; [exact H1|exact H2|reflexivity| |reflexivity]. rewrite <- (pc_plus PC 1) by lia. unfold v, ds_execute.
  rewrite slot_stack. cbn [rS]. replace (S - -1) with (S + 1) by lia. reflexivity.
Qed.
Lemma d_pha : 0 <= PC <= 0xfffd -> f PC = 0x48 -> ram (stack S) ->
  dexec ram 3 R f (mkRegs A X Y ((S - 1) mod 256) (PC + 1) P) (store1 f (stack S, A)).
Proof.
  intros H1 H2 Hr. eapply (d_one 0x48 Pha Implied 3 (mkEffect (mkRegs A X Y ((S - 1) mod 256) (PC + 1) P) [(stack S, A)] 3)); try reflexivity.
  - exact H1.
  - exact H2.
  - rewrite <- (pc_plus PC 1) by lia. unfold ds_execute. rewrite slot_stack. cbn [rS]. replace (S - 0) with S by lia. reflexivity.
  - constructor; [exact Hr|constructor].
Qed.
Lemma d_alu op mn a v : 0 <= PC <= 0xfffc -> f PC = op -> f (PC + 1) = low a -> f (PC + 2) = high a ->
  decode op = Some (mn, Absolute, 4%nat) ->
  (exists P', ps_zero P' = (v =? 0) /\ ps_decimal P' = ps_decimal P /\
    ds_execute mn Absolute 4 R f (low a) (high a) = mkEffect (mkRegs v X Y S ((PC + 3) mod 65536) P') [] 4) ->
  exists P', ps_zero P' = (v =? 0) /\ dexec ram 4 R f (mkRegs v X Y S (PC + 3) P') f.
Proof.
  intros H1 H2 H3 H4 Hd (P' & Hz & HD & He). exists P'. split; [exact Hz|]. eapply d_quiet; [lia|exact H2|exact Hd| |exact HD].
  rewrite H3, H4, He. rewrite Z.mod_small by lia. reflexivity.
Qed.
Lemma d_lda_imm v : 0 <= PC <= 0xfffd -> f PC = 0xa9 -> f (PC + 1) = v -> dexec ram 2 R f (mkRegs v X Y S (PC + 2) (nzf P v)) f.
Proof.
  intros H1 H2 H3. eapply d_quiet; [exact H1|exact H2|reflexivity| |reflexivity]. rewrite H3. rewrite <- (pc_plus PC 2) by lia. reflexivity.
Qed.
Lemma d_lda a : 0 <= PC <= 0xfffc -> f PC = 0xad -> f (PC + 1) = low a -> f (PC + 2) = high a ->
  dexec ram 4 R f (mkRegs (f a) X Y S (PC + 3) (nzf P (f a))) f.
Proof.
  intros H1 H2 H3 H4. eapply d_quiet; [lia|exact H2|reflexivity| |reflexivity]. rewrite H3, H4.
  unfold ds_execute, ds_value, ds_address. rewrite halves. rewrite <- (pc_plus PC 3) by lia. reflexivity.
Qed.
Lemma d_lda_x a : 0 <= PC <= 0xfffc -> f PC = 0xbd -> f (PC + 1) = low a -> f (PC + 2) = high a -> 0 <= X < 256 -> 0 <= a + X <= 0xffff ->
  dexec ram (if (a + X) / 256 =? a / 256 then 4 else 5) R f (mkRegs (f (a + X)) X Y S (PC + 3) (nzf P (f (a + X)))) f.
Proof.
  intros H1 H2 H3 H4 HX H5. eapply d_quiet; [lia|exact H2|reflexivity| |reflexivity]. rewrite H3, H4.
  unfold ds_execute, ds_value, ds_address, ds_crosses. rewrite halves. cbn [rX]. rewrite (Z.mod_small (a + X)) by lia.
  rewrite <- (pc_plus PC 3) by lia.
  replace (256 <=? low a + X) with (negb ((a + X) / 256 =? a / 256)) by (unfold low; lia). destruct (_ =? _); reflexivity.
Qed.
Lemma d_sta a : 0 <= PC <= 0xfffc -> f PC = 0x8d -> f (PC + 1) = low a -> f (PC + 2) = high a -> ram a ->
  dexec ram 4 R f (mkRegs A X Y S (PC + 3) P) (store1 f (a, A)).
Proof.
  intros H1 H2 H3 H4 Hr. eapply (d_one 0x8d Sta Absolute 4 (mkEffect (mkRegs A X Y S (PC + 3) P) [(a, A)] 4)); try reflexivity.
  - lia.
  - exact H2.
  - rewrite H3, H4. unfold ds_execute, ds_address. rewrite halves. rewrite <- (pc_plus PC 3) by lia. reflexivity.
  - constructor; [exact Hr|constructor].
Qed.
Lemma d_sta_x a : 0 <= PC <= 0xfffc -> f PC = 0x9d -> f (PC + 1) = low a -> f (PC + 2) = high a -> 0 <= a + X <= 0xffff -> ram (a + X) ->
  dexec ram 5 R f (mkRegs A X Y S (PC + 3) P) (store1 f (a + X, A)).
Proof.
  intros H1 H2 H3 H4 H5 Hr. eapply (d_one 0x9d Sta AbsoluteIndexedWithX 5 (mkEffect (mkRegs A X Y S (PC + 3) P) [(a + X, A)] 5)); try reflexivity.
  - lia.
  - exact H2.
  - rewrite H3, H4. unfold ds_execute, ds_address. rewrite halves. cbn [rX rA]. rewrite (Z.mod_small (a + X)) by lia.
    rewrite <- (pc_plus PC 3) by lia. reflexivity.
  - constructor; [exact Hr|constructor].
Qed.
Lemma d_bne_through : 0 <= PC <= 0xfffd -> f PC = 0xd0 -> ps_zero P = true -> dexec ram 2 R f (mkRegs A X Y S (PC + 2) P) f.
Proof.
  intros H1 H2 H3. eapply d_quiet; [exact H1|exact H2|reflexivity| |reflexivity]. unfold ds_execute. cbn [branch_taken rP]. rewrite H3. cbn [negb].
  rewrite <- (pc_plus PC 2) by lia. reflexivity.
Qed.
(** Two bytes further than on the emulator. *)
Lemma d_bne_on k : 0 <= PC <= 0xfffd -> f PC = 0xd0 -> ps_zero P = false -> f (PC + 1) = k -> 0 <= k < 128 -> PC + 2 + k <= 0xffff ->
  dexec ram (if (PC + 2 + k) / 256 =? (PC + 2) / 256 then 3 else 4) R f (mkRegs A X Y S (PC + 2 + k) P) f.
Proof.
  intros H1 H2 H3 H4 Hk Hp. eapply d_quiet; [exact H1|exact H2|reflexivity| |reflexivity]. unfold ds_execute. cbn [branch_taken rP]. rewrite H3. cbn [negb].
  unfold ds_target. rewrite H4. cbn [rPC]. unfold signed. replace (k <? 128) with true by lia. rewrite !Z.mod_small by lia. destruct (_ =? _); reflexivity.
Qed.
Lemma d_jsr a : 0 <= PC <= 0xfffd -> f PC = 0x20 -> f (PC + 1) = low a -> f (PC + 2) = high a -> ram (stack S) -> ram (stack (S - 1)) ->
  dexec ram 6 R f (mkRegs A X Y ((S - 2) mod 256) a P) (store1 (store1 f (stack S, high (PC + 2))) (stack (S - 1), low (PC + 2))).
Proof.
  intros H1 H2 H3 H4 R1 R2.
  eapply (d_one 0x20 Jsr Absolute 6 (mkEffect (mkRegs A X Y ((S - 2) mod 256) a P) [(stack S, high (PC + 2)); (stack (S - 1), low (PC + 2))] 6)); try reflexivity.
  - lia.
  - exact H2.
  - rewrite H3, H4. unfold ds_execute. rewrite halves, !slot_stack. cbn [rPC rS]. rewrite (Z.mod_small (PC + 2)) by lia. replace (S - 0) with S by lia. reflexivity.
  - constructor; [exact R1|]. constructor; [exact R2|constructor].
Qed.
Lemma d_rts r : 0 <= PC <= 0xfffd -> f PC = 0x60 -> f (stack (S + 1)) = low r -> f (stack (S + 2)) = high r -> 0 <= r < 0xffff ->
  dexec ram 6 R f (mkRegs A X Y ((S + 2) mod 256) (r + 1) P) f.
Proof.
  intros H1 H2 H3 H4 Hr. eapply d_quiet; [exact H1|exact H2|reflexivity| |reflexivity]. unfold ds_execute. rewrite !slot_stack. cbn [rS].
  replace (S - -1) with (S + 1) by lia. replace (S - -2) with (S + 2) by lia. rewrite H3, H4, halves.
  rewrite (Z.mod_small (r + 1)) by lia. reflexivity.
Qed.
End Instructions.

(** ** Time and meaning *)
Lemma does_lasts on procs at_ d c s s' : does procs d c s s' -> forall L, exists n, lasts on procs at_ d L c s s' n.
Proof.
  induction 1 as [d s|d v e s De|d a i e s De Di|d c1 c2 s s1 s2 E1 IH1 E2 IH2|d e c1 c2 s s' De E IH|d e c s De Ez|d e c s s1 s2 De En E1 IH1 E2 IH2|d k body s s' Ek Hd E IH]; intros L.
  - eexists. constructor.
  - eexists. constructor. exact De.
  - eexists. constructor; assumption.
  - destruct (IH1 L) as [n1 T1], (IH2 (L + size c1)) as [n2 T2]. eexists. econstructor; eassumption.
  - destruct (value s e =? 0) eqn:Ev.
    + destruct (IH (L + width e + 7 + size c1 + 3)) as [n T]. eexists. apply lasts_else; [exact De|lia|exact T].
    + destruct (IH (L + width e + 7)) as [n T]. eexists. apply lasts_then; [exact De|lia|exact T].
  - eexists. apply lasts_stop; assumption.
  - destruct (IH1 (L + width e + 7)) as [n1 T1], (IH2 L) as [n2 T2]. eexists. eapply lasts_again; eassumption.
  - destruct (IH (at_ k)) as [n T]. eexists. eapply lasts_perform; eassumption.
Qed.
Lemma lasts_takes procs at_ d L c s s' n : lasts onward procs at_ d L c s s' n <-> takes procs at_ d L c s s' n.
Proof. split; induction 1; econstructor; eassumption. Qed.

Section Expressions.
Context (ram : Z -> Prop) (t lo hi : Z) (text : Z -> Z).
Context (Hlo : 0 <= lo) (Hs : forall q, scratch t q -> u16 q /\ ram q /\ ~ (lo <= q < hi)) (Ht1 : ~ page_one t).
Notation go := (dstays ram lo hi).
Notation intact := (intact lo hi text).
Notation calm := (calm t).
Notation ok := (state_ok t lo hi text).
Notation calm_intact := (ProofLanguage.calm_intact ram t lo hi text Hs).
Notation calm_trans := (ProofLanguage.calm_trans t).
Notation stack_scratch := (ProofLanguage.stack_scratch ram t lo hi text Hs).
Notation bytes_store := (ProofLanguage.bytes_store).
Notation calm_store := (ProofLanguage.calm_store t).
Notation quiet_calm := (ProofLanguage.quiet_calm ram t lo hi text Hs).
Notation value_calm := (ProofLanguage.value_calm t).
Notation time_calm := (ProofLanguage.time_calm t).

Ltac byte := match goal with
  | I : intact ?f |- ?f ?q = ?b => rewrite (I q) by lia;
      match goal with B : text ?q' = b |- _ => replace q with q' by lia; exact B end end.
Ltac one H := pose proof (dstays_one _ lo hi _ _ _ _ _ H ltac:(cbn [rPC]; lia)).
Definition devaluates (L : Z) (l : list Z) (d : Z) (f : Z -> Z) (v : Z) (tm : nat) : Prop :=
  forall A X Y S P, 0 <= S < 256 -> exists k n X' P' f', (1 <= k /\ n = tm)%nat /\
    go k n (mkRegs A X Y S L P) f (mkRegs v X' Y S (L + len l) P') f' /\
    ps_zero P' = (v =? 0) /\ (forall q, q <> t -> ~ below S d q -> f' q = f q) /\ byte_valued f'.

Lemma dop_executes o : forall A X Y S L P f, intact f -> byte_valued f -> bytes_from text L (op_code o t) -> lo <= L -> L + len (op_code o t) <= hi ->
  L + len (op_code o t) <= 0xfffe -> 0 <= A < 256 ->
  exists k P', go k (op_time o) (mkRegs A X Y S L P) f (mkRegs (apply o A (f t)) X Y S (L + len (op_code o t)) P') f /\
    ps_zero P' = (apply o A (f t) =? 0).
Proof.
  assert (Ht : u16 t) by (apply Hs; left; reflexivity).
  intros A X Y S L P f Hi By B H0 H1 H2 HA. destruct o; unfold len in *; cbn [op_code length] in *.
  - destruct B as (B0 & B1 & B2 & B3 & _).
    pose proof (d_clc ram A X Y S L P f ltac:(lia) ltac:(byte)) as X1.
    destruct (d_alu ram A X Y S (L + 1) (with_c P false) f 0x6d Adc t (apply Plus A (f t)) ltac:(lia) ltac:(byte) ltac:(byte) ltac:(byte) eq_refl) as (P' & Z1 & X2).
    { unfold ds_execute, ds_value, ds_address. rewrite halves. cbn [apply]. exists (rP (ds_adc (mkRegs A X Y S (L + 1) (with_c P false)) (f t))).
      replace (A + f t) with (A + f t + 0) by lia. repeat split. }
    exists 2%nat, P'. split; [|exact Z1]. replace (L + Z.of_nat 4) with (L + 1 + 3) by lia.
    one X1. one X2. change 2%nat with (1 + 1)%nat at 1. eapply dstays_app; eassumption.
  - destruct B as (B0 & B1 & B2 & B3 & _).
    pose proof (d_sec ram A X Y S L P f ltac:(lia) ltac:(byte)) as X1.
    destruct (d_alu ram A X Y S (L + 1) (with_c P true) f 0xed Sbc t (apply Minus A (f t)) ltac:(lia) ltac:(byte) ltac:(byte) ltac:(byte) eq_refl) as (P' & Z1 & X2).
    { unfold ds_execute, ds_value, ds_address. rewrite halves. cbn [apply]. exists (rP (ds_sbc (mkRegs A X Y S (L + 1) (with_c P true)) (f t))).
      replace (A - f t) with (A - f t - (1 - 1)) by lia. repeat split. }
    exists 2%nat, P'. split; [|exact Z1]. replace (L + Z.of_nat 4) with (L + 1 + 3) by lia.
    one X1. one X2. change 2%nat with (1 + 1)%nat at 1. eapply dstays_app; eassumption.
  - destruct B as (B0 & B1 & B2 & _).
    destruct (d_alu ram A X Y S L P f 0x2d And t (apply Conj A (f t)) ltac:(lia) ltac:(byte) ltac:(byte) ltac:(byte) eq_refl) as (P' & Z1 & X2).
    { unfold ds_execute, ds_value, ds_address. rewrite halves. eexists. split; [|split; [|reflexivity]]; reflexivity. }
    exists 1%nat, P'. split; [|exact Z1]. one X2. assumption.
  - destruct B as (B0 & B1 & B2 & _).
    destruct (d_alu ram A X Y S L P f 0x0d Ora t (apply Disj A (f t)) ltac:(lia) ltac:(byte) ltac:(byte) ltac:(byte) eq_refl) as (P' & Z1 & X2).
    { unfold ds_execute, ds_value, ds_address. rewrite halves. eexists. split; [|split; [|reflexivity]]; reflexivity. }
    exists 1%nat, P'. split; [|exact Z1]. one X2. assumption.
  - destruct B as (B0 & B1 & B2 & _).
    destruct (d_alu ram A X Y S L P f 0x4d Eor t (apply Exclusive A (f t)) ltac:(lia) ltac:(byte) ltac:(byte) ltac:(byte) eq_refl) as (P' & Z1 & X2).
    { unfold ds_execute, ds_value, ds_address. rewrite halves. eexists. split; [|split; [|reflexivity]]; reflexivity. }
    exists 1%nat, P'. split; [|exact Z1]. one X2. assumption.
Qed.

Notation Q := (fun q => u16 q /\ ~ scratch t q).
Lemma dexpr_executes e : forall L f, intact f -> byte_valued f -> bytes_from text L (code t e) -> lo <= L -> L + len (code t e) <= hi ->
  L + len (code t e) <= 0xfffe -> reads Q e -> depth e <= 256 ->
  devaluates L (code t e) (depth e) f (value f e) (time f e).
Proof.
  induction e as [k|v|a i IH|e IH|e IH|o e1 IH1 e2 IH2]; intros L f Hi By B H0 H1 H2 R Dp A X Y S P HS; cbn [code] in *.
  - unfold len in *. cbn [length] in *. destruct B as (B0 & B1 & _).
    pose proof (d_lda_imm ram A X Y S L P f k ltac:(lia) ltac:(byte) ltac:(byte)) as X1.
    exists 1%nat, 2%nat, X, (nzf P k), f. split; [cbn [time]; lia|]. split; [one X1; assumption|].
    split; [reflexivity|]. split; [reflexivity|exact By].
  - unfold len in *. cbn [length] in *. destruct B as (B0 & B1 & B2 & _).
    pose proof (d_lda ram A X Y S L P f v ltac:(lia) ltac:(byte) ltac:(byte) ltac:(byte)) as X1.
    exists 1%nat, 4%nat, X, (nzf P (f v)), f. split; [cbn [time]; lia|]. split; [one X1; assumption|].
    split; [reflexivity|]. split; [reflexivity|exact By].
  - destruct R as [R1 R2]. apply bytes_from_app in B. fold (len (code t i)) in B. destruct B as [Bi (B0 & B1 & B2 & B3 & _)]. rewrite len_app in *. change (len [_; _; _; _]) with 4 in *.
    pose proof (len_nonneg (code t i)) as Hl.
    destruct (IH L f Hi By Bi ltac:(lia) ltac:(lia) ltac:(lia) R2 Dp A X Y S P HS) as (k & n & X' & P' & f' & Hk & G & _ & Fr & By').
    pose proof (quiet_calm _ _ _ _ Fr) as Ca. pose proof (calm_intact _ _ Ca Hi) as Hi'.
    destruct (value_calm f f' i Ca By R2) as [_ Vb]. set (v := value f i) in *. set (l := len (code t i)) in *.
    pose proof (R1 v Vb) as Qv. destruct (R1 0 ltac:(lia)) as [[Ua _] _]. destruct Qv as [[_ Uv] Nv].
    pose proof (d_tax ram v X' Y S (L + l) P' f' ltac:(lia) ltac:(byte)) as X1.
    pose proof (d_lda_x ram v v Y S (L + l + 1) (nzf P' v) f' a ltac:(lia) ltac:(byte) ltac:(byte) ltac:(byte) ltac:(lia) ltac:(lia)) as X2.
    rewrite (Ca _ Nv) in X2. one X1. one X2.
    exists (k + (1 + 1))%nat, (n + (2 + (if ((a + v) / 256 =? a / 256)%Z then 4 else 5)))%nat, v, (nzf (nzf P' v) (f (a + v))), f'. split; [cbn [time]; fold v; lia|]. split.
    { cbn [value]. fold v. replace (L + (l + 4)) with (L + l + 1 + 3) by lia.
      eapply dstays_app; [exact G|]. eapply dstays_app; eassumption. }
    split; [reflexivity|]. split; [exact Fr|exact By'].
  - apply bytes_from_app in B. fold (len (code t e)) in B. destruct B as [Bi (B0 & _)]. rewrite len_app in *. change (len [_]) with 1 in *.
    pose proof (len_nonneg (code t e)) as Hl.
    destruct (IH L f Hi By Bi ltac:(lia) ltac:(lia) ltac:(lia) R Dp A X Y S P HS) as (k & n & X' & P' & f' & Hk & G & _ & Fr & By').
    pose proof (quiet_calm _ _ _ _ Fr) as Ca. pose proof (calm_intact _ _ Ca Hi) as Hi'.
    destruct (d_asl_a ram (value f e) X' Y S (L + len (code t e)) P' f' ltac:(lia) ltac:(byte)) as (P2 & Z1 & X1). one X1.
    exists (k + 1)%nat, (n + 2)%nat, X', P2, f'. split; [cbn [time]; lia|]. split.
    { cbn [value]. replace (L + (len (code t e) + 1)) with (L + len (code t e) + 1) by lia. eapply dstays_app; eassumption. }
    split; [exact Z1|]. split; [exact Fr|exact By'].
  - apply bytes_from_app in B. fold (len (code t e)) in B. destruct B as [Bi (B0 & _)]. rewrite len_app in *. change (len [_]) with 1 in *.
    pose proof (len_nonneg (code t e)) as Hl.
    destruct (IH L f Hi By Bi ltac:(lia) ltac:(lia) ltac:(lia) R Dp A X Y S P HS) as (k & n & X' & P' & f' & Hk & G & _ & Fr & By').
    pose proof (quiet_calm _ _ _ _ Fr) as Ca. pose proof (calm_intact _ _ Ca Hi) as Hi'.
    destruct (d_lsr_a ram (value f e) X' Y S (L + len (code t e)) P' f' ltac:(lia) ltac:(byte)) as (P2 & Z1 & X1). one X1.
    exists (k + 1)%nat, (n + 2)%nat, X', P2, f'. split; [cbn [time]; lia|]. split.
    { cbn [value]. replace (L + (len (code t e) + 1)) with (L + len (code t e) + 1) by lia. eapply dstays_app; eassumption. }
    split; [exact Z1|]. split; [exact Fr|exact By'].
  - destruct R as [R1 R2]. cbn [depth] in *. pose proof (depth_nonneg e1) as D1. pose proof (depth_nonneg e2) as D2.
    apply bytes_from_app in B. destruct B as [Ba B]. apply bytes_from_app in B. destruct B as [(B0 & _) B].
    apply bytes_from_app in B. destruct B as [Bb B]. apply bytes_from_app in B. destruct B as [(B1 & B2 & B3 & B4 & _) Bo].
    rewrite !len_app in *. change (len [_; _; _; _]) with 4 in *. change (len [_]) with 1 in *.
    cbn [length] in Bb, B1, B2, B3, B4, Bo. fold (len (code t e1)) in *. fold (len (code t e2)) in *.
    pose proof (len_nonneg (code t e1)) as Hl1. pose proof (len_nonneg (code t e2)) as Hl2. pose proof (len_nonneg (op_code o t)) as Hl3.
    set (l1 := len (code t e1)) in *. set (l2 := len (code t e2)) in *.
    replace (L + l1 + Z.of_nat 1) with (L + l1 + 1) in * by lia.
    destruct (IH1 L f Hi By Ba ltac:(lia) ltac:(lia) ltac:(lia) R1 ltac:(lia) A X Y S P HS) as (k1 & n1 & X1 & P1 & f1 & Hk1 & G1 & _ & Fr1 & By1).
    fold l1 in G1.
    pose proof (quiet_calm _ _ _ _ Fr1) as Ca1. pose proof (calm_intact _ _ Ca1 Hi) as Hi1.
    destruct (value_calm f f1 e1 Ca1 By R1) as [_ Vb1]. set (v1 := value f e1) in *.
    destruct (Hs _ (stack_scratch S)) as (_ & Rs & _).
    pose proof (d_pha ram v1 X1 Y S (L + l1) P1 f1 ltac:(lia) ltac:(byte) Rs) as I1. one I1.
    set (f2 := store1 f1 (stack S, v1)) in *.
    pose proof (calm_store f1 (stack S) v1 (stack_scratch S)) as Ca2. fold f2 in Ca2.
    pose proof (calm_intact _ _ Ca2 Hi1) as Hi2. pose proof (bytes_store f1 (stack S) v1 By1 Vb1) as By2. fold f2 in By2.
    destruct (IH2 (L + l1 + 1) f2 Hi2 By2 Bb ltac:(lia) ltac:(lia) ltac:(lia) R2 ltac:(lia) v1 X1 Y ((S - 1) mod 256) P1 ltac:(lia))
      as (k2 & n2 & X2 & P2 & f3 & Hk2 & G2 & _ & Fr3 & By3).
    fold l2 in G2. pose proof (quiet_calm _ _ _ _ Fr3) as Ca3. pose proof (calm_intact _ _ Ca3 Hi2) as Hi3.
    destruct (value_calm f f2 e2 (calm_trans _ _ _ Ca1 Ca2) By R2) as [Ev2 Vb2]. rewrite Ev2 in G2. set (v2 := value f e2) in *.
    destruct (Hs t ltac:(left; reflexivity)) as (Ut & Rt & _).
    pose proof (d_sta ram v2 X2 Y ((S - 1) mod 256) (L + l1 + 1 + l2) P2 f3 t ltac:(lia) ltac:(byte) ltac:(byte) ltac:(byte) Rt) as I2. one I2.
    set (f4 := store1 f3 (t, v2)) in *.
    pose proof (calm_store f3 t v2 ltac:(left; reflexivity)) as Ca4. fold f4 in Ca4.
    pose proof (calm_intact _ _ Ca4 Hi3) as Hi4. pose proof (bytes_store f3 t v2 By3 Vb2) as By4. fold f4 in By4.
    pose proof (d_pla ram v2 X2 Y ((S - 1) mod 256) (L + l1 + 1 + l2 + 3) P2 f4 ltac:(lia) ltac:(byte)) as I3. cbv zeta in I3.
    replace (((S - 1) mod 256 + 1) mod 256) with S in I3 by lia.
    replace (stack ((S - 1) mod 256 + 1)) with (stack S) in I3 by (unfold stack; lia).
    assert (Et : stack S <> t) by (intros E; apply Ht1; rewrite <- E; unfold stack, page_one; lia).
    assert (Es : f4 (stack S) = v1).
    { unfold f4. rewrite store1_other by exact Et. rewrite Fr3; [apply store1_same|exact Et|].
      intros (j & Hj & E). unfold stack in E. lia. }
    rewrite Es in I3. one I3.
    assert (E4 : f4 t = v2) by apply store1_same.
    destruct (dop_executes o v1 X2 Y S (L + l1 + 1 + l2 + 3 + 1) (nzf P2 v1) f4 Hi4 By4) as (k5 & P5 & G5 & Z5);
      [replace (L + l1 + 1 + l2 + 3 + 1) with (L + l1 + 1 + l2 + Z.of_nat 4) by lia; exact Bo|lia|lia|lia|exact Vb1|].
    rewrite E4 in G5, Z5.
    pose proof (time_calm f f2 e2 (calm_trans _ _ _ Ca1 Ca2) By R2) as Tm.
    exists (k1 + (1 + (k2 + (1 + (1 + k5)))))%nat, (n1 + (3 + (n2 + (4 + (4 + op_time o)))))%nat, X2, P5, f4. split; [cbn [time]; lia|]. split.
    { cbn [value]. fold v1 v2. replace (L + (l1 + (1 + (l2 + (4 + len (op_code o t)))))) with (L + l1 + 1 + l2 + 3 + 1 + len (op_code o t)) by lia.
      eapply dstays_app; [exact G1|]. eapply dstays_app; [eassumption|]. eapply dstays_app; [exact G2|].
      eapply dstays_app; [eassumption|]. eapply dstays_app; [eassumption|exact G5]. }
    split; [exact Z5|]. split; [|exact By4].
    intros q Hq Nq. unfold f4. rewrite store1_other by exact Hq. rewrite Fr3; [|exact Hq|].
    + unfold f2. rewrite store1_other.
      * apply Fr1; [exact Hq|]. intros (j & Hj & E). apply Nq. exists j. split; [lia|exact E].
      * intros ->. apply Nq. exists 0. split; [lia|]. f_equal. lia.
    + intros (j & Hj & ->). apply Nq. exists (j + 1). split; [lia|]. unfold stack. lia.
Qed.

End Expressions.

Section Language.
Context (ram : Z -> Prop) (t lo hi : Z) (text : Z -> Z) (procs : list stmt) (at_ : nat -> Z).
Context (Hlo : 0 <= lo) (Hhi : hi <= 0xfffe) (Hs : forall q, scratch t q -> u16 q /\ ram q /\ ~ (lo <= q < hi)) (Ht1 : ~ page_one t).
Notation go := (dstays ram lo hi).
Notation Q := (fun q => u16 q /\ ~ scratch t q).
Notation W := (fun q => (u16 q /\ ram q /\ ~ (lo <= q < hi)) /\ ~ scratch t q).
Notation ok := (state_ok t lo hi text).
Notation settled := (settled ram t lo hi text procs at_).
Notation stack_page := (ProofProcedures.stack_page ram t lo hi text Hs).
Notation kept_push := (ProofProcedures.kept_push ram t lo hi text Hs).
Notation kept_deeper := (ProofProcedures.kept_deeper ram t lo hi text Hs).
Notation page_not_t := (ProofProcedures.page_not_t t Ht1).
Notation page_ram := (ProofProcedures.page_ram ram t lo hi Hs).
Notation ok_store := (ProofProcedures.ok_store ram t lo hi text).
Notation ok_push := (ProofProcedures.ok_push ram t lo hi text Hs).
Notation kept_store := (ProofProcedures.kept_store t).
Notation code_width := (ProofProcedures.code_width t).
Ltac byte := match goal with
  | I : intact lo hi text ?f |- ?f ?q = ?b => rewrite (I q) by lia;
      match goal with B : text ?q' = b |- _ => replace q with q' by lia; exact B end end.
Ltac one H := pose proof (dstays_one _ lo hi _ _ _ _ _ H ltac:(cbn [rPC]; lia)).

(** An expression, with room for [d] bytes. *)
Lemma dexpr_within e L s f d : ok s f -> bytes_from text L (code t e) -> lo <= L -> L + len (code t e) <= hi -> reads Q e -> depth e <= d -> d <= 256 ->
  forall A X Y S P, 0 <= S < 256 -> exists k n X' P' f', (1 <= k /\ n = time s e)%nat /\
    go k n (mkRegs A X Y S L P) f (mkRegs (value s e) X' Y S (L + len (code t e)) P') f' /\
    ps_zero P' = (value s e =? 0) /\ ok s f' /\ kept S d f f' /\ 0 <= value s e < 256.
Proof.
  intros St B H0 H1 R Hd Hd2 A X Y S P HS. destruct (value_state t lo hi text s f e St R) as [Ev Vb]. pose proof (time_state t lo hi text s f e St R) as Et. rewrite Ev, Et. destruct St as (Ca & Hi & By).
  destruct (dexpr_executes ram t lo hi text Hlo Hs Ht1 e L f Hi By B H0 H1 ltac:(lia) R ltac:(lia) A X Y S P HS) as (k & n & X' & P' & f' & Hk & G & Zf & Fr & By').
  pose proof (quiet_calm ram t lo hi text Hs _ _ _ _ Fr) as Ca'. pose proof (calm_intact ram t lo hi text Hs _ _ Ca' Hi) as Hi'.
  exists k, n, X', P', f'. split; [exact Hk|]. split; [exact G|]. split; [exact Zf|]. split; [|split; [|exact Vb]].
  - split; [exact (calm_trans _ _ _ _ Ca Ca')|split; assumption].
  - intros q Hq N. apply Fr; [apply page_not_t, Hq|]. intros (j & Hj & ->). apply N. exists j. split; [lia|reflexivity].
Qed.
Lemma dtest_within e target L s f d : ok s f -> bytes_from text L (code t e ++ unless_zero target) -> lo <= L ->
  L + len (code t e) + 7 <= hi -> reads Q e -> depth e <= d -> d <= 256 ->
  forall A X Y S P, 0 <= S < 256 -> exists k n A' X' P' f', (1 <= k /\ n = time s e + (if (value s e =? 0)%Z then 5 else chip_onward (L + len (code t e))))%nat /\
    go k n (mkRegs A X Y S L P) f (mkRegs A' X' Y S (if value s e =? 0 then target else L + len (code t e) + 7) P') f' /\ ok s f' /\ kept S d f f'.
Proof.
  intros St B H0 H1 R Hd Hd2 A X Y S P HS. apply bytes_from_app in B. fold (len (code t e)) in B.
  destruct B as [Be (B0 & B1 & B2 & B3 & B4 & B5 & B6 & _)]. pose proof (len_nonneg (code t e)) as Hl.
  destruct (dexpr_within e L s f d St Be H0 ltac:(lia) R Hd Hd2 A X Y S P HS) as (k & n & X' & P' & f' & Hk & G & Zf & St' & K & Vb).
  set (l := len (code t e)) in *. pose proof St' as (_ & Hi' & _). set (v := value s e) in *. destruct (v =? 0) eqn:E0.
  - pose proof (d_bne_through ram v X' Y S (L + l) P' f' ltac:(lia) ltac:(byte) Zf) as I1. one I1.
    pose proof (d_jmp ram v X' Y S (L + l + 2) P' f' target ltac:(lia) ltac:(byte) ltac:(byte) ltac:(byte)) as I2. one I2.
    exists (k + (1 + 1))%nat, (n + (2 + 3))%nat, v, X', P', f'. split; [lia|]. split; [|split; assumption].
    eapply dstays_app; [exact G|]. eapply dstays_app; eassumption.
  - pose proof (d_bne_on ram v X' Y S (L + l) P' f' 5 ltac:(lia) ltac:(byte) Zf ltac:(byte) ltac:(lia) ltac:(lia)) as I1. one I1.
    replace (L + l + 2 + 5) with (L + l + 7) in * by lia.
    exists (k + 1)%nat, (n + (if ((L + l + 7) / 256 =? (L + l + 2) / 256)%Z then 3 else 4))%nat, v, X', P', f'.
    split; [unfold chip_onward; lia|]. split; [|split; assumption]. eapply dstays_app; eassumption.
Qed.
Lemma djump_within a L f : intact lo hi text f -> bytes_from text L [0x4c; low a; high a] -> lo <= L -> L + 3 <= hi ->
  forall A X Y S P, go 1 3 (mkRegs A X Y S L P) f (mkRegs A X Y S a P) f.
Proof.
  intros Hi (B0 & B1 & B2 & _) H0 H1 A X Y S P.
  pose proof (d_jmp ram A X Y S L P f a ltac:(lia) ltac:(byte) ltac:(byte) ltac:(byte)) as I1. one I1. assumption.
Qed.

Context (Hprocs : forall k body, nth_error procs k = Some body -> settled (at_ k) body /\ text (at_ k + size body) = 0x60 /\ at_ k + size body + 1 <= hi).

Notation settled_next := (ProofProcedures.settled_next ram t lo hi text procs at_ Hs Hprocs).
Notation settled_cond := (ProofProcedures.settled_cond ram t lo hi text procs at_ Hs Hprocs).
Notation settled_again := (ProofProcedures.settled_again ram t lo hi text procs at_ Hs Hprocs).

(** A call: to the procedure, and back from it. *)
Lemma dcall_within k body L s f d : nth_error procs k = Some body -> ok s f -> settled L (Perform k) -> 2 <= d <= 256 ->
  forall A X Y S P, 0 <= S < 256 -> exists f', go 1 6 (mkRegs A X Y S L P) f (mkRegs A X Y ((S - 2) mod 256) (at_ k) P) f' /\ ok s f' /\ kept S d f f' /\
    f' (stack S) = high (L + 2) /\ f' (stack (S - 1)) = low (L + 2).
Proof.
  intros Ek St (B & H0 & H1 & _) Hd A X Y S P HS. change (size (Perform k)) with 3 in H1. destruct B as (B0 & B1 & B2 & _). pose proof St as (_ & Hi & _).
  pose proof (d_jsr ram A X Y S L P f (at_ k) ltac:(lia) ltac:(byte) ltac:(byte) ltac:(byte) (page_ram _ (stack_page _)) (page_ram _ (stack_page _))) as I1. one I1.
  assert (V1 : 0 <= high (L + 2) < 256) by (unfold high; lia). assert (V2 : 0 <= low (L + 2) < 256) by (unfold low; lia).
  eexists. split; [eassumption|]. split; [|split; [|split]].
  - apply ok_push; [apply stack_page| |exact V2]. apply ok_push; [apply stack_page|exact St|exact V1].
  - eapply kept_trans; [apply kept_push; lia|]. apply (kept_deeper S d 1); [lia|].
    replace (stack (S - 1)) with (stack ((S - 1) mod 256)) by (unfold stack; lia). apply kept_push. lia.
  - rewrite store1_other by (unfold stack; lia). apply store1_same.
  - apply store1_same.
Qed.
Lemma dreturn_within k body L s f d : nth_error procs k = Some body -> ok s f -> settled L (Perform k) ->
  forall A X Y S P, 0 <= S < 256 -> f (stack S) = high (L + 2) -> f (stack (S - 1)) = low (L + 2) ->
  go 1 6 (mkRegs A X Y ((S - 2) mod 256) (at_ k + size body) P) f (mkRegs A X Y S (L + 3) P) f /\ ok s f /\ kept S d f f.
Proof.
  intros Ek St (_ & H0 & H1 & _) A X Y S P HS E1 E2. change (size (Perform k)) with 3 in H1. destruct (Hprocs k body Ek) as ((_ & K0 & _) & B0 & K1).
  pose proof St as (_ & Hi & _). pose proof (size_nonneg body).
  pose proof (d_rts ram A X Y ((S - 2) mod 256) (at_ k + size body) P f (L + 2) ltac:(lia) ltac:(byte)) as I1.
  replace (stack ((S - 2) mod 256 + 1)) with (stack (S - 1)) in I1 by (unfold stack; lia).
  replace (stack ((S - 2) mod 256 + 2)) with (stack S) in I1 by (unfold stack; lia).
  replace (((S - 2) mod 256 + 2) mod 256) with S in I1 by lia.
  specialize (I1 E2 E1 ltac:(lia)). one I1. replace (L + 2 + 1) with (L + 3) in * by lia.
  split; [assumption|]. split; [exact St|apply kept_refl].
Qed.

Definition dperforms (d L : Z) (c : stmt) (s s' : Z -> Z) (n : nat) : Prop := forall f A X Y S P, ok s f -> 0 <= S < 256 ->
  exists k A' X' P' f', go k n (mkRegs A X Y S L P) f (mkRegs A' X' Y S (L + size c) P') f' /\ ok s' f' /\ kept S d f f'.
Lemma dstays_cost k n n' r f r' f' : go k n r f r' f' -> n = n' -> go k n' r f r' f'.
Proof. intros G <-. exact G. Qed.
Lemma dstmt_lasts d L c s s' n : lasts chip_onward procs at_ d L c s s' n -> d <= 256 -> settled L c -> dperforms d L c s s' n.
Proof.
  induction 1 as [d L s|d L v e s De|d L a i e s De Di|d L c1 c2 s s1 s2 m1 m2 E1 IH1 E2 IH2|d L e c1 c2 s s' m De En E IH|d L e c1 c2 s s' m De Ez E IH|d L e c s De Ez|d L e c s s1 s2 m1 m2 De En E1 IH1 E2 IH2|d L k body s s' m Ek Hd E IH];
    intros Hd2 Pl f A X Y S P St HS.
  - exists 0%nat, A, X, P, f. change (size Pass) with 0. replace (L + 0) with L by lia. split; [constructor|]. split; [exact St|apply kept_refl].
  - destruct Pl as (B & H0 & H1 & Wv & R). cbn [emit] in B. unfold size in *. cbn [emit] in *. rewrite len_app in *. change (len [_; _; _]) with 3 in *.
    replace (len (code 0 e)) with (len (code t e)) in * by (unfold len; f_equal; apply code_length).
    apply bytes_from_app in B. fold (len (code t e)) in B. destruct B as [Be (B0 & B1 & B2 & _)]. pose proof (len_nonneg (code t e)) as Hl.
    destruct (dexpr_within e L s f d St Be H0 ltac:(lia) R De Hd2 A X Y S P HS) as (k & n & X' & P' & f' & Hk & G & Zf & St' & K & Vb).
    set (l := len (code t e)) in *. pose proof St' as (_ & Hi' & _). pose proof Wv as ((_ & Rv & _) & Nv).
    pose proof (d_sta ram (value s e) X' Y S (L + l) P' f' v ltac:(lia) ltac:(byte) ltac:(byte) ltac:(byte) Rv) as I1. one I1.
    eexists (k + 1)%nat, _, X', P', _. split; [replace (L + (l + 3)) with (L + l + 3) by lia; eapply dstays_cost; [eapply dstays_app; eassumption|lia]|].
    split; [apply ok_store; assumption|]. eapply kept_trans; [exact K|apply kept_store; exact Nv].
  - destruct Pl as (B & H0 & H1 & Wa & Ri & R). cbn [emit] in B. unfold size in *. cbn [emit] in *. rewrite !len_app in *.
    change (len [_; _; _; _; _]) with 5 in *. change (len [_]) with 1 in *.
    replace (len (code 0 e)) with (len (code t e)) in * by (unfold len; f_equal; apply code_length).
    replace (len (code 0 i)) with (len (code t i)) in * by (unfold len; f_equal; apply code_length).
    apply bytes_from_app in B. destruct B as [Be B]. apply bytes_from_app in B. destruct B as [(B0 & _) B].
    apply bytes_from_app in B. destruct B as [Bi (B1 & B2 & B3 & B4 & B5 & _)]. cbn [length] in *.
    fold (len (code t e)) in *. fold (len (code t i)) in *. pose proof (len_nonneg (code t e)) as Hl. pose proof (len_nonneg (code t i)) as Hl2.
    destruct (dexpr_within e L s f d St Be H0 ltac:(lia) R De Hd2 A X Y S P HS) as (k & n & X1 & P1 & f1 & Hk & G & _ & St1 & K1 & Vb).
    set (l := len (code t e)) in *. set (l2 := len (code t i)) in *. replace (L + l + Z.of_nat 1) with (L + l + 1) in * by lia.
    pose proof St1 as (_ & Hi1 & _). set (v := value s e) in *.
    pose proof (d_pha ram v X1 Y S (L + l) P1 f1 ltac:(lia) ltac:(byte) (page_ram _ (stack_page _))) as I1. one I1.
    pose proof (depth_nonneg i) as Dn.
    pose proof (ok_push s f1 (stack S) v (stack_page S) St1 Vb) as St2. pose proof (kept_push S d f1 v ltac:(lia)) as K2.
    set (f2 := store1 f1 (stack S, v)) in *.
    destruct (dexpr_within i (L + l + 1) s f2 (d - 1) St2 Bi ltac:(lia) ltac:(fold l2; lia) Ri ltac:(lia) ltac:(lia) v X1 Y ((S - 1) mod 256) P1 ltac:(lia))
      as (k2 & n2 & X2 & P2 & f3 & Hk2 & G2 & _ & St3 & K3 & Vbi). fold l2 in G2.
    pose proof St3 as (_ & Hi3 & _). set (x := value s i) in *.
    pose proof (d_tax ram x X2 Y ((S - 1) mod 256) (L + l + 1 + l2) P2 f3 ltac:(lia) ltac:(byte)) as I2. one I2.
    pose proof (d_pla ram x x Y ((S - 1) mod 256) (L + l + 1 + l2 + 1) (nzf P2 x) f3 ltac:(lia) ltac:(byte)) as I3. cbv zeta in I3.
    replace (((S - 1) mod 256 + 1) mod 256) with S in I3 by lia.
    replace (stack ((S - 1) mod 256 + 1)) with (stack S) in I3 by (unfold stack; lia).
    assert (Es : f3 (stack S) = v).
    { rewrite K3; [apply store1_same|apply stack_page|]. intros (j & Hj & E). unfold stack in E. lia. }
    rewrite Es in I3. one I3.
    pose proof (Wa x Vbi) as Wx. pose proof Wx as ((Ux & Rx & _) & Nx).
    pose proof (d_sta_x ram v x Y S (L + l + 1 + l2 + 1 + 1) (nzf (nzf P2 x) v) f3 a ltac:(lia) ltac:(byte) ltac:(byte) ltac:(byte)
      ltac:(unfold u16 in Ux; lia) Rx) as I4. one I4.
    eexists (k + (1 + (k2 + (1 + (1 + 1)))))%nat, _, x, _, _. split.
    { replace (L + (l + (1 + (l2 + 5)))) with (L + l + 1 + l2 + 1 + 1 + 3) by lia.
      eapply dstays_cost; [eapply dstays_app; [exact G|]; eapply dstays_app; [eassumption|]; eapply dstays_app; [exact G2|];
        eapply dstays_app; [eassumption|]; eapply dstays_app; eassumption|lia]. }
    split; [apply ok_store; assumption|]. eapply kept_trans; [exact K1|]. eapply kept_trans; [exact K2|].
    eapply kept_trans; [apply (kept_deeper S d 1); [lia|exact K3]|apply kept_store; exact Nx].
  - destruct (settled_next _ _ _ Pl) as (P1 & P2). rewrite size_next.
    destruct (IH1 Hd2 P1 f A X Y S P St HS) as (k1 & A1 & X1 & F1 & f1 & G1 & St1 & K1).
    destruct (IH2 Hd2 P2 f1 A1 X1 Y S F1 St1 HS) as (k2 & A2 & X2 & F2 & f2 & G2 & St2 & K2).
    exists (k1 + k2)%nat, A2, X2, F2, f2. replace (L + (size c1 + size c2)) with (L + size c1 + size c2) by lia.
    split; [eapply dstays_app; eassumption|]. split; [exact St2|exact (kept_trans _ _ _ _ _ K1 K2)].
  - destruct (settled_cond _ _ _ _ Pl) as (Bt & H0 & Ge & P1 & P2 & EL & Bj). rewrite <- EL. rewrite <- code_width in *.
    set (at1 := L + len (code t e) + 7) in *. set (at2 := at1 + size c1 + 3) in *. assert (Ea : at2 = at1 + size c1 + 3) by reflexivity. assert (Eb : at1 = L + len (code t e) + 7) by reflexivity.
    pose proof P2 as (_ & _ & H2 & _). pose proof P1 as (_ & H3 & _). pose proof (size_nonneg c1) as Hl1. pose proof (size_nonneg c2) as Hl2.
    destruct (dtest_within e at2 L s f d St Bt H0 ltac:(lia) Ge De Hd2 A X Y S P HS) as (k & n & A1 & X1 & F1 & f1 & [_ En1] & G1 & St1 & K1).
    fold at1 in G1. replace (value s e =? 0) with false in * by lia.
    destruct (IH Hd2 P1 f1 A1 X1 Y S F1 St1 HS) as (k2 & A2 & X2 & F2 & f2 & G2 & St2 & K2).
    pose proof (djump_within _ _ f2 ltac:(apply St2) Bj ltac:(lia) ltac:(lia) A2 X2 Y S F2) as G3.
    exists (k + (k2 + 1))%nat, A2, X2, F2, f2. split; [eapply dstays_cost; [eapply dstays_app; [exact G1|]; eapply dstays_app; eassumption|lia]|].
    split; [exact St2|exact (kept_trans _ _ _ _ _ K1 K2)].
  - destruct (settled_cond _ _ _ _ Pl) as (Bt & H0 & Ge & P1 & P2 & EL & Bj). rewrite <- EL. rewrite <- code_width in *.
    set (at1 := L + len (code t e) + 7) in *. set (at2 := at1 + size c1 + 3) in *. assert (Ea : at2 = at1 + size c1 + 3) by reflexivity. assert (Eb : at1 = L + len (code t e) + 7) by reflexivity.
    pose proof P2 as (_ & _ & H2 & _). pose proof P1 as (_ & H3 & _). pose proof (size_nonneg c1) as Hl1. pose proof (size_nonneg c2) as Hl2.
    destruct (dtest_within e at2 L s f d St Bt H0 ltac:(lia) Ge De Hd2 A X Y S P HS) as (k & n & A1 & X1 & F1 & f1 & [_ En1] & G1 & St1 & K1).
    rewrite Ez in G1, En1. cbn [Z.eqb] in G1, En1.
    destruct (IH Hd2 P2 f1 A1 X1 Y S F1 St1 HS) as (k2 & A2 & X2 & F2 & f2 & G2 & St2 & K2).
    exists (k + k2)%nat, A2, X2, F2, f2. split; [eapply dstays_cost; [eapply dstays_app; eassumption|lia]|]. split; [exact St2|exact (kept_trans _ _ _ _ _ K1 K2)].
  - destruct (settled_again _ _ _ Pl) as (Bt & H0 & Ge & P1 & EL & H2 & Bj). rewrite <- EL.
    set (at1 := L + len (code t e) + 7) in *. set (stop := at1 + size c + 3) in *. assert (Ea : stop = at1 + size c + 3) by reflexivity. assert (Eb : at1 = L + len (code t e) + 7) by reflexivity.
    pose proof (size_nonneg c) as Hl1.
    destruct (dtest_within e stop L s f d St Bt H0 ltac:(lia) Ge De Hd2 A X Y S P HS) as (k & n & A1 & X1 & F1 & f1 & [_ En1] & G1 & St1 & K1).
    rewrite Ez in G1, En1. cbn [Z.eqb] in G1, En1. exists k, A1, X1, F1, f1. split; [exact (dstays_cost _ _ _ _ _ _ _ G1 En1)|split; assumption].
  - destruct (settled_again _ _ _ Pl) as (Bt & H0 & Ge & P1 & EL & H2 & Bj). rewrite <- code_width in *.
    set (at1 := L + len (code t e) + 7) in *. set (stop := at1 + size c + 3) in *. assert (Ea : stop = at1 + size c + 3) by reflexivity. assert (Eb : at1 = L + len (code t e) + 7) by reflexivity.
    pose proof (size_nonneg c) as Hl1. pose proof P1 as (_ & H3 & _).
    destruct (dtest_within e stop L s f d St Bt H0 ltac:(lia) Ge De Hd2 A X Y S P HS) as (k & n & A1 & X1 & F1 & f1 & [_ En1] & G1 & St1 & K1).
    replace (value s e =? 0) with false in * by lia. fold at1 in G1.
    destruct (IH1 Hd2 P1 f1 A1 X1 Y S F1 St1 HS) as (k2 & A2 & X2 & F2 & f2 & G2 & St2 & K2).
    pose proof (djump_within _ _ f2 ltac:(apply St2) Bj ltac:(lia) ltac:(lia) A2 X2 Y S F2) as G3.
    destruct (IH2 Hd2 Pl f2 A2 X2 Y S F2 St2 HS) as (k4 & A4 & X4 & F4 & f4 & G4 & St4 & K4).
    exists (k + (k2 + (1 + k4)))%nat, A4, X4, F4, f4. split; [|split; [exact St4|exact (kept_trans _ _ _ _ _ K1 (kept_trans _ _ _ _ _ K2 K4))]].
    eapply dstays_cost; [eapply dstays_app; [exact G1|]; eapply dstays_app; [exact G2|]; eapply dstays_app; eassumption|lia].
  - destruct (dcall_within k body L s f d Ek St Pl ltac:(lia) A X Y S P HS) as (f1 & G1 & St1 & K1 & R1 & R2).
    destruct (IH ltac:(lia) (proj1 (Hprocs k body Ek)) f1 A X Y ((S - 2) mod 256) P St1 ltac:(lia)) as (k2 & A2 & X2 & F2 & f2 & G2 & St2 & K2).
    assert (Q1 : f2 (stack S) = high (L + 2)).
    { rewrite K2; [exact R1|apply stack_page|]. intros (j & Hj & E'). unfold stack in E'. lia. }
    assert (Q2 : f2 (stack (S - 1)) = low (L + 2)).
    { rewrite K2; [exact R2|apply stack_page|]. intros (j & Hj & E'). unfold stack in E'. lia. }
    destruct (dreturn_within k body L s' f2 d Ek St2 Pl A2 X2 Y S F2 HS Q1 Q2) as (G3 & _).
    change (size (Perform k)) with 3. exists (1 + (k2 + 1))%nat, A2, X2, F2, f2. split; [|split; [exact St2|]].
    + eapply dstays_cost; [eapply dstays_app; [exact G1|]; eapply dstays_app; eassumption|lia].
    + eapply kept_trans; [exact K1|]. apply (kept_deeper S d 2); [lia|exact K2].
Qed.
Lemma dstmt_executes d c s s' : does procs d c s s' -> d <= 256 -> forall L, settled L c -> exists n, dperforms d L c s s' n.
Proof.
  intros E Hd L Pl. destruct (does_lasts chip_onward procs at_ d c s s' E L) as (n & T). exists n. exact (dstmt_lasts d L c s s' n T Hd Pl).
Qed.

(** The statement ends, overflows, or the processor is still at it after [k] instructions. *)
Definition dstill_at (k : nat) (L : Z) (s : Z -> Z) : Prop := forall f A X Y S P, ok s f -> 0 <= S < 256 ->
  exists n r' f', go k n (mkRegs A X Y S L P) f r' f'.

Lemma dstill_or_does k : forall c d L s, d <= 256 -> settled L c -> (exists s', does procs d c s s') \/ overflows procs d c s \/ dstill_at k L s.
Proof.
  induction k as [|k IHk].
  { intros c d L s _ _. right. right. intros f A X Y S P _ _. exists 0%nat, (mkRegs A X Y S L P), f. constructor. }
  induction c as [|v e|a i e|c1 IH1 c2 IH2|e c1 IH1 c2 IH2|e c IH|j]; intros d L s Hd2 Pl.
  - left. eexists. constructor.
  - destruct (Z_le_dec (depth e) d); [left; eexists; constructor; lia|right; left; constructor; lia].
  - destruct (Z_le_dec (depth e) d); [|right; left; constructor; lia]. destruct (Z_le_dec (1 + depth i) d); [left; eexists; constructor; lia|right; left; constructor; lia].
  - destruct (settled_next _ _ _ Pl) as (P1 & P2).
    destruct (IH1 d L s Hd2 P1) as [[s1 E1]|[O|N]]; [|right; left; apply overflows_next1; exact O|right; right; exact N].
    destruct (IH2 d _ s1 Hd2 P2) as [[s2 E2]|[O|N]]; [left; exists s2; econstructor; eassumption|right; left; eapply overflows_next2; eassumption|].
    right. right. intros f A X Y S P St HS. destruct (dstmt_executes d _ _ _ E1 Hd2 L P1) as (n1 & Pf). destruct (Pf f A X Y S P St HS) as (k1 & A1 & X1 & F1 & f1 & G1 & St1 & _).
    destruct (N f1 A1 X1 Y S F1 St1 HS) as (n2 & r2 & f2 & G2). pose proof (dstays_app _ _ _ _ _ _ _ _ _ G1 _ _ _ _ G2) as G5.
    exact (dstays_take _ _ _ (Datatypes.S k) _ _ _ _ _ _ G5 ltac:(lia)).
  - destruct (Z_le_dec (depth e) d) as [De|De]; [|right; left; apply overflows_test; lia].
    destruct (settled_cond _ _ _ _ Pl) as (Bt & H0 & Ge & P1 & P2 & EL & Bj).
    set (at1 := L + len (code t e) + 7) in *. set (at2 := at1 + size c1 + 3) in *. assert (Ea : at2 = at1 + size c1 + 3) by reflexivity. assert (Eb : at1 = L + len (code t e) + 7) by reflexivity.
    pose proof P2 as (_ & _ & H2 & _). pose proof P1 as (_ & H3 & _). pose proof (size_nonneg c1) as Hl1. pose proof (size_nonneg c2) as Hl2.
    assert (K : (exists s', does procs d (if value s e =? 0 then c2 else c1) s s') \/ overflows procs d (if value s e =? 0 then c2 else c1) s \/
      dstill_at (Datatypes.S k) (if value s e =? 0 then at2 else at1) s).
    { destruct (value s e =? 0); [apply IH2|apply IH1]; assumption. }
    destruct K as [[s' E]|[O|N]]; [left; exists s'; constructor; assumption|right; left; apply overflows_cond; assumption|]. right. right. intros f A X Y S P St HS.
    destruct (dtest_within e at2 L s f d St Bt H0 ltac:(lia) Ge De Hd2 A X Y S P HS) as (k1 & n1 & A1 & X1 & F1 & f1 & _ & G1 & St1 & _).
    destruct (N f1 A1 X1 Y S F1 St1 HS) as (n2 & r2 & f2 & G2). pose proof (dstays_app _ _ _ _ _ _ _ _ _ G1 _ _ _ _ G2) as G5.
    exact (dstays_take _ _ _ (Datatypes.S k) _ _ _ _ _ _ G5 ltac:(lia)).
  - destruct (Z_le_dec (depth e) d) as [De|De]; [|right; left; apply overflows_loop; lia].
    destruct (settled_again _ _ _ Pl) as (Bt & H0 & Ge & P1 & EL & H2 & Bj).
    set (at1 := L + len (code t e) + 7) in *. set (stop := at1 + size c + 3) in *. assert (Ea : stop = at1 + size c + 3) by reflexivity. assert (Eb : at1 = L + len (code t e) + 7) by reflexivity.
    pose proof (size_nonneg c) as Hl1. pose proof P1 as (_ & H3 & _).
    destruct (Z.eq_dec (value s e) 0) as [Ez|En]; [left; exists s; apply does_stop; assumption|].
    assert (T : forall f, ok s f -> forall A X Y S P, 0 <= S < 256 -> exists k n A' X' P' f', (1 <= k)%nat /\
      go k n (mkRegs A X Y S L P) f (mkRegs A' X' Y S at1 P') f' /\ ok s f').
    { intros f St A X Y S P HS. destruct (dtest_within e stop L s f d St Bt H0 ltac:(lia) Ge De Hd2 A X Y S P HS) as (k1 & n1 & A1 & X1 & F1 & f1 & Hk & G1 & St1 & _).
      replace (value s e =? 0) with false in G1 by lia. exists k1, n1, A1, X1, F1, f1. split; [apply Hk|split; assumption]. }
    destruct (IH d at1 s Hd2 P1) as [[s1 E1]|[O|N]]; [|right; left; apply overflows_now; assumption|].
    + destruct (IHk (Again e c) d L s1 Hd2 Pl) as [[s2 E2]|[O|N]]; [left; exists s2; eapply does_again; eassumption|right; left; eapply overflows_later; eassumption|].
      right. right. intros f A X Y S P St HS.
      destruct (T f St A X Y S P HS) as (k1 & n1 & A1 & X1 & F1 & f1 & Hk & G1 & St1).
      destruct (dstmt_executes d _ _ _ E1 Hd2 at1 P1) as (n2 & Pf). destruct (Pf f1 A1 X1 Y S F1 St1 HS) as (k2 & A2 & X2 & F2 & f2 & G2 & St2 & _).
      pose proof (djump_within _ _ f2 ltac:(apply St2) Bj ltac:(lia) ltac:(lia) A2 X2 Y S F2) as G3.
      destruct (N f2 A2 X2 Y S F2 St2 HS) as (n4 & r4 & f4 & G4).
      pose proof (dstays_app _ _ _ _ _ _ _ _ _ G1 _ _ _ _ (dstays_app _ _ _ _ _ _ _ _ _ G2 _ _ _ _ (dstays_app _ _ _ _ _ _ _ _ _ G3 _ _ _ _ G4))) as G5.
      exact (dstays_take _ _ _ (Datatypes.S k) _ _ _ _ _ _ G5 ltac:(lia)).
    + right. right. intros f A X Y S P St HS.
      destruct (T f St A X Y S P HS) as (k1 & n1 & A1 & X1 & F1 & f1 & _ & G1 & St1).
      destruct (N f1 A1 X1 Y S F1 St1 HS) as (n2 & r2 & f2 & G2). pose proof (dstays_app _ _ _ _ _ _ _ _ _ G1 _ _ _ _ G2) as G5.
      exact (dstays_take _ _ _ (Datatypes.S k) _ _ _ _ _ _ G5 ltac:(lia)).
  - destruct (Z_le_dec 2 d) as [Hd|Hd]; [|right; left; apply overflows_call; lia].
    pose proof Pl as (_ & _ & _ & Hj). cbn [proper] in Hj. destruct (nth_error procs j) as [body|] eqn:Ek; [|apply nth_error_None in Ek; lia].
    destruct (IHk body (d - 2) (at_ j) s ltac:(lia) (proj1 (Hprocs j body Ek))) as [[s' E]|[O|N]];
      [left; exists s'; eapply does_perform; eassumption|right; left; eapply overflows_body; eassumption|].
    right. right. intros f A X Y S P St HS.
    destruct (dcall_within j body L s f d Ek St Pl ltac:(lia) A X Y S P HS) as (f1 & G1 & St1 & _).
    destruct (N f1 A X Y ((S - 2) mod 256) P St1 ltac:(lia)) as (n2 & r2 & f2 & G2). pose proof (dstays_app _ _ _ _ _ _ _ _ _ G1 _ _ _ _ G2) as G5.
    exact (dstays_take _ _ _ (Datatypes.S k) _ _ _ _ _ _ G5 ltac:(lia)).
Qed.
End Language.
