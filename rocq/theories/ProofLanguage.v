(** Executing translated programs on the specification machine. *)
From Verif Require Import Base Arith ModelMap ModelRegs6502 ModelIsa6502 Link6502 Spec6502 SpecProgram ProofProgram SpecRoutines ProofRoutines SpecLanguage.

(** [k] instructions, each of which lies at an address from [lo] up to [hi]. *)
Inductive stays (p : profile) (ram : Z -> Prop) (lo hi : Z) : nat -> nat -> registers -> (Z -> Z) -> registers -> (Z -> Z) -> Prop :=
| stays_done r f : stays p ram lo hi 0 0 r f r f
| stays_step k t r f e r' f' : lo <= rPC r < hi -> step p r f = Some e -> Forall (fun w => ram (fst w)) (e_stores e) ->
    stays p ram lo hi k t (e_regs e) (stored f (e_stores e)) r' f' -> stays p ram lo hi (S k) (e_cycles e + t) r f r' f'.

Section Stays.
Variables (p : profile) (ram : Z -> Prop) (lo hi : Z).

Lemma stays_app k t r f r1 f1 : stays p ram lo hi k t r f r1 f1 -> forall k' t' r2 f2,
  stays p ram lo hi k' t' r1 f1 r2 f2 -> stays p ram lo hi (k + k') (t + t') r f r2 f2.
Proof.
  induction 1 as [r f|k t r f e r1 f1 Hp E F X IH]; intros k' t' r2 f2 Y; [exact Y|].
  rewrite <- Nat.add_assoc. eapply stays_step; eauto.
Qed.
Lemma stays_exec k t r f r' f' : stays p ram lo hi k t r f r' f' -> exec p ram k t r f r' f'.
Proof. induction 1; econstructor; eauto. Qed.
Lemma stays_one t r f r' f' : exec p ram 1 t r f r' f' -> lo <= rPC r < hi -> stays p ram lo hi 1 t r f r' f'.
Proof.
  intros X Hp. inversion X as [|k t0 r0 f0 e r1 f1 E F Y]; subst. inversion Y; subst. eapply stays_step; eauto. constructor.
Qed.
Lemma stays_take n : forall k t r f r' f', stays p ram lo hi k t r f r' f' -> (n <= k)%nat ->
  exists t1 r1 f1, stays p ram lo hi n t1 r f r1 f1.
Proof.
  induction n as [|n IH]; intros k t r f r' f' X Hn; [exists 0%nat, r, f; constructor|].
  inversion X as [|k0 t0 r0 f0 e r1 f1 Hp E F Y]; subst; [lia|].
  destruct (IH _ _ _ _ _ _ Y ltac:(lia)) as (t1 & r2 & f2 & Z). exists (e_cycles e + t1)%nat, r2, f2. econstructor; eauto.
Qed.
(** Where the last of [k + 1] instructions lies. *)
Lemma stays_last k : forall t r f r' f', stays p ram lo hi (S k) t r f r' f' ->
  exists t1 r1 f1, stays p ram lo hi k t1 r f r1 f1 /\ lo <= rPC r1 < hi.
Proof.
  induction k as [|k IH]; intros t r f r' f' X; inversion X as [|k0 t0 r0 f0 e r1 f1 Hp E F Y]; subst.
  - exists 0%nat, r, f. split; [constructor|exact Hp].
  - destruct (IH _ _ _ _ _ Y) as (t1 & r2 & f2 & Z & Hq). exists (e_cycles e + t1)%nat, r2, f2. split; [econstructor; eauto|exact Hq].
Qed.
End Stays.

Section Instructions.
Variables (p : profile) (ram : Z -> Prop) (A X Y S PC : Z) (P : processor_status) (f : Z -> Z).
Notation R := (mkRegs A X Y S PC P).

Lemma i_tax : 0 <= PC <= 0xfffd -> f PC = 0xaa -> exec p ram 1 2 R f (mkRegs A A Y S (PC + 1) (nzf P A)) f.
Proof. intros H1 H2. eapply one_quiet; [exact H1|exact H2|reflexivity|]. rewrite <- (pc_plus PC 1) by lia. reflexivity. Qed.
Lemma i_nop : 0 <= PC <= 0xfffd -> f PC = 0xea -> exec p ram 1 2 R f (mkRegs A X Y S (PC + 1) P) f.
Proof. intros H1 H2. eapply one_quiet; [exact H1|exact H2|reflexivity|]. rewrite <- (pc_plus PC 1) by lia. reflexivity. Qed.
Lemma i_asl_a : 0 <= PC <= 0xfffd -> f PC = 0x0a ->
  exists P', ps_zero P' = ((2 * A) mod 256 =? 0) /\ exec p ram 1 2 R f (mkRegs ((2 * A) mod 256) X Y S (PC + 1) P') f.
Proof. intros H1 H2. eexists. split; [|eapply one_quiet; [exact H1|exact H2|reflexivity|]; rewrite <- (pc_plus PC 1) by lia; reflexivity]. reflexivity. Qed.
Lemma i_lsr_a : 0 <= PC <= 0xfffd -> f PC = 0x4a ->
  exists P', ps_zero P' = (A / 2 =? 0) /\ exec p ram 1 2 R f (mkRegs (A / 2) X Y S (PC + 1) P') f.
Proof. intros H1 H2. eexists. split; [|eapply one_quiet; [exact H1|exact H2|reflexivity|]; rewrite <- (pc_plus PC 1) by lia; reflexivity]. reflexivity. Qed.
Lemma i_jmp a : 0 <= PC <= 0xfffd -> f PC = 0x4c -> f (PC + 1) = low a -> f (PC + 2) = high a ->
  exec p ram 1 3 R f (mkRegs A X Y S a P) f.
Proof.
  intros H1 H2 H3 H4. eapply one_quiet; [exact H1|exact H2|reflexivity|]. rewrite H3, H4. unfold execute. rewrite word_halves. reflexivity.
Qed.
Lemma i_pla : 0 <= PC <= 0xfffd -> f PC = 0x68 -> let v := f (stack (S + 1)) in
  exec p ram 1 4 R f (mkRegs v X Y ((S + 1) mod 256) (PC + 1) (nzf P v)) f.
Proof. intros H1 H2. eapply one_quiet; [exact H1|exact H2|reflexivity|]. rewrite <- (pc_plus PC 1) by lia. reflexivity. Qed.
Lemma i_pha : 0 <= PC <= 0xfffd -> f PC = 0x48 -> ram (stack S) ->
  exec p ram 1 3 R f (mkRegs A X Y ((S - 1) mod 256) (PC + 1) P) (store1 f (stack S, A)).
Proof.
  intros H1 H2 Hr. eapply (exec_one p ram R f 0x48 Pha Implied 3 (mkEffect (mkRegs A X Y ((S - 1) mod 256) (PC + 1) P) [(stack S, A)] 3)); try reflexivity.
  - cbn [rPC]. lia.
  - exact H2.
  - rewrite <- (pc_plus PC 1) by lia. reflexivity.
  - constructor; [exact Hr|constructor].
Qed.
Lemma i_alu op mn a v : 0 <= PC <= 0xfffc -> f PC = op -> f (PC + 1) = low a -> f (PC + 2) = high a ->
  decode op = Some (mn, Absolute, 4%nat) ->
  (exists P', ps_zero P' = (v =? 0) /\
    execute p mn Absolute 4 R f (low a) (high a) = Some (mkEffect (mkRegs v X Y S ((PC + 3) mod 65536) P') [] 4)) ->
  exists P', ps_zero P' = (v =? 0) /\ exec p ram 1 4 R f (mkRegs v X Y S (PC + 3) P') f.
Proof.
  intros H1 H2 H3 H4 Hd (P' & Hz & He). exists P'. split; [exact Hz|]. eapply one_quiet; [lia|exact H2|exact Hd|].
  rewrite H3, H4, He. rewrite Z.mod_small by lia. reflexivity.
Qed.
End Instructions.

(** ** Expressions *)
Lemma value_ext (Q : Z -> Prop) s s' e : (forall q, Q q -> s' q = s q) -> reads Q e -> (forall q, Q q -> 0 <= s q < 256) ->
  value s' e = value s e /\ 0 <= value s e < 256.
Proof.
  intros E R B. induction e as [k|v|a i IH|e IH|e IH|o e1 IH1 e2 IH2]; cbn [reads value] in *.
  - split; [reflexivity|exact R].
  - split; [apply E|apply B]; exact R.
  - destruct R as [R1 R2]. destruct (IH R2) as [IH1 IH2]. rewrite IH1. split; [apply E|apply B]; apply R1; exact IH2.
  - destruct (IH R) as [-> ?]. split; [reflexivity|lia].
  - destruct (IH R) as [-> ?]. split; [reflexivity|lia].
  - destruct R as [R1 R2]. destruct (IH1 R1) as [-> ?], (IH2 R2) as [-> ?]. split; [reflexivity|].
    destruct o; cbn [apply]; try lia.
    + assert (H1 : 0 <= Z.land (value s e1) (value s e2)) by (apply Z.land_nonneg; lia).
      assert (H2 : Z.land (value s e1) (value s e2) = Z.land (value s e1) (value s e2) mod 2 ^ 8).
      { rewrite <- Z.land_ones by lia. rewrite <- Z.land_assoc. f_equal. rewrite Z.land_ones by lia. change (2 ^ 8) with 256. rewrite Z.mod_small; lia. }
      change (2 ^ 8) with 256 in H2. lia.
    + assert (H1 : 0 <= Z.lor (value s e1) (value s e2)) by (apply Z.lor_nonneg; lia).
      assert (H2 : Z.lor (value s e1) (value s e2) = Z.lor (value s e1) (value s e2) mod 2 ^ 8).
      { rewrite <- Z.land_ones by lia. rewrite Z.land_lor_distr_l. f_equal; rewrite Z.land_ones by lia; change (2 ^ 8) with 256; rewrite Z.mod_small; lia. }
      change (2 ^ 8) with 256 in H2. lia.
    + assert (H1 : 0 <= Z.lxor (value s e1) (value s e2)) by (apply Z.lxor_nonneg; lia).
      assert (H2 : Z.lxor (value s e1) (value s e2) = Z.lxor (value s e1) (value s e2) mod 2 ^ 8).
      { rewrite <- Z.land_ones by lia. apply Z.bits_inj'. intros n Hn. rewrite Z.land_spec, Z.lxor_spec, Z.testbit_ones_nonneg by lia.
        destruct (n <? 8) eqn:Q8; [rewrite andb_true_r; reflexivity|].
        rewrite andb_false_r.
        assert (T : forall v, 0 <= v < 256 -> Z.testbit v n = false).
        { intros v Hv. rewrite <- (Z.mod_small v (2 ^ 8)) by (change (2 ^ 8) with 256; lia). apply Z.mod_pow2_bits_high. lia. }
        rewrite !T by lia. reflexivity. }
      change (2 ^ 8) with 256 in H2. lia.
Qed.
Lemma time_ext (Q : Z -> Prop) s s' e : (forall q, Q q -> s' q = s q) -> reads Q e -> (forall q, Q q -> 0 <= s q < 256) -> time s' e = time s e.
Proof.
  intros E R B. induction e as [k|v|a i IH|e IH|e IH|o e1 IH1 e2 IH2]; cbn [reads time] in *; try reflexivity.
  - destruct R as [_ R]. rewrite (IH R). destruct (value_ext Q s s' i E R B) as [-> _]. reflexivity.
  - rewrite (IH R). reflexivity.
  - rewrite (IH R). reflexivity.
  - destruct R as [R1 R2]. rewrite (IH1 R1), (IH2 R2). reflexivity.
Qed.
Lemma depth_nonneg e : 0 <= depth e.
Proof. induction e; cbn [depth]; lia. Qed.
Lemma len_app l l' : len (l ++ l') = len l + len l'.
Proof. unfold len. rewrite app_length. lia. Qed.
Lemma len_nonneg l : 0 <= len l.
Proof. unfold len. lia. Qed.

Section Language.
Variables (p : profile) (ram : Z -> Prop) (t lo hi : Z) (text : Z -> Z).
Context (Hlo : 0 <= lo) (Hhi : hi <= 0xffff) (Hs : forall q, scratch t q -> u16 q /\ ram q /\ ~ (lo <= q < hi)) (Ht1 : ~ page_one t).

Definition intact (f : Z -> Z) : Prop := forall q, lo <= q < hi -> f q = text q.
Definition calm (f f' : Z -> Z) : Prop := forall q, ~ scratch t q -> f' q = f q.
Lemma calm_intact f f' : calm f f' -> intact f -> intact f'.
Proof. intros C H q Hq. rewrite C; [apply H; exact Hq|]. intros K. destruct (Hs q K) as (_ & _ & N). contradiction. Qed.
Lemma calm_trans f f1 f2 : calm f f1 -> calm f1 f2 -> calm f f2.
Proof. intros H1 H2 q Hq. rewrite H2, H1 by exact Hq. reflexivity. Qed.
Lemma stack_scratch s : scratch t (stack s).
Proof. right. unfold stack, page_one. lia. Qed.
Lemma bytes_store f a v : byte_valued f -> 0 <= v < 256 -> byte_valued (store1 f (a, v)).
Proof. intros B Hv q Hq. unfold store1. cbn [fst snd]. destruct (q =? a); [exact Hv|exact (B q Hq)]. Qed.
Lemma calm_store f a v : scratch t a -> calm f (store1 f (a, v)).
Proof. intros Ha q Hq. apply store1_other. intros ->. contradiction. Qed.

Notation go := (stays p ram lo hi).

Ltac at_byte B := match goal with I : intact ?f |- ?f _ = _ => rewrite (I _ ltac:(lia)); rewrite <- B; f_equal; lia end.
Ltac byte := match goal with
  | I : intact ?f |- ?f ?q = ?b => rewrite (I q) by lia;
      match goal with B : text ?q' = b |- _ => replace q with q' by lia; exact B end end.

Ltac one H := pose proof (stays_one _ _ lo hi _ _ _ _ _ H ltac:(cbn [rPC]; lia)).

(** The byte [stack s] for [s] below [S] by less than [d]. *)
Definition below (S d q : Z) : Prop := exists j, 0 <= j < d /\ q = stack (S - j).

Definition evaluates (L : Z) (l : list Z) (d : Z) (f : Z -> Z) (v : Z) (tm : nat) : Prop :=
  forall A X Y S P, 0 <= S < 256 -> exists k n X' P' f', (1 <= k /\ n = tm)%nat /\
    go k n (mkRegs A X Y S L P) f (mkRegs v X' Y S (L + len l) P') f' /\
    ps_zero P' = (v =? 0) /\ (forall q, q <> t -> ~ below S d q -> f' q = f q) /\ byte_valued f'.

Lemma below_scratch S d q : below S d q -> scratch t q.
Proof. intros (j & _ & ->). apply stack_scratch. Qed.
Lemma quiet_calm S d f f' : (forall q, q <> t -> ~ below S d q -> f' q = f q) -> calm f f'.
Proof. intros H q Hq. apply H; [intros ->; apply Hq; left; reflexivity|intros K; apply Hq; exact (below_scratch _ _ _ K)]. Qed.

Lemma op_executes o : forall A X Y S L P f, intact f -> byte_valued f -> bytes_from text L (op_code o t) -> lo <= L -> L + len (op_code o t) <= hi ->
  L + len (op_code o t) <= 0xfffe -> 0 <= A < 256 ->
  exists k P', go k (op_time o) (mkRegs A X Y S L P) f (mkRegs (apply o A (f t)) X Y S (L + len (op_code o t)) P') f /\
    ps_zero P' = (apply o A (f t) =? 0).
Proof.
  assert (Ht : u16 t) by (apply Hs; left; reflexivity).
  intros A X Y S L P f Hi By B H0 H1 H2 HA. destruct o; unfold len in *; cbn [op_code length] in *.
  - destruct B as (B0 & B1 & B2 & B3 & _).
    pose proof (i_clc p ram A X Y S L P f ltac:(lia) ltac:(byte)) as X1.
    destruct (i_alu p ram A X Y S (L + 1) (with_c P false) f 0x6d Adc t (apply Plus A (f t)) ltac:(lia) ltac:(byte) ltac:(byte) ltac:(byte) eq_refl) as (P' & Z1 & X2).
    { unfold execute, read_op, operand_value, operand_address. rewrite word_halves. eexists. split; [|reflexivity]. reflexivity. }
    exists 2%nat, P'. split; [|exact Z1]. replace (L + Z.of_nat 4) with (L + 1 + 3) by lia.
    one X1. one X2. change 2%nat with (1 + 1)%nat at 1. eapply stays_app; eassumption.
  - destruct B as (B0 & B1 & B2 & B3 & _).
    pose proof (i_sec p ram A X Y S L P f ltac:(lia) ltac:(byte)) as X1.
    destruct (i_alu p ram A X Y S (L + 1) (with_c P true) f 0xed Sbc t (apply Minus A (f t)) ltac:(lia) ltac:(byte) ltac:(byte) ltac:(byte) eq_refl) as (P' & Z1 & X2).
    { unfold execute, read_op, operand_value, operand_address. rewrite word_halves. cbn [apply]. replace (A - f t) with (A - f t - 0) by lia.
      eexists. split; [|reflexivity]. reflexivity. }
    exists 2%nat, P'. split; [|exact Z1]. replace (L + Z.of_nat 4) with (L + 1 + 3) by lia.
    one X1. one X2. change 2%nat with (1 + 1)%nat at 1. eapply stays_app; eassumption.
  - destruct B as (B0 & B1 & B2 & _).
    destruct (i_alu p ram A X Y S L P f 0x2d And t (apply Conj A (f t)) ltac:(lia) ltac:(byte) ltac:(byte) ltac:(byte) eq_refl) as (P' & Z1 & X2).
    { unfold execute, read_op, operand_value, operand_address. rewrite word_halves. eexists. split; [|reflexivity]. reflexivity. }
    exists 1%nat, P'. split; [|exact Z1]. one X2. assumption.
  - destruct B as (B0 & B1 & B2 & _).
    destruct (i_alu p ram A X Y S L P f 0x0d Ora t (apply Disj A (f t)) ltac:(lia) ltac:(byte) ltac:(byte) ltac:(byte) eq_refl) as (P' & Z1 & X2).
    { unfold execute, read_op, operand_value, operand_address. rewrite word_halves. eexists. split; [|reflexivity]. reflexivity. }
    exists 1%nat, P'. split; [|exact Z1]. one X2. assumption.
  - destruct B as (B0 & B1 & B2 & _).
    destruct (i_alu p ram A X Y S L P f 0x4d Eor t (apply Exclusive A (f t)) ltac:(lia) ltac:(byte) ltac:(byte) ltac:(byte) eq_refl) as (P' & Z1 & X2).
    { unfold execute, read_op, operand_value, operand_address. rewrite word_halves. eexists. split; [|reflexivity]. reflexivity. }
    exists 1%nat, P'. split; [|exact Z1]. one X2. assumption.
Qed.

Let Q (q : Z) : Prop := u16 q /\ ~ scratch t q.
Lemma Q_bytes f : byte_valued f -> forall q, Q q -> 0 <= f q < 256.
Proof. intros B q (U & _). exact (B q U). Qed.
Lemma time_calm f f' e : calm f f' -> byte_valued f -> reads Q e -> time f' e = time f e.
Proof. intros C B R. apply (time_ext Q); [intros q (_ & N); apply C; exact N|exact R|exact (Q_bytes f B)]. Qed.
Lemma value_calm f f' e : calm f f' -> byte_valued f -> reads Q e -> value f' e = value f e /\ 0 <= value f e < 256.
Proof. intros C B R. apply (value_ext Q); [intros q (_ & N); apply C; exact N|exact R|exact (Q_bytes f B)]. Qed.


Lemma expr_executes e : forall L f, intact f -> byte_valued f -> bytes_from text L (code t e) -> lo <= L -> L + len (code t e) <= hi ->
  L + len (code t e) <= 0xfffe -> reads Q e -> depth e <= 256 ->
  evaluates L (code t e) (depth e) f (value f e) (time f e).
Proof.
  induction e as [k|v|a i IH|e IH|e IH|o e1 IH1 e2 IH2]; intros L f Hi By B H0 H1 H2 R Dp A X Y S P HS; cbn [code] in *.
  - unfold len in *. cbn [length] in *. destruct B as (B0 & B1 & _).
    pose proof (i_lda_imm p ram A X Y S L P f k ltac:(lia) ltac:(byte) ltac:(byte)) as X1.
    exists 1%nat, 2%nat, X, (nzf P k), f. split; [cbn [time]; lia|]. split; [one X1; assumption|].
    split; [reflexivity|]. split; [reflexivity|exact By].
  - unfold len in *. cbn [length] in *. destruct B as (B0 & B1 & B2 & _).
    pose proof (i_lda p ram A X Y S L P f v ltac:(lia) ltac:(byte) ltac:(byte) ltac:(byte)) as X1.
    exists 1%nat, 4%nat, X, (nzf P (f v)), f. split; [cbn [time]; lia|]. split; [one X1; assumption|].
    split; [reflexivity|]. split; [reflexivity|exact By].
  - destruct R as [R1 R2]. apply bytes_from_app in B. fold (len (code t i)) in B. destruct B as [Bi (B0 & B1 & B2 & B3 & _)]. rewrite len_app in *. change (len [_; _; _; _]) with 4 in *.
    pose proof (len_nonneg (code t i)) as Hl.
    destruct (IH L f Hi By Bi ltac:(lia) ltac:(lia) ltac:(lia) R2 Dp A X Y S P HS) as (k & n & X' & P' & f' & Hk & G & _ & Fr & By').
    pose proof (quiet_calm _ _ _ _ Fr) as Ca. pose proof (calm_intact _ _ Ca Hi) as Hi'.
    destruct (value_calm f f' i Ca By R2) as [_ Vb]. set (v := value f i) in *. set (l := len (code t i)) in *.
    pose proof (R1 v Vb) as Qv. destruct (R1 0 ltac:(lia)) as [[Ua _] _]. destruct Qv as [[_ Uv] Nv].
    pose proof (i_tax p ram v X' Y S (L + l) P' f' ltac:(lia) ltac:(byte)) as X1.
    pose proof (i_lda_x p ram v v Y S (L + l + 1) (nzf P' v) f' a ltac:(lia) ltac:(byte) ltac:(byte) ltac:(byte) ltac:(lia)) as X2.
    rewrite (Ca _ Nv) in X2. one X1. one X2.
    exists (k + (1 + 1))%nat, (n + (2 + (if ((a + v) / 256 =? a / 256)%Z then 4 else 5)))%nat, v, (nzf (nzf P' v) (f (a + v))), f'. split; [cbn [time]; fold v; lia|]. split.
    { cbn [value]. fold v. replace (L + (l + 4)) with (L + l + 1 + 3) by lia.
      eapply stays_app; [exact G|]. eapply stays_app; eassumption. }
    split; [reflexivity|]. split; [exact Fr|exact By'].
  - apply bytes_from_app in B. fold (len (code t e)) in B. destruct B as [Bi (B0 & _)]. rewrite len_app in *. change (len [_]) with 1 in *.
    pose proof (len_nonneg (code t e)) as Hl.
    destruct (IH L f Hi By Bi ltac:(lia) ltac:(lia) ltac:(lia) R Dp A X Y S P HS) as (k & n & X' & P' & f' & Hk & G & _ & Fr & By').
    pose proof (quiet_calm _ _ _ _ Fr) as Ca. pose proof (calm_intact _ _ Ca Hi) as Hi'.
    destruct (i_asl_a p ram (value f e) X' Y S (L + len (code t e)) P' f' ltac:(lia) ltac:(byte)) as (P2 & Z1 & X1). one X1.
    exists (k + 1)%nat, (n + 2)%nat, X', P2, f'. split; [cbn [time]; lia|]. split.
    { cbn [value]. replace (L + (len (code t e) + 1)) with (L + len (code t e) + 1) by lia. eapply stays_app; eassumption. }
    split; [exact Z1|]. split; [exact Fr|exact By'].
  - apply bytes_from_app in B. fold (len (code t e)) in B. destruct B as [Bi (B0 & _)]. rewrite len_app in *. change (len [_]) with 1 in *.
    pose proof (len_nonneg (code t e)) as Hl.
    destruct (IH L f Hi By Bi ltac:(lia) ltac:(lia) ltac:(lia) R Dp A X Y S P HS) as (k & n & X' & P' & f' & Hk & G & _ & Fr & By').
    pose proof (quiet_calm _ _ _ _ Fr) as Ca. pose proof (calm_intact _ _ Ca Hi) as Hi'.
    destruct (i_lsr_a p ram (value f e) X' Y S (L + len (code t e)) P' f' ltac:(lia) ltac:(byte)) as (P2 & Z1 & X1). one X1.
    exists (k + 1)%nat, (n + 2)%nat, X', P2, f'. split; [cbn [time]; lia|]. split.
    { cbn [value]. replace (L + (len (code t e) + 1)) with (L + len (code t e) + 1) by lia. eapply stays_app; eassumption. }
    split; [exact Z1|]. split; [exact Fr|exact By'].
  - destruct R as [R1 R2]. cbn [depth] in *. pose proof (depth_nonneg e1) as D1. pose proof (depth_nonneg e2) as D2.
    apply bytes_from_app in B. destruct B as [Ba B]. apply bytes_from_app in B. destruct B as [(B0 & _) B].
    apply bytes_from_app in B. destruct B as [Bb B]. apply bytes_from_app in B. destruct B as [(B1 & B2 & B3 & B4 & _) Bo].
    rewrite !len_app in *. change (len [_; _; _; _]) with 4 in *. change (len [_]) with 1 in *.
    cbn [length] in Bb, B1, B2, B3, B4, Bo. fold (len (code t e1)) in *. fold (len (code t e2)) in *.
    pose proof (len_nonneg (code t e1)) as Hl1. pose proof (len_nonneg (code t e2)) as Hl2. pose proof (len_nonneg (op_code o t)) as Hl3.
    set (l1 := len (code t e1)) in *. set (l2 := len (code t e2)) in *.
    replace (L + l1 + Z.of_nat 1) with (L + l1 + 1) in * by lia.
    destruct (IH1 L f Hi By Ba ltac:(lia) ltac:(lia) ltac:(lia) R1 ltac:(lia) A X Y S P HS) as (k1 & n1 & X1 & P1 & f1 & Hk1 & G1 & _ & Fr1 & By1).
    fold l1 in G1.
    pose proof (quiet_calm _ _ _ _ Fr1) as Ca1. pose proof (calm_intact _ _ Ca1 Hi) as Hi1.
    destruct (value_calm f f1 e1 Ca1 By R1) as [_ Vb1]. set (v1 := value f e1) in *.
    destruct (Hs _ (stack_scratch S)) as (_ & Rs & _).
    pose proof (i_pha p ram v1 X1 Y S (L + l1) P1 f1 ltac:(lia) ltac:(byte) Rs) as I1. one I1.
    set (f2 := store1 f1 (stack S, v1)) in *.
    pose proof (calm_store f1 (stack S) v1 (stack_scratch S)) as Ca2. fold f2 in Ca2.
    pose proof (calm_intact _ _ Ca2 Hi1) as Hi2. pose proof (bytes_store f1 (stack S) v1 By1 Vb1) as By2. fold f2 in By2.
    destruct (IH2 (L + l1 + 1) f2 Hi2 By2 Bb ltac:(lia) ltac:(lia) ltac:(lia) R2 ltac:(lia) v1 X1 Y ((S - 1) mod 256) P1 ltac:(lia))
      as (k2 & n2 & X2 & P2 & f3 & Hk2 & G2 & _ & Fr3 & By3).
    fold l2 in G2. pose proof (quiet_calm _ _ _ _ Fr3) as Ca3. pose proof (calm_intact _ _ Ca3 Hi2) as Hi3.
    destruct (value_calm f f2 e2 (calm_trans _ _ _ Ca1 Ca2) By R2) as [Ev2 Vb2]. rewrite Ev2 in G2. set (v2 := value f e2) in *.
    destruct (Hs t ltac:(left; reflexivity)) as (Ut & Rt & _).
    pose proof (i_sta p ram v2 X2 Y ((S - 1) mod 256) (L + l1 + 1 + l2) P2 f3 t ltac:(lia) ltac:(byte) ltac:(byte) ltac:(byte) Rt) as I2. one I2.
    set (f4 := store1 f3 (t, v2)) in *.
    pose proof (calm_store f3 t v2 ltac:(left; reflexivity)) as Ca4. fold f4 in Ca4.
    pose proof (calm_intact _ _ Ca4 Hi3) as Hi4. pose proof (bytes_store f3 t v2 By3 Vb2) as By4. fold f4 in By4.
    pose proof (i_pla p ram v2 X2 Y ((S - 1) mod 256) (L + l1 + 1 + l2 + 3) P2 f4 ltac:(lia) ltac:(byte)) as I3. cbv zeta in I3.
    replace (((S - 1) mod 256 + 1) mod 256) with S in I3 by lia.
    replace (stack ((S - 1) mod 256 + 1)) with (stack S) in I3 by (unfold stack; lia).
    assert (Et : stack S <> t) by (intros E; apply Ht1; rewrite <- E; unfold stack, page_one; lia).
    assert (Es : f4 (stack S) = v1).
    { unfold f4. rewrite store1_other by exact Et. rewrite Fr3; [apply store1_same|exact Et|].
      intros (j & Hj & E). unfold stack in E. lia. }
    rewrite Es in I3. one I3.
    assert (E4 : f4 t = v2) by apply store1_same.
    destruct (op_executes o v1 X2 Y S (L + l1 + 1 + l2 + 3 + 1) (nzf P2 v1) f4 Hi4 By4) as (k5 & P5 & G5 & Z5);
      [replace (L + l1 + 1 + l2 + 3 + 1) with (L + l1 + 1 + l2 + Z.of_nat 4) by lia; exact Bo|lia|lia|lia|exact Vb1|].
    rewrite E4 in G5, Z5.
    pose proof (time_calm f f2 e2 (calm_trans _ _ _ Ca1 Ca2) By R2) as Tm.
    exists (k1 + (1 + (k2 + (1 + (1 + k5)))))%nat, (n1 + (3 + (n2 + (4 + (4 + op_time o)))))%nat, X2, P5, f4. split; [cbn [time]; lia|]. split.
    { cbn [value]. fold v1 v2. replace (L + (l1 + (1 + (l2 + (4 + len (op_code o t)))))) with (L + l1 + 1 + l2 + 3 + 1 + len (op_code o t)) by lia.
      eapply stays_app; [exact G1|]. eapply stays_app; [eassumption|]. eapply stays_app; [exact G2|].
      eapply stays_app; [eassumption|]. eapply stays_app; [eassumption|exact G5]. }
    split; [exact Z5|]. split; [|exact By4].
    intros q Hq Nq. unfold f4. rewrite store1_other by exact Hq. rewrite Fr3; [|exact Hq|].
    + unfold f2. rewrite store1_other.
      * apply Fr1; [exact Hq|]. intros (j & Hj & E). apply Nq. exists j. split; [lia|exact E].
      * intros ->. apply Nq. exists 0. split; [lia|]. f_equal. lia.
    + intros (j & Hj & ->). apply Nq. exists (j + 1). split; [lia|]. unfold stack. lia.
Qed.

(** ** Commands *)
Let W (q : Z) : Prop := (u16 q /\ ram q /\ ~ (lo <= q < hi)) /\ ~ scratch t q.
Let good (e : expr) : Prop := reads Q e /\ depth e <= 256.

Lemma set_calm s f a v : calm s f -> calm (set s a v) (store1 f (a, v)).
Proof. intros C q Hq. unfold set, store1. cbn [fst snd]. destruct (q =? a); [reflexivity|]. apply C. exact Hq. Qed.
Lemma store_intact f a v : W a -> intact f -> intact (store1 f (a, v)).
Proof. intros ((_ & _ & N) & _) I q Hq. rewrite store1_other; [apply I; exact Hq|]. intros ->. contradiction. Qed.

Definition state_ok (s f : Z -> Z) : Prop := calm s f /\ intact f /\ byte_valued f.
Lemma value_state s f e : state_ok s f -> reads Q e -> value s e = value f e /\ 0 <= value f e < 256.
Proof.
  intros (C & _ & B) R. apply (value_ext Q); [|exact R|exact (Q_bytes f B)]. intros q (_ & N). symmetry. apply C. exact N.
Qed.
Lemma time_state s f e : state_ok s f -> reads Q e -> time s e = time f e.
Proof.
  intros (C & _ & B) R. apply (time_ext Q); [|exact R|exact (Q_bytes f B)]. intros q (_ & N). symmetry. apply C. exact N.
Qed.
Lemma calm_state s f f' : state_ok s f -> calm f f' -> byte_valued f' -> state_ok s f'.
Proof. intros (C & I & B) C' B'. split; [exact (calm_trans _ _ _ C C')|]. split; [exact (calm_intact _ _ C' I)|exact B']. Qed.

Lemma test_executes e target L s f : state_ok s f -> bytes_from text L (code t e ++ unless_zero target) -> lo <= L ->
  L + len (code t e) + 7 <= hi -> L + len (code t e) + 9 <= 0xffff -> good e ->
  forall A X Y S P, 0 <= S < 256 -> exists k n A' X' P' f', (1 <= k)%nat /\
    go k n (mkRegs A X Y S L P) f (mkRegs A' X' Y S (if value s e =? 0 then target else L + len (code t e) + 7) P') f' /\ state_ok s f'.
Proof.
  intros St B H0 H1 H2 [R D] A X Y S P HS. apply bytes_from_app in B. fold (len (code t e)) in B.
  destruct B as [Be (B0 & B1 & B2 & B3 & B4 & B5 & B6 & _)]. pose proof (len_nonneg (code t e)) as Hl. set (l := len (code t e)) in *.
  destruct (value_state s f e St R) as [Ev Vb]. destruct St as (Ca & Hi & By).
  destruct (expr_executes e L f Hi By Be H0 ltac:(lia) ltac:(lia) R D A X Y S P HS) as (k & n & X' & P' & f' & Hk & G & Zf & Fr & By').
  fold l in G. pose proof (quiet_calm _ _ _ _ Fr) as Ca'. pose proof (calm_intact _ _ Ca' Hi) as Hi'.
  assert (St' : state_ok s f') by (split; [exact (calm_trans _ _ _ Ca Ca')|split; assumption]).
  rewrite Ev. set (v := value f e) in *. destruct (v =? 0) eqn:E0.
  - pose proof (i_bne_through p ram v X' Y S (L + l) P' f' ltac:(lia) ltac:(byte) Zf) as I1. one I1.
    pose proof (i_jmp p ram v X' Y S (L + l + 2) P' f' target ltac:(lia) ltac:(byte) ltac:(byte) ltac:(byte)) as I2. one I2.
    eexists (k + (1 + 1))%nat, _, v, X', P', f'. split; [lia|]. split; [|exact St'].
    eapply stays_app; [exact G|]. eapply stays_app; eassumption.
  - pose proof (i_bne_on p ram v X' Y S (L + l) P' f' 5 ltac:(lia) ltac:(byte) Zf ltac:(byte) ltac:(lia) ltac:(lia)) as I1. one I1.
    pose proof (i_nop p ram v X' Y S (L + l + 5) P' f' ltac:(lia) ltac:(byte)) as I2. one I2.
    pose proof (i_nop p ram v X' Y S (L + l + 5 + 1) P' f' ltac:(lia) ltac:(byte)) as I3. one I3.
    eexists (k + (1 + (1 + 1)))%nat, _, v, X', P', f'. split; [lia|]. split; [|exact St'].
    replace (L + l + 7) with (L + l + 5 + 1 + 1) by lia.
    eapply stays_app; [exact G|]. eapply stays_app; [eassumption|]. eapply stays_app; eassumption.
Qed.

Definition runs_to (L : Z) (c : cmd) (s s' : Z -> Z) : Prop := forall f A X Y S P, state_ok s f -> 0 <= S < 256 ->
  exists k n A' X' P' f', go k n (mkRegs A X Y S L P) f (mkRegs A' X' Y S (L + len (compile t L c)) P') f' /\ state_ok s' f'.
Definition placed (L : Z) (c : cmd) : Prop :=
  bytes_from text L (compile t L c) /\ lo <= L /\ L + len (compile t L c) <= hi /\ within good W c.

Lemma placed_seq L c1 c2 : placed L (Seq c1 c2) -> placed L c1 /\ placed (L + len (compile t L c1)) c2 /\
  L + len (compile t L c1) + len (compile t (L + len (compile t L c1)) c2) = L + len (compile t L (Seq c1 c2)).
Proof.
  intros (B & H0 & H1 & G1 & G2). cbn [compile] in *. cbv zeta in *. apply bytes_from_app in B. destruct B as [B1 B2].
  rewrite len_app in *. unfold len in *. split; [|split].
  - repeat split; try assumption; unfold len; lia.
  - repeat split; try assumption; unfold len; lia.
  - lia.
Qed.
Lemma len_unless a : len (unless_zero a) = 7.
Proof. reflexivity. Qed.
Lemma placed_if L e c1 c2 : placed L (If e c1 c2) ->
  let at1 := L + len (code t e) + 7 in let at2 := at1 + len (compile t at1 c1) + 3 in
  bytes_from text L (code t e ++ unless_zero at2) /\ lo <= L /\ good e /\ placed at1 c1 /\ placed at2 c2 /\
  at2 + len (compile t at2 c2) = L + len (compile t L (If e c1 c2)) /\ at2 <= hi /\
  bytes_from text (at1 + len (compile t at1 c1)) [0x4c; low (at2 + len (compile t at2 c2)); high (at2 + len (compile t at2 c2))].
Proof.
  intros (B & H0 & H1 & Ge & G1 & G2) at1 at2. cbn [compile] in *. cbv zeta in *. fold at1 in B, H1 |- *. fold at2 in B, H1 |- *.
  rewrite !len_app, len_unless in *. change (len [_; _; _]) with 3 in *.
  rewrite app_assoc in B. apply bytes_from_app in B. destruct B as [B0 B]. apply bytes_from_app in B. destruct B as [B1 B].
  apply bytes_from_app in B. destruct B as [Bj B2]. cbn [length] in B2. rewrite app_length in *. cbn [length unless_zero] in *.
  pose proof (len_nonneg (compile t at1 c1)). pose proof (len_nonneg (compile t at2 c2)). pose proof (len_nonneg (code t e)).
  replace (L + Z.of_nat (length (code t e) + 7)) with at1 in * by (unfold at1, len; lia).
  fold (len (compile t at1 c1)) in *. replace (at1 + len (compile t at1 c1) + Z.of_nat 3) with at2 in B2 by (unfold at2; lia).
  split; [exact B0|]. split; [exact H0|]. split; [exact Ge|]. split; [|split; [|split; [|split]]].
  - repeat split; try assumption; unfold at2, at1 in *; lia.
  - repeat split; try assumption; unfold at2, at1 in *; lia.
  - unfold at2, at1. lia.
  - unfold at2, at1 in *. lia.
  - exact Bj.
Qed.
Lemma placed_while L e c : placed L (While e c) ->
  let at1 := L + len (code t e) + 7 in let stop := at1 + len (compile t at1 c) + 3 in
  bytes_from text L (code t e ++ unless_zero stop) /\ lo <= L /\ good e /\ placed at1 c /\
  stop = L + len (compile t L (While e c)) /\ stop <= hi /\ bytes_from text (at1 + len (compile t at1 c)) [0x4c; low L; high L].
Proof.
  intros (B & H0 & H1 & Ge & G1) at1 stop. cbn [compile] in *. cbv zeta in *. fold at1 in B, H1 |- *. fold stop in B, H1 |- *.
  rewrite !len_app, len_unless in *. change (len [_; _; _]) with 3 in *.
  rewrite app_assoc in B. apply bytes_from_app in B. destruct B as [B0 B]. apply bytes_from_app in B. destruct B as [B1 Bj].
  rewrite app_length in *. cbn [length unless_zero] in *.
  pose proof (len_nonneg (compile t at1 c)). pose proof (len_nonneg (code t e)).
  replace (L + Z.of_nat (length (code t e) + 7)) with at1 in * by (unfold at1, len; lia).
  fold (len (compile t at1 c)) in *.
  split; [exact B0|]. split; [exact H0|]. split; [exact Ge|]. split; [|split; [|split]].
  - repeat split; try assumption; unfold stop, at1 in *; lia.
  - unfold stop, at1. lia.
  - unfold stop, at1 in *. lia.
  - exact Bj.
Qed.

Lemma jump_executes a L f : intact f -> bytes_from text L [0x4c; low a; high a] -> lo <= L -> L + 3 <= hi ->
  forall A X Y S P, go 1 3 (mkRegs A X Y S L P) f (mkRegs A X Y S a P) f.
Proof.
  intros Hi (B0 & B1 & B2 & _) H0 H1 A X Y S P.
  pose proof (i_jmp p ram A X Y S L P f a ltac:(lia) ltac:(byte) ltac:(byte) ltac:(byte)) as I1. one I1. assumption.
Qed.

Lemma cmd_executes c s s' : ends c s s' -> forall L, placed L c -> runs_to L c s s'.
Proof.
  induction 1 as [s|v e s|a i e s|c1 c2 s s1 s2 E1 IH1 E2 IH2|e c1 c2 s s' E IH|e c s Ez|e c s s1 s2 En E1 IH1 E2 IH2]; intros L Pl f A X Y S P St HS.
  - exists 0%nat, 0%nat, A, X, P, f. cbn [compile]. unfold len. cbn [length]. replace (L + Z.of_nat 0) with L by lia. split; [constructor|exact St].
  - destruct Pl as (B & H0 & H1 & Wv & R & D). cbn [compile] in *. apply bytes_from_app in B. fold (len (code t e)) in B.
    destruct B as [Be (B0 & B1 & B2 & _)]. rewrite len_app in *. change (len [_; _; _]) with 3 in *.
    pose proof (len_nonneg (code t e)) as Hl. set (l := len (code t e)) in *.
    destruct (value_state s f e St R) as [Ev Vb]. destruct St as (Ca & Hi & By).
    destruct (expr_executes e L f Hi By Be H0 ltac:(lia) ltac:(lia) R D A X Y S P HS) as (k & n & X' & P' & f' & Hk & G & Zf & Fr & By').
    fold l in G. pose proof (quiet_calm _ _ _ _ Fr) as Ca'. pose proof (calm_intact _ _ Ca' Hi) as Hi'.
    pose proof Wv as ((_ & Rv & _) & _).
    pose proof (i_sta p ram (value f e) X' Y S (L + l) P' f' v ltac:(lia) ltac:(byte) ltac:(byte) ltac:(byte) Rv) as I1. one I1.
    eexists (k + 1)%nat, _, _, X', P', _. split; [replace (L + (l + 3)) with (L + l + 3) by lia; eapply stays_app; eassumption|].
    rewrite Ev. split; [apply set_calm; exact (calm_trans _ _ _ Ca Ca')|]. split; [apply store_intact; assumption|apply bytes_store; assumption].
  - destruct Pl as (B & H0 & H1 & Wa & [Ri Di] & Di' & [R D]). cbn [compile] in *.
    apply bytes_from_app in B. destruct B as [Be B]. apply bytes_from_app in B. destruct B as [(B0 & _) B].
    apply bytes_from_app in B. destruct B as [Bi (B1 & B2 & B3 & B4 & B5 & _)].
    rewrite !len_app in *. change (len [_; _; _; _; _]) with 5 in *. change (len [_]) with 1 in *. cbn [length] in *.
    fold (len (code t e)) in *. fold (len (code t i)) in *.
    pose proof (len_nonneg (code t e)) as Hl. pose proof (len_nonneg (code t i)) as Hl2. set (l := len (code t e)) in *. set (l2 := len (code t i)) in *.
    replace (L + l + Z.of_nat 1) with (L + l + 1) in * by lia.
    destruct (value_state s f e St R) as [Ev Vb]. destruct (value_state s f i St Ri) as [Evi Vbi]. pose proof St as (Ca & Hi & By).
    destruct (expr_executes e L f Hi By Be H0 ltac:(lia) ltac:(lia) R D A X Y S P HS) as (k & n & X1 & P1 & f1 & Hk & G & _ & Fr & By1).
    fold l in G. pose proof (quiet_calm _ _ _ _ Fr) as Ca1. pose proof (calm_intact _ _ Ca1 Hi) as Hi1.
    set (v := value f e) in *. destruct (Hs _ (stack_scratch S)) as (_ & Rs & _).
    pose proof (i_pha p ram v X1 Y S (L + l) P1 f1 ltac:(lia) ltac:(byte) Rs) as I1. one I1.
    set (f2 := store1 f1 (stack S, v)) in *.
    pose proof (calm_store f1 (stack S) v (stack_scratch S)) as Ca2. fold f2 in Ca2.
    pose proof (calm_intact _ _ Ca2 Hi1) as Hi2. pose proof (bytes_store f1 (stack S) v By1 Vb) as By2. fold f2 in By2.
    destruct (expr_executes i (L + l + 1) f2 Hi2 By2 Bi ltac:(lia) ltac:(lia) ltac:(lia) Ri Di v X1 Y ((S - 1) mod 256) P1 ltac:(lia))
      as (k2 & n2 & X2 & P2 & f3 & Hk2 & G2 & _ & Fr3 & By3).
    fold l2 in G2. pose proof (quiet_calm _ _ _ _ Fr3) as Ca3. pose proof (calm_intact _ _ Ca3 Hi2) as Hi3.
    pose proof (calm_trans _ _ _ Ca1 Ca2) as Ca12. pose proof (calm_trans _ _ _ Ca12 Ca3) as Ca13.
    destruct (value_calm f f2 i Ca12 By Ri) as [Ei _]. rewrite Ei in G2. set (x := value f i) in *.
    pose proof (i_tax p ram x X2 Y ((S - 1) mod 256) (L + l + 1 + l2) P2 f3 ltac:(lia) ltac:(byte)) as I2. one I2.
    pose proof (i_pla p ram x x Y ((S - 1) mod 256) (L + l + 1 + l2 + 1) (nzf P2 x) f3 ltac:(lia) ltac:(byte)) as I3. cbv zeta in I3.
    replace (((S - 1) mod 256 + 1) mod 256) with S in I3 by lia.
    replace (stack ((S - 1) mod 256 + 1)) with (stack S) in I3 by (unfold stack; lia).
    assert (Et : stack S <> t) by (intros E; apply Ht1; rewrite <- E; unfold stack, page_one; lia).
    assert (Es : f3 (stack S) = v).
    { rewrite Fr3; [apply store1_same|exact Et|]. intros (j & Hj & E). unfold stack in E. lia. }
    rewrite Es in I3. one I3.
    pose proof (Wa x Vbi) as Wx. pose proof Wx as ((Ux & Rx & _) & _).
    pose proof (i_sta_x p ram v x Y S (L + l + 1 + l2 + 1 + 1) (nzf (nzf P2 x) v) f3 a ltac:(lia) ltac:(byte) ltac:(byte) ltac:(byte)
      ltac:(unfold u16 in Ux; lia) Rx) as I4. one I4.
    eexists (k + (1 + (k2 + (1 + (1 + 1)))))%nat, _, _, x, _, _. split.
    { replace (L + (l + (1 + (l2 + 5)))) with (L + l + 1 + l2 + 1 + 1 + 3) by lia.
      eapply stays_app; [exact G|]. eapply stays_app; [eassumption|]. eapply stays_app; [exact G2|].
      eapply stays_app; [eassumption|]. eapply stays_app; eassumption. }
    rewrite Ev, Evi. fold v x. split; [apply set_calm; exact (calm_trans _ _ _ Ca Ca13)|].
    split; [apply store_intact; assumption|apply bytes_store; assumption].
  - destruct (placed_seq _ _ _ Pl) as (P1 & P2 & EL). rewrite <- EL.
    destruct (IH1 L P1 f A X Y S P St HS) as (k1 & n1 & A1 & X1 & F1 & f1 & G1 & St1).
    destruct (IH2 _ P2 f1 A1 X1 Y S F1 St1 HS) as (k2 & n2 & A2 & X2 & F2 & f2 & G2 & St2).
    eexists (k1 + k2)%nat, _, A2, X2, F2, f2. split; [eapply stays_app; eassumption|exact St2].
  - destruct (placed_if _ _ _ _ Pl) as (Bt & H0 & Ge & P1 & P2 & EL & H2 & Bj). rewrite <- EL.
    set (at1 := L + len (code t e) + 7) in *. set (at2 := at1 + len (compile t at1 c1) + 3) in *.
    pose proof (len_nonneg (compile t at1 c1)) as Hl1. pose proof (len_nonneg (code t e)) as Hl0.
    destruct (test_executes e at2 L s f St Bt H0 ltac:(unfold at2, at1 in *; lia) ltac:(unfold at2, at1 in *; lia) Ge A X Y S P HS) as (k & n & A1 & X1 & F1 & f1 & _ & G1 & St1).
    fold at1 in G1. destruct (value s e =? 0).
    + destruct (IH at2 P2 f1 A1 X1 Y S F1 St1 HS) as (k2 & n2 & A2 & X2 & F2 & f2 & G2 & St2).
      eexists (k + k2)%nat, _, A2, X2, F2, f2. split; [eapply stays_app; eassumption|exact St2].
    + destruct (IH at1 P1 f1 A1 X1 Y S F1 St1 HS) as (k2 & n2 & A2 & X2 & F2 & f2 & G2 & St2).
      pose proof (jump_executes _ _ f2 ltac:(apply St2) Bj ltac:(destruct P1 as (_ & ? & _); lia) ltac:(unfold at2 in H2; lia) A2 X2 Y S F2) as G3.
      eexists (k + (k2 + 1))%nat, _, A2, X2, F2, f2. split; [eapply stays_app; [exact G1|]; eapply stays_app; eassumption|exact St2].
  - destruct (placed_while _ _ _ Pl) as (Bt & H0 & Ge & P1 & EL & H2 & Bj). rewrite <- EL.
    set (at1 := L + len (code t e) + 7) in *. set (stop := at1 + len (compile t at1 c) + 3) in *.
    pose proof (len_nonneg (compile t at1 c)) as Hl1. pose proof (len_nonneg (code t e)) as Hl0.
    destruct (test_executes e stop L s f St Bt H0 ltac:(unfold stop, at1 in *; lia) ltac:(unfold stop, at1 in *; lia) Ge A X Y S P HS) as (k & n & A1 & X1 & F1 & f1 & _ & G1 & St1).
    rewrite Ez in G1. cbn [Z.eqb] in G1. exists k, n, A1, X1, F1, f1. split; assumption.
  - pose proof Pl as Pl'. destruct (placed_while _ _ _ Pl) as (Bt & H0 & Ge & P1 & EL & H2 & Bj).
    set (at1 := L + len (code t e) + 7) in *. set (stop := at1 + len (compile t at1 c) + 3) in *.
    pose proof (len_nonneg (compile t at1 c)) as Hl1. pose proof (len_nonneg (code t e)) as Hl0.
    destruct (test_executes e stop L s f St Bt H0 ltac:(unfold stop, at1 in *; lia) ltac:(unfold stop, at1 in *; lia) Ge A X Y S P HS) as (k & n & A1 & X1 & F1 & f1 & _ & G1 & St1).
    replace (value s e =? 0) with false in G1 by lia. fold at1 in G1.
    destruct (IH1 at1 P1 f1 A1 X1 Y S F1 St1 HS) as (k2 & n2 & A2 & X2 & F2 & f2 & G2 & St2).
    pose proof (jump_executes _ _ f2 ltac:(apply St2) Bj ltac:(destruct P1 as (_ & ? & _); lia) ltac:(unfold stop in H2; lia) A2 X2 Y S F2) as G3.
    destruct (IH2 L Pl' f2 A2 X2 Y S F2 St2 HS) as (k4 & n4 & A4 & X4 & F4 & f4 & G4 & St4).
    eexists (k + (k2 + (1 + k4)))%nat, _, A4, X4, F4, f4. split; [|exact St4].
    eapply stays_app; [exact G1|]. eapply stays_app; [exact G2|]. eapply stays_app; eassumption.
Qed.

(** Either the command ends, or the processor is still at it after [k] instructions. *)
Definition still (k : nat) (L : Z) (s : Z -> Z) : Prop := forall f A X Y S P, state_ok s f -> 0 <= S < 256 ->
  exists n r' f', go k n (mkRegs A X Y S L P) f r' f'.

Lemma still_or_ends k : forall c L s, (exists f, state_ok s f) -> placed L c -> (exists s', ends c s s') \/ still k L s.
Proof.
  induction k as [|k IHk].
  { intros c L s _ _. right. intros f A X Y S P _ _. exists 0%nat, (mkRegs A X Y S L P), f. constructor. }
  induction c as [|v e|a i e|c1 IH1 c2 IH2|e c1 IH1 c2 IH2|e c IH]; intros L s Ex Pl.
  - left. eexists. constructor.
  - left. eexists. constructor.
  - left. eexists. constructor.
  - destruct (placed_seq _ _ _ Pl) as (P1 & P2 & _).
    destruct (IH1 L s Ex P1) as [[s1 E1]|N]; [|right; exact N].
    pose proof (cmd_executes _ _ _ E1 L P1) as R1.
    assert (Ex1 : exists f, state_ok s1 f).
    { destruct Ex as [f St]. destruct (R1 f 0 0 0 0 (mkPs false false false false false false false false) St ltac:(lia)) as (? & ? & ? & ? & ? & f' & _ & St'). exists f'. exact St'. }
    destruct (IH2 _ s1 Ex1 P2) as [[s2 E2]|N]; [left; exists s2; econstructor; eassumption|].
    right. intros f A X Y S P St HS. destruct (R1 f A X Y S P St HS) as (k1 & n1 & A1 & X1 & F1 & f1 & G1 & St1).
    destruct (N f1 A1 X1 Y S F1 St1 HS) as (n2 & r2 & f2 & G2).
    pose proof (stays_app _ _ _ _ _ _ _ _ _ _ G1 _ _ _ _ G2) as G5.
    destruct (stays_take _ _ _ _ (Datatypes.S k) _ _ _ _ _ _ G5 ltac:(lia)) as (n & r & f' & G). exists n, r, f'. exact G.
  - destruct (placed_if _ _ _ _ Pl) as (Bt & H0 & Ge & P1 & P2 & EL & H2 & Bj).
    set (at1 := L + len (code t e) + 7) in *. set (at2 := at1 + len (compile t at1 c1) + 3) in *.
    pose proof (len_nonneg (compile t at1 c1)) as Hl1. pose proof (len_nonneg (code t e)) as Hl0.
    assert (T : forall f, state_ok s f -> forall A X Y S P, 0 <= S < 256 -> exists k n A' X' P' f', (1 <= k)%nat /\
      go k n (mkRegs A X Y S L P) f (mkRegs A' X' Y S (if value s e =? 0 then at2 else at1) P') f' /\ state_ok s f').
    { intros f St A X Y S P HS. apply (test_executes e at2 L s f St Bt H0 ltac:(unfold at2, at1 in *; lia) ltac:(unfold at2, at1 in *; lia) Ge A X Y S P HS). }
    assert (K : (exists s', ends (if value s e =? 0 then c2 else c1) s s') \/ still (Datatypes.S k) (if value s e =? 0 then at2 else at1) s).
    { destruct (value s e =? 0); [apply IH2|apply IH1]; assumption. }
    destruct K as [[s' E]|N]; [left; exists s'; constructor; exact E|]. right. intros f A X Y S P St HS.
    destruct (T f St A X Y S P HS) as (k1 & n1 & A1 & X1 & F1 & f1 & _ & G1 & St1).
    destruct (N f1 A1 X1 Y S F1 St1 HS) as (n2 & r2 & f2 & G2).
    pose proof (stays_app _ _ _ _ _ _ _ _ _ _ G1 _ _ _ _ G2) as G5.
    destruct (stays_take _ _ _ _ (Datatypes.S k) _ _ _ _ _ _ G5 ltac:(lia)) as (n & r & f' & G). exists n, r, f'. exact G.
  - destruct (placed_while _ _ _ Pl) as (Bt & H0 & Ge & P1 & EL & H2 & Bj).
    set (at1 := L + len (code t e) + 7) in *. set (stop := at1 + len (compile t at1 c) + 3) in *.
    pose proof (len_nonneg (compile t at1 c)) as Hl1. pose proof (len_nonneg (code t e)) as Hl0.
    assert (T : forall f, state_ok s f -> forall A X Y S P, 0 <= S < 256 -> exists k n A' X' P' f', (1 <= k)%nat /\
      go k n (mkRegs A X Y S L P) f (mkRegs A' X' Y S (if value s e =? 0 then stop else at1) P') f' /\ state_ok s f').
    { intros f St A X Y S P HS. apply (test_executes e stop L s f St Bt H0 ltac:(unfold stop, at1 in *; lia) ltac:(unfold stop, at1 in *; lia) Ge A X Y S P HS). }
    destruct (Z.eq_dec (value s e) 0) as [Ez|En]; [left; exists s; apply ends_stop; exact Ez|].
    replace (value s e =? 0) with false in T by lia.
    destruct (IH at1 s Ex P1) as [[s1 E1]|N].
    + pose proof (cmd_executes _ _ _ E1 at1 P1) as R1.
      assert (Ex1 : exists f, state_ok s1 f).
      { destruct Ex as [f St]. destruct (R1 f 0 0 0 0 (mkPs false false false false false false false false) St ltac:(lia)) as (? & ? & ? & ? & ? & f' & _ & St'). exists f'. exact St'. }
      destruct (IHk (While e c) L s1 Ex1 Pl) as [[s2 E2]|N]; [left; exists s2; eapply ends_again; eassumption|].
      right. intros f A X Y S P St HS.
      destruct (T f St A X Y S P HS) as (k1 & n1 & A1 & X1 & F1 & f1 & Hk & G1 & St1).
      destruct (R1 f1 A1 X1 Y S F1 St1 HS) as (k2 & n2 & A2 & X2 & F2 & f2 & G2 & St2).
      pose proof (jump_executes _ _ f2 ltac:(apply St2) Bj ltac:(destruct P1 as (_ & ? & _); lia) ltac:(unfold stop in H2; lia) A2 X2 Y S F2) as G3.
      destruct (N f2 A2 X2 Y S F2 St2 HS) as (n4 & r4 & f4 & G4).
      pose proof (stays_app _ _ _ _ _ _ _ _ _ _ G1 _ _ _ _ (stays_app _ _ _ _ _ _ _ _ _ _ G2 _ _ _ _ (stays_app _ _ _ _ _ _ _ _ _ _ G3 _ _ _ _ G4))) as G5.
      destruct (stays_take _ _ _ _ (Datatypes.S k) _ _ _ _ _ _ G5 ltac:(lia)) as (n & r & f' & G). exists n, r, f'. exact G.
    + right. intros f A X Y S P St HS.
      destruct (T f St A X Y S P HS) as (k1 & n1 & A1 & X1 & F1 & f1 & _ & G1 & St1).
      destruct (N f1 A1 X1 Y S F1 St1 HS) as (n2 & r2 & f2 & G2).
      pose proof (stays_app _ _ _ _ _ _ _ _ _ _ G1 _ _ _ _ G2) as G5.
    destruct (stays_take _ _ _ _ (Datatypes.S k) _ _ _ _ _ _ G5 ltac:(lia)) as (n & r & f' & G). exists n, r, f'. exact G.
Qed.
End Language.
